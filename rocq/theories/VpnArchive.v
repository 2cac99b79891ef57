(** * VpnArchive: OpenVPN through the archive (proofs only) *)
From Verif Require Import PyBase PyLemmas StrLemmas SortLemmas NumLemmas Files FilesProofs SpecFiles Uci SpecUci SpecUciMore UciProofs UciParseProofs UciRoundTrip UciMore ConvLemmas VpnText SpecVpn VpnProofs.

Lemma reads_functional v a b : vpn_reads v a -> vpn_reads v b -> a = b.
Proof. intros (A1 & A2) (B1 & B2). apply sorted_ext; try assumption. intros k. now rewrite A2, B2. Qed.
Lemma Forall2_functional {A B} (R : A -> B -> Prop) l m n : (forall a b c, R a b -> R a c -> b = c) -> Forall2 R l m -> Forall2 R l n -> m = n.
Proof.
  intros H F. revert n. induction F as [|a b l m Hab F IH]; intros n G; inversion G; subst; [reflexivity|]. f_equal; eauto.
Qed.
Lemma parse_same l l' : (forall p, In p l -> vpn_ok (fst p)) -> map fst l' = map fst l -> parse_openvpn (vtext l') = parse_openvpn (vtext l).
Proof.
  intros H E. destruct (parse_vtext l H) as (a & -> & Fa). destruct (parse_vtext l') as (b & -> & Fb).
  - intros p Hp. assert (Hi : In (fst p) (map fst l)) by (rewrite <- E; now apply in_map). apply in_map_iff in Hi as (q & <- & Hq). auto.
  - rewrite E in Fb. now rewrite (Forall2_functional _ _ _ _ reads_functional Fa Fb).
Qed.
(** ** The members *)
Definition vname (v : dict) : string := tpl_get "name" v.
Definition vcontents (p : dict * nat) : string :=
  match items (fst p) with
  | [] => nls (Nat.min 1 (snd p))
  | i :: is => i +++ J is +++ nls (S (if (snd p =? 0)%nat then 0 else snd p - 1))
  end.
Definition regap_vpn (p : dict * nat) : dict * nat :=
  (fst p, match items (fst p) with [] => S (Nat.min 1 (snd p)) | _ => if (snd p =? 0)%nat then 1 else snd p end).
Lemma before_none sub s : contains sub s = false -> before sub s = s.
Proof.
  induction s as [|c s IH]; cbn [contains before]; intros H.
  - destruct (startswith sub ""); reflexivity.
  - apply orb_false_iff in H as (H1 & H2). rewrite H1, IH by assumption. reflexivity.
Qed.
Lemma nls_snoc n : nls (S n) = nls n +++ NL.
Proof. induction n as [|n IH]; [reflexivity|]. rewrite nls_S, IH at 1. reflexivity. Qed.
Lemma tight_no_nn x n : tight x -> endswith (NL +++ NL) (x +++ nls n) = (1 <? n)%nat.
Proof.
  intros T. destruct n as [|[|n]].
  - cbn [nls repeat fold_right]. rewrite app_nil_s. destruct (endswith (NL +++ NL) x) eqn:E; [|reflexivity]. exfalso. apply endswith_true in E as (r & ->).
    destruct T as (_ & _ & T). specialize (T (r +++ NL) NLc). rewrite app_assoc_s in T. specialize (T eq_refl). discriminate T.
  - change (nls 1) with NL. destruct (endswith (NL +++ NL) (x +++ NL)) eqn:E; [|reflexivity]. exfalso. apply endswith_true in E as (r & E).
    rewrite <- app_assoc_s in E. assert (E' : x = r +++ NL) by (apply (f_equal sinit) in E; unfold NL in E; rewrite !sinit_snoc in E; exact E). subst x.
    destruct T as (_ & _ & T). specialize (T r NLc eq_refl). discriminate T.
  - rewrite !nls_snoc. rewrite !app_assoc_s, <- app_assoc_s. apply endswith_nn.
Qed.
Lemma vpn_contents p : vpn_ok (fst p) -> snd p <= 1 -> exists lines,
  split_char NLc (piece (fst p) +++ nls (S (snd p))) = vname (fst p) :: lines /\
  (let c := join NL (skipn 2 (vname (fst p) :: lines)) in if endswith (NL +++ NL) c then sinit c else c) = vcontents p.
Proof.
  intros Hv Hn. destruct (vpn_ok_wellformed _ Hv) as ((N & Q) & _). destruct p as [v n]. cbn [fst snd] in *.
  unfold piece, vname. rewrite app_assoc_s, nls_J, <- J_app. exists (("" :: items v) ++ repeat "" (S n))%list. split.
  - apply split_J; [apply line_text_facts, N|]. rewrite forallb_app_iff, oneline_repeat, andb_true_r. apply forallb_forall. intros x [<- | Hx]; [reflexivity | now apply Q].
  - cbn [app skipn]. unfold vcontents. cbn [fst snd]. destruct (items v) as [|i is] eqn:Ei.
    + cbn [app]. rewrite join_repeat. cbn [Nat.sub]. rewrite Nat.sub_0_r. destruct n as [|[|n]]; [reflexivity | reflexivity | lia].
    + cbn [app]. rewrite join_J, J_app, <- nls_J. cbv zeta. assert (T : tight (i +++ J is)) by (apply tight_lines; intros; apply Q; [now left | now right]).
      rewrite <- app_assoc_s. rewrite tight_no_nn by exact T. destruct n as [|[|n]]; [|  |lia].
      * cbn [Nat.ltb Nat.leb Nat.eqb]. now rewrite app_assoc_s.
      * cbn [Nat.ltb Nat.leb Nat.eqb Nat.sub]. rewrite (nls_snoc 1), <- app_assoc_s. unfold NL at 1. rewrite sinit_snoc. now rewrite app_assoc_s.
Qed.
Lemma regap_vpn_text p rest : snd p <= 1 -> "# openvpn config: " +++ vname (fst p) +++ NL +++ NL +++ vcontents p +++ NL +++ rest =
  block (fst (regap_vpn p)) +++ nls (S (snd (regap_vpn p))) +++ rest.
Proof.
  destruct p as [v n]. unfold regap_vpn, vcontents, block, vpn_header, vname. cbn [fst snd]. intros Hn. rewrite !app_assoc_s. f_equal. f_equal.
  destruct (items v) as [|i is].
  - destruct n as [|[|n]]; [reflexivity | reflexivity | lia].
  - cbn [J]. rewrite !app_assoc_s. destruct n as [|[|n]]; [reflexivity | reflexivity | lia].
Qed.
Definition vpn_member (p : dict * nat) : member :=
  {| m_name := vname (fst p) +++ conf_suffix; m_mode := 420; m_mtime := 0; m_data := vcontents p |}.
Lemma vcontents_ascii p : ascii_text (block (fst p)) -> ascii_text (vcontents p).
Proof.
  destruct p as [v n]. unfold vcontents, block. cbn [fst snd]. intros H. destruct (items v) as [|i is]; [apply nls_ascii|].
  cbn [J] in H. rewrite !ascii_app in H. rewrite !ascii_app. pose proof (nls_ascii (S (if (n =? 0)%nat then 0 else n - 1))). tauto.
Qed.
Lemma vtext_ascii l : ascii_text (vtext l) -> forall p, In p l -> ascii_text (block (fst p)).
Proof.
  induction l as [|x l IH]; intros H p []; cbn [vtext fold_right] in H; fold (vtext l) in H; rewrite !ascii_app in H; [subst x; tauto | apply IH; tauto].
Qed.
Lemma generate_vpn_members l : (forall p, In p l -> vpn_ok (fst p) /\ snd p <= 1 /\ contains conf_suffix (vname (fst p)) = false) -> ascii_text (vtext l) ->
  generate_vpns openvpn_header conf_suffix (vtext l) [] = Ok (map vpn_member l).
Proof.
  intros Hok Ha. unfold generate_vpns, re_split. rewrite split_vtext by (intros p Hp; apply vpn_ok_wellformed, Hok, Hp). change (srev "") with EmptyString.
  cbn [remove_first_empty]. rewrite eqb_refl. pose proof (vtext_ascii l Ha) as Hasc. clear Ha.
  change (map vpn_member l) with ([] ++ map vpn_member l)%list. generalize (@nil member).
  induction l as [|p l IH]; intros tar; [cbn; rewrite app_nil_r; reflexivity|]. cbn [map foldM].
  destruct (Hok _ (or_introl eq_refl)) as (H1 & H2 & H3). destruct (vpn_contents p H1 H2) as (lines & E1 & E2). rewrite E1. cbv zeta in E2 |- *. rewrite E2.
  rewrite before_none by exact H3. unfold add_file at 1. change (parse_mode DEFAULT_FILE_MODE) with (Some 420%N). cbn [bind].
  assert (Hc : ascii_text (vcontents p)) by (apply vcontents_ascii, Hasc; left; reflexivity).
  rewrite (utf8_ascii _ Hc), stake_all. rewrite IH by (intros x Hx; (apply Hok || apply Hasc); right; exact Hx). rewrite <- app_assoc. reflexivity.
Qed.
Lemma strip_conf n : contains conf_suffix n = false -> replace conf_suffix EmptyString (n +++ conf_suffix) = n.
Proof.
  induction n as [|c n IH]; intros H; [reflexivity|]. cbn [contains] in H. apply orb_false_iff in H as (H1 & H2).
  cbn [String.append]. rewrite replace_miss; [now rewrite IH|]. clear IH H2. unfold conf_suffix in *. cbn [startswith] in *.
  destruct (Ascii.eqb "." c) eqn:E; [|reflexivity]. cbn [andb] in *. destruct n as [|d n]; [reflexivity|]. cbn [startswith String.append] in *.
  destruct (Ascii.eqb "c" d); [|reflexivity]. cbn [andb] in *. destruct n as [|e n]; [reflexivity|]. cbn [startswith String.append] in *.
  destruct (Ascii.eqb "o" e); [|reflexivity]. cbn [andb] in *. destruct n as [|f n]; [reflexivity|]. cbn [startswith String.append] in *.
  destruct (Ascii.eqb "n" f); [|reflexivity]. cbn [andb] in *. destruct n as [|g n]; [reflexivity|]. cbn [startswith String.append] in *. exact H1.
Qed.
Lemma vpn_tar_text l : (forall p, In p l -> snd p <= 1 /\ contains conf_suffix (vname (fst p)) = false /\ ascii_text (block (fst p))) ->
  forall extra, (forall m, In m extra -> endswith conf_suffix (m_name m) = false) ->
  openvpn_tar_text (map vpn_member l ++ extra) = Ok (vtext (map regap_vpn l)).
Proof.
  intros Hp extra He. unfold openvpn_tar_text. match goal with |- foldM ?f _ _ = _ => set (step := f) end.
  assert (Hx : forall text, foldM step text extra = Ok text).
  { clear -He. induction extra as [|m extra IH]; intros text; [reflexivity|]. cbn [foldM].
    replace (step text m) with (@Ok string text) by (unfold step; rewrite (He m (or_introl eq_refl)); reflexivity). cbn [bind]. apply IH. intros x Hx; apply He; right; exact Hx. }
  enough (G : forall text, foldM step text (map vpn_member l ++ extra) = Ok (text +++ vtext (map regap_vpn l))) by apply G.
  induction l as [|p l IH]; intros text; [cbn [map app vtext fold_right]; rewrite Hx, app_nil_s; reflexivity|].
  destruct (Hp _ (or_introl eq_refl)) as (H1 & H2 & H3). cbn [map app foldM].
  replace (step text (vpn_member p)) with (@Ok string (text +++ "# openvpn config: " +++ vname (fst p) +++ NL +++ NL +++ vcontents p +++ NL)).
  2:{ unfold step, vpn_member. cbn [m_name m_data]. assert (Ee : endswith conf_suffix (vname (fst p) +++ conf_suffix) = true) by (apply endswith_true; eauto). rewrite Ee.
      rewrite (utf8_decode_ascii _ (vcontents_ascii _ H3)). rewrite strip_conf by exact H2. reflexivity. }
  cbn [bind]. rewrite IH by (intros x Hx'; apply Hp; right; exact Hx'). f_equal.
  cbn [vtext fold_right map]. fold (vtext (map regap_vpn l)). rewrite <- regap_vpn_text by exact H1. now rewrite !app_assoc_s.
Qed.
Lemma regap_vpn_fst l : map fst (map regap_vpn l) = map fst l.
Proof. induction l as [|q l IH]; [reflexivity|]. cbn [map]. rewrite IH. reflexivity. Qed.
Theorem vpn_archive data vs text config files tar tar' :
  dget "openvpn" data = Some (VList (map VDict vs)) -> vs <> [] -> Forall vpn_ok vs ->
  (forall v n, In v vs -> dget "name" v = Some (VStr n) -> contains ".conf" n = false) ->
  render_openvpn data = Ok text -> ascii_text text -> get_files config = Ok files ->
  (forall f p q, In f files -> file_path f p -> relative_of p q -> endswith ".conf" q = false) ->
  generate_vpns openvpn_header conf_suffix text [] = Ok tar -> process_files config tar = Ok tar' ->
  parse_openvpn_tar tar' = Ok (parse_openvpn text).
Proof.
  intros Hd Hn H Hc Hr Ha Hfs Hfp Hg Hf. destruct (exists_last Hn) as (ws & w & ->).
  unfold render_openvpn, vpns_of in Hr. rewrite Hd, blocks_map in Hr. cbn [bind] in Hr. unfold vpn_cleanup in Hr. change "    " with S4 in Hr.
  rewrite openvpn_clears in Hr by (now apply vpns_S4). rewrite K_vpns in Hr. cbv zeta in Hr. rewrite cleanup_vtext in Hr. injection Hr as <-.
  set (l := (map (fun v => (v, 1)) ws ++ [(w, 0)])%list) in *. assert (El : map fst l = (ws ++ [w])%list) by (unfold l; rewrite map_app, map_map, map_id; reflexivity).
  assert (Hl : forall p, In p l -> vpn_ok (fst p) /\ snd p <= 1 /\ contains conf_suffix (vname (fst p)) = false).
  { intros p Hp. assert (Hi : In (fst p) (ws ++ [w])) by (rewrite <- El; now apply in_map). rewrite Forall_forall in H. pose proof (H _ Hi) as Hv. split; [exact Hv|]. split.
    - unfold l in Hp. apply in_app_iff in Hp as [Hp | [<- | []]]; [apply in_map_iff in Hp as (v & <- & _); cbn; lia | cbn; lia].
    - destruct Hv as (_ & (n & Hnm & _) & _). unfold vname, tpl_get. rewrite Hnm. exact (Hc _ _ Hi Hnm). }
  clearbody l. rewrite generate_vpn_members in Hg by assumption. injection Hg as <-.
  apply process_files_spec in Hf as (files' & ms & Hf & HF & ->). rewrite Hfs in Hf. injection Hf as <-.
  unfold parse_openvpn_tar. rewrite vpn_tar_text.
  - cbn [bind]. f_equal. apply parse_same; [intros p Hp; apply Hl, Hp | apply regap_vpn_fst].
  - intros p Hp. destruct (Hl p Hp) as (_ & L1 & L2). split; [exact L1|]. split; [exact L2 | now apply (vtext_ascii l)].
  - intros m Hm. destruct (Forall2_In_r _ _ _ _ HF Hm) as (f & Hin & d & p & c & mode & n & -> & Hpth & _ & _ & _ & ->). cbn [m_name].
    eapply Hfp; [exact Hin| |apply relative_of_member]. exists d. auto.
Qed.
