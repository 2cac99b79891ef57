(** * VpnProofs: text round trip of OpenVPN *)
From Verif Require Import PyBase PyLemmas StrLemmas SortLemmas NumLemmas Files FilesProofs Uci SpecUci UciProofs UciParseProofs UciRoundTrip UciMore ConvLemmas VpnText SpecVpn.

(** ** Lines of one VPN *)
Definition arg_line (k : string) (a : option string) : string := match a with Some s => vpn_line k s | None => k end.
Definition item_lines (kv : string * val) : list string :=
  if String.eqb (dashes (fst kv)) "name" then [] else map (arg_line (dashes (fst kv))) (arguments (snd kv)).
Definition vpn_header (v : dict) : string := "# openvpn config: " +++ tpl_get "name" v.
Definition vpn_lines (v : dict) : list string := (vpn_header v :: EmptyString :: flat_map item_lines v ++ [EmptyString])%list.

Lemma clears_indent n l : contains S4 l = false -> clears (spaces (4 * n) +++ l +++ NL) (l +++ NL).
Proof. intros H. apply (clears_app (spaces (4 * n)) (l +++ NL) EmptyString (l +++ NL)); [apply clears_sp | now apply clears_line]. Qed.
Lemma clears_one n m l : contains S4 l = false -> clears (spaces (4 * n) +++ l +++ NL +++ spaces (4 * m)) (l +++ NL).
Proof.
  intros H. replace (spaces (4 * n) +++ l +++ NL +++ spaces (4 * m)) with ((spaces (4 * n) +++ l +++ NL) +++ spaces (4 * m)) by (now rewrite !app_assoc_s).
  eapply clears_eq; [apply clears_app; [now apply clears_indent | apply clears_sp]|]. apply app_nil_s.
Qed.
Lemma clears_wrap n m raw clean : clears raw clean -> clears (spaces (4 * n) +++ raw +++ spaces (4 * m)) clean.
Proof.
  intros H. eapply clears_eq; [apply clears_app; [apply clears_sp | apply clears_app; [exact H | apply clears_sp]]|]. cbn. apply app_nil_s.
Qed.
Lemma K_one l : K [l] = l +++ NL.
Proof. reflexivity. Qed.
Lemma list_lines_clear {A} (t : A -> string) key (l : list A) : (forall x, In x l -> contains S4 (vpn_line key (t x)) = false) ->
  clears (spaces 16 +++ fold_right (fun x acc => (spaces 20 +++ vpn_line key (t x) +++ NL +++ spaces 16) +++ acc) EmptyString l +++ spaces 12)
         (K (map (fun x => vpn_line key (t x)) l)).
Proof.
  intros H. apply (clears_wrap 4 3). eapply clears_eq; [apply (clears_fold _ (fun x => vpn_line key (t x) +++ NL))|].
  - intros x Hx. apply (clears_one 5 4). now apply H.
  - clear H. induction l as [|x l IH]; [reflexivity|]. cbn [fold_right map K] in *. now rewrite IH, app_assoc_s.
Qed.
Lemma value_clears key v : (forall l, In l (map (arg_line key) (arguments v)) -> contains S4 l = false) ->
  clears (tpl_vpn_value key v) (K (map (arg_line key) (arguments v))).
Proof.
  intros H. destruct v as [|[]|z|r|s|l|d]; cbn [tpl_vpn_value arguments map arg_line] in *; rewrite ?K_one.
  - exact clears_nil.
  - apply (clears_one 4 3). apply H. now left.
  - apply (clears_one 4 3). apply H. now left.
  - apply (clears_one 4 3). apply H. now left.
  - apply (clears_one 4 3). apply H. now left.
  - apply (clears_one 4 3). apply H. now left.
  - rewrite map_map in *. cbn [arg_line] in *. apply list_lines_clear. intros x Hx. apply H. now apply (in_map (fun x => vpn_line key (py_str x))).
  - rewrite map_map in *. cbn [arg_line] in *. apply list_lines_clear. intros x Hx. apply H. now apply (in_map (fun x => vpn_line key (fst x))).
Qed.
Lemma item_clears kv : (forall l, In l (item_lines kv) -> contains S4 l = false) -> clears (tpl_vpn_item kv) (K (item_lines kv)).
Proof.
  intros H. unfold tpl_vpn_item, item_lines in *. cbv zeta. destruct (String.eqb (dashes (fst kv)) "name").
  - exact (clears_sp 5).
  - replace (spaces 8 +++ spaces 8 +++ (spaces 12 +++ tpl_vpn_value (dashes (fst kv)) (snd kv) +++ spaces 8) +++ spaces 4)
      with (spaces (4 * 7) +++ tpl_vpn_value (dashes (fst kv)) (snd kv) +++ spaces (4 * 3)).
    + apply clears_wrap. now apply value_clears.
    + rewrite !app_assoc_s. reflexivity.
Qed.
Lemma vpn_clears v : (forall l, In l (vpn_lines v) -> contains S4 l = false) -> clears (tpl_vpn v) (K (vpn_lines v)).
Proof.
  intros H. unfold tpl_vpn. set (F := fold_right (fun kv acc => tpl_vpn_item kv +++ acc) "" v).
  assert (E : "# openvpn config: " +++ tpl_get "name" v +++ NL +++ NL +++ spaces 4 +++ F +++ NL =
    (vpn_header v +++ NL) +++ ((EmptyString +++ NL) +++ (spaces (4 * 1) +++ (F +++ (EmptyString +++ NL))))) by (unfold vpn_header; rewrite !app_assoc_s; reflexivity).
  rewrite E. eapply clears_eq.
  - apply clears_app; [apply clears_line, H; now left|]. apply clears_app; [exact (clears_line "" eq_refl)|]. apply clears_app; [apply clears_sp|].
    apply clears_app; [|exact (clears_line "" eq_refl)]. apply (clears_fold _ (fun kv => K (item_lines kv))).
    intros kv Hkv. apply item_clears. intros l Hl. apply H. right. right. apply in_app_iff. left. apply in_flat_map. eauto.
  - rewrite fold_K. unfold vpn_lines. change (K (vpn_header v :: "" :: flat_map item_lines v ++ [""])) with (vpn_header v +++ NL +++ "" +++ NL +++ K (flat_map item_lines v ++ [""])).
    rewrite K_app, !app_assoc_s. reflexivity.
Qed.
Definition vpns_lines (vs : list dict) : list string := flat_map vpn_lines vs.
Lemma openvpn_clears vs : (forall l, In l (vpns_lines vs) -> contains S4 l = false) ->
  replace S4 EmptyString (fold_right (fun v acc => tpl_vpn v +++ acc) EmptyString vs) = K (vpns_lines vs).
Proof.
  intros H. unfold vpns_lines. rewrite <- fold_K.
  assert (C : clears (fold_right (fun v acc => tpl_vpn v +++ acc) EmptyString vs) (fold_right (fun x acc => K (vpn_lines x) +++ acc) "" vs)).
  { apply clears_fold. intros v Hv. apply vpn_clears. intros l Hl. apply H. apply in_flat_map. eauto. }
  specialize (C EmptyString). rewrite app_nil_s in C. rewrite C. apply app_nil_s.
Qed.

(** ** Option names *)
Fixpoint smap (f : ascii -> ascii) (s : string) : string := match s with EmptyString => EmptyString | String c s => String (f c) (smap f s) end.
Lemma replace_char a b s : replace (String a "") (String b "") s = smap (fun c => if Ascii.eqb a c then b else c) s.
Proof.
  induction s as [|c s IH]; [reflexivity|]. cbn [smap]. destruct (Ascii.eqb_spec a c) as [<- | Hn].
  - change (String a s) with (String a "" +++ s). rewrite replace_hit, IH. reflexivity.
  - rewrite replace_miss by (cbn; rewrite (proj2 (Ascii.eqb_neq a c)) by assumption; reflexivity). now rewrite IH.
Qed.
Lemma dashes_smap s : dashes s = smap (fun c => if Ascii.eqb "_" c then "-"%char else c) s. Proof. apply replace_char. Qed.
Lemma underscores_smap s : underscores s = smap (fun c => if Ascii.eqb "-" c then "_"%char else c) s. Proof. apply replace_char. Qed.
Lemma smap_forall f p q s : (forall c, p c = true -> q (f c) = true) -> sforall p s = true -> sforall q (smap f s) = true.
Proof.
  intros H. induction s as [|c s IH]; [reflexivity|]. cbn. rewrite !andb_true_iff. intros (H1 & H2). auto.
Qed.
Lemma dashes_back k : no_char "-"%char k -> underscores (dashes k) = k.
Proof.
  intros H. apply no_char_spec in H. rewrite underscores_smap, dashes_smap. induction k as [|c k IH]; [reflexivity|].
  rewrite nochar_cons in H. apply andb_true_iff in H as (H1 & H2). cbn [smap]. rewrite IH by assumption. f_equal.
  destruct (Ascii.eqb_spec "_" c) as [<- | Hn]; [reflexivity|]. destruct (Ascii.eqb_spec "-" c) as [<- | Hm]; [discriminate | reflexivity].
Qed.
Lemma dashes_nonempty k : k <> EmptyString -> dashes k <> EmptyString.
Proof. rewrite dashes_smap. destruct k; [congruence | discriminate]. Qed.
Lemma dashes_spaceless k : sforall (fun c => negb (is_space c)) k = true -> sforall (fun c => negb (is_space c)) (dashes k) = true.
Proof. rewrite dashes_smap. apply smap_forall. intros c H. destruct (Ascii.eqb_spec "_" c); [reflexivity | assumption]. Qed.
Lemma dashes_name k : option_name k -> String.eqb (dashes k) "name" = false.
Proof.
  intros (_ & _ & Hd & _ & Hn). apply eqb_neq. intros E. apply Hn. rewrite <- (dashes_back k Hd), E. reflexivity.
Qed.
Lemma startswith_spaceless c p k Y : sforall (fun c => negb (is_space c)) k = true -> is_space c = true -> k <> EmptyString ->
  startswith (String "#" (String c p)) (k +++ Y) = true -> k = "#".
Proof.
  intros Hk Hc Hn H. destruct k as [|x k]; [congruence|]. cbn [String.append startswith] in H. apply andb_true_iff in H as (H1 & H2). apply Ascii.eqb_eq in H1 as <-.
  destruct k as [|y k]; [reflexivity|]. exfalso. cbn [String.append startswith] in H2. apply andb_true_iff in H2 as (H1 & _). apply Ascii.eqb_eq in H1 as <-.
  cbn in Hk. rewrite Hc in Hk. discriminate.
Qed.
Lemma dashes_hash k : dashes k = "#" -> k = "#".
Proof.
  rewrite dashes_smap. destruct k as [|x [|y k]]; try discriminate. cbn [smap]. destruct (Ascii.eqb_spec "_" x) as [_ | _]; [intros E; discriminate E | auto].
Qed.

(** ** Argument lines *)
Definition arg_ok (a : option string) : Prop := forall s, a = Some s -> line_text s.
Lemma spaceless_oneline k : sforall (fun c => negb (is_space c)) k = true -> oneline k = true.
Proof.
  unfold oneline, nochar. intros H. induction k as [|c k IH]; [reflexivity|]. cbn in *. apply andb_true_iff in H as (H1 & H2). rewrite IH by assumption.
  destruct (Ascii.eqb_spec c NLc) as [-> | Hn]; [discriminate | reflexivity].
Qed.
Lemma spaceless_noblank k : sforall (fun c => negb (is_space c)) k = true -> nochar " " k = true.
Proof.
  unfold nochar. intros H. induction k as [|c k IH]; [reflexivity|]. cbn in *. apply andb_true_iff in H as (H1 & H2). rewrite IH by assumption.
  destruct (Ascii.eqb_spec c " ") as [-> | Hn]; [discriminate | reflexivity].
Qed.
Lemma line_text_facts s : line_text s -> tight s /\ oneline s = true /\ contains S4 s = false /\ contains S4 (" " +++ s) = false.
Proof.
  intros (H1 & H2 & H3 & H4). pose proof (strip_id_tight s H2 H1) as T. apply no_char_spec in H3. repeat split; try assumption; try apply T.
  change (" " +++ s) with (String " " s). cbn [contains]. unfold S4. rewrite H4, orb_false_r. destruct s as [|c s]; [reflexivity|].
  destruct T as (_ & T & _). specialize (T c s eq_refl). cbn [startswith]. change (Ascii.eqb " " " ") with true. rewrite andb_true_l.
  destruct (Ascii.eqb_spec " " c) as [E | Hn]; [rewrite <- E in T; discriminate T | reflexivity].
Qed.
Lemma arg_facts k a : option_name k -> arg_ok a ->
  oneline (arg_line (dashes k) a) = true /\ contains S4 (arg_line (dashes k) a) = false /\ tight (arg_line (dashes k) a) /\
  (forall Y, startswith openvpn_header (arg_line (dashes k) a +++ Y) = false) /\
  forall acc, parse_vpn_line acc (arg_line (dashes k) a) = dset k (argument_value a) acc.
Proof.
  intros Hk Ha. pose proof Hk as (K1 & K2 & K3 & K4 & K5). pose proof (dashes_nonempty k K1) as D1. pose proof (dashes_spaceless k K2) as D2.
  pose proof (dashes_back k K3) as D3. assert (D4 : dashes k <> "#") by (intros E; apply K4, dashes_hash, E).
  pose proof (spaceless_tight _ D1 D2) as T. pose proof (spaceless_oneline _ D2) as O. pose proof (spaceless_noblank _ D2) as B.
  assert (H1 : oneline (arg_line (dashes k) a) = true /\ contains S4 (arg_line (dashes k) a) = false /\ tight (arg_line (dashes k) a)).
  { destruct a as [s|]; cbn [arg_line].
    - destruct (line_text_facts s (Ha s eq_refl)) as (Ts & Os & Cs & Cs'). unfold vpn_line. split; [unfold oneline; rewrite !nochar_app; unfold oneline in O, Os; rewrite O, Os; reflexivity|].
      split; [unfold S4 in *; rewrite contains_skip by exact B; exact Cs'|]. apply tight_app; assumption.
    - split; [exact O|]. split; [apply contains_nochar, B | exact T]. }
  destruct H1 as (H1 & H2 & H3). split; [exact H1|]. split; [exact H2|]. split; [exact H3|]. split.
  - intros Y. destruct (startswith openvpn_header (arg_line (dashes k) a +++ Y)) eqn:E; [|reflexivity]. exfalso. apply D4.
    destruct a as [s|]; cbn [arg_line] in E; [unfold vpn_line in E; rewrite app_assoc_s in E|];
      eapply startswith_spaceless; try exact E; auto.
  - intros acc. unfold parse_vpn_line. assert (Es : strip (arg_line (dashes k) a) = arg_line (dashes k) a).
    { pose proof (strip_tight _ "" "" H3 eq_refl eq_refl) as E. cbn in E. now rewrite app_nil_s in E. }
    rewrite Es. destruct H3 as (H3 & _). rewrite eqb_neq by exact H3. unfold vpn_option. destruct a as [s|]; cbn [arg_line argument_value].
    + unfold vpn_line. change (" " +++ s) with (String " " s). rewrite span_app by (exact D2 || reflexivity). cbn [Ascii.eqb]. change (Ascii.eqb " " " ") with true. cbv iota.
      destruct (line_text_facts s (Ha s eq_refl)) as ((Ts & _) & _). rewrite (eqb_neq s) by exact Ts. now rewrite D3.
    + assert (Sp : span (fun c => negb (is_space c)) (dashes k) = (dashes k, "")).
      { clear -D2. induction (dashes k) as [|c x IH]; [reflexivity|]. cbn in *. apply andb_true_iff in D2 as (H1 & H2). rewrite H1, IH by assumption. reflexivity. }
      rewrite Sp. cbn. now rewrite D3.
Qed.

(** ** The text as blocks *)
Definition items (v : dict) : list string := flat_map item_lines v.
Definition block (v : dict) : string := vpn_header v +++ J (EmptyString :: items v).
Definition vtext (l : list (dict * nat)) : string := fold_right (fun p acc => block (fst p) +++ nls (S (snd p)) +++ acc) EmptyString l.
Lemma K_block v : K (vpn_lines v) = block v +++ nls 2.
Proof.
  unfold vpn_lines, block. rewrite K_J. rewrite <- app_comm_cons, <- app_assoc. cbn [app]. change ("" :: flat_map item_lines v ++ [""; ""])%list with (("" :: items v) ++ [""; ""])%list.
  rewrite J_app, !app_assoc_s. reflexivity.
Qed.
Lemma K_vpns vs : K (vpns_lines vs) = vtext (map (fun v => (v, 1)) vs).
Proof.
  unfold vpns_lines. rewrite <- fold_K. induction vs as [|v vs IH]; [reflexivity|]. cbn [fold_right map vtext fst snd] in *. rewrite IH, K_block, app_assoc_s. reflexivity.
Qed.
Lemma vtext_app a b : vtext (a ++ b) = vtext a +++ vtext b.
Proof. induction a as [|x a IH]; [reflexivity|]. cbn [app vtext fold_right]. fold (vtext (a ++ b)) (vtext a). now rewrite IH, !app_assoc_s. Qed.
Lemma cleanup_vtext vs v : let t := vtext (map (fun v => (v, 1)) (vs ++ [v])) in
  (if endswith (NL +++ NL) t then sinit t else t) = vtext (map (fun v => (v, 1)) vs ++ [(v, 0)]).
Proof.
  cbv zeta. assert (E : exists X, vtext (map (fun v => (v, 1)) (vs ++ [v])) = X +++ NL +++ NL /\ vtext (map (fun v => (v, 1)) vs ++ [(v, 0)]) = X +++ NL).
  { exists (vtext (map (fun v => (v, 1)) vs) +++ block v). rewrite map_app, !vtext_app, !app_assoc_s. split; reflexivity. }
  destruct E as (X & E1 & E2). rewrite E1, E2, endswith_nn. unfold NL. rewrite <- app_assoc_s. apply sinit_snoc.
Qed.
Definition numbered (vs : list dict) (l : list (dict * nat)) : Prop := map fst l = vs.
Lemma blocks_map vs : blocks_of (VList (map VDict vs)) = Ok vs.
Proof. unfold blocks_of. cbn [as_list bind]. induction vs as [|x l IH]; [reflexivity|]. cbn [map mapM bind as_dict]. rewrite IH. reflexivity. Qed.
Lemma render_vtext data vs : dget "openvpn" data = Some (VList (map VDict vs)) -> vs <> [] -> (forall l, In l (vpns_lines vs) -> contains S4 l = false) ->
  exists l, numbered vs l /\ render_openvpn data = Ok (vtext l).
Proof.
  intros Hd Hn H. destruct (exists_last Hn) as (ws & v & ->). exists (map (fun v => (v, 1)) ws ++ [(v, 0)])%list. split.
  - unfold numbered. rewrite map_app, map_map, map_id. reflexivity.
  - unfold render_openvpn, vpns_of. rewrite Hd, blocks_map. cbn [bind]. unfold vpn_cleanup. change "    " with S4. rewrite openvpn_clears by assumption. rewrite K_vpns. f_equal. apply cleanup_vtext.
Qed.

(** ** Splitting *)
Definition quiet (kw x : string) : Prop := oneline x = true /\ (x = EmptyString \/ forall Y, startswith kw (x +++ Y) = false).
Lemma split_quiet kw ls : startswith kw NL = false -> nochar NLc kw = true -> (forall x, In x ls -> quiet kw x) -> forall b cur Y,
  exists b', split_bol kw b 0 cur (J ls +++ Y) = split_bol kw b' 0 (srev_onto (J ls) cur) Y.
Proof.
  intros H1 H2. induction ls as [|x ls IH]; intros H b cur Y; [exists b; reflexivity|].
  cbn [J]. unfold NL. cbn [String.append srev_onto]. rewrite split_nl by assumption. destruct (H x (or_introl eq_refl)) as (O & Q).
  assert (H' : forall x, In x ls -> quiet kw x) by (intros; apply H; now right). rewrite app_assoc_s.
  destruct x as [|c x].
  - cbn [String.append]. apply IH, H'.
  - destruct Q as [Q|Q]; [discriminate|]. rewrite split_line by auto.
    destruct (IH H' false (srev_onto (String c x) (String NLc cur)) Y) as (b' & E). exists b'. rewrite E. f_equal. apply srev_inj. now rewrite !srev_srev_onto, !app_assoc_s.
Qed.

Lemma split_hit_vpn cur Y : split_bol openvpn_header true 0 cur (openvpn_header +++ " " +++ Y) = srev cur :: split_bol openvpn_header false 0 EmptyString Y.
Proof. reflexivity. Qed.
Lemma split_nls_vpn b cur n Y : split_bol openvpn_header b 0 cur (nls (S n) +++ Y) = split_bol openvpn_header true 0 (srev_onto (nls (S n)) cur) Y.
Proof.
  revert b cur; induction n as [|n IH]; intros b cur.
  - change (nls 1 +++ Y) with (String NLc Y). rewrite split_nl by reflexivity. reflexivity.
  - rewrite nls_S. cbn [String.append]. rewrite split_nl by reflexivity. rewrite IH. reflexivity.
Qed.
Definition wellformed (v : dict) : Prop :=
  line_text (tpl_get "name" v) /\ forall l, In l (items v) -> quiet openvpn_header l /\ tight l /\ contains S4 l = false.
Definition piece (v : dict) : string := tpl_get "name" v +++ J (EmptyString :: items v).
Lemma split_vtext l : (forall p, In p l -> wellformed (fst p)) -> forall cur,
  split_bol openvpn_header true 0 cur (vtext l) = srev cur :: map (fun p => piece (fst p) +++ nls (S (snd p))) l.
Proof.
  induction l as [|[v n] l IH]; intros H cur; [reflexivity|]. destruct (H _ (or_introl eq_refl)) as (N & Q). cbn [fst] in *.
  cbn [vtext fold_right fst snd map]. fold (vtext l).
  replace (block v +++ nls (S n) +++ vtext l) with (openvpn_header +++ " " +++ (tpl_get "name" v +++ J ("" :: items v) +++ nls (S n) +++ vtext l))
    by (unfold block, vpn_header, openvpn_header; rewrite !app_assoc_s; reflexivity).
  rewrite split_hit_vpn. rewrite split_pass by (apply line_text_facts, N).
  destruct (split_quiet openvpn_header ("" :: items v) eq_refl eq_refl) with (b := false) (cur := srev_onto (tpl_get "name" v) "") (Y := nls (S n) +++ vtext l) as (b' & E).
  { intros x [<- | Hx]; [split; [reflexivity | now left] | now apply Q]. }
  rewrite E, split_nls_vpn, IH by (intros; apply H; now right). unfold piece. rewrite !srev_srev_onto. reflexivity.
Qed.

(** ** One piece *)
Lemma tight_lines a ls : tight a -> (forall l, In l ls -> tight l) -> tight (a +++ J ls).
Proof.
  intros Ha H. destruct ls as [|x ls] using rev_ind; [cbn; now rewrite app_nil_s|]. clear IHls.
  rewrite J_app. cbn [J]. rewrite app_nil_s. replace (a +++ J ls +++ NL +++ x) with (a +++ (J ls +++ NL) +++ x) by now rewrite app_assoc_s.
  apply tight_app; [exact Ha | apply H, in_app_iff; right; now left].
Qed.
Lemma strip_piece v n : wellformed v ->
  exists ls, strip (piece v +++ nls n) = tpl_get "name" v +++ J ls /\ strip (piece v +++ nls n) <> EmptyString /\ forallb oneline ls = true /\
    (ls = [] /\ items v = [] \/ ls = EmptyString :: items v).
Proof.
  intros (N & Q). unfold piece. destruct (line_text_facts _ N) as (T & O & _). destruct (items v) as [|i is] eqn:Ei.
  - exists []. assert (E : strip ((tpl_get "name" v +++ J [""]) +++ nls n) = tpl_get "name" v).
    { rewrite app_assoc_s. apply (strip_tight _ "" (J [""] +++ nls n) T eq_refl). change (J [""] +++ nls n) with (nls (S n)). apply nls_space. }
    rewrite E. cbn [J]. rewrite app_nil_s. split; [reflexivity|]. split; [apply T|]. split; [reflexivity | now left].
  - exists ("" :: i :: is). assert (T' : tight (tpl_get "name" v +++ J ("" :: i :: is))).
    { replace (tpl_get "name" v +++ J ("" :: i :: is)) with ((tpl_get "name" v +++ (NL +++ NL) +++ i) +++ J is) by (cbn [J]; rewrite !app_assoc_s; reflexivity).
      apply tight_lines; [apply tight_app; [exact T | apply Q; now left] | intros; apply Q; now right]. }
    assert (E : strip ((tpl_get "name" v +++ J ("" :: i :: is)) +++ nls n) = tpl_get "name" v +++ J ("" :: i :: is)) by exact (strip_tight _ "" (nls n) T' eq_refl (nls_space n)).
    rewrite E. split; [reflexivity|]. split; [apply T'|]. split; [|now right].
    apply forallb_forall. intros x [<- | Hx]; [reflexivity | now apply Q].
Qed.

(** ** Reading the lines of a VPN *)
Lemma dset_again (V : Type) k (a b : V) : forall d, dset k b (dset k a d) = dset k b d.
Proof.
  induction d as [|[k' v] d IH]; cbn [dset]; [now rewrite String.eqb_refl|]. destruct (String.eqb k k') eqn:E; cbn [dset]; rewrite E; [reflexivity | now rewrite IH].
Qed.
Definition reads_item (kv : string * val) : Prop := item_lines kv = [] \/ option_name (fst kv) /\ forall s, In (Some s) (arguments (snd kv)) -> line_text s.
Lemma last_of_snoc {A} (l : list A) x : last_of (l ++ [x]) = Some x.
Proof. unfold last_of. now rewrite rev_app_distr. Qed.
Lemma parse_args k args : option_name k -> (forall s, In (Some s) args -> line_text s) -> forall acc,
  fold_left parse_vpn_line (map (arg_line (dashes k)) args) acc = match last_of args with Some a => dset k (argument_value a) acc | None => acc end.
Proof.
  intros Hk. induction args as [|a args IH] using rev_ind; intros H acc; [reflexivity|].
  rewrite map_app, fold_left_app, last_of_snoc, IH by (intros; apply H, in_app_iff; now left). cbn [map fold_left].
  assert (Ha : arg_ok a) by (intros s ->; apply H, in_app_iff; right; now left).
  destruct (arg_facts k a Hk Ha) as (_ & _ & _ & _ & E). rewrite E. destruct (last_of args); [apply dset_again | reflexivity].
Qed.
Lemma item_lines_name kv : fst kv = "name" -> item_lines kv = [].
Proof. destruct kv as [k x]. intros E. cbn in E. subst k. reflexivity. Qed.
Lemma parse_items v : NoDup (dkeys v) -> (forall kv, In kv v -> reads_item kv) -> forall acc, NoDup (dkeys acc) ->
  NoDup (dkeys (fold_left parse_vpn_line (items v) acc)) /\
  forall k, dget k (fold_left parse_vpn_line (items v) acc) =
    match dget k v with
    | Some x => if String.eqb k "name" then dget k acc else match last_of (arguments x) with Some a => Some (argument_value a) | None => dget k acc end
    | None => dget k acc
    end.
Proof.
  induction v as [|[k0 x0] v IH]; intros Nd H acc Na; [split; [exact Na | reflexivity]|].
  inversion Nd as [|? ? N1 N2]; subst. unfold items. cbn [flat_map]. fold (items v). rewrite fold_left_app.
  assert (S1 : forall acc', fold_left parse_vpn_line (item_lines (k0, x0)) acc' = if String.eqb k0 "name" then acc' else match last_of (arguments x0) with Some a => dset k0 (argument_value a) acc' | None => acc' end).
  { intros acc'. destruct (String.eqb_spec k0 "name") as [-> | Hn]; [reflexivity|]. destruct (H _ (or_introl eq_refl)) as [E | (Hk & Hs)].
    - rewrite E. unfold item_lines in E. cbn [fst snd] in E. destruct (String.eqb (dashes k0) "name") eqn:Ek.
      + exfalso. apply Hn. apply String.eqb_eq in Ek. rewrite dashes_smap in Ek. clear -Ek.
        destruct k0 as [|a [|b [|c [|d [|e k]]]]]; try discriminate. cbn [smap] in Ek.
        assert (W : forall y z, (if Ascii.eqb "_" y then "-"%char else y) = z -> z <> "-"%char -> y = z) by (intros y z; destruct (Ascii.eqb "_" y); congruence).
        injection Ek as E1 E2 E3 E4. apply W in E1, E2, E3, E4; try discriminate. now subst.
      + apply map_eq_nil in E. rewrite E. reflexivity.
    - cbn [fst snd] in *. unfold item_lines. cbn [fst snd]. rewrite dashes_name by assumption. now apply parse_args. }
  rewrite S1. set (acc' := if String.eqb k0 "name" then acc else match last_of (arguments x0) with Some a => dset k0 (argument_value a) acc | None => acc end).
  assert (Na' : NoDup (dkeys acc')) by (unfold acc'; destruct (String.eqb k0 "name"); [exact Na|]; destruct (last_of (arguments x0)); [now apply NoDup_dset | exact Na]).
  destruct (IH N2 (fun kv Hkv => H kv (or_intror Hkv)) acc' Na') as (I1 & I2). split; [exact I1|]. intros k. rewrite I2. cbn [dget].
  destruct (String.eqb_spec k k0) as [-> | Hk].
  - assert (E : dget k0 v = None) by (apply dget_None; exact N1). rewrite E. unfold acc'. destruct (String.eqb k0 "name"); [reflexivity|].
    destruct (last_of (arguments x0)); [now rewrite dget_dset, String.eqb_refl | reflexivity].
  - assert (E : dget k acc' = dget k acc).
    { unfold acc'. destruct (String.eqb k0 "name"); [reflexivity|]. destruct (last_of (arguments x0)); [|reflexivity]. rewrite dget_dset. now rewrite eqb_neq. }
    now rewrite E.
Qed.

(** ** The whole text *)
Lemma vpn_ok_wellformed v : vpn_ok v -> wellformed v /\ forall kv, In kv v -> reads_item kv.
Proof.
  intros (Nd & (n & Hn & Ln) & H). assert (R : forall kv, In kv v -> reads_item kv).
  { intros (k & x) Hkv. destruct (String.eqb_spec k "name") as [-> | Hk]; [left; reflexivity|]. destruct (arguments x) as [|a l] eqn:E.
    - left. unfold item_lines. cbn [fst snd]. rewrite E. destruct (String.eqb (dashes k) "name"); reflexivity.
    - right. apply (H k x Hkv Hk). congruence. }
  split; [|exact R]. split; [unfold tpl_get; rewrite Hn; exact Ln|]. intros l Hl. apply in_flat_map in Hl as ((k & x) & Hkv & Hl).
  destruct (R _ Hkv) as [E | (Hk & Hs)]; [rewrite E in Hl; destruct Hl|]. unfold item_lines in Hl. cbn [fst snd] in *. rewrite dashes_name in Hl by assumption.
  apply in_map_iff in Hl as (a & <- & Ha). assert (Oa : arg_ok a) by (intros s ->; now apply Hs).
  destruct (arg_facts k a Hk Oa) as (A1 & A2 & A3 & A4 & _). split; [split; [exact A1 | right; exact A4]|]. split; assumption.
Qed.
Lemma parse_piece v n : vpn_ok v -> exists v', parse_vpn (strip (piece v +++ nls n)) = v' /\ strip (piece v +++ nls n) <> EmptyString /\ vpn_reads v v'.
Proof.
  intros Hv. destruct (vpn_ok_wellformed v Hv) as (W & R). destruct Hv as (Nd & (nm & Hn & Ln) & _).
  destruct (strip_piece v n W) as (ls & E & Ne & O & Hls). eexists. split; [reflexivity|]. split; [exact Ne|].
  assert (Et : tpl_get "name" v = nm) by (unfold tpl_get; now rewrite Hn). unfold parse_vpn. rewrite E, Et.
  rewrite split_J by (exact O || apply line_text_facts, Ln).
  assert (El : fold_left parse_vpn_line ls [("name", VStr nm)] = fold_left parse_vpn_line (items v) [("name", VStr nm)]).
  { destruct Hls as [(-> & ->) | ->]; reflexivity. }
  rewrite El. destruct (parse_items v Nd R [("name", VStr nm)]) as (P1 & P2).
  { constructor; [intros [] | constructor]. }
  split; [now apply ssort_sorted_keys|]. intros k. rewrite dget_ssort by exact P1. rewrite P2. cbn [dget].
  destruct (String.eqb_spec k "name") as [-> | Hk]; [now rewrite Hn|]. destruct (dget k v) as [x|]; [|reflexivity].
  destruct (last_of (arguments x)); reflexivity.
Qed.
Lemma parse_vtext l : (forall p, In p l -> vpn_ok (fst p)) ->
  exists vs', parse_openvpn (vtext l) = [("openvpn", VList (map VDict vs'))] /\ Forall2 vpn_reads (map fst l) vs'.
Proof.
  intros H. unfold parse_openvpn, re_split. rewrite split_vtext by (intros p Hp; apply vpn_ok_wellformed, H, Hp).
  cbn [map filter]. change (String.eqb (strip (srev "")) "") with true. cbn [negb]. rewrite map_map.
  assert (E : exists vs', map (fun p => VDict (parse_vpn p)) (filter (fun p => negb (String.eqb p "")) (map (fun p => strip (piece (fst p) +++ nls (S (snd p)))) l)) = map VDict vs' /\ Forall2 vpn_reads (map fst l) vs').
  { induction l as [|p l IH]; [exists []; split; [reflexivity | constructor]|]. destruct IH as (vs' & E & F); [intros; apply H; now right|].
    destruct (parse_piece (fst p) (S (snd p)) (H _ (or_introl eq_refl))) as (v' & E' & Ne & Rd). exists (v' :: vs'). cbn [map filter]. rewrite eqb_neq by exact Ne. cbn [negb map].
    rewrite E', E. split; [reflexivity | now constructor]. }
  destruct E as (vs' & E & F). exists vs'. split; [now rewrite E | exact F].
Qed.
Lemma vpns_S4 vs : Forall vpn_ok vs -> forall l, In l (vpns_lines vs) -> contains S4 l = false.
Proof.
  intros H l Hl. apply in_flat_map in Hl as (v & Hv & Hl). rewrite Forall_forall in H. destruct (vpn_ok_wellformed v (H v Hv)) as ((N & Q) & _).
  destruct Hl as [<- | [<- | Hl]]; [|reflexivity|].
  - unfold vpn_header. unfold S4 in *. change ("# openvpn config: " +++ tpl_get "name" v) with ("#" +++ " openvpn" +++ " config:" +++ (" " +++ tpl_get "name" v)).
    destruct (line_text_facts _ N) as (_ & _ & _ & C). exact C.
  - apply in_app_iff in Hl as [Hl | [<- | []]]; [now apply Q | reflexivity].
Qed.
Theorem text_round_trip data vs : dget "openvpn" data = Some (VList (map VDict vs)) -> vs <> [] -> Forall vpn_ok vs ->
  exists text vs', render_openvpn data = Ok text /\ parse_openvpn text = [("openvpn", VList (map VDict vs'))] /\ Forall2 vpn_reads vs vs'.
Proof.
  intros Hd Hn H. destruct (render_vtext data vs Hd Hn (vpns_S4 vs H)) as (l & El & Er). destruct (parse_vtext l) as (vs' & E & F).
  - intros p Hp. rewrite Forall_forall in H. apply H. rewrite <- El. now apply in_map.
  - exists (vtext l), vs'. split; [exact Er|]. split; [exact E|]. unfold numbered in El. now rewrite <- El.
Qed.
