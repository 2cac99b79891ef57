(** * WgArchive: WireGuard interfaces in the archive (proofs only) *)
From Verif Require Import PyBase PyLemmas StrLemmas SortLemmas NumLemmas Files FilesProofs SpecFiles Backend Conv Uci SpecUci SpecUciMore UciProofs UciParseProofs UciRoundTrip UciMore ConvLemmas VpnText OpenVpnConv SpecVpn VpnProofs VpnApi VpnArchive SpecWg WgProofs.

(** ** Splitting *)
Record wpiece := { w_name : string; w_body : list string; w_gap : nat }.
Definition wlines (w : wpiece) : list string := (EmptyString :: w_body w ++ repeat EmptyString (S (w_gap w)))%list.
Definition wtext (l : list wpiece) : string := fold_right (fun w acc => (wireguard_header +++ " " +++ w_name w) +++ J (wlines w) +++ acc) EmptyString l.
Definition wpiece_ok (w : wpiece) : Prop := oneline (w_name w) = true /\ forall x, In x (w_body w) -> quiet wireguard_header x.
Lemma split_hit_wg cur Y : split_bol wireguard_header true 0 cur (wireguard_header +++ " " +++ Y) = srev cur :: split_bol wireguard_header false 0 EmptyString Y.
Proof. reflexivity. Qed.
Lemma split_nls_wg b cur n Y : split_bol wireguard_header b 0 cur (nls (S n) +++ Y) = split_bol wireguard_header true 0 (srev_onto (nls (S n)) cur) Y.
Proof.
  revert b cur; induction n as [|n IH]; intros b cur.
  - change (nls 1 +++ Y) with (String NLc Y). rewrite split_nl by reflexivity. reflexivity.
  - rewrite nls_S. cbn [String.append]. rewrite split_nl by reflexivity. rewrite IH. reflexivity.
Qed.
Lemma split_wtext l : (forall w, In w l -> wpiece_ok w) -> forall cur,
  split_bol wireguard_header true 0 cur (wtext l) = srev cur :: map (fun w => w_name w +++ J (wlines w)) l.
Proof.
  induction l as [|w l IH]; intros H cur; [reflexivity|]. destruct (H w (or_introl eq_refl)) as (O & Q). cbn [wtext fold_right map]. fold (wtext l).
  rewrite (app_assoc_s wireguard_header), (app_assoc_s " "). rewrite split_hit_wg. rewrite split_pass by exact O. unfold wlines. rewrite app_comm_cons, J_app, <- nls_J, app_assoc_s.
  destruct (split_quiet wireguard_header ("" :: w_body w) eq_refl eq_refl) with (b := false) (cur := srev_onto (w_name w) "") (Y := nls (S (w_gap w)) +++ wtext l) as (b' & E).
  { intros x [<- | Hx]; [split; [reflexivity | now left] | now apply Q]. }
  rewrite E, split_nls_wg, IH by (intros; apply H; now right). rewrite !srev_srev_onto. cbn [srev srev_onto String.append]. rewrite app_assoc_s. reflexivity.
Qed.
(** ** The contents *)
Lemma sections_blank_end X : wg_sections (X ++ [EmptyString]) = wg_sections X.
Proof. induction X as [|x X IH]; [reflexivity|]. cbn [app wg_sections]. now rewrite IH. Qed.
Lemma last_not_nl x r : oneline x = true -> x <> EmptyString -> forall a, a +++ x <> r +++ NL.
Proof.
  intros O Hn a E. destruct (snoc_view x) as [-> | (y & c & ->)]; [congruence|]. unfold NL in E. rewrite <- app_assoc_s in E. apply (f_equal srev) in E. rewrite !srev_snoc in E. injection E as E _.
  unfold oneline in O. rewrite nochar_app in O. subst c. cbn in O. now rewrite andb_false_r in O.
Qed.
Lemma read_join X : X <> [] -> forallb oneline X = true ->
  wg_read (let c := join NL X in if endswith (NL +++ NL) c then sinit c else c) = snd (wg_sections X).
Proof.
  intros Hn O. cbv zeta. destruct (endswith (NL +++ NL) (join NL X)) eqn:E.
  - apply endswith_true in E as (r & E). destruct (exists_last Hn) as (X' & x & ->). rewrite forallb_app_iff in O. apply andb_true_iff in O as (O1 & O2). cbn in O2. rewrite andb_true_r in O2.
    destruct X' as [|y X'].
    + cbn [app join] in E. exfalso. destruct x as [|c x]; [destruct r; discriminate|]. apply (last_not_nl (String c x) (r +++ NL) O2 ltac:(discriminate) ""). cbn [String.append]. rewrite E, app_assoc_s. reflexivity.
    + cbn [app] in *. rewrite join_J, J_app in *. cbn [J] in *. rewrite app_nil_s in *. destruct x as [|c x].
      * rewrite app_nil_s. rewrite <- app_assoc_s. unfold NL. rewrite sinit_snoc. unfold wg_read. rewrite app_comm_cons, sections_blank_end.
        cbn [forallb] in O1. apply andb_true_iff in O1 as (O1 & O3). now rewrite split_J.
      * exfalso. apply (last_not_nl (String c x) (r +++ NL) O2 ltac:(discriminate) (y +++ J X' +++ NL)). rewrite ?app_assoc_s. rewrite ?app_assoc_s in E. exact E.
  - unfold wg_read. destruct X as [|x X]; [congruence|]. rewrite join_J. cbn [forallb] in O. apply andb_true_iff in O as (O1 & O2). now rewrite split_J.
Qed.

(** ** The members *)
Definition wg_body (sp : dict * list dict) : list string := removelast (skipn 2 (wg_lines (fst sp) (snd sp))).
Lemma wg_body_lines sp : wg_lines (fst sp) (snd sp) = (wg_header (fst sp) :: EmptyString :: wg_body sp ++ [EmptyString])%list.
Proof.
  unfold wg_body. destruct (wg_lines_last (fst sp) (snd sp)) as (ls & ->). cbn [skipn]. rewrite app_comm_cons, removelast_last. reflexivity.
Qed.
Lemma wg_body_ne sp : wg_body sp <> [].
Proof. unfold wg_body. destruct (wg_lines_last (fst sp) (snd sp)) as (ls & ->). cbn [skipn]. rewrite app_comm_cons, removelast_last. discriminate. Qed.
Definition wg_piece (g : nat) (sp : dict * list dict) : wpiece := {| w_name := tpl_get "name" (fst sp); w_body := wg_body sp; w_gap := g |}.
Lemma made_body v sp : wg_made v sp -> forall l, In l (tl (wg_lines (fst sp) (snd sp))) -> quiet wireguard_header l.
Proof.
  intros (_ & _ & _ & Ln & Hs & Hp & _) l Hl. destruct sp as [s ps]. cbn [fst snd] in *.
  assert (S1 : forall kv, setting_ok kv -> quiet wireguard_header (setting_line kv)) by (intros kv Hkv; destruct (setting_facts kv Hkv) as (F1 & F2 & F3); split; [exact F2 | now right]).
  assert (E1 : quiet wireguard_header "") by (split; [reflexivity | now left]).
  unfold wg_lines in Hl. cbn [tl] in Hl. destruct Hl as [<- | [<- | Hl]]; [exact E1 | split; [reflexivity | right; reflexivity] |].
  apply in_app_iff in Hl as [Hl | [<- | Hl]]; [| exact E1 |].
  - apply in_map_iff in Hl as (kv & <- & Hkv). apply filter_In in Hkv as (Hkv & Ht). apply S1, Hs; assumption.
  - apply in_flat_map in Hl as (p & Hpi & Hl). destruct Hl as [<- | Hl]; [split; [reflexivity | right; reflexivity]|].
    apply in_app_iff in Hl as [Hl | [<- | []]]; [|exact E1]. apply in_map_iff in Hl as (kv & <- & Hkv). apply filter_In in Hkv as (Hkv & Ht). apply S1, (Hp p Hpi); assumption.
Qed.
Lemma wg_piece_ok g v sp : wg_made v sp -> wpiece_ok (wg_piece g sp).
Proof.
  intros H. split; [destruct H as (_ & _ & _ & Ln & _); apply line_text_facts, Ln|]. intros x Hx. cbn [w_body wg_piece] in Hx.
  apply (made_body v sp H). rewrite wg_body_lines. right. apply in_app_iff. now left.
Qed.
Lemma K_wg sp g rest : K ((wg_header (fst sp) :: "" :: wg_body sp) ++ repeat "" g) +++ rest = (wireguard_header +++ " " +++ w_name (wg_piece g sp)) +++ J (wlines (wg_piece g sp)) +++ rest.
Proof.
  cbn [app]. rewrite K_J. unfold wlines. cbn [w_name w_body w_gap wg_piece app]. rewrite <- app_assoc. change (repeat "" (S g)) with (repeat EmptyString (1 + g)).
  assert (E : (repeat "" g ++ [""])%list = repeat EmptyString (1 + g)) by (rewrite Nat.add_comm, repeat_app; reflexivity). rewrite E. unfold wg_header. rewrite !app_assoc_s. reflexivity.
Qed.
Lemma K_all l sp ls : all_lines (l ++ [sp]) = (ls ++ [""])%list -> K ls = wtext (map (wg_piece 1) l ++ [wg_piece 0 sp]).
Proof.
  intros E. unfold all_lines in E. rewrite flat_map_app in E. cbn [flat_map] in E. rewrite app_nil_r in E. rewrite (wg_body_lines sp), !app_comm_cons, app_assoc in E. apply app_inj_tail in E as (<- & _).
  induction l as [|a l IH]; cbn [flat_map app map wtext fold_right].
  - pose proof (K_wg sp 0 "") as H. cbn [repeat] in H. rewrite app_nil_r, app_nil_s in H. exact H.
  - fold (wtext (map (wg_piece 1) l ++ [wg_piece 0 sp])). rewrite <- app_assoc, K_app, IH, wg_body_lines. pose proof (K_wg a 1 (wtext (map (wg_piece 1) l ++ [wg_piece 0 sp]))) as H. cbn [repeat app] in H. exact H.
Qed.
Definition wcontents (w : wpiece) : string :=
  let c := join NL (w_body w ++ repeat EmptyString (S (w_gap w))) in if endswith (NL +++ NL) c then sinit c else c.
Lemma sections_blanks X n : wg_sections (X ++ repeat EmptyString n) = wg_sections X.
Proof.
  induction n as [|n IH]; [now rewrite app_nil_r|]. change (repeat "" (S n)) with (repeat EmptyString (1 + n)). rewrite Nat.add_comm, repeat_app, app_assoc. cbn [repeat]. now rewrite sections_blank_end.
Qed.
Lemma wcontents_read g v sp : wg_made v sp -> wg_read (wcontents (wg_piece g sp)) = group sp.
Proof.
  intros H. unfold wcontents. rewrite read_join.
  - rewrite sections_blanks. cbn [w_body wg_piece]. destruct H as (_ & _ & _ & Ln & Hs & Hp & _). pose proof (sections_wg (fst sp) (snd sp) [] Ln Hs Hp eq_refl) as E.
    rewrite app_nil_r in E. rewrite wg_body_lines in E. change (snd (wg_sections [])) with (@nil (string * list (string * string))) in E. rewrite app_nil_r in E. rewrite <- (sections_blank_end (wg_body sp)).
    rewrite sections_skip in E; [rewrite sections_skip in E by reflexivity; rewrite E; reflexivity|].
    unfold wg_header, wg_kind. destruct (line_text_facts _ Ln) as (T & _). rewrite strip_self; [reflexivity|]. exact (tight_app "#" " wireguard config: " _ (spaceless_tight "#" ltac:(discriminate) eq_refl) T).
  - cbn [w_body wg_piece]. intros E. apply app_eq_nil in E as (E & _). now apply wg_body_ne in E.
  - rewrite forallb_app_iff, oneline_repeat, andb_true_r. apply forallb_forall. intros x Hx. exact (proj1 (proj2 (wg_piece_ok g v sp H) x Hx)).
Qed.
Lemma wg_contents w : wpiece_ok w -> exists lines, split_char NLc (w_name w +++ J (wlines w)) = w_name w :: lines /\
  (let c := join NL (skipn 2 (w_name w :: lines)) in if endswith (NL +++ NL) c then sinit c else c) = wcontents w.
Proof.
  intros (O & Q). exists (wlines w). split; [|reflexivity]. apply split_J; [exact O|]. unfold wlines. cbn [forallb]. rewrite forallb_app_iff, oneline_repeat, andb_true_r.
  apply forallb_forall. intros x Hx. now apply Q.
Qed.
Definition wg_member (w : wpiece) : member := {| m_name := w_name w +++ conf_suffix; m_mode := 420; m_mtime := 0; m_data := wcontents w |}.
Lemma J_ascii ls : ascii_text (J ls) -> forall x, In x ls -> ascii_text x.
Proof. induction ls as [|l ls IH]; intros H x []; cbn [J] in H; rewrite !ascii_app in H; [subst x; tauto | apply IH; tauto]. Qed.
Lemma ascii_J ls : (forall x, In x ls -> ascii_text x) -> ascii_text (J ls).
Proof.
  induction ls as [|l ls IH]; intros H; [reflexivity|]. cbn [J]. rewrite !ascii_app. split; [reflexivity|]. split; [apply H; now left | apply IH; intros; apply H; now right].
Qed.
Lemma ascii_join ls : (forall x, In x ls -> ascii_text x) -> ascii_text (join NL ls).
Proof. intros H. destruct ls as [|l ls]; [reflexivity|]. rewrite join_J, ascii_app. split; [apply H; now left | apply ascii_J; intros; apply H; now right]. Qed.
Lemma ascii_sinit s : ascii_text s -> ascii_text (sinit s).
Proof.
  destruct (snoc_view s) as [-> | (r & c & ->)]; [intros H; exact H|]. rewrite sinit_snoc, ascii_app. tauto.
Qed.
Lemma wtext_ascii l : ascii_text (wtext l) -> forall w, In w l -> ascii_text (wcontents w).
Proof.
  induction l as [|a l IH]; intros H w []; cbn [wtext fold_right] in H; fold (wtext l) in H; rewrite !ascii_app in H; [subst a | apply IH; tauto].
  assert (Hj : ascii_text (join NL (w_body w ++ repeat EmptyString (S (w_gap w))))).
  { apply ascii_join. intros x Hx. destruct H as (_ & H & _). apply (J_ascii _ H). unfold wlines. now right. }
  unfold wcontents. cbv zeta. destruct (endswith _ _); [now apply ascii_sinit | exact Hj].
Qed.
Lemma generate_wg_members l : (forall w, In w l -> wpiece_ok w /\ contains conf_suffix (w_name w) = false) -> ascii_text (wtext l) ->
  generate_vpns wireguard_header conf_suffix (wtext l) [] = Ok (map wg_member l).
Proof.
  intros Hok Ha. unfold generate_vpns, re_split. rewrite split_wtext by (intros p Hp; apply Hok, Hp). change (srev "") with EmptyString.
  cbn [remove_first_empty]. rewrite eqb_refl. pose proof (wtext_ascii l Ha) as Hasc. clear Ha.
  change (map wg_member l) with ([] ++ map wg_member l)%list. generalize (@nil member).
  induction l as [|p l IH]; intros tar; [cbn; rewrite app_nil_r; reflexivity|]. cbn [map foldM].
  destruct (Hok _ (or_introl eq_refl)) as (H1 & H3). destruct (wg_contents p H1) as (lines & E1 & E2). rewrite E1. cbv zeta in E2 |- *. rewrite E2.
  rewrite before_none by exact H3. unfold add_file at 1. change (parse_mode DEFAULT_FILE_MODE) with (Some 420%N). cbn [bind].
  assert (Hc : ascii_text (wcontents p)) by (apply Hasc; left; reflexivity).
  rewrite (utf8_ascii _ Hc), stake_all. rewrite IH by (intros x Hx; (apply Hok || apply Hasc); right; exact Hx). rewrite <- app_assoc. reflexivity.
Qed.
(** ** The archive *)
Theorem wg_archive vs l ls config tar tar' :
  Forall2 wg_made vs l -> l <> [] -> all_lines l = (ls ++ [EmptyString])%list ->
  (forall sp, In sp l -> contains ".conf" (tpl_get "name" (fst sp)) = false) -> ascii_text (K ls) ->
  (forall v, In v vs -> exists n, dget "name" v = Some (VStr n)) ->
  generate_vpns wireguard_header conf_suffix (K ls) [] = Ok tar -> process_files config tar = Ok tar' ->
  exists ms ms', tar' = (ms ++ ms')%list /\ Forall2 wg_stored vs ms.
Proof.
  intros F Hn E Hc Ha Hnm Hg Hf. destruct (exists_last Hn) as (l0 & sp & ->). rewrite (K_all l0 sp ls E) in *.
  assert (Hok : forall w, In w (map (wg_piece 1) l0 ++ [wg_piece 0 sp]) -> wpiece_ok w /\ contains conf_suffix (w_name w) = false).
  { intros w Hw. assert (exists g a, w = wg_piece g a /\ In a (l0 ++ [sp])) as (g & a & -> & Hi).
    { apply in_app_iff in Hw as [Hw | [<- | []]]; [apply in_map_iff in Hw as (a & <- & Ha'); exists 1, a | exists 0, sp]; (split; [reflexivity|]; apply in_app_iff; cbn; tauto). }
    destruct (Forall2_In_r _ _ _ _ F Hi) as (v & _ & H). split; [eapply wg_piece_ok; eauto | now apply Hc]. }
  rewrite generate_wg_members in Hg by assumption. injection Hg as <-. apply process_files_spec in Hf as (files & ms' & Hf & HF & ->).
  eexists _, ms'. split; [reflexivity|]. apply Forall2_app_inv_r in F as (v0 & v1 & F0 & F1 & ->).
  assert (St : forall g v a, wg_made v a -> wg_stored v (wg_member (wg_piece g a))).
  { intros g v a H. split; [|cbn [m_data wg_member]; rewrite (wcontents_read g v a H); apply H]. intros n En. cbn [m_name wg_member wg_piece w_name]. destruct H as (_ & _ & H & _). rewrite (H n En). reflexivity. }
  rewrite map_app. apply Forall2_app.
  - clear -F0 St. induction F0 as [|v a v0 l0 H F IH]; [constructor|]. cbn [map]. constructor; auto.
  - inversion F1 as [|v ? ? ? H F2]; subst. inversion F2; subst. constructor; [auto | constructor].
Qed.
Lemma wg_names vs l : Forall wg_ok vs -> Forall2 wg_made vs l -> (forall v n, In v vs -> dget "name" v = Some (VStr n) -> contains ".conf" n = false) ->
  (forall v, In v vs -> exists n, dget "name" v = Some (VStr n)) /\ forall sp, In sp l -> contains ".conf" (tpl_get "name" (fst sp)) = false.
Proof.
  intros H F Hc. assert (Nm : forall v, In v vs -> exists n, dget "name" v = Some (VStr n)).
  { rewrite Forall_forall in H. intros v Hv. destruct (H v Hv) as (Nd & Hf & Hn & _). destruct (dget "name" v) as [x|] eqn:En; [|apply dget_None in En; contradiction].
    apply dget_In in En. specialize (Hf _ _ En). destruct Hf as [(_ & s & -> & _) | [([I | [I | []]] & _) | [([I | [I | []]] & _) | [(I & _) | [(I & _) | [(I & _) | (I & _)]]]]]]; try discriminate I; [eauto|]. exfalso. cbn in I. each_in I; discriminate I. }
  split; [exact Nm|]. intros sp Hsp. destruct (Forall2_In_r _ _ _ _ F Hsp) as (v & Hv & (_ & _ & Hn & _)). destruct (Nm v Hv) as (n & En). rewrite (Hn n En). exact (Hc v n Hv En).
Qed.
Theorem wg_generate oid schema_ok config vs s1 s2 text tar : dget "wireguard" config = Some (VList (map VDict vs)) -> vs <> [] -> Forall wg_ok vs ->
  (forall v n, In v vs -> dget "name" v = Some (VStr n) -> contains ".conf" n = false) ->
  render oid (wireguard_backend schema_ok) false (fresh config) = (s1, Ok text) -> ascii_text text ->
  generate oid (wireguard_backend schema_ok) (fresh config) = (s2, Ok tar) ->
  exists ms ms', tar = (ms ++ ms')%list /\ Forall2 wg_stored vs ms.
Proof.
  intros Hd Hn H Hc R Ha G. unfold generate in G. rewrite R in G. apply (f_equal snd) in G. cbn [snd bind] in G. destruct (be_contents (wireguard_backend schema_ok) text) as [t|e] eqn:Et; [|discriminate G]. cbn [bind] in G.
  destruct (wg_render oid schema_ok config vs s1 text Hd Hn H R) as (l & ls & F & Nl & E & ->). destruct (wg_names vs l H F Hc) as (W1 & W2).
  exact (wg_archive vs l ls (st_config s1) t tar F Nl E W2 Ha W1 Et G).
Qed.
Lemma Forall_In_ok {A} (P : A -> Prop) l x : Forall P l -> In x l -> P x.
Proof. rewrite Forall_forall. auto. Qed.
Theorem server_generate oid schema_ok config vs s1 s2 text files tar : dget "openvpn" config = Some (VList (map VDict vs)) -> vs <> [] -> Forall server_ok vs ->
  (forall v n, In v vs -> dget "name" v = Some (VStr n) -> contains ".conf" n = false) ->
  render oid (openvpn_backend schema_ok) false (fresh config) = (s1, Ok text) -> ascii_text text ->
  get_files (st_config s1) = Ok files -> (forall f p q, In f files -> file_path f p -> relative_of p q -> endswith ".conf" q = false) ->
  generate oid (openvpn_backend schema_ok) (fresh config) = (s2, Ok tar) ->
  parse_openvpn_tar tar = Ok (parse_openvpn text).
Proof.
  intros Hd Hn H Hc R Ha Hf Hp G. unfold generate in G. rewrite R in G. apply (f_equal snd) in G. cbn [snd bind] in G. destruct (be_contents (openvpn_backend schema_ok) text) as [t|e] eqn:Et; [|discriminate G]. cbn [bind] in G.
  unfold render in R. cbn [st_config fresh st_inter] in R. destruct (be_validate _ config) as [[]|e] eqn:Ev; [|discriminate].
  unfold to_intermediate in R. cbn [st_config fresh] in R. rewrite Ev in R. destruct (openvpn_inter oid schema_ok config vs Hd Hn H) as (ss & Hs & Ei). rewrite Ei in R.
  cbn [st_config st_inter] in R. destruct (deduplicate_files config) as [c'|e]; [|discriminate]. injection R as <- R. unfold render_text in R. cbn [st_inter be_render openvpn_backend] in R.
  pose proof (all_vpn_ok vs ss H Hs) as Vk. assert (Nss : ss <> []) by (intros ->; inversion Hs; subst; congruence).
  destruct (render_openvpn [("openvpn", VList (map VDict ss))]) as [t0|e] eqn:Er; [|discriminate]. cbn [bind] in R. injection R as ->.
  apply (vpn_archive [("openvpn", VList (map VDict ss))] ss text c' files t tar eq_refl Nss Vk); try assumption.
  intros s n Hsi En. destruct (Forall2_In_r _ _ _ _ Hs Hsi) as (v & Hv & _ & _ & Gs). rewrite Gs in En. unfold section_get in En. cbn [st_config] in *.
  eapply (Hc v n Hv). destruct (Forall_In_ok _ _ _ H Hv) as (_ & (m & Em & Lm) & _). rewrite Em in En. unfold read_setting in En. rewrite Em in En.
  destruct m as [|c m]; [destruct Lm; congruence|]. cbn in En. rewrite Em. exact En.
Qed.
(** ** Success and failure *)
Theorem wg_renders oid schema_ok config vs c' : dget "wireguard" config = Some (VList (map VDict vs)) -> vs <> [] -> Forall wg_ok vs ->
  base_validate schema_ok config = Ok tt -> deduplicate_files config = Ok c' ->
  exists s1 text, render oid (wireguard_backend schema_ok) false (fresh config) = (s1, Ok text).
Proof.
  intros Hd Hn H Ev Dd. destruct (made_all vs H) as (l & F). assert (Nl : l <> []) by (intros ->; inversion F; subst; congruence).
  unfold render. cbn [st_config fresh st_inter]. change (be_validate (wireguard_backend schema_ok) config) with (base_validate schema_ok config). rewrite Ev.
  unfold to_intermediate. cbn [st_config fresh]. change (be_validate (wireguard_backend schema_ok) config) with (base_validate schema_ok config). rewrite Ev.
  rewrite (wg_inter oid schema_ok config vs l Hd Hn F). cbn [st_config st_inter]. rewrite Dd. unfold render_text. cbn [st_inter be_render wireguard_backend].
  destruct (wg_text_lines vs l [("wireguard", VList (map VDict (map fst l)))] F Nl eq_refl) as (ls & E & _ & Er). rewrite Er. cbn [bind]. eauto.
Qed.
Lemma move_missing c o k c' : k <> fst o -> k <> snd o -> dget k c = None -> wg_move c o = Ok c' -> dget k c' = None.
Proof.
  intros H1 H2 Hk E. unfold wg_move in E. apply bind_Ok in E as (v & _ & E). injection E as <-. rewrite dget_dset, eqb_neq by exact H2. now rewrite dget_ddel_other.
Qed.
Lemma move_fails c o : dget (fst o) c = None -> exists e, wg_move c o = Err e.
Proof. intros H. unfold wg_move, dgetE. rewrite H. eexists. reflexivity. Qed.
Lemma section_fails v k : In k ["port"; "private_key"; "address"] -> dget k v = None -> exists e, wg_section v = Err e.
Proof.
  intros Hk Hv. unfold wg_section. enough (E : exists e, foldM wg_move v wg_required = Err e) by (destruct E as (e & ->); eexists; reflexivity).
  unfold wg_required. cbn [foldM]. destruct Hk as [<- | [<- | [<- | []]]].
  - destruct (move_fails v ("port", "ListenPort") Hv) as (e & ->). eexists. reflexivity.
  - destruct (wg_move v ("port", "ListenPort")) as [c1|e] eqn:E1; [|eexists; reflexivity]. cbn [bind].
    assert (H1 := move_missing _ ("port", "ListenPort") "private_key" _ ltac:(discriminate) ltac:(discriminate) Hv E1). destruct (move_fails c1 ("private_key", "PrivateKey") H1) as (e & ->). eexists. reflexivity.
  - destruct (wg_move v ("port", "ListenPort")) as [c1|e] eqn:E1; [|eexists; reflexivity]. cbn [bind].
    assert (H1 := move_missing _ ("port", "ListenPort") "address" _ ltac:(discriminate) ltac:(discriminate) Hv E1). destruct (wg_move c1 ("private_key", "PrivateKey")) as [c2|e] eqn:E2; [|eexists; reflexivity]. cbn [bind].
    assert (H2 := move_missing _ ("private_key", "PrivateKey") "address" _ ltac:(discriminate) ltac:(discriminate) H1 E2). destruct (move_fails c2 ("address", "Address") H2) as (e & ->). eexists. reflexivity.
Qed.
Theorem wg_required_keys oid schema_ok config vs v k :
  dget "wireguard" config = Some (VList (map VDict vs)) -> In v vs -> In k ["port"; "private_key"; "address"] -> dget k v = None ->
  exists s1 e, render oid (wireguard_backend schema_ok) false (fresh config) = (s1, Err e).
Proof.
  intros Hd Hv Hk Hm. destruct (section_fails v k Hk Hm) as (e0 & Es).
  assert (E : exists e, mapM (fun v => do c <- as_dict v; wg_section c) (map VDict vs) = Err e).
  { clear -Hv Es. induction vs as [|a vs IH]; [destruct Hv|]. cbn [map mapM as_dict bind]. destruct Hv as [-> | Hv]; [rewrite Es; eexists; reflexivity|].
    destruct (wg_section a) as [s|e]; [|eexists; reflexivity]. cbn [bind]. destruct (IH Hv) as (e & ->). eexists. reflexivity. }
  destruct E as (e & E). unfold render. cbn [st_config fresh st_inter]. destruct (be_validate _ config) as [[]|e'] eqn:Ev; [|eauto].
  unfold to_intermediate. cbn [st_config fresh]. rewrite Ev. cbn [be_convs wireguard_backend convert_fwd]. unfold wireguard_conv. cbn [c_fwd_run c_fwd st_config fresh]. unfold dmem. rewrite Hd. cbn [negb].
  unfold wg_fwd, dgetN. rewrite Hd. cbn [as_list bind]. rewrite E. cbn [bind]. eauto.
Qed.
