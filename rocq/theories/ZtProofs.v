(** * ZtProofs: the text of ZeroTier networks: comments, lines, pieces (proofs only) *)
From Verif Require Import PyBase PyLemmas StrLemmas SortLemmas NumLemmas Files FilesProofs SpecFiles Uci SpecUci SpecUciMore UciProofs UciParseProofs UciRoundTrip UciMore ConvLemmas Conv OpenVpnConv VpnText SpecVpn VpnProofs VpnArchive SpecConv Json SpecZt JsonProofs ZtBackend.

(** ** No comment begins in the JSON text *)
Definition slash (c : ascii) : bool := Ascii.eqb c "/".
Fixpoint cl (b : bool) (s : string) : bool :=
  match s with EmptyString => true | String c t => negb (b && (Ascii.eqb c "/" || Ascii.eqb c "*")) && cl (slash c) t end.
Lemma cl_contains s : no_comment s -> cl false s = true.
Proof.
  unfold no_comment. induction s as [|c s IH]; [reflexivity|]. intros (H1 & H2). cbn [contains] in H1, H2. apply orb_false_iff in H1 as (A1 & B1). apply orb_false_iff in H2 as (A2 & B2).
  specialize (IH (conj B1 B2)). cbn [cl andb negb]. unfold slash. destruct (Ascii.eqb_spec c "/") as [-> | _]; [|exact IH]. destruct s as [|d s]; [reflexivity|].
  cbn [startswith] in A1, A2. change (Ascii.eqb "/" "/") with true in A1, A2. cbn [andb] in A1, A2. rewrite andb_true_r in A1, A2. rewrite Ascii.eqb_sym in A1, A2.
  cbn [cl] in IH |- *. rewrite A1, A2. exact IH.
Qed.
Definition neutral (s : string) : Prop := forall t, cl false (s +++ t) = cl false t.
Lemma neutral_app a b : neutral a -> neutral b -> neutral (a +++ b).
Proof. intros A B t. now rewrite app_assoc_s, A, B. Qed.
Lemma neutral_nil : neutral EmptyString. Proof. intros t. reflexivity. Qed.
Lemma neutral_chars s : nochar "/"%char s = true -> neutral s.
Proof.
  induction s as [|c s IH]; intros H t; [reflexivity|]. rewrite nochar_cons in H. apply andb_true_iff in H as (C & H). apply negb_true_iff in C. cbn [String.append cl andb negb]. unfold slash. rewrite C. now apply IH.
Qed.
Lemma cl_char b c t : cl b (hs (json_char c) +++ t) = cl b (String c t).
Proof. destruct c as [[] [] [] [] [] [] [] []]; destruct b; reflexivity. Qed.
Lemma cl_quote : forall s b t, cl b (s +++ String DQc t) = cl b s && cl false t.
Proof.
  induction s as [|c s IH]; intros b t; [cbn [String.append cl]; now rewrite andb_false_r|]. cbn [String.append cl]. now rewrite IH, andb_assoc.
Qed.
Lemma neutral_qt s : no_comment s -> neutral (qt s).
Proof.
  intros H t. rewrite qt_eq. cbn [String.append]. change (cl false (String DQc ?x)) with (cl false x). rewrite app_assoc_s.
  assert (G : forall s b t, cl b (fm (fun c => hs (json_char c)) s +++ DQ +++ t) = cl b (s +++ String DQc t)).
  { clear. induction s as [|c s IH]; intros b t; [reflexivity|]. cbn [fm]. rewrite app_assoc_s, cl_char. cbn [String.append cl]. now rewrite IH. }
  rewrite G, cl_quote, (cl_contains _ H). reflexivity.
Qed.
Lemma nochar_spaces c n : c <> " "%char -> nochar c (spaces n) = true.
Proof. intros H. induction n as [|n IH]; [reflexivity|]. change (spaces (S n)) with (String " " (spaces n)). rewrite nochar_cons, IH, andb_true_r, negb_true_iff. apply Ascii.eqb_neq. congruence. Qed.
Lemma neutral_spaces n : neutral (spaces n).
Proof. apply neutral_chars, nochar_spaces. discriminate. Qed.
Lemma neutral_items o c level l : neutral o -> neutral c -> (forall x, In x l -> neutral x) -> neutral (json_items o c level l).
Proof.
  intros Ho Hc H. destruct l as [|x l]; [now apply neutral_app|]. unfold json_items. repeat apply neutral_app; try apply neutral_spaces; try assumption; try (apply neutral_chars; reflexivity).
  assert (Hs : neutral ("," +++ NL +++ spaces (4 * S level))) by (repeat apply neutral_app; try apply neutral_spaces; apply neutral_chars; reflexivity).
  revert H. generalize (x :: l). clear -Hs. intros l. induction l as [|x l IH]; intros H; [apply neutral_nil|]. destruct l as [|y l]; [apply H; now left|].
  change (join ?s (x :: y :: l)) with (x +++ s +++ join s (y :: l)). apply neutral_app; [apply H; now left|]. apply neutral_app; [exact Hs | apply IH; intros; apply H; now right].
Qed.
Lemma numch_nochar c s : sforall numch s = true -> numch c = false -> nochar c s = true.
Proof.
  intros H Hc. induction s as [|d s IH]; [reflexivity|]. cbn [sforall] in H. apply andb_true_iff in H as (C & H). rewrite nochar_cons, (IH H), andb_true_r, negb_true_iff.
  apply Ascii.eqb_neq. intros ->. congruence.
Qed.
Lemma neutral_doc v : forall level, document no_comment v -> neutral (jt level v).
Proof.
  induction v as [|b|z|r|s|l IH|d IH] using val_ind'; intros level H; inversion H; subst.
  - apply neutral_chars. reflexivity.
  - destruct b; apply neutral_chars; reflexivity.
  - rewrite jt_int. apply neutral_chars, numch_nochar; [apply int_numch | reflexivity].
  - rewrite jt_float by assumption. apply neutral_chars, numch_nochar; [now apply float_numch | reflexivity].
  - now apply neutral_qt.
  - rewrite jt_list. apply neutral_items; try (apply neutral_chars; reflexivity). intros x Hx. apply in_map_iff in Hx as (v & <- & Hv). apply IH; auto.
  - rewrite jt_dict. apply neutral_items; try (apply neutral_chars; reflexivity). intros x Hx. apply in_map_iff in Hx as ([k v] & <- & Hv).
    apply (Permutation.Permutation_in _ (ssort_perm d)) in Hv. destruct (H2 k v Hv) as (A & B). unfold member_text. cbn [fst snd]. apply neutral_app; [now apply neutral_qt|]. apply neutral_app; [apply neutral_chars; reflexivity | now apply (IH k v)].
Qed.
(** ** Lines *)
Definition line_ok (x : string) : Prop := x <> EmptyString /\ oneline x = true /\ startswith "/" x = false.
Definition lined (s : string) : Prop := exists l ls, s = l +++ J ls /\ line_ok l /\ forall x, In x ls -> line_ok x.
Lemma lined_line l : line_ok l -> lined l.
Proof. intros H. exists l, []. split; [now rewrite app_nil_s | split; [exact H | intros ? []]]. Qed.
Lemma lined_nl a b : lined a -> lined b -> lined (a +++ NL +++ b).
Proof.
  intros (l & ls & -> & H1 & H2) (m & ms & -> & H3 & H4). exists l, (ls ++ m :: ms)%list. rewrite J_app. cbn [J]. rewrite !app_assoc_s. split; [reflexivity|]. split; [exact H1|].
  intros x Hx. apply in_app_iff in Hx as [Hx | [<- | Hx]]; auto.
Qed.
Lemma oneline_app a b : oneline (a +++ b) = oneline a && oneline b. Proof. apply nochar_app. Qed.
Lemma line_ok_app a b : line_ok a -> oneline b = true -> line_ok (a +++ b).
Proof.
  intros (A1 & A2 & A3) Hb. destruct a as [|c a]; [congruence|]. repeat split; [discriminate | now rewrite oneline_app, A2 | exact A3].
Qed.
Lemma lined_prefix a b : oneline a = true -> startswith "/" a = false -> lined b -> lined (a +++ b).
Proof.
  intros H1 H2 (l & ls & -> & (L1 & L2 & L3) & H). exists (a +++ l), ls. rewrite app_assoc_s. split; [reflexivity|]. split; [split; [|split; [now rewrite oneline_app, H1|]]|exact H].
  - destruct a; [exact L1 | discriminate].
  - destruct a; [exact L3 | exact H2].
Qed.
Lemma snoc_list {A} (l : list A) : l = [] \/ exists m x, l = (m ++ [x])%list.
Proof. induction l as [|a l [-> | (m & x & ->)]]; [now left | right; now exists [], a | right; now exists (a :: m), x]. Qed.
Lemma lined_suffix a b : lined a -> oneline b = true -> lined (a +++ b).
Proof.
  intros (l & ls & -> & H1 & H2) Hb. destruct (snoc_list ls) as [-> | (ms & m & ->)].
  - exists (l +++ b), []. cbn [J]. rewrite !app_nil_s. split; [reflexivity|]. split; [now apply line_ok_app | intros ? []].
  - exists l, (ms ++ [m +++ b])%list. rewrite !J_app. cbn [J]. rewrite !app_nil_s, !app_assoc_s. split; [reflexivity|]. split; [exact H1|].
    intros x Hx. apply in_app_iff in Hx as [Hx | [<- | []]]; [apply H2, in_app_iff; now left | apply line_ok_app; [apply H2, in_app_iff; right; now left | exact Hb]].
Qed.
Lemma slashless a : startswith "/" (spaces a) = false. Proof. destruct a; reflexivity. Qed.
Lemma lined_spaces n s : lined s -> lined (spaces n +++ s).
Proof. intros Hs. apply lined_prefix; [apply nochar_spaces; discriminate | apply slashless | exact Hs]. Qed.
Lemma lined_join n : forall l, l <> [] -> (forall x, In x l -> lined x) -> lined (join ("," +++ NL +++ spaces n) l).
Proof.
  induction l as [|x l IH]; intros Hne H; [congruence|]. destruct l as [|y l]; [apply H; now left|].
  change (join ?s (x :: y :: l)) with (x +++ s +++ join s (y :: l)). replace (x +++ ("," +++ NL +++ spaces n) +++ join ("," +++ NL +++ spaces n) (y :: l))
    with ((x +++ ",") +++ NL +++ (spaces n +++ join ("," +++ NL +++ spaces n) (y :: l))) by now rewrite !app_assoc_s.
  apply lined_nl; [apply lined_suffix; [apply H; now left | reflexivity]|]. apply lined_spaces, IH; [discriminate | intros; apply H; now right].
Qed.
Lemma lined_items o c level l : line_ok o -> line_ok c -> (forall x, In x l -> lined x) -> lined (json_items o c level l).
Proof.
  intros Ho Hc H. destruct l as [|x l]; [apply lined_suffix; [now apply lined_line | apply Hc]|]. unfold json_items. cbv iota.
  apply lined_nl; [now apply lined_line|].
  rewrite <- (app_assoc_s (spaces (4 * S level))). apply lined_nl; [|now apply lined_spaces, lined_line].
  apply lined_spaces, lined_join; [discriminate | exact H].
Qed.
Lemma oneline_qt s : oneline (qt s) = true.
Proof.
  rewrite qt_eq. change (String DQc ?x) with (DQ +++ x). rewrite !oneline_app. change (oneline DQ) with true. rewrite andb_true_r. cbn [andb].
  induction s as [|c s IH]; [reflexivity|]. cbn [fm]. rewrite oneline_app, IH, andb_true_r. destruct c as [[] [] [] [] [] [] [] []]; reflexivity.
Qed.
Lemma line_qt s : line_ok (qt s).
Proof. split; [|split; [apply oneline_qt|]]; rewrite qt_eq; [discriminate | reflexivity]. Qed.
Lemma line_num c u : numeric c -> sforall numch (String c u) = true -> line_ok (String c u).
Proof.
  intros N H. split; [discriminate|]. split; [apply numch_nochar; [exact H | reflexivity]|]. cbn [startswith]. rewrite andb_true_r. destruct N as [-> | N]; [reflexivity|].
  apply Ascii.eqb_neq. intros <-. discriminate N.
Qed.
Lemma lined_doc P v : forall level, document P v -> lined (jt level v).
Proof.
  induction v as [|b|z|r|s|l IH|d IH] using val_ind'; intros level H; inversion H; subst.
  - apply lined_line. repeat split. discriminate.
  - destruct b; apply lined_line; repeat split; discriminate.
  - rewrite jt_int. destruct (int_head z "") as (c & u & E & N). rewrite app_nil_s in E. pose proof (int_numch z) as Hz. rewrite E in Hz |- *. now apply lined_line, line_num.
  - rewrite jt_float by assumption. destruct (float_head r "" ltac:(assumption)) as (c & u & E & N). rewrite app_nil_s in E. pose proof (float_numch r ltac:(assumption)) as Hz. rewrite E in Hz |- *. now apply lined_line, line_num.
  - apply lined_line, line_qt.
  - rewrite jt_list. apply lined_items; try (repeat split; discriminate). intros x Hx. apply in_map_iff in Hx as (v & <- & Hv). apply IH; auto.
  - rewrite jt_dict. apply lined_items; try (repeat split; discriminate). intros x Hx. apply in_map_iff in Hx as ([k v] & <- & Hv).
    apply (Permutation.Permutation_in _ (ssort_perm d)) in Hv. destruct (H2 k v Hv) as (A & B). unfold member_text. cbn [fst snd]. rewrite <- app_assoc_s. apply lined_prefix; [|rewrite qt_eq; reflexivity | now apply (IH k v)].
    rewrite oneline_app, oneline_qt. reflexivity.
Qed.
(** Everything is ASCII *)
Lemma ascii_qt s : ascii_text (qt s).
Proof.
  rewrite qt_eq. change (String DQc ?x) with (DQ +++ x). rewrite !ascii_app. split; [reflexivity|]. split; [|reflexivity].
  induction s as [|c s IH]; [reflexivity|]. cbn [fm]. rewrite ascii_app. split; [|exact IH]. destruct c as [[] [] [] [] [] [] [] []]; reflexivity.
Qed.
Lemma ascii_spaces n : ascii_text (spaces n).
Proof. induction n as [|n IH]; [reflexivity|]. exact IH. Qed.
Lemma ascii_join sep l : ascii_text sep -> (forall x, In x l -> ascii_text x) -> ascii_text (join sep l).
Proof.
  intros Hs. induction l as [|x l IH]; intros H; [reflexivity|]. destruct l as [|y l]; [apply H; now left|].
  change (join sep (x :: y :: l)) with (x +++ sep +++ join sep (y :: l)). rewrite !ascii_app. split; [apply H; now left|]. split; [exact Hs|]. apply IH. intros. apply H. now right.
Qed.
Lemma ascii_items o c level l : ascii_text o -> ascii_text c -> (forall x, In x l -> ascii_text x) -> ascii_text (json_items o c level l).
Proof.
  intros Ho Hc H. destruct l as [|x l]; [unfold json_items; rewrite ascii_app; now split|]. unfold json_items. rewrite !ascii_app. pose proof (ascii_spaces (4 * S level)). pose proof (ascii_spaces (4 * level)).
  repeat split; try assumption. apply ascii_join; [rewrite !ascii_app; now repeat split | exact H].
Qed.
Lemma numch_ascii s : sforall numch s = true -> ascii_text s.
Proof.
  unfold ascii_text. induction s as [|c s IH]; [reflexivity|]. cbn [sforall]. intros H. apply andb_true_iff in H as (C & H). rewrite (IH H), andb_true_r. destruct c as [[] [] [] [] [] [] [] []]; try discriminate C; reflexivity.
Qed.
Lemma ascii_doc P v : forall level, document P v -> ascii_text (jt level v).
Proof.
  induction v as [|b|z|r|s|l IH|d IH] using val_ind'; intros level H; inversion H; subst.
  - reflexivity.
  - destruct b; reflexivity.
  - rewrite jt_int. apply numch_ascii, int_numch.
  - rewrite jt_float by assumption. now apply numch_ascii, float_numch.
  - apply ascii_qt.
  - rewrite jt_list. apply ascii_items; try reflexivity. intros x Hx. apply in_map_iff in Hx as (v & <- & Hv). apply IH; auto.
  - rewrite jt_dict. apply ascii_items; try reflexivity. intros x Hx. apply in_map_iff in Hx as ([k v] & <- & Hv).
    apply (Permutation.Permutation_in _ (ssort_perm d)) in Hv. destruct (H2 k v Hv) as (A & B). unfold member_text. cbn [fst snd]. rewrite !ascii_app. repeat split; [apply ascii_qt | now apply (IH k v)].
Qed.
Lemma tight_dict level d : tight (jt level (VDict d)).
Proof.
  rewrite jt_dict. assert (G : exists m, json_items "{" "}" level (map (member_text (S level)) (ssort d)) = "{" +++ m +++ "}").
  { unfold json_items. destruct (map (member_text (S level)) (ssort d)) as [|y m]; [exists ""; reflexivity|].
    exists (NL +++ spaces (4 * S level) +++ join ("," +++ NL +++ spaces (4 * S level)) (y :: m) +++ NL +++ spaces (4 * level)). now rewrite !app_assoc_s. }
  destruct G as (m & ->). split; [discriminate|]. split; [intros c r E; injection E as <- _; reflexivity|]. intros r c E. rewrite <- app_assoc_s in E. apply (f_equal srev) in E. rewrite !srev_app in E. injection E as <- _. reflexivity.
Qed.

(** ** The text of the networks *)
Definition js (v : dict) : string := jt 0 (VDict v).
Lemma tojson_js v : tojson (VDict v) = js v. Proof. unfold tojson. now rewrite html_safe_hs. Qed.
Definition zid (v : dict) : string := tpl_get "nwid" v.
Definition zhead : string := "// zerotier controller config: ".
(** A network and the number of newlines after it, less one *)
Definition zblock (v : dict) : string := zhead +++ zid v +++ zt_suffix +++ NL +++ NL +++ js v.
Definition ztext (l : list (dict * nat)) : string := fold_right (fun p acc => zblock (fst p) +++ nls (S (snd p)) +++ acc) EmptyString l.
Lemma ztext_app a b : ztext (a ++ b) = ztext a +++ ztext b.
Proof. induction a as [|p a IH]; [reflexivity|]. cbn [app ztext fold_right]. fold (ztext (a ++ b)). fold (ztext a). now rewrite IH, !app_assoc_s. Qed.
Lemma tpl_ztext vs : fold_right (fun v acc => tpl_zt v +++ acc) EmptyString vs = ztext (map (fun v => (v, 1)) vs).
Proof.
  induction vs as [|v vs IH]; [reflexivity|]. cbn [fold_right map ztext]. fold (ztext (map (fun v => (v, 1)) vs)). rewrite IH. unfold tpl_zt, zblock, zhead, zid. rewrite tojson_js, !app_assoc_s. reflexivity.
Qed.
Lemma cleanup_ztext ws w : zt_cleanup (ztext (map (fun v => (v, 1)) (ws ++ [w]))) = ztext (map (fun v => (v, 1)) ws ++ [(w, 0)]).
Proof.
  rewrite map_app, !ztext_app. cbn [map ztext fold_right fst snd]. change (nls 2 +++ "") with (NL +++ NL). change (nls 1 +++ "") with NL. rewrite <- !app_assoc_s. unfold zt_cleanup.
  rewrite (app_assoc_s _ NL NL), endswith_nn. rewrite <- (app_assoc_s _ NL NL). unfold NL at 2. now rewrite sinit_snoc.
Qed.
Lemma render_ztext data ws w : dget "zerotier" data = Some (VList (map VDict (ws ++ [w]))) ->
  render_zerotier data = Ok (ztext (map (fun v => (v, 1)) ws ++ [(w, 0)])).
Proof. intros H. unfold render_zerotier, vpns_of. rewrite H, blocks_map. cbn [bind]. now rewrite tpl_ztext, cleanup_ztext. Qed.
(** ** Reading *)
Lemma uncomment_clean s r : cl false s = true -> uncomment 0 (s +++ NL +++ r) = s +++ NL +++ uncomment 0 r.
Proof.
  induction s as [|c s IH]; intros H; [reflexivity|]. cbn [cl andb negb] in H. cbn [String.append uncomment].
  assert (G : startswith "/*" (String c (s +++ NL +++ r)) = false /\ startswith "//" (String c (s +++ NL +++ r)) = false).
  { cbn [startswith]. unfold slash in H. rewrite (Ascii.eqb_sym "/" c). destruct (Ascii.eqb c "/"); [|split; reflexivity]. cbn [andb]. destruct s as [|d s]; [split; reflexivity|].
    cbn [String.append cl andb] in H |- *. cbn [startswith]. rewrite !andb_true_r. apply andb_true_iff in H as (H & _). apply negb_true_iff, orb_false_iff in H as (A & B). rewrite (Ascii.eqb_sym "*"), (Ascii.eqb_sym "/"). now split. }
  destruct G as (-> & ->). rewrite IH; [reflexivity|]. destruct (slash c); [|exact H]. clear -H. destruct s as [|d s]; [reflexivity|]. cbn [cl] in H |- *. apply andb_true_iff in H as (_ & H). exact H.
Qed.
Lemma uncomment_skip : forall s r, oneline s = true -> uncomment (String.length s) (s +++ r) = uncomment 0 r.
Proof.
  induction s as [|c s IH]; intros r H; [reflexivity|]. unfold oneline in H. rewrite nochar_cons in H. apply andb_true_iff in H as (_ & H). cbn [String.length String.append uncomment]. now apply IH.
Qed.
Lemma line_length_ok s r : oneline s = true -> line_length (s +++ NL +++ r) = String.length s.
Proof.
  induction s as [|c s IH]; intros H; [reflexivity|]. unfold oneline in H. rewrite nochar_cons in H. apply andb_true_iff in H as (C & H). apply negb_true_iff in C. cbn [String.append line_length String.length]. rewrite C. now rewrite IH.
Qed.
Lemma uncomment_line s r : oneline s = true -> uncomment 0 ("//" +++ s +++ NL +++ r) = NL +++ uncomment 0 r.
Proof.
  intros H. change ("//" +++ s +++ NL +++ r) with (String "/" (String "/" s +++ NL +++ r)). cbn [uncomment].
  change (startswith "/*" (String "/" (String "/" s +++ NL +++ r))) with false. change (startswith "//" (String "/" (String "/" s +++ NL +++ r))) with true. cbv iota.
  assert (E : line_length (String "/" (String "/" s +++ NL +++ r)) - 1 = String.length (String "/" s)).
  { change (String "/" (String "/" s +++ NL +++ r)) with (("//" +++ s) +++ NL +++ r). rewrite line_length_ok by exact H. cbn. lia. }
  rewrite E, uncomment_skip by exact H. reflexivity.
Qed.
Definition fine (v : dict) : Prop := document no_comment (VDict v) /\ oneline (zid v) = true.
Definition bare (l : list (dict * nat)) : string := fold_right (fun p acc => nls 2 +++ js (fst p) +++ nls (S (snd p)) +++ acc) EmptyString l.
Lemma uncomment_nls n r : uncomment 0 (nls n +++ r) = nls n +++ uncomment 0 r.
Proof. induction n as [|n IH]; [reflexivity|]. rewrite nls_S. cbn [String.append uncomment]. now rewrite IH. Qed.
Lemma uncomment_ztext l : (forall p, In p l -> fine (fst p)) -> uncomment 0 (ztext l) = bare l.
Proof.
  induction l as [|[v n] l IH]; intros H; [reflexivity|]. destruct (H _ (or_introl eq_refl)) as (D & Hi). cbn [fst] in *. cbn [ztext bare fold_right fst snd]. fold (ztext l). fold (bare l).
  replace (zblock v +++ nls (S n) +++ ztext l) with ("//" +++ (" zerotier controller config: " +++ zid v +++ zt_suffix) +++ NL +++ (NL +++ js v +++ nls (S n) +++ ztext l))
    by (unfold zblock, zhead; rewrite !app_assoc_s; reflexivity).
  rewrite uncomment_line by (rewrite !oneline_app, Hi; reflexivity).
  change (NL +++ ?x) with (nls 1 +++ x). rewrite (uncomment_nls 1). change (nls (S n) +++ ztext l) with (NL +++ (nls n +++ ztext l)).
  pose proof (neutral_doc _ 0 D "") as N. rewrite app_nil_s in N. rewrite uncomment_clean by exact N. rewrite uncomment_nls, IH by (intros; apply H; now right). reflexivity.
Qed.
(** The pieces *)
Lemma runs_line b cur x r : x <> EmptyString -> oneline x = true -> split_runs b cur (x +++ r) = split_runs false (srev_onto x cur) r.
Proof.
  revert b cur. induction x as [|c x IH]; intros b cur Hn H; [congruence|]. unfold oneline in H. rewrite nochar_cons in H. apply andb_true_iff in H as (C & H). apply negb_true_iff in C.
  cbn [String.append split_runs srev_onto]. rewrite C. rewrite andb_false_r. cbn [andb]. destruct x as [|d x]; [reflexivity|]. apply IH; [discriminate | exact H].
Qed.
Lemma runs_lines ls : (forall x, In x ls -> line_ok x) -> forall cur r, split_runs false cur (J ls +++ r) = split_runs false (srev_onto (J ls) cur) r.
Proof.
  induction ls as [|x ls IH]; intros H cur r; [reflexivity|]. destruct (H x (or_introl eq_refl)) as (A & B & _). cbn [J]. unfold NL. cbn [String.append split_runs andb srev_onto].
  rewrite app_assoc_s. assert (S : startswith NL (x +++ J ls +++ r) = false).
  { destruct x as [|c x]; [congruence|]. unfold oneline in B. rewrite nochar_cons in B. apply andb_true_iff in B as (B & _). apply negb_true_iff in B. cbn [String.append startswith NL]. unfold NL. cbn [startswith]. now rewrite Ascii.eqb_sym, B. }
  rewrite S, andb_false_r. rewrite runs_line by assumption. rewrite IH by (intros; apply H; now right). f_equal. apply srev_inj. now rewrite !srev_srev_onto, !app_assoc_s.
Qed.
Lemma runs_lined b s r : lined s -> split_runs b EmptyString (s +++ r) = split_runs false (srev s) r.
Proof.
  intros (l & ls & -> & (A & B & _) & H). rewrite app_assoc_s, runs_line by assumption. rewrite runs_lines by exact H. f_equal. apply srev_inj. now rewrite !srev_srev_onto, srev_invol.
Qed.
Lemma runs_skip n cur r : split_runs true cur (nls n +++ r) = split_runs true cur r.
Proof. induction n as [|n IH]; [reflexivity|]. rewrite nls_S. cbn [String.append split_runs]. exact IH. Qed.
Fixpoint mid (v : dict) (n : nat) (l : list (dict * nat)) : string :=
  match l with [] => js v | (w, m) :: l => js v +++ nls (S (S (S n))) +++ mid w m l end.
Lemma nls_app a b : nls a +++ nls b = nls (a + b).
Proof. induction a as [|a IH]; [reflexivity|]. cbn [Nat.add]. rewrite !nls_S. cbn [String.append]. now rewrite IH. Qed.
Lemma bare_mid : forall l v n, exists k, bare ((v, n) :: l) = nls 2 +++ mid v n l +++ nls k.
Proof.
  induction l as [|[w m] l IH]; intros v n; cbn [bare fold_right fst snd mid].
  - exists (S n). now rewrite app_nil_s.
  - fold (bare l). change (nls 2 +++ js w +++ nls (S m) +++ bare l) with (bare ((w, m) :: l)). destruct (IH w m) as (k & ->). exists k. rewrite !app_assoc_s. do 2 f_equal.
    rewrite <- app_assoc_s, nls_app. do 2 f_equal. lia.
Qed.
Lemma tight_mid : forall l v n, tight (mid v n l).
Proof. induction l as [|[w m] l IH]; intros v n; cbn [mid]; [apply tight_dict|]. apply tight_app; [apply tight_dict | apply IH]. Qed.
Lemma runs_mid P : forall l v n b, document P (VDict v) -> (forall p, In p l -> document P (VDict (fst p))) ->
  split_runs b EmptyString (mid v n l) = js v :: map (fun p => js (fst p)) l.
Proof.
  induction l as [|[w m] l IH]; intros v n b Hv Hl; cbn [mid map fst].
  - pose proof (runs_lined b (js v) "" (lined_doc P _ 0 Hv)) as R. rewrite app_nil_s in R. rewrite R. cbn [split_runs]. now rewrite srev_invol.
  - rewrite runs_lined by exact (lined_doc P _ 0 Hv). rewrite !nls_S. cbn [String.append split_runs andb]. change (Ascii.eqb NLc NLc) with true. change (startswith NL (String NLc ?x)) with true. cbn [andb].
    rewrite runs_skip, srev_invol. f_equal. apply IH; [apply (Hl _ (or_introl eq_refl)) | intros; apply Hl; now right].
Qed.
Lemma filter_js (vs : list dict) : filter (fun p => negb (String.eqb (strip p) EmptyString)) (map js vs) = map js vs.
Proof.
  induction vs as [|v vs IH]; [reflexivity|]. cbn [map filter]. pose proof (strip_tight _ "" "" (tight_dict 0 v) eq_refl eq_refl) as E. cbn [String.append] in E. rewrite app_nil_s in E. fold (js v) in E. rewrite E.
  destruct (tight_dict 0 v) as (N & _). fold (js v) in N. rewrite (eqb_neq _ _ N). cbn [negb]. now rewrite IH.
Qed.
Lemma parse_ztext l : l <> [] -> (forall p, In p l -> fine (fst p)) -> parse_zerotier (ztext l) = Ok [("zerotier", VList (map (fun p => canon (VDict (fst p))) l))].
Proof.
  intros Hne H. unfold parse_zerotier. rewrite uncomment_ztext by exact H. destruct l as [|[v n] l]; [congruence|]. destruct (bare_mid l v n) as (k & ->).
  rewrite strip_tight by (apply tight_mid || apply nls_space). rewrite (runs_mid no_comment); [| apply (H _ (or_introl eq_refl)) | intros p Hp; apply H; now right].
  change (js v :: map (fun p => js (fst p)) l) with (map (fun p : dict * nat => js (fst p)) ((v, n) :: l)). rewrite <- (map_map fst js), filter_js.
  assert (M : forall vs, (forall v, In v vs -> document no_comment (VDict v)) -> mapM loads (map js vs) = Ok (map (fun v => canon (VDict v)) vs)).
  { clear. induction vs as [|v vs IH]; intros H; [reflexivity|]. cbn [map mapM]. rewrite <- tojson_js, (loads_tojson no_comment) by (apply H; now left). cbn [bind]. rewrite IH by (intros; apply H; now right). reflexivity. }
  rewrite M; [cbn [bind]; now rewrite map_map|]. intros w Hw. apply in_map_iff in Hw as (p & <- & Hp). now apply H.
Qed.
(** ** The archive *)
Definition zpiece (p : dict * nat) : string := zid (fst p) +++ zt_suffix +++ NL +++ NL +++ js (fst p) +++ nls (S (snd p)).
Lemma split_nls_zt b cur n Y : split_bol zt_header b 0 cur (nls (S n) +++ Y) = split_bol zt_header true 0 (srev_onto (nls (S n)) cur) Y.
Proof.
  revert b cur; induction n as [|n IH]; intros b cur.
  - change (nls 1 +++ Y) with (String NLc Y). rewrite split_nl by reflexivity. reflexivity.
  - rewrite nls_S. cbn [String.append]. rewrite split_nl by reflexivity. rewrite IH. reflexivity.
Qed.
Lemma split_hit_zt cur Y : split_bol zt_header true 0 cur (zhead +++ Y) = srev cur :: split_bol zt_header false 0 EmptyString Y.
Proof. reflexivity. Qed.
Lemma quiet_line x : line_ok x -> quiet zt_header x.
Proof. intros (A & B & C). split; [exact B|]. right. intros Y. destruct x as [|c x]; [congruence|]. cbn [String.append zt_header startswith]. cbn [startswith] in C. rewrite andb_true_r in C. unfold zt_header. cbn [startswith]. now rewrite C. Qed.
Definition named (v : dict) : Prop := (exists P, document P (VDict v)) /\ oneline (zid v) = true.
Lemma js_lines v : named v -> exists ls, NL +++ js v = J ls /\ forall x, In x ls -> line_ok x.
Proof. intros ((P & D) & _). destruct (lined_doc P _ 0 D) as (l & ls & E & A & B). exists (l :: ls). unfold js. rewrite E. split; [reflexivity|]. intros x [<- | Hx]; auto. Qed.
Lemma split_ztext l : (forall p, In p l -> named (fst p)) -> forall cur, split_bol zt_header true 0 cur (ztext l) = srev cur :: map zpiece l.
Proof.
  induction l as [|[v n] l IH]; intros H cur; [reflexivity|]. pose proof (H _ (or_introl eq_refl)) as Hv. cbn [fst] in Hv. destruct (js_lines v Hv) as (ls & E & L). destruct Hv as (_ & Hi).
  cbn [ztext fold_right fst snd map]. fold (ztext l).
  replace (zblock v +++ nls (S n) +++ ztext l) with (zhead +++ ((zid v +++ zt_suffix) +++ J ("" :: ls) +++ nls (S n) +++ ztext l))
    by (cbn [J String.append]; rewrite <- E; unfold zblock; rewrite !app_assoc_s; reflexivity).
  rewrite split_hit_zt. rewrite split_pass by (rewrite oneline_app, Hi; reflexivity).
  destruct (split_quiet zt_header ("" :: ls) eq_refl eq_refl) with (b := false) (cur := srev_onto (zid v +++ zt_suffix) "") (Y := nls (S n) +++ ztext l) as (b' & E').
  { intros x [<- | Hx]; [split; [reflexivity | now left] | now apply quiet_line, L]. }
  rewrite E', split_nls_zt, IH by (intros; apply H; now right). f_equal. f_equal. unfold zpiece. rewrite !srev_srev_onto. cbn [J fst snd]. change (srev "") with "". cbn [String.append]. rewrite <- E.
  rewrite !app_assoc_s. reflexivity.
Qed.
(** What the member of a network holds *)
Definition zcontents (p : dict * nat) : string := js (fst p) +++ nls (if (snd p =? 0)%nat then 1 else snd p).
Definition zt_member (p : dict * nat) : member :=
  {| m_name := zid (fst p) +++ zt_suffix; m_mode := 420; m_mtime := 0; m_data := zcontents p |}.
Lemma before_suffix n : contains zt_suffix n = false -> before zt_suffix (n +++ zt_suffix) = n.
Proof.
  induction n as [|c n IH]; intros H; [reflexivity|]. cbn [contains] in H. apply orb_false_iff in H as (H1 & H2). specialize (IH H2).
  cbn [String.append before]. assert (S : startswith zt_suffix (String c (n +++ zt_suffix)) = false).
  { clear IH H2. unfold zt_suffix in *. cbn [startswith] in *. destruct (Ascii.eqb "." c) eqn:E; [|reflexivity]. cbn [andb] in *. destruct n as [|d n]; [reflexivity|]. cbn [startswith String.append] in *.
    destruct (Ascii.eqb "j" d); [|reflexivity]. cbn [andb] in *. destruct n as [|e n]; [reflexivity|]. cbn [startswith String.append] in *.
    destruct (Ascii.eqb "s" e); [|reflexivity]. cbn [andb] in *. destruct n as [|f n]; [reflexivity|]. cbn [startswith String.append] in *.
    destruct (Ascii.eqb "o" f); [|reflexivity]. cbn [andb] in *. destruct n as [|g n]; [reflexivity|]. cbn [startswith String.append] in *. exact H1. }
  rewrite S, IH. reflexivity.
Qed.
Lemma zt_contents p : named (fst p) -> snd p <= 1 -> exists lines,
  split_char NLc (zpiece p) = (zid (fst p) +++ zt_suffix) :: lines /\
  (let c := join NL (skipn 2 ((zid (fst p) +++ zt_suffix) :: lines)) in if endswith (NL +++ NL) c then sinit c else c) = zcontents p.
Proof.
  intros Hv Hn. destruct p as [v n]. cbn [fst snd] in *. destruct (js_lines v Hv) as (ls & E & L). destruct Hv as (_ & Hi). destruct ls as [|x ls]; [discriminate|].
  assert (Ej : js v = x +++ J ls) by (cbn [J] in E; injection E as E; exact E).
  exists (("" :: x :: ls) ++ repeat "" (S n))%list. unfold zpiece. cbn [fst snd]. split.
  - replace (zid v +++ zt_suffix +++ NL +++ NL +++ js v +++ nls (S n)) with ((zid v +++ zt_suffix) +++ J (("" :: x :: ls) ++ repeat "" (S n))).
    2:{ rewrite J_app, <- nls_J. cbn [J]. rewrite Ej, !app_assoc_s. reflexivity. }
    apply split_J; [rewrite oneline_app, Hi; reflexivity|]. rewrite forallb_app_iff, oneline_repeat, andb_true_r. apply forallb_forall. intros y [<- | Hy]; [reflexivity | now apply L].
  - cbn [app skipn]. rewrite join_J, J_app, <- nls_J, <- app_assoc_s, <- Ej. cbv zeta. rewrite tight_no_nn by apply tight_dict. unfold zcontents. cbn [fst snd]. destruct n as [|[|n]]; [reflexivity | | lia].
    cbn [Nat.ltb Nat.leb Nat.eqb]. rewrite (nls_snoc 1), <- app_assoc_s. unfold NL. now rewrite sinit_snoc.
Qed.
Lemma zcontents_ascii p : named (fst p) -> ascii_text (zcontents p).
Proof. intros ((P & D) & _). unfold zcontents. rewrite ascii_app. split; [exact (ascii_doc P _ 0 D) | apply nls_ascii]. Qed.
Lemma generate_zt_members l : (forall p, In p l -> named (fst p) /\ snd p <= 1 /\ contains zt_suffix (zid (fst p)) = false) ->
  generate_vpns zt_header zt_suffix (ztext l) [] = Ok (map zt_member l).
Proof.
  intros Hok. unfold generate_vpns, re_split. rewrite split_ztext by (intros p Hp; apply Hok, Hp). change (srev "") with EmptyString.
  cbn [remove_first_empty]. rewrite eqb_refl.
  change (map zt_member l) with ([] ++ map zt_member l)%list. generalize (@nil member).
  induction l as [|p l IH]; intros tar; [cbn; rewrite app_nil_r; reflexivity|]. cbn [map foldM].
  destruct (Hok _ (or_introl eq_refl)) as (H1 & H2 & H3). destruct (zt_contents p H1 H2) as (lines & E1 & E2). rewrite E1. cbv zeta in E2 |- *. rewrite E2.
  rewrite before_suffix by exact H3. unfold add_file at 1. change (parse_mode DEFAULT_FILE_MODE) with (Some 420%N). cbn [bind].
  rewrite (utf8_ascii _ (zcontents_ascii p H1)), stake_all. rewrite IH by (intros x Hx; apply Hok; right; exact Hx). rewrite <- app_assoc. reflexivity.
Qed.
Definition regap_zt (p : dict * nat) : dict * nat := (fst p, if (snd p =? 0)%nat then 1 else snd p).
Lemma zt_tar_text l : (forall p, In p l -> named (fst p)) ->
  forall extra, (forall m, In m extra -> endswith zt_suffix (m_name m) = false) ->
  zerotier_tar_text (map zt_member l ++ extra) = Ok (ztext (map regap_zt l)).
Proof.
  intros Hp extra He. unfold zerotier_tar_text. match goal with |- foldM ?f _ _ = _ => set (step := f) end.
  assert (Hx : forall text, foldM step text extra = Ok text).
  { clear -He. induction extra as [|m extra IH]; intros text; [reflexivity|]. cbn [foldM].
    replace (step text m) with (@Ok string text) by (unfold step; rewrite (He m (or_introl eq_refl)); reflexivity). cbn [bind]. apply IH. intros x Hx; apply He; right; exact Hx. }
  enough (G : forall text, foldM step text (map zt_member l ++ extra) = Ok (text +++ ztext (map regap_zt l))) by apply G.
  induction l as [|p l IH]; intros text; [cbn [map app ztext fold_right]; rewrite Hx, app_nil_s; reflexivity|].
  pose proof (Hp _ (or_introl eq_refl)) as H1. cbn [map app foldM].
  replace (step text (zt_member p)) with (@Ok string (text +++ zhead +++ (zid (fst p) +++ zt_suffix) +++ NL +++ NL +++ zcontents p +++ NL)).
  2:{ unfold step, zt_member. cbn [m_name m_data]. assert (Ee : endswith zt_suffix (zid (fst p) +++ zt_suffix) = true) by (apply endswith_true; eauto). rewrite Ee.
      rewrite (utf8_decode_ascii _ (zcontents_ascii _ H1)). reflexivity. }
  cbn [bind]. rewrite IH by (intros x Hx'; apply Hp; right; exact Hx'). f_equal.
  cbn [ztext fold_right map]. fold (ztext (map regap_zt l)). unfold zblock, zcontents. destruct p as [v n]. cbn [regap_zt fst snd]. rewrite !nls_snoc, !app_assoc_s. reflexivity.
Qed.
