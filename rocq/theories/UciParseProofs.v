(** * UciParseProofs: parsing the canonical UCI text (proofs only) *)
From Verif Require Import PyBase PyLemmas StrLemmas SortLemmas Files Uci SpecUci FilesProofs UciProofs.
From Coq Require Import Sorted Permutation.

(** ** Bare and plain text *)
Lemma bare_chars s : bare s -> nochar NLc s = true /\ nochar " "%char s = true /\ nochar SQc s = true /\ nochar DQc s = true /\
  sforall (fun c => negb (is_space c)) s = true.
Proof.
  unfold bare, nochar. induction s as [|c s IH]; [repeat split|]. cbn [sforall]. rewrite !andb_true_iff. intros [[[H1 H2] H3] H4].
  destruct (IH H4) as (I1 & I2 & I3 & I4 & I5). rewrite I1, I2, I3, I4, I5, H1, H2, H3.
  assert (Ascii.eqb c NLc = false) as -> by (apply Ascii.eqb_neq; intros ->; discriminate).
  assert (Ascii.eqb c " " = false) as -> by (apply Ascii.eqb_neq; intros ->; discriminate).
  repeat split.
Qed.
Lemma plain_chars s : plain s -> nochar NLc s = true /\ nochar SQc s = true /\ nochar DQc s = true /\ contains S4 s = false.
Proof. intros (H1 & H2 & H3 & H4). rewrite !no_char_spec in *. auto. Qed.
Lemma S4_def : S4 = String " " "   ". Proof. reflexivity. Qed.
Lemma S4_quoted v : contains S4 v = false -> contains S4 (" '" +++ v +++ "'") = false.
Proof.
  intros H. change (" '" +++ v +++ "'") with (" " +++ String "'" (v +++ String "'" "")).
  rewrite contains_sep by (reflexivity || discriminate). rewrite contains_sep by (reflexivity || discriminate).
  rewrite H. reflexivity.
Qed.
Lemma S4_opt w k v : (w = "option" \/ w = "list") -> word k -> contains S4 v = false -> contains S4 (opt_line w k v) = false.
Proof.
  intros Hw (Hn & Hk) Hv. apply bare_chars in Hk as (_ & Hk & _). destruct k as [|c k]; [congruence|].
  rewrite nochar_cons, andb_true_iff, negb_true_iff in Hk. destruct Hk as [Hc Hk].
  assert (E : opt_line w (String c k) v = (w +++ " ") +++ String c (k +++ " '" +++ v +++ "'")) by (unfold opt_line; rewrite app_assoc_s; reflexivity).
  rewrite E, contains_sep; [|unfold S4; rewrite !nochar_cons; rewrite Ascii.eqb_sym, Hc; reflexivity|discriminate].
  apply orb_false_iff. split; [destruct Hw as [->| ->]; reflexivity|].
  rewrite S4_def, contains_skip by exact Hk. rewrite <- S4_def. apply S4_quoted; exact Hv.
Qed.
Lemma S4_head t n : word t -> bare n -> contains S4 ("config " +++ t +++ " '" +++ n +++ "'") = false.
Proof.
  intros (Hn & Ht) Hb. apply bare_chars in Ht as (_ & Ht & _). apply bare_chars in Hb as (_ & Hb & _).
  destruct t as [|c t]; [congruence|]. rewrite nochar_cons, andb_true_iff, negb_true_iff in Ht. destruct Ht as [Hc Ht].
  change ("config " +++ String c t +++ " '" +++ n +++ "'") with ("config " +++ String c (t +++ " '" +++ n +++ "'")).
  rewrite contains_sep; [|unfold S4; rewrite !nochar_cons; rewrite Ascii.eqb_sym, Hc; reflexivity|discriminate].
  rewrite S4_def, contains_skip by exact Ht. rewrite <- S4_def. rewrite S4_quoted; [reflexivity|]. rewrite S4_def. apply contains_nochar. exact Hb.
Qed.
Lemma item_text_value v t : In t (snd (item_texts v)) -> uci_value v <> None.
Proof. destruct v as [|b| | |[|c s]|[|x l]|[|x d]]; cbn; intros H; try contradiction; discriminate. Qed.
Lemma item_text_plain v t : writable v -> In t (snd (item_texts v)) -> plain t.
Proof.
  destruct v as [|b| | |[|c s]|l|d]; cbn [item_texts writable snd]; intros Hw H; try contradiction.
  - destruct H as [<-|[]]. destruct b; (split; [intros [|x [|]] r E; inversion E|split; [intros [|x [|]] r E; inversion E|split; [intros [|x [|]] r E; inversion E|reflexivity]]]).
  - destruct H as [<-|[]]; exact Hw.
  - destruct H as [<-|[]]; exact Hw.
  - destruct H as [<-|[]]; exact Hw.
  - apply in_map_iff in H as (x & <- & Hx). apply Hw; exact Hx.
  - apply in_map_iff in H as ([k x] & <- & Hx). eapply Hw; exact Hx.
Qed.
Definition sec_type (b : dict) (t n : string) : Prop :=
  dget ".type" b = Some (VStr t) /\ word t /\ dget ".name" b = Some (VStr n) /\ bare n.
Lemma head_line_eq b t n : sec_type b t n -> head_line b = "config " +++ t +++ " '" +++ n +++ "'".
Proof. intros (H1 & _ & H2 & _). unfold head_line, tpl_get. rewrite H1, H2. reflexivity. Qed.
Lemma body_line_ok b l : section_ok b -> In l (body_lines b) ->
  exists w k v t, l = opt_line w k t /\ (w = "option" \/ w = "list") /\ In (k, v) b /\ word k /\ plain t.
Proof.
  intros (_ & _ & Hs) H. destruct (body_line_form b l H) as (k & v & t & w & Hin & Hd & Hw & Ew & Ht & ->).
  destruct (Hs k v Hin Hd (item_text_value v t Ht)) as [Hk Hv].
  exists w, k, v, t. repeat split; auto; try apply Hk; apply (item_text_plain v t Hv Ht).
Qed.
Lemma oneline_opt w k t : (w = "option" \/ w = "list") -> word k -> plain t -> oneline (opt_line w k t) = true.
Proof.
  intros Hw (_ & Hk) Ht. apply bare_chars in Hk as (Hk & _). apply plain_chars in Ht as (Ht & _).
  unfold oneline, opt_line. rewrite !nochar_app, Hk, Ht. destruct Hw as [->| ->]; reflexivity.
Qed.
Definition pk_ok (q : string * list dict) : Prop := package_name (fst q) /\ forall b, In b (snd q) -> section_ok b.
Lemma lines_ok_of l : (forall q, In q l -> pk_ok q) -> lines_ok l.
Proof.
  intros H x Hx. apply in_flat_map in Hx as ([p bs] & Hq & Hx). destruct (H _ Hq) as [(P1 & P2 & P3 & P4) Hb]. cbn [fst snd] in *.
  unfold pkg_lines in Hx. destruct Hx as [<-|[<-|Hx]].
  - split; [unfold oneline, pkg_head; rewrite nochar_app; apply no_char_spec in P3; rewrite P3; reflexivity|].
    destruct (strip_id_tight p P2 P1) as (_ & Hf & _). destruct p as [|c p]; [congruence|]. specialize (Hf c p eq_refl).
    change (pkg_head (String c p)) with ("package " +++ String c p).
    assert (Hc : Ascii.eqb " " c = false) by (apply Ascii.eqb_neq; intros <-; discriminate).
    rewrite contains_sep; [|unfold S4; rewrite !nochar_cons; rewrite Hc; reflexivity|discriminate].
    change (contains "    " (String c p)) with (startswith "    " (String c p) || contains S4 p) in P4.
    apply orb_false_iff in P4 as [_ P4]. rewrite P4. reflexivity.
  - split; reflexivity.
  - apply in_app_iff in Hx as [Hx|[<-|[]]]; [|split; reflexivity].
    apply in_flat_map in Hx as (b & Hbin & Hx). pose proof (Hb b Hbin) as Hs. destruct Hx as [<-|Hx].
    + destruct Hs as (_ & (t & n & S1 & S2 & S3 & S4') & _).
      rewrite (head_line_eq b t n) by (repeat split; auto; apply S2). split; [|apply S4_head; assumption].
      destruct S2 as [_ S2]. apply bare_chars in S2 as (S2 & _). apply bare_chars in S4' as (S4' & _).
      unfold oneline. rewrite !nochar_app, S2, S4'. reflexivity.
    + apply in_app_iff in Hx as [Hx|[<-|[]]]; [|split; reflexivity].
      destruct (body_line_ok b x Hs Hx) as (w & k & v & t & -> & Hw & _ & Hk & Ht).
      split; [apply oneline_opt; assumption|apply S4_opt; auto; apply plain_chars; exact Ht].
Qed.

(** ** Splitting at keywords *)
Lemma srev_srev_onto s cur : srev (srev_onto s cur) = srev cur +++ s.
Proof. rewrite srev_onto_app. change (srev_onto s "") with (srev s). rewrite srev_app, srev_invol. reflexivity. Qed.
Lemma srev_inj a b : srev a = srev b -> a = b.
Proof. intros H. rewrite <- (srev_invol a), <- (srev_invol b), H. reflexivity. Qed.
Lemma split_pass kw cur s Y : oneline s = true ->
  split_bol kw false 0 cur (s +++ Y) = split_bol kw false 0 (srev_onto s cur) Y.
Proof.
  revert cur; induction s as [|c s IH]; intros cur H; [reflexivity|].
  unfold oneline in H. rewrite nochar_cons, andb_true_iff, negb_true_iff in H. destruct H as [H1 H2].
  cbn [String.append split_bol andb srev_onto]. rewrite H1. apply IH; exact H2.
Qed.
Lemma split_nl kw b cur Y : startswith kw NL = false -> nochar NLc kw = true ->
  split_bol kw b 0 cur (String NLc Y) = split_bol kw true 0 (String NLc cur) Y.
Proof.
  intros H Hk. cbn [split_bol]. assert (E : kw_match kw (String NLc Y) = false).
  { unfold kw_match. change (String NLc Y) with (EmptyString +++ String NLc Y). rewrite startswith_sep by exact Hk.
    destruct kw; [discriminate|reflexivity]. }
  rewrite E, andb_false_r. reflexivity.
Qed.
(** a whole line that does not start with the keyword *)
Lemma split_line kw b cur c l Y : oneline (String c l) = true ->
  startswith kw (String c l +++ Y) = false ->
  split_bol kw b 0 cur (String c l +++ Y) = split_bol kw false 0 (srev_onto (String c l) cur) Y.
Proof.
  intros H Hs. unfold oneline in H. rewrite nochar_cons, andb_true_iff, negb_true_iff in H. destruct H as [H1 H2].
  cbn [String.append split_bol]. cbn [String.append] in Hs. unfold kw_match. rewrite Hs. cbn [andb]. rewrite andb_false_r, H1.
  rewrite (split_pass kw _ l Y H2). reflexivity.
Qed.
Lemma split_hit kw cur Y : (kw = "package" \/ kw = "config") ->
  split_bol kw true 0 cur (kw +++ " " +++ Y) = srev cur :: split_bol kw false 0 EmptyString Y.
Proof. intros [->| ->]; reflexivity. Qed.

(** lines starting with a tab *)
Lemma split_topts kw b cur ls Y : (kw = "package" \/ kw = "config") -> forallb oneline ls = true ->
  exists b', split_bol kw b 0 cur (J (map (fun l => TAB +++ l) ls) +++ Y)
    = split_bol kw b' 0 (srev_onto (J (map (fun l => TAB +++ l) ls)) cur) Y.
Proof.
  intros Hk. revert b cur; induction ls as [|l ls IH]; intros b cur H; [exists b; reflexivity|].
  cbn [forallb] in H. apply andb_true_iff in H as [H1 H2].
  cbn [map J]. rewrite !app_assoc_s. change (NL +++ (TAB +++ l +++ J (map (fun l0 => TAB +++ l0) ls) +++ Y)) with
    (String NLc (String TABc l +++ (J (map (fun l0 => TAB +++ l0) ls) +++ Y))).
  rewrite split_nl by (destruct Hk as [->| ->]; reflexivity).
  rewrite split_line; [|unfold oneline; rewrite nochar_cons; exact H1|destruct Hk as [->| ->]; reflexivity].
  destruct (IH false (srev_onto (String TABc l) (String NLc cur)) H2) as (b' & E). exists b'. rewrite E. f_equal.
  apply srev_inj. rewrite !srev_srev_onto, srev_cons, !app_assoc_s. reflexivity.
Qed.
Lemma body_oneline b : section_ok b -> forallb oneline (body_lines b) = true.
Proof.
  intros Hs. apply forallb_forall. intros l Hl. destruct (body_line_ok b l Hs Hl) as (w & k & v & t & -> & Hw & _ & Hk & Ht).
  apply oneline_opt; assumption.
Qed.
Definition head_tail (b : dict) : string := tpl_get ".type" b +++ " '" +++ tpl_get ".name" b +++ "'".
Lemma head_tail_line b : head_line b = "config" +++ " " +++ head_tail b. Proof. reflexivity. Qed.
Lemma head_oneline b : section_ok b -> oneline (head_tail b) = true.
Proof.
  intros (_ & (t & n & S1 & [_ S2] & S3 & S4') & _). unfold head_tail, tpl_get. rewrite S1, S3. cbn [py_str].
  apply bare_chars in S2 as (S2 & _). apply bare_chars in S4' as (S4' & _).
  unfold oneline. rewrite !nochar_app, S2, S4'. reflexivity.
Qed.
Definition sect_lines (b : dict) : Prop := oneline (head_tail b) = true /\ forallb oneline (body_lines b) = true.
Lemma sect_lines_of b : section_ok b -> sect_lines b.
Proof. intros H. split; [apply head_oneline|apply body_oneline]; exact H. Qed.
(** The pieces of a package body, one per section, up to white space *)
Lemma split_blocks bs : (forall b, In b bs -> sect_lines b) -> forall b0 cur,
  exists sp ps, split_bol "config" b0 0 cur (J (cbody bs)) = (srev cur +++ sp) :: ps /\ sforall is_space sp = true /\
    Forall2 (fun b p => exists s, p = (head_tail b +++ J (topts b)) +++ s /\ sforall is_space s = true) bs ps.
Proof.
  induction bs as [|b bs IH]; intros Hok b0 cur.
  - exists EmptyString, []. cbn. rewrite app_nil_s. repeat split. constructor.
  - unfold cbody. cbn [flat_map app J]. fold (cbody bs).
    change (NL +++ "" +++ NL +++ head_line b +++ J (topts b ++ cbody bs)) with (String NLc (String NLc (head_line b +++ J (topts b ++ cbody bs)))).
    rewrite !split_nl by reflexivity. rewrite head_tail_line, !app_assoc_s, split_hit by (right; reflexivity).
    assert (Hs : sect_lines b) by (apply Hok; left; reflexivity).
    rewrite J_app, split_pass by (apply Hs).
    destruct (split_topts "config" false (srev_onto (head_tail b) "") (body_lines b) (J (cbody bs)) (or_intror eq_refl) (proj2 Hs)) as (b' & E).
    unfold topts at 1. rewrite E. fold (topts b).
    destruct (IH (fun x Hx => Hok x (or_intror Hx)) b' (srev_onto (J (topts b)) (srev_onto (head_tail b) ""))) as (sp & ps & E2 & Hsp & HF).
    rewrite E2. exists (NL +++ NL). eexists. split; [f_equal|split; [reflexivity|]].
    + rewrite !srev_cons. rewrite app_assoc_s. reflexivity.
    + constructor; [|exact HF]. exists sp. split; [|exact Hsp]. rewrite !srev_srev_onto. reflexivity.
Qed.
(** The pieces of the text, one per package, up to white space *)
Lemma split_cbody bs : (forall b, In b bs -> sect_lines b) -> forall b0 cur Y,
  exists b', split_bol "package" b0 0 cur (J (cbody bs) +++ Y) = split_bol "package" b' 0 (srev_onto (J (cbody bs)) cur) Y.
Proof.
  induction bs as [|b bs IH]; intros Hok b0 cur Y; [exists b0; reflexivity|].
  assert (Hs : sect_lines b) by (apply Hok; left; reflexivity).
  unfold cbody. cbn [flat_map app J]. fold (cbody bs). rewrite J_app, !app_assoc_s.
  change (NL +++ "" +++ NL +++ head_line b +++ J (topts b) +++ J (cbody bs) +++ Y) with (String NLc (String NLc (head_line b +++ J (topts b) +++ J (cbody bs) +++ Y))).
  rewrite !split_nl by reflexivity.
  change (head_line b +++ J (topts b) +++ J (cbody bs) +++ Y) with (String "c" ("onfig " +++ head_tail b) +++ J (topts b) +++ J (cbody bs) +++ Y).
  rewrite split_line; [| |reflexivity].
  2:{ change (oneline (String "c" ("onfig " +++ head_tail b))) with (oneline ("config " +++ head_tail b)). unfold oneline. rewrite nochar_app. fold (oneline (head_tail b)). rewrite (proj1 Hs). reflexivity. }
  destruct (split_topts "package" false (srev_onto (String "c" ("onfig " +++ head_tail b)) (String NLc (String NLc cur))) (body_lines b) (J (cbody bs) +++ Y) (or_introl eq_refl) (proj2 Hs)) as (b1 & E1).
  fold (topts b) in E1. rewrite E1.
  destruct (IH (fun x Hx => Hok x (or_intror Hx)) b1 (srev_onto (J (topts b)) (srev_onto (String "c" ("onfig " +++ head_tail b)) (String NLc (String NLc cur)))) Y) as (b2 & E2).
  exists b2. rewrite E2. f_equal.
  apply srev_inj. rewrite !srev_srev_onto. rewrite !srev_cons, !app_assoc_s. reflexivity.
Qed.
(** A text made of packages, each followed by one or more newlines *)
Definition nls (n : nat) : string := fold_right (fun _ acc => String NLc acc) EmptyString (repeat tt n).
Lemma nls_S n : nls (S n) = String NLc (nls n). Proof. reflexivity. Qed.
Lemma nls_space n : sforall is_space (nls n) = true.
Proof. induction n as [|n IH]; [reflexivity|]. rewrite nls_S. exact IH. Qed.
Definition gtext (l : list ((string * list dict) * nat)) : string :=
  fold_right (fun qn acc => pkg_head (fst (fst qn)) +++ J (cbody (snd (fst qn))) +++ nls (S (snd qn)) +++ acc) EmptyString l.
Lemma split_nls kw b cur n Y : (kw = "package" \/ kw = "config") ->
  split_bol kw b 0 cur (nls (S n) +++ Y) = split_bol kw true 0 (srev_onto (nls (S n)) cur) Y.
Proof.
  intros Hk. revert b cur; induction n as [|n IH]; intros b cur.
  - change (nls 1 +++ Y) with (String NLc Y). rewrite split_nl by (destruct Hk as [->| ->]; reflexivity). reflexivity.
  - rewrite nls_S. cbn [String.append]. rewrite split_nl by (destruct Hk as [->| ->]; reflexivity). rewrite IH. reflexivity.
Qed.
Definition pkg_plain (q : string * list dict) : Prop := no_char NLc (fst q) /\ forall b, In b (snd q) -> sect_lines b.
Lemma pkg_plain_of q : pk_ok q -> pkg_plain q.
Proof. intros [(_ & _ & P3 & _) Hb]. split; [exact P3|]. intros b H. apply sect_lines_of, Hb, H. Qed.
Lemma split_gtext l : (forall qn, In qn l -> pkg_plain (fst qn)) -> forall cur,
  split_bol "package" true 0 cur (gtext l) =
    srev cur :: map (fun qn => (fst (fst qn) +++ J (cbody (snd (fst qn)))) +++ nls (S (snd qn))) l.
Proof.
  induction l as [|[[p bs] n] l IH]; intros Hok cur; [reflexivity|].
  destruct (Hok _ (or_introl eq_refl)) as [P3 Hb]. cbn [fst snd] in *.
  cbn [gtext fold_right fst snd]. fold (gtext l).
  change (pkg_head p +++ J (cbody bs) +++ nls (S n) +++ gtext l) with ("package" +++ " " +++ (p +++ J (cbody bs) +++ nls (S n) +++ gtext l)).
  rewrite split_hit by (left; reflexivity). rewrite split_pass by (apply no_char_spec in P3; exact P3).
  destruct (split_cbody bs Hb false (srev_onto p "") (nls (S n) +++ gtext l)) as (b1 & E1). rewrite E1.
  rewrite split_nls by (left; reflexivity). rewrite IH by (intros x Hx; apply Hok; right; exact Hx).
  cbn [map fst snd]. rewrite !srev_srev_onto. reflexivity.
Qed.
(** The canonical text has that form: two newlines after a package, one after the last. *)
Fixpoint gaps (l : list (string * list dict)) : list ((string * list dict) * nat) :=
  match l with [] => [] | [q] => [(q, 0%nat)] | q :: t => (q, 1%nat) :: gaps t end.
Lemma gaps_fst l : map fst (gaps l) = l.
Proof. induction l as [|q l IH]; [reflexivity|]. destruct l as [|r l]; [reflexivity|]. change (gaps (q :: r :: l)) with ((q, 1%nat) :: gaps (r :: l)). cbn [map fst]. rewrite IH. reflexivity. Qed.
Lemma canon_gtext l : canon l = gtext (gaps l).
Proof.
  destruct l as [|q l]; [reflexivity|]. revert q; induction l as [|r l IH]; intros [p bs].
  - cbn [canon gaps gtext fold_right fst snd crest flat_map app]. rewrite J_app. reflexivity.
  - change (gaps ((p, bs) :: r :: l)) with (((p, bs), 1%nat) :: gaps (r :: l)). cbn [gtext fold_right fst snd]. fold (gtext (gaps (r :: l))). rewrite <- IH.
    destruct r as [p2 bs2]. cbn [canon crest flat_map fst snd app]. fold (crest l).
    rewrite J_app. f_equal. rewrite <- app_assoc. reflexivity.
Qed.
