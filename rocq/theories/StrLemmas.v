(** * StrLemmas: string search, replacement, splitting and stripping (proofs only) *)
From Verif Require Import PyBase PyLemmas.

Definition nochar (c : ascii) (s : string) : bool := sforall (fun d => negb (Ascii.eqb d c)) s.
Lemma nochar_app c a b : nochar c (a +++ b) = nochar c a && nochar c b.
Proof. apply sforall_app. Qed.
Lemma nochar_cons c d s : nochar c (String d s) = negb (Ascii.eqb d c) && nochar c s.
Proof. reflexivity. Qed.

Lemma nochar_spec c s : nochar c s = true <-> forall a b, s <> a +++ String c b.
Proof.
  split.
  - intros H a b ->. rewrite nochar_app, nochar_cons, Ascii.eqb_refl in H. cbn in H. rewrite andb_false_r in H. discriminate.
  - induction s as [|d s IH]; intros H; [reflexivity|]. rewrite nochar_cons. apply andb_true_iff. split.
    + apply negb_true_iff. apply Ascii.eqb_neq. intros ->. apply (H EmptyString s). reflexivity.
    + apply IH. intros a b ->. apply (H (String d a) b). reflexivity.
Qed.

(** [startswith] across a character that the pattern does not contain *)
Lemma startswith_sep c p a b : nochar c p = true -> startswith p (a +++ String c b) = startswith p a.
Proof.
  revert a; induction p as [|x p IH]; intros a H; [rewrite !startswith_nil; reflexivity|].
  rewrite nochar_cons, andb_true_iff, negb_true_iff in H. destruct H as [H1 H2].
  destruct a as [|y a]; cbn [String.append startswith].
  - rewrite H1. reflexivity.
  - rewrite IH by exact H2. reflexivity.
Qed.
Lemma contains_sep c p a b : nochar c p = true -> p <> EmptyString ->
  contains p (a +++ String c b) = contains p a || contains p b.
Proof.
  intros H Hn. induction a as [|y a IH]; cbn [String.append contains].
  - destruct p as [|x p]; [congruence|]. rewrite nochar_cons, andb_true_iff, negb_true_iff in H. destruct H as [H1 _].
    cbn [startswith]. rewrite H1. reflexivity.
  - change (String y (a +++ String c b)) with (String y a +++ String c b).
    rewrite (startswith_sep c p (String y a) b H), IH. apply orb_assoc.
Qed.
Lemma contains_skip x p a b : nochar x a = true -> contains (String x p) (a +++ b) = contains (String x p) b.
Proof.
  induction a as [|y a IH]; intros H; [reflexivity|]. rewrite nochar_cons, andb_true_iff, negb_true_iff in H. destruct H as [H1 H2].
  cbn [String.append contains startswith]. rewrite Ascii.eqb_sym, H1. cbn [andb orb]. apply IH; exact H2.
Qed.
Lemma contains_nochar x p a : nochar x a = true -> contains (String x p) a = false.
Proof. intros H. rewrite <- (app_nil_s a), contains_skip by exact H. reflexivity. Qed.

(** [replace] *)
Lemma replace_skip old new a b : replace_from old new (String.length a) (a +++ b) = replace_from old new 0 b.
Proof. induction a as [|c a IH]; [reflexivity|]. exact IH. Qed.
Lemma replace_hit c old new b : replace (String c old) new (String c old +++ b) = new +++ replace (String c old) new b.
Proof.
  unfold replace. change (String c old +++ b) with (String c (old +++ b)) at 1.
  assert (E : startswith (String c old) (String c (old +++ b)) = true) by apply (startswith_app (String c old) b).
  cbn [replace_from]. rewrite E. f_equal. cbn [String.length]. rewrite Nat.sub_1_r. cbn [pred]. apply replace_skip.
Qed.
Lemma replace_miss old new c b : startswith old (String c b) = false ->
  replace old new (String c b) = String c (replace old new b).
Proof. intros H. unfold replace. cbn [replace_from]. rewrite H. reflexivity. Qed.
(** copying text that has no occurrence, up to a character not in the pattern *)
Lemma replace_copy old new c a b : nochar c old = true -> old <> EmptyString -> contains old a = false ->
  replace old new (a +++ String c b) = a +++ String c (replace old new b).
Proof.
  intros Hc Hn. induction a as [|x a IH]; intros Ha; cbn [String.append].
  - apply replace_miss. destruct old as [|y old]; [congruence|]. rewrite nochar_cons, andb_true_iff, negb_true_iff in Hc.
    cbn [startswith]. destruct Hc as [-> _]. reflexivity.
  - cbn [contains] in Ha. apply orb_false_iff in Ha as [H1 H2]. rewrite replace_miss.
    + rewrite IH by exact H2. reflexivity.
    + change (String x (a +++ String c b)) with (String x a +++ String c b). rewrite startswith_sep by exact Hc. exact H1.
Qed.
(** copying text without the first character of the pattern *)
Lemma replace_pass x old new a b : nochar x a = true ->
  replace (String x old) new (a +++ b) = a +++ replace (String x old) new b.
Proof.
  induction a as [|y a IH]; intros H; [reflexivity|]. rewrite nochar_cons, andb_true_iff, negb_true_iff in H. destruct H as [H1 H2].
  cbn [String.append]. rewrite replace_miss; [rewrite IH by exact H2; reflexivity|].
  cbn [startswith]. rewrite Ascii.eqb_sym, H1. reflexivity.
Qed.
Lemma replace_nil old new : replace old new EmptyString = EmptyString. Proof. reflexivity. Qed.
Lemma replace_id x old new a : nochar x a = true -> replace (String x old) new a = a.
Proof. intros H. rewrite <- (app_nil_s a) at 1. rewrite replace_pass by exact H. rewrite replace_nil, app_nil_s. reflexivity. Qed.

(** ** strip *)
Lemma lstrip_p_id p c s : p c = false -> lstrip_p p (String c s) = String c s.
Proof. intros H. cbn. rewrite H. reflexivity. Qed.
Lemma lstrip_p_all p a s : sforall p a = true -> lstrip_p p (a +++ s) = lstrip_p p s.
Proof. induction a as [|c a IH]; intros H; [reflexivity|]. cbn [sforall] in H. apply andb_true_iff in H as [H1 H2]. cbn. rewrite H1. auto. Qed.
Lemma srev_snoc s c : srev (s +++ String c EmptyString) = String c (srev s).
Proof. rewrite srev_app. reflexivity. Qed.
Lemma sforall_srev p s : sforall p (srev s) = sforall p s.
Proof. induction s as [|c s IH]; [reflexivity|]. rewrite srev_cons, sforall_app, IH. cbn. rewrite andb_true_r. apply andb_comm. Qed.
Lemma rstrip_all p s a : sforall p a = true -> rstrip_p p (s +++ a) = rstrip_p p s.
Proof. intros H. unfold rstrip_p. rewrite srev_app, lstrip_p_all by (rewrite sforall_srev; exact H). reflexivity. Qed.
Lemma rstrip_id p s c : p c = false -> rstrip_p p (s +++ String c EmptyString) = s +++ String c EmptyString.
Proof. intros H. unfold rstrip_p. rewrite srev_snoc, lstrip_p_id by exact H. rewrite <- (srev_invol (s +++ _)), srev_snoc. reflexivity. Qed.
(** Text whose first and last characters are not white space. *)
Definition tight (s : string) : Prop :=
  s <> EmptyString /\ (forall c r, s = String c r -> is_space c = false) /\
  (forall r c, s = r +++ String c EmptyString -> is_space c = false).
Lemma snoc_view s : s = EmptyString \/ exists r c, s = r +++ String c EmptyString.
Proof.
  induction s as [|c s [->|(r & d & ->)]]; [left; reflexivity|right; exists EmptyString, c; reflexivity|].
  right. exists (String c r), d. reflexivity.
Qed.
Lemma strip_tight s a b : tight s -> sforall is_space a = true -> sforall is_space b = true -> strip (a +++ s +++ b) = s.
Proof.
  intros (Hn & Hf & Hl) Ha Hb. unfold strip. rewrite lstrip_p_all by exact Ha.
  destruct s as [|c s]; [congruence|]. cbn [String.append]. rewrite lstrip_p_id by (eapply Hf; reflexivity).
  change (String c (s +++ b)) with (String c s +++ b). rewrite rstrip_all by exact Hb.
  destruct (snoc_view (String c s)) as [E|(r & d & E)]; [discriminate|]. rewrite E. apply rstrip_id. eapply Hl; exact E.
Qed.
Lemma strip_all a : sforall is_space a = true -> strip a = EmptyString.
Proof.
  intros H. unfold strip. rewrite <- (app_nil_s a). rewrite lstrip_p_all by exact H. reflexivity.
Qed.
Lemma lstrip_split p s : exists a, s = a +++ lstrip_p p s /\ sforall p a = true /\
  (forall c r, lstrip_p p s = String c r -> p c = false).
Proof.
  induction s as [|c s (a & E & Ha & Hc)]; [exists EmptyString; repeat split; discriminate|]. cbn [lstrip_p].
  destruct (p c) eqn:Ep.
  - exists (String c a). cbn. rewrite Ep, Ha. repeat split; [congruence|exact Hc].
  - exists EmptyString. repeat split. intros d r H. inversion H; subst. exact Ep.
Qed.
Lemma rstrip_split p s : exists b, s = rstrip_p p s +++ b /\ sforall p b = true /\
  (forall r c, rstrip_p p s = r +++ String c EmptyString -> p c = false).
Proof.
  unfold rstrip_p. destruct (lstrip_split p (srev s)) as (a & E & Ha & Hc).
  exists (srev a). split; [rewrite <- srev_app, <- E, srev_invol; reflexivity|]. split; [rewrite sforall_srev; exact Ha|].
  intros r c H. apply (Hc c (srev r)). rewrite <- (srev_invol (lstrip_p p (srev s))), H, srev_snoc. reflexivity.
Qed.
Lemma strip_split s : exists a b, s = a +++ strip s +++ b /\ sforall is_space a = true /\ sforall is_space b = true /\
  (strip s <> EmptyString -> tight (strip s)).
Proof.
  unfold strip. destruct (lstrip_split is_space s) as (a & E & Ha & Hc).
  destruct (rstrip_split is_space (lstrip_p is_space s)) as (b & E2 & Hb & Hd).
  exists a, b. rewrite <- E2. repeat split; auto.
  intros c r H0. destruct (lstrip_p is_space s) as [|c' l] eqn:El.
  - rewrite H0 in H. exfalso. change (rstrip_p is_space EmptyString) with EmptyString in H0. discriminate.
  - apply (Hc c (r +++ b)). rewrite E2, H0. reflexivity.
Qed.
Lemma strip_id_tight s : strip s = s -> s <> EmptyString -> tight s.
Proof. intros H Hn. destruct (strip_split s) as (a & b & _ & _ & _ & Ht). rewrite H in Ht. auto. Qed.
Lemma tight_app a m b : tight a -> tight b -> tight (a +++ m +++ b).
Proof.
  intros (A1 & A2 & A3) (B1 & B2 & B3). split; [|split].
  - destruct a; [congruence|discriminate].
  - intros c r E. destruct a as [|x a]; [congruence|]. inversion E; subst. eapply A2; reflexivity.
  - intros r c E. destruct (snoc_view b) as [->|(r' & d & ->)]; [congruence|].
    assert (d = c); [|subst; eapply B3; reflexivity].
    assert (E' : srev (a +++ m +++ r' +++ String d "") = srev (r +++ String c "")) by congruence.
    rewrite !srev_app in E'. cbn in E'. inversion E'. reflexivity.
Qed.

(** ** Lines *)
(** Every line preceded by a newline. *)
Fixpoint J (ls : list string) : string :=
  match ls with [] => EmptyString | l :: t => NL +++ l +++ J t end.
Lemma J_app a b : J (a ++ b) = J a +++ J b.
Proof. induction a as [|x a IH]; [reflexivity|]. cbn [app J]. rewrite IH, !app_assoc_s. reflexivity. Qed.
Lemma join_J l ls : join NL (l :: ls) = l +++ J ls.
Proof.
  revert l; induction ls as [|x ls IH]; intros l; [cbn; rewrite app_nil_s; reflexivity|].
  change (join NL (l :: x :: ls)) with (l +++ NL +++ join NL (x :: ls)). rewrite IH. reflexivity.
Qed.
Definition oneline (s : string) : bool := nochar NLc s.
Lemma J_start p l ls : nochar NLc p = true -> startswith p (l +++ J ls) = startswith p l.
Proof. intros H. destruct ls as [|x ls]; cbn [J]; [rewrite app_nil_s; reflexivity|]. apply startswith_sep; exact H. Qed.

Definition tabify (w l : string) : string := if startswith w l then TAB +++ l else l.
Lemma replace_tab w ls : oneline w = true -> forallb oneline ls = true ->
  replace (NL +++ w) (NL +++ TAB +++ w) (J ls) = J (map (tabify w) ls).
Proof.
  intros Hw. induction ls as [|l ls IH]; intros H; [reflexivity|].
  cbn [forallb] in H. apply andb_true_iff in H as [H1 H2]. cbn [J map]. unfold tabify at 1.
  destruct (startswith w l) eqn:E.
  - apply startswith_true in E as [r ->]. unfold oneline in H1. rewrite nochar_app in H1. apply andb_true_iff in H1 as [_ H1].
    replace (NL +++ (w +++ r) +++ J ls) with ((NL +++ w) +++ (r +++ J ls)) by (rewrite !app_assoc_s; reflexivity).
    change (NL +++ w) with (String NLc w). rewrite replace_hit, replace_pass by exact H1.
    change (String NLc w) with (NL +++ w). rewrite IH by exact H2. rewrite !app_assoc_s. reflexivity.
  - change (NL +++ l +++ J ls) with (String NLc (l +++ J ls)). rewrite replace_miss.
    + change (NL +++ w) with (String NLc w). rewrite replace_pass by exact H1.
      change (String NLc w) with (NL +++ w). rewrite IH by exact H2. reflexivity.
    + change (NL +++ w) with (String NLc w). cbn [startswith]. rewrite Ascii.eqb_refl. cbn [andb].
      rewrite J_start by exact Hw. exact E.
Qed.
Fixpoint collapse (ls : list string) : list string :=
  match ls with
  | EmptyString :: EmptyString :: l :: t => EmptyString :: l :: collapse t
  | l :: t => l :: collapse t
  | [] => []
  end.
Lemma collapse_3 x t : collapse (EmptyString :: EmptyString :: x :: t) = EmptyString :: x :: collapse t.
Proof. reflexivity. Qed.
Lemma collapse_ne x t : x <> EmptyString -> collapse (x :: t) = x :: collapse t.
Proof. destruct x; [congruence|reflexivity]. Qed.
Lemma collapse_2 x t : x <> EmptyString -> collapse (EmptyString :: x :: t) = EmptyString :: x :: collapse t.
Proof. destruct x; [congruence|reflexivity]. Qed.
Lemma replace_collapse : forall n ls, (length ls <= n)%nat -> forallb oneline ls = true ->
  replace (NL +++ NL +++ NL) (NL +++ NL) (J ls) = J (collapse ls).
Proof.
  change (NL +++ NL +++ NL) with (String NLc (String NLc (String NLc EmptyString))).
  induction n as [|n IH]; intros ls Hl H; [destruct ls; [reflexivity|simpl in Hl; lia]|].
  destruct ls as [|l ls]; [reflexivity|].
  cbn [forallb] in H. apply andb_true_iff in H as [H1 H2].
  assert (G : startswith (String NLc (String NLc (String NLc ""))) (J (l :: ls)) = false ->
     replace (String NLc (String NLc (String NLc ""))) (NL +++ NL) (J (l :: ls)) = J (l :: collapse ls)).
  { intros E. cbn [J] in *. change (NL +++ l +++ J ls) with (String NLc (l +++ J ls)) in *.
    rewrite replace_miss by exact E. rewrite replace_pass by exact H1. rewrite IH; [reflexivity|simpl in Hl; lia|exact H2]. }
  destruct l as [|c l].
  - destruct ls as [|m ls]; [reflexivity|]. destruct m as [|c m].
    + destruct ls as [|x ls]; [reflexivity|]. rewrite collapse_3.
      cbn [forallb] in H2. apply andb_true_iff in H2 as [_ H2]. apply andb_true_iff in H2 as [Hx H2].
      cbn [J]. change (NL +++ "" +++ NL +++ "" +++ NL +++ x +++ J ls) with (String NLc (String NLc (String NLc "")) +++ (x +++ J ls)).
      rewrite replace_hit, replace_pass by exact Hx. rewrite IH; [|simpl in Hl; lia|exact H2].
      rewrite app_assoc_s. reflexivity.
    + change (collapse ("" :: String c m :: ls)) with ("" :: collapse (String c m :: ls)).
      apply G. cbn [forallb] in H2. apply andb_true_iff in H2 as [Hc _]. unfold oneline in Hc.
      rewrite nochar_cons, andb_true_iff, negb_true_iff in Hc. destruct Hc as [Hc _].
      cbn [J]. unfold NL. cbn [String.append startswith]. rewrite ?Ascii.eqb_refl. cbn [andb]. rewrite Ascii.eqb_sym, Hc. reflexivity.
  - change (collapse (String c l :: ls)) with (String c l :: collapse ls). apply G.
    unfold oneline in H1. rewrite nochar_cons, andb_true_iff, negb_true_iff in H1. destruct H1 as [Hc _].
    cbn [J]. unfold NL. cbn [String.append startswith]. rewrite ?Ascii.eqb_refl. cbn [andb]. rewrite Ascii.eqb_sym, Hc. reflexivity.
Qed.
