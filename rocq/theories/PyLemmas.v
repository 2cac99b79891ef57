(** * PyLemmas: facts about the Python fragment of PyBase (proofs only). *)
From Verif Require Import PyBase.
From Coq Require Import Permutation Sorted.

(** ** Induction on values *)
Section ValInd.
  Variable P : val -> Prop.
  Hypothesis HN : P VNull.
  Hypothesis HB : forall b, P (VBool b).
  Hypothesis HI : forall z, P (VInt z).
  Hypothesis HF : forall r, P (VFloat r).
  Hypothesis HS : forall s, P (VStr s).
  Hypothesis HL : forall l, (forall v, In v l -> P v) -> P (VList l).
  Hypothesis HD : forall d, (forall k v, In (k, v) d -> P v) -> P (VDict d).
  Fixpoint val_rect' (v : val) : P v.
  Proof.
    destruct v as [|b|z|r|s|l|d].
    - exact HN.
    - apply HB.
    - apply HI.
    - apply HF.
    - apply HS.
    - apply HL. induction l as [|x l IH].
      + intros v [].
      + intros v [<-|Hv]; [apply val_rect'|apply IH; exact Hv].
    - apply HD. induction d as [|[k x] d IH].
      + intros k v [].
      + pose proof (val_rect' x) as Hx.
        intros k' v [H|Hv]; [inversion H; subst; exact Hx|eapply IH; exact Hv].
  Defined.
End ValInd.
Definition val_ind' (P : val -> Prop) := val_rect' P.

(** ** Booleans and strings *)
Lemma eqb_refl s : String.eqb s s = true.
Proof. apply String.eqb_refl. Qed.
Lemma eqb_neq a b : a <> b -> String.eqb a b = false.
Proof. intros H. apply String.eqb_neq. exact H. Qed.
Lemma eqb_sym a b : String.eqb a b = String.eqb b a.
Proof. apply String.eqb_sym. Qed.

Lemma app_nil_s (s : string) : s +++ EmptyString = s.
Proof. induction s; simpl; congruence. Qed.
Lemma app_assoc_s (a b c : string) : (a +++ b) +++ c = a +++ (b +++ c).
Proof. induction a; simpl; congruence. Qed.
Lemma length_app_s (a b : string) : String.length (a +++ b) = (String.length a + String.length b)%nat.
Proof. induction a; simpl; congruence. Qed.
Lemma app_inj_l (a b c : string) : a +++ b = a +++ c -> b = c.
Proof. induction a; simpl; intros H; [exact H|]. inversion H. auto. Qed.

Lemma startswith_app p s : startswith p (p +++ s) = true.
Proof. induction p; simpl; [reflexivity|]. rewrite Ascii.eqb_refl. exact IHp. Qed.
Lemma startswith_true p s : startswith p s = true <-> exists r, s = p +++ r.
Proof.
  revert s; induction p as [|a p IH]; intros s; simpl.
  - split; [intros _; exists s; reflexivity|reflexivity].
  - destruct s as [|b s].
    + split; [discriminate|intros [r Hr]; discriminate].
    + rewrite andb_true_iff, IH, Ascii.eqb_eq. split.
      * intros [-> [r ->]]. exists r; reflexivity.
      * intros [r Hr]. inversion Hr. split; [reflexivity|exists r; reflexivity].
Qed.
Lemma startswith_nil s : startswith EmptyString s = true.
Proof. destruct s; reflexivity. Qed.

Lemma sforall_app p a b : sforall p (a +++ b) = sforall p a && sforall p b.
Proof. induction a; simpl; [reflexivity|]. rewrite IHa. apply andb_assoc. Qed.
Lemma sexists_app p a b : sexists p (a +++ b) = sexists p a || sexists p b.
Proof. induction a; simpl; [reflexivity|]. rewrite IHa. apply orb_assoc. Qed.

Lemma srev_onto_app a acc : srev_onto a acc = srev_onto a EmptyString +++ acc.
Proof.
  revert acc; induction a as [|c a IH]; intros acc; simpl; [reflexivity|].
  rewrite IH, (IH (String c EmptyString)), app_assoc_s. reflexivity.
Qed.
Lemma srev_app a b : srev (a +++ b) = srev b +++ srev a.
Proof.
  unfold srev. revert b. induction a as [|c a IH]; intros b; simpl.
  - rewrite app_nil_s. reflexivity.
  - rewrite srev_onto_app, IH, (srev_onto_app a (String c _)), app_assoc_s. reflexivity.
Qed.
Lemma srev_cons c s : srev (String c s) = srev s +++ String c EmptyString.
Proof. change (String c s) with (String c EmptyString +++ s). rewrite srev_app. reflexivity. Qed.
Lemma srev_invol s : srev (srev s) = s.
Proof.
  induction s as [|c s IH]; [reflexivity|].
  rewrite srev_cons, srev_app, IH. reflexivity.
Qed.
Lemma srev_length s : String.length (srev s) = String.length s.
Proof.
  induction s as [|c s IH]; [reflexivity|].
  rewrite srev_cons, length_app_s, IH. simpl. lia.
Qed.
Lemma endswith_true p s : endswith p s = true <-> exists r, s = r +++ p.
Proof.
  unfold endswith. rewrite startswith_true. split; intros [r Hr].
  - exists (srev r). rewrite <- (srev_invol s), Hr, srev_app, srev_invol. reflexivity.
  - exists (srev r). rewrite Hr, srev_app. reflexivity.
Qed.

Lemma sdrop_app a b : sdrop (String.length a) (a +++ b) = b.
Proof. induction a; simpl; auto. Qed.
Lemma stake_app a b : stake (String.length a) (a +++ b) = a.
Proof. induction a; simpl; [destruct b; reflexivity|congruence]. Qed.
Lemma stake_all a : stake (String.length a) a = a.
Proof. induction a; simpl; congruence. Qed.
Lemma stake_sdrop n s : stake n s +++ sdrop n s = s.
Proof. revert s; induction n; intros [|c s]; simpl; try reflexivity. rewrite IHn. reflexivity. Qed.

Lemma contains_true sub s : contains sub s = true <-> exists a b, s = a +++ sub +++ b.
Proof.
  induction s as [|c s IH]; simpl.
  - rewrite orb_false_r, startswith_true. split.
    + intros [r Hr]. exists EmptyString, r. exact Hr.
    + intros (a & b & H). destruct a; [exists b; exact H|discriminate].
  - rewrite orb_true_iff, startswith_true, IH. split.
    + intros [[r Hr]|(a & b & ->)].
      * exists EmptyString, r. exact Hr.
      * exists (String c a), b. reflexivity.
    + intros (a & b & H). destruct a as [|c' a].
      * left. exists b. exact H.
      * right. inversion H. exists a, b. reflexivity.
Qed.

(** ** Association lists *)
Section Assoc.
  Context {V : Type}.
  Implicit Types d e : list (string * V).

  Lemma dget_dset_same k v d : dget k (dset k v d) = Some v.
  Proof.
    induction d as [|[k' v'] d IH]; simpl; [rewrite eqb_refl; reflexivity|].
    destruct (String.eqb_spec k k') as [->|Hn]; simpl; [rewrite eqb_refl; reflexivity|].
    rewrite eqb_neq by exact Hn. exact IH.
  Qed.
  Lemma dget_dset_other k k' v d : k <> k' -> dget k (dset k' v d) = dget k d.
  Proof.
    intros Hn. induction d as [|[k2 v2] d IH]; simpl.
    - rewrite eqb_neq by exact Hn. reflexivity.
    - destruct (String.eqb_spec k' k2) as [->|Hn2]; simpl.
      + rewrite eqb_neq by exact Hn. reflexivity.
      + rewrite IH. reflexivity.
  Qed.
  Lemma dget_dset k k' v d :
    dget k (dset k' v d) = if String.eqb k k' then Some v else dget k d.
  Proof.
    destruct (String.eqb_spec k k') as [->|Hn];
      [apply dget_dset_same|apply dget_dset_other; exact Hn].
  Qed.
  Lemma dget_In k v d : dget k d = Some v -> In (k, v) d.
  Proof.
    induction d as [|[k' v'] d IH]; simpl; [discriminate|].
    destruct (String.eqb_spec k k') as [->|Hn]; intros H.
    - inversion H. left; reflexivity.
    - right; auto.
  Qed.
  Lemma dget_In_keys k v d : dget k d = Some v -> In k (dkeys d).
  Proof. intros H. apply dget_In in H. apply (in_map fst) in H. exact H. Qed.
  Lemma dget_None k d : dget k d = None <-> ~ In k (dkeys d).
  Proof.
    induction d as [|[k' v'] d IH]; simpl; [tauto|].
    destruct (String.eqb_spec k k') as [->|Hn].
    - split; [discriminate|intros H; exfalso; apply H; left; reflexivity].
    - rewrite IH. split; [intros H [E|H']; [congruence|tauto]|tauto].
  Qed.
  Lemma dget_Some_keys k d : In k (dkeys d) -> exists v, dget k d = Some v.
  Proof.
    intros H. destruct (dget k d) eqn:E; [eauto|].
    apply dget_None in E. contradiction.
  Qed.
  Lemma In_dget k v d : NoDup (dkeys d) -> In (k, v) d -> dget k d = Some v.
  Proof.
    induction d as [|[k' v'] d IH]; simpl; [intros _ []|].
    intros Hnd [H|H]; inversion Hnd as [|? ? Hni Hnd']; subst.
    - inversion H; subst. rewrite eqb_refl. reflexivity.
    - destruct (String.eqb_spec k k') as [->|Hn]; [|auto].
      exfalso. apply Hni. apply (in_map fst) in H. exact H.
  Qed.
  Lemma dmem_In k d : dmem k d = true <-> In k (dkeys d).
  Proof.
    unfold dmem. destruct (dget k d) eqn:E.
    - split; [intros _; eapply dget_In_keys; eauto|reflexivity].
    - split; [discriminate|intros H]. apply dget_None in E. contradiction.
  Qed.
  Lemma dkeys_dset k v d :
    dkeys (dset k v d) = if dmem k d then dkeys d else (dkeys d ++ [k])%list.
  Proof.
    unfold dmem. induction d as [|[k' v'] d IH]; simpl; [reflexivity|].
    destruct (String.eqb_spec k k') as [->|Hn]; simpl; [reflexivity|].
    rewrite IH. destruct (dget k d); reflexivity.
  Qed.
  Lemma dset_In k k' v v' d : In (k', v') (dset k v d) -> (k' = k /\ v' = v) \/ In (k', v') d.
  Proof.
    induction d as [|[k2 v2] d IH]; simpl.
    - intros [H|[]]. inversion H. left; auto.
    - destruct (String.eqb_spec k k2) as [->|Hn]; simpl; intros [H|H].
      + inversion H. left; auto.
      + right; right; exact H.
      + right; left; exact H.
      + destruct (IH H); [left; assumption|right; right; assumption].
  Qed.
  Lemma NoDup_snoc (A : Type) (l : list A) x : NoDup l -> ~ In x l -> NoDup (l ++ [x]).
  Proof.
    intros Hl Hx. apply NoDup_rev in Hl. rewrite <- (rev_involutive (l ++ [x])).
    apply NoDup_rev. rewrite rev_app_distr. simpl. constructor; [|exact Hl].
    rewrite <- in_rev. exact Hx.
  Qed.
  Lemma NoDup_dset k v d : NoDup (dkeys d) -> NoDup (dkeys (dset k v d)).
  Proof.
    intros H. rewrite dkeys_dset. destruct (dmem k d) eqn:E; [exact H|].
    apply NoDup_snoc; [exact H|]. rewrite <- dmem_In, E. discriminate.
  Qed.
  Lemma dset_absent k v d : dget k d = None -> dset k v d = (d ++ [(k, v)])%list.
  Proof.
    induction d as [|[k' v'] d IH]; simpl; [reflexivity|].
    destruct (String.eqb_spec k k') as [->|Hn]; [discriminate|].
    intros H. rewrite IH by exact H. reflexivity.
  Qed.
  Lemma dset_same k v d : dget k d = Some v -> dset k v d = d.
  Proof.
    induction d as [|[k' v'] d IH]; simpl; [discriminate|].
    destruct (String.eqb_spec k k') as [->|Hn]; intros H.
    - inversion H. reflexivity.
    - rewrite IH by exact H. reflexivity.
  Qed.
  Lemma dget_app k d e : dget k (d ++ e)%list = match dget k d with Some v => Some v | None => dget k e end.
  Proof.
    induction d as [|[k' v'] d IH]; simpl; [reflexivity|].
    destruct (String.eqb k k'); [reflexivity|exact IH].
  Qed.
  Lemma dkeys_app d e : dkeys (d ++ e)%list = (dkeys d ++ dkeys e)%list.
  Proof. apply map_app. Qed.
  Lemma dget_ddel_other k k' d : k <> k' -> dget k (ddel k' d) = dget k d.
  Proof.
    intros Hn. induction d as [|[k2 v2] d IH]; simpl; [reflexivity|].
    destruct (String.eqb_spec k' k2) as [->|Hn2]; simpl.
    - rewrite eqb_neq by exact Hn. reflexivity.
    - rewrite IH. reflexivity.
  Qed.
  Lemma dkeys_ddel_incl k d x : In x (dkeys (ddel k d)) -> In x (dkeys d).
  Proof.
    induction d as [|[k2 v2] d IH]; simpl; [auto|].
    destruct (String.eqb k k2); simpl; [auto|]. intros [H|H]; auto.
  Qed.
  Lemma NoDup_ddel k d : NoDup (dkeys d) -> NoDup (dkeys (ddel k d)).
  Proof.
    induction d as [|[k2 v2] d IH]; simpl; [auto|]. intros H; inversion H as [|? ? Hni Hnd]; subst.
    destruct (String.eqb k k2); simpl; [exact Hnd|].
    constructor; [|auto]. intros Hin. apply Hni. eapply dkeys_ddel_incl; eauto.
  Qed.
  Lemma dget_ddel_same k d : NoDup (dkeys d) -> dget k (ddel k d) = None.
  Proof.
    induction d as [|[k2 v2] d IH]; simpl; [auto|]. intros H; inversion H as [|? ? Hni Hnd]; subst.
    destruct (String.eqb_spec k k2) as [->|Hn]; simpl.
    - apply dget_None. exact Hni.
    - rewrite eqb_neq by exact Hn. auto.
  Qed.
  Lemma ddel_absent k d : dget k d = None -> ddel k d = d.
  Proof.
    induction d as [|[k2 v2] d IH]; simpl; [auto|].
    destruct (String.eqb_spec k k2); [discriminate|]. intros H. rewrite IH by exact H. reflexivity.
  Qed.
End Assoc.

(** ** Well-formed values: every dict has distinct keys (Python dicts do). *)
Fixpoint wf (v : val) : Prop :=
  match v with
  | VList l => (fix go (l : list val) : Prop :=
                  match l with [] => True | x :: t => wf x /\ go t end) l
  | VDict d => NoDup (map fst d) /\
               (fix go (d : dict) : Prop :=
                  match d with [] => True | (_, x) :: t => wf x /\ go t end) d
  | _ => True
  end.
Lemma wf_list l : wf (VList l) <-> forall v, In v l -> wf v.
Proof.
  simpl. induction l as [|x l IH]; simpl.
  - split; [intros _ v []|auto].
  - rewrite IH. split.
    + intros [H1 H2] v [<-|H]; auto.
    + intros H; split; [apply H; left; reflexivity|intros v Hv; apply H; right; exact Hv].
Qed.
Lemma wf_dict d : wf (VDict d) <-> NoDup (dkeys d) /\ forall k v, In (k, v) d -> wf v.
Proof.
  unfold dkeys. simpl. generalize (NoDup (map fst d)); intros P.
  assert (((fix go (d : dict) : Prop :=
      match d with [] => True | (_, x) :: t => wf x /\ go t end) d)
    <-> forall k v, In (k, v) d -> wf v) as ->; [|tauto].
  induction d as [|[k x] d IH]; simpl.
  - split; [intros _ k v []|auto].
  - rewrite IH. split.
    + intros [H1 H2] k' v [E|H]; [inversion E; subst; exact H1|eauto].
    + intros H; split; [eapply H; left; reflexivity|intros k' v Hv; eapply H; right; exact Hv].
Qed.
Lemma wf_dget d k v : wf (VDict d) -> dget k d = Some v -> wf v.
Proof. intros H Hg. apply wf_dict in H. apply dget_In in Hg. eapply (proj2 H); eauto. Qed.
Lemma wf_dset d k v : wf (VDict d) -> wf v -> wf (VDict (dset k v d)).
Proof.
  intros H Hv. apply wf_dict in H as [H1 H2]. apply wf_dict. split.
  - apply NoDup_dset; exact H1.
  - intros k' v' Hin. apply dset_In in Hin as [[-> ->]|Hin]; [exact Hv|eauto].
Qed.

(** ** Python equality *)
Lemma py_eq_refl v : wf v -> py_eq v v = true.
Proof.
  induction v as [|b|z|r|s|l IH|d IH] using val_ind'; intros Hw; simpl;
    try reflexivity.
  - destruct b; reflexivity.
  - apply Z.eqb_refl.
  - apply eqb_refl.
  - apply eqb_refl.
  - rewrite wf_list in Hw. induction l as [|x l IHl]; [reflexivity|].
    rewrite (IH x) by (try apply Hw; left; reflexivity). simpl.
    apply IHl; intros; [apply IH|apply Hw]; auto; right; assumption.
  - rewrite Nat.eqb_refl. simpl. apply wf_dict in Hw as [Hnd Hv].
    assert (G : forall e, (forall k v, In (k, v) e -> In (k, v) d) ->
      (fix go (d1 : dict) : bool :=
         match d1 with
         | [] => true
         | (k, v) :: t =>
             match dget k d with Some w => py_eq v w | None => false end && go t
         end) e = true).
    { induction e as [|[k x] e IHe]; intros He; [reflexivity|].
      rewrite (In_dget k x d Hnd) by (apply He; left; reflexivity).
      rewrite (IH k x) by (try (eapply Hv); apply He; left; reflexivity).
      simpl. apply IHe. intros; apply He; right; assumption. }
    apply G. auto.
Qed.

(** Canonical form of scalars: booleans are integers. *)
Definition norm (v : val) : val :=
  match v with VBool b => VInt (Z.b2z b) | _ => v end.
Lemma py_eq_scalar a b : is_container a = false ->
  (py_eq a b = true <-> norm a = norm b).
Proof.
  destruct a as [|x|z|r|s|l|d]; cbn; try discriminate; intros _;
  destruct b as [|y|z'|r'|s'|l'|d']; cbn;
    try (split; [discriminate|intros H; inversion H; fail]); try (split; reflexivity).
  - destruct x, y; cbn; split; try reflexivity; try discriminate.
  - rewrite Z.eqb_eq. split; [intros <-; reflexivity|intros H; inversion H; reflexivity].
  - rewrite Z.eqb_eq. split; [intros <-; reflexivity|intros H; inversion H; reflexivity].
  - rewrite Z.eqb_eq. split; [intros <-; reflexivity|intros H; inversion H; reflexivity].
  - rewrite String.eqb_eq. split; [intros <-; reflexivity|intros H; inversion H; reflexivity].
  - rewrite String.eqb_eq. split; [intros <-; reflexivity|intros H; inversion H; reflexivity].
Qed.

(** ** Results *)
Lemma bind_Ok {A B} (m : res A) (f : A -> res B) b :
  bind m f = Ok b -> exists a, m = Ok a /\ f a = Ok b.
Proof. destruct m; simpl; [eauto|discriminate]. Qed.
Lemma foldM_app {A B} (f : B -> A -> res B) acc l1 l2 :
  foldM f acc (l1 ++ l2)%list = bind (foldM f acc l1) (fun a => foldM f a l2).
Proof.
  revert acc; induction l1 as [|x l1 IH]; intros acc; simpl; [reflexivity|].
  destruct (f acc x); simpl; [apply IH|reflexivity].
Qed.
Lemma mapM_Ok {A B} (f : A -> res B) l r :
  mapM f l = Ok r <-> Forall2 (fun x y => f x = Ok y) l r.
Proof.
  revert r; induction l as [|x l IH]; intros r; simpl.
  - split; intros H; [inversion H; constructor|inversion H; reflexivity].
  - split; intros H.
    + apply bind_Ok in H as (y & Hy & H). apply bind_Ok in H as (t & Ht & H).
      inversion H. constructor; [exact Hy|apply IH; exact Ht].
    + inversion H as [|? y ? t Hy Ht]; subst. rewrite Hy. simpl.
      apply IH in Ht. rewrite Ht. reflexivity.
Qed.

Lemma Forall2_length {A B} (R : A -> B -> Prop) l1 l2 : Forall2 R l1 l2 -> length l1 = length l2.
Proof. induction 1; simpl; congruence. Qed.
Lemma Forall2_impl {A B} (R S : A -> B -> Prop) l1 l2 :
  (forall x y, R x y -> S x y) -> Forall2 R l1 l2 -> Forall2 S l1 l2.
Proof. induction 2; constructor; auto. Qed.
Lemma Forall2_map_lr {A B C D} (R : C -> D -> Prop) (f : A -> C) (g : B -> D) l1 l2 :
  Forall2 R (map f l1) (map g l2) <-> Forall2 (fun x y => R (f x) (g y)) l1 l2.
Proof.
  revert l2; induction l1 as [|x l1 IH]; intros [|y l2]; simpl; split; intros H; inversion H; subst; constructor; auto; apply IH; auto.
Qed.
Lemma Forall2_In_l {A B} (R : A -> B -> Prop) l1 l2 x :
  Forall2 R l1 l2 -> In x l1 -> exists y, In y l2 /\ R x y.
Proof.
  induction 1 as [|a b l1 l2 H HF IH]; intros []; [subst; exists b; simpl; auto|].
  destruct IH as (y & Hy & Hr); [assumption|]. exists y; simpl; auto.
Qed.
Lemma Forall2_In_r {A B} (R : A -> B -> Prop) l1 l2 y :
  Forall2 R l1 l2 -> In y l2 -> exists x, In x l1 /\ R x y.
Proof.
  induction 1 as [|a b l1 l2 H HF IH]; intros []; [subst; exists a; simpl; auto|].
  destruct IH as (x & Hx & Hr); [assumption|]. exists x; simpl; auto.
Qed.
