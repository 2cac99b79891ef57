(** * SortLemmas: [sorted_dict] sorts, keeps the bindings (proofs only) *)
From Verif Require Import PyBase PyLemmas SpecUci.
From Coq Require Import Sorted Permutation.

Lemma str_leb_refl a : str_leb a a = true.
Proof. induction a as [|c a IH]; [reflexivity|]. cbn [str_leb]. rewrite Nat.ltb_irrefl, Ascii.eqb_refl. exact IH. Qed.
Lemma nat_ascii_inj a b : nat_of_ascii a = nat_of_ascii b -> a = b.
Proof. intros H. rewrite <- (ascii_nat_embedding a), <- (ascii_nat_embedding b), H. reflexivity. Qed.
Lemma str_leb_total a b : str_leb a b = true \/ str_leb b a = true.
Proof.
  revert b; induction a as [|x a IH]; intros [|y b]; cbn [str_leb]; auto.
  destruct (Nat.ltb_spec (nat_of_ascii x) (nat_of_ascii y)); [auto|].
  destruct (Nat.ltb_spec (nat_of_ascii y) (nat_of_ascii x)); [auto|].
  assert (x = y) as -> by (apply nat_ascii_inj; lia). rewrite Ascii.eqb_refl. apply IH.
Qed.
Lemma str_leb_antisym a b : str_leb a b = true -> str_leb b a = true -> a = b.
Proof.
  revert b; induction a as [|x a IH]; intros [|y b]; cbn [str_leb]; try discriminate; auto.
  destruct (Nat.ltb_spec (nat_of_ascii x) (nat_of_ascii y)), (Nat.ltb_spec (nat_of_ascii y) (nat_of_ascii x)); try lia;
    destruct (Ascii.eqb_spec x y) as [E|E], (Ascii.eqb_spec y x) as [E2|E2]; try congruence; try (subst; lia); try discriminate.
  intros H1 H2. subst. f_equal. apply IH; assumption.
Qed.
Lemma str_leb_trans a b c : str_leb a b = true -> str_leb b c = true -> str_leb a c = true.
Proof.
  revert b c; induction a as [|x a IH]; intros [|y b] [|z c]; cbn [str_leb]; try discriminate; auto.
  destruct (Nat.ltb_spec (nat_of_ascii x) (nat_of_ascii y)), (Nat.ltb_spec (nat_of_ascii y) (nat_of_ascii z)),
    (Nat.ltb_spec (nat_of_ascii x) (nat_of_ascii z)); auto; try lia;
    destruct (Ascii.eqb_spec x y) as [E1|], (Ascii.eqb_spec y z) as [E2|]; try discriminate; subst; try lia.
  - rewrite Ascii.eqb_refl. eauto.
Qed.
Lemma sins_perm {V} (kv : string * V) d : Permutation (sins kv d) (kv :: d).
Proof.
  induction d as [|x d IH]; cbn [sins]; [apply Permutation_refl|]. destruct (str_leb (fst kv) (fst x)); [apply Permutation_refl|].
  rewrite IH. apply perm_swap.
Qed.
Lemma ssort_perm {V} (d : list (string * V)) : Permutation (ssort d) d.
Proof. induction d as [|x d IH]; cbn [ssort]; [constructor|]. rewrite sins_perm, IH. apply Permutation_refl. Qed.
Definition kle {V} (a b : string * V) : Prop := str_leb (fst a) (fst b) = true.
Lemma sins_sorted {V} (kv : string * V) d : StronglySorted kle d -> StronglySorted kle (sins kv d).
Proof.
  induction 1 as [|x d H IH Hx]; cbn [sins]; [repeat constructor|].
  destruct (str_leb (fst kv) (fst x)) eqn:E.
  - constructor; [constructor; assumption|]. constructor; [exact E|].
    rewrite Forall_forall in *. intros y Hy. unfold kle in *. eapply str_leb_trans; [exact E|apply Hx; exact Hy].
  - constructor; [exact IH|]. rewrite Forall_forall in *. intros y Hy.
    apply (Permutation_in _ (sins_perm kv d)) in Hy as [<-|Hy]; [|auto].
    unfold kle. destruct (str_leb_total (fst kv) (fst x)); congruence.
Qed.
Lemma ssort_sorted {V} (d : list (string * V)) : StronglySorted kle (ssort d).
Proof. induction d; cbn [ssort]; [constructor|]. apply sins_sorted; assumption. Qed.
Lemma ssort_NoDup {V} (d : list (string * V)) : NoDup (dkeys d) -> NoDup (dkeys (ssort d)).
Proof. intros H. unfold dkeys in *. eapply Permutation_NoDup; [|exact H]. apply Permutation_map, Permutation_sym, ssort_perm. Qed.
Lemma dget_perm {V} k (d e : list (string * V)) : NoDup (dkeys d) -> Permutation d e -> dget k d = dget k e.
Proof.
  intros Hn Hp. assert (Hn' : NoDup (dkeys e)) by (unfold dkeys in *; eapply Permutation_NoDup; [apply Permutation_map; exact Hp|exact Hn]).
  destruct (dget k d) as [v|] eqn:E.
  - symmetry. apply In_dget; [exact Hn'|]. eapply Permutation_in; [exact Hp|]. apply dget_In; exact E.
  - symmetry. apply dget_None. apply dget_None in E. intros H. apply E. unfold dkeys in *.
    eapply Permutation_in; [apply Permutation_map, Permutation_sym; exact Hp|exact H].
Qed.
Lemma dget_ssort {V} k (d : list (string * V)) : NoDup (dkeys d) -> dget k (ssort d) = dget k d.
Proof. intros H. symmetry. apply dget_perm; [exact H|apply Permutation_sym, ssort_perm]. Qed.
Lemma ssort_sorted_keys d : NoDup (dkeys d) -> sorted_keys (ssort d).
Proof.
  intros H. apply ssort_NoDup in H. pose proof (ssort_sorted d) as Hs. unfold sorted_keys.
  induction Hs as [|x e He IH Hx]; cbn; [constructor|]. inversion H; subst. constructor; [apply IH; assumption|].
  rewrite Forall_forall in *. intros k Hk. apply in_map_iff in Hk as (y & <- & Hy). split; [apply Hx; exact Hy|].
  intros E. apply H2. rewrite E. unfold dkeys. apply in_map. exact Hy.
Qed.
(** strictly sorted lists with the same bindings are equal *)
Lemma sorted_ext d e : sorted_keys d -> sorted_keys e -> (forall k, dget k d = dget k e) -> d = e.
Proof.
  unfold sorted_keys. revert e; induction d as [|[k v] d IH]; intros [|[k' v'] e] Hd He H.
  - reflexivity.
  - specialize (H k'). cbn in H. rewrite eqb_refl in H. discriminate.
  - specialize (H k). cbn in H. rewrite eqb_refl in H. discriminate.
  - inversion Hd as [|? ? Hd1 Hd2]; inversion He as [|? ? He1 He2]; subst. rewrite Forall_forall in *.
    assert (k = k').
    { pose proof (H k) as H1. pose proof (H k') as H2. cbn [dget] in H1, H2. rewrite eqb_refl in H1, H2.
      destruct (String.eqb_spec k k') as [E|E]; [exact E|]. rewrite eqb_sym, (eqb_neq _ _ E) in H2.
      symmetry in H1. apply dget_In_keys in H1. apply dget_In_keys in H2.
      apply He2 in H1 as [H1 _]. apply Hd2 in H2 as [H2 _]. apply str_leb_antisym; assumption. }
    subst k'. pose proof (H k) as H1. cbn [dget] in H1. rewrite eqb_refl in H1. inversion H1; subst. f_equal.
    apply IH; auto. intros z. specialize (H z). cbn [dget] in H. destruct (String.eqb_spec z k) as [Ez|Ez]; [|exact H]. subst z.
    destruct (dget k d) as [w|] eqn:E; [exfalso; apply dget_In_keys in E; apply Hd2 in E; destruct E; congruence|].
    destruct (dget k e) as [w|] eqn:E'; [exfalso; apply dget_In_keys in E'; apply He2 in E'; destruct E'; congruence|reflexivity].
Qed.
