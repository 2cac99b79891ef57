(** * MergeKeep: what every list merge keeps, and lists inside merged elements
    (proofs only) *)
From Verif Require Import PyBase PyLemmas Merge SpecMerge MergeProofs MergeListProofs MergeFinal.

Section Keep.
Variables (oid : oracle) (ids : list string).

(** Filling a container: for any key, the last element stored under it. *)
Definition filled (s : bool) (l : list val) (i : nat) (rest : list val) (skip : val -> bool) (acc c : list (mkey * val)) : Prop :=
  (okd acc -> NoDup (kkeys acc) -> okd c /\ NoDup (kkeys c)) /\
  forall k, okk k -> okd acc ->
    (exists j el, nth_error rest j = Some el /\ skip el = false /\ nk (keyt oid ids s l (i + j) el) = nk k /\ kget k c = Some el /\
       forall j' el', j < j' -> nth_error rest j' = Some el' -> skip el' = false -> nk (keyt oid ids s l (i + j') el') <> nk k)
    \/ ((forall j el, nth_error rest j = Some el -> skip el = false -> nk (keyt oid ids s l (i + j) el) <> nk k) /\ kget k c = kget k acc).
Lemma filled_nil s l i skip acc : filled s l i [] skip acc acc.
Proof. split; [auto|]. intros k _ _. right. split; [intros [|j]; discriminate|reflexivity]. Qed.
Lemma filled_skip s l i el t skip acc c : skip el = true -> filled s l (S i) t skip acc c -> filled s l i (el :: t) skip acc c.
Proof.
  intros Hs [H1 H2]. split; [exact H1|]. intros k Hk Ho. destruct (H2 k Hk Ho) as [(j & x & Hn & Hx & Ek & Hg & Hl)|[Hl Hg]].
  - left. exists (S j), x. replace (i + S j) with (S i + j) by lia. repeat split; auto.
    intros [|j'] el' Hj Hn' Hs'; [lia|]. replace (i + S j') with (S i + j') by lia. apply (Hl j'); auto. lia.
  - right. split; [|exact Hg]. intros [|j] x Hn Hx.
    + inversion Hn; subst. congruence.
    + replace (i + S j) with (S i + j) by lia. exact (Hl j x Hn Hx).
Qed.
Lemma filled_step s l i el t skip acc c : hash_ok ids el = true ->
  filled s l (S i) t skip (kset (keyt oid ids s l i el) el acc) c -> skip el = false -> filled s l i (el :: t) skip acc c.
Proof.
  intros Hh [H1 H2] Hs. pose proof (okk_keyt oid ids s l i el Hh) as Hk0. split.
  { intros Ho Hn. apply H1; [apply okd_kset; assumption|apply NoDup_kset; assumption]. }
  intros k Hk Ho. destruct (H2 k Hk (okd_kset _ _ _ Hk0 Ho)) as [(j & x & Hn & Hx & Ek & Hg & Hl)|[Hl Hg]].
  - left. exists (S j), x. replace (i + S j) with (S i + j) by lia. repeat split; auto.
    intros [|j'] el' Hj Hn' Hs'; [lia|]. replace (i + S j') with (S i + j') by lia. apply (Hl j'); auto. lia.
  - rewrite kget_kset in Hg by assumption. destruct (mkey_eqb k (keyt oid ids s l i el)) eqn:E.
    + apply mkey_eqb_nk in E; [|exact Hk]. left. exists 0, el. rewrite Nat.add_0_r. repeat split; auto.
      intros [|j'] el' Hj Hn' Hs'; [lia|]. replace (i + S j') with (S i + j') by lia. exact (Hl j' el' Hn' Hs').
    + apply mkey_eqb_false in E; [|exact Hk]. right. split; [|exact Hg]. intros [|j] x Hn Hx.
      * inversion Hn; subst. rewrite Nat.add_0_r. congruence.
      * replace (i + S j) with (S i + j) by lia. exact (Hl j x Hn Hx).
Qed.
Lemma container1_filled l : forall rest i acc c, container1_from oid ids l i rest acc = Ok c ->
  filled false l i rest (fun _ => false) acc c.
Proof.
  induction rest as [|el t IH]; intros i acc c H; cbn [container1_from] in H.
  - inversion H; subst. apply filled_nil.
  - rewrite key_of_eq in H. destruct (hash_ok ids el) eqn:E; [|discriminate]. cbn [bind] in H.
    apply filled_step; auto.
Qed.
Lemma container2_filled c1 l : forall rest i acc c, container2_from oid ids c1 l (fun x => x) i rest acc = Ok c ->
  filled true l i rest (fun e => py_in e (map snd c1)) acc c.
Proof.
  induction rest as [|el t IH]; intros i acc c H; cbn [container2_from] in H.
  - inversion H; subst. apply filled_nil.
  - destruct (py_in el (map snd c1)) eqn:Ep; [apply filled_skip; auto|].
    rewrite key_of_eq in H. destruct (hash_ok ids el) eqn:E; [|discriminate]. cbn [bind] in H.
    apply filled_step; auto.
Qed.

Lemma kept l1 l2 r : oid_sound oid -> merge_list oid ids l1 l2 = Ok r ->
  (forall i e, last_of ids l1 i e ->
     In e r \/ exists d d2 m, e = VDict d /\ In (VDict d2) l2 /\ same_ident ids e (VDict d2) /\
                              merge_config oid [] d d2 = Ok m /\ In (VDict m) r) /\
  (forall i e, last_of ids l2 i e -> ~ In_eq e l1 ->
     In e r \/ exists d d1 m, e = VDict d /\ In (VDict d1) l1 /\ same_ident ids (VDict d1) e /\
                              merge_config oid [] d1 d = Ok m /\ In (VDict m) r).
Proof.
  intros Hsnd H. unfold merge_list in H. apply bind_Ok in H as (c1 & Hc1 & H). apply bind_Ok in H as (c2 & Hc2 & H).
  apply bind_Ok in H as (m & Hm & E). inversion E; subst r; clear E.
  pose proof (container1_hash oid ids l1 l1 0 []) as [(r' & Hr' & Hh1)|[He _]]; [|unfold container1 in Hc1; congruence].
  pose proof (container2_hash oid ids c1 l2 l2 0 []) as [(r2 & Hr2 & Hh2)|[He _]]; [|congruence].
  clear r' Hr' r2 Hr2. rewrite forallb_forall in Hh1.
  apply container1_filled in Hc1 as [N1 F1]. apply container2_filled in Hc2 as [N2 F2].
  assert (Z : okd (@nil (mkey * val))) by (intros k v []).
  destruct (N1 Z (NoDup_nil _)) as [O1 D1]. destruct (N2 Z (NoDup_nil _)) as [O2 D2]. clear N1 N2.
  destruct (fold_closed oid c2 c1 m O1 O2 D1 D2 Hm) as (c1' & HF & ->).
  assert (L1 : forall i e, last_of ids l1 i e -> kget (keyt oid ids false l1 i e) c1 = Some e).
  { intros i e [Hn Hl]. assert (He : hash_ok ids e = true) by (apply Hh1; eapply nth_error_In; eauto).
    destruct (F1 (keyt oid ids false l1 i e) (okk_keyt _ _ _ _ _ _ He) Z) as [(j & x & Hx & _ & Ek & Hg & Hlast)|[Hno _]].
    - rewrite Hg. f_equal. cbn [Nat.add] in Ek.
      assert (Hhx : hash_ok ids x = true) by (apply Hh1; eapply nth_error_In; eauto).
      destruct (Nat.lt_trichotomy i j) as [Hij|[->|Hij]]; [|congruence|].
      + symmetry in Ek. apply keyt_eq in Ek as [Es|(_ & _ & _ & Eo)]; auto; [exfalso; exact (Hl j x Hij Hx Es)|].
        symmetry. exact (Hsnd l1 i j e x Hn Hx Eo).
      + exfalso. exact (Hlast i e Hij Hn eq_refl eq_refl).
    - exfalso. exact (Hno i e Hn eq_refl eq_refl). }
  assert (Src1 : forall k e, okk k -> kget k c1 = Some e -> exists j, nth_error l1 j = Some e /\ nk (keyt oid ids false l1 j e) = nk k).
  { intros k e Hk Hg. destruct (F1 k Hk Z) as [(j & x & Hx & _ & Ek & Hg' & _)|[_ Hg']]; [|rewrite Hg' in Hg; discriminate].
    rewrite Hg in Hg'. inversion Hg'; subst. eauto. }
  assert (Src2 : forall k e, okk k -> kget k c2 = Some e -> exists j, nth_error l2 j = Some e /\ py_in e (map snd c1) = false /\ nk (keyt oid ids true l2 j e) = nk k).
  { intros k e Hk Hg. destruct (F2 k Hk Z) as [(j & x & Hx & Hs & Ek & Hg' & _)|[_ Hg']]; [|rewrite Hg' in Hg; discriminate].
    rewrite Hg in Hg'. inversion Hg'; subst. eauto. }
  split.
  - intros i e He. pose proof (L1 i e He) as Hg. destruct He as [Hn Hl].
    assert (Hh : hash_ok ids e = true) by (apply Hh1; eapply nth_error_In; eauto).
    assert (Hk : okk (keyt oid ids false l1 i e)) by (apply okk_keyt; exact Hh).
    apply kget_In in Hg as (k' & Hin & Ek); [|exact Hk].
    destruct (Forall2_In_l _ _ _ _ HF Hin) as ([k2 e'] & Hin' & E1 & Hv). cbn [fst snd] in E1, Hv. subst k2.
    assert (Hr : In e' (map snd (c1' ++ filter (fun kv => match kget (fst kv) c1 with None => true | Some _ => false end) c2))).
    { apply in_map_iff. exists (k', e'). split; [reflexivity|apply in_app_iff; left; exact Hin']. }
    assert (Hk' : okk k') by (eapply O1; eauto).
    destruct (kget k' c2) as [e2|] eqn:Eg; [|subst e'; left; exact Hr].
    destruct (Src2 k' e2 Hk' Eg) as (j & Hj & Hp & Ej). rewrite <- Ek in Ej. symmetry in Ej.
    assert (Hh2' : hash_ok ids e2 = true) by (apply Hh2; [eapply nth_error_In; eauto|exact Hp]).
    apply keyt_eq in Ej as [Es|(_ & _ & Ef & _)]; [|discriminate|exact Hh|exact Hh2'].
    destruct Es as (v & w & Hv' & Hw' & Ee).
    destruct (has_ident_dict _ _ _ Hv') as [d ->]. destruct (has_ident_dict _ _ _ Hw') as [d2 ->].
    rewrite merge_val_dict in Hv. apply bind_Ok in Hv as (mm & Hmm & E). inversion E; subst e'.
    right. exists d, d2, mm. split; [reflexivity|]. split; [eapply nth_error_In; eauto|].
    split; [exists v, w; auto|]. split; [exact Hmm|exact Hr].
  - intros i e [Hn Hl] Hne.
    assert (Hp : py_in e (map snd c1) = false).
    { apply py_in_false. intros (y & Hy & Eq). apply Hne. exists y. split; [|exact Eq].
      apply in_map_iff in Hy as ([k y'] & Ey & Hy). cbn [snd] in Ey. subst y'.
      assert (Hk : okk k) by (eapply O1; eauto).
      destruct (Src1 k y Hk (In_kget k y c1 Hk D1 Hy)) as (j & Hj & _). eapply nth_error_In; eauto. }
    assert (Hh : hash_ok ids e = true) by (apply Hh2; [eapply nth_error_In; eauto|exact Hp]).
    assert (Hk : okk (keyt oid ids true l2 i e)) by (apply okk_keyt; exact Hh).
    assert (Hg : kget (keyt oid ids true l2 i e) c2 = Some e).
    { destruct (F2 (keyt oid ids true l2 i e) Hk Z) as [(j & x & Hx & Hs & Ek & Hg & Hlast)|[Hno _]].
      - rewrite Hg. f_equal. cbn [Nat.add] in Ek.
        assert (Hhx : hash_ok ids x = true) by (apply Hh2; [eapply nth_error_In; eauto|exact Hs]).
        destruct (Nat.lt_trichotomy i j) as [Hij|[->|Hij]]; [|congruence|].
        + symmetry in Ek. apply keyt_eq in Ek as [Es|(_ & _ & _ & Eo)]; auto; [exfalso; exact (Hl j x Hij Hx Es)|].
          symmetry. exact (Hsnd l2 i j e x Hn Hx Eo).
        + exfalso. exact (Hlast i e Hij Hn Hp eq_refl).
      - exfalso. exact (Hno i e Hn Hp eq_refl). }
    destruct (kget (keyt oid ids true l2 i e) c1) as [e1|] eqn:Eg1.
    + pose proof Eg1 as Eg1'. apply kget_In in Eg1 as (k' & Hin & Ek); [|exact Hk].
      assert (Hk' : okk k') by (eapply O1; eauto).
      destruct (Forall2_In_l _ _ _ _ HF Hin) as ([k2 e'] & Hin' & E1 & Hv). cbn [fst snd] in E1, Hv. subst k2.
      rewrite (kget_ext k' (keyt oid ids true l2 i e) c2 Hk' Hk (eq_sym Ek)), Hg in Hv.
      destruct (Src1 _ e1 Hk Eg1') as (j & Hj & Ej).
      assert (Hh1' : hash_ok ids e1 = true) by (apply Hh1; eapply nth_error_In; eauto).
      apply keyt_eq in Ej as [Es|(_ & _ & Ef & _)]; [|discriminate|exact Hh1'|exact Hh].
      destruct Es as (v & w & Hv' & Hw' & Ee).
      destruct (has_ident_dict _ _ _ Hv') as [d1 ->]. destruct (has_ident_dict _ _ _ Hw') as [d ->].
      rewrite merge_val_dict in Hv. apply bind_Ok in Hv as (mm & Hmm & E). inversion E; subst e'.
      right. exists d, d1, mm. split; [reflexivity|]. split; [eapply nth_error_In; eauto|].
      split; [exists v, w; auto|]. split; [exact Hmm|]. apply in_map_iff. exists (k', VDict mm). split; [reflexivity|].
      apply in_app_iff; left; exact Hin'.
    + left. apply kget_In in Hg as (k' & Hin & Ek); [|exact Hk]. apply in_map_iff. exists (k', e). split; [reflexivity|].
      apply in_app_iff; right. apply filter_In. split; [exact Hin|]. cbn [fst].
      assert (Hk' : okk k') by (eapply O2; eauto).
      rewrite (kget_ext k' (keyt oid ids true l2 i e) c1 Hk' Hk (eq_sym Ek)), Eg1. reflexivity.
Qed.
End Keep.

(** ** Lists inside merged elements *)
Lemma same_ident_nil a b : ~ same_ident [] a b.
Proof. intros (v & w & H & _). exact (has_ident_nil a v H). Qed.
Lemma hash_ok_nil l : forallb (hash_ok []) l = true.
Proof. apply forallb_forall. intros [] _; reflexivity. Qed.
Lemma distinct_objects_nil oid l : distinct_objects oid l -> distinct_elements [] (fun i j => oid l i = oid l j) l.
Proof.
  intros H. split; intros i j x y Hx Hy.
  - intros Hs. exfalso. exact (same_ident_nil _ _ Hs).
  - intros _ _ E. apply H; [apply nth_error_Some; congruence|apply nth_error_Some; congruence|exact E].
Qed.
Lemma merge_list_nil_ids oid l1 l2 r : distinct_objects oid l1 -> distinct_objects oid l2 ->
  merge_list oid [] l1 l2 = Ok r -> exists fresh, (forall e, In e l2 -> (fresh e = true <-> ~ In_eq e l1)) /\ r = (l1 ++ filter fresh l2)%list.
Proof.
  intros D1 D2 H.
  destruct (union_by_identity oid [] l1 l2 (distinct_objects_nil oid l1 D1) (distinct_objects_nil oid l2 D2) (hash_ok_nil _) (hash_ok_nil _) r H) as (l1' & fresh & HF & Hf & ->).
  exists fresh. split.
  - intros e He. rewrite (Hf e He). split; [tauto|]. intros Hn. split; [exact Hn|]. intros e1 _ Hs. exact (same_ident_nil _ _ Hs).
  - f_equal. clear -HF.
    assert (G : forall a b, Forall2 (merged_element oid [] l1 l2) a b -> b = a).
    { induction 1 as [|x y a b Hxy _ IH]; [reflexivity|]. subst b. f_equal.
      destruct Hxy as [(e2 & d & d2 & m & _ & _ & Hs & _)|[_ ->]]; [exfalso; exact (same_ident_nil _ _ Hs)|reflexivity]. }
    apply G. exact HF.
Qed.
