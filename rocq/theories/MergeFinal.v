(** * MergeFinal: union by identity, self merge, failures *)
From Verif Require Import PyBase PyLemmas Merge SpecMerge MergeProofs MergeListProofs.

Lemma py_in_spec x l : py_in x l = true <-> In_eq x l.
Proof.
  unfold py_in, In_eq. rewrite existsb_exists. reflexivity.
Qed.
Lemma py_in_false x l : py_in x l = false <-> ~ In_eq x l.
Proof. rewrite <- py_in_spec. destruct (py_in x l); split; congruence. Qed.

Lemma py_eq_hash_sym a b : hashable a = true -> py_eq a b = true -> hashable b = true -> py_eq b a = true.
Proof. intros Ha H Hb. apply py_eq_hash; [exact Hb|]. apply py_eq_hash in H; [congruence|exact Ha]. Qed.

Lemma merge_list_ok_hash oid ids l1 l2 r : merge_list oid ids l1 l2 = Ok r ->
  forallb (hash_ok ids) l1 = true.
Proof.
  unfold merge_list, container1. intros H. apply bind_Ok in H as (c1 & H1 & _).
  destruct (container1_hash oid ids l1 l1 0 []) as [(r' & _ & Hf)|[He _]]; [exact Hf|congruence].
Qed.

Section Union.
Variables (oid : oracle) (ids : list string) (l1 l2 : list val).
Hypothesis D1 : distinct_elements ids (fun i j => oid l1 i = oid l1 j) l1.
Hypothesis D2 : distinct_elements ids (fun i j => oid l2 i = oid l2 j) l2.
Hypothesis H1 : forallb (hash_ok ids) l1 = true.
Hypothesis H2 : forallb (hash_ok ids) l2 = true.

Let c1 := zipk oid ids false l1 0 l1.
Let c2 := filter (fun kv => negb (py_in (snd kv) l1)) (zipk oid ids true l2 0 l2).

Lemma union_c1 : container1 oid ids l1 = Ok c1.
Proof.
  unfold container1. rewrite (container1_closed oid ids l1 l1 0 []); [reflexivity|exact H1|].
  apply zipk_NoDup; assumption.
Qed.
Lemma union_c2 : container2_from oid ids c1 l2 (fun x => x) 0 l2 [] = Ok c2.
Proof.
  unfold c2. assert (E : l1 = map snd c1) by (symmetry; apply zipk_snd).
  rewrite E. apply (container2_closed oid ids c1 l2 l2 0 []); [exact H2|].
  simpl. apply NoDup_filter_map. apply zipk_NoDup; assumption.
Qed.
Lemma union_ok1 : okd c1. Proof. apply zipk_okd; exact H1. Qed.
Lemma union_ok2 : okd c2.
Proof. intros k v Hin. apply filter_In in Hin as [Hin _]. eapply zipk_okd; [exact H2|exact Hin]. Qed.
Lemma union_nd1 : NoDup (kkeys c1). Proof. apply zipk_NoDup; assumption. Qed.
Lemma union_nd2 : NoDup (kkeys c2). Proof. apply NoDup_filter_map. apply zipk_NoDup; assumption. Qed.
Lemma c1_In k e : In (k, e) c1 -> In e l1 /\ hash_ok ids e = true /\ exists i, k = keyt oid ids false l1 i e.
Proof.
  intros H. apply zipk_In in H as (i & Hi & ->). apply nth_error_In in Hi.
  split; [exact Hi|]. split; [rewrite forallb_forall in H1; auto|eauto].
Qed.
Lemma c2_In k e : In (k, e) c2 -> In e l2 /\ ~ In_eq e l1 /\ hash_ok ids e = true /\ exists i, k = keyt oid ids true l2 i e.
Proof.
  intros H. apply filter_In in H as [H Hp]. apply zipk_In in H as (i & Hi & ->). apply nth_error_In in Hi.
  split; [exact Hi|]. split; [apply py_in_false; apply negb_true_iff; exact Hp|].
  split; [rewrite forallb_forall in H2; auto|eauto].
Qed.
Lemma In_c2 e : In e l2 -> ~ In_eq e l1 -> exists k i, In (k, e) c2 /\ k = keyt oid ids true l2 i e.
Proof.
  intros Hin Hne. destruct (In_zipk oid ids true l2 e Hin) as (k & i & Hk & E). exists k, i. split; [|exact E].
  apply filter_In. split; [exact Hk|]. simpl. apply py_in_false in Hne. rewrite Hne. reflexivity.
Qed.
Lemma cross_key i x j y : hash_ok ids x = true -> hash_ok ids y = true ->
  (nk (keyt oid ids false l1 i x) = nk (keyt oid ids true l2 j y) <-> same_ident ids x y).
Proof.
  intros Hx Hy. split.
  - intros E. apply keyt_eq in E as [E|(_ & _ & E & _)]; auto. discriminate.
  - apply same_ident_keyt. exact Hx.
Qed.

Lemma same_ident_sym a b : hash_ok ids a = true -> hash_ok ids b = true ->
  same_ident ids a b -> same_ident ids b a.
Proof.
  intros Ha Hb (v & w & Hv & Hw & E). exists w, v. split; [exact Hw|]. split; [exact Hv|].
  destruct (has_ident_dict _ _ _ Hv) as [da ->]. destruct (has_ident_dict _ _ _ Hw) as [db ->].
  apply ident_of_spec in Hv, Hw. unfold hash_ok in Ha, Hb. rewrite Hv in Ha. rewrite Hw in Hb.
  apply py_eq_hash_sym; assumption.
Qed.

Lemma union_by_identity r :
  merge_list oid ids l1 l2 = Ok r ->
  exists l1' fresh,
    Forall2 (merged_element oid ids l1 l2) l1 l1' /\
    (forall e, In e l2 -> (fresh e = true <->
        ~ In_eq e l1 /\ forall e1, In e1 l1 -> ~ same_ident ids e1 e)) /\
    r = (l1' ++ filter fresh l2)%list.
Proof.
  intros H. unfold merge_list in H. rewrite union_c1 in H. cbn [bind] in H. rewrite union_c2 in H. cbn [bind] in H.
  apply bind_Ok in H as (m & Hm & E). inversion E; subst r; clear E.
  destruct (fold_closed oid c2 c1 m union_ok1 union_ok2 union_nd1 union_nd2 Hm) as (c1' & HF & ->).
  exists (map snd c1').
  exists (fun e => negb (py_in e l1) && negb (existsb (fun e1 => match kget (keyt oid ids true l2 0 e) [(keyt oid ids false l1 0 e1, tt)] with Some _ => true | None => false end) l1)).
  split; [|split].
  - rewrite <- (zipk_snd oid ids false l1 0 l1) at 2. fold c1. apply Forall2_map_lr.
    assert (G : forall a b, incl a c1 -> Forall2 (fun kv kv' : mkey * val => fst kv = fst kv' /\
      match kget (fst kv) c2 with
      | Some e2 => merge_val oid e2 [] (Some (snd kv)) EmptyString = Ok (snd kv')
      | None => snd kv' = snd kv
      end) a b -> Forall2 (fun x y => merged_element oid ids l1 l2 (snd x) (snd y)) a b).
    { intros a b Hi HF'. induction HF' as [|[k e] [k' e'] a b [_ Hv] HF' IH]; constructor.
      - simpl in *. assert (Hin : In (k, e) c1) by (apply Hi; left; reflexivity).
        assert (Hk : okk k) by (eapply union_ok1; eauto).
        destruct (c1_In k e Hin) as (He & Hh & i & ->).
        destruct (kget (keyt oid ids false l1 i e) c2) as [e2|] eqn:Eg.
        + left. apply kget_In in Eg as (k2 & Hin2 & En); [|exact Hk].
          destruct (c2_In _ _ Hin2) as (He2 & Hne & Hh2 & j & ->).
          apply cross_key in En; auto.
          destruct En as (v & w & Hv' & Hw' & Ee).
          destruct (has_ident_dict _ _ _ Hv') as [d ->]. destruct (has_ident_dict _ _ _ Hw') as [d2 ->].
          rewrite merge_val_dict in Hv. apply bind_Ok in Hv as (mm & Hmm & E). inversion E; subst.
          exists (VDict d2), d, d2, mm. split; [exact He2|]. split; [exact Hne|]. split; [exists v, w; auto|]. auto.
        + right. split; [|exact Hv]. intros e2 He2 Hne Hs.
          destruct (In_c2 e2 He2 Hne) as (k2 & j & Hin2 & ->).
          apply kget_None in Eg; [|exact Hk]. apply Eg.
          assert (Hh2 : hash_ok ids e2 = true) by (rewrite forallb_forall in H2; auto).
          rewrite (same_ident_keyt oid ids false l1 i e true l2 j e2 Hh Hs).
          apply (in_map (fun kv : mkey * val => nk (fst kv)) _ _ Hin2).
      - apply IH. intros x Hx. apply Hi; right; exact Hx. }
    apply G; [apply incl_refl|exact HF].
  - intros e He. rewrite andb_true_iff, !negb_true_iff, py_in_false.
    assert (Hh2 : hash_ok ids e = true) by (rewrite forallb_forall in H2; auto).
    assert (Hkk : okk (keyt oid ids true l2 0 e)) by (apply okk_keyt; exact Hh2).
    split; intros [Hne Hx]; split; auto.
    + intros e1 He1 Hs.
      assert (Hh1 : hash_ok ids e1 = true) by (rewrite forallb_forall in H1; auto).
      assert (existsb (fun e1 => match kget (keyt oid ids true l2 0 e) [(keyt oid ids false l1 0 e1, tt)] with Some _ => true | None => false end) l1 = true); [|congruence].
      apply existsb_exists. exists e1. split; [exact He1|]. simpl.
      assert (mkey_eqb (keyt oid ids true l2 0 e) (keyt oid ids false l1 0 e1) = true) as ->; [|reflexivity].
      apply mkey_eqb_nk; [exact Hkk|]. symmetry. apply same_ident_keyt; assumption.
    + apply Bool.not_true_is_false. intros Hc. apply existsb_exists in Hc as (e1 & He1 & Hc). simpl in Hc.
      destruct (mkey_eqb (keyt oid ids true l2 0 e) (keyt oid ids false l1 0 e1)) eqn:Em; [|discriminate].
      assert (Hh1 : hash_ok ids e1 = true) by (rewrite forallb_forall in H1; auto).
      apply mkey_eqb_nk in Em; [|exact Hkk]. symmetry in Em. apply cross_key in Em; auto. exact (Hx e1 He1 Em).
  - rewrite map_app. f_equal. unfold c2.
    match goal with |- map snd (filter ?f (filter ?g ?z)) = filter ?h l2 =>
      assert (G : forall rest i, forallb (hash_ok ids) rest = true -> map snd (filter f (filter g (zipk oid ids true l2 i rest))) = filter h rest) end.
    { induction rest as [|e rest IH]; intros i Hh; [reflexivity|]. simpl in Hh. apply andb_true_iff in Hh as [He Hh].
      cbn [zipk filter snd]. destruct (py_in e l1); cbn [negb andb filter]; [apply IH; exact Hh|].
      cbn [fst].
      assert (Heq : match kget (keyt oid ids true l2 i e) c1 with None => true | Some _ => false end
         = negb (existsb (fun e1 => match kget (keyt oid ids true l2 0 e) [(keyt oid ids false l1 0 e1, tt)] with Some _ => true | None => false end) l1)).
      { destruct (kget (keyt oid ids true l2 i e) c1) as [e1|] eqn:Eg.
        - apply kget_In in Eg as (k1 & Hin1 & En); [|apply okk_keyt; exact He].
          destruct (c1_In _ _ Hin1) as (He1 & Hh1 & j & ->). symmetry in En. apply cross_key in En; auto.
          symmetry. apply negb_false_iff. apply existsb_exists. exists e1. split; [exact He1|]. simpl.
          assert (mkey_eqb (keyt oid ids true l2 0 e) (keyt oid ids false l1 0 e1) = true) as ->; [|reflexivity].
          apply mkey_eqb_nk; [apply okk_keyt; exact He|]. symmetry. apply same_ident_keyt; assumption.
        - symmetry. apply negb_true_iff. apply Bool.not_true_is_false. intros Hc.
          apply existsb_exists in Hc as (e1 & He1 & Hc). simpl in Hc.
          destruct (mkey_eqb (keyt oid ids true l2 0 e) (keyt oid ids false l1 0 e1)) eqn:Em; [|discriminate].
          assert (Hh1 : hash_ok ids e1 = true) by (rewrite forallb_forall in H1; auto).
          apply mkey_eqb_nk in Em; [|apply okk_keyt; exact He]. symmetry in Em. apply cross_key in Em; auto.
          apply kget_None in Eg; [|apply okk_keyt; exact He]. apply Eg.
          destruct (In_zipk oid ids false l1 e1 He1) as (k1 & j & Hin1 & ->).
          rewrite <- (same_ident_keyt oid ids false l1 j e1 true l2 i e Hh1 Em).
          apply (in_map (fun kv : mkey * val => nk (fst kv)) _ _ Hin1). }
      rewrite Heq. destruct (existsb _ l1); cbn [negb map]; [apply IH; exact Hh|]. f_equal. apply IH; exact Hh. }
    apply G; exact H2.
Qed.
End Union.

(** ** Hashable identifiers, stated on lists *)
Lemma hashable_idents_ok ids l : hashable_idents ids l -> forallb (hash_ok ids) l = true.
Proof.
  intros H. apply forallb_forall. intros el Hel. destruct (hash_ok ids el) eqn:E; [reflexivity|].
  apply hash_ok_false in E as (v & Hv & Hu). exfalso. exact (H el v Hel Hv Hu).
Qed.

(** ** Self merge (C03) *)
Definition self_mergeable (oid : oracle) (ids : list string) (v : val) : Prop :=
  at_lists (fun l => distinct_elements ids (fun i j => oid l i = oid l j) l
                     /\ hashable_idents ids l) v.
Lemma at_lists_dict P d : at_lists P (VDict d) <-> forall k v, In (k, v) d -> at_lists P v.
Proof.
  cbn [at_lists]. induction d as [|[k x] d IH].
  - split; [intros _ k v []|auto].
  - rewrite IH. split.
    + intros [H1 H2] k' v [E|Hin]; [inversion E; subst; exact H1|eauto].
    + intros H; split; [eapply H; left; reflexivity|intros k' v Hin; eapply H; right; exact Hin].
Qed.
Lemma merge_self_val oid ids v : wf v -> self_mergeable oid ids v ->
  forall key, merge_val oid v ids (Some v) key = Ok v.
Proof.
  induction v as [|b|z|r|s|l IH|d IH] using val_ind'; intros Hw Hs key; try reflexivity.
  - rewrite merge_val_list. destruct Hs as [D Hh]. pose proof (hashable_idents_ok _ _ Hh) as H1.
    unfold merge_list. rewrite (union_c1 oid ids l D H1). cbn [bind].
    rewrite (union_c2 oid ids l l D H1).
    assert (E : filter (fun kv : mkey * val => negb (py_in (snd kv) l)) (zipk oid ids true l 0 l) = []).
    { destruct (filter _ _) as [|[k e] rest] eqn:E; [reflexivity|].
      assert (Hin : In (k, e) (filter (fun kv : mkey * val => negb (py_in (snd kv) l)) (zipk oid ids true l 0 l))) by (rewrite E; left; reflexivity).
      apply filter_In in Hin as [Hin Hp]. apply zipk_In in Hin as (i & Hi & _). apply nth_error_In in Hi.
      simpl in Hp. apply negb_true_iff in Hp. apply py_in_false in Hp. exfalso. apply Hp.
      exists e. split; [exact Hi|]. apply py_eq_refl. rewrite wf_list in Hw. auto. }
    rewrite E. cbn [bind foldM]. rewrite zipk_snd. reflexivity.
  - rewrite merge_val_dict. unfold self_mergeable in Hs. rewrite at_lists_dict in Hs.
    apply wf_dict in Hw as [Hnd Hv].
    assert (G : forall e, incl e d -> merge_config oid ids d e = Ok d).
    { induction e as [|[k x] e IHe]; intros Hi; [reflexivity|]. rewrite merge_config_cons.
      assert (Hin : In (k, x) d) by (apply Hi; left; reflexivity).
      rewrite (In_dget k x d Hnd Hin). rewrite (IH k x Hin (Hv k x Hin) (Hs k x Hin)). cbn [bind].
      rewrite dset_same by (apply In_dget; assumption). apply IHe. intros y Hy. apply Hi; right; exact Hy. }
    rewrite (G d (incl_refl d)). reflexivity.
Qed.

(** ** Failures (C04) *)
Lemma bad_ident_nil a b : ~ bad_ident [] a b.
Proof.
  intros H. remember [] as ids eqn:E. induction H; subst.
  - eapply has_ident_nil; eauto.
  - auto.
Qed.

Definition good1 oid ids s l (c : list (mkey * val)) : Prop :=
  okd c /\ NoDup (kkeys c) /\
  forall k e, In (k, e) c -> In e l /\ hash_ok ids e = true /\
     exists i, nk k = nk (keyt oid ids s l i e).
Lemma good1_kset oid ids s l c i el : good1 oid ids s l c -> In el l -> hash_ok ids el = true ->
  good1 oid ids s l (kset (keyt oid ids s l i el) el c).
Proof.
  intros (Ho & Hn & Hg) Hin Hh. assert (Hk : okk (keyt oid ids s l i el)) by (apply okk_keyt; exact Hh).
  split; [apply okd_kset; assumption|]. split; [apply NoDup_kset; assumption|].
  intros k e H.
  assert (G : In (k, e) (kset (keyt oid ids s l i el) el c) -> (e = el /\ nk k = nk (keyt oid ids s l i el)) \/ In (k, e) c).
  { clear -Hk. induction c as [|[k2 v2] c IH]; simpl.
    - intros [E|[]]; inversion E; auto.
    - destruct (mkey_eqb (keyt oid ids s l i el) k2) eqn:E2; simpl; intros [E|H].
      + inversion E; subst. apply mkey_eqb_nk in E2; auto.
      + auto.
      + inversion E; subst; auto.
      + destruct (IH H); auto. }
  destruct (G H) as [[-> E]|H']; [|auto]. split; [exact Hin|]. split; [exact Hh|eauto].
Qed.
Lemma container1_good oid ids l : forall rest i acc c, incl rest l -> good1 oid ids false l acc ->
  container1_from oid ids l i rest acc = Ok c -> good1 oid ids false l c.
Proof.
  induction rest as [|el rest IH]; intros i acc c Hi Hg H; simpl in H.
  - inversion H; subst; exact Hg.
  - rewrite key_of_eq in H. destruct (hash_ok ids el) eqn:E; cbn [bind] in H; [|discriminate].
    eapply IH; [|apply good1_kset; [exact Hg| |exact E]|exact H].
    + intros x Hx; apply Hi; right; exact Hx.
    + apply Hi; left; reflexivity.
Qed.
Lemma container2_good oid ids c1 l : forall rest i acc c, incl rest l -> good1 oid ids true l acc ->
  (forall k e, In (k, e) acc -> py_in e (map snd c1) = false) ->
  container2_from oid ids c1 l (fun x => x) i rest acc = Ok c ->
  good1 oid ids true l c /\ (forall k e, In (k, e) c -> py_in e (map snd c1) = false).
Proof.
  induction rest as [|el rest IH]; intros i acc c Hi Hg Hp H; simpl in H.
  - inversion H; subst; auto.
  - destruct (py_in el (map snd c1)) eqn:Ep.
    + eapply IH; eauto. intros x Hx; apply Hi; right; exact Hx.
    + rewrite key_of_eq in H. destruct (hash_ok ids el) eqn:E; cbn [bind] in H; [|discriminate].
      eapply IH; [|apply good1_kset; [exact Hg| |exact E]| |exact H].
      * intros x Hx; apply Hi; right; exact Hx.
      * apply Hi; left; reflexivity.
      * intros k e Hin. apply kset_In in Hin as [[-> _]|Hin]; eauto.
Qed.
Lemma fold_err oid : forall c2 acc e, okd c2 -> NoDup (kkeys c2) ->
  foldM (fstep oid) acc c2 = Err e ->
  exists k e2, In (k, e2) c2 /\ merge_val oid e2 [] (kget k acc) EmptyString = Err e.
Proof.
  induction c2 as [|[k0 e0] c2 IH]; intros acc e Ho Hn H; [discriminate|].
  cbn [foldM] in H. unfold fstep at 1 in H. cbn [fst snd] in H.
  destruct (merge_val oid e0 [] (kget k0 acc) EmptyString) as [y|e'] eqn:E; cbn [bind] in H.
  - inversion Hn as [|? ? Hni Hnd]; subst.
    assert (Ho' : okd c2) by (intros a b Hab; eapply Ho; right; exact Hab).
    destruct (IH (kset k0 y acc) e Ho' Hnd H) as (k & e2 & Hin & Hv).
    exists k, e2. split; [right; exact Hin|].
    assert (Hk : okk k) by (eapply Ho'; eauto).
    rewrite kget_kset in Hv; [|exact Hk|eapply Ho; left; reflexivity].
    destruct (mkey_eqb k k0) eqn:Ek; [|exact Hv].
    exfalso. apply Hni. apply mkey_eqb_nk in Ek; [|exact Hk]. rewrite <- Ek.
    apply (in_map (fun kv : mkey * val => nk (fst kv)) _ _ Hin).
  - exists k0, e0. inversion H; subst. split; [left; reflexivity|exact E].
Qed.

Lemma merge_val_err oid v : forall ids ex key e, wf v ->
  merge_val oid v ids ex key = Err e ->
  exists a, ex = Some a /\
   (((exists k x y, e = incompatible k x y) /\ conflict ids a v)
    \/ (e = EType /\ bad_ident ids a v)).
Proof.
  induction v as [|b|z|r|s|l2 IH|c IH] using val_ind'; intros ids ex key e Hw H;
    try (destruct ex as [[]|]; discriminate).
  - destruct ex as [[|b'|z'|r'|s'|l1|d']|]; try discriminate.
    + exists (VList l1). split; [reflexivity|].
      rewrite merge_val_list in H. unfold merge_list in H.
      destruct (container1_hash oid ids l1 l1 0 []) as [(c1 & H1 & Hh1)|[He (el & Hel & Hb)]].
      * unfold container1 in H. rewrite H1 in H. cbn [bind] in H.
        destruct (container2_hash oid ids c1 l2 l2 0 []) as [(c2 & H2 & _)|[He (el & Hel & Hb)]].
        -- rewrite H2 in H. cbn [bind] in H.
           assert (G1 : good1 oid ids false l1 c1).
           { eapply container1_good; [apply incl_refl| |exact H1]. split; [intros k' v' []|]. split; [constructor|intros k' e' []]. }
           assert (G2 : good1 oid ids true l2 c2 /\ (forall k e, In (k, e) c2 -> py_in e (map snd c1) = false)).
           { eapply container2_good; [apply incl_refl| | |exact H2]; [|intros k' e' []].
             split; [intros k' v' []|]. split; [constructor|intros k' e' []]. }
           destruct G1 as (Ho1 & Hn1 & Hg1). destruct G2 as ((Ho2 & Hn2 & Hg2) & Hp).
           destruct (foldM _ c1 c2) as [m|e'] eqn:Ef; [discriminate|]. simpl in H. inversion H; subst e'; clear H.
           destruct (fold_err oid c2 c1 e Ho2 Hn2 Ef) as (k & e2 & Hin & Hv).
           destruct (Hg2 k e2 Hin) as (He2 & Hh2 & j & Ek).
           assert (Hk : okk k) by (eapply Ho2; eauto).
           assert (Hw2 : wf e2) by (rewrite wf_list in Hw; auto).
           destruct (IH e2 He2 [] _ _ _ Hw2 Hv) as (a & Ea & [[Hi Hc]|[_ Hb]]);
             [|exfalso; eapply bad_ident_nil; eauto].
           left. split; [exact Hi|].
           apply kget_In in Ea as (k1 & Hin1 & E1); [|exact Hk].
           destruct (Hg1 k1 a Hin1) as (Ha & Hha & i & Ek1).
           assert (Hs : same_ident ids a e2).
           { assert (E : nk (keyt oid ids false l1 i a) = nk (keyt oid ids true l2 j e2)) by congruence.
             apply keyt_eq in E as [E|(_ & _ & E & _)]; auto. discriminate. }
           eapply cf_element; eauto.
           specialize (Hp k e2 Hin). apply py_in_false in Hp.
           destruct (py_eq a e2) eqn:Eq; [|reflexivity]. exfalso. apply Hp.
           exists a. split; [apply (in_map snd) in Hin1; exact Hin1|exact Eq].
        -- rewrite He in H. cbn [bind] in H. inversion H; subst e. right. split; [reflexivity|].
           apply hash_ok_false in Hb as (v & Hv & Hu). eapply bi_list; [apply in_app_iff; right; exact Hel|exact Hv|exact Hu].
      * unfold container1 in H. rewrite He in H. cbn [bind] in H. inversion H; subst e. right. split; [reflexivity|].
        apply hash_ok_false in Hb as (v & Hv & Hu). eapply bi_list; [apply in_app_iff; left; exact Hel|exact Hv|exact Hu].
    + exists (VDict d'). split; [reflexivity|]. left. simpl in H. inversion H. split; [eauto|constructor].
  - destruct ex as [[|b'|z'|r'|s'|l1|t]|]; try discriminate.
    + exists (VList l1). split; [reflexivity|]. left. simpl in H. inversion H. split; [eauto|constructor].
    + exists (VDict t). split; [reflexivity|].
      rewrite merge_val_dict in H.
      destruct (merge_config oid ids t c) as [m|e'] eqn:Em; [discriminate|]. simpl in H. inversion H; subst e'; clear H.
      apply wf_dict in Hw as [Hnd Hv].
      assert (G : exists k x a, dget k c = Some x /\ dget k t = Some a /\
         (((exists k x y, e = incompatible k x y) /\ conflict ids a x) \/ (e = EType /\ bad_ident ids a x))).
      { revert t Em. induction c as [|[k0 x0] c IHc]; intros t Em; [discriminate|].
        rewrite merge_config_cons in Em. inversion Hnd as [|? ? Hni Hnd']; subst.
        destruct (merge_val oid x0 ids (dget k0 t) k0) as [y|e'] eqn:E; cbn [bind] in Em.
        - destruct (IHc (fun k v Hin => IH k v (or_intror Hin)) Hnd' (fun k v Hin => Hv k v (or_intror Hin)) _ Em)
            as (k & x & a & Hk & Ha & Hr).
          assert (Hne : k <> k0) by (intros ->; apply dget_In_keys in Hk; contradiction).
          exists k, x, a. simpl. rewrite eqb_neq by exact Hne. rewrite dget_dset_other in Ha by exact Hne. auto.
        - inversion Em; subst e'. destruct (IH k0 x0 (or_introl eq_refl) ids _ _ _ (Hv k0 x0 (or_introl eq_refl)) E) as (a & Ea & Hr).
          exists k0, x0, a. simpl. rewrite eqb_refl. auto. }
      destruct G as (k & x & a & Hk & Ha & [[Hi Hc]|[He Hb]]).
      * left. split; [exact Hi|]. eapply cf_key; eauto.
      * right. split; [exact He|]. eapply bi_key; eauto.
Qed.
Lemma merge_config_err oid ids t c e : wf (VDict c) -> merge_config oid ids t c = Err e ->
  ((exists k x y, e = incompatible k x y) /\ conflict ids (VDict t) (VDict c))
  \/ (e = EType /\ bad_ident ids (VDict t) (VDict c)).
Proof.
  intros Hw H. destruct (merge_val_err oid (VDict c) ids (Some (VDict t)) EmptyString e Hw) as (a & Ea & Hr).
  - rewrite merge_val_dict, H. reflexivity.
  - inversion Ea; subst a. exact Hr.
Qed.

(** Completeness of failure. *)
Lemma merge_key_err oid ids t c k a b : NoDup (dkeys c) ->
  dget k t = Some a -> dget k c = Some b ->
  (forall key m, merge_val oid b ids (Some a) key <> Ok m) ->
  forall m, merge_config oid ids t c <> Ok m.
Proof.
  intros Hn Ha Hb Hf m Hm. pose proof (merge_config_get oid ids c t m Hn Hm k) as H.
  rewrite Hb, Ha in H. destruct H as (y & Hy & _). exact (Hf k y Hy).
Qed.
Lemma conflict_nil_err oid a b : conflict [] a b -> wf b ->
  forall key m, merge_val oid b [] (Some a) key <> Ok m.
Proof.
  intros H. remember [] as ids eqn:E. induction H as [| |ids t c k a b Ha Hb _ IH|ids l1 l2 a b Ha Hb Hs _ _ _]; intros Hw key m; subst.
  - simpl. discriminate.
  - simpl. discriminate.
  - rewrite merge_val_dict. intros Hm. apply bind_Ok in Hm as (r & Hr & _). revert Hr.
    assert (Hn : NoDup (dkeys c)) by (apply wf_dict in Hw; tauto).
    apply (merge_key_err oid [] t c k a b Hn Ha Hb). apply IH; [reflexivity|]. exact (wf_dget c k b Hw Hb).
  - destruct Hs as (v & _ & Hv & _). exfalso. eapply has_ident_nil; eauto.
Qed.

Lemma py_eq_dict_inv d1 d2 : py_eq (VDict d1) (VDict d2) = true ->
  length d1 = length d2 /\ forall k v, In (k, v) d1 -> exists w, dget k d2 = Some w /\ py_eq v w = true.
Proof.
  cbn [py_eq]. rewrite andb_true_iff, Nat.eqb_eq. intros [Hl H]. split; [exact Hl|]. clear Hl.
  induction d1 as [|[k x] d1 IH]; intros k' v' [].
  - inversion H0; subst. apply andb_true_iff in H as [H _]. destruct (dget k' d2) as [w|]; [eauto|discriminate].
  - apply andb_true_iff in H as [_ H]. eauto.
Qed.
Lemma py_eq_ident ids e3 e2 w : wf e3 -> wf e2 -> py_eq e3 e2 = true -> has_ident ids e2 w ->
  exists w', has_ident ids e3 w' /\ py_eq w' w = true.
Proof.
  intros Hw3 Hw2 He (d2 & pre & k & post & -> & E & Hpre & Hg).
  destruct e3 as [| | | | | |d3]; try discriminate.
  apply py_eq_dict_inv in He as [Hl Hk].
  apply wf_dict in Hw3 as [Hn3 _]. apply wf_dict in Hw2 as [Hn2 _].
  assert (Hincl : incl (dkeys d3) (dkeys d2)).
  { intros x Hx. apply in_map_iff in Hx as ([k' v'] & <- & Hin). destruct (Hk k' v' Hin) as (w' & Hw & _).
    eapply dget_In_keys; eauto. }
  assert (Hincl2 : incl (dkeys d2) (dkeys d3)).
  { apply NoDup_length_incl; [exact Hn3| |exact Hincl]. unfold dkeys. rewrite !map_length. lia. }
  assert (Hin : In k (dkeys d3)) by (apply Hincl2; eapply dget_In_keys; eauto).
  apply dget_Some_keys in Hin as [w' Hw'].
  exists w'. split.
  - exists d3, pre, k, post. repeat split; auto. intros k' Hk' Hin. exact (Hpre k' Hk' (Hincl k' Hin)).
  - apply dget_In in Hw'. destruct (Hk k w' Hw') as (w2 & Hw2' & He). congruence.
Qed.

Lemma conflict_err oid ids a b : conflict ids a b -> wf a -> wf b ->
  self_mergeable oid ids a -> self_mergeable oid ids b ->
  forall key m, merge_val oid b ids (Some a) key <> Ok m.
Proof.
  induction 1 as [| |ids t c k a b Ha Hb _ IH|ids l1 l2 e1 e2 He1 He2 Hs Hne Hc _]; intros Hwa Hwb Sa Sb key m.
  - simpl. discriminate.
  - simpl. discriminate.
  - rewrite merge_val_dict. intros Hm. apply bind_Ok in Hm as (r & Hr & _). revert Hr.
    assert (Hn : NoDup (dkeys c)) by (apply wf_dict in Hwb; tauto).
    apply (merge_key_err oid ids t c k a b Hn Ha Hb).
    unfold self_mergeable in Sa, Sb. rewrite at_lists_dict in Sa, Sb.
    apply IH; [exact (wf_dget t k a Hwa Ha)|exact (wf_dget c k b Hwb Hb)| |].
    + eapply Sa. eapply dget_In; eauto.
    + eapply Sb. eapply dget_In; eauto.
  - destruct Sa as [D1 Hh1]. destruct Sb as [D2 Hh2].
    pose proof (hashable_idents_ok _ _ Hh1) as H1. pose proof (hashable_idents_ok _ _ Hh2) as H2.
    rewrite merge_val_list. intros Hm. apply bind_Ok in Hm as (r & Hr & _).
    assert (Hnot : ~ In_eq e2 l1).
    { intros (e3 & He3 & Heq). rewrite wf_list in Hwa, Hwb.
      destruct Hs as (v & w & Hv & Hw & Evw).
      destruct (py_eq_ident ids e3 e2 w (Hwa _ He3) (Hwb _ He2) Heq Hw) as (w' & Hw' & Eww).
      assert (Hs13 : same_ident ids e1 e3).
      { exists v, w'. split; [exact Hv|]. split; [exact Hw'|].
        assert (Hhv : hashable v = true).
        { destruct (hashable v) eqn:E; [reflexivity|]. apply hashable_false in E. exfalso. exact (Hh1 e1 v He1 Hv E). }
        assert (Hhw : hashable w' = true).
        { destruct (hashable w') eqn:E; [reflexivity|]. apply hashable_false in E. exfalso. exact (Hh1 e3 w' He3 Hw' E). }
        apply py_eq_hash; [exact Hhv|]. apply py_eq_hash in Evw; [|exact Hhv]. apply py_eq_hash in Eww; [|exact Hhw]. congruence. }
      apply In_nth_error in He1 as [i Hi]. apply In_nth_error in He3 as [j Hj].
      assert (i = j) by (eapply (proj1 D1); eauto). subst j. rewrite Hi in Hj. inversion Hj; subst e3. congruence. }
    destruct (union_by_identity oid ids l1 l2 D1 D2 H1 H2 r Hr) as (l1' & fresh & HF & _ & _).
    destruct (Forall2_In_l _ _ _ _ HF He1) as (e1' & _ & [(x & d & d2 & mm & Hx & Hnx & Hsx & E1 & E2 & Hmm & _)|[Hno _]]).
    + assert (x = e2).
      { assert (hash_ok ids x = true) by (rewrite forallb_forall in H2; auto).
        assert (hash_ok ids e1 = true) by (rewrite forallb_forall in H1; auto).
        assert (hash_ok ids e2 = true) by (rewrite forallb_forall in H2; auto).
        assert (Hsame : same_ident ids x e2).
        { destruct Hsx as (v1 & w1 & Hv1 & Hw1 & Ew1). destruct Hs as (v2 & w2 & Hv2 & Hw2 & Ew2).
          pose proof (has_ident_fun _ _ _ _ Hv1 Hv2); subst v2. exists w1, w2. split; [exact Hw1|]. split; [exact Hw2|].
          assert (Hhv : hashable v1 = true).
          { destruct (hashable v1) eqn:E; [reflexivity|]. apply hashable_false in E. exfalso. exact (Hh1 e1 v1 He1 Hv1 E). }
          assert (Hhw : hashable w1 = true).
          { destruct (hashable w1) eqn:E; [reflexivity|]. apply hashable_false in E. exfalso. exact (Hh2 x w1 Hx Hw1 E). }
          apply py_eq_hash; [exact Hhw|]. apply py_eq_hash in Ew1; [|exact Hhv]. apply py_eq_hash in Ew2; [|exact Hhv]. congruence. }
        apply In_nth_error in Hx as [i Hi]. apply In_nth_error in He2 as [j Hj].
        assert (i = j) by (eapply (proj1 D2); eauto). subst j. congruence. }
      subst x. subst e1 e2.
      assert (Hw2 : wf (VDict d2)) by (rewrite wf_list in Hwb; auto).
      apply (conflict_nil_err oid _ _ Hc Hw2 EmptyString (VDict mm)). rewrite merge_val_dict, Hmm. reflexivity.
    + exact (Hno e2 He2 Hnot Hs).
Qed.
Lemma merge_config_conflict oid ids t c : conflict ids (VDict t) (VDict c) ->
  wf (VDict t) -> wf (VDict c) -> self_mergeable oid ids (VDict t) -> self_mergeable oid ids (VDict c) ->
  exists k x y, merge_config oid ids t c = Err (incompatible k x y).
Proof.
  intros Hc Ht Hcw St Sc.
  destruct (merge_config oid ids t c) as [m|e] eqn:E.
  - exfalso. apply (conflict_err oid ids _ _ Hc Ht Hcw St Sc EmptyString (VDict m)). rewrite merge_val_dict, E. reflexivity.
  - destruct (merge_config_err oid ids t c e Hcw E) as [[(k & x & y & ->) _]|[-> Hb]]; [eauto|].
    exfalso. clear -Hb St Sc. revert Hb St Sc. generalize (VDict t) as a, (VDict c) as b. clear. intros a b Hb St Sc.
    induction Hb as [ids l1 l2 el v Hin Hv Hu|ids t c k a b Ha Hb _ IH].
    + destruct St as [_ H1], Sc as [_ H2]. apply in_app_iff in Hin as [Hin|Hin]; [exact (H1 el v Hin Hv Hu)|exact (H2 el v Hin Hv Hu)].
    + unfold self_mergeable in St, Sc. rewrite at_lists_dict in St, Sc.
      apply IH; [eapply St|eapply Sc]; eapply dget_In; eauto.
Qed.

(** ** Templates (C05) *)
Lemma merge_templates_layers jl oid ids config ts r : wf (VDict config) ->
  merge_templates jl oid ids config (VList ts) = Ok r ->
  exists ds, Forall2 (fun t d => load jl t = Ok d) ts ds /\
             foldM (merge_config oid ids) [] (ds ++ [config])%list = Ok r.
Proof.
  intros Hw H. unfold merge_templates in H. destruct ts as [|t0 ts].
  - simpl in H. inversion H; subst. exists []. split; [constructor|].
    cbn [app foldM]. rewrite merge_nil_l; [reflexivity|]. apply wf_dict in Hw; tauto.
  - cbn [truthy negb] in H. rewrite foldM_app in H. apply bind_Ok in H as (acc & Ha & Hc).
    cbn [foldM] in Hc. apply bind_Ok in Hc as (r' & Hc & E). inversion E; subst r'; clear E.
    cbn [load bind] in Hc.
    assert (G : forall l a0, foldM (fun acc t => do d <- load jl t; merge_config oid ids acc d) a0 l = Ok acc ->
       exists ds, Forall2 (fun t d => load jl t = Ok d) l ds /\ foldM (merge_config oid ids) a0 ds = Ok acc).
    { induction l as [|t l IH]; intros a0 H0.
      - inversion H0; subst. exists []. split; [constructor|reflexivity].
      - cbn [foldM] in H0. apply bind_Ok in H0 as (a1 & H1 & H0). apply bind_Ok in H1 as (d & Hd & Hm).
        destruct (IH a1 H0) as (ds & HF & Hf). exists (d :: ds). split; [constructor; assumption|].
        cbn [foldM]. rewrite Hm. exact Hf. }
    destruct (G _ _ Ha) as (ds & HF & Hf). exists ds. split; [exact HF|].
    rewrite foldM_app, Hf. cbn [bind foldM]. rewrite Hc. reflexivity.
Qed.
