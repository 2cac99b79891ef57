(** * MergeProofs: proofs about Merge.v *)
From Verif Require Import PyBase PyLemmas Merge SpecMerge.

(** ** Keys *)
Definition hnorm (v : val) : val := match v with VList l => VList (map norm l) | _ => norm v end.
Lemma go_norm l1 : forallb hashable_scalar l1 = true -> forall l2,
  py_eq (VList l1) (VList l2) = true <-> map norm l1 = map norm l2.
Proof.
  induction l1 as [|x l1 IH]; intros Hh [|y l2]; try (simpl; split; [discriminate|intros H; inversion H]).
  - simpl; split; reflexivity.
  - simpl in Hh. apply andb_true_iff in Hh as [Hx Hl].
    change (py_eq (VList (x :: l1)) (VList (y :: l2))) with (py_eq x y && py_eq (VList l1) (VList l2)).
    rewrite andb_true_iff, IH by exact Hl.
    rewrite py_eq_scalar by (apply negb_true_iff; exact Hx).
    simpl. split; [intros [-> ->]; reflexivity|intros H; inversion H; auto].
Qed.
Lemma py_eq_hash a b : hashable a = true -> (py_eq a b = true <-> hnorm a = hnorm b).
Proof.
  intros Ha. destruct (is_container a) eqn:Hc.
  - destruct a; try discriminate. destruct b as [|[]|z|r|s|l2|d]; try (simpl; split; [discriminate|intros H; inversion H; fail]).
    cbn [hnorm]. rewrite go_norm by exact Ha. split; [intros ->; reflexivity|intros H; inversion H; auto].
  - rewrite py_eq_scalar by exact Hc.
    destruct a as [|[]|z|r|s|l|d]; try discriminate; destruct b as [|[]|z'|r'|s'|l'|d']; cbn; try tauto; split; intros H; inversion H; auto.
Qed.
Definition nk (k : mkey) : mkey := match k with KVal v => KVal (hnorm v) | _ => k end.
Definition okk (k : mkey) : Prop := match k with KVal v => hashable v = true | _ => True end.
Lemma mkey_eqb_nk a b : okk a -> (mkey_eqb a b = true <-> nk a = nk b).
Proof.
  destruct a as [s n|v], b as [t m|w]; simpl; intros Ha; try (split; [discriminate|intros H; inversion H; fail]).
  - rewrite andb_true_iff, Bool.eqb_true_iff, Nat.eqb_eq. split; [intros [-> ->]; reflexivity|intros H; inversion H; auto].
  - rewrite py_eq_hash by exact Ha. split; [intros ->; reflexivity|intros H; inversion H; auto].
Qed.
Lemma mkey_eqb_refl a : okk a -> mkey_eqb a a = true.
Proof. intros H. apply mkey_eqb_nk; auto. Qed.
Lemma mkey_dec a b : okk a -> {nk a = nk b} + {nk a <> nk b}.
Proof.
  intros Ha. destruct (mkey_eqb a b) eqn:E.
  - left. apply mkey_eqb_nk; auto.
  - right. intros H. apply mkey_eqb_nk in H; [congruence|exact Ha].
Qed.
Lemma mkey_eqb_false a b : okk a -> (mkey_eqb a b = false <-> nk a <> nk b).
Proof.
  intros Ha. rewrite <- mkey_eqb_nk by exact Ha. destruct (mkey_eqb a b); split; congruence.
Qed.

Section KAssoc.
  Context {V : Type}.
  Implicit Types d : list (mkey * V).
  Definition kkeys d := map (fun kv => nk (fst kv)) d.
  Definition okd d := forall k v, In (k, v) d -> okk k.

  Lemma kget_In k v d : okk k -> kget k d = Some v -> exists k', In (k', v) d /\ nk k = nk k'.
  Proof.
    intros Hk. induction d as [|[k' v'] d IH]; simpl; [discriminate|].
    destruct (mkey_eqb k k') eqn:E; intros H.
    - inversion H; subst. exists k'. split; [left; reflexivity|apply mkey_eqb_nk in E; auto].
    - destruct (IH H) as (k2 & H2 & E2). exists k2. split; [right; exact H2|exact E2].
  Qed.
  Lemma kget_None k d : okk k -> (kget k d = None <-> ~ In (nk k) (kkeys d)).
  Proof.
    intros Hk. induction d as [|[k' v'] d IH]; simpl; [tauto|].
    destruct (mkey_eqb k k') eqn:E.
    - apply mkey_eqb_nk in E; [|exact Hk]. split; [discriminate|intros H; exfalso; apply H; left; auto].
    - apply mkey_eqb_false in E; [|exact Hk]. rewrite IH. split; [intros H [H'|H']; [congruence|auto]|tauto].
  Qed.
  Lemma kget_ext k k' d : okk k -> okk k' -> nk k = nk k' -> kget k d = kget k' d.
  Proof.
    intros Hk Hk' He. induction d as [|[k2 v2] d IH]; simpl; [reflexivity|].
    destruct (mkey_eqb k k2) eqn:E.
    - apply mkey_eqb_nk in E; [|exact Hk]. assert (mkey_eqb k' k2 = true) as -> by (apply mkey_eqb_nk; congruence). reflexivity.
    - apply mkey_eqb_false in E; [|exact Hk]. assert (mkey_eqb k' k2 = false) as -> by (apply mkey_eqb_false; congruence). exact IH.
  Qed.
  Lemma kset_absent k v d : kget k d = None -> kset k v d = (d ++ [(k, v)])%list.
  Proof.
    induction d as [|[k' v'] d IH]; simpl; [reflexivity|].
    destruct (mkey_eqb k k'); [discriminate|]. intros H; rewrite IH by exact H. reflexivity.
  Qed.
  Lemma kget_kset k k' v d : okk k -> okk k' ->
    kget k (kset k' v d) = if mkey_eqb k k' then Some v else kget k d.
  Proof.
    intros Hk Hk'. induction d as [|[k2 v2] d IH]; simpl; [destruct (mkey_eqb k k'); reflexivity|].
    destruct (mkey_eqb k' k2) eqn:E2; simpl.
    - destruct (mkey_eqb k k') eqn:E1.
      + apply mkey_eqb_nk in E1; [|exact Hk]. apply mkey_eqb_nk in E2; [|exact Hk'].
        assert (mkey_eqb k k2 = true) as -> by (apply mkey_eqb_nk; congruence). reflexivity.
      + apply mkey_eqb_false in E1; [|exact Hk]. apply mkey_eqb_nk in E2; [|exact Hk'].
        assert (mkey_eqb k k2 = false) as -> by (apply mkey_eqb_false; congruence). reflexivity.
    - rewrite IH. destruct (mkey_eqb k k2) eqn:E3; [|reflexivity].
      assert (mkey_eqb k k' = false) as ->; [|reflexivity].
      apply mkey_eqb_nk in E3; [|exact Hk]. apply mkey_eqb_false in E2; [|exact Hk'].
      apply mkey_eqb_false; congruence.
  Qed.
  Lemma kkeys_kset k v d : okk k ->
    kkeys (kset k v d) = match kget k d with Some _ => kkeys d | None => (kkeys d ++ [nk k])%list end.
  Proof.
    intros Hk. induction d as [|[k' v'] d IH]; simpl; [reflexivity|].
    destruct (mkey_eqb k k') eqn:E; simpl; [reflexivity|]. rewrite IH. destruct (kget k d); reflexivity.
  Qed.
  Lemma kset_In k v k' v' d : In (k', v') (kset k v d) -> (v' = v /\ (k' = k \/ exists w, In (k', w) d)) \/ In (k', v') d.
  Proof.
    induction d as [|[k2 v2] d IH]; simpl.
    - intros [H|[]]; inversion H; auto.
    - destruct (mkey_eqb k k2); simpl; intros [H|H].
      + inversion H; subst. left. split; [reflexivity|right; exists v2; left; reflexivity].
      + auto.
      + inversion H; subst. auto.
      + destruct (IH H) as [[-> [->|[w Hw]]]|Hi]; [left; auto|left; split; [reflexivity|right; exists w; right; exact Hw]|right; right; exact Hi].
  Qed.
  Lemma okd_kset k v d : okk k -> okd d -> okd (kset k v d).
  Proof.
    intros Hk Hd k' v' Hin. apply kset_In in Hin as [[_ [->|[w Hw]]]|Hin]; eauto.
  Qed.
  Lemma NoDup_kset k v d : okk k -> NoDup (kkeys d) -> NoDup (kkeys (kset k v d)).
  Proof.
    intros Hk Hn. rewrite kkeys_kset by exact Hk. destruct (kget k d) eqn:E; [exact Hn|].
    apply NoDup_snoc; [exact Hn|]. apply kget_None; assumption.
  Qed.
  Lemma In_kget k v d : okk k -> NoDup (kkeys d) -> In (k, v) d -> kget k d = Some v.
  Proof.
    intros Hk. induction d as [|[k' v'] d IH]; simpl; [intros _ []|]. intros Hn [H|H]; inversion Hn as [|? ? Hni Hnd]; subst.
    - inversion H; subst. rewrite mkey_eqb_refl by exact Hk. reflexivity.
    - destruct (mkey_eqb k k') eqn:E; [|auto]. apply mkey_eqb_nk in E; [|exact Hk].
      exfalso. apply Hni. rewrite <- E. apply (in_map (fun kv : mkey * V => nk (fst kv))) in H. exact H.
  Qed.
End KAssoc.
Lemma kset_map {A B} (f : A -> B) k v d :
  kset k (f v) (map (fun kv => (fst kv, f (snd kv))) d) = map (fun kv => (fst kv, f (snd kv))) (kset k v d).
Proof.
  induction d as [|[k' v'] d IH]; simpl; [reflexivity|]. destruct (mkey_eqb k k'); simpl; [reflexivity|]. rewrite IH. reflexivity.
Qed.

(** ** Unfolding the recursion *)
Lemma container2_map {A} oid ids c1 l (f : val -> A) i rest acc :
  container2_from oid ids c1 l f i rest (map (fun kv => (fst kv, f (snd kv))) acc)
  = do c <- container2_from oid ids c1 l (fun x => x) i rest acc; Ok (map (fun kv => (fst kv, f (snd kv))) c).
Proof.
  revert i acc; induction rest as [|el rest IH]; intros i acc; simpl; [reflexivity|].
  destruct (py_in el (map snd c1)); [apply IH|].
  destruct (key_of ids true oid l i el) as [k|e]; simpl; [|reflexivity].
  rewrite kset_map. apply IH.
Qed.
Lemma foldM_map {A B C} (g : A -> B) (f : C -> B -> res C) acc l :
  foldM f acc (map g l) = foldM (fun a x => f a (g x)) acc l.
Proof.
  revert acc; induction l as [|x l IH]; intros acc; simpl; [reflexivity|].
  destruct (f acc (g x)); simpl; [apply IH|reflexivity].
Qed.
Lemma foldM_ext {A B} (f g : B -> A -> res B) acc l :
  (forall a x, f a x = g a x) -> foldM f acc l = foldM g acc l.
Proof.
  intros H. revert acc; induction l as [|x l IH]; intros acc; simpl; [reflexivity|].
  rewrite H. destruct (g acc x); simpl; auto.
Qed.
Lemma merge_val_dict oid c ids t key :
  merge_val oid (VDict c) ids (Some (VDict t)) key = do r <- merge_config oid ids t c; Ok (VDict r).
Proof.
  cbn [merge_val]. unfold merge_config.
  match goal with |- bind ?a _ = bind ?b _ => assert (E : a = b); [|rewrite E; reflexivity] end.
  revert t. induction c as [|[k x] c IH]; intros t; simpl; [reflexivity|].
  destruct (merge_val oid x ids (dget k t) k); simpl; [apply IH|reflexivity].
Qed.
Lemma merge_val_list oid l2 ids l1 key :
  merge_val oid (VList l2) ids (Some (VList l1)) key = do r <- merge_list oid ids l1 l2; Ok (VList r).
Proof.
  cbn [merge_val]. unfold merge_list.
  destruct (container1 oid ids l1) as [c1|e]; [|reflexivity]. cbn [bind].
  set (f := fun el => fun ex : option val => merge_val oid el [] ex EmptyString).
  match goal with |- bind (?F 0 l2 []) _ = _ =>
    assert (E : forall rest i acc, F i rest acc = container2_from oid ids c1 l2 f i rest acc)
  end.
  { induction rest as [|el rest IH]; intros i acc; simpl; [reflexivity|].
    destruct (py_in el (map snd c1)); [apply IH|].
    destruct (key_of ids true oid l2 i el); simpl; [apply IH|reflexivity]. }
  rewrite E. pose proof (container2_map oid ids c1 l2 f 0 l2 []) as E2. cbn [map] in E2. rewrite E2.
  destruct (container2_from oid ids c1 l2 (fun x => x) 0 l2 []) as [c2|e]; [|reflexivity]. cbn [bind].
  rewrite foldM_map. cbn [fst snd]. unfold f.
  destruct (foldM _ c1 c2) as [m|e]; reflexivity.
Qed.
Lemma merge_val_other oid v ids ex key :
  (forall c t, v = VDict c -> ex <> Some (VDict t)) ->
  (forall l l', v = VList l -> ex <> Some (VList l')) ->
  merge_val oid v ids ex key =
    match ex with
    | Some e => if is_container e && is_container v then Err (incompatible key e v) else Ok v
    | None => Ok v
    end.
Proof.
  intros H1 H2. destruct v as [|b|z|r|s|l|d], ex as [[|b'|z'|r'|s'|l'|d']|]; simpl; try reflexivity.
  - exfalso; eapply H2; reflexivity.
  - exfalso; eapply H1; reflexivity.
Qed.

(** ** merge_config as a fold *)
Definition mstep oid ids (acc : dict) (kv : string * val) : res dict :=
  do y <- merge_val oid (snd kv) ids (dget (fst kv) acc) (fst kv); Ok (dset (fst kv) y acc).
Lemma merge_config_cons oid ids t k x c :
  merge_config oid ids t ((k, x) :: c)
  = do y <- merge_val oid x ids (dget k t) k; merge_config oid ids (dset k y t) c.
Proof. unfold merge_config; simpl. destruct (merge_val oid x ids (dget k t) k); reflexivity. Qed.

Lemma merge_config_get oid ids c : forall t r, NoDup (dkeys c) ->
  merge_config oid ids t c = Ok r ->
  forall k, match dget k c with
            | None => dget k r = dget k t
            | Some y => exists m, merge_val oid y ids (dget k t) k = Ok m /\ dget k r = Some m
            end.
Proof.
  induction c as [|[k0 x] c IH]; intros t r Hn Hm k.
  - inversion Hm; subst. reflexivity.
  - rewrite merge_config_cons in Hm. apply bind_Ok in Hm as (y & Hy & Hm).
    inversion Hn as [|? ? Hni Hnd]; subst.
    specialize (IH _ _ Hnd Hm k). simpl.
    destruct (String.eqb_spec k k0) as [->|Hne].
    + assert (dget k0 c = None) as E by (apply dget_None; exact Hni).
      rewrite E in IH. rewrite dget_dset_same in IH. eauto.
    + rewrite (dget_dset_other k k0) in IH by exact Hne. exact IH.
Qed.
Lemma merge_config_keys oid ids c : forall t r, NoDup (dkeys c) ->
  merge_config oid ids t c = Ok r ->
  dkeys r = (dkeys t ++ filter (fun k => negb (dmem k t)) (dkeys c))%list.
Proof.
  induction c as [|[k0 x] c IH]; intros t r Hn Hm.
  - inversion Hm; subst. simpl. rewrite app_nil_r. reflexivity.
  - rewrite merge_config_cons in Hm. apply bind_Ok in Hm as (y & Hy & Hm).
    inversion Hn as [|? ? Hni Hnd]; subst.
    rewrite (IH _ _ Hnd Hm). rewrite dkeys_dset. simpl.
    assert (E : filter (fun k => negb (dmem k (dset k0 y t))) (dkeys c)
              = filter (fun k => negb (dmem k t)) (dkeys c)).
    { apply filter_ext_in. intros k Hk. unfold dmem. rewrite dget_dset_other; [reflexivity|].
      intros ->. contradiction. }
    rewrite E. destruct (dmem k0 t); simpl; [reflexivity|].
    rewrite <- app_assoc. reflexivity.
Qed.
Lemma merge_config_wf_nodup oid ids c t r :
  NoDup (dkeys t) -> merge_config oid ids t c = Ok r -> NoDup (dkeys r).
Proof.
  revert t; induction c as [|[k0 x] c IH]; intros t Ht Hm.
  - inversion Hm; subst; exact Ht.
  - rewrite merge_config_cons in Hm. apply bind_Ok in Hm as (y & Hy & Hm).
    eapply IH; [|exact Hm]. apply NoDup_dset; exact Ht.
Qed.

(** Per-key law (C01) *)
Lemma per_key oid ids t c r :
  NoDup (dkeys c) -> merge_config oid ids t c = Ok r ->
  dkeys r = (dkeys t ++ filter (fun k => negb (dmem k t)) (dkeys c))%list /\
  forall k, match dget k t, dget k c with
    | _, None => dget k r = dget k t
    | None, Some y => dget k r = Some y
    | Some (VDict a), Some (VDict b) =>
        exists m, merge_config oid ids a b = Ok m /\ dget k r = Some (VDict m)
    | Some (VList a), Some (VList b) =>
        exists m, merge_list oid ids a b = Ok m /\ dget k r = Some (VList m)
    | Some a, Some y => is_container a && is_container y = false /\ dget k r = Some y
    end.
Proof.
  intros Hn Hm. split; [eapply merge_config_keys; eauto|].
  intros k. pose proof (merge_config_get oid ids c t r Hn Hm k) as H.
  destruct (dget k c) as [y|]; [|destruct (dget k t) as [[]|]; exact H].
  destruct H as (m & Hv & Hg).
  destruct (dget k t) as [a|].
  - destruct a as [|b|z|f|s|l|d], y as [|b'|z'|f'|s'|l'|d'];
      try (cbn in Hv; inversion Hv; subst; split; [reflexivity|exact Hg]);
      try (cbn in Hv; discriminate).
    + rewrite merge_val_list in Hv. apply bind_Ok in Hv as (x & Hx & E). inversion E; subst. eauto.
    + rewrite merge_val_dict in Hv. apply bind_Ok in Hv as (x & Hx & E). inversion E; subst. eauto.
  - rewrite merge_val_other in Hv by (intros; discriminate). inversion Hv; subst. exact Hg.
Qed.

(** Identity laws (C02) *)
Lemma merge_nil_r oid ids t : merge_config oid ids t [] = Ok t.
Proof. reflexivity. Qed.
Lemma merge_nil_l oid ids c : NoDup (dkeys c) -> merge_config oid ids [] c = Ok c.
Proof.
  intros Hn.
  assert (G : forall c2 c1, NoDup (dkeys (c1 ++ c2)) -> merge_config oid ids c1 c2 = Ok (c1 ++ c2)%list).
  { induction c2 as [|[k x] c2 IH]; intros c1 H.
    - rewrite app_nil_r. reflexivity.
    - rewrite merge_config_cons.
      assert (dget k c1 = None) as E.
      { apply dget_None. rewrite dkeys_app in H. simpl in H. apply NoDup_remove_2 in H.
        rewrite in_app_iff in H. tauto. }
      rewrite E. rewrite merge_val_other by (intros; discriminate). cbn [bind].
      rewrite dset_absent by exact E.
      rewrite IH; rewrite <- app_assoc; [reflexivity|exact H]. }
  apply (G c []). exact Hn.
Qed.

(** ** Paths (C05) *)
Lemma getpath_touches p v w : getpath p v = Some w -> touches p v.
Proof.
  revert v; induction p as [|k p IH]; intros v; simpl; [auto|].
  destruct v; try discriminate. destruct (dget k d); [apply IH|discriminate].
Qed.
Lemma merge_path_config oid ids p : forall t c r w, wf (VDict c) ->
  merge_config oid ids t c = Ok r -> scalar w ->
  getpath p (VDict c) = Some w -> getpath p (VDict r) = Some w.
Proof.
  induction p as [|k p IH]; intros t c r w Hw Hm Hs Hg.
  - inversion Hg; subst. discriminate.
  - simpl in Hg |- *. destruct (dget k c) as [y|] eqn:Ek; [|discriminate].
    pose proof (proj2 (per_key oid ids t c r (proj1 (proj1 (wf_dict c) Hw)) Hm) k) as Hp.
    rewrite Ek in Hp. destruct p as [|k2 p].
    + simpl in Hg. inversion Hg; subst y.
      destruct (dget k t) as [a|]; [|rewrite Hp; reflexivity].
      destruct w; try discriminate Hs; destruct a; destruct Hp as [_ Hp]; rewrite Hp; reflexivity.
    + destruct y as [| | | | | |b]; try discriminate.
      destruct (dget k t) as [a|]; [|rewrite Hp; exact Hg].
      destruct a; try (destruct Hp as [_ Hp]; rewrite Hp; exact Hg).
      destruct Hp as (m & Hm2 & Hp). rewrite Hp.
      eapply (IH _ b); [exact (wf_dget c k _ Hw Ek)|exact Hm2|exact Hs|exact Hg].
Qed.
Lemma merge_path_template oid ids p : forall t c r, wf (VDict c) ->
  merge_config oid ids t c = Ok r -> ~ touches p (VDict c) ->
  getpath p (VDict r) = getpath p (VDict t).
Proof.
  induction p as [|k p IH]; intros t c r Hw Hm Ht.
  - exfalso; apply Ht; exact I.
  - simpl in Ht |- *.
    pose proof (proj2 (per_key oid ids t c r (proj1 (proj1 (wf_dict c) Hw)) Hm) k) as Hp.
    destruct (dget k c) as [y|] eqn:Ek.
    + destruct p as [|k2 p]; [exfalso; apply Ht; exact I|].
      destruct y as [| | | | | |b]; try (exfalso; apply Ht; exact I).
      assert (Hnone : getpath (k2 :: p) (VDict b) = None).
      { destruct (getpath (k2 :: p) (VDict b)) eqn:E; [|reflexivity].
        exfalso; apply Ht. eapply getpath_touches; eauto. }
      destruct (dget k t) as [a|]; [|rewrite Hp; exact Hnone].
      destruct a as [| | | | | |a]; try (destruct Hp as [_ Hp]; rewrite Hp; exact Hnone).
      destruct Hp as (m & Hm2 & Hp). rewrite Hp.
        eapply (IH _ b); [exact (wf_dget c k _ Hw Ek)|exact Hm2|exact Ht].
    + destruct (dget k t) as [[]|]; rewrite Hp; reflexivity.
Qed.
Lemma merge_all_path oid ids : forall (layers : list dict) (acc r : dict),
  (forall d, In d layers -> wf (VDict d)) ->
  foldM (merge_config oid ids) acc layers = Ok r ->
  (forall p, (forall d, In d layers -> ~ touches p (VDict d)) ->
     getpath p (VDict r) = getpath p (VDict acc)) /\
  (forall pre d post p w, layers = (pre ++ d :: post)%list ->
     getpath p (VDict d) = Some w -> scalar w ->
     (forall d', In d' post -> ~ touches p (VDict d')) ->
     getpath p (VDict r) = Some w).
Proof.
  induction layers as [|d0 layers IH]; intros acc r Hw Hf.
  - inversion Hf; subst. split; [reflexivity|]. intros pre d post p w H. destruct pre; discriminate.
  - cbn [foldM] in Hf. apply bind_Ok in Hf as (acc' & Hm & Hf).
    destruct (IH acc' r (fun d Hd => Hw d (or_intror Hd)) Hf) as [IH1 IH2].
    split.
    + intros p Hp. rewrite IH1 by (intros d Hd; apply Hp; right; exact Hd).
      eapply merge_path_template; eauto; [apply Hw; left; reflexivity|apply Hp; left; reflexivity].
    + intros [|d1 pre] d post p w E Hg Hs Ht; inversion E; subst.
      * rewrite IH1 by exact Ht. eapply merge_path_config; eauto. apply Hw; left; reflexivity.
      * eapply IH2; eauto.
Qed.
