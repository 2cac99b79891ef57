(** * MergeListProofs: merge_list and failures of merges *)
From Verif Require Import PyBase PyLemmas Merge SpecMerge MergeProofs.

Lemma ident_of_spec ids d v : ident_of ids d = Some v <-> has_ident ids (VDict d) v.
Proof.
  induction ids as [|k ids IH]; simpl.
  - split; [discriminate|]. intros (d' & pre & k & post & _ & E & _). destruct pre; discriminate.
  - destruct (dget k d) as [w|] eqn:Ek.
    + split.
      * intros H; inversion H; subst. exists d, [], k, ids. repeat split; auto.
      * intros (d' & pre & k' & post & Ed & E & Hpre & Hg). inversion Ed; subst d'.
        destruct pre as [|k0 pre]; inversion E; subst; [congruence|].
        exfalso. apply (Hpre k0); [left; reflexivity|]. eapply dget_In_keys; eauto.
    + rewrite IH. split.
      * intros (d' & pre & k' & post & Ed & E & Hpre & Hg). inversion Ed; subst.
        exists d', (k :: pre), k', post. repeat split; auto.
        intros k0 [<-|H0]; [apply dget_None; exact Ek|auto].
      * intros (d' & pre & k' & post & Ed & E & Hpre & Hg). inversion Ed; subst d'.
        destruct pre as [|k0 pre]; inversion E; subst; [congruence|].
        exists d, pre, k', post. repeat split; auto. intros k1 H1. apply Hpre. right; exact H1.
Qed.
Lemma has_ident_dict ids el v : has_ident ids el v -> exists d, el = VDict d.
Proof. intros (d & _ & _ & _ & E & _). eauto. Qed.
Lemma has_ident_nil el v : ~ has_ident [] el v.
Proof. intros (d & pre & k & post & _ & E & _). destruct pre; discriminate. Qed.
Lemma has_ident_fun ids el v w : has_ident ids el v -> has_ident ids el w -> v = w.
Proof.
  intros H1 H2. destruct (has_ident_dict _ _ _ H1) as [d ->].
  apply ident_of_spec in H1, H2. congruence.
Qed.
Lemma hashable_false v : hashable v = false <-> unhashable v.
Proof.
  unfold unhashable. destruct v as [|b|z|r|s|l|d]; simpl;
    try (split; [discriminate|intros [H|(l' & x & E & _)]; discriminate]).
  - split.
    + intros H. right. exists l. induction l as [|x l IH]; simpl in H; [discriminate|].
      apply andb_false_iff in H as [H|H].
      * exists x. split; [reflexivity|]. split; [left; reflexivity|]. apply negb_false_iff in H. exact H.
      * destruct (IH H) as (y & _ & Hy & Hc). exists y. split; [reflexivity|]. split; [right; exact Hy|exact Hc].
    + intros [H|(l' & x & E & Hx & Hc)]; [discriminate|]. inversion E; subst l'.
      induction l as [|y l IH]; [contradiction|]. simpl. destruct Hx as [->|Hx].
      * unfold hashable_scalar at 1. rewrite Hc. reflexivity.
      * rewrite IH; auto. apply andb_false_r.
  - split; [left; reflexivity|reflexivity].
Qed.

Section Fixed.
Variable oid : oracle.
Variable ids : list string.

Definition keyt (s : bool) (l : list val) (i : nat) (el : val) : mkey :=
  match el with
  | VDict d => match ident_of ids d with Some v => KVal v | None => KId s (oid l i) end
  | _ => KId s (oid l i)
  end.
Definition hash_ok (el : val) : bool :=
  match el with
  | VDict d => match ident_of ids d with Some v => hashable v | None => true end
  | _ => true
  end.
Lemma key_of_eq s l i el : key_of ids s oid l i el = if hash_ok el then Ok (keyt s l i el) else Err EType.
Proof.
  unfold key_of, hash_ok, keyt. destruct el; try reflexivity.
  destruct (ident_of ids d); [|reflexivity]. destruct (hashable v); reflexivity.
Qed.
Lemma hash_ok_false el : hash_ok el = false <-> exists v, has_ident ids el v /\ unhashable v.
Proof.
  unfold hash_ok. destruct el; try (split; [discriminate|intros (v & H & _); apply has_ident_dict in H as [d E]; discriminate]).
  destruct (ident_of ids d) as [v|] eqn:E.
  - rewrite hashable_false. split.
    + intros H. exists v. split; [apply ident_of_spec; exact E|exact H].
    + intros (w & Hw & Hu). apply ident_of_spec in Hw. congruence.
  - split; [discriminate|]. intros (w & Hw & _). apply ident_of_spec in Hw. congruence.
Qed.
Lemma okk_keyt s l i el : hash_ok el = true -> okk (keyt s l i el).
Proof.
  unfold hash_ok, keyt, okk. destruct el; try exact (fun _ => I). destruct (ident_of ids d); auto.
Qed.
Lemma keyt_eq s l i x s' l' j y : hash_ok x = true -> hash_ok y = true ->
  nk (keyt s l i x) = nk (keyt s' l' j y) ->
  same_ident ids x y \/ (no_ident ids x /\ no_ident ids y /\ s = s' /\ oid l i = oid l' j).
Proof.
  intros Hx Hy.
  assert (Cx : (exists v, has_ident ids x v /\ keyt s l i x = KVal v /\ hashable v = true)
             \/ (no_ident ids x /\ keyt s l i x = KId s (oid l i))).
  { unfold keyt, hash_ok in *. destruct x; try (right; split; [intros v H; apply has_ident_dict in H as [d E]; discriminate|reflexivity]).
    destruct (ident_of ids d) as [v|] eqn:E.
    - left; exists v. split; [apply ident_of_spec; exact E|auto].
    - right; split; [|reflexivity]. intros v Hv. apply ident_of_spec in Hv. congruence. }
  assert (Cy : (exists v, has_ident ids y v /\ keyt s' l' j y = KVal v)
             \/ (no_ident ids y /\ keyt s' l' j y = KId s' (oid l' j))).
  { unfold keyt, hash_ok in *. destruct y; try (right; split; [intros v H; apply has_ident_dict in H as [d E]; discriminate|reflexivity]).
    destruct (ident_of ids d) as [v|] eqn:E.
    - left; exists v. split; [apply ident_of_spec; exact E|reflexivity].
    - right; split; [|reflexivity]. intros v Hv. apply ident_of_spec in Hv. congruence. }
  destruct Cx as [(v & Hv & -> & Hh)|[Hnx ->]]; destruct Cy as [(w & Hw & ->)|[Hny ->]]; simpl; intros E; inversion E.
  - left. exists v, w. split; [exact Hv|split; [exact Hw|]]. apply py_eq_hash; congruence.
  - right. auto.
Qed.
Lemma same_ident_keyt s l i x s' l' j y : hash_ok x = true ->
  same_ident ids x y -> nk (keyt s l i x) = nk (keyt s' l' j y).
Proof.
  intros Hh (v & w & Hv & Hw & E).
  destruct (has_ident_dict _ _ _ Hv) as [dx ->]. destruct (has_ident_dict _ _ _ Hw) as [dy ->].
  apply ident_of_spec in Hv, Hw. unfold keyt, hash_ok in *. rewrite Hv, Hw in *. simpl.
  apply py_eq_hash in E; [rewrite E; reflexivity|exact Hh].
Qed.

Fixpoint zipk (s : bool) (l : list val) (i : nat) (rest : list val) : list (mkey * val) :=
  match rest with [] => [] | el :: t => (keyt s l i el, el) :: zipk s l (S i) t end.
Lemma zipk_snd s l i rest : map snd (zipk s l i rest) = rest.
Proof. revert i; induction rest; intros i; simpl; congruence. Qed.
Lemma zipk_nth s l i rest j k el :
  nth_error (zipk s l i rest) j = Some (k, el) -> k = keyt s l (i + j) el /\ nth_error rest j = Some el.
Proof.
  revert i j; induction rest as [|x rest IH]; intros i j; simpl; [destruct j; discriminate|].
  destruct j; simpl; intros H.
  - inversion H; subst. rewrite Nat.add_0_r. auto.
  - apply IH in H as [-> H]. split; [f_equal; lia|exact H].
Qed.
Lemma zipk_In s l k el : In (k, el) (zipk s l 0 l) -> exists i, nth_error l i = Some el /\ k = keyt s l i el.
Proof.
  intros H. apply In_nth_error in H as [j H]. apply zipk_nth in H as [-> H]. exists j. split; [exact H|reflexivity].
Qed.
Lemma In_zipk s l el : In el l -> exists k i, In (k, el) (zipk s l 0 l) /\ k = keyt s l i el.
Proof.
  intros H. rewrite <- (zipk_snd s l 0 l) in H. apply in_map_iff in H as ([k e] & E & H). simpl in E; subst e.
  destruct (zipk_In _ _ _ _ H) as (i & _ & Hk). exists k, i. auto.
Qed.
Lemma zipk_okd s l i rest : forallb hash_ok rest = true -> okd (zipk s l i rest).
Proof.
  revert i; induction rest as [|x rest IH]; intros i H k v Hin; [contradiction|].
  simpl in H. apply andb_true_iff in H as [Hx H]. destruct Hin as [E|Hin].
  - inversion E; subst. apply okk_keyt; exact Hx.
  - eapply IH; eauto.
Qed.
Lemma zipk_NoDup s l : forallb hash_ok l = true ->
  distinct_elements ids (fun i j => oid l i = oid l j) l -> NoDup (kkeys (zipk s l 0 l)).
Proof.
  intros Hh [D1 D2]. apply NoDup_nth_error. intros i j Hi E.
  unfold kkeys in *. rewrite map_length in Hi.
  rewrite !nth_error_map in E.
  destruct (nth_error (zipk s l 0 l) i) as [[k x]|] eqn:Ei.
  2:{ apply nth_error_None in Ei. lia. }
  destruct (nth_error (zipk s l 0 l) j) as [[k' y]|] eqn:Ej; [|discriminate].
  apply zipk_nth in Ei as [-> Ei]. apply zipk_nth in Ej as [-> Ej]. simpl in E. inversion E as [E'].
  rewrite forallb_forall in Hh.
  assert (hash_ok x = true) by (apply Hh; eapply nth_error_In; eauto).
  assert (hash_ok y = true) by (apply Hh; eapply nth_error_In; eauto).
  apply keyt_eq in E' as [Hs|(N1 & N2 & _ & Ho)]; auto; [eapply D1; eauto|eapply D2; eauto].
Qed.

Lemma kset_snoc_nodup {V} (acc : list (mkey * V)) k v rest : okk k ->
  NoDup (kkeys (acc ++ (k, v) :: rest)%list) -> kset k v acc = (acc ++ [(k, v)])%list.
Proof.
  intros Hk Hn. apply kset_absent. apply kget_None; [exact Hk|].
  unfold kkeys in *. rewrite map_app in Hn. simpl in Hn. apply NoDup_remove_2 in Hn. rewrite in_app_iff in Hn. tauto.
Qed.
Lemma container1_closed l : forall rest i acc, forallb hash_ok rest = true ->
  NoDup (kkeys (acc ++ zipk false l i rest)%list) ->
  container1_from oid ids l i rest acc = Ok (acc ++ zipk false l i rest)%list.
Proof.
  induction rest as [|el rest IH]; intros i acc Hh Hn; simpl.
  - rewrite app_nil_r. reflexivity.
  - simpl in Hh. apply andb_true_iff in Hh as [Hx Hh].
    rewrite key_of_eq, Hx. cbn [bind]. simpl in Hn.
    rewrite (kset_snoc_nodup acc _ el _ (okk_keyt false l i el Hx) Hn).
    rewrite IH; [rewrite <- app_assoc; reflexivity|exact Hh|rewrite <- app_assoc; exact Hn].
Qed.
Lemma container1_hash l : forall rest i acc,
  (exists r, container1_from oid ids l i rest acc = Ok r /\ forallb hash_ok rest = true)
  \/ (container1_from oid ids l i rest acc = Err EType /\ exists el, In el rest /\ hash_ok el = false).
Proof.
  induction rest as [|el rest IH]; intros i acc; simpl.
  - left; eexists; split; reflexivity.
  - rewrite key_of_eq. destruct (hash_ok el) eqn:E; cbn [bind].
    + destruct (IH (S i) (kset (keyt false l i el) el acc)) as [(r & Hr & Hf)|(He & x & Hx & Hf)].
      * left; exists r; auto.
      * right; split; [exact He|exists x; auto].
    + right; split; [reflexivity|exists el; auto].
Qed.
Lemma container2_closed c1 l : forall rest i acc,
  forallb hash_ok rest = true ->
  NoDup (kkeys (acc ++ filter (fun kv => negb (py_in (snd kv) (map snd c1))) (zipk true l i rest))%list) ->
  container2_from oid ids c1 l (fun x => x) i rest acc
  = Ok (acc ++ filter (fun kv => negb (py_in (snd kv) (map snd c1))) (zipk true l i rest))%list.
Proof.
  induction rest as [|el rest IH]; intros i acc Hh Hn; simpl.
  - rewrite app_nil_r. reflexivity.
  - simpl in Hh. apply andb_true_iff in Hh as [Hx Hh]. simpl in Hn.
    destruct (py_in el (map snd c1)); simpl in *.
    + apply IH; assumption.
    + rewrite key_of_eq, Hx. cbn [bind].
      rewrite (kset_snoc_nodup acc _ el _ (okk_keyt true l i el Hx) Hn).
      rewrite IH; [rewrite <- app_assoc; reflexivity|exact Hh|rewrite <- app_assoc; exact Hn].
Qed.
Lemma container2_hash c1 l : forall rest i acc,
  (exists r, container2_from oid ids c1 l (fun x => x) i rest acc = Ok r
      /\ forall el, In el rest -> py_in el (map snd c1) = false -> hash_ok el = true)
  \/ (container2_from oid ids c1 l (fun x => x) i rest acc = Err EType /\ exists el, In el rest /\ hash_ok el = false).
Proof.
  induction rest as [|el rest IH]; intros i acc; simpl.
  - left; eexists; split; [reflexivity|intros el []].
  - destruct (py_in el (map snd c1)) eqn:Ep.
    + destruct (IH (S i) acc) as [(r & Hr & Hf)|(He & x & Hx & Hf)].
      * left; exists r; split; [exact Hr|]. intros x [<-|Hx] Hp; [congruence|auto].
      * right; split; [exact He|exists x; auto].
    + rewrite key_of_eq. destruct (hash_ok el) eqn:E; cbn [bind].
      * destruct (IH (S i) (kset (keyt true l i el) el acc)) as [(r & Hr & Hf)|(He & x & Hx & Hf)].
        -- left; exists r; split; [exact Hr|]. intros x [<-|Hx] Hp; auto.
        -- right; split; [exact He|exists x; auto].
      * right; split; [reflexivity|exists el; auto].
Qed.

Lemma NoDup_filter_map {A B} (f : A -> B) p l : NoDup (map f l) -> NoDup (map f (filter p l)).
Proof.
  induction l as [|x l IH]; simpl; [auto|]. intros H; inversion H as [|? ? Hni Hnd]; subst.
  destruct (p x); simpl; [|auto]. constructor; [|auto].
  intros Hin. apply Hni. apply in_map_iff in Hin as (y & E & Hy). apply filter_In in Hy as [Hy _].
  rewrite <- E. apply in_map; exact Hy.
Qed.

(** The final fold over the second container. *)
Definition fstep (acc : list (mkey * val)) (kv : mkey * val) : res (list (mkey * val)) :=
  do y <- merge_val oid (snd kv) [] (kget (fst kv) acc) EmptyString; Ok (kset (fst kv) y acc).
Lemma kset_present k y c1 : okk k -> okd c1 -> NoDup (kkeys c1) ->
  Forall2 (fun kv kv' => fst kv = fst kv' /\ snd kv' = if mkey_eqb k (fst kv) then y else snd kv)
          c1 (@kset val k y c1) \/ kget k c1 = None.
Proof.
  intros Hk Ho Hn. destruct (kget k c1) eqn:E; [left|right; reflexivity].
  revert v E. induction c1 as [|[k' v'] c1 IH]; intros v E; simpl in *; [discriminate|].
  inversion Hn as [|? ? Hni Hnd]; subst.
  destruct (mkey_eqb k k') eqn:Ek.
  - constructor; [simpl; rewrite Ek; auto|].
    assert (G : forall c, (forall kv, In kv c -> In kv c1) ->
       Forall2 (fun kv kv' : mkey * val => fst kv = fst kv' /\ snd kv' = (if mkey_eqb k (fst kv) then y else snd kv)) c c).
    { induction c as [|[k2 v2] c IHc]; intros Hin; constructor.
      - simpl. destruct (mkey_eqb k k2) eqn:E2; [|auto]. exfalso. apply Hni.
        apply mkey_eqb_nk in Ek; [|exact Hk]. apply mkey_eqb_nk in E2; [|exact Hk]. rewrite <- Ek, E2.
        apply (in_map (fun kv : mkey * val => nk (fst kv))) with (x := (k2, v2)). apply Hin; left; reflexivity.
      - apply IHc. intros; apply Hin; right; assumption. }
    apply G; auto.
  - constructor; [simpl; rewrite Ek; auto|]. eapply IH; eauto. intros k2 v2 H2. eapply Ho; right; exact H2.
Qed.
Lemma fold_closed : forall c2 c1 m, okd c1 -> okd c2 -> NoDup (kkeys c1) -> NoDup (kkeys c2) ->
  foldM fstep c1 c2 = Ok m ->
  exists c1', Forall2 (fun kv kv' => fst kv = fst kv' /\
      match kget (fst kv) c2 with
      | Some e2 => merge_val oid e2 [] (Some (snd kv)) EmptyString = Ok (snd kv')
      | None => snd kv' = snd kv
      end) c1 c1'
    /\ m = (c1' ++ filter (fun kv => match kget (fst kv) c1 with None => true | Some _ => false end) c2)%list.
Proof.
  induction c2 as [|[k e2] c2 IH]; intros c1 m Ho1 Ho2 Hn1 Hn2 Hf.
  - inversion Hf; subst. exists m. split; [|simpl; rewrite app_nil_r; reflexivity].
    clear. induction m; constructor; simpl; auto.
  - cbn [foldM] in Hf. apply bind_Ok in Hf as (c1a & Hs & Hf). unfold fstep in Hs. cbn [fst snd] in Hs.
    apply bind_Ok in Hs as (y & Hy & E). inversion E; subst c1a; clear E.
    assert (Hk : okk k) by (eapply Ho2; left; reflexivity).
    inversion Hn2 as [|? ? Hni Hnd]; subst.
    assert (Ho2' : okd c2) by (intros a b Hab; eapply Ho2; right; exact Hab).
    destruct (IH (kset k y c1) m (okd_kset k y c1 Hk Ho1) Ho2' (NoDup_kset k y c1 Hk Hn1) Hnd Hf) as (c1' & HF & ->).
    assert (Hfil : filter (fun kv => match kget (fst kv) (kset k y c1) with None => true | Some _ => false end) c2
                 = filter (fun kv => match kget (fst kv) c1 with None => true | Some _ => false end) c2).
    { apply filter_ext_in. intros [k' v'] Hin. cbn [fst].
      assert (Hk' : okk k') by (eapply Ho2'; eauto).
      rewrite kget_kset by assumption. destruct (mkey_eqb k' k) eqn:E; [|reflexivity].
      exfalso. apply Hni. apply mkey_eqb_nk in E; [|exact Hk']. rewrite <- E.
      apply (in_map (fun kv : mkey * val => nk (fst kv)) _ _ Hin). }
    rewrite Hfil. cbn [filter fst kget].
    destruct (kset_present k y c1 Hk Ho1 Hn1) as [HP|Habs].
    + destruct (kget k c1) as [e1|] eqn:Eg.
      2:{ exfalso. apply kget_None in Eg; [|exact Hk]. rewrite kset_absent in HP by (apply kget_None; assumption).
          apply Forall2_length in HP. rewrite app_length in HP. simpl in HP. lia. }
      exists c1'. split; [|reflexivity].
      assert (G : forall a b c, incl a c1 ->
         Forall2 (fun kv kv' : mkey * val => fst kv = fst kv' /\ snd kv' = (if mkey_eqb k (fst kv) then y else snd kv)) a b ->
         Forall2 (fun kv kv' => fst kv = fst kv' /\ match kget (fst kv) c2 with
           | Some e2 => merge_val oid e2 [] (Some (snd kv)) EmptyString = Ok (snd kv')
           | None => snd kv' = snd kv end) b c ->
         Forall2 (fun kv kv' => fst kv = fst kv' /\ match (if mkey_eqb (fst kv) k then Some e2 else kget (fst kv) c2) with
           | Some e2 => merge_val oid e2 [] (Some (snd kv)) EmptyString = Ok (snd kv')
           | None => snd kv' = snd kv end) a c).
      { intros a b c Hincl HP2. revert c Hincl. induction HP2 as [|[ka va] [kb vb] a b [E1 E2] _ IHH]; intros c Hincl HF2; inversion HF2 as [|? [kc vc] ? c' [E3 E4] HF3]; subst; constructor.
        - simpl in *. subst kb kc. split; [reflexivity|].
          assert (Hka : okk ka) by (eapply Ho1; apply Hincl; left; reflexivity).
          destruct (mkey_eqb ka k) eqn:Ea.
          + assert (nk ka = nk k) as En by (apply mkey_eqb_nk; assumption).
            assert (mkey_eqb k ka = true) as Ek2 by (apply mkey_eqb_nk; congruence). rewrite Ek2 in E2. subst vb.
            assert (kget ka c2 = None) as En2 by (apply kget_None; [exact Hka|rewrite En; exact Hni]).
            rewrite En2 in E4. subst vc.
            assert (e1 = va) as <-; [|exact Hy].
            assert (kget ka c1 = Some va) as Hg by (apply In_kget; [exact Hka|exact Hn1|apply Hincl; left; reflexivity]).
            rewrite (kget_ext ka k c1 Hka Hk En) in Hg. congruence.
          + assert (mkey_eqb k ka = false) as Ek2.
            { apply mkey_eqb_false; [exact Hk|]. apply mkey_eqb_false in Ea; [congruence|exact Hka]. }
            rewrite Ek2 in E2. subst vb. exact E4.
        - apply IHH; [|exact HF3]. intros x Hx. apply Hincl; right; exact Hx. }
      eapply G; [apply incl_refl|exact HP|exact HF].
    + rewrite Habs. rewrite Habs in Hy. rewrite merge_val_other in Hy by (intros; discriminate). inversion Hy; subst y; clear Hy.
      rewrite kset_absent in HF by exact Habs.
      apply Forall2_app_inv_l in HF as (ca & cb & HFa & HFb & ->).
      inversion HFb as [|? [kb vb] ? cb' [E1 E2] HFc]; subst. inversion HFc; subst. simpl in E1, E2. subst kb.
      assert (kget k c2 = None) as En2 by (apply kget_None; assumption). rewrite En2 in E2. subst vb.
      exists ca. split; [|rewrite <- app_assoc; reflexivity].
      assert (G : forall a c, incl a c1 ->
         Forall2 (fun kv kv' => fst kv = fst kv' /\ match kget (fst kv) c2 with
           | Some e2 => merge_val oid e2 [] (Some (snd kv)) EmptyString = Ok (snd kv')
           | None => snd kv' = snd kv end) a c ->
         Forall2 (fun kv kv' => fst kv = fst kv' /\ match (if mkey_eqb (fst kv) k then Some e2 else kget (fst kv) c2) with
           | Some e2 => merge_val oid e2 [] (Some (snd kv)) EmptyString = Ok (snd kv')
           | None => snd kv' = snd kv end) a c).
      { intros a c Hincl HF2. induction HF2 as [|[ka va] [kb vb] a c [E1 E2] HF3 IHH]; constructor.
        - split; [exact E1|]. simpl in *.
          assert (Hka : okk ka) by (eapply Ho1; apply Hincl; left; reflexivity).
          destruct (mkey_eqb ka k) eqn:Ea; [|exact E2].
          exfalso. apply kget_None in Habs; [|exact Hk]. apply Habs.
          apply mkey_eqb_nk in Ea; [|exact Hka]. rewrite <- Ea.
          apply (in_map (fun kv : mkey * val => nk (fst kv)) c1 (ka, va)). apply Hincl; left; reflexivity.
        - apply IHH. intros x Hx. apply Hincl; right; exact Hx. }
      apply G; [apply incl_refl|exact HFa].
Qed.
End Fixed.
