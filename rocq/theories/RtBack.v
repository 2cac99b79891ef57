(** * RtBack: the backward half of the round trip of a device (proofs only). *)
From Verif Require Import PyBase PyLemmas Merge SpecMerge MergeProofs MergeListProofs MergeFinal
  Backend Conv OwrtConv SpecUci SpecConv ConvLemmas SortLemmas RtStage.

Lemma convert_bwd_app oid B orig : forall a b config inter,
  convert_bwd oid B (a ++ b) orig config inter =
  match convert_bwd oid B a orig config inter with
  | ((c, i), Ok _) => convert_bwd oid B b orig c i
  | r => r
  end.
Proof.
  induction a as [|x a IH]; intros b config inter; [reflexivity|]. cbn [app convert_bwd].
  destruct (negb (c_bwd_run x inter)); [apply IH|].
  destruct (c_bwd x orig config inter) as [[c1 i1] [[|kv value]|e]]; [apply IH| |reflexivity].
  destruct (merge_config oid (be_ids B) c1 (kv :: value)); [apply IH|reflexivity].
Qed.

(** What the backward conversion of a stage does: it takes the sections read
    back from its own ones, wherever the others start, and gives its value. *)
Definition stage_alone (orig : dict) (g : stage) : Prop :=
  (forall inter, c_bwd_run (sg_conv g) inter = dmem (sg_pkg g) inter) /\
  forall own rest config inter,
    Forall2 section_reads (sg_secs g) own ->
    (exists ns, named (own ++ rest) ns /\ NoDup ns) ->
    (forall d, In d (own ++ rest) -> NoDup (dkeys d) /\ wf (VDict d)) ->
    (forall d, In d rest -> sg_eats g d = false) ->
    dget (sg_pkg g) inter = Some (VList (map VDict (own ++ rest))) ->
    exists r, c_bwd (sg_conv g) orig config inter = ((config, dset (sg_pkg g) (VList (map VDict rest)) inter), Ok r) /\
      match sg_val g with None => r = [] | Some v => exists v', r = [(sg_key g, v')] /\ same v v' end.

(** A value read back, if there is one *)
Definition agree (o o' : option val) : Prop :=
  match o with None => o' = None | Some v => exists v', o' = Some v' /\ same v v' end.
(** The turn of a stage in the backward conversion: it finds its base under its
    key and leaves its value there. *)
Definition stage_bwd (oid : oracle) (B : backend) (orig : dict) (g : stage) : Prop :=
  (forall inter, c_bwd_run (sg_conv g) inter = dmem (sg_pkg g) inter) /\
  forall own rest config inter,
    NoDup (dkeys config) -> agree (sg_base g) (dget (sg_key g) config) -> (forall k, dmem k (sg_more g) = true -> dget k config = None) ->
    Forall2 section_reads (sg_secs g) own ->
    (exists ns, named (own ++ rest) ns /\ NoDup ns) ->
    (forall d, In d (own ++ rest) -> NoDup (dkeys d) /\ wf (VDict d)) ->
    (forall d, In d rest -> sg_eats g d = false) ->
    dget (sg_pkg g) inter = Some (VList (map VDict (own ++ rest))) ->
    exists config1 r config2,
      c_bwd (sg_conv g) orig config inter = ((config1, dset (sg_pkg g) (VList (map VDict rest)) inter), Ok r) /\
      match r with [] => config2 = config1 | _ => merge_config oid (be_ids B) config1 r = Ok config2 end /\
      NoDup (dkeys config2) /\ (forall k, k <> sg_key g -> match dget k (sg_more g) with Some v => agree (Some v) (dget k config2) | None => dget k config2 = dget k config end) /\
      agree (sg_val g) (dget (sg_key g) config2).
Lemma alone_bwd oid B orig g : sg_base g = None -> sg_more g = [] -> stage_alone orig g -> stage_bwd oid B orig g.
Proof.
  intros Hb Hmore [Hrun H]. split; [exact Hrun|]. rewrite Hmore. cbn [dget]. intros own rest config inter Hn Ha _ F1 F2 F3 F4 F5. rewrite Hb in Ha. cbn in Ha.
  destruct (H own rest config inter F1 F2 F3 F4 F5) as (r & E & Hr). exists config, r. destruct (sg_val g) as [v|].
  - destruct Hr as (v' & -> & Hs). exists (dset (sg_key g) v' config). split; [exact E|]. split; [apply merge_fresh_package, Ha|].
    split; [apply NoDup_dset, Hn|]. split; [intros k Hk; rewrite dget_dset, eqb_neq by exact Hk; reflexivity|].
    exists v'. rewrite dget_dset, eqb_refl. auto.
  - subst r. exists config. split; [exact E|]. auto.
Qed.

(** The sections of later stages are left alone. *)
Definition spares (g h : stage) : Prop := sg_pkg g = sg_pkg h ->
  forall s s', In s (sg_secs h) -> section_reads s s' -> sg_eats g s' = false.

Definition reads_secs (gs : list stage) (inter : dict) (p : string) : Prop :=
  (secs_of p gs = [] /\ (dget p inter = None \/ dget p inter = Some (VList []))) \/
  exists ss', dget p inter = Some (VList (map VDict ss')) /\ Forall2 section_reads (secs_of p gs) ss'.

Lemma reads_as_name s s' n : section_reads s s' -> sec_name s n -> sec_name s' n.
Proof.
  intros (b0 & [_ H0] & [_ H']) Hn. unfold sec_name in *. rewrite H'. pose proof (H0 ".name") as H. cbn in H. cbn.
  rewrite H, Hn. destruct (is_text (dget ".type" b0) "bridge-vlan"), (is_text (dget ".type" b0) "device"); reflexivity.
Qed.
Lemma section_reads_sorted s s' : section_reads s s' -> sorted_keys s'.
Proof. intros (b0 & _ & [H _]). exact H. Qed.
Lemma uci_value_wf v u : uci_value v = Some u -> wf u.
Proof.
  assert (G : forall (A : Type) (f : A -> string) (l : list A), wf (VList (map (fun x => VStr (f x)) l))).
  { intros A f l. apply wf_list. intros x Hx. apply in_map_iff in Hx as (y & <- & _). exact I. }
  destruct v as [|[]|z|r|[|c s]|[|x l]|[|kv d]]; cbn -[wf]; intros H; try discriminate H; injection H as <-; try exact I.
  - apply (G val py_str (x :: l)).
  - apply (G (string * val)%type fst (kv :: d)).
Qed.
Lemma section_reads_wf s s' : section_reads s s' -> (forall t, dget ".type" s = Some t -> wf t) -> (forall t, dget ".name" s = Some t -> wf t) -> wf (VDict s').
Proof.
  intros (b0 & [Hs0 H0] & [Hs' H']) Ht Hn. apply wf_dict. split; [apply sorted_NoDup, Hs'|].
  intros k v Hin. apply In_dget in Hin; [|apply sorted_NoDup, Hs']. 
  assert (G : forall v, dget k b0 = Some v -> wf v).
  { intros u Hu. rewrite H0 in Hu. destruct (String.eqb k ".type" || String.eqb k ".name") eqn:E.
    - apply orb_prop in E as [E|E]; apply String.eqb_eq in E; subst k; auto.
    - destruct (startswith "." k); [discriminate|]. destruct (dget k s); [|discriminate]. eapply uci_value_wf; exact Hu. }
  cbn zeta in H'. rewrite H' in Hin.
  repeat match type of Hin with
  | context [if ?b then _ else _] => destruct b
  end; try (injection Hin as <-; exact I); apply G; exact Hin.
Qed.

Lemma Forall2_app_l (A B : Type) (R : A -> B -> Prop) a b l : Forall2 R (a ++ b) l ->
  exists l1 l2, l = (l1 ++ l2)%list /\ Forall2 R a l1 /\ Forall2 R b l2.
Proof. intros H. apply Forall2_app_inv_l in H as (l1 & l2 & H1 & H2 & ->). exists l1, l2. auto. Qed.
Lemma named_reads ss ss' ns : Forall2 section_reads ss ss' -> named ss ns -> named ss' ns.
Proof.
  intros H. revert ns. induction H as [|s s' ss ss' Hs H IH]; intros ns Hn; inversion Hn; subst; constructor.
  - eapply reads_as_name; eassumption.
  - apply IH. assumption.
Qed.
Definition typed (s : dict) : Prop := exists t n, dget ".type" s = Some (VStr t) /\ dget ".name" s = Some (VStr n).
Lemma reads_wf ss ss' : Forall2 section_reads ss ss' -> (forall s, In s ss -> typed s) ->
  forall d, In d ss' -> NoDup (dkeys d) /\ wf (VDict d).
Proof.
  intros H Ht d Hd. destruct (Forall2_In_r _ _ _ _ H Hd) as (s & Hs & Hr). split.
  - apply sorted_NoDup. eapply section_reads_sorted; exact Hr.
  - destruct (Ht s Hs) as (t & n & Et & En). eapply section_reads_wf; [exact Hr| |]; intros x Hx;
      [rewrite Et in Hx|rewrite En in Hx]; injection Hx as <-; exact I.
Qed.

Lemma secs_of_cons p g gs : secs_of p (g :: gs) = ((if String.eqb (sg_pkg g) p then sg_secs g else []) ++ secs_of p gs)%list.
Proof. reflexivity. Qed.
Lemma secs_of_In p gs s : In s (secs_of p gs) <-> exists g, In g gs /\ sg_pkg g = p /\ In s (sg_secs g).
Proof.
  unfold secs_of. rewrite in_flat_map. split.
  - intros (g & Hg & H). destruct (String.eqb_spec (sg_pkg g) p); [eauto|contradiction].
  - intros (g & Hg & <- & H). exists g. rewrite eqb_refl. auto.
Qed.

(** The values under the keys, stage after stage *)
Definition put (E : string -> option val) (g : stage) : string -> option val :=
  fun k => if String.eqb k (sg_key g) then sg_val g else match dget k (sg_more g) with Some v => Some v | None => E k end.
Definition finally (gs : list stage) (E : string -> option val) : string -> option val := fold_left put gs E.
Fixpoint chained (gs : list stage) (E : string -> option val) : Prop :=
  match gs with [] => True | g :: gs => (sg_base g = E (sg_key g) /\ forall k, dmem k (sg_more g) = true -> E k = None) /\ chained gs (put E g) end.
Lemma finally_other : forall gs E k, ~ In k (map sg_key gs) -> (forall g, In g gs -> dget k (sg_more g) = None) -> finally gs E k = E k.
Proof.
  induction gs as [|g gs IH]; intros E k H Hm; [reflexivity|]. cbn [finally fold_left] in *. fold (finally gs (put E g)).
  rewrite IH; [|intros X; apply H; right; exact X|intros x Hx; apply Hm; right; exact Hx]. unfold put. rewrite eqb_neq, Hm; [reflexivity|left; reflexivity|]. intros ->. apply H. left; reflexivity.
Qed.

Lemma stages_bwd oid B orig : forall gs E config inter pkgs,
  chained gs E -> (forall k, agree (E k) (dget k config)) -> NoDup (dkeys config) ->
  NoDup (dkeys inter) ->
  (forall g, In g gs -> In (sg_pkg g) pkgs) ->
  (forall p, In p pkgs -> reads_secs gs inter p) ->
  distinct_names gs -> (forall g s, In g gs -> In s (sg_secs g) -> typed s) ->
  (forall g, In g gs -> stage_bwd oid B orig g) ->
  (forall g, In g gs -> sg_secs g = [] -> sg_val g = sg_base g /\ sg_more g = []) ->
  (forall a g b h, gs = (a ++ g :: b)%list -> In h b -> spares g h) ->
  exists config' inter',
    convert_bwd oid B (map sg_conv gs) orig config inter = ((config', inter'), Ok tt) /\
    NoDup (dkeys config') /\ (forall k, agree (finally gs E k) (dget k config')) /\ NoDup (dkeys inter') /\
    (forall p, In p pkgs -> dget p inter' = None \/ dget p inter' = Some (VList [])) /\
    (forall p, ~ In p pkgs -> dget p inter' = dget p inter).
Proof.
  induction gs as [|g gs IH]; intros E config inter pkgs Hch Hag Hc Hi Hpk Hr Hd Hty Hb Hne Hsp.
  - exists config, inter. split; [reflexivity|]. split; [exact Hc|]. split; [exact Hag|].
    split; [exact Hi|]. split; [|reflexivity]. intros p Hp. destruct (Hr p Hp) as [[_ H]|(ss' & H & F)]; [exact H|].
    inversion F; subst. auto.
  - set (p := sg_pkg g). assert (Hpg : In p pkgs) by (apply Hpk; left; reflexivity).
    destruct (Hb g (or_introl eq_refl)) as [Hrun Hbg]. destruct Hch as [[Hbase Hfree] Hch].
    assert (Hd' : distinct_names gs).
    { intros q. destruct (Hd q) as (ns & Hn & Hnn). rewrite secs_of_cons in Hn.
      apply named_app_inv in Hn as (n1 & n2 & -> & _ & H2). exists n2. split; [exact H2|].
      eapply NoDup_app_r; exact Hnn. }
    assert (Hsp' : forall a g0 b h, gs = (a ++ g0 :: b)%list -> In h b -> spares g0 h).
    { intros a g0 b h Eg Hh. eapply (Hsp (g :: a) g0 b h); [rewrite Eg; reflexivity|exact Hh]. }
    assert (Hspg : forall h, In h gs -> spares g h) by (intros h Hh; eapply (Hsp [] g gs h eq_refl Hh)).
    assert (Hag' : agree (sg_base g) (dget (sg_key g) config)) by (rewrite Hbase; apply Hag).
    assert (Hfr : forall k, dmem k (sg_more g) = true -> dget k config = None) by (intros k Hk; pose proof (Hag k) as X; rewrite (Hfree k Hk) in X; exact X).
    cbn [map convert_bwd finally fold_left]. fold (finally gs (put E g)). rewrite Hrun. fold p.
    (* what the stage finds *)
    destruct (dget p inter) as [vp|] eqn:Ep.
    + assert (Hcase : exists own rest, vp = VList (map VDict (own ++ rest)) /\
         Forall2 section_reads (sg_secs g) own /\ Forall2 section_reads (secs_of p gs) rest).
      { destruct (Hr p Hpg) as [[Hnil H]|(ss' & H & F)].
        - rewrite Ep in H. destruct H as [H|H]; [discriminate|]. injection H as ->.
          rewrite secs_of_cons in Hnil. fold p in Hnil. rewrite eqb_refl in Hnil.
          apply app_eq_nil in Hnil as [-> ->]. exists [], []. repeat split; constructor.
        - rewrite Ep in H. injection H as ->. rewrite secs_of_cons in F. fold p in F. rewrite eqb_refl in F.
          apply Forall2_app_l in F as (own & rest & -> & F1 & F2). exists own, rest. auto. }
      destruct Hcase as (own & rest & -> & Fo & Fr).
      assert (Frall : Forall2 section_reads (secs_of p (g :: gs)) (own ++ rest)).
      { rewrite secs_of_cons. fold p. rewrite eqb_refl. apply Forall2_app; assumption. }
      unfold dmem. rewrite Ep. cbn [negb].
      destruct (Hbg own rest config inter Hc Hag' Hfr Fo) as (config1 & r & config2 & Hcb & Hm & Hc2 & Ho2 & Hv2).
      * destruct (Hd p) as (ns & Hn & Hnn). exists ns. split; [|exact Hnn]. eapply named_reads; eassumption.
      * eapply reads_wf; [exact Frall|]. intros s Hs. apply secs_of_In in Hs as (h & Hh & _ & Hs). eapply Hty; eassumption.
      * intros d Hdr. destruct (Forall2_In_r _ _ _ _ Fr Hdr) as (s & Hs & Hsr).
        apply secs_of_In in Hs as (h & Hh & Hp & Hs). eapply (Hspg h Hh); [symmetry; exact Hp|exact Hs|exact Hsr].
      * exact Ep.
      * rewrite Hcb. fold p. set (inter1 := dset p (VList (map VDict rest)) inter).
        assert (Hr1 : forall q, In q pkgs -> reads_secs gs inter1 q).
        { intros q Hq. unfold reads_secs, inter1. rewrite dget_dset. destruct (String.eqb_spec q p) as [->|Hn].
          - right. exists rest. auto.
          - specialize (Hr q Hq). unfold reads_secs in Hr. rewrite secs_of_cons in Hr. fold p in Hr.
            rewrite (eqb_neq p q) in Hr by congruence. exact Hr. }
        assert (Hi1 : NoDup (dkeys inter1)) by (apply NoDup_dset, Hi).
        destruct (IH (put E g) config2 inter1 pkgs) as (config' & inter' & Ec & Hrn & Hrv & Hn & Hp & Hq); try assumption.
        { intros k. unfold put. destruct (String.eqb_spec k (sg_key g)) as [->|Hk]; [exact Hv2|]. specialize (Ho2 k Hk). destruct (dget k (sg_more g)); [exact Ho2|]. rewrite Ho2. apply Hag. }
        { intros h Hh. apply Hpk. right; exact Hh. }
        { intros h s Hh. apply Hty. right; exact Hh. }
        { intros h Hh. apply Hb. right; exact Hh. }
        { intros h Hh. apply Hne. right; exact Hh. }
        exists config', inter'. split.
        { destruct r as [|kv r]; [subst config2; exact Ec|]. rewrite Hm. exact Ec. }
        split; [exact Hrn|]. split; [exact Hrv|]. split; [exact Hn|]. split; [exact Hp|].
        intros q Hq'. rewrite Hq by exact Hq'. unfold inter1. rewrite dget_dset.
        destruct (String.eqb_spec q p) as [->|_]; [contradiction|reflexivity].
    + (* nothing under the package: the stage has no section *)
      unfold dmem. rewrite Ep. cbn [negb].
      assert (Hnil : sg_secs g = []).
      { destruct (Hr p Hpg) as [[Hnil _]|(ss' & H & F)]; [|congruence].
        rewrite secs_of_cons in Hnil. fold p in Hnil. rewrite eqb_refl in Hnil. apply app_eq_nil in Hnil as [? _]. assumption. }
      pose proof (Hne g (or_introl eq_refl) Hnil) as [Hv Hm0].
      apply IH; try assumption.
      * intros k. unfold put. destruct (String.eqb_spec k (sg_key g)) as [->|Hk]; [rewrite Hv; exact Hag'|rewrite Hm0; apply Hag].
      * intros h Hh. apply Hpk. right; exact Hh.
      * intros q Hq. specialize (Hr q Hq). unfold reads_secs in Hr. rewrite secs_of_cons, Hnil in Hr.
        destruct (String.eqb (sg_pkg g) q); exact Hr.
      * intros h s Hh. apply Hty. right; exact Hh.
      * intros h Hh. apply Hb. right; exact Hh.
      * intros h Hh. apply Hne. right; exact Hh.
Qed.
