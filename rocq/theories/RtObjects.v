(** * RtObjects: from one object to the whole list of a converter (proofs
    only). *)
From Verif Require Import PyBase PyLemmas Merge SpecMerge MergeProofs MergeListProofs MergeFinal
  Backend Conv OwrtConv OwrtWireless SpecUci SpecConv SpecDevice ConvLemmas SortLemmas RtStage RtBack RtGeneric RtSystem RtSwitch RtDefault RtTrip.

(** What is needed from the stage of one converter: [ready] is what it asks from
    the stages before it, [sees] from the parsed data. *)
Record stage_facts_if (ready : list stage -> Prop) (sees : oracle -> backend -> dict -> Prop)
    (config : dict) (g : stage) (names : list string) (good : string -> Prop) : Prop := {
  sf_fwd : forall before, ready before -> stage_fwd config before g;
  sf_bwd : forall oid B orig, parsed_data orig -> sees oid B orig -> stage_bwd oid B orig g;
  sf_ne : sg_secs g = [] -> sg_val g = sg_base g /\ sg_more g = [];
  sf_ok : forall s, In s (sg_secs g) -> section_ok s;
  sf_named : named (sg_secs g) names;
  sf_made : forall s, In s (sg_secs g) -> exists t, good t /\ dget ".type" s = Some (VStr t);
  sf_types : forall s s', In s (sg_secs g) -> section_reads s s' ->
    exists t, good t /\ dget ".type" s' = Some (VStr t)
}.
Notation stage_facts := (stage_facts_if (fun _ => True) (fun _ _ _ => True)).

Definition dicts_of (v : val) : list dict :=
  match v with
  | VList l => flat_map (fun v => match v with VDict d => [d] | _ => [] end) l
  | VDict d => [d]
  | _ => []
  end.
Lemma dicts_of_map l : flat_map (fun v => match v with VDict d => [d] | _ => [] end) (map VDict l) = l.
Proof. induction l as [|x l IH]; [reflexivity|]. cbn. rewrite IH. reflexivity. Qed.
Lemma objects_list k config l : dget k config = Some (VList (map VDict l)) -> objects k config = l.
Proof. intros H. unfold objects. rewrite H. apply dicts_of_map. Qed.
Lemma objects_none k config : dget k config = None -> objects k config = [].
Proof. intros H. unfold objects. rewrite H. reflexivity. Qed.
Lemma objects_single k config d : dget k config = Some (VDict d) -> objects k config = [d].
Proof. intros H. unfold objects. rewrite H. reflexivity. Qed.

Lemma skip_typed types s t : dget ".type" s = Some (VStr t) -> types = [] \/ existsb (String.eqb t) types = true ->
  skip_block types s = false.
Proof.
  intros H Ht. destruct s as [|kv s]; [discriminate|]. destruct Ht as [->|Ht]; [reflexivity|].
  unfold skip_block, type_in. destruct types; [discriminate|]. rewrite H, Ht. reflexivity.
Qed.
Lemma skip_other types s t : dget ".type" s = Some (VStr t) -> types <> [] -> existsb (String.eqb t) types = false ->
  skip_block types s = true.
Proof.
  intros H Hne Ht. destruct s as [|kv s]; [reflexivity|]. unfold skip_block, type_in. destruct types; [congruence|]. rewrite H, Ht. reflexivity.
Qed.

Section Objects.
  Variable key pkg : string.
  Variable types : list string.
  Variable sec : dict -> nat -> res dict.
  Variable back : dict -> nat -> res dict.
  Variable namef : nat -> dict -> string.
  Variable good : string -> Prop.
  Definition object_good (i : nat) (b : dict) : Prop :=
    exists type, good type /\ object_rt b (namef i b) type (sec b i) (fun s => back s i).
  Definition made (i : nat) (b s : dict) : Prop := sec b i = Ok s /\ section_ok s /\ sec_name s (namef i b) /\
    (exists t, good t /\ dget ".type" s = Some (VStr t)) /\ forall s', section_reads s s' -> (exists t, good t /\ dget ".type" s' = Some (VStr t)) /\
      exists b', back s' i = Ok b' /\ same (VDict b) (VDict b').
  Lemma objects_made : forall l i, (forall j b, nth_error l j = Some b -> object_good (S (i + j)) b) ->
    exists ss, indexed made i l ss.
  Proof.
    induction l as [|b l IH]; intros i H; [exists []; constructor|].
    destruct (IH (S i)) as (ss & Hss). { intros j x Hj. specialize (H (S j) x Hj). rewrite Nat.add_succ_r in H. exact H. }
    specialize (H 0 b eq_refl). rewrite Nat.add_0_r in H. destruct H as (t & Ht & s & Es & Hok & Hn & Hty & Hb).
    exists (s :: ss). constructor; [|exact Hss]. split; [exact Es|]. split; [exact Hok|]. split; [exact Hn|]. split; [eauto|].
    intros s' Hs'. destruct (Hb s' Hs') as [H1 H2]. eauto.
  Qed.
  Lemma made_named : forall l ss i, indexed made i l ss -> named ss (numbered namef (S i) l).
  Proof. intros l ss i H. induction H as [|i b s l ss (_ & _ & Hn & _) H IH]; [constructor|]. cbn. constructor; assumption. Qed.

  Lemma list_facts config l :
    (forall t, good t -> types = [] \/ existsb (String.eqb t) types = true) ->
    dget key config = option_map (fun l => VList (map VDict l)) l ->
    match l with None => True | Some l => l <> [] /\ forall j b, nth_error l j = Some b -> object_good (S j) b end ->
    exists ss, stage_facts config (list_stage key pkg types sec back l ss) (numbered namef 1 (objects key config)) good /\
      indexed (fun i b s => sec b i = Ok s) 0 (objects key config) ss.
  Proof.
    intros Htypes Hk Hl. destruct l as [l|]; cbn in Hk.
    - destruct Hl as [Hne Hl]. destruct (objects_made l 0 Hl) as (ss & Hss). exists ss.
      rewrite (objects_list _ _ _ Hk). split; [|eapply indexed_impl; [|exact Hss]; intros i a b (H & _); exact H]. constructor.
      + intros before _. apply list_stage_fwd; [exact Hk|]. eapply indexed_impl; [|exact Hss]. intros i a b (H & _). exact H.
      + intros oid B orig _ _. apply alone_bwd; [reflexivity|reflexivity|]. apply list_stage_bwd; [exact Hne|]. eapply indexed_impl; [|exact Hss].
        intros i a b (_ & _ & _ & _ & H) s' Hs' _. destruct (H s' Hs') as ((t & Ht & Et) & Hb). split; [|exact Hb].
        eapply skip_typed; [exact Et|apply Htypes, Ht].
      + intros E. exfalso. cbn in E. subst ss. apply indexed_length in Hss. destruct l; [congruence|discriminate].
      + intros s Hs. cbn in Hs. destruct (indexed_In_r _ _ _ _ _ _ _ Hss Hs) as (j & a & _ & _ & H & _). exact H.
      + apply made_named, Hss.
      + intros s Hs. cbn in Hs. destruct (indexed_In_r _ _ _ _ _ _ _ Hss Hs) as (j & a & _ & _ & _ & _ & H & _). exact H.
      + intros s s' Hs Hs'. cbn in Hs. destruct (indexed_In_r _ _ _ _ _ _ _ Hss Hs) as (j & a & _ & _ & _ & _ & _ & H).
        apply (H s' Hs').
    - exists []. rewrite (objects_none _ _ Hk). split; [|constructor]. constructor; try (intros; contradiction).
      + intros before _. apply list_stage_fwd_none, Hk.
      + intros oid B orig _ _. apply alone_bwd; [reflexivity|reflexivity|]. apply list_stage_bwd_none.
      + split; reflexivity.
      + constructor.
  Qed.
End Objects.

Section Single.
  Variable key pkg : string.
  Variable types : list string.
  Variable fwd : dict -> dict -> res dict.
  Variable back : dict -> res dict.
  Variable namef : dict -> string.
  Variable type : string.
  Lemma single_facts config b :
    existsb (String.eqb type) types = true ->
    dget key config = option_map VDict b ->
    match b with None => True | Some b => exists s, fwd b [] = Ok [(pkg, VList [VDict s])] /\
       object_rt b (namef b) type (Ok s) back end ->
    exists ss, stage_facts config (single_stage key pkg types fwd back b ss) (map namef (objects key config)) (fun t => t = type) /\
      Forall2 (fun b s => fwd b [] = Ok [(pkg, VList [VDict s])]) (objects key config) ss.
  Proof.
    intros Htypes Hk Hb. destruct b as [b|]; cbn in Hk.
    - destruct Hb as (s & Hf & s0 & E & Hok & Hn & Hty & Hrt). injection E as <-. exists [s].
      rewrite (objects_single _ _ _ Hk). split; [|constructor; [exact Hf|constructor]]. constructor.
      + intros before _. apply single_stage_fwd; assumption.
      + intros oid B orig _ _. apply alone_bwd; [reflexivity|reflexivity|]. apply single_stage_bwd. intros s' Hs' _. destruct (Hrt s' Hs') as [Et Hb]. split; [|exact Hb].
        eapply skip_typed; [exact Et|right; exact Htypes].
      + discriminate.
      + intros x [<-|[]]. exact Hok.
      + constructor; [exact Hn|constructor].
      + intros x [<-|[]]. eauto.
      + intros x s' [<-|[]] Hs'. exists type. split; [reflexivity|]. apply (Hrt s' Hs').
    - exists []. rewrite (objects_none _ _ Hk). split; [|constructor]. constructor; try (intros; contradiction).
      + intros before _. apply single_stage_fwd_none, Hk.
      + intros oid B orig _ _. apply alone_bwd; [reflexivity|reflexivity|]. apply single_stage_bwd_none.
      + split; reflexivity.
      + constructor.
  Qed.
End Single.

(** A stage without sections: its key is absent, and its package, if present,
    holds nothing of its own. *)
Definition inert (c : converter) (key pkg : string) (types : list string) : stage :=
  {| sg_conv := c; sg_key := key; sg_pkg := pkg; sg_base := None; sg_val := None; sg_more := []; sg_secs := [];
     sg_eats := fun d => negb (skip_block types d) |}.
Lemma inert_facts config c key pkg types :
  c_fwd_run c config = false -> dget key config = None -> (forall inter, c_bwd_run c inter = dmem pkg inter) ->
  (forall orig rest config inter, parsed_data orig -> (forall d, In d rest -> skip_block types d = true) ->
    (forall d, In d rest -> exists n, sec_name d n) ->
    dget pkg inter = Some (VList (map VDict rest)) ->
    c_bwd c orig config inter = ((config, dset pkg (VList (map VDict rest)) inter), Ok [])) ->
  stage_facts config (inert c key pkg types) [] (fun _ => False).
Proof.
  intros H1 H2 H3 H4. constructor; try (intros; contradiction).
  - intros before _. left. auto.
  - intros oid B orig Ho _. apply alone_bwd; [reflexivity|reflexivity|]. split; [exact H3|]. cbn. intros own rest cfg inter Fo Hn _ He Hg. inversion Fo; subst. cbn [app] in *.
    eexists. split; [apply H4; try assumption|reflexivity].
    + intros d Hd. apply negb_false_iff, He, Hd.
    + intros d Hd. destruct Hn as (ns & Hn & _). destruct (Forall2_In_l _ _ _ _ Hn Hd) as (n & _ & X). exists n. exact X.
  - split; reflexivity.
  - constructor.
Qed.
Lemma loop_skip (A : Type) skip (f : dict -> A -> nat -> res A) : forall rest i left acc, (forall d, In d rest -> skip d = true) ->
  bwd_loop skip f (map VDict rest) i left acc = (left, Ok acc).
Proof.
  induction rest as [|d rest IH]; intros i left acc H; [reflexivity|]. cbn [map bwd_loop as_dict].
  rewrite (H d) by (left; reflexivity). apply IH. intros x Hx. apply H. right; exact Hx.
Qed.
