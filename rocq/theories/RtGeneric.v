(** * RtGeneric: stages of the converters that make one section per object
    (proofs only). *)
From Verif Require Import PyBase PyLemmas Merge SpecMerge MergeProofs MergeListProofs MergeFinal
  Backend Conv OwrtConv SpecUci SpecConv ConvLemmas SortLemmas RtStage RtBack.

(** The objects and sections of a list, with their one-based index *)
Inductive indexed {A B} (R : nat -> A -> B -> Prop) : nat -> list A -> list B -> Prop :=
| ix_nil i : indexed R i [] []
| ix_cons i a b la lb : R (S i) a b -> indexed R (S i) la lb -> indexed R i (a :: la) (b :: lb).
Lemma indexed_length A B (R : nat -> A -> B -> Prop) i la lb : indexed R i la lb -> length la = length lb.
Proof. intros H. induction H; cbn; congruence. Qed.
Lemma indexed_In_r A B (R : nat -> A -> B -> Prop) i la lb b : indexed R i la lb -> In b lb -> exists j a, In a la /\ R j a b.
Proof.
  intros H. induction H as [|i a b0 la lb Hr H IH]; intros [].
  - subst. exists (S i), a. split; [left; reflexivity|exact Hr].
  - destruct IH as (j & x & Hx & Hr'); [assumption|]. exists j, x. split; [right; exact Hx|exact Hr'].
Qed.

Lemma add_blocks_app key a b result l : dget key result = Some (VList (map VDict l)) -> a = l ->
  add_blocks key b result = dset key (VList (map VDict (l ++ b))) result.
Proof. intros H _. unfold add_blocks. rewrite H, map_app. reflexivity. Qed.
Definition acc_of (key : string) (l : list dict) : dict := match l with [] => [] | _ => [(key, VList (map VDict l))] end.
Lemma add_blocks_acc key l b : add_blocks key [b] (acc_of key l) = acc_of key (l ++ [b]).
Proof.
  unfold add_blocks, acc_of. destruct l as [|x l].
  - cbn. reflexivity.
  - cbn [dget]. rewrite eqb_refl. cbn [dset]. rewrite eqb_refl. destruct (((x :: l) ++ [b])%list) eqn:E; [discriminate|].
    rewrite <- E, map_app. reflexivity.
Qed.

Section ListStage.
  Variable key pkg : string.
  Variable types : list string.
  Variable sec : dict -> nat -> res dict.
  Variable back : dict -> nat -> res dict.
  Let F (b result : dict) (i : nat) : res dict := do s <- sec b i; Ok (add_blocks pkg [s] result).
  Let G (b result : dict) (i : nat) : res dict := do r <- back b i; Ok (add_blocks key [r] result).
  Definition list_conv : converter :=
    simple_converter key pkg (fwd_list key F) (bwd_list pkg types (fun l => l) G []).

  Lemma fwd_loop_list : forall l ss i acc, indexed (fun i b s => sec b i = Ok s) i l ss ->
    fwd_loop F (map VDict l) i (acc_of pkg acc) = Ok (acc_of pkg (acc ++ ss)).
  Proof.
    intros l ss i acc H. revert acc. induction H as [i|i b s l ss Hs H IH]; intros acc.
    - cbn. rewrite app_nil_r. reflexivity.
    - cbn [map fwd_loop as_dict bind]. unfold F at 1. rewrite Hs. cbn [bind]. rewrite add_blocks_acc, IH, <- app_assoc. reflexivity.
  Qed.
  (** Own sections first, the others not eaten *)
  Lemma bwd_loop_skip : forall rest i left acc, (forall d, In d rest -> skip_block types d = true) ->
    bwd_loop (skip_block types) G (map VDict rest) i left acc = (left, Ok acc).
  Proof.
    induction rest as [|d rest IH]; intros i left acc H; [reflexivity|]. cbn [map bwd_loop as_dict].
    rewrite (H d) by (left; reflexivity). apply IH. intros x Hx. apply H. right; exact Hx.
  Qed.
  Lemma bwd_loop_list : forall l own i rest acc,
    indexed (fun i b o => skip_block types o = false /\ wf (VDict o) /\ exists b', back o i = Ok b' /\ same (VDict b) (VDict b')) i l own ->
    (forall d, In d rest -> skip_block types d = true) ->
    exists l', bwd_loop (skip_block types) G (map VDict (own ++ rest)) i (map VDict (own ++ rest)) (acc_of key acc)
      = (map VDict rest, Ok (acc_of key (acc ++ l'))) /\ Forall2 (fun b b' => same (VDict b) (VDict b')) l l'.
  Proof.
    intros l own i rest acc H Hrest. revert acc. induction H as [i|i b o l own (Hk & Hw & b' & Hb & Hs) H IH]; intros acc.
    - exists []. cbn [app]. rewrite bwd_loop_skip by exact Hrest. rewrite app_nil_r. split; [reflexivity|constructor].
    - cbn [map app bwd_loop as_dict remove_first]. rewrite Hk, (py_eq_refl _ Hw). unfold G at 1. rewrite Hb. cbn [bind].
      rewrite add_blocks_acc. destruct (IH (acc ++ [b'])%list) as (l' & E & Fl). rewrite E.
      exists (b' :: l'). rewrite <- app_assoc. split; [reflexivity|]. constructor; assumption.
  Qed.

  Definition list_stage (l : option (list dict)) (ss : list dict) : stage :=
    {| sg_conv := list_conv; sg_key := key; sg_pkg := pkg;
       sg_base := None; sg_val := option_map (fun l => VList (map VDict l)) l; sg_more := []; sg_secs := ss;
       sg_eats := fun d => negb (skip_block types d) |}.
  Lemma list_stage_fwd config l ss before :
    dget key config = Some (VList (map VDict l)) -> indexed (fun i b s => sec b i = Ok s) 0 l ss ->
    stage_fwd config before (list_stage (Some l) ss).
  Proof.
    intros Hk H. unfold stage_fwd. cbn. unfold dmem. rewrite Hk. right. split; [reflexivity|].
    intros inter _. unfold fwd_list, dgetN. rewrite Hk. cbn [as_list bind].
    change [] with (acc_of pkg []) at 1. rewrite (fwd_loop_list l ss 0 [] H). reflexivity.
  Qed.
  Lemma list_stage_fwd_none config before : dget key config = None ->
    stage_fwd config before (list_stage None []).
  Proof. intros H. unfold stage_fwd. cbn. unfold dmem. rewrite H. left. auto. Qed.
  Lemma same_lists l l' : Forall2 (fun b b' => same (VDict b) (VDict b')) l l' -> same (VList (map VDict l)) (VList (map VDict l')).
  Proof. intros H. apply same_list. induction H; constructor; assumption. Qed.
  Lemma list_stage_bwd orig l ss : l <> [] ->
    indexed (fun i b s => forall s', section_reads s s' -> wf (VDict s') ->
       skip_block types s' = false /\ exists b', back s' i = Ok b' /\ same (VDict b) (VDict b')) 0 l ss ->
    stage_alone orig (list_stage (Some l) ss).
  Proof.
    intros Hne H. split; [reflexivity|]. cbn. intros own rest config inter Fo _ Hwf Heats Hg.
    unfold bwd_list. rewrite Hg. cbn [as_list].
    assert (Hi : indexed (fun i b o => skip_block types o = false /\ wf (VDict o) /\ exists b', back o i = Ok b' /\ same (VDict b) (VDict b')) 0 l own).
    { assert (Hw : forall d, In d own -> wf (VDict d)) by (intros d Hd; apply Hwf, in_app_iff; left; exact Hd).
      clear Hwf Hg Hne. revert own Fo Hw. induction H as [i|i b s l ss Hs H IH]; intros own Fo Hw; inversion Fo; subst; constructor.
      - destruct (Hs y) as (G1 & G2); [assumption|apply Hw; left; reflexivity|]. split; [exact G1|]. split; [apply Hw; left; reflexivity|exact G2].
      - apply IH; [assumption|]. intros d Hd. apply Hw. right; exact Hd. }
    destruct (bwd_loop_list l own 0 rest [] Hi) as (l' & E & Fl).
    { intros d Hd. apply negb_false_iff. apply Heats, Hd. }
    change (@nil (string * val)) with (acc_of key []) at 1. rewrite E.
    eexists. split; [reflexivity|]. exists (VList (map VDict l')). split; [|apply same_lists, Fl].
    destruct l' as [|x l']; [inversion Fl; subst; congruence|reflexivity].
  Qed.
  Lemma list_stage_bwd_none orig : stage_alone orig (list_stage None []).
  Proof.
    split; [reflexivity|]. cbn. intros own rest config inter Fo _ Hwf Heats Hg. inversion Fo; subst.
    unfold bwd_list. rewrite Hg. cbn [as_list app]. rewrite bwd_loop_skip by (intros d Hd; apply negb_false_iff, Heats, Hd).
    eexists. split; reflexivity.
  Qed.
End ListStage.

Section SingleStage.
  Variable key pkg : string.
  Variable types : list string.
  Variable fwd : dict -> dict -> res dict.
  Variable back : dict -> res dict.
  Let G (b result : dict) (i : nat) : res dict := do r <- back b; Ok (dset key (VDict r) result).
  Definition single_conv : converter :=
    simple_converter key pkg (fwd_single key fwd) (bwd_list pkg types (fun l => l) G []).
  Definition single_stage (b : option dict) (ss : list dict) : stage :=
    {| sg_conv := single_conv; sg_key := key; sg_pkg := pkg; sg_base := None; sg_val := option_map VDict b; sg_more := []; sg_secs := ss;
       sg_eats := fun d => negb (skip_block types d) |}.
  Lemma single_skip : forall rest i left acc, (forall d, In d rest -> skip_block types d = true) ->
    bwd_loop (skip_block types) G (map VDict rest) i left acc = (left, Ok acc).
  Proof.
    induction rest as [|d rest IH]; intros i left acc H; [reflexivity|]. cbn [map bwd_loop as_dict].
    rewrite (H d) by (left; reflexivity). apply IH. intros x Hx. apply H. right; exact Hx.
  Qed.
  Lemma single_stage_fwd config b s before :
    dget key config = Some (VDict b) -> fwd b [] = Ok [(pkg, VList [VDict s])] ->
    stage_fwd config before (single_stage (Some b) [s]).
  Proof.
    intros Hk H. unfold stage_fwd. cbn. unfold dmem. rewrite Hk. right. split; [reflexivity|].
    intros inter _. unfold fwd_single, dgetN. rewrite Hk. cbn [as_dict bind]. rewrite H. reflexivity.
  Qed.
  Lemma single_stage_fwd_none config before : dget key config = None ->
    stage_fwd config before (single_stage None []).
  Proof. intros H. unfold stage_fwd. cbn. unfold dmem. rewrite H. left. auto. Qed.
  Lemma single_stage_bwd orig b s :
    (forall s', section_reads s s' -> wf (VDict s') ->
       skip_block types s' = false /\ exists b', back s' = Ok b' /\ same (VDict b) (VDict b')) ->
    stage_alone orig (single_stage (Some b) [s]).
  Proof.
    intros H. split; [reflexivity|]. cbn. intros own rest config inter Fo _ Hwf Heats Hg.
    inversion Fo as [|? s' ? own' Hs Fo']; subst. inversion Fo'; subst.
    assert (Hw : wf (VDict s')) by (apply Hwf; left; reflexivity).
    destruct (H s' Hs Hw) as (Hk & b' & Hb & Hsame).
    unfold bwd_list. rewrite Hg. cbn [as_list app map bwd_loop as_dict remove_first].
    rewrite Hk, (py_eq_refl _ Hw). unfold G at 1. rewrite Hb. cbn [bind].
    rewrite single_skip by (intros d Hd; apply negb_false_iff, Heats, Hd).
    eexists. split; [reflexivity|]. exists (VDict b'). split; [reflexivity|exact Hsame].
  Qed.
  Lemma single_stage_bwd_none orig : stage_alone orig (single_stage None []).
  Proof.
    split; [reflexivity|]. cbn. intros own rest config inter Fo _ Hwf Heats Hg. inversion Fo; subst.
    unfold bwd_list. rewrite Hg. cbn [as_list app]. rewrite single_skip by (intros d Hd; apply negb_false_iff, Heats, Hd).
    eexists. split; reflexivity.
  Qed.
End SingleStage.
