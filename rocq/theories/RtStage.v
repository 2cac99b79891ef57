(** * RtStage: composing the converters of a device: the sections of each
    converter are appended to their package, and each converter finds its own
    sections again (proofs only). *)
From Verif Require Import PyBase PyLemmas Merge SpecMerge MergeProofs MergeListProofs MergeFinal
  Backend Conv SpecUci SpecConv ConvLemmas SortLemmas.

Lemma NoDup_app_l (A : Type) (a b : list A) : NoDup (a ++ b) -> NoDup a.
Proof. induction a as [|x a IH]; intros H; [constructor|]. cbn in H. inversion H; subst. constructor; [rewrite in_app_iff in *; tauto|auto]. Qed.
Lemma NoDup_app_r (A : Type) (a b : list A) : NoDup (a ++ b) -> NoDup b.
Proof. induction a as [|x a IH]; intros H; [exact H|]. cbn in H. inversion H; subst. auto. Qed.

(** ** Forward: merging sections with distinct names appends them *)
Definition sec_name (s : dict) (n : string) : Prop := dget ".name" s = Some (VStr n).
Definition named (ss : list dict) (ns : list string) : Prop := Forall2 sec_name ss ns.

Definition zipn (ss : list dict) (ns : list string) : list (mkey * val) :=
  map (fun p => (KVal (VStr (snd p)), VDict (fst p))) (combine ss ns).
Lemma kget_zipn_none n : forall ss ns, ~ In n ns -> kget (KVal (VStr n)) (zipn ss ns) = None.
Proof.
  induction ss as [|s ss IH]; intros [|m ns] H; try reflexivity. cbn.
  destruct (String.eqb_spec n m) as [->|Hn]; [exfalso; apply H; left; reflexivity|].
  apply IH. intros Hin. apply H. right; assumption.
Qed.
Lemma kget_app_none (V : Type) k (a b : list (mkey * V)) : kget k a = None -> kget k b = None -> kget k (a ++ b)%list = None.
Proof. induction a as [|[k' v] a IH]; cbn; [auto|]. destruct (mkey_eqb k k'); [discriminate|auto]. Qed.
Lemma named_length ss ns : named ss ns -> length ss = length ns.
Proof. apply Forall2_length. Qed.
Lemma map_snd_zipn ss ns : named ss ns -> map snd (zipn ss ns) = map VDict ss.
Proof. intros H. induction H as [|s n ss ns _ _ IH]; [reflexivity|]. cbn. f_equal. exact IH. Qed.
(** Objects with distinct texts under a key *)
Definition keyed (key : string) (ss : list dict) (ns : list string) : Prop := Forall2 (fun s n => dget key s = Some (VStr n)) ss ns.
Lemma key_of_named key ids second oid l i s n : dget key s = Some (VStr n) -> key_of (key :: ids) second oid l i (VDict s) = Ok (KVal (VStr n)).
Proof. intros H. cbn. rewrite H. reflexivity. Qed.
Lemma map_snd_keyed key ss ns : keyed key ss ns -> map snd (zipn ss ns) = map VDict ss.
Proof. intros H. induction H as [|s n ss ns _ _ IH]; [reflexivity|]. cbn. f_equal. exact IH. Qed.
Lemma container1_named key ids oid l : forall ss ns i acc, keyed key ss ns -> NoDup ns ->
  (forall n, In n ns -> kget (KVal (VStr n)) acc = None) ->
  container1_from oid (key :: ids) l i (map VDict ss) acc = Ok (acc ++ zipn ss ns)%list.
Proof.
  intros ss ns i acc H. revert i acc. induction H as [|s n ss ns Hs H IH]; intros i acc Hnd Hacc.
  - cbn. rewrite app_nil_r. reflexivity.
  - cbn [map container1_from]. rewrite (key_of_named _ _ _ _ _ _ _ _ Hs). cbn [bind].
    rewrite kset_absent by (apply Hacc; left; reflexivity). inversion Hnd as [|? ? Hni Hnd']; subst.
    rewrite IH; [cbn; rewrite <- app_assoc; reflexivity|assumption|].
    intros m Hm. apply kget_app_none; [apply Hacc; right; assumption|]. cbn.
    destruct (String.eqb_spec m n) as [->|Hn]; [contradiction|reflexivity].
Qed.
Lemma py_eq_name key a b n m : dget key a = Some (VStr n) -> dget key b = Some (VStr m) -> py_eq (VDict a) (VDict b) = true -> n = m.
Proof.
  intros Ha Hb E. apply py_eq_dict_inv in E as [_ E].
  destruct (E key (VStr n) (dget_In _ _ _ Ha)) as (w & Hw & Ew). rewrite Hb in Hw. injection Hw as <-.
  cbn in Ew. apply String.eqb_eq in Ew. assumption.
Qed.
Lemma py_in_named key s n ss ns : dget key s = Some (VStr n) -> keyed key ss ns -> ~ In n ns -> py_in (VDict s) (map VDict ss) = false.
Proof.
  intros Hs H Hni. unfold py_in. apply not_true_iff_false. intros E. apply existsb_exists in E as (y & Hy & E).
  apply in_map_iff in Hy as (d & <- & Hd). destruct (Forall2_In_l _ _ _ _ H Hd) as (m & Hm & Hdm).
  rewrite <- (py_eq_name _ _ _ _ _ Hdm Hs E) in Hni. contradiction.
Qed.
Lemma container2_named key ids oid c1 l : forall ss ns i acc ss1 ns1, keyed key ss ns -> NoDup ns ->
  map snd c1 = map VDict ss1 -> keyed key ss1 ns1 -> (forall n, In n ns -> ~ In n ns1) ->
  (forall n, In n ns -> kget (KVal (VStr n)) acc = None) ->
  container2_from oid (key :: ids) c1 l (fun x => x) i (map VDict ss) acc = Ok (acc ++ zipn ss ns)%list.
Proof.
  intros ss ns i acc ss1 ns1 H Hnd Hc1 H1 Hsep. revert i acc Hnd Hsep.
  induction H as [|s n ss ns Hs H IH]; intros i acc Hnd Hsep Hacc.
  - cbn. rewrite app_nil_r. reflexivity.
  - cbn [map container2_from]. rewrite Hc1, (py_in_named key s n ss1 ns1 Hs H1) by (apply Hsep; left; reflexivity).
    rewrite (key_of_named _ _ _ _ _ _ _ _ Hs). cbn [bind].
    rewrite kset_absent by (apply Hacc; left; reflexivity). inversion Hnd as [|? ? Hni Hnd']; subst.
    rewrite IH; [cbn; rewrite <- app_assoc; reflexivity|assumption| |].
    + intros m Hm. apply Hsep. right; assumption.
    + intros m Hm. apply kget_app_none; [apply Hacc; right; assumption|]. cbn.
      destruct (String.eqb_spec m n) as [->|Hn]; [contradiction|reflexivity].
Qed.
Lemma fold_named key oid : forall ss ns acc, keyed key ss ns -> NoDup ns ->
  (forall n, In n ns -> kget (KVal (VStr n)) acc = None) ->
  foldM (fun acc kv => do y <- merge_val oid (snd kv) [] (kget (fst kv) acc) EmptyString; Ok (kset (fst kv) y acc))
    acc (zipn ss ns) = Ok (acc ++ zipn ss ns)%list.
Proof.
  intros ss ns acc H. revert acc. induction H as [|s n ss ns Hs H IH]; intros acc Hnd Hacc.
  - cbn. rewrite app_nil_r. reflexivity.
  - change (zipn (s :: ss) (n :: ns)) with ((KVal (VStr n), VDict s) :: zipn ss ns). cbn [foldM fst snd].
    rewrite Hacc by (left; reflexivity). cbn [merge_val bind].
    rewrite kset_absent by (apply Hacc; left; reflexivity). inversion Hnd as [|? ? Hni Hnd']; subst.
    rewrite IH; [rewrite <- app_assoc; reflexivity|assumption|].
    intros m Hm. apply kget_app_none; [apply Hacc; right; assumption|]. cbn.
    destruct (String.eqb_spec m n) as [->|Hn]; [contradiction|reflexivity].
Qed.
Lemma merge_named key ids oid ss1 ss2 ns1 ns2 : keyed key ss1 ns1 -> keyed key ss2 ns2 -> NoDup (ns1 ++ ns2) ->
  merge_list oid (key :: ids) (map VDict ss1) (map VDict ss2) = Ok (map VDict (ss1 ++ ss2)).
Proof.
  intros H1 H2 Hnd.
  assert (Hn1 : NoDup ns1) by (eapply NoDup_app_l; exact Hnd).
  assert (Hn2 : NoDup ns2) by (eapply NoDup_app_r; exact Hnd).
  assert (Hsep : forall n, In n ns2 -> ~ In n ns1).
  { intros n Hb Ha. apply in_split in Hb as (a & b & ->). rewrite app_assoc in Hnd.
    apply NoDup_remove_2 in Hnd. apply Hnd. rewrite !in_app_iff. auto. }
  unfold merge_list, container1. rewrite (container1_named key ids oid (map VDict ss1) ss1 ns1 0 [] H1 Hn1) by reflexivity. cbn [bind app].
  rewrite (container2_named key ids oid (zipn ss1 ns1) _ ss2 ns2 0 [] ss1 ns1 H2 Hn2 (map_snd_keyed _ _ _ H1) H1 Hsep) by reflexivity.
  cbn [bind app]. rewrite (fold_named key oid ss2 ns2 (zipn ss1 ns1) H2 Hn2) by (intros n Hn; apply kget_zipn_none, Hsep, Hn).
  cbn [bind]. rewrite !map_app, (map_snd_keyed _ _ _ H1), (map_snd_keyed _ _ _ H2). reflexivity.
Qed.

(** Merging one package *)
Lemma merge_package oid p ss1 ss2 ns1 ns2 inter : named ss1 ns1 -> named ss2 ns2 -> NoDup (ns1 ++ ns2) ->
  dget p inter = Some (VList (map VDict ss1)) ->
  merge_config oid [".name"] inter [(p, VList (map VDict ss2))] = Ok (dset p (VList (map VDict (ss1 ++ ss2))) inter).
Proof.
  intros H1 H2 Hnd Hg. rewrite merge_config_cons, Hg, merge_val_list, (merge_named ".name" _ _ _ _ _ _ H1 H2 Hnd). reflexivity.
Qed.
Lemma merge_fresh_package oid ids p v inter : dget p inter = None ->
  merge_config oid ids inter [(p, v)] = Ok (dset p v inter).
Proof.
  intros Hg. rewrite merge_config_cons, Hg. destruct v; reflexivity.
Qed.

(** ** Stages *)
(** What one converter does to a given device: its NetJSON key and value, the
    package and the sections that it makes. *)
Record stage := {
  sg_conv : converter;
  sg_key : string;
  sg_pkg : string;
  sg_base : option val;     (* what it finds under its key when parsing *)
  sg_val : option val;      (* what it leaves there *)
  sg_more : dict;           (* what it leaves under other keys *)
  sg_secs : list dict;
  sg_eats : dict -> bool    (* the sections that its backward conversion takes *)
}.
Definition secs_of (p : string) (gs : list stage) : list dict :=
  flat_map (fun g => if String.eqb (sg_pkg g) p then sg_secs g else []) gs.
Lemma secs_of_app p a b : secs_of p (a ++ b) = (secs_of p a ++ secs_of p b)%list.
Proof. apply flat_map_app. Qed.
Definition pack (p : string) (ss : list dict) : dict :=
  match ss with [] => [] | _ => [(p, VList (map VDict ss))] end.

(** [inter] holds exactly the sections of the stages. *)
Definition holds (gs : list stage) (inter : dict) : Prop :=
  NoDup (dkeys inter) /\
  forall p, dget p inter = match secs_of p gs with [] => None | ss => Some (VList (map VDict ss)) end.
Definition distinct_names (gs : list stage) : Prop :=
  forall p, exists ns, named (secs_of p gs) ns /\ NoDup ns.

Definition stage_fwd (config : dict) (before : list stage) (g : stage) : Prop :=
  (sg_secs g = [] /\ c_fwd_run (sg_conv g) config = false) \/
  (c_fwd_run (sg_conv g) config = true /\
   forall inter, holds before inter -> c_fwd (sg_conv g) config inter = (config, Ok (pack (sg_pkg g) (sg_secs g)))).

Lemma named_app_inv a b ns : named (a ++ b) ns -> exists n1 n2, ns = (n1 ++ n2)%list /\ named a n1 /\ named b n2.
Proof. intros H. apply Forall2_app_inv_l in H as (n1 & n2 & H1 & H2 & ->). exists n1, n2. auto. Qed.

Lemma distinct_names_prefix a b : distinct_names (a ++ b) -> distinct_names a.
Proof.
  intros H p. destruct (H p) as (ns & Hn & Hnd). rewrite secs_of_app in Hn.
  apply named_app_inv in Hn as (n1 & n2 & -> & H1 & _). exists n1. split; [assumption|].
  eapply NoDup_app_l; exact Hnd.
Qed.
Lemma holds_step oid before g inter : holds before inter -> distinct_names (before ++ [g]) -> sg_secs g <> [] ->
  exists inter', merge_config oid [".name"] inter (pack (sg_pkg g) (sg_secs g)) = Ok inter' /\ holds (before ++ [g]) inter'.
Proof.
  intros [Hnd Hh] Hd Hne. set (p := sg_pkg g).
  assert (Hsg : forall q, secs_of q [g] = if String.eqb p q then sg_secs g else []).
  { intros q. cbn. fold p. destruct (String.eqb p q); [apply app_nil_r|reflexivity]. }
  assert (Hpack : pack p (sg_secs g) = [(p, VList (map VDict (sg_secs g)))]) by (destruct (sg_secs g); [congruence|reflexivity]).
  exists (dset p (VList (map VDict (secs_of p before ++ sg_secs g))) inter). split.
  - fold p. rewrite Hpack. pose proof (Hh p) as Hp. destruct (secs_of p before) as [|s ss] eqn:Eb.
    + rewrite merge_fresh_package by assumption. reflexivity.
    + destruct (Hd p) as (ns & Hn & Hnn). rewrite secs_of_app, Hsg, eqb_refl, Eb in Hn.
      apply named_app_inv in Hn as (n1 & n2 & -> & H1 & H2).
      eapply merge_package; eassumption.
  - split; [apply NoDup_dset, Hnd|]. intros q. rewrite dget_dset, secs_of_app, Hsg, (eqb_sym p q).
    destruct (String.eqb_spec q p) as [->|Hq].
    + destruct (secs_of p before ++ sg_secs g)%list eqn:E; [|reflexivity].
      apply app_eq_nil in E as [_ E]. contradiction.
    + rewrite app_nil_r. apply Hh.
Qed.
Lemma stages_fwd oid config : forall gs before inter s, st_config s = config ->
  holds before inter -> distinct_names (before ++ gs) ->
  (forall a g b, gs = (a ++ g :: b)%list -> stage_fwd config (before ++ a) g) ->
  exists inter', convert_fwd oid (map sg_conv gs) s inter = ({| st_config := config; st_inter := Some inter' |}, Ok tt) /\
    holds (before ++ gs) inter'.
Proof.
  induction gs as [|g gs IH]; intros before inter s Hs Hh Hd Hf.
  - exists inter. cbn. rewrite app_nil_r, Hs. auto.
  - assert (E : (before ++ g :: gs)%list = ((before ++ [g]) ++ gs)%list) by (rewrite <- app_assoc; reflexivity).
    assert (Hf' : forall a g0 b, gs = (a ++ g0 :: b)%list -> stage_fwd config ((before ++ [g]) ++ a) g0).
    { intros a g0 b Eg. rewrite <- app_assoc. apply (Hf (g :: a) g0 b). rewrite Eg. reflexivity. }
    pose proof (Hf [] g gs eq_refl) as Hg. rewrite app_nil_r in Hg. unfold stage_fwd in Hg.
    rewrite E in Hd |- *. cbn [map convert_fwd]. rewrite Hs.
    assert (Hskip : sg_secs g = [] -> holds (before ++ [g]) inter).
    { intros Hnil. destruct Hh as [Hn Hh]. split; [assumption|]. intros q. rewrite secs_of_app. cbn. rewrite Hnil.
      destruct (String.eqb (sg_pkg g) q); cbn; rewrite app_nil_r; apply Hh. }
    destruct Hg as [[Hnil ->]|[-> Hg]].
    + cbn [negb]. apply IH; try assumption. apply Hskip, Hnil.
    + cbn [negb]. rewrite (Hg inter Hh). 
      destruct (sg_secs g) as [|x xs] eqn:Es.
      * cbn [pack]. apply IH; try assumption; try reflexivity. apply Hskip. reflexivity.
      * destruct (holds_step oid before g inter Hh (distinct_names_prefix _ _ Hd)) as (inter' & Hm & Hh'); [congruence|].
        rewrite Es in Hm. cbn [pack] in Hm |- *. rewrite Hm. apply IH; try assumption; reflexivity.
Qed.
