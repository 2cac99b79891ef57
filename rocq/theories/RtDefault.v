(** * RtDefault: the round trip of the packages that the library does not know
    (proofs only). *)
From Verif Require Import PyBase PyLemmas StrLemmas Merge SpecMerge MergeProofs Backend Conv OwrtConv SpecUci SpecConv SpecDevice
  ConvLemmas NumLemmas SortLemmas RtStage RtBack RtGeneric RtSystem RtNetwork RtSwitch.

(** ** One block *)
Lemma nochar_of_contains c s : contains (String c EmptyString) s = false -> nochar c s = true.
Proof.
  intros H. destruct (nochar c s) eqn:E; [reflexivity|]. exfalso.
  assert (X : contains (String c EmptyString) s = true); [|congruence].
  clear H. induction s as [|d s IH]; [discriminate|]. cbn [contains startswith].
  rewrite nochar_cons in E. destruct (Ascii.eqb_spec d c) as [->|Hn].
  - destruct (Ascii.eqb_spec c c); [reflexivity|congruence].
  - cbn in E. rewrite (IH E). apply orb_true_r.
Qed.
Lemma uci_name_id s : contains "-" s = false -> contains "." s = false -> uci_name s = s.
Proof. intros H1 H2. unfold uci_name. rewrite (replace_absent "."), (replace_absent "-"); auto. Qed.
Lemma uci_name_app a b : uci_name (a +++ b) = uci_name a +++ uci_name b.
Proof.
  assert (G : forall c d x y, replace (String c EmptyString) d (x +++ y) = replace (String c EmptyString) d x +++ replace (String c EmptyString) d y).
  { intros c d. induction x as [|e x IH]; intros y; [reflexivity|]. cbn [String.append].
    destruct (Ascii.eqb_spec c e) as [->|Hn].
    - change (String e (x +++ y)) with (String e EmptyString +++ (x +++ y)).
      change (String e x) with (String e EmptyString +++ x). rewrite !replace_hit, IH, app_assoc_s. reflexivity.
    - rewrite !replace_miss, IH; [reflexivity| |]; cbn; destruct (Ascii.eqb_spec c e); congruence || reflexivity. }
  unfold uci_name. rewrite !G. reflexivity.
Qed.
Lemma uci_name_digits s : sforall is_digit s = true -> uci_name s = s.
Proof.
  intros H. assert (G : forall c, is_digit c = false -> nochar c s = true).
  { intros c Hc. clear -H Hc. induction s as [|d s IH]; [reflexivity|]. cbn in H. apply andb_prop in H as [H1 H2].
    rewrite nochar_cons, (IH H2), andb_true_r. destruct (Ascii.eqb_spec d c); [congruence|reflexivity]. }
  unfold uci_name. rewrite (replace_id "."), (replace_id "-"); try reflexivity; apply G; reflexivity.
Qed.

Definition custom_name (i : nat) (b : dict) : string :=
  name_or "config_value" (name_or "config_name" EmptyString b +++ "_" +++ number i) b.
Definition custom_sec (b : dict) (i : nat) : res dict :=
  match dget "config_name" b with
  | Some type => let (b', r) := custom_block b type i in do _ <- r; Ok (ssort b')
  | None => Err EAttr
  end.

Lemma custom_object i b : custom_block_ok i b ->
  exists type, type <> "device" /\ type <> "bridge-vlan" /\
  object_rt b (custom_name i b) type (custom_sec b i) (fun s => custom_back s i).
Proof.
  intros (Hnd & (t & Ht & Hw & H1 & H2 & Hv) & Hf). exists t. split; [exact H1|]. split; [exact H2|].
  unfold custom_name. assert (En : name_or "config_name" EmptyString b = t) by (unfold name_or; rewrite Ht; reflexivity). rewrite En. clear En.
  set (auto := t +++ "_" +++ number i) in *.
  assert (Hn : exists n, name_or "config_value" auto b = n /\ pop_or "config_value" (VStr auto) b = VStr n /\ uci_name n = n /\ bare n /\
     ((dget "config_value" b = None /\ n = auto) \/ (dget "config_value" b = Some (VStr n) /\ n <> auto))).
  { unfold name_or, pop_or. destruct (dget "config_value" b) as [v|].
    - destruct Hv as (s & -> & Hb & Hc1 & Hc2 & Hne). exists s. repeat split; auto. apply uci_name_id; assumption.
    - destruct Hv as [Hc1 Hc2]. exists auto. repeat split; auto.
      + unfold auto. rewrite uci_name_app, (uci_name_id t) by assumption. f_equal. rewrite uci_name_app. f_equal.
        apply uci_name_digits. apply string_of_N_digits.
      + unfold auto. apply bare_app; [apply Hw|]. apply bare_app; [reflexivity|apply number_bare]. }
  destruct Hn as (n & -> & Hpop & Hu & Hbn & Hn).
  set (X := dset ".name" (VStr n) (ddel "config_value" (dset ".type" (VStr t) (ddel "config_name" b)))).
  assert (HX : NoDup (dkeys X)) by (unfold X; nodup).
  assert (Hsec : custom_sec b i = Ok (ssort X)).
  { unfold custom_sec. rewrite Ht. unfold custom_block. cbn [py_str]. fold (number i) auto.
    assert (Ep : pop_or "config_value" (VStr auto) (dset ".type" (VStr t) (ddel "config_name" b)) = VStr n).
    { unfold pop_or. dg. ev. exact Hpop. }
    rewrite Ep, Hu. unfold X. rewrite !dset_dset. reflexivity. }
  rewrite Hsec.
  assert (Hget : forall k, dget k (ssort X) = if String.eqb k ".name" then Some (VStr n) else
     if String.eqb k "config_value" then None else if String.eqb k ".type" then Some (VStr t)
     else if String.eqb k "config_name" then None else dget k b) by (intros k; unfold X; dg; reflexivity).
  eapply object_intro; [reflexivity| |unfold sec_name; rewrite Hget; reflexivity|rewrite Hget; reflexivity|exact H1|exact H2|].
  - eapply section_ok_intro; [apply ssort_NoDup, HX|rewrite Hget; reflexivity|exact Hw|rewrite Hget; reflexivity|exact Hbn|].
    intros k v. rewrite Hget. fields k; try discriminate. intros Hk _ _. eapply field_writes; [exact Hf|notin|exact Hk].
  - intros s' Hnd' Gt Gn G. unfold custom_back. dget_now. rewrite Gn. cbn [bind]. dget_now. rewrite Gt. cbn [bind py_str].
    fold (number i) auto. rewrite py_eq_text. eexists. split; [reflexivity|]. apply same_of_map. intros k.
    destruct Hn as [[Hn ->]|(Hn & Hne)]; ev; dg; rewrite G, Hget; fields k;
      try congruence; try (symmetry; dotted Hf).
    all: destruct (startswith "." k) eqn:Ed; [symmetry; eapply dotted_absent; [exact Hf|notin|exact Ed]|].
    all: eapply field_text; [exact Hf|notin|reflexivity].
Qed.

(** ** The blocks of a package *)
Definition custom_list (l : list dict) (ss : list dict) : Prop :=
  indexed (fun i b s => custom_sec b i = Ok s /\ section_ok s /\
    forall s', section_reads s s' -> exists b', custom_back s' i = Ok b' /\ same (VDict b) (VDict b')) 0 l ss.
Lemma custom_list_exists : forall l i, (forall j b, nth_error l j = Some b -> custom_block_ok (S (i + j)) b) ->
  exists ss, indexed (fun i b s => custom_sec b i = Ok s /\ section_ok s /\
    forall s', section_reads s s' -> exists b', custom_back s' i = Ok b' /\ same (VDict b) (VDict b')) i l ss.
Proof.
  induction l as [|b l IH]; intros i H; [exists []; constructor|].
  destruct (IH (S i)) as (ss & Hss). { intros j x Hj. specialize (H (S j) x Hj). rewrite Nat.add_succ_r in H. exact H. }
  specialize (H 0 b eq_refl). rewrite Nat.add_0_r in H.
  destruct (custom_object _ _ H) as (type & _ & _ & s & Hs & Hok & _ & _ & Hr).
  exists (s :: ss). constructor; [|exact Hss]. split; [exact Hs|]. split; [exact Hok|]. intros s' Hs'. apply (Hr s' Hs').
Qed.
Lemma custom_blocks_fwd : forall l ss i, 
  indexed (fun i b s => custom_sec b i = Ok s) i l ss ->
  exists l', custom_blocks (map VDict l) (S i) = (l', Ok (map VDict ss)).
Proof.
  intros l ss i H. induction H as [i|i b s l ss Hs H (l' & IH)]; [exists []; reflexivity|].
  unfold custom_sec in Hs. cbn [map custom_blocks]. destruct (dget "config_name" b) as [type|]; [|discriminate].
  destruct (custom_block b type (S i)) as [b' r]. destruct r as [u|e]; [|discriminate]. cbn [bind] in Hs. injection Hs as <-.
  rewrite IH. eexists. reflexivity.
Qed.
Lemma custom_back_fwd : forall l ss own i,
  indexed (fun i b s => forall s', section_reads s s' -> exists b', custom_back s' i = Ok b' /\ same (VDict b) (VDict b')) i l ss ->
  Forall2 section_reads ss own ->
  exists l', custom_back_list (map VDict own) (S i) = Ok (map VDict l') /\ Forall2 (fun b b' => same (VDict b) (VDict b')) l l'.
Proof.
  intros l ss own i H. revert own. induction H as [i|i b s l ss Hs H IH]; intros own Fo; inversion Fo as [|? o ? own' Ho Fo']; subst.
  - exists []. split; [reflexivity|constructor].
  - destruct (Hs _ Ho) as (b' & Hb & Hsame). destruct (IH _ Fo') as (l' & Hl & F).
    exists (b' :: l'). cbn [map custom_back_list as_dict bind]. rewrite Hb. cbn [bind]. rewrite Hl. cbn [bind].
    split; [reflexivity|constructor; assumption].
Qed.
Lemma indexed_impl A B (R S : nat -> A -> B -> Prop) i la lb : (forall i a b, R i a b -> S i a b) -> indexed R i la lb -> indexed S i la lb.
Proof. intros H G. induction G; constructor; auto. Qed.

(** ** All the packages, forward *)
(** The known keys, the document type, or a package. *)
Definition custom_entry (known : list string) (k : string) (v : val) (ss : list dict) : Prop :=
  exists l, v = VList (map VDict l) /\ l <> [] /\ custom_list l ss.
Definition is_custom (known : list string) (k : string) : bool := negb (ignored known k) && negb (String.eqb k "type").
Inductive packages (known : list string) : dict -> list (string * list dict) -> Prop :=
| pk_nil : packages known [] []
| pk_known k v t ps : is_custom known k = false -> (k = "type" -> exists s, v = VStr s) -> packages known t ps -> packages known ((k, v) :: t) ps
| pk_custom k v t ps ss : is_custom known k = true -> custom_entry known k v ss -> packages known t ps -> packages known ((k, v) :: t) ((k, ss) :: ps).
Definition as_data (ps : list (string * list dict)) : dict := map (fun p => (fst p, VList (map VDict (snd p)))) ps.
Lemma packages_fwd known : (ignored known "type" = false) -> forall config ps, packages known config ps ->
  exists config', custom_packages known config = (config', Ok (as_data ps)) /\ dkeys config' = dkeys config /\
    forall k, is_custom known k = false -> dget k config' = dget k config.
Proof.
  intros Hty config ps H. induction H as [|k v t ps Hk Hv H (c' & IH & Hkeys & Hget)|k v t ps ss Hk (l & -> & Hne & Hl) H (c' & IH & Hkeys & Hget)].
  - exists []. repeat split; reflexivity.
  - assert (E : custom_packages known ((k, v) :: t) = ((k, v) :: c', Ok (as_data ps))).
    { cbn [custom_packages]. rewrite IH. destruct v; try reflexivity. unfold is_custom in Hk.
      destruct (ignored known k) eqn:Ei; [reflexivity|]. cbn in Hk. destruct (String.eqb_spec k "type") as [->|]; [|discriminate].
      destruct (Hv eq_refl) as (s & ?). discriminate. }
    exists ((k, v) :: c'). split; [exact E|]. split; [unfold dkeys in *; cbn; congruence|]. intros k0 Hk0. cbn. rewrite Hget by exact Hk0. reflexivity.
  - destruct (custom_blocks_fwd l ss 0) as (l' & Hb). { eapply indexed_impl; [|exact Hl]. intros j b s (X & _). exact X. }
    assert (Hne' : ss <> []). { apply indexed_length in Hl. destruct l; [congruence|]. destruct ss; discriminate. }
    exists ((k, VList l') :: c'). split; [|split].
    + cbn [custom_packages]. unfold is_custom in Hk. apply andb_prop in Hk as [Hk _]. apply negb_true_iff in Hk. rewrite Hk, Hb, IH.
      cbn [bind]. destruct ss; [congruence|]. reflexivity.
    + unfold dkeys in *. cbn. congruence.
    + intros k0 Hk0. cbn. destruct (String.eqb_spec k0 k) as [->|]; [congruence|]. apply Hget, Hk0.
Qed.

(** Merging fresh packages *)
Lemma merge_fresh_all oid ids : forall kvs inter, NoDup (dkeys kvs) -> (forall k, In k (dkeys kvs) -> dget k inter = None) ->
  merge_config oid ids inter kvs = Ok (inter ++ kvs)%list.
Proof.
  induction kvs as [|[k v] kvs IH]; intros inter Hnd Hf; [rewrite app_nil_r; reflexivity|].
  cbn in Hnd. inversion Hnd as [|? ? Hni Hnd']; subst.
  rewrite merge_config_cons, (Hf k) by (left; reflexivity).
  replace (merge_val oid v ids None k) with (Ok v) by (destruct v; reflexivity). cbn [bind].
  rewrite dset_absent by (apply Hf; left; reflexivity). rewrite IH; [rewrite <- app_assoc; reflexivity|exact Hnd'|].
  intros k0 Hk0. assert (Hk1 : dget k0 inter = None) by (apply Hf; right; exact Hk0).
  clear -Hk1 Hk0 Hni. induction inter as [|[k1 v1] inter IH].
  - cbn. destruct (String.eqb_spec k0 k) as [->|]; [contradiction|reflexivity].
  - cbn in *. destruct (String.eqb k0 k1); [discriminate|auto].
Qed.

(** ** All the packages, backward *)
Lemma default_bwd_get : forall inter, NoDup (dkeys inter) ->
  (forall k v, In (k, v) inter -> v = VList [] \/ exists own bs, v = VList (map VDict own) /\ own <> [] /\ custom_back_list (map VDict own) 1 = Ok bs) ->
  exists r, default_bwd inter = Ok r /\ NoDup (dkeys r) /\ incl (dkeys r) (dkeys inter) /\
    forall k, match dget k inter with
              | None => dget k r = None
              | Some v => (v = VList [] /\ dget k r = None) \/
                          exists own bs, v = VList (map VDict own) /\ custom_back_list (map VDict own) 1 = Ok bs /\ dget k r = Some (VList bs)
              end.
Proof.
  induction inter as [|[k v] inter IH]; intros Hnd H.
  - exists []. split; [reflexivity|]. split; [constructor|]. split; [intros x []|reflexivity].
  - cbn in Hnd. inversion Hnd as [|? ? Hni Hnd']; subst.
    destruct IH as (r & Er & Hr & Hincl & Hg); [exact Hnd'|intros k0 v0 Hin; apply (H k0); right; exact Hin|].
    assert (Hkr : dget k r = None). { destruct (dget k r) eqn:E; [|reflexivity]. exfalso. apply Hni. apply Hincl. apply dget_In in E. apply (in_map fst) in E. exact E. }
    destruct (H k v (or_introl eq_refl)) as [-> |(own & bs & -> & Hne & Hb)].
    + exists r. cbn [default_bwd truthy]. split; [exact Er|]. split; [exact Hr|]. split; [intros x Hx; right; apply Hincl, Hx|].
      intros k0. cbn [dget]. destruct (String.eqb_spec k0 k) as [->|]; [left; auto|apply Hg].
    + exists ((k, VList bs) :: r). assert (Ht : truthy (VList (map VDict own)) = true) by (destruct own; [congruence|reflexivity]).
      cbn [default_bwd]. rewrite Ht. cbn [as_list bind]. rewrite Hb. cbn [bind]. rewrite Er. split; [reflexivity|]. split; [|split].
      * cbn. constructor; [intros Hin; apply Hni, Hincl, Hin|exact Hr].
      * intros x [<-|Hx]; [left; reflexivity|right; apply Hincl, Hx].
      * intros k0. cbn [dget]. destruct (String.eqb_spec k0 k) as [->|]; [right; exists own, bs; auto|apply Hg].
Qed.
