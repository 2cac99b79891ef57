(** * OwApi: generate() of the OpenWISP 1.x backend (proofs only) *)
From Verif Require Import PyBase PyLemmas StrLemmas Files Uci SpecUci SpecUciMore FilesProofs.
From Verif Require Import Merge Backend Conv OpenWrt OpenWisp SpecFiles SpecOpenWisp UciRoundTrip UciMore MergeFinal VpnProofs OwProofs OwArchive OwScripts.

Lemma get_files_dset l c : get_files (dset "files" (VList l) c) = Ok l.
Proof. unfold get_files. rewrite dget_dset_same. reflexivity. Qed.
Lemma generate_parts oid B T s s' tar : ow_generate oid B T s = (s', Ok tar) ->
  exists s1 text pk items old new,
    ow_render oid B false s = (s1, Ok text) /\ ow_packages text [] = Ok pk /\
    all_scripts T (st_config s1) = Ok items /\ get_files (st_config s1) = Ok old /\
    st_config s' = dset "files" (VList (old ++ new)) (st_config s1) /\ st_inter s' = st_inter s1 /\
    NoDup new /\ incl new items /\ (forall it, In it items -> py_in it (old ++ new) = true) /\
    process_files (st_config s') pk = Ok tar.
Proof.
  unfold ow_generate. destruct (ow_render oid B false s) as [s1 [text|e]]; [|discriminate].
  destruct (ow_packages text []) as [pk|] eqn:Ep; [|discriminate]. unfold add_scripts.
  destruct (all_scripts T (st_config s1)) as [items|] eqn:Ei; [|discriminate]. cbn [bind].
  destruct (get_files (st_config s1)) as [old|] eqn:Ef; [|discriminate]. cbn [bind].
  assert (Hr : forall it, In it items -> py_eq it it = true).
  { destruct (all_scripts_spec T _ _ Ei) as (x & _ & H). intros it Hit. destruct (proj1 (H it) Hit) as (p & t & _ & ->). apply script_eq. }
  destruct (add_unique_all items Hr old) as (new & E & Hnd & Hi & _ & Hall). rewrite E.
  intros G. injection G as <- G. cbn [st_config st_inter] in *.
  exists s1, text, pk, items, old, new. repeat split; auto.
Qed.
Lemma member_of_script p t m : file_mem0 (script_file p t) m ->
  m = {| m_name := member_path p; m_mode := 493; m_mtime := 0; m_data := stake (String.length t) (utf8 t) |}.
Proof.
  intros (d & p' & c' & mode & n & E & Hp & Hc & Hm & Hn & ->). injection E as <-. cbn in Hp, Hc, Hm. injection Hp as <-. injection Hc as <-.
  destruct Hm as [Hm|[Hm _]]; [|discriminate]. injection Hm as <-. vm_compute in Hn. injection Hn as <-. reflexivity.
Qed.
Lemma script_member_of p t m : file_mem0 (script_file p t) m -> script_member p t m.
Proof.
  intros H. apply member_of_script in H as ->. split; [apply relative_of_member|]. repeat split. intros Ha. cbn [m_data].
  rewrite (UciMore.utf8_ascii _ Ha). apply stake_all.
Qed.
(** An entry that is equal to a script gives the member of the script. *)
Lemma equal_script f p t m : wf f -> py_eq f (script_file p t) = true -> file_mem0 f m -> script_member p t m.
Proof.
  intros Hw He Hm. destruct Hm as (d & p' & c' & mode & n & -> & Hp & Hc & Hmd & Hn & ->).
  apply py_eq_dict_inv in He as [Hl Hk]. apply wf_dict in Hw as [Hnd _].
  assert (Hpp : p' = p).
  { apply dget_In in Hp. destruct (Hk _ _ Hp) as (w & Ew & He). cbn in Ew. injection Ew as <-. cbn in He. apply String.eqb_eq in He. exact He. }
  assert (Hcc : c' = t).
  { apply dget_In in Hc. destruct (Hk _ _ Hc) as (w & Ew & He). cbn in Ew. injection Ew as <-. cbn in He. apply String.eqb_eq in He. exact He. }
  assert (Hmm : mode = "755").
  { destruct Hmd as [Hmd|[Hmd _]].
    - apply dget_In in Hmd. destruct (Hk _ _ Hmd) as (w & Ew & He). cbn in Ew. injection Ew as <-. cbn in He. apply String.eqb_eq in He. exact He.
    - exfalso. assert (Hi : incl ["path"; "contents"; "mode"] (dkeys d)).
      { apply NoDup_length_incl; [exact Hnd|unfold dkeys; rewrite map_length; rewrite Hl; reflexivity|].
        intros k Hkin. apply in_map_iff in Hkin as ([k' v'] & <- & Hin). destruct (Hk _ _ Hin) as (w & Ew & _). apply dget_In in Ew.
        cbn in Ew. cbn [fst]. destruct Ew as [E|[E|[E|[]]]]; injection E as <- _; cbn; tauto. }
      specialize (Hi "mode" ltac:(cbn; tauto)). apply dget_Some_keys in Hi as [w Hw']. congruence. }
  subst. vm_compute in Hn. injection Hn as <-. split; [apply relative_of_member|]. repeat split. intros Ha. cbn [m_data].
  rewrite (UciMore.utf8_ascii _ Ha). apply stake_all.
Qed.
Lemma script_path T c x p t : ow_script T c x p t -> startswith "/" p = true.
Proof. intros []; reflexivity. Qed.
Lemma relative_member p q : relative_of p q <-> q = member_path p.
Proof.
  split; [|intros ->; apply relative_of_member]. unfold member_path. intros [->|[-> H]].
  - reflexivity.
  - destruct (startswith "/" p) eqn:E; [|reflexivity]. apply startswith_true in E as [r E]. exfalso. apply (H r). exact E.
Qed.
Lemma member_path_inj p q : startswith "/" p = true -> startswith "/" q = true -> member_path p = member_path q -> p = q.
Proof.
  unfold member_path. intros Hp Hq. rewrite Hp, Hq. apply startswith_true in Hp as [a ->]. apply startswith_true in Hq as [b ->].
  cbn. intros ->. reflexivity.
Qed.
Lemma script_not_uci T c x p t n : ow_script T c x p t -> member_path p <> "uci/" +++ n +++ ".conf".
Proof. intros Hs E. destruct Hs; discriminate. Qed.

Section Generate.
  Variables (oid : oracle) (B : backend) (T : ow_texts) (s s1 s' : state) (text : string) (old : list val) (tar : archive).
  Hypothesis Hr : ow_render oid B false s = (s1, Ok text).
  Hypothesis Hf : get_files (st_config s1) = Ok old.
  Hypothesis Hg : ow_generate oid B T s = (s', Ok tar).
  Lemma parts : exists pk items x new,
    ow_packages text [] = Ok pk /\ all_scripts T (st_config s1) = Ok items /\
    install_context (st_config s1) = Ok x /\
    (forall it, In it items <-> exists p t, ow_script T (st_config s1) x p t /\ it = script_file p t) /\
    st_config s' = dset "files" (VList (old ++ new)) (st_config s1) /\ st_inter s' = st_inter s1 /\
    NoDup new /\ incl new items /\ (forall it, In it items -> py_in it (old ++ new) = true) /\
    exists ms1 ms2, tar = (pk ++ ms1 ++ ms2)%list /\ Forall2 file_mem0 old ms1 /\ Forall2 file_mem0 new ms2.
  Proof.
    destruct (generate_parts oid B T s s' tar Hg) as (s1' & text' & pk & items & old' & new & E1 & E2 & E3 & E4 & E5 & E6 & E7 & E8 & E9 & E10).
    rewrite Hr in E1. injection E1 as <- <-. rewrite Hf in E4. injection E4 as <-.
    destruct (all_scripts_spec T _ _ E3) as (x & Hx & Hs). exists pk, items, x, new. repeat split; auto; try apply Hs.
    apply process_files_spec in E10 as (fs & ms & Hfs & HF & ->). rewrite E5, get_files_dset in Hfs. injection Hfs as <-.
    apply Forall2_app_inv_l in HF as (ms1 & ms2 & H1 & H2 & ->). exists ms1, ms2. auto.
  Qed.
  Theorem generate_scripts : wf (VDict (st_config s1)) -> exists x new, context_of (st_config s1) x /\
    get_files (st_config s') = Ok (old ++ new)%list /\
    (forall k, k <> "files" -> dget k (st_config s') = dget k (st_config s1)) /\
    NoDup new /\ (forall f, In f new -> exists p t, ow_script T (st_config s1) x p t /\ f = script_file p t) /\
    (forall p t, ow_script T (st_config s1) x p t -> exists m, In m tar /\ script_member p t m).
  Proof.
    intros Hw. destruct parts as (pk & items & x & new & _ & _ & Hx & Hs & Ec & _ & Hnd & Hi & Hall & ms1 & ms2 & -> & F1 & F2).
    exists x, new. split; [apply context_spec; exact Hx|]. split; [rewrite Ec; apply get_files_dset|].
    split; [intros k Hk; rewrite Ec; apply dget_dset_other; exact Hk|]. split; [exact Hnd|].
    split; [intros f Hin; apply Hs, Hi, Hin|]. intros p t Hpt.
    assert (Hit : In (script_file p t) items) by (apply Hs; eauto). specialize (Hall _ Hit).
    unfold py_in in Hall. apply existsb_exists in Hall as (f & Hin & He).
    apply in_app_iff in Hin as [Hin|Hin].
    - destruct (Forall2_In_l _ _ _ _ F1 Hin) as (m & Hm & Hfm). exists m. split; [apply in_app_iff; right; apply in_app_iff; left; exact Hm|].
      apply (equal_script f); [|exact He|exact Hfm].
      unfold get_files in Hf. destruct (dget "files" (st_config s1)) as [v|] eqn:Ev; [|injection Hf as <-; destruct Hin].
      apply as_list_Ok in Hf. subst v. apply wf_dict in Hw as [_ Hw]. apply dget_In in Ev. specialize (Hw _ _ Ev).
      rewrite wf_list in Hw. exact (Hw f Hin).
    - destruct (Forall2_In_l _ _ _ _ F2 Hin) as (m & Hm & Hfm). exists m. split; [apply in_app_iff; right; apply in_app_iff; right; exact Hm|].
      apply (equal_script f); [|exact He|exact Hfm]. destruct (proj1 (Hs f) (Hi f Hin)) as (p' & t' & _ & ->).
      cbn. repeat split; repeat constructor; cbn; intuition discriminate.
  Qed.
  Lemma old_names ms1 m : Forall2 file_mem0 old ms1 -> In m ms1 -> exists f q, In f old /\ file_path f q /\ relative_of q (m_name m).
  Proof.
    intros F Hm. destruct (Forall2_In_r _ _ _ _ F Hm) as (f & Hin & d & q & c & mode & n & -> & Hq & _ & _ & _ & ->).
    exists (VDict d), q. split; [exact Hin|]. split; [exists d; auto|apply relative_of_member].
  Qed.
  Lemma pk_names pk m p t x c : ow_packages text [] = Ok pk -> In m pk -> ow_script T c x p t -> ~ relative_of p (m_name m).
  Proof.
    intros Hp Hm Hs Hrel. destruct (ow_packages_names text [] pk m Hp Hm) as [[]|(n & En)].
    apply relative_member in Hrel. rewrite En in Hrel. symmetry in Hrel. exact (script_not_uci T c x p t n Hs Hrel).
  Qed.
  (** The members of the new scripts with the path of a given one *)
  Lemma new_split x new ms2 p t : Forall2 file_mem0 new ms2 -> NoDup new ->
    (forall f, In f new -> exists p t, ow_script T (st_config s1) x p t /\ f = script_file p t) ->
    ow_script T (st_config s1) x p t -> (forall t', ow_script T (st_config s1) x p t' -> t' = t) ->
    In (script_file p t) new ->
    exists a m b, ms2 = (a ++ m :: b)%list /\ script_member p t m /\ forall m', In m' (a ++ b) -> ~ relative_of p (m_name m').
  Proof.
    intros F Hnd Hn Hpt Hfun Hin. apply in_split in Hin as (n1 & n2 & ->).
    apply Forall2_app_inv_l in F as (a & mb & F1 & F2 & ->). inversion F2 as [|? m ? b Hm F3]; subst. exists a, m, b.
    split; [reflexivity|]. split; [apply script_member_of; exact Hm|]. intros m' Hm' Hrel.
    assert (exists f, In f (n1 ++ n2) /\ file_mem0 f m') as (f & Hfin & Hfm).
    { apply in_app_iff in Hm' as [Hm'|Hm']; [destruct (Forall2_In_r _ _ _ _ F1 Hm') as (f & ? & ?)|destruct (Forall2_In_r _ _ _ _ F3 Hm') as (f & ? & ?)];
        exists f; (split; [apply in_app_iff; tauto|assumption]). }
    destruct (Hn f) as (p' & t' & Hs' & ->); [apply in_app_iff in Hfin; apply in_app_iff; cbn; tauto|].
    apply member_of_script in Hfm as ->. cbn [m_name] in Hrel. apply relative_member in Hrel.
    apply member_path_inj in Hrel; [|eapply script_path; eauto|eapply script_path; eauto]. subst p'.
    rewrite (Hfun t' Hs') in Hfin. apply NoDup_remove_2 in Hnd. contradiction.
  Qed.
  Theorem script_once x p t : install_context (st_config s1) = Ok x ->
    ow_script T (st_config s1) x p t -> (forall t', ow_script T (st_config s1) x p t' -> t' = t) ->
    (forall f q r, In f old -> file_path f q -> relative_of q r -> ~ relative_of p r) ->
    exists a m b, tar = (a ++ m :: b)%list /\ script_member p t m /\ forall m', In m' (a ++ b) -> ~ relative_of p (m_name m').
  Proof.
    intros Hx Hpt Hfun Hno. destruct parts as (pk & items & x' & new & Hp & _ & Hx' & Hs & Ec & _ & Hnd & Hi & Hall & ms1 & ms2 & -> & F1 & F2).
    rewrite Hx in Hx'. injection Hx' as <-.
    assert (Hin : In (script_file p t) new).
    { assert (Hit : In (script_file p t) items) by (apply Hs; eauto). specialize (Hall _ Hit). unfold py_in in Hall. apply existsb_exists in Hall as (f & Hin & He).
      apply in_app_iff in Hin as [Hin|Hin].
      - exfalso. destruct f as [| | | | | |d]; try discriminate. 
        destruct (Forall2_In_l _ _ _ _ F1 Hin) as (m & Hm & d' & q & c & mode & n & E & Hq & _). injection E as <-.
        apply py_eq_dict_inv in He as [_ Hk]. pose proof Hq as Hq'. apply dget_In in Hq'. destruct (Hk _ _ Hq') as (w & Ew & He). cbn in Ew. injection Ew as <-.
        cbn in He. apply String.eqb_eq in He. subst q. apply (Hno (VDict d) p (member_path p) Hin); [exists d; auto|apply relative_of_member|apply relative_of_member].
      - destruct (proj1 (Hs f) (Hi f Hin)) as (p' & t' & _ & ->). cbn in He. rewrite !andb_true_iff in He. destruct He as (E1 & E2 & _).
        apply String.eqb_eq in E1. apply String.eqb_eq in E2. subst. exact Hin. }
    destruct (new_split x new ms2 p t F2 Hnd (fun f H => proj1 (Hs f) (Hi f H)) Hpt Hfun Hin) as (a & m & b & -> & Hm & Hothers).
    exists (pk ++ ms1 ++ a)%list, m, b. split; [rewrite <- !app_assoc; reflexivity|]. split; [exact Hm|]. intros m' Hm'.
    rewrite !in_app_iff in Hm'. destruct Hm' as [[Hm'|[Hm'|Hm']]|Hm'].
    - eapply pk_names; eauto.
    - destruct (old_names ms1 m' F1 Hm') as (f & q & Hfin & Hfq & Hrel). apply (Hno f q _ Hfin Hfq Hrel).
    - apply Hothers. apply in_app_iff. tauto.
    - apply Hothers. apply in_app_iff. tauto.
  Qed.
  Theorem user_script_shadowed x p t f q r : install_context (st_config s1) = Ok x ->
    ow_script T (st_config s1) x p t -> (forall t', ow_script T (st_config s1) x p t' -> t' = t) ->
    In f old -> file_path f q -> relative_of q r -> relative_of p r -> py_in (script_file p t) old = false ->
    exists a m1 b m2 c, tar = (a ++ m1 :: b ++ m2 :: c)%list /\ m_name m1 = r /\ m_name m2 = r /\ script_member p t m2 /\
      file_mem0 f m1 /\ forall m', In m' c -> m_name m' <> r.
  Proof.
    intros Hx Hpt Hfun Hfin Hq Hqr Hpr Hno. destruct parts as (pk & items & x' & new & Hp & _ & Hx' & Hs & Ec & _ & Hnd & Hi & Hall & ms1 & ms2 & -> & F1 & F2).
    rewrite Hx in Hx'. injection Hx' as <-.
    assert (Hin : In (script_file p t) new).
    { assert (Hit : In (script_file p t) items) by (apply Hs; eauto). specialize (Hall _ Hit). unfold py_in in *. rewrite existsb_app, Hno in Hall. cbn [orb] in Hall.
      apply existsb_exists in Hall as (g & Hin & He). destruct (proj1 (Hs g) (Hi g Hin)) as (p' & t' & _ & ->). cbn in He. rewrite !andb_true_iff in He. destruct He as (E1 & E2 & _).
      apply String.eqb_eq in E1. apply String.eqb_eq in E2. subst. exact Hin. }
    destruct (new_split x new ms2 p t F2 Hnd (fun f H => proj1 (Hs f) (Hi f H)) Hpt Hfun Hin) as (a & m & b & -> & Hm & Hothers).
    apply in_split in Hfin as (o1 & o2 & ->). apply Forall2_app_inv_l in F1 as (k1 & k2 & G1 & G2 & ->). inversion G2 as [|? m1 ? k3 Hm1 G3]; subst.
    exists (pk ++ k1)%list, m1, (k3 ++ a)%list, m, b. split; [rewrite <- !app_assoc; cbn [app]; rewrite <- ?app_assoc; reflexivity|].
    apply relative_member in Hqr. apply relative_member in Hpr. destruct Hq as (d & -> & Hd).
    split.
    { destruct Hm1 as (d' & q' & c & mode & n & E & Hq' & _ & _ & _ & ->). injection E as <-. rewrite Hd in Hq'. injection Hq' as <-. cbn [m_name]. congruence. }
    split; [destruct Hm as [Hm _]; apply relative_member in Hm; congruence|]. split; [exact Hm|]. split; [exact Hm1|].
    intros m' Hm' E. apply (Hothers m'); [apply in_app_iff; tauto|]. apply relative_member. congruence.
  Qed.
  Theorem archive_unread : (forall f q r, In f old -> file_path f q -> relative_of q r -> startswith "etc/config/" r = false) ->
    parse_tar tar = Ok [].
  Proof.
    intros Hno. destruct parts as (pk & items & x & new & Hp & _ & Hx & Hs & Ec & _ & Hnd & Hi & Hall & ms1 & ms2 & -> & F1 & F2).
    unfold parse_tar. assert (E : forall l, (forall m, In m l -> startswith config_path (m_name m) = false) -> tar_text l = Ok EmptyString).
    { unfold tar_text. generalize EmptyString. intros e l. induction l as [|m l IH]; intros H; [reflexivity|]. cbn [foldM].
      rewrite (H m (or_introl eq_refl)). cbn [bind]. apply IH. intros m' Hm'. apply H. right. exact Hm'. }
    rewrite E; [reflexivity|]. intros m Hm. rewrite !in_app_iff in Hm. destruct Hm as [Hm|[Hm|Hm]].
    - destruct (ow_packages_names text [] pk m Hp Hm) as [[]|(n & ->)]. reflexivity.
    - destruct (old_names ms1 m F1 Hm) as (f & q & Hfin & Hfq & Hrel). exact (Hno f q _ Hfin Hfq Hrel).
    - destruct (Forall2_In_r _ _ _ _ F2 Hm) as (f & Hfin & Hfm). destruct (proj1 (Hs f) (Hi f Hfin)) as (p & t & Hpt & ->).
      apply member_of_script in Hfm as ->. cbn [m_name]. destruct Hpt; reflexivity.
  Qed.
End Generate.
