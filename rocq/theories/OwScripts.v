(** * OwScripts: radios and scripts of the OpenWISP 1.x backend (proofs only) *)
From Verif Require Import PyBase PyLemmas StrLemmas Files Uci SpecUci SpecUciMore FilesProofs.
From Verif Require Import Merge Backend Conv OpenWrt OpenWisp SpecFiles SpecOpenWisp UciMore VpnProofs.

(** ** Radios *)
Lemma as_list_Ok v l : as_list v = Ok l <-> v = VList l.
Proof. destruct v; simpl; split; intros H; inversion H; reflexivity. Qed.
Lemma sanitize_radio_spec r r' : sanitize_radio r = Ok r' -> radio_completed r r'.
Proof.
  unfold sanitize_radio. intros H. apply bind_Ok in H as (d & Hd & H). apply as_dict_Ok in Hd. subst r. injection H as <-.
  eexists d, _. split; [reflexivity|]. split; [reflexivity|]. unfold dmem. destruct (dget "disabled" d) as [v|] eqn:E.
  - split; [reflexivity|exact E].
  - split; [intros k Hk; apply dget_dset_other; exact Hk|apply dget_dset_same].
Qed.
Lemma sanitize_radio_again r r' : sanitize_radio r = Ok r' -> sanitize_radio r' = Ok r'.
Proof.
  unfold sanitize_radio. intros H. apply bind_Ok in H as (d & Hd & H). apply as_dict_Ok in Hd. subst r. injection H as <-. cbn [as_dict bind].
  destruct (dmem "disabled" d) eqn:E; [rewrite E; reflexivity|]. unfold dmem. rewrite dget_dset_same. reflexivity.
Qed.
Lemma sanitize_spec c c' : sanitize_radios c = Ok c' -> radios_completed c c'.
Proof.
  unfold sanitize_radios, radios_completed. destruct (dget "radios" c) as [v|] eqn:E.
  - intros H. apply bind_Ok in H as (l & Hl & H). apply as_list_Ok in Hl. subst v. apply bind_Ok in H as (l' & Hl' & H). injection H as <-.
    split; [intros k Hk; apply dget_dset_other; exact Hk|]. exists l, l'. split; [reflexivity|]. split; [apply dget_dset_same|].
    apply mapM_Ok in Hl'. eapply Forall2_impl; [|exact Hl']. intros a b. apply sanitize_radio_spec.
  - intros H. injection H as <-. split; [reflexivity|exact E].
Qed.
Lemma sanitize_again c c' : sanitize_radios c = Ok c' -> sanitize_radios c' = Ok c'.
Proof.
  unfold sanitize_radios. destruct (dget "radios" c) as [v|] eqn:E.
  - intros H. apply bind_Ok in H as (l & Hl & H). apply bind_Ok in H as (l' & Hl' & H). injection H as <-. rewrite dget_dset_same. cbn [as_list bind].
    assert (mapM sanitize_radio l' = Ok l') as ->.
    { apply mapM_Ok. apply mapM_Ok in Hl'. clear -Hl'. induction Hl'; constructor; auto. eapply sanitize_radio_again; eauto. }
    cbn [bind]. rewrite dset_again. reflexivity.
  - intros H. injection H as <-. rewrite E. reflexivity.
Qed.

(** ** Base names *)
Lemma base_name_last p n : base_name p n <-> last (split_char "/" p) EmptyString = n.
Proof.
  assert (A : forall n, contains "/" n = false -> split_char "/" n = [n]).
  { intros m Hm. apply split_char_none. clear -Hm. induction m as [|c m IH]; [reflexivity|]. cbn [contains startswith sexists] in *.
    apply orb_false_iff in Hm as [H1 H2]. rewrite IH by exact H2. rewrite andb_true_r in H1. rewrite H1. reflexivity. }
  split.
  - intros [H [->|(dir & ->)]].
    + rewrite A by exact H. reflexivity.
    + change ("/" +++ n) with (String "/" n). induction dir as [|c dir IH].
      * cbn [String.append split_char]. change (Ascii.eqb "/" "/") with true. cbv iota. rewrite A by exact H. reflexivity.
      * cbn [String.append split_char]. destruct (Ascii.eqb c "/").
        -- pose proof (split_char_nonempty "/" (dir +++ String "/" n)) as Hn. destruct (split_char "/" (dir +++ String "/" n)) as [|h t]; [congruence|]. exact IH.
        -- pose proof (split_char_nonempty "/" (dir +++ String "/" n)) as Hn. destruct (split_char "/" (dir +++ String "/" n)) as [|h t] eqn:E; [congruence|].
           destruct t as [|h2 t]; [|exact IH]. exfalso.
           pose proof (split_char_join "/" (dir +++ String "/" n)) as J. rewrite E in J. cbn [join] in J.
           pose proof (split_char_nosep "/" (dir +++ String "/" n) h) as Hs. rewrite E in Hs. specialize (Hs (or_introl eq_refl)).
           rewrite J in Hs. clear -Hs. induction dir as [|x dir IH]; [discriminate|]. cbn [String.append sexists] in Hs. apply orb_false_iff in Hs as [_ Hs]. auto.
  - intros <-. induction p as [|c p IH]; [split; [reflexivity|left; reflexivity]|].
    cbn [split_char]. pose proof (split_char_nonempty "/" p) as Hn.
    destruct (Ascii.eqb_spec c "/") as [->|Hc].
    + destruct (split_char "/" p) as [|h t] eqn:E; [congruence|]. change (last ("" :: h :: t) "") with (last (h :: t) "").
      destruct IH as [I1 I2]. split; [exact I1|]. right. destruct I2 as [I2|(dir & I2)].
      * exists EmptyString. rewrite I2 at 1. reflexivity.
      * exists (String "/" dir). rewrite I2 at 1. reflexivity.
    + destruct (split_char "/" p) as [|h t] eqn:E; [congruence|]. destruct t as [|h2 t].
      * pose proof (split_char_join "/" p) as J. rewrite E in J. cbn [join] in J. subst h. cbn [last] in *. destruct IH as [I1 _].
        split; [|left; reflexivity]. cbn [contains startswith]. rewrite andb_true_r. apply orb_false_iff. split; [|exact I1].
        apply Ascii.eqb_neq. congruence.
      * change (last (String c h :: h2 :: t) "") with (last (h2 :: t) ""). change (last (h :: h2 :: t) "") with (last (h2 :: t) "") in IH.
        destruct IH as [I1 I2]. split; [exact I1|]. right. destruct I2 as [I2|(dir & I2)].
        -- exfalso. pose proof (split_char_nosep "/" p) as Hs. rewrite E in Hs. rewrite I2 in E. rewrite A in E by exact I1. discriminate.
        -- exists (String c dir). rewrite I2 at 1. reflexivity.
Qed.

(** ** Context *)
Lemma dicts_at_spec key c ds : dicts_at key c = Ok ds -> objects key c ds.
Proof.
  unfold dicts_at, list_at, objects. intros H. apply bind_Ok in H as (l & Hl & H). apply mapM_Ok in H.
  assert (E : l = map VDict ds).
  { clear Hl. induction H as [|x y l ds Hx _ IH]; [reflexivity|]. apply as_dict_Ok in Hx. subst. reflexivity. }
  destruct (dget key c) as [v|].
  - apply as_list_Ok in Hl. left. congruence.
  - injection Hl as <-. right. destruct ds; [auto|discriminate].
Qed.
Lemma py_eq_text v s : py_eq v (VStr s) = true <-> v = VStr s.
Proof.
  destruct v; cbn; split; intros H; try discriminate; try (apply String.eqb_eq in H; congruence).
  injection H as ->. apply String.eqb_refl.
Qed.
Lemma is_tap_text vpn : is_tap vpn = has_text "dev_type" "tap" vpn.
Proof.
  unfold is_tap, has_text, dgetN. destruct (dget "dev_type" vpn) as [v|]; [|reflexivity].
  destruct v; reflexivity.
Qed.
Lemma ow_bridge_spec i es : ow_bridge i = Ok es ->
  if has_text "type" "bridge" i then exists e, es = [e] /\ bridge_entry i e else es = [].
Proof.
  unfold ow_bridge, has_text. intros H. apply bind_Ok in H as (ty & Ht & H). apply dgetE_Ok in Ht. rewrite Ht.
  assert (Hty : py_eq ty (VStr "bridge") = match ty with VStr x => String.eqb x "bridge" | _ => false end) by (destruct ty; reflexivity).
  rewrite Hty in H. destruct (match ty with VStr x => String.eqb x "bridge" | _ => false end); cbn [negb] in H; [|injection H as <-; reflexivity].
  unfold bridge_entry, first_address. unfold dgetN in H at 1 2. destruct (dget "addresses" i) as [v|].
  - destruct (truthy v) eqn:Ev.
    + apply bind_Ok in H as (l & Hl & H). apply as_list_Ok in Hl. subst v. apply bind_Ok in H as (a & Ha & H). apply as_dict_Ok in Ha.
      destruct l as [|x l]; [discriminate|]. cbn [hd] in Ha. subst x. injection H as <-. eexists. split; [reflexivity|].
      unfold or_null, dgetN. split; [rewrite dget_dset_other by discriminate; apply dget_dset_same|]. split; [apply dget_dset_same|].
      intros k K1 K2. rewrite !dget_dset_other by assumption. reflexivity.
    + injection H as <-. eexists. split; [reflexivity|]. destruct v as [| | | | |[|[] l]|]; try reflexivity. discriminate.
  - cbn [truthy] in H. injection H as <-. eexists. split; reflexivity.
Qed.
Lemma has_cron_spec files b : has_cron files = Ok b ->
  (b = true <-> exists f p, In f files /\ file_path f p /\ cron_path p).
Proof.
  revert b; induction files as [|f files IH]; intros b H.
  - injection H as <-. split; [discriminate|]. intros (f & p & [] & _).
  - cbn [has_cron] in H. apply bind_Ok in H as (d & Hd & H). apply as_dict_Ok in Hd. subst f. apply bind_Ok in H as (pv & Hp & H). apply dgetE_Ok in Hp.
    apply bind_Ok in H as (p & Hs & H). apply as_str_Ok in Hs. subst pv.
    assert (C : (startswith "/crontabs" p || startswith "crontabs" p = true) <-> cron_path p).
    { rewrite orb_true_iff. unfold cron_path. rewrite !startswith_true. split; [intros [[r Hr]|[r Hr]]; eauto|intros (r & [Hr|Hr]); eauto]. }
    destruct (startswith "/crontabs" p || startswith "crontabs" p).
    + injection H as <-. split; [intros _|reflexivity]. exists (VDict d), p. split; [left; reflexivity|]. split; [exists d; auto|apply C; reflexivity].
    + rewrite (IH b H). split; intros (f & q & Hin & Hf & Hc).
      * exists f, q. split; [right; exact Hin|]. auto.
      * destruct Hin as [<-|Hin]; [|eauto]. destruct Hf as (d' & E & Hd'). injection E as <-. assert (q = p) as -> by congruence.
        apply C in Hc. discriminate.
Qed.
Lemma context_spec c x : install_context c = Ok x -> context_of c x.
Proof.
  unfold install_context. intros H. apply bind_Ok in H as (vpns & Hv & H). apply bind_Ok in H as (is & Hi & H).
  apply bind_Ok in H as (br & Hb & H). apply bind_Ok in H as (fs & Hf & H). apply bind_Ok in H as (cr & Hc & H).
  apply bind_Ok in H as (g & Hg & H). injection H as <-. unfold context_of. cbn [x_hostname x_l2vpn x_bridges x_cron x_radios].
  split.
  { destruct (dget "general" c) as [v|]; [apply as_dict_Ok in Hg; subst v; reflexivity|injection Hg as <-; reflexivity]. }
  split.
  { exists vpns. split; [apply dicts_at_spec; exact Hv|]. apply filter_ext. apply is_tap_text. }
  split.
  { exists is. split; [apply dicts_at_spec; exact Hi|]. apply mapM_Ok in Hb. clear Hi. induction Hb as [|i e is br He _ IH]; [constructor|].
    apply ow_bridge_spec in He. cbn [filter concat]. destruct (has_text "type" "bridge" i); [|subst e; exact IH].
    destruct He as (e1 & -> & He). cbn [app]. constructor; assumption. }
  split; [|reflexivity].
  rewrite (has_cron_spec fs cr Hc). unfold get_files in Hf. split.
  - intros (f & p & Hin & Hfp & Hcp). destruct (dget "files" c) as [v|]; [|injection Hf as <-; destruct Hin].
    apply as_list_Ok in Hf. subst v. exists fs, f, p. auto.
  - intros (fs' & f & p & E & Hin & Hfp & Hcp). rewrite E in Hf. injection Hf as <-. eauto.
Qed.

(** ** The list of scripts *)
Lemma script_name_text v n : script_name v = Ok n -> n <> EmptyString <-> (exists path, v = VStr path /\ base_name path n) /\ n <> EmptyString.
Proof.
  unfold script_name. split; [|tauto]. intros Hn. split; [|exact Hn]. destruct (truthy v) eqn:E.
  - apply bind_Ok in H as (s & Hs & H). apply as_str_Ok in Hs. subst v. injection H as H. exists s. split; [reflexivity|]. apply base_name_last. exact H.
  - injection H as <-. congruence.
Qed.
Lemma script_name_base path n : base_name path n -> n <> EmptyString -> script_name (VStr path) = Ok n.
Proof.
  intros H Hn. unfold script_name. assert (truthy (VStr path) = true) as ->.
  { destruct path; [|reflexivity]. destruct H as [_ [H|(dir & H)]]; [congruence|]. destruct dir; discriminate. }
  cbn [as_str bind]. apply base_name_last in H. rewrite H. reflexivity.
Qed.
Lemma vpn_scripts_spec T vpn items : vpn_scripts T vpn = Ok items -> forall it,
  In it items <-> exists k text path name, (k = "up" /\ text = t_up T \/ k = "down" /\ text = t_down T) /\
    dget k vpn = Some (VStr path) /\ base_name path name /\ name <> EmptyString /\ it = script ("/openvpn/" +++ name) text.
Proof.
  unfold vpn_scripts. intros H it. apply bind_Ok in H as (up & Hu & H). apply bind_Ok in H as (down & Hd & H). injection H as <-.
  assert (G : forall k n text, script_name (dgetN k vpn) = Ok n ->
    In it (if String.eqb n EmptyString then [] else [script ("/openvpn/" +++ n) text]) <->
    exists path name, dget k vpn = Some (VStr path) /\ base_name path name /\ name <> EmptyString /\ it = script ("/openvpn/" +++ name) text).
  { intros k n text Hk. split.
    - destruct (String.eqb_spec n EmptyString) as [->|Hn]; [intros []|]. intros [<-|[]].
      apply (script_name_text _ _ Hk) in Hn as [(path & E & Hb) Hn]. exists path, n. unfold dgetN in E. destruct (dget k vpn); [|discriminate].
      subst v. auto.
    - intros (path & name & E & Hb & Hn & ->). unfold dgetN in Hk. rewrite E in Hk. rewrite (script_name_base path name Hb Hn) in Hk.
      injection Hk as <-. rewrite eqb_neq by exact Hn. left. reflexivity. }
  rewrite in_app_iff, (G "up" up _ Hu), (G "down" down _ Hd). split.
  - intros [(path & name & H)|(path & name & H)]; [exists "up", (t_up T), path, name|exists "down", (t_down T), path, name]; tauto.
  - intros (k & text & path & name & [[-> ->]|[-> ->]] & H); [left|right]; exists path, name; exact H.
Qed.
Lemma Forall2_In_l {A B} (R : A -> B -> Prop) la lb a : Forall2 R la lb -> In a la -> exists b, In b lb /\ R a b.
Proof.
  intros H. induction H as [|x y la lb Hxy _ IH]; intros Hin; [destruct Hin|]. destruct Hin as [<-|Hin]; [exists y; split; [left; reflexivity|exact Hxy]|].
  destruct (IH Hin) as (l & H1 & H2). exists l. split; [right; exact H1|exact H2].
Qed.
Lemma all_scripts_spec T c items : all_scripts T c = Ok items ->
  exists x, install_context c = Ok x /\
    forall it, In it items <-> exists path text, ow_script T c x path text /\ it = script_file path text.
Proof.
  unfold all_scripts. intros H. apply bind_Ok in H as (x & Hx & H). apply bind_Ok in H as (vs & Hv & H). apply bind_Ok in H as (tc & Htc & H).
  injection H as <-. exists x. split; [exact Hx|]. intros it.
  change (In it (([script "/install.sh" (t_install T x); script "/uninstall.sh" (t_uninstall T x)] ++ concat vs ++ [script "/tc_script.sh" tc])%list) <->
     exists path text, ow_script T c x path text /\ it = script_file path text).
  rewrite !in_app_iff, in_concat. apply mapM_Ok in Hv. split.
  - intros [[<-|[<-|[]]]|[(l & Hl & Hit)|[<-|[]]]].
    + exists "/install.sh", (t_install T x). split; [constructor|reflexivity].
    + exists "/uninstall.sh", (t_uninstall T x). split; [constructor|reflexivity].
    + destruct (Forall2_In_r _ _ _ _ Hv Hl) as (vpn & Hvpn & Hvs). destruct (proj1 (vpn_scripts_spec T vpn l Hvs it) Hit) as (k & text & path & name & Hk & Hg & Hb & Hn & ->).
      exists ("/openvpn/" +++ name), text. split; [|reflexivity]. destruct Hk as [[-> ->]|[-> ->]]; [eapply os_up|eapply os_down]; eauto.
    + exists "/tc_script.sh", tc. split; [constructor; exact Htc|reflexivity].
  - intros (pth & txt & Hs & ->). destruct Hs as [| |vpn path name Hin Hg Hb Hn|vpn path name Hin Hg Hb Hn|text Ht].
    + left; left; reflexivity.
    + left; right; left; reflexivity.
    + right; left. assert (exists l, In l vs /\ vpn_scripts T vpn = Ok l) as (l & Hl & Hvs).
      { destruct (Forall2_In_l _ _ _ _ Hv Hin) as (l & H1 & H2). eauto. }
      exists l. split; [exact Hl|]. apply (vpn_scripts_spec T vpn l Hvs). exists "up", (t_up T), path, name. repeat split; auto; apply Hb.
    + right; left. assert (exists l, In l vs /\ vpn_scripts T vpn = Ok l) as (l & Hl & Hvs).
      { destruct (Forall2_In_l _ _ _ _ Hv Hin) as (l & H1 & H2). eauto. }
      exists l. split; [exact Hl|]. apply (vpn_scripts_spec T vpn l Hvs). exists "down", (t_down T), path, name. repeat split; auto; apply Hb.
    + right; right; left. rewrite Htc in Ht. injection Ht as <-. reflexivity.
Qed.

(** ** Adding them *)
Lemma script_eq p t : py_eq (script p t) (script p t) = true.
Proof. apply py_eq_refl. cbn. repeat split; repeat constructor; cbn; intuition discriminate. Qed.
Lemma add_unique_all items : (forall it, In it items -> py_eq it it = true) -> forall old,
  exists new, fold_left add_unique items old = (old ++ new)%list /\ NoDup new /\ incl new items /\
    (forall it, In it new -> ~ In it old) /\
    forall it, In it items -> py_in it (old ++ new) = true.
Proof.
  intros Hr. induction items as [|it items IH]; intros old.
  - exists []. split; [cbn; rewrite app_nil_r; reflexivity|]. split; [constructor|]. split; [intros x []|]. split; [intros x []|intros x []].
  - cbn [fold_left]. unfold add_unique at 2. specialize (IH (fun y Hy => Hr y (or_intror Hy))). destruct (py_in it old) eqn:E.
    + destruct (IH old) as (new & E1 & Hnd & Hi & Hd & Hall). exists new. split; [exact E1|]. split; [exact Hnd|].
      split; [intros y Hy; right; apply Hi; exact Hy|]. split; [exact Hd|]. intros y [<-|Hy]; [|apply Hall; exact Hy].
      unfold py_in in *. rewrite existsb_app, E. reflexivity.
    + destruct (IH (old ++ [it])%list) as (new & E1 & Hnd & Hi & Hd & Hall). exists (it :: new).
      split; [rewrite E1, <- app_assoc; reflexivity|]. split.
      { constructor; [|exact Hnd]. intros Hin. apply (Hd it Hin). apply in_app_iff. right; left; reflexivity. }
      split; [intros y [<-|Hy]; [left; reflexivity|right; apply Hi; exact Hy]|]. split.
      { intros y [<-|Hy] Ho; [|apply (Hd y Hy); apply in_app_iff; left; exact Ho].
        assert (py_in it old = true); [|congruence]. unfold py_in. apply existsb_exists. exists it. split; [exact Ho|apply Hr; left; reflexivity]. }
      intros y [<-|Hy].
      * unfold py_in. apply existsb_exists. exists it. split; [apply in_app_iff; right; left; reflexivity|apply Hr; left; reflexivity].
      * specialize (Hall y Hy). rewrite <- app_assoc in Hall. exact Hall.
Qed.
Lemma add_unique_none items old : (forall it, In it items -> py_in it old = true) -> fold_left add_unique items old = old.
Proof.
  intros H. induction items as [|it items IH]; [reflexivity|]. cbn [fold_left]. unfold add_unique at 2. rewrite H by (left; reflexivity).
  apply IH. intros y Hy. apply H. right. exact Hy.
Qed.
