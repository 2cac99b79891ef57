(** * OwrtKeep: what a history of calls may change in the configuration of an
    OpenWrt backend object. *)
From Verif Require Import PyBase PyLemmas Merge Files SpecFiles FilesProofs Backend BackendProofs Conv
  Ip Timezones OwrtConv OpenVpnConv OwrtWireless OwrtInterfaces OpenWrt.

Section Keep.
  Variable R : dict -> dict -> Prop.
  Hypothesis R_refl : forall c, R c c.
  Hypothesis R_trans : forall a b c, R a b -> R b c -> R a c.
  Variable I : dict -> Prop.
  Hypothesis R_I : forall a b, I a -> R a b -> I b.
  Hypothesis R_dedup : forall c c', I c -> deduplicate_files c = Ok c' -> R c c'.

  Lemma convert_fwd_rel oid : forall cs, (forall c, In c cs -> forall cfg i, I cfg -> R cfg (fst (c_fwd c cfg i))) ->
    forall s i, I (st_config s) -> R (st_config s) (st_config (fst (convert_fwd oid cs s i))).
  Proof.
    induction cs as [|c t IH]; intros Hc s i Hi; cbn; [apply R_refl|].
    destruct (c_fwd_run c (st_config s)); cbn; [|apply IH; [intros; apply Hc; [right|]; assumption|assumption]].
    pose proof (Hc c (or_introl eq_refl) (st_config s) i Hi) as H1.
    destruct (c_fwd c (st_config s) i) as [cfg [v|e]]; cbn in *; [|assumption].
    assert (IH' : forall j, R (st_config s) (st_config (fst (convert_fwd oid t {| st_config := cfg; st_inter := Some i |} j)))).
    { intros j. eapply R_trans; [exact H1|]. refine (IH _ {| st_config := cfg; st_inter := Some i |} j _).
      - intros c' Hc'. apply Hc. right; assumption.
      - eapply R_I; eassumption. }
    destruct v; [apply IH'|]. destruct (merge_config _ _ _ _); [apply IH'|assumption].
  Qed.
  Lemma run_rel oid B : (forall c, In c (be_convs B) -> forall cfg i, I cfg -> R cfg (fst (c_fwd c cfg i))) ->
    forall h s, I (st_config s) -> R (st_config s) (st_config (fst (run oid B h s))).
  Proof.
    intros Hc.
    assert (Hr : forall f s, I (st_config s) -> R (st_config s) (st_config (fst (render oid B f s)))).
    { intros f s Hi. unfold render. destruct (be_validate B (st_config s)); cbn; [|apply R_refl].
      assert (H1 : R (st_config s) (st_config (fst (match st_inter s with None => to_intermediate oid B s | Some _ => (s, Ok tt) end)))).
      { destruct (st_inter s); cbn; [apply R_refl|]. unfold to_intermediate.
        destruct (be_validate B (st_config s)); cbn; [|apply R_refl]. apply convert_fwd_rel; assumption. }
      destruct (match st_inter s with None => _ | Some _ => _ end) as [s1 [u|e]]; cbn in *; [|assumption].
      destruct (deduplicate_files (st_config s1)) eqn:E; cbn; [|assumption].
      eapply R_trans; [eassumption|]. apply R_dedup; [|assumption]. eapply R_I; eassumption. }
    assert (Hs : forall c s, I (st_config s) -> R (st_config s) (st_config (fst (step oid B c s)))).
    { intros c s Hi. destruct c; cbn; try apply R_refl.
      - specialize (Hr files s Hi). destruct (render oid B files s); assumption.
      - unfold generate. specialize (Hr false s Hi). destruct (render oid B false s). assumption. }
    induction h as [|c t IH]; intros s Hi; cbn; [apply R_refl|].
    specialize (Hs c s Hi). destruct (step oid B c s) as [s1 a]. cbn in Hs.
    specialize (IH s1 (R_I _ _ Hi Hs)). destruct (run oid B t s1) as [s2 l]. cbn in *. eapply R_trans; eassumption.
  Qed.
End Keep.

(** ** Only the files change under the keys of the schema *)
Definition keeps (K : list string) (c c' : dict) : Prop := forall k, In k K -> dget k c' = dget k c.
Lemma keeps_refl K c : keeps K c c. Proof. intros k _. reflexivity. Qed.
Lemma keeps_trans K a b c : keeps K a b -> keeps K b c -> keeps K a c.
Proof. intros H1 H2 k Hk. rewrite (H2 k Hk). apply H1, Hk. Qed.

Lemma keeps_files K c v : ~ In "files" K -> keeps K c (dset "files" v c).
Proof. intros Hn k Hk. apply dget_dset_other. intros ->. contradiction. Qed.
Lemma keeps_dedup K c c' : ~ In "files" K -> deduplicate_files c = Ok c' -> keeps K c c'.
Proof.
  intros Hn H k Hk. destruct (deduplicate_spec _ _ H) as (Hs & _). apply Hs. intros ->. contradiction.
Qed.
Lemma append_file_keeps K f c c' : ~ In "files" K -> append_file f c = Ok c' -> keeps K c c'.
Proof.
  intros Hn. unfold append_file. destruct (dget "files" c) as [[]|]; try discriminate; intros E; injection E as <-;
    apply keeps_files; assumption.
Qed.
Lemma vpn_loop_keeps K section : ~ In "files" K -> forall l c r, keeps K c (fst (vpn_loop section l c r)).
Proof.
  intros Hn. induction l as [|b t IH]; intros c r; cbn; [apply keeps_refl|].
  destruct (do d <- as_dict b; section d) as [[s f]|]; cbn; [|apply keeps_refl].
  destruct f as [f|]; [|apply IH]. destruct (append_file f c) as [c1|] eqn:E; [|apply keeps_refl].
  eapply keeps_trans; [eapply append_file_keeps; eassumption|apply IH].
Qed.
Lemma vpn_fwd_keeps K section c : ~ In "files" K -> keeps K c (fst (vpn_fwd section c)).
Proof. intros Hn. unfold vpn_fwd. destruct (as_list _); [apply vpn_loop_keeps; assumption|apply keeps_refl]. Qed.
Lemma zt_loop_keeps K : ~ In "files" K -> forall l c r, keeps K c (fst (zt_loop l c r)).
Proof.
  intros Hn. induction l as [|b t IH]; intros c r; cbn [zt_loop]; [apply keeps_refl|].
  destruct (as_dict b); [|apply keeps_refl]. destruct (zt_files _ _); [|apply keeps_refl].
  destruct (zt_block _ _) as [[ss fs]|]; [|apply keeps_files; assumption].
  eapply keeps_trans; [apply keeps_files; assumption|apply IH].
Qed.
Lemma zt_fwd_keeps K c : ~ In "files" K -> keeps K c (fst (zt_fwd c)).
Proof. intros Hn. unfold zt_fwd. destruct (as_list _); [apply zt_loop_keeps; assumption|apply keeps_refl]. Qed.
Lemma custom_packages_keeps K ignore : (forall k, In k K -> In k ignore) ->
  forall c, keeps K c (fst (custom_packages ignore c)).
Proof.
  intros Hi. induction c as [|[k v] t IH]; cbn; [apply keeps_refl|].
  assert (Hother : forall r, keeps K ((k, v) :: t) (fst (let (t', r') := custom_packages ignore t in ((k, v) :: t', r r' : res dict)))).
  { intros r. destruct (custom_packages ignore t). cbn in *. intros q Hq. cbn. destruct (String.eqb q k); [reflexivity|apply IH, Hq]. }
  assert (Hsame : keeps K ((k, v) :: t) (fst (let (t', r) := custom_packages ignore t in ((k, v) :: t', r)))).
  { apply (Hother (fun r => r)). }
  destruct v; try exact Hsame.
  destruct (ignored ignore k) eqn:E; [exact Hsame|].
  assert (Hk : ~ In k K).
  { intros Hk. apply Hi in Hk. unfold ignored in E. rewrite <- not_true_iff_false in E. apply E.
    apply existsb_exists. exists k. rewrite eqb_refl. auto. }
  assert (Hd : forall q (w : val) (t0 : dict), In q K -> dget q ((k, w) :: t0) = dget q t0).
  { intros q w t0 Hq. cbn. destruct (String.eqb_spec q k); [subst; contradiction|reflexivity]. }
  destruct (custom_blocks l 1) as [l' [ss|e]].
  - destruct (custom_packages ignore t) as [t' r']. cbn [fst] in *.
    intros q Hq. rewrite !Hd by assumption. apply IH, Hq.
  - cbn [fst]. intros q Hq. rewrite !Hd by assumption. reflexivity.
Qed.
Lemma default_fwd_keeps K ignore c : (forall k, In k K -> In k ignore) -> keeps K c (fst (default_fwd ignore c)).
Proof.
  intros Hi. unfold default_fwd. pose proof (custom_packages_keeps K ignore Hi c).
  destruct (custom_packages ignore c). assumption.
Qed.

Definition settings_keys : list string := filter (fun k => negb (String.eqb k "files")) owrt_keys.
Lemma settings_keys_spec k : In k settings_keys <-> In k owrt_keys /\ k <> "files".
Proof.
  unfold settings_keys. rewrite filter_In. destruct (String.eqb_spec k "files") as [->|Hn]; cbn; intuition congruence.
Qed.
Lemma owrt_convs_keep oid dsa f1 f2 c : In c (owrt_convs oid dsa f1 f2) ->
  forall cfg i, keeps settings_keys cfg (fst (c_fwd c cfg i)).
Proof.
  assert (Hn : ~ In "files" settings_keys) by (rewrite settings_keys_spec; intuition).
  assert (Hi : forall k, In k settings_keys -> In k owrt_keys) by (intros k; rewrite settings_keys_spec; tauto).
  intros Hc cfg i. unfold owrt_convs in Hc. cbn [In] in Hc.
  repeat (destruct Hc as [<-|Hc]); try destruct Hc;
    try (cbn [c_fwd general ntp led interfaces routes rules switch radios wireless wireguard_peers simple_converter fst];
         exact (keeps_refl _ cfg)).
  - apply (vpn_fwd_keeps _ owrt_vpn_section cfg Hn).
  - apply (zt_fwd_keeps _ cfg Hn).
  - apply (default_fwd_keeps _ owrt_keys cfg Hi).
Qed.
Lemma owrt_history_keeps oid schema_ok dsa f1 f2 h s k :
  In k owrt_keys -> k <> "files" ->
  dget k (st_config (fst (run oid (openwrt oid schema_ok dsa f1 f2) h s))) = dget k (st_config s).
Proof.
  intros Hk Hf. apply (run_rel (keeps settings_keys) (keeps_refl _) (keeps_trans _) (fun _ => True)); auto.
  - intros c c' _. apply keeps_dedup. rewrite settings_keys_spec. intuition.
  - intros c Hc cfg i _. revert c Hc cfg i. apply owrt_convs_keep.
  - apply settings_keys_spec. auto.
Qed.

(** ** When nothing but duplicate files can change *)
(** No VPN settings, and no block of a custom package names a section type. *)
Definition no_side_effects (config : dict) : Prop :=
  dget "openvpn" config = None /\ dget "zerotier" config = None /\
  forall k l b, In (k, VList l) config -> ~ In k owrt_keys -> In (VDict b) l -> dget "config_name" b = None.
Lemma custom_blocks_plain : forall l i, (forall b, In (VDict b) l -> dget "config_name" b = None) ->
  fst (custom_blocks l i) = l.
Proof.
  induction l as [|v t IH]; intros i H; cbn; [reflexivity|].
  assert (IH' : forall j, fst (custom_blocks t j) = t) by (intros j; apply IH; intros b Hb; apply H; right; assumption).
  assert (Hv : fst (let (t', r') := custom_blocks t i in (v :: t', r')) = v :: t).
  { specialize (IH' i). destruct (custom_blocks t i); cbn in *; congruence. }
  destruct v; try exact Hv. rewrite (H _ (or_introl eq_refl)). exact Hv.
Qed.
Lemma custom_packages_plain K : forall c, (forall k l b, In (k, VList l) c -> ~ In k K -> In (VDict b) l -> dget "config_name" b = None) ->
  fst (custom_packages K c) = c.
Proof.
  induction c as [|[k v] t IH]; intros H; cbn; [reflexivity|].
  assert (IH' : fst (custom_packages K t) = t) by (apply IH; intros q l b Hin; apply (H q l b); right; assumption).
  assert (Hv : fst (let (t', r') := custom_packages K t in ((k, v) :: t', r')) = (k, v) :: t).
  { destruct (custom_packages K t); cbn in *; congruence. }
  destruct v; try exact Hv. destruct (ignored K k) eqn:E; [exact Hv|].
  assert (Hl : fst (custom_blocks l 1) = l).
  { apply custom_blocks_plain. intros b Hb. apply (H k l b); [left; reflexivity| |assumption].
    intros Hk. unfold ignored in E. rewrite <- not_true_iff_false in E. apply E. apply existsb_exists.
    exists k. rewrite eqb_refl. auto. }
  destruct (custom_blocks l 1) as [l' [ss|e]]; cbn in Hl; subst l'; [|reflexivity].
  destruct (custom_packages K t); cbn in *; congruence.
Qed.
Lemma no_side_effects_dedup c c' : no_side_effects c -> deduplicate_files c = Ok c' -> no_side_effects c'.
Proof.
  intros (H1 & H2 & H3) H. pose proof (deduplicate_spec _ _ H) as (Hk & _ & _).
  split; [|split].
  - rewrite Hk by discriminate. assumption.
  - rewrite Hk by discriminate. assumption.
  - intros k l b Hin Hn. clear Hk. unfold deduplicate_files in H. destruct (dget "files" c) as [v|].
    2:{ injection H as <-. apply (H3 k l b); assumption. }
    apply bind_Ok in H as (fl & _ & H). destruct fl; [injection H as <-; apply (H3 k l b); assumption|].
    apply bind_Ok in H as (m & _ & H). injection H as <-.
    apply dset_In in Hin as [[-> _]|Hin]; [|apply (H3 k l b); assumption].
    exfalso. apply Hn. cbn. tauto.
Qed.
Definition same_or_dedup (c c' : dict) : Prop := c' = c \/ deduplicate_files c = Ok c'.
(** The run switch of a converter matters here: rephrase the loop. *)
Lemma convert_fwd_same oid : forall cs, (forall c, In c cs -> forall cfg i, no_side_effects cfg -> c_fwd_run c cfg = true -> fst (c_fwd c cfg i) = cfg) ->
  forall s i, no_side_effects (st_config s) -> st_config (fst (convert_fwd oid cs s i)) = st_config s.
Proof.
  induction cs as [|c t IH]; intros Hc s i Hi; cbn; [reflexivity|].
  destruct (c_fwd_run c (st_config s)) eqn:Er; cbn; [|apply IH; [intros; apply Hc; [right|..]; assumption|assumption]].
  pose proof (Hc c (or_introl eq_refl) (st_config s) i Hi Er) as H1.
  destruct (c_fwd c (st_config s) i) as [cfg r]; cbn in *; subst cfg. destruct r as [v|e]; [|reflexivity].
  assert (IH' : forall j, st_config (fst (convert_fwd oid t {| st_config := st_config s; st_inter := Some i |} j)) = st_config s).
  { intros j. refine (IH _ {| st_config := st_config s; st_inter := Some i |} j _); [|assumption].
    intros c' Hc'. apply Hc. right; assumption. }
  destruct v; [apply IH'|]. destruct (merge_config _ _ _ _); [apply IH'|reflexivity].
Qed.
Lemma owrt_convs_same oid dsa f1 f2 c : In c (owrt_convs oid dsa f1 f2) -> forall cfg i, no_side_effects cfg ->
  c_fwd_run c cfg = true -> fst (c_fwd c cfg i) = cfg.
Proof.
  intros Hc cfg i (H1 & H2 & H3) Hr. unfold owrt_convs in Hc. cbn [In] in Hc.
  repeat (destruct Hc as [<-|Hc]); try destruct Hc;
    try (cbn [c_fwd general ntp led interfaces routes rules switch radios wireless wireguard_peers simple_converter fst]; reflexivity).
  - cbn in Hr. unfold dmem in Hr. rewrite H1 in Hr. discriminate.
  - cbn in Hr. unfold dmem in Hr. rewrite H2 in Hr. discriminate.
  - cbn. unfold default_fwd. pose proof (custom_packages_plain _ cfg H3).
    destruct (custom_packages owrt_keys cfg). assumption.
Qed.
Lemma owrt_history_same oid schema_ok dsa f1 f2 : forall h s, no_side_effects (st_config s) ->
  same_or_dedup (st_config s) (st_config (fst (run oid (openwrt oid schema_ok dsa f1 f2) h s))).
Proof.
  set (B := openwrt oid schema_ok dsa f1 f2).
  assert (Htr : forall a b c, same_or_dedup a b -> same_or_dedup b c -> same_or_dedup a c).
  { intros a b c [->|H1] H2; [assumption|]. destruct H2 as [->|H2]; [right; assumption|].
    rewrite (deduplicate_idem _ _ H1) in H2. injection H2 as <-. right. assumption. }
  assert (Hpres : forall a b, no_side_effects a -> same_or_dedup a b -> no_side_effects b).
  { intros a b Ha [->|H]; [assumption|]. eapply no_side_effects_dedup; eassumption. }
  assert (Hr : forall f s, no_side_effects (st_config s) -> same_or_dedup (st_config s) (st_config (fst (render oid B f s)))).
  { intros f s Hi. unfold render. destruct (be_validate B (st_config s)); cbn [fst]; [|left; reflexivity].
    assert (H1 : st_config (fst (match st_inter s with None => to_intermediate oid B s | Some _ => (s, Ok tt) end)) = st_config s).
    { destruct (st_inter s); cbn [fst]; [reflexivity|]. unfold to_intermediate.
      destruct (be_validate B (st_config s)); cbn [fst]; [|reflexivity].
      apply (convert_fwd_same oid _ (owrt_convs_same oid dsa f1 f2)). assumption. }
    destruct (match st_inter s with None => _ | Some _ => _ end) as [s1 [u|e]]; cbn [fst st_config] in *; [|left; assumption].
    destruct (deduplicate_files (st_config s1)) eqn:E; cbn [fst st_config]; [|left; assumption].
    right. rewrite <- H1. assumption. }
  assert (Hs : forall c s, no_side_effects (st_config s) -> same_or_dedup (st_config s) (st_config (fst (step oid B c s)))).
  { intros c s Hi. destruct c; cbn [step]; try (left; reflexivity).
    - specialize (Hr files s Hi). destruct (render oid B files s); assumption.
    - unfold generate. specialize (Hr false s Hi). destruct (render oid B false s). assumption. }
  induction h as [|c t IH]; intros s Hi; cbn; [left; reflexivity|].
  specialize (Hs c s Hi). destruct (step oid B c s) as [s1 a]. cbn in Hs.
  specialize (IH s1 (Hpres _ _ Hi Hs)). destruct (run oid B t s1) as [s2 l]. cbn in *. eapply Htr; eassumption.
Qed.

(** ** Validation *)
(** Every primary VLAN choice is unique per bridge: what [check_vlans] decides. *)
Lemma check_ports_ok : forall l seen r, check_ports l seen = Ok r -> exists fs, r = (seen ++ fs)%list /\
  forall f, In f fs -> exists p, In (VDict p) l /\ dget "ifname" p = Some f /\ truthy (dgetN "primary_vid" p) = true.
Proof.
  induction l as [|v t IH]; intros seen r H; cbn in H.
  - injection H as <-. exists []. rewrite app_nil_r. split; [reflexivity|intros f []].
  - apply bind_Ok in H as (p & Hp & H). destruct v; try discriminate. injection Hp as ->.
    destruct (truthy (dgetN "primary_vid" p)) eqn:Et.
    + apply bind_Ok in H as (f & Hf & H). destruct (py_in f seen); [discriminate|].
      apply IH in H as (fs & -> & Hfs). exists (f :: fs). rewrite <- app_assoc. split; [reflexivity|].
      intros g [<-|Hg].
      * exists p. split; [left; reflexivity|]. split; [|assumption].
        unfold dgetE in Hf. destruct (dget "ifname" p); [injection Hf as ->; reflexivity|discriminate].
      * destruct (Hfs g Hg) as (q & Hq & ?). exists q. split; [right|]; assumption.
    + apply IH in H as (fs & -> & Hfs). exists fs. split; [reflexivity|].
      intros g Hg. destruct (Hfs g Hg) as (q & Hq & ?). exists q. split; [right|]; assumption.
Qed.
