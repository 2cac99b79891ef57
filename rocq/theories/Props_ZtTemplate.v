(** * Properties: ZeroTier VPNs of OpenWrt templates. *)
From Verif Require Import PyBase PyLemmas Files SpecFiles FilesProofs Backend Conv Timezones OwrtConv OpenVpnConv OpenWrt SpecUci SpecConv SpecDevice SpecShapes SpecTrip SpecWhole SpecZeroTier StrLemmas
  UciRoundTrip ConvLemmas RtSystem RtObjects DeviceApi RtZeroTier RtZtFiles.

Lemma groups_shown l sss : Forall2 group l sss -> aligned (fun _ => zt_shown) l sss.
Proof.
  intros H. apply Forall2_aligned. induction H as [|v ss l sss (s & ns & E & (Hs & _) & Hns) H IH]; [constructor|]. constructor; [|exact IH].
  exists s, ns. split; [exact E|]. split; [exact Hs|]. apply Forall2_aligned. clear -Hns. induction Hns as [|n s l ns (Hn & _) H IH]; constructor; assumption.
Qed.
Lemma read_back config v l v' vs more : objects "zerotier" config = v :: l -> Forall2 with_options (flat_map zt_networks (v :: l)) more ->
  settings_back v v' (map only_joined (zt_networks v) ++ more) -> Forall2 plain_vpn l vs -> aligned (zt_read_back config) (v :: l) (v' :: vs).
Proof.
  intros E Fm Sv Fv. split; [cbn; f_equal; eapply Forall2_length, Fv|]. intros j a b Ha Hb. destruct j as [|j].
  - injection Ha as <-. injection Hb as <-. exists more. cbn [Nat.eqb]. rewrite E. split; [apply Forall2_aligned, Fm|exact Sv].
  - cbn [nth_error] in Ha, Hb. destruct (Forall2_aligned _ _ _ _ _ Fv) as [_ G]. specialize (G j a b Ha Hb).
    exists []. cbn [Nat.eqb]. split; [apply Forall2_aligned; constructor|]. rewrite app_nil_r. exact G.
Qed.

(** C55: each VPN of a template is shown by a section that joins its networks, then
    by one section for each network; parsing gives the VPNs back with their
    settings, their networks without options, and those with options all in the
    first VPN. *)
Theorem C55_zerotier_template : forall oid schema_ok dsa f1 f2 config, let B := openwrt oid schema_ok dsa f1 f2 in
  zt_template config -> owrt_validate schema_ok config = Ok tt ->
  exists text inter config',
  renders oid B config text inter /\ dkeys inter = ["zerotier"] /\
  (exists sss, sections "zerotier" ["zerotier"; "network"] inter = concat sss /\ aligned (fun _ => zt_shown) (objects "zerotier" config) sss) /\
  parses oid B text config' /\ dkeys config' = ["zerotier"] /\
  aligned (zt_read_back config) (objects "zerotier" config) (objects "zerotier" config').
Proof.
  intros oid schema_ok dsa f1 f2 config B tpl V.
  destruct (zt_template_api oid schema_ok dsa f1 f2 config tpl V) as (text & inter & inter' & v & l & sss & v' & vs & more & E & Hr & Hs & Hg & Hk & Hp & Fm & Sv & Fv).
  exists text, inter, [("zerotier", VList (map VDict (v' :: vs)))]. split; [exact Hr|]. split; [exact Hk|]. split.
  - exists sss. split; [exact Hs|]. rewrite E. apply groups_shown, Hg.
  - split; [intros before; eexists; split; [apply Hp|reflexivity]|]. split; [reflexivity|].
    rewrite (objects_list "zerotier" [("zerotier", VList (map VDict (v' :: vs)))] (v' :: vs) eq_refl), E. eapply read_back; eassumption.
Qed.

(** So the VPNs of a template never come back as they were: the first one has its
    networks more than once. *)
Theorem C55_never_kept : forall oid schema_ok dsa f1 f2 config, let B := openwrt oid schema_ok dsa f1 f2 in
  zt_template config -> owrt_validate schema_ok config = Ok tt ->
  exists text inter config',
  renders oid B config text inter /\ parses oid B text config' /\ ~ kept "zerotier" config config'.
Proof.
  intros oid schema_ok dsa f1 f2 config B tpl V.
  destruct (zt_template_api oid schema_ok dsa f1 f2 config tpl V) as (text & inter & inter' & v & l & sss & v' & vs & more & E & Hr & Hs & Hg & Hk & Hp & Fm & Sv & Fv).
  exists text, inter, [("zerotier", VList (map VDict (v' :: vs)))]. split; [exact Hr|]. split; [intros before; eexists; split; [apply Hp|reflexivity]|].
  destruct tpl as (_ & (l0 & Hl & _ & Hvs) & _). rewrite (objects_list _ _ _ Hl) in E. subst l0. intros K. unfold kept in K. rewrite Hl in K. destruct K as (w & Ew & K).
  cbn [dget] in Ew. rewrite eqb_refl in Ew. injection Ew as <-. destruct (same_list_inv _ _ K) as (l' & El & F). injection El as <-. inversion F as [|? ? ? ? Hv _]; subst. clear F K.
  destruct (Hvs v (or_introl eq_refl)) as (_ & _ & (nets & Hnets & Hne & _) & _).
  destruct (same_dict_inv _ _ Hv) as (d & Ed & H1 & _). injection Ed as <-. destruct (H1 _ _ Hnets) as (x & Hx & Sx).
  rewrite (Sv "networks") in Hx. cbn [dget] in Hx. change (Some (VList (map VDict (map only_joined (zt_networks v) ++ more))) = Some x) in Hx. injection Hx as <-.
  destruct (same_list_inv _ _ Sx) as (l' & El & F). injection El as <-. apply Forall2_length in F. apply Forall2_length in Fm. cbn [flat_map] in Fm.
  assert (En : zt_networks v = nets) by (apply objects_list, Hnets). rewrite En in *. rewrite !map_length, !app_length, !map_length in *. destruct nets; [congruence|]. cbn [length] in *. lia.
Qed.

(** Rendering leaves one file at each path; those at the paths of the device maps
    list the networks of the VPNs with that path, before what the user gave there. *)
Theorem C55_device_map : forall oid schema_ok dsa f1 f2 config, let B := openwrt oid schema_ok dsa f1 f2 in
  zt_template config -> (forall v, In v (objects "zerotier" config) -> optional "config_path" v (fun x => exists s, x = VStr s)) ->
  forall with_files s text, render oid B with_files (fresh config) = (s, Ok text) ->
  forall p, files_at p (st_config s) = files_after p config.
Proof. intros oid schema_ok dsa f1 f2 config B tpl paths with_files s text R. exact (zt_template_files oid schema_ok dsa f1 f2 config tpl paths with_files s text R). Qed.

(** The archive of generate() has the device map of every VPN, readable by all. *)
Theorem C55_archive : forall oid schema_ok dsa f1 f2 config, let B := openwrt oid schema_ok dsa f1 f2 in
  zt_template config -> (forall v, In v (objects "zerotier" config) -> optional "config_path" v (fun x => exists s, x = VStr s)) ->
  forall s tar, generate oid B (fresh config) = (s, Ok tar) ->
  forall v, In v (objects "zerotier" config) -> exists m contents, In m tar /\
    relative_of (map_path v) (m_name m) /\ m_mode m = 420%N /\
    contents = join NL (rev (maps_at (map_path v) config) ++ map (name_or "contents" EmptyString) (files_at (map_path v) config)) /\
    (ascii_only contents = true -> m_data m = contents).
Proof.
  intros oid schema_ok dsa f1 f2 config B tpl paths s tar G v Hv. unfold generate in G. destruct (render oid B false (fresh config)) as [s1 r] eqn:R.
  injection G as <- G. apply bind_Ok in G as (text & -> & G). apply bind_Ok in G as (tar0 & _ & G).
  pose proof (C55_device_map oid schema_ok dsa f1 f2 config tpl paths false s1 text R (map_path v)) as F.
  destruct (process_files_spec _ _ _ G) as (files & ms & Ef & Fm & ->).
  set (c := join NL (rev (maps_at (map_path v) config) ++ map (name_or "contents" EmptyString) (files_at (map_path v) config))).
  assert (A : files_after (map_path v) config = [[("path", VStr (map_path v)); ("mode", VStr "0644"); ("contents", VStr c)]]).
  { unfold files_after, c. destruct (maps_at (map_path v) config) as [|m0 ms0] eqn:E; [|reflexivity]. exfalso.
    assert (I : In (device_map v) (maps_at (map_path v) config)) by (unfold maps_at; apply in_map, filter_In; split; [exact Hv|apply String.eqb_refl]). rewrite E in I. destruct I. }
  rewrite A in F. clear A.
  assert (I : In [("path", VStr (map_path v)); ("mode", VStr "0644"); ("contents", VStr c)] (files_at (map_path v) (st_config s1))) by (rewrite F; left; reflexivity).
  unfold files_at in I. apply filter_In in I as [I _].
  assert (Iv : In (VDict [("path", VStr (map_path v)); ("mode", VStr "0644"); ("contents", VStr c)]) files).
  { unfold objects in I. unfold get_files in Ef. destruct (dget "files" (st_config s1)) as [x|]; [|destruct I]. destruct x; try discriminate. injection Ef as ->.
    apply in_flat_map in I as (y & Hy & I). destruct y; try (destruct I; fail). destruct I as [->|[]]. exact Hy. }
  destruct (Forall2_In_l _ _ _ _ Fm Iv) as (m & Im & (d & p & c0 & mode & n & Ed & Ep & Ec & Em & En & ->)). injection Ed as <-.
  cbn in Ep, Ec, Em. injection Ep as <-. injection Ec as <-. destruct Em as [Em|[Em _]]; [|discriminate]. injection Em as <-. injection En as <-.
  eexists _, c. split; [apply in_app_iff; right; exact Im|]. cbn [m_name m_mode m_data]. split; [apply relative_of_member|]. split; [reflexivity|]. split; [reflexivity|].
  intros Ha. rewrite utf8_ascii by exact Ha. apply FilesProofs.stake_all.
Qed.

(** A template of the class: two VPNs, flags, a file at the path of the device map *)
Definition sample : dict :=
  [("type", VStr "OpenWrt");
   ("zerotier", VList (map VDict
     [[("name", VStr "ow_zt");
       ("networks", VList (map VDict [[("id", VStr "9536600adf654321"); ("ifname", VStr "owzt0"); ("allow_managed", VBool true); ("allow_dns", VBool false)];
                                      [("id", VStr "9536600adf654322"); ("ifname", VStr "owzt1")]]));
       ("secret", VStr "{{zerotier_identity_secret}}"); ("port", VInt 9994); ("disabled", VBool false)];
      [("name", VStr "global"); ("disabled", VBool true); ("local_conf_path", VStr "/tmp/zt.conf");
       ("networks", VList [VDict [("id", VStr "9536600adf65ffff"); ("ifname", VStr "mesh"); ("allow_global", VBool true)]])]]));
   ("files", VList [VDict [("path", VStr "/etc/openwisp/zerotier/devicemap"); ("mode", VStr "0644"); ("contents", VStr "a=b")]])].
Ltac nodups := repeat (constructor; [cbn [In]; intuition discriminate|]); constructor.
Ltac survive := intros k v H; cbn [In] in H; repeat (destruct H as [H|H]; [injection H as <- <-; intros Hk;
  first [exfalso; apply Hk; cbn; tauto | split; [wordlit|split; [reflexivity|first [exact I|split; [discriminate|apply plainb_plain; reflexivity]]]]]|]); destruct H.
Ltac word_at := eexists; split; [reflexivity|first [wordlit|split; [wordlit|reflexivity]]].
Example sample_ok : zt_template sample /\ owrt_validate (fun _ => Ok tt) sample = Ok tt.
Proof.
  split; [|vm_compute; reflexivity]. split; [nodups|]. split; [|split; [|split]].
  - eexists. split; [reflexivity|]. split; [discriminate|]. intros v Hv. cbn [In] in Hv. destruct Hv as [<-|[<-|[]]].
    + split; [nodups|]. split; [word_at|]. split.
      { eexists. split; [reflexivity|]. split; [discriminate|]. intros n Hn. cbn [In] in Hn. destruct Hn as [<-|[<-|[]]]; (split; [nodups|]; split; [word_at|]; split; [word_at|]; survive). }
      split; [eexists; reflexivity|]. split; [intros k H; cbn [In] in H; repeat (destruct H as [<-|H]; [reflexivity|]); destruct H|]. survive.
    + split; [nodups|]. split; [word_at|]. split.
      { exists [[("id", VStr "9536600adf65ffff"); ("ifname", VStr "mesh"); ("allow_global", VBool true)]]. split; [reflexivity|]. split; [discriminate|]. intros n Hn. cbn [In] in Hn. destruct Hn as [<-|[]]. split; [nodups|]; split; [word_at|]; split; [word_at|]; survive. }
      split; [eexists; reflexivity|]. split; [intros k H; cbn [In] in H; repeat (destruct H as [<-|H]; [reflexivity|]); destruct H|]. survive.
  - exists [[("path", VStr "/etc/openwisp/zerotier/devicemap"); ("mode", VStr "0644"); ("contents", VStr "a=b")]]. split; [reflexivity|]. intros f [<-|[]]. split; eexists; reflexivity.
  - eexists. reflexivity.
  - intros k H. apply dmem_In in H. cbn [dkeys map fst sample In] in H. cbn [In]. intuition.
Qed.
(** The names that parsing gives *)
Example sample_names : derived_name "9536600adf654321" = "owzt654321" /\ derived_name "abc" = "owztabc".
Proof. split; reflexivity. Qed.
Example sample_text : forall oid, exists s, render oid (openwrt oid (fun _ => Ok tt) true false false) false (fresh sample) = (s, Ok
"package zerotier

config zerotier 'ow_zt'
	option config_path '/etc/openwisp/zerotier'
	option copy_config_path '1'
	option enabled '1'
	list join '9536600adf654321'
	list join '9536600adf654322'
	option port '9994'
	option secret '{{zerotier_identity_secret}}'

config network 'owzt0'
	option allow_dns '0'
	option allow_managed '1'
	option id '9536600adf654321'

config network 'owzt1'
	option id '9536600adf654322'

config zerotier 'global'
	option config_path '/etc/openwisp/zerotier'
	option copy_config_path '1'
	option enabled '0'
	list join '9536600adf65ffff'
	option local_conf '/tmp/zt.conf'
	option local_conf_path '/tmp/zt.conf'

config network 'mesh'
	option allow_global '1'
	option id '9536600adf65ffff'
").
Proof. intros oid. eexists. vm_compute. reflexivity. Qed.
Example sample_files : (forall v, In v (objects "zerotier" sample) -> optional "config_path" v (fun x => exists s, x = VStr s)) /\
  files_after "/etc/openwisp/zerotier/devicemap" sample =
    [[("path", VStr "/etc/openwisp/zerotier/devicemap"); ("mode", VStr "0644"); ("contents", VStr
"# network_id=interface_name
9536600adf65ffff=mesh

# network_id=interface_name
9536600adf654321=owzt0
9536600adf654322=owzt1

a=b")]].
Proof. split; [|vm_compute; reflexivity]. intros v Hv. unfold sample, objects in Hv. cbn in Hv. destruct Hv as [<-|[<-|[]]]; exact I. Qed.
Example sample_archive : forall oid, exists s tar, generate oid (openwrt oid (fun _ => Ok tt) true false false) (fresh sample) = (s, Ok tar) /\
  exists m, In m tar /\ m_name m = "etc/openwisp/zerotier/devicemap".
Proof. intros oid. eexists _, _. split; [vm_compute; reflexivity|]. eexists. split; [right; left; reflexivity|reflexivity]. Qed.
Print Assumptions C55_device_map.
Print Assumptions C55_archive.
Print Assumptions C55_zerotier_template.
Print Assumptions C55_never_kept.
