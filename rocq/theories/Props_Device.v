(** * Props_Device: OpenWrt devices through UCI text and back: C31 to C40, C51, C52
    and C54. *)
From Verif Require Import PyBase PyLemmas Merge Files Uci Backend Conv Ip Timezones OwrtConv OwrtWireless OwrtInterfaces OpenWrt
  StrLemmas SpecUci SpecConv SpecDevice SpecShapes SpecEncryption SpecWireless SpecVpn SpecTunnel SpecWhole SpecTrip ConvLemmas SortLemmas RtGeneric RtSystem RtObjects RtStages RtDevice ShapeProofs DeviceApi.

(** C51: the whole device *)
Theorem C51_device : forall oid schema_ok dsa f1 f2 config, let B := openwrt oid schema_ok dsa f1 f2 in
  device dsa (timezones f1 f2) config -> owrt_validate schema_ok config = Ok tt ->
  exists text inter config',
  renders oid B config text inter /\ device_shown dsa (timezones f1 f2) config inter /\
  parses oid B text config' /\ (schema_ok config' = Ok tt -> be_validate B config' = Ok tt) /\
  dget "files" config' = None /\ dget "type" config' = None /\ dns_read_back config config' /\
  forall k, ~ In k not_kept -> kept k config config'.
Proof.
  intros oid schema_ok dsa f1 f2 config B dev valid.
  destruct (device_api oid schema_ok dsa f1 f2 config dev valid) as (s1 & text & inter & config' & inter' & H1 & H2 & H3 & H4 & H5 & H6 & H7 & H8 & H9 & H10 & H11).
  exists text, inter, config'. split; [exists s1; auto|]. split; [exact H4|]. split; [intros before; eexists; split; [apply H5|reflexivity]|]. auto.
Qed.
Ltac part f := let t := fresh in let i := fresh in let c := fresh in
  let Hr := fresh in let Hs := fresh in let Hp := fresh in let Hk := fresh "Hk" in
  match goal with B := openwrt ?o ?s ?d ?x ?y, dev : device _ _ _, valid : owrt_validate _ _ = Ok tt |- _ =>
    destruct (C51_device o s d x y _ dev valid) as (t & i & c & Hr & Hs & Hp & _ & _ & _ & _ & Hk); exists t, i, c
  end; split; [exact Hr|]; split; [eapply f, Hs|]; split; [exact Hp|]; try (apply Hk; cbn; intuition discriminate).

(** C31: packages that the library does not know *)
Theorem C31_custom_packages : forall oid schema_ok dsa f1 f2 config, let B := openwrt oid schema_ok dsa f1 f2 in
  device dsa (timezones f1 f2) config -> owrt_validate schema_ok config = Ok tt ->
  exists text inter config',
  renders oid B config text inter /\
  (forall k, dmem k config = true -> ~ In k ("type" :: settings) -> aligned custom_shown (objects k config) (objects k inter)) /\
  parses oid B text config' /\
  forall k, ~ In k ("type" :: settings) -> kept k config config'.
Proof. intros oid schema_ok dsa f1 f2 config B dev valid. part sh_custom. intros k Hn. apply Hk. intros X. apply Hn. cbn in X |- *. tauto. Qed.
(** C32: host name and time zone *)
Theorem C32_general : forall oid schema_ok dsa f1 f2 config, let B := openwrt oid schema_ok dsa f1 f2 in
  device dsa (timezones f1 f2) config -> owrt_validate schema_ok config = Ok tt ->
  exists text inter config',
  renders oid B config text inter /\
  aligned (fun _ => general_shown (timezones f1 f2)) (objects "general" config) (sections "system" ["system"] inter) /\
  parses oid B text config' /\ kept "general" config config'.
Proof. intros oid schema_ok dsa f1 f2 config B dev valid. part sh_general. Qed.
(** C33: routes *)
Theorem C33_routes : forall oid schema_ok dsa f1 f2 config, let B := openwrt oid schema_ok dsa f1 f2 in
  device dsa (timezones f1 f2) config -> owrt_validate schema_ok config = Ok tt ->
  exists text inter config',
  renders oid B config text inter /\
  aligned route_shown (objects "routes" config) (sections "network" ["route"; "route6"] inter) /\
  parses oid B text config' /\ kept "routes" config config'.
Proof. intros oid schema_ok dsa f1 f2 config B dev valid. part sh_routes. Qed.
(** C34: policy rules *)
Theorem C34_rules : forall oid schema_ok dsa f1 f2 config, let B := openwrt oid schema_ok dsa f1 f2 in
  device dsa (timezones f1 f2) config -> owrt_validate schema_ok config = Ok tt ->
  exists text inter config',
  renders oid B config text inter /\
  aligned rule_shown (objects "ip_rules" config) (sections "network" ["rule"; "rule6"] inter) /\
  parses oid B text config' /\ kept "ip_rules" config config'.
Proof. intros oid schema_ok dsa f1 f2 config B dev valid. part sh_rules. Qed.
(** C35: switches and their VLANs *)
Theorem C35_switch : forall oid schema_ok dsa f1 f2 config, let B := openwrt oid schema_ok dsa f1 f2 in
  device dsa (timezones f1 f2) config -> owrt_validate schema_ok config = Ok tt ->
  exists text inter config',
  renders oid B config text inter /\
  (exists sss, sections "network" ["switch"; "switch_vlan"] inter = concat sss /\
     aligned (fun _ => switch_shown) (objects "switch" config) sss) /\
  parses oid B text config' /\ kept "switch" config config'.
Proof. intros oid schema_ok dsa f1 f2 config B dev valid. part sh_switch. Qed.
(** C36: ntp and led *)
Theorem C36_ntp_led : forall oid schema_ok dsa f1 f2 config, let B := openwrt oid schema_ok dsa f1 f2 in
  device dsa (timezones f1 f2) config -> owrt_validate schema_ok config = Ok tt ->
  exists text inter config',
  renders oid B config text inter /\
  (aligned (fun _ => ntp_shown) (objects "ntp" config) (sections "system" ["timeserver"] inter) /\
   aligned (fun _ => led_shown) (objects "led" config) (sections "system" ["led"] inter)) /\
  parses oid B text config' /\ kept "ntp" config config' /\ kept "led" config config'.
Proof.
  intros oid schema_ok dsa f1 f2 config B dev valid.
  destruct (C51_device oid schema_ok dsa f1 f2 config dev valid) as (t & i & c & Hr & Hs & Hp & _ & _ & _ & _ & Hk). exists t, i, c.
  split; [exact Hr|]. split; [split; apply Hs|]. split; [exact Hp|]. split; apply Hk; cbn; intuition discriminate.
Qed.
(** C37: radios *)
Theorem C37_radios : forall oid schema_ok dsa f1 f2 config, let B := openwrt oid schema_ok dsa f1 f2 in
  device dsa (timezones f1 f2) config -> owrt_validate schema_ok config = Ok tt ->
  exists text inter config',
  renders oid B config text inter /\
  aligned (fun _ => radio_shown dsa) (objects "radios" config) (sections "wireless" ["wifi-device"] inter) /\
  parses oid B text config' /\ kept "radios" config config'.
Proof. intros oid schema_ok dsa f1 f2 config B dev valid. part sh_radios. Qed.

(** C39: interfaces *)
Theorem C39_interfaces : forall oid schema_ok dsa f1 f2 config, let B := openwrt oid schema_ok dsa f1 f2 in
  device dsa (timezones f1 f2) config -> owrt_validate schema_ok config = Ok tt ->
  exists text inter config',
  renders oid B config text inter /\
  (exists sss, sections "network" ["interface"; "device"] inter = concat sss /\
     aligned (fun _ => interface_shown dsa config) (network_interfaces config) sss) /\
  parses oid B text config' /\ kept "interfaces" config config'.
Proof. intros oid schema_ok dsa f1 f2 config B dev valid. part sh_interfaces. Qed.
(** C38: wireless interfaces with their encryption *)
Theorem C38_wireless : forall oid schema_ok dsa f1 f2 config, let B := openwrt oid schema_ok dsa f1 f2 in
  device dsa (timezones f1 f2) config -> owrt_validate schema_ok config = Ok tt ->
  exists text inter config',
  renders oid B config text inter /\
  aligned (fun _ b s => let n := name_or "name" EmptyString b in
             wifi_shown n (addressed b) (bridges_of n (objects "interfaces" config)) b (wifi_of b) s)
    (wireless_interfaces config) (sections "wireless" ["wifi-iface"] inter) /\
  parses oid B text config' /\ kept "interfaces" config config'.
Proof. intros oid schema_ok dsa f1 f2 config B dev valid. part sh_wireless. Qed.

(** C52: OpenVPN instances *)
Theorem C52_openvpn : forall oid schema_ok dsa f1 f2 config, let B := openwrt oid schema_ok dsa f1 f2 in
  device dsa (timezones f1 f2) config -> owrt_validate schema_ok config = Ok tt ->
  exists text inter config',
  renders oid B config text inter /\
  aligned (fun _ => tunnel_shown) (objects "openvpn" config) (sections "openvpn" ["openvpn"] inter) /\
  parses oid B text config' /\ kept "openvpn" config config'.
Proof. intros oid schema_ok dsa f1 f2 config B dev valid. part sh_vpn. Qed.

(** C54: DNS servers and search domains.  The section of an interface with static
    addresses shows the servers, that of an interface with addresses the domains;
    parsing lists them once for each such interface. *)
Theorem C54_dns : forall oid schema_ok dsa f1 f2 config, let B := openwrt oid schema_ok dsa f1 f2 in
  device dsa (timezones f1 f2) config -> owrt_validate schema_ok config = Ok tt ->
  exists text inter config',
  renders oid B config text inter /\
  aligned (fun _ b s => dget "dns" s = Some (if static b then on_one_line (texts "dns_servers" config) else VNull) /\
                        dget "dns_search" s = Some (if addressed b then on_one_line (texts "dns_search" config) else VNull))
    (network_interfaces config) (sections "network" ["interface"] inter) /\
  parses oid B text config' /\ dns_read_back config config'.
Proof.
  intros oid schema_ok dsa f1 f2 config B dev valid.
  destruct (C51_device oid schema_ok dsa f1 f2 config dev valid) as (t & i & c & Hr & Hs & Hp & _ & _ & _ & Hd & _). exists t, i, c.
  split; [exact Hr|]. split; [|split; [exact Hp|exact Hd]]. destruct (sh_interfaces _ _ _ _ Hs) as (sss & E & H).
  apply Forall2_aligned. eapply interface_sections; eassumption.
Qed.
(** So a list is kept if and only if exactly one interface shows it. *)
Theorem C54_kept : forall oid schema_ok dsa f1 f2 config, let B := openwrt oid schema_ok dsa f1 f2 in
  device dsa (timezones f1 f2) config -> owrt_validate schema_ok config = Ok tt ->
  exists text inter config',
  renders oid B config text inter /\ parses oid B text config' /\
  (texts "dns_servers" config <> [] -> (kept "dns_servers" config config' <-> length (filter static (objects "interfaces" config)) = 1)) /\
  (texts "dns_search" config <> [] -> (kept "dns_search" config config' <-> length (filter addressed (objects "interfaces" config)) = 1)).
Proof.
  intros oid schema_ok dsa f1 f2 config B dev valid.
  destruct (C51_device oid schema_ok dsa f1 f2 config dev valid) as (t & i & c & Hr & Hs & Hp & _ & _ & _ & [Hd1 Hd2] & _). exists t, i, c.
  destruct dev as (_ & _ & _ & _ & _ & _ & _ & _ & _ & _ & _ & _ & (Ho1 & Ho2 & _) & _).
  split; [exact Hr|]. split; [exact Hp|]. split; intros Hne; apply copies_kept; assumption.
Qed.

(** C32, more: the host name has a default; a section that only shows the TZ text
    gets a zone of the table with that text. *)
Theorem C32_hostname_default : forall tz g r s,
  NoDup (dkeys g) -> general_fwd_block tz g [] = Ok r -> dget "system" r = Some (VList [VDict s]) ->
  dget "hostname" s = match dget "hostname" g with Some h => Some h | None => Some (VStr "OpenWRT") end.
Proof.
  intros tz g r s Hn E Hs. unfold general_fwd_block in E.
  assert (G : exists network g', general_ula g = (network, g') /\ NoDup (dkeys g') /\ forall k, k <> "ula_prefix" -> k <> "globals_id" -> dget k g' = dget k g).
  { unfold general_ula. destruct (dget "ula_prefix" g); eexists; eexists; (split; [reflexivity|]); split; try nodup; try assumption; intros k H1 H2; dg; ev; reflexivity. }
  destruct G as (network & g' & Eu & Hn' & Hg'). rewrite Eu in E.
  destruct g' as [|kv g0]; [|rewrite general_system_cons in E by discriminate].
  { cbn in E. injection E as <-. destruct network; discriminate Hs. }
  set (g1 := kv :: g0) in *. clearbody g1. cbv zeta in E. set (X := dupdate _ _) in E.
  assert (HX : NoDup (dkeys X)) by (unfold X; nodup).
  assert (Eh : dget "hostname" X = match dget "hostname" g with Some h => Some h | None => Some (VStr "OpenWRT") end).
  { unfold X, pop_or. dg. ev. rewrite Hg' by discriminate. destruct (dget "hostname" g); reflexivity. }
  rewrite <- Eh. destruct (dget "timezone" X) as [t|].
  - destruct (lookup tz t) as [z|]; [|discriminate]. cbn [bind] in E. injection E as <-.
    assert (Es : s = ssort (dset "timezone" z (dset "zonename" t X))) by (destruct network; cbn [dget] in Hs; change (String.eqb "system" "system") with true in Hs; congruence).
    subst s. rewrite dget_ssort by nodup. dg. ev. reflexivity.
  - cbn [bind] in E. injection E as <-.
    assert (Es : s = ssort X) by (destruct network; cbn [dget] in Hs; change (String.eqb "system" "system") with true in Hs; congruence).
    subst s. rewrite dget_ssort by nodup. reflexivity.
Qed.
Definition zones_closed (tz rev : list (string * string)) : bool :=
  forallb (fun p => match dget (snd p) rev with
    | Some t' => match dget t' tz with Some z' => String.eqb z' (snd p) | None => false end
    | None => false end) tz.
Theorem C32_zone_of_text : forall f1 f2 t z, dget t (timezones f1 f2) = Some z ->
  exists t', dget z (timezones_reversed f1 f2) = Some t' /\ dget t' (timezones f1 f2) = Some z.
Proof.
  intros f1 f2 t z H. apply dget_In in H.
  assert (E : zones_closed (timezones f1 f2) (timezones_reversed f1 f2) = true) by (destruct f1, f2; vm_compute; reflexivity).
  unfold zones_closed in E.
  rewrite forallb_forall in E. specialize (E _ H). cbn [snd] in E.
  destruct (dget z (timezones_reversed f1 f2)) as [t'|]; [|discriminate]. exists t'. split; [reflexivity|].
  destruct (dget t' (timezones f1 f2)) as [z'|]; [|discriminate]. apply String.eqb_eq in E. congruence.
Qed.
Theorem C32_parse_text : forall f1 f2 s t z n,
  NoDup (dkeys s) -> dget t (timezones f1 f2) = Some z ->
  dget ".type" s = Some (VStr "system") -> dget ".name" s = Some (VStr n) ->
  dget "zonename" s = None -> dget "timezone" s = Some (VStr z) ->
  exists g t', general_back (timezones_reversed f1 f2) s = Ok g /\ dget "timezone" g = Some (VStr t') /\
    dget t' (timezones f1 f2) = Some z.
Proof.
  intros f1 f2 s t z n Hn Hz H1 H2 H3 H4. destruct (C32_zone_of_text _ _ _ _ Hz) as (t' & Ht' & Hz').
  destruct (zones_plain _ _ _ _ Hz') as ((Hne & _) & (Hze & _)).
  unfold general_back, dgetE. rewrite H1. cbn [bind]. dg. ev. rewrite H2. cbn [bind].
  set (s1 := set_unless _ _ _ _).
  assert (Hs1 : NoDup (dkeys s1)) by (unfold s1, set_unless; destruct (py_eq _ _); nodup).
  assert (G : forall k, k <> "id" -> k <> ".name" -> k <> ".type" -> dget k s1 = dget k s).
  { intros k K1 K2 K3. unfold s1, set_unless. destruct (py_eq _ _); dg; ev; reflexivity. }
  assert (E1 : pop_or "zonename" VNull s1 = VNull) by (unfold pop_or; rewrite G by discriminate; rewrite H3; reflexivity).
  assert (E2 : pop_or "timezone" VNull s1 = VStr z) by (unfold pop_or; rewrite G by discriminate; rewrite H4; reflexivity).
  rewrite E1, E2. rewrite (truthy_text z Hze). change (truthy VNull) with false. cbn [bind]. unfold lookup. rewrite Ht'. cbn [bind]. rewrite (truthy_text t' Hne).
  eexists. exists t'. split; [reflexivity|]. split; [|exact Hz']. rewrite dget_dset. ev. reflexivity.
Qed.
Lemma first_fails oid c cs config inter config' e : c_fwd_run c config = true -> c_fwd c config inter = (config', Err e) ->
  convert_fwd oid (c :: cs) (fresh config) inter = ({| st_config := config'; st_inter := Some inter |}, Err e).
Proof. intros H1 H2. cbn [convert_fwd fresh st_config]. rewrite H1, H2. reflexivity. Qed.
(** The two zones that the source writes as sets are known in some processes only:
    with the other iteration order rendering them raises KeyError. *)
Theorem C32_set_zones : forall oid schema_ok dsa f1 f2 config g t,
  (f1 = true /\ t = "Asia/Qostanay") \/ (f2 = true /\ t = "Europe/Kyiv") ->
  owrt_validate schema_ok config = Ok tt -> NoDup (dkeys g) ->
  dget "general" config = Some (VDict g) -> dget "ula_prefix" g = None -> dget "timezone" g = Some (VStr t) ->
  snd (render oid (openwrt oid schema_ok dsa f1 f2) false (fresh config)) = Err (EKey t).
Proof.
  intros oid schema_ok dsa f1 f2 config g t Ht V Hn Hg Hu Htz.
  assert (Ez : dget t (timezones f1 f2) = None).
  { destruct Ht as [[-> ->]|[-> ->]]; [destruct f2|destruct f1]; vm_compute; reflexivity. }
  assert (E : general_fwd_block (timezones f1 f2) g [] = Err (EKey t)).
  { unfold general_fwd_block, general_ula. rewrite Hu. rewrite general_system_cons by (intros ->; discriminate Htz). cbv zeta.
    assert (Et : dget "timezone" (dupdate (ddel "id" g) [(".type", VStr "system"); (".name", pop_or "id" (VStr "system") g);
       ("hostname", pop_or "hostname" (VStr "OpenWRT") (ddel "id" g))]) = Some (VStr t)) by (dg; ev; exact Htz).
    rewrite Et. cbn [lookup]. rewrite Ez. reflexivity. }
  unfold render. change (be_validate (openwrt oid schema_ok dsa f1 f2)) with (owrt_validate schema_ok). cbn [fresh st_config st_inter]. rewrite V.
  unfold to_intermediate. change (be_validate (openwrt oid schema_ok dsa f1 f2)) with (owrt_validate schema_ok).
  change (be_convs (openwrt oid schema_ok dsa f1 f2)) with
    (general (timezones f1 f2) (timezones_reversed f1 f2) :: tl (owrt_convs oid dsa f1 f2)).
  generalize (tl (owrt_convs oid dsa f1 f2)). intros cs. cbn [fresh st_config]. rewrite V.
  rewrite (first_fails oid _ cs config [] config (EKey t)); [reflexivity| |].
  - rewrite general_is. unfold single_conv, simple_converter. cbn [c_fwd_run]. unfold dmem. rewrite Hg. reflexivity.
  - rewrite general_is. unfold single_conv, simple_converter. cbn [c_fwd]. unfold fwd_single, dgetN. rewrite Hg. cbn [as_dict bind]. rewrite E. reflexivity.
Qed.

(** C40: with distinct names every object has its own section, in order: this is
    all that the packages hold. *)
Theorem C40_distinct_sections : forall oid schema_ok dsa f1 f2 config, let B := openwrt oid schema_ok dsa f1 f2 in
  device dsa (timezones f1 f2) config -> owrt_validate schema_ok config = Ok tt ->
  exists text inter,
  renders oid B config text inter /\
  section_names "system" inter = map SpecDevice.text (system_names config) /\
  section_names "network" inter = map SpecDevice.text (network_names dsa config) /\
  section_names "wireless" inter = map SpecDevice.text (wireless_names config) /\
  section_names "openvpn" inter = map SpecDevice.text (vpn_names config).
Proof.
  intros oid schema_ok dsa f1 f2 config B dev valid.
  destruct (C51_device oid schema_ok dsa f1 f2 config dev valid) as (t & i & c & Hr & Hs & _). exists t, i. split; [exact Hr|]. apply Hs.
Qed.
(** Without them objects are merged: a route named like the first rule. *)
Theorem C40_refuted : forall oid schema_ok dsa f1 f2,
  let config := [("routes", VList [VDict [("name", VStr "rule1"); ("device", VStr "lan"); ("destination", VStr "10.0.0.0/8"); ("next", VStr "10.0.0.1"); ("cost", VInt 0)]]);
                 ("ip_rules", VList [VDict [("in", VStr "eth0")]])] in
  schema_ok config = Ok tt ->
  exists text inter, renders oid (openwrt oid schema_ok dsa f1 f2) config text inter /\
    length (objects "routes" config ++ objects "ip_rules" config) = 2 /\ length (objects "network" inter) = 1.
Proof.
  intros oid schema_ok dsa f1 f2 config V. assert (Hlen : length (objects "routes" config ++ objects "ip_rules" config) = 2) by reflexivity.
  assert (Hv : owrt_validate schema_ok config = Ok tt) by (unfold owrt_validate, base_validate; rewrite V; reflexivity).
  assert (E : exists config1 inter text, convert_fwd oid (owrt_convs oid dsa f1 f2) (fresh config) [] = ({| st_config := config1; st_inter := Some inter |}, Ok tt) /\
     deduplicate_files config1 = Ok config1 /\ render_uci inter = Ok text /\ length (objects "network" inter) = 1).
  { clear V Hv. unfold config. destruct dsa; do 3 eexists; (split; [vm_compute; reflexivity|]); (split; [reflexivity|]); split; vm_compute; reflexivity. }
  clearbody config. destruct E as (config1 & inter & text & E1 & E2 & E3 & E4). exists text, inter. split; [|split; [assumption|exact E4]].
  exists {| st_config := config1; st_inter := Some inter |}. split; [|reflexivity].
  unfold render, to_intermediate. change (be_validate (openwrt oid schema_ok dsa f1 f2)) with (owrt_validate schema_ok).
  change (be_convs (openwrt oid schema_ok dsa f1 f2)) with (owrt_convs oid dsa f1 f2). cbn [fresh st_config st_inter]. rewrite Hv.
  unfold fresh in E1 |- *. rewrite E1. cbn [st_config st_inter]. rewrite E2. unfold render_text. cbn [st_inter].
  change (be_render (openwrt oid schema_ok dsa f1 f2)) with (fun _ : dict => render_uci). cbv beta. rewrite E3. reflexivity.
Qed.

(** ** A device that uses everything above *)
Definition sample : dict :=
  [("type", VStr "DeviceConfiguration");
   ("general", VDict [("hostname", VStr "node 7"); ("timezone", VStr "Europe/Rome"); ("description", VStr "roof")]);
   ("ntp", VDict [("enabled", VBool true); ("server", VList [VStr "0.pool.ntp.org"; VStr "1.pool.ntp.org"])]);
   ("led", VList [VDict [("name", VStr "USB1"); ("sysfs", VStr "tp-link:green:usb1"); ("trigger", VStr "usbdev"); ("interval", VInt 50)]]);
   ("interfaces", VList [
      VDict [("name", VStr "eth0"); ("type", VStr "ethernet"); ("network", VStr "lan"); ("mac", VStr "52:54:00:56:46:c0"); ("mtu", VInt 1400);
             ("metric", VStr "10");
             ("addresses", VList [VDict [("proto", VStr "static"); ("family", VStr "ipv4"); ("address", VStr "192.168.1.1"); ("mask", VInt 24); ("gateway", VStr "192.168.1.254")];
                                  VDict [("proto", VStr "static"); ("family", VStr "ipv4"); ("address", VStr "10.9.0.1"); ("mask", VInt 16)];
                                  VDict [("proto", VStr "static"); ("family", VStr "ipv6"); ("address", VStr "fd87::1"); ("mask", VInt 64)]])];
      VDict [("name", VStr "br-wan"); ("type", VStr "bridge"); ("network", VStr "wan_net"); ("bridge_members", VList [VStr "eth1"; VStr "eth2.7"; VStr "wlan0"]);
             ("stp", VBool true); ("forward_delay", VInt 4); ("autostart", VBool false);
             ("addresses", VList [VDict [("proto", VStr "dhcp"); ("family", VStr "ipv4")]])];
      VDict [("name", VStr "lo"); ("type", VStr "loopback"); ("disabled", VBool true)];
      VDict [("name", VStr "wlan1"); ("type", VStr "wireless"); ("mac", VStr "52:54:00:56:46:c1"); ("mtu", VInt 1500);
             ("addresses", VList [VDict [("proto", VStr "dhcp"); ("family", VStr "ipv4")]]);
             ("wireless", VDict [("radio", VStr "radio0"); ("mode", VStr "station"); ("ssid", VStr "up link"); ("ack_distance", VInt 300);
                ("encryption", VDict [("protocol", VStr "wpa2_enterprise"); ("cipher", VStr "auto"); ("key", VStr "secret"); ("eap_type", VStr "tls"); ("identity", VStr "node7")])])];
      VDict [("name", VStr "wg0"); ("type", VStr "wireguard"); ("port", VInt 51820); ("private_key", VStr "QFdbnuYr7rrF4eONCAs7FhZwP7BXX/jD/jq2LXCpaXI="); ("mtu", VInt 1420); ("nohostroute", VBool false);
             ("addresses", VList [VDict [("proto", VStr "static"); ("family", VStr "ipv4"); ("address", VStr "10.0.0.2"); ("mask", VInt 32)];
                                  VDict [("address", VStr "fd87::2"); ("mask", VInt 128); ("proto", VStr "static"); ("family", VStr "ipv6")]])];
      VDict [("name", VStr "vx0"); ("type", VStr "vxlan"); ("network", VStr "overlay"); ("vtep", VStr "10.0.0.3"); ("port", VInt 4789); ("vni", VInt 7); ("ttl", VInt 64); ("rxcsum", VBool true);
             ("mac", VStr "52:54:00:56:46:c2"); ("autostart", VBool true)];
      VDict [("name", VStr "adsl-wan"); ("type", VStr "dialup"); ("proto", VStr "pppoe"); ("username", VStr "user"); ("password", VStr "pass word"); ("mtu", VInt 1492); ("disabled", VBool true)];
      VDict [("name", VStr "wwan0"); ("type", VStr "modem-manager"); ("apn", VStr "apn.operator.com"); ("pin", VStr "1234"); ("device", VStr "/sys/devices/platform/ehci-platform/usb1/1-1.2");
             ("metric", VInt 50); ("iptype", VStr "ipv4"); ("lowpower", VBool false); ("network", VStr "mobile"); ("mtu", VInt 1500)];
      VDict [("name", VStr "wlan0"); ("type", VStr "wireless"); ("disabled", VBool false);
             ("wireless", VDict [("radio", VStr "radio0"); ("mode", VStr "access_point"); ("ssid", VStr "open wisp"); ("hidden", VBool true); ("rts_threshold", VInt 1300);
                ("ieee80211r", VBool true); ("reassociation_deadline", VInt 2000);
                ("encryption", VDict [("protocol", VStr "wpa2_personal"); ("cipher", VStr "tkip+ccmp"); ("key", VStr "pass phrase"); ("ieee80211w", VStr "1")])])]]);
   ("routes", VList [VDict [("device", VStr "lan"); ("destination", VStr "192.168.3.0/24"); ("next", VStr "10.0.0.1"); ("cost", VInt (-1))];
                     VDict [("name", VStr "back"); ("device", VStr "lan"); ("destination", VStr "fd87::/64"); ("next", VStr "fd88::1"); ("cost", VInt 0); ("onlink", VBool true)]]);
   ("ip_rules", VList [VDict [("in", VStr "eth0"); ("src", VStr "192.168.1.0/24"); ("action", VStr "blackhole"); ("tos", VInt 2)]]);
   ("switch", VList [VDict [("name", VStr "switch0"); ("reset", VBool true); ("enable_vlan", VBool true);
      ("vlan", VList [VDict [("device", VStr "switch0"); ("vlan", VInt 1); ("ports", VStr "0t 2 3")];
                      VDict [("device", VStr "switch0"); ("vlan", VInt 2); ("vid", VInt 20); ("ports", VStr "0t 1")]])]]);
   ("radios", VList [VDict [("name", VStr "radio0"); ("phy", VStr "phy0"); ("driver", VStr "mac80211"); ("protocol", VStr "802.11n");
      ("band", VStr "2g"); ("channel", VInt 3); ("channel_width", VInt 20); ("tx_power", VInt 9); ("country", VStr "IT"); ("disabled", VBool true)]]);
   ("wireguard_peers", VList [VDict [("interface", VStr "wg0"); ("public_key", VStr "94a+MnZSdzHCzOy5y2K+0+Xe7lQzaa4v7lEiBZ7elVE=");
      ("allowed_ips", VList [VStr "10.0.0.1/32"]); ("endpoint_host", VStr "wireguard.test.com"); ("endpoint_port", VInt 51820)]]);
   ("openvpn", VList [
      VDict [("name", VStr "client"); ("disabled", VBool false); ("mode", VStr "p2p"); ("dev", VStr "tun0"); ("dev_type", VStr "tun"); ("proto", VStr "udp"); ("nobind", VBool true);
             ("remote", VList [VDict [("host", VStr "vpn1.test.com"); ("port", VInt 1194)]; VDict [("port", VInt 443); ("host", VStr "vpn2.test.com"); ("proto", VStr "tcp")]]);
             ("data_ciphers", VList [VDict [("cipher", VStr "AES-128-GCM"); ("optional", VBool false)]; VDict [("optional", VBool true); ("cipher", VStr "AES-256-GCM")]]);
             ("tls_auth", VStr "/etc/openvpn/ta.key 1"); ("ca", VStr "/etc/openvpn/ca.pem"); ("verb", VInt 3)];
      VDict [("name", VStr "server"); ("disabled", VBool true); ("mode", VStr "server"); ("dev", VStr "tap0"); ("server_bridge", VStr ""); ("fragment", VInt 1300); ("port", VInt 0);
             ("tls_cipher", VStr "TLS-DHE-RSA-WITH-AES-128-GCM-SHA256:TLS-DHE-RSA-WITH-AES-256-GCM-SHA384"); ("status", VStr "/var/log/openvpn.status 10"); ("status_version", VInt 1); ("duplicate_cn", VBool false)]]);
   ("dns_servers", VList [VStr "192.168.1.254"; VStr "fd87::53"]);
   ("dns_search", VList [VStr "lan"; VStr "openwisp.org"]);
   ("files", VList [VDict [("path", VStr "/etc/motd"); ("mode", VStr "0644"); ("contents", VStr "hi")]]);
   ("luci", VList [VDict [("config_name", VStr "core"); ("config_value", VStr "main"); ("lang", VStr "auto"); ("list", VList [VStr "a b"; VStr "c"])];
                   VDict [("config_name", VStr "core"); ("mediaurlbase", VStr "/luci-static/bootstrap")]])].
Ltac listed := let k := fresh in let v := fresh in let H := fresh in
  intros k v H; cbn [In] in H;
  repeat (destruct H as [H|H]; [injection H as <- <-; try (intros; exfalso; cbn [In] in *; tauto)|]); try contradiction.
Ltac texts := let x := fresh in let H := fresh in intros x H; cbn [In] in H;
  repeat (destruct H as [<-|H]; [eexists; split; [reflexivity|apply plainb_plain; reflexivity]|]); contradiction.
Ltac survive := listed; intros _; (split; [wordlit|split; [reflexivity|]]);
  first [exact I | apply plainb_plain; reflexivity | split; [discriminate|texts]].
Ltac absent := let k := fresh in let H := fresh in intros k H; cbn [In] in H; repeat (destruct H as [<-|H]; [reflexivity|]); contradiction.
Ltac nodups := repeat (constructor; [cbn [In]; intuition discriminate|]); constructor.
Ltac each := let j := fresh "j" in let d := fresh "d" in let H := fresh in intros j d H;
  match type of H with nth_error ?l _ = _ => let l' := eval vm_compute in l in change l with l' in H end;
  repeat (destruct j as [|j]; [cbn [nth_error] in H; injection H as <-|cbn [nth_error] in H]); try (destruct j; discriminate H).

Ltac keys := let k := fresh "k" in let H := fresh in intros k H; apply dmem_In in H; cbn [dkeys map fst In] in H;
  repeat (destruct H as [<-|H]; [cbn; tauto|]); contradiction.
Example sample_interfaces : interfaces_at true sample.
Proof.
  exists (firstn 8 (objects "interfaces" sample)), (skipn 8 (objects "interfaces" sample)).
  split; [reflexivity|]. split; [discriminate|].
  split; [intros b Hb; apply In_nth_error in Hb as (j & Hj); revert j b Hj; each; (discriminate || reflexivity)|].
  split; [intros b Hb; apply In_nth_error in Hb as (j & Hj); revert j b Hj; each; split; reflexivity|]. split; [|split; [|split]].
  - intros b Hb. apply In_nth_error in Hb as (j & Hj). revert j b Hj. each.
    + left. split; [nodups|]. split.
      { eexists. split; [reflexivity|]. split; [discriminate|]. split; [apply plainb_plain; reflexivity|]. split; [reflexivity|]. split.
        - eexists. split; [reflexivity|]. split; [wordlit|]. split; [reflexivity|discriminate].
        - right. split; [reflexivity|absent]. }
      split.
      { eexists. apply (addr_static [({| ip_six := false; ip_addr := 3232235777; ip_len := 24 |}, Some 3232236030%N); ({| ip_six := false; ip_addr := 168361985; ip_len := 16 |}, None)]
          [({| ip_six := true; ip_addr := 336995643009485917574514803255371890689; ip_len := 64 |}, None)]
          [[("proto", VStr "static"); ("family", VStr "ipv4"); ("address", VStr "192.168.1.1"); ("mask", VInt 24); ("gateway", VStr "192.168.1.254")];
           [("proto", VStr "static"); ("family", VStr "ipv4"); ("address", VStr "10.9.0.1"); ("mask", VInt 16)];
           [("proto", VStr "static"); ("family", VStr "ipv6"); ("address", VStr "fd87::1"); ("mask", VInt 64)]]).
        - split; [intros n o Hin; cbn [In] in Hin; repeat (destruct Hin as [Hin|Hin]; [injection Hin as <- <-; split; [reflexivity|split; [reflexivity|discriminate]]|]); contradiction|].
          split; [reflexivity|]. split; [reflexivity|]. intros m o [Hin|[]]. injection Hin as <- <-. reflexivity.
        - split; [intros n o Hin; cbn [In] in Hin; repeat (destruct Hin as [Hin|Hin]; [injection Hin as <- <-; split; [reflexivity|split; [reflexivity|discriminate]]|]); contradiction|].
          split; [intros m g []|exact I].
        - discriminate.
        - cbn [app]. repeat (constructor; [split; [nodups|]|]); [| | |constructor]; intros k; unfold static_address; cbn [fst snd ip_six app]; own; fields k; reflexivity. }
      split; [eexists; split; [reflexivity|apply plainb_plain; reflexivity]|]. split; [exact I|]. split; [exact I|]. split; [absent|]. split; [intros _; absent|survive].
    + left. split; [nodups|]. split.
      { eexists. split; [reflexivity|]. split; [discriminate|]. split; [apply plainb_plain; reflexivity|]. split; [reflexivity|]. split.
        - eexists. split; [reflexivity|]. split; [wordlit|]. split; [reflexivity|discriminate].
        - left. split; [reflexivity|]. split; [exists "wan"; split; [reflexivity|]; split; [reflexivity|discriminate]|].
          exists ["eth1"; "eth2.7"; "wlan0"]. split; [reflexivity|]. intros m Hm. cbn [In] in Hm. repeat (destruct Hm as [<-|Hm]; [wordlit|]). contradiction. }
      split; [eexists; apply (addr_dhcp false); [nodups|]; intros k; own; fields k; reflexivity|].
      split; [exact I|]. split; [eexists; reflexivity|]. split; [exact I|]. split; [absent|]. split; [intros _; absent|survive].
    + left. split; [nodups|]. split.
      { eexists. split; [reflexivity|]. split; [discriminate|]. split; [apply plainb_plain; reflexivity|]. split; [reflexivity|]. split; [reflexivity|].
        right. split; [reflexivity|absent]. }
      split; [eexists; apply addr_none|].
      split; [exact I|]. split; [exact I|]. split; [eexists; reflexivity|]. split; [absent|]. split; [intros _; absent|survive].
    + left. split; [nodups|]. split.
      { eexists. split; [reflexivity|]. split; [discriminate|]. split; [apply plainb_plain; reflexivity|]. split; [reflexivity|]. split; [reflexivity|].
        right. split; [reflexivity|absent]. }
      split; [eexists; apply (addr_dhcp false); [nodups|]; intros k; own; fields k; reflexivity|].
      split; [exact I|]. split; [exact I|]. split; [exact I|]. split; [absent|]. split; [intros _; absent|survive].
    + right. split; [nodups|]. split.
      { do 2 eexists. split; [reflexivity|]. split; [discriminate|]. split; [apply plainb_plain; reflexivity|]. split; [reflexivity|]. split; [cbn; auto|]. split; [|split; [reflexivity|survive]].
        split; [reflexivity|]. split; [reflexivity|]. split; [eexists; reflexivity|]. split; [|absent].
        exists [{| ip_six := false; ip_addr := 167772162; ip_len := 32 |}; {| ip_six := true; ip_addr := 336995643009485917574514803255371890690; ip_len := 128 |}].
        exists [[("proto", VStr "static"); ("family", VStr "ipv4"); ("address", VStr "10.0.0.2"); ("mask", VInt 32)];
                [("address", VStr "fd87::2"); ("mask", VInt 128); ("proto", VStr "static"); ("family", VStr "ipv6")]].
        split; [reflexivity|]. split; [discriminate|]. split.
        - repeat (constructor; [split; [nodups|]|]); [| |constructor]; intros k; unfold static_address; cbn [ip_six app]; own; fields k; reflexivity.
        - intros n [<-|[<-|[]]]; (split; [reflexivity|discriminate]). }
      split; [exact I|]. split; [exact I|]. split; [exact I|]. split; [exact I|absent].
    + right. split; [nodups|]. split.
      { do 2 eexists. split; [reflexivity|]. split; [discriminate|]. split; [apply plainb_plain; reflexivity|]. split; [reflexivity|]. split; [cbn; auto|]. split; [|split].
        - split; [eexists; split; [reflexivity|split; [discriminate|apply plainb_plain; reflexivity]]|]. split; [eexists; reflexivity|]. split; [eexists; reflexivity|absent].
        - eexists. split; [reflexivity|]. split; [wordlit|]. split; [reflexivity|discriminate].
        - survive. }
      split; [eexists; split; [reflexivity|split; [discriminate|apply plainb_plain; reflexivity]]|]. split; [eexists; reflexivity|]. split; [exact I|]. split; [exact I|absent].
    + right. split; [nodups|]. split.
      { do 2 eexists. split; [reflexivity|]. split; [discriminate|]. split; [apply plainb_plain; reflexivity|]. split; [reflexivity|]. split; [cbn; auto|]. split; [|split; [reflexivity|survive]].
        split; [|absent]. eexists. split; [reflexivity|cbn; auto 20]. }
      split; [exact I|]. split; [exact I|]. split; [eexists; reflexivity|]. split; [exact I|absent].
    + right. split; [nodups|]. split.
      { do 2 eexists. split; [reflexivity|]. split; [discriminate|]. split; [apply plainb_plain; reflexivity|]. split; [reflexivity|]. split; [cbn; auto|]. split; [|split].
        - split; [eexists; split; [reflexivity|split; [discriminate|apply plainb_plain; reflexivity]]|absent].
        - eexists. split; [reflexivity|]. split; [wordlit|]. split; [reflexivity|discriminate].
        - survive. }
      split; [exact I|]. split; [exact I|]. split; [exact I|]. split; [eexists; reflexivity|absent].
  - split.
    2: { intros a b Ha _ _ _ _. apply In_nth_error in Ha as (j & Hj). revert j a Hj. each; reflexivity. }
    intros i j a b Hi Hj Hij _.
    assert (E : NoDup (map (name_or "name" EmptyString) (flat_map wired (firstn 8 (objects "interfaces" sample))))) by (vm_compute; nodups).
    intros X. apply Hij. rewrite NoDup_nth_error in E. apply E.
    + rewrite map_length. apply nth_error_Some. congruence.
    + rewrite !nth_error_map, Hj, Hi. cbn [option_map]. congruence.
  - intros b Hb. apply In_nth_error in Hb as (j & Hj). revert j b Hj. each; try discriminate; intros _.
    + split; [nodups|]. split; [reflexivity|]. split.
      { eexists. split; [reflexivity|]. split; [discriminate|]. split; [apply plainb_plain; reflexivity|]. eexists. split; [reflexivity|].
        split; [nodups|]. split; [eexists; split; [reflexivity|split; [discriminate|apply plainb_plain; reflexivity]]|].
        split; [eexists; split; reflexivity|]. split; [reflexivity|]. split.
        { intros k H. cbn [In map fst distances] in H. repeat (destruct H as [<-|H]; [first [exact I|eexists; split; [reflexivity|reflexivity]]|]). contradiction. }
        split; [intros _ _; reflexivity|]. split.
        { eexists. split; [reflexivity|]. split; [|absent]. right. split; [nodups|]. exists "wpa2_enterprise". split; [reflexivity|]. split; [reflexivity|].
          split; [keys|]. split; [survive|]. split; [eexists; split; [reflexivity|split; [wordlit|discriminate]]|]. split; [discriminate|].
          intros _. split; [discriminate|]. split; [discriminate|reflexivity]. }
        split; [discriminate|]. split; [absent|unfold distances; cbn [app map fst]; survive]. }
      split; [eexists; split; [reflexivity|split; [discriminate|apply plainb_plain; reflexivity]]|]. split; [exact I|discriminate].
    + split; [nodups|]. split; [reflexivity|]. split.
      { eexists. split; [reflexivity|]. split; [discriminate|]. split; [apply plainb_plain; reflexivity|]. eexists. split; [reflexivity|].
        split; [nodups|]. split; [eexists; split; [reflexivity|split; [discriminate|apply plainb_plain; reflexivity]]|].
        split; [eexists; split; reflexivity|]. split; [reflexivity|]. split.
        { intros k H. cbn [In map fst distances] in H. repeat (destruct H as [<-|H]; [first [exact I|eexists; split; [reflexivity|reflexivity]]|]). contradiction. }
        split; [discriminate|]. split.
        { eexists. split; [reflexivity|]. split; [|absent]. right. split; [nodups|]. exists "wpa2_personal". split; [reflexivity|]. split; [reflexivity|].
          split; [keys|]. split; [survive|]. split; [eexists; split; [reflexivity|split; [wordlit|discriminate]]|]. split; discriminate. }
        split; [discriminate|]. split; [absent|unfold distances; cbn [app map fst]; survive]. }
      split; [exact I|]. split; [eexists; reflexivity|intros _; keys].
  - intros _. vm_compute. nodups.
Qed.
Example sample_is_a_device : device true (timezones false false) sample.
Proof.
  split; [nodups|]. split.
  { eexists. split; [reflexivity|]. split; [nodups|]. split; [eexists; split; [reflexivity|apply plainb_plain; reflexivity]|].
    split; [do 2 eexists; split; [reflexivity|vm_compute; reflexivity]|]. split; [exact I|]. split; [absent|survive]. }
  split.
  { eexists. split; [reflexivity|]. split; [nodups|]. split; [discriminate|]. split; [exact I|survive]. }
  split.
  { exists (objects "led" sample). split; [reflexivity|]. split; [discriminate|]. each. split; [nodups|].
    split; [eexists; split; [reflexivity|split; [reflexivity|exact I]]|survive]. }
  split; [exact sample_interfaces|]. split.
  { exists (objects "routes" sample). split; [reflexivity|]. split; [discriminate|]. each.
    - split; [nodups|]. split; [eexists; split; [reflexivity|exists {| ip_six := false; ip_addr := 3232236288; ip_len := 24 |}; split; [reflexivity|]; split; [reflexivity|]; split; discriminate]|].
      split; [eexists; split; [reflexivity|apply plainb_plain; reflexivity]|]. split; [eexists; split; [reflexivity|apply plainb_plain; reflexivity]|].
      split; [eexists; reflexivity|]. split; [exact I|]. split; [absent|survive].
    - split; [nodups|]. split; [eexists; split; [reflexivity|exists {| ip_six := true; ip_addr := 336995643009485917574514803255371890688; ip_len := 64 |}; split; [reflexivity|]; split; [reflexivity|]; split; [discriminate|]; intros _; reflexivity]|].
      split; [eexists; split; [reflexivity|apply plainb_plain; reflexivity]|]. split; [eexists; split; [reflexivity|apply plainb_plain; reflexivity]|].
      split; [eexists; reflexivity|]. split; [eexists; split; [reflexivity|split; [wordlit|discriminate]]|]. split; [absent|survive]. }
  split.
  { exists (objects "ip_rules" sample). split; [reflexivity|]. split; [discriminate|]. each. split; [nodups|].
    split; [do 2 eexists; split; [reflexivity|vm_compute; reflexivity]|]. split; [exact I|]. split; [exact I|survive]. }
  split.
  { exists (objects "switch" sample). split; [reflexivity|]. split; [discriminate|]. split; [|nodups]. split; [|exact I]. split; [nodups|].
    exists "switch0", (flat_map (fun s => dicts (vlans_of s)) (objects "switch" sample)).
    split; [reflexivity|]. split; [reflexivity|]. split; [reflexivity|]. split; [discriminate|]. split; [|survive]. each.
    - split; [nodups|]. split; [reflexivity|]. split; [eexists; split; [reflexivity|exact I]|]. split; [split; reflexivity|survive].
    - split; [nodups|]. split; [reflexivity|]. split; [eexists; split; [reflexivity|eexists; split; [reflexivity|discriminate]]|].
      split; [split; reflexivity|survive]. }
  split.
  { exists (objects "radios" sample). split; [reflexivity|]. split; [discriminate|]. each. split; [nodups|]. split; [eexists; split; [reflexivity|reflexivity]|].
    split; [reflexivity|]. split.
    { do 3 eexists. split; [reflexivity|]. split; [reflexivity|]. split; [reflexivity|].
      split; [split; [eexists; split; [reflexivity|apply plainb_plain; reflexivity]|reflexivity]|]. left. split; [left; reflexivity|discriminate]. }
    split; [eexists; reflexivity|]. split; [eexists; reflexivity|]. split; [eexists; split; reflexivity|]. split; [absent|survive]. }
  split.
  { exists (objects "wireguard_peers" sample). split; [reflexivity|]. split; [discriminate|]. each. split; [nodups|].
    split; [eexists; split; [reflexivity|split; [reflexivity|split; reflexivity]]|]. split; [right; discriminate|survive]. }
  split.
  { exists (objects "openvpn" sample). split; [reflexivity|]. split; [discriminate|]. each.
    - split; [nodups|]. split; [eexists; split; [reflexivity|split; [wordlit|reflexivity]]|]. split; [eexists; reflexivity|]. split; [reflexivity|].
      split; [discriminate|]. split; [discriminate|]. split; [exact I|]. split; [exact I|].
      split; [exists [[("host", VStr "vpn1.test.com"); ("port", VInt 1194)]; [("port", VInt 443); ("host", VStr "vpn2.test.com"); ("proto", VStr "tcp")]]; split; [reflexivity|]; split; [discriminate|];
        intros r Hr; cbn [In] in Hr; destruct Hr as [<-|[<-|[]]];
        (split; [eexists; split; [reflexivity|wordlit]|]); (split; [eexists; reflexivity|]); (split; [first [exact I|eexists; split; [reflexivity|split; [wordlit|discriminate]]]|keys])|].
      split; [exists [[("cipher", VStr "AES-128-GCM"); ("optional", VBool false)]; [("optional", VBool true); ("cipher", VStr "AES-256-GCM")]]; split; [reflexivity|]; split; [discriminate|];
        intros r Hr; cbn [In] in Hr; destruct Hr as [<-|[<-|[]]];
        (split; [eexists; split; [reflexivity|split; [wordlit|split; [unfold no_char; apply nochar_spec; reflexivity|reflexivity]]]|]); (split; [eexists; reflexivity|keys])|].
      split; [exists "/etc/openvpn/ta.key", "1"; split; [reflexivity|split; wordlit]|survive].
    - split; [nodups|]. split; [eexists; split; [reflexivity|split; [wordlit|reflexivity]]|]. split; [eexists; reflexivity|]. split; [reflexivity|].
      split; [discriminate|]. split; [reflexivity|]. split; [exists EmptyString; split; [reflexivity|split; [discriminate|split; [unfold no_char; apply nochar_spec; reflexivity|split; [unfold no_char; apply nochar_spec; reflexivity|split; [unfold no_char; apply nochar_spec; reflexivity|reflexivity]]]]]|].
      split; [exists ["TLS-DHE-RSA-WITH-AES-128-GCM-SHA256"; "TLS-DHE-RSA-WITH-AES-256-GCM-SHA384"]; split; [reflexivity|]; split; [discriminate|]; intros x [<-|[<-|[]]]; (split; [wordlit|unfold no_char; apply nochar_spec; reflexivity])|].
      split; [exact I|]. split; [exact I|]. split; [exact I|survive]. }
  split; [intros b Hb; apply In_nth_error in Hb as (j & Hj); revert j b Hj; each; discriminate|].
  split; [split; [exists ["192.168.1.254"; "fd87::53"]|split; [exists ["lan"; "openwisp.org"]|absent]]; (split; [reflexivity|]); intros x H; cbn [In] in H; (repeat (destruct H as [<-|H]; [wordlit|]); contradiction)|].
  split; [eexists; reflexivity|]. split.
  { intros k v H. cbn [In] in H. unfold sample in H. cbn [In] in H.
    repeat (destruct H as [H|H]; [injection H as <- <-; try (intros X; exfalso; apply X; cbn; auto 20; fail)|]); [|contradiction].
    intros _. split; [split; [discriminate|split; [reflexivity|split; [unfold no_char; apply nochar_spec; reflexivity|reflexivity]]]|].
    split; [cbn [own_packages In]; intuition discriminate|]. exists (objects "luci" sample). split; [reflexivity|]. split; [discriminate|]. each.
    - split; [nodups|]. split; [|survive]. eexists. split; [reflexivity|]. split; [wordlit|]. split; [discriminate|]. split; [discriminate|].
      eexists. split; [reflexivity|]. split; [reflexivity|]. split; [reflexivity|]. split; [reflexivity|discriminate].
    - split; [nodups|]. split; [|survive]. eexists. split; [reflexivity|]. split; [wordlit|]. split; [discriminate|]. split; [discriminate|].
      split; reflexivity. }
  split; [cbn; nodups|]. split; [vm_compute; nodups|]. split; cbn; nodups.
Qed.
Example sample_is_valid : owrt_validate (fun _ => Ok tt) sample = Ok tt.
Proof. vm_compute. reflexivity. Qed.
(** A device with one static interface and two with addresses: the servers are
    kept and the domains are not. *)
Definition resolver : dict :=
  [("interfaces", VList [
      VDict [("name", VStr "eth0"); ("type", VStr "ethernet");
             ("addresses", VList [VDict [("proto", VStr "static"); ("family", VStr "ipv4"); ("address", VStr "192.168.1.1"); ("mask", VInt 24)]])];
      VDict [("name", VStr "eth1"); ("type", VStr "ethernet");
             ("addresses", VList [VDict [("proto", VStr "dhcp"); ("family", VStr "ipv4")]])]]);
   ("dns_servers", VList [VStr "192.168.1.254"; VStr "fd87::53"]);
   ("dns_search", VList [VStr "lan"; VStr "openwisp.org"])].
Example resolver_is_a_device : device true (timezones false false) resolver.
Proof.
  split; [nodups|]. split; [exact I|]. split; [exact I|]. split; [exact I|]. split.
  { exists (objects "interfaces" resolver), []. split; [reflexivity|]. split; [discriminate|].
    split; [intros b Hb; apply In_nth_error in Hb as (j & Hj); revert j b Hj; each; (discriminate || reflexivity)|].
    split; [intros b []|]. split; [|split; [|split]].
    - intros b Hb. apply In_nth_error in Hb as (j & Hj). revert j b Hj. each.
      + left. split; [nodups|]. split.
        { eexists. split; [reflexivity|]. split; [discriminate|]. split; [apply plainb_plain; reflexivity|]. split; [reflexivity|]. split; [reflexivity|].
          right. split; [reflexivity|absent]. }
        split.
        { eexists. apply (addr_static [({| ip_six := false; ip_addr := 3232235777; ip_len := 24 |}, None)] []
            [[("proto", VStr "static"); ("family", VStr "ipv4"); ("address", VStr "192.168.1.1"); ("mask", VInt 24)]]).
          - split; [intros n o Hin; cbn [In] in Hin; repeat (destruct Hin as [Hin|Hin]; [injection Hin as <- <-; split; [reflexivity|split; [reflexivity|discriminate]]|]); contradiction|].
            split; [intros m g []|exact I].
          - split; [intros n o []|exact I].
          - discriminate.
          - cbn [app]. repeat (constructor; [split; [nodups|]|]); [|constructor]; intros k; unfold static_address; cbn [fst snd ip_six app]; own; fields k; reflexivity. }
        split; [exact I|]. split; [exact I|]. split; [exact I|]. split; [absent|]. split; [intros _; absent|survive].
      + left. split; [nodups|]. split.
        { eexists. split; [reflexivity|]. split; [discriminate|]. split; [apply plainb_plain; reflexivity|]. split; [reflexivity|]. split; [reflexivity|].
          right. split; [reflexivity|absent]. }
        split; [eexists; apply (addr_dhcp false); [nodups|]; intros k; own; fields k; reflexivity|].
        split; [exact I|]. split; [exact I|]. split; [exact I|]. split; [absent|]. split; [intros _; absent|survive].
    - split; [|intros a b Ha _ _ _ _; apply In_nth_error in Ha as (j & Hj); revert j a Hj; each; reflexivity]. intros i j a b Hi Hj Hij _.
      assert (E : NoDup (map (name_or "name" EmptyString) (flat_map wired (objects "interfaces" resolver)))) by (vm_compute; nodups).
      intros X. apply Hij. rewrite NoDup_nth_error in E. apply E.
      + rewrite map_length. apply nth_error_Some. congruence.
      + rewrite !nth_error_map, Hj, Hi. cbn [option_map]. congruence.
    - intros b Hb. apply In_nth_error in Hb as (j & Hj). revert j b Hj. each; discriminate.
    - intros _. vm_compute. nodups. }
  split; [exact I|]. split; [exact I|]. split; [exact I|]. split; [exact I|]. split; [exact I|]. split; [exact I|].
  split; [intros b Hb; apply In_nth_error in Hb as (j & Hj); revert j b Hj; each; discriminate|].
  split; [split; [exists ["192.168.1.254"; "fd87::53"]|split; [exists ["lan"; "openwisp.org"]|absent]]; (split; [reflexivity|]); intros x H; cbn [In] in H; (repeat (destruct H as [<-|H]; [wordlit|]); contradiction)|].
  split; [exact I|]. split.
  { intros k v H. cbn [In] in H. unfold resolver in H. cbn [In] in H.
    repeat (destruct H as [H|H]; [injection H as <- <-; intros X; exfalso; apply X; cbn; auto 20; fail|]). contradiction. }
  split; [cbn; nodups|]. split; [vm_compute; nodups|]. split; cbn; nodups.
Qed.
Theorem C54_refuted : forall oid, let B := openwrt oid (fun _ => Ok tt) true false false in
  exists config text inter config', device true (timezones false false) config /\ owrt_validate (fun _ => Ok tt) config = Ok tt /\
    renders oid B config text inter /\ parses oid B text config' /\ kept "dns_servers" config config' /\ ~ kept "dns_search" config config'.
Proof.
  intros oid B.
  assert (V : owrt_validate (fun _ => Ok tt) resolver = Ok tt) by (vm_compute; reflexivity).
  destruct (C54_kept oid (fun _ => Ok tt) true false false resolver resolver_is_a_device V) as (t & i & c & Hr & Hp & K1 & K2).
  exists resolver, t, i, c. split; [exact resolver_is_a_device|]. split; [exact V|]. split; [exact Hr|]. split; [exact Hp|].
  split; [apply K1; [discriminate|vm_compute; reflexivity]|]. intros K. apply K2 in K; [vm_compute in K; discriminate K|discriminate].
Qed.
Print Assumptions C51_device.
Print Assumptions C54_dns.
Print Assumptions C54_kept.
Print Assumptions C54_refuted.
Print Assumptions C31_custom_packages.
Print Assumptions C32_general.
Print Assumptions C33_routes.
Print Assumptions C34_rules.
Print Assumptions C35_switch.
Print Assumptions C36_ntp_led.
Print Assumptions C37_radios.
Print Assumptions C38_wireless.
Print Assumptions C39_interfaces.
Print Assumptions C52_openvpn.
Print Assumptions C32_hostname_default.
Print Assumptions C32_zone_of_text.
Print Assumptions C32_parse_text.
Print Assumptions C32_set_zones.
Print Assumptions C40_distinct_sections.
Print Assumptions C40_refuted.
