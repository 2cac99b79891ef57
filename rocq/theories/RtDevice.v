(** * RtDevice: an OpenWrt device through UCI text and back (proofs only). *)
From Verif Require Import PyBase PyLemmas Merge SpecMerge MergeProofs MergeListProofs MergeFinal
  Uci Backend Conv Ip Timezones OwrtConv OpenVpnConv OwrtWireless OwrtInterfaces OpenWrt
  StrLemmas SpecUci SpecConv SpecDevice SpecShapes SpecEncryption SpecWireless SpecWhole ConvLemmas SortLemmas RtStage RtBack RtGeneric RtSystem RtNetwork RtSwitch RtRadio RtDefault RtTrip RtObjects
  RtInterface RtIfStage RtStages RtTunnelStage RtBridged RtWifiStage ShapeProofs.

(** ** All together *)
Lemma packages_exist : forall config, (optional "type" config (fun v => exists s, v = VStr s)) -> NoDup (dkeys config) ->
  custom_packages_ok config -> exists ps, packages owrt_keys config ps /\
  forall p, In p (map fst ps) -> package_name p /\ ~ In p own_packages.
Proof.
  assert (E : settings = owrt_keys) by reflexivity. unfold custom_packages_ok. rewrite E. clear E.
  assert (Hi : forall ks k, ignored ks k = existsb (String.eqb k) ks) by reflexivity.
  generalize owrt_keys. intros ks config. induction config as [|[k v] config IH]; intros Ht Hn Hc.
  - exists []. split; [constructor|intros p []].
  - cbn in Hn. inversion Hn as [|? ? Hni Hn']; subst.
    destruct IH as (ps & Hps & Hnames).
    { unfold optional in *. cbn [dget] in Ht. destruct (String.eqb_spec "type" k) as [<-|]; [|exact Ht].
      destruct (dget "type" config) as [w|] eqn:Ew; [|exact I]. exfalso. apply Hni. apply dget_In in Ew. apply (in_map fst) in Ew. exact Ew. }
    { exact Hn'. } { intros k0 v0 H0. apply Hc. right. exact H0. }
    destruct (is_custom ks k) eqn:Ec.
    + destruct (Hc k v (or_introl eq_refl)) as (H1 & H2 & l & -> & Hne & Hl).
      { unfold is_custom in Ec. apply andb_prop in Ec as [E1 E2]. rewrite Hi in E1. apply negb_true_iff in E1, E2. intros [<-|Hin].
        - rewrite eqb_refl in E2. discriminate.
        - assert (existsb (String.eqb k) ks = true); [|congruence]. apply existsb_exists. exists k. rewrite eqb_refl. auto. }
      destruct (custom_list_exists l 0 Hl) as (ss & Hss). exists ((k, ss) :: ps). split.
      * apply pk_custom; [exact Ec| |exact Hps]. exists l. auto.
      * intros p [<-|Hp]; [auto|apply Hnames, Hp].
    + exists ps. split; [|exact Hnames]. apply pk_known; [exact Ec| |exact Hps].
      intros ->. unfold optional in Ht. cbn [dget] in Ht. rewrite eqb_refl in Ht. exact Ht.
Qed.

Lemma spares_types ready sees config g h types names good : (sg_eats g = fun d => negb (skip_block types d)) -> stage_facts_if ready sees config h names good ->
  types <> [] -> (forall t, good t -> existsb (String.eqb t) types = false) -> spares g h.
Proof.
  intros He Hf Hne Hg _ s s' Hs Hr. rewrite He. destruct (sf_types _ _ _ _ _ _ Hf s s' Hs Hr) as (t & Ht & Et).
  rewrite (skip_other types s' t Et Hne (Hg t Ht)). reflexivity.
Qed.
Lemma ordered_split (A : Type) (R : A -> A -> Prop) l : ForallOrdPairs R l -> forall a g b h, l = (a ++ g :: b)%list -> In h b -> R g h.
Proof.
  intros H. induction H as [|x l Hx H IH]; intros a g b h E Hin; [destruct a; discriminate|].
  destruct a as [|y a]; injection E as -> ->.
  - rewrite Forall_forall in Hx. apply Hx, Hin.
  - eapply IH; [reflexivity|exact Hin].
Qed.
Lemma starts_neq p t x : startswith p t = true -> startswith p x = false -> String.eqb t x = false.
Proof. intros H1 H2. apply eqb_neq. intros ->. congruence. Qed.

Lemma kept_all ready sees config g names good (f : dict -> bool) : stage_facts_if ready sees config g names good ->
  (forall s t, dget ".type" s = Some (VStr t) -> good t -> f s = true) -> filter f (sg_secs g) = sg_secs g.
Proof.
  intros F H. apply filter_all. intros s Hs. destruct (sf_made _ _ _ _ _ _ F s Hs) as (t & Ht & Et). eapply H; eassumption.
Qed.
Lemma kept_none ready sees config g names good (f : dict -> bool) : stage_facts_if ready sees config g names good ->
  (forall s t, dget ".type" s = Some (VStr t) -> good t -> f s = false) -> filter f (sg_secs g) = [].
Proof.
  intros F H. apply filter_none. intros s Hs. destruct (sf_made _ _ _ _ _ _ F s Hs) as (t & Ht & Et). eapply H; eassumption.
Qed.

Section Device.
  Variable oid : oracle.
  Variable schema_ok : dict -> res unit.
  Variable dsa f1 f2 : bool.
  Variable config : dict.
  Hypothesis dev : device dsa (timezones f1 f2) config.
  Record device_sections (inter : dict) : Prop := {
    ds_general : made_alone config "general" "system" (general_fwd_block (timezones f1 f2)) (sections "system" ["system"] inter);
    ds_ntp : made_alone config "ntp" "system" ntp_fwd_block (sections "system" ["timeserver"] inter);
    ds_led : made_by config "led" (fun b _ => led_section b) (sections "system" ["led"] inter);
    ds_interfaces : if_list dsa config (network_interfaces config) (sections "network" ["interface"; "device"] inter);
    ds_routes : made_by config "routes" route_section (sections "network" ["route"; "route6"] inter);
    ds_rules : made_by config "ip_rules" rule_section (sections "network" ["rule"; "rule6"] inter);
    ds_switch : switch_shape (objects "switch" config) (sections "network" ["switch"; "switch_vlan"] inter);
    ds_radios : made_by config "radios" (fun b _ => radio_section dsa b) (sections "wireless" ["wifi-device"] inter);
    ds_wireless : Forall2 (wsec (objects "interfaces" config)) (wireless_interfaces config) (sections "wireless" ["wifi-iface"] inter);
    ds_peers : made_by config "wireguard_peers" peer_section (filter wireguard_typed (objects "network" inter));
    ds_vpn : made_by config "openvpn" vpn_sec (sections "openvpn" ["openvpn"] inter);
    ds_custom : forall k v, In (k, v) config -> is_custom owrt_keys k = true -> made_by config k custom_sec (objects k inter);
    ds_names : named (objects "system" inter) (system_names config) /\ named (objects "network" inter) (network_names dsa config) /\
      named (objects "wireless" inter) (wireless_names config) /\ named (objects "openvpn" inter) (vpn_names config)
  }.
  Lemma device_trip : exists config1 inter text inter' config' left,
    convert_fwd oid (owrt_convs oid dsa f1 f2) (fresh config) [] = ({| st_config := config1; st_inter := Some inter |}, Ok tt) /\
    (forall k, is_custom owrt_keys k = false -> dget k config1 = dget k config) /\
    device_sections inter /\
    render_uci inter = Ok text /\ parse_text text = Ok inter' /\
    convert_bwd oid (openwrt oid schema_ok dsa f1 f2) (owrt_convs oid dsa f1 f2) inter' [] inter' = ((config', left), Ok tt) /\
    NoDup (dkeys config') /\
    forall k, if String.eqb k "files" || String.eqb k "type" then dget k config' = None
              else if String.eqb k "dns_servers" then agree (olist (map VStr (flat_map (reads1 config) (network_interfaces config)))) (dget k config')
              else if String.eqb k "dns_search" then agree (olist (map VStr (flat_map (reads2 config) (network_interfaces config)))) (dget k config')
              else match dget k config with
                   | Some v => exists v', dget k config' = Some v' /\ same v v'
                   | None => dget k config' = None
                   end.
  Proof.
    destruct dev as (Hn & Hgen & Hntp & Hled & Hint & Hrt & Hru & Hsw & Hrad & Hwg & Hvpn & Hbri & (Hd1 & Hd2 & Habs) & Hty & Hcu & Nsys & Nnet & Nrad & Nvpn).
    destruct (general_stage config f1 f2 Hgen) as (g1 & C1 & K1 & P1 & E1 & V1 & B1 & M1 & F1 & S1).
    destruct (ntp_stage config Hntp) as (g2 & C2 & K2 & P2 & E2 & V2 & B2 & M2 & F2 & S2).
    destruct (led_stage config Hled) as (g3 & C3 & K3 & P3 & E3 & V3 & B3 & M3 & F3 & S3).
    assert (Hq : dns_config config) by (split; assumption).
    destruct (interfaces_stage_for config oid dsa Hq Hint) as (g4 & C4 & K4 & P4 & E4 & V4 & B4 & M4 & F4 & S4); [eapply NoDup_app_l; exact Nnet|].
    destruct (routes_stage config Hrt) as (g5 & C5 & K5 & P5 & E5 & V5 & B5 & M5 & F5 & S5).
    destruct (rules_stage config Hru) as (g6 & C6 & K6 & P6 & E6 & V6 & B6 & M6 & F6 & S6).
    destruct (switch_stage_for config Hsw) as (g7 & C7 & K7 & P7 & E7 & V7 & B7 & M7 & F7 & S7).
    destruct (radios_stage config dsa Hrad) as (g8 & C8 & K8 & P8 & E8 & V8 & B8 & M8 & F8 & S8).
    destruct (wireless_stage dsa config Hint) as (g9 & C9 & K9 & P9 & E9 & V9 & B9 & M9 & F9 & S9); [eapply NoDup_app_l; exact Nnet|].
    destruct (vpn_stage config Hvpn) as (g10 & C10 & K10 & P10 & E10 & V10 & B10 & M10 & F10 & S10).
    destruct (peers_stage config Hwg) as (g11 & C11 & K11 & P11 & E11 & V11 & B11 & M11 & F11 & S11).
    destruct (zerotier_none config) as (g12 & C12 & K12 & P12 & E12 & V12 & B12 & M12 & F12 & S12); [apply Habs; cbn; auto 6|].
    unfold uci_types in E4. unfold sw_types in E7.
    destruct (packages_exist config Hty Hn Hcu) as (ps & Hps & Hpn).
    set (gs := [g1; g2; g3; g4; g5; g6; g7; g8; g9; g10; g11; g12]).
    assert (Hpkg : map sg_pkg gs = ["system"; "system"; "system"; "network"; "network"; "network"; "network"; "wireless"; "wireless"; "openvpn"; "network"; "zerotier"]).
    { unfold gs. cbn [map]. rewrite P1, P2, P3, P4, P5, P6, P7, P8, P9, P10, P11, P12. reflexivity. }
    assert (Hkey : map sg_key gs = ["general"; "ntp"; "led"; "interfaces"; "routes"; "ip_rules"; "switch"; "radios"; "interfaces"; "openvpn"; "wireguard_peers"; "zerotier"]).
    { unfold gs. cbn [map]. rewrite K1, K2, K3, K4, K5, K6, K7, K8, K9, K10, K11, K12. reflexivity. }
    assert (Hcon : owrt_convs oid dsa f1 f2 = (map sg_conv gs ++ [default owrt_keys])%list).
    { unfold gs. cbn [map]. rewrite C1, C2, C3, C4, C5, C6, C7, C8, C9, C10, C11, C12. reflexivity. }
    assert (Hall : forall g, In g gs -> exists ready sees names good, stage_facts_if ready sees config g names good).
    { intros g Hg. unfold gs in Hg. cbn [In] in Hg.
      repeat (destruct Hg as [<-|Hg]; [do 4 eexists; eassumption|]). destruct Hg. }
    assert (Hnet : secs_of "network" gs = (sg_secs g4 ++ sg_secs g5 ++ sg_secs g6 ++ sg_secs g7 ++ sg_secs g11)%list).
    { unfold secs_of, gs. cbn [flat_map]. rewrite P1, P2, P3, P4, P5, P6, P7, P8, P9, P10, P11, P12. cbn [String.eqb Ascii.eqb Bool.eqb app]. rewrite app_nil_r. reflexivity. }
    assert (Hstill : forall s, In s (sg_secs g5 ++ sg_secs g6 ++ sg_secs g7 ++ sg_secs g11) -> still s).
    { unfold other_network_objects in Hbri. intros s Hs. rewrite !in_app_iff in Hs. destruct Hs as [Hs|[Hs|[Hs|Hs]]]; revert s Hs.
      - apply (made_still config "routes" route_section _ route_ok); try assumption; [|apply route_still]. intros b Hb. apply Hbri. rewrite !in_app_iff. auto.
      - apply (made_still config "ip_rules" rule_section _ rule_ok); try assumption; [|apply rule_still]. intros b Hb. apply Hbri. rewrite !in_app_iff. auto.
      - apply (switches_still config _ Hsw S7). intros b Hb. apply Hbri. rewrite !in_app_iff in *. tauto.
      - apply (made_still config "wireguard_peers" peer_section _ peer_ok); try assumption; [|apply peer_still]. intros b Hb. apply Hbri. rewrite !in_app_iff. auto. }
    destruct (trip oid (openwrt oid schema_ok dsa f1 f2) gs owrt_keys config ps) as (config1 & inter & text & inter' & config' & left & T1 & T2 & T8 & T9 & T3 & T4 & T5 & T6 & T7).
    - exact Hcon.
    - exact Hn.
    - reflexivity.
    - exact Hps.
    - intros p Hp. destruct (Hpn p Hp) as [X1 X2]. split; [exact X1|]. rewrite Hpkg. intros Hin. apply X2. cbn [In own_packages] in *.
      repeat (destruct Hin as [<-|Hin]; [auto 6|]). destruct Hin.
    - intros g Hg. apply (in_map sg_pkg) in Hg. rewrite Hpkg in Hg. cbn [In] in Hg.
      repeat (destruct Hg as [<-|Hg]; [split; [discriminate|split; [reflexivity|split; [unfold no_char; apply nochar_spec; reflexivity|reflexivity]]]|]). destruct Hg.
    - unfold gs. cbn [chained]. unfold put. rewrite K1, K2, K3, K4, K5, K6, K7, K8, K9, K10, K11, K12, ?V1, ?V2, ?V3, ?V4, ?V5, ?V6, ?V7, ?V8, ?V9, ?V10, ?V11, ?V12, B1, B2, B3, B4, B5, B6, B7, B8, B9, B10, B11, B12, M1, M2, M3, M4, M5, M6, M7, M8, M9, M10, M11, M12. cbn [String.eqb Ascii.eqb Bool.eqb dget]. repeat (split; [split; [rewrite ?dget_dns_more; reflexivity|]|]); try exact I; try (intros k X; discriminate X).
      intros x X. unfold dmem in X. rewrite dget_dns_more in X. destruct (String.eqb_spec x "dns_servers") as [E|]; [subst x; reflexivity|]. destruct (String.eqb_spec x "dns_search") as [E|]; [subst x; reflexivity|discriminate X].
    - intros g Hg. apply (in_map sg_key) in Hg. rewrite Hkey in Hg. cbn [In] in Hg.
      repeat (destruct Hg as [<-|Hg]; [reflexivity|]). destruct Hg.
    - intros g Hg. unfold gs in Hg. cbn [In] in Hg. unfold finally, gs. cbn [fold_left]. unfold put. rewrite K1, K2, K3, K4, K5, K6, K7, K8, K9, K10, K11, K12, V1, V2, V3, V4, V5, V6, V7, V8, V9, V10, V11, V12, M1, M2, M3, M4, M5, M6, M7, M8, M9, M10, M11, M12.
      repeat (destruct Hg as [<-|Hg]; [rewrite ?K1, ?K2, ?K3, ?K4, ?K5, ?K6, ?K7, ?K8, ?K9, ?K10, ?K11, ?K12; cbn [String.eqb Ascii.eqb Bool.eqb dget]; rewrite ?dget_dns_more; reflexivity|]). destruct Hg.
    - intros a g b Eg. unfold gs in Eg.
      repeat (destruct a as [|? a]; cbn [app] in Eg; [injection Eg as <- _|injection Eg as <- Eg]); [..|destruct a; discriminate Eg].
      Ltac fwd_now := match goal with F : stage_facts_if ?r _ _ ?g _ _ |- stage_fwd _ _ ?g => apply (sf_fwd _ _ _ _ _ _ F) end.
      all: fwd_now; try exact I.
      intros inter [_ Hh]. unfold track_bridged. rewrite Hh. unfold secs_of. cbn [flat_map]. rewrite P1, P2, P3, P4, P5, P6, P7, P8. cbn [String.eqb Ascii.eqb Bool.eqb app]. rewrite app_nil_r.
      assert (T : foldM (track_one dsa) [] (map VDict (sg_secs g4 ++ sg_secs g5 ++ sg_secs g6 ++ sg_secs g7)) = Ok (tracked config)).
      { apply (network_tracked dsa config _ _ (sg_secs g5 ++ sg_secs g6 ++ sg_secs g7) S4); [|left; reflexivity]. intros s Hs. apply Hstill. rewrite !in_app_iff in *. tauto. }
      revert T. destruct (sg_secs g4 ++ sg_secs g5 ++ sg_secs g6 ++ sg_secs g7)%list; intros T; exact T.
    - intros orig g Ho Hr Hg.
      assert (T : track_bridged dsa orig = Ok (tracked config)).
      { unfold track_bridged. pose proof (network_tracked dsa config _ _ (sg_secs g5 ++ sg_secs g6 ++ sg_secs g7 ++ sg_secs g11) S4 Hstill) as T.
        destruct (Hr "network") as [[Hnil X]|(ss' & -> & F)]; [rewrite Hpkg; cbn [In]; auto| |].
        - rewrite Hnet in Hnil. specialize (T [] (or_introl (eq_sym Hnil))). destruct X as [-> | ->]; exact T.
        - rewrite Hnet in F. cbn [as_list bind]. apply T. right. exact F. }
      unfold gs in Hg. cbn [In] in Hg.
      Ltac bwd_now := match goal with F : stage_facts_if ?r _ _ ?g _ _ |- stage_bwd _ _ _ ?g => apply (sf_bwd _ _ _ _ _ _ F) end.
      repeat (destruct Hg as [<-|Hg]; [bwd_now; [exact Ho|try exact I]|]); [|destruct Hg].
      split; [eexists; reflexivity|exact T].
    - intros g Hg. destruct (Hall g Hg) as (? & ? & ? & ? & F). apply (sf_ne _ _ _ _ _ _ F).
    - intros g k Hg Hk. rewrite Hkey. unfold gs in Hg. cbn [In] in Hg.
      assert (X : dmem k (dns_more config (network_interfaces config)) = true).
      { repeat (destruct Hg as [<-|Hg]; [rewrite ?M1, ?M2, ?M3, ?M4, ?M5, ?M6, ?M7, ?M8, ?M9, ?M10, ?M11, ?M12 in Hk; first [exact Hk|discriminate Hk]|]). destruct Hg. }
      unfold dmem in X. rewrite dget_dns_more in X. destruct (String.eqb_spec k "dns_servers") as [->|]; [split; [reflexivity|cbn [In]; intuition discriminate]|].
      destruct (String.eqb_spec k "dns_search") as [->|]; [split; [reflexivity|cbn [In]; intuition discriminate]|discriminate X].
    - apply ordered_split. unfold gs.
      Ltac pairs := repeat match goal with
        | |- Forall _ (_ :: _) => constructor
        | |- Forall _ [] => constructor
        end.
      Ltac apart := solve [intros X; exfalso; repeat match goal with H : sg_pkg ?g = ?p, X : _ |- _ => lazymatch p with sg_pkg _ => fail | _ => rewrite H in X; clear H end end; discriminate X
        | eapply spares_types; [eassumption|eassumption|discriminate|]; cbn beta;
          first [ solve [intros t []]
                | intros t -> ; reflexivity
                | intros t [-> | ->]; reflexivity
                | intros t Ht; cbn [existsb]; rewrite !(starts_neq "wireguard_" t) by (exact Ht || reflexivity); reflexivity ] ].
      repeat (constructor; [pairs; apart|]). constructor.
    - intros p. unfold secs_of, gs. cbn [flat_map]. rewrite P1, P2, P3, P4, P5, P6, P7, P8, P9, P10, P11, P12.
      pose proof (sf_named _ _ _ _ _ _ F1). pose proof (sf_named _ _ _ _ _ _ F2). pose proof (sf_named _ _ _ _ _ _ F3). pose proof (sf_named _ _ _ _ _ _ F4).
      pose proof (sf_named _ _ _ _ _ _ F5). pose proof (sf_named _ _ _ _ _ _ F6). pose proof (sf_named _ _ _ _ _ _ F7). pose proof (sf_named _ _ _ _ _ _ F8).
      pose proof (sf_named _ _ _ _ _ _ F9). pose proof (sf_named _ _ _ _ _ _ F10). pose proof (sf_named _ _ _ _ _ _ F11). pose proof (sf_named _ _ _ _ _ _ F12).
      Ltac nm := repeat first [apply Forall2_app; [eassumption|] | eassumption | apply Forall2_nil].
      destruct (String.eqb_spec "system" p) as [<-|].
      { cbn [String.eqb Ascii.eqb Bool.eqb app]. eexists. split; [unfold named; nm|]. rewrite app_nil_r. exact Nsys. }
      destruct (String.eqb_spec "network" p) as [<-|].
      { cbn [String.eqb Ascii.eqb Bool.eqb app]. eexists. split; [unfold named; nm|]. rewrite app_nil_r. exact Nnet. }
      destruct (String.eqb_spec "wireless" p) as [<-|].
      { cbn [String.eqb Ascii.eqb Bool.eqb app]. eexists. split; [unfold named; nm|]. cbn [app]. rewrite ?app_nil_r. exact Nrad. }
      destruct (String.eqb_spec "openvpn" p) as [<-|].
      { cbn [String.eqb Ascii.eqb Bool.eqb app]. eexists. split; [unfold named; nm|]. rewrite app_nil_r. exact Nvpn. }
      destruct (String.eqb_spec "zerotier" p) as [<-|].
      { cbn [String.eqb Ascii.eqb Bool.eqb app]. eexists. split; [unfold named; nm|]. constructor. }
      exists []. split; constructor.
    - intros g s Hg. destruct (Hall g Hg) as (? & ? & ? & ? & F). apply (sf_ok _ _ _ _ _ _ F).
    - assert (Hobj : forall p, In p (map sg_pkg gs) -> objects p inter = secs_of p gs).
      { intros p Hp. unfold objects. rewrite (T8 p Hp). destruct (secs_of p gs) as [|x xs]; [reflexivity|]. apply dicts_of_map. }
      assert (Osys : objects "system" inter = (sg_secs g1 ++ sg_secs g2 ++ sg_secs g3)%list).
      { rewrite Hobj by (rewrite Hpkg; cbn [In]; auto 15). unfold secs_of, gs. cbn [flat_map]. rewrite P1, P2, P3, P4, P5, P6, P7, P8, P9, P10, P11, P12.
        cbn [String.eqb Ascii.eqb Bool.eqb app]. rewrite app_nil_r. reflexivity. }
      assert (Onet : objects "network" inter = (sg_secs g4 ++ sg_secs g5 ++ sg_secs g6 ++ sg_secs g7 ++ sg_secs g11)%list).
      { rewrite Hobj by (rewrite Hpkg; cbn [In]; auto 15). unfold secs_of, gs. cbn [flat_map]. rewrite P1, P2, P3, P4, P5, P6, P7, P8, P9, P10, P11, P12.
        cbn [String.eqb Ascii.eqb Bool.eqb app]. rewrite app_nil_r. reflexivity. }
      assert (Owir : objects "wireless" inter = (sg_secs g8 ++ sg_secs g9)%list).
      { rewrite Hobj by (rewrite Hpkg; cbn [In]; auto 15). unfold secs_of, gs. cbn [flat_map]. rewrite P1, P2, P3, P4, P5, P6, P7, P8, P9, P10, P11, P12.
        cbn [String.eqb Ascii.eqb Bool.eqb app]. rewrite app_nil_r. reflexivity. }
      assert (Ovpn : objects "openvpn" inter = sg_secs g10).
      { rewrite Hobj by (rewrite Hpkg; cbn [In]; auto 15). unfold secs_of, gs. cbn [flat_map]. rewrite P1, P2, P3, P4, P5, P6, P7, P8, P9, P10, P11, P12.
        cbn [String.eqb Ascii.eqb Bool.eqb app]. rewrite app_nil_r. reflexivity. }
      assert (Hsec : device_sections inter).
      { clear Hkey Hpkg Hcon T7 Hobj T8.
        Ltac type_now := let s := fresh in let t := fresh in let Es := fresh in let Ht := fresh in
          intros s t Es Ht; cbn beta in Ht; unfold typed_as, wireguard_typed; rewrite Es;
          first [ destruct Ht; fail | subst t; reflexivity | destruct Ht as [Ht|Ht]; subst t; reflexivity
                | exact Ht | cbn [existsb]; rewrite !(starts_neq "wireguard_" t) by (exact Ht || reflexivity); reflexivity ].
        Ltac keep := rewrite ?filter_app; repeat match goal with
          | F : stage_facts_if _ _ _ ?g _ _ |- context [filter ?f (sg_secs ?g)] =>
              first [ rewrite (kept_none _ _ _ _ _ _ f F) by type_now | rewrite (kept_all _ _ _ _ _ _ f F) by type_now ]
          end; cbn [app]; rewrite ?app_nil_r.
        constructor; unfold sections; rewrite ?Osys, ?Onet, ?Owir, ?Ovpn; try (keep; assumption).
        2:{ unfold named, system_names, network_names, wireless_names, vpn_names.
            pose proof (sf_named _ _ _ _ _ _ F1). pose proof (sf_named _ _ _ _ _ _ F2). pose proof (sf_named _ _ _ _ _ _ F3). pose proof (sf_named _ _ _ _ _ _ F4).
            pose proof (sf_named _ _ _ _ _ _ F5). pose proof (sf_named _ _ _ _ _ _ F6). pose proof (sf_named _ _ _ _ _ _ F7). pose proof (sf_named _ _ _ _ _ _ F8).
            pose proof (sf_named _ _ _ _ _ _ F9). pose proof (sf_named _ _ _ _ _ _ F10). pose proof (sf_named _ _ _ _ _ _ F11). repeat split; nm; auto. }
        intros k v Hkv Hc. 
        assert (Hk : In k (map fst ps)). { apply (packages_keys _ _ _ Hps). split; [apply (in_map fst) in Hkv; exact Hkv|exact Hc]. }
        apply in_map_iff in Hk as ([k0 ss] & Ek & Hss). cbn in Ek. subst k0.
        destruct (packages_get _ _ _ Hps Hn _ _ Hss) as (l & Hl & _ & Hcl). unfold made_by.
        rewrite (objects_list _ _ _ Hl), (objects_list _ _ _ (T9 _ _ Hss)).
        eapply indexed_impl; [|exact Hcl]. intros j b s (X & _). exact X. }
      exists config1, inter, text, inter', config', left. split; [exact T1|]. split; [exact T2|]. split; [exact Hsec|]. split; [exact T3|].
      split; [exact T4|]. split; [exact T5|]. split; [exact T6|]. intros k. specialize (T7 k).
      assert (Hfin : forall k, finally gs (fun _ => None) k = if existsb (String.eqb k) (map sg_key gs) then finally gs (fun _ => None) k else dget k (dns_more config (network_interfaces config))).
      { clear k T7. intros k. destruct (existsb _ _) eqn:Ek; [reflexivity|]. rewrite Hkey in Ek. cbn [existsb] in Ek.
        unfold finally, gs. cbn [fold_left]. unfold put. rewrite K1, K2, K3, K4, K5, K6, K7, K8, K9, K10, K11, K12, M1, M2, M3, M4, M5, M6, M7, M8, M9, M10, M11, M12. cbn [dget].
        repeat match goal with H : (_ || _) = false |- _ => apply orb_false_iff in H as [? H] end.
        repeat match goal with H : String.eqb _ _ = false |- _ => rewrite H; clear H end. destruct (dget k (dns_more _ _)); reflexivity. }
      rewrite Hfin, Hkey, dget_dns_more in T7. clear Hfin.
      destruct (String.eqb_spec k "files") as [->|Hk1]; [exact T7|].
      destruct (String.eqb_spec k "type") as [->|Hk2]; [exact T7|]. cbn [orb].
      destruct (String.eqb_spec k "dns_servers") as [E|Hk3]; [subst k; exact T7|].
      destruct (String.eqb_spec k "dns_search") as [E|Hk4]; [subst k; exact T7|].
      destruct (existsb (String.eqb k) _ || is_custom owrt_keys k) eqn:Ek in T7; [exact T7|].
      apply orb_false_iff in Ek as [Ek1 Ek2]. unfold is_custom in Ek2. rewrite (eqb_neq k "type" Hk2), andb_true_r in Ek2.
      apply negb_false_iff in Ek2. unfold ignored, owrt_keys in Ek2. cbn [existsb] in Ek1, Ek2.
      rewrite (eqb_neq k "files" Hk1) in Ek2.
      rewrite (eqb_neq k "dns_servers" Hk3), (eqb_neq k "dns_search" Hk4) in Ek2.
      exfalso. repeat match goal with H : (_ || _) = false |- _ => apply orb_false_iff in H as [? H] end.
      repeat match goal with H : String.eqb _ _ = false |- _ => rewrite H in Ek2; clear H end. discriminate Ek2.
  Qed.
End Device.
