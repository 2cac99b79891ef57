(** * ShapeProofs: what the sections of the objects show (proofs only). *)
From Verif Require Import PyBase PyLemmas Merge MergeProofs Uci Backend Conv Ip IpProofs Timezones OwrtConv OpenVpnConv OwrtWireless OwrtInterfaces OpenWrt
  StrLemmas SpecUci SpecConv SpecDevice SpecShapes SpecEncryption SpecWireless SpecWhole ConvLemmas SortLemmas RtStage RtBack RtGeneric RtSystem RtNetwork RtSwitch RtRadio RtDefault RtTrip RtObjects RtAddress RtInterface RtIfFwd RtProto RtIfStage RtStages RtBridged.

Ltac own := cbn [dget].
Lemma ntp_fwd_cons b : b <> [] -> ntp_fwd_block b [] =
  Ok [("system", VList [VDict (ssort (dupdate (ddel "id" b) [(".type", VStr "timeserver"); (".name", pop_or "id" (VStr "ntp") b)]))])].
Proof. destruct b; [congruence|reflexivity]. Qed.
Lemma ntp_section_shown b s : ntp_ok b -> ntp_fwd_block b [] = Ok [("system", VList [VDict s])] -> ntp_shown b s.
Proof.
  intros (Hnd & Hne & Hid & Hf) E. destruct (name_cases _ _ _ Hid) as (n & Hn & Hpop & _ & _).
  unfold ntp_shown, shows. rewrite Hn. rewrite (ntp_fwd_cons b Hne) in E. injection E as <-. rewrite Hpop.
  intros k. own. rewrite dget_ssort by nodup. dg. fields k; reflexivity.
Qed.
Lemma led_section_shown b s : led_ok b -> led_section b = Ok s -> led_shown b s.
Proof.
  intros (Hnd & (m & Hm & Hbare & Hid) & Hf) E. unfold led_shown, led_name.
  assert (Em : name_or "name" EmptyString b = m) by (unfold name_or; rewrite Hm; reflexivity). rewrite Em.
  destruct (name_cases _ _ _ Hid) as (n & -> & Hpop & _ & Hn).
  assert (Hsec : led_section b = Ok (ssort (dupdate (ddel "id" b) [(".type", VStr "led"); (".name", VStr n)]))).
  { unfold led_section, led_auto_name. dget_now. rewrite Hm. cbn [bind as_str].
    destruct Hn as [[Hn ->]|(Hn & _ & Hw)]; unfold pop_or; rewrite Hn; [reflexivity|]. rewrite truthy_text by apply Hw. reflexivity. }
  rewrite Hsec in E. injection E as <-. intros k. own. rewrite dget_ssort by nodup. dg. fields k; reflexivity.
Qed.
Lemma general_section_shown f1 f2 g s : general_ok (timezones f1 f2) g ->
  general_fwd_block (timezones f1 f2) g [] = Ok [("system", VList [VDict s])] -> general_shown (timezones f1 f2) g s.
Proof.
  intros (Hnd & (h & Hh & Hhne & Hhp) & Htz & Hid & Habs & Hf) E.
  destruct (name_cases _ _ _ Hid) as (n & Hn' & Hpop & _ & Hn). unfold general_shown. rewrite Hn'.
  assert (Hu : dget "ula_prefix" g = None) by (apply Habs; cbn; auto).
  assert (Hz0 : dget "zonename" g = None) by (apply Habs; cbn; auto).
  unfold general_fwd_block, general_ula in E. rewrite Hu in E.
  rewrite general_system_cons in E by (intros ->; discriminate Hh). rewrite Hpop in E. cbv zeta in E.
  assert (Eh : pop_or "hostname" (VStr "OpenWRT") (ddel "id" g) = VStr h) by (unfold pop_or; dg; ev; rewrite Hh; reflexivity).
  rewrite Eh in E. set (g1 := dupdate _ _) in E. assert (Hg1 : NoDup (dkeys g1)) by (unfold g1; nodup).
  assert (Et : dget "timezone" g1 = dget "timezone" g) by (unfold g1; dg; ev; reflexivity). rewrite Et in E.
  unfold optional in Htz. destruct (dget "timezone" g) as [v|] eqn:Ev.
  - destruct Htz as (t & z & -> & Ez). cbn [lookup] in E. rewrite Ez in E. cbn [bind] in E. cbn [dset] in E. injection E as <-.
    intros k. own. rewrite Ez. cbn [option_map]. rewrite dget_ssort by nodup. unfold g1. dg. fields k; try reflexivity. symmetry. exact Hh.
  - cbn [bind] in E. cbn [dset] in E. injection E as <-.
    intros k. own. rewrite dget_ssort by nodup. unfold g1. dg. fields k; try reflexivity; try assumption. symmetry. exact Hh.
Qed.
Lemma route_section_shown i r s : route_ok i r -> route_section r i = Ok s -> route_shown i r s.
Proof.
  intros (Hnd & (dest & Hdest & net & -> & Hlo & Hle & Hsix) & (dev & Hdev & Hdne & Hdp) & (next & Hnext & Hnp) & (cost & Hcost) & Hname & Habs & Hf) E.
  destruct (name_cases _ _ _ Hname) as (n & Hn' & _ & Hvor & Hn). exists net. split; [exact Hdest|]. rewrite Hn', Hdev, Hnext, Hcost.
  unfold route_section, dgetE in E. rewrite Hdest in E. cbn [bind] in E. unfold interface_of in E. rewrite interface_str in E by (split; assumption). cbn [bind] in E.
  assert (Ev : vor (pop_or "name" VNull (ddel "destination" r)) (route_auto_name i) = VStr n).
  { unfold pop_or. dg. ev. exact Hvor. }
  rewrite Ev in E.
  assert (E1 : dget "device" (ddel "name" (ddel "destination" r)) = Some (VStr dev)) by (dg; ev; exact Hdev).
  rewrite E1 in E. cbn [bind] in E.
  assert (E2 : dget "next" (ddel "device" (ddel "name" (ddel "destination" r))) = Some (VStr next)) by (dg; ev; exact Hnext).
  rewrite E2 in E. cbn [bind] in E.
  assert (E3 : dget "cost" (ddel "next" (ddel "device" (ddel "name" (ddel "destination" r)))) = Some (VInt cost)) by (dg; ev; exact Hcost).
  rewrite E3 in E. cbn [bind] in E. set (X := dupdate _ _) in E. injection E as <-.
  assert (HX : NoDup (dkeys X)) by (unfold X; nodup).
  intros k. unfold shows. own. destruct (ip_six net) eqn:E6.
  - rewrite dget_ssort by exact HX. unfold X. dg. rewrite net_str by (apply Hsix; reflexivity). fields k; try reflexivity. apply Habs. cbn. auto 10.
  - rewrite dget_ssort by nodup. unfold X. dg. fields k; try reflexivity. unfold if_netmask, text, netmask. rewrite E6. reflexivity.
Qed.
Lemma rule_section_shown i r s : rule_ok i r -> rule_section r i = Ok s -> rule_shown i r s.
Proof.
  intros (Hnd & Hsrc & Hdst & Hname & Hf) E. destruct (name_cases _ _ _ Hname) as (n & Hn' & _ & Hvor & Hn).
  unfold rule_shown. rewrite Hn'.
  assert (Hnet : forall k, optional k r network_text -> exists o, opt_network k r = Ok o /\ six_text (dget k r) = option_map ip_six o).
  { intros k H. unfold optional, network_text, opt_network in *. destruct (dget k r); [|exists None; split; reflexivity].
    destruct H as (x & m & -> & Em). cbn. rewrite Em. cbn. exists (Some m). split; reflexivity. }
  destruct (Hnet _ Hsrc) as (so & Es & Ss). destruct (Hnet _ Hdst) as (dn & Ed & Sd). unfold rule_is_six. rewrite Ss, Sd.
  unfold rule_section in E. rewrite Es, Ed in E. cbn [bind] in E. unfold rule_auto_name in E. fold (number i) in E. rewrite Hvor in E. injection E as <-.
  intros k. own. rewrite dget_ssort by nodup. dg. fields k; try reflexivity.
  unfold text. destruct dn, so; cbn; try reflexivity.
Qed.
Lemma peer_section_shown i p s : peer_ok i p -> peer_section p i = Ok s -> peer_shown i p s.
Proof.
  intros (Hnd & (n0 & Hs & Hbare & Hhy & Hwg) & Hport & Hf) E. exists n0. split; [exact Hs|].
  assert (Hrep : replace "-" "_" n0 = n0) by (apply replace_absent; exact Hhy).
  unfold peer_name. assert (En : name_or "interface" EmptyString p = n0) by (unfold name_or; rewrite Hs; reflexivity). rewrite En. clear En.
  set (n := "wgpeer_" +++ n0 +++ (if (1 <? i)%nat then "_" +++ number i else EmptyString)).
  unfold peer_section, dgetE in E. rewrite Hs in E. cbn [bind as_str] in E. rewrite Hrep in E.
  assert (En : (if (1 <? i)%nat then ("wgpeer_" +++ n0) +++ "_" +++ string_of_nat i else "wgpeer_" +++ n0) = n).
  { unfold n. fold (number i). destruct (1 <? i)%nat; [rewrite app_assoc_s; reflexivity|]. rewrite app_nil_s. reflexivity. }
  rewrite En in E. set (X := dupdate _ _) in E. assert (HX : NoDup (dkeys X)) by (unfold X; nodup).
  assert (Ep : negb (truthy (dgetN "endpoint_host" X)) && dmem "endpoint_port" X = false).
  { unfold dgetN, dmem, X. dg. ev. destruct Hport as [->|Hh]; [rewrite andb_false_r; reflexivity|].
    destruct (dget "endpoint_host" p) as [v|] eqn:Eh; [|congruence].
    destruct (Hf "endpoint_host" v (dget_In _ _ _ Eh)) as (_ & _ & Hv); [notin|]. cbn in Hv.
    destruct v; try contradiction; [rewrite truthy_text by apply Hv; reflexivity|]. destruct l; [destruct Hv; congruence|reflexivity]. }
  rewrite Ep in E. injection E as <-. intros k. own. rewrite dget_ssort by exact HX. unfold X. dg. fields k; reflexivity.
Qed.
Lemma custom_section_shown i b s : custom_block_ok i b -> custom_sec b i = Ok s -> custom_shown i b s.
Proof.
  intros (Hnd & (t & Ht & Hw & H1 & H2 & Hv) & Hf) E. exists t. split; [exact Ht|].
  set (auto := t +++ "_" +++ number i) in *.
  assert (Hn : exists n, name_or "config_value" auto b = n /\ pop_or "config_value" (VStr auto) b = VStr n /\ uci_name n = n).
  { unfold name_or, pop_or. destruct (dget "config_value" b) as [v|].
    - destruct Hv as (s0 & -> & Hb & Hc1 & Hc2 & Hne). exists s0. repeat split; auto. apply uci_name_id; assumption.
    - destruct Hv as [Hc1 Hc2]. exists auto. repeat split; auto.
      unfold auto. rewrite uci_name_app, (uci_name_id t) by assumption. f_equal. rewrite uci_name_app. f_equal.
      apply uci_name_digits. apply NumLemmas.string_of_N_digits. }
  destruct Hn as (n & -> & Hpop & Hu).
  unfold custom_sec in E. rewrite Ht in E. unfold custom_block in E. cbn [py_str] in E. fold (number i) in E. fold auto in E.
  assert (Ep : pop_or "config_value" (VStr auto) (dset ".type" (VStr t) (ddel "config_name" b)) = VStr n).
  { unfold pop_or. dg. ev. exact Hpop. }
  rewrite Ep in E. cbn [bind] in E. injection E as <-. rewrite Hu.
  intros k. own. rewrite dget_ssort by nodup. dg. fields k; reflexivity.
Qed.

Lemma indexed_aligned A B (R : nat -> A -> B -> Prop) i la lb : indexed R i la lb ->
  length la = length lb /\ forall j a b, nth_error la j = Some a -> nth_error lb j = Some b -> R (S (i + j)) a b.
Proof.
  intros H. induction H as [i|i a b la lb H0 H [IH1 IH2]].
  - split; [reflexivity|]. intros j a b Hj. destruct j; discriminate Hj.
  - split; [cbn; congruence|]. intros j x y Hx Hy. destruct j as [|j].
    + injection Hx as <-. injection Hy as <-. rewrite Nat.add_0_r. exact H0.
    + replace (S (i + S j)) with (S (S i + j)) by lia. apply IH2; assumption.
Qed.
Lemma made_aligned config k sec ss (P : nat -> dict -> Prop) (R : nat -> dict -> dict -> Prop) :
  objects_at k config P -> made_by config k sec ss -> (forall i b s, P i b -> sec b i = Ok s -> R i b s) ->
  aligned R (objects k config) ss.
Proof.
  intros H M HR. destruct (indexed_aligned _ _ _ _ _ _ M) as [E1 E2]. split; [exact E1|].
  intros j b s Hb Hs. apply HR; [|apply (E2 j b s Hb Hs)].
  destruct (objects_cases _ _ _ H) as ([l|] & Hk & Hl); unfold objects in Hb; rewrite Hk in Hb; cbn [option_map] in Hb.
  - rewrite dicts_of_map in Hb. destruct Hl as [_ Hl]. apply Hl, Hb.
  - destruct j; discriminate Hb.
Qed.
Lemma alone_aligned config k pkg fwd ss (P : dict -> Prop) (R : dict -> dict -> Prop) :
  object_at k config P -> made_alone config k pkg fwd ss -> (forall b s, P b -> fwd b [] = Ok [(pkg, VList [VDict s])] -> R b s) ->
  aligned (fun _ => R) (objects k config) ss.
Proof.
  intros H M HR. destruct (object_cases _ _ _ H) as (d & Hk & Hd). unfold made_alone, objects in *. rewrite Hk in *.
  destruct d as [d|]; cbn [option_map] in *.
  - inversion M as [|? s ? ? Hs M']; subst. inversion M'; subst. split; [reflexivity|].
    intros [|j] a b Ha Hb; [injection Ha as <-; injection Hb as <-; apply HR; assumption|destruct j; discriminate Ha].
  - inversion M; subst. split; [reflexivity|]. intros j a b Ha. destruct j; discriminate Ha.
Qed.
(** ** Switches *)
Lemma vlan_section_shown n c j v s : vlan_ok n c j v -> vlan_section (VStr n) v j = Ok s -> vlan_shown n j v s.
Proof.
  intros (Hnd & Hdev & (z & Hz & Hvid) & Hid & Hf) E.
  assert (Hname : exists m, vor (pop_or "id" VNull v) (vlan_auto_name (VStr n) j) = VStr m /\ name_or "id" (n +++ "_vlan" +++ number j) v = m).
  { unfold pop_or, name_or. destruct (dget "id" v) as [w|].
    - destruct Hid as (m & -> & Hw & Hm). exists m. unfold vor. rewrite truthy_text by apply Hw. auto.
    - exists (n +++ "_vlan" +++ number j). auto. }
  destruct Hname as (m & Hvor & Hm). unfold vlan_shown. rewrite Hm.
  unfold vlan_section in E. rewrite Hvor in E. set (X0 := dupdate _ _) in E.
  assert (HX0 : NoDup (dkeys X0)) by (unfold X0; nodup).
  assert (E0 : dget "vid" X0 = dget "vid" v) by (unfold X0; dg; ev; reflexivity). rewrite E0 in E.
  assert (E1 : dget "vlan" X0 = dget "vlan" v) by (unfold X0; dg; ev; reflexivity). unfold dgetE in E. rewrite E1, Hz in E.
  destruct (dget "vid" v) as [x|] eqn:Ex; cbn [bind] in E; injection E as <-; (split; [|intros k; own]).
  all: rewrite dget_ssort by nodup; unfold X0; dg; rewrite ?Hz.
  - ev. exact Hdev.
  - fields k; try reflexivity. exact Ex.
  - ev. exact Hdev.
  - fields k; reflexivity.
Qed.
Lemma vlan_sections_shown n c : forall vlans ss j, (forall i v, nth_error vlans i = Some v -> vlan_ok n c (S (j + i)) v) ->
  vlan_sections (VStr n) (map VDict vlans) (S j) = Ok ss ->
  length vlans = length ss /\ forall i v s, nth_error vlans i = Some v -> nth_error ss i = Some s -> vlan_shown n (S (j + i)) v s.
Proof.
  induction vlans as [|v vlans IH]; intros ss j H E; cbn [map vlan_sections as_dict bind] in E.
  - injection E as <-. split; [reflexivity|]. intros i v s Hv. destruct i; discriminate Hv.
  - apply bind_Ok in E as (s & Es & E). apply bind_Ok in E as (t & Et & E). injection E as <-.
    destruct (IH t (S j)) as [L G]; [|exact Et|].
    { intros i w Hw. replace (S (S j + i)) with (S (j + S i)) by lia. apply H, Hw. }
    split; [cbn; congruence|]. intros i w x Hw Hx. destruct i as [|i].
    + injection Hw as <-. injection Hx as <-. specialize (H 0 v eq_refl). rewrite Nat.add_0_r in *. eapply vlan_section_shown; eassumption.
    + replace (S (j + S i)) with (S (S j + i)) by lia. apply G; assumption.
Qed.
Lemma switch_section_shown c s ss : switch_ok c s -> switch_sections s = Ok ss -> switch_shown s ss.
Proof.
  intros (Hnd & n & vlans & Hn & Hid & Hv & Hne & Hvl & Hf) E. unfold switch_sections in E.
  assert (En : (if truthy (pop_or "id" VNull s) then Ok (pop_or "id" VNull s) else dgetE "name" (ddel "id" s)) = Ok (VStr (name_or "id" n s))).
  { unfold pop_or, name_or. destruct (dget "id" s) as [w|] eqn:Ei.
    - destruct Hid as (m & -> & Hw & _). rewrite truthy_text by apply Hw. reflexivity.
    - cbn [truthy]. dget_now. rewrite Hn. reflexivity. }
  rewrite En in E. cbn [bind] in E. set (X := dupdate _ _) in E. assert (HX : NoDup (dkeys X)) by (unfold X; nodup).
  assert (E1 : dgetE "vlan" X = Ok (VList (map VDict vlans))) by (unfold X; dget_now; rewrite Hv; reflexivity).
  assert (E2 : dgetE "name" X = Ok (VStr n)) by (unfold X; dget_now; rewrite Hn; reflexivity).
  rewrite E1 in E. cbn [bind as_list] in E. rewrite E2 in E. cbn [bind] in E.
  apply bind_Ok in E as (vs & Evs & E). injection E as <-. exists n, (ssort (ddel "vlan" X)), vs.
  split; [reflexivity|]. split; [exact Hn|]. split.
  - intros k. own. rewrite dget_ssort by nodup. unfold X. dg. fields k; reflexivity.
  - unfold vlans_of. rewrite Hv. unfold dicts. rewrite dicts_of_map.
    assert (Evs' : vlan_sections (VStr n) (map VDict vlans) 1 = Ok vs) by (destruct vlans; [congruence|exact Evs]).
    apply (vlan_sections_shown n c vlans vs 0 Hvl Evs').
Qed.
Lemma switch_aligned config ss : switches_at config -> switch_shape (objects "switch" config) ss ->
  exists sss, ss = concat sss /\ aligned (fun _ => switch_shown) (objects "switch" config) sss.
Proof.
  intros H (sss & F & ->). exists sss. split; [reflexivity|].
  assert (Hok : exists c, switches_ok c (objects "switch" config)).
  { exists 0. unfold switches_at, optional, objects in *. destruct (dget "switch" config) as [v|]; [|exact I].
    destruct H as (l & -> & _ & Hl & _). rewrite dicts_of_map. exact Hl. }
  destruct Hok as (c & Hok). clear H. revert c Hok. induction F as [|s t l tt H F IH]; intros c Hok.
  - split; [reflexivity|]. intros j a b Ha. destruct j; discriminate Ha.
  - destruct Hok as [Hs Hok]. destruct (IH _ Hok) as [L G]. split; [cbn; congruence|].
    intros [|j] a b Ha Hb; [injection Ha as <-; injection Hb as <-; eapply switch_section_shown; eassumption|]. apply (G j a b Ha Hb).
Qed.
(** ** Radios *)
Lemma radio_section_shown dsa r s : radio_ok dsa r -> radio_section dsa r = Ok s -> radio_shown dsa r s.
Proof.
  intros (Hnd & (n & Hn & Hbn) & Hdr & (c & p & w & Hc & Hp & Hw & Hband & Hht) & Htx & Hdis & Hco & Habs & Hf) E.
  exists c, p, w. split; [exact Hc|]. split; [exact Hp|]. split; [exact Hw|].
  assert (Hty : dget "type" r = None) by (apply Habs; cbn; auto).
  assert (Htp : dget "txpower" r = None) by (apply Habs; cbn; auto).
  unfold radio_section, dgetE in E. rewrite Hn in E. cbn [bind] in E.
  set (r0 := rename _ _ _) in E.
  assert (Hr0n : NoDup (dkeys r0)) by (apply NoDup_rename; nodup).
  assert (Hr0 : forall k, dget k r0 = if String.eqb k "txpower" then dget "tx_power" r else if String.eqb k "tx_power" then None
     else if String.eqb k ".name" then Some (VStr n) else if String.eqb k ".type" then Some (VStr "wifi-device")
     else if String.eqb k "name" then None else dget k r).
  { intros k. unfold r0. rewrite dget_rename by (nodup || discriminate). dg. ev. rewrite Htp.
    destruct (String.eqb k "txpower"); [destruct (dget "tx_power" r); reflexivity|reflexivity]. }
  assert (Ed : pop_or "driver" default_radio_driver r0 = VStr "mac80211") by (unfold pop_or; rewrite Hr0; ev; rewrite Hdr; reflexivity).
  rewrite Ed in E. set (r1 := dset "type" (VStr "mac80211") (ddel "driver" r0)) in E.
  assert (Hr1n : NoDup (dkeys r1)) by (unfold r1; nodup).
  destruct (set_band_ok dsa c p r1) as (r2 & Hr2 & Hr2n & Hr2g).
  { exact Hr1n. }
  { unfold r1. dg. ev. rewrite Hr0. ev. exact Hc. }
  { unfold r1. dg. ev. rewrite Hr0. ev. exact Hp. }
  { unfold text_at, r1. dg. ev. rewrite !Hr0. ev. exact Hband. }
  assert (Hbo : band_of dsa c p r1 = band_of dsa c p r).
  { unfold band_of, dgetN, r1. dg. ev. rewrite !Hr0. ev. reflexivity. }
  rewrite Hbo in Hr2g. rewrite Hr2 in E. cbn [bind] in E.
  assert (Ec : dget "channel" r2 = Some (VInt c)).
  { rewrite Hr2g. unfold r1. dg. rewrite Hr0. destruct dsa; ev; exact Hc. }
  rewrite Ec in E. cbn [bind] in E.
  set (chan := if (c =? 0)%Z then VStr "auto" else VInt c).
  assert (Ec' : (if py_eq (VInt c) (VInt 0) then dset "channel" (VStr "auto") r2 else r2) = dset "channel" chan r2).
  { change (py_eq (VInt c) (VInt 0)) with (c =? 0)%Z. unfold chan. destruct (c =? 0)%Z; [reflexivity|]. symmetry. apply PyLemmas.dset_same, Ec. }
  rewrite Ec' in E. assert (Ep : dget "protocol" (dset "channel" chan r2) = Some (VStr p)).
  { dg. ev. rewrite Hr2g. unfold r1. dg. rewrite Hr0. destruct dsa; ev; exact Hp. }
  rewrite Ep in E. cbn [bind] in E. change (py_eq (VStr "mac80211") (VStr "mac80211")) with true in E. cbn [bind] in E.
  assert (Ew : dget "channel_width" (ddel "protocol" (dset "channel" chan r2)) = Some (VInt w)).
  { dg. ev. rewrite Hr2g. unfold r1. dg. rewrite Hr0. destruct dsa; ev; exact Hw. }
  rewrite Ew in E. cbn [bind] in E.
  set (H := match dget "htmode" r with Some h => h | None => VStr (htmode_text p w) end).
  assert (Eh : intermediate_htmode (VStr p) (VInt w) (ddel "channel_width" (ddel "protocol" (dset "channel" chan r2))) = H).
  { unfold intermediate_htmode.
    assert (E0 : dget "htmode" (ddel "channel_width" (ddel "protocol" (dset "channel" chan r2))) = dget "htmode" r).
    { dg. ev. rewrite Hr2g. unfold r1. dg. rewrite Hr0. destruct dsa; ev; reflexivity. }
    rewrite E0. unfold H. destruct (dget "htmode" r) as [h|].
    - destruct Hht as (_ & _ & [-> | -> ]); reflexivity.
    - rewrite !py_eq_text. unfold htmode_text. cbn [py_str].
      destruct (String.eqb p "802.11n"), (String.eqb p "802.11ac"), (String.eqb p "802.11ax"); reflexivity. }
  rewrite Eh in E.
  set (X := dset "htmode" H (ddel "channel_width" (ddel "protocol" (dset "channel" chan r2)))) in E.
  assert (HX : NoDup (dkeys X)) by (unfold X; nodup).
  assert (Hget : forall k, dget k X = if String.eqb k "htmode" then Some H else if String.eqb k "channel_width" then None
     else if String.eqb k "protocol" then None else if String.eqb k "channel" then Some chan
     else if String.eqb k (if dsa then "band" else "hwmode") then Some (band_of dsa c p r)
     else if String.eqb k "band" || String.eqb k "hwmode" then None
     else if String.eqb k "type" then Some (VStr "mac80211") else if String.eqb k "driver" then None
     else if String.eqb k "txpower" then dget "tx_power" r else if String.eqb k "tx_power" then None
     else if String.eqb k ".name" then Some (VStr n) else if String.eqb k ".type" then Some (VStr "wifi-device")
     else if String.eqb k "name" then None else dget k r).
  { intros k. unfold X. dg. rewrite Hr2g. unfold r1. dg. rewrite Hr0. reflexivity. }
  assert (Eco : dget "country" X = dget "country" r) by (rewrite Hget; destruct dsa; ev; reflexivity).
  assert (Hs : forall k, dget k s = dget k X).
  { rewrite Eco in E. unfold optional in Hco. destruct (dget "country" r) as [v|] eqn:Ev.
    - destruct Hco as (x & -> & Hx). cbn [as_str bind] in E. rewrite Hx in E. injection E as <-.
      intros k. rewrite dget_ssort by nodup. rewrite dget_dset. destruct (String.eqb_spec k "country") as [->|]; [symmetry; exact Eco|reflexivity].
    - injection E as <-. intros k. rewrite dget_ssort by exact HX. reflexivity. }
  assert (Hb : Some (band_of dsa c p r) = if dsa then dget "band" r else if (c =? 0)%Z then dget "hwmode" r else text (implied_hwmode p c)).
  { unfold band_of, dgetN. destruct dsa.
    - destruct Hband as ((b & -> & _) & _). reflexivity.
    - destruct Hband as (_ & Hb). destruct (c =? 0)%Z; [|reflexivity]. destruct Hb as (h & -> & _). reflexivity. }
  rewrite Hn, Hdr.
  assert (EH : Some H = match dget "htmode" r with Some h => Some h | None => text (htmode_text p w) end) by (unfold H; destruct (dget "htmode" r); reflexivity).
  assert (Echan : Some chan = if (c =? 0)%Z then text "auto" else Some (VInt c)) by (unfold chan; destruct (c =? 0)%Z; reflexivity).
  rewrite Hb in Hget. rewrite EH, Echan in Hget. clear EH Echan Hb.
  intros k. own. rewrite Hs, Hget. destruct dsa; fields k; reflexivity.
Qed.
(** ** Interfaces *)
Lemma addressing_keys v opts : addressing v opts ->
  exists a1 a2 a3 a4 a5 a6, opts = [("proto", a1); ("ipaddr", a2); ("netmask", a3); ("ip6addr", a4); ("gateway", a5); ("ip6gw", a6)].
Proof. intros H. destruct H; do 6 eexists; reflexivity. Qed.
Lemma members_texts l : flat_map (fun v => match v with VStr s => [s] | _ => [] end) (map VStr l) = l.
Proof. induction l as [|x l IH]; [reflexivity|]. cbn. rewrite IH. reflexivity. Qed.
Lemma isec_shown dsa config b n br ms opts i : iface dsa b n (interface_name b) br ms opts -> dns_in config b opts ->
  (forall k, dget k i = isec dsa b n (interface_name b) br ms opts k) -> interface_section_shown dsa config b i.
Proof.
  intros H [D1 D2] G. destruct (i_addr _ _ _ _ _ _ _ H) as (base & l1 & l2 & Ha & Eo & _). exists base. split; [exact Ha|].
  assert (Eb : is_bridge b = br) by (unfold is_bridge; rewrite (i_type _ _ _ _ _ _ _ H); unfold text; destruct br; [reflexivity|]; destruct (existsb _ _); reflexivity).
  assert (Em : br = true -> members b = ms) by (intros ->; unfold members, texts; rewrite (i_mem _ _ _ _ _ _ _ H); apply members_texts).
  unfold bridge_empty. rewrite Eb, (i_name _ _ _ _ _ _ _ H).
  assert (E1 : (if br then match members b with [] => None | l => text (join " " l) end else text n) = (if br then match ms with [] => None | _ => text (join " " ms) end else text n)).
  { destruct br; [rewrite Em by reflexivity; destruct ms; reflexivity|reflexivity]. }
  assert (E2 : (if br then match members b with [] => Some (VBool true) | _ => None end else None) = (if br then match ms with [] => Some (VBool true) | _ => None end else None)).
  { destruct br; [rewrite Em by reflexivity; destruct ms; reflexivity|reflexivity]. }
  rewrite E1, E2. clear E1 E2.
  assert (E3 : option_map opposite (dget "disabled" b) = option_map neg (dget "disabled" b)).
  { pose proof (i_dis _ _ _ _ _ _ _ H) as Hd. unfold optional in Hd. destruct (dget "disabled" b); [|reflexivity]. destruct Hd as ([|] & ->); reflexivity. }
  rewrite E3. destruct (addressing_keys _ _ Ha) as (a1 & a2 & a3 & a4 & a5 & a6 & ->).
  assert (Q1 : Some (odef (opt opts "dns")) = Some (if static b then on_one_line (texts "dns_servers" config) else VNull)) by (rewrite D1; destruct (static b); [destruct (texts "dns_servers" config)|]; reflexivity).
  assert (Q2 : Some (odef (opt opts "dns_search")) = Some (if dmem "addresses" b then on_one_line (texts "dns_search" config) else VNull)) by (rewrite D2; destruct (dmem "addresses" b); [destruct (texts "dns_search" config)|]; reflexivity).
  rewrite <- Q1, <- Q2. clear Q1 Q2 D1 D2. intros k. rewrite G, Eo. unfold isec, device_options, bridge_keys, bridge_flags, bridge_numbers, gone, six_options, opt. cbn [app map dget existsb].
  clear. fields k; destruct dsa, br; reflexivity.
Qed.
Lemma psec_shown config b t n l opts s : piface b t n (interface_name b) l opts -> dns_in config b opts ->
  (forall k, dget k s = psec t b n (interface_name b) l opts k) -> protocol_section_shown config b s.
Proof.
  intros H [D1 D2] G.
  assert (E3 : option_map opposite (dget "disabled" b) = option_map neg (dget "disabled" b)).
  { pose proof (p_dis _ _ _ _ _ _ H) as Hd. unfold optional in Hd. destruct (dget "disabled" b); [|reflexivity]. destruct Hd as ([|] & ->); reflexivity. }
  assert (Q1 : Some (odef (opt opts "dns")) = Some (if static b then on_one_line (texts "dns_servers" config) else VNull)) by (rewrite D1; destruct (static b); [destruct (texts "dns_servers" config)|]; reflexivity).
  assert (Q2 : Some (odef (opt opts "dns_search")) = Some (if dmem "addresses" b then on_one_line (texts "dns_search" config) else VNull)) by (rewrite D2; destruct (dmem "addresses" b); [destruct (texts "dns_search" config)|]; reflexivity).
  unfold protocol_section_shown. rewrite <- Q1, <- Q2, E3. pose proof (p_type _ _ _ _ _ _ H) as Ht. pose proof (p_name _ _ _ _ _ _ H) as Hn.
  assert (B : forall k, In k ["wireless"; "addresses"] -> t <> "wireguard" \/ k = "wireless" -> dget k b = None).
  { intros k [<-|[<-|[]]] K; [exact (p_none _ _ _ _ _ _ H "wireless" ltac:(unfold protocol_gone; cbn [In]; tauto))|].
    destruct K as [K|K]; [|discriminate K]. destruct (proto_static _ _ _ _ _ _ H) as [_ X]. rewrite (eqb_neq _ _ K) in X. unfold dmem in X. destruct (dget "addresses" b); [discriminate|reflexivity]. }
  clear Q1 Q2 D1 D2 E3. destruct (protocol_cases _ (p_in _ _ _ _ _ _ H)) as [E|[E|[E|E]]]; subst t.
  - exists [("ifname", None); ("proto", text "wireguard"); ("listen_port", dget "port" b); ("port", None); ("addresses", Some (VList (map (fun n => VStr (if_str n)) l)))].
    split; [apply shown_wireguard; [exact Ht|apply (p_addr _ _ _ _ _ _ H eq_refl)]|]. pose proof (B "wireless" ltac:(cbn; auto) (or_intror eq_refl)) as B1.
    intros k. rewrite G. unfold psec, pstart, powns, pbase, paddr. cbn [app map dget existsb String.eqb Ascii.eqb Bool.eqb]. clear - B1. fields k; reflexivity || (symmetry; exact B1).
  - exists [("ifname", dget "name" b); ("proto", text "vxlan"); ("peeraddr", dget "vtep" b); ("vid", dget "vni" b); ("vtep", None); ("vni", None)].
    split; [apply shown_vxlan, Ht|]. pose proof (B "wireless" ltac:(cbn; auto) (or_intror eq_refl)) as B1. pose proof (B "addresses" ltac:(cbn; auto) ltac:(left; discriminate)) as B2. rewrite Hn.
    intros k. rewrite G. unfold psec, pstart, powns, pbase, paddr. cbn [app map dget existsb String.eqb Ascii.eqb Bool.eqb]. clear - B1 B2. fields k; reflexivity || (symmetry; exact B1) || (symmetry; exact B2).
  - exists [("ifname", dget "name" b); ("proto", text "modemmanager"); ("pincode", dget "pin" b); ("pin", None)].
    split; [apply shown_modem, Ht|]. pose proof (B "wireless" ltac:(cbn; auto) (or_intror eq_refl)) as B1. pose proof (B "addresses" ltac:(cbn; auto) ltac:(left; discriminate)) as B2. rewrite Hn.
    intros k. rewrite G. unfold psec, pstart, powns, pbase, paddr. cbn [app map dget existsb String.eqb Ascii.eqb Bool.eqb]. clear - B1 B2. fields k; reflexivity || (symmetry; exact B1) || (symmetry; exact B2).
  - exists [("ifname", dget "name" b); ("proto", dget "proto" b)].
    split; [apply shown_dialup, Ht|]. pose proof (B "wireless" ltac:(cbn; auto) (or_intror eq_refl)) as B1. pose proof (B "addresses" ltac:(cbn; auto) ltac:(left; discriminate)) as B2. rewrite Hn.
    intros k. rewrite G. unfold psec, pstart, powns, pbase, paddr. cbn [app map dget existsb String.eqb Ascii.eqb Bool.eqb]. clear - B1 B2. fields k; reflexivity || (symmetry; exact B1) || (symmetry; exact B2).
Qed.
Lemma dsec_shown b n br ms opts d : iface true b n (interface_name b) br ms opts ->
  (forall k, dget k d = dsec b n (interface_name b) br ms k) -> device_section_shown b d.
Proof.
  intros H G. unfold device_section_shown, bridge_empty.
  assert (Eb : is_bridge b = br) by (unfold is_bridge; rewrite (i_type _ _ _ _ _ _ _ H); unfold text; destruct br; [reflexivity|]; destruct (existsb _ _); reflexivity).
  assert (Em : br = true -> members b = ms) by (intros ->; unfold members, texts; rewrite (i_mem _ _ _ _ _ _ _ H); apply members_texts).
  rewrite Eb, (i_name _ _ _ _ _ _ _ H).
  assert (E1 : (if br then match members b with [] => None | l => Some (VList (map VStr l)) end else None) = (if br then match ms with [] => None | _ => Some (VList (map VStr ms)) end else None)).
  { destruct br; [rewrite Em by reflexivity; destruct ms; reflexivity|reflexivity]. }
  assert (E2 : (if br then match members b with [] => Some (VBool true) | _ => None end else None) = (if br then match ms with [] => Some (VBool true) | _ => None end else None)).
  { destruct br; [rewrite Em by reflexivity; destruct ms; reflexivity|reflexivity]. }
  rewrite E1, E2. clear E1 E2.
  intros k. rewrite G. unfold dsec, device_options, bridge_keys, bridge_flags, bridge_numbers. cbn [app map dget existsb].
  clear. fields k; reflexivity.
Qed.
Lemma interfaces_aligned dsa config : forall l ss, if_list dsa config l ss -> exists sss, ss = concat sss /\ aligned (fun _ => interface_shown dsa config) l sss.
Proof.
  intros l ss H. induction H as [|b l n br ms opts secs ss Hi Hin Hs H (sss & -> & L & G)|b l t n ads opts s0 ss Hp Hin Ss Gs H (sss & -> & L & G)].
  - exists []. split; [reflexivity|]. split; [reflexivity|]. intros j a b Ha. destruct j; discriminate Ha.
  - exists (secs :: sss). split; [reflexivity|]. split; [cbn; congruence|].
    intros [|j] x y Hx Hy; [|apply (G j x y Hx Hy)]. injection Hx as <-. injection Hy as <-. unfold interface_shown. rewrite (own_device_has _ _ _ _ _ _ _ Hi).
    assert (Eo : own_protocol b = false) by (unfold own_protocol; rewrite (i_type _ _ _ _ _ _ _ Hi); destruct br; [reflexivity|]; destruct (existsb (String.eqb n) loopback_names); reflexivity).
    rewrite Eo.
    destruct Hs as [i E Si Gi|d i E1 E2 Sd Gd Si Gi].
    + rewrite E. exists i. split; [reflexivity|]. eapply isec_shown; eassumption.
    + rewrite E1, E2 in *. exists d, i. split; [reflexivity|]. split; [eapply dsec_shown; eassumption|eapply isec_shown; eassumption].
  - exists ([s0] :: sss). split; [reflexivity|]. split; [cbn; congruence|].
    intros [|j] x y Hx Hy; [|apply (G j x y Hx Hy)]. injection Hx as <-. injection Hy as <-. unfold interface_shown.
    assert (Eo : own_protocol b = true) by (unfold own_protocol; rewrite (p_type _ _ _ _ _ _ Hp); unfold text; destruct (protocol_cases _ (p_in _ _ _ _ _ _ Hp)) as [-> |[-> |[-> | ->]]]; reflexivity).
    rewrite Eo. exists s0. split; [reflexivity|]. eapply psec_shown; eassumption.
Qed.

(** ** Sections that are not those of bridges *)
Definition no_bridge (o : option val) : Prop := o = None \/ (exists x, o = text x /\ x <> "bridge") \/ exists l, o = Some (VList l).
Definition still (s : dict) : Prop :=
  (exists t, dget ".type" s = text t /\ t <> "device" /\ t <> "bridge-vlan") /\ no_bridge (dget "type" s).
Lemma still_neutral s s' : still s -> s' = s \/ section_reads s s' -> dget "type" s' <> text "bridge".
Proof.
  intros ((t & Ht & H1 & H2) & H) [->|Hr].
  - destruct H as [->|[(x & -> & Hx)|(l & ->)]]; unfold text; congruence.
  - destruct (section_reads_plain s s' t Hr Ht H1 H2) as [_ G]. rewrite G. cbn [String.eqb Ascii.eqb Bool.eqb orb startswith].
    destruct H as [->|[(x & -> & Hx)|(l & ->)]]; [discriminate| |].
    + destruct x as [|c x]; [discriminate|]. intros X. apply Hx. change (text (String c x) = text "bridge") in X. unfold text in X. congruence.
    + destruct l; discriminate.
Qed.
Lemma type_survives props skip b : fields_survive props skip b -> ~ In "type" skip -> dget "type" props = None -> dget "type" b <> text "bridge" -> no_bridge (dget "type" b).
Proof.
  intros H Hs Hp Hb. unfold no_bridge. destruct (dget "type" b) as [v|] eqn:E; [|auto]. right. destruct (H "type" v (dget_In _ _ _ E) Hs) as (_ & _ & X). rewrite Hp in X.
  destruct v as [| | | |s|l|]; try contradiction; [left|right; eauto]. exists s. split; [reflexivity|]. intros ->. apply Hb. reflexivity.
Qed.
Lemma shows_still s src own t : shows s src own -> dget ".type" own = Some (text t) -> t <> "device" -> t <> "bridge-vlan" -> dget "type" own = None ->
  no_bridge (dget "type" src) -> still s.
Proof.
  intros H Hn H1 H2 Hp Ho. split; [exists t; split; [rewrite H, Hn; reflexivity|auto]|]. rewrite (H "type"), Hp. exact Ho.
Qed.
Ltac type_of Hf := eapply type_survives; [exact Hf|cbn [In]; intuition discriminate|reflexivity|assumption].
Lemma route_still i r s : route_ok i r -> dget "type" r <> text "bridge" -> route_section r i = Ok s -> still s.
Proof.
  intros H Hb E. destruct (route_section_shown i r s H E) as (net & _ & Hs). destruct H as (_ & _ & _ & _ & _ & _ & _ & Hf).
  eapply shows_still; [exact Hs|reflexivity| | |reflexivity|type_of Hf]; destruct (ip_six net); discriminate.
Qed.
Lemma rule_still i r s : rule_ok i r -> dget "type" r <> text "bridge" -> rule_section r i = Ok s -> still s.
Proof.
  intros H Hb E. pose proof (rule_section_shown i r s H E) as Hs. destruct H as (_ & _ & _ & _ & Hf).
  eapply shows_still; [exact Hs|reflexivity| | |reflexivity|type_of Hf]; destruct (rule_is_six r); discriminate.
Qed.
Lemma peer_still i r s : peer_ok i r -> dget "type" r <> text "bridge" -> peer_section r i = Ok s -> still s.
Proof.
  intros H Hb E. destruct (peer_section_shown i r s H E) as (n & _ & Hs). destruct H as (_ & _ & _ & Hf).
  eapply shows_still; [exact Hs|reflexivity| | |reflexivity|type_of Hf]; discriminate.
Qed.
Lemma switch_still c sw ss : switch_ok c sw -> dget "type" sw <> text "bridge" -> (forall v, In v (dicts (vlans_of sw)) -> dget "type" v <> text "bridge") ->
  switch_sections sw = Ok ss -> forall s, In s ss -> still s.
Proof.
  intros H Hb Hbv E. destruct (switch_section_shown c sw ss H E) as (n & main & vlans & -> & _ & Hm & Hl & Hv).
  destruct H as (_ & n' & vs & _ & _ & Ev & _ & Hok & Hf). unfold vlans_of in Hl, Hv, Hbv. rewrite Ev in Hl, Hv, Hbv. unfold dicts in Hl, Hv, Hbv. rewrite dicts_of_map in Hl, Hv, Hbv.
  intros s [<-|Hs]; [eapply shows_still; [exact Hm|reflexivity|discriminate|discriminate|reflexivity|type_of Hf]|].
  apply In_nth_error in Hs as (j & Hj). destruct (nth_error vs j) as [v|] eqn:Evj.
  - pose proof (Hbv v (nth_error_In _ _ Evj)) as Hb'. destruct (Hv j v s Evj Hj) as [_ Hsh]. destruct (Hok j v Evj) as (_ & _ & _ & _ & Hfv).
    eapply shows_still; [exact Hsh|reflexivity|discriminate|discriminate|reflexivity|type_of Hfv].
  - apply nth_error_None in Evj. assert (nth_error vlans j <> None) by congruence. apply nth_error_Some in H. lia.
Qed.
Lemma made_still config k sec ss (P : nat -> dict -> Prop) : objects_at k config P -> made_by config k sec ss ->
  (forall b, In b (objects k config) -> dget "type" b <> text "bridge") ->
  (forall i b s, P i b -> dget "type" b <> text "bridge" -> sec b i = Ok s -> still s) -> forall s, In s ss -> still s.
Proof.
  intros H M Hb HR s Hs. destruct (made_aligned config k sec ss P (fun _ b s => dget "type" b <> text "bridge" -> still s) H M) as [L G]; [intros; eapply HR; eassumption|].
  apply In_nth_error in Hs as (j & Hj). destruct (nth_error (objects k config) j) as [b|] eqn:Eb; [apply (G j b s Eb Hj), Hb, (nth_error_In _ _ Eb)|].
  apply nth_error_None in Eb. assert (X : nth_error ss j <> None) by congruence. apply nth_error_Some in X. lia.
Qed.
Lemma switches_still config ss : switches_at config -> switch_shape (objects "switch" config) ss ->
  (forall b, In b (objects "switch" config ++ flat_map (fun s => dicts (vlans_of s)) (objects "switch" config)) -> dget "type" b <> text "bridge") ->
  forall s, In s ss -> still s.
Proof.
  intros H (sss & F & ->) Hb.
  assert (Hok : switches_ok 0 (objects "switch" config)).
  { unfold switches_at, optional, objects in *. destruct (dget "switch" config) as [v|]; [|exact I]. destruct H as (l & -> & _ & Hl & _). rewrite dicts_of_map. exact Hl. }
  assert (Hb1 : forall b, In b (objects "switch" config) -> dget "type" b <> text "bridge") by (intros b X; apply Hb, in_app_iff; left; exact X).
  assert (Hb2 : forall b v, In b (objects "switch" config) -> In v (dicts (vlans_of b)) -> dget "type" v <> text "bridge").
  { intros b v X Y. apply Hb, in_app_iff. right. apply in_flat_map. eauto. }
  clear H Hb. revert Hok Hb1 Hb2. generalize 0. induction F as [|s t l tt H F IH]; intros c Hok Hb1 Hb2 x Hx; [destruct Hx|]. cbn [concat] in Hx. destruct Hok as [Hs Hok].
  apply in_app_iff in Hx as [Hx|Hx].
  - eapply switch_still; try eassumption; [apply Hb1; left; reflexivity|intros v; apply Hb2; left; reflexivity].
  - eapply IH; try eassumption; [intros b X; apply Hb1; right; exact X|intros b v X; apply Hb2; right; exact X].
Qed.
(** ** The tables of members of the sections, written or read *)
Lemma network_tracked dsa config l ss others : if_list dsa config l ss -> (forall s, In s others -> still s) ->
  forall own, own = (ss ++ others)%list \/ Forall2 section_reads (ss ++ others) own -> foldM (track_one dsa) [] (map VDict own) = Ok (bridge_adds l []).
Proof.
  intros Hl Ho own H.
  assert (X : exists o1 o2, own = (o1 ++ o2)%list /\ (o1 = ss \/ Forall2 section_reads ss o1) /\ forall s', In s' o2 -> dget "type" s' <> text "bridge").
  { destruct H as [->|H].
    - exists ss, others. split; [reflexivity|]. split; [left; reflexivity|]. intros s' Hs. eapply still_neutral; [apply Ho, Hs|left; reflexivity].
    - apply Forall2_app_inv_l in H as (o1 & o2 & H1 & H2 & ->). exists o1, o2. split; [reflexivity|]. split; [right; exact H1|].
      intros s' Hs. destruct (Forall2_In_r _ _ _ _ H2 Hs) as (s & Hs0 & Hr). eapply still_neutral; [apply Ho, Hs0|right; exact Hr]. }
  destruct X as (o1 & o2 & -> & H1 & H2). rewrite map_app, RtAddress.foldM_app, (if_tracked dsa config l ss Hl o1 H1). cbn [bind]. apply neutral_tracks, H2.
Qed.
