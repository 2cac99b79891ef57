(** * RtProto: interfaces with a protocol of their own (proofs only). *)
From Verif Require Import PyBase PyLemmas StrLemmas NumLemmas Merge SpecMerge MergeProofs MergeListProofs MergeFinal Backend Conv Ip IpProofs OwrtConv OwrtWireless OwrtInterfaces
  SpecUci SpecConv SpecDevice ConvLemmas SortLemmas RtStage RtBack RtGeneric RtSystem RtNetwork RtSwitch RtTrip RtAddress RtInterface RtIfFwd RtIfOk RtIfBack RtIfDev.

Definition protocol_skip : list string := ["name"; "network"; "type"; "addresses"; "mac"; "autostart"; "disabled"].
Definition protocol_gone : list string :=
  ["ifname"; "device_name"; "macaddr"; "auto"; "enabled"; "ipaddr"; "netmask"; "ip6addr";
   "dns"; "dns_search"; "wireless"; "vid"; "bridge_21"; "listen_port"; "peeraddr"; "vlan_filtering"].
Record piface (b : dict) (t n u : string) (l : list ipif) (opts : list (string * option val)) : Prop := {
  p_nd : NoDup (dkeys b);
  p_name : dget "name" b = text n;
  p_ne : n <> EmptyString;
  p_plain : plain n;
  p_une : u <> EmptyString;
  p_bare : bare u;
  p_net : match dget "network" b with None => u = identifier n | Some v => v = VStr u /\ identifier u = u /\ u <> identifier n end;
  p_type : dget "type" b = text t;
  p_in : In t own_protocols;
  p_set : protocol_settings t n b;
  p_addr : t = "wireguard" -> tunnel_addresses l b;
  p_mac : optional "mac" b (fun v => exists s, v = VStr s /\ s <> EmptyString /\ plain s);
  p_auto : optional "autostart" b (fun v => exists x, v = VBool x);
  p_dis : optional "disabled" b (fun v => exists x, v = VBool x);
  p_dev : optional "device" b (fun v => exists s, v = VStr (String "/" s));
  p_none : none_of protocol_gone b;
  p_fields : fields_survive (protocol_fields t) protocol_skip b;
  p_dns : exists l1 l2, words l1 /\ words l2 /\ opts = [("dns", dns_val l1); ("dns_search", dns_val l2)]
}.
Lemma protocol_cases t : In t own_protocols -> t = "wireguard" \/ t = "vxlan" \/ t = "modem-manager" \/ t = "dialup".
Proof. unfold own_protocols. cbn [In]. intros [H|[H|[H|[H|[]]]]]; auto. Qed.

(** ** The interface *)
Definition powns (t : string) (b : dict) : list (string * option val) :=
  if String.eqb t "wireguard" then [("ifname", None); ("proto", text "wireguard"); ("listen_port", dget "port" b); ("port", None)]
  else if String.eqb t "vxlan" then [("proto", text "vxlan"); ("peeraddr", dget "vtep" b); ("vid", dget "vni" b); ("vtep", None); ("vni", None)]
  else if String.eqb t "modem-manager" then [("proto", text "modemmanager"); ("pincode", dget "pin" b); ("pin", None)]
  else [].
Definition proto_name (t : string) : string := if String.eqb t "modem-manager" then "modemmanager" else t.
Definition pbase (b : dict) (n u : string) (k : string) : option val :=
  if String.eqb k ".type" then text "interface" else if String.eqb k ".name" then text u
  else if existsb (String.eqb k) ["name"; "addresses"; "mac"; "autostart"; "disabled"; "wireless"] then None
  else if String.eqb k "ifname" then text n
  else if String.eqb k "macaddr" then dget "mac" b
  else if String.eqb k "auto" then dget "autostart" b
  else if String.eqb k "enabled" then option_map neg (dget "disabled" b)
  else dget k b.
Definition pstart (t : string) (b : dict) (n u : string) (k : string) : option val :=
  match dget k (powns t b) with Some o => o | None => if String.eqb k "network" then None else pbase b n u k end.
Lemma proto_interface dsa b t n u l opts b1 : piface b t n u l opts -> NoDup (dkeys b1) -> (forall k, k <> "addresses" -> dget k b1 = dget k b) ->
  exists i, intermediate_interface dsa [] b1 (VStr u) = Ok i /\ NoDup (dkeys i) /\ forall k, dget k i = pstart t b n u k.
Proof.
  intros H Hb1 Gb. pose proof (p_none _ _ _ _ _ _ H) as Habs. unfold none_of, protocol_gone in Habs.
  assert (A1 : dget "macaddr" b = None) by (apply Habs; cbn; auto 30). assert (A2 : dget "auto" b = None) by (apply Habs; cbn; auto 30).
  assert (A3 : dget "enabled" b = None) by (apply Habs; cbn; auto 30). assert (A4 : dget "wireless" b = None) by (apply Habs; cbn; auto 30).
  assert (A5 : dget "ifname" b = None) by (apply Habs; cbn; auto 30). clear Habs.
  pose proof (p_name _ _ _ _ _ _ H) as Hn. pose proof (p_type _ _ _ _ _ _ H) as Ht. pose proof (protocol_cases _ (p_in _ _ _ _ _ _ H)) as Hc.
  unfold intermediate_interface. set (x0 := dupdate b1 _). assert (N0 : NoDup (dkeys x0)) by (unfold x0; nodup).
  assert (G0 : forall k, k <> "addresses" -> dget k x0 = if String.eqb k ".name" then text u else if String.eqb k ".type" then text "interface" else dget k b).
  { intros k K. unfold x0. dg. rewrite Gb by exact K. reflexivity. }
  unfold dgetE at 1. rewrite G0 by discriminate. ev. rewrite Hn. cbn [text bind]. clearbody x0.
  set (x1 := dset "ifname" (VStr n) (ddel "name" x0)). assert (N1 : NoDup (dkeys x1)) by (unfold x1; nodup).
  assert (G1 : forall k, k <> "addresses" -> dget k x1 = if String.eqb k "ifname" then text n else if String.eqb k "name" then None else if String.eqb k ".name" then text u else if String.eqb k ".type" then text "interface" else dget k b).
  { intros k K. unfold x1. dg. rewrite G0 by exact K. reflexivity. }
  clearbody x1. clear x0 N0 G0.
  assert (T1 : dgetN "type" x1 = VStr t). { unfold dgetN. rewrite G1 by discriminate. ev. rewrite Ht. reflexivity. }
  assert (Tw : py_eq (dgetN "type" x1) (VStr "wireless") = false). { rewrite T1, py_eq_text. destruct Hc as [-> |[-> |[-> | ->]]]; reflexivity. }
  rewrite Tw.
  set (x2 := match dget "mac" x1 with Some m => ddel "mac" (dset "macaddr" m x1) | None => x1 end).
  assert (N2 : NoDup (dkeys x2)) by (apply (NoDup_move "mac" "macaddr" (fun v => v)), N1).
  assert (G2 : forall k, dget k x2 = if String.eqb k "mac" then None else if String.eqb k "macaddr" then dget "mac" b else dget k x1).
  { intros k. unfold x2. rewrite (dget_move "mac" "macaddr" (fun v => v)); [|exact N1|discriminate|rewrite G1 by discriminate; ev; exact A1].
    rewrite G1 by discriminate. ev. destruct (dget "mac" b); reflexivity. }
  set (x3 := match dget "autostart" x2 with Some a => ddel "autostart" (dset "auto" a x2) | None => x2 end).
  assert (N3 : NoDup (dkeys x3)) by (apply (NoDup_move "autostart" "auto" (fun v => v)), N2).
  assert (G3 : forall k, dget k x3 = if String.eqb k "autostart" then None else if String.eqb k "auto" then dget "autostart" b else dget k x2).
  { intros k. unfold x3. rewrite (dget_move "autostart" "auto" (fun v => v)); [|exact N2|discriminate|rewrite G2; ev; rewrite G1 by discriminate; ev; exact A2].
    rewrite G2. ev. rewrite G1 by discriminate. ev. destruct (dget "autostart" b); reflexivity. }
  set (x4 := match dget "disabled" x3 with Some d => ddel "disabled" (dset "enabled" (VBool (negb (truthy d))) x3) | None => x3 end).
  assert (N4 : NoDup (dkeys x4)) by (apply (NoDup_move "disabled" "enabled" neg), N3).
  assert (G4 : forall k, dget k x4 = if String.eqb k "disabled" then None else if String.eqb k "enabled" then option_map neg (dget "disabled" b) else dget k x3).
  { intros k. unfold x4. rewrite (dget_move "disabled" "enabled" neg); [|exact N3|discriminate|rewrite G3; ev; rewrite G2; ev; rewrite G1 by discriminate; ev; exact A3].
    rewrite G3. ev. rewrite G2. ev. rewrite G1 by discriminate. ev. reflexivity. }
  set (x5 := ddel "addresses" (ddel "wireless" x4)). assert (N5 : NoDup (dkeys x5)) by (unfold x5; nodup).
  assert (G5 : forall k, dget k x5 = pbase b n u k).
  { intros k. unfold x5. dg. rewrite G4, G3, G2. unfold pbase. cbn [existsb]. field k "addresses"; [reflexivity|]. rewrite G1 by assumption.
    fields k; try reflexivity; congruence. }
  clearbody x5 x4 x3 x2. clear N1 G1 T1 N2 G2 N3 G3 N4 G4 Tw.
  unfold dgetE at 1. rewrite G5. change (pbase b n u "type") with (dget "type" b). rewrite Ht. unfold text at 1. cbn [bind as_str].
  assert (Ety : exists x6, intermediate_type (uci_name t) x5 = Ok x6 /\ NoDup (dkeys x6) /\ forall k, dget k x6 = match dget k (powns t b) with Some o => o | None => pbase b n u k end).
  { destruct Hc as [-> |[-> |[-> | ->]]].
    - change (intermediate_type (uci_name "wireguard") x5) with (Ok (ddel "ifname" (dset "listen_port" (pop_or "port" VNull x5) (ddel "port" (dset "proto" (VStr "wireguard") x5))))).
      eexists. split; [reflexivity|]. split; [nodup|]. intros k. dg. unfold powns. cbn [String.eqb Ascii.eqb Bool.eqb dget].
      destruct (p_set _ _ _ _ _ _ H) as (_ & _ & (z & Ez) & _). unfold pop_or. rewrite G5. change (pbase b n u "port") with (dget "port" b). rewrite Ez.
      rewrite G5. fields k; reflexivity.
    - destruct (p_set _ _ _ _ _ _ H) as ((s & Es & _) & (z & Ez) & _).
      change (intermediate_type (uci_name "vxlan") x5) with (do vtep <- dgetE "vtep" x5; do vni <- dgetE "vni" x5;
       Ok (dset "vid" vni (ddel "vni" (dset "peeraddr" vtep (ddel "vtep" (dset "proto" (VStr "vxlan") x5)))))).
      unfold dgetE. rewrite !G5. change (pbase b n u "vtep") with (dget "vtep" b). change (pbase b n u "vni") with (dget "vni" b). rewrite Es, Ez. cbn [bind].
      eexists. split; [reflexivity|]. split; [nodup|]. intros k. dg. unfold powns. cbn [String.eqb Ascii.eqb Bool.eqb dget]. rewrite Es, Ez.
      rewrite G5. fields k; reflexivity.
    - change (intermediate_type (uci_name "modem-manager") x5) with (Ok (dset "pincode" (pop_or "pin" VNull x5) (ddel "pin" (dset "proto" (VStr "modemmanager") x5)))).
      eexists. split; [reflexivity|]. split; [nodup|]. intros k. dg. unfold powns. cbn [String.eqb Ascii.eqb Bool.eqb dget].
      destruct (p_set _ _ _ _ _ _ H) as ((z & Ez & _) & _). unfold pop_or. rewrite G5. change (pbase b n u "pin") with (dget "pin" b). rewrite Ez.
      rewrite G5. fields k; reflexivity.
    - exists x5. split; [reflexivity|]. split; [exact N5|]. intros k. rewrite G5. reflexivity. }
  destruct Ety as (x6 & -> & N6 & G6). cbn [bind].
  assert (Ev : check_bridge_vlan dsa [] x6 = Ok x6).
  { unfold check_bridge_vlan. destruct dsa; [|reflexivity]. unfold pop_or. rewrite G6. unfold powns. change (pbase b n u "ifname") with (text n).
    destruct Hc as [-> |[-> |[-> | ->]]]; cbn [String.eqb Ascii.eqb Bool.eqb dget text str_key bind existsb]; rewrite andb_false_r; reflexivity. }
  rewrite Ev. cbn [bind]. eexists. split; [reflexivity|]. split; [nodup|]. intros k. dg. rewrite G6. unfold pstart.
  field k "network"; [|destruct (dget k (powns t b)); reflexivity]. unfold powns. destruct Hc as [-> |[-> |[-> | ->]]]; reflexivity.
Qed.

(** ** The section *)
Definition paddr (t : string) (l : list ipif) : option val := if String.eqb t "wireguard" then Some (VList (map (fun n => VStr (if_str n)) l)) else None.
Definition psec (t : string) (b : dict) (n u : string) (l : list ipif) (opts : list (string * option val)) (k : string) : option val :=
  if String.eqb k "dns" then Some (odef (opt opts "dns")) else if String.eqb k "dns_search" then Some (odef (opt opts "dns_search"))
  else if String.eqb k "type" then None else if String.eqb k "addresses" then paddr t l else pstart t b n u k.
Lemma wireguard_texts l ds : Forall2 (fun n d => NoDup (dkeys d) /\ same_map (static_address n None) d) l ds ->
  mapM wireguard_address (map VDict ds) = Ok (map (fun n => VStr (if_str n)) l).
Proof.
  induction 1 as [|n d l ds [Hd Hm] F IH]; [reflexivity|]. cbn [map mapM]. rewrite IH. unfold wireguard_address at 1. cbn [as_dict bind].
  assert (Ea : dgetE "address" d = Ok (VStr (if_ip n))) by (unfold dgetE; rewrite Hm; reflexivity). rewrite Ea. cbn [bind].
  assert (Em : dget "mask" d = Some (VInt (Z.of_N (ip_len n)))) by (rewrite Hm; reflexivity). rewrite Em, py_str_N. reflexivity.
Qed.
Definition pproto (t : string) : string := if String.eqb t "wireguard" then t else "none".
Lemma proto_addresses b t n u l opts : piface b t n u l opts ->
  exists a b1, interface_addresses b = Ok ([a], b1) /\ NoDup (dkeys b1) /\ (forall k, k <> "addresses" -> dget k b1 = dget k b) /\ NoDup (dkeys a) /\
    forall k, dget k a = if String.eqb k "proto" then text (pproto t) else if String.eqb k "addresses" then paddr t l else None.
Proof.
  intros H. pose proof (p_type _ _ _ _ _ _ H) as Ht. unfold interface_addresses. unfold dgetN at 1. rewrite Ht. unfold text at 1. rewrite py_eq_text.
  destruct (protocol_cases _ (p_in _ _ _ _ _ _ H)) as [-> |[-> |[-> | ->]]].
  - cbn [String.eqb Ascii.eqb Bool.eqb]. destruct (p_addr _ _ _ _ _ _ H eq_refl) as (ds & Ed & _ & F & _). unfold dgetE. rewrite Ed. cbn [bind as_list].
    rewrite (wireguard_texts l ds F). cbn [bind]. do 2 eexists. split; [reflexivity|]. pose proof (p_nd _ _ _ _ _ _ H) as Nb. split; [nodup|]. split.
    + intros k Hk. dg. ev. reflexivity.
    + split; [repeat constructor; cbn; intuition discriminate|]. intros k. cbn [dget]. unfold paddr. cbn [String.eqb Ascii.eqb Bool.eqb]. fields k; reflexivity.
  - cbn [String.eqb Ascii.eqb Bool.eqb]. destruct (p_set _ _ _ _ _ _ H) as (_ & _ & _ & X). unfold dgetN. rewrite (X "addresses") by (cbn; auto). cbn [truthy negb].
    unfold dgetE. rewrite Ht. unfold text at 1. cbn [bind]. rewrite py_eq_text. cbn [String.eqb Ascii.eqb Bool.eqb]. do 2 eexists. split; [reflexivity|].
    split; [exact (p_nd _ _ _ _ _ _ H)|]. split; [reflexivity|]. split; [repeat constructor; cbn; intuition discriminate|]. intros k. cbn [dget]. fields k; reflexivity.
  - cbn [String.eqb Ascii.eqb Bool.eqb]. destruct (p_set _ _ _ _ _ _ H) as (_ & X). unfold dgetN. rewrite (X "addresses") by (cbn; auto). cbn [truthy negb].
    unfold dgetE. rewrite Ht. unfold text at 1. cbn [bind]. rewrite py_eq_text. cbn [String.eqb Ascii.eqb Bool.eqb]. do 2 eexists. split; [reflexivity|].
    split; [exact (p_nd _ _ _ _ _ _ H)|]. split; [reflexivity|]. split; [repeat constructor; cbn; intuition discriminate|]. intros k. cbn [dget]. fields k; reflexivity.
  - cbn [String.eqb Ascii.eqb Bool.eqb]. destruct (p_set _ _ _ _ _ _ H) as (_ & X). unfold dgetN. rewrite (X "addresses") by (cbn; auto). cbn [truthy negb].
    unfold dgetE. rewrite Ht. unfold text at 1. cbn [bind]. rewrite py_eq_text. cbn [String.eqb Ascii.eqb Bool.eqb]. do 2 eexists. split; [reflexivity|].
    split; [exact (p_nd _ _ _ _ _ _ H)|]. split; [reflexivity|]. split; [repeat constructor; cbn; intuition discriminate|]. intros k. cbn [dget]. fields k; reflexivity.
Qed.
Lemma proto_static b t n u l opts : piface b t n u l opts -> static b = String.eqb t "wireguard" /\ dmem "addresses" b = String.eqb t "wireguard".
Proof.
  intros H. unfold static, dmem. destruct (protocol_cases _ (p_in _ _ _ _ _ _ H)) as [-> |[-> |[-> | ->]]].
  - destruct (p_addr _ _ _ _ _ _ H eq_refl) as (ds & Ed & Hne & F & _). rewrite Ed. destruct F as [|n' d l ds [_ Hm] F]; [congruence|]. cbn [map].
    assert (Ep : dget "proto" d = Some (VStr "static")) by (rewrite Hm; reflexivity). rewrite Ep. split; reflexivity.
  - destruct (p_set _ _ _ _ _ _ H) as (_ & _ & _ & X). rewrite (X "addresses") by (cbn; auto). split; reflexivity.
  - destruct (p_set _ _ _ _ _ _ H) as (_ & X). rewrite (X "addresses") by (cbn; auto). split; reflexivity.
  - destruct (p_set _ _ _ _ _ _ H) as (_ & X). rewrite (X "addresses") by (cbn; auto). split; reflexivity.
Qed.
Lemma proto_text b t n u l opts : piface b t n u l opts -> exists p, dget "proto" b = match dget "proto" (powns t b) with Some _ => None | None => text p end /\
  pstart t b n u "proto" = text p /\ match dget "proto" (powns t b) with Some _ => p = proto_name t | None => In p dialups end.
Proof.
  intros H. destruct (protocol_cases _ (p_in _ _ _ _ _ _ H)) as [-> |[-> |[-> | ->]]].
  - exists "wireguard". destruct (p_set _ _ _ _ _ _ H) as (_ & _ & _ & _ & X). rewrite (X "proto") by (cbn; auto). split; [|split]; reflexivity.
  - exists "vxlan". destruct (p_set _ _ _ _ _ _ H) as (_ & _ & _ & X). rewrite (X "proto") by (cbn; auto). split; [|split]; reflexivity.
  - exists "modemmanager". destruct (p_set _ _ _ _ _ _ H) as (_ & X). rewrite (X "proto") by (cbn; auto). split; [|split]; reflexivity.
  - destruct (p_set _ _ _ _ _ _ H) as ((p & Ep & Hp) & _). exists p. split; [exact Ep|]. split; [exact Ep|exact Hp].
Qed.
Lemma proto_section config b t n u l opts i a : piface b t n u l opts -> dns_config config -> dns_in config b opts ->
  NoDup (dkeys i) -> NoDup (dkeys a) -> (forall k, dget k i = pstart t b n u k) ->
  (forall k, dget k a = if String.eqb k "proto" then text (pproto t) else if String.eqb k "addresses" then paddr t l else None) ->
  exists s, address_section config u false i a 1 = Ok s /\ NoDup (dkeys s) /\ sorted_keys s /\ forall k, dget k s = psec t b n u l opts k.
Proof.
  intros H [C1 C2] [D1 D2] Ni Na Gi Ga. pose proof (p_none _ _ _ _ _ _ H) as Habs. unfold none_of, protocol_gone in Habs. destruct (proto_static _ _ _ _ _ _ H) as [S1 S2].
  pose proof (protocol_cases _ (p_in _ _ _ _ _ _ H)) as Hc.
  assert (Ow : forall k, existsb (String.eqb k) ["dns"; "dns_search"; "type"; "addresses"] = true -> dget k (powns t b) = None).
  { intros k. unfold powns. cbn [existsb]. destruct Hc as [-> |[-> |[-> | ->]]]; cbn [String.eqb Ascii.eqb Bool.eqb dget]; fields k; intros; discriminate || reflexivity. }
  assert (I1 : dget "dns" i = None). { rewrite Gi. unfold pstart. rewrite Ow by reflexivity. apply Habs. cbn; auto 30. }
  assert (I2 : dget "dns_search" i = None). { rewrite Gi. unfold pstart. rewrite Ow by reflexivity. apply Habs. cbn; auto 30. }
  assert (I3 : dget "type" i = text t). { rewrite Gi. unfold pstart. rewrite Ow by reflexivity. exact (p_type _ _ _ _ _ _ H). }
  destruct (proto_text _ _ _ _ _ _ H) as (p & _ & Ep & _). rewrite <- Gi in Ep.
  unfold address_section. change (1 <? 1)%nat with false. cbn iota.
  assert (D : forall key ck wo, dget key i = None -> dns_ok ck config -> is_one_of (VStr (pproto t)) wo = negb (String.eqb t "wireguard") ->
    dns_option key ck wo config i a = Ok (odef (if String.eqb t "wireguard" then dns_val (texts ck config) else None))).
  { intros key ck wo E1 E2 E3. unfold dns_option. rewrite E1. unfold dgetE. rewrite Ga. ev. unfold text at 1. cbn [bind]. rewrite E3. destruct (String.eqb t "wireguard"); [|reflexivity]. cbn [negb].
    destruct (dns_ok_texts _ _ E2) as (_ & T1 & T2). destruct (texts ck config) as [|x q]; [rewrite (T2 eq_refl); reflexivity|].
    unfold dgetN. rewrite T1 by discriminate. change (truthy (VList (map VStr (x :: q)))) with true. cbn iota. rewrite iter_texts. reflexivity. }
  rewrite D by (assumption || (destruct Hc as [-> |[-> |[-> | ->]]]; reflexivity)). cbn [bind]. rewrite D by (assumption || (destruct Hc as [-> |[-> |[-> | ->]]]; reflexivity)). cbn [bind].
  rewrite S1 in D1. rewrite S2 in D2. rewrite <- D1, <- D2, Ep. unfold text.
  match goal with |- context [intermediate_bridge false 1 ?x] => set (x1 := x) end. assert (N1 : NoDup (dkeys x1)) by (unfold x1; nodup).
  assert (T1 : dget "type" x1 = text t) by (unfold x1; dg; ev; exact I3).
  assert (Eb : intermediate_bridge false 1 x1 = Ok (ddel "type" x1)).
  { unfold intermediate_bridge. unfold dgetE at 1. rewrite T1. unfold text at 1. cbn [bind]. rewrite py_eq_text.
    assert (Et : String.eqb t "bridge" = false) by (destruct Hc as [-> |[-> |[-> | ->]]]; reflexivity). rewrite Et. reflexivity. }
  rewrite Eb. cbn [bind]. eexists. split; [reflexivity|]. assert (N : NoDup (dkeys (dupdate (ddel "type" x1) (ddel "proto" a)))) by nodup.
  split; [apply ssort_NoDup, N|]. split; [apply ssort_sorted_keys, N|]. intros k. rewrite dget_ssort by exact N. rewrite dget_dupdate by nodup. rewrite dget_ddel by exact Na. rewrite Ga.
  unfold x1. dg. rewrite Gi. unfold psec. field k "proto"; [rewrite <- Gi, Ep; reflexivity|]. field k "addresses".
  - unfold pstart. rewrite Ow by reflexivity. unfold paddr. destruct (String.eqb t "wireguard"); reflexivity.
  - fields k; reflexivity.
Qed.
Lemma proto_uname b t n u l opts : piface b t n u l opts ->
  (do x <- (if truthy (dgetN "network" b) then Ok (dgetN "network" b) else dgetE "name" b); uci_name_val x) = Ok (VStr u).
Proof.
  intros H. pose proof (p_net _ _ _ _ _ _ H) as Hn. unfold dgetN, dgetE. rewrite (p_name _ _ _ _ _ _ H). unfold uci_name_val, text.
  destruct (dget "network" b) as [v|].
  - destruct Hn as (-> & Hi & _). rewrite (truthy_text _ (p_une _ _ _ _ _ _ H)). cbn [bind as_str]. change (uci_name u) with (identifier u). rewrite Hi. reflexivity.
  - cbn [truthy bind as_str]. rewrite Hn. reflexivity.
Qed.
Lemma block_proto oid dsa config b t n u l opts ss ns : piface b t n u l opts -> dns_config config -> dns_in config b opts ->
  named ss ns -> NoDup ns -> ~ In u ns ->
  exists s, interface_block oid dsa config (acc_of "network" ss, []) (VDict b) = Ok (acc_of "network" (ss ++ [s]), []) /\
    sorted_keys s /\ forall k, dget k s = psec t b n u l opts k.
Proof.
  intros H Hc Hin Hn Hnd Hu. unfold interface_block. cbn [as_dict bind].
  pose proof (proto_uname _ _ _ _ _ _ H) as Hun. cbn zeta.
  destruct (if truthy (dgetN "network" b) then Ok (dgetN "network" b) else dgetE "name" b) as [x|e]; [|discriminate Hun]. cbn [bind] in *. rewrite Hun. cbn [bind].
  destruct (proto_addresses _ _ _ _ _ _ H) as (a & b1 & -> & Nb1 & Gb1 & Na & Ga). cbn [bind].
  destruct (proto_interface dsa b t n u l opts b1 H Nb1 Gb1) as (i & -> & Ni & Gi). cbn [bind py_str].
  assert (Ed : dsa_interface dsa [] i = false).
  { unfold dsa_interface. assert (Et : dgetN "type" i = VStr t).
    { unfold dgetN. rewrite Gi. unfold pstart, powns. destruct (protocol_cases _ (p_in _ _ _ _ _ _ H)) as [-> |[-> |[-> | ->]]]; change (pbase b n u "type") with (dget "type" b); rewrite (p_type _ _ _ _ _ _ H); reflexivity. }
    rewrite Et. assert (Ei : is_one_of (VStr t) dsa_types = false) by (destruct (protocol_cases _ (p_in _ _ _ _ _ _ H)) as [-> |[-> |[-> | ->]]]; reflexivity). rewrite Ei.
    rewrite andb_false_r. reflexivity. }
  rewrite Ed. cbn [bind].
  destruct (proto_section config b t n u l opts i a H Hc Hin Ni Na Gi Ga) as (s & Es & Ns & Ss & Gs).
  rewrite (sections_one oid config u false i a s ss ns u Es Hn Hnd) by (assumption || (unfold sec_name; rewrite Gs; unfold psec, pstart, powns; destruct (protocol_cases _ (p_in _ _ _ _ _ _ H)) as [-> |[-> |[-> | ->]]]; reflexivity)).
  cbn [bind]. exists s. split; [reflexivity|]. split; assumption.
Qed.

(** ** Writing and reading the section *)
Lemma dialup_plain p : In p dialups -> p <> EmptyString /\ plain p /\ is_one_of (VStr p) ["static"; "dhcp"; "dhcpv6"; "none"] = false /\ startswith "dhcp" p = false /\
  existsb (String.eqb p) dialup_protos = true.
Proof.
  unfold dialups. cbn [In]. intros H. repeat (destruct H as [<-|H]; [split; [discriminate|]; split; [apply bare_plain; reflexivity|]; repeat split; reflexivity|]). contradiction.
Qed.
Lemma dns_value v : (exists l, v = odef (dns_val l) /\ words l) -> uci_value v <> None -> writable v.
Proof. intros (l & -> & W). apply dns_writable, W. Qed.
Lemma opt_dns l1 l2 : opt [("dns", dns_val l1); ("dns_search", dns_val l2)] "dns" = dns_val l1 /\ opt [("dns", dns_val l1); ("dns_search", dns_val l2)] "dns_search" = dns_val l2.
Proof. unfold opt. cbn [dget]. ev. split; reflexivity. Qed.
Lemma proto_field b t n u l opts k v : piface b t n u l opts -> existsb (String.eqb k) protocol_skip = false -> dget k b = Some v ->
  word k /\ startswith "." k = false /\ survives (dget k (protocol_fields t)) v.
Proof.
  intros H Hk E. apply (p_fields _ _ _ _ _ _ H); [apply In_of_dget, E|]. intros Hin. rewrite <- not_true_iff_false in Hk. apply Hk, existsb_exists. exists k. rewrite eqb_refl. auto.
Qed.
Lemma psec_ok b t n u l opts s : piface b t n u l opts -> NoDup (dkeys s) -> (forall k, dget k s = psec t b n u l opts k) -> section_ok s.
Proof.
  intros H Hs G. pose proof (protocol_cases _ (p_in _ _ _ _ _ _ H)) as Hc.
  assert (Ow : dget ".type" (powns t b) = None /\ dget ".name" (powns t b) = None) by (unfold powns; destruct Hc as [-> |[-> |[-> | ->]]]; split; reflexivity). destruct Ow as [O1 O2].
  eapply section_ok_intro; [exact Hs|rewrite G; unfold psec, pstart; rewrite O1; reflexivity|wordlit|rewrite G; unfold psec, pstart; rewrite O2; reflexivity|exact (p_bare _ _ _ _ _ _ H)|].
  destruct (p_dns _ _ _ _ _ _ H) as (l1 & l2 & W1 & W2 & Eo). destruct (opt_dns l1 l2) as [D1 D2]. rewrite <- Eo in D1, D2.
  intros k v. rewrite G. unfold psec. intros E Hd Hv.
  destruct (String.eqb_spec k "dns") as [->|]. { injection E as <-. rewrite D1 in *. split; [wordlit|apply dns_writable; assumption]. }
  destruct (String.eqb_spec k "dns_search") as [->|]. { injection E as <-. rewrite D2 in *. split; [wordlit|apply dns_writable; assumption]. }
  destruct (String.eqb_spec k "type") as [->|]; [discriminate E|].
  destruct (String.eqb_spec k "addresses") as [->|].
  { unfold paddr in E. destruct (String.eqb t "wireguard"); [|discriminate E]. injection E as <-. split; [wordlit|]. intros x Hx. apply in_map_iff in Hx as (y & <- & _). apply if_str_plain. }
  assert (Int : forall z, writable (VInt z)) by (intros z; apply plain_Z).
  unfold pstart in E. destruct (dget k (powns t b)) as [o|] eqn:Ek.
  { subst o. unfold powns in Ek. destruct Hc as [-> |[-> |[-> | ->]]]; cbn [String.eqb Ascii.eqb Bool.eqb dget] in Ek; revert Ek.
    - destruct (p_set _ _ _ _ _ _ H) as (_ & _ & (z & Ez) & _). fields k; intros E; try discriminate E; injection E as E; [subst v; split; [wordlit|apply bare_plain; reflexivity]|].
      rewrite Ez in E. injection E as <-. split; [wordlit|apply Int].
    - destruct (p_set _ _ _ _ _ _ H) as ((x & Ex & _ & Px) & (z & Ez) & _). fields k; intros E; try discriminate E; injection E as E.
      + subst v. split; [wordlit|apply bare_plain; reflexivity].
      + rewrite Ex in E. injection E as <-. split; [wordlit|exact Px].
      + rewrite Ez in E. injection E as <-. split; [wordlit|apply Int].
    - destruct (p_set _ _ _ _ _ _ H) as ((x & Ex & _ & Px) & _). fields k; intros E; try discriminate E; injection E as E.
      + subst v. split; [wordlit|apply bare_plain; reflexivity].
      + rewrite Ex in E. injection E as <-. split; [wordlit|exact Px].
    - discriminate. }
  destruct (String.eqb_spec k "network") as [->|]; [discriminate E|]. unfold pbase in E.
  destruct (String.eqb_spec k ".type") as [->|]; [discriminate Hd|]. destruct (String.eqb_spec k ".name") as [->|]; [discriminate Hd|].
  destruct (existsb (String.eqb k) ["name"; "addresses"; "mac"; "autostart"; "disabled"; "wireless"]) eqn:Eg; [discriminate E|].
  destruct (String.eqb_spec k "ifname") as [->|]. { injection E as <-. split; [wordlit|exact (p_plain _ _ _ _ _ _ H)]. }
  destruct (String.eqb_spec k "macaddr") as [->|].
  { pose proof (p_mac _ _ _ _ _ _ H) as Hm. unfold optional in Hm. rewrite E in Hm. destruct Hm as (x & -> & _ & Hp). split; [wordlit|exact Hp]. }
  destruct (String.eqb_spec k "auto") as [->|].
  { pose proof (p_auto _ _ _ _ _ _ H) as Hm. unfold optional in Hm. rewrite E in Hm. destruct Hm as (x & ->). split; [wordlit|]. destruct x; apply bare_plain; reflexivity. }
  destruct (String.eqb_spec k "enabled") as [->|].
  { pose proof (p_dis _ _ _ _ _ _ H) as Hm. unfold optional in Hm. destruct (dget "disabled" b); [|discriminate]. destruct Hm as (x & ->). injection E as <-. split; [wordlit|]. destruct x; apply bare_plain; reflexivity. }
  destruct (proto_field b t n u l opts k v H) as (W & _ & Sv); [|exact E|split; [exact W|eapply survives_writable, Sv]].
  unfold protocol_skip. cbn [existsb] in Eg |- *. revert Eg. fields k; intros; try reflexivity; try discriminate; congruence.
Qed.

(** ** The object *)
Definition pread (t : string) (b : dict) (n u : string) (l : list ipif) (opts : list (string * option val)) (i : dict) : Prop := NoDup (dkeys i) /\
  forall k, dget k i = if String.eqb k ".type" || String.eqb k ".name" then psec t b n u l opts k
    else if startswith "." k then None else uopt (psec t b n u l opts k).
Lemma psec_type b t n u l opts : piface b t n u l opts -> psec t b n u l opts ".type" = text "interface".
Proof. intros H. unfold psec, pstart, powns. destruct (protocol_cases _ (p_in _ _ _ _ _ _ H)) as [-> |[-> |[-> | ->]]]; reflexivity. Qed.
Lemma psec_name b t n u l opts : piface b t n u l opts -> psec t b n u l opts ".name" = text u.
Proof. intros H. unfold psec, pstart, powns. destruct (protocol_cases _ (p_in _ _ _ _ _ _ H)) as [-> |[-> |[-> | ->]]]; reflexivity. Qed.
Lemma psec_read b t n u l opts s s' : piface b t n u l opts -> section_reads s s' -> (forall k, dget k s = psec t b n u l opts k) -> pread t b n u l opts s'.
Proof.
  intros Hp Hr G. destruct (section_reads_plain s s' "interface" Hr) as [Hs H]; [rewrite G; eapply psec_type, Hp|discriminate|discriminate|].
  split; [apply sorted_NoDup, Hs|]. intros k. rewrite H, !G. reflexivity.
Qed.
(** The options that every protocol shows alike *)
Lemma psec_plain b t n u l opts k : piface b t n u l opts ->
  existsb (String.eqb k) ["dns"; "dns_search"; "type"; "addresses"; "network"; "ifname"; "proto"; "listen_port"; "port"; "peeraddr"; "vid"; "vtep"; "vni"; "pincode"; "pin"] = false ->
  psec t b n u l opts k = pbase b n u k.
Proof.
  intros H Hk. cbn [existsb] in Hk.
  assert (Ow : dget k (powns t b) = None).
  { unfold powns. destruct (protocol_cases _ (p_in _ _ _ _ _ _ H)) as [-> |[-> |[-> | ->]]]; cbn [String.eqb Ascii.eqb Bool.eqb dget]; revert Hk; fields k; intros; discriminate || reflexivity. }
  unfold psec, pstart. rewrite Ow. revert Hk. fields k; intros; discriminate || reflexivity.
Qed.
Lemma proto_absent b t n u l opts k : piface b t n u l opts -> In k protocol_gone -> dget k b = None.
Proof. intros H. apply (p_none _ _ _ _ _ _ H). Qed.
Definition pz (t : string) (b : dict) (n u : string) (l : list ipif) (opts : list (string * option val)) (k : string) : option val :=
  if existsb (String.eqb k) ["name"; "network"; "mac"; "autostart"; "disabled"; "mtu"] then dget k b
  else if String.eqb k "type" then text "other"
  else if existsb (String.eqb k) [".type"; ".name"; "device_name"; "ifname"; "macaddr"; "auto"; "enabled"; "ipaddr"; "ip6addr"] then None
  else if String.eqb k "vid" then (if String.eqb t "vxlan" then dget "vni" b else None)
  else if startswith "." k then None else uopt (psec t b n u l opts k).
Lemma mac_same b t n u l opts : piface b t n u l opts -> uopt (dget "mac" b) = dget "mac" b.
Proof.
  intros H. pose proof (p_mac _ _ _ _ _ _ H) as Hm. unfold optional in Hm. destruct (dget "mac" b) as [v|]; [|reflexivity]. destruct Hm as (s & -> & Hs & _). apply uci_text, Hs.
Qed.
Lemma proto_common b t n u l opts s : piface b t n u l opts -> pread t b n u l opts s ->
  exists z, netjson_interface s = netjson_proto z /\ NoDup (dkeys z) /\ forall k, dget k z = pz t b n u l opts k.
Proof.
  intros H [Ns Gs]. pose proof (protocol_cases _ (p_in _ _ _ _ _ _ H)) as Hc.
  assert (R : forall k, existsb (String.eqb k) ["dns"; "dns_search"; "type"; "addresses"; "network"; "ifname"; "proto"; "listen_port"; "port"; "peeraddr"; "vid"; "vtep"; "vni"; "pincode"; "pin"] = false ->
    startswith "." k = false -> dget k s = uopt (pbase b n u k)).
  { intros k Hk Hd. rewrite Gs. rewrite (psec_plain _ _ _ _ _ _ _ H Hk), Hd. field k ".type"; [discriminate Hd|]. field k ".name"; [discriminate Hd|]. reflexivity. }
  assert (Rif : dget "ifname" s = if String.eqb t "wireguard" then None else text n).
  { rewrite Gs. ev. unfold psec, pstart, powns. destruct Hc as [-> |[-> |[-> | ->]]]; try reflexivity; exact (uci_text n (p_ne _ _ _ _ _ _ H)). }
  destruct (proto_text _ _ _ _ _ _ H) as (p & _ & Ep & Ip).
  assert (Pp : p <> EmptyString /\ is_one_of (VStr p) ["static"; "dhcp"; "dhcpv6"; "none"] = false /\ startswith "dhcp" p = false).
  { unfold powns in Ip. destruct Hc as [-> |[-> |[-> | ->]]]; cbn in Ip.
    - subst p. split; [discriminate|split; reflexivity].
    - subst p. split; [discriminate|split; reflexivity].
    - subst p. split; [discriminate|split; reflexivity].
    - destruct (dialup_plain p Ip) as (A & _ & B & C & _). auto. }
  destruct Pp as (Pne & Pk & Pd).
  assert (Rp : dget "proto" s = text p).
  { rewrite Gs. ev. change (psec t b n u l opts "proto") with (pstart t b n u "proto"). rewrite Ep. exact (uci_text p Pne). }
  assert (Rt : dget "type" s = None) by (rewrite Gs; reflexivity).
  assert (Rn : dget "network" s = None). { rewrite Gs. ev. unfold psec, pstart, powns. destruct Hc as [-> |[-> |[-> | ->]]]; reflexivity. }
  assert (Rvid : dget "vid" s = if String.eqb t "vxlan" then uopt (dget "vni" b) else None).
  { rewrite Gs. ev. unfold psec, pstart, powns. destruct Hc as [-> |[-> |[-> | ->]]]; try reflexivity; change (pbase b n u "vid") with (dget "vid" b); rewrite (proto_absent _ _ _ _ _ _ "vid" H) by (unfold protocol_gone; cbn [In]; tauto); reflexivity. }
  unfold netjson_interface. unfold dgetE at 1. rewrite Gs. ev. cbn [orb]. rewrite (psec_type _ _ _ _ _ _ H). unfold text at 1. cbn [bind].
  unfold dgetE at 1. rewrite dget_ddel by exact Ns. ev. rewrite Gs. ev. cbn [orb]. rewrite (psec_name _ _ _ _ _ _ H). unfold text at 1. cbn [bind].
  set (x1 := dset "network" (VStr u) (ddel ".name" (ddel ".type" s))). assert (N1 : NoDup (dkeys x1)) by (unfold x1; nodup).
  assert (G1 : forall k, dget k x1 = if String.eqb k "network" then text u else if String.eqb k ".name" then None else if String.eqb k ".type" then None else dget k s) by (intros k; unfold x1; dg; reflexivity).
  set (x2 := dset "device_name" (dgetN "name" x1) x1). assert (N2 : NoDup (dkeys x2)) by (unfold x2; nodup).
  assert (G2 : forall k, k <> "device_name" -> dget k x2 = dget k x1) by (intros k K; unfold x2; dg; ev; reflexivity).
  assert (Ef : pop_or "ifname" (VStr u) x2 = VStr n).
  { unfold pop_or. rewrite G2 by discriminate. rewrite G1. ev. rewrite Rif. pose proof (p_set _ _ _ _ _ _ H) as Hs. pose proof (p_net _ _ _ _ _ _ H) as Hn.
    unfold protocol_settings in Hs. destruct (String.eqb t "wireguard"); [|reflexivity]. destruct Hs as (E1 & E2 & _). rewrite E1 in Hn. congruence. }
  rewrite Ef. set (x3 := dset "name" (VStr n) (ddel "ifname" x2)). assert (N3 : NoDup (dkeys x3)) by (unfold x3; nodup).
  assert (G3 : forall k, k <> "device_name" -> dget k x3 = if String.eqb k "name" then text n else if String.eqb k "ifname" then None else if String.eqb k "network" then text u
    else if String.eqb k ".name" then None else if String.eqb k ".type" then None else dget k s).
  { intros k K. unfold x3. dg. rewrite G2 by exact K. rewrite G1. reflexivity. }
  clearbody x3. clear x2 N2 G2 Ef x1 N1 G1.
  assert (Ety : exists y, netjson_type x3 = Ok y /\ NoDup (dkeys y) /\ forall k, k <> "type" -> dget k y = if String.eqb k "device_name" then None else dget k x3).
  { unfold netjson_type. set (x4 := ddel "device_name" x3). assert (N4 : NoDup (dkeys x4)) by (unfold x4; nodup).
    assert (G4 : forall k, dget k x4 = if String.eqb k "device_name" then None else dget k x3) by (intros k; unfold x4; dg; reflexivity). clearbody x4.
    rewrite G4. ev. rewrite G3 by discriminate. ev. rewrite Rt. unfold dgetE. rewrite G4. ev. rewrite G3 by discriminate. ev. unfold text at 1. cbn [bind].
    eexists. split; [reflexivity|]. split; [nodup|]. intros k K. dg. ev. apply G4. }
  destruct Ety as (y & -> & Ny & Gy). cbn [bind].
  assert (Iy : forall k, In k ["ipaddr"; "ip6addr"] -> dget k y = None).
  { intros k Hk. assert (X : In k protocol_gone) by (unfold protocol_gone; cbn [In] in Hk |- *; tauto). pose proof (proto_absent _ _ _ _ _ _ _ H X) as A.
    destruct Hk as [<-|[<-|[]]]; rewrite Gy by discriminate; ev; rewrite G3 by discriminate; ev; rewrite R by reflexivity; unfold pbase; cbn [existsb]; ev; cbn [orb]; rewrite A; reflexivity. }
  assert (Ead : exists z, netjson_addresses y = Ok z /\ NoDup (dkeys z) /\ forall k, dget k z = if existsb (String.eqb k) ["ipaddr"; "ip6addr"] then None else if String.eqb k "type" then text "other" else dget k y).
  { unfold netjson_addresses. unfold pop_or. assert (Yp : dget "proto" y = text p) by (rewrite Gy by discriminate; ev; rewrite G3 by discriminate; ev; exact Rp). rewrite Yp. unfold text.
    rewrite Pk. cbn iota.
    assert (Epn : py_eq (VStr p) (VStr "none") = false).
    { rewrite py_eq_text. apply eqb_neq. intros ->. discriminate Pk. }
    rewrite Epn, andb_false_r. unfold add_netjson_addresses. set (y1 := dset "type" (VStr "other") y). assert (Ny1 : NoDup (dkeys y1)) by (unfold y1; nodup).
    assert (Gy1 : forall k, dget k y1 = if String.eqb k "type" then text "other" else dget k y) by (intros k; unfold y1; dg; reflexivity). clearbody y1.
    assert (V6 : pop_or "ip6addr" (VList []) y1 = VList []) by (unfold pop_or; rewrite Gy1; ev; rewrite Iy by (cbn; auto); reflexivity). rewrite V6.
    unfold address_option. unfold pop_or at 1. rewrite dget_ddel by exact Ny1. ev. rewrite Gy1. ev. rewrite Iy by (cbn; auto). cbn [bind].
    unfold pop_or at 1. dg. ev. cbn [bind as_str]. rewrite Pd. cbn [app foldM bind]. eexists. split; [reflexivity|]. split; [nodup|]. intros k. dg. rewrite Gy1. cbn [existsb]. fields k; reflexivity. }
  destruct Ead as (z & -> & Nz & Gz). cbn [bind].
  assert (L : forall k, existsb (String.eqb k) ["ipaddr"; "ip6addr"; "type"; "device_name"; "name"; "ifname"; "network"; ".name"; ".type"] = false -> dget k z = dget k s).
  { intros k Hk. assert (K1 : k <> "type") by (intros ->; discriminate Hk). assert (K2 : k <> "device_name") by (intros ->; discriminate Hk).
    rewrite Gz. rewrite (eqb_neq _ _ K1). rewrite Gy by exact K1. rewrite (eqb_neq _ _ K2). rewrite G3 by exact K2. revert Hk. cbn [existsb]. fields k; intros; try discriminate; try congruence; reflexivity. }
  set (z1 := rename_eq "auto" "autostart" "1" z). assert (N1 : NoDup (dkeys z1)) by (apply NoDup_rename_eq, Nz).
  assert (Qa : dget "autostart" s = None) by (rewrite R by reflexivity; reflexivity).
  assert (Qd : dget "disabled" s = None) by (rewrite R by reflexivity; reflexivity).
  assert (Qm : dget "mac" s = None) by (rewrite R by reflexivity; reflexivity).
  assert (G1 : forall k, dget k z1 = if String.eqb k "auto" then None else if String.eqb k "autostart" then dget "autostart" b else dget k z).
  { intros k. unfold z1. rewrite rename_eq_get; [|exact Nz|discriminate|rewrite L by reflexivity; exact Qa].
    replace (option_map (fun v => VBool (py_eq v (VStr "1"))) (dget "auto" z)) with (dget "autostart" b); [reflexivity|].
    rewrite L, R by reflexivity. change (pbase b n u "auto") with (dget "autostart" b).
    pose proof (p_auto _ _ _ _ _ _ H) as Ha. unfold optional in Ha. destruct (dget "autostart" b) as [v|]; [|reflexivity]. destruct Ha as ([] & ->); reflexivity. }
  set (z2 := rename_eq "enabled" "disabled" "0" z1). assert (N2 : NoDup (dkeys z2)) by (apply NoDup_rename_eq, N1).
  assert (G2 : forall k, dget k z2 = if String.eqb k "enabled" then None else if String.eqb k "disabled" then dget "disabled" b else dget k z1).
  { intros k. unfold z2. rewrite rename_eq_get; [|exact N1|discriminate|rewrite G1; ev; rewrite L by reflexivity; exact Qd].
    replace (option_map (fun v => VBool (py_eq v (VStr "0"))) (dget "enabled" z1)) with (dget "disabled" b); [reflexivity|].
    rewrite G1. ev. rewrite L, R by reflexivity. change (pbase b n u "enabled") with (option_map neg (dget "disabled" b)).
    pose proof (p_dis _ _ _ _ _ _ H) as Ha. unfold optional in Ha. destruct (dget "disabled" b) as [v|]; [|reflexivity]. destruct Ha as ([] & ->); reflexivity. }
  cbn [foldM].
  assert (E3 : exists z3, int_field z2 "mtu" = Ok z3 /\ NoDup (dkeys z3) /\ forall k, dget k z3 = if String.eqb k "mtu" then dget "mtu" b else dget k z2).
  { unfold int_field. assert (Em : dget "mtu" z2 = uopt (dget "mtu" b)) by (rewrite G2; ev; rewrite G1; ev; rewrite L, R by reflexivity; reflexivity). rewrite Em.
    destruct (dget "mtu" b) as [w|] eqn:Ew.
    - destruct (proto_field _ _ _ _ _ _ "mtu" _ H eq_refl Ew) as (_ & _ & Sv).
      assert (Et : dget "mtu" (protocol_fields t) = Some JInt) by (unfold protocol_fields; destruct Hc as [-> |[-> |[-> | ->]]]; reflexivity). rewrite Et in Sv.
      destruct w as [| |i| | | |]; try contradiction. unfold uopt. change (uci_value (VInt i)) with (Some (VStr (string_of_Z i))). cbn iota. unfold py_int. rewrite int_of_string_Z. cbn [bind].
      eexists. split; [reflexivity|]. split; [nodup|]. intros k. dg. fields k; reflexivity.
    - cbn [uopt]. eexists. split; [reflexivity|]. split; [exact N2|]. intros k. field k "mtu"; [exact Em|reflexivity]. }
  destruct E3 as (z3 & -> & N3' & G3'). cbn [bind].
  assert (E4 : exists z4, int_field z3 "vid" = Ok z4 /\ NoDup (dkeys z4) /\ forall k, dget k z4 = if String.eqb k "vid" then (if String.eqb t "vxlan" then dget "vni" b else None) else dget k z3).
  { unfold int_field. assert (Em : dget "vid" z3 = if String.eqb t "vxlan" then uopt (dget "vni" b) else None) by (rewrite G3'; ev; rewrite G2; ev; rewrite G1; ev; rewrite L by reflexivity; exact Rvid). rewrite Em.
    destruct (String.eqb_spec t "vxlan") as [Et|Et].
    - subst t. destruct (p_set _ _ _ _ _ _ H) as (_ & (i & Ei) & _). rewrite Ei. unfold uopt. change (uci_value (VInt i)) with (Some (VStr (string_of_Z i))). cbn iota. unfold py_int. rewrite int_of_string_Z. cbn [bind].
      eexists. split; [reflexivity|]. split; [nodup|]. intros k. dg. fields k; reflexivity.
    - eexists. split; [reflexivity|]. split; [exact N3'|]. intros k. field k "vid"; [exact Em|reflexivity]. }
  destruct E4 as (z4 & -> & N4 & G4). cbn [bind].
  set (z5 := rename "macaddr" "mac" z4). assert (N5 : NoDup (dkeys z5)) by (apply NoDup_rename, N4).
  assert (G5 : forall k, dget k z5 = if String.eqb k "macaddr" then None else if String.eqb k "mac" then dget "mac" b else dget k z4).
  { intros k. unfold z5. rewrite rename_get; [|exact N4|discriminate|rewrite G4; ev; rewrite G3'; ev; rewrite G2; ev; rewrite G1; ev; rewrite L by reflexivity; exact Qm].
    replace (dget "macaddr" z4) with (dget "mac" b); [reflexivity|]. rewrite G4. ev. rewrite G3'. ev. rewrite G2. ev. rewrite G1. ev. rewrite L, R by reflexivity.
    change (pbase b n u "macaddr") with (dget "mac" b). symmetry. eapply mac_same, H. }
  clearbody z5 z2 z1.
  assert (Zn : dget "name" z5 = text n) by (rewrite G5; ev; rewrite G4; ev; rewrite G3'; ev; rewrite G2; ev; rewrite G1; ev; rewrite Gz; cbn [existsb]; ev; cbn [orb]; rewrite Gy by discriminate; ev; rewrite G3 by discriminate; reflexivity).
  assert (Zw : dget "network" z5 = text u) by (rewrite G5; ev; rewrite G4; ev; rewrite G3'; ev; rewrite G2; ev; rewrite G1; ev; rewrite Gz; cbn [existsb]; ev; cbn [orb]; rewrite Gy by discriminate; ev; rewrite G3 by discriminate; reflexivity).
  unfold dgetE. rewrite Zn. unfold text at 1. cbn [bind]. unfold uci_name_val. cbn [as_str bind].
  set (z6 := if py_eq (dgetN "network" z5) (VStr (uci_name n)) then ddel "network" z5 else z5).
  assert (N6 : NoDup (dkeys z6)) by (unfold z6; destruct (py_eq _ _); nodup).
  assert (G6 : forall k, dget k z6 = if String.eqb k "network" then dget "network" b else dget k z5).
  { intros k. unfold z6, dgetN. rewrite Zw. unfold text at 1. rewrite py_eq_text. change (uci_name n) with (identifier n). pose proof (p_net _ _ _ _ _ _ H) as Hn.
    destruct (dget "network" b) as [v|].
    - destruct Hn as (-> & _ & Hne). rewrite eqb_neq by exact Hne. field k "network"; [exact Zw|reflexivity].
    - rewrite Hn, eqb_refl. dg. reflexivity. }
  clearbody z6. exists z6. split; [reflexivity|]. split; [exact N6|]. intros k. rewrite G6. unfold pz. cbn [existsb].
  field k "network"; [reflexivity|]. field k "name"; [rewrite Zn; symmetry; exact (p_name _ _ _ _ _ _ H)|].
  rewrite G5, G4, G3', G2, G1. field k "mac"; [reflexivity|]. field k "autostart"; [reflexivity|]. field k "disabled"; [reflexivity|]. field k "mtu"; [reflexivity|].
  cbn [orb]. field k "type"; [rewrite Gz; reflexivity|]. field k "macaddr"; [reflexivity|]. field k "vid"; [reflexivity|]. field k "enabled"; [reflexivity|]. field k "auto"; [reflexivity|].
  rewrite Gz. cbn [existsb]. rewrite Gy by assumption. field k "ipaddr"; [reflexivity|]. field k "ip6addr"; [reflexivity|]. field k "device_name"; [reflexivity|]. rewrite G3 by assumption.
  field k "ifname"; [reflexivity|]. field k ".name"; [reflexivity|]. field k ".type"; [reflexivity|]. cbn [orb]. ev. rewrite Gs. ev. reflexivity.
Qed.
(** The options that come back as they were *)
Definition pz_special : list string :=
  ["name"; "network"; "mac"; "autostart"; "disabled"; "mtu"; "type"; "device_name"; "ifname"; "macaddr"; "auto"; "enabled"; "ipaddr"; "ip6addr"; "vid"; "dns"; "dns_search"; "addresses"; "wireless"].
Lemma pz_plain b t n u l opts k : piface b t n u l opts -> existsb (String.eqb k) pz_special = false -> dget k (powns t b) = None -> pz t b n u l opts k = uopt (dget k b).
Proof.
  intros H Hk Ow. destruct (startswith "." k) eqn:Ed.
  { assert (E : dget k b = None) by (eapply dotted_absent; [exact (p_fields _ _ _ _ _ _ H)| |exact Ed]; unfold protocol_skip; intros Hin; cbn [In] in Hin; repeat (destruct Hin as [<-|Hin]; [discriminate Ed|]); exact Hin).
    rewrite E. unfold pz. rewrite Ed. revert Hk Ed. unfold pz_special. cbn [existsb]. fields k; intros; discriminate || reflexivity. }
  assert (D1 : k <> ".type") by (intros ->; discriminate Ed). assert (D2 : k <> ".name") by (intros ->; discriminate Ed).
  unfold pz, psec, pstart. rewrite Ow, Ed. unfold pbase. rewrite (eqb_neq _ _ D1), (eqb_neq _ _ D2). revert Hk. unfold pz_special. cbn [existsb]. rewrite ?(eqb_neq _ _ D1), ?(eqb_neq _ _ D2). fields k; intros; try discriminate; reflexivity.
Qed.
Lemma cast_back b t n u l opts k : piface b t n u l opts -> existsb (String.eqb k) protocol_skip = false ->
  match uopt (dget k b) with
  | Some w => exists v, cast_value (dget k (protocol_fields t)) w = Ok v /\ dget k b = Some v
  | None => dget k b = None
  end.
Proof.
  intros H Hk. destruct (dget k b) as [v|] eqn:E; [|reflexivity]. destruct (proto_field _ _ _ _ _ _ _ _ H Hk E) as (_ & _ & Sv). destruct (survives_read _ _ Sv) as (w & Ew & Ec).
  unfold uopt. rewrite Ew. exists v. split; [exact Ec|reflexivity].
Qed.
Lemma dialup_back b t n u l opts k : piface b t n u l opts -> existsb (String.eqb k) protocol_skip = false -> dget k (protocol_fields t) = None -> uopt (dget k b) = dget k b.
Proof.
  intros H Hk Hf. pose proof (cast_back _ _ _ _ _ _ _ H Hk) as G. rewrite Hf in G. destruct (uopt (dget k b)) as [w0|]; [|congruence]. destruct G as (v0 & G & ->). injection G as ->. reflexivity.
Qed.
Lemma addresses_back l : (forall n, In n l -> (ip_addr n < 2 ^ width (ip_six n))%N /\ (ip_len n <= width (ip_six n))%N) ->
  mapM wireguard_address_back (map if_str l) = Ok (map (fun n => VDict (static_address n None)) l).
Proof.
  induction l as [|n l IH]; intros H; [reflexivity|]. cbn [map mapM]. rewrite IH by (intros x Hx; apply H; right; exact Hx). unfold wireguard_address_back. rewrite interface_str by (apply H; left; reflexivity). reflexivity.
Qed.
Lemma same_addresses l ds : Forall2 (fun n d => NoDup (dkeys d) /\ same_map (static_address n None) d) l ds -> same (VList (map VDict ds)) (VList (map (fun n => VDict (static_address n None)) l)).
Proof.
  intros F. rewrite <- (map_map (fun n => static_address n None) VDict l). apply same_lists. induction F as [|n d l ds [_ Hd] F IH]; constructor; [|exact IH]. apply same_of_map. intros k. symmetry. apply Hd.
Qed.
Lemma addresses_text l : l <> [] -> uopt (Some (VList (map (fun n => VStr (if_str n)) l))) = Some (VList (map VStr (map if_str l))).
Proof. intros Hl. destruct l as [|n l]; [congruence|]. rewrite map_map. unfold uopt. cbn [uci_value map]. repeat f_equal. rewrite map_map. reflexivity. Qed.
Definition ptarget (b : dict) (t : string) (l : list ipif) (opts : list (string * option val)) (k : string) : option val :=
  if String.eqb k "dns" then opt opts "dns" else if String.eqb k "dns_search" then opt opts "dns_search"
  else if String.eqb k "addresses" then (if String.eqb t "wireguard" then Some (VList (map (fun n => VDict (static_address n None)) l)) else None)
  else dget k b.
Lemma proto_back b t n u l opts s : piface b t n u l opts -> pread t b n u l opts s ->
  exists b', netjson_interface s = Ok b' /\ NoDup (dkeys b') /\ same (VDict b) (VDict (ddel "dns_search" (ddel "dns" b'))) /\
    dget "dns" b' = opt opts "dns" /\ dget "dns_search" b' = opt opts "dns_search" /\ b' <> [].
Proof.
  intros H HR. destruct (proto_common _ _ _ _ _ _ _ H HR) as (z & -> & Nz & Gz). pose proof (protocol_cases _ (p_in _ _ _ _ _ _ H)) as Hc.
  assert (T : exists b', netjson_proto z = Ok b' /\ NoDup (dkeys b') /\ forall k, dget k b' = ptarget b t l opts k).
  { destruct (proto_text _ _ _ _ _ _ H) as (p & Ebp & Ep & Ip).
    destruct (p_dns _ _ _ _ _ _ H) as (l1 & l2 & W1 & W2 & Eo). destruct (opt_dns l1 l2) as [D1 D2]. rewrite <- Eo in D1, D2.
    assert (Pne : p <> EmptyString).
    { unfold powns in Ip. destruct Hc as [-> |[-> |[-> | ->]]]; cbn in Ip; [subst; discriminate|subst; discriminate|subst; discriminate|]. destruct (dialup_plain p Ip) as (A & _). exact A. }
    assert (Zp : dget "proto" z = text p).
    { rewrite Gz. unfold pz. cbn [existsb]. ev. cbn [orb startswith]. change (psec t b n u l opts "proto") with (pstart t b n u "proto"). rewrite Ep. exact (uci_text p Pne). }
    assert (Zd : dget "dns" z = opt opts "dns" /\ dget "dns_search" z = opt opts "dns_search").
    { split; rewrite Gz; [change (pz t b n u l opts "dns") with (uopt (Some (odef (opt opts "dns"))))|change (pz t b n u l opts "dns_search") with (uopt (Some (odef (opt opts "dns_search"))))];
        rewrite ?D1, ?D2; apply dns_read; assumption. }
    destruct Zd as [Zd1 Zd2].
    assert (Za : dget "addresses" z = if String.eqb t "wireguard" then Some (VList (map VStr (map if_str l))) else None).
    { rewrite Gz. change (pz t b n u l opts "addresses") with (uopt (paddr t l)). unfold paddr. destruct (String.eqb_spec t "wireguard") as [Et|Et]; [|reflexivity].
      destruct (p_addr _ _ _ _ _ _ H Et) as (ds & _ & Hne & F & _). apply addresses_text. intros ->. inversion F. congruence. }
    assert (Zg : forall k, existsb (String.eqb k) ["device_name"; "ifname"; "macaddr"; "auto"; "enabled"; "ipaddr"; "ip6addr"; "wireless"] = true -> dget k z = None).
    { intros k Hk. rewrite Gz. apply existsb_exists in Hk as (k' & Hk & E). apply String.eqb_eq in E. subst k'. cbn [In] in Hk. repeat (destruct Hk as [<-|Hk]; [try reflexivity|]); [|contradiction].
      unfold pz. cbn [existsb]. ev. cbn [orb startswith]. unfold psec, pstart, powns. destruct Hc as [-> |[-> |[-> | ->]]]; reflexivity. }
    assert (Zb : forall k, existsb (String.eqb k) ["name"; "network"; "mac"; "autostart"; "disabled"; "mtu"] = true -> dget k z = dget k b) by (intros k Hk; rewrite Gz; unfold pz; rewrite Hk; reflexivity).
    assert (Bg : forall k, existsb (String.eqb k) ["device_name"; "ifname"; "macaddr"; "auto"; "enabled"; "ipaddr"; "ip6addr"; "wireless"; "vid"; "listen_port"; "peeraddr"] = true -> dget k b = None).
    { intros k Hk. apply (proto_absent _ _ _ _ _ _ _ H). apply existsb_exists in Hk as (k' & Hk & E). apply String.eqb_eq in E. subst k'. unfold protocol_gone. cbn [In] in *. tauto. }
    assert (Zv : dget "vid" z = if String.eqb t "vxlan" then dget "vni" b else None) by (rewrite Gz; reflexivity).
    pose proof (p_type _ _ _ _ _ _ H) as Ht. pose proof (p_set _ _ _ _ _ _ H) as Hs.
    unfold netjson_proto. rewrite Zp. unfold text. destruct Hc as [-> |[-> |[-> | ->]]].
    - cbn in Ip. subst p. cbn [existsb String.eqb Ascii.eqb Bool.eqb orb].
      destruct Hs as (_ & _ & (i & Ei) & _ & Hp). destruct (p_addr _ _ _ _ _ _ H eq_refl) as (ds & _ & _ & _ & Hv).
      set (z1 := dset "type" (VStr "wireguard") (ddel "proto" z)). assert (N1 : NoDup (dkeys z1)) by (unfold z1; nodup).
      assert (G1 : forall k, dget k z1 = if String.eqb k "type" then text "wireguard" else if String.eqb k "proto" then None else dget k z) by (intros k; unfold z1; dg; reflexivity). clearbody z1.
      assert (Lp : pop_or "listen_port" VNull z1 = VStr (string_of_Z i)).
      { unfold pop_or. rewrite G1. ev. rewrite Gz. unfold pz. cbn [existsb]. ev. cbn [orb startswith]. unfold psec, pstart, powns. cbn [String.eqb Ascii.eqb Bool.eqb dget]. rewrite Ei. reflexivity. }
      rewrite Lp. set (z2 := dset "port" _ _). assert (N2 : NoDup (dkeys z2)) by (unfold z2; nodup).
      assert (G2 : forall k, dget k z2 = if String.eqb k "port" then text (string_of_Z i) else if String.eqb k "listen_port" then None else dget k z1) by (intros k; unfold z2; dg; reflexivity). clearbody z2.
      unfold dgetE at 1. rewrite G2. ev. rewrite G1. ev. rewrite Za. rewrite eqb_refl. cbn [bind]. rewrite iter_texts. cbn [bind]. rewrite (addresses_back l Hv). cbn [bind].
      apply type_cast_pointwise; [nodup|]. intros k. rewrite dget_dset. unfold ptarget.
      field k "addresses"; [eexists; split; reflexivity|]. rewrite G2, G1.
      field k "port"; [exists (VInt i); split; [cbn [dget wireguard_props String.eqb Ascii.eqb Bool.eqb cast_value]; rewrite int_of_string_Z; reflexivity|ev; exact Ei]|].
      field k "listen_port"; [ev; apply Bg; reflexivity|]. field k "type"; [ev; eexists; split; [reflexivity|exact Ht]|].
      field k "proto"; [ev; apply Hp; cbn; auto|].
      field k "dns"; [ev; rewrite Zd1; destruct (opt opts "dns"); [eexists; split; reflexivity|reflexivity]|].
      field k "dns_search"; [ev; rewrite Zd2; destruct (opt opts "dns_search"); [eexists; split; reflexivity|reflexivity]|]. ev.
      field k "mtu". { rewrite Zb by reflexivity. destruct (dget "mtu" b) as [w|] eqn:Ew; [|reflexivity]. exists w. split; [|reflexivity].
        destruct (proto_field _ _ _ _ _ _ "mtu" _ H eq_refl Ew) as (_ & _ & Sv). destruct w; try contradiction. reflexivity. }
      destruct (existsb (String.eqb k) ["name"; "network"; "mac"; "autostart"; "disabled"; "mtu"]) eqn:E1.
      { rewrite Zb by exact E1. destruct (dget k b); [|reflexivity]. eexists. split; [|reflexivity]. revert E1. cbn [existsb dget wireguard_props]. fields k; intros; try discriminate; reflexivity. }
      destruct (existsb (String.eqb k) ["device_name"; "ifname"; "macaddr"; "auto"; "enabled"; "ipaddr"; "ip6addr"; "wireless"]) eqn:E2.
      { rewrite Zg by exact E2. apply Bg. revert E2. cbn [existsb]. fields k; intros; try discriminate; reflexivity. }
      field k "vid"; [rewrite Zv; apply Bg; reflexivity|].
      rewrite Gz, (pz_plain _ _ _ _ _ _ _ H).
      + apply (cast_back _ _ _ _ _ _ k H). revert E1 E2. unfold protocol_skip. cbn [existsb]. fields k; intros; try discriminate; try congruence; reflexivity.
      + revert E1 E2. unfold pz_special. cbn [existsb]. fields k; intros; try discriminate; try congruence; reflexivity.
      + unfold powns. cbn [String.eqb Ascii.eqb Bool.eqb dget]. revert E1 E2. cbn [existsb]. fields k; intros; try discriminate; try congruence; reflexivity.
    - cbn in Ip. subst p. cbn [existsb String.eqb Ascii.eqb Bool.eqb orb].
      destruct Hs as ((vt & Ev & Vne & _) & (i & Ei) & (po & Eo') & Hp).
      set (z1 := dset "type" (VStr "vxlan") (ddel "proto" z)). assert (N1 : NoDup (dkeys z1)) by (unfold z1; nodup).
      assert (G1 : forall k, dget k z1 = if String.eqb k "type" then text "vxlan" else if String.eqb k "proto" then None else dget k z) by (intros k; unfold z1; dg; reflexivity). clearbody z1.
      assert (Lp : pop_or "peeraddr" VNull z1 = VStr vt).
      { unfold pop_or. rewrite G1. ev. rewrite Gz. unfold pz. cbn [existsb]. ev. cbn [orb startswith]. unfold psec, pstart, powns. cbn [String.eqb Ascii.eqb Bool.eqb dget]. rewrite Ev. unfold text. change (uopt (Some (VStr vt))) with (uci_value (VStr vt)). rewrite (uci_text vt Vne). reflexivity. }
      rewrite Lp. set (z2 := dset "vtep" _ _). assert (N2 : NoDup (dkeys z2)) by (unfold z2; nodup).
      assert (G2 : forall k, dget k z2 = if String.eqb k "vtep" then text vt else if String.eqb k "peeraddr" then None else dget k z1) by (intros k; unfold z2; dg; reflexivity). clearbody z2.
      assert (Lv : pop_or "vid" VNull z2 = VInt i) by (unfold pop_or; rewrite G2; ev; rewrite G1; ev; rewrite Zv; ev; rewrite Ei; reflexivity).
      rewrite Lv. set (z3 := dset "vni" _ _). assert (N3 : NoDup (dkeys z3)) by (unfold z3; nodup).
      assert (G3 : forall k, dget k z3 = if String.eqb k "vni" then Some (VInt i) else if String.eqb k "vid" then None else dget k z2) by (intros k; unfold z3; dg; reflexivity). clearbody z3.
      assert (Zo : dget "port" z = uopt (dget "port" b)) by (rewrite Gz; apply (pz_plain _ _ _ _ _ _ _ H); reflexivity).
      unfold dgetE at 1. rewrite G3. ev. rewrite G2. ev. rewrite G1. ev. rewrite Zo, Eo'. unfold uopt at 1. change (uci_value (VInt po)) with (Some (VStr (string_of_Z po))). cbn iota. cbn [bind].
      apply type_cast_pointwise; [exact N3|]. intros k. unfold ptarget. rewrite G3, G2, G1.
      field k "vni"; [exists (VInt i); split; [reflexivity|ev; exact Ei]|]. field k "vid"; [ev; apply Bg; reflexivity|].
      field k "vtep"; [eexists; split; [reflexivity|ev; exact Ev]|].
      field k "peeraddr"; [ev; apply Bg; reflexivity|]. field k "type"; [ev; eexists; split; [reflexivity|exact Ht]|].
      field k "proto"; [ev; apply Hp; cbn; auto|].
      field k "dns"; [ev; rewrite Zd1; destruct (opt opts "dns"); [eexists; split; reflexivity|reflexivity]|].
      field k "dns_search"; [ev; rewrite Zd2; destruct (opt opts "dns_search"); [eexists; split; reflexivity|reflexivity]|].
      field k "addresses"; [ev; rewrite Za; reflexivity|]. ev.
      field k "mtu". { rewrite Zb by reflexivity. destruct (dget "mtu" b) as [w|] eqn:Ew; [|reflexivity]. exists w. split; [|reflexivity].
        destruct (proto_field _ _ _ _ _ _ "mtu" _ H eq_refl Ew) as (_ & _ & Sv). destruct w; try contradiction. reflexivity. }
      destruct (existsb (String.eqb k) ["name"; "network"; "mac"; "autostart"; "disabled"; "mtu"]) eqn:E1.
      { rewrite Zb by exact E1. destruct (dget k b); [|reflexivity]. eexists. split; [|reflexivity]. revert E1. cbn [existsb dget vxlan_props]. fields k; intros; try discriminate; reflexivity. }
      destruct (existsb (String.eqb k) ["device_name"; "ifname"; "macaddr"; "auto"; "enabled"; "ipaddr"; "ip6addr"; "wireless"]) eqn:E2.
      { rewrite Zg by exact E2. apply Bg. revert E2. cbn [existsb]. fields k; intros; try discriminate; reflexivity. }
      rewrite Gz, (pz_plain _ _ _ _ _ _ _ H).
      + apply (cast_back _ _ _ _ _ _ k H). revert E1 E2. unfold protocol_skip. cbn [existsb]. fields k; intros; try discriminate; try congruence; reflexivity.
      + revert E1 E2. unfold pz_special. cbn [existsb]. fields k; intros; try discriminate; try congruence; reflexivity.
      + unfold powns. cbn [String.eqb Ascii.eqb Bool.eqb dget]. revert E1 E2. cbn [existsb]. fields k; intros; try discriminate; try congruence; reflexivity.
    - cbn in Ip. subst p. cbn [existsb String.eqb Ascii.eqb Bool.eqb orb].
      destruct Hs as ((pn & En' & Pn & _) & Hp).
      set (z1 := dset "type" (VStr "modem-manager") (ddel "proto" z)). assert (N1 : NoDup (dkeys z1)) by (unfold z1; nodup).
      assert (G1 : forall k, dget k z1 = if String.eqb k "type" then text "modem-manager" else if String.eqb k "proto" then None else dget k z) by (intros k; unfold z1; dg; reflexivity). clearbody z1.
      assert (Lp : pop_or "pincode" VNull z1 = VStr pn).
      { unfold pop_or. rewrite G1. ev. rewrite Gz. unfold pz. cbn [existsb]. ev. cbn [orb startswith]. unfold psec, pstart, powns. cbn [String.eqb Ascii.eqb Bool.eqb dget]. rewrite En'. unfold text. change (uopt (Some (VStr pn))) with (uci_value (VStr pn)). rewrite (uci_text pn Pn). reflexivity. }
      rewrite Lp. assert (Zpin : dget "pincode" b = None) by (apply Hp; cbn; auto).
      apply type_cast_pointwise; [nodup|]. intros k. unfold ptarget. rewrite dget_dset, dget_ddel by exact N1. rewrite G1.
      field k "pin"; [exists (VStr pn); split; [reflexivity|ev; exact En']|]. field k "pincode"; [ev; exact Zpin|].
      field k "type"; [ev; eexists; split; [reflexivity|exact Ht]|].
      field k "proto"; [ev; apply Hp; cbn; auto|].
      field k "dns"; [ev; rewrite Zd1; destruct (opt opts "dns"); [eexists; split; reflexivity|reflexivity]|].
      field k "dns_search"; [ev; rewrite Zd2; destruct (opt opts "dns_search"); [eexists; split; reflexivity|reflexivity]|].
      field k "addresses"; [ev; rewrite Za; reflexivity|]. ev.
      field k "mtu". { rewrite Zb by reflexivity. destruct (dget "mtu" b) as [w|] eqn:Ew; [|reflexivity]. exists w. split; [|reflexivity].
        destruct (proto_field _ _ _ _ _ _ "mtu" _ H eq_refl Ew) as (_ & _ & Sv). destruct w; try contradiction. reflexivity. }
      destruct (existsb (String.eqb k) ["name"; "network"; "mac"; "autostart"; "disabled"; "mtu"]) eqn:E1.
      { rewrite Zb by exact E1. destruct (dget k b); [|reflexivity]. eexists. split; [|reflexivity]. revert E1. cbn [existsb dget modem_props]. fields k; intros; try discriminate; reflexivity. }
      destruct (existsb (String.eqb k) ["device_name"; "ifname"; "macaddr"; "auto"; "enabled"; "ipaddr"; "ip6addr"; "wireless"]) eqn:E2.
      { rewrite Zg by exact E2. apply Bg. revert E2. cbn [existsb]. fields k; intros; try discriminate; reflexivity. }
      field k "vid"; [rewrite Zv; apply Bg; reflexivity|].
      assert (Em : dget k modem_props = dget k (protocol_fields "modem-manager")) by (unfold modem_props, protocol_fields; cbn [dget String.eqb Ascii.eqb Bool.eqb]; fields k; try reflexivity; congruence).
      rewrite Em, Gz, (pz_plain _ _ _ _ _ _ _ H).
      + apply (cast_back _ _ _ _ _ _ k H). revert E1 E2. unfold protocol_skip. cbn [existsb]. fields k; intros; try discriminate; try congruence; reflexivity.
      + revert E1 E2. unfold pz_special. cbn [existsb]. fields k; intros; try discriminate; try congruence; reflexivity.
      + unfold powns. cbn [String.eqb Ascii.eqb Bool.eqb dget]. revert E1 E2. cbn [existsb]. fields k; intros; try discriminate; try congruence; reflexivity.
    - cbn in Ip. destruct (dialup_plain p Ip) as (_ & _ & _ & _ & Hd). rewrite Hd. eexists. split; [reflexivity|]. split; [nodup|]. destruct Hs as (_ & Hp).
      intros k. rewrite dget_dset. unfold ptarget. field k "type"; [ev; symmetry; exact Ht|].
      field k "dns"; [exact Zd1|]. field k "dns_search"; [exact Zd2|]. field k "addresses"; [rewrite Za; reflexivity|].
      destruct (existsb (String.eqb k) ["name"; "network"; "mac"; "autostart"; "disabled"; "mtu"]) eqn:E1; [apply Zb, E1|].
      destruct (existsb (String.eqb k) ["device_name"; "ifname"; "macaddr"; "auto"; "enabled"; "ipaddr"; "ip6addr"; "wireless"]) eqn:E2.
      { rewrite Zg by exact E2. symmetry. apply Bg. revert E2. cbn [existsb]. fields k; intros; try discriminate; reflexivity. }
      field k "vid"; [rewrite Zv; symmetry; apply Bg; reflexivity|].
      rewrite Gz, (pz_plain _ _ _ _ _ _ _ H); [apply (dialup_back _ _ _ _ _ _ k H)| |reflexivity].
      + revert E1 E2. unfold protocol_skip. cbn [existsb]. fields k; intros; try discriminate; try congruence; reflexivity.
      + revert E1 E2. cbn [existsb protocol_fields dget String.eqb Ascii.eqb Bool.eqb]. fields k; intros; try discriminate; try congruence; reflexivity.
      + revert E1 E2. unfold pz_special. cbn [existsb]. fields k; intros; try discriminate; try congruence; reflexivity. }
  destruct T as (b' & -> & Nb & Gb). exists b'. split; [reflexivity|]. split; [exact Nb|].
  pose proof (proto_absent _ _ _ _ _ _ "dns" H ltac:(unfold protocol_gone; cbn [In]; tauto)) as B1. pose proof (proto_absent _ _ _ _ _ _ "dns_search" H ltac:(unfold protocol_gone; cbn [In]; tauto)) as B2.
  assert (F : forall k, k <> "addresses" -> dget k (ddel "dns_search" (ddel "dns" b')) = dget k b).
  { intros k Hk. dg. field k "dns_search"; [congruence|]. field k "dns"; [congruence|]. rewrite Gb. unfold ptarget. ev. reflexivity. }
  assert (Fa : dget "addresses" (ddel "dns_search" (ddel "dns" b')) = ptarget b t l opts "addresses") by (dg; ev; apply Gb).
  assert (Ba : match dget "addresses" b with None => String.eqb t "wireguard" = false | Some v => String.eqb t "wireguard" = true /\ same v (VList (map (fun n => VDict (static_address n None)) l)) end).
  { destruct Hc as [-> |[-> |[-> | ->]]].
    - destruct (p_addr _ _ _ _ _ _ H eq_refl) as (ds & Ed & _ & F' & _). rewrite Ed. split; [reflexivity|apply same_addresses, F'].
    - destruct (p_set _ _ _ _ _ _ H) as (_ & _ & _ & X). rewrite (X "addresses") by (cbn; auto). reflexivity.
    - destruct (p_set _ _ _ _ _ _ H) as (_ & X). rewrite (X "addresses") by (cbn; auto). reflexivity.
    - destruct (p_set _ _ _ _ _ _ H) as (_ & X). rewrite (X "addresses") by (cbn; auto). reflexivity. }
  unfold ptarget in Fa. cbn [String.eqb Ascii.eqb Bool.eqb] in Fa.
  split; [|split; [rewrite Gb; reflexivity|split; [rewrite Gb; reflexivity|]]].
  - apply same_dict.
    + intros k v Ek. destruct (String.eqb_spec k "addresses") as [E|Hk].
      * subst k. rewrite Ek in Ba. destruct Ba as [Bt Bs]. rewrite Bt in Fa. eexists. split; [exact Fa|exact Bs].
      * exists v. split; [rewrite F by exact Hk; exact Ek|apply same_refl].
    + intros k Ek. destruct (String.eqb_spec k "addresses") as [E|Hk].
      * subst k. rewrite Ek in Ba. rewrite Ba in Fa. exact Fa.
      * rewrite F by exact Hk. exact Ek.
  - apply (dget_nonempty b' "name" (VStr n)). rewrite Gb. unfold ptarget. ev. apply (p_name _ _ _ _ _ _ H).
Qed.

(** ** With DSA *)
Definition no_paths (b : dict) (devs : list (string * dict)) : Prop := dmem "device" b = true -> forall p, dget (String ":" (String "/" p)) devs = None.
Lemma proto_device b t n u l opts i : piface b t n u l opts -> pread t b n u l opts i -> dget "device" i = dget "device" b /\ (dmem "device" b = true -> dmem "ifname" i = true).
Proof.
  intros H [Ni Gi]. pose proof (p_dev _ _ _ _ _ _ H) as Hd. pose proof (p_set _ _ _ _ _ _ H) as Hs. split.
  - rewrite Gi. ev. cbn [orb startswith]. rewrite (psec_plain _ _ _ _ _ _ _ H) by reflexivity. change (pbase b n u "device") with (dget "device" b).
    unfold optional in Hd. destruct (dget "device" b) as [v|]; [|reflexivity]. destruct Hd as (s & ->). apply uci_text. discriminate.
  - unfold dmem. intros X. rewrite Gi. ev. cbn [orb startswith]. unfold psec, pstart, powns. destruct (protocol_cases _ (p_in _ _ _ _ _ _ H)) as [-> |[-> |[-> | ->]]].
    1: { destruct Hs as (_ & _ & _ & _ & Y). rewrite (Y "device") in X by (cbn; auto). discriminate X. }
      all: cbn [String.eqb Ascii.eqb Bool.eqb dget]; change (pbase b n u "ifname") with (text n); unfold text, uopt; rewrite (uci_text n (p_ne _ _ _ _ _ _ H)); reflexivity.
Qed.
Lemma dsa_proto b t n u l opts i devs : piface b t n u l opts -> pread t b n u l opts i -> no_paths b devs -> dget EmptyString devs = None -> dget ":" devs = None ->
  netjson_dsa devs i = Ok (Some i, devs).
Proof.
  intros H HR Hn D1 D2. destruct (proto_device _ _ _ _ _ _ _ H HR) as [Ed Ei]. destruct HR as [Ni Gi].
  assert (En : dget "name" i = None). { rewrite Gi. ev. cbn [orb startswith]. rewrite (psec_plain _ _ _ _ _ _ _ H) by reflexivity. reflexivity. }
  unfold netjson_dsa, device_for, pop_or, dgetN. rewrite Ed, En. pose proof (p_dev _ _ _ _ _ _ H) as Hd. unfold optional, no_paths in *. unfold dmem in Hn, Ei.
  destruct (dget "device" b) as [v|].
  - destruct Hd as (s & ->). specialize (Hn eq_refl). specialize (Ei eq_refl). cbn [dev_key bind]. change (":" +++ String "/" s) with (String ":" (String "/" s)). unfold dmem. rewrite Hn, D1. cbn [str_key bind rpartition].
    replace (match rpartition "." s with Some (a, b0) => Some (String "/" a, b0) | None => if Ascii.eqb "/" "." then Some (EmptyString, s) else None end) with
      (match rpartition "." s with Some (a, b0) => Some (String "/" a, b0) | None => None end) by reflexivity.
    destruct (rpartition "." s) as [[a c]|].
    + change (":" +++ String "/" a) with (String ":" (String "/" a)). rewrite Hn. cbn [bind]. rewrite Ed. destruct (dget "ifname" i); [reflexivity|discriminate Ei].
    + cbn [bind]. rewrite Ed. destruct (dget "ifname" i); [reflexivity|discriminate Ei].
  - cbn [dev_key bind]. change (":" +++ EmptyString) with ":". unfold dmem. rewrite D2, D1.
    cbn [str_key bind]. change (rpartition "." EmptyString) with (@None (string * string)). cbn [bind]. rewrite Ed. reflexivity.
Qed.
Lemma skip_path devs b s : no_paths b devs -> dget "device" b = Some (VStr (String "/" s)) ->
  dmem (":" +++ hd EmptyString (split_char "." (String "/" s))) devs = false.
Proof.
  intros H E. unfold dmem. assert (X : exists a, hd EmptyString (split_char "." (String "/" s)) = String "/" a).
  { cbn [split_char]. change (Ascii.eqb "/" ".") with false. cbn iota. destruct (split_char "." s) as [|h q]; eexists; reflexivity. }
  destruct X as (a & ->). change (":" +++ String "/" a) with (String ":" (String "/" a)). rewrite H; [reflexivity|]. unfold dmem. rewrite E. reflexivity.
Qed.
Lemma piface_of config b : dns_config config -> protocol_ok b -> exists t n l opts, piface b t n (interface_name b) l opts /\ dns_in config b opts.
Proof.
  intros [C1 C2] (Hnd & (n & t & Hn & Hne & Hp & Ht & Hin & Hs & Hnet & Hf) & Hmac & Hau & Hdi & Hdev & Habs).
  set (opts := [("dns", dns_val (if static b then texts "dns_servers" config else [])); ("dns_search", dns_val (if dmem "addresses" b then texts "dns_search" config else []))]).
  assert (Ho : exists l1 l2, words l1 /\ words l2 /\ opts = [("dns", dns_val l1); ("dns_search", dns_val l2)]).
  { do 2 eexists. split; [|split; [|reflexivity]]; [destruct (static b)|destruct (dmem "addresses" b)]; try apply dns_ok_texts; try assumption; intros s []. }
  assert (Hdn : dns_in config b opts) by (unfold dns_in, opts, opt; cbn [dget]; ev; split; [destruct (static b)|destruct (dmem "addresses" b)]; reflexivity).
  assert (En : name_or "name" EmptyString b = n) by (unfold name_or; rewrite Hn; reflexivity).
  assert (Hu : exists u, interface_name b = u /\ u <> EmptyString /\ bare u /\
    match dget "network" b with None => u = identifier n | Some v => v = VStr u /\ identifier u = u /\ u <> identifier n end).
  { unfold interface_name. rewrite En. unfold name_or. destruct (dget "network" b) as [v|].
    - destruct Hnet as (s & -> & [Hs1 Hs2] & Hi & Hx). exists s. rewrite Hi. repeat (split; [assumption || reflexivity|]); assumption.
    - exists (identifier n). auto using identifier_nonempty. }
  destruct Hu as (u & -> & U1 & U2 & U3).
  assert (Hl : exists l, t = "wireguard" -> tunnel_addresses l b).
  { destruct (String.eqb_spec t "wireguard") as [->|Hne']; [|exists []; congruence]. destruct Hs as (_ & _ & _ & (l & Hl) & _). exists l. auto. }
  destruct Hl as (l & Hl). exists t, n, l, opts. split; [|exact Hdn]. constructor; assumption.
Qed.
