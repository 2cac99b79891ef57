(** * RtInterface: one interface through UCI sections and back (proofs only). *)
From Verif Require Import PyBase PyLemmas StrLemmas NumLemmas Merge SpecMerge MergeProofs MergeListProofs MergeFinal Backend Conv Ip IpProofs OwrtConv OwrtWireless OwrtInterfaces
  SpecUci SpecConv SpecDevice ConvLemmas SortLemmas RtStage RtBack RtGeneric RtSystem RtNetwork RtTrip RtAddress.

(** What is known of an interface: its name [n], the name [u] of its section,
    whether it is a bridge, its members and the options of its addresses. *)
Definition bridge_keys : list string := bridge_flags ++ bridge_numbers.
Definition iface_skip : list string := ["name"; "network"; "type"; "addresses"; "mac"; "autostart"; "disabled"; "bridge_members"].
(** The options of the addresses together with those of the DNS servers *)
Definition words (l : list string) : Prop := forall s, In s l -> word s.
Definition dns_val (l : list string) : option val := match l with [] => None | _ => text (join " " l) end.
Definition addr_dns (v : option val) (opts : list (string * option val)) : Prop :=
  exists base l1 l2, addressing v base /\ opts = (base ++ [("dns", dns_val l1); ("dns_search", dns_val l2)])%list /\ words l1 /\ words l2.
Definition dns_in (config b : dict) (opts : list (string * option val)) : Prop :=
  opt opts "dns" = (if static b then dns_val (texts "dns_servers" config) else None) /\
  opt opts "dns_search" = (if dmem "addresses" b then dns_val (texts "dns_search" config) else None).
Definition dns_config (config : dict) : Prop := dns_ok "dns_servers" config /\ dns_ok "dns_search" config.
Lemma opt_base v base tl k : addressing v base -> existsb (String.eqb k) six_options = true -> opt (base ++ tl) k = opt base k.
Proof. intros H. unfold opt, six_options. cbn [existsb]. intros E. revert E. inversion H; subst; cbn [app dget]; fields k; try discriminate; reflexivity. Qed.
Lemma opt_tail v base tl k : addressing v base -> existsb (String.eqb k) six_options = false -> opt (base ++ tl) k = opt tl k.
Proof. intros H. unfold opt, six_options. cbn [existsb]. intros E. revert E. inversion H; subst; cbn [app dget]; fields k; try discriminate; reflexivity. Qed.
Lemma dns_vals v opts : addr_dns v opts -> exists l1 l2, words l1 /\ words l2 /\ opt opts "dns" = dns_val l1 /\ opt opts "dns_search" = dns_val l2.
Proof.
  intros (base & l1 & l2 & H & -> & W1 & W2). exists l1, l2. split; [exact W1|]. split; [exact W2|].
  rewrite !(opt_tail _ _ _ _ H) by reflexivity. split; reflexivity.
Qed.
Lemma addresses_dns_fwd b opts t : NoDup (dkeys b) -> addr_dns (dget "addresses" b) opts ->
  dget "type" b = text t -> t <> "wireguard" -> (t = "wireless" -> dget "addresses" b <> None) -> none_of ["gateway"; "ip6gw"] b ->
  exists a b1, interface_addresses b = Ok ([a], b1) /\ NoDup (dkeys a) /\ NoDup (dkeys b1) /\
    (forall k, dget k a = if existsb (String.eqb k) address_options then opt opts k else None) /\
    forall k, dget k b1 = if String.eqb k "gateway" || String.eqb k "ip6gw" then opt opts k else dget k b.
Proof.
  intros Hb (base & l1 & l2 & H & -> & _) Ht H1 H2 H3. destruct (addresses_fwd b base t Hb H Ht H1 H2 H3) as (a & b1 & E & Na & Nb & Ga & Gb).
  exists a, b1. split; [exact E|]. split; [exact Na|]. split; [exact Nb|]. split; intros k; rewrite ?Ga, ?Gb.
  - destruct (existsb (String.eqb k) address_options) eqn:X; [|reflexivity]. symmetry. apply (opt_base _ _ _ _ H).
    unfold address_options in X. unfold six_options. cbn [existsb] in *. revert X. fields k; try discriminate; reflexivity.
  - destruct (String.eqb k "gateway" || String.eqb k "ip6gw") eqn:X; [|reflexivity]. symmetry. apply (opt_base _ _ _ _ H).
    unfold six_options. cbn [existsb] in *. revert X. fields k; try discriminate; reflexivity.
Qed.
Lemma addresses_dns_bwd i v opts : NoDup (dkeys i) -> addr_dns v opts -> dget "addresses" i = None ->
  (forall k, In k six_options -> dget k i = uopt (opt opts k)) ->
  exists i', netjson_addresses i = Ok i' /\ NoDup (dkeys i') /\
    (match v with None => dget "addresses" i' = None | Some w => exists w', dget "addresses" i' = Some w' /\ same w w' end) /\
    forall k, k <> "addresses" -> dget k i' = if existsb (String.eqb k) six_options then None else dget k i.
Proof.
  intros Hi (base & l1 & l2 & H & -> & _) Ha Hk. apply (addresses_bwd i v base Hi H Ha). intros k Hin. rewrite (Hk k Hin). f_equal. apply (opt_base _ _ _ _ H).
  apply existsb_exists. exists k. rewrite eqb_refl. auto.
Qed.
Record iface (dsa : bool) (b : dict) (n u : string) (br : bool) (ms : list string) (opts : list (string * option val)) : Prop := {
  i_nd : NoDup (dkeys b);
  i_name : dget "name" b = text n;
  i_ne : n <> EmptyString;
  i_plain : plain n;
  i_dot : dsa = true -> contains "." n = false;
  i_une : u <> EmptyString;
  i_bare : bare u;
  i_net : match dget "network" b with None => u = identifier n | Some v => v = VStr u /\ identifier u = u /\ u <> identifier n end;
  i_type : dget "type" b = text (if br then "bridge" else if existsb (String.eqb n) loopback_names then "loopback" else "ethernet");
  i_mem : dget "bridge_members" b = if br then Some (VList (map VStr ms)) else None;
  i_words : forall m, In m ms -> word m;
  i_keys : br = false -> none_of bridge_keys b;
  i_br : br = true -> exists x, n = "br-" +++ x /\ contains "br_" n = false /\
     (dsa = false -> identifier x = x /\ optional "network" b (fun v => v = VStr x));
  i_addr : addr_dns (dget "addresses" b) opts;
  i_mac : optional "mac" b (fun v => exists s, v = VStr s /\ s <> EmptyString /\ plain s);
  i_auto : optional "autostart" b (fun v => exists x, v = VBool x);
  i_dis : optional "disabled" b (fun v => exists x, v = VBool x);
  i_none : none_of section_fields b;
  i_dev : dsa = true -> none_of device_fields b;
  i_fields : fields_survive interface_fields iface_skip b
}.
Lemma replace_nonempty x y s : s <> EmptyString -> replace (String x EmptyString) (String y EmptyString) s <> EmptyString.
Proof.
  destruct s as [|c s]; [congruence|]. intros _. destruct (Ascii.eqb_spec x c) as [->|Hn].
  - change (String c s) with (String c EmptyString +++ s). rewrite replace_hit. discriminate.
  - rewrite replace_miss; [discriminate|]. cbn. apply Ascii.eqb_neq in Hn. rewrite Hn. reflexivity.
Qed.
Lemma identifier_nonempty n : n <> EmptyString -> identifier n <> EmptyString.
Proof. intros H. unfold identifier. apply replace_nonempty, replace_nonempty, H. Qed.
Lemma texts_map k d l : dget k d = Some (VList (map VStr l)) -> texts k d = l.
Proof. intros E. unfold texts. rewrite E. clear E. induction l as [|x l IH]; [reflexivity|]. cbn. rewrite IH. reflexivity. Qed.
Lemma dns_ok_texts k config : dns_ok k config -> words (texts k config) /\ (texts k config <> [] -> dget k config = Some (VList (map VStr (texts k config)))) /\
  (texts k config = [] -> truthy (dgetN k config) = false).
Proof.
  unfold dns_ok, optional, dgetN. destruct (dget k config) as [v|] eqn:E.
  - intros (l & -> & W). rewrite (texts_map _ _ _ E). split; [exact W|]. split; [reflexivity|]. intros ->. reflexivity.
  - intros _. unfold texts. rewrite E. split; [intros s []|]. split; [congruence|reflexivity].
Qed.
Lemma iface_of dsa config b : dns_config config -> interface_ok dsa b -> exists n br ms opts, iface dsa b n (interface_name b) br ms opts /\ dns_in config b opts.
Proof.
  intros [C1 C2] (Hnd & (n & Hn & Hne & Hp & Hd & Hnet & Ht) & (base & Hbase) & Hmac & Hau & Hdi & Habs & Hdev & Hf).
  set (opts := (base ++ [("dns", dns_val (if static b then texts "dns_servers" config else [])); ("dns_search", dns_val (if dmem "addresses" b then texts "dns_search" config else []))])%list).
  assert (Ho : addr_dns (dget "addresses" b) opts).
  { do 3 eexists. split; [exact Hbase|]. split; [reflexivity|]. split; [destruct (static b)|destruct (dmem "addresses" b)]; try apply dns_ok_texts; try assumption; intros s []. }
  assert (Hin : dns_in config b opts).
  { unfold dns_in, opts. rewrite !(opt_tail _ _ _ _ Hbase) by reflexivity. unfold opt. cbn [dget]. ev. split; [destruct (static b)|destruct (dmem "addresses" b)]; reflexivity. }
  clearbody opts. clear Hbase base.
  assert (En : name_or "name" EmptyString b = n) by (unfold name_or; rewrite Hn; reflexivity).
  assert (Hu : exists u, interface_name b = u /\ u <> EmptyString /\ bare u /\
    match dget "network" b with None => u = identifier n | Some v => v = VStr u /\ identifier u = u /\ u <> identifier n end).
  { unfold interface_name. rewrite En. unfold name_or. destruct (dget "network" b) as [v|].
    - destruct Hnet as (s & -> & [Hs Hs'] & Hi & Hx). exists s. rewrite Hi. repeat (split; [assumption || reflexivity|]); assumption.
    - exists (identifier n). auto using identifier_nonempty. }
  destruct Hu as (u & -> & U1 & U2 & U3). exists n.
  destruct Ht as [[Ht ((x & Hx) & ms & Hms & Hw)]|[Ht Hno]].
  - exists true, ms, opts. split; [|exact Hin]. constructor; try assumption; try discriminate. intros _. exists x. exact Hx.
  - exists false, [], opts. split; [|exact Hin]. constructor; try assumption; try discriminate.
    + apply Hno. left. reflexivity.
    + intros m [].
    + intros _ k Hk. apply Hno. right. exact Hk.
Qed.

(** [if old in d: d[new] = d.pop(old)], whichever comes first *)
Lemma dget_move old new f (d : dict) k : NoDup (dkeys d) -> old <> new -> dget new d = None ->
  dget k (match dget old d with Some m => ddel old (dset new (f m) d) | None => d end)
  = if String.eqb k old then None else if String.eqb k new then option_map f (dget old d) else dget k d.
Proof.
  intros Hd Hon Hnew. destruct (dget old d) as [m|] eqn:E.
  - dg. reflexivity.
  - fields k; [exact E|exact Hnew|reflexivity].
Qed.
Lemma NoDup_move old new (f : val -> val) (d : dict) : NoDup (dkeys d) -> NoDup (dkeys (match dget old d with Some m => ddel old (dset new (f m) d) | None => d end)).
Proof. intros Hd. destruct (dget old d); nodup. Qed.

Definition neg (v : val) : val := VBool (negb (truthy v)).
Definition type_of (br : bool) (n : string) : string := if br then "bridge" else if existsb (String.eqb n) loopback_names then "loopback" else "ethernet".
Definition istart (t : string) (b : dict) (n u : string) (opts : list (string * option val)) (k : string) : option val :=
  if String.eqb k ".type" then text "interface" else if String.eqb k ".name" then text u
      else if existsb (String.eqb k) ["name"; "network"; "addresses"; "mac"; "autostart"; "disabled"] then None
      else if String.eqb k "ifname" then text n
      else if String.eqb k "macaddr" then dget "mac" b
      else if String.eqb k "auto" then dget "autostart" b
      else if String.eqb k "enabled" then option_map neg (dget "disabled" b)
      else if String.eqb k "gateway" || String.eqb k "ip6gw" then opt opts k
      else if String.eqb k "type" then text t
      else dget k b.
(** A type that makes no other sections than Ethernet, except for bridges *)
Definition typing (t : string) (br : bool) (b : dict) : Prop :=
  (t = "bridge" \/ t = "loopback" \/ t = "ethernet" \/ t = "wireless" /\ dget "mac" b = None) /\ String.eqb t "bridge" = br.
Lemma typing_of dsa b n u br ms opts : iface dsa b n u br ms opts -> typing (type_of br n) br b.
Proof. intros _. unfold typing, type_of. destruct br; [auto|]. destruct (existsb _ _); auto. Qed.
(** ** The interface before the section of its device *)
Lemma interface_fwd dsa b n u br ms opts b1 t : iface dsa b n u br ms opts -> NoDup (dkeys b1) -> typing t br b ->
  (forall k, (k = "mac" \/ k = "wireless") /\ t = "wireless" \/
     dget k b1 = if String.eqb k "gateway" || String.eqb k "ip6gw" then opt opts k else if String.eqb k "type" then text t else dget k b) ->
  exists i, intermediate_interface dsa [] b1 (VStr u) = Ok i /\ NoDup (dkeys i) /\
    forall k, dget k i = istart t b n u opts k.
Proof.
  intros H Hb1 [Htc _] G1. pose proof (i_none _ _ _ _ _ _ _ H) as Habs. unfold none_of, section_fields in Habs.
  assert (A1 : dget "macaddr" b = None) by (apply Habs; cbn; auto 30). assert (A2 : dget "auto" b = None) by (apply Habs; cbn; auto 30).
  assert (A3 : dget "enabled" b = None) by (apply Habs; cbn; auto 30). assert (A4 : dget "wireless" b = None) by (apply Habs; cbn; auto 30).
  assert (A5 : dget "ifname" b = None) by (apply Habs; cbn; auto 30). clear Habs.
  pose proof (i_name _ _ _ _ _ _ _ H) as Hn.
  unfold intermediate_interface. set (x0 := dupdate b1 _).
  assert (N0 : NoDup (dkeys x0)) by (unfold x0; nodup).
  assert (G0 : forall k, k <> "mac" -> k <> "wireless" -> dget k x0 = if String.eqb k ".name" then text u else if String.eqb k ".type" then text "interface"
    else if String.eqb k "gateway" || String.eqb k "ip6gw" then opt opts k else if String.eqb k "type" then text t else dget k b).
  { intros k K1 K2. unfold x0. dg. destruct (G1 k) as [[[K|K] _]|K]; try contradiction. rewrite K. reflexivity. }
  unfold dgetE at 1. rewrite G0 by discriminate. ev. cbn [orb]. rewrite Hn. cbn [text bind].
  set (x1 := dset "ifname" (VStr n) (ddel "name" x0)). assert (N1 : NoDup (dkeys x1)) by (unfold x1; nodup).
  assert (T1 : dgetN "type" x1 = VStr t). { unfold dgetN, x1. dg. ev. rewrite G0 by discriminate. ev. cbn [orb]. reflexivity. }
  assert (M1 : forall k, k <> "name" -> k <> "ifname" -> dget k x1 = dget k x0) by (intros k K1 K2; unfold x1; dg; ev; reflexivity).
  set (x2 := match dget "mac" x1 with Some m => ddel "mac" (if py_eq (dgetN "type" x1) (VStr "wireless") then x1 else dset "macaddr" m x1) | None => x1 end).
  assert (N2 : NoDup (dkeys x2)) by (unfold x2; destruct (dget "mac" x1); [destruct (py_eq _ _)|]; nodup).
  assert (G2 : forall k, dget k x2 = if String.eqb k "mac" then None else if String.eqb k "macaddr" then dget "mac" b else dget k x1).
  { intros k. unfold x2. rewrite T1, py_eq_text. destruct (String.eqb_spec t "wireless") as [Et|Et].
    - assert (Em : dget "mac" b = None). { destruct Htc as [X|[X|[X|X]]]; try (rewrite X in Et; discriminate Et). apply X. }
      rewrite Em. destruct (dget "mac" x1) eqn:E.
      + dg. fields k; try reflexivity. rewrite M1, G0 by discriminate. ev. exact A1.
      + fields k; try reflexivity; [exact E|]. rewrite M1, G0 by discriminate. ev. exact A1.
    - rewrite (dget_move "mac" "macaddr" (fun v => v)); [|exact N1|discriminate|rewrite M1, G0 by discriminate; ev; exact A1].
      replace (option_map (fun v => v) (dget "mac" x1)) with (dget "mac" b); [reflexivity|]. rewrite M1 by discriminate. unfold x0. dg. ev. destruct (G1 "mac") as [[_ X]|X]; [contradiction|].
      rewrite X. ev. cbn [orb]. destruct (dget "mac" b); reflexivity. }
  set (x3 := match dget "autostart" x2 with Some a => ddel "autostart" (dset "auto" a x2) | None => x2 end).
  assert (N3 : NoDup (dkeys x3)) by (apply (NoDup_move "autostart" "auto" (fun v => v)), N2).
  assert (G3 : forall k, dget k x3 = if String.eqb k "autostart" then None else if String.eqb k "auto" then dget "autostart" b else dget k x2).
  { intros k. unfold x3. rewrite (dget_move "autostart" "auto" (fun v => v)); [|exact N2|discriminate|rewrite G2; ev; rewrite M1, G0 by discriminate; ev; exact A2].
    replace (option_map (fun v => v) (dget "autostart" x2)) with (dget "autostart" b); [reflexivity|]. rewrite G2. ev. rewrite M1, G0 by discriminate. ev. cbn [orb]. destruct (dget "autostart" b); reflexivity. }
  set (x4 := match dget "disabled" x3 with Some d => ddel "disabled" (dset "enabled" (VBool (negb (truthy d))) x3) | None => x3 end).
  assert (N4 : NoDup (dkeys x4)) by (apply (NoDup_move "disabled" "enabled" neg), N3).
  assert (G4 : forall k, dget k x4 = if String.eqb k "disabled" then None else if String.eqb k "enabled" then option_map neg (dget "disabled" b) else dget k x3).
  { intros k. unfold x4. rewrite (dget_move "disabled" "enabled" neg); [|exact N3|discriminate|rewrite G3; ev; rewrite G2; ev; rewrite M1, G0 by discriminate; ev; exact A3].
    replace (dget "disabled" x3) with (dget "disabled" b); [reflexivity|]. rewrite G3. ev. rewrite G2. ev. rewrite M1, G0 by discriminate. ev. reflexivity. }
  clearbody x4 x3 x2.
  set (x5 := ddel "addresses" (ddel "wireless" x4)). assert (N5 : NoDup (dkeys x5)) by (unfold x5; nodup).
  assert (G5 : forall k, dget k x5 = if String.eqb k "addresses" then None else if String.eqb k "wireless" then None else dget k x4) by (intros k; unfold x5; dg; reflexivity).
  clearbody x5.
  assert (T5 : dget "type" x5 = text t). { rewrite G5. ev. rewrite G4. ev. rewrite G3. ev. rewrite G2. ev. rewrite M1, G0 by discriminate. ev. reflexivity. }
  unfold dgetE. rewrite T5. unfold text. cbn [bind as_str].
  assert (Ety : intermediate_type (uci_name t) x5 = Ok x5) by (destruct Htc as [-> |[-> |[-> |[-> _]]]]; reflexivity). rewrite Ety. cbn [bind].
  assert (Ev : check_bridge_vlan dsa [] x5 = Ok x5).
  { unfold check_bridge_vlan. destruct dsa; [|reflexivity]. unfold pop_or. rewrite G5. ev. rewrite G4. ev. rewrite G3. ev. rewrite G2. ev. unfold x1. dg. ev.
    cbn [str_key bind existsb]. rewrite andb_false_r. reflexivity. }
  rewrite Ev. cbn [bind]. eexists. split; [reflexivity|]. split; [nodup|]. intros k. dg. rewrite G5, G4, G3, G2. unfold istart. cbn [existsb].
  fields k; try reflexivity; try (unfold x1; dg; ev; rewrite ?G0 by (assumption || discriminate); ev; reflexivity).
  symmetry. exact A4.
Qed.

(** ** The sections *)
Lemma iter_texts l : iter_strs (VList (map VStr l)) = Ok l.
Proof. unfold iter_strs. induction l as [|s l IH]; [reflexivity|]. cbn [map mapM str_key bind]. rewrite IH. reflexivity. Qed.
Lemma join_empty ms : (forall m, In m ms -> word m) -> (String.eqb (join " " ms) EmptyString = match ms with [] => true | _ => false end).
Proof.
  intros H. destruct ms as [|m [|m' ms]]; [reflexivity| |].
  - cbn [join]. apply eqb_neq. apply (H m). left; reflexivity.
  - cbn [join]. apply eqb_neq. destruct m as [|c m]; [destruct (H EmptyString) as [X _]; [left; reflexivity|congruence]|discriminate].
Qed.
Definition gone : list string := ["name"; "network"; "addresses"; "mac"; "autostart"; "disabled"; "bridge_members"].
Definition odef (o : option val) : val := match o with Some v => v | None => VNull end.
Definition isec (dsa : bool) (b : dict) (n u : string) (br : bool) (ms : list string) (opts : list (string * option val)) (k : string) : option val :=
  if String.eqb k ".type" then text "interface" else if String.eqb k ".name" then text u
  else if String.eqb k "dns" then Some (odef (opt opts "dns")) else if String.eqb k "dns_search" then Some (odef (opt opts "dns_search"))
  else if existsb (String.eqb k) gone then None
  else if String.eqb k "ifname" then (if dsa then None else if br then match ms with [] => None | _ => text (join " " ms) end else text n)
  else if String.eqb k "device" then (if dsa then text n else None)
  else if String.eqb k "macaddr" then (if dsa then None else dget "mac" b)
  else if existsb (String.eqb k) ("mtu" :: bridge_keys) then (if dsa then None else dget k b)
  else if String.eqb k "auto" then dget "autostart" b
  else if String.eqb k "enabled" then option_map neg (dget "disabled" b)
  else if String.eqb k "type" then (if br && negb dsa then text "bridge" else None)
  else if String.eqb k "bridge_empty" then (if br && negb dsa then match ms with [] => Some (VBool true) | _ => None end else None)
  else if existsb (String.eqb k) six_options then opt opts k
  else dget k b.

Lemma section_start config u dsa_if i a p o1 o2 : NoDup (dkeys i) -> NoDup (dkeys a) ->
  dget "proto" a = text p -> none_of ["dns"; "dns_search"; "proto"] i -> dns_config config ->
  o1 = (if is_one_of (VStr p) ["dhcp"; "dhcpv6"; "none"] then None else dns_val (texts "dns_servers" config)) ->
  o2 = (if is_one_of (VStr p) ["none"] then None else dns_val (texts "dns_search" config)) ->
  exists x, NoDup (dkeys x) /\
    address_section config u dsa_if i a 1 = (do y <- intermediate_bridge dsa_if 1 x; Ok (ssort (dupdate y (ddel "proto" a)))) /\
    forall k, dget k x = if String.eqb k "dns" then Some (odef o1) else if String.eqb k "dns_search" then Some (odef o2) else if String.eqb k "proto" then text p else dget k i.
Proof.
  intros Hi Ha Hp Habs [C1 C2] -> ->. unfold address_section. change (1 <? 1)%nat with false. cbn iota.
  assert (D : forall key ck wo, dget key i = None -> dns_ok ck config ->
    dns_option key ck wo config i a = Ok (odef (if is_one_of (VStr p) wo then None else dns_val (texts ck config)))).
  { intros key ck wo E1 E2. unfold dns_option. rewrite E1. unfold dgetE. rewrite Hp. unfold text. cbn [bind]. destruct (is_one_of _ _); [reflexivity|].
    destruct (dns_ok_texts _ _ E2) as (_ & T1 & T2). destruct (texts ck config) as [|x l]; [rewrite (T2 eq_refl); reflexivity|].
    unfold dgetN. rewrite T1 by discriminate. change (truthy (VList (map VStr (x :: l)))) with true. cbn iota. rewrite iter_texts. reflexivity. }
  rewrite D by (assumption || (apply Habs; cbn; auto)). cbn [bind]. rewrite D by (assumption || (apply Habs; cbn; auto)). cbn [bind].
  rewrite (Habs "proto") by (cbn; auto). unfold pop_or. rewrite Hp. unfold text.
  eexists. split; [|split; [reflexivity|]]; [nodup|]. intros k. dg. fields k; reflexivity.
Qed.
Lemma a_none (a : dict) opts k : (forall k, dget k a = if existsb (String.eqb k) address_options then opt opts k else None) ->
  existsb (String.eqb k) address_options = false -> dget k a = None.
Proof. intros H E. rewrite H, E. reflexivity. Qed.
Lemma addressing_proto b opts : addr_dns (dget "addresses" b) opts -> exists p, opt opts "proto" = text p /\
  is_one_of (VStr p) ["dhcp"; "dhcpv6"; "none"] = negb (static b) /\ is_one_of (VStr p) ["none"] = negb (dmem "addresses" b).
Proof.
  intros (base & l1 & l2 & H & -> & _). rewrite (opt_base _ _ _ _ H) by reflexivity. unfold static, dmem.
  inversion H as [Ea|six d Hd Hm Ea|l4 l6 ds F4 F6 Hne F Ea]; unfold opt; cbn [dget]; ev; eexists; (split; [reflexivity|]).
  - split; reflexivity.
  - assert (Ep : dget "proto" d = Some (VStr "dhcp")) by (rewrite Hm; reflexivity). rewrite Ep. destruct six; split; reflexivity.
  - destruct ds as [|d ds]; [congruence|]. cbn [map]. assert (Ep : dget "proto" d = Some (VStr "static")).
    { inversion F as [|x ? ? ? [_ Hm]]; subst. rewrite Hm. reflexivity. }
    rewrite Ep. split; reflexivity.
Qed.
Lemma dns_in_proto config b opts p : dns_in config b opts ->
  is_one_of (VStr p) ["dhcp"; "dhcpv6"; "none"] = negb (static b) -> is_one_of (VStr p) ["none"] = negb (dmem "addresses" b) ->
  opt opts "dns" = (if is_one_of (VStr p) ["dhcp"; "dhcpv6"; "none"] then None else dns_val (texts "dns_servers" config)) /\
  opt opts "dns_search" = (if is_one_of (VStr p) ["none"] then None else dns_val (texts "dns_search" config)).
Proof. intros [D1 D2] E1 E2. rewrite D1, D2, E1, E2. destruct (static b), (dmem "addresses" b); split; reflexivity. Qed.
Lemma opt_other v opts k : addr_dns v opts -> existsb (String.eqb k) six_options = false -> k <> "dns" -> k <> "dns_search" -> opt opts k = None.
Proof.
  intros (base & l1 & l2 & H & -> & _) E K1 K2. rewrite (opt_tail _ _ _ _ H E). unfold opt. cbn [dget]. ev. reflexivity.
Qed.
Lemma opt_other_base v opts k : addressing v opts -> existsb (String.eqb k) six_options = false -> opt opts k = None.
Proof.
  intros H E. assert (X : forall o, In o six_options -> String.eqb k o = false).
  { intros o Ho. apply not_true_iff_false. intros Hx. rewrite <- not_true_iff_false in E. apply E, existsb_exists. exists o. auto. }
  unfold six_options in X. unfold opt. inversion H; subst; cbn [dget]; rewrite !X by (cbn; auto 10); reflexivity.
Qed.
Lemma type_bridge br n : String.eqb (type_of br n) "bridge" = br.
Proof. unfold type_of. destruct br; [reflexivity|]. destruct (existsb _ _); reflexivity. Qed.
Lemma bridge_plain t x n br ms : String.eqb t "bridge" = br -> NoDup (dkeys x) -> (forall m, In m ms -> word m) -> dget "type" x = text t ->
  dget "bridge_members" x = (if br then Some (VList (map VStr ms)) else None) -> dget "ifname" x = text n -> dget "bridge_empty" x = None ->
  exists y, intermediate_bridge false 1 x = Ok y /\ NoDup (dkeys y) /\
    forall k, dget k y = if String.eqb k "bridge_members" then None else if String.eqb k "type" then (if br then text "bridge" else None)
       else if String.eqb k "ifname" then (if br then match ms with [] => None | _ => text (join " " ms) end else text n)
       else if String.eqb k "bridge_empty" then (if br then match ms with [] => Some (VBool true) | _ => None end else None)
       else dget k x.
Proof.
  intros Hbr Hx Hw Ht Hm Hf He. unfold intermediate_bridge, dgetE. rewrite Ht. unfold text at 1. cbn [bind]. rewrite py_eq_text, Hbr.
  destruct br.
  - apply String.eqb_eq in Hbr. subst t. change (1 <? 2)%nat with true. cbn iota. rewrite Hm. cbn [bind]. rewrite iter_texts. cbn [bind]. dg. ev. rewrite Hf. unfold text at 1. cbn [bind].
    rewrite join_empty by exact Hw. destruct ms as [|m ms]; (eexists; split; [reflexivity|]; split; [nodup|]; intros k; dg; fields k; try reflexivity; try assumption).
  - cbn [bind]. eexists. split; [reflexivity|]. split; [nodup|]. intros k. dg. fields k; try reflexivity; assumption.
Qed.
Lemma section_plain config b n u br ms opts i a t : iface false b n u br ms opts -> typing t br b -> NoDup (dkeys i) -> NoDup (dkeys a) ->
  dns_config config -> dns_in config b opts ->
  (forall k, dget k a = if existsb (String.eqb k) address_options then opt opts k else None) ->
  (forall k, dget k i = istart t b n u opts k) ->
  exists s, address_section config u false i a 1 = Ok s /\ NoDup (dkeys s) /\ sorted_keys s /\ forall k, dget k s = isec false b n u br ms opts k.
Proof.
  intros H [_ Hbr] Hi Ha Hc Hin Ga Gi. pose proof (i_none _ _ _ _ _ _ _ H) as Habs. unfold none_of in Habs.
  destruct (addressing_proto _ _ (i_addr _ _ _ _ _ _ _ H)) as (p & Hp & P1 & P2). destruct (dns_in_proto _ _ _ _ Hin P1 P2) as [O1 O2].
  destruct (section_start config u false i a p (opt opts "dns") (opt opts "dns_search") Hi Ha) as (x & Hx & -> & Gx); [rewrite Ga; exact Hp| |exact Hc|exact O1|exact O2|].
  { intros k Hk. rewrite Gi. unfold istart. destruct Hk as [<-|[<-|[<-|[]]]]; cbn [existsb]; ev; cbn [orb]; apply Habs; cbn; auto 30. }
  destruct (bridge_plain t x n br ms Hbr Hx (i_words _ _ _ _ _ _ _ H)) as (y & -> & Hy & Gy).
  { rewrite Gx. ev. cbn [orb]. rewrite Gi. unfold istart. cbn [existsb]. ev. reflexivity. }
  { rewrite Gx. ev. cbn [orb]. rewrite Gi. unfold istart. cbn [existsb]. ev. exact (i_mem _ _ _ _ _ _ _ H). }
  { rewrite Gx. ev. cbn [orb]. rewrite Gi. unfold istart. cbn [existsb]. ev. reflexivity. }
  { rewrite Gx. ev. cbn [orb]. rewrite Gi. unfold istart. cbn [existsb]. ev. apply Habs. cbn; auto 30. }
  cbn [bind]. eexists. split; [reflexivity|]. assert (N : NoDup (dkeys (dupdate y (ddel "proto" a)))) by nodup.
  split; [apply ssort_NoDup, N|]. split; [apply ssort_sorted_keys, N|]. intros k.
  rewrite dget_ssort by exact N. rewrite dget_dupdate by nodup. rewrite dget_ddel by exact Ha. rewrite Ga, Gy, Gx, Gi.
  unfold isec, istart, gone, bridge_keys, bridge_flags, bridge_numbers, address_options, six_options. cbn [existsb app orb negb].
  assert (B1 : dget "dns" b = None) by (apply Habs; cbn; auto 30).
  fields k; cbn [andb orb]; try reflexivity.
  - symmetry. exact Hp.
  - rewrite (Habs "ipaddr") by (cbn; auto 30). destruct (opt opts "ipaddr"); reflexivity.
  - rewrite (Habs "netmask") by (cbn; auto 30). destruct (opt opts "netmask"); reflexivity.
  - rewrite (Habs "ip6addr") by (cbn; auto 30). destruct (opt opts "ip6addr"); reflexivity.
  - rewrite andb_true_r. reflexivity.
  - rewrite andb_true_r. reflexivity.
  - apply Habs. cbn; auto 30.
Qed.

(** ** The section of the device *)
Lemma move_opts : forall ks d s, NoDup (dkeys d) -> NoDup (dkeys s) ->
  exists d' s', fold_left move_opt ks (d, s) = (d', s') /\ NoDup (dkeys d') /\ NoDup (dkeys s') /\
    (forall k, dget k d' = if existsb (String.eqb k) ks then match dget k s with Some v => Some v | None => dget k d end else dget k d) /\
    forall k, dget k s' = if existsb (String.eqb k) ks then None else dget k s.
Proof.
  induction ks as [|k0 ks IH]; intros d s Hd Hs.
  - exists d, s. repeat (split; [assumption || reflexivity|]). split; reflexivity.
  - cbn [fold_left existsb]. unfold move_opt at 2. cbn [snd fst]. destruct (dget k0 s) as [v|] eqn:E.
    + destruct (IH (dset k0 v d) (ddel k0 s)) as (d' & s' & -> & N1 & N2 & G1 & G2); [nodup|nodup|].
      exists d', s'. split; [reflexivity|]. split; [exact N1|]. split; [exact N2|]. split; intros k.
      * rewrite G1. dg. field k k0; ev; [|reflexivity]. rewrite E. cbn [orb]. destruct (existsb _ ks); reflexivity.
      * rewrite G2. dg. field k k0; ev; cbn [orb]; [destruct (existsb _ ks); reflexivity|reflexivity].
    + destruct (IH d s Hd Hs) as (d' & s' & -> & N1 & N2 & G1 & G2).
      exists d', s'. split; [reflexivity|]. split; [exact N1|]. split; [exact N2|]. split; intros k.
      * rewrite G1. field k k0; ev; cbn [orb]; [rewrite E; destruct (existsb _ ks); reflexivity|reflexivity].
      * rewrite G2. field k k0; ev; cbn [orb]; [rewrite E; destruct (existsb _ ks); reflexivity|reflexivity].
Qed.
Lemma add_options_get prop options interface device : NoDup (dkeys device) ->
  NoDup (dkeys (add_options prop options interface device)) /\
  forall k, dget k interface = None \/ existsb (String.eqb k) (prop :: options) = false ->
    dget k (add_options prop options interface device) = dget k device.
Proof.
  intros Hd. unfold add_options. destruct (truthy (dgetN prop interface)) eqn:Et; [|split; [exact Hd|reflexivity]].
  assert (G : forall options d, NoDup (dkeys d) ->
    NoDup (dkeys (fold_left (fun d o => if truthy (dgetN o interface) then dset o (dgetN o interface) d else d) options d)) /\
    forall k, dget k interface = None \/ existsb (String.eqb k) options = false ->
      dget k (fold_left (fun d o => if truthy (dgetN o interface) then dset o (dgetN o interface) d else d) options d) = dget k d).
  { clear. induction options as [|o options IH]; intros d Hd; [split; [exact Hd|reflexivity]|]. cbn [fold_left existsb].
    destruct (truthy (dgetN o interface)) eqn:E.
    - destruct (IH (dset o (dgetN o interface) d)) as [N G]; [nodup|]. split; [exact N|]. intros k Hk. rewrite G.
      + dg. field k o; [|reflexivity]. exfalso. destruct Hk as [Hk|Hk]; [unfold dgetN in E; rewrite Hk in E; discriminate E|].
        discriminate Hk.
      + destruct Hk as [Hk|Hk]; [left; exact Hk|right]. cbn [existsb] in Hk. apply orb_false_iff in Hk. apply Hk.
    - destruct (IH d Hd) as [N G]. split; [exact N|]. intros k Hk. apply G.
      destruct Hk as [Hk|Hk]; [left; exact Hk|right]. cbn [existsb] in Hk. apply orb_false_iff in Hk. apply Hk. }
  destruct (G options (dset prop (VBool true) device)) as [N G1]; [nodup|]. split; [exact N|]. intros k Hk. rewrite G1.
  - dg. field k prop; [|reflexivity]. exfalso. destruct Hk as [Hk|Hk]; [unfold dgetN in Et; rewrite Hk in Et; discriminate Et|].
    cbn [existsb] in Hk. rewrite ?eqb_refl in Hk. discriminate Hk.
  - destruct Hk as [Hk|Hk]; [left; exact Hk|right]. cbn [existsb] in Hk. apply orb_false_iff in Hk. apply Hk.
Qed.

Definition device_keys : list string := ["vlan_filtering"; "macaddr"; "mtu"] ++ stp_options ++ igmp_options.
Definition dsec (b : dict) (n u : string) (br : bool) (ms : list string) (k : string) : option val :=
  if String.eqb k ".type" then text "device" else if String.eqb k ".name" then text ("device_" +++ u)
  else if String.eqb k "name" then text n
  else if String.eqb k "type" then (if br then text "bridge" else None)
  else if String.eqb k "ports" then (if br then match ms with [] => None | _ => Some (VList (map VStr ms)) end else None)
  else if String.eqb k "bridge_empty" then (if br then match ms with [] => Some (VBool true) | _ => None end else None)
  else if String.eqb k "macaddr" then dget "mac" b
  else if existsb (String.eqb k) ("mtu" :: bridge_keys) then dget k b
  else None.
Lemma no_keys (d : dict) : (forall k, dget k d = None) -> d = [].
Proof. destruct d as [|[k v] d]; [reflexivity|]. intros H. specialize (H k). cbn in H. rewrite eqb_refl in H. discriminate H. Qed.
Lemma l2_moved b n u br ms opts i t : iface true b n u br ms opts -> NoDup (dkeys i) -> (forall k, dget k i = istart t b n u opts k) ->
  exists d i', add_l2_options [] i = (d, i') /\ NoDup (dkeys d) /\ NoDup (dkeys i') /\
    (forall k, dget k d = if String.eqb k "mtu" then dget "mtu" b else if String.eqb k "macaddr" then dget "mac" b else None) /\
    forall k, dget k i' = if String.eqb k "mtu" then None else if String.eqb k "macaddr" then None else dget k i.
Proof.
  intros H Hi Gi. unfold add_l2_options.
  destruct (move_opts l2_options [] i) as (d & i1 & -> & N1 & N2 & G1 & G2); [constructor|exact Hi|]. cbn [snd fst].
  assert (Hl : forall k, existsb (String.eqb k) l2_options = true -> k <> "mtu" -> dget k i = None).
  { intros k Hk Hm. rewrite Gi. unfold istart. pose proof (i_dev _ _ _ _ _ _ _ H eq_refl) as Hdev. unfold none_of, device_fields in Hdev.
    apply existsb_exists in Hk as (k' & Hk & Ek). apply String.eqb_eq in Ek. subst k'. unfold l2_options in Hk. cbn [In] in Hk.
    repeat (destruct Hk as [<-|Hk]; [first [congruence | cbn [existsb]; ev; cbn [orb]; apply Hdev; cbn; auto 30]|]). contradiction. }
  assert (G1' : forall k, dget k d = if String.eqb k "mtu" then dget "mtu" b else None).
  { intros k. rewrite G1. cbn [dget]. destruct (String.eqb_spec k "mtu") as [->|Hm].
    - change (existsb (String.eqb "mtu") l2_options) with true. cbn iota. rewrite Gi. unfold istart. cbn [existsb]. ev. cbn [orb]. destruct (dget "mtu" b); reflexivity.
    - destruct (existsb (String.eqb k) l2_options) eqn:E; [|reflexivity]. rewrite Hl by assumption. reflexivity. }
  assert (G2' : forall k, dget k i1 = if String.eqb k "mtu" then None else dget k i).
  { intros k. rewrite G2. destruct (String.eqb_spec k "mtu") as [->|Hm]; [reflexivity|].
    destruct (existsb (String.eqb k) l2_options) eqn:E; [|reflexivity]. rewrite Hl by assumption. reflexivity. }
  assert (Em : dget "macaddr" i1 = dget "mac" b). { rewrite G2'. ev. rewrite Gi. unfold istart. cbn [existsb]. ev. reflexivity. }
  pose proof (i_mac _ _ _ _ _ _ _ H) as Hmac. unfold optional in Hmac. unfold dgetN, move_opt. cbn [snd fst]. rewrite Em.
  destruct (dget "mac" b) as [v|].
  - destruct Hmac as (s & -> & Hs & _). rewrite (truthy_text _ Hs). do 2 eexists. split; [reflexivity|]. split; [nodup|]. split; [nodup|].
    split; intros k; dg; rewrite ?G1', ?G2'; fields k; reflexivity.
  - cbn [truthy]. do 2 eexists. split; [reflexivity|]. split; [exact N1|]. split; [exact N2|]. split; intros k; rewrite ?G1', ?G2'; fields k; try reflexivity.
    rewrite <- Em, G2'. ev. reflexivity.
Qed.
Definition has_device (b : dict) (br : bool) : bool := br || dmem "mac" b || dmem "mtu" b.
Lemma device_fwd b n u br ms opts i t : iface true b n u br ms opts -> typing t br b -> NoDup (dkeys i) -> (forall k, dget k i = istart t b n u opts k) ->
  exists d i', intermediate_device i = Ok (d, i') /\ NoDup (dkeys i') /\
    (if has_device b br then NoDup (dkeys d) /\ d <> [] /\ forall k, dget k d = dsec b n u br ms k else d = []) /\
    forall k, dget k i' = if existsb (String.eqb k) device_keys then None else if String.eqb k "device" then text n else dget k i.
Proof.
  intros H Hty Hi Gi. pose proof (i_none _ _ _ _ _ _ _ H) as Habs. unfold none_of in Habs.
  unfold intermediate_device. destruct (l2_moved b n u br ms opts i t H Hi Gi) as (d1 & i1 & -> & N1 & N2 & G1 & G2).
  assert (En : dget ".name" i1 = text u). { rewrite G2. ev. rewrite Gi. unfold istart. ev. reflexivity. }
  assert (Ef : dget "ifname" i1 = text n). { rewrite G2. ev. rewrite Gi. unfold istart. cbn [existsb]. ev. reflexivity. }
  assert (Ed : dget "device" i1 = None). { rewrite G2. ev. rewrite Gi. unfold istart. cbn [existsb]. ev. cbn [orb]. apply Habs. cbn; auto 30. }
  assert (Et : dget "type" i1 = text t). { rewrite G2. ev. rewrite Gi. unfold istart. cbn [existsb]. ev. cbn [orb]. reflexivity. }
  unfold dgetE at 1. rewrite En. unfold text at 1. cbn [bind]. unfold dgetE at 1. rewrite Ef. unfold text at 1. cbn [bind py_str].
  set (base := [(".type", VStr "device"); (".name", VStr ("device_" +++ u)); ("name", VStr n)]).
  assert (Etd : truthy (dgetN "device" i1) = false) by (unfold dgetN; rewrite Ed; reflexivity). rewrite Etd.
  set (i2 := dset "device" (VStr n) i1). assert (N3 : NoDup (dkeys i2)) by (unfold i2; nodup).
  assert (G3 : forall k, dget k i2 = if String.eqb k "device" then text n else dget k i1) by (intros k; unfold i2; dg; reflexivity).
  clearbody i2. unfold dgetE at 1. rewrite G3. ev. rewrite Et. unfold text at 1. cbn [bind as_str].
  destruct Hty as [Htc Hbr]. assert (E8 : startswith "8021" t = false) by (destruct Htc as [-> |[-> |[-> |[-> _]]]]; reflexivity). rewrite E8. cbn [bind].
  rewrite Hbr. clear Hbr Htc. set (d2 := dupdate d1 base). assert (N4 : NoDup (dkeys d2)) by (unfold d2, base; nodup).
  assert (G4 : forall k, dget k d2 = if String.eqb k "name" then text n else if String.eqb k ".name" then text ("device_" +++ u)
    else if String.eqb k ".type" then text "device" else dget k d1) by (intros k; unfold d2, base; dg; reflexivity).
  destruct br; cbn [negb].
  - unfold bridge_device. unfold dgetE at 1. rewrite G3. ev. rewrite Ef. unfold text at 1. cbn [bind as_str].
    destruct (i_br _ _ _ _ _ _ _ H eq_refl) as (x & Hx & _).
    assert (Eb : startswith "br-" n = true) by (rewrite Hx; apply startswith_app). rewrite Eb.
    set (i3 := dset "device" (VStr n) (dset "ifname" (VStr n) i2)). assert (N5 : NoDup (dkeys i3)) by (unfold i3; nodup).
    assert (G5 : forall k, dget k i3 = dget k i2).
    { intros k. unfold i3. dg. field k "device"; ev; [rewrite G3; ev; reflexivity|]. field k "ifname"; ev; [rewrite G3; ev; symmetry; exact Ef|reflexivity]. }
    clearbody i3. set (d3 := dset "name" (VStr n) (dset "type" (VStr "bridge") d2)). assert (N6 : NoDup (dkeys d3)) by (unfold d3; nodup).
    assert (G6 : forall k, dget k d3 = if String.eqb k "type" then text "bridge" else dget k d2).
    { intros k. unfold d3. dg. fields k; rewrite ?G4; ev; reflexivity. }
    destruct (add_options_get "stp" stp_options i3 d3 N6) as [N7 G7]. destruct (add_options_get "igmp_snooping" igmp_options i3 _ N7) as [N8 G8].
    set (d4 := add_options "igmp_snooping" igmp_options i3 (add_options "stp" stp_options i3 d3)) in *.
    change (all_options ++ stp_options ++ igmp_options)%list with device_keys.
    destruct (move_opts device_keys d4 i3 N8 N5) as (d5 & i5 & -> & N9 & N10 & G9 & G10).
    assert (G9' : forall k, dget k d5 = if existsb (String.eqb k) device_keys then match dget k i3 with Some v => Some v | None => dget k d3 end else dget k d3).
    { intros k. rewrite G9. destruct (existsb (String.eqb k) device_keys) eqn:E.
      - destruct (dget k i3) eqn:Ek; [reflexivity|]. unfold d4. rewrite G8, G7; auto.
      - assert (X : forall l, incl l device_keys -> existsb (String.eqb k) l = false).
        { intros l Hl. apply not_true_iff_false. intros Hx'. apply existsb_exists in Hx' as (y & Hy & Ey). rewrite <- not_true_iff_false in E. apply E, existsb_exists. exists y. split; [apply Hl, Hy|exact Ey]. }
        unfold d4. rewrite G8, G7; [reflexivity| |]; right; apply X; intros y Hy; unfold device_keys; cbn in Hy |- *; tauto. }
    clearbody d4. unfold pop_or.
    assert (Emem : dget "bridge_members" i5 = Some (VList (map VStr ms))).
    { rewrite G10. unfold device_keys, stp_options, igmp_options. cbn [app existsb]. ev. cbn [orb]. rewrite G5, G3. ev. rewrite G2. ev. rewrite Gi. unfold istart. cbn [existsb]. ev. cbn [orb].
      apply (i_mem _ _ _ _ _ _ _ H). }
    rewrite Emem. change (has_device b true) with true. cbn iota.
    set (d6 := if py_eq (VList (map VStr ms)) (VList []) then ddel "ports" (dset "bridge_empty" (VBool true) d5) else dset "ports" (VList (map VStr ms)) d5).
    assert (N11 : NoDup (dkeys d6)) by (unfold d6; destruct (py_eq _ _); nodup).
    exists (ssort d6), i5. split; [reflexivity|]. split; [exact N10|]. split; [split; [apply ssort_NoDup, N11|]|].
    + assert (G11 : forall k, dget k (ssort d6) = dsec b n u true ms k).
      { intros k. rewrite dget_ssort by exact N11. unfold d6. unfold dsec, bridge_keys, bridge_flags, bridge_numbers. 
        assert (Ep : py_eq (VList (map VStr ms)) (VList []) = match ms with [] => true | _ => false end) by (destruct ms; reflexivity). rewrite Ep.
        assert (B1 : dget "vlan_filtering" b = None) by (apply Habs; cbn; auto 30). assert (B2 : dget "ageing_time" b = None) by (apply Habs; cbn; auto 30).
        destruct ms; dg; rewrite G9', G6, G4, G1, G5, G3, G2, Gi; unfold istart, device_keys, stp_options, igmp_options; cbn [app existsb];
          fields k; cbn [orb]; try reflexivity; try assumption; try (destruct (dget "mac" b); reflexivity).
        all: first [rewrite B1; reflexivity | rewrite B2; reflexivity | match goal with |- match ?x with Some _ => _ | None => _ end = _ => destruct x; reflexivity end]. }
      split; [intros E; specialize (G11 "name"); rewrite E in G11; discriminate G11|exact G11].
    + intros k. rewrite G10. destruct (existsb (String.eqb k) device_keys) eqn:Ek; [reflexivity|]. rewrite G5, G3, G2.
      field k "device"; ev; [reflexivity|]. field k "mtu"; [discriminate Ek|]. field k "macaddr"; [discriminate Ek|]. reflexivity.
  - assert (Hk : forall k, existsb (String.eqb k) device_keys = true -> dget k i2 = None).
    { intros k Hk. pose proof (i_keys _ _ _ _ _ _ _ H eq_refl) as Hno. unfold none_of in Hno.
      rewrite G3, G2, Gi. unfold istart. apply existsb_exists in Hk as (k' & Hk & Ek). apply String.eqb_eq in Ek. subst k'.
      unfold device_keys, stp_options, igmp_options in Hk. cbn [In app] in Hk.
      repeat (destruct Hk as [<-|Hk]; [cbn [existsb]; ev; cbn [orb]; first [reflexivity | apply Habs; cbn; tauto | apply Hno; cbn; tauto]|]). contradiction. }
    assert (Gi2 : forall k, dget k i2 = if existsb (String.eqb k) device_keys then None else if String.eqb k "device" then text n else dget k i).
    { intros k. destruct (existsb (String.eqb k) device_keys) eqn:Ek; [apply Hk, Ek|]. rewrite G3, G2.
      field k "device"; ev; [reflexivity|]. field k "mtu"; [discriminate Ek|]. field k "macaddr"; [discriminate Ek|]. reflexivity. }
    do 2 eexists. split; [reflexivity|]. split; [exact N3|]. split; [|exact Gi2].
    assert (Gd : forall k, dget k d2 = dsec b n u false ms k).
    { pose proof (i_keys _ _ _ _ _ _ _ H eq_refl) as Hno. unfold none_of in Hno.
      intros k. rewrite G4, G1. unfold dsec. destruct (existsb (String.eqb k) ("mtu" :: bridge_keys)) eqn:Ek.
      - cbn [existsb] in Ek. fields k; try reflexivity. symmetry. apply Hno. apply existsb_exists in Ek as (k' & Hk' & Ek).
        apply String.eqb_eq in Ek. subst k'. exact Hk'.
      - fields k; try reflexivity. discriminate Ek. }
    assert (Hhas : forall k, In k ["mtu"; "macaddr"] -> dget k d1 <> None -> py_eq (VDict d2) (VDict base) = false).
    { intros k Hk' Hd. apply not_true_iff_false. intros E. apply py_eq_dict_inv in E as [_ E].
      destruct (dget k d1) as [v|] eqn:Ek; [|congruence]. destruct (E k v) as (w & Hw & _).
      - apply dget_In. rewrite G4. destruct Hk' as [<-|[<-|[]]]; ev; exact Ek.
      - destruct Hk' as [<-|[<-|[]]]; discriminate Hw. }
    unfold has_device. cbn [orb]. unfold dmem. destruct (dget "mac" b) as [m|] eqn:Em; cbn [orb].
    + rewrite (Hhas "macaddr"); [|cbn; auto|rewrite G1; ev; congruence]. split; [exact N4|]. split; [|exact Gd].
      intros E. specialize (Gd "name"). rewrite E in Gd. discriminate Gd.
    + destruct (dget "mtu" b) as [m|] eqn:Et'.
      * rewrite (Hhas "mtu"); [|cbn; auto|rewrite G1; ev; congruence]. split; [exact N4|]. split; [|exact Gd].
        intros E. specialize (Gd "name"). rewrite E in Gd. discriminate Gd.
      * assert (E1 : d1 = []). { apply no_keys. intros k. rewrite G1. fields k; reflexivity. }
        unfold d2. rewrite E1. assert (E2 : dupdate [] base = base) by reflexivity. rewrite E2.
        rewrite py_eq_refl; [reflexivity|]. apply wf_dict. split; [repeat constructor; cbn; intuition discriminate|]. intros k v. cbn. intuition (match goal with X : _ = _ |- _ => injection X as <- <- end; exact I).
Qed.


