(** * SpecDevice: the device configurations that survive the trip through UCI
    text.  Everything here is about NetJSON documents: which fields an object
    has and which text they hold. *)
From Verif Require Import PyBase Conv Ip SpecUci SpecConv.

(** The field [k] of [d] is absent, or a value with the property. *)
Definition optional (k : string) (d : dict) (P : val -> Prop) : Prop :=
  match dget k d with None => True | Some v => P v end.
(** The field [k] of [d] is a text with the property. *)
Definition text_at (k : string) (d : dict) (P : string -> Prop) : Prop :=
  exists s, dget k d = Some (VStr s) /\ P s.
(** The name given by the field [k], else the automatic one. *)
Definition name_or (k auto : string) (d : dict) : string :=
  match dget k d with Some (VStr s) => s | _ => auto end.
(** An explicit section name: a word that is not the automatic name (the
    automatic name is recognised and the field dropped). *)
Definition explicit (auto : string) (v : val) : Prop := exists s, v = VStr s /\ word s /\ s <> auto.

(** ** general *)
Definition general_ok (zones : list (string * string)) (g : dict) : Prop :=
  NoDup (dkeys g) /\ text_at "hostname" g (fun h => h <> EmptyString /\ plain h) /\
  optional "timezone" g (fun v => exists t z, v = VStr t /\ dget t zones = Some z) /\
  optional "id" g (explicit "system") /\
  none_of ["zonename"; "ula_prefix"; "globals_id"] g /\
  fields_survive [] ["hostname"; "timezone"; "id"] g.

(** ** ntp: at least one field *)
Definition ntp_fields := [("enabled", JBool); ("enable_server", JBool)].
Definition ntp_ok (b : dict) : Prop :=
  NoDup (dkeys b) /\ b <> [] /\ optional "id" b (explicit "ntp") /\ fields_survive ntp_fields ["id"] b.

(** ** led *)
Definition led_fields := [("default", JBool); ("delayoff", JInt); ("delayon", JInt); ("interval", JInt)].
Definition led_ok (b : dict) : Prop :=
  NoDup (dkeys b) /\
  text_at "name" b (fun n => bare ("led_" +++ lower n) /\ optional "id" b (explicit ("led_" +++ lower n))) /\
  fields_survive led_fields ["id"] b.

(** ** routes, [i] being the position from 1 *)
Definition number (i : nat) : string := string_of_nat i.
(** The usual writing of an address with its prefix length; an IPv6
    destination has no bit set after the prefix. *)
Definition destination (s : string) : Prop :=
  exists n, s = if_str n /\ (ip_addr n < 2 ^ width (ip_six n))%N /\ (ip_len n <= width (ip_six n))%N /\
    (ip_six n = true -> net_addr n = ip_addr n).
Definition route_fields := [("cost", JInt); ("onlink", JBool)].
Definition route_ok (i : nat) (r : dict) : Prop :=
  NoDup (dkeys r) /\ text_at "destination" r destination /\
  text_at "device" r (fun d => d <> EmptyString /\ plain d) /\ text_at "next" r plain /\
  (exists z, dget "cost" r = Some (VInt z)) /\
  optional "name" r (explicit ("route" +++ number i)) /\
  none_of ["interface"; "target"; "gateway"; "metric"; "netmask"] r /\
  fields_survive route_fields ["destination"; "device"; "next"; "cost"; "name"] r.

(** ** ip_rules *)
Definition rule_fields := [("tos", JInt); ("goto", JInt); ("invert", JBool)].
Definition network_text (v : val) : Prop := exists s n, v = VStr s /\ ip_network s = Some n.
Definition rule_ok (i : nat) (r : dict) : Prop :=
  NoDup (dkeys r) /\ optional "src" r network_text /\ optional "dest" r network_text /\
  optional "name" r (explicit ("rule" +++ number i)) /\ fields_survive rule_fields ["name"] r.

(** ** switch: [c] VLANs come before this switch in the configuration *)
Definition switch_fields := [("reset", JBool); ("enable_vlan", JBool)].
Definition vlan_fields := [("vlan", JInt)].
(** VLAN number [j] of the switch called [n], [c + j] of the configuration: the
    automatic name is only recognised in the first switch. *)
Definition vlan_ok (n : string) (c j : nat) (v : dict) : Prop :=
  NoDup (dkeys v) /\ dget "device" v = Some (VStr n) /\ 
  (exists z, dget "vlan" v = Some (VInt z) /\ optional "vid" v (fun w => exists x, w = VInt x /\ x <> z)) /\
  match dget "id" v with
  | None => c = 0 /\ bare (n +++ "_vlan" +++ number j)
  | Some w => explicit (n +++ "_vlan" +++ number (c + j)) w
  end /\
  fields_survive vlan_fields ["id"; "vid"] v.
Definition switch_ok (c : nat) (s : dict) : Prop :=
  NoDup (dkeys s) /\
  exists n vlans, dget "name" s = Some (VStr n) /\
    match dget "id" s with None => bare n | Some w => explicit n w end /\
    dget "vlan" s = Some (VList (map VDict vlans)) /\ vlans <> [] /\
    (forall j v, nth_error vlans j = Some v -> vlan_ok n c (S j) v) /\
    fields_survive switch_fields ["id"; "vlan"] s.
Definition vlans_of (s : dict) : list val := match dget "vlan" s with Some (VList l) => l | _ => [] end.
Fixpoint switches_ok (c : nat) (l : list dict) : Prop :=
  match l with
  | [] => True
  | s :: t => switch_ok c s /\ switches_ok (c + length (vlans_of s)) t
  end.

(** ** wireguard_peers *)
Definition peer_fields := [("endpoint_port", JInt); ("persistent_keepalive", JInt); ("route_allowed_ips", JBool)].
(** Peer interfaces are rendered with underscores for hyphens. *)
Definition peer_ok (i : nat) (p : dict) : Prop :=
  NoDup (dkeys p) /\
  text_at "interface" p (fun s => bare s /\ contains "-" s = false /\ contains "wireguard_" s = false) /\
  (dget "endpoint_port" p = None \/ dget "endpoint_host" p <> None) /\
  fields_survive peer_fields ["interface"] p.

(** ** radios, with the mac80211 driver *)
(** The protocols with their own width; the others are 20 MHz wide. *)
Definition wide (p : string) : Prop := p = "802.11n" \/ p = "802.11ac" \/ p = "802.11ax".
(** [band] and [hwmode] are the band and hardware mode that the section shows:
    what the older protocols are recognised by. *)
Definition legacy (dsa : bool) (band hwmode : option val) (p : string) : Prop :=
  if dsa then (band = Some (VStr "2g") /\ p = "802.11g") \/ (band = Some (VStr "5g") /\ p = "802.11a") \/
              (band = Some (VStr "60g") /\ p = "802.11ad")
  else exists h, hwmode = Some (VStr h) /\ p = "802." +++ h.
(** The hardware mode of OpenWrt before DSA: explicit with the automatic channel
    0, implied by the protocol or the channel otherwise. *)
Definition implied_hwmode (p : string) (c : Z) : string :=
  if existsb (String.eqb p) ["802.11a"; "802.11ac"] then "11a"
  else if String.eqb p "802.11b" then "11b"
  else if String.eqb p "802.11g" then "11g"
  else if (c <=? 13)%Z then "11g" else "11a".
Definition radio_ok (dsa : bool) (r : dict) : Prop :=
  NoDup (dkeys r) /\ text_at "name" r bare /\ dget "driver" r = Some (VStr "mac80211") /\
  (exists c p w, dget "channel" r = Some (VInt c) /\ dget "protocol" r = Some (VStr p) /\
     dget "channel_width" r = Some (VInt w) /\
     (if dsa then text_at "band" r (fun b => b <> EmptyString /\ plain b) /\ dget "hwmode" r = None
      else dget "band" r = None /\
           (if (c =? 0)%Z then text_at "hwmode" r (fun h => h <> EmptyString /\ plain h) else dget "hwmode" r = None)) /\
     match dget "htmode" r with
     | Some h => p = "802.11n" /\ w = 40%Z /\ (h = VStr "HT40+" \/ h = VStr "HT40-")
     | None => (wide p /\ (0 <= w)%Z) \/
               (w = 20%Z /\ legacy dsa (dget "band" r)
                  (Some (if (c =? 0)%Z then dgetN "hwmode" r else VStr (implied_hwmode p c))) p)
     end) /\
  optional "tx_power" r (fun v => exists z, v = VInt z) /\
  optional "disabled" r (fun v => exists b, v = VBool b) /\
  optional "country" r (fun v => exists s, v = VStr s /\ upper s = s) /\
  none_of ["type"; "txpower"] r /\
  fields_survive [] ["name"; "driver"; "channel"; "protocol"; "channel_width"; "band"; "hwmode"; "htmode";
                     "tx_power"; "disabled"] r.

(** ** interfaces: Ethernet, loopback and bridges *)
Definition text (s : string) : option val := Some (VStr s).
(** The netmask of a prefix length *)
Definition netmask (len : N) : string := print_ipv4 (2 ^ 32 - 2 ^ (32 - len)).
(** A static address [n] (with its prefix length) and the gateway [gw] given with
    it, in their usual writing *)
Definition static_address (n : ipif) (gw : option N) : dict :=
  [("address", VStr (if_ip n)); ("mask", VInt (Z.of_N (ip_len n))); ("proto", VStr "static");
   ("family", VStr (if ip_six n then "ipv6" else "ipv4"))] ++
  match gw with Some g => [("gateway", VStr (print_addr (ip_six n) g))] | None => [] end.
Definition in_net (n : ipif) (g : N) : Prop :=
  net_addr {| ip_six := ip_six n; ip_addr := g; ip_len := ip_len n |} = net_addr n.
(** UCI has one gateway for all the addresses of a family: at most one address
    has a gateway, which is in its network and not in an earlier one. *)
Fixpoint gateways (l : list (ipif * option N)) : Prop :=
  match l with
  | [] => True
  | (n, None) :: t => (forall m g, In (m, Some g) t -> ~ in_net n g) /\ gateways t
  | (n, Some g) :: t => in_net n g /\ (g < 2 ^ width (ip_six n))%N /\ forall m o, In (m, o) t -> o = None
  end.
Fixpoint gateway_of (l : list (ipif * option N)) : option val :=
  match l with
  | [] => None
  | (n, Some g) :: _ => text (print_addr (ip_six n) g)
  | (_, None) :: t => gateway_of t
  end.
Definition family (six : bool) (l : list (ipif * option N)) : Prop :=
  (forall n o, In (n, o) l -> ip_six n = six /\ (ip_addr n < 2 ^ width six)%N /\ (ip_len n <= width six)%N) /\ gateways l.
(** The value under "addresses" and the options that show it: nothing, DHCP, or
    IPv4 addresses followed by IPv6 ones.  A lone address is an option, several
    are a list. *)
Definition several (f : ipif -> string) (l : list (ipif * option N)) : option val :=
  match l with
  | [] => None
  | [x] => text (f (fst x))
  | _ => Some (VList (map (fun x => VStr (if_str (fst x))) l))
  end.
Inductive addressing : option val -> list (string * option val) -> Prop :=
| addr_none :
    addressing None [("proto", text "none"); ("ipaddr", None); ("netmask", None); ("ip6addr", None);
                     ("gateway", None); ("ip6gw", None)]
| addr_dhcp (six : bool) d :
    NoDup (dkeys d) ->
    same_map [("proto", VStr "dhcp"); ("family", VStr (if six then "ipv6" else "ipv4"))] d ->
    addressing (Some (VList [VDict d]))
      [("proto", text (if six then "dhcpv6" else "dhcp")); ("ipaddr", None); ("netmask", None); ("ip6addr", None);
       ("gateway", None); ("ip6gw", None)]
| addr_static l4 l6 ds :
    family false l4 -> family true l6 -> ds <> [] ->
    Forall2 (fun x d => NoDup (dkeys d) /\ same_map (static_address (fst x) (snd x)) d) (l4 ++ l6) ds ->
    addressing (Some (VList (map VDict ds)))
      [("proto", text "static"); ("ipaddr", several if_ip l4);
       ("netmask", match l4 with [x] => text (netmask (ip_len (fst x))) | _ => None end);
       ("ip6addr", several if_str l6); ("gateway", gateway_of l4); ("ip6gw", gateway_of l6)].

(** Names of UCI have underscores for hyphens and dots. *)
Definition identifier (s : string) : string := replace "-" "_" (replace "." "_" s).
Definition interface_name (b : dict) : string := identifier (name_or "network" (name_or "name" EmptyString b) b).
Definition loopback_names : list string := ["lo"; "lo0"; "loopback"].
Definition bridge_flags : list string := ["stp"; "igmp_snooping"; "multicast_querier"].
Definition bridge_numbers : list string :=
  ["forward_delay"; "hello_time"; "max_age"; "priority"; "query_interval"; "query_response_interval";
   "last_member_interval"; "hash_max"; "robustness"].
Definition interface_fields : list (string * jtype) :=
  ("mtu", JInt) :: map (fun k => (k, JBool)) bridge_flags ++ map (fun k => (k, JInt)) bridge_numbers.
(** A bridge: its name begins with br-, and its members are words.  Before DSA
    the name is not shown: it is made from the name of the section. *)
Definition bridge_ok (dsa : bool) (n : string) (b : dict) : Prop :=
  (exists x, n = "br-" +++ x /\ contains "br_" n = false /\
     (dsa = false -> identifier x = x /\ optional "network" b (fun v => v = VStr x))) /\
  exists ms, dget "bridge_members" b = Some (VList (map VStr ms)) /\ forall m, In m ms -> word m.
(** Fields that have another meaning in the sections *)
Definition section_fields : list string :=
  ["ifname"; "device"; "device_name"; "macaddr"; "auto"; "enabled"; "proto"; "ipaddr"; "netmask"; "ip6addr";
   "gateway"; "ip6gw"; "dns"; "dns_search"; "wireless"; "vid"; "ports"; "bridge_21"; "bridge_empty";
   "vlan_filtering"; "ageing_time"].
(** Fields of the network device, which with DSA has its own section: these are
    lost or read as texts. *)
Definition device_fields : list string :=
  ["rpfilter"; "txqueuelen"; "neighreachabletime"; "neighgcstaletime"; "neighlocktime"; "igmpversion";
   "mldversion"; "promisc"; "acceptlocal"; "sendredirects"; "multicast"; "mtu6"; "dadtransmits"].
Definition interface_ok (dsa : bool) (b : dict) : Prop :=
  NoDup (dkeys b) /\
  (exists n, dget "name" b = text n /\ n <> EmptyString /\ plain n /\ (dsa = true -> contains "." n = false) /\
     match dget "network" b with
     | None => bare (identifier n)
     | Some v => exists s, v = VStr s /\ word s /\ identifier s = s /\ s <> identifier n
     end /\
     (dget "type" b = text "bridge" /\ bridge_ok dsa n b \/
      dget "type" b = text (if existsb (String.eqb n) loopback_names then "loopback" else "ethernet") /\
      none_of ("bridge_members" :: bridge_flags ++ bridge_numbers) b)) /\
  (exists opts, addressing (dget "addresses" b) opts) /\
  optional "mac" b (fun v => exists s, v = VStr s /\ s <> EmptyString /\ plain s) /\
  optional "autostart" b (fun v => exists x, v = VBool x) /\
  optional "disabled" b (fun v => exists x, v = VBool x) /\
  none_of section_fields b /\ (dsa = true -> none_of device_fields b) /\
  fields_survive interface_fields
    ["name"; "network"; "type"; "addresses"; "mac"; "autostart"; "disabled"; "bridge_members"] b.
(** DNS servers and search domains: lists of words.  The addresses of an interface
    are static if the first one is. *)
Definition texts (k : string) (d : dict) : list string :=
  match dget k d with
  | Some (VList l) => flat_map (fun v => match v with VStr s => [s] | _ => [] end) l
  | _ => []
  end.
Definition dns_ok (k : string) (config : dict) : Prop :=
  optional k config (fun v => exists l, v = VList (map VStr l) /\ forall s, In s l -> word s).
Definition static (b : dict) : bool :=
  match dget "addresses" b with
  | Some (VList (VDict a :: _)) => match dget "proto" a with Some (VStr p) => String.eqb p "static" | _ => false end
  | _ => false
  end.
(** ** interfaces with a protocol of their own: WireGuard, VXLAN, dialup and modem
    manager *)
Definition own_protocols : list string := ["wireguard"; "vxlan"; "dialup"; "modem-manager"].
Definition own_protocol (b : dict) : bool :=
  match dget "type" b with Some (VStr t) => existsb (String.eqb t) own_protocols | _ => false end.
Definition dialups : list string :=
  ["3g"; "6in4"; "aiccu"; "l2tp"; "ncm"; "ppp"; "pppoa"; "pppoe"; "pptp"; "qmi"; "wwan"].
(** The addresses of a WireGuard interface: at least one, all static *)
Definition tunnel_addresses (l : list ipif) (b : dict) : Prop :=
  exists ds, dget "addresses" b = Some (VList (map VDict ds)) /\ ds <> [] /\
    Forall2 (fun n d => NoDup (dkeys d) /\ same_map (static_address n None) d) l ds /\
    forall n, In n l -> (ip_addr n < 2 ^ width (ip_six n))%N /\ (ip_len n <= width (ip_six n))%N.
(** The fields that are needed and those that are not allowed.  The name of a
    WireGuard interface is not shown: it is the name of its section. *)
Definition protocol_settings (t n : string) (b : dict) : Prop :=
  if String.eqb t "wireguard" then
    dget "network" b = None /\ identifier n = n /\ (exists z, dget "port" b = Some (VInt z)) /\
    (exists l, tunnel_addresses l b) /\ none_of ["proto"; "device"] b
  else if String.eqb t "vxlan" then
    text_at "vtep" b (fun s => s <> EmptyString /\ plain s) /\ (exists z, dget "vni" b = Some (VInt z)) /\
    (exists z, dget "port" b = Some (VInt z)) /\ none_of ["proto"; "addresses"] b
  else if String.eqb t "modem-manager" then
    text_at "pin" b (fun s => s <> EmptyString /\ plain s) /\ none_of ["proto"; "addresses"; "pincode"] b
  else text_at "proto" b (fun p => In p dialups) /\ none_of ["addresses"] b.
Definition protocol_fields (t : string) : list (string * jtype) :=
  if String.eqb t "wireguard" then [("port", JInt); ("mtu", JInt); ("nohostroute", JBool)]
  else if String.eqb t "vxlan"
  then [("port", JInt); ("vni", JInt); ("rxcsum", JBool); ("txcsum", JBool); ("mtu", JInt); ("ttl", JInt)]
  else if String.eqb t "modem-manager"
  then [("metric", JInt); ("lowpower", JBool); ("signalrate", JInt); ("force_link", JBool); ("mtu", JInt)]
  else [("mtu", JInt)].
Definition protocol_ok (b : dict) : Prop :=
  NoDup (dkeys b) /\
  (exists n t, dget "name" b = text n /\ n <> EmptyString /\ plain n /\
     dget "type" b = text t /\ In t own_protocols /\ protocol_settings t n b /\
     match dget "network" b with
     | None => bare (identifier n)
     | Some v => exists s, v = VStr s /\ word s /\ identifier s = s /\ s <> identifier n
     end /\
     fields_survive (protocol_fields t)
       ["name"; "network"; "type"; "addresses"; "mac"; "autostart"; "disabled"] b) /\
  optional "mac" b (fun v => exists s, v = VStr s /\ s <> EmptyString /\ plain s) /\
  optional "autostart" b (fun v => exists x, v = VBool x) /\
  optional "disabled" b (fun v => exists x, v = VBool x) /\
  optional "device" b (fun v => exists s, v = VStr ("/" ++ s)) /\
  none_of ["ifname"; "device_name"; "macaddr"; "auto"; "enabled"; "ipaddr"; "netmask"; "ip6addr";
           "dns"; "dns_search"; "wireless"; "vid"; "bridge_21"; "listen_port"; "peeraddr"; "vlan_filtering"] b.
(** With DSA a bridge, and an interface with a MAC address or an MTU, has a
    section for the device. *)
Definition is_bridge (b : dict) : bool := match dget "type" b with Some (VStr "bridge") => true | _ => false end.
Definition own_device (dsa : bool) (b : dict) : bool :=
  dsa && negb (own_protocol b) && (is_bridge b || dmem "mac" b || dmem "mtu" b).
Definition interface_names (dsa : bool) (b : dict) : list string :=
  (if own_device dsa b then ["device_" +++ interface_name b] else []) ++ [interface_name b].
(** Only one interface uses a network device that has its own section, and the
    path of a modem is not below such a device. *)
Definition devices_apart (dsa : bool) (l : list dict) : Prop :=
  (forall i j a b, nth_error l i = Some a -> nth_error l j = Some b -> i <> j -> own_device dsa a = true ->
    name_or "name" EmptyString a <> name_or "name" EmptyString b) /\
  (forall a b, In a l -> In b l -> own_device dsa a = true -> own_protocol b = true -> dmem "device" b = true ->
    startswith "/" (name_or "name" EmptyString a) = false).

(** ** Sections of packages that the library does not know *)
Definition custom_block_ok (i : nat) (b : dict) : Prop :=
  NoDup (dkeys b) /\
  text_at "config_name" b (fun t => word t /\ t <> "device" /\ t <> "bridge-vlan" /\
    match dget "config_value" b with
    | None => contains "-" t = false /\ contains "." t = false
    | Some v => exists s, v = VStr s /\ bare s /\ contains "-" s = false /\ contains "." s = false /\
                  s <> t +++ "_" +++ number i
    end) /\
  fields_survive [] ["config_name"; "config_value"] b.

(** ** Names of the sections *)
(** The object or objects under a key; also the sections of a package. *)
Definition objects (k : string) (config : dict) : list dict :=
  match dget k config with
  | Some (VList l) => flat_map (fun v => match v with VDict d => [d] | _ => [] end) l
  | Some (VDict d) => [d]
  | _ => []
  end.
(** Those of the given types *)
Definition typed_as (types : list string) (s : dict) : bool :=
  match dget ".type" s with Some (VStr t) => existsb (String.eqb t) types | _ => false end.
Definition sections (pkg : string) (types : list string) (data : dict) : list dict :=
  filter (typed_as types) (objects pkg data).
Fixpoint numbered {A B} (f : nat -> A -> B) (i : nat) (l : list A) : list B :=
  match l with [] => [] | x :: t => f i x :: numbered f (S i) t end.
Definition led_name (b : dict) : string := name_or "id" ("led_" +++ lower (name_or "name" EmptyString b)) b.
Definition system_names (config : dict) : list string :=
  map (name_or "id" "system") (objects "general" config) ++
  map (name_or "id" "ntp") (objects "ntp" config) ++
  map led_name (objects "led" config).
Definition switch_names (s : dict) : list string :=
  let n := name_or "name" EmptyString s in
  name_or "id" n s :: numbered (fun j v => name_or "id" (n +++ "_vlan" +++ number j) v) 1
                       (flat_map (fun v => match v with VDict d => [d] | _ => [] end) (vlans_of s)).
Definition peer_name (i : nat) (p : dict) : string :=
  "wgpeer_" +++ name_or "interface" EmptyString p +++ (if (1 <? i)%nat then "_" +++ number i else EmptyString).
Definition radio_names (config : dict) : list string := map (name_or "name" EmptyString) (objects "radios" config).

(** ** Parts of a device *)
(** [k] is absent, or an object with the property. *)
Definition object_at (k : string) (config : dict) (P : dict -> Prop) : Prop :=
  optional k config (fun v => exists d, v = VDict d /\ P d).
(** [k] is absent, or a non-empty list of objects, each with the property at its
    position from 1. *)
Definition objects_at (k : string) (config : dict) (P : nat -> dict -> Prop) : Prop :=
  optional k config (fun v => exists l, v = VList (map VDict l) /\ l <> [] /\
    forall j d, nth_error l j = Some d -> P (S j) d).
Definition switches_at (config : dict) : Prop :=
  optional "switch" config (fun v => exists l, v = VList (map VDict l) /\ l <> [] /\
    switches_ok 0 l /\ NoDup (map (name_or "name" EmptyString) l)).
(** The settings of the schema; every other key is a package of custom
    sections. *)
Definition settings : list string :=
  ["general"; "interfaces"; "radios"; "dns_servers"; "dns_search"; "routes"; "files"; "ip_rules";
   "ntp"; "switch"; "led"; "wireguard_peers"; "zerotier"; "openvpn"].
Definition own_packages : list string := ["system"; "network"; "wireless"; "openvpn"; "zerotier"].
Definition custom_packages_ok (config : dict) : Prop :=
  forall k v, In (k, v) config -> ~ In k ("type" :: settings) ->
    package_name k /\ ~ In k own_packages /\
    exists l, v = VList (map VDict l) /\ l <> [] /\ forall j b, nth_error l j = Some b -> custom_block_ok (S j) b.
