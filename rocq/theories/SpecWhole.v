(** * SpecWhole: whole devices. *)
From Verif Require Import PyBase Conv Ip SpecUci SpecConv SpecDevice SpecShapes SpecEncryption SpecWireless SpecTunnel.

(** ** Interfaces *)
Definition is_wireless (b : dict) : bool := dmem "wireless" b.
Definition addressed (b : dict) : bool := dmem "addresses" b.
(** [n] copies of a list, and the list of texts under a key: no key for no text *)
Definition copies {A} (n : nat) (l : list A) : list A := concat (repeat l n).
Definition lists (k : string) (l : list string) (config : dict) : Prop :=
  dget k config = match l with [] => None | _ => Some (VList (map VStr l)) end.
(** The DNS servers are read once for each interface with static addresses, the
    search domains once for each interface with addresses. *)
Definition dns_read_back (config config' : dict) : Prop :=
  lists "dns_servers" (copies (length (filter static (objects "interfaces" config))) (texts "dns_servers" config)) config' /\
  lists "dns_search" (copies (length (filter addressed (objects "interfaces" config))) (texts "dns_search" config)) config'.
Definition not_kept : list string := ["files"; "type"; "dns_servers"; "dns_search"].
(** The network sections of a wireless interface with addresses are those of an
    Ethernet interface without MAC address; one without addresses has none. *)
Definition wired (b : dict) : list dict :=
  if is_wireless b
  then if addressed b then [dset "type" (VStr "ethernet") (ddel "mac" (ddel "wireless" b))] else []
  else [b].
(** The sections of the bridges that have the interface [n] as member *)
Definition bridges_of (n : string) (l : list dict) : list string :=
  map interface_name (filter (fun b => is_bridge b && existsb (String.eqb n) (members b)) l).
Definition wireless_ok (l : list dict) (b : dict) : Prop :=
  NoDup (dkeys b) /\ dget "type" b = text "wireless" /\
  text_at "name" b (fun n => n <> EmptyString /\ plain n /\
    exists w, dget "wireless" b = Some (VDict w) /\ wifi_ok n (dget "network" b) (addressed b) (bridges_of n l) w) /\
  optional "mac" b (fun v => exists s, v = VStr s /\ s <> EmptyString /\ plain s) /\
  optional "disabled" b (fun v => exists x, v = VBool x) /\
  (addressed b = false -> forall k, dmem k b = true -> In k ["name"; "type"; "wireless"; "mac"; "disabled"]).
(** Ethernet interfaces, loopback and bridges, and WireGuard, VXLAN, dialup and
    modem manager interfaces *)
Definition wired_ok (dsa : bool) (b : dict) : Prop := interface_ok dsa b \/ protocol_ok b.
(** Wireless interfaces without addresses come last; the names are distinct if any
    interface is wireless. *)
Definition interfaces_at (dsa : bool) (config : dict) : Prop :=
  optional "interfaces" config (fun v => exists l m, v = VList (map VDict (l ++ m)) /\ (l ++ m)%list <> [] /\
    (forall b, In b l -> is_wireless b = true -> addressed b = true) /\
    (forall b, In b m -> is_wireless b = true /\ addressed b = false) /\
    (forall b, In b (flat_map wired l) -> wired_ok dsa b) /\ devices_apart dsa (flat_map wired l) /\
    (forall b, In b (l ++ m) -> is_wireless b = true -> wireless_ok (l ++ m) b) /\
    ((exists b, In b (l ++ m) /\ is_wireless b = true) -> NoDup (map (name_or "name" EmptyString) (l ++ m)))).
(** The interfaces that have network sections *)
Definition network_interfaces (config : dict) : list dict := flat_map wired (objects "interfaces" config).
Definition wireless_interfaces (config : dict) : list dict := filter is_wireless (objects "interfaces" config).

(** ** Names of the sections *)
Definition network_names (dsa : bool) (config : dict) : list string :=
  flat_map (interface_names dsa) (network_interfaces config) ++
  numbered (fun i => name_or "name" ("route" +++ number i)) 1 (objects "routes" config) ++
  numbered (fun i => name_or "name" ("rule" +++ number i)) 1 (objects "ip_rules" config) ++
  flat_map switch_names (objects "switch" config) ++
  numbered peer_name 1 (objects "wireguard_peers" config).
Definition wifi_of (b : dict) : dict := match dget "wireless" b with Some (VDict w) => w | _ => [] end.
Definition wifi_section_name (b : dict) : string := wifi_name (name_or "name" EmptyString b) (wifi_of b).
Definition wireless_names (config : dict) : list string :=
  radio_names config ++ map wifi_section_name (wireless_interfaces config).

(** ** Devices *)
(** The other objects with sections in the package network.  A field type with the
    text bridge would make their sections look like those of bridges. *)
Definition other_network_objects (config : dict) : list dict :=
  objects "routes" config ++ objects "ip_rules" config ++ objects "wireguard_peers" config ++
  objects "switch" config ++ flat_map (fun s => dicts (vlans_of s)) (objects "switch" config).
(** The OpenVPN instances *)
Definition vpn_names (config : dict) : list string := map (name_or "name" EmptyString) (objects "openvpn" config).
(** A device without ZeroTier networks; [zones] is the table of time zones. *)
Definition device (dsa : bool) (zones : list (string * string)) (config : dict) : Prop :=
  NoDup (dkeys config) /\
  object_at "general" config (general_ok zones) /\
  object_at "ntp" config ntp_ok /\
  objects_at "led" config (fun _ => led_ok) /\
  interfaces_at dsa config /\
  objects_at "routes" config route_ok /\
  objects_at "ip_rules" config rule_ok /\
  switches_at config /\
  objects_at "radios" config (fun _ => radio_ok dsa) /\
  objects_at "wireguard_peers" config peer_ok /\
  objects_at "openvpn" config (fun _ => tunnel_ok) /\
  (forall b, In b (other_network_objects config) -> dget "type" b <> text "bridge") /\
  (dns_ok "dns_servers" config /\ dns_ok "dns_search" config /\ none_of ["zerotier"] config) /\
  optional "type" config (fun v => exists s, v = VStr s) /\
  custom_packages_ok config /\
  NoDup (system_names config) /\ NoDup (network_names dsa config) /\ NoDup (wireless_names config) /\
  NoDup (vpn_names config).

(** ** All the sections of a device *)
Record device_shown (dsa : bool) (zones : list (string * string)) (config inter : dict) : Prop := {
  sh_general : aligned (fun _ => general_shown zones) (objects "general" config) (sections "system" ["system"] inter);
  sh_ntp : aligned (fun _ => ntp_shown) (objects "ntp" config) (sections "system" ["timeserver"] inter);
  sh_led : aligned (fun _ => led_shown) (objects "led" config) (sections "system" ["led"] inter);
  sh_interfaces : exists sss, sections "network" ["interface"; "device"] inter = concat sss /\
                    aligned (fun _ => interface_shown dsa config) (network_interfaces config) sss;
  sh_routes : aligned route_shown (objects "routes" config) (sections "network" ["route"; "route6"] inter);
  sh_rules : aligned rule_shown (objects "ip_rules" config) (sections "network" ["rule"; "rule6"] inter);
  sh_switch : exists sss, sections "network" ["switch"; "switch_vlan"] inter = concat sss /\
                aligned (fun _ => switch_shown) (objects "switch" config) sss;
  sh_radios : aligned (fun _ => radio_shown dsa) (objects "radios" config) (sections "wireless" ["wifi-device"] inter);
  sh_wireless : aligned (fun _ b s => let n := name_or "name" EmptyString b in
                          wifi_shown n (addressed b) (bridges_of n (objects "interfaces" config)) b (wifi_of b) s)
                  (wireless_interfaces config) (sections "wireless" ["wifi-iface"] inter);
  sh_peers : aligned peer_shown (objects "wireguard_peers" config) (filter wireguard_typed (objects "network" inter));
  sh_vpn : aligned (fun _ => tunnel_shown) (objects "openvpn" config) (sections "openvpn" ["openvpn"] inter);
  sh_custom : forall k, dmem k config = true -> ~ In k ("type" :: settings) ->
                aligned custom_shown (objects k config) (objects k inter);
  sh_names : section_names "system" inter = map text (system_names config) /\
             section_names "network" inter = map text (network_names dsa config) /\
             section_names "wireless" inter = map text (wireless_names config) /\
             section_names "openvpn" inter = map text (vpn_names config)
}.
