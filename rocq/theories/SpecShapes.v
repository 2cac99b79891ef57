(** * SpecShapes: what the UCI sections of a device show of its NetJSON objects. *)
From Verif Require Import PyBase Ip SpecConv SpecDevice.

(** The section [s] shows the fields of [src] as they are, except for the names
    of [own]: those have the value listed there, or are absent. *)
Definition shows (s src : dict) (own : list (string * option val)) : Prop :=
  forall k, dget k s = match dget k own with Some o => o | None => dget k src end.
(** One section for each object, in order; [R] takes the position from 1. *)
Definition aligned {A B} (R : nat -> A -> B -> Prop) (la : list A) (lb : list B) : Prop :=
  length la = length lb /\
  forall j a b, nth_error la j = Some a -> nth_error lb j = Some b -> R (S j) a b.

(** The time zone is shown by name and by its TZ text. *)
Definition general_shown (zones : list (string * string)) (g s : dict) : Prop :=
  shows s g [(".type", text "system"); (".name", text (name_or "id" "system" g)); ("id", None);
             ("zonename", dget "timezone" g);
             ("timezone", match dget "timezone" g with
                          | Some (VStr t) => option_map VStr (dget t zones)
                          | _ => None end)].
Definition ntp_shown (b s : dict) : Prop :=
  shows s b [(".type", text "timeserver"); (".name", text (name_or "id" "ntp" b)); ("id", None)].
Definition led_shown (b s : dict) : Prop :=
  shows s b [(".type", text "led"); (".name", text (led_name b)); ("id", None)].
Definition route_shown (i : nat) (r s : dict) : Prop :=
  exists net, dget "destination" r = text (if_str net) /\
    shows s r [(".type", text (if ip_six net then "route6" else "route"));
               (".name", text (name_or "name" ("route" +++ number i) r));
               ("target", text (if ip_six net then if_str net else if_ip net));
               ("netmask", if ip_six net then None else text (netmask (ip_len net)));
               ("interface", dget "device" r); ("gateway", dget "next" r); ("metric", dget "cost" r);
               ("destination", None); ("device", None); ("next", None); ("cost", None); ("name", None)].
(** An IPv6 destination, or no destination and an IPv6 source *)
Definition six_text (o : option val) : option bool :=
  match o with Some (VStr s) => option_map ip_six (ip_network s) | _ => None end.
Definition rule_is_six (r : dict) : bool :=
  match six_text (dget "dest" r), six_text (dget "src" r) with
  | Some b, _ => b
  | None, Some b => b
  | None, None => false
  end.
Definition rule_shown (i : nat) (r s : dict) : Prop :=
  shows s r [(".type", text (if rule_is_six r then "rule6" else "rule"));
             (".name", text (name_or "name" ("rule" +++ number i) r)); ("name", None)].
(** A switch is shown by its own section followed by one for each VLAN, which
    repeats the VLAN number when it has no VLAN id. *)
Definition vlan_shown (switch : string) (i : nat) (v s : dict) : Prop :=
  dget "device" s = text switch /\
  shows s v [(".type", text "switch_vlan");
             (".name", text (name_or "id" (switch +++ "_vlan" +++ number i) v));
             ("vid", match dget "vid" v with Some x => Some x | None => dget "vlan" v end); ("id", None)].
Definition dicts (l : list val) : list dict := flat_map (fun v => match v with VDict d => [d] | _ => [] end) l.
Definition switch_shown (s : dict) (ss : list dict) : Prop :=
  exists n main vlans, ss = main :: vlans /\ dget "name" s = text n /\
    shows main s [(".type", text "switch"); (".name", text (name_or "id" n s)); ("id", None); ("vlan", None)] /\
    aligned (vlan_shown n) (dicts (vlans_of s)) vlans.
(** The modes of the protocols that have widths *)
Definition htmode_text (p : string) (w : Z) : string :=
  if String.eqb p "802.11n" then "HT" +++ string_of_Z w
  else if String.eqb p "802.11ac" then "VHT" +++ string_of_Z w
  else if String.eqb p "802.11ax" then "HE" +++ string_of_Z w
  else "NONE".
Definition radio_shown (dsa : bool) (r s : dict) : Prop :=
  exists c p w, dget "channel" r = Some (VInt c) /\ dget "protocol" r = text p /\ dget "channel_width" r = Some (VInt w) /\
    shows s r [(".type", text "wifi-device"); (".name", dget "name" r); ("type", dget "driver" r);
               ("channel", if (c =? 0)%Z then text "auto" else Some (VInt c));
               ("band", if dsa then dget "band" r else None);
               ("hwmode", if dsa then None else if (c =? 0)%Z then dget "hwmode" r else text (implied_hwmode p c));
               ("htmode", match dget "htmode" r with Some h => Some h | None => text (htmode_text p w) end);
               ("txpower", dget "tx_power" r);
               ("name", None); ("driver", None); ("tx_power", None); ("protocol", None); ("channel_width", None)].
Definition peer_shown (i : nat) (p s : dict) : Prop :=
  exists n, dget "interface" p = text n /\
    shows s p [(".type", text ("wireguard_" +++ n)); (".name", text (peer_name i p)); ("interface", None)].
Definition custom_shown (i : nat) (b s : dict) : Prop :=
  exists t, dget "config_name" b = text t /\
    shows s b [(".type", text t); (".name", text (name_or "config_value" (t +++ "_" +++ number i) b));
               ("config_name", None); ("config_value", None)].

(** An interface: the options of its addresses are those of [addressing].  With
    DSA the options of the device go to a section of its own. *)
Definition members (b : dict) : list string := texts "bridge_members" b.
(** A list written on one line; nothing is written for the empty list *)
Definition on_one_line (l : list string) : val := match l with [] => VNull | _ => VStr (join " " l) end.
Definition opposite (v : val) : val := VBool match v with VBool true => false | _ => true end.
Definition device_options : list string := "mtu" :: bridge_flags ++ bridge_numbers.
Definition bridge_empty (b : dict) : option val :=
  if is_bridge b then match members b with [] => Some (VBool true) | _ => None end else None.
Definition interface_section_shown (dsa : bool) (config b s : dict) : Prop :=
  exists opts, addressing (dget "addresses" b) opts /\
    shows s b ([(".type", text "interface"); (".name", text (interface_name b));
                ("ifname", if dsa then None
                           else if is_bridge b then match members b with [] => None | l => text (join " " l) end
                           else dget "name" b);
                ("device", if dsa then dget "name" b else None);
                ("type", if is_bridge b && negb dsa then text "bridge" else None);
                ("bridge_empty", if dsa then None else bridge_empty b);
                ("macaddr", if dsa then None else dget "mac" b);
                ("auto", dget "autostart" b); ("enabled", option_map opposite (dget "disabled" b));
                ("dns", Some (if static b then on_one_line (texts "dns_servers" config) else VNull));
                ("dns_search", Some (if dmem "addresses" b then on_one_line (texts "dns_search" config) else VNull))] ++ opts ++
               map (fun k => (k, if dsa then None else dget k b)) device_options ++
               map (fun k => (k, None)) ["name"; "network"; "addresses"; "mac"; "autostart"; "disabled"; "bridge_members"]).
Definition device_section_shown (b s : dict) : Prop :=
  shows s [] ([(".type", text "device"); (".name", text ("device_" +++ interface_name b)); ("name", dget "name" b);
               ("type", if is_bridge b then text "bridge" else None);
               ("ports", if is_bridge b then match members b with [] => None | l => Some (VList (map VStr l)) end else None);
               ("bridge_empty", bridge_empty b); ("macaddr", dget "mac" b)] ++
              map (fun k => (k, dget k b)) device_options).
(** A WireGuard, VXLAN, dialup or modem manager interface: always one section.
    WireGuard has a list of addresses with the length of the prefix. *)
Inductive protocol_options (b : dict) : list (string * option val) -> Prop :=
| shown_wireguard l : dget "type" b = text "wireguard" -> tunnel_addresses l b ->
    protocol_options b [("ifname", None); ("proto", text "wireguard"); ("listen_port", dget "port" b); ("port", None);
                        ("addresses", Some (VList (map (fun n => VStr (if_str n)) l)))]
| shown_vxlan : dget "type" b = text "vxlan" ->
    protocol_options b [("ifname", dget "name" b); ("proto", text "vxlan"); ("peeraddr", dget "vtep" b); ("vid", dget "vni" b);
                        ("vtep", None); ("vni", None)]
| shown_modem : dget "type" b = text "modem-manager" ->
    protocol_options b [("ifname", dget "name" b); ("proto", text "modemmanager"); ("pincode", dget "pin" b); ("pin", None)]
| shown_dialup : dget "type" b = text "dialup" -> protocol_options b [("ifname", dget "name" b); ("proto", dget "proto" b)].
Definition protocol_section_shown (config b s : dict) : Prop :=
  exists opts, protocol_options b opts /\
    shows s b ([(".type", text "interface"); (".name", text (interface_name b)); ("type", None);
                ("macaddr", dget "mac" b); ("auto", dget "autostart" b); ("enabled", option_map opposite (dget "disabled" b));
                ("dns", Some (if static b then on_one_line (texts "dns_servers" config) else VNull));
                ("dns_search", Some (if dmem "addresses" b then on_one_line (texts "dns_search" config) else VNull))] ++ opts ++
               map (fun k => (k, None)) ["name"; "network"; "mac"; "autostart"; "disabled"]).
Definition interface_shown (dsa : bool) (config b : dict) (ss : list dict) : Prop :=
  if own_protocol b then exists i, ss = [i] /\ protocol_section_shown config b i
  else if own_device dsa b then exists d i, ss = [d; i] /\ device_section_shown b d /\ interface_section_shown dsa config b i
  else exists i, ss = [i] /\ interface_section_shown dsa config b i.

Definition wireguard_typed (s : dict) : bool :=
  match dget ".type" s with Some (VStr t) => startswith "wireguard_" t | _ => false end.
(** The names of the sections of a package, in order *)
Definition section_names (pkg : string) (inter : dict) : list (option val) := map (dget ".name") (objects pkg inter).

(** Parsing gives back the value under [k]. *)
Definition kept (k : string) (config config' : dict) : Prop :=
  match dget k config with
  | Some v => exists v', dget k config' = Some v' /\ same v v'
  | None => dget k config' = None
  end.
