(** * OpenWrt: the OpenWrt backend (backends/openwrt/openwrt.py) as an instance of
    the backend record. *)
From Verif Require Import PyBase Merge Files Uci Backend Conv Ip Timezones
  OwrtConv OpenVpnConv OwrtWireless OwrtInterfaces.

(** Keys of the OpenWrt schema, the packages that the Default converter leaves
    alone (default.py:12-18; schema.py and openwrt/schema.py, top-level
    properties). *)
Definition owrt_keys : list string :=
  ["general"; "interfaces"; "radios"; "dns_servers"; "dns_search"; "routes"; "files"; "ip_rules";
   "ntp"; "switch"; "led"; "wireguard_peers"; "zerotier"; "openvpn"].

(** openwrt.py:177-197 [_validate_radios]: JsonSchemaError is not wrapped. *)
Definition radio_undetermined (r : dict) : res bool :=
  do p <- dgetE "protocol" r;
  Ok (is_one_of p ["802.11n"; "802.11ax"] && is_null (dgetN "band" r) && is_null (dgetN "hwmode" r)
      && py_eq (dgetN "channel" r) (VInt 0)).
Definition list_at (key : string) (d : dict) : res (list val) :=
  match dget key d with None => Ok [] | Some v => as_list v end.
Fixpoint validate_radios_list (l : list val) : res unit :=
  match l with
  | [] => Ok tt
  | v :: t =>
      do r <- as_dict v;
      do bad <- radio_undetermined r;
      if bad then Err (EJsonSchema "channel cannot be set to auto")
      else validate_radios_list t
  end.
Definition validate_radios (config : dict) : res unit :=
  do l <- list_at "radios" config; validate_radios_list l.
(** openwrt.py:62-77: the ports with a primary VLAN of one bridge, in order;
    ValidationError on a repetition. *)
Fixpoint check_ports (l : list val) (seen : list val) : res (list val) :=
  match l with
  | [] => Ok seen
  | v :: t =>
      do p <- as_dict v;
      if truthy (dgetN "primary_vid" p) then
        do f <- dgetE "ifname" p;
        if py_in f seen then Err (EValidation "Primary VID can be set only one VLAN for a port.")
        else check_ports t (seen ++ [f])%list
      else check_ports t seen
  end.
Fixpoint check_vlans (l : list val) (seen : list val) : res unit :=
  match l with
  | [] => Ok tt
  | v :: t =>
      do d <- as_dict v;
      do ports <- list_at "ports" d;
      do seen <- check_ports ports seen;
      check_vlans t seen
  end.
Fixpoint check_interfaces (l : list val) : res unit :=
  match l with
  | [] => Ok tt
  | v :: t =>
      do d <- as_dict v;
      do _ <- (if py_eq (dgetN "type" d) (VStr "bridge")
               then do vlans <- list_at "vlan_filtering" d; check_vlans vlans []
               else Ok tt);
      check_interfaces t
  end.
(** openwrt.py:57-77 [validate] *)
Definition owrt_validate (schema_ok : dict -> res unit) (config : dict) : res unit :=
  do _ <- validate_radios config;
  do _ <- base_validate schema_ok config;
  do l <- list_at "interfaces" config;
  check_interfaces l.

(** openwrt.py:20-38: the converters, in order.  [f1], [f2] say how the two set
    literals of timezones.py are iterated. *)
Definition owrt_convs (oid : oracle) (dsa f1 f2 : bool) : list converter :=
  [general (timezones f1 f2) (timezones_reversed f1 f2); ntp; led; interfaces oid dsa; routes; rules;
   switch; radios dsa; wireless dsa; owrt_openvpn; wireguard_peers; owrt_zerotier; default owrt_keys].
Definition openwrt (oid : oracle) (schema_ok : dict -> res unit) (dsa f1 f2 : bool) : backend :=
  {| be_validate := owrt_validate schema_ok;
     be_convs := owrt_convs oid dsa f1 f2;
     be_render := fun _ inter => render_uci inter;
     be_contents := fun text => generate_packages text [];
     be_ids := ["name"; "config_value"; "id"] |}.
(** base/parser.py and openwrt/parser.py: [parse] on a text *)
Definition owrt_parse (oid : oracle) (B : backend) (text : string) (s : state) : state * res unit :=
  parse oid B (parse_text text) s.
