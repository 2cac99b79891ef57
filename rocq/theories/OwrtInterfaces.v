(** * OwrtInterfaces: network interfaces of the OpenWrt backend
    (openwrt/converters/interfaces.py). *)
From Verif Require Import PyBase Merge Backend Conv Ip OwrtConv OwrtWireless.

(** ** NetJSON to UCI *)

(** interfaces.py:14-33 [_bridge_interface_options] *)
Definition stp_options : list string :=
  ["stp"; "forward_delay"; "hello_time"; "priority"; "ageing_time"; "max_age"].
Definition igmp_options : list string :=
  ["igmp_snooping"; "multicast_querier"; "query_interval"; "query_response_interval";
   "last_member_interval"; "hash_max"; "robustness"].
Definition all_options : list string := ["vlan_filtering"; "macaddr"; "mtu"].
(** interfaces.py:35-42 *)
Definition dsa_types : list string :=
  ["loopback"; "ethernet"; "bridge"; "wireless"; "8021q"; "8021ad"].
(** interfaces.py:388-403 *)
Definition l2_options : list string :=
  ["rpfilter"; "txqueuelen"; "neighreachabletime"; "neighgcstaletime"; "neighlocktime";
   "igmpversion"; "mldversion"; "promisc"; "acceptlocal"; "sendredirects"; "multicast"; "mtu";
   "mtu6"; "dadtransmits"].

(** [if k in src: dst[k] = src.pop(k)], for (dst, src) *)
Definition move_opt (ds : dict * dict) (k : string) : dict * dict :=
  match dget k (snd ds) with
  | Some v => (dset k v (fst ds), ddel k (snd ds))
  | None => ds
  end.
(** interfaces.py:386-408 [_add_l2_options]: the device and the interface *)
Definition add_l2_options (device interface : dict) : dict * dict :=
  let ds := fold_left move_opt l2_options (device, interface) in
  if truthy (dgetN "macaddr" (snd ds)) then move_opt ds "macaddr" else ds.

(** interfaces.py:254-263 [__intermediate_address] *)
Definition address_keys : list string := ["address"; "mask"; "family"; "gateway"].
Definition strip_address (a : dict) : dict := ddel_all address_keys a.

(** interfaces.py:155-166 [__intermediate_static_address].  Other values than
    lists can only come from an address with the unexpected keys "ipaddr" or
    "ip6addr". *)
Definition single_ipv4 (uci : dict) : res dict :=
  match dget "ipaddr" uci with
  | None => Ok uci
  | Some (VList [a]) =>
      do i <- interface_of a;
      Ok (dset "netmask" (VStr (if_netmask i)) (dset "ipaddr" (VStr (if_ip i)) uci))
  | Some (VList _) => Ok uci
  | Some (VStr s) => if (String.length s =? 1)%nat then Err EValue else Ok uci
  | Some _ => Err EType
  end.
Definition single_ipv6 (uci : dict) : res dict :=
  match dget "ip6addr" uci with
  | None => Ok uci
  | Some (VList [a]) => Ok (dset "ip6addr" a uci)
  | Some (VList _) | Some (VStr _) => Ok uci
  | Some _ => Err EType
  end.
(** interfaces.py:133-148, one address: the interface (which gets the gateway),
    the static settings and the DHCP ones. *)
Definition address_step (acc : dict * dict * list dict) (v : val) : res (dict * dict * list dict) :=
  let '(interface, static, dhcp) := acc in
  do a <- as_dict v;
  let ipv4 := py_eq (dgetN "family" a) (VStr "ipv4") in
  do proto <- dgetE "proto" a;
  if py_eq proto (VStr "dhcp")
  then Ok (interface, static,
           (dhcp ++ [strip_address (dset "proto" (VStr (if ipv4 then "dhcp" else "dhcpv6")) a)])%list)
  else
    let interface := copy_opt "gateway" a (if ipv4 then "gateway" else "ip6gw") interface in
    let key := if ipv4 then "ipaddr" else "ip6addr" in
    do l <- (match dget key static with
             | None => Ok []
             | Some (VList l) => Ok l
             | Some _ => Err EAttr
             end);
    do addr <- dgetE "address" a;
    do mask <- dgetE "mask" a;
    let static := dset key (VList (l ++ [VStr (py_str addr +++ "/" +++ py_str mask)])%list) static in
    Ok (interface, dupdate static (strip_address a), dhcp).
(** interfaces.py:168-177 [__intermediate_wireguard_addresses] *)
Definition wireguard_address (v : val) : res val :=
  do d <- as_dict v;
  do a <- dgetE "address" d;
  Ok (match dget "mask" d with Some m => VStr (py_str a +++ "/" +++ py_str m) | None => a end).
(** interfaces.py:116-153 [__intermediate_addresses]: the address settings and
    the interface *)
Definition interface_addresses (interface : dict) : res (list dict * dict) :=
  if py_eq (dgetN "type" interface) (VStr "wireguard") then
    do v <- dgetE "addresses" interface;
    do l <- as_list v;
    do addrs <- mapM wireguard_address l;
    Ok ([[("addresses", VList addrs); ("proto", VStr "wireguard")]], ddel "addresses" interface)
  else
    let v := dgetN "addresses" interface in
    if negb (truthy v) then
      do t <- dgetE "type" interface;
      Ok (if py_eq t (VStr "wireless") then [] else [[("proto", VStr "none")]], interface)
    else
      do l <- as_list v;
      do acc <- foldM address_step (interface, [], []) l;
      let '(interface, static, dhcp) := acc in
      do st <- (match static with
                | [] => Ok []
                | _ => do s <- single_ipv4 static; do s <- single_ipv6 s; Ok [s]
                end);
      Ok ((st ++ dhcp)%list, interface).

(** interfaces.py:241-252: 802.1q and 802.1ad *)
Definition intermediate_8021 (i : dict) : res dict :=
  do ifname <- dgetE "ifname" i;
  do vid <- dgetE "vid" i;
  do name <- dgetE ".name" i;
  let i := dset "name" (VStr (py_str ifname +++ "." +++ py_str vid)) i in
  Ok (dset ".name" (vor (dgetN "network" i) (VStr ("vlan_" +++ py_str name +++ "_" +++ py_str vid))) i).
(** interfaces.py:224-252, 202-206: the type specific transformation.
    [getattr] also finds the method of the type "8021_vlan". *)
Definition intermediate_type (type : string) (i : dict) : res dict :=
  if String.eqb type "modem_manager"
  then Ok (dset "pincode" (pop_or "pin" VNull i) (ddel "pin" (dset "proto" (VStr "modemmanager") i)))
  else if String.eqb type "wireguard"
  then Ok (ddel "ifname" (dset "listen_port" (pop_or "port" VNull i)
                            (ddel "port" (dset "proto" (VStr "wireguard") i))))
  else if String.eqb type "vxlan"
  then do vtep <- dgetE "vtep" i;
       do vni <- dgetE "vni" i;
       Ok (dset "vid" vni (ddel "vni" (dset "peeraddr" vtep (ddel "vtep" (dset "proto" (VStr "vxlan") i)))))
  else if existsb (String.eqb type) ["8021q"; "8021ad"; "8021_vlan"]
  then intermediate_8021 i
  else Ok i.
(** interfaces.py:213-222 [_check_bridge_vlan] *)
Definition check_bridge_vlan (dsa : bool) (vlans : list string) (i : dict) : res dict :=
  if dsa then
    do f <- str_key (pop_or "ifname" (VStr EmptyString) i);
    if contains "." f && existsb (String.eqb f) vlans then
      let i := snd (add_l2_options [] i) in
      Ok (dset "device" (VStr f) (ddel "ifname" i))
    else Ok i
  else Ok i.
(** interfaces.py:179-211 [__intermediate_interface] *)
Definition intermediate_interface (dsa : bool) (vlans : list string) (i : dict) (uname : val) : res dict :=
  let i := dupdate i [(".type", VStr "interface"); (".name", uname)] in
  do name <- dgetE "name" i;
  let i := dset "ifname" name (ddel "name" i) in
  let i := match dget "mac" i with
           | Some m => ddel "mac" (if py_eq (dgetN "type" i) (VStr "wireless") then i
                                   else dset "macaddr" m i)
           | None => i
           end in
  let i := match dget "autostart" i with
           | Some a => ddel "autostart" (dset "auto" a i)
           | None => i
           end in
  let i := match dget "disabled" i with
           | Some d => ddel "disabled" (dset "enabled" (VBool (negb (truthy d))) i)
           | None => i
           end in
  let i := ddel "addresses" (ddel "wireless" i) in
  do t <- dgetE "type" i;
  do t <- as_str t;
  do i <- intermediate_type (uci_name t) i;
  do i <- check_bridge_vlan dsa vlans i;
  Ok (ddel "network" i).
(** interfaces.py:49-60 [__set_dsa_interface] *)
Definition dsa_interface (dsa : bool) (vlans : list string) (i : dict) : bool :=
  dsa && negb (py_eq (dgetN "proto" i) (VStr "ppp"))
  && is_one_of (dgetN "type" i) dsa_types
  && negb (is_one_of (pop_or "ifname" (dgetN "device" i) i) vlans).

(** interfaces.py:377-384 [_add_options]: the device *)
Definition add_options (prop : string) (options : list string) (interface device : dict) : dict :=
  if truthy (dgetN prop interface)
  then fold_left (fun d o => if truthy (dgetN o interface) then dset o (dgetN o interface) d else d)
         options (dset prop (VBool true) device)
  else device.
(** interfaces.py:335-375, the bridge part of [__intermediate_device] *)
Definition bridge_device (device interface : dict) : res (dict * dict) :=
  let device := dset "type" (VStr "bridge") device in
  do f <- dgetE "ifname" interface;
  do f <- as_str f;
  let f := if startswith "br-" f then f else "br-" +++ f in
  let interface := dset "device" (VStr f) (dset "ifname" (VStr f) interface) in
  let device := dset "name" (VStr f) device in
  let device := add_options "stp" stp_options interface device in
  let device := add_options "igmp_snooping" igmp_options interface device in
  let (device, interface) :=
    fold_left move_opt (all_options ++ stp_options ++ igmp_options)%list (device, interface) in
  let ports := pop_or "bridge_members" (VList []) interface in
  let device := if py_eq ports (VList [])
                then ddel "ports" (dset "bridge_empty" (VBool true) device)
                else dset "ports" ports device in
  Ok (ssort device, interface).
(** interfaces.py:299-375 [__intermediate_device]: the device (empty if there is
    none) and the interface *)
Definition intermediate_device (interface : dict) : res (dict * dict) :=
  let (device, interface) := add_l2_options [] interface in
  do name <- dgetE ".name" interface;
  do ifname <- dgetE "ifname" interface;
  let base := [(".type", VStr "device"); (".name", VStr ("device_" +++ py_str name)); ("name", ifname)] in
  let device := dupdate device base in
  let interface := if truthy (dgetN "device" interface) then interface
                   else dset "device" ifname interface in
  do t <- dgetE "type" interface;
  do type <- as_str t;
  do di <- (if startswith "8021" type then
              do vid <- dgetE "vid" interface;
              let interface := ddel "vid" interface in
              do vname <- dgetE "name" interface;
              let interface := ddel "name" interface in
              do n <- as_str name;
              let ingress := pop_or "ingress_qos_mapping" (VList []) interface in
              let egress := pop_or "egress_qos_mapping" (VList []) interface in
              let interface := ddel_all ["ifname"; "ingress_qos_mapping"; "egress_qos_mapping"] interface in
              Ok (dupdate device
                    [("type", t); ("vid", vid); ("name", vname);
                     (".name", VStr ("device_" +++ lstrip_chars "vlan_" n)); ("ifname", ifname);
                     ("ingress_qos_mapping", ingress); ("egress_qos_mapping", egress)],
                  dset "device" vname interface)
            else Ok (device, interface));
  let (device, interface) := di in
  if negb (String.eqb type "bridge")
  then Ok (if py_eq (VDict device) (VDict base) then [] else device, interface)
  else bridge_device device interface.
(** interfaces.py:283-294, one port of a VLAN *)
Definition vlan_port (v : val) : res val :=
  do p <- as_dict v;
  do f <- dgetE "ifname" p;
  let tagging := if truthy (dgetN "tagging" p) then ":" +++ py_str (dgetN "tagging" p) else EmptyString in
  let pvid := if truthy (dgetN "primary_vid" p) then "*" else EmptyString in
  Ok (VStr (py_str f +++ tagging +++ pvid)).
(** interfaces.py:265-297 [__intermediate_vlan]: the bridge-vlan section, its
    interface section and the name of the VLAN device *)
Definition intermediate_vlan (uname : string) (ifname : val) (vlan : dict) : res (dict * dict * string) :=
  do vid <- dgetE "vlan" vlan;
  let device := py_str ifname +++ "." +++ py_str vid in
  let name := uname +++ "_" +++ py_str vid in
  let uci_vlan := [(".type", VStr "bridge-vlan"); (".name", VStr ("vlan_" +++ name)); ("vlan", vid);
                   ("device", ifname)] in
  let iface := [(".type", VStr "interface"); (".name", VStr name); ("device", VStr device);
                ("proto", VStr "none")] in
  do uci_vlan <- (match dget "ports" vlan with
                  | None => Ok uci_vlan
                  | Some v => do l <- as_list v; do ps <- mapM vlan_port l;
                              Ok (dset "ports" (VList ps) uci_vlan)
                  end);
  Ok (uci_vlan, iface, device).
(** [result["network"].append(s)] *)
Definition network_append (s : dict) (result : dict) : res dict :=
  do v <- dgetE "network" result; do _ <- as_list v; Ok (add_blocks "network" [s] result).
(** interfaces.py:78-84: the VLANs of a bridge; the accumulator is the result, the
    interface sections to add later and the known VLAN devices *)
Definition vlan_step (uname : string) (ifname : val) (acc : dict * list dict * list string) (v : val)
    : res (dict * list dict * list string) :=
  let '(result, later, vlans) := acc in
  do vlan <- as_dict v;
  do x <- intermediate_vlan uname ifname vlan;
  let '(uci_vlan, iface, device) := x in
  do result <- network_append (ssort uci_vlan) result;
  Ok (result, (later ++ [iface])%list, (vlans ++ [device])%list).
(** interfaces.py:67-84: the sections of a DSA interface *)
Definition dsa_sections (uname : string) (interface result : dict) (vlans : list string)
    : res (dict * dict * list string) :=
  let vlan_list := pop_or "vlan_filtering" (VList []) interface in
  let interface := ddel "vlan_filtering" interface in
  let interface := if truthy vlan_list then dset "vlan_filtering" (VBool true) interface else interface in
  do di <- intermediate_device interface;
  let (device, interface) := di in
  let result := match device with [] => result | _ => add_blocks "network" [ssort device] result end in
  do l <- as_list vlan_list;
  do acc <- (match l with
             | [] => Ok (result, [], vlans)
             | _ => do ifname <- dgetE "ifname" interface;
                    foldM (vlan_step uname ifname) (result, [], vlans) l
             end);
  let '(result, later, vlans) := acc in
  do result <- foldM (fun r i => network_append (ssort i) r) result later;
  Ok (interface, result, vlans).

(** interfaces.py:476-502: the "dns" and "dns_search" options *)
Definition dns_option (key config_key : string) (without : list string) (config uci address : dict) : res val :=
  match dget key uci with
  | Some v => Ok v
  | None =>
      do proto <- dgetE "proto" address;
      if is_one_of proto without then Ok VNull
      else
        let v := dgetN config_key config in
        if truthy v then do l <- iter_strs v; Ok (VStr (join " " l)) else Ok VNull
  end.
(** interfaces.py:425-462 [__intermediate_bridge] *)
Definition intermediate_bridge (dsa_if : bool) (i : nat) (interface : dict) : res dict :=
  do type <- dgetE "type" interface;
  do interface <-
    (if py_eq type (VStr "bridge") then
       if (i <? 2)%nat then
         do m <- dgetE "bridge_members" interface;
         do ms <- iter_strs m;
         let interface := ddel "bridge_members" interface in
         let members := join " " ms in
         do f <- dgetE "ifname" interface;
         Ok (if dsa_if then dset "device" f interface
             else if String.eqb members EmptyString
             then ddel "ifname" (dset "bridge_empty" (VBool true) interface)
             else dset "ifname" (VStr members) interface)
       else
         do f <- dgetE "ifname" interface;
         do f <- str_key f;
         let interface := if contains "br-" f then interface else dset "ifname" (VStr ("br-" +++ f)) interface in
         Ok (ddel_all (["type"; "bridge_members"; "gateway"] ++ stp_options ++ igmp_options)%list interface)
     else Ok (ddel "type" interface));
  Ok (if dsa_if
      then ddel_all (["ifname"; "type"; "bridge_members"] ++ stp_options ++ igmp_options ++ all_options)%list interface
      else interface).

Section Forward.
  Variable oid : oracle.
  Variable dsa : bool.
  (** the configuration, for the DNS settings *)
  Variable config : dict.

  (** interfaces.py:88-103: the section of one address *)
  Definition address_section (uname : string) (dsa_if : bool) (interface address : dict) (i : nat) : res dict :=
    let uci := if (1 <? i)%nat then dset ".name" (VStr (uname +++ "_" +++ string_of_nat i)) interface
               else interface in
    do dns <- dns_option "dns" "dns_servers" ["dhcp"; "dhcpv6"; "none"] config uci address;
    do search <- dns_option "dns_search" "dns_search" ["none"] config uci address;
    let proto := match dget "proto" uci with
                 | Some p => p
                 | None => pop_or "proto" (VStr "static") address
                 end in
    let uci := dupdate uci [("dns", dns); ("dns_search", search); ("proto", proto)] in
    do uci <- intermediate_bridge dsa_if i uci;
    Ok (ssort (dupdate uci (ddel "proto" address))).
  (** interfaces.py:85-113: one section per address *)
  Fixpoint address_sections (uname : string) (dsa_if : bool) (interface : dict) (l : list dict) (i : nat)
      (result : dict) : res dict :=
    match l with
    | [] => Ok result
    | a :: t =>
        do s <- address_section uname dsa_if interface a i;
        do old <- (match dget "network" result with None => Ok [] | Some v => as_list v end);
        do new <- merge_list oid [".name"; ".type"] old [VDict s];
        address_sections uname dsa_if interface t (S i) (dset "network" (VList new) result)
    end.
  (** interfaces.py:62-114 [to_intermediate_loop]; the accumulator is the result and
      [_bridge_vlan_config_uci] *)
  Definition interface_block (acc : dict * list string) (v : val) : res (dict * list string) :=
    let (result, vlans) := acc in
    do b <- as_dict v;
    let n := dgetN "network" b in
    do n <- (if truthy n then Ok n else dgetE "name" b);
    do uname <- uci_name_val n;
    do al <- interface_addresses b;
    let (addresses, b) := al in
    do interface <- intermediate_interface dsa vlans b uname;
    let dsa_if := dsa_interface dsa vlans interface in
    let name := py_str uname in
    do irv <- (if dsa_if then dsa_sections name interface result vlans
               else Ok (interface, result, vlans));
    let '(interface, result, vlans) := irv in
    do result <- address_sections name dsa_if interface addresses 1 result;
    Ok (result, vlans).
  Definition interfaces_fwd : res dict :=
    do l <- as_list (dgetN "interfaces" config);
    do rv <- foldM interface_block ([], []) l;
    Ok (fst rv).
End Forward.

(** ** UCI to NetJSON *)

(** Keys of [_device_config]: the name of the device, or None *)
Definition dev_key (v : val) : res string :=
  match v with
  | VNull => Ok EmptyString
  | VStr s => Ok (":" +++ s)
  | VList _ | VDict _ => Err EType
  | _ => Ok (";" +++ py_repr v)
  end.
Notation devices := (list (string * dict)).

(** interfaces.py:753-779: options of a device.  Popping moves the option to the
    end of the dict. *)
Definition device_ints : list string :=
  ["txqueuelen"; "neighreachabletime"; "neighgcstaletime"; "neighlocktime"; "igmpversion"; "mldversion";
   "mtu"; "mtu6"; "dadtransmits"].
Definition device_bools : list string := ["promisc"; "acceptlocal"; "sendredirects"; "multicast"].
Definition device_int (d : dict) (k : string) : res dict :=
  match dget k d with
  | None => Ok d
  | Some v => do z <- py_int v; Ok (dset k (VInt z) (ddel k d))
  end.
Definition device_bool (d : dict) (k : string) : dict :=
  match dget k d with
  | None => d
  | Some v => dset k (VBool (py_eq v (VStr "1"))) (ddel k d)
  end.
(** interfaces.py:747-787 [__netjson_device] *)
Definition netjson_device (devs : devices) (b : dict) : res devices :=
  do n <- dgetE ".name" b;
  do n <- as_str n;
  let b := dset "network" (VStr (if startswith "device_" n then sdrop 7 n else n)) (ddel ".name" b) in
  do b <- foldM device_int b device_ints;
  let b := fold_left device_bool device_bools b in
  do k <- dev_key (dgetN "name" b);
  Ok (dset k (match dget k devs with Some d => dupdate d b | None => b end) devs).
(** interfaces.py:793-806, one port *)
Definition netjson_port (p : string) : res val :=
  let port f t v := Ok (VDict [("ifname", VStr f); ("tagging", VStr t); ("primary_vid", VBool v)]) in
  match split_char ":" p with
  | [] => Err EIndex
  | [f] => port f "u" false
  | f :: EmptyString :: _ => Err EIndex
  | f :: String c r :: _ => port f (String c EmptyString) (negb (String.eqb r EmptyString))
  end.
(** interfaces.py:789-811 [__netjson_vlan]: the device *)
Definition netjson_vlan (vlan device : dict) : res dict :=
  let device := if py_eq (dgetN "vlan_filtering" device) (VStr "1") then ddel "vlan_filtering" device
                else device in
  do vid <- dgetE "vlan" vlan;
  do z <- py_int vid;
  do ps <- iter_strs (pop_or "ports" (VList []) vlan);
  do ports <- mapM netjson_port ps;
  let v := VDict [("vlan", VInt z); ("ports", VList ports)] in
  match dget "vlan_filtering" device with
  | None => Ok (dset "vlan_filtering" (VList [v]) device)
  | Some (VList l) => Ok (dset "vlan_filtering" (VList (l ++ [v])%list) device)
  | Some _ => Err EAttr
  end.
(** interfaces.py:575-583 [__process_device_block] *)
Definition device_block (b : dict) (devs : devices) (i : nat) : res devices :=
  if py_eq (dgetN "type" b) (VStr "bridge-vlan") then
    let name := dgetN "device" b in
    do k <- dev_key name;
    let devs := if truthy name && negb (dmem k devs) then dset k [] devs else devs in
    match dget k devs with
    | None => Err (EKey (py_repr name))
    | Some d => do d <- netjson_vlan b d; Ok (dset k d devs)
    end
  else netjson_device devs b.

(** interfaces.py:659-670 [__get_device_config_for_interface]: the key of the
    device and the interface.  "" is looked up when there is no device. *)
Definition device_for (devs : devices) (i : dict) : res (option string * dict) :=
  let device := pop_or "device" (VStr EmptyString) i in
  do k <- dev_key device;
  do kn <- dev_key (dgetN "name" i);
  let nonempty k := match dget k devs with Some (_ :: _) => true | _ => false end in
  let k1 := if dmem k devs then k else kn in
  do k2 <- (if nonempty k1 then Ok (Some k1)
            else
              do f <- str_key device;
              match rpartition "." f with
              | Some (a, _) => Ok (if nonempty (":" +++ a) then Some (":" +++ a) else None)
              | None => Ok None
              end);
  match k2 with
  | None => Ok (None, i)
  | Some k => do d <- dgetE "device" i; Ok (Some k, dset "ifname" d (ddel "device" i))
  end.
(** interfaces.py:672-703 [__add_options_from_device_config]: the interface and the
    device *)
Definition bridge_option (device : dict) (i : res dict) (kv : string * val) : res dict :=
  do i <- i;
  if String.eqb (fst kv) "bridge_21" then Ok i
  else if String.eqb (fst kv) "ports"
  then do l <- iter_strs (snd kv); Ok (dset "ifname" (VStr (join " " l)) i)
  else Ok (dset (fst kv) (snd kv) i).
Definition add_device_options (i device : dict) : res (dict * dict) :=
  let b21 := truthy (dgetN "bridge_21" device) in
  if b21 && negb (py_eq (dgetN "ifname" i) (dgetN "name" device)) then
    do f <- dgetE "ifname" i;
    do n <- uci_name_val f;
    Ok (dset ".name" n i, device)
  else if truthy (dgetN "consumed" device) then Ok (i, device)
  else
    do i <- (if b21 then fold_left (bridge_option device) device (Ok i) else Ok i);
    let i := fold_left (fun i k => copy_opt k device k i)
               (all_options ++ stp_options ++ igmp_options)%list i in
    do t <- as_str (pop_or "type" (VStr EmptyString) device);
    do i <- (if startswith "8021" t
             then do n <- dgetE "name" device;
                  do n <- as_str n;
                  Ok (dset "ifname" (VStr (join EmptyString (removelast (split_char "." n)))) i)
             else Ok i);
    Ok (i, dset "consumed" (VBool true) device).
(** interfaces.py:705-727 [_handle_bridge_vlan_interface]: [None] for an ignored
    interface *)
Definition auto_vlan_interface (i : dict) : bool :=
  py_eq (dgetN "proto" i) (VStr "none") && (length i =? 4)%nat
  && forallb (fun k => k in? i) [".type"; ".name"; "ifname"; "proto"].
Fixpoint match_vlan (vlan_id : string) (i : dict) (l : list val) : res (option dict) :=
  match l with
  | [] => Ok (Some i)
  | v :: t =>
      do d <- (match v with VDict d => Ok d | _ => Err EType end);
      do n <- dgetE "vlan" d;
      do z <- py_int (VStr vlan_id);
      if py_eq n (VInt z) then
        if auto_vlan_interface i then Ok None
        else do f <- dgetE "ifname" i; do n <- uci_name_val f; Ok (Some (dset ".name" n i))
      else match_vlan vlan_id i t
  end.
Definition bridge_vlan_interface (i device : dict) : res (option dict) :=
  do f <- str_key (pop_or "ifname" (VStr EmptyString) i);
  match rpartition "." f with
  | None => Ok (Some i)
  | Some (_, vlan_id) =>
      match dget "vlan_filtering" device with
      | None => Ok (Some i)
      | Some (VList l) => match_vlan vlan_id i l
      | Some (VStr EmptyString) => Ok (Some i)
      | Some _ => Err EType
      end
  end.
(** interfaces.py:729-745 [__netjson_dsa_interface] *)
Definition netjson_dsa (devs : devices) (i : dict) : res (option dict * devices) :=
  do ki <- device_for devs i;
  let (k, i) := ki in
  match k with
  | Some k =>
      let device := match dget k devs with Some d => d | None => [] end in
      do o <- bridge_vlan_interface i device;
      match o with
      | None => Ok (None, devs)
      | Some i => do id <- add_device_options i device; Ok (Some (fst id), dset k (snd id) devs)
      end
  | None =>
      Ok (Some (if ("device" in? i) && negb ("ifname" in? i)
                then dset "ifname" (dgetN "device" i) (ddel "device" i) else i), devs)
  end.

(** interfaces.py:832-855 [__netjson_bridge_typecast] *)
Definition bridge_ints : list string :=
  ["forward_delay"; "hello_time"; "max_age"; "priority"; "query_interval"; "query_response_interval";
   "last_member_interval"; "hash_max"; "robustness"].
Definition int_or_drop (d : dict) (k : string) : res dict :=
  match dget k d with
  | None => Ok d
  | Some v => match py_int v with
              | Ok z => Ok (dset k (VInt z) d)
              | Err EValue => Ok (ddel k d)
              | Err e => Err e
              end
  end.
Definition bridge_typecast (i : dict) : res dict :=
  foldM int_or_drop (fold_left bool_field ["stp"; "igmp_snooping"; "multicast_querier"] i) bridge_ints.
(** interfaces.py:812-830 [__netjson_type]: the interface with its type *)
Definition netjson_type (i : dict) : res dict :=
  let device_name := pop_or "device_name" VNull i in
  let i := ddel "device_name" i in
  let plain i :=
    do n <- dgetE "name" i;
    Ok (dset "type" (VStr (if is_one_of n ["lo"; "lo0"; "loopback"] then "loopback" else "ethernet")) i) in
  match dget "type" i with
  | None => plain i
  | Some t =>
      if py_eq t (VStr "bridge") then
        do n <- dgetE "name" i;
        do n <- as_str n;
        let i := dset "bridge_members" (VList (map VStr (split_ws n))) i in
        do m <- as_str (vor device_name (dgetN "network" i));
        let m := if startswith "br-" m then m else "br-" +++ m in
        let i := dset "name" (VStr (replace "br_" EmptyString m)) i in
        do i <- bridge_typecast i;
        let empty := pop_or "bridge_empty" VNull i in
        let i := ddel "bridge_empty" i in
        let i := if py_eq empty (VStr "1") then dset "bridge_members" (VList []) i else i in
        Ok (dset "type" (VStr "bridge") i)
      else
        do t <- as_str t;
        if startswith "802" t then Ok i else plain i
  end.

(** interfaces.py:952-960 [__netjson_parse_ip] *)
Definition parse_ip (ip : val) (netmask : val) : res (option string) :=
  do ip <- str_key ip;
  let (ip, netmask) := match split_char "/" ip with
                       | a :: m :: _ => (a, vor (VStr m) netmask)
                       | _ => (ip, netmask)
                       end in
  Ok (if negb (String.eqb ip EmptyString) && truthy netmask
      then Some (ip +++ "/" +++ py_str netmask) else None).
(** [ip_address(s)] *)
Definition ip_address (s : string) : option (bool * N) :=
  match parse_ipv4 s with
  | Some n => Some (false, n)
  | None => match parse_ipv6 s with Some n => Some (true, n) | None => None end
  end.
(** [ip_address(s) in i.network] *)
Definition in_network (a : bool * N) (i : ipif) : bool :=
  Bool.eqb (fst a) (ip_six i) &&
  (net_addr {| ip_six := ip_six i; ip_addr := snd a; ip_len := ip_len i |} =? net_addr i)%N.
(** interfaces.py:934-950 [__netjson_address]: the address and the interface.
    Simplification: a gateway that is not a text is a ValueError. *)
Definition netjson_address (a : string) (i : dict) : res (val * dict) :=
  match ip_interface a with
  | None => Err EValue
  | Some ip =>
      let netjson := [("address", VStr (if_ip ip)); ("mask", VInt (Z.of_N (ip_len ip)));
                      ("proto", VStr "static");
                      ("family", VStr (if ip_six ip then "ipv6" else "ipv4"))] in
      let key := if ip_six ip then "ip6gw" else "gateway" in
      let gw := dgetN key i in
      if negb (truthy gw) then Ok (VDict netjson, i)
      else
        match gw with
        | VStr g =>
            match ip_address g with
            | None => Err EValue
            | Some ga => Ok (if in_network ga ip
                             then (VDict (netjson ++ [("gateway", gw)])%list, ddel key i)
                             else (VDict netjson, i))
            end
        | _ => Err EValue
        end
  end.
(** interfaces.py:871-881: an address option that is not a list *)
Definition address_option (key : string) (dflt : Z) (i : dict) : res (list val * dict) :=
  let v := pop_or key (VList []) i in
  let i := ddel key i in
  match v with
  | VList l => Ok (l, i)
  | _ =>
      do p <- parse_ip v (pop_or "netmask" (VInt dflt) i);
      Ok (match p with Some s => [VStr s] | None => [] end, ddel "netmask" i)
  end.
Definition address_back (acc : list val * dict) (a : val) : res (list val * dict) :=
  let (l, i) := acc in
  do p <- parse_ip a (VInt 32);
  match p with
  | None => Ok (l, i)
  | Some s => do ai <- netjson_address s i; Ok ((l ++ [fst ai])%list, snd ai)
  end.
(** interfaces.py:868-890 [_add_netjson_addresses] *)
Definition add_netjson_addresses (i : dict) (proto : val) : res dict :=
  let v6 := pop_or "ip6addr" (VList []) i in
  do x <- address_option "ipaddr" 32 (ddel "ip6addr" i);
  let (ipv4, i) := x in
  do y <- address_option "ip6addr" 128 (dset "ip6addr" v6 i);
  let (ipv6, i) := y in
  do p <- as_str proto;
  let first := if startswith "dhcp" p
               then [VDict [("proto", VStr "dhcp");
                            ("family", VStr (if String.eqb p "dhcp" then "ipv4" else "ipv6"))]]
               else [] in
  do li <- foldM address_back (first, i) (ipv4 ++ ipv6)%list;
  let (l, i) := li in
  Ok (match l with [] => i | _ => dset "addresses" (VList l) i end).
(** interfaces.py:857-866 [__netjson_addresses] *)
Definition netjson_addresses (i : dict) : res dict :=
  let proto := pop_or "proto" (VStr "none") i in
  let known := is_one_of proto ["static"; "dhcp"; "dhcpv6"; "none"] in
  let i := if known then ddel "proto" i else i in
  if negb ("ipaddr" in? i) && negb ("ip6addr" in? i) && py_eq proto (VStr "none") then Ok i
  else add_netjson_addresses (if known then i else dset "type" (VStr "other") i) proto.

(** openwrt/schema.py:445-532, 534-667, 669-735: integer and boolean properties *)
Definition modem_props := [("metric", JInt); ("lowpower", JBool); ("signalrate", JInt); ("force_link", JBool)].
Definition wireguard_props := [("port", JInt); ("mtu", JInt); ("nohostroute", JBool)].
Definition vxlan_props :=
  [("port", JInt); ("vni", JInt); ("rxcsum", JBool); ("txcsum", JBool); ("mtu", JInt); ("ttl", JInt)].
(** interfaces.py:975-988 and 892 *)
Definition dialup_protos : list string :=
  ["3g"; "6in4"; "aiccu"; "l2tp"; "ncm"; "ppp"; "pppoa"; "pppoe"; "pptp"; "qmi"; "wwan"; "dialup"].
(** interfaces.py:908-923, one address *)
Definition wireguard_address_back (s : string) : res val :=
  match ip_interface s with
  | None => Err EValue
  | Some ip => Ok (VDict [("address", VStr (if_ip ip)); ("mask", VInt (Z.of_N (ip_len ip)));
                          ("proto", VStr "static");
                          ("family", VStr (if ip_six ip then "ipv6" else "ipv4"))])
  end.
(** interfaces.py:892-932, 651-657: the protocol specific transformation *)
Definition netjson_proto (i : dict) : res dict :=
  match dget "proto" i with
  | Some (VStr p) =>
      if existsb (String.eqb p) dialup_protos then Ok (dset "type" (VStr "dialup") i)
      else if existsb (String.eqb p) ["modem_manager"; "modemmanager"] then
        let i := dset "type" (VStr "modem-manager") (ddel "proto" i) in
        type_cast modem_props (dset "pin" (pop_or "pincode" VNull i) (ddel "pincode" i))
      else if String.eqb p "wireguard" then
        let i := dset "type" (VStr p) (ddel "proto" i) in
        let i := dset "port" (pop_or "listen_port" VNull i) (ddel "listen_port" i) in
        do a <- dgetE "addresses" i;
        do l <- iter_strs a;
        do addrs <- mapM wireguard_address_back l;
        type_cast wireguard_props (dset "addresses" (VList addrs) i)
      else if String.eqb p "vxlan" then
        let i := dset "type" (VStr p) (ddel "proto" i) in
        let i := dset "vtep" (pop_or "peeraddr" VNull i) (ddel "peeraddr" i) in
        let i := dset "vni" (pop_or "vid" VNull i) (ddel "vid" i) in
        do _ <- dgetE "port" i;
        type_cast vxlan_props i
      else Ok i
  | _ => Ok i
  end.
(** [if k in d: d[k'] = d.pop(k) == s] *)
Definition rename_eq (k k' s : string) (d : dict) : dict :=
  match dget k d with
  | Some v => dset k' (VBool (py_eq v (VStr s))) (ddel k d)
  | None => d
  end.
(** interfaces.py:634-657 [__netjson_interface] *)
Definition netjson_interface (i : dict) : res dict :=
  do _ <- dgetE ".type" i;
  let i := ddel ".type" i in
  do network <- dgetE ".name" i;
  let i := dset "network" network (ddel ".name" i) in
  let i := dset "device_name" (dgetN "name" i) i in
  let i := dset "name" (pop_or "ifname" network i) (ddel "ifname" i) in
  do i <- netjson_type i;
  do i <- netjson_addresses i;
  let i := rename_eq "enabled" "disabled" "0" (rename_eq "auto" "autostart" "1" i) in
  do i <- foldM int_field i ["mtu"; "vid"];
  let i := rename "macaddr" "mac" i in
  do name <- dgetE "name" i;
  do n <- uci_name_val name;
  let i := if py_eq (dgetN "network" i) n then ddel "network" i else i in
  netjson_proto i.
(** interfaces.py:962-972 [__netjson_dns]: the interface and the result *)
Definition netjson_dns_one (ir : dict * dict) (kk : string * string) : res (dict * dict) :=
  let (i, result) := ir in
  match dget (fst kk) i with
  | None => Ok ir
  | Some v =>
      do items <- (match v with
                   | VStr s => Ok (map VStr (split_ws s))
                   | VList l => Ok l
                   | _ => Err EType
                   end);
      let old := match dget (snd kk) result with Some (VList l) => l | _ => [] end in
      Ok (ddel (fst kk) i, dset (snd kk) (VList (old ++ items)%list) result)
  end.
Definition netjson_dns (i result : dict) : res (dict * dict) :=
  foldM netjson_dns_one (i, result) [("dns", "dns_servers"); ("dns_search", "dns_search")].

Section Backward.
  Variable dsa : bool.
  (** interfaces.py:610-632 [to_netjson_loop]; the accumulator is the devices and
      the result *)
  Definition interface_bwd (b : dict) (acc : devices * dict) (i : nat) : res (devices * dict) :=
    let (devs, result) := acc in
    let type := dgetN ".type" b in
    if py_eq type (VStr "globals") then
      let u := dgetN "ula_prefix" b in
      if truthy u then
        do name <- dgetE ".name" b;
        let g := [("ula_prefix", u)] in
        Ok (devs, [("general", VDict (set_unless "globals_id" name (VStr "globals") g))])
      else Ok acc
    else if py_eq type (VStr "interface") then
      do od <- (if dsa then netjson_dsa devs b else Ok (Some b, devs));
      let (o, devs) := od in
      match o with
      | None | Some [] => Ok (devs, result)
      | Some b =>
          if py_eq (dgetN "type" b) (VStr "device") || truthy (dgetN "bridge_21" b)
          then Ok (devs, result)
          else
            do iface <- netjson_interface b;
            match iface with
            | [] => Ok (devs, result)
            | _ => do ir <- netjson_dns iface result;
                   Ok (devs, add_blocks "interfaces" [fst ir] (snd ir))
            end
      end
    else Ok acc.
  (** interfaces.py:585-608 [__add_fallback_interfaces], one device.  The device has
      no ".name", [None.startswith] is an AttributeError. *)
  Definition fallback_one (acc : devices * dict) (k : string) : res (devices * dict) :=
    let (devs, result) := acc in
    let d := match dget k devs with Some d => d | None => [] end in
    if truthy (dgetN "consumed" d) then Ok acc
    else
      match k with
      | String ":" name =>
          do n <- as_str (pop_or ".name" (VStr name) d);
          let n := if startswith "device_" n then sdrop 7 n else n in
          interface_bwd [(".type", VStr "interface"); (".name", VStr n); ("device", VStr name);
                         ("proto", VStr "none")] acc 1
      | _ => Err EAttr
      end.
  (** interfaces.py:550-553 *)
  Definition uci_types : list string := ["interface"; "globals"].
  Definition skip_non_device (b : dict) : bool :=
    skip_block uci_types b
    || negb (truthy (dgetN "bridge_21" b)) && negb (py_eq (dgetN "type" b) (VStr "device")).
  (** interfaces.py:555-560.  Simplification: a "device" that is not a text is not
      skipped. *)
  Definition skip_vlan (devs : devices) (b : dict) : bool :=
    skip_block uci_types b
    || match dget "device" b with
       | Some (VStr d) => contains "." d && dmem (":" +++ hd EmptyString (split_char "." d)) devs
       | _ => false
       end.
  (** interfaces.py:504-542 [to_netjson] *)
  Definition interfaces_bwd (inter : dict) : dict * res dict :=
    match dget "network" inter with
    | None => (inter, Err (EKey "network"))
    | Some v =>
        match as_list v with
        | Err e => (inter, Err e)
        | Ok l =>
            let (l1, r1) := bwd_loop skip_non_device device_block l 0 l [] in
            match r1 with
            | Err e => (dset "network" (VList l1) inter, Err e)
            | Ok devs =>
                let (l2, r2) := bwd_loop (skip_vlan devs) interface_bwd l1 0 l1 (devs, []) in
                match (do a <- r2; foldM fallback_one a (dkeys (fst a))) with
                | Err e => (dset "network" (VList l2) inter, Err e)
                | Ok a =>
                    let (l3, r3) := bwd_loop (skip_block uci_types) interface_bwd l2 0 l2 a in
                    (dset "network" (VList l3) inter, do a <- r3; Ok (snd a))
                end
            end
        end
    end.
End Backward.
Definition interfaces (oid : oracle) (dsa : bool) : converter :=
  simple_converter "interfaces" "network" (interfaces_fwd oid dsa) (interfaces_bwd dsa).
