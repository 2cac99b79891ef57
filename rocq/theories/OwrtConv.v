(** * OwrtConv: the converters of the OpenWrt backend that do not deal with
    interfaces (backends/openwrt/converters: general, ntp, led, routes, rules,
    switch, wireguard_peers, default). *)
From Verif Require Import PyBase Backend Conv Ip Timezones.

(** ** General (general.py) *)

(** general.py:37-46 [__intermediate_ula]: the globals section and the rest *)
Definition general_ula (g : dict) : option dict * dict :=
  match dget "ula_prefix" g with
  | Some u =>
      let name := pop_or "globals_id" (VStr "globals") g in
      (Some (ssort [(".type", VStr "globals"); (".name", name); ("ula_prefix", u)]),
       ddel "ula_prefix" (ddel "globals_id" g))
  | None => (None, g)
  end.
Section General.
  (** the tables of timezones.py *)
  Variable tz tz_rev : list (string * string).
  (** [table[key]]; a list or dict key raises TypeError *)
  Definition lookup (table : list (string * string)) (v : val) : res val :=
    match v with
    | VStr s => match dget s table with Some z => Ok (VStr z) | None => Err (EKey s) end
    | VList _ | VDict _ => Err EType
    | _ => Err (EKey (py_repr v))
    end.
  (** general.py:20-35 [__intermediate_system] *)
  Definition general_system (g : dict) : res (option dict) :=
    match g with
    | [] => Ok None
    | _ =>
        let name := pop_or "id" (VStr "system") g in
        let g := ddel "id" g in
        let hostname := pop_or "hostname" (VStr "OpenWRT") g in
        let g := dupdate g [(".type", VStr "system"); (".name", name); ("hostname", hostname)] in
        match dget "timezone" g with
        | None => Ok (Some (ssort g))
        | Some t =>
            do z <- lookup tz t;
            Ok (Some (ssort (dset "timezone" z (dset "zonename" t g))))
        end
    end.
  (** general.py:10-18 *)
  Definition general_fwd_block (g result : dict) : res dict :=
    let (network, g) := general_ula g in
    do system <- general_system g;
    let result := match system with
                  | Some s => dset "system" (VList [VDict s]) result
                  | None => result end in
    Ok (match network with
        | Some n => dset "network" (VList [VDict n]) result
        | None => result end).
  (** general.py:52-70 [__netjson_system] *)
  Definition general_back (s : dict) : res dict :=
    do _ <- dgetE ".type" s;
    let s := ddel ".type" s in
    do name <- dgetE ".name" s;
    let s := set_unless "id" name (VStr "system") (ddel ".name" s) in
    let hostname := pop_or "hostname" VNull s in
    let zonename := pop_or "zonename" VNull s in
    let timezone := pop_or "timezone" VNull s in
    let s := ddel "timezone" (ddel "zonename" (ddel "hostname" s)) in
    do t <- (if truthy zonename then Ok zonename
             else if truthy timezone then lookup tz_rev timezone else Ok VNull);
    let s := if truthy hostname then dset "hostname" hostname s else s in
    Ok (if truthy t then dset "timezone" t s else s).
  (** general.py:48-50 *)
  Definition general_bwd_block (b result : dict) (i : nat) : res dict :=
    do g <- general_back b; Ok (dset "general" (VDict g) result).
  Definition general : converter :=
    simple_converter "general" "system"
      (fwd_single "general" general_fwd_block)
      (bwd_list "system" ["system"] (fun l => l) general_bwd_block []).
End General.

(** ** Ntp (ntp.py) *)

(** openwrt/schema.py:1087-1100 *)
Definition ntp_props := [("enabled", JBool); ("enable_server", JBool)].
(** ntp.py:11-16 *)
Definition ntp_fwd_block (b result : dict) : res dict :=
  match b with
  | [] => Ok result
  | _ =>
      let name := pop_or "id" (VStr "ntp") b in
      let b := dupdate (ddel "id" b) [(".type", VStr "timeserver"); (".name", name)] in
      Ok (dset "system" (VList [VDict (ssort b)]) result)
  end.
(** ntp.py:22-27 *)
Definition ntp_back (b : dict) : res dict :=
  do _ <- dgetE ".type" b;
  let b := ddel ".type" b in
  do name <- dgetE ".name" b;
  type_cast ntp_props (set_unless "id" name (VStr "ntp") (ddel ".name" b)).
(** ntp.py:18-20 *)
Definition ntp_bwd_block (b result : dict) (i : nat) : res dict :=
  do n <- ntp_back b; Ok (dset "ntp" (VDict n) result).
Definition ntp : converter :=
  simple_converter "ntp" "system" (fwd_single "ntp" ntp_fwd_block)
    (bwd_list "system" ["timeserver"] (fun l => l) ntp_bwd_block []).

(** ** Led (led.py) *)

(** openwrt/schema.py:1183-1196 *)
Definition led_props := [("default", JBool); ("delayoff", JInt); ("delayon", JInt); ("interval", JInt)].
(** led.py:22-23 *)
Definition led_auto_name (b : dict) : res val :=
  do v <- dgetE "name" b; do s <- as_str v; Ok (VStr ("led_" +++ lower s)).
(** led.py:11-20: [or] is lazy *)
Definition led_section (b : dict) : res dict :=
  let id := pop_or "id" VNull b in
  let b := ddel "id" b in
  do name <- (if truthy id then Ok id else led_auto_name b);
  Ok (ssort (dupdate b [(".type", VStr "led"); (".name", name)])).
Definition led_fwd_block (b result : dict) (i : nat) : res dict :=
  do s <- led_section b; Ok (add_blocks "system" [s] result).
(** led.py:30-35 *)
Definition led_back (b : dict) : res dict :=
  do _ <- dgetE ".type" b;
  let b := ddel ".type" b in
  do name <- dgetE ".name" b;
  let b := ddel ".name" b in
  do auto <- led_auto_name b;
  type_cast led_props (set_unless "id" name auto b).
(** led.py:25-28 *)
Definition led_bwd_block (b result : dict) (i : nat) : res dict :=
  do l <- led_back b; Ok (add_blocks "led" [l] result).
Definition led : converter :=
  simple_converter "led" "system" (fwd_list "led" led_fwd_block)
    (bwd_list "system" ["led"] (fun l => l) led_bwd_block []).

(** ** Routes (routes.py) *)

(** schema.py, routes items, and openwrt/schema.py:979-1014 *)
Definition route_props := [("cost", JInt); ("onlink", JBool)].
(** [ip_interface(v)], [ip_network(v)]: ValueError.  Simplification: values that
    are not strings are ValueErrors too. *)
Definition interface_of (v : val) : res ipif :=
  match v with
  | VStr s => match ip_interface s with Some i => Ok i | None => Err EValue end
  | _ => Err EValue
  end.
Definition network_of (v : val) : res ipif :=
  match v with
  | VStr s => match ip_network s with Some i => Ok i | None => Err EValue end
  | _ => Err EValue
  end.
(** routes.py:36-37 *)
Definition route_auto_name (i : nat) : val := VStr ("route" +++ string_of_nat i).
(** routes.py:19-34 [__intermediate_route] *)
Definition route_section (r : dict) (i : nat) : res dict :=
  do dest <- dgetE "destination" r;
  let r := ddel "destination" r in
  do net <- interface_of dest;
  let target := if ip_six net then if_network net else if_ip net in
  let type := VStr (if ip_six net then "route6" else "route") in
  let name := vor (pop_or "name" VNull r) (route_auto_name i) in
  let r := ddel "name" r in
  do device <- dgetE "device" r;
  let r := ddel "device" r in
  do next <- dgetE "next" r;
  let r := ddel "next" r in
  do cost <- dgetE "cost" r;
  let r := dupdate (ddel "cost" r)
    [(".type", type); (".name", name); ("interface", device); ("target", VStr target);
     ("gateway", next); ("metric", cost)] in
  Ok (ssort (if ip_six net then r else dset "netmask" (VStr (if_netmask net)) r)).
(** routes.py:13-17 *)
Definition route_fwd_block (b result : dict) (i : nat) : res dict :=
  do s <- route_section b i; Ok (add_blocks "network" [s] result).
(** routes.py:47-66 [__netjson_route] *)
Definition route_back (r : dict) (i : nat) : res dict :=
  do name <- dgetE ".name" r;
  let r := set_unless "name" name (route_auto_name i) (ddel ".name" r) in
  do target <- dgetE "target" r;
  let r := ddel "target" r in
  let network := match dget "netmask" r with
                 | Some m => VStr (py_str target +++ "/" +++ py_str m)
                 | None => target
                 end in
  let r := ddel "netmask" r in
  do device <- dgetE "interface" r;
  let r := ddel "interface" r in
  do net <- interface_of network;
  let next := pop_or "gateway" (VStr EmptyString) r in
  let r := ddel "gateway" r in
  let cost := pop_or "metric" (VInt 0) r in
  let r := dupdate (ddel "metric" r)
    [("device", device); ("destination", VStr (if_str net)); ("next", next); ("cost", cost)] in
  do _ <- dgetE ".type" r;
  type_cast route_props (ddel ".type" r).
(** routes.py:39-43 *)
Definition route_bwd_block (b result : dict) (i : nat) : res dict :=
  do r <- route_back b i; Ok (add_blocks "routes" [r] result).
Definition routes : converter :=
  simple_converter "routes" "network" (fwd_list "routes" route_fwd_block)
    (bwd_list "network" ["route"; "route6"] (fun l => l) route_bwd_block []).

(** ** Rules (rules.py) *)

(** openwrt/schema.py:1018-1080 *)
Definition rule_props := [("tos", JInt); ("goto", JInt); ("invert", JBool)].
(** rules.py:37-38 *)
Definition rule_auto_name (i : nat) : val := VStr ("rule" +++ string_of_nat i).
Definition opt_network (k : string) (d : dict) : res (option ipif) :=
  match dget k d with None => Ok None | Some v => do n <- network_of v; Ok (Some n) end.
(** rules.py:18-35 [__intermediate_rule] *)
Definition rule_section (r : dict) (i : nat) : res dict :=
  do src <- opt_network "src" r;
  do dest <- opt_network "dest" r;
  let six := match dest with
             | Some n => ip_six n
             | None => match src with Some n => ip_six n | None => false end
             end in
  let name := vor (pop_or "name" VNull r) (rule_auto_name i) in
  Ok (ssort (dupdate (ddel "name" r) [(".type", VStr (if six then "rule6" else "rule")); (".name", name)])).
(** rules.py:12-16 *)
Definition rule_fwd_block (b result : dict) (i : nat) : res dict :=
  do s <- rule_section b i; Ok (add_blocks "network" [s] result).
(** rules.py:46-51 [__netjson_rule] *)
Definition rule_back (r : dict) (i : nat) : res dict :=
  do name <- dgetE ".name" r;
  let r := set_unless "name" name (rule_auto_name i) (ddel ".name" r) in
  do _ <- dgetE ".type" r;
  type_cast rule_props (ddel ".type" r).
(** rules.py:40-44 *)
Definition rule_bwd_block (b result : dict) (i : nat) : res dict :=
  do r <- rule_back b i; Ok (add_blocks "ip_rules" [r] result).
Definition rules : converter :=
  simple_converter "ip_rules" "network" (fwd_list "ip_rules" rule_fwd_block)
    (bwd_list "network" ["rule"; "rule6"] (fun l => l) rule_bwd_block []).

(** ** Switch (switch.py) *)

(** openwrt/schema.py:1136-1170 *)
Definition switch_props := [("reset", JBool); ("enable_vlan", JBool)].
Definition vlan_props := [("vlan", JInt)].
(** switch.py:62-63: [format] of the two values *)
Definition vlan_auto_name (name : val) (i : nat) : val :=
  VStr (py_str name +++ "_vlan" +++ string_of_nat i).
(** switch.py:45-57, one VLAN *)
Definition vlan_section (switch_name : val) (v : dict) (i : nat) : res dict :=
  let name := vor (pop_or "id" VNull v) (vlan_auto_name switch_name i) in
  let v := dupdate (ddel "id" v) [(".type", VStr "switch_vlan"); (".name", name)] in
  do v <- (match dget "vid" v with
           | Some _ => Ok v
           | None => do n <- dgetE "vlan" v; Ok (dset "vid" n v)
           end);
  Ok (ssort v).
Fixpoint vlan_sections (switch_name : val) (l : list val) (i : nat) : res (list dict) :=
  match l with
  | [] => Ok []
  | v :: t =>
      do d <- as_dict v;
      do s <- vlan_section switch_name d i;
      do r <- vlan_sections switch_name t (S i);
      Ok (s :: r)
  end.
(** switch.py:38-60 [__intermediate_switch]: the switch and its VLANs *)
Definition switch_sections (s : dict) : res (list dict) :=
  let id := pop_or "id" VNull s in
  let s := ddel "id" s in
  do name <- (if truthy id then Ok id else dgetE "name" s);
  let s := dupdate s [(".type", VStr "switch"); (".name", name)] in
  do vs <- dgetE "vlan" s;
  do l <- as_list vs;
  do vlans <- (match l with
               | [] => Ok []
               | _ => do n <- dgetE "name" s; vlan_sections n l 1
               end);
  Ok (ssort (ddel "vlan" s) :: vlans).
(** switch.py:20-24 *)
Definition switch_fwd_block (b result : dict) (i : nat) : res dict :=
  do ss <- switch_sections b; Ok (add_blocks "network" ss result).
(** switch.py:26-36 [to_netjson_clean]: VLANs last *)
Definition is_vlan_section (v : val) : bool :=
  match v with VDict d => type_in ["switch_vlan"] d | _ => false end.
Definition switch_clean (l : list val) : list val :=
  filter (fun v => negb (is_vlan_section v)) l ++ filter is_vlan_section l.
(** switch.py:13-18: [_vlan_counter], [_switch_map] and the switches of
    [result]; the map holds positions, because its values are the same objects
    as the elements of the result. *)
Record switch_state := { sw_list : list dict; sw_map : list (string * nat); sw_count : nat }.
Definition as_key (v : val) : res string :=
  match v with VStr s => Ok s | VList _ | VDict _ => Err EType | _ => Ok (py_repr v) end.
(** switch.py:90-98 [__netjson_vid] *)
Definition int_of (v : val) : res val :=
  match v with
  | VInt _ => Ok v
  | VBool b => Ok (VInt (Z.b2z b))
  | VStr s => match int_of_string s with Some z => Ok (VInt z) | None => Err EValue end
  | _ => Err EType
  end.
Definition vlan_vid (v : dict) : res dict :=
  match dget "vid" v with
  | Some x =>
      do z <- int_of x;
      do n <- dgetE "vlan" v;
      Ok (if py_eq z n then ddel "vid" v else dset "vid" z v)
  | None => Ok (dset "vid" VNull v)
  end.
Fixpoint update_nth {A} (n : nat) (f : A -> res A) (l : list A) : res (list A) :=
  match l, n with
  | [], _ => Err EIndex
  | x :: t, O => do y <- f x; Ok (y :: t)
  | x :: t, S n' => do t' <- update_nth n' f t; Ok (x :: t')
  end.
(** switch.py:85-88: append the VLAN to the switch; [append] is an
    AttributeError when the switch already has a text option "vlan". *)
Definition attach_vlan (v : dict) (s : dict) : res dict :=
  match dget "vlan" s with
  | None => Ok (dset "vlan" (VList [VDict v]) s)
  | Some (VList l) => Ok (dset "vlan" (VList (l ++ [VDict v])) s)
  | Some _ => Err EAttr
  end.
(** switch.py:65-88 [to_netjson_loop] *)
Definition switch_bwd_block (b : dict) (st : switch_state) (i : nat) : res switch_state :=
  do name <- dgetE ".name" b;
  do type <- dgetE ".type" b;
  let b := ddel ".type" (ddel ".name" b) in
  if py_eq type (VStr "switch") then
    do n <- dgetE "name" b;
    do s <- type_cast switch_props (set_unless "id" name n b);
    do key <- (do n' <- dgetE "name" s; as_key n');
    Ok {| sw_list := sw_list st ++ [s];
          sw_map := dset key (length (sw_list st)) (sw_map st);
          sw_count := O |}
  else
    let count := S (sw_count st) in
    do device <- dgetE "device" b;
    do v <- type_cast vlan_props (set_unless "id" name (vlan_auto_name device count) b);
    do v <- vlan_vid v;
    do dev <- dgetE "device" v;
    do key <- as_key dev;
    match dget key (sw_map st) with
    | None => Err (EKey key)
    | Some pos => do l <- update_nth pos (attach_vlan v) (sw_list st);
                  Ok {| sw_list := l; sw_map := sw_map st; sw_count := count |}
    end.
(** The result dict has the key "switch" as soon as one block was converted. *)
Definition switch_bwd (inter : dict) : dict * res dict :=
  let (inter', r) := bwd_list "network" ["switch"; "switch_vlan"] switch_clean switch_bwd_block
                       {| sw_list := []; sw_map := []; sw_count := O |} inter in
  (inter', do st <- r;
           Ok (match sw_list st with [] => [] | l => [("switch", VList (map VDict l))] end)).
Definition switch : converter :=
  simple_converter "switch" "network" (fwd_list "switch" switch_fwd_block) switch_bwd.

(** ** WireguardPeers (wireguard_peers.py) *)

(** openwrt/schema.py:1203-1256 and wireguard/schema.py *)
Definition peer_props := [("endpoint_port", JInt); ("persistent_keepalive", JInt); ("route_allowed_ips", JBool)].
(** wireguard_peers.py:19-28 [__intermediate_peer] *)
Definition peer_section (p : dict) (i : nat) : res dict :=
  do v <- dgetE "interface" p;
  do s <- as_str v;
  let p := ddel "interface" p in
  let interface := replace "-" "_" s in
  let name := "wgpeer_" +++ interface in
  let name := if (1 <? i)%nat then name +++ "_" +++ string_of_nat i else name in
  let p := dupdate p [(".type", VStr ("wireguard_" +++ interface)); (".name", VStr name)] in
  Ok (ssort (if negb (truthy (dgetN "endpoint_host" p)) && ("endpoint_port" in? p)
             then ddel "endpoint_port" p else p)).
(** wireguard_peers.py:14-17 *)
Definition peer_fwd_block (b result : dict) (i : nat) : res dict :=
  do s <- peer_section b i; Ok (add_blocks "network" [s] result).
(** wireguard_peers.py:35-39 [__netjson_peer] *)
Definition peer_back (p : dict) : res dict :=
  do _ <- dgetE ".name" p;
  let p := ddel ".name" p in
  do t <- dgetE ".type" p;
  do t <- as_str t;
  type_cast peer_props (dset "interface" (VStr (replace "wireguard_" EmptyString t)) (ddel ".type" p)).
(** wireguard_peers.py:30-33 *)
Definition peer_bwd_block (b result : dict) (i : nat) : res dict :=
  do p <- peer_back b; Ok (add_blocks "wireguard_peers" [p] result).
(** wireguard_peers.py:12: [_uci_types] is None, no section type is skipped *)
Definition wireguard_peers : converter :=
  simple_converter "wireguard_peers" "network" (fwd_list "wireguard_peers" peer_fwd_block)
    (bwd_list "network" [] (fun l => l) peer_bwd_block []).

(** ** Default (default.py) *)

(** default.py:40-49: the block after the conversion, or the exception and the
    block as it is left.  [block.pop(k, default)] evaluates the default first. *)
Definition custom_block (b : dict) (type : val) (i : nat) : dict * res unit :=
  let b := dset ".type" type (ddel "config_name" b) in
  let auto := VStr (py_str type +++ "_" +++ string_of_nat i) in
  let name := pop_or "config_value" auto b in
  let b := dset ".name" name (ddel "config_value" b) in
  match name with
  | VStr s => (dset ".name" (VStr (uci_name s)) b, Ok tt)
  | _ => (b, Err EAttr)
  end.
(** default.py:28-51: the blocks of one package; the first list is what the
    loop leaves in the configuration, the result the sections. *)
Fixpoint custom_blocks (l : list val) (i : nat) : list val * res (list val) :=
  match l with
  | [] => ([], Ok [])
  | v :: t =>
      match v with
      | VDict b =>
          match dget "config_name" b with
          | Some type =>
              let (b', r) := custom_block b type i in
              match r with
              | Err e => (VDict b' :: t, Err e)
              | Ok _ =>
                  let (t', r') := custom_blocks t (S i) in
                  (VDict b' :: t', do s <- r'; Ok (VDict (ssort b') :: s))
              end
          | None => let (t', r') := custom_blocks t i in (v :: t', r')
          end
      | _ => let (t', r') := custom_blocks t i in (v :: t', r')
      end
  end.
Section Default.
  (** the keys of the backend's schema *)
  Variable ignore : list string.
  Definition ignored (k : string) : bool := existsb (String.eqb k) ignore.
  (** default.py:20-53, the loop over the configuration *)
  Fixpoint custom_packages (config : dict) : dict * res dict :=
    match config with
    | [] => ([], Ok [])
    | (k, v) :: t =>
        match v with
        | VList l =>
            if ignored k then let (t', r) := custom_packages t in ((k, v) :: t', r)
            else
              let (l', r) := custom_blocks l 1 in
              match r with
              | Err e => ((k, VList l') :: t, Err e)
              | Ok ss =>
                  let (t', r') := custom_packages t in
                  ((k, VList l') :: t',
                   do p <- r'; Ok (match ss with [] => p | _ => (k, VList ss) :: p end))
              end
        | _ => let (t', r) := custom_packages t in ((k, v) :: t', r)
        end
    end.
  (** default.py:20-56 [to_intermediate] *)
  Definition default_fwd (config : dict) : dict * res dict :=
    let (config', r) := custom_packages config in (config', do p <- r; Ok (ssort p)).
End Default.
(** default.py:64-72, one block *)
Definition custom_back (b : dict) (i : nat) : res dict :=
  do name <- dgetE ".name" b;
  let b := ddel ".name" b in
  do type <- dgetE ".type" b;
  let b := ddel ".type" b in
  let b := if py_eq name (VStr (py_str type +++ "_" +++ string_of_nat i)) then b
           else dset "config_value" name b in
  Ok (dset "config_name" type b).
Fixpoint custom_back_list (l : list val) (i : nat) : res (list val) :=
  match l with
  | [] => Ok []
  | v :: t => do b <- as_dict v;
              do b' <- custom_back b i;
              do t' <- custom_back_list t (S i);
              Ok (VDict b' :: t')
  end.
(** default.py:58-73 [to_netjson].  Simplification: the changes made to the
    intermediate data (which are restored after the conversion) are not
    reported. *)
Fixpoint default_bwd (inter : dict) : res dict :=
  match inter with
  | [] => Ok []
  | (k, v) :: t =>
      if truthy v
      then do l <- as_list v;
           do bs <- custom_back_list l 1;
           do r <- default_bwd t;
           Ok ((k, VList bs) :: r)
      else default_bwd t
  end.
Definition default (ignore : list string) : converter :=
  {| c_fwd_run := fun _ => true;
     c_fwd := fun config _ => default_fwd ignore config;
     c_bwd_run := fun _ => true;
     c_bwd := fun _ config inter => ((config, inter), default_bwd inter) |}.
