(** * SpecZeroTier: ZeroTier VPNs of an OpenWrt template, what their UCI sections
    show and what parsing makes of them. *)
From Verif Require Import PyBase Conv SpecUci SpecConv SpecDevice SpecShapes SpecClient.

(** The last six characters, all of a shorter text *)
Definition last_six (s : string) : string := substring (String.length s - 6) 6 s.
(** The interface name that parsing gives to the network with this id *)
Definition derived_name (id : string) : string := "owzt" +++ last_six id.

(** A network: its id, its interface, flags and further texts *)
Definition network_flags : list (string * jtype) :=
  map (fun k => (k, JBool)) ["allow_managed"; "allow_global"; "allow_default"; "allow_dns"].
Definition zt_network_ok (n : dict) : Prop :=
  NoDup (dkeys n) /\ text_at "id" n word /\ text_at "ifname" n (fun i => word i /\ identifier i = i) /\
  fields_survive network_flags ["ifname"] n.
(** A VPN: a name that is also the name of its section, at least one network, and
    settings that UCI text carries *)
Definition zt_vpn_ok (v : dict) : Prop :=
  NoDup (dkeys v) /\
  text_at "name" v (fun n => word n /\ identifier n = n) /\
  (exists l, dget "networks" v = Some (VList (map VDict l)) /\ l <> [] /\ forall n, In n l -> zt_network_ok n) /\
  optional "disabled" v (fun x => exists b, x = VBool b) /\
  none_of ["enabled"; "join"; "local_conf"; "client_options"] v /\
  fields_survive [("port", JInt)] ["name"; "networks"; "disabled"] v.
(** A template with ZeroTier VPNs, and files, and nothing else *)
Definition zt_template (config : dict) : Prop :=
  NoDup (dkeys config) /\
  (exists l, dget "zerotier" config = Some (VList (map VDict l)) /\ l <> [] /\ forall v, In v l -> zt_vpn_ok v) /\
  optional "files" config (fun x => exists l, x = VList (map VDict l) /\
    forall f, In f l -> (exists p, dget "path" f = Some (VStr p)) /\ (exists c, dget "contents" f = Some (VStr c))) /\
  optional "type" config (fun x => exists t, x = VStr t) /\
  forall k, dmem k config = true -> In k ["type"; "files"; "zerotier"].

(** ** What the sections show: one for the VPN, then one for each network *)
Definition is_disabled (v : dict) : bool := match dget "disabled" v with Some (VBool b) => b | _ => false end.
Definition given_or (k : string) (default : val) (v : dict) : option val :=
  Some (match dget k v with Some x => x | None => default end).
Definition network_id (n : dict) : string := name_or "id" EmptyString n.
Definition zt_networks (v : dict) : list dict := objects "networks" v.
Definition zt_vpn_section (v s : dict) : Prop :=
  shows s v [(".type", text "zerotier"); (".name", dget "name" v); ("name", None);
             ("enabled", Some (VBool (negb (is_disabled v)))); ("disabled", None);
             ("join", Some (VList (map (fun n => VStr (network_id n)) (zt_networks v)))); ("networks", None);
             ("config_path", given_or "config_path" (VStr "/etc/openwisp/zerotier") v);
             ("copy_config_path", given_or "copy_config_path" (VStr "1") v);
             ("local_conf", dget "local_conf_path" v)].
Definition zt_network_section (n s : dict) : Prop :=
  shows s n [(".type", text "network"); (".name", dget "ifname" n); ("ifname", None)].
Definition zt_shown (v : dict) (ss : list dict) : Prop :=
  exists s ns, ss = s :: ns /\ zt_vpn_section v s /\ aligned (fun _ => zt_network_section) (zt_networks v) ns.

(** ** What parsing gives *)
(** A network known only from its id *)
Definition only_joined (n : dict) : dict := [("id", VStr (network_id n)); ("ifname", VStr (derived_name (network_id n)))].
(** A network with its options; its interface name is lost. *)
Definition with_options (n n' : dict) : Prop := shows n' n [("ifname", text (derived_name (network_id n)))].
(** Each VPN has its settings, with the defaults written out.  It has its networks
    without options; the first VPN has in addition the networks of all the VPNs,
    with their options. *)
Definition zt_read_back (config : dict) (i : nat) (v v' : dict) : Prop :=
  exists more,
    aligned (fun _ => with_options) (if Nat.eqb i 1 then flat_map zt_networks (objects "zerotier" config) else []) more /\
    shows v' v [("disabled", Some (VBool (is_disabled v)));
                ("config_path", given_or "config_path" (VStr "/etc/openwisp/zerotier") v);
                ("copy_config_path", given_or "copy_config_path" (VStr "1") v);
                ("networks", Some (VList (map VDict (map only_joined (zt_networks v) ++ more))))].

(** ** The files of the configuration after rendering *)
Definition files_at (p : string) (config : dict) : list dict :=
  filter (fun f => String.eqb (name_or "path" EmptyString f) p) (objects "files" config).
(** The device map of a VPN *)
Definition map_path (v : dict) : string := name_or "config_path" "/etc/openwisp/zerotier" v +++ "/devicemap".
Definition device_map (v : dict) : string :=
  "# network_id=interface_name" +++ NL +++
  concat_all (map (fun n => network_id n +++ "=" +++ name_or "ifname" EmptyString n +++ NL) (zt_networks v)).
Definition maps_at (p : string) (config : dict) : list string :=
  map device_map (filter (fun v => String.eqb (map_path v) p) (objects "zerotier" config)).
(** One file at each path: the last of those given; or, where VPNs have their maps,
    these, the last one first, then what was given, one after another. *)
Definition files_after (p : string) (config : dict) : list dict :=
  match maps_at p config with
  | [] => match rev (files_at p config) with [] => [] | f :: _ => [f] end
  | ms => [[("path", VStr p); ("mode", VStr "0644");
            ("contents", VStr (join NL (rev ms ++ map (name_or "contents" EmptyString) (files_at p config))))]]
  end.
