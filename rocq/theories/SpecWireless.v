(** * SpecWireless: wireless interfaces, in NetJSON and in UCI. *)
From Verif Require Import PyBase Conv SpecUci SpecConv SpecDevice SpecShapes SpecEncryption.

Definition modes : list (string * string) :=
  [("access_point", "ap"); ("station", "sta"); ("adhoc", "adhoc"); ("monitor", "monitor"); ("802.11s", "mesh")].
Definition wifi_fields : list (string * jtype) :=
  ("reassociation_deadline", JInt) ::
  map (fun k => (k, JBool))
    ["hidden"; "wds"; "ft_over_ds"; "ft_psk_generate_local"; "ieee80211r"; "rsn_preauth"; "isolate"; "doth"; "wmm";
     "short_preamble"; "start_disabled"; "default_disabled"].
Definition roaming : list string := ["ft_over_ds"; "ft_psk_generate_local"; "nasid"; "reassociation_deadline"].
Definition distances : list (string * string) :=
  [("ack_distance", "distance"); ("rts_threshold", "rts"); ("frag_threshold", "frag")].
Definition encryption_of (w : dict) : dict := match dget "encryption" w with Some (VDict e) => e | _ => [] end.
Definition is_ap (w : dict) : bool := match dget "mode" w with Some (VStr "access_point") => true | _ => false end.
(** Options of the section that belong to the encryption *)
Definition encryption_names : list string :=
  ["protocol"; "cipher"; "key"; "key1"; "auth_server"; "auth_port"; "auth_secret"; "acct_port"; "acct_server_port"] ++
  encryption_options ++ wps_options.
(** The wireless part [w] of the interface [n].  [net] is the network of the
    interface, [addressed] says whether it has addresses, [bridges] are the
    sections of the bridges it is a member of.  A wireless interface that names no
    networks is in those of its bridges, else in its own if it has addresses; the
    networks it names are others. *)
Definition wifi_ok (n : string) (net : option val) (addressed : bool) (bridges : list string) (w : dict) : Prop :=
  NoDup (dkeys w) /\
  text_at "radio" w (fun r => r <> EmptyString /\ plain r) /\
  text_at "mode" w (fun m => dmem m modes = true) /\
  match dget "id" w with None => bare (identifier n) | Some v => explicit ("wifi_" +++ identifier n) v end /\
  (forall k, In k (map fst distances) -> optional k w (fun v => exists z, v = VInt z /\ (0 < z)%Z)) /\
  match dget "network" w with
  | None => bridges = [] -> addressed = true -> identifier n = n
  | Some v => exists l, v = VList (map VStr l) /\ l <> [] /\ l <> bridges /\ join " " l <> n /\ text (join " " l) <> net /\
                forall x, In x l -> word x /\ identifier x = x
  end /\
  optional "encryption" w (fun v => exists e, v = VDict e /\ encryption_ok (is_ap w) e /\ none_of encryption_names w) /\
  (dget "ieee80211r" w = Some (VBool false) -> none_of roaming w /\ dget "nasid" (encryption_of w) = None) /\
  none_of ("ifname" :: "disabled" :: "device" :: "macaddr" :: map snd distances) w /\
  fields_survive wifi_fields (["radio"; "mode"; "id"; "network"; "encryption"] ++ map fst distances) w.
Definition wifi_name (n : string) (w : dict) : string := name_or "id" ("wifi_" +++ identifier n) w.
Definition networks (n : string) (addressed : bool) (bridges : list string) (w : dict) : list string :=
  match dget "network" w with
  | Some (VList l) => flat_map (fun v => match v with VStr s => [s] | _ => [] end) l
  | _ => match bridges with [] => if addressed then [n] else [] | _ => bridges end
  end.
(** The section of the wireless interface [i], whose wireless part is [w] *)
Definition wifi_shown (n : string) (addressed : bool) (bridges : list string) (i w s : dict) : Prop :=
  shows s (encryption_of w ++ w)
    ([(".type", text "wifi-iface"); (".name", text (wifi_name n w)); ("ifname", text n);
      ("device", dget "radio" w);
      ("mode", match dget "mode" w with Some (VStr m) => option_map VStr (dget m modes) | _ => None end);
      ("network", text (join " " (networks n addressed bridges w)));
      ("macaddr", dget "mac" i); ("disabled", Some (dgetN "disabled" i)); ("radio", None); ("id", None)] ++
     map (fun kk => (snd kk, dget (fst kk) w)) distances ++ map (fun kk => (fst kk, None)) distances ++
     encryption_own (is_ap w) (encryption_of w)).
