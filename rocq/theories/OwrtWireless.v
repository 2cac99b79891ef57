(** * OwrtWireless: radios and wireless interfaces of the OpenWrt backend
    (openwrt/converters/radios.py, wireless.py; channels.py). *)
From Verif Require Import PyBase Backend Conv.

(** ** Radios (radios.py) *)

(** channels.py:5-14: [list(range(a, b, step))] as the values [a + step * i] *)
Definition steps (a step n : nat) : list val :=
  map (fun i => VInt (Z.of_nat (a + step * i))) (seq 0 n).
Definition channels_2ghz : list val := steps 0 1 14.
Definition channels_5ghz : list val := (VInt 0 :: steps 36 4 8 ++ steps 100 4 12 ++ steps 149 4 8)%list.
Definition channels_6ghz : list val := (steps 37 4 8 ++ steps 101 4 12)%list.

(** openwrt/schema.py:13 *)
Definition default_radio_driver : val := VStr "mac80211".
Definition is_one_of (v : val) (l : list string) : bool := existsb (fun s => py_eq v (VStr s)) l.

(** radios.py:79-86 [__intermediate_band_from_hwmode] *)
Definition band_of_hwmode (h : val) : val :=
  if py_eq h (VStr "11a") then VStr "5g"
  else if is_one_of h ["11b"; "11g"] then VStr "2g" else VNull.
(** radios.py:45-77 [__intermediate_band]; "hwmode" and "band" are popped by the caller *)
Definition intermediate_band (hwmode band channel protocol : val) : val :=
  if truthy band then band
  else if truthy hwmode then band_of_hwmode hwmode
  else if py_eq protocol (VStr "802.11ad") then VStr "60g"
  else if is_one_of protocol ["802.11b"; "802.11g"] then VStr "2g"
  else if is_one_of protocol ["802.11a"; "802.11ac"] then VStr "5g"
  else if py_in channel channels_2ghz then VStr "2g"
  else if py_in channel channels_5ghz then VStr "5g"
  else if py_in channel channels_6ghz then VStr "6g"
  else VNull.
(** radios.py:111-128: hwmode from the protocol or the channel.  [radio.get("hwmode")]
    is None because "hwmode" has been popped.  Comparing a value that is not a
    number with 13 raises TypeError. *)
Definition hwmode_of_protocol (r : dict) : res val :=
  do protocol <- dgetE "protocol" r;
  if is_one_of protocol ["802.11a"; "802.11b"; "802.11g"] then do p <- as_str protocol; Ok (VStr (sdrop 4 p))
  else if py_eq protocol (VStr "802.11ac") then Ok (VStr "11a")
  else
    do channel <- dgetE "channel" r;
    if py_eq channel (VInt 0) then Ok VNull
    else match channel with
         | VInt z => Ok (VStr (if (z <=? 13)%Z then "11g" else "11a"))
         | VBool _ => Ok (VStr "11g")
         | _ => Err EType
         end.
(** radios.py:88-128 [__intermediate_hwmode] *)
Definition intermediate_hwmode (hwmode band : val) (r : dict) : res val :=
  if truthy hwmode then Ok hwmode
  else if py_eq band (VStr "2g")
  then do p <- dgetE "protocol" r; Ok (VStr (if py_eq p (VStr "802.11b") then "11b" else "11g"))
  else if py_eq band (VStr "5g") then Ok (VStr "11a")
  else hwmode_of_protocol r.
(** radios.py:39-43 *)
Definition set_band (dsa : bool) (r : dict) : res dict :=
  let hwmode := pop_or "hwmode" VNull r in
  let band := pop_or "band" VNull r in
  let r := ddel "band" (ddel "hwmode" r) in
  if dsa
  then Ok (dset "band" (intermediate_band hwmode band (dgetN "channel" r) (dgetN "protocol" r)) r)
  else do h <- intermediate_hwmode hwmode band r; Ok (dset "hwmode" h r).
(** radios.py:130-147 [__intermediate_htmode] *)
Definition intermediate_htmode (protocol width : val) (r : dict) : val :=
  match dget "htmode" r with
  | Some h => h
  | None =>
      if py_eq protocol (VStr "802.11n") then VStr ("HT" +++ py_str width)
      else if py_eq protocol (VStr "802.11ac") then VStr ("VHT" +++ py_str width)
      else if py_eq protocol (VStr "802.11ax") then VStr ("HE" +++ py_str width)
      else VStr "NONE"
  end.
(** [if old in d: d[new] = d.pop(old)] *)
Definition rename (old new : string) (d : dict) : dict :=
  match dget old d with Some v => dset new v (ddel old d) | None => d end.
(** radios.py:17-37 [__intermediate_radio] *)
Definition radio_section (dsa : bool) (r : dict) : res dict :=
  do name <- dgetE "name" r;
  let r := dupdate (ddel "name" r) [(".type", VStr "wifi-device"); (".name", name)] in
  let r := rename "tx_power" "txpower" r in
  let driver := pop_or "driver" default_radio_driver r in
  let r := dset "type" driver (ddel "driver" r) in
  do r <- set_band dsa r;
  do channel <- dgetE "channel" r;
  let r := if py_eq channel (VInt 0) then dset "channel" (VStr "auto") r else r in
  do protocol <- dgetE "protocol" r;
  let r := ddel "protocol" r in
  do r <- (if py_eq driver (VStr "mac80211")
           then do width <- dgetE "channel_width" r;
                let r := ddel "channel_width" r in
                Ok (dset "htmode" (intermediate_htmode protocol width r) r)
           else Ok r);
  do r <- (match dget "country" r with
           | Some c => do s <- as_str c; Ok (dset "country" (VStr (upper s)) r)
           | None => Ok r
           end);
  Ok (ssort r).
(** radios.py:11-15 *)
Definition radio_fwd_block (dsa : bool) (b result : dict) (i : nat) : res dict :=
  do s <- radio_section dsa b; Ok (add_blocks "wireless" [s] result).
(** [int(v)] *)
Definition py_int (v : val) : res Z :=
  match v with
  | VInt z => Ok z
  | VBool b => Ok (Z.b2z b)
  | VStr s => match int_of_string s with Some z => Ok z | None => Err EValue end
  | _ => Err EType
  end.
(** radios.py:168-187 [__netjson_protocol] *)
Definition netjson_protocol (dsa : bool) (r : dict) : res val :=
  do h <- as_str (dgetN "htmode" r);
  if startswith "HT" h then Ok (VStr "802.11n")
  else if startswith "VHT" h then Ok (VStr "802.11ac")
  else if startswith "HE" h then Ok (VStr "802.11ax")
  else if String.eqb h "NONE" then
    let band := dgetN "band" r in
    if dsa && truthy band then
      match band with
      | VStr b => match dget b [("2g", "802.11g"); ("5g", "802.11a"); ("60g", "802.11ad")] with
                  | Some p => Ok (VStr p)
                  | None => Err (EKey b)
                  end
      | _ => Err EType
      end
    else Ok (VStr ("802." +++ py_str (dgetN "hwmode" r)))
  else Ok VNull.
(** radios.py:189-198 [__netjson_channel]: the new dict (hwmode may be dropped)
    and the channel *)
Definition netjson_channel (r : dict) : res (dict * val) :=
  do c <- dgetE "channel" r;
  if py_eq c (VStr "auto") then Ok (r, VInt 0)
  else do z <- py_int c; Ok (ddel "hwmode" r, VInt z).
(** radios.py:200-212 [__netjson_channel_width] *)
Definition netjson_width (r : dict) : res (dict * val) :=
  do h <- dgetE "htmode" r;
  do h <- as_str h;
  let r := ddel "htmode" r in
  if String.eqb h "NONE" then Ok (r, VInt 20)
  else
    let w := replace "HE" EmptyString (replace "HT" EmptyString (replace "VHT" EmptyString h)) in
    if contains "+" w || contains "-" w
    then do z <- py_int (VStr (sinit w)); Ok (dset "htmode" (VStr h) r, VInt z)
    else do z <- py_int (VStr w); Ok (r, VInt z).
(** radios.py:155-166 [__netjson_radio] *)
Definition radio_back (dsa : bool) (r : dict) : res dict :=
  do _ <- dgetE ".type" r;
  let r := ddel ".type" r in
  do name <- dgetE ".name" r;
  let r := dset "name" name (ddel ".name" r) in
  do r <- (match dget "txpower" r with
           | Some t => do z <- py_int t; Ok (dset "tx_power" (VInt z) (ddel "txpower" r))
           | None => Ok r
           end);
  do type <- dgetE "type" r;
  let r := dset "driver" type (ddel "type" r) in
  let r := match dget "disabled" r with
           | Some d => dset "disabled" (VBool (py_eq d (VStr "1"))) r
           | None => r
           end in
  do protocol <- netjson_protocol dsa r;
  let r := dset "protocol" protocol r in
  do rc <- netjson_channel r;
  let r := dset "channel" (snd rc) (fst rc) in
  do rw <- netjson_width r;
  Ok (dset "channel_width" (snd rw) (fst rw)).
(** radios.py:149-153 *)
Definition radio_bwd_block (dsa : bool) (b result : dict) (i : nat) : res dict :=
  do r <- radio_back dsa b; Ok (add_blocks "radios" [r] result).
Definition radios (dsa : bool) : converter :=
  simple_converter "radios" "wireless" (fwd_list "radios" (radio_fwd_block dsa))
    (bwd_list "wireless" ["wifi-device"] (fun l => l) (radio_bwd_block dsa) []).

(** ** Wireless (wireless.py) *)

Fixpoint chars (s : string) : list string :=
  match s with EmptyString => [] | String c t => String c EmptyString :: chars t end.
Definition str_key (v : val) : res string := match v with VStr s => Ok s | _ => Err EType end.
(** Iterating a value whose elements must be texts: a text is iterated by
    character. *)
Definition iter_strs (v : val) : res (list string) :=
  match v with
  | VList l => mapM str_key l
  | VStr s => Ok (chars s)
  | _ => Err EType
  end.
(** wireless.py:450-453 [__get_bridge_members]: [None] is AttributeError. *)
Definition bridge_members (dsa : bool) (i : dict) : res (option (list string)) :=
  let ports := dgetN "ports" i in
  if dsa && truthy ports then do ss <- iter_strs ports; Ok (Some ss)
  else match dgetN "ifname" i with
       | VStr s => Ok (Some (split_char " " s))
       | _ => Ok None
       end.
(** wireless.py:440-448: add the bridge to the list of one member *)
Definition bridge_add (bridge : string) (m : list (string * list string)) (member : string)
    : list (string * list string) :=
  match dget member m with
  | None => dset member [bridge] m
  | Some l => if existsb (String.eqb bridge) l then m else dset member (l ++ [bridge])%list m
  end.
(** wireless.py:427-439, one section *)
Definition track_one (dsa : bool) (m : list (string * list string)) (v : val)
    : res (list (string * list string)) :=
  do i <- as_dict v;
  if negb (py_eq (dgetN "type" i) (VStr "bridge")) then Ok m
  else
    do mem <- bridge_members dsa i;
    match mem with
    | None => Ok m
    | Some ms =>
        do n <- dgetE ".name" i;
        do n <- as_str n;
        let n := if dsa && startswith "device_" n then sdrop 7 n else n in
        Ok (fold_left (bridge_add n) ms m)
    end.
(** wireless.py:417-448 [_track_bridged_wifi] *)
Definition track_bridged (dsa : bool) (inter : dict) : res (list (string * list string)) :=
  match dget "network" inter with
  | None => Ok []
  | Some v => do l <- as_list v; foldM (track_one dsa) [] l
  end.

(** wireless.py:41-47 *)
Definition wifi_modes : list (string * string) :=
  [("access_point", "ap"); ("station", "sta"); ("adhoc", "adhoc"); ("monitor", "monitor");
   ("802.11s", "mesh")].
(** wireless.py:206-212 *)
Definition wifi_modes_back : list (string * string) :=
  [("ap", "access_point"); ("sta", "station"); ("adhoc", "adhoc"); ("monitor", "monitor");
   ("mesh", "802.11s")].
(** wireless.py:103-118 *)
Definition enc_protocols : list (string * string) :=
  [("wep_open", "wep-open"); ("wep_shared", "wep-shared"); ("wpa_personal", "psk");
   ("wpa2_personal", "psk2"); ("wpa3_personal", "sae"); ("wpa_personal_mixed", "psk-mixed");
   ("wpa2_personal_mixed", "sae-mixed"); ("wpa_enterprise", "wpa"); ("wpa2_enterprise", "wpa2");
   ("wpa3_enterprise", "wpa3"); ("wpa_enterprise_mixed", "wpa-mixed");
   ("wpa2_enterprise_mixed", "wpa3-mixed"); ("wps", "psk"); ("owe", "owe")].
(** wireless.py:329-343 *)
Definition enc_protocols_back : list (string * string) :=
  [("wep-open", "wep_open"); ("wep-shared", "wep_shared"); ("psk", "wpa_personal");
   ("psk2", "wpa2_personal"); ("sae", "wpa3_personal"); ("psk-mixed", "wpa_personal_mixed");
   ("sae-mixed", "wpa2_personal_mixed"); ("wpa", "wpa_enterprise"); ("wpa2", "wpa2_enterprise");
   ("wpa3", "wpa3_enterprise"); ("wpa-mixed", "wpa_enterprise_mixed");
   ("wpa3-mixed", "wpa2_enterprise_mixed"); ("owe", "owe")].
(** [table[v]] *)
Definition str_lookup (table : list (string * string)) (v : val) : res val :=
  match v with
  | VStr s => match dget s table with Some z => Ok (VStr z) | None => Err (EKey s) end
  | VList _ | VDict _ => Err EType
  | _ => Err (EKey (py_repr v))
  end.
Definition ddel_all (ks : list string) (d : dict) : dict := fold_left (fun d k => ddel k d) ks d.
(** [if k in d: e[k'] = d[k]] *)
Definition copy_opt (k : string) (d : dict) (k' : string) (e : dict) : dict :=
  match dget k d with Some v => dset k' v e | None => e end.

(** wireless.py:148-161 [__intermediate_encryption_wpa_enterprise] *)
Definition enc_enterprise (mode : val) (e uci : dict) : res dict :=
  let uci := if py_eq (dgetN "eap_type" uci) (VStr "tls") && ("auth" in? uci)
             then ddel "auth" uci else uci in
  if py_eq mode (VStr "ap") then
    let uci := copy_opt "port" e "auth_port" (copy_opt "server" e "auth_server" uci) in
    do key <- dgetE "key" e;
    let uci := dset "auth_secret" key uci in
    let uci := if "acct_secret" in? e then uci else dset "acct_secret" key uci in
    Ok (copy_opt "acct_server_port" e "acct_port" uci)
  else Ok uci.
(** wireless.py:100-146 [__intermediate_encryption], given the "encryption" of the
    wireless block and the UCI mode.  Simplification: a protocol that is not a text
    is an AttributeError. *)
Definition enc_section (mode : val) (e : dict) : res dict :=
  let none := [("encryption", VStr "none")] in
  if negb (truthy (VDict e)) || truthy (dgetN "disabled" e) then Ok none
  else
    do p <- dgetE "protocol" e;
    if py_eq p (VStr "none") then Ok none
    else
      do protocol <- as_str p;
      let uci := ddel_all ["protocol"; "key"; "cipher"; "disabled"; "acct_server_port"] e in
      let enc := match dget protocol enc_protocols with Some u => u | None => protocol end in
      let uci := dset "encryption" (VStr enc) uci in
      do uci <-
        (if startswith "wep" protocol then
           do k <- dgetE "key" e;
           let k := if String.eqb protocol "wep_open" then VStr ("s:" +++ py_str k) else k in
           Ok (dset "key1" k (dset "key" (VStr "1") uci))
         else
           do uci <- (if contains "enterprise" protocol then enc_enterprise mode e uci else Ok uci);
           Ok (copy_opt "key" e "key" uci));
      let cipher := dgetN "cipher" e in
      Ok (if truthy cipher && startswith "wpa" protocol && negb (py_eq cipher (VStr "auto"))
          then dset "encryption" (VStr (enc +++ "+" +++ py_str cipher)) uci else uci).
(** wireless.py:50-61: one advanced option.  Simplification: comparing a float
    with 0 is an error, like any value that is not an int. *)
Definition wifi_option (w : dict) (kk : string * string) : res dict :=
  let v := dgetN (fst kk) w in
  let w := ddel (fst kk) w in
  match v with
  | VNull => Ok w
  | VInt z => Ok (if (0 <? z)%Z then dset (snd kk) v w else w)
  | VBool b => Ok (if b then dset (snd kk) v w else w)
  | _ => Err EType
  end.
Definition wifi_options : list (string * string) :=
  [("ack_distance", "distance"); ("rts_threshold", "rts"); ("frag_threshold", "frag")].
(** wireless.py:163-175 *)
Definition roaming_properties : list string :=
  ["ft_over_ds"; "ft_psk_generate_local"; "nasid"; "reassociation_deadline"].
Definition wifi_roaming (w : dict) : dict :=
  match dget "ieee80211r" w with
  | Some (VBool false) => ddel_all roaming_properties w
  | _ => w
  end.
(** wireless.py:96-98 [__get_auto_name] *)
Definition wifi_auto_name (name : val) : res val :=
  do s <- as_str name; Ok (VStr ("wifi_" +++ uci_name s)).
(** wireless.py:72-94 [__intermediate_auto_network]: the value of "network" *)
Definition wifi_network (bridged : list (string * list string)) (i : dict) (w : dict) : res val :=
  let n := dgetN "network" w in
  if truthy n then Ok n
  else
    do name <- dgetE "name" i;
    do s <- str_key name;
    Ok (match dget s bridged with
        | Some bridges => VList (map VStr bridges)
        | None => if truthy (dgetN "addresses" i) then VList [name] else VList []
        end).
(** wireless.py:20-70 [__intermediate_wireless] *)
Definition wifi_section (bridged : list (string * list string)) (i : dict) : res (option dict) :=
  match dget "wireless" i with
  | None => Ok None
  | Some v =>
      do w <- as_dict v;
      do name <- dgetE "name" i;
      let w := dset "ifname" name (dset "disabled" (dgetN "disabled" i) w) in
      let id := pop_or "id" VNull w in
      let w := ddel "id" w in
      do sname <- (if truthy id then Ok id else wifi_auto_name name);
      let w := dset ".name" sname (dset ".type" (VStr "wifi-iface") w) in
      do radio <- dgetE "radio" w;
      let w := copy_opt "mac" i "macaddr" (dset "device" radio (ddel "radio" w)) in
      do m <- dgetE "mode" w;
      do mode <- str_lookup wifi_modes m;
      let w := dset "mode" mode w in
      do w <- foldM wifi_option w wifi_options;
      do w <- (match dget "encryption" w with
               | None => Ok w
               | Some e => do e <- as_dict e;
                           do uci <- enc_section mode e;
                           Ok (dupdate (ddel "encryption" w) uci)
               end);
      let w := wifi_roaming w in
      do nets <- wifi_network bridged i w;
      do nets <- iter_strs nets;
      Ok (Some (ssort (dset "network" (VStr (uci_name (join " " nets))) w)))
  end.
(** wireless.py:13-18 *)
Definition wifi_fwd_block (bridged : list (string * list string)) (b result : dict) (i : nat)
    : res dict :=
  do s <- wifi_section bridged b;
  Ok (match s with Some s => add_blocks "wireless" [s] result | None => result end).
(** wireless.py:9-11 *)
Definition wifi_fwd (dsa : bool) (config inter : dict) : res dict :=
  do bridged <- track_bridged dsa inter;
  fwd_list "interfaces" (wifi_fwd_block bridged) config.

(** wireless.py:191-197 [__netjson_wifi_get_ifname]; ".name" is read even when
    "ifname" is present. *)
Definition wifi_ifname (b : dict) : res val :=
  do n <- dgetE ".name" b;
  do s <- as_str n;
  Ok (pop_or "ifname" (VStr (replace "wifi_" EmptyString s)) b).
(** wireless.py:239-260 [__netjson_wifi_typecast] *)
Definition wifi_bools : list string :=
  ["hidden"; "wds"; "ft_over_ds"; "ft_psk_generate_local"; "ieee80211r"; "rsn_preauth"; "isolate";
   "doth"; "wmm"; "short_preamble"; "start_disabled"; "default_disabled"].
Definition bool_field (w : dict) (k : string) : dict :=
  match dget k w with Some v => dset k (VBool (py_eq v (VStr "1"))) w | None => w end.
Definition wifi_typecast (w : dict) : res dict :=
  let w := fold_left bool_field wifi_bools w in
  match dget "reassociation_deadline" w with
  | None => Ok w
  | Some v => match py_int v with
              | Ok z => Ok (dset "reassociation_deadline" (VInt z) w)
              | Err EValue => Ok (ddel "reassociation_deadline" w)
              | Err e => Err e
              end
  end.
(** wireless.py:262-305 *)
Definition encryption_keys : list string :=
  ["key"; "server"; "port"; "wpa_group_rekey"; "auth_server"; "auth_port"; "auth_secret";
   "auth_cache"; "acct_port"; "acct_server"; "acct_secret"; "acct_interval"; "nasid"; "ownip";
   "dae_client"; "dae_port"; "dae_secret"; "dynamic_vlan"; "vlan_naming"; "vlan_tagged_interface";
   "vlan_bridge"; "eap_type"; "auth"; "anonymous_identity"; "identity"; "password"; "ca_cert";
   "client_cert"; "ca_cert_usesystem"; "subject_match"; "altsubject_match"; "domain_match";
   "domain_suffix_match"; "priv_key"; "priv_key_pwd"; "wps_config"; "wps_device_name";
   "wps_device_type"; "wps_label"; "wps_manufacturer"; "wps_pushbutton"; "wps_pin"].
(** wireless.py:310-317, one key: the settings and the rest of the block *)
Definition move_key (sw : dict * dict) (k : string) : dict * dict :=
  let (s, w) := sw in
  if truthy (dgetN k w) then (dset k (dgetN k w) s, ddel k w) else (s, w).
(** [d[k] = int(d[k])] if present *)
Definition int_field (d : dict) (k : string) : res dict :=
  match dget k d with
  | Some v => do z <- py_int v; Ok (dset k (VInt z) d)
  | None => Ok d
  end.
(** wireless.py:374-388 [__netjson_encryption_typecast] *)
Definition enc_typecast (e : dict) : res dict :=
  do e <- foldM int_field e ["port"; "acct_server_port"; "dae_port"; "acct_interval"];
  Ok (fold_left bool_field ["wps_label"; "wps_pushbutton"] e).
(** [protocol.split("+", 1)] *)
Definition split_plus (s : string) : option (string * string) :=
  match find_sub "+" s with Some n => Some (stake n s, sdrop (S n) s) | None => None end.
(** wireless.py:355-367, the settings of an enterprise protocol *)
Definition enc_enterprise_back (s : dict) : dict :=
  let s := rename "auth_secret" "key" s in
  let s := match dget "acct_secret" s with
           | Some a => if py_eq a (dgetN "key" s) then ddel "acct_secret" s else s
           | None => s
           end in
  rename "acct_port" "acct_server_port"
    (rename "auth_port" "port" (rename "auth_server" "server" s)).
(** wireless.py:307-372 [__netjson_encryption].  [protocol == "none"] returns
    with the encryption keys already removed from the block. *)
Definition enc_back (w : dict) : res dict :=
  match dget "encryption" w with
  | None => Ok w
  | Some _ =>
      let (s, w) := fold_left move_key encryption_keys ([], w) in
      let wps := existsb (fun kv => startswith "wps_" (fst kv)) s in
      do p <- dgetE "encryption" w;
      let w := ddel "encryption" w in
      if py_eq p (VStr "none")
      then Ok (dset "encryption" (VDict [("protocol", VStr "none")]) w)
      else
        do p <- as_str p;
        let (protocol, cipher) := match split_plus p with Some pc => pc | None => (p, "auto") end in
        do s <- (if wps then Ok (dset "protocol" (VStr "wps") s)
                 else do m <- str_lookup enc_protocols_back (VStr protocol);
                      Ok (dset "cipher" (VStr cipher) (dset "protocol" m s)));
        do sw <- (if startswith "wep" protocol then
                    do idx <- dgetE "key" s;
                    let k := "key" +++ py_str idx in
                    do key <- as_str (pop_or k (VStr EmptyString) w);
                    let key := if startswith "s:" key then sdrop 2 key else key in
                    Ok (dset "key" (VStr key) s, ddel k w)
                  else Ok (s, w));
        let (s, w) := sw in
        do np <- dgetE "protocol" s;
        do np <- as_str np;
        let s := if contains "enterprise" np then enc_enterprise_back s else s in
        let s := copy_opt "ieee80211w" w "ieee80211w" s in
        let w := ddel "ieee80211w" w in
        do s <- enc_typecast s;
        Ok (dset "encryption" (VDict s) w)
  end.
(** wireless.py:215-223, one option *)
Definition wifi_option_back (w : dict) (kk : string * string) : res dict :=
  match dget (fst kk) w with
  | None => Ok w
  | Some v => do z <- py_int v; Ok (dset (snd kk) (VInt z) (ddel (fst kk) w))
  end.
Definition wifi_options_back : list (string * string) :=
  [("distance", "ack_distance"); ("rts", "rts_threshold"); ("frag", "frag_threshold")].
(** wireless.py:199-237 [__netjson_wifi]: the wireless object and the interface,
    which gets "mac" and "disabled". *)
Definition wifi_back (w i : dict) : res (dict * dict) :=
  do name <- dgetE ".name" w;
  let w := ddel ".name" w in
  do iname <- dgetE "name" i;
  do auto <- wifi_auto_name iname;
  let w := set_unless "id" name auto w in
  do _ <- dgetE ".type" w;
  let w := ddel ".type" w in
  do device <- dgetE "device" w;
  let w := dset "radio" device (ddel "device" w) in
  do m <- dgetE "mode" w;
  do mode <- str_lookup wifi_modes_back m;
  let w := dset "mode" mode w in
  do w <- foldM wifi_option_back w wifi_options_back;
  let ifname := pop_or "ifname" iname w in
  let w := ddel "ifname" w in
  do w <- (match dget "network" w with
           | None => Ok w
           | Some n =>
               if py_eq n ifname || py_eq n (dgetN "network" i) then Ok (ddel "network" w)
               else do s <- as_str n;
                    Ok (dset "network" (VList (map VStr (split_ws s))) w)
           end);
  let i := copy_opt "macaddr" w "mac" i in
  let w := ddel "macaddr" w in
  let i := match dget "disabled" w with
           | Some d => dset "disabled" (VBool (py_eq d (VStr "1"))) i
           | None => i
           end in
  let w := ddel "disabled" w in
  do w <- wifi_typecast w;
  do w <- enc_back w;
  Ok (w, i).
(** wireless.py:390-395 [__get_netjson_interface]: the position of the interface in
    the configuration *)
Fixpoint find_iface (name : val) (l : list val) (pos : nat) : res (option nat) :=
  match l with
  | [] => Ok None
  | v :: t =>
      do i <- as_dict v;
      do n <- dgetE "name" i;
      if py_eq n name then Ok (Some pos) else find_iface name t (S pos)
  end.
Definition config_interfaces (config : dict) : res (list val) :=
  match dget "interfaces" config with None => Ok [] | Some v => as_list v end.
Fixpoint set_nth {A} (n : nat) (x : A) (l : list A) : list A :=
  match l, n with
  | [], _ => []
  | _ :: t, O => x :: t
  | y :: t, S n' => y :: set_nth n' x t
  end.
(** wireless.py:177-189 [to_netjson_loop]; the accumulator is the configuration,
    whose interfaces are changed in place, and the result. *)
Definition wifi_bwd_block (b : dict) (acc : dict * dict) (i : nat) : res (dict * dict) :=
  let (config, result) := acc in
  do l <- config_interfaces config;
  do found <- (match l with
               | [] => Ok None
               | _ => do ifname <- wifi_ifname b; find_iface ifname l 0
               end);
  match found with
  | Some pos =>
      do iface <- as_dict (nth pos l VNull);
      do wi <- wifi_back b (dset "type" (VStr "wireless") iface);
      let iface := dset "wireless" (VDict (fst wi)) (snd wi) in
      Ok (dset "interfaces" (VList (set_nth pos (VDict iface) l)) config, result)
  | None =>
      do ifname <- wifi_ifname b;
      do wi <- wifi_back b [("name", ifname); ("type", VStr "wireless")];
      let iface := dset "wireless" (VDict (fst wi)) (snd wi) in
      Ok (config, add_blocks "interfaces" [iface] result)
  end.
(** wireless.py:401-415 [__fix_netjson_network], one block *)
Definition fix_network (bridged : list (string * list string)) (v : val) : res val :=
  do b <- as_dict v;
  match dget "ifname" b with
  | None => Ok v
  | Some n =>
      do s <- str_key n;
      match dget s bridged with
      | None => Ok v
      | Some bridges =>
          do net <- as_str (pop_or "network" (VStr EmptyString) b);
          if py_eq (VList (map VStr bridges)) (VList (map VStr (split_char " " net)))
          then do _ <- dgetE "network" b; Ok (VDict (ddel "network" b))
          else Ok v
      end
  end.
(** wireless.py:397-399 and base/converter.py:93-117 [to_netjson].  The cleaned list
    shares its blocks with the intermediate data.  Simplification: when an exception
    is raised the configuration is reported unchanged. *)
Definition wifi_bwd (dsa : bool) (orig config inter : dict) : (dict * dict) * res dict :=
  match (do v <- dgetE "wireless" inter;
         do l <- as_list v;
         do bridged <- track_bridged dsa orig;
         mapM (fix_network bridged) l) with
  | Err e => ((config, inter), Err e)
  | Ok l =>
      let (left, r) := bwd_loop (skip_block ["wifi-iface"]) wifi_bwd_block l 0 l (config, []) in
      let inter := dset "wireless" (VList left) inter in
      match r with
      | Err e => ((config, inter), Err e)
      | Ok (config', result) => ((config', inter), Ok result)
      end
  end.
Definition wireless (dsa : bool) : converter :=
  {| c_fwd_run := dmem "interfaces";
     c_fwd := fun config inter => (config, wifi_fwd dsa config inter);
     c_bwd_run := dmem "wireless";
     c_bwd := wifi_bwd dsa |}.
