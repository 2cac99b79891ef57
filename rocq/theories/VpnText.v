(** * VpnText: the text of the OpenVPN and WireGuard backends: templates, parser
    and archive (backends/openvpn, backends/wireguard, BaseVpnBackend). *)
From Verif Require Import PyBase Merge Files Uci Backend Conv OpenVpnConv.

(** ** OpenVPN template *)

(** openvpn.jinja2:10-16, the branch on the kind of value, with the spaces of
    the lines holding the tags.  A boolean is a number for jinja2. *)
Definition vpn_line (key : string) (text : string) : string := key +++ " " +++ text.
Definition tpl_vpn_value (key : string) (value : val) : string :=
  match value with
  | VBool true => spaces 16 +++ key +++ NL +++ spaces 12
  | VBool false | VInt _ | VFloat _ | VStr _ => spaces 16 +++ vpn_line key (py_str value) +++ NL +++ spaces 12
  | VList l => spaces 16 +++ fold_right (fun x acc => (spaces 20 +++ vpn_line key (py_str x) +++ NL +++ spaces 16) +++ acc) EmptyString l
               +++ spaces 12
  | VDict d => spaces 16 +++ fold_right (fun kv acc => (spaces 20 +++ vpn_line key (fst kv) +++ NL +++ spaces 16) +++ acc) EmptyString d
               +++ spaces 12
  | VNull => EmptyString
  end.
(** openvpn.jinja2:4-19, one iteration *)
Definition dashes (k : string) : string := replace "_" "-" k.
Definition underscores (k : string) : string := replace "-" "_" k.
Definition tpl_vpn_item (kv : string * val) : string :=
  let key := dashes (fst kv) in
  spaces 8 +++ spaces 8 +++
  (if String.eqb key "name" then EmptyString else spaces 12 +++ tpl_vpn_value key (snd kv) +++ spaces 8) +++ spaces 4.
(** openvpn.jinja2:1-21, one VPN *)
Definition tpl_vpn (vpn : dict) : string :=
  "# openvpn config: " +++ tpl_get "name" vpn +++ NL +++ NL +++ spaces 4
  +++ fold_right (fun kv acc => tpl_vpn_item kv +++ acc) EmptyString vpn +++ NL.
(** A name missing from the intermediate data is an empty loop.  Simplification:
    a value that is not a list of dicts is an error. *)
Definition vpns_of (key : string) (data : dict) : res (list dict) :=
  match dget key data with None => Ok [] | Some v => blocks_of v end.
(** openvpn/renderer.py:9-15 and wireguard/renderer.py:9-15 *)
Definition vpn_cleanup (output : string) : string :=
  let o := replace "    " EmptyString output in
  if endswith (NL +++ NL) o then sinit o else o.
Definition render_openvpn (data : dict) : res string :=
  do vpns <- vpns_of "openvpn" data;
  Ok (vpn_cleanup (fold_right (fun v acc => tpl_vpn v +++ acc) EmptyString vpns)).

(** ** OpenVPN parser *)

(** openvpn/parser.py:8, 47-56: [config_pattern] on a stripped line: the
    characters up to a white space, an optional space, the rest *)
Definition vpn_option (line : string) : string * val :=
  let (k, rest) := span (fun c => negb (is_space c)) line in
  let value := match rest with String c r => if Ascii.eqb c " " then r else rest | EmptyString => EmptyString end in
  (underscores k, if String.eqb value EmptyString then VBool true else VStr value).
(** openvpn/parser.py:41-57 [_get_config] *)
Definition parse_vpn_line (config : dict) (line : string) : dict :=
  let line := strip line in
  if String.eqb line EmptyString then config
  else let (k, v) := vpn_option line in dset k v config.
Definition parse_vpn (contents : string) : dict :=
  match split_char NLc contents with
  | [] => []
  | name :: lines => ssort (fold_left parse_vpn_line lines [("name", VStr name)])
  end.
(** openvpn/parser.py:31-39 [_get_vpns] *)
Definition openvpn_header : string := "# openvpn config:".
Definition parse_openvpn (text : string) : dict :=
  [("openvpn", VList (map (fun p => VDict (parse_vpn p))
     (filter (fun p => negb (String.eqb p EmptyString)) (map strip (re_split openvpn_header text)))))].

(** ** Archives *)

(** [s.split(sub)[0]] *)
Fixpoint before (sub s : string) : string :=
  if startswith sub s then EmptyString
  else match s with EmptyString => EmptyString | String c s' => String c (before sub s') end.
(** base/backend.py:430-456 [BaseVpnBackend._generate_contents], given the
    rendered text *)
Definition generate_vpns (header suffix text : string) (tar : archive) : res archive :=
  foldM (fun tar vpn =>
           let lines := split_char NLc vpn in
           let name := before suffix (match lines with n :: _ => n | [] => EmptyString end) in
           let contents := join NL (skipn 2 lines) in
           let contents := if endswith (NL +++ NL) contents then sinit contents else contents in
           add_file tar (name +++ suffix) contents DEFAULT_FILE_MODE)
        tar (remove_first_empty (re_split header text)).
Definition conf_suffix : string := ".conf".
(** openvpn/parser.py:16-29 [parse_tar], on the members of the archive *)
Definition openvpn_tar_text (tar : archive) : res string :=
  foldM (fun text m =>
           if endswith conf_suffix (m_name m)
           then match utf8_decode (m_data m) with
                | Some c => Ok (text +++ "# openvpn config: " +++ replace conf_suffix EmptyString (m_name m)
                                +++ NL +++ NL +++ c +++ NL)
                | None => Err EValue
                end
           else Ok text) EmptyString tar.
Definition parse_openvpn_tar (tar : archive) : res dict := do t <- openvpn_tar_text tar; Ok (parse_openvpn t).

(** openvpn/openvpn.py:10-22: the backend *)
Definition openvpn_backend (schema_ok : dict -> res unit) : backend :=
  {| be_validate := base_validate schema_ok;
     be_convs := [openvpn_base];
     be_render := fun _ inter => render_openvpn inter;
     be_contents := fun text => generate_vpns openvpn_header conf_suffix text [];
     be_ids := ["name"] |}.

(** ** WireGuard *)

(** wireguard/converters.py:9-21 *)
Definition wg_required : list (string * string) :=
  [("port", "ListenPort"); ("private_key", "PrivateKey"); ("address", "Address")].
Definition wg_optional : list (string * string) :=
  [("dns", "DNS"); ("mtu", "MTU"); ("save_config", "SaveConfig"); ("table", "Table"); ("pre_up", "PreUp");
   ("post_up", "PostUp"); ("pre_down", "PreDown"); ("post_down", "PostDown")].
(** wireguard/converters.py:31-32, one required option *)
Definition wg_move (c : dict) (o : string * string) : res dict :=
  do v <- dgetE (fst o) c; Ok (dset (snd o) v (ddel (fst o) c)).
(** wireguard/converters.py:34-45, one optional option.  Simplification: a text
    under "dns" is an error (the code would join its characters). *)
Definition wg_value (k : string) (v : val) : res val :=
  if String.eqb k "dns" then do l <- as_list v; do ss <- mapM as_str l; Ok (VStr (join "," ss))
  else if String.eqb k "save_config" then Ok (VStr (if truthy v then "true" else "false"))
  else Ok v.
Definition wg_option (c : dict) (o : string * string) : res dict :=
  let v := dgetN (fst o) c in
  if py_in v [VStr EmptyString; VNull; VList []] then Ok (ddel (fst o) c)
  else do v <- wg_value (fst o) v; Ok (dset (snd o) v (ddel (fst o) c)).
(** wireguard/converters.py:49-60 [__intermediate_peers], one peer *)
Definition wg_peer (v : val) : res val :=
  do p <- as_dict v;
  do ips <- dgetE "allowed_ips" p;
  let p := dset "AllowedIPs" ips (ddel "allowed_ips" p) in
  do key <- dgetE "public_key" p;
  let p := dset "PublicKey" key (ddel "public_key" p) in
  let p := dset "PreSharedKey" (dgetN "preshared_key" p) (ddel "preshared_key" p) in
  let host := dgetN "endpoint_host" p in
  let port := dgetN "endpoint_port" p in
  let p := ddel "endpoint_port" (ddel "endpoint_host" p) in
  let p := if truthy host && truthy port then dset "Endpoint" (VStr (py_str host +++ ":" +++ py_str port)) p else p in
  Ok (VDict (ssort p)).
(** wireguard/converters.py:28-47 [__intermediate_vpn] *)
Definition wg_section (c : dict) : res dict :=
  do c <- foldM wg_move c wg_required;
  do c <- foldM wg_option c wg_optional;
  do peers <- as_list (pop_or "peers" (VList []) c);
  do peers <- mapM wg_peer peers;
  Ok (ssort (dset "peers" (VList peers) c)).
(** base/converter.py:75-91 over the VPNs *)
Definition wg_fwd (config : dict) : res dict :=
  do l <- as_list (dgetN "wireguard" config);
  do ss <- mapM (fun v => do c <- as_dict v; wg_section c) l;
  Ok (match ss with [] => [] | _ => [("wireguard", VList (map VDict ss))] end).
(** Simplification: the converter has no backward direction, which raises
    NotImplementedError in the base class. *)
Definition wireguard_conv : converter :=
  {| c_fwd_run := dmem "wireguard";
     c_fwd := fun config _ => (config, wg_fwd config);
     c_bwd_run := dmem "wireguard";
     c_bwd := fun _ config inter => ((config, inter), Err ENotImpl) |}.
(** wireguard.jinja2:6-10 and 14-18: one setting, and whether it is written *)
Definition tpl_wg_setting (written : bool) (kv : string * val) : string :=
  spaces 12 +++ (if written then spaces 16 +++ fst kv +++ " = " +++ py_str (snd kv) +++ NL +++ spaces 12 else EmptyString) +++ spaces 8.
Definition wg_shown (kv : string * val) : bool := negb (String.eqb (fst kv) "name" || String.eqb (fst kv) "peers").
(** wireguard.jinja2:13-20, one peer *)
Definition tpl_wg_peer (p : dict) : string :=
  spaces 4 +++ "[Peer]" +++ NL +++ spaces 8
  +++ fold_right (fun kv acc => tpl_wg_setting (truthy (snd kv)) kv +++ acc) EmptyString p +++ NL +++ spaces 4.
(** wireguard.jinja2:1-21, one VPN; the peers are a list of dicts *)
Definition tpl_wg (vpn : dict) (peers : list dict) : string :=
  spaces 4 +++ "# wireguard config: " +++ tpl_get "name" vpn +++ NL +++ NL
  +++ spaces 4 +++ "[Interface]" +++ NL +++ spaces 8
  +++ fold_right (fun kv acc => tpl_wg_setting (wg_shown kv) kv +++ acc) EmptyString vpn
  +++ NL +++ spaces 4 +++ fold_right (fun p acc => tpl_wg_peer p +++ acc) EmptyString peers.
Definition tpl_wg_full (vpn : dict) : res string := do ps <- vpns_of "peers" vpn; Ok (tpl_wg vpn ps).
Definition render_wireguard (data : dict) : res string :=
  do vpns <- vpns_of "wireguard" data;
  do ts <- mapM tpl_wg_full vpns;
  Ok (vpn_cleanup (fold_right String.append EmptyString ts)).
Definition wireguard_header : string := "# wireguard config:".
(** wireguard/wireguard.py:8-16: the backend; it has no parser, so that
    [parse] raises NotImplementedError (base/backend.py:386-387) *)
Definition wireguard_backend (schema_ok : dict -> res unit) : backend :=
  {| be_validate := base_validate schema_ok;
     be_convs := [wireguard_conv];
     be_render := fun _ inter => render_wireguard inter;
     be_contents := fun text => generate_vpns wireguard_header conf_suffix text [];
     be_ids := [] |}.
