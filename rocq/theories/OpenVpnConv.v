(** * OpenVpnConv: the OpenVPN converter (backends/openvpn/converters.py) and
    its OpenWrt and ZeroTier relatives (openwrt/converters/openvpn.py,
    openwrt/converters/zerotier.py, zerotier/converters.py). *)
From Verif Require Import PyBase Files Backend Conv.

(** ** The base converter (openvpn/converters.py) *)

(** openvpn/converters.py:7-13 with openvpn/schema.py: the integer and boolean
    properties of tunnel, client and server *)
Definition openvpn_props : list (string * jtype) :=
  [("port", JInt); ("mtu_test", JBool); ("fragment", JInt); ("mssfix", JInt); ("persist_tun", JBool);
   ("persist_key", JBool); ("tun_ipv6", JBool); ("up_delay", JInt); ("script_security", JInt); ("mute", JInt);
   ("status_version", JInt); ("mute_replay_warnings", JBool); ("reneg_sec", JInt); ("tls_timeout", JInt);
   ("float", JBool); ("auth_nocache", JBool); ("fast_io", JBool); ("verb", JInt); ("remote_random", JBool);
   ("nobind", JBool); ("tls_client", JBool); ("pull", JBool); ("tls_server", JBool); ("duplicate_cn", JBool);
   ("client_to_client", JBool); ("client_cert_not_required", JBool); ("username_as_common_name", JBool)].
(** openvpn/converters.py:28 *)
Definition remove_all : list val := [VBool false; VInt 0; VStr EmptyString].
Definition skip_keys : list string := ["script_security"; "remote"].
(** openvpn/converters.py:34-44: drop the keys holding a value of [remove] *)
Definition drop_values (remove : list val) (c : dict) : dict :=
  filter (fun kv => existsb (String.eqb (fst kv)) skip_keys || negb (py_in (snd kv) remove)) c.
(** openvpn/converters.py:46-54, one remote *)
Definition remote_text (v : val) : res val :=
  do r <- as_dict v;
  do host <- dgetE "host" r;
  do port <- dgetE "port" r;
  let base := py_str host +++ " " +++ py_str port in
  Ok (VStr (match dget "proto" r with
            | Some p => if py_eq p (VStr "auto") then base else base +++ " " +++ py_str p
            | None => base
            end)).
(** openvpn/converters.py:64-74 [__output_data_ciphers]: [output[1:]] drops the
    first separator *)
Definition cipher_text (v : val) : res string :=
  do c <- as_dict v;
  do t <- dgetE "cipher" c;
  do o <- dgetE "optional" c;
  Ok ((if truthy o then "?" else EmptyString) +++ py_str t).
Definition output_data_ciphers (c : dict) : res dict :=
  let v := dgetN "data_ciphers" c in
  if negb (truthy v) then Ok c
  else do l <- as_list v; do ts <- mapM cipher_text l; Ok (dset "data_ciphers" (VStr (join ":" ts)) c).
(** openvpn/converters.py:76-108 [__add_tls_auth_key]: the configuration of the
    VPN and the file to append to the backend's configuration, if any *)
Definition tls_auth_path (ca dev : string) : string :=
  join "/" (removelast (split_char "/" ca) ++ [dev +++ "_tls_auth.key"]).
Definition add_tls_auth (c : dict) : res (dict * option dict) :=
  let v := dgetN "tls_auth" c in
  if negb (truthy v) then Ok (c, None)
  else
    do s <- as_str v;
    let t := strip s in
    if (length (split_char " " t) =? 2)%nat then Ok (c, None)
    else
      do ca <- as_str (pop_or "ca" (VStr EmptyString) c);
      let path := tls_auth_path ca (py_str (pop_or "dev" (VStr EmptyString) c)) in
      let direction := if py_eq (dgetN "mode" c) (VStr "server") then "0" else "1" in
      Ok (dset "tls_auth" (VStr (path +++ " " +++ direction)) c,
          Some [("path", VStr path); ("mode", VStr X509_FILE_MODE); ("contents", VStr t)]).
(** openvpn/converters.py:101-108: [self.netjson["files"].append(file_data)] *)
Definition append_file (f : dict) (config : dict) : res dict :=
  match dget "files" config with
  | None => Ok (dset "files" (VList [VDict f]) config)
  | Some (VList l) => Ok (dset "files" (VList (l ++ [VDict f])) config)
  | Some _ => Err EAttr
  end.
(** openvpn/converters.py:27-62 [__intermediate_vpn]: the section and the file *)
Definition vpn_section (remove : list val) (c : dict) : res (dict * option dict) :=
  let c := if py_eq (dgetN "server_bridge" c) (VStr EmptyString) then dset "server_bridge" (VBool true) c else c in
  let c := drop_values remove c in
  do c <- (match dget "remote" c with
           | Some v => do l <- as_list v; do ts <- mapM remote_text l; Ok (dset "remote" (VList ts) c)
           | None => Ok c
           end);
  let c := if negb ("status" in? c) then ddel "status_version" c else c in
  do c <- output_data_ciphers c;
  do cf <- add_tls_auth c;
  Ok (ssort (fst cf), snd cf).
(** converter.py:75-91 over the list of VPNs, the configuration of the backend
    being changed on the way *)
Fixpoint vpn_loop (section : dict -> res (dict * option dict)) (l : list val)
    (config result : dict) : dict * res dict :=
  match l with
  | [] => (config, Ok result)
  | b :: t =>
      match (do d <- as_dict b; section d) with
      | Err e => (config, Err e)
      | Ok (s, f) =>
          match (match f with Some f => append_file f config | None => Ok config end) with
          | Err e => (config, Err e)
          | Ok config' => vpn_loop section t config' (add_blocks "openvpn" [s] result)
          end
      end
  end.
Definition vpn_fwd (section : dict -> res (dict * option dict)) (config : dict) : dict * res dict :=
  match as_list (dgetN "openvpn" config) with
  | Err e => (config, Err e)
  | Ok l => vpn_loop section l config []
  end.
(** openvpn/converters.py:121-131, one remote; [r.split()] *)
Definition remote_back (v : val) : res val :=
  do s <- as_str v;
  match split_ws s with
  | host :: port :: rest =>
      match int_of_string port with
      | None => Err EValue
      | Some z =>
          Ok (VDict ([("host", VStr host); ("port", VInt z)]
                     ++ match rest with [proto] => [("proto", VStr proto)] | _ => [] end))
      end
  | _ => Err EIndex
  end.
(** openvpn/converters.py:120: a text is iterated by character, each of which
    has fewer than two words *)
Definition remotes_of (v : val) : res (list val) :=
  match v with
  | VList l => Ok l
  | VStr EmptyString => Ok []
  | VStr _ => Err EIndex
  | _ => Err EType
  end.
(** openvpn/converters.py:136-147 [__netjson_data_ciphers] *)
Definition cipher_back (t : string) : val :=
  let optional := startswith "?" t in
  VDict [("cipher", VStr (if optional then sdrop 1 t else t)); ("optional", VBool optional)].
Definition data_ciphers_back (c : dict) : res dict :=
  let v := dgetN "data_ciphers" c in
  if negb (truthy v) then Ok c
  else do s <- as_str v; Ok (dset "data_ciphers" (VList (map cipher_back (split_char ":" s))) c).
(** openvpn/converters.py:116-134 [__netjson_vpn] *)
Definition vpn_back (c : dict) : res dict :=
  do c <- type_cast openvpn_props c;
  let c := match dget "server_bridge" c with
           | Some (VBool true) => dset "server_bridge" (VStr EmptyString) c
           | _ => c
           end in
  do c <- (match dget "remote" c with
           | Some v => do l <- remotes_of v; do rs <- mapM remote_back l; Ok (dset "remote" (VList rs) c)
           | None => Ok c
           end);
  data_ciphers_back c.
(** openvpn/converters.py:110-114 *)
Definition vpn_bwd_block (back : dict -> res dict) (b result : dict) (i : nat) : res dict :=
  do v <- back b; Ok (add_blocks "openvpn" [v] result).
Definition vpn_converter (types : list string) (section : dict -> res (dict * option dict))
    (back : dict -> res dict) : converter :=
  {| c_fwd_run := dmem "openvpn";
     c_fwd := fun config _ => vpn_fwd section config;
     c_bwd_run := dmem "openvpn";
     c_bwd := fun _ config inter =>
       let (inter', r) := bwd_list "openvpn" types (fun l => l) (vpn_bwd_block back) [] inter in
       ((config, inter'), r) |}.
(** the converter of the OpenVpn backend; [should_skip_block] only skips empty
    blocks (converter.py:142-143) *)
Definition openvpn_base : converter := vpn_converter [] (vpn_section remove_all) vpn_back.

(** ** The OpenWrt converter (openwrt/converters/openvpn.py) *)

(** openwrt/converters/openvpn.py:8-25 [__intermediate_vpn] *)
Definition owrt_vpn_section (v : dict) : res (dict * option dict) :=
  let v := if py_eq (dgetN "fragment" v) (VInt 0) then ddel "fragment" v else v in
  do name <- dgetE "name" v;
  do name <- uci_name_val name;
  let v := ddel "name" v in
  let disabled := pop_or "disabled" (VBool false) v in
  let v := dupdate (ddel "disabled" v)
    [(".name", name); (".type", VStr "openvpn"); ("enabled", VBool (negb (truthy disabled)))] in
  let v := match dgetN "tls_cipher" v with
           | VStr EmptyString => v
           | VStr s => dset "tls_cipher"
               (VList (map VStr (filter (fun p => negb (String.eqb p EmptyString)) (split_char ":" s)))) v
           | _ => v
           end in
  vpn_section [VStr EmptyString] v.
(** openwrt/converters/openvpn.py:27-37 [__netjson_vpn] *)
Definition owrt_vpn_back (v : dict) : res dict :=
  let v := if py_eq (dgetN "server_bridge" v) (VStr "1") then dset "server_bridge" (VStr EmptyString) v else v in
  let enabled := pop_or "enabled" (VStr "0") v in
  let v := dset "disabled" (VBool (py_eq enabled (VStr "0"))) (ddel "enabled" v) in
  do name <- dgetE ".name" v;
  let v := dset "name" name (ddel ".name" v) in
  do _ <- dgetE ".type" v;
  let v := ddel ".type" v in
  do v <- (match dgetN "tls_cipher" v with
           | VList (c :: l) => do cs <- mapM as_str (c :: l); Ok (dset "tls_cipher" (VStr (join ":" cs)) v)
           | _ => Ok v
           end);
  vpn_back v.
Definition owrt_openvpn : converter := vpn_converter ["openvpn"] owrt_vpn_section owrt_vpn_back.

(** ** ZeroTier on OpenWrt (openwrt/converters/zerotier.py) *)

(** openwrt/schema.py:1259-1393 *)
Definition zt_props := [("disabled", JBool); ("port", JInt)].
Definition zt_default_path : val := VStr "/etc/openwisp/zerotier".
(** zerotier.py:99-104: one line of the device map *)
Definition zt_line (v : val) : res string :=
  do n <- as_dict v;
  Ok (py_str (pop_or "id" (VStr EmptyString) n) +++ "=" +++ py_str (dgetN "ifname" n) +++ NL).
(** zerotier.py:114-121: the files of the configuration, the one with the same
    path being folded into the device map *)
Fixpoint zt_fold_files (path : val) (files : list val) (contents : string) : res (list val * string) :=
  match files with
  | [] => Ok ([], contents)
  | v :: t =>
      do f <- as_dict v;
      if py_eq (dgetN "path" f) path
      then do c <- dgetE "contents" f;
           do s <- as_str c;
           zt_fold_files path t (contents +++ NL +++ s)
      else do r <- zt_fold_files path t contents;
           Ok (v :: fst r, snd r)
  end.
(** zerotier.py:94-122 [__get_zt_ifname_files] *)
Definition zt_files (vpn : dict) (files : val) : res (list val) :=
  let path := VStr (py_str (pop_or "config_path" zt_default_path vpn) +++ "/devicemap") in
  do networks <- as_list (pop_or "networks" (VList []) vpn);
  do lines <- mapM zt_line networks;
  let contents := fold_left String.append lines ("# network_id=interface_name" +++ NL) in
  let file c := VDict [("path", path); ("mode", VStr "0644"); ("contents", VStr c)] in
  if negb (truthy files) then Ok [file contents]
  else do l <- as_list files;
       do r <- zt_fold_files path l contents;
       Ok (fst r ++ [file (snd r)])%list.
(** zerotier.py:20-39 [__intermediate_vpn] with zerotier/converters.py:16-18 *)
Definition zt_section (vpn : dict) : res dict :=
  do name <- dgetE "name" vpn;
  do name <- uci_name_val name;
  do networks <- as_list (pop_or "networks" (VList []) vpn);
  do ids <- mapM (fun v => do n <- as_dict v; Ok (pop_or "id" (VStr EmptyString) n)) networks;
  let vpn := ddel "name" vpn in
  let config_path := pop_or "config_path" zt_default_path vpn in
  let copy := pop_or "copy_config_path" (VStr "1") vpn in
  let disabled := pop_or "disabled" (VBool false) vpn in
  let vpn := dupdate (ddel "disabled" vpn)
    [(".name", name); (".type", VStr "zerotier"); ("config_path", config_path);
     ("copy_config_path", copy); ("join", VList ids); ("enabled", VBool (negb (truthy disabled)))] in
  let vpn := if truthy (dgetN "local_conf" vpn) then dset "local_conf_path" (dgetN "local_conf" vpn) vpn
             else if truthy (dgetN "local_conf_path" vpn) then dset "local_conf" (dgetN "local_conf_path" vpn) vpn
             else vpn in
  Ok (ssort (ddel "client_options" vpn)).
(** zerotier.py:41-50 [__intermediate_network] *)
Definition zt_network (v : val) : res dict :=
  do n <- as_dict v;
  do name <- dgetE "ifname" n;
  do name <- uci_name_val name;
  Ok (ssort (dupdate (ddel "ifname" n) [(".name", name); (".type", VStr "network")])).
(** zerotier.py:10-18, one block: the sections and the new value of "files" *)
Definition zt_block (vpn : dict) (files : val) : res (list dict * list val) :=
  do fs <- zt_files vpn files;
  do s <- zt_section vpn;
  do v <- dgetE "networks" s;
  do networks <- as_list v;
  do ns <- mapM zt_network networks;
  Ok (ddel "networks" s :: ns, fs).
(** The configuration changes when the files have been computed, even if the
    rest fails (zerotier.py:23). *)
Fixpoint zt_loop (l : list val) (config result : dict) : dict * res dict :=
  match l with
  | [] => (config, Ok result)
  | b :: t =>
      match as_dict b with
      | Err e => (config, Err e)
      | Ok vpn =>
          let files := pop_or "files" (VList []) config in
          match zt_files vpn files with
          | Err e => (config, Err e)
          | Ok fs =>
              let config' := dset "files" (VList fs) config in
              match zt_block vpn files with
              | Err e => (config', Err e)
              | Ok (ss, _) => zt_loop t config' (add_blocks "zerotier" ss result)
              end
          end
      end
  end.
Definition zt_fwd (config : dict) : dict * res dict :=
  match as_list (dgetN "zerotier" config) with
  | Err e => (config, Err e)
  | Ok l => zt_loop l config []
  end.
(** zerotier.py:91-92 *)
Definition zt_ifname (id : val) : res val := do s <- as_str id; Ok (VStr ("owzt" +++ slast 6 s)).
(** zerotier.py:64-78 [__netjson_vpn] *)
Definition zt_back (v : dict) : res dict :=
  do name <- dgetE ".name" v;
  let v := dset "name" name (ddel ".name" v) in
  let enabled := pop_or "enabled" (VStr "0") v in
  let v := dset "disabled" (VBool (py_eq enabled (VStr "0"))) (ddel "enabled" v) in
  do _ <- dgetE ".type" v;
  let v := ddel ".type" v in
  do ids <- as_list (pop_or "join" (VList []) v);
  do ns <- mapM (fun id => do n <- zt_ifname id; Ok (VDict [("id", id); ("ifname", n)])) ids;
  let v := dset "networks" (VList ns) (ddel "join" v) in
  let v := match dget "local_conf" v with
           | Some c => dset "local_conf_path" c (ddel "local_conf" v)
           | None => v
           end in
  type_cast zt_props v.
(** zerotier.py:80-89 [__netjson_network] *)
Definition flag_back (k : string) (d : dict) : dict :=
  match dget k d with Some v => dset k (VBool (py_eq v (VStr "1"))) d | None => d end.
Definition zt_network_back (n : dict) : res dict :=
  do _ <- dgetE ".name" n;
  do _ <- dgetE ".type" n;
  let n := ddel ".type" (ddel ".name" n) in
  do id <- dgetE "id" n;
  do ifname <- zt_ifname id;
  let n := dset "ifname" ifname n in
  Ok (flag_back "allow_managed" (flag_back "allow_dns" (flag_back "allow_default" (flag_back "allow_global" n)))).
(** zerotier.py:52-62 [to_netjson_loop]: a network goes to the first VPN; a
    missing key or list raises.  The accumulator is the list under "zerotier". *)
Definition zt_bwd_block (b : dict) (acc : list dict) (i : nat) : res (list dict) :=
  if py_eq (dgetN ".type" b) (VStr "zerotier")
  then do v <- zt_back b; Ok (acc ++ [v])
  else
    do n <- zt_network_back b;
    match acc with
    | [] => Err (EKey "zerotier")
    | v :: t =>
        do ns <- dgetE "networks" v;
        do l <- as_list ns;
        Ok (dset "networks" (VList (l ++ [VDict n])) v :: t)
    end.
Definition zt_bwd (inter : dict) : dict * res dict :=
  let (inter', r) := bwd_list "zerotier" ["zerotier"; "network"] (fun l => l) zt_bwd_block [] inter in
  (inter', do l <- r; Ok (match l with [] => [] | _ => [("zerotier", VList (map VDict l))] end)).
Definition owrt_zerotier : converter :=
  {| c_fwd_run := dmem "zerotier";
     c_fwd := fun config _ => zt_fwd config;
     c_bwd_run := dmem "zerotier";
     c_bwd := fun _ config inter => let (inter', r) := zt_bwd inter in ((config, inter'), r) |}.
(** ** The ZeroTier backend's own converter (zerotier/converters.py) *)
(** zerotier/converters.py:10-18 *)
Definition zt_base_fwd_block (b result : dict) (i : nat) : res dict :=
  Ok (add_blocks "zerotier" [ssort (ddel "client_options" b)] result).
