(** * AutoClient: the configurations derived for the clients of a VPN server
    (openvpn/openvpn.py:24-177, wireguard/wireguard.py, vxlan/vxlan_wireguard.py,
    zerotier/zerotier.py, openwrt/openwrt.py:102-167).  Keyword arguments that
    the caller may leave out are dicts looked up with their default. *)
From Verif Require Import PyBase Files Conv OpenVpnConv.

(** openvpn.py:101-133 *)
Definition copy_keys : list string :=
  ["name"; "dev_type"; "dev"; "comp_lzo"; "compress"; "allow_compression"; "auth"; "cipher"; "ca"; "cert"; "key";
   "pkcs12"; "mtu_test"; "fragment"; "mssfix"; "keepalive"; "persist_tun"; "mute"; "persist_key"; "user"; "group";
   "mute_replay_warnings"; "secret"; "reneg_sec"; "tls_timeout"; "tls_cipher"; "float"; "fast_io"; "verb"; "auth_nocache"].
(** openvpn.py:81-86: [{None: "", "": "", "client": "server"}[v]].
    Simplification: an unhashable value is also a KeyError. *)
Definition cert_map (v : val) : res val :=
  match v with
  | VNull | VStr EmptyString => Ok (VStr EmptyString)
  | VStr s => if String.eqb s "client" then Ok (VStr "server") else Err (EKey s)
  | _ => Err (EKey (py_str v))
  end.
(** openvpn.py:144-177 [_auto_client_files], one of the three *)
Definition client_file (field : string) (path contents : val) (cf : dict * list val) : dict * list val :=
  if truthy path && truthy contents
  then (dset field path (fst cf),
        snd cf ++ [VDict [("path", path); ("contents", contents); ("mode", VStr X509_FILE_MODE)]])
  else cf.
(** openvpn.py:87-99: the inline key, if any *)
Definition client_auth (server : dict) : res (option val) :=
  let v := dgetN "tls_auth" server in
  if negb (truthy v) then Ok None
  else do s <- as_str v;
       Ok (if (length (split_char " " (strip s)) =? 2)%nat then None else Some v).
(** openvpn.py:140-143: the path of the log, if any *)
Definition client_log (server : dict) : res (option val) :=
  match dget "log" server with
  | None => Ok None
  | Some v => do s <- as_str v; Ok (Some (VStr (replace "/var/log/openvpn/" "/var/log/" s)))
  end.
Definition set_opt (k : string) (v : option val) (d : dict) : dict :=
  match v with Some v => dset k v d | None => d end.
(** openvpn.py:55-143, the client's dict in the order of the assignments, given
    the values computed by the steps that can fail *)
Definition client_dict (host : val) (server : dict) (ns rc : val) (auth log : option val) : dict :=
  let client := [("mode", VStr "p2p"); ("nobind", VBool true); ("resolv_retry", VStr "infinite"); ("tls_client", VBool true)] in
  let port := vor (dgetN "port" server) (VInt 1195) in
  let client := dset "remote" (VList [VDict [("host", host); ("port", port)]]) client in
  let client := dset "proto" (VStr (if py_eq (dgetN "proto" server) (VStr "tcp-server") then "tcp-client" else "udp")) client in
  let client := if ("server" in? server) || ("server_bridge" in? server) then dset "pull" (VBool true) client else client in
  let client := if negb ("tls_server" in? server) || negb (truthy (dgetN "tls_server" server))
                then dset "tls_client" (VBool false) client else client in
  let client := dset "ns_cert_type" ns client in
  let client := dset "remote_cert_tls" rc client in
  let client := set_opt "tls_auth" auth client in
  let client := fold_left (fun c k => match dget k server with Some v => dset k v c | None => c end) copy_keys client in
  let client := if "script_security" in? server then dset "script_security" (VInt 2) client else client in
  set_opt "log" log client.
(** openvpn.py:24-142 [OpenVpn.auto_client] *)
Definition openvpn_auto_client (host : val) (server : dict)
    (ca_path ca_contents cert_path cert_contents key_path key_contents : val) : res dict :=
  do ns <- cert_map (dgetN "ns_cert_type" server);
  do rc <- cert_map (dgetN "remote_cert_tls" server);
  do auth <- client_auth server;
  do log <- client_log server;
  let cf := client_file "key" key_path key_contents
              (client_file "cert" cert_path cert_contents
                (client_file "ca" ca_path ca_contents (client_dict host server ns rc auth log, []))) in
  Ok [("openvpn", VList [VDict (fst cf)]); ("files", VList (snd cf))].

(** wireguard.py:17-41 [Wireguard.auto_client]; [kw] holds the keyword
    arguments, "host", "public_key", "server" and "port" included *)
Definition wireguard_auto_client (kw : dict) : res dict :=
  do server <- as_dict (pop_or "server" (VDict []) kw);
  Ok [("interface_name", pop_or "name" (VStr EmptyString) server);
      ("client", VDict [("port", pop_or "port" (VInt 51820) kw);
                        ("private_key", pop_or "private_key" (VStr "{{private_key}}") kw);
                        ("ip_address", dgetN "ip_address" kw)]);
      ("server", VDict [("public_key", pop_or "public_key" (VStr EmptyString) kw);
                        ("endpoint_host", pop_or "host" (VStr EmptyString) kw);
                        ("endpoint_port", pop_or "port" (VInt 51820) server);
                        ("allowed_ips", VList [pop_or "server_ip_network" (VStr EmptyString) kw])])].
(** vxlan_wireguard.py:8-24 [VxlanWireguard.auto_client] *)
Definition vxlan_auto_client (kw : dict) : res dict :=
  do vxlan <- as_dict (vor (dgetN "vxlan" kw) (VDict []));
  Ok [("server_ip_address", pop_or "server_ip_address" (VStr EmptyString) kw);
      ("vni", pop_or "vni" (VInt 0) kw);
      ("name", pop_or "name" (VStr "vxlan") vxlan)].
(** openwrt.py:102-142 [OpenWrt.wireguard_auto_client] *)
Definition owrt_wireguard_interface (data : dict) : res dict :=
  do name <- dgetE "interface_name" data;
  do c <- dgetE "client" data;
  do client <- as_dict c;
  do key <- dgetE "private_key" client;
  do port <- dgetE "port" client;
  do address <- dgetE "ip_address" client;
  Ok [("name", name); ("type", VStr "wireguard"); ("private_key", key); ("port", port); ("mtu", VInt 1420);
      ("nohostroute", VBool false); ("fwmark", VStr EmptyString); ("ip6prefix", VList []);
      ("addresses", VList (if truthy address
         then [VDict [("proto", VStr "static"); ("family", VStr "ipv4"); ("address", address); ("mask", VInt 32)]]
         else [])); ("network", VStr EmptyString)].
Definition owrt_wireguard_peer (data : dict) : res dict :=
  do name <- dgetE "interface_name" data;
  do s <- dgetE "server" data;
  do server <- as_dict s;
  do key <- dgetE "public_key" server;
  do ips <- dgetE "allowed_ips" server;
  do host <- dgetE "endpoint_host" server;
  do port <- dgetE "endpoint_port" server;
  Ok [("interface", name); ("public_key", key); ("allowed_ips", ips); ("endpoint_host", host); ("endpoint_port", port);
      ("preshared_key", VStr EmptyString); ("persistent_keepalive", VInt 60); ("route_allowed_ips", VBool true)].
Definition owrt_wireguard_auto_client (kw : dict) : res dict :=
  do data <- wireguard_auto_client kw;
  do i <- owrt_wireguard_interface data;
  do p <- owrt_wireguard_peer data;
  Ok [("interfaces", VList [VDict i]); ("wireguard_peers", VList [VDict p])].
(** openwrt.py:144-162 [OpenWrt.vxlan_wireguard_auto_client] *)
Definition owrt_vxlan_auto_client (kw : dict) : res dict :=
  do config <- owrt_wireguard_auto_client kw;
  do v <- vxlan_auto_client kw;
  do is <- dgetE "interfaces" config;
  do l <- as_list is;
  match l with
  | [] => Err EIndex
  | first :: _ =>
      do f <- as_dict first;
      do tunlink <- dgetE "name" f;
      let vxlan := [("name", dgetN "name" v); ("type", VStr "vxlan"); ("vtep", dgetN "server_ip_address" v); ("port", VInt 4789);
                    ("vni", dgetN "vni" v); ("tunlink", tunlink); ("rxcsum", VBool true); ("txcsum", VBool true);
                    ("mtu", VInt 1280); ("ttl", VInt 64); ("mac", VStr EmptyString); ("disabled", VBool false); ("network", VStr EmptyString)] in
      Ok (dset "interfaces" (VList (l ++ [VDict vxlan])) config)
  end.
(** zerotier.py:16-37 [ZeroTier.auto_client]: the result, and the caller's list
    of networks after the call, which the code updates in place *)
Definition zerotier_auto_client (kw : dict) : res (dict * list val) :=
  do networks <- as_list (vor (dgetN "networks" kw) (VList []));
  do options <- as_dict (vor (dgetN "client_options" kw) (VDict []));
  do networks <- mapM (fun v => do n <- as_dict v; Ok (VDict (dupdate n options))) networks;
  Ok ([("name", pop_or "name" (VStr "global") kw); ("networks", VList networks);
       ("secret", pop_or "identity_secret" (VStr "{{secret}}") kw);
       ("config_path", pop_or "config_path" (VStr "/etc/openwisp/zerotier") kw);
       ("disabled", pop_or "disabled" (VBool false) kw)], networks).
(** openwrt.py:164-167 [OpenWrt.zerotier_auto_client] *)
Definition owrt_zerotier_auto_client (kw : dict) : res dict :=
  do r <- zerotier_auto_client kw; Ok [("zerotier", VList [VDict (fst r)])].
