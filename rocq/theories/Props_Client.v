(** * Props_Client: C42, C45, C46: configurations derived for VPN clients *)
From Verif Require Import PyBase PyLemmas Files Conv ConvLemmas OpenVpnConv AutoClient SpecClient ClientProofs.

(** C42: what the derived OpenVPN client is *)
Theorem C42_openvpn_client : forall host server ca_path ca cert_path cert key_path key result,
  openvpn_auto_client host server ca_path ca cert_path cert key_path key = Ok result ->
  exists client f1 f2 f3, result = [("openvpn", VList [VDict client]); ("files", VList (f1 ++ f2 ++ f3))] /\
  (forall k, In k shared_settings -> dget k client = dget k server) /\
  credential "ca" ca_path ca server client f1 /\ credential "cert" cert_path cert server client f2 /\
  credential "key" key_path key server client f3 /\
  (exists port, dget "remote" client = Some (VList [VDict [("host", host); ("port", port)]]) /\
     (truthy (dgetN "port" server) = true -> dget "port" server = Some port) /\
     (truthy (dgetN "port" server) = false -> port = VInt 1195)) /\
  dget "proto" client = Some (VStr (if py_eq (dgetN "proto" server) (VStr "tcp-server") then "tcp-client" else "udp")) /\
  dget "mode" client = Some (VStr "p2p") /\ dget "nobind" client = Some (VBool true) /\
  dget "resolv_retry" client = Some (VStr "infinite") /\
  dget "pull" client = (if dmem "server" server || dmem "server_bridge" server then Some (VBool true) else None) /\
  dget "tls_client" client = Some (VBool (truthy (dgetN "tls_server" server))) /\
  (exists v, dget "ns_cert_type" client = Some v /\ purpose (dgetN "ns_cert_type" server) v) /\
  (exists v, dget "remote_cert_tls" client = Some v /\ purpose (dgetN "remote_cert_tls" server) v) /\
  (forall v, dget "tls_auth" client = Some v <->
     exists s, v = VStr s /\ dget "tls_auth" server = Some v /\ s <> EmptyString /\ ~ path_and_direction s) /\
  dget "script_security" client = (if dmem "script_security" server then Some (VInt 2) else None) /\
  (dget "log" server = None -> dget "log" client = None) /\
  (forall s, dget "log" server = Some (VStr s) -> dget "log" client = Some (VStr (replace "/var/log/openvpn/" "/var/log/" s))) /\
  (forall k, dmem k client = true -> In k (shared_settings ++ client_settings)).
Proof.
  intros host server a b c d e f result H. unfold openvpn_auto_client in H.
  apply bind_Ok in H as (ns & Hns & H). apply bind_Ok in H as (rc & Hrc & H). apply bind_Ok in H as (auth & Hauth & H). apply bind_Ok in H as (log & Hlog & H).
  apply cert_purpose in Hns. apply cert_purpose in Hrc. apply auth_spec in Hauth. apply log_spec in Hlog.
  fold (with_files (client_dict host server ns rc auth log) a b c d e f) in H. injection H as <-.
  exists (fst (with_files (client_dict host server ns rc auth log) a b c d e f)).
  eexists. eexists. eexists. split.
  { unfold with_files at 2. rewrite !client_file_pair. cbn [snd app]. rewrite <- app_assoc. reflexivity. }
  assert (G : forall k, ~ In k ["ca"; "cert"; "key"] -> dget k (fst (with_files (client_dict host server ns rc auth log) a b c d e f)) = dget k (client_dict host server ns rc auth log)).
  { intros k Hk. rewrite with_files_get. rewrite !eqb_neq by (intros ->; apply Hk; cbn; auto). now rewrite !andb_false_r. }
  assert (Cred : forall field path contents, dget field (fst (with_files (client_dict host server ns rc auth log) a b c d e f)) = (if truthy path && truthy contents then Some path else dget field server) ->
    credential field path contents server (fst (with_files (client_dict host server ns rc auth log) a b c d e f))
      (if truthy path && truthy contents then [VDict [("path", path); ("contents", contents); ("mode", VStr "0600")]] else [])).
  { intros field path contents E. unfold credential, given. rewrite E. destruct (truthy path), (truthy contents); cbn [andb]; split; intros Hg; try (destruct Hg; discriminate); auto; now elim Hg. }
  assert (L : forall k, k <> "log" -> match (match log with Some v => if String.eqb k "log" then Some v else None | None => None end) with Some v => Some v | None => None end = (None : option val)).
  { intros k Hk. rewrite eqb_neq by assumption. now destruct log. }
  assert (N : forall (A : Type) (o : option A), match o with Some _ => (None : option val) | None => None end = None) by (intros A [|]; reflexivity).
  split; [|split; [|split; [|split]]].
  - intros k Hk. rewrite G.
    2:{ intros Hx. cbn [In] in Hx. destruct Hx as [<- | [<- | [<- | []]]]; unfold shared_settings in Hk; cbn [In] in Hk; intuition discriminate. }
    rewrite client_get. unfold base_get. unfold shared_settings in Hk; cbn [In] in Hk.
    repeat (destruct Hk as [<- | Hk]; [destruct log, auth; cbn; rewrite ?andb_false_r; match goal with |- context [dget ?x server] => case (dget x server); intros; reflexivity end|]). destruct Hk.
  - apply Cred. rewrite with_files_get, client_get. unfold base_get. destruct log, auth; cbn; rewrite ?andb_false_r, ?andb_true_r; destruct (truthy a && truthy b); auto; match goal with |- context [dget ?x server] => case (dget x server); intros; reflexivity end.
  - apply Cred. rewrite with_files_get, client_get. unfold base_get. destruct log, auth; cbn; rewrite ?andb_false_r, ?andb_true_r; destruct (truthy c && truthy d); auto; match goal with |- context [dget ?x server] => case (dget x server); intros; reflexivity end.
  - apply Cred. rewrite with_files_get, client_get. unfold base_get. destruct log, auth; cbn; rewrite ?andb_false_r, ?andb_true_r; destruct (truthy e && truthy f); auto; match goal with |- context [dget ?x server] => case (dget x server); intros; reflexivity end.
  - assert (K : forall k, ~ In k ["ca"; "cert"; "key"] -> existsb (String.eqb k) copy_keys = false -> k <> "log" -> k <> "script_security" ->
      dget k (fst (with_files (client_dict host server ns rc auth log) a b c d e f)) = base_get host server ns rc auth k).
    { intros k H1 H2 H3 H4. rewrite G, client_get, H2, (eqb_neq k "script_security") by assumption. rewrite andb_false_r.
      destruct log; [rewrite eqb_neq by assumption|]; reflexivity. }
    assert (NI : forall k, In k ["remote"; "proto"; "mode"; "nobind"; "resolv_retry"; "pull"; "tls_client"; "ns_cert_type"; "remote_cert_tls"; "tls_auth"] ->
      ~ In k ["ca"; "cert"; "key"] /\ existsb (String.eqb k) copy_keys = false /\ k <> "log" /\ k <> "script_security").
    { intros k Hk. cbn [In] in Hk. repeat (destruct Hk as [<- | Hk]; [repeat split; try discriminate; cbn; intuition discriminate|]). destruct Hk. }
    assert (K' : forall k, In k ["remote"; "proto"; "mode"; "nobind"; "resolv_retry"; "pull"; "tls_client"; "ns_cert_type"; "remote_cert_tls"; "tls_auth"] ->
      dget k (fst (with_files (client_dict host server ns rc auth log) a b c d e f)) = base_get host server ns rc auth k).
    { intros k Hk. destruct (NI k Hk) as (H1 & H2 & H3 & H4). now apply K. }
    split; [|split; [|split; [|split; [|split; [|split; [|split; [|split; [|split; [|split; [|split; [|split; [|split]]]]]]]]]]]].
    + exists (vor (dgetN "port" server) (VInt 1195)). rewrite K' by (cbn; auto 12). unfold base_get, vor. split; [destruct auth; cbn; now rewrite ?andb_false_r|].
      split; intros Hp; rewrite Hp; [|reflexivity]. apply dgetN_some; [reflexivity|]. intros Hx. rewrite Hx in Hp. discriminate.
    + rewrite K' by (cbn; auto 12). unfold base_get. destruct auth; cbn; now rewrite ?andb_false_r.
    + rewrite K' by (cbn; auto 12). unfold base_get. destruct auth; cbn; now rewrite ?andb_false_r.
    + rewrite K' by (cbn; auto 12). unfold base_get. destruct auth; cbn; now rewrite ?andb_false_r.
    + rewrite K' by (cbn; auto 12). unfold base_get. destruct auth; cbn; now rewrite ?andb_false_r.
    + rewrite K' by (cbn; auto 12). unfold base_get. destruct auth; cbn; rewrite ?andb_false_r, ?andb_true_r; reflexivity.
    + rewrite K' by (cbn; auto 12). unfold base_get, dgetN, dmem. destruct (dget "tls_server" server) as [v|]; destruct auth; cbn; rewrite ?andb_false_r, ?andb_true_r; try reflexivity; destruct (truthy v); reflexivity.
    + exists ns. split; [|assumption]. rewrite K' by (cbn; auto 12). unfold base_get. destruct auth; reflexivity.
    + exists rc. split; [|assumption]. rewrite K' by (cbn; auto 12). unfold base_get. destruct auth; reflexivity.
    + intros v. rewrite K' by (cbn; auto 12). unfold base_get. destruct auth as [av|]; cbn; rewrite ?andb_false_r; split.
      * intros [= <-]. exact Hauth.
      * intros (s & -> & Hs & _). destruct Hauth as (s' & -> & Hs' & _). congruence.
      * discriminate.
      * intros (s & -> & Hs & Hne & Hp). destruct Hauth as [Hf | (s' & Hs' & Hp')]; [|congruence].
        unfold dgetN in Hf. rewrite Hs in Hf. rewrite truthy_str in Hf by assumption. discriminate.
    + rewrite G by (cbn; intuition discriminate). rewrite client_get. unfold base_get. destruct log, auth; cbn; rewrite ?andb_false_r, ?andb_true_r; reflexivity.
    + intros Hl. rewrite G by (cbn; intuition discriminate). rewrite client_get. destruct log as [v|]; [destruct Hlog as (s & Hs & _); congruence|].
      unfold base_get. destruct auth; cbn; rewrite ?andb_false_r; reflexivity.
    + intros s Hl. rewrite G by (cbn; intuition discriminate). rewrite client_get. destruct log as [v|]; [|congruence].
      destruct Hlog as (s' & Hs & ->). rewrite Hl in Hs. injection Hs as <-. reflexivity.
    + intros k Hk. destruct (in_dec string_dec k (shared_settings ++ client_settings)) as [Hi | Hi]; [assumption|]. exfalso.
      assert (X : forall s, In s (shared_settings ++ client_settings) -> String.eqb k s = false).
      { intros s Hs. apply eqb_neq. intros ->. contradiction. }
      assert (CK : existsb (String.eqb k) copy_keys = false).
      { destruct (existsb (String.eqb k) copy_keys) eqn:E; [|reflexivity]. apply existsb_exists in E as (s & Hs & E).
        rewrite X in E; [discriminate|]. clear -Hs. cbn in Hs. repeat (destruct Hs as [<- | Hs]; [cbn; tauto|]). destruct Hs. }
      unfold dmem in Hk. rewrite with_files_get, client_get, CK in Hk. unfold base_get in Hk. cbn [dget] in Hk.
      rewrite !X in Hk by (cbn; tauto). rewrite !andb_false_r in Hk. destruct log, auth; discriminate.
Qed.

(** When deriving a client fails: the purposes of the certificates must be unset
    or "client", the inline key and the log must be texts. *)
Theorem C42_openvpn_client_failure : forall host server ca_path ca cert_path cert key_path key,
  (exists result, openvpn_auto_client host server ca_path ca cert_path cert key_path key = Ok result) <->
  (exists v, purpose (dgetN "ns_cert_type" server) v) /\ (exists v, purpose (dgetN "remote_cert_tls" server) v) /\
  (truthy (dgetN "tls_auth" server) = false \/ exists s, dget "tls_auth" server = Some (VStr s)) /\
  (dget "log" server = None \/ exists s, dget "log" server = Some (VStr s)).
Proof.
  intros host server a b c d e f. rewrite <- auth_ok, <- log_ok. unfold openvpn_auto_client, is_Ok. split.
  - intros (r & H). apply bind_Ok in H as (ns & Hns & H). apply bind_Ok in H as (rc & Hrc & H).
    apply bind_Ok in H as (auth & Hauth & H). apply bind_Ok in H as (log & Hlog & H).
    apply cert_purpose in Hns. apply cert_purpose in Hrc. repeat split; eauto.
  - intros ((ns & Hns) & (rc & Hrc) & (auth & Hauth) & (log & Hlog)). apply cert_purpose in Hns. apply cert_purpose in Hrc.
    rewrite Hns, Hrc, Hauth, Hlog. cbn [bind]. eauto.
Qed.

(** Both ends write the same inline key to a file, the server using it in
    direction 0 and the client in direction 1. *)
Theorem C42_shared_key : forall host server ca_path ca cert_path cert key_path key s client rest sec_s file_s sec_c file_c,
  NoDup (dkeys server) -> dget "mode" server = Some (VStr "server") ->
  dget "tls_auth" server = Some (VStr s) -> s <> EmptyString -> ~ path_and_direction s ->
  openvpn_auto_client host server ca_path ca cert_path cert key_path key = Ok (("openvpn", VList [VDict client]) :: rest) ->
  vpn_section remove_all server = Ok (sec_s, file_s) ->
  vpn_section remove_all client = Ok (sec_c, file_c) ->
  exists path_s path_c,
    dget "tls_auth" sec_s = Some (VStr (path_s +++ " 0")) /\
    file_s = Some [("path", VStr path_s); ("mode", VStr "0600"); ("contents", VStr (strip s))] /\
    dget "tls_auth" sec_c = Some (VStr (path_c +++ " 1")) /\
    file_c = Some [("path", VStr path_c); ("mode", VStr "0600"); ("contents", VStr (strip s))].
Proof.
  intros host server a b c d e f s client rest sec_s file_s sec_c file_c Hnd Hm Ht Hs Hp H Hvs Hvc.
  assert (Hvs' := inline_key _ _ _ _ _ Hnd Ht Hs Hp Hm ltac:(discriminate) Hvs). destruct Hvs' as (ps & Es & ->). cbn in Es.
  assert (Hn : NoDup (dkeys client)).
  { unfold openvpn_auto_client in H. apply bind_Ok in H as (ns & _ & H). apply bind_Ok in H as (rc & _ & H). apply bind_Ok in H as (auth & _ & H). apply bind_Ok in H as (log & _ & H).
    fold (with_files (client_dict host server ns rc auth log) a b c d e f) in H. injection H as <- _. apply with_files_nodup, client_dict_nodup. }
  apply C42_openvpn_client in H as (client' & f1 & f2 & f3 & E & _ & _ & _ & _ & _ & _ & Hmode & _ & _ & _ & _ & _ & _ & Hauth & _).
  injection E as <- _. assert (Hc : dget "tls_auth" client = Some (VStr s)) by (apply Hauth; exists s; auto).
  assert (Hvc' := inline_key _ _ _ _ _ Hn Hc Hs Hp Hmode ltac:(discriminate) Hvc). destruct Hvc' as (pc & Ec & ->). cbn in Ec.
  exists ps, pc. auto.
Qed.

(** A server with an inline key, and the client derived for it *)
Definition sample_server : dict :=
  [("name", VStr "vpn"); ("mode", VStr "server"); ("proto", VStr "tcp-server"); ("port", VInt 1194); ("dev", VStr "tap0");
   ("cipher", VStr "AES-128-GCM"); ("tls_server", VBool true); ("server", VStr "10.8.0.0 255.255.0.0"); ("ns_cert_type", VStr "client");
   ("tls_auth", VStr "-----BEGIN OpenVPN Static key V1-----"); ("log", VStr "/var/log/openvpn/vpn.log")].
Example C42_applies :
  openvpn_auto_client (VStr "vpn.test") sample_server (VStr "/etc/ca.pem") (VStr "CA") VNull VNull VNull VNull =
  Ok [("openvpn", VList [VDict
        [("mode", VStr "p2p"); ("nobind", VBool true); ("resolv_retry", VStr "infinite"); ("tls_client", VBool true);
         ("remote", VList [VDict [("host", VStr "vpn.test"); ("port", VInt 1194)]]); ("proto", VStr "tcp-client"); ("pull", VBool true);
         ("ns_cert_type", VStr "server"); ("remote_cert_tls", VStr ""); ("tls_auth", VStr "-----BEGIN OpenVPN Static key V1-----");
         ("name", VStr "vpn"); ("dev", VStr "tap0"); ("cipher", VStr "AES-128-GCM"); ("log", VStr "/var/log/vpn.log"); ("ca", VStr "/etc/ca.pem")]]);
      ("files", VList [VDict [("path", VStr "/etc/ca.pem"); ("contents", VStr "CA"); ("mode", VStr "0600")]])] /\
  (exists x y, vpn_section remove_all sample_server = Ok (x, y)) /\ ~ path_and_direction "-----BEGIN OpenVPN Static key V1-----".
Proof. split; [reflexivity|]. split; [eexists; eexists; reflexivity|]. intros H. apply two_parts in H. discriminate. Qed.
(** A certificate purpose other than "client" is refused. *)
Example C42_refused : openvpn_auto_client (VStr "h") [("ns_cert_type", VStr "server")] VNull VNull VNull VNull VNull VNull = Err (EKey "server").
Proof. reflexivity. Qed.

(** C45: the WireGuard client *)
Theorem C45_wireguard_client : forall arguments server,
  value_or "server" (VDict []) arguments = VDict server ->
  exists interface peer,
    owrt_wireguard_auto_client arguments = Ok [("interfaces", VList [VDict interface]); ("wireguard_peers", VList [VDict peer])] /\
    dget "type" interface = Some (VStr "wireguard") /\
    dget "name" interface = Some (value_or "name" (VStr "") server) /\
    dget "interface" peer = dget "name" interface /\
    dget "port" interface = Some (value_or "port" (VInt 51820) arguments) /\
    dget "private_key" interface = Some (value_or "private_key" (VStr "{{private_key}}") arguments) /\
    (let ip := value_or "ip_address" VNull arguments in
     dget "addresses" interface = Some (VList (if truthy ip
       then [VDict [("proto", VStr "static"); ("family", VStr "ipv4"); ("address", ip); ("mask", VInt 32)]] else []))) /\
    dget "public_key" peer = Some (value_or "public_key" (VStr "") arguments) /\
    dget "endpoint_host" peer = Some (value_or "host" (VStr "") arguments) /\
    dget "endpoint_port" peer = Some (value_or "port" (VInt 51820) server) /\
    dget "allowed_ips" peer = Some (VList [value_or "server_ip_network" (VStr "") arguments]) /\
    dget "preshared_key" peer = Some (VStr "") /\ dget "persistent_keepalive" peer = Some (VInt 60) /\
    dget "route_allowed_ips" peer = Some (VBool true).
Proof.
  intros kw server H. unfold owrt_wireguard_auto_client, wireguard_auto_client.
  replace (pop_or "server" (VDict []) kw) with (VDict server) by (symmetry; exact H). cbn [as_dict bind].
  eexists. eexists. split; [reflexivity|]. cbn [dget]. repeat split.
Qed.
(** A second interface is added for a VXLAN, whose tunnel link is the WireGuard
    interface. *)
Theorem C45_vxlan_client : forall arguments server vxlan,
  value_or "server" (VDict []) arguments = VDict server ->
  vor (value_or "vxlan" VNull arguments) (VDict []) = VDict vxlan ->
  exists interface peers second,
    owrt_wireguard_auto_client arguments = Ok [("interfaces", VList [VDict interface]); ("wireguard_peers", peers)] /\
    owrt_vxlan_auto_client arguments = Ok [("interfaces", VList [VDict interface; VDict second]); ("wireguard_peers", peers)] /\
    dget "type" second = Some (VStr "vxlan") /\ dget "tunlink" second = dget "name" interface /\
    dget "name" second = Some (value_or "name" (VStr "vxlan") vxlan) /\
    dget "vtep" second = Some (value_or "server_ip_address" (VStr "") arguments) /\
    dget "vni" second = Some (value_or "vni" (VInt 0) arguments).
Proof.
  intros kw server vxlan H H'. unfold owrt_vxlan_auto_client, vxlan_auto_client, owrt_wireguard_auto_client, wireguard_auto_client.
  replace (pop_or "server" (VDict []) kw) with (VDict server) by (symmetry; exact H).
  replace (vor (dgetN "vxlan" kw) (VDict [])) with (VDict vxlan) by (symmetry; exact H'). cbn [as_dict bind].
  do 3 eexists. split; [reflexivity|]. split; [reflexivity|]. cbn [dget]. repeat split.
Qed.
Definition sample_arguments : dict :=
  [("host", VStr "wg.test"); ("public_key", VStr "PUB"); ("ip_address", VStr "10.0.0.2"); ("server_ip_network", VStr "10.0.0.0/24");
   ("server", VDict [("name", VStr "wg0"); ("port", VInt 40842)]); ("vni", VInt 7)].
Example C45_applies : value_or "server" (VDict []) sample_arguments = VDict [("name", VStr "wg0"); ("port", VInt 40842)] /\
  vor (value_or "vxlan" VNull sample_arguments) (VDict []) = VDict [].
Proof. split; reflexivity. Qed.

(** C46: the ZeroTier client has the networks of the server, with the options
    given for the client taking precedence; the caller's networks change the same
    way. *)
Theorem C46_zerotier_client : forall arguments networks options, NoDup (dkeys options) ->
  vor (value_or "networks" VNull arguments) (VList []) = VList (map VDict networks) ->
  vor (value_or "client_options" VNull arguments) (VDict []) = VDict options ->
  exists client joined,
    zerotier_auto_client arguments = Ok (client, map VDict joined) /\
    owrt_zerotier_auto_client arguments = Ok [("zerotier", VList [VDict client])] /\
    dget "networks" client = Some (VList (map VDict joined)) /\
    Forall2 (fun network network' => forall k, dget k network' = match dget k options with Some v => Some v | None => dget k network end) networks joined /\
    dget "name" client = Some (value_or "name" (VStr "global") arguments) /\
    dget "secret" client = Some (value_or "identity_secret" (VStr "{{secret}}") arguments) /\
    dget "config_path" client = Some (value_or "config_path" (VStr "/etc/openwisp/zerotier") arguments) /\
    dget "disabled" client = Some (value_or "disabled" (VBool false) arguments).
Proof.
  intros kw networks options Hnd H H'. unfold owrt_zerotier_auto_client, zerotier_auto_client.
  replace (vor (dgetN "networks" kw) (VList [])) with (VList (map VDict networks)) by (symmetry; exact H).
  replace (vor (dgetN "client_options" kw) (VDict [])) with (VDict options) by (symmetry; exact H'). cbn [as_list as_dict bind].
  assert (E : mapM (fun v => do n <- as_dict v; Ok (VDict (dupdate n options))) (map VDict networks) = Ok (map VDict (map (fun n => dupdate n options) networks))).
  { clear. induction networks as [|n t IH]; [reflexivity|]. cbn [map mapM as_dict bind]. rewrite IH. reflexivity. }
  rewrite E. cbn [bind fst]. do 2 eexists. split; [reflexivity|]. split; [reflexivity|]. cbn [dget]. split; [reflexivity|].
  split; [|repeat split].
  clear - Hnd. induction networks as [|n t IH]; constructor; [|assumption]. clear IH. intros k.
  revert n. induction options as [|(k', v') o IH]; intros n; [reflexivity|]. inversion_clear Hnd. rewrite dupdate_cons, IH by assumption. cbn [dget]. rewrite dget_dset.
  destruct (String.eqb_spec k k') as [-> | Hk]; [|reflexivity]. rewrite (proj2 (dget_None _ _)); auto.
Qed.
(** The device map of a ZeroTier VPN on OpenWrt: one line for each network; it is
    the only file with its path, the contents of the files of the user with that
    path being added to it; the other files are kept. *)
Theorem C46_device_map : forall vpn path networks files files',
  value_or "config_path" (VStr "/etc/openwisp/zerotier") vpn = VStr path ->
  value_or "networks" (VList []) vpn = VList (map VDict networks) ->
  zt_files vpn (VList files) = Ok files' ->
  let map_path := path +++ "/devicemap" in
  exists kept same,
    files' = kept ++ [VDict [("path", VStr map_path); ("mode", VStr "0644");
      ("contents", VStr ("# network_id=interface_name" +++ NL +++ concat_all (map device_line networks) +++ concat_all (map (String.append NL) same)))]] /\
    (forall v, In v kept <-> In v files /\ ~ at_path map_path v) /\
    (forall s, In s same <-> exists f, In (VDict f) files /\ at_path map_path (VDict f) /\ dget "contents" f = Some (VStr s)).
Proof.
  intros vpn path networks files files' Hp Hn H mp. unfold zt_files in H.
  replace (pop_or "config_path" zt_default_path vpn) with (VStr path) in H by (symmetry; exact Hp).
  replace (pop_or "networks" (VList []) vpn) with (VList (map VDict networks)) in H by (symmetry; exact Hn).
  cbn [as_list bind py_str] in H.
  assert (E : mapM zt_line (map VDict networks) = Ok (map device_line networks)).
  { clear. induction networks as [|n t IH]; [reflexivity|]. cbn [map mapM zt_line as_dict bind]. rewrite IH. reflexivity. }
  rewrite E in H. cbn [bind] in H. rewrite fold_append in H. fold (concat_all (map device_line networks)) in H. fold mp in H. rewrite app_assoc_s in H.
  destruct files as [|f0 files0].
  - cbn [truthy negb] in H. injection H as <-. exists [], []. cbn [map concat_all fold_right]. rewrite app_nil_s. split; [reflexivity|]. split.
    + intros v. cbn. tauto.
    + intros s. cbn. split; [tauto | intros (f & [] & _)].
  - remember (f0 :: files0) as files eqn:Ef. replace (truthy (VList files)) with true in H by (rewrite Ef; reflexivity). clear Ef. cbn [negb as_list bind] in H. apply bind_Ok in H as (r & Hr & H). injection H as <-.
    apply zt_fold_spec in Hr as (kept & same & H1 & H2 & H3 & H4). exists kept, same.
    assert (D : forall f, py_eq (dgetN "path" f) (VStr mp) = true <-> at_path mp (VDict f)).
    { intros f. unfold at_path, dgetN. split.
      - intros Hq. exists f. split; [reflexivity|]. destruct (dget "path" f) as [v|]; [|discriminate]. destruct v; try discriminate. cbn in Hq. apply String.eqb_eq in Hq. congruence.
      - intros (f' & [= <-] & ->). cbn. apply String.eqb_refl. }
    split.
    { rewrite H1, H2. f_equal. f_equal. do 4 f_equal. f_equal. f_equal. rewrite !app_assoc_s. do 3 f_equal.
      clear. induction same as [|s t IH]; [reflexivity|]. cbn [map fold_right concat_all]. rewrite IH, <- app_assoc_s. reflexivity. }
    split.
    + intros v. rewrite H3, filter_In. apply and_iff_compat_l. destruct v; try (split; [intros _ (f & Hf & _); discriminate | reflexivity]).
      rewrite <- D, negb_true_iff. now destruct (py_eq _ _).
    + intros s. split.
      * intros Hs. apply (in_map (fun s => Some (VStr s))) in Hs. rewrite H4 in Hs. apply in_map_iff in Hs as (v & Hv & Hi). apply filter_In in Hi as (Hi & Hc).
        destruct v; try discriminate. apply D in Hc. eauto.
      * intros (f & Hi & Ha & Hc). assert (X : In (Some (VStr s)) (map (fun s => Some (VStr s)) same)).
        { rewrite H4. apply in_map_iff. exists (VDict f). split; [assumption|]. apply filter_In. split; [assumption | now apply D]. }
        apply in_map_iff in X as (s' & [= ->] & Hs). assumption.
Qed.
Example C46_applies :
  zt_files [("name", VStr "zt"); ("networks", VList [VDict [("id", VStr "9536600adf654321"); ("ifname", VStr "owzt654321")]])]
    (VList [VDict [("path", VStr "/etc/motd"); ("contents", VStr "hi")];
            VDict [("path", VStr "/etc/openwisp/zerotier/devicemap"); ("contents", VStr "a=b")]]) =
  Ok [VDict [("path", VStr "/etc/motd"); ("contents", VStr "hi")];
      VDict [("path", VStr "/etc/openwisp/zerotier/devicemap"); ("mode", VStr "0644");
             ("contents", VStr ("# network_id=interface_name" +++ NL +++ "9536600adf654321=owzt654321" +++ NL +++ NL +++ "a=b"))]].
Proof. reflexivity. Qed.
Print Assumptions C42_openvpn_client.
Print Assumptions C42_openvpn_client_failure.
Print Assumptions C42_shared_key.
Print Assumptions C45_wireguard_client.
Print Assumptions C45_vxlan_client.
Print Assumptions C46_zerotier_client.
Print Assumptions C46_device_map.
