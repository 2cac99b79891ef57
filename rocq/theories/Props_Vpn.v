(** * Props_Vpn: C43, C44: the text and the archive of VPN configurations *)
From Verif Require Import PyBase PyLemmas StrLemmas Files SpecFiles Backend Conv ConvLemmas OpenVpnConv VpnText SpecUci SpecUciMore UciProofs UciParseProofs UciRoundTrip UciMore SpecVpn VpnProofs VpnApi VpnArchive SpecWg WgProofs WgArchive.

(** ** C43: OpenVPN *)

(** C43: the parser of OpenVPN text reads back what the template wrote, for any
    options and values: each option has its last argument, as text. *)
Theorem C43_text_round_trip : forall data vs,
  dget "openvpn" data = Some (VList (map VDict vs)) -> vs <> [] -> Forall vpn_ok vs ->
  exists text vs', render_openvpn data = Ok text /\ parse_openvpn text = [("openvpn", VList (map VDict vs'))] /\ Forall2 vpn_reads vs vs'.
Proof. exact text_round_trip. Qed.
(** C43: rendering a valid set of servers succeeds *)
Theorem C43_renders : forall oid schema_ok config vs c',
  dget "openvpn" config = Some (VList (map VDict vs)) -> vs <> [] -> Forall server_ok vs ->
  base_validate schema_ok config = Ok tt -> deduplicate_files config = Ok c' ->
  exists s1 text, render oid (openvpn_backend schema_ok) false (fresh config) = (s1, Ok text).
Proof. intros oid sc config vs c' H1 H2 H3 H4 H5. exact (server_renders oid sc config vs c' H1 H2 H3 H4 H5). Qed.
(** C43: and parsing the text gives the same servers with their typed settings,
    without those that have no effect; nothing else is read. *)
Theorem C43_server_round_trip : forall oid schema_ok config vs s1 text,
  dget "openvpn" config = Some (VList (map VDict vs)) -> vs <> [] -> Forall server_ok vs ->
  render oid (openvpn_backend schema_ok) false (fresh config) = (s1, Ok text) ->
  forall s0, exists vs' inter, let config' := [("openvpn", VList (map VDict vs'))] in
    parse oid (openvpn_backend schema_ok) (Ok (parse_openvpn text)) s0
      = ({| st_config := config'; st_inter := inter |}, base_validate schema_ok config') /\
    Forall2 server_reads vs vs'.
Proof. intros oid sc config vs s1 text H1 H2 H3 H4. exact (server_round_trip oid sc config vs s1 text H1 H2 H3 H4). Qed.
(** C43: the archive is read like the text, provided no file of the user ends in .conf *)
Theorem C43_archive : forall oid schema_ok config vs s1 s2 text files tar,
  dget "openvpn" config = Some (VList (map VDict vs)) -> vs <> [] -> Forall server_ok vs ->
  (forall v n, In v vs -> dget "name" v = Some (VStr n) -> contains ".conf" n = false) ->
  render oid (openvpn_backend schema_ok) false (fresh config) = (s1, Ok text) -> ascii_text text ->
  get_files (st_config s1) = Ok files ->
  (forall f p q, In f files -> file_path f p -> relative_of p q -> endswith ".conf" q = false) ->
  generate oid (openvpn_backend schema_ok) (fresh config) = (s2, Ok tar) ->
  forall s0, parse oid (openvpn_backend schema_ok) (parse_openvpn_tar tar) s0
           = parse oid (openvpn_backend schema_ok) (Ok (parse_openvpn text)) s0.
Proof.
  intros oid sc config vs s1 s2 text files tar H1 H2 H3 H4 H5 H6 H7 H8 H9 s0.
  now rewrite (server_generate oid sc config vs s1 s2 text files tar H1 H2 H3 H4 H5 H6 H7 H8 H9).
Qed.
(** C43 (deviation): whatever the text, a VPN with a remote cannot be parsed *)
Theorem C43_remote_unreadable : forall oid schema_ok text vs s0,
  parse_openvpn text = [("openvpn", VList (map VDict vs))] -> (exists v, In v vs /\ dmem "remote" v = true) ->
  exists s1 e, parse oid (openvpn_backend schema_ok) (Ok (parse_openvpn text)) s0 = (s1, Err e).
Proof. intros oid sc text vs s0 H1 H2. exact (remote_unreadable oid sc text vs s0 H1 H2). Qed.
Print Assumptions C43_text_round_trip.
Print Assumptions C43_renders.
Print Assumptions C43_server_round_trip.
Print Assumptions C43_archive.
Print Assumptions C43_remote_unreadable.

Definition any_schema (d : dict) : res unit := Ok tt.
Definition no_oid : Merge.oracle := fun _ i => i.
Definition server1 : dict :=
  [("name", VStr "office"); ("port", VInt 1194); ("persist_tun", VBool true); ("persist_key", VBool false);
   ("data_ciphers", VList [VDict [("cipher", VStr "AES-256-GCM"); ("optional", VBool false)]; VDict [("cipher", VStr "AES-128-GCM"); ("optional", VBool true)]]);
   ("server_bridge", VStr ""); ("cert", VStr ""); ("tls_auth", VStr "/etc/ta.key 0"); ("log", VStr "/var/log/my vpn.log")].
Definition server2 : dict := [("name", VStr "lab"); ("dev", VStr "tun0"); ("verb", VInt 0)].
Definition servers : dict := [("openvpn", VList [VDict server1; VDict server2]); ("files", VList [VDict [("path", VStr "/etc/ta.key"); ("contents", VStr "secret"); ("mode", VStr "0600")]])].
Ltac line_is := split; [discriminate | split; [reflexivity | split; [apply no_char_spec; reflexivity | reflexivity]]].
Example servers_ok : Forall server_ok [server1; server2].
Proof.
  constructor; [|constructor; [|constructor]]; (split; [repeat constructor; cbn; intuition discriminate|]; split; [eexists; split; [reflexivity | line_is]|]); intros k x H; cbn in H;
    each_in H; injection H as <- <-; intros Hn; try congruence; (split; [repeat split; try discriminate; try reflexivity; apply no_char_spec; reflexivity|]).
  - left. split; [cbn; auto | eauto].
  - right; left. split; [cbn; auto 20 | eauto].
  - right; left. split; [cbn; auto 20 | eauto].
  - right; right; left. split; [reflexivity|]. eexists. split; [reflexivity|].
    repeat constructor; eexists _, _; (split; [reflexivity|]); (split; [split; [discriminate | reflexivity]|]); (split; [apply no_char_spec; reflexivity | reflexivity]).
  - right; right; right; right. split; [cbn; intuition discriminate|]. eexists. split; [reflexivity | now left].
  - right; right; right; right. split; [cbn; intuition discriminate|]. eexists. split; [reflexivity | now left].
  - right; right; right; left. split; [reflexivity|]. exists "/etc/ta.key", "0". split; [reflexivity|]. split; split; try discriminate; reflexivity.
  - right; right; right; right. split; [cbn; intuition discriminate|]. eexists. split; [reflexivity | right; line_is].
  - right; right; right; right. split; [cbn; intuition discriminate|]. eexists. split; [reflexivity | right; line_is].
  - left. split; [cbn; auto 20 | eauto].
Qed.
Example servers_read :
  match generate no_oid (openvpn_backend any_schema) (fresh servers) with
  | (_, Ok tar) =>
      (map m_name tar, parse no_oid (openvpn_backend any_schema) (parse_openvpn_tar tar) (fresh []))
      = (["office.conf"; "lab.conf"; "etc/ta.key"],
         ({| st_config := [("openvpn", VList [
             VDict [("data_ciphers", VList [VDict [("cipher", VStr "AES-256-GCM"); ("optional", VBool false)]; VDict [("cipher", VStr "AES-128-GCM"); ("optional", VBool true)]]);
                    ("log", VStr "/var/log/my vpn.log"); ("name", VStr "office"); ("persist_tun", VBool true); ("port", VInt 1194);
                    ("server_bridge", VStr ""); ("tls_auth", VStr "/etc/ta.key 0")];
             VDict [("dev", VStr "tun0"); ("name", VStr "lab")]])];
            st_inter := st_inter (fst (parse no_oid (openvpn_backend any_schema) (parse_openvpn_tar tar) (fresh []))) |}, Ok tt))
  | _ => False
  end.
Proof. vm_compute. reflexivity. Qed.
(** A client cannot be parsed *)
Definition client1 : dict := [("openvpn", VList [VDict [("name", VStr "c"); ("remote", VList [VDict [("host", VStr "vpn.example.org"); ("port", VInt 1194)]])]])].
Example client_unreadable :
  match render no_oid (openvpn_backend any_schema) false (fresh client1) with
  | (_, Ok text) => snd (parse no_oid (openvpn_backend any_schema) (Ok (parse_openvpn text)) (fresh [])) = Err EIndex
  | _ => False
  end.
Proof. vm_compute. reflexivity. Qed.
(** The condition on the user's files is needed: a file ending in .conf is read as a VPN *)
Example conf_file_read :
  match generate no_oid (openvpn_backend any_schema) (fresh [("openvpn", VList [VDict [("name", VStr "a"); ("dev", VStr "tun0")]]);
          ("files", VList [VDict [("path", VStr "/etc/dnsmasq.conf"); ("contents", VStr "no-resolv"); ("mode", VStr "0644")]])]) with
  | (_, Ok tar) => st_config (fst (parse no_oid (openvpn_backend any_schema) (parse_openvpn_tar tar) (fresh [])))
      = [("openvpn", VList [VDict [("dev", VStr "tun0"); ("name", VStr "a")]; VDict [("name", VStr "etc/dnsmasq"); ("no_resolv", VBool true)]])]
  | _ => False
  end.
Proof. vm_compute. reflexivity. Qed.

(** ** C44: WireGuard *)

(** C44: a reader of the rendered text finds, for each interface in order, one
    Interface section with exactly its settings, followed by one Peer section
    for each of its peers, in order, with exactly their settings. *)
Theorem C44_text_read : forall oid schema_ok config vs s1 text,
  dget "wireguard" config = Some (VList (map VDict vs)) -> vs <> [] -> Forall wg_ok vs ->
  render oid (wireguard_backend schema_ok) false (fresh config) = (s1, Ok text) ->
  exists groups, wg_read text = concat groups /\ Forall2 wg_reads vs groups.
Proof. intros oid sc config vs s1 text H1 H2 H3 H4. exact (wg_text_read oid sc config vs s1 text H1 H2 H3 H4). Qed.
(** C44: rendering succeeds *)
Theorem C44_renders : forall oid schema_ok config vs c',
  dget "wireguard" config = Some (VList (map VDict vs)) -> vs <> [] -> Forall wg_ok vs ->
  base_validate schema_ok config = Ok tt -> deduplicate_files config = Ok c' ->
  exists s1 text, render oid (wireguard_backend schema_ok) false (fresh config) = (s1, Ok text).
Proof. intros oid sc config vs c' H1 H2 H3 H4 H5. exact (wg_renders oid sc config vs c' H1 H2 H3 H4 H5). Qed.
(** C44: the archive has one member NAME.conf for each interface, in order, that
    holds the sections of that interface and of no other *)
Theorem C44_archive : forall oid schema_ok config vs s1 s2 text tar,
  dget "wireguard" config = Some (VList (map VDict vs)) -> vs <> [] -> Forall wg_ok vs ->
  (forall v n, In v vs -> dget "name" v = Some (VStr n) -> contains ".conf" n = false) ->
  render oid (wireguard_backend schema_ok) false (fresh config) = (s1, Ok text) -> ascii_text text ->
  generate oid (wireguard_backend schema_ok) (fresh config) = (s2, Ok tar) ->
  exists ms ms', tar = (ms ++ ms')%list /\ Forall2 wg_stored vs ms.
Proof. intros oid sc config vs s1 s2 text tar H1 H2 H3 H4 H5 H6 H7. exact (wg_generate oid sc config vs s1 s2 text tar H1 H2 H3 H4 H5 H6 H7). Qed.
(** C44 (deviation): an interface without port, private key or address, of which
    the schema requires only the first two, cannot be rendered *)
Theorem C44_required : forall oid schema_ok config vs v k,
  dget "wireguard" config = Some (VList (map VDict vs)) -> In v vs -> In k ["port"; "private_key"; "address"] -> dget k v = None ->
  exists s1 e, render oid (wireguard_backend schema_ok) false (fresh config) = (s1, Err e).
Proof. intros oid sc config vs v k H1 H2 H3 H4. exact (wg_required_keys oid sc config vs v k H1 H2 H3 H4). Qed.
(** C44: the backend has no parser *)
Theorem C44_no_parser : forall oid schema_ok inter s0, dmem "wireguard" inter = true ->
  snd (parse oid (wireguard_backend schema_ok) (Ok inter) s0) = Err ENotImpl.
Proof. intros oid sc inter s0 H. unfold parse, to_netjson. cbn. rewrite H. reflexivity. Qed.
Print Assumptions C44_text_read.
Print Assumptions C44_renders.
Print Assumptions C44_archive.
Print Assumptions C44_required.

Definition wg1 : dict :=
  [("name", VStr "wg0"); ("port", VInt 51820); ("private_key", VStr "QFvbsZFlQ6kl7Y="); ("address", VStr "10.0.0.1/24"); ("dns", VList [VStr "10.0.0.2"; VStr "1.1.1.1"]);
   ("mtu", VInt 1420); ("save_config", VBool true); ("post_up", VStr "ip route add default via 10.0.0.2"); ("table", VStr "");
   ("peers", VList [VDict [("public_key", VStr "94a+MnZSd="); ("allowed_ips", VStr "10.0.0.3/32"); ("endpoint_host", VStr "a.example.org"); ("endpoint_port", VInt 51821)];
                    VDict [("public_key", VStr "jq5/MnZSd="); ("allowed_ips", VStr "10.0.0.4/32"); ("preshared_key", VStr ""); ("endpoint_host", VStr "b.example.org")]])].
Definition wg2 : dict := [("name", VStr "wg1"); ("port", VInt 0); ("private_key", VStr "k2="); ("address", VStr "10.1.0.1/24"); ("peers", VList [])].
Definition wgs : dict := [("wireguard", VList [VDict wg1; VDict wg2])].
Example wgs_ok : Forall wg_ok [wg1; wg2].
Proof.
  constructor; [|constructor; [|constructor]].
  - split; [repeat constructor; cbn; intuition discriminate|]. split.
    + intros k x H. cbn in H. each_in H; injection H as <- <-.
      * left. split; [reflexivity|]. eexists. split; [reflexivity | line_is].
      * right; left. split; [cbn; auto | eauto].
      * right; right; left. split; [cbn; auto|]. eexists. split; [reflexivity | line_is].
      * right; right; left. split; [cbn; auto|]. eexists. split; [reflexivity | line_is].
      * right; right; right; left. split; [reflexivity|]. exists ["10.0.0.2"; "1.1.1.1"]. split; [reflexivity|]. repeat constructor; discriminate.
      * right; left. split; [cbn; auto | eauto].
      * right; right; right; right; left. split; [reflexivity | eauto].
      * right; right; right; right; right; left. split; [cbn; auto|]. eexists. split; [reflexivity|]. right. line_is.
      * right; right; right; right; right; left. split; [cbn; auto|]. eexists. split; [reflexivity|]. now left.
      * right; right; right; right; right; right. split; [reflexivity|]. eexists [_; _]. reflexivity.
    + do 4 (split; [cbn; auto 12|]). constructor; [|constructor; [|constructor]]; (split; [repeat constructor; cbn; intuition discriminate|]; split; [|split; cbn; auto]); intros k x H; cbn in H; each_in H; injection H as <- <-.
      * left. split; [cbn; auto|]. eexists. split; [reflexivity | line_is].
      * left. split; [cbn; auto|]. eexists. split; [reflexivity | line_is].
      * right; left. split; [cbn; auto|]. eexists. split; [reflexivity | right; line_is].
      * right; right. split; [reflexivity|]. eexists. split; [reflexivity | reflexivity].
      * left. split; [cbn; auto|]. eexists. split; [reflexivity | line_is].
      * left. split; [cbn; auto|]. eexists. split; [reflexivity | line_is].
      * right; left. split; [cbn; auto|]. eexists. split; [reflexivity | now left].
      * right; left. split; [cbn; auto|]. eexists. split; [reflexivity | right; line_is].
  - split; [repeat constructor; cbn; intuition discriminate|]. split.
    + intros k x H. cbn in H. each_in H; injection H as <- <-.
      * left. split; [reflexivity|]. eexists. split; [reflexivity | line_is].
      * right; left. split; [cbn; auto | eauto].
      * right; right; left. split; [cbn; auto|]. eexists. split; [reflexivity | line_is].
      * right; right; left. split; [cbn; auto|]. eexists. split; [reflexivity | line_is].
      * right; right; right; right; right; right. split; [reflexivity|]. exists []. reflexivity.
    + do 4 (split; [cbn; auto 12|]). constructor.
Qed.
Example wgs_read :
  match generate no_oid (wireguard_backend any_schema) (fresh wgs) with
  | (_, Ok tar) => map (fun m => (m_name m, wg_read (m_data m))) tar =
      [("wg0.conf", [("Interface", [("Address", "10.0.0.1/24"); ("DNS", "10.0.0.2,1.1.1.1"); ("ListenPort", "51820"); ("MTU", "1420");
                       ("PostUp", "ip route add default via 10.0.0.2"); ("PrivateKey", "QFvbsZFlQ6kl7Y="); ("SaveConfig", "true")]);
                     ("Peer", [("AllowedIPs", "10.0.0.3/32"); ("Endpoint", "a.example.org:51821"); ("PublicKey", "94a+MnZSd=")]);
                     ("Peer", [("AllowedIPs", "10.0.0.4/32"); ("PublicKey", "jq5/MnZSd=")])]);
       ("wg1.conf", [("Interface", [("Address", "10.1.0.1/24"); ("ListenPort", "0"); ("PrivateKey", "k2=")])])]
  | _ => False
  end.
Proof. vm_compute. reflexivity. Qed.
(** The condition of one line is needed: another setting is read *)
Example wg_injection :
  match render no_oid (wireguard_backend any_schema) false (fresh [("wireguard", VList [VDict
      [("name", VStr "wg0"); ("port", VInt 1); ("private_key", VStr "k"); ("address", VStr "a"); ("post_up", VStr ("true" +++ NL +++ "[Peer]"))]])]) with
  | (_, Ok text) => map fst (wg_read text) = ["Interface"; "Peer"]
  | _ => False
  end.
Proof. vm_compute. reflexivity. Qed.
