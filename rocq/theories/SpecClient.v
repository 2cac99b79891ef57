(** * SpecClient: vocabulary for the derived client configurations *)
From Verif Require Import PyBase.

(** The settings on which both ends of an OpenVPN tunnel must agree, or that are
    taken over from the server as they are *)
Definition shared_settings : list string :=
  ["name"; "dev_type"; "dev"; "comp_lzo"; "compress"; "allow_compression"; "auth"; "cipher"; "pkcs12"; "mtu_test";
   "fragment"; "mssfix"; "keepalive"; "persist_tun"; "mute"; "persist_key"; "user"; "group"; "mute_replay_warnings";
   "secret"; "reneg_sec"; "tls_timeout"; "tls_cipher"; "float"; "fast_io"; "verb"; "auth_nocache"].
(** The other settings that a client can have *)
Definition client_settings : list string :=
  ["mode"; "nobind"; "resolv_retry"; "tls_client"; "remote"; "proto"; "pull"; "ns_cert_type"; "remote_cert_tls";
   "tls_auth"; "ca"; "cert"; "key"; "script_security"; "log"].
(** A path and the contents for it have been given. *)
Definition given (path contents : val) : Prop := truthy path = true /\ truthy contents = true.
(** A setting, and the file for it *)
Definition credential (field : string) (path contents : val) (server client : dict) (files : list val) : Prop :=
  (given path contents -> dget field client = Some path /\
     files = [VDict [("path", path); ("contents", contents); ("mode", VStr "0600")]]) /\
  (~ given path contents -> dget field client = dget field server /\ files = []).
(** "path direction" rather than the key itself *)
Definition no_blank (s : string) : Prop := forall x y, s <> x +++ " " +++ y.
Definition path_and_direction (s : string) : Prop := exists a b, strip s = a +++ " " +++ b /\ no_blank a /\ no_blank b.
(** The two fields that name the purpose of the peer's certificate *)
Definition purpose (server client : val) : Prop :=
  (server = VNull \/ server = VStr "") /\ client = VStr "" \/ server = VStr "client" /\ client = VStr "server".
(** A keyword argument or a key, with the value it has when it is left out *)
Definition value_or (k : string) (default : val) (d : dict) : val := match dget k d with Some v => v | None => default end.
(** The lines of a ZeroTier device map *)
Definition device_line (n : dict) : string := py_str (value_or "id" (VStr "") n) +++ "=" +++ py_str (value_or "ifname" VNull n) +++ NL.
Definition concat_all (l : list string) : string := fold_right String.append EmptyString l.
(** The path of an entry of "files" *)
Definition at_path (path : string) (v : val) : Prop := exists f, v = VDict f /\ dget "path" f = Some (VStr path).
