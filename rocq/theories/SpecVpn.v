(** * SpecVpn: vocabulary for the text of VPN configurations *)
From Verif Require Import PyBase SpecUci.

(** One line of text: not empty, no newline, no outer white space, no run of
    four spaces. *)
Definition line_text (s : string) : Prop :=
  s <> EmptyString /\ strip s = s /\ no_char NLc s /\ contains "    " s = false.
(** The name of an OpenVPN option: one word, without dashes, not a comment *)
Definition option_name (k : string) : Prop :=
  k <> EmptyString /\ sforall (fun c => negb (is_space c)) k = true /\ no_char "-"%char k /\ k <> "#" /\ k <> "name".
(** The texts written for a value, one line for each; [None] for an option
    without argument. *)
Definition arguments (v : val) : list (option string) :=
  match v with
  | VNull => []
  | VBool true => [None]
  | VList l => map (fun x => Some (py_str x)) l
  | VDict d => map (fun kv => Some (fst kv)) d
  | _ => [Some (py_str v)]
  end.
Definition argument_value (a : option string) : val := match a with Some s => VStr s | None => VBool true end.
(** A VPN that can be written: a name, and options with one-line arguments *)
Definition vpn_ok (v : dict) : Prop :=
  NoDup (dkeys v) /\ (exists n, dget "name" v = Some (VStr n) /\ line_text n) /\
  forall k x, In (k, x) v -> k <> "name" -> arguments x <> [] -> option_name k /\ forall s, In (Some s) (arguments x) -> line_text s.
(** [v'] is what is read for [v]: the same name, and for each written option its
    last argument. *)
Definition last_of {A} (l : list A) : option A := match rev l with x :: _ => Some x | [] => None end.
Definition vpn_reads (v v' : dict) : Prop :=
  sorted_keys v' /\
  forall k, dget k v' = if String.eqb k "name" then dget k v
                        else match dget k v with Some x => option_map argument_value (last_of (arguments x)) | None => None end.

(** ** OpenVPN servers that survive *)

(** The integer and the boolean settings of an OpenVPN tunnel (openvpn/schema.py) *)
Definition number_options : list string :=
  ["port"; "fragment"; "mssfix"; "up_delay"; "script_security"; "mute"; "status_version"; "reneg_sec"; "tls_timeout"; "verb"].
Definition flag_options : list string :=
  ["mtu_test"; "persist_tun"; "persist_key"; "tun_ipv6"; "mute_replay_warnings"; "float"; "auth_nocache"; "fast_io";
   "remote_random"; "nobind"; "tls_client"; "pull"; "tls_server"; "duplicate_cn"; "client_to_client";
   "client_cert_not_required"; "username_as_common_name"].
(** One word: not empty, no white space *)
Definition one_word (s : string) : Prop := s <> EmptyString /\ sforall (fun c => negb (is_space c)) s = true.
(** A data cipher, optional or not *)
Definition cipher_entry (v : val) : Prop :=
  exists c o, v = VDict [("cipher", VStr c); ("optional", VBool o)] /\ one_word c /\ no_char ":"%char c /\ startswith "?" c = false.
(** A setting that can be read back: numbers, flags, lists of ciphers, the path
    and direction of a TLS key, texts of one line *)
Definition server_setting (k : string) (x : val) : Prop :=
  (In k number_options /\ exists z, x = VInt z) \/
  (In k flag_options /\ exists b, x = VBool b) \/
  (k = "data_ciphers" /\ exists l, x = VList l /\ Forall cipher_entry l) \/
  (k = "tls_auth" /\ exists a b, x = VStr (a +++ " " +++ b) /\ one_word a /\ one_word b) \/
  (~ In k (["data_ciphers"; "tls_auth"; "remote"] ++ number_options ++ flag_options) /\ exists s, x = VStr s /\ (s = EmptyString \/ line_text s)).
Definition server_ok (v : dict) : Prop :=
  NoDup (dkeys v) /\ (exists n, dget "name" v = Some (VStr n) /\ line_text n) /\
  forall k x, In (k, x) v -> k <> "name" -> option_name k /\ server_setting k x.
(** Settings that are not written: false, zero (except for script_security),
    empty lists and texts (except for server_bridge), and status_version
    without status *)
Definition left_out (k : string) (x : val) : bool :=
  match x with
  | VBool false => true
  | VInt 0 => negb (String.eqb k "script_security")
  | VStr EmptyString => negb (String.eqb k "server_bridge")
  | VList [] => true
  | _ => false
  end.
Definition read_setting (v : dict) (k : string) : option val :=
  match dget k v with
  | Some x => if left_out k x || (String.eqb k "status_version" && match dget "status" v with Some s => left_out "status" s | None => true end)
              then None else Some x
  | None => None
  end.
Definition server_reads (v v' : dict) : Prop := NoDup (dkeys v') /\ forall k, dget k v' = read_setting v k.
