(** * SpecTunnel: the OpenVPN instances of an OpenWrt device that survive, and
    what their UCI sections show. *)
From Verif Require Import PyBase Conv SpecUci SpecConv SpecDevice SpecShapes SpecVpn.

(** The address of a server *)
Definition remote_ok (r : dict) : Prop :=
  text_at "host" r word /\ (exists z, dget "port" r = Some (VInt z)) /\
  optional "proto" r (fun v => exists p, v = VStr p /\ word p /\ p <> "auto") /\
  forall k, dmem k r = true -> In k ["host"; "port"; "proto"].
(** A data cipher; the mark of the optional ones is not part of the name. *)
Definition data_cipher_ok (c : dict) : Prop :=
  text_at "cipher" c (fun s => word s /\ no_char ":"%char s /\ startswith "?" s = false) /\
  (exists o, dget "optional" c = Some (VBool o)) /\
  forall k, dmem k c = true -> In k ["cipher"; "optional"].
Definition tunnel_fields : list (string * jtype) :=
  map (fun k => (k, JInt)) number_options ++ map (fun k => (k, JBool)) flag_options.
(** A VPN: a name that is also the name of the section, whether it is disabled,
    the settings with a form of their own, and settings that UCI text carries.
    The TLS key is a path and a direction. *)
Definition tunnel_ok (v : dict) : Prop :=
  NoDup (dkeys v) /\
  text_at "name" v (fun n => word n /\ identifier n = n) /\
  (exists x, dget "disabled" v = Some (VBool x)) /\
  dget "enabled" v = None /\
  dget "fragment" v <> Some (VInt 0) /\
  (dmem "status_version" v = true -> dmem "status" v = true) /\
  optional "server_bridge" v (fun x => exists s, x = VStr s /\ s <> "1" /\ plain s) /\
  optional "tls_cipher" v (fun x => exists l, x = VStr (join ":" l) /\ l <> [] /\ forall s, In s l -> word s /\ no_char ":"%char s) /\
  optional "remote" v (fun x => exists l, x = VList (map VDict l) /\ l <> [] /\ forall r, In r l -> remote_ok r) /\
  optional "data_ciphers" v (fun x => exists l, x = VList (map VDict l) /\ l <> [] /\ forall c, In c l -> data_cipher_ok c) /\
  optional "tls_auth" v (fun x => exists a b, x = VStr (a +++ " " +++ b) /\ word a /\ word b) /\
  fields_survive tunnel_fields
    ["name"; "disabled"; "server_bridge"; "tls_cipher"; "remote"; "data_ciphers"; "tls_auth"] v.

(** What the section shows: an empty server_bridge is a flag, the TLS ciphers
    are a list, an address is its host, port and protocol, the data ciphers are
    one text. *)
Definition remote_line (r : dict) : string :=
  name_or "host" EmptyString r +++ " " +++
  match dget "port" r with Some (VInt z) => string_of_Z z | _ => EmptyString end +++
  match dget "proto" r with Some (VStr p) => " " +++ p | _ => EmptyString end.
Definition data_cipher_line (c : dict) : string :=
  match dget "optional" c with Some (VBool true) => "?" | _ => EmptyString end +++ name_or "cipher" EmptyString c.
Definition tunnel_shown (v s : dict) : Prop :=
  shows s v [(".type", text "openvpn"); (".name", dget "name" v); ("name", None);
             ("enabled", option_map opposite (dget "disabled" v)); ("disabled", None);
             ("server_bridge", match dget "server_bridge" v with Some (VStr EmptyString) => Some (VBool true) | x => x end);
             ("tls_cipher", match dget "tls_cipher" v with Some (VStr t) => Some (VList (map VStr (split_char ":" t))) | x => x end);
             ("remote", match dget "remote" v with Some (VList l) => Some (VList (map VStr (map remote_line (dicts l)))) | x => x end);
             ("data_ciphers", match dget "data_ciphers" v with Some (VList l) => text (join ":" (map data_cipher_line (dicts l))) | x => x end)].
