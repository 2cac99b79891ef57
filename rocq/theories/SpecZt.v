(** * SpecZt: vocabulary for ZeroTier networks and their JSON text *)
From Verif Require Import PyBase Files SpecUci SpecConv Json.

(** The text of a float: a fraction, an exponent or both *)
Definition digits (s : string) : Prop := s <> EmptyString /\ sforall is_digit s = true.
Definition whole_part (s : string) : Prop := s = "0" \/ (digits s /\ startswith "0" s = false).
Definition fraction (s : string) : Prop := s = EmptyString \/ exists d, s = "." +++ d /\ digits d.
Definition exponent (s : string) : Prop :=
  s = EmptyString \/ exists sign d, s = "e" +++ sign +++ d /\ In sign [EmptyString; "+"; "-"] /\ digits d.
Definition float_text (s : string) : Prop :=
  exists sign i f e, s = sign +++ i +++ f +++ e /\ In sign [EmptyString; "-"] /\ whole_part i /\ fraction f /\ exponent e /\
    f +++ e <> EmptyString.
(** A document of JSON whose texts and field names have the property *)
Inductive document (P : string -> Prop) : val -> Prop :=
| doc_null : document P VNull
| doc_bool b : document P (VBool b)
| doc_int z : document P (VInt z)
| doc_float r : float_text r -> document P (VFloat r)
| doc_str s : P s -> document P (VStr s)
| doc_list l : (forall v, In v l -> document P v) -> document P (VList l)
| doc_dict d : NoDup (dkeys d) -> (forall k v, In (k, v) d -> P k /\ document P v) -> document P (VDict d).
(** Two slashes, or a slash and a star, begin a comment. *)
Definition no_comment (s : string) : Prop := contains "//" s = false /\ contains "/*" s = false.

(** ** Networks *)
Definition network_numbers : list string := ["revision"; "mtu"; "multicastLimit"; "remoteTraceLevel"].
Definition network_flags : list string := ["enableBroadcast"; "private"].
(** The options of the clients are not settings of the network. *)
Definition settings_of (v : dict) : dict := ddel "client_options" v.
Definition network_ok (P : string -> Prop) (v : dict) : Prop :=
  NoDup (dkeys v) /\ document P (VDict (settings_of v)) /\
  (exists n, dget "name" v = Some (VStr n)) /\
  match dget "nwid" v with None => True | Some x => exists n, x = VStr n /\ no_char NLc n end /\
  (forall k x, In k network_numbers -> dget k v = Some x -> exists z, x = VInt z) /\
  (forall k x, In k network_flags -> dget k v = Some x -> exists b, x = VBool b).
(** The network id names the file. *)
Definition network_id (v : dict) : string := match dget "nwid" v with Some (VStr n) => n | _ => EmptyString end.
(** The member of the archive that holds a network: a file named after the
    network id, whose JSON is the settings *)
Definition zt_stored (v : dict) (m : member) : Prop :=
  m_name m = network_id v +++ ".json" /\ m_mode m = 420%N /\ exists d, loads (m_data m) = Ok (VDict d) /\ same (VDict (settings_of v)) (VDict d).
