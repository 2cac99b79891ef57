(** * SpecWg: reading the text of WireGuard configurations (wg-quick format) *)
From Verif Require Import PyBase Files SpecUci SpecVpn.

(** One line: blank or comment, title of a section, or "key = value" *)
Fixpoint cut_at (c : ascii) (s : string) : string * string :=
  match s with
  | EmptyString => (EmptyString, EmptyString)
  | String x r => if Ascii.eqb x c then (EmptyString, r) else let (a, b) := cut_at c r in (String x a, b)
  end.
Inductive wg_line := Skip | Title (t : string) | Setting (k v : string).
Definition wg_kind (line : string) : wg_line :=
  let l := strip line in
  if String.eqb l EmptyString || startswith "#" l then Skip
  else if String.eqb l "[Interface]" then Title "Interface"
  else if String.eqb l "[Peer]" then Title "Peer"
  else let (k, v) := cut_at "=" l in Setting (strip k) (strip v).
(** The settings up to the next title, and the sections after them *)
Fixpoint wg_sections (lines : list string) : list (string * string) * list (string * list (string * string)) :=
  match lines with
  | [] => ([], [])
  | l :: t =>
      let (s, secs) := wg_sections t in
      match wg_kind l with
      | Skip => (s, secs)
      | Title n => ([], (n, s) :: secs)
      | Setting k v => ((k, v) :: s, secs)
      end
  end.
Definition wg_read (text : string) : list (string * list (string * string)) := snd (wg_sections (split_char NLc text)).

(** The settings that are expected *)
Definition interface_options : list (string * string) :=
  [("ListenPort", "port"); ("PrivateKey", "private_key"); ("Address", "address"); ("DNS", "dns"); ("MTU", "mtu");
   ("SaveConfig", "save_config"); ("Table", "table"); ("PreUp", "pre_up"); ("PostUp", "post_up");
   ("PreDown", "pre_down"); ("PostDown", "post_down")].
Definition wg_text (x : val) : option string :=
  match x with
  | VInt z => Some (string_of_Z z)
  | VBool b => Some (if b then "true" else "false")
  | VStr EmptyString => None
  | VStr s => Some s
  | VList (e :: l) => Some (join "," (map py_str (e :: l)))
  | _ => None
  end.
Definition text_of (v : dict) (k : string) : option string := match dget k v with Some x => wg_text x | None => None end.
Definition interface_setting (v : dict) (K : string) : option string :=
  match dget K interface_options with Some k => text_of v k | None => None end.
Definition peer_setting (p : dict) (K : string) : option string :=
  if String.eqb K "PublicKey" then text_of p "public_key"
  else if String.eqb K "AllowedIPs" then text_of p "allowed_ips"
  else if String.eqb K "PreSharedKey" then text_of p "preshared_key"
  else if String.eqb K "Endpoint" then
    match text_of p "endpoint_host", text_of p "endpoint_port" with Some h, Some n => Some (h +++ ":" +++ n) | _, _ => None end
  else None.
(** The WireGuard interfaces that are considered: the fields of the schema, with
    texts of one line *)
Definition wg_optional_texts : list string := ["table"; "pre_up"; "post_up"; "pre_down"; "post_down"].
Definition wg_field (k : string) (x : val) : Prop :=
  (k = "name" /\ exists s, x = VStr s /\ line_text s) \/
  (In k ["port"; "mtu"] /\ exists z, x = VInt z) \/
  (In k ["private_key"; "address"] /\ exists s, x = VStr s /\ line_text s) \/
  (k = "dns" /\ exists l, x = VList (map VStr l) /\ Forall one_word l) \/
  (k = "save_config" /\ exists b, x = VBool b) \/
  (In k wg_optional_texts /\ exists s, x = VStr s /\ (s = EmptyString \/ line_text s)) \/
  (k = "peers" /\ exists l, x = VList (map VDict l)).
Definition wg_peer_field (k : string) (x : val) : Prop :=
  (In k ["public_key"; "allowed_ips"] /\ exists s, x = VStr s /\ line_text s) \/
  (In k ["preshared_key"; "endpoint_host"] /\ exists s, x = VStr s /\ (s = EmptyString \/ line_text s)) \/
  (k = "endpoint_port" /\ exists z, x = VInt z /\ (0 < z)%Z).
Definition wg_peer_ok (p : dict) : Prop :=
  NoDup (dkeys p) /\ (forall k x, In (k, x) p -> wg_peer_field k x) /\ In "public_key" (dkeys p) /\ In "allowed_ips" (dkeys p).
Definition peers_of (v : dict) : list dict :=
  match dget "peers" v with Some (VList l) => flat_map (fun x => match x with VDict d => [d] | _ => [] end) l | _ => [] end.
Definition wg_ok (v : dict) : Prop :=
  NoDup (dkeys v) /\ (forall k x, In (k, x) v -> wg_field k x) /\
  In "name" (dkeys v) /\ In "port" (dkeys v) /\ In "private_key" (dkeys v) /\ In "address" (dkeys v) /\ Forall wg_peer_ok (peers_of v).
(** The sections read for one interface *)
Definition lookup (K : string) (l : list (string * string)) : option string := dget K l.
Definition wg_reads (v : dict) (secs : list (string * list (string * string))) : Prop :=
  exists i qs, secs = ("Interface", i) :: map (fun q => ("Peer", q)) qs /\
    NoDup (map fst i) /\ (forall K, lookup K i = interface_setting v K) /\
    Forall2 (fun p q => NoDup (map fst q) /\ forall K, lookup K q = peer_setting p K) (peers_of v) qs.
(** The member of an archive for one interface *)
Definition wg_stored (v : dict) (m : member) : Prop :=
  (forall n, dget "name" v = Some (VStr n) -> m_name m = n +++ ".conf") /\ wg_reads v (wg_read (m_data m)).
