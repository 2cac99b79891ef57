(** * SpecUci: what it means for UCI text to represent packages and sections. *)
From Verif Require Import PyBase.
From Coq Require Import Sorted.

Definition no_char (c : ascii) (s : string) : Prop := forall a b, s <> a +++ String c b.
(** Text that can be written between quotes: no newline, no quote, no run of
    four spaces. *)
Definition plain (s : string) : Prop :=
  no_char NLc s /\ no_char SQc s /\ no_char DQc s /\ contains "    " s = false.
(** Text that can be written without quotes: no white space, no quote. *)
Definition bare (s : string) : Prop :=
  sforall (fun c => negb (is_space c) && negb (Ascii.eqb c SQc) && negb (Ascii.eqb c DQc)) s = true.
Definition word (s : string) : Prop := s <> EmptyString /\ bare s.
(** A package name: one line, not empty, no outer white space, no run of four spaces. *)
Definition package_name (s : string) : Prop :=
  s <> EmptyString /\ strip s = s /\ no_char NLc s /\ contains "    " s = false.

(** The UCI value of an option: [None] when it is not written. *)
Definition bool_digit (b : bool) : string := if b then "1" else "0".
Definition uci_value (v : val) : option val :=
  match v with
  | VNull => None
  | VStr EmptyString => None
  | VList [] => None
  | VDict [] => None
  | VBool b => Some (VStr (bool_digit b))
  | VList l => Some (VList (map (fun x => VStr (py_str x)) l))
  | VDict d => Some (VList (map (fun kv => VStr (fst kv)) d))
  | _ => Some (VStr (py_str v))
  end.
Definition writable (v : val) : Prop :=
  match v with
  | VList l => forall x, In x l -> plain (py_str x)
  | VDict d => forall k x, In (k, x) d -> plain k
  | _ => plain (py_str v)
  end.

(** A section: type, name, distinct option names, writable values.  Names
    starting with a dot are not options. *)
Definition section_ok (b : dict) : Prop :=
  NoDup (dkeys b) /\
  (exists t n, dget ".type" b = Some (VStr t) /\ word t /\ dget ".name" b = Some (VStr n) /\ bare n) /\
  forall k v, In (k, v) b -> startswith "." k = false -> uci_value v <> None ->
    word k /\ writable v.
Definition package_ok (p : string * val) : Prop :=
  package_name (fst p) /\
  exists bs, snd p = VList (map VDict bs) /\ forall b, In b bs -> section_ok b.
Definition data_ok (d : dict) : Prop := NoDup (dkeys d) /\ forall p, In p d -> package_ok p.

(** Strictly increasing option names. *)
Definition key_lt (a b : string) : Prop := str_leb a b = true /\ a <> b.
Definition sorted_keys (b : dict) : Prop := StronglySorted key_lt (dkeys b).

(** [b'] is what reading the section [b] gives: same type and name, the UCI
    value of every written option, nothing else, sorted by name. *)
Definition reads_as (b b' : dict) : Prop :=
  sorted_keys b' /\
  forall k, dget k b' =
    if String.eqb k ".type" || String.eqb k ".name" then dget k b
    else if startswith "." k then None
    else match dget k b with Some v => uci_value v | None => None end.
(** Sections of type device and bridge-vlan are read as interfaces, with
    markers in "type" and "bridge_21". *)
Definition is_text (v : option val) (s : string) : bool :=
  match v with Some (VStr x) => String.eqb x s | _ => false end.
Definition absent_or_false (v : option val) : bool :=
  match v with Some x => negb (truthy x) | None => true end.
Definition retyped (b b' : dict) : Prop :=
  sorted_keys b' /\
  let t := dget ".type" b in
  let ty := dget "type" b in
  forall k, dget k b' =
    if is_text t "bridge-vlan" then
      if String.eqb k ".type" then Some (VStr "interface")
      else if String.eqb k "type" then Some (VStr "bridge-vlan")
      else if String.eqb k "bridge_21" then Some (VBool true)
      else dget k b
    else if is_text t "device" then
      if String.eqb k ".type" then Some (VStr "interface")
      else if String.eqb k "type" && absent_or_false ty then Some (VStr "device")
      else if String.eqb k "bridge_21" && (is_text ty "bridge" || is_text ty "8021q" || is_text ty "8021ad")
      then Some (VBool true)
      else dget k b
    else dget k b.
Definition section_reads (b b' : dict) : Prop := exists b0, reads_as b b0 /\ retyped b0 b'.

(** Same packages in the same order, each with the same sections in the same
    order, each section read back. *)
Definition data_reads (d d' : dict) : Prop :=
  Forall2 (fun p p' => fst p = fst p' /\
     exists bs bs', snd p = VList (map VDict bs) /\ snd p' = VList (map VDict bs') /\
       Forall2 section_reads bs bs') d d'.
