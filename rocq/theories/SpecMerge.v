(** * SpecMerge: vocabulary for the merge properties, independent of the code
    of merge_config / merge_list. *)
From Verif Require Import PyBase Merge.

(** [v["k1"]["k2"]...] through nested dicts *)
Fixpoint getpath (p : list string) (v : val) : option val :=
  match p with
  | [] => Some v
  | k :: p' => match v with
               | VDict d => match dget k d with Some w => getpath p' w | None => None end
               | _ => None
               end
  end.
(** A layer says something about the path [p]: it defines the path itself, or it
    puts something that is not a dict on the way to it. *)
Fixpoint touches (p : list string) (v : val) : Prop :=
  match p with
  | [] => True
  | k :: p' => match v with
               | VDict d => match dget k d with Some w => touches p' w | None => False end
               | _ => True
               end
  end.
Definition scalar (v : val) : Prop := is_container v = false.

(** The identity of a list element: the value of the first identifier it has. *)
Definition has_ident (ids : list string) (el : val) (v : val) : Prop :=
  exists d pre k post, el = VDict d /\ ids = (pre ++ k :: post)%list
    /\ (forall k', In k' pre -> ~ In k' (dkeys d)) /\ dget k d = Some v.
Definition no_ident (ids : list string) (el : val) : Prop := forall v, ~ has_ident ids el v.
Definition same_ident (ids : list string) (a b : val) : Prop :=
  exists v w, has_ident ids a v /\ has_ident ids b w /\ py_eq v w = true.
(** An equal ([==]) element is in the list. *)
Definition In_eq (x : val) (l : list val) : Prop := exists y, In y l /\ py_eq y x = true.

(** No two elements of [l] have the same identity; [same_object i j] tells
    whether positions [i] and [j] hold the very same Python object. *)
Definition distinct_elements (ids : list string) (same_object : nat -> nat -> Prop)
    (l : list val) : Prop :=
  (forall i j x y, nth_error l i = Some x -> nth_error l j = Some y ->
     same_ident ids x y -> i = j) /\
  (forall i j x y, nth_error l i = Some x -> nth_error l j = Some y ->
     no_ident ids x -> no_ident ids y -> same_object i j -> i = j).

(** Type conflict between an existing value and a new one at the same place. *)
Inductive conflict : list string -> val -> val -> Prop :=
| cf_dict_list ids d l : conflict ids (VDict d) (VList l)
| cf_list_dict ids l d : conflict ids (VList l) (VDict d)
| cf_key ids t c k a b :
    dget k t = Some a -> dget k c = Some b -> conflict ids a b ->
    conflict ids (VDict t) (VDict c)
| cf_element ids l1 l2 a b :
    In a l1 -> In b l2 -> same_ident ids a b -> py_eq a b = false ->
    conflict [] a b -> conflict ids (VList l1) (VList l2).

(** Some dict element of two lists to be merged has an identifier value that
    cannot be a dict key (a dict, or a list containing dicts or lists). *)
Definition unhashable (v : val) : Prop :=
  is_dict v = true \/ exists l x, v = VList l /\ In x l /\ is_container x = true.
Inductive bad_ident : list string -> val -> val -> Prop :=
| bi_list ids l1 l2 el v :
    In el (l1 ++ l2)%list -> has_ident ids el v -> unhashable v ->
    bad_ident ids (VList l1) (VList l2)
| bi_key ids t c k a b :
    dget k t = Some a -> dget k c = Some b -> bad_ident ids a b ->
    bad_ident ids (VDict t) (VDict c).

(** Every pair of lists that meet during the merge has distinct elements. *)
Fixpoint at_lists (P : list val -> Prop) (v : val) : Prop :=
  match v with
  | VList l => P l
  | VDict d => (fix go (d : dict) : Prop :=
                  match d with [] => True | (_, x) :: t => at_lists P x /\ go t end) d
  | _ => True
  end.

(** Every identifier value in the list can be a dict key. *)
Definition hashable_idents (ids : list string) (l : list val) : Prop :=
  forall el v, In el l -> has_ident ids el v -> ~ unhashable v.
(** What becomes of the element [e] of the first list: merged (without
    identifiers, utils.py:94) with the element of the second list that has the
    same identity, or unchanged if there is none. *)
Definition merged_element oid ids (l1 l2 : list val) (e e' : val) : Prop :=
  (exists e2 d d2 m, In e2 l2 /\ ~ In_eq e2 l1 /\ same_ident ids e e2 /\
      e = VDict d /\ e2 = VDict d2 /\ merge_config oid [] d d2 = Ok m /\ e' = VDict m)
  \/ ((forall e2, In e2 l2 -> ~ In_eq e2 l1 -> ~ same_ident ids e e2) /\ e' = e).

(** [e] is at position [i] of the list and no later element has its identity. *)
Definition last_of (ids : list string) (l : list val) (i : nat) (e : val) : Prop :=
  nth_error l i = Some e /\ forall j e', i < j -> nth_error l j = Some e' -> ~ same_ident ids e e'.
(** Every position of the list holds its own Python object. *)
Definition distinct_objects (oid : oracle) (l : list val) : Prop :=
  forall i j, i < length l -> j < length l -> oid l i = oid l j -> i = j.
