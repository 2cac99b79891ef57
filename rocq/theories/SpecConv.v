(** * SpecConv: vocabulary for the conversion properties: what it means for a
    NetJSON object to survive the trip through UCI text. *)
From Verif Require Import PyBase Conv SpecUci.

(** A value that UCI text carries without loss, given the type of its field in
    the schema: an integer under an integer field, a boolean under a boolean
    field, otherwise text or a list of texts. *)
Definition survives (t : option jtype) (v : val) : Prop :=
  match t, v with
  | Some JInt, VInt _ => True
  | Some JBool, VBool _ => True
  | None, VStr s => s <> EmptyString /\ plain s
  | None, VList l => l <> [] /\ forall x, In x l -> exists s, x = VStr s /\ plain s
  | _, _ => False
  end.
(** The fields of [d] other than those of [skip] are options of UCI that
    survive. *)
Definition fields_survive (props : list (string * jtype)) (skip : list string) (d : dict) : Prop :=
  forall k v, In (k, v) d -> ~ In k skip -> word k /\ startswith "." k = false /\ survives (dget k props) v.
(** None of the names is a field of [d]. *)
Definition none_of (names : list string) (d : dict) : Prop := forall k, In k names -> dget k d = None.

(** Same document up to the order of the fields of objects. *)
Definition same_map (d d' : dict) : Prop := forall k, dget k d' = dget k d.
Inductive same : val -> val -> Prop :=
| same_refl v : same v v
| same_list l l' : Forall2 same l l' -> same (VList l) (VList l')
| same_dict d d' :
    (forall k v, dget k d = Some v -> exists v', dget k d' = Some v' /\ same v v') ->
    (forall k, dget k d = None -> dget k d' = None) -> same (VDict d) (VDict d').
