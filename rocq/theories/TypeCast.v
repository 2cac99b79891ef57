(** * TypeCast: [BaseConverter.type_cast] on the schema itself
    (backends/base/converter.py:41-67).  The converters of the model use
    [Conv.type_cast], whose first argument is the extract of the schema that
    matters; [CastProofs] shows that the two agree. *)
From Verif Require Import PyBase Conv.

(** converter.py:53-60: the declared type of a property, the first one of a
    list of types; no "type" is None.  Simplification: a property whose schema
    is not an object (TypeError) counts as untyped. *)
Definition json_type (p : val) : val :=
  match p with
  | VDict d =>
      match dget "type" d with
      | Some (VList (t :: _)) => t
      | Some t => t
      | None => VNull
      end
  | _ => VNull
  end.
(** converter.py:61-65 *)
Definition cast_one (jt v : val) : res val :=
  if py_eq jt (VStr "integer") && negb (match v with VInt _ | VBool _ => true | _ => false end)
  then match v with
       | VStr s => match int_of_string s with Some z => Ok (VInt z) | None => Err EValue end
       | _ => Err EType
       end
  else if py_eq jt (VStr "boolean") && negb (match v with VBool _ => true | _ => false end)
  then Ok (VBool (py_eq v (VStr "1")))
  else Ok v.
(** converter.py:49-67, the loop: the keys stay in place, so the dict can be
    rebuilt in order.  Simplification: a float under an integer property is an
    error (int() would truncate it). *)
Fixpoint type_cast_by (properties item : dict) : res dict :=
  match item with
  | [] => Ok []
  | (k, v) :: t =>
      do v' <- (match dget k properties with
                | None => Ok v
                | Some p => cast_one (json_type p) v
                end);
      do t' <- type_cast_by properties t;
      Ok ((k, v') :: t')
  end.
(** The extract of a schema used by [Conv.type_cast] *)
Fixpoint extract (properties : dict) : list (string * jtype) :=
  match properties with
  | [] => []
  | (k, p) :: t =>
      (if py_eq (json_type p) (VStr "integer") then cons (k, JInt)
       else if py_eq (json_type p) (VStr "boolean") then cons (k, JBool)
       else fun l => l) (extract t)
  end.
