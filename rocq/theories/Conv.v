(** * Conv: the generic part of the converters (backends/base/converter.py,
    backends/openwrt/converters/base.py). *)
From Verif Require Import PyBase Backend.

(** [d.pop(k, default)], the value; the dict part is [ddel k d] *)
Definition pop_or (k : string) (dflt : val) (d : dict) : val :=
  match dget k d with Some v => v | None => dflt end.
(** [v or w] for values: [w] when [v] is falsy *)
Definition vor (v w : val) : val := if truthy v then v else w.
(** [k in d] *)
Notation "k 'in?' d" := (dmem k d) (at level 70).

(** The types of the JSON schema properties that [type_cast] acts on; a
    property of another type, or absent from the schema, is left alone. *)
Inductive jtype := JInt | JBool.
(** converter.py:50-66, one item.  [isinstance(True, int)] holds.
    Simplification: a float under an integer property is an error (int() would
    truncate it); parsed data contain none. *)
Definition cast_value (t : option jtype) (v : val) : res val :=
  match t with
  | Some JInt =>
      match v with
      | VInt _ | VBool _ => Ok v
      | VStr s => match int_of_string s with Some z => Ok (VInt z) | None => Err EValue end
      | _ => Err EType
      end
  | Some JBool =>
      match v with
      | VBool _ => Ok v
      | _ => Ok (VBool (py_eq v (VStr "1")))
      end
  | None => Ok v
  end.
(** converter.py:41-67 [type_cast]; [props] lists the integer and boolean
    properties of the schema. *)
Fixpoint type_cast (props : list (string * jtype)) (item : dict) : res dict :=
  match item with
  | [] => Ok []
  | (k, v) :: t =>
      do v' <- cast_value (dget k props) v;
      do t' <- type_cast props t;
      Ok ((k, v') :: t')
  end.

(** [result.setdefault(key, []); result[key] += blocks] *)
Definition add_blocks (key : string) (blocks : list dict) (result : dict) : dict :=
  dset key (VList (match dget key result with Some (VList l) => l | _ => [] end
                   ++ map VDict blocks)) result.

(** converter.py:75-91 [to_intermediate] for a list of blocks, the third
    argument of [f] being the one-based index.  Simplification: a block that is
    not a dict is an AttributeError. *)
Fixpoint fwd_loop (f : dict -> dict -> nat -> res dict) (blocks : list val) (i : nat)
    (result : dict) : res dict :=
  match blocks with
  | [] => Ok result
  | b :: t =>
      do d <- as_dict b;
      do r <- f d result (S i);
      fwd_loop f t (S i) r
  end.
Definition fwd_list (key : string) (f : dict -> dict -> nat -> res dict) (config : dict) : res dict :=
  do l <- as_list (dgetN key config); fwd_loop f l 0 [].
(** The same for a single block (an object in NetJSON) *)
Definition fwd_single (key : string) (f : dict -> dict -> res dict) (config : dict) : res dict :=
  do d <- as_dict (dgetN key config); f d [].

(** [l.remove(b)]: the first equal element.  It is present whenever the code
    calls it. *)
Fixpoint remove_first (b : val) (l : list val) : list val :=
  match l with
  | [] => []
  | x :: t => if py_eq x b then t else x :: remove_first b t
  end.
(** openwrt/converters/base.py:11-13 [should_skip_block]; an empty list of
    types means that no type is skipped. *)
Definition type_in (types : list string) (b : dict) : bool :=
  match dget ".type" b with
  | Some (VStr t) => existsb (String.eqb t) types
  | _ => false
  end.
Definition skip_block (types : list string) (b : dict) : bool :=
  match b with
  | [] => true
  | _ => match types with [] => false | _ => negb (type_in types b) end
  end.
(** converter.py:101-125, the loop of [to_netjson]: [left] is what remains in
    the intermediate data.  Blocks are removed before being converted. *)
Fixpoint bwd_loop {A} (skip : dict -> bool) (f : dict -> A -> nat -> res A)
    (blocks : list val) (i : nat) (left : list val) (acc : A) : list val * res A :=
  match blocks with
  | [] => (left, Ok acc)
  | b :: t =>
      match as_dict b with
      | Err e => (left, Err e)
      | Ok d =>
          if skip d then bwd_loop skip f t (S i) left acc
          else
            let left' := remove_first b left in
            match f d acc (S i) with
            | Err e => (left', Err e)
            | Ok acc' => bwd_loop skip f t (S i) left' acc'
            end
      end
  end.
(** converter.py:101-125 [to_netjson]; [clean] is [to_netjson_clean]. *)
Definition bwd_list {A} (key : string) (types : list string) (clean : list val -> list val)
    (f : dict -> A -> nat -> res A) (acc : A) (inter : dict) : dict * res A :=
  match dget key inter with
  | None => (inter, Err (EKey key))
  | Some v =>
      match as_list v with
      | Err e => (inter, Err e)
      | Ok l =>
          let (left, r) := bwd_loop (skip_block types) f (clean l) 0 l acc in
          (dset key (VList left) inter, r)
      end
  end.

(** [if name != auto: block[key] = name] *)
Definition set_unless (key : string) (name auto : val) (b : dict) : dict :=
  if py_eq name auto then b else dset key name b.

(** openwrt/converters/base.py:15-16 [_get_uci_name] *)
Definition uci_name (s : string) : string := replace "-" "_" (replace "." "_" s).
Definition uci_name_val (v : val) : res val := do s <- as_str v; Ok (VStr (uci_name s)).

(** A converter that neither changes the configuration nor looks at more than
    its own keys. *)
Definition simple_converter (netjson_key intermediate_key : string)
    (fwd : dict -> res dict) (bwd : dict -> dict * res dict) : converter :=
  {| c_fwd_run := dmem netjson_key;
     c_fwd := fun config _ => (config, fwd config);
     c_bwd_run := dmem intermediate_key;
     c_bwd := fun _ config inter => let (inter', r) := bwd inter in ((config, inter'), r) |}.
