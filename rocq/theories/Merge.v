(** * Merge: model of netjsonconfig/utils.py [merge_config] and [merge_list],
    and of the template handling of backends/base/backend.py. *)
From Verif Require Import PyBase.

(** Python [id(el)] (utils.py:74) is an identity oracle: [oid l i] is the
    identity of the object at position [i] of list [l].  Immutable Python
    objects may be shared (interning), so positions holding equal values may or
    may not share an identity; [oid_sound] says only that one object has one
    value.  Simplification: the oracle depends on the list value and the
    position only. *)
Definition oracle := list val -> nat -> nat.
Definition oid_sound (oid : oracle) : Prop :=
  forall l i j x y, nth_error l i = Some x -> nth_error l j = Some y ->
    oid l i = oid l j -> x = y.
(** Every position holds a distinct object (no sharing). *)
Definition oid_inj (oid : oracle) : Prop :=
  forall l i j, i < length l -> j < length l -> oid l i = oid l j -> i = j.

(** Keys of the two OrderedDicts built by [merge_list] (utils.py:68-92):
    either an object identity (of an object of the first or second list) or an
    identifier value.  Simplification: an identifier value that is an integer
    equal to a memory address does not collide with an identity. *)
Inductive mkey := KId (second : bool) (n : nat) | KVal (v : val).
Definition mkey_eqb (a b : mkey) : bool :=
  match a, b with
  | KId s n, KId t m => Bool.eqb s t && Nat.eqb n m
  | KVal v, KVal w => py_eq v w
  | _, _ => false
  end.

Section KAssoc.
  Context {V : Type}.
  Fixpoint kget (k : mkey) (d : list (mkey * V)) : option V :=
    match d with
    | [] => None
    | (k', v) :: t => if mkey_eqb k k' then Some v else kget k t
    end.
  Fixpoint kset (k : mkey) (v : V) (d : list (mkey * V)) : list (mkey * V) :=
    match d with
    | [] => [(k, v)]
    | (k', v') :: t => if mkey_eqb k k' then (k', v) :: t else (k', v') :: kset k v t
    end.
End KAssoc.

(** Hashability of a would-be dict key; a list has been turned into a tuple
    (utils.py:90-91), so it is hashable iff its elements are, and nested lists
    and dicts are not. *)
Definition hashable_scalar (v : val) : bool := negb (is_container v).
Definition hashable (v : val) : bool :=
  match v with
  | VDict _ => false
  | VList l => forallb hashable_scalar l
  | _ => true
  end.

(** utils.py:83-87: first identifier present in a dict element. *)
Fixpoint ident_of (ids : list string) (d : dict) : option val :=
  match ids with
  | [] => None
  | k :: t => match dget k d with Some v => Some v | None => ident_of t d end
  end.
(** utils.py:74-92: the container key of the [i]-th element [el] of [l];
    unhashable identifiers make the dict assignment raise TypeError. *)
Definition key_of (ids : list string) (second : bool) (oid : oracle)
    (l : list val) (i : nat) (el : val) : res mkey :=
  match el with
  | VDict d => match ident_of ids d with
               | Some v => if hashable v then Ok (KVal v) else Err EType
               | None => Ok (KId second (oid l i))
               end
  | _ => Ok (KId second (oid l i))
  end.

(** utils.py:70-93, first pass over the list from the template. *)
Fixpoint container1_from (oid : oracle) (ids : list string) (l : list val)
    (i : nat) (rest : list val) (acc : list (mkey * val)) : res (list (mkey * val)) :=
  match rest with
  | [] => Ok acc
  | el :: t => do k <- key_of ids false oid l i el;
               container1_from oid ids l (S i) t (kset k el acc)
  end.
Definition container1 (oid : oracle) (ids : list string) (l : list val) :=
  container1_from oid ids l 0 l [].

(** utils.py:70-93, second pass, skipping elements equal to one already present
    in the first container (utils.py:80-81).  [f] decorates the stored element. *)
Fixpoint container2_from {A} (oid : oracle) (ids : list string) (c1 : list (mkey * val))
    (l : list val) (f : val -> A)
    (i : nat) (rest : list val) (acc : list (mkey * A)) : res (list (mkey * A)) :=
  match rest with
  | [] => Ok acc
  | el :: t =>
      if py_in el (map snd c1) then container2_from oid ids c1 l f (S i) t acc
      else do k <- key_of ids true oid l i el;
           container2_from oid ids c1 l f (S i) t (kset k (f el) acc)
  end.

(** utils.py:41-46 *)
Definition type_name (v : val) : string :=
  match v with
  | VDict _ => "dict" | VList _ => "list" | VStr _ => "str" | VInt _ => "int"
  | VBool _ => "bool" | VFloat _ => "float" | VNull => "NoneType"
  end.
Definition incompatible (key : string) (existing value : val) : exn :=
  EValidation ("Incompatible type for '" +++ key +++ "': expected "
    +++ type_name existing +++ ", got " +++ type_name value +++ ".").

(** utils.py:30-48, the body of the loop of [merge_config] for one key: the
    value stored for [key] given the value [v] of the config and the [existing]
    one.  The list branch is [merge_list] (utils.py:52-95), inlined because the
    two functions are mutually recursive; [merge_config] on the two containers
    is called without identifiers (utils.py:94).  [deepcopy] is the identity on
    values (aliasing is modelled separately in Heap.v). *)
Fixpoint merge_val (oid : oracle) (v : val) (ids : list string)
    (existing : option val) (key : string) {struct v} : res val :=
  match v with
  | VDict c =>
      match existing with
      | Some (VDict t) =>
          do r <- (fix go (c : dict) (acc : dict) : res dict :=
                     match c with
                     | [] => Ok acc
                     | (k, x) :: c' =>
                         do y <- merge_val oid x ids (dget k acc) k;
                         go c' (dset k y acc)
                     end) c t;
          Ok (VDict r)
      | Some (VList l) => Err (incompatible key (VList l) v)
      | _ => Ok v
      end
  | VList l2 =>
      match existing with
      | Some (VList l1) =>
          do c1 <- container1 oid ids l1;
          do c2 <- (fix go (i : nat) (rest : list val)
                        (acc : list (mkey * (option val -> res val)))
                        : res (list (mkey * (option val -> res val))) :=
                      match rest with
                      | [] => Ok acc
                      | el :: t =>
                          if py_in el (map snd c1) then go (S i) t acc
                          else do k <- key_of ids true oid l2 i el;
                               go (S i) t
                                  (kset k (fun ex => merge_val oid el [] ex EmptyString) acc)
                      end) 0 l2 [];
          do m <- foldM (fun acc kf => do y <- snd kf (kget (fst kf) acc);
                                       Ok (kset (fst kf) y acc)) c1 c2;
          Ok (VList (map snd m))
      | Some (VDict t) => Err (incompatible key (VDict t) v)
      | _ => Ok v
      end
  | _ => Ok v
  end.

(** utils.py:10-49 *)
Definition merge_config (oid : oracle) (ids : list string) (template config : dict)
    : res dict :=
  foldM (fun acc kv => do y <- merge_val oid (snd kv) ids (dget (fst kv) acc) (fst kv);
                       Ok (dset (fst kv) y acc)) template config.

(** utils.py:52-95 *)
Definition merge_list (oid : oracle) (ids : list string) (l1 l2 : list val)
    : res (list val) :=
  do c1 <- container1 oid ids l1;
  do c2 <- container2_from oid ids c1 l2 (fun el => el) 0 l2 [];
  do m <- foldM (fun acc kv => do y <- merge_val oid (snd kv) [] (kget (fst kv) acc) EmptyString;
                               Ok (kset (fst kv) y acc)) c1 c2;
  Ok (map snd m).

(** ** BaseBackend._load / _merge_config (backends/base/backend.py:62-91) *)

Section Load.
  (** [json.loads] on a string; [None] is ValueError. *)
  Variable json_loads : string -> option val.
  (** backend.py:62-75 *)
  Definition load (v : val) : res dict :=
    let v' := match v with
              | VStr s => match json_loads s with Some w => w | None => v end
              | _ => v
              end in
    match v' with VDict d => Ok d | _ => Err EType end.
  (** backend.py:77-91; [templates] is the Python argument, any value. *)
  Definition merge_templates (oid : oracle) (ids : list string) (config : dict)
      (templates : val) : res dict :=
    if negb (truthy templates) then Ok config
    else match templates with
         | VList ts =>
             foldM (fun acc t => do d <- load t; merge_config oid ids acc d) []
                   (ts ++ [VDict config])
         | _ => Err EType
         end.
End Load.
