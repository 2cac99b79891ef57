(** * Heap: object identity and sharing in the constructor of a backend.

    The other model files work on values, where copying is invisible.  Here
    dicts and lists are objects of a heap, references to them can be shared
    (even cyclically), and [deepcopy], item assignment and [append] act on the
    heap.  Modelled: utils.py:10-95 ([merge_config], [merge_list]),
    utils.py:105-137 ([evaluate_vars]), backends/base/backend.py:33-101 (the
    constructor for a NetJSON configuration, [_load], [_merge_config],
    [_evaluate_vars]). *)
From Verif Require Import PyBase Vars.

(** A reference: an immutable scalar, or the location of an object *)
Inductive ref := Sc (v : val) | Lc (n : nat).
(** Keys of dicts: a value (a text, or a scalar or tuple when it is the value of
    an identifier in [merge_list]), or the id() of an object or of a scalar *)
Inductive hkey := HV (v : val) | HI (n : nat) | HA (n : nat).
Definition hkey_eqb (a b : hkey) : bool :=
  match a, b with
  | HV v, HV w => py_eq v w
  | HI n, HI m => Nat.eqb n m
  | HA n, HA m => Nat.eqb n m
  | _, _ => false
  end.
Inductive obj := OD (d : list (hkey * ref)) | OL (l : list ref).
(** Location [n] is position [n]; allocation is at the end. *)
Definition heap := list obj.

Definition refs (o : obj) : list ref := match o with OD d => map snd d | OL l => l end.
Fixpoint hget (k : hkey) (d : list (hkey * ref)) : option ref :=
  match d with
  | [] => None
  | (k', r) :: t => if hkey_eqb k k' then Some r else hget k t
  end.
Fixpoint hset (k : hkey) (r : ref) (d : list (hkey * ref)) : list (hkey * ref) :=
  match d with
  | [] => [(k, r)]
  | (k', r') :: t => if hkey_eqb k k' then (k', r) :: t else (k', r') :: hset k r t
  end.
Fixpoint put {A} (n : nat) (x : A) (l : list A) : list A :=
  match l, n with
  | [], _ => []
  | _ :: t, O => x :: t
  | y :: t, S n' => y :: put n' x t
  end.

(** A computation changes the heap, and returns, raises, or runs out of fuel
    (a cyclic structure makes the real code recurse without end). *)
Inductive out (A : Type) := Val (a : A) | Raise (e : exn) | NoFuel.
Arguments Val {A}. Arguments Raise {A}. Arguments NoFuel {A}.
Definition M (A : Type) := heap -> heap * out A.
Definition ret {A} (a : A) : M A := fun h => (h, Val a).
Definition raise {A} (e : exn) : M A := fun h => (h, Raise e).
Definition nofuel {A} : M A := fun h => (h, NoFuel).
Definition andthen {A B} (m : M A) (f : A -> M B) : M B := fun h =>
  match m h with
  | (h', Val a) => f a h'
  | (h', Raise e) => (h', Raise e)
  | (h', NoFuel) => (h', NoFuel)
  end.
Notation "x <~ m ; f" := (andthen m (fun x => f)) (at level 100, m at level 99, f at level 200, right associativity).
Definition lift {A} (r : res A) : M A := match r with Ok a => ret a | Err e => raise e end.
Fixpoint each {A} (f : A -> M unit) (l : list A) : M unit :=
  match l with [] => ret tt | x :: t => _ <~ f x; each f t end.

(** ** The heap operations of Python *)
Definition new (o : obj) : M ref := fun h => (h ++ [o], Val (Lc (length h))).
Definition look (n : nat) : M obj := fun h =>
  match nth_error h n with Some o => (h, Val o) | None => (h, Raise EAttr) end.
Definition store (n : nat) (o : obj) : M unit := fun h => (put n o h, Val tt).
(** [d[k] = v] *)
Definition set_item (n : nat) (k : hkey) (r : ref) : M unit :=
  o <~ look n;
  match o with OD d => store n (OD (hset k r d)) | OL _ => raise EType end.
(** [l[i] = v] *)
Definition set_nth (n i : nat) (r : ref) : M unit :=
  o <~ look n;
  match o with OL l => store n (OL (put i r l)) | OD _ => raise EType end.
(** [deepcopy]: an isomorphic copy, sharing included.  Simplification: every
    object of the heap is copied, of which those not reachable from the
    argument are garbage. *)
Definition shift (b : nat) (r : ref) : ref := match r with Lc n => Lc (b + n) | Sc v => Sc v end.
Definition shift_obj (b : nat) (o : obj) : obj :=
  match o with
  | OD d => OD (map (fun kr => (fst kr, shift b (snd kr))) d)
  | OL l => OL (map (shift b) l)
  end.
Definition deepcopy (r : ref) : M ref := fun h =>
  match r with
  | Sc v => (h, Val (Sc v))
  | Lc n => (h ++ map (shift_obj (length h)) h, Val (Lc (length h + n)))
  end.
(** The kind of the object behind a reference: [isinstance] *)
Inductive kind := KD (n : nat) (d : list (hkey * ref)) | KL (n : nat) (l : list ref) | KS (v : val).
Definition kind_of (r : ref) : M kind :=
  match r with
  | Sc v => ret (KS v)
  | Lc n => o <~ look n; ret (match o with OD d => KD n d | OL l => KL n l end)
  end.
(** The objects of [json.loads], and of any value built by the code *)
Fixpoint build (v : val) : M ref :=
  match v with
  | VDict d =>
      items <~ (fix go (d : dict) : M (list (hkey * ref)) :=
                  match d with
                  | [] => ret []
                  | (k, x) :: t => r <~ build x; rs <~ go t; ret ((HV (VStr k), r) :: rs)
                  end) d;
      new (OD items)
  | VList l =>
      items <~ (fix go (l : list val) : M (list ref) :=
                  match l with
                  | [] => ret []
                  | x :: t => r <~ build x; rs <~ go t; ret (r :: rs)
                  end) l;
      new (OL items)
  | _ => ret (Sc v)
  end.
(** The value of an object, as the code sees it; [None] when the fuel is not
    enough.  Keys that are not texts do not occur in values. *)
Fixpoint seq {A} (l : list (option A)) : option (list A) :=
  match l with
  | [] => Some []
  | Some x :: t => option_map (cons x) (seq t)
  | None :: _ => None
  end.
Definition key_text (k : hkey) : string := match k with HV (VStr s) => s | _ => EmptyString end.
Fixpoint value_of (fuel : nat) (h : heap) (r : ref) : option val :=
  match r with
  | Sc v => Some v
  | Lc n =>
      match fuel with
      | O => None
      | S f =>
          match nth_error h n with
          | Some (OD d) =>
              option_map VDict (seq (map (fun kr => option_map (pair (key_text (fst kr))) (value_of f h (snd kr))) d))
          | Some (OL l) => option_map VList (seq (map (value_of f h) l))
          | None => None
          end
      end
  end.

Section Code.
  (** id() of the scalar at a position of a list *)
  Variable aid : heap -> nat -> nat.
  (** [json.loads]; [None] is ValueError *)
  Variable json_loads : string -> option val.

  (** utils.py:83-92: the key of an element *)
  Fixpoint first_ident (ids : list string) (d : list (hkey * ref)) : option ref :=
    match ids with
    | [] => None
    | k :: t => match hget (HV (VStr k)) d with Some r => Some r | None => first_ident t d end
    end.
  Fixpoint scalars (l : list ref) : option (list val) :=
    match l with
    | [] => Some []
    | Sc v :: t => option_map (cons v) (scalars t)
    | Lc _ :: _ => None
    end.
  Definition ident_key (r : ref) : M hkey :=
    k <~ kind_of r;
    match k with
    | KS v => ret (HV v)
    | KL _ l => match scalars l with Some vs => ret (HV (VList vs)) | None => raise EType end
    | KD _ _ => raise EType
    end.
  Definition id_key (i : nat) (r : ref) : M hkey := fun h =>
    (h, Val (match r with Lc n => HI n | Sc _ => HA (aid h i) end)).
  Definition key_of_el (ids : list string) (i : nat) (el : ref) : M hkey :=
    k <~ kind_of el;
    match k with
    | KD _ d => match first_ident ids d with Some r => ident_key r | None => id_key i el end
    | _ => id_key i el
    end.
  (** utils.py:80: [el in dict_map["list1"].values()] *)
  Definition equal_refs (fuel : nat) (a b : ref) : M bool := fun h =>
    match value_of fuel h a, value_of fuel h b with
    | Some v, Some w => (h, Val (py_eq v w))
    | _, _ => (h, NoFuel)
    end.
  Fixpoint is_in (fuel : nat) (x : ref) (l : list ref) : M bool :=
    match l with
    | [] => ret false
    | y :: t => e <~ equal_refs fuel y x; if e then ret true else is_in fuel x t
    end.
  (** utils.py:70-93, one pass: the elements of a list into the container [c];
      those equal to a value of the container [skip] are left out *)
  Fixpoint fill (fuel : nat) (ids : list string) (skip : option nat) (c : nat) (i : nat) (l : list ref) : M unit :=
    match l with
    | [] => ret tt
    | el :: t =>
        seen <~ (match skip with
                 | None => ret false
                 | Some s => o <~ look s; is_in fuel el (refs o)
                 end);
        _ <~ (if (seen : bool) then ret tt
              else k <~ key_of_el ids i el; r <~ deepcopy el; set_item c k r);
        fill fuel ids skip c (S i) t
    end.
  (** utils.py:52-95 [merge_list], [merge] being [merge_config] without
      identifiers *)
  Definition merge_list_h (fuel : nat) (merge : ref -> ref -> M ref) (ids : list string)
      (l1 l2 : list ref) : M ref :=
    r1 <~ new (OD []);
    r2 <~ new (OD []);
    match r1, r2 with
    | Lc n1, Lc n2 =>
        _ <~ fill fuel ids None n1 0 l1;
        _ <~ fill fuel ids (Some n1) n2 0 l2;
        m <~ merge r1 r2;
        k <~ kind_of m;
        match k with KD _ d => new (OL (map snd d)) | _ => raise EAttr end
    | _, _ => raise EAttr
    end.
  (** utils.py:10-49 [merge_config].  The error message is not kept. *)
  Fixpoint merge_config_h (fuel : nat) (ids : list string) (template config : ref) : M ref :=
    match fuel with
    | O => nofuel
    | S f =>
        result <~ deepcopy template;
        k <~ kind_of config;
        match result, k with
        | Lc n, KD _ items =>
            _ <~ each (fun kv =>
                   let (key, value) := (kv : hkey * ref) in
                   kr <~ kind_of result;
                   existing <~ (match kr with KD _ d => ret (hget key d) | _ => raise EAttr end);
                   ke <~ (match existing with Some e => kind_of e | None => ret (KS VNull) end);
                   kv <~ kind_of value;
                   match existing, ke, kv with
                   | Some e, KD _ _, KD _ _ => r <~ merge_config_h f ids e value; set_item n key r
                   | Some e, KL _ l1, KL _ l2 => r <~ merge_list_h f (merge_config_h f []) ids l1 l2; set_item n key r
                   | Some _, KD _ _, KL _ _ | Some _, KL _ _, KD _ _ => raise (EValidation EmptyString)
                   | _, _, _ => set_item n key value
                   end) items;
            ret result
        | _, _ => raise EAttr
        end
    end.

  (** utils.py:105-137 [evaluate_vars]: containers are changed in place and
      returned, texts are replaced *)
  Definition keys_of (o : obj) : list (hkey + nat) :=
    match o with
    | OD d => map (fun kr => inl (fst kr)) d
    | OL l => map inr (List.seq 0 (length l))
    end.
  Definition item (o : obj) (k : hkey + nat) : option ref :=
    match o, k with
    | OD d, inl k => hget k d
    | OL l, inr i => nth_error l i
    | _, _ => None
    end.
  Definition assign (n : nat) (k : hkey + nat) (r : ref) : M unit :=
    match k with inl k => set_item n k r | inr i => set_nth n i r end.
  Fixpoint evaluate_h (fuel : nat) (ctx : dict) (data : ref) : M ref :=
    match data with
    | Sc (VStr s) => lift (do t <- eval_str ctx s; Ok (Sc (VStr t)))
    | Sc v => ret (Sc v)
    | Lc n =>
        match fuel with
        | O => nofuel
        | S f =>
            o <~ look n;
            _ <~ each (fun k =>
                   o' <~ look n;
                   match item o' k with
                   | Some v => r <~ evaluate_h f ctx v; assign n k r
                   | None => raise EValue
                   end) (keys_of o);
            ret data
        end
    end.

  (** backend.py:62-75 [_load] *)
  Definition load_h (r : ref) : M ref :=
    r' <~ (match r with
           | Sc (VStr s) => match json_loads s with Some v => build v | None => ret r end
           | _ => ret r
           end);
    k <~ kind_of r';
    match k with KD _ _ => ret r' | _ => raise EType end.
  (** backend.py:77-91 [_merge_config] *)
  Fixpoint merge_all (fuel : nat) (ids : list string) (result : ref) (l : list ref) : M ref :=
    match l with
    | [] => ret result
    | t :: l' => d <~ load_h t; r <~ merge_config_h fuel ids result d; merge_all fuel ids r l'
    end.
  Definition merge_templates_h (fuel : nat) (ids : list string) (config templates : ref) : M ref :=
    k <~ kind_of templates;
    match k with
    | KS v => if truthy v then raise EType else ret config
    | KD _ [] | KL _ [] => ret config
    | KD _ _ => raise EType
    | KL _ ts => e <~ new (OD []); merge_all fuel ids e (ts ++ [config])
    end.
  (** backend.py:33-60, the constructor called with a configuration, a list of
      templates and a context *)
  Definition construct (fuel : nat) (ids : list string) (ctx : dict) (config templates : ref) : M ref :=
    c <~ load_h config;
    c' <~ deepcopy c;
    m <~ merge_templates_h fuel ids c' templates;
    match ctx with [] => ret m | _ => evaluate_h fuel ctx m end.
End Code.
