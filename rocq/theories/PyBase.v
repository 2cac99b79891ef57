(** * PyBase: the fragment of Python's built-in strings, values and dicts
    that netjsonconfig relies on.

    Strings are Coq [string]s: a character is a Python code point below 256
    (Latin-1).  Simplification: code points >= 256 are not represented.
    Nothing in this file models code in /repo; it models the Python runtime
    that the code in /repo calls, and belongs to the trusted reading. *)
From Coq Require Export String Ascii List ZArith Bool Lia.
Export ListNotations.
Open Scope string_scope.
Open Scope list_scope.
Infix "+++" := String.append (right associativity, at level 60).

(** ** Characters *)

Definition ch (n : nat) : ascii := ascii_of_nat n.
Definition NLc : ascii := "010"%char.
Definition TABc : ascii := "009"%char.
Definition NL : string := String NLc EmptyString.
Definition TAB : string := String TABc EmptyString.
Definition SQc : ascii := "'"%char.
Definition DQc : ascii := """"%char.
Definition SQ : string := String SQc EmptyString.
Definition DQ : string := String DQc EmptyString.

(** Python [str.isspace] / regexp [\s] restricted to Latin-1:
    9-13, 28-31, 32, 133 (0x85), 160 (0xa0). *)
Definition is_space (c : ascii) : bool :=
  let n := nat_of_ascii c in
  ((9 <=? n) && (n <=? 13) || (28 <=? n) && (n <=? 32)
   || (n =? 133) || (n =? 160))%nat.

Definition is_digit (c : ascii) : bool :=
  let n := nat_of_ascii c in ((48 <=? n) && (n <=? 57))%nat.
Definition is_upper (c : ascii) : bool :=
  let n := nat_of_ascii c in ((65 <=? n) && (n <=? 90))%nat.
Definition is_lower (c : ascii) : bool :=
  let n := nat_of_ascii c in ((97 <=? n) && (n <=? 122))%nat.
Definition is_alnum (c : ascii) : bool := is_digit c || is_upper c || is_lower c.

(** regexp [\w] for [str] patterns restricted to Latin-1: alphanumerics,
    underscore, and the Latin-1 letters and numerals. *)
Definition is_word (c : ascii) : bool :=
  let n := nat_of_ascii c in
  (is_alnum c || (n =? 95)
   || (n =? 170) || (n =? 178) || (n =? 179) || (n =? 181) || (n =? 185)
   || (n =? 186) || (n =? 188) || (n =? 189) || (n =? 190)
   || (192 <=? n) && (n <=? 214) || (216 <=? n) && (n <=? 246)
   || (248 <=? n))%nat.

(** ASCII case mapping (Simplification: [str.lower]/[str.upper] on code
    points 128-255 are the identity here). *)
Definition lower_char (c : ascii) : ascii :=
  if is_upper c then ch (nat_of_ascii c + 32) else c.
Definition upper_char (c : ascii) : ascii :=
  if is_lower c then ch (nat_of_ascii c - 32) else c.

(** ** Strings *)

Fixpoint smap (f : ascii -> ascii) (s : string) : string :=
  match s with EmptyString => EmptyString | String c s' => String (f c) (smap f s') end.
Definition lower := smap lower_char.
Definition upper := smap upper_char.

Fixpoint sforall (p : ascii -> bool) (s : string) : bool :=
  match s with EmptyString => true | String c s' => p c && sforall p s' end.
Fixpoint sexists (p : ascii -> bool) (s : string) : bool :=
  match s with EmptyString => false | String c s' => p c || sexists p s' end.

(** [s.startswith(p)] *)
Fixpoint startswith (p s : string) : bool :=
  match p, s with
  | EmptyString, _ => true
  | String a p', String b s' => Ascii.eqb a b && startswith p' s'
  | String _ _, EmptyString => false
  end.

Fixpoint srev_onto (s acc : string) : string :=
  match s with EmptyString => acc | String c s' => srev_onto s' (String c acc) end.
Definition srev (s : string) : string := srev_onto s EmptyString.

(** [s.endswith(p)] *)
Definition endswith (p s : string) : bool := startswith (srev p) (srev s).

(** [s[n:]] for n >= 0 *)
Fixpoint sdrop (n : nat) (s : string) : string :=
  match n, s with
  | O, _ => s
  | S n', String _ s' => sdrop n' s'
  | S _, EmptyString => EmptyString
  end.
(** [s[:n]] for n >= 0 *)
Fixpoint stake (n : nat) (s : string) : string :=
  match n, s with
  | O, _ => EmptyString
  | S n', String c s' => String c (stake n' s')
  | S _, EmptyString => EmptyString
  end.
(** [s[:-1]] / [s[0:-1]] *)
Definition sinit (s : string) : string := stake (String.length s - 1) s.
(** [s[-n:]], n > 0 *)
Definition slast (n : nat) (s : string) : string := sdrop (String.length s - n) s.

(** [sub in s] *)
Fixpoint contains (sub s : string) : bool :=
  startswith sub s
  || match s with EmptyString => false | String _ s' => contains sub s' end.

(** [s.replace(old, new)], [old] non-empty: leftmost, non-overlapping. *)
Fixpoint replace_from (old new : string) (skip : nat) (s : string) : string :=
  match s with
  | EmptyString => EmptyString
  | String c s' =>
      match skip with
      | S k => replace_from old new k s'
      | O => if startswith old s
             then new +++ replace_from old new (String.length old - 1) s'
             else String c (replace_from old new O s')
      end
  end.
Definition replace (old new s : string) : string := replace_from old new O s.

(** [s.split(c)] for a one-character separator: always a non-empty list. *)
Fixpoint split_char (sep : ascii) (s : string) : list string :=
  match s with
  | EmptyString => [EmptyString]
  | String c s' =>
      if Ascii.eqb c sep then EmptyString :: split_char sep s'
      else match split_char sep s' with
           | [] => [String c EmptyString]
           | h :: t => String c h :: t
           end
  end.

(** [s.split()]: split on runs of whitespace, dropping empty pieces. *)
Fixpoint split_ws_from (cur : string) (s : string) : list string :=
  match s with
  | EmptyString => match cur with EmptyString => [] | _ => [srev cur] end
  | String c s' =>
      if is_space c
      then match cur with
           | EmptyString => split_ws_from EmptyString s'
           | _ => srev cur :: split_ws_from EmptyString s'
           end
      else split_ws_from (String c cur) s'
  end.
Definition split_ws (s : string) : list string := split_ws_from EmptyString s.

(** [sep.join(l)] *)
Fixpoint join (sep : string) (l : list string) : string :=
  match l with
  | [] => EmptyString
  | [x] => x
  | x :: t => x +++ sep +++ join sep t
  end.

Fixpoint lstrip_p (p : ascii -> bool) (s : string) : string :=
  match s with
  | EmptyString => EmptyString
  | String c s' => if p c then lstrip_p p s' else s
  end.
Definition rstrip_p (p : ascii -> bool) (s : string) : string :=
  srev (lstrip_p p (srev s)).
(** [s.strip()] *)
Definition strip (s : string) : string := rstrip_p is_space (lstrip_p is_space s).

Fixpoint in_chars (c : ascii) (set : string) : bool :=
  match set with EmptyString => false | String d r => Ascii.eqb c d || in_chars c r end.
(** [s.lstrip(chars)] *)
Definition lstrip_chars (set s : string) : string := lstrip_p (fun c => in_chars c set) s.

(** [s.rpartition(c)], one-character separator: [None] when [c] is absent. *)
Fixpoint rpartition (sep : ascii) (s : string) : option (string * string) :=
  match s with
  | EmptyString => None
  | String c s' =>
      match rpartition sep s' with
      | Some (a, b) => Some (String c a, b)
      | None => if Ascii.eqb c sep then Some (EmptyString, s') else None
      end
  end.

(** First position of [sub] in [s] ([s.find(sub)]). *)
Fixpoint find_sub (sub s : string) : option nat :=
  if startswith sub s then Some O
  else match s with
       | EmptyString => None
       | String _ s' => option_map S (find_sub sub s')
       end.

Fixpoint count_char (c : ascii) (s : string) : nat :=
  match s with
  | EmptyString => O
  | String d s' => if Ascii.eqb c d then S (count_char c s') else count_char c s'
  end.

(** ** Numbers and text *)

Definition digit_char (n : N) : ascii := ascii_of_N (48 + n).
Definition digit_val (c : ascii) : N := (N_of_ascii c - 48)%N.

Fixpoint dec_of_pos_fuel (fuel : nat) (n : N) (acc : string) : string :=
  match fuel with
  | O => acc
  | S f => let acc' := String (digit_char (n mod 10)%N) acc in
           if (n <? 10)%N then acc' else dec_of_pos_fuel f (n / 10)%N acc'
  end.
(** [str(n)] for a natural number (the fuel, the binary length plus one, is
    proved sufficient in [PyLemmas]). *)
Definition string_of_N (n : N) : string :=
  dec_of_pos_fuel (S (N.to_nat (N.size n))) n EmptyString.
(** [str(z)] for an integer. *)
Definition string_of_Z (z : Z) : string :=
  match z with
  | Zneg p => String "-"%char (string_of_N (Npos p))
  | _ => string_of_N (Z.to_N z)
  end.
Definition string_of_nat (n : nat) : string := string_of_N (N.of_nat n).

(** Digits of [int(s)]: digits, single underscores allowed between digits. *)
Fixpoint parse_digits (s : string) (acc : N) (prev_digit : bool) : option N :=
  match s with
  | EmptyString => if prev_digit then Some acc else None
  | String c s' =>
      if is_digit c then parse_digits s' (acc * 10 + digit_val c)%N true
      else if Ascii.eqb c "_"%char && prev_digit then parse_digits s' acc false
      else None
  end.
(** [int(s)] for a [str]: [None] stands for ValueError. *)
Definition int_of_string (s : string) : option Z :=
  match strip s with
  | String "+"%char r => option_map Z.of_N (parse_digits r 0 false)
  | String "-"%char r => option_map (fun n => Z.opp (Z.of_N n)) (parse_digits r 0 false)
  | r => option_map Z.of_N (parse_digits r 0 false)
  end.

Definition is_octal (c : ascii) : bool :=
  let n := nat_of_ascii c in ((48 <=? n) && (n <=? 55))%nat.
Fixpoint parse_octal (s : string) (acc : N) (seen : bool) : option N :=
  match s with
  | EmptyString => if seen then Some acc else None
  | String c s' =>
      if is_octal c then parse_octal s' (acc * 8 + digit_val c)%N true else None
  end.

(** ** Python values (JSON-like) *)

(** [VFloat r] is a non-integral float identified by its [repr]
    (Simplification: integral floats such as [1.0], which compare equal to
    ints in Python, and NaN are not represented). *)
Inductive val : Type :=
| VNull
| VBool (b : bool)
| VInt (z : Z)
| VFloat (r : string)
| VStr (s : string)
| VList (l : list val)
| VDict (d : list (string * val)).

Notation dict := (list (string * val)).

Definition is_dict (v : val) : bool := match v with VDict _ => true | _ => false end.
Definition is_list (v : val) : bool := match v with VList _ => true | _ => false end.
Definition is_str (v : val) : bool := match v with VStr _ => true | _ => false end.
Definition is_null (v : val) : bool := match v with VNull => true | _ => false end.
Definition is_container (v : val) : bool := is_dict v || is_list v.

(** ** Dict operations (insertion-ordered association lists) *)

Section Assoc.
  Context {V : Type}.
  Fixpoint dget (k : string) (d : list (string * V)) : option V :=
    match d with
    | [] => None
    | (k', v) :: t => if String.eqb k k' then Some v else dget k t
    end.
  Definition dmem (k : string) (d : list (string * V)) : bool :=
    match dget k d with Some _ => true | None => false end.
  (** [d[k] = v] *)
  Fixpoint dset (k : string) (v : V) (d : list (string * V)) : list (string * V) :=
    match d with
    | [] => [(k, v)]
    | (k', v') :: t => if String.eqb k k' then (k', v) :: t else (k', v') :: dset k v t
    end.
  (** [d.pop(k, None)] / [del d[k]], the dict part *)
  Fixpoint ddel (k : string) (d : list (string * V)) : list (string * V) :=
    match d with
    | [] => []
    | (k', v') :: t => if String.eqb k k' then t else (k', v') :: ddel k t
    end.
  (** [d.update(e)] *)
  Definition dupdate (d e : list (string * V)) : list (string * V) :=
    fold_left (fun acc kv => dset (fst kv) (snd kv) acc) e d.
  Definition dkeys (d : list (string * V)) : list string := map fst d.
  Definition dvals (d : list (string * V)) : list V := map snd d.
End Assoc.

(** [d.get(k)] seen as a value: absent is None *)
Definition dgetN (k : string) (d : dict) : val :=
  match dget k d with Some v => v | None => VNull end.

(** [sorted(d.items())]: insertion sort on the keys (dict keys are unique, so
    tuple comparison never reaches the values). *)
Fixpoint str_leb (a b : string) : bool :=
  match a, b with
  | EmptyString, _ => true
  | String _ _, EmptyString => false
  | String x a', String y b' =>
      if (nat_of_ascii x <? nat_of_ascii y)%nat then true
      else if Ascii.eqb x y then str_leb a' b' else false
  end.
Section Sort.
  Context {V : Type}.
  Fixpoint sins (kv : string * V) (d : list (string * V)) : list (string * V) :=
    match d with
    | [] => [kv]
    | kv' :: t => if str_leb (fst kv) (fst kv') then kv :: d else kv' :: sins kv t
    end.
  Fixpoint ssort (d : list (string * V)) : list (string * V) :=
    match d with [] => [] | kv :: t => sins kv (ssort t) end.
End Sort.

(** ** Python equality, truth, str() *)

Fixpoint py_eq (a b : val) {struct a} : bool :=
  match a, b with
  | VNull, VNull => true
  | VBool x, VBool y => Bool.eqb x y
  | VBool x, VInt y => Z.eqb (Z.b2z x) y
  | VInt x, VBool y => Z.eqb x (Z.b2z y)
  | VInt x, VInt y => Z.eqb x y
  | VFloat x, VFloat y => String.eqb x y
  | VStr x, VStr y => String.eqb x y
  | VList l1, VList l2 =>
      (fix go (l1 l2 : list val) : bool :=
         match l1, l2 with
         | [], [] => true
         | x :: t, y :: u => py_eq x y && go t u
         | _, _ => false
         end) l1 l2
  | VDict d1, VDict d2 =>
      (length d1 =? length d2)%nat &&
      (fix go (d1 : dict) : bool :=
         match d1 with
         | [] => true
         | (k, v) :: t =>
             match dget k d2 with Some w => py_eq v w | None => false end && go t
         end) d1
  | _, _ => false
  end.

Definition py_in (x : val) (l : list val) : bool := existsb (fun y => py_eq y x) l.

(** [bool(v)] *)
Definition truthy (v : val) : bool :=
  match v with
  | VNull => false
  | VBool b => b
  | VInt z => negb (Z.eqb z 0)
  | VFloat _ => true
  | VStr s => negb (String.eqb s EmptyString)
  | VList l => match l with [] => false | _ => true end
  | VDict d => match d with [] => false | _ => true end
  end.

(** [repr(s)] of a string.  Simplification: only backslash, quotes, newline,
    tab and carriage return are escaped; other non-printable code points are
    copied. *)
Definition repr_str (s : string) : string :=
  let q := if contains SQ s && negb (contains DQ s) then DQc else SQc in
  let fix go (s : string) : string :=
    match s with
    | EmptyString => EmptyString
    | String c s' =>
        (if Ascii.eqb c q || Ascii.eqb c "\"%char then String "\"%char (String c EmptyString)
         else if Ascii.eqb c NLc then "\n"
         else if Ascii.eqb c TABc then "\t"
         else if Ascii.eqb c "013"%char then "\r"
         else String c EmptyString) +++ go s'
    end in
  String q (go s) +++ String q EmptyString.

Fixpoint py_repr (v : val) : string :=
  match v with
  | VNull => "None"
  | VBool true => "True"
  | VBool false => "False"
  | VInt z => string_of_Z z
  | VFloat r => r
  | VStr s => repr_str s
  | VList l => "[" +++ join ", " (map py_repr l) +++ "]"
  | VDict d => "{" +++ join ", " (map (fun kv => repr_str (fst kv) +++ ": " +++ py_repr (snd kv)) d) +++ "}"
  end.
(** [str(v)] *)
Definition py_str (v : val) : string :=
  match v with VStr s => s | _ => py_repr v end.

(** ** Exceptions as values *)

Inductive exn : Type :=
| EValidation (msg : string)     (* netjsonconfig.exceptions.ValidationError *)
| EJsonSchema (msg : string)     (* jsonschema's own ValidationError, not wrapped *)
| EParse (msg : string)          (* netjsonconfig.exceptions.ParseError *)
| EType | EKey (k : string) | EValue | EIndex | EAttr | ENotImpl | ERe.

Inductive res (A : Type) : Type := Ok (a : A) | Err (e : exn).
Arguments Ok {A}. Arguments Err {A}.

Definition bind {A B} (m : res A) (f : A -> res B) : res B :=
  match m with Ok a => f a | Err e => Err e end.
Notation "'do' x <- m ; f" := (bind m (fun x => f))
  (at level 200, x pattern, m at level 100, f at level 200, right associativity).

Fixpoint mapM {A B} (f : A -> res B) (l : list A) : res (list B) :=
  match l with
  | [] => Ok []
  | x :: t => do y <- f x; do r <- mapM f t; Ok (y :: r)
  end.
Fixpoint foldM {A B} (f : B -> A -> res B) (acc : B) (l : list A) : res B :=
  match l with
  | [] => Ok acc
  | x :: t => do acc' <- f acc x; foldM f acc' t
  end.

(** [d[k]] *)
Definition dgetE (k : string) (d : dict) : res val :=
  match dget k d with Some v => Ok v | None => Err (EKey k) end.

(** Unwrapping a value used as a string: attribute error / type error otherwise *)
Definition as_str (v : val) : res string := match v with VStr s => Ok s | _ => Err EAttr end.
Definition as_dict (v : val) : res dict := match v with VDict d => Ok d | _ => Err EAttr end.
Definition as_list (v : val) : res (list val) := match v with VList l => Ok l | _ => Err EType end.
