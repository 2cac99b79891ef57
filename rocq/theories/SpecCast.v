(** * SpecCast: the numbers that Python's int() reads and the types that a JSON
    schema declares *)
From Verif Require Import PyBase.

(** The number written by a text of decimal digits *)
Fixpoint number_from (acc : N) (s : string) : N :=
  match s with
  | EmptyString => acc
  | String c r => number_from (10 * acc + (N_of_ascii c - 48)) r
  end.
Definition digits (s : string) : Prop := s <> EmptyString /\ sforall is_digit s = true.
(** groups of digits, separated by one underscore *)
Definition numeral (s : string) (n : N) : Prop :=
  exists groups, groups <> [] /\ Forall digits groups /\ s = join "_" groups /\ n = number_from 0 (join "" groups).
(** blanks, an optional sign, a numeral, blanks *)
Definition reads_as (s : string) (z : Z) : Prop :=
  exists a sign m b n, s = a +++ sign +++ m +++ b /\ sforall is_space a = true /\ sforall is_space b = true /\
    numeral m n /\ (sign = "" /\ z = Z.of_N n \/ sign = "+" /\ z = Z.of_N n \/ sign = "-" /\ z = Z.opp (Z.of_N n)).

(** The schema gives the field [k] the type [t]: alone, or first of a list *)
Definition declares (properties : dict) (k t : string) : Prop :=
  exists p, dget k properties = Some (VDict p) /\
    (dget "type" p = Some (VStr t) \/ exists l, dget "type" p = Some (VList (VStr t :: l))).
(** What casting does to one field *)
Inductive field_cast (properties : dict) (k : string) : val -> val -> Prop :=
| cast_int s z : declares properties k "integer" -> reads_as s z -> field_cast properties k (VStr s) (VInt z)
| cast_int_id v : declares properties k "integer" -> (exists z, v = VInt z) \/ (exists b, v = VBool b) -> field_cast properties k v v
| cast_bool v : declares properties k "boolean" -> (forall b, v <> VBool b) -> field_cast properties k v (VBool (py_eq v (VStr "1")))
| cast_bool_id b : declares properties k "boolean" -> field_cast properties k (VBool b) (VBool b)
| cast_none v : ~ declares properties k "integer" -> ~ declares properties k "boolean" -> field_cast properties k v v.
