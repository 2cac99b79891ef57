(** * SpecUciMore: vocabulary for C23-C25 *)
From Verif Require Import PyBase SpecUci Files.

(** An option that UCI cannot represent: no value, or a reserved name. *)
Definition unwritten (kv : string * val) : Prop :=
  fst kv <> ".type" /\ fst kv <> ".name" /\ (startswith "." (fst kv) = true \/ uci_value (snd kv) = None).
(** [b'] is [b] without some of its unwritten options (possibly all). *)
Inductive thinned : dict -> dict -> Prop :=
| thin_nil : thinned [] []
| thin_keep kv b b' : thinned b b' -> thinned (kv :: b) (kv :: b')
| thin_drop kv b b' : unwritten kv -> thinned b b' -> thinned (kv :: b) b'.
(** The same, in every section of every package. *)
Definition data_thinned (d d' : dict) : Prop :=
  Forall2 (fun p p' => fst p = fst p' /\
     exists bs bs', snd p = VList (map VDict bs) /\ snd p' = VList (map VDict bs') /\ Forall2 thinned bs bs') d d'.

(** A line that sets or extends the option [k]: the keyword, the name (up to
    quotes and white space) and the rest. *)
Definition unquoted (s : string) : string := replace DQ EmptyString (replace SQ EmptyString s).
Definition space_free (s : string) : Prop := sforall (fun c => negb (is_space c)) s = true.
Definition blank (s : string) : Prop := sforall is_space s = true.
Definition line_of (kw k line : string) : Prop :=
  exists sp key rest, strip line = kw +++ sp +++ key +++ rest /\ blank sp /\ space_free key /\
    (rest = EmptyString \/ exists c r, rest = String c r /\ is_space c = true) /\
    (key = EmptyString -> rest = EmptyString) /\ unquoted key = k.
(** A list line for a name that already holds a plain value. *)
Definition clash (lines : list string) : Prop :=
  exists l1 line l2 k, lines = (l1 ++ line :: l2)%list /\ line_of "list" k line /\
    (k = ".type" \/ k = ".name" \/ exists o, In o l1 /\ line_of "option" k o).

Definition ascii_text (s : string) : Prop := sforall (fun c => (N_of_ascii c <? 128)%N) s = true.

(** The pieces of a text after [kw] at the beginning of a line (Python's
    [re.split]), stripped, blank ones left out. *)
Definition stripped (pieces : list string) : list string :=
  filter (fun s => negb (String.eqb s EmptyString)) (map strip pieces).
(** First line of a text, and the text after it. *)
Definition first_line (s : string) : string := match split_char NLc s with f :: _ => f | [] => EmptyString end.
Definition after_first (s : string) : string := sdrop (String.length (first_line s)) s.
Definition other_lines (s : string) : list string := match split_char NLc s with _ :: l => l | [] => [] end.
