(** * SpecVars: vocabulary for the variable-substitution properties. *)
From Verif Require Import PyBase.

(** Same document up to string leaves, which are related by [R]. *)
Inductive leafwise (R : string -> string -> Prop) : val -> val -> Prop :=
| lw_null : leafwise R VNull VNull
| lw_bool b : leafwise R (VBool b) (VBool b)
| lw_int z : leafwise R (VInt z) (VInt z)
| lw_float r : leafwise R (VFloat r) (VFloat r)
| lw_str s t : R s t -> leafwise R (VStr s) (VStr t)
| lw_list l m : Forall2 (leafwise R) l m -> leafwise R (VList l) (VList m)
| lw_dict d e : Forall2 (fun a b => fst a = fst b /\ leafwise R (snd a) (snd b)) d e ->
    leafwise R (VDict d) (VDict e).

(** A text as a sequence of literal pieces and variable references. *)
Inductive piece := Lit (s : string) | Ref (w1 name w2 : string).
Definition piece_text (p : piece) : string :=
  match p with Lit s => s | Ref w1 n w2 => "{{" +++ w1 +++ n +++ w2 +++ "}}" end.
Fixpoint text (ps : list piece) : string :=
  match ps with [] => EmptyString | p :: t => piece_text p +++ text t end.
(** The documented meaning: defined variables are replaced by their value,
    all at once; undefined ones are left as they are. *)
Definition subst_piece (ctx : dict) (p : piece) : string :=
  match p with
  | Lit s => s
  | Ref _ n _ => match dget n ctx with Some v => py_str v | None => piece_text p end
  end.
Fixpoint substituted (ctx : dict) (ps : list piece) : string :=
  match ps with [] => EmptyString | p :: t => subst_piece ctx p +++ substituted ctx t end.

(** Text that cannot be confused with a reference, whatever surrounds it. *)
Definition plain (s : string) : Prop := contains "{{" s = false /\ endswith "{" s = false.
Definition ok_piece (p : piece) : Prop :=
  match p with
  | Lit s => plain s
  | Ref w1 n w2 => sforall is_space w1 = true /\ sforall is_word n = true
                   /\ sforall is_space w2 = true /\ (n = EmptyString -> w2 = EmptyString)
  end.
Definition no_backslash (s : string) : Prop := contains "\" s = false.

(** The names a text refers to, in order. *)
Fixpoint names (ps : list piece) : list string :=
  match ps with [] => [] | Lit _ :: t => names t | Ref _ n _ :: t => n :: names t end.
(** The character escapes that Python's re.sub reads in a replacement text; a
    backslash before another character that is not an ASCII letter or digit
    stands for itself.  Numeric escapes and group references are left out. *)
Definition escapes : list (ascii * ascii) :=
  [("\"%char, "\"%char); ("a"%char, "007"%char); ("b"%char, "008"%char); ("t"%char, "009"%char); ("n"%char, "010"%char);
   ("v"%char, "011"%char); ("f"%char, "012"%char); ("r"%char, "013"%char)].
Inductive unescaped : string -> string -> Prop :=
| ue_end : unescaped EmptyString EmptyString
| ue_char c r t : c <> "\"%char -> unescaped r t -> unescaped (String c r) (String c t)
| ue_escape c d r t : In (c, d) escapes -> unescaped r t -> unescaped (String "\" (String c r)) (String d t)
| ue_other c r t : is_alnum c = false -> c <> "\"%char -> unescaped r t ->
    unescaped (String "\" (String c r)) (String "\" (String c t)).
(** Every backslash doubled *)
Fixpoint escape (s : string) : string :=
  match s with
  | EmptyString => EmptyString
  | String c t => if Ascii.eqb c "\" then String "\" (String "\" (escape t)) else String c (escape t)
  end.

(** Replacing every reference to [n] by the pieces [v] *)
Definition replace_ref (n : string) (v : list piece) (ps : list piece) : list piece :=
  concat (map (fun p => match p with Ref _ m _ => if String.eqb n m then v else [p] | Lit _ => [p] end) ps).
(** One variable after the other: the defined ones of [ns] are replaced, in that
    order, in what the text has become *)
Fixpoint in_turn (value : string -> option (list piece)) (ns : list string) (ps : list piece) : list piece :=
  match ns with
  | [] => ps
  | n :: t => in_turn value t (match value n with Some v => replace_ref n v ps | None => ps end)
  end.
(** All at once *)
Definition at_once (value : string -> option (list piece)) (ps : list piece) : list piece :=
  concat (map (fun p => match p with
                        | Ref _ n _ => match value n with Some v => v | None => [p] end
                        | Lit _ => [p]
                        end) ps).
(** [value] gives, for the references of [ps], the pieces that [ctx] stands for *)
Definition stands_for (ctx : dict) (value : string -> option (list piece)) (ps : list piece) : Prop :=
  forall n, In n (names ps) ->
    match dget n ctx, value n with
    | Some x, Some v => unescaped (py_str x) (text v) /\ Forall ok_piece v
    | None, None => True
    | _, _ => False
    end.
