(** * SpecFiles: vocabulary for the file and archive properties. *)
From Verif Require Import PyBase Files.

(** Path text: characters of [A-Za-z0-9._/-] and placeholders: two opening
    braces, anything without two consecutive closing braces, two closing braces. *)
Definition path_class (c : ascii) : Prop :=
  is_alnum c = true \/ c = "."%char \/ c = "_"%char \/ c = "/"%char \/ c = "-"%char.
Inductive path_text : string -> Prop :=
| pt_nil : path_text EmptyString
| pt_char c s : path_class c -> path_text s -> path_text (String c s)
| pt_var body s : contains "}}" (body +++ "}") = false -> path_text s ->
    path_text ("{{" +++ body +++ "}}" +++ s).

(** [cs] are the slash separated components of [s]. *)
Definition components_of (s : string) (cs : list string) : Prop :=
  cs <> [] /\ join "/" cs = s /\ forall c, In c cs -> contains "/" c = false.
Definition safe_component (c : string) : Prop := c <> EmptyString /\ c <> "." /\ c <> "..".
(** A relative path that stays below the directory where it is extracted. *)
Definition safe_relative (s : string) : Prop :=
  exists cs, components_of s cs /\ forall c, In c cs -> safe_component c.

(** First occurrences, in order. *)
Fixpoint firsts (l : list string) : list string :=
  match l with
  | [] => []
  | x :: t => x :: filter (fun y => negb (String.eqb x y)) (firsts t)
  end.

Definition ascii_only (s : string) : bool := sforall (fun c => (N_of_ascii c <? 128)%N) s.
Fixpoint non_ascii_count (s : string) : nat :=
  match s with
  | EmptyString => O
  | String c t => ((if (N_of_ascii c <? 128)%N then 0 else 1) + non_ascii_count t)%nat
  end.

(** The path without its leading slash, if it has one. *)
Definition relative_of (p q : string) : Prop :=
  p = "/" +++ q \/ (q = p /\ forall r, p <> "/" +++ r).

(** The number written with octal digits. *)
Inductive octal : string -> N -> Prop :=
| oct_one c : is_octal c = true -> octal (String c EmptyString) (N_of_ascii c - 48)%N
| oct_more s c n : octal s n -> is_octal c = true ->
    octal (s +++ String c EmptyString) (n * 8 + (N_of_ascii c - 48))%N.

(** Path of a file description. *)
Definition file_path (f : val) (p : string) : Prop :=
  exists d, f = VDict d /\ dget "path" d = Some (VStr p).

(** Archive member [m] comes from file description [f] with contents [c]:
    path without leading slash, declared mode or the default 0644, mtime 0. *)
Definition file_member (f : val) (c : string) (m : member) : Prop :=
  exists d p mode, f = VDict d /\ dget "path" d = Some (VStr p) /\
    dget "contents" d = Some (VStr c) /\
    (dget "mode" d = Some (VStr mode) \/ (dget "mode" d = None /\ mode = "0644")) /\
    relative_of p (m_name m) /\ octal (strip mode) (m_mode m) /\ m_mtime m = 0%N.

(** [y] is the last element of [l] with property [P]. *)
Definition last_such {A} (P : A -> Prop) (l : list A) (y : A) : Prop :=
  exists a b, l = (a ++ y :: b)%list /\ P y /\ forall z, In z b -> ~ P z.
