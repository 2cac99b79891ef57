(** * Vars: model of netjsonconfig/utils.py:102-137 [evaluate_vars], including
    the parts of Python's [re.sub] it depends on. *)
From Verif Require Import PyBase.

(** Longest prefix of characters satisfying [p], and the rest. *)
Fixpoint span (p : ascii -> bool) (s : string) : string * string :=
  match s with
  | EmptyString => (EmptyString, EmptyString)
  | String c s' => if p c then let (a, b) := span p s' in (String c a, b)
                   else (EmptyString, s)
  end.

(** utils.py:102, the regexp of a template variable (two opening braces, blanks, a
    possibly empty run of word characters, blanks, two closing braces) matched at the beginning of
    [s]: left blanks, name, right blanks, length of the match.  Greedy matching
    is exact: [\s] and [\w] are disjoint, so backtracking cannot help. *)
Definition match_var (s : string) : option (string * string * string * nat) :=
  match s with
  | String "{" (String "{" r) =>
      let (w1, r1) := span is_space r in
      let (name, r2) := span is_word r1 in
      let (w2, r3) := span is_space r2 in
      if startswith "}}" r3
      then Some (w1, name, w2,
                 4 + String.length w1 + String.length name + String.length w2)%nat
      else None
  | _ => None
  end.

(** [var_pattern.findall(data)] (utils.py:123). *)
Fixpoint findall_from (skip : nat) (s : string) : list string :=
  match s with
  | EmptyString => []
  | String _ s' =>
      match skip with
      | S k => findall_from k s'
      | O => match match_var s with
             | Some (_, name, _, n) => name :: findall_from (n - 1) s'
             | None => findall_from O s'
             end
      end
  end.
Definition findall (s : string) : list string := findall_from O s.

(** Replacement templates of [re.sub] (CPython's _parser.parse_template):
    backslash escapes in the replacement string are processed; [g0] is the whole
    match, [g1] the only group.  [None] is re.error (or IndexError for an
    unknown [\g<name>]).  Simplification: inside [\g<...>] only "0" and "1" are
    recognised. *)
Definition is_ascii_letter (c : ascii) : bool := is_upper c || is_lower c.
Definition oct_val (c : ascii) : N := digit_val c.
Fixpoint expand (fuel : nat) (g0 g1 : string) (s : string) : option string :=
  match fuel with
  | O => None
  | S f =>
    match s with
    | EmptyString => Some EmptyString
    | String "\" r =>
        match r with
        | EmptyString => None
        | String c r' =>
            if Ascii.eqb c "g"%char then
              match r' with
              | String "<" (String "0" (String ">" r3)) =>
                  option_map (fun t => g0 +++ t) (expand f g0 g1 r3)
              | String "<" (String "1" (String ">" r3)) =>
                  option_map (fun t => g1 +++ t) (expand f g0 g1 r3)
              | _ => None
              end
            else if Ascii.eqb c "0"%char then
              match r' with
              | String d (String e r3) =>
                  if is_octal d then
                    if is_octal e then
                      option_map (String (ascii_of_N ((oct_val d * 8 + oct_val e) mod 256)%N))
                                 (expand f g0 g1 r3)
                    else option_map (String (ascii_of_N (oct_val d)))
                                    (expand f g0 g1 (String e r3))
                  else option_map (String (ascii_of_N 0)) (expand f g0 g1 r')
              | String d EmptyString =>
                  if is_octal d then Some (String (ascii_of_N (oct_val d)) EmptyString)
                  else option_map (String (ascii_of_N 0)) (expand f g0 g1 r')
              | EmptyString => Some (String (ascii_of_N 0) EmptyString)
              end
            else if is_digit c then
              match r' with
              | String d r3 =>
                  if is_digit d then
                    match r3 with
                    | String e r4 =>
                        if is_octal c && is_octal d && is_octal e then
                          let n := (oct_val c * 64 + oct_val d * 8 + oct_val e)%N in
                          if (255 <? n)%N then None
                          else option_map (String (ascii_of_N n)) (expand f g0 g1 r4)
                        else None
                    | EmptyString => None
                    end
                  else if Ascii.eqb c "1"%char
                       then option_map (fun t => g1 +++ t) (expand f g0 g1 r')
                       else None
              | EmptyString =>
                  if Ascii.eqb c "1"%char then Some g1 else None
              end
            else
              let esc := match c with
                         | "a"%char => Some (ch 7) | "b"%char => Some (ch 8)
                         | "f"%char => Some (ch 12) | "n"%char => Some (ch 10)
                         | "r"%char => Some (ch 13) | "t"%char => Some (ch 9)
                         | "v"%char => Some (ch 11) | "\"%char => Some "\"%char
                         | _ => None
                         end in
              match esc with
              | Some e => option_map (String e) (expand f g0 g1 r')
              | None => if is_ascii_letter c then None
                        else option_map (fun t => String "\" (String c t)) (expand f g0 g1 r')
              end
        end
    | String c r => option_map (String c) (expand f g0 g1 r)
    end
  end.
Definition expand_repl (repl g0 g1 : string) : option string :=
  expand (S (String.length repl)) g0 g1 repl.

(** [re.sub(pattern, repl, data)] where the pattern is either [var_pattern]
    ([only = None], utils.py:134; group 1 is the name) or the per-variable
    pattern (braces around NAME with optional blanks; [only = Some NAME], utils.py:130; group 1
    includes the blanks).  [NAME] is made of [\w] characters, so the per-variable
    pattern matches exactly where [var_pattern] matches with that name. *)
Fixpoint sub_from (only : option string) (repl : string) (skip : nat) (s : string)
    : option string :=
  match s with
  | EmptyString => Some EmptyString
  | String c s' =>
      match skip with
      | S k => sub_from only repl k s'
      | O =>
          match match_var s with
          | Some (w1, name, w2, n) =>
              if match only with None => true | Some v => String.eqb v name end
              then
                let g1 := match only with None => name | Some _ => w1 +++ name +++ w2 end in
                match expand_repl repl (stake n s) g1 with
                | Some t => option_map (fun u => t +++ u) (sub_from only repl (n - 1) s')
                | None => None
                end
              else option_map (String c) (sub_from only repl O s')
          | None => option_map (String c) (sub_from only repl O s')
          end
      end
  end.
(** The replacement is parsed before the search, so a bad one is an error even
    without a match. *)
Definition re_sub (only : option string) (repl s : string) : option string :=
  match expand_repl repl EmptyString EmptyString with
  | None => None
  | Some _ => sub_from only repl O s
  end.

(** utils.py:122-136, the string case. *)
Definition eval_str (ctx : dict) (data : string) : res string :=
  let found := findall data in
  foldM (fun acc var =>
           match dget var ctx with
           | Some v =>
               match re_sub (if (1 <? length found)%nat then Some var else None)
                            (py_str v) acc with
               | Some r => Ok r
               | None => Err ERe
               end
           | None => Ok acc
           end) data found.

(** utils.py:105-137 *)
Fixpoint evaluate_vars (ctx : dict) (data : val) : res val :=
  match data with
  | VDict d =>
      do r <- (fix go (d : dict) : res dict :=
                 match d with
                 | [] => Ok []
                 | (k, v) :: t => do w <- evaluate_vars ctx v; do u <- go t; Ok ((k, w) :: u)
                 end) d;
      Ok (VDict r)
  | VList l =>
      do r <- (fix go (l : list val) : res (list val) :=
                 match l with
                 | [] => Ok []
                 | v :: t => do w <- evaluate_vars ctx v; do u <- go t; Ok (w :: u)
                 end) l;
      Ok (VList r)
  | VStr s => do r <- eval_str ctx s; Ok (VStr r)
  | _ => Ok data
  end.

(** backends/base/backend.py:93-101 [_evaluate_vars]. *)
Definition evaluate_config (ctx : dict) (config : dict) : res dict :=
  match ctx with
  | [] => Ok config
  | _ => do v <- evaluate_vars ctx (VDict config); as_dict v
  end.
