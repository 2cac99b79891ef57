(** * Json: the functions of Python and jinja2 that the ZeroTier backend uses to
    write and read JSON.  Nothing in this file models code in /repo: it models
    json.dumps, json.loads and the filter tojson, and belongs to the trusted
    reading. *)
From Verif Require Import PyBase Uci.

(** ** Writing: json.dumps(v, indent=4, sort_keys=True) *)

(** Hexadecimal digits, as written by format(n, "04x") *)
Definition hex_digit (n : nat) : ascii := if (n <? 10)%nat then ch (48 + n) else ch (87 + n).
Definition u_escape (c : ascii) : string :=
  let n := nat_of_ascii c in "\u00" +++ String (hex_digit (n / 16)) (String (hex_digit (n mod 16)) EmptyString).
(** json.encoder.py_encode_basestring_ascii: quotes, backslashes and everything
    outside the range from space to tilde are escaped. *)
Definition short_escape (c : ascii) : option string :=
  let n := nat_of_ascii c in
  if (n =? 34)%nat then Some (String "\"%char DQ)
  else if (n =? 92)%nat then Some "\\"
  else if (n =? 10)%nat then Some "\n"
  else if (n =? 13)%nat then Some "\r"
  else if (n =? 9)%nat then Some "\t"
  else if (n =? 12)%nat then Some "\f"
  else if (n =? 8)%nat then Some "\b"
  else None.
Definition json_char (c : ascii) : string :=
  let n := nat_of_ascii c in
  match short_escape c with
  | Some e => e
  | None => if ((32 <=? n) && (n <=? 126))%nat then String c EmptyString else u_escape c
  end.
Fixpoint json_chars (s : string) : string :=
  match s with EmptyString => EmptyString | String c t => json_char c +++ json_chars t end.
Definition json_text (s : string) : string := DQ +++ json_chars s +++ DQ.
(** A container: its items one to a line, indented by four more spaces *)
Definition json_items (opening closing : string) (level : nat) (items : list string) : string :=
  match items with
  | [] => opening +++ closing
  | _ => opening +++ NL +++ spaces (4 * S level) +++ join ("," +++ NL +++ spaces (4 * S level)) items
         +++ NL +++ spaces (4 * level) +++ closing
  end.
Fixpoint dumps (level : nat) (v : val) : string :=
  match v with
  | VNull => "null"
  | VBool true => "true"
  | VBool false => "false"
  | VInt z => string_of_Z z
  | VFloat r => r
  | VStr s => json_text s
  | VList l => json_items "[" "]" level (map (dumps (S level)) l)
  | VDict d => json_items "{" "}" level
      (map (fun kt => json_text (fst kt) +++ ": " +++ snd kt)
         (ssort (map (fun kv => (fst kv, dumps (S level) (snd kv))) d)))
  end.
(** jinja2.utils.htmlsafe_json_dumps *)
Definition html_safe (s : string) : string :=
  replace "'" "\u0027" (replace "&" "\u0026" (replace ">" "\u003e" (replace "<" "\u003c" s))).
(** The filter tojson(indent=4); sort_keys is in the default policies of jinja2. *)
Definition tojson (v : val) : string := html_safe (dumps 0 v).

(** ** Reading: json.loads *)

(** White space of JSON *)
Definition json_space (c : ascii) : bool :=
  let n := nat_of_ascii c in ((n =? 32) || (n =? 9) || (n =? 10) || (n =? 13))%nat.
Definition skip_json_space : string -> string := lstrip_p json_space.
Definition hex_value (c : ascii) : option nat :=
  let n := nat_of_ascii c in
  if is_digit c then Some (n - 48)%nat
  else if ((97 <=? n) && (n <=? 102))%nat then Some (n - 87)%nat
  else if ((65 <=? n) && (n <=? 70))%nat then Some (n - 55)%nat
  else None.
(** The code point after a backslash and the letter u.  Simplification: code
    points above 255, surrogates included, are errors. *)
Definition code_point (a b c d : ascii) : option ascii :=
  match hex_value a, hex_value b, hex_value c, hex_value d with
  | Some O, Some O, Some x, Some y => Some (ch (16 * x + y))
  | _, _, _, _ => None
  end.
Definition unescape (c : ascii) : option ascii :=
  let n := nat_of_ascii c in
  if ((n =? 34) || (n =? 92) || (n =? 47))%nat then Some c
  else if (n =? 98)%nat then Some (ch 8)
  else if (n =? 102)%nat then Some (ch 12)
  else if (n =? 110)%nat then Some (ch 10)
  else if (n =? 114)%nat then Some (ch 13)
  else if (n =? 116)%nat then Some (ch 9)
  else None.
(** json.decoder.py_scanstring after the opening quote, strict: the text and
    what follows the closing quote *)
Fixpoint scan_text (s : string) : option (string * string) :=
  match s with
  | EmptyString => None
  | String c t =>
      if Ascii.eqb c DQc then Some (EmptyString, t)
      else if Ascii.eqb c "\"%char then
        match t with
        | String "u"%char (String w (String x (String y (String z t')))) =>
            match code_point w x y z, scan_text t' with
            | Some e, Some (r, u) => Some (String e r, u)
            | _, _ => None
            end
        | String e t' =>
            match unescape e, scan_text t' with
            | Some e', Some (r, u) => Some (String e' r, u)
            | _, _ => None
            end
        | EmptyString => None
        end
      else if (nat_of_ascii c <? 32)%nat then None
      else match scan_text t with Some (r, u) => Some (String c r, u) | None => None end
  end.
(** The first character *)
Definition head_is (c : ascii) (s : string) : bool :=
  match s with String d _ => Ascii.eqb d c | EmptyString => false end.
(** json.scanner.NUMBER_RE: an integer part, an optional fraction, an optional
    exponent; a fraction or exponent that is not complete is not part of the
    number. *)
Definition int_part (s : string) : option (string * string) :=
  if head_is "0" s then Some ("0", sdrop 1 s)
  else match span is_digit s with
       | (EmptyString, _) => None
       | (d, r) => Some (d, r)
       end.
(** The mark and the digits that follow, or nothing *)
Definition marked_digits (mark s t : string) : string * string :=
  match span is_digit t with
  | (EmptyString, _) => (EmptyString, s)
  | (d, r) => (mark +++ d, r)
  end.
Definition frac_part (s : string) : string * string :=
  if head_is "." s then marked_digits "." s (sdrop 1 s) else (EmptyString, s).
Definition exp_part (s : string) : string * string :=
  if head_is "e" s || head_is "E" s then
    let mark := stake 1 s in
    let t := sdrop 1 s in
    if head_is "+" t || head_is "-" t then marked_digits (mark +++ stake 1 t) s (sdrop 1 t)
    else marked_digits mark s t
  else (EmptyString, s).
(** Simplification: a float is its text, which is right for the texts that
    repr() writes; NaN and the infinities are errors. *)
Definition scan_number (s : string) : option (val * string) :=
  let sign := if head_is "-" s then "-" else EmptyString in
  match int_part (if head_is "-" s then sdrop 1 s else s) with
  | None => None
  | Some (i, u) =>
      let (f, u') := frac_part u in
      let (e, r) := exp_part u' in
      if String.eqb (f +++ e) EmptyString
      then match int_of_string (sign +++ i) with Some z => Some (VInt z, r) | None => None end
      else Some (VFloat (sign +++ i +++ f +++ e), r)
  end.
(** json.scanner.py_make_scanner and json.decoder.JSONObject, JSONArray; the
    first argument is fuel, a bound on the number of values.  A key that is
    repeated keeps its place and its last value. *)
Fixpoint scan_value (fuel : nat) (s : string) : option (val * string) :=
  match fuel with
  | O => None
  | S f =>
      if head_is DQc s then match scan_text (sdrop 1 s) with Some (x, r) => Some (VStr x, r) | None => None end
      else if head_is "{" s then
        let t := skip_json_space (sdrop 1 s) in
        if head_is "}" t then Some (VDict [], sdrop 1 t) else scan_members f [] t
      else if head_is "[" s then
        let t := skip_json_space (sdrop 1 s) in
        if head_is "]" t then Some (VList [], sdrop 1 t) else scan_elements f [] t
      else if startswith "null" s then Some (VNull, sdrop 4 s)
      else if startswith "true" s then Some (VBool true, sdrop 4 s)
      else if startswith "false" s then Some (VBool false, sdrop 5 s)
      else scan_number s
  end
with scan_members (fuel : nat) (acc : dict) (s : string) : option (val * string) :=
  match fuel with
  | O => None
  | S f =>
      if negb (head_is DQc s) then None
      else
        match scan_text (sdrop 1 s) with
        | None => None
        | Some (k, r) =>
            let r := skip_json_space r in
            if negb (head_is ":" r) then None
            else
              match scan_value f (skip_json_space (sdrop 1 r)) with
              | None => None
              | Some (v, r) =>
                  let r := skip_json_space r in
                  if head_is "," r then scan_members f (dset k v acc) (skip_json_space (sdrop 1 r))
                  else if head_is "}" r then Some (VDict (dset k v acc), sdrop 1 r)
                  else None
              end
        end
  end
with scan_elements (fuel : nat) (acc : list val) (s : string) : option (val * string) :=
  match fuel with
  | O => None
  | S f =>
      match scan_value f s with
      | None => None
      | Some (v, r) =>
          let r := skip_json_space r in
          if head_is "," r then scan_elements f (acc ++ [v])%list (skip_json_space (sdrop 1 r))
          else if head_is "]" r then Some (VList (acc ++ [v])%list, sdrop 1 r)
          else None
      end
  end.
(** json.loads(s): [EValue] is JSONDecodeError, a ValueError. *)
Definition loads (s : string) : res val :=
  match scan_value (S (String.length s)) (skip_json_space s) with
  | Some (v, r) => if String.eqb (skip_json_space r) EmptyString then Ok v else Err EValue
  | None => Err EValue
  end.
