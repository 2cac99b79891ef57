(** * Uci: model of the UCI renderer and parser of the OpenWrt backend
    (backends/openwrt/renderer.py, templates/openwrt.jinja2, parser.py) and of
    OpenWrt._generate_contents. *)
From Verif Require Import PyBase Files.

(** ** Rendering *)

(** templates/openwrt.jinja2 is transcribed segment by segment.  The
    environment has trim_blocks (base/renderer.py:20-23): the newline after a
    block tag is dropped, the spaces before it are kept. *)
Fixpoint spaces (n : nat) : string :=
  match n with O => EmptyString | S n' => String " "%char (spaces n') end.

(** openwrt.jinja2:9-11: one list line *)
Definition tpl_list_line (key : string) (v : string) : string :=
  spaces 24 +++ "list " +++ key +++ " '" +++ v +++ "'" +++ NL +++ spaces 20.
(** openwrt.jinja2:8-16: the branch on the kind of value.  A dict is iterated
    by key, like any Python iterable. *)
Definition tpl_value (key : string) (value : val) : string :=
  match value with
  | VList l => spaces 20 +++ fold_right (fun x acc => tpl_list_line key (py_str x) +++ acc) EmptyString l
               +++ spaces 16
  | VDict d => spaces 20 +++ fold_right (fun kv acc => tpl_list_line key (fst kv) +++ acc) EmptyString d
               +++ spaces 16
  | VBool b => spaces 20 +++ "option " +++ key +++ " '" +++ (if b then "1" else "0") +++ "'" +++ NL +++ spaces 16
  | _ => spaces 20 +++ "option " +++ key +++ " '" +++ py_str value +++ "'" +++ NL +++ spaces 16
  end.
(** [value not in ['', None]], openwrt.jinja2:7 *)
Definition not_blank (v : val) : bool :=
  match v with VNull => false | VStr EmptyString => false | _ => true end.
(** openwrt.jinja2:6-18, one iteration *)
Definition tpl_item (kv : string * val) : string :=
  spaces 12 +++
  (if not_blank (snd kv) && negb (startswith "." (fst kv))
   then spaces 16 +++ tpl_value (fst kv) (snd kv) +++ spaces 12 else EmptyString)
  +++ spaces 8.
(** A subscript that may be missing renders as the empty string (jinja2's
    default Undefined). *)
Definition tpl_get (k : string) (d : dict) : string :=
  match dget k d with Some v => py_str v | None => EmptyString end.
(** openwrt.jinja2:4-20, one block *)
Definition tpl_block (config : dict) : string :=
  spaces 8 +++ "config " +++ tpl_get ".type" config +++ " '" +++ tpl_get ".name" config +++ "'" +++ NL
  +++ spaces 8 +++ fold_right (fun kv acc => tpl_item kv +++ acc) EmptyString config
  +++ NL +++ spaces 4.
(** openwrt.jinja2:1-22, one package.  Simplification: a package whose blocks
    are not a list of dicts is an error (jinja2 would iterate over a str or a
    dict). *)
Definition tpl_package (pkg : string) (blocks : list dict) : string :=
  spaces 4 +++ "package " +++ pkg +++ NL +++ NL +++ spaces 4
  +++ fold_right (fun b acc => tpl_block b +++ acc) EmptyString blocks +++ NL.
Definition blocks_of (v : val) : res (list dict) := do l <- as_list v; mapM as_dict l.
Definition tpl_uci (data : dict) : res string :=
  foldM (fun acc kv => do bs <- blocks_of (snd kv); Ok (acc +++ tpl_package (fst kv) bs))
        EmptyString data.

(** openwrt/renderer.py:9-26 *)
Definition cleanup (output : string) : string :=
  let o := replace "    " EmptyString output in
  let o := replace (NL +++ "option") (NL +++ TAB +++ "option") o in
  let o := replace (NL +++ "list") (NL +++ TAB +++ "list") o in
  let o := replace (NL +++ NL +++ NL) (NL +++ NL) o in
  if endswith (NL +++ NL) o then sinit o else o.
(** base/renderer.py:40-50 *)
Definition render_uci (data : dict) : res string := do s <- tpl_uci data; Ok (cleanup s).

(** ** Parsing *)

(** [re.split(r"^kw\s", s, MULTILINE)] (parser.py:8-9, 37, 52): [bol] tells
    whether the current position is at the beginning of a line; a match
    consumes the keyword and one white space character.  [cur] is the current
    piece, reversed. *)
Definition kw_match (kw s : string) : bool :=
  startswith kw s &&
  match sdrop (String.length kw) s with String c _ => is_space c | EmptyString => false end.
Fixpoint split_bol (kw : string) (bol : bool) (skip : nat) (cur : string) (s : string) : list string :=
  match s with
  | EmptyString => [srev cur]
  | String c s' =>
      match skip with
      | S k => split_bol kw (Ascii.eqb c NLc) k cur s'
      | O => if bol && kw_match kw s
             then srev cur :: split_bol kw (Ascii.eqb c NLc) (String.length kw) EmptyString s'
             else split_bol kw (Ascii.eqb c NLc) O (String c cur) s'
      end
  end.
Definition re_split (kw s : string) : list string := split_bol kw true O EmptyString s.

(** parser.py:33-34 *)
Definition strip_quotes (s : string) : string := replace DQ EmptyString (replace SQ EmptyString s).

(** parser.py:10, [config_pattern] on a stripped line without newline: the word
    "option" or "list", optional white space, the key up to the next white
    space, optional white space, the rest.  The result is the kind ([true] for
    option), the key and the rest. *)
Fixpoint span (p : ascii -> bool) (s : string) : string * string :=
  match s with
  | EmptyString => (EmptyString, EmptyString)
  | String c s' => if p c then let (a, b) := span p s' in (String c a, b) else (EmptyString, s)
  end.
Definition line_match (line : string) : option (bool * string * string) :=
  let tail r := let (key, r') := span (fun c => negb (is_space c)) (lstrip_p is_space r) in
                (key, lstrip_p is_space r') in
  if startswith "option" line
  then let (k, v) := tail (sdrop 6 line) in Some (true, k, v)
  else if startswith "list" line
  then let (k, v) := tail (sdrop 4 line) in Some (false, k, v)
  else None.

(** parser.py:71-83, one line: [block.get(key, []) + [value]] raises TypeError
    when the existing value is not a list. *)
Definition parse_line (block : dict) (line : string) : res dict :=
  match line_match (strip line) with
  | None => Ok block
  | Some (is_option, key, value) =>
      let key := strip_quotes key in
      let value := strip_quotes value in
      if is_option : bool then Ok (dset key (VStr value) block)
      else match dget key block with
           | None => Ok (dset key (VList [VStr value]) block)
           | Some (VList l) => Ok (dset key (VList (l ++ [VStr value])) block)
           | Some _ => Err EType
           end
  end.
(** parser.py:88-103 [_set_uci_block_type] *)
Definition set_block_type (block : dict) : dict :=
  match dgetN ".type" block with
  | VStr t =>
      if String.eqb t "device" || String.eqb t "bridge-vlan" then
        let ty := dgetN "type" block in
        let block :=
          if match ty with VStr s => String.eqb s "bridge" || String.eqb s "8021q" || String.eqb s "8021ad"
                         | _ => false end || String.eqb t "bridge-vlan"
          then dset "bridge_21" (VBool true) block else block in
        let block :=
          if String.eqb t "bridge-vlan" then dset "type" (VStr "bridge-vlan") block
          else if negb (truthy ty) then dset "type" (VStr "device") block else block in
        dset ".type" (VStr "interface") block
      else block
  | _ => block
  end.
(** parser.py:55-85, one block: [result] is stripped and not empty, so that
    its first line has a first word. *)
Definition parse_block (counter : nat) (result : string) : res dict :=
  match split_char NLc result with
  | [] => Err EIndex
  | first :: lines =>
      match split_ws first with
      | [] => Err EIndex
      | t :: rest =>
          let config_type := strip_quotes t in
          let config_name := match rest with
                             | n :: _ => strip_quotes n
                             | [] => config_type +++ "_" +++ string_of_nat counter
                             end in
          do block <- foldM parse_line [(".type", VStr config_type); (".name", VStr config_name)] lines;
          Ok (ssort (set_block_type block))
      end
  end.
Fixpoint parse_blocks_from (counter : nat) (pieces : list string) : res (list val) :=
  match pieces with
  | [] => Ok []
  | p :: t =>
      let r := strip p in
      if String.eqb r EmptyString then parse_blocks_from counter t
      else do b <- parse_block (S counter) r;
           do bs <- parse_blocks_from (S counter) t;
           Ok (VDict b :: bs)
  end.
(** parser.py:51-86 *)
Definition parse_blocks (text : string) : res (list val) := parse_blocks_from O (re_split "config" text).
(** parser.py:36-49 *)
Definition parse_package (acc : dict) (piece : string) : res dict :=
  let r := strip piece in
  if String.eqb r EmptyString then Ok acc
  else match split_char NLc r with
       | [] => Err EIndex
       | name :: _ => do bs <- parse_blocks (sdrop (String.length name) r);
                      Ok (dset name (VList bs) acc)
       end.
Definition parse_text (text : string) : res dict := foldM parse_package [] (re_split "package" text).

(** ** Archive *)

(** [l.remove("")] when present *)
Fixpoint remove_first_empty (l : list string) : list string :=
  match l with
  | [] => []
  | x :: t => if String.eqb x EmptyString then t else x :: remove_first_empty t
  end.
Definition config_path : string := "etc/config/".
(** openwrt.py:79-100 [_generate_contents], given the rendered text *)
Definition generate_packages (uci : string) (tar : archive) : res archive :=
  foldM (fun tar package =>
           let lines := split_char NLc package in
           let name := match lines with n :: _ => n | [] => EmptyString end in
           add_file tar (config_path +++ name) (join NL (skipn 2 lines)) DEFAULT_FILE_MODE)
        tar (remove_first_empty (re_split "package" uci)).

(** [bytes.decode()] for the UTF-8 sequences that encode code points below 256;
    [None] stands for UnicodeDecodeError.  Simplification: sequences encoding
    code points of 256 and above are errors too (they do not occur in archives
    written by the model). *)
Fixpoint utf8_decode (s : string) : option string :=
  match s with
  | EmptyString => Some EmptyString
  | String c s' =>
      let n := N_of_ascii c in
      if (n <? 128)%N then option_map (String c) (utf8_decode s')
      else if ((n =? 194) || (n =? 195))%N then
        match s' with
        | String d s'' =>
            let m := N_of_ascii d in
            if ((128 <=? m) && (m <? 192))%N
            then option_map (String (ascii_of_N ((n - 192) * 64 + (m - 128)))) (utf8_decode s'')
            else None
        | EmptyString => None
        end
      else None
  end.
(** parser.py:18-31 [parse_tar], on the archive's members *)
Definition tar_text (tar : archive) : res string :=
  foldM (fun text m =>
           if startswith config_path (m_name m)
           then match utf8_decode (m_data m) with
                | Some c => Ok (text +++ "package " +++ replace config_path EmptyString (m_name m)
                                +++ NL +++ NL +++ c)
                | None => Err EValue
                end
           else Ok text) EmptyString tar.
Definition parse_tar (tar : archive) : res dict := do t <- tar_text tar; parse_text t.
