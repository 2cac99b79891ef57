(** * Files: model of the additional-files and archive handling of
    backends/base/backend.py, and of its format checkers. *)
From Verif Require Import PyBase.

(** backend.py:21, class of [_file_path_re] *)
Definition path_char (c : ascii) : bool :=
  is_alnum c || Ascii.eqb c "."%char || Ascii.eqb c "_"%char
  || Ascii.eqb c "/"%char || Ascii.eqb c "-"%char.

(** backend.py:204-219, the scanning loop of [_validate_file_path_chars]:
    [Some clean_path], or [None] where the code returns False inside the loop. *)
Fixpoint clean_path_from (skip : nat) (s : string) : option string :=
  match s with
  | EmptyString => Some EmptyString
  | String c s' =>
      match skip with
      | S k => clean_path_from k s'
      | O =>
          if startswith "{{" s then
            match find_sub "}}" (sdrop 2 s) with
            | None => None
            | Some n => option_map (String "x") (clean_path_from (n + 3) s')
            end
          else if Ascii.eqb c "{"%char || Ascii.eqb c "}"%char then None
          else option_map (String c) (clean_path_from O s')
      end
  end.
(** backend.py:196-220; [\A/?[A-Za-z0-9._/-]+\Z] matches exactly the non-empty
    strings over the class, because the class contains the slash. *)
Definition valid_path_chars (path : string) : bool :=
  match clean_path_from O path with
  | None => false
  | Some clean => negb (String.eqb clean EmptyString) && sforall path_char clean
  end.
(** backend.py:180-182 *)
Definition path_components (path : string) : list string :=
  if startswith "/" path then split_char "/" (sdrop 1 path) else split_char "/" path.
(** backend.py:184-186 *)
Definition valid_component (c : string) : bool :=
  negb (String.eqb c EmptyString) && negb (String.eqb c ".") && negb (String.eqb c "..").
Definition valid_file_path (path : string) : bool :=
  valid_path_chars path && forallb valid_component (path_components path).
(** backend.py:189-194 *)
Definition path_error (path : string) : exn :=
  EJsonSchema ("Invalid file path """ +++ path +++ """. Allowed characters are letters, numbers, "".""," ).
(** backend.py:176-194 [_validate_file_paths] *)
Fixpoint check_files (files : list val) : res unit :=
  match files with
  | [] => Ok tt
  | f :: t =>
      do d <- as_dict f;
      do pv <- dgetE "path" d;
      do path <- as_str pv;
      if valid_file_path path then check_files t else Err (path_error path)
  end.
(** [self.config.get("files", [])] *)
Definition get_files (config : dict) : res (list val) :=
  match dget "files" config with None => Ok [] | Some v => as_list v end.
Definition validate_file_paths (config : dict) : res unit :=
  do fs <- get_files config; check_files fs.

(** backend.py:18, 149-157 [_is_hostname].  [$] also matches before a trailing
    newline. *)
Definition host_char (c : ascii) : bool :=
  is_alnum c || Ascii.eqb c "."%char || Ascii.eqb c "-"%char.
Definition host_re (s : string) : bool :=
  match s with
  | EmptyString => false
  | String c r =>
      is_alnum c &&
      (let fix body (n : nat) (r : string) : bool :=
         (* [n] class characters consumed so far *)
         match r with
         | EmptyString => ((1 <=? n) && (n <=? 255))%nat
         | String d r' =>
             if host_char d then body (S n) r'
             else Ascii.eqb d NLc && String.eqb r' EmptyString
                  && ((1 <=? n) && (n <=? 255))%nat
         end in body O r)
  end.
Definition is_hostname (v : val) : bool :=
  match v with
  | VStr s => host_re s &&
      forallb (fun c => (String.length c <=? 63)%nat) (split_char "." s)
  | _ => true
  end.

(** backend.py:124-131 [_deduplicate_files]: OrderedDict keyed by path. *)
Fixpoint dedup_from (files : list val) (acc : list (string * val)) : res (list (string * val)) :=
  match files with
  | [] => Ok acc
  | f :: t =>
      do d <- as_dict f;
      do pv <- dgetE "path" d;
      do p <- as_str pv;
      dedup_from t (dset p f acc)
  end.
Definition deduplicate_files (config : dict) : res dict :=
  match dget "files" config with
  | None => Ok config
  | Some v =>
      do l <- as_list v;
      match l with
      | [] => Ok config
      | _ => do m <- dedup_from l []; Ok (dset "files" (VList (map snd m)) config)
      end
  end.

(** schema.py:15 *)
Definition DEFAULT_FILE_MODE : string := "0644".
(** schema.py:16 *)
Definition X509_FILE_MODE : string := "0600".

(** backend.py:30 *)
Definition FILE_SECTION_DELIMITER : string := "# ---------- files ---------- #".
(** backend.py:113-122, one file of [_render_files] *)
Definition render_file (d : dict) : res string :=
  do p <- dgetE "path" d;
  do c <- dgetE "contents" d;
  let mode := match dget "mode" d with Some m => m | None => VStr DEFAULT_FILE_MODE end in
  Ok ("# path: " +++ py_str p +++ NL +++ "# mode: " +++ py_str mode +++ NL +++ NL
      +++ py_str c +++ NL +++ NL).
(** backend.py:103-122 *)
Definition render_files (config : dict) : res string :=
  do files <- get_files config;
  let head := match files with
              | [] => EmptyString
              | _ => NL +++ FILE_SECTION_DELIMITER +++ NL +++ NL
              end in
  foldM (fun acc f => do d <- as_dict f; do s <- render_file d; Ok (acc +++ s)) head files.

(** [contents.encode("utf8")] for code points below 256 *)
Fixpoint utf8 (s : string) : string :=
  match s with
  | EmptyString => EmptyString
  | String c s' =>
      let n := N_of_ascii c in
      if (n <? 128)%N then String c (utf8 s')
      else String (ascii_of_N (192 + n / 64)%N)
                  (String (ascii_of_N (128 + n mod 64)%N) (utf8 s'))
  end.

(** A member of the generated archive.  The byte stream of tarfile and gzip is
    not modelled: an archive is the list of its members. *)
Record member := { m_name : string; m_mode : N; m_mtime : N; m_data : string }.
Definition archive := list member.

(** [int(mode, 8)].  Simplification: the prefix "0o", signs and underscores
    accepted by Python are not modelled (they are errors here). *)
Definition parse_mode (s : string) : option N := parse_octal (strip s) 0 false.

(** backend.py:337-355 [_add_file]: [info.size] is the number of characters, so
    tarfile copies that many bytes of the UTF-8 encoding. *)
Definition add_file (tar : archive) (name contents mode : string) : res archive :=
  match parse_mode mode with
  | None => Err EValue
  | Some m => Ok (tar ++ [{| m_name := name; m_mode := m; m_mtime := 0;
                             m_data := stake (String.length contents) (utf8 contents) |}])
  end.
(** backend.py:327-329 *)
Definition member_path (path : string) : string :=
  if startswith "/" path then sdrop 1 path else path.
(** backend.py:317-335 [_process_files] *)
Definition process_files (config : dict) (tar : archive) : res archive :=
  do files <- get_files config;
  foldM (fun tar f =>
           do d <- as_dict f;
           do pv <- dgetE "path" d;
           do path <- as_str pv;
           do cv <- dgetE "contents" d;
           do contents <- as_str cv;
           do mode <- as_str (match dget "mode" d with
                              | Some m => m | None => VStr DEFAULT_FILE_MODE end);
           add_file tar (member_path path) contents mode) tar files.
