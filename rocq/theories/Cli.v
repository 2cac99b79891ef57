(** * Cli: the command line program (bin/netjsonconfig) *)
From Verif Require Import PyBase Merge Vars Files Uci Backend OpenWrt OpenWisp VpnText.

(** A file: text, or a tar.gz archive. *)
Inductive content := FText (s : string) | FTar (a : archive).
(** What the program sees of its surroundings: the files, the environment
    (os.environ), whether a file can be written, and the functions json.loads and
    json.dumps of Python, the latter with keyword arguments. *)
Record world := {
  w_files : string -> option content;
  w_environ : dict;
  w_writable : string -> bool;
  w_loads : string -> option val;
  w_dumps : dict -> dict -> res string }.

(** The methods of a backend object that the program calls
    (base/backend.py:159-299), each on a new object. *)
Record api := {
  a_render : bool -> res string;
  a_generate : res archive;
  a_validate : res unit;
  a_json : bool -> res dict }.
(** A native configuration as passed to the constructor *)
Inductive native := NText (s : string) | NFile (f : content).
(** A backend class: its list identifiers, its objects, and the object obtained
    from a native configuration *)
Record backend_class := {
  k_ids : list string;
  k_object : state -> api;
  k_native : native -> res state }.

(** bin/netjsonconfig:32-92, the options after argparse.  Simplification: the
    options --verbose and --version are left out. *)
Inductive method := MRender | MGenerate | MWrite | MValidate | MJson.
Record command := {
  o_config : option string;
  o_native : option string;
  o_templates : list string;
  o_method : method;
  o_args : list string }.

(** How the program ends: text or an archive on standard output, nothing, an
    archive written to a file, an exit status (after a message), or an exception
    that is not caught. *)
Inductive outcome :=
| Printed (s : string) | Bytes (a : archive) | Silent | Wrote (path : string) (a : archive)
| Exit (code : nat) | Raised (e : exn).

(** bin/netjsonconfig:95-110 [_load] of text: exit status 1 when there is no such
    file.  Simplification: an archive is never valid text. *)
Definition cli_load (w : world) (arg : string) : string + outcome :=
  if startswith "{" (strip arg) then inl (strip arg)
  else match w_files w arg with
       | Some (FText s) => inl s
       | Some (FTar _) => inr (Raised EValue)
       | None => inr (Exit 1)
       end.
(** the same without reading the file *)
Definition cli_open (w : world) (arg : string) : native + outcome :=
  if startswith "{" (strip arg) then inl (NText (strip arg))
  else match w_files w arg with
       | Some f => inl (NFile f)
       | None => inr (Exit 1)
       end.
Fixpoint cli_load_all (w : world) (args : list string) : list string + outcome :=
  match args with
  | [] => inl []
  | a :: t => match cli_load w a with
              | inr o => inr o
              | inl s => match cli_load_all w t with inr o => inr o | inl l => inl (s :: l) end
              end
  end.
(** bin/netjsonconfig:131-139 [recognize_method_argument] *)
Definition recognize (s : string) : val :=
  if String.eqb s "True" || String.eqb s "1" then VBool true
  else if String.eqb s "False" || String.eqb s "0" then VBool false
  else VStr s.
(** bin/netjsonconfig:113-128 [parse_method_arguments]; [None] is exit status 3 *)
Fixpoint parse_args (args : list string) (kwargs : dict) : option dict :=
  match args with
  | [] => Some kwargs
  | a :: t =>
      if negb (count_char "=" a =? 1)%nat then None
      else match split_char "=" a with
           | [key; v] => parse_args t (dset key (recognize v) kwargs)
           | _ => None
           end
  end.
(** base/backend.py:33-60 on the arguments of the program *)
Definition new_object (w : world) (oid : oracle) (K : backend_class) (config : string) (templates : list string) : res api :=
  do d <- load (w_loads w) (VStr config);
  do m <- merge_templates (w_loads w) oid (k_ids K) d (VList (map VStr templates));
  do c <- evaluate_config (w_environ w) m;
  Ok (k_object K (fresh c)).
(** Keyword arguments given to a Python function: TypeError unless they are
    among its parameters. *)
Definition only (names : list string) (kwargs : dict) : res unit :=
  if forallb (fun k => existsb (String.eqb k) names) (dkeys kwargs) then Ok tt else Err EType.
(** base/backend.py:222-313, the call of the method (bin/netjsonconfig:177-180).
    A file that cannot be opened for writing is represented by EValue. *)
Definition call (w : world) (a : api) (m : method) (kwargs : dict) : res outcome :=
  match m with
  | MRender =>
      do _ <- only ["files"] kwargs;
      do text <- a_render a (match dget "files" kwargs with Some v => truthy v | None => true end);
      Ok (if String.eqb text EmptyString then Silent else Printed text)
  | MGenerate => do _ <- only [] kwargs; do tar <- a_generate a; Ok (Bytes tar)
  | MValidate => do _ <- only [] kwargs; do _ <- a_validate a; Ok Silent
  | MJson =>
      if dmem "self" kwargs then Err EType
      else
        do doc <- a_json a (match dget "validate" kwargs with Some v => truthy v | None => true end);
        do text <- w_dumps w doc (filter (fun kv => negb (String.eqb (fst kv) "validate")) kwargs);
        Ok (if String.eqb text EmptyString then Silent else Printed text)
  | MWrite =>
      do _ <- only ["name"; "path"] kwargs;
      match dget "name" kwargs with
      | None => Err EType
      | Some name =>
          do tar <- a_generate a;
          do path <- as_str (match dget "path" kwargs with Some p => p | None => VStr "./" end);
          let path := if endswith "/" path then path else path +++ "/" in
          let file := path +++ py_str name +++ ".tar.gz" in
          if w_writable w file then Ok (Wrote file tar) else Err EValue
      end
  end.
(** bin/netjsonconfig:177-195 *)
Definition finish (r : res outcome) : outcome :=
  match r with
  | Ok o => o
  | Err (EValidation _) => Exit 4
  | Err EType => Exit 5
  | Err e => Raised e
  end.
(** bin/netjsonconfig:162-176 *)
Definition built (r : res api) (k : api -> outcome) : outcome :=
  match r with Ok a => k a | Err EType => Exit 2 | Err e => Raised e end.
(** bin/netjsonconfig:155-195, the program *)
Definition given (o : option string) : option string :=
  match o with Some EmptyString => None | _ => o end.
Definition cli (w : world) (oid : oracle) (K : backend_class) (c : command) : outcome :=
  let go (make : list string -> res api) :=
    match cli_load_all w (o_templates c) with
    | inr o => o
    | inl templates =>
        match parse_args (o_args c) [] with
        | None => Exit 3
        | Some kwargs => built (make templates) (fun a => finish (call w a (o_method c) kwargs))
        end
    end in
  match given (o_config c) with
  | Some config =>
      match cli_load w config with
      | inr o => o
      | inl s => go (fun templates => new_object w oid K s templates)
      end
  | None =>
      match given (o_native c) with
      | Some n =>
          match cli_open w n with
          | inr o => o
          | inl x => go (fun _ => do s <- k_native K x; Ok (k_object K s))
          end
      | None => Exit 1
      end
  end.

(** ** The classes of netjsonconfig/__init__.py:10-19 *)

(** The methods of base/backend.py *)
Definition base_api (oid : oracle) (B : backend) (s : state) : api :=
  {| a_render := fun f => snd (render oid B f s);
     a_generate := snd (generate oid B s);
     a_validate := be_validate B (st_config s);
     a_json := fun v => snd (json_doc B v s) |}.
(** openwisp.py:24-26, 157-187 *)
Definition openwisp_api (oid : oracle) (B : backend) (T : ow_texts) (s : state) : api :=
  {| a_render := fun f => snd (ow_render oid B f s);
     a_generate := snd (ow_generate oid B T s);
     a_validate := snd (ow_validate B s);
     a_json := fun v => if v then match ow_validate B s with
                                  | (s', Ok _) => snd (json_doc B false s')
                                  | (_, Err e) => Err e
                                  end
                        else snd (json_doc B false s) |}.
(** base/parser.py:11-22 and base/backend.py:383-393.  tarfile.ReadError, for a
    file that is not an archive, is represented by EValue: neither is caught.
    [parse_native] is [parse] of the class, on data or an exception. *)
Definition parse_native (oid : oracle) (B : backend) (text : string -> res dict) (tar : archive -> res dict) (n : native) : res state :=
  let data := match n with NText s => text s | NFile (FTar a) => tar a | NFile (FText _) => Err EValue end in
  match parse oid B data (fresh []) with (s, Ok _) => Ok s | (_, Err e) => Err e end.
(** openwrt.py:14-38 *)
Definition openwrt_class (oid : oracle) (schema_ok : dict -> res unit) (dsa f1 f2 : bool) : backend_class :=
  let B := openwrt oid schema_ok dsa f1 f2 in
  {| k_ids := be_ids B; k_object := base_api oid B; k_native := parse_native oid B parse_text parse_tar |}.
(** openwisp.py:10-26: [to_netjson] calls [validate] of OpenWisp *)
Definition openwisp_native (oid : oracle) (B : backend) (n : native) : res state :=
  let B0 := {| be_validate := fun _ => Ok tt; be_convs := be_convs B; be_render := be_render B;
               be_contents := be_contents B; be_ids := be_ids B |} in
  do s <- parse_native oid B0 parse_text parse_tar n;
  match ow_validate B s with (s', Ok _) => Ok s' | (_, Err e) => Err e end.
Definition openwisp_class (oid : oracle) (schema_ok : dict -> res unit) (T : ow_texts) (dsa f1 f2 : bool) : backend_class :=
  let B := openwisp oid schema_ok dsa f1 f2 in
  {| k_ids := be_ids B; k_object := openwisp_api oid B T; k_native := openwisp_native oid B |}.
(** openvpn.py:9-21 *)
Definition openvpn_class (oid : oracle) (schema_ok : dict -> res unit) : backend_class :=
  let B := openvpn_backend schema_ok in
  {| k_ids := be_ids B; k_object := base_api oid B;
     k_native := parse_native oid B (fun s => Ok (parse_openvpn s)) parse_openvpn_tar |}.
(** wireguard.py:8-15: there is no parser *)
Definition wireguard_class (oid : oracle) (schema_ok : dict -> res unit) : backend_class :=
  let B := wireguard_backend schema_ok in
  {| k_ids := be_ids B; k_object := base_api oid B; k_native := fun _ => Err ENotImpl |}.
