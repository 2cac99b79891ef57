(** * SpecCli: how the command line program ends. *)
From Verif Require Import PyBase SpecFiles Merge Vars Files Backend Cli.

(** An argument of the method: a name and a value around the only equals sign. *)
Definition pair_of (a k v : string) : Prop :=
  a = k +++ "=" +++ v /\ contains "=" k = false /\ contains "=" v = false.
Definition arg_ok (a : string) : Prop := exists k v, pair_of a k v.
Inductive means : string -> val -> Prop :=
| mn_true s : s = "True" \/ s = "1" -> means s (VBool true)
| mn_false s : s = "False" \/ s = "0" -> means s (VBool false)
| mn_text s : ~ In s ["True"; "1"; "False"; "0"] -> means s (VStr s).
(** [kw] are the arguments: for every name, the last value given. *)
Definition arguments (args : list string) (kw : dict) : Prop :=
  forall k x, dget k kw = Some x <->
    exists a v, last_such (fun b => exists u, pair_of b k u) args a /\ pair_of a k v /\ means v x.

(** An input is JSON text or the name of a file. *)
Definition json_text (s : string) : Prop := exists r, strip s = "{" +++ r.
Inductive reads (w : world) (s : string) : string -> Prop :=
| rd_json : json_text s -> reads w s (strip s)
| rd_file t : ~ json_text s -> w_files w s = Some (FText t) -> reads w s t.
Inductive opens (w : world) (s : string) : native -> Prop :=
| op_json : json_text s -> opens w s (NText (strip s))
| op_file f : ~ json_text s -> w_files w s = Some f -> opens w s (NFile f).
Definition missing (w : world) (s : string) : Prop := ~ json_text s /\ w_files w s = None.
(** An option given with some text *)
Definition has (o : option string) (s : string) : Prop := o = Some s /\ s <> EmptyString.
Definition hasnt (o : option string) : Prop := o = None \/ o = Some EmptyString.

(** The main input of the command, read: how its object is made, given the
    templates. *)
Inductive source (w : world) (oid : oracle) (K : backend_class) (c : command) : (list string -> res api) -> Prop :=
| src_config s t : has (o_config c) s -> reads w s t -> source w oid K c (fun ts => new_object w oid K t ts)
| src_native s n : hasnt (o_config c) -> has (o_native c) s -> opens w s n ->
    source w oid K c (fun _ => do st <- k_native K n; Ok (k_object K st)).
(** The command line is in order: the object (or why it cannot be made) and the
    arguments of the method ([parse_args], see C48_arguments and C48_values). *)
Definition started (w : world) (oid : oracle) (K : backend_class) (c : command) (r : res api) (kw : dict) : Prop :=
  exists make ts, source w oid K c make /\ Forall2 (reads w) (o_templates c) ts /\
    parse_args (o_args c) [] = Some kw /\ r = make ts.

(** The exit statuses, with their causes. *)
Inductive exit_cause (w : world) (oid : oracle) (K : backend_class) (c : command) : nat -> Prop :=
| ex_no_input : hasnt (o_config c) -> hasnt (o_native c) -> exit_cause w oid K c 1
| ex_no_config s : has (o_config c) s -> missing w s -> exit_cause w oid K c 1
| ex_no_native s : hasnt (o_config c) -> has (o_native c) s -> missing w s -> exit_cause w oid K c 1
| ex_no_template make before ts t after : source w oid K c make ->
    o_templates c = (before ++ t :: after)%list -> Forall2 (reads w) before ts -> missing w t -> exit_cause w oid K c 1
| ex_bad_args make ts : source w oid K c make -> Forall2 (reads w) (o_templates c) ts ->
    ~ Forall arg_ok (o_args c) -> exit_cause w oid K c 3
| ex_bad_json kw : started w oid K c (Err EType) kw -> exit_cause w oid K c 2
| ex_invalid a kw msg : started w oid K c (Ok a) kw ->
    call w a (o_method c) kw = Err (EValidation msg) -> exit_cause w oid K c 4
| ex_type a kw : started w oid K c (Ok a) kw -> call w a (o_method c) kw = Err EType -> exit_cause w oid K c 5.

(** The configuration the object is made of: the main one, merged with the
    templates, with the variables of the environment. *)
Definition merged (w : world) (oid : oracle) (K : backend_class) (c : command) (cfg : dict) : Prop :=
  exists s t d ts m, has (o_config c) s /\ reads w s t /\ load (w_loads w) (VStr t) = Ok d /\
    Forall2 (reads w) (o_templates c) ts /\
    merge_templates (w_loads w) oid (k_ids K) d (VList (map VStr ts)) = Ok m /\
    evaluate_config (w_environ w) m = Ok cfg.
