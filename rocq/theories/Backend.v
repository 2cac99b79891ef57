(** * Backend: the backend object of backends/base/backend.py as a state machine.

    A backend class is described by the record [backend] (its validator, its
    converters, its renderers, its list identifiers, its way of splitting the
    rendered text into archive members).  An object is its [state]: the
    attributes [config] and [intermediate_data].  Every method takes the state
    and returns the state after the call together with its result or exception:
    exceptions do not roll the state back. *)
From Verif Require Import PyBase Merge Files.

(** A converter class (base/converter.py:6-25): the two [should_run_*] tests,
    the forward conversion, which reads [backend.config] and
    [backend.intermediate_data] and may change the former, and the backward one,
    which gets the copy of the intermediate data made by
    [__backup_intermediate_data] (backend.py:411-412), the current configuration
    and the current intermediate data, and may change the last two. *)
Record converter := {
  c_fwd_run : dict -> bool;
  c_fwd : dict -> dict -> dict * res dict;
  c_bwd_run : dict -> bool;
  c_bwd : dict -> dict -> dict -> (dict * dict) * res dict
}.

(** backend.py:24-31, the class attributes.  [be_validate] is [validate()];
    [be_render] is the concatenation of the renderers' output (backend.py:238-246),
    a function of the configuration and of the intermediate data;
    [be_contents] is [_generate_contents] after its call to [render]. *)
Record backend := {
  be_validate : dict -> res unit;
  be_convs : list converter;
  be_render : dict -> dict -> res string;
  be_contents : string -> res archive;
  be_ids : list string
}.

(** backend.py:47-48 *)
Record state := { st_config : dict; st_inter : option dict }.

(** backend.py:159-166 [validate], given the schema check as an oracle: a
    JsonSchemaError of the schema or of the path check becomes ValidationError,
    other exceptions of the path check propagate. *)
Definition wrap {A} (r : res A) : res A :=
  match r with Err (EJsonSchema m) => Err (EValidation m) | _ => r end.
Definition base_validate (schema_ok : dict -> res unit) (config : dict) : res unit :=
  wrap (do _ <- schema_ok config; validate_file_paths config).

Section Methods.
  Variable oid : oracle.
  Variable B : backend.

  (** backend.py:365-382, the loop of [to_intermediate] over the converters *)
  Fixpoint convert_fwd (cs : list converter) (s : state) (inter : dict) : state * res unit :=
    match cs with
    | [] => ({| st_config := st_config s; st_inter := Some inter |}, Ok tt)
    | c :: t =>
        if negb (c_fwd_run c (st_config s)) then convert_fwd t s inter
        else
          let (config', r) := c_fwd c (st_config s) inter in
          let s' := {| st_config := config'; st_inter := Some inter |} in
          match r with
          | Err e => (s', Err e)
          | Ok [] => convert_fwd t s' inter
          | Ok value =>
              match merge_config oid [".name"] inter value with
              | Err e => (s', Err e)
              | Ok inter' => convert_fwd t s' inter'
              end
          end
    end.
  (** backend.py:357-382 [to_intermediate] *)
  Definition to_intermediate (s : state) : state * res unit :=
    match be_validate B (st_config s) with
    | Err e => (s, Err e)
    | Ok _ => convert_fwd (be_convs B) s []
    end.

  (** backend.py:222-256 [render].  The renderers read [intermediate_data],
      which is set at this point; the [None] branch is unreachable. *)
  Definition render_text (files : bool) (s : state) : res string :=
    do text <- match st_inter s with
               | Some i => be_render B (st_config s) i
               | None => Err EAttr
               end;
    if files
    then do f <- render_files (st_config s);
         Ok (if String.eqb f EmptyString then text
             else text +++ replace (NL +++ NL +++ NL) (NL +++ NL) f)
    else Ok text.
  Definition render (files : bool) (s : state) : state * res string :=
    match be_validate B (st_config s) with
    | Err e => (s, Err e)
    | Ok _ =>
        let (s1, r) := match st_inter s with
                       | None => to_intermediate s
                       | Some _ => (s, Ok tt)
                       end in
        match r with
        | Err e => (s1, Err e)
        | Ok _ =>
            match deduplicate_files (st_config s1) with
            | Err e => (s1, Err e)
            | Ok config' =>
                let s2 := {| st_config := config'; st_inter := st_inter s1 |} in
                (s2, render_text files s2)
            end
        end
    end.

  (** backend.py:258-273 [json]: the document that is passed to json.dumps *)
  Definition json_doc (validate : bool) (s : state) : state * res dict :=
    (s, do _ <- (if validate then be_validate B (st_config s) else Ok tt);
        Ok (dset "type" (VStr "DeviceConfiguration") (st_config s))).

  (** backend.py:275-299 [generate]: the members of the archive *)
  Definition generate (s : state) : state * res archive :=
    let (s1, r) := render false s in
    (s1, do text <- r; do tar <- be_contents B text; process_files (st_config s1) tar).

  (** backend.py:398-409, the loop of [to_netjson]; [orig] is the backup. *)
  Fixpoint convert_bwd (cs : list converter) (orig : dict) (config inter : dict)
      : (dict * dict) * res unit :=
    match cs with
    | [] => ((config, inter), Ok tt)
    | c :: t =>
        if negb (c_bwd_run c inter) then convert_bwd t orig config inter
        else
          let '((config1, inter'), r) := c_bwd c orig config inter in
          match r with
          | Err e => ((config1, inter'), Err e)
          | Ok [] => convert_bwd t orig config1 inter'
          | Ok value =>
              match merge_config oid (be_ids B) config1 value with
              | Err e => ((config1, inter'), Err e)
              | Ok config' => convert_bwd t orig config' inter'
              end
          end
    end.
  (** backend.py:396-419 [to_netjson]: the intermediate data are restored only
      when no converter raised. *)
  Definition to_netjson (inter : dict) : state * res unit :=
    let '((config, inter'), r) := convert_bwd (be_convs B) inter [] inter in
    match r with
    | Err e => ({| st_config := config; st_inter := Some inter' |}, Err e)
    | Ok _ => let s := {| st_config := config; st_inter := Some inter |} in
              (s, be_validate B config)
    end.
  (** backend.py:384-394 [parse], given the outcome of the parser *)
  Definition parse (parsed : res dict) (s : state) : state * res unit :=
    match parsed with
    | Err e => (s, Err e)
    | Ok inter => to_netjson inter
    end.
End Methods.

(** ** Histories of calls *)

Inductive call := CRender (files : bool) | CJson (validate : bool) | CGenerate | CValidate.
Inductive answer := AText (r : res string) | ADoc (r : res dict) | ATar (r : res archive) | AUnit (r : res unit).
(** One public method call on an object *)
Definition step (oid : oracle) (B : backend) (c : call) (s : state) : state * answer :=
  match c with
  | CRender f => let (s', r) := render oid B f s in (s', AText r)
  | CJson v => let (s', r) := json_doc B v s in (s', ADoc r)
  | CGenerate => let (s', r) := generate oid B s in (s', ATar r)
  | CValidate => (s, AUnit (be_validate B (st_config s)))
  end.
Fixpoint run (oid : oracle) (B : backend) (h : list call) (s : state) : state * list answer :=
  match h with
  | [] => (s, [])
  | c :: t => let (s1, a) := step oid B c s in
              let (s2, l) := run oid B t s1 in (s2, a :: l)
  end.
(** The object after the constructor (backend.py:47-53) *)
Definition fresh (config : dict) : state := {| st_config := config; st_inter := None |}.
