(** * ZtBackend: the ZeroTier backend (backends/zerotier): converter, template,
    parser and archive. *)
From Verif Require Import PyBase Merge Files Uci Backend Conv OpenVpnConv VpnText Json.

(** zerotier/schema.py:16-309: the integer and boolean properties of a network *)
Definition zt_server_props : list (string * jtype) :=
  [("revision", JInt); ("enableBroadcast", JBool); ("mtu", JInt); ("multicastLimit", JInt); ("private", JBool);
   ("remoteTraceLevel", JInt)].
(** zerotier/converters.py:20-28 *)
Definition zt_base_bwd_block (b result : dict) (i : nat) : res dict :=
  do v <- type_cast zt_server_props b; Ok (add_blocks "zerotier" [v] result).
(** zerotier/converters.py:5-8; [should_skip_block] only skips empty blocks
    (base/converter.py:134-135) *)
Definition zerotier_base : converter :=
  simple_converter "zerotier" "zerotier"
    (fwd_list "zerotier" zt_base_fwd_block)
    (bwd_list "zerotier" [] (fun l => l) zt_base_bwd_block []).

(** zerotier.jinja2:1-6, one network *)
Definition zt_suffix : string := ".json".
Definition tpl_zt (vpn : dict) : string :=
  "// zerotier controller config: " +++ tpl_get "nwid" vpn +++ zt_suffix +++ NL +++ NL
  +++ tojson (VDict vpn) +++ NL +++ NL.
(** zerotier/renderer.py:9-13 *)
Definition zt_cleanup (output : string) : string :=
  if endswith (NL +++ NL) output then sinit output else output.
Definition render_zerotier (data : dict) : res string :=
  do vpns <- vpns_of "zerotier" data;
  Ok (zt_cleanup (fold_right (fun v acc => tpl_zt v +++ acc) EmptyString vpns)).

(** zerotier/parser.py:33: the comments are removed: from a slash and a star to
    the first star and slash after them, or from two slashes to the end of the
    line. *)
Fixpoint line_length (s : string) : nat :=
  match s with
  | EmptyString => 0
  | String c t => if Ascii.eqb c NLc then 0 else S (line_length t)
  end.
Fixpoint uncomment (skip : nat) (s : string) : string :=
  match s with
  | EmptyString => EmptyString
  | String c t =>
      match skip with
      | S k => uncomment k t
      | O =>
          let copy := String c (uncomment 0 t) in
          if startswith "/*" s
          then match find_sub "*/" (sdrop 2 s) with
               | Some n => uncomment (n + 3) t
               | None => copy
               end
          else if startswith "//" s then uncomment (line_length s - 1) t
          else copy
      end
  end.
(** zerotier/parser.py:38, re.split at runs of two newlines or more *)
Fixpoint split_runs (skipping : bool) (cur s : string) : list string :=
  match s with
  | EmptyString => [srev cur]
  | String c t =>
      if skipping && Ascii.eqb c NLc then split_runs true cur t
      else if Ascii.eqb c NLc && startswith NL t then srev cur :: split_runs true EmptyString t
      else split_runs false (String c cur) t
  end.
(** zerotier/parser.py:31-45 [_get_vpn_config] and 13-14 [parse_text].
    Simplification: a network that is not an object is an error of the converter
    even when it is empty (it is skipped by the code). *)
Definition parse_zerotier (text : string) : res dict :=
  let pieces := split_runs false EmptyString (strip (uncomment 0 text)) in
  do vs <- mapM loads (filter (fun p => negb (String.eqb (strip p) EmptyString)) pieces);
  Ok [("zerotier", VList vs)].
(** zerotier/parser.py:16-29 [parse_tar], on the members of the archive *)
Definition zerotier_tar_text (tar : archive) : res string :=
  foldM (fun text m =>
           if endswith zt_suffix (m_name m)
           then match utf8_decode (m_data m) with
                | Some c => Ok (text +++ "// zerotier controller config: " +++ m_name m +++ NL +++ NL +++ c +++ NL)
                | None => Err EValue
                end
           else Ok text) EmptyString tar.
Definition parse_zerotier_tar (tar : archive) : res dict := do t <- zerotier_tar_text tar; parse_zerotier t.
(** zerotier/parser.py:7 *)
Definition zt_header : string := "// zerotier controller config:".

(** zerotier/zerotier.py:8-15: the backend *)
Definition zerotier_backend (schema_ok : dict -> res unit) : backend :=
  {| be_validate := base_validate schema_ok;
     be_convs := [zerotier_base];
     be_render := fun _ inter => render_zerotier inter;
     be_contents := fun text => generate_vpns zt_header zt_suffix text [];
     be_ids := [] |}.
