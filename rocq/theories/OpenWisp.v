(** * OpenWisp: the OpenWISP 1.x backend (backends/openwisp) *)
From Verif Require Import PyBase Merge Files Uci Backend Conv OwrtConv OwrtInterfaces OwrtWireless Timezones OpenVpnConv OpenWrt.

(** ** Template *)

(** openwisp/templates/openwrt.jinja2:9-11: one list line *)
Definition ow_list_line (key : string) (v : string) : string :=
  spaces 24 +++ "list '" +++ key +++ "' '" +++ v +++ "'" +++ NL +++ spaces 20.
(** openwrt.jinja2:8-16 *)
Definition ow_value (key : string) (value : val) : string :=
  match value with
  | VList l => spaces 20 +++ fold_right (fun x acc => ow_list_line key (py_str x) +++ acc) EmptyString l
               +++ spaces 16
  | VDict d => spaces 20 +++ fold_right (fun kv acc => ow_list_line key (fst kv) +++ acc) EmptyString d
               +++ spaces 16
  | VBool b => spaces 20 +++ "option '" +++ key +++ "' '" +++ (if b then "1" else "0") +++ "'" +++ NL +++ spaces 16
  | _ => spaces 20 +++ "option '" +++ key +++ "' '" +++ py_str value +++ "'" +++ NL +++ spaces 16
  end.
(** openwrt.jinja2:6-18, one iteration *)
Definition ow_item (kv : string * val) : string :=
  spaces 12 +++
  (if not_blank (snd kv) && negb (startswith "." (fst kv))
   then spaces 16 +++ ow_value (fst kv) (snd kv) +++ spaces 12 else EmptyString)
  +++ spaces 8.
(** openwrt.jinja2:4-20, one block *)
Definition ow_block (config : dict) : string :=
  spaces 8 +++ "config '" +++ tpl_get ".type" config +++ "' '" +++ tpl_get ".name" config +++ "'" +++ NL
  +++ spaces 8 +++ fold_right (fun kv acc => ow_item kv +++ acc) EmptyString config
  +++ NL +++ spaces 4.
(** openwrt.jinja2:1-22, one package; same simplification as [tpl_package] *)
Definition ow_package (pkg : string) (blocks : list dict) : string :=
  spaces 4 +++ "package " +++ pkg +++ NL +++ NL +++ spaces 4
  +++ fold_right (fun b acc => ow_block b +++ acc) EmptyString blocks +++ NL.
Definition ow_uci (data : dict) : res string :=
  foldM (fun acc kv => do bs <- blocks_of (snd kv); Ok (acc +++ ow_package (fst kv) bs))
        EmptyString data.
(** openwisp/renderer.py: the cleanup is that of OpenWrt *)
Definition ow_render_uci (data : dict) : res string := do s <- ow_uci data; Ok (cleanup s).

(** ** Archive *)

(** [re.split("package ", s)]: anywhere in the text *)
Fixpoint split_sub (sub : string) (skip : nat) (cur s : string) : list string :=
  match s with
  | EmptyString => [srev cur]
  | String c s' =>
      match skip with
      | S k => split_sub sub k cur s'
      | O => if startswith sub s
             then srev cur :: split_sub sub (String.length sub - 1) EmptyString s'
             else split_sub sub O (String c cur) s'
      end
  end.
(** openwisp.py:157-176, the loop over packages *)
Definition ow_packages (uci : string) (tar : archive) : res archive :=
  foldM (fun tar package =>
           let lines := split_char NLc package in
           let name := match lines with n :: _ => n | [] => EmptyString end in
           let contents := "package " +++ name +++ NL +++ NL +++ join NL (skipn 2 lines) in
           add_file tar ("uci/" +++ name +++ ".conf") contents DEFAULT_FILE_MODE)
        tar (remove_first_empty (split_sub "package " O EmptyString uci)).

(** ** Validation *)

(** openwisp.py:28-35 [_sanitize_radios].  Simplification: nothing is changed
    when a radio is not a dict (the code changes those before it). *)
Definition sanitize_radio (v : val) : res val :=
  do d <- as_dict v;
  Ok (VDict (if dmem "disabled" d then d else dset "disabled" (VBool false) d)).
Definition sanitize_radios (config : dict) : res dict :=
  match dget "radios" config with
  | None => Ok config
  | Some v => do l <- as_list v; do l <- mapM sanitize_radio l; Ok (dset "radios" (VList l) config)
  end.
(** openwrt.py:20-38 with the schema of openwisp/schema.py: the key "tc_options"
    is not a custom package. *)
Definition ow_convs (oid : oracle) (dsa f1 f2 : bool) : list converter :=
  [general (timezones f1 f2) (timezones_reversed f1 f2); ntp; led; interfaces oid dsa; routes; rules;
   switch; radios dsa; wireless dsa; owrt_openvpn; wireguard_peers; owrt_zerotier; default (owrt_keys ++ ["tc_options"])].
(** openwisp.py:10-22: the backend after [_sanitize_radios]; parser and
    converters are those of OpenWrt *)
Definition openwisp (oid : oracle) (schema_ok : dict -> res unit) (dsa f1 f2 : bool) : backend :=
  {| be_validate := owrt_validate schema_ok;
     be_convs := ow_convs oid dsa f1 f2;
     be_render := fun _ inter => ow_render_uci inter;
     be_contents := fun text => ow_packages text [];
     be_ids := ["name"; "config_value"; "id"] |}.

(** ** Scripts *)

(** The texts of the script templates are given by an oracle: install.sh and
    uninstall.sh from their context, tc_script.sh from its options (jinja2
    computes with floats there), the two VPN scripts, which are constant. *)
Record ow_context := { x_hostname : val; x_l2vpn : list dict; x_bridges : list dict; x_radios : val; x_cron : bool }.
Record ow_texts := {
  t_install : ow_context -> string;
  t_uninstall : ow_context -> string;
  t_tc : val -> res string;
  t_up : string;
  t_down : string }.
(** [for x in self.config.get(key, [])] over dicts *)
Definition dicts_at (key : string) (config : dict) : res (list dict) :=
  do l <- list_at key config; mapM as_dict l.
(** openwisp.py:60-65 and 117-126: the tap VPNs *)
Definition is_tap (vpn : dict) : bool := py_eq (dgetN "dev_type" vpn) (VStr "tap").
(** openwisp.py:68-75, one interface.  Simplification: "addresses" is a list
    of dicts when present. *)
Definition ow_bridge (interface : dict) : res (list dict) :=
  do ty <- dgetE "type" interface;
  if negb (py_eq ty (VStr "bridge")) then Ok []
  else if truthy (dgetN "addresses" interface) then
    do l <- as_list (dgetN "addresses" interface);
    do a <- as_dict (hd VNull l);
    Ok [dset "ip" (dgetN "address" a) (dset "proto" (dgetN "proto" a) interface)]
  else Ok [interface].
(** openwisp.py:77-82: is there a crontab?  The loop stops at the first. *)
Fixpoint has_cron (files : list val) : res bool :=
  match files with
  | [] => Ok false
  | f :: t =>
      do d <- as_dict f; do pv <- dgetE "path" d; do p <- as_str pv;
      if startswith "/crontabs" p || startswith "crontabs" p then Ok true else has_cron t
  end.
(** openwisp.py:54-90 [_get_install_context] *)
Definition install_context (config : dict) : res ow_context :=
  do vpns <- dicts_at "openvpn" config;
  do ifaces <- dicts_at "interfaces" config;
  do bridges <- mapM ow_bridge ifaces;
  do files <- get_files config;
  do cron <- has_cron files;
  do general <- (match dget "general" config with None => Ok [] | Some v => as_dict v end);
  Ok {| x_hostname := match dget "hostname" general with Some h => h | None => VStr "OpenWISP1" end;
        x_l2vpn := filter is_tap vpns; x_bridges := concat bridges;
        x_radios := match dget "radios" config with Some r => r | None => VList [] end; x_cron := cron |}.
Definition script (path contents : string) : val :=
  VDict [("path", VStr path); ("contents", VStr contents); ("mode", VStr "755")].
(** openwisp.py:47-52 [_add_unique_file] on the list of files *)
Definition add_unique (files : list val) (item : val) : list val :=
  if py_in item files then files else (files ++ [item])%list.
(** openwisp.py:122-125: the last component of a path, if any *)
Definition script_name (v : val) : res string :=
  if truthy v then do s <- as_str v; Ok (last (split_char "/"%char s) EmptyString) else Ok EmptyString.
(** openwisp.py:115-143 [_add_openvpn_scripts], one tap VPN *)
Definition vpn_scripts (T : ow_texts) (vpn : dict) : res (list val) :=
  do up <- script_name (dgetN "up" vpn);
  do down <- script_name (dgetN "down" vpn);
  Ok ((if String.eqb up EmptyString then [] else [script ("/openvpn/" +++ up) (t_up T)])
      ++ (if String.eqb down EmptyString then [] else [script ("/openvpn/" +++ down) (t_down T)]))%list.
(** openwisp.py:92-157 and 177-187: all scripts, in the order in which they are
    added.  Simplification: a script that cannot be rendered leaves the
    configuration as it was (the code keeps the scripts before it). *)
Definition all_scripts (T : ow_texts) (config : dict) : res (list val) :=
  do x <- install_context config;
  do vs <- mapM (vpn_scripts T) (x_l2vpn x);
  do tc <- t_tc T (match dget "tc_options" config with Some o => o | None => VList [] end);
  Ok ([script "/install.sh" (t_install T x); script "/uninstall.sh" (t_uninstall T x)] ++ concat vs
      ++ [script "/tc_script.sh" tc])%list.
Definition add_scripts (T : ow_texts) (config : dict) : res dict :=
  do items <- all_scripts T config;
  do files <- get_files config;
  Ok (dset "files" (VList (fold_left add_unique items files)) config).

Section Api.
  Variable oid : oracle.
  Variable B : backend.
  Variable T : ow_texts.
  (** openwisp.py:24-26 [validate] *)
  Definition ow_validate (s : state) : state * res unit :=
    match sanitize_radios (st_config s) with
    | Err e => (s, Err e)
    | Ok c => ({| st_config := c; st_inter := st_inter s |}, be_validate B c)
    end.
  (** base/backend.py:222-256 [render], where [validate] is that of OpenWisp:
      after the first call the radios are complete, so that further calls in
      [to_intermediate] change nothing. *)
  Definition ow_render (files : bool) (s : state) : state * res string :=
    match sanitize_radios (st_config s) with
    | Err e => (s, Err e)
    | Ok c => render oid B files {| st_config := c; st_inter := st_inter s |}
    end.
  (** base/backend.py:275-299 [generate] with openwisp.py:157-187 *)
  Definition ow_generate (s : state) : state * res archive :=
    let (s1, r) := ow_render false s in
    match r with
    | Err e => (s1, Err e)
    | Ok text =>
        match ow_packages text [] with
        | Err e => (s1, Err e)
        | Ok tar =>
            match add_scripts T (st_config s1) with
            | Err e => (s1, Err e)
            | Ok c => ({| st_config := c; st_inter := st_inter s1 |}, process_files c tar)
            end
        end
    end.
End Api.
