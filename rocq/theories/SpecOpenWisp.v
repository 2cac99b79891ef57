(** * SpecOpenWisp: the text and the archive of the OpenWISP 1.x backend. *)
From Verif Require Import PyBase SpecUci SpecUciMore SpecFiles Files OpenWisp.

(** The lines of one option, of one section and of one file: names and values
    are all between quotes. *)
Definition ow_option_lines (kv : string * val) : list string :=
  if startswith "." (fst kv) then []
  else match uci_value (snd kv) with
       | Some (VList xs) => map (fun x => TAB +++ "list '" +++ fst kv +++ "' '" +++ py_str x +++ "'") xs
       | Some x => [TAB +++ "option '" +++ fst kv +++ "' '" +++ py_str x +++ "'"]
       | None => []
       end.
Definition text_at (k : string) (d : dict) : string := match dget k d with Some v => py_str v | None => EmptyString end.
Definition ow_section_lines (b : dict) : list string :=
  (("config '" +++ text_at ".type" b +++ "' '" +++ text_at ".name" b +++ "'") :: flat_map ow_option_lines b)%list.
Definition conf_lines (p : string) (bs : list dict) : list string :=
  (("package " +++ p) :: flat_map (fun b => EmptyString :: ow_section_lines b) bs)%list.
Definition blank_lines (ls : list string) : Prop := forall l, In l ls -> l = EmptyString.

(** The member uci/PACKAGE.conf *)
Definition conf_member (p : string) (bs : list dict) (m : member) : Prop :=
  m_name m = "uci/" +++ p +++ ".conf" /\ m_mode m = 420%N /\ m_mtime m = 0%N /\
  exists blanks, blank_lines blanks /\
    (split_char NLc (m_data m) = conf_lines p bs ++ EmptyString :: blanks)%list.
(** Sections that can be told apart in the archive: the text is ASCII and the
    word package followed by a space is nowhere else than before a package. *)
Definition quiet (p : string) (bs : list dict) : Prop :=
  ascii_text p /\ contains "package " p = false /\
  forall b l, In b bs -> In l (ow_section_lines b) -> ascii_text l /\ contains "package " l = false.

(** Radios with the setting disabled added when it was missing. *)
Definition radio_completed (r r' : val) : Prop :=
  exists d d', r = VDict d /\ r' = VDict d' /\
    (forall k, k <> "disabled" -> dget k d' = dget k d) /\
    dget "disabled" d' = Some (match dget "disabled" d with Some v => v | None => VBool false end).
Definition radios_completed (c c' : dict) : Prop :=
  (forall k, k <> "radios" -> dget k c' = dget k c) /\
  match dget "radios" c with
  | None => dget "radios" c' = None
  | Some v => exists l l', v = VList l /\ dget "radios" c' = Some (VList l') /\ Forall2 radio_completed l l'
  end.

(** Context of the install scripts: the objects listed under a key, the tap
    VPNs, the bridges with the protocol and address of their first address. *)
Definition objects (key : string) (c : dict) (ds : list dict) : Prop :=
  dget key c = Some (VList (map VDict ds)) \/ (dget key c = None /\ ds = []).
Definition has_text (k s : string) (d : dict) : bool :=
  match dget k d with Some (VStr x) => String.eqb x s | _ => false end.
Definition first_address (i : dict) : option dict :=
  match dget "addresses" i with Some (VList (VDict a :: _)) => Some a | _ => None end.
Definition or_null (v : option val) : val := match v with Some x => x | None => VNull end.
Definition bridge_entry (i e : dict) : Prop :=
  match first_address i with
  | None => e = i
  | Some a => dget "proto" e = Some (or_null (dget "proto" a)) /\ dget "ip" e = Some (or_null (dget "address" a)) /\
      forall k, k <> "proto" -> k <> "ip" -> dget k e = dget k i
  end.
Definition cron_path (p : string) : Prop := exists r, p = "/crontabs" +++ r \/ p = "crontabs" +++ r.
Definition context_of (c : dict) (x : ow_context) : Prop :=
  x_hostname x = (match dget "general" c with
                  | Some (VDict g) => match dget "hostname" g with Some h => h | None => VStr "OpenWISP1" end
                  | _ => VStr "OpenWISP1" end) /\
  (exists vpns, objects "openvpn" c vpns /\ x_l2vpn x = filter (has_text "dev_type" "tap") vpns) /\
  (exists is, objects "interfaces" c is /\ Forall2 bridge_entry (filter (has_text "type" "bridge") is) (x_bridges x)) /\
  (x_cron x = true <-> exists fs f p, dget "files" c = Some (VList fs) /\ In f fs /\ file_path f p /\ cron_path p) /\
  x_radios x = (match dget "radios" c with Some r => r | None => VList [] end).
(** [name] is what follows the last slash. *)
Definition base_name (path name : string) : Prop :=
  contains "/" name = false /\ (path = name \/ exists dir, path = dir +++ "/" +++ name).

(** The scripts of a configuration: path and contents. *)
Inductive ow_script (T : ow_texts) (c : dict) (x : ow_context) : string -> string -> Prop :=
| os_install : ow_script T c x "/install.sh" (t_install T x)
| os_uninstall : ow_script T c x "/uninstall.sh" (t_uninstall T x)
| os_up vpn path name : In vpn (x_l2vpn x) ->
    dget "up" vpn = Some (VStr path) -> base_name path name -> name <> EmptyString ->
    ow_script T c x ("/openvpn/" +++ name) (t_up T)
| os_down vpn path name : In vpn (x_l2vpn x) ->
    dget "down" vpn = Some (VStr path) -> base_name path name -> name <> EmptyString ->
    ow_script T c x ("/openvpn/" +++ name) (t_down T)
| os_tc text : t_tc T (match dget "tc_options" c with Some o => o | None => VList [] end) = Ok text ->
    ow_script T c x "/tc_script.sh" text.
Definition script_file (path contents : string) : val :=
  VDict [("path", VStr path); ("contents", VStr contents); ("mode", VStr "755")].
(** The member of a script: executable by everybody (octal 755). *)
Definition script_member (path contents : string) (m : member) : Prop :=
  relative_of path (m_name m) /\ m_mode m = 493%N /\ m_mtime m = 0%N /\
  (ascii_text contents -> m_data m = contents).
