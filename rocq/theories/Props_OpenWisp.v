(** * Props_OpenWisp: C47: the OpenWISP 1.x backend *)
From Verif Require Import PyBase PyLemmas StrLemmas Files Uci SpecUci SpecUciMore FilesProofs UciProofs UciParseProofs UciRoundTrip UciMore.
From Verif Require Import Merge Backend BackendProofs Conv OpenWrt OpenWisp SpecFiles SpecOpenWisp OwProofs OwArchive OwScripts OwApi OwRepeat.

(** ** Radios *)

(** C47: validate() completes the radios, changes nothing else, and accepts the
    completed configuration or not. *)
Theorem C47_validate : forall oid schema_ok dsa f1 f2 s s' r,
  ow_validate (openwisp oid schema_ok dsa f1 f2) s = (s', Ok r) ->
  radios_completed (st_config s) (st_config s') /\ st_inter s' = st_inter s.
Proof.
  intros oid sc dsa f1 f2 s s' r. unfold ow_validate. destruct (sanitize_radios (st_config s)) as [c|] eqn:E; [|discriminate].
  intros H. injection H as <- _. cbn [st_config st_inter]. split; [apply sanitize_spec; exact E|reflexivity].
Qed.
(** C47: so does render(); the keys that may differ otherwise are the files and
    the custom packages. *)
Theorem C47_radios : forall oid schema_ok dsa f1 f2 files s s' text,
  ow_render oid (openwisp oid schema_ok dsa f1 f2) files s = (s', Ok text) ->
  exists c, radios_completed (st_config s) c /\
    forall k, k <> "files" -> In k (owrt_keys ++ ["tc_options"]) -> dget k (st_config s') = dget k c.
Proof.
  intros oid sc dsa f1 f2 files s s' text. unfold ow_render. destruct (sanitize_radios (st_config s)) as [c|] eqn:E; [|discriminate].
  intros H. exists c. split; [apply sanitize_spec; exact E|]. intros k Hf Hk. rewrite (ow_render_keeps _ _ _ _ _ _ _ _ _ k H); [reflexivity|].
  apply ow_settings_spec. auto.
Qed.

(** ** Text *)

(** C47: the text, where also types and names are quoted, is read by the parser
    of OpenWrt like the text of OpenWrt for the same sections *)
Theorem C47_text_round_trip : forall d, data_ok d ->
  exists text d', ow_render_uci d = Ok text /\ parse_text text = Ok d' /\ data_reads d d'.
Proof.
  intros d Hd. destruct (uci_round_trip d Hd) as (text & d' & H1 & H2 & H3).
  destruct (ow_text_reads d text Hd H1) as (text' & H4 & H5). exists text', d'. rewrite H5. auto.
Qed.

(** ** Archive *)

(** C47: the archive holds one file uci/PACKAGE.conf for each package, in order,
    with its sections, and then the files. *)
Theorem C47_members : forall oid schema_ok dsa f1 f2 T s s' tar inter,
  ow_generate oid (openwisp oid schema_ok dsa f1 f2) T s = (s', Ok tar) ->
  st_inter s' = Some inter -> data_ok inter ->
  (forall p bs, In (p, VList (map VDict bs)) inter -> quiet p bs) ->
  exists confs ms files, tar = (confs ++ ms)%list /\
    Forall2 (fun pkg m => exists bs, snd pkg = VList (map VDict bs) /\ conf_member (fst pkg) bs m) inter confs /\
    get_files (st_config s') = Ok files /\
    Forall2 (fun f m => exists c, file_member f c m /\ (ascii_only c = true -> m_data m = c)) files ms.
Proof.
  intros oid sc dsa f1 f2 T s s' tar inter G Hi Hd Hq.
  destruct (generate_parts _ _ T s s' tar G) as (s1 & text & pk & items & old & new & E1 & E2 & E3 & E4 & E5 & E6 & E7 & E8 & E9 & E10).
  unfold ow_render in E1. destruct (sanitize_radios (st_config s)) as [c|]; [|discriminate].
  destruct (render_ok_settled _ _ _ _ _ _ E1) as [_ Ht]. unfold render_text in Ht. rewrite <- E6, Hi in Ht.
  apply bind_Ok in Ht as (text' & Ht & E). injection E as ->. cbn [openwisp be_render] in Ht.
  destruct (data_pkgs inter Hd) as (l & El & Hl & Hn). rewrite El in Ht. fold (as_data l) in Ht.
  destruct (ow_archive_packages l text Hl) as (ms & Hms & HF); [|exact Ht|].
  { intros [p bs] Hin. apply Hq. rewrite El. apply in_map_iff. exists (p, bs). auto. }
  rewrite E2 in Hms. injection Hms as ->. apply process_files_spec in E10 as (fs & fm & Hfs & HF2 & ->).
  exists ms, fm, fs. split; [reflexivity|]. split.
  2: { split; [exact Hfs|]. eapply Forall2_impl; [|exact HF2]. intros f m Hm. apply file_mem0_member in Hm as (ct & Hm & Hdt).
       exists ct. split; [exact Hm|]. intros Ha. rewrite Hdt, (FilesProofs.utf8_ascii ct Ha). apply stake_all. }
  rewrite El. clear -HF.
  induction HF as [|[p bs] m l ms H HF IH]; [constructor|]. constructor; [|exact IH]. exists bs. auto.
Qed.

(** C47: among them are the scripts of the configuration: install.sh and
    uninstall.sh, those of the layer 2 VPNs, tc_script.sh; the configuration gains
    the missing ones and keeps everything else. *)
Theorem C47_scripts : forall oid B T s s1 s' text old tar,
  ow_render oid B false s = (s1, Ok text) -> get_files (st_config s1) = Ok old -> wf (VDict (st_config s1)) ->
  ow_generate oid B T s = (s', Ok tar) ->
  exists x new, context_of (st_config s1) x /\
    get_files (st_config s') = Ok (old ++ new)%list /\
    (forall k, k <> "files" -> dget k (st_config s') = dget k (st_config s1)) /\
    NoDup new /\ (forall f, In f new -> exists p t, ow_script T (st_config s1) x p t /\ f = script_file p t) /\
    (forall p t, ow_script T (st_config s1) x p t -> exists m, In m tar /\ script_member p t m).
Proof. intros oid B T s s1 s' text old tar H1 H2 H3 H4. exact (generate_scripts oid B T s s1 s' text old tar H1 H2 H4 H3). Qed.
(** C47: a script is there once, unless a file of the user has its path or two
    scripts with different contents share a path. *)
Theorem C47_script_once : forall oid B T s s1 s' text old tar x p t,
  ow_render oid B false s = (s1, Ok text) -> get_files (st_config s1) = Ok old ->
  ow_generate oid B T s = (s', Ok tar) ->
  install_context (st_config s1) = Ok x ->
  ow_script T (st_config s1) x p t -> (forall t', ow_script T (st_config s1) x p t' -> t' = t) ->
  (forall f q r, In f old -> file_path f q -> relative_of q r -> ~ relative_of p r) ->
  exists a m b, tar = (a ++ m :: b)%list /\ script_member p t m /\ forall m', In m' (a ++ b) -> ~ relative_of p (m_name m').
Proof. intros oid B T s s1 s' text old tar x p t H1 H2 H3 H4 H5 H6 H7. exact (script_once oid B T s s1 s' text old tar H1 H2 H3 x p t H4 H5 H6 H7). Qed.
(** C47 (deviation): a file of the user with the path of a script is not
    respected: both are in the archive, the script later, so that extracting the
    archive leaves the script. *)
Theorem C47_user_script_shadowed : forall oid B T s s1 s' text old tar x p t f q r,
  ow_render oid B false s = (s1, Ok text) -> get_files (st_config s1) = Ok old ->
  ow_generate oid B T s = (s', Ok tar) ->
  install_context (st_config s1) = Ok x ->
  ow_script T (st_config s1) x p t -> (forall t', ow_script T (st_config s1) x p t' -> t' = t) ->
  In f old -> file_path f q -> relative_of q r -> relative_of p r -> py_in (script_file p t) old = false ->
  exists a m1 b m2 c ct, tar = (a ++ m1 :: b ++ m2 :: c)%list /\ m_name m1 = r /\ m_name m2 = r /\ script_member p t m2 /\
    file_member f ct m1 /\ forall m', In m' c -> m_name m' <> r.
Proof.
  intros oid B T s s1 s' text old tar x p t f q r H1 H2 H3 H4 H5 H6 H7 H8 H9 H10 H11.
  destruct (user_script_shadowed oid B T s s1 s' text old tar H1 H2 H3 x p t f q r H4 H5 H6 H7 H8 H9 H10 H11)
    as (a & m1 & b & m2 & c & E1 & E2 & E3 & E4 & E5 & E6).
  apply file_mem0_member in E5 as (ct & E5 & _). exists a, m1, b, m2, c, ct. auto 10.
Qed.
(** C47: generating again gives the same archive and leaves the object as it is,
    if the files, scripts included, have distinct paths. *)
Theorem C47_repeat : forall oid schema_ok dsa f1 f2 T s s' tar s2 tar2 files paths,
  ow_generate oid (openwisp oid schema_ok dsa f1 f2) T s = (s', Ok tar) ->
  ow_generate oid (openwisp oid schema_ok dsa f1 f2) T s' = (s2, Ok tar2) ->
  dget "files" (st_config s') = Some (VList files) -> Forall2 file_path files paths -> NoDup paths ->
  s2 = s' /\ tar2 = tar.
Proof. exact generate_twice. Qed.
(** C47 (deviation): the parser reads nothing from such an archive *)
Theorem C47_archive_not_parsed : forall oid B T s s1 s' text old tar,
  ow_render oid B false s = (s1, Ok text) -> get_files (st_config s1) = Ok old ->
  ow_generate oid B T s = (s', Ok tar) ->
  (forall f q r, In f old -> file_path f q -> relative_of q r -> startswith "etc/config/" r = false) ->
  parse_tar tar = Ok [].
Proof. intros oid B T s s1 s' text old tar H1 H2 H3 H4. exact (archive_unread oid B T s s1 s' text old tar H1 H2 H3 H4). Qed.
Print Assumptions C47_validate.
Print Assumptions C47_radios.
Print Assumptions C47_text_round_trip.
Print Assumptions C47_members.
Print Assumptions C47_scripts.
Print Assumptions C47_script_once.
Print Assumptions C47_user_script_shadowed.
Print Assumptions C47_repeat.
Print Assumptions C47_archive_not_parsed.

(** ** A router with a bridge, a layer 2 VPN, a crontab and a file of its own *)
Definition any_schema (d : dict) : res unit := Ok tt.
Definition no_oid : Merge.oracle := fun _ i => i.
Definition texts : ow_texts :=
  {| t_install := fun x => "#!/bin/sh" +++ NL +++ "logger " +++ py_str (x_hostname x) +++ NL;
     t_uninstall := fun x => if x_cron x then "rm cron" else "exit";
     t_tc := fun v => Ok (if truthy v then "tc qdisc" else ""); t_up := "up"; t_down := "down" |}.
Definition vpn (up down : string) : val :=
  VDict [("name", VStr "vpn"); ("mode", VStr "p2p"); ("proto", VStr "udp"); ("dev_type", VStr "tap"); ("dev", VStr "tap0"); ("up", VStr up); ("down", VStr down)].
Definition router (files : list val) (up down : string) : dict :=
  [("general", VDict [("hostname", VStr "ap1")]);
   ("interfaces", VList [VDict [("name", VStr "br-lan"); ("type", VStr "bridge"); ("bridge_members", VList [VStr "eth0"; VStr "wlan0"]);
      ("addresses", VList [VDict [("proto", VStr "static"); ("family", VStr "ipv4"); ("address", VStr "10.0.0.1"); ("mask", VInt 24)]])]]);
   ("radios", VList [VDict [("name", VStr "radio0"); ("phy", VStr "phy0"); ("protocol", VStr "802.11n"); ("driver", VStr "mac80211"); ("channel", VInt 3); ("channel_width", VInt 20)]]);
   ("openvpn", VList [vpn up down]);
   ("files", VList (VDict [("path", VStr "/crontabs/root"); ("contents", VStr "* * * * * ls")] :: files))].
Definition gen (files : list val) (up down : string) := ow_generate no_oid (openwisp no_oid any_schema false true true) texts (fresh (router files up down)).
Definition summary (r : state * res archive) : option (list (string * string)) :=
  match snd r with Ok tar => Some (map (fun m => (m_name m, m_data m)) tar) | Err _ => None end.
Example C47_applies_archive :
  match summary (gen [] "/etc/openvpn/vpn-up.sh" "") with
  | Some tar => map fst tar = ["uci/system.conf"; "uci/network.conf"; "uci/wireless.conf"; "uci/openvpn.conf"; "crontabs/root";
                               "install.sh"; "uninstall.sh"; "openvpn/vpn-up.sh"; "tc_script.sh"] /\
      nth 5 tar ("", "") = ("install.sh", "#!/bin/sh" +++ NL +++ "logger ap1" +++ NL) /\
      nth 6 tar ("", "") = ("uninstall.sh", "rm cron")
  | None => False
  end.
Proof. vm_compute. repeat split. Qed.
Lemma router_sections : exists inter, st_inter (fst (gen [] "a" "")) = Some inter /\ data_ok inter /\
  (forall p bs, In (p, VList (map VDict bs)) inter -> quiet p bs) /\ length inter = 4%nat.
Proof.
  assert (W : forall s, s <> EmptyString -> sforall (fun c => negb (is_space c) && negb (Ascii.eqb c SQc) && negb (Ascii.eqb c DQc)) s = true -> word s) by (intros; split; assumption).
  assert (P : forall s, nochar NLc s = true -> nochar SQc s = true -> nochar DQc s = true -> contains "    " s = false -> plain s).
  { intros s H1 H2 H3 H4. unfold plain. rewrite !no_char_spec. auto. }
  eexists. split; [vm_compute; reflexivity|]. split; [|split; [|reflexivity]].
  - split; [repeat constructor; cbn; intuition discriminate|].
    intros p Hp. repeat destruct Hp as [<-|Hp]; try contradiction; (split; [split; [discriminate|]; split; [reflexivity|]; rewrite no_char_spec; split; reflexivity|]);
      (eexists [_]; split; [reflexivity|]; intros b [<-|[]]; split; [repeat constructor; cbn; intuition discriminate|]; split;
       [do 2 eexists; split; [reflexivity|]; split; [apply W; [discriminate|reflexivity]|]; split; reflexivity|
        intros k v H; repeat (destruct H as [H|H]; [injection H as <- <-; intros Hd Hv; try discriminate Hd; try (exfalso; apply Hv; reflexivity); (split; [apply W; [discriminate|reflexivity]|apply P; reflexivity])|]); contradiction]).
  - intros p bs Hp. repeat destruct Hp as [Hp|Hp]; try contradiction; injection Hp as <- Hb;
      (destruct bs as [|b [|]]; [discriminate|injection Hb as <-|discriminate]; split; [reflexivity|]; split; [reflexivity|]; intros b' l [<-|[]] Hl;
       vm_compute in Hl; repeat destruct Hl as [<-|Hl]; try contradiction; split; reflexivity).
Qed.
(** The radio is completed, the text is that of OpenWrt with all names quoted. *)
Example C47_applies_radios :
  match dget "radios" (st_config (fst (gen [] "a" ""))) with
  | Some (VList [VDict r]) => dget "disabled" r = Some (VBool false) /\ dget "name" r = Some (VStr "radio0")
  | _ => False
  end.
Proof. vm_compute. auto. Qed.
Example C47_applies_text :
  match summary (gen [] "a" "") with
  | Some tar => In ("uci/system.conf", "package system" +++ NL +++ NL +++ "config 'system' 'system'" +++ NL
      +++ TAB +++ "option 'hostname' 'ap1'" +++ NL +++ NL) tar
  | None => False
  end.
Proof. vm_compute. auto 10. Qed.
Example C47_applies_repeat :
  let '(s', r) := gen [] "/etc/openvpn/vpn-up.sh" "" in
  let '(s2, r2) := ow_generate no_oid (openwisp no_oid any_schema false true true) texts s' in
  r = r2 /\ (exists tar, r = Ok tar /\ length tar = 9%nat) /\
  match dget "files" (st_config s') with
  | Some (VList files) => exists paths, Forall2 file_path files paths /\ NoDup paths /\ length paths = 5%nat
  | _ => False
  end.
Proof.
  vm_compute. split; [reflexivity|]. split; [eexists; split; reflexivity|].
  exists ["/crontabs/root"; "/install.sh"; "/uninstall.sh"; "/openvpn/vpn-up.sh"; "/tc_script.sh"].
  split; [repeat (constructor; [eexists; split; reflexivity|]); constructor|]. split; [|reflexivity].
  repeat constructor; cbn; intuition discriminate.
Qed.
(** A script of the user is doubled. *)
Example C47_applies_shadowed :
  match summary (gen [VDict [("path", VStr "/install.sh"); ("contents", VStr "mine"); ("mode", VStr "755")]] "" "") with
  | Some tar => filter (fun m => String.eqb (fst m) "install.sh") tar
      = [("install.sh", "mine"); ("install.sh", "#!/bin/sh" +++ NL +++ "logger ap1" +++ NL)]
  | None => False
  end.
Proof. vm_compute. reflexivity. Qed.
(** Up and down scripts with the same base name are two members of one name,
    whose order is the opposite in the next archive. *)
Example C47_applies_same_name :
  let '(s', r) := gen [] "/a/vpn.sh" "/b/vpn.sh" in
  let '(_, r2) := ow_generate no_oid (openwisp no_oid any_schema false true true) texts s' in
  match summary (s', r), summary (s', r2) with
  | Some t1, Some t2 => map snd (filter (fun m => String.eqb (fst m) "openvpn/vpn.sh") t1) = ["up"; "down"] /\
      map snd (filter (fun m => String.eqb (fst m) "openvpn/vpn.sh") t2) = ["down"; "up"]
  | _, _ => False
  end.
Proof. vm_compute. split; reflexivity. Qed.
