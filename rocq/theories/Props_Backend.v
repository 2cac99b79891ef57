(** * Props_Backend: properties C26-C28, C30 and C49 (one backend object, any history of calls) *)
From Verif Require Import PyBase PyLemmas Merge Files SpecFiles FilesProofs Uci Backend BackendProofs Conv
  Ip Timezones OwrtConv OpenVpnConv OwrtWireless OwrtInterfaces OpenWrt OwrtKeep.

(** An OpenWrt backend whose schema accepts everything, used in examples. *)
Definition oid0 : oracle := fun _ i => i.
Definition accept : dict -> res unit := fun _ => Ok tt.
Definition owrt : backend := openwrt oid0 accept true false false.

(** C26.  In any history of calls on any backend object, two successful calls
    of render() with the same argument give the same text, two successful calls
    of generate() the same archive members. *)
Theorem C26_render_same_text : forall oid B h s i j f t1 t2,
  nth_error h i = Some (CRender f) -> nth_error h j = Some (CRender f) ->
  nth_error (snd (run oid B h s)) i = Some (AText (Ok t1)) ->
  nth_error (snd (run oid B h s)) j = Some (AText (Ok t2)) -> t1 = t2.
Proof. exact render_repeat. Qed.
Print Assumptions C26_render_same_text.
Theorem C26_generate_same_archive : forall oid B h s i j t1 t2,
  nth_error h i = Some CGenerate -> nth_error h j = Some CGenerate ->
  nth_error (snd (run oid B h s)) i = Some (ATar (Ok t1)) ->
  nth_error (snd (run oid B h s)) j = Some (ATar (Ok t2)) -> t1 = t2.
Proof. exact generate_repeat. Qed.
Print Assumptions C26_generate_same_archive.
(** After a successful render, later ones give the same text or a validation
    failure, nothing else. *)
Theorem C26_later_renders : forall oid B h s i j f t1 r,
  (i < j)%nat -> nth_error h i = Some (CRender f) -> nth_error h j = Some (CRender f) ->
  nth_error (snd (run oid B h s)) i = Some (AText (Ok t1)) ->
  nth_error (snd (run oid B h s)) j = Some (AText r) ->
  r = Ok t1 \/ exists e, r = Err e /\ be_validate B (st_config (fst (run oid B h s))) = Err e.
Proof.
  intros oid B h s i j f t1 r L Hi Hj Ai Aj.
  destruct (history_settles oid B h s i _ _ Hi Ai I) as (sf & Hs & Hsf & (s0 & Hst) & Hl).
  specialize (Hl j _ _ L Hj Aj). cbn in Hl, Hst. rewrite render_settled in Hl by assumption. cbn in Hl.
  destruct (render oid B f s0) as [s' r'] eqn:E. injection Hst as -> ->.
  destruct (render_ok_settled _ _ _ _ _ _ E) as [_ Et]. rewrite Et in Hl. rewrite Hsf.
  injection Hl as ->. destruct (be_validate B (st_config sf)) as [[]|e]; cbn; [left; reflexivity|right; eauto].
Qed.
Print Assumptions C26_later_renders.
(** render(files=True) is render(files=False) followed by the files. *)
Theorem C26_files_appended : forall oid B h s i j t1 t2,
  nth_error h i = Some (CRender true) -> nth_error h j = Some (CRender false) ->
  nth_error (snd (run oid B h s)) i = Some (AText (Ok t1)) ->
  nth_error (snd (run oid B h s)) j = Some (AText (Ok t2)) -> exists f, t1 = t2 +++ f.
Proof.
  intros oid B h s i j t1 t2 Hi Hj Ai Aj.
  destruct (Nat.lt_trichotomy i j) as [L|[->|L]].
  - destruct (history_settles oid B h s i _ _ Hi Ai I) as (sf & Hs & _ & (s0 & Hst) & Hl).
    specialize (Hl j _ _ L Hj Aj). cbn in Hl, Hst. rewrite render_settled in Hl by assumption. cbn in Hl.
    destruct (render oid B true s0) as [s' r'] eqn:E. injection Hst as -> ->.
    destruct (render_ok_settled _ _ _ _ _ _ E) as [_ Et].
    destruct (render_text_files _ _ _ Et) as (t0 & g & E0 & -> & _).
    rewrite E0 in Hl. destruct (be_validate B (st_config sf)); cbn in Hl; [|discriminate].
    injection Hl as ->. eauto.
  - congruence.
  - destruct (history_settles oid B h s j _ _ Hj Aj I) as (sf & Hs & _ & (s0 & Hst) & Hl).
    specialize (Hl i _ _ L Hi Ai). cbn in Hl, Hst. rewrite render_settled in Hl by assumption. cbn [snd] in Hl.
    destruct (render oid B false s0) as [s' r'] eqn:E. injection Hst as -> ->.
    destruct (render_ok_settled _ _ _ _ _ _ E) as [_ Et].
    destruct (be_validate B (st_config sf)); cbn [bind] in Hl; [|discriminate]. injection Hl as Hl. symmetry in Hl.
    destruct (render_text_files _ _ _ Hl) as (t0 & g & E0 & -> & _). rewrite Et in E0. injection E0 as ->. eauto.
Qed.
Print Assumptions C26_files_appended.
Definition sample_config : dict :=
  [("general", VDict [("hostname", VStr "ap1"); ("timezone", VStr "Europe/Rome")]);
   ("interfaces", VList [VDict [("name", VStr "lan"); ("type", VStr "ethernet");
      ("addresses", VList [VDict [("address", VStr "192.168.1.1"); ("mask", VInt 24); ("proto", VStr "static"); ("family", VStr "ipv4")]])]]);
   ("openvpn", VList [VDict [("name", VStr "vpn-1"); ("mode", VStr "p2p"); ("ca", VStr "/etc/x/ca.pem"); ("dev", VStr "tun0"); ("tls_auth", VStr "key")]]);
   ("files", VList [VDict [("path", VStr "/etc/a"); ("mode", VStr "0644"); ("contents", VStr "1")];
                    VDict [("path", VStr "/etc/a"); ("mode", VStr "0600"); ("contents", VStr "2")]]);
   ("custom", VList [VDict [("config_name", VStr "t"); ("config_value", VStr "n"); ("o", VInt 1)]])].
Example C26_applies : exists t a d1 d2,
  snd (run oid0 owrt [CJson true; CRender false; CGenerate; CRender false; CGenerate; CJson true] (fresh sample_config))
  = [ADoc (Ok d1); AText (Ok t); ATar (Ok a); AText (Ok t); ATar (Ok a); ADoc (Ok d2)].
Proof. do 4 eexists. vm_compute. reflexivity. Qed.

(** C27.  json() may change after render(): custom packages lose their
    "config_name", VPN files are added. *)
Theorem C27_json_stable_refuted :
  ~ (forall config d1 d2 t,
       snd (run oid0 owrt [CJson true; CRender false; CJson true] (fresh config))
       = [ADoc (Ok d1); AText (Ok t); ADoc (Ok d2)] -> d1 = d2).
Proof.
  intros H.
  specialize (H [("custom", VList [VDict [("config_name", VStr "t"); ("config_value", VStr "n")]])]).
  assert (E : exists d1 t d2, snd (run oid0 owrt [CJson true; CRender false; CJson true]
     (fresh [("custom", VList [VDict [("config_name", VStr "t"); ("config_value", VStr "n")]])]))
     = [ADoc (Ok d1); AText (Ok t); ADoc (Ok d2)] /\ d1 <> d2).
  { do 3 eexists. split; [vm_compute; reflexivity|]. discriminate. }
  destruct E as (d1 & t & d2 & E & Hne). apply Hne. eapply H. exact E.
Qed.
Print Assumptions C27_json_stable_refuted.
(** What is true: under the keys of the schema only the files can change, in
    any history, successful or not... *)
Theorem C27_settings_never_change : forall oid schema_ok dsa f1 f2 h config k,
  In k owrt_keys -> k <> "files" ->
  dget k (st_config (fst (run oid (openwrt oid schema_ok dsa f1 f2) h (fresh config)))) = dget k config.
Proof. intros. rewrite owrt_history_keeps by assumption. reflexivity. Qed.
Print Assumptions C27_settings_never_change.
(** ...and without VPNs and custom sections nothing changes but the removal of
    duplicate files. *)
Theorem C27_only_deduplication : forall oid schema_ok dsa f1 f2 h config config',
  dget "openvpn" config = None -> dget "zerotier" config = None ->
  (forall k l b, In (k, VList l) config -> ~ In k owrt_keys -> In (VDict b) l -> dget "config_name" b = None) ->
  config' = st_config (fst (run oid (openwrt oid schema_ok dsa f1 f2) h (fresh config))) ->
  config' = config \/
  ((forall k, k <> "files" -> dget k config' = dget k config) /\ dkeys config' = dkeys config /\
   exists old new ps, dget "files" config = Some (VList old) /\ dget "files" config' = Some (VList new) /\
     Forall2 file_path old ps /\ Forall2 file_path new (firsts ps) /\
     forall f p, In f new -> file_path f p -> last_such (fun g => file_path g p) old f).
Proof.
  intros oid schema_ok dsa f1 f2 h config config' H1 H2 H3 ->.
  destruct (owrt_history_same oid schema_ok dsa f1 f2 h (fresh config)) as [E|E]; [repeat split; assumption| |].
  - left. exact E.
  - pose proof (deduplicate_spec _ _ E) as (Ha & Hb & Hc). cbn [fresh st_config] in *.
    destruct (dget "files" config) as [v|]; [|left; exact Hc].
    destruct Hc as (old & new & ps & -> & Hn & Hr). right. split; [exact Ha|]. split; [exact Hb|].
    exists old, new, ps. auto.
Qed.
Print Assumptions C27_only_deduplication.
Example C27_applies :
  let s := fst (run oid0 owrt [CRender true; CGenerate] (fresh sample_config)) in
  dget "openvpn" (st_config s) = dget "openvpn" sample_config /\
  dget "files" (st_config s) = Some (VList
    [VDict [("path", VStr "/etc/a"); ("mode", VStr "0600"); ("contents", VStr "2")];
     VDict [("path", VStr "/etc/x/tun0_tls_auth.key"); ("mode", VStr "0600"); ("contents", VStr "key")]]) /\
  dget "custom" (st_config s) = Some (VList [VDict [("o", VInt 1); (".type", VStr "t"); (".name", VStr "n")]]).
Proof. vm_compute. auto. Qed.

(** C28.  A configuration that the schema or the path check rejects: every call
    but json(validate=False) raises ValidationError, and the object does not change.
    For every backend whose validate() is the inherited one. *)
Definition raises_validation (a : answer) : Prop :=
  exists m, a = AText (Err (EValidation m)) \/ a = ADoc (Err (EValidation m)) \/
            a = ATar (Err (EValidation m)) \/ a = AUnit (Err (EValidation m)).
Definition acceptable_path (f : val) : Prop :=
  exists p, file_path f p /\ p <> EmptyString /\ path_text p /\ exists q, relative_of p q /\ safe_relative q.
(** A schema oracle as jsonschema behaves: accepts or raises its own error, and
    accepts no file without a textual path. *)
Definition schema_like (schema_ok : dict -> res unit) : Prop :=
  forall config, match schema_ok config with
                 | Ok _ => exists files, get_files config = Ok files /\ forall f, In f files -> exists p, file_path f p
                 | Err e => exists m, e = EJsonSchema m
                 end.
Lemma valid_path_acceptable f : (exists p, file_path f p) ->
  (acceptable_path f <-> forall p, file_path f p -> valid_file_path p = true).
Proof.
  intros (p & Hp). split.
  - intros (p1 & H1 & H2 & H3 & q & H4 & H5) p2 Hp2.
    assert (p2 = p1) as ->. { destruct H1 as (d1 & -> & E1), Hp2 as (d2 & E & E2). injection E as <-. congruence. }
    apply valid_file_path_spec. split; [assumption|]. split; [assumption|].
    destruct H4 as [->|[-> Hn]].
    + unfold member_path. cbn. exact H5.
    + unfold member_path. destruct (startswith "/" p1) eqn:E; [|exact H5].
      apply startswith_true in E as [r ->]. exfalso. apply (Hn r). reflexivity.
  - intros H. specialize (H p Hp). apply valid_file_path_spec in H as (H1 & H2 & H3).
    exists p. split; [assumption|]. split; [assumption|]. split; [assumption|]. exists (member_path p). split; [apply relative_of_member|assumption].
Qed.
Theorem C28_rejected : forall oid B schema_ok h s, schema_like schema_ok ->
  be_validate B = base_validate schema_ok ->
  (forall u, schema_ok (st_config s) = Ok u ->
     exists files f, get_files (st_config s) = Ok files /\ In f files /\ ~ acceptable_path f) ->
  fst (run oid B h s) = s /\
  forall i c a, nth_error h i = Some c -> c <> CJson false ->
    nth_error (snd (run oid B h s)) i = Some a -> raises_validation a.
Proof.
  intros oid B schema_ok h s Hs Hv Hr. specialize (Hs (st_config s)).
  assert (He : exists m, be_validate B (st_config s) = Err (EValidation m)).
  { rewrite Hv.
    assert (H : exists files, (forall e, schema_ok (st_config s) = Err e -> exists m, e = EJsonSchema m) /\
      (schema_ok (st_config s) = Ok tt -> get_files (st_config s) = Ok files /\ forall f, In f files -> exists p, file_path f p)).
    { destruct (schema_ok (st_config s)) as [[]|e] eqn:E.
      - destruct Hs as (files & Hf & Hp). exists files. split; [discriminate|auto].
      - exists []. split; [|discriminate]. intros e' H. injection H as <-. exact Hs. }
    destruct H as (files & Ha & Hb). destruct (base_validate_spec schema_ok (st_config s) files Ha Hb) as [H1 H2].
    destruct (base_validate schema_ok (st_config s)) as [[]|e] eqn:E.
    - destruct H1 as [H1 _]. destruct (H1 eq_refl) as [G1 G2]. destruct (Hr tt G1) as (files' & f & F1 & F2 & F3).
      destruct (Hb G1) as [F4 F5]. rewrite F4 in F1. injection F1 as <-.
      exfalso. apply F3. apply valid_path_acceptable; [apply F5, F2|]. intros p. apply G2, F2.
    - destruct (H2 e eq_refl) as [m ->]. exists m. reflexivity. }
  destruct He as [m He]. destruct (invalid_run oid B h s _ He) as [H1 H2]. split; [exact H1|].
  intros i c a Hc Hn Ha. exists m. eapply H2; eassumption.
Qed.
Print Assumptions C28_rejected.
(** Nothing else is rejected. *)
Theorem C28_accepted : forall schema_ok config files, schema_like schema_ok ->
  schema_ok config = Ok tt -> get_files config = Ok files -> (forall f, In f files -> acceptable_path f) ->
  base_validate schema_ok config = Ok tt.
Proof.
  intros schema_ok config files Hs Hok Hf Ha. specialize (Hs config). rewrite Hok in Hs.
  destruct Hs as (files' & F1 & F2). rewrite Hf in F1. injection F1 as <-.
  apply (base_validate_spec schema_ok config files).
  - rewrite Hok. discriminate.
  - auto.
  - split; [exact Hok|]. intros f p Hin Hp. revert Hp. apply valid_path_acceptable; [apply F2, Hin|apply Ha, Hin].
Qed.
Print Assumptions C28_accepted.
Definition demo_schema : dict -> res unit := fun config =>
  match get_files config with
  | Ok files => if forallb (fun f => match f with VDict d => match dget "path" d with Some (VStr _) => true | _ => false end | _ => false end) files
                then Ok tt else Err (EJsonSchema "files")
  | Err _ => Err (EJsonSchema "files")
  end.
Example C28_applies : schema_like demo_schema /\
  demo_schema [("files", VList [VDict [("path", VStr "../x")]])] = Ok tt /\
  ~ acceptable_path (VDict [("path", VStr "../x")]).
Proof.
  split; [|split; [reflexivity|]].
  - intros config. unfold demo_schema. destruct (get_files config) as [files|]; [|eauto].
    destruct (forallb _ files) eqn:E; [|eauto]. exists files. split; [reflexivity|]. intros f Hf.
    rewrite forallb_forall in E. specialize (E f Hf). destruct f as [| | | | | |d]; try discriminate.
    destruct (dget "path" d) as [[]|] eqn:Ed; try discriminate. exists s, d. auto.
  - rewrite valid_path_acceptable by (exists "../x", [("path", VStr "../x")]; auto).
    intros H. specialize (H "../x" (ex_intro _ _ (conj eq_refl eq_refl))). discriminate.
Qed.
(** The OpenWrt backend looks at radios before the schema, and its own errors are
    not ValidationError: jsonschema's error, or KeyError on a radio that the
    schema would reject. *)
Theorem C28_openwrt_refuted :
  ~ (forall schema_ok config e, schema_like schema_ok -> owrt_validate schema_ok config = Err e ->
       exists m, e = EValidation m).
Proof.
  intros H.
  destruct (H demo_schema [("radios", VList [VDict [("protocol", VStr "802.11n"); ("channel", VInt 0)]])]
              (EJsonSchema "channel cannot be set to auto") (proj1 C28_applies) eq_refl) as [m E].
  discriminate.
Qed.
Print Assumptions C28_openwrt_refuted.
Theorem C28_openwrt_missing_protocol : forall schema_ok,
  owrt_validate schema_ok [("radios", VList [VDict [("channel", VInt 1)]])] = Err (EKey "protocol").
Proof. reflexivity. Qed.
Print Assumptions C28_openwrt_missing_protocol.
(** When the radios have a protocol and a determined band, it is ValidationError
    again. *)
Definition radio_determined (v : val) : Prop :=
  exists r p, v = VDict r /\ dget "protocol" r = Some p /\
    (is_one_of p ["802.11n"; "802.11ax"] = true ->
       py_eq (dgetN "channel" r) (VInt 0) = false \/ dgetN "band" r <> VNull \/ dgetN "hwmode" r <> VNull).
Lemma validate_radios_ok l : (forall v, In v l -> radio_determined v) -> validate_radios_list l = Ok tt.
Proof.
  induction l as [|v t IH]; intros H; [reflexivity|].
  destruct (H v (or_introl eq_refl)) as (r & p & -> & Hp & Hd). cbn [validate_radios_list as_dict bind].
  unfold radio_undetermined. unfold dgetE. rewrite Hp. cbn [bind].
  assert (is_one_of p ["802.11n"; "802.11ax"] && is_null (dgetN "band" r) && is_null (dgetN "hwmode" r)
      && py_eq (dgetN "channel" r) (VInt 0) = false) as ->.
  { destruct (is_one_of p _); [|reflexivity]. destruct (Hd eq_refl) as [-> |[Hn|Hn]].
    - apply andb_false_r.
    - destruct (dgetN "band" r); try reflexivity. congruence.
    - destruct (dgetN "hwmode" r); cbn; rewrite ?andb_false_r; try reflexivity. congruence. }
  apply IH. intros w Hw. apply H. right. assumption.
Qed.
Theorem C28_openwrt_rejected : forall schema_ok config radios, schema_like schema_ok ->
  (dget "radios" config = None /\ radios = [] \/ dget "radios" config = Some (VList radios)) ->
  (forall v, In v radios -> radio_determined v) ->
  (forall u, schema_ok config = Ok u ->
     exists files f, get_files config = Ok files /\ In f files /\ ~ acceptable_path f) ->
  exists m, owrt_validate schema_ok config = Err (EValidation m).
Proof.
  intros schema_ok config radios Hs Hr Hd Hrej.
  set (B := {| be_validate := base_validate schema_ok; be_convs := []; be_render := fun _ _ => Ok EmptyString;
               be_contents := fun _ => Ok []; be_ids := [] |}).
  destruct (C28_rejected oid0 B schema_ok [CValidate] (fresh config) Hs eq_refl Hrej) as [_ H].
  destruct (H 0%nat CValidate (AUnit (base_validate schema_ok config)) eq_refl ltac:(discriminate) eq_refl) as (m & Hm).
  assert (Hb : base_validate schema_ok config = Err (EValidation m)) by (destruct Hm as [Hm|[Hm|[Hm|Hm]]]; congruence).
  exists m. unfold owrt_validate, validate_radios, list_at.
  assert (E : (do l <- match dget "radios" config with Some v => as_list v | None => Ok [] end; validate_radios_list l) = Ok tt).
  { destruct Hr as [[-> ->]| ->]; cbn; [reflexivity|]. apply validate_radios_ok. assumption. }
  rewrite E. cbn [bind]. rewrite Hb. reflexivity.
Qed.
Print Assumptions C28_openwrt_rejected.

(** C30.  After a successful parse() the object holds exactly the parsed data, and
    its configuration is valid; every later successful render() shows those data. *)
Theorem C30_parse_keeps_data : forall oid B data s s' h i f a,
  parse oid B (Ok data) s = (s', Ok tt) ->
  nth_error h i = Some (CRender f) -> nth_error (snd (run oid B h s')) i = Some (AText (Ok a)) ->
  be_validate B (st_config s') = Ok tt /\ st_inter (fst (run oid B h s')) = Some data /\
  exists t x, be_render B (st_config (fst (run oid B h s'))) data = Ok t /\ a = t +++ x /\ (f = false -> x = EmptyString).
Proof.
  intros oid B data s s' h i f a Hp Hi Ha. destruct (parse_keeps _ _ _ _ _ Hp) as [H1 H2].
  split; [exact H2|]. pose proof (run_inter oid B h s' data H1) as H3. split; [exact H3|].
  destruct (history_settles oid B h s' i _ _ Hi Ha I) as (sf & Hs & Hsf & (s0 & Hst) & _).
  cbn in Hst. destruct (render oid B f s0) as [s1 r] eqn:E. injection Hst as -> ->.
  destruct (render_ok_settled _ _ _ _ _ _ E) as [_ Et]. rewrite Hsf in *.
  destruct f.
  - destruct (render_text_files _ _ _ Et) as (t0 & x & E0 & -> & _). unfold render_text in E0. rewrite H3 in E0.
    destruct (be_render B (st_config sf) data) as [t|] eqn:Er; cbn in E0; [|discriminate]. injection E0 as ->.
    exists t0, x. split; [reflexivity|]. split; [reflexivity|discriminate].
  - unfold render_text in Et. rewrite H3 in Et. destruct (be_render B (st_config sf) data) as [t|] eqn:Er; cbn in Et; [|discriminate].
    injection Et as ->. exists a, EmptyString. rewrite app_nil_s. auto.
Qed.
Print Assumptions C30_parse_keeps_data.
Definition native : string :=
  "package system" +++ NL +++ NL +++ "config system 'system'" +++ NL +++ TAB +++ "option hostname 'ap'" +++ NL +++
  NL +++ "package unknown" +++ NL +++ NL +++ "config t 'n'" +++ NL +++ TAB +++ "option a 'b'" +++ NL +++ TAB +++ "list l '1'" +++ NL.
Example C30_applies : exists s, owrt_parse oid0 owrt native (fresh []) = (s, Ok tt) /\
  nth_error (snd (run oid0 owrt [CRender false; CGenerate; CRender false] s)) 2 = Some (AText (Ok native)).
Proof. eexists. split; [vm_compute; reflexivity|]. vm_compute. reflexivity. Qed.

(** C49.  An error of render() is not remembered: the next call shows what was
    converted before the error, without complaint. *)
Definition broken : dict :=
  [("general", VDict [("hostname", VStr "ap1")]);
   ("interfaces", VList [VDict [("name", VStr "wg0"); ("type", VStr "wireguard"); ("private_key", VStr "k"); ("port", VInt 1)]])].
Theorem C49_error_forgotten : exists text,
  snd (run oid0 owrt [CRender false; CRender false] (fresh broken)) = [AText (Err (EKey "addresses")); AText (Ok text)] /\
  contains "hostname" text = true /\ contains "wg0" text = false.
Proof. eexists. split; [vm_compute; reflexivity|]. split; vm_compute; reflexivity. Qed.
Print Assumptions C49_error_forgotten.
(** It is remembered when it comes from validation: see C28_rejected.  And it
    never damages the configuration: see C27_settings_never_change, which covers
    failing calls. *)

(** C50.  An accepted configuration makes each port of a bridge primary in at
    most one VLAN; a repetition raises ValidationError. *)
Definition claims_of_vlan (v : val) : list val :=
  match v with
  | VDict d => match dget "ports" d with
               | Some (VList ports) =>
                   flat_map (fun p => match p with
                                      | VDict q => if truthy (dgetN "primary_vid" q) then [dgetN "ifname" q] else []
                                      | _ => []
                                      end) ports
               | _ => []
               end
  | _ => []
  end.
Definition primary_claims (bridge : dict) : list val :=
  match dget "vlan_filtering" bridge with Some (VList l) => flat_map claims_of_vlan l | _ => [] end.
Definition distinct (l : list val) : Prop :=
  forall i j x y, (i < j)%nat -> nth_error l i = Some x -> nth_error l j = Some y -> py_eq x y = false.
Lemma distinct_snoc l x : distinct l -> py_in x l = false -> distinct (l ++ [x]).
Proof.
  intros H Hx i j a b L Ha Hb.
  destruct (Nat.lt_ge_cases j (length l)) as [Lj|Lj].
  - rewrite nth_error_app1 in Ha, Hb by lia. exact (H i j a b L Ha Hb).
  - rewrite nth_error_app2 in Hb by lia. destruct (j - length l)%nat as [|n] eqn:Ej; [|destruct n; discriminate].
    injection Hb as ->. rewrite nth_error_app1 in Ha by lia. apply nth_error_In in Ha.
    destruct (py_eq a b) eqn:E; [|reflexivity]. unfold py_in in Hx. rewrite <- not_true_iff_false in Hx.
    exfalso. apply Hx. apply existsb_exists. eauto.
Qed.
Lemma check_ports_distinct : forall l seen r, check_ports l seen = Ok r ->
  r = (seen ++ claims_of_vlan (VDict [("ports", VList l)]))%list /\ (distinct seen -> distinct r).
Proof.
  induction l as [|v t IH]; intros seen r H; cbn in H.
  - injection H as <-. cbn. rewrite app_nil_r. auto.
  - apply bind_Ok in H as (p & Hp & H). destruct v as [| | | | | |d]; try discriminate. injection Hp as ->.
    cbn [claims_of_vlan dget String.eqb Ascii.eqb Bool.eqb flat_map] in *.
    destruct (truthy (dgetN "primary_vid" p)) eqn:Et.
    + apply bind_Ok in H as (f & Hf & H). destruct (py_in f seen) eqn:Ein; [discriminate|].
      assert (dgetN "ifname" p = f) as ->.
      { unfold dgetE in Hf. unfold dgetN. destruct (dget "ifname" p); [injection Hf as ->; reflexivity|discriminate]. }
      apply IH in H as [-> Hd]. rewrite <- app_assoc. split; [reflexivity|]. intros Hs.
      rewrite <- app_assoc in Hd. apply Hd. apply distinct_snoc; assumption.
    + apply IH in H as [-> Hd]. auto.
Qed.
Lemma list_at_get key d l : list_at key d = Ok l -> (dget key d = None /\ l = []) \/ dget key d = Some (VList l).
Proof.
  unfold list_at. destruct (dget key d) as [v|]; [|intros H; injection H as <-; auto].
  destruct v; try discriminate. intros H. injection H as ->. auto.
Qed.
Lemma check_vlans_distinct : forall l seen, check_vlans l seen = Ok tt -> distinct seen ->
  distinct (seen ++ flat_map claims_of_vlan l).
Proof.
  induction l as [|v t IH]; intros seen H Hs; cbn in *; [rewrite app_nil_r; assumption|].
  apply bind_Ok in H as (d & Hd & H). destruct v as [| | | | | |d']; try discriminate. injection Hd as ->.
  apply bind_Ok in H as (ports & Hp & H). apply bind_Ok in H as (seen' & Hc & H).
  apply check_ports_distinct in Hc as [-> Hd]. rewrite app_assoc.
  assert (claims_of_vlan (VDict d) = claims_of_vlan (VDict [("ports", VList ports)])) as ->.
  { apply list_at_get in Hp as [[E ->]|E]; cbn; rewrite E; reflexivity. }
  apply IH; [exact H|]. apply Hd. assumption.
Qed.
Theorem C50_one_primary_vlan : forall schema_ok config interfaces b,
  owrt_validate schema_ok config = Ok tt ->
  dget "interfaces" config = Some (VList interfaces) -> In (VDict b) interfaces ->
  dget "type" b = Some (VStr "bridge") -> distinct (primary_claims b).
Proof.
  intros schema_ok config interfaces b H Hi Hb Ht. unfold owrt_validate in H.
  apply bind_Ok in H as (u1 & _ & H). apply bind_Ok in H as (u2 & _ & H). apply bind_Ok in H as (l & Hl & H).
  unfold list_at in Hl. rewrite Hi in Hl. injection Hl as <-. clear Hi.
  induction interfaces as [|v t IH]; [destruct Hb|]. cbn in H. apply bind_Ok in H as (d & Hd & H).
  apply bind_Ok in H as (u & Hu & H). destruct Hb as [->|Hb]; [|apply IH; assumption].
  injection Hd as <-. unfold dgetN in Hu. rewrite Ht in Hu. cbn in Hu.
  apply bind_Ok in Hu as (vl & Hv & Hc). destruct u.
  assert (Hnil : distinct []) by (intros i j x y _ E; destruct i; discriminate).
  unfold primary_claims. apply list_at_get in Hv as [[-> ->]| ->]; [exact Hnil|].
  apply (check_vlans_distinct vl [] Hc Hnil).
Qed.
Print Assumptions C50_one_primary_vlan.
(** A bridge with well-formed VLANs and a repetition is rejected with
    ValidationError; without repetition it passes. *)
Definition port_ok (p : val) : Prop := exists q f, p = VDict q /\ dget "ifname" q = Some f.
Definition vlan_ok (v : val) : Prop :=
  exists d, v = VDict d /\ (dget "ports" d = None \/ exists l, dget "ports" d = Some (VList l) /\ forall p, In p l -> port_ok p).
Lemma check_ports_complete : forall l seen, (forall p, In p l -> port_ok p) ->
  (exists r, check_ports l seen = Ok r) \/ (exists m, check_ports l seen = Err (EValidation m) /\
    ~ distinct (seen ++ claims_of_vlan (VDict [("ports", VList l)]))).
Proof.
  induction l as [|v t IH]; intros seen H; cbn; [eauto|].
  destruct (H v (or_introl eq_refl)) as (q & f & -> & Hf). cbn [as_dict bind].
  assert (Ht : forall p, In p t -> port_ok p) by (intros p Hp; apply H; right; assumption).
  destruct (truthy (dgetN "primary_vid" q)) eqn:Et; [|apply IH, Ht].
  unfold dgetE, dgetN. rewrite Hf. cbn [bind]. destruct (py_in f seen) eqn:Ein.
  - right. eexists. split; [reflexivity|]. intros Hd.
    unfold py_in in Ein. apply existsb_exists in Ein as (x & Hx & Ex). apply In_nth_error in Hx as [i Hi].
    assert (L : (i < length seen)%nat) by (apply nth_error_Some; congruence).
    specialize (Hd i (length seen) x f L). rewrite nth_error_app1 in Hd by assumption.
    rewrite nth_error_app2, Nat.sub_diag in Hd by lia. rewrite (Hd Hi eq_refl) in Ex. discriminate.
  - destruct (IH (seen ++ [f])%list Ht) as [IH'|(m & E & Hn)]; [left; exact IH'|].
    right. exists m. split; [exact E|]. rewrite <- app_assoc in Hn. exact Hn.
Qed.
Lemma distinct_app_l l1 l2 : distinct (l1 ++ l2) -> distinct l1.
Proof.
  intros H i j x y L Hx Hy. apply (H i j x y L); rewrite nth_error_app1; try assumption;
    apply nth_error_Some; congruence.
Qed.
Lemma check_vlans_complete : forall l seen, (forall v, In v l -> vlan_ok v) -> distinct seen ->
  (check_vlans l seen = Ok tt /\ distinct (seen ++ flat_map claims_of_vlan l)) \/
  (exists m, check_vlans l seen = Err (EValidation m) /\ ~ distinct (seen ++ flat_map claims_of_vlan l)).
Proof.
  induction l as [|v t IH]; intros seen H Hs; cbn; [rewrite app_nil_r; auto|].
  destruct (H v (or_introl eq_refl)) as (d & -> & Hp). cbn [as_dict bind].
  assert (Ht : forall p, In p t -> vlan_ok p) by (intros p Hp'; apply H; right; assumption).
  assert (G : exists ports, list_at "ports" d = Ok ports /\ (forall p, In p ports -> port_ok p) /\
     claims_of_vlan (VDict d) = claims_of_vlan (VDict [("ports", VList ports)])).
  { unfold list_at. destruct Hp as [E|(l & E & Hl)]; rewrite E; cbn [as_list].
    - exists []. repeat split; [intros p []|cbn; rewrite E; reflexivity].
    - exists l. repeat split; [assumption|]. cbn. rewrite E. reflexivity. }
  destruct G as (ports & -> & Hports & Hcl). cbn [bind].
  destruct (check_ports_complete ports seen Hports) as [(r & E)|(m & E & Hn)]; rewrite E; cbn [bind].
  - apply check_ports_distinct in E as [-> Hd]. specialize (IH (seen ++ claims_of_vlan (VDict [("ports", VList ports)]))%list Ht (Hd Hs)).
    rewrite <- Hcl, <- app_assoc in IH. rewrite <- Hcl. exact IH.
  - right. exists m. split; [reflexivity|]. rewrite <- Hcl in Hn. intros Hd. apply Hn.
    rewrite app_assoc in Hd. eapply distinct_app_l. exact Hd.
Qed.
Theorem C50_decides : forall schema_ok config b vlans,
  validate_radios config = Ok tt -> base_validate schema_ok config = Ok tt ->
  dget "interfaces" config = Some (VList [VDict b]) -> dget "type" b = Some (VStr "bridge") ->
  dget "vlan_filtering" b = Some (VList vlans) -> (forall v, In v vlans -> vlan_ok v) ->
  (distinct (primary_claims b) -> owrt_validate schema_ok config = Ok tt) /\
  (~ distinct (primary_claims b) -> exists m, owrt_validate schema_ok config = Err (EValidation m)).
Proof.
  intros schema_ok config b vlans H1 H2 Hi Ht Hv Hok. unfold owrt_validate. rewrite H1, H2. cbn [bind].
  unfold list_at at 1 2. rewrite Hi. cbn [as_list bind check_interfaces as_dict]. unfold dgetN. rewrite Ht. cbn [py_eq].
  change (String.eqb "bridge" "bridge") with true. cbn [bind]. unfold list_at. rewrite Hv. cbn [as_list bind].
  unfold primary_claims. rewrite Hv.
  assert (Hnil : distinct []) by (intros i j x y _ E; destruct i; discriminate).
  destruct (check_vlans_complete vlans [] Hok Hnil) as [(E & Hd)|(m & E & Hn)]; rewrite E; cbn [bind app] in *.
  - split; [reflexivity|]. intros Hn. contradiction.
  - split; [intros Hd; contradiction|]. intros _. exists m. reflexivity.
Qed.
Print Assumptions C50_decides.
Example C50_applies :
  let port n := VDict [("ifname", VStr n); ("tagging", VStr "u"); ("primary_vid", VBool true)] in
  let vlan i ports := VDict [("vlan", VInt i); ("ports", VList ports)] in
  let config vlans := [("interfaces", VList [VDict [("type", VStr "bridge"); ("name", VStr "br0"); ("vlan_filtering", VList vlans)]])] in
  owrt_validate accept (config [vlan 1%Z [port "lan1"; port "lan2"]; vlan 2%Z [port "lan3"]]) = Ok tt /\
  owrt_validate accept (config [vlan 1%Z [port "lan1"; port "lan2"]; vlan 2%Z [port "lan1"]])
    = Err (EValidation "Primary VID can be set only one VLAN for a port.").
Proof. vm_compute. auto. Qed.
