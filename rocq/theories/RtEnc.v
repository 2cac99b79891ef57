(** * RtEnc: the round trip of the encryption of wireless interfaces (proofs only). *)
From Verif Require Import PyBase PyLemmas StrLemmas NumLemmas Merge Backend Conv OwrtConv OwrtWireless SpecUci SpecConv SpecDevice
  SpecShapes SpecEncryption ConvLemmas SortLemmas RtStage RtBack RtGeneric RtSystem RtNetwork RtRadio RtAddress.

Lemma dget_ddel_all k : forall ks (d : dict), NoDup (dkeys d) ->
  NoDup (dkeys (ddel_all ks d)) /\ dget k (ddel_all ks d) = if existsb (String.eqb k) ks then None else dget k d.
Proof.
  unfold ddel_all. induction ks as [|a ks IH]; intros d Hd; cbn [fold_left existsb]; [auto|].
  destruct (IH (ddel a d)) as [H1 H2]; [nodup|]. split; [exact H1|]. rewrite H2. dg.
  destruct (String.eqb k a), (existsb (String.eqb k) ks); reflexivity.
Qed.
Lemma NoDup_copy_opt k d k' e : NoDup (dkeys e) -> NoDup (dkeys (copy_opt k d k' e)).
Proof. intros H. unfold copy_opt. destruct (dget k d); nodup. Qed.
Lemma dget_copy_opt j k d k' (e : dict) : dget j (copy_opt k d k' e) =
  if String.eqb j k' then match dget k d with Some v => Some v | None => dget j e end else dget j e.
Proof.
  unfold copy_opt. destruct (dget k d); [dg; reflexivity|]. destruct (String.eqb j k'); reflexivity.
Qed.

(** ** The tables *)
Record protocol_facts (p u : string) : Prop := {
  pf_wep : startswith "wep" p = is_wep p;
  pf_ent : contains "enterprise" p = is_enterprise p;
  pf_wpa : startswith "wpa" p = has_ciphers p;
  pf_uci : dget p enc_protocols = Some u;
  pf_back : is_wps p = false -> dget u enc_protocols_back = Some p;
  pf_wps : is_wps p = true -> is_wep p = false /\ is_enterprise p = false /\ has_ciphers p = false /\ p = "wps";
  pf_wep' : startswith "wep" u = is_wep p;
  pf_ent' : is_enterprise p = true -> is_wep p = false;
  pf_none : String.eqb p "none" = false;
  pf_none' : String.eqb u "none" = false;
  pf_split : split_plus u = None;
  pf_split' : forall c, split_plus (u +++ "+" +++ c) = Some (u, c);
  pf_bare : bare u;
  pf_word : u <> EmptyString;
  pf_none2 : forall c, String.eqb (u +++ "+" +++ c) "none" = false
}.
Lemma protocols_known p : dmem p protocols = true -> exists u, dget p protocols = Some u /\ protocol_facts p u.
Proof.
  unfold dmem, protocols. cbn [dget].
  repeat match goal with |- context [String.eqb p ?s] => destruct (String.eqb_spec p s) as [->|?];
    [intros _; eexists; split; [reflexivity|constructor; try reflexivity; try discriminate; try (intros; reflexivity); auto]|] end.
  discriminate.
Qed.

Lemma dmem_false (k : string) (d : dict) : dmem k d = false -> dget k d = None.
Proof. unfold dmem. destruct (dget k d); [discriminate|reflexivity]. Qed.
Lemma not_allowed (k : string) (e : dict) l : (forall j, dmem j e = true -> In j l) -> existsb (String.eqb k) l = false -> dget k e = None.
Proof.
  intros H Hk. apply dmem_false. destruct (dmem k e) eqn:E; [|reflexivity]. exfalso.
  apply H in E. assert (existsb (String.eqb k) l = true) by (apply existsb_exists; exists k; split; [exact E|apply eqb_refl]). congruence.
Qed.

Definition enc_shows (ap : bool) (e uci : dict) : Prop := shows uci e (encryption_own ap e).

Lemma enc_section_ok mode ap e : py_eq mode (VStr "ap") = ap -> encryption_ok ap e ->
  exists uci, enc_section mode e = Ok uci /\ NoDup (dkeys uci) /\ enc_shows ap e uci.
Proof.
  intros Hm [->|(Hnd & p & Hp & Hpm & Hal & Hf & Hc & Hw & Hent)].
  { eexists. split; [reflexivity|]. split; [repeat constructor; cbn; tauto|]. intros k. cbn. fields k; reflexivity. }
  unfold text in Hp. destruct (protocols_known p Hpm) as (u & Hu & F).
  assert (Hdis : dget "disabled" e = None).
  { eapply not_allowed; [exact Hal|]. destruct (is_wps p), (is_enterprise p && ap); reflexivity. }
  unfold enc_section. assert (Ht : truthy (VDict e) = true) by (destruct e; [discriminate|reflexivity]).
  rewrite Ht. unfold dgetN at 1. rewrite Hdis. cbn [negb orb truthy]. unfold dgetE at 1. rewrite Hp. cbn [bind].
  rewrite py_eq_text, (pf_none _ _ F). cbn [as_str bind]. rewrite (pf_uci _ _ F), (pf_wep _ _ F), (pf_ent _ _ F), (pf_wpa _ _ F).
  set (uci0 := ddel_all _ e). assert (H0 : NoDup (dkeys uci0)) by (apply (dget_ddel_all "x"), Hnd).
  assert (G0 : forall k, dget k uci0 = if existsb (String.eqb k) ["protocol"; "key"; "cipher"; "disabled"; "acct_server_port"] then None else dget k e).
  { intros k. apply (dget_ddel_all k), Hnd. }
  set (uci1 := dset "encryption" (VStr u) uci0). assert (H1 : NoDup (dkeys uci1)) by (unfold uci1; nodup).
  assert (Hkey1 : dget "key1" e = None).
  { eapply not_allowed; [exact Hal|]. destruct (is_wps p), (is_enterprise p && ap); reflexivity. }
  (* the settings without the cipher *)
  match goal with |- context [bind ?m _] => assert (Hmid : exists uci2, m = Ok uci2 /\ NoDup (dkeys uci2) /\
    forall k, dget k uci2 = if String.eqb k "encryption" then Some (VStr u) else
      match dget k (tl (encryption_own ap e)) with Some o => o | None => dget k e end) end.
  { unfold encryption_own. rewrite Hp, (pf_none _ _ F). destruct (is_wep p) eqn:Ew.
    - destruct (Hw eq_refl) as (key & Hk & _). unfold dgetE. rewrite Hk. cbn [bind py_str].
      eexists. split; [reflexivity|]. split; [nodup|]. intros k. dg. unfold uci1. dg. rewrite G0. cbn [tl app dget existsb].
      rewrite orb_false_r.
      assert (Hasp : dget "acct_server_port" e = None).
      { eapply not_allowed; [exact Hal|]. destruct (is_enterprise p) eqn:Ee; [rewrite (pf_ent' _ _ F) in Ew by exact Ee; discriminate|].
        destruct (is_wps p); reflexivity. }
      fields k; cbn [orb]; try reflexivity; try congruence.
      destruct (String.eqb p "wep_open"); reflexivity.
    - destruct (is_enterprise p) eqn:Ee; cbn [andb].
      + destruct (Hent eq_refl) as (Hkey & Hacct & Htls). unfold enc_enterprise.
        assert (Eauth : (if py_eq (dgetN "eap_type" uci1) (VStr "tls") && ("auth" in? uci1) then ddel "auth" uci1 else uci1) = uci1).
        { unfold dgetN. replace (dget "eap_type" uci1) with (dget "eap_type" e) by (unfold uci1; dg; rewrite G0; reflexivity).
          match goal with |- context [py_eq ?a (VStr "tls")] => destruct (py_eq a (VStr "tls")) eqn:Epy end; [|reflexivity].
          assert (Et : dget "eap_type" e = text "tls").
          { destruct (dget "eap_type" e) as [v|]; [|discriminate]. destruct v; try discriminate. rewrite py_eq_text in Epy.
            apply String.eqb_eq in Epy. subst. reflexivity. }
          cbn [andb]. unfold dmem. unfold uci1. dg. rewrite G0. cbn. rewrite (Htls Et). reflexivity. }
        rewrite Eauth, Hm. destruct ap.
        * specialize (Hkey eq_refl). unfold dgetE. destruct (dget "key" e) as [kv|] eqn:Ek; [|unfold dmem in Hkey; rewrite Ek in Hkey; discriminate].
          cbn [bind]. eexists. split; [reflexivity|]. split.
          { repeat apply NoDup_copy_opt. destruct ("acct_secret" in? e); nodup; repeat apply NoDup_copy_opt; exact H1. }
          assert (Hasp : forall k, In k ["auth_server"; "auth_port"; "acct_port"; "auth_secret"] -> dget k e = None).
          { intros k Hin. eapply not_allowed; [exact Hal|]. cbn in Hin. destruct (is_wps p); repeat (destruct Hin as [<-|Hin]; [reflexivity|]); destruct Hin. }
          intros k. rewrite !dget_copy_opt.
          replace (dget k (if "acct_secret" in? e then _ else _)) with
            (if String.eqb k "acct_secret" then match dget "acct_secret" e with Some v => Some v | None => Some kv end else
             if String.eqb k "auth_secret" then Some kv else dget k (copy_opt "port" e "auth_port" (copy_opt "server" e "auth_server" uci1))).
          2:{ unfold dmem. destruct (dget "acct_secret" e) as [av|] eqn:Ea; dg; [|fields k; reflexivity].
              fields k; try reflexivity. rewrite !dget_copy_opt. ev. unfold uci1. dg. rewrite G0. ev. cbn. rewrite Ea. reflexivity. }
          rewrite !dget_copy_opt. unfold uci1. dg. rewrite G0. cbn [tl app dget existsb]. rewrite !orb_false_r. rewrite Ek.
          fields k; cbn [orb]; try reflexivity;
            try (first [rewrite (Hasp "acct_port") by (cbn; tauto) | rewrite (Hasp "auth_port") by (cbn; tauto) | rewrite (Hasp "auth_server") by (cbn; tauto)];
                 match goal with |- match ?o with _ => _ end = _ => destruct o end; reflexivity); try congruence.
        * cbn [bind]. eexists. split; [reflexivity|]. split; [apply NoDup_copy_opt, H1|].
          intros k. rewrite dget_copy_opt. unfold uci1. dg. rewrite G0. cbn [tl app dget existsb]. rewrite !orb_false_r.
          assert (Hasp : dget "acct_server_port" e = None) by (eapply not_allowed; [exact Hal|]; destruct (is_wps p); reflexivity).
          fields k; cbn [orb]; try reflexivity; try congruence. destruct (dget "key" e); reflexivity.
      + cbn [bind]. eexists. split; [reflexivity|]. split; [apply NoDup_copy_opt, H1|].
        intros k. rewrite dget_copy_opt. unfold uci1. dg. rewrite G0. cbn [tl app dget existsb]. rewrite !orb_false_r.
        assert (Hasp : dget "acct_server_port" e = None) by (eapply not_allowed; [exact Hal|]; destruct (is_wps p); reflexivity).
        fields k; cbn [orb]; try reflexivity; try congruence. destruct (dget "key" e); reflexivity. }
  destruct Hmid as (uci2 & -> & H2 & G2). cbn [bind].
  set (cipher := dgetN "cipher" e).
  assert (Htail : exists o, encryption_own ap e = ("encryption", o) :: tl (encryption_own ap e) /\
     o = text (if has_ciphers p && (truthy cipher && negb (py_eq cipher (VStr "auto"))) then u +++ "+" +++ py_str cipher else u)).
  { unfold encryption_own. rewrite Hp, (pf_none _ _ F), Hu. eexists. split; [reflexivity|]. unfold cipher, dgetN.
    destruct (is_wps p) eqn:Ewps.
    - destruct (pf_wps _ _ F Ewps) as (_ & _ & -> & _). destruct Hc as [-> _]. reflexivity.
    - destruct Hc as (c & -> & Hcw & _). rewrite truthy_text by apply Hcw. rewrite py_eq_text. reflexivity. }
  destruct Htail as (o & Ht1 & Ho).
  exists (if truthy cipher && has_ciphers p && negb (py_eq cipher (VStr "auto")) then dset "encryption" (VStr (u +++ "+" +++ py_str cipher)) uci2 else uci2).
  split; [reflexivity|]. split; [apply NoDup_if_dset; exact H2|].
  intros k. rewrite dget_if_dset, Ht1. cbn [dget]. rewrite Ho, G2.
  destruct (truthy cipher), (has_ciphers p), (negb (py_eq cipher (VStr "auto"))); cbn [andb]; rewrite ?andb_true_r, ?andb_false_r; cbn [andb];
    destruct (String.eqb k "encryption"); reflexivity.
Qed.

(** ** Reading back *)
Definition discrete (v : val) : Prop := match v with VFloat _ => False | _ => True end.
Lemma uci_truthy v u : discrete v -> uci_value v = Some u -> truthy u = true.
Proof.
  destruct v as [|b|z|q|s|l|d]; cbn; intros Hd; try discriminate; try contradiction.
  - intros H. injection H as <-. destruct b; reflexivity.
  - intros H. injection H as <-. apply truthy_text, string_of_Z_nonempty.
  - destruct s; [discriminate|]. intros H. injection H as <-. reflexivity.
  - destruct l; [discriminate|]. intros H. injection H as <-. reflexivity.
  - destruct d; [discriminate|]. intros H. injection H as <-. reflexivity.
Qed.
Lemma survives_discrete t v : survives t v -> discrete v.
Proof. destruct t as [[]|], v; cbn; tauto. Qed.
Lemma move_keys_ok : forall keys s w, NoDup (dkeys s) -> NoDup (dkeys w) ->
  (forall k v, dget k w = Some v -> In k keys -> truthy v = true) ->
  exists s1 w1, fold_left move_key keys (s, w) = (s1, w1) /\ NoDup (dkeys s1) /\ NoDup (dkeys w1) /\
    (forall k, dget k s1 = if existsb (String.eqb k) keys then match dget k w with Some v => Some v | None => dget k s end else dget k s) /\
    (forall k, dget k w1 = if existsb (String.eqb k) keys then None else dget k w).
Proof.
  induction keys as [|a keys IH]; intros s w Hs Hw Ht; cbn [fold_left existsb].
  - exists s, w. repeat split; assumption || reflexivity.
  - unfold move_key at 2. unfold dgetN. destruct (dget a w) as [v|] eqn:E.
    + rewrite (Ht a v E (or_introl eq_refl)).
      destruct (IH (dset a v s) (ddel a w)) as (s1 & w1 & E1 & N1 & N2 & G1 & G2); [nodup|nodup| |].
      { intros k x. dg. destruct (String.eqb k a); [discriminate|]. intros Hx Hin. eapply Ht; [exact Hx|right; exact Hin]. }
      exists s1, w1. split; [exact E1|]. split; [exact N1|]. split; [exact N2|]. split; intros k; [rewrite G1|rewrite G2]; dg;
        (destruct (String.eqb_spec k a) as [->|]; cbn [orb]; [rewrite ?E; destruct (existsb _ keys); reflexivity|reflexivity]).
    + cbn [truthy]. destruct (IH s w) as (s1 & w1 & E1 & N1 & N2 & G1 & G2); [exact Hs|exact Hw| |].
      { intros k x Hx Hin. eapply Ht; [exact Hx|right; exact Hin]. }
      exists s1, w1. split; [exact E1|]. split; [exact N1|]. split; [exact N2|]. split; intros k; [rewrite G1|rewrite G2];
        (destruct (String.eqb_spec k a) as [->|]; cbn [orb]; [rewrite ?E; destruct (existsb _ keys); reflexivity|reflexivity]).
Qed.
Lemma int_fields_ok (T : string -> option val) : forall ks d, NoDup (dkeys d) ->
  (forall k, In k ks -> match dget k d with Some u => exists z, py_int u = Ok z /\ T k = Some (VInt z) | None => T k = None end) ->
  exists d', foldM int_field d ks = Ok d' /\ NoDup (dkeys d') /\ forall k, dget k d' = if existsb (String.eqb k) ks then T k else dget k d.
Proof.
  induction ks as [|a ks IH]; intros d Hd H; cbn [foldM existsb]; [eauto|].
  unfold int_field at 1. pose proof (H a (or_introl eq_refl)) as Ha. destruct (dget a d) as [u|] eqn:E.
  - destruct Ha as (z & Hz & HT). rewrite Hz. cbn [bind]. destruct (IH (dset a (VInt z) d)) as (d' & E' & N' & G').
    + nodup.
    + intros k Hk. rewrite dget_dset. destruct (String.eqb_spec k a) as [->|]; [exists z; split; [reflexivity|exact HT]|]. apply H. right. exact Hk.
    + exists d'. split; [exact E'|]. split; [exact N'|]. intros k. rewrite G', dget_dset. destruct (String.eqb_spec k a) as [->|]; cbn [orb]; [|reflexivity].
      destruct (existsb _ ks); congruence.
  - cbn [bind]. destruct (IH d Hd) as (d' & E' & N' & G'); [intros k Hk; apply H; right; exact Hk|].
    exists d'. split; [exact E'|]. split; [exact N'|]. intros k. rewrite G'. destruct (String.eqb_spec k a) as [->|]; cbn [orb]; [|reflexivity].
    destruct (existsb _ ks); congruence.
Qed.
Lemma bool_fields_ok : forall ks d, NoDup ks -> NoDup (dkeys d) ->
  NoDup (dkeys (fold_left bool_field ks d)) /\
  forall k, dget k (fold_left bool_field ks d) = if existsb (String.eqb k) ks then option_map (fun v => VBool (py_eq v (VStr "1"))) (dget k d) else dget k d.
Proof.
  induction ks as [|a ks IH]; intros d Hk Hd; cbn [fold_left existsb]; [auto|].
  inversion Hk as [|? ? Hna Hk']; subst.
  assert (Eb : bool_field d a = match dget a d with Some v => dset a (VBool (py_eq v (VStr "1"))) d | None => d end) by reflexivity.
  assert (Ha : existsb (String.eqb a) ks = false).
  { apply Bool.not_true_iff_false. intros X. apply existsb_exists in X as (x & Hx & Ex). apply String.eqb_eq in Ex. subst. contradiction. }
  destruct (dget a d) as [v|] eqn:E; rewrite Eb.
  - destruct (IH (dset a (VBool (py_eq v (VStr "1"))) d) Hk') as [N G]; [nodup|]. split; [exact N|].
    intros k. rewrite G, dget_dset. destruct (String.eqb_spec k a) as [->|]; cbn [orb]; [|reflexivity]. rewrite Ha, E. reflexivity.
  - destruct (IH d Hk' Hd) as [N G]. split; [exact N|]. intros k. rewrite G.
    destruct (String.eqb_spec k a) as [->|]; cbn [orb]; [|reflexivity]. rewrite Ha, E. reflexivity.
Qed.
Lemma enc_typecast_ok e s : NoDup (dkeys e) -> fields_survive encryption_fields [] e -> NoDup (dkeys s) ->
  (forall k, dget k s = uopt (dget k e)) ->
  exists e', enc_typecast s = Ok e' /\ NoDup (dkeys e') /\ forall k, dget k e' = dget k e.
Proof.
  intros Hnd Hf Hs G. unfold enc_typecast.
  destruct (int_fields_ok (fun k => dget k e) ["port"; "acct_server_port"; "dae_port"; "acct_interval"] s Hs) as (d' & -> & N' & G').
  { intros k Hk. rewrite G. destruct (dget k e) as [v|] eqn:E; [|reflexivity].
    destruct (Hf k v (dget_In _ _ _ E) (fun x => x)) as (_ & _ & Hsv).
    assert (Hj : dget k encryption_fields = Some JInt) by (cbn in Hk; decompose [or] Hk; subst; try reflexivity; contradiction).
    rewrite Hj in Hsv. destruct v; try contradiction. cbn. rewrite int_of_string_Z. eauto. }
  cbn [bind]. destruct (bool_fields_ok ["wps_label"; "wps_pushbutton"] d') as [N2 G2]; [repeat constructor; cbn; intuition discriminate|exact N'|].
  eexists. split; [reflexivity|]. split; [exact N2|]. intros k. rewrite G2, G', G.
  pose proof (field_back _ _ _ k Hnd Hf (fun x => x)) as B. fold (uopt (dget k e)) in B.
  destruct (existsb (String.eqb k) ["wps_label"; "wps_pushbutton"]) eqn:E1.
  - assert (Hj : dget k encryption_fields = Some JBool /\ existsb (String.eqb k) ["port"; "acct_server_port"; "dae_port"; "acct_interval"] = false).
    { cbn in E1. rewrite orb_false_r in E1. apply orb_prop in E1 as [E1|E1]; apply String.eqb_eq in E1; subst; split; reflexivity. }
    destruct Hj as [Hj ->]. rewrite Hj in B. destruct (uopt (dget k e)) as [u|] eqn:Eu; cbn [option_map]; [|congruence].
    destruct B as (v & Hv & Hke). rewrite Hke. destruct (Hf k v (dget_In _ _ _ Hke) (fun x => x)) as (_ & _ & Hsv). rewrite Hj in Hsv.
    rewrite Hke in Eu. destruct v; try contradiction. cbn in Eu. injection Eu as <-. destruct b; reflexivity.
  - destruct (existsb (String.eqb k) ["port"; "acct_server_port"; "dae_port"; "acct_interval"]) eqn:E2; [reflexivity|].
    assert (Hj : dget k encryption_fields = None).
    { cbn in E1, E2 |- *. repeat (apply orb_false_iff in E1 as [? E1]). repeat (apply orb_false_iff in E2 as [? E2]).
      repeat match goal with H : String.eqb k _ = false |- _ => rewrite H; clear H end. reflexivity. }
    rewrite Hj in B. destruct (uopt (dget k e)); [|congruence]. destruct B as (v' & Hv & ->). cbn in Hv. congruence.
Qed.

Definition enc_names : list string := "encryption" :: "key1" :: "ieee80211w" :: encryption_keys.
Lemma existsb_in k l : existsb (String.eqb k) l = true <-> In k l.
Proof.
  rewrite existsb_exists. split; [intros (x & Hx & E); apply String.eqb_eq in E; subst; exact Hx|].
  intros H. exists k. split; [exact H|apply eqb_refl].
Qed.
Lemma uopt_text s : s <> EmptyString -> uopt (text s) = Some (VStr s).
Proof. intros H. unfold uopt, text. apply uci_text, H. Qed.
(** The values of the section *)
Lemma enc_discrete ap e uci k v : encryption_ok ap e -> enc_shows ap e uci -> dget k uci = Some v -> discrete v.
Proof.
  intros [->|(Hnd & p & Hp & Hpm & Hal & Hf & _)] Hsh; rewrite (Hsh k).
  { cbn. fields k; intros Hk; try discriminate Hk. injection Hk as <-. exact I. }
  assert (He : forall j x, dget j e = Some x -> discrete x).
  { intros j x Hj. destruct (Hf j x (dget_In _ _ _ Hj) (fun x => x)) as (_ & _ & Hs). eapply survives_discrete, Hs. }
  destruct (protocols_known p Hpm) as (u & Hu & F).
  unfold encryption_own. rewrite Hp. unfold text. rewrite (pf_none _ _ F), Hu. cbn [dget app].
  field k "encryption"; [destruct (dget "cipher" e) as [[]|]; intros Hk; injection Hk as <-; exact I|].
  destruct (is_wep p).
  - cbn [dget]. fields k; try discriminate; try apply He; [intros Hk; injection Hk as <-; exact I|].
    destruct (dget "key" e) as [[]|]; intros Hk; try discriminate; injection Hk as <-; exact I.
  - destruct (is_enterprise p && ap); cbn [dget]; fields k; try discriminate; try apply He.
    destruct (dget "acct_secret" e) eqn:E; [intros Hk; injection Hk as <-; eapply He; exact E|apply He].
Qed.

(** Texts and lists of texts are read as they are. *)
Lemma survives_same v : survives None v -> uci_value v = Some v.
Proof. intros H. destruct (survives_read _ _ H) as (u & Hu & Hc). cbn in Hc. congruence. Qed.
Lemma survives_wf v : survives None v -> wf v.
Proof.
  destruct v; cbn; try tauto. intros [_ H]. apply wf_list. intros v Hv. destruct (H v Hv) as (s & -> & _). exact I.
Qed.
Lemma survives_py_eq v w : survives None v -> survives None w -> py_eq v w = true -> v = w.
Proof.
  destruct v as [| | | |s|l|], w as [| | | |s'|l'|]; cbn [survives]; try tauto; try discriminate.
  - intros _ _ H. cbn in H. apply String.eqb_eq in H. congruence.
  - intros [_ H1] [_ H2] H. f_equal. cbn [py_eq] in H. revert l' H1 H2 H. induction l as [|x l IH]; intros [|y l'] H1 H2 H; try discriminate; [reflexivity|].
    apply andb_prop in H as [Hx H]. destruct (H1 x (or_introl eq_refl)) as (a & -> & _). destruct (H2 y (or_introl eq_refl)) as (b & -> & _).
    cbn in Hx. apply String.eqb_eq in Hx. subst b. f_equal. apply IH; [intros z Hz; apply H1; right; exact Hz|intros z Hz; apply H2; right; exact Hz|exact H].
Qed.
(** The settings of an enterprise protocol *)
Lemma enterprise_back (ap : bool) e s : NoDup (dkeys s) -> (forall k v, dget k e = Some v -> survives (dget k encryption_fields) v) ->
  (forall k, In k ["auth_server"; "auth_port"; "auth_secret"; "acct_port"] -> dget k e = None) ->
  (ap = false -> dget "acct_server_port" e = None) -> (ap = true -> dmem "key" e = true) ->
  (dmem "acct_secret" e = true -> dget "acct_secret" e <> dget "key" e) ->
  (forall k, dget k s = uopt (if ap then
      if String.eqb k "auth_server" then dget "server" e else if String.eqb k "auth_port" then dget "port" e
      else if String.eqb k "auth_secret" then dget "key" e
      else if String.eqb k "acct_secret" then (match dget "acct_secret" e with Some v => Some v | None => dget "key" e end)
      else if String.eqb k "acct_port" then dget "acct_server_port" e else if String.eqb k "acct_server_port" then None
      else if String.eqb k "ieee80211w" then None else dget k e
    else if String.eqb k "ieee80211w" then None else dget k e)) ->
  NoDup (dkeys (enc_enterprise_back s)) /\ forall k, dget k (enc_enterprise_back s) = if String.eqb k "ieee80211w" then None else uopt (dget k e).
Proof.
  intros Hs Hsv Hno Hasp Hkey Hacct G. unfold enc_enterprise_back.
  assert (Hu : forall k v, dget k e = Some v -> dget k encryption_fields = None -> uopt (Some v) = Some v).
  { intros k v Hk Hj. apply survives_same. rewrite <- Hj. apply Hsv, Hk. }
  set (a0 := rename "auth_secret" "key" s). assert (Na0 : NoDup (dkeys a0)) by (apply NoDup_rename, Hs).
  assert (Ga0 : forall k, dget k a0 = if String.eqb k "auth_secret" then None else dget k s).
  { intros k. unfold a0. rewrite dget_rename by (exact Hs || discriminate). fields k; try reflexivity. rewrite (G "auth_secret"), (G "key").
    destruct ap; ev; [destruct (uopt (dget "key" e)); reflexivity|]. rewrite (Hno "auth_secret") by (cbn; tauto). reflexivity. }
  set (a1 := match dget "acct_secret" a0 with Some a => if py_eq a (dgetN "key" a0) then ddel "acct_secret" a0 else a0 | None => a0 end).
  assert (Ha1 : NoDup (dkeys a1) /\ forall k, dget k a1 = if String.eqb k "acct_secret" then uopt (dget "acct_secret" e) else dget k a0).
  { assert (Ka : dget "key" a0 = dget "key" e).
    { rewrite Ga0. ev. rewrite (G "key"). destruct ap; ev; (destruct (dget "key" e) as [v|] eqn:E; [apply (Hu _ _ E); reflexivity|reflexivity]). }
    unfold a1, dgetN. rewrite Ka. destruct (dget "acct_secret" e) as [v|] eqn:Ea.
    - assert (Es : dget "acct_secret" a0 = Some v).
      { rewrite Ga0. ev. rewrite (G "acct_secret"). rewrite Ea. destruct ap; ev; apply (Hu _ _ Ea); reflexivity. }
      rewrite Es. assert (Hneq : py_eq v (match dget "key" e with Some x => x | None => VNull end) = false).
      { assert (Hd : dmem "acct_secret" e = true) by (unfold dmem; rewrite Ea; reflexivity). specialize (Hacct Hd).
        destruct (dget "key" e) as [kv|] eqn:Ek.
        - apply Bool.not_true_iff_false. intros X. apply survives_py_eq in X; [congruence|apply (Hsv _ _ Ea)|apply (Hsv _ _ Ek)].
        - pose proof (Hsv _ _ Ea) as Hv. destruct v; try contradiction; reflexivity. }
      rewrite Hneq. split; [exact Na0|]. intros k. field k "acct_secret"; [|reflexivity]. rewrite Es. symmetry. apply (Hu _ _ Ea). reflexivity.
    - destruct (dget "acct_secret" a0) as [a|] eqn:Es.
      + rewrite Ga0 in Es. revert Es. ev. rewrite (G "acct_secret"), Ea. destruct ap; ev; [|discriminate].
        destruct (dget "key" e) as [kv|] eqn:Ek; [|discriminate]. rewrite (Hu _ _ Ek) by reflexivity. intros Es. injection Es as ->.
        rewrite py_eq_refl by (apply survives_wf; apply (Hsv _ _ Ek)). split; [nodup|]. intros k. dg. field k "acct_secret"; reflexivity.
      + split; [exact Na0|]. intros k. field k "acct_secret"; [rewrite Es; reflexivity|reflexivity]. }
  destruct Ha1 as [Na1 Ga1].
  set (a2 := rename "auth_server" "server" a1). assert (Na2 : NoDup (dkeys a2)) by (apply NoDup_rename, Na1).
  set (a3 := rename "auth_port" "port" a2). assert (Na3 : NoDup (dkeys a3)) by (apply NoDup_rename, Na2).
  split; [apply NoDup_rename, Na3|]. intros k. rewrite dget_rename by (exact Na3 || discriminate). unfold a3.
  rewrite !dget_rename by (exact Na2 || discriminate). unfold a2. rewrite !dget_rename by (exact Na1 || discriminate). rewrite !Ga1, !Ga0.
  ev. rewrite !G. destruct ap; fields k; try reflexivity;
    rewrite ?(Hno "auth_server"), ?(Hno "auth_port"), ?(Hno "auth_secret"), ?(Hno "acct_port") by (cbn; tauto); try reflexivity;
    try match goal with |- match ?o with _ => _ end = _ => destruct o; reflexivity end.
Qed.

Lemma enc_back_ok ap e uci w : encryption_ok ap e -> enc_shows ap e uci -> NoDup (dkeys w) ->
  (forall k, In k enc_names -> dget k w = uopt (dget k uci)) ->
  exists e' w', enc_back w = Ok (dset "encryption" (VDict e') w') /\ NoDup (dkeys w') /\ NoDup (dkeys e') /\
    (forall k, dget k w' = if existsb (String.eqb k) enc_names then None else dget k w) /\
    (forall k, dget k e' = dget k e).
Proof.
  intros Hok Hsh Hw Gw.
  destruct (move_keys_ok encryption_keys [] w) as (s1 & w1 & Emv & Ns1 & Nw1 & Gs1 & Gw1); [constructor|exact Hw| |].
  { intros k v Hk Hin. rewrite Gw in Hk by (do 3 right; exact Hin). unfold uopt in Hk. destruct (dget k uci) as [x|] eqn:E; [|discriminate].
    eapply uci_truthy; [eapply enc_discrete; [exact Hok|exact Hsh|exact E]|exact Hk]. }
  assert (Gs : forall k, dget k s1 = if existsb (String.eqb k) encryption_keys then uopt (dget k uci) else None).
  { intros k. rewrite Gs1. destruct (existsb _ _) eqn:E; [|reflexivity]. rewrite Gw by (do 3 right; apply existsb_in, E).
    destruct (uopt (dget k uci)); reflexivity. }
  clear Gs1.
  assert (Hout : forall k, existsb (String.eqb k) encryption_keys = false -> k <> "encryption" -> k <> "key1" -> k <> "ieee80211w" ->
    existsb (String.eqb k) enc_names = false).
  { intros k Hk H1 H2 H3. unfold enc_names. cbn [existsb]. rewrite !eqb_neq by assumption. exact Hk. }
  unfold enc_back.
  destruct Hok as [->|(Hnd & p & Hp & Hpm & Hal & Hf & Hc & Hwep & Hent)].
  { assert (E1 : dget "encryption" w = Some (VStr "none")) by (rewrite Gw by (left; reflexivity); rewrite (Hsh "encryption"); reflexivity).
    rewrite E1, Emv. unfold dgetE. rewrite Gw1. replace (existsb (String.eqb "encryption") encryption_keys) with false by reflexivity.
    rewrite E1. cbn [bind]. change (py_eq (VStr "none") (VStr "none")) with true. cbn iota.
    exists [("protocol", VStr "none")], (ddel "encryption" w1). split; [reflexivity|]. split; [nodup|]. split; [repeat constructor; cbn; tauto|].
    split; [|reflexivity]. intros k. dg. rewrite Gw1. destruct (existsb (String.eqb k) encryption_keys) eqn:E.
    - replace (existsb (String.eqb k) enc_names) with true by (symmetry; apply existsb_in; do 3 right; apply existsb_in, E). destruct (String.eqb k "encryption"); reflexivity.
    - fields k; try reflexivity. destruct (existsb (String.eqb k) enc_names) eqn:E2; [|reflexivity].
      apply existsb_in in E2 as [<-|[<-|[<-|Hin]]]; [congruence| | |apply existsb_in in Hin; congruence].
      + rewrite Gw by (cbn; tauto). rewrite (Hsh "key1"). reflexivity.
      + rewrite Gw by (cbn; tauto). rewrite (Hsh "ieee80211w"). reflexivity. }
  unfold text in Hp. destruct (protocols_known p Hpm) as (u & Hu & F).
  assert (Hsurv : forall k v, dget k e = Some v -> survives (dget k encryption_fields) v).
  { intros k v Hk. destruct (Hf k v (dget_In _ _ _ Hk) (fun x => x)) as (_ & _ & Hs). exact Hs. }
  (* the protocol and the cipher *)
  assert (Henc : exists P, dget "encryption" w = Some (VStr P) /\ String.eqb P "none" = false /\
     exists c, (match split_plus P with Some pc => pc | None => (P, "auto") end) = (u, c) /\
       (is_wps p = false -> dget "cipher" e = Some (VStr c))).
  { rewrite Gw by (left; reflexivity). rewrite (Hsh "encryption"). unfold encryption_own. rewrite Hp, (pf_none _ _ F), Hu. cbn [app dget]. ev.
    assert (Hun : uopt (text u) = Some (VStr u)) by apply uopt_text, (pf_word _ _ F).
    destruct (is_wps p) eqn:Ewps.
    - destruct Hc as [-> _]. exists u. split; [exact Hun|]. split; [apply (pf_none' _ _ F)|]. exists "auto". rewrite (pf_split _ _ F). split; [reflexivity|discriminate].
    - destruct Hc as (c & -> & Hcw & Hca). destruct (has_ciphers p) eqn:Eh; cbn [andb].
      + destruct (String.eqb_spec c "auto") as [->|Hcn]; cbn [negb].
        * exists u. split; [exact Hun|]. split; [apply (pf_none' _ _ F)|]. exists "auto". rewrite (pf_split _ _ F). auto.
        * exists (u +++ "+" +++ c). split; [apply uopt_text; pose proof (pf_word _ _ F); destruct u; [congruence|discriminate]|].
          split; [apply (pf_none2 _ _ F)|]. exists c. rewrite (pf_split' _ _ F). auto.
      + rewrite (Hca eq_refl). exists u. split; [exact Hun|]. split; [apply (pf_none' _ _ F)|]. exists "auto". rewrite (pf_split _ _ F). auto. }
  destruct Henc as (P & EP & EPn & c & Esp & Ecipher). rewrite EP, Emv. unfold dgetE at 1. rewrite Gw1.
  replace (existsb (String.eqb "encryption") encryption_keys) with false by reflexivity. rewrite EP. cbn [bind].
  rewrite py_eq_text, EPn. cbn [as_str bind]. rewrite Esp.
  (* is it wps *)
  assert (Hwpsk : forall k, In k wps_options -> dget k uci = dget k e).
  { intros k Hk. rewrite (Hsh k). unfold encryption_own. rewrite Hp, (pf_none _ _ F).
    destruct (is_wep p), (is_enterprise p && ap); cbn in Hk; decompose [or] Hk; subst; try reflexivity; contradiction. }
  assert (Ewps : existsb (fun kv => startswith "wps_" (fst kv)) s1 = is_wps p).
  { destruct (is_wps p) eqn:E.
    - destruct Hc as (_ & k & Hk & Hmem). apply existsb_exists. unfold dmem in Hmem. destruct (dget k e) as [v|] eqn:Ek; [|discriminate].
      destruct (survives_read _ _ (Hsurv _ _ Ek)) as (x & Hx & _). exists (k, x). split; [|cbn in Hk; decompose [or] Hk; subst; try reflexivity; contradiction].
      apply dget_In. rewrite Gs. replace (existsb (String.eqb k) encryption_keys) with true by (symmetry; apply existsb_in; cbn in Hk |- *; tauto).
      rewrite (Hwpsk k Hk), Ek. exact Hx.
    - apply Bool.not_true_iff_false. intros X. apply existsb_exists in X as ([k x] & Hin & Hst). cbn [fst] in Hst.
      apply In_dget in Hin; [|exact Ns1]. rewrite Gs in Hin. destruct (existsb (String.eqb k) encryption_keys) eqn:Ek; [|discriminate].
      apply existsb_in in Ek. assert (Hk : In k wps_options).
      { unfold encryption_keys in Ek. cbn [In] in Ek. repeat (destruct Ek as [<-|Ek]; [first [discriminate Hst|cbn; tauto]|]). destruct Ek. }
      rewrite (Hwpsk k Hk) in Hin. replace (dget k e) with (@None val) in Hin; [discriminate|]. symmetry. eapply not_allowed; [exact Hal|].
      destruct (is_enterprise p && ap); cbn in Hk; decompose [or] Hk; subst; try reflexivity; contradiction. }
  rewrite Ewps.
  set (s2 := if is_wps p then dset "protocol" (VStr "wps") s1 else dset "cipher" (VStr c) (dset "protocol" (VStr p) s1)).
  assert (Ns2 : NoDup (dkeys s2)) by (unfold s2; destruct (is_wps p); nodup).
  assert (Gs2 : forall k, dget k s2 = if String.eqb k "protocol" then Some (VStr p) else if String.eqb k "cipher" then dget "cipher" e else dget k s1).
  { intros k. unfold s2. destruct (is_wps p) eqn:E; dg.
    - destruct (pf_wps _ _ F E) as (_ & _ & _ & ->). destruct Hc as [Hc _]. fields k; try reflexivity. rewrite Gs. rewrite Hc. reflexivity.
    - fields k; try reflexivity. symmetry. apply Ecipher. reflexivity. }
  match goal with |- context [bind ?m _] => assert (Em : m = Ok s2) end.
  { unfold s2. destruct (is_wps p) eqn:E; [reflexivity|]. unfold str_lookup. rewrite (pf_back _ _ F E). reflexivity. }
  rewrite Em. clear Em. cbn [bind].
  rewrite (pf_wep' _ _ F).
  (* wep *)
  set (s3 := match is_wep p, dget "key" e with true, Some k => dset "key" k s2 | _, _ => s2 end).
  set (w2 := if is_wep p then ddel "key1" (ddel "encryption" w1) else ddel "encryption" w1).
  assert (Hno : forall k, In k ["auth_server"; "auth_port"; "auth_secret"; "acct_port"; "encryption"; "key1"] -> dget k e = None).
  { intros k Hk. eapply not_allowed; [exact Hal|].
    destruct (is_wps p), (is_enterprise p && ap); cbn in Hk; decompose [or] Hk; subst; try reflexivity; contradiction. }
  assert (Hasp : is_enterprise p && ap = false -> dget "acct_server_port" e = None).
  { intros E. eapply not_allowed; [exact Hal|]. rewrite E. destruct (is_wps p); reflexivity. }
  assert (Nw2 : NoDup (dkeys w2)) by (unfold w2; destruct (is_wep p); nodup).
  assert (Gw2 : forall k, dget k w2 = if existsb (String.eqb k) ("encryption" :: "key1" :: encryption_keys) then None else dget k w).
  { intros k. unfold w2. cbn [existsb]. destruct (is_wep p) eqn:E; dg; rewrite Gw1; fields k; try reflexivity.
    rewrite Gw by (cbn; tauto). rewrite (Hsh "key1"). unfold encryption_own. rewrite Hp, (pf_none _ _ F), E.
    destruct (is_enterprise p && ap); cbn; rewrite (Hno "key1") by (cbn; tauto); reflexivity. }
  assert (Hkv : is_wep p = true -> exists key, dget "key" e = Some (VStr key) /\ key <> EmptyString).
  { intros E. destruct (Hwep E) as (key & Hk & _). exists key. split; [exact Hk|]. pose proof (Hsurv _ _ Hk) as X. cbn in X. tauto. }
  assert (Ns3 : NoDup (dkeys s3)) by (unfold s3; destruct (is_wep p), (dget "key" e); nodup).
  assert (Gs3 : forall k, dget k s3 = if String.eqb k "key" && is_wep p then dget "key" e else dget k s2).
  { intros k. unfold s3. destruct (is_wep p) eqn:E; [|rewrite andb_false_r; reflexivity]. destruct (Hkv eq_refl) as (key & -> & _). dg. rewrite andb_true_r.
    destruct (String.eqb k "key"); reflexivity. }
  match goal with |- context [bind ?m _] => assert (Em : m = Ok (s3, w2)) end.
  { unfold s3, w2. destruct (is_wep p) eqn:E; [|reflexivity]. destruct (Hkv eq_refl) as (key & Hk & Hkne). destruct (Hwep eq_refl) as (key' & Hk' & Hsh').
    cbv beta in Hsh'. rewrite Hk in Hk'. injection Hk' as <-. rewrite Hk.
    assert (E1 : dget "key" s2 = Some (VStr "1")).
    { rewrite Gs2. ev. rewrite Gs. replace (existsb (String.eqb "key") encryption_keys) with true by reflexivity.
      rewrite (Hsh "key"). unfold encryption_own. rewrite Hp, (pf_none _ _ F), E. reflexivity. }
    unfold dgetE. rewrite E1. cbn [bind py_str]. change ("key" +++ "1") with "key1".
    assert (E2 : pop_or "key1" (VStr EmptyString) (ddel "encryption" w1) = VStr (if String.eqb p "wep_open" then "s:" +++ key else key)).
    { unfold pop_or. dg. ev. rewrite Gw1. replace (existsb (String.eqb "key1") encryption_keys) with false by reflexivity.
      rewrite Gw by (cbn; tauto). rewrite (Hsh "key1"). unfold encryption_own. rewrite Hp, (pf_none _ _ F), E, Hk. cbn [app dget]. ev.
      rewrite uopt_text; [reflexivity|]. destruct (String.eqb p "wep_open"); [discriminate|exact Hkne]. }
    rewrite E2. cbn [as_str bind]. do 4 f_equal. destruct (String.eqb_spec p "wep_open") as [->|Hpo].
    - rewrite startswith_app. reflexivity.
    - rewrite Hsh'; [reflexivity|]. unfold is_wep in E. cbn in E. rewrite (eqb_neq _ _ Hpo) in E. rewrite orb_false_r in E. apply String.eqb_eq, E. }
  rewrite Em. clear Em. cbn [bind]. unfold dgetE at 1. rewrite Gs3. ev. cbn [andb]. rewrite Gs2. ev. cbn [bind as_str].
  rewrite (pf_ent _ _ F).
  assert (Hen : existsb (String.eqb "ieee80211w") encryption_keys = false) by reflexivity.
  (* the names outside *)
  assert (Hother : forall k, existsb (String.eqb k) encryption_keys = false -> k <> "protocol" -> k <> "cipher" -> k <> "ieee80211w" ->
     k <> "acct_server_port" -> dget k e = None).
  { intros k Hk H1 H2 H3 H4. apply dmem_false. destruct (dmem k e) eqn:E; [|reflexivity]. exfalso. apply Hal in E.
    apply Bool.not_true_iff_false in Hk. apply Hk. clear Hk.
    repeat rewrite in_app_iff in E. cbn [In] in E. destruct E as [E|[E|[E|E]]].
    - repeat (destruct E as [<-|E]; [first [congruence|reflexivity]|]). destruct E.
    - unfold encryption_options in E. cbn [In] in E. repeat (destruct E as [<-|E]; [first [congruence|reflexivity]|]). destruct E.
    - destruct (is_wps p); [|destruct E]. unfold wps_options in E. cbn [In] in E. repeat (destruct E as [<-|E]; [first [congruence|reflexivity]|]). destruct E.
    - destruct (is_enterprise p && ap); [|destruct E]. destruct E as [<-|[]]. congruence. }
  set (s4 := if is_enterprise p then enc_enterprise_back s3 else s3).
  assert (Hs4 : NoDup (dkeys s4) /\ forall k, dget k s4 = if String.eqb k "ieee80211w" then None else uopt (dget k e)).
  { assert (Hcu : uopt (dget "cipher" e) = dget "cipher" e).
    { destruct (dget "cipher" e) as [v|] eqn:Ev; [|reflexivity]. apply survives_same, (Hsurv _ _ Ev). }
    assert (Hpu : uopt (dget "protocol" e) = Some (VStr p)).
    { rewrite Hp. apply survives_same, (Hsurv _ _ Hp). }
    unfold s4. destruct (is_enterprise p) eqn:Ee.
    - destruct (Hent eq_refl) as (Hkey & Hacct & Htls).
      apply (enterprise_back ap); try assumption.
      + intros k Hk. apply Hno. cbn in Hk |- *. tauto.
      + intros k. rewrite Gs3, (pf_ent' _ _ F Ee), andb_false_r, Gs2, Gs.
        field k "protocol"; [rewrite <- Hpu; destruct ap; reflexivity|]. field k "cipher"; [transitivity (uopt (dget "cipher" e)); [symmetry; exact Hcu|destruct ap; reflexivity]|].
        destruct (existsb (String.eqb k) encryption_keys) eqn:Ek.
        * assert (Hk3 : k <> "ieee80211w") by (intros ->; discriminate).
          rewrite (Hsh k). unfold encryption_own. rewrite Hp, (pf_none _ _ F), (pf_ent' _ _ F Ee), Ee. cbn [andb].
          assert (Hke : k <> "encryption") by (intros ->; discriminate).
          destruct ap; cbn [app dget]; ev; [|reflexivity]. fields k; reflexivity.
        * destruct ap.
          { fields k; try reflexivity; try discriminate Ek. rewrite Hother by assumption. reflexivity. }
          { fields k; try reflexivity. field k "acct_server_port"; [rewrite Hasp by reflexivity; reflexivity|]. rewrite Hother by assumption. reflexivity. }
    - split; [exact Ns3|]. intros k. rewrite Gs3, Gs2, Gs.
      destruct (is_wep p) eqn:Ew.
      + rewrite andb_true_r. field k "key"; [destruct (Hkv eq_refl) as (key & -> & Hne); symmetry; apply uopt_text, Hne|].
        field k "protocol"; [symmetry; exact Hpu|]. field k "cipher"; [symmetry; exact Hcu|].
        destruct (existsb (String.eqb k) encryption_keys) eqn:Ek.
        * assert (Hk3 : k <> "ieee80211w") by (intros ->; discriminate). assert (Hke : k <> "encryption") by (intros ->; discriminate).
          assert (Hk1 : k <> "key1") by (intros ->; discriminate).
          rewrite (Hsh k). unfold encryption_own. rewrite Hp, (pf_none _ _ F), Ew. cbn [app dget]. ev. reflexivity.
        * fields k; try reflexivity. field k "acct_server_port"; [rewrite Hasp by reflexivity; reflexivity|]. rewrite Hother by assumption. reflexivity.
      + rewrite andb_false_r. field k "protocol"; [symmetry; exact Hpu|]. field k "cipher"; [symmetry; exact Hcu|].
        destruct (existsb (String.eqb k) encryption_keys) eqn:Ek.
        * assert (Hk3 : k <> "ieee80211w") by (intros ->; discriminate). assert (Hke : k <> "encryption") by (intros ->; discriminate).
          rewrite (Hsh k). unfold encryption_own. rewrite Hp, (pf_none _ _ F), Ew, Ee. cbn [andb app dget]. ev. reflexivity.
        * fields k; try reflexivity. field k "acct_server_port"; [rewrite Hasp by reflexivity; reflexivity|]. rewrite Hother by assumption. reflexivity. }
  destruct Hs4 as [Ns4 Gs4].
  assert (E80 : dget "ieee80211w" w2 = uopt (dget "ieee80211w" e)).
  { rewrite Gw2. replace (existsb (String.eqb "ieee80211w") ("encryption" :: "key1" :: encryption_keys)) with false by reflexivity.
    rewrite Gw by (cbn; tauto). rewrite (Hsh "ieee80211w"). unfold encryption_own. rewrite Hp, (pf_none _ _ F).
    destruct (is_wep p), (is_enterprise p && ap); reflexivity. }
  destruct (enc_typecast_ok e (copy_opt "ieee80211w" w2 "ieee80211w" s4) Hnd Hf) as (e' & He' & Ne' & Ge').
  { apply NoDup_copy_opt, Ns4. }
  { intros k. rewrite dget_copy_opt, E80, Gs4. field k "ieee80211w"; [destruct (uopt (dget "ieee80211w" e)); reflexivity|reflexivity]. }
  rewrite He'. cbn [bind]. exists e', (ddel "ieee80211w" w2). split; [reflexivity|]. split; [nodup|]. split; [exact Ne'|]. split; [|exact Ge'].
  intros k. dg. rewrite Gw2. unfold enc_names. cbn [existsb].
  destruct (String.eqb k "encryption"), (String.eqb k "key1"), (String.eqb k "ieee80211w"); reflexivity.
Qed.
