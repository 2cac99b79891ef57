(** * RtWifi: the round trip of wireless interfaces (proofs only). *)
From Verif Require Import PyBase PyLemmas StrLemmas NumLemmas Merge Backend Conv OwrtConv OwrtWireless SpecUci SpecConv SpecDevice
  SpecShapes SpecEncryption SpecWireless ConvLemmas SortLemmas RtStage RtBack RtGeneric RtSystem RtNetwork RtRadio RtTrip RtAddress RtInterface RtIfOk VpnProofs FilesProofs RtEnc.

(** ** Names *)
Lemma smap_join f (l : list string) : f " "%char = " "%char -> smap f (join " " l) = join " " (map (smap f) l).
Proof.
  intros Hf. induction l as [|x [|y l] IH]; [reflexivity|reflexivity|].
  change (join " " (x :: y :: l)) with (x +++ " " +++ join " " (y :: l)).
  change (map (smap f) (x :: y :: l)) with (smap f x :: smap f y :: map (smap f) l).
  change (join " " (smap f x :: smap f y :: map (smap f) l)) with (smap f x +++ " " +++ join " " (smap f y :: map (smap f) l)).
  assert (Ha : forall a b, smap f (a +++ b) = smap f a +++ smap f b) by (intros a b; induction a as [|c a IHa]; cbn; [reflexivity|rewrite IHa; reflexivity]).
  rewrite !Ha, IH. cbn [smap]. rewrite Hf. reflexivity.
Qed.
Lemma identifier_join l : (forall x, In x l -> identifier x = x) -> uci_name (join " " l) = join " " l.
Proof.
  intros H. unfold uci_name. rewrite !replace_char, !smap_join by reflexivity. f_equal. rewrite map_map.
  rewrite <- (map_id l) at 2. apply map_ext_in. intros x Hx. rewrite <- (H x Hx) at 2. unfold identifier. rewrite !replace_char. reflexivity.
Qed.
Lemma word_nospace x : word x -> sexists (Ascii.eqb " "%char) x = false.
Proof.
  intros [_ H]. unfold bare in H. induction x as [|c x IH]; [reflexivity|]. cbn [sforall sexists] in H |- *. apply andb_prop in H as [Hc H]. rewrite (IH H), orb_false_r.
  destruct (Ascii.eqb_spec " " c) as [<-|]; [discriminate|reflexivity].
Qed.

(** ** Options with other names *)
Lemma wifi_option_ok w a b : NoDup (dkeys w) -> a <> b -> dget b w = None -> optional a w (fun v => exists z, v = VInt z /\ (0 < z)%Z) ->
  exists w', wifi_option w (a, b) = Ok w' /\ NoDup (dkeys w') /\
    forall k, dget k w' = if String.eqb k b then dget a w else if String.eqb k a then None else dget k w.
Proof.
  intros Hw Hab Hb Ha. unfold wifi_option, dgetN, optional in *. cbn [fst snd]. destruct (dget a w) as [v|] eqn:E.
  - destruct Ha as (z & -> & Hz). apply Z.ltb_lt in Hz. rewrite Hz. eexists. split; [reflexivity|]. split; [nodup|]. intros k. dg. reflexivity.
  - eexists. split; [reflexivity|]. split; [nodup|]. intros k. dg. destruct (String.eqb_spec k b) as [->|]; [|reflexivity].
    rewrite Hb. destruct (String.eqb b a); reflexivity.
Qed.
Lemma wifi_options_ok w : NoDup (dkeys w) -> (forall k, In k (map fst distances) -> optional k w (fun v => exists z, v = VInt z /\ (0 < z)%Z)) ->
  (forall k, In k (map snd distances) -> dget k w = None) ->
  exists w', foldM wifi_option w wifi_options = Ok w' /\ NoDup (dkeys w') /\
    forall k, dget k w' = match dget k (map (fun kk => (snd kk, dget (fst kk) w)) distances ++ map (fun kk => (fst kk, None)) distances) with Some o => o | None => dget k w end.
Proof.
  intros Hw H1 H2. unfold wifi_options. cbn [foldM].
  destruct (wifi_option_ok w "ack_distance" "distance" Hw) as (w1 & -> & N1 & G1); [discriminate|apply H2; cbn; tauto|apply H1; cbn; tauto|]. cbn [bind].
  destruct (wifi_option_ok w1 "rts_threshold" "rts" N1) as (w2 & -> & N2 & G2); [discriminate|rewrite G1; ev; apply H2; cbn; tauto|unfold optional; rewrite G1; ev; apply H1; cbn; tauto|]. cbn [bind].
  destruct (wifi_option_ok w2 "frag_threshold" "frag" N2) as (w3 & -> & N3 & G3); [discriminate|rewrite G2; ev; rewrite G1; ev; apply H2; cbn; tauto|unfold optional; rewrite G2; ev; rewrite G1; ev; apply H1; cbn; tauto|]. cbn [bind].
  exists w3. split; [reflexivity|]. split; [exact N3|]. intros k. rewrite G3, !G2, !G1. ev. cbn [distances map app dget fst snd]. fields k; reflexivity.
Qed.

Definition wifi_base (n : string) (i w : dict) : dict :=
  copy_opt "mac" i "macaddr" (dset "device" (dgetN "radio" w) (ddel "radio" (dset ".name" (VStr (wifi_name n w)) (dset ".type" (VStr "wifi-iface")
    (ddel "id" (dset "ifname" (VStr n) (dset "disabled" (dgetN "disabled" i) w))))))).
Lemma wifi_modes_same : wifi_modes = modes. Proof. reflexivity. Qed.
Lemma mode_cases m : dmem m modes = true -> exists u, dget m modes = Some u /\ dget u wifi_modes_back = Some m /\ u <> EmptyString /\ bare u /\
  String.eqb u "ap" = match m with "access_point" => true | _ => false end.
Proof.
  unfold dmem, modes. cbn [dget].
  repeat match goal with |- context [String.eqb m ?s] => destruct (String.eqb_spec m s) as [->|?];
    [intros _; eexists; split; [reflexivity|]; split; [reflexivity|]; split; [discriminate|]; split; [reflexivity|reflexivity]|] end.
  discriminate.
Qed.

Lemma own_encryption ap e : encryption_ok ap e -> exists P, dget "encryption" (encryption_own ap e) = Some (text P) /\ P <> EmptyString /\ plain P.
Proof.
  intros [->|(Hnd & p & Hp & Hpm & Hal & Hf & Hc & _)]; [exists "none"; split; [reflexivity|apply plainb_plain; reflexivity]|].
  destruct (protocols_known p Hpm) as (u & Hu & F). unfold encryption_own. rewrite Hp. unfold text. rewrite (pf_none _ _ F), Hu. cbn [app dget]. ev.
  assert (Hu' : u <> EmptyString /\ plain u) by (split; [apply (pf_word _ _ F)|apply bare_plain, (pf_bare _ _ F)]).
  destruct (is_wps p).
  - destruct Hc as [-> _]. exists u. split; [reflexivity|exact Hu'].
  - destruct Hc as (c & -> & Hcw & _). eexists. split; [reflexivity|]. destruct (has_ciphers p && negb (String.eqb c "auto")); [|exact Hu'].
    split; [pose proof (pf_word _ _ F); destruct u; [congruence|discriminate]|]. apply bare_plain, bare_app; [apply (pf_bare _ _ F)|]. apply bare_app; [reflexivity|apply Hcw].
Qed.
Lemma own_names ap e k o : dget k (encryption_own ap e) = Some o -> k = "encryption" \/ In k encryption_names.
Proof.
  unfold encryption_own. destruct (dget "protocol" e) as [[]|]; try discriminate. destruct (String.eqb s "none").
  - cbn [dget]. fields k; try discriminate; intros _; [left; reflexivity|right; cbn; tauto].
  - cbn [dget app]. destruct (is_wep s); [|destruct (is_enterprise s && ap)]; cbn [dget]; fields k; try discriminate; intros _;
      try (left; reflexivity); right; cbn; tauto.
Qed.
Lemma enc_outside ap e k : e = [] \/ encryption_ok ap e -> k <> "encryption" -> existsb (String.eqb k) encryption_names = false ->
  dget k (encryption_own ap e) = None /\ dget k e = None.
Proof.
  intros He Hk Hn. split.
  - destruct (dget k (encryption_own ap e)) as [o|] eqn:E; [|reflexivity]. destruct (own_names _ _ _ _ E) as [->|Hi]; [congruence|].
    apply existsb_in in Hi. congruence.
  - destruct He as [->|[->|(_ & p & _ & _ & Hal & _)]]; [reflexivity| |].
    + cbn [dget]. fields k; [discriminate Hn|reflexivity].
    + eapply not_allowed; [exact Hal|]. apply Bool.not_true_iff_false. intros X. apply Bool.not_true_iff_false in Hn. apply Hn. clear Hn.
      apply existsb_in in X. apply existsb_in. unfold encryption_names. rewrite !in_app_iff in *. destruct X as [X|[X|[X|X]]].
      * left. cbn in X |- *. tauto.
      * right. left. exact X.
      * right. right. destruct (is_wps p); [exact X|destruct X].
      * left. destruct (is_enterprise p && ap); [|destruct X]. destruct X as [<-|[]]. cbn. tauto.
Qed.
Lemma enc_word k : k = "encryption" \/ In k encryption_names -> word k.
Proof.
  intros H. assert (F : forallb (fun k => negb (String.eqb k EmptyString) && sforall (fun c => negb (is_space c) && negb (Ascii.eqb c SQc) && negb (Ascii.eqb c DQc)) k)
    ("encryption" :: encryption_names) = true) by (vm_compute; reflexivity).
  rewrite forallb_forall in F. destruct (andb_prop _ _ (F k (match H with or_introl e => or_introl (eq_sym e) | or_intror x => or_intror x end))) as [H1 H2].
  split; [|exact H2]. apply String.eqb_neq. destruct (String.eqb k EmptyString); [discriminate|reflexivity].
Qed.
Lemma plain_cons c s : Ascii.eqb NLc c = false -> Ascii.eqb SQc c = false -> Ascii.eqb DQc c = false -> Ascii.eqb " " c = false -> plain s -> plain (String c s).
Proof.
  intros H1 H2 H3 H4 (P1 & P2 & P3 & P4).
  assert (N : forall d, Ascii.eqb d c = false -> no_char d s -> no_char d (String c s)).
  { intros d Hd Hn a b E. destruct a as [|x a]; cbn in E; injection E as -> E; [rewrite Ascii.eqb_refl in Hd; discriminate|]. exact (Hn a b E). }
  repeat split; try (apply N; assumption). cbn [contains]. rewrite P4, orb_false_r. cbn [startswith]. rewrite H4. reflexivity.
Qed.
Lemma own_writable ap e k v : encryption_ok ap e -> dget k (encryption_own ap e) = Some (Some v) -> writable v.
Proof.
  intros He Ho. destruct (own_encryption _ _ He) as (P & HP & _ & HPp). destruct (String.eqb_spec k "encryption") as [->|Hk].
  { rewrite HP in Ho. injection Ho as <-. exact HPp. }
  destruct He as [->|(Hnd & p & Hp & Hpm & Hal & Hf & Hc & Hwep & _)].
  { revert Ho. cbn. fields k; discriminate. }
  assert (Hw : forall j x, dget j e = Some x -> writable x) by (intros j x Hj; eapply (field_writes _ _ _ j x Hf); [intros []|exact Hj]).
  revert Ho. unfold encryption_own. rewrite Hp. unfold text. destruct (String.eqb p "none"); [cbn [dget]; fields k; discriminate|].
  cbn [app dget]. ev. destruct (is_wep p).
  - cbn [dget]. destruct (Hwep eq_refl) as (key & Hkey & _). rewrite Hkey. fields k; try discriminate; intros X; injection X as <-; [apply plainb_plain; reflexivity|].
    pose proof (Hw _ _ Hkey) as Hpl. cbn in Hpl. destruct (String.eqb p "wep_open"); [|exact Hpl].
    repeat (apply plain_cons; [reflexivity..|]). exact Hpl.
  - destruct (is_enterprise p && ap); cbn [dget]; fields k; try discriminate; intros X; injection X as X; try (eapply Hw; exact X).
    destruct (dget "acct_secret" e) eqn:E; [injection X as <-; eapply Hw; exact E|eapply Hw; exact X].
Qed.

Section Wifi.
Variables (n : string) (net : option val) (addressed : bool) (bridges : list string) (i w : dict).
Hypothesis Hok : wifi_ok n net addressed bridges w.
Hypothesis Hbr : forall x, In x bridges -> word x /\ identifier x = x.
Hypothesis Hnm : dget "name" i = text n.
Hypothesis Hiw : dget "wireless" i = Some (VDict w).
Hypothesis Haddr : truthy (dgetN "addresses" i) = addressed.

Lemma networks_identifiers x : In x (networks n addressed bridges w) -> identifier x = x.
Proof.
  destruct Hok as (_ & _ & _ & _ & _ & Hnet & _). unfold networks. destruct (dget "network" w) as [v|].
  - destruct Hnet as (l & -> & _ & _ & _ & _ & Hl). rewrite flat_map_concat_map, map_map. cbn. intros Hx. apply in_concat in Hx as (y & Hy & Hx).
    apply in_map_iff in Hy as (z & <- & Hz). destruct Hx as [<-|[]]. apply Hl, Hz.
  - destruct bridges as [|b bs] eqn:Eb; [|intros Hx; apply Hbr, Hx]. destruct addressed; [|intros []].
    intros [<-|[]]. apply Hnet; reflexivity.
Qed.
Lemma map_texts l : flat_map (fun v => match v with VStr s => [s] | _ => [] end) (map VStr l) = l.
Proof. induction l as [|x l IH]; [reflexivity|]. cbn. rewrite IH. reflexivity. Qed.
Lemma iter_texts l : iter_strs (VList (map VStr l)) = Ok l.
Proof. unfold iter_strs. induction l as [|x l IH]; [reflexivity|]. cbn [map mapM str_key bind]. rewrite IH. reflexivity. Qed.

Lemma wifi_network_ok bridged d : dget n bridged = match bridges with [] => None | _ => Some bridges end ->
  dget "network" d = dget "network" w ->
  exists v, wifi_network bridged i d = Ok v /\ iter_strs v = Ok (networks n addressed bridges w).
Proof.
  intros Hb Hd. destruct Hok as (_ & _ & _ & _ & _ & Hnet & _). unfold wifi_network, networks. cbn zeta.
  assert (Hd' : dgetN "network" d = dgetN "network" w) by (unfold dgetN; rewrite Hd; reflexivity). rewrite Hd'. clear Hd Hd'.
  unfold dgetN at 1 2. destruct (dget "network" w) as [v|].
  - destruct Hnet as (l & -> & Hne & _). assert (Ht : truthy (VList (map VStr l)) = true) by (destruct l; [congruence|reflexivity]). rewrite Ht.
    exists (VList (map VStr l)). split; [reflexivity|]. rewrite iter_texts, map_texts. reflexivity.
  - cbn [truthy]. unfold dgetE. rewrite Hnm. cbn [bind text str_key]. rewrite Hb, Haddr. destruct bridges as [|x l].
    + destruct addressed; (eexists; split; [reflexivity|reflexivity]).
    + eexists. split; [reflexivity|apply iter_texts].
Qed.

Lemma wifi_section_ok bridged : dget n bridged = match bridges with [] => None | _ => Some bridges end ->
  exists s, wifi_section bridged i = Ok (Some s) /\ NoDup (dkeys s) /\ wifi_shown n addressed bridges i w s.
Proof.
  intros Hb. pose proof Hok as (Hnd & (r & Hr & Hrt) & (m & Hm & Hmm) & Hid & Hdist & Hnet & Henc & H11r & Habs & Hf).
  destruct (mode_cases m Hmm) as (mu & Hmu & _ & Hmne & Hmb & Hap).
  unfold wifi_section. rewrite Hiw. cbn [as_dict bind]. unfold dgetE at 1. rewrite Hnm. cbn [bind text].
  assert (Eid : pop_or "id" VNull (dset "ifname" (VStr n) (dset "disabled" (dgetN "disabled" i) w)) = pop_or "id" VNull w).
  { unfold pop_or. dg. ev. reflexivity. }
  rewrite Eid.
  assert (Esn : (if truthy (pop_or "id" VNull w) then Ok (pop_or "id" VNull w) else wifi_auto_name (VStr n)) = Ok (VStr (wifi_name n w))).
  { unfold pop_or, wifi_name, name_or. destruct (dget "id" w) as [v|].
    - destruct Hid as (s & -> & Hs & _). rewrite truthy_text by apply Hs. reflexivity.
    - reflexivity. }
  rewrite Esn. cbn [bind].
  unfold dgetE at 1. dg. ev. rewrite Hr. cbn [bind].
  set (w3 := copy_opt "mac" i "macaddr" _).
  assert (N3 : NoDup (dkeys w3)) by (apply NoDup_copy_opt; nodup).
  assert (G3 : forall k, dget k w3 = if String.eqb k "macaddr" then dget "mac" i else if String.eqb k "device" then dget "radio" w
     else if String.eqb k "radio" then None else if String.eqb k ".name" then text (wifi_name n w) else if String.eqb k ".type" then text "wifi-iface"
     else if String.eqb k "id" then None else if String.eqb k "ifname" then text n else if String.eqb k "disabled" then Some (dgetN "disabled" i) else dget k w).
  { intros k. unfold w3. rewrite dget_copy_opt. dg. field k "macaddr".
    - ev. rewrite (Habs "macaddr") by (cbn; tauto). destruct (dget "mac" i); reflexivity.
    - fields k; try reflexivity. symmetry. exact Hr. }
  unfold dgetE at 1. rewrite G3. ev. rewrite Hm. cbn [bind]. unfold str_lookup. rewrite wifi_modes_same, Hmu. cbn [bind].
  assert (Ep : py_eq (VStr mu) (VStr "ap") = is_ap w) by (rewrite py_eq_text, Hap; unfold is_ap; rewrite Hm; reflexivity).
  destruct (wifi_options_ok (dset "mode" (VStr mu) w3)) as (w5 & -> & N5 & G5).
  { nodup. }
  { intros k Hk. unfold optional. dg. rewrite G3. specialize (Hdist k Hk). unfold optional in Hdist.
    cbn in Hk. decompose [or] Hk; subst; ev; try exact Hdist; contradiction. }
  { intros k Hk. dg. rewrite G3. cbn in Hk. decompose [or] Hk; subst; ev; try (apply Habs; cbn; tauto); contradiction. }
  cbn [bind].
  assert (G5' : forall k, dget k w5 = match dget k ([("mode", text mu)] ++ map (fun kk => (snd kk, dget (fst kk) w)) distances ++ map (fun kk => (fst kk, None)) distances)
     with Some o => o | None => dget k w3 end).
  { intros k. rewrite G5. unfold distances. cbn [distances map app dget fst snd]. dg. ev. rewrite !G3. ev. fields k; reflexivity. }
  clear G5. rename G5' into G5.
  assert (Eenc : dget "encryption" w5 = dget "encryption" w) by (rewrite G5; unfold distances; cbn [map app dget fst snd]; ev; rewrite G3; ev; reflexivity).
  rewrite Eenc.
  match goal with |- context [bind ?mm _] => assert (H6 : exists w6, mm = Ok w6 /\ NoDup (dkeys w6) /\
    forall k, dget k w6 = match dget k (encryption_own (is_ap w) (encryption_of w)) with Some o => o | None =>
      match dget k (encryption_of w) with Some v => Some v | None => dget k w5 end end) end.
  { unfold encryption_of. unfold optional in Henc. destruct (dget "encryption" w) as [v|] eqn:Ee.
    - destruct Henc as (e & -> & Hek & Hno). cbn [as_dict bind]. destruct (enc_section_ok (VStr mu) (is_ap w) e Ep Hek) as (uci & -> & Nu & Gu). cbn [bind].
      eexists. split; [reflexivity|]. split; [nodup|]. intros k.
      rewrite dget_dupdate by exact Nu. rewrite dget_ddel by exact N5.
      rewrite (Gu k). destruct (own_encryption _ _ Hek) as (P & HP & _).
      destruct (dget k (encryption_own (is_ap w) e)) as [[v|]|] eqn:Eo; [reflexivity| |].
      + destruct (own_names _ _ _ _ Eo) as [->|Hk]; [rewrite HP in Eo; discriminate|]. fields k; [reflexivity|]. rewrite G5. unfold distances. cbn [map app dget fst snd].
        rewrite G3. fields k; try (exfalso; apply existsb_in in Hk; discriminate Hk). apply Hno, Hk.
      + fields k; [congruence|reflexivity].
    - exists w5. split; [reflexivity|]. split; [exact N5|]. reflexivity. }
  destruct H6 as (w6 & -> & N6 & G6). cbn [bind].
  assert (Hek : encryption_of w = [] \/ encryption_ok (is_ap w) (encryption_of w)).
  { unfold encryption_of. unfold optional in Henc. destruct (dget "encryption" w) as [v|]; [|left; reflexivity]. destruct Henc as (e & -> & He & _). right. exact He. }
  assert (G6' : forall k, dget k w6 = dget k (wifi_roaming w6)).
  { intros k. unfold wifi_roaming.
    assert (Er : dget "ieee80211r" w6 = dget "ieee80211r" w).
    { rewrite G6. rewrite G5. unfold distances. cbn [map app dget fst snd]. ev. rewrite G3. ev.
      destruct (enc_outside (is_ap w) (encryption_of w) "ieee80211r") as [-> ->]; [exact Hek|discriminate|reflexivity|reflexivity]. }
    rewrite Er. destruct (dget "ieee80211r" w) as [[|[]| | | | |]|] eqn:E11; try reflexivity.
    destruct (H11r eq_refl) as [Hro Hna]. destruct (dget_ddel_all k roaming_properties w6 N6) as [_ ->].
    destruct (existsb (String.eqb k) roaming_properties) eqn:Ek; [|reflexivity]. apply existsb_in in Ek.
    rewrite G6. assert (Ew : dget k w5 = None).
    { rewrite G5. unfold distances. cbn [map app dget fst snd]. rewrite G3. specialize (Hro k). cbn in Ek. decompose [or] Ek; subst; ev; try (apply Hro; cbn; tauto); contradiction. }
    rewrite Ew. destruct (String.eqb_spec k "nasid") as [->|Hnn].
    - rewrite Hna. destruct Hek as [->|[->|(_ & p & Hp & Hpm & _)]]; [reflexivity|reflexivity|]. unfold encryption_own. rewrite Hp. unfold text at 1.
      destruct (String.eqb p "none"); [reflexivity|]. cbn [app dget]. ev. destruct (is_wep p), (is_enterprise p && is_ap w); reflexivity.
    - destruct (enc_outside (is_ap w) (encryption_of w) k) as [-> ->]; [exact Hek| | |reflexivity]; cbn in Ek; decompose [or] Ek; subst; try discriminate; try reflexivity; try congruence; contradiction. }
  assert (N7 : NoDup (dkeys (wifi_roaming w6))).
  { unfold wifi_roaming. destruct (dget "ieee80211r" w6) as [[|[]| | | | |]|]; try exact N6. apply (dget_ddel_all "x"), N6. }
  set (w7 := wifi_roaming w6) in *.
  assert (G7 : forall k, dget k w7 = match dget k (encryption_own (is_ap w) (encryption_of w)) with Some o => o | None =>
      match dget k (encryption_of w) with Some v => Some v | None => dget k w5 end end) by (intros k; rewrite <- G6', G6; reflexivity).
  clear G6'.
  assert (Enet : dget "network" w7 = dget "network" w).
  { rewrite G7. destruct (enc_outside (is_ap w) (encryption_of w) "network") as [-> ->]; [exact Hek|discriminate|reflexivity|].
    rewrite G5. unfold distances. cbn [map app dget fst snd]. ev. rewrite G3. ev. reflexivity. }
  destruct (wifi_network_ok bridged w7 Hb Enet) as (nv & -> & Hnv). cbn [bind]. rewrite Hnv. cbn [bind].
  rewrite identifier_join by apply networks_identifiers.
  eexists. split; [reflexivity|]. split; [nodup|]. unfold wifi_shown, shows. intros k. rewrite dget_ssort by nodup. rewrite dget_dset, G7, G5, G3.
  rewrite !dget_app. unfold distances. cbn [map app dget fst snd]. rewrite Hm, Hmu. cbn [option_map].
  destruct (existsb (String.eqb k) (map fst distances ++ map snd distances ++ [".type"; ".name"; "ifname"; "device"; "mode"; "network"; "macaddr"; "disabled"; "radio"; "id"])) eqn:Eb.
  - destruct (enc_outside (is_ap w) (encryption_of w) k) as [-> ->]; [exact Hek| | |]; try (apply existsb_in in Eb; cbn in Eb; decompose [or] Eb; subst; try discriminate; try reflexivity; contradiction).
  - cbn in Eb.
    repeat match type of Eb with (_ || _)%bool = false => apply orb_false_iff in Eb as [? Eb] end.
    repeat match goal with H : String.eqb k _ = false |- _ => rewrite H; clear H end. reflexivity.
Qed.

Hypothesis Hn : n <> EmptyString /\ plain n.
Hypothesis Hmac : optional "mac" i (fun v => exists s, v = VStr s /\ s <> EmptyString /\ plain s).
Hypothesis Hdis : optional "disabled" i (fun v => exists x, v = VBool x).
Definition has_networks : bool := match dget "network" w with Some _ => true | None => false end.

Lemma networks_cases : (forall x, In x (networks n addressed bridges w) -> word x) \/ networks n addressed bridges w = [n].
Proof.
  destruct Hok as (_ & _ & _ & _ & _ & Hnet & _). unfold networks. destruct (dget "network" w) as [v|].
  - destruct Hnet as (l & -> & _ & _ & _ & _ & Hl). rewrite map_texts. left. intros x Hx. apply Hl, Hx.
  - destruct bridges as [|b bs] eqn:Eb; [|left; intros x Hx; apply Hbr, Hx]. destruct addressed; [right; reflexivity|left; intros x []].
Qed.
Lemma networks_plain : plain (join " " (networks n addressed bridges w)).
Proof. destruct networks_cases as [H| ->]; [apply plain_join, H|exact (proj2 Hn)]. Qed.
Lemma enc_cases : encryption_of w = [] /\ dget "encryption" w = None \/
  encryption_ok (is_ap w) (encryption_of w) /\ dget "encryption" w = Some (VDict (encryption_of w)) /\ none_of encryption_names w.
Proof.
  destruct Hok as (_ & _ & _ & _ & _ & _ & Henc & _). unfold encryption_of. unfold optional in Henc.
  destruct (dget "encryption" w) as [v|]; [|left; auto]. destruct Henc as (e & -> & He & Hno). right. auto.
Qed.

Lemma wifi_section_good s : NoDup (dkeys s) -> wifi_shown n addressed bridges i w s -> section_ok s.
Proof.
  intros Ns Hsh. pose proof Hok as (Hnd & (r & Hr & Hrt) & (m & Hm & Hmm) & Hid & Hdist & Hnet & Henc & H11r & Habs & Hf).
  destruct (mode_cases m Hmm) as (mu & Hmu & _ & Hmne & Hmb & Hap).
  eapply section_ok_intro; [exact Ns|rewrite (Hsh ".type"); reflexivity|wordlit|rewrite (Hsh ".name"); reflexivity| |].
  - unfold wifi_name, name_or. destruct (dget "id" w) as [v|].
    + destruct Hid as (x & -> & Hx & _). apply Hx.
    + apply bare_app; [reflexivity|exact Hid].
  - intros k v. rewrite (Hsh k). rewrite !dget_app. unfold distances. cbn [map app dget fst snd].
    rewrite Hm, Hmu. cbn [option_map].
    assert (Hd : forall j x, In j (map fst distances) -> dget j w = Some x -> writable x).
    { intros j x Hj Hx. specialize (Hdist j Hj). unfold optional in Hdist. rewrite Hx in Hdist. destruct Hdist as (z & -> & _). apply plain_Z. }
    fields k; try discriminate.
    + intros E _ _. injection E as <-. split; [wordlit|apply Hn].
    + intros E _ _. rewrite Hr in E. injection E as <-. split; [wordlit|apply Hrt].
    + intros E _ _. injection E as <-. split; [wordlit|apply bare_plain, Hmb].
    + intros E _ _. injection E as <-. split; [wordlit|apply networks_plain].
    + intros E _ _. unfold optional in Hmac. rewrite E in Hmac. destruct Hmac as (x & -> & _ & Hx). split; [wordlit|exact Hx].
    + intros E _ Hv. injection E as <-. unfold dgetN in *. unfold optional in Hdis. destruct (dget "disabled" i) as [x|]; [|exfalso; apply Hv; reflexivity].
      destruct Hdis as (b & -> ). split; [wordlit|destruct b; apply plainb_plain; reflexivity].
    + intros E _ _. split; [wordlit|eapply Hd; [|exact E]; cbn; tauto].
    + intros E _ _. split; [wordlit|eapply Hd; [|exact E]; cbn; tauto].
    + intros E _ _. split; [wordlit|eapply Hd; [|exact E]; cbn; tauto].
    + intros Hk _ _. destruct enc_cases as [[E1 E2]|(E1 & E2 & E3)].
      * rewrite E1 in Hk. cbn [dget encryption_own] in Hk. destruct (String.eqb_spec k "encryption") as [->|Hke]; [congruence|].
        eapply field_writes; [exact Hf| |exact Hk]. unfold distances; cbn [app map fst]; notin.
      * destruct (dget k (encryption_own (is_ap w) (encryption_of w))) as [o|] eqn:Eo.
        { subst o. split; [eapply enc_word, own_names, Eo|eapply own_writable; [exact E1|exact Eo]]. }
        destruct (dget k (encryption_of w)) as [x|] eqn:Ex.
        { injection Hk as ->. assert (Hnm' : existsb (String.eqb k) encryption_names = true \/ k = "encryption").
          { destruct (String.eqb_spec k "encryption") as [->|Hke]; [right; reflexivity|left]. apply Bool.not_false_iff_true. intros X.
            destruct (enc_outside (is_ap w) (encryption_of w) k (or_intror E1) Hke X) as [_ Y]. congruence. }
          split; [apply enc_word; destruct Hnm' as [X| ->]; [right; apply existsb_in, X|left; reflexivity]|].
          clear Hnm'. destruct E1 as [E1|(_ & p & _ & _ & _ & Hfe & _)].
          - rewrite E1 in Ex. cbn [dget] in Ex. revert Ex. fields k; [|discriminate]. intros X. injection X as <-. apply plainb_plain. reflexivity.
          - eapply (field_writes _ _ _ k v Hfe); [intros []|exact Ex]. }
        assert (Hke : k <> "encryption"). { intros ->. destruct (own_encryption _ _ E1) as (P & HP & _). congruence. }
        eapply field_writes; [exact Hf| |exact Hk]. unfold distances; cbn [app map fst]; notin.
Qed.
End Wifi.
