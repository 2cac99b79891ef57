(** * RtStages: the stages of an OpenWrt device (proofs only). *)
From Verif Require Import PyBase PyLemmas Merge SpecMerge MergeProofs MergeListProofs MergeFinal
  Uci Backend Conv Ip Timezones OwrtConv OpenVpnConv OwrtWireless OwrtInterfaces OpenWrt
  StrLemmas SpecUci SpecConv SpecDevice SpecShapes SpecEncryption SpecWireless SpecWhole ConvLemmas SortLemmas RtStage RtBack RtGeneric RtSystem RtNetwork RtSwitch RtRadio RtDefault RtTrip RtObjects RtInterface RtIfFwd RtIfOk RtProto RtIfStage.

(** ** The converters are instances of the generic ones *)
Lemma general_is tz rv : general tz rv = single_conv "general" "system" ["system"] (general_fwd_block tz) (general_back rv).
Proof. reflexivity. Qed.
Lemma ntp_is : ntp = single_conv "ntp" "system" ["timeserver"] ntp_fwd_block ntp_back.
Proof. reflexivity. Qed.
Lemma led_is : led = list_conv "led" "system" ["led"] (fun b _ => led_section b) (fun b _ => led_back b).
Proof. reflexivity. Qed.
Lemma routes_is : routes = list_conv "routes" "network" ["route"; "route6"] route_section route_back.
Proof. reflexivity. Qed.
Lemma rules_is : rules = list_conv "ip_rules" "network" ["rule"; "rule6"] rule_section rule_back.
Proof. reflexivity. Qed.
Lemma radios_is dsa : radios dsa = list_conv "radios" "wireless" ["wifi-device"] (fun b _ => radio_section dsa b) (fun b _ => radio_back dsa b).
Proof. reflexivity. Qed.
Lemma peers_is : wireguard_peers = list_conv "wireguard_peers" "network" [] peer_section (fun b _ => peer_back b).
Proof. reflexivity. Qed.

(** ** Facts about each stage *)
Section Stages.
  Variable config : dict.
  Lemma objects_cases k (P : nat -> dict -> Prop) : objects_at k config P ->
    exists l, dget k config = option_map (fun l => VList (map VDict l)) l /\
      match l with None => True | Some l => l <> [] /\ forall j d, nth_error l j = Some d -> P (S j) d end.
  Proof.
    unfold objects_at, optional. destruct (dget k config) as [v|].
    - intros (l & -> & H). exists (Some l). auto.
    - intros _. exists None. auto.
  Qed.
  Lemma object_cases k (P : dict -> Prop) : object_at k config P ->
    exists d, dget k config = option_map VDict d /\ match d with None => True | Some d => P d end.
  Proof.
    unfold object_at, optional. destruct (dget k config) as [v|].
    - intros (l & -> & H). exists (Some l). auto.
    - intros _. exists None. auto.
  Qed.

  (** A stage of the given converter, key, package and types *)
  Definition stage_for_if (ready : list stage -> Prop) (sees : oracle -> backend -> dict -> Prop) (val base : option val) (more : dict)
      (c : converter) (key pkg : string) (types : list string) (names : list string) (good : string -> Prop)
      (shape : list dict -> Prop) : Prop :=
    exists g, sg_conv g = c /\ sg_key g = key /\ sg_pkg g = pkg /\ (sg_eats g = fun d => negb (skip_block types d)) /\
      sg_val g = val /\ sg_base g = base /\ sg_more g = more /\
      stage_facts_if ready sees config g names good /\ shape (sg_secs g).
  Definition stage_for (c : converter) (key pkg : string) (types : list string) (names : list string) (good : string -> Prop)
      (shape : list dict -> Prop) : Prop :=
    stage_for_if (fun _ => True) (fun _ _ _ => True) (dget key config) None [] c key pkg types names good shape.
  (** The sections that a converter of objects makes *)
  Definition made_by (key : string) (sec : dict -> nat -> res dict) (ss : list dict) : Prop :=
    indexed (fun i b s => sec b i = Ok s) 0 (objects key config) ss.
  Definition made_alone (key pkg : string) (fwd : dict -> dict -> res dict) (ss : list dict) : Prop :=
    Forall2 (fun b s => fwd b [] = Ok [(pkg, VList [VDict s])]) (objects key config) ss.

  Lemma general_stage f1 f2 : object_at "general" config (general_ok (timezones f1 f2)) ->
    stage_for (general (timezones f1 f2) (timezones_reversed f1 f2)) "general" "system" ["system"]
      (map (name_or "id" "system") (objects "general" config)) (fun t => t = "system")
      (made_alone "general" "system" (general_fwd_block (timezones f1 f2))).
  Proof.
    intros H. destruct (object_cases _ _ H) as (d & Hk & Hd). rewrite general_is.
    destruct (single_facts "general" "system" ["system"] (general_fwd_block (timezones f1 f2)) (general_back (timezones_reversed f1 f2))
      (name_or "id" "system") "system" config d eq_refl Hk) as (ss & Hss).
    - destruct d as [d|]; [|exact I]. destruct (general_object f1 f2 (timezones_reversed f1 f2) d Hd) as (Ho & s & Es).
      exists s. split; [exact Es|]. rewrite Es in Ho. exact Ho.
    - destruct Hss as [Hss Hsh]. eexists. split; [|split; [|split; [|split; [|split; [|split; [|split; [|split; [exact Hss|exact Hsh]]]]]]]]; try reflexivity. symmetry. exact Hk.
  Qed.
  Lemma ntp_stage : object_at "ntp" config ntp_ok ->
    stage_for ntp "ntp" "system" ["timeserver"] (map (name_or "id" "ntp") (objects "ntp" config)) (fun t => t = "timeserver")
      (made_alone "ntp" "system" ntp_fwd_block).
  Proof.
    intros H. destruct (object_cases _ _ H) as (d & Hk & Hd). rewrite ntp_is.
    destruct (single_facts "ntp" "system" ["timeserver"] ntp_fwd_block ntp_back
      (name_or "id" "ntp") "timeserver" config d eq_refl Hk) as (ss & Hss).
    - destruct d as [d|]; [|exact I]. eexists. split; [|apply ntp_object, Hd].
      destruct Hd as (_ & Hne & _). destruct d; [congruence|reflexivity].
    - destruct Hss as [Hss Hsh]. eexists. split; [|split; [|split; [|split; [|split; [|split; [|split; [|split; [exact Hss|exact Hsh]]]]]]]]; try reflexivity. symmetry. exact Hk.
  Qed.
  Lemma list_for key pkg types sec back namef (good : string -> Prop) P :
    (forall t, good t -> types = [] \/ existsb (String.eqb t) types = true) ->
    objects_at key config P ->
    (forall i b, P i b -> exists type, good type /\ object_rt b (namef i b) type (sec b i) (fun s => back s i)) ->
    stage_for (list_conv key pkg types sec back) key pkg types (numbered namef 1 (objects key config)) good (made_by key sec).
  Proof.
    intros Hg H HP. destruct (objects_cases _ _ H) as (l & Hk & Hl).
    destruct (list_facts key pkg types sec back namef good config l Hg Hk) as (ss & Hss).
    - destruct l as [l|]; [|exact I]. destruct Hl as [Hne Hl]. split; [exact Hne|]. intros j b Hj. apply HP, Hl, Hj.
    - destruct Hss as [Hss Hsh]. eexists. split; [|split; [|split; [|split; [|split; [|split; [|split; [|split; [exact Hss|exact Hsh]]]]]]]]; try reflexivity. symmetry. exact Hk.
  Qed.
  Ltac one_type := intros t ->; right; reflexivity.
  Ltac two_types := intros t [-> | ->]; right; reflexivity.
  Lemma numbered_map (A B : Type) (f : A -> B) : forall l i, numbered (fun _ => f) i l = map f l.
  Proof. induction l as [|x l IH]; intros i; [reflexivity|]. cbn. rewrite IH. reflexivity. Qed.
  Lemma led_stage : objects_at "led" config (fun _ => led_ok) ->
    stage_for led "led" "system" ["led"] (map led_name (objects "led" config)) (fun t => t = "led")
      (made_by "led" (fun b _ => led_section b)).
  Proof.
    intros H. rewrite led_is, <- (numbered_map _ _ led_name _ 1). apply (list_for _ _ _ _ _ _ _ (fun _ => led_ok)); [one_type|exact H|].
    intros i b Hb. exists "led". split; [reflexivity|]. apply led_object, Hb.
  Qed.
  Lemma routes_stage : objects_at "routes" config route_ok ->
    stage_for routes "routes" "network" ["route"; "route6"]
      (numbered (fun i => name_or "name" ("route" +++ number i)) 1 (objects "routes" config)) (fun t => t = "route" \/ t = "route6") (made_by "routes" route_section).
  Proof.
    intros H. rewrite routes_is. apply (list_for _ _ _ _ _ _ _ route_ok); [two_types|exact H|].
    intros i b Hb. destruct (route_object i b Hb) as (t & Ht & Ho). exists t. auto.
  Qed.
  Lemma rules_stage : objects_at "ip_rules" config rule_ok ->
    stage_for rules "ip_rules" "network" ["rule"; "rule6"]
      (numbered (fun i => name_or "name" ("rule" +++ number i)) 1 (objects "ip_rules" config)) (fun t => t = "rule" \/ t = "rule6") (made_by "ip_rules" rule_section).
  Proof.
    intros H. rewrite rules_is. apply (list_for _ _ _ _ _ _ _ rule_ok); [two_types|exact H|].
    intros i b Hb. destruct (rule_object i b Hb) as (t & Ht & Ho). exists t. auto.
  Qed.
  Lemma radios_stage dsa : objects_at "radios" config (fun _ => radio_ok dsa) ->
    stage_for (radios dsa) "radios" "wireless" ["wifi-device"] (radio_names config) (fun t => t = "wifi-device")
      (made_by "radios" (fun b _ => radio_section dsa b)).
  Proof.
    intros H. rewrite radios_is. unfold radio_names. rewrite <- (numbered_map _ _ (name_or "name" EmptyString) _ 1).
    apply (list_for _ _ _ _ _ _ _ (fun _ => radio_ok dsa)); [one_type|exact H|].
    intros i b Hb. exists "wifi-device". split; [reflexivity|]. apply radio_object, Hb.
  Qed.
  Lemma peers_stage : objects_at "wireguard_peers" config peer_ok ->
    stage_for wireguard_peers "wireguard_peers" "network" []
      (numbered peer_name 1 (objects "wireguard_peers" config)) (fun t => startswith "wireguard_" t = true) (made_by "wireguard_peers" peer_section).
  Proof.
    intros H. rewrite peers_is. apply (list_for _ _ _ _ _ _ _ peer_ok); [left; reflexivity|exact H|].
    intros i b Hb. destruct (peer_object i b Hb) as (t & Ht & Ho). exists t. auto.
  Qed.

  (** The switches *)
  Lemma vlans_named n c : forall vlans vsecs j, 
    indexed (fun j v vs => object_rt v (vlan_name n j v) "switch_vlan" (Ok vs)
      (fun s => do v' <- vlan_back s (c + j); do d <- dgetE "device" v'; if py_eq d (VStr n) then Ok v' else Err EType)) j vlans vsecs ->
    named vsecs (numbered (vlan_name n) (S j) vlans) /\ 
    forall s, In s vsecs -> section_ok s /\ dget ".type" s = Some (VStr "switch_vlan") /\ forall s', section_reads s s' -> dget ".type" s' = Some (VStr "switch_vlan").
  Proof.
    intros vlans vsecs j H. induction H as [j|j v vs vlans vsecs (s & E & Hok & Hn & Hty & Hb) H [IH1 IH2]]; [split; [constructor|intros s []]|].
    injection E as <-. split; [constructor; assumption|]. intros x [<-|Hx]; [|apply IH2, Hx]. split; [exact Hok|]. split; [exact Hty|]. intros s' Hs'. apply Hb, Hs'.
  Qed.
  Lemma sw_named : forall c l ss, sw_secs c l ss ->
    named ss (flat_map switch_names l) /\ forall s, In s ss -> section_ok s /\ (exists t, (t = "switch" \/ t = "switch_vlan") /\ dget ".type" s = Some (VStr t)) /\ forall s', section_reads s s' -> exists t, (t = "switch" \/ t = "switch_vlan") /\ dget ".type" s' = Some (VStr t).
  Proof.
    intros c l ss H. induction H as [c|c s l n vlans main vsecs ss H1 Hn Hnd Hv Hne (m0 & E & Hok & Hnm & Hty & Hb) Hi H [IH1 IH2]].
    - split; [constructor|intros s []].
    - injection E as <-. destruct (vlans_named n c vlans vsecs 0 Hi) as [V1 V2]. split.
      + cbn [flat_map]. unfold switch_names at 1. unfold vlans_of. rewrite Hv, dicts_of_map.
        assert (En : name_or "name" EmptyString s = n) by (unfold name_or; rewrite Hn; reflexivity). rewrite En.
        cbn [app]. constructor; [exact Hnm|]. apply Forall2_app; [exact V1|exact IH1].
      + intros x [<-|Hx].
        * split; [exact Hok|]. split; [eauto|]. intros s' Hs'. exists "switch". split; [left; reflexivity|]. apply Hb, Hs'.
        * apply in_app_iff in Hx as [Hx|Hx]; [|apply IH2, Hx]. destruct (V2 x Hx) as (X1 & X3 & X2). split; [exact X1|]. split; [eauto|].
          intros s' Hs'. exists "switch_vlan". split; [right; reflexivity|apply X2, Hs'].
  Qed.
  Definition switch_shape (l : list dict) (ss : list dict) : Prop :=
    exists sss, Forall2 (fun s t => switch_sections s = Ok t) l sss /\ ss = concat sss.
  Lemma sw_shape : forall c l ss, sw_secs c l ss -> switch_shape l ss.
  Proof.
    intros c l ss H. induction H as [c|c s l n vlans main vsecs ss H1 Hn Hnd Hv Hne Ho Hi H (sss & F & ->)].
    - exists []. split; [constructor|reflexivity].
    - exists ((main :: vsecs) :: sss). split; [constructor; assumption|reflexivity].
  Qed.
  Lemma switch_stage_for : switches_at config ->
    stage_for switch "switch" "network" sw_types (flat_map switch_names (objects "switch" config)) (fun t => t = "switch" \/ t = "switch_vlan")
      (switch_shape (objects "switch" config)).
  Proof.
    unfold switches_at, optional. destruct (dget "switch" config) as [v|] eqn:Hk.
    - intros (l & -> & Hne & Hok & Hnd). destruct (sw_secs_exist l 0 Hok) as (ss & Hss). destruct (sw_named _ _ _ Hss) as [Hn Hs].
      exists (switch_stage (Some l) ss). split; [|split; [|split; [|split; [|split; [|split; [|split; [|split]]]]]]]; try reflexivity; rewrite ?(objects_list _ _ _ Hk); [symmetry; exact Hk| |eapply sw_shape, Hss]. constructor.
      + intros before _. apply switch_stage_fwd; assumption.
      + intros oid B orig _ _. apply alone_bwd; [reflexivity|reflexivity|]. apply switch_stage_bwd; assumption.
      + intros E. exfalso. cbn in E. subst ss. inversion Hss; subst. congruence.
      + intros s Hx. apply Hs, Hx.
      + exact Hn.
      + intros s Hx. apply Hs, Hx.
      + intros s s' Hx. apply Hs, Hx.
    - intros _. exists (switch_stage None []). split; [|split; [|split; [|split; [|split; [|split; [|split; [|split]]]]]]]; try reflexivity; rewrite ?(objects_none _ _ Hk); [symmetry; exact Hk| |exists []; split; [constructor|reflexivity]].
      constructor; try (intros; contradiction).
      + intros before _. apply switch_stage_fwd_none, Hk.
      + intros oid B orig _ _. apply alone_bwd; [reflexivity|reflexivity|]. apply switch_stage_bwd_none.
      + split; reflexivity.
      + constructor.
  Qed.

  (** The converters that have nothing to do *)
  Lemma inert_for c key pkg types :
    c_fwd_run c config = false -> dget key config = None -> (forall inter, c_bwd_run c inter = dmem pkg inter) ->
    (forall orig rest config inter, parsed_data orig -> (forall d, In d rest -> skip_block types d = true) ->
      (forall d, In d rest -> exists n, sec_name d n) ->
      dget pkg inter = Some (VList (map VDict rest)) ->
      c_bwd c orig config inter = ((config, dset pkg (VList (map VDict rest)) inter), Ok [])) ->
    stage_for c key pkg types [] (fun _ => False) (fun ss => ss = []).
  Proof.
    intros H1 H2 H3 H4. exists (inert c key pkg types). split; [|split; [|split; [|split; [|split; [|split; [|split; [|split]]]]]]]; try reflexivity; [symmetry; exact H2|]. apply inert_facts; assumption.
  Qed.
  Lemma interfaces_none oid dsa : dget "interfaces" config = None ->
    stage_for (interfaces oid dsa) "interfaces" "network" uci_types [] (fun _ => False) (fun ss => ss = []).
  Proof.
    intros H. apply inert_for; try assumption; try reflexivity; [cbn; unfold dmem; rewrite H; reflexivity|].
    intros orig rest cfg inter _ Hs _ Hg. cbn [c_bwd interfaces simple_converter]. unfold interfaces_bwd. rewrite Hg. cbn [as_list].
    rewrite loop_skip by (intros d Hd; unfold skip_non_device; rewrite (Hs d Hd); reflexivity).
    rewrite loop_skip by (intros d Hd; unfold skip_vlan; rewrite (Hs d Hd); reflexivity). cbn [bind dkeys map fst foldM].
    rewrite loop_skip by exact Hs. reflexivity.
  Qed.
  Lemma zerotier_none : dget "zerotier" config = None ->
    stage_for owrt_zerotier "zerotier" "zerotier" ["zerotier"; "network"] [] (fun _ => False) (fun ss => ss = []).
  Proof.
    intros H. apply inert_for; try assumption; try reflexivity; [cbn; unfold dmem; rewrite H; reflexivity|].
    intros orig rest cfg inter _ Hs _ Hg. cbn [c_bwd owrt_zerotier]. unfold zt_bwd, bwd_list. rewrite Hg. cbn [as_list].
    rewrite loop_skip by exact Hs. reflexivity.
  Qed.
End Stages.

(** ** Bridges are found in any parsed data *)
Definition parsed_section (s : dict) : Prop :=
  (exists n, dget ".name" s = Some (VStr n)) /\ forall k v, dget k s = Some v -> k <> "bridge_21" -> exists x, v = VStr x \/ exists l, v = VList (map VStr l).
Lemma uci_value_texts v u : uci_value v = Some u -> exists x, u = VStr x \/ exists l, u = VList (map VStr l).
Proof.
  destruct v as [|[]|z|r|[|c s]|[|x l]|[|kv d]]; cbn; intros H; try discriminate H; injection H as <-;
    try (eexists; left; reflexivity).
  - exists EmptyString. right. exists (map py_str (x :: l)). cbn. rewrite map_map. reflexivity.
  - exists EmptyString. right. exists (map fst (kv :: d)). cbn. rewrite map_map. reflexivity.
Qed.
Lemma section_parsed s s' : section_ok s -> section_reads s s' -> parsed_section s'.
Proof.
  intros (_ & (t & n & Ht & _ & Hn & _) & _) H. split.
  - exists n. apply (reads_as_name _ _ _ H Hn).
  - intros k v Hv Hk. destruct H as (b0 & [_ H0] & [_ H']).
    assert (G : forall v, dget k b0 = Some v -> exists x, v = VStr x \/ exists l, v = VList (map VStr l)).
    { intros w Hw. rewrite H0 in Hw. destruct (String.eqb_spec k ".type") as [->|]; [cbn in Hw; rewrite Ht in Hw; injection Hw as <-; eauto|].
      destruct (String.eqb_spec k ".name") as [->|]; [cbn in Hw; rewrite Hn in Hw; injection Hw as <-; eauto|]. cbn [orb] in Hw.
      destruct (startswith "." k); [discriminate|]. destruct (dget k s) as [u|]; [|discriminate]. eapply uci_value_texts; exact Hw. }
    rewrite H' in Hv. rewrite (eqb_neq k "bridge_21" Hk) in Hv. cbn [andb] in Hv.
    destruct (is_text (dget ".type" b0) "bridge-vlan").
    + destruct (String.eqb k ".type"); [injection Hv as <-; eauto|]. destruct (String.eqb k "type"); [injection Hv as <-; eauto|]. auto.
    + destruct (is_text (dget ".type" b0) "device"); [|auto]. destruct (String.eqb k ".type"); [injection Hv as <-; eauto|].
      destruct (String.eqb k "type" && absent_or_false (dget "type" b0)); [injection Hv as <-; eauto|]. auto.
Qed.
Lemma iter_strs_texts l : iter_strs (VList (map VStr l)) = Ok l.
Proof. cbn. induction l as [|x l IH]; [reflexivity|]. cbn. rewrite IH. reflexivity. Qed.
Lemma bridge_members_ok dsa s : parsed_section s -> exists m, bridge_members dsa s = Ok m.
Proof.
  intros [_ H]. unfold bridge_members. destruct (dsa && truthy (dgetN "ports" s)) eqn:E.
  - unfold dgetN in *. destruct (dget "ports" s) as [v|] eqn:Ev; [|rewrite andb_false_r in E; discriminate].
    destruct (H "ports" v Ev) as (x & [-> |(l & ->)]); [discriminate|cbn; eauto|]. rewrite iter_strs_texts. cbn. eauto.
  - destruct (dgetN "ifname" s); eauto.
Qed.
Lemma track_one_ok dsa m s : parsed_section s -> exists m', track_one dsa m (VDict s) = Ok m'.
Proof.
  intros H. unfold track_one. cbn [as_dict bind]. destruct (negb (py_eq (dgetN "type" s) (VStr "bridge"))); [eauto|].
  destruct (bridge_members_ok dsa s H) as ([ms|] & ->); cbn [bind]; [|eauto]. destruct H as [(n & Hn) _].
  unfold dgetE. rewrite Hn. cbn [bind as_str]. eauto.
Qed.
Lemma foldM_total (A B : Type) (f : A -> B -> res A) : forall l, (forall x a, In x l -> exists a', f a x = Ok a') -> forall a, exists a', foldM f a l = Ok a'.
Proof.
  induction l as [|x l IH]; intros H a; [cbn; eauto|]. cbn. destruct (H x a) as (a' & ->); [left; reflexivity|]. cbn.
  apply IH. intros y b Hy. apply H. right; exact Hy.
Qed.
Lemma track_ok dsa orig : parsed_data orig -> exists m, track_bridged dsa orig = Ok m.
Proof.
  intros H. unfold track_bridged. destruct (dget "network" orig) as [v|] eqn:E; [|eauto].
  destruct (H _ _ E) as (ss & ss' & -> & F & Hok). cbn [as_list bind]. apply foldM_total. intros x m Hx.
  apply in_map_iff in Hx as (d & <- & Hd). apply track_one_ok. destruct (Forall2_In_r _ _ _ _ F Hd) as (s & Hs & Hr).
  eapply section_parsed; [apply Hok, Hs|exact Hr].
Qed.
(** ** Interfaces *)
Definition some_list (l : list dict) : option val := match l with [] => None | _ => Some (VList (map VDict l)) end.
Section Interfaces.
  Variable config : dict.
  Variable oid : oracle.
  Variable dsa : bool.
  Hypothesis quiet : dns_config config.
  Definition dns_more (l : list dict) : dict :=
    (match olist (map VStr (flat_map (reads1 config) l)) with Some v => [("dns_servers", v)] | None => [] end ++
     match olist (map VStr (flat_map (reads2 config) l)) with Some v => [("dns_search", v)] | None => [] end)%list.
  Lemma dget_dns_more l k : dget k (dns_more l) = if String.eqb k "dns_servers" then olist (map VStr (flat_map (reads1 config) l))
    else if String.eqb k "dns_search" then olist (map VStr (flat_map (reads2 config) l)) else None.
  Proof. unfold dns_more. destruct (olist (map VStr (flat_map (reads1 config) l))), (olist (map VStr (flat_map (reads2 config) l))); cbn [app dget]; fields k; reflexivity. Qed.
  Definition interfaces_stage (l secs : list dict) : stage :=
    {| sg_conv := interfaces oid dsa; sg_key := "interfaces"; sg_pkg := "network"; sg_base := None; sg_val := some_list l; sg_more := dns_more l; sg_secs := secs;
       sg_eats := fun d => negb (skip_block uci_types d) |}.
  Lemma items_apart l ts : devices_apart dsa l -> map it_b ts = l -> (forall t, In t ts -> it_ok dsa t) -> RtIfStage.apart ts.
  Proof.
    intros Ha <- Hok i j a b Hi Hj Hij Ho. pose proof (nth_error_In _ _ Hi) as Ia. pose proof (nth_error_In _ _ Hj) as Ib.
    assert (Name : forall x, it_ok dsa x -> name_or "name" EmptyString (it_b x) = it_n x).
    { intros x [(F & _)|(_ & ty & ads & F & _)]; unfold name_or; [rewrite (i_name _ _ _ _ _ _ _ F)|rewrite (p_name _ _ _ _ _ _ F)]; reflexivity. }
    pose proof (Name a (Hok a Ia)) as Na. pose proof (Name b (Hok b Ib)) as Nb.
    destruct (Hok a Ia) as [(Fa & _ & Da)|(Da & _)]; [|unfold owned in Ho; rewrite Da in Ho; discriminate Ho].
    unfold it_key. rewrite <- Na, <- Nb. intros E. injection E as E. revert E. apply (proj1 Ha i j); try assumption.
    - rewrite nth_error_map, Hi. reflexivity.
    - rewrite nth_error_map, Hj. reflexivity.
    - rewrite (own_device_has _ _ _ _ _ _ _ Fa). unfold owned in Ho. destruct (it_d a); [|discriminate]. destruct Da as (-> & -> & _). reflexivity.
  Qed.
  Lemma items_paths l ts : devices_apart dsa l -> map it_b ts = l -> (forall t, In t ts -> it_ok dsa t) -> paths_free ts.
  Proof.
    intros [_ Ha] <- Hok a b Ia Ib Ho (_ & ty & ads & Pb & _) Hd p.
    destruct (Hok a Ia) as [(Fa & _ & Da)|(Da & _)]; [|unfold owned in Ho; rewrite Da in Ho; discriminate Ho].
    assert (O : own_device dsa (it_b a) = true). { rewrite (own_device_has _ _ _ _ _ _ _ Fa). unfold owned in Ho. destruct (it_d a); [|discriminate]. destruct Da as (-> & -> & _). reflexivity. }
    assert (Eo : own_protocol (it_b b) = true) by (unfold own_protocol; rewrite (p_type _ _ _ _ _ _ Pb); unfold text; apply existsb_exists; exists ty; rewrite eqb_refl; split; [exact (p_in _ _ _ _ _ _ Pb)|reflexivity]).
    pose proof (Ha _ _ (in_map it_b _ _ Ia) (in_map it_b _ _ Ib) O Eo Hd) as X. unfold name_or in X. rewrite (i_name _ _ _ _ _ _ _ Fa) in X. unfold text in X. unfold it_key.
    change (":" +++ it_n a) with (String ":" (it_n a)). intros E. injection E as E. rewrite <- E in X. discriminate X.
  Qed.
  Lemma at_net_ok l m : (forall b, In b l -> is_wireless b = true -> addressed b = true) ->
    (forall b, In b m -> is_wireless b = true /\ addressed b = false) ->
    (forall b, In b (flat_map wired l) -> wired_ok dsa b) ->
    (forall b, In b (l ++ m) -> is_wireless b = true -> wireless_ok (l ++ m) b) ->
    forall b, In b (l ++ m) -> net_ok dsa b.
  Proof.
    intros H1 H2 H3 H4 b Hb. unfold net_ok. destruct (is_wireless b) eqn:Ew.
    - right. destruct (H4 b Hb Ew) as (W1 & W2 & (n & Hn & _ & _ & w & Hw & _) & _ & _ & W3). split; [reflexivity|]. split; [exact W1|]. split; [exact W2|].
      destruct (addressed b) eqn:Ea.
      + apply in_app_iff in Hb as [Hb|Hb]; [|destruct (H2 b Hb); congruence]. apply H3, in_flat_map. exists b. split; [exact Hb|]. unfold wired. rewrite Ew, Ea. left; reflexivity.
      + split; [exists n; exact Hn|]. intros k Hk. apply (W3 eq_refl k Hk).
    - left. split; [reflexivity|]. apply in_app_iff in Hb as [Hb|Hb]; [|destruct (H2 b Hb); congruence].
      apply H3, in_flat_map. exists b. split; [exact Hb|]. unfold wired. rewrite Ew. left; reflexivity.
  Qed.
  Lemma wired_bare m : (forall b, In b m -> is_wireless b = true /\ addressed b = false) -> flat_map wired m = [].
  Proof.
    induction m as [|b m IH]; intros H; [reflexivity|]. cbn [flat_map]. destruct (H b (or_introl eq_refl)) as [E1 E2]. unfold wired at 1. rewrite E1, E2. apply IH.
    intros x Hx. apply H. right; exact Hx.
  Qed.
  Lemma interfaces_stage_for : interfaces_at dsa config -> NoDup (flat_map (interface_names dsa) (network_interfaces config)) ->
    stage_for_if config (fun _ => True) (fun _ _ _ => True) (some_list (network_interfaces config)) None (dns_more (network_interfaces config))
      (interfaces oid dsa) "interfaces" "network" uci_types (flat_map (interface_names dsa) (network_interfaces config))
      (fun t => t = "interface" \/ t = "device") (if_list dsa config (network_interfaces config)).
  Proof.
    unfold interfaces_at, optional, network_interfaces. destruct (dget "interfaces" config) as [v|] eqn:Hk.
    - intros (l & m & -> & Hne & Ha & Hm & Hok & Hap & Hw & _). rewrite (objects_list _ _ _ Hk). intros Hnd.
      destruct (if_fwd oid dsa config quiet (l ++ m) [] [] (at_net_ok l m Ha Hm Hok Hw) (Forall2_nil _) Hnd) as (secs & E & Hl & Hn). cbn [app] in E.
      assert (Ewm : flat_map wired (l ++ m) = flat_map wired l) by (rewrite flat_map_app, (wired_bare m Hm); apply app_nil_r).
      rewrite Ewm in *. set (L := flat_map wired l) in *.
      assert (Fw : forall before, stage_fwd config before (interfaces_stage L secs)).
      { intros before. right. split; [cbn; unfold dmem; rewrite Hk; reflexivity|]. intros inter _. cbn [sg_conv interfaces_stage c_fwd interfaces simple_converter].
        unfold interfaces_fwd, dgetN. rewrite Hk. cbn [as_list bind]. change (@nil (string * val)) with (acc_of "network" []). rewrite E. reflexivity. }
      exists (interfaces_stage L secs). split; [|split; [|split; [|split; [|split; [|split; [|split; [|split]]]]]]]; try reflexivity; [|exact Hl]. constructor.
      + intros before _. apply Fw.
      + intros oid' B orig _ _. split; [reflexivity|]. cbn [sg_conv sg_secs sg_pkg sg_val sg_base sg_more sg_key sg_eats interfaces_stage]. intros own rest cfg inter Hcn Hi Hmo F Hnn Hwf He Hg. cbn in Hi.
        destruct (read_items dsa config L secs Hl own F) as (ts & -> & Hb & Ht).
        assert (Ht1 : forall t, In t ts -> it_ok dsa t) by (intros t X; apply Ht, X).
        assert (Ht2 : forall t, In t ts -> dns_in config (it_b t) (it_opts t)) by (intros t X; apply Ht, X).
        destruct (interfaces_back dsa config ts rest inter quiet Ht1 Ht2 (items_apart L ts Hap Hb Ht1) (items_paths L ts Hap Hb Ht1)) as (bs & r & Ei & [Hr HA] & Fb); try assumption.
        { intros d Hd. apply Hwf, Hd. } { intros d Hd. apply negb_false_iff, He, Hd. }
        rewrite Hb in *.
        assert (Hfr : forall k, In k (dkeys r) -> dget k cfg = None).
        { intros k Hin. assert (X : dget k r <> None) by (intros X; apply dget_none_keys in X; contradiction). rewrite HA in X.
          destruct (String.eqb_spec k "interfaces") as [->|]; [exact Hi|]. apply Hmo. unfold dmem. rewrite dget_dns_more. match type of X with ?o <> None => change (match o with Some _ => true | None => false end = true); destruct o; [reflexivity|congruence] end. }
        exists cfg, r, (cfg ++ r)%list. split; [cbn [c_bwd interfaces simple_converter]; rewrite Ei; reflexivity|]. split.
        { destruct r as [|kv r]; [apply app_nil_r|]. apply merge_fresh_all; assumption. }
        split. { rewrite dkeys_app. apply NoDup_app_intro; [exact Hcn|exact Hr|]. intros k K1 K2. apply dget_none_keys in K1; [exact K1|apply Hfr, K2]. }
        split.
        { intros k Hk'. rewrite dget_app, dget_dns_more. pose proof (HA k) as Gk. rewrite eqb_neq in Gk by exact Hk'.
          specialize (Hmo k). unfold dmem in Hmo. rewrite dget_dns_more in Hmo.
          match type of Gk with _ = ?o => change (match o with Some v => agree (Some v) (match dget k cfg with Some v => Some v | None => dget k r end) | None => match dget k cfg with Some v => Some v | None => dget k r end = dget k cfg end);
            change (match o with Some _ => true | None => false end = true -> dget k cfg = None) in Hmo; destruct o as [v|] end.
          - rewrite (Hmo eq_refl), Gk. exists v. split; [reflexivity|apply same_refl].
          - rewrite Gk. destruct (dget k cfg); reflexivity. }
        rewrite dget_app, Hi, HA. ev. unfold some_list. destruct Fb as [|x y xs ys Hx Fb]; [reflexivity|]. cbn [map olist].
        eexists. split; [reflexivity|]. constructor. constructor; [exact Hx|]. clear - Fb. induction Fb; constructor; assumption.
      + intros X. cbn in X |- *. subst secs. inversion Hl as [|b0 l0 n br ms opts ss1 ss2 H1 H1' H2 H3 E1 E2|]; [split; reflexivity|]. apply app_eq_nil in E2 as [-> _]. inversion H2.
      + intros s Hx. apply (if_list_ok dsa config L secs Hl s Hx).
      + exact Hn.
      + intros s Hx. apply (if_list_ok dsa config L secs Hl s Hx).
      + intros s s' Hx Hr. exists "interface". split; [left; reflexivity|]. apply (if_list_ok dsa config L secs Hl s Hx), Hr.
    - intros _ _. destruct (interfaces_none config oid dsa Hk) as (g & C & K & P & E & V & Bs & M & F & S). exists g. rewrite (objects_none _ _ Hk). cbn [flat_map].
      rewrite Hk in V. repeat (split; [assumption|]). split; [|cbn in S; rewrite S; constructor]. destruct F. constructor; try assumption.
      + intros s Hx. rewrite S in Hx. destruct Hx.
      + intros s s' Hx. rewrite S in Hx. destruct Hx.
  Qed.
End Interfaces.

