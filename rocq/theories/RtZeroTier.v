(** * RtZeroTier: ZeroTier VPNs of an OpenWrt template through UCI text and back
    (proofs only). *)
From Verif Require Import PyBase PyLemmas StrLemmas Merge SpecMerge MergeProofs MergeFinal Files FilesProofs Uci UciRoundTrip Backend Conv Timezones OwrtConv OpenVpnConv OwrtWireless OwrtInterfaces OpenWrt
  SpecUci SpecConv SpecDevice SpecShapes SpecTrip SpecZeroTier ConvLemmas SortLemmas RtStage RtBack RtGeneric RtSystem RtDefault RtTrip RtObjects RtSwitch RtTunnel.

Lemma sdrop_substring m : forall n s, String.length s <= n + m -> sdrop n s = substring n m s.
Proof.
  induction n as [|n IH]; intros s H.
  - cbn [sdrop]. revert s H. induction m as [|m IH]; intros [|c s] H; cbn in *; try reflexivity; try lia. f_equal. apply IH. lia.
  - destruct s as [|c s]; [cbn; destruct m; reflexivity|]. cbn in *. apply IH. lia.
Qed.
Lemma slast_six s : slast 6 s = last_six s.
Proof. unfold slast, last_six. apply sdrop_substring. lia. Qed.

(** ** Sections *)
Lemma section_read_intro s type name (P : dict -> Prop) : dget ".type" s = Some (VStr type) -> dget ".name" s = Some (VStr name) -> type <> "device" -> type <> "bridge-vlan" ->
  (forall s', NoDup (dkeys s') -> dget ".type" s' = Some (VStr type) -> dget ".name" s' = Some (VStr name) ->
     (forall k, dget k s' = if String.eqb k ".type" || String.eqb k ".name" then dget k s
        else if startswith "." k then None else match dget k s with Some v => uci_value v | None => None end) -> P s') ->
  forall s', section_reads s s' -> dget ".type" s' = Some (VStr type) /\ wf (VDict s') /\ P s'.
Proof.
  intros Ht Hn H1 H2 H s' Hr. pose proof (section_reads_plain _ _ _ Hr Ht H1 H2) as Hr'.
  assert (Et : dget ".type" s' = Some (VStr type)) by (rewrite (reads_get _ _ _ Hr'); exact Ht).
  assert (En : dget ".name" s' = Some (VStr name)) by (rewrite (reads_get _ _ _ Hr'); exact Hn).
  split; [exact Et|]. split.
  - eapply section_reads_wf; [exact Hr| |]; intros x Hx; [rewrite Ht in Hx|rewrite Hn in Hx]; injection Hx as <-; exact I.
  - apply H; [apply sorted_NoDup, Hr'|exact Et|exact En|]. intros k. apply reads_get, Hr'.
Qed.
Definition net_sec (n s : dict) : Prop := zt_network_section n s /\ section_ok s /\
  forall s', section_reads s s' -> dget ".type" s' = Some (VStr "network") /\ wf (VDict s') /\ exists n', zt_network_back s' = Ok n' /\ with_options n n'.
Lemma flag_back_get k d x : NoDup (dkeys d) -> NoDup (dkeys (flag_back k d)) /\
  dget x (flag_back k d) = if String.eqb x k then option_map (fun v => VBool (py_eq v (VStr "1"))) (dget k d) else dget x d.
Proof.
  intros H. unfold flag_back. destruct (dget k d) as [v|] eqn:E.
  - split; [nodup|]. dg. field x k; reflexivity.
  - split; [exact H|]. field x k; [exact E|reflexivity].
Qed.
Lemma net_made n : zt_network_ok n -> exists s, zt_network (VDict n) = Ok s /\ net_sec n s.
Proof.
  intros (Hnd & (i & Hi & Wi) & (f & Hf & Wf & Idf) & Hs). unfold zt_network. cbn [as_dict bind]. unfold dgetE. rewrite Hf. cbn [bind].
  unfold uci_name_val. cbn [as_str bind]. change (uci_name f) with (identifier f). rewrite Idf.
  set (X := dupdate _ _). assert (NX : NoDup (dkeys X)) by (unfold X; nodup).
  assert (G : forall k, dget k (ssort X) = if String.eqb k ".type" then Some (VStr "network") else if String.eqb k ".name" then Some (VStr f) else if String.eqb k "ifname" then None else dget k n).
  { intros k. unfold X. dg. fields k; reflexivity. }
  assert (NS : NoDup (dkeys (ssort X))) by (apply ssort_NoDup, NX). clearbody X. exists (ssort X). split; [reflexivity|]. split; [|split].
  - intros k. rewrite G, Hf. cbn [dget]. fields k; reflexivity.
  - eapply section_ok_intro; [exact NS|rewrite G; reflexivity|wordlit|rewrite G; reflexivity|apply Wf|].
    intros k v. rewrite G. fields k; try discriminate. intros E _ _. eapply field_writes; [exact Hs|notin|exact E].
  - apply (section_read_intro _ "network" f); [rewrite G; reflexivity|rewrite G; reflexivity|discriminate|discriminate|].
    intros s' Hnd' Gt Gn G'. unfold zt_network_back, dgetE. rewrite Gn, Gt. cbn [bind].
    set (Y := ddel ".type" (ddel ".name" s')). assert (NY : NoDup (dkeys Y)) by (unfold Y; nodup).
    assert (GY : forall k, dget k Y = if String.eqb k ".type" then None else if String.eqb k ".name" then None else
      if startswith "." k then None else if String.eqb k "ifname" then None else match dget k n with Some v => uci_value v | None => None end).
    { intros k. unfold Y. dg. rewrite G', G. fields k; try reflexivity. }
    clearbody Y. assert (Ei : dget "id" Y = Some (VStr i)). { rewrite GY. ev. rewrite Hi. destruct Wi as [Wi _]. destruct i; [congruence|reflexivity]. }
    rewrite Ei. cbn [bind]. unfold zt_ifname. cbn [as_str bind]. rewrite slast_six. fold (derived_name i).
    eexists. split; [reflexivity|]. intros k. assert (Eid : network_id n = i) by (unfold network_id, name_or; rewrite Hi; reflexivity). rewrite Eid.
    set (Z := dset "ifname" _ Y). assert (NZ : NoDup (dkeys Z)) by (unfold Z; nodup).
    pose proof (fun x => flag_back_get "allow_global" Z x NZ) as F1. destruct (F1 EmptyString) as [N1 _].
    pose proof (fun x => flag_back_get "allow_default" _ x N1) as F2. destruct (F2 EmptyString) as [N2 _].
    pose proof (fun x => flag_back_get "allow_dns" _ x N2) as F3. destruct (F3 EmptyString) as [N3 _].
    pose proof (fun x => flag_back_get "allow_managed" _ x N3) as F4.
    rewrite (proj2 (F4 k)), !(proj2 (F3 _)), !(proj2 (F2 _)), !(proj2 (F1 _)). clear F1 F2 F3 F4.
    unfold Z. dg. rewrite !GY. cbn [dget].
    assert (V : forall k x, dget k n = Some x -> In k (map fst network_flags) -> exists b, x = VBool b).
    { intros k0 x E Hin. destruct (Hs k0 x (dget_In _ _ _ E)) as (_ & _ & Sv); [cbn in Hin; cbn; intuition congruence|].
      cbn in Hin. repeat (destruct Hin as [<-|Hin]; [cbn in Sv; destruct x; try destruct Sv; eauto|]). destruct Hin. }
    field k "allow_managed"; [ev; destruct (dget "allow_managed" n) as [x|] eqn:E; [destruct (V _ _ E) as (b & ->); [cbn; tauto|]; destruct b; reflexivity|reflexivity]|].
    field k "allow_dns"; [ev; destruct (dget "allow_dns" n) as [x|] eqn:E; [destruct (V _ _ E) as (b & ->); [cbn; tauto|]; destruct b; reflexivity|reflexivity]|].
    field k "allow_default"; [ev; destruct (dget "allow_default" n) as [x|] eqn:E; [destruct (V _ _ E) as (b & ->); [cbn; tauto|]; destruct b; reflexivity|reflexivity]|].
    field k "allow_global"; [ev; destruct (dget "allow_global" n) as [x|] eqn:E; [destruct (V _ _ E) as (b & ->); [cbn; tauto|]; destruct b; reflexivity|reflexivity]|].
    ev. field k "ifname"; [reflexivity|]. 
    assert (Ek : dget k network_flags = None). { unfold network_flags. cbn [map dget]. ev. reflexivity. }
    destruct (startswith "." k) eqn:Ed.
    { assert (En : dget k n = None) by (eapply dotted_absent; [exact Hs|notin|exact Ed]). rewrite En. destruct (String.eqb k ".type"), (String.eqb k ".name"); reflexivity. }
    assert (A1 : k <> ".type") by (intros ->; discriminate). assert (A2 : k <> ".name") by (intros ->; discriminate). ev.
    pose proof (field_back _ _ _ k Hnd Hs) as Fb. rewrite Ek in Fb. specialize (Fb ltac:(notin)).
    destruct (dget k n) as [x|]; [|reflexivity]. destruct (uci_value x) as [u|]; [|congruence]. destruct Fb as (w & Ew & ->). cbn in Ew. congruence.
Qed.
Lemma nets_made l : (forall n, In n l -> zt_network_ok n) -> exists ss, mapM zt_network (map VDict l) = Ok ss /\ Forall2 net_sec l ss.
Proof.
  induction l as [|n l IH]; intros H; [exists []; split; [reflexivity|constructor]|].
  destruct (net_made n) as (s & Es & Hs); [apply H; left; reflexivity|]. destruct IH as (ss & E & F); [intros x Hx; apply H; right; exact Hx|].
  exists (s :: ss). cbn [map mapM]. rewrite Es. cbn [bind]. rewrite E. split; [reflexivity|constructor; assumption].
Qed.

(** ** A VPN *)
Definition settings_back (v v' : dict) (nets : list dict) : Prop :=
  shows v' v [("disabled", Some (VBool (is_disabled v)));
              ("config_path", given_or "config_path" (VStr "/etc/openwisp/zerotier") v);
              ("copy_config_path", given_or "copy_config_path" (VStr "1") v);
              ("networks", Some (VList (map VDict nets)))].
Definition vpn_main (v s : dict) : Prop := zt_vpn_section v s /\ section_ok s /\
  forall s', section_reads s s' -> dget ".type" s' = Some (VStr "zerotier") /\ wf (VDict s') /\
    exists v', zt_back s' = Ok v' /\ settings_back v v' (map only_joined (zt_networks v)).
Lemma text_of_field props k (v : dict) x : fields_survive props ["name"; "networks"; "disabled"] v -> ~ In k ["name"; "networks"; "disabled"] -> dget k props = None ->
  dget k v = Some x -> uci_value x = Some x.
Proof.
  intros Hf Hk Hp E. destruct (Hf k x (dget_In _ _ _ E) Hk) as (_ & _ & S). rewrite Hp in S. destruct x as [| | | |s|l|]; try destruct S.
  - destruct s; [congruence|reflexivity].
  - destruct l as [|y l]; [congruence|]. cbn [uci_value]. do 2 f_equal. assert (A : forall z, In z (y :: l) -> VStr (py_str z) = z).
    { intros z Hz. destruct (H0 z Hz) as (s & -> & _). reflexivity. }
    rewrite <- (map_id (y :: l)) at 2. apply map_ext_in, A.
Qed.
Lemma vpn_made v : zt_vpn_ok v -> exists s0 l, zt_section v = Ok s0 /\ dget "networks" s0 = Some (VList (map VDict l)) /\ zt_networks v = l /\
  (forall n, In n l -> zt_network_ok n) /\ vpn_main v (ddel "networks" s0).
Proof.
  intros (Hnd & (n & Hn & Wn & Idn) & (l & Hl & Hne & Hnets) & Hdis & Hno & Hf).
  assert (A1 : dget "enabled" v = None) by (apply Hno; cbn; tauto). assert (A2 : dget "join" v = None) by (apply Hno; cbn; tauto).
  assert (A3 : dget "local_conf" v = None) by (apply Hno; cbn; tauto). assert (A4 : dget "client_options" v = None) by (apply Hno; cbn; tauto). clear Hno.
  assert (El : zt_networks v = l) by (unfold zt_networks; apply objects_list, Hl).
  set (ids := map (fun n => VStr (network_id n)) l).
  assert (Hids : mapM (fun v => do n <- as_dict v; Ok (pop_or "id" (VStr EmptyString) n)) (map VDict l) = Ok ids).
  { unfold ids. clear - Hnets. induction l as [|m l IH]; [reflexivity|]. cbn [map mapM as_dict bind]. rewrite IH by (intros x Hx; apply Hnets; right; exact Hx). cbn [bind].
    destruct (Hnets m) as (_ & (i & Hi & _) & _); [left; reflexivity|]. unfold pop_or, network_id, name_or. rewrite Hi. reflexivity. }
  assert (Wids : forall x, In x ids -> exists w, x = VStr w /\ word w).
  { intros x Hx. unfold ids in Hx. apply in_map_iff in Hx as (m & <- & Hm). destruct (Hnets m Hm) as (_ & (i & Hi & Wi) & _). exists i. unfold network_id, name_or. rewrite Hi. auto. }
  assert (Nids : ids <> []) by (unfold ids; destruct l; [congruence|discriminate]).
  assert (Bids : mapM (fun id => do n <- zt_ifname id; Ok (VDict [("id", id); ("ifname", n)])) ids = Ok (map VDict (map only_joined l))).
  { unfold ids. clear. induction l as [|m l IH]; [reflexivity|]. cbn [map mapM]. unfold zt_ifname at 1. cbn [as_str bind]. rewrite IH. cbn [bind]. rewrite slast_six. reflexivity. }
  unfold zt_section, dgetE. rewrite Hn. cbn [bind]. unfold uci_name_val. cbn [as_str bind]. change (uci_name n) with (identifier n). rewrite Idn.
  assert (Ep : pop_or "networks" (VList []) v = VList (map VDict l)) by (unfold pop_or; rewrite Hl; reflexivity). rewrite Ep. cbn [as_list bind]. rewrite Hids. cbn [bind]. cbv zeta.
  set (c1 := dupdate _ _). assert (N1 : NoDup (dkeys c1)) by (unfold c1; nodup).
  set (path := match dget "config_path" v with Some x => x | None => VStr "/etc/openwisp/zerotier" end).
  set (copy := match dget "copy_config_path" v with Some x => x | None => VStr "1" end).
  assert (Ed : negb (truthy (pop_or "disabled" (VBool false) (ddel "name" v))) = negb (is_disabled v)).
  { unfold pop_or, is_disabled. dg. ev. unfold optional in Hdis. destruct (dget "disabled" v) as [x|]; [destruct Hdis as (b & ->)|]; reflexivity. }
  assert (G1 : forall k, dget k c1 = if String.eqb k ".type" then text "zerotier" else if String.eqb k ".name" then Some (VStr n) else if String.eqb k "enabled" then Some (VBool (negb (is_disabled v)))
     else if String.eqb k "join" then Some (VList ids) else if String.eqb k "config_path" then Some path else if String.eqb k "copy_config_path" then Some copy
     else if String.eqb k "name" then None else if String.eqb k "disabled" then None else dget k v).
  { intros k. unfold c1. rewrite Ed. unfold pop_or, path, copy, zt_default_path. dg. fields k; try reflexivity.  }
  clearbody c1.
  set (c2 := if truthy (dgetN "local_conf" c1) then _ else _).
  assert (G2 : NoDup (dkeys c2) /\ forall k, dget k c2 = if String.eqb k "local_conf" then dget "local_conf_path" v else dget k c1).
  { unfold c2, dgetN. rewrite (G1 "local_conf"), (G1 "local_conf_path"). ev. rewrite A3. cbn [truthy]. destruct (dget "local_conf_path" v) as [x|] eqn:E.
    - assert (T : truthy x = true).
      { destruct (Hf _ _ (dget_In _ _ _ E)) as (_ & _ & Sv); [notin|]. cbn in Sv. destruct x as [| | | |s|y|]; try destruct Sv; [destruct s; [congruence|reflexivity]|destruct y; [congruence|reflexivity]]. }
      rewrite T. split; [nodup|]. intros k. dg. reflexivity.
    - cbn [truthy]. split; [exact N1|]. intros k. field k "local_conf"; [rewrite G1; ev; exact A3|reflexivity]. }
  clearbody c2. destruct G2 as [N2 G2].
  set (s0 := ssort (ddel "client_options" c2)). assert (N0 : NoDup (dkeys s0)) by (unfold s0; nodup).
  assert (G0 : forall k, dget k s0 = if String.eqb k "local_conf" then dget "local_conf_path" v else if String.eqb k ".type" then text "zerotier" else if String.eqb k ".name" then Some (VStr n) else if String.eqb k "enabled" then Some (VBool (negb (is_disabled v)))
     else if String.eqb k "join" then Some (VList ids) else if String.eqb k "config_path" then Some path else if String.eqb k "copy_config_path" then Some copy
     else if String.eqb k "name" then None else if String.eqb k "disabled" then None else dget k v).
  { intros k. unfold s0. dg. rewrite G2, G1. fields k; try reflexivity. symmetry. exact A4. }
  clearbody s0. exists s0, l. split; [reflexivity|]. split; [rewrite G0; ev; exact Hl|]. split; [exact El|]. split; [exact Hnets|].
  set (s := ddel "networks" s0). assert (NS : NoDup (dkeys s)) by (unfold s; nodup).
  assert (G : forall k, dget k s = if String.eqb k "networks" then None else dget k s0) by (intros k; unfold s; dg; reflexivity). clearbody s.
  assert (Fpath : uci_value path = Some path /\ writable path).
  { unfold path. destruct (dget "config_path" v) as [x|] eqn:E; [|split; [reflexivity|apply bare_plain; reflexivity]]. split; [eapply text_of_field; [exact Hf| | |exact E]; [notin|reflexivity]|eapply field_writes; [exact Hf| |exact E]; notin]. }
  assert (Fcopy : uci_value copy = Some copy /\ writable copy).
  { unfold copy. destruct (dget "copy_config_path" v) as [x|] eqn:E; [|split; [reflexivity|apply bare_plain; reflexivity]]. split; [eapply text_of_field; [exact Hf| | |exact E]; [notin|reflexivity]|eapply field_writes; [exact Hf| |exact E]; notin]. }
  split; [|split].
  - intros k. rewrite G, G0, El. fold ids. cbn [dget]. unfold given_or. fold path copy. rewrite Hn. fields k; try reflexivity.
  - eapply section_ok_intro; [exact NS|rewrite G, G0; reflexivity|wordlit|rewrite G, G0; reflexivity|apply Wn|].
    intros k x. rewrite G, G0. fields k; try discriminate; intros E Hd Hu.
    + split; [wordlit|]. eapply field_writes; [exact Hf| |exact E]; notin.
    + split; [wordlit|]. injection E as <-. apply bare_plain. destruct (is_disabled v); reflexivity.
    + split; [wordlit|]. injection E as <-. intros y Hy. destruct (Wids y Hy) as (w & -> & Ww). apply bare_plain, Ww.
    + split; [wordlit|]. injection E as <-. apply Fpath.
    + split; [wordlit|]. injection E as <-. apply Fcopy.
    + eapply field_writes; [exact Hf|notin|exact E].
  - apply (section_read_intro _ "zerotier" n); [rewrite G, G0; reflexivity|rewrite G, G0; reflexivity|discriminate|discriminate|].
    intros s' Hnd' Gt Gn G'. unfold zt_back. dget_now. rewrite Gn. cbn [bind].
    assert (Een : pop_or "enabled" (VStr "0") (dset "name" (VStr n) (ddel ".name" s')) = VStr (bool_digit (negb (is_disabled v)))).
    { unfold pop_or. dg. ev. rewrite G'. ev. rewrite G, G0. ev. reflexivity. }
    rewrite Een, py_eq_text. assert (Edg : String.eqb (bool_digit (negb (is_disabled v))) "0" = is_disabled v) by (destruct (is_disabled v); reflexivity). rewrite Edg. cbv zeta.
    dget_now. rewrite Gt. cbn [bind].
    set (d1 := ddel ".type" _). assert (ND1 : NoDup (dkeys d1)) by (unfold d1; nodup).
    assert (GD1 : forall k, dget k d1 = if String.eqb k ".type" then None else if String.eqb k "disabled" then Some (VBool (is_disabled v)) else if String.eqb k "enabled" then None
       else if String.eqb k "name" then Some (VStr n) else if String.eqb k ".name" then None else dget k s').
    { intros k. unfold d1. dg. fields k; reflexivity. }
    clearbody d1.
    assert (Ej : pop_or "join" (VList []) d1 = VList ids).
    { unfold pop_or. rewrite GD1. ev. rewrite G'. ev. rewrite G, G0. ev. destruct ids as [|y t] eqn:Eids; [congruence|]. cbn [uci_value]. do 1 f_equal.
      rewrite <- (map_id (y :: t)) at 2. apply map_ext_in. intros z Hz. destruct (Wids z Hz) as (w & -> & _). reflexivity. }
    rewrite Ej. cbn [as_list bind]. rewrite Bids. cbn [bind].
    set (d2 := dset "networks" _ (ddel "join" d1)). assert (ND2 : NoDup (dkeys d2)) by (unfold d2; nodup).
    assert (GD2 : forall k, dget k d2 = if String.eqb k "networks" then Some (VList (map VDict (map only_joined l))) else if String.eqb k "join" then None else dget k d1).
    { intros k. unfold d2. dg. reflexivity. }
    clearbody d2.
    set (d3 := match dget "local_conf" d2 with Some c => _ | None => d2 end).
    assert (Elc : dget "local_conf" d2 = dget "local_conf_path" v /\ dget "local_conf_path" d2 = dget "local_conf_path" v).
    { rewrite !GD2, !GD1, !G', !G, !G0. ev. destruct (dget "local_conf_path" v) as [x|] eqn:E; [|split; reflexivity].
      assert (U : uci_value x = Some x) by (eapply text_of_field; [exact Hf| | |exact E]; [notin|reflexivity]). rewrite U. split; reflexivity. }
    assert (GD3 : NoDup (dkeys d3) /\ forall k, dget k d3 = if String.eqb k "local_conf" then None else dget k d2).
    { unfold d3. destruct Elc as [E1 E2]. rewrite E1. destruct (dget "local_conf_path" v) as [x|].
      - split; [nodup|]. intros k. dg. field k "local_conf_path"; [ev; symmetry; exact E2|reflexivity].
      - split; [exact ND2|]. intros k. field k "local_conf"; [exact E1|reflexivity]. }
    clearbody d3. destruct GD3 as [ND3 GD3].
    destruct (type_cast_pointwise zt_props d3 (fun k => if String.eqb k "disabled" then Some (VBool (is_disabled v)) else if String.eqb k "config_path" then Some path
       else if String.eqb k "copy_config_path" then Some copy else if String.eqb k "networks" then Some (VList (map VDict (map only_joined l))) else dget k v)) as (v' & -> & _ & Gv).
    + exact ND3.
    + intros k. rewrite GD3, GD2, GD1, G', G, G0. cbn [zt_props dget]. fields k; try assumption; try (eexists; split; [reflexivity|first [reflexivity|exact Hn]]); try dotted Hf.
      * rewrite (proj1 Fpath). eexists. split; reflexivity.
      * rewrite (proj1 Fcopy). eexists. split; reflexivity.
      * pose proof (field_back _ _ _ "port" Hnd Hf ltac:(notin)) as Fb; exact Fb.
      * pose proof (field_back _ _ _ k Hnd Hf) as Fb. destruct (startswith "." k) eqn:Edot; [eapply dotted_absent; [exact Hf|notin|exact Edot]|].
        specialize (Fb ltac:(notin)). cbn [dget] in Fb. rewrite (eqb_neq k "port") in Fb by assumption. exact Fb.
    + eexists. split; [reflexivity|]. intros k. rewrite Gv, El. cbn [dget]. unfold given_or. fold path copy. fields k; reflexivity.
Qed.

(** ** The loop of the forward conversion *)
Definition file_good (v : val) : Prop := exists f p c, v = VDict f /\ dget "path" f = Some (VStr p) /\ dget "contents" f = Some (VStr c).
Lemma fold_files_ok path : forall files contents, Forall file_good files -> exists kept c, zt_fold_files path files contents = Ok (kept, c) /\ Forall file_good kept.
Proof.
  induction files as [|v files IH]; intros contents H; [exists [], contents; split; [reflexivity|constructor]|].
  inversion H as [|? ? Hv H']; subst. destruct Hv as (f & p & c & -> & Hp & Hc). cbn [zt_fold_files as_dict bind].
  destruct (py_eq (dgetN "path" f) path).
  - unfold dgetE. rewrite Hc. cbn [bind as_str]. apply IH, H'.
  - destruct (IH contents H') as (kept & c' & -> & F). cbn [bind fst snd]. eexists _, _. split; [reflexivity|]. constructor; [exists f, p, c; auto|exact F].
Qed.
Lemma files_ok v files : zt_vpn_ok v -> Forall file_good files -> exists fs, zt_files v (VList files) = Ok fs /\ Forall file_good fs.
Proof.
  intros (_ & _ & (l & Hl & _ & _) & _) H. unfold zt_files.
  assert (Ep : pop_or "networks" (VList []) v = VList (map VDict l)) by (unfold pop_or; rewrite Hl; reflexivity). rewrite Ep. cbn [as_list bind].
  assert (E : exists lines, mapM zt_line (map VDict l) = Ok lines).
  { clear. induction l as [|n l (lines & IH)]; [exists []; reflexivity|]. cbn [map mapM zt_line as_dict bind]. rewrite IH. eexists. reflexivity. }
  destruct E as (lines & ->). cbn [bind].
  assert (G : forall c, file_good (VDict [("path", VStr (py_str (pop_or "config_path" zt_default_path v) +++ "/devicemap")); ("mode", VStr "0644"); ("contents", VStr c)])).
  { intros c. eexists _, _, _. split; [reflexivity|]. split; reflexivity. }
  destruct (negb (truthy (VList files))).
  - eexists. split; [reflexivity|]. constructor; [apply G|constructor].
  - cbn [as_list bind]. destruct (fold_files_ok (VStr (py_str (pop_or "config_path" zt_default_path v) +++ "/devicemap")) files (fold_left String.append lines ("# network_id=interface_name" +++ NL)) H) as (kept & c & E & F). rewrite E. cbn [bind fst snd].
    eexists. split; [reflexivity|]. apply Forall_app. split; [exact F|]. constructor; [apply G|constructor].
Qed.
Definition group (v : dict) (ss : list dict) : Prop := exists s ns, ss = s :: ns /\ vpn_main v s /\ Forall2 net_sec (zt_networks v) ns.
Lemma block_ok v files : zt_vpn_ok v -> Forall file_good files -> exists ss fs, zt_files v (VList files) = Ok fs /\ Forall file_good fs /\
  zt_block v (VList files) = Ok (ss, fs) /\ group v ss.
Proof.
  intros Hv Hf. destruct (files_ok v files Hv Hf) as (fs & E & F). destruct (vpn_made v Hv) as (s0 & l & Es & Hn & El & Hnets & Hm).
  destruct (nets_made l Hnets) as (ns & En & Fn). exists (ddel "networks" s0 :: ns), fs. split; [exact E|]. split; [exact F|]. split.
  - unfold zt_block. rewrite E. cbn [bind]. rewrite Es. cbn [bind]. unfold dgetE. rewrite Hn. cbn [bind as_list]. rewrite En. reflexivity.
  - exists (ddel "networks" s0), ns. rewrite El. auto.
Qed.
Lemma add_blocks_all key l ss : ss <> [] -> add_blocks key ss (acc_of key l) = acc_of key (l ++ ss).
Proof.
  intros H. unfold add_blocks, acc_of. destruct l as [|x l].
  - cbn. destruct ss; [congruence|reflexivity].
  - cbn [dget]. rewrite eqb_refl. cbn [dset]. rewrite eqb_refl, <- map_app. reflexivity.
Qed.
Definition files_good (config : dict) : Prop := exists files, pop_or "files" (VList []) config = VList files /\ Forall file_good files.
Lemma loop_ok : forall l config acc, (forall v, In v l -> zt_vpn_ok v) -> files_good config -> NoDup (dkeys config) -> l <> [] -> exists config' sss,
  zt_loop (map VDict l) config (acc_of "zerotier" acc) = (config', Ok (acc_of "zerotier" (acc ++ concat sss))) /\ Forall2 group l sss /\
  files_good config' /\ NoDup (dkeys config') /\ (forall k, k <> "files" -> dget k config' = dget k config).
Proof.
  induction l as [|v l IH]; intros config acc Hl (files & Ef & Hf) Hn Hne; [congruence|].
  cbn [map zt_loop as_dict]. rewrite Ef. destruct (block_ok v files) as (ss & fs & E1 & F & E2 & G); [apply Hl; left; reflexivity|exact Hf|]. rewrite E1, E2.
  assert (Hss : ss <> []) by (destruct G as (s & ns & -> & _); discriminate). rewrite (add_blocks_all "zerotier" acc ss Hss).
  set (config1 := dset "files" (VList fs) config). assert (N1 : NoDup (dkeys config1)) by (unfold config1; nodup).
  assert (G1 : files_good config1) by (exists fs; unfold pop_or, config1; dg; ev; auto).
  destruct l as [|w l].
  - exists config1, [ss]. cbn [map zt_loop concat]. rewrite app_nil_r. split; [reflexivity|]. split; [constructor; [exact G|constructor]|]. split; [exact G1|]. split; [exact N1|].
    intros k Hk. unfold config1. dg. ev. reflexivity.
  - destruct (IH config1 (acc ++ ss)%list) as (config' & sss & E & Fs & G' & N' & K); [intros x Hx; apply Hl; right; exact Hx|exact G1|exact N1|discriminate|].
    exists config', (ss :: sss). rewrite E. cbn [concat]. rewrite app_assoc. split; [reflexivity|]. split; [constructor; assumption|]. split; [exact G'|]. split; [exact N'|].
    intros k Hk. rewrite K by exact Hk. unfold config1. dg. ev. reflexivity.
Qed.

(** ** The loop of the backward conversion *)
Definition net_read (n o : dict) : Prop := dget ".type" o = Some (VStr "network") /\ wf (VDict o) /\ exists n', zt_network_back o = Ok n' /\ with_options n n'.
Definition group_read (v : dict) (os : list dict) : Prop := exists o ns, os = o :: ns /\ dget ".type" o = Some (VStr "zerotier") /\ wf (VDict o) /\
  (exists v', zt_back o = Ok v' /\ settings_back v v' (map only_joined (zt_networks v))) /\ Forall2 net_read (zt_networks v) ns.
Notation zt_run := (bwd_loop (skip_block ["zerotier"; "network"]) zt_bwd_block).
Definition extended (a : dict) (la : list val) (more : list dict) (a' : dict) : Prop :=
  dget "networks" a' = Some (VList (la ++ map VDict more)) /\ forall k, k <> "networks" -> dget k a' = dget k a.
Lemma run_nets : forall ns os, Forall2 net_read ns os -> forall rest i a la t, dget "networks" a = Some (VList la) -> exists more a' i',
  zt_run (map VDict (os ++ rest)) i (map VDict (os ++ rest)) (a :: t) = zt_run (map VDict rest) i' (map VDict rest) (a' :: t) /\
  Forall2 with_options ns more /\ extended a la more a'.
Proof.
  intros ns os H. induction H as [|n o ns os (Ht & Hw & n' & En & Hn) H IH]; intros rest i a la t Ha.
  - exists [], a, i. split; [reflexivity|]. split; [constructor|]. split; [rewrite app_nil_r; exact Ha|reflexivity].
  - cbn [app map bwd_loop as_dict remove_first]. rewrite (skip_typed _ o "network" Ht) by (right; reflexivity). rewrite (py_eq_refl _ Hw).
    unfold zt_bwd_block at 1. unfold dgetN. rewrite Ht. change (py_eq (VStr "network") (VStr "zerotier")) with false. cbn iota. rewrite En. cbn [bind]. unfold dgetE. rewrite Ha. cbn [bind as_list].
    destruct (IH rest (S i) (dset "networks" (VList (la ++ [VDict n'])) a) (la ++ [VDict n'])%list t) as (more & a' & i' & E & F & X1 & X2); [dg; ev; reflexivity|].
    exists (n' :: more), a', i'. split; [exact E|]. split; [constructor; assumption|]. split.
    + rewrite X1, <- app_assoc. reflexivity.
    + intros k Hk. rewrite X2 by exact Hk. dg. ev. reflexivity.
Qed.
Definition plain_vpn (v v' : dict) : Prop := settings_back v v' (map only_joined (zt_networks v)).
Lemma run_groups : forall l oss, Forall2 group_read l oss -> forall i a la t, dget "networks" a = Some (VList la) -> exists more a' vs,
  zt_run (map VDict (concat oss)) i (map VDict (concat oss)) (a :: t) = ([], Ok (a' :: t ++ vs)) /\
  Forall2 with_options (flat_map zt_networks l) more /\ extended a la more a' /\ Forall2 plain_vpn l vs.
Proof.
  intros l oss H. induction H as [|v os l oss (o & ns & -> & Ht & Hw & (v' & Ev & Hv) & Hns) H IH]; intros i a la t Ha.
  - exists [], a, []. cbn [concat map bwd_loop]. rewrite !app_nil_r. split; [reflexivity|]. split; [constructor|]. split; [split; [rewrite app_nil_r; exact Ha|reflexivity]|constructor].
  - cbn [concat app map bwd_loop as_dict remove_first]. rewrite (skip_typed _ o "zerotier" Ht) by (right; reflexivity). rewrite (py_eq_refl _ Hw).
    unfold zt_bwd_block at 1. unfold dgetN. rewrite Ht. change (py_eq (VStr "zerotier") (VStr "zerotier")) with true. cbn iota. rewrite Ev. cbn [bind app].
    destruct (run_nets _ _ Hns (concat oss) (S i) a la (t ++ [v'])%list Ha) as (m1 & a1 & i1 & E1 & F1 & X1 & X2). rewrite E1.
    destruct (IH i1 a1 (la ++ map VDict m1)%list (t ++ [v'])%list X1) as (m2 & a2 & vs & E2 & F2 & (Y1 & Y2) & Fv). rewrite E2.
    exists (m1 ++ m2)%list, a2, (v' :: vs). rewrite <- app_assoc. split; [reflexivity|]. cbn [flat_map]. split; [apply Forall2_app; assumption|]. split.
    + split; [rewrite Y1, map_app, app_assoc; reflexivity|]. intros k Hk. rewrite Y2, X2 by exact Hk. reflexivity.
    + constructor; assumption.
Qed.
Lemma run_all v l oss : Forall2 group_read (v :: l) oss -> exists more v' vs,
  zt_run (map VDict (concat oss)) 0 (map VDict (concat oss)) [] = ([], Ok (v' :: vs)) /\
  Forall2 with_options (flat_map zt_networks (v :: l)) more /\ settings_back v v' (map only_joined (zt_networks v) ++ more) /\ Forall2 plain_vpn l vs.
Proof.
  intros H. inversion H as [|? os ? oss' (o & ns & -> & Ht & Hw & (v' & Ev & Hv) & Hns) H']; subst. clear H.
  cbn [concat app map bwd_loop as_dict remove_first]. rewrite (skip_typed _ o "zerotier" Ht) by (right; reflexivity). rewrite (py_eq_refl _ Hw).
  unfold zt_bwd_block at 1. unfold dgetN. rewrite Ht. change (py_eq (VStr "zerotier") (VStr "zerotier")) with true. cbn iota. rewrite Ev. cbn [bind app].
  assert (Hv' := Hv "networks"). cbn [dget] in Hv'. change (dget "networks" v' = Some (VList (map VDict (map only_joined (zt_networks v))))) in Hv'.
  destruct (run_nets _ _ Hns (concat oss') 1 v' _ [] Hv') as (m1 & a1 & i1 & E1 & F1 & X1 & X2). rewrite E1.
  destruct (run_groups _ _ H' i1 a1 _ [] X1) as (m2 & a2 & vs & E2 & F2 & (Y1 & Y2) & Fv). cbn [app] in E2. rewrite E2.
  exists (m1 ++ m2)%list, a2, vs. split; [reflexivity|]. cbn [flat_map]. split; [apply Forall2_app; assumption|]. split; [|exact Fv].
  intros k. destruct (String.eqb_spec k "networks") as [->|Hk].
  - rewrite Y1. cbn [dget]. ev. rewrite !map_app, app_assoc. reflexivity.
  - rewrite Y2, X2 by exact Hk. rewrite (Hv k). cbn [dget]. fields k; reflexivity.
Qed.

(** ** All together *)
Lemma fwd_skip oid : forall cs rest s, (forall c, In c cs -> c_fwd_run c (st_config s) = false) -> convert_fwd oid (cs ++ rest) s [] = convert_fwd oid rest s [].
Proof.
  induction cs as [|c cs IH]; intros rest s H; [reflexivity|]. cbn [app convert_fwd]. rewrite (H c) by (left; reflexivity). cbn [negb].
  apply IH. intros x Hx. apply H. right; exact Hx.
Qed.
Lemma bwd_skip oid B : forall cs rest orig config inter, (forall c, In c cs -> c_bwd_run c inter = false) -> convert_bwd oid B (cs ++ rest) orig config inter = convert_bwd oid B rest orig config inter.
Proof.
  induction cs as [|c cs IH]; intros rest orig config inter H; [reflexivity|]. cbn [app convert_bwd]. rewrite (H c) by (left; reflexivity). cbn [negb].
  apply IH. intros x Hx. apply H. right; exact Hx.
Qed.
Lemma packages_none config : (forall k, dmem k config = true -> In k ["type"; "files"; "zerotier"]) -> NoDup (dkeys config) ->
  optional "type" config (fun x => exists t, x = VStr t) -> packages owrt_keys config [].
Proof.
  intros Hk Hn Ht. assert (H : forall k v, In (k, v) config -> In k ["type"; "files"; "zerotier"] /\ (k = "type" -> exists t, v = VStr t)).
  { intros k v Hin. apply In_dget in Hin; [|exact Hn]. split; [apply Hk; unfold dmem; rewrite Hin; reflexivity|]. intros ->. unfold optional in Ht. rewrite Hin in Ht. exact Ht. }
  clear Hk Hn Ht. induction config as [|[k v] config IH]; [constructor|]. destruct (H k v (or_introl eq_refl)) as [Hin Hty]. apply pk_known.
  - cbn [In] in Hin. repeat (destruct Hin as [<-|Hin]; [reflexivity|]). destruct Hin.
  - exact Hty.
  - apply IH. intros k0 v0 H0. apply H. right; exact H0.
Qed.
Lemma dedup_from_good : forall fs acc, Forall file_good fs -> exists m, dedup_from fs acc = Ok m.
Proof.
  induction fs as [|f fs IH]; intros acc H; [exists acc; reflexivity|]. inversion H as [|? ? (d & p & c & -> & Hp & _) H']; subst.
  cbn [dedup_from as_dict bind]. unfold dgetE. rewrite Hp. cbn [bind as_str]. apply IH, H'.
Qed.
Lemma dedup_good config : files_good config -> exists config', deduplicate_files config = Ok config'.
Proof.
  intros (fs & E & F). unfold deduplicate_files, pop_or in *. destruct (dget "files" config) as [v|]; [|eauto]. subst v. cbn [as_list bind].
  destruct fs as [|f fs]; [eauto|]. destruct (dedup_from_good (f :: fs) [] F) as (m & ->). cbn [bind]. eauto.
Qed.
Lemma reads_concat sss : forall own, Forall2 section_reads (concat sss) own -> exists oss, own = concat oss /\ Forall2 (Forall2 section_reads) sss oss.
Proof.
  induction sss as [|ss sss IH]; intros own H; cbn [concat] in H.
  - inversion H. exists []. split; [reflexivity|constructor].
  - apply Forall2_app_l in H as (o1 & o2 & -> & H1 & H2). destruct (IH o2 H2) as (oss & -> & F). exists (o1 :: oss). split; [reflexivity|constructor; assumption].
Qed.
Lemma group_reads v ss os : group v ss -> Forall2 section_reads ss os -> group_read v os.
Proof.
  intros (s & ns & -> & (_ & _ & Hm) & Hns) H. inversion H as [|? o ? os' Hr Hrs]; subst. destruct (Hm o Hr) as (Ht & Hw & v' & Ev & Hv).
  exists o, os'. split; [reflexivity|]. split; [exact Ht|]. split; [exact Hw|]. split; [eauto|].
  clear - Hns Hrs. revert os' Hrs. induction Hns as [|n s l ns (_ & _ & Hs) H IH]; intros os Hr; inversion Hr as [|? o ? os' Hr1 Hr2]; subst; constructor.
  - apply Hs, Hr1.
  - apply IH, Hr2.
Qed.
Lemma groups_read_all l sss oss : Forall2 group l sss -> Forall2 (Forall2 section_reads) sss oss -> Forall2 group_read l oss.
Proof.
  intros H. revert oss. induction H as [|v ss l sss G H IH]; intros oss Hr; inversion Hr as [|? os ? oss' Hr1 Hr2]; subst; constructor.
  - eapply group_reads; eassumption.
  - apply IH, Hr2.
Qed.
Lemma group_sections l sss : Forall2 group l sss -> forall s, In s (concat sss) -> section_ok s /\ typed_as ["zerotier"; "network"] s = true.
Proof.
  intros H. induction H as [|v ss l sss (m & ns & -> & (Hm & Mok & _) & Hns) H IH]; intros s Hin; [destruct Hin|]. cbn [concat] in Hin. apply in_app_iff in Hin as [[<-|Hin]|Hin].
  - split; [exact Mok|]. unfold typed_as. rewrite Hm. reflexivity.
  - destruct (Forall2_In_r _ _ _ _ Hns Hin) as (n & _ & Hs & Sok & _). split; [exact Sok|]. unfold typed_as. rewrite Hs. reflexivity.
  - apply IH, Hin.
Qed.
Lemma map_VDict_inj : forall a b : list dict, map VDict a = map VDict b -> a = b.
Proof. induction a as [|x a IH]; intros [|y b] E; try discriminate E; [reflexivity|]. injection E as <- E. f_equal. apply IH, E. Qed.

Section Api.
  Variable oid : oracle.
  Variable schema_ok : dict -> res unit.
  Variable dsa f1 f2 : bool.
  Variable config : dict.
  Hypothesis tpl : zt_template config.
  Let B := openwrt oid schema_ok dsa f1 f2.
  Let others := [general (timezones f1 f2) (timezones_reversed f1 f2); ntp; led; interfaces oid dsa; routes; rules; switch; radios dsa; wireless dsa; owrt_openvpn; wireguard_peers].
  Lemma convs_split : owrt_convs oid dsa f1 f2 = (others ++ [owrt_zerotier; default owrt_keys])%list.
  Proof. reflexivity. Qed.
  Lemma zt_template_api : owrt_validate schema_ok config = Ok tt ->
    exists text inter inter' v l sss v' vs more, objects "zerotier" config = v :: l /\
      renders oid B config text inter /\ sections "zerotier" ["zerotier"; "network"] inter = concat sss /\ Forall2 group (v :: l) sss /\
      dkeys inter = ["zerotier"] /\
      (forall before, owrt_parse oid B text before = ({| st_config := [("zerotier", VList (map VDict (v' :: vs)))]; st_inter := Some inter' |}, be_validate B [("zerotier", VList (map VDict (v' :: vs)))])) /\
      Forall2 with_options (flat_map zt_networks (v :: l)) more /\
      settings_back v v' (map only_joined (zt_networks v) ++ more) /\ Forall2 plain_vpn l vs.
  Proof.
    intros V. destruct tpl as (Hn & (l0 & Hl & Hne & Hvs) & Hfiles & Hty & Hkeys).
    assert (Hno : forall k, ~ In k ["type"; "files"; "zerotier"] -> dmem k config = false).
    { intros k Hk. destruct (dmem k config) eqn:E; [|reflexivity]. exfalso. apply Hk, Hkeys, E. }
    assert (Fg : files_good config).
    { unfold files_good, pop_or, optional in *. destruct (dget "files" config) as [x|]; [|exists []; split; [reflexivity|constructor]].
      destruct Hfiles as (fs & -> & Hfs). eexists. split; [reflexivity|]. apply Forall_forall. intros y Hy. apply in_map_iff in Hy as (f & <- & Hf).
      destruct (Hfs f Hf) as ((p & Hp) & c & Hc). exists f, p, c. auto. }
    destruct (loop_ok l0 config [] Hvs Fg Hn Hne) as (config1 & sss & El & Fs & Fg1 & Hn1 & Hget). cbn [app] in El.
    destruct (dedup_good config1 Fg1) as (config3 & Hd).
    assert (Hk1 : forall k, dmem k config1 = true -> In k ["type"; "files"; "zerotier"]).
    { intros k Hk. destruct (String.eqb_spec k "files") as [->|Hk']; [cbn; tauto|]. apply Hkeys. unfold dmem in *. rewrite Hget in Hk by exact Hk'. exact Hk. }
    assert (Hty1 : optional "type" config1 (fun x => exists t, x = VStr t)) by (unfold optional in *; rewrite Hget by discriminate; exact Hty).
    destruct (packages_fwd owrt_keys eq_refl config1 [] (packages_none config1 Hk1 Hn1 Hty1)) as (config2 & Hp & _ & Hg2).
    assert (Fg2 : files_good config2).
    { destruct Fg1 as (fs & E & F). exists fs. split; [|exact F]. unfold pop_or in *. rewrite Hg2 by reflexivity. exact E. }
    destruct (dedup_good config2 Fg2) as (config4 & Hd2).
    set (secs := concat sss) in *. assert (Hsecs : secs <> []).
    { unfold secs. destruct Fs as [|v ss l sss (s & ns & -> & _) F]; [congruence|discriminate]. }
    set (inter := [("zerotier", VList (map VDict secs))]).
    assert (Eacc : acc_of "zerotier" secs = inter) by (unfold acc_of, inter; destruct secs; [congruence|reflexivity]).
    assert (Hfwd : convert_fwd oid (be_convs B) (fresh config) [] = ({| st_config := config2; st_inter := Some inter |}, Ok tt)).
    { unfold B. cbn [be_convs openwrt]. rewrite convs_split, fwd_skip.
      2:{ cbn [fresh st_config]. intros c Hc. unfold others in Hc. cbn [In] in Hc.
          repeat (destruct Hc as [<-|Hc]; [first [apply (Hno "general")|apply (Hno "ntp")|apply (Hno "led")|apply (Hno "interfaces")|apply (Hno "routes")|apply (Hno "ip_rules")|apply (Hno "switch")|apply (Hno "radios")|apply (Hno "openvpn")|apply (Hno "wireguard_peers")]; cbn [In]; intuition discriminate|]). destruct Hc. }
      cbn [convert_fwd fresh st_config c_fwd_run owrt_zerotier c_fwd]. unfold dmem at 1. rewrite Hl. cbn [negb]. unfold zt_fwd, dgetN. rewrite Hl. cbn [as_list].
      change (@nil (string * val)) with (acc_of "zerotier" []) at 1. rewrite El, Eacc. unfold inter at 1. cbn iota. fold inter.
      rewrite merge_fresh_all; [|constructor; [intros []|constructor]|reflexivity]. cbn [app].
      cbn [convert_fwd st_config c_fwd_run default negb c_fwd]. unfold default_fwd. rewrite Hp. reflexivity. }
    assert (Hdata : data_ok inter).
    { split; [unfold inter; cbn; constructor; [intros []|constructor]|]. intros p [<-|[]]. split; cbn [fst snd].
      - split; [discriminate|]. split; [reflexivity|]. split; [unfold no_char; apply nochar_spec; reflexivity|reflexivity].
      - exists secs. split; [reflexivity|]. intros b Hb. eapply group_sections; [exact Fs|exact Hb]. }
    destruct (uci_round_trip inter Hdata) as (text & inter' & Hren & Hpar & Hreads).
    assert (Ei : exists own, inter' = [("zerotier", VList (map VDict own))] /\ Forall2 section_reads secs own).
    { unfold data_reads, inter in Hreads. inversion Hreads as [|? [k x] ? rest (Ek & bs & bs' & E1 & E2 & F) Hr]; subst. inversion Hr; subst. cbn in Ek, E1, E2. subst k x.
      injection E1 as E1. apply map_VDict_inj in E1. subst bs. eauto. }
    destruct Ei as (own & -> & Fo). destruct (reads_concat sss own Fo) as (oss & -> & Fos). pose proof (groups_read_all _ _ _ Fs Fos) as Gr.
    destruct l0 as [|v l]; [congruence|]. destruct (run_all v l oss Gr) as (more & v' & vs & Er & Fm & Sv & Fv).
    set (orig := [("zerotier", VList (map VDict (concat oss)))]) in *.
    exists text, inter, orig, v, l, sss, v', vs, more. split; [apply objects_list, Hl|]. split.
    { exists {| st_config := config4; st_inter := Some inter |}. split; [|reflexivity].
      unfold render. cbn [fresh st_config st_inter]. unfold B at 1. cbn [be_validate openwrt]. rewrite V.
      unfold to_intermediate. cbn [fresh st_config]. unfold B at 1. cbn [be_validate openwrt]. rewrite V.
      rewrite Hfwd. cbn [st_config st_inter]. rewrite Hd2.
      unfold render_text. cbn [st_inter st_config]. unfold B. cbn [be_render openwrt]. rewrite Hren. reflexivity. }
    split.
    { unfold sections. rewrite (objects_list "zerotier" inter secs eq_refl). fold secs. apply filter_all. intros s Hs. eapply group_sections; [exact Fs|exact Hs]. }
    split; [exact Fs|]. split; [reflexivity|]. split; [|auto].
    intros before. unfold owrt_parse, parse. rewrite Hpar. unfold to_netjson.
    assert (Hbwd : convert_bwd oid B (be_convs B) orig [] orig = (([("zerotier", VList (map VDict (v' :: vs)))], [("zerotier", VList [])]), Ok tt)).
    { unfold B at 2. cbn [be_convs openwrt]. rewrite convs_split, bwd_skip.
      2:{ intros c Hc. unfold others in Hc. cbn [In] in Hc.
          repeat (destruct Hc as [<-|Hc]; [reflexivity|]). destruct Hc. }
      cbn [convert_bwd c_bwd_run owrt_zerotier c_bwd]. change (dmem "zerotier" orig) with true. cbn [negb]. unfold zt_bwd, bwd_list. unfold orig at 1. cbn [dget]. rewrite eqb_refl. cbn [as_list].
      rewrite Er. cbn [bind]. rewrite merge_fresh_all; [|constructor; [intros []|constructor]|reflexivity]. cbn [app].
      unfold orig. cbn [dset]. rewrite eqb_refl. reflexivity. }
    rewrite Hbwd. reflexivity.
  Qed.
End Api.
