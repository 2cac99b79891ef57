(** * RtIfWifi: wireless interfaces without addresses make no network section
    (proofs only). *)
From Verif Require Import PyBase PyLemmas StrLemmas NumLemmas Merge SpecMerge MergeProofs MergeListProofs MergeFinal Backend Conv Ip IpProofs OwrtConv OwrtWireless OwrtInterfaces
  SpecUci SpecConv SpecDevice ConvLemmas SortLemmas RtStage RtBack RtGeneric RtSystem RtNetwork RtSwitch RtTrip RtAddress RtInterface RtIfFwd.

Definition bare_keys : list string := ["name"; "type"; "wireless"; "mac"; "disabled"].
Lemma bare_interface dsa b n u : NoDup (dkeys b) -> dget "name" b = text n -> dget "type" b = text "wireless" ->
  (forall k, dmem k b = true -> In k bare_keys) ->
  exists i, intermediate_interface dsa [] b (VStr u) = Ok i /\ NoDup (dkeys i) /\
    forall k, dget k i = if String.eqb k ".type" then text "interface" else if String.eqb k ".name" then text u
      else if String.eqb k "ifname" then text n else if String.eqb k "type" then text "wireless"
      else if String.eqb k "enabled" then option_map neg (dget "disabled" b) else None.
Proof.
  intros Hb Hn Ht Hk. 
  assert (A : forall k, existsb (String.eqb k) bare_keys = false -> dget k b = None).
  { intros k X. destruct (dget k b) eqn:E; [|reflexivity]. exfalso. rewrite <- not_true_iff_false in X. apply X, existsb_exists. exists k.
    split; [|apply eqb_refl]. apply Hk. unfold dmem. rewrite E. reflexivity. }
  unfold bare_keys in A. cbn [existsb] in A.
  unfold intermediate_interface. set (x0 := dupdate b _). assert (N0 : NoDup (dkeys x0)) by (unfold x0; nodup).
  assert (G0 : forall k, dget k x0 = if String.eqb k ".name" then text u else if String.eqb k ".type" then text "interface" else dget k b).
  { intros k. unfold x0. dg. reflexivity. }
  unfold dgetE at 1. rewrite G0. ev. rewrite Hn. cbn [text bind]. clearbody x0.
  set (x1 := dset "ifname" (VStr n) (ddel "name" x0)). assert (N1 : NoDup (dkeys x1)) by (unfold x1; nodup).
  assert (G1 : forall k, dget k x1 = if String.eqb k "ifname" then text n else if String.eqb k "name" then None else dget k x0) by (intros k; unfold x1; dg; reflexivity).
  clearbody x1. assert (T1 : dgetN "type" x1 = VStr "wireless"). { unfold dgetN. rewrite G1. ev. rewrite G0. ev. rewrite Ht. reflexivity. }
  rewrite T1, py_eq_text. cbn [String.eqb Ascii.eqb Bool.eqb].
  set (x2 := match dget "mac" x1 with Some _ => ddel "mac" x1 | None => x1 end).
  assert (N2 : NoDup (dkeys x2)) by (unfold x2; destruct (dget "mac" x1); nodup).
  assert (G2 : forall k, dget k x2 = if String.eqb k "mac" then None else dget k x1).
  { intros k. unfold x2. destruct (dget "mac" x1) eqn:E; [dg; reflexivity|]. field k "mac"; [exact E|reflexivity]. }
  clearbody x2. assert (A3 : dget "autostart" x2 = None). { rewrite G2. ev. rewrite G1. ev. rewrite G0. ev. apply A. reflexivity. }
  rewrite A3.
  set (x4 := match dget "disabled" x2 with Some d => ddel "disabled" (dset "enabled" (VBool (negb (truthy d))) x2) | None => x2 end).
  assert (N4 : NoDup (dkeys x4)) by (apply (NoDup_move "disabled" "enabled" neg), N2).
  assert (G4 : forall k, dget k x4 = if String.eqb k "disabled" then None else if String.eqb k "enabled" then option_map neg (dget "disabled" b) else dget k x2).
  { intros k. unfold x4. rewrite (dget_move "disabled" "enabled" neg); [|exact N2|discriminate|rewrite G2; ev; rewrite G1; ev; rewrite G0; ev; apply A; reflexivity].
    replace (dget "disabled" x2) with (dget "disabled" b); [reflexivity|]. rewrite G2. ev. rewrite G1. ev. rewrite G0. ev. reflexivity. }
  clearbody x4. set (x5 := ddel "addresses" (ddel "wireless" x4)). assert (N5 : NoDup (dkeys x5)) by (unfold x5; nodup).
  assert (G5 : forall k, dget k x5 = if String.eqb k "addresses" then None else if String.eqb k "wireless" then None else dget k x4) by (intros k; unfold x5; dg; reflexivity).
  clearbody x5.
  assert (T5 : dget "type" x5 = text "wireless"). { rewrite G5. ev. rewrite G4. ev. rewrite G2. ev. rewrite G1. ev. rewrite G0. ev. exact Ht. }
  unfold dgetE. rewrite T5. unfold text. cbn [bind as_str]. change (intermediate_type (uci_name "wireless") x5) with (Ok (A := dict) x5). cbn [bind].
  assert (Ev : check_bridge_vlan dsa [] x5 = Ok x5).
  { unfold check_bridge_vlan. destruct dsa; [|reflexivity]. unfold pop_or. rewrite G5. ev. rewrite G4. ev. rewrite G2. ev. rewrite G1. ev.
    cbn [text str_key bind existsb]. rewrite andb_false_r. reflexivity. }
  rewrite Ev. cbn [bind]. eexists. split; [reflexivity|]. split; [nodup|]. intros k. dg. rewrite G5, G4, G2, G1, G0.
  destruct (existsb (String.eqb k) bare_keys) eqn:E.
  - unfold bare_keys in E. cbn [existsb] in E. revert E. fields k; try discriminate; intros _; try reflexivity. exact Ht.
  - unfold bare_keys in E. cbn [existsb] in E. rewrite (A k E). revert E. fields k; try discriminate; intros _; reflexivity.
Qed.
Lemma block_bare oid dsa config b n ss : NoDup (dkeys b) -> dget "name" b = text n -> dget "type" b = text "wireless" ->
  (forall k, dmem k b = true -> In k bare_keys) ->
  interface_block oid dsa config (acc_of "network" ss, []) (VDict b) = Ok (acc_of "network" ss, []).
Proof.
  intros Hb Hn Ht Hk.
  assert (A : forall k, existsb (String.eqb k) bare_keys = false -> dget k b = None).
  { intros k X. destruct (dget k b) eqn:E; [|reflexivity]. exfalso. rewrite <- not_true_iff_false in X. apply X, existsb_exists. exists k.
    split; [|apply eqb_refl]. apply Hk. unfold dmem. rewrite E. reflexivity. }
  unfold interface_block. cbn [as_dict bind]. unfold dgetN at 1. rewrite (A "network") by reflexivity. cbn [truthy]. unfold dgetE at 1. rewrite Hn. unfold text at 1.
  cbn [bind uci_name_val as_str]. unfold interface_addresses. unfold dgetN. rewrite Ht. unfold text at 1. rewrite py_eq_text. cbn [String.eqb Ascii.eqb Bool.eqb].
  rewrite (A "addresses") by reflexivity. cbn [truthy negb]. unfold dgetE at 1. rewrite Ht. unfold text at 1. cbn [bind]. rewrite py_eq_text. cbn [String.eqb Ascii.eqb Bool.eqb].
  destruct (bare_interface dsa b n (uci_name n) Hb Hn Ht Hk) as (i & -> & Ni & Gi). cbn [bind py_str].
  destruct (dsa_interface dsa [] i) eqn:Ed; [|reflexivity].
  assert (Ev : dget "vlan_filtering" i = None) by (rewrite Gi; ev; reflexivity).
  unfold dsa_sections, pop_or. rewrite Ev. change (truthy (VList [])) with false. cbn iota. set (i1 := ddel "vlan_filtering" i). assert (N1 : NoDup (dkeys i1)) by (unfold i1; nodup).
  assert (G1 : forall k, dget k i1 = dget k i). { intros k. unfold i1. dg. field k "vlan_filtering"; [symmetry; exact Ev|reflexivity]. } clearbody i1.
  assert (El : add_l2_options [] i1 = ([], i1)).
  { unfold add_l2_options. assert (M : forall ks, (forall k, In k ks -> dget k i1 = None) -> fold_left move_opt ks ([], i1) = ([], i1)).
    { induction ks as [|k ks IH]; intros X; [reflexivity|]. cbn [fold_left]. unfold move_opt at 2. cbn [snd]. rewrite X by (left; reflexivity). apply IH. intros y Hy. apply X. right; exact Hy. }
    rewrite M. { cbn [snd]. unfold dgetN. rewrite G1, Gi. ev. reflexivity. }
    intros k X. rewrite G1, Gi. unfold l2_options in X. cbn [In] in X. repeat (destruct X as [<-|X]; [ev; reflexivity|]). destruct X. }
  unfold intermediate_device. rewrite El. unfold dgetE at 1. rewrite G1, Gi. ev. unfold text at 1. cbn [bind]. unfold dgetE at 1. rewrite G1, Gi. ev. unfold text at 1. cbn [bind py_str].
  unfold dgetN at 1. rewrite G1, Gi. ev. cbn [truthy]. unfold dgetE at 1. rewrite dget_dset. ev. rewrite G1, Gi. ev. unfold text at 1. cbn [bind as_str].
  change (startswith "8021" "wireless") with false. cbn [bind]. change (negb (String.eqb "wireless" "bridge")) with true. cbn iota.
  set (base := [(".type", VStr "device"); (".name", VStr ("device_" +++ uci_name n)); ("name", VStr n)]). change (dupdate [] base) with base.
  rewrite py_eq_refl. { cbn [bind as_list foldM]. reflexivity. }
  apply wf_dict. split; [repeat constructor; cbn; intuition discriminate|]. intros k v. cbn. intuition (match goal with X : _ = _ |- _ => injection X as <- <- end; exact I).
Qed.
