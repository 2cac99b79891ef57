(** * RtIfBack: from the section of an interface to its NetJSON object (proofs only). *)
From Verif Require Import PyBase PyLemmas StrLemmas NumLemmas Merge SpecMerge MergeProofs MergeListProofs MergeFinal Backend Conv Ip IpProofs OwrtConv OwrtWireless OwrtInterfaces
  SpecUci SpecConv SpecDevice ConvLemmas SortLemmas RtStage RtBack RtGeneric RtSystem RtNetwork RtSwitch RtTrip RtAddress RtInterface RtIfFwd RtIfOk.

(** ** Casting the options of bridges *)
Lemma bools_back (b : dict) : forall ks d, NoDup (dkeys d) -> NoDup ks ->
  (forall k, In k ks -> dget k d = uopt (dget k b) /\ optional k b (fun v => exists x, v = VBool x)) ->
  NoDup (dkeys (fold_left bool_field ks d)) /\
  forall k, dget k (fold_left bool_field ks d) = if existsb (String.eqb k) ks then dget k b else dget k d.
Proof.
  induction ks as [|a ks IH]; intros d Hd Hks H; [split; [exact Hd|reflexivity]|]. cbn [fold_left existsb].
  inversion Hks as [|? ? Ha Hks']; subst. destruct (H a) as [Ea Va]; [left; reflexivity|].
  assert (N : NoDup (dkeys (bool_field d a))) by (unfold bool_field; destruct (dget a d); nodup).
  assert (G : forall k, dget k (bool_field d a) = if String.eqb k a then dget k b else dget k d).
  { intros k. unfold bool_field, optional in *. destruct (dget a b) as [v|] eqn:E.
    - destruct Va as (x & ->). rewrite Ea. unfold uopt. assert (Eu : uci_value (VBool x) = Some (VStr (if x then "1" else "0"))) by (destruct x; reflexivity).
      rewrite Eu. dg. field k a; [rewrite E; destruct x; reflexivity|ev; reflexivity].
    - rewrite Ea. cbn [uopt]. unfold uopt in Ea. field k a; [congruence|ev; reflexivity]. }
  destruct (IH (bool_field d a) N Hks') as [N' G'].
  { intros k Hk. destruct (H k) as [E V]; [right; exact Hk|]. split; [|exact V]. rewrite G. rewrite eqb_neq by (intros ->; contradiction). exact E. }
  split; [exact N'|]. intros k. rewrite G', G. field k a; [destruct (existsb _ ks); reflexivity|ev; reflexivity].
Qed.
Lemma ints_back (b : dict) : forall ks d, NoDup (dkeys d) -> NoDup ks ->
  (forall k, In k ks -> dget k d = uopt (dget k b) /\ optional k b (fun v => exists z, v = VInt z)) ->
  exists d', foldM int_or_drop d ks = Ok d' /\ NoDup (dkeys d') /\
  forall k, dget k d' = if existsb (String.eqb k) ks then dget k b else dget k d.
Proof.
  induction ks as [|a ks IH]; intros d Hd Hks H; [exists d; split; [reflexivity|split; [exact Hd|reflexivity]]|]. cbn [foldM existsb].
  inversion Hks as [|? ? Ha Hks']; subst. destruct (H a) as [Ea Va]; [left; reflexivity|].
  assert (G : exists d1, int_or_drop d a = Ok d1 /\ NoDup (dkeys d1) /\ forall k, dget k d1 = if String.eqb k a then dget k b else dget k d).
  { unfold int_or_drop, optional in *. rewrite Ea. destruct (dget a b) as [v|] eqn:E; cbn [uopt] in *.
    - destruct Va as (x & ->). unfold uopt. change (uci_value (VInt x)) with (Some (VStr (string_of_Z x))). cbn iota. unfold py_int at 1. rewrite int_of_string_Z. exists (dset a (VInt x) d). split; [reflexivity|]. split; [nodup|].
      intros k. dg. field k a; [rewrite E; reflexivity|ev; reflexivity].
    - exists d. split; [reflexivity|]. split; [exact Hd|]. intros k. field k a; [rewrite Ea, E; reflexivity|ev; reflexivity]. }
  destruct G as (d1 & -> & N & G). cbn [bind].
  destruct (IH d1 N Hks') as (d' & E' & N' & G').
  { intros k Hk. destruct (H k) as [E V]; [right; exact Hk|]. split; [|exact V]. rewrite G. rewrite eqb_neq by (intros ->; contradiction). exact E. }
  exists d'. split; [exact E'|]. split; [exact N'|]. intros k. rewrite G', G. field k a; [destruct (existsb _ ks); reflexivity|ev; reflexivity].
Qed.

(** ** The interface before its conversion *)
Lemma dns_read l : words l -> uopt (Some (odef (dns_val l))) = dns_val l.
Proof.
  intros W. destruct l as [|x l]; [reflexivity|]. pose proof (join_empty (x :: l) W) as J. unfold dns_val, odef, text, uopt. apply uci_text, String.eqb_neq, J.
Qed.
Lemma dns_reads v opts : addr_dns v opts -> uopt (Some (odef (opt opts "dns"))) = opt opts "dns" /\ uopt (Some (odef (opt opts "dns_search"))) = opt opts "dns_search".
Proof. intros H. destruct (dns_vals _ _ H) as (l1 & l2 & W1 & W2 & -> & ->). split; apply dns_read; assumption. Qed.
Definition rname (dsa : bool) (n u : string) (br : bool) (ms : list string) : string :=
  if br then match ms with [] => if dsa then n else u | _ => join " " ms end else n.
Definition rsec (dsa : bool) (b : dict) (n u : string) (br : bool) (ms : list string) (opts : list (string * option val)) (k : string) : option val :=
  if String.eqb k ".type" then text "interface" else if String.eqb k ".name" then text u
  else if String.eqb k "name" then (if dsa && br then text n else None)
  else if existsb (String.eqb k) ["addresses"; "mac"; "autostart"; "disabled"; "bridge_members"; "device"; "bridge_21"; "device_name"] then None
  else if String.eqb k "dns" then opt opts "dns" else if String.eqb k "dns_search" then opt opts "dns_search"
  else if String.eqb k "macaddr" then dget "mac" b
  else if String.eqb k "auto" then uopt (dget "autostart" b)
  else if String.eqb k "enabled" then uopt (option_map neg (dget "disabled" b))
  else if String.eqb k "type" then (if br then text "bridge" else None)
  else if String.eqb k "bridge_empty" then (if br then match ms with [] => text "1" | _ => None end else None)
  else if existsb (String.eqb k) six_options then uopt (opt opts k)
  else uopt (dget k b).
Record ready (dsa : bool) (b : dict) (n u : string) (br : bool) (ms : list string) (opts : list (string * option val)) (R : dict) : Prop := {
  r_nd : NoDup (dkeys R);
  r_ifname : match dget "ifname" R with None => rname dsa n u br ms = u | Some v => v = VStr (rname dsa n u br ms) end;
  r_mtu : match dget "mtu" b with None => dget "mtu" R = None | Some w => exists v z, dget "mtu" R = Some v /\ w = VInt z /\ py_int v = Ok z end;
  r_get : forall k, k <> "ifname" -> k <> "mtu" -> k <> "network" -> dget k R = rsec dsa b n u br ms opts k
}.
(** The fields of an interface that are typed *)
Lemma typed_field dsa b n u br ms opts k t v : iface dsa b n u br ms opts -> dget k interface_fields = Some t -> existsb (String.eqb k) iface_skip = false -> dget k b = Some v -> survives (Some t) v.
Proof.
  intros H Ht Hk E. pose proof (i_fields _ _ _ _ _ _ _ H) as Hf. destruct (Hf k v) as (_ & _ & S); [apply In_of_dget, E| |rewrite Ht in S; exact S].
  intros Hin. rewrite <- not_true_iff_false in Hk. apply Hk, existsb_exists. exists k. rewrite eqb_refl. auto.
Qed.
Lemma number_field dsa b n u br ms opts k : iface dsa b n u br ms opts -> In k ("mtu" :: bridge_numbers) -> optional k b (fun v => exists z, v = VInt z).
Proof.
  intros H Hk. unfold optional. destruct (dget k b) as [v|] eqn:E; [|exact I].
  assert (S : survives (Some JInt) v).
  { eapply typed_field; [exact H| | |exact E]; unfold bridge_numbers in Hk; cbn [In] in Hk; repeat (destruct Hk as [<-|Hk]; [reflexivity|]); contradiction. }
  destruct v; try contradiction. eauto.
Qed.
Lemma flag_field dsa b n u br ms opts k : iface dsa b n u br ms opts -> In k bridge_flags -> optional k b (fun v => exists z, v = VBool z).
Proof.
  intros H Hk. unfold optional. destruct (dget k b) as [v|] eqn:E; [|exact I].
  assert (S : survives (Some JBool) v).
  { eapply typed_field; [exact H| | |exact E]; unfold bridge_flags in Hk; cbn [In] in Hk; repeat (destruct Hk as [<-|Hk]; [reflexivity|]); contradiction. }
  destruct v; try contradiction. eauto.
Qed.
Lemma rsec_bridge_key dsa b n u br ms opts k : In k bridge_keys -> rsec dsa b n u br ms opts k = uopt (dget k b) /\ k <> "ifname" /\ k <> "mtu" /\ k <> "network".
Proof.
  unfold bridge_keys, bridge_flags, bridge_numbers. cbn [app In]. intros Hk.
  repeat (destruct Hk as [<-|Hk]; [split; [reflexivity|repeat split; discriminate]|]). contradiction.
Qed.
(** ** The type *)
Lemma bridge_name dsa b n u ms opts : iface dsa b n u true ms opts ->
  let m := if dsa then n else u in replace "br_" EmptyString (if startswith "br-" m then m else "br-" +++ m) = n.
Proof.
  intros H. destruct (i_br _ _ _ _ _ _ _ H eq_refl) as (x & En & Hc & Hd). destruct dsa; cbn zeta.
  - assert (E : startswith "br-" n = true) by (rewrite En; reflexivity). rewrite E. apply replace_absent, Hc.
  - destruct (Hd eq_refl) as [Hi Ho]. pose proof (i_net _ _ _ _ _ _ _ H) as Hn. unfold optional in Ho.
    assert (Hcx : contains "br_" x = false).
    { destruct (contains "br_" x) eqn:E; [|reflexivity]. rewrite En, contains_app_r in Hc by exact E. discriminate Hc. }
    destruct (dget "network" b) as [v|].
    + subst v. destruct Hn as (E & _). injection E as E. subst u.
      assert (Es : startswith "br-" x = false).
      { destruct (startswith "br-" x) eqn:E; [|reflexivity]. apply startswith_true in E as [y E]. rewrite E in Hi. discriminate Hi. }
      rewrite Es, <- En. apply replace_absent, Hc.
    + assert (Eu : u = "br_" +++ x) by (rewrite Hn, En; transitivity ("br_" +++ identifier x); [reflexivity|rewrite Hi; reflexivity]).
      assert (Es : startswith "br-" u = false) by (rewrite Eu; reflexivity). rewrite Es, Eu.
      transitivity ("br-" +++ replace "br_" EmptyString ("br_" +++ x)); [reflexivity|]. rewrite replace_hit. rewrite replace_absent by exact Hcx. symmetry. exact En.
Qed.
Definition typed_keys : list string := [".type"; ".name"; "ifname"; "device_name"; "bridge_empty"].
Lemma type_back dsa b n u br ms opts R x : iface dsa b n u br ms opts -> ready dsa b n u br ms opts R -> NoDup (dkeys x) ->
  (forall k, dget k x = if existsb (String.eqb k) [".type"; ".name"; "ifname"] then None else if String.eqb k "name" then text (rname dsa n u br ms)
    else if String.eqb k "network" then text u else if String.eqb k "device_name" then Some (dgetN "name" R) else dget k R) ->
  exists y, netjson_type x = Ok y /\ NoDup (dkeys y) /\
    forall k, dget k y = if existsb (String.eqb k) typed_keys then None else if String.eqb k "name" then text n else if String.eqb k "network" then text u
      else if String.eqb k "type" then dget "type" b else if String.eqb k "bridge_members" then dget "bridge_members" b
      else if existsb (String.eqb k) bridge_keys then dget k b else dget k R.
Proof.
  intros H HR Hx Gx. pose proof (r_get _ _ _ _ _ _ _ _ HR) as Gr. unfold netjson_type.
  set (x1 := ddel "device_name" x). assert (N1 : NoDup (dkeys x1)) by (unfold x1; nodup).
  assert (G1 : forall k, dget k x1 = if existsb (String.eqb k) [".type"; ".name"; "ifname"; "device_name"] then None else if String.eqb k "name" then text (rname dsa n u br ms)
    else if String.eqb k "network" then text u else dget k R).
  { intros k. unfold x1. dg. rewrite Gx. cbn [existsb]. fields k; reflexivity. }
  assert (Et : dget "type" x1 = if br then text "bridge" else None).
  { rewrite G1. cbn [existsb]. ev. cbn [orb]. rewrite Gr by discriminate. reflexivity. }
  rewrite Et. pose proof (i_type _ _ _ _ _ _ _ H) as Hty. pose proof (i_mem _ _ _ _ _ _ _ H) as Hmem. pose proof (i_keys _ _ _ _ _ _ _ H) as Hkeys.
  assert (Gn : dget "name" x1 = text (rname dsa n u br ms)) by (rewrite G1; reflexivity).
  destruct br.
  - unfold text at 1. change (py_eq (VStr "bridge") (VStr "bridge")) with true. cbn iota.
    unfold dgetE at 1. rewrite Gn. unfold text at 1. cbn [bind as_str].
    set (x2 := dset "bridge_members" _ x1). assert (N2 : NoDup (dkeys x2)) by (unfold x2; nodup).
    assert (G2 : forall k, dget k x2 = if String.eqb k "bridge_members" then Some (VList (map VStr (split_ws (rname dsa n u true ms)))) else dget k x1) by (intros k; unfold x2; dg; reflexivity).
    assert (Em : vor (pop_or "device_name" VNull x) (dgetN "network" x2) = VStr (if dsa then n else u)).
    { unfold vor, pop_or, dgetN. rewrite Gx, G2. cbn [existsb]. ev. cbn [orb]. rewrite G1. cbn [existsb]. ev. cbn [orb]. unfold dgetN. rewrite Gr by discriminate. unfold rsec. ev. cbn [andb].
      destruct dsa; cbn [andb].
      - unfold text. rewrite (truthy_text _ (i_ne _ _ _ _ _ _ _ H)). reflexivity.
      - reflexivity. }
    rewrite Em. cbn [as_str bind]. rewrite (bridge_name dsa b n u ms opts H).
    set (x3 := dset "name" (VStr n) x2). assert (N3 : NoDup (dkeys x3)) by (unfold x3; nodup).
    assert (G3 : forall k, dget k x3 = if String.eqb k "name" then text n else dget k x2) by (intros k; unfold x3; dg; reflexivity).
    assert (K : forall k, In k bridge_keys -> dget k x3 = uopt (dget k b)).
    { intros k Hk. destruct (rsec_bridge_key dsa b n u true ms opts k Hk) as (E & A1 & A2 & A3). rewrite <- E, <- Gr by assumption.
      rewrite G3, G2, G1. unfold bridge_keys, bridge_flags, bridge_numbers in Hk. cbn [app In] in Hk. repeat (destruct Hk as [<-|Hk]; [reflexivity|]). contradiction. }
    unfold bridge_typecast. destruct (bools_back b bridge_flags x3 N3) as [N4 G4].
    { unfold bridge_flags. repeat (constructor; [cbn [In]; intuition discriminate|]). constructor. }
    { intros k Hk. split; [apply K; unfold bridge_keys; rewrite in_app_iff; auto|eapply flag_field; eassumption]. }
    change ["stp"; "igmp_snooping"; "multicast_querier"] with bridge_flags. change bridge_ints with bridge_numbers. set (x4 := fold_left bool_field bridge_flags x3) in *. clearbody x4.
    destruct (ints_back b bridge_numbers x4 N4) as (x5 & -> & N5 & G5).
    { unfold bridge_numbers. repeat (constructor; [cbn [In]; intuition discriminate|]). constructor. }
    { intros k Hk. split; [|eapply number_field; [eassumption|right; exact Hk]]. rewrite G4.
      assert (Ef : existsb (String.eqb k) bridge_flags = false). { unfold bridge_numbers in Hk. cbn [In] in Hk. repeat (destruct Hk as [<-|Hk]; [reflexivity|]). contradiction. }
      rewrite Ef. apply K. unfold bridge_keys. rewrite in_app_iff. auto. }
    cbn [bind].
    assert (Ee : dget "bridge_empty" x5 = match ms with [] => text "1" | _ => None end).
    { rewrite G5, G4, G3, G2, G1. cbn [bridge_numbers bridge_flags existsb]. ev. cbn [orb]. rewrite Gr by discriminate. reflexivity. }
    set (y := if py_eq (pop_or "bridge_empty" VNull x5) (VStr "1") then dset "bridge_members" (VList []) (ddel "bridge_empty" x5) else ddel "bridge_empty" x5).
    assert (Ey : NoDup (dkeys y) /\ forall k, dget k y = if String.eqb k "bridge_empty" then None else if String.eqb k "bridge_members" then Some (VList (map VStr ms)) else dget k x5).
    { unfold y, pop_or. rewrite Ee. destruct ms as [|m ms].
      - unfold text. change (py_eq (VStr "1") (VStr "1")) with true. cbn iota. split; [nodup|]. intros k. dg. fields k; reflexivity.
      - change (py_eq VNull (VStr "1")) with false. cbn iota. split; [nodup|]. intros k. dg. field k "bridge_empty"; [reflexivity|]. field k "bridge_members"; [|reflexivity].
        rewrite G5, G4, G3, G2. cbn [bridge_numbers bridge_flags existsb]. ev. cbn [orb rname].
        rewrite (split_join (m :: ms) (i_words _ _ _ _ _ _ _ H)). reflexivity. }
    destruct Ey as [Ny Gy]. clearbody y. exists (dset "type" (VStr "bridge") y). split; [reflexivity|]. split; [nodup|].
    intros k. dg. rewrite Gy, G5, G4, G3, G2, G1. rewrite Hty, Hmem. unfold typed_keys, bridge_keys, bridge_flags, bridge_numbers. cbn [existsb app].
    fields k; reflexivity.
  - cbn [bind]. unfold dgetE. rewrite Gn. unfold text at 1. cbn [bind rname].
    replace (is_one_of (VStr n) ["lo"; "lo0"; "loopback"]) with (existsb (String.eqb n) loopback_names) by reflexivity.
    eexists. split; [reflexivity|]. split; [nodup|]. intros k. dg. rewrite G1, Hty, Hmem. 
    destruct (existsb (String.eqb k) bridge_keys) eqn:Eb.
    + apply existsb_exists in Eb as (k' & Hk & E). apply String.eqb_eq in E. subst k'. rewrite (Hkeys eq_refl k Hk).
      destruct (rsec_bridge_key dsa b n u false ms opts k Hk) as (E & A1 & A2 & A3). 
      rewrite Gr, E, (Hkeys eq_refl k Hk) by assumption. cbn [uopt]. unfold typed_keys. cbn [existsb]. 
      unfold bridge_keys, bridge_flags, bridge_numbers in Hk. cbn [app In] in Hk. repeat (destruct Hk as [<-|Hk]; [reflexivity|]). contradiction.
    + unfold typed_keys. cbn [existsb rname]. fields k; try reflexivity; rewrite Gr by discriminate; reflexivity.
Qed.
(** ** The object *)
Lemma plain_back dsa b n u br ms opts k : iface dsa b n u br ms opts -> existsb (String.eqb k) (iface_skip ++ "mtu" :: bridge_keys) = false -> uopt (dget k b) = dget k b.
Proof.
  intros H Hk. destruct (dget k b) as [v|] eqn:E; [|reflexivity]. unfold uopt. pose proof (i_fields _ _ _ _ _ _ _ H) as Hf.
  rewrite existsb_app in Hk. apply orb_false_iff in Hk as [Hk1 Hk2].
  destruct (Hf k v) as (_ & _ & S); [apply In_of_dget, E| |].
  { intros Hin. rewrite <- not_true_iff_false in Hk1. apply Hk1, existsb_exists. exists k. rewrite eqb_refl. auto. }
  assert (Et : dget k interface_fields = None).
  { unfold bridge_keys, bridge_flags, bridge_numbers in Hk2. cbn [app existsb] in Hk2. unfold interface_fields, bridge_flags, bridge_numbers. cbn [map app dget].
    revert Hk2. fields k; try discriminate; intros; congruence || reflexivity. }
  rewrite Et in S. destruct (survives_read _ _ S) as (w & -> & Hc). cbn [cast_value] in Hc. congruence.
Qed.
Lemma rename_get old new (d : dict) k : NoDup (dkeys d) -> old <> new -> dget new d = None ->
  dget k (rename old new d) = if String.eqb k old then None else if String.eqb k new then dget old d else dget k d.
Proof.
  intros Hd Hon Hnew. assert (Hno : new <> old) by congruence. unfold rename. destruct (dget old d) as [m|] eqn:E.
  - dg. fields k; reflexivity || congruence.
  - fields k; [exact E|exact Hnew|reflexivity].
Qed.
Lemma rename_eq_get old new s (d : dict) k : NoDup (dkeys d) -> old <> new -> dget new d = None ->
  dget k (rename_eq old new s d) = if String.eqb k old then None else if String.eqb k new then option_map (fun v => VBool (py_eq v (VStr s))) (dget old d) else dget k d.
Proof.
  intros Hd Hon Hnew. assert (Hno : new <> old) by congruence. unfold rename_eq. destruct (dget old d) as [m|] eqn:E.
  - dg. fields k; reflexivity || congruence.
  - fields k; [exact E|exact Hnew|reflexivity].
Qed.
Lemma NoDup_rename old new (d : dict) : NoDup (dkeys d) -> NoDup (dkeys (rename old new d)).
Proof. intros H. unfold rename. destruct (dget old d); nodup. Qed.
Lemma NoDup_rename_eq old new s (d : dict) : NoDup (dkeys d) -> NoDup (dkeys (rename_eq old new s d)).
Proof. intros H. unfold rename_eq. destruct (dget old d); nodup. Qed.

Lemma interface_back dsa b n u br ms opts R : iface dsa b n u br ms opts -> ready dsa b n u br ms opts R ->
  exists b', netjson_interface R = Ok b' /\ NoDup (dkeys b') /\ same (VDict b) (VDict (ddel "dns_search" (ddel "dns" b'))) /\ dget "dns" b' = opt opts "dns" /\ dget "dns_search" b' = opt opts "dns_search" /\ b' <> [].
Proof.
  intros H HR. pose proof (r_get _ _ _ _ _ _ _ _ HR) as Gr. pose proof (r_nd _ _ _ _ _ _ _ _ HR) as NR.
  pose proof (i_none _ _ _ _ _ _ _ H) as Habs. unfold none_of, section_fields in Habs.
  unfold netjson_interface. unfold dgetE at 1. rewrite Gr by discriminate. change (rsec dsa b n u br ms opts ".type") with (text "interface"). unfold text at 1. cbn [bind].
  unfold dgetE at 1. rewrite dget_ddel by exact NR. ev. rewrite Gr by discriminate. change (rsec dsa b n u br ms opts ".name") with (text u). unfold text at 1. cbn [bind].
  set (x1 := dset "network" (VStr u) (ddel ".name" (ddel ".type" R))). assert (N1 : NoDup (dkeys x1)) by (unfold x1; nodup).
  assert (G1 : forall k, dget k x1 = if String.eqb k "network" then text u else if String.eqb k ".name" then None else if String.eqb k ".type" then None else dget k R) by (intros k; unfold x1; dg; reflexivity).
  set (x2 := dset "device_name" (dgetN "name" x1) x1). assert (N2 : NoDup (dkeys x2)) by (unfold x2; nodup).
  assert (En : dgetN "name" x1 = dgetN "name" R) by (unfold dgetN; rewrite G1; reflexivity).
  assert (G2 : forall k, dget k x2 = if String.eqb k "device_name" then Some (dgetN "name" R) else dget k x1) by (intros k; unfold x2; rewrite En; dg; reflexivity).
  assert (Ef : pop_or "ifname" (VStr u) x2 = VStr (rname dsa n u br ms)).
  { unfold pop_or. rewrite G2, G1. ev. pose proof (r_ifname _ _ _ _ _ _ _ _ HR) as Hi. destruct (dget "ifname" R); congruence. }
  rewrite Ef. set (x3 := dset "name" (VStr (rname dsa n u br ms)) (ddel "ifname" x2)). assert (N3 : NoDup (dkeys x3)) by (unfold x3; nodup).
  destruct (type_back dsa b n u br ms opts R x3 H HR N3) as (y & -> & Ny & Gy).
  { intros k. unfold x3. dg. rewrite G2, G1. cbn [existsb]. fields k; reflexivity. }
  clear x3 N3 Ef x2 N2 G2 x1 N1 G1 En. cbn [bind].
  destruct (addresses_dns_bwd y (dget "addresses" b) opts Ny (i_addr _ _ _ _ _ _ _ H)) as (z & -> & Nz & Az & Gz).
  { rewrite Gy. cbn [typed_keys bridge_keys bridge_flags bridge_numbers existsb app]. ev. cbn [orb]. rewrite Gr by discriminate. reflexivity. }
  { intros k Hk. rewrite Gy. unfold six_options in Hk. cbn [In] in Hk.
    repeat (destruct Hk as [<-|Hk]; [cbn [typed_keys bridge_keys bridge_flags bridge_numbers existsb app]; ev; cbn [orb]; rewrite Gr by discriminate; reflexivity|]). contradiction. }
  cbn [bind].
  assert (Ra : forall k, existsb (String.eqb k) ("addresses" :: six_options ++ typed_keys ++ ["name"; "network"; "type"; "bridge_members"] ++ bridge_keys) = false -> dget k z = dget k R).
  { intros k Hk. rewrite existsb_app in Hk || cbn [existsb] in Hk. apply orb_false_iff in Hk as [K1 Hk]. rewrite !existsb_app in Hk.
    apply orb_false_iff in Hk as [K2 Hk]. apply orb_false_iff in Hk as [K3 Hk]. apply orb_false_iff in Hk as [K4 K5]. cbn [existsb] in K4.
    apply orb_false_iff in K4 as [Ka K4]. apply orb_false_iff in K4 as [Kb K4]. apply orb_false_iff in K4 as [Kc K4]. apply orb_false_iff in K4 as [Kd _].
    apply String.eqb_neq in K1. rewrite Gz by exact K1. rewrite K2, Gy, K3, Ka, Kb, Kc, Kd, K5. reflexivity. }
  assert (L : forall k, existsb (String.eqb k) ("addresses" :: six_options ++ typed_keys ++ ["name"; "network"; "type"; "bridge_members"] ++ bridge_keys) = false ->
     k <> "mtu" -> k <> "ifname" -> k <> "network" -> dget k z = rsec dsa b n u br ms opts k) by (intros k Hk A1 A2 A3; rewrite Ra by exact Hk; apply Gr; assumption).
  set (z1 := rename_eq "auto" "autostart" "1" z). assert (N1 : NoDup (dkeys z1)) by (apply NoDup_rename_eq, Nz).
  assert (G1 : forall k, dget k z1 = if String.eqb k "auto" then None else if String.eqb k "autostart" then dget "autostart" b else dget k z).
  { intros k. unfold z1. rewrite rename_eq_get; [|exact Nz|discriminate|rewrite L; reflexivity || discriminate].
    replace (option_map (fun v => VBool (py_eq v (VStr "1"))) (dget "auto" z)) with (dget "autostart" b); [reflexivity|].
    rewrite L by (reflexivity || discriminate). change (rsec dsa b n u br ms opts "auto") with (uopt (dget "autostart" b)).
    pose proof (i_auto _ _ _ _ _ _ _ H) as Ha. unfold optional in Ha. destruct (dget "autostart" b) as [v|]; [|reflexivity]. destruct Ha as ([] & ->); reflexivity. }
  set (z2 := rename_eq "enabled" "disabled" "0" z1). assert (N2 : NoDup (dkeys z2)) by (apply NoDup_rename_eq, N1).
  assert (G2 : forall k, dget k z2 = if String.eqb k "enabled" then None else if String.eqb k "disabled" then dget "disabled" b else dget k z1).
  { intros k. unfold z2. rewrite rename_eq_get; [|exact N1|discriminate|rewrite G1; ev; rewrite L; reflexivity || discriminate].
    replace (option_map (fun v => VBool (py_eq v (VStr "0"))) (dget "enabled" z1)) with (dget "disabled" b); [reflexivity|].
    rewrite G1. ev. rewrite L by (reflexivity || discriminate). change (rsec dsa b n u br ms opts "enabled") with (uopt (option_map neg (dget "disabled" b))).
    pose proof (i_dis _ _ _ _ _ _ _ H) as Ha. unfold optional in Ha. destruct (dget "disabled" b) as [v|]; [|reflexivity]. destruct Ha as ([] & ->); reflexivity. }
  cbn [foldM].
  assert (E3 : exists z3, int_field z2 "mtu" = Ok z3 /\ NoDup (dkeys z3) /\ forall k, dget k z3 = if String.eqb k "mtu" then dget "mtu" b else dget k z2).
  { unfold int_field. assert (Em : dget "mtu" z2 = dget "mtu" R). { rewrite G2, G1. ev. apply Ra. reflexivity. } rewrite Em.
    pose proof (r_mtu _ _ _ _ _ _ _ _ HR) as Hm. destruct (dget "mtu" b) as [w|].
    - destruct Hm as (v & i & -> & -> & ->). cbn [bind]. eexists. split; [reflexivity|]. split; [nodup|]. intros k. dg. fields k; reflexivity.
    - rewrite Hm. eexists. split; [reflexivity|]. split; [exact N2|]. intros k. field k "mtu"; [congruence|reflexivity]. }
  destruct E3 as (z3 & -> & N3 & G3). cbn [bind].
  assert (Ev : dget "vid" z3 = None).
  { rewrite G3, G2, G1. ev. rewrite L by (reflexivity || discriminate). unfold rsec, six_options. cbn [existsb]. ev. cbn [orb]. rewrite Habs by (cbn; tauto). reflexivity. }
  unfold int_field at 1. rewrite Ev. cbn [bind].
  set (z4 := rename "macaddr" "mac" z3). assert (N4 : NoDup (dkeys z4)) by (apply NoDup_rename, N3).
  assert (G4 : forall k, dget k z4 = if String.eqb k "macaddr" then None else if String.eqb k "mac" then dget "mac" b else dget k z3).
  { intros k. unfold z4. rewrite rename_get; [|exact N3|discriminate|rewrite G3, G2, G1; ev; rewrite L; reflexivity || discriminate].
    replace (dget "macaddr" z3) with (dget "mac" b); [reflexivity|]. rewrite G3, G2, G1. ev. rewrite L by (reflexivity || discriminate). reflexivity. }
  assert (Zn : forall k, In k ["name"; "network"; "type"; "bridge_members"] \/ In k bridge_keys -> dget k z4 = dget k y).
  { intros k Hk. rewrite G4, G3, G2, G1. unfold bridge_keys, bridge_flags, bridge_numbers in Hk. cbn [app In] in Hk. 
    destruct Hk as [Hk|Hk]; repeat (destruct Hk as [<-|Hk]; [ev; rewrite Gz by discriminate; reflexivity|]); contradiction. }
  assert (Ename : dget "name" z4 = text n) by (rewrite Zn by (cbn; auto); rewrite Gy; reflexivity).
  assert (Enet : dget "network" z4 = text u) by (rewrite Zn by (cbn; auto); rewrite Gy; reflexivity).
  unfold dgetE. rewrite Ename. unfold text at 1. cbn [bind]. unfold uci_name_val. cbn [as_str bind].
  set (z5 := if py_eq (dgetN "network" z4) (VStr (uci_name n)) then ddel "network" z4 else z4).
  assert (N5 : NoDup (dkeys z5)) by (unfold z5; destruct (py_eq _ _); nodup).
  assert (G5 : forall k, dget k z5 = if String.eqb k "network" then dget "network" b else dget k z4).
  { intros k. unfold z5, dgetN. rewrite Enet. unfold text at 1. rewrite py_eq_text. change (uci_name n) with (identifier n). pose proof (i_net _ _ _ _ _ _ _ H) as Hn.
    destruct (dget "network" b) as [v|].
    - destruct Hn as (-> & _ & Hne). rewrite eqb_neq by exact Hne. field k "network"; [exact Enet|reflexivity].
    - rewrite Hn, eqb_refl. dg. reflexivity. }
  clearbody z5. 
  assert (Ep : dget "proto" z5 = None). { rewrite G5, G4, G3, G2, G1. ev. rewrite Gz by discriminate. reflexivity. }
  unfold netjson_proto. rewrite Ep. exists z5. split; [reflexivity|]. split; [exact N5|].
  assert (D0 : dget "dns" z5 = opt opts "dns" /\ dget "dns_search" z5 = opt opts "dns_search").
  { split; rewrite G5, G4, G3, G2, G1; ev; rewrite L by (reflexivity || discriminate); reflexivity. }
  destruct D0 as [D1 D2].
  assert (F : forall k, k <> "addresses" -> k <> "dns" -> k <> "dns_search" -> dget k z5 = dget k b).
  { intros k Ka Kd1 Kd2.
    destruct (existsb (String.eqb k) ("name" :: "type" :: "bridge_members" :: bridge_keys)) eqn:E2.
    { assert (Hk : In k ["name"; "network"; "type"; "bridge_members"] \/ In k bridge_keys).
      { revert E2; clear; intros E; apply existsb_exists in E as (k' & Hk & E); apply String.eqb_eq in E; subst k'; cbn [In] in Hk |- *; tauto. }
      rewrite G5, (Zn k Hk), Gy. revert E2. unfold typed_keys, bridge_keys, bridge_flags, bridge_numbers. cbn [existsb app].
      fields k; try discriminate; intros _; try reflexivity. symmetry. apply (i_name _ _ _ _ _ _ _ H). }
    rewrite G5, G4, G3, G2, G1.
    destruct (existsb (String.eqb k) ["network"; "macaddr"; "mac"; "mtu"; "enabled"; "disabled"; "auto"; "autostart"]) eqn:E1.
    { revert E1. cbn [existsb]. fields k; try discriminate; intros _; try reflexivity; symmetry; apply Habs; cbn; tauto. }
    assert (Ed : forall r, k = String "." r -> dget k b = None).
    { intros r ->. eapply dotted_absent; [exact (i_fields _ _ _ _ _ _ _ H)|unfold iface_skip; notin|reflexivity]. }
    cbn [existsb] in E1.
    destruct (existsb (String.eqb k) (six_options ++ typed_keys)) eqn:E3.
    { rewrite Gz by exact Ka. revert E3. rewrite Gy. unfold six_options, typed_keys, bridge_keys, bridge_flags, bridge_numbers. cbn [existsb app].
      fields k; try discriminate; intros _; symmetry; first [apply Habs; cbn; tauto | eapply Ed; reflexivity]. }
    repeat match type of E1 with (String.eqb ?a ?b || _)%bool = false => let N := fresh "Nk" in let E := fresh "Ek" in apply orb_false_iff in E1 as [E E1]; apply String.eqb_neq in E as N end.
    ev. destruct (String.eqb_spec k "ifname") as [->|]; [discriminate E3|].
    cbn [existsb] in E2. apply orb_false_iff in E2 as [Y1 E2]. apply orb_false_iff in E2 as [Y2 E2]. apply orb_false_iff in E2 as [Y3 E2].
    rewrite existsb_app in E3. apply orb_false_iff in E3 as [Y4 Y5].
    assert (X : existsb (String.eqb k) ("addresses" :: six_options ++ typed_keys ++ ["name"; "network"; "type"; "bridge_members"] ++ bridge_keys) = false).
    { cbn [existsb]. rewrite !existsb_app, Y4, Y5, E2. cbn [existsb]. rewrite Y1, Y2, Y3. apply String.eqb_neq in Ka. rewrite Ka. ev. reflexivity. }
    rewrite L by assumption. unfold rsec. rewrite Y4, Y1, Y2. ev.
    destruct (existsb (String.eqb k) ["addresses"; "mac"; "autostart"; "disabled"; "bridge_members"; "device"; "bridge_21"; "device_name"]) eqn:E4.
    { revert E4 Y3. cbn [existsb]. unfold typed_keys in Y5. cbn [existsb] in Y5. revert Y5. fields k; try discriminate; intros; try congruence; symmetry; apply Habs; cbn; tauto. }
    unfold typed_keys in Y5. cbn [existsb] in Y5. apply orb_false_iff in Y5 as [W1 Y5]. apply orb_false_iff in Y5 as [W2 Y5]. apply orb_false_iff in Y5 as [W3 Y5].
    apply orb_false_iff in Y5 as [W4 Y5]. apply orb_false_iff in Y5 as [W5 _]. rewrite W1, W2, W5.
    eapply plain_back; [exact H|]. rewrite existsb_app. unfold iface_skip. cbn [existsb]. rewrite Y1, Y2, Y3, E2. apply String.eqb_neq in Ka. rewrite Ka. ev. reflexivity. }
  split; [|split; [|split]].
  - assert (F' : forall k, k <> "addresses" -> dget k (ddel "dns_search" (ddel "dns" z5)) = dget k b).
    { intros k Hk. dg. field k "dns_search"; [symmetry; apply Habs; cbn; tauto|]. field k "dns"; [symmetry; apply Habs; cbn; tauto|]. apply F; assumption. }
    assert (Fa : dget "addresses" (ddel "dns_search" (ddel "dns" z5)) = dget "addresses" z) by (dg; ev; rewrite G5, G4, G3, G2, G1; ev; reflexivity).
    apply same_dict.
    + intros k v Ek. destruct (String.eqb_spec k "addresses") as [->|Hk].
      * rewrite Ek in Az. destruct Az as (w & Ew & Hs). exists w. split; [|exact Hs]. rewrite Fa. exact Ew.
      * exists v. split; [rewrite F' by exact Hk; exact Ek|apply same_refl].
    + intros k Ek. destruct (String.eqb_spec k "addresses") as [->|Hk]; [|rewrite F' by exact Hk; exact Ek].
      rewrite Ek in Az. rewrite Fa. exact Az.
  - exact D1.
  - exact D2.
  - apply (dget_nonempty z5 "name" (VStr n)). rewrite F by discriminate. apply (i_name _ _ _ _ _ _ _ H).
Qed.
