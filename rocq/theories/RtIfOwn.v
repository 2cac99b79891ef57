(** * RtIfOwn: an interface whose device has its own section (proofs only). *)
From Verif Require Import PyBase PyLemmas StrLemmas NumLemmas Merge SpecMerge MergeProofs MergeListProofs MergeFinal Backend Conv Ip IpProofs OwrtConv OwrtWireless OwrtInterfaces
  SpecUci SpecConv SpecDevice ConvLemmas SortLemmas RtStage RtBack RtGeneric RtSystem RtNetwork RtSwitch RtTrip RtAddress RtInterface RtIfFwd RtIfOk RtIfBack RtIfDev.

Lemma bridge_fold (B : dict) ps l : iter_strs ps = Ok l -> forall D i, NoDup (dkeys D) -> NoDup (dkeys i) -> (forall v, dget "ports" D = Some v -> v = ps) -> dget "ifname" D = None ->
  exists i', fold_left (bridge_option B) D (Ok i) = Ok i' /\ NoDup (dkeys i') /\
    forall k, dget k i' = if String.eqb k "ifname" then (if dmem "ports" D then text (join " " l) else dget k i)
      else if existsb (String.eqb k) ["bridge_21"; "ports"] then dget k i
      else match dget k D with Some v => Some v | None => dget k i end.
Proof.
  intros Hl. induction D as [|[a v] D IH]; intros i HD Hi Hp Hf.
  - exists i. split; [reflexivity|]. split; [exact Hi|]. intros k. cbn [dget dmem]. unfold dmem. cbn [dget existsb]. fields k; reflexivity.
  - cbn [dkeys map fst] in HD. inversion HD as [|? ? Ha HD']; subst. cbn [fold_left].
    assert (Hf' : a <> "ifname" /\ dget "ifname" D = None).
    { cbn [dget] in Hf. destruct (String.eqb_spec "ifname" a) as [<-|Hn]; [discriminate|]. split; [congruence|exact Hf]. }
    destruct Hf' as [Haf Hf']. assert (Ha' : dget a D = None) by (apply dget_none_keys, Ha).
    assert (Hs : exists i1, bridge_option B (Ok i) (a, v) = Ok i1 /\ NoDup (dkeys i1) /\
      forall k, dget k i1 = if String.eqb k "ifname" then (if String.eqb a "ports" then text (join " " l) else dget k i)
        else if existsb (String.eqb k) ["bridge_21"; "ports"] then dget k i else if String.eqb k a then Some v else dget k i).
    { unfold bridge_option. cbn [bind fst snd]. destruct (String.eqb_spec a "bridge_21") as [->|A1].
      - exists i. split; [reflexivity|]. split; [exact Hi|]. intros k. cbn [existsb]. fields k; reflexivity.
      - destruct (String.eqb_spec a "ports") as [->|A2].
        + assert (Ev : v = ps) by (apply Hp; cbn [dget]; rewrite eqb_refl; reflexivity). rewrite Ev, Hl. cbn [bind]. eexists. split; [reflexivity|]. split; [nodup|]. intros k. dg. cbn [existsb]. fields k; reflexivity.
        + eexists. split; [reflexivity|]. split; [nodup|]. intros k. dg. cbn [existsb]. field k "ifname"; [rewrite eqb_neq by congruence; reflexivity|].
          field k "bridge_21"; [rewrite eqb_neq by congruence; reflexivity|]. field k "ports"; [rewrite eqb_neq by congruence; reflexivity|]. cbn [orb]. reflexivity. }
    destruct Hs as (i1 & -> & N1 & G1). destruct (IH i1 HD' N1) as (i' & E' & N' & G').
    { intros w Hw. apply Hp. cbn [dget]. destruct (String.eqb_spec "ports" a) as [<-|]; [congruence|exact Hw]. } { exact Hf'. }
    exists i'. split; [exact E'|]. split; [exact N'|]. intros k. rewrite G', G1. unfold dmem. cbn [dget].
    destruct (String.eqb_spec k "ifname") as [->|K1].
    + destruct (String.eqb_spec "ports" a) as [<-|Hpa]; [rewrite Ha'; reflexivity|]. rewrite (eqb_neq a "ports") by congruence. reflexivity.
    + destruct (existsb (String.eqb k) ["bridge_21"; "ports"]); [reflexivity|]. destruct (String.eqb_spec k a) as [->|Hka]; [rewrite Ha'; reflexivity|reflexivity].
Qed.
Lemma copy_fold (B : dict) : forall ks i, NoDup (dkeys i) ->
  NoDup (dkeys (fold_left (fun i k => copy_opt k B k i) ks i)) /\
  forall k, dget k (fold_left (fun i k => copy_opt k B k i) ks i) = if existsb (String.eqb k) ks then match dget k B with Some v => Some v | None => dget k i end else dget k i.
Proof.
  induction ks as [|a ks IH]; intros i Hi; [split; [exact Hi|reflexivity]|]. cbn [fold_left existsb].
  assert (N : NoDup (dkeys (copy_opt a B a i))) by (unfold copy_opt; destruct (dget a B); nodup).
  assert (G : forall k, dget k (copy_opt a B a i) = if String.eqb k a then match dget k B with Some v => Some v | None => dget k i end else dget k i).
  { intros k. unfold copy_opt. destruct (dget a B) as [v|] eqn:E; [dg|]; (destruct (String.eqb_spec k a) as [->|]; [rewrite E|]; reflexivity). }
  destruct (IH _ N) as [N' G']. split; [exact N'|]. intros k. rewrite G', G. destruct (String.eqb k a) eqn:E; cbn [orb]; [|reflexivity].
  destruct (existsb _ ks); destruct (dget k B); reflexivity.
Qed.
Definition consumed (d : dict) : Prop := truthy (dgetN "consumed" d) = true.
Lemma uopt_texts m ms : uci_value (VList (map VStr (m :: ms))) = Some (VList (map VStr (m :: ms))).
Proof.
  cbn [map uci_value]. f_equal. f_equal. change (VStr m :: map VStr ms) with (map VStr (m :: ms)). rewrite map_map. reflexivity.
Qed.
Lemma dsa_owned b n u br ms opts i B devs : iface true b n u br ms opts -> iread true b n u br ms opts i -> bdev b n u br ms B ->
  dget (":" +++ n) devs = Some B -> has_device b br = true ->
  exists R B', netjson_dsa devs i = Ok (Some R, dset (":" +++ n) B' devs) /\ consumed B' /\ ready true b n u br ms opts R.
Proof.
  intros H HI [NB GB] Hk Hd. destruct (iread_device _ _ _ _ _ _ _ H HI) as (Ed & En & Ef). destruct HI as [Ni G].
  pose proof (i_none _ _ _ _ _ _ _ H) as Habs. unfold none_of, section_fields in Habs.
  assert (Bt : dget "type" B = text (if br then "bridge" else "device")) by (rewrite GB; reflexivity).
  assert (B21 : dget "bridge_21" B = if br then Some (VBool true) else None) by (rewrite GB; reflexivity).
  assert (Bn : dget "name" B = text n). { rewrite GB. ev. change (startswith "." "name") with false. cbn iota. change (uopt (text n) = text n). apply uci_text. exact (i_ne _ _ _ _ _ _ _ H). }
  assert (Bf : dget "ifname" B = None) by (rewrite GB; reflexivity). assert (Bc : dget "consumed" B = None) by (rewrite GB; reflexivity).
  assert (Bp : dget "ports" B = if br then match ms with [] => None | _ => Some (VList (map VStr ms)) end else None).
  { rewrite GB. ev. change (startswith "." "ports") with false. cbn iota. unfold dsec. ev. destruct br; [|reflexivity]. destruct ms as [|m ms]; [reflexivity|]. unfold uopt. apply uopt_texts. }
  unfold netjson_dsa, device_for, pop_or. rewrite Ed. unfold dgetN at 1. rewrite En.
  unfold text at 1. cbn [dev_key bind]. assert (Edm : dmem (":" +++ n) devs = true) by (unfold dmem; rewrite Hk; reflexivity). rewrite Edm.
  assert (HBne : exists kv B0, B = kv :: B0) by (destruct B as [|kv B0]; [discriminate Bt|eauto]). destruct HBne as (kv & B0 & EB). rewrite Hk.
  assert (Ene : match B with [] => false | _ :: _ => true end = true) by (rewrite EB; reflexivity). rewrite Ene.
  cbn [bind text]. unfold dgetE at 1. rewrite Ed. unfold text at 1. cbn [bind]. clear kv B0 EB Ene.
  change (dset "ifname" (VStr n) (ddel "device" i)) with (with_ifname n i). set (J := with_ifname n i).
  assert (NJ : NoDup (dkeys J)) by (unfold J, with_ifname; nodup).
  assert (GJ : forall k, dget k J = if String.eqb k "ifname" then text n else if String.eqb k "device" then None else dget k i) by (intros k; unfold J, with_ifname; dg; reflexivity).
  clearbody J. rewrite Hk. unfold bridge_vlan_interface, pop_or. rewrite GJ. ev. unfold text at 1. cbn [str_key bind].
  rewrite (rpartition_none "." n) by (apply dot_free, (i_dot _ _ _ _ _ _ _ H eq_refl)). cbn [bind].
  unfold add_device_options, dgetN. rewrite B21, GJ, Bn. ev. unfold text at 1 2. rewrite py_eq_text, eqb_refl. cbn [negb]. rewrite andb_false_r. rewrite Bc. cbn [truthy].
  assert (E1 : exists i1, (if truthy match (if br then Some (VBool true) else None) with Some v => v | None => VNull end then fold_left (bridge_option B) B (Ok J) else Ok J) = Ok i1 /\ NoDup (dkeys i1) /\
     forall k, dget k i1 = if String.eqb k "ifname" then text (if br then match ms with [] => n | _ => join " " ms end else n)
       else if existsb (String.eqb k) ["bridge_21"; "ports"] then dget k J
       else if br then match dget k B with Some v => Some v | None => dget k J end else dget k J).
  { destruct br; cbn [truthy].
    - destruct (bridge_fold B (VList (map VStr ms)) ms (iter_texts ms) B J NB NJ) as (i1 & E1 & N1 & G1).
      { rewrite Bp. destruct ms; intros v Ev; [discriminate|congruence]. } { exact Bf. }
      exists i1. split; [exact E1|]. split; [exact N1|]. intros k. rewrite G1. unfold dmem. rewrite Bp. destruct (String.eqb_spec k "ifname") as [->|]; [|reflexivity].
      destruct ms; [rewrite GJ; reflexivity|reflexivity].
    - exists J. split; [reflexivity|]. split; [exact NJ|]. intros k. destruct (existsb _ _); destruct (String.eqb_spec k "ifname") as [->|]; try reflexivity; rewrite GJ; reflexivity. }
  destruct E1 as (i1 & -> & N1 & G1). cbn [bind]. 
  destruct (copy_fold B (all_options ++ stp_options ++ igmp_options) i1 N1) as [N2 G2].
  set (R := fold_left _ _ i1) in *. clearbody R. unfold pop_or. rewrite Bt. unfold text at 1. cbn [as_str bind].
  assert (Es : startswith "8021" (if br then "bridge" else "device") = false) by (destruct br; reflexivity). rewrite Es. cbn [bind fst snd].
  exists R, (dset "consumed" (VBool true) B). split; [reflexivity|]. split; [unfold consumed, dgetN; dg; ev; reflexivity|].
  constructor.
  - exact N2.
  - rewrite G2, G1. cbn [all_options stp_options igmp_options app existsb]. ev. cbn [orb]. unfold text, rname. destruct br; [destruct ms; reflexivity|reflexivity].
  - rewrite G2, G1. cbn [all_options stp_options igmp_options app existsb]. ev. cbn [orb]. rewrite GB. ev.
    pose proof (number_field _ _ _ _ _ _ _ "mtu" H (or_introl eq_refl)) as Hm. unfold optional in Hm. destruct (dget "mtu" b) as [v|].
    + destruct Hm as (z & ->). exists (VInt z), z. repeat split; reflexivity.
    + rewrite GJ, G. destruct br; reflexivity.
  - intros k K1 K2 K3.
    assert (Jk : k <> "device" -> dget k J = dget k i) by (intros Hd'; rewrite GJ; ev; reflexivity).
    destruct (String.eqb_spec k ".type") as [->|K4].
    { rewrite G2, G1. cbn [all_options stp_options igmp_options app existsb]. ev. cbn [orb]. rewrite GB, Jk, G by discriminate. destruct br; reflexivity. }
    destruct (String.eqb_spec k ".name") as [->|K5].
    { rewrite G2, G1. cbn [all_options stp_options igmp_options app existsb]. ev. cbn [orb]. rewrite GB, Jk, G by discriminate. destruct br; reflexivity. }
    assert (Hq : startswith "." k = true -> rsec true b n u br ms opts k = None /\ dget k B = None /\ dget k J = None).
    { intros Hs. split; [apply rsec_dotted; assumption|]. assert (X : forall l, startswith "." l = false -> k <> l) by (intros l Hl ->; congruence).
      assert (X1 : k <> "network") by (apply X; reflexivity). assert (X2 : k <> "type") by (apply X; reflexivity). assert (X3 : k <> "bridge_21") by (apply X; reflexivity). assert (X4 : k <> "device") by (apply X; reflexivity).
      split; [rewrite GB, Hs; ev; reflexivity|]. rewrite Jk by exact X4. rewrite G, Hs. ev. reflexivity. }
    destruct (startswith "." k) eqn:Es'.
    { destruct (Hq eq_refl) as (-> & X1 & X2). rewrite G2, G1, X1, X2. ev. destruct br; destruct (existsb _ _), (existsb _ _); reflexivity. }
    clear Hq.
    assert (Gi : dget k i = uopt (isec true b n u br ms opts k)) by (rewrite G; ev; cbn [orb]; rewrite Es'; reflexivity).
    assert (GBk : dget k B = if String.eqb k "type" then text (if br then "bridge" else "device")
       else if String.eqb k "bridge_21" then (if br then Some (VBool true) else None) else uopt (dsec b n u br ms k)) by (rewrite GB; ev; rewrite Es'; reflexivity).
    rewrite G2, G1, GJ, Gi, GBk. ev.
    destruct (existsb (String.eqb k) bridge_keys) eqn:Eb.
    { assert (Hk' : In k bridge_keys) by (apply existsb_exists in Eb as (k' & Hk' & E); apply String.eqb_eq in E; subst k'; exact Hk').
      destruct (rsec_bridge_key true b n u br ms opts k Hk') as (-> & _). clear Eb.
      assert (Hs : (if existsb (String.eqb k) (all_options ++ stp_options ++ igmp_options) then uopt (dsec b n u br ms k) else None) = uopt (dget k b) /\
        String.eqb k "type" = false /\ String.eqb k "bridge_21" = false /\ existsb (String.eqb k) ["bridge_21"; "ports"] = false /\ uopt (isec true b n u br ms opts k) = None /\
        existsb (String.eqb k) (all_options ++ stp_options ++ igmp_options) = true).
      { unfold bridge_keys, bridge_flags, bridge_numbers in Hk'. cbn [app In] in Hk'.
        repeat (destruct Hk' as [<-|Hk']; [repeat split; reflexivity|]). contradiction. }
      destruct Hs as (S1 & S2 & S3 & S4 & S5 & S6). rewrite S6 in S1 |- *. rewrite S1, S2, S3, S4, S5. destruct (uopt (dget k b)); [reflexivity|]. destruct br, (String.eqb k "device"); reflexivity. }
    assert (Et : existsb (String.eqb k) (all_options ++ stp_options ++ igmp_options) = existsb (String.eqb k) ["vlan_filtering"; "macaddr"; "ageing_time"]).
    { revert Eb. unfold bridge_keys, bridge_flags, bridge_numbers, all_options, stp_options, igmp_options. cbn [app existsb]. fields k; try discriminate; reflexivity. }
    rewrite Et. unfold isec, dsec, rsec, gone. cbn [existsb]. rewrite Eb, andb_false_r. pose proof (mac_text _ _ _ _ _ _ _ H) as Hmac.
    assert (A1 : dget "vlan_filtering" b = None) by (apply Habs; cbn; tauto). assert (A2 : dget "ageing_time" b = None) by (apply Habs; cbn; tauto).
    assert (A3 : dget "device_name" b = None) by (apply Habs; cbn; tauto). assert (A4 : dget "ports" b = None) by (apply Habs; cbn; tauto). assert (A5 : dget "bridge_21" b = None) by (apply Habs; cbn; tauto).
    assert (An : uopt (text n) = text n) by (apply uci_text; exact (i_ne _ _ _ _ _ _ _ H)).
    destruct (dns_reads _ _ (i_addr _ _ _ _ _ _ _ H)) as [Q1 Q2]. destruct br; cbn [andb negb].
    + fields k; cbn [orb]; try reflexivity.
      all: try (destruct ms; reflexivity).
      all: try (rewrite ?Hmac; destruct (dget "mac" b); reflexivity).
      all: rewrite ?An, ?A1, ?A2, ?A3, ?A4, ?A5, ?Q1, ?Q2; try reflexivity.
      destruct (existsb (String.eqb k) six_options); reflexivity.
    + fields k; cbn [orb]; try reflexivity.
      all: try (rewrite ?Hmac; destruct (dget "mac" b); reflexivity).
      all: rewrite ?A1, ?A2, ?A3, ?A4, ?A5, ?Q1, ?Q2; try reflexivity.
      destruct (existsb (String.eqb k) six_options); reflexivity.
Qed.
