(** * RtIfDev: the sections of an interface and of its device read back (proofs only). *)
From Verif Require Import PyBase PyLemmas StrLemmas NumLemmas Merge SpecMerge MergeProofs MergeListProofs MergeFinal Backend Conv Ip IpProofs OwrtConv OwrtWireless OwrtInterfaces
  SpecUci SpecConv SpecDevice ConvLemmas SortLemmas RtStage RtBack RtGeneric RtSystem RtNetwork RtSwitch RtTrip RtAddress RtInterface RtIfFwd RtIfOk RtIfBack.

(** ** What is read *)
Definition iread dsa b n u br ms opts (i : dict) : Prop := NoDup (dkeys i) /\
  forall k, dget k i = if String.eqb k ".type" || String.eqb k ".name" then isec dsa b n u br ms opts k
    else if startswith "." k then None else uopt (isec dsa b n u br ms opts k).
Definition dread (b : dict) (n u : string) (br : bool) (ms : list string) (d : dict) : Prop := NoDup (dkeys d) /\
  forall k, dget k d = if String.eqb k ".type" then text "interface" else if String.eqb k ".name" then text ("device_" +++ u)
    else if String.eqb k "type" then text (if br then "bridge" else "device")
    else if String.eqb k "bridge_21" then (if br then Some (VBool true) else None)
    else if startswith "." k then None else uopt (dsec b n u br ms k).
Lemma isec_read dsa b n u br ms opts s s' : section_reads s s' -> (forall k, dget k s = isec dsa b n u br ms opts k) -> iread dsa b n u br ms opts s'.
Proof.
  intros Hr G. destruct (section_reads_plain s s' "interface" Hr) as [Hs H]; [rewrite G; reflexivity|discriminate|discriminate|].
  split; [apply sorted_NoDup, Hs|]. intros k. rewrite H, !G. reflexivity.
Qed.
Lemma dsec_read b n u br ms s s' : section_reads s s' -> (forall k, dget k s = dsec b n u br ms k) -> dread b n u br ms s'.
Proof.
  intros (b0 & [Hs0 H0] & [Hs' H']) G. split; [apply sorted_NoDup, Hs'|]. intros k. cbn zeta in H'. rewrite H'.
  assert (Et : dget ".type" b0 = text "device") by (rewrite H0, G; reflexivity). rewrite Et. unfold text at 1 2. cbn [is_text].
  change (String.eqb "device" "bridge-vlan") with false. change (String.eqb "device" "device") with true. cbn iota.
  assert (Ety : dget "type" b0 = if br then text "bridge" else None) by (rewrite H0, G; unfold dsec; destruct br; reflexivity). rewrite Ety.
  assert (E21 : dget "bridge_21" b0 = None) by (rewrite H0, G; reflexivity).
  destruct (String.eqb_spec k ".type") as [->|K1]; [reflexivity|]. destruct (String.eqb_spec k ".name") as [->|K2]; [rewrite H0, G; destruct br; reflexivity|].
  destruct (String.eqb_spec k "type") as [->|K3]; [destruct br; [cbn [absent_or_false text truthy negb andb]; ev; exact Ety|reflexivity]|].
  cbn [andb]. destruct (String.eqb_spec k "bridge_21") as [->|K4]; [destruct br; [reflexivity|exact E21]|]. cbn [andb].
  rewrite H0, G. ev. cbn [orb]. reflexivity.
Qed.
Lemma mac_text dsa b n u br ms opts : iface dsa b n u br ms opts -> uopt (dget "mac" b) = dget "mac" b.
Proof.
  intros H. pose proof (i_mac _ _ _ _ _ _ _ H) as Hm. unfold optional in Hm. destruct (dget "mac" b) as [v|]; [|reflexivity]. destruct Hm as (s & -> & Hs & _). apply uci_text, Hs.
Qed.
Lemma no_dotted dsa b n u br ms opts k : iface dsa b n u br ms opts -> startswith "." k = true -> dget k b = None.
Proof.
  intros H Hk. eapply dotted_absent; [exact (i_fields _ _ _ _ _ _ _ H)| |exact Hk]. intros Hin. unfold iface_skip in Hin. cbn [In] in Hin.
  repeat (destruct Hin as [<-|Hin]; [discriminate Hk|]). exact Hin.
Qed.
Lemma number_text z : uopt (Some (VInt z)) = Some (VStr (string_of_Z z)). Proof. reflexivity. Qed.
Lemma rsec_dotted dsa b n u br ms opts k : iface dsa b n u br ms opts -> startswith "." k = true -> k <> ".type" -> k <> ".name" -> rsec dsa b n u br ms opts k = None.
Proof.
  intros H Hk K1 K2. pose proof (no_dotted _ _ _ _ _ _ _ _ H Hk) as Hb. unfold rsec, six_options. cbn [existsb]. apply startswith_dot_lit in Hk as (r & ->). 
  fields (String "." r); try discriminate; try (exfalso; congruence). 
  all: try (rewrite Hb; reflexivity).
Qed.
Lemma ready_plain b n u br ms opts i : iface false b n u br ms opts -> iread false b n u br ms opts i -> ready false b n u br ms opts i.
Proof.
  intros H [Ni G]. pose proof (i_none _ _ _ _ _ _ _ H) as Habs. unfold none_of, section_fields in Habs. constructor.
  - exact Ni.
  - rewrite G. unfold isec, gone. cbn [existsb]. ev. cbn [orb]. unfold rname. destruct br.
    + pose proof (join_empty ms (i_words _ _ _ _ _ _ _ H)) as J. destruct ms as [|m ms]; [reflexivity|]. unfold text, uopt. rewrite uci_text; [reflexivity|]. apply String.eqb_neq, J.
    + unfold text, uopt. rewrite uci_text by exact (i_ne _ _ _ _ _ _ _ H). reflexivity.
  - rewrite G. unfold isec, gone. cbn [existsb]. ev. cbn [orb]. pose proof (number_field _ _ _ _ _ _ _ "mtu" H (or_introl eq_refl)) as Hm. unfold optional in Hm.
    destruct (dget "mtu" b) as [v|]; [|reflexivity]. destruct Hm as (z & ->). exists (VStr (string_of_Z z)), z. split; [reflexivity|]. split; [reflexivity|]. unfold py_int. rewrite int_of_string_Z. reflexivity.
  - intros k K1 K2 K3. rewrite G.
    destruct (String.eqb_spec k ".type") as [->|K4]; [reflexivity|]. destruct (String.eqb_spec k ".name") as [->|K5]; [reflexivity|]. cbn [orb].
    destruct (startswith "." k) eqn:Ed; [symmetry; apply rsec_dotted; assumption|].
    unfold isec, rsec, gone. cbn [existsb]. rewrite !andb_false_l, andb_true_r. cbn [negb].
    destruct (existsb (String.eqb k) bridge_keys) eqn:Eb.
    { apply existsb_exists in Eb as (k' & Hk & E). apply String.eqb_eq in E. subst k'. unfold bridge_keys, bridge_flags, bridge_numbers in Hk. cbn [app In] in Hk.
      repeat (destruct Hk as [<-|Hk]; [reflexivity|]). contradiction. }
    cbn [orb].
    fields k; cbn [orb]; try reflexivity; try (destruct br; [destruct ms; reflexivity|reflexivity]); try (rewrite Habs by (cbn; tauto); reflexivity).
    all: try (eapply mac_text; exact H).
    all: try exact (proj1 (dns_reads _ _ (i_addr _ _ _ _ _ _ _ H))). all: try exact (proj2 (dns_reads _ _ (i_addr _ _ _ _ _ _ _ H))).
    all: destruct (existsb (String.eqb k) six_options); reflexivity.
Qed.

(** ** The device *)
Lemma dev_ints (b : dict) : forall ks d, NoDup (dkeys d) -> NoDup ks ->
  (forall k, In k ks -> dget k d = uopt (dget k b) /\ optional k b (fun v => exists z, v = VInt z)) ->
  exists d', foldM device_int d ks = Ok d' /\ NoDup (dkeys d') /\
  forall k, dget k d' = if existsb (String.eqb k) ks then dget k b else dget k d.
Proof.
  induction ks as [|a ks IH]; intros d Hd Hks H; [exists d; split; [reflexivity|split; [exact Hd|reflexivity]]|]. cbn [foldM existsb].
  inversion Hks as [|? ? Ha Hks']; subst. destruct (H a) as [Ea Va]; [left; reflexivity|].
  assert (G : exists d1, device_int d a = Ok d1 /\ NoDup (dkeys d1) /\ forall k, dget k d1 = if String.eqb k a then dget k b else dget k d).
  { unfold device_int, optional in *. rewrite Ea. destruct (dget a b) as [v|] eqn:E; cbn [uopt] in *.
    - destruct Va as (x & ->). unfold uopt. change (uci_value (VInt x)) with (Some (VStr (string_of_Z x))). cbn iota. unfold py_int at 1. rewrite int_of_string_Z. cbn [bind].
      exists (dset a (VInt x) (ddel a d)). split; [reflexivity|]. split; [nodup|].
      intros k. dg. field k a; [rewrite E; reflexivity|ev; reflexivity].
    - exists d. split; [reflexivity|]. split; [exact Hd|]. intros k. field k a; [rewrite Ea, E; reflexivity|ev; reflexivity]. }
  destruct G as (d1 & -> & N & G). cbn [bind].
  destruct (IH d1 N Hks') as (d' & E' & N' & G').
  { intros k Hk. destruct (H k) as [E V]; [right; exact Hk|]. split; [|exact V]. rewrite G. rewrite eqb_neq by (intros ->; contradiction). exact E. }
  exists d'. split; [exact E'|]. split; [exact N'|]. intros k. rewrite G', G. field k a; [destruct (existsb _ ks); reflexivity|ev; reflexivity].
Qed.
Lemma dev_bools : forall ks d, (forall k, In k ks -> dget k d = None) -> fold_left device_bool ks d = d.
Proof.
  induction ks as [|k ks IH]; intros d H; [reflexivity|]. cbn [fold_left]. unfold device_bool at 2. rewrite (H k) by (left; reflexivity). apply IH. intros x Hx. apply H. right; exact Hx.
Qed.
(** The device kept for the interfaces *)
Definition bdev (b : dict) (n u : string) (br : bool) (ms : list string) (d : dict) : Prop := NoDup (dkeys d) /\
  forall k, dget k d = if String.eqb k ".type" then text "interface" else if String.eqb k "network" then text u
    else if String.eqb k "type" then text (if br then "bridge" else "device")
    else if String.eqb k "bridge_21" then (if br then Some (VBool true) else None)
    else if String.eqb k "mtu" then dget "mtu" b
    else if startswith "." k then None else uopt (dsec b n u br ms k).
Lemma device_back b n u br ms opts d devs i : iface true b n u br ms opts -> dread b n u br ms d -> dget (":" +++ n) devs = None ->
  exists B, device_block d devs i = Ok (dset (":" +++ n) B devs) /\ bdev b n u br ms B.
Proof.
  intros H [Nd Gd] Hk. unfold device_block, dgetN. rewrite Gd. ev. unfold text at 1. 
  assert (Et : py_eq (VStr (if br then "bridge" else "device")) (VStr "bridge-vlan") = false) by (destruct br; reflexivity). rewrite Et.
  unfold netjson_device, dgetE. rewrite Gd. ev. unfold text at 1. cbn [bind as_str].
  change (startswith "device_" ("device_" +++ u)) with (startswith EmptyString u). rewrite startswith_nil. change (sdrop 7 ("device_" +++ u)) with u.
  set (d1 := dset "network" (VStr u) (ddel ".name" d)). assert (N1 : NoDup (dkeys d1)) by (unfold d1; nodup).
  assert (G1 : forall k, dget k d1 = if String.eqb k "network" then text u else if String.eqb k ".name" then None else dget k d) by (intros k; unfold d1; dg; reflexivity).
  pose proof (i_dev _ _ _ _ _ _ _ H eq_refl) as Hdev. unfold none_of, device_fields in Hdev.
  destruct (dev_ints b device_ints d1 N1) as (d2 & -> & N2 & G2).
  { unfold device_ints. repeat (constructor; [cbn [In]; intuition discriminate|]). constructor. }
  { intros k Hin. unfold device_ints in Hin. cbn [In] in Hin.
    repeat (destruct Hin as [<-|Hin]; [split; [rewrite G1, Gd; first [reflexivity | rewrite Hdev by (cbn; tauto); reflexivity]|
      first [eapply number_field; [exact H|left; reflexivity] | unfold optional; rewrite Hdev by (cbn; tauto); exact I]]|]). contradiction. }
  cbn [bind]. rewrite dev_bools.
  2: { intros k Hin. rewrite G2, G1, Gd. unfold device_bools in Hin. cbn [In] in Hin. repeat (destruct Hin as [<-|Hin]; [reflexivity|]). contradiction. }
  assert (En : dget "name" d2 = text n). { rewrite G2, G1, Gd. cbn [device_ints existsb]. ev. cbn [orb]. change (uopt (dsec b n u br ms "name")) with (uopt (text n)). apply uci_text. exact (i_ne _ _ _ _ _ _ _ H). }
  unfold dgetN. rewrite En. unfold text at 1. cbn [dev_key bind]. rewrite Hk. exists d2. split; [reflexivity|]. split; [exact N2|].
  intros k. rewrite G2, G1, Gd. unfold device_ints. cbn [existsb].
  assert (Hx : forall k', In k' device_fields -> uopt (dsec b n u br ms k') = None).
  { intros k' Hin. unfold device_fields in Hin. cbn [In] in Hin. repeat (destruct Hin as [<-|Hin]; [reflexivity|]). contradiction. }
  fields k; cbn [orb]; try reflexivity.
  all: rewrite Hdev by (cbn; tauto); symmetry; apply Hx; cbn; tauto.
Qed.
(** ** The interface with its device *)
Definition with_ifname (n : string) (i : dict) : dict := dset "ifname" (VStr n) (ddel "device" i).
Lemma rpartition_none c s : nochar c s = true -> rpartition c s = None.
Proof.
  induction s as [|x s IH]; [reflexivity|]. rewrite nochar_cons. intros H. apply andb_prop in H as [H1 H2]. cbn [rpartition]. rewrite (IH H2).
  apply negb_true_iff in H1. rewrite H1. reflexivity.
Qed.
Lemma dot_free s : contains "." s = false -> nochar "." s = true.
Proof.
  induction s as [|x s IH]; [reflexivity|]. rewrite nochar_cons. intros H. change (startswith "." (String x s) || contains "." s = false) in H. apply orb_false_iff in H as [H1 H2]. rewrite (IH H2), andb_true_r.
  cbn [startswith] in H1. rewrite andb_true_r in H1. rewrite (Ascii.eqb_sym x). rewrite H1. reflexivity.
Qed.
Lemma iread_device b n u br ms opts i : iface true b n u br ms opts -> iread true b n u br ms opts i -> dget "device" i = text n /\ dget "name" i = None /\ dget "ifname" i = None.
Proof.
  intros H [_ G]. rewrite !G. split; [|split; reflexivity]. change (uopt (text n) = text n). apply uci_text. exact (i_ne _ _ _ _ _ _ _ H).
Qed.
Lemma dsa_alone b n u br ms opts i devs : iface true b n u br ms opts -> iread true b n u br ms opts i ->
  dget (":" +++ n) devs = None -> dget EmptyString devs = None ->
  netjson_dsa devs i = Ok (Some (with_ifname n i), devs).
Proof.
  intros H HI Hk He. destruct (iread_device _ _ _ _ _ _ _ H HI) as (Ed & En & Ef). unfold netjson_dsa, device_for, pop_or, dgetN. rewrite Ed, En.
  unfold text at 1. cbn [dev_key bind]. unfold dmem at 1. rewrite Hk, He. cbn [text str_key bind].
  rewrite (rpartition_none "." n) by (apply dot_free, (i_dot _ _ _ _ _ _ _ H eq_refl)). cbn [bind]. unfold dmem. rewrite Ed, Ef. reflexivity.
Qed.
Lemma alone_ready b n u br ms opts i : iface true b n u br ms opts -> iread true b n u br ms opts i -> has_device b br = false ->
  ready true b n u br ms opts (with_ifname n i).
Proof.
  intros H [Ni G] Hno. unfold has_device in Hno. apply orb_false_iff in Hno as [Hno H3]. apply orb_false_iff in Hno as [-> H2]. unfold dmem in H2, H3.
  pose proof (i_none _ _ _ _ _ _ _ H) as Habs. unfold none_of, section_fields in Habs. 
  assert (Hmac : dget "mac" b = None) by (destruct (dget "mac" b); [discriminate|reflexivity]). assert (Hmtu : dget "mtu" b = None) by (destruct (dget "mtu" b); [discriminate|reflexivity]).
  unfold with_ifname. constructor.
  - nodup.
  - dg. ev. reflexivity.
  - rewrite Hmtu. dg. ev. rewrite G. reflexivity.
  - intros k K1 K2 K3. dg. ev. destruct (String.eqb_spec k "device") as [->|K0]; [reflexivity|]. rewrite G.
    destruct (String.eqb_spec k ".type") as [->|K4]; [reflexivity|]. destruct (String.eqb_spec k ".name") as [->|K5]; [reflexivity|]. cbn [orb].
    destruct (startswith "." k) eqn:Ed; [symmetry; apply rsec_dotted; assumption|].
    destruct (existsb (String.eqb k) bridge_keys) eqn:Eb.
    { apply existsb_exists in Eb as (k' & Hk & E). apply String.eqb_eq in E. subst k'. destruct (rsec_bridge_key true b n u false ms opts k Hk) as (E & _). rewrite E, (i_keys _ _ _ _ _ _ _ H eq_refl k Hk).
      unfold bridge_keys, bridge_flags, bridge_numbers in Hk. cbn [app In] in Hk.
      repeat (destruct Hk as [<-|Hk]; [reflexivity|]). contradiction. }
    unfold isec, rsec, gone. cbn [existsb]. rewrite Eb. rewrite !andb_false_r, Hmac. cbn [negb].
    fields k; cbn [orb andb]; try reflexivity; try (rewrite Habs by (cbn; tauto); reflexivity).
    all: try exact (proj1 (dns_reads _ _ (i_addr _ _ _ _ _ _ _ H))). all: try exact (proj2 (dns_reads _ _ (i_addr _ _ _ _ _ _ _ H))).
    all: destruct (existsb (String.eqb k) six_options); reflexivity.
Qed.
