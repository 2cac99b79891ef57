(** * RtIfStage: the interfaces of a device as a stage of the round trip (proofs only). *)
From Verif Require Import PyBase PyLemmas StrLemmas NumLemmas Merge SpecMerge MergeProofs MergeListProofs MergeFinal Backend Conv Ip IpProofs OwrtConv OwrtWireless OwrtInterfaces
  SpecUci SpecConv SpecDevice SpecWhole ConvLemmas SortLemmas RtStage RtBack RtGeneric RtObjects RtSystem RtNetwork RtSwitch RtTrip RtAddress RtInterface RtIfFwd RtIfWifi RtIfOk RtIfBack RtIfDev RtIfOwn RtProto.

(** ** Removing what a loop converts *)
Lemma named_unique l ns a b n : named l ns -> NoDup ns -> In a l -> In b l -> sec_name a n -> sec_name b n -> a = b.
Proof.
  intros H. induction H as [|x m l ns Hx H IH]; intros Hnd Ha Hb Sa Sb; [contradiction|]. inversion Hnd as [|? ? Hni Hnd']; subst.
  assert (D : forall y, In y l -> sec_name y n -> sec_name x n -> False).
  { intros y Hy Sy Sx. destruct (Forall2_In_l _ _ _ _ H Hy) as (k & Hk & Ek). unfold sec_name in *. congruence. }
  destruct Ha as [<-|Ha], Hb as [<-|Hb]; [reflexivity|exfalso; eauto|exfalso; eauto|]. apply IH; assumption.
Qed.
Lemma fold_filter (B : Type) (skip : dict -> bool) (g : B -> dict -> B) : forall ds acc,
  fold_left (fun a d => if skip d then a else g a d) ds acc = fold_left g (filter (fun d => negb (skip d)) ds) acc.
Proof. induction ds as [|d ds IH]; intros acc; [reflexivity|]. cbn. destruct (skip d); cbn; apply IH. Qed.
Lemma foldM_filter (A : Type) (skip : dict -> bool) (g : A -> dict -> res A) : forall ds acc,
  foldM (fun a d => if skip d then Ok a else g a d) acc ds = foldM g acc (filter (fun d => negb (skip d)) ds).
Proof. induction ds as [|d ds IH]; intros acc; [reflexivity|]. cbn. destruct (skip d); cbn; [apply IH|]. destruct (g acc d); cbn; [apply IH|reflexivity]. Qed.
Lemma sweep (skip : dict -> bool) l ns : named l ns -> NoDup ns -> (forall d, In d l -> wf (VDict d)) ->
  fold_left (fun a d => if skip d then a else remove_first (VDict d) a) l (map VDict l) = map VDict (filter skip l).
Proof.
  intros Hn Hnd Hw. rewrite fold_filter. destruct (named_filter (fun d => negb (skip d)) l ns Hn Hnd) as (dns & H1 & H2 & H3).
  rewrite (remove_all _ dns l ns H1 H2); [|intros d Hd; apply filter_In in Hd; apply Hd|exact Hn|exact Hnd|intros d Hd; apply filter_In in Hd; apply Hw, Hd].
  f_equal. apply filter_ext_in. intros d Hd. destruct (Forall2_In_l _ _ _ _ Hn Hd) as (n & _ & En). unfold name_in. unfold sec_name in En. rewrite En.
  destruct (skip d) eqn:E.
  - apply negb_true_iff, not_true_iff_false. intros X. apply existsb_exists in X as (m & Hm & X). apply String.eqb_eq in X. subst m.
    destruct (Forall2_In_r _ _ _ _ H1 Hm) as (d' & Hd' & Ed'). apply filter_In in Hd' as [Hd' Ef].
    rewrite (named_unique l ns d d' n) in E by assumption. rewrite E in Ef. discriminate Ef.
  - apply negb_false_iff, existsb_exists. exists n. split; [|apply eqb_refl].
    assert (Hf : In d (filter (fun d => negb (skip d)) l)) by (apply filter_In; rewrite E; auto).
    destruct (Forall2_In_l _ _ _ _ H1 Hf) as (m & Hm & Em). unfold sec_name in Em. congruence.
Qed.
Lemma loop_sweep (A : Type) (skip : dict -> bool) (f : dict -> A -> nat -> res A) (g : A -> dict -> res A) l ns acc acc' :
  (forall d a i, f d a i = g a d) -> named l ns -> NoDup ns -> (forall d, In d l -> wf (VDict d)) ->
  foldM g acc (filter (fun d => negb (skip d)) l) = Ok acc' ->
  bwd_loop skip f (map VDict l) 0 (map VDict l) acc = (map VDict (filter skip l), Ok acc').
Proof.
  intros Hf Hn Hnd Hw H. rewrite (bwd_loop_fold A skip f g Hf l 0 _ acc acc'); [|rewrite foldM_filter; exact H]. rewrite (sweep skip l ns Hn Hnd Hw). reflexivity.
Qed.

(** ** The interfaces of a device *)
Inductive if_list (dsa : bool) (config : dict) : list dict -> list dict -> Prop :=
| if_nil : if_list dsa config [] []
| if_cons b l n br ms opts secs ss : iface dsa b n (interface_name b) br ms opts -> dns_in config b opts -> ifsecs dsa b n (interface_name b) br ms opts secs -> if_list dsa config l ss ->
    if_list dsa config (b :: l) (secs ++ ss)
| if_proto b l t n ads opts s ss : piface b t n (interface_name b) ads opts -> dns_in config b opts -> sorted_keys s -> (forall k, dget k s = psec t b n (interface_name b) ads opts k) ->
    if_list dsa config l ss -> if_list dsa config (b :: l) (s :: ss).
Lemma own_device_has dsa b n u br ms opts : iface dsa b n u br ms opts -> own_device dsa b = dsa && has_device b br.
Proof.
  intros H. unfold own_device, own_protocol, is_bridge, has_device. rewrite (i_type _ _ _ _ _ _ _ H). unfold text. destruct br; [rewrite andb_true_r; reflexivity|]. destruct (existsb _ loopback_names); rewrite andb_true_r; reflexivity.
Qed.
Lemma own_device_proto dsa b t n u l opts : piface b t n u l opts -> own_device dsa b = false.
Proof.
  intros H. unfold own_device, own_protocol. rewrite (p_type _ _ _ _ _ _ H). unfold text. destruct (protocol_cases _ (p_in _ _ _ _ _ _ H)) as [-> |[-> |[-> | ->]]]; cbn [own_protocols existsb String.eqb Ascii.eqb Bool.eqb orb negb]; rewrite andb_false_r; reflexivity.
Qed.
Lemma ethernet_ok dsa b : dget "type" b = text "ethernet" -> wired_ok dsa b -> interface_ok dsa b.
Proof.
  intros Ht [H|(_ & (n & t & _ & _ & _ & Et & Hin & _) & _)]; [exact H|exfalso]. rewrite Ht in Et. injection Et as <-. unfold own_protocols in Hin. cbn [In] in Hin. intuition discriminate.
Qed.
(** What is needed from an interface: Ethernet or bridge, wireless with addresses,
    or wireless without addresses. *)
Definition net_ok (dsa : bool) (b : dict) : Prop :=
  is_wireless b = false /\ wired_ok dsa b \/
  is_wireless b = true /\ NoDup (dkeys b) /\ dget "type" b = text "wireless" /\
    (if addressed b then wired_ok dsa (dset "type" (VStr "ethernet") (ddel "mac" (ddel "wireless" b)))
     else (exists n, dget "name" b = text n) /\ forall k, dmem k b = true -> In k bare_keys).
Lemma if_fwd oid dsa config : dns_config config -> forall l ss ns, 
  (forall b, In b l -> net_ok dsa b) -> named ss ns -> NoDup (ns ++ flat_map (interface_names dsa) (flat_map wired l)) ->
  exists secs, foldM (interface_block oid dsa config) (acc_of "network" ss, []) (map VDict l) = Ok (acc_of "network" (ss ++ secs), []) /\ if_list dsa config (flat_map wired l) secs /\
    named secs (flat_map (interface_names dsa) (flat_map wired l)).
Proof.
  intros Hc. induction l as [|b l IH]; intros ss ns Hok Hn Hnd.
  - exists []. rewrite app_nil_r. split; [reflexivity|]. split; constructor.
  - assert (Hone : wired b = [] /\ interface_block oid dsa config (acc_of "network" ss, []) (VDict b) = Ok (acc_of "network" ss, []) \/
      (exists c, wired b = [c] /\ interface_ok dsa c /\ forall n u br ms opts, iface dsa c n u br ms opts -> dns_in config c opts -> ~ In u ns -> (dsa && has_device c br = true -> ~ In ("device_" +++ u) ns) -> NoDup ns ->
        exists secs, interface_block oid dsa config (acc_of "network" ss, []) (VDict b) = Ok (acc_of "network" (ss ++ secs), []) /\ ifsecs dsa c n u br ms opts secs) \/
      wired b = [b] /\ protocol_ok b).
    { unfold wired. destruct (Hok b (or_introl eq_refl)) as [[-> [Hi|Hi]]|(-> & Hb & Ht & H)].
      - right. left. exists b. split; [reflexivity|]. split; [exact Hi|]. intros n u br ms opts H Hin Hu Hdu Hns. eapply block_fwd; eassumption.
      - right. right. split; [reflexivity|exact Hi].
      - destruct (addressed b) eqn:Ea.
        + right. left. eexists. split; [reflexivity|]. split; [apply ethernet_ok; [rewrite dget_dset; reflexivity|exact H]|]. intros n u br ms opts Hf Hin Hu Hdu Hns.
          eapply block_wireless; try eassumption.
          * unfold addressed, dmem in Ea. destruct (dget "addresses" b); [discriminate|discriminate Ea].
          * rewrite dget_dset. reflexivity.
          * dg. ev. reflexivity.
          * intros k K1 K2 K3. dg. ev. reflexivity.
        + left. split; [reflexivity|]. destruct H as [(n & En) Hk]. eapply block_bare; eassumption. }
    cbn [map foldM flat_map] in *. destruct Hone as [[Ew Eb]|[(c & Ew & Hi & Hone)|[Ew Hi]]].
    + rewrite Ew in *. rewrite Eb. cbn [app bind] in *. apply (IH ss ns); [intros x Hx; apply Hok; right; exact Hx|exact Hn|exact Hnd].
    + rewrite Ew in *. cbn [app flat_map] in *. destruct (iface_of dsa config c Hc Hi) as (n & br & ms & opts & H & Hin). set (u := interface_name c) in *.
      rewrite app_assoc in Hnd. pose proof (NoDup_app_l _ _ _ Hnd) as Hnd1.
      assert (Hu : ~ In u ns /\ (dsa && has_device c br = true -> ~ In ("device_" +++ u) ns)).
      { assert (D : forall x, In x (interface_names dsa c) -> ~ In x ns).
        { intros x Hx Hx'. apply in_split in Hx' as (p & q & ->). rewrite <- app_assoc in Hnd1. cbn [app] in Hnd1. apply NoDup_remove_2 in Hnd1. apply Hnd1. rewrite !in_app_iff. auto. }
        unfold interface_names in D. rewrite (own_device_has _ _ _ _ _ _ _ H) in D. fold u in D. split; [apply D, in_app_iff; right; left; reflexivity|].
        intros E. apply D. rewrite E. left; reflexivity. }
      destruct Hu as [Hu Hdu]. destruct (Hone n u br ms opts H Hin Hu Hdu (NoDup_app_l _ _ _ Hnd1)) as (secs & -> & Hs). cbn [bind].
      assert (Hsn : named secs (interface_names dsa c)).
      { unfold interface_names. rewrite (own_device_has _ _ _ _ _ _ _ H). fold u. destruct Hs as [i E Si Gi|d i E1 E2 Sd Gd Si Gi].
        - rewrite E. constructor; [unfold sec_name; rewrite Gi; reflexivity|constructor].
        - rewrite E1, E2. constructor; [unfold sec_name; rewrite Gd; reflexivity|]. constructor; [unfold sec_name; rewrite Gi; reflexivity|constructor]. }
      destruct (IH (ss ++ secs) (ns ++ interface_names dsa c)) as (secs' & E' & L' & N').
      { intros x Hx. apply Hok. right; exact Hx. } { apply Forall2_app; assumption. } { exact Hnd. }
      rewrite E'. exists (secs ++ secs')%list. rewrite app_assoc. split; [reflexivity|]. split; [econstructor; eassumption|]. apply Forall2_app; assumption.
    + rewrite Ew in *. cbn [app flat_map] in *. destruct (piface_of config b Hc Hi) as (t & n & ads & opts & H & Hin).
      assert (Hna : interface_names dsa b = [interface_name b]) by (unfold interface_names; rewrite (own_device_proto _ _ _ _ _ _ _ H); reflexivity). rewrite Hna in *.
      set (u := interface_name b) in *. rewrite app_assoc in Hnd. pose proof (NoDup_app_l _ _ _ Hnd) as Hnd1.
      assert (Hu : ~ In u ns). { intros Hx. apply in_split in Hx as (p & q & ->). rewrite <- app_assoc in Hnd1. cbn [app] in Hnd1. apply NoDup_remove_2 in Hnd1. apply Hnd1. rewrite !in_app_iff. cbn [In]. auto. }
      destruct (block_proto oid dsa config b t n u ads opts ss ns H Hc Hin Hn (NoDup_app_l _ _ _ Hnd1) Hu) as (s & -> & Ss & Gs). cbn [bind].
      assert (Hsn : named [s] [u]).
      { constructor; [|constructor]. unfold sec_name. rewrite Gs. eapply psec_name, H. }
      destruct (IH (ss ++ [s]) (ns ++ [u])) as (secs' & E' & L' & N').
      { intros x Hx. apply Hok. right; exact Hx. } { apply Forall2_app; assumption. } { exact Hnd. }
      rewrite E'. exists (s :: secs')%list. rewrite <- app_assoc. split; [reflexivity|]. split; [eapply if_proto; eassumption|]. inversion Hsn; subst. constructor; assumption.
Qed.
Lemma if_list_ok dsa config : forall l ss, if_list dsa config l ss -> forall s, In s ss -> section_ok s /\ (exists t, (t = "interface" \/ t = "device") /\ dget ".type" s = Some (VStr t)) /\
  forall s', section_reads s s' -> dget ".type" s' = Some (VStr "interface").
Proof.
  intros l ss H. induction H as [|b l n br ms opts secs ss Hi Hin0 Hs H IH|b l t n ads opts s0 ss Hp Hin0 Ss Gs H IH]; [intros s []| |].
  2: { intros s [<-|Hin]; [|apply IH, Hin]. split; [eapply psec_ok; [exact Hp|apply sorted_NoDup, Ss|exact Gs]|].
       split; [exists "interface"; split; [left; reflexivity|rewrite Gs; eapply psec_type, Hp]|].
       intros s' Hr. destruct (psec_read _ _ _ _ _ _ _ _ Hp Hr Gs) as [_ G]. rewrite G. ev. cbn [orb]. eapply psec_type, Hp. }
  set (u := interface_name b) in *. intros s Hin. apply in_app_iff in Hin as [Hin|Hin]; [|apply IH, Hin].
  assert (I : forall i, sorted_keys i -> (forall k, dget k i = isec dsa b n u br ms opts k) -> section_ok i /\ (exists t, (t = "interface" \/ t = "device") /\ dget ".type" i = Some (VStr t)) /\
    forall s', section_reads i s' -> dget ".type" s' = Some (VStr "interface")).
  { intros i Si Gi. split; [eapply isec_ok; [exact Hi|apply sorted_NoDup, Si|exact Gi]|]. split; [exists "interface"; split; [left; reflexivity|rewrite Gi; reflexivity]|].
    intros s' Hr. destruct (isec_read _ _ _ _ _ _ _ _ _ Hr Gi) as [_ G]. rewrite G. reflexivity. }
  destruct Hs as [i E Si Gi|d i E1 E2 Sd Gd Si Gi].
  - destruct Hin as [<-|[]]. apply I; assumption.
  - destruct Hin as [<-|[<-|[]]]; [|apply I; assumption].
    split; [eapply dsec_ok; [exact Hi|apply sorted_NoDup, Sd|exact Gd]|]. split; [exists "device"; split; [right; reflexivity|rewrite Gd; reflexivity]|].
    intros s' Hr. destruct (dsec_read _ _ _ _ _ _ _ Hr Gd) as [_ G]. rewrite G. reflexivity.
Qed.

(** ** What is read *)
Record item := { it_b : dict; it_n : string; it_br : bool; it_ms : list string; it_opts : list (string * option val); it_d : option dict; it_i : dict }.
Definition it_plain (dsa : bool) (t : item) : Prop :=
  iface dsa (it_b t) (it_n t) (interface_name (it_b t)) (it_br t) (it_ms t) (it_opts t) /\
  iread dsa (it_b t) (it_n t) (interface_name (it_b t)) (it_br t) (it_ms t) (it_opts t) (it_i t) /\
  match it_d t with
  | None => dsa && has_device (it_b t) (it_br t) = false
  | Some d => dsa = true /\ has_device (it_b t) (it_br t) = true /\ dread (it_b t) (it_n t) (interface_name (it_b t)) (it_br t) (it_ms t) d
  end.
Definition it_proto (x : item) : Prop := it_d x = None /\ exists t l,
  piface (it_b x) t (it_n x) (interface_name (it_b x)) l (it_opts x) /\ pread t (it_b x) (it_n x) (interface_name (it_b x)) l (it_opts x) (it_i x).
Definition it_ok (dsa : bool) (t : item) : Prop := it_plain dsa t \/ it_proto t.
Definition it_secs (t : item) : list dict := match it_d t with Some d => [d; it_i t] | None => [it_i t] end.
Definition it_key (t : item) : string := ":" +++ it_n t.
Definition owned (t : item) : bool := match it_d t with Some _ => true | None => false end.
Lemma read_items dsa config : forall l ss, if_list dsa config l ss -> forall own, Forall2 section_reads ss own ->
  exists ts, own = flat_map it_secs ts /\ map it_b ts = l /\ forall t, In t ts -> it_ok dsa t /\ dns_in config (it_b t) (it_opts t).
Proof.
  intros l ss H. induction H as [|b l n br ms opts secs ss Hi Hin Hs H IH|b l t n ads opts s0 ss Hp Hin Ss Gs H IH]; intros own F.
  - inversion F; subst. exists []. split; [reflexivity|]. split; [reflexivity|]. intros t [].
  - apply Forall2_app_l in F as (o1 & o2 & -> & F1 & F2). destruct (IH o2 F2) as (ts & -> & Hb & Hok).
    assert (E : exists t, o1 = it_secs t /\ it_b t = b /\ it_ok dsa t /\ dns_in config (it_b t) (it_opts t)).
    { destruct Hs as [i E Si Gi|d i E1 E2 Sd Gd Si Gi].
      - inversion F1 as [|? i' ? ? R1 F1']; subst. inversion F1'; subst. exists {| it_b := b; it_n := n; it_br := br; it_ms := ms; it_opts := opts; it_d := None; it_i := i' |}.
        split; [reflexivity|]. split; [reflexivity|]. split; [|exact Hin]. left. split; [exact Hi|]. split; [eapply isec_read; eassumption|exact E].
      - inversion F1 as [|? d' ? ? R0 F1']; subst. inversion F1' as [|? i' ? ? R1 F1'']; subst. inversion F1''; subst.
        exists {| it_b := b; it_n := n; it_br := br; it_ms := ms; it_opts := opts; it_d := Some d'; it_i := i' |}.
        split; [reflexivity|]. split; [reflexivity|]. split; [|exact Hin]. left. split; [exact Hi|]. split; [eapply isec_read; eassumption|]. split; [reflexivity|]. split; [exact E2|eapply dsec_read; eassumption]. }
    destruct E as (t & -> & Eb & Ht). exists (t :: ts). cbn [flat_map map]. split; [reflexivity|]. split; [congruence|]. intros x [<-|Hx]; [exact Ht|apply Hok, Hx].
  - inversion F as [|? s' ? o2 R1 F2]; subst. destruct (IH o2 F2) as (ts & -> & Hb & Hok).
    exists ({| it_b := b; it_n := n; it_br := false; it_ms := []; it_opts := opts; it_d := None; it_i := s' |} :: ts). cbn [flat_map map it_b]. split; [reflexivity|]. split; [congruence|].
    intros x [<-|Hx]; [|apply Hok, Hx]. split; [|exact Hin]. right. split; [reflexivity|]. exists t, ads. split; [exact Hp|eapply psec_read; eassumption].
Qed.

(** ** The loops *)
Definition apart (ts : list item) : Prop :=
  forall i j a b, nth_error ts i = Some a -> nth_error ts j = Some b -> i <> j -> owned a = true -> it_key a <> it_key b.
Lemma apart_tail t ts : apart (t :: ts) -> apart ts.
Proof. intros H i j a b Ha Hb Hij. apply (H (S i) (S j) a b Ha Hb). congruence. Qed.
Lemma apart_head t ts x : apart (t :: ts) -> In x ts -> (owned t = true \/ owned x = true) -> it_key t <> it_key x.
Proof.
  intros H Hx Ho. apply In_nth_error in Hx as (i & Hi). destruct Ho as [Ho|Ho].
  - apply (H 0 (S i) t x eq_refl Hi ltac:(discriminate) Ho).
  - intros E. apply (H (S i) 0 x t Hi eq_refl ltac:(discriminate) Ho). symmetry; exact E.
Qed.
Lemma skip_type_is types d t : dget ".type" d = Some (VStr t) -> existsb (String.eqb t) types = true -> skip_block types d = false.
Proof.
  intros Ht He. destruct d as [|kv d]; [discriminate Ht|]. destruct types as [|x types]; [discriminate He|]. rewrite skip_type by discriminate.
  unfold type_in. rewrite Ht, He. reflexivity.
Qed.
Lemma skip_d dsa t d : it_ok dsa t -> it_d t = Some d -> skip_non_device d = false.
Proof.
  intros [(H & _ & Hd)|[Hd _]] E; [|congruence]. rewrite E in Hd. destruct Hd as (_ & _ & [_ G]). unfold skip_non_device.
  rewrite (skip_type_is uci_types d "interface"); [|rewrite G; reflexivity|reflexivity]. cbn [orb]. unfold dgetN. rewrite !G. destruct (it_br t); reflexivity.
Qed.
Lemma proto_gone b t n u l opts k : piface b t n u l opts -> In k ["bridge_21"] -> psec t b n u l opts k = None.
Proof.
  intros H Hk. destruct Hk as [<-|[]]; rewrite (psec_plain _ _ _ _ _ _ _ H) by reflexivity.
  - exact (proto_absent _ _ _ _ _ _ "bridge_21" H ltac:(unfold protocol_gone; cbn [In]; tauto)).
Qed.
Lemma skip_i dsa t : it_ok dsa t -> skip_non_device (it_i t) = true.
Proof.
  intros [(H & [_ G] & _)|(_ & ty & l & H & [_ G])]; unfold skip_non_device.
  2: { apply orb_true_iff. right. unfold dgetN. rewrite !G. ev. cbn [orb startswith]. rewrite (proto_gone _ _ _ _ _ _ "bridge_21" H) by (cbn; auto). reflexivity. } apply orb_true_iff. right. unfold dgetN. rewrite !G.
  assert (E1 : isec dsa (it_b t) (it_n t) (interface_name (it_b t)) (it_br t) (it_ms t) (it_opts t) "bridge_21" = None).
  { change (isec dsa (it_b t) (it_n t) (interface_name (it_b t)) (it_br t) (it_ms t) (it_opts t) "bridge_21") with (dget "bridge_21" (it_b t)).
    apply (i_none _ _ _ _ _ _ _ H). unfold section_fields; cbn; tauto. }
  rewrite E1.
  change (isec dsa (it_b t) (it_n t) (interface_name (it_b t)) (it_br t) (it_ms t) (it_opts t) "type") with (if it_br t && negb dsa then text "bridge" else None).
  destruct (it_br t && negb dsa); reflexivity.
Qed.
Lemma skip_v dsa devs t : it_ok dsa t -> (it_proto t -> no_paths (it_b t) devs) -> skip_vlan devs (it_i t) = false.
Proof.
  intros [(H & [_ G] & _)|Hx] Hno; unfold skip_vlan.
  2: { specialize (Hno Hx). destruct Hx as (_ & ty & l & H & HR). destruct (proto_device _ _ _ _ _ _ _ H HR) as [Ed _]. destruct HR as [_ G].
    rewrite (skip_type_is uci_types (it_i t) "interface"); [|rewrite G; ev; cbn [orb]; eapply psec_type, H|reflexivity]. cbn [orb]. rewrite Ed.
    pose proof (p_dev _ _ _ _ _ _ H) as Hd. unfold optional in Hd. destruct (dget "device" (it_b t)) as [v|] eqn:Ev; [|reflexivity]. destruct Hd as (s & ->).
    rewrite (skip_path devs (it_b t) s Hno Ev). apply andb_false_r. }
  rewrite (skip_type_is uci_types (it_i t) "interface"); [|rewrite G; reflexivity|reflexivity]. cbn [orb]. rewrite G.
  change (isec dsa (it_b t) (it_n t) (interface_name (it_b t)) (it_br t) (it_ms t) (it_opts t) "device") with (if dsa then text (it_n t) else None).
  ev. cbn [orb]. change (startswith "." "device") with false. cbn iota.
  destruct dsa; [|reflexivity]. unfold text, uopt. rewrite uci_text by exact (i_ne _ _ _ _ _ _ _ H). rewrite (i_dot _ _ _ _ _ _ _ H eq_refl). reflexivity.
Qed.
Lemma key_nonempty dsa t : it_ok dsa t -> ":" <> it_key t.
Proof.
  intros Hit. assert (Hn : it_n t <> EmptyString) by (destruct Hit as [(H & _)|(_ & ty & l & H & _)]; [exact (i_ne _ _ _ _ _ _ _ H)|exact (p_ne _ _ _ _ _ _ H)]).
  unfold it_key. cbn. intros E. injection E as E. congruence.
Qed.
Definition is_dev (t : item) (devs : list (string * dict)) : Prop :=
  exists B, dget (it_key t) devs = Some B /\ bdev (it_b t) (it_n t) (interface_name (it_b t)) (it_br t) (it_ms t) B.
Lemma first_loop dsa : forall ts devs0, (forall t, In t ts -> it_ok dsa t) -> apart ts ->
  (forall t, In t ts -> owned t = true -> dget (it_key t) devs0 = None) ->
  exists devs, foldM (fun a d => device_block d a 0) devs0 (filter (fun d => negb (skip_non_device d)) (flat_map it_secs ts)) = Ok devs /\
    (forall t, In t ts -> owned t = true -> is_dev t devs) /\
    forall k, (forall t, In t ts -> owned t = true -> k <> it_key t) -> dget k devs = dget k devs0.
Proof.
  induction ts as [|t ts IH]; intros devs0 Hok Hap Hno.
  - exists devs0. split; [reflexivity|]. split; [intros t []|reflexivity].
  - pose proof (Hok t (or_introl eq_refl)) as Ht. cbn [flat_map]. rewrite filter_app.
    assert (Ei : filter (fun d => negb (skip_non_device d)) [it_i t] = []) by (cbn [filter]; rewrite (skip_i dsa t Ht); reflexivity).
    assert (Hok' : forall x, In x ts -> it_ok dsa x) by (intros x Hx; apply Hok; right; exact Hx).
    unfold it_secs at 1. destruct (it_d t) as [d|] eqn:Ed.
    + assert (Eo : owned t = true) by (unfold owned; rewrite Ed; reflexivity).
      change [d; it_i t] with ([d] ++ [it_i t]). rewrite filter_app, Ei, app_nil_r. cbn [filter]. rewrite (skip_d dsa t d Ht Ed). cbn [negb app foldM].
      destruct Ht as [(H & HI & Hd)|[Hd _]]; [|congruence]. rewrite Ed in Hd. destruct Hd as (-> & Hh & Hr).
      destruct (device_back _ _ _ _ _ _ d devs0 0 H Hr (Hno t (or_introl eq_refl) Eo)) as (B & -> & HB). cbn [bind].
      destruct (IH (dset (it_key t) B devs0) Hok' (apart_tail _ _ Hap)) as (devs & E & G1 & G2).
      { intros x Hx Ox. rewrite dget_dset, eqb_neq; [apply Hno; [right; exact Hx|exact Ox]|]. intros X. symmetry in X. revert X. eapply apart_head; eauto. }
      exists devs. split; [exact E|]. split.
      * intros x [<-|Hx] Ox; [|apply G1; assumption]. exists B. split; [|exact HB]. rewrite G2; [rewrite dget_dset, eqb_refl; reflexivity|].
        intros y Hy Oy. eapply apart_head; eauto.
      * intros k Hk. rewrite G2 by (intros x Hx; apply Hk; right; exact Hx). rewrite dget_dset, eqb_neq; [reflexivity|]. apply Hk; [left; reflexivity|exact Eo].
    + assert (Eo : owned t = false) by (unfold owned; rewrite Ed; reflexivity). rewrite Ei. cbn [app].
      destruct (IH devs0 Hok' (apart_tail _ _ Hap)) as (devs & E & G1 & G2); [intros x Hx; apply Hno; right; exact Hx|].
      exists devs. split; [exact E|]. split; [intros x [<-|Hx] Ox; [congruence|apply G1; assumption]|]. intros k Hk. apply G2. intros x Hx. apply Hk. right; exact Hx.
Qed.
(** What has been parsed so far: the interfaces, the servers and the search domains *)
Definition olist (l : list val) : option val := match l with [] => None | _ => Some (VList l) end.
Definition acc3 (bs : list dict) (s1 s2 : list string) (r : dict) : Prop := NoDup (dkeys r) /\
  forall k, dget k r = if String.eqb k "interfaces" then olist (map VDict bs) else if String.eqb k "dns_servers" then olist (map VStr s1)
    else if String.eqb k "dns_search" then olist (map VStr s2) else None.
Lemma olist_old l : match olist l with Some (VList l) => l | _ => [] end = l.
Proof. destruct l; reflexivity. Qed.
Lemma dns_one key ck i r l s : NoDup (dkeys r) -> words l -> dget key i = dns_val l -> dget ck r = olist (map VStr s) ->
  exists r', netjson_dns_one (i, r) (key, ck) = Ok (ddel key i, r') /\ NoDup (dkeys r') /\
    forall k, dget k r' = if String.eqb k ck then olist (map VStr (s ++ l)) else dget k r.
Proof.
  intros Hr W E1 E2. unfold netjson_dns_one. cbn [fst snd]. rewrite E1. destruct l as [|x l]; cbn [dns_val text].
  - exists r. rewrite ddel_absent by exact E1. split; [reflexivity|]. split; [exact Hr|]. intros k. rewrite app_nil_r. destruct (String.eqb_spec k ck) as [->|]; [exact E2|reflexivity].
  - unfold text. cbn [bind]. rewrite (split_join (x :: l) W). rewrite E2, olist_old. eexists. split; [reflexivity|]. split; [nodup|].
    intros k. rewrite dget_dset. rewrite map_app. destruct (String.eqb k ck); [|reflexivity]. destruct s; reflexivity.
Qed.
Lemma dns_back i r bs s1 s2 l1 l2 : NoDup (dkeys i) -> words l1 -> words l2 -> dget "dns" i = dns_val l1 -> dget "dns_search" i = dns_val l2 -> acc3 bs s1 s2 r ->
  exists r', netjson_dns i r = Ok (ddel "dns_search" (ddel "dns" i), r') /\ acc3 (bs ++ [ddel "dns_search" (ddel "dns" i)]) (s1 ++ l1) (s2 ++ l2) (add_blocks "interfaces" [ddel "dns_search" (ddel "dns" i)] r').
Proof.
  intros Hi W1 W2 E1 E2 [Hr G].
  destruct (dns_one "dns" "dns_servers" i r l1 s1 Hr W1 E1) as (r1 & X1 & N1 & G1); [rewrite G; reflexivity|].
  destruct (dns_one "dns_search" "dns_search" (ddel "dns" i) r1 l2 s2 N1 W2) as (r2 & X2 & N2 & G2).
  { rewrite dget_ddel_other by discriminate. exact E2. } { rewrite G1, G. reflexivity. }
  exists r2. unfold netjson_dns. cbn [foldM]. rewrite X1. cbn [bind]. rewrite X2. split; [reflexivity|]. set (b := ddel "dns_search" (ddel "dns" i)). clearbody b. unfold add_blocks. split; [nodup|].
  intros k. rewrite dget_dset, !G2, !G1, !G. cbn [map].
  destruct (String.eqb_spec k "interfaces") as [->|K1].
  - ev. rewrite olist_old, map_app. destruct bs; reflexivity.
  - destruct (String.eqb_spec k "dns_search") as [->|K2]; [reflexivity|]. destruct (String.eqb_spec k "dns_servers") as [->|K3]; reflexivity.
Qed.
(** One interface *)
Lemma one_back dsa t devs l s1 s2 r l1 l2 : it_ok dsa t -> words l1 -> words l2 -> opt (it_opts t) "dns" = dns_val l1 -> opt (it_opts t) "dns_search" = dns_val l2 -> acc3 l s1 s2 r -> (owned t = true -> is_dev t devs) -> (owned t = false -> dget (it_key t) devs = None) -> (it_proto t -> no_paths (it_b t) devs) -> dget EmptyString devs = None -> dget ":" devs = None ->
  exists b' devs' r', interface_bwd dsa (it_i t) (devs, r) 0 = Ok (devs', r') /\ acc3 (l ++ [b']) (s1 ++ l1) (s2 ++ l2) r' /\ same (VDict (it_b t)) (VDict b') /\
    (if owned t then exists B, devs' = dset (it_key t) B devs /\ consumed B else devs' = devs).
Proof.
  intros Hit W1 W2 O1 O2 HA Ho Hn Hno He He2.
  assert (E : exists R devs' b', (if dsa then netjson_dsa devs (it_i t) else Ok (Some (it_i t), devs)) = Ok (Some R, devs') /\
    dget ".type" (it_i t) = text "interface" /\ dget ".type" R = text "interface" /\ py_eq (dgetN "type" R) (VStr "device") || truthy (dgetN "bridge_21" R) = false /\
    (netjson_interface R = Ok b' /\ NoDup (dkeys b') /\ same (VDict (it_b t)) (VDict (ddel "dns_search" (ddel "dns" b'))) /\ dget "dns" b' = opt (it_opts t) "dns" /\ dget "dns_search" b' = opt (it_opts t) "dns_search" /\ b' <> []) /\
    (if owned t then exists B, devs' = dset (it_key t) B devs /\ consumed B else devs' = devs)).
  { destruct Hit as [(H & HI & Hd)|Hx]; [|specialize (Hno Hx); destruct Hx as (Hd & ty & ads & H & HI)].
    - assert (E : exists R devs', (if dsa then netjson_dsa devs (it_i t) else Ok (Some (it_i t), devs)) = Ok (Some R, devs') /\
        ready dsa (it_b t) (it_n t) (interface_name (it_b t)) (it_br t) (it_ms t) (it_opts t) R /\
        (if owned t then exists B, devs' = dset (it_key t) B devs /\ consumed B else devs' = devs)).
      { unfold owned in *. destruct (it_d t) as [d|].
        - destruct Hd as (-> & Hh & Hr). destruct (Ho eq_refl) as (B & HB1 & HB2). destruct (dsa_owned _ _ _ _ _ _ _ B devs H HI HB2 HB1 Hh) as (R & B' & E & Hc & HR).
          exists R, (dset (it_key t) B' devs). split; [exact E|]. split; [exact HR|]. exists B'. auto.
        - destruct dsa.
          + cbn [andb] in Hd. rewrite (dsa_alone _ _ _ _ _ _ _ devs H HI (Hn eq_refl) He). do 2 eexists. split; [reflexivity|]. split; [apply alone_ready; assumption|reflexivity].
          + do 2 eexists. split; [reflexivity|]. split; [apply ready_plain; assumption|reflexivity]. }
      destruct E as (R & devs' & E & HR & HD). destruct (interface_back _ _ _ _ _ _ _ _ H HR) as (b' & Eb). exists R, devs', b'.
      pose proof (r_get _ _ _ _ _ _ _ _ HR) as Gr. split; [exact E|]. split; [destruct HI as [_ G]; rewrite G; reflexivity|].
      split; [rewrite Gr by discriminate; reflexivity|]. split; [|split; [exact Eb|exact HD]].
      unfold dgetN. rewrite !Gr by discriminate. change (rsec dsa (it_b t) (it_n t) (interface_name (it_b t)) (it_br t) (it_ms t) (it_opts t) "bridge_21") with (@None val).
      change (rsec dsa (it_b t) (it_n t) (interface_name (it_b t)) (it_br t) (it_ms t) (it_opts t) "type") with (if it_br t then text "bridge" else None). destruct (it_br t); reflexivity.
    - destruct (proto_back _ _ _ _ _ _ _ H HI) as (b' & Eb). exists (it_i t), devs, b'. pose proof HI as [Ni Gi].
      assert (Et : dget ".type" (it_i t) = text "interface") by (rewrite Gi; ev; cbn [orb]; eapply psec_type, H).
      split; [destruct dsa; [apply (dsa_proto _ _ _ _ _ _ _ _ H HI Hno He He2)|reflexivity]|]. split; [exact Et|]. split; [exact Et|]. split; [|split; [exact Eb|unfold owned; rewrite Hd; reflexivity]].
      unfold dgetN. rewrite !Gi. ev. cbn [orb startswith]. rewrite (proto_gone _ _ _ _ _ _ "bridge_21" H) by (cbn; auto). reflexivity. }
  destruct E as (R & devs' & b' & E & Et & Rt & Rd & (Eb & Nb & Hs & D1 & D2 & Hne) & HD).
  rewrite O1 in D1. rewrite O2 in D2. destruct (dns_back b' r l s1 s2 l1 l2 Nb W1 W2 D1 D2 HA) as (r' & Er & HA').
  exists (ddel "dns_search" (ddel "dns" b')), devs', (add_blocks "interfaces" [ddel "dns_search" (ddel "dns" b')] r'). split; [|split; [exact HA'|split; [exact Hs|exact HD]]]. unfold interface_bwd.
  assert (Et' : dgetN ".type" (it_i t) = VStr "interface") by (unfold dgetN; rewrite Et; reflexivity). rewrite Et'.
  change (py_eq (VStr "interface") (VStr "globals")) with false. change (py_eq (VStr "interface") (VStr "interface")) with true. cbn iota. rewrite E. cbn [bind].
  destruct R as [|kv R]; [discriminate Rt|]. rewrite Rd, Eb. cbn [bind]. destruct b' as [|kv' b']; [congruence|]. rewrite Er. cbn [bind fst snd]. reflexivity.
Qed.
(** No modem is below the device of another interface. *)
Definition paths_free (ts : list item) : Prop :=
  forall a b, In a ts -> In b ts -> owned a = true -> it_proto b -> dmem "device" (it_b b) = true -> forall p, String ":" (String "/" p) <> it_key a.
Definition reads1 (config b : dict) : list string := if static b then texts "dns_servers" config else [].
Definition reads2 (config b : dict) : list string := if dmem "addresses" b then texts "dns_search" config else [].
Lemma second_loop dsa config : dns_config config -> forall ts devs l s1 s2 r, (forall t, In t ts -> it_ok dsa t) -> (forall t, In t ts -> dns_in config (it_b t) (it_opts t)) -> acc3 l s1 s2 r -> apart ts ->
  (forall t, In t ts -> owned t = true -> is_dev t devs) -> (forall t, In t ts -> owned t = false -> dget (it_key t) devs = None) -> paths_free ts -> (forall t, In t ts -> it_proto t -> no_paths (it_b t) devs) ->
  dget EmptyString devs = None -> dget ":" devs = None ->
  exists devs' bs r', foldM (fun a d => interface_bwd dsa d a 0) (devs, r) (map it_i ts) = Ok (devs', r') /\
    acc3 (l ++ bs) (s1 ++ flat_map (reads1 config) (map it_b ts)) (s2 ++ flat_map (reads2 config) (map it_b ts)) r' /\
    Forall2 (fun b b' => same (VDict b) (VDict b')) (map it_b ts) bs /\
    (forall t, In t ts -> owned t = true -> exists B, dget (it_key t) devs' = Some B /\ consumed B) /\
    forall k, (forall t, In t ts -> owned t = true -> k <> it_key t) -> dget k devs' = dget k devs.
Proof.
  intros [C1 C2]. induction ts as [|t ts IH]; intros devs l s1 s2 r Hok Hdn HA Hap Hdev Hno Hpf Hnp He He2.
  - exists devs, [], r. cbn [map flat_map]. rewrite !app_nil_r. split; [reflexivity|]. split; [exact HA|]. split; [constructor|]. split; [intros t []|reflexivity].
  - destruct (dns_ok_texts _ _ C1) as (W1 & _). destruct (dns_ok_texts _ _ C2) as (W2 & _). destruct (Hdn t (or_introl eq_refl)) as [O1 O2].
    assert (P1 : words (reads1 config (it_b t)) /\ opt (it_opts t) "dns" = dns_val (reads1 config (it_b t))) by (unfold reads1; rewrite O1; destruct (static (it_b t)); split; try reflexivity; [exact W1|intros x []]).
    assert (P2 : words (reads2 config (it_b t)) /\ opt (it_opts t) "dns_search" = dns_val (reads2 config (it_b t))) by (unfold reads2; rewrite O2; destruct (dmem "addresses" (it_b t)); split; try reflexivity; [exact W2|intros x []]).
    destruct (one_back dsa t devs l s1 s2 r _ _ (Hok t (or_introl eq_refl)) (proj1 P1) (proj1 P2) (proj2 P1) (proj2 P2) HA (Hdev t (or_introl eq_refl)) (Hno t (or_introl eq_refl)) (Hnp t (or_introl eq_refl)) He He2) as (b' & devs1 & r1 & E & HA1 & Hs & HD).
    assert (G1 : forall k, (owned t = true -> k <> it_key t) -> dget k devs1 = dget k devs).
    { intros k Hk. destruct (owned t); [|subst devs1; reflexivity]. destruct HD as (B & -> & _). rewrite dget_dset, eqb_neq by auto. reflexivity. }
    destruct (IH devs1 _ _ _ _ ltac:(intros x Hx; apply Hok; right; exact Hx) ltac:(intros x Hx; apply Hdn; right; exact Hx) HA1) as (devs' & bs & r' & E' & HA' & Hb & H1 & H2).
    { eapply apart_tail, Hap. }
    { intros x Hx Ox. destruct (Hdev x (or_intror Hx) Ox) as (B & HB & HB'). exists B. split; [|exact HB']. rewrite G1; [exact HB|]. intros _ X. symmetry in X. revert X. eapply apart_head; eauto. }
    { intros x Hx Ox. rewrite G1; [apply Hno; [right; exact Hx|exact Ox]|]. intros Ot X. symmetry in X. revert X. eapply apart_head; eauto. }
    { intros a b Ha Hb. apply Hpf; right; assumption. }
    { intros x Hx Px Dx p. rewrite G1; [apply (Hnp x (or_intror Hx) Px Dx)|]. intros Ot. exact (Hpf t x (or_introl eq_refl) (or_intror Hx) Ot Px Dx p). }
    { rewrite G1; [exact He|]. intros _. discriminate. }
    { rewrite G1; [exact He2|]. intros _. apply (key_nonempty dsa), Hok. left; reflexivity. }
    exists devs', (b' :: bs), r'. cbn [map foldM flat_map]. rewrite E. cbn [bind]. rewrite E'. split; [reflexivity|]. rewrite <- !app_assoc in HA'. split; [exact HA'|]. split; [constructor; assumption|]. split.
    + intros x [<-|Hx] Ox; [|apply H1; assumption]. rewrite Ox in HD. destruct HD as (B & -> & Hc). exists B. split; [|exact Hc].
      rewrite H2; [rewrite dget_dset, eqb_refl; reflexivity|]. intros y Hy Oy. eapply apart_head; eauto.
    + intros k Hk. rewrite H2 by (intros x Hx; apply Hk; right; exact Hx). apply G1. intros Ot. apply Hk; [left; reflexivity|exact Ot].
Qed.
Lemma fallback_done dsa devs result : forall ks, (forall k, In k ks -> exists B, dget k devs = Some B /\ consumed B) ->
  foldM (fallback_one dsa) (devs, result) ks = Ok (devs, result).
Proof.
  induction ks as [|k ks IH]; intros H; [reflexivity|]. cbn [foldM]. unfold fallback_one at 1. destruct (H k (or_introl eq_refl)) as (B & -> & Hc). unfold consumed in Hc. rewrite Hc. cbn [bind].
  apply IH. intros x Hx. apply H. right; exact Hx.
Qed.
Lemma keep_items dsa ts rest : (forall t, In t ts -> it_ok dsa t) -> (forall d, In d rest -> skip_block uci_types d = true) ->
  filter skip_non_device (flat_map it_secs ts ++ rest) = (map it_i ts ++ rest)%list.
Proof.
  intros Hok Hr. rewrite filter_app. rewrite (filter_all _ _ rest) by (intros d Hd; unfold skip_non_device; rewrite (Hr d Hd); reflexivity). f_equal.
  induction ts as [|t ts IH]; [reflexivity|]. cbn [flat_map map]. rewrite filter_app, IH by (intros x Hx; apply Hok; right; exact Hx).
  pose proof (Hok t (or_introl eq_refl)) as Ht. pose proof (skip_i dsa t Ht) as Si. unfold it_secs. destruct (it_d t) as [d|] eqn:Ed; cbn [filter]; rewrite ?(skip_d dsa t d Ht Ed), Si; reflexivity.
Qed.
Lemma interfaces_back dsa config ts rest inter : dns_config config -> (forall t, In t ts -> it_ok dsa t) -> (forall t, In t ts -> dns_in config (it_b t) (it_opts t)) -> apart ts -> paths_free ts ->
  (exists ns, named (flat_map it_secs ts ++ rest) ns /\ NoDup ns) -> (forall d, In d (flat_map it_secs ts ++ rest) -> wf (VDict d)) ->
  (forall d, In d rest -> skip_block uci_types d = true) -> dget "network" inter = Some (VList (map VDict (flat_map it_secs ts ++ rest))) ->
  exists bs r, interfaces_bwd dsa inter = (dset "network" (VList (map VDict rest)) inter, Ok r) /\
    acc3 bs (flat_map (reads1 config) (map it_b ts)) (flat_map (reads2 config) (map it_b ts)) r /\
    Forall2 (fun b b' => same (VDict b) (VDict b')) (map it_b ts) bs.
Proof.
  intros Hc Hok Hdn Hap Hpf (ns & Hn & Hnd) Hw Hr Hg. unfold interfaces_bwd. rewrite Hg. cbn [as_list].
  destruct (first_loop dsa ts [] Hok Hap) as (devs & E1 & D1 & D2); [intros; reflexivity|].
  rewrite (loop_sweep _ skip_non_device device_block (fun a d => device_block d a 0) _ ns [] devs); try assumption; [|reflexivity|].
  2: { rewrite filter_app. rewrite (filter_none _ _ rest) by (intros d Hd; unfold skip_non_device; rewrite (Hr d Hd); reflexivity). rewrite app_nil_r. exact E1. }
  rewrite (keep_items dsa ts rest Hok Hr).
  assert (Hnp : forall t, In t ts -> it_proto t -> no_paths (it_b t) devs).
  { intros t Ht Pt Dt p. rewrite D2; [reflexivity|]. intros x Hx Ox. exact (Hpf x t Hx Ht Ox Pt Dt p). }
  assert (A0 : acc3 [] [] [] []) by (split; [constructor|intros k; cbn [map olist dget]; fields k; reflexivity]).
  destruct (second_loop dsa config Hc ts devs [] [] [] [] Hok Hdn A0 Hap D1) as (devs' & bs & r & E2 & HA & Hb & D3 & D4).
  { intros t Ht Ot. rewrite D2; [reflexivity|]. intros x Hx Ox X. apply In_nth_error in Ht as (i & Hi). apply In_nth_error in Hx as (j & Hj).
    assert (Hij : j <> i) by (intros ->; congruence). symmetry in X. exact (Hap j i x t Hj Hi Hij Ox X). }
  { exact Hpf. } { exact Hnp. }
  { rewrite D2; [reflexivity|]. intros; discriminate. }
  { rewrite D2; [reflexivity|]. intros x Hx _. apply (key_nonempty dsa), Hok, Hx. }
  assert (Hin : incl (map it_i ts ++ rest) (flat_map it_secs ts ++ rest)).
  { intros d Hd. rewrite <- (keep_items dsa ts rest Hok Hr) in Hd. apply filter_In in Hd. apply Hd. }
  assert (Hn2 : exists ns', named (map it_i ts ++ rest) ns' /\ NoDup ns').
  { rewrite <- (keep_items dsa ts rest Hok Hr). destruct (named_filter skip_non_device _ ns Hn Hnd) as (ns' & X1 & X2 & _). eauto. }
  destruct Hn2 as (ns' & Hn' & Hnd').
  assert (Fv : forall p, filter p (map it_i ts ++ rest) = (filter p (map it_i ts) ++ filter p rest)%list) by (intros; apply filter_app).
  assert (Ev : filter (skip_vlan devs) (map it_i ts ++ rest) = rest).
  { rewrite Fv, (filter_all _ _ rest) by (intros d Hd; unfold skip_vlan; rewrite (Hr d Hd); reflexivity). rewrite filter_none; [reflexivity|].
    intros d Hd. apply in_map_iff in Hd as (t & <- & Ht). eapply skip_v; [apply Hok, Ht|apply Hnp, Ht]. }
  rewrite (loop_sweep _ (skip_vlan devs) (interface_bwd dsa) (fun a d => interface_bwd dsa d a 0) (map it_i ts ++ rest) ns' (devs, []) (devs', r)); try assumption.
  2: { reflexivity. } 2: { intros d Hd. apply Hw, Hin, Hd. }
  2: { rewrite Fv, (filter_none _ _ rest) by (intros d Hd; unfold skip_vlan; rewrite (Hr d Hd); reflexivity). rewrite app_nil_r, filter_all; [exact E2|].
       intros d Hd. apply in_map_iff in Hd as (t & <- & Ht). rewrite (skip_v dsa devs t (Hok t Ht) (Hnp t Ht)). reflexivity. }
  rewrite Ev. cbn [bind fst].
  rewrite fallback_done.
  2: { intros k Hk. destruct (in_dec string_dec k (map it_key (filter owned ts))) as [Hi|Hi].
       - apply in_map_iff in Hi as (t & <- & Ht). apply filter_In in Ht as [Ht Ot]. apply D3; assumption.
       - exfalso. assert (X : forall t, In t ts -> owned t = true -> k <> it_key t) by (intros t Ht Ot ->; apply Hi, in_map, filter_In; auto).
         assert (Y : dget k devs' = None) by (rewrite D4, D2 by exact X; reflexivity). apply dget_none_keys in Y. contradiction. }
  rewrite (loop_skip) by exact Hr. cbn [bind snd].
  exists bs, r. split; [reflexivity|]. split; [exact HA|exact Hb].
Qed.
