(** * DeviceApi: rendering and parsing a device through the public methods
    (proofs only). *)
From Verif Require Import PyBase PyLemmas Merge Files SpecFiles FilesProofs Uci Backend BackendProofs Conv Ip Timezones OwrtConv OwrtWireless OwrtInterfaces OpenWrt
  StrLemmas SpecUci SpecConv SpecDevice SpecShapes SpecEncryption SpecWireless SpecTunnel SpecWhole ConvLemmas RtStage RtGeneric RtSwitch RtSystem RtDefault RtTrip RtObjects RtStage RtBack RtInterface RtIfStage RtDevice RtStages RtTunnel RtTunnelStage RtBridged RtWifiStage ShapeProofs.

Lemma dedup_from_ok : forall fs acc, check_files fs = Ok tt -> exists m, dedup_from fs acc = Ok m.
Proof.
  induction fs as [|f fs IH]; intros acc H; [exists acc; reflexivity|]. cbn [check_files dedup_from] in *.
  apply bind_Ok in H as (d & Ed & H). rewrite Ed. cbn [bind]. apply bind_Ok in H as (pv & Ep & H). rewrite Ep. cbn [bind].
  apply bind_Ok in H as (p & E & H). rewrite E. cbn [bind]. apply IH. destruct (valid_file_path p); [exact H|discriminate].
Qed.
Lemma base_validate_ok schema_ok config : base_validate schema_ok config = Ok tt -> schema_ok config = Ok tt /\ validate_file_paths config = Ok tt.
Proof.
  unfold base_validate, wrap. destruct (schema_ok config) as [[]|[]] eqn:E; cbn [bind]; try discriminate.
  destruct (validate_file_paths config) as [[]|[]]; try discriminate. auto.
Qed.
Lemma dedup_ok config : validate_file_paths config = Ok tt -> exists config', deduplicate_files config = Ok config'.
Proof.
  unfold validate_file_paths, get_files, deduplicate_files. destruct (dget "files" config) as [v|]; [|eauto].
  destruct (as_list v) as [l|]; cbn [bind]; [|discriminate]. intros H. destruct l as [|f l]; [eauto|].
  destruct (dedup_from_ok (f :: l) [] H) as (m & ->). cbn [bind]. eauto.
Qed.
Lemma dedup_ok_same config config1 : dget "files" config1 = dget "files" config -> validate_file_paths config = Ok tt -> exists config', deduplicate_files config1 = Ok config'.
Proof. intros E H. apply dedup_ok. unfold validate_file_paths, get_files in *. rewrite E. exact H. Qed.

(** Documents that are the same have the same undetermined radios. *)
Lemma same_null v v' : same v v' -> is_null v' = is_null v.
Proof. intros H. destruct H; reflexivity. Qed.
Lemma same_scalar v v' w : (forall l, w <> VList l) -> (forall d, w <> VDict d) -> same v v' -> py_eq v' w = py_eq v w.
Proof.
  intros Hl Hd H. destruct H as [v|l l' H|d d' H1 H2]; [reflexivity| |];
    destruct w; try reflexivity; exfalso; [eapply Hl|eapply Hd]; reflexivity.
Qed.
Lemma same_one_of v v' l : same v v' -> is_one_of v' l = is_one_of v l.
Proof.
  intros H. unfold is_one_of. induction l as [|x l IH]; [reflexivity|]. cbn [existsb]. rewrite IH. f_equal.
  apply same_scalar; try discriminate. exact H.
Qed.
Lemma same_dict_inv d v : same (VDict d) v -> exists d', v = VDict d' /\
  (forall k v, dget k d = Some v -> exists v', dget k d' = Some v' /\ same v v') /\ (forall k, dget k d = None -> dget k d' = None).
Proof.
  intros H. inversion H; subst; [exists d|exists d'; auto]. split; [reflexivity|]. split; [intros k w Hw; exists w; split; [exact Hw|apply same_refl]|auto].
Qed.
Lemma same_list_inv l v : same (VList l) v -> exists l', v = VList l' /\ Forall2 same l l'.
Proof.
  intros H. inversion H; subst; [exists l|exists l'; auto]. split; [reflexivity|]. clear. induction l; constructor; [apply same_refl|assumption].
Qed.
Lemma same_getN k d d' : same (VDict d) (VDict d') -> same (dgetN k d) (dgetN k d').
Proof.
  intros H. apply same_dict_inv in H as (d2 & E & H1 & H2). injection E as <-. unfold dgetN.
  destruct (dget k d) as [v|] eqn:Ev; [destruct (H1 _ _ Ev) as (v' & -> & Hs); exact Hs|]. rewrite (H2 _ Ev). apply same_refl.
Qed.
Lemma undetermined_same d d' : same (VDict d) (VDict d') -> radio_undetermined d = Ok false -> radio_undetermined d' = Ok false.
Proof.
  intros H. unfold radio_undetermined.
  rewrite (same_null _ _ (same_getN "band" _ _ H)), (same_null _ _ (same_getN "hwmode" _ _ H)).
  rewrite (same_scalar _ _ (VInt 0) ltac:(discriminate) ltac:(discriminate) (same_getN "channel" _ _ H)).
  apply same_dict_inv in H as (d2 & E & H1 & H2). injection E as <-. unfold dgetE.
  destruct (dget "protocol" d) as [v|] eqn:Ev; [|discriminate].
  destruct (H1 _ _ Ev) as (v' & -> & Hs). cbn [bind]. rewrite (same_one_of _ _ _ Hs). auto.
Qed.
Lemma radios_list_same l l' : Forall2 same l l' -> validate_radios_list l = Ok tt -> validate_radios_list l' = Ok tt.
Proof.
  intros H. induction H as [|v v' l l' Hs H IH]; [auto|]. cbn [validate_radios_list]. destruct v as [| | | | |x|d]; try discriminate.
  cbn [as_dict bind]. destruct (same_dict_inv _ _ Hs) as (d' & -> & _). cbn [as_dict bind].
  destruct (radio_undetermined d) as [[|]|] eqn:E; cbn [bind]; try discriminate.
  rewrite (undetermined_same _ _ Hs E). cbn [bind]. exact IH.
Qed.
Lemma radios_same config config' : kept "radios" config config' -> validate_radios config = Ok tt -> validate_radios config' = Ok tt.
Proof.
  unfold kept, validate_radios, list_at. destruct (dget "radios" config) as [v|].
  - intros (v' & -> & Hs). destruct v; try discriminate. destruct (same_list_inv _ _ Hs) as (l' & -> & F). cbn [as_list bind].
    apply radios_list_same, F.
  - intros ->. auto.
Qed.

(** No bridge of the class filters VLANs. *)
Lemma no_filtering dsa l m : (forall b, In b l -> is_wireless b = true -> addressed b = true) ->
  (forall b, In b m -> is_wireless b = true /\ addressed b = false) -> (forall b, In b (flat_map wired l) -> wired_ok dsa b) ->
  (forall b, In b (l ++ m) -> is_wireless b = true -> wireless_ok (l ++ m) b) ->
  forall b, In b (l ++ m) -> dget "vlan_filtering" b = None.
Proof.
  intros Hl Hm Hok Hw b Hb. apply in_app_iff in Hb as [Hb|Hb].
  - destruct (wired_in dsa l m Hl Hok Hw b Hb) as (c & _ & Hc & G). rewrite <- G by discriminate. apply (wired_facts dsa c Hc).
  - destruct (Hm b Hb) as [E1 E2]. destruct (Hw b (in_or_app _ _ _ (or_intror Hb)) E1) as (_ & _ & _ & _ & _ & X). specialize (X E2 "vlan_filtering"). unfold dmem in X.
    destruct (dget "vlan_filtering" b); [|reflexivity]. exfalso. specialize (X eq_refl). cbn in X. intuition discriminate.
Qed.
Lemma interfaces_same dsa config config' : interfaces_at dsa config -> kept "interfaces" config config' ->
  (do l <- list_at "interfaces" config'; check_interfaces l) = Ok tt.
Proof.
  unfold interfaces_at, optional, kept, list_at. destruct (dget "interfaces" config) as [v|].
  - intros (l & m & -> & _ & H1 & H2 & H3 & _ & H4 & _) (v' & -> & Hs). pose proof (no_filtering dsa l m H1 H2 H3 H4) as Hf.
    clear H1 H2 H3 H4. revert Hf Hs. generalize (l ++ m)%list. clear l m. intros l Hf Hs.
    destruct (same_list_inv _ _ Hs) as (l' & -> & F). cbn [as_list bind]. clear Hs. revert l' F.
    induction l as [|b l IH]; intros l' F; inversion F as [|? x ? l2 Hx F']; subst; [reflexivity|].
    destruct (same_dict_inv _ _ Hx) as (b' & -> & _ & Hn). cbn [check_interfaces as_dict bind]. unfold list_at.
    assert (E : dget "vlan_filtering" b' = None) by (apply Hn, Hf; left; reflexivity).
    rewrite E. cbn [bind check_vlans]. destruct (py_eq _ _); cbn [bind]; (apply IH; [intros y Hy; apply Hf; right; exact Hy|exact F']).
  - intros _ ->. reflexivity.
Qed.
Lemma Forall2_aligned (A B : Type) (R : A -> B -> Prop) la lb : Forall2 R la lb -> aligned (fun _ => R) la lb.
Proof.
  intros F. split; [eapply Forall2_length, F|]. induction F as [|a b la lb H F IH]; intros j x y Hx Hy; [destruct j; discriminate Hx|].
  destruct j as [|j]; [injection Hx as <-; injection Hy as <-; exact H|]. eapply (IH j); eassumption.
Qed.
Lemma device_general dsa zones config : device dsa zones config -> object_at "general" config (general_ok zones). Proof. intros H. apply H. Qed.

Lemma settings_custom k : ~ In k ("type" :: settings) -> is_custom owrt_keys k = true.
Proof.
  intros H. unfold is_custom, ignored. rewrite andb_true_iff, !negb_true_iff. split.
  - destruct (existsb (String.eqb k) owrt_keys) eqn:E; [|reflexivity]. exfalso. apply existsb_exists in E as (x & Hx & Ex).
    apply String.eqb_eq in Ex. subst x. apply H. right. exact Hx.
  - apply eqb_neq. intros ->. apply H. left. reflexivity.
Qed.

Lemma named_names ss ns : named ss ns -> map (dget ".name") ss = map text ns.
Proof. intros H. induction H as [|s n ss ns H0 H IH]; [reflexivity|]. cbn. rewrite IH. unfold sec_name in H0. rewrite H0. reflexivity. Qed.
Lemma same_texts l v : same (VList (map VStr l)) v -> v = VList (map VStr l).
Proof.
  intros H. inversion H as [|? ? F|]; subst; [reflexivity|]. f_equal. revert H F. intros _ F. revert l' F. induction l as [|x l IH]; intros l' F; inversion F as [|? ? ? ? Hx F']; subst; [reflexivity|].
  inversion Hx; subst. cbn [map]. f_equal. apply IH, F'.
Qed.
Lemma agree_lists k l config : agree (olist (map VStr l)) (dget k config) -> lists k l config.
Proof. unfold lists. destruct l as [|x l]; cbn [map olist agree]; [auto|]. intros (v & -> & H). change (VStr x :: map VStr l) with (map VStr (x :: l)) in *. rewrite (same_texts _ _ H). reflexivity. Qed.
Lemma copies_filter (A B : Type) (p : A -> bool) (t : list B) : forall l, flat_map (fun b => if p b then t else []) l = copies (length (filter p l)) t.
Proof. induction l as [|x l IH]; [reflexivity|]. cbn [flat_map filter]. rewrite IH. destruct (p x); reflexivity. Qed.
Lemma wired_static b : flat_map (fun b => if static b then [tt] else []) (wired b) = if static b then [tt] else [].
Proof.
  unfold wired. destruct (is_wireless b); [|cbn [flat_map]; apply app_nil_r]. unfold addressed, dmem, static. destruct (dget "addresses" b) as [v|] eqn:E; [|reflexivity].
  cbn [flat_map]. rewrite app_nil_r. rewrite dget_dset_other, !dget_ddel_other by discriminate. rewrite E. reflexivity.
Qed.
Lemma wired_addressed b : flat_map (fun b => if addressed b then [tt] else []) (wired b) = if addressed b then [tt] else [].
Proof.
  unfold wired. destruct (is_wireless b); [|cbn [flat_map]; apply app_nil_r]. destruct (addressed b) eqn:E; [|reflexivity].
  cbn [flat_map]. rewrite app_nil_r. unfold addressed, dmem in *. rewrite dget_dset_other, !dget_ddel_other by discriminate. rewrite E. reflexivity.
Qed.
Lemma count_wired (p : dict -> bool) : (forall b, flat_map (fun b => if p b then [tt] else []) (wired b) = if p b then [tt] else []) ->
  forall l, length (filter p (flat_map wired l)) = length (filter p l).
Proof.
  intros H l. assert (E : forall l, length (filter p l) = length (flat_map (fun b => if p b then [tt] else []) l)).
  { induction l0 as [|x l0 IH]; [reflexivity|]. cbn [filter flat_map]. rewrite app_length, <- IH. destruct (p x); reflexivity. }
  rewrite !E. f_equal. induction l as [|x l IH]; [reflexivity|]. cbn [flat_map]. rewrite flat_map_app, H, IH. reflexivity.
Qed.
Lemma reads1_copies config : flat_map (reads1 config) (network_interfaces config) = copies (length (filter static (objects "interfaces" config))) (texts "dns_servers" config).
Proof. unfold reads1, network_interfaces. rewrite (copies_filter _ _ static), (count_wired static wired_static). reflexivity. Qed.
Lemma reads2_copies config : flat_map (reads2 config) (network_interfaces config) = copies (length (filter addressed (objects "interfaces" config))) (texts "dns_search" config).
Proof. unfold reads2, network_interfaces. rewrite (copies_filter _ _ (dmem "addresses")), (count_wired _ wired_addressed). reflexivity. Qed.
Lemma aligned_Forall2 (A B : Type) (R : A -> B -> Prop) : forall la lb, aligned (fun _ => R) la lb -> Forall2 R la lb.
Proof.
  induction la as [|a la IH]; intros [|b lb] [L H]; try discriminate L; [constructor|]. constructor; [apply (H 0); reflexivity|]. apply IH. split; [injection L as L; exact L|].
  intros j x y Hx Hy. apply (H (S j)); assumption.
Qed.
Definition dns_shown (config b s : dict) : Prop :=
  dget "dns" s = Some (if static b then on_one_line (texts "dns_servers" config) else VNull) /\
  dget "dns_search" s = Some (if addressed b then on_one_line (texts "dns_search" config) else VNull).
Lemma section_dns dsa config b s : interface_section_shown dsa config b s -> dns_shown config b s.
Proof. intros (opts & _ & H). split; rewrite H; reflexivity. Qed.
Lemma protocol_dns config b s : protocol_section_shown config b s -> dns_shown config b s.
Proof. intros (opts & Ho & H). split; rewrite H; inversion Ho; reflexivity. Qed.
Lemma interface_sections dsa config l sss inter : sections "network" ["interface"; "device"] inter = concat sss -> aligned (fun _ => interface_shown dsa config) l sss ->
  Forall2 (dns_shown config) l (sections "network" ["interface"] inter).
Proof.
  intros E H. assert (X : sections "network" ["interface"] inter = filter (typed_as ["interface"]) (concat sss)).
  { rewrite <- E. unfold sections. rewrite filter_filter. apply filter_ext. intros s. unfold typed_as. destruct (dget ".type" s) as [[]|]; try reflexivity. cbn [existsb]. destruct (String.eqb _ "interface"); [reflexivity|]. cbn [orb]. rewrite andb_false_r. reflexivity. }
  rewrite X. clear E X. apply aligned_Forall2 in H. induction H as [|b ss l sss Hb H IH]; [constructor|]. cbn [concat]. rewrite filter_app.
  assert (I : forall i, interface_section_shown dsa config b i -> typed_as ["interface"] i = true) by (intros i (opts & _ & Hi); unfold typed_as; rewrite Hi; reflexivity).
  unfold interface_shown in Hb. destruct (own_protocol b).
  { destruct Hb as (i & -> & Hi). cbn [filter]. assert (J : typed_as ["interface"] i = true) by (destruct Hi as (opts & _ & Hi); unfold typed_as; rewrite Hi; reflexivity).
    rewrite J. constructor; [eapply protocol_dns, Hi|exact IH]. }
  destruct (own_device dsa b).
  - destruct Hb as (d & i & -> & Hd & Hi). cbn [filter]. rewrite (I i Hi). assert (D : typed_as ["interface"] d = false) by (unfold typed_as; rewrite Hd; reflexivity). rewrite D. constructor; [eapply section_dns, Hi|exact IH].
  - destruct Hb as (i & -> & Hi). cbn [filter]. rewrite (I i Hi). constructor; [eapply section_dns, Hi|exact IH].
Qed.
(** When a repeated list is kept *)
Lemma copies_kept k n config config' : dns_ok k config -> texts k config <> [] -> lists k (copies n (texts k config)) config' -> (kept k config config' <-> n = 1).
Proof.
  intros Hd Hne Hl. destruct (dns_ok_texts _ _ Hd) as (_ & Hk & _). specialize (Hk Hne). unfold kept. rewrite Hk. unfold lists in Hl.
  set (l := texts k config) in *. clearbody l. split.
  - intros (v & Hv & Hs). apply same_texts in Hs. subst v. rewrite Hv in Hl. destruct (copies n l) as [|x c] eqn:Ec; [discriminate|].
    injection Hl as El. assert (Len : length l = n * length l).
    { apply (f_equal (@length _)) in El. change (length (map VStr l) = length (VStr x :: map VStr c)) in El. change (VStr x :: map VStr c) with (map VStr (x :: c)) in El. rewrite <- Ec, !map_length in El. rewrite El at 1. unfold copies. clear. induction n as [|n IH]; [reflexivity|]. cbn [repeat concat]. rewrite app_length, IH. reflexivity. }
    destruct l as [|y l]; [congruence|]. cbn [length] in Len. destruct n as [|[|n]]; [lia|reflexivity|]. cbn in Len. lia.
  - intros ->. unfold copies in Hl. cbn [repeat concat] in Hl. rewrite app_nil_r in Hl. exists (VList (map VStr l)). split; [|apply same_refl]. destruct l; [congruence|exact Hl].
Qed.
Section Api.
  Variable oid : oracle.
  Variable schema_ok : dict -> res unit.
  Variable dsa f1 f2 : bool.
  Variable config : dict.
  Hypothesis dev : device dsa (timezones f1 f2) config.
  Lemma sections_shown inter : device_sections dsa f1 f2 config inter -> device_shown dsa (timezones f1 f2) config inter.
  Proof.
    intros [D1 D2 D3 Di D4 D5 D6 D7 Dw D8 Dv D9 (D10 & D11 & D12 & D13)].
    destruct dev as (Hn & Hgen & Hntp & Hled & Hint & Hrt & Hru & Hsw & Hrad & Hwg & Hvpn & Hbri & Hdns & Hty & Hcu & Nsys & Nnet & Nrad & Nvpn).
    constructor.
    - eapply alone_aligned; [exact Hgen|exact D1|]. intros b s. apply general_section_shown.
    - eapply alone_aligned; [exact Hntp|exact D2|]. intros b s. apply ntp_section_shown.
    - eapply made_aligned; [exact Hled|exact D3|]. intros i b s. apply led_section_shown.
    - apply interfaces_aligned, Di.
    - eapply made_aligned; [exact Hrt|exact D4|]. intros i b s. apply route_section_shown.
    - eapply made_aligned; [exact Hru|exact D5|]. intros i b s. apply rule_section_shown.
    - eapply switch_aligned; [exact Hsw|exact D6].
    - eapply made_aligned; [exact Hrad|exact D7|]. intros i b s. apply radio_section_shown.
    - apply Forall2_aligned. clear - Dw. induction Dw as [|b s bs ss [_ H] F IH]; constructor; [exact H|exact IH].
    - eapply made_aligned; [exact Hwg|exact D8|]. intros i b s. apply peer_section_shown.
    - eapply made_aligned; [exact Hvpn|exact Dv|]. intros i b s Hok E. destruct (tunnel_section b Hok) as (s0 & Es & _ & Hs). unfold vpn_sec in E. rewrite Es in E. injection E as <-. exact Hs.
    - intros k Hk Hs. unfold dmem in Hk. destruct (dget k config) as [v|] eqn:Ev; [|discriminate].
      pose proof (dget_In _ _ _ Ev) as Hin. destruct (Hcu _ _ Hin Hs) as (_ & _ & l & -> & Hne & Hl).
      eapply made_aligned; [|eapply D9; [exact Hin|apply settings_custom, Hs]|intros i b s; apply custom_section_shown].
      unfold objects_at, optional. rewrite Ev. exists l. auto.
    - unfold section_names. split; [|split; [|split]]; apply named_names; assumption.
  Qed.
  (** Rendering a valid device succeeds, and parsing the text gives it back. *)
  Lemma device_api : let B := openwrt oid schema_ok dsa f1 f2 in
    owrt_validate schema_ok config = Ok tt ->
    exists s1 text inter config' inter', render oid B false (fresh config) = (s1, Ok text) /\
      st_inter s1 = Some inter /\ render_uci inter = Ok text /\ device_shown dsa (timezones f1 f2) config inter /\
      (forall s0, owrt_parse oid B text s0 = ({| st_config := config'; st_inter := Some inter' |}, be_validate B config')) /\
      (schema_ok config' = Ok tt -> be_validate B config' = Ok tt) /\
      NoDup (dkeys config') /\ dget "files" config' = None /\ dget "type" config' = None /\
      dns_read_back config config' /\ forall k, ~ In k not_kept -> kept k config config'.
  Proof.
    intros B V. destruct (device_trip oid schema_ok dsa f1 f2 config dev) as (config1 & inter & txt & inter' & config' & left & T1 & T2 & T3 & T4 & T5 & T6 & T7 & T8).
    assert (V' := V). unfold owrt_validate in V'. apply bind_Ok in V' as ([] & Vr & V'). apply bind_Ok in V' as ([] & Vb & V').
    destruct (base_validate_ok _ _ Vb) as [_ Vf].
    destruct (dedup_ok_same config config1) as (config2 & Hd); [apply T2; reflexivity|exact Vf|].
    assert (K : forall k, ~ In k not_kept -> kept k config config').
    { intros k H. specialize (T8 k). unfold not_kept in H. cbn [In] in H.
      rewrite (eqb_neq k "files"), (eqb_neq k "type"), (eqb_neq k "dns_servers"), (eqb_neq k "dns_search") in T8 by (intros ->; tauto). exact T8. }
    assert (D : dns_read_back config config').
    { split; [rewrite <- reads1_copies|rewrite <- reads2_copies]; apply agree_lists; [exact (T8 "dns_servers")|exact (T8 "dns_search")]. }
    exists {| st_config := config2; st_inter := Some inter |}, txt, inter, config', inter'.
    split.
    { unfold render. cbn [fresh st_config st_inter]. unfold B at 1. cbn [be_validate openwrt]. rewrite V.
      unfold to_intermediate. cbn [fresh st_config]. unfold B at 1. cbn [be_validate openwrt]. rewrite V.
      unfold B at 1. cbn [be_convs openwrt]. rewrite T1. cbn [st_config st_inter]. rewrite Hd.
      unfold render_text. cbn [st_inter st_config]. unfold B. cbn [be_render openwrt]. rewrite T4. reflexivity. }
    split; [reflexivity|]. split; [exact T4|]. split; [apply sections_shown, T3|]. split.
    { intros s0. unfold owrt_parse, parse. rewrite T5. unfold to_netjson. unfold B at 2. cbn [be_convs openwrt]. fold B in T6. rewrite T6. reflexivity. }
    split.
    { intros Hs. unfold B. cbn [be_validate openwrt]. unfold owrt_validate.
      rewrite (radios_same config config'); [|apply K; cbn; intuition discriminate|exact Vr]. cbn [bind].
      pose proof (T8 "files") as F. cbn in F. unfold base_validate, validate_file_paths, get_files. rewrite Hs, F. cbn [bind check_files wrap].
      apply (interfaces_same dsa config config'); [apply dev|apply K; cbn; intuition discriminate]. }
    split; [exact T7|]. split; [exact (T8 "files")|]. split; [exact (T8 "type")|]. split; [exact D|exact K].
  Qed.
End Api.
