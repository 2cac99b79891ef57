(** * RtIfFwd: the sections that the interfaces of a device make (proofs only). *)
From Verif Require Import PyBase PyLemmas StrLemmas NumLemmas Merge SpecMerge MergeProofs MergeListProofs MergeFinal Backend Conv Ip IpProofs OwrtConv OwrtWireless OwrtInterfaces
  SpecUci SpecConv SpecDevice ConvLemmas SortLemmas RtStage RtBack RtGeneric RtSystem RtNetwork RtSwitch RtTrip RtAddress RtInterface.

Definition dropped_keys : list string := ["ifname"; "type"; "bridge_members"] ++ stp_options ++ igmp_options ++ all_options.
Lemma bridge_dsa t x n br ms : String.eqb t "bridge" = br -> NoDup (dkeys x) -> dget "type" x = text t ->
  dget "bridge_members" x = (if br then Some (VList (map VStr ms)) else None) -> dget "ifname" x = text n -> dget "device" x = text n ->
  exists y, intermediate_bridge true 1 x = Ok y /\ NoDup (dkeys y) /\
    forall k, dget k y = if existsb (String.eqb k) dropped_keys then None else dget k x.
Proof.
  intros Hbr Hx Ht Hm Hf Hd. unfold intermediate_bridge, dgetE. rewrite Ht. unfold text at 1. cbn [bind]. rewrite py_eq_text, Hbr.
  change (["ifname"; "type"; "bridge_members"] ++ stp_options ++ igmp_options ++ all_options)%list with dropped_keys.
  destruct br.
  - change (1 <? 2)%nat with true. cbn iota. rewrite Hm. cbn [bind]. rewrite iter_texts. cbn [bind]. dg. ev. rewrite Hf. unfold text at 1. cbn [bind].
    eexists. split; [reflexivity|]. split; [apply NoDup_ddel_all; nodup|]. intros k. rewrite dget_ddel_all by nodup.
    destruct (existsb (String.eqb k) dropped_keys) eqn:E; [reflexivity|]. dg. field k "device"; [symmetry; exact Hd|]. field k "bridge_members"; [discriminate E|reflexivity].
  - cbn [bind]. eexists. split; [reflexivity|]. split; [apply NoDup_ddel_all; nodup|]. intros k. rewrite dget_ddel_all by nodup.
    destruct (existsb (String.eqb k) dropped_keys) eqn:E; [reflexivity|]. dg. field k "type"; [discriminate E|reflexivity].
Qed.
Lemma section_dsa config b n u br ms opts i a t : iface true b n u br ms opts -> typing t br b -> NoDup (dkeys i) -> NoDup (dkeys a) ->
  dns_config config -> dns_in config b opts ->
  (forall k, dget k a = if existsb (String.eqb k) address_options then opt opts k else None) ->
  (forall k, dget k i = if existsb (String.eqb k) device_keys then None else if String.eqb k "device" then text n else istart t b n u opts k) ->
  exists s, address_section config u true i a 1 = Ok s /\ NoDup (dkeys s) /\ sorted_keys s /\ forall k, dget k s = isec true b n u br ms opts k.
Proof.
  intros H [_ Hbr] Hi Ha Hc Hin Ga Gi. pose proof (i_none _ _ _ _ _ _ _ H) as Habs. unfold none_of in Habs.
  destruct (addressing_proto _ _ (i_addr _ _ _ _ _ _ _ H)) as (p & Hp & P1 & P2). destruct (dns_in_proto _ _ _ _ Hin P1 P2) as [O1 O2].
  destruct (section_start config u true i a p (opt opts "dns") (opt opts "dns_search") Hi Ha) as (x & Hx & -> & Gx); [rewrite Ga; exact Hp| |exact Hc|exact O1|exact O2|].
  { intros k Hk. rewrite Gi. unfold istart. destruct Hk as [<-|[<-|[<-|[]]]]; cbn [device_keys stp_options igmp_options app existsb]; ev; cbn [orb]; apply Habs; cbn; tauto. }
  destruct (bridge_dsa t x n br ms Hbr Hx) as (y & -> & Hy & Gy).
  { rewrite Gx, Gi. unfold istart. cbn [device_keys stp_options igmp_options app existsb]. ev. reflexivity. }
  { rewrite Gx, Gi. unfold istart. cbn [device_keys stp_options igmp_options app existsb]. ev. cbn [orb]. exact (i_mem _ _ _ _ _ _ _ H). }
  { rewrite Gx, Gi. unfold istart. cbn [device_keys stp_options igmp_options app existsb]. ev. reflexivity. }
  { rewrite Gx, Gi. unfold istart. cbn [device_keys stp_options igmp_options app existsb]. ev. reflexivity. }
  cbn [bind]. eexists. split; [reflexivity|]. assert (N : NoDup (dkeys (dupdate y (ddel "proto" a)))) by nodup.
  split; [apply ssort_NoDup, N|]. split; [apply ssort_sorted_keys, N|]. intros k.
  rewrite dget_ssort by exact N. rewrite dget_dupdate by nodup. rewrite dget_ddel by exact Ha. rewrite Ga, Gy, Gx, Gi.
  unfold isec, istart, gone, bridge_keys, bridge_flags, bridge_numbers, address_options, six_options, dropped_keys, device_keys, stp_options, igmp_options, all_options.
  cbn [existsb app orb negb].
  fields k; cbn [andb orb]; try reflexivity; rewrite ?andb_false_r; try reflexivity.
  - symmetry. exact Hp.
  - rewrite (Habs "ipaddr") by (cbn; auto 30). destruct (opt opts "ipaddr"); reflexivity.
  - rewrite (Habs "netmask") by (cbn; auto 30). destruct (opt opts "netmask"); reflexivity.
  - rewrite (Habs "ip6addr") by (cbn; auto 30). destruct (opt opts "ip6addr"); reflexivity.
  - symmetry. apply Habs. cbn; tauto.
  - symmetry. apply Habs. cbn; tauto.
  - apply Habs. cbn; tauto.
Qed.

(** The sections of one interface *)
Inductive ifsecs (dsa : bool) (b : dict) (n u : string) (br : bool) (ms : list string) (opts : list (string * option val)) : list dict -> Prop :=
| ifsecs_one i : dsa && has_device b br = false -> sorted_keys i -> (forall k, dget k i = isec dsa b n u br ms opts k) -> ifsecs dsa b n u br ms opts [i]
| ifsecs_two d i : dsa = true -> has_device b br = true -> sorted_keys d -> (forall k, dget k d = dsec b n u br ms k) ->
    sorted_keys i -> (forall k, dget k i = isec dsa b n u br ms opts k) -> ifsecs dsa b n u br ms opts [d; i].
Lemma uname_of dsa b n u br ms opts : iface dsa b n u br ms opts ->
  (do x <- (if truthy (dgetN "network" b) then Ok (dgetN "network" b) else dgetE "name" b); uci_name_val x) = Ok (VStr u).
Proof.
  intros H. pose proof (i_net _ _ _ _ _ _ _ H) as Hn. unfold dgetN, dgetE. rewrite (i_name _ _ _ _ _ _ _ H). unfold uci_name_val, text.
  destruct (dget "network" b) as [v|].
  - destruct Hn as (-> & Hi & _). rewrite (truthy_text _ (i_une _ _ _ _ _ _ _ H)). cbn [bind as_str]. change (uci_name u) with (identifier u). rewrite Hi. reflexivity.
  - cbn [truthy bind as_str]. rewrite Hn. reflexivity.
Qed.
Lemma acc_get p l : dget p (acc_of p l) = match l with [] => None | _ => Some (VList (map VDict l)) end.
Proof. destruct l; [reflexivity|]. cbn [acc_of dget]. rewrite eqb_refl. reflexivity. Qed.
Lemma merge_acc ids oid ss ns s n : named ss ns -> NoDup ns -> sec_name s n -> ~ In n ns ->
  (do old <- (match dget "network" (acc_of "network" ss) with None => Ok [] | Some v => as_list v end);
   do new <- merge_list oid (".name" :: ids) old [VDict s]; Ok (dset "network" (VList new) (acc_of "network" ss))) = Ok (acc_of "network" (ss ++ [s])).
Proof.
  intros Hn Hnd Hs Hni. rewrite acc_get.
  assert (E : merge_list oid (".name" :: ids) (map VDict ss) [VDict s] = Ok (map VDict (ss ++ [s]))).
  { change [VDict s] with (map VDict [s]). apply (merge_named ".name" ids oid ss [s] ns [n]); [exact Hn|constructor; [exact Hs|constructor]|].
    apply NoDup_app_intro; [exact Hnd|repeat constructor; intros []|]. intros x Hx [<-|[]]. contradiction. }
  destruct ss as [|x ss].
  - cbn [bind app map] in *. rewrite E. cbn [bind map acc_of dset]. reflexivity.
  - cbn [as_list bind] in *. rewrite E. cbn [bind acc_of dset]. rewrite eqb_refl. reflexivity.
Qed.
Lemma sections_one oid config uname dsa_if i a s ss ns n : address_section config uname dsa_if i a 1 = Ok s ->
  named ss ns -> NoDup ns -> sec_name s n -> ~ In n ns ->
  address_sections oid config uname dsa_if i [a] 1 (acc_of "network" ss) = Ok (acc_of "network" (ss ++ [s])).
Proof.
  intros Es Hn Hnd Hs Hni. cbn [address_sections]. rewrite Es. cbn [bind]. pose proof (merge_acc [".type"] oid ss ns s n Hn Hnd Hs Hni) as M.
  destruct (match dget "network" (acc_of "network" ss) with Some v => as_list v | None => Ok [] end) as [old|e]; [|discriminate M]. cbn [bind] in *.
  destruct (merge_list oid [".name"; ".type"] old [VDict s]) as [new|e]; [|discriminate M]. cbn [bind] in *. exact M.
Qed.
Lemma device_name_neq u : "device_" +++ u <> u.
Proof. intros E. apply (f_equal String.length) in E. rewrite length_app_s in E. cbn in E. lia. Qed.
Lemma block_tail oid dsa config b n u br ms opts ss ns t i a : iface dsa b n u br ms opts -> typing t br b -> dns_config config -> dns_in config b opts ->
  named ss ns -> NoDup ns -> ~ In u ns -> (dsa && has_device b br = true -> ~ In ("device_" +++ u) ns) ->
  NoDup (dkeys a) -> (forall k, dget k a = if existsb (String.eqb k) address_options then opt opts k else None) ->
  NoDup (dkeys i) -> (forall k, dget k i = istart t b n u opts k) ->
  exists secs, (let dsa_if := dsa_interface dsa [] i in
    do irv <- (if dsa_if then dsa_sections u i (acc_of "network" ss) [] else Ok (i, acc_of "network" ss, []));
    let '(interface, result, vlans) := irv in
    do result <- address_sections oid config u dsa_if interface [a] 1 result;
    Ok (result, vlans)) = Ok (acc_of "network" (ss ++ secs), []) /\
    ifsecs dsa b n u br ms opts secs.
Proof.
  intros H Hty Hc Hin Hn Hnd Hu Hdu Na Ga Ni Gi. cbn zeta.
  assert (Eif : dsa_interface dsa [] i = dsa).
  { unfold dsa_interface. destruct dsa; [|reflexivity]. unfold dgetN. rewrite !Gi. unfold istart. cbn [existsb]. ev. cbn [orb].
    rewrite (i_none _ _ _ _ _ _ _ H "proto") by (unfold section_fields; cbn; tauto). destruct Hty as [[-> |[-> |[-> |[-> _]]]] _]; reflexivity. }
  rewrite Eif. destruct dsa.
  - unfold dsa_sections. unfold pop_or.
    assert (Ev : dget "vlan_filtering" i = None). { rewrite Gi. unfold istart. cbn [existsb]. ev. cbn [orb]. apply (i_none _ _ _ _ _ _ _ H). unfold section_fields; cbn; tauto. }
    rewrite Ev. cbn [truthy]. change (truthy (VList [])) with false. cbn iota.
    assert (Gi' : forall k, dget k (ddel "vlan_filtering" i) = istart t b n u opts k). { intros k. dg. rewrite <- Gi. field k "vlan_filtering"; [symmetry; exact Ev|reflexivity]. }
    destruct (device_fwd b n u br ms opts (ddel "vlan_filtering" i) t H Hty ltac:(apply NoDup_ddel, Ni) Gi') as (d & i' & -> & Ni' & Hd & Gd). cbn [bind as_list foldM].
    destruct (section_dsa config b n u br ms opts i' a t H Hty Ni' Na Hc Hin Ga) as (s & Es & Ns & Ss & Gs). { intros k. rewrite Gd, Gi'. reflexivity. }
    cbn [andb] in Hdu. destruct (has_device b br) eqn:Eh.
    + destruct Hd as (Nd & Hdne & Gdd). destruct d as [|kv d]; [congruence|]. set (D := kv :: d) in *. clearbody D.
      assert (Gsd : forall k, dget k (ssort D) = dsec b n u br ms k) by (intros k; rewrite dget_ssort by exact Nd; apply Gdd).
      rewrite add_blocks_acc, (sections_one oid config u true i' a s (ss ++ [ssort D]) (ns ++ ["device_" +++ u]) u Es).
      2: { apply Forall2_app; [exact Hn|]. constructor; [unfold sec_name; rewrite Gsd; reflexivity|constructor]. }
      2: { apply NoDup_app_intro; [exact Hnd|repeat constructor; intros []|]. intros y Hy [<-|[]]. apply Hdu; auto. }
      2: { unfold sec_name. rewrite Gs. reflexivity. }
      2: { rewrite in_app_iff. intros [X|[X|[]]]; [contradiction|]. exact (device_name_neq u X). }
      cbn [bind].
      exists [ssort D; s]. split; [rewrite <- app_assoc; reflexivity|]. apply ifsecs_two; try assumption; try reflexivity. apply ssort_sorted_keys, Nd.
    + subst d. rewrite (sections_one oid config u true i' a s ss ns u Es Hn Hnd) by (assumption || (unfold sec_name; rewrite Gs; reflexivity)).
      cbn [bind]. exists [s]. split; [reflexivity|]. apply ifsecs_one; [exact Eh|exact Ss|exact Gs].
  - cbn [bind]. destruct (section_plain config b n u br ms opts i a t H Hty Ni Na Hc Hin Ga Gi) as (s & Es & Ns & Ss & Gs).
    rewrite (sections_one oid config u false i a s ss ns u Es Hn Hnd) by (assumption || (unfold sec_name; rewrite Gs; reflexivity)).
    cbn [bind]. exists [s]. split; [reflexivity|]. apply ifsecs_one; [reflexivity|exact Ss|exact Gs].
Qed.
Lemma block_fwd oid dsa config b n u br ms opts ss ns : iface dsa b n u br ms opts -> dns_config config -> dns_in config b opts ->
  named ss ns -> NoDup ns -> ~ In u ns -> (dsa && has_device b br = true -> ~ In ("device_" +++ u) ns) ->
  exists secs, interface_block oid dsa config (acc_of "network" ss, []) (VDict b) = Ok (acc_of "network" (ss ++ secs), []) /\
    ifsecs dsa b n u br ms opts secs.
Proof.
  intros H Hc Hin Hn Hnd Hu Hdu. unfold interface_block. cbn [as_dict bind].
  pose proof (uname_of _ _ _ _ _ _ _ H) as Hun. cbn zeta.
  destruct (if truthy (dgetN "network" b) then Ok (dgetN "network" b) else dgetE "name" b) as [x|e]; [|discriminate Hun]. cbn [bind] in *. rewrite Hun. cbn [bind].
  pose proof (i_type _ _ _ _ _ _ _ H) as Ht. change (if br then "bridge" else if existsb (String.eqb n) loopback_names then "loopback" else "ethernet") with (type_of br n) in Ht.
  pose proof (typing_of _ _ _ _ _ _ _ H) as Hty.
  destruct (addresses_dns_fwd b opts (type_of br n) (i_nd _ _ _ _ _ _ _ H) (i_addr _ _ _ _ _ _ _ H) Ht) as (a & b1 & -> & Na & Nb1 & Ga & Gb1).
  { unfold type_of. destruct br; [discriminate|destruct (existsb _ _); discriminate]. }
  { intros X. exfalso. revert X. unfold type_of. destruct br; [discriminate|destruct (existsb _ _); discriminate]. }
  { intros k Hk. apply (i_none _ _ _ _ _ _ _ H). unfold section_fields. cbn in Hk |- *. tauto. }
  cbn [bind]. destruct (interface_fwd dsa b n u br ms opts b1 (type_of br n) H Nb1 Hty) as (i & -> & Ni & Gi).
  { intros k. right. rewrite Gb1. destruct (_ || _); [reflexivity|]. field k "type"; [exact Ht|reflexivity]. }
  cbn [bind py_str]. apply (block_tail oid dsa config b n u br ms opts ss ns (type_of br n)); assumption.
Qed.
(** A wireless interface with addresses, whose network settings are [b] *)
Lemma block_wireless oid dsa config w b n u br ms opts ss ns : iface dsa b n u br ms opts -> dns_config config -> dns_in config b opts ->
  named ss ns -> NoDup ns -> ~ In u ns -> (dsa && has_device b br = true -> ~ In ("device_" +++ u) ns) ->
  NoDup (dkeys w) -> dget "type" w = text "wireless" -> dget "addresses" w <> None -> dget "type" b = text "ethernet" -> dget "mac" b = None ->
  (forall k, k <> "type" -> k <> "mac" -> k <> "wireless" -> dget k w = dget k b) ->
  exists secs, interface_block oid dsa config (acc_of "network" ss, []) (VDict w) = Ok (acc_of "network" (ss ++ secs), []) /\
    ifsecs dsa b n u br ms opts secs.
Proof.
  intros H Hc Hin Hn Hnd Hu Hdu Hw Htw Haw Htb Hmb G. unfold interface_block. cbn [as_dict bind].
  pose proof (uname_of _ _ _ _ _ _ _ H) as Hun. cbn zeta.
  assert (En : (if truthy (dgetN "network" w) then Ok (dgetN "network" w) else dgetE "name" w) = (if truthy (dgetN "network" b) then Ok (dgetN "network" b) else dgetE "name" b)).
  { unfold dgetN, dgetE. rewrite !G by discriminate. reflexivity. }
  rewrite En. clear En.
  destruct (if truthy (dgetN "network" b) then Ok (dgetN "network" b) else dgetE "name" b) as [x|e]; [|discriminate Hun]. cbn [bind] in *. rewrite Hun. cbn [bind].
  pose proof (i_addr _ _ _ _ _ _ _ H) as Ha. rewrite <- G in Ha by discriminate.
  assert (Hty : typing "wireless" br b).
  { split; [auto|]. pose proof (i_type _ _ _ _ _ _ _ H) as Ht. rewrite Htb in Ht. destruct br; [discriminate Ht|reflexivity]. }
  destruct (addresses_dns_fwd w opts "wireless" Hw Ha Htw) as (a & b1 & -> & Na & Nb1 & Ga & Gb1); [discriminate|intros _; exact Haw| |].
  { intros k Hk. rewrite G by (intros ->; cbn in Hk; intuition discriminate). apply (i_none _ _ _ _ _ _ _ H). unfold section_fields. cbn in Hk |- *. tauto. }
  cbn [bind]. destruct (interface_fwd dsa b n u br ms opts b1 "wireless" H Nb1 Hty) as (i & -> & Ni & Gi).
  { intros k. field k "mac"; [auto|]. field k "wireless"; [auto|]. right. rewrite Gb1. destruct (_ || _); [reflexivity|]. field k "type"; [exact Htw|]. apply G; congruence. }
  cbn [bind py_str]. apply (block_tail oid dsa config b n u br ms opts ss ns "wireless"); assumption.
Qed.
