(** * RtAddress: the addresses of an interface through UCI options and back
    (proofs only). *)
From Verif Require Import PyBase PyLemmas StrLemmas NumLemmas Merge MergeProofs Backend Conv Ip IpProofs OwrtConv OwrtWireless OwrtInterfaces
  SpecUci SpecConv SpecDevice ConvLemmas SortLemmas RtStage RtBack RtGeneric RtSystem RtNetwork RtTrip.

Lemma dget_dupdate (V : Type) k : forall (e d : list (string * V)), NoDup (dkeys e) ->
  dget k (dupdate d e) = match dget k e with Some v => Some v | None => dget k d end.
Proof.
  induction e as [|[k0 v] e IH]; intros d H; [reflexivity|]. cbn in H. inversion H; subst.
  rewrite dupdate_cons, IH by assumption. cbn [dget]. rewrite dget_dset.
  destruct (String.eqb_spec k k0) as [->|Hn]; [|reflexivity].
  rewrite (proj2 (dget_none_keys _ k0 e)) by assumption. reflexivity.
Qed.
Lemma NoDup_ddel_all ks : forall d, NoDup (dkeys d) -> NoDup (dkeys (ddel_all ks d)).
Proof. induction ks as [|k ks IH]; intros d H; [exact H|]. cbn. apply IH, NoDup_ddel, H. Qed.
Lemma dget_ddel_all k : forall ks d, NoDup (dkeys d) -> dget k (ddel_all ks d) = if existsb (String.eqb k) ks then None else dget k d.
Proof.
  induction ks as [|k0 ks IH]; intros d H; [reflexivity|]. cbn [ddel_all fold_left existsb]. 
  change (fold_left (fun (d0 : dict) k1 => ddel k1 d0) ks (ddel k0 d)) with (ddel_all ks (ddel k0 d)).
  rewrite IH by (apply NoDup_ddel, H). rewrite dget_ddel by exact H. destruct (String.eqb k k0), (existsb (String.eqb k) ks); reflexivity.
Qed.

(** ** To UCI *)
Definition gw_key (six : bool) : string := if six then "ip6gw" else "gateway".
Definition ip_key (six : bool) : string := if six then "ip6addr" else "ipaddr".
Lemma static_get n gw d k : same_map (static_address n gw) d ->
  dget k d = if String.eqb k "address" then Some (VStr (if_ip n)) else if String.eqb k "mask" then Some (VInt (Z.of_N (ip_len n)))
    else if String.eqb k "proto" then Some (VStr "static") else if String.eqb k "family" then Some (VStr (if ip_six n then "ipv6" else "ipv4"))
    else if String.eqb k "gateway" then option_map (fun g => VStr (print_addr (ip_six n) g)) gw else None.
Proof.
  intros H. rewrite H. unfold static_address. cbn [dget app]. destruct gw as [g|]; cbn [dget option_map].
  - reflexivity.
  - destruct (String.eqb k "address"), (String.eqb k "mask"), (String.eqb k "proto"), (String.eqb k "family"), (String.eqb k "gateway"); reflexivity.
Qed.
Definition strs (l : list (ipif * option N)) : list val := map (fun x => VStr (if_str (fst x))) l.
Lemma py_str_N n : py_str (VInt (Z.of_N n)) = string_of_N n.
Proof. destruct n; reflexivity. Qed.
Lemma address_step_static six n gw d i st : ip_six n = six -> NoDup (dkeys d) -> same_map (static_address n gw) d ->
  NoDup (dkeys st) -> (dget (ip_key six) st = None \/ exists l, dget (ip_key six) st = Some (VList l)) ->
  exists st', address_step (i, st, []) (VDict d) = Ok (match gw with Some g => dset (gw_key six) (VStr (print_addr six g)) i | None => i end, st', []) /\
    NoDup (dkeys st') /\
    forall k, dget k st' = if String.eqb k "proto" then Some (VStr "static")
      else if String.eqb k (ip_key six) then Some (VList ((match dget k st with Some (VList l) => l | _ => [] end) ++ [VStr (if_str n)]))
      else dget k st.
Proof.
  intros Hs Hd Hm Hst Hold. pose proof (fun k => static_get _ _ _ k Hm) as G.
  unfold address_step. cbn [as_dict bind]. unfold dgetN, dgetE. rewrite (G "family"), (G "proto"). ev. cbn [bind].
  replace (py_eq (VStr "static") (VStr "dhcp")) with false by reflexivity.
  assert (E4 : py_eq (VStr (if ip_six n then "ipv6" else "ipv4")) (VStr "ipv4") = negb six) by (rewrite Hs; destruct six; reflexivity).
  rewrite E4. clear E4.
  assert (Eg : copy_opt "gateway" d (if negb six then "gateway" else "ip6gw") i = match gw with Some g => dset (gw_key six) (VStr (print_addr six g)) i | None => i end).
  { unfold copy_opt. rewrite (G "gateway"). ev. rewrite Hs. unfold gw_key. destruct gw, six; reflexivity. }
  rewrite Eg. clear Eg. rewrite (G "address"), (G "mask"). ev. cbn [bind].
  replace (if negb six then "ipaddr" else "ip6addr") with (ip_key six) by (unfold ip_key; destruct six; reflexivity).
  assert (Eo : match dget (ip_key six) st with None => Ok [] | Some (VList l) => Ok l | Some _ => Err EAttr end = Ok (match dget (ip_key six) st with Some (VList l) => l | _ => [] end)).
  { destruct Hold as [->|(l & ->)]; reflexivity. }
  rewrite Eo. cbn [bind]. eexists. split; [reflexivity|].
  assert (Hn1 : NoDup (dkeys (strip_address d))) by (apply NoDup_ddel_all, Hd).
  split; [apply NoDup_dupdate, NoDup_dset, Hst|]. intros k. rewrite dget_dupdate by exact Hn1.
  unfold strip_address. rewrite dget_ddel_all by exact Hd. unfold address_keys. cbn [existsb]. rewrite G, dget_dset.
  change (py_str (VStr (if_ip n))) with (if_ip n). rewrite py_str_N. change (if_ip n +++ "/" +++ string_of_N (ip_len n)) with (if_str n).
  fields k; try reflexivity; unfold ip_key; destruct six; ev; try reflexivity.
  all: match goal with |- context [String.eqb ?a ?x] => destruct (String.eqb_spec a x); [subst a|] end; reflexivity.
Qed.
Lemma gateways_tail x l : gateways (x :: l) -> gateways l.
Proof.
  destruct x as [n [g|]]; cbn; [|tauto]. intros (_ & _ & H). induction l as [|[m o] l IH]; [exact I|].
  rewrite (H m o) by (left; reflexivity). cbn. split.
  - intros m' g' Hin. specialize (H m' (Some g') (or_intror Hin)). discriminate.
  - apply IH. intros m' o' Hin. apply (H m' o'). right; exact Hin.
Qed.
Lemma family_tail six x l : family six (x :: l) -> family six l.
Proof. intros [H G]. split; [intros n o Hin; apply (H n o); right; exact Hin|eapply gateways_tail, G]. Qed.
Lemma no_gateway l : (forall m o, In (m, o) l -> o = None) -> gateway_of l = None.
Proof. induction l as [|[m o] l IH]; intros H; [reflexivity|]. cbn. rewrite (H m o) by (left; reflexivity). apply IH. intros m' o' Hin. apply (H m' o'). right; exact Hin. Qed.
Lemma six_of six n gw l : family six ((n, gw) :: l) -> ip_six n = six.
Proof. intros [H _]. apply (H n gw). left; reflexivity. Qed.
Lemma foldM_app (A B : Type) (f : A -> B -> res A) l1 l2 : forall a, foldM f a (l1 ++ l2) = do a' <- foldM f a l1; foldM f a' l2.
Proof. induction l1 as [|x l1 IH]; intros a; [reflexivity|]. cbn. destruct (f a x); [apply IH|reflexivity]. Qed.
Lemma addresses_fold six : forall l ds i st, family six l ->
  Forall2 (fun x d => NoDup (dkeys d) /\ same_map (static_address (fst x) (snd x)) d) l ds ->
  NoDup (dkeys st) -> NoDup (dkeys i) -> (dget (ip_key six) st = None \/ exists l, dget (ip_key six) st = Some (VList l)) ->
  exists i' st', foldM address_step (i, st, []) (map VDict ds) = Ok (i', st', []) /\ NoDup (dkeys i') /\ NoDup (dkeys st') /\
    (forall k, dget k i' = if String.eqb k (gw_key six) then match gateway_of l with Some g => Some g | None => dget k i end else dget k i) /\
    forall k, dget k st' = match l with [] => dget k st | _ =>
      if String.eqb k "proto" then Some (VStr "static")
      else if String.eqb k (ip_key six) then Some (VList ((match dget k st with Some (VList l) => l | _ => [] end) ++ strs l)) else dget k st end.
Proof.
  induction l as [|[n gw] l IH]; intros ds i st Hf F Hst Hi Hold; inversion F as [|? d ? ds' [Hd Hm] F']; subst.
  - exists i, st. split; [reflexivity|]. split; [exact Hi|]. split; [exact Hst|]. split; [|reflexivity].
    intros k. cbn. destruct (String.eqb k (gw_key six)); reflexivity.
  - cbn [fst snd] in Hm. pose proof (six_of _ _ _ _ Hf) as Hs.
    destruct (address_step_static six n gw d i st Hs Hd Hm Hst Hold) as (st1 & E1 & Hst1 & G1).
    cbn [map foldM]. rewrite E1. cbn [bind].
    set (i1 := match gw with Some g => dset (gw_key six) (VStr (print_addr six g)) i | None => i end).
    assert (Hi1 : NoDup (dkeys i1)) by (unfold i1; destruct gw; nodup).
    destruct (IH ds' i1 st1 (family_tail _ _ _ Hf) F' Hst1 Hi1) as (i' & st' & E & Hi' & Hst' & Gi & Gs).
    { right. rewrite G1. unfold ip_key. destruct six; ev; eauto. }
    exists i', st'. split; [exact E|]. split; [exact Hi'|]. split; [exact Hst'|]. split.
    + intros k. rewrite Gi. unfold i1. destruct gw as [g|]; cbn [gateway_of].
      * rewrite dget_dset. unfold text. try rewrite Hs. destruct (String.eqb k (gw_key six)); [|reflexivity]. rewrite no_gateway; [reflexivity|].
        destruct Hf as [_ (_ & _ & Hg)]. exact Hg.
      * reflexivity.
    + intros k. rewrite Gs. cbn [strs map fst]. destruct l as [|y l'].
      * rewrite G1. reflexivity.
      * rewrite G1. destruct (String.eqb k "proto"); [reflexivity|]. destruct (String.eqb_spec k (ip_key six)) as [->|]; [|reflexivity].
        rewrite <- app_assoc. reflexivity.
Qed.
Lemma in_range six l n o : family six l -> In (n, o) l -> valid_if n.
Proof. intros [H _] Hin. destruct (H n o Hin) as (E & H1 & H2). unfold valid_if. rewrite E. split; assumption. Qed.

Definition opt (opts : list (string * option val)) (k : string) : option val := match dget k opts with Some o => o | None => None end.
Definition address_options : list string := ["proto"; "ipaddr"; "netmask"; "ip6addr"].
Lemma addresses_fwd b opts t : NoDup (dkeys b) -> addressing (dget "addresses" b) opts ->
  dget "type" b = text t -> t <> "wireguard" -> (t = "wireless" -> dget "addresses" b <> None) -> none_of ["gateway"; "ip6gw"] b ->
  exists a b1, interface_addresses b = Ok ([a], b1) /\ NoDup (dkeys a) /\ NoDup (dkeys b1) /\
    (forall k, dget k a = if existsb (String.eqb k) address_options then opt opts k else None) /\
    forall k, dget k b1 = if String.eqb k "gateway" || String.eqb k "ip6gw" then opt opts k else dget k b.
Proof.
  intros Hb H Ht Hw1 Hw2 Habs. unfold interface_addresses. unfold dgetN. rewrite Ht. unfold text. rewrite py_eq_text, (eqb_neq _ _ Hw1).
  assert (N1 : dget "gateway" b = None) by (apply Habs; cbn; auto). assert (N2 : dget "ip6gw" b = None) by (apply Habs; cbn; auto).
  inversion H as [Ea|six d Hd Hm Ea|l4 l6 ds F4 F6 Hne F Ea].
  - assert (Hw3 : t <> "wireless") by (intros X; apply (Hw2 X); congruence).
    cbn [truthy negb]. unfold dgetE. rewrite Ht. unfold text. cbn [bind]. rewrite py_eq_text, (eqb_neq _ _ Hw3).
    do 2 eexists. split; [reflexivity|]. split; [repeat constructor; intros []|]. split; [exact Hb|]. split.
    + intros k. unfold address_options, opt. cbn [existsb dget]. fields k; reflexivity.
    + intros k. unfold opt. cbn [dget]. fields k; [rewrite N1|rewrite N2|]; reflexivity.
  - cbn [truthy negb as_list bind foldM]. unfold address_step. cbn [as_dict bind]. unfold dgetN, dgetE.
    rewrite (Hm "family"), (Hm "proto"). cbn [dget]. ev. cbn [bind].
    change (py_eq (VStr "dhcp") (VStr "dhcp")) with true. cbn iota.
    set (d1 := dset "proto" _ d). do 2 eexists. split; [reflexivity|].
    assert (Hd1 : NoDup (dkeys d1)) by (unfold d1; nodup). split; [apply NoDup_ddel_all, Hd1|]. split; [exact Hb|]. split.
    + intros k. unfold strip_address. rewrite dget_ddel_all by exact Hd1. unfold d1. rewrite dget_dset, (Hm k).
      unfold address_keys, address_options, opt. cbn [existsb dget]. fields k; try reflexivity. destruct six; reflexivity.
    + intros k. unfold opt. cbn [dget]. fields k; [rewrite N1|rewrite N2|]; reflexivity.
  - subst opts. assert (Etr : truthy (VList (map VDict ds)) = true) by (destruct ds; [congruence|reflexivity]). rewrite Etr. cbn [negb as_list bind].
    apply Forall2_app_inv_l in F as (d4 & d6 & X4 & X6 & ->). rewrite map_app, foldM_app.
    destruct (addresses_fold false l4 d4 b [] F4 X4) as (i4 & st4 & E4 & Hi4 & Hst4 & Gi4 & Gs4); [constructor|exact Hb|left; reflexivity|].
    rewrite E4. cbn [bind].
    assert (Old : dget (ip_key true) st4 = None).
    { rewrite Gs4. unfold ip_key. destruct l4; ev; reflexivity. }
    destruct (addresses_fold true l6 d6 i4 st4 F6 X6 Hst4 Hi4 (or_introl Old)) as (i6 & st6 & E6 & Hi6 & Hst6 & Gi6 & Gs6).
    rewrite E6. cbn [bind].
    assert (Hst : forall k, dget k st6 = if String.eqb k "proto" then text "static"
      else if String.eqb k "ipaddr" then match l4 with [] => None | _ => Some (VList (strs l4)) end
      else if String.eqb k "ip6addr" then match l6 with [] => None | _ => Some (VList (strs l6)) end else None).
    { intros k. rewrite Gs6, Gs4. unfold ip_key. destruct l4 as [|x4 l4], l6 as [|x6 l6].
      - inversion X4; inversion X6; subst. cbn in Hne. congruence.
      - cbn [dget app]. fields k; reflexivity.
      - cbn [dget app]. fields k; reflexivity.
      - cbn [dget app]. fields k; reflexivity. }
    assert (Hstne : st6 <> []) by (intros ->; specialize (Hst "proto"); discriminate Hst).
    assert (S4 : exists s4, single_ipv4 st6 = Ok s4 /\ NoDup (dkeys s4) /\ forall k, dget k s4 = if String.eqb k "ipaddr" then several if_ip l4
       else if String.eqb k "netmask" then match l4 with [x] => text (netmask (ip_len (fst x))) | _ => None end else dget k st6).
    { unfold single_ipv4. rewrite (Hst "ipaddr"). ev. destruct l4 as [|[n o] [|y l4]].
      - exists st6. split; [reflexivity|]. split; [exact Hst6|]. intros k. cbn [several]. rewrite Hst. fields k; reflexivity.
      - cbn [strs map fst interface_of]. rewrite (interface_str n) by (eapply in_range; [exact F4|left; reflexivity]). cbn [bind].
        eexists. split; [reflexivity|]. split; [nodup|]. intros k. dg. cbn [several fst]. 
        assert (Em : if_netmask n = netmask (ip_len n)).
        { unfold if_netmask. rewrite (six_of _ _ _ _ F4). reflexivity. }
        fields k; try reflexivity. rewrite Em. reflexivity.
      - cbn [strs map fst]. exists st6. split; [reflexivity|]. split; [exact Hst6|]. intros k. cbn [several]. rewrite Hst. fields k; reflexivity. }
    destruct S4 as (s4 & Es4 & Hs4 & G4).
    assert (S6 : exists s6, single_ipv6 s4 = Ok s6 /\ NoDup (dkeys s6) /\ forall k, dget k s6 = if String.eqb k "ip6addr" then several if_str l6 else dget k s4).
    { unfold single_ipv6. rewrite (G4 "ip6addr"). ev. rewrite Hst. ev. destruct l6 as [|[n o] [|y l6]].
      - exists s4. split; [reflexivity|]. split; [exact Hs4|]. intros k. rewrite G4, Hst. fields k; reflexivity.
      - cbn [strs map fst several]. eexists. split; [reflexivity|]. split; [nodup|]. intros k. dg. reflexivity.
      - exists s4. split; [reflexivity|]. split; [exact Hs4|]. intros k. rewrite G4, Hst. fields k; reflexivity. }
    destruct S6 as (s6 & Es6 & Hs6 & G6).
    exists s6, i6. split; [|split; [exact Hs6|split; [exact Hi6|split]]].
    + destruct st6 as [|kv st6]; [congruence|]. rewrite Es4. cbn [bind]. rewrite Es6. reflexivity.
    + intros k. rewrite G6, G4, Hst. unfold address_options, opt. cbn [existsb dget]. fields k; try reflexivity.
    + intros k. rewrite Gi6, Gi4. unfold gw_key, opt. cbn [dget]. fields k; rewrite ?N1, ?N2; try reflexivity.
      all: destruct (gateway_of l4), (gateway_of l6); reflexivity.
Qed.

(** ** From UCI *)
Definition uopt (o : option val) : option val := match o with Some v => uci_value v | None => None end.
Definition readable (s : string) (n : ipif) : Prop := parse_ip (VStr s) (VInt 32) = Ok (Some s) /\ ip_interface s = Some n.
Lemma no_slash six n : sexists (Ascii.eqb "/"%char) (print_addr six n) = false.
Proof. destruct six; [apply v6_no_slash|apply v4_no_slash]. Qed.
Lemma addr_nonempty six n : (n < 2 ^ width six)%N -> print_addr six n <> EmptyString.
Proof.
  destruct six; cbn [width print_addr]; intros H E.
  - pose proof (parse_print_ipv6 n H) as P. rewrite E in P. discriminate P.
  - exact (print_ipv4_nonempty _ E).
Qed.
Lemma parse_ip_slash a m dflt : a <> EmptyString -> m <> EmptyString -> sexists (Ascii.eqb "/"%char) a = false -> sexists (Ascii.eqb "/"%char) m = false ->
  parse_ip (VStr (a +++ "/" +++ m)) dflt = Ok (Some (a +++ "/" +++ m)).
Proof.
  intros Ha Hm Sa Sm. unfold parse_ip. cbn [str_key bind]. rewrite split_slash by assumption. unfold vor. rewrite (truthy_text m Hm).
  rewrite (eqb_neq _ _ Ha). cbn [negb andb py_str]. rewrite (truthy_text m Hm). reflexivity.
Qed.
Lemma readable_str n : valid_if n -> readable (if_str n) n.
Proof.
  intros H. split; [|apply interface_str, H]. unfold if_str. apply parse_ip_slash.
  - apply addr_nonempty, H.
  - apply string_of_N_nonempty.
  - apply no_slash.
  - apply num_no_slash.
Qed.
Lemma readable_mask n : valid_if n -> ip_six n = false -> readable (if_ip n +++ "/" +++ netmask (ip_len n)) n.
Proof.
  intros [H1 H2] E. unfold if_ip. rewrite E in *. cbn [print_addr width] in *. split.
  - apply parse_ip_slash; [apply print_ipv4_nonempty|apply print_ipv4_nonempty|apply v4_no_slash|apply v4_no_slash].
  - change (netmask (ip_len n)) with (print_ipv4 (mask_of 32 (ip_len n))). rewrite interface_netmask by assumption.
    destruct n as [six a p]. cbn in E. subst. reflexivity.
Qed.
Lemma ip_address_print six g : (g < 2 ^ width six)%N -> ip_address (print_addr six g) = Some (six, g).
Proof.
  intros H. unfold ip_address. destruct six; cbn [print_addr width] in *.
  - rewrite v6_not_v4, parse_print_ipv6 by exact H. reflexivity.
  - rewrite parse_print_ipv4 by exact H. reflexivity.
Qed.
Lemma gateway_In six l v : family six l -> gateway_of l = Some v ->
  exists m g, In (m, Some g) l /\ v = VStr (print_addr six g) /\ (g < 2 ^ width six)%N.
Proof.
  induction l as [|[n [g|]] l IH]; intros Hf H; [discriminate| |].
  - cbn in H. injection H as <-. pose proof (six_of _ _ _ _ Hf) as E. destruct Hf as [_ (_ & Hg & _)]. rewrite E in *.
    exists n, g. split; [left; reflexivity|auto].
  - destruct (IH (family_tail _ _ _ Hf) H) as (m & g & Hin & R). exists m, g. split; [right; exact Hin|exact R].
Qed.
Lemma netjson_address_step six n gw l s i : family six ((n, gw) :: l) -> ip_interface s = Some n -> NoDup (dkeys i) ->
  dget (gw_key six) i = gateway_of ((n, gw) :: l) ->
  exists i', netjson_address s i = Ok (VDict (static_address n gw), i') /\ NoDup (dkeys i') /\
    dget (gw_key six) i' = gateway_of l /\ forall k, k <> gw_key six -> dget k i' = dget k i.
Proof.
  intros Hf Hs Hi Hg. pose proof (six_of _ _ _ _ Hf) as E. unfold netjson_address. rewrite Hs.
  replace (if ip_six n then "ip6gw" else "gateway") with (gw_key six) by (rewrite E; destruct six; reflexivity).
  unfold dgetN. rewrite Hg. destruct gw as [g|].
  - cbn [gateway_of]. unfold text. destruct Hf as [_ (Hin & Hr & Hnone)]. rewrite (truthy_text _ (addr_nonempty _ _ Hr)). cbn [negb].
    rewrite (ip_address_print _ _ Hr). unfold in_network. cbn [fst snd]. rewrite Bool.eqb_reflx. unfold in_net in Hin. rewrite Hin, N.eqb_refl. cbn [andb].
    eexists. split; [reflexivity|]. split; [nodup|]. split.
    + dg. ev. rewrite no_gateway by exact Hnone. reflexivity.
    + intros k Hk. dg. ev. reflexivity.
  - change (gateway_of ((n, None) :: l)) with (gateway_of l) in *. destruct (gateway_of l) as [v|] eqn:Ev.
    + destruct (gateway_In six l v (family_tail _ _ _ Hf) Ev) as (m & g & Hin & -> & Hr). rewrite (truthy_text _ (addr_nonempty _ _ Hr)). cbn [negb].
      rewrite (ip_address_print _ _ Hr).
      assert (Ein : in_network (six, g) n = false).
      { unfold in_network. cbn [fst snd]. destruct Hf as [_ [Hno _]]. specialize (Hno m g Hin). unfold in_net in Hno.
        apply andb_false_iff. right. apply N.eqb_neq. exact Hno. }
      rewrite Ein. eexists. split; [reflexivity|]. split; [exact Hi|]. split; [exact Hg|reflexivity].
    + cbn [truthy negb]. eexists. split; [reflexivity|]. split; [exact Hi|]. split; [exact Hg|reflexivity].
Qed.
Lemma back_fold six : forall l ss acc i, family six l -> Forall2 (fun x s => readable s (fst x)) l ss -> NoDup (dkeys i) ->
  dget (gw_key six) i = gateway_of l ->
  exists i', foldM address_back (acc, i) (map VStr ss) = Ok ((acc ++ map (fun x => VDict (static_address (fst x) (snd x))) l)%list, i') /\
    NoDup (dkeys i') /\ forall k, dget k i' = if String.eqb k (gw_key six) then None else dget k i.
Proof.
  induction l as [|[n gw] l IH]; intros ss acc i Hf F Hi Hg; inversion F as [|? s ? ss' [Hp Hr] F']; subst.
  - exists i. cbn. rewrite app_nil_r. split; [reflexivity|]. split; [exact Hi|]. intros k. destruct (String.eqb_spec k (gw_key six)) as [->|]; [exact Hg|reflexivity].
  - cbn [fst] in *. cbn [map foldM].
    destruct (netjson_address_step six n gw l s i Hf Hr Hi Hg) as (i1 & E1 & Hi1 & Hg1 & Ho1).
    assert (Es : address_back (acc, i) (VStr s) = Ok ((acc ++ [VDict (static_address n gw)])%list, i1)) by (unfold address_back; rewrite Hp; cbn [bind]; rewrite E1; reflexivity).
    rewrite Es. cbn [bind].
    destruct (IH ss' (acc ++ [VDict (static_address n gw)])%list i1 (family_tail _ _ _ Hf) F' Hi1 Hg1) as (i' & E' & Hi' & Ho').
    exists i'. rewrite E', <- app_assoc. split; [reflexivity|]. split; [exact Hi'|]. intros k. rewrite Ho'.
    destruct (String.eqb_spec k (gw_key six)) as [->|Hk]; [reflexivity|apply Ho1, Hk].
Qed.
Definition six_options : list string := ["proto"; "ipaddr"; "netmask"; "ip6addr"; "gateway"; "ip6gw"].
Lemma strs_read six l : family six l -> Forall2 (fun x s => readable s (fst x)) l (map (fun x => if_str (fst x)) l).
Proof.
  induction l as [|[n gw] l IH]; intros H; constructor; [|apply IH; eapply family_tail, H].
  apply readable_str. eapply in_range; [exact H|left; reflexivity].
Qed.
Lemma if_str_text n : uci_value (VStr (if_str n)) = Some (VStr (if_str n)).
Proof. apply uci_text, if_str_nonempty. Qed.
Lemma option_read key dflt six l i : family six l -> NoDup (dkeys i) ->
  dget key i = uopt (several (if six then if_str else if_ip) l) -> key <> "netmask" ->
  (six = false -> dget "netmask" i = uopt (match l with [x] => text (netmask (ip_len (fst x))) | _ => None end)) ->
  (six = true -> dget "netmask" i = None) ->
  exists ss i', address_option key dflt i = Ok (map VStr ss, i') /\ Forall2 (fun x s => readable s (fst x)) l ss /\ NoDup (dkeys i') /\
    dget "netmask" i' = None /\ dget key i' = None /\ forall k, k <> key -> k <> "netmask" -> dget k i' = dget k i.
Proof.
  intros Hf Hi Hk Hkn Hm Hm6. assert (Q1 : String.eqb key "netmask" = false) by (apply eqb_neq, Hkn).
  assert (Q2 : String.eqb "netmask" key = false) by (apply eqb_neq; congruence). unfold address_option, pop_or. rewrite Hk. destruct l as [|[n gw] [|y l]].
  - cbn [several uopt]. exists [], (ddel key i). split; [reflexivity|]. split; [constructor|]. split; [nodup|]. split.
    + dg. rewrite ?Q1, ?Q2. ev. destruct six; [apply Hm6; reflexivity|]. rewrite Hm by reflexivity. reflexivity.
    + split; [dg; rewrite ?Q1, ?Q2; ev; reflexivity|]. intros k H1 H2. dg. rewrite ?Q1, ?Q2. ev. reflexivity.
  - pose proof (six_of _ _ _ _ Hf) as E. assert (Hv : valid_if n) by (eapply in_range; [exact Hf|left; reflexivity]).
    destruct six; cbn [several fst]; unfold text, uopt.
    + rewrite if_str_text. destruct (readable_str n Hv) as [Hp Hr].
      assert (Ep : forall d, parse_ip (VStr (if_str n)) d = Ok (Some (if_str n))).
      { intros d. unfold if_str. apply parse_ip_slash; [apply addr_nonempty, Hv|apply string_of_N_nonempty|apply no_slash|apply num_no_slash]. }
      rewrite Ep. cbn [bind]. exists [if_str n]. eexists. split; [reflexivity|]. split; [constructor; [split; assumption|constructor]|]. split; [nodup|].
      split; [dg; rewrite ?Q1, ?Q2; ev; reflexivity|]. split; [dg; rewrite ?Q1, ?Q2; ev; reflexivity|]. intros k H1 H2. dg. rewrite ?Q1, ?Q2. ev. reflexivity.
    + assert (Hne : if_ip n <> EmptyString) by (apply addr_nonempty, Hv).
      rewrite (uci_text _ Hne). dg. ev.
      assert (Hnm : netmask (ip_len n) <> EmptyString) by apply print_ipv4_nonempty.
      rewrite Hm by reflexivity. cbn [fst]. unfold text, uopt. rewrite (uci_text _ Hnm).
      assert (Ep : parse_ip (VStr (if_ip n)) (VStr (netmask (ip_len n))) = Ok (Some (if_ip n +++ "/" +++ netmask (ip_len n)))).
      { unfold parse_ip. cbn [str_key bind]. rewrite FilesProofs.split_char_none by apply no_slash. rewrite (eqb_neq _ _ Hne), (truthy_text _ Hnm). reflexivity. }
      rewrite Q2, Ep. cbn [bind]. exists [if_ip n +++ "/" +++ netmask (ip_len n)]. eexists. split; [reflexivity|].
      split; [constructor; [apply readable_mask; assumption|constructor]|]. split; [nodup|].
      split; [dg; rewrite ?Q1, ?Q2; ev; reflexivity|]. split; [dg; rewrite ?Q1, ?Q2; ev; reflexivity|]. intros k H1 H2. dg. rewrite ?Q1, ?Q2. ev. reflexivity.
  - cbn [several]. unfold uopt. cbn [uci_value map].
    exists (map (fun x => if_str (fst x)) ((n, gw) :: y :: l)). exists (ddel key i). split.
    + f_equal. f_equal. cbn [map]. f_equal. f_equal. rewrite !map_map. apply map_ext. reflexivity.
    + split; [eapply strs_read, Hf|]. split; [nodup|]. split.
      * dg. rewrite ?Q1, ?Q2. ev. destruct six; [apply Hm6; reflexivity|]. rewrite Hm by reflexivity. reflexivity.
      * split; [dg; rewrite ?Q1, ?Q2; ev; reflexivity|]. intros k H1 H2. dg. rewrite ?Q1, ?Q2. ev. reflexivity.
Qed.
Lemma addresses_bwd i v opts : NoDup (dkeys i) -> addressing v opts -> dget "addresses" i = None ->
  (forall k, In k six_options -> dget k i = uopt (opt opts k)) ->
  exists i', netjson_addresses i = Ok i' /\ NoDup (dkeys i') /\
    (match v with None => dget "addresses" i' = None | Some w => exists w', dget "addresses" i' = Some w' /\ same w w' end) /\
    forall k, k <> "addresses" -> dget k i' = if existsb (String.eqb k) six_options then None else dget k i.
Proof.
  intros Hi H Ha Hk.
  assert (Kp : dget "proto" i = uopt (opt opts "proto")) by (apply Hk; cbn; auto).
  assert (K4 : dget "ipaddr" i = uopt (opt opts "ipaddr")) by (apply Hk; cbn; auto).
  assert (Km : dget "netmask" i = uopt (opt opts "netmask")) by (apply Hk; cbn; auto).
  assert (K6 : dget "ip6addr" i = uopt (opt opts "ip6addr")) by (apply Hk; cbn; auto 10).
  assert (Kg : dget "gateway" i = uopt (opt opts "gateway")) by (apply Hk; cbn; auto 10).
  assert (Kh : dget "ip6gw" i = uopt (opt opts "ip6gw")) by (apply Hk; cbn; auto 10).
  clear Hk. unfold netjson_addresses, pop_or. unfold six_options. cbn [existsb].
  inversion H as [Ea|six d Hd Hm Ea|l4 l6 ds F4 F6 Hne F Ea]; subst; unfold opt in *; cbn [dget] in *; revert Kp K4 Km K6 Kg Kh; ev; intros.
  - unfold uopt, text in Kp. cbn [uci_value py_str] in Kp. rewrite Kp. change (py_str (VStr "none")) with "none".
    change (is_one_of (VStr "none") ["static"; "dhcp"; "dhcpv6"; "none"]) with true.
    unfold dmem. dg. ev. rewrite K4, K6. cbn [negb andb]. change (py_eq (VStr "none") (VStr "none")) with true. cbn iota.
    eexists. split; [reflexivity|]. split; [nodup|]. split; [dg; ev; exact Ha|]. intros k Hne. dg. fields k; try reflexivity; assumption.
  - rewrite Kp. set (p := if six then "dhcpv6" else "dhcp"). 
    assert (Ep : uopt (text p) = Some (VStr p)) by (unfold p; destruct six; reflexivity). rewrite Ep.
    assert (Ek : is_one_of (VStr p) ["static"; "dhcp"; "dhcpv6"; "none"] = true) by (unfold p; destruct six; reflexivity). rewrite Ek.
    assert (En : py_eq (VStr p) (VStr "none") = false) by (unfold p; destruct six; reflexivity). rewrite En, andb_false_r. cbn iota.
    unfold add_netjson_addresses, address_option, pop_or. dg. ev. rewrite K4, K6. cbn [uopt bind]. dg. ev. cbn [bind as_str app].
    assert (Es : startswith "dhcp" p = true) by (unfold p; destruct six; reflexivity). rewrite Es. cbn [foldM bind].
    replace (if String.eqb p "dhcp" then "ipv4" else "ipv6") with (if six then "ipv6" else "ipv4") by (unfold p; destruct six; reflexivity).
    eexists. split; [reflexivity|]. split; [nodup|]. split.
    + eexists. split; [dg; ev; reflexivity|]. apply same_list. constructor; [|constructor]. apply same_of_map. intros k. rewrite (Hm k). reflexivity.
    + intros k Hn. dg. fields k; try reflexivity; assumption.
  - cbn [uopt text] in Kp. rewrite Kp. cbn [uci_value py_str].
    change (is_one_of (VStr "static") ["static"; "dhcp"; "dhcpv6"; "none"]) with true.
    change (py_eq (VStr "static") (VStr "none")) with false. rewrite andb_false_r. cbn iota.
    unfold add_netjson_addresses.
    assert (N1 : NoDup (dkeys (ddel "ip6addr" (ddel "proto" i)))) by nodup.
    destruct (option_read "ipaddr" 32 false l4 (ddel "ip6addr" (ddel "proto" i)) F4 N1) as (s4 & i4 & E4 & R4 & H4 & M4 & X4 & O4).
    { dg. ev. exact K4. } { discriminate. } { intros _. dg. ev. exact Km. } { discriminate. }
    rewrite E4. cbn [bind]. set (v6 := pop_or "ip6addr" (VList []) (ddel "proto" i)).
    assert (N2 : NoDup (dkeys (dset "ip6addr" v6 i4))) by nodup.
    assert (E6 : exists s6 i6, address_option "ip6addr" 128 (dset "ip6addr" v6 i4) = Ok (map VStr s6, i6) /\
      Forall2 (fun x s => readable s (fst x)) l6 s6 /\ NoDup (dkeys i6) /\ dget "netmask" i6 = None /\ dget "ip6addr" i6 = None /\
      forall k, k <> "ip6addr" -> k <> "netmask" -> dget k i6 = dget k i4).
    { destruct (several if_str l6) as [w|] eqn:Es.
      - destruct (option_read "ip6addr" 128 true l6 (dset "ip6addr" v6 i4) F6 N2) as (s6 & i6 & E6 & R6 & H6 & M6 & X6 & O6).
        { dg. ev. rewrite Es. unfold v6, pop_or. dg. ev. rewrite K6. cbn [uopt].
          assert (Hw : exists u, uci_value w = Some u). { destruct l6 as [|[n o] [|y l6]]; cbn in Es; [discriminate| |]; injection Es as <-; [rewrite if_str_text; eauto|cbn; eauto]. }
          destruct Hw as (u & ->). reflexivity. }
        { discriminate. } { discriminate. } { intros _. dg. ev. exact M4. }
        exists s6, i6. split; [exact E6|]. split; [exact R6|]. split; [exact H6|]. split; [exact M6|]. split; [exact X6|].
        intros k Y1 Y2. rewrite O6 by assumption. dg. ev. reflexivity.
      - destruct l6 as [|[n o] [|y l6]]; try discriminate Es. exists [], (ddel "ip6addr" (dset "ip6addr" v6 i4)).
        assert (Ev6 : v6 = VList []) by (unfold v6, pop_or; dg; ev; rewrite K6; reflexivity).
        assert (Eo : address_option "ip6addr" 128 (dset "ip6addr" v6 i4) = Ok ([], ddel "ip6addr" (dset "ip6addr" v6 i4))).
        { unfold address_option, pop_or. dg. ev. rewrite Ev6. reflexivity. }
        split; [exact Eo|]. split; [constructor|]. split; [nodup|]. split; [dg; ev; exact M4|]. split; [dg; ev; reflexivity|].
        intros k Y1 Y2. dg. ev. reflexivity. }
    destruct E6 as (s6 & i6 & E6 & R6 & H6 & M6 & X6 & O6). rewrite E6. cbn [bind as_str]. change (startswith "dhcp" "static") with false. cbn iota.
    rewrite foldM_app.
    assert (Hgw : forall sx l, family sx l -> uopt (gateway_of l) = gateway_of l).
    { intros sx l Hf. destruct (gateway_of l) as [w|] eqn:Eg; [|reflexivity]. destruct (gateway_In _ _ _ Hf Eg) as (m & g & _ & -> & Hr).
      cbn [uopt]. apply uci_text, addr_nonempty, Hr. }
    destruct (back_fold false l4 s4 [] i6 F4 R4 H6) as (j4 & B4 & J4 & P4).
    { cbn [gw_key]. rewrite O6, O4 by discriminate. dg. ev. rewrite Kg. eapply Hgw, F4. }
    rewrite B4. cbn [bind app].
    destruct (back_fold true l6 s6 (map (fun x => VDict (static_address (fst x) (snd x))) l4) j4 F6 R6 J4) as (j6 & B6 & J6 & P6).
    { cbn [gw_key]. rewrite P4. cbn [gw_key]. ev. rewrite O6, O4 by discriminate. dg. ev. rewrite Kh. eapply Hgw, F6. }
    rewrite B6. cbn [bind]. rewrite <- map_app.
    assert (Hlen : length (l4 ++ l6) = length ds) by (eapply Forall2_length, F).
    set (L := map (fun x => VDict (static_address (fst x) (snd x))) (l4 ++ l6)).
    assert (EL : L <> []). { unfold L. intros E. apply map_eq_nil in E. rewrite E in Hlen. destruct ds; [congruence|discriminate]. }
    exists (dset "addresses" (VList L) j6). split; [destruct L; [congruence|reflexivity]|]. split; [nodup|]. split.
    + exists (VList L). split; [dg; ev; reflexivity|]. apply same_list. unfold L. clear -F. induction F as [|x d l ds [_ Hm] F IH]; cbn; constructor; [|exact IH].
      apply same_of_map. intros k. rewrite (Hm k). reflexivity.
    + intros k Hn. dg. rewrite (eqb_neq _ _ Hn), P6, P4. cbn [gw_key].
      fields k; try reflexivity.
      * rewrite O6, O4 by discriminate. dg. ev. reflexivity.
      * rewrite O6 by discriminate. exact X4.
      * exact M6.
      * exact X6.
      * rewrite O6, O4 by assumption. dg. ev. reflexivity.
Qed.
