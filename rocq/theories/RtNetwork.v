(** * RtNetwork: the round trip of routes, rules and WireGuard peers (proofs only). *)
From Verif Require Import PyBase PyLemmas StrLemmas NumLemmas Merge MergeProofs Backend Conv OwrtConv Ip IpProofs SpecUci SpecConv SpecDevice
  ConvLemmas SortLemmas RtStage RtBack RtGeneric RtSystem.

(** ** Addresses as texts *)
Definition addr_char (c : ascii) : bool := v4_char c || v6_char c || Ascii.eqb c "/"%char.
Lemma addr_plain s : sforall addr_char s = true -> plain s.
Proof. apply plain_of_chars; reflexivity. Qed.
Lemma sforall_weaken (p q : ascii -> bool) s : (forall c, p c = true -> q c = true) -> sforall p s = true -> sforall q s = true.
Proof. intros H. apply sforall_impl, H. Qed.
Lemma print_addr_chars six n : sforall addr_char (print_addr six n) = true.
Proof.
  destruct six; cbn.
  - eapply sforall_weaken; [|apply print_ipv6_chars]. intros c H. unfold addr_char. rewrite H, orb_true_r. reflexivity.
  - eapply sforall_weaken; [|apply print_ipv4_chars]. intros c H. unfold addr_char. rewrite H. reflexivity.
Qed.
Lemma num_addr_chars n : sforall addr_char (string_of_N n) = true.
Proof.
  eapply sforall_weaken; [|apply string_of_N_digits]. intros c H. unfold addr_char, v4_char. rewrite H. reflexivity.
Qed.
Lemma if_str_plain n : plain (if_str n).
Proof.
  apply addr_plain. unfold if_str. rewrite !sforall_app. unfold if_ip. rewrite print_addr_chars, num_addr_chars. reflexivity.
Qed.
Lemma if_str_nonempty n : if_str n <> EmptyString.
Proof. unfold if_str. intros H. destruct (if_ip n); discriminate H. Qed.
Lemma print_ipv4_nonempty n : print_ipv4 n <> EmptyString.
Proof.
  unfold print_ipv4. cbn [join]. intros H. destruct (string_of_N (octet n 3)) eqn:E; [|discriminate H].
  exact (string_of_N_nonempty _ E).
Qed.
Lemma net_str n : net_addr n = ip_addr n -> if_network n = if_str n.
Proof. intros H. unfold if_network, if_str, if_ip. rewrite H. reflexivity. Qed.

Lemma bare_app a b : bare a -> bare b -> bare (a +++ b).
Proof. unfold bare. rewrite sforall_app. intros -> ->. reflexivity. Qed.
Lemma digits_bare s : sforall is_digit s = true -> bare s.
Proof.
  intros H. unfold bare. eapply sforall_weaken; [|exact H]. intros c Hc. rewrite (digit_not_space c Hc).
  rewrite !(digit_ne c) by (exact Hc || reflexivity). reflexivity.
Qed.
Lemma number_bare i : bare (number i).
Proof. apply digits_bare, string_of_N_digits. Qed.
Lemma bare_lit s : sforall (fun c => negb (is_space c) && negb (Ascii.eqb c SQc) && negb (Ascii.eqb c DQc)) s = true -> bare s.
Proof. exact (fun H => H). Qed.

Lemma uci_text s : s <> EmptyString -> uci_value (VStr s) = Some (VStr s).
Proof. destruct s; [congruence|reflexivity]. Qed.

(** ** Routes *)
Lemma route_object i r : route_ok i r ->
  exists type, (type = "route" \/ type = "route6") /\
  object_rt r (name_or "name" ("route" +++ number i) r) type (route_section r i) (fun s => route_back s i).
Proof.
  intros (Hnd & (dest & Hdest & net & -> & Hlo & Hle & Hsix) & (dev & Hdev & Hdne & Hdp) & (next & Hnext & Hnp) & (cost & Hcost) & Hname & Habs & Hf).
  destruct (name_cases _ _ _ Hname) as (n & -> & _ & Hvor & Hn).
  set (type := if ip_six net then "route6" else "route"). exists type. split; [unfold type; destruct (ip_six net); auto|].
  set (target := if ip_six net then if_network net else if_ip net).
  set (r1 := ddel "cost" (ddel "next" (ddel "device" (ddel "name" (ddel "destination" r))))).
  assert (Hr1 : NoDup (dkeys r1)) by (unfold r1; nodup).
  set (r2 := dupdate r1 [(".type", VStr type); (".name", VStr n); ("interface", VStr dev); ("target", VStr target); ("gateway", VStr next); ("metric", VInt cost)]).
  set (X := if ip_six net then r2 else dset "netmask" (VStr (if_netmask net)) r2).
  assert (Hr2 : NoDup (dkeys r2)) by (unfold r2; nodup).
  assert (HX : NoDup (dkeys X)) by (unfold X; destruct (ip_six net); nodup).
  assert (Hsec : route_section r i = Ok (ssort X)).
  { unfold route_section, dgetE. rewrite Hdest. cbn [bind]. unfold interface_of. rewrite interface_str by (split; assumption). cbn [bind].
    fold target type. replace (VStr (if ip_six net then "route6" else "route")) with (VStr type) by (unfold type; destruct (ip_six net); reflexivity).
    assert (Ev : vor (pop_or "name" VNull (ddel "destination" r)) (route_auto_name i) = VStr n).
    { unfold pop_or. dg. ev. exact Hvor. }
    rewrite Ev. dg. ev. rewrite Hdev. cbn [bind]. dg. ev. rewrite Hnext. cbn [bind]. dg. ev. rewrite Hcost. cbn [bind].
    fold r1. reflexivity. }
  rewrite Hsec.
  assert (Hget : forall k, dget k (ssort X) =
    if String.eqb k "netmask" then (if ip_six net then None else Some (VStr (if_netmask net)))
    else if String.eqb k "metric" then Some (VInt cost) else if String.eqb k "gateway" then Some (VStr next)
    else if String.eqb k "target" then Some (VStr target) else if String.eqb k "interface" then Some (VStr dev)
    else if String.eqb k ".name" then Some (VStr n) else if String.eqb k ".type" then Some (VStr type)
    else if String.eqb k "cost" then None else if String.eqb k "next" then None else if String.eqb k "device" then None
    else if String.eqb k "name" then None else if String.eqb k "destination" then None else dget k r).
  { intros k. rewrite dget_ssort by exact HX. unfold X. destruct (ip_six net); unfold r2, r1; dg; [|reflexivity].
    field k "netmask"; [|ev; reflexivity]. ev. apply Habs. cbn. auto 10. }
  assert (Htp : plain target /\ target <> EmptyString).
  { unfold target. destruct (ip_six net) eqn:E.
    - rewrite net_str by (apply Hsix; reflexivity). split; [apply if_str_plain|apply if_str_nonempty].
    - unfold if_ip. rewrite E. split; [apply addr_plain, print_addr_chars|apply print_ipv4_nonempty]. }
  eapply object_intro; [reflexivity| |unfold sec_name; rewrite Hget; reflexivity|rewrite Hget; reflexivity|unfold type; destruct (ip_six net); discriminate|unfold type; destruct (ip_six net); discriminate|].
  - eapply section_ok_intro; [apply ssort_NoDup, HX|rewrite Hget; reflexivity|unfold type; destruct (ip_six net); wordlit|rewrite Hget; reflexivity| |].
    + eapply name_bare; [exact Hn|]. apply bare_app; [reflexivity|apply number_bare].
    + intros k v. rewrite Hget. fields k; try discriminate.
      * destruct (ip_six net) eqn:E; [discriminate|]. intros Ek _ _. injection Ek as <-. split; [wordlit|]. apply addr_plain. apply print_addr_chars.
      * intros Ek _ _. injection Ek as <-. split; [wordlit|]. apply plain_Z.
      * intros Ek _ _. injection Ek as <-. split; [wordlit|]. exact Hnp.
      * intros Ek _ _. injection Ek as <-. split; [wordlit|]. apply Htp.
      * intros Ek _ _. injection Ek as <-. split; [wordlit|]. exact Hdp.
      * intros Hk _ _. eapply field_writes; [exact Hf|notin|exact Hk].
  - intros s' Hnd' Gt Gn G. unfold route_back. dget_now. rewrite Gn. cbn [bind]. unfold set_unless. unfold route_auto_name. fold (number i). rewrite py_eq_text.
    set (s1 := if String.eqb n ("route" +++ number i) then ddel ".name" s' else dset "name" (VStr n) (ddel ".name" s')).
    assert (Hs1 : NoDup (dkeys s1)) by (unfold s1; destruct (String.eqb _ _); nodup).
    assert (G1 : forall k, k <> "name" -> dget k s1 = if String.eqb k ".name" then None else dget k s').
    { intros k Hk. unfold s1. destruct (String.eqb n _); dg; ev; reflexivity. }
    assert (G1n : dget "name" s1 = dget "name" r).
    { unfold s1. destruct Hn as [[Hn ->]|(Hn & Hne' & _)]; ev; dg; ev; [|congruence]. rewrite G. ev. rewrite Hget. ev. congruence. }
    assert (Gtarget : dget "target" s1 = Some (VStr target)).
    { rewrite G1 by discriminate. ev. rewrite G. ev. rewrite Hget. ev. apply uci_text, Htp. }
    rewrite Gtarget. cbn [bind].
    assert (Gmask : dget "netmask" (ddel "target" s1) = if ip_six net then None else Some (VStr (if_netmask net))).
    { dg. ev. rewrite G1 by discriminate. ev. rewrite G. ev. rewrite Hget. ev. destruct (ip_six net) eqn:E; [reflexivity|].
      apply uci_text. unfold if_netmask. rewrite E. apply print_ipv4_nonempty. }
    rewrite Gmask.
    assert (Gdev : dget "interface" (ddel "netmask" (ddel "target" s1)) = Some (VStr dev)).
    { dg. ev. rewrite G1 by discriminate. ev. rewrite G. ev. rewrite Hget. ev. apply uci_text, Hdne. }
    rewrite Gdev. cbn [bind].
    assert (Enet : interface_of (match (if ip_six net then None else Some (VStr (if_netmask net))) with
        | Some m => VStr (py_str (VStr target) +++ "/" +++ py_str m) | None => VStr target end) = Ok net).
    { unfold target. destruct (ip_six net) eqn:E; cbn [interface_of py_str].
      - rewrite net_str by (apply Hsix; reflexivity). rewrite interface_str by (split; rewrite E; assumption). reflexivity.
      - unfold if_ip, if_netmask. rewrite E. cbn [print_addr width]. cbn [width] in Hlo, Hle. rewrite interface_netmask by assumption.
        destruct net as [six a p]. cbn in E |- *. rewrite E. reflexivity. }
    rewrite Enet. cbn [bind].
    set (s2 := ddel "interface" (ddel "netmask" (ddel "target" s1))).
    assert (Hs2 : NoDup (dkeys s2)) by (unfold s2; nodup).
    assert (Enext : pop_or "gateway" (VStr EmptyString) s2 = VStr next).
    { unfold pop_or, s2. dg. ev. rewrite G1 by discriminate. ev. rewrite G. ev. rewrite Hget. ev. destruct next; reflexivity. }
    rewrite Enext.
    assert (Ecost : pop_or "metric" (VInt 0) (ddel "gateway" s2) = VStr (string_of_Z cost)).
    { unfold pop_or, s2. dg. ev. rewrite G1 by discriminate. ev. rewrite G. ev. rewrite Hget. ev. reflexivity. }
    rewrite Ecost.
    match goal with |- context [dupdate ?a ?b] => set (s3 := dupdate a b) end.
    assert (Hs3 : NoDup (dkeys s3)) by (unfold s3; nodup).
    assert (G3 : forall k, dget k s3 = if String.eqb k "cost" then Some (VStr (string_of_Z cost)) else if String.eqb k "next" then Some (VStr next)
       else if String.eqb k "destination" then Some (VStr (if_str net)) else if String.eqb k "device" then Some (VStr dev)
       else if String.eqb k "metric" then None else if String.eqb k "gateway" then None else if String.eqb k "interface" then None
       else if String.eqb k "netmask" then None else if String.eqb k "target" then None else dget k s1).
    { intros k. unfold s3, s2. dg. reflexivity. }
    assert (E3t : dget ".type" s3 = Some (VStr type)) by (rewrite G3; ev; rewrite G1 by discriminate; ev; exact Gt).
    rewrite E3t. cbn [bind].
    destruct (type_cast_pointwise route_props (ddel ".type" s3) (fun k => dget k r)) as (b' & Hb & Hnb & Hs').
    + nodup.
    + intros k. dg. rewrite G3. fields k; try dotted Hf.
      * eexists. split; [cbn; rewrite int_of_string_Z; reflexivity|exact Hcost].
      * eexists. split; [reflexivity|exact Hnext].
      * eexists. split; [reflexivity|exact Hdest].
      * eexists. split; [reflexivity|exact Hdev].
      * apply Habs; cbn; auto 10.
      * apply Habs; cbn; auto 10.
      * apply Habs; cbn; auto 10.
      * apply Habs; cbn; auto 10.
      * apply Habs; cbn; auto 10.
      * field k "name".
        -- rewrite G1n. destruct (dget "name" r) as [v|] eqn:Ev; [|reflexivity]. eexists. split; reflexivity.
        -- rewrite G1 by assumption. fields k; try dotted Hf. rewrite G, Hget. ev. others k Hnd Hf.
    + exists b'. split; [exact Hb|]. apply same_of_map, Hs'.
Qed.

(** ** Rules *)
Lemma rule_object i r : rule_ok i r ->
  exists type, (type = "rule" \/ type = "rule6") /\
  object_rt r (name_or "name" ("rule" +++ number i) r) type (rule_section r i) (fun s => rule_back s i).
Proof.
  intros (Hnd & Hsrc & Hdst & Hname & Hf).
  destruct (name_cases _ _ _ Hname) as (n & -> & _ & Hvor & Hn).
  assert (Hnet : forall k, optional k r network_text -> exists o, opt_network k r = Ok o).
  { intros k H. unfold optional, network_text, opt_network in *. destruct (dget k r); [|eauto].
    destruct H as (s & m & -> & E). cbn. rewrite E. cbn. eauto. }
  destruct (Hnet _ Hsrc) as (so & Es). destruct (Hnet _ Hdst) as (dn & Ed).
  set (six := match dn with Some n => ip_six n | None => match so with Some n => ip_six n | None => false end end).
  set (type := if six then "rule6" else "rule"). exists type. split; [unfold type; destruct six; auto|].
  set (X := dupdate (ddel "name" r) [(".type", VStr type); (".name", VStr n)]).
  assert (Hsec : rule_section r i = Ok (ssort X)).
  { unfold rule_section. rewrite Es, Ed. cbn [bind]. fold six. unfold rule_auto_name. fold (number i). rewrite Hvor.
    unfold X, type. destruct six; reflexivity. }
  rewrite Hsec. assert (HX : NoDup (dkeys X)) by (unfold X; nodup).
  assert (Hget : forall k, dget k (ssort X) = if String.eqb k ".name" then Some (VStr n) else if String.eqb k ".type" then Some (VStr type)
     else if String.eqb k "name" then None else dget k r) by (intros k; unfold X; dg; reflexivity).
  eapply object_intro; [reflexivity| |unfold sec_name; rewrite Hget; reflexivity|rewrite Hget; reflexivity|unfold type; destruct six; discriminate|unfold type; destruct six; discriminate|].
  - eapply section_ok_intro; [apply ssort_NoDup, HX|rewrite Hget; reflexivity|unfold type; destruct six; wordlit|rewrite Hget; reflexivity| |].
    + eapply name_bare; [exact Hn|]. apply bare_app; [reflexivity|apply number_bare].
    + intros k v. rewrite Hget. fields k; try discriminate. intros Hk _ _. eapply field_writes; [exact Hf|notin|exact Hk].
  - intros s' Hnd' Gt Gn G. unfold rule_back. dget_now. rewrite Gn. cbn [bind]. unfold set_unless, rule_auto_name. fold (number i). rewrite py_eq_text.
    set (s1 := if String.eqb n ("rule" +++ number i) then ddel ".name" s' else dset "name" (VStr n) (ddel ".name" s')).
    assert (Hs1 : NoDup (dkeys s1)) by (unfold s1; destruct (String.eqb _ _); nodup).
    assert (G1 : forall k, k <> "name" -> dget k s1 = if String.eqb k ".name" then None else dget k s').
    { intros k Hk. unfold s1. destruct (String.eqb n _); dg; ev; reflexivity. }
    assert (G1n : dget "name" s1 = dget "name" r).
    { unfold s1. destruct Hn as [[Hn ->]|(Hn & Hne' & _)]; ev; dg; ev; [|congruence]. rewrite G. ev. rewrite Hget. ev. congruence. }
    assert (G1t : dget ".type" s1 = Some (VStr type)) by (rewrite G1 by discriminate; ev; exact Gt).
    rewrite G1t. cbn [bind].
    destruct (type_cast_pointwise rule_props (ddel ".type" s1) (fun k => dget k r)) as (b' & Hb & Hnb & Hs').
    + nodup.
    + intros k. dg. field k ".type"; [dotted Hf|]. field k "name".
      * rewrite G1n. destruct (dget "name" r) as [v|] eqn:Ev; [|reflexivity]. eexists. split; reflexivity.
      * rewrite G1 by assumption. fields k; try dotted Hf. rewrite G, Hget. ev. others k Hnd Hf.
    + exists b'. split; [exact Hb|]. apply same_of_map, Hs'.
Qed.

(** ** WireGuard peers *)
Lemma contains_app_r sub a b : contains sub b = true -> contains sub (a +++ b) = true.
Proof. intros H. apply contains_true in H as (x & y & ->). apply contains_true. exists (a +++ x), y. rewrite app_assoc_s. reflexivity. Qed.
Lemma replace_absent c old new : forall s, contains (String c old) s = false -> replace (String c old) new s = s.
Proof.
  induction s as [|d s IH]; intros H; [reflexivity|]. cbn [contains] in H. apply orb_false_iff in H as [H1 H2].
  rewrite replace_miss by exact H1. f_equal. apply IH, H2.
Qed.
Lemma peer_object i p : peer_ok i p ->
  exists type, startswith "wireguard_" type = true /\
  object_rt p (peer_name i p) type (peer_section p i) peer_back.
Proof.
  intros (Hnd & (s & Hs & Hbare & Hhy & Hwg) & Hport & Hf).
  exists ("wireguard_" +++ s). split; [apply startswith_app|].
  assert (Hrep : replace "-" "_" s = s) by (apply replace_absent; exact Hhy).
  unfold peer_name. assert (En : name_or "interface" EmptyString p = s) by (unfold name_or; rewrite Hs; reflexivity). rewrite En. clear En.
  set (n := "wgpeer_" +++ s +++ (if (1 <? i)%nat then "_" +++ number i else EmptyString)).
  set (X := dupdate (ddel "interface" p) [(".type", VStr ("wireguard_" +++ s)); (".name", VStr n)]).
  assert (HX : NoDup (dkeys X)) by (unfold X; nodup).
  assert (Hbn : bare n).
  { unfold n. apply bare_app; [reflexivity|]. apply bare_app; [exact Hbare|]. destruct (1 <? i)%nat; [|reflexivity].
    apply bare_app; [reflexivity|apply number_bare]. }
  assert (Hsec : peer_section p i = Ok (ssort X)).
  { unfold peer_section, dgetE. rewrite Hs. cbn [bind as_str]. rewrite Hrep.
    assert (En : (if (1 <? i)%nat then ("wgpeer_" +++ s) +++ "_" +++ string_of_nat i else "wgpeer_" +++ s) = n).
    { unfold n. fold (number i). destruct (1 <? i)%nat; [rewrite app_assoc_s; reflexivity|]. rewrite app_nil_s. reflexivity. }
    rewrite En. fold X.
    assert (Ep : negb (truthy (dgetN "endpoint_host" X)) && dmem "endpoint_port" X = false).
    { unfold dgetN, dmem, X. dg. ev. destruct Hport as [->|Hh]; [rewrite andb_false_r; reflexivity|].
      destruct (dget "endpoint_host" p) as [v|] eqn:Eh; [|congruence].
      destruct (Hf "endpoint_host" v (dget_In _ _ _ Eh)) as (_ & _ & Hv); [notin|]. cbn in Hv.
      destruct v; try contradiction; [rewrite truthy_text by apply Hv; reflexivity|]. destruct l; [destruct Hv; congruence|reflexivity]. }
    rewrite Ep. reflexivity. }
  rewrite Hsec.
  assert (Hget : forall k, dget k (ssort X) = if String.eqb k ".name" then Some (VStr n) else if String.eqb k ".type" then Some (VStr ("wireguard_" +++ s))
     else if String.eqb k "interface" then None else dget k p) by (intros k; unfold X; dg; reflexivity).
  eapply object_intro; [reflexivity| |unfold sec_name; rewrite Hget; reflexivity|rewrite Hget; reflexivity|discriminate|discriminate|].
  - eapply section_ok_intro; [apply ssort_NoDup, HX|rewrite Hget; reflexivity| |rewrite Hget; reflexivity|exact Hbn|].
    + split; [discriminate|]. apply bare_app; [reflexivity|exact Hbare].
    + intros k v. rewrite Hget. fields k; try discriminate. intros Hk _ _. eapply field_writes; [exact Hf|notin|exact Hk].
  - intros s' Hnd' Gt Gn G. unfold peer_back. dget_now. rewrite Gn. cbn [bind]. dget_now. rewrite Gt. cbn [bind as_str].
    assert (Er : replace "wireguard_" EmptyString ("wireguard_" +++ s) = s).
    { rewrite replace_hit. cbn [String.append]. apply replace_absent, Hwg. }
    rewrite Er.
    destruct (type_cast_pointwise peer_props (dset "interface" (VStr s) (ddel ".type" (ddel ".name" s'))) (fun k => dget k p)) as (b' & Hb & Hnb & Hs').
    + nodup.
    + intros k. dg. rewrite G, Hget. fields k; try dotted Hf.
      * eexists. split; [reflexivity|exact Hs].
      * others k Hnd Hf.
    + exists b'. split; [exact Hb|]. apply same_of_map, Hs'.
Qed.
