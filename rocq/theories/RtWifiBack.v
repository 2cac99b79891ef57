(** * RtWifiBack: wireless interfaces read back (proofs only). *)
From Verif Require Import PyBase PyLemmas StrLemmas NumLemmas Merge Backend Conv OwrtConv OwrtWireless SpecUci SpecConv SpecDevice
  SpecShapes SpecEncryption SpecWireless ConvLemmas SortLemmas RtStage RtBack RtGeneric RtSystem RtNetwork RtRadio RtTrip RtAddress RtInterface RtIfOk VpnProofs FilesProofs RtEnc RtWifi.

Lemma wifi_option_back_ok w o a b : NoDup (dkeys w) -> a <> b -> dget b w = None -> dget a w = uopt o -> match o with None => True | Some v => exists z, v = VInt z end ->
  exists w', wifi_option_back w (a, b) = Ok w' /\ NoDup (dkeys w') /\
    forall k, dget k w' = if String.eqb k b then o else if String.eqb k a then None else dget k w.
Proof.
  intros Hw Hab Hb Ha Ho. unfold wifi_option_back. cbn [fst snd]. rewrite Ha. destruct o as [v|].
  - destruct Ho as (z & ->). change (uopt (Some (VInt z))) with (Some (VStr (string_of_Z z))); cbn iota; unfold py_int. rewrite int_of_string_Z. cbn [bind]. eexists. split; [reflexivity|]. split; [nodup|]. intros k. dg. reflexivity.
  - cbn [uopt] in Ha |- *. exists w. split; [reflexivity|]. split; [exact Hw|]. intros k. fields k; congruence.
Qed.
Lemma wifi_typecast_ok w d : NoDup (dkeys d) -> (forall k, In k ("reassociation_deadline" :: wifi_bools) -> dget k d = uopt (dget k w)) ->
  (forall k, In k wifi_bools -> optional k w (fun v => exists b, v = VBool b)) ->
  optional "reassociation_deadline" w (fun v => exists z, v = VInt z) ->
  exists d', wifi_typecast d = Ok d' /\ NoDup (dkeys d') /\
    forall k, dget k d' = if existsb (String.eqb k) ("reassociation_deadline" :: wifi_bools) then dget k w else dget k d.
Proof.
  intros Hd G Hb Hr. unfold wifi_typecast. destruct (bool_fields_ok wifi_bools d) as [N1 G1]; [repeat constructor; cbn; intuition discriminate|exact Hd|].
  set (d1 := fold_left bool_field wifi_bools d) in *.
  assert (G2 : forall k, dget k d1 = if existsb (String.eqb k) wifi_bools then dget k w else dget k d).
  { intros k. rewrite G1. destruct (existsb (String.eqb k) wifi_bools) eqn:E; [|reflexivity]. apply existsb_in in E. rewrite G by (right; exact E).
    specialize (Hb k E). unfold optional in Hb. destruct (dget k w) as [v|]; [|reflexivity]. destruct Hb as (b & ->). destruct b; reflexivity. }
  assert (E : dget "reassociation_deadline" d1 = uopt (dget "reassociation_deadline" w)).
  { rewrite G2. change (existsb (String.eqb "reassociation_deadline") wifi_bools) with false. apply G. left. reflexivity. }
  rewrite E. unfold optional in Hr. destruct (dget "reassociation_deadline" w) as [v|] eqn:Ev.
  - destruct Hr as (z & ->). change (uopt (Some (VInt z))) with (Some (VStr (string_of_Z z))); cbn iota; unfold py_int. rewrite int_of_string_Z. eexists. split; [reflexivity|]. split; [nodup|].
    intros k. dg. cbn [existsb]. destruct (String.eqb_spec k "reassociation_deadline") as [->|]; cbn [orb]; [symmetry; exact Ev|apply G2].
  - cbn [uopt]. exists d1. split; [reflexivity|]. split; [exact N1|]. intros k. cbn [existsb].
    destruct (String.eqb_spec k "reassociation_deadline") as [->|]; cbn [orb]; [rewrite E; symmetry; exact Ev|apply G2].
Qed.
Lemma texts_eq a b : (forall x, In x a -> word x) -> (forall x, In x b -> word x) -> a <> [] -> b <> [] ->
  py_eq (VList (map VStr a)) (VList (map VStr b)) = true -> a = b.
Proof.
  intros Ha Hb Ha0 Hb0 H. apply survives_py_eq in H.
  - injection H as H. revert H. clear. revert b. induction a as [|x a IH]; intros [|y b] H; try discriminate; [reflexivity|]. cbn in H. injection H as -> H. f_equal. apply IH, H.
  - split; [destruct a; [congruence|discriminate]|]. intros x Hx. apply in_map_iff in Hx as (y & <- & Hy). exists y. split; [reflexivity|apply bare_plain, Ha, Hy].
  - split; [destruct b; [congruence|discriminate]|]. intros x Hx. apply in_map_iff in Hx as (y & <- & Hy). exists y. split; [reflexivity|apply bare_plain, Hb, Hy].
Qed.

Section WifiBack.
Variables (n : string) (net : option val) (addressed : bool) (bridges : list string) (i w : dict).
Hypothesis Hok : wifi_ok n net addressed bridges w.
Hypothesis Hbr : forall x, In x bridges -> word x /\ identifier x = x.
Hypothesis Hn : n <> EmptyString /\ plain n.
Hypothesis Hmac : optional "mac" i (fun v => exists s, v = VStr s /\ s <> EmptyString /\ plain s).
Hypothesis Hdis : optional "disabled" i (fun v => exists x, v = VBool x).
Variables (s s' : dict).
Hypothesis Hsh : wifi_shown n addressed bridges i w s.
Hypothesis Ns' : NoDup (dkeys s').
Hypothesis G : forall k, dget k s' = if String.eqb k ".type" || String.eqb k ".name" then dget k s
        else if startswith "." k then None else uopt (dget k s).
Definition left_out : bool := match dget "network" w, bridges with None, _ :: _ => true | _, _ => false end.

Lemma read_ifname : dget "ifname" s' = Some (VStr n).
Proof. rewrite G. ev. cbn [orb]. rewrite (Hsh "ifname"). unfold distances. cbn [app dget]. ev. apply uopt_text, Hn. Qed.
Lemma read_network : dget "network" s' = uopt (text (join " " (networks n addressed bridges w))).
Proof. rewrite G. ev. cbn [orb]. rewrite (Hsh "network"). cbn [app dget]. ev. reflexivity. Qed.
Lemma fix_network_ok bridged : dget n bridged = match bridges with [] => None | _ => Some bridges end ->
  exists s2, fix_network bridged (VDict s') = Ok (VDict s2) /\ NoDup (dkeys s2) /\
    forall k, dget k s2 = if left_out && String.eqb k "network" then None else dget k s'.
Proof.
  intros Hb. unfold fix_network. cbn [as_dict bind]. rewrite read_ifname. cbn [str_key bind]. rewrite Hb. unfold left_out.
  destruct bridges as [|b bs] eqn:Eb.
  - exists s'. split; [reflexivity|]. split; [exact Ns'|]. intros k. destruct (dget "network" w); reflexivity.
  - rewrite <- Eb in *. assert (Hne : bridges <> []) by congruence.
    assert (Hnw : (exists l, networks n addressed bridges w = l /\ l <> [] /\ (forall x, In x l -> word x) /\
       match dget "network" w with None => l = bridges | Some _ => l <> bridges end)).
    { pose proof Hok as (_ & _ & _ & _ & _ & Hnet & _). unfold networks. destruct (dget "network" w) as [v|].
      - destruct Hnet as (l & -> & Hl0 & Hlb & _ & _ & Hl). rewrite map_texts. exists l. split; [reflexivity|]. split; [exact Hl0|]. split; [intros x Hx; apply Hl, Hx|exact Hlb].
      - exists bridges. split; [rewrite Eb; reflexivity|]. split; [exact Hne|]. split; [intros x Hx; apply Hbr, Hx|reflexivity]. }
    destruct Hnw as (l & El & Hl0 & Hlw & Hll).
    assert (Hj : join " " l <> EmptyString) by (apply String.eqb_neq; rewrite join_empty by exact Hlw; destruct l; [congruence|reflexivity]).
    assert (En : dget "network" s' = Some (VStr (join " " l))) by (rewrite read_network, El; apply uopt_text, Hj).
    unfold pop_or, dgetE. rewrite En. cbn [as_str bind].
    rewrite split_char_of_join by (try exact Hl0; intros x Hx; apply word_nospace, Hlw, Hx).
    destruct (dget "network" w).
    + assert (Ep : py_eq (VList (map VStr bridges)) (VList (map VStr l)) = false).
      { apply Bool.not_true_iff_false. intros X. apply texts_eq in X; [congruence|intros x Hx; apply Hbr, Hx|exact Hlw|exact Hne|exact Hl0]. }
      rewrite Ep. exists s'. split; [reflexivity|]. split; [exact Ns'|reflexivity].
    + subst l. rewrite Hll. rewrite py_eq_refl.
      * exists (ddel "network" s'). split; [reflexivity|]. split; [nodup|]. intros k. dg. reflexivity.
      * apply wf_list. intros x Hx. apply in_map_iff in Hx as (y & <- & _). exact I.
Qed.

Lemma wifi_back_ok s2 i0 : NoDup (dkeys s2) -> (forall k, dget k s2 = if left_out && String.eqb k "network" then None else dget k s') ->
  dget "name" i0 = text n -> dget "network" i0 = net ->
  exists w' i1, wifi_back s2 i0 = Ok (w', i1) /\ NoDup (dkeys w') /\ same (VDict w) (VDict w') /\
    forall k, dget k i1 = if existsb (String.eqb k) ["mac"; "disabled"] then match dget k i with Some v => Some v | None => dget k i0 end else dget k i0.
Proof.
  intros N2 G2 Hname Hnet0.
  pose proof Hok as (Hnd & (r & Hr & Hrne & Hrp) & (m & Hm & Hmm) & Hid & Hdist & Hnet & Henc & H11r & Habs & Hf).
  destruct (mode_cases m Hmm) as (mu & Hmu & Hmu' & Hmne & Hmb & Hap).
  (* the options of the section *)
  assert (Ek : forall k, startswith "." k = false -> k <> "network" -> dget k s2 = uopt (dget k s)).
  { intros k Hd Hk. rewrite G2. ev. rewrite andb_false_r, G, Hd.
    destruct (String.eqb_spec k ".type") as [->|]; [discriminate|]. destruct (String.eqb_spec k ".name") as [->|]; [discriminate|]. reflexivity. }
  unfold wifi_back. unfold dgetE at 1. rewrite G2. ev. rewrite andb_false_r, G. ev. cbn [orb]. rewrite (Hsh ".name"). cbn [app dget]. ev. cbn [bind text].
  unfold dgetE at 1. rewrite Hname. cbn [bind text wifi_auto_name as_str]. change (uci_name n) with (identifier n).
  unfold set_unless. rewrite py_eq_text.
  set (a1 := if String.eqb (wifi_name n w) ("wifi_" +++ identifier n) then ddel ".name" s2 else dset "id" (VStr (wifi_name n w)) (ddel ".name" s2)).
  assert (N1 : NoDup (dkeys a1)) by (unfold a1; match goal with |- context [if ?c then _ else _] => destruct c end; nodup).
  assert (G1 : forall k, dget k a1 = if String.eqb k "id" then dget "id" w else if String.eqb k ".name" then None else dget k s2).
  { intros k. field k "id".
    - unfold a1, wifi_name, name_or. destruct (dget "id" w) as [v|] eqn:Ei.
      + destruct Hid as (x & -> & Hx & Hxa). ev. dg. ev. reflexivity.
      + ev. dg. ev. rewrite Ek by (reflexivity || discriminate). rewrite (Hsh "id"). reflexivity.
    - unfold a1. match goal with |- context [dget k (if ?c then _ else _)] => destruct c end; dg; ev; reflexivity. }
  unfold dgetE at 1. rewrite G1. ev. rewrite G2. ev. rewrite andb_false_r, G. ev. cbn [orb]. rewrite (Hsh ".type"). cbn [app dget]. ev. cbn [bind text].
  unfold dgetE at 1. dg. ev. rewrite G1. ev. rewrite Ek by (reflexivity || discriminate). rewrite (Hsh "device"). cbn [app dget]. ev. rewrite Hr. change (uopt (Some (VStr r))) with (uopt (text r)). rewrite uopt_text by exact Hrne. cbn [bind].
  set (a2 := dset "radio" (VStr r) (ddel "device" (ddel ".type" a1))). assert (Na2 : NoDup (dkeys a2)) by (unfold a2; nodup).
  assert (Ga2 : forall k, dget k a2 = if String.eqb k "radio" then dget "radio" w else if String.eqb k "device" then None else if String.eqb k ".type" then None
     else if String.eqb k "id" then dget "id" w else if String.eqb k ".name" then None else dget k s2).
  { intros k. unfold a2. dg. rewrite G1, Hr. reflexivity. }
  unfold dgetE at 1. rewrite Ga2. ev. rewrite Ek by (reflexivity || discriminate). rewrite (Hsh "mode"). cbn [app dget]. ev. rewrite Hm, Hmu. cbn [option_map].
  change (uopt (Some (VStr mu))) with (uopt (text mu)). rewrite uopt_text by exact Hmne. cbn [bind]. unfold str_lookup. rewrite Hmu'. cbn [bind].
  set (a3 := dset "mode" (VStr m) a2). assert (Na3 : NoDup (dkeys a3)) by (unfold a3; nodup).
  assert (Hoo : forall k, In k (map fst distances) -> match dget k w with None => True | Some v => exists z, v = VInt z end).
  { intros k Hk. specialize (Hdist k Hk). unfold optional in Hdist. destruct (dget k w); [destruct Hdist as (z & -> & _); eauto|exact I]. }
  unfold wifi_options_back. cbn [foldM].
  destruct (wifi_option_back_ok a3 (dget "ack_distance" w) "distance" "ack_distance") as (b1 & -> & Nb1 & Gb1); [exact Na3|discriminate| | |apply Hoo; cbn; tauto|].
  { unfold a3. dg. ev. rewrite Ga2. ev. rewrite Ek by (reflexivity || discriminate). rewrite (Hsh "ack_distance"). reflexivity. }
  { unfold a3. dg. ev. rewrite Ga2. ev. rewrite Ek by (reflexivity || discriminate). rewrite (Hsh "distance"). reflexivity. }
  cbn [bind].
  destruct (wifi_option_back_ok b1 (dget "rts_threshold" w) "rts" "rts_threshold") as (b2 & -> & Nb2 & Gb2); [exact Nb1|discriminate| | |apply Hoo; cbn; tauto|].
  { rewrite Gb1. ev. unfold a3. dg. ev. rewrite Ga2. ev. rewrite Ek by (reflexivity || discriminate). rewrite (Hsh "rts_threshold"). reflexivity. }
  { rewrite Gb1. ev. unfold a3. dg. ev. rewrite Ga2. ev. rewrite Ek by (reflexivity || discriminate). rewrite (Hsh "rts"). reflexivity. }
  cbn [bind].
  destruct (wifi_option_back_ok b2 (dget "frag_threshold" w) "frag" "frag_threshold") as (b3 & -> & Nb3 & Gb3); [exact Nb2|discriminate| | |apply Hoo; cbn; tauto|].
  { rewrite Gb2. ev. rewrite Gb1. ev. unfold a3. dg. ev. rewrite Ga2. ev. rewrite Ek by (reflexivity || discriminate). rewrite (Hsh "frag_threshold"). reflexivity. }
  { rewrite Gb2. ev. rewrite Gb1. ev. unfold a3. dg. ev. rewrite Ga2. ev. rewrite Ek by (reflexivity || discriminate). rewrite (Hsh "frag"). reflexivity. }
  cbn [bind].
  (* all of it so far *)
  assert (Gb : forall k, dget k b3 = if existsb (String.eqb k) ["ack_distance"; "rts_threshold"; "frag_threshold"; "mode"; "radio"; "id"] then dget k w
    else if existsb (String.eqb k) ["distance"; "rts"; "frag"; "device"; ".type"; ".name"] then None else dget k s2).
  { intros k. rewrite Gb3, Gb2, Gb1. unfold a3. dg. rewrite Ga2. cbn [existsb]. fields k; cbn [orb]; try reflexivity. symmetry. exact Hm. }
  assert (Eif : pop_or "ifname" (VStr n) b3 = VStr n).
  { unfold pop_or. rewrite Gb. cbn [existsb]. ev. cbn [orb]. rewrite G2. ev. rewrite andb_false_r, read_ifname. reflexivity. }
  rewrite Eif.
  match goal with |- context [bind ?mm _] => assert (Hn6 : exists b6, mm = Ok b6 /\ NoDup (dkeys b6) /\
     forall k, dget k b6 = if String.eqb k "network" then dget k w else if String.eqb k "ifname" then None else dget k b3) end.
  { assert (En : dget "network" (ddel "ifname" b3) = if left_out then None else uopt (text (join " " (networks n addressed bridges w)))).
    { dg. ev. rewrite Gb. cbn [existsb]. ev. cbn [orb]. rewrite G2. ev. rewrite andb_true_r, read_network. reflexivity. }
    assert (Gd : forall x k, dget k (ddel "network" (ddel "ifname" b3)) = x k -> x k = if String.eqb k "network" then None else if String.eqb k "ifname" then None else dget k b3).
    { intros x k <-. dg. reflexivity. }
    assert (Absent : dget "network" w = None -> dget "network" (ddel "ifname" b3) = None -> exists b6, Ok (ddel "ifname" b3) = Ok b6 /\ NoDup (dkeys b6) /\
       forall k, dget k b6 = if String.eqb k "network" then dget k w else if String.eqb k "ifname" then None else dget k b3).
    { intros X Y. eexists. split; [reflexivity|]. split; [nodup|]. intros k. field k "network"; [rewrite Y, X; reflexivity|]. dg. reflexivity. }
    rewrite En. unfold left_out, networks in En |- *. destruct (dget "network" w) as [v|] eqn:Ew.
    - destruct Hnet as (l & -> & Hl0 & _ & Hjn & Hjnet & Hl). rewrite map_texts.
      assert (Hlw : forall x, In x l -> word x) by (intros x Hx; apply Hl, Hx).
      assert (Hj : join " " l <> EmptyString) by (apply String.eqb_neq; rewrite join_empty by exact Hlw; destruct l; [congruence|reflexivity]).
      rewrite uopt_text by exact Hj. rewrite py_eq_text.
      assert (E1 : String.eqb (join " " l) n = false) by (apply String.eqb_neq; exact Hjn). rewrite E1. cbn [orb].
      assert (E2 : py_eq (VStr (join " " l)) (dgetN "network" i0) = false).
      { unfold dgetN. rewrite Hnet0. destruct net as [u|]; [|reflexivity]. destruct u; try reflexivity. rewrite py_eq_text. apply String.eqb_neq. intros X. apply Hjnet. rewrite <- X. reflexivity. }
      rewrite E2. cbn [as_str bind]. rewrite split_join by exact Hlw. eexists. split; [reflexivity|]. split; [nodup|]. intros k. dg. fields k; congruence.
    - destruct bridges as [|b bs] eqn:Eb; [|apply Absent; [reflexivity|exact En]]. destruct addressed eqn:Ead.
      + cbn [join]. rewrite uopt_text by apply Hn. rewrite py_eq_text, eqb_refl. cbn [orb]. eexists. split; [reflexivity|]. split; [nodup|]. intros k. dg. fields k; congruence.
      + cbn [join]. change (uopt (text EmptyString)) with (@None val). apply Absent; [reflexivity|exact En]. }
  destruct Hn6 as (b6 & -> & Nb6 & Gb6). cbn [bind].
  assert (Emac : dget "macaddr" b6 = dget "mac" i).
  { rewrite Gb6. ev. rewrite Gb. cbn [existsb]. ev. cbn [orb]. rewrite Ek by (reflexivity || discriminate). rewrite (Hsh "macaddr"). cbn [app dget]. ev.
    unfold optional in Hmac. destruct (dget "mac" i) as [v|]; [|reflexivity]. destruct Hmac as (x & -> & Hx & _). apply (uopt_text x Hx). }
  assert (Edis : dget "disabled" (ddel "macaddr" b6) = uopt (Some (dgetN "disabled" i))).
  { dg. ev. rewrite Gb6. ev. rewrite Gb. cbn [existsb]. ev. cbn [orb]. rewrite Ek by (reflexivity || discriminate). rewrite (Hsh "disabled"). cbn [app dget]. ev. reflexivity. }
  rewrite Edis.
  set (b8 := ddel "disabled" (ddel "macaddr" b6)). assert (Nb8 : NoDup (dkeys b8)) by (unfold b8; nodup).
  (* the options that keep their names *)
  set (used := ["network"; "ifname"; "ack_distance"; "rts_threshold"; "frag_threshold"; "mode"; "radio"; "id"; "distance"; "rts"; "frag"; "device"; ".type"; ".name"; "macaddr"; "disabled"]).
  assert (Gk : forall k, existsb (String.eqb k) used = false -> startswith "." k = false -> dget k b8 = uopt (dget k s)).
  { intros k Hu Hd. unfold b8. dg. rewrite Gb6, Gb. unfold used in Hu. cbn [existsb] in Hu |- *.
    repeat match type of Hu with (_ || _)%bool = false => let X := fresh "X" in apply orb_false_iff in Hu as [X Hu]; rewrite X end. cbn [orb].
    apply Ek; [exact Hd|]. apply String.eqb_neq. assumption. }
  assert (Gs : forall k, existsb (String.eqb k) used = false -> k <> "encryption" -> existsb (String.eqb k) encryption_names = false -> dget k s = dget k w).
  { intros k Hu He Hen. assert (Hee : encryption_of w = [] \/ encryption_ok (is_ap w) (encryption_of w)) by (destruct (enc_cases n net addressed bridges w Hok) as [[X _]|[X _]]; auto).
    destruct (enc_outside (is_ap w) (encryption_of w) k Hee He Hen) as [X1 X2].
    rewrite (Hsh k), !dget_app, X1, X2. unfold distances. cbn [map app dget fst snd]. unfold used in Hu. cbn [existsb] in Hu.
    repeat match type of Hu with (_ || _)%bool = false => let X := fresh "X" in apply orb_false_iff in Hu as [X Hu]; rewrite X end. reflexivity. }
  assert (Hout : forall k, In k ("reassociation_deadline" :: wifi_bools) -> existsb (String.eqb k) used = false /\ k <> "encryption" /\
     existsb (String.eqb k) encryption_names = false /\ startswith "." k = false).
  { intros k Hk. assert (F : forallb (fun k => negb (existsb (String.eqb k) used) && negb (String.eqb k "encryption") && negb (existsb (String.eqb k) encryption_names) && negb (startswith "." k))
      ("reassociation_deadline" :: wifi_bools) = true) by (vm_compute; reflexivity).
    rewrite forallb_forall in F. specialize (F k Hk). repeat (apply andb_prop in F as [F ?]). repeat match goal with H : negb _ = true |- _ => apply negb_true_iff in H end.
    repeat split; try assumption. apply String.eqb_neq. assumption. }
  assert (Hty : forall k t v, In (k, t) wifi_fields -> dget k w = Some v -> survives (Some t) v).
  { intros k t v Hk Hv. assert (F : forallb (fun kt => match dget (fst kt) wifi_fields with Some JInt => (match snd kt with JInt => true | _ => false end) | Some JBool => (match snd kt with JBool => true | _ => false end) | _ => false end
       && negb (existsb (String.eqb (fst kt)) (["radio"; "mode"; "id"; "network"; "encryption"] ++ map fst distances))) wifi_fields = true) by (vm_compute; reflexivity).
    rewrite forallb_forall in F. specialize (F (k, t) Hk). cbn [fst snd] in F. apply andb_prop in F as [F1 F2]. apply negb_true_iff in F2.
    destruct (Hf k v (dget_In _ _ _ Hv)) as (_ & _ & Hs); [intros X; apply existsb_in in X; congruence|].
    destruct (dget k wifi_fields) as [[]|]; destruct t; try discriminate F1; exact Hs. }
  destruct (wifi_typecast_ok w b8) as (d9 & -> & Nd9 & Gd9); [exact Nb8| | | |].
  { intros k Hk. destruct (Hout k Hk) as (A & B & C & D). rewrite Gk, Gs by assumption. reflexivity. }
  { intros k Hk. unfold optional. destruct (dget k w) as [v|] eqn:E; [|exact I]. specialize (Hty k JBool v (or_intror (in_map (fun k => (k, JBool)) _ _ Hk)) E).
    destruct v; try contradiction. eauto. }
  { unfold optional. destruct (dget "reassociation_deadline" w) as [v|] eqn:E; [|exact I]. specialize (Hty _ JInt v (or_introl eq_refl) E). destruct v; try contradiction. eauto. }
  cbn [bind].
  assert (Gd : forall k, existsb (String.eqb k) encryption_names = false -> k <> "encryption" -> dget k d9 = dget k w).
  { intros k He Hne. rewrite Gd9. destruct (existsb (String.eqb k) ("reassociation_deadline" :: wifi_bools)) eqn:Ec; [reflexivity|].
    destruct (existsb (String.eqb k) used) eqn:Eu.
    - unfold b8. dg. rewrite Gb6, Gb. unfold used in Eu. cbn [existsb] in Eu |- *. clear - Eu Habs Hf. 
      assert (Hdot : dget ".type" w = None /\ dget ".name" w = None).
      { split; [destruct (dget ".type" w) eqn:E|destruct (dget ".name" w) eqn:E]; try reflexivity; exfalso;
          (edestruct Hf as (_ & X & _); [eapply dget_In, E|unfold distances; cbn [app map fst]; intros Hin; cbn [In] in Hin; intuition discriminate|discriminate X]). }
      destruct Hdot as [Hd1 Hd2].
      assert (Ha : forall j, In j ("ifname" :: "disabled" :: "device" :: "macaddr" :: map snd distances) -> dget j w = None) by exact Habs.
      apply orb_true_iff in Eu. repeat (destruct Eu as [X|Eu]; [apply String.eqb_eq in X; subst k; ev; cbn [orb]; try reflexivity; symmetry; try assumption; apply Ha; cbn; tauto|try apply orb_true_iff in Eu]).
      discriminate.
    - destruct (startswith "." k) eqn:Ed.
      + assert (dget k w = None) as ->.
        { destruct (dget k w) as [v|] eqn:E; [|reflexivity]. exfalso. edestruct Hf as (_ & X & _); [eapply dget_In, E| |congruence].
          intros Hin. assert (forallb (fun k => negb (startswith "." k)) (["radio"; "mode"; "id"; "network"; "encryption"] ++ map fst distances) = true) as F by reflexivity.
          rewrite forallb_forall in F. specialize (F k Hin). rewrite Ed in F. discriminate. }
        unfold b8. dg. rewrite Gb6, Gb. unfold used in Eu. cbn [existsb] in Eu |- *.
        repeat match type of Eu with (_ || _)%bool = false => let X := fresh "X" in apply orb_false_iff in Eu as [X Eu]; rewrite X end. cbn [orb].
        rewrite G2, G, Ed. repeat match goal with X : String.eqb k _ = false |- _ => rewrite X; clear X end. rewrite andb_false_r. reflexivity.
      + rewrite Gk, Gs by assumption. unfold uopt. eapply field_text; [exact Hf| |].
        * unfold used in Eu. cbn [existsb] in Eu. repeat match type of Eu with (_ || _)%bool = false => let X := fresh "X" in apply orb_false_iff in Eu as [X Eu]; apply String.eqb_neq in X end.
          unfold distances. cbn [app map fst]. notin.
        * assert (forall l, existsb (String.eqb k) l = false -> dget k (map (fun k => (k, JBool)) l) = None) as X.
          { induction l as [|a l IH]; [reflexivity|]. cbn [existsb map dget]. destruct (String.eqb k a); [discriminate|exact IH]. }
          unfold wifi_fields. cbn [dget existsb] in Ec |- *. destruct (String.eqb k "reassociation_deadline"); [discriminate|]. apply (X wifi_bools), Ec. }
  set (i1 := match uopt (Some (dgetN "disabled" i)) with Some _ => _ | None => _ end).
  assert (Gi1 : forall k, dget k i1 = if existsb (String.eqb k) ["mac"; "disabled"] then match dget k i with Some v => Some v | None => dget k i0 end else dget k i0).
  { unfold i1, dgetN. unfold optional in Hdis. destruct (dget "disabled" i) as [v|] eqn:Ed.
    - destruct Hdis as (x & ->). change (uopt (Some (VBool x))) with (Some (VStr (bool_digit x))). cbn iota. 
      intros k. dg. rewrite dget_copy_opt, Emac. cbn [existsb]. fields k; cbn [orb]; try reflexivity. rewrite Ed. destruct x; reflexivity.
    - change (uopt (Some VNull)) with (@None val). cbn iota.
      intros k. rewrite dget_copy_opt, Emac. cbn [existsb]. fields k; cbn [orb]; try reflexivity. rewrite Ed. reflexivity. }
  clearbody i1.
  destruct (enc_cases n net addressed bridges w Hok) as [[He1 He2]|(He1 & He2 & He3)].
  - assert (Ed : dget "encryption" d9 = None).
    { rewrite Gd9. change (existsb (String.eqb "encryption") ("reassociation_deadline" :: wifi_bools)) with false. cbn iota. rewrite Gk by reflexivity. rewrite (Hsh "encryption"), He1.
      unfold distances. cbn [app map dget fst snd encryption_own]. ev. rewrite He2. reflexivity. }
    unfold enc_back. rewrite Ed. cbn [bind]. exists d9, i1. split; [reflexivity|]. split; [exact Nd9|]. split; [|exact Gi1].
    apply same_of_map. intros k. field k "encryption"; [congruence|].
    destruct (existsb (String.eqb k) encryption_names) eqn:En; [|apply Gd; assumption].
    rewrite Gd9. destruct (existsb (String.eqb k) ("reassociation_deadline" :: wifi_bools)) eqn:Ec; [reflexivity|].
    assert (Eu : existsb (String.eqb k) used = false /\ startswith "." k = false /\ dget k wifi_fields = None /\ existsb (String.eqb k) (["radio"; "mode"; "id"; "network"; "encryption"] ++ map fst distances) = false).
    { assert (F : forallb (fun k => negb (existsb (String.eqb k) used) && negb (startswith "." k) && (match dget k wifi_fields with None => true | _ => false end)
         && negb (existsb (String.eqb k) (["radio"; "mode"; "id"; "network"; "encryption"] ++ map fst distances))) encryption_names = true) by (vm_compute; reflexivity).
      rewrite forallb_forall in F. apply existsb_in in En. specialize (F k En). repeat (apply andb_prop in F as [F ?]). repeat match goal with H : negb _ = true |- _ => apply negb_true_iff in H end.
      repeat split; try assumption. destruct (dget k wifi_fields); [discriminate|reflexivity]. }
    destruct Eu as (Eu & Eu1 & Eu2 & Eu3). rewrite Gk by assumption.
    assert (Es : dget k s = dget k w).
    { rewrite (Hsh k), He1. cbn [app encryption_own]. unfold distances. cbn [map app dget fst snd]. unfold used in Eu. cbn [existsb] in Eu.
      repeat match type of Eu with (_ || _)%bool = false => let X := fresh "X" in apply orb_false_iff in Eu as [X Eu]; rewrite X end. reflexivity. }
    rewrite Es. unfold uopt. eapply field_text; [exact Hf| |exact Eu2]. intros X. apply existsb_in in X. congruence.
  - destruct (enc_section_ok (VStr mu) (is_ap w) (encryption_of w)) as (uci & _ & Nu & Hu); [rewrite py_eq_text, Hap; unfold is_ap; rewrite Hm; reflexivity|exact He1|].
    assert (Enames : forall k, k = "encryption" \/ In k encryption_names -> dget k d9 = uopt (dget k uci)).
    { intros k Hk. assert (Eu : existsb (String.eqb k) used = false /\ startswith "." k = false /\ existsb (String.eqb k) ("reassociation_deadline" :: wifi_bools) = false).
      { assert (F : forallb (fun k => negb (existsb (String.eqb k) used) && negb (startswith "." k) && negb (existsb (String.eqb k) ("reassociation_deadline" :: wifi_bools)))
           ("encryption" :: encryption_names) = true) by (vm_compute; reflexivity).
        rewrite forallb_forall in F. specialize (F k (match Hk with or_introl e => or_introl (eq_sym e) | or_intror x => or_intror x end)).
        repeat (apply andb_prop in F as [F ?]). repeat match goal with H : negb _ = true |- _ => apply negb_true_iff in H end. auto. }
      destruct Eu as (Eu & Eu1 & Eu2). rewrite Gd9, Eu2, Gk by assumption. f_equal. rewrite (Hsh k), (Hu k), !dget_app.
      unfold distances. cbn [map app dget fst snd]. unfold used in Eu. cbn [existsb] in Eu.
      repeat match type of Eu with (_ || _)%bool = false => let X := fresh "X" in apply orb_false_iff in Eu as [X Eu]; rewrite X end.
      destruct (dget k (encryption_own (is_ap w) (encryption_of w))) as [o|] eqn:Eo; [reflexivity|].
      destruct (dget k (encryption_of w)); [reflexivity|]. destruct Hk as [->|Hk]; [|apply He3, Hk].
      destruct (own_encryption _ _ He1) as (P & HP & _). congruence. }
    destruct (enc_back_ok (is_ap w) (encryption_of w) uci d9) as (e' & w' & -> & Nw' & Ne' & Gw' & Ge'); [exact He1|exact Hu|exact Nd9| |].
    { intros k Hk. apply Enames. assert (F : forallb (fun k => existsb (String.eqb k) ("encryption" :: encryption_names)) enc_names = true) by (vm_compute; reflexivity).
      rewrite forallb_forall in F. specialize (F k Hk). apply existsb_in in F as [X|X]; auto. }
    cbn [bind]. exists (dset "encryption" (VDict e') w'), i1. split; [reflexivity|]. split; [nodup|]. split; [|exact Gi1].
    assert (Gx : forall k, k <> "encryption" -> dget k (dset "encryption" (VDict e') w') = dget k w).
    { intros k Hk. dg. ev. rewrite Gw'. destruct (existsb (String.eqb k) encryption_names) eqn:En.
      - assert (Hwk : dget k w = None) by (apply He3, existsb_in, En). rewrite Hwk. destruct (existsb (String.eqb k) enc_names) eqn:En'; [reflexivity|].
        rewrite Enames by (right; apply existsb_in, En).
        assert (X : In k ["protocol"; "cipher"; "acct_server_port"]).
        { assert (F : forallb (fun k => existsb (String.eqb k) enc_names || existsb (String.eqb k) ["protocol"; "cipher"; "acct_server_port"]) encryption_names = true) by (vm_compute; reflexivity).
          rewrite forallb_forall in F. apply existsb_in in En. specialize (F k En). rewrite En' in F. apply existsb_in, F. }
        clear - X Hu He1. rewrite (Hu k). destruct He1 as [->|(Hnd & p & Hp & Hpm & Hal & Hfe & _)].
        { cbn in X. decompose [or] X; subst; try reflexivity; contradiction. }
        destruct (protocols_known p Hpm) as (u & Hu' & F). unfold encryption_own. rewrite Hp. unfold text. rewrite (pf_none _ _ F). cbn [app dget].
        cbn [In] in X. destruct X as [<-|[<-|[<-|[]]]]; ev; try reflexivity. destruct (is_wep p) eqn:Ew.
        + cbn [dget]. ev. rewrite (not_allowed "acct_server_port" _ _ Hal); [reflexivity|]. rewrite !existsb_app. 
          destruct (is_enterprise p && is_ap w) eqn:Ee; [|destruct (is_wps p); reflexivity].
          exfalso. clear - Ew Ee. unfold is_wep, is_enterprise in *. cbn [existsb] in Ew, Ee. apply andb_prop in Ee as [Ee _].
          repeat (apply orb_true_iff in Ew as [Ew|Ew]; [apply String.eqb_eq in Ew; subst p; discriminate Ee|]). discriminate Ew.
        + destruct (is_enterprise p && is_ap w) eqn:Ee; cbn [dget]; ev; [reflexivity|]. rewrite (not_allowed "acct_server_port" _ _ Hal); [reflexivity|].
          destruct (is_wps p); reflexivity.
      - assert (existsb (String.eqb k) enc_names = false) as ->.
        { apply Bool.not_true_iff_false. intros X. assert (F : forallb (fun k => existsb (String.eqb k) ("encryption" :: encryption_names)) enc_names = true) by (vm_compute; reflexivity).
          rewrite forallb_forall in F. apply existsb_in in X. specialize (F k X). cbn [existsb] in F. rewrite En, orb_false_r in F. apply String.eqb_eq in F. contradiction. }
        apply Gd; assumption. }
    constructor.
    + intros k v Hv. field k "encryption".
      * rewrite He2 in Hv. injection Hv as <-. exists (VDict e'). split; [dg; ev; reflexivity|apply same_of_map, Ge'].
      * rewrite Gx by assumption. exists v. split; [exact Hv|constructor].
    + intros k Hk. rewrite Gx; [exact Hk|]. intros ->. congruence.
Qed.
End WifiBack.
