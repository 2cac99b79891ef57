(** * Props_Wireless: wireless interfaces and their encryption (C38). *)
From Verif Require Import PyBase PyLemmas Merge Uci Backend Conv OwrtConv OwrtWireless OwrtInterfaces
  StrLemmas NumLemmas SpecUci SpecConv SpecDevice SpecShapes SpecEncryption SpecWireless ConvLemmas SortLemmas
  RtGeneric RtSystem RtEnc RtWifi RtWifiBack.

(** C38, one interface: its section, and what is read back from the text of it. *)
Theorem C38_wireless_interface : forall n net addressed bridges bridged i w,
  wifi_ok n net addressed bridges w ->
  (forall x, In x bridges -> word x /\ identifier x = x) ->
  dget n bridged = match bridges with [] => None | _ => Some bridges end ->
  dget "name" i = text n -> n <> EmptyString -> plain n ->
  dget "wireless" i = Some (VDict w) -> truthy (dgetN "addresses" i) = addressed ->
  optional "mac" i (fun v => exists s, v = VStr s /\ s <> EmptyString /\ plain s) ->
  optional "disabled" i (fun v => exists x, v = VBool x) ->
  exists s, wifi_section bridged i = Ok (Some s) /\ wifi_shown n addressed bridges i w s /\ section_ok s /\
  forall s', section_reads s s' ->
  exists s2, fix_network bridged (VDict s') = Ok (VDict s2) /\
  forall i0, dget "name" i0 = text n -> dget "network" i0 = net ->
  exists w' i', wifi_back s2 i0 = Ok (w', i') /\ same (VDict w) (VDict w') /\
    forall k, dget k i' = if existsb (String.eqb k) ["mac"; "disabled"]
                          then match dget k i with Some v => Some v | None => dget k i0 end else dget k i0.
Proof.
  intros n net addressed bridges bridged i w Hok Hbr Hb Hnm Hne Hpl Hw Ha Hmac Hdis.
  destruct (wifi_section_ok n net addressed bridges i w Hok Hbr Hnm Hw Ha bridged Hb) as (s & Es & Ns & Hs).
  exists s. split; [exact Es|]. split; [exact Hs|]. split; [eapply wifi_section_good; eauto|].
  intros s' Hr. destruct (section_reads_plain s s' "wifi-iface" Hr) as [Hsr Hg]; [rewrite (Hs ".type"); reflexivity|discriminate|discriminate|].
  destruct (fix_network_ok n net addressed bridges i w Hok Hbr (conj Hne Hpl) s s' Hs (sorted_NoDup _ Hsr) Hg bridged Hb) as (s2 & E2 & N2 & G2).
  exists s2. split; [exact E2|]. intros i0 Hn0 Hnet0.
  destruct (wifi_back_ok n net addressed bridges i w Hok Hbr (conj Hne Hpl) Hmac Hdis s s' Hs Hg s2 i0 N2 G2 Hn0 Hnet0) as (w' & i1 & E & _ & Hsame & G).
  exists w', i1. auto.
Qed.
(** C38: the key of a personal protocol is only in the option key: with another key
    all the other options are the same. *)
Theorem C38_key_elsewhere : forall mode e p key s s',
  NoDup (dkeys e) ->
  dget "protocol" e = text p -> startswith "wep" p = false -> contains "enterprise" p = false -> dmem "key" e = true ->
  enc_section mode e = Ok s -> enc_section mode (dset "key" key e) = Ok s' ->
  forall k, k <> "key" -> dget k s = dget k s'.
Proof.
  intros mode e p key s s' Hn Hp Hw He Hk E E' k Hkk.
  assert (Hne : truthy (VDict (dset "key" key e)) = truthy (VDict e)).
  { destruct e as [|[k0 v0] e]; [discriminate|]. cbn [dset]. destruct (String.eqb "key" k0); reflexivity. }
  assert (Ho : forall x, x <> "key" -> dget x (dset "key" key e) = dget x e) by (intros x Hx; rewrite dget_dset, eqb_neq by exact Hx; reflexivity).
  assert (Nn : NoDup (dkeys (dset "key" key e))) by nodup.
  revert E E'. unfold enc_section. rewrite Hne. unfold dgetN, dgetE. rewrite (Ho "disabled"), (Ho "protocol"), (Ho "cipher") by discriminate. rewrite Hp. unfold text. cbn [bind as_str].
  destruct (negb (truthy (VDict e)) || _); [congruence|].
  destruct (py_eq (VStr p) (VStr "none")); [congruence|]. rewrite Hw, He. cbn [bind].
  assert (G : forall d, NoDup (dkeys d) -> (forall x, x <> "key" -> dget x d = dget x e) -> forall v,
     dget k (copy_opt "key" d "key" (dset "encryption" v (ddel_all ["protocol"; "key"; "cipher"; "disabled"; "acct_server_port"] d))) =
     dget k (copy_opt "key" e "key" (dset "encryption" v (ddel_all ["protocol"; "key"; "cipher"; "disabled"; "acct_server_port"] e)))).
  { intros d Nd Hd v. unfold copy_opt. unfold ddel_all. cbn [fold_left].
    destruct (dget "key" d), (dget "key" e); dg; ev; rewrite ?Hd by exact Hkk; reflexivity. }
  intros E E'. injection E as <-. injection E' as <-.
  destruct (_ && _ && _); [|symmetry; apply G; assumption].
  rewrite !dget_dset. destruct (String.eqb k "encryption"); [reflexivity|]. symmetry. apply G; assumption.
Qed.

(** ** An access point of the bridge lan, and one with its own networks *)
Definition client : dict :=
  [("radio", VStr "radio0"); ("mode", VStr "access_point"); ("ssid", VStr "open wisp"); ("hidden", VBool true); ("rts_threshold", VInt 1300);
   ("ieee80211r", VBool true); ("reassociation_deadline", VInt 2000);
   ("encryption", VDict [("protocol", VStr "wpa2_personal"); ("cipher", VStr "tkip+ccmp"); ("key", VStr "pass phrase"); ("ieee80211w", VStr "1")])].
Definition corporate : dict :=
  [("radio", VStr "radio1"); ("mode", VStr "access_point"); ("ssid", VStr "corp"); ("network", VList [VStr "lan"; VStr "guest"]);
   ("encryption", VDict [("protocol", VStr "wpa2_enterprise"); ("cipher", VStr "auto"); ("key", VStr "secret"); ("server", VStr "192.168.0.1"); ("port", VInt 1812);
                         ("acct_server", VStr "192.168.0.2"); ("acct_server_port", VInt 1813)])].
Ltac listed := let k := fresh in let v := fresh in let H := fresh in
  intros k v H; cbn [In] in H;
  repeat (destruct H as [H|H]; [injection H as <- <-; try (intros; exfalso; cbn [In] in *; tauto)|]); try contradiction.
Ltac texts := let x := fresh in let H := fresh in intros x H; cbn [In] in H;
  repeat (destruct H as [<-|H]; [eexists; split; [reflexivity|apply plainb_plain; reflexivity]|]); contradiction.
Ltac survive := listed; intros _; (split; [wordlit|split; [reflexivity|]]);
  first [exact I | apply plainb_plain; reflexivity | split; [discriminate|texts]].
Ltac absent := let k := fresh in let H := fresh in intros k H; cbn [In] in H; repeat (destruct H as [<-|H]; [reflexivity|]); contradiction.
Ltac nodups := repeat (constructor; [cbn [In]; intuition discriminate|]); constructor.
Ltac each := let j := fresh "j" in let d := fresh "d" in let H := fresh in intros j d H;
  match type of H with nth_error ?l _ = _ => let l' := eval vm_compute in l in change l with l' in H end;
  repeat (destruct j as [|j]; [cbn [nth_error] in H; injection H as <-|cbn [nth_error] in H]); try (destruct j; discriminate H).

Ltac keys := let k := fresh "k" in let H := fresh in intros k H; apply dmem_In in H; cbn [dkeys map fst In] in H;
  repeat (destruct H as [<-|H]; [cbn; tauto|]); contradiction.
Example client_ok : wifi_ok "wlan0" None false ["lan"] client.
Proof.
  split; [nodups|]. split; [eexists; split; [reflexivity|split; [discriminate|apply plainb_plain; reflexivity]]|].
  split; [eexists; split; reflexivity|]. split; [reflexivity|]. split.
  { intros k H. cbn [In map fst distances] in H. repeat (destruct H as [<-|H]; [first [exact I|eexists; split; [reflexivity|reflexivity]]|]). contradiction. }
  split; [discriminate|]. split.
  { eexists. split; [reflexivity|]. split; [|absent]. right. split; [nodups|]. exists "wpa2_personal". split; [reflexivity|]. split; [reflexivity|].
    split; [keys|]. split; [survive|]. split; [eexists; split; [reflexivity|split; [wordlit|discriminate]]|]. split; [discriminate|discriminate]. }
  split; [discriminate|]. split; [absent|unfold client, corporate, distances; cbn [app map fst]; survive].
Qed.
Example corporate_ok : wifi_ok "wlan1" None true [] corporate.
Proof.
  split; [nodups|]. split; [eexists; split; [reflexivity|split; [discriminate|apply plainb_plain; reflexivity]]|].
  split; [eexists; split; reflexivity|]. split; [reflexivity|]. split.
  { intros k H. cbn [In map fst distances] in H. repeat (destruct H as [<-|H]; [first [exact I|eexists; split; [reflexivity|reflexivity]]|]). contradiction. }
  split.
  { exists ["lan"; "guest"]. split; [reflexivity|]. split; [discriminate|]. split; [discriminate|]. split; [discriminate|]. split; [discriminate|].
    intros x [<-|[<-|[]]]; (split; [wordlit|reflexivity]). }
  split.
  { eexists. split; [reflexivity|]. split; [|absent]. right. split; [nodups|]. exists "wpa2_enterprise". split; [reflexivity|]. split; [reflexivity|].
    split; [keys|]. split; [survive|]. split; [eexists; split; [reflexivity|split; [wordlit|discriminate]]|]. split; [discriminate|].
    intros _. split; [reflexivity|]. split; discriminate. }
  split; [discriminate|]. split; [absent|unfold client, corporate, distances; cbn [app map fst]; survive].
Qed.
Print Assumptions C38_wireless_interface.
Print Assumptions C38_key_elsewhere.
