(** * RtRadio: the round trip of radios (proofs only). *)
From Verif Require Import PyBase PyLemmas StrLemmas NumLemmas Merge Backend Conv OwrtConv OwrtWireless SpecUci SpecConv SpecDevice
  ConvLemmas SortLemmas RtStage RtBack RtGeneric RtSystem RtNetwork.

Lemma dget_rename old new d k : NoDup (dkeys d) -> old <> new ->
  dget k (rename old new d) = if String.eqb k new then (match dget old d with Some v => Some v | None => dget new d end)
    else if String.eqb k old then None else dget k d.
Proof.
  intros Hn Hne. unfold rename. destruct (dget old d) as [v|] eqn:E.
  - rewrite dget_dset. destruct (String.eqb_spec k new) as [->|Hk]; [reflexivity|]. apply dget_ddel, Hn.
  - destruct (String.eqb_spec k new) as [->|Hk]; [reflexivity|]. destruct (String.eqb_spec k old) as [->|_]; [exact E|reflexivity].
Qed.
Lemma NoDup_rename old new d : NoDup (dkeys d) -> NoDup (dkeys (rename old new d)).
Proof. intros H. unfold rename. destruct (dget old d); [|exact H]. nodup. Qed.
Lemma dget_if_dset (b : bool) (j : string) (v : val) (d : dict) k : dget k (if b then dset j v d else d) = if String.eqb k j && b then Some v else dget k d.
Proof. destruct b; [rewrite dget_dset, andb_true_r; reflexivity|rewrite andb_false_r; reflexivity]. Qed.
Lemma NoDup_if_dset (b : bool) (j : string) (v : val) (d : dict) : NoDup (dkeys d) -> NoDup (dkeys (if b then dset j v d else d)).
Proof. destruct b; [apply NoDup_dset|auto]. Qed.

(** The hardware mode or band that is written *)
Definition band_of (dsa : bool) (c : Z) (p : string) (r : dict) : val :=
  if dsa then dgetN "band" r else if (c =? 0)%Z then dgetN "hwmode" r else VStr (implied_hwmode p c).
Lemma set_band_ok (dsa : bool) c p r : NoDup (dkeys r) -> dget "channel" r = Some (VInt c) -> dget "protocol" r = Some (VStr p) ->
  (if dsa then text_at "band" r (fun b => b <> EmptyString /\ plain b) /\ dget "hwmode" r = None
   else dget "band" r = None /\
        (if (c =? 0)%Z then text_at "hwmode" r (fun h => h <> EmptyString /\ plain h) else dget "hwmode" r = None)) ->
  exists r', set_band dsa r = Ok r' /\ NoDup (dkeys r') /\
    forall k, dget k r' = if String.eqb k (if dsa then "band" else "hwmode") then Some (band_of dsa c p r)
      else if String.eqb k "band" || String.eqb k "hwmode" then None else dget k r.
Proof.
  intros Hn Hc Hp H. unfold set_band, pop_or, band_of. destruct dsa.
  - destruct H as ((b & Hb & Hbn & _) & Hh). rewrite Hb, Hh. unfold intermediate_band. rewrite truthy_text by exact Hbn.
    eexists. split; [reflexivity|]. split; [nodup|]. intros k. dg. unfold dgetN. rewrite Hb.
    destruct (String.eqb k "band"); [reflexivity|]. reflexivity.
  - destruct H as (Hb & Hh). rewrite Hb.
    assert (Hhw : intermediate_hwmode (match dget "hwmode" r with Some v => v | None => VNull end) VNull (ddel "band" (ddel "hwmode" r)) = Ok (band_of false c p r)).
    { unfold intermediate_hwmode, band_of, dgetN. destruct (Z.eqb_spec c 0) as [->|Hc0].
      - destruct Hh as (h & -> & Hhn & _). rewrite truthy_text by exact Hhn. reflexivity.
      - rewrite Hh. cbn [truthy]. replace (py_eq VNull (VStr "2g")) with false by reflexivity. replace (py_eq VNull (VStr "5g")) with false by reflexivity.
        unfold hwmode_of_protocol, dgetE. dg. ev. rewrite Hp, Hc. cbn [bind].
        unfold implied_hwmode, is_one_of. cbn [existsb]. rewrite !py_eq_text, !orb_false_r.
        destruct (String.eqb_spec p "802.11a") as [->|H1]; [reflexivity|].
        destruct (String.eqb_spec p "802.11b") as [->|H3]; [reflexivity|].
        destruct (String.eqb_spec p "802.11g") as [->|H4]; [reflexivity|].
        destruct (String.eqb_spec p "802.11ac") as [->|H2]; [reflexivity|]. cbn [orb].
        assert (E : py_eq (VInt c) (VInt 0) = false) by (cbn; apply Z.eqb_neq; exact Hc0).
        rewrite E. reflexivity. }
    rewrite Hhw. cbn [bind]. eexists. split; [reflexivity|]. split; [nodup|]. intros k. dg. unfold band_of.
    destruct (String.eqb k "hwmode"); [reflexivity|]. destruct (String.eqb k "band"); reflexivity.
Qed.

Lemma bare_Z z : bare (string_of_Z z).
Proof.
  eapply sforall_weaken; [|apply string_of_Z_chars]. intros c H. apply orb_prop in H as [H|H].
  - rewrite (digit_not_space c H), !(digit_ne c) by (exact H || reflexivity). reflexivity.
  - apply Ascii.eqb_eq in H. subst c. reflexivity.
Qed.
Lemma num_not_auto c : String.eqb (string_of_Z c) "auto" = false.
Proof. apply eqb_neq. intros E. pose proof (int_of_string_Z c) as X. rewrite E in X. vm_compute in X. discriminate. Qed.
(** Widths *)
Lemma digits_nocontain x y s : sforall is_digit s = true -> is_digit x = false -> contains (String x y) s = false.
Proof.
  intros H Hx. apply contains_nochar. induction s as [|d s IH]; [reflexivity|]. cbn in H. apply andb_prop in H as [H1 H2].
  rewrite nochar_cons, (IH H2), andb_true_r. destruct (Ascii.eqb_spec d x); [congruence|reflexivity].
Qed.
Lemma string_of_Z_pos w : (0 <= w)%Z -> string_of_Z w = string_of_N (Z.to_N w).
Proof. intros H. destruct w; [reflexivity|reflexivity|lia]. Qed.
Definition wide_mode (p : string) (w : Z) : string :=
  if String.eqb p "802.11n" then "HT" +++ string_of_Z w else if String.eqb p "802.11ac" then "VHT" +++ string_of_Z w else "HE" +++ string_of_Z w.
Lemma wide_width p w : wide p -> (0 <= w)%Z ->
  replace "HE" EmptyString (replace "HT" EmptyString (replace "VHT" EmptyString (wide_mode p w))) = string_of_Z w /\
  contains "+" (string_of_Z w) = false /\ contains "-" (string_of_Z w) = false /\ String.eqb (wide_mode p w) "NONE" = false.
Proof.
  intros Hp Hw. rewrite (string_of_Z_pos w Hw). set (d := string_of_N (Z.to_N w)).
  assert (Hd : sforall is_digit d = true) by apply string_of_N_digits.
  assert (Hrep : forall c old, is_digit c = false -> replace (String c old) EmptyString d = d) by (intros c old Hc; apply replace_absent, digits_nocontain; assumption).
  split; [|split; [apply digits_nocontain; [exact Hd|reflexivity]|split; [apply digits_nocontain; [exact Hd|reflexivity]|]]].
  - unfold wide_mode. rewrite (string_of_Z_pos w Hw). fold d. destruct Hp as [-> |[-> | -> ]]; ev.
    + cbn [String.append]. rewrite (replace_miss "VHT"), (replace_miss "VHT"), Hrep by reflexivity.
      change (String "H" (String "T" d)) with ("HT" +++ d). rewrite (replace_hit "H" "T"). cbn [String.append]. rewrite !Hrep by reflexivity. reflexivity.
    + change ("VHT" +++ d) with (String "V" "HT" +++ d). rewrite (replace_hit "V" "HT"). cbn [String.append]. rewrite !Hrep by reflexivity. reflexivity.
    + cbn [String.append]. rewrite (replace_miss "VHT"), (replace_miss "VHT"), Hrep by reflexivity.
      rewrite (replace_miss "HT") by reflexivity. rewrite (replace_miss "HT") by reflexivity. rewrite Hrep by reflexivity.
      change (String "H" (String "E" d)) with ("HE" +++ d). rewrite (replace_hit "H" "E"). cbn [String.append]. rewrite !Hrep by reflexivity. reflexivity.
  - unfold wide_mode. destruct Hp as [-> |[-> | -> ]]; ev; reflexivity.
Qed.
Lemma wide_protocol dsa p w r : wide p -> dget "htmode" r = Some (VStr (wide_mode p w)) -> netjson_protocol dsa r = Ok (VStr p).
Proof.
  intros Hp Hh. unfold netjson_protocol, dgetN. rewrite Hh. cbn [as_str bind]. unfold wide_mode.
  destruct Hp as [-> |[-> | -> ]]; ev; reflexivity.
Qed.

Lemma radio_object dsa r : radio_ok dsa r ->
  object_rt r (name_or "name" EmptyString r) "wifi-device" (radio_section dsa r) (radio_back dsa).
Proof.
  intros (Hnd & (n & Hn & Hbn) & Hdr & (c & p & w & Hc & Hp & Hw & Hband & Hht) & Htx & Hdis & Hco & Habs & Hf).
  assert (En : name_or "name" EmptyString r = n) by (unfold name_or; rewrite Hn; reflexivity). rewrite En. clear En.
  assert (Hty : dget "type" r = None) by (apply Habs; cbn; auto).
  assert (Htp : dget "txpower" r = None) by (apply Habs; cbn; auto).
  (* the mode *)
  set (H := match dget "htmode" r with Some (VStr h) => h | _ => if existsb (String.eqb p) ["802.11n"; "802.11ac"; "802.11ax"] then wide_mode p w else "NONE" end).
  (* the section *)
  set (r0 := rename "tx_power" "txpower" (dupdate (ddel "name" r) [(".type", VStr "wifi-device"); (".name", VStr n)])).
  assert (Hr0n : NoDup (dkeys r0)) by (apply NoDup_rename; nodup).
  assert (Hr0 : forall k, dget k r0 = if String.eqb k "txpower" then dget "tx_power" r else if String.eqb k "tx_power" then None
     else if String.eqb k ".name" then Some (VStr n) else if String.eqb k ".type" then Some (VStr "wifi-device")
     else if String.eqb k "name" then None else dget k r).
  { intros k. unfold r0. rewrite dget_rename by (nodup || discriminate). dg. ev. rewrite Htp.
    destruct (String.eqb k "txpower"); [destruct (dget "tx_power" r); reflexivity|reflexivity]. }
  set (r1 := dset "type" (VStr "mac80211") (ddel "driver" r0)).
  assert (Hr1n : NoDup (dkeys r1)) by (unfold r1; nodup).
  destruct (set_band_ok dsa c p r1) as (r2 & Hr2 & Hr2n & Hr2g).
  { exact Hr1n. }
  { unfold r1. dg. ev. rewrite Hr0. ev. exact Hc. }
  { unfold r1. dg. ev. rewrite Hr0. ev. exact Hp. }
  { unfold text_at, r1. dg. ev. rewrite !Hr0. ev. exact Hband. }
  assert (Hbo : band_of dsa c p r1 = band_of dsa c p r).
  { unfold band_of, dgetN, r1. dg. ev. rewrite !Hr0. ev. reflexivity. }
  rewrite Hbo in Hr2g.
  set (chan := if (c =? 0)%Z then VStr "auto" else VInt c).
  set (X := dset "htmode" (VStr H) (ddel "channel_width" (ddel "protocol" (dset "channel" chan r2)))).
  assert (HX : NoDup (dkeys X)) by (unfold X; nodup).
  assert (Hget : forall k, dget k X = if String.eqb k "htmode" then Some (VStr H) else if String.eqb k "channel_width" then None
     else if String.eqb k "protocol" then None else if String.eqb k "channel" then Some chan
     else if String.eqb k (if dsa then "band" else "hwmode") then Some (band_of dsa c p r)
     else if String.eqb k "band" || String.eqb k "hwmode" then None
     else if String.eqb k "type" then Some (VStr "mac80211") else if String.eqb k "driver" then None
     else if String.eqb k "txpower" then dget "tx_power" r else if String.eqb k "tx_power" then None
     else if String.eqb k ".name" then Some (VStr n) else if String.eqb k ".type" then Some (VStr "wifi-device")
     else if String.eqb k "name" then None else dget k r).
  { intros k. unfold X. dg. rewrite Hr2g. unfold r1. dg. rewrite Hr0. reflexivity. }
  assert (Hsec : exists s, radio_section dsa r = Ok s /\ NoDup (dkeys s) /\ forall k, dget k s = dget k X).
  { unfold radio_section, dgetE. rewrite Hn. cbn [bind]. fold r0.
    assert (Ed : pop_or "driver" default_radio_driver r0 = VStr "mac80211") by (unfold pop_or; rewrite Hr0; ev; rewrite Hdr; reflexivity).
    rewrite Ed. fold r1. rewrite Hr2. cbn [bind].
    assert (Ec : dget "channel" r2 = Some (VInt c)).
    { rewrite Hr2g. unfold r1. dg. rewrite Hr0. destruct dsa; ev; exact Hc. }
    rewrite Ec. cbn [bind].
    assert (Ec' : (if py_eq (VInt c) (VInt 0) then dset "channel" (VStr "auto") r2 else r2) = dset "channel" chan r2).
    { change (py_eq (VInt c) (VInt 0)) with (c =? 0)%Z. unfold chan. destruct (c =? 0)%Z; [reflexivity|]. symmetry. apply dset_same, Ec. }
    rewrite Ec'. assert (Ep : dget "protocol" (dset "channel" chan r2) = Some (VStr p)).
    { dg. ev. rewrite Hr2g. unfold r1. dg. rewrite Hr0. destruct dsa; ev; exact Hp. }
    rewrite Ep. cbn [bind]. change (py_eq (VStr "mac80211") (VStr "mac80211")) with true. cbn [bind].
    assert (Ew : dget "channel_width" (ddel "protocol" (dset "channel" chan r2)) = Some (VInt w)).
    { dg. ev. rewrite Hr2g. unfold r1. dg. rewrite Hr0. destruct dsa; ev; exact Hw. }
    rewrite Ew. cbn [bind].
    assert (Eh : intermediate_htmode (VStr p) (VInt w) (ddel "channel_width" (ddel "protocol" (dset "channel" chan r2))) = VStr H).
    { unfold intermediate_htmode.
      assert (E : dget "htmode" (ddel "channel_width" (ddel "protocol" (dset "channel" chan r2))) = dget "htmode" r).
      { dg. ev. rewrite Hr2g. unfold r1. dg. rewrite Hr0. destruct dsa; ev; reflexivity. }
      rewrite E. unfold H. destruct (dget "htmode" r) as [h|].
      - destruct Hht as (_ & _ & [-> | -> ]); reflexivity.
      - rewrite !py_eq_text. cbn [existsb]. unfold wide_mode. cbn [py_str].
        destruct (String.eqb p "802.11n"), (String.eqb p "802.11ac"), (String.eqb p "802.11ax"); reflexivity. }
    rewrite Eh. fold X.
    assert (Eco : dget "country" X = dget "country" r) by (rewrite Hget; destruct dsa; ev; reflexivity).
    rewrite Eco. unfold optional in Hco. destruct (dget "country" r) as [v|] eqn:Ev.
    - destruct Hco as (s & -> & Hs). cbn [as_str bind]. rewrite Hs. eexists. split; [reflexivity|]. split; [apply ssort_NoDup; nodup|].
      intros k. rewrite dget_ssort by nodup. rewrite dget_dset. destruct (String.eqb_spec k "country") as [->|]; [symmetry; exact Eco|reflexivity].
    - eexists. split; [reflexivity|]. split; [apply ssort_NoDup; exact HX|]. intros k. rewrite dget_ssort by exact HX. reflexivity. }
  destruct Hsec as (s & Hs & Hsn & Hsg).
  assert (Hget' : forall k, dget k s = _) by (intros k; rewrite Hsg; apply Hget). clear Hget Hsg. rename Hget' into Hget.
  assert (Hbt : exists b, band_of dsa c p r = VStr b /\ b <> EmptyString /\ plain b).
  { unfold band_of, dgetN. destruct dsa.
    - destruct Hband as ((b & -> & Hb) & _). eauto.
    - destruct Hband as (_ & Hb). destruct (c =? 0)%Z.
      + destruct Hb as (h & -> & Hh). eauto.
      + exists (implied_hwmode p c). split; [reflexivity|]. apply plainb_plain. unfold implied_hwmode.
        destruct (existsb (String.eqb p) ["802.11a"; "802.11ac"]); [reflexivity|]. destruct (String.eqb p "802.11b"); [reflexivity|]. destruct (String.eqb p "802.11g"); [reflexivity|].
        destruct (c <=? 13)%Z; reflexivity. }
  destruct Hbt as (bt & Hbt & Hbtn & Hbtp).
  assert (Hchan : writable chan) by (unfold chan; destruct (c =? 0)%Z; [apply plainb_plain; reflexivity|apply plain_Z]).
  assert (HHp : H <> EmptyString /\ plain H).
  { unfold H. destruct (dget "htmode" r) as [h|].
    - destruct Hht as (_ & _ & [-> | -> ]); apply plainb_plain; reflexivity.
    - destruct (existsb _ _); [|apply plainb_plain; reflexivity]. unfold wide_mode. 
      assert (G : forall a, a <> EmptyString -> bare a -> a +++ string_of_Z w <> EmptyString /\ plain (a +++ string_of_Z w)).
      { intros a Ha Hba. split; [destruct a; [congruence|discriminate]|]. apply bare_plain, bare_app; [exact Hba|apply bare_Z]. }
      destruct (String.eqb p "802.11n"); [apply G; [discriminate|reflexivity]|]. destruct (String.eqb p "802.11ac"); (apply G; [discriminate|reflexivity]). }
  eapply object_intro; [exact Hs| |unfold sec_name; rewrite Hget; destruct dsa; reflexivity|rewrite Hget; destruct dsa; reflexivity|discriminate|discriminate|].
  - eapply section_ok_intro; [exact Hsn|rewrite Hget; destruct dsa; reflexivity|wordlit|rewrite Hget; destruct dsa; reflexivity|exact Hbn|].
    intros k v. rewrite Hget, Hbt. unfold optional in Htx, Hdis.
    destruct dsa; fields k; try discriminate; intros Hk _ _;
      try (injection Hk as <-; split; [wordlit|]; first [exact (proj2 HHp) | exact Hchan | exact Hbtp | apply plainb_plain; reflexivity]).
    all: try (rewrite Hk in Htx; destruct Htx as (z & -> ); split; [wordlit|apply plain_Z]).
    all: destruct (String.eqb_spec k "disabled") as [->|Hkd];
      [rewrite Hk in Hdis; destruct Hdis as (b & -> ); split; [wordlit|destruct b; apply plainb_plain; reflexivity]|].
    all: eapply field_writes; [exact Hf|notin|exact Hk].
  - intros s' Hnd' Gt Gn G. unfold radio_back. dget_now. rewrite Gt. cbn [bind]. dget_now. rewrite Gn. cbn [bind].
    set (a1 := dset "name" (VStr n) (ddel ".name" (ddel ".type" s'))).
    assert (Ha1 : NoDup (dkeys a1)) by (unfold a1; nodup).
    assert (Hu : uci_value (VStr bt) = Some (VStr bt)) by (apply uci_text; exact Hbtn).
    assert (HuH : uci_value (VStr H) = Some (VStr H)) by (apply uci_text, HHp).
    set (txt := match dget "tx_power" r with Some v => uci_value v | None => None end).
    set (dis := match dget "disabled" r with Some v => uci_value v | None => None end).
    assert (G1 : forall k, dget k a1 = if String.eqb k "name" then Some (VStr n) else if startswith "." k then None else
       if String.eqb k "htmode" then Some (VStr H) else if String.eqb k "channel_width" then None
       else if String.eqb k "protocol" then None else if String.eqb k "channel" then uci_value chan
       else if String.eqb k (if dsa then "band" else "hwmode") then Some (VStr bt)
       else if String.eqb k "band" || String.eqb k "hwmode" then None
       else if String.eqb k "type" then Some (VStr "mac80211") else if String.eqb k "driver" then None
       else if String.eqb k "txpower" then txt else if String.eqb k "tx_power" then None
       else if String.eqb k "disabled" then dis else dget k r).
    { intros k. unfold a1. dg. destruct (String.eqb_spec k "name") as [->|Hkn]; [reflexivity|].
      destruct (startswith "." k) eqn:Edot.
      - destruct (String.eqb k ".name") eqn:E1; [reflexivity|]. destruct (String.eqb k ".type") eqn:E2; [reflexivity|].
        rewrite G, E1, E2, Edot. reflexivity.
      - assert (E1 : String.eqb k ".name" = false) by (apply eqb_neq; intros ->; discriminate).
        assert (E2 : String.eqb k ".type" = false) by (apply eqb_neq; intros ->; discriminate).
        rewrite E1, E2, G, E1, E2, Edot, Hget, Hbt. cbn [orb]. unfold txt, dis.
        destruct dsa; fields k; try reflexivity; try exact HuH; try exact Hu; try congruence.
        all: try (eapply field_text; [exact Hf|notin|reflexivity]).
        all: rewrite Hkn in *; try congruence. }
    unfold optional in Htx, Hdis.
    (* power *)
    assert (E2 : exists a2, match dget "txpower" a1 with
        | Some t => do z <- py_int t; Ok (dset "tx_power" (VInt z) (ddel "txpower" a1)) | None => Ok a1 end = Ok a2 /\
        NoDup (dkeys a2) /\ forall k, dget k a2 = if String.eqb k "tx_power" then dget "tx_power" r
          else if String.eqb k "txpower" then None else dget k a1).
    { rewrite G1. destruct dsa; ev; unfold txt; (destruct (dget "tx_power" r) as [v|] eqn:Etx;
        [destruct Htx as (z & -> ); change (uci_value (VInt z)) with (Some (VStr (string_of_Z z))); unfold py_int; rewrite int_of_string_Z; cbn [bind];
           eexists; split; [reflexivity|]; split; [nodup|]; intros k; dg; destruct (String.eqb k "tx_power"); reflexivity
        |eexists; split; [reflexivity|]; split; [exact Ha1|]; intros k; fields k; try reflexivity; rewrite G1; ev; unfold txt; rewrite ?Etx; reflexivity]). }
    destruct E2 as (a2 & E2 & Ha2 & G2). rewrite E2. cbn [bind]. clear E2.
    assert (E3 : dget "type" a2 = Some (VStr "mac80211")) by (rewrite G2; ev; rewrite G1; destruct dsa; ev; reflexivity).
    rewrite E3. cbn [bind].
    set (a3 := dset "driver" (VStr "mac80211") (ddel "type" a2)).
    assert (Ha3 : NoDup (dkeys a3)) by (unfold a3; nodup).
    set (a4 := match dget "disabled" a3 with Some d => dset "disabled" (VBool (py_eq d (VStr "1"))) a3 | None => a3 end).
    assert (Ed : dget "disabled" a3 = dis) by (unfold a3; dg; ev; rewrite G2; ev; rewrite G1; destruct dsa; ev; reflexivity).
    assert (Ha4 : NoDup (dkeys a4) /\ forall k, dget k a4 = if String.eqb k "disabled" then dget "disabled" r else dget k a3).
    { unfold a4. rewrite Ed. unfold dis. destruct (dget "disabled" r) as [v|] eqn:Edis.
      - destruct Hdis as (b & -> ). cbn [uci_value]. split; [nodup|]. intros k. rewrite dget_dset.
        destruct (String.eqb k "disabled"); [|reflexivity]. destruct b; reflexivity.
      - split; [exact Ha3|]. intros k. destruct (String.eqb_spec k "disabled") as [->|]; [exact Ed|reflexivity]. }
    destruct Ha4 as (Ha4 & G4').
    assert (G4 : forall k, dget k a4 = if String.eqb k "tx_power" then dget "tx_power" r else if String.eqb k "txpower" then None
       else if String.eqb k "driver" then Some (VStr "mac80211") else if String.eqb k "type" then None
       else if String.eqb k "name" then Some (VStr n) else if startswith "." k then None else
       if String.eqb k "htmode" then Some (VStr H) else if String.eqb k "channel_width" then None
       else if String.eqb k "protocol" then None else if String.eqb k "channel" then uci_value chan
       else if String.eqb k (if dsa then "band" else "hwmode") then Some (VStr bt)
       else if String.eqb k "band" || String.eqb k "hwmode" then None else dget k r).
    { intros k. rewrite G4'. unfold a3. dg. rewrite G2, G1. destruct dsa; fields k; try reflexivity. }
    (* protocol *)
    assert (Epr : netjson_protocol dsa a4 = Ok (VStr p)).
    { destruct (dget "htmode" r) as [h|] eqn:Eh.
      - destruct Hht as (-> & -> & Hh). unfold netjson_protocol, dgetN. rewrite G4. ev. cbn [as_str bind]. unfold H.
        destruct Hh as [-> | -> ]; reflexivity.
      - destruct Hht as [[Hwide Hpos]|[Hw20 Hleg]].
        + assert (EH : H = wide_mode p w) by (unfold H; destruct Hwide as [-> |[-> | -> ]]; reflexivity).
          apply (wide_protocol dsa p w); [exact Hwide|]. rewrite G4. ev. rewrite EH. reflexivity.
        + unfold legacy in Hleg. destruct dsa.
          * assert (Hb2 : Some (VStr bt) = dget "band" r).
            { unfold band_of, dgetN in Hbt. destruct (dget "band" r); [congruence|]. discriminate. }
            assert (EH : H = "NONE") by (unfold H; destruct Hleg as [(_ & -> )|[(_ & -> )|(_ & -> )]]; reflexivity).
            unfold netjson_protocol, dgetN. rewrite G4. ev. rewrite EH. cbn [as_str bind]. rewrite G4. ev.
            rewrite <- Hb2 in Hleg. destruct Hleg as [(E & -> )|[(E & -> )|(E & -> )]]; injection E as ->; reflexivity.
          * destruct Hleg as (h & E & Ep). injection E as E.
            assert (Ebt : bt = h).
            { unfold band_of in Hbt. destruct (c =? 0)%Z; congruence. }
            destruct (existsb (String.eqb p) ["802.11n"; "802.11ac"; "802.11ax"]) eqn:Ewide.
            -- assert (EH : H = wide_mode p w) by (unfold H; reflexivity).
               assert (Hwide : wide p).
               { clear -Ewide. cbn [existsb] in Ewide. unfold wide. destruct (String.eqb_spec p "802.11n"); [auto|].
                 destruct (String.eqb_spec p "802.11ac"); [auto|]. destruct (String.eqb_spec p "802.11ax"); [auto|discriminate]. }
               apply (wide_protocol false p w); [exact Hwide|]. rewrite G4. ev. rewrite EH. reflexivity.
            -- assert (EH : H = "NONE") by (unfold H; reflexivity).
               unfold netjson_protocol, dgetN. rewrite G4. ev. rewrite EH. cbn [as_str bind startswith String.eqb andb]. rewrite !G4. ev.
               cbn. rewrite Ebt, Ep. reflexivity. }
    rewrite Epr. cbn [bind].
    (* channel *)
    assert (Ech : exists a6, netjson_channel (dset "protocol" (VStr p) a4) = Ok (a6, VInt c) /\ NoDup (dkeys a6) /\
      forall k, dget k a6 = if String.eqb k "hwmode" && negb (c =? 0)%Z then None else if String.eqb k "protocol" then Some (VStr p) else dget k a4).
    { unfold netjson_channel. dget_now. rewrite G4. destruct dsa; ev; unfold chan; (destruct (Z.eqb_spec c 0) as [->|Hc0];
      [ cbn; eexists; split; [reflexivity|]; split; [nodup|]; intros k; rewrite andb_false_r; dg; reflexivity
      | change (uci_value (VInt c)) with (Some (VStr (string_of_Z c))); cbn [bind]; rewrite py_eq_text;
        rewrite (num_not_auto c);
        unfold py_int; rewrite int_of_string_Z; cbn [bind]; eexists; split; [reflexivity|]; split; [nodup|];
        intros k; rewrite andb_true_r; dg; reflexivity]). }
    destruct Ech as (a6 & Ech & Ha6 & G6). rewrite Ech. cbn [bind fst snd].
    (* width *)
    set (a7 := dset "channel" (VInt c) a6).
    assert (Ha7 : NoDup (dkeys a7)) by (unfold a7; nodup).
    assert (Eht : dget "htmode" a7 = Some (VStr H)) by (unfold a7; dg; ev; rewrite G6; ev; rewrite G4; destruct dsa; ev; reflexivity).
    assert (Ewd : exists a8, netjson_width a7 = Ok (a8, VInt w) /\ NoDup (dkeys a8) /\
      forall k, dget k a8 = if String.eqb k "htmode" then dget "htmode" r else dget k a7).
    { unfold netjson_width, dgetE. rewrite Eht. cbn [bind as_str]. destruct (dget "htmode" r) as [h|] eqn:Eh.
      - destruct Hht as (-> & -> & Hh). unfold H. destruct Hh as [-> | -> ]; (eexists; split; [reflexivity|]; split; [nodup|]; intros k; dg; destruct (String.eqb k "htmode"); reflexivity).
      - destruct (existsb (String.eqb p) ["802.11n"; "802.11ac"; "802.11ax"]) eqn:Ewide.
        + assert (Hwide : wide p).
          { clear -Ewide. cbn [existsb] in Ewide. unfold wide. destruct (String.eqb_spec p "802.11n"); [auto|].
            destruct (String.eqb_spec p "802.11ac"); [auto|]. destruct (String.eqb_spec p "802.11ax"); [auto|discriminate]. }
          assert (Hpos : (0 <= w)%Z) by (destruct Hht as [[_ Hpos]|[-> _]]; lia).
          assert (EH : H = wide_mode p w) by (unfold H; reflexivity). rewrite EH.
          destruct (wide_width p w Hwide Hpos) as (Ew1 & Ew2 & Ew3 & Ew4). rewrite Ew4, Ew1, Ew2, Ew3. cbn [orb py_int].
          rewrite int_of_string_Z. cbn [bind]. eexists. split; [reflexivity|]. split; [nodup|]. intros k. dg. reflexivity.
        + assert (Hw20 : w = 20%Z).
          { destruct Hht as [[Hwide _]|[Hw20 _]]; [|exact Hw20]. exfalso. destruct Hwide as [-> |[-> | -> ]]; discriminate. }
          assert (EH : H = "NONE") by (unfold H; reflexivity). rewrite EH, Hw20. change (String.eqb "NONE" "NONE") with true. cbn [bind].
          eexists. split; [reflexivity|]. split; [nodup|]. intros k. dg. reflexivity. }
    destruct Ewd as (a8 & Ewd & Ha8 & G8). rewrite Ewd. cbn [bind fst snd]. eexists. split; [reflexivity|].
    apply same_of_map. intros k. rewrite dget_dset, G8. unfold a7. rewrite dget_dset, G6, G4.
    assert (Hhw : if (c =? 0)%Z then True else dget "hwmode" r = None).
    { destruct dsa; [destruct Hband as (_ & Hb); destruct (c =? 0)%Z; [exact I|exact Hb]|]. destruct Hband as (_ & Hb). destruct (c =? 0)%Z; [exact I|exact Hb]. }
    unfold band_of, dgetN in Hbt.
    destruct dsa; fields k; try congruence; try (symmetry; dotted Hf).
    all: try (destruct (c =? 0)%Z; cbn [negb]; congruence).
    all: try (destruct Hband as (Hb1 & Hb2); try congruence; destruct (c =? 0)%Z; cbn [negb]; try congruence).
    all: try (destruct Hb1 as (b0 & Hb1 & _); rewrite Hb1 in *; congruence).
    all: try (destruct Hb2 as (b0 & Hb2 & _); rewrite Hb2 in *; congruence).
    all: destruct (startswith "." k) eqn:Edot; [symmetry; eapply dotted_absent; [exact Hf| |exact Edot]|reflexivity].
    all: cbn [In]; intros Hin; repeat (destruct Hin as [Hin|Hin]; [subst k; discriminate|]); exact Hin.
Qed.
