(** * RtWifiStage: the wireless interfaces of a device as a stage of the round
    trip (proofs only). *)
From Verif Require Import PyBase PyLemmas StrLemmas NumLemmas Merge SpecMerge MergeProofs MergeListProofs MergeFinal Backend Conv Ip OwrtConv OwrtWireless OwrtInterfaces
  SpecUci SpecConv SpecDevice SpecShapes SpecEncryption SpecWireless SpecWhole ConvLemmas SortLemmas RtStage RtBack RtGeneric RtObjects RtSystem RtNetwork RtSwitch RtTrip RtAddress RtInterface RtIfOk RtIfStage FilesProofs VpnProofs RtEnc RtWifi RtWifiBack RtStages RtBridged.

(** ** One interface *)
Definition iname (b : dict) : string := name_or "name" EmptyString b.
(** The section [s] of the wireless interface [b], one of [all] *)
Definition wsec (all : list dict) (b s : dict) : Prop :=
  NoDup (dkeys s) /\ wifi_shown (iname b) (addressed b) (bridges_of (iname b) all) b (wifi_of b) s.
Lemma wireless_parts all b : wireless_ok all b -> dget "name" b = text (iname b) /\ iname b <> EmptyString /\ plain (iname b) /\
  dget "wireless" b = Some (VDict (wifi_of b)) /\ wifi_ok (iname b) (dget "network" b) (addressed b) (bridges_of (iname b) all) (wifi_of b).
Proof.
  intros (_ & _ & (n & Hn & Hne & Hp & w & Hw & Hok) & _). unfold iname, name_or, wifi_of. rewrite Hn, Hw. unfold text. auto.
Qed.
Section One.
  Variables (all : list dict) (b : dict) (M : list (string * list string)).
  Hypothesis Hok : wireless_ok all b.
  Hypothesis Hbr : forall x, In x (bridges_of (iname b) all) -> word x /\ identifier x = x.
  Hypothesis HM : dget (iname b) M = listed (bridges_of (iname b) all).
  Hypothesis Haddr : truthy (dgetN "addresses" b) = addressed b.
  Lemma wsec_made : exists s, wifi_section M b = Ok (Some s) /\ wsec all b s /\ section_ok s.
  Proof.
    destruct (wireless_parts _ _ Hok) as (Hn & Hne & Hp & Hw & Hwi). destruct Hok as (_ & _ & _ & Hmac & Hdis & _).
    destruct (wifi_section_ok (iname b) _ (addressed b) _ b (wifi_of b) Hwi Hbr Hn Hw Haddr M HM) as (s & Es & Ns & Hs).
    exists s. split; [exact Es|]. split; [split; assumption|]. eapply wifi_section_good; eauto.
  Qed.
  (** What is read from the section, once the network is cleaned *)
  Definition wread (s2 : dict) : Prop := dget ".type" s2 = text "wifi-iface" /\ dget "ifname" s2 = text (iname b) /\
    (exists x, dget ".name" s2 = text x) /\
    forall i0, dget "name" i0 = dget "name" b -> dget "network" i0 = dget "network" b ->
    exists w' i1, wifi_back s2 i0 = Ok (w', i1) /\ same (VDict (wifi_of b)) (VDict w') /\
      forall k, dget k i1 = if existsb (String.eqb k) ["mac"; "disabled"] then match dget k b with Some v => Some v | None => dget k i0 end else dget k i0.
  Lemma wsec_read s s' : wsec all b s -> section_reads s s' -> exists s2, fix_network M (VDict s') = Ok (VDict s2) /\ NoDup (dkeys s2) /\
    (forall k, dget k s2 = if String.eqb k "network" then dget k s2 else dget k s') /\ (dget "network" s2 = None \/ dget "network" s2 = dget "network" s') /\ wread s2.
  Proof.
    intros [Ns Hs] Hr. destruct (wireless_parts _ _ Hok) as (Hn & Hne & Hp & Hw & Hwi). destruct Hok as (_ & _ & _ & Hmac & Hdis & _).
    destruct (section_reads_plain s s' "wifi-iface" Hr) as [Hsr Hg]; [rewrite (Hs ".type"); reflexivity|discriminate|discriminate|].
    destruct (fix_network_ok _ _ _ _ b _ Hwi Hbr (conj Hne Hp) s s' Hs (sorted_NoDup _ Hsr) Hg M HM) as (s2 & E2 & N2 & G2).
    exists s2. split; [exact E2|]. split; [exact N2|]. split; [|split].
    - intros k. destruct (String.eqb k "network") eqn:E; [reflexivity|]. rewrite G2, E, andb_false_r. reflexivity.
    - rewrite G2. destruct (_ && _); auto.
    - split; [|split; [|split]].
      + rewrite G2. ev. rewrite andb_false_r, Hg. ev. cbn [orb]. rewrite (Hs ".type"). reflexivity.
      + rewrite G2. ev. rewrite andb_false_r. eapply read_ifname; [exact (conj Hne Hp)|exact Hs|exact Hg].
      + eexists. rewrite G2. ev. rewrite andb_false_r, Hg. ev. cbn [orb]. rewrite (Hs ".name"). reflexivity.
      + intros i0 Hn0 Hnet0. rewrite Hn in Hn0.
        destruct (wifi_back_ok _ _ _ _ b _ Hwi Hbr (conj Hne Hp) Hmac Hdis s s' Hs Hg s2 i0 N2 G2 Hn0 Hnet0) as (w' & i1 & E & _ & Hsame & G).
        exists w', i1. auto.
  Qed.
End One.
(** ** All the interfaces *)
Definition wback (a : dict * dict) (d : dict) : res (dict * dict) := wifi_bwd_block d a 0.
Lemma same_texts k d d' v : same (VDict d) (VDict d') -> dget k d = text v -> dget k d' = text v.
Proof. 
  intros H E. inversion H as [|?|? ? H1 H2]; subst; [exact E|]. destruct (H1 _ _ E) as (v' & -> & Hs). inversion Hs; subst. reflexivity.
Qed.
Lemma same_absent k d d' : same (VDict d) (VDict d') -> dget k d = None -> dget k d' = None.
Proof. intros H E. inversion H as [|?|? ? H1 H2]; subst; [exact E|]. apply H2, E. Qed.
Lemma same_present k d d' v : same (VDict d) (VDict d') -> dget k d = Some v -> exists v', dget k d' = Some v' /\ same v v'.
Proof. intros H E. inversion H as [|?|? ? H1 H2]; subst; [exists v; split; [exact E|apply same_refl]|]. apply H1, E. Qed.

(** Position by name *)
Lemma find_here n x : forall done ns pos todo, keyed "name" done ns -> ~ In n ns -> dget "name" x = text n ->
  find_iface (VStr n) (map VDict (done ++ x :: todo)) pos = Ok (Some (pos + length done)).
Proof.
  induction done as [|d done IH]; intros ns pos todo H Hn Hx.
  - cbn [app map find_iface as_dict bind length]. unfold dgetE. rewrite Hx. unfold text. cbn [bind]. rewrite py_eq_text, eqb_refl, Nat.add_0_r. reflexivity.
  - inversion H as [|? m ? ns' Hd H']; subst. cbn [app map find_iface as_dict bind length]. unfold dgetE. rewrite Hd. cbn [bind]. rewrite py_eq_text, eqb_neq by (intros ->; apply Hn; left; reflexivity).
    rewrite (IH ns' (S pos) todo H'); [f_equal; f_equal; lia|intros X; apply Hn; right; exact X|exact Hx].
Qed.
Lemma find_none n : forall l ns pos, keyed "name" l ns -> ~ In n ns -> find_iface (VStr n) (map VDict l) pos = Ok None.
Proof.
  intros l ns pos H. revert pos. induction H as [|d m l ns Hd H IH]; intros pos Hn; [reflexivity|]. cbn [map find_iface as_dict bind]. unfold dgetE. rewrite Hd. cbn [bind].
  rewrite py_eq_text, eqb_neq by (intros ->; apply Hn; left; reflexivity). apply IH. intros X. apply Hn. right; exact X.
Qed.
Lemma set_nth_here (A : Type) (x y : A) : forall done todo, set_nth (length done) y (done ++ x :: todo) = (done ++ y :: todo)%list.
Proof. induction done as [|d done IH]; intros todo; [reflexivity|]. cbn [length app set_nth]. rewrite IH. reflexivity. Qed.
Lemma read_name b s2 : wread b s2 -> wifi_ifname s2 = Ok (VStr (iname b)).
Proof.
  intros (_ & Hi & (x & Hx) & _). unfold wifi_ifname, dgetE, pop_or. rewrite Hx. unfold text. cbn [bind as_str]. rewrite Hi. reflexivity.
Qed.

(** The interface that a read-back interface was made from *)
Definition before_wifi (b x : dict) : Prop := exists c, wired b = [c] /\ same (VDict c) (VDict x).
Lemma wired_get b c k : NoDup (dkeys b) -> is_wireless b = true -> wired b = [c] ->
  dget k c = if String.eqb k "type" then text "ethernet" else if String.eqb k "mac" then None else if String.eqb k "wireless" then None else dget k b.
Proof.
  intros Hn Hw. unfold wired. rewrite Hw. destruct (addressed b); [|discriminate]. intros E. injection E as <-. dg. unfold text. reflexivity.
Qed.
Lemma restored all b x w' i1 : NoDup (dkeys b) -> is_wireless b = true -> wireless_ok all b -> before_wifi b x -> same (VDict (wifi_of b)) (VDict w') ->
  (forall k, dget k i1 = if existsb (String.eqb k) ["mac"; "disabled"] then match dget k b with Some v => Some v | None => dget k (dset "type" (VStr "wireless") x) end else dget k (dset "type" (VStr "wireless") x)) ->
  same (VDict b) (VDict (dset "wireless" (VDict w') i1)).
Proof.
  intros Hn Hw Hok (c & Ec & Hs) Hsw G. destruct (wireless_parts _ _ Hok) as (_ & _ & _ & Hwi & _). destruct Hok as (_ & Ht & _). unfold text in Ht.
  assert (Gc : forall k, dget k c = if String.eqb k "type" then text "ethernet" else if String.eqb k "mac" then None else if String.eqb k "wireless" then None else dget k b) by (intros k; apply wired_get; assumption).
  assert (G' : forall k, dget k (dset "wireless" (VDict w') i1) = if String.eqb k "wireless" then Some (VDict w') else dget k i1) by (intros k; apply dget_dset).
  constructor.
  - intros k v Hv. rewrite G', G, dget_dset. cbn [existsb]. fields k; cbn [orb].
    + rewrite Hwi in Hv. injection Hv as <-. eauto.
    + rewrite Hv. exists v. split; [reflexivity|apply same_refl].
    + rewrite Hv. exists v. split; [reflexivity|apply same_refl].
    + rewrite Ht in Hv. injection Hv as <-. eexists. split; [reflexivity|apply same_refl].
    + eapply same_present; [exact Hs|]. rewrite Gc. ev. exact Hv.
  - intros k Hk. rewrite G', G, dget_dset. cbn [existsb]. fields k; cbn [orb]; try congruence.
    + rewrite Hk. ev. eapply same_absent; [exact Hs|]. rewrite Gc. reflexivity.
    + rewrite Hk. ev. eapply same_absent; [exact Hs|]. rewrite Gc. ev. exact Hk.
    + eapply same_absent; [exact Hs|]. rewrite Gc. ev. exact Hk.
Qed.
(** Wireless interfaces with addresses are found and completed. *)
Lemma addressed_loop all : forall todo xs, Forall2 before_wifi todo xs ->
  (forall b, In b todo -> is_wireless b = true -> NoDup (dkeys b) /\ wireless_ok all b /\ optional "network" b (fun v => exists s, v = VStr s)) ->
  (forall b, In b todo -> dget "name" b = text (iname b)) ->
  forall done ns config secs, keyed "name" done ns -> NoDup (ns ++ map iname todo) ->
  Forall2 wread (filter is_wireless todo) secs -> NoDup (dkeys config) -> dget "interfaces" config = Some (VList (map VDict (done ++ xs))) ->
  exists config' ys, foldM wback (config, []) secs = Ok (config', []) /\ Forall2 (fun b y => same (VDict b) (VDict y)) todo ys /\
    NoDup (dkeys config') /\ dget "interfaces" config' = Some (VList (map VDict (done ++ ys))) /\ forall k, k <> "interfaces" -> dget k config' = dget k config.
Proof.
  intros todo xs H. induction H as [|b x todo xs Hx H IH]; intros Hok Hnm done ns config secs Hd Hnd Hs Hc Hi.
  - inversion Hs; subst. exists config, []. split; [reflexivity|]. split; [constructor|]. auto.
  - assert (Hb : dget "name" b = text (iname b)) by (apply Hnm; left; reflexivity).
    assert (Hni : ~ In (iname b) ns). { intros X. cbn [map] in Hnd. apply NoDup_remove_2 in Hnd. apply Hnd, in_app_iff. left; exact X. }
    assert (Hnd' : NoDup ((ns ++ [iname b]) ++ map iname todo)) by (rewrite <- app_assoc; exact Hnd).
    assert (K : forall y, dget "name" y = text (iname b) -> keyed "name" (done ++ [y]) (ns ++ [iname b])).
    { intros y Hy. apply Forall2_app; [exact Hd|]. constructor; [exact Hy|constructor]. }
    assert (Hok' : forall b, In b todo -> is_wireless b = true -> NoDup (dkeys b) /\ wireless_ok all b /\ optional "network" b (fun v => exists s, v = VStr s)) by (intros y Hy; apply Hok; right; exact Hy).
    assert (Hnm' : forall b, In b todo -> dget "name" b = text (iname b)) by (intros y Hy; apply Hnm; right; exact Hy).
    pose proof Hx as (c & Ec & Hcx). cbn [filter] in Hs. destruct (is_wireless b) eqn:Ew.
    + inversion Hs as [|? s2 ? secs' Hr Hs']; subst. destruct (Hok b (or_introl eq_refl) Ew) as (Hbn & Hwok & Hnet).
      assert (Gc : forall k, dget k c = if String.eqb k "type" then text "ethernet" else if String.eqb k "mac" then None else if String.eqb k "wireless" then None else dget k b) by (intros k; apply wired_get; assumption).
      assert (Nx : dget "name" x = text (iname b)) by (eapply same_texts; [exact Hcx|]; rewrite Gc; exact Hb).
      assert (Wx : dget "network" x = dget "network" b).
      { unfold optional in Hnet. destruct (dget "network" b) as [v|] eqn:E.
        - destruct Hnet as (s & ->). eapply same_texts; [exact Hcx|]. rewrite Gc. exact E.
        - eapply same_absent; [exact Hcx|]. rewrite Gc. exact E. }
      assert (Hfind : find_iface (VStr (iname b)) (map VDict (done ++ x :: xs)) 0 = Ok (Some (length done))) by exact (find_here (iname b) x done ns 0 xs Hd Hni Nx).
      cbn [foldM]. unfold wback at 1. unfold wifi_bwd_block, config_interfaces. rewrite Hi. cbn [as_list bind].
      assert (Em : forall (A : Type) (u v : A), match map VDict (done ++ x :: xs) with [] => u | _ => v end = v) by (intros A u v; destruct done; reflexivity).
      rewrite Em, (read_name _ _ Hr). cbn [bind]. rewrite Hfind. cbn [bind].
      replace (length done) with (length (map VDict done)) by apply map_length. rewrite map_app. cbn [map]. rewrite nth_middle. cbn [as_dict bind].
      destruct Hr as (_ & _ & _ & Hr). destruct (Hr (dset "type" (VStr "wireless") x)) as (w' & i1 & -> & Hsw & G); [rewrite dget_dset; ev; congruence|rewrite dget_dset; ev; exact Wx|].
      cbn [bind fst snd]. set (y := dset "wireless" (VDict w') i1).
      assert (Sy : same (VDict b) (VDict y)) by (eapply restored; eassumption).
      assert (Ny : dget "name" y = text (iname b)) by (eapply same_texts; eassumption).
      rewrite set_nth_here.
      destruct (IH Hok' Hnm' (done ++ [y])%list (ns ++ [iname b])%list (dset "interfaces" (VList (map VDict done ++ VDict y :: map VDict xs)) config) secs') as (config' & ys & E & F & N & I & O).
      { apply K, Ny. } { exact Hnd'. } { exact Hs'. } { apply NoDup_dset, Hc. } { rewrite dget_dset, eqb_refl, <- app_assoc, map_app. reflexivity. }
      exists config', (y :: ys). split; [exact E|]. split; [constructor; assumption|]. split; [exact N|]. split; [rewrite I, <- app_assoc; reflexivity|].
      intros k Hk. rewrite O, dget_dset, eqb_neq by exact Hk. reflexivity.
    + assert (c = b) as -> by (unfold wired in Ec; rewrite Ew in Ec; congruence).
      destruct (IH Hok' Hnm' (done ++ [x])%list (ns ++ [iname b])%list config secs) as (config' & ys & E & F & N & I & O).
      { apply K. eapply same_texts; eassumption. } { exact Hnd'. } { exact Hs. } { exact Hc. } { rewrite <- app_assoc. exact Hi. }
      exists config', (x :: ys). split; [exact E|]. split; [constructor; assumption|]. split; [exact N|]. split; [rewrite I, <- app_assoc; reflexivity|exact O].
Qed.
(** Those without addresses are made anew. *)
Lemma bare_loop all config l ns : config_interfaces config = Ok (map VDict l) -> keyed "name" l ns ->
  forall m secs acc, (forall b, In b m -> is_wireless b = true /\ addressed b = false /\ wireless_ok all b /\ ~ In (iname b) ns) -> Forall2 wread m secs ->
  exists rs, foldM wback (config, acc_of "interfaces" acc) secs = Ok (config, acc_of "interfaces" (acc ++ rs)) /\ Forall2 (fun b y => same (VDict b) (VDict y)) m rs.
Proof.
  intros Hl Hk. intros m secs acc Hm H. revert acc. induction H as [|b s2 m secs Hr H IH]; intros acc.
  - exists []. rewrite app_nil_r. split; [reflexivity|constructor].
  - destruct (Hm b (or_introl eq_refl)) as (Hw & Ha & Hok & Hni). cbn [foldM]. unfold wback at 1. unfold wifi_bwd_block. rewrite Hl. cbn [bind].
    assert (Ef : (match map VDict l with [] => Ok None | _ => do ifname <- wifi_ifname s2; find_iface ifname (map VDict l) 0 end) = Ok None).
    { destruct (map VDict l) eqn:E; [reflexivity|]. rewrite <- E, (read_name _ _ Hr). cbn [bind]. eapply find_none; eassumption. }
    rewrite Ef, (read_name _ _ Hr). cbn [bind].
    destruct (wireless_parts _ _ Hok) as (Hn & _ & _ & Hwi & _). destruct Hok as (Hnd & Ht & _ & _ & _ & Hbare). specialize (Hbare Ha). unfold text in Ht.
    assert (Habs : forall k, existsb (String.eqb k) ["name"; "type"; "wireless"; "mac"; "disabled"] = false -> dget k b = None).
    { intros k E. destruct (dget k b) eqn:Ek; [|reflexivity]. exfalso. apply Bool.not_true_iff_false in E. apply E, existsb_in, Hbare. unfold dmem. rewrite Ek. reflexivity. }
    destruct Hr as (_ & _ & _ & Hr). destruct (Hr [("name", VStr (iname b)); ("type", VStr "wireless")]) as (w' & i1 & -> & Hsw & G); [rewrite Hn; reflexivity|rewrite Habs; reflexivity|].
    cbn [bind fst snd]. rewrite add_blocks_acc. destruct IH with (acc := (acc ++ [dset "wireless" (VDict w') i1])%list) as (rs & -> & F); [intros y Hy; apply Hm; right; exact Hy|].
    exists (dset "wireless" (VDict w') i1 :: rs). rewrite <- app_assoc. split; [reflexivity|]. constructor; [|exact F]. constructor.
    + intros k v Hv. rewrite dget_dset, G. cbn [existsb dget]. fields k; cbn [orb].
      * rewrite Hwi in Hv. injection Hv as <-. eauto.
      * rewrite Hv. exists v. split; [reflexivity|apply same_refl].
      * rewrite Hv. exists v. split; [reflexivity|apply same_refl].
      * rewrite Hn in Hv. injection Hv as <-. eexists. split; [reflexivity|apply same_refl].
      * rewrite Ht in Hv. injection Hv as <-. eexists. split; [reflexivity|apply same_refl].
      * rewrite Habs in Hv; [discriminate|]. cbn [existsb]. ev. reflexivity.
    + intros k Hk'. rewrite dget_dset, G. cbn [existsb dget]. unfold text in Hn. fields k; cbn [orb]; rewrite ?Hk'; try reflexivity; congruence.
Qed.

(** ** Forward *)
Lemma wifi_fwd_loop (M : list (string * list string)) (R : dict -> dict -> Prop) : forall bs i ss,
  (forall b, In b bs -> is_wireless b = true -> exists s, wifi_section M b = Ok (Some s) /\ R b s) ->
  exists secs, fwd_loop (wifi_fwd_block M) (map VDict bs) i (acc_of "wireless" ss) = Ok (acc_of "wireless" (ss ++ secs)) /\ Forall2 R (filter is_wireless bs) secs.
Proof.
  induction bs as [|b bs IH]; intros i ss H.
  - exists []. rewrite app_nil_r. split; [reflexivity|constructor].
  - cbn [map fwd_loop as_dict bind filter]. unfold wifi_fwd_block at 1. destruct (is_wireless b) eqn:E.
    + destruct (H b (or_introl eq_refl) E) as (s & -> & Hr). cbn [bind]. rewrite add_blocks_acc.
      destruct (IH (S i) (ss ++ [s])%list) as (secs & -> & F); [intros x Hx; apply H; right; exact Hx|].
      exists (s :: secs). rewrite <- app_assoc. split; [reflexivity|constructor; assumption].
    + unfold wifi_section. unfold is_wireless, dmem in E. destruct (dget "wireless" b); [discriminate|]. cbn [bind]. apply IH. intros x Hx. apply H. right; exact Hx.
Qed.

(** ** Backward *)
Lemma same_dicts (l : list dict) v : same (VList (map VDict l)) v -> exists xs, v = VList (map VDict xs) /\ Forall2 (fun b x => same (VDict b) (VDict x)) l xs.
Proof.
  assert (R : forall l : list dict, Forall2 (fun b x => same (VDict b) (VDict x)) l l) by (induction l0; constructor; [apply same_refl|assumption]).
  intros H. inversion H as [|? l' F|]; subst; [exists l; auto|]. clear H. revert l' F. induction l as [|b l IH]; intros l' F; inversion F as [|? v ? vs Hv F']; subst; [exists []; split; [reflexivity|constructor]|].
  destruct (IH vs F') as (xs & E & Fx). injection E as ->.
  assert (exists x, v = VDict x) as (x & ->) by (inversion Hv; subst; eauto). exists (x :: xs). split; [reflexivity|]. constructor; assumption.
Qed.
Lemma from_wired : forall (l xs : list dict), (forall b, In b l -> is_wireless b = true -> addressed b = true) ->
  Forall2 (fun b x => same (VDict b) (VDict x)) (flat_map wired l) xs -> Forall2 before_wifi l xs.
Proof.
  induction l as [|b l IH]; intros xs Ha F; cbn [flat_map] in F; [inversion F; constructor|].
  assert (exists c, wired b = [c]) as (c & Ec). { unfold wired. destruct (is_wireless b) eqn:E; [rewrite (Ha b (or_introl eq_refl) E)|]; eauto. }
  rewrite Ec in F. cbn [app] in F. inversion F as [|? x ? xs' Hx F']; subst. constructor; [exists c; auto|]. apply IH; [intros y Hy; apply Ha; right; exact Hy|exact F'].
Qed.
Lemma no_wireless : forall l, filter is_wireless l = [] -> flat_map wired l = l.
Proof.
  induction l as [|b l IH]; intros H; [reflexivity|]. cbn [filter flat_map] in *. unfold wired at 1. destruct (is_wireless b); [discriminate|]. cbn [app]. f_equal. apply IH, H.
Qed.
Lemma is_nil (A : Type) (l : list A) : l = [] \/ l <> [].
Proof. destruct l; [left; reflexivity|right; discriminate]. Qed.

(** ** The stage *)
Lemma no_rest own rest : (exists ns, named (own ++ rest) ns /\ NoDup ns) -> (forall d : dict, In d rest -> negb (skip_block [] d) = false) -> rest = [].
Proof.
  intros (ns & Hn & _) He. destruct rest as [|d rest]; [reflexivity|]. exfalso. destruct (Forall2_In_l _ _ _ d Hn) as (n & _ & Hd); [apply in_app_iff; right; left; reflexivity|].
  specialize (He d (or_introl eq_refl)). destruct d; [discriminate Hd|discriminate He].
Qed.
Lemma wifi_nothing dsa orig config inter M : track_bridged dsa orig = Ok M -> dget "wireless" inter = Some (VList []) ->
  wifi_bwd dsa orig config inter = ((config, dset "wireless" (VList []) inter), Ok []).
Proof. intros Ht Hg. unfold wifi_bwd, dgetE. rewrite Hg. cbn [bind as_list]. rewrite Ht. reflexivity. Qed.
Definition wifi_ready (dsa : bool) (M : list (string * list string)) (before : list stage) : Prop :=
  forall inter, holds before inter -> track_bridged dsa inter = Ok M.
Definition wifi_sees (dsa : bool) (M : list (string * list string)) (_ : oracle) (B : backend) (orig : dict) : Prop :=
  (exists ids, be_ids B = "name" :: ids) /\ track_bridged dsa orig = Ok M.
(** What interfaces of all kinds have in common *)
Lemma wired_facts dsa c : wired_ok dsa c -> (exists n, dget "name" c = text n) /\ optional "network" c (fun v => exists s, v = VStr s) /\
  truthy (dgetN "addresses" c) = dmem "addresses" c /\ dget "vlan_filtering" c = None.
Proof.
  intros [(_ & (n & Hn & _ & _ & _ & Hnet & _) & (opts & Ho) & _ & _ & _ & X & _)|(_ & (n & t & Hn & _ & _ & _ & Hin & Hs & Hnet & _) & _ & _ & _ & _ & X)].
  - split; [eauto|]. split; [unfold optional; destruct (dget "network" c); [|exact I]; destruct Hnet as (s & -> & _); eauto|]. split; [|apply X; unfold section_fields; cbn; tauto].
    unfold dgetN, dmem. inversion Ho; try reflexivity. destruct ds; [congruence|reflexivity].
  - split; [eauto|]. split; [unfold optional; destruct (dget "network" c); [|exact I]; destruct Hnet as (s & -> & _); eauto|]. split; [|apply X; cbn; tauto].
    unfold dgetN, dmem. unfold protocol_settings in Hs. destruct (String.eqb t "wireguard").
    + destruct Hs as (_ & _ & _ & (l & ds & -> & Hne & _) & _). destruct ds; [congruence|reflexivity].
    + assert (E : dget "addresses" c = None) by (destruct (String.eqb t "vxlan"); [destruct Hs as (_ & _ & _ & Y)|destruct (String.eqb t "modem-manager"); destruct Hs as (_ & Y)]; apply Y; cbn; auto). rewrite E. reflexivity.
Qed.
Section Wifi.
  Variables (dsa : bool) (config : dict) (l m : list dict).
  Notation all := (l ++ m)%list.
  Hypothesis Hcfg : dget "interfaces" config = Some (VList (map VDict all)).
  Hypothesis Hne : all <> [].
  Hypothesis Hl : forall b, In b l -> is_wireless b = true -> addressed b = true.
  Hypothesis Hm : forall b, In b m -> is_wireless b = true /\ addressed b = false.
  Hypothesis Hok : forall b, In b (flat_map wired l) -> wired_ok dsa b.
  Hypothesis Hw : forall b, In b all -> is_wireless b = true -> wireless_ok all b.
  Hypothesis Hnames : (exists b, In b all /\ is_wireless b = true) -> NoDup (map iname all).
  Hypothesis Hnet : NoDup (map interface_name (flat_map wired l)).
  Definition table : list (string * list string) := bridge_adds (flat_map wired l) [].
  Lemma not_bridges b : In b all -> is_wireless b = true -> is_bridge b = false.
  Proof. intros H1 H2. destruct (Hw b H1 H2) as (_ & Ht & _). unfold is_bridge. rewrite Ht. reflexivity. Qed.
  Lemma all_bridges n : bridges_of n all = bridges_of n (flat_map wired l).
  Proof.
    rewrite bridges_wired by (intros b Hb; apply not_bridges, in_app_iff; left; exact Hb). unfold bridges_of. rewrite filter_app, map_app.
    rewrite (filter_none _ _ m); [apply app_nil_r|]. intros b Hb. rewrite (not_bridges b); [reflexivity|apply in_app_iff; right; exact Hb|apply Hm, Hb].
  Qed.
  Lemma table_get n : dget n table = listed (bridges_of n all).
  Proof. rewrite all_bridges. exact (adds_bridges n (flat_map wired l) [] [] eq_refl Hnet). Qed.
  Lemma table_words n x : In x (bridges_of n all) -> word x /\ identifier x = x.
  Proof. rewrite all_bridges. apply (bridges_words dsa n _ x Hok). Qed.
  Lemma wired_in b : In b l -> exists c, wired b = [c] /\ wired_ok dsa c /\ forall k, k <> "type" -> k <> "mac" -> k <> "wireless" -> dget k c = dget k b.
  Proof.
    intros Hb. assert (Hin : forall c, In c (wired b) -> wired_ok dsa c) by (intros c Hc; apply Hok, in_flat_map; eauto).
    destruct (is_wireless b) eqn:E.
    - pose proof (Hl b Hb E) as Ha. destruct (Hw b (in_or_app _ _ _ (or_introl Hb)) E) as (Hn & _).
      assert (X : exists c, wired b = [c]) by (unfold wired; rewrite E, Ha; eauto). destruct X as (c & Ec). exists c. split; [exact Ec|]. split; [apply Hin; rewrite Ec; left; reflexivity|].
      intros k K1 K2 K3. rewrite (wired_get b c k Hn E Ec), (eqb_neq _ _ K1), (eqb_neq _ _ K2), (eqb_neq _ _ K3). reflexivity.
    - exists b. assert (Ec : wired b = [b]) by (unfold wired; rewrite E; reflexivity). split; [exact Ec|]. split; [apply Hin; rewrite Ec; left; reflexivity|reflexivity].
  Qed.
  Lemma addressed_truthy b : In b all -> is_wireless b = true -> truthy (dgetN "addresses" b) = addressed b.
  Proof.
    intros Hb E. unfold addressed, dmem, dgetN. apply in_app_iff in Hb as [Hb|Hb].
    - destruct (wired_in b Hb) as (c & _ & Hc & G). destruct (wired_facts dsa c Hc) as (_ & _ & Ha & _). unfold dgetN, dmem in Ha. rewrite (G "addresses") in Ha by discriminate. exact Ha.
    - destruct (Hm b Hb) as [_ Ha]. unfold addressed, dmem in Ha. destruct (dget "addresses" b); [discriminate|reflexivity].
  Qed.
  Lemma all_named b : In b all -> dget "name" b = text (iname b).
  Proof.
    intros Hb. destruct (is_wireless b) eqn:E; [apply (wireless_parts _ _ (Hw b Hb E))|]. apply in_app_iff in Hb as [Hb|Hb]; [|destruct (Hm b Hb); congruence].
    destruct (wired_in b Hb) as (c & _ & Hc & G). destruct (wired_facts dsa c Hc) as ((n & Hn) & _). rewrite (G "name") in Hn by discriminate. unfold iname, name_or. rewrite Hn. reflexivity.
  Qed.
  Lemma l_network b : In b l -> optional "network" b (fun v => exists s, v = VStr s).
  Proof.
    intros Hb. destruct (wired_in b Hb) as (c & _ & Hc & G). destruct (wired_facts dsa c Hc) as (_ & Hn & _). unfold optional in Hn. rewrite (G "network") in Hn by discriminate. exact Hn.
  Qed.
  Lemma all_same_named bs ys : (forall b, In b bs -> In b all) -> Forall2 (fun b y => same (VDict b) (VDict y)) bs ys -> keyed "name" ys (map iname bs).
  Proof.
    intros Hin F. induction F as [|b y bs ys Hs F IH]; [constructor|]. cbn [map]. constructor; [|apply IH; intros x Hx; apply Hin; right; exact Hx].
    eapply same_texts; [exact Hs|]. apply all_named, Hin. left; reflexivity.
  Qed.
  Lemma wfilter b : In b (filter is_wireless all) -> In b all /\ is_wireless b = true.
  Proof. apply filter_In. Qed.
  Lemma made_secs before : exists secs, fwd_loop (wifi_fwd_block table) (map VDict all) before [] = Ok (acc_of "wireless" secs) /\ Forall2 (fun b s => wsec all b s /\ section_ok s) (filter is_wireless all) secs.
  Proof.
    destruct (wifi_fwd_loop table (fun b s => wsec all b s /\ section_ok s) all before []) as (secs & E & F).
    - intros b Hb Eb. eapply wsec_made; [exact (Hw b Hb Eb)|apply table_words|apply table_get|apply addressed_truthy; assumption].
    - exists secs. auto.
  Qed.
  Lemma fixed secs own : Forall2 (fun b s => wsec all b s /\ section_ok s) (filter is_wireless all) secs -> Forall2 section_reads secs own ->
    exists own2, mapM (fix_network table) (map VDict own) = Ok (map VDict own2) /\ Forall2 wread (filter is_wireless all) own2 /\
      Forall2 (fun s s2 => NoDup (dkeys s2) /\ (forall k, dget k s2 = if String.eqb k "network" then dget k s2 else dget k s) /\ (dget "network" s2 = None \/ dget "network" s2 = dget "network" s)) own own2.
  Proof.
    assert (Hin : forall b, In b (filter is_wireless all) -> In b all /\ is_wireless b = true) by (intros b; apply wfilter). revert Hin. generalize (filter is_wireless all) as bs. intros bs Hin F. revert own.
    induction F as [|b s bs secs [Hs _] F IH]; intros own Fr; inversion Fr as [|? s' ? own' Hr Fr']; subst; [exists []; repeat split; constructor|].
    destruct (Hin b (or_introl eq_refl)) as [Hb Eb].
    destruct (wsec_read all b table (Hw b Hb Eb) (table_words _) (table_get _) s s' Hs Hr) as (s2 & E2 & N2 & G2 & O2 & R2).
    destruct (IH (fun x Hx => Hin x (or_intror Hx)) own' Fr') as (own2 & E & F2 & F3).
    exists (s2 :: own2). split; [cbn [map mapM]; rewrite E2; cbn [bind]; rewrite E; reflexivity|]. split; constructor; auto.
  Qed.
  Definition wifi_stage (secs : list dict) : stage :=
    {| sg_conv := wireless dsa; sg_key := "interfaces"; sg_pkg := "wireless"; sg_base := some_list (flat_map wired l); sg_val := Some (VList (map VDict all)); sg_more := []; sg_secs := secs;
       sg_eats := fun d => negb (skip_block [] d) |}.
  Lemma wifi_loops config0 own2 : NoDup (dkeys config0) -> agree (some_list (flat_map wired l)) (dget "interfaces" config0) ->
    (exists b, In b all /\ is_wireless b = true) -> Forall2 wread (filter is_wireless all) own2 ->
    exists config1 ys rs, foldM wback (config0, []) own2 = Ok (config1, acc_of "interfaces" rs) /\
      Forall2 (fun b y => same (VDict b) (VDict y)) l ys /\ Forall2 (fun b y => same (VDict b) (VDict y)) m rs /\
      NoDup (dkeys config1) /\ (dget "interfaces" config1 = some_list ys) /\ forall k, k <> "interfaces" -> dget k config1 = dget k config0.
  Proof.
    intros Hn Ha He F. pose proof (Hnames He) as Hnd. rewrite filter_app in F. apply Forall2_app_inv_l in F as (o1 & o2 & F1 & F2 & ->).
    assert (Em : filter is_wireless m = m) by (apply filter_all; intros b Hb; apply Hm, Hb). rewrite Em in F2.
    assert (First : exists config1 ys, foldM wback (config0, []) o1 = Ok (config1, []) /\ Forall2 (fun b y => same (VDict b) (VDict y)) l ys /\ NoDup (dkeys config1) /\ (dget "interfaces" config1 = some_list ys) /\ forall k, k <> "interfaces" -> dget k config1 = dget k config0).
    { destruct (is_nil _ l) as [El|El].
      - rewrite El in *. cbn [filter] in F1. inversion F1; subst. exists config0, []. split; [reflexivity|]. split; [constructor|]. split; [exact Hn|]. split; [exact Ha|reflexivity].
      - assert (EL : some_list (flat_map wired l) = Some (VList (map VDict (flat_map wired l)))).
        { assert (exists b0 l0, l = b0 :: l0) as (b0 & l0 & E0) by (clear -El; destruct l; [congruence|eauto]).
          destruct (wired_in b0) as (c & Ec & _); [rewrite E0; left; reflexivity|]. rewrite E0. cbn [flat_map]. rewrite Ec. reflexivity. }
        rewrite EL in Ha. destruct Ha as (v' & Hv & Hs). apply same_dicts in Hs as (xs & -> & Fx). apply from_wired in Fx; [|exact Hl].
        destruct (addressed_loop all l xs Fx) with (done := @nil dict) (ns := @nil string) (config := config0) (secs := o1) as (config1 & ys & E & Fy & N & I & O).
        + intros b Hb Eb. pose proof (Hw b (in_or_app _ _ _ (or_introl Hb)) Eb) as Hwb. split; [apply Hwb|]. split; [exact Hwb|apply l_network, Hb].
        + intros b Hb. apply all_named, in_app_iff. left; exact Hb.
        + constructor.
        + cbn [app]. rewrite map_app in Hnd. eapply NoDup_app_l; exact Hnd.
        + exact F1. + exact Hn. + exact Hv.
        + exists config1, ys. split; [exact E|]. split; [exact Fy|]. split; [exact N|]. split; [|exact O]. rewrite I. cbn [app]. clear -El Fy. destruct Fy; [congruence|reflexivity]. }
    destruct First as (config1 & ys & E & Fy & N & I & O).
    assert (Ky : keyed "name" ys (map iname l)) by (apply all_same_named; [intros b Hb; apply in_app_iff; left; exact Hb|exact Fy]).
    destruct (bare_loop all config1 ys (map iname l)) with (m := m) (secs := o2) (acc := @nil dict) as (rs & E2 & Fr).
    - unfold config_interfaces. rewrite I. destruct ys; reflexivity.
    - exact Ky.
    - intros b Hb. destruct (Hm b Hb) as [B1 B2]. split; [exact B1|]. split; [exact B2|]. split; [apply Hw; [apply in_app_iff; right; exact Hb|exact B1]|].
      intros X. rewrite map_app in Hnd. apply in_split in X as (p & q & Ex). rewrite Ex, <- app_assoc in Hnd. cbn [app] in Hnd. apply NoDup_remove_2 in Hnd. apply Hnd.
      rewrite !in_app_iff. right. right. apply in_map, Hb.
    - exact F2.
    - exists config1, ys, rs. rewrite RtAddress.foldM_app, E. cbn [bind]. split; [exact E2|]. auto.
  Qed.
  Lemma wsecs_named secs : Forall2 (fun b s => wsec all b s /\ section_ok s) (filter is_wireless all) secs -> named secs (map wifi_section_name (filter is_wireless all)).
  Proof.
    intros F. induction F as [|b s bs secs [[_ Hs] _] F IH]; [constructor|]. cbn [map]. constructor; [|exact IH]. unfold sec_name. rewrite (Hs ".name"). reflexivity.
  Qed.
  Lemma wifi_bwd_ok secs : Forall2 (fun b s => wsec all b s /\ section_ok s) (filter is_wireless all) secs ->
    forall oid B orig, wifi_sees dsa table oid B orig -> stage_bwd oid B orig (wifi_stage secs).
  Proof.
    intros F oid B orig [(ids & Hids) Htr]. split; [reflexivity|]. cbn [sg_conv sg_secs sg_pkg sg_val sg_key sg_eats sg_base sg_more dget wifi_stage]. intros own rest cfg inter Hn Ha _ Fr Hnn Hwf He Hg.
    pose proof (no_rest own rest Hnn He). subst rest. rewrite app_nil_r in *.
    destruct (fixed secs own F Fr) as (own2 & E2 & Fw & Fo).
    destruct (is_nil _ (filter is_wireless all)) as [En|En].
    - rewrite En in Fw. inversion Fw; subst. inversion Fo; subst. exists cfg, [], cfg. cbn [c_bwd wireless]. rewrite (wifi_nothing _ _ _ _ _ Htr Hg).
      split; [reflexivity|]. split; [reflexivity|]. split; [exact Hn|]. split; [reflexivity|].
      assert (Em : m = []). { destruct (is_nil _ m) as [X|X]; [exact X|]. exfalso. assert (exists b, In b m) as (b & Hb) by (clear -X; destruct m; [congruence|eexists; left; reflexivity]).
        assert (Y : In b (filter is_wireless all)) by (apply filter_In; split; [apply in_app_iff; right; exact Hb|apply Hm, Hb]). rewrite En in Y. destruct Y. }
      rewrite Em, app_nil_r in *. rewrite (no_wireless _ En) in Ha. revert Ha. unfold some_list. clear -Hne. destruct l; [congruence|]. intros Ha; exact Ha.
    - assert (Hex : exists b, In b all /\ is_wireless b = true).
      { assert (exists b, In b (filter is_wireless all)) as (b & Hb) by (clear -En; destruct (filter is_wireless all); [congruence|eexists; left; reflexivity]). exists b. apply filter_In, Hb. }
      destruct (wifi_loops cfg own2 Hn Ha Hex Fw) as (config1 & ys & rs & El & Fy & Frs & Hn1 & Hi1 & Ho1).
      assert (Eb : wifi_bwd dsa orig cfg inter = ((config1, dset "wireless" (VList []) inter), Ok (acc_of "interfaces" rs))).
      { unfold wifi_bwd, dgetE. rewrite Hg. cbn [bind as_list]. rewrite Htr. cbn [bind]. rewrite E2.
        assert (Hs : forall d, In d own2 -> skip_block ["wifi-iface"] d = false).
        { intros d Hd. destruct (Forall2_In_r _ _ _ _ Fw Hd) as (b & _ & (Ht & _)). eapply skip_typed; [exact Ht|right; reflexivity]. }
        destruct Hnn as (ns & Hnm & Hnd).
        assert (Hnm2 : named own2 ns).
        { clear - Fo Hnm. revert ns Hnm. induction Fo as [|s s2 own own2 (_ & G & _) Fo IH]; intros ns Hnm; inversion Hnm as [|? n ? ns' H1 H2]; subst; constructor; [|apply IH; assumption].
          unfold sec_name in *. rewrite (G ".name"). exact H1. }
        rewrite (loop_sweep _ (skip_block ["wifi-iface"]) wifi_bwd_block wback own2 ns (cfg, []) (config1, acc_of "interfaces" rs)); try assumption.
        - rewrite filter_none by exact Hs. reflexivity.
        - intros d [c r] i. reflexivity.
        - intros d Hd. destruct (Forall2_In_r _ _ _ _ Fo Hd) as (s & Hs0 & N2 & G & O). destruct (Hwf s Hs0) as [_ Ws]. apply wf_dict in Ws as [_ Ws]. apply wf_dict. split; [exact N2|].
          intros k v Hkv. apply (In_dget _ _ _ N2) in Hkv. destruct (String.eqb_spec k "network") as [->|Hk].
          + destruct O as [O|O]; rewrite O in Hkv; [discriminate|]. apply (Ws _ _ (dget_In _ _ _ Hkv)).
          + rewrite G, (eqb_neq _ _ Hk) in Hkv. apply (Ws _ _ (dget_In _ _ _ Hkv)).
        - rewrite filter_all by (intros d Hd; rewrite (Hs d Hd); reflexivity). exact El. }
      cbn [c_bwd wireless]. rewrite Eb. exists config1, (acc_of "interfaces" rs).
      assert (Hv : forall l', Forall2 (fun b y => same (VDict b) (VDict y)) all l' -> agree (Some (VList (map VDict all))) (Some (VList (map VDict l')))).
      { intros l' Fl. eexists. split; [reflexivity|]. apply same_lists, Fl. }
      assert (Fall : Forall2 (fun b y => same (VDict b) (VDict y)) all (ys ++ rs)) by (apply Forall2_app; assumption).
      assert (Done : rs = [] -> agree (Some (VList (map VDict all))) (dget "interfaces" config1)).
      { intros ->. rewrite app_nil_r in Fall. rewrite Hi1. destruct ys as [|y ys]; [inversion Fall; congruence|]. apply (Hv _ Fall). }
      destruct rs as [|r0 rs0] eqn:Er.
      + exists config1. split; [reflexivity|]. split; [reflexivity|]. split; [exact Hn1|]. split; [exact Ho1|]. apply Done. reflexivity.
      + rewrite <- Er in *. assert (Ea : acc_of "interfaces" rs = [("interfaces", VList (map VDict rs))]) by (rewrite Er; reflexivity). rewrite Ea, Hids.
        exists (dset "interfaces" (VList (map VDict (ys ++ rs))) config1). split; [reflexivity|]. split; [|split; [apply NoDup_dset, Hn1|split; [intros k Hk; rewrite dget_dset, eqb_neq by exact Hk; apply Ho1, Hk|rewrite dget_dset, eqb_refl; apply Hv, Fall]]].
        destruct ys as [|y ys0] eqn:Ey; [rewrite merge_fresh_package by exact Hi1; reflexivity|]. rewrite <- Ey in *.
        rewrite merge_config_cons. replace (dget "interfaces" config1) with (Some (VList (map VDict ys))) by (rewrite Hi1, Ey; reflexivity). rewrite merge_val_list.
        rewrite (merge_named "name" ids oid ys rs (map iname l) (map iname m)); [reflexivity| | |].
        * apply all_same_named; [intros b Hb; apply in_app_iff; left; exact Hb|exact Fy].
        * apply all_same_named; [intros b Hb; apply in_app_iff; right; exact Hb|exact Frs].
        * rewrite <- map_app. apply Hnames, Hex.
  Qed.
  Lemma wifi_stage_ok : exists secs, stage_facts_if (wifi_ready dsa table) (wifi_sees dsa table) config (wifi_stage secs)
      (map wifi_section_name (filter is_wireless all)) (fun t => t = "wifi-iface") /\ Forall2 (wsec all) (filter is_wireless all) secs.
  Proof.
    destruct (made_secs 0) as (secs & E & F). exists secs.
    assert (Fs : forall s, In s secs -> exists b, wsec all b s /\ section_ok s) by (intros s Hs; destruct (Forall2_In_r _ _ _ _ F Hs) as (b & _ & X); eauto).
    split; [|clear -F; induction F as [|b s bs ss [H _] F IH]; constructor; assumption]. constructor.
    - intros before Hr. right. split; [cbn; unfold dmem; rewrite Hcfg; reflexivity|]. intros inter Hh. cbn [sg_conv wifi_stage c_fwd wireless sg_pkg sg_secs]. unfold wifi_fwd. rewrite (Hr inter Hh). cbn [bind].
      unfold fwd_list, dgetN. rewrite Hcfg. cbn [as_list bind]. rewrite E. destruct secs; reflexivity.
    - intros oid B orig _ Hs. apply wifi_bwd_ok; assumption.
    - cbn [sg_secs sg_val sg_base sg_more wifi_stage]. intros ->. split; [|reflexivity]. inversion F as [En|]. symmetry in En. 
      assert (Em : m = []). { destruct (is_nil _ m) as [X|X]; [exact X|]. exfalso. assert (exists b, In b m) as (b & Hb) by (clear -X; destruct m; [congruence|eexists; left; reflexivity]).
        assert (Y : In b (filter is_wireless all)) by (apply filter_In; split; [apply in_app_iff; right; exact Hb|apply Hm, Hb]). rewrite En in Y. destruct Y. }
      rewrite Em, app_nil_r in *. rewrite (no_wireless _ En). unfold some_list. clear -Hne. destruct l; [congruence|reflexivity].
    - intros s Hs. destruct (Fs s Hs) as (b & _ & X). exact X.
    - apply wsecs_named, F.
    - intros s Hs. destruct (Fs s Hs) as (b & [_ X] & _). eexists. split; [reflexivity|]. rewrite (X ".type"). reflexivity.
    - intros s s' Hs Hr. destruct (Fs s Hs) as (b & [_ X] & _). eexists. split; [reflexivity|].
      destruct (section_reads_plain s s' "wifi-iface" Hr) as [_ G]; [rewrite (X ".type"); reflexivity|discriminate|discriminate|]. rewrite G. ev. cbn [orb]. rewrite (X ".type"). reflexivity.
  Qed.
End Wifi.
Definition tracked (config : dict) : list (string * list string) := bridge_adds (network_interfaces config) [].
Lemma names_of_interfaces dsa : forall L, NoDup (flat_map (interface_names dsa) L) -> NoDup (map interface_name L).
Proof.
  induction L as [|b L IH]; intros H; [constructor|]. cbn [flat_map map] in *. unfold interface_names at 1 in H. rewrite <- app_assoc in H. apply NoDup_app_r in H. cbn [app] in H.
  inversion H as [|? ? Hni H']; subst. constructor; [|apply IH, H']. intros X. apply Hni. apply in_map_iff in X as (c & <- & Hc). apply in_flat_map. exists c. split; [exact Hc|].
  unfold interface_names. apply in_app_iff. right. left. reflexivity.
Qed.
Lemma wireless_stage dsa config : interfaces_at dsa config -> NoDup (flat_map (interface_names dsa) (network_interfaces config)) ->
  stage_for_if config (wifi_ready dsa (tracked config)) (wifi_sees dsa (tracked config)) (dget "interfaces" config) (some_list (network_interfaces config)) []
    (wireless dsa) "interfaces" "wireless" [] (map wifi_section_name (wireless_interfaces config)) (fun t => t = "wifi-iface")
    (Forall2 (wsec (objects "interfaces" config)) (wireless_interfaces config)).
Proof.
  unfold interfaces_at, optional, tracked, network_interfaces, wireless_interfaces. destruct (dget "interfaces" config) as [v|] eqn:Hk.
  - intros (l & m & -> & Hne & Hl & Hm & Hok & _ & Hw & Hnm). rewrite (objects_list _ _ _ Hk).
    assert (Ewm : flat_map wired (l ++ m) = flat_map wired l) by (rewrite flat_map_app, (wired_bare m Hm); apply app_nil_r). rewrite Ewm. intros Hnd.
    destruct (wifi_stage_ok dsa config l m Hk Hne Hl Hm Hok Hw Hnm (names_of_interfaces dsa _ Hnd)) as (secs & F & S).
    exists (wifi_stage dsa l m secs). split; [|split; [|split; [|split; [|split; [|split; [|split; [|split]]]]]]]; try reflexivity; assumption.
  - intros _ _. rewrite (objects_none _ _ Hk). cbn [flat_map filter map some_list].
    exists {| sg_conv := wireless dsa; sg_key := "interfaces"; sg_pkg := "wireless"; sg_base := None; sg_val := None; sg_more := []; sg_secs := []; sg_eats := fun d => negb (skip_block [] d) |}.
    split; [|split; [|split; [|split; [|split; [|split; [|split; [|split]]]]]]]; try reflexivity; [|constructor]. constructor; try (intros; contradiction).
    + intros before _. left. split; [reflexivity|]. cbn. unfold dmem. rewrite Hk. reflexivity.
    + intros oid B orig _ [_ Ht]. apply alone_bwd; [reflexivity|reflexivity|]. split; [reflexivity|]. cbn [sg_conv sg_secs sg_pkg sg_val sg_key sg_eats]. intros own rest cfg inter Fo Hnn _ He Hg. inversion Fo; subst.
      pose proof (no_rest [] rest Hnn He). subst rest. exists []. split; [|reflexivity]. cbn [c_bwd wireless]. rewrite (wifi_nothing _ _ _ _ _ Ht Hg). reflexivity.
    + split; reflexivity.
    + constructor.
Qed.
