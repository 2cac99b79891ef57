(** * RtBridged: the bridges that a wireless interface is a member of, found in
    the sections and in what is read from them (proofs only). *)
From Verif Require Import PyBase PyLemmas StrLemmas NumLemmas Merge Backend Conv Ip OwrtConv OwrtWireless OwrtInterfaces
  SpecUci SpecConv SpecDevice SpecShapes SpecWhole ConvLemmas SortLemmas RtStage RtBack RtGeneric RtSystem RtNetwork RtSwitch RtTrip RtAddress RtInterface RtIfFwd RtIfOk RtIfBack RtIfDev RtProto RtIfStage FilesProofs VpnProofs RtEnc RtWifi RtStages.

(** ** The table of members *)
Definition bridge_adds (l : list dict) (m : list (string * list string)) : list (string * list string) :=
  fold_left (fun m b => if is_bridge b then fold_left (bridge_add (interface_name b)) (members b) m else m) l m.
Definition listed (l : list string) : option (list string) := match l with [] => None | _ => Some l end.
Lemma listed_app l x : listed (l ++ [x]) = Some (l ++ [x])%list.
Proof. destruct l; reflexivity. Qed.
Lemma add_other u m n x : n <> x -> dget n (bridge_add u m x) = dget n m.
Proof.
  intros H. unfold bridge_add. destruct (dget x m) as [l|]; [destruct (existsb (String.eqb u) l); [reflexivity|]|]; rewrite dget_dset, eqb_neq by exact H; reflexivity.
Qed.
Lemma adds_again u n : forall ms m l, dget n m = Some l -> existsb (String.eqb u) l = true -> dget n (fold_left (bridge_add u) ms m) = Some l.
Proof.
  induction ms as [|x ms IH]; intros m l Hm Hu; [exact Hm|]. cbn [fold_left]. apply IH; [|exact Hu].
  destruct (String.eqb_spec n x) as [<-|Hx]; [|rewrite add_other by exact Hx; exact Hm]. unfold bridge_add. rewrite Hm, Hu. exact Hm.
Qed.
Lemma adds_members u n : forall ms m l, dget n m = listed l -> existsb (String.eqb u) l = false ->
  dget n (fold_left (bridge_add u) ms m) = listed (if existsb (String.eqb n) ms then l ++ [u] else l)%list.
Proof.
  induction ms as [|x ms IH]; intros m l Hm Hu; [exact Hm|]. cbn [fold_left existsb].
  destruct (String.eqb_spec n x) as [<-|Hx]; cbn [orb]; [|apply IH; [rewrite add_other by exact Hx; exact Hm|exact Hu]].
  rewrite listed_app. apply adds_again; [|rewrite existsb_app; cbn; rewrite eqb_refl; apply orb_true_r].
  unfold bridge_add. rewrite Hm. destruct l as [|y l]; cbn [listed]; [|rewrite Hu]; rewrite dget_dset, eqb_refl; reflexivity.
Qed.
Lemma adds_bridges n : forall l m seen, dget n m = listed seen -> NoDup (seen ++ map interface_name l) ->
  dget n (bridge_adds l m) = listed (seen ++ bridges_of n l).
Proof.
  induction l as [|b l IH]; intros m seen Hm Hnd; [unfold bridges_of; cbn; rewrite app_nil_r; exact Hm|].
  assert (Hnd' : NoDup (seen ++ map interface_name l)) by (cbn [map] in Hnd; eapply NoDup_remove_1; exact Hnd).
  assert (Hni : existsb (String.eqb (interface_name b)) seen = false).
  { apply Bool.not_true_iff_false. intros X. apply existsb_in in X. cbn [map] in Hnd. apply NoDup_remove_2 in Hnd. apply Hnd, in_app_iff. left; exact X. }
  unfold bridge_adds, bridges_of in *. cbn [fold_left filter]. destruct (is_bridge b); cbn [andb]; [|apply IH; assumption].
  pose proof (adds_members (interface_name b) n (members b) m seen Hm Hni) as Hm1.
  destruct (existsb (String.eqb n) (members b)) eqn:E.
  - rewrite (IH _ (seen ++ [interface_name b])%list Hm1); [cbn [map]; rewrite <- app_assoc; reflexivity|]. rewrite <- app_assoc. exact Hnd.
  - apply IH; assumption.
Qed.

(** ** Sections *)
Lemma neutral_track dsa m s : dget "type" s <> text "bridge" -> track_one dsa m (VDict s) = Ok m.
Proof.
  intros H. unfold track_one. cbn [as_dict bind]. unfold dgetN. destruct (dget "type" s) as [v|]; [|reflexivity].
  destruct (py_eq v (VStr "bridge")) eqn:E; [|reflexivity]. exfalso. apply H. destruct v; try discriminate E. cbn in E. apply String.eqb_eq in E. subst. reflexivity.
Qed.
Lemma neutral_tracks dsa : forall ss m, (forall s, In s ss -> dget "type" s <> text "bridge") -> foldM (track_one dsa) m (map VDict ss) = Ok m.
Proof.
  induction ss as [|s ss IH]; intros m H; [reflexivity|]. cbn [map foldM]. rewrite neutral_track by (apply H; left; reflexivity). cbn [bind]. apply IH.
  intros x Hx. apply H. right; exact Hx.
Qed.
(** What matters in the sections of an interface *)
Definition bridge_named (dsa : bool) (u : string) (br : bool) (ms : list string) (i : dict) : Prop :=
  (dget "type" i = if br && negb dsa then text "bridge" else None) /\ dget ".name" i = text u /\
  (dsa = false -> dget "ifname" i = if br then match ms with [] => None | _ => text (join " " ms) end else dget "ifname" i).
Definition device_named (u : string) (br : bool) (ms : list string) (d : dict) : Prop :=
  (if br then dget "type" d = text "bridge" else dget "type" d <> text "bridge") /\ dget ".name" d = text ("device_" +++ u) /\
  (br = true -> dget "ifname" d = None /\ dget "ports" d = match ms with [] => None | _ => Some (VList (map VStr ms)) end).
Lemma track_interface dsa u br ms i m : (forall x, In x ms -> word x) -> bridge_named dsa u br ms i ->
  track_one dsa m (VDict i) = Ok (if br && negb dsa then fold_left (bridge_add u) ms m else m).
Proof.
  intros Hw (Ht & Hn & Hi). destruct (br && negb dsa) eqn:E; [|apply neutral_track; rewrite Ht; discriminate].
  apply andb_prop in E as [-> E]. apply negb_true_iff in E. subst dsa. unfold track_one. cbn [as_dict bind]. unfold dgetN. rewrite Ht. unfold text. rewrite py_eq_text. cbn [String.eqb Ascii.eqb Bool.eqb negb].
  unfold bridge_members. cbn [andb]. unfold dgetN. rewrite (Hi eq_refl). destruct ms as [|x ms]; [reflexivity|]. unfold text. cbn [bind].
  rewrite split_char_of_join; [|discriminate|intros y Hy; apply word_nospace, Hw, Hy]. unfold dgetE. rewrite Hn. reflexivity.
Qed.
Lemma track_device u br ms d m : device_named u br ms d ->
  track_one true m (VDict d) = Ok (if br then fold_left (bridge_add u) ms m else m).
Proof.
  intros (Ht & Hn & Hp). destruct br; [|apply neutral_track; exact Ht]. destruct (Hp eq_refl) as [Hi Hp']. unfold track_one. cbn [as_dict bind]. unfold dgetN. rewrite Ht. unfold text. rewrite py_eq_text.
  cbn [String.eqb Ascii.eqb Bool.eqb negb]. unfold bridge_members. unfold dgetN. rewrite Hp', Hi. destruct ms as [|x ms]; [reflexivity|].
  change (truthy (VList (map VStr (x :: ms)))) with true. cbn [andb]. rewrite iter_strs_texts. cbn [bind]. unfold dgetE. rewrite Hn. unfold text. cbn [bind as_str andb].
  rewrite startswith_app. cbn iota. reflexivity.
Qed.

Lemma iface_bridge dsa b n u br ms opts : iface dsa b n u br ms opts -> is_bridge b = br /\ (if br then members b = ms else True).
Proof.
  intros H. unfold is_bridge, members, texts. rewrite (i_type _ _ _ _ _ _ _ H), (i_mem _ _ _ _ _ _ _ H). unfold text. destruct br; [split; [reflexivity|]|destruct (existsb _ _); auto].
  apply map_texts.
Qed.
Lemma isec_named dsa b n u br ms opts i : (forall k, dget k i = isec dsa b n u br ms opts k) -> bridge_named dsa u br ms i.
Proof.
  intros G. split; [rewrite G; reflexivity|]. split; [rewrite G; reflexivity|]. intros ->. destruct br; [|reflexivity]. rewrite G. reflexivity.
Qed.
Lemma iread_named dsa b n u br ms opts i : (forall x, In x ms -> word x) -> iread dsa b n u br ms opts i -> bridge_named dsa u br ms i.
Proof.
  intros Hw [_ G]. split; [rewrite G; cbn [String.eqb Ascii.eqb Bool.eqb orb startswith]; change (isec dsa b n u br ms opts "type") with (if br && negb dsa then text "bridge" else None); destruct (br && negb dsa); reflexivity|].
  split; [rewrite G; reflexivity|]. intros ->. destruct br; [|reflexivity]. rewrite G. cbn [String.eqb Ascii.eqb Bool.eqb orb startswith].
  change (isec false b n u true ms opts "ifname") with (match ms with [] => None | _ => text (join " " ms) end). destruct ms as [|x ms]; [reflexivity|]. apply uopt_text.
  apply String.eqb_neq. rewrite join_empty by exact Hw. reflexivity.
Qed.
Lemma dsec_named b n u br ms d : (forall k, dget k d = dsec b n u br ms k) -> device_named u br ms d.
Proof.
  intros G. split; [destruct br; rewrite G; [reflexivity|discriminate]|]. split; [rewrite G; reflexivity|]. intros ->. split; rewrite G; reflexivity.
Qed.
Lemma dread_named b n u br ms d : dread b n u br ms d -> device_named u br ms d.
Proof.
  intros [_ G]. split; [destruct br; rewrite G; [reflexivity|discriminate]|]. split; [rewrite G; reflexivity|]. intros ->. split; rewrite G; [reflexivity|].
  cbn [String.eqb Ascii.eqb Bool.eqb orb startswith]. change (dsec b n u true ms "ports") with (match ms with [] => None | _ => Some (VList (map VStr ms)) end).
  destruct ms as [|x ms]; [reflexivity|]. unfold uopt, uci_value. cbn [map]. f_equal. f_equal. cbn [map]. f_equal. rewrite map_map. reflexivity.
Qed.
Lemma proto_bridge b t n u l opts : piface b t n u l opts -> is_bridge b = false.
Proof.
  intros H. unfold is_bridge. rewrite (p_type _ _ _ _ _ _ H). destruct (protocol_cases _ (p_in _ _ _ _ _ _ H)) as [-> |[-> |[-> | ->]]]; reflexivity.
Qed.
(** The sections of the interfaces, or what is read from them *)
Lemma if_tracked dsa config : forall l ss, if_list dsa config l ss -> forall own, own = ss \/ Forall2 section_reads ss own ->
  forall m, foldM (track_one dsa) m (map VDict own) = Ok (bridge_adds l m).
Proof.
  intros l ss H. induction H as [|b l n br ms opts secs ss Hi _ Hs H IH|b l t n ads opts s0 ss Hp _ Ss Gs H IH]; intros own Ho m.
  - destruct Ho as [->|Ho]; [reflexivity|]. inversion Ho; subst. reflexivity.
  - assert (Hw : forall x, In x ms -> word x) by apply (i_words _ _ _ _ _ _ _ Hi).
    assert (Hown : exists o1 o2, own = (o1 ++ o2)%list /\ (o2 = ss \/ Forall2 section_reads ss o2) /\ forall m, foldM (track_one dsa) m (map VDict o1) = Ok (if br then fold_left (bridge_add (interface_name b)) ms m else m)).
    { assert (D : forall i, bridge_named dsa (interface_name b) br ms i -> dsa = false \/ br = false -> forall m, foldM (track_one dsa) m [VDict i] = Ok (if br then fold_left (bridge_add (interface_name b)) ms m else m)).
      { intros i Hn Hd m0. cbn [foldM]. rewrite (track_interface dsa _ _ _ _ _ Hw Hn). cbn [bind]. destruct Hd as [-> | ->]; [rewrite andb_true_r|]; reflexivity. }
      assert (D2 : dsa = true -> forall d i, device_named (interface_name b) br ms d -> bridge_named dsa (interface_name b) br ms i -> forall m, foldM (track_one dsa) m [VDict d; VDict i] = Ok (if br then fold_left (bridge_add (interface_name b)) ms m else m)).
      { intros -> d i Hd Hn m0. cbn [foldM]. rewrite (track_device _ _ _ _ _ Hd). cbn [bind]. rewrite (track_interface true _ _ _ _ _ Hw Hn). rewrite andb_false_r. reflexivity. }
      destruct Ho as [->|Ho].
      - exists secs, ss. split; [reflexivity|]. split; [left; reflexivity|]. destruct Hs as [i E Si Gi|d i E1 E2 Sd Gd Si Gi].
        + apply D; [eapply isec_named, Gi|]. unfold has_device in E. destruct dsa; [right; destruct br; [discriminate E|reflexivity]|left; reflexivity].
        + apply D2; [exact E1|eapply dsec_named, Gd|eapply isec_named, Gi].
      - apply Forall2_app_inv_l in Ho as (o1 & o2 & Ho1 & Ho2 & ->). exists o1, o2. split; [reflexivity|]. split; [right; exact Ho2|]. destruct Hs as [i E Si Gi|d i E1 E2 Sd Gd Si Gi].
        + inversion Ho1 as [|? i' ? ? Hr Hr2]; subst. inversion Hr2; subst. apply D; [eapply iread_named; [exact Hw|eapply isec_read; eassumption]|].
          unfold has_device in E. destruct dsa; [right; destruct br; [discriminate E|reflexivity]|left; reflexivity].
        + inversion Ho1 as [|? d' ? ? Hr1 Hr2]; subst. inversion Hr2 as [|? i' ? ? Hr3 Hr4]; subst. inversion Hr4; subst.
          apply D2; [reflexivity|eapply dread_named, dsec_read; eassumption|eapply iread_named; [exact Hw|eapply isec_read; eassumption]]. }
    destruct (iface_bridge _ _ _ _ _ _ _ Hi) as [Eb Em]. destruct Hown as (o1 & o2 & -> & Ho2 & E). rewrite map_app, RtAddress.foldM_app, E. cbn [bind]. rewrite (IH o2 Ho2). unfold bridge_adds at 2. cbn [fold_left]. rewrite Eb.
    destruct br; [rewrite Em|]; reflexivity.
  - assert (Hown : exists s o2, own = s :: o2 /\ (o2 = ss \/ Forall2 section_reads ss o2) /\ dget "type" s = None).
    { destruct Ho as [->|Ho]; [exists s0, ss; split; [reflexivity|]; split; [left; reflexivity|]; rewrite Gs; reflexivity|].
      inversion Ho as [|? s' ? o2 Hr Ho2]; subst. exists s', o2. split; [reflexivity|]. split; [right; exact Ho2|]. destruct (psec_read _ _ _ _ _ _ _ _ Hp Hr Gs) as [_ G]. rewrite G. reflexivity. }
    destruct Hown as (s & o2 & -> & Ho2 & Et). cbn [map foldM]. rewrite neutral_track by (rewrite Et; discriminate). cbn [bind]. rewrite (IH o2 Ho2). unfold bridge_adds at 2. cbn [fold_left].
    rewrite (proto_bridge _ _ _ _ _ _ Hp). reflexivity.
Qed.

(** ** Bridges are never wireless *)
Lemma bridges_wired n : forall l, (forall b, In b l -> is_wireless b = true -> is_bridge b = false) -> bridges_of n (flat_map wired l) = bridges_of n l.
Proof.
  unfold bridges_of. induction l as [|b l IH]; intros H; [reflexivity|]. cbn [flat_map]. rewrite filter_app, map_app, IH by (intros x Hx; apply H; right; exact Hx).
  cbn [filter]. unfold wired. destruct (is_wireless b) eqn:Ew; [|cbn [filter]; destruct (_ && _); reflexivity].
  rewrite (H b (or_introl eq_refl) Ew). cbn [andb]. destruct (addressed b); [|reflexivity]. cbn [filter]. unfold is_bridge. rewrite dget_dset. reflexivity.
Qed.
Lemma identifier_idem n : identifier (identifier n) = identifier n.
Proof.
  unfold identifier. rewrite !replace_char. induction n as [|c n IH]; [reflexivity|]. cbn [smap]. rewrite IH. f_equal.
  destruct (Ascii.eqb_spec "." c) as [<-|H1]; [reflexivity|]. destruct (Ascii.eqb_spec "-" c) as [<-|H2]; [reflexivity|].
  apply Ascii.eqb_neq in H1, H2. rewrite H1, H2. reflexivity.
Qed.
Lemma bridges_words dsa n l x : (forall b, In b l -> wired_ok dsa b) -> In x (bridges_of n l) -> word x /\ identifier x = x.
Proof.
  intros H Hx. unfold bridges_of in Hx. apply in_map_iff in Hx as (b & <- & Hb). apply filter_In in Hb as [Hb Ei]. apply andb_prop in Ei as [Ei _].
  destruct (H b Hb) as [Hw|Hw]; [|destruct (piface_of [] b (conj I I) Hw) as (t & m & ads & opts & Hp & _); rewrite (proto_bridge _ _ _ _ _ _ Hp) in Ei; discriminate Ei].
  destruct (iface_of dsa [] b (conj I I) Hw) as (m & br & ms & opts & Hi & _). split; [split; [apply (i_une _ _ _ _ _ _ _ Hi)|apply (i_bare _ _ _ _ _ _ _ Hi)]|].
  unfold interface_name. apply identifier_idem.
Qed.
