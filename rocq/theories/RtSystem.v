(** * RtSystem: the round trip of the objects of the package system: general,
    ntp, led (proofs only). *)
From Verif Require Import PyBase PyLemmas StrLemmas Merge MergeProofs Backend Conv OwrtConv Timezones SpecUci SpecConv SpecDevice
  ConvLemmas SortLemmas RtStage RtBack RtGeneric.

Lemma same_of_map d d' : (forall k, dget k d' = dget k d) -> same (VDict d) (VDict d').
Proof. intros H. apply same_dict; intros k; [intros v Hv; exists v; rewrite H; split; [exact Hv|apply same_refl]|intros Hk; rewrite H; exact Hk]. Qed.

(** Fields that survive, read back and cast *)
Lemma field_back props skip b k : NoDup (dkeys b) -> fields_survive props skip b -> ~ In k skip ->
  match (match dget k b with Some v => uci_value v | None => None end) with
  | Some u => exists v, cast_value (dget k props) u = Ok v /\ dget k b = Some v
  | None => dget k b = None
  end.
Proof.
  intros Hnd H Hs. destruct (dget k b) as [v|] eqn:E; [|reflexivity].
  destruct (H k v (dget_In _ _ _ E) Hs) as (_ & _ & Hv). destruct (survives_read _ _ Hv) as (u & -> & Hc). eauto.
Qed.
Lemma dotted_absent props skip b k : fields_survive props skip b -> ~ In k skip -> startswith "." k = true -> dget k b = None.
Proof.
  intros H Hs Hk. destruct (dget k b) as [v|] eqn:E; [|reflexivity].
  destruct (H k v (dget_In _ _ _ E) Hs) as (_ & Hd & _). congruence.
Qed.
Lemma field_writes props skip b k v : fields_survive props skip b -> ~ In k skip -> dget k b = Some v -> word k /\ writable v.
Proof.
  intros H Hs E. destruct (H k v (dget_In _ _ _ E) Hs) as (Hw & _ & Hv). split; [exact Hw|eapply survives_writable; exact Hv].
Qed.
Lemma reads_get s s' k : reads_as s s' -> dget k s' =
    if String.eqb k ".type" || String.eqb k ".name" then dget k s
    else if startswith "." k then None
    else match dget k s with Some v => uci_value v | None => None end.
Proof. intros [_ H]. apply H. Qed.
Lemma truthy_text s : s <> EmptyString -> truthy (VStr s) = true.
Proof. intros H. destruct s; [congruence|reflexivity]. Qed.
Lemma py_eq_text a b : py_eq (VStr a) (VStr b) = String.eqb a b. Proof. reflexivity. Qed.

(** Decide every test on the names of fields in turn. *)
Ltac field k n := let E := fresh "Ek" in destruct (String.eqb_spec k n) as [E|?]; [subst k|].
Lemma word_lit s : s <> EmptyString -> sforall (fun c => negb (is_space c) && negb (Ascii.eqb c SQc) && negb (Ascii.eqb c DQc)) s = true -> word s.
Proof. split; assumption. Qed.
Ltac wordlit := apply word_lit; [discriminate|reflexivity].
Ltac notin := cbn [In]; intros Hin; repeat (destruct Hin as [Hin|Hin]; [congruence|]); exact Hin.

(** What a converter must do for one object: make a good section of the given
    type and name, and get the object back from whatever is read. *)
Definition object_rt (b : dict) (name type : string) (sec : res dict) (back : dict -> res dict) : Prop :=
  exists s, sec = Ok s /\ section_ok s /\ sec_name s name /\ dget ".type" s = Some (VStr type) /\
    forall s', section_reads s s' -> dget ".type" s' = Some (VStr type) /\ exists b', back s' = Ok b' /\ same (VDict b) (VDict b').


Lemma object_intro b s name type sec back : sec = Ok s -> section_ok s -> sec_name s name ->
  dget ".type" s = Some (VStr type) -> type <> "device" -> type <> "bridge-vlan" ->
  (forall s', NoDup (dkeys s') -> dget ".type" s' = Some (VStr type) -> dget ".name" s' = Some (VStr name) ->
     (forall k, dget k s' = if String.eqb k ".type" || String.eqb k ".name" then dget k s
        else if startswith "." k then None else match dget k s with Some v => uci_value v | None => None end) ->
     exists b', back s' = Ok b' /\ same (VDict b) (VDict b')) ->
  object_rt b name type sec back.
Proof.
  intros Hs Hok Hn Ht H1 H2 H. exists s. split; [exact Hs|]. split; [exact Hok|]. split; [exact Hn|]. split; [exact Ht|].
  intros s' Hr. pose proof (section_reads_plain _ _ _ Hr Ht H1 H2) as Hr'.
  assert (Et : dget ".type" s' = Some (VStr type)) by (rewrite (reads_get _ _ _ Hr'); exact Ht).
  assert (En : dget ".name" s' = Some (VStr name)) by (rewrite (reads_get _ _ _ Hr'); exact Hn).
  split; [exact Et|]. apply H; [apply sorted_NoDup, Hr'|exact Et|exact En|]. intros k. apply reads_get, Hr'.
Qed.
(** Names that are explicit or automatic *)
Lemma name_cases key auto b : optional key b (explicit auto) ->
  exists n, name_or key auto b = n /\ pop_or key (VStr auto) b = VStr n /\ vor (pop_or key VNull b) (VStr auto) = VStr n /\
    ((dget key b = None /\ n = auto) \/ (dget key b = Some (VStr n) /\ n <> auto /\ word n)).
Proof.
  unfold optional, explicit, name_or, pop_or. destruct (dget key b) as [v|].
  - intros (n & -> & Hw & Hn). exists n. split; [reflexivity|]. split; [reflexivity|]. split; [|auto].
    unfold vor. rewrite truthy_text by apply Hw. reflexivity.
  - intros _. exists auto. split; [reflexivity|]. split; [reflexivity|]. split; [reflexivity|auto].
Qed.
Lemma name_bare key auto b n : (dget key b = None /\ n = auto) \/ (dget key b = Some (VStr n) /\ n <> auto /\ word n) -> bare auto -> bare n.
Proof. intros [[_ ->]|(_ & _ & H)] Hb; [exact Hb|apply H]. Qed.

(** Evaluate the tests on names that are known; then split on the others. *)
Lemma eqb_true_if (A : Type) (a : string) (x y : A) : (if String.eqb a a then x else y) = x.
Proof. rewrite eqb_refl. reflexivity. Qed.
Ltac ev := repeat match goal with
  | |- context [String.eqb ?a ?a] => rewrite (eqb_refl a)
  | H : ?a <> ?b |- context [String.eqb ?a ?b] => rewrite (eqb_neq a b H)
  | |- context [String.eqb ?a ?b] =>
      let r := eval vm_compute in (String.eqb a b) in
      match r with true => change (String.eqb a b) with true | false => change (String.eqb a b) with false end
  | |- context [startswith "." ?a] =>
      let r := eval vm_compute in (startswith "." a) in
      match r with true => change (startswith "." a) with true | false => change (startswith "." a) with false end
  end; cbn [orb andb negb].
Ltac fields k := repeat (ev; match goal with |- context [String.eqb k ?n] => field k n end); ev.
Ltac dget_now := unfold dgetE; dg; ev.

Lemma ntp_object b : ntp_ok b ->
  object_rt b (name_or "id" "ntp" b) "timeserver" (Ok (ssort (dupdate (ddel "id" b) [(".type", VStr "timeserver"); (".name", pop_or "id" (VStr "ntp") b)]))) ntp_back.
Proof.
  intros (Hnd & Hne & Hid & Hf). destruct (name_cases _ _ _ Hid) as (n & -> & -> & _ & Hn).
  set (X := dupdate _ _). assert (HX : NoDup (dkeys X)) by (unfold X; nodup).
  assert (Hget : forall k, dget k (ssort X) = if String.eqb k ".name" then Some (VStr n) else if String.eqb k ".type" then Some (VStr "timeserver")
     else if String.eqb k "id" then None else dget k b) by (intros k; unfold X; dg; reflexivity).
  eapply object_intro; [reflexivity| |unfold sec_name; rewrite Hget; reflexivity|rewrite Hget; reflexivity|discriminate|discriminate|].
  - eapply section_ok_intro; [apply ssort_NoDup, HX|rewrite Hget; reflexivity|wordlit|rewrite Hget; reflexivity|eapply name_bare; [exact Hn|reflexivity]|].
    intros k v. rewrite Hget. fields k; try discriminate. intros Hk _ _. eapply field_writes; [exact Hf|notin|exact Hk].
  - intros s' Hnd' Gt Gn G. unfold ntp_back. dget_now. rewrite Gt. cbn [bind]. dget_now. rewrite Gn. cbn [bind].
    unfold set_unless. rewrite py_eq_text.
    destruct (type_cast_pointwise ntp_props (if String.eqb n "ntp" then ddel ".name" (ddel ".type" s') else dset "id" (VStr n) (ddel ".name" (ddel ".type" s'))) (fun k => dget k b)) as (b' & Hb & Hnb & Hs').
    + destruct (String.eqb n "ntp"); nodup.
    + intros k. destruct Hn as [[Hn ->]|(Hn & Hne' & _)]; ev; dg; rewrite ?G, ?Hget; fields k;
      try (rewrite Hn; try (eexists; split; reflexivity); reflexivity);
      try (eapply dotted_absent; [exact Hf|notin|reflexivity]).
      all: destruct (startswith "." k) eqn:Ed; [eapply dotted_absent; [exact Hf|notin|exact Ed]|].
      all: apply (field_back ntp_fields ["id"] b k Hnd Hf); notin.
    + exists b'. split; [exact Hb|]. apply same_of_map, Hs'.
Qed.
Ltac others k Hnd Hf := let Ed := fresh "Ed" in
  destruct (startswith "." k) eqn:Ed; [eapply dotted_absent; [exact Hf|notin|exact Ed]|];
  eapply field_back; [exact Hnd|exact Hf|notin].
Ltac dotted Hf := eapply dotted_absent; [exact Hf|notin|reflexivity].

Lemma led_object b : led_ok b -> object_rt b (led_name b) "led" (led_section b) led_back.
Proof.
  intros (Hnd & (m & Hm & Hbare & Hid) & Hf). unfold led_name.
  assert (Em : name_or "name" EmptyString b = m) by (unfold name_or; rewrite Hm; reflexivity). rewrite Em. clear Em.
  destruct (name_cases _ _ _ Hid) as (n & -> & Hpop & _ & Hn).
  assert (Hsec : led_section b = Ok (ssort (dupdate (ddel "id" b) [(".type", VStr "led"); (".name", VStr n)]))).
  { unfold led_section, led_auto_name. dget_now. rewrite Hm. cbn [bind as_str].
    destruct Hn as [[Hn ->]|(Hn & _ & Hw)]; unfold pop_or; rewrite Hn; [reflexivity|]. rewrite truthy_text by apply Hw. reflexivity. }
  rewrite Hsec. set (X := dupdate _ _). assert (HX : NoDup (dkeys X)) by (unfold X; nodup).
  assert (Hget : forall k, dget k (ssort X) = if String.eqb k ".name" then Some (VStr n) else if String.eqb k ".type" then Some (VStr "led")
     else if String.eqb k "id" then None else dget k b) by (intros k; unfold X; dg; reflexivity).
  assert (Hmp : m <> EmptyString).
  { destruct (Hf "name" (VStr m) (dget_In _ _ _ Hm)) as (_ & _ & Hs); [notin|]. apply Hs. }
  eapply object_intro; [reflexivity| |unfold sec_name; rewrite Hget; reflexivity|rewrite Hget; reflexivity|discriminate|discriminate|].
  - eapply section_ok_intro; [apply ssort_NoDup, HX|rewrite Hget; reflexivity|wordlit|rewrite Hget; reflexivity|eapply name_bare; [exact Hn|exact Hbare]|].
    intros k v. rewrite Hget. fields k; try discriminate. intros Hk _ _. eapply field_writes; [exact Hf|notin|exact Hk].
  - intros s' Hnd' Gt Gn G. unfold led_back, led_auto_name. dget_now. rewrite Gt. cbn [bind]. dget_now. rewrite Gn. cbn [bind].
    dget_now. rewrite G. ev. rewrite Hget. ev. rewrite Hm.
    replace (uci_value (VStr m)) with (Some (VStr m)) by (destruct m; [congruence|reflexivity]). cbn [bind as_str].
    unfold set_unless. rewrite py_eq_text.
    destruct (type_cast_pointwise led_props (if String.eqb n ("led_" +++ lower m) then ddel ".name" (ddel ".type" s') else dset "id" (VStr n) (ddel ".name" (ddel ".type" s'))) (fun k => dget k b)) as (b' & Hb & Hnb & Hs').
    + destruct (String.eqb n ("led_" +++ lower m)); nodup.
    + intros k. destruct Hn as [[Hn ->]|(Hn & Hne' & _)]; ev; dg; rewrite ?G, ?Hget; fields k;
      try (rewrite Hn; try (eexists; split; reflexivity); reflexivity); try dotted Hf; others k Hnd Hf.
    + exists b'. split; [exact Hb|]. apply same_of_map, Hs'.
Qed.

Lemma survives_text v : survives None v -> uci_value v = Some v.
Proof. intros H. destruct (survives_read _ _ H) as (u & E & Hc). cbn in Hc. injection Hc as ->. exact E. Qed.
Lemma field_text props skip b k : fields_survive props skip b -> ~ In k skip -> dget k props = None ->
  match dget k b with Some v => uci_value v | None => None end = dget k b.
Proof.
  intros Hf Hs Hp. destruct (dget k b) as [v|] eqn:E; [|reflexivity].
  destruct (Hf k v (dget_In _ _ _ E) Hs) as (_ & _ & Hv). rewrite Hp in Hv. apply survives_text, Hv.
Qed.

(** Time zones: names and values are plain and not empty *)
Definition plainb (s : string) : bool :=
  negb (String.eqb s EmptyString) && nochar NLc s && nochar SQc s && nochar DQc s && negb (contains "    " s).
Lemma plainb_plain s : plainb s = true -> s <> EmptyString /\ plain s.
Proof.
  unfold plainb. rewrite !andb_true_iff, !negb_true_iff. intros ((((H1 & H2) & H3) & H4) & H5).
  split; [apply String.eqb_neq; exact H1|]. unfold plain, no_char.
  repeat split; try (apply nochar_spec; assumption). exact H5.
Qed.
Lemma zones_plain f1 f2 t z : dget t (timezones f1 f2) = Some z -> (t <> EmptyString /\ plain t) /\ (z <> EmptyString /\ plain z).
Proof.
  intros H. apply dget_In in H.
  assert (E : forallb (fun p => plainb (fst p) && plainb (snd p)) (timezones f1 f2) = true) by (destruct f1, f2; vm_compute; reflexivity).
  rewrite forallb_forall in E. specialize (E _ H). cbn in E. apply andb_prop in E as [E1 E2]. split; apply plainb_plain; assumption.
Qed.

Lemma general_system_cons tz g : g <> [] -> general_system tz g =
  let g1 := dupdate (ddel "id" g) [(".type", VStr "system"); (".name", pop_or "id" (VStr "system") g);
              ("hostname", pop_or "hostname" (VStr "OpenWRT") (ddel "id" g))] in
  match dget "timezone" g1 with
  | None => Ok (Some (ssort g1))
  | Some t => do z <- lookup tz t; Ok (Some (ssort (dset "timezone" z (dset "zonename" t g1))))
  end.
Proof. destruct g; [congruence|reflexivity]. Qed.

Lemma general_object f1 f2 rev g : general_ok (timezones f1 f2) g ->
  object_rt g (name_or "id" "system" g) "system"
    (do r <- general_fwd_block (timezones f1 f2) g []; do v <- dgetE "system" r;
     do l <- as_list v; match l with [x] => as_dict x | _ => Err EType end) (general_back rev) /\
  exists s, general_fwd_block (timezones f1 f2) g [] = Ok [("system", VList [VDict s])].
Proof.
  intros (Hnd & (h & Hh & Hhne & Hhp) & Htz & Hid & Habs & Hf).
  destruct (name_cases _ _ _ Hid) as (n & -> & Hpop & _ & Hn).
  assert (Hu : dget "ula_prefix" g = None) by (apply Habs; cbn; auto).
  assert (Hz0 : dget "zonename" g = None) by (apply Habs; cbn; auto).
  assert (Hgi : dget "globals_id" g = None) by (apply Habs; cbn; auto).
  assert (Htz' : exists zo, match dget "timezone" g with None => zo = None | Some v => exists t z, v = VStr t /\ zo = Some (t, z) /\ dget t (timezones f1 f2) = Some z end).
  { unfold optional in Htz. destruct (dget "timezone" g) as [v|]; [|exists None; reflexivity].
    destruct Htz as (t & z & -> & E). exists (Some (t, z)), t, z. auto. }
  destruct Htz' as (zo & Hzo).
  set (g1 := dupdate (ddel "id" g) [(".type", VStr "system"); (".name", VStr n); ("hostname", VStr h)]).
  set (X := match zo with None => g1 | Some (t, z) => dset "timezone" (VStr z) (dset "zonename" (VStr t) g1) end).
  assert (Hg1 : NoDup (dkeys g1)) by (unfold g1; nodup).
  assert (HX : NoDup (dkeys X)) by (unfold X; destruct zo as [[t z]|]; nodup).
  assert (Hsys : general_system (timezones f1 f2) g = Ok (Some (ssort X))).
  { rewrite general_system_cons by (intros ->; discriminate Hh). rewrite Hpop.
    assert (Eh : pop_or "hostname" (VStr "OpenWRT") (ddel "id" g) = VStr h) by (unfold pop_or; dg; ev; rewrite Hh; reflexivity).
    rewrite Eh. cbv zeta. fold g1.
    assert (Et : dget "timezone" g1 = dget "timezone" g) by (unfold g1; dg; ev; reflexivity).
    rewrite Et. unfold X. destruct (dget "timezone" g) as [v|].
    - destruct Hzo as (t & z & -> & -> & Ez). cbn [lookup]. rewrite Ez. reflexivity.
    - rewrite Hzo. reflexivity. }
  assert (Hfwd : general_fwd_block (timezones f1 f2) g [] = Ok [("system", VList [VDict (ssort X)])]).
  { unfold general_fwd_block, general_ula. rewrite Hu, Hsys. reflexivity. }
  split; [|eexists; exact Hfwd]. rewrite Hfwd. cbn [bind dgetE dget]. ev. cbn [bind as_list as_dict dgetE dget].
  change (bind (dgetE "system" [("system", VList [VDict (ssort X)])]) (fun v => bind (as_list v) (fun l => match l with [x] => as_dict x | _ => Err EType end))) with (Ok (ssort X)).
  assert (Hget : forall k, dget k (ssort X) =
    if String.eqb k "timezone" then option_map (fun p => VStr (snd p)) zo
    else if String.eqb k "zonename" then option_map (fun p => VStr (fst p)) zo
    else if String.eqb k "hostname" then Some (VStr h) else if String.eqb k ".name" then Some (VStr n)
    else if String.eqb k ".type" then Some (VStr "system")
    else if String.eqb k "id" then None else dget k g).
  { intros k. rewrite dget_ssort by exact HX. unfold X. destruct zo as [[t z]|].
    - unfold g1. dg. fields k; reflexivity.
    - unfold g1. dg. fields k; try reflexivity; [|exact Hz0].
      destruct (dget "timezone" g) as [v|]; [|reflexivity]. destruct Hzo as (? & ? & _ & H & _). discriminate H. }
  eapply object_intro; [reflexivity| |unfold sec_name; rewrite Hget; reflexivity|rewrite Hget; reflexivity|discriminate|discriminate|].
  - eapply section_ok_intro; [apply ssort_NoDup, HX|rewrite Hget; reflexivity|wordlit|rewrite Hget; reflexivity|eapply name_bare; [exact Hn|reflexivity]|].
    intros k v. rewrite Hget.
    assert (Hzp : forall t z, zo = Some (t, z) -> plain t /\ plain z).
    { intros t z ->. destruct (dget "timezone" g); [|discriminate Hzo]. destruct Hzo as (t' & z' & _ & E & Ez). injection E as <- <-.
      destruct (zones_plain _ _ _ _ Ez) as ((_ & ?) & (_ & ?)). auto. }
    fields k; try discriminate.
    + destruct zo as [[t z]|]; [|discriminate]. intros E _ _. injection E as <-. split; [wordlit|]. apply (Hzp t z eq_refl).
    + destruct zo as [[t z]|]; [|discriminate]. intros E _ _. injection E as <-. split; [wordlit|]. apply (Hzp t z eq_refl).
    + intros E _ _. injection E as <-. split; [wordlit|exact Hhp].
    + intros Hk _ _. eapply field_writes; [exact Hf|notin|exact Hk].
  - intros s' Hnd' Gt Gn G. unfold general_back. dget_now. rewrite Gt. cbn [bind]. dget_now. rewrite Gn. cbn [bind].
    set (s1 := set_unless "id" (VStr n) (VStr "system") (ddel ".name" (ddel ".type" s'))).
    assert (Hs1 : NoDup (dkeys s1)) by (unfold s1, set_unless; destruct (py_eq _ _); nodup).
    assert (G1 : forall k, k <> "id" -> dget k s1 = if String.eqb k ".name" then None else if String.eqb k ".type" then None else dget k s').
    { intros k Hk. unfold s1, set_unless. destruct (py_eq _ _); dg; ev; reflexivity. }
    assert (G1id : dget "id" s1 = dget "id" g).
    { unfold s1, set_unless. rewrite py_eq_text. destruct Hn as [[Hn ->]|(Hn & Hne' & _)]; ev; dg; ev; [|congruence].
      rewrite G, Hget. ev. congruence. }
    assert (Eh : pop_or "hostname" VNull s1 = VStr h).
    { unfold pop_or. rewrite G1 by discriminate. ev. rewrite G. ev. rewrite Hget. ev. destruct h; [congruence|reflexivity]. }
    assert (Ez : pop_or "zonename" VNull s1 = match zo with Some (t, _) => VStr t | None => VNull end).
    { unfold pop_or. rewrite G1 by discriminate. ev. rewrite G. ev. rewrite Hget. ev. destruct zo as [[t z]|]; [|reflexivity]. cbn.
      destruct (dget "timezone" g); [|discriminate Hzo]. destruct Hzo as (t' & z' & _ & E & Ez). injection E as <- <-.
      destruct (zones_plain _ _ _ _ Ez) as ((? & ?) & _). destruct t; [congruence|reflexivity]. }
    assert (Ew : pop_or "timezone" VNull s1 = match zo with Some (_, z) => VStr z | None => VNull end).
    { unfold pop_or. rewrite G1 by discriminate. ev. rewrite G. ev. rewrite Hget. ev. destruct zo as [[t z]|]; [|reflexivity]. cbn.
      destruct (dget "timezone" g); [|discriminate Hzo]. destruct Hzo as (t' & z' & _ & E & Ez'). injection E as <- <-.
      destruct (zones_plain _ _ _ _ Ez') as (_ & (? & ?)). destruct z; [congruence|reflexivity]. }
    rewrite Eh, Ez, Ew. rewrite (truthy_text h Hhne).
    set (s2 := ddel "timezone" (ddel "zonename" (ddel "hostname" s1))).
    assert (Hs2 : NoDup (dkeys s2)) by (unfold s2; nodup).
    assert (Hfin : forall k, k <> "timezone" -> dget k (dset "hostname" (VStr h) s2) = dget k g).
    { intros k Hk. unfold s2. dg. field k "hostname"; [ev; congruence|]. ev. field k "zonename"; [ev; congruence|]. ev.
      field k "id"; [ev; exact G1id|]. ev. rewrite G1 by assumption. rewrite G, Hget. fields k; try (symmetry; dotted Hf).
      destruct (startswith "." k) eqn:Ed; [symmetry; eapply dotted_absent; [exact Hf|notin|exact Ed]|].
      eapply field_text; [exact Hf|notin|reflexivity]. }
    destruct zo as [[t z]|].
    + assert (Ht : t <> EmptyString /\ dget "timezone" g = Some (VStr t)).
      { destruct (dget "timezone" g); [|discriminate Hzo]. destruct Hzo as (t' & z' & -> & E & Ez'). injection E as <- <-.
        destruct (zones_plain _ _ _ _ Ez') as ((? & ?) & _). auto. }
      rewrite (truthy_text t) by apply Ht. cbn [bind]. rewrite (truthy_text t) by apply Ht.
      eexists. split; [reflexivity|]. apply same_of_map. intros k. rewrite dget_dset. field k "timezone"; [symmetry; apply Ht|]. apply Hfin. assumption.
    + cbn [truthy bind]. eexists. split; [reflexivity|]. apply same_of_map. intros k. field k "timezone"; [|apply Hfin; assumption].
      unfold s2. dg. ev. destruct (dget "timezone" g); [|reflexivity]. destruct Hzo as (? & ? & _ & H & _). discriminate H.
Qed.
