(** * RtTunnel: the OpenVPN instances of an OpenWrt device (proofs only). *)
From Verif Require Import PyBase PyLemmas StrLemmas NumLemmas Merge SpecMerge MergeProofs MergeListProofs MergeFinal Files FilesProofs Backend Conv OwrtConv OpenVpnConv OwrtWireless OwrtInterfaces
  SpecUci SpecConv SpecDevice SpecShapes SpecVpn SpecTunnel ConvLemmas SortLemmas RtStage RtBack RtGeneric RtSystem RtNetwork RtSwitch RtDefault RtTrip RtObjects RtAddress RtInterface RtIfFwd RtIfOk RtRadio VpnApi.

Lemma tunnel_props k : dget k openvpn_props = dget k tunnel_fields.
Proof.
  unfold openvpn_props, tunnel_fields, number_options, flag_options. cbn [map app dget].
  repeat match goal with |- context [String.eqb k ?n] => destruct (String.eqb_spec k n) as [->|]; [reflexivity|] end. reflexivity.
Qed.
Lemma word_one s : word s -> one_word s.
Proof. intros [H1 H2]. split; [exact H1|apply bare_nospace, H2]. Qed.
Lemma word_Z z : word (string_of_Z z).
Proof. split; [apply string_of_Z_nonempty|apply bare_Z]. Qed.
Lemma plain_two a b : word a -> word b -> plain (a +++ " " +++ b).
Proof. intros Ha Hb. apply (plain_join [a; b]). intros m [<-|[<-|[]]]; assumption. Qed.

(** ** Addresses of servers *)
Definition remote_words (r : dict) : list string :=
  [name_or "host" EmptyString r; match dget "port" r with Some (VInt z) => string_of_Z z | _ => EmptyString end] ++
  match dget "proto" r with Some (VStr p) => [p] | _ => [] end.
Lemma remote_line_words r : remote_line r = join " " (remote_words r).
Proof.
  unfold remote_line, remote_words. destruct (dget "proto" r) as [[]|]; cbn [app join]; rewrite ?app_nil_s; reflexivity.
Qed.
Lemma remote_facts r : remote_ok r ->
  remote_text (VDict r) = Ok (VStr (remote_line r)) /\ (forall w, In w (remote_words r) -> word w) /\
  exists r', remote_back (VStr (remote_line r)) = Ok (VDict r') /\ same (VDict r) (VDict r').
Proof.
  intros ((h & Hh & Wh) & (z & Hz) & Hp & Hk).
  assert (W : forall w, In w (remote_words r) -> word w).
  { intros w. unfold remote_words, name_or. rewrite Hh, Hz. cbn [app In]. unfold optional in Hp. intros [<-|[<-|Hin]]; [exact Wh|apply word_Z|].
    destruct (dget "proto" r) as [v|]; [|destruct Hin]. destruct Hp as (p & -> & Wp & _). destruct Hin as [<-|[]]. exact Wp. }
  split; [|split; [exact W|]].
  - unfold remote_text, remote_line, name_or. cbn [as_dict bind]. unfold dgetE. rewrite Hh, Hz. cbn [bind py_str].
    unfold optional in Hp. destruct (dget "proto" r) as [v|]; [|now rewrite app_nil_s]. destruct Hp as (p & -> & Wp & Ne).
    rewrite py_eq_text, (eqb_neq p "auto" Ne). cbn [py_str]. rewrite !app_assoc_s. reflexivity.
  - unfold remote_back. cbn [as_str bind]. rewrite remote_line_words, split_join by exact W. unfold remote_words, name_or. rewrite Hh, Hz. cbn [app].
    rewrite int_of_string_Z. eexists. split; [reflexivity|]. apply same_of_map. intros k. unfold optional in Hp.
    destruct (dget k r) as [x|] eqn:Ek.
    + assert (Hi : In k ["host"; "port"; "proto"]) by (apply Hk; unfold dmem; rewrite Ek; reflexivity). cbn [In] in Hi.
      destruct Hi as [<-|[<-|[<-|[]]]]; [rewrite Hh in Ek; injection Ek as <-|rewrite Hz in Ek; injection Ek as <-|]; [reflexivity|reflexivity|].
      rewrite Ek in Hp. destruct Hp as (p & -> & _). rewrite Ek. reflexivity.
    + cbn [app dget]. field k "host"; [congruence|]. field k "port"; [congruence|].
      destruct (dget "proto" r) as [v|] eqn:Ep; [|reflexivity]. destruct Hp as (p & -> & _). cbn [dget]. field k "proto"; [congruence|]. reflexivity.
Qed.
Lemma remotes_text l : (forall r, In r l -> remote_ok r) -> mapM remote_text (map VDict l) = Ok (map VStr (map remote_line l)).
Proof.
  induction l as [|r l IH]; intros H; [reflexivity|]. cbn [map mapM]. destruct (remote_facts r) as (-> & _); [apply H; left; reflexivity|]. cbn [bind].
  rewrite IH by (intros x Hx; apply H; right; exact Hx). reflexivity.
Qed.
Lemma remotes_back l : (forall r, In r l -> remote_ok r) -> exists l', mapM remote_back (map VStr (map remote_line l)) = Ok l' /\ Forall2 same (map VDict l) l'.
Proof.
  induction l as [|r l IH]; intros H; [exists []; split; [reflexivity|constructor]|]. cbn [map mapM].
  destruct (remote_facts r) as (_ & _ & r' & -> & Hs); [apply H; left; reflexivity|]. cbn [bind].
  destruct IH as (l' & -> & F); [intros x Hx; apply H; right; exact Hx|]. cbn [bind]. eexists. split; [reflexivity|]. constructor; assumption.
Qed.
(** ** Data ciphers *)
Lemma cipher_facts c : data_cipher_ok c ->
  cipher_text (VDict c) = Ok (data_cipher_line c) /\ word (data_cipher_line c) /\ no_char ":"%char (data_cipher_line c) /\
  same (VDict c) (cipher_back (data_cipher_line c)).
Proof.
  intros ((s & Hs & Ws & Hc & Hq) & (o & Ho) & Hk). unfold cipher_text, data_cipher_line, name_or. cbn [as_dict bind]. unfold dgetE. rewrite Hs, Ho. cbn [bind truthy py_str].
  assert (S : forall d, (forall k, dget k d = if String.eqb k "cipher" then Some (VStr s) else if String.eqb k "optional" then Some (VBool o) else None) -> same (VDict c) (VDict d)).
  { intros d Hd. apply same_of_map. intros k. rewrite Hd. field k "cipher"; [congruence|]. field k "optional"; [congruence|].
    destruct (dget k c) eqn:E; [|reflexivity]. assert (Hi : In k ["cipher"; "optional"]) by (apply Hk; unfold dmem; rewrite E; reflexivity). cbn [In] in Hi. intuition congruence. }
  destruct o; cbn [String.append]; (split; [reflexivity|]); (split; [|split]).
  - split; [discriminate|]. destruct Ws as [_ Ws]. unfold bare. cbn [sforall]. rewrite Ws. reflexivity.
  - refine (proj1 (nochar_spec _ _) _). rewrite nochar_cons. rewrite (proj2 (nochar_spec _ _) Hc). reflexivity.
  - apply S. intros k. reflexivity.
  - exact Ws.
  - exact Hc.
  - unfold cipher_back. rewrite Hq. apply S. intros k. reflexivity.
Qed.
Lemma ciphers_text l : (forall c, In c l -> data_cipher_ok c) -> mapM cipher_text (map VDict l) = Ok (map data_cipher_line l).
Proof.
  induction l as [|r l IH]; intros H; [reflexivity|]. cbn [map mapM]. destruct (cipher_facts r) as (-> & _); [apply H; left; reflexivity|]. cbn [bind].
  rewrite IH by (intros x Hx; apply H; right; exact Hx). reflexivity.
Qed.
Lemma split_parts l : l <> [] -> (forall s, In s l -> no_char ":"%char s) -> split_char ":" (join ":" l) = l.
Proof. intros Hn H. apply (split_char_of_join ":" l Hn). intros c Hc. apply no_char_sexists, H, Hc. Qed.
Lemma parts_word l : l <> [] -> (forall s, In s l -> word s) -> word (join ":" l).
Proof.
  intros Hn H. induction l as [|s [|t l] IH]; [congruence| |].
  - cbn. apply H. left; reflexivity.
  - change (join ":" (s :: t :: l)) with (s +++ String ":" (join ":" (t :: l))). destruct IH as (I1 & I2); [discriminate|intros; apply H; right; assumption|].
    destruct (H s (or_introl eq_refl)) as (S1 & S2). split; [destruct s; [congruence|discriminate]|]. apply bare_app; [exact S2|]. unfold bare. cbn [sforall]. rewrite I2. reflexivity.
Qed.
Lemma ciphers_back l : (forall c, In c l -> data_cipher_ok c) -> Forall2 same (map VDict l) (map cipher_back (map data_cipher_line l)).
Proof. induction l as [|r l IH]; intros H; [constructor|]. cbn [map]. constructor; [apply cipher_facts, H; left; reflexivity|]. apply IH. intros x Hx. apply H. right; exact Hx. Qed.

(** ** The section *)
Definition bridge_flag (o : option val) : option val := match o with Some (VStr EmptyString) => Some (VBool true) | x => x end.
Definition cipher_list (o : option val) : option val := match o with Some (VStr t) => Some (VList (map VStr (split_char ":" t))) | x => x end.
Definition remote_list (o : option val) : option val := match o with Some (VList l) => Some (VList (map VStr (map remote_line (dicts l)))) | x => x end.
Definition cipher_line (o : option val) : option val := match o with Some (VList l) => text (join ":" (map data_cipher_line (dicts l))) | x => x end.
Ltac own_form v b := solve [destruct b; reflexivity | destruct (dget "data_ciphers" v) as [[]|]; reflexivity | destruct (dget "remote" v) as [[]|]; reflexivity
  | destruct (dget "server_bridge" v) as [[| | | |[]| |]|]; reflexivity | destruct (dget "tls_cipher" v) as [[]|]; reflexivity].
Lemma dicts_map l : dicts (map VDict l) = l. Proof. apply dicts_of_map. Qed.

Lemma tunnel_value v k x : tunnel_ok v -> dget k v = Some x -> k <> "server_bridge" -> x <> VStr EmptyString.
Proof.
  intros (_ & (n & Hn & Wn & _) & (b & Hb) & _ & _ & _ & _ & Htc & Hr & Hdc & Hta & Hf) E Hk ->. unfold optional in *.
  destruct (in_dec string_dec k ["name"; "disabled"; "server_bridge"; "tls_cipher"; "remote"; "data_ciphers"; "tls_auth"]) as [Hi|Hi].
  - cbn [In] in Hi. destruct Hi as [<-|[<-|[<-|[<-|[<-|[<-|[<-|[]]]]]]]]; rewrite ?E in *; try congruence.
    + injection Hn as Hn. destruct Wn. congruence.
    + destruct Htc as (l & X & Hne & Hl). injection X as X. destruct (parts_word l Hne) as [P _]; [intros s Hs; apply Hl, Hs|]. congruence.
    + destruct Hr as (l & X & _). discriminate X.
    + destruct Hdc as (l & X & _). discriminate X.
    + destruct Hta as (a & c & X & [Ha _] & _). injection X as X. destruct a; [congruence|discriminate X].
  - destruct (Hf k _ (dget_In _ _ _ E) Hi) as (_ & _ & S). destruct (dget k tunnel_fields) as [[]|]; try destruct S. congruence.
Qed.

Lemma tunnel_section v : tunnel_ok v -> exists s, owrt_vpn_section v = Ok (s, None) /\ NoDup (dkeys s) /\ tunnel_shown v s.
Proof.
  intros Hok. pose proof (tunnel_value v) as Hval. destruct Hok as (Hnd & (n & Hn & Wn & Hid) & (b & Hb) & He & Hfr & Hst & Hsb & Htc & Hr & Hdc & Hta & Hf) eqn:Eok. clear Eok.
  specialize (fun k x => Hval k x Hok). unfold owrt_vpn_section.
  assert (Efr : py_eq (dgetN "fragment" v) (VInt 0) = false).
  { unfold dgetN. destruct (dget "fragment" v) as [x|] eqn:E; [|reflexivity].
    destruct (Hf _ _ (dget_In _ _ _ E)) as (_ & _ & S); [notin|]. destruct x; try destruct S. cbn. apply Z.eqb_neq. congruence. }
  rewrite Efr. unfold dgetE. rewrite Hn. cbn [bind]. unfold uci_name_val. cbn [as_str bind]. change (uci_name n) with (identifier n). rewrite Hid.
  assert (Edis : pop_or "disabled" (VBool false) (ddel "name" v) = VBool b) by (unfold pop_or; dg; ev; rewrite Hb; reflexivity).
  rewrite Edis. cbn [truthy]. cbv zeta. set (c1 := dupdate _ _).
  assert (N1 : NoDup (dkeys c1)) by (unfold c1; nodup).
  assert (G1 : forall k, dget k c1 = if String.eqb k ".type" then text "openvpn" else if String.eqb k ".name" then Some (VStr n) else if String.eqb k "enabled" then Some (VBool (negb b))
     else if String.eqb k "name" then None else if String.eqb k "disabled" then None else dget k v).
  { intros k. unfold c1. dg. fields k; reflexivity. }
  clearbody c1.
  set (c2 := match dgetN "tls_cipher" c1 with VStr EmptyString => c1 | VStr s => _ | _ => c1 end).
  assert (G2 : NoDup (dkeys c2) /\ forall k, dget k c2 = if String.eqb k "tls_cipher" then cipher_list (dget "tls_cipher" v) else dget k c1).
  { unfold c2, dgetN. rewrite (G1 "tls_cipher"). ev. unfold optional in Htc. destruct (dget "tls_cipher" v) as [x|] eqn:E.
    - destruct Htc as (l & -> & Hne & Hl). destruct (parts_word l Hne) as [P _]; [intros s Hs; apply Hl, Hs|]. cbn [cipher_list]. rewrite (split_parts l Hne) by (intros s Hs; apply Hl, Hs).
      assert (Ef : filter (fun p => negb (String.eqb p EmptyString)) l = l).
      { apply filter_all. intros s Hs. destruct (Hl s Hs) as ((Ns & _) & _). rewrite (eqb_neq s EmptyString Ns). reflexivity. }
      destruct (join ":" l) as [|ch t] eqn:Ej; [congruence|]. rewrite Ef. split; [nodup|].
      intros k. dg. reflexivity.
    - split; [exact N1|]. intros k. field k "tls_cipher"; [rewrite G1; ev; exact E|reflexivity]. }
  clearbody c2. destruct G2 as [N2 G2]. unfold vpn_section.
  set (c3 := if py_eq (dgetN "server_bridge" c2) (VStr EmptyString) then _ else c2).
  assert (G3 : NoDup (dkeys c3) /\ forall k, dget k c3 = if String.eqb k "server_bridge" then bridge_flag (dget "server_bridge" v) else dget k c2).
  { unfold c3, dgetN. rewrite (G2 "server_bridge"). ev. rewrite (G1 "server_bridge"). ev. rewrite py_eq_empty. unfold optional in Hsb.
    destruct (dget "server_bridge" v) as [x|] eqn:E.
    - destruct Hsb as ([|ch s] & -> & _).
      + split; [nodup|]. intros k. dg. reflexivity.
      + split; [exact N2|]. intros k. field k "server_bridge"; [rewrite G2, G1; ev; exact E|reflexivity].
    - split; [exact N2|]. intros k. field k "server_bridge"; [rewrite G2, G1; ev; exact E|reflexivity]. }
  clearbody c3. destruct G3 as [N3 G3]. cbv zeta.
  assert (G4 : NoDup (dkeys (drop_values [VStr EmptyString] c3)) /\ forall k, dget k (drop_values [VStr EmptyString] c3) = dget k c3).
  { split; [apply NoDup_dfilter, N3|]. intros k. unfold drop_values. rewrite dget_filter by exact N3. destruct (dget k c3) as [x|] eqn:E; [|reflexivity]. cbn [fst snd].
    assert (X : py_in x [VStr EmptyString] = false); [|rewrite X; cbn [negb]; rewrite orb_true_r; reflexivity].
    unfold py_in. cbn [existsb]. rewrite orb_false_r. assert (Y : x <> VStr EmptyString); [|destruct x as [| | | |[|]| |]; try reflexivity; congruence].
    revert E. rewrite G3, G2, G1. unfold optional in *. fields k; try discriminate; try (intros X; injection X as <-; discriminate).
    - unfold bridge_flag. destruct (dget "server_bridge" v) as [y|]; [|discriminate]. destruct Hsb as ([|] & -> & _); intros X; injection X as <-; discriminate.
    - unfold cipher_list. destruct (dget "tls_cipher" v) as [y|]; [|discriminate]. destruct Htc as (l & -> & _); intros X; injection X as <-; discriminate.
    - intros X; injection X as <-. destruct Wn as [Wn _]. congruence.
    - intros X. apply (Hval k x X). assumption. }
  destruct G4 as [N4 G4]. set (c4 := drop_values _ c3) in *. clearbody c4.
  assert (G5 : exists c5, match dget "remote" c4 with Some v => do l <- as_list v; do ts <- mapM remote_text l; Ok (dset "remote" (VList ts) c4) | None => Ok c4 end = Ok c5 /\
     NoDup (dkeys c5) /\ forall k, dget k c5 = if String.eqb k "remote" then remote_list (dget "remote" v) else dget k c3).
  { rewrite (G4 "remote"), G3, G2, G1. ev. unfold optional in Hr. destruct (dget "remote" v) as [x|] eqn:E.
    - destruct Hr as (l & -> & Hne & Hl). cbn [as_list bind]. rewrite (remotes_text l Hl). cbn [bind]. eexists. split; [reflexivity|]. split; [nodup|].
      intros k. dg. cbn [remote_list]. rewrite dicts_map. field k "remote"; [reflexivity|apply G4].
    - eexists. split; [reflexivity|]. split; [exact N4|]. intros k. rewrite G4. field k "remote"; [rewrite G3, G2, G1; ev; exact E|reflexivity]. }
  destruct G5 as (c5 & -> & N5 & G5). cbn [bind].
  set (c6 := if negb ("status" in? c5) then ddel "status_version" c5 else c5).
  assert (G6 : NoDup (dkeys c6) /\ forall k, dget k c6 = dget k c5).
  { unfold c6, dmem. rewrite (G5 "status"), G3, G2, G1. ev. unfold dmem in Hst. destruct (dget "status" v) eqn:Es; [split; [exact N5|reflexivity]|]. cbn [negb].
    split; [nodup|]. intros k. dg. field k "status_version"; [|reflexivity]. rewrite G5, G3, G2, G1. ev.
    destruct (dget "status_version" v); [specialize (Hst eq_refl); discriminate|reflexivity]. }
  clearbody c6. destruct G6 as [N6 G6].
  assert (G7 : exists c7, output_data_ciphers c6 = Ok c7 /\ NoDup (dkeys c7) /\ forall k, dget k c7 = if String.eqb k "data_ciphers" then cipher_line (dget "data_ciphers" v) else dget k c5).
  { unfold output_data_ciphers, dgetN. rewrite (G6 "data_ciphers"), G5, G3, G2, G1. ev. unfold optional in Hdc. destruct (dget "data_ciphers" v) as [x|] eqn:E.
    - destruct Hdc as (l & -> & Hne & Hl). assert (Et : truthy (VList (map VDict l)) = true) by (destruct l; [congruence|reflexivity]). rewrite Et. cbn [negb as_list bind].
      rewrite (ciphers_text l Hl). cbn [bind]. eexists. split; [reflexivity|]. split; [nodup|]. intros k. dg. cbn [cipher_line]. rewrite dicts_map.
      field k "data_ciphers"; [reflexivity|apply G6].
    - eexists. split; [reflexivity|]. split; [exact N6|]. intros k. rewrite G6. field k "data_ciphers"; [rewrite G5, G3, G2, G1; ev; exact E|reflexivity]. }
  destruct G7 as (c7 & -> & N7 & G7). cbn [bind].
  assert (T : add_tls_auth c7 = Ok (c7, None)).
  { unfold add_tls_auth, dgetN. rewrite (G7 "tls_auth"), G5, G3, G2, G1. ev. unfold optional in Hta. destruct (dget "tls_auth" v) as [x|] eqn:E; [|reflexivity].
    destruct Hta as (a & c & -> & Wa & Wc). assert (Et : truthy (VStr (a +++ " " +++ c)) = true) by (destruct Wa as [Wa _]; destruct a; [congruence|reflexivity]). rewrite Et. cbn [negb as_str bind].
    destruct (words_split a c (word_one _ Wa) (word_one _ Wc)) as (-> & ->). reflexivity. }
  rewrite T. cbn [bind fst snd]. eexists. split; [reflexivity|]. split; [nodup|]. intros k. dg. rewrite G7, G5, G3, G2, G1. rewrite Hn, Hb. cbn [dget option_map].
  fields k; try reflexivity.
  all: own_form v b.
Qed.

(** ** There and back *)
Lemma as_strs l : mapM as_str (map VStr l) = Ok l.
Proof. induction l as [|x l IH]; [reflexivity|]. cbn [map mapM as_str bind]. rewrite IH. reflexivity. Qed.
Lemma texts_value l : l <> [] -> uci_value (VList (map VStr l)) = Some (VList (map VStr l)).
Proof. intros H. destruct l as [|x l]; [congruence|]. cbn [uci_value map]. rewrite map_map. reflexivity. Qed.
Lemma tunnel_object v : tunnel_ok v -> object_rt v (name_or "name" EmptyString v) "openvpn" (do r <- owrt_vpn_section v; Ok (fst r)) owrt_vpn_back.
Proof.
  intros Hok. destruct (tunnel_section v Hok) as (s & -> & HX & Hs). cbn [bind fst].
  destruct Hok as (Hnd & (n & Hn & Wn & Hid) & (b & Hb) & He & Hfr & Hst & Hsb & Htc & Hr & Hdc & Hta & Hf). unfold optional in *.
  assert (Hget : forall k, dget k s = if String.eqb k ".type" then Some (VStr "openvpn") else if String.eqb k ".name" then Some (VStr n) else if String.eqb k "enabled" then Some (VBool (negb b))
     else if String.eqb k "name" then None else if String.eqb k "disabled" then None else if String.eqb k "server_bridge" then bridge_flag (dget "server_bridge" v)
     else if String.eqb k "tls_cipher" then cipher_list (dget "tls_cipher" v) else if String.eqb k "remote" then remote_list (dget "remote" v)
     else if String.eqb k "data_ciphers" then cipher_line (dget "data_ciphers" v) else dget k v).
  { intros k. rewrite Hs, Hn, Hb. cbn [dget option_map]. fields k; try reflexivity.
    all: own_form v b. }
  assert (Ename : name_or "name" EmptyString v = n) by (unfold name_or; rewrite Hn; reflexivity). rewrite Ename.
  (* what the settings with a form of their own become *)
  assert (Ltc : match dget "tls_cipher" v with Some x => exists l, x = VStr (join ":" l) /\ l <> [] /\ cipher_list (Some x) = Some (VList (map VStr l)) /\ forall s, In s l -> word s | None => True end).
  { destruct (dget "tls_cipher" v) as [x|]; [|exact I]. destruct Htc as (l & -> & Hne & Hl). exists l. split; [reflexivity|]. split; [exact Hne|]. cbn [cipher_list].
    rewrite (split_parts l Hne) by (intros t Ht; apply Hl, Ht). split; [reflexivity|]. intros t Ht. apply Hl, Ht. }
  eapply object_intro; [reflexivity| |unfold sec_name; rewrite Hget; reflexivity|rewrite Hget; reflexivity|discriminate|discriminate|].
  - eapply section_ok_intro; [exact HX|rewrite Hget; reflexivity|wordlit|rewrite Hget; reflexivity|apply Wn|].
    intros k x. rewrite Hget. fields k; try discriminate; intros E Hd Hu.
    + split; [wordlit|]. injection E as <-. apply bare_plain. destruct b; reflexivity.
    + split; [wordlit|]. destruct (dget "server_bridge" v) as [y|]; [|discriminate]. destruct Hsb as ([|ch t] & -> & _ & Hp); injection E as <-; [apply bare_plain; reflexivity|exact Hp].
    + split; [wordlit|]. destruct (dget "tls_cipher" v) as [y|]; [|discriminate]. destruct Ltc as (l & -> & _ & El & Hl). rewrite El in E. injection E as <-.
      intros y Hy. apply in_map_iff in Hy as (t & <- & Ht). apply bare_plain, Hl, Ht.
    + split; [wordlit|]. destruct (dget "remote" v) as [y|]; [|discriminate]. destruct Hr as (l & -> & _ & Hl). cbn [remote_list] in E. rewrite dicts_map in E. injection E as <-.
      intros y Hy. apply in_map_iff in Hy as (t & <- & Ht). apply in_map_iff in Ht as (r & <- & Hr'). cbn [py_str]. rewrite remote_line_words. apply plain_join, remote_facts, Hl, Hr'.
    + split; [wordlit|]. destruct (dget "data_ciphers" v) as [y|]; [|discriminate]. destruct Hdc as (l & -> & Hne & Hl). cbn [cipher_line] in E. rewrite dicts_map in E. injection E as <-.
      apply bare_plain, parts_word; [destruct l; [congruence|discriminate]|]. intros t Ht. apply in_map_iff in Ht as (c & <- & Hc). apply cipher_facts, Hl, Hc.
    + field k "tls_auth".
      * split; [wordlit|]. rewrite E in Hta. destruct Hta as (a & c & -> & Wa & Wc). apply plain_two; assumption.
      * eapply field_writes; [exact Hf|notin|exact E].
  - intros s' Hnd' Gt Gn G. unfold owrt_vpn_back.
    assert (Gsb : dget "server_bridge" s' = match dget "server_bridge" v with Some (VStr EmptyString) => Some (VStr "1") | x => x end).
    { rewrite G. ev. rewrite Hget. ev. destruct (dget "server_bridge" v) as [y|]; [|reflexivity]. destruct Hsb as ([|ch t] & -> & _); reflexivity. }
    set (s1 := if py_eq (dgetN "server_bridge" s') (VStr "1") then _ else s').
    assert (G1 : NoDup (dkeys s1) /\ forall k, dget k s1 = if String.eqb k "server_bridge" then dget "server_bridge" v else dget k s').
    { unfold s1, dgetN. rewrite Gsb. destruct (dget "server_bridge" v) as [y|] eqn:E.
      - destruct Hsb as ([|ch t] & -> & H1 & _); [change (py_eq (VStr "1") (VStr "1")) with true; cbn iota; split; [nodup|intros k; dg; reflexivity]|].
        rewrite py_eq_text. rewrite (eqb_neq _ "1" H1). split; [exact Hnd'|]. intros k. field k "server_bridge"; [exact Gsb|reflexivity].
      - split; [exact Hnd'|]. intros k. field k "server_bridge"; [exact Gsb|reflexivity]. }
    clearbody s1. destruct G1 as [N1 G1].
    assert (Een : pop_or "enabled" (VStr "0") s1 = VStr (bool_digit (negb b))) by (unfold pop_or; rewrite G1; ev; rewrite G; ev; rewrite Hget; ev; reflexivity).
    rewrite Een, py_eq_text. assert (Ed : String.eqb (bool_digit (negb b)) "0" = b) by (destruct b; reflexivity). rewrite Ed. cbv zeta.
    dget_now. rewrite G1. ev. rewrite Gn. cbn [bind]. dget_now. rewrite G1. ev. rewrite Gt. cbn [bind].
    set (s2 := ddel ".type" _). assert (N2 : NoDup (dkeys s2)) by (unfold s2; nodup).
    assert (G2 : forall k, dget k s2 = if String.eqb k ".type" then None else if String.eqb k "name" then Some (VStr n) else if String.eqb k ".name" then None
       else if String.eqb k "disabled" then Some (VBool b) else if String.eqb k "enabled" then None else dget k s1) by (intros k; unfold s2; dg; reflexivity).
    clearbody s2.
    assert (Gtc : dget "tls_cipher" s2 = cipher_list (dget "tls_cipher" v)).
    { rewrite G2. ev. rewrite G1. ev. rewrite G. ev. rewrite Hget. ev. destruct (dget "tls_cipher" v) as [y|]; [|reflexivity]. destruct Ltc as (l & -> & Hne & -> & _). apply texts_value, Hne. }
    assert (G3 : exists s3, match dgetN "tls_cipher" s2 with VList (c :: l) => do cs <- mapM as_str (c :: l); Ok (dset "tls_cipher" (VStr (join ":" cs)) s2) | _ => Ok s2 end = Ok s3 /\
       NoDup (dkeys s3) /\ forall k, dget k s3 = if String.eqb k "tls_cipher" then dget "tls_cipher" v else dget k s2).
    { unfold dgetN. rewrite Gtc. destruct (dget "tls_cipher" v) as [y|] eqn:E.
      - destruct Ltc as (l & -> & Hne & -> & _). destruct l as [|x l]; [congruence|]. change (map VStr (x :: l)) with (VStr x :: map VStr l). cbn iota. change (VStr x :: map VStr l) with (map VStr (x :: l)).
        rewrite as_strs. cbn [bind]. eexists. split; [reflexivity|]. split; [nodup|]. intros k. dg. reflexivity.
      - eexists. split; [reflexivity|]. split; [exact N2|]. intros k. field k "tls_cipher"; [exact Gtc|reflexivity]. }
    destruct G3 as (s3 & -> & N3 & G3). cbn [bind]. unfold vpn_back.
    destruct (type_cast_pointwise openvpn_props s3 (fun k => if String.eqb k "remote" then remote_list (dget "remote" v) else if String.eqb k "data_ciphers" then cipher_line (dget "data_ciphers" v) else dget k v)) as (s4 & -> & N4 & G4).
    + exact N3.
    + intros k. rewrite tunnel_props, G3, G2, G1, G, Hget. fields k; try (eexists; split; [reflexivity|eassumption]); try dotted Hf; try assumption.
      * destruct (dget "tls_cipher" v) as [y|]; [|reflexivity]. destruct Htc as (l & -> & _). eexists. split; reflexivity.
      * destruct (dget "server_bridge" v) as [y|]; [|reflexivity]. destruct Hsb as (t & -> & _). eexists. split; reflexivity.
      * destruct (dget "remote" v) as [y|]; [|reflexivity]. destruct Hr as (l & -> & Hne & _). cbn [remote_list]. rewrite dicts_map, texts_value by (destruct l; [congruence|discriminate]). eexists. split; reflexivity.
      * destruct (dget "data_ciphers" v) as [y|]; [|reflexivity]. destruct Hdc as (l & -> & Hne & Hl). cbn [cipher_line]. rewrite dicts_map.
        destruct (parts_word (map data_cipher_line l)) as [P _]; [destruct l; [congruence|discriminate]|intros t Ht; apply in_map_iff in Ht as (c & <- & Hc); apply cipher_facts, Hl, Hc|].
        unfold text. destruct (join ":" (map data_cipher_line l)); [congruence|]. eexists. split; reflexivity.
      * field k "tls_auth".
        { destruct (dget "tls_auth" v) as [y|]; [|reflexivity]. destruct Hta as (a & c & -> & [Wa _] & _). destruct a; [congruence|]. eexists. split; reflexivity. }
        others k Hnd Hf.
    + cbn [bind]. set (s5 := match dget "server_bridge" s4 with Some (VBool true) => _ | _ => s4 end).
      assert (E5 : s5 = s4).
      { unfold s5. rewrite G4. ev. destruct (dget "server_bridge" v) as [y|]; [|reflexivity]. destruct Hsb as (t & -> & _). reflexivity. }
      rewrite E5. clear s5 E5. cbv zeta.
      assert (G6 : exists s6, match dget "remote" s4 with Some v => do l <- remotes_of v; do rs <- mapM remote_back l; Ok (dset "remote" (VList rs) s4) | None => Ok s4 end = Ok s6 /\
        NoDup (dkeys s6) /\ (forall k, k <> "remote" -> dget k s6 = dget k s4) /\
        match dget "remote" v with Some x => exists x', dget "remote" s6 = Some x' /\ same x x' | None => dget "remote" s6 = None end).
      { rewrite G4. ev. destruct (dget "remote" v) as [y|] eqn:E.
        - destruct Hr as (l & -> & Hne & Hl). cbn [remote_list remotes_of bind]. rewrite dicts_map. destruct (remotes_back l Hl) as (l' & -> & F). cbn [bind].
          eexists. split; [reflexivity|]. split; [nodup|]. split; [intros k Hk; dg; ev; reflexivity|]. eexists. split; [dg; ev; reflexivity|]. constructor. exact F.
        - eexists. split; [reflexivity|]. split; [exact N4|]. split; [reflexivity|]. rewrite G4. ev. try rewrite E. reflexivity. }
      destruct G6 as (s6 & -> & N6 & G6 & R6). cbn [bind].
      assert (G7 : exists s7, data_ciphers_back s6 = Ok s7 /\ (forall k, k <> "data_ciphers" -> dget k s7 = dget k s6) /\
        match dget "data_ciphers" v with Some x => exists x', dget "data_ciphers" s7 = Some x' /\ same x x' | None => dget "data_ciphers" s7 = None end).
      { unfold data_ciphers_back, dgetN. rewrite (G6 "data_ciphers") by discriminate. rewrite G4. ev. destruct (dget "data_ciphers" v) as [y|] eqn:E.
        - destruct Hdc as (l & -> & Hne & Hl). cbn [cipher_line]. rewrite dicts_map. unfold text.
          destruct (parts_word (map data_cipher_line l)) as [P _]; [destruct l; [congruence|discriminate]|intros t Ht; apply in_map_iff in Ht as (c & <- & Hc); apply cipher_facts, Hl, Hc|].
          rewrite truthy_text by exact P. cbn [negb as_str bind]. rewrite split_parts; [|destruct l; [congruence|discriminate]|intros t Ht; apply in_map_iff in Ht as (c & <- & Hc); apply cipher_facts, Hl, Hc].
          eexists. split; [reflexivity|]. split; [intros k Hk; dg; ev; reflexivity|]. eexists. split; [dg; ev; reflexivity|]. constructor. apply ciphers_back, Hl.
        - eexists. split; [reflexivity|]. split; [reflexivity|]. rewrite (G6 "data_ciphers") by discriminate. rewrite G4. ev. try rewrite E. reflexivity. }
      destruct G7 as (s7 & -> & G7 & R7). exists s7. split; [reflexivity|]. apply same_dict.
      * intros k x Hx. field k "data_ciphers"; [rewrite Hx in R7; exact R7|]. rewrite G7 by assumption. field k "remote"; [rewrite Hx in R6; exact R6|].
        rewrite G6, G4 by assumption. ev. exists x. split; [exact Hx|apply same_refl].
      * intros k Hx. field k "data_ciphers"; [rewrite Hx in R7; exact R7|]. rewrite G7 by assumption. field k "remote"; [rewrite Hx in R6; exact R6|].
        rewrite G6, G4 by assumption. ev. exact Hx.
Qed.
