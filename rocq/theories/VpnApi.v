(** * VpnApi: the OpenVPN backend from configuration to text and back (proofs only) *)
From Verif Require Import PyBase PyLemmas StrLemmas SortLemmas NumLemmas Merge MergeProofs MergeListProofs Files FilesProofs Backend Conv Uci SpecUci UciProofs UciParseProofs UciRoundTrip UciMore ConvLemmas RtGeneric OpenVpnConv VpnText SpecVpn VpnProofs.

Lemma dget_filter (p : string * val -> bool) k d : NoDup (dkeys d) ->
  dget k (filter p d) = match dget k d with Some x => if p (k, x) then Some x else None | None => None end.
Proof.
  induction d as [|[k0 x0] d IH]; intros H; [reflexivity|]. inversion H as [|? ? N1 N2]; subst. cbn [filter dget].
  destruct (p (k0, x0)) eqn:P; cbn [dget]; (destruct (String.eqb_spec k k0) as [-> | Hn]; [rewrite P | now apply IH]); [reflexivity|].
  rewrite IH by assumption. assert (E : dget k0 d = None) by (apply dget_None; exact N1). now rewrite E.
Qed.
Lemma NoDup_dfilter (p : string * val -> bool) (d : dict) : NoDup (dkeys d) -> NoDup (dkeys (filter p d)).
Proof. apply NoDup_filter_map. Qed.

(** ** The text of the settings *)
Definition entry_text (v : val) : string :=
  match v with VDict [("cipher", VStr c); ("optional", VBool o)] => (if o then "?" else EmptyString) +++ c | _ => EmptyString end.
Definition text_value (k : string) (x : val) : val :=
  if String.eqb k "server_bridge" then match x with VStr EmptyString => VBool true | _ => x end
  else if String.eqb k "data_ciphers" then match x with VList (e :: l) => VStr (join ":" (map entry_text (e :: l))) | _ => x end
  else x.
Lemma entry_cipher v : cipher_entry v -> cipher_text v = Ok (entry_text v) /\ one_word (entry_text v) /\ no_char ":"%char (entry_text v) /\ cipher_back (entry_text v) = v.
Proof.
  intros (c & o & -> & (W1 & W2) & Hc & Hq). split; [destruct o; reflexivity|]. cbn [entry_text]. destruct o; cbn [String.append].
  - split; [split; [discriminate | exact W2]|]. split; [|reflexivity]. apply no_char_spec. apply no_char_spec in Hc. exact Hc.
  - split; [split; assumption|]. split; [exact Hc|]. unfold cipher_back. now rewrite Hq.
Qed.
Lemma no_char_sexists c s : no_char c s -> sexists (Ascii.eqb c) s = false.
Proof.
  intros H. apply no_char_spec in H. induction s as [|x s IH]; [reflexivity|]. rewrite nochar_cons, andb_true_iff, negb_true_iff in H. destruct H as (H1 & H2).
  cbn [sexists]. rewrite IH by assumption. rewrite orb_false_r. rewrite Ascii.eqb_sym. exact H1.
Qed.
Lemma entries_cipher l : Forall cipher_entry l -> mapM cipher_text l = Ok (map entry_text l).
Proof.
  induction 1 as [|v l H _ IH]; [reflexivity|]. cbn [mapM map]. destruct (entry_cipher v H) as (-> & _). cbn [bind]. rewrite IH. reflexivity.
Qed.
Lemma entries_back l : l <> [] -> Forall cipher_entry l -> map cipher_back (split_char ":" (join ":" (map entry_text l))) = l.
Proof.
  intros Hn H. rewrite split_char_of_join.
  - rewrite map_map. clear Hn. induction H as [|v l H _ IH]; [reflexivity|]. cbn [map]. destruct (entry_cipher v H) as (_ & _ & _ & ->). now rewrite IH.
  - destruct l; [congruence | discriminate].
  - intros s Hs. apply in_map_iff in Hs as (v & <- & Hv). rewrite Forall_forall in H. apply no_char_sexists. apply entry_cipher, H, Hv.
Qed.

(** ** The section of a server *)
Definition section_get (v : dict) (k : string) : option val :=
  match dget k v with Some (VList []) => Some (VList []) | _ => option_map (text_value k) (read_setting v k) end.
Lemma setting_kinds k x : server_setting k x ->
  (exists b, x = VBool b) \/ (exists z, x = VInt z) \/ (exists s, x = VStr s) \/ (k = "data_ciphers" /\ exists l, x = VList l /\ Forall cipher_entry l).
Proof.
  intros [(_ & z & ->) | [(_ & b & ->) | [(-> & l & -> & H) | [(-> & a & b & -> & _) | (_ & s & -> & _)]]]]; [right; left | left | right; right; right | right; right; left | right; right; left]; eauto.
Qed.
Lemma kept k x : server_setting k x ->
  (if existsb (String.eqb k) skip_keys || negb (py_in (if String.eqb k "server_bridge" then match x with VStr EmptyString => VBool true | _ => x end else x) remove_all)
   then true else false) = match x with VList [] => true | _ => negb (left_out k x) end.
Proof.
  intros H. assert (Hr : k <> "remote").
  { intros ->. destruct H as [(H & _) | [(H & _) | [(H & _) | [(H & _) | (H & _)]]]]; try discriminate H; [| |apply H; cbn; tauto]; cbn in H; repeat destruct H as [H | H]; try discriminate H; destruct H. }
  unfold skip_keys. cbn [existsb]. rewrite (eqb_neq k "remote") by exact Hr. rewrite !orb_false_r.
  destruct (String.eqb_spec k "script_security") as [-> | Hs].
  - cbn [orb]. destruct H as [(_ & z & ->) | [(H & _) | [(H & _) | [(H & _) | (H & _)]]]]; try discriminate H.
    + destruct z; reflexivity.
    + cbn in H; repeat destruct H as [H | H]; try discriminate H; destruct H.
    + exfalso. apply H. cbn. tauto.
  - cbn [orb]. destruct (String.eqb_spec k "server_bridge") as [-> | Hb].
    + destruct H as [(H & _) | [(H & _) | [(H & _) | [(H & _) | (_ & s & -> & _)]]]]; try discriminate H.
      * cbn in H; repeat destruct H as [H | H]; try discriminate H; destruct H.
      * cbn in H; repeat destruct H as [H | H]; try discriminate H; destruct H.
      * destruct s; reflexivity.
    + apply setting_kinds in H as [(b & ->) | [(z & ->) | [(s & ->) | (-> & l & -> & _)]]].
      * destruct b; reflexivity.
      * unfold left_out. rewrite (eqb_neq k "script_security") by exact Hs. destruct z; reflexivity.
      * unfold left_out. rewrite (eqb_neq k "server_bridge") by exact Hb. destruct s; reflexivity.
      * destruct l; reflexivity.
Qed.
Definition bridge (k : string) (x : val) : val := if String.eqb k "server_bridge" then match x with VStr EmptyString => VBool true | _ => x end else x.
Lemma py_eq_empty x : py_eq x (VStr EmptyString) = match x with VStr EmptyString => true | _ => false end.
Proof. destruct x as [| | | |s| |]; try reflexivity. destruct s; reflexivity. Qed.
Lemma no_remote v : server_ok v -> dget "remote" v = None.
Proof.
  intros (_ & _ & H). destruct (dget "remote" v) as [x|] eqn:E; [|reflexivity]. exfalso. apply dget_In in E. destruct (H _ _ E ltac:(discriminate)) as (_ & S).
  destruct S as [(S & _) | [(S & _) | [(S & _) | [(S & _) | (S & _)]]]]; try discriminate S; [| |apply S; cbn; tauto]; cbn in S; repeat destruct S as [S | S]; try discriminate S; destruct S.
Qed.
Lemma words_split a b : one_word a -> one_word b -> strip (a +++ " " +++ b) = a +++ " " +++ b /\ length (split_char " " (a +++ " " +++ b)) = 2.
Proof.
  intros (A1 & A2) (B1 & B2). split.
  - assert (T : tight (a +++ " " +++ b)) by (apply tight_app; apply spaceless_tight; assumption).
    pose proof (strip_tight _ "" "" T eq_refl eq_refl) as E. cbn in E. now rewrite app_nil_s in E.
  - assert (W : forall s, sforall (fun c => negb (is_space c)) s = true -> sexists (Ascii.eqb " ") s = false).
    { intros s Hs. apply no_char_sexists, no_char_spec. now apply spaceless_noblank. }
    change (a +++ " " +++ b) with (join " " [a; b]). rewrite split_char_of_join; [reflexivity | discriminate|]. intros c [<- | [<- | []]]; auto.
Qed.
Lemma server_section v : server_ok v -> exists s, vpn_section remove_all v = Ok (s, None) /\ sorted_keys s /\ forall k, dget k s = section_get v k.
Proof.
  intros Hv. pose proof (no_remote v Hv) as Hr. destruct Hv as (Nd & (n & Hn & Ln) & H).
  assert (HS : forall k x, dget k v = Some x -> k <> "name" -> server_setting k x) by (intros k x E Hk; apply dget_In in E; now apply H).
  unfold vpn_section. set (c1 := if py_eq (dgetN "server_bridge" v) (VStr "") then dset "server_bridge" (VBool true) v else v).
  assert (G1 : NoDup (dkeys c1) /\ forall k, dget k c1 = option_map (bridge k) (dget k v)).
  { unfold c1. rewrite py_eq_empty. unfold dgetN. split.
    - destruct (dget "server_bridge" v) as [[| | | |[]| |]|]; try exact Nd. now apply NoDup_dset.
    - intros k. unfold bridge. destruct (String.eqb_spec k "server_bridge") as [-> | Hk].
      + destruct (dget "server_bridge" v) as [[| | | |[]| |]|] eqn:E; rewrite ?E; try reflexivity. rewrite dget_dset. reflexivity.
      + destruct (dget "server_bridge" v) as [[| | | |[]| |]|]; rewrite ?dget_dset, ?(eqb_neq k "server_bridge") by exact Hk; now destruct (dget k v). }
  destruct G1 as (N1 & G1). cbv zeta. set (c2 := drop_values remove_all c1).
  assert (N2 : NoDup (dkeys c2)) by (now apply NoDup_dfilter).
  assert (G2 : forall k, dget k c2 = match dget k v with Some x => if match x with VList [] => true | _ => negb (left_out k x) end then Some (bridge k x) else None | None => None end).
  { intros k. unfold c2, drop_values. rewrite dget_filter by exact N1. rewrite G1. destruct (dget k v) as [x|] eqn:E; [|reflexivity]. cbn [option_map fst snd].
    destruct (String.eqb_spec k "name") as [-> | Hk].
    - rewrite Hn in E. injection E as <-. destruct Ln as (Ln & _). destruct n; [congruence | reflexivity].
    - rewrite <- (kept k x (HS k x E Hk)). unfold bridge. now destruct (existsb (String.eqb k) skip_keys || _). }
  rewrite (G2 "remote"), Hr. cbn [bind]. set (c3 := if negb ("status" in? c2) then ddel "status_version" c2 else c2).
  assert (N3 : NoDup (dkeys c3)) by (unfold c3; destruct (negb _); [now apply NoDup_ddel | exact N2]).
  assert (G3 : forall k, dget k c3 = match dget k v with Some (VList []) => Some (VList []) | _ => option_map (bridge k) (read_setting v k) end).
  { assert (St : "status" in? c2 = match dget "status" v with Some s => negb (left_out "status" s) | None => false end).
    { unfold dmem. rewrite G2. destruct (dget "status" v) as [s|] eqn:E; [|reflexivity]. pose proof (setting_kinds _ _ (HS _ _ E ltac:(discriminate))) as Kd.
      destruct Kd as [([] & ->) | [(z & ->) | [(t & ->) | (Kd & _)]]]; [reflexivity | reflexivity | destruct z; reflexivity | destruct t; reflexivity | discriminate Kd]. }
    assert (G3 : forall k, dget k c3 = if String.eqb k "status_version" && match dget "status" v with Some s => left_out "status" s | None => true end then None else dget k c2).
    { intros k. unfold c3. rewrite St. destruct (dget "status" v) as [s|].
      - destruct (left_out "status" s); cbn [negb]; [rewrite dget_ddel by exact N2; now rewrite andb_true_r | now rewrite andb_false_r].
      - cbn [negb]. rewrite dget_ddel by exact N2. now rewrite andb_true_r. }
    intros k. rewrite G3, G2. unfold read_setting. destruct (dget k v) as [x|] eqn:E; [|now destruct (_ && _)].
    set (sv := String.eqb k "status_version" && _). destruct (String.eqb_spec k "data_ciphers") as [-> | Hd].
    - unfold sv. cbn [String.eqb andb]. change (String.eqb "data_ciphers" "status_version") with false. cbn [andb orb]. rewrite orb_false_r.
      destruct x as [|[]|[]| |[]|[]|]; reflexivity.
    - destruct (String.eqb_spec k "name") as [-> | Hk].
      + rewrite Hn in E. injection E as <-. destruct Ln as (Ln & _). destruct n; [congruence|]. unfold sv. reflexivity.
      + destruct (setting_kinds _ _ (HS _ _ E Hk)) as [(b & ->) | [(z & ->) | [(t & ->) | (Kd & _)]]]; [| | |congruence]; destruct (left_out k _); destruct sv; reflexivity. }
  clearbody c3. clear c1 N1 G1 c2 N2 G2.
  assert (D : exists c4, output_data_ciphers c3 = Ok c4 /\ NoDup (dkeys c4) /\ forall k, dget k c4 = section_get v k).
  { unfold output_data_ciphers, dgetN. rewrite G3.
    assert (O : forall k, k <> "data_ciphers" -> dget k c3 = section_get v k).
    { intros k Hk. rewrite G3. unfold section_get, text_value, bridge. rewrite (eqb_neq k "data_ciphers") by exact Hk. reflexivity. }
    destruct (dget "data_ciphers" v) as [x|] eqn:E.
    - destruct (setting_kinds _ _ (HS _ _ E ltac:(discriminate))) as [(b & ->) | [(z & ->) | [(t & ->) | (_ & l & -> & Hl)]]].
      + exfalso. destruct (HS _ _ E ltac:(discriminate)) as [(S & _) | [(S & _) | [(_ & l & S & _) | [(S & _) | (S & _)]]]]; try discriminate S; [| |apply S; cbn; tauto]; cbn in S; repeat destruct S as [S | S]; try discriminate S; destruct S.
      + exfalso. destruct (HS _ _ E ltac:(discriminate)) as [(S & _) | [(S & _) | [(_ & l & S & _) | [(S & _) | (S & _)]]]]; try discriminate S; [| |apply S; cbn; tauto]; cbn in S; repeat destruct S as [S | S]; try discriminate S; destruct S.
      + exfalso. destruct (HS _ _ E ltac:(discriminate)) as [(S & _) | [(S & _) | [(_ & l & S & _) | [(S & _) | (S & _)]]]]; try discriminate S; [| |apply S; cbn; tauto]; cbn in S; repeat destruct S as [S | S]; try discriminate S; destruct S.
      + destruct l as [|e l].
        * exists c3. split; [reflexivity|]. split; [exact N3|]. intros k. destruct (String.eqb_spec k "data_ciphers") as [-> | Hk]; [unfold section_get; now rewrite G3, E | now apply O].
        * assert (R : read_setting v "data_ciphers" = Some (VList (e :: l))) by (unfold read_setting; rewrite E; reflexivity).
          rewrite R. cbn [option_map]. change (bridge "data_ciphers" (VList (e :: l))) with (VList (e :: l)). cbn [truthy negb as_list bind]. rewrite entries_cipher by exact Hl. cbn [bind].
          eexists. split; [reflexivity|]. split; [now apply NoDup_dset|]. intros k. rewrite dget_dset. destruct (String.eqb_spec k "data_ciphers") as [-> | Hk]; [|now apply O].
          unfold section_get. rewrite E, R. reflexivity.
    - assert (R : read_setting v "data_ciphers" = None) by (unfold read_setting; now rewrite E). rewrite R. cbn [option_map truthy negb].
      exists c3. split; [reflexivity|]. split; [exact N3|]. intros k. destruct (String.eqb_spec k "data_ciphers") as [-> | Hk]; [unfold section_get; now rewrite G3, E, R | now apply O]. }
  destruct D as (c4 & -> & N4 & G4). cbn [bind].
  assert (T : add_tls_auth c4 = Ok (c4, None)).
  { unfold add_tls_auth, dgetN. rewrite G4. unfold section_get, read_setting. destruct (dget "tls_auth" v) as [x|] eqn:E; [|reflexivity].
    destruct (HS _ _ E ltac:(discriminate)) as [(S & _) | [(S & _) | [(S & _) | [(_ & a & b & -> & Wa & Wb) | (S & _)]]]]; try discriminate S; [| | |exfalso; apply S; cbn; tauto].
    - exfalso. cbn in S; repeat destruct S as [S | S]; try discriminate S; destruct S.
    - exfalso. cbn in S; repeat destruct S as [S | S]; try discriminate S; destruct S.
    - destruct (words_split a b Wa Wb) as (W1 & W2). destruct Wa as (Wa & _). destruct (a +++ " " +++ b) as [|ch rest] eqn:Es; [destruct a; [congruence | discriminate]|].
      cbn [left_out]. change (String.eqb "tls_auth" "status_version") with false. cbn [andb orb option_map]. change (text_value "tls_auth" (VStr (String ch rest))) with (VStr (String ch rest)).
      cbn [truthy String.eqb negb as_str bind]. rewrite W1, W2. reflexivity. }
  rewrite T. cbn [bind fst snd]. eexists. split; [reflexivity|]. split; [now apply ssort_sorted_keys|]. intros k. rewrite dget_ssort by exact N4. apply G4.
Qed.

(** ** The section can be written and read *)
Lemma one_word_line s : one_word s -> line_text s.
Proof.
  intros (H1 & H2). split; [exact H1|]. split; [|split].
  - pose proof (strip_tight _ "" "" (spaceless_tight _ H1 H2) eq_refl eq_refl) as E. cbn in E. now rewrite app_nil_s in E.
  - apply no_char_spec. now apply spaceless_oneline.
  - apply contains_nochar. now apply spaceless_noblank.
Qed.
Lemma Z_word z : one_word (string_of_Z z).
Proof.
  split; [apply string_of_Z_nonempty|]. destruct z as [|p|p]; [reflexivity| |]; unfold string_of_Z; cbn [sforall]; rewrite digits_spaceless by apply string_of_N_digits; reflexivity.
Qed.
Lemma two_words_line a b : one_word a -> one_word b -> line_text (a +++ " " +++ b).
Proof.
  intros Ha Hb. destruct (words_split a b Ha Hb) as (E & _). split; [destruct Ha as (Ha & _); destruct a; [congruence | discriminate]|]. split; [exact E|]. split.
  - apply no_char_spec. rewrite !nochar_app. destruct Ha as (_ & Ha), Hb as (_ & Hb). apply spaceless_oneline in Ha, Hb. unfold oneline in Ha, Hb. now rewrite Ha, Hb.
  - destruct (line_text_facts b (one_word_line b Hb)) as (_ & _ & _ & C). unfold S4 in C. rewrite contains_skip; [exact C|]. destruct Ha as (_ & Ha). now apply spaceless_noblank.
Qed.
Lemma words_join l : l <> [] -> (forall s, In s l -> one_word s) -> one_word (join ":" l).
Proof.
  intros Hn H. induction l as [|s l IH]; [congruence|]. destruct l as [|t l].
  - cbn. apply H. now left.
  - change (join ":" (s :: t :: l)) with (s +++ ":" +++ join ":" (t :: l)). destruct IH as (I1 & I2); [discriminate | intros; apply H; now right|].
    destruct (H s (or_introl eq_refl)) as (S1 & S2). split; [destruct s; [congruence | discriminate]|]. rewrite !sforall_app, S2, I2. reflexivity.
Qed.
Lemma ciphers_word l : l <> [] -> Forall cipher_entry l -> one_word (join ":" (map entry_text l)).
Proof.
  intros Hn H. apply words_join; [destruct l; [congruence | discriminate]|]. intros s Hs. apply in_map_iff in Hs as (v & <- & Hv). rewrite Forall_forall in H. apply entry_cipher, H, Hv.
Qed.
Lemma read_setting_get v k x : read_setting v k = Some x -> dget k v = Some x /\ left_out k x = false.
Proof.
  unfold read_setting. destruct (dget k v) as [y|]; [|discriminate]. destruct (left_out k y) eqn:L; [discriminate|]. cbn [orb]. destruct (_ && _); [discriminate|]. intros [= ->]. auto.
Qed.
(** What is written for a setting: at most one argument *)
Lemma setting_arguments k x : server_setting k x -> left_out k x = false ->
  exists a, arguments (text_value k x) = [a] /\ (forall s, a = Some s -> line_text s) /\ cast_value (dget k openvpn_props) (argument_value a) = Ok (text_value k x).
Proof.
  intros H L. destruct H as [(H & z & ->) | [(H & b & ->) | [(-> & l & -> & H) | [(-> & a & b & -> & Wa & Wb) | (H & s & -> & Hs)]]]].
  - exists (Some (string_of_Z z)). split; [|split].
    + cbn in H. repeat destruct H as [<- | H]; try reflexivity. destruct H.
    + intros s [= <-]. apply one_word_line. apply Z_word.
    + assert (E : dget k openvpn_props = Some JInt /\ text_value k (VInt z) = VInt z) by (cbn in H; repeat destruct H as [<- | H]; try (split; reflexivity); destruct H).
      destruct E as (-> & ->). cbn [argument_value cast_value]. now rewrite int_of_string_Z.
  - destruct b; [|discriminate]. exists None. split; [|split].
    + cbn in H. repeat destruct H as [<- | H]; try reflexivity. destruct H.
    + discriminate.
    + cbn in H. repeat destruct H as [<- | H]; try reflexivity. destruct H.
  - destruct l as [|e l]; [discriminate|]. exists (Some (join ":" (map entry_text (e :: l)))). split; [reflexivity|]. split; [|reflexivity].
    intros s [= <-]. apply one_word_line. now apply (ciphers_word (e :: l)).
  - exists (Some (a +++ " " +++ b)). split; [|split]; [reflexivity| |reflexivity]. intros s [= <-]. now apply two_words_line.
  - assert (E : dget k openvpn_props = None).
    { apply dget_None. intros Hi. apply H. apply in_app_iff. right. clear -Hi. cbn in *. repeat destruct Hi as [<- | Hi]; try tauto. }
    rewrite E. unfold text_value. destruct (String.eqb_spec k "server_bridge") as [-> | Hb].
    + destruct s as [|ch s]; [exists None; split; [reflexivity|]; split; [discriminate | reflexivity]|].
      exists (Some (String ch s)). split; [reflexivity|]. split; [|reflexivity]. intros t [= <-]. destruct Hs as [Hs|Hs]; [discriminate | exact Hs].
    + rewrite (eqb_neq k "data_ciphers") by (intros ->; apply H; now left). exists (Some s). split; [reflexivity|]. split; [|reflexivity]. intros t [= <-].
      destruct Hs as [-> | Hs]; [|exact Hs]. cbn in L. rewrite (eqb_neq k "server_bridge") in L by exact Hb. discriminate.
Qed.
Lemma section_ok v s : server_ok v -> sorted_keys s -> (forall k, dget k s = section_get v k) -> vpn_ok s.
Proof.
  intros (Nd & (n & Hn & Ln) & H) Ss G. assert (Hname : dget "name" s = Some (VStr n)).
  { rewrite G. unfold section_get, read_setting. rewrite Hn. destruct Ln as (Ln & _). destruct n; [congruence | reflexivity]. }
  split; [now apply sorted_NoDup|]. split; [eauto|]. intros k x Hx Hk Ha. apply (In_dget k x s (sorted_NoDup s Ss)) in Hx. rewrite G in Hx.
  unfold section_get in Hx. assert (R : exists y, read_setting v k = Some y /\ x = text_value k y).
  { destruct (dget k v) as [[|?|?|?|?|[|? ?]|?]|] eqn:E; try (destruct (read_setting v k); [|discriminate]; injection Hx as <-; eauto).
    exfalso. injection Hx as <-. now apply Ha. }
  destruct R as (y & R & ->). apply read_setting_get in R as (Ey & Ly). apply dget_In in Ey. destruct (H _ _ Ey Hk) as (Ok1 & Sk). split; [exact Ok1|].
  destruct (setting_arguments k y Sk Ly) as (a & -> & Hl & _). intros t [-> | []]. now apply Hl.
Qed.
Lemma server_back v s s' : server_ok v -> (forall k, dget k s = section_get v k) -> vpn_reads s s' ->
  exists v', vpn_back s' = Ok v' /\ server_reads v v'.
Proof.
  intros Hv G (Ss & Rd). pose proof (no_remote v Hv) as Hr. destruct Hv as (Nd & (n & Hn & Ln) & H).
  assert (T : exists y, type_cast openvpn_props s' = Ok y /\ NoDup (dkeys y) /\ forall k, dget k y = option_map (text_value k) (read_setting v k)).
  { apply type_cast_pointwise; [now apply sorted_NoDup|]. intros k. rewrite Rd, G. unfold section_get. destruct (String.eqb_spec k "name") as [-> | Hk].
    - unfold read_setting. rewrite Hn. destruct Ln as (Ln & _). destruct n as [|ch n]; [congruence|]. exists (VStr (String ch n)). split; reflexivity.
    - destruct (dget k v) as [x|] eqn:E.
      + assert (L : match x with VList [] => True | _ => False end \/ match Some x with Some (VList []) => Some (VList []) | _ => option_map (text_value k) (read_setting v k) end = option_map (text_value k) (read_setting v k)) by (destruct x as [| | | | |[]|]; auto).
        destruct L as [L | L].
        * destruct x as [| | | | |[]|]; try destruct L. cbn [arguments map last_of rev option_map]. unfold read_setting. rewrite E. reflexivity.
        * rewrite L. destruct (read_setting v k) as [y|] eqn:R; [|reflexivity]. cbn [option_map]. apply read_setting_get in R as (Ey & Ly). apply dget_In in Ey. destruct (H _ _ Ey Hk) as (_ & Sk).
          destruct (setting_arguments k y Sk Ly) as (a & -> & _ & C). cbn [last_of rev app option_map]. eauto.
      + unfold read_setting. rewrite E. reflexivity. }
  destruct T as (y & Ty & Ny & Gy). unfold vpn_back. rewrite Ty. cbn [bind].
  set (y1 := match dget "server_bridge" y with Some (VBool true) => dset "server_bridge" (VStr "") y | _ => y end).
  assert (N1 : NoDup (dkeys y1)) by (unfold y1; destruct (dget "server_bridge" y) as [[|[]| | | | |]|]; try exact Ny; now apply NoDup_dset).
  assert (G1 : forall k, dget k y1 = if String.eqb k "data_ciphers" then option_map (text_value k) (read_setting v k) else read_setting v k).
  { assert (Go : forall k, k <> "server_bridge" -> dget k y = if String.eqb k "data_ciphers" then option_map (text_value k) (read_setting v k) else read_setting v k).
    { intros k Hk. rewrite Gy. destruct (String.eqb_spec k "data_ciphers") as [-> | Hd]; [reflexivity|]. unfold text_value. rewrite (eqb_neq k "server_bridge"), (eqb_neq k "data_ciphers") by assumption.
      now destruct (read_setting v k). }
    assert (Gb : dget "server_bridge" y = option_map (text_value "server_bridge") (read_setting v "server_bridge")) by apply Gy.
    assert (Kb : forall x, read_setting v "server_bridge" = Some x -> exists s0, x = VStr s0).
    { intros x R. apply read_setting_get in R as (R & _). apply dget_In in R. destruct (H _ _ R ltac:(discriminate)) as (_ & Sk).
      destruct Sk as [(S & _) | [(S & _) | [(S & _) | [(S & _) | (S & s0 & -> & _)]]]]; try discriminate S; eauto; exfalso; cbn in S; repeat destruct S as [S | S]; try discriminate S; destruct S. }
    intros k. unfold y1. destruct (String.eqb_spec k "server_bridge") as [-> | Hk].
    - rewrite Gb. change (String.eqb "server_bridge" "data_ciphers") with false. cbv iota. destruct (read_setting v "server_bridge") as [x|] eqn:R.
      + destruct (Kb x eq_refl) as ([|ch s0] & ->); cbn [option_map].
        * change (text_value "server_bridge" (VStr "")) with (VBool true). cbv iota. rewrite dget_dset. reflexivity.
        * change (text_value "server_bridge" (VStr (String ch s0))) with (VStr (String ch s0)) in *. cbv iota. rewrite Gb. reflexivity.
      + cbn [option_map]. rewrite Gb. reflexivity.
    - rewrite <- Go by exact Hk. destruct (dget "server_bridge" y) as [[|[]| | | | |]|]; try reflexivity. rewrite dget_dset, (eqb_neq k "server_bridge") by exact Hk. reflexivity. }
  clearbody y1. rewrite (G1 "remote"). change (String.eqb "remote" "data_ciphers") with false. cbv iota.
  assert (Rr : read_setting v "remote" = None) by (unfold read_setting; now rewrite Hr). rewrite Rr. cbn [bind].
  unfold data_ciphers_back, dgetN. rewrite (G1 "data_ciphers"). change (String.eqb "data_ciphers" "data_ciphers") with true. cbv iota.
  destruct (read_setting v "data_ciphers") as [x|] eqn:R.
  - pose proof R as R'. apply read_setting_get in R' as (Ex & Lx). apply dget_In in Ex. destruct (H _ _ Ex ltac:(discriminate)) as (_ & Sk).
    assert (Kd : exists l, x = VList l /\ l <> [] /\ Forall cipher_entry l).
    { destruct Sk as [(S & _) | [(S & _) | [(_ & l & -> & S) | [(S & _) | (S & _)]]]]; try discriminate S; [| | |exfalso; apply S; now left].
      - exfalso; cbn in S; repeat destruct S as [S | S]; try discriminate S; destruct S.
      - exfalso; cbn in S; repeat destruct S as [S | S]; try discriminate S; destruct S.
      - exists l. split; [reflexivity|]. split; [|exact S]. intros ->. discriminate Lx. }
    destruct Kd as (l & -> & Hn0 & Hl). assert (Et : text_value "data_ciphers" (VList l) = VStr (join ":" (map entry_text l))) by (destruct l; [congruence | reflexivity]).
    cbn [option_map]. rewrite Et. destruct (ciphers_word l Hn0 Hl) as (W & _). cbn [truthy]. rewrite eqb_neq by exact W. cbn [negb as_str bind]. rewrite entries_back by assumption.
    eexists. split; [reflexivity|]. split; [now apply NoDup_dset|]. intros k. rewrite dget_dset, G1. destruct (String.eqb_spec k "data_ciphers") as [-> | Hk]; [now rewrite R | reflexivity].
  - cbn [option_map truthy negb]. eexists. split; [reflexivity|]. split; [exact N1|]. intros k. rewrite G1. destruct (String.eqb_spec k "data_ciphers") as [-> | Hk]; [now rewrite R | reflexivity].
Qed.

(** ** The backend *)
Lemma sections_all vs : Forall server_ok vs -> exists ss, Forall2 (fun v s => vpn_section remove_all v = Ok (s, None) /\ sorted_keys s /\ forall k, dget k s = section_get v k) vs ss.
Proof.
  induction 1 as [|v vs H _ (ss & IH)]; [exists []; constructor|]. destruct (server_section v H) as (s & Hs). exists (s :: ss). now constructor.
Qed.
Lemma loop_sections config vs ss : Forall2 (fun v s => vpn_section remove_all v = Ok (s, None)) vs ss -> forall acc,
  vpn_loop (vpn_section remove_all) (map VDict vs) config (acc_of "openvpn" acc) = (config, Ok (acc_of "openvpn" (acc ++ ss))).
Proof.
  induction 1 as [|v s vs ss H _ IH]; intros acc; [cbn; now rewrite app_nil_r|]. cbn [map vpn_loop as_dict bind]. rewrite H. rewrite add_blocks_acc, IH, <- app_assoc. reflexivity.
Qed.
Lemma Forall2_imp {A B} (P Q : A -> B -> Prop) l m : (forall a b, P a b -> Q a b) -> Forall2 P l m -> Forall2 Q l m.
Proof. intros H. induction 1; constructor; auto. Qed.
Lemma openvpn_inter oid schema_ok config vs : dget "openvpn" config = Some (VList (map VDict vs)) -> vs <> [] -> Forall server_ok vs ->
  exists ss, Forall2 (fun v s => vpn_section remove_all v = Ok (s, None) /\ sorted_keys s /\ forall k, dget k s = section_get v k) vs ss /\
    convert_fwd oid (be_convs (openvpn_backend schema_ok)) (fresh config) [] = ({| st_config := config; st_inter := Some [("openvpn", VList (map VDict ss))] |}, Ok tt).
Proof.
  intros Hd Hn H. destruct (sections_all vs H) as (ss & Hs). exists ss. split; [exact Hs|].
  cbn [be_convs openvpn_backend convert_fwd]. unfold openvpn_base. cbn [c_fwd_run vpn_converter c_fwd st_config fresh]. unfold dmem. rewrite Hd. cbn [negb].
  unfold vpn_fwd, dgetN. rewrite Hd. cbn [as_list]. pose proof (loop_sections config vs ss (Forall2_imp _ _ _ _ (fun a b Hab => proj1 Hab) Hs) []) as L. cbn [acc_of app] in L. rewrite L.
  destruct ss as [|s ss]; [inversion Hs; subst; congruence|]. cbn [acc_of]. rewrite merge_nil_l by (constructor; [intros [] | constructor]). reflexivity.
Qed.
Lemma all_vpn_ok vs ss : Forall server_ok vs -> Forall2 (fun v s => vpn_section remove_all v = Ok (s, None) /\ sorted_keys s /\ forall k, dget k s = section_get v k) vs ss -> Forall vpn_ok ss.
Proof.
  intros H F. induction F as [|v s vs ss (_ & S1 & S2) F IH]; [constructor|]. inversion H; subst. constructor; [eapply section_ok; eauto | auto].
Qed.
Lemma reads_nonempty s s' : vpn_ok s -> vpn_reads s s' -> skip_block [] s' = false.
Proof.
  intros (_ & (n & Hn & _) & _) (_ & R). specialize (R "name"). cbn in R. rewrite Hn in R. destruct s'; [discriminate | reflexivity].
Qed.
Lemma back_loop ss' vs' : Forall2 (fun s v => skip_block [] s = false /\ vpn_back s = Ok v) ss' vs' -> forall i left acc,
  exists left', bwd_loop (skip_block []) (vpn_bwd_block vpn_back) (map VDict ss') i left (acc_of "openvpn" acc) = (left', Ok (acc_of "openvpn" (acc ++ vs'))).
Proof.
  induction 1 as [|s v ss' vs' (H1 & H2) _ IH]; intros i left acc; [exists left; cbn; now rewrite app_nil_r|].
  cbn [map bwd_loop as_dict]. rewrite H1. unfold vpn_bwd_block at 1. rewrite H2. cbn [bind]. rewrite add_blocks_acc.
  destruct (IH (S i) (remove_first (VDict s) left) (acc ++ [v])%list) as (l & E). exists l. rewrite E, <- app_assoc. reflexivity.
Qed.
Lemma openvpn_parsed oid schema_ok ss' vs' : vs' <> [] -> Forall2 (fun s v => skip_block [] s = false /\ vpn_back s = Ok v) ss' vs' ->
  let inter := [("openvpn", VList (map VDict ss'))] in let config := [("openvpn", VList (map VDict vs'))] in
  to_netjson oid (openvpn_backend schema_ok) inter = ({| st_config := config; st_inter := Some inter |}, base_validate schema_ok config).
Proof.
  intros Hn H. cbv zeta. unfold to_netjson. cbn [be_convs openvpn_backend convert_bwd]. unfold openvpn_base. cbn [c_bwd_run vpn_converter c_bwd]. change (dmem "openvpn" [("openvpn", VList (map VDict ss'))]) with true. cbn [negb].
  unfold bwd_list. change (dget "openvpn" [("openvpn", VList (map VDict ss'))]) with (Some (VList (map VDict ss'))). cbn [as_list].
  destruct (back_loop ss' vs' H 0 (map VDict ss') []) as (l & E). cbn [acc_of app] in E. rewrite E. destruct vs' as [|v vs']; [congruence|]. cbn [acc_of].
  rewrite merge_nil_l by (constructor; [intros [] | constructor]). reflexivity.
Qed.
Theorem server_round_trip oid schema_ok config vs s1 text : dget "openvpn" config = Some (VList (map VDict vs)) -> vs <> [] -> Forall server_ok vs ->
  render oid (openvpn_backend schema_ok) false (fresh config) = (s1, Ok text) ->
  forall s0, exists vs' inter, let config' := [("openvpn", VList (map VDict vs'))] in
    parse oid (openvpn_backend schema_ok) (Ok (parse_openvpn text)) s0 = ({| st_config := config'; st_inter := inter |}, base_validate schema_ok config') /\
    Forall2 server_reads vs vs'.
Proof.
  intros Hd Hn H R s0. unfold render in R. cbn [st_config fresh st_inter] in R. destruct (be_validate _ config) as [[]|e] eqn:Ev; [|discriminate].
  unfold to_intermediate in R. cbn [st_config fresh] in R. rewrite Ev in R. destruct (openvpn_inter oid schema_ok config vs Hd Hn H) as (ss & Hs & Ei). rewrite Ei in R.
  cbn [st_config st_inter] in R. destruct (deduplicate_files config) as [c'|e]; [|discriminate]. injection R as _ R. unfold render_text in R. cbn [st_inter be_render openvpn_backend] in R.
  pose proof (all_vpn_ok vs ss H Hs) as Vk. assert (Nss : ss <> []) by (intros ->; inversion Hs; subst; congruence).
  destruct (text_round_trip [("openvpn", VList (map VDict ss))] ss eq_refl Nss Vk) as (t & ss' & E1 & E2 & F). rewrite E1 in R. cbn [bind] in R. injection R as <-.
  assert (B : exists vs', Forall2 (fun s v => skip_block [] s = false /\ vpn_back s = Ok v) ss' vs' /\ Forall2 server_reads vs vs').
  { clear -H Hs Vk F. revert vs H Hs. induction F as [|s s' ss ss' Rd F IH]; intros vs H Hs.
    - inversion Hs; subst. exists []. split; constructor.
    - inversion Hs as [|v ? vs0 ? (A1 & A2 & A3) Hs']; subst. inversion H; subst. inversion Vk; subst. destruct (IH ltac:(assumption) vs0 ltac:(assumption) Hs') as (vs' & B1 & B2).
      destruct (server_back v s s' ltac:(assumption) A3 Rd) as (v' & Bk & Sr). exists (v' :: vs'). split; constructor; auto. split; [eapply reads_nonempty; eauto | exact Bk]. }
  destruct B as (vs' & B1 & B2). assert (Nvs : vs' <> []) by (intros ->; inversion B2; subst; congruence).
  exists vs', (Some [("openvpn", VList (map VDict ss'))]). cbv zeta. split; [|exact B2]. unfold parse. rewrite E2. now apply openvpn_parsed.
Qed.
(** It renders. *)
Theorem server_renders oid schema_ok config vs c' : dget "openvpn" config = Some (VList (map VDict vs)) -> vs <> [] -> Forall server_ok vs ->
  base_validate schema_ok config = Ok tt -> deduplicate_files config = Ok c' ->
  exists s1 text, render oid (openvpn_backend schema_ok) false (fresh config) = (s1, Ok text).
Proof.
  intros Hd Hn H Ev Dd. unfold render. cbn [st_config fresh st_inter]. change (be_validate (openvpn_backend schema_ok) config) with (base_validate schema_ok config). rewrite Ev.
  unfold to_intermediate. cbn [st_config fresh]. change (be_validate (openvpn_backend schema_ok) config) with (base_validate schema_ok config). rewrite Ev.
  destruct (openvpn_inter oid schema_ok config vs Hd Hn H) as (ss & Hs & Ei). rewrite Ei. cbn [st_config st_inter]. rewrite Dd. unfold render_text. cbn [st_inter be_render openvpn_backend].
  pose proof (all_vpn_ok vs ss H Hs) as Vk. assert (Nss : ss <> []) by (intros ->; inversion Hs; subst; congruence).
  destruct (text_round_trip [("openvpn", VList (map VDict ss))] ss eq_refl Nss Vk) as (t & ss' & E1 & E2 & F). rewrite E1. cbn [bind]. eauto.
Qed.

(** ** Remotes *)
Lemma loop_fails ss : (exists s, In s ss /\ s <> [] /\ exists e, vpn_back s = Err e) -> forall i left acc,
  exists left' e, bwd_loop (skip_block []) (vpn_bwd_block vpn_back) (map VDict ss) i left acc = (left', Err e).
Proof.
  induction ss as [|s ss IH]; intros (x & Hx & Hne & e & He) i left acc; [destruct Hx|]. cbn [map bwd_loop as_dict].
  destruct (skip_block [] s) eqn:Es.
  - apply IH. destruct Hx as [-> | Hx]; [destruct x; [congruence | discriminate]|]. eauto.
  - unfold vpn_bwd_block at 1. destruct (vpn_back s) as [v|e'] eqn:Eb; cbn [bind]; [|eauto]. apply IH. destruct Hx as [-> | Hx]; [congruence | eauto].
Qed.
Definition scalar (x : val) : Prop := (exists s, x = VStr s /\ s <> EmptyString) \/ x = VBool true.
Lemma vpn_back_remote s : (forall x, dget "remote" s = Some x -> scalar x) -> "remote" in? s = true -> exists e, vpn_back s = Err e.
Proof.
  intros H Hm. unfold vpn_back. destruct (type_cast openvpn_props s) as [c|e] eqn:E; cbn [bind]; [|eauto].
  pose proof (type_cast_get _ "remote" _ _ E) as G. unfold dmem in Hm. destruct (dget "remote" s) as [x|]; [|discriminate]. destruct G as (v & Hc & Hg). injection Hc as <-.
  set (c' := match dget "server_bridge" c with Some (VBool true) => dset "server_bridge" (VStr "") c | _ => c end).
  assert (G' : dget "remote" c' = Some x) by (unfold c'; destruct (dget "server_bridge" c) as [[|[]| | | | |]|]; try exact Hg; rewrite dget_dset; exact Hg).
  rewrite G'. destruct (H x eq_refl) as [(t & -> & Ht) | ->]; [destruct t; [congruence|]|]; cbn [remotes_of bind]; eauto.
Qed.
Lemma parsed_scalar contents k x : k <> "name" -> dget k (parse_vpn contents) = Some x -> scalar x.
Proof.
  intros Hk. unfold parse_vpn. destruct (split_char NLc contents) as [|n ls]; [discriminate|].
  assert (G : forall ls acc, NoDup (dkeys acc) -> (forall x, dget k acc = Some x -> scalar x) -> NoDup (dkeys (fold_left parse_vpn_line ls acc)) /\ forall x, dget k (fold_left parse_vpn_line ls acc) = Some x -> scalar x).
  { clear. induction ls as [|l ls IH]; intros acc Na H; [auto|]. cbn [fold_left]. apply IH.
    - unfold parse_vpn_line. destruct (String.eqb (strip l) ""); [exact Na|]. destruct (vpn_option (strip l)). now apply NoDup_dset.
    - unfold parse_vpn_line. destruct (String.eqb (strip l) ""); [exact H|]. unfold vpn_option. destruct (span _ (strip l)) as (w & r). intros x. rewrite dget_dset.
      destruct (String.eqb k (underscores w)); [|apply H]. intros E. apply (f_equal (fun o => match o with Some y => y | None => VNull end)) in E. cbv beta iota in E. rewrite <- E.
      match goal with |- scalar (if String.eqb ?t "" then _ else _) => generalize t end. intros t. destruct (String.eqb_spec t "") as [_ | Ht]; [now right | left; eauto]. }
  destruct (G ls [("name", VStr n)]) as (G1 & G2).
  - constructor; [intros [] | constructor].
  - intros y. cbn [dget]. rewrite (eqb_neq k "name") by exact Hk. discriminate.
  - rewrite dget_ssort by exact G1. apply G2.
Qed.
Lemma map_injective_dict a b : map VDict a = map VDict b -> a = b.
Proof. revert b. induction a as [|x a IH]; intros [|y b] E; try discriminate; [reflexivity|]. injection E as -> E. now rewrite (IH b E). Qed.
Theorem remote_unreadable oid schema_ok text vs s0 : parse_openvpn text = [("openvpn", VList (map VDict vs))] ->
  (exists v, In v vs /\ "remote" in? v = true) -> exists s1 e, parse oid (openvpn_backend schema_ok) (Ok (parse_openvpn text)) s0 = (s1, Err e).
Proof.
  intros E (v & Hv & Hm). unfold parse. rewrite E. unfold to_netjson. cbn [be_convs openvpn_backend convert_bwd]. unfold openvpn_base. cbn [c_bwd_run vpn_converter c_bwd].
  change (dmem "openvpn" [("openvpn", VList (map VDict vs))]) with true. cbn [negb]. unfold bwd_list. change (dget "openvpn" [("openvpn", VList (map VDict vs))]) with (Some (VList (map VDict vs))). cbn [as_list].
  destruct (loop_fails vs) with (i := 0) (left := map VDict vs) (acc := @nil (string * val)) as (l & e & L).
  - exists v. split; [exact Hv|]. split; [intros ->; discriminate Hm|]. apply vpn_back_remote; [|exact Hm]. intros x Hx.
    injection E as E. rewrite <- (map_map parse_vpn VDict) in E. apply map_injective_dict in E. subst vs. apply in_map_iff in Hv as (p & <- & _). exact (parsed_scalar p "remote" x ltac:(discriminate) Hx).
  - rewrite L. eauto.
Qed.
