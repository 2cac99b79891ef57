(** * WgProofs: the text of WireGuard interfaces (proofs only) *)
From Verif Require Import PyBase PyLemmas StrLemmas SortLemmas NumLemmas Merge MergeProofs MergeListProofs Files FilesProofs Backend Conv Uci SpecUci UciProofs UciParseProofs UciRoundTrip UciMore ConvLemmas RtGeneric OpenVpnConv VpnText SpecVpn VpnProofs VpnApi SpecWg.

(** ** Lines *)
Definition setting_line (kv : string * val) : string := fst kv +++ " = " +++ py_str (snd kv).
Definition peer_lines (p : dict) : list string := ("[Peer]" :: map setting_line (filter (fun kv => truthy (snd kv)) p) ++ [EmptyString])%list.
Definition wg_header (v : dict) : string := "# wireguard config: " +++ tpl_get "name" v.
Definition wg_lines (v : dict) (ps : list dict) : list string :=
  (wg_header v :: EmptyString :: "[Interface]" :: map setting_line (filter wg_shown v) ++ EmptyString :: flat_map peer_lines ps)%list.
Lemma settings_clear (w : string * val -> bool) d : (forall kv, In kv d -> w kv = true -> contains S4 (setting_line kv) = false) ->
  clears (fold_right (fun kv acc => tpl_wg_setting (w kv) kv +++ acc) EmptyString d) (K (map setting_line (filter w d))).
Proof.
  intros H. induction d as [|kv d IH]; [exact clears_nil|]. cbn [fold_right filter].
  assert (S1 : clears (tpl_wg_setting (w kv) kv) (if w kv then setting_line kv +++ NL else EmptyString)).
  { unfold tpl_wg_setting. destruct (w kv) eqn:E.
    - apply (clears_wrap 3 2). unfold setting_line. replace (spaces 16 +++ fst kv +++ " = " +++ py_str (snd kv) +++ NL +++ spaces 12) with (spaces (4 * 4) +++ setting_line kv +++ NL +++ spaces (4 * 3)) by (unfold setting_line; now rewrite !app_assoc_s).
      apply clears_one. apply H; [now left | exact E].
    - exact (clears_sp 5). }
  eapply clears_eq; [apply clears_app; [exact S1 | apply IH; intros; apply H; [now right | assumption]]|]. destruct (w kv); [|reflexivity]. cbn [map K fold_right]. now rewrite app_assoc_s.
Qed.
Lemma peer_clears p : (forall l, In l (peer_lines p) -> contains S4 l = false) -> clears (tpl_wg_peer p) (K (peer_lines p)).
Proof.
  intros H. unfold tpl_wg_peer. set (F := fold_right _ "" p).
  replace (spaces 4 +++ "[Peer]" +++ NL +++ spaces 8 +++ F +++ NL +++ spaces 4) with ((spaces (4 * 1) +++ "[Peer]" +++ NL) +++ (spaces (4 * 2) +++ (F +++ (EmptyString +++ NL +++ spaces (4 * 1))))) by now rewrite !app_assoc_s.
  eapply clears_eq.
  - apply clears_app; [apply clears_indent; reflexivity|]. apply clears_app; [apply clears_sp|]. apply clears_app.
    + apply (settings_clear (fun kv => truthy (snd kv))). intros kv Hkv Ht. apply H. right. apply in_app_iff. left. apply in_map_iff. exists kv. split; [reflexivity|]. now apply filter_In.
    + exact (clears_one 0 1 EmptyString eq_refl).
  - unfold peer_lines. change (K ("[Peer]" :: map setting_line (filter (fun kv => truthy (snd kv)) p) ++ [""])) with ("[Peer]" +++ NL +++ K (map setting_line (filter (fun kv => truthy (snd kv)) p) ++ [""])).
    rewrite K_app, !app_assoc_s. reflexivity.
Qed.
Lemma wg_clears v ps : (forall l, In l (wg_lines v ps) -> contains S4 l = false) -> clears (tpl_wg v ps) (K (wg_lines v ps)).
Proof.
  intros H. unfold tpl_wg. set (F := fold_right (fun kv acc => tpl_wg_setting (wg_shown kv) kv +++ acc) "" v). set (G := fold_right (fun p acc => tpl_wg_peer p +++ acc) "" ps).
  replace (spaces 4 +++ "# wireguard config: " +++ tpl_get "name" v +++ NL +++ NL +++ spaces 4 +++ "[Interface]" +++ NL +++ spaces 8 +++ F +++ NL +++ spaces 4 +++ G)
    with ((spaces (4 * 1) +++ wg_header v +++ NL) +++ ((EmptyString +++ NL) +++ ((spaces (4 * 1) +++ "[Interface]" +++ NL) +++ (spaces (4 * 2) +++ (F +++ ((EmptyString +++ NL +++ spaces (4 * 1)) +++ G))))))
    by (unfold wg_header; rewrite !app_assoc_s; reflexivity).
  eapply clears_eq.
  - apply clears_app; [apply clears_indent, H; now left|]. apply clears_app; [exact (clears_line "" eq_refl)|]. apply clears_app; [apply clears_indent; reflexivity|].
    apply clears_app; [apply clears_sp|]. apply clears_app.
    + apply (settings_clear wg_shown). intros kv Hkv Ht. apply H. right; right; right. apply in_app_iff. left. apply in_map_iff. exists kv. split; [reflexivity|]. now apply filter_In.
    + apply clears_app; [exact (clears_one 0 1 EmptyString eq_refl)|]. apply (clears_fold _ (fun p => K (peer_lines p))). intros p Hp. apply peer_clears. intros l Hl. apply H.
      right; right; right. apply in_app_iff. right. right. apply in_flat_map. eauto.
  - rewrite fold_K. unfold wg_lines.
    match goal with |- _ = K (_ :: _ :: _ :: ?X) => change (K (wg_header v :: "" :: "[Interface]" :: X)) with (wg_header v +++ NL +++ "" +++ NL +++ "[Interface]" +++ NL +++ K X) end.
    rewrite K_app. change (K ("" :: flat_map peer_lines ps)) with (NL +++ K (flat_map peer_lines ps)). rewrite !app_assoc_s. reflexivity.
Qed.

(** ** The rendered text *)
Lemma K_split ls : forallb oneline ls = true -> split_char NLc (K ls) = (ls ++ [EmptyString])%list.
Proof.
  intros H. destruct ls as [|l ls]; [reflexivity|]. rewrite K_J. cbn [forallb] in H. apply andb_true_iff in H as (H1 & H2). apply split_J; [exact H1|]. rewrite forallb_app_iff, H2. reflexivity.
Qed.
Lemma K_cleanup ls l : l <> [] \/ ls <> [] -> let t := K ((ls ++ l) ++ [EmptyString]) in (if endswith (NL +++ NL) t then sinit t else t) = K (ls ++ l).
Proof.
  intros Hn. cbv zeta. assert (E : exists X, K (ls ++ l) = X +++ NL).
  { assert (Hl : (ls ++ l)%list <> []) by (intros E; apply app_eq_nil in E as (-> & ->); destruct Hn; congruence).
    destruct (exists_last Hl) as (a & x & ->). exists (K a +++ x). rewrite K_app, K_one. now rewrite app_assoc_s. }
  rewrite K_app, K_one. destruct E as (X & ->). cbn [String.append]. rewrite app_assoc_s, endswith_nn. unfold NL. rewrite <- app_assoc_s. apply sinit_snoc.
Qed.

(** ** Reading lines *)
Definition key_char (c : ascii) : bool := negb (is_space c || Ascii.eqb c "=" || Ascii.eqb c "#" || Ascii.eqb c "[").
Definition key_ok (k : string) : Prop := k <> EmptyString /\ sforall key_char k = true.
Lemma key_spaceless k : key_ok k -> sforall (fun c => negb (is_space c)) k = true.
Proof.
  intros (_ & H). induction k as [|c k IH]; [reflexivity|]. cbn in *. apply andb_true_iff in H as (H1 & H2). rewrite IH by assumption. unfold key_char in H1. now destruct (is_space c).
Qed.
Lemma cut_key k t : sforall key_char k = true -> cut_at "=" (k +++ " = " +++ t) = (k +++ " ", " " +++ t).
Proof.
  induction k as [|c k IH]; intros H; [reflexivity|]. cbn [sforall] in H. apply andb_true_iff in H as (H1 & H2). cbn [String.append cut_at].
  assert (E : Ascii.eqb c "=" = false) by (unfold key_char in H1; destruct (Ascii.eqb c "="); [rewrite !orb_true_r in H1; discriminate | reflexivity]).
  rewrite E. change (k +++ String " " (String "=" (String " " t))) with (k +++ " = " +++ t). now rewrite IH.
Qed.
Lemma strip_self s : tight s -> strip s = s.
Proof. intros T. pose proof (strip_tight s "" "" T eq_refl eq_refl) as E. cbn in E. now rewrite app_nil_s in E. Qed.
Lemma kind_setting k x : key_ok k -> line_text (py_str x) -> wg_kind (setting_line (k, x)) = Setting k (py_str x).
Proof.
  intros Hk Ht. pose proof (key_spaceless k Hk) as Hs. destruct Hk as (Hn & Hk). destruct (line_text_facts _ Ht) as (T & _).
  pose proof (spaceless_tight k Hn Hs) as Tk. unfold wg_kind, setting_line. cbn [fst snd]. rewrite strip_self by (now apply tight_app).
  rewrite cut_key by exact Hk. destruct k as [|c k]; [congruence|]. cbn [sforall] in Hk. apply andb_true_iff in Hk as (H1 & _). unfold key_char in H1. apply negb_true_iff in H1.
  repeat rewrite orb_false_iff in H1. destruct H1 as (((_ & _) & H2) & H3). cbn [String.append String.eqb startswith orb]. rewrite Ascii.eqb_sym, H2, H3. cbn [andb].
  f_equal.
  - change (strip (String c k +++ " ") = String c k). pose proof (strip_tight _ "" " " Tk eq_refl eq_refl) as E. exact E.
  - pose proof (strip_tight _ " " "" T eq_refl eq_refl) as E. now rewrite app_nil_s in E.
Qed.
Definition setting_ok (kv : string * val) : Prop := key_ok (fst kv) /\ line_text (py_str (snd kv)).
Definition texts_of (l : dict) : list (string * string) := map (fun kv => (fst kv, py_str (snd kv))) l.
Lemma sections_settings l rest : (forall kv, In kv l -> setting_ok kv) ->
  wg_sections (map setting_line l ++ rest) = ((texts_of l ++ fst (wg_sections rest))%list, snd (wg_sections rest)).
Proof.
  induction l as [|[k x] l IH]; intros H; [cbn; now destruct (wg_sections rest)|]. cbn [map app wg_sections]. rewrite IH by (intros; apply H; now right).
  destruct (H _ (or_introl eq_refl)) as (H1 & H2). rewrite kind_setting by assumption. reflexivity.
Qed.
Lemma sections_skip l rest : wg_kind l = Skip -> wg_sections (l :: rest) = wg_sections rest.
Proof. intros H. cbn [wg_sections]. rewrite H. now destruct (wg_sections rest). Qed.
Definition peer_ok (p : dict) : Prop := forall kv, In kv p -> truthy (snd kv) = true -> setting_ok kv.
Definition peer_texts (p : dict) : list (string * string) := texts_of (filter (fun kv => truthy (snd kv)) p).
Lemma sections_peer p rest : peer_ok p -> fst (wg_sections rest) = [] ->
  wg_sections (peer_lines p ++ rest) = ([], ("Peer", peer_texts p) :: snd (wg_sections rest)).
Proof.
  intros H Hr. unfold peer_lines. cbn [app]. rewrite <- app_assoc. cbn [app].
  assert (E : wg_sections (map setting_line (filter (fun kv => truthy (snd kv)) p) ++ "" :: rest) = (peer_texts p, snd (wg_sections rest))).
  { rewrite sections_settings; [|intros kv Hkv; apply filter_In in Hkv as (Hkv & Ht); now apply H]. rewrite (sections_skip "" rest eq_refl), Hr, app_nil_r. reflexivity. }
  cbn [wg_sections]. rewrite E. reflexivity.
Qed.
Lemma sections_peers ps rest : (forall p, In p ps -> peer_ok p) -> fst (wg_sections rest) = [] ->
  wg_sections (flat_map peer_lines ps ++ rest) = ([], (map (fun p => ("Peer", peer_texts p)) ps ++ snd (wg_sections rest))%list).
Proof.
  intros H Hr. induction ps as [|p ps IH]; [cbn; rewrite <- Hr; now destruct (wg_sections rest)|]. cbn [flat_map]. rewrite <- app_assoc.
  specialize (IH (fun q Hq => H q (or_intror Hq))). rewrite sections_peer; [|apply H; now left | rewrite IH; reflexivity]. rewrite IH. reflexivity.
Qed.
Definition iface_texts (v : dict) : list (string * string) := texts_of (filter wg_shown v).
Lemma sections_wg v ps rest : line_text (tpl_get "name" v) -> (forall kv, In kv v -> wg_shown kv = true -> setting_ok kv) -> (forall p, In p ps -> peer_ok p) -> fst (wg_sections rest) = [] ->
  wg_sections (wg_lines v ps ++ rest) = ([], (("Interface", iface_texts v) :: map (fun p => ("Peer", peer_texts p)) ps ++ snd (wg_sections rest))%list).
Proof.
  intros Hn Hv Hp Hr. unfold wg_lines. cbn [app]. rewrite <- app_assoc. cbn [app]. rewrite sections_skip.
  2:{ unfold wg_header. unfold wg_kind. destruct (line_text_facts _ Hn) as (T & _). rewrite strip_self; [reflexivity|]. exact (tight_app "#" " wireguard config: " _ (spaceless_tight "#" ltac:(discriminate) eq_refl) T). }
  rewrite sections_skip by reflexivity. cbn [wg_sections].
  rewrite sections_settings by (intros kv Hkv; apply filter_In in Hkv as (Hkv & Ht); now apply Hv). rewrite (sections_skip "" _ eq_refl), sections_peers by assumption.
  cbn [fst snd]. rewrite app_nil_r. reflexivity.
Qed.

(** ** The section of an interface *)
Definition swap (o : string * string) : string * string := (snd o, fst o).
Section Moves.
  Variable F : dict -> string * string -> res dict.
  Variable conv : string -> option val -> option val.
  Variable pre : string -> option val -> Prop.
  Hypothesis step : forall c o, NoDup (dkeys c) -> fst o <> snd o -> dget (snd o) c = None -> pre (fst o) (dget (fst o) c) ->
    exists c', F c o = Ok c' /\ NoDup (dkeys c') /\ forall j, dget j c' = if String.eqb j (snd o) then conv (fst o) (dget (fst o) c) else if String.eqb j (fst o) then None else dget j c.
  Lemma moves : forall opts c, NoDup (map fst opts ++ map snd opts) -> NoDup (dkeys c) -> (forall K, In K (map snd opts) -> dget K c = None) ->
    (forall k, In k (map fst opts) -> pre k (dget k c)) ->
    exists c', foldM F c opts = Ok c' /\ NoDup (dkeys c') /\
      forall j, dget j c' = match dget j (map swap opts) with Some k => conv k (dget k c) | None => if existsb (String.eqb j) (map fst opts) then None else dget j c end.
  Proof.
    induction opts as [|[k K] opts IH]; intros c Hn Nc Ht Hp; [exists c; split; [reflexivity|]; split; [exact Nc | reflexivity]|].
    cbn [map fst snd app] in *. inversion Hn as [|? ? N1 N2]; subst. rewrite in_app_iff in N1.
    assert (N3 : ~ In K (map fst opts) /\ ~ In K (map snd opts) /\ NoDup (map fst opts ++ map snd opts)).
    { apply NoDup_remove in N2 as (N2 & N3). rewrite in_app_iff in N3. tauto. }
    destruct N3 as (N3 & N4 & N5). assert (Hne : k <> K) by (intros ->; apply N1; right; now left).
    destruct (step c (k, K) Nc Hne (Ht K (or_introl eq_refl)) (Hp k (or_introl eq_refl))) as (c1 & E1 & Nc1 & G1). cbn [fst snd] in G1.
    destruct (IH c1) as (c' & E & Nc' & G); [exact N5 | exact Nc1 | | |].
    - intros K' HK'. rewrite G1. rewrite (eqb_neq K' K) by (intros ->; contradiction). destruct (String.eqb K' k); [reflexivity|]. apply Ht. now right.
    - intros k' Hk'. rewrite G1. rewrite (eqb_neq k' K) by (intros ->; contradiction). rewrite (eqb_neq k' k) by (intros ->; apply N1; now left). apply Hp. now right.
    - exists c'. cbn [foldM]. rewrite E1. cbn [bind]. split; [exact E|]. split; [exact Nc'|]. intros j. rewrite G. unfold swap at 2. cbn [dget fst snd].
      destruct (String.eqb_spec j K) as [-> | HK].
      + assert (Ez : dget K (map swap opts) = None) by (apply dget_None; unfold dkeys; rewrite map_map; exact N4). rewrite Ez.
        assert (Ey : existsb (String.eqb K) (map fst opts) = false) by (destruct (existsb _ _) eqn:Eb; [apply existsb_exists in Eb as (y & Hy & Ey); apply String.eqb_eq in Ey as <-; contradiction | reflexivity]).
        rewrite Ey, G1, eqb_refl. reflexivity.
      + destruct (dget j (map swap opts)) as [k'|] eqn:Ej.
        * rewrite G1. assert (Hk' : In k' (map fst opts)) by (apply dget_In, in_map_iff in Ej as ((a & b) & Eab & Hab); injection Eab as _ <-; exact (in_map fst _ _ Hab)).
          rewrite (eqb_neq k' K) by (intros ->; contradiction). rewrite (eqb_neq k' k) by (intros ->; apply N1; now left). reflexivity.
        * cbn [existsb]. rewrite G1, (eqb_neq j K) by exact HK. destruct (String.eqb j k); cbn [orb]; [now destruct (existsb _ _) | reflexivity].
  Qed.
End Moves.
Lemma move_step c o : NoDup (dkeys c) -> fst o <> snd o -> dget (snd o) c = None -> dget (fst o) c <> None ->
  exists c', wg_move c o = Ok c' /\ NoDup (dkeys c') /\ forall j, dget j c' = if String.eqb j (snd o) then dget (fst o) c else if String.eqb j (fst o) then None else dget j c.
Proof.
  intros Nc Hd _ Hp. unfold wg_move, dgetE. destruct (dget (fst o) c) as [x|] eqn:E; [|congruence]. cbn [bind]. eexists. split; [reflexivity|].
  split; [apply NoDup_dset; now apply NoDup_ddel|]. intros j. rewrite dget_dset, dget_ddel by exact Nc. reflexivity.
Qed.
Definition option_conv (k : string) (o : option val) : option val :=
  match o with
  | Some (VList []) | Some (VStr EmptyString) | None => None
  | Some (VList l) => Some (VStr (join "," (map py_str l)))
  | Some (VBool b) => Some (VStr (if b then "true" else "false"))
  | Some x => Some x
  end.
Definition option_pre (k : string) (o : option val) : Prop :=
  o = None \/ (k = "mtu" /\ exists z, o = Some (VInt z)) \/ (k = "dns" /\ exists l, o = Some (VList (map VStr l))) \/
  (k = "save_config" /\ exists b, o = Some (VBool b)) \/ (k <> "dns" /\ k <> "save_config" /\ exists s, o = Some (VStr s)).
Lemma mapM_as_str l : mapM as_str (map VStr l) = Ok l.
Proof. induction l as [|x l IH]; [reflexivity|]. cbn [map mapM as_str bind]. rewrite IH. reflexivity. Qed.
Lemma option_step c o : NoDup (dkeys c) -> fst o <> snd o -> dget (snd o) c = None -> option_pre (fst o) (dget (fst o) c) ->
  exists c', wg_option c o = Ok c' /\ NoDup (dkeys c') /\ forall j, dget j c' = if String.eqb j (snd o) then option_conv (fst o) (dget (fst o) c) else if String.eqb j (fst o) then None else dget j c.
Proof.
  intros Nc Hd Hs Hp. assert (Hdel : forall y, y = None -> NoDup (dkeys (ddel (fst o) c)) /\ forall j, dget j (ddel (fst o) c) = if String.eqb j (snd o) then y else if String.eqb j (fst o) then None else dget j c).
  { intros y ->. split; [now apply NoDup_ddel|]. intros j. rewrite dget_ddel by exact Nc. destruct (String.eqb_spec j (snd o)) as [-> | _]; [|reflexivity]. rewrite Hs. now destruct (String.eqb _ _). }
  assert (Hset : forall y, NoDup (dkeys (dset (snd o) y (ddel (fst o) c))) /\ forall j, dget j (dset (snd o) y (ddel (fst o) c)) = if String.eqb j (snd o) then Some y else if String.eqb j (fst o) then None else dget j c).
  { intros y. split; [apply NoDup_dset; now apply NoDup_ddel|]. intros j. rewrite dget_dset, dget_ddel by exact Nc. reflexivity. }
  unfold wg_option, dgetN. destruct o as [k K]. cbn [fst snd] in *. destruct Hp as [E | [(-> & z & E) | [(-> & l & E) | [(-> & b & E) | (H1 & H2 & s & E)]]]]; rewrite E.
  - eexists. split; [reflexivity|]. now apply Hdel.
  - cbn [py_in existsb py_eq orb]. eexists. split; [reflexivity|]. apply Hset.
  - destruct l as [|x l].
    + eexists. split; [reflexivity|]. now apply Hdel.
    + cbn [map py_in existsb py_eq orb]. unfold wg_value. change (String.eqb "dns" "dns") with true. cbv iota. cbn [as_list bind]. change (VStr x :: map VStr l) with (map VStr (x :: l)). rewrite mapM_as_str. cbn [bind].
      eexists. split; [reflexivity|]. cbn [option_conv map]. change (VStr x :: map VStr l) with (map VStr (x :: l)). assert (Ey : py_str (VStr x) :: map py_str (map VStr l) = x :: l) by (rewrite map_map; cbn [py_str]; now rewrite map_id). cbn [map]. rewrite Ey. apply Hset.
  - replace (py_in (VBool b) [VStr ""; VNull; VList []]) with false by (destruct b; reflexivity). eexists. split; [reflexivity|]. destruct b; apply Hset.
  - unfold py_in. cbn [existsb py_eq orb]. rewrite orb_false_r. destruct s as [|ch s].
    + eexists. split; [reflexivity|]. now apply Hdel.
    + cbn [String.eqb]. unfold wg_value. rewrite (eqb_neq k "dns"), (eqb_neq k "save_config") by assumption. eexists. split; [reflexivity|]. apply Hset.
Qed.

Lemma wg_pre v k : wg_ok v -> In k (map fst wg_optional) -> option_pre k (dget k v).
Proof.
  intros (Nd & H & _) Hk. unfold option_pre. destruct (dget k v) as [x|] eqn:E; [|now left]. right. apply dget_In in E. specialize (H k x E).
  destruct H as [(-> & _) | [([<- | [<- | []]] & z & ->) | [([<- | [<- | []]] & _) | [(-> & l & -> & _) | [(-> & b & ->) | [(H & s & -> & _) | (-> & _)]]]]]];
    try (exfalso; cbn in Hk; repeat destruct Hk as [Hk | Hk]; try discriminate Hk; exact Hk).
  - left. eauto.
  - right; left. eauto.
  - right; right; left. eauto.
  - right; right; right. cbn in H. repeat destruct H as [<- | H]; try destruct H; (split; [discriminate | split; [discriminate | eauto]]).
Qed.
Ltac each_in H := repeat match type of H with _ \/ _ => destruct H as [H | H] end; try match type of H with False => destruct H end.
Lemma wg_moved v : wg_ok v -> exists c, (do c <- foldM wg_move v wg_required; foldM wg_option c wg_optional) = Ok c /\ NoDup (dkeys c) /\
  dget "name" c = dget "name" v /\ dget "peers" c = dget "peers" v /\
  forall K, K <> "name" -> K <> "peers" -> option_map py_str (dget K c) = interface_setting v K.
Proof.
  intros Hv. pose proof Hv as (Nd & H & Hname & Hport & Hpk & Hadd & _).
  assert (Cap : forall K, ~ In K ["name"; "port"; "mtu"; "private_key"; "address"; "dns"; "save_config"; "table"; "pre_up"; "post_up"; "pre_down"; "post_down"; "peers"] -> dget K v = None).
  { intros K HK. destruct (dget K v) as [x|] eqn:E; [|reflexivity]. exfalso. apply HK. apply dget_In in E. specialize (H K x E).
    destruct H as [(-> & _) | [([<- | [<- | []]] & _) | [([<- | [<- | []]] & _) | [(-> & _) | [(-> & _) | [(H & _) | (-> & _)]]]]]]; try (cbn; tauto). cbn in H |- *. tauto. }
  destruct (moves wg_move (fun _ o => o) (fun _ o => o <> None) move_step wg_required v) as (c1 & E1 & N1 & G1).
  { cbn. repeat constructor; cbn; intuition discriminate. }
  { exact Nd. }
  { intros K HK. apply Cap. cbn in HK. repeat destruct HK as [<- | HK]; try destruct HK; cbn; intuition discriminate. }
  { intros k Hk E. apply dget_None in E. cbn in Hk. repeat destruct Hk as [<- | Hk]; try destruct Hk; contradiction. }
  assert (O1 : forall j, existsb (String.eqb j) (map fst wg_required ++ map snd wg_required) = false -> dget j c1 = dget j v).
  { intros j Hj. rewrite G1. rewrite existsb_app, orb_false_iff in Hj. destruct Hj as (J1 & J2). rewrite J1.
    assert (Ez : dget j (map swap wg_required) = None).
    { apply dget_None. unfold dkeys. rewrite map_map. intros Hi. assert (Hb : existsb (String.eqb j) (map snd wg_required) = true) by (apply existsb_exists; exists j; split; [exact Hi | apply eqb_refl]). congruence. }
    now rewrite Ez. }
  destruct (moves wg_option option_conv option_pre option_step wg_optional c1) as (c & E & Nc & G).
  { cbn. repeat constructor; cbn; intuition discriminate. }
  { exact N1. }
  { intros K HK. rewrite O1 by (cbn in HK; repeat destruct HK as [<- | HK]; try destruct HK; reflexivity). apply Cap. cbn in HK. repeat destruct HK as [<- | HK]; try destruct HK; cbn; intuition discriminate. }
  { intros k Hk. rewrite O1 by (cbn in Hk; repeat destruct Hk as [<- | Hk]; try destruct Hk; reflexivity). now apply wg_pre. }
  exists c. rewrite E1. cbn [bind]. split; [exact E|]. split; [exact Nc|]. split; [rewrite G; cbn [wg_optional map swap fst snd]; apply (O1 "name" eq_refl)|]. split; [rewrite G; cbn [wg_optional map swap fst snd]; apply (O1 "peers" eq_refl)|].
  intros K Kn Kp. unfold interface_setting. destruct (dget K interface_options) as [k|] eqn:EK.
  - apply dget_In in EK. unfold text_of. cbn in EK. 
    assert (R : forall k K, In (k, K) wg_required -> dget K c = dget k v).
    { intros k' K' HkK. rewrite G. cbn in HkK. each_in HkK; injection HkK as <- <-; cbn [wg_optional map swap fst snd]; rewrite G1; reflexivity. }
    assert (Q : forall k K, In (k, K) wg_optional -> dget K c = option_conv k (dget k v)).
    { intros k' K' HkK. rewrite G. assert (E' : dget K' (map swap wg_optional) = Some k') by (cbn in HkK; each_in HkK; injection HkK as <- <-; reflexivity).
      rewrite E'. rewrite O1; [reflexivity|]. cbn in HkK; each_in HkK; injection HkK as <- <-; reflexivity. }
    assert (T : (In (k, K) wg_required /\ exists x, dget k v = Some x /\ Some (py_str x) = wg_text x) \/ (In (k, K) wg_optional)).
    { each_in EK; injection EK as <- <-; try (right; cbn; tauto); left; (split; [cbn; tauto|]).
      - destruct (dget "port" v) as [x|] eqn:Ex; [|apply dget_None in Ex; contradiction]. exists x. split; [reflexivity|]. apply dget_In in Ex. specialize (H _ _ Ex).
        destruct H as [(H & _) | [(_ & z & ->) | [([H | [H | []]] & _) | [(H & _) | [(H & _) | [(H & _) | (H & _)]]]]]]; try discriminate H; [reflexivity|]. cbn in H. repeat destruct H as [H | H]; try discriminate H. destruct H.
      - destruct (dget "private_key" v) as [x|] eqn:Ex; [|apply dget_None in Ex; contradiction]. exists x. split; [reflexivity|]. apply dget_In in Ex. specialize (H _ _ Ex).
        destruct H as [(H & _) | [([H | [H | []]] & _) | [(_ & s & -> & Hs & _) | [(H & _) | [(H & _) | [(H & _) | (H & _)]]]]]]; try discriminate H; [destruct s; [congruence | reflexivity]|]. cbn in H. repeat destruct H as [H | H]; try discriminate H. destruct H.
      - destruct (dget "address" v) as [x|] eqn:Ex; [|apply dget_None in Ex; contradiction]. exists x. split; [reflexivity|]. apply dget_In in Ex. specialize (H _ _ Ex).
        destruct H as [(H & _) | [([H | [H | []]] & _) | [(_ & s & -> & Hs & _) | [(H & _) | [(H & _) | [(H & _) | (H & _)]]]]]]; try discriminate H; [destruct s; [congruence | reflexivity]|]. cbn in H. repeat destruct H as [H | H]; try discriminate H. destruct H. }
    destruct T as [(T & x & Ex & Tx) | T].
    + rewrite (R k K T), Ex. cbn [option_map]. exact Tx.
    + rewrite (Q k K T). assert (Hk : In k (map fst wg_optional)) by exact (in_map fst _ _ T). destruct (wg_pre v k Hv Hk) as [Ex | [(_ & z & Ex) | [(_ & l & Ex) | [(_ & b & Ex) | (_ & _ & s & Ex)]]]]; rewrite Ex.
      * reflexivity.
      * reflexivity.
      * destruct l; reflexivity.
      * reflexivity.
      * destruct s; reflexivity.
  - rewrite G. assert (NK : ~ In K (map fst interface_options)) by (apply dget_None; exact EK).
    assert (Ez : dget K (map swap wg_optional) = None) by (apply dget_None; intros Hi; apply NK; cbn in *; tauto). rewrite Ez.
    destruct (existsb (String.eqb K) (map fst wg_optional)) eqn:Eb; [reflexivity|].
    rewrite G1. assert (Ey : dget K (map swap wg_required) = None) by (apply dget_None; intros Hi; apply NK; cbn in *; tauto). rewrite Ey.
    destruct (existsb (String.eqb K) (map fst wg_required)) eqn:Ec; [reflexivity|]. rewrite Cap; [reflexivity|].
    intros Hi. assert (Hb : existsb (String.eqb K) (map fst wg_optional ++ map fst wg_required) = true).
    { apply existsb_exists. exists K. split; [|apply eqb_refl]. cbn in Hi |- *. intuition congruence. }
    rewrite existsb_app, Eb, Ec in Hb. discriminate.
Qed.

(** ** The section of a peer *)
Definition shown (o : option val) : option string := match o with Some x => if truthy x then Some (py_str x) else None | None => None end.
Lemma peer_field_get p k x : wg_peer_ok p -> dget k p = Some x -> wg_peer_field k x.
Proof. intros (_ & H & _) E. apply H. now apply dget_In. Qed.
Lemma peer_text p k : wg_peer_ok p -> shown (dget k p) = text_of p k.
Proof.
  intros H. unfold text_of. destruct (dget k p) as [x|] eqn:E; [|reflexivity]. cbn [shown].
  destruct (peer_field_get p k x H E) as [(_ & s & -> & Hs & _) | [(_ & s & -> & _) | (_ & z & -> & Hz)]].
  - destruct s; [congruence | reflexivity].
  - destruct s; reflexivity.
  - cbn [truthy wg_text py_str]. destruct (Z.eqb_spec z 0) as [-> | _]; [lia | reflexivity].
Qed.
Lemma peer_section p : wg_peer_ok p -> exists s, wg_peer (VDict p) = Ok (VDict s) /\ NoDup (dkeys s) /\ forall K, shown (dget K s) = peer_setting p K.
Proof.
  intros Hp. pose proof Hp as (Nd & H & Hpk & Hai). unfold wg_peer. cbn [as_dict bind]. unfold dgetE.
  destruct (dget "allowed_ips" p) as [ips|] eqn:E1; [|apply dget_None in E1; contradiction]. cbn [bind].
  set (p1 := dset "AllowedIPs" ips (ddel "allowed_ips" p)). assert (N1 : NoDup (dkeys p1)) by (apply NoDup_dset; now apply NoDup_ddel).
  assert (G1 : forall j, dget j p1 = if String.eqb j "AllowedIPs" then Some ips else if String.eqb j "allowed_ips" then None else dget j p) by (intros j; unfold p1; rewrite dget_dset, dget_ddel by exact Nd; reflexivity).
  clearbody p1. destruct (dget "public_key" p) as [key|] eqn:E2; [|apply dget_None in E2; contradiction].
  assert (E2' : dget "public_key" p1 = Some key) by (rewrite G1; exact E2). rewrite E2'. cbn [bind].
  set (p2 := dset "PublicKey" key (ddel "public_key" p1)). assert (N2 : NoDup (dkeys p2)) by (apply NoDup_dset; now apply NoDup_ddel).
  assert (G2 : forall j, dget j p2 = if String.eqb j "PublicKey" then Some key else if String.eqb j "public_key" then None else dget j p1) by (intros j; unfold p2; rewrite dget_dset, dget_ddel by exact N1; reflexivity).
  clearbody p2. set (psk := dgetN "preshared_key" p2). assert (Epsk : psk = dgetN "preshared_key" p) by (unfold psk, dgetN; rewrite G2; cbn [String.eqb]; change (dget "preshared_key" p1) with (dget "preshared_key" p1); rewrite G1; reflexivity).
  set (p3 := dset "PreSharedKey" psk (ddel "preshared_key" p2)). assert (N3 : NoDup (dkeys p3)) by (apply NoDup_dset; now apply NoDup_ddel).
  assert (G3 : forall j, dget j p3 = if String.eqb j "PreSharedKey" then Some psk else if String.eqb j "preshared_key" then None else dget j p2) by (intros j; unfold p3; rewrite dget_dset, dget_ddel by exact N2; reflexivity).
  clearbody p3 psk. assert (Eh : dgetN "endpoint_host" p3 = dgetN "endpoint_host" p) by (unfold dgetN; rewrite G3, G2, G1; reflexivity).
  assert (Ep : dgetN "endpoint_port" p3 = dgetN "endpoint_port" p) by (unfold dgetN; rewrite G3, G2, G1; reflexivity). rewrite Eh, Ep.
  set (p4 := ddel "endpoint_port" (ddel "endpoint_host" p3)). assert (N4 : NoDup (dkeys p4)) by (now apply NoDup_ddel, NoDup_ddel).
  assert (G4 : forall j, dget j p4 = if String.eqb j "endpoint_port" then None else if String.eqb j "endpoint_host" then None else dget j p3) by (intros j; unfold p4; rewrite !dget_ddel by (try apply NoDup_ddel; assumption); reflexivity).
  clearbody p4. set (host := dgetN "endpoint_host" p). set (port := dgetN "endpoint_port" p).
  assert (Sk : forall k, shown (Some (dgetN k p)) = text_of p k) by (intros k; rewrite <- peer_text by exact Hp; unfold dgetN; destruct (dget k p); reflexivity).
  eexists. split; [reflexivity|]. cbv zeta. set (b := truthy host && truthy port). set (ep := VStr (py_str host +++ ":" +++ py_str port)).
  assert (N5 : NoDup (dkeys (if b then dset "Endpoint" ep p4 else p4))) by (destruct b; [now apply NoDup_dset | exact N4]).
  split; [now apply ssort_NoDup|]. intros nm. rewrite dget_ssort by exact N5.
  assert (G5 : dget nm (if b then dset "Endpoint" ep p4 else p4) = if String.eqb nm "Endpoint" && b then Some ep else dget nm p4) by (destruct b; [rewrite dget_dset, andb_true_r | rewrite andb_false_r]; reflexivity).
  assert (O : forall j, dget j p <> None -> In j ["public_key"; "allowed_ips"; "preshared_key"; "endpoint_host"; "endpoint_port"]).
  { intros j Hj. destruct (dget j p) as [x|] eqn:Ex; [|congruence]. destruct (peer_field_get p j x Hp Ex) as [([<- | [<- | []]] & _) | [([<- | [<- | []]] & _) | (-> & _)]]; cbn; tauto. }
  rewrite G5, G4, G3, G2, G1. clear G5. unfold peer_setting. destruct (String.eqb_spec nm "Endpoint") as [-> | Ke].
  - cbn [andb]. change (String.eqb "Endpoint" "PublicKey") with false. change (String.eqb "Endpoint" "AllowedIPs") with false. change (String.eqb "Endpoint" "PreSharedKey") with false. cbv iota.
    change (String.eqb "Endpoint" "endpoint_port") with false. change (String.eqb "Endpoint" "endpoint_host") with false. change (String.eqb "Endpoint" "preshared_key") with false. change (String.eqb "Endpoint" "public_key") with false. change (String.eqb "Endpoint" "allowed_ips") with false. cbv iota.
    rewrite <- !Sk. fold host port. unfold b, ep. cbn [shown].
    destruct (truthy host) eqn:Th; [destruct (truthy port) eqn:Tp|]; cbn [andb].
    + assert (Hne : truthy (VStr (py_str host +++ ":" +++ py_str port)) = true) by (cbn [truthy]; destruct (py_str host); reflexivity). cbn [shown]. rewrite Hne. reflexivity.
    + destruct (dget "Endpoint" p) eqn:Ex; [|reflexivity]. exfalso. assert (I := O "Endpoint" ltac:(congruence)). cbn in I. intuition discriminate.
    + destruct (dget "Endpoint" p) eqn:Ex; [exfalso; assert (I := O "Endpoint" ltac:(congruence)); cbn in I; intuition discriminate | now destruct (truthy port)].
  - cbn [andb]. destruct (String.eqb_spec nm "PublicKey") as [-> | K1]; [rewrite <- Sk; unfold dgetN; rewrite E2; reflexivity|].
    destruct (String.eqb_spec nm "AllowedIPs") as [-> | K2]; [rewrite <- Sk; unfold dgetN; rewrite E1; reflexivity|].
    destruct (String.eqb_spec nm "PreSharedKey") as [-> | K3]; [rewrite <- Sk, <- Epsk; reflexivity|].
    destruct (String.eqb_spec nm "endpoint_port"); [reflexivity|]. destruct (String.eqb_spec nm "endpoint_host"); [reflexivity|]. destruct (String.eqb_spec nm "preshared_key"); [reflexivity|].
    destruct (String.eqb_spec nm "public_key"); [reflexivity|]. destruct (String.eqb_spec nm "allowed_ips"); [reflexivity|].
    destruct (dget nm p) eqn:Ex; [|reflexivity]. exfalso. assert (I := O nm ltac:(congruence)). cbn in I. intuition congruence.
Qed.

(** ** All together *)
Lemma dget_texts k (d : dict) : dget k (texts_of d) = option_map py_str (dget k d).
Proof. induction d as [|[k0 x] d IH]; [reflexivity|]. cbn [texts_of map dget fst snd]. destruct (String.eqb k k0); [reflexivity | exact IH]. Qed.
Lemma texts_keys (d : dict) : map fst (texts_of d) = dkeys d.
Proof. unfold texts_of, dkeys. rewrite map_map. reflexivity. Qed.
Lemma interface_names K : interface_setting [] K = None. Proof. unfold interface_setting. now destruct (dget K interface_options). Qed.
Lemma interface_key v nm t : wg_ok v -> interface_setting v nm = Some t -> key_ok nm /\ line_text t.
Proof.
  intros Hv E. unfold interface_setting in E. destruct (dget nm interface_options) as [k|] eqn:Ek; [|discriminate]. split.
  - apply dget_In in Ek. cbn in Ek. each_in Ek; injection Ek as <- <-; split; try discriminate; reflexivity.
  - unfold text_of in E. destruct (dget k v) as [x|] eqn:Ex; [|discriminate]. apply dget_In in Ex. destruct Hv as (_ & H & _). specialize (H k x Ex).
    destruct H as [(_ & s & -> & Hs) | [(_ & z & ->) | [(_ & s & -> & Hs) | [(_ & l & -> & Hl) | [(_ & b & ->) | [(_ & s & -> & Hs) | (-> & l & ->)]]]]]].
    + destruct s; [discriminate|]. injection E as <-. exact Hs.
    + injection E as <-. apply one_word_line, Z_word.
    + destruct s; [discriminate|]. injection E as <-. exact Hs.
    + destruct l as [|a l]; [discriminate|]. cbn [map wg_text] in E. injection E as <-. apply one_word_line.
      assert (W : forall l', Forall one_word l' -> l' <> [] -> one_word (join "," l')).
      { clear. intros l' H. induction H as [|s l' Hs H IH]; intros Hn; [congruence|]. destruct l' as [|s2 l']; [exact Hs|]. change (join "," (s :: s2 :: l')) with (s +++ "," +++ join "," (s2 :: l')).
        destruct IH as (I1 & I2); [discriminate|]. destruct Hs as (S1 & S2). split; [destruct s; [congruence | discriminate]|]. rewrite !sforall_app, S2, I2. reflexivity. }
      change (one_word (join "," (a :: map py_str (map VStr l)))). assert (Ey : map py_str (map VStr l) = l) by (rewrite map_map; cbn [py_str]; now rewrite map_id). rewrite Ey. apply W; [exact Hl | discriminate].
    + destruct b; injection E as <-; apply one_word_line; split; try discriminate; reflexivity.
    + destruct s; [discriminate|]. injection E as <-. destruct Hs as [Hs | Hs]; [discriminate | exact Hs].
    + exfalso. apply dget_In in Ek. cbn in Ek. each_in Ek; discriminate Ek.
Qed.
Lemma text_line p k t : wg_peer_ok p -> text_of p k = Some t -> line_text t.
Proof.
  intros Hp E. unfold text_of in E. destruct (dget k p) as [x|] eqn:Ex; [|discriminate]. destruct (peer_field_get p k x Hp Ex) as [(_ & s & -> & Hs) | [(_ & s & -> & Hs) | (_ & z & -> & _)]].
  - destruct s; [discriminate|]. injection E as <-. exact Hs.
  - destruct s; [discriminate|]. injection E as <-. destruct Hs as [Hs | Hs]; [discriminate | exact Hs].
  - injection E as <-. apply one_word_line, Z_word.
Qed.
Lemma colon_line h n : line_text h -> one_word n -> line_text (h +++ ":" +++ n).
Proof.
  intros Hh Hn. destruct (line_text_facts h Hh) as (Th & Oh & Ch & _). pose proof (one_word_line n Hn) as Ln. destruct (line_text_facts n Ln) as (Tn & On & _).
  assert (T : tight (h +++ ":" +++ n)) by (now apply tight_app). split; [apply T|]. split; [now apply strip_self|]. split.
  - apply no_char_spec. rewrite !nochar_app. unfold oneline in *. now rewrite Oh, On.
  - assert (G : forall h0, contains S4 h0 = false -> contains S4 (h0 +++ String ":" n) = false).
    { clear -Hn. induction h0 as [|c h0 IH]; intros H.
      - cbn [String.append]. change (String ":" n) with (":" +++ n). apply contains_nochar. destruct Hn as (_ & Hn). apply spaceless_noblank. cbn. exact Hn.
      - cbn [contains] in H. apply orb_false_iff in H as (H1 & H2). cbn [String.append contains]. rewrite IH by exact H2. rewrite orb_false_r. clear -H1. unfold S4 in *.
        cbn [startswith] in *. destruct (Ascii.eqb " " c); [|reflexivity]. cbn [andb] in *. destruct h0 as [|c1 h0]; [reflexivity|]. cbn [startswith String.append] in *.
        destruct (Ascii.eqb " " c1); [|reflexivity]. cbn [andb] in *. destruct h0 as [|c2 h0]; [reflexivity|]. cbn [startswith String.append] in *.
        destruct (Ascii.eqb " " c2); [|reflexivity]. cbn [andb] in *. destruct h0 as [|c3 h0]; [reflexivity|]. cbn [startswith String.append] in *. exact H1. }
    exact (G h Ch).
Qed.
Lemma peer_key p nm t : wg_peer_ok p -> peer_setting p nm = Some t -> key_ok nm /\ line_text t.
Proof.
  intros Hp. unfold peer_setting. destruct (String.eqb_spec nm "PublicKey") as [-> | _]; [intros E; split; [split; [discriminate | reflexivity] | eapply text_line; eauto]|].
  destruct (String.eqb_spec nm "AllowedIPs") as [-> | _]; [intros E; split; [split; [discriminate | reflexivity] | eapply text_line; eauto]|].
  destruct (String.eqb_spec nm "PreSharedKey") as [-> | _]; [intros E; split; [split; [discriminate | reflexivity] | eapply text_line; eauto]|].
  destruct (String.eqb_spec nm "Endpoint") as [-> | _]; [|discriminate]. destruct (text_of p "endpoint_host") as [h|] eqn:Eh; [|discriminate]. destruct (text_of p "endpoint_port") as [n|] eqn:En; [|discriminate].
  intros [= <-]. split; [split; [discriminate | reflexivity]|]. apply colon_line; [eapply text_line; eauto|]. unfold text_of in En. destruct (dget "endpoint_port" p) as [x|] eqn:Ex; [|discriminate].
  destruct (peer_field_get p _ x Hp Ex) as [([I | [I | []]] & _) | [([I | [I | []]] & _) | (_ & z & -> & _)]]; try discriminate I. injection En as <-. apply Z_word.
Qed.
Definition wg_made (v : dict) (sp : dict * list dict) : Prop :=
  wg_section v = Ok (fst sp) /\ vpns_of "peers" (fst sp) = Ok (snd sp) /\
  (forall n, dget "name" v = Some (VStr n) -> tpl_get "name" (fst sp) = n) /\ line_text (tpl_get "name" (fst sp)) /\
  (forall kv, In kv (fst sp) -> wg_shown kv = true -> setting_ok kv) /\ (forall p, In p (snd sp) -> peer_ok p) /\
  wg_reads v (("Interface", iface_texts (fst sp)) :: map (fun p => ("Peer", peer_texts p)) (snd sp)).
Lemma dicts_of l : flat_map (fun x => match x with VDict d => [d] | _ => [] end) (map VDict l) = l.
Proof. induction l as [|d l IH]; [reflexivity|]. cbn [map flat_map app]. now rewrite IH. Qed.
Lemma wg_peers v : wg_ok v -> exists ps, (do peers <- as_list (pop_or "peers" (VList []) v); mapM wg_peer peers) = Ok (map VDict ps) /\
  Forall2 (fun p s => wg_peer_ok p /\ NoDup (dkeys s) /\ forall nm, shown (dget nm s) = peer_setting p nm) (peers_of v) ps.
Proof.
  intros (_ & H & _ & _ & _ & _ & Hp). unfold peers_of, pop_or in *. destruct (dget "peers" v) as [x|] eqn:E; [|exists []; split; [reflexivity | constructor]].
  apply dget_In in E. specialize (H _ _ E). assert (Kx : exists l, x = VList (map VDict l)).
  { destruct H as [(H & _) | [([H | [H | []]] & _) | [([H | [H | []]] & _) | [(H & _) | [(H & _) | [(H & _) | (_ & H)]]]]]]; try discriminate H; [|exact H]. cbn in H. each_in H; discriminate H. }
  destruct Kx as (l & ->). rewrite dicts_of in *. cbn [as_list bind]. clear E H. induction Hp as [|p l Hp _ (ps & IH1 & IH2)]; [exists []; split; [reflexivity | constructor]|].
  destruct (peer_section p Hp) as (s & Es & Ns & Gs). exists (s :: ps). cbn [map mapM]. rewrite Es. cbn [bind]. rewrite IH1. split; [reflexivity|]. constructor; auto.
Qed.
Lemma wg_made_ok v : wg_ok v -> exists sp, wg_made v sp.
Proof.
  intros Hv. destruct (wg_moved v Hv) as (c & Ec & Nc & Gn & Gp & Gk). destruct (wg_peers v Hv) as (ps & Eps & Fps). pose proof Hv as (Nd & H & Hname & _).
  destruct (dget "name" v) as [x|] eqn:En; [|apply dget_None in En; contradiction].
  assert (Hn : exists n, x = VStr n /\ line_text n).
  { pose proof En as I. apply dget_In in I. specialize (H _ _ I). destruct H as [(_ & H) | [([H | [H | []]] & _) | [([H | [H | []]] & _) | [(H & _) | [(H & _) | [(H & _) | (H & _)]]]]]]; try discriminate H; [exact H|]. cbn in H. each_in H; discriminate H. }
  destruct Hn as (n & -> & Ln). set (s := ssort (dset "peers" (VList (map VDict ps)) c)). assert (N1 : NoDup (dkeys (dset "peers" (VList (map VDict ps)) c))) by (now apply NoDup_dset).
  assert (Ns : NoDup (dkeys s)) by (now apply ssort_NoDup). assert (Gs : forall j, dget j s = if String.eqb j "peers" then Some (VList (map VDict ps)) else dget j c) by (intros j; unfold s; rewrite dget_ssort by exact N1; apply dget_dset).
  assert (Es : tpl_get "name" s = n) by (unfold tpl_get; rewrite Gs; change (String.eqb "name" "peers") with false; cbv iota; rewrite Gn; reflexivity).
  assert (Gi : forall nm, dget nm (iface_texts s) = interface_setting v nm).
  { intros nm. unfold iface_texts. rewrite dget_texts, dget_filter by exact Ns. unfold wg_shown. cbn [fst]. rewrite Gs. destruct (String.eqb_spec nm "peers") as [-> | Kp]; [reflexivity|].
    destruct (String.eqb_spec nm "name") as [-> | Kn]; [rewrite Gn; reflexivity|]. rewrite <- Gk by assumption. now destruct (dget nm c). }
  assert (Np : forall q, NoDup (dkeys q) -> NoDup (map fst (peer_texts q))) by (intros q Hq; unfold peer_texts; rewrite texts_keys; now apply NoDup_dfilter).
  assert (Gq : forall q nm, NoDup (dkeys q) -> dget nm (peer_texts q) = shown (dget nm q)).
  { intros q nm Hq. unfold peer_texts. rewrite dget_texts, dget_filter by exact Hq. unfold shown. cbn [snd]. destruct (dget nm q) as [y|]; [|reflexivity]. now destruct (truthy y). }
  exists (s, ps). unfold wg_made. cbn [fst snd]. split; [|split; [|split; [|split; [|split; [|split]]]]].
  - unfold wg_section. destruct (foldM wg_move v wg_required) as [c0|] eqn:E0; [|discriminate]. cbn [bind] in *. rewrite Ec. cbn [bind]. unfold pop_or in *. rewrite Gp.
    destruct (as_list (match dget "peers" v with Some x => x | None => VList [] end)) as [pl|]; [|discriminate]. cbn [bind] in *. rewrite Eps. reflexivity.
  - unfold vpns_of. rewrite Gs. cbn [String.eqb]. change (String.eqb "peers" "peers") with true. cbv iota. apply blocks_map.
  - intros m Em. rewrite En in Em. injection Em as <-. exact Es.
  - rewrite Es. exact Ln.
  - intros (k & y) Hkv Hs. apply (interface_key v k (py_str y) Hv). rewrite <- Gi. unfold iface_texts. rewrite dget_texts, dget_filter by exact Ns. rewrite (In_dget k y s Ns Hkv). now rewrite Hs.
  - intros q Hq (k & y) Hkv Ht. destruct (Forall2_In_r _ _ _ _ Fps Hq) as (p & _ & Hp & Nq & Sq). apply (peer_key p k (py_str y) Hp). rewrite <- Sq. rewrite (In_dget k y q Nq Hkv). cbn [shown snd] in *. now rewrite Ht.
  - exists (iface_texts s), (map peer_texts ps). split; [now rewrite map_map|]. split; [unfold iface_texts; rewrite texts_keys; now apply NoDup_dfilter|]. split; [exact Gi|].
    clear -Fps Np Gq. induction Fps as [|p q l ps (_ & Nq & Sq) F IH]; [constructor|]. cbn [map]. constructor; [|exact IH]. split; [now apply Np|]. intros nm. unfold lookup. rewrite Gq by exact Nq. apply Sq.
Qed.

(** ** The text of the backend *)
Definition all_lines (l : list (dict * list dict)) : list string := flat_map (fun sp => wg_lines (fst sp) (snd sp)) l.
Lemma wg_lines_last v ps : exists ls, wg_lines v ps = (wg_header v :: EmptyString :: "[Interface]" :: ls ++ [EmptyString])%list.
Proof.
  unfold wg_lines. destruct ps as [|p ps] using rev_ind; [exists (map setting_line (filter wg_shown v)); reflexivity|]. clear IHps.
  exists (map setting_line (filter wg_shown v) ++ "" :: flat_map peer_lines ps ++ "[Peer]" :: map setting_line (filter (fun kv => truthy (snd kv)) p))%list.
  rewrite flat_map_app. cbn [flat_map]. rewrite app_nil_r. unfold peer_lines at 2. rewrite <- app_assoc. cbn [app]. rewrite <- app_assoc. reflexivity.
Qed.
Lemma contains_line w t : key_ok w -> line_text t -> contains S4 (w +++ " = " +++ t) = false.
Proof.
  intros Hw Ht. destruct (line_text_facts t Ht) as (_ & _ & _ & C). unfold S4 in *. rewrite contains_skip by (apply spaceless_noblank, key_spaceless, Hw).
  change (" = " +++ t) with (" =" +++ (" " +++ t)). exact C.
Qed.
Lemma key_oneline k : key_ok k -> oneline k = true.
Proof. intros H. apply spaceless_oneline, key_spaceless, H. Qed.
Lemma setting_facts kv : setting_ok kv -> contains S4 (setting_line kv) = false /\ oneline (setting_line kv) = true /\ forall Y, startswith wireguard_header (setting_line kv +++ Y) = false.
Proof.
  intros (H1 & H2). split; [now apply contains_line|]. destruct (line_text_facts _ H2) as (_ & O & _). pose proof (key_oneline _ H1) as Ok1. split.
  - unfold setting_line, oneline in *. rewrite !nochar_app, Ok1, O. reflexivity.
  - intros Y. unfold setting_line. destruct H1 as (Hn & H1). destruct (fst kv) as [|c k]; [congruence|]. cbn [sforall] in H1. apply andb_true_iff in H1 as (H1 & _). unfold key_char in H1. apply negb_true_iff in H1.
    repeat rewrite orb_false_iff in H1. destruct H1 as ((_ & H1) & _). cbn [String.append startswith wireguard_header]. now rewrite Ascii.eqb_sym, H1.
Qed.
Lemma made_lines v sp : wg_made v sp -> forall l, In l (wg_lines (fst sp) (snd sp)) -> contains S4 l = false /\ oneline l = true /\ (l = wg_header (fst sp) \/ quiet wireguard_header l).
Proof.
  intros (_ & _ & _ & Ln & Hs & Hp & _) l Hl. destruct sp as [s ps]. cbn [fst snd] in *.
  assert (S1 : forall kv, setting_ok kv -> contains S4 (setting_line kv) = false /\ oneline (setting_line kv) = true /\ (setting_line kv = wg_header s \/ quiet wireguard_header (setting_line kv))).
  { intros kv Hkv. destruct (setting_facts kv Hkv) as (F1 & F2 & F3). split; [exact F1|]. split; [exact F2|]. right. split; [exact F2 | right; exact F3]. }
  assert (E1 : contains S4 "" = false /\ oneline "" = true /\ ("" = wg_header s \/ quiet wireguard_header "")) by (split; [reflexivity|]; split; [reflexivity|]; right; split; [reflexivity | now left]).
  destruct Hl as [<- | [<- | [<- | Hl]]].
  - destruct (line_text_facts _ Ln) as (_ & O & _ & C). split; [exact C|]. split; [|now left]. unfold wg_header, oneline in *. rewrite nochar_app, O. reflexivity.
  - exact E1.
  - split; [reflexivity|]. split; [reflexivity|]. right. split; [reflexivity|]. right. reflexivity.
  - apply in_app_iff in Hl as [Hl | [<- | Hl]]; [| exact E1 |].
    + apply in_map_iff in Hl as (kv & <- & Hkv). apply filter_In in Hkv as (Hkv & Ht). apply S1, Hs; assumption.
    + apply in_flat_map in Hl as (p & Hpi & Hl). destruct Hl as [<- | Hl]; [split; [reflexivity|]; split; [reflexivity|]; right; split; [reflexivity|]; right; reflexivity|].
      apply in_app_iff in Hl as [Hl | [<- | []]]; [|exact E1]. apply in_map_iff in Hl as (kv & <- & Hkv). apply filter_In in Hkv as (Hkv & Ht). apply S1, (Hp p Hpi); assumption.
Qed.
Lemma wg_full_all l : Forall (fun sp => vpns_of "peers" (fst sp) = Ok (snd sp)) l -> mapM tpl_wg_full (map fst l) = Ok (map (fun sp => tpl_wg (fst sp) (snd sp)) l).
Proof.
  induction 1 as [|sp l H _ IH]; [reflexivity|]. cbn [map mapM]. unfold tpl_wg_full at 1. rewrite H. cbn [bind]. rewrite IH. reflexivity.
Qed.
Lemma wg_text_lines vs l data : Forall2 wg_made vs l -> l <> [] -> dget "wireguard" data = Some (VList (map VDict (map fst l))) ->
  exists ls, all_lines l = (ls ++ [EmptyString])%list /\ ls <> [] /\ render_wireguard data = Ok (K ls).
Proof.
  intros F Hn Hd. assert (A : exists ls, all_lines l = (ls ++ [EmptyString])%list /\ ls <> []).
  { destruct (exists_last Hn) as (l' & sp & ->). unfold all_lines. rewrite flat_map_app. cbn [flat_map]. rewrite app_nil_r. destruct (wg_lines_last (fst sp) (snd sp)) as (ls & ->).
    exists (flat_map (fun sp => wg_lines (fst sp) (snd sp)) l' ++ wg_header (fst sp) :: "" :: "[Interface]" :: ls)%list. split; [now rewrite <- app_assoc|].
    intros E. apply app_eq_nil in E as (_ & E). discriminate. }
  destruct A as (ls & E & Nl). exists ls. split; [exact E|]. split; [exact Nl|]. unfold render_wireguard, vpns_of. rewrite Hd, blocks_map. cbn [bind]. rewrite wg_full_all.
  2:{ clear -F. induction F as [|v sp vs l (_ & H & _) F IH]; constructor; assumption. }
  cbn [bind]. f_equal. unfold vpn_cleanup. change "    " with S4.
  assert (C : replace S4 EmptyString (fold_right String.append "" (map (fun sp => tpl_wg (fst sp) (snd sp)) l)) = K (all_lines l)).
  { assert (C : clears (fold_right String.append "" (map (fun sp => tpl_wg (fst sp) (snd sp)) l)) (K (all_lines l))).
    { clear -F. induction F as [|v sp vs l H F IH]; [exact clears_nil|]. cbn [map fold_right all_lines flat_map]. rewrite K_app. apply clears_app; [|exact IH].
      apply wg_clears. intros x Hx. exact (proj1 (made_lines v sp H x Hx)). }
    specialize (C EmptyString). rewrite app_nil_s in C. rewrite C. apply app_nil_s. }
  cbv zeta. rewrite C, E. pose proof (K_cleanup ls [] (or_intror Nl)) as Kc. cbv zeta in Kc. rewrite app_nil_r in Kc. exact Kc.
Qed.
Lemma all_oneline vs l : Forall2 wg_made vs l -> forallb oneline (all_lines l) = true.
Proof.
  intros F. apply forallb_forall. intros x Hx. apply in_flat_map in Hx as (sp & Hsp & Hx). destruct (Forall2_In_r _ _ _ _ F Hsp) as (v & _ & H). exact (proj1 (proj2 (made_lines v sp H x Hx))).
Qed.
Definition group (sp : dict * list dict) : list (string * list (string * string)) := ("Interface", iface_texts (fst sp)) :: map (fun p => ("Peer", peer_texts p)) (snd sp).
Lemma all_sections vs l : Forall2 wg_made vs l -> wg_sections (all_lines l) = ([], concat (map group l)).
Proof.
  induction 1 as [|v sp vs l (_ & _ & _ & Ln & Hs & Hp & _) F IH]; [reflexivity|]. cbn [all_lines flat_map]. fold (all_lines l).
  rewrite sections_wg; [| assumption | assumption | assumption | rewrite IH; reflexivity]. rewrite IH. reflexivity.
Qed.
Lemma made_all vs : Forall wg_ok vs -> exists l, Forall2 wg_made vs l.
Proof. induction 1 as [|v vs H _ (l & IH)]; [exists []; constructor|]. destruct (wg_made_ok v H) as (sp & Hsp). exists (sp :: l). now constructor. Qed.
Lemma wg_inter oid schema_ok config vs l : dget "wireguard" config = Some (VList (map VDict vs)) -> vs <> [] -> Forall2 wg_made vs l ->
  convert_fwd oid (be_convs (wireguard_backend schema_ok)) (fresh config) [] = ({| st_config := config; st_inter := Some [("wireguard", VList (map VDict (map fst l)))] |}, Ok tt).
Proof.
  intros Hd Hn F. cbn [be_convs wireguard_backend convert_fwd]. unfold wireguard_conv. cbn [c_fwd_run c_fwd st_config fresh]. unfold dmem. rewrite Hd. cbn [negb].
  unfold wg_fwd, dgetN. rewrite Hd. cbn [as_list bind].
  assert (E : mapM (fun v => do c <- as_dict v; wg_section c) (map VDict vs) = Ok (map fst l)).
  { clear -F. induction F as [|v sp vs l (H & _) F IH]; [reflexivity|]. cbn [map mapM as_dict bind]. rewrite H. cbn [bind]. rewrite IH. reflexivity. }
  rewrite E. cbn [bind]. destruct l as [|sp l]; [inversion F; subst; congruence|]. cbn [map]. rewrite merge_nil_l by (constructor; [intros [] | constructor]). reflexivity.
Qed.
Lemma wg_render oid schema_ok config vs s1 text : dget "wireguard" config = Some (VList (map VDict vs)) -> vs <> [] -> Forall wg_ok vs ->
  render oid (wireguard_backend schema_ok) false (fresh config) = (s1, Ok text) ->
  exists l ls, Forall2 wg_made vs l /\ l <> [] /\ all_lines l = (ls ++ [EmptyString])%list /\ text = K ls.
Proof.
  intros Hd Hn H R. destruct (made_all vs H) as (l & F). assert (Nl : l <> []) by (intros ->; inversion F; subst; congruence). exists l.
  unfold render in R. cbn [st_config fresh st_inter] in R. destruct (be_validate _ config) as [[]|e] eqn:Ev; [|discriminate].
  unfold to_intermediate in R. cbn [st_config fresh] in R. rewrite Ev in R. rewrite (wg_inter oid schema_ok config vs l Hd Hn F) in R.
  cbn [st_config st_inter] in R. destruct (deduplicate_files config) as [c'|e]; [|discriminate]. injection R as _ R. unfold render_text in R. cbn [st_inter be_render wireguard_backend] in R.
  destruct (wg_text_lines vs l [("wireguard", VList (map VDict (map fst l)))] F Nl eq_refl) as (ls & E & _ & Er). rewrite Er in R. cbn [bind] in R. injection R as <-. exists ls. auto.
Qed.
Theorem wg_text_read oid schema_ok config vs s1 text : dget "wireguard" config = Some (VList (map VDict vs)) -> vs <> [] -> Forall wg_ok vs ->
  render oid (wireguard_backend schema_ok) false (fresh config) = (s1, Ok text) ->
  exists groups, wg_read text = concat groups /\ Forall2 wg_reads vs groups.
Proof.
  intros Hd Hn H R. destruct (wg_render oid schema_ok config vs s1 text Hd Hn H R) as (l & ls & F & Nl & E & ->). exists (map group l). split.
  - unfold wg_read. rewrite K_split, <- E.
    + rewrite (all_sections vs l F). reflexivity.
    + pose proof (all_oneline vs l F) as O. rewrite E, forallb_app_iff, andb_true_iff in O. tauto.
  - clear -F. induction F as [|v sp vs l (_ & _ & _ & _ & _ & _ & Rd) F IH]; [constructor|]. cbn [map]. constructor; assumption.
Qed.
