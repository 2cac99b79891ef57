(** * ZtApi: the ZeroTier backend from configuration to text, archive and back (proofs only) *)
From Verif Require Import PyBase PyLemmas StrLemmas SortLemmas NumLemmas Merge MergeProofs Files FilesProofs SpecFiles Backend Conv Uci SpecUci SpecUciMore UciProofs UciParseProofs UciRoundTrip UciMore ConvLemmas RtGeneric OpenVpnConv VpnText SpecVpn VpnProofs VpnArchive VpnApi SpecConv Json SpecZt JsonProofs ZtBackend ZtProofs.

Definition zsec (v : dict) : dict := ssort (settings_of v).
Lemma zsec_facts P v : network_ok P v -> NoDup (dkeys (settings_of v)) /\ NoDup (dkeys (zsec v)) /\
  (forall k, dget k (zsec v) = dget k (settings_of v)) /\ document P (VDict (zsec v)) /\ ssort (zsec v) = zsec v.
Proof.
  intros (Nd & D & _). assert (N : NoDup (dkeys (settings_of v))) by (now apply NoDup_ddel). pose proof (ssort_NoDup _ N) as N'.
  split; [exact N|]. split; [exact N'|]. split; [intros k; now apply dget_ssort|]. split.
  - inversion D as [| | | | | |d A B]; subst. constructor; [exact N'|]. intros k x Hx. apply B. exact (Permutation.Permutation_in _ (ssort_perm _) Hx).
  - apply sorted_ext; try (now apply ssort_sorted_keys). intros k. now apply dget_ssort.
Qed.
Lemma zsec_canon P v : network_ok P v -> exists v', canon (VDict (zsec v)) = VDict v' /\ same (VDict (settings_of v)) (VDict v') /\
  v' = map (fun kv => (fst kv, canon (snd kv))) (zsec v).
Proof.
  intros H. destruct (zsec_facts P v H) as (N & N' & G & D & Si). rewrite canon_dict, Si. eexists. split; [reflexivity|]. split; [|reflexivity].
  assert (E : canon (VDict (settings_of v)) = VDict (map (fun kv => (fst kv, canon (snd kv))) (zsec v))) by (rewrite canon_dict; reflexivity).
  rewrite <- E. apply canon_same. exists P. apply H.
Qed.
Lemma zid_zsec P v : network_ok P v -> zid (zsec v) = network_id v /\ oneline (zid (zsec v)) = true.
Proof.
  intros H. destruct (zsec_facts P v H) as (N & N' & G & D & _). destruct H as (Nd & _ & _ & Hn & _). unfold zid, tpl_get, network_id. rewrite G. unfold settings_of. rewrite dget_ddel by exact Nd.
  change (String.eqb "nwid" "client_options") with false. cbv iota. destruct (dget "nwid" v) as [x|]; [|split; reflexivity]. destruct Hn as (n & -> & Hn). split; [reflexivity|]. now apply no_char_spec.
Qed.
Lemma zt_fine v : network_ok no_comment v -> fine (zsec v).
Proof. intros H. split; [apply (zsec_facts _ v H) | apply (zid_zsec _ v H)]. Qed.
Lemma zt_named P v : network_ok P v -> named (zsec v).
Proof. intros H. split; [exists P; apply (zsec_facts _ v H) | apply (zid_zsec _ v H)]. Qed.

(** ** Forward *)
Lemma zt_inter oid schema_ok config vs : dget "zerotier" config = Some (VList (map VDict vs)) -> vs <> [] ->
  convert_fwd oid (be_convs (zerotier_backend schema_ok)) (fresh config) [] = ({| st_config := config; st_inter := Some [("zerotier", VList (map VDict (map zsec vs)))] |}, Ok tt).
Proof.
  intros Hd Hn. cbn [be_convs zerotier_backend convert_fwd]. unfold zerotier_base. cbn [c_fwd_run simple_converter c_fwd st_config fresh]. unfold dmem. rewrite Hd. cbn [negb].
  unfold fwd_list, dgetN. rewrite Hd. cbn [as_list bind].
  assert (L : forall vs i acc, fwd_loop zt_base_fwd_block (map VDict vs) i (acc_of "zerotier" acc) = Ok (acc_of "zerotier" (acc ++ map zsec vs))).
  { clear. induction vs as [|v vs IH]; intros i acc; [cbn; now rewrite app_nil_r|]. cbn [map fwd_loop as_dict bind]. unfold zt_base_fwd_block at 1. cbn [bind]. change (ssort (ddel "client_options" v)) with (zsec v).
    rewrite add_blocks_acc, IH, <- app_assoc. reflexivity. }
  specialize (L vs 0 []). cbn [acc_of app] in L. rewrite L. destruct vs as [|v vs]; [congruence|]. cbn [map acc_of]. rewrite merge_nil_l by (constructor; [intros [] | constructor]). reflexivity.
Qed.
Definition gaps (vs : list dict) : list (dict * nat) :=
  match vs with [] => [] | _ => (map (fun v => (v, 1)) (removelast vs) ++ [(last vs [], 0)])%list end.
Lemma gaps_snoc ws w : gaps (ws ++ [w]) = (map (fun v => (v, 1)) ws ++ [(w, 0)])%list.
Proof. unfold gaps. rewrite removelast_last, last_last. destruct ws; reflexivity. Qed.
Lemma gaps_fst vs : map fst (gaps vs) = vs.
Proof.
  destruct (snoc_list vs) as [-> | (ws & w & ->)]; [reflexivity|]. rewrite gaps_snoc, map_app, map_map. cbn [map fst]. now rewrite map_id.
Qed.
Lemma gaps_snd vs p : In p (gaps vs) -> In (fst p) vs /\ snd p <= 1.
Proof.
  intros H. split; [rewrite <- (gaps_fst vs); now apply in_map|]. destruct (snoc_list vs) as [-> | (ws & w & ->)]; [destruct H|]. rewrite gaps_snoc in H.
  apply in_app_iff in H as [H | [<- | []]]; [apply in_map_iff in H as (v & <- & _)|]; cbn; lia.
Qed.
Theorem zt_render oid schema_ok config vs s1 r : dget "zerotier" config = Some (VList (map VDict vs)) -> vs <> [] ->
  render oid (zerotier_backend schema_ok) false (fresh config) = (s1, r) ->
  base_validate schema_ok config = Ok tt -> forall c', deduplicate_files config = Ok c' -> s1 = {| st_config := c'; st_inter := Some [("zerotier", VList (map VDict (map zsec vs)))] |} /\ r = Ok (ztext (gaps (map zsec vs))).
Proof.
  intros Hd Hn R Ev c' Dd. unfold render in R. cbn [st_config fresh st_inter] in R. change (be_validate (zerotier_backend schema_ok) config) with (base_validate schema_ok config) in R. rewrite Ev in R.
  unfold to_intermediate in R. cbn [st_config fresh] in R. change (be_validate (zerotier_backend schema_ok) config) with (base_validate schema_ok config) in R. rewrite Ev in R.
  rewrite (zt_inter oid schema_ok config vs Hd Hn) in R. cbn [st_config st_inter] in R. rewrite Dd in R. unfold render_text in R. cbn [st_inter be_render zerotier_backend] in R.
  destruct (snoc_list vs) as [-> | (ws & w & ->)]; [congruence|]. rewrite map_app in R |- *. cbn [map] in R |- *. rewrite (render_ztext _ (map zsec ws) (zsec w)) in R by reflexivity. cbn [bind] in R. injection R as <- <-.
  split; [reflexivity|]. now rewrite gaps_snoc.
Qed.
(** A rendering that succeeds has passed both checks. *)
Lemma zt_render_ok oid schema_ok config s1 text : render oid (zerotier_backend schema_ok) false (fresh config) = (s1, Ok text) -> dmem "zerotier" config = true ->
  (exists vs, dget "zerotier" config = Some (VList (map VDict vs)) /\ vs <> []) -> base_validate schema_ok config = Ok tt /\ exists c', deduplicate_files config = Ok c'.
Proof.
  intros R _ (vs & Hd & Hn). unfold render in R. cbn [st_config fresh st_inter] in R. change (be_validate (zerotier_backend schema_ok) config) with (base_validate schema_ok config) in R.
  destruct (base_validate schema_ok config) as [[]|e] eqn:Ev; [|discriminate]. split; [reflexivity|].
  unfold to_intermediate in R. cbn [st_config fresh] in R. change (be_validate (zerotier_backend schema_ok) config) with (base_validate schema_ok config) in R. rewrite Ev in R.
  rewrite (zt_inter oid schema_ok config vs Hd Hn) in R. cbn [st_config st_inter] in R. destruct (deduplicate_files config) as [c'|e]; [eauto | discriminate].
Qed.
Lemma zt_text oid schema_ok config vs s1 text : dget "zerotier" config = Some (VList (map VDict vs)) -> vs <> [] ->
  render oid (zerotier_backend schema_ok) false (fresh config) = (s1, Ok text) -> text = ztext (gaps (map zsec vs)).
Proof.
  intros Hd Hn R. destruct (zt_render_ok oid schema_ok config s1 text R) as (Ev & c' & Dd); [unfold dmem; now rewrite Hd | eauto|].
  destruct (zt_render oid schema_ok config vs s1 (Ok text) Hd Hn R Ev c' Dd) as (_ & E). now injection E.
Qed.
(** ** Backward *)
Lemma cast_id d : (forall k x, In (k, x) d -> cast_value (dget k zt_server_props) x = Ok x) -> type_cast zt_server_props d = Ok d.
Proof.
  induction d as [|[k x] d IH]; intros H; [reflexivity|]. cbn [type_cast]. rewrite (H k x) by now left. cbn [bind]. rewrite IH by (intros; apply H; now right). reflexivity.
Qed.
Lemma zt_cast P v : network_ok P v -> let v' := map (fun kv => (fst kv, canon (snd kv))) (zsec v) in type_cast zt_server_props v' = Ok v' /\ skip_block [] v' = false.
Proof.
  intros H. cbv zeta. destruct (zsec_facts P v H) as (N & N' & G & D & _). destruct H as (Nd & _ & (n & Hn) & _ & Hi & Hb).
  assert (Gv : forall k x, k <> "client_options" -> dget k (zsec v) = Some x -> dget k v = Some x).
  { intros k x Hk E. rewrite G in E. unfold settings_of in E. rewrite dget_ddel in E by exact Nd. now rewrite (eqb_neq _ _ Hk) in E. }
  split.
  - apply cast_id. intros k x Hx. apply in_map_iff in Hx as ([k' y] & E & Hy). cbn [fst snd] in E. injection E as -> <-. apply In_dget in Hy; [|exact N'].
    assert (Hcase : In k network_numbers \/ In k network_flags \/ dget k zt_server_props = None).
    { unfold zt_server_props, network_numbers, network_flags. cbn [dget In].
      destruct (String.eqb_spec k "revision") as [-> | _]; [tauto|]. destruct (String.eqb_spec k "enableBroadcast") as [-> | _]; [tauto|]. destruct (String.eqb_spec k "mtu") as [-> | _]; [tauto|].
      destruct (String.eqb_spec k "multicastLimit") as [-> | _]; [tauto|]. destruct (String.eqb_spec k "private") as [-> | _]; [tauto|]. destruct (String.eqb_spec k "remoteTraceLevel") as [-> | _]; tauto. }
    destruct Hcase as [Hk | [Hk | Hk]].
    + assert (Hc : k <> "client_options") by (intros ->; cbn in Hk; repeat destruct Hk as [Hk | Hk]; try discriminate Hk; destruct Hk).
      destruct (Hi k y Hk (Gv k y Hc Hy)) as (z & ->). cbn [canon]. cbn in Hk. repeat destruct Hk as [<- | Hk]; try reflexivity. destruct Hk.
    + assert (Hc : k <> "client_options") by (intros ->; cbn in Hk; repeat destruct Hk as [Hk | Hk]; try discriminate Hk; destruct Hk).
      destruct (Hb k y Hk (Gv k y Hc Hy)) as (b & ->). cbn [canon]. cbn in Hk. repeat destruct Hk as [<- | Hk]; try reflexivity. destruct Hk.
    + rewrite Hk. reflexivity.
  - assert (E : dget "name" (zsec v) = Some (VStr n)) by (rewrite G; unfold settings_of; rewrite dget_ddel by exact Nd; exact Hn). destruct (zsec v); [discriminate | reflexivity].
Qed.
Definition zback (v : dict) : dict := map (fun kv => (fst kv, canon (snd kv))) (zsec v).
Lemma zt_parsed oid schema_ok vs : vs <> [] -> Forall (network_ok no_comment) vs ->
  let inter := [("zerotier", VList (map VDict (map zback vs)))] in
  to_netjson oid (zerotier_backend schema_ok) inter = ({| st_config := inter; st_inter := Some inter |}, base_validate schema_ok inter).
Proof.
  intros Hn H. cbv zeta. unfold to_netjson. cbn [be_convs zerotier_backend convert_bwd]. unfold zerotier_base. cbn [c_bwd_run simple_converter c_bwd].
  change (dmem "zerotier" [("zerotier", VList (map VDict (map zback vs)))]) with true. cbn [negb].
  unfold bwd_list. change (dget "zerotier" [("zerotier", VList (map VDict (map zback vs)))]) with (Some (VList (map VDict (map zback vs)))). cbn [as_list].
  assert (L : forall vs, Forall (network_ok no_comment) vs -> forall i left acc, exists left',
     bwd_loop (skip_block []) zt_base_bwd_block (map VDict (map zback vs)) i left (acc_of "zerotier" acc) = (left', Ok (acc_of "zerotier" (acc ++ map zback vs)))).
  { clear. induction 1 as [|v vs Hv _ IH]; intros i left acc; [exists left; cbn; now rewrite app_nil_r|]. destruct (zt_cast _ v Hv) as (C & Sk). fold (zback v) in C, Sk.
    cbn [map bwd_loop as_dict]. rewrite Sk. unfold zt_base_bwd_block at 1. rewrite C. cbn [bind]. rewrite add_blocks_acc.
    destruct (IH (S i) (remove_first (VDict (zback v)) left) (acc ++ [zback v])%list) as (l & E). exists l. rewrite E, <- app_assoc. reflexivity. }
  destruct (L vs H 0 (map VDict (map zback vs)) []) as (l & E). cbn [acc_of app] in E. rewrite E. destruct vs as [|v vs]; [congruence|]. cbn [map acc_of].
  rewrite merge_nil_l by (constructor; [intros [] | constructor]). reflexivity.
Qed.
Lemma zt_parse_text l vs : vs <> [] -> Forall (network_ok no_comment) vs -> map fst l = map zsec vs -> parse_zerotier (ztext l) = Ok [("zerotier", VList (map VDict (map zback vs)))].
Proof.
  intros Hn H E. rewrite parse_ztext.
  - rewrite <- (map_map fst (fun v => canon (VDict v))), E, !map_map. do 4 f_equal. apply map_ext_in. intros v Hv. rewrite Forall_forall in H. destruct (zsec_canon _ v (H v Hv)) as (v' & Ec & _ & ->). exact Ec.
  - intros ->. destruct vs; [congruence | discriminate].
  - intros p Hp. assert (Hi : In (fst p) (map zsec vs)) by (rewrite <- E; now apply in_map). apply in_map_iff in Hi as (v & <- & Hv). rewrite Forall_forall in H. now apply zt_fine, H.
Qed.
Theorem zt_round_trip oid schema_ok config vs s1 text : dget "zerotier" config = Some (VList (map VDict vs)) -> vs <> [] -> Forall (network_ok no_comment) vs ->
  render oid (zerotier_backend schema_ok) false (fresh config) = (s1, Ok text) ->
  forall s0, exists vs' inter, let config' := [("zerotier", VList (map VDict vs'))] in
    parse oid (zerotier_backend schema_ok) (parse_zerotier text) s0 = ({| st_config := config'; st_inter := inter |}, base_validate schema_ok config') /\
    Forall2 (fun v v' => same (VDict (settings_of v)) (VDict v')) vs vs'.
Proof.
  intros Hd Hn H R s0. rewrite (zt_text oid schema_ok config vs s1 text Hd Hn R). rewrite (zt_parse_text _ vs Hn H (gaps_fst _)).
  exists (map zback vs), (Some [("zerotier", VList (map VDict (map zback vs)))]). cbv zeta. split; [unfold parse; now apply zt_parsed|].
  clear -H. induction H as [|v vs Hv _ IH]; [constructor|]. cbn [map]. constructor; [|exact IH]. destruct (zsec_canon _ v Hv) as (v' & _ & S & ->). exact S.
Qed.
Theorem zt_renders oid schema_ok config vs c' : dget "zerotier" config = Some (VList (map VDict vs)) -> vs <> [] ->
  base_validate schema_ok config = Ok tt -> deduplicate_files config = Ok c' ->
  exists s1 text, render oid (zerotier_backend schema_ok) false (fresh config) = (s1, Ok text).
Proof.
  intros Hd Hn Ev Dd. destruct (render oid (zerotier_backend schema_ok) false (fresh config)) as [s1 r] eqn:R. destruct (zt_render oid schema_ok config vs s1 r Hd Hn R Ev c' Dd) as (_ & ->). eauto.
Qed.
(** ** The archive *)
Lemma loads_contents P d n : document P (VDict d) -> loads (js d +++ nls n) = Ok (canon (VDict d)).
Proof.
  intros H. unfold loads, js. rewrite (skip_doc P) by exact H.
  rewrite (reads_doc P _ 0 H); [|destruct n as [|n]; cbn; repeat split; discriminate | rewrite length_app_s; lia].
  assert (E : skip_json_space (nls n) = "") by (induction n as [|n IH]; [reflexivity | exact IH]). now rewrite E.
Qed.
Lemma zt_generated oid schema_ok config vs s1 s2 text tar P : dget "zerotier" config = Some (VList (map VDict vs)) -> vs <> [] -> Forall (network_ok P) vs ->
  Forall (fun v => contains ".json" (network_id v) = false) vs ->
  render oid (zerotier_backend schema_ok) false (fresh config) = (s1, Ok text) ->
  generate oid (zerotier_backend schema_ok) (fresh config) = (s2, Ok tar) ->
  process_files (st_config s1) (map zt_member (gaps (map zsec vs))) = Ok tar.
Proof.
  intros Hd Hn H Hc R Hg. unfold generate in Hg. rewrite R in Hg. cbn [bind be_contents zerotier_backend] in Hg. rewrite (zt_text oid schema_ok config vs s1 text Hd Hn R) in Hg.
  rewrite generate_zt_members in Hg.
  - cbn [bind] in Hg. now injection Hg.
  - intros p Hp. apply gaps_snd in Hp as (Hp & Hs). apply in_map_iff in Hp as (v & <- & Hv). rewrite Forall_forall in H, Hc. split; [now apply (zt_named P), H|]. split; [exact Hs|].
    destruct (zid_zsec P v (H v Hv)) as (-> & _). now apply Hc.
Qed.
Lemma zt_members P vs : Forall (network_ok P) vs -> forall l, map fst l = map zsec vs -> Forall2 zt_stored vs (map zt_member l).
Proof.
  induction 1 as [|v vs Hv _ IH]; intros l E.
  - destruct l; [constructor | discriminate].
  - destruct l as [|p l]; [discriminate|]. cbn [map] in E |- *. injection E as E1 E2. constructor; [|now apply IH].
    unfold zt_stored, zt_member. cbn [m_name m_mode m_data]. rewrite E1. destruct (zid_zsec P v Hv) as (-> & _). split; [reflexivity|]. split; [reflexivity|].
    destruct (zsec_canon P v Hv) as (v' & Ec & S & _). exists v'. split; [|exact S]. unfold zcontents. rewrite E1, <- Ec. apply (loads_contents P). apply (zsec_facts P v Hv).
Qed.
Theorem zt_archive oid schema_ok config vs s1 s2 text tar P : dget "zerotier" config = Some (VList (map VDict vs)) -> vs <> [] -> Forall (network_ok P) vs ->
  Forall (fun v => contains ".json" (network_id v) = false) vs ->
  render oid (zerotier_backend schema_ok) false (fresh config) = (s1, Ok text) ->
  generate oid (zerotier_backend schema_ok) (fresh config) = (s2, Ok tar) ->
  exists ms ms', tar = (ms ++ ms')%list /\ Forall2 zt_stored vs ms.
Proof.
  intros Hd Hn H Hc R Hg. pose proof (zt_generated oid schema_ok config vs s1 s2 text tar P Hd Hn H Hc R Hg) as Hf.
  apply process_files_spec in Hf as (files & ms & _ & _ & ->). eexists _, ms. split; [reflexivity|]. apply (zt_members P vs H), gaps_fst.
Qed.
Theorem zt_archive_parse oid schema_ok config vs s1 s2 text files tar : dget "zerotier" config = Some (VList (map VDict vs)) -> vs <> [] -> Forall (network_ok no_comment) vs ->
  Forall (fun v => contains ".json" (network_id v) = false) vs ->
  render oid (zerotier_backend schema_ok) false (fresh config) = (s1, Ok text) ->
  get_files (st_config s1) = Ok files ->
  (forall f p q, In f files -> file_path f p -> relative_of p q -> endswith ".json" q = false) ->
  generate oid (zerotier_backend schema_ok) (fresh config) = (s2, Ok tar) ->
  parse_zerotier_tar tar = parse_zerotier text.
Proof.
  intros Hd Hn H Hc R Hfs Hfp Hg. pose proof (zt_generated oid schema_ok config vs s1 s2 text tar no_comment Hd Hn H Hc R Hg) as Hf.
  apply process_files_spec in Hf as (files' & ms & Hf & HF & ->). rewrite Hfs in Hf. injection Hf as <-.
  unfold parse_zerotier_tar. rewrite zt_tar_text.
  - cbn [bind]. rewrite (zt_text oid schema_ok config vs s1 text Hd Hn R). rewrite !(fun l => zt_parse_text l vs Hn H); [reflexivity | apply gaps_fst|].
    rewrite map_map. cbn [regap_zt fst]. apply gaps_fst.
  - intros p Hp. apply gaps_snd in Hp as (Hp & _). apply in_map_iff in Hp as (v & <- & Hv). rewrite Forall_forall in H. now apply (zt_named no_comment), H.
  - intros m Hm. destruct (Forall2_In_r _ _ _ _ HF Hm) as (f & Hin & d & p & c & mode & n & -> & Hpth & _ & _ & _ & ->). cbn [m_name].
    eapply Hfp; [exact Hin| |apply relative_of_member]. exists d. auto.
Qed.
