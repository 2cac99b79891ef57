(** * OwRepeat: generating an OpenWISP 1.x archive twice (proofs only) *)
From Verif Require Import PyBase PyLemmas StrLemmas Files Uci SpecUci SpecUciMore FilesProofs.
From Verif Require Import Merge Backend BackendProofs Conv Ip Timezones OwrtConv OpenVpnConv OwrtWireless OwrtInterfaces OpenWrt OwrtKeep.
From Verif Require Import OpenWisp SpecFiles SpecOpenWisp MergeFinal VpnProofs OwProofs OwArchive OwScripts OwApi.

(** ** What the first call leaves as it was *)
Definition ow_keys : list string := owrt_keys ++ ["tc_options"].
Definition ow_settings : list string := filter (fun k => negb (String.eqb k "files")) ow_keys.
Lemma ow_settings_spec k : In k ow_settings <-> In k ow_keys /\ k <> "files".
Proof.
  unfold ow_settings. rewrite filter_In. destruct (String.eqb_spec k "files") as [->|Hn]; cbn; intuition congruence.
Qed.
Lemma ow_convs_keep oid dsa f1 f2 c : In c (ow_convs oid dsa f1 f2) ->
  forall cfg i, keeps ow_settings cfg (fst (c_fwd c cfg i)).
Proof.
  assert (Hn : ~ In "files" ow_settings) by (rewrite ow_settings_spec; intuition).
  assert (Hi : forall k, In k ow_settings -> In k ow_keys) by (intros k; rewrite ow_settings_spec; tauto).
  intros Hc cfg i. unfold ow_convs in Hc. cbn [In] in Hc.
  repeat (destruct Hc as [<-|Hc]); try destruct Hc;
    try (cbn [c_fwd general ntp led interfaces routes rules switch radios wireless wireguard_peers simple_converter fst];
         exact (keeps_refl _ cfg)).
  - apply (vpn_fwd_keeps _ owrt_vpn_section cfg Hn).
  - apply (zt_fwd_keeps _ cfg Hn).
  - apply (default_fwd_keeps _ ow_keys cfg Hi).
Qed.
Lemma ow_render_keeps oid schema_ok dsa f1 f2 f s s' r k :
  render oid (openwisp oid schema_ok dsa f1 f2) f s = (s', r) -> In k ow_settings ->
  dget k (st_config s') = dget k (st_config s).
Proof.
  intros E Hk.
  assert (H : keeps ow_settings (st_config s) (st_config (fst (run oid (openwisp oid schema_ok dsa f1 f2) [CRender f] s)))).
  { apply (run_rel (keeps ow_settings) (keeps_refl _) (keeps_trans _) (fun _ => True)); auto.
    - intros c c' _. apply keeps_dedup. rewrite ow_settings_spec. intuition.
    - intros c Hc cfg i _. revert c Hc cfg i. apply ow_convs_keep. }
  cbn [run step] in H. rewrite E in H. exact (H k Hk).
Qed.

(** ** The second call *)
Lemma sanitize_like c c' : sanitize_radios c = Ok c -> dget "radios" c' = dget "radios" c -> sanitize_radios c' = Ok c'.
Proof.
  unfold sanitize_radios. intros H E. rewrite E. destruct (dget "radios" c) as [v|] eqn:Ev; [|reflexivity].
  apply bind_Ok in H as (l & Hl & H). apply as_list_Ok in Hl. subst v. cbn [as_list bind]. apply bind_Ok in H as (l' & Hl' & H). injection H as H.
  assert (l' = l) as ->. { apply (f_equal (dget "radios")) in H. rewrite dget_dset_same, Ev in H. congruence. }
  rewrite Hl'. cbn [bind]. rewrite dset_same; [reflexivity|exact E].
Qed.
Lemma distinct_dedup c fs ps : dget "files" c = Some (VList fs) -> Forall2 file_path fs ps -> NoDup ps -> deduplicate_files c = Ok c.
Proof.
  intros E F Hn. unfold deduplicate_files. rewrite E. cbn [as_list bind]. destruct fs as [|f fs]; [reflexivity|].
  rewrite (dedup_from_nodup (f :: fs) ps [] F Hn). cbn [bind app].
  rewrite map_snd_combine2 by (apply Forall2_length in F; congruence). rewrite dset_same by exact E. reflexivity.
Qed.
Lemma has_cron_app old new b : has_cron old = Ok b -> has_cron new = Ok false -> has_cron (old ++ new) = Ok b.
Proof.
  intros H Hn. induction old as [|f old IH]; [injection H as <-; exact Hn|]. cbn [has_cron app] in *.
  apply bind_Ok in H as (d & Hd & H). rewrite Hd. cbn [bind]. apply bind_Ok in H as (pv & Hp & H). rewrite Hp. cbn [bind].
  apply bind_Ok in H as (p & Hs & H). rewrite Hs. cbn [bind]. destruct (_ || _); [exact H|apply IH; exact H].
Qed.
Lemma scripts_no_cron T c x new : (forall f, In f new -> exists p t, ow_script T c x p t /\ f = script_file p t) -> has_cron new = Ok false.
Proof.
  intros H. induction new as [|f new IH]; [reflexivity|]. destruct (H f (or_introl eq_refl)) as (p & t & Hs & ->).
  unfold script_file. cbn [has_cron as_dict bind]. unfold dgetE. cbn [dget]. change (String.eqb "path" "path") with true. cbn [bind as_str].
  assert (startswith "/crontabs" p || startswith "crontabs" p = false) as -> by (destruct Hs; reflexivity).
  apply IH. intros g Hg. apply H. right. exact Hg.
Qed.
Lemma all_scripts_more T c items old new : all_scripts T c = Ok items -> get_files c = Ok old ->
  (exists x, forall f, In f new -> exists p t, ow_script T c x p t /\ f = script_file p t) ->
  all_scripts T (dset "files" (VList (old ++ new)) c) = Ok items.
Proof.
  intros H Hf (x0 & Hn). unfold all_scripts in *. apply bind_Ok in H as (x & Hx & H).
  assert (install_context (dset "files" (VList (old ++ new)) c) = Ok x) as ->.
  { unfold install_context in *. unfold dicts_at, list_at in *. rewrite get_files_dset.
    rewrite !dget_dset_other by discriminate.
    apply bind_Ok in Hx as (v & -> & Hx). cbn [bind]. apply bind_Ok in Hx as (is & -> & Hx). cbn [bind].
    apply bind_Ok in Hx as (br & -> & Hx). cbn [bind]. rewrite Hf in Hx. cbn [bind] in Hx. apply bind_Ok in Hx as (b & Hb & Hx).
    rewrite (has_cron_app old new b Hb (scripts_no_cron T c x0 new Hn)). cbn [bind]. exact Hx. }
  cbn [bind]. rewrite dget_dset_other by discriminate. exact H.
Qed.
Theorem generate_twice oid schema_ok dsa f1 f2 T s s' tar s2 tar2 fs ps :
  ow_generate oid (openwisp oid schema_ok dsa f1 f2) T s = (s', Ok tar) ->
  ow_generate oid (openwisp oid schema_ok dsa f1 f2) T s' = (s2, Ok tar2) ->
  dget "files" (st_config s') = Some (VList fs) -> Forall2 file_path fs ps -> NoDup ps ->
  s2 = s' /\ tar2 = tar.
Proof.
  set (B := openwisp oid schema_ok dsa f1 f2). intros G1 G2 Hfs F Hnd.
  destruct (generate_parts oid B T s s' tar G1) as (s1 & text & pk & items & old & new & E1 & E2 & E3 & E4 & E5 & E6 & E7 & E8 & E9 & E10).
  destruct (all_scripts_spec T _ _ E3) as (x & Hx & Hs).
  unfold ow_render in E1. destruct (sanitize_radios (st_config s)) as [c|] eqn:Es; [|discriminate].
  assert (S1 : sanitize_radios (st_config s') = Ok (st_config s')).
  { apply (sanitize_like c); [eapply sanitize_again; exact Es|]. rewrite E5, dget_dset_other by discriminate.
    apply (ow_render_keeps _ _ _ _ _ _ _ _ _ "radios" E1). apply ow_settings_spec. split; [vm_compute; tauto|discriminate]. }
  destruct (render_ok_settled _ _ _ _ _ _ E1) as [[Hin _] Ht].
  assert (St : settled s') by (split; [rewrite E6; exact Hin|eapply distinct_dedup; eauto]).
  assert (Ht' : render_text B false s' = Ok text).
  { unfold render_text in *. rewrite E6. destruct (st_inter s1) as [i|]; [exact Ht|discriminate]. }
  unfold ow_generate, ow_render in G2. rewrite S1, state_eta, (render_settled oid B false s' St), Ht' in G2.
  destruct (be_validate B (st_config s')) as [u|e]; cbn [bind] in G2; [|discriminate].
  rewrite E2 in G2. unfold add_scripts in G2. rewrite E5 in G2.
  rewrite (all_scripts_more T _ items old new E3 E4) in G2; [|exists x; intros f Hf; apply Hs, E8, Hf].
  cbn [bind] in G2. rewrite get_files_dset in G2. cbn [bind] in G2.
  rewrite add_unique_none in G2 by exact E9. rewrite dset_again in G2. rewrite <- E5 in G2. rewrite state_eta in G2.
  rewrite E10 in G2. injection G2 as <- <-. auto.
Qed.
