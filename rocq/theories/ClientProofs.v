(** * ClientProofs *)
From Verif Require Import PyBase PyLemmas StrLemmas SortLemmas Files FilesProofs Conv ConvLemmas OpenVpnConv AutoClient SpecClient.

Lemma copy_get (server : dict) k : forall keys c,
  dget k (fold_left (fun c k => match dget k server with Some v => dset k v c | None => c end) keys c) =
  if existsb (String.eqb k) keys then match dget k server with Some v => Some v | None => dget k c end else dget k c.
Proof.
  induction keys as [|k' t IH]; intros c; [reflexivity|]. cbn [fold_left existsb]. rewrite IH.
  destruct (String.eqb_spec k k') as [-> | Hk]; cbn [orb].
  - destruct (dget k' server) as [v|] eqn:E; destruct (existsb (String.eqb k') t); auto using dget_dset_same.
  - destruct (dget k' server) as [v|]; [rewrite dget_dset_other by assumption|]; reflexivity.
Qed.
Lemma blank_free s : sexists (Ascii.eqb " ") s = false <-> no_blank s.
Proof.
  unfold no_blank. induction s as [|c s IH]; cbn [sexists].
  - split; [intros _ [|] y; discriminate | reflexivity].
  - rewrite orb_false_iff, IH. split.
    + intros (Hc & Hs) [|x r] y E; cbn [String.append] in E; injection E as -> E.
      * discriminate.
      * exact (Hs r y E).
    + intros H. split.
      * destruct (Ascii.eqb_spec " " c) as [<- | Hn]; [|reflexivity]. now elim (H "" s).
      * intros x y ->. now elim (H (String c x) y).
Qed.
Lemma two_parts s : (length (split_char " " (strip s)) =? 2)%nat = true <-> path_and_direction s.
Proof.
  unfold path_and_direction. rewrite Nat.eqb_eq. split.
  - intros H. pose proof (split_char_join " " (strip s)) as E. pose proof (split_char_nosep " " (strip s)) as N.
    destruct (split_char " " (strip s)) as [|a [|b [|? ?]]]; try discriminate. exists a, b. split; [symmetry; exact E|].
    split; apply blank_free; apply N; cbn; auto.
  - intros (a & b & -> & Ha & Hb). apply blank_free in Ha. apply blank_free in Hb.
    change (a +++ " " +++ b) with (a +++ String " " b).
    rewrite split_char_app, (split_char_none _ b) by assumption. reflexivity.
Qed.
Lemma cert_purpose v w : cert_map v = Ok w <-> purpose v w.
Proof.
  unfold purpose. split.
  - intros H. destruct v as [| | | |s| |]; try discriminate; [injection H as <-; auto|]. cbn in H.
    destruct s as [|c s]; [injection H as <-; auto|]. destruct (String.eqb_spec (String c s) "client") as [E | E]; [|discriminate].
    injection H as <-. right. split; congruence.
  - intros [([-> | ->] & ->) | (-> & ->)]; reflexivity.
Qed.
Lemma truthy_str s : s <> EmptyString -> truthy (VStr s) = true.
Proof. intros H. cbn. now rewrite eqb_neq. Qed.
Lemma dgetN_some k (d : dict) v : dgetN k d = v -> v <> VNull -> dget k d = Some v.
Proof. unfold dgetN. destruct (dget k d); congruence. Qed.
Lemma auth_spec server auth : client_auth server = Ok auth ->
  match auth with
  | Some v => exists s, v = VStr s /\ dget "tls_auth" server = Some v /\ s <> EmptyString /\ ~ path_and_direction s
  | None => truthy (dgetN "tls_auth" server) = false \/ exists s, dget "tls_auth" server = Some (VStr s) /\ path_and_direction s
  end.
Proof.
  unfold client_auth. destruct (truthy (dgetN "tls_auth" server)) eqn:Et; cbn [negb]; [|intros [= <-]; auto].
  intros H. apply bind_Ok in H as (s & Hs & H). destruct (dgetN "tls_auth" server) as [| | | |s'| |] eqn:Ev; try discriminate. injection Hs as ->.
  apply dgetN_some in Ev; [|discriminate]. injection H as <-. destruct ((length (split_char " " (strip s)) =? 2)%nat) eqn:E.
  - right. exists s. split; [assumption | now apply two_parts].
  - exists s. repeat split; auto; [intros ->; discriminate | intros Hp; apply two_parts in Hp; congruence].
Qed.
Lemma log_spec server log : client_log server = Ok log ->
  match log with
  | Some v => exists s, dget "log" server = Some (VStr s) /\ v = VStr (replace "/var/log/openvpn/" "/var/log/" s)
  | None => dget "log" server = None
  end.
Proof.
  unfold client_log. destruct (dget "log" server) as [v|]; [|now intros [= <-]]. intros H. apply bind_Ok in H as (s & Hs & H).
  destruct v; try discriminate. injection Hs as ->. injection H as <-. eauto.
Qed.
Lemma client_file_get field path contents c fs k :
  dget k (fst (client_file field path contents (c, fs))) = if truthy path && truthy contents && String.eqb k field then Some path else dget k c.
Proof.
  unfold client_file. destruct (truthy path && truthy contents); cbn [fst andb]; [|reflexivity].
  rewrite dget_dset. destruct (String.eqb k field); reflexivity.
Qed.
Lemma client_file_pair field path contents cf : client_file field path contents cf =
  ((if truthy path && truthy contents then dset field path (fst cf) else fst cf),
   snd cf ++ (if truthy path && truthy contents then [VDict [("path", path); ("contents", contents); ("mode", VStr "0600")]] else []))%list.
Proof. unfold client_file. destruct (truthy path && truthy contents); [reflexivity|]. rewrite app_nil_r. now destruct cf. Qed.
Lemma set_opt_get k' v d k : dget k (set_opt k' v d) = match v with Some x => if String.eqb k k' then Some x else dget k d | None => dget k d end.
Proof. destruct v; cbn [set_opt]; [apply dget_dset | reflexivity]. Qed.
Lemma if_set_get (b : bool) k' v (d : dict) k : dget k (if b then dset k' v d else d) = if b && String.eqb k k' then Some v else dget k d.
Proof. destruct b; cbn [andb]; [apply dget_dset | reflexivity]. Qed.
Definition base_get host server ns rc auth k : option val :=
  match (match auth with Some v => if String.eqb k "tls_auth" then Some v else None | None => None end) with
  | Some v => Some v
  | None =>
    if String.eqb k "remote_cert_tls" then Some rc
    else if String.eqb k "ns_cert_type" then Some ns
    else if (negb ("tls_server" in? server) || negb (truthy (dgetN "tls_server" server))) && String.eqb k "tls_client" then Some (VBool false)
    else if (("server" in? server) || ("server_bridge" in? server)) && String.eqb k "pull" then Some (VBool true)
    else if String.eqb k "proto" then Some (VStr (if py_eq (dgetN "proto" server) (VStr "tcp-server") then "tcp-client" else "udp"))
    else if String.eqb k "remote" then Some (VList [VDict [("host", host); ("port", vor (dgetN "port" server) (VInt 1195))]])
    else dget k [("mode", VStr "p2p"); ("nobind", VBool true); ("resolv_retry", VStr "infinite"); ("tls_client", VBool true)]
  end.
Lemma client_get host server ns rc auth log k :
  dget k (client_dict host server ns rc auth log) =
  match (match log with Some v => if String.eqb k "log" then Some v else None | None => None end) with
  | Some v => Some v
  | None =>
    if ("script_security" in? server) && String.eqb k "script_security" then Some (VInt 2)
    else if existsb (String.eqb k) copy_keys
    then match dget k server with Some v => Some v | None => base_get host server ns rc auth k end
    else base_get host server ns rc auth k
  end.
Proof.
  unfold client_dict. rewrite set_opt_get. rewrite if_set_get, copy_get, set_opt_get, !dget_dset, !if_set_get, !dget_dset.
  unfold base_get. destruct log as [lv|]; [destruct (String.eqb k "log"); [reflexivity|]|];
    (destruct auth as [av|]; [destruct (String.eqb k "tls_auth")|]; reflexivity).
Qed.
(** The dict of the client after the files, and the files *)
Definition with_files (d : dict) (a b c e f g : val) : dict * list val :=
  client_file "key" f g (client_file "cert" c e (client_file "ca" a b (d, []))).
Lemma with_files_get d a b c e f g k : dget k (fst (with_files d a b c e f g)) =
  if truthy f && truthy g && String.eqb k "key" then Some f
  else if truthy c && truthy e && String.eqb k "cert" then Some c
  else if truthy a && truthy b && String.eqb k "ca" then Some a else dget k d.
Proof.
  unfold with_files. rewrite (client_file_pair "cert"). rewrite client_file_get.
  rewrite (client_file_pair "ca"). cbn [fst snd]. rewrite !if_set_get. reflexivity.
Qed.

(** ** Failures, and the shared key *)
Definition is_Ok {A} (r : res A) : Prop := exists a, r = Ok a.
Lemma auth_ok server : is_Ok (client_auth server) <-> truthy (dgetN "tls_auth" server) = false \/ exists s, dget "tls_auth" server = Some (VStr s).
Proof.
  unfold client_auth, is_Ok. split.
  - intros (o & H). destruct (truthy (dgetN "tls_auth" server)) eqn:E; cbn [negb] in H; [|auto]. right.
    apply bind_Ok in H as (s & Hs & _). destruct (dgetN "tls_auth" server) as [| | | |s'| |] eqn:Ev; try discriminate.
    exists s'. apply dgetN_some; [assumption | discriminate].
  - intros [-> | (s & Hs)]; [cbn; eauto|]. unfold dgetN. rewrite Hs. destruct (truthy (VStr s)); cbn; eauto.
Qed.
Lemma log_ok server : is_Ok (client_log server) <-> dget "log" server = None \/ exists s, dget "log" server = Some (VStr s).
Proof.
  unfold client_log, is_Ok. destruct (dget "log" server) as [v|].
  - split.
    + intros (o & H). apply bind_Ok in H as (s & Hs & _). destruct v; try discriminate. eauto.
    + intros [H | (s & [= ->])]; [discriminate | cbn; eauto].
  - split; eauto.
Qed.
Lemma filter_keep (p : string * val -> bool) k v : forall d, dget k d = Some v -> p (k, v) = true -> dget k (filter p d) = Some v.
Proof.
  induction d as [|(k', v') t IH]; [discriminate|]. cbn [dget filter]. destruct (String.eqb_spec k k') as [-> | Hk].
  - intros [= ->] ->. cbn [dget]. now rewrite String.eqb_refl.
  - intros H Hp. destruct (p (k', v')); cbn [dget]; [rewrite eqb_neq by assumption|]; auto.
Qed.
Lemma filter_nodup (p : string * val -> bool) : forall d, NoDup (dkeys d) -> NoDup (dkeys (filter p d)).
Proof.
  induction d as [|kv t IH]; [auto|]. intros H. inversion_clear H. cbn [filter]. destruct (p kv); [|auto].
  cbn. constructor; [|auto]. intros Hin. apply H0. unfold dkeys in *. apply in_map_iff in Hin as (x & <- & Hx). apply filter_In in Hx as (Hx & _). now apply in_map.
Qed.
Lemma drop_text k s c : dget k c = Some (VStr s) -> s <> EmptyString -> dget k (drop_values remove_all c) = Some (VStr s).
Proof.
  intros H Hs. unfold drop_values. apply filter_keep; [assumption|]. cbn [fst snd]. apply orb_true_iff. right.
  destruct s; [contradiction | reflexivity].
Qed.
Lemma inline_key c s m sec f : NoDup (dkeys c) -> dget "tls_auth" c = Some (VStr s) -> s <> EmptyString -> ~ path_and_direction s ->
  dget "mode" c = Some (VStr m) -> m <> EmptyString -> vpn_section remove_all c = Ok (sec, f) ->
  exists path, dget "tls_auth" sec = Some (VStr (path +++ " " +++ (if String.eqb m "server" then "0" else "1"))) /\
    f = Some [("path", VStr path); ("mode", VStr "0600"); ("contents", VStr (strip s))].
Proof.
  intros Hnd Ht Hs Hp Hm Hm' H. unfold vpn_section in H.
  set (c1 := if py_eq (dgetN "server_bridge" c) (VStr "") then dset "server_bridge" (VBool true) c else c) in H.
  assert (N1 : NoDup (dkeys c1)) by (unfold c1; destruct (py_eq _ _); nodup).
  assert (E1 : forall k, k <> "server_bridge" -> dget k c1 = dget k c) by (intros k Hk; unfold c1; destruct (py_eq _ _); [now rewrite dget_dset_other|reflexivity]).
  set (c2 := drop_values remove_all c1) in H.
  assert (N2 : NoDup (dkeys c2)) by (apply filter_nodup, N1).
  assert (T2 : dget "tls_auth" c2 = Some (VStr s)) by (apply drop_text; [rewrite E1 by discriminate|]; assumption).
  assert (M2 : dget "mode" c2 = Some (VStr m)) by (apply drop_text; [rewrite E1 by discriminate|]; assumption).
  clearbody c2. clear c1 N1 E1. apply bind_Ok in H as (c3 & H3 & H).
  assert (G3 : NoDup (dkeys c3) /\ dget "tls_auth" c3 = Some (VStr s) /\ dget "mode" c3 = Some (VStr m)).
  { destruct (dget "remote" c2) as [v|]; [|now injection H3 as <-]. apply bind_Ok in H3 as (l & _ & H3). apply bind_Ok in H3 as (ts & _ & H3). injection H3 as <-.
    rewrite !dget_dset_other by discriminate. repeat split; auto. nodup. }
  destruct G3 as (N3 & T3 & M3). set (c4 := if negb ("status" in? c3) then ddel "status_version" c3 else c3) in H.
  assert (G4 : NoDup (dkeys c4) /\ dget "tls_auth" c4 = Some (VStr s) /\ dget "mode" c4 = Some (VStr m)).
  { unfold c4. destruct (negb ("status" in? c3)); [|auto]. rewrite !dget_ddel by assumption. cbn. repeat split; auto. nodup. }
  destruct G4 as (N4 & T4 & M4). clearbody c4. apply bind_Ok in H as (c5 & H5 & H).
  assert (G5 : NoDup (dkeys c5) /\ dget "tls_auth" c5 = Some (VStr s) /\ dget "mode" c5 = Some (VStr m)).
  { unfold output_data_ciphers in H5. destruct (negb (truthy (dgetN "data_ciphers" c4))); [now injection H5 as <-|].
    apply bind_Ok in H5 as (l & _ & H5). apply bind_Ok in H5 as (ts & _ & H5). injection H5 as <-.
    rewrite !dget_dset_other by discriminate. repeat split; auto. nodup. }
  destruct G5 as (N5 & T5 & M5). apply bind_Ok in H as (cf & H6 & H). injection H as <- <-.
  unfold add_tls_auth in H6. replace (dgetN "tls_auth" c5) with (VStr s) in H6 by (unfold dgetN; now rewrite T5).
  rewrite truthy_str in H6 by assumption. cbn [negb as_str bind] in H6.
  destruct ((length (split_char " " (strip s)) =? 2)%nat) eqn:E2; [apply two_parts in E2; contradiction|].
  apply bind_Ok in H6 as (ca & _ & H6). injection H6 as <-. cbn [fst snd].
  replace (dgetN "mode" c5) with (VStr m) by (unfold dgetN; now rewrite M5).
  eexists. split; [|reflexivity]. rewrite dget_ssort by nodup. rewrite dget_dset_same. reflexivity.
Qed.
Lemma client_dict_nodup host server ns rc auth log : NoDup (dkeys (client_dict host server ns rc auth log)).
Proof.
  assert (C : forall keys c, NoDup (dkeys c) -> NoDup (dkeys (fold_left (fun c k => match dget k server with Some v => dset k v c | None => c end) keys c))).
  { induction keys as [|k t IH]; intros c Hc; [assumption|]. cbn [fold_left]. apply IH. destruct (dget k server); [nodup | assumption]. }
  assert (S : forall k o d, NoDup (dkeys d) -> NoDup (dkeys (set_opt k o d))) by (intros k [v|] d Hd; cbn; [nodup | assumption]).
  assert (I : forall (b : bool) k v (d : dict), NoDup (dkeys d) -> NoDup (dkeys (if b then dset k v d else d))) by (intros [|] k v d Hd; [nodup | assumption]).
  unfold client_dict. apply S, I, C, S. do 2 apply NoDup_dset. apply I, I. do 2 apply NoDup_dset.
  repeat (constructor; [cbn; intuition discriminate|]). constructor.
Qed.
Lemma with_files_nodup d a b c e f g : NoDup (dkeys d) -> NoDup (dkeys (fst (with_files d a b c e f g))).
Proof.
  intros H. unfold with_files, client_file. destruct (truthy a && truthy b), (truthy c && truthy e), (truthy f && truthy g); cbn [fst]; nodup.
Qed.

(** ** ZeroTier *)
Lemma fold_append : forall l s, fold_left String.append l s = s +++ fold_right String.append EmptyString l.
Proof. induction l as [|x t IH]; intros s; cbn; [now rewrite app_nil_s|]. rewrite IH. now rewrite app_assoc_s. Qed.
Lemma zt_fold_spec path : forall l c r, zt_fold_files path l c = Ok r ->
  exists kept same, fst r = kept /\ snd r = c +++ fold_right (fun s acc => NL +++ s +++ acc) EmptyString same /\
  kept = filter (fun v => match v with VDict f => negb (py_eq (dgetN "path" f) path) | _ => true end) l /\
  map (fun s => Some (VStr s)) same = map (fun v => match v with VDict f => dget "contents" f | _ => None end)
    (filter (fun v => match v with VDict f => py_eq (dgetN "path" f) path | _ => false end) l).
Proof.
  induction l as [|v t IH]; intros c r H; cbn [zt_fold_files] in H.
  - injection H as <-. exists [], []. cbn. rewrite app_nil_s. auto.
  - apply bind_Ok in H as (f & Hf & H). destruct v; try discriminate. injection Hf as ->. cbn [filter]. destruct (py_eq (dgetN "path" f) path); cbn [negb].
    + apply bind_Ok in H as (cv & Hc & H). apply bind_Ok in H as (s & Hs & H). destruct cv; try discriminate. injection Hs as ->.
      apply IH in H as (kept & same & H1 & H2 & H3 & H4). exists kept, (s :: same). cbn [fold_right map]. repeat split; auto.
      * rewrite H2. now rewrite !app_assoc_s.
      * rewrite H4. f_equal. unfold dgetE in Hc. destruct (dget "contents" f); congruence.
    + apply bind_Ok in H as (r' & H & Hr). injection Hr as <-. apply IH in H as (kept & same & H1 & H2 & H3 & H4).
      exists (VDict f :: kept), same. cbn [fst snd]. repeat split; auto; congruence.
Qed.
