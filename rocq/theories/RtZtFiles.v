(** * RtZtFiles: the files of an OpenWrt template with ZeroTier VPNs after
    rendering (proofs only). *)
From Verif Require Import PyBase PyLemmas StrLemmas Merge MergeFinal Files FilesProofs Backend Conv Timezones OwrtConv OpenVpnConv OwrtWireless OwrtInterfaces OpenWrt
  SpecConv SpecDevice SpecShapes SpecClient SpecTrip SpecZeroTier ClientProofs ConvLemmas RtStage RtGeneric RtDefault RtObjects RtZeroTier.

Definition good (f : dict) : Prop := (exists p, dget "path" f = Some (VStr p)) /\ (exists c, dget "contents" f = Some (VStr c)).
Definition at_p (p : string) (fs : list dict) : list dict := filter (fun f => String.eqb (name_or "path" EmptyString f) p) fs.
Definition map_file (p c : string) : dict := [("path", VStr p); ("mode", VStr "0644"); ("contents", VStr c)].
Definition conts (fs : list dict) : list string := map (name_or "contents" EmptyString) fs.
Definition zt_step (fs : list dict) (v : dict) : list dict :=
  filter (fun f => negb (String.eqb (name_or "path" EmptyString f) (map_path v))) fs ++
  [map_file (map_path v) (join NL (device_map v :: conts (at_p (map_path v) fs)))].
Definition path_text (v : dict) : Prop := optional "config_path" v (fun x => exists s, x = VStr s).

Lemma join_cons sep x l : join sep (x :: l) = x +++ fold_right (fun s acc => sep +++ s +++ acc) EmptyString l.
Proof.
  revert x. induction l as [|y l IH]; intros x; [cbn; now rewrite app_nil_s|]. change (join sep (x :: y :: l)) with (x +++ sep +++ join sep (y :: l)). rewrite IH. reflexivity.
Qed.
Lemma join_nest sep : forall a b c, join sep (a ++ [join sep (b :: c)]) = join sep (a ++ b :: c).
Proof.
  induction a as [|x a IH]; intros b c; [reflexivity|]. cbn [app]. destruct a as [|y a].
  - reflexivity.
  - change ((y :: a) ++ [join sep (b :: c)])%list with (y :: (a ++ [join sep (b :: c)]))%list.
    change ((y :: a) ++ b :: c)%list with (y :: (a ++ b :: c))%list.
    change (join sep (x :: y :: a ++ [join sep (b :: c)])) with (x +++ sep +++ join sep ((y :: a) ++ [join sep (b :: c)])).
    change (join sep (x :: y :: a ++ b :: c)) with (x +++ sep +++ join sep ((y :: a) ++ b :: c)). rewrite IH. reflexivity.
Qed.
Lemma good_map p c : good (map_file p c).
Proof. split; eexists; reflexivity. Qed.
Lemma map_file_path p c : name_or "path" EmptyString (map_file p c) = p. Proof. reflexivity. Qed.
Lemma map_file_conts p c : name_or "contents" EmptyString (map_file p c) = c. Proof. reflexivity. Qed.
Lemma step_good fs v : Forall good fs -> Forall good (zt_step fs v).
Proof.
  intros H. apply Forall_app. split; [|constructor; [apply good_map|constructor]]. rewrite Forall_forall in *. intros x Hx. apply filter_In in Hx. apply H, Hx.
Qed.
Lemma fold_files_eq p : forall fs c, Forall good fs ->
  zt_fold_files (VStr p) (map VDict fs) c = Ok (map VDict (filter (fun f => negb (String.eqb (name_or "path" EmptyString f) p)) fs), join NL (c :: conts (at_p p fs))).
Proof.
  induction fs as [|f fs IH]; intros c H; [reflexivity|]. inversion H as [|? ? ((q & Hq) & k & Hk) H']; subst. cbn [map zt_fold_files as_dict bind].
  assert (Eq : name_or "path" EmptyString f = q) by (unfold name_or; rewrite Hq; reflexivity). assert (Ek : name_or "contents" EmptyString f = k) by (unfold name_or; rewrite Hk; reflexivity).
  unfold dgetN at 1. rewrite Hq. unfold at_p. cbn [filter]. rewrite !Eq. change (py_eq (VStr q) (VStr p)) with (String.eqb q p). fold (at_p p fs).
  destruct (String.eqb q p) eqn:E.
  - unfold dgetE. rewrite Hk. cbn [bind as_str negb]. rewrite IH by exact H'. f_equal. f_equal. cbn [conts map]. rewrite Ek. fold (conts (at_p p fs)).
    rewrite !join_cons. cbn [fold_right]. rewrite !app_assoc_s. reflexivity.
  - rewrite IH by exact H'. reflexivity.
Qed.
Lemma files_eq v fs : zt_vpn_ok v -> path_text v -> Forall good fs -> zt_files v (VList (map VDict fs)) = Ok (map VDict (zt_step fs v)).
Proof.
  intros (_ & _ & (l & Hl & _ & Hnets) & _) Hp Hg. unfold zt_files.
  assert (Ep : pop_or "networks" (VList []) v = VList (map VDict l)) by (unfold pop_or; rewrite Hl; reflexivity). rewrite Ep. cbn [as_list bind].
  assert (El : zt_networks v = l) by (unfold zt_networks; apply objects_list, Hl).
  set (line := fun n => network_id n +++ "=" +++ name_or "ifname" EmptyString n +++ NL).
  assert (E : mapM zt_line (map VDict l) = Ok (map line l)).
  { clear - Hnets. induction l as [|n l IH]; [reflexivity|]. cbn [map mapM zt_line as_dict bind]. rewrite IH by (intros x Hx; apply Hnets; right; exact Hx).
    destruct (Hnets n (or_introl eq_refl)) as (_ & (i & Hi & _) & (f & Hf & _) & _). unfold line, pop_or, dgetN, network_id, name_or. rewrite Hi, Hf. reflexivity. }
  rewrite E. cbn [bind]. rewrite fold_append. fold (concat_all (map line l)).
  assert (Epath : py_str (pop_or "config_path" zt_default_path v) +++ "/devicemap" = map_path v).
  { unfold map_path, pop_or, name_or, path_text, optional in *. destruct (dget "config_path" v) as [x|]; [destruct Hp as (s & ->); reflexivity|reflexivity]. }
  rewrite Epath. assert (Em : ("# network_id=interface_name" +++ NL) +++ concat_all (map line l) = device_map v) by (unfold device_map; rewrite El, app_assoc_s; reflexivity). rewrite Em.
  unfold zt_step. destruct fs as [|f fs]; [reflexivity|]. change (truthy (VList (map VDict (f :: fs)))) with true. cbn [negb as_list bind].
  rewrite fold_files_eq by exact Hg. cbn [bind fst snd]. rewrite map_app. reflexivity.
Qed.
Lemma loop_files : forall l config acc fs, (forall v, In v l -> zt_vpn_ok v /\ path_text v) -> pop_or "files" (VList []) config = VList (map VDict fs) -> Forall good fs -> l <> [] ->
  forall config' r, zt_loop (map VDict l) config acc = (config', Ok r) -> dget "files" config' = Some (VList (map VDict (fold_left zt_step l fs))).
Proof.
  induction l as [|v l IH]; intros config acc fs Hl Hf Hg Hne config' r; [congruence|]. cbn [map zt_loop as_dict]. rewrite Hf.
  destruct (Hl v (or_introl eq_refl)) as [Hv Hp]. rewrite (files_eq v fs Hv Hp Hg).
  destruct (zt_block v (VList (map VDict fs))) as [[ss fs']|e]; [|intros E; congruence]. cbn [fold_left]. destruct l as [|w l].
  - cbn [map zt_loop]. intros [= <- _]. cbn [fold_left]. rewrite dget_dset, eqb_refl. reflexivity.
  - intros E. eapply IH; [| | | |exact E]; [intros x Hx; apply Hl; right; exact Hx| |apply step_good, Hg|discriminate].
    unfold pop_or. rewrite dget_dset, eqb_refl. reflexivity.
Qed.

(** ** What is at a path *)
Lemma at_step_same v fs : at_p (map_path v) (zt_step fs v) = [map_file (map_path v) (join NL (device_map v :: conts (at_p (map_path v) fs)))].
Proof.
  unfold at_p at 1, zt_step. rewrite filter_app.
  assert (E : filter (fun f => String.eqb (name_or "path" EmptyString f) (map_path v)) (filter (fun f => negb (String.eqb (name_or "path" EmptyString f) (map_path v))) fs) = []).
  { induction fs as [|f fs IH]; [reflexivity|]. cbn [filter]. destruct (String.eqb (name_or "path" EmptyString f) (map_path v)) eqn:E; cbn [negb]; [exact IH|]. cbn [filter]. rewrite E. exact IH. }
  rewrite E. cbn [app filter]. rewrite map_file_path, eqb_refl. reflexivity.
Qed.
Lemma at_step_other v p fs : map_path v <> p -> at_p p (zt_step fs v) = at_p p fs.
Proof.
  intros H. unfold at_p, zt_step. rewrite filter_app. cbn [filter]. rewrite map_file_path. apply String.eqb_neq in H. rewrite H, app_nil_r.
  induction fs as [|f fs IH]; [reflexivity|]. cbn [filter]. destruct (String.eqb_spec (name_or "path" EmptyString f) (map_path v)) as [E|E]; cbn [negb filter]; rewrite IH; [|reflexivity].
  rewrite E, H. reflexivity.
Qed.
Definition maps_of (p : string) (l : list dict) : list string := map device_map (filter (fun v => String.eqb (map_path v) p) l).
Lemma at_all p : forall l fs, at_p p (fold_left zt_step l fs) =
  match maps_of p l with [] => at_p p fs | ms => [map_file p (join NL (rev ms ++ conts (at_p p fs)))] end.
Proof.
  induction l as [|v l IH]; intros fs; [reflexivity|]. cbn [fold_left]. rewrite IH. unfold maps_of. cbn [filter].
  destruct (String.eqb_spec (map_path v) p) as [E|E].
  - subst p. rewrite at_step_same. cbn [map]. fold (maps_of (map_path v) l). destruct (maps_of (map_path v) l) as [|m ms]; [reflexivity|].
    cbn [conts map]. rewrite map_file_conts.
    fold (conts (at_p (map_path v) fs)). rewrite join_nest. f_equal. f_equal. cbn [rev]. rewrite <- !app_assoc. reflexivity.
  - fold (maps_of p l). rewrite at_step_other by exact E. reflexivity.
Qed.

(** ** Deduplication *)
Lemma fold_good l : forall fs, Forall good fs -> Forall good (fold_left zt_step l fs).
Proof. induction l as [|v l IH]; intros fs H; [exact H|]. cbn [fold_left]. apply IH, step_good, H. Qed.
Definition path_of (v : val) (p : string) : Prop := exists d, v = VDict d /\ name_or "path" EmptyString d = p.
Lemma dedup_at : forall fs acc m, Forall good fs -> dedup_from (map VDict fs) acc = Ok m -> NoDup (dkeys acc) -> (forall p v, In (p, v) acc -> path_of v p) ->
  NoDup (dkeys m) /\ (forall p v, In (p, v) m -> path_of v p) /\
  forall p, dget p m = match rev (at_p p fs) with f :: _ => Some (VDict f) | [] => dget p acc end.
Proof.
  induction fs as [|f fs IH]; intros acc m Hg E Hn Ha; [injection E as <-; auto|].
  inversion Hg as [|? ? ((q & Hq) & _) Hg']; subst. cbn [map dedup_from as_dict bind] in E. unfold dgetE in E. rewrite Hq in E. cbn [bind as_str] in E.
  assert (Hf : name_or "path" EmptyString f = q) by (unfold name_or; rewrite Hq; reflexivity).
  destruct (IH (dset q (VDict f) acc) m Hg' E) as (N & A & G).
  - nodup.
  - intros p v Hin. assert (Hnd : NoDup (dkeys (dset q (VDict f) acc))) by nodup. apply In_dget in Hin; [|exact Hnd]. rewrite dget_dset in Hin. destruct (String.eqb_spec p q) as [->|Hpq].
    + injection Hin as <-. exists f. auto.
    + apply Ha. apply dget_In, Hin.
  - split; [exact N|]. split; [exact A|]. intros p. rewrite G. unfold at_p. cbn [filter]. rewrite Hf. destruct (String.eqb_spec q p) as [->|Hqp].
    + cbn [rev]. destruct (rev (filter _ fs)) as [|x t]; [|reflexivity]. cbn [app]. rewrite dget_dset, eqb_refl. reflexivity.
    + destruct (rev (filter _ fs)); [|reflexivity]. rewrite dget_dset. apply not_eq_sym in Hqp. apply String.eqb_neq in Hqp. rewrite Hqp. reflexivity.
Qed.
Lemma filter_keyed : forall (m : list (string * val)) p, NoDup (dkeys m) -> (forall q v, In (q, v) m -> path_of v q) ->
  at_p p (flat_map (fun v => match v with VDict d => [d] | _ => [] end) (map snd m)) = match dget p m with Some (VDict d) => [d] | _ => [] end.
Proof.
  induction m as [|[q v] m IH]; intros p Hn H; [reflexivity|]. destruct (H q v (or_introl eq_refl)) as (d & -> & Hd). inversion Hn as [|? ? Hni Hn']; subst.
  cbn [map snd flat_map app dget at_p filter]. change (filter _ (flat_map ?g ?l)) with (at_p p (flat_map g l)).
  rewrite IH by (auto; intros q v Hin; apply H; right; exact Hin). rewrite (String.eqb_sym p). destruct (String.eqb_spec (name_or "path" EmptyString d) p) as [<-|Hq]; [|reflexivity].
  assert (E : dget (name_or "path" EmptyString d) m = None) by (apply dget_None; exact Hni). rewrite E. reflexivity.
Qed.
Lemma dedup_files fs config config' : Forall good fs -> fs <> [] -> dget "files" config = Some (VList (map VDict fs)) -> deduplicate_files config = Ok config' ->
  forall p, files_at p config' = match rev (at_p p fs) with f :: _ => [f] | [] => [] end.
Proof.
  intros Hg Hne E. unfold deduplicate_files. rewrite E. cbn [as_list bind]. destruct fs as [|f fs]; [congruence|]. cbn [map]. change (VDict f :: map VDict fs) with (map VDict (f :: fs)).
  intros H. apply bind_Ok in H as (m & Hm & H). injection H as <-. destruct (dedup_at (f :: fs) [] m Hg Hm) as (N & A & G); [constructor|intros p v []|].
  intros p. unfold files_at, objects. rewrite dget_dset, eqb_refl. fold (at_p p (flat_map (fun v => match v with VDict d => [d] | _ => [] end) (map snd m))).
  rewrite filter_keyed by assumption. rewrite G. destruct (rev (at_p p (f :: fs))); reflexivity.
Qed.

(** ** All together *)
Section Api.
  Variable oid : oracle.
  Variable schema_ok : dict -> res unit.
  Variable dsa f1 f2 : bool.
  Variable config : dict.
  Hypothesis tpl : zt_template config.
  Hypothesis paths : forall v, In v (objects "zerotier" config) -> path_text v.
  Let B := openwrt oid schema_ok dsa f1 f2.
  Lemma zt_template_files with_files s text : render oid B with_files (fresh config) = (s, Ok text) ->
    forall p, files_at p (st_config s) = files_after p config.
  Proof.
    intros R. destruct tpl as (Hn & (l & Hl & Hne & Hvs) & Hfiles & Hty & Hkeys).
    assert (Hno : forall k, ~ In k ["type"; "files"; "zerotier"] -> dmem k config = false).
    { intros k Hk. destruct (dmem k config) eqn:E; [|reflexivity]. exfalso. apply Hk, Hkeys, E. }
    rewrite (objects_list _ _ _ Hl) in paths.
    assert (F : exists fs, pop_or "files" (VList []) config = VList (map VDict fs) /\ Forall good fs /\ objects "files" config = fs).
    { unfold pop_or, optional in *. destruct (dget "files" config) as [x|] eqn:Ef.
      - destruct Hfiles as (fs & -> & Hfs). exists fs. split; [reflexivity|]. split; [apply Forall_forall; exact Hfs|apply objects_list, Ef].
      - exists []. split; [reflexivity|]. split; [constructor|]. unfold objects. rewrite Ef. reflexivity. }
    destruct F as (fs & Ef & Hg & Eobj).
    assert (Fg : files_good config).
    { exists (map VDict fs). split; [exact Ef|]. apply Forall_forall. intros y Hy. apply in_map_iff in Hy as (f & <- & Hf). rewrite Forall_forall in Hg. destruct (Hg f Hf) as ((p & Hp) & c & Hc). exists f, p, c. auto. }
    destruct (loop_ok l config [] Hvs Fg Hn Hne) as (config1 & sss & El & Fs & Fg1 & Hn1 & Hget). cbn [app] in El.
    assert (Hf1 : dget "files" config1 = Some (VList (map VDict (fold_left zt_step l fs)))).
    { eapply loop_files; [|exact Ef|exact Hg|exact Hne|exact El]. intros v Hv. split; [apply Hvs, Hv|apply paths, Hv]. }
    assert (Hk1 : forall k, dmem k config1 = true -> In k ["type"; "files"; "zerotier"]).
    { intros k Hk. destruct (String.eqb_spec k "files") as [->|Hk']; [cbn; tauto|]. apply Hkeys. unfold dmem in *. rewrite Hget in Hk by exact Hk'. exact Hk. }
    assert (Hty1 : optional "type" config1 (fun x => exists t, x = VStr t)) by (unfold optional in *; rewrite Hget by discriminate; exact Hty).
    destruct (packages_fwd owrt_keys eq_refl config1 [] (packages_none config1 Hk1 Hn1 Hty1)) as (config2 & Hp & _ & Hg2).
    assert (Hsecs : concat sss <> []) by (destruct Fs as [|v ss l sss (s0 & ns & -> & _) Fs]; [congruence|discriminate]).
    set (inter := [("zerotier", VList (map VDict (concat sss)))]).
    assert (Eacc : acc_of "zerotier" (concat sss) = inter) by (unfold acc_of, inter; destruct (concat sss); [congruence|reflexivity]).
    assert (Hfwd : convert_fwd oid (be_convs B) (fresh config) [] = ({| st_config := config2; st_inter := Some inter |}, Ok tt)).
    { unfold B. cbn [be_convs openwrt]. rewrite convs_split, fwd_skip.
      2:{ cbn [fresh st_config]. intros c Hc. cbn [In] in Hc.
          repeat (destruct Hc as [<-|Hc]; [first [apply (Hno "general")|apply (Hno "ntp")|apply (Hno "led")|apply (Hno "interfaces")|apply (Hno "routes")|apply (Hno "ip_rules")|apply (Hno "switch")|apply (Hno "radios")|apply (Hno "openvpn")|apply (Hno "wireguard_peers")]; cbn [In]; intuition discriminate|]). destruct Hc. }
      cbn [convert_fwd fresh st_config c_fwd_run owrt_zerotier c_fwd]. unfold dmem at 1. rewrite Hl. cbn [negb]. unfold zt_fwd, dgetN. rewrite Hl. cbn [as_list].
      change (@nil (string * val)) with (acc_of "zerotier" []) at 1. rewrite El, Eacc. unfold inter at 1. cbn iota. fold inter.
      rewrite merge_fresh_all; [|constructor; [intros []|constructor]|reflexivity]. cbn [app].
      cbn [convert_fwd st_config c_fwd_run default negb c_fwd]. unfold default_fwd. rewrite Hp. reflexivity. }
    unfold render in R. cbn [fresh st_config st_inter] in R. destruct (be_validate B config) eqn:V; [|discriminate].
    unfold to_intermediate in R. cbn [fresh st_config] in R. rewrite V, Hfwd in R. cbn [st_config st_inter] in R.
    destruct (deduplicate_files config2) as [config3|e] eqn:Ed; [|discriminate]. injection R as <- _. cbn [st_config].
    assert (Hf2 : dget "files" config2 = Some (VList (map VDict (fold_left zt_step l fs)))) by (rewrite Hg2 by reflexivity; exact Hf1).
    intros p. rewrite (dedup_files _ _ _ (fold_good l fs Hg)) with (2 := Hf2) (3 := Ed).
    2:{ intros E. assert (A : forall l0 fs0, l0 <> [] -> fold_left zt_step l0 fs0 <> []).
        { clear. induction l0 as [|v l0 IH]; intros fs0 Hne; [congruence|]. cbn [fold_left]. destruct l0 as [|w l0]; [|apply IH; discriminate].
          cbn [fold_left]. unfold zt_step. intros E. apply app_eq_nil in E as [_ E]. discriminate. }
        exact (A l fs Hne E). }
    rewrite at_all. unfold files_after, maps_at, files_at. rewrite (objects_list _ _ _ Hl), Eobj. fold (maps_of p l) (at_p p fs).
    destruct (maps_of p l); [reflexivity|]. reflexivity.
  Qed.
End Api.
