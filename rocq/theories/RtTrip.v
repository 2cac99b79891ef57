(** * RtTrip: the round trip of a whole configuration, for any list of stages
    followed by the converter of unknown packages (proofs only). *)
From Verif Require Import PyBase PyLemmas Merge SpecMerge MergeProofs Uci Backend Conv OwrtConv SpecUci SpecConv SpecDevice
  ConvLemmas SortLemmas UciRoundTrip RtStage RtBack RtGeneric RtSystem RtDefault.

Lemma data_reads_get d d' k : data_reads d d' ->
  match dget k d with
  | None => dget k d' = None
  | Some v => exists bs bs', v = VList (map VDict bs) /\ dget k d' = Some (VList (map VDict bs')) /\ Forall2 section_reads bs bs'
  end.
Proof.
  intros H. unfold data_reads in H. induction H as [|[p v] [p' v'] d d' (Ep & bs & bs' & E1 & E2 & F) H IH]; [reflexivity|].
  cbn [fst snd] in *. subst p' v v'. cbn [dget]. destruct (String.eqb k p); [exists bs, bs'; auto|exact IH].
Qed.
Lemma data_reads_keys d d' : data_reads d d' -> dkeys d' = dkeys d.
Proof.
  intros H. unfold data_reads in H. induction H as [|p p' d d' (Ep & _) H IH]; [reflexivity|]. unfold dkeys in *. cbn. congruence.
Qed.
Lemma dget_app (V : Type) k (a b : list (string * V)) : dget k (a ++ b)%list = match dget k a with Some v => Some v | None => dget k b end.
Proof. induction a as [|[k0 v] a IH]; [reflexivity|]. cbn. destruct (String.eqb k k0); [reflexivity|exact IH]. Qed.
Lemma dkeys_app (V : Type) (a b : list (string * V)) : dkeys (a ++ b)%list = (dkeys a ++ dkeys b)%list.
Proof. apply map_app. Qed.
Lemma NoDup_app_intro (A : Type) (a b : list A) : NoDup a -> NoDup b -> (forall x, In x a -> ~ In x b) -> NoDup (a ++ b).
Proof.
  induction a as [|x a IH]; intros Ha Hb H; [exact Hb|]. inversion Ha; subst. cbn. constructor.
  - rewrite in_app_iff. intros [Hx|Hx]; [contradiction|]. apply (H x); [left; reflexivity|exact Hx].
  - apply IH; auto. intros y Hy. apply H. right; exact Hy.
Qed.
Lemma dget_none_keys (V : Type) k (d : list (string * V)) : dget k d = None <-> ~ In k (dkeys d).
Proof.
  induction d as [|[k0 v] d IH]; cbn; [tauto|]. destruct (String.eqb_spec k k0) as [->|Hn].
  - split; [discriminate|]. intros H. exfalso. apply H. left; reflexivity.
  - rewrite IH. split; [intros H [E|E]; [congruence|auto]|intros H E; apply H; right; exact E].
Qed.
Lemma packages_keys known config ps : packages known config ps -> forall k, In k (map fst ps) <-> In k (dkeys config) /\ is_custom known k = true.
Proof.
  intros H. induction H as [|k v t ps Hk Hv H IH|k v t ps ss Hk He H IH]; intros k0; cbn; [tauto| |].
  - rewrite IH. split; [tauto|]. intros [[E|E] Hc]; [congruence|tauto].
  - rewrite IH. split; [intros [E|E]; [subst; tauto|tauto]|]. intros [[E|E] Hc]; tauto.
Qed.
Lemma packages_nodup known config ps : packages known config ps -> NoDup (dkeys config) -> NoDup (map fst ps).
Proof.
  intros H. induction H as [|k v t ps Hk Hv H IH|k v t ps ss Hk He H IH]; intros Hn; [constructor| |]; cbn in Hn; inversion Hn; subst; auto.
  cbn. constructor; [|auto]. intros Hin. apply (packages_keys _ _ _ H) in Hin as [Hin _]. contradiction.
Qed.
Lemma packages_get known config ps : packages known config ps -> NoDup (dkeys config) -> forall k ss, In (k, ss) ps ->
  exists l, dget k config = Some (VList (map VDict l)) /\ l <> [] /\ custom_list l ss.
Proof.
  intros H. induction H as [|k v t ps Hk Hv H IH|k v t ps ss Hk (l & -> & Hne & Hl) H IH]; intros Hn k0 ss0 Hin; [destruct Hin| |];
    cbn in Hn; inversion Hn as [|? ? Hni Hn']; subst.
  - destruct (IH Hn' k0 ss0 Hin) as (l & Hl). exists l. cbn. destruct (String.eqb_spec k0 k) as [->|]; [|exact Hl].
    exfalso. apply Hni. destruct Hl as (Hl & _). apply dget_In in Hl. apply (in_map fst) in Hl. exact Hl.
  - destruct Hin as [E|Hin].
    + injection E as <- <-. exists l. cbn. rewrite eqb_refl. auto.
    + destruct (IH Hn' k0 ss0 Hin) as (l0 & Hl0). exists l0. cbn. destruct (String.eqb_spec k0 k) as [->|]; [|exact Hl0].
      exfalso. apply Hni. destruct Hl0 as (Hl0 & _). apply dget_In in Hl0. apply (in_map fst) in Hl0. exact Hl0.
Qed.
Lemma as_data_get ps k : NoDup (map fst ps) -> forall ss, dget k (as_data ps) = Some ss <-> exists s, ss = VList (map VDict s) /\ In (k, s) ps.
Proof.
  induction ps as [|[k0 s0] ps IH]; intros Hn ss; cbn; [split; [discriminate|intros (s & _ & [])]|].
  cbn in Hn. inversion Hn as [|? ? Hni Hn']; subst. destruct (String.eqb_spec k k0) as [->|Hk].
  - split; [intros E; injection E as <-; eauto|]. intros (s & -> & [E|E]); [congruence|].
    exfalso. apply Hni. apply (in_map fst) in E. exact E.
  - rewrite IH by assumption. split; intros (s & E & Hs); exists s; [auto|]. split; [exact E|]. destruct Hs as [Hs|Hs]; [congruence|exact Hs].
Qed.
Lemma dkeys_as_data ps : dkeys (as_data ps) = map fst ps.
Proof. unfold dkeys, as_data. rewrite map_map. reflexivity. Qed.
Lemma convert_fwd_state oid : forall b s s' inter, st_config s = st_config s' -> convert_fwd oid b s inter = convert_fwd oid b s' inter.
Proof.
  induction b as [|c b IH]; intros s s' inter E; cbn [convert_fwd]; rewrite E; [reflexivity|].
  destruct (negb (c_fwd_run c (st_config s'))); [apply IH, E|reflexivity].
Qed.
Lemma convert_fwd_app oid : forall a b s inter,
  convert_fwd oid (a ++ b) s inter =
  match convert_fwd oid a s inter with
  | (s', Ok _) => match st_inter s' with Some i => convert_fwd oid b s' i | None => (s', Ok tt) end
  | r => r
  end.
Proof.
  induction a as [|x a IH]; intros b s inter.
  - cbn [app convert_fwd st_inter]. apply convert_fwd_state. reflexivity.
  - cbn [app convert_fwd]. destruct (negb (c_fwd_run x (st_config s))); [apply IH|].
    destruct (c_fwd x (st_config s) inter) as [c' [[|kv r]|e]]; [apply IH| |reflexivity].
    destruct (merge_config oid [".name"] inter (kv :: r)); [apply IH|reflexivity].
Qed.
Lemma section_ok_typed s : section_ok s -> typed s.
Proof. intros (_ & (t & n & H1 & _ & H2 & _) & _). exists t, n. auto. Qed.

Lemma default_bwd_incl : forall i r, default_bwd i = Ok r -> incl (dkeys r) (dkeys i).
Proof.
  induction i as [|[k v] i IH]; intros r H x Hx; cbn in H; [injection H as <-; exact Hx|].
  destruct (truthy v); [|right; eapply IH; eassumption].
  apply bind_Ok in H as (l & _ & H). apply bind_Ok in H as (b & _ & H). apply bind_Ok in H as (r' & Hr' & H). injection H as <-.
  destruct Hx as [Hx|Hx]; [left; exact Hx|right; eapply IH; eassumption].
Qed.
Lemma default_bwd_empty k : forall i r, default_bwd i = Ok r -> NoDup (dkeys i) -> dget k i = Some (VList []) -> ~ In k (dkeys r).
Proof.
  induction i as [|[k1 v1] i IH]; intros r Hr Hn Hg Hin; [discriminate|].
  cbn in Hn. inversion Hn as [|? ? Hni Hn']; subst. cbn in Hg. destruct (String.eqb_spec k k1) as [Ek|Hk].
  - subst k1. injection Hg as ->. cbn [default_bwd truthy] in Hr. apply Hni. eapply default_bwd_incl; eassumption.
  - cbn [default_bwd] in Hr. destruct (truthy v1); [|eapply IH; eassumption].
    apply bind_Ok in Hr as (l & _ & H). apply bind_Ok in H as (b & _ & H). apply bind_Ok in H as (r' & Hr' & H). injection H as <-.
    cbn in Hin. destruct Hin as [Hin|Hin]; [congruence|]. eapply IH; eassumption.
Qed.

(** What the parser gives for good data *)
Definition parsed_data (orig : dict) : Prop := forall p v, dget p orig = Some v ->
  exists ss ss', v = VList (map VDict ss') /\ Forall2 section_reads ss ss' /\ forall s, In s ss -> section_ok s.
Lemma parsed_data_reads d d' : data_ok d -> data_reads d d' -> parsed_data d'.
Proof.
  intros [Hn Hd] Hr p v Hv. pose proof (data_reads_get _ _ p Hr) as H. destruct (dget p d) as [w|] eqn:E; [|congruence].
  destruct H as (bs & bs' & -> & H & F). rewrite Hv in H. injection H as ->.
  destruct (Hd _ (dget_In _ _ _ E)) as (_ & bs0 & E0 & Hok). cbn in E0. injection E0 as E0.
  exists bs, bs'. split; [reflexivity|]. split; [exact F|]. assert (bs = bs0) as ->; [|exact Hok].
  clear -E0. revert bs0 E0. induction bs as [|x bs IH]; intros [|y b0] E; try discriminate; [reflexivity|].
  cbn in E. injection E as <- E. f_equal. apply IH, E.
Qed.

Section Trip.
  Variable oid : oracle.
  Variable B : backend.
  Variable gs : list stage.
  Variable known : list string.
  Variable config : dict.
  Variable ps : list (string * list dict).
  Hypothesis convs : be_convs B = (map sg_conv gs ++ [default known])%list.
  Hypothesis cfg : NoDup (dkeys config).
  Hypothesis typ : ignored known "type" = false.
  Hypothesis pks : packages known config ps.
  Hypothesis pkname : forall p, In p (map fst ps) -> package_name p /\ ~ In p (map sg_pkg gs).
  Hypothesis gname : forall g, In g gs -> package_name (sg_pkg g).
  Hypothesis gchain : chained gs (fun _ => None).
  Hypothesis gknown : forall g, In g gs -> is_custom known (sg_key g) = false.
  Hypothesis gval : forall g, In g gs -> finally gs (fun _ => None) (sg_key g) = dget (sg_key g) config.
  Hypothesis gfwd : forall a g b, gs = (a ++ g :: b)%list -> stage_fwd config a g.
  Hypothesis gbwd : forall orig g, parsed_data orig -> (forall p, In p (map sg_pkg gs) -> reads_secs gs orig p) -> In g gs -> stage_bwd oid B orig g.
  Hypothesis gne : forall g, In g gs -> sg_secs g = [] -> sg_val g = sg_base g /\ sg_more g = [].
  Hypothesis gmore : forall g k, In g gs -> dmem k (sg_more g) = true -> is_custom known k = false /\ ~ In k (map sg_key gs).
  Hypothesis gspares : forall a g b h, gs = (a ++ g :: b)%list -> In h b -> spares g h.
  Hypothesis gnames : distinct_names gs.
  Hypothesis gok : forall g s, In g gs -> In s (sg_secs g) -> section_ok s.

  Lemma trip : exists config1 inter text inter' config' left,
    convert_fwd oid (be_convs B) (fresh config) [] = ({| st_config := config1; st_inter := Some inter |}, Ok tt) /\
    (forall k, is_custom known k = false -> dget k config1 = dget k config) /\
    (forall p, In p (map sg_pkg gs) -> dget p inter = match secs_of p gs with [] => None | ss => Some (VList (map VDict ss)) end) /\
    (forall k ss, In (k, ss) ps -> dget k inter = Some (VList (map VDict ss))) /\
    render_uci inter = Ok text /\ parse_text text = Ok inter' /\
    convert_bwd oid B (be_convs B) inter' [] inter' = ((config', left), Ok tt) /\
    NoDup (dkeys config') /\
    forall k, if existsb (String.eqb k) (map sg_key gs) || is_custom known k
              then match dget k config with
                   | Some v => exists v', dget k config' = Some v' /\ same v v'
                   | None => dget k config' = None
                   end
              else agree (finally gs (fun _ => None) k) (dget k config').
  Proof.
    (* forward *)
    destruct (stages_fwd oid config gs [] [] (fresh config)) as (inter0 & Hf & Hh).
    { reflexivity. } { split; [constructor|reflexivity]. } { exact gnames. } { exact gfwd. }
    destruct (packages_fwd known typ config ps pks) as (config1 & Hp & _ & Hp2).
    set (data := ssort (as_data ps)).
    assert (Hpn : NoDup (map fst ps)) by (eapply packages_nodup; eassumption).
    assert (Had : NoDup (dkeys (as_data ps))) by (rewrite dkeys_as_data; exact Hpn).
    assert (Hdn : NoDup (dkeys data)) by (apply ssort_NoDup, Had).
    assert (Hdg : forall k, dget k data = dget k (as_data ps)) by (intros k; apply dget_ssort, Had).
    assert (Hdk : forall k, In k (dkeys data) <-> In k (map fst ps)).
    { intros k. pose proof (dget_none_keys _ k data) as E1. pose proof (dget_none_keys _ k (as_data ps)) as E2.
      rewrite Hdg in E1. rewrite dkeys_as_data in E2.
      split; intros Hin; destruct (in_dec String.string_dec k (map fst ps)) as [Hd|Hd]; try assumption; try tauto.
      destruct (in_dec String.string_dec k (dkeys data)); tauto. }
    destruct Hh as [Hn0 Hh]. cbn [app] in Hh.
    assert (Hfresh : forall k, In k (map fst ps) -> dget k inter0 = None).
    { intros k Hk. rewrite Hh. destruct (secs_of k gs) as [|s ss] eqn:E; [reflexivity|]. exfalso.
      assert (Hs : In s (secs_of k gs)) by (rewrite E; left; reflexivity). apply secs_of_In in Hs as (g & Hg & Hgp & _).
      apply (pkname k Hk). rewrite <- Hgp. apply in_map, Hg. }
    set (inter := (inter0 ++ data)%list).
    assert (Hfwd : convert_fwd oid (be_convs B) (fresh config) [] = ({| st_config := config1; st_inter := Some inter |}, Ok tt)).
    { rewrite convs, convert_fwd_app, Hf. cbn [st_inter convert_fwd c_fwd_run default negb c_fwd st_config].
      unfold default_fwd. rewrite Hp. cbn [bind]. fold data.
      destruct data as [|kv data'] eqn:Ed; [unfold inter; rewrite app_nil_r; reflexivity|].
      rewrite merge_fresh_all; [reflexivity|exact Hdn|]. intros k Hk. apply Hfresh, Hdk, Hk. }
    assert (Hin : NoDup (dkeys inter)).
    { unfold inter. rewrite dkeys_app. apply NoDup_app_intro; [exact Hn0|exact Hdn|]. intros k Hk Hk'. apply Hdk in Hk'.
      apply dget_none_keys in Hk; [exact Hk|]. apply Hfresh, Hk'. }
    assert (Hig : forall k, dget k inter = match dget k inter0 with Some v => Some v | None => dget k (as_data ps) end).
    { intros k. unfold inter. rewrite dget_app, Hdg. reflexivity. }
    assert (Hdata : data_ok inter).
    { split; [exact Hin|]. intros [p v] Hpv. pose proof (In_dget p v inter Hin Hpv) as Hgv. rewrite Hig in Hgv.
      destruct (dget p inter0) as [v0|] eqn:E0.
      - injection Hgv as <-. rewrite Hh in E0. destruct (secs_of p gs) as [|s ss] eqn:Es; [discriminate|]. injection E0 as <-.
        split; cbn [fst snd].
        + assert (Hs : In s (secs_of p gs)) by (rewrite Es; left; reflexivity). apply secs_of_In in Hs as (g & Hg & <- & _). apply gname, Hg.
        + exists (s :: ss). split; [reflexivity|]. intros b Hb. rewrite <- Es in Hb. apply secs_of_In in Hb as (g & Hg & _ & Hb). eapply gok; eassumption.
      - apply as_data_get in Hgv as (ss & -> & Hss); [|exact Hpn]. split; cbn [fst snd].
        + apply pkname. apply (in_map fst) in Hss. exact Hss.
        + exists ss. split; [reflexivity|]. destruct (packages_get _ _ _ pks cfg _ _ Hss) as (l & _ & _ & Hl).
          intros b Hb. destruct (indexed_In_r _ _ _ _ _ _ _ Hl Hb) as (j & a & _ & _ & Hok & _). exact Hok. }
    destruct (uci_round_trip inter Hdata) as (text & inter' & Hren & Hpar & Hreads).
    (* backward *)
    assert (Hin' : NoDup (dkeys inter')) by (rewrite (data_reads_keys _ _ Hreads); exact Hin).
    assert (Hnot : forall p, In p (map sg_pkg gs) -> ~ In p (map fst ps)).
    { intros p H1 H2. apply (pkname p H2). exact H1. }
    assert (Hnone : forall k, ~ In k (map fst ps) -> dget k (as_data ps) = None).
    { intros k Hk. apply dget_none_keys. rewrite dkeys_as_data. exact Hk. }
    assert (Hsecs : forall p, In p (map sg_pkg gs) -> reads_secs gs inter' p).
    { intros p Hpk. pose proof (data_reads_get _ _ p Hreads) as Hr. rewrite Hig, (Hnone p (Hnot p Hpk)), Hh in Hr.
      unfold reads_secs. destruct (secs_of p gs) as [|s ss] eqn:Es.
      - left. split; [reflexivity|left; exact Hr].
      - right. destruct Hr as (bs & bs' & Ebs & Hg' & F). exists bs'. split; [exact Hg'|]. injection Ebs as Ebs.
        destruct bs as [|b bs]; [discriminate|]. cbn in Ebs. injection Ebs as <- Ebs.
        assert (ss = bs); [|subst; exact F]. clear -Ebs. revert bs Ebs. induction ss as [|x ss IH]; intros [|y bs] E; try discriminate; [reflexivity|].
        cbn in E. injection E as <- E. f_equal. apply IH, E. }
    destruct (stages_bwd oid B inter' gs (fun _ => None) [] inter' (map sg_pkg gs)) as (config2 & inter2 & Hb & Hc2 & Hval & Hi2 & Hgone & Hkeep).
    { exact gchain. } { reflexivity. } { constructor. } { exact Hin'. } { intros g Hg. apply in_map, Hg. } { exact Hsecs. }
    { exact gnames. } { intros g s Hg Hs. apply section_ok_typed. eapply gok; eassumption. }
    { intros g Hg. apply gbwd; [|exact Hsecs|exact Hg]. eapply parsed_data_reads; eassumption. } { exact gne. } { exact gspares. }
    assert (Hoth : forall k, ~ In k (map sg_key gs) -> is_custom known k = true -> dget k config2 = None).
    { intros k Hk Hc. specialize (Hval k). rewrite finally_other in Hval; [exact Hval|exact Hk|]. intros g Hg. destruct (dget k (sg_more g)) as [v|] eqn:E; [|reflexivity].
      destruct (gmore g k Hg) as [X _]; [unfold dmem; rewrite E; reflexivity|congruence]. }
    (* the unknown packages *)
    assert (Hcust : forall k own, dget k inter' = Some own -> In k (map fst ps) ->
      exists l own' bs, dget k config = Some (VList (map VDict l)) /\ own = VList (map VDict own') /\ own' <> [] /\
        custom_back_list (map VDict own') 1 = Ok (map VDict bs) /\ Forall2 (fun b b' => same (VDict b) (VDict b')) l bs).
    { intros k own Hown Hk. apply in_map_iff in Hk as ([k0 ss] & Ek & Hss). cbn in Ek. subst k0.
      pose proof (data_reads_get _ _ k Hreads) as Hr. rewrite Hig, Hfresh in Hr by (apply (in_map fst) in Hss; exact Hss).
      assert (Ha : dget k (as_data ps) = Some (VList (map VDict ss))) by (apply as_data_get; [exact Hpn|eauto]).
      rewrite Ha in Hr. destruct Hr as (bs & bs' & Ebs & Hg' & F). rewrite Hown in Hg'. injection Hg' as ->.
      injection Ebs as Ebs. assert (ss = bs).
      { clear -Ebs. revert bs Ebs. induction ss as [|x ss IH]; intros [|y bs] E; try discriminate; [reflexivity|].
        cbn in E. injection E as <- E. f_equal. apply IH, E. }
      subst bs. destruct (packages_get _ _ _ pks cfg _ _ Hss) as (l & Hl & Hne & Hcl).
      destruct (custom_back_fwd l ss bs' 0) as (l' & Hl' & Fl); [|exact F|].
      { eapply indexed_impl; [|exact Hcl]. intros j b s (_ & _ & X). exact X. }
      exists l, bs', l'. repeat split; try assumption. 
      apply indexed_length in Hcl. apply Forall2_length in F. destruct l; [congruence|]. destruct bs'; [|discriminate]. cbn in *. lia. }
    assert (Hi2k : forall k v, In (k, v) inter2 -> In k (map sg_pkg gs) \/ In k (map fst ps)).
    { intros k v Hkv. destruct (in_dec String.string_dec k (map sg_pkg gs)) as [|Hno]; [left; assumption|right].
      apply (In_dget _ _ _ Hi2) in Hkv. rewrite Hkeep in Hkv by exact Hno.
      pose proof (data_reads_get _ _ k Hreads) as Hr. rewrite Hig in Hr.
      destruct (dget k inter0) as [v0|] eqn:E0.
      - exfalso. rewrite Hh in E0. destruct (secs_of k gs) as [|s ss] eqn:Es; [discriminate|].
        assert (Hs : In s (secs_of k gs)) by (rewrite Es; left; reflexivity). apply secs_of_In in Hs as (g & Hg & <- & _).
        apply Hno, in_map, Hg.
      - destruct (in_dec String.string_dec k (map fst ps)) as [|Hno']; [assumption|]. rewrite Hnone in Hr by exact Hno'. congruence. }
    destruct (default_bwd_get inter2 Hi2) as (r & Hr & Hrn & Hrincl & Hrg).
    { intros k v Hkv. destruct (Hi2k k v Hkv) as [Hk|Hk]; apply (In_dget _ _ _ Hi2) in Hkv.
      - left. destruct (Hgone k Hk) as [E|E]; congruence.
      - right. rewrite Hkeep in Hkv by (intros X; apply (Hnot k X Hk)).
        destruct (Hcust k v Hkv Hk) as (l & own' & bs & _ & -> & Hne & Hbs & _). exists own', (map VDict bs). auto. }
    assert (Hrk : forall k, In k (dkeys r) -> In k (map fst ps)).
    { intros k Hk. destruct (dget k r) as [v|] eqn:E; [|apply dget_none_keys in E; contradiction].
      specialize (Hrg k). destruct (dget k inter2) as [w|] eqn:Ew; [|congruence].
      destruct Hrg as [[_ X]|(own & bs & -> & Hbs & X)]; [congruence|].
      destruct (Hi2k k _ (dget_In _ _ _ Ew)) as [Hk'|Hk']; [|exact Hk'].
      destruct (Hgone k Hk') as [Y|Y]; [congruence|]. rewrite Ew in Y. injection Y as Y. destruct own; [|discriminate].
      exfalso. (* an empty package gives no result: the first case of Hrg *)
      eapply (default_bwd_empty k inter2 r Hr Hi2 Ew). apply dget_In in E. apply (in_map fst) in E. exact E. }
    assert (Hk2 : forall k, In k (map fst ps) -> dget k config2 = None).
    { intros k Hk. apply (packages_keys _ _ _ pks) in Hk as [_ Hk]. rewrite Hoth; [reflexivity| |exact Hk]. intros Hin2. apply in_map_iff in Hin2 as (g & <- & Hg).
      rewrite gknown in Hk by exact Hg. discriminate. }
    exists config1, inter, text, inter', (config2 ++ r)%list, inter2.
    split; [exact Hfwd|]. split; [exact Hp2|]. split.
    { intros p Hp0. rewrite Hig, (Hnone p (Hnot p Hp0)), Hh. destruct (secs_of p gs); reflexivity. }
    split.
    { intros k ss Hss. rewrite Hig, Hfresh by (apply (in_map fst) in Hss; exact Hss). apply as_data_get; [exact Hpn|eauto]. }
    split; [exact Hren|]. split; [exact Hpar|]. split; [|split].
    - rewrite convs, convert_bwd_app, Hb. cbn [convert_bwd default c_bwd_run negb c_bwd]. rewrite Hr.
      destruct r as [|kv r']; [rewrite app_nil_r; reflexivity|].
      rewrite merge_fresh_all; [reflexivity|exact Hrn|]. intros k Hk. apply Hk2, Hrk, Hk.
    - rewrite dkeys_app. apply NoDup_app_intro; [exact Hc2|exact Hrn|]. intros k H1 H2. apply dget_none_keys in H1; [exact H1|].
      apply Hk2, Hrk, H2.
    - intros k. rewrite dget_app.
      destruct (existsb (String.eqb k) (map sg_key gs)) eqn:Ek; cbn [orb].
      + apply existsb_exists in Ek as (k' & Hk' & E). apply String.eqb_eq in E. subst k'.
        apply in_map_iff in Hk' as (g & <- & Hg). specialize (Hval (sg_key g)). rewrite (gval g Hg) in Hval. unfold agree in Hval.
        destruct (dget (sg_key g) config) as [v|].
        * destruct Hval as (v' & -> & Hs). eauto.
        * rewrite Hval. apply dget_none_keys. intros Hin2. apply Hrk, (packages_keys _ _ _ pks) in Hin2 as [_ Hc].
          rewrite gknown in Hc by exact Hg. discriminate.
      + assert (Hkn : ~ In k (map sg_key gs)).
        { intros Hin2. assert (X : existsb (String.eqb k) (map sg_key gs) = true); [|congruence].
          apply existsb_exists. exists k. rewrite eqb_refl. auto. }
        destruct (is_custom known k) eqn:Ec.
        * rewrite (Hoth k Hkn Ec). cbn [dget]. destruct (dget k config) as [v|] eqn:Ev.
          -- assert (Hkp : In k (map fst ps)).
             { apply (packages_keys _ _ _ pks). split; [|exact Ec]. apply dget_In in Ev. apply (in_map fst) in Ev. exact Ev. }
             assert (Hkg : ~ In k (map sg_pkg gs)) by (intros X; apply (Hnot k X Hkp)).
             specialize (Hrg k). rewrite Hkeep in Hrg by exact Hkg.
             apply in_map_iff in Hkp as ([k0 ss] & Ek0 & Hss). cbn in Ek0. subst k0.
             pose proof (data_reads_get _ _ k Hreads) as Hrd. rewrite Hig, Hfresh in Hrd by (apply (in_map fst) in Hss; exact Hss).
             assert (Ha : dget k (as_data ps) = Some (VList (map VDict ss))) by (apply as_data_get; [exact Hpn|eauto]).
             rewrite Ha in Hrd. destruct Hrd as (bs0 & bs' & Ebs & Hg' & F). rewrite Hg' in Hrg.
             destruct (Hcust k _ Hg') as (l & own' & bs & Hl & Eo & Hne & Hbs & Fl); [apply (in_map fst) in Hss; exact Hss|].
             assert (v = VList (map VDict l)) as -> by congruence.
             destruct Hrg as [[Hx _]|(own & bs1 & Hx & Hy & Hz)].
             ++ rewrite Eo in Hx. destruct own'; [congruence|discriminate].
             ++ rewrite Eo in Hx. injection Hx as Hx. rewrite <- Hx, Hbs in Hy. injection Hy as <-.
                exists (VList (map VDict bs)). split; [exact Hz|]. apply same_lists, Fl.
          -- apply dget_none_keys. intros Hin2. apply Hrk, (packages_keys _ _ _ pks) in Hin2 as [Hin2 _].
             apply dget_none_keys in Hin2; [exact Hin2|exact Ev].
        * assert (Er : dget k r = None) by (apply dget_none_keys; intros Hin2; apply Hrk, (packages_keys _ _ _ pks) in Hin2 as [_ Hin2]; congruence).
          specialize (Hval k). rewrite Er. destruct (dget k config2); exact Hval.
  Qed.
End Trip.
