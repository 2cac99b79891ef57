(** * Props_Cli: C48: the command line program *)
From Verif Require Import PyBase PyLemmas StrLemmas Files FilesProofs SpecFiles Merge Vars Backend BackendProofs OpenWrt OpenWisp VpnText Uci Cli SpecCli CliProofs.

(** ** Arguments of the method *)

(** C48: the arguments are accepted exactly when each has one equals sign *)
Theorem C48_arguments : forall args, (exists kw, parse_args args [] = Some kw) <-> Forall arg_ok args.
Proof. intros args. apply parse_args_ok. Qed.
(** C48: each name has the last value given for it; True, 1, False and 0 are
    booleans, all other values are text *)
Theorem C48_values : forall args kw, parse_args args [] = Some kw -> NoDup (dkeys kw) /\ arguments args kw.
Proof. exact parse_args_values. Qed.

(** ** Exit statuses *)

(** C48: the exit statuses and their causes, for every backend and command *)
Theorem C48_exit_status : forall w oid K c n, cli w oid K c = Exit n <-> exit_cause w oid K c n.
Proof. exact cli_exit. Qed.
(** C48: and what was asked is done in the other cases, unless an exception
    that is not foreseen propagates *)
Theorem C48_done : forall w oid K c o, (forall n, o <> Exit n) -> (forall e, o <> Raised e) ->
  (cli w oid K c = o <-> exists a kw, started w oid K c (Ok a) kw /\ call w a (o_method c) kw = Ok o).
Proof.
  intros w oid K c o H1 H2. split; [intros H; exact (cli_done _ _ _ _ _ H H1 H2)|]. intros (a & kw & S & Hc). exact (started_done _ _ _ _ _ _ _ S Hc).
Qed.

(** ** The program and the library *)
Lemma started_config w oid K c s a kw : has (o_config c) s ->
  (started w oid K c (Ok a) kw <-> exists cfg, merged w oid K c cfg /\ parse_args (o_args c) [] = Some kw /\ a = k_object K (fresh cfg)).
Proof.
  intros Hs. split.
  - intros (make & ts & S & F & Ea & Em). destruct S as [s' t H R|s' n H0 _ _].
    + unfold new_object in Em. symmetry in Em. apply bind_Ok in Em as (d & Hd & Em). apply bind_Ok in Em as (m & Hm & Em). apply bind_Ok in Em as (cfg & Hc & Em).
      injection Em as <-. exists cfg. split; [exists s', t, d, ts, m; auto 10|auto].
    + exfalso. apply given_has in Hs. apply given_hasnt in H0. congruence.
  - intros (cfg & (s' & t & d & ts & m & H & R & Hd & F & Hm & Hc) & Ea & ->). exists (fun ts => new_object w oid K t ts), ts.
    split; [eapply src_config; eassumption|]. split; [exact F|]. split; [exact Ea|]. unfold new_object. rewrite Hd. cbn [bind]. rewrite Hm. cbn [bind]. rewrite Hc. reflexivity.
Qed.
Lemma only_spec names kw : only names kw = Ok tt <-> forall k, In k (dkeys kw) -> In k names.
Proof.
  unfold only. destruct (forallb _ _) eqn:E.
  - rewrite forallb_forall in E. split; [intros _ k Hk; specialize (E k Hk); apply existsb_exists in E as (x & Hx & Ex); apply String.eqb_eq in Ex; subst; exact Hx|reflexivity].
  - split; [discriminate|]. intros H. exfalso. assert (forallb (fun k => existsb (String.eqb k) names) (dkeys kw) = true); [|congruence].
    apply forallb_forall. intros k Hk. apply existsb_exists. exists k. split; [auto|apply String.eqb_refl].
Qed.
(** C48: the method render prints the text that render() gives for the merged
    configuration *)
Theorem C48_render : forall w oid K B c s text, k_object K = base_api oid B ->
  has (o_config c) s -> o_method c = MRender ->
  (cli w oid K c = Printed text <->
   text <> EmptyString /\ exists cfg kw s', merged w oid K c cfg /\ parse_args (o_args c) [] = Some kw /\
     (forall k, In k (dkeys kw) -> k = "files") /\
     render oid B (match dget "files" kw with Some v => truthy v | None => true end) (fresh cfg) = (s', Ok text)).
Proof.
  intros w oid K B c s text HK Hs Hm. rewrite C48_done by discriminate. rewrite Hm. split.
  - intros (a & kw & S & Hc). apply (started_config w oid K c s) in S as (cfg & M & Ea & ->); [|exact Hs]. rewrite HK in Hc. cbn [call base_api a_render] in Hc.
    apply bind_Ok in Hc as ([] & Ho & Hc). apply bind_Ok in Hc as (t & Ht & Hc). destruct (String.eqb_spec t EmptyString); [discriminate|]. injection Hc as <-.
    split; [assumption|]. destruct (render oid B _ (fresh cfg)) as [s' r] eqn:Er. cbn [snd] in Ht. subst r. exists cfg, kw, s'. split; [exact M|]. split; [exact Ea|].
    split; [|exact Er]. rewrite only_spec in Ho. intros k Hk. destruct (Ho k Hk) as [<-|[]]. reflexivity.
  - intros (Ht & cfg & kw & s' & M & Ea & Ho & Er). exists (k_object K (fresh cfg)), kw. split; [apply (started_config w oid K c s); eauto|].
    rewrite HK. cbn [call base_api a_render]. assert (only ["files"] kw = Ok tt) as -> by (apply only_spec; intros k Hk; left; symmetry; auto).
    cbn [bind]. rewrite Er. cbn [snd bind]. destruct (String.eqb_spec text EmptyString); [contradiction|reflexivity].
Qed.
(** C48: the method generate gives the archive of generate() *)
Theorem C48_generate : forall w oid K B c s tar, k_object K = base_api oid B ->
  has (o_config c) s -> o_method c = MGenerate ->
  (cli w oid K c = Bytes tar <->
   o_args c = [] /\ exists cfg s', merged w oid K c cfg /\ generate oid B (fresh cfg) = (s', Ok tar)).
Proof.
  intros w oid K B c s tar HK Hs Hm. rewrite C48_done by discriminate. rewrite Hm. split.
  - intros (a & kw & S & Hc). apply (started_config w oid K c s) in S as (cfg & M & Ea & ->); [|exact Hs]. rewrite HK in Hc. cbn [call base_api a_generate] in Hc.
    apply bind_Ok in Hc as ([] & Ho & Hc). apply bind_Ok in Hc as (t & Ht & Hc). injection Hc as <-.
    assert (kw = []) as ->. { destruct kw as [|[k v] kw]; [reflexivity|]. rewrite only_spec in Ho. destruct (Ho k). left. reflexivity. }
    split.
    + destruct (o_args c) as [|x l]; [reflexivity|]. exfalso. change (x :: l) with ([x] ++ l)%list in Ea. rewrite parse_args_app in Ea.
      destruct (arg_step x []) as [(_ & k & v & _ & E)|(_ & E)]; rewrite E in Ea; [|discriminate].
      assert (G : forall l d, d <> [] -> parse_args l d <> Some []).
      { clear. induction l as [|a l IH]; intros d Hd; [cbn; congruence|]. change (a :: l) with ([a] ++ l)%list. rewrite parse_args_app.
        destruct (arg_step a d) as [(_ & k & v & _ & E)|(_ & E)]; rewrite E; [|discriminate]. apply IH. destruct d as [|[k' v'] d]; [congruence|]. cbn [dset]. destruct (String.eqb k k'); discriminate. }
      apply G in Ea; [exact Ea|]. cbn. discriminate.
    + destruct (generate oid B (fresh cfg)) as [s' r] eqn:Eg. cbn [snd] in Ht. subst r. exists cfg, s'. auto.
  - intros (Ha & cfg & s' & M & Eg). exists (k_object K (fresh cfg)), []. split; [apply (started_config w oid K c s); [exact Hs|]; exists cfg; rewrite Ha; auto|].
    rewrite HK. cbn. rewrite Eg. reflexivity.
Qed.
(** C48: the method write writes that archive to PATH/NAME.tar.gz *)
Theorem C48_write : forall w oid K B c s file tar, k_object K = base_api oid B ->
  has (o_config c) s -> o_method c = MWrite -> cli w oid K c = Wrote file tar ->
  exists cfg s' kw name dir, merged w oid K c cfg /\ generate oid B (fresh cfg) = (s', Ok tar) /\
    parse_args (o_args c) [] = Some kw /\ (forall k, In k (dkeys kw) -> k = "name" \/ k = "path") /\
    dget "name" kw = Some name /\ (dget "path" kw = Some (VStr dir) \/ (dget "path" kw = None /\ dir = "./")) /\
    (file = dir +++ py_str name +++ ".tar.gz" /\ (exists d, dir = d +++ "/") \/
     file = dir +++ "/" +++ py_str name +++ ".tar.gz" /\ ~ exists d, dir = d +++ "/").
Proof.
  intros w oid K B c s file tar HK Hs Hm H. apply C48_done in H; [|discriminate..]. rewrite Hm in H.
  destruct H as (a & kw & S & Hc). apply (started_config w oid K c s) in S as (cfg & M & Ea & ->); [|exact Hs]. rewrite HK in Hc. cbn [call base_api a_generate] in Hc.
  apply bind_Ok in Hc as ([] & Ho & Hc). destruct (dget "name" kw) as [name|] eqn:En; [|discriminate].
  apply bind_Ok in Hc as (t & Ht & Hc). apply bind_Ok in Hc as (p & Hp & Hc). apply as_str_Ok in Hp.
  destruct (w_writable w _); [|discriminate]. injection Hc as <- <-. destruct (generate oid B (fresh cfg)) as [s' r] eqn:Eg. cbn [snd] in Ht. subst r.
  exists cfg, s', kw, name, p. split; [exact M|]. split; [exact Eg|]. split; [exact Ea|].
  split; [rewrite only_spec in Ho; intros k Hk; destruct (Ho k Hk) as [<-|[<-|[]]]; auto|].
  split; [exact En|]. split; [destruct (dget "path" kw); [left; congruence|right; split; [reflexivity|congruence]]|].
  pose proof (endswith_true "/" p) as Hd.
  destruct (endswith "/" p) eqn:Ee.
  - left. split; [reflexivity|]. apply Hd. reflexivity.
  - right. split; [rewrite app_assoc_s; reflexivity|]. rewrite <- Hd. discriminate.
Qed.
(** C48: nothing is printed or written for a configuration that does not validate *)
Theorem C48_output_valid : forall w oid K B c s o, k_object K = base_api oid B ->
  has (o_config c) s -> o_method c <> MJson -> cli w oid K c = o ->
  (forall n, o <> Exit n) -> (forall e, o <> Raised e) ->
  exists cfg, merged w oid K c cfg /\ be_validate B cfg = Ok tt.
Proof.
  intros w oid K B c s o HK Hs Hm H H1 H2. apply C48_done in H; [|assumption..]. destruct H as (a & kw & S & Hc).
  apply (started_config w oid K c s) in S as (cfg & M & Ea & ->); [|exact Hs]. exists cfg. split; [exact M|].
  assert (R : forall f t, snd (render oid B f (fresh cfg)) = Ok t -> be_validate B cfg = Ok tt).
  { intros f t. unfold render. cbn [fresh st_config]. destruct (be_validate B cfg) as [[]|]; [reflexivity|discriminate]. }
  assert (G : forall t, snd (generate oid B (fresh cfg)) = Ok t -> be_validate B cfg = Ok tt).
  { intros t. unfold generate. destruct (render oid B false (fresh cfg)) as [s' r] eqn:E. cbn [snd]. intros Hb. apply bind_Ok in Hb as (x & -> & _).
    apply (R false x). rewrite E. reflexivity. }
  rewrite HK in Hc. destruct (o_method c); cbn [call base_api a_render a_generate a_validate] in Hc; try congruence.
  - apply bind_Ok in Hc as ([] & _ & Hc). apply bind_Ok in Hc as (t & Ht & _). exact (R _ _ Ht).
  - apply bind_Ok in Hc as ([] & _ & Hc). apply bind_Ok in Hc as (t & Ht & _). exact (G _ Ht).
  - apply bind_Ok in Hc as ([] & _ & Hc). destruct (dget "name" kw); [|discriminate]. apply bind_Ok in Hc as (t & Ht & _). exact (G _ Ht).
  - apply bind_Ok in Hc as ([] & _ & Hc). apply bind_Ok in Hc as ([] & Ht & _). exact Ht.
Qed.

(** ** Deviations *)

(** C48 (deviation): a name that reads as a boolean is not the name of the file *)
Theorem C48_write_name : forall w oid K B c s file tar, k_object K = base_api oid B ->
  has (o_config c) s -> o_method c = MWrite -> o_args c = ["name=1"] -> cli w oid K c = Wrote file tar -> file = "./True.tar.gz".
Proof.
  intros w oid K B c s file tar HK Hs Hm Ha H.
  destruct (C48_write w oid K B c s file tar HK Hs Hm H) as (cfg & s' & kw & name & dir & _ & _ & Ek & _ & En & Ed & Hf).
  rewrite Ha in Ek. injection Ek as <-. cbn in En. injection En as <-. destruct Ed as [Ed|[_ ->]]; [discriminate|].
  destruct Hf as [[-> _]|[_ Hf]]; [reflexivity|]. exfalso. apply Hf. exists ".". reflexivity.
Qed.
(** C48 (deviation): a native configuration in a file must be an archive: a text
    file never gives any output *)
Theorem C48_native_text_file : forall w oid schema_ok T dsa f1 f2 K c s text,
  In K [openwrt_class oid schema_ok dsa f1 f2; openwisp_class oid schema_ok T dsa f1 f2; openvpn_class oid schema_ok; wireguard_class oid schema_ok] ->
  hasnt (o_config c) -> has (o_native c) s -> ~ json_text s -> w_files w s = Some (FText text) ->
  (exists n, cli w oid K c = Exit n) \/ (exists e, cli w oid K c = Raised e).
Proof.
  intros w oid sc T dsa f1 f2 K c s text HK Hn Hs Hj Hf.
  destruct (cli w oid K c) as [t|tar| |p tar|n|e] eqn:E; try (left; eauto; fail); try (right; eauto; fail); exfalso;
    (apply C48_done in E; [|discriminate..]; destruct E as (a & kw & (make & ts & S & F & Ea & Em) & Hc); destruct S as [s' t' H R|s' n H0 H R];
     [apply given_has in H; apply given_hasnt in Hn; congruence|];
     destruct H as [H _]; destruct Hs as [Hs _]; rewrite Hs in H; injection H as <-; destruct R as [R|f R1 R2]; [contradiction|]; rewrite Hf in R2; injection R2 as <-;
     repeat destruct HK as [<-|HK]; try contradiction; discriminate).
Qed.
(** C48 (deviation): a native configuration that does not validate is an
    exception, not exit status 4 *)
Theorem C48_native_invalid : forall w oid K c s n msg,
  hasnt (o_config c) -> has (o_native c) s -> opens w s n -> o_templates c = [] -> o_args c = [] ->
  k_native K n = Err (EValidation msg) -> cli w oid K c = Raised (EValidation msg).
Proof.
  intros w oid K c s n msg H0 H R Ht Ha Hk. rewrite (source_go w oid K c _ (src_native w oid K c s n H0 H R)). unfold cli_go. rewrite Ht, Ha. cbn. rewrite Hk. reflexivity.
Qed.
Print Assumptions C48_arguments.
Print Assumptions C48_values.
Print Assumptions C48_exit_status.
Print Assumptions C48_done.
Print Assumptions C48_render.
Print Assumptions C48_generate.
Print Assumptions C48_write.
Print Assumptions C48_output_valid.
Print Assumptions C48_write_name.
Print Assumptions C48_native_text_file.
Print Assumptions C48_native_invalid.

(** ** Examples: every status and kind of outcome is reached *)
Definition json1 : string := "{""general"": {""hostname"": ""{{HOST}}""}}".
Definition w0 : world :=
  {| w_files := fun p => if String.eqb p "conf.json" then Some (FText "{}") else if String.eqb p "net.conf" then Some (FText "package network") else
       if String.eqb p "net.tar.gz" then Some (FTar [{| m_name := "etc/config/system"; m_mode := 420; m_mtime := 0;
          m_data := "config system 's'" +++ NL +++ TAB +++ "option hostname 'r1'" +++ NL |}]) else None;
     w_environ := [("HOST", VStr "r1")]; w_writable := fun _ => true;
     w_loads := fun s => if String.eqb s json1 then Some (VDict [("general", VDict [("hostname", VStr "{{HOST}}")])])
                         else if String.eqb s "{}" then Some (VDict []) else None;
     w_dumps := fun d kw => if dmem "bogus" kw then Err EType else Ok (py_str (VDict d)) |}.
Definition nid : Merge.oracle := fun _ i => i.
Definition schema0 (d : dict) : res unit := match dget "general" d with Some (VDict g) => match dget "hostname" g with Some (VStr _) => Ok tt | _ => Err (EJsonSchema "hostname") end | _ => Ok tt end.
Definition K0 := openwrt_class nid schema0 false true true.
Definition cmd (config native : option string) (ts : list string) (m : method) (args : list string) : command :=
  {| o_config := config; o_native := native; o_templates := ts; o_method := m; o_args := args |}.
Definition run0 config native ts m args := cli w0 nid K0 (cmd config native ts m args).
Definition sys_text : string := "package system" +++ NL +++ NL +++ "config system 'system'" +++ NL +++ TAB +++ "option hostname 'r1'" +++ NL.
Example C48_applies_render : run0 (Some json1) None ["conf.json"] MRender ["files=0"; "files=1"] = Printed sys_text /\
  (exists s, has (o_config (cmd (Some json1) None ["conf.json"] MRender [])) s) /\ k_object K0 = base_api nid (openwrt nid schema0 false true true).
Proof. split; [vm_compute; reflexivity|]. split; [exists json1; split; [reflexivity|discriminate]|reflexivity]. Qed.
Example C48_applies_statuses :
  run0 None (Some "") [] MRender [] = Exit 1 /\ run0 (Some "nofile") None [] MRender ["a"] = Exit 1 /\
  run0 (Some json1) None ["nofile"] MRender ["a"] = Exit 1 /\
  run0 (Some "{bad") None [] MRender [] = Exit 2 /\ run0 (Some json1) None ["net.conf"] MRender [] = Exit 2 /\
  run0 (Some "{bad") None [] MRender ["a=b=c"] = Exit 3 /\
  run0 (Some json1) None [] MRender ["file=1"] = Exit 5 /\ run0 (Some json1) None [] MWrite [] = Exit 5 /\
  run0 (Some json1) None [] MJson ["bogus=1"] = Exit 5.
Proof. vm_compute. repeat split. Qed.
Definition w1 : world :=
  {| w_files := w_files w0; w_environ := w_environ w0; w_writable := w_writable w0; w_dumps := w_dumps w0;
     w_loads := fun _ => Some (VDict [("general", VDict [("hostname", VInt 1)])]) |}.
Example C48_applies_invalid : cli w1 nid K0 (cmd (Some json1) None [] MValidate []) = Exit 4 /\
  (exists s, cli w1 nid K0 (cmd (Some json1) None [] MJson ["validate=0"]) = Printed s).
Proof. split; [vm_compute; reflexivity|eexists; vm_compute; reflexivity]. Qed.
Example C48_applies_native : (exists s, run0 None (Some "net.tar.gz") [] MJson [] = Printed s) /\
  run0 None (Some "net.conf") [] MJson [] = Raised EValue /\
  run0 (Some "conf.json") (Some "nofile") [] MRender [] = Silent.
Proof. split; [eexists; vm_compute; reflexivity|]. split; vm_compute; reflexivity. Qed.
Example C48_applies_write : (exists tar, run0 (Some json1) None [] MWrite ["name=router"; "path=/tmp"] = Wrote "/tmp/router.tar.gz" tar) /\
  (exists tar, run0 (Some json1) None [] MWrite ["name=1"] = Wrote "./True.tar.gz" tar) /\
  run0 (Some json1) None [] MWrite ["name=r"; "path=1"] = Raised EAttr.
Proof. split; [eexists; vm_compute; reflexivity|]. split; [eexists; vm_compute; reflexivity|vm_compute; reflexivity]. Qed.
Example C48_applies_native_invalid :
  cli w0 nid (openwrt_class nid (fun _ => Err (EJsonSchema "no")) false true true) (cmd None (Some "net.tar.gz") [] MValidate []) = Raised (EValidation "no").
Proof. vm_compute. reflexivity. Qed.
