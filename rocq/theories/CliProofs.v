(** * CliProofs: the command line program (proofs only) *)
From Verif Require Import PyBase PyLemmas StrLemmas Files FilesProofs SpecFiles Merge Vars Backend BackendProofs OpenWrt OpenWisp VpnText Cli SpecCli.

(** ** Arguments *)
Lemma split_length c s : length (split_char c s) = S (count_char c s).
Proof.
  induction s as [|d s IH]; [reflexivity|]. cbn [split_char count_char]. rewrite Ascii.eqb_sym.
  destruct (Ascii.eqb c d); cbn [length]; [rewrite IH; reflexivity|].
  pose proof (split_char_nonempty c s). destruct (split_char c s); [congruence|exact IH].
Qed.
Lemma split_pair a k v : split_char "=" a = [k; v] <-> pair_of a k v.
Proof.
  unfold pair_of. rewrite !contains1. split.
  - intros E. pose proof (split_char_join "=" a) as J. pose proof (split_char_nosep "=" a) as N. rewrite E in J, N. cbn [join] in J.
    split; [symmetry; exact J|]. split; apply N; cbn; tauto.
  - intros (-> & H1 & H2). change ("=" +++ v) with (String "=" v). rewrite split_char_app by exact H1. rewrite split_char_none by exact H2. reflexivity.
Qed.
Lemma arg_step a kw : (arg_ok a /\ exists k v, pair_of a k v /\ parse_args [a] kw = Some (dset k (recognize v) kw)) \/
  (~ arg_ok a /\ parse_args [a] kw = None).
Proof.
  cbn [parse_args]. pose proof (split_length "=" a) as L. destruct (Nat.eqb_spec (count_char "=" a) 1) as [E|E]; cbn [negb].
  - rewrite E in L. destruct (split_char "=" a) as [|k [|v [|]]] eqn:Es; try discriminate. apply split_pair in Es. left.
    split; [exists k, v; exact Es|]. exists k, v. auto.
  - right. split; [|reflexivity]. intros (k & v & H). apply split_pair in H. rewrite H in L. cbn in L. congruence.
Qed.
Lemma parse_args_app l l' kw : parse_args (l ++ l') kw = match parse_args l kw with Some kw' => parse_args l' kw' | None => None end.
Proof.
  revert kw; induction l as [|a l IH]; intros kw; [reflexivity|]. cbn [app parse_args]. destruct (negb _); [reflexivity|].
  destruct (split_char "=" a) as [|k [|v [|]]]; try reflexivity. apply IH.
Qed.
Lemma parse_args_ok args : forall kw, (exists kw', parse_args args kw = Some kw') <-> Forall arg_ok args.
Proof.
  induction args as [|a args IH]; intros kw; [split; [constructor|intros _; exists kw; reflexivity]|].
  change (a :: args) with ([a] ++ args)%list. rewrite parse_args_app.
  destruct (arg_step a kw) as [(Ho & k & v & Hp & E)|(Ho & E)]; rewrite E.
  - rewrite IH. cbn [app]. rewrite Forall_cons_iff. tauto.
  - cbn [app]. rewrite Forall_cons_iff. split; [intros (? & ?); discriminate|tauto].
Qed.
Lemma parse_args_none args kw : parse_args args kw = None <-> ~ Forall arg_ok args.
Proof.
  rewrite <- (parse_args_ok args kw). destruct (parse_args args kw); split; try discriminate; auto.
  - intros H. exfalso. apply H. eauto.
  - intros _ (x & H). discriminate.
Qed.
Lemma recognize_means s x : recognize s = x <-> means s x.
Proof.
  unfold recognize. split.
  - intros <-. destruct (String.eqb_spec s "True") as [->|H1]; [constructor; auto|]. destruct (String.eqb_spec s "1") as [->|H2]; [constructor; auto|]. cbn [orb].
    destruct (String.eqb_spec s "False") as [->|H3]; [constructor; auto|]. destruct (String.eqb_spec s "0") as [->|H4]; [constructor; auto|]. cbn [orb].
    constructor. cbn [In]. intuition congruence.
  - intros [s' [->| ->]|s' [->| ->]|s' Hn]; try reflexivity. cbn [In] in Hn.
    destruct (String.eqb_spec s' "True"); [subst; tauto|]. destruct (String.eqb_spec s' "1"); [subst; tauto|].
    destruct (String.eqb_spec s' "False"); [subst; tauto|]. destruct (String.eqb_spec s' "0"); [subst; tauto|]. reflexivity.
Qed.
Lemma pair_fun a k v k' v' : pair_of a k v -> pair_of a k' v' -> k = k' /\ v = v'.
Proof. rewrite <- !split_pair. intros -> H. injection H as <- <-. auto. Qed.
Lemma parse_args_values args kw : parse_args args [] = Some kw -> NoDup (dkeys kw) /\ arguments args kw.
Proof.
  revert kw. induction args as [|a args IH] using rev_ind; intros kw.
  - intros E. injection E as <-. split; [constructor|]. intros k x. split; [discriminate|]. intros (a & v & (l1 & l2 & E & _) & _).
    destruct l1; discriminate.
  - rewrite parse_args_app. destruct (parse_args args []) as [kw0|] eqn:E0; [|discriminate]. destruct (IH kw0 eq_refl) as [Hn Ha].
    destruct (arg_step a kw0) as [(_ & k0 & v0 & Hp & E)|(_ & E)]; rewrite E; [|discriminate]. intros H. injection H as <-.
    split; [apply NoDup_dset; exact Hn|]. intros k x. destruct (String.eqb_spec k k0) as [->|Hk].
    + rewrite dget_dset_same. split.
      * intros H. injection H as <-. exists a, v0. split; [|split; [exact Hp|apply recognize_means; reflexivity]].
        exists args, []. split; [reflexivity|]. split; [eauto|intros z []].
      * intros (b & v & (l1 & l2 & El & _ & Hl2) & Hb & Hm). apply recognize_means in Hm. subst x.
        destruct l2 as [|y l2 _] using rev_ind.
        -- apply app_inj_tail in El as [_ ->]. destruct (pair_fun _ _ _ _ _ Hp Hb) as [_ ->]. reflexivity.
        -- exfalso. rewrite app_comm_cons, app_assoc in El. apply app_inj_tail in El as [_ ->]. apply (Hl2 y); [apply in_app_iff; cbn; tauto|eauto].
    + rewrite dget_dset_other by exact Hk. rewrite (Ha k x). split.
      * intros (b & v & (l1 & l2 & El & P & Hl2) & Hb & Hm). exists b, v. split; [|auto]. exists l1, (l2 ++ [a])%list. split; [rewrite El, <- app_assoc; reflexivity|].
        split; [exact P|]. intros z Hz. apply in_app_iff in Hz as [Hz|[<-|[]]]; [auto|]. intros (u & Hu). destruct (pair_fun _ _ _ _ _ Hp Hu). congruence.
      * intros (b & v & (l1 & l2 & El & P & Hl2) & Hb & Hm). exists b, v. split; [|auto]. destruct l2 as [|y l2 _] using rev_ind.
        -- exfalso. apply app_inj_tail in El as [_ ->]. destruct (pair_fun _ _ _ _ _ Hp Hb). congruence.
        -- rewrite app_comm_cons, app_assoc in El. apply app_inj_tail in El as [-> ->]. exists l1, l2. split; [reflexivity|]. split; [exact P|].
           intros z Hz. apply Hl2, in_app_iff. auto.
Qed.

(** ** Inputs *)
Lemma json_text_true s : startswith "{" (strip s) = true <-> json_text s.
Proof. rewrite startswith_true. reflexivity. Qed.
Lemma load_reads w s t : cli_load w s = inl t <-> reads w s t.
Proof.
  unfold cli_load. destruct (startswith "{" (strip s)) eqn:E.
  - apply json_text_true in E. split; [intros H; injection H as <-; constructor; exact E|]. intros [_|t' Hn _]; [reflexivity|contradiction].
  - assert (Hn : ~ json_text s) by (rewrite <- json_text_true; congruence).
    split.
    + destruct (w_files w s) as [[x|]|] eqn:Ef; try discriminate. intros H. injection H as <-. constructor; assumption.
    + intros [Hj|t' _ Hf]; [contradiction|]. rewrite Hf. reflexivity.
Qed.
Lemma open_opens w s n : cli_open w s = inl n <-> opens w s n.
Proof.
  unfold cli_open. destruct (startswith "{" (strip s)) eqn:E.
  - apply json_text_true in E. split; [intros H; injection H as <-; constructor; exact E|]. intros [_|t' Hn _]; [reflexivity|contradiction].
  - assert (Hn : ~ json_text s) by (rewrite <- json_text_true; congruence). split.
    + destruct (w_files w s) as [x|] eqn:Ef; try discriminate. intros H. injection H as <-. constructor; assumption.
    + intros [Hj|t' _ Hf]; [contradiction|]. rewrite Hf. reflexivity.
Qed.
Lemma load_exit w s n : cli_load w s = inr (Exit n) <-> n = 1%nat /\ missing w s.
Proof.
  unfold cli_load, missing. destruct (startswith "{" (strip s)) eqn:E.
  - apply json_text_true in E. split; [discriminate|tauto].
  - assert (Hn : ~ json_text s) by (rewrite <- json_text_true; congruence).
    destruct (w_files w s) as [[x|]|]; split; try discriminate; try (intros (_ & _ & H); discriminate).
    + intros H. injection H as <-. auto.
    + intros (-> & _). reflexivity.
Qed.
Lemma open_exit w s n : cli_open w s = inr (Exit n) <-> n = 1%nat /\ missing w s.
Proof.
  unfold cli_open, missing. destruct (startswith "{" (strip s)) eqn:E.
  - apply json_text_true in E. split; [discriminate|tauto].
  - assert (Hn : ~ json_text s) by (rewrite <- json_text_true; congruence).
    destruct (w_files w s) as [x|]; split; try discriminate; try (intros (_ & _ & H); discriminate).
    + intros H. injection H as <-. auto.
    + intros (-> & _). reflexivity.
Qed.
Lemma load_all_reads w args ts : cli_load_all w args = inl ts <-> Forall2 (reads w) args ts.
Proof.
  revert ts; induction args as [|a args IH]; intros ts; cbn [cli_load_all].
  - split; [intros H; injection H as <-; constructor|]. intros H. inversion H. reflexivity.
  - split.
    + destruct (cli_load w a) as [s|o] eqn:E; [|discriminate]. destruct (cli_load_all w args) as [l|]; [|discriminate]. intros H. injection H as <-.
      constructor; [apply load_reads; exact E|apply IH; reflexivity].
    + intros H. inversion H as [|? s ? l H1 H2]; subst. apply load_reads in H1. rewrite H1. apply IH in H2. rewrite H2. reflexivity.
Qed.
Lemma load_all_exit w args n : cli_load_all w args = inr (Exit n) <->
  n = 1%nat /\ exists before ts t after, args = (before ++ t :: after)%list /\ Forall2 (reads w) before ts /\ missing w t.
Proof.
  induction args as [|a args IH]; cbn [cli_load_all].
  - split; [discriminate|]. intros (_ & b & ts & t & af & E & _). destruct b; discriminate.
  - destruct (cli_load w a) as [s|o] eqn:E.
    + destruct (cli_load_all w args) as [l|o] eqn:El.
      * split; [discriminate|]. intros (_ & b & ts & t & af & E1 & E2 & E3). exfalso. destruct b as [|x b]; injection E1 as -> ->.
        -- assert (cli_load w t = inr (Exit 1)) by (apply load_exit; auto). congruence.
        -- assert (H : inr (Exit n) = inr (Exit n) :> list string + outcome) by reflexivity. inversion E2 as [|? ? ? ? R1 R2]; subst.
           clear H. assert (H : cli_load_all w (b ++ t :: af) = inr (Exit 1)).
           { clear -R2 E3. induction R2 as [|y u b l' R R2 IH2]; cbn [app cli_load_all].
             - assert (cli_load w t = inr (Exit 1)) as -> by (apply load_exit; auto). reflexivity.
             - apply load_reads in R. rewrite R, IH2. reflexivity. }
           congruence.
      * transitivity (inr o = inr (Exit n) :> list string + outcome); [split; congruence|]. rewrite IH. split.
        -- intros (-> & b & ts & t & af & -> & F & M). split; [reflexivity|]. exists (a :: b), (s :: ts), t, af. split; [reflexivity|].
           split; [constructor; [apply load_reads; exact E|exact F]|exact M].
        -- intros (-> & b & ts & t & af & E1 & F & M). split; [reflexivity|]. destruct b as [|x b]; injection E1 as -> ->.
           ++ assert (cli_load w t = inr (Exit 1)) by (apply load_exit; auto). congruence.
           ++ inversion F as [|? ? ? ? R1 R2]; subst. eauto 10.
    + transitivity (cli_load w a = inr (Exit n)); [rewrite E; split; congruence|]. rewrite load_exit. split.
      * intros (-> & M). split; [reflexivity|]. exists [], [], a, args. split; [reflexivity|]. split; [constructor|exact M].
      * intros (-> & b & ts & t & af & E1 & F & M). split; [reflexivity|]. destruct b as [|x b]; injection E1 as -> ->; [exact M|].
        inversion F as [|? ? ? ? R1 R2]; subst. apply load_reads in R1. congruence.
Qed.
Lemma given_has o s : given o = Some s <-> has o s.
Proof.
  unfold has. destruct o as [[|c t]|]; cbn; split; try discriminate; try (intros [H _]; discriminate).
  - intros [H N]. injection H as <-. congruence.
  - intros H. injection H as <-. split; [reflexivity|discriminate].
  - intros [H _]. exact H.
Qed.
Lemma given_hasnt o : given o = None <-> hasnt o.
Proof.
  unfold hasnt. destruct o as [[|c t]|]; cbn; split; try discriminate; auto. intros [H|H]; discriminate.
Qed.

(** ** The program *)
Lemma call_not_exit w a m kw n : call w a m kw <> Ok (Exit n).
Proof.
  intros H. destruct m; cbn [call] in H.
  - apply bind_Ok in H as (u & _ & H). apply bind_Ok in H as (t & _ & H). destruct (String.eqb t EmptyString); discriminate.
  - apply bind_Ok in H as (u & _ & H). apply bind_Ok in H as (t & _ & H). discriminate.
  - apply bind_Ok in H as (u & _ & H). destruct (dget "name" kw); [|discriminate]. apply bind_Ok in H as (t & _ & H).
    apply bind_Ok in H as (p & _ & H). destruct (w_writable w _); discriminate.
  - apply bind_Ok in H as (u & _ & H). apply bind_Ok in H as (t & _ & H). discriminate.
  - destruct (dmem "self" kw); [discriminate|]. apply bind_Ok in H as (u & _ & H). apply bind_Ok in H as (t & _ & H). destruct (String.eqb t EmptyString); discriminate.
Qed.
Lemma finish_exit w a m kw n : finish (call w a m kw) = Exit n <->
  (n = 4%nat /\ exists msg, call w a m kw = Err (EValidation msg)) \/ (n = 5%nat /\ call w a m kw = Err EType).
Proof.
  pose proof (call_not_exit w a m kw) as Hc. destruct (call w a m kw) as [o|e]; cbn [finish].
  - split; [intros ->; exfalso; exact (Hc n eq_refl)|]. intros [(_ & msg & H)|(_ & H)]; discriminate.
  - destruct e; split; try discriminate; try (intros [(_ & m0 & H)|(_ & H)]; discriminate).
    + intros H. injection H as <-. left. eauto.
    + intros [(-> & _)|(_ & H)]; [reflexivity|discriminate].
    + intros H. injection H as <-. right. auto.
    + intros [(_ & m0 & H)|(-> & _)]; [discriminate|reflexivity].
Qed.
Definition cli_go (w : world) (c : command) (make : list string -> res api) : outcome :=
  match cli_load_all w (o_templates c) with
  | inr o => o
  | inl templates =>
      match parse_args (o_args c) [] with
      | None => Exit 3
      | Some kwargs => built (make templates) (fun a => finish (call w a (o_method c) kwargs))
      end
  end.
Lemma source_go w oid K c make : source w oid K c make -> cli w oid K c = cli_go w c make.
Proof.
  unfold cli. intros [s t H R|s n H0 H R].
  - apply given_has in H. apply load_reads in R. rewrite H, R. reflexivity.
  - apply given_hasnt in H0. apply given_has in H. apply open_opens in R. rewrite H0, H, R. reflexivity.
Qed.
Lemma cli_cases w oid K c :
  (exists make, source w oid K c make) \/
  (hasnt (o_config c) /\ hasnt (o_native c) /\ cli w oid K c = Exit 1) \/
  (exists s, has (o_config c) s /\ missing w s /\ cli w oid K c = Exit 1) \/
  (exists s, hasnt (o_config c) /\ has (o_native c) s /\ missing w s /\ cli w oid K c = Exit 1) \/
  (exists e, cli w oid K c = Raised e /\ ~ exists n, exit_cause w oid K c n).
Proof.
  unfold cli. destruct (given (o_config c)) as [s|] eqn:Ec.
  - pose proof Ec as Hc. apply given_has in Ec. destruct (cli_load w s) as [t|o] eqn:El.
    + apply load_reads in El. left. eexists. eapply src_config; eassumption.
    + destruct o as [| | | |n|e]; try (unfold cli_load in El; destruct (startswith _ _); [discriminate|]; destruct (w_files w s) as [[]|]; discriminate).
      * pose proof El as El'. apply load_exit in El' as [-> M]. right. right. left. eauto.
      * right. right. right. right. exists e. split; [reflexivity|]. intros (n & H).
        assert (NS : forall make, ~ source w oid K c make).
        { intros make [s' t H1 R|s' n' H0 _ _].
          - apply given_has in H1. rewrite Hc in H1. injection H1 as <-. apply load_reads in R. congruence.
          - apply given_hasnt in H0. congruence. }
        destruct H as [H0 _|s' H1 M|s' H0 _ _|make b ts t a S|make ts S|kw (make & ts & S & _)|a kw msg (make & ts & S & _)|a kw (make & ts & S & _)]; try (exact (NS _ S)).
        -- apply given_hasnt in H0. congruence.
        -- apply given_has in H1. rewrite Hc in H1. injection H1 as <-. assert (cli_load w s = inr (Exit 1)) by (apply load_exit; auto). congruence.
        -- apply given_hasnt in H0. congruence.
  - apply given_hasnt in Ec. destruct (given (o_native c)) as [s|] eqn:En.
    + apply given_has in En. destruct (cli_open w s) as [t|o] eqn:El.
      * apply open_opens in El. left. eexists. eapply src_native; eassumption.
      * destruct o as [| | | |n|e]; try (unfold cli_open in El; destruct (startswith _ _); [discriminate|]; destruct (w_files w s) as [[]|]; discriminate).
        pose proof El as El'. apply open_exit in El' as [-> M]. right. right. right. left. eauto 10.
    + apply given_hasnt in En. right. left. auto.
Qed.
Lemma source_fun w oid K c m m' : source w oid K c m -> source w oid K c m' -> m = m'.
Proof.
  intros [s t H R|s n H0 H R] [s' t' H' R'|s' n' H0' H' R'].
  - destruct H as [H _], H' as [H' _]. rewrite H in H'. injection H' as <-. apply load_reads in R. apply load_reads in R'. rewrite R in R'. injection R' as <-. reflexivity.
  - exfalso. apply given_has in H. apply given_hasnt in H0'. congruence.
  - exfalso. apply given_has in H'. apply given_hasnt in H0. congruence.
  - destruct H as [H _], H' as [H' _]. rewrite H in H'. injection H' as <-. apply open_opens in R. apply open_opens in R'. rewrite R in R'. injection R' as <-. reflexivity.
Qed.
Lemma source_inputs w oid K c make : source w oid K c make ->
  ~ (hasnt (o_config c) /\ hasnt (o_native c)) /\ (forall s, has (o_config c) s -> ~ missing w s) /\
  (forall s, hasnt (o_config c) -> has (o_native c) s -> ~ missing w s).
Proof.
  intros [s t H R|s n H0 H R].
  - apply given_has in H. repeat split.
    + intros [H0 _]. apply given_hasnt in H0. congruence.
    + intros s' H' M. apply given_has in H'. rewrite H in H'. injection H' as <-. apply load_reads in R. assert (cli_load w s = inr (Exit 1)) by (apply load_exit; auto). congruence.
    + intros s' H0 _. apply given_hasnt in H0. congruence.
  - apply given_hasnt in H0. apply given_has in H. repeat split.
    + intros [_ H1]. apply given_hasnt in H1. congruence.
    + intros s' H' M. apply given_has in H'. congruence.
    + intros s' _ H' M. apply given_has in H'. rewrite H in H'. injection H' as <-. apply open_opens in R. assert (cli_open w s = inr (Exit 1)) by (apply open_exit; auto). congruence.
Qed.
Theorem cli_exit w oid K c n : cli w oid K c = Exit n <-> exit_cause w oid K c n.
Proof.
  destruct (cli_cases w oid K c) as [(make & S)|[(H0 & H1 & E)|[(s & H & M & E)|[(s & H0 & H & M & E)|(e & E & Hn)]]]].
  - rewrite (source_go _ _ _ _ _ S). unfold cli_go. destruct (source_inputs _ _ _ _ _ S) as (I1 & I2 & I3). split.
    + destruct (cli_load_all w (o_templates c)) as [ts|o] eqn:El.
      * apply load_all_reads in El. destruct (parse_args (o_args c) []) as [kw|] eqn:Ea.
        -- unfold built. destruct (make ts) as [a|e] eqn:Em.
           ++ intros H. apply finish_exit in H as [(-> & msg & H)|(-> & H)].
              ** eapply ex_invalid; [exists make, ts; eauto|exact H].
              ** eapply ex_type; [exists make, ts; eauto|exact H].
           ++ destruct e; try discriminate. intros H. injection H as <-. apply ex_bad_json with (kw := kw). exists make, ts. auto.
        -- intros H. injection H as <-. eapply ex_bad_args; eauto. apply parse_args_none in Ea. exact Ea.
      * intros ->. apply load_all_exit in El as (-> & b & ts & t & af & E1 & F & M). eapply ex_no_template; eauto.
    + intros H. destruct H as [H0 H1|s' H1 M|s' H0 H M|make' b ts t af S' E1 F M|make' ts S' F Na|kw (make' & ts & S' & F & Ea & Em)|a kw msg (make' & ts & S' & F & Ea & Em) Hc|a kw (make' & ts & S' & F & Ea & Em) Hc];
        try (pose proof (source_fun _ _ _ _ _ _ S S'); subst make').
      * tauto.
      * exfalso. exact (I2 _ H1 M).
      * exfalso. exact (I3 _ H0 H M).
      * assert (cli_load_all w (o_templates c) = inr (Exit 1)) as -> by (apply load_all_exit; eauto 10). reflexivity.
      * apply load_all_reads in F. rewrite F. apply (parse_args_none _ []) in Na. rewrite Na. reflexivity.
      * apply load_all_reads in F. rewrite F, Ea, <- Em. reflexivity.
      * apply load_all_reads in F. rewrite F, Ea, <- Em. cbn [built]. rewrite Hc. reflexivity.
      * apply load_all_reads in F. rewrite F, Ea, <- Em. cbn [built]. rewrite Hc. reflexivity.
  - rewrite E. split; [intros H; injection H as <-; constructor; assumption|]. intros H. f_equal.
    destruct H as [_ _|s' H1' M|s' H0' H' M|make' b ts t af S' E1 F M|make' ts S' F Na|kw (make' & ts & S' & F & Ea & Em)|a kw msg (make' & ts & S' & F & Ea & Em) Hc|a kw (make' & ts & S' & F & Ea & Em) Hc]; try reflexivity;
      destruct (source_inputs _ _ _ _ _ S') as (I1 & _ & _); tauto.
  - rewrite E. split; [intros H2; injection H2 as <-; eapply ex_no_config; eassumption|]. intros H2. f_equal.
    destruct H2 as [_ _|s' H1' M'|s' H0' H' M'|make' b ts t af S' E1 F M'|make' ts S' F Na|kw (make' & ts & S' & F & Ea & Em)|a kw msg (make' & ts & S' & F & Ea & Em) Hc|a kw (make' & ts & S' & F & Ea & Em) Hc]; try reflexivity;
      destruct (source_inputs _ _ _ _ _ S') as (_ & I2 & _); destruct (I2 _ H M).
  - rewrite E. split; [intros H2; injection H2 as <-; eapply ex_no_native; eassumption|]. intros H2. f_equal.
    destruct H2 as [_ _|s' H1' M'|s' H0' H' M'|make' b ts t af S' E1 F M'|make' ts S' F Na|kw (make' & ts & S' & F & Ea & Em)|a kw msg (make' & ts & S' & F & Ea & Em) Hc|a kw (make' & ts & S' & F & Ea & Em) Hc]; try reflexivity;
      destruct (source_inputs _ _ _ _ _ S') as (_ & _ & I3); destruct (I3 _ H0 H M).
  - rewrite E. split; [discriminate|]. intros H. exfalso. eauto.
Qed.
(** When the program does what was asked *)
Lemma cli_done w oid K c o : cli w oid K c = o -> (forall n, o <> Exit n) -> (forall e, o <> Raised e) ->
  exists a kw, started w oid K c (Ok a) kw /\ call w a (o_method c) kw = Ok o.
Proof.
  intros <- Hx Hr. destruct (cli_cases w oid K c) as [(make & S)|[(H0 & H1 & E)|[(s & H & M & E)|[(s & H0 & H & M & E)|(e & E & Hn)]]]];
    try (exfalso; eapply Hx; exact E); try (exfalso; eapply Hr; exact E).
  rewrite (source_go _ _ _ _ _ S) in *. unfold cli_go in *. destruct (cli_load_all w (o_templates c)) as [ts|o] eqn:El.
  2: { exfalso. destruct o as [| | | | |]; try (eapply Hx; reflexivity); try (eapply Hr; reflexivity);
       (clear -El; induction (o_templates c) as [|x l IH]; [discriminate|]; cbn [cli_load_all] in El; unfold cli_load in El;
        destruct (startswith _ _); [|destruct (w_files w x) as [[]|]; try discriminate]; destruct (cli_load_all w l); try discriminate; injection El as ->; apply IH; reflexivity). }
  destruct (parse_args (o_args c) []) as [kw|] eqn:Ea; [|exfalso; eapply Hx; reflexivity].
  destruct (make ts) as [a|e] eqn:Em; cbn [built] in *.
  - exists a, kw. split; [exists make, ts; apply load_all_reads in El; auto|].
    destruct (call w a (o_method c) kw) as [o|e]; cbn [finish] in *; [reflexivity|]. exfalso. destruct e; try (eapply Hx; reflexivity); try (eapply Hr; reflexivity).
  - exfalso. destruct e; try (eapply Hx; reflexivity); try (eapply Hr; reflexivity).
Qed.
Lemma started_done w oid K c a kw o : started w oid K c (Ok a) kw -> call w a (o_method c) kw = Ok o -> cli w oid K c = o.
Proof.
  intros (make & ts & S & F & Ea & Em) Hc. rewrite (source_go _ _ _ _ _ S). unfold cli_go. apply load_all_reads in F. rewrite F, Ea, <- Em.
  cbn [built]. rewrite Hc. reflexivity.
Qed.
