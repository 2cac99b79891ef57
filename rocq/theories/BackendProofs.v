(** * BackendProofs: call histories of a backend object *)
From Verif Require Import PyBase PyLemmas Merge Files SpecFiles FilesProofs Backend.

(** The object no longer changes: intermediate data set, files deduplicated. *)
Definition settled (s : state) : Prop :=
  st_inter s <> None /\ deduplicate_files (st_config s) = Ok (st_config s).

Lemma state_eta s : {| st_config := st_config s; st_inter := st_inter s |} = s.
Proof. destruct s. reflexivity. Qed.

Lemma render_settled oid B f s : settled s -> render oid B f s =
  (s, do _ <- be_validate B (st_config s); render_text B f s).
Proof.
  intros [Hi Hd]. destruct s as [cfg [i|]]; cbn in *; [|congruence]. unfold render. cbn [st_config st_inter].
  destruct (be_validate B cfg) as [[]|e]; [|reflexivity]. cbn [bind]. rewrite Hd. reflexivity.
Qed.
Lemma step_settled oid B c s : settled s -> fst (step oid B c s) = s.
Proof.
  intros H. destruct c; cbn; try reflexivity.
  - rewrite render_settled by assumption. reflexivity.
  - unfold generate. rewrite render_settled by assumption. reflexivity.
Qed.
Lemma step_settled_eq oid B c s : settled s -> step oid B c s = (s, snd (step oid B c s)).
Proof. intros H. rewrite <- (step_settled oid B c s H) at 2. apply surjective_pairing. Qed.

Lemma convert_fwd_inter oid : forall cs s i s' u, convert_fwd oid cs s i = (s', Ok u) -> st_inter s' <> None.
Proof.
  induction cs as [|c t IH]; intros s i s' u H; cbn in H.
  - injection H as <- _. discriminate.
  - destruct (c_fwd_run c (st_config s)); cbn in H; [|eapply IH; eassumption].
    destruct (c_fwd c (st_config s) i) as [cfg [v|e]]; [|discriminate].
    destruct v as [|kv v]; [eapply IH; eassumption|].
    destruct (merge_config oid [".name"] i (kv :: v)); [eapply IH; eassumption|discriminate].
Qed.

(** A successful render leaves the object settled, and its text is what the
    settled object shows. *)
Lemma render_ok_settled oid B f s s' t : render oid B f s = (s', Ok t) ->
  settled s' /\ render_text B f s' = Ok t.
Proof.
  unfold render. destruct (be_validate B (st_config s)) as [[]|e]; [|discriminate].
  destruct (match st_inter s with None => to_intermediate oid B s | Some _ => (s, Ok tt) end) as [s1 [[]|e]] eqn:E1; [|discriminate].
  assert (Hi : st_inter s1 <> None).
  { destruct (st_inter s) eqn:Ei.
    - injection E1 as <-. congruence.
    - unfold to_intermediate in E1. destruct (be_validate B (st_config s)); [|discriminate].
      eapply convert_fwd_inter; eassumption. }
  destruct (deduplicate_files (st_config s1)) as [cfg|e] eqn:Ed; [|discriminate].
  intros H. injection H as <- H. split; [|assumption].
  split; cbn; [assumption|]. eapply deduplicate_idem; eassumption.
Qed.
Lemma generate_ok_settled oid B s s' tar : generate oid B s = (s', Ok tar) -> settled s' /\
  exists t tar0, render_text B false s' = Ok t /\ be_contents B t = Ok tar0 /\ process_files (st_config s') tar0 = Ok tar.
Proof.
  unfold generate. destruct (render oid B false s) as [s1 [t|e]] eqn:E; cbn; [|discriminate].
  destruct (be_contents B t) as [tar0|] eqn:Et; cbn; [|discriminate]. intros H. injection H as <- H.
  destruct (render_ok_settled _ _ _ _ _ _ E) as [? ?]. eauto 10.
Qed.

Lemma run_settled oid B : forall h s, settled s -> fst (run oid B h s) = s /\
  forall i c a, nth_error h i = Some c -> nth_error (snd (run oid B h s)) i = Some a -> a = snd (step oid B c s).
Proof.
  induction h as [|c t IH]; intros s Hs; cbn.
  - split; [reflexivity|]. intros [|i]; discriminate.
  - rewrite step_settled_eq by assumption. destruct (IH s Hs) as [IH1 IH2].
    destruct (run oid B t s) as [s2 l]. cbn in *. subst s2. split; [reflexivity|].
    intros [|i] d a; cbn.
    + intros E1 E2. congruence.
    + apply IH2.
Qed.

(** The answers of a history only depend on the calls and positions: split the
    history at the first of two positions. *)
Lemma run_app oid B : forall h1 h2 s, run oid B (h1 ++ h2) s =
  let (s1, l1) := run oid B h1 s in let (s2, l2) := run oid B h2 s1 in (s2, l1 ++ l2)%list.
Proof.
  induction h1 as [|c t IH]; intros h2 s; cbn.
  - destruct (run oid B h2 s). reflexivity.
  - destruct (step oid B c s) as [s1 a]. rewrite IH. destruct (run oid B t s1) as [s2 l1].
    destruct (run oid B h2 s2). reflexivity.
Qed.
Lemma run_length oid B : forall h s, length (snd (run oid B h s)) = length h.
Proof.
  induction h as [|c t IH]; intros s; cbn; [reflexivity|].
  destruct (step oid B c s) as [s1 a]. specialize (IH s1). destruct (run oid B t s1). cbn in *. congruence.
Qed.

Definition answered (a : answer) : Prop :=
  match a with AText (Ok _) => True | ATar (Ok _) => True | _ => False end.
(** Once a render or generate call has succeeded, the object does not change
    and every later call answers as a call on that object. *)
Lemma history_settles oid B : forall h s i c a, nth_error h i = Some c ->
  nth_error (snd (run oid B h s)) i = Some a -> answered a ->
  exists sf, settled sf /\ fst (run oid B h s) = sf /\ (exists s0, step oid B c s0 = (sf, a)) /\
    forall j d b, i < j -> nth_error h j = Some d -> nth_error (snd (run oid B h s)) j = Some b ->
      b = snd (step oid B d sf).
Proof.
  induction h as [|c0 t IH]; intros s i c a Hc Ha Hok; [destruct i; discriminate|].
  cbn in Ha |- *. destruct (step oid B c0 s) as [s1 a1] eqn:E1. destruct (run oid B t s1) as [s2 l] eqn:E2.
  destruct i as [|i]; cbn in Hc, Ha.
  - injection Hc as ->. injection Ha as ->. assert (Hs : settled s1).
    { destruct c; cbn in E1.
      - destruct (render oid B files s) as [s' [x|]] eqn:E; injection E1 as <- <-; [|destruct Hok].
        eapply render_ok_settled; eassumption.
      - injection E1 as _ <-. destruct Hok.
      - destruct (generate oid B s) as [s' [x|]] eqn:E; injection E1 as <- <-; [|destruct Hok].
        eapply generate_ok_settled; eassumption.
      - injection E1 as _ <-. destruct Hok. }
    destruct (run_settled oid B t s1 Hs) as [F1 F2]. rewrite E2 in F1, F2. cbn in *. subst s2.
    exists s1. split; [assumption|]. split; [reflexivity|]. split; [eauto|].
    intros [|j] d b Hj; [lia|]. cbn. apply F2.
  - specialize (IH s1 i c a Hc). rewrite E2 in IH. cbn in IH. destruct (IH Ha Hok) as (sf & Hs & Hf & Hst & Hl).
    exists sf. split; [assumption|]. split; [assumption|]. split; [assumption|].
    intros [|j] d b Hj; [lia|]. cbn. apply Hl. lia.
Qed.

(** Same calls, same answers. *)
Lemma render_repeat oid B h s i j f t1 t2 :
  nth_error h i = Some (CRender f) -> nth_error h j = Some (CRender f) ->
  nth_error (snd (run oid B h s)) i = Some (AText (Ok t1)) ->
  nth_error (snd (run oid B h s)) j = Some (AText (Ok t2)) -> t1 = t2.
Proof.
  assert (G : forall i j t1 t2, i < j -> nth_error h i = Some (CRender f) -> nth_error h j = Some (CRender f) ->
    nth_error (snd (run oid B h s)) i = Some (AText (Ok t1)) ->
    nth_error (snd (run oid B h s)) j = Some (AText (Ok t2)) -> t1 = t2).
  { clear. intros i j t1 t2 Hij Hi Hj Ai Aj.
    destruct (history_settles oid B h s i _ _ Hi Ai I) as (sf & Hs & _ & (s0 & Hst) & Hl).
    specialize (Hl j _ _ Hij Hj Aj). cbn in Hl, Hst. rewrite render_settled in Hl by assumption. cbn in Hl.
    destruct (render oid B f s0) as [s' r] eqn:E. injection Hst as -> ->.
    destruct (render_ok_settled _ _ _ _ _ _ E) as [_ Et]. rewrite Et in Hl.
    destruct (be_validate B (st_config sf)); cbn in Hl; congruence. }
  intros Hi Hj Ai Aj. destruct (Nat.lt_trichotomy i j) as [L|[->|L]].
  - eapply G; eassumption.
  - congruence.
  - symmetry. eapply G; eassumption.
Qed.
Lemma generate_repeat oid B h s i j t1 t2 :
  nth_error h i = Some CGenerate -> nth_error h j = Some CGenerate ->
  nth_error (snd (run oid B h s)) i = Some (ATar (Ok t1)) ->
  nth_error (snd (run oid B h s)) j = Some (ATar (Ok t2)) -> t1 = t2.
Proof.
  assert (G : forall i j t1 t2, i < j -> nth_error h i = Some CGenerate -> nth_error h j = Some CGenerate ->
    nth_error (snd (run oid B h s)) i = Some (ATar (Ok t1)) ->
    nth_error (snd (run oid B h s)) j = Some (ATar (Ok t2)) -> t1 = t2).
  { clear. intros i j t1 t2 Hij Hi Hj Ai Aj.
    destruct (history_settles oid B h s i _ _ Hi Ai I) as (sf & Hs & _ & (s0 & Hst) & Hl).
    specialize (Hl j _ _ Hij Hj Aj). cbn in Hl, Hst. unfold generate in Hl. rewrite render_settled in Hl by assumption. cbn in Hl.
    destruct (generate oid B s0) as [s' r] eqn:E. injection Hst as -> ->.
    destruct (generate_ok_settled _ _ _ _ _ E) as (_ & t & tar0 & Et & Et0 & Ep). rewrite Et in Hl.
    destruct (be_validate B (st_config sf)); cbn in Hl; [|congruence]. rewrite Et0 in Hl. cbn in Hl. congruence. }
  intros Hi Hj Ai Aj. destruct (Nat.lt_trichotomy i j) as [L|[->|L]].
  - eapply G; eassumption.
  - congruence.
  - symmetry. eapply G; eassumption.
Qed.

(** Rendering with files is rendering without them, followed by the files. *)
Lemma render_text_files B s t : render_text B true s = Ok t ->
  exists t0 f, render_text B false s = Ok t0 /\ t = t0 +++ f /\
    (dget "files" (st_config s) = None -> f = EmptyString).
Proof.
  unfold render_text. destruct (match st_inter s with Some i => be_render B (st_config s) i | None => Err EAttr end) as [t0|e]; [|discriminate].
  cbn. destruct (render_files (st_config s)) as [f|e] eqn:Ef; [|discriminate]. cbn. intros H. injection H as <-.
  exists t0. destruct (String.eqb f EmptyString) eqn:Eq.
  - exists EmptyString. rewrite app_nil_s. auto.
  - eexists. split; [reflexivity|]. split; [reflexivity|]. intros Hn. exfalso. apply String.eqb_neq in Eq. apply Eq.
    unfold render_files, get_files in Ef. rewrite Hn in Ef. cbn in Ef. congruence.
Qed.

(** ** Validation failures *)
Lemma invalid_run oid B : forall h s e, be_validate B (st_config s) = Err e ->
  fst (run oid B h s) = s /\
  forall i c a, nth_error h i = Some c -> nth_error (snd (run oid B h s)) i = Some a ->
    c <> CJson false -> a = AText (Err e) \/ a = ADoc (Err e) \/ a = ATar (Err e) \/ a = AUnit (Err e).
Proof.
  intros h s e He. assert (Hs : forall c, fst (step oid B c s) = s /\
     (c <> CJson false -> snd (step oid B c s) = AText (Err e) \/ snd (step oid B c s) = ADoc (Err e) \/
      snd (step oid B c s) = ATar (Err e) \/ snd (step oid B c s) = AUnit (Err e))).
  { intros c. assert (Hr : forall f, render oid B f s = (s, Err e)) by (intro f; unfold render; rewrite He; reflexivity).
    destruct c as [f|[]| |]; cbn.
    - rewrite Hr. cbn. auto.
    - rewrite He. cbn. auto.
    - split; [reflexivity|congruence].
    - unfold generate. rewrite Hr. cbn. auto.
    - rewrite He. auto. }
  induction h as [|c t [IH1 IH2]]; cbn.
  - split; [reflexivity|]. intros [|i]; discriminate.
  - destruct (Hs c) as [S1 S2]. destruct (step oid B c s) as [s1 a1]. cbn in S1, S2. subst s1.
    destruct (run oid B t s) as [s2 l]. cbn in *. subst s2. split; [reflexivity|].
    intros [|i] d b; cbn.
    + intros E1 E2 Hd. injection E1 as ->. injection E2 as ->. apply S2. assumption.
    + apply IH2.
Qed.

(** The base validation accepts exactly when the schema accepts and every path
    is safe; its only failure on schema-shaped files is ValidationError. *)
Lemma base_validate_spec (schema_ok : dict -> res unit) config files :
  (forall e, schema_ok config = Err e -> exists m, e = EJsonSchema m) ->
  (schema_ok config = Ok tt -> get_files config = Ok files /\ forall f, In f files -> exists p, file_path f p) ->
  (base_validate schema_ok config = Ok tt <->
     schema_ok config = Ok tt /\ forall f p, In f files -> file_path f p -> valid_file_path p = true) /\
  (forall e, base_validate schema_ok config = Err e -> exists m, e = EValidation m).
Proof.
  intros He Hok. unfold base_validate. destruct (schema_ok config) as [[]|e] eqn:Es; cbn.
  - destruct (Hok eq_refl) as [Hf Hp]. unfold validate_file_paths. rewrite Hf. cbn [bind].
    split.
    + split.
      * intros H. split; [reflexivity|]. intros f p Hin (d & -> & Hd).
        destruct (check_files files) as [[]|e] eqn:Ec; cbn in H; [|destruct e; discriminate].
        destruct (valid_file_path p) eqn:Ev; [reflexivity|]. exfalso.
        pose proof (check_files_spec _ Ec (VDict d) d p Hin eq_refl Hd). congruence.
      * intros [_ Hv]. assert (check_files files = Ok tt) as ->; [|reflexivity].
        clear Hf Hok. induction files as [|f l IH]; [reflexivity|].
        destruct (Hp f (or_introl eq_refl)) as (p & d & -> & Hd). cbn. unfold dgetE. rewrite Hd. cbn.
        rewrite (Hv (VDict d) p (or_introl eq_refl)) by (exists d; auto).
        apply IH; [intros g Hg; apply Hp; right; assumption|intros g q Hg; apply Hv; right; assumption].
    + intros e He'. clear Hf Hok. induction files as [|f l IH]; cbn in He'; [discriminate|].
      destruct (Hp f (or_introl eq_refl)) as (p & d & -> & Hd). cbn in He'. unfold dgetE in He'. rewrite Hd in He'. cbn in He'.
      destruct (valid_file_path p).
      * apply IH; [intros g Hg; apply Hp; right; assumption|assumption].
      * cbn in He'. injection He' as <-. eauto.
  - destruct (He e eq_refl) as [m ->]. cbn. split.
    + split; [discriminate|]. intros [H _]. discriminate.
    + intros e' H. injection H as <-. eauto.
Qed.

(** ** Parsing *)
Lemma parse_keeps oid B data s s' : parse oid B (Ok data) s = (s', Ok tt) ->
  st_inter s' = Some data /\ be_validate B (st_config s') = Ok tt.
Proof.
  cbn. unfold to_netjson. destruct (convert_bwd oid B (be_convs B) data [] data) as [[config inter] [[]|e]]; [|discriminate].
  intros H. injection H as <- H. cbn. auto.
Qed.
Lemma dedup_inter_render oid B f s s' r i : st_inter s = Some i -> render oid B f s = (s', r) -> st_inter s' = Some i.
Proof.
  intros Hi. unfold render. destruct (be_validate B (st_config s)); [|intros H; injection H as <- <-; assumption].
  rewrite Hi. destruct (deduplicate_files (st_config s)); intros H; injection H as <- <-; cbn; assumption.
Qed.
Lemma step_inter oid B c s i : st_inter s = Some i -> st_inter (fst (step oid B c s)) = Some i.
Proof.
  intros Hi. destruct c; cbn; try assumption.
  - destruct (render oid B files s) as [s' r] eqn:E. cbn. eapply dedup_inter_render; eassumption.
  - unfold generate. destruct (render oid B false s) as [s' r] eqn:E. cbn. eapply dedup_inter_render; eassumption.
Qed.
Lemma run_inter oid B : forall h s i, st_inter s = Some i -> st_inter (fst (run oid B h s)) = Some i.
Proof.
  induction h as [|c t IH]; intros s i Hi; cbn; [assumption|].
  pose proof (step_inter oid B c s i Hi) as H. destruct (step oid B c s) as [s1 a]. cbn in H.
  specialize (IH s1 i H). destruct (run oid B t s1). assumption.
Qed.
