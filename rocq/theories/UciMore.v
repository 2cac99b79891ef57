(** * UciMore: proofs of C23, C24 and C25 *)
From Verif Require Import PyBase PyLemmas Files Uci SpecUci SpecUciMore SpecFiles FilesProofs StrLemmas SortLemmas UciProofs UciParseProofs UciRoundTrip.

(** ** C23 *)
Lemma spaces_snoc k Y : spaces k +++ String " " Y = String " " (spaces k +++ Y).
Proof. induction k as [|k IH]; [reflexivity|]. cbn [spaces String.append]. rewrite IH. reflexivity. Qed.
Lemma spaces_S4 k Y : spaces k +++ S4 +++ Y = S4 +++ spaces k +++ Y.
Proof. unfold S4. cbn [String.append]. rewrite !spaces_snoc. reflexivity. Qed.
Lemma replace_S4_hit Y : replace S4 EmptyString (S4 +++ Y) = replace S4 EmptyString Y.
Proof. unfold S4. rewrite replace_hit. reflexivity. Qed.
Lemma all_spaces s : sforall (fun c => Ascii.eqb c " ") s = true -> s = spaces (String.length s).
Proof.
  induction s as [|c s IH]; [reflexivity|]. cbn. intros H. apply andb_true_iff in H as [H1 H2].
  apply Ascii.eqb_eq in H1 as ->. rewrite <- IH by exact H2. reflexivity.
Qed.
(** Where the next non-space is within the first four characters of [a] *)
Lemma starts_mixed p a Y : sforall (fun c => Ascii.eqb c " ") p = true ->
  sforall (fun c => Ascii.eqb c " ") a = false -> startswith p (a +++ Y) = startswith p a.
Proof.
  revert a; induction p as [|c p IH]; intros a Hp Ha; [destruct a; reflexivity|].
  cbn in Hp. apply andb_true_iff in Hp as [Hc Hp]. apply Ascii.eqb_eq in Hc as ->.
  destruct a as [|d a]; [discriminate|]. cbn [String.append startswith]. cbn in Ha.
  destruct (Ascii.eqb " " d) eqn:E; [|reflexivity]. cbn [andb].
  apply Ascii.eqb_eq in E as <-. cbn in Ha. apply IH; assumption.
Qed.
Lemma replace_S4_insert_n : forall n a Y, (String.length a <= n)%nat ->
  replace S4 EmptyString (a +++ S4 +++ Y) = replace S4 EmptyString (a +++ Y).
Proof.
  induction n as [|n IH]; intros a Y Hn.
  - destruct a; [apply replace_S4_hit|cbn in Hn; lia].
  - destruct (sforall (fun c => Ascii.eqb c " ") a) eqn:Ha.
    + rewrite (all_spaces a Ha), spaces_S4. apply replace_S4_hit.
    + destruct a as [|c a]; [discriminate|].
      destruct (startswith S4 (String c a)) eqn:Es.
      * apply startswith_true in Es as (r & Er). rewrite Er, !app_assoc_s, !replace_S4_hit. apply IH.
        rewrite Er, length_app_s in Hn. cbn in Hn. lia.
      * cbn [String.append].
        rewrite !replace_miss.
        -- f_equal. apply IH. cbn in Hn. lia.
        -- change (String c (a +++ Y)) with (String c a +++ Y). rewrite starts_mixed; [exact Es|reflexivity|exact Ha].
        -- change (String c (a +++ S4 +++ Y)) with (String c a +++ S4 +++ Y). rewrite starts_mixed; [exact Es|reflexivity|exact Ha].
Qed.
Lemma replace_S4_spaces a n Y : replace S4 EmptyString (a +++ spaces (4 * n) +++ Y) = replace S4 EmptyString (a +++ Y).
Proof.
  induction n as [|n IH]; [reflexivity|].
  replace (4 * S n)%nat with (4 + 4 * n)%nat by lia.
  change (spaces (4 + 4 * n) +++ Y) with (S4 +++ spaces (4 * n) +++ Y).
  rewrite (replace_S4_insert_n _ a (spaces (4 * n) +++ Y) (le_n _)). exact IH.
Qed.
(** Raw texts with the same text after the removal of space runs, in any context *)
Definition same4 (x y : string) : Prop := forall a b, replace S4 EmptyString (a +++ x +++ b) = replace S4 EmptyString (a +++ y +++ b).
Lemma same4_refl x : same4 x x. Proof. intros a b; reflexivity. Qed.
Lemma same4_app x x' y y' : same4 x x' -> same4 y y' -> same4 (x +++ y) (x' +++ y').
Proof.
  intros H1 H2 a b. rewrite !app_assoc_s. rewrite (H1 a (y +++ b)).
  rewrite <- !app_assoc_s. rewrite (app_assoc_s (a +++ x') y b), (app_assoc_s (a +++ x') y' b). apply H2.
Qed.
Lemma same4_spaces n : same4 (spaces (4 * n)) EmptyString.
Proof. intros a b. rewrite replace_S4_spaces. reflexivity. Qed.
Lemma same4_drop kv : unwritten kv -> same4 (tpl_item kv) EmptyString.
Proof.
  destruct kv as [k v]. intros (_ & _ & [H|H]); cbn [fst snd] in *; unfold tpl_item; cbn [fst snd].
  - rewrite H, andb_false_r. exact (same4_spaces 5).
  - destruct (negb (startswith "." k)); [|rewrite andb_false_r; exact (same4_spaces 5)].
    destruct v as [|b|z|r|s|l|d]; try discriminate H.
    + exact (same4_spaces 5).
    + destruct s; [exact (same4_spaces 5)|discriminate H].
    + destruct l; [exact (same4_spaces 21)|discriminate H].
    + destruct d; [exact (same4_spaces 21)|discriminate H].
Qed.
Lemma same4_items b b' : thinned b b' ->
  same4 (fold_right (fun kv acc => tpl_item kv +++ acc) EmptyString b) (fold_right (fun kv acc => tpl_item kv +++ acc) EmptyString b').
Proof.
  induction 1 as [|kv b b' H IH|kv b b' Hu H IH]; cbn [fold_right].
  - apply same4_refl.
  - apply same4_app; [apply same4_refl|exact IH].
  - change (fold_right (fun kv acc => tpl_item kv +++ acc) EmptyString b') with (EmptyString +++ fold_right (fun kv acc => tpl_item kv +++ acc) EmptyString b').
    apply same4_app; [apply same4_drop; exact Hu|exact IH].
Qed.
Lemma thinned_get b b' k : thinned b b' -> k = ".type" \/ k = ".name" -> dget k b = dget k b'.
Proof.
  intros H Hk. induction H as [|[k' v] b b' H IH|[k' v] b b' (U1 & U2 & _) H IH]; cbn [dget]; [reflexivity|rewrite IH; reflexivity|].
  cbn [fst] in *. rewrite eqb_neq; [exact IH|]. destruct Hk; subst k; congruence.
Qed.
Lemma same4_block b b' : thinned b b' -> same4 (tpl_block b) (tpl_block b').
Proof.
  intros H. unfold tpl_block, tpl_get. rewrite (thinned_get b b' ".type" H), (thinned_get b b' ".name" H) by tauto.
  repeat (apply same4_app; [apply same4_refl|]). apply same4_app; [apply same4_items; exact H|apply same4_refl].
Qed.
Lemma same4_package p bs bs' : Forall2 thinned bs bs' -> same4 (tpl_package p bs) (tpl_package p bs').
Proof.
  intros H. unfold tpl_package. repeat (apply same4_app; [apply same4_refl|]). apply same4_app; [|apply same4_refl].
  induction H as [|b b' bs bs' Hb H IH]; cbn [fold_right]; [apply same4_refl|].
  apply same4_app; [apply same4_block; exact Hb|exact IH].
Qed.
Lemma same4_uci d d' : data_thinned d d' -> forall acc acc', same4 acc acc' ->
  exists s s', foldM (fun acc kv => do bs <- blocks_of (snd kv); Ok (acc +++ tpl_package (fst kv) bs)) acc d = Ok s /\
    foldM (fun acc kv => do bs <- blocks_of (snd kv); Ok (acc +++ tpl_package (fst kv) bs)) acc' d' = Ok s' /\ same4 s s'.
Proof.
  induction 1 as [|[p v] [p' v'] d d' (E & bs & bs' & E1 & E2 & HF) H IH]; intros acc acc' Ha.
  - exists acc, acc'. repeat split; exact Ha.
  - cbn [fst snd] in *. subst p' v v'. cbn [foldM fst snd]. unfold blocks_of at 1 3. cbn [as_list bind].
    rewrite !mapM_as_dict. cbn [bind]. apply IH. apply same4_app; [exact Ha|apply same4_package; exact HF].
Qed.
Theorem unwritten_options d d' : data_thinned d d' -> render_uci d = render_uci d'.
Proof.
  intros H. unfold render_uci, tpl_uci. destruct (same4_uci d d' H EmptyString EmptyString (same4_refl _)) as (s & s' & -> & -> & E).
  cbn [bind]. f_equal. unfold cleanup. specialize (E EmptyString EmptyString). cbn [String.append] in E. rewrite !app_nil_s in E.
  unfold S4 in E. rewrite E. reflexivity.
Qed.

(** ** C24 *)
Lemma parse_line_err block line e : parse_line block line = Err e -> e = EType.
Proof.
  unfold parse_line. destruct (line_match (strip line)) as [[[o k] v]|]; [|discriminate].
  cbv zeta. destruct o; [discriminate|]. destruct (dget _ block) as [[]|]; congruence.
Qed.
Lemma foldM_err {A B} (f : B -> A -> res B) (P : exn -> Prop) : (forall b a e, f b a = Err e -> P e) ->
  forall l b e, foldM f b l = Err e -> P e.
Proof.
  intros Hf l; induction l as [|a l IH]; intros b e H; cbn in H; [discriminate|].
  destruct (f b a) eqn:E; cbn in H; [eapply IH; exact H|]. injection H as <-. eapply Hf; exact E.
Qed.
Lemma strip_nonspace s : strip s <> EmptyString -> exists c r, strip s = String c r /\ is_space c = false.
Proof.
  intros H. destruct (strip_split s) as (a & b & E & Ha & Hb & T). destruct (T H) as (_ & T1 & _).
  destruct (strip s) as [|c r]; [congruence|]. exists c, r. split; [reflexivity|]. eapply T1; reflexivity.
Qed.
Lemma split_first c r : c <> NLc -> exists f t, split_char NLc (String c r) = String c f :: t.
Proof.
  intros H. cbn [split_char]. destruct (Ascii.eqb c NLc) eqn:E; [apply Ascii.eqb_eq in E; congruence|].
  destruct (split_char NLc r) as [|h t]; eauto.
Qed.
Lemma split_ws_cur c cur s : exists w t, split_ws_from (String c cur) s = w :: t.
Proof.
  revert c cur; induction s as [|d s IH]; intros c cur; cbn [split_ws_from]; [eauto|].
  destruct (is_space d); [eauto|]. apply IH.
Qed.
Lemma split_ws_nonspace c f : is_space c = false -> exists w t, split_ws (String c f) = w :: t.
Proof. intros H. unfold split_ws. cbn [split_ws_from]. rewrite H. apply split_ws_cur. Qed.
(** A stripped, non-empty block always has a first word. *)
Lemma parse_block_first i s : strip s <> EmptyString -> exists first lines w rest,
  split_char NLc (strip s) = first :: lines /\ split_ws first = w :: rest /\
  parse_block i (strip s) =
    do block <- foldM parse_line [(".type", VStr (strip_quotes w));
       (".name", VStr (match rest with n :: _ => strip_quotes n | [] => strip_quotes w +++ "_" +++ string_of_nat i end))] lines;
    Ok (ssort (set_block_type block)).
Proof.
  intros H. destruct (strip_nonspace s H) as (c & r & E & Hc). rewrite E.
  assert (Hn : c <> NLc) by (intros ->; discriminate Hc).
  destruct (split_first c r Hn) as (f & t & E1). destruct (split_ws_nonspace c f Hc) as (w & rest & E2).
  exists (String c f), t, w, rest. repeat split; [exact E1|exact E2|].
  unfold parse_block. rewrite E1, E2. reflexivity.
Qed.
Lemma parse_blocks_err ps : forall i e, parse_blocks_from i ps = Err e -> e = EType.
Proof.
  induction ps as [|p ps IH]; intros i e H; cbn in H; [discriminate|].
  destruct (String.eqb (strip p) EmptyString) eqn:E; [eapply IH; exact H|].
  apply String.eqb_neq in E. destruct (parse_block_first (S i) p E) as (f & ls & w & rest & _ & _ & Eb). rewrite Eb in H.
  destruct (foldM parse_line _ ls) as [b|e'] eqn:Ef; cbn in H.
  - destruct (parse_blocks_from (S i) ps) as [bs|e'] eqn:E2; cbn in H; [discriminate|]. injection H as <-. eapply IH; exact E2.
  - injection H as <-. eapply (foldM_err parse_line (fun e => e = EType)); [apply parse_line_err|exact Ef].
Qed.
Theorem parse_text_total text : (exists d, parse_text text = Ok d) \/ parse_text text = Err EType.
Proof.
  destruct (parse_text text) as [d|e] eqn:H; [left; eauto|right]. f_equal.
  unfold parse_text in H. eapply (foldM_err parse_package (fun e => e = EType)); [|exact H].
  clear. intros acc p e H. unfold parse_package in H. cbv zeta in H.
  destruct (String.eqb (strip p) EmptyString) eqn:E; [discriminate|]. apply String.eqb_neq in E.
  destruct (strip_nonspace p E) as (c & r & Es & Hc). rewrite Es in H.
  destruct (split_first c r) as (f & t & E1); [intros ->; discriminate Hc|]. rewrite E1 in H.
  destruct (parse_blocks _) as [bs|e'] eqn:Eb; cbn in H; [discriminate|]. injection H as <-.
  eapply parse_blocks_err. exact Eb.
Qed.

Lemma span_spec p s : forall a b, span p s = (a, b) -> s = a +++ b /\ sforall p a = true /\ (b = EmptyString \/ exists c r, b = String c r /\ p c = false).
Proof.
  induction s as [|c s IH]; intros a b H; cbn [span] in H.
  - injection H as <- <-. repeat split. left; reflexivity.
  - destruct (p c) eqn:E.
    + destruct (span p s) as [a' b'] eqn:Es. injection H as <- <-. destruct (IH a' b' eq_refl) as (-> & H1 & H2).
      repeat split; [cbn; rewrite E; exact H1|exact H2].
    + injection H as <- <-. repeat split. right; eauto.
Qed.
Definition tail_of (r : string) : string * string :=
  let (key, r') := span (fun c => negb (is_space c)) (lstrip_p is_space r) in (key, lstrip_p is_space r').
Lemma tail_spec r : exists sp rest, r = sp +++ fst (tail_of r) +++ rest /\ blank sp /\ space_free (fst (tail_of r)) /\
  (rest = EmptyString \/ exists c q, rest = String c q /\ is_space c = true) /\ (fst (tail_of r) = EmptyString -> rest = EmptyString).
Proof.
  unfold tail_of. destruct (lstrip_split is_space r) as (sp & E & Hsp & Hf).
  destruct (span _ (lstrip_p is_space r)) as [key rest] eqn:Es. cbn [fst].
  destruct (span_spec _ _ _ _ Es) as (E2 & Hk & Hr). exists sp, rest. rewrite <- E2. repeat split; [exact E|exact Hsp|exact Hk| |].
  - destruct Hr as [->|(c & q & -> & H)]; [left; reflexivity|right]. exists c, q. split; [reflexivity|]. apply negb_false_iff in H. exact H.
  - intros ->. cbn in E2. destruct Hr as [->|(c & q & -> & H)]; [reflexivity|]. rewrite (Hf c q E2) in H. discriminate.
Qed.
Lemma tail_uniq sp key rest : blank sp -> space_free key -> (rest = EmptyString \/ exists c q, rest = String c q /\ is_space c = true) ->
  (key = EmptyString -> rest = EmptyString) -> fst (tail_of (sp +++ key +++ rest)) = key.
Proof.
  intros Hs Hk Hr He. unfold tail_of. rewrite lstrip_p_all by exact Hs.
  destruct key as [|c key].
  - rewrite (He eq_refl). reflexivity.
  - assert (Hc : is_space c = false) by (cbn in Hk; apply andb_true_iff in Hk as [Hk _]; apply negb_true_iff; exact Hk).
    change (String c key +++ rest) with (String c (key +++ rest)). rewrite lstrip_p_id by exact Hc.
    change (String c (key +++ rest)) with (String c key +++ rest).
    destruct Hr as [->|(d & q & -> & Hd)].
    + rewrite app_nil_s. clear -Hk. unfold space_free in Hk.
      enough (span (fun c => negb (is_space c)) (String c key) = (String c key, EmptyString)) as -> by reflexivity.
      revert Hk. generalize (String c key). induction s as [|x s IH]; intros H; [reflexivity|]. cbn in H. apply andb_true_iff in H as [H1 H2].
      cbn [span]. rewrite H1, IH by exact H2. reflexivity.
    + rewrite span_app; [reflexivity|exact Hk|rewrite Hd; reflexivity].
Qed.
Lemma line_match_opt line k v : line_match line = Some (true, k, v) <-> exists r, line = "option" +++ r /\ (k, v) = tail_of r.
Proof.
  unfold line_match. cbv zeta. split.
  - destruct (startswith "option" line) eqn:E.
    + apply startswith_true in E as (r & ->). change (sdrop 6 ("option" +++ r)) with r. intros H. exists r. split; [reflexivity|].
      unfold tail_of. destruct (span _ _) as [a b]. injection H as <- <-. reflexivity.
    + destruct (startswith "list" line); [|discriminate]. destruct (span _ _). discriminate.
  - intros (r & -> & H). rewrite startswith_app. change (sdrop 6 ("option" +++ r)) with r. unfold tail_of in H. destruct (span _ _). injection H as -> ->. reflexivity.
Qed.
Lemma line_match_list line k v : line_match line = Some (false, k, v) <-> exists r, line = "list" +++ r /\ (k, v) = tail_of r.
Proof.
  unfold line_match. cbv zeta. split.
  - destruct (startswith "option" line) eqn:E; [destruct (span _ _); discriminate|].
    destruct (startswith "list" line) eqn:E2; [|discriminate].
    apply startswith_true in E2 as (r & ->). change (sdrop 4 ("list" +++ r)) with r. intros H. exists r. split; [reflexivity|].
    unfold tail_of. destruct (span _ _) as [a b]. injection H as <- <-. reflexivity.
  - intros (r & -> & H). change (startswith "option" ("list" +++ r)) with false. rewrite startswith_app. change (sdrop 4 ("list" +++ r)) with r.
    unfold tail_of in H. destruct (span _ _). injection H as -> ->. reflexivity.
Qed.
Lemma line_of_tail kw k line : line_of kw k line <-> exists r, strip line = kw +++ r /\ strip_quotes (fst (tail_of r)) = k.
Proof.
  split.
  - intros (sp & key & rest & E & H1 & H2 & H3 & H4 & H5). exists (sp +++ key +++ rest). split; [exact E|].
    rewrite tail_uniq by assumption. exact H5.
  - intros (r & E & H). destruct (tail_spec r) as (sp & rest & E1 & H1 & H2 & H3 & H4).
    exists sp, (fst (tail_of r)), rest. rewrite <- E1. repeat split; assumption.
Qed.
Lemma line_cases line : (exists k v, line_match (strip line) = Some (true, k, v) /\ line_of "option" (strip_quotes k) line) \/
  (exists k v, line_match (strip line) = Some (false, k, v) /\ line_of "list" (strip_quotes k) line) \/
  line_match (strip line) = None.
Proof.
  destruct (line_match (strip line)) as [[[[] k] v]|] eqn:E; [left|right; left|right; right; reflexivity].
  - exists k, v. split; [reflexivity|]. apply line_match_opt in E as (r & E & H). apply line_of_tail. exists r. rewrite <- H. split; [exact E|reflexivity].
  - exists k, v. split; [reflexivity|]. apply line_match_list in E as (r & E & H). apply line_of_tail. exists r. rewrite <- H. split; [exact E|reflexivity].
Qed.
Lemma line_of_opt k line : line_of "option" k line -> exists k' v, line_match (strip line) = Some (true, k', v) /\ strip_quotes k' = k.
Proof.
  intros H. apply line_of_tail in H as (r & E & H). exists (fst (tail_of r)), (snd (tail_of r)). split; [|exact H].
  apply line_match_opt. exists r. split; [exact E|destruct (tail_of r); reflexivity].
Qed.
Lemma line_of_list k line : line_of "list" k line -> exists k' v, line_match (strip line) = Some (false, k', v) /\ strip_quotes k' = k.
Proof.
  intros H. apply line_of_tail in H as (r & E & H). exists (fst (tail_of r)), (snd (tail_of r)). split; [|exact H].
  apply line_match_list. exists r. split; [exact E|destruct (tail_of r); reflexivity].
Qed.
Definition plain_key (l0 : list string) (k : string) : Prop := k = ".type" \/ k = ".name" \/ exists o, In o l0 /\ line_of "option" k o.
Definition plain_in (block : dict) (k : string) : Prop := exists v, dget k block = Some v /\ is_list v = false.
Definition clash_from (l0 lines : list string) : Prop :=
  exists l1 line l2 k, lines = (l1 ++ line :: l2)%list /\ line_of "list" k line /\ plain_key (l0 ++ l1) k.
Lemma plain_in_dset block k k' v : plain_in (dset k' v block) k <-> (k = k' /\ is_list v = false) \/ (k <> k' /\ plain_in block k).
Proof.
  unfold plain_in. rewrite dget_dset. destruct (String.eqb k k') eqn:E.
  - apply String.eqb_eq in E. split; [intros (w & H & Hw); injection H as <-; tauto|]. intros [[_ H]|[H _]]; [eauto|congruence].
  - apply String.eqb_neq in E. split; [intros H; right; auto|]. intros [[H _]|[_ H]]; [congruence|exact H].
Qed.
Lemma parse_lines_clash lines : forall l0 block, (forall k, plain_in block k <-> plain_key l0 k) ->
  (exists b, foldM parse_line block lines = Ok b /\ ~ clash_from l0 lines) \/
  (foldM parse_line block lines = Err EType /\ clash_from l0 lines).
Proof.
  induction lines as [|line lines IH]; intros l0 block Hinv.
  - left. exists block. split; [reflexivity|]. intros (l1 & x & l2 & k & E & _). destruct l1; discriminate.
  - assert (Hstep : forall b', parse_line block line = Ok b' -> (forall k, plain_in b' k <-> plain_key (l0 ++ [line]) k) ->
       (forall k, line_of "list" k line -> ~ plain_key l0 k) ->
       (exists b, foldM parse_line block (line :: lines) = Ok b /\ ~ clash_from l0 (line :: lines)) \/
       (foldM parse_line block (line :: lines) = Err EType /\ clash_from l0 (line :: lines))).
    { intros b' E Hi Hl. cbn [foldM]. rewrite E. cbn [bind].
      destruct (IH (l0 ++ [line])%list b' Hi) as [(b & H & Hc)|(H & Hc)].
      - left. exists b. split; [exact H|]. intros (l1 & x & l2 & k & Ex & Hx & Hp). destruct l1 as [|y l1].
        + injection Ex as -> ->. rewrite app_nil_r in Hp. exact (Hl k Hx Hp).
        + injection Ex as -> ->. apply Hc. exists l1, x, l2, k. rewrite <- app_assoc. auto.
      - right. split; [exact H|]. destruct Hc as (l1 & x & l2 & k & Ex & Hx & Hp).
        exists (line :: l1), x, l2, k. rewrite Ex. rewrite <- app_assoc in Hp. auto. }
    assert (Hsnoc : forall k, plain_key (l0 ++ [line]) k <-> plain_key l0 k \/ line_of "option" k line).
    { intros k. unfold plain_key. split.
      - intros [H|[H|(o & Ho & H)]]; [tauto|tauto|]. apply in_app_iff in Ho as [Ho|[<-|[]]]; [left; eauto|right; exact H].
      - intros [[H|[H|(o & Ho & H)]]|H]; [tauto|tauto| |]; right; right; [exists o|exists line]; rewrite in_app_iff; cbn; tauto. }
    destruct (line_cases line) as [(k & v & E & Hk)|[(k & v & E & Hk)|E]].
    + apply (Hstep (dset (strip_quotes k) (VStr (strip_quotes v)) block)).
      * unfold parse_line. rewrite E. reflexivity.
      * intros k2. rewrite plain_in_dset, Hsnoc, Hinv. cbn [is_list]. split.
        -- intros [[-> _]|[_ H]]; [right; exact Hk|left; exact H].
        -- intros H. destruct (string_dec k2 (strip_quotes k)) as [->|Hn]; [left; auto|right]. split; [exact Hn|].
           destruct H as [H|H]; [exact H|]. apply line_of_opt in H as (k3 & v3 & E3 & H3). rewrite E in E3. injection E3 as <- _. congruence.
      * intros k2 H2. apply line_of_list in H2 as (k3 & v3 & E3 & _). rewrite E in E3. discriminate.
    + assert (Hno : forall k2, ~ line_of "option" k2 line).
      { intros k2 H2. apply line_of_opt in H2 as (k3 & v3 & E3 & _). rewrite E in E3. discriminate. }
      assert (Huniq : forall k2, line_of "list" k2 line -> k2 = strip_quotes k).
      { intros k2 H2. apply line_of_list in H2 as (k3 & v3 & E3 & H3). rewrite E in E3. injection E3 as <- _. congruence. }
      destruct (dget (strip_quotes k) block) as [w|] eqn:Ew.
      * destruct (is_list w) eqn:El.
        -- destruct w as [| | | | |l|]; try discriminate El.
           apply (Hstep (dset (strip_quotes k) (VList (l ++ [VStr (strip_quotes v)])) block)).
           ++ unfold parse_line. rewrite E. cbv zeta. rewrite Ew. reflexivity.
           ++ intros k2. rewrite plain_in_dset, Hsnoc, Hinv. cbn [is_list]. split.
              ** intros [[_ H]|[_ H]]; [discriminate|tauto].
              ** intros [H|H]; [|exfalso; exact (Hno _ H)]. right. split; [|exact H]. intros ->. apply Hinv in H as (w & H & Hw). rewrite Ew in H. injection H as <-. discriminate.
           ++ intros k2 H2 Hp. apply Huniq in H2 as ->. apply Hinv in Hp as (w & H & Hw). rewrite Ew in H. injection H as <-. discriminate.
        -- right. split.
           ++ cbn [foldM]. unfold parse_line at 1. rewrite E. cbv zeta. rewrite Ew. destruct w; try discriminate El; reflexivity.
           ++ exists [], line, lines, (strip_quotes k). rewrite app_nil_r. repeat split; [exact Hk|]. apply Hinv. exists w. auto.
      * apply (Hstep (dset (strip_quotes k) (VList [VStr (strip_quotes v)]) block)).
        -- unfold parse_line. rewrite E. cbv zeta. rewrite Ew. reflexivity.
        -- intros k2. rewrite plain_in_dset, Hsnoc, Hinv. cbn [is_list]. split.
           ++ intros [[_ H]|[_ H]]; [discriminate|tauto].
           ++ intros [H|H]; [|exfalso; exact (Hno _ H)]. right. split; [|exact H]. intros ->. apply Hinv in H as (w & H & Hw). congruence.
        -- intros k2 H2 Hp. apply Huniq in H2 as ->. apply Hinv in Hp as (w & H & Hw). congruence.
    + apply (Hstep block).
      * unfold parse_line. rewrite E. reflexivity.
      * intros k2. rewrite Hsnoc, Hinv. split; [tauto|]. intros [H|H]; [exact H|].
        apply line_of_opt in H as (k3 & v3 & E3 & _). congruence.
      * intros k2 H2. apply line_of_list in H2 as (k3 & v3 & E3 & _). congruence.
Qed.

Lemma block0_inv t n k : plain_in [(".type", VStr t); (".name", VStr n)] k <-> plain_key [] k.
Proof.
  unfold plain_in, plain_key. cbn [dget]. destruct (String.eqb k ".type") eqn:E1.
  - apply String.eqb_eq in E1 as ->. split; [tauto|]. intros _. eexists. split; reflexivity.
  - apply String.eqb_neq in E1. destruct (String.eqb k ".name") eqn:E2.
    + apply String.eqb_eq in E2 as ->. split; [tauto|]. intros _. eexists. split; reflexivity.
    + apply String.eqb_neq in E2. split; [intros (v & H & _); discriminate|]. intros [H|[H|(o & [] & _)]]; congruence.
Qed.
Lemma parse_block_clash i s : strip s <> EmptyString ->
  (exists b, parse_block i (strip s) = Ok b /\ ~ clash (other_lines (strip s))) \/
  (parse_block i (strip s) = Err EType /\ clash (other_lines (strip s))).
Proof.
  intros H. destruct (parse_block_first i s H) as (f & ls & w & rest & E & _ & ->). unfold other_lines. rewrite E.
  destruct (parse_lines_clash ls [] _ (block0_inv (strip_quotes w) (match rest with n :: _ => strip_quotes n | [] => strip_quotes w +++ "_" +++ string_of_nat i end))) as [(b & -> & Hc)|(-> & Hc)].
  - left. cbn [bind]. eexists. split; [reflexivity|]. exact Hc.
  - right. split; [reflexivity|exact Hc].
Qed.
Lemma parse_blocks_clash ps : forall i,
  (exists bs, parse_blocks_from i ps = Ok bs /\ length bs = length (stripped ps) /\ (forall s, In s (stripped ps) -> ~ clash (other_lines s))) \/
  (parse_blocks_from i ps = Err EType /\ exists s, In s (stripped ps) /\ clash (other_lines s)).
Proof.
  induction ps as [|p ps IH]; intros i.
  - left. exists []. split; [reflexivity|]. split; [reflexivity|]. intros s [].
  - unfold stripped. cbn [parse_blocks_from map filter]. cbv zeta.
    destruct (String.eqb (strip p) EmptyString) eqn:E; cbn [negb]; [apply IH|]. fold (stripped ps).
    apply String.eqb_neq in E. destruct (parse_block_clash (S i) p E) as [(b & -> & Hc)|(-> & Hc)]; cbn [bind].
    + destruct (IH (S i)) as [(bs & -> & Hl & Hn)|(-> & s & Hs & Hc2)]; cbn [bind].
      * left. eexists. split; [reflexivity|]. split; [cbn; rewrite Hl; reflexivity|]. intros s [<-|Hs]; auto.
      * right. split; [reflexivity|]. exists s. split; [right; exact Hs|exact Hc2].
    + right. split; [reflexivity|]. exists (strip p). split; [left; reflexivity|exact Hc].
Qed.
Lemma find_app {A} (f : A -> bool) l1 l2 : find f (l1 ++ l2) = match find f l1 with Some x => Some x | None => find f l2 end.
Proof. induction l1 as [|x l1 IH]; [reflexivity|]. cbn. destruct (f x); [reflexivity|exact IH]. Qed.
(** Sections of a package piece *)
Definition sections_of (piece : string) : list string := stripped (re_split "config" (after_first piece)).
Lemma parse_packages_clash ps : forall acc,
  (exists d, foldM parse_package acc ps = Ok d /\
     (forall q s, In q (stripped ps) -> In s (sections_of q) -> ~ clash (other_lines s)) /\
     forall name, match find (fun q => String.eqb (first_line q) name) (rev (stripped ps)) with
                  | Some q => exists bs, dget name d = Some (VList bs) /\ length bs = length (sections_of q)
                  | None => dget name d = dget name acc
                  end) \/
  (foldM parse_package acc ps = Err EType /\ exists q s, In q (stripped ps) /\ In s (sections_of q) /\ clash (other_lines s)).
Proof.
  induction ps as [|p ps IH]; intros acc.
  - left. exists acc. split; [reflexivity|]. split; [intros q s []|]. intros name. reflexivity.
  - unfold stripped. cbn [foldM map filter]. unfold parse_package at 1 3. cbv zeta.
    destruct (String.eqb (strip p) EmptyString) eqn:E; cbn [negb bind]; [apply IH|]. fold (stripped ps).
    apply String.eqb_neq in E. destruct (strip_nonspace p E) as (c & r & Es & Hc).
    destruct (split_first c r) as (f & t & E1); [intros ->; discriminate Hc|]. rewrite <- Es in E1.
    assert (Ef : first_line (strip p) = String c f) by (unfold first_line; rewrite E1; reflexivity).
    rewrite E1. rewrite <- Ef. change (sdrop (String.length (first_line (strip p))) (strip p)) with (after_first (strip p)).
    unfold parse_blocks. destruct (parse_blocks_clash (re_split "config" (after_first (strip p))) 0) as [(bs & -> & Hl & Hn)|(-> & s & Hs & Hcl)]; cbn [bind].
    + destruct (IH (dset (first_line (strip p)) (VList bs) acc)) as [(d & -> & Hd1 & Hd2)|(-> & q & s & Hq & Hs & Hcl)].
      * left. exists d. split; [reflexivity|]. split.
        -- intros q s [<-|Hq] Hs; [apply Hn; exact Hs|eapply Hd1; eassumption].
        -- intros name. specialize (Hd2 name). cbn [rev]. rewrite find_app.
           destruct (find _ (rev (stripped ps))) as [q|]; [exact Hd2|]. cbn [find].
           destruct (String.eqb (first_line (strip p)) name) eqn:En.
           ++ apply String.eqb_eq in En as <-. exists bs. rewrite Hd2, dget_dset, eqb_refl. split; [reflexivity|exact Hl].
           ++ rewrite Hd2, dget_dset, eqb_sym, En. reflexivity.
      * right. split; [reflexivity|]. exists q, s. split; [right; exact Hq|]. auto.
    + right. split; [reflexivity|]. exists (strip p), s. split; [left; reflexivity|]. auto.
Qed.
Theorem parse_text_fails text : parse_text text = Err EType <->
  exists q s, In q (stripped (re_split "package" text)) /\ In s (stripped (re_split "config" (after_first q))) /\ clash (other_lines s).
Proof.
  unfold parse_text. destruct (parse_packages_clash (re_split "package" text) []) as [(d & -> & H & _)|(-> & H)].
  - split; [discriminate|]. intros (q & s & Hq & Hs & Hc). exfalso. exact (H q s Hq Hs Hc).
  - split; [intros _; exact H|reflexivity].
Qed.
Theorem parse_text_sections text d : parse_text text = Ok d -> forall q,
  In q (stripped (re_split "package" text)) ->
  (forall l1 l2, stripped (re_split "package" text) = (l1 ++ q :: l2)%list -> forall r, In r l2 -> first_line r <> first_line q) ->
  exists bs, dget (first_line q) d = Some (VList bs) /\ length bs = length (stripped (re_split "config" (after_first q))).
Proof.
  intros H q Hq Hlast. unfold parse_text in H.
  destruct (parse_packages_clash (re_split "package" text) []) as [(d' & E & _ & Hd)|(E & _)]; rewrite H in E; [|discriminate].
  injection E as <-. specialize (Hd (first_line q)). revert Hd.
  assert (Hin : exists l1 l2, stripped (re_split "package" text) = (l1 ++ q :: l2)%list) by (apply in_split; exact Hq).
  destruct Hin as (l1 & l2 & El). specialize (Hlast l1 l2 El). rewrite El, rev_app_distr. cbn [rev]. rewrite !find_app.
  destruct (find _ (rev l2)) as [r|] eqn:Ef.
  - exfalso. apply find_some in Ef as [Hr Ee]. apply String.eqb_eq in Ee. apply in_rev in Hr. exact (Hlast r Hr Ee).
  - cbn [find]. rewrite eqb_refl. intros Hd. exact Hd.
Qed.

(** ** C25 *)
Lemma utf8_ascii s : ascii_text s -> utf8 s = s.
Proof.
  unfold ascii_text. induction s as [|c s IH]; [reflexivity|]. cbn [sforall utf8]. intros H. apply andb_true_iff in H as [-> H].
  rewrite IH by exact H. reflexivity.
Qed.
Lemma utf8_decode_ascii s : ascii_text s -> utf8_decode s = Some s.
Proof.
  unfold ascii_text. induction s as [|c s IH]; [reflexivity|]. cbn [sforall utf8_decode]. intros H. apply andb_true_iff in H as [-> H].
  rewrite IH by exact H. reflexivity.
Qed.
Lemma ascii_app a b : ascii_text (a +++ b) <-> ascii_text a /\ ascii_text b.
Proof. unfold ascii_text. rewrite sforall_app, andb_true_iff. reflexivity. Qed.
(** What _generate_contents and parse_tar do to a package followed by n+1 newlines *)
Definition regap (qn : (string * list dict) * nat) : (string * list dict) * nat :=
  (fst qn, match snd (fst qn) with [] => Nat.max 1 (snd qn) | _ => snd qn end).
Definition pkg_contents (qn : (string * list dict) * nat) : string :=
  match snd (fst qn) with
  | [] => nls (snd qn - 1)
  | b :: bs => head_line b +++ J (topts b ++ cbody bs) +++ nls (S (snd qn))
  end.
Lemma nls_J n : nls n = J (repeat EmptyString n).
Proof. induction n as [|n IH]; [reflexivity|]. rewrite nls_S, IH. reflexivity. Qed.
Lemma oneline_repeat n : forallb oneline (repeat EmptyString n) = true.
Proof. induction n as [|n IH]; [reflexivity|]. exact IH. Qed.
Lemma join_repeat n : join NL (repeat EmptyString n) = nls (n - 1).
Proof. destruct n as [|n]; [reflexivity|]. cbn [repeat]. rewrite join_J, <- nls_J. cbn. rewrite Nat.sub_0_r. reflexivity. Qed.
Lemma package_contents qn : pk_ok (fst qn) ->
  exists lines, split_char NLc ((fst (fst qn) +++ J (cbody (snd (fst qn)))) +++ nls (S (snd qn))) = fst (fst qn) :: lines /\
    join NL (skipn 2 (fst (fst qn) :: lines)) = pkg_contents qn.
Proof.
  destruct qn as [[p bs] n]. intros [(P1 & P2 & P3 & P4) Hb]. cbn [fst snd] in *. apply no_char_spec in P3.
  rewrite app_assoc_s, nls_J, <- J_app. eexists. split.
  - apply split_J; [exact P3|]. rewrite forallb_app_iff, cbody_oneline by exact Hb. apply oneline_repeat.
  - destruct bs as [|b bs].
    + cbn [cbody flat_map app skipn repeat]. apply join_repeat.
    + unfold cbody. cbn [flat_map app skipn]. fold (cbody bs). rewrite join_J. unfold pkg_contents. cbn [fst snd].
      rewrite J_app, <- nls_J. reflexivity.
Qed.
Lemma regap_text qn rest : "package " +++ fst (fst qn) +++ NL +++ NL +++ pkg_contents qn +++ rest =
  pkg_head (fst (fst (regap qn))) +++ J (cbody (snd (fst (regap qn)))) +++ nls (S (snd (regap qn))) +++ rest.
Proof.
  destruct qn as [[p bs] n]. unfold regap, pkg_contents, pkg_head. cbn [fst snd]. rewrite !app_assoc_s. f_equal. f_equal.
  destruct bs as [|b bs].
  - cbn [cbody flat_map J String.append]. destruct n as [|n]; [reflexivity|]. cbn [Nat.max Nat.sub]. rewrite Nat.sub_0_r. reflexivity.
  - unfold cbody. cbn [flat_map app J]. fold (cbody bs). rewrite !app_assoc_s. reflexivity.
Qed.
Definition pkg_member (qn : (string * list dict) * nat) : member :=
  {| m_name := config_path +++ fst (fst qn); m_mode := 420; m_mtime := 0; m_data := pkg_contents qn |}.
Lemma nls_ascii n : ascii_text (nls n).
Proof. induction n as [|n IH]; [reflexivity|]. rewrite nls_S. exact IH. Qed.
Lemma contents_ascii qn : ascii_text (fst (fst qn) +++ J (cbody (snd (fst qn)))) -> ascii_text (pkg_contents qn).
Proof.
  destruct qn as [[p bs] n]. unfold pkg_contents. cbn [fst snd]. intros H. destruct bs as [|b bs]; [apply nls_ascii|].
  unfold cbody in H. cbn [flat_map app J] in H. fold (cbody bs) in H. rewrite !ascii_app in H. rewrite ascii_app, ascii_app. pose proof (nls_ascii (S n)). tauto.
Qed.
Lemma gtext_ascii l : ascii_text (gtext l) -> forall qn, In qn l -> ascii_text (fst (fst qn) +++ J (cbody (snd (fst qn)))).
Proof.
  induction l as [|x l IH]; intros H qn []; cbn [gtext fold_right] in H; fold (gtext l) in H; rewrite !ascii_app in H.
  - subst x. unfold pkg_head in H. rewrite ascii_app in H. apply ascii_app. tauto.
  - apply IH; tauto.
Qed.
Lemma generate_members l : (forall qn, In qn l -> pk_ok (fst qn)) -> ascii_text (gtext l) ->
  generate_packages (gtext l) [] = Ok (map pkg_member l).
Proof.
  intros Hok Ha. unfold generate_packages, re_split. rewrite (split_gtext l (fun qn H => pkg_plain_of _ (Hok qn H))). change (srev "") with EmptyString.
  cbn [remove_first_empty]. rewrite eqb_refl. pose proof (gtext_ascii l Ha) as Hasc. clear Ha.
  change (map pkg_member l) with ([] ++ map pkg_member l)%list. generalize (@nil member).
  induction l as [|qn l IH]; intros tar; [cbn; rewrite app_nil_r; reflexivity|]. cbn [map foldM].
  destruct (package_contents qn (Hok _ (or_introl eq_refl))) as (lines & E1 & E2). rewrite E1. rewrite E2.
  unfold add_file at 1. change (parse_mode DEFAULT_FILE_MODE) with (Some 420%N). cbn [bind].
  assert (Hc : ascii_text (pkg_contents qn)) by (apply contents_ascii, Hasc; left; reflexivity).
  rewrite (utf8_ascii _ Hc), stake_all.
  rewrite IH by (intros x Hx; (apply Hok || apply Hasc); right; exact Hx).
  rewrite <- app_assoc. reflexivity.
Qed.
Lemma strip_config_path p : contains config_path p = false -> replace config_path EmptyString (config_path +++ p) = p.
Proof.
  intros H. change config_path with (String "e" "tc/config/") at 1 2. rewrite replace_hit. cbn [String.append].
  change (String "e" "tc/config/") with config_path. induction p as [|c p IH]; [reflexivity|].
  cbn [contains] in H. apply orb_false_iff in H as [H1 H2]. rewrite replace_miss by exact H1. f_equal. apply IH. exact H2.
Qed.
Lemma tar_text_members l : (forall qn, In qn l -> contains config_path (fst (fst qn)) = false) ->
  (forall qn, In qn l -> ascii_text (fst (fst qn) +++ J (cbody (snd (fst qn))))) ->
  forall extra, (forall m, In m extra -> startswith config_path (m_name m) = false) ->
  tar_text (map pkg_member l ++ extra) = Ok (gtext (map regap l)).
Proof.
  intros Hp Ha extra He. unfold tar_text.
  match goal with |- foldM ?f _ _ = _ => set (step := f) end.
  assert (Hx : forall text, foldM step text extra = Ok text).
  { clear -He. induction extra as [|m extra IH]; intros text; [reflexivity|]. cbn [foldM].
    replace (step text m) with (@Ok string text) by (unfold step; rewrite (He m (or_introl eq_refl)); reflexivity). cbn [bind]. apply IH. intros x Hx; apply He; right; exact Hx. }
  enough (G : forall text, foldM step text (map pkg_member l ++ extra) = Ok (text +++ gtext (map regap l))) by apply G.
  induction l as [|qn l IH]; intros text; [cbn [map app gtext fold_right]; rewrite Hx, app_nil_s; reflexivity|].
  cbn [map app foldM].
  replace (step text (pkg_member qn)) with (@Ok string (text +++ "package " +++ fst (fst qn) +++ NL +++ NL +++ pkg_contents qn)).
  2:{ unfold step, pkg_member. cbn [m_name m_data]. rewrite startswith_app.
      rewrite (utf8_decode_ascii _ (contents_ascii _ (Ha _ (or_introl eq_refl)))).
      rewrite strip_config_path by (apply Hp; left; reflexivity). reflexivity. }
  cbn [bind].
  rewrite IH by (intros x Hx'; (apply Hp || apply Ha); right; exact Hx'). f_equal.
  cbn [gtext fold_right map]. fold (gtext (map regap l)). rewrite <- regap_text, !app_assoc_s. reflexivity.
Qed.
Lemma regap_fst l : map fst (map regap l) = map fst l.
Proof. induction l as [|q l IH]; [reflexivity|]. cbn [map]. rewrite IH. reflexivity. Qed.
Theorem archive_round_trip d text config files tar tar' :
  data_ok d -> (forall p, In p (dkeys d) -> contains "etc/config/" p = false) ->
  render_uci d = Ok text -> ascii_text text ->
  get_files config = Ok files ->
  (forall f p q, In f files -> file_path f p -> relative_of p q -> startswith "etc/config/" q = false) ->
  generate_packages text [] = Ok tar -> process_files config tar = Ok tar' ->
  parse_tar tar' = parse_text text.
Proof.
  intros Hd Hp Hr Ha Hfs Hfp Hg Hf. destruct (data_pkgs d Hd) as (l & -> & Hl & Hn).
  rewrite (render_canon l (lines_ok_of l Hl)) in Hr. injection Hr as <-.
  assert (Hok : forall qn, In qn (gaps l) -> pk_ok (fst qn)).
  { intros qn Hin. apply Hl. rewrite <- (gaps_fst l). apply in_map. exact Hin. }
  rewrite canon_gtext in *. rewrite (generate_members _ Hok Ha) in Hg. injection Hg as <-.
  apply process_files_spec in Hf as (files' & ms & Hf & HF & ->). rewrite Hfs in Hf. injection Hf as <-.
  unfold parse_tar. rewrite tar_text_members.
  - cbn [bind]. rewrite !gtext_parse; [rewrite regap_fst; reflexivity|exact Hok| | |].
    + rewrite gaps_fst. exact Hn.
    + intros qn Hin. apply in_map_iff in Hin as (x & <- & Hx). exact (Hok x Hx).
    + rewrite regap_fst, gaps_fst. exact Hn.
  - intros qn Hin. apply Hp. unfold dkeys. rewrite map_map. cbn [fst]. apply in_map with (f := fst) in Hin. rewrite gaps_fst in Hin.
    apply (in_map fst) in Hin. exact Hin.
  - exact (gtext_ascii _ Ha).
  - intros m Hm. destruct (Forall2_In_r _ _ _ _ HF Hm) as (f & Hin & d & p & c & mode & n & -> & Hpth & _ & _ & _ & ->). cbn [m_name].
    eapply Hfp; [exact Hin| |apply relative_of_member]. exists d. auto.
Qed.

(** ** C22: the lines of the rendered text *)
Lemma in_canon l q b x : In q l -> In b (snd q) -> x = head_line b \/ In x (topts b) ->
  forall p bs l', l = (p, bs) :: l' -> In x (cbody bs ++ crest l' ++ [EmptyString]).
Proof.
  intros Hq Hb Hx p bs l' ->.
  assert (Hc : In x (cbody (snd q))).
  { apply in_flat_map. exists b. split; [exact Hb|]. destruct Hx as [->|Hx]; [right; left; reflexivity|right; right; exact Hx]. }
  rewrite !in_app_iff. destruct Hq as [<-|Hq]; [left; exact Hc|right; left].
  apply in_flat_map. exists q. split; [exact Hq|]. right; right; exact Hc.
Qed.
Lemma canon_lines l : (forall q, In q l -> pk_ok q) -> forall q b x, In q l -> In b (snd q) -> x = head_line b \/ In x (topts b) ->
  In x (split_char NLc (canon l)).
Proof.
  intros Hok q b x Hq Hb Hx. destruct l as [|[p bs] l']; [contradiction|].
  pose proof (in_canon _ q b x Hq Hb Hx p bs l' eq_refl) as Hin. cbn [canon]. rewrite split_J; [right; exact Hin| |].
  - destruct (Hok _ (or_introl eq_refl)) as [(_ & _ & P3 & _) _]. apply no_char_spec in P3. unfold oneline, pkg_head. cbn [fst] in P3. rewrite nochar_app, P3. reflexivity.
  - rewrite !forallb_app_iff, cbody_oneline by (intros y Hy; exact (proj2 (Hok _ (or_introl eq_refl)) y Hy)). cbn [andb].
    apply andb_true_iff. split; [|reflexivity]. apply forallb_oneline. intros y Hy. apply in_flat_map in Hy as (r & Hr & Hy).
    destruct (Hok r (or_intror Hr)) as [(_ & _ & P3 & _) Hbs]. destruct Hy as [<-|[<-|Hy]]; [reflexivity| |].
    + apply no_char_spec in P3. unfold oneline, pkg_head. rewrite nochar_app, P3. reflexivity.
    + pose proof (cbody_oneline (snd r) Hbs) as Hc. rewrite forallb_forall in Hc. apply Hc. exact Hy.
Qed.
(** Every written option has, for each of its values, a line with the value between quotes. *)
Theorem values_verbatim d text p bs b k v : data_ok d -> render_uci d = Ok text ->
  In (p, VList (map VDict bs)) d -> In b bs -> In (k, v) b -> startswith "." k = false ->
  match uci_value v with
  | Some (VStr x) => In (TAB +++ "option " +++ k +++ " '" +++ x +++ "'") (split_char NLc text)
  | Some (VList xs) => forall x, In (VStr x) xs -> In (TAB +++ "list " +++ k +++ " '" +++ x +++ "'") (split_char NLc text)
  | _ => uci_value v = None
  end.
Proof.
  intros Hd Hr Hp Hb Hk Hdot. destruct (data_pkgs d Hd) as (l & -> & Hl & Hn).
  rewrite (render_canon l (lines_ok_of l Hl)) in Hr. injection Hr as <-.
  apply in_map_iff in Hp as ([p' bs'] & E & Hq). cbn [fst snd] in E. injection E as -> E.
  assert (bs' = bs) as ->. { clear -E. revert bs E; induction bs' as [|x bs' IH]; intros [|y bs] E; try discriminate; [reflexivity|]. injection E as -> E. f_equal. apply IH. exact E. }
  assert (G : forall t, In t (snd (item_texts v)) -> In (TAB +++ opt_line (fst (item_texts v)) k t) (split_char NLc (canon l))).
  { intros t Ht. apply (canon_lines l Hl (p, bs) b _ Hq Hb). right. apply in_map. apply in_flat_map. exists (k, v). split; [exact Hk|].
    unfold opt_lines. cbn [fst snd]. rewrite Hdot. apply in_map. exact Ht. }
  destruct v as [|[]|z|r|s|xs|dd]; cbn [uci_value]; try reflexivity; try (apply (G _ (or_introl eq_refl))).
  - destruct s; [reflexivity|]. apply (G _ (or_introl eq_refl)).
  - destruct xs as [|x0 xs]; [reflexivity|]. intros x Hx. apply in_map_iff in Hx as (y & Ey & Hy). injection Ey as <-.
    apply (G (py_str y)). apply in_map. exact Hy.
  - destruct dd as [|x0 xs]; [reflexivity|]. intros x Hx. apply in_map_iff in Hx as (y & Ey & Hy). injection Ey as <-.
    apply (G (fst y)). apply in_map. exact Hy.
Qed.
