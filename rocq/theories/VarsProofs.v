(** * VarsProofs: proofs about Vars.v *)
From Verif Require Import PyBase PyLemmas Vars SpecVars.

Lemma word_not_space c : is_word c = true -> is_space c = false.
Proof. destruct c as [[] [] [] [] [] [] [] []]; vm_compute; auto. Qed.
Lemma space_not_word c : is_space c = true -> is_word c = false.
Proof. destruct c as [[] [] [] [] [] [] [] []]; vm_compute; auto. Qed.

(** ** Structure (C09) *)
Lemma evaluate_leafwise ctx v : forall w,
  evaluate_vars ctx v = Ok w <-> leafwise (fun s t => eval_str ctx s = Ok t) v w.
Proof.
  induction v as [|b|z|r|s|l IH|d IH] using val_ind'; intros w; cbn [evaluate_vars];
    try (split; intros H; inversion H; subst; constructor; fail).
  - split; intros H.
    + apply bind_Ok in H as (t & Ht & E). inversion E; subst. constructor; exact Ht.
    + inversion H; subst. match goal with H : eval_str _ _ = _ |- _ => rewrite H end. reflexivity.
  - match goal with |- bind (?F l) _ = _ <-> _ =>
      assert (G : forall l0, (forall v, In v l0 -> In v l) -> forall m, F l0 = Ok m <-> Forall2 (leafwise (fun s t => eval_str ctx s = Ok t)) l0 m) end.
    { induction l0 as [|x l0 IHl]; intros Hin m.
      - split; intros H; inversion H; subst; [constructor|reflexivity].
      - split; intros H.
        + apply bind_Ok in H as (y & Hy & H). apply bind_Ok in H as (u & Hu & H). inversion H; subst.
          constructor; [apply IH; [apply Hin; left; reflexivity|exact Hy]|]. apply IHl; [|exact Hu].
          intros v Hv; apply Hin; right; exact Hv.
        + inversion H as [|? y ? u Hy Hu]; subst.
          apply IH in Hy; [|apply Hin; left; reflexivity]. rewrite Hy. cbn [bind].
          apply IHl in Hu; [|intros v Hv; apply Hin; right; exact Hv]. rewrite Hu. reflexivity. }
    split; intros H.
    + apply bind_Ok in H as (m & Hm & E). inversion E; subst. constructor. apply (G l); auto.
    + inversion H as [| | | | |? m HF|]; subst. apply (G l) in HF; auto. rewrite HF. reflexivity.
  - match goal with |- bind (?F d) _ = _ <-> _ =>
      assert (G : forall d0, (forall k v, In (k, v) d0 -> In (k, v) d) -> forall m, F d0 = Ok m <->
        Forall2 (fun a b => fst a = fst b /\ leafwise (fun s t => eval_str ctx s = Ok t) (snd a) (snd b)) d0 m) end.
    { induction d0 as [|[k x] d0 IHd]; intros Hin m.
      - split; intros H; inversion H; subst; [constructor|reflexivity].
      - split; intros H.
        + apply bind_Ok in H as (y & Hy & H). apply bind_Ok in H as (u & Hu & H). inversion H; subst.
          constructor; [split; [reflexivity|]|].
          * simpl. apply (IH k); [apply Hin; left; reflexivity|exact Hy].
          * apply IHd; [|exact Hu]. intros k' v Hv; apply Hin; right; exact Hv.
        + inversion H as [|? [k' y] ? u [E Hy] Hu]; subst. simpl in E, Hy. subst k'.
          apply (IH k) in Hy; [|apply Hin; left; reflexivity]. rewrite Hy. cbn [bind].
          apply IHd in Hu; [|intros k' v Hv; apply Hin; right; exact Hv]. rewrite Hu. reflexivity. }
    split; intros H.
    + apply bind_Ok in H as (m & Hm & E). inversion E; subst. constructor. apply (G d); auto.
    + inversion H as [| | | | | |? m HF]; subst. apply (G d) in HF; auto. rewrite HF. reflexivity.
Qed.
Lemma leafwise_refl (R : string -> string -> Prop) v : (forall s, R s s) -> leafwise R v v.
Proof.
  intros HR. induction v as [|b|z|r|s|l IH|d IH] using val_ind'; constructor; auto.
  - induction l as [|x l IHl]; constructor; [apply IH; left; reflexivity|apply IHl; intros; apply IH; right; assumption].
  - induction d as [|[k x] d IHd]; constructor; [split; [reflexivity|apply (IH k); left; reflexivity]|].
    apply IHd; intros; eapply IH; right; eassumption.
Qed.
Lemma leafwise_impl (R S : string -> string -> Prop) v : forall w,
  (forall s t, R s t -> S s t) -> leafwise R v w -> leafwise S v w.
Proof.
  intros w HRS. revert w. induction v as [|b|z|r|s|l IH|d IH] using val_ind'; intros w H; inversion H; subst; constructor; auto.
  - match goal with H : Forall2 _ l _ |- _ => rename H into HF end. clear H.
    induction HF as [|x y l m Hxy HF IHF]; constructor; [apply IH; [left; reflexivity|exact Hxy]|].
    apply IHF. intros v Hv; apply IH; right; exact Hv.
  - match goal with H : Forall2 _ d _ |- _ => rename H into HF end. clear H.
    induction HF as [|[k x] [k' y] d m [E Hxy] HF IHF]; constructor.
    + split; [exact E|]. apply (IH k); [left; reflexivity|exact Hxy].
    + apply IHF. intros k2 v Hv; eapply IH; right; exact Hv.
Qed.
Lemma evaluate_err ctx v : forall e, evaluate_vars ctx v = Err e -> e = ERe.
Proof.
  induction v as [|b|z|r|s|l IH|d IH] using val_ind'; intros e H; cbn [evaluate_vars] in H; try discriminate.
  - destruct (eval_str ctx s) eqn:E; [discriminate|]. simpl in H. inversion H; subst.
    unfold eval_str in E. revert E. generalize s at 2. generalize (1 <? length (findall s))%nat as b. intros b.
    generalize (findall s) as found. induction found as [|x f IH]; intros acc H0; [discriminate|]. cbn [foldM] in H0.
    destruct (dget x ctx) as [v|].
    + destruct (re_sub _ _ acc); cbn [bind] in H0; [eauto|congruence].
    + eauto.
  - match type of H with bind (?F l) _ = _ => assert (G : forall l0, (forall v, In v l0 -> In v l) -> forall e, F l0 = Err e -> e = ERe) end.
    { induction l0 as [|x l0 IHl]; intros Hin e0 H0; [discriminate|].
      destruct (evaluate_vars ctx x) eqn:E; cbn [bind] in H0.
      - match type of H0 with bind ?m _ = _ => destruct m eqn:E2; [discriminate|] end.
        simpl in H0. inversion H0; subst. eapply IHl; [|reflexivity]. intros v Hv; apply Hin; right; exact Hv.
      - inversion H0; subst. eapply (IH x); [apply Hin; left; reflexivity|exact E]. }
    match type of H with bind ?m _ = _ => destruct m eqn:E; [discriminate|] end. simpl in H. inversion H; subst. eapply (G l); eauto.
  - match type of H with bind (?F d) _ = _ => assert (G : forall d0, (forall k v, In (k, v) d0 -> In (k, v) d) -> forall e, F d0 = Err e -> e = ERe) end.
    { induction d0 as [|[k x] d0 IHl]; intros Hin e0 H0; [discriminate|].
      destruct (evaluate_vars ctx x) eqn:E; cbn [bind] in H0.
      - match type of H0 with bind ?m _ = _ => destruct m eqn:E2; [discriminate|] end.
        simpl in H0. inversion H0; subst. eapply IHl; [|reflexivity]. intros k' v Hv; apply Hin; right; exact Hv.
      - inversion H0; subst. eapply (IH k x); [apply Hin; left; reflexivity|exact E]. }
    match type of H with bind ?m _ = _ => destruct m eqn:E; [discriminate|] end. simpl in H. inversion H; subst. eapply (G d); eauto.
Qed.

(** ** Untouched text (C10) *)
Lemma match_var_braces s x : match_var s = Some x -> startswith "{{" s = true.
Proof.
  unfold match_var. destruct s as [|c [|c2 s]]; try discriminate;
  destruct c as [[] [] [] [] [] [] [] []]; try discriminate;
  destruct c2 as [[] [] [] [] [] [] [] []]; try discriminate. reflexivity.
Qed.
Lemma match_var_none s : startswith "{{" s = false -> match_var s = None.
Proof.
  intros H. destruct (match_var s) as [x|] eqn:E; [|reflexivity]. apply match_var_braces in E. congruence.
Qed.
Lemma contains_cons sub c s : contains sub (String c s) = false -> startswith sub (String c s) = false /\ contains sub s = false.
Proof. cbn [contains]. rewrite orb_false_iff. auto. Qed.
Lemma findall_no_braces s : contains "{{" s = false -> findall s = [].
Proof.
  unfold findall. induction s as [|c s IH]; intros H; [reflexivity|].
  apply contains_cons in H as [H1 H2]. cbn [findall_from]. rewrite match_var_none by exact H1. auto.
Qed.
Lemma eval_no_vars ctx s : (forall n, In n (findall s) -> dget n ctx = None) -> eval_str ctx s = Ok s.
Proof.
  unfold eval_str. generalize (1 <? length (findall s))%nat as b. intros b.
  generalize (findall s) as found. induction found as [|x f IH]; intros H; [reflexivity|].
  cbn [foldM]. rewrite (H x) by (left; reflexivity). cbn [bind]. apply IH. intros n Hn; apply H; right; exact Hn.
Qed.
Lemma evaluate_nil ctx v : ctx = [] -> evaluate_vars ctx v = Ok v.
Proof.
  intros ->. apply evaluate_leafwise. apply leafwise_refl. intros s. apply eval_no_vars. reflexivity.
Qed.

(** ** Substitution (C11) *)
Lemma expand_plain g0 g1 s : forall fuel, contains "\" s = false -> (String.length s < fuel)%nat ->
  expand fuel g0 g1 s = Some s.
Proof.
  induction s as [|c s IH]; intros [|fuel] H Hl; try (simpl in Hl; lia); [reflexivity|].
  apply contains_cons in H as [H1 H2]. specialize (IH fuel H2). simpl in Hl. rewrite PeanoNat.Nat.succ_lt_mono in IH.
  specialize (IH Hl). cbn [startswith] in H1. rewrite andb_true_r in H1.
  destruct c as [[] [] [] [] [] [] [] []]; try discriminate H1; cbn [expand]; rewrite IH; reflexivity.
Qed.
Lemma expand_repl_plain g0 g1 s : contains "\" s = false -> expand_repl s g0 g1 = Some s.
Proof. intros H. apply expand_plain; [exact H|]. lia. Qed.

Lemma span_all p a c r : sforall p a = true -> p c = false -> span p (a +++ String c r) = (a, String c r).
Proof.
  induction a as [|x a IH]; cbn [sforall span String.append]; intros H Hc.
  - rewrite Hc. reflexivity.
  - apply andb_true_iff in H as [H1 H2]. rewrite H1, IH by assumption. reflexivity.
Qed.
Lemma match_var_ref w1 n w2 rest : ok_piece (Ref w1 n w2) ->
  match_var (piece_text (Ref w1 n w2) +++ rest) =
  Some (w1, n, w2, 4 + String.length w1 + String.length n + String.length w2)%nat.
Proof.
  intros (H1 & H2 & H3 & H4). cbn [piece_text String.append match_var].
  rewrite !app_assoc_s.
  assert (E1 : span is_space (w1 +++ n +++ w2 +++ "}}" +++ rest) = (w1, n +++ w2 +++ "}}" +++ rest)).
  { destruct n as [|c n].
    - rewrite H4 by reflexivity. apply span_all; [exact H1|reflexivity].
    - simpl in H2. apply andb_true_iff in H2 as [H2 _]. apply span_all; [exact H1|]. apply word_not_space; exact H2. }
  rewrite E1.
  assert (E2 : span is_word (n +++ w2 +++ "}}" +++ rest) = (n, w2 +++ "}}" +++ rest)).
  { destruct w2 as [|c w2].
    - apply span_all; [exact H2|reflexivity].
    - simpl in H3. apply andb_true_iff in H3 as [H3 _]. apply span_all; [exact H2|]. apply space_not_word; exact H3. }
  rewrite E2.
  assert (E3 : span is_space (w2 +++ "}}" +++ rest) = (w2, "}}" +++ rest)) by (apply span_all; [exact H3|reflexivity]).
  rewrite E3. cbn [String.append startswith]. rewrite ?Ascii.eqb_refl. reflexivity.
Qed.
Lemma piece_text_length w1 n w2 : String.length (piece_text (Ref w1 n w2)) = (4 + String.length w1 + String.length n + String.length w2)%nat.
Proof. cbn [piece_text]. rewrite !length_app_s. simpl. lia. Qed.

Lemma plain_cons c s : plain (String c s) -> plain s.
Proof.
  intros [H1 H2]. apply contains_cons in H1 as [_ H1]. split; [exact H1|].
  destruct (endswith "{" s) eqn:E; [|reflexivity]. apply endswith_true in E as [r ->].
  assert (endswith "{" (String c (r +++ "{")) = true) as Hx by (apply endswith_true; exists (String c r); reflexivity).
  congruence.
Qed.
Lemma plain_start c s rest : plain (String c s) -> startswith "{{" (String c s +++ rest) = false.
Proof.
  intros [H1 H2]. destruct s as [|c2 s].
  - cbn [String.append startswith]. destruct (Ascii.eqb_spec "{" c) as [<-|]; [|reflexivity]. discriminate H2.
  - apply contains_cons in H1 as [H1 _]. exact H1.
Qed.

Lemma sub_skip only repl a b : sub_from only repl (String.length a) (a +++ b) = sub_from only repl 0 b.
Proof. induction a as [|c a IH]; [reflexivity|]. cbn [String.length String.append sub_from]. exact IH. Qed.
Lemma findall_skip a b : findall_from (String.length a) (a +++ b) = findall_from 0 b.
Proof. induction a as [|c a IH]; [reflexivity|]. cbn [String.length String.append findall_from]. exact IH. Qed.

Lemma sub_lit only repl s rest : plain s ->
  sub_from only repl 0 (s +++ rest) = option_map (fun t => s +++ t) (sub_from only repl 0 rest).
Proof.
  induction s as [|c s IH]; intros Hp.
  - cbn [String.append]. destruct (sub_from only repl 0 rest); reflexivity.
  - cbn [String.append sub_from].
    rewrite match_var_none by (exact (plain_start c s rest Hp)).
    rewrite (IH (plain_cons _ _ Hp)). destruct (sub_from only repl 0 rest); reflexivity.
Qed.
Lemma findall_lit s rest : plain s -> findall_from 0 (s +++ rest) = findall_from 0 rest.
Proof.
  induction s as [|c s IH]; intros Hp; [reflexivity|].
  cbn [String.append findall_from].
  rewrite match_var_none by (exact (plain_start c s rest Hp)). apply IH. eapply plain_cons; eauto.
Qed.
Definition ref_hit (only : option string) (n : string) : bool :=
  match only with None => true | Some v => String.eqb v n end.
Lemma sub_ref only repl ins w1 n w2 rest : ok_piece (Ref w1 n w2) -> (forall g0 g1, expand_repl repl g0 g1 = Some ins) ->
  sub_from only repl 0 (piece_text (Ref w1 n w2) +++ rest)
  = option_map (fun t => (if ref_hit only n then ins else piece_text (Ref w1 n w2)) +++ t) (sub_from only repl 0 rest).
Proof.
  intros Hok Hb.
  remember (piece_text (Ref w1 n w2)) as T eqn:ET.
  pose proof (match_var_ref w1 n w2 rest Hok) as Hm. rewrite <- ET in Hm.
  pose proof (piece_text_length w1 n w2) as Hlen. rewrite <- ET in Hlen.
  destruct T as [|c T]; [discriminate|]. cbn [String.append] in *.
  cbn [sub_from]. rewrite Hm. fold (ref_hit only n).
  destruct (ref_hit only n) eqn:Eh.
  - rewrite Hb.
    replace (4 + String.length w1 + String.length n + String.length w2 - 1)%nat with (String.length T) by (simpl in Hlen; lia).
    rewrite sub_skip. destruct (sub_from only repl 0 rest); reflexivity.
  - (* no hit: the characters are copied one by one *)
    pose proof ET as ET0. cbn [piece_text String.append] in ET0. injection ET0 as Ec ET2. clear ET Hm.
    assert (Hno : forall a b, T = a +++ b -> b <> EmptyString -> startswith "{{" (b +++ rest) = false).
    { intros a b E Hb'. destruct a as [|ca a].
      - simpl in E. subst b. rewrite ET2. cbn [String.append].
        destruct Hok as (H1 & H2 & H3 & _). rewrite !app_assoc_s. destruct w1 as [|x w1].
        + destruct n as [|x n].
          * destruct w2 as [|x w2]; [reflexivity|]. simpl in H3. apply andb_true_iff in H3 as [H3 _].
            destruct x as [[] [] [] [] [] [] [] []]; try discriminate; reflexivity.
          * simpl in H2. apply andb_true_iff in H2 as [H2 _].
            destruct x as [[] [] [] [] [] [] [] []]; try discriminate; reflexivity.
        + simpl in H1. apply andb_true_iff in H1 as [H1 _].
            destruct x as [[] [] [] [] [] [] [] []]; try discriminate; reflexivity.
      - destruct b as [|cb b]; [congruence|]. cbn [String.append startswith].
        destruct (Ascii.eqb_spec "{" cb) as [<-|]; [|reflexivity]. exfalso.
        destruct Hok as (H1 & H2 & H3 & _).
        rewrite ET2 in E. cbn [String.append] in E. inversion E as [[Ex E2]].
        assert (Hnb : sforall (fun c => negb (Ascii.eqb c "{")) (w1 +++ n +++ w2 +++ "}}") = true).
        { rewrite !sforall_app. rewrite !andb_true_iff.
          assert (Gs : forall w, sforall is_space w = true -> sforall (fun c => negb (Ascii.eqb c "{")) w = true).
          { induction w as [|x w IHw]; simpl; [auto|]. rewrite !andb_true_iff. intros [Hx Hw]. split; [|auto].
            destruct x as [[] [] [] [] [] [] [] []]; try discriminate; reflexivity. }
          assert (Gw : forall w, sforall is_word w = true -> sforall (fun c => negb (Ascii.eqb c "{")) w = true).
          { induction w as [|x w IHw]; simpl; [auto|]. rewrite !andb_true_iff. intros [Hx Hw]. split; [|auto].
            destruct x as [[] [] [] [] [] [] [] []]; try discriminate; reflexivity. }
          auto. }
        rewrite E2, sforall_app in Hnb. simpl in Hnb. rewrite andb_false_r in Hnb. discriminate. }
    assert (G : forall b a, T = a +++ b -> sub_from only repl 0 (b +++ rest) = option_map (fun t => b +++ t) (sub_from only repl 0 rest)).
    { induction b as [|cb b IHb]; intros a E.
      - cbn [String.append]. destruct (sub_from only repl 0 rest); reflexivity.
      - cbn [String.append sub_from]. rewrite match_var_none by (apply (Hno a (String cb b) E); discriminate).
        rewrite (IHb (a +++ String cb EmptyString)) by (rewrite app_assoc_s; exact E).
        destruct (sub_from only repl 0 rest); reflexivity. }
    rewrite (G T EmptyString) by reflexivity.
    destruct (sub_from only repl 0 rest); reflexivity.
Qed.

Lemma text_app a b : text (a ++ b)%list = text a +++ text b.
Proof. induction a as [|p a IH]; [reflexivity|]. cbn [text app]. rewrite IH, app_assoc_s. reflexivity. Qed.
Lemma findall_text ps : Forall ok_piece ps -> findall (text ps) = names ps.
Proof.
  unfold findall. induction 1 as [|p ps Hp Hps IH]; [reflexivity|]. cbn [text]. destruct p as [s|w1 n w2].
  - cbn [piece_text]. rewrite findall_lit by exact Hp. exact IH.
  - pose proof (match_var_ref w1 n w2 (text ps) Hp) as Hm. pose proof (piece_text_length w1 n w2) as Hlen.
    cbn [names]. rewrite <- IH. remember (piece_text (Ref w1 n w2)) as T. destruct T as [|c T]; [discriminate|].
    cbn [String.append findall_from] in *. rewrite Hm. f_equal.
    replace (4 + String.length w1 + String.length n + String.length w2 - 1)%nat with (String.length T) by (simpl in Hlen; lia).
    apply findall_skip.
Qed.
Lemma re_sub_pieces only repl ins ps : Forall ok_piece ps -> (forall g0 g1, expand_repl repl g0 g1 = Some (text ins)) ->
  re_sub only repl (text ps)
  = Some (text (concat (map (fun p => match p with Lit _ => [p] | Ref _ n _ => if ref_hit only n then ins else [p] end) ps))).
Proof.
  unfold re_sub. intros H Hb. rewrite Hb. induction H as [|p ps Hp Hps IH]; [reflexivity|].
  cbn [text map concat]. rewrite text_app. destruct p as [s|w1 n w2].
  - cbn [piece_text]. rewrite sub_lit, IH by exact Hp. cbn [option_map text piece_text]. rewrite app_nil_s. reflexivity.
  - rewrite (sub_ref only repl (text ins)), IH by assumption. cbn [option_map].
    destruct (ref_hit only n); [reflexivity|]. cbn [text]. rewrite app_nil_s. reflexivity.
Qed.
Definition repl_piece (only : option string) (repl : string) (p : piece) : piece :=
  match p with Lit s => p | Ref _ n _ => if ref_hit only n then Lit repl else p end.
Lemma re_sub_text only repl ps : Forall ok_piece ps -> contains "\" repl = false ->
  re_sub only repl (text ps) = Some (text (map (repl_piece only repl) ps)).
Proof.
  intros H Hb. rewrite (re_sub_pieces only repl [Lit repl] ps H).
  - f_equal. induction ps as [|p ps IH]; [reflexivity|]. inversion H; subst. cbn [map concat]. rewrite text_app, IH by assumption.
    cbn [text map]. f_equal. destruct p as [s|w1 n w2]; cbn [repl_piece text piece_text]; [apply app_nil_s|].
    destruct (ref_hit only n); cbn [text piece_text]; apply app_nil_s.
  - intros g0 g1. cbn [text piece_text]. rewrite app_nil_s. apply expand_repl_plain. exact Hb.
Qed.

(** replace the references whose name is in [D] *)
Definition done_piece (ctx : dict) (D : list string) (p : piece) : piece :=
  match p with
  | Lit s => p
  | Ref _ n _ => if existsb (String.eqb n) D
                 then match dget n ctx with Some v => Lit (py_str v) | None => p end else p
  end.
Lemma done_ok ctx D p :
  (match p with Ref _ n _ => forall v, dget n ctx = Some v -> plain (py_str v) | _ => True end) ->
  ok_piece p -> ok_piece (done_piece ctx D p).
Proof.
  destruct p as [s|w1 n w2]; simpl; [auto|]. intros H Hp. destruct (existsb _ D); [|exact Hp].
  destruct (dget n ctx) as [v|] eqn:E; [simpl; apply H; reflexivity|exact Hp].
Qed.
Lemma eval_pieces ctx ps :
  Forall ok_piece ps ->
  (forall w1 n w2 v, In (Ref w1 n w2) ps -> dget n ctx = Some v ->
     plain (py_str v) /\ no_backslash (py_str v)) ->
  eval_str ctx (text ps) = Ok (substituted ctx ps).
Proof.
  intros Hok Hv. unfold eval_str. rewrite (findall_text ps Hok).
  assert (Hnames : forall n, In n (names ps) -> exists w1 w2, In (Ref w1 n w2) ps).
  { clear. induction ps as [|p ps IH]; intros n Hn; [contradiction|]. destruct p as [s|w1 n' w2]; simpl in Hn.
    - destruct (IH n Hn) as (w1 & w2 & H). exists w1, w2. right; exact H.
    - destruct Hn as [<-|Hn]; [exists w1, w2; left; reflexivity|].
      destruct (IH n Hn) as (a & b & H). exists a, b. right; exact H. }
  assert (Hokd : forall D, Forall ok_piece (map (done_piece ctx D) ps)).
  { intros D. apply Forall_forall. intros q Hq. apply in_map_iff in Hq as (p & <- & Hp). apply done_ok.
    - destruct p as [s|w1 n w2]; [exact I|]. intros v Hd. apply (Hv w1 n w2 v Hp Hd).
    - rewrite Forall_forall in Hok. auto. }
  assert (Hfold : forall only, (forall x, In x (names ps) -> forall n, In n (names ps) -> ref_hit (only x) n = String.eqb x n) ->
     forall vs D, incl vs (names ps) ->
     foldM (fun acc var => match dget var ctx with
              | Some v => match re_sub (only var) (py_str v) acc with Some r => Ok r | None => Err ERe end
              | None => Ok acc end) (text (map (done_piece ctx D) ps)) vs
     = Ok (text (map (done_piece ctx (D ++ vs)%list) ps))).
  { intros only Honly. induction vs as [|x vs IH]; intros D Hi.
    - rewrite app_nil_r. reflexivity.
    - cbn [foldM]. assert (Hx : In x (names ps)) by (apply Hi; left; reflexivity).
      assert (Hstep : (match dget x ctx with
              | Some v => match re_sub (only x) (py_str v) (text (map (done_piece ctx D) ps)) with Some r => Ok r | None => Err ERe end
              | None => Ok (text (map (done_piece ctx D) ps)) end) = Ok (text (map (done_piece ctx (D ++ [x])%list) ps))).
      { destruct (dget x ctx) as [v|] eqn:Ex.
        - destruct (Hnames x Hx) as (w1 & w2 & Hr). destruct (Hv w1 x w2 v Hr Ex) as [_ Hb].
          rewrite re_sub_text by (auto; exact Hb). do 2 f_equal. rewrite map_map. apply map_ext_in.
          intros p Hp. destruct p as [s|a n b]; [reflexivity|]. cbn [done_piece].
          assert (Hn : In n (names ps)).
          { clear -Hp. induction ps as [|q ps IH]; [contradiction|]. destruct Hp as [->|Hp]; [left; reflexivity|].
            destruct q; simpl; [auto|right; auto]. }
          rewrite existsb_app. cbn [existsb]. rewrite orb_false_r.
          destruct (existsb (String.eqb n) D); cbn [orb].
          + destruct (dget n ctx) as [u|] eqn:En; [reflexivity|]. cbn [repl_piece]. rewrite (Honly x Hx n Hn).
            destruct (String.eqb_spec x n) as [<-|]; [congruence|reflexivity].
          + cbn [repl_piece]. rewrite (Honly x Hx n Hn). rewrite (eqb_sym n x).
            destruct (String.eqb_spec x n) as [<-|]; [rewrite Ex; reflexivity|reflexivity].
        - do 2 f_equal. apply map_ext_in. intros p Hp. destruct p as [s|a n b]; [reflexivity|]. cbn [done_piece].
          rewrite existsb_app. cbn [existsb]. rewrite orb_false_r.
          destruct (existsb (String.eqb n) D); cbn [orb]; [reflexivity|].
          destruct (String.eqb_spec n x) as [->|]; [rewrite Ex; reflexivity|reflexivity]. }
      rewrite Hstep. cbn [bind]. rewrite (IH (D ++ [x])%list); [rewrite <- app_assoc; reflexivity|].
      intros y Hy; apply Hi; right; exact Hy. }
  assert (E0 : text ps = text (map (done_piece ctx []) ps)).
  { f_equal. rewrite <- (map_id ps) at 1. apply map_ext. intros [s|a n b]; reflexivity. }
  assert (Efin : text (map (done_piece ctx (names ps)) ps) = substituted ctx ps).
  { assert (G : forall N, incl (names ps) N -> text (map (done_piece ctx N) ps) = substituted ctx ps).
    { clear. induction ps as [|p ps IH]; intros N Hi; [reflexivity|]. cbn [map text substituted].
      rewrite IH by (intros y Hy; apply Hi; destruct p; [exact Hy|right; exact Hy]). f_equal.
      destruct p as [s|a n b]; [reflexivity|]. cbn [done_piece subst_piece].
      assert (existsb (String.eqb n) N = true) as ->.
      { apply existsb_exists. exists n. split; [apply Hi; left; reflexivity|apply eqb_refl]. }
      destruct (dget n ctx); reflexivity. }
    apply G. apply incl_refl. }
  rewrite <- Efin, E0.
  apply (Hfold (fun x => if (1 <? length (names ps))%nat then Some x else None)); [|apply incl_refl].
  intros x Hx n Hn. destruct (1 <? length (names ps))%nat eqn:El; [reflexivity|]. cbn [ref_hit].
  destruct (names ps) as [|a [|b l]]; [contradiction| |discriminate].
  destruct Hx as [<-|[]], Hn as [<-|[]]. rewrite eqb_refl. reflexivity.
Qed.

Lemma substituted_undefined ctx ps :
  (forall w1 n w2, In (Ref w1 n w2) ps -> dget n ctx = None) -> substituted ctx ps = text ps.
Proof.
  induction ps as [|p ps IH]; intros H; [reflexivity|]. cbn [substituted text]. rewrite IH.
  - destruct p as [s|w1 n w2]; [reflexivity|]. cbn [subst_piece]. rewrite (H w1 n w2) by (left; reflexivity). reflexivity.
  - intros w1 n w2 Hin. apply (H w1 n w2). right; exact Hin.
Qed.
Lemma eval_plain ctx s : contains "{{" s = false -> eval_str ctx s = Ok s.
Proof. intros H. apply eval_no_vars. rewrite findall_no_braces by exact H. intros n []. Qed.
Lemma untouched_string ctx s :
  (contains "{{" s = false \/
   exists ps, s = text ps /\ Forall ok_piece ps /\ forall w1 n w2, In (Ref w1 n w2) ps -> dget n ctx = None) ->
  eval_str ctx s = Ok s.
Proof.
  intros [H|(ps & -> & Hok & Hu)]; [apply eval_plain; exact H|].
  rewrite eval_pieces; [rewrite substituted_undefined by exact Hu; reflexivity|exact Hok|].
  intros w1 n w2 v Hin Hd. rewrite (Hu w1 n w2 Hin) in Hd. discriminate.
Qed.
Lemma untouched_doc ctx v :
  leafwise (fun s t => s = t /\ (contains "{{" s = false \/
     exists ps, s = text ps /\ Forall ok_piece ps /\ forall w1 n w2, In (Ref w1 n w2) ps -> dget n ctx = None)) v v ->
  evaluate_vars ctx v = Ok v.
Proof.
  intros H. apply evaluate_leafwise. eapply leafwise_impl; [|exact H]. intros s t [<- Hs]. apply untouched_string; exact Hs.
Qed.
Lemma eval_doc ctx v w :
  leafwise (fun s t => exists ps, s = text ps /\ t = substituted ctx ps /\ Forall ok_piece ps /\
    forall w1 n w2 x, In (Ref w1 n w2) ps -> dget n ctx = Some x -> plain (py_str x) /\ no_backslash (py_str x)) v w ->
  evaluate_vars ctx v = Ok w.
Proof.
  intros H. apply evaluate_leafwise. eapply leafwise_impl; [|exact H].
  intros s t (ps & -> & -> & Hok & Hv). apply eval_pieces; assumption.
Qed.
Lemma evaluate_shape ctx v w : evaluate_vars ctx v = Ok w ->
  leafwise (fun s t => evaluate_vars ctx (VStr s) = Ok (VStr t)) v w.
Proof.
  intros H. apply evaluate_leafwise in H. eapply leafwise_impl; [|exact H]. intros s t E. cbn [evaluate_vars]. rewrite E. reflexivity.
Qed.
