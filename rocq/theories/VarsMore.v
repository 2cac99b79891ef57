(** * VarsMore: inserting values with escapes and references (proofs only) *)
From Verif Require Import PyBase PyLemmas Vars SpecVars VarsProofs.

Definition esc_of (c : ascii) : option ascii :=
  match c with
  | "a"%char => Some (ch 7) | "b"%char => Some (ch 8)
  | "f"%char => Some (ch 12) | "n"%char => Some (ch 10)
  | "r"%char => Some (ch 13) | "t"%char => Some (ch 9)
  | "v"%char => Some (ch 11) | "\"%char => Some "\"%char
  | _ => None
  end.
Lemma expand_bs f g0 g1 c r : Ascii.eqb c "g" = false -> Ascii.eqb c "0" = false -> is_digit c = false ->
  expand (S f) g0 g1 (String "\" (String c r)) =
  match esc_of c with
  | Some e => option_map (String e) (expand f g0 g1 r)
  | None => if is_ascii_letter c then None else option_map (fun t => String "\" (String c t)) (expand f g0 g1 r)
  end.
Proof. intros H1 H2 H3. cbn [expand]. rewrite H1, H2, H3. reflexivity. Qed.
Lemma esc_other c : is_alnum c = false -> c <> "\"%char ->
  Ascii.eqb c "g" = false /\ Ascii.eqb c "0" = false /\ is_digit c = false /\ esc_of c = None /\ is_ascii_letter c = false.
Proof.
  intros H N. destruct c as [[] [] [] [] [] [] [] []]; try (vm_compute in H; discriminate H); try (exfalso; apply N; reflexivity);
    vm_compute; auto.
Qed.
Lemma esc_listed c d : In (c, d) escapes ->
  Ascii.eqb c "g" = false /\ Ascii.eqb c "0" = false /\ is_digit c = false /\ esc_of c = Some d.
Proof. intros H. repeat (destruct H as [H|H]; [inversion H; subst; vm_compute; auto|]). destruct H. Qed.
Lemma expand_char f g0 g1 c r : c <> "\"%char -> expand (S f) g0 g1 (String c r) = option_map (String c) (expand f g0 g1 r).
Proof. intros N. destruct c as [[] [] [] [] [] [] [] []]; try (exfalso; apply N; reflexivity); reflexivity. Qed.
Lemma expand_unescaped g0 g1 r t : unescaped r t -> forall fuel, (String.length r < fuel)%nat -> expand fuel g0 g1 r = Some t.
Proof.
  induction 1 as [|c r t Hc H IH|c d r t Hin H IH|c r t Ha Hc H IH]; intros fuel Hf; (destruct fuel as [|fuel]; [cbn [String.length] in Hf; lia|]);
    cbn [String.length] in Hf.
  - reflexivity.
  - rewrite expand_char, (IH fuel) by (auto; lia). reflexivity.
  - destruct (esc_listed c d Hin) as (E1 & E2 & E3 & E4). rewrite expand_bs by assumption. rewrite E4, (IH fuel) by lia. reflexivity.
  - destruct (esc_other c Ha Hc) as (E1 & E2 & E3 & E4 & E5). rewrite expand_bs by assumption. rewrite E4, E5, (IH fuel) by lia. reflexivity.
Qed.
Lemma unescaped_escape s : unescaped (escape s) s.
Proof.
  induction s as [|c s IH]; [constructor|]. cbn [escape]. destruct (Ascii.eqb_spec c "\") as [->|N].
  - apply ue_escape; [left; reflexivity|exact IH].
  - apply ue_char; assumption.
Qed.
Lemma escape_plain s : no_backslash s -> escape s = s.
Proof.
  unfold no_backslash. induction s as [|c s IH]; intros H; [reflexivity|]. apply contains_cons in H as [H1 H2].
  cbn [escape]. rewrite IH by exact H2. destruct (Ascii.eqb_spec c "\") as [->|N]; [discriminate H1|reflexivity].
Qed.

Lemma replace_ref_ok n v ps : Forall ok_piece v -> Forall ok_piece ps -> Forall ok_piece (replace_ref n v ps).
Proof.
  intros Hv H. unfold replace_ref. induction H as [|p ps Hp Hps IH]; [constructor|]. cbn [map concat]. apply Forall_app. split; [|exact IH].
  destruct p as [s|w1 m w2]; [auto|]. destruct (String.eqb n m); auto.
Qed.
Lemma names_app a b : names (a ++ b)%list = (names a ++ names b)%list.
Proof. induction a as [|[s|w1 n w2] a IH]; cbn; [reflexivity|exact IH|rewrite IH; reflexivity]. Qed.
Lemma eval_in_turn ctx value ps : Forall ok_piece ps -> stands_for ctx value ps ->
  eval_str ctx (text ps) = Ok (text (in_turn value (names ps) ps)).
Proof.
  intros Hok Hs. unfold eval_str. rewrite (findall_text ps Hok).
  assert (G : forall only, 
    (forall x ins qs, In x (names ps) -> Forall ok_piece qs -> (only = true \/ names qs = [x]) ->
       concat (map (fun p => match p with Lit _ => [p] | Ref _ n _ => if ref_hit (if only then Some x else None) n then ins else [p] end) qs)
       = replace_ref x ins qs) ->
    forall vs qs, incl vs (names ps) -> Forall ok_piece qs -> (only = true \/ (vs = [] \/ (names qs = vs /\ length vs = 1%nat))) ->
     foldM (fun acc var => match dget var ctx with
              | Some v => match re_sub (if only then Some var else None) (py_str v) acc with Some r => Ok r | None => Err ERe end
              | None => Ok acc end) (text qs) vs = Ok (text (in_turn value vs qs))).
  { intros only Ho. induction vs as [|x vs IH]; intros qs Hi Hq Hc; [reflexivity|].
    assert (Hx : In x (names ps)) by (apply Hi; left; reflexivity). specialize (Hs x Hx). cbn [foldM in_turn].
    assert (Hi' : incl vs (names ps)) by (intros y Hy; apply Hi; right; exact Hy).
    assert (Hn : only = true \/ names qs = [x] /\ vs = []).
    { destruct Hc as [Hc|[Hc|[Hc Hl]]]; [left; exact Hc|discriminate|right]. destruct vs; [|discriminate Hl]. auto. }
    destruct (dget x ctx) as [xv|] eqn:Ex, (value x) as [v|] eqn:Ev; try (exfalso; exact Hs).
    - destruct Hs as [Hu Hv].
      rewrite (re_sub_pieces _ (py_str xv) v qs Hq) by (intros g0 g1; apply expand_unescaped; [exact Hu|lia]).
      cbn [bind]. rewrite (Ho x v qs Hx Hq) by (destruct Hn as [|[]]; auto).
      apply IH; [exact Hi'|apply replace_ref_ok; assumption|]. destruct Hn as [|[_ ->]]; auto.
    - cbn [bind]. apply IH; [exact Hi'|exact Hq|]. destruct Hn as [|[_ ->]]; auto. }
  destruct (1 <? length (names ps))%nat eqn:El.
  - apply (G true); auto using incl_refl.
  - apply (G false); [|apply incl_refl|exact Hok|].
    + intros x ins qs _ _ [|Hq]; [discriminate|]. unfold replace_ref. f_equal. apply map_ext_in. intros p Hp.
      destruct p as [s|w1 n w2]; [reflexivity|]. cbn [ref_hit].
      assert (Hn : In n (names qs)).
      { clear -Hp. induction qs as [|q qs IH]; [contradiction|]. destruct Hp as [->|Hp]; [left; reflexivity|].
        destruct q; simpl; [auto|right; auto]. }
      rewrite Hq in Hn. destruct Hn as [<-|[]]. rewrite String.eqb_refl. reflexivity.
    + right. destruct (names ps) as [|a [|b l]]; [left; reflexivity|right; auto|discriminate El].
Qed.

(** When no value refers to a variable of the text, the order does not matter. *)
Lemma in_turn_once value ns : forall N ps,
  incl ns N -> (forall n v, In n N -> value n = Some v -> forall m, In m (names v) -> ~ In m N) ->
  in_turn value ns ps = concat (map (fun p => match p with
      | Ref _ n _ => if existsb (String.eqb n) ns then match value n with Some v => v | None => [p] end else [p]
      | Lit _ => [p] end) ps).
Proof.
  induction ns as [|n ns IH]; intros N ps Hi Hv.
  - cbn [in_turn existsb]. induction ps as [|p ps IHp]; [reflexivity|]. cbn [map concat]. rewrite <- IHp. destruct p; reflexivity.
  - cbn [in_turn]. rewrite (IH N) by (auto; intros y Hy; apply Hi; right; exact Hy).
    destruct (value n) as [v|] eqn:Ev.
    + unfold replace_ref. clear IH. induction ps as [|p ps IHp]; [reflexivity|]. cbn [map concat]. rewrite map_app, concat_app, IHp. f_equal.
      assert (Hself : forall q, (forall m, In m (names q) -> ~ In m N) ->
         concat (map (fun p => match p with
            | Ref _ m _ => if existsb (String.eqb m) ns then match value m with Some v => v | None => [p] end else [p]
            | Lit _ => [p] end) q) = q).
      { induction q as [|[s|a m b] q IHq]; intros Hq; [reflexivity| |]; cbn [map concat].
        - rewrite IHq by exact Hq. reflexivity.
        - rewrite IHq by (intros m' Hm'; apply Hq; right; exact Hm').
          destruct (existsb (String.eqb m) ns) eqn:E; [|reflexivity]. exfalso. apply existsb_exists in E as (y & Hy & Ey).
          apply String.eqb_eq in Ey. subst y. apply (Hq m); [left; reflexivity|apply Hi; right; exact Hy]. }
      destruct p as [s|a m b]; [reflexivity|]. cbn [existsb].
      destruct (String.eqb_spec n m) as [<-|Nm].
      * rewrite String.eqb_refl, Ev. cbn [orb]. apply Hself. apply (Hv n v); [apply Hi; left; reflexivity|exact Ev].
      * cbn [map concat]. rewrite app_nil_r. destruct (String.eqb_spec m n) as [->|]; [congruence|]. reflexivity.
    + f_equal. apply map_ext. intros [s|a m b]; [reflexivity|]. cbn [existsb].
      destruct (String.eqb_spec m n) as [->|]; [|reflexivity]. cbn [orb]. rewrite Ev. destruct (existsb _ _); reflexivity.
Qed.
Lemma eval_at_once ctx value ps : Forall ok_piece ps -> stands_for ctx value ps ->
  (forall n v m, In n (names ps) -> value n = Some v -> In m (names v) -> ~ In m (names ps)) ->
  eval_str ctx (text ps) = Ok (text (at_once value ps)).
Proof.
  intros Hok Hs Hd. rewrite (eval_in_turn ctx value ps Hok Hs). do 2 f_equal.
  rewrite (in_turn_once value (names ps) (names ps) ps (incl_refl _)).
  2:{ intros n v Hn Hv m Hm. exact (Hd n v m Hn Hv Hm). }
  unfold at_once. f_equal. apply map_ext_in. intros [s|a n b] Hp; [reflexivity|].
  assert (existsb (String.eqb n) (names ps) = true) as ->; [|reflexivity].
  apply existsb_exists. exists n. split; [|apply String.eqb_refl].
  clear -Hp. induction ps as [|q ps IH]; [contradiction|]. destruct Hp as [->|Hp]; [left; reflexivity|].
  destruct q; simpl; [auto|right; auto].
Qed.
Lemma eval_doc_of (R : string -> string -> Prop) ctx v w : (forall s t, R s t -> eval_str ctx s = Ok t) ->
  leafwise R v w -> evaluate_vars ctx v = Ok w.
Proof. intros H Hl. apply evaluate_leafwise. eapply leafwise_impl; [|exact Hl]. exact H. Qed.
