(** * CastProofs *)
From Verif Require Import PyBase PyLemmas StrLemmas NumLemmas Conv ConvLemmas TypeCast SpecCast.

Fixpoint tails (gs : list string) : string :=
  match gs with [] => EmptyString | g :: t => "_" +++ g +++ tails t end.
Fixpoint cat (gs : list string) : string :=
  match gs with [] => EmptyString | g :: t => g +++ cat t end.
Lemma join_tails g gs : join "_" (g :: gs) = g +++ tails gs.
Proof.
  revert g. induction gs as [|h t IH]; intros g; [now rewrite app_nil_s|].
  change (join "_" (g :: h :: t)) with (g +++ "_" +++ join "_" (h :: t)). now rewrite IH.
Qed.
Lemma join_cat gs : join "" gs = cat gs.
Proof.
  induction gs as [|g t IH]; [reflexivity|]. destruct t as [|h t]; [now rewrite <- (app_nil_s g) at 1|].
  change (join "" (g :: h :: t)) with (g +++ "" +++ join "" (h :: t)). rewrite IH. reflexivity.
Qed.
Lemma digit_step acc c : is_digit c = true -> (acc * 10 + digit_val c = 10 * acc + (N_of_ascii c - 48))%N.
Proof. intros _. unfold digit_val. lia. Qed.
Lemma parse_read : forall s acc prev n, parse_digits s acc prev = Some n ->
  exists d gs, s = d +++ tails gs /\ sforall is_digit d = true /\ (prev = true \/ d <> EmptyString) /\
    Forall digits gs /\ n = number_from acc (d +++ cat gs).
Proof.
  induction s as [|c s IH]; intros acc prev n H; cbn [parse_digits] in H.
  - destruct prev; [|discriminate]. injection H as <-. exists EmptyString, []. repeat split; auto.
  - destruct (is_digit c) eqn:Ec.
    + destruct (IH _ _ _ H) as (d & gs & -> & Hd & _ & Hg & ->). exists (String c d), gs.
      repeat split; auto; [cbn [sforall]; now rewrite Ec | right; discriminate |].
      cbn [String.append number_from]. now rewrite digit_step.
    + destruct (Ascii.eqb c "_") eqn:Eu; [|discriminate]. destruct prev; [|discriminate]. cbn [andb] in H.
      apply Ascii.eqb_eq in Eu. subst c.
      destruct (IH _ _ _ H) as (d & gs & -> & Hd & [Hp | Hp] & Hg & ->); [discriminate|].
      exists EmptyString, (d :: gs). cbn [tails cat sforall String.append]. repeat split; auto.
      constructor; [now split | assumption].
Qed.
Lemma parse_write : forall gs d acc prev, sforall is_digit d = true -> (prev = true \/ d <> EmptyString) ->
  Forall digits gs -> parse_digits (d +++ tails gs) acc prev = Some (number_from acc (d +++ cat gs)).
Proof.
  induction gs as [|g t IHg].
  - induction d as [|c d IHd]; intros acc prev Hd Hp _.
    + destruct Hp as [-> | Hp]; [reflexivity | now elim Hp].
    + cbn [sforall] in Hd. apply andb_prop in Hd as (Hc & Hd). cbn [tails cat String.append parse_digits number_from].
      rewrite Hc, digit_step by assumption. apply (IHd _ true); auto.
  - induction d as [|c d IHd]; intros acc prev Hd Hp Hg.
    + destruct Hp as [-> | Hp]; [| now elim Hp]. inversion Hg as [|? ? (Hne & Hdg) Ht]; subst.
      cbn [tails cat String.append parse_digits number_from].
      change (is_digit "_") with false. change (Ascii.eqb "_" "_" && true) with true. cbv iota.
      apply IHg; auto.
    + cbn [sforall] in Hd. apply andb_prop in Hd as (Hc & Hd). cbn [String.append parse_digits number_from].
      rewrite Hc, digit_step by assumption. apply (IHd _ true); auto.
Qed.
Lemma parse_numeral s n : parse_digits s 0 false = Some n <-> numeral s n.
Proof.
  split.
  - intros H. destruct (parse_read _ _ _ _ H) as (d & gs & -> & Hd & [Hp | Hp] & Hg & ->); [discriminate|].
    exists (d :: gs). repeat split; [discriminate | constructor; [now split | assumption] | now rewrite join_tails | now rewrite join_cat].
  - intros (gs & Hn & Hg & -> & ->). destruct gs as [|g t]; [now elim Hn|]. inversion Hg as [|? ? (Hne & Hdg) Ht]; subst.
    rewrite join_tails, join_cat. now apply parse_write; auto.
Qed.
Lemma numeral_head m n : numeral m n -> exists c r, m = String c r /\ is_digit c = true.
Proof.
  intros (gs & Hn & Hg & -> & _). destruct gs as [|g t]; [now elim Hn|]. inversion Hg as [|? ? (Hne & Hdg) Ht]; subst.
  rewrite join_tails. destruct g as [|c r]; [now elim Hne|]. cbn [sforall] in Hdg. apply andb_prop in Hdg as (Hc & _).
  exists c, (r +++ tails t). now split.
Qed.
Lemma tails_chars gs : Forall digits gs -> sforall (fun c => negb (is_space c)) (tails gs) = true.
Proof.
  induction 1 as [|g t (Hne & Hg) _ IH]; [reflexivity|]. cbn [tails]. rewrite !sforall_app, IH, (digits_spaceless g) by assumption. reflexivity.
Qed.
Lemma numeral_spaceless m n : numeral m n -> sforall (fun c => negb (is_space c)) m = true.
Proof.
  intros (gs & Hn & Hg & -> & _). destruct gs as [|g t]; [now elim Hn|]. inversion Hg as [|? ? (Hne & Hdg) Ht]; subst.
  rewrite join_tails, sforall_app, digits_spaceless, tails_chars by assumption. reflexivity.
Qed.
Lemma int_reads s z : int_of_string s = Some z <-> reads_as s z.
Proof.
  split.
  - intros H. destruct (strip_split s) as (a & b & Es & Ha & Hb & _). unfold int_of_string in H.
    assert (G : forall sign m, strip s = sign +++ m ->
      forall n, numeral m n -> (sign = "" /\ z = Z.of_N n \/ sign = "+" /\ z = Z.of_N n \/ sign = "-" /\ z = Z.opp (Z.of_N n)) -> reads_as s z).
    { intros sign m Em n Hm Hz. exists a, sign, m, b, n. rewrite Es at 1. rewrite Em, app_assoc_s. auto. }
    destruct (strip s) as [|c r] eqn:Er; [discriminate|].
    destruct (Ascii.eqb_spec c "+") as [-> | Hp]; [|destruct (Ascii.eqb_spec c "-") as [-> | Hm]].
    + destruct (parse_digits r 0 false) as [n|] eqn:Ep; [|discriminate]. injection H as <-.
      apply parse_numeral in Ep. apply (G "+" r eq_refl n Ep). auto.
    + destruct (parse_digits r 0 false) as [n|] eqn:Ep; [|discriminate]. injection H as <-.
      apply parse_numeral in Ep. apply (G "-" r eq_refl n Ep). auto.
    + assert (H' : option_map Z.of_N (parse_digits (String c r) 0 false) = Some z).
      { destruct c as [[] [] [] [] [] [] [] []]; try exact H; [now elim Hm | now elim Hp]. }
      destruct (parse_digits (String c r) 0 false) as [n|] eqn:Ep; [|discriminate]. injection H' as <-.
      apply parse_numeral in Ep. apply (G "" _ eq_refl n Ep). auto.
  - intros (a & sign & m & b & n & -> & Ha & Hb & Hm & Hz).
    pose proof (numeral_head _ _ Hm) as (c & r & -> & Hc). pose proof (numeral_spaceless _ _ Hm) as Hs.
    apply parse_numeral in Hm. unfold int_of_string.
    assert (Es : strip (a +++ sign +++ String c r +++ b) = sign +++ String c r).
    { rewrite <- (app_assoc_s sign). apply strip_tight; auto. apply spaceless_tight.
      - destruct Hz as [(-> & _) | [(-> & _) | (-> & _)]]; discriminate.
      - rewrite sforall_app, Hs. destruct Hz as [(-> & _) | [(-> & _) | (-> & _)]]; reflexivity. }
    rewrite Es. destruct Hz as [(-> & ->) | [(-> & ->) | (-> & ->)]]; cbn [String.append]; try (now rewrite Hm).
    assert (Hp : c <> "+"%char /\ c <> "-"%char) by (split; intros ->; discriminate).
    destruct Hp as (Hp & Hq).
    destruct c as [[] [] [] [] [] [] [] []]; try (rewrite Hm; reflexivity); [now elim Hq | now elim Hp].
Qed.
Lemma reads_fun s z z' : reads_as s z -> reads_as s z' -> z = z'.
Proof. rewrite <- !int_reads. congruence. Qed.

(** ** The schema and its extract *)
Lemma extract_get : forall properties k,
  NoDup (dkeys properties) ->
  dget k (extract properties) =
  match dget k properties with
  | None => None
  | Some p => if py_eq (json_type p) (VStr "integer") then Some JInt
              else if py_eq (json_type p) (VStr "boolean") then Some JBool else None
  end.
Proof.
  induction properties as [|(k', p) t IH]; intros k Hnd; [reflexivity|].
  inversion Hnd as [|? ? Hni Hnd']; subst. cbn [extract dget].
  assert (Hx : ~ In k' (dkeys (extract t)) ).
  { intros Hi. apply Hni. clear -Hi. induction t as [|(k2, p2) t IH]; [exact Hi|]. cbn [extract] in Hi. unfold dkeys in *.
    destruct (py_eq (json_type p2) (VStr "integer")); [|destruct (py_eq (json_type p2) (VStr "boolean"))]; cbn [map fst In] in Hi |- *; tauto. }
  destruct (String.eqb_spec k k') as [-> | Hk].
  - destruct (py_eq (json_type p) (VStr "integer")); [cbn [dget]; now rewrite eqb_refl|].
    destruct (py_eq (json_type p) (VStr "boolean")); [cbn [dget]; now rewrite eqb_refl|].
    clear -Hx. induction (extract t) as [|(k2, p2) l IH]; [reflexivity|]. cbn [dget]. rewrite eqb_neq by (intros ->; apply Hx; now left).
    apply IH. intros H. apply Hx. now right.
  - rewrite <- IH by assumption.
    destruct (py_eq (json_type p) (VStr "integer")); [cbn [dget]; now rewrite eqb_neq|].
    destruct (py_eq (json_type p) (VStr "boolean")); [cbn [dget]; now rewrite eqb_neq|]. reflexivity.
Qed.
Lemma type_cast_extract properties item : NoDup (dkeys properties) ->
  type_cast_by properties item = type_cast (extract properties) item.
Proof.
  intros Hnd. induction item as [|(k, v) t IH]; [reflexivity|]. cbn [type_cast type_cast_by]. rewrite IH, extract_get by assumption.
  f_equal. destruct (dget k properties) as [p|]; [|reflexivity]. unfold cast_one, cast_value.
  destruct (py_eq (json_type p) (VStr "integer")) eqn:Ei.
  - destruct v; cbn [negb andb]; try reflexivity; destruct (py_eq (json_type p) (VStr "boolean")) eqn:Eb; try reflexivity.
    exfalso. destruct (json_type p); try discriminate. cbn in Ei, Eb. apply String.eqb_eq in Ei. subst. discriminate.
  - destruct (py_eq (json_type p) (VStr "boolean")); cbn [andb]; [destruct v|]; reflexivity.
Qed.
Lemma json_type_declares properties k p t : dget k properties = Some p ->
  (py_eq (json_type p) (VStr t) = true <-> declares properties k t).
Proof.
  intros Hp. unfold declares. rewrite Hp. split.
  - intros H. destruct p as [| | | | | |d]; try discriminate. exists d. split; [reflexivity|]. cbn [json_type] in H.
    destruct (dget "type" d) as [[| | | |s|[|[| | | |s| |] l]|]|]; try discriminate; cbn in H; apply String.eqb_eq in H; subst; eauto.
  - intros (d & [= ->] & [H | (l & H)]); cbn [json_type]; rewrite H; cbn; apply String.eqb_refl.
Qed.
Lemma declares_key properties k t : declares properties k t -> exists p, dget k properties = Some p.
Proof. intros (p & H & _). eauto. Qed.
Lemma declares_one properties k : declares properties k "integer" -> ~ declares properties k "boolean".
Proof.
  intros H1 H2. destruct (declares_key _ _ _ H1) as (p & Hp).
  apply (json_type_declares _ _ _ _ Hp) in H1. apply (json_type_declares _ _ _ _ Hp) in H2.
  destruct (json_type p); try discriminate. cbn in H1, H2. apply String.eqb_eq in H1. subst. discriminate.
Qed.
Lemma by_keys properties : forall d e, type_cast_by properties d = Ok e -> dkeys e = dkeys d.
Proof.
  induction d as [|(k, v) t IH]; intros e H; cbn [type_cast_by] in H; [now injection H as <-|].
  apply bind_Ok in H as (v' & _ & H). apply bind_Ok in H as (t' & Ht & H). injection H as <-. cbn. f_equal. now apply IH.
Qed.
Definition cast_field properties k v := match dget k properties with None => Ok v | Some p => cast_one (json_type p) v end.
Lemma by_items properties : forall d e, type_cast_by properties d = Ok e ->
  Forall2 (fun kv kv' => fst kv = fst kv' /\ cast_field properties (fst kv) (snd kv) = Ok (snd kv')) d e.
Proof.
  induction d as [|(k, v) t IH]; intros e H; cbn [type_cast_by] in H; [injection H as <-; constructor|].
  apply bind_Ok in H as (v' & Hv & H). apply bind_Ok in H as (t' & Ht & H). injection H as <-. constructor; [now split | now apply IH].
Qed.
Lemma by_total properties : forall d, (forall k v, In (k, v) d -> exists v', cast_field properties k v = Ok v') -> exists e, type_cast_by properties d = Ok e.
Proof.
  induction d as [|(k, v) t IH]; intros H; [now exists []|].
  destruct (H k v) as (v' & Hv); [now left|]. destruct IH as (e & He); [intros; apply H; now right|].
  exists ((k, v') :: e). cbn [type_cast_by]. fold (cast_field properties k v). now rewrite Hv, He.
Qed.
Lemma by_fails properties : forall d e, type_cast_by properties d = Err e -> exists k v, In (k, v) d /\ cast_field properties k v = Err e.
Proof.
  induction d as [|(k, v) t IH]; intros e H; cbn [type_cast_by] in H; [discriminate|].
  fold (cast_field properties k v) in H. destruct (cast_field properties k v) as [v'|e'] eqn:Ev; cbn [bind] in H.
  - destruct (type_cast_by properties t) as [t'|e'] eqn:Et; [discriminate|]. cbn in H. destruct (IH _ H) as (k2 & v2 & Hi & Hc). exists k2, v2. split; [now right | assumption].
  - injection H as ->. exists k, v. split; [now left | assumption].
Qed.
Lemma field_cast_ok properties k v v' : cast_field properties k v = Ok v' <-> field_cast properties k v v'.
Proof.
  unfold cast_field. destruct (dget k properties) as [p|] eqn:Ep.
  2: { assert (N : forall t, ~ declares properties k t) by (intros t (q & Hq & _); congruence).
    split; [intros [= ->]; now apply cast_none | intros [s z H|u H|u H|b H|u _ _]; try (now elim (N _ H)); reflexivity]. }
  pose proof (json_type_declares properties k p "integer" Ep) as HI. pose proof (json_type_declares properties k p "boolean" Ep) as HB.
  unfold cast_one. destruct (py_eq (json_type p) (VStr "integer")) eqn:Ei.
  - assert (DI : declares properties k "integer") by now apply HI. pose proof (declares_one _ _ DI) as DB.
    assert (Eb : py_eq (json_type p) (VStr "boolean") = false) by (destruct (py_eq (json_type p) (VStr "boolean")); [now elim DB; apply HB | reflexivity]).
    rewrite Eb. split.
    + intros H. destruct v; cbn [negb andb] in H; try discriminate; try (injection H as <-); eauto using cast_int_id.
      destruct (int_of_string s) as [z|] eqn:Es; [|discriminate]. injection H as <-. apply cast_int; [assumption|]. now apply int_reads.
    + intros [s z _ H|u _ [(z & ->) | (b & ->)]|u H|b H|u H _]; try contradiction; cbn [negb andb]; try reflexivity.
      apply int_reads in H. now rewrite H.
  - assert (DI : ~ declares properties k "integer") by (intros D; apply HI in D; congruence). cbn [andb].
    destruct (py_eq (json_type p) (VStr "boolean")) eqn:Eb.
    + assert (DB : declares properties k "boolean") by now apply HB. split.
      * intros H. destruct v; cbn [negb andb] in H; injection H as <-; try (apply cast_bool_id; assumption);
          match goal with |- field_cast _ _ ?v _ => exact (cast_bool properties k v DB ltac:(discriminate)) end.
      * intros [s z H _|u H _|u _ H|b H|u _ H]; try contradiction; cbn [negb andb]; [|reflexivity].
        destruct u as [|b| | | | |]; try reflexivity. now elim (H b).
    + assert (DB : ~ declares properties k "boolean") by (intros D; apply HB in D; congruence). cbn [andb]. split.
      * intros [= ->]. now apply cast_none.
      * intros [s z H _|u H _|u H _|b H|u _ _]; try contradiction; reflexivity.
Qed.
Lemma field_cast_again properties k v v' : field_cast properties k v v' -> field_cast properties k v' v'.
Proof. intros [s z H _|u H Hv|u H _|b H|u H H']; eauto using field_cast. Qed.
Lemma Forall2_items properties : forall d e,
  Forall2 (fun kv kv' => fst kv = fst kv' /\ cast_field properties (fst kv) (snd kv) = Ok (snd kv')) d e -> type_cast_by properties d = Ok e.
Proof.
  induction 1 as [|(k, v) (k', v') t u (Hk & Hv) _ IH]; [reflexivity|]. cbn [fst snd] in *. subst k'. cbn [type_cast_by].
  fold (cast_field properties k v). now rewrite Hv, IH.
Qed.
Lemma by_again properties d e : type_cast_by properties d = Ok e -> type_cast_by properties e = Ok e.
Proof.
  intros H. apply by_items in H. apply Forall2_items. induction H as [|kv kv' t u (Hk & Hv) _ IH]; constructor; auto.
  split; [reflexivity|]. rewrite <- Hk. apply field_cast_ok. apply field_cast_ok in Hv. eapply field_cast_again; eassumption.
Qed.
