(** * NumLemmas: decimal numbers, printing and reading *)
From Coq Require Import NArith Nnat.
From Verif Require Import PyBase PyLemmas StrLemmas.

Lemma digit_char_is_digit n : (n < 10)%N -> is_digit (digit_char n) = true /\ digit_val (digit_char n) = n.
Proof.
  intros H. assert (E : (n = 0 \/ n = 1 \/ n = 2 \/ n = 3 \/ n = 4 \/ n = 5 \/ n = 6 \/ n = 7 \/ n = 8 \/ n = 9)%N) by lia.
  repeat (destruct E as [-> | E]; [split; reflexivity|]). subst. split; reflexivity.
Qed.

Lemma pow2_size n : (n < 2 ^ N.size n)%N.
Proof. apply N.size_gt. Qed.
Lemma div10_size f n : (n < 2 ^ N.of_nat (S f))%N -> (n / 10 < 2 ^ N.of_nat f)%N.
Proof.
  intros H. rewrite Nat2N.inj_succ, N.pow_succ_r' in H.
  apply N.div_lt_upper_bound; lia.
Qed.

(** The fuel of [string_of_N] is enough: reading the digits back. *)
Lemma dec_read : forall f n acc b0, (n < 2 ^ N.of_nat f)%N -> f <> O ->
  exists k, forall a, parse_digits (dec_of_pos_fuel f n acc) a b0 = parse_digits acc (a * 10 ^ k + n)%N true.
Proof.
  induction f as [|f IH]; intros n acc b0 Hn Hf; [congruence|].
  cbn [dec_of_pos_fuel]. destruct (digit_char_is_digit (n mod 10)) as [D1 D2]; [apply N.mod_lt; lia|].
  destruct (N.ltb_spec n 10) as [L|L].
  - exists 1%N. intros a. cbn [parse_digits]. rewrite D1, D2, N.mod_small by assumption.
    rewrite N.pow_1_r. reflexivity.
  - apply div10_size in Hn. destruct f as [|f].
    { change (2 ^ N.of_nat 0)%N with 1%N in Hn. apply N.lt_1_r in Hn. apply N.div_small_iff in Hn; lia. }
    destruct (IH (n / 10)%N (String (digit_char (n mod 10)) acc) b0 Hn) as [k Hk]; [congruence|].
    exists (N.succ k). intros a. rewrite (Hk a). cbn [parse_digits]. rewrite D1, D2.
    f_equal. rewrite N.pow_succ_r'. pose proof (N.div_mod n 10). lia.
Qed.
Lemma parse_string_of_N n b : parse_digits (string_of_N n) 0 b = Some n.
Proof.
  unfold string_of_N. destruct (dec_read (S (N.to_nat (N.size n))) n EmptyString b) as [k Hk].
  - rewrite Nat2N.inj_succ, N2Nat.id, N.pow_succ_r'. pose proof (pow2_size n). lia.
  - congruence.
  - rewrite (Hk 0%N). reflexivity.
Qed.
Lemma dec_digits : forall f n acc, sforall is_digit acc = true -> sforall is_digit (dec_of_pos_fuel f n acc) = true.
Proof.
  induction f as [|f IH]; intros n acc H; cbn [dec_of_pos_fuel]; [assumption|].
  assert (H' : sforall is_digit (String (digit_char (n mod 10)) acc) = true).
  { cbn [sforall]. rewrite H. destruct (digit_char_is_digit (n mod 10)) as [-> _]; [apply N.mod_lt; lia|reflexivity]. }
  destruct (n <? 10)%N; [assumption|apply IH; assumption].
Qed.
Lemma string_of_N_digits n : sforall is_digit (string_of_N n) = true.
Proof. apply dec_digits. reflexivity. Qed.
Lemma string_of_N_nonempty n : string_of_N n <> EmptyString.
Proof. intros E. pose proof (parse_string_of_N n false) as H. rewrite E in H. discriminate. Qed.
Lemma string_of_N_inj a b : string_of_N a = string_of_N b -> a = b.
Proof. intros E. pose proof (parse_string_of_N a false) as H. rewrite E, parse_string_of_N in H. congruence. Qed.
Lemma string_of_nat_inj a b : string_of_nat a = string_of_nat b -> a = b.
Proof. intros E. apply string_of_N_inj in E. lia. Qed.

Lemma digit_not_space c : is_digit c = true -> is_space c = false.
Proof.
  unfold is_digit, is_space. intros H. apply andb_true_iff in H as [H1 H2].
  apply Nat.leb_le in H1, H2. repeat (rewrite orb_false_iff || rewrite andb_false_iff).
  repeat split; try (left; apply Nat.leb_gt; lia); try (right; apply Nat.leb_gt; lia); apply Nat.eqb_neq; lia.
Qed.
Lemma digit_ne c d : is_digit c = true -> is_digit d = false -> Ascii.eqb c d = false.
Proof. intros Hc Hd. apply Ascii.eqb_neq. intros ->. congruence. Qed.
Lemma spaceless_tight s : s <> EmptyString -> sforall (fun c => negb (is_space c)) s = true -> tight s.
Proof.
  intros Hn Hs. split; [assumption|]. split.
  - intros c r ->. cbn in Hs. apply andb_true_iff in Hs as [H _]. apply negb_true_iff. assumption.
  - intros r c ->. rewrite sforall_app in Hs. cbn in Hs. apply andb_true_iff in Hs as [_ H]. rewrite andb_true_r in H.
    apply negb_true_iff. assumption.
Qed.
Lemma digits_spaceless s : sforall is_digit s = true -> sforall (fun c => negb (is_space c)) s = true.
Proof.
  induction s as [|c s IH]; [reflexivity|]. cbn.
  intros H. apply andb_true_iff in H as [H1 H2]. rewrite digit_not_space, IH by assumption. reflexivity.
Qed.
Lemma digits_strip s : sforall is_digit s = true -> strip s = s.
Proof.
  intros H. destruct s as [|c s]; [reflexivity|].
  assert (E : EmptyString +++ String c s +++ EmptyString = String c s) by (cbn; rewrite app_nil_s; reflexivity).
  rewrite <- E at 1. apply strip_tight; try reflexivity. apply spaceless_tight; [discriminate|].
  revert H. generalize (String c s). clear. intros s. induction s as [|c s IH]; [reflexivity|]. cbn.
  intros H. apply andb_true_iff in H as [H1 H2]. rewrite digit_not_space, IH by assumption. reflexivity.
Qed.
Lemma int_of_string_N n : int_of_string (string_of_N n) = Some (Z.of_N n).
Proof.
  unfold int_of_string. rewrite digits_strip by apply string_of_N_digits.
  pose proof (string_of_N_digits n) as H. pose proof (string_of_N_nonempty n) as Hne.
  pose proof (parse_string_of_N n false) as Hp.
  destruct (string_of_N n) as [|c s]; [congruence|]. cbn [sforall] in H. apply andb_true_iff in H as [Hc _].
  destruct c as [[] [] [] [] [] [] [] []]; cbn in Hc; try discriminate Hc; rewrite Hp; reflexivity.
Qed.
Lemma int_of_string_Z z : int_of_string (string_of_Z z) = Some z.
Proof.
  destruct z as [|p|p].
  - reflexivity.
  - unfold string_of_Z. rewrite int_of_string_N. f_equal.
  - unfold string_of_Z, int_of_string.
    assert (E : strip (String "-" (string_of_N (N.pos p))) = String "-" (string_of_N (N.pos p))).
    { assert (X : EmptyString +++ String "-" (string_of_N (N.pos p)) +++ EmptyString = String "-" (string_of_N (N.pos p))).
      { cbn [String.append]. rewrite app_nil_s. reflexivity. }
      rewrite <- X at 1. apply strip_tight; try reflexivity. apply spaceless_tight; [discriminate|].
      cbn [sforall]. rewrite digits_spaceless by apply string_of_N_digits. reflexivity. }
    rewrite E. rewrite parse_string_of_N. reflexivity.
Qed.
Lemma string_of_Z_nonempty z : string_of_Z z <> EmptyString.
Proof. destruct z; cbn; try discriminate. apply string_of_N_nonempty. Qed.
Lemma string_of_Z_inj a b : string_of_Z a = string_of_Z b -> a = b.
Proof. intros E. pose proof (int_of_string_Z a) as H. rewrite E, int_of_string_Z in H. congruence. Qed.

(** Decimal numbers contain no other character. *)
Lemma digits_nochar c s : is_digit c = false -> sforall is_digit s = true -> nochar c s = true.
Proof.
  intros Hc. induction s as [|d s IH]; [reflexivity|]. cbn [sforall]. intros H. apply andb_true_iff in H as [Hd Hs].
  rewrite nochar_cons, IH by assumption. rewrite digit_ne by assumption. reflexivity.
Qed.
