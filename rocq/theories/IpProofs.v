(** * IpProofs: printing and reading addresses *)
From Coq Require Import NArith Nnat.
From Verif Require Import PyBase PyLemmas StrLemmas NumLemmas FilesProofs Ip.

Lemma N_enum (P : N -> bool) (k : nat) : forallb P (map N.of_nat (seq 0 k)) = true ->
  forall n, (n < N.of_nat k)%N -> P n = true.
Proof.
  intros H n Hn. rewrite forallb_forall in H. apply H. apply in_map_iff. exists (N.to_nat n).
  rewrite N2Nat.id. split; [reflexivity|]. apply in_seq. lia.
Qed.
Definition optN_eqb (a : option N) (n : N) : bool := match a with Some m => N.eqb m n | None => false end.
Lemma optN_eqb_true a n : optN_eqb a n = true -> a = Some n.
Proof. destruct a; cbn; [|discriminate]. intros H. apply N.eqb_eq in H. congruence. Qed.

Lemma parse_octet_print n : (n < 256)%N -> parse_octet (string_of_N n) = Some n.
Proof.
  intros H. apply optN_eqb_true. revert n H.
  apply (N_enum (fun n => optN_eqb (parse_octet (string_of_N n)) n) 256). vm_compute. reflexivity.
Qed.
Lemma octet_lt n k : (octet n k < 256)%N.
Proof. apply N.mod_lt. discriminate. Qed.
Lemma octets_eq n : (n < 2 ^ 32)%N ->
  (((octet n 3 * 256 + octet n 2) * 256 + octet n 1) * 256 + octet n 0 = n)%N.
Proof.
  intros H. unfold octet. change (256 ^ 3)%N with (256 * 256 * 256)%N. change (256 ^ 2)%N with (256 * 256)%N.
  change (256 ^ 1)%N with 256%N. change (256 ^ 0)%N with 1%N. rewrite N.div_1_r.
  rewrite <- !N.div_div by discriminate.
  pose proof (N.div_mod n 256). pose proof (N.div_mod (n / 256) 256). pose proof (N.div_mod (n / 256 / 256) 256).
  assert (L : (n / 256 / 256 / 256 < 256)%N).
  { rewrite !N.div_div by discriminate. apply N.div_lt_upper_bound; [discriminate|]. assumption. }
  rewrite (N.mod_small (n / 256 / 256 / 256)) by assumption. lia.
Qed.
Lemma no_sep_digits sep s : is_digit sep = false -> sforall is_digit s = true -> sexists (Ascii.eqb sep) s = false.
Proof.
  intros Hs. induction s as [|c s IH]; [reflexivity|]. cbn. intros H. apply andb_true_iff in H as [Hc H].
  rewrite IH by assumption. rewrite orb_false_r. apply Ascii.eqb_neq. intros ->. congruence.
Qed.
Lemma parse_print_ipv4 n : (n < 2 ^ 32)%N -> parse_ipv4 (print_ipv4 n) = Some n.
Proof.
  intros H. unfold parse_ipv4, print_ipv4.
  rewrite (split_char_of_join "."%char); [|discriminate|].
  2:{ intros c [<-|[<-|[<-|[<-|[]]]]]; apply no_sep_digits; try reflexivity; apply string_of_N_digits. }
  rewrite !parse_octet_print by apply octet_lt. rewrite octets_eq by assumption. reflexivity.
Qed.
(** Characters of printed IPv4 addresses *)
Definition v4_char (c : ascii) : bool := is_digit c || Ascii.eqb c "."%char.
Lemma digits_v4 s : sforall is_digit s = true -> sforall v4_char s = true.
Proof.
  induction s as [|c s IH]; [reflexivity|]. cbn. intros H. apply andb_true_iff in H as [H1 H2].
  unfold v4_char at 1. rewrite H1, IH by assumption. reflexivity.
Qed.
Lemma print_ipv4_chars n : sforall v4_char (print_ipv4 n) = true.
Proof.
  unfold print_ipv4. cbn [join]. rewrite !sforall_app. rewrite !(digits_v4 (string_of_N _)) by apply string_of_N_digits. reflexivity.
Qed.
Lemma chars_no_sep (p : ascii -> bool) sep s : p sep = false -> sforall p s = true -> sexists (Ascii.eqb sep) s = false.
Proof.
  intros Hs. induction s as [|c s IH]; [reflexivity|]. cbn. intros H. apply andb_true_iff in H as [Hc H].
  rewrite IH by assumption. rewrite orb_false_r. apply Ascii.eqb_neq. intros ->. congruence.
Qed.

Lemma prefix_of_digits_print w n : (n <= w)%N -> prefix_of_digits w (string_of_N n) = Some n.
Proof.
  intros H. unfold prefix_of_digits. rewrite string_of_N_digits, parse_string_of_N. cbn.
  apply N.leb_le in H. rewrite H. reflexivity.
Qed.
(** A printed netmask is read back as its prefix length. *)
Lemma prefix_of_netmask p : (p <= 32)%N -> parse_prefix4 (print_ipv4 (mask_of 32 p)) = Some p.
Proof.
  intros H. apply optN_eqb_true. assert (H' : (p < 33)%N) by lia. revert p H' H.
  assert (G : forall p, (p < 33)%N -> optN_eqb (parse_prefix4 (print_ipv4 (mask_of 32 p))) p = true); [|auto].
  apply (N_enum (fun p => optN_eqb (parse_prefix4 (print_ipv4 (mask_of 32 p))) p) 33). vm_compute. reflexivity.
Qed.

(** ** IPv6 groups *)
Lemma hex_val_char n : (n < 16)%N -> hex_val (hex_char n) = Some n.
Proof.
  intros H. apply optN_eqb_true. revert n H.
  apply (N_enum (fun n => optN_eqb (hex_val (hex_char n)) n) 16). vm_compute. reflexivity.
Qed.
Definition hexlow (c : ascii) : bool := match hex_val c with Some _ => true | None => false end.
Lemma hexlow_char n : (n < 16)%N -> hexlow (hex_char n) = true.
Proof. intros H. unfold hexlow. rewrite hex_val_char by assumption. reflexivity. Qed.
Lemma parse_hextet_print n : (n < 65536)%N -> parse_hextet (print_hex n) = Some n.
Proof.
  intros H. unfold print_hex.
  change (16 ^ 3)%N with (16 * 16 * 16)%N. change (16 ^ 2)%N with (16 * 16)%N.
  change (16 ^ 1)%N with 16%N. change (16 ^ 0)%N with 1%N. rewrite N.div_1_r. rewrite <- !N.div_div by discriminate.
  pose proof (N.div_mod n 16) as E1. pose proof (N.div_mod (n / 16) 16) as E2. pose proof (N.div_mod (n / 16 / 16) 16) as E3.
  assert (M : forall x, (x mod 16 < 16)%N) by (intro; apply N.mod_lt; discriminate).
  destruct (N.ltb_spec n 16); [|destruct (N.ltb_spec n 256); [|destruct (N.ltb_spec n 4096)]];
    unfold parse_hextet; cbn [String.append String.eqb String.length Nat.ltb Nat.leb orb parse_hex];
    rewrite !hex_val_char by apply M; f_equal.
  - rewrite N.mod_small; lia.
  - assert (L : (n / 16 < 16)%N) by (apply N.div_lt_upper_bound; lia).
    rewrite (N.mod_small (n / 16)) by assumption. lia.
  - assert (L : (n / 16 / 16 < 16)%N) by (rewrite N.div_div by discriminate; apply N.div_lt_upper_bound; lia).
    rewrite (N.mod_small (n / 16 / 16)) by assumption. lia.
  - assert (L : (n / 16 / 16 / 16 < 16)%N) by (rewrite !N.div_div by discriminate; apply N.div_lt_upper_bound; lia).
    rewrite (N.mod_small (n / 16 / 16 / 16)) by assumption. lia.
Qed.
Lemma print_hex_chars n : sforall hexlow (print_hex n) = true /\ print_hex n <> EmptyString.
Proof.
  assert (M : forall x, (x mod 16 < 16)%N) by (intro; apply N.mod_lt; discriminate).
  unfold print_hex. destruct (n <? 16)%N; [|destruct (n <? 256)%N; [|destruct (n <? 4096)%N]];
    cbn [String.append sforall]; rewrite !hexlow_char by apply M; (split; [reflexivity|discriminate]).
Qed.
Lemma print_hex_zero n : (n < 65536)%N -> print_hex n = "0" -> n = 0%N.
Proof. intros H E. pose proof (parse_hextet_print n H) as P. rewrite E in P. vm_compute in P. congruence. Qed.

Lemma hextet_lt n k : (hextet n k < 65536)%N.
Proof. apply N.mod_lt. discriminate. Qed.
Lemma of_hextets_app a b : of_hextets (a ++ b) = fold_left (fun acc h => acc * 65536 + h)%N b (of_hextets a).
Proof. unfold of_hextets. apply fold_left_app. Qed.
Lemma hextets_eq n : (n < 2 ^ 128)%N -> of_hextets (hextets n) = n.
Proof.
  intros H. unfold hextets. cbn [map]. unfold of_hextets. cbn [fold_left].
  assert (S : forall k, (n / 65536 ^ N.succ k * 65536 + hextet n k = n / 65536 ^ k)%N).
  { intros k. unfold hextet. rewrite N.pow_succ_r', (N.mul_comm 65536 (65536 ^ k)), <- N.div_div by (try discriminate; apply N.pow_nonzero; discriminate).
    pose proof (N.div_mod (n / 65536 ^ k) 65536). lia. }
  assert (E7 : (0 * 65536 + hextet n 7 = n / 65536 ^ 7)%N).
  { rewrite <- (S 7%N). change (N.succ 7) with 8%N. rewrite (N.div_small n (65536 ^ 8)) by exact H. reflexivity. }
  rewrite E7.
  pose proof (S 6%N) as S6. pose proof (S 5%N) as S5. pose proof (S 4%N) as S4. pose proof (S 3%N) as S3.
  pose proof (S 2%N) as S2. pose proof (S 1%N) as S1. pose proof (S 0%N) as S0. cbn [N.succ Pos.succ] in *.
  rewrite S6, S5, S4, S3, S2, S1, S0. rewrite N.pow_0_r, N.div_1_r. reflexivity.
Qed.

(** ** Compression *)
Definition zero_run (hs : list string) (s l : nat) : Prop :=
  (s + l <= length hs)%nat /\ firstn l (skipn s hs) = repeat "0" l.
Lemma best_run_spec : forall rest pre bs bl cs cl, 
  zero_run (pre ++ rest) bs bl -> ((cl = 0)%nat \/ (cs + cl = length pre)%nat) ->
  (cl = 0%nat \/ zero_run (pre ++ rest) cs cl) ->
  forall s l, best_run rest (length pre) bs bl cs cl = (s, l) -> zero_run (pre ++ rest) s l.
Proof.
  induction rest as [|h t IH]; intros pre bs bl cs cl Hb Hp Hc s l; cbn [best_run].
  - intros E. injection E as <- <-. assumption.
  - assert (E : (pre ++ h :: t = (pre ++ [h]) ++ t)%list) by (rewrite <- app_assoc; reflexivity).
    assert (Hlen : length (pre ++ [h]) = S (length pre)) by (rewrite app_length; cbn; lia).
    destruct (String.eqb_spec h "0") as [->|Hn].
    + assert (Hz : zero_run (pre ++ "0" :: t) (if (cl =? 0)%nat then length pre else cs) (S cl)).
      { destruct (Nat.eqb_spec cl 0) as [->|Hc0].
        - split; [rewrite app_length; cbn; lia|]. rewrite skipn_app, skipn_all, Nat.sub_diag. reflexivity.
        - destruct Hc as [->|[L Z]]; [congruence|]. destruct Hp as [->|Hp]; [congruence|].
          split; [rewrite app_length; cbn; lia|].
          assert (X : firstn (S cl) (skipn cs (pre ++ "0" :: t)) = (firstn cl (skipn cs (pre ++ "0" :: t)) ++ ["0"])%list).
          { rewrite skipn_app. assert (Lp : length (skipn cs pre) = cl) by (rewrite skipn_length; lia).
            rewrite !firstn_app, Lp. replace (cs - length pre)%nat with 0%nat by lia.
            rewrite (firstn_all2 (skipn cs pre)) by lia. rewrite (firstn_all2 (skipn cs pre)) by lia.
            replace (S cl - cl)%nat with 1%nat by lia. rewrite Nat.sub_diag. cbn. rewrite app_nil_r. reflexivity. }
          rewrite X, Z. change (["0"]) with (repeat "0" 1). rewrite <- repeat_app. f_equal. lia. }
      rewrite E in *. rewrite <- Hlen. destruct (bl <? S cl)%nat.
      * apply IH; [assumption| |right; assumption]. right. destruct (Nat.eqb_spec cl 0) as [->|]; [lia|]. destruct Hp; lia.
      * apply IH; [assumption| |right; assumption]. right. destruct (Nat.eqb_spec cl 0) as [->|]; [lia|]. destruct Hp; lia.
    + rewrite E in *. rewrite <- Hlen. apply IH; [assumption| |]; left; reflexivity.
Qed.

Definition nonempty (s : string) : bool := negb (String.eqb s EmptyString).
Lemma empties_app i a b : empties i (a ++ b) = (empties i a ++ empties (i + length a) b)%list.
Proof.
  revert i. induction a as [|s a IH]; intros i; cbn.
  - rewrite Nat.add_0_r. reflexivity.
  - rewrite IH, Nat.add_succ_r. destruct (String.eqb s EmptyString); reflexivity.
Qed.
Lemma empties_none i a : forallb nonempty a = true -> empties i a = [].
Proof.
  revert i. induction a as [|s a IH]; intros i; cbn; [reflexivity|]. unfold nonempty at 1.
  intros H. apply andb_true_iff in H as [H1 H2]. apply negb_true_iff in H1. rewrite H1. apply IH. assumption.
Qed.
Lemma forallb_incl {A} (p : A -> bool) l l' : forallb p l = true -> (forall x, In x l' -> In x l) -> forallb p l' = true.
Proof. rewrite !forallb_forall. auto. Qed.
Lemma removelast_In {A} (l : list A) x : In x (removelast l) -> In x l.
Proof.
  induction l as [|y l IH]; cbn; [tauto|]. destruct l; [tauto|]. intros [->|H]; [left; reflexivity|right; auto].
Qed.
Lemma mapO_app {A B} (f : A -> option B) a b x y : mapO f a = Some x -> mapO f b = Some y -> mapO f (a ++ b) = Some (x ++ y)%list.
Proof.
  revert x. induction a as [|h a IH]; intros x; cbn; [intros E; injection E as <-; auto|].
  destruct (f h); [|discriminate]. destruct (mapO f a); [|discriminate]. intros E Hb. injection E as <-.
  rewrite (IH _ eq_refl Hb). reflexivity.
Qed.
Lemma mapO_hex hs : (forall h, In h hs -> (h < 65536)%N) -> mapO parse_hextet (map print_hex hs) = Some hs.
Proof.
  induction hs as [|h hs IH]; intros H; [reflexivity|]. cbn. rewrite parse_hextet_print by (apply H; left; reflexivity).
  rewrite IH; [reflexivity|]. intros x Hx. apply H. right. assumption.
Qed.
Lemma hex_nonempty hs : forallb nonempty (map print_hex hs) = true.
Proof.
  apply forallb_forall. intros s H. apply in_map_iff in H as (n & <- & _). unfold nonempty.
  destruct (print_hex_chars n) as [_ H]. apply String.eqb_neq in H. rewrite H. reflexivity.
Qed.
Lemma nth_nonempty l i : forallb nonempty l = true -> nth_empty i l = false.
Proof.
  intros H. unfold nth_empty. destruct (nth_error l i) as [s|] eqn:E; [|reflexivity].
  apply nth_error_In in E. rewrite forallb_forall in H. apply H in E. apply negb_true_iff. assumption.
Qed.
Lemma nth_empty_app1 i a b : (i < length a)%nat -> nth_empty i (a ++ b) = nth_empty i a.
Proof. intros H. unfold nth_empty. rewrite nth_error_app1 by assumption. reflexivity. Qed.
Lemma nth_empty_app2 i a b : (length a <= i)%nat -> nth_empty i (a ++ b) = nth_empty (i - length a) b.
Proof. intros H. unfold nth_empty. rewrite nth_error_app2 by assumption. reflexivity. Qed.

(** Reading the compressed parts: before, the gap, after. *)
Lemma parse_parts_gap A B a b k : mapO parse_hextet A = Some a -> mapO parse_hextet B = Some b ->
  forallb nonempty A = true -> forallb nonempty B = true -> (length A + length B + k = 8)%nat -> (1 <= k)%nat ->
  parse_parts ((if (length A =? 0)%nat then [EmptyString] else []) ++ A ++ [EmptyString] ++ B ++
               (if (length B =? 0)%nat then [EmptyString] else [])) = Some (of_hextets (a ++ repeat 0%N k ++ b)).
Proof.
  intros Ha Hb NA NB Hk Hk1.
  assert (K : (8 - (length A + length B) = k)%nat) by lia.
  destruct A as [|x A]; destruct B as [|y B]; cbn [length Nat.eqb app].
  - cbn in Ha, Hb. injection Ha as <-. injection Hb as <-. cbn in K. subst k. reflexivity.
  - cbn in Ha. injection Ha as <-. unfold parse_parts. cbn [length] in *. rewrite app_nil_r.
    destruct (Nat.ltb_spec 9 (S (S (S (length B))))); [lia|].
    cbn [tl]. change (removelast (EmptyString :: y :: B)) with (EmptyString :: removelast (y :: B)).
    change (empties 1 (EmptyString :: removelast (y :: B))) with (1%nat :: empties 2 (removelast (y :: B))).
    rewrite (empties_none 2) by (eapply forallb_incl; [exact NB|apply removelast_In]).
    change (nth_empty 0 (EmptyString :: EmptyString :: y :: B)) with true.
    assert (La : nth_empty (S (S (S (length B))) - 1) (EmptyString :: EmptyString :: y :: B) = false).
    { change (EmptyString :: EmptyString :: y :: B) with ([EmptyString; EmptyString] ++ (y :: B))%list.
      rewrite nth_empty_app2 by (cbn; lia). apply nth_nonempty. assumption. }
    rewrite La. change (1 - 1)%nat with 0%nat. cbn [Nat.eqb negb andb orb].
    replace (S (S (S (length B))) - 1 - 1)%nat with (S (length B)) by lia.
    destruct (Nat.ltb_spec 7 (0 + S (length B))); [cbn in *; lia|].
    replace (S (S (S (length B))) - S (length B))%nat with 2%nat by lia.
    change (firstn 0 (EmptyString :: EmptyString :: y :: B)) with (@nil string).
    change (skipn 2 (EmptyString :: EmptyString :: y :: B)) with (y :: B).
    change (mapO parse_hextet []) with (Some (@nil N)). rewrite Hb, <- K. reflexivity.
  - cbn in Hb. injection Hb as <-. unfold parse_parts.
    assert (L : length (x :: A ++ [EmptyString; EmptyString]) = (length A + 3)%nat) by (cbn; rewrite app_length; cbn; lia).
    rewrite L. destruct (Nat.ltb_spec 9 (length A + 3)); [cbn in *; lia|]. cbn [tl].
    assert (R : removelast (A ++ [EmptyString; EmptyString]) = (A ++ [EmptyString])%list).
    { change [EmptyString; EmptyString] with ([EmptyString] ++ [EmptyString])%list. rewrite app_assoc. apply removelast_last. }
    rewrite R, empties_app, (empties_none 1 A).
    2:{ cbn in NA. apply andb_true_iff in NA. tauto. }
    cbn [empties String.eqb app].
    assert (F : nth_empty 0 (x :: A ++ [EmptyString; EmptyString]) = false).
    { change (x :: A ++ [EmptyString; EmptyString])%list with ((x :: A) ++ [EmptyString; EmptyString])%list.
      rewrite nth_empty_app1 by (cbn; lia). apply nth_nonempty. assumption. }
    rewrite F. assert (La : nth_empty (length A + 3 - 1) (x :: A ++ [EmptyString; EmptyString]) = true).
    { change (x :: A ++ [EmptyString; EmptyString])%list with ((x :: A) ++ [EmptyString; EmptyString])%list.
      rewrite nth_empty_app2 by (cbn; lia). cbn [length]. replace (length A + 3 - 1 - S (length A))%nat with 1%nat by lia. reflexivity. }
    rewrite La. cbn [andb orb]. replace (length A + 3 - (1 + length A) - 2)%nat with 0%nat by lia. cbn [Nat.eqb negb orb].
    destruct (Nat.ltb_spec 7 (1 + length A + 0)); [cbn in *; lia|].
    replace (length A + 3 - 0)%nat with (length (x :: A ++ [EmptyString; EmptyString])) by lia.
    rewrite skipn_all.
    replace (firstn (1 + length A) (x :: A ++ [EmptyString; EmptyString])) with (x :: A).
    2:{ cbn. f_equal. rewrite firstn_app, Nat.sub_diag, firstn_all. cbn. rewrite app_nil_r. reflexivity. }
    rewrite Ha. cbn [mapO]. replace k with (8 - (1 + length A + 0))%nat by (cbn [length] in K; lia). reflexivity.
  - unfold parse_parts. rewrite app_nil_r.
    assert (L : length (x :: A ++ EmptyString :: y :: B) = (length A + length B + 3)%nat) by (cbn; rewrite app_length; cbn; lia).
    rewrite L. destruct (Nat.ltb_spec 9 (length A + length B + 3)); [cbn in *; lia|]. cbn [tl].
    assert (R : removelast (A ++ EmptyString :: y :: B) = (A ++ EmptyString :: removelast (y :: B))%list).
    { rewrite removelast_app by discriminate. reflexivity. }
    rewrite R, empties_app, (empties_none 1 A).
    2:{ cbn in NA. apply andb_true_iff in NA. tauto. }
    change (empties (1 + length A) (EmptyString :: removelast (y :: B)))
      with ((1 + length A)%nat :: empties (S (1 + length A)) (removelast (y :: B))).
    rewrite (empties_none (S (1 + length A))) by (eapply forallb_incl; [exact NB|apply removelast_In]).
    cbn [app].
    assert (F : nth_empty 0 (x :: A ++ EmptyString :: y :: B) = false).
    { change (x :: A ++ EmptyString :: y :: B)%list with ((x :: A) ++ EmptyString :: y :: B)%list.
      rewrite nth_empty_app1 by (cbn; lia). apply nth_nonempty. assumption. }
    rewrite F. assert (La : nth_empty (length A + length B + 3 - 1) (x :: A ++ EmptyString :: y :: B) = false).
    { change (x :: A ++ EmptyString :: y :: B)%list with ((x :: A) ++ [EmptyString] ++ y :: B)%list. rewrite app_assoc.
      rewrite nth_empty_app2 by (rewrite app_length; cbn; lia). apply nth_nonempty. assumption. }
    rewrite La. cbn [andb orb]. replace (length A + length B + 3 - (1 + length A) - 1)%nat with (S (length B)) by lia.
    destruct (Nat.ltb_spec 7 (1 + length A + S (length B))); [cbn in *; lia|].
    replace (firstn (1 + length A) (x :: A ++ EmptyString :: y :: B)) with (x :: A).
    2:{ cbn. f_equal. rewrite firstn_app, Nat.sub_diag, firstn_all. cbn. rewrite app_nil_r. reflexivity. }
    replace (length A + length B + 3 - S (length B))%nat with (length ((x :: A) ++ [EmptyString])%list) by (rewrite app_length; cbn; lia).
    change (x :: A ++ EmptyString :: y :: B)%list with ((x :: A) ++ [EmptyString] ++ y :: B)%list. rewrite app_assoc.
    rewrite skipn_app, skipn_all, Nat.sub_diag. cbn [skipn app]. rewrite Ha, Hb. replace k with (8 - (1 + length A + S (length B)))%nat by (cbn [length] in K; lia). reflexivity.
Qed.
Lemma parse_parts_full hs : length hs = 8%nat -> (forall h, In h hs -> (h < 65536)%N) ->
  parse_parts (map print_hex hs) = Some (of_hextets hs).
Proof.
  intros L H. unfold parse_parts. rewrite map_length, L. cbn [Nat.ltb Nat.leb].
  rewrite empties_none.
  2:{ eapply forallb_incl; [apply (hex_nonempty hs)|]. intros x Hx. apply removelast_In in Hx. destruct hs; [destruct Hx|]. right. assumption. }
  cbn [Nat.eqb andb]. rewrite !nth_nonempty by apply hex_nonempty. cbn. rewrite mapO_hex by assumption. reflexivity.
Qed.
Lemma zeros_hex hs : (forall h, In h hs -> (h < 65536)%N) -> map print_hex hs = repeat "0" (length hs) -> hs = repeat 0%N (length hs).
Proof.
  induction hs as [|h hs IH]; intros H E; [reflexivity|]. cbn in E |- *. injection E as E1 E2.
  rewrite (print_hex_zero h) by (try assumption; apply H; left; reflexivity). f_equal. apply IH; [|assumption].
  intros x Hx. apply H. right. assumption.
Qed.
Lemma skipn_skipn' {A} : forall n m (l : list A), skipn n (skipn m l) = skipn (m + n) l.
Proof.
  intros n m. induction m as [|m IH]; intros l; [reflexivity|]. destruct l; cbn; [apply skipn_nil|apply IH].
Qed.
Lemma parse_compress hs : length hs = 8%nat -> (forall h, In h hs -> (h < 65536)%N) ->
  parse_parts (compress (map print_hex hs)) = Some (of_hextets hs).
Proof.
  intros L H. unfold compress. destruct (best_run (map print_hex hs) 0 0 0 0 0) as [bs bl] eqn:E.
  destruct (Nat.ltb_spec 1 bl) as [Lt|_]; [|apply parse_parts_full; assumption].
  assert (Z : zero_run (map print_hex hs) bs bl).
  { apply (best_run_spec (map print_hex hs) [] 0 0 0 0); try assumption; try (left; reflexivity).
    split; [cbn; lia|reflexivity]. }
  destruct Z as [Z1 Z2]. rewrite map_length in Z1.
  assert (S : hs = (firstn bs hs ++ repeat 0%N bl ++ skipn (bs + bl) hs)%list).
  { rewrite <- (firstn_skipn bs hs) at 1. f_equal. rewrite <- (firstn_skipn bl (skipn bs hs)) at 1. f_equal.
    - assert (Lz : length (firstn bl (skipn bs hs)) = bl) by (rewrite firstn_length, skipn_length; lia).
      rewrite <- Lz at 2. apply zeros_hex.
      + intros h Hh. apply H. rewrite <- (firstn_skipn bs hs). apply in_or_app. right.
        rewrite <- (firstn_skipn bl (skipn bs hs)). apply in_or_app. left. assumption.
      + rewrite Lz, <- firstn_map, <- skipn_map. assumption.
    - apply skipn_skipn'. }
  pose proof (parse_parts_gap (map print_hex (firstn bs hs)) (map print_hex (skipn (bs + bl) hs)) (firstn bs hs) (skipn (bs + bl) hs) bl) as G.
  assert (H1 : forall h, In h (firstn bs hs) -> (h < 65536)%N).
  { intros h Hh. apply H. rewrite <- (firstn_skipn bs hs). apply in_or_app. auto. }
  assert (H2 : forall h, In h (skipn (bs + bl) hs) -> (h < 65536)%N).
  { intros h Hh. apply H. rewrite <- (firstn_skipn (bs + bl) hs). apply in_or_app. auto. }
  rewrite !mapO_hex in G by assumption. rewrite !hex_nonempty in G.
  rewrite <- S in G. rewrite !map_length, firstn_length, skipn_length in G. rewrite <- G; try reflexivity; try lia.
  rewrite firstn_map, skipn_map, map_length. f_equal. f_equal.
  - replace (Nat.min bs (length hs)) with bs by lia. reflexivity.
  - f_equal. f_equal. f_equal. replace (length hs - (bs + bl) =? 0)%nat with (bs + bl =? length hs)%nat; [reflexivity|].
    destruct (Nat.eqb_spec (bs + bl) (length hs)), (Nat.eqb_spec (length hs - (bs + bl)) 0); lia.
Qed.
Lemma hextets_ok n : length (hextets n) = 8%nat /\ forall h, In h (hextets n) -> (h < 65536)%N.
Proof.
  split; [reflexivity|]. intros h Hh. apply in_map_iff in Hh as (k & <- & _). apply hextet_lt.
Qed.
Lemma compress_In s hs : In s (compress hs) -> s = EmptyString \/ In s hs.
Proof.
  unfold compress. destruct (best_run hs 0 0 0 0 0) as [bs bl]. destruct (1 <? bl)%nat; [|auto].
  intros H. rewrite !in_app_iff in H. destruct H as [H|[H|[H|[H|H]]]].
  - destruct (bs =? 0)%nat; [|destruct H]. destruct H as [<-|[]]. auto.
  - right. rewrite <- (firstn_skipn bs hs). apply in_or_app. auto.
  - destruct H as [<-|[]]. auto.
  - right. rewrite <- (firstn_skipn (bs + bl) hs). apply in_or_app. auto.
  - destruct (bs + bl =? length hs)%nat; [|destruct H]. destruct H as [<-|[]]. auto.
Qed.
Lemma compress_length hs : length hs = 8%nat -> (3 <= length (compress hs))%nat.
Proof.
  intros L. unfold compress. destruct (best_run hs 0 0 0 0 0) as [bs bl] eqn:E.
  destruct (Nat.ltb_spec 1 bl) as [Lt|_]; [|lia].
  assert (Z : zero_run hs bs bl).
  { apply (best_run_spec hs [] 0 0 0 0); try assumption; try (left; reflexivity). split; [cbn; lia|reflexivity]. }
  destruct Z as [Z _]. rewrite !app_length, firstn_length, skipn_length. cbn [length].
  destruct (Nat.eqb_spec bs 0), (Nat.eqb_spec (bs + bl) (length hs)); cbn [length]; lia.
Qed.
Definition v6_char (c : ascii) : bool := hexlow c || Ascii.eqb c ":"%char.
Lemma sforall_impl (p q : ascii -> bool) s : (forall c, p c = true -> q c = true) -> sforall p s = true -> sforall q s = true.
Proof.
  intros H. induction s as [|c s IH]; [reflexivity|]. cbn. intros E. apply andb_true_iff in E as [E1 E2].
  rewrite H, IH by assumption. reflexivity.
Qed.
Lemma join_chars (p : ascii -> bool) sep l : sforall p sep = true -> (forall s, In s l -> sforall p s = true) -> sforall p (join sep l) = true.
Proof.
  intros Hs. induction l as [|x l IH]; intros H; [reflexivity|]. destruct l as [|y l].
  - apply H. left. reflexivity.
  - cbn [join]. rewrite !sforall_app, Hs, H by (left; reflexivity). cbn. apply IH. intros s Hin. apply H. right. assumption.
Qed.
Lemma parts_hex n s : In s (compress (map print_hex (hextets n))) -> sforall hexlow s = true.
Proof.
  intros H. apply compress_In in H as [->|H]; [reflexivity|].
  apply in_map_iff in H as (k & <- & _). apply print_hex_chars.
Qed.
Lemma print_ipv6_chars n : sforall v6_char (print_ipv6 n) = true.
Proof.
  apply join_chars; [reflexivity|]. intros s H. apply parts_hex in H. eapply sforall_impl; [|exact H].
  intros c Hc. unfold v6_char. rewrite Hc. reflexivity.
Qed.
Lemma print_ipv6_parts n : split_char ":" (print_ipv6 n) = compress (map print_hex (hextets n)).
Proof.
  unfold print_ipv6. apply (split_char_of_join ":"%char).
  - pose proof (compress_length (map print_hex (hextets n)) eq_refl). destruct (compress (map print_hex (hextets n))); [cbn in *; lia|discriminate].
  - intros c H. apply (chars_no_sep hexlow); [reflexivity|]. eapply parts_hex; eassumption.
Qed.
Lemma last_In {A} (l : list A) d : l <> [] -> In (last l d) l.
Proof. induction l as [|x l IH]; [congruence|]. intros _. destruct l; [left; reflexivity|]. right. apply IH. discriminate. Qed.
Lemma parse_print_ipv6 n : (n < 2 ^ 128)%N -> parse_ipv6 (print_ipv6 n) = Some n.
Proof.
  intros H. unfold parse_ipv6. rewrite print_ipv6_parts.
  pose proof (compress_length (map print_hex (hextets n)) eq_refl) as L.
  destruct (Nat.ltb_spec (length (compress (map print_hex (hextets n)))) 3); [lia|].
  assert (X : contains "." (last (compress (map print_hex (hextets n))) EmptyString) = false).
  { rewrite contains1. apply (chars_no_sep hexlow); [reflexivity|]. apply (parts_hex n). apply last_In.
    destruct (compress (map print_hex (hextets n))); [cbn in *; lia|discriminate]. }
  rewrite X. destruct (hextets_ok n) as [H1 H2]. rewrite parse_compress by assumption. rewrite hextets_eq by assumption. reflexivity.
Qed.

(** An IPv6 text is not an IPv4 text. *)
Lemma v6_not_v4 n : parse_ipv4 (print_ipv6 n) = None.
Proof.
  unfold parse_ipv4. rewrite split_char_none; [reflexivity|].
  apply (chars_no_sep v6_char); [reflexivity|apply print_ipv6_chars].
Qed.

(** ** Interfaces *)
Definition valid_if (i : ipif) : Prop := (ip_addr i < 2 ^ width (ip_six i))%N /\ (ip_len i <= width (ip_six i))%N.
Lemma split_slash a b : sexists (Ascii.eqb "/"%char) a = false -> sexists (Ascii.eqb "/"%char) b = false ->
  split_char "/" (a +++ "/" +++ b) = [a; b].
Proof.
  intros Ha Hb. change ("/" +++ b) with (String "/" b). rewrite split_char_app by assumption. rewrite split_char_none by assumption. reflexivity.
Qed.
Lemma v4_no_slash n : sexists (Ascii.eqb "/"%char) (print_ipv4 n) = false.
Proof. apply (chars_no_sep v4_char); [reflexivity|apply print_ipv4_chars]. Qed.
Lemma v6_no_slash n : sexists (Ascii.eqb "/"%char) (print_ipv6 n) = false.
Proof. apply (chars_no_sep v6_char); [reflexivity|apply print_ipv6_chars]. Qed.
Lemma num_no_slash n : sexists (Ascii.eqb "/"%char) (string_of_N n) = false.
Proof. apply no_sep_digits; [reflexivity|apply string_of_N_digits]. Qed.

Lemma interface_str i : valid_if i -> ip_interface (if_str i) = Some i.
Proof.
  destruct i as [six n p]. intros [Hn Hp]. cbn in *. unfold ip_interface, if_str, if_ip, print_addr. cbn [ip_six ip_addr ip_len].
  destruct six; cbn in Hn, Hp.
  - rewrite split_slash by (apply v6_no_slash || apply num_no_slash). rewrite v6_not_v4, parse_print_ipv6 by assumption.
    rewrite prefix_of_digits_print by assumption. reflexivity.
  - rewrite split_slash by (apply v4_no_slash || apply num_no_slash). rewrite parse_print_ipv4 by assumption.
    unfold parse_prefix4. rewrite prefix_of_digits_print by assumption. reflexivity.
Qed.
Lemma interface_netmask n p : (n < 2 ^ 32)%N -> (p <= 32)%N ->
  ip_interface (print_ipv4 n +++ "/" +++ print_ipv4 (mask_of 32 p)) = Some {| ip_six := false; ip_addr := n; ip_len := p |}.
Proof.
  intros Hn Hp. unfold ip_interface. rewrite split_slash by apply v4_no_slash. rewrite parse_print_ipv4 by assumption.
  rewrite prefix_of_netmask by assumption. reflexivity.
Qed.
