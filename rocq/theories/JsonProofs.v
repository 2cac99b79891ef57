(** * JsonProofs: json.loads reads what tojson wrote (proofs only) *)
From Verif Require Import PyBase PyLemmas StrLemmas SortLemmas NumLemmas Uci SpecUci SpecConv Json SpecZt.

(** ** The escapes of HTML *)
Fixpoint fm (f : ascii -> string) (s : string) : string :=
  match s with EmptyString => EmptyString | String c t => f c +++ fm f t end.
Lemma fm_app f a b : fm f (a +++ b) = fm f a +++ fm f b.
Proof. induction a as [|c a IH]; [reflexivity|]. cbn [String.append fm]. now rewrite IH, app_assoc_s. Qed.
Lemma replace_fm x new s : replace (String x EmptyString) new s = fm (fun c => if Ascii.eqb c x then new else String c EmptyString) s.
Proof.
  induction s as [|c s IH]; [reflexivity|]. unfold replace in *. cbn [replace_from startswith String.length Nat.sub fm].
  rewrite andb_true_r, Ascii.eqb_sym. destruct (Ascii.eqb c x); rewrite IH; reflexivity.
Qed.
Definition hc (c : ascii) : string :=
  if Ascii.eqb c "<" then "\u003c" else if Ascii.eqb c ">" then "\u003e" else if Ascii.eqb c "&" then "\u0026"
  else if Ascii.eqb c "'" then "\u0027" else String c EmptyString.
Definition hs := fm hc.
Lemma html_safe_hs s : html_safe s = hs s.
Proof.
  unfold html_safe. rewrite !replace_fm. induction s as [|c s IH]; [reflexivity|]. cbn [fm]. rewrite !fm_app, IH. unfold hs. cbn [fm]. f_equal.
  destruct c as [[] [] [] [] [] [] [] []]; reflexivity.
Qed.
Lemma hs_app a b : hs (a +++ b) = hs a +++ hs b. Proof. apply fm_app. Qed.
Lemma hs_spaces n : hs (spaces n) = spaces n.
Proof. induction n as [|n IH]; [reflexivity|]. change (spaces (S n)) with (String " " (spaces n)). cbn [hs fm]. fold hs. now rewrite IH. Qed.
Lemma hs_join sep l : hs sep = sep -> hs (join sep l) = join sep (map hs l).
Proof.
  intros E. induction l as [|x l IH]; [reflexivity|]. destruct l as [|y l]; [reflexivity|].
  change (join sep (x :: y :: l)) with (x +++ sep +++ join sep (y :: l)). rewrite !hs_app, IH, E. reflexivity.
Qed.
Lemma hs_items o c level l : hs o = o -> hs c = c -> hs (json_items o c level l) = json_items o c level (map hs l).
Proof.
  intros Eo Ec. destruct l as [|x l]; [cbn [json_items map]; now rewrite hs_app, Eo, Ec|]. unfold json_items.
  assert (Es : hs ("," +++ NL +++ spaces (4 * S level)) = "," +++ NL +++ spaces (4 * S level)) by (rewrite !hs_app, hs_spaces; reflexivity).
  rewrite !hs_app, !hs_spaces, Eo, Ec, (hs_join _ _ Es). reflexivity.
Qed.
(** ** The text of a value *)
Definition jt (level : nat) (v : val) : string := hs (dumps level v).
Definition qt (s : string) : string := hs (json_text s).
Lemma sins_map {A B} (f : A -> B) (k : string) (a : A) (d : list (string * A)) :
  sins (k, f a) (map (fun kv => (fst kv, f (snd kv))) d) = map (fun kv => (fst kv, f (snd kv))) (sins (k, a) d).
Proof.
  induction d as [|[k' b] d IH]; [reflexivity|]. cbn [map sins fst snd]. destruct (str_leb k k'); [reflexivity|]. rewrite IH. reflexivity.
Qed.
Lemma ssort_map {A B} (f : A -> B) (d : list (string * A)) : ssort (map (fun kv => (fst kv, f (snd kv))) d) = map (fun kv => (fst kv, f (snd kv))) (ssort d).
Proof. induction d as [|[k a] d IH]; [reflexivity|]. cbn [map ssort fst snd]. rewrite IH. apply sins_map. Qed.
Definition member_text (level : nat) (kv : string * val) : string := qt (fst kv) +++ ": " +++ jt level (snd kv).
Lemma jt_list level l : jt level (VList l) = json_items "[" "]" level (map (jt (S level)) l).
Proof. unfold jt. cbn [dumps]. rewrite hs_items by reflexivity. now rewrite map_map. Qed.
Lemma jt_dict level d : jt level (VDict d) = json_items "{" "}" level (map (member_text (S level)) (ssort d)).
Proof.
  unfold jt. cbn [dumps]. rewrite hs_items by reflexivity. rewrite (ssort_map (dumps (S level))), !map_map. f_equal. apply map_ext. intros [k v].
  cbn [fst snd]. unfold member_text, qt, jt. rewrite !hs_app. reflexivity.
Qed.
(** ** Texts *)
Lemma qt_eq s : qt s = String DQc (fm (fun c => hs (json_char c)) s +++ DQ).
Proof.
  unfold qt, json_text. rewrite !hs_app. change (hs DQ) with DQ. cbn [String.append DQ]. do 2 f_equal.
  induction s as [|c s IH]; [reflexivity|]. cbn [json_chars fm]. now rewrite hs_app, IH.
Qed.
Lemma scan_char c t : scan_text (hs (json_char c) +++ t) = match scan_text t with Some (r, u) => Some (String c r, u) | None => None end.
Proof. destruct c as [[] [] [] [] [] [] [] []]; reflexivity. Qed.
Lemma scan_qt s rest : head_is DQc (qt s +++ rest) = true /\ scan_text (sdrop 1 (qt s +++ rest)) = Some (s, rest).
Proof.
  rewrite qt_eq. split; [reflexivity|]. cbn [String.append sdrop]. rewrite app_assoc_s.
  induction s as [|c s IH]; [reflexivity|]. cbn [fm]. rewrite app_assoc_s, scan_char, IH. reflexivity.
Qed.
(** ** Numbers *)
Definition stops (s : string) : Prop :=
  match s with EmptyString => True | String c _ => is_digit c = false /\ c <> "."%char /\ c <> "e"%char /\ c <> "E"%char end.
Lemma span_digits d r : sforall is_digit d = true -> match r with String c _ => is_digit c = false | _ => True end -> span is_digit (d +++ r) = (d, r).
Proof.
  induction d as [|c d IH]; intros H Hr.
  - cbn [String.append]. destruct r as [|c r]; [reflexivity|]. cbn [span]. now rewrite Hr.
  - cbn [sforall] in H. apply andb_true_iff in H as (H1 & H2). cbn [String.append span]. rewrite H1, IH by assumption. reflexivity.
Qed.
Lemma head_is_false c d s : d <> c -> head_is c (String d s) = false.
Proof. intros H. cbn [head_is]. now apply Ascii.eqb_neq. Qed.
Lemma int_part_ok i r : whole_part i -> match r with String c _ => is_digit c = false | _ => True end -> int_part (i +++ r) = Some (i, r).
Proof.
  intros [-> | ((H1 & H2) & H3)] Hr; [reflexivity|]. unfold int_part. destruct i as [|c i]; [congruence|]. cbn [startswith] in H3. rewrite andb_true_r in H3.
  cbn [String.append head_is]. rewrite Ascii.eqb_sym, H3. change (String c (i +++ r)) with (String c i +++ r). rewrite span_digits by assumption. reflexivity.
Qed.
Lemma marked_ok mark s d r : digits d -> match r with String c _ => is_digit c = false | _ => True end -> marked_digits mark s (d +++ r) = (mark +++ d, r).
Proof. intros (H1 & H2) Hr. unfold marked_digits. rewrite span_digits by assumption. destruct d; [congruence | reflexivity]. Qed.
Lemma stops_facts r : stops r -> match r with String c _ => is_digit c = false | _ => True end /\ frac_part r = (EmptyString, r) /\ exp_part r = (EmptyString, r).
Proof.
  destruct r as [|c r]; [repeat split|]. intros (H1 & H2 & H3 & H4). split; [exact H1|]. unfold frac_part, exp_part. rewrite !head_is_false by assumption. split; reflexivity.
Qed.
Lemma exp_part_ok e r : exponent e -> stops r -> exp_part (e +++ r) = (e, r).
Proof.
  intros He Hs. destruct (stops_facts r Hs) as (Hd & _ & Hx). destruct He as [-> | (sign & d & -> & Hsg & Hdd)]; [exact Hx|]. destruct Hdd as (D1 & D2).
  destruct Hsg as [<- | [<- | [<- | []]]].
  - cbn [String.append]. unfold exp_part. cbn [head_is]. change (Ascii.eqb "e" "e") with true. cbn [orb stake sdrop].
    destruct d as [|c d]; [congruence|]. cbn [sforall] in D2. apply andb_true_iff in D2 as (C & D2).
    cbn [String.append]. rewrite !head_is_false by (intros ->; discriminate C). cbn [orb]. change (String c (d +++ r)) with (String c d +++ r).
    rewrite marked_ok; [reflexivity | split; [discriminate | cbn [sforall]; now rewrite C] | exact Hd].
  - cbn [String.append]. unfold exp_part. cbn [head_is]. change (Ascii.eqb "e" "e") with true. cbn [orb stake sdrop head_is String.append]. change (Ascii.eqb "+" "+") with true. cbn [orb].
    rewrite marked_ok; [reflexivity | now split | exact Hd].
  - cbn [String.append]. unfold exp_part. cbn [head_is]. change (Ascii.eqb "e" "e") with true. cbn [orb stake sdrop head_is String.append]. change (Ascii.eqb "-" "+") with false. change (Ascii.eqb "-" "-") with true. cbn [orb].
    rewrite marked_ok; [reflexivity | now split | exact Hd].
Qed.
Lemma exp_head e r : exponent e -> stops r -> match e +++ r with String c _ => is_digit c = false | _ => True end /\ frac_part (e +++ r) = (EmptyString, e +++ r).
Proof.
  intros [-> | (sign & d & -> & _ & _)] Hs; [destruct (stops_facts r Hs) as (A & B & _); now split|]. split; reflexivity.
Qed.
Lemma frac_part_ok f e r : fraction f -> exponent e -> stops r -> frac_part (f +++ e +++ r) = (f, e +++ r).
Proof.
  intros [-> | (d & -> & Hd)] He Hs; destruct (exp_head e r He Hs) as (A & B); [exact B|].
  cbn [String.append]. unfold frac_part. cbn [head_is]. change (Ascii.eqb "." ".") with true. cbn [sdrop]. now rewrite marked_ok.
Qed.
Lemma frac_head f e r : fraction f -> exponent e -> stops r -> match f +++ e +++ r with String c _ => is_digit c = false | _ => True end.
Proof. intros [-> | (d & -> & Hd)] He Hs; [now destruct (exp_head e r He Hs) | reflexivity]. Qed.
Lemma whole_head i : whole_part i -> exists c t, i = String c t /\ is_digit c = true.
Proof.
  intros [-> | ((H1 & H2) & _)]; [eexists _, _; split; reflexivity|]. destruct i as [|c i]; [congruence|]. cbn [sforall] in H2. apply andb_true_iff in H2 as (H2 & _). eauto.
Qed.
Lemma scan_number_ok sign i f e r : In sign [EmptyString; "-"] -> whole_part i -> fraction f -> exponent e -> stops r ->
  scan_number ((sign +++ i +++ f +++ e) +++ r) =
  (if String.eqb (f +++ e) EmptyString then match int_of_string (sign +++ i) with Some z => Some (VInt z, r) | None => None end
   else Some (VFloat (sign +++ i +++ f +++ e), r)).
Proof.
  intros Hsg Hi Hf He Hs. unfold scan_number.
  assert (E : (if head_is "-" ((sign +++ i +++ f +++ e) +++ r) then sdrop 1 ((sign +++ i +++ f +++ e) +++ r) else (sign +++ i +++ f +++ e) +++ r) = i +++ f +++ e +++ r
              /\ (if head_is "-" ((sign +++ i +++ f +++ e) +++ r) then "-" else EmptyString) = sign).
  { destruct (whole_head i Hi) as (c & t & -> & Hc). destruct Hsg as [<- | [<- | []]].
    - cbn [String.append]. rewrite head_is_false by (intros ->; discriminate Hc). rewrite !app_assoc_s. split; reflexivity.
    - cbn [String.append head_is sdrop]. change (Ascii.eqb "-" "-") with true. rewrite !app_assoc_s. split; reflexivity. }
  destruct E as (-> & ->). rewrite int_part_ok by (assumption || now apply frac_head). rewrite frac_part_ok, exp_part_ok by assumption. reflexivity.
Qed.
Lemma dec_head : forall f n acc, (n < 2 ^ N.of_nat f)%N -> f <> O -> n <> 0%N -> startswith "0" (dec_of_pos_fuel f n acc) = false.
Proof.
  induction f as [|f IH]; intros n acc Hn Hf H0; [congruence|]. cbn [dec_of_pos_fuel]. destruct (N.ltb_spec n 10) as [L|L].
  - rewrite N.mod_small by exact L. cbn [startswith]. rewrite andb_true_r. apply Ascii.eqb_neq. intros E.
    apply (f_equal N_of_ascii) in E. unfold digit_char in E. rewrite N_ascii_embedding in E by lia. change (N_of_ascii "0") with 48%N in E. lia.
  - apply div10_size in Hn. destruct f as [|f].
    { change (2 ^ N.of_nat 0)%N with 1%N in Hn. apply N.lt_1_r in Hn. apply (proj1 (N.div_small_iff n 10 ltac:(discriminate))) in Hn. lia. }
    apply IH; [exact Hn | congruence|]. intros E. apply (proj1 (N.div_small_iff n 10 ltac:(discriminate))) in E. lia.
Qed.
Lemma string_of_N_whole n : whole_part (string_of_N n).
Proof.
  destruct (N.eq_dec n 0) as [-> | H]; [left; reflexivity|]. right. split; [split; [apply string_of_N_nonempty | apply string_of_N_digits]|].
  unfold string_of_N. apply dec_head; [|congruence|exact H]. rewrite Nnat.Nat2N.inj_succ, Nnat.N2Nat.id, N.pow_succ_r'. pose proof (pow2_size n). lia.
Qed.
Lemma string_of_Z_parts z : exists sign i, string_of_Z z = sign +++ i /\ In sign [EmptyString; "-"] /\ whole_part i.
Proof.
  destruct z as [|p|p]; [exists "", "0"; repeat split; cbn; auto; now left | exists "", (string_of_N (N.pos p)) | exists "-", (string_of_N (N.pos p))];
    (split; [reflexivity|]; split; [cbn; auto | apply string_of_N_whole]).
Qed.
Lemma scan_int z r : stops r -> scan_number (string_of_Z z +++ r) = Some (VInt z, r).
Proof.
  intros Hs. destruct (string_of_Z_parts z) as (sign & i & E & H1 & H2). pose proof (int_of_string_Z z) as Hi.
  pose proof (scan_number_ok sign i "" "" r H1 H2 (or_introl eq_refl) (or_introl eq_refl) Hs) as N. rewrite !app_nil_s in N. change ("" +++ "" =? "") with true in N. rewrite <- E, Hi in N.
  cbv iota in N. exact N.
Qed.
Lemma scan_float x r : float_text x -> stops r -> scan_number (x +++ r) = Some (VFloat x, r).
Proof.
  intros (sign & i & f & e & -> & H1 & H2 & H3 & H4 & H5) Hs. rewrite scan_number_ok by assumption. now rewrite (eqb_neq _ _ H5).
Qed.
(** The first character of a number *)
Definition numeric (c : ascii) : Prop := c = "-"%char \/ is_digit c = true.
Lemma signed_head sign i t : In sign [EmptyString; "-"] -> whole_part i -> exists c u, (sign +++ i) +++ t = String c u /\ numeric c.
Proof.
  intros H Hi. destruct (whole_head i Hi) as (c & u & -> & Hc). destruct H as [<- | [<- | []]]; cbn [String.append]; eexists _, _; (split; [reflexivity|]); [now right | now left].
Qed.
(** ** Values *)
Fixpoint canon (v : val) : val :=
  match v with
  | VList l => VList (map canon l)
  | VDict d => VDict (ssort (map (fun kv => (fst kv, canon (snd kv))) d))
  | v => v
  end.
Lemma canon_dict d : canon (VDict d) = VDict (map (fun kv => (fst kv, canon (snd kv))) (ssort d)).
Proof. cbn [canon]. now rewrite ssort_map. Qed.
Definition starter (c : ascii) : Prop := json_space c = false /\ c <> "]"%char /\ c <> "}"%char.
Lemma numeric_facts c : numeric c -> starter c /\ c <> DQc /\ c <> "{"%char /\ c <> "["%char /\ c <> "n"%char /\ c <> "t"%char /\ c <> "f"%char.
Proof. intros [-> | H]; [repeat split; discriminate|]. destruct c as [[] [] [] [] [] [] [] []]; try discriminate H; repeat split; discriminate. Qed.
Definition numch (c : ascii) : bool := is_digit c || Ascii.eqb c "-" || Ascii.eqb c "+" || Ascii.eqb c "." || Ascii.eqb c "e".
Lemma hs_numch s : sforall numch s = true -> hs s = s.
Proof.
  induction s as [|c s IH]; [reflexivity|]. cbn [sforall]. intros H. apply andb_true_iff in H as (C & H). change (hc c +++ hs s = String c s). rewrite (IH H).
  destruct c as [[] [] [] [] [] [] [] []]; try discriminate C; reflexivity.
Qed.
Lemma digits_numch s : sforall is_digit s = true -> sforall numch s = true.
Proof. induction s as [|c s IH]; [reflexivity|]. cbn [sforall]. intros H. apply andb_true_iff in H as (C & H). rewrite (IH H). unfold numch. now rewrite C. Qed.
Lemma sforall_app_s p a b : sforall p (a +++ b) = sforall p a && sforall p b.
Proof. induction a as [|c a IH]; [reflexivity|]. cbn [String.append sforall]. now rewrite IH, andb_assoc. Qed.
Lemma whole_numch i : whole_part i -> sforall numch i = true.
Proof. intros [-> | ((_ & H) & _)]; [reflexivity | now apply digits_numch]. Qed.
Lemma sign_numch s : In s [EmptyString; "-"] -> sforall numch s = true.
Proof. intros [<- | [<- | []]]; reflexivity. Qed.
Lemma float_numch x : float_text x -> sforall numch x = true.
Proof.
  intros (sign & i & f & e & -> & H1 & H2 & H3 & H4 & _). rewrite !sforall_app_s, (sign_numch _ H1), (whole_numch _ H2).
  assert (Hsg : forall s, In s [EmptyString; "+"; "-"] -> sforall numch s = true) by (intros s [<- | [<- | [<- | []]]]; reflexivity).
  cbn [andb]. apply andb_true_iff. split.
  - destruct H3 as [-> | (d & -> & _ & D)]; [reflexivity|]. now rewrite sforall_app_s, (digits_numch _ D).
  - destruct H4 as [-> | (sg & d' & -> & S & _ & D')]; [reflexivity|]. now rewrite !sforall_app_s, (Hsg _ S), (digits_numch _ D').
Qed.
Lemma int_numch z : sforall numch (string_of_Z z) = true.
Proof. destruct (string_of_Z_parts z) as (sign & i & -> & H1 & H2). now rewrite sforall_app_s, (sign_numch _ H1), (whole_numch _ H2). Qed.
Lemma jt_int l z : jt l (VInt z) = string_of_Z z.
Proof. apply hs_numch, int_numch. Qed.
Lemma jt_float l x : float_text x -> jt l (VFloat x) = x.
Proof. intros H. apply hs_numch, (float_numch _ H). Qed.
Lemma int_head z t : exists c u, string_of_Z z +++ t = String c u /\ numeric c.
Proof. destruct (string_of_Z_parts z) as (sign & i & -> & H1 & H2). now apply signed_head. Qed.
Lemma float_head x t : float_text x -> exists c u, x +++ t = String c u /\ numeric c.
Proof.
  intros (sign & i & f & e & -> & H1 & H2 & _). rewrite <- app_assoc_s, app_assoc_s. now apply signed_head.
Qed.
Lemma scan_value_number f s : (exists c u, s = String c u /\ numeric c) -> scan_value (S f) s = scan_number s.
Proof.
  intros (c & u & -> & H). apply numeric_facts in H as (_ & H1 & H2 & H3 & H4 & H5 & H6). cbn [scan_value]. rewrite !head_is_false by assumption.
  cbn [startswith]. repeat match goal with |- context [Ascii.eqb ?a c] => rewrite (proj2 (Ascii.eqb_neq a c)) by (intros E; now subst) end. reflexivity.
Qed.
Lemma items_head o c level l t : exists u, json_items (String o EmptyString) c level l +++ t = String o u.
Proof. destruct l; eexists; reflexivity. Qed.
Lemma jt_head P level v t : document P v -> exists c u, jt level v +++ t = String c u /\ starter c.
Proof.
  intros H. destruct H as [|[]|z|r H|s _|l _|d _ _].
  - eexists _, _; split; [reflexivity | repeat split; discriminate].
  - eexists _, _; split; [reflexivity | repeat split; discriminate].
  - eexists _, _; split; [reflexivity | repeat split; discriminate].
  - rewrite jt_int. destruct (int_head z t) as (c & u & E & H). exists c, u. split; [exact E | now apply numeric_facts].
  - rewrite (jt_float _ _ H). destruct (float_head r t H) as (c & u & E & N). exists c, u. split; [exact E | now apply numeric_facts].
  - change (jt level (VStr s)) with (qt s). rewrite qt_eq. eexists _, _; split; [reflexivity | repeat split; discriminate].
  - rewrite jt_list. destruct (items_head "[" "]" level (map (jt (S level)) l) t) as (u & ->). eexists _, _; split; [reflexivity | repeat split; discriminate].
  - rewrite jt_dict. destruct (items_head "{" "}" level (map (member_text (S level)) (ssort d)) t) as (u & ->). eexists _, _; split; [reflexivity | repeat split; discriminate].
Qed.
Lemma spaces_space n : sforall json_space (spaces n) = true.
Proof. induction n as [|n IH]; [reflexivity|]. change (spaces (S n)) with (String " " (spaces n)). cbn [sforall]. now rewrite IH. Qed.
Lemma skip_indent n s : skip_json_space (NL +++ spaces n +++ s) = skip_json_space s.
Proof. unfold skip_json_space. change (NL +++ spaces n +++ s) with (String NLc (spaces n +++ s)). cbn [lstrip_p]. change (json_space NLc) with true. cbv iota. apply lstrip_p_all, spaces_space. Qed.
Lemma skip_start c u : json_space c = false -> skip_json_space (String c u) = String c u.
Proof. intros H. unfold skip_json_space. now rewrite lstrip_p_id. Qed.
Lemma skip_doc P level v t : document P v -> skip_json_space (jt level v +++ t) = jt level v +++ t.
Proof. intros H. destruct (jt_head P level v t H) as (c & u & -> & S & _). now apply skip_start. Qed.
Lemma doc_head P level v t x : document P v -> In x ["]"%char; "}"%char] -> head_is x (jt level v +++ t) = false.
Proof. intros H Hx. destruct (jt_head P level v t H) as (c & u & -> & _ & S1 & S2). apply head_is_false. destruct Hx as [<- | [<- | []]]; assumption. Qed.

Definition reads (level : nat) (v : val) : Prop :=
  forall rest fuel, stops rest -> String.length (jt level v) < fuel -> scan_value fuel (jt level v +++ rest) = Some (canon v, rest).
Lemma scan_elements_ok P level k : forall l, l <> [] -> (forall v, In v l -> document P v /\ reads level v) ->
  forall rest acc fuel, S (String.length (join ("," +++ NL +++ spaces k) (map (jt level) l))) < fuel ->
  forall n, scan_elements fuel acc (join ("," +++ NL +++ spaces k) (map (jt level) l) +++ NL +++ spaces n +++ "]" +++ rest)
  = Some (VList (acc ++ map canon l)%list, rest).
Proof.
  induction l as [|v l IH]; intros Hne H rest acc fuel Hf n; [congruence|]. destruct fuel as [|fuel]; [lia|]. destruct (H v (or_introl eq_refl)) as (Hd & Hr).
  destruct l as [|w l].
  - cbn [map join] in Hf |- *. cbn [scan_elements]. rewrite Hr by (try lia; cbn; repeat split; discriminate). cbv beta iota.
    rewrite skip_indent. reflexivity.
  - change (join ("," +++ NL +++ spaces k) (map (jt level) (v :: w :: l)))
      with (jt level v +++ ("," +++ NL +++ spaces k) +++ join ("," +++ NL +++ spaces k) (map (jt level) (w :: l))) in Hf |- *.
    rewrite !length_app_s in Hf. cbn [String.length] in Hf.
    rewrite !app_assoc_s. cbn [scan_elements]. rewrite Hr by (try lia; cbn; repeat split; discriminate). cbv beta iota zeta.
    change (skip_json_space ("," +++ ?x)) with ("," +++ x). change (head_is "," ("," +++ ?x)) with true. cbv iota. change (sdrop 1 ("," +++ ?x)) with x.
    rewrite (skip_indent k).
    assert (Es : skip_json_space (join ("," +++ NL +++ spaces k) (map (jt level) (w :: l)) +++ NL +++ spaces n +++ "]" +++ rest)
                 = join ("," +++ NL +++ spaces k) (map (jt level) (w :: l)) +++ NL +++ spaces n +++ "]" +++ rest).
    { cbn [map join]. destruct (map (jt level) l) as [|y m]; rewrite ?app_assoc_s; apply (skip_doc P), (H w); right; now left. }
    rewrite Es, IH; [| discriminate | intros x Hx; apply H; now right | lia].
    rewrite <- app_assoc. reflexivity.
Qed.
Lemma skip_qt s t : skip_json_space (qt s +++ t) = qt s +++ t.
Proof. rewrite qt_eq. reflexivity. Qed.
Lemma skip_colon t : skip_json_space (" " +++ t) = skip_json_space t. Proof. reflexivity. Qed.
Lemma dget_app_none {V} k (a b : list (string * V)) : dget k a = None -> dget k b = None -> dget k (a ++ b)%list = None.
Proof. induction a as [|[k' v] a IH]; [auto|]. cbn [dget app]. destruct (String.eqb k k'); [discriminate | auto]. Qed.
Lemma member_len level x v : (String.length (jt level v) <= String.length (member_text level (x, v)))%nat.
Proof. unfold member_text. rewrite !length_app_s. cbn [snd]. lia. Qed.
Definition cm (kv : string * val) : string * val := (fst kv, canon (snd kv)).
Lemma scan_members_ok P level k : forall d, d <> [] -> NoDup (dkeys d) -> (forall x v, In (x, v) d -> document P v /\ reads level v) ->
  forall rest acc fuel, (forall x, In x (dkeys d) -> dget x acc = None) ->
  S (String.length (join ("," +++ NL +++ spaces k) (map (member_text level) d))) < fuel ->
  forall n, scan_members fuel acc (join ("," +++ NL +++ spaces k) (map (member_text level) d) +++ NL +++ spaces n +++ "}" +++ rest)
  = Some (VDict (acc ++ map cm d)%list, rest).
Proof.
  induction d as [|[x v] d IH]; intros Hne Hnd H rest acc fuel Hacc Hf n; [congruence|]. destruct fuel as [|fuel]; [lia|]. destruct (H x v (or_introl eq_refl)) as (Hd & Hr).
  assert (Hstep : forall t, stops t -> (String.length (jt level v) < fuel)%nat ->
    scan_members (S fuel) acc (member_text level (x, v) +++ t) =
    (let r := skip_json_space t in
     if head_is "," r then scan_members fuel (acc ++ [(x, canon v)])%list (skip_json_space (sdrop 1 r))
     else if head_is "}" r then Some (VDict (acc ++ [(x, canon v)])%list, sdrop 1 r) else None)).
  { intros t Ht Hl. unfold member_text. cbn [fst snd]. rewrite !app_assoc_s. cbn [scan_members].
    destruct (scan_qt x (": " +++ jt level v +++ t)) as (-> & ->). cbn [negb]. cbv beta iota zeta.
    change (skip_json_space (": " +++ ?y)) with (": " +++ y). change (head_is ":" (": " +++ ?y)) with true. cbn [negb]. cbv iota.
    change (sdrop 1 (": " +++ ?y)) with (" " +++ y). rewrite skip_colon, (skip_doc P) by exact Hd. rewrite Hr by assumption.
    rewrite dset_absent by (apply Hacc; now left). reflexivity. }
  destruct d as [|[y w] d].
  - cbn [map join] in Hf |- *. rewrite Hstep; [|cbn; repeat split; discriminate|pose proof (member_len level x v); lia].
    rewrite skip_indent. reflexivity.
  - change (join ("," +++ NL +++ spaces k) (map (member_text level) ((x, v) :: (y, w) :: d)))
      with (member_text level (x, v) +++ ("," +++ NL +++ spaces k) +++ join ("," +++ NL +++ spaces k) (map (member_text level) ((y, w) :: d))) in Hf |- *.
    rewrite !app_assoc_s. rewrite !length_app_s in Hf. cbn [String.length] in Hf.
    rewrite Hstep; [|cbn; repeat split; discriminate|pose proof (member_len level x v); lia].
    cbv beta iota zeta. change (skip_json_space ("," +++ ?x)) with ("," +++ x). change (head_is "," ("," +++ ?x)) with true. cbv iota. change (sdrop 1 ("," +++ ?x)) with x.
    rewrite (skip_indent k).
    assert (Es : skip_json_space (join ("," +++ NL +++ spaces k) (map (member_text level) ((y, w) :: d)) +++ NL +++ spaces n +++ "}" +++ rest)
                 = join ("," +++ NL +++ spaces k) (map (member_text level) ((y, w) :: d)) +++ NL +++ spaces n +++ "}" +++ rest).
    { cbn [map join]. destruct (map (member_text level) d) as [|z m]; unfold member_text; cbn [fst snd]; rewrite ?app_assoc_s; apply skip_qt. }
    cbn [dkeys map] in Hnd. inversion Hnd as [|? ? Hn1 Hn2]; subst.
    rewrite Es, IH; [| discriminate | exact Hn2 | intros a b Hx; apply (H a b); now right | | lia].
    + rewrite <- app_assoc. reflexivity.
    + intros a Ha. apply dget_app_none; [apply Hacc; now right|]. cbn [dget]. rewrite eqb_neq; [reflexivity|]. intros ->. now apply Hn1.
Qed.
Lemma head_jt_items P v l level k n c rest : document P v ->
  skip_json_space (NL +++ spaces k +++ join ("," +++ NL +++ spaces k) (map (jt level) (v :: l)) +++ NL +++ spaces n +++ c +++ rest)
  = join ("," +++ NL +++ spaces k) (map (jt level) (v :: l)) +++ NL +++ spaces n +++ c +++ rest /\
  head_is "]" (join ("," +++ NL +++ spaces k) (map (jt level) (v :: l)) +++ NL +++ spaces n +++ c +++ rest) = false.
Proof.
  intros H. rewrite skip_indent. cbn [map join]. destruct (map (jt level) l) as [|y m]; rewrite ?app_assoc_s;
    (split; [now apply (skip_doc P) | apply (doc_head P _ _ _ _ H); now left]).
Qed.
Theorem reads_doc P v : forall level, document P v -> reads level v.
Proof.
  induction v as [|b|z|r|s|l IH|d IH] using val_ind'; intros level H rest fuel Hs Hf; inversion H; subst; (destruct fuel as [|fuel]; [lia|]).
  - reflexivity.
  - destruct b; reflexivity.
  - rewrite jt_int, scan_value_number by apply int_head. now apply scan_int.
  - rewrite jt_float, scan_value_number by (try apply float_head; assumption). now apply scan_float.
  - change (jt level (VStr s)) with (qt s). cbn [scan_value]. destruct (scan_qt s rest) as (-> & ->). reflexivity.
  - rewrite jt_list in Hf |- *. destruct l as [|v l]; [reflexivity|].
    unfold json_items in Hf |- *. cbn [map] in Hf |- *. cbv iota in Hf |- *. change (jt (S level) v :: map (jt (S level)) l) with (map (jt (S level)) (v :: l)) in Hf |- *.
    rewrite !length_app_s in Hf. cbn [String.length] in Hf. rewrite !app_assoc_s. cbn [scan_value].
    change (head_is DQc ("[" +++ ?y)) with false. change (head_is "{" ("[" +++ ?y)) with false. change (head_is "[" ("[" +++ ?y)) with true. change (sdrop 1 ("[" +++ ?y)) with y. cbv beta iota zeta.
    destruct (head_jt_items P v l (S level) (4 * S level) (4 * level) "]" rest) as (-> & ->); [apply H1; now left|].
    rewrite (scan_elements_ok P); [reflexivity | discriminate | | lia]. intros w Hw. split; [now apply H1|]. apply IH; [exact Hw | now apply H1].
  - rewrite jt_dict in Hf |- *. rewrite canon_dict.
    assert (Hin : forall k w, In (k, w) (ssort d) -> In (k, w) d) by (intros k w; apply Permutation.Permutation_in, ssort_perm).
    pose proof (ssort_NoDup d H1) as Hnd. destruct (ssort d) as [|[x v] d']; [reflexivity|].
    unfold json_items in Hf |- *. cbn [map] in Hf. change (map (member_text (S level)) ((x, v) :: d')) with (member_text (S level) (x, v) :: map (member_text (S level)) d'). cbv iota in Hf |- *. change (member_text (S level) (x, v) :: map (member_text (S level)) d') with (map (member_text (S level)) ((x, v) :: d')) in Hf |- *.
    rewrite !length_app_s in Hf. cbn [String.length] in Hf. rewrite !app_assoc_s. cbn [scan_value].
    change (head_is DQc ("{" +++ ?y)) with false. change (head_is "{" ("{" +++ ?y)) with true. change (sdrop 1 ("{" +++ ?y)) with y. cbv beta iota zeta.
    assert (Es : forall m u k n, skip_json_space (NL +++ spaces k +++ join ("," +++ NL +++ spaces k) (member_text n (x, v) :: m) +++ u)
                 = join ("," +++ NL +++ spaces k) (member_text n (x, v) :: m) +++ u /\
                 head_is "}" (join ("," +++ NL +++ spaces k) (member_text n (x, v) :: m) +++ u) = false).
    { intros m u k n. rewrite skip_indent. cbn [join]. unfold member_text. cbn [fst snd]. destruct m as [|z m]; rewrite ?app_assoc_s; (split; [apply skip_qt | rewrite qt_eq; reflexivity]). }
    cbn [map]. destruct (Es (map (member_text (S level)) d') (NL +++ spaces (4 * level) +++ "}" +++ rest) (4 * S level)%nat (S level)) as (-> & ->).
    change (member_text (S level) (x, v) :: map (member_text (S level)) d') with (map (member_text (S level)) ((x, v) :: d')).
    rewrite (scan_members_ok P); [reflexivity | discriminate | exact Hnd | | reflexivity | lia].
    intros k w Hw. apply Hin in Hw. destruct (H2 k w Hw) as (_ & Hd). split; [exact Hd|]. now apply (IH k w).
Qed.
Lemma canon_same v : (exists P, document P v) -> same v (canon v).
Proof.
  induction v as [|b|z|r|s|l IH|d IH] using val_ind'; intros (P & H); try apply same_refl; inversion H; subst.
  - cbn [canon]. apply same_list. clear H. induction l as [|v l IHl]; [constructor|]. cbn [map]. constructor; [apply IH; [now left | exists P; apply H1; now left]|].
    apply IHl; intros; [apply IH; [now right | assumption] | apply H1; now right].
  - rewrite canon_dict. assert (G : forall k, dget k (map (fun kv => (fst kv, canon (snd kv))) (ssort d)) = option_map canon (dget k d)).
    { intros k. rewrite <- (dget_ssort k d H1). generalize (ssort d). intros e. induction e as [|[x v] e IHe]; [reflexivity|]. cbn [map dget fst snd]. destruct (String.eqb k x); [reflexivity | exact IHe]. }
    apply same_dict.
    + intros k v Hk. exists (canon v). rewrite G, Hk. split; [reflexivity|]. apply dget_In in Hk. apply (IH k v Hk). exists P. now apply (H2 k v).
    + intros k Hk. now rewrite G, Hk.
Qed.
Theorem loads_tojson P v : document P v -> loads (tojson v) = Ok (canon v).
Proof.
  intros H. unfold loads, tojson. rewrite html_safe_hs. change (hs (dumps 0 v)) with (jt 0 v).
  pose proof (skip_doc P 0 v "" H) as E1. pose proof (reads_doc P v 0 H "" (S (String.length (jt 0 v))) I (Nat.lt_succ_diag_r _)) as E2. rewrite app_nil_s in E1, E2.
  now rewrite E1, E2.
Qed.
