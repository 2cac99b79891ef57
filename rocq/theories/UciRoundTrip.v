(** * UciRoundTrip: reading back a rendered text (proofs only) *)
From Verif Require Import PyBase PyLemmas StrLemmas SortLemmas Files Uci SpecUci FilesProofs UciProofs UciParseProofs.
From Coq Require Import Sorted Permutation.

Lemma strip_quotes_id s : nochar SQc s = true -> nochar DQc s = true -> strip_quotes s = s.
Proof. intros H1 H2. unfold strip_quotes. unfold SQ, DQ. rewrite (replace_id SQc) by exact H1. apply replace_id. exact H2. Qed.
Lemma strip_quotes_quoted s : nochar SQc s = true -> nochar DQc s = true -> strip_quotes ("'" +++ s +++ "'") = s.
Proof.
  intros H1 H2. unfold strip_quotes. change "'" with (String SQc EmptyString). unfold SQ.
  rewrite replace_hit. cbn [String.append]. rewrite replace_pass by exact H1.
  assert (E : replace (String SQc "") "" (String SQc "") = "") by reflexivity. rewrite E, app_nil_s. unfold DQ. apply replace_id. exact H2.
Qed.
Lemma span_app p a c b : sforall p a = true -> p c = false -> span p (a +++ String c b) = (a, String c b).
Proof.
  induction a as [|x a IH]; intros H Hc; cbn [String.append span]; [rewrite Hc; reflexivity|].
  cbn [sforall] in H. apply andb_true_iff in H as [H1 H2]. rewrite H1, IH by assumption. reflexivity.
Qed.
Lemma opt_tight w k t : (w = "option" \/ w = "list") -> tight (opt_line w k t).
Proof.
  intros Hw. unfold opt_line.
  replace (w +++ " " +++ k +++ " '" +++ t +++ "'") with (w +++ (" " +++ k +++ " '" +++ t) +++ "'") by (rewrite !app_assoc_s; reflexivity).
  apply tight_app.
  - split; [destruct Hw as [->| ->]; discriminate|]. split.
    + intros c r E. destruct Hw as [->| ->]; inversion E; reflexivity.
    + intros r c E. apply (f_equal srev) in E. rewrite srev_snoc in E. destruct Hw as [->| ->]; inversion E; reflexivity.
  - split; [discriminate|]. split; intros.
    + inversion H; reflexivity.
    + apply (f_equal srev) in H. rewrite srev_snoc in H. inversion H; reflexivity.
Qed.
(** not empty, no white space *)
Definition solid (s : string) : Prop := s <> EmptyString /\ sforall (fun c => negb (is_space c)) s = true.
Lemma word_solid s : word s -> solid s.
Proof. intros (H1 & H2). apply bare_chars in H2 as (_ & _ & _ & _ & H2). split; assumption. Qed.
Lemma line_match_key w k t : (w = "option" \/ w = "list") -> solid k ->
  line_match (opt_line w k t) = Some (String.eqb w "option", k, "'" +++ t +++ "'").
Proof.
  intros Hw (Hn & Hk). destruct k as [|c k]; [congruence|].
  assert (Hc : is_space c = false) by (cbn [sforall] in Hk; apply andb_true_iff in Hk as [Hc _]; apply negb_true_iff; exact Hc).
  assert (G : (let (key, r') := span (fun c => negb (is_space c)) (lstrip_p is_space (" " +++ String c k +++ " '" +++ t +++ "'")) in
     (key, lstrip_p is_space r')) = (String c k, "'" +++ t +++ "'")).
  { change (" " +++ String c k +++ " '" +++ t +++ "'") with (String " " (String c k +++ String " " ("'" +++ t +++ "'"))).
    change (lstrip_p is_space (String " " (String c k +++ String " " ("'" +++ t +++ "'")))) with (lstrip_p is_space (String c (k +++ String " " ("'" +++ t +++ "'")))).
    rewrite lstrip_p_id by exact Hc.
    change (String c (k +++ String " " ("'" +++ t +++ "'"))) with (String c k +++ String " " ("'" +++ t +++ "'")).
    rewrite span_app by (exact Hk || reflexivity). reflexivity. }
  unfold line_match, opt_line. destruct Hw as [->| ->].
  - change (startswith "option" ("option" +++ " " +++ String c k +++ " '" +++ t +++ "'")) with true. cbv iota.
    change (sdrop 6 ("option" +++ " " +++ String c k +++ " '" +++ t +++ "'")) with (" " +++ String c k +++ " '" +++ t +++ "'").
    rewrite G. reflexivity.
  - change (startswith "option" ("list" +++ " " +++ String c k +++ " '" +++ t +++ "'")) with false.
    change (startswith "list" ("list" +++ " " +++ String c k +++ " '" +++ t +++ "'")) with true. cbv iota.
    change (sdrop 4 ("list" +++ " " +++ String c k +++ " '" +++ t +++ "'")) with (" " +++ String c k +++ " '" +++ t +++ "'").
    rewrite G. reflexivity.
Qed.
Lemma line_match_opt w k t : (w = "option" \/ w = "list") -> word k ->
  line_match (opt_line w k t) = Some (String.eqb w "option", k, "'" +++ t +++ "'").
Proof. intros Hw Hk. apply line_match_key; [exact Hw|apply word_solid; exact Hk]. Qed.
Lemma parse_line_opt acc w k t : (w = "option" \/ w = "list") -> word k -> plain t ->
  parse_line acc (TAB +++ opt_line w k t) =
    if String.eqb w "option" then Ok (dset k (VStr t) acc)
    else match dget k acc with
         | None => Ok (dset k (VList [VStr t]) acc)
         | Some (VList l) => Ok (dset k (VList (l ++ [VStr t])) acc)
         | Some _ => Err EType
         end.
Proof.
  intros Hw Hk Ht. unfold parse_line. rewrite <- (app_nil_s (opt_line w k t)).
  rewrite strip_tight by (reflexivity || (apply opt_tight; exact Hw)).
  rewrite line_match_opt by assumption. cbv iota beta zeta.
  apply plain_chars in Ht as (_ & T1 & T2 & _). rewrite strip_quotes_quoted by assumption.
  destruct Hk as [_ Hk]. apply bare_chars in Hk as (_ & _ & K1 & K2 & _). rewrite strip_quotes_id by assumption. reflexivity.
Qed.
Lemma dset_app_last {V} k (v w : V) acc : dget k acc = None -> dset k w (acc ++ [(k, v)]) = (acc ++ [(k, w)])%list.
Proof.
  induction acc as [|[k' v'] acc IH]; intros H; cbn [app dset].
  - rewrite eqb_refl. reflexivity.
  - cbn [dget] in H. destruct (String.eqb k k'); [discriminate|]. rewrite IH by exact H. reflexivity.
Qed.
Lemma dget_app_last {V} k (v : V) acc : dget k acc = None -> dget k (acc ++ [(k, v)]) = Some v.
Proof. intros H. rewrite dget_app, H. cbn. rewrite eqb_refl. reflexivity. Qed.
Lemma parse_list_more acc k ts l : word k -> (forall t, In t ts -> plain t) -> dget k acc = None ->
  foldM parse_line (acc ++ [(k, VList l)]) (map (fun x => TAB +++ x) (map (opt_line "list" k) ts))
  = Ok (acc ++ [(k, VList (l ++ map VStr ts))])%list.
Proof.
  intros Hk. revert l; induction ts as [|t ts IH]; intros l Ht Hn; [cbn; rewrite app_nil_r; reflexivity|].
  cbn [map foldM]. rewrite parse_line_opt by (auto; apply Ht; left; reflexivity).
  change (String.eqb "list" "option") with false. cbv iota.
  rewrite dget_app_last by exact Hn. cbn [bind]. rewrite dset_app_last by exact Hn.
  rewrite IH; [|intros x Hx; apply Ht; right; exact Hx|exact Hn]. rewrite <- app_assoc. reflexivity.
Qed.
Definition expect (kv : string * val) : dict :=
  if startswith "." (fst kv) then [] else match uci_value (snd kv) with Some u => [(fst kv, u)] | None => [] end.
Lemma parse_item acc k v : (startswith "." k = false -> uci_value v <> None -> word k /\ writable v) -> dget k acc = None ->
  foldM parse_line acc (map (fun x => TAB +++ x) (opt_lines (k, v))) = Ok (acc ++ expect (k, v))%list.
Proof.
  intros Hok Hn. unfold opt_lines, expect. cbn [fst snd]. destruct (startswith "." k) eqn:Ek; [cbn; rewrite app_nil_r; reflexivity|].
  destruct (uci_value v) as [u|] eqn:Ev.
  - destruct (Hok eq_refl) as [Hk Hw]; [discriminate|].
    assert (Hp : forall t, In t (snd (item_texts v)) -> plain t) by (intros t; apply item_text_plain; exact Hw).
    assert (One : forall s, plain s -> foldM parse_line acc (map (fun x => TAB +++ x) (map (opt_line "option" k) [s])) = Ok (acc ++ [(k, VStr s)])%list).
    { intros s Hs. cbn [map foldM]. rewrite parse_line_opt by auto. change (String.eqb "option" "option") with true. cbn [bind].
      rewrite dset_absent by exact Hn. reflexivity. }
    assert (Many : forall t ts, (forall x, In x (t :: ts) -> plain x) ->
      foldM parse_line acc (map (fun x => TAB +++ x) (map (opt_line "list" k) (t :: ts))) = Ok (acc ++ [(k, VList (VStr t :: map VStr ts))])%list).
    { intros t ts Hts. cbn [map foldM]. rewrite parse_line_opt by (auto; apply Hts; left; reflexivity).
      change (String.eqb "list" "option") with false. cbv iota. rewrite Hn. cbn [bind]. rewrite dset_absent by exact Hn.
      rewrite parse_list_more; [reflexivity|exact Hk|intros x Hx; apply Hts; right; exact Hx|exact Hn]. }
    destruct v as [|b| | |[|c s]|[|x l]|[|[y x] l]]; cbn [item_texts fst snd uci_value] in *; try discriminate; inversion Ev; subst u;
      try (apply One; apply Hp; left; reflexivity).
    + cbn [map] in *. rewrite Many by exact Hp. cbn [map]. rewrite map_map. reflexivity.
    + cbn [map fst] in *. rewrite Many by exact Hp. cbn [map]. rewrite map_map. reflexivity.
  - assert (E : snd (item_texts v) = []).
    { destruct v as [| | | |[|]|[|]|[|]]; cbn in *; try discriminate; reflexivity. }
    rewrite E. cbn. rewrite app_nil_r. reflexivity.
Qed.
Lemma expect_keys k kvs : In k (dkeys (flat_map expect kvs)) -> In k (dkeys kvs) /\ startswith "." k = false.
Proof.
  induction kvs as [|[k' v'] kvs IH]; cbn [flat_map dkeys map]; [intros []|].
  unfold dkeys in *. rewrite map_app, in_app_iff. intros [H|H].
  - unfold expect in H. cbn [fst snd] in H. destruct (startswith "." k') eqn:E; [destruct H|].
    destruct (uci_value v'); [|destruct H]. destruct H as [<-|[]]. split; [left; reflexivity|exact E].
  - destruct (IH H) as [H1 H2]. split; [right; exact H1|exact H2].
Qed.
Lemma parse_items b acc : NoDup (dkeys b) ->
  (forall k v, In (k, v) b -> startswith "." k = false -> uci_value v <> None -> word k /\ writable v) ->
  (forall k, In k (dkeys b) -> startswith "." k = false -> dget k acc = None) ->
  foldM parse_line acc (topts b) = Ok (acc ++ flat_map expect b)%list.
Proof.
  unfold topts, body_lines. revert acc; induction b as [|[k v] b IH]; intros acc Hnd Hok Hf; [cbn; rewrite app_nil_r; reflexivity|].
  inversion Hnd; subst. cbn [flat_map]. rewrite map_app, foldM_app.
  assert (G : foldM parse_line acc (map (fun x => TAB +++ x) (opt_lines (k, v))) = Ok (acc ++ expect (k, v))%list).
  { destruct (startswith "." k) eqn:E.
    - unfold opt_lines, expect. cbn [fst snd]. rewrite E. cbn. rewrite app_nil_r. reflexivity.
    - apply parse_item; [intros _ Hu; apply Hok; [left; reflexivity|exact E|exact Hu]|apply Hf; [left; reflexivity|exact E]]. }
  rewrite G. cbn [bind]. rewrite IH; [rewrite <- app_assoc; reflexivity|assumption|intros k' v' Hin; apply Hok; right; exact Hin|].
  intros k' Hk' Hd. rewrite dget_app, (Hf k' (or_intror Hk') Hd). apply dget_None. intros H.
  unfold expect in H. cbn [fst snd] in H. destruct (startswith "." k); [destruct H|]. destruct (uci_value v); [|destruct H].
  destruct H as [H|[]]. cbn in H. subst k'. contradiction.
Qed.
Lemma foldM_app' {A B} (f : B -> A -> res B) acc l1 l2 : foldM f acc (l1 ++ l2) = do a <- foldM f acc l1; foldM f a l2.
Proof. apply foldM_app. Qed.

(** ** One section *)
Lemma split_ws_word : forall w cur Y, sforall (fun c => negb (is_space c)) w = true -> srev_onto w cur <> EmptyString ->
  split_ws_from cur (w +++ String " " Y) = srev (srev_onto w cur) :: split_ws_from EmptyString Y.
Proof.
  induction w as [|c w IH]; intros cur Y H Hn; cbn [String.append split_ws_from].
  - change (is_space " ") with true. cbv iota. destruct cur; [contradiction|reflexivity].
  - cbn [sforall] in H. apply andb_true_iff in H as [H1 H2]. apply negb_true_iff in H1. rewrite H1. apply (IH (String c cur)); assumption.
Qed.
Lemma split_ws_last : forall w cur, sforall (fun c => negb (is_space c)) w = true -> srev_onto w cur <> EmptyString ->
  split_ws_from cur w = [srev (srev_onto w cur)].
Proof.
  induction w as [|c w IH]; intros cur H Hn; cbn [split_ws_from].
  - destruct cur; [contradiction|reflexivity].
  - cbn [sforall] in H. apply andb_true_iff in H as [H1 H2]. apply negb_true_iff in H1. rewrite H1. apply (IH (String c cur)); assumption.
Qed.
Lemma split_ws_solid t n : solid t -> bare n -> split_ws (t +++ " '" +++ n +++ "'") = [t; "'" +++ n +++ "'"].
Proof.
  intros (Hn & Ht) Hb. apply bare_chars in Hb as (_ & _ & _ & _ & Hb).
  unfold split_ws. change (t +++ " '" +++ n +++ "'") with (t +++ String " " ("'" +++ n +++ "'")).
  assert (E : srev_onto t "" <> "").
  { intros E. apply Hn. apply srev_inj. exact E. }
  rewrite split_ws_word by assumption. rewrite srev_srev_onto. f_equal.
  rewrite split_ws_last.
  - rewrite srev_srev_onto. reflexivity.
  - rewrite !sforall_app, Hb. reflexivity.
  - intros E'. apply (f_equal srev) in E'. rewrite srev_srev_onto in E'. discriminate.
Qed.
Lemma split_ws_head t n : word t -> bare n -> split_ws (t +++ " '" +++ n +++ "'") = [t; "'" +++ n +++ "'"].
Proof. intros Ht. apply split_ws_solid, word_solid, Ht. Qed.
Definition block0 (t n : string) (b : dict) : dict := ((".type", VStr t) :: (".name", VStr n) :: flat_map expect b)%list.
Lemma topts_J b : head_tail b +++ J (topts b) = join NL (head_tail b :: topts b).
Proof. symmetry. apply join_J. Qed.
Lemma split_J h ls : oneline h = true -> forallb oneline ls = true -> split_char NLc (h +++ J ls) = h :: ls.
Proof.
  intros H1 H2. rewrite <- join_J. unfold NL. apply split_char_of_join; [discriminate|].
  intros c Hc. assert (Ho : oneline c = true).
  { destruct Hc as [<-|Hc]; [exact H1|]. rewrite forallb_forall in H2. apply H2; exact Hc. }
  unfold oneline, nochar in Ho. clear -Ho. induction c as [|x c IH]; [reflexivity|]. cbn [sforall sexists] in *.
  apply andb_true_iff in Ho as [H1 H2]. rewrite IH by exact H2. rewrite Ascii.eqb_sym. apply negb_true_iff in H1. rewrite H1. reflexivity.
Qed.
Lemma topts_oneline b : section_ok b -> forallb oneline (topts b) = true.
Proof.
  intros Hs. pose proof (body_oneline b Hs) as H. unfold topts. rewrite forallb_forall in *. intros x Hx.
  apply in_map_iff in Hx as (y & <- & Hy). unfold oneline. rewrite nochar_app. apply andb_true_iff. split; [reflexivity|apply H; exact Hy].
Qed.
Lemma parse_block_ok b i : section_ok b -> exists t n, sec_type b t n /\
  parse_block i (head_tail b +++ J (topts b)) = Ok (ssort (set_block_type (block0 t n b))).
Proof.
  intros Hs. pose proof Hs as (Hnd & (t & n & S1 & S2 & S3 & S4') & Hok). exists t, n. split; [repeat split; auto; apply S2|].
  unfold parse_block. rewrite split_J by (apply head_oneline || apply topts_oneline; exact Hs).
  assert (E : head_tail b = t +++ " '" +++ n +++ "'") by (unfold head_tail, tpl_get; rewrite S1, S3; reflexivity).
  rewrite E, split_ws_head by assumption. cbv zeta.
  assert (strip_quotes t = t) as -> by (destruct S2 as [_ S2]; apply bare_chars in S2 as (_ & _ & K1 & K2 & _); apply strip_quotes_id; assumption).
  assert (strip_quotes ("'" +++ n +++ "'") = n) as -> by (apply bare_chars in S4' as (_ & _ & K1 & K2 & _); apply strip_quotes_quoted; assumption).
  rewrite parse_items; [reflexivity|exact Hnd|exact Hok|].
  intros k _ Hd. cbn [dget]. destruct (String.eqb_spec k ".type") as [->|]; [discriminate|]. destruct (String.eqb_spec k ".name") as [->|]; [discriminate|reflexivity].
Qed.
Lemma list_snoc_view {A} (l : list A) : l = [] \/ exists i x, l = (i ++ [x])%list.
Proof. destruct l as [|x l] using rev_ind; [left; reflexivity|right; eauto]. Qed.
Lemma head_tight b : section_ok b -> tight (head_tail b +++ J (topts b)).
Proof.
  intros Hs. pose proof Hs as (_ & (t & n & S1 & S2 & S3 & S4') & _).
  assert (E : head_tail b = t +++ " '" +++ n +++ "'") by (unfold head_tail, tpl_get; rewrite S1, S3; reflexivity).
  assert (Q : tight "'").
  { split; [discriminate|]. split; intros; [inversion H; reflexivity|]. apply (f_equal srev) in H. rewrite srev_snoc in H. inversion H; reflexivity. }
  assert (T : tight t).
  { destruct S2 as [Hn Ht]. apply bare_chars in Ht as (_ & _ & _ & _ & Ht). split; [exact Hn|]. split.
    - intros c r ->. cbn [sforall] in Ht. apply andb_true_iff in Ht as [Ht _]. apply negb_true_iff; exact Ht.
    - intros r c ->. rewrite sforall_app in Ht. apply andb_true_iff in Ht as [_ Ht]. cbn [sforall] in Ht. rewrite andb_true_r in Ht. apply negb_true_iff; exact Ht. }
  rewrite E. destruct (list_snoc_view (body_lines b)) as [El|(ls & l0 & El)].
  - unfold topts. rewrite El. cbn [map J]. rewrite app_nil_s.
    replace (t +++ " '" +++ n +++ "'") with (t +++ (" '" +++ n) +++ "'") by (rewrite app_assoc_s; reflexivity).
    apply tight_app; assumption.
  - destruct (body_line_ok b l0 Hs) as (w & k & v & x & -> & Hw & _); [rewrite El; apply in_app_iff; right; left; reflexivity|].
    unfold topts. rewrite El, map_app, J_app. cbn [map J]. rewrite app_nil_s.
    replace ((t +++ " '" +++ n +++ "'") +++ J (map (fun l => TAB +++ l) ls) +++ NL +++ TAB +++ opt_line w k x)
      with (t +++ ((" '" +++ n +++ "'") +++ J (map (fun l => TAB +++ l) ls) +++ NL +++ TAB) +++ opt_line w k x) by (rewrite !app_assoc_s; reflexivity).
    apply tight_app; [exact T|apply opt_tight; exact Hw].
Qed.

(** ** What the block reads as *)
Lemma dget_expect k kvs : NoDup (dkeys kvs) -> dget k (flat_map expect kvs) =
  if startswith "." k then None else match dget k kvs with Some v => uci_value v | None => None end.
Proof.
  induction kvs as [|[k' v'] kvs IH]; intros Hnd; [destruct (startswith "." k); reflexivity|].
  inversion Hnd; subst. cbn [flat_map dget]. rewrite dget_app, IH by assumption. unfold expect. cbn [fst snd].
  destruct (String.eqb_spec k k') as [->|Hne].
  - destruct (startswith "." k') eqn:E; [reflexivity|].
    destruct (uci_value v') as [u|] eqn:Eu; cbn; [rewrite eqb_refl; reflexivity|].
    assert (dget k' kvs = None) as -> by (apply dget_None; assumption). reflexivity.
  - destruct (startswith "." k') eqn:E; [reflexivity|]. destruct (uci_value v') as [u|]; cbn; [rewrite (eqb_neq _ _ Hne)|]; reflexivity.
Qed.
Lemma block0_NoDup t n b : NoDup (dkeys b) -> NoDup (dkeys (block0 t n b)).
Proof.
  intros H. unfold block0. cbn [dkeys map fst]. constructor; [|constructor].
  - intros [E|Hin]; [discriminate|]. apply (expect_keys ".type" b) in Hin as [_ Hin]. discriminate.
  - intros Hin. apply (expect_keys ".name" b) in Hin as [_ Hin]. discriminate.
  - clear t n. induction b as [|[k v] b IH]; [constructor|]. inversion H; subst. cbn [flat_map]. unfold dkeys. rewrite map_app.
    unfold expect at 1. cbn [fst snd]. destruct (startswith "." k); [apply IH; assumption|].
    destruct (uci_value v); [|apply IH; assumption]. cbn. constructor; [|apply IH; assumption].
    intros Hin. apply (expect_keys k b) in Hin as [Hin _]. contradiction.
Qed.
Lemma block0_reads t n b : NoDup (dkeys b) -> sec_type b t n -> reads_as b (ssort (block0 t n b)).
Proof.
  intros Hnd (S1 & _ & S2 & _). pose proof (block0_NoDup t n b Hnd) as Hn. split; [apply ssort_sorted_keys; exact Hn|].
  intros k. rewrite dget_ssort by exact Hn. unfold block0. cbn [dget].
  destruct (String.eqb_spec k ".type") as [->|]; [symmetry; exact S1|].
  destruct (String.eqb_spec k ".name") as [->|]; [symmetry; exact S2|]. cbn [orb]. apply dget_expect. exact Hnd.
Qed.
Ltac ssplit := repeat match goal with |- context [String.eqb ?a ?b] =>
   is_var a; destruct (String.eqb_spec a b); [subst a|] end.
Lemma set_block_type_NoDup d : NoDup (dkeys d) -> NoDup (dkeys (set_block_type d)).
Proof.
  intros H. unfold set_block_type. destruct (dgetN ".type" d); auto. destruct (_ || _); auto.
  cbv zeta. repeat first [apply NoDup_dset | match goal with |- NoDup (dkeys (if ?c then _ else _)) => destruct c end | exact H].
Qed.
Lemma set_block_type_reads d t : NoDup (dkeys d) -> dget ".type" d = Some (VStr t) ->
  retyped (ssort d) (ssort (set_block_type d)).
Proof.
  intros Hnd Ht. pose proof (set_block_type_NoDup d Hnd) as Hn. split; [apply ssort_sorted_keys; exact Hn|].
  cbv zeta. intros k. rewrite dget_ssort by exact Hn. rewrite !(dget_ssort _ d) by exact Hnd.
  unfold set_block_type, dgetN. rewrite Ht. cbn [is_text].
  destruct (String.eqb_spec t "bridge-vlan") as [->|N1].
  - change ("bridge-vlan" =? "device") with false. cbn [orb]. cbv zeta. rewrite orb_true_r.
    rewrite !dget_dset. reflexivity.
  - destruct (String.eqb_spec t "device") as [->|N2]; [|reflexivity]. cbn [orb]. cbv zeta. rewrite orb_false_r.
    assert (E1 : match match dget "type" d with Some v => v | None => VNull end with
       | VStr s => (s =? "bridge") || (s =? "8021q") || (s =? "8021ad") | _ => false end
       = is_text (dget "type" d) "bridge" || is_text (dget "type" d) "8021q" || is_text (dget "type" d) "8021ad").
    { destruct (dget "type" d) as [[]|]; reflexivity. }
    assert (E2 : negb (truthy match dget "type" d with Some v => v | None => VNull end) = absent_or_false (dget "type" d)).
    { destruct (dget "type" d) as [[]|]; reflexivity. }
    rewrite E1, E2. rewrite dget_dset. destruct (String.eqb_spec k ".type") as [->|K1]; [reflexivity|].
    destruct (is_text (dget "type" d) "bridge" || is_text (dget "type" d) "8021q" || is_text (dget "type" d) "8021ad"),
      (absent_or_false (dget "type" d)); rewrite ?dget_dset, ?andb_true_r, ?andb_false_r; reflexivity.
Qed.

(** ** Sections, packages *)
(** the value read for a section *)
Definition rb (b : dict) : dict :=
  ssort (set_block_type ((".type", dgetN ".type" b) :: (".name", dgetN ".name" b) :: flat_map expect b)).
Lemma rb_block0 b t n : sec_type b t n -> rb b = ssort (set_block_type (block0 t n b)).
Proof. intros (S1 & _ & S2 & _). unfold rb, dgetN. rewrite S1, S2. reflexivity. Qed.
Lemma rb_reads b : section_ok b -> section_reads b (rb b).
Proof.
  intros Hb. pose proof Hb as (Hnd & (t & n & Ht) & _). rewrite (rb_block0 b t n Ht).
  exists (ssort (block0 t n b)). split; [apply block0_reads; assumption|].
  eapply set_block_type_reads; [apply block0_NoDup; exact Hnd|reflexivity].
Qed.
(** The lemmas below are about any text made of sections that read as [f]. *)
Lemma cbody_plain bs : (forall b, In b bs -> sect_lines b) -> forallb oneline (cbody bs) = true.
Proof.
  intros H. unfold cbody. induction bs as [|b bs IH]; [reflexivity|]. cbn [flat_map forallb app].
  rewrite forallb_app. fold (cbody bs). destruct (H b (or_introl eq_refl)) as [Hh Hb].
  assert (Et : forallb oneline (topts b) = true).
  { unfold topts. rewrite forallb_forall in *. intros x Hx. apply in_map_iff in Hx as (y & <- & Hy).
    unfold oneline. rewrite nochar_app. apply andb_true_iff. split; [reflexivity|apply Hb; exact Hy]. }
  rewrite Et.
  assert (Eh : oneline (head_line b) = true).
  { rewrite head_tail_line. unfold oneline. rewrite !nochar_app. exact Hh. }
  rewrite Eh. cbn [andb oneline nochar sforall].
  apply IH. intros x Hx; apply H; right; exact Hx.
Qed.
Lemma cbody_oneline bs : (forall b, In b bs -> section_ok b) -> forallb oneline (cbody bs) = true.
Proof. intros H. apply cbody_plain. intros b Hb. apply sect_lines_of, H, Hb. Qed.
Definition sect_text (f : dict -> dict) (b : dict) : Prop :=
  sect_lines b /\ tight (head_tail b +++ J (topts b)) /\
  forall i, parse_block i (head_tail b +++ J (topts b)) = Ok (f b).
Definition pkg_text (f : dict -> dict) (q : string * list dict) : Prop :=
  package_name (fst q) /\ forall b, In b (snd q) -> sect_text f b.
Lemma pkg_text_plain f q : pkg_text f q -> pkg_plain q.
Proof. intros [(_ & _ & P3 & _) Hb]. split; [exact P3|]. intros b H. apply (Hb b H). Qed.
Definition rp_of (f : dict -> dict) (q : string * list dict) : string * val :=
  (fst q, VList (map (fun b => VDict (f b)) (snd q))).
Section Reading.
  Variable f : dict -> dict.
  Lemma parse_blocks_ok bs ps : (forall b, In b bs -> sect_text f b) ->
    Forall2 (fun b p => exists s, p = (head_tail b +++ J (topts b)) +++ s /\ sforall is_space s = true) bs ps ->
    forall i, parse_blocks_from i ps = Ok (map (fun b => VDict (f b)) bs).
  Proof.
    intros Hok HF. induction HF as [|b p bs ps (s & -> & Hs) HF IH]; intros i; [reflexivity|].
    assert (Hb : sect_text f b) by (apply Hok; left; reflexivity). destruct Hb as (_ & Ht & Hp).
    specialize (IH (fun x Hx => Hok x (or_intror Hx)) (S i)).
    cbn [parse_blocks_from]. cbv zeta.
    assert (Est : strip ((head_tail b +++ J (topts b)) +++ s) = head_tail b +++ J (topts b)).
    { apply (strip_tight _ EmptyString s); [exact Ht|reflexivity|exact Hs]. }
    rewrite Est. assert (Hne : head_tail b +++ J (topts b) <> EmptyString) by apply Ht.
    rewrite (eqb_neq _ _ Hne). rewrite Hp. cbn [bind].
    rewrite IH. reflexivity.
  Qed.
  Lemma cbody_last bs : (forall b, In b bs -> sect_text f b) -> bs <> [] ->
    exists pre last, J (cbody bs) = pre +++ last /\ tight last.
  Proof.
    intros H Hn. destruct (list_snoc_view bs) as [->|(i & b & ->)]; [congruence|].
    exists (J (cbody i) +++ NL +++ NL +++ "config "), (head_tail b +++ J (topts b)). split.
    - unfold cbody at 1. rewrite flat_map_app. fold (cbody i). rewrite J_app. cbn [flat_map app J]. rewrite app_nil_r.
      rewrite head_tail_line, !app_assoc_s. reflexivity.
    - apply (H b). apply in_app_iff. right; left; reflexivity.
  Qed.
  Lemma pkg_tight q : pkg_text f q -> tight (fst q +++ J (cbody (snd q))).
  Proof.
    intros [(P1 & P2 & _) Hb]. pose proof (strip_id_tight _ P2 P1) as T. destruct q as [p [|b bs]]; cbn [fst snd] in *.
    - cbn. rewrite app_nil_s. exact T.
    - destruct (cbody_last (b :: bs) Hb ltac:(discriminate)) as (pre & last & -> & Tl). apply tight_app; assumption.
  Qed.
  Lemma parse_package_ok q s acc : pkg_text f q -> sforall is_space s = true ->
    parse_package acc ((fst q +++ J (cbody (snd q))) +++ s) = Ok (dset (fst q) (snd (rp_of f q)) acc).
  Proof.
    intros Hq Hs. unfold parse_package. cbv zeta.
    assert (Est : strip ((fst q +++ J (cbody (snd q))) +++ s) = fst q +++ J (cbody (snd q)))
      by exact (strip_tight _ EmptyString s (pkg_tight q Hq) eq_refl Hs).
    rewrite Est.
    rewrite (eqb_neq _ _ (proj1 (pkg_tight q Hq))).
    destruct Hq as [(P1 & P2 & P3 & P4) Hb]. apply no_char_spec in P3.
    rewrite split_J by (exact P3 || (apply cbody_plain; intros b H; apply (Hb b H))). rewrite sdrop_app.
    unfold parse_blocks, re_split.
    destruct (split_blocks (snd q) (fun b H => proj1 (Hb b H)) true EmptyString) as (sp & ps & E & Hsp & HF). rewrite E.
    change (srev "" +++ sp) with sp. cbn [parse_blocks_from]. rewrite strip_all by exact Hsp. cbv zeta. rewrite eqb_refl.
    rewrite (parse_blocks_ok (snd q) ps Hb HF 0). reflexivity.
  Qed.
  Lemma parse_packages_ok l : (forall qn, In qn l -> pkg_text f (fst qn)) -> NoDup (map fst (map fst l)) ->
    forall acc, (forall qn, In qn l -> dget (fst (fst qn)) acc = None) ->
    foldM parse_package acc (map (fun qn : (string * list dict) * nat => (fst (fst qn) +++ J (cbody (snd (fst qn)))) +++ nls (S (snd qn))) l)
    = Ok (acc ++ map (rp_of f) (map fst l))%list.
  Proof.
    intros Hok Hnd. induction l as [|[q n] l IH]; intros acc Hacc; [cbn; rewrite app_nil_r; reflexivity|].
    cbn [map fst snd] in *. inversion Hnd; subst. cbn [foldM].
    rewrite (parse_package_ok q (nls (S n)) acc (Hok (q, n) (or_introl eq_refl)) (nls_space _)). cbn [bind].
    rewrite dset_absent by (apply (Hacc (q, n)); left; reflexivity).
    rewrite (IH (fun x Hx => Hok x (or_intror Hx)) H2).
    - rewrite <- app_assoc. reflexivity.
    - intros x Hx. rewrite dget_app, (Hacc x (or_intror Hx)). cbn. rewrite eqb_neq; [reflexivity|].
      intros E. apply H1. rewrite <- E. apply in_map, in_map. exact Hx.
  Qed.
  Lemma gtext_reads l : (forall qn, In qn l -> pkg_text f (fst qn)) -> NoDup (map fst (map fst l)) ->
    parse_text (gtext l) = Ok (map (rp_of f) (map fst l)).
  Proof.
    intros Hok Hnd. unfold parse_text, re_split. rewrite (split_gtext l (fun qn H => pkg_text_plain f _ (Hok qn H))). cbn [foldM].
    unfold parse_package at 1. change (strip (srev "")) with EmptyString. cbv zeta. rewrite eqb_refl. cbn [bind].
    apply (parse_packages_ok l Hok Hnd []). reflexivity.
  Qed.
End Reading.
Lemma sect_text_of b : section_ok b -> sect_text rb b.
Proof.
  intros Hb. split; [apply sect_lines_of; exact Hb|]. split; [apply head_tight; exact Hb|].
  intros i. destruct (parse_block_ok b i Hb) as (t & n & Ht & Ep). rewrite Ep, (rb_block0 b t n Ht). reflexivity.
Qed.
Lemma pkg_text_of q : pk_ok q -> pkg_text rb q.
Proof. intros [Hp Hb]. split; [exact Hp|]. intros b H. apply sect_text_of, Hb, H. Qed.
Definition rp : string * list dict -> string * val := rp_of rb.
Lemma gtext_parse l : (forall qn, In qn l -> pk_ok (fst qn)) -> NoDup (map fst (map fst l)) ->
  parse_text (gtext l) = Ok (map rp (map fst l)).
Proof. intros H. apply gtext_reads. intros qn Hin. apply pkg_text_of, H, Hin. Qed.
Lemma canon_parse l : (forall q, In q l -> pk_ok q) -> NoDup (map fst l) -> parse_text (canon l) = Ok (map rp l).
Proof.
  intros Hok Hnd. rewrite canon_gtext, gtext_parse, gaps_fst; [reflexivity| |rewrite gaps_fst; exact Hnd].
  intros qn Hin. apply Hok. rewrite <- (gaps_fst l). apply in_map. exact Hin.
Qed.
Lemma data_pkgs d : data_ok d -> exists l, d = map (fun p => (fst p, VList (map VDict (snd p)))) l /\
  (forall q, In q l -> pk_ok q) /\ NoDup (map fst l).
Proof.
  intros [Hnd H]. induction d as [|[p v] d IH].
  - exists []. split; [reflexivity|]. split; [intros q []|constructor].
  - cbn in Hnd. inversion Hnd; subst. destruct IH as (l & E & Hl & Hn); [assumption|intros q Hq; apply H; right; exact Hq|].
    destruct (H (p, v) (or_introl eq_refl)) as (Hp & bs & Ev & Hbs). cbn [fst snd] in *. subst v.
    exists ((p, bs) :: l). cbn [map fst snd]. rewrite E. split; [reflexivity|]. split.
    + intros q [<-|Hq]; [split; assumption|auto].
    + constructor; [|exact Hn]. intros Hin. apply H2. rewrite E. unfold dkeys. rewrite map_map. cbn [fst].
      apply in_map_iff in Hin as (q & <- & Hq). apply in_map_iff. exists q. auto.
Qed.
Theorem uci_round_trip d : data_ok d -> exists text d', render_uci d = Ok text /\ parse_text text = Ok d' /\ data_reads d d'.
Proof.
  intros H. destruct (data_pkgs d H) as (l & -> & Hl & Hn).
  exists (canon l), (map rp l).
  split; [apply render_canon; apply lines_ok_of; exact Hl|]. split; [apply canon_parse; assumption|].
  unfold data_reads. clear Hn H. induction l as [|q l IH]; [constructor|].
  cbn [map]. constructor; [|apply IH; intros x Hx; apply Hl; right; exact Hx]. unfold rp, rp_of. cbn [fst snd]. split; [reflexivity|].
  exists (snd q), (map rb (snd q)). split; [reflexivity|]. split; [rewrite map_map; reflexivity|].
  destruct (Hl q (or_introl eq_refl)) as [_ Hb]. clear -Hb. induction (snd q) as [|b bs IH]; [constructor|].
  cbn [map]. constructor; [apply rb_reads; apply Hb; left; reflexivity|apply IH; intros x Hx; apply Hb; right; exact Hx].
Qed.
