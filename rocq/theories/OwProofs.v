(** * OwProofs: the text of the OpenWISP 1.x backend (proofs only) *)
From Verif Require Import PyBase PyLemmas StrLemmas SortLemmas Files Uci SpecUci SpecUciMore FilesProofs UciProofs UciParseProofs UciRoundTrip UciMore.
From Verif Require Import Merge Backend Conv OpenWrt OpenWisp SpecFiles SpecOpenWisp WgArchive.

(** The text is the OpenWrt text of quoted data. *)
Definition quote (s : string) : string := "'" +++ s +++ "'".
Definition qkv (kv : string * val) : string * val :=
  if String.eqb (fst kv) ".type" then (fst kv, VStr (quote (py_str (snd kv))))
  else if startswith "." (fst kv) then kv else (quote (fst kv), snd kv).
Definition qb (b : dict) : dict := map qkv b.
Lemma qkv_item kv : ow_item kv = tpl_item (qkv kv).
Proof.
  destruct kv as [k v]. unfold ow_item, tpl_item, qkv. cbn [fst snd].
  destruct (String.eqb_spec k ".type") as [->|Hn].
  - cbn [fst snd]. change (startswith "." ".type") with true. rewrite !andb_false_r. reflexivity.
  - destruct (startswith "." k) eqn:E; cbn [fst snd].
    + rewrite E, !andb_false_r. reflexivity.
    + change (startswith "." (quote k)) with false. f_equal. f_equal. destruct (not_blank v && negb false); [|reflexivity]. f_equal. f_equal.
      unfold ow_value, tpl_value, ow_list_line, tpl_list_line, quote.
      destruct v; rewrite ?app_assoc_s; try reflexivity.
      * do 2 f_equal. induction l as [|y l IH]; [reflexivity|]. cbn [fold_right]. rewrite <- IH, !app_assoc_s. reflexivity.
      * do 2 f_equal. induction d as [|y l IH]; [reflexivity|]. cbn [fold_right]. rewrite <- IH, !app_assoc_s. reflexivity.
Qed.
Lemma dget_qb_type b : dget ".type" (qb b) = option_map (fun v => VStr (quote (py_str v))) (dget ".type" b).
Proof.
  induction b as [|[k v] b IH]; [reflexivity|]. cbn [qb map]. fold (qb b). unfold qkv at 1. cbn [fst snd].
  destruct (String.eqb_spec k ".type") as [->|Hn]; [reflexivity|].
  cbn [dget]. rewrite (eqb_neq ".type" k) by congruence.
  destruct (startswith "." k); cbn [dget]; [rewrite (eqb_neq ".type" k) by congruence; exact IH|].
  unfold quote. change (String.eqb ".type" ("'" +++ k +++ "'")) with false. exact IH.
Qed.
Lemma dget_qb_name b : dget ".name" (qb b) = dget ".name" b.
Proof.
  induction b as [|[k v] b IH]; [reflexivity|]. cbn [qb map]. fold (qb b). unfold qkv at 1. cbn [fst snd].
  destruct (String.eqb_spec k ".type") as [->|Hn]; [exact IH|].
  destruct (startswith "." k) eqn:E; cbn [dget].
  - destruct (String.eqb ".name" k); [reflexivity|exact IH].
  - unfold quote. change (String.eqb ".name" ("'" +++ k +++ "'")) with false.
    destruct (String.eqb_spec ".name" k) as [<-|]; [discriminate|exact IH].
Qed.
Lemma qb_block b : dmem ".type" b = true -> ow_block b = tpl_block (qb b).
Proof.
  intros H. unfold ow_block, tpl_block, tpl_get. rewrite dget_qb_type, dget_qb_name.
  unfold dmem in H. destruct (dget ".type" b) as [v|]; [|discriminate]. cbn [option_map py_str]. unfold quote.
  assert (E : forall l, fold_right (fun kv acc => ow_item kv +++ acc) "" l = fold_right (fun kv acc => tpl_item kv +++ acc) "" (map qkv l)).
  { induction l as [|kv l IH]; [reflexivity|]. cbn [map fold_right]. rewrite IH, qkv_item. reflexivity. }
  rewrite E. rewrite !app_assoc_s. reflexivity.
Qed.
Definition qp (q : string * list dict) : string * list dict := (fst q, map qb (snd q)).
Definition as_data (l : list (string * list dict)) : dict := map (fun p => (fst p, VList (map VDict (snd p)))) l.
Lemma blocks_of_dicts bs : blocks_of (VList (map VDict bs)) = Ok bs.
Proof.
  unfold blocks_of. cbn [as_list bind]. induction bs as [|b bs IH]; [reflexivity|]. cbn [map mapM as_dict bind] in *. rewrite IH. reflexivity.
Qed.
Lemma ow_uci_quoted l : (forall q b, In q l -> In b (snd q) -> dmem ".type" b = true) ->
  ow_uci (as_data l) = tpl_uci (as_data (map qp l)).
Proof.
  unfold ow_uci, tpl_uci.
  set (f := fun acc kv => do bs <- blocks_of (snd kv); Ok (acc +++ ow_package (fst kv) bs)).
  set (g := fun acc kv => do bs <- blocks_of (snd kv); Ok (acc +++ tpl_package (fst kv) bs)).
  intros H. enough (G : forall acc, foldM f acc (as_data l) = foldM g acc (as_data (map qp l))) by apply G.
  induction l as [|[p bs] l IH]; intros acc; [reflexivity|].
  change (as_data ((p, bs) :: l)) with ((p, VList (map VDict bs)) :: as_data l).
  change (as_data (map qp ((p, bs) :: l))) with ((p, VList (map VDict (map qb bs))) :: as_data (map qp l)).
  cbn [foldM]. replace (f acc (p, VList (map VDict bs))) with (@Ok string (acc +++ ow_package p bs)) by (unfold f; cbn [fst snd]; rewrite blocks_of_dicts; reflexivity).
  replace (g acc (p, VList (map VDict (map qb bs)))) with (@Ok string (acc +++ tpl_package p (map qb bs))) by (unfold g; cbn [fst snd]; rewrite blocks_of_dicts; reflexivity).
  cbn [bind].
  assert (E : ow_package p bs = tpl_package p (map qb bs)).
  { unfold ow_package, tpl_package. do 7 f_equal.
    assert (H' : forall b, In b bs -> dmem ".type" b = true) by (intros b Hb; apply (H (p, bs) b); [left; reflexivity|exact Hb]).
    clear -H'. induction bs as [|b bs IH]; [reflexivity|]. cbn [map fold_right]. rewrite qb_block by (apply H'; left; reflexivity).
    f_equal. apply IH. intros x Hx. apply H'. right. exact Hx. }
  rewrite E. apply IH. intros q b Hq. apply H. right. exact Hq.
Qed.

(** Sections *)
Lemma nochar_quote c s : Ascii.eqb "'" c = false -> nochar c (quote s) = nochar c s.
Proof.
  intros H. unfold quote. rewrite !nochar_app. assert (E : nochar c "'" = true) by (rewrite nochar_cons, H; reflexivity).
  rewrite E, andb_true_r. reflexivity.
Qed.
Lemma solid_quote s : sforall (fun c => negb (is_space c)) s = true -> solid (quote s).
Proof. intros H. split; [discriminate|]. unfold quote. rewrite !sforall_app, H. reflexivity. Qed.
Lemma S4_quotes w k t : contains S4 w = false -> contains S4 k = false -> contains S4 t = false ->
  contains S4 (w +++ quote k +++ " '" +++ t +++ "'") = false.
Proof.
  intros Hw Hk Ht. unfold quote.
  replace (w +++ ("'" +++ k +++ "'") +++ " '" +++ t +++ "'")
    with (w +++ String "'" (k +++ String "'" (" " +++ String "'" (t +++ String "'" "")))) by (rewrite !app_assoc_s; reflexivity).
  rewrite !contains_sep by (reflexivity || discriminate). rewrite Hw, Hk, Ht. reflexivity.
Qed.
Lemma bare_S4 s : bare s -> contains S4 s = false.
Proof. intros H. apply bare_chars in H as (_ & H & _). rewrite S4_def. apply contains_nochar. exact H. Qed.
Lemma body_qb b : (forall k v, In (k, v) b -> True) -> body_lines (qb b) =
  flat_map (fun kv => if startswith "." (fst kv) then [] else map (opt_line (fst (item_texts (snd kv))) (quote (fst kv))) (snd (item_texts (snd kv)))) b.
Proof.
  intros _. unfold body_lines, qb. induction b as [|[k v] b IH]; [reflexivity|]. cbn [map flat_map]. rewrite IH. f_equal.
  unfold qkv, opt_lines. cbn [fst snd]. destruct (String.eqb_spec k ".type") as [->|Hn]; [reflexivity|].
  destruct (startswith "." k) eqn:E; cbn [fst snd]; [rewrite E; reflexivity|]. reflexivity.
Qed.
Lemma body_qb_form b l : section_ok b -> In l (body_lines (qb b)) ->
  exists w k t, l = opt_line w (quote k) t /\ (w = "option" \/ w = "list") /\ word k /\ plain t.
Proof.
  intros (_ & _ & Hs) H. rewrite body_qb in H by trivial. apply in_flat_map in H as ([k v] & Hin & H). cbn [fst snd] in H.
  destruct (startswith "." k) eqn:E; [destruct H|]. apply in_map_iff in H as (t & <- & Ht).
  destruct (Hs k v Hin E (item_text_value v t Ht)) as [Hk Hv].
  exists (fst (item_texts v)), k, t. split; [reflexivity|]. split; [apply item_word|]. split; [exact Hk|]. exact (item_text_plain v t Hv Ht).
Qed.
Lemma oneline_qopt w k t : (w = "option" \/ w = "list") -> word k -> plain t -> oneline (opt_line w (quote k) t) = true.
Proof.
  intros Hw (_ & Hk) Ht. apply bare_chars in Hk as (Hk & _). apply plain_chars in Ht as (Ht & _).
  unfold oneline, opt_line. rewrite !nochar_app, nochar_quote, Hk, Ht by reflexivity. destruct Hw as [->| ->]; reflexivity.
Qed.
Lemma S4_qopt w k t : (w = "option" \/ w = "list") -> word k -> plain t -> contains S4 (opt_line w (quote k) t) = false.
Proof.
  intros Hw (_ & Hk) Ht. apply plain_chars in Ht as (_ & _ & _ & Ht). unfold opt_line.
  replace (w +++ " " +++ quote k +++ " '" +++ t +++ "'") with ((w +++ " ") +++ quote k +++ " '" +++ t +++ "'") by (rewrite !app_assoc_s; reflexivity).
  apply S4_quotes; [destruct Hw as [->| ->]; reflexivity|apply bare_S4; exact Hk|exact Ht].
Qed.
Lemma qb_tail b t n : sec_type b t n -> head_tail (qb b) = quote t +++ " '" +++ n +++ "'".
Proof. intros (H1 & _ & H2 & _). unfold head_tail, tpl_get. rewrite dget_qb_type, dget_qb_name, H1, H2. reflexivity. Qed.
Lemma qb_sect_lines b : section_ok b -> sect_lines (qb b).
Proof.
  intros Hs. split.
  - pose proof Hs as (_ & (t & n & S1 & [Sw S2] & S3 & S4') & _). rewrite (qb_tail b t n) by (repeat split; assumption).
    apply bare_chars in S2 as (S2 & _). apply bare_chars in S4' as (S4' & _).
    unfold oneline. rewrite !nochar_app, nochar_quote, S2, S4' by reflexivity. reflexivity.
  - apply forallb_forall. intros l Hl. destruct (body_qb_form b l Hs Hl) as (w & k & t & -> & Hw & Hk & Ht). apply oneline_qopt; assumption.
Qed.
Lemma quoted_lines_ok l : (forall q, In q l -> pk_ok q) -> lines_ok (map qp l).
Proof.
  intros H x Hx. apply in_flat_map in Hx as ([p bs] & Hq & Hx). apply in_map_iff in Hq as ([p' bs'] & E & Hq). injection E as -> <-.
  destruct (H _ Hq) as [Hp Hb]. cbn [fst snd] in *.
  unfold pkg_lines in Hx. destruct Hx as [<-|[<-|Hx]].
  - apply (lines_ok_of l H). unfold all_lines. apply in_flat_map. exists (p, bs'). split; [exact Hq|]. left. reflexivity.
  - split; reflexivity.
  - apply in_app_iff in Hx as [Hx|[<-|[]]]; [|split; reflexivity].
    apply in_flat_map in Hx as (b & Hbin & Hx). apply in_map_iff in Hbin as (b' & <- & Hbin). pose proof (Hb b' Hbin) as Hs.
    destruct Hx as [<-|Hx].
    + rewrite head_tail_line. destruct (qb_sect_lines b' Hs) as [Ho _]. split; [unfold oneline; rewrite !nochar_app; exact Ho|].
      pose proof Hs as (_ & (t & n & S1 & [Sw S2] & S3 & S4') & _). rewrite (qb_tail b' t n) by (repeat split; assumption).
      change ("config" +++ " " +++ quote t +++ " '" +++ n +++ "'") with ("config " +++ quote t +++ " '" +++ n +++ "'").
      apply S4_quotes; [reflexivity|apply bare_S4; assumption|apply bare_S4; assumption].
    + apply in_app_iff in Hx as [Hx|[<-|[]]]; [|split; reflexivity].
      destruct (body_qb_form b' x Hs Hx) as (w & k & t & -> & Hw & Hk & Ht).
      split; [apply oneline_qopt; assumption|apply S4_qopt; assumption].
Qed.
Lemma typed q b : pk_ok q -> In b (snd q) -> dmem ".type" b = true.
Proof. intros [_ H] Hb. destruct (H b Hb) as (_ & (t & n & S1 & _) & _). unfold dmem. rewrite S1. reflexivity. Qed.
Lemma ow_render_canon l : (forall q, In q l -> pk_ok q) -> ow_render_uci (as_data l) = Ok (canon (map qp l)).
Proof.
  intros H. unfold ow_render_uci. rewrite ow_uci_quoted by (intros q b Hq; apply (typed q b (H q Hq))).
  exact (render_canon (map qp l) (quoted_lines_ok l H)).
Qed.

(** ** Reading *)
Lemma parse_line_quoted acc w k t : (w = "option" \/ w = "list") -> word k -> plain t ->
  parse_line acc (TAB +++ opt_line w (quote k) t) = parse_line acc (TAB +++ opt_line w k t).
Proof.
  intros Hw Hk Ht. rewrite (parse_line_opt acc w k t Hw Hk Ht).
  unfold parse_line. rewrite <- (app_nil_s (opt_line w (quote k) t)).
  rewrite strip_tight by (reflexivity || (apply opt_tight; exact Hw)).
  rewrite line_match_key; [|exact Hw|apply solid_quote; apply word_solid; exact Hk]. cbv iota beta zeta.
  apply plain_chars in Ht as (_ & T1 & T2 & _). rewrite strip_quotes_quoted by assumption.
  destruct Hk as [_ Hk]. apply bare_chars in Hk as (_ & _ & K1 & K2 & _). unfold quote. rewrite strip_quotes_quoted by assumption. reflexivity.
Qed.
Lemma parse_quoted b : (forall k v, In (k, v) b -> startswith "." k = false -> uci_value v <> None -> word k /\ writable v) ->
  forall acc, foldM parse_line acc (topts (qb b)) = foldM parse_line acc (topts b).
Proof.
  unfold topts. induction b as [|[k v] b IH]; intros Hok acc; [reflexivity|].
  cbn [qb map]. fold (qb b). unfold body_lines in *. cbn [flat_map]. rewrite !map_app, !foldM_app.
  assert (E : foldM parse_line acc (map (fun l => TAB +++ l) (opt_lines (qkv (k, v)))) = foldM parse_line acc (map (fun l => TAB +++ l) (opt_lines (k, v)))).
  { unfold opt_lines, qkv. cbn [fst snd]. destruct (String.eqb_spec k ".type") as [->|Hn]; [reflexivity|].
    destruct (startswith "." k) eqn:E; cbn [fst snd]; [rewrite E; reflexivity|].
    change (startswith "." (quote k)) with false. cbv iota.
    assert (Hts : forall t, In t (snd (item_texts v)) -> word k /\ plain t).
    { intros t Ht. destruct (Hok k v (or_introl eq_refl) E (item_text_value v t Ht)) as [Hk Hv]. split; [exact Hk|exact (item_text_plain v t Hv Ht)]. }
    clear IH Hok. revert acc. induction (snd (item_texts v)) as [|t ts IH]; intros acc; [reflexivity|]. cbn [map foldM].
    destruct (Hts t (or_introl eq_refl)) as [Hk Ht]. rewrite parse_line_quoted by (apply item_word || assumption).
    destruct (parse_line acc _); [|reflexivity]. cbn [bind]. apply IH. intros x Hx. apply Hts. right. exact Hx. }
  rewrite E. clear E. destruct (foldM parse_line acc (map (fun l => TAB +++ l) (opt_lines (k, v)))); [|reflexivity]. cbn [bind]. apply IH. intros k' v' Hin. apply Hok. right. exact Hin.
Qed.
Lemma topts_plain b : sect_lines b -> forallb oneline (topts b) = true.
Proof.
  intros [_ Hb]. unfold topts. rewrite forallb_forall in *. intros x Hx. apply in_map_iff in Hx as (y & <- & Hy).
  unfold oneline. rewrite nochar_app. apply andb_true_iff. split; [reflexivity|apply Hb; exact Hy].
Qed.
Lemma parse_block_quoted b i : section_ok b -> parse_block i (head_tail (qb b) +++ J (topts (qb b))) = Ok (rb b).
Proof.
  intros Hs. pose proof (sect_text_of b Hs) as (_ & _ & Hp). rewrite <- (Hp i). pose proof (qb_sect_lines b Hs) as Hq.
  unfold parse_block. rewrite !split_J by (apply Hq || (apply topts_plain; exact Hq) || (apply head_oneline; exact Hs) || (apply topts_oneline; exact Hs)).
  pose proof Hs as (_ & (t & n & S1 & S2 & S3 & S4') & Hok).
  assert (E : head_tail b = t +++ " '" +++ n +++ "'") by (unfold head_tail, tpl_get; rewrite S1, S3; reflexivity).
  rewrite E. rewrite (qb_tail b t n) by (repeat split; assumption || apply S2).
  rewrite split_ws_solid by (assumption || (apply solid_quote; apply word_solid; exact S2)). rewrite split_ws_head by assumption. cbv zeta.
  pose proof S2 as [_ S2']. apply bare_chars in S2' as (_ & _ & K1 & K2 & _).
  assert (strip_quotes t = t) as -> by (apply strip_quotes_id; assumption).
  assert (strip_quotes (quote t) = t) as -> by (apply strip_quotes_quoted; assumption).
  rewrite parse_quoted by exact Hok. reflexivity.
Qed.
Lemma tight_quote s : tight (quote s).
Proof.
  unfold quote. assert (T : tight "'").
  { split; [discriminate|]. split; intros; [inversion H; reflexivity|]. apply (f_equal srev) in H. rewrite srev_snoc in H. inversion H; reflexivity. }
  apply tight_app; exact T.
Qed.
Lemma qb_tight b : section_ok b -> tight (head_tail (qb b) +++ J (topts (qb b))).
Proof.
  intros Hs. pose proof Hs as (_ & (t & n & S1 & S2 & S3 & S4') & _). rewrite (qb_tail b t n) by (repeat split; assumption || apply S2).
  destruct (list_snoc_view (body_lines (qb b))) as [El|(ls & l0 & El)].
  - unfold topts. rewrite El. cbn [map J]. rewrite app_nil_s. change (quote t +++ " '" +++ n +++ "'") with (quote t +++ " " +++ quote n).
    apply tight_app; apply tight_quote.
  - destruct (body_qb_form b l0 Hs) as (w & k & x & -> & Hw & _); [rewrite El; apply in_app_iff; right; left; reflexivity|].
    unfold topts. rewrite El, map_app, J_app. cbn [map J]. rewrite app_nil_s.
    replace ((quote t +++ " '" +++ n +++ "'") +++ J (map (fun l => TAB +++ l) ls) +++ NL +++ TAB +++ opt_line w (quote k) x)
      with (quote t +++ ((" '" +++ n +++ "'") +++ J (map (fun l => TAB +++ l) ls) +++ NL +++ TAB) +++ opt_line w (quote k) x) by (rewrite !app_assoc_s; reflexivity).
    apply tight_app; [apply tight_quote|apply opt_tight; exact Hw].
Qed.
Definition read_block (b : dict) : dict := match parse_block 0 (head_tail b +++ J (topts b)) with Ok d => d | Err _ => [] end.
Lemma qb_text b : section_ok b -> sect_text read_block (qb b).
Proof.
  intros Hs. split; [apply qb_sect_lines; exact Hs|]. split; [apply qb_tight; exact Hs|]. intros i. unfold read_block.
  rewrite !parse_block_quoted by exact Hs. reflexivity.
Qed.
Lemma ow_canon_parse l : (forall q, In q l -> pk_ok q) -> NoDup (map fst l) -> parse_text (canon (map qp l)) = parse_text (canon l).
Proof.
  intros Hok Hnd. rewrite canon_gtext, (gtext_reads read_block), gaps_fst.
  - rewrite canon_parse by assumption. f_equal. rewrite map_map. apply map_ext_in. intros [p bs] Hq. unfold rp, rp_of, qp. cbn [fst snd].
    do 2 f_equal. rewrite map_map. apply map_ext_in. intros b Hb. unfold read_block. rewrite parse_block_quoted; [reflexivity|].
    apply (Hok _ Hq). exact Hb.
  - intros qn Hin. apply (in_map fst) in Hin. rewrite gaps_fst in Hin. apply in_map_iff in Hin as ([p bs] & E & Hq). rewrite <- E.
    destruct (Hok _ Hq) as [Hp Hb]. split; [exact Hp|]. cbn [qp fst snd]. intros b Hbin. apply in_map_iff in Hbin as (b' & <- & Hbin).
    apply qb_text, Hb, Hbin.
  - rewrite gaps_fst, map_map. exact Hnd.
Qed.
Theorem ow_text_reads d text : data_ok d -> render_uci d = Ok text ->
  exists text', ow_render_uci d = Ok text' /\ parse_text text' = parse_text text.
Proof.
  intros Hd Hr. destruct (data_pkgs d Hd) as (l & -> & Hl & Hn). rewrite (render_canon l (lines_ok_of l Hl)) in Hr. injection Hr as <-.
  exists (canon (map qp l)). split; [exact (ow_render_canon l Hl)|apply ow_canon_parse; assumption].
Qed.
