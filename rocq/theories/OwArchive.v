(** * OwArchive: the archive of the OpenWISP 1.x backend (proofs only) *)
From Verif Require Import PyBase PyLemmas StrLemmas SortLemmas Files Uci SpecUci SpecUciMore FilesProofs UciProofs UciParseProofs UciRoundTrip UciMore.
From Verif Require Import Merge Backend Conv OpenWrt OpenWisp SpecFiles SpecOpenWisp WgArchive OwProofs.

(** ** Lines *)
Lemma quoted_section b : dmem ".type" b = true -> (head_line (qb b) :: topts (qb b))%list = ow_section_lines b.
Proof.
  intros Ht. unfold ow_section_lines. f_equal.
  - unfold head_line, tpl_get, text_at. rewrite dget_qb_type, dget_qb_name. unfold dmem in Ht. destruct (dget ".type" b); [|discriminate].
    cbn [option_map py_str]. unfold quote. rewrite !app_assoc_s. reflexivity.
  - unfold topts. rewrite body_qb by trivial. rewrite map_flat_map. apply flat_map_ext. intros [k v]. unfold ow_option_lines. cbn [fst snd].
    destruct (startswith "." k); [reflexivity|]. rewrite map_map.
    assert (E : forall w t, TAB +++ opt_line w (quote k) t = TAB +++ w +++ " '" +++ k +++ "' '" +++ t +++ "'").
    { intros w t. unfold opt_line, quote. rewrite !app_assoc_s. reflexivity. }
    destruct v as [|x|x|x|[|c s]|[|x l]|[|x l]]; cbn [item_texts fst snd map uci_value py_str]; try reflexivity; rewrite ?E; try reflexivity.
    + rewrite !map_map. f_equal. apply map_ext. intros y. rewrite E. reflexivity.
    + rewrite !map_map. f_equal. apply map_ext. intros y. rewrite E. reflexivity.
Qed.
Lemma quoted_body bs : (forall b, In b bs -> dmem ".type" b = true) ->
  cbody (map qb bs) = flat_map (fun b => EmptyString :: ow_section_lines b) bs.
Proof.
  intros H. unfold cbody. induction bs as [|b bs IH]; [reflexivity|]. cbn [map flat_map]. rewrite quoted_section by (apply H; left; reflexivity).
  rewrite IH by (intros x Hx; apply H; right; exact Hx). reflexivity.
Qed.

(** ** Splitting at packages *)
Lemma split_sub_pass cur s Y : contains "package " s = false ->
  split_sub "package " 0 cur (s +++ String NLc Y) = split_sub "package " 0 (String NLc (srev_onto s cur)) Y.
Proof.
  revert cur; induction s as [|c s IH]; intros cur H.
  - reflexivity.
  - cbn [contains] in H. apply orb_false_iff in H as [H1 H2]. cbn [String.append split_sub].
    change (String c (s +++ String NLc Y)) with (String c s +++ String NLc Y). rewrite startswith_sep by reflexivity. rewrite H1.
    cbn [srev_onto]. apply IH. exact H2.
Qed.
Lemma split_sub_hit cur Y : split_sub "package " 0 cur ("package " +++ Y) = srev cur :: split_sub "package " 0 EmptyString Y.
Proof. reflexivity. Qed.
Lemma contains_J sub ls : nochar NLc sub = true -> sub <> EmptyString -> forall p, contains sub p = false ->
  (forall l, In l ls -> contains sub l = false) -> contains sub (p +++ J ls) = false.
Proof.
  intros Hs Hn. induction ls as [|l ls IH]; intros p Hp H; [cbn [J]; rewrite app_nil_s; exact Hp|].
  cbn [J]. change (NL +++ l +++ J ls) with (String NLc (l +++ J ls)). rewrite contains_sep by assumption. rewrite Hp. cbn [orb].
  apply IH; [apply H; left; reflexivity|]. intros x Hx. apply H. right. exact Hx.
Qed.
Definition quiet_pkg (q : string * list dict) : Prop :=
  contains "package " (fst q) = false /\ forall l, In l (cbody (snd q)) -> contains "package " l = false.
Lemma nls_snoc n : nls (S n) = nls n +++ NL.
Proof. induction n as [|n IH]; [reflexivity|]. rewrite nls_S, IH at 1. reflexivity. Qed.
Lemma split_sub_gtext l : (forall qn, In qn l -> quiet_pkg (fst qn)) -> forall cur,
  split_sub "package " 0 cur (gtext l) =
    srev cur :: map (fun qn => (fst (fst qn) +++ J (cbody (snd (fst qn)))) +++ nls (S (snd qn))) l.
Proof.
  induction l as [|[[p bs] n] l IH]; intros Hok cur; [reflexivity|].
  destruct (Hok _ (or_introl eq_refl)) as [Hp Hb]. cbn [fst snd] in *.
  cbn [gtext fold_right fst snd]. fold (gtext l).
  change (pkg_head p +++ J (cbody bs) +++ nls (S n) +++ gtext l) with ("package " +++ (p +++ J (cbody bs) +++ nls (S n) +++ gtext l)).
  rewrite split_sub_hit. f_equal.
  replace (p +++ J (cbody bs) +++ nls (S n) +++ gtext l) with ((p +++ J (cbody bs ++ repeat EmptyString n)) +++ String NLc (gtext l)).
  2:{ rewrite J_app, <- nls_J, nls_snoc, !app_assoc_s. reflexivity. }
  rewrite split_sub_pass.
  - rewrite IH by (intros x Hx; apply Hok; right; exact Hx). cbn [map fst snd]. f_equal.
    rewrite srev_cons, srev_srev_onto. cbn [srev srev_onto String.append]. rewrite nls_snoc, J_app, <- nls_J, !app_assoc_s. reflexivity.
  - apply contains_J; [reflexivity|discriminate|exact Hp|]. intros x Hx. apply in_app_iff in Hx as [Hx|Hx]; [apply Hb; exact Hx|].
    apply repeat_spec in Hx. subst x. reflexivity.
Qed.

(** ** The members of the packages *)
Definition ow_contents (qn : (string * list dict) * nat) : string :=
  pkg_head (fst (fst (regap qn))) +++ J (cbody (snd (fst (regap qn)))) +++ nls (S (snd (regap qn))).
Definition ow_member (qn : (string * list dict) * nat) : member :=
  {| m_name := "uci/" +++ fst (fst qn) +++ ".conf"; m_mode := 420; m_mtime := 0; m_data := ow_contents qn |}.
Lemma plain_contents qn : pkg_plain (fst qn) ->
  exists lines, split_char NLc ((fst (fst qn) +++ J (cbody (snd (fst qn)))) +++ nls (S (snd qn))) = fst (fst qn) :: lines /\
    join NL (skipn 2 (fst (fst qn) :: lines)) = pkg_contents qn.
Proof.
  destruct qn as [[p bs] n]. intros [P3 Hb]. cbn [fst snd] in *. apply no_char_spec in P3.
  rewrite app_assoc_s, nls_J, <- J_app. eexists. split.
  - apply split_J; [exact P3|]. rewrite forallb_app_iff, cbody_plain by exact Hb. apply oneline_repeat.
  - destruct bs as [|b bs].
    + cbn [cbody flat_map app skipn repeat]. apply join_repeat.
    + unfold cbody. cbn [flat_map app skipn]. fold (cbody bs). rewrite join_J. unfold pkg_contents. cbn [fst snd].
      rewrite J_app, <- nls_J. reflexivity.
Qed.
Lemma ow_contents_eq qn : "package " +++ fst (fst qn) +++ NL +++ NL +++ pkg_contents qn = ow_contents qn.
Proof.
  pose proof (regap_text qn EmptyString) as H. rewrite !app_nil_s in H. exact H.
Qed.
Lemma ow_members l : (forall qn, In qn l -> pkg_plain (fst qn) /\ quiet_pkg (fst qn)) -> ascii_text (gtext l) ->
  ow_packages (gtext l) [] = Ok (map ow_member l).
Proof.
  intros Hok Ha. unfold ow_packages. rewrite (split_sub_gtext l (fun qn H => proj2 (Hok qn H))). change (srev "") with EmptyString.
  cbn [remove_first_empty]. rewrite eqb_refl. pose proof (gtext_ascii l Ha) as Hasc. clear Ha.
  change (map ow_member l) with ([] ++ map ow_member l)%list. generalize (@nil member).
  induction l as [|qn l IH]; intros tar; [cbn; rewrite app_nil_r; reflexivity|]. cbn [map foldM].
  destruct (plain_contents qn (proj1 (Hok _ (or_introl eq_refl)))) as (lines & E1 & E2). rewrite E1. cbv zeta. rewrite E2.
  rewrite ow_contents_eq.
  unfold add_file at 1. change (parse_mode DEFAULT_FILE_MODE) with (Some 420%N). cbn [bind].
  assert (Hc : ascii_text (ow_contents qn)).
  { rewrite <- ow_contents_eq. specialize (Hasc qn (or_introl eq_refl)). rewrite !ascii_app. split; [reflexivity|].
    pose proof (contents_ascii qn Hasc). rewrite ascii_app in Hasc. repeat split; tauto. }
  rewrite (UciMore.utf8_ascii _ Hc), stake_all.
  rewrite IH by (intros x Hx; (apply Hok || apply Hasc); right; exact Hx).
  rewrite <- app_assoc. reflexivity.
Qed.
Lemma ow_member_spec p bs n : no_char NLc p -> (forall b, In b bs -> section_ok b) ->
  conf_member p bs (ow_member ((p, map qb bs), n)).
Proof.
  intros Hp Hb. repeat split. unfold ow_member, ow_contents. cbn [m_data]. set (g := snd (regap ((p, map qb bs), n))).
  exists (repeat EmptyString g). split.
  - intros l Hl. apply repeat_spec in Hl. exact Hl.
  - unfold regap. cbn [fst snd].
    rewrite quoted_body by (intros b H; destruct (Hb b H) as (_ & (t & x & S1 & _) & _); unfold dmem; rewrite S1; reflexivity).
    rewrite nls_J, <- J_app.
    change (snd (fst (p, map qb bs), match map qb bs with [] => Nat.max 1 n | _ => n end)) with g.
    rewrite split_J.
    + reflexivity.
    + unfold oneline, pkg_head. rewrite nochar_app. apply no_char_spec in Hp. rewrite Hp. reflexivity.
    + rewrite forallb_app_iff, oneline_repeat, andb_true_r.
      rewrite <- quoted_body by (intros b H; destruct (Hb b H) as (_ & (t & x & S1 & _) & _); unfold dmem; rewrite S1; reflexivity).
      apply cbody_plain. intros b H. apply in_map_iff in H as (b' & <- & H). apply qb_sect_lines, Hb, H.
Qed.
Lemma quiet_of p bs : (forall b, In b bs -> section_ok b) -> quiet p bs ->
  quiet_pkg (p, map qb bs) /\ ascii_text (p +++ J (cbody (map qb bs))).
Proof.
  intros Hb (Q1 & Q2 & Q3).
  assert (E : cbody (map qb bs) = flat_map (fun b => EmptyString :: ow_section_lines b) bs).
  { apply quoted_body. intros b H; destruct (Hb b H) as (_ & (t & x & S1 & _) & _); unfold dmem; rewrite S1; reflexivity. }
  assert (G : forall l, In l (cbody (map qb bs)) -> ascii_text l /\ contains "package " l = false).
  { intros l Hl. rewrite E in Hl. apply in_flat_map in Hl as (b & Hin & [<-|Hl]); [split; reflexivity|]. exact (Q3 b l Hin Hl). }
  split; [split; [exact Q2|intros l Hl; apply G; exact Hl]|].
  rewrite ascii_app. split; [exact Q1|]. apply ascii_J. intros l Hl. apply G. exact Hl.
Qed.
Lemma ow_archive_packages l text : (forall q, In q l -> pk_ok q) -> (forall q, In q l -> quiet (fst q) (snd q)) ->
  ow_render_uci (as_data l) = Ok text ->
  exists ms, ow_packages text [] = Ok ms /\ Forall2 (fun q m => conf_member (fst q) (snd q) m) l ms.
Proof.
  intros Hok Hq Hr. rewrite ow_render_canon in Hr by exact Hok. injection Hr as <-. rewrite canon_gtext.
  exists (map ow_member (gaps (map qp l))). split.
  - apply ow_members.
    + intros qn Hin. apply (in_map fst) in Hin. rewrite gaps_fst in Hin. apply in_map_iff in Hin as ([p bs] & E & Hin). rewrite <- E.
      destruct (Hok _ Hin) as [(_ & _ & P3 & _) Hb]. cbn [fst snd] in *. split; [split; [exact P3|]|apply quiet_of; [exact Hb|exact (Hq _ Hin)]].
      cbn [qp fst snd]. intros b H. apply in_map_iff in H as (b' & <- & H). apply qb_sect_lines, Hb, H.
    + rewrite <- canon_gtext. assert (G : forall qn, In qn (gaps (map qp l)) -> ascii_text (fst (fst qn) +++ J (cbody (snd (fst qn))))).
      { intros qn Hin. apply (in_map fst) in Hin. rewrite gaps_fst in Hin. apply in_map_iff in Hin as ([p bs] & E & Hin). rewrite <- E.
        apply quiet_of; [apply (Hok _ Hin)|exact (Hq _ Hin)]. }
      rewrite canon_gtext. induction (gaps (map qp l)) as [|qn g IH]; [reflexivity|]. cbn [gtext fold_right]. fold (gtext g).
      pose proof (G qn (or_introl eq_refl)) as G1. rewrite ascii_app in G1. rewrite !ascii_app. unfold pkg_head. rewrite ascii_app.
      split; [split; [reflexivity|tauto]|]. split; [tauto|]. split; [apply nls_ascii|]. apply IH. intros x Hx. apply G. right. exact Hx.
  - assert (G : forall g : list ((string * list dict) * nat), map fst g = map qp l ->
      Forall2 (fun q m => conf_member (fst q) (snd q) m) l (map ow_member g)).
    { clear Hq. induction l as [|[p bs] l IH]; intros [|[q n] g] E; try discriminate; [constructor|]. cbn [map fst] in E. injection E as -> E.
      constructor; [|apply IH; [intros x Hx; apply Hok; right; exact Hx|exact E]].
      destruct (Hok _ (or_introl eq_refl)) as [(_ & _ & P3 & _) Hb]. apply ow_member_spec; assumption. }
    apply G. apply gaps_fst.
Qed.
Lemma ow_packages_names text tar0 tar m : ow_packages text tar0 = Ok tar -> In m tar -> In m tar0 \/ exists n, m_name m = "uci/" +++ n +++ ".conf".
Proof.
  unfold ow_packages. generalize (remove_first_empty (split_sub "package " 0 "" text)). intros pieces. revert tar0.
  induction pieces as [|p pieces IH]; intros tar0 H Hin; [injection H as <-; left; exact Hin|].
  cbn [foldM] in H. apply bind_Ok in H as (t & Ht & H). unfold add_file in Ht. change (parse_mode DEFAULT_FILE_MODE) with (Some 420%N) in Ht.
  injection Ht as <-. apply IH in H as [H|H]; [|right; exact H|exact Hin].
  apply in_app_iff in H as [H|[<-|[]]]; [left; exact H|]. right. eexists. reflexivity.
Qed.
