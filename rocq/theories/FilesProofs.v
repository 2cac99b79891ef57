(** * FilesProofs: proofs about Files.v *)
From Verif Require Import PyBase PyLemmas Files SpecFiles.

Lemma path_char_class c : path_char c = true <-> path_class c.
Proof.
  unfold path_char, path_class. rewrite !orb_true_iff, !Ascii.eqb_eq. tauto.
Qed.

(** ** find_sub *)
Lemma find_sub_Some sub s n : find_sub sub s = Some n ->
  exists a b, s = a +++ sub +++ b /\ String.length a = n /\
    forall a' b', s = a' +++ sub +++ b' -> (n <= String.length a')%nat.
Proof.
  revert n; induction s as [|c s IH]; intros n; cbn [find_sub].
  - destruct (startswith sub "") eqn:E; [|discriminate]. intros H; inversion H; subst.
    apply startswith_true in E as [r Hr]. exists EmptyString, r. repeat split; auto. intros; lia.
  - destruct (startswith sub (String c s)) eqn:E.
    + intros H; inversion H; subst. apply startswith_true in E as [r Hr].
      exists EmptyString, r. repeat split; auto. intros; lia.
    + destruct (find_sub sub s) as [m|]; [|discriminate]. simpl. intros H; inversion H; subst.
      destruct (IH m eq_refl) as (a & b & -> & Hl & Hmin). exists (String c a), b. split; [reflexivity|].
      split; [simpl; congruence|]. intros a' b' E'. destruct a' as [|c' a'].
      * exfalso. assert (startswith sub (String c (a +++ sub +++ b)) = true); [|congruence].
        apply startswith_true. exists b'. exact E'.
      * inversion E'. simpl. apply le_n_S. eapply Hmin. eassumption.
Qed.
Lemma find_sub_None sub s : find_sub sub s = None <-> contains sub s = false.
Proof.
  induction s as [|c s IH]; cbn [find_sub contains].
  - destruct (startswith sub ""); simpl; split; congruence.
  - destruct (startswith sub (String c s)); simpl; [split; congruence|].
    destruct (find_sub sub s); simpl; rewrite <- IH; split; congruence.
Qed.

Lemma clean_skip a b : clean_path_from (String.length a) (a +++ b) = clean_path_from 0 b.
Proof. induction a as [|c a IH]; [reflexivity|]. cbn [String.length String.append clean_path_from]. exact IH. Qed.

Lemma sdrop2 a b s : sdrop 2 (String a (String b s)) = s. Proof. reflexivity. Qed.

(** Facts on occurrences of two closing braces *)
Lemma occ_overlap body s a b : contains "}}" (body +++ "}") = false ->
  body +++ "}}" +++ s = a +++ "}}" +++ b -> (String.length body <= String.length a)%nat.
Proof.
  revert a; induction body as [|c body IH]; intros a Hc E; [simpl; lia|].
  destruct a as [|c' a].
  - exfalso. cbn [String.append] in E. inversion E; subst.
    cbn [String.append contains] in Hc. apply orb_false_iff in Hc as [Hc _].
    destruct body as [|c2 body]; cbn [String.append] in *.
    + discriminate.
    + inversion H1; subst. cbn in Hc. discriminate.
  - cbn [String.append] in E. inversion E; subst. simpl. apply le_n_S. apply (IH a); [|assumption].
    cbn [String.append contains] in Hc. apply orb_false_iff in Hc as [_ Hc]. exact Hc.
Qed.
Lemma min_occ_body body s : (forall a b, body +++ "}}" +++ s = a +++ "}}" +++ b -> (String.length body <= String.length a)%nat) ->
  contains "}}" (body +++ "}") = false.
Proof.
  intros H. destruct (contains "}}" (body +++ "}")) eqn:E; [|reflexivity].
  apply contains_true in E as (a & b & E). exfalso.
  assert (E2 : body +++ "}}" +++ s = a +++ "}}" +++ (b +++ "}" +++ s)).
  { replace (body +++ "}}" +++ s) with ((body +++ "}") +++ "}" +++ s) by (rewrite app_assoc_s; reflexivity).
    rewrite E, !app_assoc_s. reflexivity. }
  apply H in E2. apply (f_equal String.length) in E. rewrite !length_app_s in E. simpl in E. lia.
Qed.

Lemma clean_path_spec : forall n s, (String.length s <= n)%nat -> forall clean,
  clean_path_from 0 s = Some clean -> sforall path_char clean = true -> path_text s.
Proof.
  induction n as [|n IH]; intros s Hl clean Hc Hf.
  - destruct s; [constructor|simpl in Hl; lia].
  - destruct s as [|c s]; [constructor|]. cbn [clean_path_from] in Hc.
    destruct (startswith "{{" (String c s)) eqn:Es.
    + apply startswith_true in Es as [r Er]. inversion Er; subst c s. rewrite sdrop2 in Hc.
      destruct (find_sub "}}" r) as [m|] eqn:Ef; [|discriminate].
      apply find_sub_Some in Ef as (body & rest & -> & Hm & Hmin).
      match type of Hc with option_map _ ?X = _ => destruct X as [cl|] eqn:Ecl; [|discriminate] end.
      inversion Hc; subst clean. cbn [sforall] in Hf. apply andb_true_iff in Hf as [_ Hf].
      replace (m + 3)%nat with (String.length (String "{" (body +++ "}}"))) in Ecl by (simpl; rewrite length_app_s; simpl; lia).
      assert (E1 : "{" +++ body +++ "}}" +++ rest = String "{" (body +++ "}}") +++ rest) by (cbn [String.append]; rewrite app_assoc_s; reflexivity).
      cbn [String.append] in Ecl, E1. rewrite E1 in Ecl.
      change (String "{" ((body +++ "}}") +++ rest)) with (String "{" (body +++ "}}") +++ rest) in Ecl.
      rewrite clean_skip in Ecl.
      apply (pt_var body rest).
      * apply (min_occ_body body rest). intros a b E. rewrite Hm. apply (Hmin a b E).
      * eapply IH; [|exact Ecl|exact Hf]. simpl in Hl. rewrite !length_app_s in Hl. simpl in Hl. rewrite ?length_app_s in Hl. lia.
    + destruct (Ascii.eqb c "{" || Ascii.eqb c "}"); [discriminate|].
      destruct (clean_path_from 0 s) as [cl|] eqn:Ecl; [|discriminate]. inversion Hc; subst clean.
      cbn [sforall] in Hf. apply andb_true_iff in Hf as [Hf1 Hf2].
      constructor; [apply path_char_class; exact Hf1|]. eapply IH; [simpl in Hl; lia|exact Ecl|exact Hf2].
Qed.
Lemma path_class_brace c : path_class c -> c <> "{"%char /\ c <> "}"%char.
Proof.
  intros H. apply path_char_class in H. split; intros ->; discriminate.
Qed.
Lemma clean_step c s : clean_path_from 0 (String c s) =
  if startswith "{{" (String c s) then
    match find_sub "}}" (sdrop 2 (String c s)) with
    | None => None
    | Some n => option_map (String "x") (clean_path_from (n + 3) s)
    end
  else if Ascii.eqb c "{"%char || Ascii.eqb c "}"%char then None
  else option_map (String c) (clean_path_from 0 s).
Proof. reflexivity. Qed.
Lemma clean_var body s : contains "}}" (body +++ "}") = false ->
  clean_path_from 0 ("{{" +++ body +++ "}}" +++ s) = option_map (String "x") (clean_path_from 0 s).
Proof.
  intros Hb. change ("{{" +++ body +++ "}}" +++ s) with (String "{" ("{" +++ body +++ "}}" +++ s)).
  rewrite clean_step. change (startswith "{{" (String "{" ("{" +++ body +++ "}}" +++ s))) with true. cbv iota.
  change (sdrop 2 (String "{" ("{" +++ body +++ "}}" +++ s))) with (body +++ "}}" +++ s).
  destruct (find_sub "}}" (body +++ "}}" +++ s)) as [m|] eqn:Ef.
  - apply find_sub_Some in Ef as (a & b & Ea & Hm & Hmin).
    assert (Hle : (m <= String.length body)%nat) by (eapply Hmin; reflexivity).
    assert (Hge : (String.length body <= String.length a)%nat) by (eapply occ_overlap; [exact Hb|exact Ea]).
    assert (m = String.length body) as -> by lia. f_equal.
    replace (String.length body + 3)%nat with (String.length ("{" +++ body +++ "}}")) by (rewrite !length_app_s; simpl; lia).
    replace ("{" +++ body +++ "}}" +++ s) with (("{" +++ body +++ "}}") +++ s) by (rewrite !app_assoc_s; reflexivity).
    apply clean_skip.
  - exfalso. apply find_sub_None in Ef.
    assert (contains "}}" (body +++ "}}" +++ s) = true) by (apply contains_true; exists body, s; reflexivity). congruence.
Qed.
Lemma clean_path_complete s : path_text s ->
  exists clean, clean_path_from 0 s = Some clean /\ sforall path_char clean = true /\ (s <> EmptyString -> clean <> EmptyString).
Proof.
  induction 1 as [|c s Hc Hs (cl & E & Hf & _)|body s Hb Hs (cl & E & Hf & _)].
  - exists EmptyString. repeat split; auto.
  - exists (String c cl). destruct (path_class_brace c Hc) as [H1 H2]. cbn [clean_path_from].
    assert (startswith "{{" (String c s) = false) as ->.
    { cbn [startswith]. destruct (Ascii.eqb_spec "{" c); [congruence|reflexivity]. }
    rewrite (proj2 (Ascii.eqb_neq _ _) H1), (proj2 (Ascii.eqb_neq _ _) H2). cbn [orb]. rewrite E.
    split; [reflexivity|]. split; [cbn [sforall]; rewrite Hf, (proj2 (path_char_class c) Hc); reflexivity|discriminate].
  - exists (String "x" cl). rewrite (clean_var body s Hb), E.
    split; [reflexivity|]. split; [cbn [sforall]; rewrite Hf; reflexivity|discriminate].
Qed.
Lemma valid_path_chars_spec s : valid_path_chars s = true <-> s <> EmptyString /\ path_text s.
Proof.
  unfold valid_path_chars. split.
  - destruct (clean_path_from 0 s) as [cl|] eqn:E; [|discriminate]. rewrite andb_true_iff, negb_true_iff, String.eqb_neq.
    intros [H1 H2]. split.
    + intros ->. apply H1. inversion E. reflexivity.
    + eapply clean_path_spec; eauto.
  - intros [H1 H2]. destruct (clean_path_complete s H2) as (cl & -> & Hf & Hn).
    rewrite Hf, andb_true_r. apply negb_true_iff. apply String.eqb_neq. auto.
Qed.

(** ** Components *)
Lemma contains1 c s : contains (String c EmptyString) s = sexists (Ascii.eqb c) s.
Proof.
  induction s as [|d s IH]; [reflexivity|]. cbn [contains sexists startswith]. rewrite IH.
  rewrite andb_true_r. reflexivity.
Qed.
Lemma split_char_nonempty sep s : split_char sep s <> [].
Proof. destruct s as [|c s]; cbn [split_char]; [discriminate|]. destruct (Ascii.eqb c sep); [discriminate|]. destruct (split_char sep s); discriminate. Qed.
Lemma split_char_join sep s : join (String sep EmptyString) (split_char sep s) = s.
Proof.
  induction s as [|c s IH]; [reflexivity|]. cbn [split_char].
  destruct (Ascii.eqb_spec c sep) as [->|Hn].
  - destruct (split_char sep s) as [|x l] eqn:E; [exfalso; eapply split_char_nonempty; eauto|].
    change (join (String sep EmptyString) (EmptyString :: x :: l)) with (String sep (join (String sep EmptyString) (x :: l))).
    rewrite IH. reflexivity.
  - destruct (split_char sep s) as [|x l] eqn:E; [exfalso; eapply split_char_nonempty; eauto|].
    destruct l as [|y l]; cbn [join String.append] in *; congruence.
Qed.
Lemma split_char_nosep sep s c : In c (split_char sep s) -> sexists (Ascii.eqb sep) c = false.
Proof.
  revert c; induction s as [|d s IH]; intros c; cbn [split_char].
  - intros [<-|[]]; reflexivity.
  - destruct (Ascii.eqb_spec d sep) as [->|Hn].
    + intros [<-|H]; [reflexivity|auto].
    + destruct (split_char sep s) as [|x l] eqn:E; [exfalso; eapply split_char_nonempty; eauto|].
      intros [<-|H]; [|apply IH; right; exact H].
      cbn [sexists]. rewrite IH by (left; reflexivity). destruct (Ascii.eqb_spec sep d); [congruence|reflexivity].
Qed.
Lemma split_char_app sep a b : sexists (Ascii.eqb sep) a = false ->
  split_char sep (a +++ String sep b) = a :: split_char sep b.
Proof.
  induction a as [|c a IH]; cbn [String.append split_char sexists].
  - intros _. rewrite Ascii.eqb_refl. reflexivity.
  - rewrite orb_false_iff. intros [H1 H2]. rewrite IH by exact H2.
    destruct (Ascii.eqb_spec c sep) as [->|]; [rewrite Ascii.eqb_refl in H1; discriminate|reflexivity].
Qed.
Lemma split_char_none sep a : sexists (Ascii.eqb sep) a = false -> split_char sep a = [a].
Proof.
  induction a as [|c a IH]; cbn [split_char sexists]; [reflexivity|].
  rewrite orb_false_iff. intros [H1 H2]. rewrite IH by exact H2.
  destruct (Ascii.eqb_spec c sep) as [->|]; [rewrite Ascii.eqb_refl in H1; discriminate|reflexivity].
Qed.
Lemma split_char_of_join sep cs : cs <> [] -> (forall c, In c cs -> sexists (Ascii.eqb sep) c = false) ->
  split_char sep (join (String sep EmptyString) cs) = cs.
Proof.
  induction cs as [|c cs IH]; intros Hn H; [congruence|].
  destruct cs as [|c2 cs].
  - cbn [join]. apply split_char_none. apply H; left; reflexivity.
  - change (join (String sep "") (c :: c2 :: cs)) with (c +++ String sep (join (String sep EmptyString) (c2 :: cs))).
    rewrite split_char_app by (apply H; left; reflexivity). f_equal. apply IH; [discriminate|].
    intros x Hx; apply H; right; exact Hx.
Qed.
Lemma components_split s cs : components_of s cs <-> cs = split_char "/" s.
Proof.
  split.
  - intros (Hn & <- & H). symmetry. apply split_char_of_join; [exact Hn|].
    intros c Hc. rewrite <- contains1. apply H; exact Hc.
  - intros ->. split; [apply split_char_nonempty|]. split; [apply split_char_join|].
    intros c Hc. rewrite contains1. eapply split_char_nosep; eauto.
Qed.
Lemma valid_component_spec c : valid_component c = true <-> safe_component c.
Proof.
  unfold valid_component, safe_component. rewrite !andb_true_iff, !negb_true_iff, !String.eqb_neq. tauto.
Qed.
Lemma path_components_member p : path_components p = split_char "/" (member_path p).
Proof. unfold path_components, member_path. destruct (startswith "/" p); reflexivity. Qed.
Lemma safe_relative_spec s : safe_relative s <-> forallb valid_component (split_char "/" s) = true.
Proof.
  unfold safe_relative. rewrite forallb_forall. split.
  - intros (cs & Hc & H) c Hin. apply components_split in Hc. subst cs. apply valid_component_spec; auto.
  - intros H. exists (split_char "/" s). split; [apply components_split; reflexivity|].
    intros c Hc. apply valid_component_spec. auto.
Qed.
Lemma valid_file_path_spec p : valid_file_path p = true <->
  p <> EmptyString /\ path_text p /\ safe_relative (member_path p).
Proof.
  unfold valid_file_path. rewrite andb_true_iff, valid_path_chars_spec, path_components_member, <- safe_relative_spec. tauto.
Qed.
(** A non-empty components list of a relative path means no leading slash *)
Lemma safe_relative_no_slash s : safe_relative s -> startswith "/" s = false.
Proof.
  intros (cs & (Hn & <- & Hsep) & H). destruct cs as [|c cs]; [congruence|].
  destruct (H c (or_introl eq_refl)) as [Hc _]. destruct c as [|a c]; [congruence|].
  pose proof (Hsep _ (or_introl eq_refl)) as E. cbn [contains] in E. apply orb_false_iff in E as [E _].
  cbn [startswith] in E. rewrite andb_true_r in E.
  destruct cs; cbn [join String.append startswith]; rewrite andb_true_r; exact E.
Qed.

(** ** Archive *)
Lemma as_dict_Ok v d : as_dict v = Ok d <-> v = VDict d.
Proof. destruct v; simpl; split; intros H; inversion H; reflexivity. Qed.
Lemma as_str_Ok v s : as_str v = Ok s <-> v = VStr s.
Proof. destruct v; simpl; split; intros H; inversion H; reflexivity. Qed.
Lemma dgetE_Ok k d v : dgetE k d = Ok v <-> dget k d = Some v.
Proof. unfold dgetE. destruct (dget k d); split; intros H; inversion H; reflexivity. Qed.

Lemma utf8_ascii s : ascii_only s = true -> utf8 s = s.
Proof.
  induction s as [|c s IH]; [reflexivity|]. cbn [ascii_only sforall utf8]. rewrite andb_true_iff. intros [H1 H2].
  rewrite H1, IH by exact H2. reflexivity.
Qed.
Lemma utf8_length s : String.length (utf8 s) = (String.length s + non_ascii_count s)%nat.
Proof.
  induction s as [|c s IH]; [reflexivity|]. cbn [utf8 String.length non_ascii_count].
  destruct (N_of_ascii c <? 128)%N; cbn [String.length]; rewrite IH; lia.
Qed.
Lemma stake_length n s : (n <= String.length s)%nat -> String.length (stake n s) = n.
Proof.
  revert s; induction n as [|n IH]; intros [|c s] H; simpl in *; try lia. rewrite IH; lia.
Qed.

(** What one file description becomes. *)
Definition file_mem0 (f : val) (m : member) : Prop :=
  exists d p c mode n, f = VDict d /\ dget "path" d = Some (VStr p) /\
    dget "contents" d = Some (VStr c) /\
    (dget "mode" d = Some (VStr mode) \/ (dget "mode" d = None /\ mode = DEFAULT_FILE_MODE)) /\
    parse_mode mode = Some n /\
    m = {| m_name := member_path p; m_mode := n; m_mtime := 0;
           m_data := stake (String.length c) (utf8 c) |}.
Lemma process_files_spec config tar0 tar1 : process_files config tar0 = Ok tar1 ->
  exists files ms, get_files config = Ok files /\ Forall2 file_mem0 files ms /\ tar1 = (tar0 ++ ms)%list.
Proof.
  unfold process_files. intros H. apply bind_Ok in H as (files & Hf & H). exists files.
  assert (G : exists ms, Forall2 file_mem0 files ms /\ tar1 = (tar0 ++ ms)%list).
  { clear Hf. revert tar0 H. induction files as [|f files IH]; intros tar0 H.
    - inversion H; subst. exists []. split; [constructor|rewrite app_nil_r; reflexivity].
    - cbn [foldM] in H. apply bind_Ok in H as (t & Ht & H).
      apply bind_Ok in Ht as (d & Hd & Ht). apply as_dict_Ok in Hd. subst f.
      apply bind_Ok in Ht as (pv & Hp & Ht). apply dgetE_Ok in Hp.
      apply bind_Ok in Ht as (p & Hps & Ht). apply as_str_Ok in Hps. subst pv.
      apply bind_Ok in Ht as (cv & Hc & Ht). apply dgetE_Ok in Hc.
      apply bind_Ok in Ht as (c & Hcs & Ht). apply as_str_Ok in Hcs. subst cv.
      apply bind_Ok in Ht as (mode & Hm & Ht). apply as_str_Ok in Hm.
      unfold add_file in Ht. destruct (parse_mode mode) as [n|] eqn:En; [|discriminate].
      inversion Ht; subst t; clear Ht.
      destruct (IH _ H) as (ms & HF & ->).
      eexists (_ :: ms). split; [|rewrite <- app_assoc; reflexivity].
      constructor; [|exact HF]. exists d, p, c, mode, n. repeat split; auto.
      destruct (dget "mode" d) as [mv|]; [left; congruence|right; split; [reflexivity|]].
      inversion Hm. reflexivity. }
  destruct G as (ms & HF & ->). eauto.
Qed.
Lemma check_files_spec files : check_files files = Ok tt ->
  forall f d p, In f files -> f = VDict d -> dget "path" d = Some (VStr p) -> valid_file_path p = true.
Proof.
  induction files as [|g files IH]; intros H f d p Hin Hf Hp; [contradiction|].
  cbn [check_files] in H. apply bind_Ok in H as (d' & Hd & H). apply as_dict_Ok in Hd. subst g.
  apply bind_Ok in H as (pv & Hpv & H). apply dgetE_Ok in Hpv.
  apply bind_Ok in H as (p' & Hps & H). apply as_str_Ok in Hps. subst pv.
  destruct (valid_file_path p') eqn:E; [|discriminate].
  destruct Hin as [Hin|Hin]; [rewrite Hf in Hin; inversion Hin; subst; congruence|eauto].
Qed.
Lemma check_files_complete files :
  (forall f, In f files -> exists d p, f = VDict d /\ dget "path" d = Some (VStr p) /\ valid_file_path p = true) ->
  check_files files = Ok tt.
Proof.
  induction files as [|g files IH]; intros H; [reflexivity|].
  destruct (H g (or_introl eq_refl)) as (d & p & -> & Hp & Hv). cbn [check_files as_dict bind].
  unfold dgetE. rewrite Hp. cbn [bind as_str]. rewrite Hv. apply IH. intros f Hf; apply H; right; exact Hf.
Qed.
Lemma check_files_reject files f d p : In f files -> f = VDict d -> dget "path" d = Some (VStr p) ->
  valid_file_path p = false -> check_files files <> Ok tt.
Proof. intros Hin Hf Hp Hv H. rewrite (check_files_spec files H f d p Hin Hf Hp) in Hv. discriminate. Qed.

Lemma archive_safe config tar0 tar1 m : validate_file_paths config = Ok tt ->
  process_files config tar0 = Ok tar1 -> In m tar1 -> In m tar0 \/ safe_relative (m_name m).
Proof.
  intros Hv Hp Hm. apply process_files_spec in Hp as (files & ms & Hf & HF & ->).
  apply in_app_iff in Hm as [Hm|Hm]; [left; exact Hm|right].
  destruct (Forall2_In_r _ _ _ _ HF Hm) as (f & Hfin & d & p & c & mode & n & Ed & Hpath & _ & _ & _ & ->).
  unfold validate_file_paths in Hv. rewrite Hf in Hv. cbn [bind] in Hv.
  pose proof (check_files_spec files Hv f d p Hfin Ed Hpath) as H. apply valid_file_path_spec in H. apply H.
Qed.

(** ** Host names *)
Fixpoint host_body (n : nat) (r : string) : bool :=
  match r with
  | EmptyString => ((1 <=? n) && (n <=? 255))%nat
  | String d r' =>
      if host_char d then host_body (S n) r'
      else Ascii.eqb d NLc && String.eqb r' EmptyString && ((1 <=? n) && (n <=? 255))%nat
  end.
Lemma host_re_eq c r : host_re (String c r) = is_alnum c && host_body 0 r.
Proof.
  unfold host_re. f_equal.
Qed.
Lemma host_body_spec r : forall n, host_body n r = true <->
  exists t, (r = t \/ r = t +++ NL) /\ sforall host_char t = true /\ (1 <= n + String.length t <= 255)%nat.
Proof.
  induction r as [|d r IH]; intros n; cbn [host_body].
  - rewrite andb_true_iff, !Nat.leb_le. split.
    + intros H. exists EmptyString. simpl. repeat split; auto; lia.
    + intros (t & [E|E] & _ & H); [subst t; simpl in H; lia|destruct t; discriminate].
  - destruct (host_char d) eqn:Ed.
    + rewrite IH. split.
      * intros (t & Ht & Hf & Hl). exists (String d t). split; [destruct Ht as [-> | ->]; [left|right]; reflexivity|].
        split; [cbn [sforall]; rewrite Ed; exact Hf|simpl; lia].
      * intros (t & Ht & Hf & Hl). destruct t as [|d' t].
        -- destruct Ht as [E|E]; [discriminate|]. inversion E; subst. discriminate Ed.
        -- assert (d' = d) by (destruct Ht as [E|E]; inversion E; auto). subst d'.
           exists t. split; [destruct Ht as [E|E]; inversion E; [left|right]; reflexivity|].
           cbn [sforall] in Hf. apply andb_true_iff in Hf as [_ Hf]. split; [exact Hf|simpl in Hl; lia].
    + rewrite !andb_true_iff, Ascii.eqb_eq, String.eqb_eq, !Nat.leb_le. split.
      * intros [[-> ->] H]. exists EmptyString. split; [right; reflexivity|]. split; [reflexivity|simpl; lia].
      * intros (t & Ht & Hf & Hl). destruct t as [|d' t].
        -- destruct Ht as [E|E]; [discriminate|]. inversion E; subst. simpl in Hl. repeat split; auto; lia.
        -- exfalso. assert (d' = d) by (destruct Ht as [E|E]; inversion E; auto). subst d'.
           cbn [sforall] in Hf. rewrite Ed in Hf. discriminate.
Qed.
Lemma hostname_spec s : is_hostname (VStr s) = true <->
  exists c t, (s = String c t \/ s = String c t +++ NL) /\ is_alnum c = true /\
    sforall host_char t = true /\ (1 <= String.length t <= 255)%nat /\
    forall label, In label (split_char "." s) -> (String.length label <= 63)%nat.
Proof.
  unfold is_hostname. rewrite andb_true_iff, forallb_forall. split.
  - intros [H Hl]. destruct s as [|c r]; [discriminate|]. rewrite host_re_eq, andb_true_iff, host_body_spec in H.
    destruct H as [Hc (t & Ht & Hf & Hlen)]. exists c, t.
    split; [destruct Ht as [-> | ->]; [left|right]; reflexivity|]. split; [exact Hc|]. split; [exact Hf|].
    split; [simpl in Hlen; lia|]. intros label Hlab. apply Nat.leb_le. apply Hl; exact Hlab.
  - intros (c & t & Hs & Hc & Hf & Hlen & Hl). split.
    + destruct Hs as [->| ->].
      * rewrite host_re_eq, Hc. apply host_body_spec. exists t. repeat split; auto; simpl; lia.
      * cbn [String.append]. rewrite host_re_eq, Hc. apply host_body_spec. exists t. repeat split; auto; simpl; lia.
    + intros label Hlab. apply Nat.leb_le. apply Hl; exact Hlab.
Qed.

(** ** Deduplication *)
Lemma file_path_fun f p q : file_path f p -> file_path f q -> p = q.
Proof. intros (d & -> & H1) (e & E & H2). inversion E; subst. congruence. Qed.
Lemma dedup_from_paths : forall files acc m, dedup_from files acc = Ok m ->
  exists ps, Forall2 file_path files ps /\ m = fold_left (fun a fp => dset (snd fp) (fst fp) a) (combine files ps) acc.
Proof.
  induction files as [|f files IH]; intros acc m H.
  - inversion H; subst. exists []. split; [constructor|reflexivity].
  - cbn [dedup_from] in H. apply bind_Ok in H as (d & Hd & H). apply as_dict_Ok in Hd. subst f.
    apply bind_Ok in H as (pv & Hpv & H). apply dgetE_Ok in Hpv.
    apply bind_Ok in H as (p & Hps & H). apply as_str_Ok in Hps. subst pv.
    destruct (IH _ _ H) as (ps & HF & ->). exists (p :: ps). split; [|reflexivity].
    constructor; [exists d; auto|exact HF].
Qed.
Lemma firsts_snoc l x : firsts (l ++ [x])%list = (if existsb (String.eqb x) l then firsts l else firsts l ++ [x])%list.
Proof.
  induction l as [|y l IH]; [reflexivity|]. cbn [app firsts existsb]. rewrite IH.
  rewrite (eqb_sym x y). destruct (existsb (String.eqb x) l); [rewrite orb_true_r; reflexivity|].
  rewrite filter_app. cbn [filter]. destruct (String.eqb y x); cbn [negb orb]; [rewrite app_nil_r; reflexivity|reflexivity].
Qed.
Lemma In_firsts x l : In x (firsts l) <-> In x l.
Proof.
  induction l as [|y l IH]; [reflexivity|]. cbn [firsts In]. rewrite filter_In, IH.
  destruct (String.eqb_spec y x) as [->|]; simpl; intuition congruence.
Qed.
Lemma firsts_NoDup l : NoDup (firsts l).
Proof.
  induction l as [|y l IH]; cbn [firsts]; constructor.
  - rewrite filter_In. intros [_ H]. rewrite eqb_refl in H. discriminate.
  - apply NoDup_filter. exact IH.
Qed.
Lemma dset_fold_spec : forall (fps : list (val * string)),
  let m := fold_left (fun a fp => dset (snd fp) (fst fp) a) fps [] in
  dkeys m = firsts (map snd fps) /\
  forall p f, dget p m = Some f <-> exists pre post, fps = (pre ++ (f, p) :: post)%list /\ ~ In p (map snd post).
Proof.
  induction fps as [|[f0 p0] fps IH] using rev_ind.
  - split; [reflexivity|]. intros p f. split; [discriminate|]. intros (pre & post & E & _). destruct pre; discriminate.
  - rewrite fold_left_app. cbn [fold_left fst snd]. destruct IH as [IHk IHg]. split.
    + rewrite dkeys_dset, IHk, map_app. cbn [map]. rewrite firsts_snoc.
      assert (E : dmem p0 (fold_left (fun a fp => dset (snd fp) (fst fp) a) fps []) = existsb (String.eqb p0) (map snd fps)).
      { apply eq_true_iff_eq. rewrite dmem_In, IHk, In_firsts, existsb_exists. split.
        - intros H. exists p0. split; [exact H|apply eqb_refl].
        - intros (x & Hx & E). apply String.eqb_eq in E. subst x. exact Hx. }
      rewrite E. reflexivity.
    + intros p f. rewrite dget_dset. destruct (String.eqb_spec p p0) as [->|Hn].
      * split.
        -- intros H; inversion H; subst. exists fps, []. split; [reflexivity|intros []].
        -- intros (pre & post & E & Hni). destruct post as [|q post] using rev_ind.
           ++ apply app_inj_tail in E as [_ E]. congruence.
           ++ exfalso. clear IHpost. rewrite app_comm_cons, app_assoc in E. apply app_inj_tail in E as [_ E].
              apply Hni. rewrite map_app, in_app_iff. right. left. rewrite <- E. reflexivity.
      * rewrite IHg. split.
        -- intros (pre & post & -> & Hni). exists pre, (post ++ [(f0, p0)])%list. split; [rewrite <- app_assoc; reflexivity|].
           rewrite map_app, in_app_iff. intros [H|[H|[]]]; [auto|simpl in H; congruence].
        -- intros (pre & post & E & Hni). destruct post as [|q post] using rev_ind.
           ++ apply app_inj_tail in E as [_ E]. congruence.
           ++ clear IHpost. rewrite app_comm_cons, app_assoc in E. apply app_inj_tail in E as [E1 E2].
              exists pre, post. split; [exact E1|]. intros H. apply Hni. rewrite map_app, in_app_iff. left; exact H.
Qed.

(** ** More on members *)
Lemma relative_of_member p : relative_of p (member_path p).
Proof.
  unfold relative_of, member_path. destruct (startswith "/" p) eqn:E.
  - left. apply startswith_true in E as [r ->]. reflexivity.
  - right. split; [reflexivity|]. intros r ->. discriminate.
Qed.
Lemma parse_octal_spec : forall s acc b n, parse_octal s acc b = Some n ->
  forall pre, (if b then octal pre acc else pre = EmptyString /\ acc = 0%N) -> octal (pre +++ s) n.
Proof.
  induction s as [|c s IH]; intros acc b n H pre Hp; cbn [parse_octal] in H.
  - destruct b; [|discriminate]. inversion H; subst. rewrite app_nil_s. exact Hp.
  - destruct (is_octal c) eqn:Ec; [|discriminate].
    replace (pre +++ String c s) with ((pre +++ String c EmptyString) +++ s) by (rewrite app_assoc_s; reflexivity).
    apply (IH _ _ _ H). destruct b.
    + apply oct_more; assumption.
    + destruct Hp as [-> ->]. cbn [String.append]. apply (oct_one c Ec).
Qed.
Lemma parse_mode_octal s n : parse_mode s = Some n -> octal (strip s) n.
Proof. intros H. apply (parse_octal_spec _ _ _ _ H EmptyString). auto. Qed.
Lemma file_mem0_member f m : file_mem0 f m ->
  exists c, file_member f c m /\ m_data m = stake (String.length c) (utf8 c).
Proof.
  intros (d & p & c & mode & n & -> & Hp & Hc & Hm & Hn & ->). exists c. split; [|reflexivity].
  exists d, p, mode. cbn. repeat split; auto; [apply relative_of_member|apply parse_mode_octal; exact Hn].
Qed.
Lemma stake_all s : stake (String.length s) s = s.
Proof. induction s as [|c s IH]; simpl; [|rewrite IH]; reflexivity. Qed.

(** ** Deduplication, final form *)
Lemma combine_split_mid {A B} (l : list A) (r : list B) : forall pre x y post,
  length l = length r -> combine l r = (pre ++ (x, y) :: post)%list ->
  exists l1 l2 r1 r2, l = (l1 ++ x :: l2)%list /\ r = (r1 ++ y :: r2)%list /\
    combine l1 r1 = pre /\ combine l2 r2 = post /\ length l1 = length r1 /\ length l2 = length r2.
Proof.
  revert r; induction l as [|a l IH]; intros [|b r] pre x y post Hl E; try discriminate.
  - destruct pre; discriminate.
  - destruct pre as [|p pre]; cbn [combine app] in E; inversion E; subst.
    + exists [], l, [], r. cbn. repeat split; auto.
    + destruct (IH r pre x y post) as (l1 & l2 & r1 & r2 & -> & -> & <- & <- & G1 & G2); [simpl in Hl; lia|assumption|].
      exists (a :: l1), l2, (b :: r1), r2. cbn. repeat split; auto; congruence.
Qed.
Lemma map_snd_combine {A B} (l : list A) (r : list B) : length l = length r -> map snd (combine l r) = r.
Proof. revert r; induction l as [|a l IH]; intros [|b r] H; try discriminate; [reflexivity|]. cbn. rewrite IH; auto. Qed.

Lemma Forall2_app_mid {A B} (R : A -> B -> Prop) l1 l2 r1 r2 : length l1 = length r1 ->
  Forall2 R (l1 ++ l2) (r1 ++ r2) -> Forall2 R l1 r1 /\ Forall2 R l2 r2.
Proof.
  revert r1; induction l1 as [|a l1 IH]; intros [|b r1] Hl HF; try discriminate; [split; [constructor|exact HF]|].
  inversion HF; subst. destruct (IH r1) as [G1 G2]; [simpl in Hl; lia|assumption|]. split; [constructor; auto|auto].
Qed.

Lemma dedup_files_spec l m : dedup_from l [] = Ok m ->
  exists ps, Forall2 file_path l ps /\ Forall2 file_path (map snd m) (firsts ps) /\
    forall f p, In f (map snd m) -> file_path f p -> last_such (fun g => file_path g p) l f.
Proof.
  intros H. destruct (dedup_from_paths _ _ _ H) as (ps & HF & ->). exists ps. split; [exact HF|].
  pose proof (Forall2_length _ _ _ HF) as Hlen.
  pose proof (dset_fold_spec (combine l ps)) as [Hk Hg]. cbv zeta in *.
  rewrite map_snd_combine in Hk by exact Hlen.
  set (M := fold_left (fun a fp => dset (snd fp) (fst fp) a) (combine l ps) []) in *.
  assert (Hall : forall p f, In (p, f) M -> file_path f p /\ last_such (fun g => file_path g p) l f).
  { intros p f Hin. apply In_dget in Hin; [|rewrite Hk; apply firsts_NoDup].
    apply Hg in Hin as (pre & post & E & Hni).
    destruct (combine_split_mid _ _ _ _ _ _ Hlen E) as (l1 & l2 & r1 & r2 & El & Er & _ & Epost & L1 & L2). subst l ps.
    destruct (Forall2_app_mid _ _ _ _ _ L1 HF) as [_ HF2]. inversion HF2 as [|? ? ? ? Hfp HF3]; subst.
    split; [assumption|]. exists l1, l2. split; [reflexivity|]. split; [assumption|].
    intros z Hz Hzp. destruct (Forall2_In_l _ _ _ _ HF3 Hz) as (q & Hq & Hzq).
    pose proof (file_path_fun _ _ _ Hzp Hzq). subst q. apply Hni. rewrite map_snd_combine by exact L2. exact Hq. }
  split.
  - rewrite <- Hk. clear Hk Hg. clearbody M. clear H. induction M as [|[p f] M IH]; [constructor|]. cbn. constructor.
    + apply (Hall p f). left; reflexivity.
    + apply IH. intros q g Hin. apply Hall. right; exact Hin.
  - intros f p Hin Hp. apply in_map_iff in Hin as ([q g] & Eg & Hin). cbn in Eg. subst g.
    destruct (Hall _ _ Hin) as [Hq Hlast]. rewrite (file_path_fun _ _ _ Hp Hq). exact Hlast.
Qed.
Lemma dedup_from_nodup : forall l ps acc, Forall2 file_path l ps -> NoDup (dkeys acc ++ ps) ->
  dedup_from l acc = Ok (acc ++ combine ps l)%list.
Proof.
  induction l as [|f l IH]; intros ps acc HF Hnd; inversion HF; subst.
  - cbn. rewrite app_nil_r. reflexivity.
  - destruct H1 as (d & -> & Hp). cbn [dedup_from as_dict bind]. unfold dgetE. rewrite Hp. cbn [bind as_str].
    assert (Hni : ~ In y (dkeys acc)).
    { intros Hy. apply NoDup_remove_2 in Hnd. apply Hnd. apply in_app_iff. left; exact Hy. }
    rewrite dset_absent by (destruct (dget y acc) eqn:E; [|reflexivity]; exfalso; apply Hni; apply dmem_In; unfold dmem; rewrite E; reflexivity).
    rewrite (IH l' _ H3).
    + cbn [combine]. rewrite <- app_assoc. reflexivity.
    + unfold dkeys. rewrite map_app, <- app_assoc. exact Hnd.
Qed.

Lemma map_snd_combine2 {A B} (l : list A) (r : list B) : length l = length r -> map snd (combine r l) = l.
Proof. intros H. apply map_snd_combine. symmetry; exact H. Qed.

Lemma deduplicate_spec config config' : deduplicate_files config = Ok config' ->
  (forall k, k <> "files" -> dget k config' = dget k config) /\ dkeys config' = dkeys config /\
  match dget "files" config with
  | None => config' = config
  | Some v => exists old new ps, v = VList old /\ dget "files" config' = Some (VList new) /\
      Forall2 file_path old ps /\ Forall2 file_path new (firsts ps) /\
      forall f p, In f new -> file_path f p -> last_such (fun g => file_path g p) old f
  end.
Proof.
  unfold deduplicate_files. destruct (dget "files" config) as [v|] eqn:Ev.
  2:{ intros H; inversion H; subst. auto. }
  intros H. apply bind_Ok in H as (l & Hl & H). destruct v; try discriminate. inversion Hl; subst l0; clear Hl.
  destruct l as [|f0 l].
  - inversion H; subst. split; [auto|]. split; [reflexivity|]. exists [], [], []. rewrite Ev.
    repeat split; auto; try constructor. intros f p [].
  - apply bind_Ok in H as (m & Hm & H). inversion H; subst. split; [|split].
    + intros k Hk. rewrite dget_dset. apply String.eqb_neq in Hk. rewrite Hk. reflexivity.
    + rewrite dkeys_dset. unfold dmem. rewrite Ev. reflexivity.
    + destruct (dedup_files_spec _ _ Hm) as (ps & H1 & H2 & H3).
      exists (f0 :: l), (map snd m), ps. rewrite dget_dset. simpl. auto.
Qed.

Lemma deduplicate_idem config config' : deduplicate_files config = Ok config' ->
  deduplicate_files config' = Ok config'.
Proof.
  intros H. pose proof (deduplicate_spec _ _ H) as (Hk & Hkeys & Hf).
  unfold deduplicate_files in *. destruct (dget "files" config) as [v|] eqn:Ev.
  2:{ inversion H; subst. rewrite Ev. reflexivity. }
  destruct Hf as (old & new & ps & -> & Hnew & H1 & H2 & H3). rewrite Hnew. cbn [as_list bind].
  destruct new as [|f new]; [reflexivity|].
  rewrite (dedup_from_nodup (f :: new) (firsts ps) []); [|exact H2|cbn; apply firsts_NoDup].
  cbn [bind app]. rewrite map_snd_combine2 by (apply (Forall2_length _ _ _ H2)).
  f_equal. apply dset_same. exact Hnew.
Qed.

Lemma validated_path_safe config files f p : validate_file_paths config = Ok tt ->
  get_files config = Ok files -> In f files -> file_path f p ->
  p <> EmptyString /\ path_text p /\ forall q, relative_of p q -> safe_relative q /\ startswith "/" q = false.
Proof.
  unfold validate_file_paths. intros Hv Hf Hin (d & -> & Hp). rewrite Hf in Hv. cbn [bind] in Hv.
  pose proof (check_files_spec files Hv _ d p Hin eq_refl Hp) as H. apply valid_file_path_spec in H as (H1 & H2 & H3).
  split; [exact H1|]. split; [exact H2|]. intros q Hq.
  assert (q = member_path p) as ->; [|split; [exact H3|apply safe_relative_no_slash; exact H3]].
  destruct Hq as [->|[-> Hn]]; [reflexivity|]. unfold member_path.
  destruct (startswith "/" p) eqn:E; [|reflexivity]. apply startswith_true in E as [r ->]. exfalso; eapply Hn; reflexivity.
Qed.
Lemma validate_paths_complete config files : get_files config = Ok files ->
  (forall f, In f files -> exists p q, file_path f p /\ p <> EmptyString /\ path_text p /\
     relative_of p q /\ safe_relative q) ->
  validate_file_paths config = Ok tt.
Proof.
  unfold validate_file_paths. intros Hf H. rewrite Hf. cbn [bind]. apply check_files_complete.
  intros f Hin. destruct (H f Hin) as (p & q & (d & -> & Hp) & Hne & Ht & Hq & Hs).
  exists d, p. split; [reflexivity|]. split; [exact Hp|]. apply valid_file_path_spec.
  split; [exact Hne|]. split; [exact Ht|]. destruct Hq as [->|[-> Hn]]; [exact Hs|].
  unfold member_path. destruct (startswith "/" p) eqn:E; [|exact Hs].
  apply startswith_true in E as [r ->]. exfalso; eapply Hn; reflexivity.
Qed.
Lemma check_files_err : forall files e, check_files files = Err e ->
  exists f, In f files /\ ((exists p, file_path f p /\ valid_file_path p = false /\ e = path_error p)
    \/ (~ exists p, file_path f p) /\ (e = EAttr \/ e = EKey "path")).
Proof.
  induction files as [|f files IH]; intros e H; [discriminate|]. cbn [check_files] in H.
  destruct f; try (exists (VNull); fail); cbn [as_dict bind] in H;
    try (inversion H; subst; eexists; split; [left; reflexivity|right; split; [intros (p & d' & E & _); discriminate|left; reflexivity]]).
  unfold dgetE in H. destruct (dget "path" d) as [v|] eqn:Ev; cbn [bind] in H.
  2:{ inversion H; subst. eexists; split; [left; reflexivity|right]. split; [|right; reflexivity].
      intros (p & d' & E & Hp). inversion E; subst. congruence. }
  destruct v; cbn [as_str bind] in H;
    try (inversion H; subst; eexists; split; [left; reflexivity|right; split; [intros (p & d' & E & Hp); inversion E; subst; congruence|left; reflexivity]]).
  destruct (valid_file_path s) eqn:E.
  - destruct (IH _ H) as (f & Hin & Hf). exists f. split; [right; exact Hin|exact Hf].
  - inversion H; subst. eexists; split; [left; reflexivity|left]. exists s. split; [exists d; auto|auto].
Qed.
Lemma stake_prefix n s : startswith (stake n s) s = true.
Proof. revert s; induction n as [|n IH]; intros [|c s]; simpl; try reflexivity. rewrite Ascii.eqb_refl; apply IH. Qed.
