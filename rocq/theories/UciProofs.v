(** * UciProofs: rendering and parsing UCI text (proofs only) *)
From Verif Require Import PyBase PyLemmas StrLemmas Files Uci SpecUci FilesProofs.
From Coq Require Import Sorted Permutation.

Lemma no_char_spec c s : no_char c s <-> nochar c s = true.
Proof. unfold no_char. symmetry. apply nochar_spec. Qed.

(** ** The lines written *)
Definition opt_line (w k v : string) : string := w +++ " " +++ k +++ " '" +++ v +++ "'".
Definition item_texts (v : val) : string * list string :=
  match v with
  | VNull => ("option", [])
  | VStr EmptyString => ("option", [])
  | VList l => ("list", map py_str l)
  | VDict d => ("list", map fst d)
  | VBool b => ("option", [bool_digit b])
  | _ => ("option", [py_str v])
  end.
Definition opt_lines (kv : string * val) : list string :=
  if startswith "." (fst kv) then []
  else map (opt_line (fst (item_texts (snd kv))) (fst kv)) (snd (item_texts (snd kv))).
Definition head_line (b : dict) : string := "config " +++ tpl_get ".type" b +++ " '" +++ tpl_get ".name" b +++ "'".
Definition body_lines (b : dict) : list string := flat_map opt_lines b.
Definition block_lines (b : dict) : list string := (head_line b :: body_lines b ++ [EmptyString])%list.
Definition pkg_head (p : string) : string := "package " +++ p.
Definition pkg_lines (p : string) (bs : list dict) : list string :=
  (pkg_head p :: EmptyString :: flat_map block_lines bs ++ [EmptyString])%list.
(** every line followed by a newline *)
Definition K (ls : list string) : string := fold_right (fun l acc => l +++ NL +++ acc) EmptyString ls.
Lemma K_app a b : K (a ++ b) = K a +++ K b.
Proof. induction a as [|x a IH]; [reflexivity|]. cbn [app K fold_right] in *. unfold K in *. cbn [fold_right]. rewrite IH, !app_assoc_s. reflexivity. Qed.
Lemma K_J l ls : K (l :: ls) = l +++ J (ls ++ [EmptyString]).
Proof.
  revert l; induction ls as [|x ls IH]; intros l; [reflexivity|].
  change (K (l :: x :: ls)) with (l +++ NL +++ K (x :: ls)). rewrite IH. reflexivity.
Qed.

(** ** Removal of the indentation *)
Definition S4 : string := "    ".
Definition clears (raw clean : string) : Prop :=
  forall rest, replace S4 EmptyString (raw +++ rest) = clean +++ replace S4 EmptyString rest.
Lemma clears_app a b a' b' : clears a a' -> clears b b' -> clears (a +++ b) (a' +++ b').
Proof. intros H1 H2 rest. rewrite !app_assoc_s, H1, H2. reflexivity. Qed.
Lemma clears_nil : clears EmptyString EmptyString. Proof. intros rest; reflexivity. Qed.
Lemma clears_sp n : clears (spaces (4 * n)) EmptyString.
Proof.
  induction n as [|n IH]; intros rest; [reflexivity|].
  replace (4 * S n)%nat with (4 + 4 * n)%nat by lia.
  change (spaces (4 + 4 * n) +++ rest) with (S4 +++ (spaces (4 * n) +++ rest)).
  unfold S4 at 1. rewrite replace_hit. apply IH.
Qed.
Lemma clears_line l : contains S4 l = false -> clears (l +++ NL) (l +++ NL).
Proof.
  intros H rest. rewrite !app_assoc_s. change (NL +++ rest) with (String NLc rest).
  rewrite replace_copy; [reflexivity|reflexivity|discriminate|exact H].
Qed.
Lemma clears_fold {A} (f : A -> string) (g : A -> string) l : (forall x, In x l -> clears (f x) (g x)) ->
  clears (fold_right (fun x acc => f x +++ acc) EmptyString l) (fold_right (fun x acc => g x +++ acc) EmptyString l).
Proof.
  induction l as [|x l IH]; intros H; [apply clears_nil|]. cbn [fold_right]. apply clears_app.
  - apply H; left; reflexivity.
  - apply IH. intros y Hy; apply H; right; exact Hy.
Qed.
Lemma fold_K {A} (f : A -> list string) l :
  fold_right (fun x acc => K (f x) +++ acc) EmptyString l = K (flat_map f l).
Proof. induction l as [|x l IH]; [reflexivity|]. cbn [fold_right flat_map]. rewrite K_app, IH. reflexivity. Qed.
Lemma clears_eq a b c : clears a b -> b = c -> clears a c. Proof. intros H <-; exact H. Qed.

(** lines without four consecutive spaces *)
Definition line_ok (l : string) : Prop := oneline l = true /\ contains S4 l = false.

Lemma tpl_list_clears key (l : list string) : (forall v, In v l -> contains S4 (opt_line "list" key v) = false) ->
  clears (fold_right (fun x acc => tpl_list_line key x +++ acc) EmptyString l) (K (map (opt_line "list" key) l)).
Proof.
  intros H. eapply clears_eq.
  - apply (clears_fold _ (fun x => opt_line "list" key x +++ NL)). intros x Hx. unfold tpl_list_line.
    apply (clears_app _ _ EmptyString); [apply (clears_sp 6)|].
    replace ("list " +++ key +++ " '" +++ x +++ "'" +++ NL +++ spaces 20) with ((opt_line "list" key x +++ NL) +++ spaces 20)
      by (unfold opt_line; rewrite !app_assoc_s; reflexivity).
    eapply clears_eq; [apply clears_app; [apply clears_line; apply H; exact Hx|apply (clears_sp 5)]|apply app_nil_s].
  - clear H. induction l as [|x l IH]; [reflexivity|]. cbn [fold_right map]. rewrite IH. cbn [K fold_right]. rewrite app_assoc_s. reflexivity.
Qed.
Lemma fold_right_map_s {A B} (f : B -> string) (g : A -> B) l :
  fold_right (fun x acc => f (g x) +++ acc) EmptyString l = fold_right (fun x acc => f x +++ acc) EmptyString (map g l).
Proof. induction l as [|x l IH]; [reflexivity|]. cbn. rewrite IH. reflexivity. Qed.
Lemma tpl_item_clears kv : (forall l, In l (opt_lines kv) -> contains S4 l = false) ->
  clears (tpl_item kv) (K (opt_lines kv)).
Proof.
  intros H. destruct kv as [k v]. unfold tpl_item, opt_lines in *. cbn [fst snd] in *.
  eapply clears_eq; [apply (clears_app _ _ EmptyString); [apply (clears_sp 3)|]|reflexivity].
  destruct (startswith "." k) eqn:Ek.
  { rewrite andb_false_r. apply (clears_app _ _ EmptyString EmptyString); [apply clears_nil|apply (clears_sp 2)]. }
  rewrite andb_true_r.
  assert (G : forall s, contains S4 (opt_line "option" k s) = false ->
     clears (spaces 20 +++ "option " +++ k +++ " '" +++ s +++ "'" +++ NL +++ spaces 16) (K [opt_line "option" k s])).
  { intros s Hs. apply (clears_app _ _ EmptyString); [apply (clears_sp 5)|].
    replace ("option " +++ k +++ " '" +++ s +++ "'" +++ NL +++ spaces 16) with ((opt_line "option" k s +++ NL) +++ spaces 16)
      by (unfold opt_line; rewrite !app_assoc_s; reflexivity).
    eapply clears_eq; [apply clears_app; [apply clears_line; exact Hs|apply (clears_sp 4)]|apply app_assoc_s]. }
  assert (W : forall raw ls, clears raw (K ls) -> clears ((spaces 16 +++ raw +++ spaces 12) +++ spaces 8) (K ls)).
  { intros raw ls Hr. eapply clears_eq; [apply clears_app; [apply clears_app; [apply (clears_sp 4)|apply clears_app; [exact Hr|apply (clears_sp 3)]]|apply (clears_sp 2)]|].
    cbn [String.append]. rewrite !app_nil_s. reflexivity. }
  assert (N : clears (EmptyString +++ spaces 8) EmptyString) by apply (clears_sp 2).
  assert (L : forall l, (forall v, In v l -> contains S4 (opt_line "list" k v) = false) ->
     clears (spaces 20 +++ fold_right (fun x acc => tpl_list_line k x +++ acc) EmptyString l +++ spaces 16) (K (map (opt_line "list" k) l))).
  { intros l Hl. eapply clears_eq; [apply clears_app; [apply (clears_sp 5)|apply clears_app; [apply tpl_list_clears; exact Hl|apply (clears_sp 4)]]|].
    cbn [String.append]. apply app_nil_s. }
  destruct v as [|b|z|r|s|l|d]; cbn [not_blank item_texts fst snd] in *.
  - exact N.
  - apply W. destruct b; apply G; apply H; left; reflexivity.
  - apply W. apply G. apply H; left; reflexivity.
  - apply W. apply G. apply H; left; reflexivity.
  - destruct s; [exact N|]. apply W. apply G. apply H; left; reflexivity.
  - apply W. cbn [tpl_value]. rewrite (fold_right_map_s (tpl_list_line k) py_str). apply L.
    intros v Hv. apply H. apply in_map. exact Hv.
  - apply W. cbn [tpl_value]. rewrite (fold_right_map_s (tpl_list_line k) fst). apply L.
    intros v Hv. apply H. apply in_map. exact Hv.
Qed.
Lemma tpl_block_clears b : (forall l, In l (block_lines b) -> contains S4 l = false) -> clears (tpl_block b) (K (block_lines b)).
Proof.
  intros H. unfold tpl_block, block_lines in *.
  apply (clears_app _ _ EmptyString); [apply (clears_sp 2)|].
  replace ("config " +++ tpl_get ".type" b +++ " '" +++ tpl_get ".name" b +++ "'" +++ NL +++ spaces 8 +++
     fold_right (fun kv acc => tpl_item kv +++ acc) "" b +++ NL +++ spaces 4) with
    ((head_line b +++ NL) +++ spaces 8 +++ fold_right (fun kv acc => tpl_item kv +++ acc) "" b +++ NL +++ spaces 4)
    by (unfold head_line; rewrite !app_assoc_s; reflexivity).
  eapply clears_eq.
  - apply clears_app; [apply clears_line; apply H; left; reflexivity|].
    apply clears_app; [apply (clears_sp 2)|]. apply clears_app.
    + apply (clears_fold _ (fun kv => K (opt_lines kv))). intros kv Hkv. apply tpl_item_clears. intros l Hl.
      apply H. right. apply in_app_iff. left. apply in_flat_map. eauto.
    + apply clears_app; [apply (clears_line EmptyString); reflexivity|apply (clears_sp 1)].
  - cbn [String.append]. rewrite fold_K. change (flat_map opt_lines b) with (body_lines b).
    change (K (head_line b :: body_lines b ++ [""])) with (head_line b +++ NL +++ K (body_lines b ++ [""])).
    rewrite K_app, app_assoc_s. reflexivity.
Qed.
Lemma tpl_package_clears p bs : (forall l, In l (pkg_lines p bs) -> contains S4 l = false) ->
  clears (tpl_package p bs) (K (pkg_lines p bs)).
Proof.
  intros H. unfold tpl_package, pkg_lines in *.
  apply (clears_app _ _ EmptyString); [apply (clears_sp 1)|].
  replace ("package " +++ p +++ NL +++ NL +++ spaces 4 +++ fold_right (fun b acc => tpl_block b +++ acc) "" bs +++ NL) with
    ((pkg_head p +++ NL) +++ ("" +++ NL) +++ spaces 4 +++ fold_right (fun b acc => tpl_block b +++ acc) "" bs +++ "" +++ NL)
    by (unfold pkg_head; rewrite !app_assoc_s; reflexivity).
  eapply clears_eq.
  - apply clears_app; [apply clears_line; apply H; left; reflexivity|].
    apply clears_app; [apply clears_line; reflexivity|]. apply clears_app; [apply (clears_sp 1)|]. apply clears_app.
    + apply (clears_fold _ (fun b => K (block_lines b))). intros b Hb. apply tpl_block_clears. intros l Hl.
      apply H. do 2 right. apply in_app_iff. left. apply in_flat_map. eauto.
    + apply (clears_line EmptyString); reflexivity.
  - rewrite fold_K.
    change (K (pkg_head p :: "" :: flat_map block_lines bs ++ [""])) with (pkg_head p +++ NL +++ NL +++ K (flat_map block_lines bs ++ [""])).
    rewrite K_app, app_assoc_s. reflexivity.
Qed.

(** ** Packages of well formed data *)
Definition pkgs (d : dict) (l : list (string * list dict)) : Prop :=
  d = map (fun p => (fst p, VList (map VDict (snd p)))) l.
Lemma mapM_as_dict bs : mapM as_dict (map VDict bs) = Ok bs.
Proof. induction bs as [|b bs IH]; [reflexivity|]. cbn. rewrite IH. reflexivity. Qed.
Definition all_lines (l : list (string * list dict)) : list string := flat_map (fun p => pkg_lines (fst p) (snd p)) l.
Lemma tpl_uci_raw l acc : 
  foldM (fun acc kv => do bs <- blocks_of (snd kv); Ok (acc +++ tpl_package (fst kv) bs)) acc
     (map (fun p => (fst p, VList (map VDict (snd p)))) l)
  = Ok (acc +++ fold_right (fun p a => tpl_package (fst p) (snd p) +++ a) EmptyString l).
Proof.
  revert acc; induction l as [|[p bs] l IH]; intros acc; [cbn; rewrite app_nil_s; reflexivity|].
  cbn [map foldM fst snd fold_right]. unfold blocks_of at 1. cbn [as_list bind]. rewrite mapM_as_dict. cbn [bind].
  rewrite IH, app_assoc_s. reflexivity.
Qed.
Lemma tpl_uci_clears l : (forall x, In x (all_lines l) -> contains S4 x = false) ->
  exists raw, tpl_uci (map (fun p => (fst p, VList (map VDict (snd p)))) l) = Ok raw /\ replace S4 EmptyString raw = K (all_lines l).
Proof.
  intros H. unfold tpl_uci. rewrite tpl_uci_raw. eexists. split; [reflexivity|]. cbn [String.append].
  assert (C : clears (fold_right (fun p a => tpl_package (fst p) (snd p) +++ a) "" l)
     (fold_right (fun p a => K (pkg_lines (fst p) (snd p)) +++ a) "" l)).
  { apply (clears_fold (fun p => tpl_package (fst p) (snd p)) (fun p => K (pkg_lines (fst p) (snd p)))).
    intros p Hp. apply tpl_package_clears. intros x Hx. apply H. apply in_flat_map. eauto. }
  specialize (C EmptyString). rewrite !app_nil_s in C. rewrite C.
  rewrite (fold_K (fun p => pkg_lines (fst p) (snd p))). reflexivity.
Qed.

(** ** The cleaned text *)
Definition tab2 (l : string) : string := tabify "list" (tabify "option" l).
Definition topts (b : dict) : list string := map (fun l => TAB +++ l) (body_lines b).
Definition tblock (b : dict) : list string := (head_line b :: topts b ++ [EmptyString])%list.
Definition cbody (bs : list dict) : list string := flat_map (fun b => EmptyString :: head_line b :: topts b) bs.
Definition crest (l : list (string * list dict)) : list string :=
  flat_map (fun q => EmptyString :: pkg_head (fst q) :: cbody (snd q)) l.
Definition canon (l : list (string * list dict)) : string :=
  match l with
  | [] => EmptyString
  | (p, bs) :: l' => pkg_head p +++ J (cbody bs ++ crest l' ++ [EmptyString])
  end.
Lemma item_word v : fst (item_texts v) = "option" \/ fst (item_texts v) = "list".
Proof. destruct v as [| | | |[|] | |]; cbn; auto. Qed.
Lemma body_line_form b l : In l (body_lines b) -> exists k v t w, In (k, v) b /\ startswith "." k = false /\
  (w = "option" \/ w = "list") /\ w = fst (item_texts v) /\ In t (snd (item_texts v)) /\ l = opt_line w k t.
Proof.
  unfold body_lines. rewrite in_flat_map. intros ([k v] & Hin & Hl). unfold opt_lines in Hl. cbn [fst snd] in Hl.
  destruct (startswith "." k) eqn:E; [destruct Hl|]. apply in_map_iff in Hl as (t & <- & Ht).
  exists k, v, t, (fst (item_texts v)). repeat split; auto. apply item_word.
Qed.
Lemma tab2_opt b l : In l (body_lines b) -> tab2 l = TAB +++ l.
Proof.
  intros H. destruct (body_line_form b l H) as (k & v & t & w & _ & _ & [->| ->] & _ & _ & ->); reflexivity.
Qed.
Lemma tab2_body b : map tab2 (body_lines b) = topts b.
Proof. apply map_ext_in. intros l Hl. apply (tab2_opt b l Hl). Qed.
Lemma tab2_block b : map tab2 (block_lines b) = tblock b.
Proof. unfold block_lines, tblock. cbn [map]. rewrite map_app, tab2_body. reflexivity. Qed.
Lemma map_flat_map {A B C} (g : B -> C) (f : A -> list B) l : map g (flat_map f l) = flat_map (fun x => map g (f x)) l.
Proof. induction l as [|x l IH]; [reflexivity|]. cbn. rewrite map_app, IH. reflexivity. Qed.
Lemma tab2_blocks bs : map tab2 (flat_map block_lines bs) = flat_map tblock bs.
Proof. rewrite map_flat_map. apply flat_map_ext. apply tab2_block. Qed.
Lemma collapse_ne_app l rest : (forall x, In x l -> x <> EmptyString) -> collapse (l ++ rest) = (l ++ collapse rest)%list.
Proof.
  induction l as [|x l IH]; intros H; [reflexivity|]. cbn [app]. rewrite collapse_ne by (apply H; left; reflexivity).
  rewrite IH; [reflexivity|]. intros y Hy; apply H; right; exact Hy.
Qed.
Lemma collapse_blocks bs x rest :
  collapse (EmptyString :: flat_map tblock bs ++ EmptyString :: x :: rest)%list = (cbody bs ++ EmptyString :: x :: collapse rest)%list.
Proof.
  induction bs as [|b bs IH]; [reflexivity|]. cbn [flat_map cbody]. unfold tblock at 1. cbn [app].
  rewrite collapse_2 by discriminate. do 2 f_equal. rewrite <- !app_assoc.
  rewrite collapse_ne_app.
  - cbn [app]. rewrite IH. reflexivity.
  - intros l Hl. apply in_map_iff in Hl as (l' & <- & _). discriminate.
Qed.
Definition tpkg (q : string * list dict) : list string :=
  (pkg_head (fst q) :: EmptyString :: flat_map tblock (snd q) ++ [EmptyString])%list.
Lemma collapse_all l bs :
  collapse (EmptyString :: flat_map tblock bs ++ [EmptyString] ++ flat_map tpkg l ++ [EmptyString])%list
  = (cbody bs ++ crest l ++ [EmptyString; EmptyString])%list.
Proof.
  revert bs; induction l as [|[q qbs] l IH]; intros bs; cbn [flat_map crest app].
  - rewrite collapse_blocks. reflexivity.
  - unfold tpkg at 1. cbn [app fst snd]. rewrite collapse_blocks. rewrite <- !app_assoc.
    do 3 f_equal. exact (IH qbs).
Qed.
Lemma sinit_snoc s c : sinit (s +++ String c EmptyString) = s.
Proof.
  unfold sinit. rewrite length_app_s. cbn [String.length].
  replace (String.length s + 1 - 1)%nat with (String.length s) by lia. apply stake_app.
Qed.
Lemma forallb_app_iff {A} (f : A -> bool) a b : forallb f (a ++ b) = forallb f a && forallb f b.
Proof. apply forallb_app. Qed.

Definition lines_ok (l : list (string * list dict)) : Prop := forall x, In x (all_lines l) -> line_ok x.
Lemma forallb_oneline ls : (forall x, In x ls -> oneline x = true) -> forallb oneline ls = true.
Proof. intros H. apply forallb_forall. exact H. Qed.
Lemma tabify_oneline w l : oneline l = true -> oneline (tabify w l) = true.
Proof. intros H. unfold tabify. destruct (startswith w l); [|exact H]. unfold oneline in *. rewrite nochar_app, H. reflexivity. Qed.
Lemma forallb_tabify w ls : forallb oneline ls = true -> forallb oneline (map (tabify w) ls) = true.
Proof.
  rewrite !forallb_forall. intros H x Hx. apply in_map_iff in Hx as (y & <- & Hy). apply tabify_oneline; auto.
Qed.
Lemma endswith_nn s : endswith (NL +++ NL) (s +++ NL +++ NL) = true.
Proof. apply endswith_true. exists s. reflexivity. Qed.

Lemma render_canon l : lines_ok l -> render_uci (map (fun p => (fst p, VList (map VDict (snd p)))) l) = Ok (canon l).
Proof.
  intros H. destruct (tpl_uci_clears l) as (raw & E & Hr); [intros x Hx; apply (H x Hx)|].
  unfold render_uci. rewrite E. cbn [bind]. f_equal. unfold cleanup. change "    " with S4. rewrite Hr.
  destruct l as [|[p bs] l]; [reflexivity|].
  assert (E1 : K (all_lines ((p, bs) :: l)) = pkg_head p +++ J ("" :: flat_map block_lines bs ++ [""] ++ all_lines l ++ [""])).
  { unfold all_lines at 1. cbn [flat_map fst snd]. unfold pkg_lines at 1. cbn [app]. rewrite K_J. do 2 f_equal.
    cbn [app]. rewrite <- !app_assoc. reflexivity. }
  rewrite E1. clear E1 Hr E raw.
  assert (Hp : oneline (pkg_head p) = true) by (apply (H (pkg_head p)); left; reflexivity).
  assert (Hls : forallb oneline ("" :: flat_map block_lines bs ++ [""] ++ all_lines l ++ [""]) = true).
  { apply forallb_oneline. intros x Hx. destruct Hx as [<-|Hx]; [reflexivity|].
    apply in_app_iff in Hx as [Hx|Hx]; [apply (H x); right; right; apply in_app_iff; left; apply in_app_iff; left; exact Hx|].
    apply in_app_iff in Hx as [[<-|[]]|Hx]; [reflexivity|].
    apply in_app_iff in Hx as [Hx|[<-|[]]]; [|reflexivity].
    apply (H x). unfold all_lines. cbn [flat_map]. apply in_app_iff. right. exact Hx. }
  change (NL +++ "option") with (String NLc "option"). rewrite replace_pass by exact Hp. change (String NLc "option") with (NL +++ "option").
  rewrite replace_tab by (reflexivity || exact Hls).
  change (NL +++ "list") with (String NLc "list"). rewrite replace_pass by exact Hp. change (String NLc "list") with (NL +++ "list").
  rewrite replace_tab by (reflexivity || (apply forallb_tabify; exact Hls)).
  change (NL +++ NL +++ NL) with (String NLc (NL +++ NL)). rewrite replace_pass by exact Hp. change (String NLc (NL +++ NL)) with (NL +++ NL +++ NL).
  rewrite (replace_collapse _ _ (le_n _)) by (do 2 apply forallb_tabify; exact Hls).
  rewrite map_map. change (fun x => tabify "list" (tabify "option" x)) with tab2.
  assert (E2 : map tab2 ("" :: flat_map block_lines bs ++ [""] ++ all_lines l ++ [""]) =
    ("" :: flat_map tblock bs ++ [""] ++ flat_map tpkg l ++ [""])%list).
  { cbn [map]. f_equal. rewrite map_app, tab2_blocks. f_equal. rewrite !map_app. cbn [map app]. f_equal. f_equal.
    unfold all_lines. rewrite map_flat_map. apply flat_map_ext. intros [q qbs]. unfold pkg_lines, tpkg. cbn [map fst snd].
    rewrite map_app, tab2_blocks. reflexivity. }
  rewrite E2, collapse_all.
  assert (E3 : pkg_head p +++ J (cbody bs ++ crest l ++ [""; ""]) = (pkg_head p +++ J (cbody bs ++ crest l)) +++ NL +++ NL).
  { rewrite app_assoc, J_app, app_assoc_s. reflexivity. }
  rewrite E3, endswith_nn.
  replace ((pkg_head p +++ J (cbody bs ++ crest l)) +++ NL +++ NL) with (((pkg_head p +++ J (cbody bs ++ crest l)) +++ NL) +++ NL) by (rewrite app_assoc_s; reflexivity).
  unfold NL at 2. rewrite sinit_snoc. cbn [canon]. rewrite (app_assoc (cbody bs)), (J_app (cbody bs ++ crest l)), app_assoc_s. reflexivity.
Qed.
