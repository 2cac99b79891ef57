(** * Props_Merge: properties C01-C08 (merging of configurations) *)
From Verif Require Import PyBase PyLemmas Merge SpecMerge MergeProofs MergeListProofs MergeFinal MergeKeep.

(** C01.  The result has the template's keys in order, then the new keys in
    order; each key obeys the documented law. *)
Theorem C01_merge_per_key : forall oid ids (t c r : dict),
  NoDup (dkeys c) -> merge_config oid ids t c = Ok r ->
  dkeys r = (dkeys t ++ filter (fun k => negb (dmem k t)) (dkeys c))%list /\
  forall k, match dget k t, dget k c with
    | _, None => dget k r = dget k t
    | None, Some y => dget k r = Some y
    | Some (VDict a), Some (VDict b) =>
        exists m, merge_config oid ids a b = Ok m /\ dget k r = Some (VDict m)
    | Some (VList a), Some (VList b) =>
        exists m, merge_list oid ids a b = Ok m /\ dget k r = Some (VList m)
    | Some a, Some y => is_container a && is_container y = false /\ dget k r = Some y
    end.
Proof. exact per_key. Qed.
Print Assumptions C01_merge_per_key.

Definition oid0 : oracle := fun _ i => i.
Definition ex_t : dict :=
  [("general", VDict [("hostname", VStr "a"); ("timezone", VStr "UTC")]);
   ("interfaces", VList [VDict [("name", VStr "eth0"); ("mtu", VInt 1500)]]); ("x", VInt 1)].
Definition ex_c : dict :=
  [("general", VDict [("hostname", VStr "b")]);
   ("interfaces", VList [VDict [("name", VStr "eth0"); ("mtu", VInt 1400)];
                         VDict [("name", VStr "eth1")]]); ("y", VBool true)].
Example C01_applies : NoDup (dkeys ex_c) /\ merge_config oid0 ["name"] ex_t ex_c = Ok
  [("general", VDict [("hostname", VStr "b"); ("timezone", VStr "UTC")]);
   ("interfaces", VList [VDict [("name", VStr "eth0"); ("mtu", VInt 1400)];
                         VDict [("name", VStr "eth1")]]); ("x", VInt 1); ("y", VBool true)].
Proof. split; [repeat constructor; simpl; intuition discriminate|vm_compute; reflexivity]. Qed.

(** C02.  Identity laws. *)
Theorem C02_merge_empty_config : forall oid ids t, merge_config oid ids t [] = Ok t.
Proof. exact merge_nil_r. Qed.
Print Assumptions C02_merge_empty_config.
Theorem C02_merge_empty_template : forall oid ids c, NoDup (dkeys c) ->
  merge_config oid ids [] c = Ok c.
Proof. exact merge_nil_l. Qed.
Print Assumptions C02_merge_empty_template.

(** C03.  Merging a configuration onto itself. *)
Theorem C03_self_merge : forall oid ids c,
  wf (VDict c) ->
  at_lists (fun l => distinct_elements ids (fun i j => oid l i = oid l j) l
                     /\ hashable_idents ids l) (VDict c) ->
  merge_val oid (VDict c) ids (Some (VDict c)) "" = Ok (VDict c) /\
  merge_config oid ids c c = Ok c.
Proof.
  intros oid ids c Hw Hs. pose proof (merge_self_val oid ids (VDict c) Hw Hs "") as H.
  split; [exact H|]. rewrite merge_val_dict in H. apply bind_Ok in H as (r & Hr & E). congruence.
Qed.
Print Assumptions C03_self_merge.
Example C03_applies : wf (VDict ex_c) /\
  at_lists (fun l => distinct_elements ["name"] (fun i j => oid0 l i = oid0 l j) l
                     /\ hashable_idents ["name"] l) (VDict ex_c).
Proof.
  split; [repeat constructor; simpl; intuition discriminate|].
  simpl. repeat split; try exact I.
  - intros i j x y Hi Hj (v & w & Hv & Hw & E).
    destruct i as [|[|[|i]]], j as [|[|[|j]]]; simpl in Hi, Hj; try discriminate; try reflexivity;
      inversion Hi; inversion Hj; subst; apply ident_of_spec in Hv, Hw; simpl in Hv, Hw;
      inversion Hv; inversion Hw; subst; discriminate.
  - intros i j x y _ _ _ _ E. exact E.
  - intros el v Hin Hv Hu. destruct Hin as [<-|[<-|[]]]; apply ident_of_spec in Hv; simpl in Hv;
      inversion Hv; subst; apply hashable_false in Hu; discriminate.
Qed.

(** C04.  When a merge fails. *)
Theorem C04_failure_causes : forall oid ids t c e,
  wf (VDict c) -> merge_config oid ids t c = Err e ->
  ((exists k x y, e = incompatible k x y) /\ conflict ids (VDict t) (VDict c))
  \/ (e = EType /\ bad_ident ids (VDict t) (VDict c)).
Proof. exact merge_config_err. Qed.
Print Assumptions C04_failure_causes.
Theorem C04_conflicts_fail : forall oid ids t c,
  conflict ids (VDict t) (VDict c) ->
  wf (VDict t) -> wf (VDict c) ->
  at_lists (fun l => distinct_elements ids (fun i j => oid l i = oid l j) l
                     /\ hashable_idents ids l) (VDict t) ->
  at_lists (fun l => distinct_elements ids (fun i j => oid l i = oid l j) l
                     /\ hashable_idents ids l) (VDict c) ->
  exists k x y, merge_config oid ids t c = Err (incompatible k x y).
Proof. exact merge_config_conflict. Qed.
Print Assumptions C04_conflicts_fail.
Example C04_applies :
  conflict ["name"] (VDict [("g", VDict [("a", VList [])])]) (VDict [("g", VDict [("a", VDict [])])])
  /\ merge_config oid0 ["name"] [("g", VDict [("a", VList [])])] [("g", VDict [("a", VDict [])])]
     = Err (EValidation "Incompatible type for 'a': expected list, got dict.").
Proof.
  split; [|vm_compute; reflexivity].
  apply (cf_key _ _ _ "g" (VDict [("a", VList [])]) (VDict [("a", VDict [])])); [reflexivity|reflexivity|].
  apply (cf_key _ _ _ "a" (VList []) (VDict [])); [reflexivity|reflexivity|constructor].
Qed.

(** C05.  Templates are layered in order and the configuration comes last:
    the last layer that defines a scalar wins, and a path no layer defines is
    not in the result. *)
Theorem C05_last_definer_wins : forall json_loads oid ids config ts r,
  wf (VDict config) ->
  merge_templates json_loads oid ids config (VList ts) = Ok r ->
  exists ds, Forall2 (fun t d => load json_loads t = Ok d) ts ds /\
    ((forall d, In d ds -> wf (VDict d)) ->
     (forall pre d post p w, (ds ++ [config])%list = (pre ++ d :: post)%list ->
        getpath p (VDict d) = Some w -> scalar w ->
        (forall d', In d' post -> ~ touches p (VDict d')) ->
        getpath p (VDict r) = Some w) /\
     (forall p, (forall d, In d (ds ++ [config])%list -> ~ touches p (VDict d)) ->
        getpath p (VDict r) = None)).
Proof.
  intros jl oid ids config ts r Hw H.
  destruct (merge_templates_layers jl oid ids config ts r Hw H) as (ds & HF & Hf).
  exists ds. split; [exact HF|]. intros Hds.
  destruct (merge_all_path oid ids (ds ++ [config])%list [] r) as [H1 H2]; [|exact Hf|].
  - intros d Hd. apply in_app_iff in Hd as [Hd|[<-|[]]]; auto.
  - split; [exact H2|]. intros p Hp. rewrite (H1 p Hp).
    destruct p as [|k p]; [exfalso|reflexivity].
    apply (Hp config); [apply in_app_iff; right; left; reflexivity|exact I].
Qed.
Print Assumptions C05_last_definer_wins.
(** In particular the configuration is never overridden by a template. *)
Theorem C05_config_wins : forall json_loads oid ids config ts r p w,
  wf (VDict config) ->
  (forall t d, In t ts -> load json_loads t = Ok d -> wf (VDict d)) ->
  merge_templates json_loads oid ids config (VList ts) = Ok r ->
  getpath p (VDict config) = Some w -> scalar w ->
  getpath p (VDict r) = Some w.
Proof.
  intros jl oid ids config ts r p w Hw Ht H Hg Hs.
  destruct (C05_last_definer_wins jl oid ids config ts r Hw H) as (ds & HF & Hd).
  destruct Hd as [Hd _].
  - intros d Hin. destruct (Forall2_In_r _ _ _ _ HF Hin) as (t & Hti & Hl). eauto.
  - apply (Hd ds config [] p w); auto.
Qed.
Print Assumptions C05_config_wins.
Example C05_applies : merge_templates (fun _ => None) oid0 ["name"] ex_c
   (VList [VDict [("general", VDict [("hostname", VStr "z"); ("timezone", VStr "GMT")])]; VDict ex_t])
  = Ok [("general", VDict [("hostname", VStr "b"); ("timezone", VStr "UTC")]);
   ("interfaces", VList [VDict [("name", VStr "eth0"); ("mtu", VInt 1400)];
                         VDict [("name", VStr "eth1")]]); ("x", VInt 1); ("y", VBool true)].
Proof. vm_compute; reflexivity. Qed.

(** C06.  List merge is union by identity. *)
Theorem C06_list_union : forall oid ids l1 l2,
  distinct_elements ids (fun i j => oid l1 i = oid l1 j) l1 ->
  distinct_elements ids (fun i j => oid l2 i = oid l2 j) l2 ->
  hashable_idents ids l1 -> hashable_idents ids l2 ->
  forall r, merge_list oid ids l1 l2 = Ok r ->
  exists l1' fresh,
    Forall2 (merged_element oid ids l1 l2) l1 l1' /\
    (forall e, In e l2 -> (fresh e = true <->
        ~ In_eq e l1 /\ forall e1, In e1 l1 -> ~ same_ident ids e1 e)) /\
    r = (l1' ++ filter fresh l2)%list.
Proof.
  intros oid ids l1 l2 D1 D2 H1 H2.
  exact (union_by_identity oid ids l1 l2 D1 D2 (hashable_idents_ok _ _ H1) (hashable_idents_ok _ _ H2)).
Qed.
Print Assumptions C06_list_union.
Example C06_applies : merge_list oid0 ["name"]
    [VDict [("name", VStr "a"); ("x", VInt 1)]; VStr "s"]
    [VDict [("name", VStr "b")]; VDict [("name", VStr "a"); ("y", VInt 2)]; VStr "s"]
  = Ok [VDict [("name", VStr "a"); ("x", VInt 1); ("y", VInt 2)]; VStr "s"; VDict [("name", VStr "b")]].
Proof. vm_compute; reflexivity. Qed.

(** C07.  In any merge of lists the last element of each identity survives, as
    it is or merged with an element of the other list of the same identity; the
    elements of the second list that are equal to one of the first are already
    there. *)
Theorem C07_last_kept : forall oid ids l1 l2 r,
  oid_sound oid -> merge_list oid ids l1 l2 = Ok r ->
  (forall i e, last_of ids l1 i e ->
     In e r \/ exists d d2 m, e = VDict d /\ In (VDict d2) l2 /\ same_ident ids e (VDict d2) /\
                              merge_config oid [] d d2 = Ok m /\ In (VDict m) r) /\
  (forall i e, last_of ids l2 i e -> ~ In_eq e l1 ->
     In e r \/ exists d d1 m, e = VDict d /\ In (VDict d1) l1 /\ same_ident ids (VDict d1) e /\
                              merge_config oid [] d1 d = Ok m /\ In (VDict m) r).
Proof. exact kept. Qed.
Print Assumptions C07_last_kept.
Example C07_applies :
  let l1 := [VDict [("name", VStr "a"); ("x", VInt 1)]; VInt 5; VDict [("name", VStr "a"); ("y", VInt 2)]] in
  let l2 := [VDict [("name", VStr "a"); ("z", VInt 3)]; VInt 6] in
  last_of ["name"] l1 2 (VDict [("name", VStr "a"); ("y", VInt 2)]) /\ last_of ["name"] l1 1 (VInt 5) /\
  merge_list oid0 ["name"] l1 l2
  = Ok [VDict [("name", VStr "a"); ("y", VInt 2); ("z", VInt 3)]; VInt 5; VInt 6].
Proof.
  split; [|split; [|vm_compute; reflexivity]]; (split; [reflexivity|]).
  - intros [|[|[|[|j]]]] e' Hj Hn; try lia; discriminate Hn.
  - intros j e' _ _ (v & w & H & _). apply has_ident_dict in H as [d E]. discriminate E.
Qed.
(** The others are lost: an element, and an option only it has, disappears even
    when nothing is merged into the list. *)
Theorem C07_no_element_lost_refuted :
  exists oid ids l1 r d, oid_inj oid /\ merge_list oid ids l1 [] = Ok r /\
    In (VDict d) l1 /\ dget "x" d = Some (VInt 1) /\
    forall d', In (VDict d') r -> dget "x" d' = None.
Proof.
  exists oid0, ["name"],
    [VDict [("name", VStr "a"); ("x", VInt 1)]; VDict [("name", VStr "a"); ("y", VInt 2)]],
    [VDict [("name", VStr "a"); ("y", VInt 2)]], [("name", VStr "a"); ("x", VInt 1)].
  split; [intros l i j _ _ E; exact E|]. split; [vm_compute; reflexivity|].
  split; [left; reflexivity|]. split; [reflexivity|].
  intros d' [E|[]]. inversion E; subst. reflexivity.
Qed.
Print Assumptions C07_no_element_lost_refuted.

(** C08.  Lists inside merged elements are merged as plain unions, whatever the
    identifiers: the old list, then the new elements that are not equal to one of
    it. *)
Theorem C08_nested_union : forall oid ids l1 l2 r d1 d2 k a b,
  distinct_elements ids (fun i j => oid l1 i = oid l1 j) l1 ->
  distinct_elements ids (fun i j => oid l2 i = oid l2 j) l2 ->
  hashable_idents ids l1 -> hashable_idents ids l2 ->
  merge_list oid ids l1 l2 = Ok r ->
  In (VDict d1) l1 -> In (VDict d2) l2 -> ~ In_eq (VDict d2) l1 -> same_ident ids (VDict d1) (VDict d2) ->
  NoDup (dkeys d2) -> dget k d1 = Some (VList a) -> dget k d2 = Some (VList b) ->
  distinct_objects oid a -> distinct_objects oid b ->
  exists m fresh, In (VDict m) r /\ (forall e, In e b -> (fresh e = true <-> ~ In_eq e a)) /\
    dget k m = Some (VList (a ++ filter fresh b)%list).
Proof.
  intros oid ids l1 l2 r d1 d2 k a b D1 D2 H1 H2 H I1 I2 Hne Hs Hnd Ga Gb Da Db.
  destruct (C06_list_union oid ids l1 l2 D1 D2 H1 H2 r H) as (l1' & fr & HF & _ & ->).
  destruct (Forall2_In_l _ _ _ _ HF I1) as (e' & Hin & [(e2 & d & d2' & m & He2 & Hne2 & Hs2 & E1 & E2 & Hm & ->)|[Hno _]]);
    [|exfalso; exact (Hno _ I2 Hne Hs)].
  inversion E1; subst d. subst e2.
  assert (d2' = d2) as ->.
  { assert (Hh1 : forallb (hash_ok ids) l1 = true) by (apply hashable_idents_ok; exact H1).
    assert (Hh2 : forallb (hash_ok ids) l2 = true) by (apply hashable_idents_ok; exact H2).
    rewrite forallb_forall in Hh1, Hh2.
    assert (Hs' : same_ident ids (VDict d2') (VDict d2)).
    { pose proof (same_ident_keyt oid ids false l1 0 _ false l1 0 _ (Hh1 _ I1) Hs) as K1.
      pose proof (same_ident_keyt oid ids false l1 0 _ false l1 0 _ (Hh1 _ I1) Hs2) as K2.
      rewrite K1 in K2. symmetry in K2. apply keyt_eq in K2 as [K2|(Hno & _)]; auto.
      exfalso. destruct Hs2 as (v & w & _ & Hw & _). exact (Hno w Hw). }
    apply In_nth_error in He2 as (i & Hi). apply In_nth_error in I2 as (j & Hj).
    assert (i = j) by (exact (proj1 D2 i j _ _ Hi Hj Hs')). subst j. congruence. }
  destruct (C01_merge_per_key oid [] d1 d2 m Hnd Hm) as [_ Hk]. specialize (Hk k). rewrite Ga, Gb in Hk.
  destruct Hk as (ml & Hml & Hg). destruct (merge_list_nil_ids oid a b ml Da Db Hml) as (fresh & Hf & ->).
  exists m, fresh. split; [apply in_app_iff; left; exact Hin|]. auto.
Qed.
Print Assumptions C08_nested_union.
(** So they are not merged by identifier. *)
Theorem C08_nested_lists_refuted :
  exists oid ids sub1 sub2 merged,
    oid_inj oid /\
    merge_list oid ids sub1 sub2 = Ok merged /\
    merge_list oid ids [VDict [("name", VStr "a"); ("sub", VList sub1)]]
                       [VDict [("name", VStr "a"); ("sub", VList sub2)]]
      <> Ok [VDict [("name", VStr "a"); ("sub", VList merged)]] /\
    merge_list oid ids [VDict [("name", VStr "a"); ("sub", VList sub1)]]
                       [VDict [("name", VStr "a"); ("sub", VList sub2)]]
      = Ok [VDict [("name", VStr "a"); ("sub", VList (sub1 ++ sub2)%list)]].
Proof.
  exists oid0, ["name"], [VDict [("name", VStr "b"); ("x", VInt 1)]],
    [VDict [("name", VStr "b"); ("x", VInt 2)]], [VDict [("name", VStr "b"); ("x", VInt 2)]].
  split; [intros l i j _ _ E; exact E|].
  split; [vm_compute; reflexivity|]. split; [|vm_compute; reflexivity].
  vm_compute. discriminate.
Qed.
Print Assumptions C08_nested_lists_refuted.
Example C08_applies :
  let d1 := [("name", VStr "a"); ("sub", VList [VDict [("name", VStr "b"); ("x", VInt 1)]])] in
  let d2 := [("name", VStr "a"); ("sub", VList [VDict [("name", VStr "b"); ("x", VInt 1)]; VDict [("name", VStr "b"); ("x", VInt 2)]])] in
  same_ident ["name"] (VDict d1) (VDict d2) /\ ~ In_eq (VDict d2) [VDict d1] /\ NoDup (dkeys d2) /\
  merge_list oid0 ["name"] [VDict d1] [VDict d2]
  = Ok [VDict [("name", VStr "a"); ("sub", VList [VDict [("name", VStr "b"); ("x", VInt 1)]; VDict [("name", VStr "b"); ("x", VInt 2)]])]].
Proof.
  cbv zeta. split; [|split; [|split; [|vm_compute; reflexivity]]].
  - exists (VStr "a"), (VStr "a"). repeat split; try (apply ident_of_spec; reflexivity).
  - apply py_in_false. vm_compute. reflexivity.
  - repeat constructor; simpl; intuition discriminate.
Qed.
