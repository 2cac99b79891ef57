(** * RtSwitch: the round trip of switches and their VLANs (proofs only). *)
From Verif Require Import PyBase PyLemmas StrLemmas NumLemmas Merge MergeProofs Backend Conv OwrtConv SpecUci SpecConv SpecDevice
  ConvLemmas SortLemmas RtStage RtBack RtGeneric RtSystem RtNetwork.

(** ** One VLAN *)
(** switch.py:65-88 for a VLAN section, before it is attached *)
Definition vlan_back (b : dict) (count : nat) : res dict :=
  do name <- dgetE ".name" b;
  let b := ddel ".type" (ddel ".name" b) in
  do device <- dgetE "device" b;
  do v <- type_cast vlan_props (set_unless "id" name (vlan_auto_name device count) b);
  vlan_vid v.
Definition vlan_name (n : string) (j : nat) (v : dict) : string := name_or "id" (n +++ "_vlan" +++ number j) v.

Lemma vlan_object n c j v : vlan_ok n c j v ->
  object_rt v (vlan_name n j v) "switch_vlan" (vlan_section (VStr n) v j)
    (fun s => do v' <- vlan_back s (c + j); do d <- dgetE "device" v'; if py_eq d (VStr n) then Ok v' else Err EType).
Proof.
  intros (Hnd & Hdev & (z & Hz & Hvid) & Hid & Hf).
  assert (Hname : exists m, vor (pop_or "id" VNull v) (vlan_auto_name (VStr n) j) = VStr m /\ vlan_name n j v = m /\ bare m /\
     ((dget "id" v = None /\ c = 0 /\ m = n +++ "_vlan" +++ number j) \/ (dget "id" v = Some (VStr m) /\ m <> n +++ "_vlan" +++ number (c + j)))).
  { unfold pop_or, vlan_name, name_or. destruct (dget "id" v) as [w|].
    - destruct Hid as (m & -> & Hw & Hm). exists m. unfold vor. rewrite truthy_text by apply Hw. repeat split; auto. apply Hw.
    - destruct Hid as [-> Hb]. exists (n +++ "_vlan" +++ number j). split; [reflexivity|]. split; [reflexivity|]. auto. }
  destruct Hname as (m & Hvor & -> & Hbm & Hm).
  assert (Hne : n <> EmptyString).
  { destruct (Hf "device" (VStr n) (dget_In _ _ _ Hdev)) as (_ & _ & Hs); [notin|]. apply Hs. }
  set (x := match dget "vid" v with Some (VInt x) => x | _ => z end).
  assert (Hx : dget "vid" v = Some (VInt x) /\ x <> z \/ dget "vid" v = None /\ x = z).
  { unfold x, optional in *. destruct (dget "vid" v) as [w|]; [|auto]. destruct Hvid as (y & -> & Hy). auto. }
  set (X0 := dupdate (ddel "id" v) [(".type", VStr "switch_vlan"); (".name", VStr m)]).
  assert (HX0 : NoDup (dkeys X0)) by (unfold X0; nodup).
  set (X := if dmem "vid" v then X0 else dset "vid" (VInt z) X0).
  assert (HX : NoDup (dkeys X)) by (unfold X; destruct (dmem "vid" v); nodup).
  assert (Hsec : vlan_section (VStr n) v j = Ok (ssort X)).
  { unfold vlan_section. rewrite Hvor. fold X0.
    assert (E0 : dget "vid" X0 = dget "vid" v) by (unfold X0; dg; ev; reflexivity). rewrite E0. unfold X, dmem.
    destruct (dget "vid" v); [reflexivity|]. unfold dgetE.
    assert (E1 : dget "vlan" X0 = dget "vlan" v) by (unfold X0; dg; ev; reflexivity). rewrite E1, Hz. reflexivity. }
  rewrite Hsec.
  assert (Hget : forall k, dget k (ssort X) = if String.eqb k "vid" then Some (VInt x) else if String.eqb k ".name" then Some (VStr m)
     else if String.eqb k ".type" then Some (VStr "switch_vlan") else if String.eqb k "id" then None else dget k v).
  { intros k. rewrite dget_ssort by exact HX. unfold X, dmem. destruct Hx as [[Ex _]|[Ex E]]; rewrite Ex; unfold X0; dg.
    - fields k; try reflexivity; exact Ex.
    - rewrite E. reflexivity. }
  eapply object_intro; [reflexivity| |unfold sec_name; rewrite Hget; reflexivity|rewrite Hget; reflexivity|discriminate|discriminate|].
  - eapply section_ok_intro; [apply ssort_NoDup, HX|rewrite Hget; reflexivity|wordlit|rewrite Hget; reflexivity|exact Hbm|].
    intros k w. rewrite Hget. fields k; try discriminate.
    + intros E _ _. injection E as <-. split; [wordlit|apply plain_Z].
    + intros Hk _ _. eapply field_writes; [exact Hf|notin|exact Hk].
  - intros s' Hnd' Gt Gn G. unfold vlan_back. dget_now. rewrite Gn. cbn [bind]. dget_now.
    assert (Gd : dget "device" s' = Some (VStr n)) by (rewrite G; ev; rewrite Hget; ev; rewrite Hdev; apply uci_text, Hne).
    rewrite Gd. cbn [bind]. unfold set_unless, vlan_auto_name. cbn [py_str]. rewrite py_eq_text. fold (number (c + j)).
    set (auto := n +++ "_vlan" +++ number (c + j)) in *.
    set (s1 := ddel ".type" (ddel ".name" s')). assert (Hs1 : NoDup (dkeys s1)) by (unfold s1; nodup).
    destruct (type_cast_pointwise vlan_props (if String.eqb m auto then s1 else dset "id" (VStr m) s1)
       (fun k => if String.eqb k "vid" then Some (VStr (string_of_Z x)) else dget k v)) as (y & Hy & Hny & Gy).
    + destruct (String.eqb m auto); nodup.
    + intros k.
      assert (E : dget k (if String.eqb m auto then s1 else dset "id" (VStr m) s1) =
        if String.eqb k "id" then dget "id" v else if String.eqb k ".type" then None else if String.eqb k ".name" then None else dget k s').
      { destruct Hm as [(Hm & -> & ->)|(Hm & Hm')].
        - unfold auto. cbn [Nat.add]. ev. unfold s1. dg. fields k; try reflexivity. rewrite G. ev. rewrite Hget. ev. congruence.
        - rewrite eqb_neq by exact Hm'. unfold s1. dg. fields k; congruence. }
      rewrite E. fields k; try dotted Hf.
      * destruct (dget "id" v) as [w|] eqn:Ew; [|reflexivity]. eexists. split; reflexivity.
      * rewrite G. ev. rewrite Hget. ev. cbn. eexists. split; reflexivity.
      * rewrite G, Hget. ev. others k Hnd Hf.
    + rewrite Hy. cbn [bind]. unfold vlan_vid. rewrite Gy. ev. cbn [int_of]. rewrite int_of_string_Z. cbn [bind]. unfold dgetE. rewrite Gy. ev. rewrite Hz. cbn [bind].
      assert (Hfin : exists v', (if py_eq (VInt x) (VInt z) then ddel "vid" y else dset "vid" (VInt x) y) = v' /\ forall k, dget k v' = dget k v).
      { eexists. split; [reflexivity|]. intros k. cbn [py_eq]. destruct Hx as [[Ex Hxz]|[Ex E]].
        - rewrite (proj2 (Z.eqb_neq x z) Hxz). dg. rewrite Gy. field k "vid"; [ev; congruence|ev; reflexivity].
        - rewrite E, Z.eqb_refl. dg. rewrite Gy. field k "vid"; [ev; congruence|ev; reflexivity]. }
      destruct Hfin as (v' & -> & Gv). rewrite Gv, Hdev. cbn [bind]. rewrite py_eq_text, eqb_refl. exists v'. split; [reflexivity|apply same_of_map, Gv].
Qed.

(** ** The switch itself *)
Definition switch_main (s : dict) (name : string) : dict :=
  ssort (ddel "vlan" (dupdate (ddel "id" s) [(".type", VStr "switch"); (".name", VStr name)])).
Definition switch_main_back (b : dict) : res dict :=
  do name <- dgetE ".name" b;
  let b := ddel ".type" (ddel ".name" b) in
  do n <- dgetE "name" b;
  type_cast switch_props (set_unless "id" name n b).
Lemma switch_object c s : switch_ok c s ->
  exists n, dget "name" s = Some (VStr n) /\
  object_rt (ddel "vlan" s) (name_or "id" n s) "switch" (Ok (switch_main s (name_or "id" n s)))
    (fun b => do s' <- switch_main_back b; do d <- dgetE "name" s'; if py_eq d (VStr n) && negb (dmem "vlan" s') then Ok s' else Err EType).
Proof.
  intros (Hnd & n & vlans & Hn & Hid & Hv & Hne & Hvl & Hf). exists n. split; [exact Hn|].
  assert (Hname : exists m, name_or "id" n s = m /\ bare m /\
     ((dget "id" s = None /\ m = n) \/ (dget "id" s = Some (VStr m) /\ m <> n))).
  { unfold name_or. destruct (dget "id" s) as [w|].
    - destruct Hid as (m & -> & Hw & Hm). exists m. split; [reflexivity|]. split; [apply Hw|auto].
    - exists n. auto. }
  destruct Hname as (m & -> & Hbm & Hm).
  assert (Hnn : n <> EmptyString).
  { destruct (Hf "name" (VStr n) (dget_In _ _ _ Hn)) as (_ & _ & Hs); [notin|]. apply Hs. }
  unfold switch_main. set (X := ddel "vlan" (dupdate _ _)). assert (HX : NoDup (dkeys X)) by (unfold X; nodup).
  assert (Hget : forall k, dget k (ssort X) = if String.eqb k "vlan" then None else if String.eqb k ".name" then Some (VStr m)
     else if String.eqb k ".type" then Some (VStr "switch") else if String.eqb k "id" then None else dget k s).
  { intros k. unfold X. dg. reflexivity. }
  eapply object_intro; [reflexivity| |unfold sec_name; rewrite Hget; reflexivity|rewrite Hget; reflexivity|discriminate|discriminate|].
  - eapply section_ok_intro; [apply ssort_NoDup, HX|rewrite Hget; reflexivity|wordlit|rewrite Hget; reflexivity|exact Hbm|].
    intros k w. rewrite Hget. fields k; try discriminate. intros Hk _ _. eapply field_writes; [exact Hf|notin|exact Hk].
  - intros s' Hnd' Gt Gn G. unfold switch_main_back. dget_now. rewrite Gn. cbn [bind]. dget_now.
    assert (Gd : dget "name" s' = Some (VStr n)) by (rewrite G; ev; rewrite Hget; ev; rewrite Hn; apply uci_text, Hnn).
    rewrite Gd. cbn [bind]. unfold set_unless. rewrite py_eq_text.
    set (s1 := ddel ".type" (ddel ".name" s')). assert (Hs1 : NoDup (dkeys s1)) by (unfold s1; nodup).
    destruct (type_cast_pointwise switch_props (if String.eqb m n then s1 else dset "id" (VStr m) s1)
       (fun k => if String.eqb k "vlan" then None else dget k s)) as (y & Hy & Hny & Gy).
    + destruct (String.eqb m n); nodup.
    + intros k.
      assert (E : dget k (if String.eqb m n then s1 else dset "id" (VStr m) s1) =
        if String.eqb k "id" then dget "id" s else if String.eqb k ".type" then None else if String.eqb k ".name" then None else dget k s').
      { destruct Hm as [(Hm & ->)|(Hm & Hm')].
        - ev. unfold s1. dg. fields k; try reflexivity. rewrite G. ev. rewrite Hget. ev. congruence.
        - rewrite eqb_neq by exact Hm'. unfold s1. dg. fields k; congruence. }
      rewrite E. fields k; try dotted Hf.
      * destruct (dget "id" s) as [w|] eqn:Ew; [|reflexivity]. eexists. split; reflexivity.
      * rewrite G. ev. rewrite Hget. ev. reflexivity.
      * rewrite G, Hget. ev. others k Hnd Hf.
    + rewrite Hy. cbn [bind]. unfold dgetE, dmem. rewrite !Gy. ev. rewrite Hn. cbn [bind]. rewrite py_eq_text, eqb_refl. cbn [negb andb].
      exists y. split; [reflexivity|]. apply same_of_map. intros k. rewrite Gy. dg. reflexivity.
Qed.

(** ** Reading all the switches back *)
Lemma dset_dset (V : Type) k (a b : V) : forall d, dset k b (dset k a d) = dset k b d.
Proof.
  induction d as [|[k' v] d IH]; cbn [dset]; [rewrite eqb_refl; reflexivity|].
  destruct (String.eqb k k') eqn:E; cbn [dset]; rewrite E; [reflexivity|]. f_equal. exact IH.
Qed.
Definition sw_step (st : switch_state) (d : dict) : res switch_state := switch_bwd_block d st 0.
Lemma switch_step_index d st i : switch_bwd_block d st i = sw_step st d.
Proof. reflexivity. Qed.

(** One switch as read: its name, its section, its object, and for each VLAN
    its section and object. *)
Record group := { gr_name : string; gr_main : dict; gr_sw : dict; gr_vlans : list (dict * dict) }.
Definition main_ok (g : group) : Prop :=
  dget ".type" (gr_main g) = Some (VStr "switch") /\ switch_main_back (gr_main g) = Ok (gr_sw g) /\
  dget "name" (gr_sw g) = Some (VStr (gr_name g)) /\ dget "vlan" (gr_sw g) = None.
Definition vlan_reads (n : string) (i : nat) (p : dict * dict) : Prop :=
  dget ".type" (fst p) = Some (VStr "switch_vlan") /\ vlan_back (fst p) i = Ok (snd p) /\
  dget "device" (snd p) = Some (VStr n).
Fixpoint vlans_read (n : string) (c : nat) (l : list (dict * dict)) : Prop :=
  match l with [] => True | p :: t => vlan_reads n (S c) p /\ vlans_read n (S c) t end.
Fixpoint groups_ok (c : nat) (gs : list group) : Prop :=
  match gs with
  | [] => True
  | g :: t => main_ok g /\ vlans_read (gr_name g) c (gr_vlans g) /\ gr_vlans g <> [] /\
              groups_ok (c + length (gr_vlans g)) t
  end.
Definition finished (g : group) : dict := dset "vlan" (VList (map VDict (map snd (gr_vlans g)))) (gr_sw g).

Lemma main_step g st : main_ok g -> sw_step st (gr_main g) = Ok
  {| sw_list := sw_list st ++ [gr_sw g]; sw_map := dset (gr_name g) (length (sw_list st)) (sw_map st); sw_count := 0 |}.
Proof.
  intros (Ht & Hb & Hn & _). unfold sw_step, switch_bwd_block, switch_main_back in *.
  apply bind_Ok in Hb as (name & -> & Hb). apply bind_Ok in Hb as (n & Hd & Hb). cbn [bind].
  unfold dgetE at 1. rewrite Ht. cbn [bind]. rewrite py_eq_text, eqb_refl.
  match goal with |- context [dgetE "name" ?x] => change (dgetE "name" x) with (dgetE "name" (ddel ".type" (ddel ".name" (gr_main g)))) end.
  rewrite Hd. cbn [bind]. rewrite Hb. cbn [bind]. unfold dgetE. rewrite Hn. reflexivity.
Qed.
Lemma mains_fold : forall gs st, (forall g, In g gs -> main_ok g) -> NoDup (map gr_name gs) -> 
  exists M cnt, foldM sw_step st (map gr_main gs) = Ok {| sw_list := sw_list st ++ map gr_sw gs; sw_map := M; sw_count := cnt |} /\
    (gs <> [] -> cnt = 0) /\
    (forall i g, nth_error gs i = Some g -> dget (gr_name g) M = Some (length (sw_list st) + i)%nat) /\
    (forall n, ~ In n (map gr_name gs) -> dget n M = dget n (sw_map st)).
Proof.
  induction gs as [|g gs IH]; intros st H Hnd.
  - exists (sw_map st), (sw_count st). cbn. rewrite app_nil_r. split; [destruct st; reflexivity|]. split; [congruence|].
    split; [intros [|i] g E; discriminate E|auto].
  - cbn [map foldM]. rewrite main_step by (apply H; left; reflexivity). cbn [bind].
    inversion Hnd as [|? ? Hni Hnd']; subst.
    match goal with |- context [foldM sw_step ?s _] => set (st1 := s) end.
    destruct (IH st1) as (M & cnt & E & Hc & Hm & Ho); [intros x Hx; apply H; right; exact Hx|exact Hnd'|].
    exists M, cnt. rewrite E. unfold st1 at 1. cbn [sw_list]. rewrite <- app_assoc. split; [reflexivity|]. split; [|split].
    + intros _. destruct gs as [|x gs']; [|apply Hc; discriminate]. cbn in E. injection E as _ _ <-. reflexivity.
    + intros [|i] x Hx.
      * cbn in Hx. injection Hx as <-. rewrite Ho by exact Hni. unfold st1. cbn [sw_map]. rewrite dget_dset, eqb_refl. f_equal. lia.
      * rewrite (Hm i x Hx). unfold st1. cbn [sw_list]. rewrite app_length. cbn. f_equal. lia.
    + intros n Hn. rewrite Ho by (intros Hx; apply Hn; right; exact Hx). unfold st1. cbn [sw_map]. rewrite dget_dset.
      rewrite eqb_neq; [reflexivity|]. intros ->. apply Hn. left; reflexivity.
Qed.
Lemma update_nth_mid (A : Type) (f : A -> res A) a d b d' : f d = Ok d' -> update_nth (length a) f (a ++ d :: b) = Ok (a ++ d' :: b)%list.
Proof. intros H. induction a as [|x a IH]; cbn; [rewrite H; reflexivity|rewrite IH; reflexivity]. Qed.
Lemma vlan_step n c p a d b M : vlan_reads n (S c) p -> dget n M = Some (length a) ->
  (dget "vlan" d = None \/ exists l, dget "vlan" d = Some (VList l)) ->
  sw_step {| sw_list := a ++ d :: b; sw_map := M; sw_count := c |} (fst p) =
  Ok {| sw_list := a ++ dset "vlan" (VList (match dget "vlan" d with Some (VList l) => l | _ => [] end ++ [VDict (snd p)])) d :: b;
        sw_map := M; sw_count := S c |}.
Proof.
  intros (Ht & Hb & Hd) HM Hl. unfold sw_step, switch_bwd_block. unfold vlan_back in Hb.
  apply bind_Ok in Hb as (name & -> & Hb). apply bind_Ok in Hb as (dev & Hdev & Hb). apply bind_Ok in Hb as (w & Hw & Hb). cbn [bind].
  unfold dgetE at 1. rewrite Ht. cbn [bind]. rewrite py_eq_text. change (String.eqb "switch_vlan" "switch") with false. cbn iota.
  cbn [sw_count sw_map sw_list]. rewrite Hdev. cbn [bind]. rewrite Hw. cbn [bind]. rewrite Hb. cbn [bind]. unfold dgetE at 1. rewrite Hd. cbn [bind as_key].
  rewrite HM. erewrite update_nth_mid; [cbn [bind]; reflexivity|]. unfold attach_vlan.
  destruct Hl as [->|[l ->]]; reflexivity.
Qed.
Lemma vlans_fold n a b M : forall vl c d acc, vlans_read n c vl -> dget n M = Some (length a) ->
  dget "vlan" d = Some (VList acc) ->
  foldM sw_step {| sw_list := a ++ d :: b; sw_map := M; sw_count := c |} (map fst vl) =
  Ok {| sw_list := a ++ dset "vlan" (VList (acc ++ map VDict (map snd vl))) d :: b; sw_map := M; sw_count := c + length vl |}.
Proof.
  induction vl as [|p vl IH]; intros c d acc H HM Hd.
  - cbn. rewrite app_nil_r, Nat.add_0_r.
    assert (E : dset "vlan" (VList acc) d = d).
    { clear -Hd. induction d as [|[k v] d IH]; [discriminate|]. cbn [dset dget] in *. destruct (String.eqb "vlan" k); [congruence|].
      f_equal. apply IH, Hd. }
    rewrite E. reflexivity.
  - destruct H as [Hp H]. cbn [map foldM]. rewrite (vlan_step n c p a d b M Hp HM) by (right; eauto). rewrite Hd. cbn [bind].
    rewrite (IH (S c) _ (acc ++ [VDict (snd p)])%list H HM) by (rewrite dget_dset; reflexivity).
    rewrite dset_dset. cbn [length map]. rewrite <- app_assoc. cbn [app]. f_equal. f_equal. lia.
Qed.
Lemma vlans_fold0 n a b M c d vl : vlans_read n c vl -> dget n M = Some (length a) -> dget "vlan" d = None -> vl <> [] ->
  foldM sw_step {| sw_list := a ++ d :: b; sw_map := M; sw_count := c |} (map fst vl) =
  Ok {| sw_list := a ++ dset "vlan" (VList (map VDict (map snd vl))) d :: b; sw_map := M; sw_count := c + length vl |}.
Proof.
  destruct vl as [|p vl]; intros H HM Hd Hne; [congruence|]. destruct H as [Hp H].
  cbn [map foldM]. rewrite (vlan_step n c p a d b M Hp HM) by (left; exact Hd). rewrite Hd. cbn [bind app].
  rewrite (vlans_fold n a b M vl (S c) _ [VDict (snd p)] H HM) by (rewrite dget_dset; reflexivity).
  rewrite dset_dset. cbn [length map app]. f_equal. f_equal. lia.
Qed.
Lemma groups_fold M : forall gs c done, groups_ok c gs ->
  (forall i g, nth_error gs i = Some g -> dget (gr_name g) M = Some (length done + i)%nat) ->
  exists c', foldM sw_step {| sw_list := done ++ map gr_sw gs; sw_map := M; sw_count := c |}
      (flat_map (fun g => map fst (gr_vlans g)) gs) =
    Ok {| sw_list := done ++ map finished gs; sw_map := M; sw_count := c' |}.
Proof.
  induction gs as [|g gs IH]; intros c done H HM; [exists c; reflexivity|].
  destruct H as ((_ & _ & _ & Hv) & Hr & Hne & H). cbn [map flat_map]. rewrite foldM_app.
  rewrite (vlans_fold0 (gr_name g) done (map gr_sw gs) M c (gr_sw g) (gr_vlans g) Hr) by (exact Hne || exact Hv || (rewrite (HM 0 g eq_refl); f_equal; lia)).
  cbn [bind]. fold (finished g).
  destruct (IH (c + length (gr_vlans g)) (done ++ [finished g])%list H) as (c' & E).
  - intros i x Hx. rewrite (HM (S i) x Hx), app_length. cbn. f_equal. lia.
  - exists c'. rewrite <- !app_assoc in E. cbn [app] in E. exact E.
Qed.

(** ** The loop *)
Lemma bwd_loop_fold (A : Type) (skip : dict -> bool) (f : dict -> A -> nat -> res A) (g : A -> dict -> res A) :
  (forall d a i, f d a i = g a d) -> forall ds i left acc acc',
  foldM (fun a d => if skip d then Ok a else g a d) acc ds = Ok acc' ->
  bwd_loop skip f (map VDict ds) i left acc =
    (fold_left (fun l d => if skip d then l else remove_first (VDict d) l) ds left, Ok acc').
Proof.
  intros Hf. induction ds as [|d ds IH]; intros i left acc acc' H; cbn in H.
  - injection H as <-. reflexivity.
  - cbn [map bwd_loop as_dict fold_left]. destruct (skip d); [apply IH; exact H|].
    rewrite Hf. apply bind_Ok in H as (a1 & Hg & H). rewrite Hg. apply IH, H.
Qed.
(** Removing by name *)
Definition has_name (n : string) (d : dict) : bool := match dget ".name" d with Some (VStr m) => String.eqb m n | _ => false end.
Definition drop_name (n : string) (l : list dict) : list dict := filter (fun d => negb (has_name n d)) l.
Lemma drop_absent n : forall l ns, named l ns -> ~ In n ns -> drop_name n l = l.
Proof.
  intros l ns H. induction H as [|d m l ns Hd H IH]; intros Hn; [reflexivity|]. unfold drop_name. cbn [filter]. unfold has_name at 1. unfold sec_name in Hd. rewrite Hd.
  rewrite eqb_neq by (intros ->; apply Hn; left; reflexivity). cbn [negb]. f_equal. apply IH. intros Hx. apply Hn. right; exact Hx.
Qed.
Lemma remove_first_named d n l ns : In d l -> sec_name d n -> named l ns -> NoDup ns -> wf (VDict d) ->
  remove_first (VDict d) (map VDict l) = map VDict (drop_name n l).
Proof.
  intros Hin Hd H Hnd Hw. revert Hin Hnd. induction H as [|x m l ns Hx H IH]; intros Hin Hnd; [contradiction|].
  inversion Hnd as [|? ? Hni Hnd']; subst. cbn [map remove_first]. unfold drop_name. cbn [filter]. unfold has_name at 1. unfold sec_name in Hx. rewrite Hx.
  destruct (String.eqb_spec m n) as [->|Hmn].
  - cbn [negb]. change (filter (fun d0 => negb (has_name n d0)) l) with (drop_name n l). rewrite (drop_absent n l ns H Hni).
    destruct Hin as [->|Hin]; [rewrite py_eq_refl by exact Hw; reflexivity|].
    exfalso. destruct (Forall2_In_l _ _ _ _ H Hin) as (m' & Hm' & Hdm). unfold sec_name in *. rewrite Hd in Hdm. injection Hdm as ->. contradiction.
  - cbn [negb map]. destruct (py_eq (VDict x) (VDict d)) eqn:E.
    + exfalso. apply Hmn. eapply py_eq_name; eassumption.
    + f_equal. destruct Hin as [->|Hin]; [exfalso; apply Hmn; unfold sec_name in Hd; congruence|]. apply IH; assumption.
Qed.
Lemma named_filter p l ns : named l ns -> NoDup ns -> exists ns', named (filter p l) ns' /\ NoDup ns' /\ incl ns' ns.
Proof.
  intros H. induction H as [|x m l ns Hx H IH]; intros Hnd; [exists (@nil string); repeat split; [constructor|constructor|intros y []]|].
  inversion Hnd as [|? ? Hni Hnd']; subst. destruct (IH Hnd') as (ns' & H1 & H2 & H3). cbn [filter]. destruct (p x).
  - exists (m :: ns'). split; [constructor; assumption|]. split; [constructor; [intros Hm; apply Hni, H3, Hm|exact H2]|].
    intros y [<-|Hy]; [left; reflexivity|right; apply H3, Hy].
  - exists ns'. repeat split; try assumption. intros y Hy. right. apply H3, Hy.
Qed.
Definition name_in (names : list string) (d : dict) : bool :=
  match dget ".name" d with Some (VStr m) => existsb (String.eqb m) names | _ => false end.
Lemma filter_filter (A : Type) (p q : A -> bool) l : filter p (filter q l) = filter (fun x => q x && p x) l.
Proof. induction l as [|x l IH]; [reflexivity|]. cbn. destruct (q x); cbn; destruct (p x); rewrite ?IH; reflexivity. Qed.
Lemma remove_all : forall ds dns l ns, named ds dns -> NoDup dns -> incl ds l -> named l ns -> NoDup ns -> (forall d, In d ds -> wf (VDict d)) ->
  fold_left (fun l d => remove_first (VDict d) l) ds (map VDict l) = map VDict (filter (fun d => negb (name_in dns d)) l).
Proof.
  intros ds dns l ns H. revert l ns. induction H as [|d n ds dns Hd H IH]; intros l ns Hdn Hincl Hl Hnd Hw.
  - cbn [fold_left]. f_equal. transitivity (filter (fun _ : dict => true) l); [clear; induction l as [|x l IH]; [reflexivity|cbn; congruence]|].
    apply filter_ext. intros x. unfold name_in. destruct (dget ".name" x) as [[]|]; reflexivity.
  - cbn [fold_left]. inversion Hdn as [|? ? Hni Hdn']; subst.
    rewrite (remove_first_named d n l ns) by first [assumption | apply Hincl; left; reflexivity | apply Hw; left; reflexivity].
    destruct (named_filter (fun d => negb (has_name n d)) l ns Hl Hnd) as (ns' & H1 & H2 & _).
    rewrite (IH (drop_name n l) ns'); try assumption.
    + unfold drop_name. rewrite filter_filter. f_equal. apply filter_ext. intros x. unfold has_name, name_in.
      destruct (dget ".name" x) as [[]|]; try reflexivity. cbn [existsb]. rewrite negb_orb. reflexivity.
    + intros x Hx. apply filter_In. split; [apply Hincl; right; exact Hx|].
      destruct (Forall2_In_l _ _ _ _ H Hx) as (m & Hm & Hxm). unfold has_name. unfold sec_name in Hxm. rewrite Hxm.
      rewrite eqb_neq by (intros ->; contradiction). reflexivity.
    + intros x Hx. apply Hw. right; exact Hx.
Qed.

(** ** The stage *)
From Coq Require Import Permutation.
Definition sw_types := ["switch"; "switch_vlan"].
Definition switch_stage (l : option (list dict)) (ss : list dict) : stage :=
  {| sg_conv := switch; sg_key := "switch"; sg_pkg := "network"; sg_base := None; sg_val := option_map (fun l => VList (map VDict l)) l; sg_more := [];
     sg_secs := ss; sg_eats := fun d => negb (skip_block sw_types d) |}.
Lemma skip_type types d : d <> [] -> types <> [] -> skip_block types d = negb (type_in types d).
Proof. intros H H'. destruct d; [congruence|]. destruct types; [congruence|]. reflexivity. Qed.
Lemma dget_nonempty (d : dict) k v : dget k d = Some v -> d <> [].
Proof. intros H ->. discriminate H. Qed.

Lemma add_blocks_acc_n key l ss : ss <> [] -> add_blocks key ss (acc_of key l) = acc_of key (l ++ ss).
Proof.
  intros Hne. unfold add_blocks, acc_of. destruct l as [|x l].
  - cbn. destruct ss; [congruence|reflexivity].
  - cbn [dget]. rewrite eqb_refl. cbn [dset]. rewrite eqb_refl. destruct (((x :: l) ++ ss)%list) eqn:E; [discriminate|].
    rewrite <- E, map_app. reflexivity.
Qed.

(** The sections of a switch and of all the switches *)
Inductive sw_secs : nat -> list dict -> list dict -> Prop :=
| sws_nil c : sw_secs c [] []
| sws_cons c s l n vlans main vsecs ss :
    switch_sections s = Ok (main :: vsecs) -> dget "name" s = Some (VStr n) ->
    NoDup (dkeys s) -> dget "vlan" s = Some (VList (map VDict vlans)) -> vlans <> [] ->
    object_rt (ddel "vlan" s) (name_or "id" n s) "switch" (Ok main)
      (fun b => do s' <- switch_main_back b; do d <- dgetE "name" s'; if py_eq d (VStr n) && negb (dmem "vlan" s') then Ok s' else Err EType) ->
    indexed (fun j v vs => object_rt v (vlan_name n j v) "switch_vlan" (Ok vs)
      (fun s => do v' <- vlan_back s (c + j); do d <- dgetE "device" v'; if py_eq d (VStr n) then Ok v' else Err EType)) 0 vlans vsecs ->
    sw_secs (c + length vlans) l ss -> sw_secs c (s :: l) (main :: vsecs ++ ss).

Lemma object_rt_sec b n t sec back : object_rt b n t sec back -> exists s, sec = Ok s /\ object_rt b n t (Ok s) back.
Proof. intros (s & E & H). exists s. split; [exact E|]. exists s. split; [reflexivity|exact H]. Qed.
Lemma vlan_secs_exist n c : forall vlans j, (forall i v, nth_error vlans i = Some v -> vlan_ok n c (S (j + i)) v) ->
  exists vsecs, vlan_sections (VStr n) (map VDict vlans) (S j) = Ok vsecs /\
    indexed (fun j v vs => object_rt v (vlan_name n j v) "switch_vlan" (Ok vs)
      (fun s => do v' <- vlan_back s (c + j); do d <- dgetE "device" v'; if py_eq d (VStr n) then Ok v' else Err EType)) j vlans vsecs.
Proof.
  induction vlans as [|v vlans IH]; intros j H; [exists []; split; [reflexivity|constructor]|].
  destruct (object_rt_sec _ _ _ _ _ (vlan_object n c (S j) v ltac:(rewrite <- (Nat.add_0_r j); apply (H 0 v); reflexivity))) as (s & Es & Hs).
  destruct (IH (S j)) as (vsecs & Ev & Hv).
  - intros i w Hw. replace (S (S j + i)) with (S (j + S i)) by lia. apply H. exact Hw.
  - exists (s :: vsecs). cbn [map vlan_sections as_dict bind]. rewrite Es. cbn [bind]. rewrite Ev. split; [reflexivity|].
    constructor; assumption.
Qed.
Lemma switch_sections_exist c s : switch_ok c s -> exists n vlans main vsecs,
    switch_sections s = Ok (main :: vsecs) /\ dget "name" s = Some (VStr n) /\
    dget "vlan" s = Some (VList (map VDict vlans)) /\ vlans <> [] /\
    object_rt (ddel "vlan" s) (name_or "id" n s) "switch" (Ok main)
      (fun b => do s' <- switch_main_back b; do d <- dgetE "name" s'; if py_eq d (VStr n) && negb (dmem "vlan" s') then Ok s' else Err EType) /\
    indexed (fun j v vs => object_rt v (vlan_name n j v) "switch_vlan" (Ok vs)
      (fun s => do v' <- vlan_back s (c + j); do d <- dgetE "device" v'; if py_eq d (VStr n) then Ok v' else Err EType)) 0 vlans vsecs.
Proof.
  intros H. destruct (switch_object c s H) as (n & Hn & Hobj).
  destruct H as (Hnd & n' & vlans & Hn' & Hid & Hv & Hne & Hvl & Hf).
  rewrite Hn in Hn'. injection Hn' as <-.
  destruct (vlan_secs_exist n c vlans 0) as (vsecs & Ev & Hi); [exact Hvl|].
  exists n, vlans, (switch_main s (name_or "id" n s)), vsecs.
  split; [|auto 10]. unfold switch_sections.
  assert (En : (if truthy (pop_or "id" VNull s) then Ok (pop_or "id" VNull s) else dgetE "name" (ddel "id" s)) = Ok (VStr (name_or "id" n s))).
  { unfold pop_or, name_or. destruct (dget "id" s) as [w|] eqn:Ei.
    - destruct Hid as (m & -> & Hw & _). rewrite truthy_text by apply Hw. reflexivity.
    - cbn [truthy]. dget_now. rewrite Hn. reflexivity. }
  rewrite En. cbn [bind].
  assert (Evl : dgetE "vlan" (dupdate (ddel "id" s) [(".type", VStr "switch"); (".name", VStr (name_or "id" n s))]) = Ok (VList (map VDict vlans)))
    by (dget_now; rewrite Hv; reflexivity).
  rewrite Evl. cbn [bind as_list].
  assert (Enm : dgetE "name" (dupdate (ddel "id" s) [(".type", VStr "switch"); (".name", VStr (name_or "id" n s))]) = Ok (VStr n))
    by (dget_now; rewrite Hn; reflexivity).
  destruct vlans as [|v0 vlans]; [congruence|]. cbn [map] in Ev |- *. rewrite Enm. cbn [bind]. rewrite Ev. reflexivity.
Qed.
Lemma vlans_of_length s vlans : dget "vlan" s = Some (VList (map VDict vlans)) -> length (vlans_of s) = length vlans.
Proof. intros H. unfold vlans_of. rewrite H. apply map_length. Qed.
Lemma sw_secs_exist : forall l c, switches_ok c l -> exists ss, sw_secs c l ss.
Proof.
  induction l as [|s l IH]; intros c H; [exists []; constructor|]. destruct H as [Hs H].
  destruct (switch_sections_exist c s Hs) as (n & vlans & main & vsecs & H1 & H2 & H3 & H4 & H5 & H6).
  rewrite (vlans_of_length s vlans H3) in H. destruct (IH _ H) as (ss & Hss).
  exists (main :: vsecs ++ ss). econstructor; try eassumption. apply Hs.
Qed.
Lemma switch_stage_fwd config l ss before : dget "switch" config = Some (VList (map VDict l)) -> sw_secs 0 l ss ->
  stage_fwd config before (switch_stage (Some l) ss).
Proof.
  intros Hk H. unfold stage_fwd. cbn. unfold dmem. rewrite Hk. right. split; [reflexivity|]. intros inter _.
  unfold fwd_list, dgetN. rewrite Hk. cbn [as_list bind].
  assert (G : forall i acc, fwd_loop switch_fwd_block (map VDict l) i (acc_of "network" acc) = Ok (acc_of "network" (acc ++ ss))).
  { clear Hk. induction H as [|c s l n vlans main vsecs ss H1 _ _ _ _ _ _ _ IH]; intros i acc.
    - cbn. rewrite app_nil_r. reflexivity.
    - cbn [map fwd_loop as_dict bind]. unfold switch_fwd_block at 1. rewrite H1. cbn [bind].
      rewrite add_blocks_acc_n by discriminate. rewrite IH. rewrite <- app_assoc. reflexivity. }
  change [] with (acc_of "network" []) at 1. rewrite (G 0 []). reflexivity.
Qed.

Definition group_secs (g : group) : list dict := gr_main g :: map fst (gr_vlans g).
Lemma dset_same s n sw vlans vs : NoDup (dkeys s) -> dget "name" s = Some (VStr n) -> dget "vlan" s = Some (VList (map VDict vlans)) ->
  same (VDict (ddel "vlan" s)) (VDict sw) -> Forall2 (fun a b => same (VDict a) (VDict b)) vlans vs ->
  same (VDict s) (VDict (dset "vlan" (VList (map VDict vs)) sw)).
Proof.
  intros Hnd Hn Hv Hsame Hvs.
  assert (Hd : (forall k v, dget k (ddel "vlan" s) = Some v -> exists v', dget k sw = Some v' /\ same v v') /\
     (forall k, dget k (ddel "vlan" s) = None -> dget k sw = None)).
  { inversion Hsame; subst; [|auto]. split; [intros k v Hk; exists v; split; [exact Hk|apply same_refl]|auto]. }
  destruct Hd as [H1 H2]. apply same_dict.
  - intros k v Hk. rewrite dget_dset. destruct (String.eqb_spec k "vlan") as [->|Hn'].
    + rewrite Hv in Hk. injection Hk as <-. eexists. split; [reflexivity|]. apply same_lists, Hvs.
    + apply H1. dg. ev. exact Hk.
  - intros k Hk. rewrite dget_dset. destruct (String.eqb_spec k "vlan") as [->|Hn']; [congruence|]. apply H2. dg. ev. exact Hk.
Qed.
Lemma vlans_read_back n c : forall vlans vsecs own j, 
  indexed (fun j v vs => object_rt v (vlan_name n j v) "switch_vlan" (Ok vs)
      (fun s => do v' <- vlan_back s (c + j); do d <- dgetE "device" v'; if py_eq d (VStr n) then Ok v' else Err EType)) j vlans vsecs ->
  Forall2 section_reads vsecs own ->
  exists vl, map fst vl = own /\ vlans_read n (c + j) vl /\ Forall2 (fun a b => same (VDict a) (VDict b)) vlans (map snd vl).
Proof.
  intros vlans vsecs own j H. revert own. induction H as [j|j v vs vlans vsecs (s & E & _ & _ & _ & Hb) H IH]; intros own F; inversion F; subst.
  - exists []. repeat split. constructor.
  - injection E as <-. destruct (Hb _ H2) as (Ht & v' & Hv' & Hs). apply bind_Ok in Hv' as (w & Hw & Hv'). apply bind_Ok in Hv' as (d & Hd & Hv').
    destruct (py_eq d (VStr n)) eqn:Ed; [|discriminate]. injection Hv' as <-.
    destruct (IH _ H4) as (vl & E1 & E2 & E3). exists ((y, w) :: vl). cbn [map fst snd]. split; [congruence|]. split.
    + cbn [vlans_read]. rewrite <- Nat.add_succ_r. split; [|exact E2]. split; [exact Ht|]. split; [exact Hw|]. cbn [snd].
      unfold dgetE in Hd. destruct (dget "device" w) as [d'|]; [|discriminate]. injection Hd as <-. destruct d'; try discriminate Ed.
      apply String.eqb_eq in Ed. congruence.
    + constructor; assumption.
Qed.
Lemma groups_read : forall c l ss own, sw_secs c l ss -> Forall2 section_reads ss own ->
  exists gs, own = flat_map group_secs gs /\ groups_ok c gs /\ map gr_name gs = map (name_or "name" EmptyString) l /\
    Forall2 (fun s s' => same (VDict s) (VDict s')) l (map finished gs).
Proof.
  intros c l ss own H. revert own. induction H as [c|c s l n vlans main vsecs ss H1 Hn Hnd Hv Hne (m0 & E & _ & _ & _ & Hb) Hi H IH]; intros own F.
  - inversion F; subst. exists []. repeat split. constructor.
  - inversion F as [|? main' ? own' Hm F']; subst. injection E as <-. apply Forall2_app_l in F' as (vown & rown & -> & Fv & Fr).
    destruct (Hb _ Hm) as (Ht & s' & Hs' & Hsame). apply bind_Ok in Hs' as (w & Hw & Hs'). apply bind_Ok in Hs' as (d & Hd & Hs').
    destruct (py_eq d (VStr n) && negb (dmem "vlan" w)) eqn:Ed; [|discriminate]. injection Hs' as <-. apply andb_prop in Ed as [Ed Em].
    destruct (vlans_read_back n c _ _ _ _ Hi Fv) as (vl & <- & Hvl & Hvs).
    destruct (IH _ Fr) as (gs & -> & Hgs & Hnames & Hfin).
    assert (Hlen : length vl = length vlans) by (apply Forall2_length in Hvs; rewrite map_length in Hvs; congruence).
    exists ({| gr_name := n; gr_main := main'; gr_sw := w; gr_vlans := vl |} :: gs).
    split; [reflexivity|]. split; [|split].
    + cbn [groups_ok gr_vlans gr_name]. split; [|split; [|split]].
      * split; [exact Ht|]. split; [exact Hw|]. cbn [gr_sw gr_name]. split.
        -- unfold dgetE in Hd. destruct (dget "name" w) as [d'|]; [|discriminate]. injection Hd as <-. destruct d'; try discriminate Ed.
           apply String.eqb_eq in Ed. congruence.
        -- apply negb_true_iff in Em. unfold dmem in Em. destruct (dget "vlan" w); [discriminate|reflexivity].
      * rewrite <- (Nat.add_0_r c). exact Hvl.
      * intros ->. destruct vlans; [congruence|discriminate Hlen].
      * rewrite Hlen. exact Hgs.
    + cbn [map gr_name]. rewrite Hnames. f_equal. unfold name_or. rewrite Hn. reflexivity.
    + cbn [map]. constructor; [|exact Hfin]. unfold finished. cbn [gr_vlans gr_sw]. eapply dset_same; eassumption.
Qed.

Lemma groups_types : forall gs c, groups_ok c gs ->
  (forall g, In g gs -> main_ok g) /\
  forall d, In d (flat_map group_secs gs) -> type_in sw_types d = true.
Proof.
  induction gs as [|g gs IH]; intros c H; [split; [intros g []|intros d []]|]. destruct H as (Hm & Hv & _ & H).
  destruct (IH _ H) as [H1 H2]. split; [intros x [<-|Hx]; [exact Hm|apply H1, Hx]|].
  intros d Hd. cbn [flat_map] in Hd. apply in_app_iff in Hd as [Hd|Hd]; [|apply H2, Hd].
  destruct Hd as [<-|Hd].
  - destruct Hm as (Ht & _). unfold type_in. rewrite Ht. reflexivity.
  - apply in_map_iff in Hd as (p & <- & Hp). clear -Hv Hp. revert c Hv. induction (gr_vlans g) as [|q l IHl]; intros c Hv; [contradiction|].
    destruct Hv as [(Ht & _) Hv]. destruct Hp as [->|Hp]; [unfold type_in; rewrite Ht; reflexivity|]. eapply IHl; eassumption.
Qed.
Lemma filter_none (A : Type) (p : A -> bool) l : (forall x, In x l -> p x = false) -> filter p l = [].
Proof. induction l as [|x l IH]; intros H; [reflexivity|]. cbn. rewrite H by (left; reflexivity). apply IH. intros y Hy. apply H. right; exact Hy. Qed.
Lemma filter_all (A : Type) (p : A -> bool) l : (forall x, In x l -> p x = true) -> filter p l = l.
Proof. induction l as [|x l IH]; intros H; [reflexivity|]. cbn. rewrite H by (left; reflexivity). f_equal. apply IH. intros y Hy. apply H. right; exact Hy. Qed.
Definition is_vlan (d : dict) : bool := type_in ["switch_vlan"] d.
Lemma clean_map l : switch_clean (map VDict l) = map VDict (filter (fun d => negb (is_vlan d)) l ++ filter is_vlan l).
Proof.
  assert (G : forall p q, (forall d, p (VDict d) = q d) -> filter p (map VDict l) = map VDict (filter q l)).
  { intros p q H. induction l as [|x l IH]; [reflexivity|]. cbn. rewrite H. destruct (q x); cbn; rewrite IH; reflexivity. }
  unfold switch_clean. rewrite map_app. f_equal; apply G; reflexivity.
Qed.
Lemma groups_split : forall gs c, groups_ok c gs ->
  filter (fun d => negb (is_vlan d)) (flat_map group_secs gs) = map gr_main gs /\
  filter is_vlan (flat_map group_secs gs) = flat_map (fun g => map fst (gr_vlans g)) gs.
Proof.
  induction gs as [|g gs IH]; intros c H; [split; reflexivity|]. destruct H as ((Ht & _) & Hv & _ & H). destruct (IH _ H) as [E1 E2].
  assert (Hvl : forall d, In d (map fst (gr_vlans g)) -> is_vlan d = true).
  { intros d Hd. apply in_map_iff in Hd as (p & <- & Hp). clear -Hv Hp. revert c Hv. induction (gr_vlans g) as [|q l IHl]; intros c Hv; [contradiction|].
    destruct Hv as [(Hq & _) Hv]. destruct Hp as [->|Hp]; [unfold is_vlan, type_in; rewrite Hq; reflexivity|]. eapply IHl; eassumption. }
  assert (Hm : is_vlan (gr_main g) = false) by (unfold is_vlan, type_in; rewrite Ht; reflexivity).
  cbn [flat_map map]. rewrite !filter_app, E1, E2. unfold group_secs. cbn [filter]. rewrite Hm. cbn [negb].
  rewrite (filter_none _ _ (map fst (gr_vlans g))) by (intros x Hx; rewrite Hvl by exact Hx; reflexivity).
  rewrite (filter_all _ is_vlan (map fst (gr_vlans g)) Hvl). split; reflexivity.
Qed.
Lemma foldM_skip (A : Type) (skip : dict -> bool) (g : A -> dict -> res A) : forall ds acc,
  (forall d, In d ds -> skip d = true) -> foldM (fun a d => if skip d then Ok a else g a d) acc ds = Ok acc.
Proof. induction ds as [|d ds IH]; intros acc H; [reflexivity|]. cbn. rewrite H by (left; reflexivity). cbn. apply IH. intros x Hx. apply H. right; exact Hx. Qed.
Lemma foldM_take (A : Type) (skip : dict -> bool) (g : A -> dict -> res A) : forall ds acc,
  (forall d, In d ds -> skip d = false) -> foldM (fun a d => if skip d then Ok a else g a d) acc ds = foldM g acc ds.
Proof.
  induction ds as [|d ds IH]; intros acc H; [reflexivity|]. cbn. rewrite H by (left; reflexivity). destruct (g acc d); cbn; [|reflexivity].
  apply IH. intros x Hx. apply H. right; exact Hx.
Qed.
Lemma fold_skip (B : Type) (skip : dict -> bool) (g : B -> dict -> B) : forall ds acc,
  (forall d, In d ds -> skip d = true) -> fold_left (fun a d => if skip d then a else g a d) ds acc = acc.
Proof. induction ds as [|d ds IH]; intros acc H; [reflexivity|]. cbn. rewrite H by (left; reflexivity). apply IH. intros x Hx. apply H. right; exact Hx. Qed.
Lemma fold_take (B : Type) (skip : dict -> bool) (g : B -> dict -> B) : forall ds acc,
  (forall d, In d ds -> skip d = false) -> fold_left (fun a d => if skip d then a else g a d) ds acc = fold_left g ds acc.
Proof. induction ds as [|d ds IH]; intros acc H; [reflexivity|]. cbn. rewrite H by (left; reflexivity). apply IH. intros x Hx. apply H. right; exact Hx. Qed.
Lemma filter_perm (A : Type) (p : A -> bool) l : Permutation (filter (fun x => negb (p x)) l ++ filter p l) l.
Proof.
  induction l as [|x l IH]; [constructor|]. cbn. destruct (p x); cbn.
  - rewrite <- Permutation_middle. constructor. exact IH.
  - constructor. exact IH.
Qed.

Lemma switch_stage_bwd orig l ss : l <> [] -> NoDup (map (name_or "name" EmptyString) l) -> sw_secs 0 l ss ->
  stage_alone orig (switch_stage (Some l) ss).
Proof.
  intros Hne Hnames H. split; [reflexivity|]. cbn [sg_secs switch_stage sg_eats sg_pkg sg_conv sg_val sg_key option_map].
  intros own rest config inter Fo (ns & Hns & Hnd) Hwf Heats Hg.
  destruct (groups_read 0 l ss own H Fo) as (gs & -> & Hgs & Hgn & Hfin).
  destruct (groups_types gs 0 Hgs) as [Hmains Htypes]. destruct (groups_split gs 0 Hgs) as [E1 E2].
  assert (Hrest : forall d, In d rest -> skip_block sw_types d = true) by (intros d Hd; apply negb_false_iff, Heats, Hd).
  assert (Hown : forall d, In d (flat_map group_secs gs) -> skip_block sw_types d = false).
  { intros d Hd. pose proof (Htypes d Hd) as Ht. rewrite skip_type; [rewrite Ht; reflexivity| |discriminate].
    intros ->. discriminate Ht. }
  assert (Hrv : forall d, In d rest -> is_vlan d = false).
  { intros d Hd. specialize (Hrest d Hd). destruct d as [|kv d]; [reflexivity|]. rewrite skip_type in Hrest by discriminate.
    apply negb_true_iff in Hrest. unfold is_vlan, type_in in *. destruct (dget ".type" (kv :: d)) as [[]|]; try reflexivity.
    cbn in Hrest |- *. rewrite orb_false_r in Hrest |- *. apply orb_false_iff in Hrest. apply Hrest. }
  cbn [c_bwd switch simple_converter]. unfold switch_bwd, bwd_list. rewrite Hg. cbn [as_list]. rewrite clean_map, !filter_app, E1, E2.
  rewrite (filter_all _ _ rest) by (intros d Hd; rewrite Hrv by exact Hd; reflexivity). rewrite (filter_none _ is_vlan rest Hrv), app_nil_r.
  destruct (mains_fold gs {| sw_list := []; sw_map := []; sw_count := 0 |} Hmains ltac:(rewrite Hgn; exact Hnames)) as (M & cnt & Em & Hc & HM & _).
  assert (Hgne : gs <> []) by (intros ->; apply Forall2_length in Hfin; destruct l; [congruence|discriminate Hfin]).
  specialize (Hc Hgne). subst cnt. cbn [sw_list app] in Em, HM.
  destruct (groups_fold M gs 0 [] Hgs HM) as (c' & Ev). cbn [app] in Ev.
  assert (Hmin : forall d, In d (map gr_main gs) -> In d (flat_map group_secs gs)) by (intros d Hd; rewrite <- E1 in Hd; apply filter_In in Hd; apply Hd).
  assert (Hvin : forall d, In d (flat_map (fun g => map fst (gr_vlans g)) gs) -> In d (flat_map group_secs gs)) by (intros d Hd; rewrite <- E2 in Hd; apply filter_In in Hd; apply Hd).
  change (skip_block ["switch"; "switch_vlan"]) with (skip_block sw_types).
  rewrite (bwd_loop_fold _ (skip_block sw_types) switch_bwd_block sw_step switch_step_index _ 0 _ _ {| sw_list := map finished gs; sw_map := M; sw_count := c' |}).
  - cbn [bind sw_list].
    assert (Eleft : fold_left (fun l d => if skip_block sw_types d then l else remove_first (VDict d) l)
        ((map gr_main gs ++ rest) ++ flat_map (fun g => map fst (gr_vlans g)) gs) (map VDict (flat_map group_secs gs ++ rest)) = map VDict rest).
    { rewrite !fold_left_app.
      rewrite (fold_take _ _ _ (map gr_main gs)) by (intros d Hd; apply Hown, Hmin, Hd).
      rewrite (fold_skip _ _ _ rest) by exact Hrest.
      rewrite (fold_take _ _ _ (flat_map _ gs)) by (intros d Hd; apply Hown, Hvin, Hd).
      rewrite <- fold_left_app.
      assert (HP : Permutation (flat_map group_secs gs) (map gr_main gs ++ flat_map (fun g => map fst (gr_vlans g)) gs)).
      { rewrite <- E1, <- E2. symmetry. apply filter_perm. }
      destruct (named_app_inv _ _ _ Hns) as (n1 & n2 & -> & Hn1 & Hn2).
      destruct (Permutation_Forall2 HP Hn1) as (dns & HPn & Hdn).
      rewrite (remove_all _ dns _ (n1 ++ n2)%list Hdn).
      - f_equal. rewrite filter_app. rewrite (filter_none _ _ (flat_map group_secs gs)), (filter_all _ _ rest); [reflexivity| |].
        + intros d Hd. destruct (Forall2_In_l _ _ _ _ Hn2 Hd) as (m & Hm & Hdm). unfold name_in. unfold sec_name in Hdm. rewrite Hdm.
          apply negb_true_iff. apply not_true_iff_false. intros E. apply existsb_exists in E as (m' & Hm' & E). apply String.eqb_eq in E. subst m'.
          apply Permutation_sym in HPn. apply (Permutation_in _ HPn) in Hm'.
          apply in_split in Hm as (a & b & ->). rewrite app_assoc in Hnd. apply NoDup_remove_2 in Hnd. apply Hnd. rewrite !in_app_iff. auto.
        + intros d Hd. destruct (Forall2_In_l _ _ _ _ Hn1 Hd) as (m & Hm & Hdm). unfold name_in. unfold sec_name in Hdm. rewrite Hdm.
          apply negb_false_iff. apply existsb_exists. exists m. split; [|apply eqb_refl]. apply (Permutation_in _ HPn), Hm.
      - eapply Permutation_NoDup; [exact HPn|]. eapply NoDup_app_l; exact Hnd.
      - intros d Hd. apply in_app_iff. left. apply in_app_iff in Hd as [Hd|Hd]; auto.
      - exact Hns.
      - exact Hnd.
      - intros d Hd. apply Hwf. apply in_app_iff. left. apply in_app_iff in Hd as [Hd|Hd]; auto. }
    rewrite Eleft. eexists. split; [reflexivity|]. exists (VList (map VDict (map finished gs))). split.
    + destruct gs; [congruence|reflexivity].
    + apply same_lists, Hfin.
  - rewrite !foldM_app. rewrite (foldM_take _ _ _ (map gr_main gs)) by (intros d Hd; apply Hown, Hmin, Hd). rewrite Em. cbn [bind].
    rewrite foldM_skip by exact Hrest. cbn [bind]. rewrite foldM_take by (intros d Hd; apply Hown, Hvin, Hd). exact Ev.
Qed.
Lemma switch_stage_fwd_none config before : dget "switch" config = None -> stage_fwd config before (switch_stage None []).
Proof. intros H. unfold stage_fwd. cbn. unfold dmem. rewrite H. left. auto. Qed.
Lemma switch_stage_bwd_none orig : stage_alone orig (switch_stage None []).
Proof.
  split; [reflexivity|]. cbn [sg_secs switch_stage sg_eats sg_pkg sg_conv sg_val sg_key option_map].
  intros own rest config inter Fo _ _ Heats Hg. inversion Fo; subst. cbn [app] in *.
  assert (Hrest : forall d, In d rest -> skip_block sw_types d = true) by (intros d Hd; apply negb_false_iff, Heats, Hd).
  cbn [c_bwd switch simple_converter]. unfold switch_bwd, bwd_list. rewrite Hg. cbn [as_list]. rewrite clean_map.
  change (skip_block ["switch"; "switch_vlan"]) with (skip_block sw_types).
  set (L := (filter _ rest ++ filter _ rest)%list).
  assert (HL : forall d, In d L -> skip_block sw_types d = true).
  { intros d Hd. apply Hrest. unfold L in Hd. apply in_app_iff in Hd as [Hd|Hd]; apply filter_In in Hd; apply Hd. }
  rewrite (bwd_loop_fold _ (skip_block sw_types) switch_bwd_block sw_step switch_step_index L 0 _ _ {| sw_list := []; sw_map := []; sw_count := 0 |}).
  - rewrite fold_skip by exact HL. eexists. split; reflexivity.
  - apply foldM_skip, HL.
Qed.
