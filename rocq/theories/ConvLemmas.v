(** * ConvLemmas: reading back the fields of a section (proofs only) *)
From Verif Require Import PyBase PyLemmas StrLemmas NumLemmas SortLemmas SpecUci Backend Conv SpecConv.
From Coq Require Import Sorted.

Lemma dget_ddel (V : Type) k k' (d : list (string * V)) : NoDup (dkeys d) ->
  dget k (ddel k' d) = if String.eqb k k' then None else dget k d.
Proof.
  intros H. destruct (String.eqb_spec k k') as [->|Hn]; [apply dget_ddel_same; assumption|apply dget_ddel_other; assumption].
Qed.
Lemma dupdate_nil (V : Type) (d : list (string * V)) : dupdate d [] = d. Proof. reflexivity. Qed.
Lemma dupdate_cons (V : Type) (d : list (string * V)) k v e : dupdate d ((k, v) :: e) = dupdate (dset k v d) e.
Proof. reflexivity. Qed.
Lemma NoDup_dupdate (V : Type) : forall e (d : list (string * V)), NoDup (dkeys d) -> NoDup (dkeys (dupdate d e)).
Proof.
  induction e as [|[k v] e IH]; intros d H; [assumption|]. rewrite dupdate_cons. apply IH, NoDup_dset, H.
Qed.
Lemma sorted_NoDup d : sorted_keys d -> NoDup (dkeys d).
Proof.
  unfold sorted_keys. induction (dkeys d) as [|k l IH]; intros H; constructor.
  - apply StronglySorted_inv in H as [_ H]. rewrite Forall_forall in H. intros Hin. destruct (H k Hin). congruence.
  - apply StronglySorted_inv in H as [H _]. auto.
Qed.
Lemma In_of_dget (V : Type) k v (d : list (string * V)) : dget k d = Some v -> In (k, v) d.
Proof. apply dget_In. Qed.

(** ** type_cast, field by field *)
Lemma type_cast_keys props : forall d e, type_cast props d = Ok e -> dkeys e = dkeys d.
Proof.
  induction d as [|[k v] t IH]; intros e H; cbn in H; [injection H as <-; reflexivity|].
  apply bind_Ok in H as (v' & _ & H). apply bind_Ok in H as (t' & Ht & H). injection H as <-.
  unfold dkeys in *. cbn. f_equal. apply IH, Ht.
Qed.
Lemma type_cast_get props k : forall d e, type_cast props d = Ok e ->
  match dget k d with
  | None => dget k e = None
  | Some u => exists v, cast_value (dget k props) u = Ok v /\ dget k e = Some v
  end.
Proof.
  induction d as [|[k0 v0] t IH]; intros e H; cbn in H; [injection H as <-; reflexivity|].
  apply bind_Ok in H as (v' & Hv & H). apply bind_Ok in H as (t' & Ht & H). injection H as <-.
  cbn. destruct (String.eqb_spec k k0) as [->|Hn]; [eauto|]. apply IH, Ht.
Qed.
Lemma type_cast_ok props : forall d, (forall k u, In (k, u) d -> exists v, cast_value (dget k props) u = Ok v) ->
  exists e, type_cast props d = Ok e.
Proof.
  induction d as [|[k0 v0] t IH]; intros H; cbn; [eauto|].
  destruct (H k0 v0 (or_introl eq_refl)) as [v ->]. cbn [bind].
  destruct IH as [e ->]; [intros k u Hk; apply H; right; assumption|]. cbn. eauto.
Qed.
Lemma type_cast_pointwise props x (target : string -> option val) : NoDup (dkeys x) ->
  (forall k, match dget k x with
             | Some u => exists v, cast_value (dget k props) u = Ok v /\ target k = Some v
             | None => target k = None end) ->
  exists y, type_cast props x = Ok y /\ NoDup (dkeys y) /\ forall k, dget k y = target k.
Proof.
  intros Hnd H. destruct (type_cast_ok props x) as [y Hy].
  - intros k u Hk. specialize (H k). rewrite (In_dget k u x Hnd Hk) in H. destruct H as (v & ? & _). eauto.
  - exists y. split; [exact Hy|]. split; [rewrite (type_cast_keys _ _ _ Hy); exact Hnd|].
    intros k. specialize (H k). pose proof (type_cast_get props k _ _ Hy) as G. destruct (dget k x).
    + destruct H as (v1 & Hc & Ht), G as (w & Hc' & Hw). congruence.
    + congruence.
Qed.

(** ** Values *)
Lemma plain_of_chars (p : ascii -> bool) s : p NLc = false -> p SQc = false -> p DQc = false -> p " "%char = false ->
  sforall p s = true -> plain s.
Proof.
  intros H1 H2 H3 H4 Hs.
  assert (G : forall c, p c = false -> no_char c s).
  { intros c Hc a b ->. rewrite sforall_app in Hs. cbn in Hs. rewrite Hc in Hs. rewrite andb_false_r in Hs. discriminate. }
  repeat split; try (apply G; assumption).
  destruct (contains "    " s) eqn:E; [|reflexivity]. apply contains_true in E as (a & b & ->).
  rewrite !sforall_app in Hs. cbn in Hs. rewrite H4 in Hs. cbn in Hs. rewrite andb_false_r in Hs. discriminate.
Qed.
Lemma string_of_Z_chars z : sforall (fun c => is_digit c || Ascii.eqb c "-") (string_of_Z z) = true.
Proof.
  assert (G : forall n, sforall (fun c => is_digit c || Ascii.eqb c "-") (string_of_N n) = true).
  { intros n. pose proof (string_of_N_digits n) as H. induction (string_of_N n) as [|c s IH]; [reflexivity|].
    cbn in *. apply andb_prop in H as [H1 H2]. rewrite H1, (IH H2). reflexivity. }
  unfold string_of_Z. destruct z; try apply G.
Qed.
Lemma plain_Z z : plain (string_of_Z z).
Proof. apply (plain_of_chars (fun c => is_digit c || Ascii.eqb c "-")); try reflexivity. apply string_of_Z_chars. Qed.
Lemma bare_plain s : bare s -> plain s.
Proof. unfold bare. apply plain_of_chars; reflexivity. Qed.

(** A surviving value is written, and reading it back gives it. *)
Lemma survives_read t v : survives t v -> exists u, uci_value v = Some u /\ cast_value t u = Ok v.
Proof.
  destruct t as [[]|]; destruct v as [|b|z|r|s|l|d]; cbn; try contradiction.
  - intros _. exists (VStr (string_of_Z z)). split; [reflexivity|]. cbn. rewrite int_of_string_Z. reflexivity.
  - intros _. exists (VStr (bool_digit b)). split; [reflexivity|]. destruct b; reflexivity.
  - intros [Hn Hp]. exists (VStr s). split; [|reflexivity]. destruct s; [congruence|reflexivity].
  - intros [Hn Hp]. exists (VList l). split; [|reflexivity]. destruct l as [|x l]; [congruence|].
    f_equal. f_equal. clear Hn. generalize dependent (x :: l). clear. intros l H.
    induction l as [|x l IH]; [reflexivity|]. destruct (H x (or_introl eq_refl)) as (s & -> & _). cbn [map py_str].
    f_equal. apply IH. intros y Hy. apply H. right; assumption.
Qed.
Lemma survives_writable t v : survives t v -> writable v.
Proof.
  destruct t as [[]|]; destruct v as [|b|z|r|s|l|d]; cbn; try contradiction.
  - intros _. apply plain_Z.
  - intros _. destruct b; cbn; apply bare_plain; reflexivity.
  - tauto.
  - intros [_ H] x Hx. destruct (H x Hx) as (s & -> & Hs). exact Hs.
Qed.

(** ** Sections *)
Lemma section_reads_plain b b' t : section_reads b b' -> dget ".type" b = Some (VStr t) ->
  t <> "device" -> t <> "bridge-vlan" -> reads_as b b'.
Proof.
  intros (b0 & [Hs0 H0] & [Hs' H']) Ht Hd Hv. split; [exact Hs'|]. intros k. rewrite <- H0. cbn zeta in H'. rewrite H'.
  pose proof (H0 ".type") as Ht0. cbn in Ht0. rewrite Ht in Ht0. rewrite Ht0. cbn [is_text].
  rewrite (proj2 (String.eqb_neq t "bridge-vlan") Hv), (proj2 (String.eqb_neq t "device") Hd). reflexivity.
Qed.
(** The section made of the fields of [b], a type and a name. *)
Lemma section_ok_intro s t n : NoDup (dkeys s) -> dget ".type" s = Some (VStr t) -> word t ->
  dget ".name" s = Some (VStr n) -> bare n ->
  (forall k v, dget k s = Some v -> startswith "." k = false -> uci_value v <> None -> word k /\ writable v) ->
  section_ok s.
Proof.
  intros Hnd Ht Hwt Hn Hbn H. split; [exact Hnd|]. split; [exists t, n; auto|].
  intros k v Hin. apply H. apply In_dget; assumption.
Qed.

Lemma startswith_dot_lit k : startswith "." k = true -> exists r, k = String "." r.
Proof. intros H. apply startswith_true in H as [r ->]. exists r. reflexivity. Qed.

Ltac nodup := repeat (apply NoDup_dset || apply NoDup_ddel || apply NoDup_dupdate || apply ssort_NoDup); try assumption.
Ltac dg := rewrite ?dupdate_cons, ?dupdate_nil;
  repeat first [rewrite dget_dset | rewrite dget_ssort by nodup | rewrite dget_ddel by nodup].
