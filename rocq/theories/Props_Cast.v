(** * Props_Cast: C41, type casting of parsed fields *)
From Verif Require Import PyBase PyLemmas NumLemmas Conv TypeCast SpecCast CastProofs OpenVpnConv.

(** Success: the same fields in the same order, each one cast as declared. *)
Theorem C41_cast : forall properties item out,
  type_cast_by properties item = Ok out <->
  Forall2 (fun kv kv' => fst kv' = fst kv /\ field_cast properties (fst kv) (snd kv) (snd kv')) item out.
Proof.
  intros properties item out. split.
  - intros H. apply by_items in H. eapply Forall2_impl; [|exact H]. intros kv kv' (Hk & Hv). split; [now symmetry | now apply field_cast_ok].
  - intros H. apply Forall2_items. eapply Forall2_impl; [|exact H]. intros kv kv' (Hk & Hv). split; [now symmetry | now apply field_cast_ok].
Qed.
(** Failure: exactly when an integer field holds something that is neither a
    number nor the text of one. *)
Theorem C41_failure : forall properties item,
  (forall out, type_cast_by properties item <> Ok out) <->
  exists k v, In (k, v) item /\ declares properties k "integer" /\
    (forall z, v <> VInt z) /\ (forall b, v <> VBool b) /\ (forall s z, v = VStr s -> ~ reads_as s z).
Proof.
  intros properties item. split.
  - intros H. destruct (type_cast_by properties item) as [out|e] eqn:E; [now elim (H out)|].
    apply by_fails in E as (k & v & Hi & Hc). exists k, v. split; [assumption|].
    unfold cast_field in Hc. destruct (dget k properties) as [p|] eqn:Ep; [|discriminate]. unfold cast_one in Hc.
    destruct (py_eq (json_type p) (VStr "integer")) eqn:Et; cbn [andb] in Hc.
    2: { destruct (py_eq (json_type p) (VStr "boolean")); destruct v; discriminate. }
    apply (json_type_declares _ _ _ _ Ep) in Et. split; [assumption|].
    destruct v; cbn [negb] in Hc; try (destruct (py_eq (json_type p) (VStr "boolean")); discriminate);
      repeat split; try discriminate. intros t z [= <-] Hr. apply int_reads in Hr. rewrite Hr in Hc. discriminate.
  - intros (k & v & Hi & Hd & Hz & Hb & Hs) out H. apply by_items in H.
    destruct (Forall2_In_l _ _ _ _ H Hi) as (kv' & _ & _ & Hc). cbn [fst snd] in Hc. apply field_cast_ok in Hc.
    pose proof (declares_one _ _ Hd) as Hnb.
    inversion Hc as [s z _ Hr E|u _ [(z & ->) | (b & ->)] E|u Hx|b Hx|u Hx]; subst; try contradiction.
    + exact (Hs s z eq_refl Hr).
    + now elim (Hz z).
    + now elim (Hb b).
Qed.
(** Casting twice is casting once. *)
Theorem C41_idempotent : forall properties item out,
  type_cast_by properties item = Ok out -> type_cast_by properties out = Ok out.
Proof. exact by_again. Qed.
(** The text of a number, as rendered, is read back as that number. *)
Theorem C41_numbers : forall z, reads_as (string_of_Z z) z /\ forall z', reads_as (string_of_Z z) z' -> z' = z.
Proof.
  intros z. assert (H : reads_as (string_of_Z z) z) by (apply int_reads; apply int_of_string_Z).
  split; [assumption|]. intros z' H'. exact (reads_fun _ _ _ H' H).
Qed.
(** The converters' own cast, on the extract of the schema, is this one. *)
Theorem C41_converters : forall properties item, NoDup (dkeys properties) ->
  type_cast_by properties item = type_cast (extract properties) item.
Proof. exact type_cast_extract. Qed.

(** Non-vacuity: a schema with single and multiple types, and a parsed block. *)
Definition sample_properties : dict :=
  [("port", VDict [("type", VStr "integer")]);
   ("mtu", VDict [("type", VList [VStr "integer"; VStr "string"]); ("minimum", VInt 68)]);
   ("enabled", VDict [("type", VStr "boolean")]); ("other", VDict [("title", VStr "x")]); ("name", VDict [("type", VStr "string")])].
Example sample_cast :
  type_cast_by sample_properties [("name", VStr "1"); ("port", VStr " +1_194"); ("enabled", VStr "1"); ("mtu", VInt 9); ("unknown", VStr "7"); ("other", VStr "1")]
  = Ok [("name", VStr "1"); ("port", VInt 1194); ("enabled", VBool true); ("mtu", VInt 9); ("unknown", VStr "7"); ("other", VStr "1")].
Proof. reflexivity. Qed.
Example sample_declares : declares sample_properties "mtu" "integer" /\ ~ declares sample_properties "name" "integer".
Proof.
  split.
  - eexists. split; [reflexivity|]. right. eexists. reflexivity.
  - intros (p & Hp & [H | (l & H)]); injection Hp as <-; discriminate.
Qed.
Example sample_failure : exists k v, In (k, v) [("port", VStr "12x")] /\ declares sample_properties k "integer" /\
    (forall z, v <> VInt z) /\ (forall b, v <> VBool b) /\ (forall s z, v = VStr s -> ~ reads_as s z).
Proof. apply C41_failure. intros out H. discriminate. Qed.
Print Assumptions C41_cast.
Print Assumptions C41_failure.
Print Assumptions C41_idempotent.
Print Assumptions C41_numbers.
Print Assumptions C41_converters.
