(** * Props_Heap: C29, the constructor isolates the caller's objects *)
From Verif Require Import PyBase Heap SpecHeap HeapProofs.

(** The constructor, whether it returns, raises or recurses for ever, changes no
    object that existed before the call: not the configuration, not the
    templates, not anything they share. *)
Theorem C29_caller_unchanged : forall aid json_loads fuel ids ctx config templates h h' o,
  heap_ok h -> in_heap h config -> in_heap h templates ->
  construct aid json_loads fuel ids ctx config templates h = (h', o) ->
  heap_ok h' /\ forall n, n < length h -> untouched h h' n.
Proof. intros aid jl fuel ids ctx config templates h h1 o A1 A2 A3 A4. destruct (construct_good aid jl fuel ids ctx config templates h h1 o) as (H1 & _ & H2 & _); auto. Qed.
(** The backend's configuration shares no object with what existed before. *)
Theorem C29_nothing_shared : forall aid json_loads fuel ids ctx config templates h h' c,
  heap_ok h -> in_heap h config -> in_heap h templates ->
  construct aid json_loads fuel ids ctx config templates h = (h', Val c) ->
  forall n, reach h' [c] n -> length h <= n.
Proof.
  intros aid json_loads fuel ids ctx config templates h h' c H1 H2 H3 E n Hn.
  destruct (construct_good aid json_loads fuel ids ctx config templates h h' _ H1 H2 H3 E) as (_ & _ & _ & HR).
  destruct (HR c eq_refl) as (T & HT & HC & HI). apply HT. eapply reach_closed; [|exact HC | exact Hn].
  intros m [-> | []]. now destruct (HI m eq_refl).
Qed.
(** Whatever is done afterwards through the backend's configuration cannot reach
    the caller's objects ... *)
Theorem C29_backend_cannot_reach_caller : forall aid json_loads fuel ids ctx config templates h h' c,
  heap_ok h -> in_heap h config -> in_heap h templates ->
  construct aid json_loads fuel ids ctx config templates h = (h', Val c) ->
  forall roots h'', acts ([c], h') (roots, h'') -> forall n, n < length h -> untouched h h'' n.
Proof.
  intros aid json_loads fuel ids ctx config templates h h' c H1 H2 H3 E roots h'' A n Hn.
  destruct (construct_good aid json_loads fuel ids ctx config templates h h' _ H1 H2 H3 E) as (_ & HL & HU & HR).
  destruct (HR c eq_refl) as (T & HT & HC & HI). unfold untouched.
  assert (HX : forall k ob m, T k \/ length h' <= k -> nth_error h' k = Some ob -> In (Lc m) (refs ob) -> T m \/ length h' <= m).
  { intros k ob m [Hk | Hk] Ho Hm; [left; eapply HC; eassumption|].
    assert (Hx : nth_error h' k <> None) by congruence. apply nth_error_Some in Hx. lia. }
  rewrite (acts_closed (fun m => T m \/ length h' <= m) h' ltac:(intros m Hm; now right) _ _ A); cbn [fst snd].
  - now apply HU.
  - intros m [-> | []]. left. now destruct (HI m eq_refl).
  - lia.
  - exact HX.
  - intros [Ht | Hx]; [apply HT in Ht; lia | lia].
Qed.
(** ... and whatever the caller does with its own objects cannot reach the
    backend's configuration. *)
Theorem C29_caller_cannot_reach_backend : forall aid json_loads fuel ids ctx config templates h h' c,
  heap_ok h -> in_heap h config -> in_heap h templates ->
  construct aid json_loads fuel ids ctx config templates h = (h', Val c) ->
  forall mine, (forall r, In r mine -> in_heap h r) ->
  forall roots h'', acts (mine, h') (roots, h'') -> forall n, reach h' [c] n -> untouched h' h'' n.
Proof.
  intros aid json_loads fuel ids ctx config templates h h' c H1 H2 H3 E mine Hm roots h'' A n Hn.
  pose proof (C29_nothing_shared _ _ _ _ _ _ _ _ _ _ H1 H2 H3 E n Hn) as Hge.
  destruct (construct_good aid json_loads fuel ids ctx config templates h h' _ H1 H2 H3 E) as (HK & HL & HU & HR).
  assert (Hlt : n < length h').
  { inversion Hn as [m Hin|m o k _ Ho Hk]; subst.
    - destruct Hin as [-> | []]. destruct (HR _ eq_refl) as (T & _ & _ & HI). now destruct (HI n eq_refl).
    - exact (HK _ _ _ Ho Hk n eq_refl). }
  unfold untouched. rewrite (acts_closed (fun m => m < length h \/ length h' <= m) h' ltac:(intros m Hx; now right) _ _ A); cbn [fst snd]; auto.
  - intros m Hin. left. exact (Hm _ Hin m eq_refl).
  - intros k ob m [Hk | Hk] Ho Hin.
    + left. rewrite HU in Ho by exact Hk. exact (H1 _ _ _ Ho Hin m eq_refl).
    + assert (Hx : nth_error h' k <> None) by congruence. apply nth_error_Some in Hx. lia.
  - lia.
Qed.

(** ** Non-vacuity.  A caller's heap: a configuration and a template that share
    a list of files and the objects in it. *)
Definition txt (s : string) : hkey := HV (VStr s).
Definition caller : heap :=
  [OD [(txt "path", Sc (VStr "/a")); (txt "contents", Sc (VStr "{{ v }}"))];   (* 0: a file *)
   OL [Lc 0];                                                                  (* 1: files *)
   OD [(txt "hostname", Sc (VStr "r"))];                                       (* 2 *)
   OD [(txt "files", Lc 1)];                                                   (* 3: the template *)
   OD [(txt "general", Lc 2); (txt "files", Lc 1)];                            (* 4: the configuration *)
   OL [Lc 3]].                                                                 (* 5: templates *)
Definition no_ids (h : heap) (i : nat) : nat := i.
Definition no_json (s : string) : option val := None.
Definition sample (templates : ref) := construct no_ids no_json 9 ["name"] [("v", VStr "1")] (Lc 4) templates caller.
Definition result_value (x : heap * out ref) : option val :=
  match x with (h, Val r) => value_of 9 h r | _ => None end.
Lemma ok_of_check h : forallb (fun o => forallb (fun r => match r with Lc n => Nat.ltb n (length h) | Sc _ => true end) (refs o)) h = true -> heap_ok h.
Proof.
  intros H n o r Hn Hin m ->. rewrite forallb_forall in H. specialize (H o (nth_error_In _ _ Hn)). rewrite forallb_forall in H.
  specialize (H _ Hin). now apply Nat.ltb_lt.
Qed.
Example caller_ok : heap_ok caller /\ in_heap caller (Lc 4) /\ in_heap caller (Lc 5).
Proof. split; [now apply ok_of_check | split; intros n [= <-]; cbn; lia]. Qed.
Example sample_runs :
  result_value (sample (Lc 5)) = Some (VDict
    [("files", VList [VDict [("path", VStr "/a"); ("contents", VStr "1")]]); ("general", VDict [("hostname", VStr "r")])]) /\
  result_value (sample (Sc VNull)) = Some (VDict
    [("general", VDict [("hostname", VStr "r")]); ("files", VList [VDict [("path", VStr "/a"); ("contents", VStr "1")]])]).
Proof. split; vm_compute; reflexivity. Qed.
(** A single merge does share objects with the template: the isolation comes
    from the constructor, which copies the configuration and merges it last. *)
Example one_merge_shares : exists h' r, merge_config_h no_ids 9 [] (Lc 2) (Lc 3) caller = (h', Val r) /\ reach h' [r] 0.
Proof.
  eexists. eexists. split; [vm_compute; reflexivity|].
  eapply reach_step with (n := 1); [|reflexivity|left; reflexivity].
  eapply reach_step with (n := 8); [|reflexivity|right; left; reflexivity].
  apply reach_root. now left.
Qed.
Print Assumptions C29_caller_unchanged.
Print Assumptions C29_nothing_shared.
Print Assumptions C29_backend_cannot_reach_caller.
Print Assumptions C29_caller_cannot_reach_backend.
