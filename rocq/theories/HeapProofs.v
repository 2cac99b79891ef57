(** * HeapProofs: the constructor isolates the caller's objects *)
From Verif Require Import PyBase PyLemmas Vars Heap SpecHeap.

Lemma put_length {A} (x : A) : forall l n, length (put n x l) = length l.
Proof. induction l as [|y t IH]; intros [|n]; cbn; auto. Qed.
Lemma put_same {A} (x : A) : forall l n, n < length l -> nth_error (put n x l) n = Some x.
Proof. induction l as [|y t IH]; intros [|n] H; cbn in *; try lia; auto. apply IH. lia. Qed.
Lemma put_other {A} (x : A) : forall l n m, n <> m -> nth_error (put n x l) m = nth_error l m.
Proof. induction l as [|y t IH]; intros [|n] [|m] H; cbn; auto; try congruence. Qed.
Lemma In_put {A} (x : A) : forall l n y, In y (put n x l) -> y = x \/ In y l.
Proof.
  induction l as [|z t IH]; intros [|n] y H; cbn in *; auto; destruct H as [-> | H]; auto. destruct (IH _ _ H); auto.
Qed.
Lemma hget_In k : forall d r, hget k d = Some r -> In r (map snd d).
Proof. induction d as [|(k', r') t IH]; intros r H; [discriminate|]. cbn in *. destruct (hkey_eqb k k'); [injection H as ->; auto | auto]. Qed.
Lemma hset_In k r0 : forall d r, In r (map snd (hset k r0 d)) -> r = r0 \/ In r (map snd d).
Proof.
  induction d as [|(k', r') t IH]; intros r H; cbn in *; [intuition|].
  destruct (hkey_eqb k k'); cbn in H; destruct H as [H | H]; auto. destruct (IH _ H); auto.
Qed.

(** [T] is a set of locations closed under the references of the objects; [W]
    is a set of locations that may be written: the others are as in [h0]. *)
Record inv (T W : nat -> Prop) (h0 h : heap) : Prop := {
  iv_ok : heap_ok h;
  iv_len : length h0 <= length h;
  iv_same : forall n, ~ W n -> untouched h0 h n;
  iv_closed : forall n o m, T n -> nth_error h n = Some o -> In (Lc m) (refs o) -> T m
}.
Definition young (T : nat -> Prop) (h0 : heap) : Prop := forall n, length h0 <= n -> T n.
Definition isin (T : nat -> Prop) (h : heap) (r : ref) : Prop := forall n, r = Lc n -> n < length h /\ T n.
(** A value, an object, a key: what the computations return *)
Definition does {A} (T W : nat -> Prop) (h0 : heap) (m : M A) (P : heap -> Prop) (Q : A -> heap -> Prop) : Prop :=
  forall h, inv T W h0 h -> P h -> forall h' o, m h = (h', o) ->
    inv T W h0 h' /\ length h <= length h' /\ (forall a, o = Val a -> Q a h').
Lemma does_bind {A B} T W h0 (m : M A) (f : A -> M B) P Q R :
  does T W h0 m P Q -> (forall a, does T W h0 (f a) (Q a) R) -> does T W h0 (andthen m f) P R.
Proof.
  intros Hm Hf h Hi Hp h' o E. unfold andthen in E. destruct (m h) as (h1, o1) eqn:E1.
  destruct (Hm h Hi Hp _ _ E1) as (Hi1 & Hl1 & Hq). destruct o1 as [a|e|].
  - destruct (Hf a h1 Hi1 (Hq a eq_refl) _ _ E) as (Hi2 & Hl2 & Hr). split; [assumption|]. split; [lia | auto].
  - injection E as <- <-. split; [assumption|]. split; [lia | discriminate].
  - injection E as <- <-. split; [assumption|]. split; [lia | discriminate].
Qed.
Lemma does_ret {A} T W h0 (a : A) (P : heap -> Prop) (Q : A -> heap -> Prop) :
  (forall h, inv T W h0 h -> P h -> Q a h) -> does T W h0 (ret a) P Q.
Proof. intros H h Hi Hp h' o [= <- <-]. split; [assumption|]. split; [lia|]. intros b [= <-]. auto. Qed.
Lemma does_raise {A} T W h0 e P (Q : A -> heap -> Prop) : does T W h0 (raise e) P Q.
Proof. intros h Hi Hp h' o [= <- <-]. split; [assumption|]. split; [lia | discriminate]. Qed.
Lemma does_nofuel {A} T W h0 P (Q : A -> heap -> Prop) : does T W h0 nofuel P Q.
Proof. intros h Hi Hp h' o [= <- <-]. split; [assumption|]. split; [lia | discriminate]. Qed.
Lemma does_weaken {A} T W h0 (m : M A) (P P' : heap -> Prop) (Q Q' : A -> heap -> Prop) :
  does T W h0 m P Q -> (forall h, inv T W h0 h -> P' h -> P h) -> (forall a h, inv T W h0 h -> Q a h -> Q' a h) -> does T W h0 m P' Q'.
Proof.
  intros H Hp Hq h Hi Hp' h' o E. destruct (H h Hi (Hp h Hi Hp') _ _ E) as (Hi1 & Hl1 & Hr). split; [assumption|].
  split; [assumption | auto].
Qed.
(** [isin] is kept along any computation, since heaps only grow. *)
Definition stable (P : heap -> Prop) : Prop := forall h h', length h <= length h' -> P h -> P h'.
Lemma does_frame {A} T W h0 (m : M A) P (Q : A -> heap -> Prop) F : stable F ->
  does T W h0 m P Q -> does T W h0 m (fun h => P h /\ F h) (fun a h => Q a h /\ F h).
Proof.
  intros Hs H h Hi (Hp & Hf) h' o E. destruct (H h Hi Hp _ _ E) as (Hi1 & Hl1 & Hr). split; [assumption|].
  split; [assumption|]. intros a Ha. split; [auto | eapply Hs; eassumption].
Qed.
Lemma stable_isin T r : stable (fun h => isin T h r).
Proof. intros h h' Hl H n E. destruct (H n E). split; [lia | assumption]. Qed.
Lemma stable_in_heap r : stable (fun h => in_heap h r).
Proof. intros h h' Hl H n E. specialize (H n E). lia. Qed.
Lemma stable_all {X} (F : X -> heap -> Prop) l : (forall x, stable (F x)) -> stable (fun h => forall x, In x l -> F x h).
Proof. intros H h h' Hl Hf x Hx. eapply H; [eassumption | now apply Hf]. Qed.
Lemma stable_and P Q : stable P -> stable Q -> stable (fun h => P h /\ Q h).
Proof. intros Hp Hq h h' Hl (H1 & H2). split; [eapply Hp | eapply Hq]; eassumption. Qed.
Lemma stable_true : stable (fun _ => True). Proof. intros h h' _ _. exact I. Qed.

(** ** Heap operations *)
Lemma nth_error_snoc {A} (l : list A) x n y : nth_error (l ++ [x]) n = Some y -> n < length l /\ nth_error l n = Some y \/ n = length l /\ y = x.
Proof.
  intros H. destruct (Nat.lt_ge_cases n (length l)) as [Hl | Hl].
  - left. split; [assumption|]. now rewrite nth_error_app1 in H.
  - right. rewrite nth_error_app2 in H by assumption. destruct (n - length l) as [|k] eqn:E; [|destruct k; discriminate].
    injection H as ->. split; [lia | reflexivity].
Qed.
Lemma does_new T W h0 o : young T h0 -> young W h0 ->
  does T W h0 (new o) (fun h => forall r, In r (refs o) -> isin T h r) (fun r h => exists n, r = Lc n /\ length h0 <= n /\ isin T h r /\ W n).
Proof.
  intros Hy Hw h [Hok Hlen Hsame Hcl] Hr h' out [= <- <-]. rewrite app_length. cbn [length]. split; [constructor|].
  - intros n o' r Hn Hin m ->. rewrite app_length. cbn. apply nth_error_snoc in Hn as [(Hl & Hn) | (-> & ->)].
    + specialize (Hok n o' _ Hn Hin m eq_refl). lia.
    + destruct (Hr _ Hin m eq_refl). lia.
  - rewrite app_length. lia.
  - intros n Hn. unfold untouched. rewrite nth_error_app1; [now apply Hsame|]. destruct (Nat.lt_ge_cases n (length h0)); [lia | now elim Hn; apply Hw].
  - intros n o' m Ht Hn Hin. apply nth_error_snoc in Hn as [(Hl & Hn) | (-> & ->)].
    + eapply Hcl; eassumption.
    + now destruct (Hr _ Hin m eq_refl).
  - split; [lia|]. intros a [= <-]. exists (length h). split; [reflexivity|]. split; [assumption|]. split; [|now apply Hw].
    intros n [= <-]. rewrite app_length. cbn. split; [lia|]. now apply Hy.
Qed.
Lemma does_look T W h0 n : does T W h0 (look n) (fun h => n < length h /\ T n) (fun o h => forall r, In r (refs o) -> isin T h r).
Proof.
  intros h Hi (Hl & Ht) h' o E. unfold look in E. destruct (nth_error h n) as [ob|] eqn:En.
  - injection E as <- <-. split; [assumption|]. split; [lia|]. intros a [= <-] r Hr m ->. destruct Hi as [Hok _ _ Hcl]. split.
    + exact (Hok n ob _ En Hr m eq_refl).
    + exact (Hcl n ob m Ht En Hr).
  - injection E as <- <-. split; [assumption|]. split; [lia | discriminate].
Qed.
Lemma does_store T (W : nat -> Prop) h0 n o : W n ->
  does T W h0 (store n o) (fun h => forall r, In r (refs o) -> isin T h r) (fun _ _ => True).
Proof.
  intros Hn h [Hok Hlen Hsame Hcl] Hr h' out [= <- <-]. rewrite put_length. split; [constructor|].
  - intros k o' r Hk Hin m ->. rewrite put_length. destruct (Nat.eq_dec n k) as [-> | Hne].
    + destruct (Nat.lt_ge_cases k (length h)) as [Hl | Hl].
      * rewrite put_same in Hk by assumption. injection Hk as <-. now destruct (Hr _ Hin m eq_refl).
      * assert (nth_error (put k o h) k <> None) as Hx by congruence. apply nth_error_Some in Hx. rewrite put_length in Hx. lia.
    + rewrite put_other in Hk by assumption. exact (Hok k o' _ Hk Hin m eq_refl).
  - now rewrite put_length.
  - intros k Hk. unfold untouched. rewrite put_other by congruence. now apply Hsame.
  - intros k o' m Ht Hk Hin. destruct (Nat.eq_dec n k) as [-> | Hne].
    + destruct (Nat.lt_ge_cases k (length h)) as [Hl | Hl].
      * rewrite put_same in Hk by assumption. injection Hk as <-. now destruct (Hr _ Hin m eq_refl).
      * assert (nth_error (put k o h) k <> None) as Hx by congruence. apply nth_error_Some in Hx. rewrite put_length in Hx. lia.
    + rewrite put_other in Hk by assumption. eapply Hcl; eassumption.
  - split; [lia|]. split; auto.
Qed.
Lemma does_deepcopy T W h0 r : young T h0 -> young W h0 ->
  does T W h0 (deepcopy r) (fun h => in_heap h r) (fun r' h => isin T h r' /\ (forall n, r' = Lc n -> W n)).
Proof.
  intros Hy Hw h [Hok Hlen Hsame Hcl] Hr h' out E. destruct r as [v|n].
  - injection E as <- <-. split; [now constructor|]. split; [lia|]. intros a [= <-]. split; intros n; discriminate.
  - injection E as <- <-. rewrite app_length, map_length.
    assert (HC : forall k o m, length h <= k -> nth_error (h ++ map (shift_obj (length h)) h) k = Some o -> In (Lc m) (refs o) ->
      length h <= m < length h + length h).
    { intros k o m Hk Hn Hin. rewrite nth_error_app2 in Hn by assumption. rewrite nth_error_map in Hn.
      destruct (nth_error h (k - length h)) as [o1|] eqn:E1; [|discriminate]. injection Hn as <-.
      assert (exists q, In q (refs o1) /\ Lc m = shift (length h) q) as (q & Hq & Eq).
      { destruct o1 as [d|l]; cbn [refs shift_obj] in Hin |- *.
        - rewrite map_map in Hin. cbn [snd] in Hin. apply in_map_iff in Hin as (kr & Eq & Hin). exists (snd kr). split; [now apply in_map | now symmetry].
        - apply in_map_iff in Hin as (q & Eq & Hin). exists q. split; [assumption | now symmetry]. }
      destruct q as [v|j]; [discriminate|]. injection Eq as ->. specialize (Hok _ _ _ E1 Hq j eq_refl). lia. }
    split; [constructor|].
    + intros k o q Hk Hin m ->. rewrite app_length, map_length. destruct (Nat.lt_ge_cases k (length h)) as [Hl | Hl].
      * rewrite nth_error_app1 in Hk by assumption. specialize (Hok k o _ Hk Hin m eq_refl). lia.
      * specialize (HC k o m Hl Hk Hin). lia.
    + rewrite app_length. lia.
    + intros k Hk. unfold untouched. rewrite nth_error_app1; [now apply Hsame|]. destruct (Nat.lt_ge_cases k (length h0)); [lia | now elim Hk; apply Hw].
    + intros k o m Ht Hk Hin. destruct (Nat.lt_ge_cases k (length h)) as [Hl | Hl].
      * rewrite nth_error_app1 in Hk by assumption. eapply Hcl; eassumption.
      * specialize (HC k o m Hl Hk Hin). apply Hy. lia.
    + split; [lia|]. intros a [= <-]. split.
      * intros k [= <-]. rewrite app_length, map_length. specialize (Hr n eq_refl). split; [lia|]. apply Hy. lia.
      * intros k [= <-]. apply Hw. lia.
Qed.
Lemma does_then {A B} T W h0 (m : M A) (f : A -> M B) P Q R : stable P ->
  does T W h0 m P Q -> (forall a, does T W h0 (f a) (fun h => P h /\ Q a h) R) -> does T W h0 (andthen m f) P R.
Proof.
  intros Hs Hm Hf. eapply does_bind; [|exact Hf].
  eapply does_weaken; [exact (does_frame T W h0 m P Q P Hs Hm) | intros h _ H; now split | intros a h _ (H1 & H2); now split].
Qed.
Lemma does_pre {A} T W h0 (m : M A) (P P' : heap -> Prop) Q : does T W h0 m P Q -> (forall h, inv T W h0 h -> P' h -> P h) -> does T W h0 m P' Q.
Proof. intros H Hp. eapply does_weaken; [exact H | exact Hp | auto]. Qed.
Lemma does_fact {A} T W h0 (m : M A) (P : heap -> Prop) Q (X : Prop) : (forall h, P h -> X) -> (X -> does T W h0 m P Q) -> does T W h0 m P Q.
Proof. intros Hx H h Hi Hp. exact (H (Hx h Hp) h Hi Hp). Qed.
Lemma does_set_item T (W : nat -> Prop) h0 n k r : W n ->
  does T W h0 (set_item n k r) (fun h => isin T h (Lc n) /\ isin T h r) (fun _ _ => True).
Proof.
  intros Hn. unfold set_item. eapply does_then; [apply stable_and; apply stable_isin | | ].
  - eapply does_pre; [apply does_look|]. intros h _ (H & _). exact (H n eq_refl).
  - intros [d|l]; [|apply does_raise]. eapply does_pre; [now apply does_store|].
    intros h _ ((_ & Hr) & Ho) r' Hin. cbn [refs] in *. apply hset_In in Hin as [-> | Hin]; auto.
Qed.
Lemma does_set_nth T (W : nat -> Prop) h0 n i r : W n ->
  does T W h0 (set_nth n i r) (fun h => isin T h (Lc n) /\ isin T h r) (fun _ _ => True).
Proof.
  intros Hn. unfold set_nth. eapply does_then; [apply stable_and; apply stable_isin | | ].
  - eapply does_pre; [apply does_look|]. intros h _ (H & _). exact (H n eq_refl).
  - intros [d|l]; [apply does_raise|]. eapply does_pre; [now apply does_store|].
    intros h _ ((_ & Hr) & Ho) r' Hin. cbn [refs] in *. apply In_put in Hin as [-> | Hin]; auto.
Qed.
(** what [kind_of] tells *)
Definition kind_in (T : nat -> Prop) (h : heap) (k : kind) : Prop :=
  match k with
  | KD n d => forall r, In r (map snd d) -> isin T h r
  | KL n l => forall r, In r l -> isin T h r
  | KS _ => True
  end.
Lemma stable_kind T k : stable (fun h => kind_in T h k).
Proof. destruct k; cbn; [apply (stable_all (fun r h => isin T h r)); intros; apply stable_isin | apply (stable_all (fun r h => isin T h r)); intros; apply stable_isin | apply stable_true]. Qed.
Lemma does_kind T W h0 r : does T W h0 (kind_of r) (fun h => isin T h r) (fun k h => kind_in T h k).
Proof.
  destruct r as [v|n]; cbn [kind_of]; [apply does_ret; cbn; auto|].
  eapply does_bind; [eapply does_pre; [apply does_look | intros h _ H; exact (H n eq_refl)]|].
  intros [d|l]; apply does_ret; intros h _ H; exact H.
Qed.
Lemma does_each {A} T W h0 (f : A -> M unit) l P : stable P ->
  (forall x, In x l -> does T W h0 (f x) P (fun _ _ => True)) -> does T W h0 (each f l) P (fun _ _ => True).
Proof.
  intros Hs. induction l as [|x t IH]; intros H; cbn [each]; [apply does_ret; auto|].
  eapply does_then; [exact Hs | apply H; now left|]. intros u. eapply does_pre; [apply IH; intros; apply H; now right | tauto].
Qed.
(** Computations that only read *)
Lemma does_read {A} T W h0 (m : M A) : (forall h, fst (m h) = h) -> does T W h0 m (fun _ => True) (fun _ _ => True).
Proof. intros H h Hi _ h' o E. specialize (H h). rewrite E in H. cbn in H. subst h'. split; [assumption|]. split; auto. Qed.
Lemma read_bind {A B} (m : M A) (f : A -> M B) : (forall h, fst (m h) = h) -> (forall a h, fst (f a h) = h) -> forall h, fst (andthen m f h) = h.
Proof.
  intros Hm Hf h. unfold andthen. specialize (Hm h). destruct (m h) as (h1, [a|e|]); cbn in Hm; subst h1; cbn; auto.
Qed.
Lemma read_look n h : fst (look n h) = h. Proof. unfold look. now destruct (nth_error h n). Qed.
Lemma read_kind r h : fst (kind_of r h) = h.
Proof. destruct r as [v|n]; [reflexivity|]. revert h. apply read_bind; [intros; apply read_look | reflexivity]. Qed.
Lemma read_equal fuel a b h : fst (equal_refs fuel a b h) = h.
Proof. unfold equal_refs. destruct (value_of fuel h a); [destruct (value_of fuel h b)|]; reflexivity. Qed.
Lemma read_is_in fuel x : forall l h, fst (is_in fuel x l h) = h.
Proof.
  induction l as [|y t IH]; [reflexivity|]. cbn [is_in]. apply read_bind; [intros; apply read_equal|]. intros [] h; [reflexivity | apply IH].
Qed.
Section Code.
  Variable aid : heap -> nat -> nat.
  Variable json_loads : string -> option val.
  Lemma read_key ids i el : forall h, fst (key_of_el aid ids i el h) = h.
  Proof.
    unfold key_of_el. apply read_bind; [intros; apply read_kind|]. intros [n d|n l|v] h; try reflexivity.
    destruct (first_ident ids d) as [r|]; [|reflexivity]. revert h. unfold ident_key. apply read_bind; [intros; apply read_kind|].
    intros [n' d'|n' l'|v'] h; try reflexivity. now destruct (scalars l').
  Qed.
  Section Merge.
    Variables T W : nat -> Prop.
    Variable h0 : heap.
    Hypothesis Hy : young T h0.
    Hypothesis Hw : young W h0.
    Definition fresh_in (r : ref) (h : heap) : Prop := isin T h r /\ (forall n, r = Lc n -> W n).
    Lemma does_fill fuel ids skip c : W c -> (forall s, skip = Some s -> W s) -> forall l i,
      does T W h0 (fill aid fuel ids skip c i l)
        (fun h => isin T h (Lc c) /\ (forall s, skip = Some s -> isin T h (Lc s)) /\ (forall r, In r l -> isin T h r)) (fun _ _ => True).
    Proof.
      intros Hc Hs. induction l as [|el t IH]; intros i; cbn [fill]; [now apply does_ret|].
      assert (St : stable (fun h => isin T h (Lc c) /\ (forall s, skip = Some s -> isin T h (Lc s)) /\ (forall r, In r (el :: t) -> isin T h r))).
      { apply stable_and; [apply stable_isin|]. apply stable_and; [|apply (stable_all (fun r h => isin T h r)); intros; apply stable_isin].
        intros h h' Hl H s Es. eapply stable_isin; [eassumption | now apply H]. }
      eapply (does_then T W h0 _ _ _ (fun _ _ => True)); [exact St | |].
      - eapply does_pre; [apply does_read | intros; exact I]. destruct skip as [s|]; [|reflexivity].
        apply read_bind; [intros; apply read_look | intros; apply read_is_in].
      - intros seen. eapply does_pre with (P := fun h => isin T h (Lc c) /\ (forall s, skip = Some s -> isin T h (Lc s)) /\ (forall r, In r (el :: t) -> isin T h r)); [|tauto].
        eapply (does_then T W h0 _ _ _ (fun _ _ => True)); [exact St | |].
        + destruct seen; [now apply does_ret|].
          eapply (does_then T W h0 _ _ _ (fun _ _ => True)); [exact St | eapply does_pre; [apply does_read; intros; apply read_key | intros; exact I]|].
          intros k. eapply does_pre with (P := fun h => isin T h (Lc c) /\ (forall s, skip = Some s -> isin T h (Lc s)) /\ (forall r, In r (el :: t) -> isin T h r)); [|tauto].
          eapply does_then; [exact St | eapply does_pre; [apply (does_deepcopy T W h0 el Hy Hw)|]|].
          * intros h _ (_ & _ & H) n ->. now destruct (H (Lc n) (or_introl eq_refl) n eq_refl).
          * intros r. eapply does_pre; [now apply does_set_item|]. intros h _ ((H1 & _) & (H2 & _)). now split.
        + intros ?. eapply does_pre; [apply IH|]. intros h _ ((H1 & H2 & H3) & _). split; [assumption|]. split; [assumption|]. intros r Hr. apply H3. now right.
    Qed.
    Lemma does_merge_list fuel merge ids l1 l2 :
      (forall t c, does T W h0 (merge t c) (fun h => isin T h t /\ isin T h c) fresh_in) ->
      does T W h0 (merge_list_h aid fuel merge ids l1 l2)
        (fun h => (forall r, In r l1 -> isin T h r) /\ (forall r, In r l2 -> isin T h r)) (fun r h => isin T h r).
    Proof.
      intros Hm. unfold merge_list_h.
      assert (St : stable (fun h => (forall r, In r l1 -> isin T h r) /\ (forall r, In r l2 -> isin T h r))).
      { apply stable_and; apply (stable_all (fun r h => isin T h r)); intros; apply stable_isin. }
      eapply does_then; [exact St | eapply does_pre; [now apply does_new | intros h _ _ r []]|]. intros r1.
      apply does_fact with (X := exists n, r1 = Lc n /\ W n); [intros h (_ & n & -> & _ & _ & H); eauto|]. intros (n1 & -> & W1).
      eapply does_pre with (P := fun h => ((forall r, In r l1 -> isin T h r) /\ (forall r, In r l2 -> isin T h r)) /\ isin T h (Lc n1)).
      2: { intros h _ (H & n & [= <-] & _ & Hn & _). now split. }
      assert (St1 := stable_and _ _ St (stable_isin T (Lc n1))).
      eapply does_then; [exact St1 | eapply does_pre; [now apply does_new | intros h _ _ r []]|]. intros r2.
      apply does_fact with (X := exists n, r2 = Lc n /\ W n); [intros h (_ & n & -> & _ & _ & H); eauto|]. intros (n2 & -> & W2).
      set (P := fun h => (((forall r, In r l1 -> isin T h r) /\ (forall r, In r l2 -> isin T h r)) /\ isin T h (Lc n1)) /\ isin T h (Lc n2)).
      eapply does_pre with (P := P).
      2: { intros h _ (H & n & [= <-] & _ & Hn & _). now split. }
      assert (St2 : stable P) by exact (stable_and _ _ St1 (stable_isin T (Lc n2))).
      eapply does_then; [exact St2 | eapply does_pre; [apply does_fill; [exact W1 | discriminate]|]|].
      { intros h _ (((H1 & H2) & H3) & H4). split; [assumption|]. split; [discriminate | assumption]. }
      intros ?. eapply does_pre with (P := P); [|tauto].
      eapply does_then; [exact St2 | eapply does_pre; [apply does_fill; [exact W2 | intros s [= <-]; exact W1]|]|].
      { intros h _ (((H1 & H2) & H3) & H4). split; [assumption|]. split; [intros s [= <-]; assumption | assumption]. }
      intros ?. eapply does_pre with (P := P); [|tauto].
      eapply does_bind; [eapply does_pre; [apply Hm | intros h _ (((H1 & H2) & H3) & H4); now split]|]. intros mm.
      eapply does_bind; [eapply does_pre; [apply does_kind | intros h _ (H & _); exact H]|].
      intros [n d|n l|v]; try apply does_raise.
      eapply does_weaken; [now apply (does_new T W h0 (OL (map snd d)))| intros h _ H; exact H | intros ? h _ (n' & -> & _ & H & _); exact H].
    Qed.
    Lemma does_merge_config : forall fuel ids t c,
      does T W h0 (merge_config_h aid fuel ids t c) (fun h => in_heap h t /\ isin T h c) fresh_in.
    Proof.
      induction fuel as [|fuel IH]; intros ids t c; cbn [merge_config_h]; [apply does_nofuel|].
      assert (IH' : forall ids t c, does T W h0 (merge_config_h aid fuel ids t c) (fun h => isin T h t /\ isin T h c) fresh_in).
      { intros ids' t' c'. eapply does_pre; [apply IH|]. intros h _ (H1 & H2). split; [|assumption]. intros n E. now destruct (H1 n E). }
      assert (St : stable (fun h => in_heap h t /\ isin T h c)) by (apply stable_and; [apply stable_in_heap | apply stable_isin]).
      eapply does_then; [exact St | eapply does_pre; [now apply does_deepcopy | intros h _ (H & _); exact H]|]. intros result.
      apply does_fact with (X := forall n, result = Lc n -> W n); [intros h (_ & _ & H); exact H|]. intros HW.
      eapply does_pre with (P := fun h => isin T h result /\ isin T h c); [|tauto].
      assert (St1 : stable (fun h => isin T h result /\ isin T h c)) by (apply stable_and; apply stable_isin).
      eapply does_then; [exact St1 | eapply does_pre; [apply does_kind | intros h _ (_ & H); exact H]|]. intros k.
      destruct result as [v|n]; [apply does_raise|]. destruct k as [n' items|n' l|v]; try apply does_raise.
      set (P := fun h => isin T h (Lc n) /\ (forall r, In r (map snd items) -> isin T h r)).
      assert (StP : stable P) by (apply stable_and; [apply stable_isin | apply (stable_all (fun r h => isin T h r)); intros; apply stable_isin]).
      eapply does_pre with (P := P); [|intros h _ ((H1 & _) & H2); now split].
      eapply does_then; [exact StP | apply does_each; [exact StP|] |].
      - intros (key, value) Hin. assert (Hv : In value (map snd items)) by (change value with (snd (key, value)); now apply in_map).
        eapply does_then; [exact StP | eapply does_pre; [apply does_kind | intros h _ (H & _); exact H]|]. intros kr.
        set (P1 := fun h => P h /\ kind_in T h kr). assert (St2 : stable P1) by (apply stable_and; [exact StP | apply stable_kind]).
        eapply (does_then T W h0 _ _ P1 (fun e h => forall r, e = Some r -> isin T h r)); [exact St2 | |].
        { destruct kr as [nr d|nr l|v]; try apply does_raise. apply does_ret. intros h _ (_ & H) r E. apply H. eapply hget_In; eassumption. }
        intros existing. set (P2 := fun h => P h /\ forall r, existing = Some r -> isin T h r).
        assert (St3 : stable P2).
        { apply stable_and; [exact StP|]. intros h h' Hl H r E. eapply stable_isin; [eassumption | now apply H]. }
        eapply does_pre with (P := P2); [|intros h _ ((H1 & _) & H2); now split].
        eapply (does_then T W h0 _ _ P2 (fun k h => kind_in T h k)); [exact St3 | |].
        { destruct existing as [e|]; [|apply does_ret; intros; exact I]. eapply does_pre; [apply does_kind | intros h _ (_ & H); now apply H]. }
        intros ke. assert (St4 : stable (fun h => P2 h /\ kind_in T h ke)) by (apply stable_and; [exact St3 | apply stable_kind]).
        eapply does_then; [exact St4 | eapply does_pre; [apply does_kind | intros h _ (((_ & H) & _) & _); exact (H value Hv)]|]. intros kv.
        assert (Set' : does T W h0 (set_item n key value) (fun h => (P2 h /\ kind_in T h ke) /\ kind_in T h kv) (fun _ _ => True)).
        { eapply does_pre; [apply does_set_item; now apply HW|]. intros h _ ((((H1 & H2) & _) & _) & _). split; [exact H1 | exact (H2 value Hv)]. }
        assert (Put : forall m, does T W h0 m (fun h => (P2 h /\ kind_in T h ke) /\ kind_in T h kv) (fun r h => isin T h r) ->
          does T W h0 (r <~ m; set_item n key r) (fun h => (P2 h /\ kind_in T h ke) /\ kind_in T h kv) (fun _ _ => True)).
        { intros m Hm. eapply does_then; [apply stable_and; [exact St4 | apply stable_kind] | exact Hm|]. intros r.
          eapply does_pre; [apply does_set_item; now apply HW|]. intros h _ (((((H1 & H2) & _) & _) & _) & H3). now split. }
        destruct existing as [e|]; [|exact Set']. destruct ke as [ne de|ne le|ve], kv as [nv dv|nv lv|vv]; try exact Set'; try apply does_raise.
        + apply Put. eapply does_weaken; [apply (IH' ids e value)| |intros a h _ (H & _); exact H].
          intros h _ ((((_ & H2) & H3) & _) & _). split; [now apply H3 | exact (H2 value Hv)].
        + apply Put. eapply does_pre; [apply does_merge_list; intros; apply IH'|].
          intros h _ ((_ & H3) & H4). split; [exact H3 | exact H4].
      - intros u. apply does_ret. intros h _ ((H & _) & _). split; [exact H | exact HW].
    Qed.
  End Merge.
  Section Build.
    Variables T W : nat -> Prop.
    Variable h0 : heap.
    Hypothesis Hy : young T h0.
    Hypothesis Hw : young W h0.
    Lemma does_build : forall v, does T W h0 (build v) (fun _ => True) (fun r h => isin T h r).
    Proof.
      fix rec 1. intros [|b|z|f|s|l|d]; cbn [build]; try (apply does_ret; intros h _ _ n; discriminate).
      - eapply (does_bind T W h0 _ _ _ (fun rs h => forall r, In r rs -> isin T h r)).
        + induction l as [|x t IH]; [apply does_ret; intros h _ _ r []|].
          eapply does_bind; [apply rec|]. intros r.
          eapply does_then; [apply stable_isin | eapply does_pre; [exact IH | intros; exact I]|].
          intros rs. apply does_ret. intros h _ (H1 & H2) r' [<- | Hr]; auto.
        + intros rs. eapply does_weaken; [now apply (does_new T W h0 (OL rs)) | intros h _ H; exact H | intros r h _ (n & -> & _ & H & _); exact H].
      - eapply (does_bind T W h0 _ _ _ (fun rs h => forall r, In r (map snd rs) -> isin T h r)).
        + induction d as [|(k, x) t IH]; [apply does_ret; intros h _ _ r []|].
          eapply does_bind; [apply rec|]. intros r.
          eapply does_then; [apply stable_isin | eapply does_pre; [exact IH | intros; exact I]|].
          intros rs. apply does_ret. intros h _ (H1 & H2) r' [<- | Hr]; auto.
        + intros rs. eapply does_weaken; [now apply (does_new T W h0 (OD rs)) | intros h _ H; exact H | intros r h _ (n & -> & _ & H & _); exact H].
    Qed.
    Lemma does_load r : does T W h0 (load_h json_loads r) (fun h => isin T h r) (fun r' h => isin T h r').
    Proof.
      unfold load_h. eapply (does_bind T W h0 _ _ _ (fun r' h => isin T h r')).
      - destruct r as [[]|n]; try (now apply does_ret). destruct (json_loads s); [|now apply does_ret].
        eapply does_pre; [apply does_build | intros; exact I].
      - intros r'. eapply does_then; [apply stable_isin | apply does_kind|].
        intros [n d|n l|v]; try apply does_raise. apply does_ret. tauto.
    Qed.
    Lemma does_merge_all fuel ids : forall l r, does T W h0 (merge_all aid json_loads fuel ids r l)
      (fun h => isin T h r /\ forall t, In t l -> isin T h t) (fun r' h => isin T h r').
    Proof.
      induction l as [|t l IH]; intros r; cbn [merge_all]; [apply does_ret; tauto|].
      assert (St : forall r, stable (fun h => isin T h r /\ forall t0, In t0 (t :: l) -> isin T h t0)).
      { intros r'. apply stable_and; [apply stable_isin | apply (stable_all (fun r h => isin T h r)); intros; apply stable_isin]. }
      eapply does_then; [apply St | eapply does_pre; [apply does_load | intros h _ (_ & H); apply H; now left]|]. intros d.
      eapply does_then; [apply stable_and; [apply St | apply stable_isin] | eapply does_pre; [now apply (does_merge_config T W h0 Hy Hw)|]|].
      { intros h _ ((H1 & _) & H2). split; [|exact H2]. intros n E. now destruct (H1 n E). }
      intros m. eapply does_pre; [apply IH|]. intros h _ (((_ & H1) & _) & (H2 & _)). split; [exact H2 | intros; apply H1; now right].
    Qed.
  End Build.
  Lemma does_evaluate (T W : nat -> Prop) h0 ctx : (forall n, T n -> W n) -> forall fuel data,
    does T W h0 (evaluate_h fuel ctx data) (fun h => isin T h data) (fun r h => isin T h r).
  Proof.
    intros HW. induction fuel as [|fuel IH]; intros [v|n]; cbn [evaluate_h]; try (destruct v; try (apply does_ret; now auto);
      destruct (eval_str ctx s) as [u|e]; cbn [bind lift]; [apply does_ret; intros h _ _ n; discriminate | apply does_raise]).
    - apply does_nofuel.
    - apply does_fact with (X := T n); [intros h H; now destruct (H n eq_refl)|]. intros Tn.
      assert (St := stable_isin T (Lc n)).
      eapply does_then; [exact St | eapply does_pre; [apply does_look | intros h _ H; exact (H n eq_refl)]|]. intros o.
      eapply does_pre with (P := fun h => isin T h (Lc n)); [|tauto].
      eapply does_then; [exact St | apply does_each; [exact St|] | intros ?; apply does_ret; tauto].
      intros k _. eapply does_then; [exact St | eapply does_pre; [apply does_look | intros h _ H; exact (H n eq_refl)]|]. intros o'.
      destruct (item o' k) as [v|] eqn:Ei; [|apply does_raise].
      assert (Hin : In v (refs o')).
      { destruct o' as [d|l], k as [k|i]; cbn [item refs] in *; try discriminate; [eapply hget_In; eassumption | eapply nth_error_In; eassumption]. }
      eapply does_pre with (P := fun h => isin T h (Lc n) /\ isin T h v); [|intros h _ (H1 & H2); split; auto].
      eapply does_then; [apply stable_and; apply stable_isin | eapply does_pre; [apply IH | intros h _ (_ & H); exact H]|].
      intros r. destruct k as [k|i]; cbn [assign].
      + eapply does_pre; [apply does_set_item; auto|]. tauto.
      + eapply does_pre; [apply does_set_nth; auto|]. tauto.
  Qed.
  Lemma merge_all_app fuel ids : forall l1 l2 r h,
    merge_all aid json_loads fuel ids r (l1 ++ l2) h = andthen (merge_all aid json_loads fuel ids r l1) (fun r' => merge_all aid json_loads fuel ids r' l2) h.
  Proof.
    induction l1 as [|t l1 IH]; intros l2 r h; [reflexivity|]. cbn [app merge_all]. unfold andthen in *.
    destruct (load_h json_loads t h) as (h1, [d|e|]); [|reflexivity | reflexivity].
    destruct (merge_config_h aid fuel ids r d h1) as (h2, [m|e|]); [|reflexivity | reflexivity]. apply IH.
  Qed.

  Definition all (n : nat) : Prop := True.
  Lemma start_all h : heap_ok h -> inv all (fun n => length h <= n) h h.
  Proof. intros H. constructor; [exact H | lia | intros n _; reflexivity | intros; exact I]. Qed.
  Lemma all_in h r : in_heap h r -> isin all h r. Proof. intros H n E. split; [now apply H | exact I]. Qed.
  Lemma in_all h r : isin all h r -> in_heap h r. Proof. intros H n E. now destruct (H n E). Qed.
  Lemma youngall h : young all h. Proof. intros n _. exact I. Qed.
  Lemma youngw h : young (fun n => length h <= n) h. Proof. intros n H. exact H. Qed.
  (** the result of a constructor: a region above everything the caller had *)
  Definition region (h h' : heap) (r : ref) : Prop :=
    exists T : nat -> Prop, (forall n, T n -> length h <= n) /\ (forall n o m, T n -> nth_error h' n = Some o -> In (Lc m) (refs o) -> T m) /\ isin T h' r.
  Definition good (h h' : heap) (o : out ref) : Prop :=
    heap_ok h' /\ length h <= length h' /\ (forall n, n < length h -> untouched h h' n) /\ (forall r, o = Val r -> region h h' r).
  Lemma run_all {A} h (m : M A) P Q : heap_ok h -> does all (fun n => length h <= n) h m P Q -> P h -> forall h' o, m h = (h', o) ->
    heap_ok h' /\ length h <= length h' /\ (forall n, n < length h -> untouched h h' n) /\ (forall a, o = Val a -> Q a h').
  Proof.
    intros Hok Hm Hp h' o E. destruct (Hm h (start_all h Hok) Hp h' o E) as ([H1 H2 H3 _] & _ & H5). repeat split; auto.
    intros n Hn. apply H3. lia.
  Qed.
  Lemma merge_templates_good fuel ids hb c t h h' o :
    heap_ok h -> region hb h c -> in_heap h t -> length hb <= length h -> (forall n, n < length hb -> untouched hb h n) ->
    merge_templates_h aid json_loads fuel ids c t h = (h', o) -> good hb h' o.
  Proof.
    intros Hok Hc Ht Hl Hu. unfold merge_templates_h. unfold andthen at 1. pose proof (read_kind t h) as Er. destruct (kind_of t h) as (h1, k) eqn:Ek. cbn [fst] in Er. subst h1.
    assert (Same : forall e, good hb h (Raise e)) by (intros e; repeat split; auto; discriminate).
    assert (SameF : good hb h NoFuel) by (repeat split; auto; discriminate).
    assert (Id : good hb h (Val c)) by (repeat split; auto; intros r [= <-]; exact Hc).
    destruct k as [k|e|]; [|intros [= <- <-]; apply Same | intros [= <- <-]; exact SameF].
    destruct (run_all h (kind_of t) _ _ Hok (does_kind all _ h t) (all_in _ _ Ht) _ _ Ek) as (_ & _ & _ & Hk). specialize (Hk _ eq_refl).
    destruct k as [n [|kv d]|n [|r0 ts]|v]; [intros [= <- <-]; exact Id | intros [= <- <-]; apply Same | intros [= <- <-]; exact Id | |
      destruct (truthy v); intros [= <- <-]; [apply Same | exact Id]].
    set (l := r0 :: ts) in *. change ((r0 :: ts) ++ [c])%list with (l ++ [c])%list. cbn [kind_in] in Hk. intros E. unfold andthen, new in E. set (h1 := (h ++ [OD []])%list) in *.
    assert (Hok1 : heap_ok h1).
    { intros m ob r Hm Hin j ->. subst h1. rewrite app_length. apply nth_error_snoc in Hm as [(Hlm & Hm) | (-> & ->)]; [|destruct Hin].
      specialize (Hok _ _ _ Hm Hin j eq_refl). cbn. lia. }
    assert (Hl1 : length h < length h1) by (subst h1; rewrite app_length; cbn; lia).
    assert (Hu1 : forall n, n < length h -> untouched h h1 n) by (intros m Hm; subst h1; unfold untouched; now rewrite nth_error_app1).
    rewrite merge_all_app in E. unfold andthen at 1 in E.
    destruct (merge_all aid json_loads fuel ids (Lc (length h)) l h1) as (h2, o2) eqn:E2.
    destruct (run_all h1 _ _ _ Hok1 (does_merge_all all _ h1 (youngall _) (youngw _) fuel ids l (Lc (length h)))) with (h' := h2) (o := o2) as (Hok2 & Hl2 & Hu2 & Hr2).
    { split; [intros m [= <-]; split; [lia | exact I]|]. intros r Hr. intros m ->. destruct (Hk _ Hr m eq_refl). split; [lia | exact I]. }
    { exact E2. }
    assert (Keep : forall n, n < length h -> untouched h h2 n).
    { intros m Hm. unfold untouched. rewrite Hu2 by lia. now apply Hu1. }
    assert (KeepB : forall n, n < length hb -> untouched hb h2 n).
    { intros m Hm. unfold untouched. rewrite Keep by lia. now apply Hu. }
    destruct o2 as [r2|e|].
    2,3: injection E as <- <-; split; [exact Hok2|]; split; [lia|]; split; [exact KeepB | discriminate].
    specialize (Hr2 _ eq_refl). apply in_all in Hr2. destruct Hc as (S & HSb & HSc & HSr).
    set (T := fun n => (S n /\ n < length h) \/ length h2 <= n).
    assert (Hinv : inv T (fun n => length h2 <= n) h2 h2).
    { constructor; [exact Hok2 | lia | intros m _; reflexivity|]. intros m ob j [(Hm & Hml) | Hm] Hn Hin.
      - rewrite Keep in Hn by exact Hml. left. split; [exact (HSc m ob j Hm Hn Hin) | exact (Hok _ _ _ Hn Hin j eq_refl)].
      - assert (Hx : nth_error h2 m <> None) by congruence. apply nth_error_Some in Hx. lia. }
    assert (HyT : young T h2) by (intros m Hm; now right).
    assert (HcT : isin T h2 c). { intros m ->. destruct (HSr m eq_refl) as (H1 & H2). split; [lia | left; now split]. }
    cbn [merge_all] in E.
    assert (D : does T (fun n => length h2 <= n) h2 (d <~ load_h json_loads c; r <~ merge_config_h aid fuel ids r2 d; ret r)
      (fun h => isin T h c /\ in_heap h r2) (fun r h => isin T h r)).
    { eapply does_then; [apply stable_and; [apply stable_isin | apply stable_in_heap] | eapply does_pre; [now apply does_load; [|apply youngw] | intros q _ (H & _); exact H]|].
      intros d. eapply does_bind; [eapply does_pre; [apply (does_merge_config T _ h2 HyT (youngw h2))|]|].
      - intros q _ ((_ & H1) & H2). now split.
      - intros r. apply does_ret. intros q _ (H & _). exact H. }
    destruct (D h2 Hinv (conj HcT Hr2) h' o E) as ([H1 H2 H3 H4] & _ & H5).
    split; [exact H1|]. split; [lia|]. split.
    - intros m Hm. unfold untouched. rewrite H3 by lia. now apply KeepB.
    - intros r ->. exists T. split; [|split; [exact H4 | now apply H5]]. intros m [(Hm & _) | Hm]; [now apply HSb | lia].
  Qed.
  Theorem construct_good fuel ids ctx config templates h h' o :
    heap_ok h -> in_heap h config -> in_heap h templates ->
    construct aid json_loads fuel ids ctx config templates h = (h', o) -> good h h' o.
  Proof.
    intros Hok Hc Ht E. unfold construct in E. unfold andthen at 1 in E.
    destruct (load_h json_loads config h) as (h1, o1) eqn:E1.
    destruct (run_all h _ _ _ Hok (does_load all _ h (youngall _) (youngw _) config) (all_in _ _ Hc) _ _ E1) as (Hok1 & Hl1 & Hu1 & Hr1).
    destruct o1 as [c|e|]. 2,3: injection E as <- <-; repeat split; auto; discriminate.
    specialize (Hr1 _ eq_refl). apply in_all in Hr1.
    unfold andthen at 1 in E. destruct (deepcopy c h1) as (h2, o2) eqn:E2.
    assert (Hinv : inv (fun n => length h1 <= n) (fun n => length h1 <= n) h1 h1).
    { constructor; [exact Hok1 | lia | intros m _; reflexivity|]. intros m ob j Hm Hn Hin. assert (Hx : nth_error h1 m <> None) by congruence. apply nth_error_Some in Hx. lia. }
    destruct (does_deepcopy _ _ h1 c (youngw h1) (youngw h1) h1 Hinv Hr1 _ _ E2) as ([Hok2 Hl2 Hu2 Hc2] & _ & Hr2).
    assert (Keep : forall n, n < length h -> untouched h h2 n).
    { intros m Hm. unfold untouched. rewrite Hu2 by lia. now apply Hu1. }
    destruct o2 as [c'|e|]. 2,3: injection E as <- <-; repeat split; auto; try lia; discriminate.
    destruct (Hr2 _ eq_refl) as (Hin & _).
    assert (HR : region h h2 c').
    { exists (fun n => length h1 <= n). split; [intros; lia|]. split; [exact Hc2 | exact Hin]. }
    assert (Ht2 : in_heap h2 templates) by (intros m ->; specialize (Ht m eq_refl); lia).
    unfold andthen at 1 in E. destruct (merge_templates_h aid json_loads fuel ids c' templates h2) as (h3, o3) eqn:E3.
    assert (G : good h h3 o3) by (eapply merge_templates_good; [exact Hok2 | exact HR | exact Ht2 | lia | exact Keep | exact E3]).
    destruct G as (Hok3 & Hl3 & Hu3 & Hr3).
    destruct o3 as [m|e|]. 2,3: injection E as <- <-; repeat split; auto; try lia; discriminate.
    destruct ctx as [|kv ctx]; [injection E as <- <-; repeat split; auto|].
    destruct (Hr3 _ eq_refl) as (T & HT & HTc & HTr).
    assert (Hi : inv T T h3 h3) by (constructor; [exact Hok3 | lia | intros n _; reflexivity | exact HTc]).
    destruct (does_evaluate T T h3 (kv :: ctx) (fun n H => H) fuel m h3 Hi HTr _ _ E) as ([H1 H2 H3 H4] & _ & H5).
    split; [exact H1|]. split; [lia|]. split.
    - intros n Hn. unfold untouched. rewrite H3 by (intros Hx; apply HT in Hx; lia). now apply Hu3.
    - intros r ->. exists T. split; [exact HT|]. split; [exact H4 | now apply H5].
  Qed.
End Code.

(** ** What code holding references can do *)
Lemma reach_closed (T : nat -> Prop) h roots : (forall n, In (Lc n) roots -> T n) ->
  (forall n o m, T n -> nth_error h n = Some o -> In (Lc m) (refs o) -> T m) -> forall n, reach h roots n -> T n.
Proof. intros Hr Hc n. induction 1; eauto. Qed.
Lemma acts_closed (T : nat -> Prop) h0 : young T h0 -> forall s s', acts s s' ->
  (forall n, In (Lc n) (fst s) -> T n) -> length h0 <= length (snd s) ->
  (forall n o m, T n -> nth_error (snd s) n = Some o -> In (Lc m) (refs o) -> T m) ->
  forall n, ~ T n -> nth_error (snd s') n = nth_error (snd s) n.
Proof.
  intros Hy s s'. induction 1 as [s|roots h o s Ho _ IH|roots h n o s Hn Ho _ IH]; cbn [fst snd] in *; intros Hr Hl Hc k Hk; [reflexivity| |].
  - rewrite IH; [|intros m [[= <-] | Hm]; [apply Hy; lia | now apply Hr] | rewrite app_length; cbn; lia| |exact Hk].
    + apply nth_error_app1. destruct (Nat.lt_ge_cases k (length h)); [assumption | elim Hk; apply Hy; lia].
    + intros m ob j Hm Hn Hin. apply nth_error_snoc in Hn as [(_ & Hn) | (-> & ->)]; [eapply Hc; eassumption|].
      eapply reach_closed; [exact Hr | exact Hc | now apply Ho].
  - assert (Tn : T n) by (eapply reach_closed; [exact Hr | exact Hc | exact Hn]).
    rewrite IH; [|exact Hr | now rewrite put_length| |exact Hk].
    + apply put_other. intros ->. contradiction.
    + intros m ob j Hm Hnm Hin. destruct (Nat.eq_dec n m) as [-> | Hne].
      * destruct (Nat.lt_ge_cases m (length h)) as [Hlt | Hge].
        -- rewrite put_same in Hnm by assumption. injection Hnm as <-. eapply reach_closed; [exact Hr | exact Hc | now apply Ho].
        -- assert (Hx : nth_error (put m o h) m <> None) by congruence. apply nth_error_Some in Hx. rewrite put_length in Hx. lia.
      * rewrite put_other in Hnm by assumption. eapply Hc; eassumption.
Qed.
