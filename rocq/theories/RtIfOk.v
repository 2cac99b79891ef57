(** * RtIfOk: the sections of the interfaces can be written (proofs only). *)
From Verif Require Import PyBase PyLemmas StrLemmas NumLemmas Merge SpecMerge MergeProofs MergeListProofs MergeFinal Backend Conv Ip IpProofs OwrtConv OwrtWireless OwrtInterfaces
  SpecUci SpecConv SpecDevice ConvLemmas SortLemmas RtStage RtBack RtGeneric RtSystem RtNetwork RtSwitch RtTrip RtAddress RtInterface RtIfFwd.

Lemma bare_nospace s : bare s -> sforall (fun c => negb (is_space c)) s = true.
Proof. apply sforall_impl. intros c H. apply andb_prop in H as [H _]. apply andb_prop in H as [H _]. exact H. Qed.
Lemma bare_nochar s : bare s -> nochar " " s = true.
Proof.
  intros H. apply bare_nospace in H. induction s as [|c s IH]; [reflexivity|]. rewrite nochar_cons. cbn [sforall] in H. apply andb_prop in H as [H1 H2].
  rewrite IH by exact H2. rewrite andb_true_r. destruct (Ascii.eqb_spec c " ") as [->|]; [discriminate H1|reflexivity].
Qed.
Lemma plain_join ms : (forall m, In m ms -> word m) -> plain (join " " ms).
Proof.
  intros H. assert (B : forall m, In m ms -> plain m) by (intros m Hm; apply bare_plain, H, Hm).
  assert (N : forall c, Ascii.eqb " " c = false -> (forall m, In m ms -> no_char c m) -> no_char c (join " " ms)).
  { intros c Hc Hm. refine (proj1 (nochar_spec c _) _). assert (Hm' : forall m, In m ms -> nochar c m = true) by (intros m X; exact (proj2 (nochar_spec c m) (Hm m X))).
    clear -Hc Hm'. induction ms as [|m [|m' ms] IH]; [reflexivity| |].
    - cbn [join]. apply Hm'. left; reflexivity.
    - change (join " " (m :: m' :: ms)) with (m +++ String " " (join " " (m' :: ms))). rewrite nochar_app, nochar_cons, Hc, (Hm' m) by (left; reflexivity).
      apply IH. intros x Hx. apply Hm'. right; exact Hx. }
  split; [|split; [|split]]; try (apply N; [reflexivity|intros m Hm; apply (B m Hm)]).
  clear N B. induction ms as [|m [|m' ms] IH]; [reflexivity| |].
  - cbn [join]. apply contains_nochar, bare_nochar, H. left; reflexivity.
  - change (join " " (m :: m' :: ms)) with (m +++ " " +++ join " " (m' :: ms)).
    rewrite contains_skip by (apply bare_nochar, H; left; reflexivity).
    assert (IH' : contains "    " (join " " (m' :: ms)) = false) by (apply IH; intros x Hx; apply H; right; exact Hx).
    destruct (H m') as [Hne Hb]; [right; left; reflexivity|]. destruct m' as [|c m']; [congruence|].
    apply bare_nochar in Hb. rewrite nochar_cons in Hb. apply andb_prop in Hb as [Hc _]. apply negb_true_iff in Hc.
    assert (E : exists r, join " " (String c m' :: ms) = String c r) by (destruct ms; cbn [join]; eexists; reflexivity).
    destruct E as (r & E). rewrite E in *. 
    change (contains "    " (" " +++ String c r)) with (startswith "    " (String " " (String c r)) || contains "    " (String c r)). rewrite IH', orb_false_r.
    cbn [startswith]. rewrite (Ascii.eqb_sym " " c), Hc. rewrite andb_false_l, andb_false_r. reflexivity.
Qed.
Lemma split_ws_word w : forall cur s, sforall (fun c => negb (is_space c)) w = true -> split_ws_from cur (w +++ s) = split_ws_from (srev w +++ cur) s.
Proof.
  induction w as [|c w IH]; intros cur s H; [reflexivity|]. cbn [sforall] in H. apply andb_prop in H as [H1 H2].
  change (String c w +++ s) with (String c (w +++ s)). cbn [split_ws_from]. apply negb_true_iff in H1. rewrite H1, IH by exact H2.
  rewrite srev_cons, app_assoc_s. reflexivity.
Qed.
Lemma split_join ms : (forall m, In m ms -> word m) -> split_ws (join " " ms) = ms.
Proof.
  unfold split_ws. intros H. assert (W : forall m, In m ms -> exists c r, srev m = String c r).
  { intros m Hm. destruct (srev m) as [|c r] eqn:E; [|eauto]. destruct (H m Hm) as [Hne _]. exfalso; apply Hne; rewrite <- (srev_invol m), E; reflexivity. }
  induction ms as [|m [|m' ms] IH]; [reflexivity| |].
  - cbn [join]. destruct (W m) as (c & r & E); [left; reflexivity|]. rewrite <- (app_nil_s m) at 1. rewrite split_ws_word by (apply bare_nospace, H; left; reflexivity).
    rewrite app_nil_s, E. cbn [split_ws_from]. rewrite <- E, srev_invol. reflexivity.
  - change (join " " (m :: m' :: ms)) with (m +++ String " " (join " " (m' :: ms))). destruct (W m) as (c & r & E); [left; reflexivity|].
    rewrite split_ws_word by (apply bare_nospace, H; left; reflexivity). rewrite app_nil_s, E. cbn [split_ws_from]. change (is_space " ") with true. cbn iota.
    rewrite <- E, srev_invol, IH; [reflexivity| |]; intros x Hx; [apply H|apply W]; right; exact Hx.
Qed.

(** ** Values that can be written *)
Lemma text_writable s : plain s -> writable (VStr s). Proof. exact (fun H => H). Qed.
Lemma if_ip_plain n : plain (if_ip n). Proof. apply addr_plain, print_addr_chars. Qed.
Lemma several_writable f l v : (forall n, plain (f n)) -> several f l = Some v -> writable v.
Proof.
  intros Hf. destruct l as [|x [|y l]]; cbn [several]; intros E; [discriminate| |]; injection E as <-.
  - apply Hf.
  - intros z Hz. change (In z (map (fun x => VStr (if_str (fst x))) (x :: y :: l))) in Hz. apply in_map_iff in Hz as (w & <- & _). apply if_str_plain.
Qed.
Lemma gateway_writable l v : gateway_of l = Some v -> writable v.
Proof.
  induction l as [|[n [g|]] l IH]; cbn [gateway_of]; intros E; [discriminate| |exact (IH E)]. injection E as <-. apply addr_plain, print_addr_chars.
Qed.
Lemma opt_writable_base v opts k w : addressing v opts -> opt opts k = Some w -> writable w.
Proof.
  assert (P : forall s, sforall addr_char s = true -> plain s) by apply addr_plain.
  assert (L : forall s, bare s -> writable (VStr s)) by (intros s Hs; apply bare_plain, Hs).
  intros H. unfold opt. inversion H as [Ea|six d Hd Hm Ea|l4 l6 ds F4 F6 Hne F Ea]; subst; cbn [dget]; fields k; try discriminate.
  - intros E. injection E as <-. apply L. reflexivity.
  - intros E. injection E as <-. apply L. destruct six; reflexivity.
  - intros E. injection E as <-. apply L. reflexivity.
  - apply several_writable. apply if_ip_plain.
  - destruct l4 as [|x [|y l4]]; intros E; [discriminate| |discriminate]. injection E as <-. apply (addr_plain (netmask (ip_len (fst x)))). exact (print_addr_chars false _).
  - apply several_writable. apply if_str_plain.
  - apply gateway_writable.
  - apply gateway_writable.
Qed.
Lemma opt_keys_base k w v opts : addressing v opts -> opt opts k = Some w -> word k.
Proof.
  intros H E. destruct (existsb (String.eqb k) six_options) eqn:X; [|rewrite (opt_other_base _ _ _ H X) in E; discriminate E].
  unfold six_options in X. cbn [existsb] in X. revert X. fields k; try discriminate; intros _; wordlit.
Qed.
Lemma opt_writable v opts k w : addr_dns v opts -> existsb (String.eqb k) six_options = true -> opt opts k = Some w -> word k /\ writable w.
Proof. intros (base & l1 & l2 & H & -> & _) Hk. rewrite (opt_base _ _ _ _ H Hk). intros E. split; [eapply opt_keys_base|eapply opt_writable_base]; eassumption. Qed.
Lemma dns_writable l : words l -> uci_value (odef (dns_val l)) <> None -> writable (odef (dns_val l)).
Proof. destruct l as [|x l]; [intros _ X; exfalso; apply X; reflexivity|]. intros W _. exact (plain_join (x :: l) W). Qed.
Lemma isec_ok dsa b n u br ms opts s : iface dsa b n u br ms opts -> NoDup (dkeys s) -> (forall k, dget k s = isec dsa b n u br ms opts k) -> section_ok s.
Proof.
  intros H Hs G. eapply section_ok_intro; [exact Hs|rewrite G; reflexivity|wordlit|rewrite G; reflexivity|exact (i_bare _ _ _ _ _ _ _ H)|].
  pose proof (i_fields _ _ _ _ _ _ _ H) as Hf. 
  destruct (dns_vals _ _ (i_addr _ _ _ _ _ _ _ H)) as (l1 & l2 & W1 & W2 & D1 & D2).
  intros k v. rewrite G. unfold isec.
  destruct (String.eqb_spec k ".type") as [->|]; [discriminate|]. destruct (String.eqb_spec k ".name") as [->|]; [discriminate|].
  destruct (String.eqb_spec k "dns") as [->|]; [intros E _ X; injection E as <-; rewrite D1 in *; split; [wordlit|apply dns_writable; assumption]|].
  destruct (String.eqb_spec k "dns_search") as [->|]; [intros E _ X; injection E as <-; rewrite D2 in *; split; [wordlit|apply dns_writable; assumption]|].
  destruct (existsb (String.eqb k) gone) eqn:Eg; [discriminate|].
  destruct (String.eqb_spec k "ifname") as [->|].
  { destruct dsa; [discriminate|]. destruct br.
    - destruct ms as [|m ms]; [discriminate|]. intros E _ _. injection E as <-. split; [wordlit|]. exact (plain_join (m :: ms) (i_words _ _ _ _ _ _ _ H)).
    - intros E _ _. injection E as <-. split; [wordlit|]. apply text_writable, (i_plain _ _ _ _ _ _ _ H). }
  destruct (String.eqb_spec k "device") as [->|].
  { destruct dsa; [|discriminate]. intros E _ _. injection E as <-. split; [wordlit|]. apply text_writable, (i_plain _ _ _ _ _ _ _ H). }
  destruct (String.eqb_spec k "macaddr") as [->|].
  { destruct dsa; [discriminate|]. pose proof (i_mac _ _ _ _ _ _ _ H) as Hm. unfold optional in Hm. destruct (dget "mac" b); [|discriminate].
    destruct Hm as (x & -> & _ & Hp). intros E _ _. injection E as <-. split; [wordlit|exact Hp]. }
  assert (Hfw : existsb (String.eqb k) iface_skip = false -> dget k b = Some v -> word k /\ writable v).
  { intros Hk E. eapply field_writes; [exact Hf| |exact E]. intros Hin. rewrite <- not_true_iff_false in Hk. apply Hk, existsb_exists. exists k. rewrite eqb_refl. auto. }
  unfold gone, iface_skip in *. cbn [existsb] in Eg, Hfw.
  destruct (existsb (String.eqb k) ("mtu" :: bridge_keys)) eqn:Em.
  { destruct dsa; [discriminate|]. intros E _ _. apply Hfw; [|exact E]. revert Em Eg. unfold bridge_keys, bridge_flags, bridge_numbers. cbn [existsb app]. fields k; intros; try reflexivity; discriminate. }
  destruct (String.eqb_spec k "auto") as [->|].
  { pose proof (i_auto _ _ _ _ _ _ _ H) as Hm. unfold optional in Hm. destruct (dget "autostart" b); [|discriminate].
    destruct Hm as (x & ->). intros E _ _. injection E as <-. split; [wordlit|]. destruct x; apply bare_plain; reflexivity. }
  destruct (String.eqb_spec k "enabled") as [->|].
  { pose proof (i_dis _ _ _ _ _ _ _ H) as Hm. unfold optional in Hm. destruct (dget "disabled" b); [|discriminate].
    destruct Hm as (x & ->). intros E _ _. injection E as <-. split; [wordlit|]. destruct x; apply bare_plain; reflexivity. }
  destruct (String.eqb_spec k "type") as [->|].
  { destruct (br && negb dsa); [|discriminate]. intros E _ _. injection E as <-. split; [wordlit|]. apply bare_plain; reflexivity. }
  destruct (String.eqb_spec k "bridge_empty") as [->|].
  { destruct (br && negb dsa); [|discriminate]. destruct ms; [|discriminate]. intros E _ _. injection E as <-. split; [wordlit|]. apply bare_plain; reflexivity. }
  destruct (existsb (String.eqb k) six_options) eqn:E6.
  { intros E _ _. eapply opt_writable; [exact (i_addr _ _ _ _ _ _ _ H)|exact E6|exact E]. }
  intros E _ _. apply Hfw; [|exact E]. revert Eg. fields k; intros; try reflexivity; try discriminate; congruence.
Qed.
Lemma dsec_ok dsa b n u br ms opts s : iface dsa b n u br ms opts -> NoDup (dkeys s) -> (forall k, dget k s = dsec b n u br ms k) -> section_ok s.
Proof.
  intros H Hs G. eapply section_ok_intro; [exact Hs|rewrite G; reflexivity|wordlit|rewrite G; reflexivity|apply bare_app; [reflexivity|exact (i_bare _ _ _ _ _ _ _ H)]|].
  pose proof (i_fields _ _ _ _ _ _ _ H) as Hf. 
  intros k v. rewrite G. unfold dsec.
  destruct (String.eqb_spec k ".type") as [->|]; [discriminate|]. destruct (String.eqb_spec k ".name") as [->|]; [discriminate|].
  destruct (String.eqb_spec k "name") as [->|].
  { intros E _ _. injection E as <-. split; [wordlit|]. apply text_writable, (i_plain _ _ _ _ _ _ _ H). }
  destruct (String.eqb_spec k "type") as [->|].
  { destruct br; [|discriminate]. intros E _ _. injection E as <-. split; [wordlit|]. apply bare_plain; reflexivity. }
  destruct (String.eqb_spec k "ports") as [->|].
  { destruct br; [|discriminate]. destruct ms as [|m ms]; [discriminate|]. intros E _ _. injection E as <-. split; [wordlit|].
    intros x Hx. change (VStr m :: map VStr ms) with (map VStr (m :: ms)) in Hx. apply in_map_iff in Hx as (y & <- & Hy). apply bare_plain, (i_words _ _ _ _ _ _ _ H y Hy). }
  destruct (String.eqb_spec k "bridge_empty") as [->|].
  { destruct br; [|discriminate]. destruct ms; [|discriminate]. intros E _ _. injection E as <-. split; [wordlit|]. apply bare_plain; reflexivity. }
  destruct (String.eqb_spec k "macaddr") as [->|].
  { pose proof (i_mac _ _ _ _ _ _ _ H) as Hm. unfold optional in Hm. destruct (dget "mac" b); [|discriminate].
    destruct Hm as (x & -> & _ & Hp). intros E _ _. injection E as <-. split; [wordlit|exact Hp]. }
  destruct (existsb (String.eqb k) ("mtu" :: bridge_keys)) eqn:Em; [|discriminate].
  intros E _ _. eapply field_writes; [exact Hf| |exact E]. intros Hin. revert Em. unfold bridge_keys, bridge_flags, bridge_numbers. unfold iface_skip in Hin. cbn [In] in Hin.
  repeat (destruct Hin as [<-|Hin]; [discriminate|]). contradiction.
Qed.
