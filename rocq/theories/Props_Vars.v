(** * Props_Vars: properties C09-C13 (configuration variables) *)
From Verif Require Import PyBase PyLemmas Vars SpecVars VarsProofs VarsMore.

(** C09.  Only string leaves change, each independently of the rest of the
    document; the only failure is re.error. *)
Theorem C09_structure : forall ctx v w, evaluate_vars ctx v = Ok w ->
  leafwise (fun s t => evaluate_vars ctx (VStr s) = Ok (VStr t)) v w.
Proof. exact evaluate_shape. Qed.
Print Assumptions C09_structure.
Theorem C09_only_re_error : forall ctx v e, evaluate_vars ctx v = Err e -> e = ERe.
Proof. exact evaluate_err. Qed.
Print Assumptions C09_only_re_error.
Example C09_applies : exists w, evaluate_vars [("x", VInt 3)]
    (VDict [("a", VList [VStr "{{ x }}!"; VInt 1]); ("{{x}}", VNull)]) = Ok w
  /\ w = VDict [("a", VList [VStr "3!"; VInt 1]); ("{{x}}", VNull)].
Proof. eexists; split; vm_compute; reflexivity. Qed.

(** C10.  Text without references, or with undefined ones only, is untouched;
    so is everything under an empty context. *)
Theorem C10_untouched : forall ctx v,
  leafwise (fun s t => s = t /\ (contains "{{" s = false \/
     exists ps, s = text ps /\ Forall ok_piece ps /\
       forall w1 n w2, In (Ref w1 n w2) ps -> dget n ctx = None)) v v ->
  evaluate_vars ctx v = Ok v.
Proof. exact untouched_doc. Qed.
Print Assumptions C10_untouched.
Theorem C10_empty_context : forall config, evaluate_config [] config = Ok config.
Proof. reflexivity. Qed.
Print Assumptions C10_empty_context.
Example C10_applies : let ps := [Lit "a { } "; Ref " " "nope" ""; Lit "\"] in
  text ps = "a { } {{ nope}}\" /\ Forall ok_piece ps /\
  (forall w1 n w2, In (Ref w1 n w2) ps -> dget n [("x", VInt 1)] = None).
Proof.
  split; [reflexivity|]. split.
  - repeat constructor; discriminate.
  - intros w1 n w2 [H|[H|[H|[]]]]; inversion H; reflexivity.
Qed.

(** C11.  Defined references are replaced by their value, all at once. *)
Theorem C11_substitution : forall ctx v w,
  leafwise (fun s t => exists ps, s = text ps /\ t = substituted ctx ps /\ Forall ok_piece ps /\
    forall w1 n w2 x, In (Ref w1 n w2) ps -> dget n ctx = Some x ->
      plain (py_str x) /\ no_backslash (py_str x)) v w ->
  evaluate_vars ctx v = Ok w.
Proof. exact eval_doc. Qed.
Print Assumptions C11_substitution.
Example C11_applies :
  let ctx := [("a", VStr "b"); ("b", VInt 7)] in
  let ps := [Lit "{"; Lit " "; Ref " " "a" ""; Lit "-"; Ref "" "b" " "; Ref "" "a" ""; Ref "" "zz" ""] in
  Forall ok_piece (tl ps) /\ substituted ctx (tl ps) = " b-7b{{zz}}" /\
  evaluate_vars ctx (VStr (text (tl ps))) = Ok (VStr (substituted ctx (tl ps))).
Proof. split; [repeat constructor; discriminate|]. split; vm_compute; reflexivity. Qed.

(** C12.  A value whose backslashes are doubled is inserted literally: [lits] is
    the intended context, [ctx] the escaped one. *)
Theorem C12_escaped_values : forall ctx lits v w,
  leafwise (fun s t => exists ps, s = text ps /\ t = substituted lits ps /\ Forall ok_piece ps /\
    forall n, In n (names ps) ->
      match dget n lits, dget n ctx with
      | Some x, Some y => py_str y = escape (py_str x) /\ plain (py_str x)
      | None, None => True
      | _, _ => False
      end) v w ->
  evaluate_vars ctx v = Ok w.
Proof.
  intros ctx lits v w. apply eval_doc_of. intros s t (ps & -> & -> & Hok & Hs).
  rewrite (eval_at_once ctx (fun n => option_map (fun x => [Lit (py_str x)]) (dget n lits)) ps Hok).
  - f_equal. unfold at_once. clear Hok Hs. induction ps as [|p ps IH]; [reflexivity|].
    cbn [map concat substituted]. rewrite text_app, IH. f_equal. destruct p as [s|w1 n w2]; cbn [text subst_piece].
    + apply app_nil_s.
    + destruct (dget n lits); cbn [option_map text piece_text]; apply app_nil_s.
  - intros n Hn. specialize (Hs n Hn). destruct (dget n lits) as [x|], (dget n ctx) as [y|]; cbn [option_map]; auto.
    destruct Hs as [Ey Hp]. split; [|constructor; [exact Hp|constructor]].
    cbn [text piece_text]. rewrite app_nil_s, Ey. apply unescaped_escape.
  - intros n x m Hn Hv Hm. destruct (dget n lits); [|discriminate]. inversion Hv; subst. destruct Hm.
Qed.
Print Assumptions C12_escaped_values.
(** Without doubling, backslashes are interpreted. *)
Theorem C12_literal_values_refuted :
  (exists x r, evaluate_vars [("v", VStr x)] (VStr "{{ v }}") = Ok (VStr r) /\ r <> x) /\
  (exists x, evaluate_vars [("v", VStr x)] (VStr "{{ v }}") = Err ERe).
Proof.
  split.
  - exists "a\nb", ("a" +++ NL +++ "b"). split; [vm_compute; reflexivity|discriminate].
  - exists "C:\Users". vm_compute. reflexivity.
Qed.
Print Assumptions C12_literal_values_refuted.
Example C12_applies :
  escape "C:\Users" = "C:\\Users" /\ plain "C:\Users" /\
  evaluate_vars [("v", VStr "C:\\Users")] (VStr "{{ v }}!") = Ok (VStr "C:\Users!").
Proof. repeat split; vm_compute; reflexivity. Qed.

(** C13.  What happens to references inside values: the variables of the text
    are replaced one after the other, in what the text has become. *)
Theorem C13_in_turn : forall ctx v w,
  leafwise (fun s t => exists ps value, s = text ps /\ t = text (in_turn value (names ps) ps) /\
    Forall ok_piece ps /\ stands_for ctx value ps) v w ->
  evaluate_vars ctx v = Ok w.
Proof.
  intros ctx v w. apply eval_doc_of. intros s t (ps & value & -> & -> & Hok & Hs). exact (eval_in_turn ctx value ps Hok Hs).
Qed.
Print Assumptions C13_in_turn.
(** So references inside values are left alone when the text itself does not use
    these variables. *)
Theorem C13_not_evaluated_again : forall ctx v w,
  leafwise (fun s t => exists ps value, s = text ps /\ t = text (at_once value ps) /\
    Forall ok_piece ps /\ stands_for ctx value ps /\
    forall n x m, In n (names ps) -> value n = Some x -> In m (names x) -> ~ In m (names ps)) v w ->
  evaluate_vars ctx v = Ok w.
Proof.
  intros ctx v w. apply eval_doc_of. intros s t (ps & value & -> & -> & Hok & Hs & Hd). exact (eval_at_once ctx value ps Hok Hs Hd).
Qed.
Print Assumptions C13_not_evaluated_again.
(** In general the order matters. *)
Theorem C13_no_reevaluation_refuted :
  let ctx := [("a", VStr "{{b}}"); ("b", VStr "X")] in
  evaluate_vars ctx (VStr "{{a}} {{b}}") = Ok (VStr "X X") /\
  evaluate_vars ctx (VStr "{{b}} {{a}}") = Ok (VStr "X {{b}}") /\
  substituted ctx [Ref "" "a" ""; Lit " "; Ref "" "b" ""] = "{{b}} X".
Proof. repeat split; vm_compute; reflexivity. Qed.
Print Assumptions C13_no_reevaluation_refuted.
Example C13_applies :
  let value n := if String.eqb n "a" then Some [Ref "" "b" ""; Lit "!"] else None in
  let ps := [Ref "" "a" ""; Lit " "; Ref "" "c" ""] in
  Forall ok_piece ps /\ stands_for [("a", VStr "{{b}}!"); ("b", VStr "X")] value ps /\
  (forall n x m, In n (names ps) -> value n = Some x -> In m (names x) -> ~ In m (names ps)) /\
  text (at_once value ps) = "{{b}}! {{c}}" /\
  evaluate_vars [("a", VStr "{{b}}!"); ("b", VStr "X")] (VStr "{{a}} {{c}}") = Ok (VStr "{{b}}! {{c}}").
Proof.
  assert (U : unescaped "{{b}}!" "{{b}}!") by (repeat (apply ue_char; [discriminate|]); constructor).
  split; [repeat constructor; discriminate|]. split.
  - intros n [<-|[<-|[]]]; vm_compute; [|exact I]. split; [exact U|]. repeat constructor; discriminate.
  - split; [|split; vm_compute; reflexivity].
    intros n x m [<-|[<-|[]]] Hv; vm_compute in Hv; inversion Hv; subst. intros [<-|[]] [H|[H|[]]]; discriminate H.
Qed.
