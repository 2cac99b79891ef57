(** * Props_Uci: properties C20-C25 (UCI text of the OpenWrt backend) *)
From Verif Require Import PyBase PyLemmas Files SpecFiles Uci SpecUci SpecUciMore StrLemmas UciProofs UciParseProofs UciRoundTrip UciMore.

(** A document used as a witness below: two packages, three sections. *)
Definition sample : dict :=
  [("network", VList [VDict [(".type", VStr "interface"); (".name", VStr "lan"); ("ifname", VStr "eth0.1");
                             ("auto", VBool false); ("mtu", VInt 0); ("dns", VList [VStr "8.8.8.8"; VInt 1]); ("empty", VStr "");
                             ("none", VNull); ("nolist", VList [])];
                      VDict [(".type", VStr "device"); (".name", VStr "br"); ("desc", VStr "a b  c")]]);
   ("system", VList [VDict [(".type", VStr "system"); (".name", VStr "s")]])].
Lemma sample_ok : data_ok sample.
Proof.
  assert (W : forall s, s <> EmptyString -> sforall (fun c => negb (is_space c) && negb (Ascii.eqb c SQc) && negb (Ascii.eqb c DQc)) s = true -> word s) by (intros; split; assumption).
  assert (P : forall s, nochar NLc s = true -> nochar SQc s = true -> nochar DQc s = true -> contains "    " s = false -> plain s).
  { intros s H1 H2 H3 H4. unfold plain. rewrite !no_char_spec. auto. }
  split; [repeat constructor; cbn; intuition discriminate|].
  intros p [<-|[<-|[]]]; split.
  - split; [discriminate|]. split; [reflexivity|]. rewrite no_char_spec. split; reflexivity.
  - eexists [_; _]. split; [reflexivity|]. intros b [<-|[<-|[]]].
    + split; [repeat constructor; cbn; intuition discriminate|]. split.
      * exists "interface", "lan". split; [reflexivity|]. split; [apply W; [discriminate|reflexivity]|]. split; reflexivity.
      * intros k v H. repeat (destruct H as [H|H]; [injection H as <- <-; intros Hd Hv; try discriminate Hd; try (exfalso; apply Hv; reflexivity); (split; [apply W; [discriminate|reflexivity]|])|]); try contradiction.
        -- apply P; reflexivity.
        -- apply P; reflexivity.
        -- apply P; reflexivity.
        -- intros x [<-|[<-|[]]]; apply P; reflexivity.
    + split; [repeat constructor; cbn; intuition discriminate|]. split.
      * exists "device", "br". split; [reflexivity|]. split; [apply W; [discriminate|reflexivity]|]. split; reflexivity.
      * intros k v H. repeat (destruct H as [H|H]; [injection H as <- <-; intros Hd Hv; try discriminate Hd; try (exfalso; apply Hv; reflexivity); (split; [apply W; [discriminate|reflexivity]|])|]); try contradiction.
        apply P; reflexivity.
  - split; [discriminate|]. split; [reflexivity|]. rewrite no_char_spec. split; reflexivity.
  - eexists [_]. split; [reflexivity|]. intros b [<-|[]].
    split; [repeat constructor; cbn; intuition discriminate|]. split.
    + exists "system", "s". split; [reflexivity|]. split; [apply W; [discriminate|reflexivity]|]. split; reflexivity.
    + intros k v H. repeat (destruct H as [H|H]; [injection H as <- <-; intros Hd Hv; discriminate Hd|]). contradiction.
Qed.

(** C20.  Rendering then parsing gives back the packages, the sections and the
    UCI values of the written options. *)
Theorem C20_uci_round_trip : forall d, data_ok d ->
  exists text d', render_uci d = Ok text /\ parse_text text = Ok d' /\ data_reads d d'.
Proof. exact uci_round_trip. Qed.
Print Assumptions C20_uci_round_trip.
Example C20_applies : data_ok sample /\ exists text, render_uci sample = Ok text /\ parse_text text = Ok
  [("network", VList [VDict [(".name", VStr "lan"); (".type", VStr "interface"); ("auto", VStr "0");
        ("dns", VList [VStr "8.8.8.8"; VStr "1"]); ("ifname", VStr "eth0.1"); ("mtu", VStr "0")];
      VDict [(".name", VStr "br"); (".type", VStr "interface"); ("desc", VStr "a b  c"); ("type", VStr "device")]]);
   ("system", VList [VDict [(".name", VStr "s"); (".type", VStr "system")]])].
Proof. split; [exact sample_ok|]. eexists. split; vm_compute; reflexivity. Qed.

(** C21.  A value can inject sections: one section is written, two are read. *)
Definition evil : string := "x'" +++ NL +++ NL +++ "config evil 'e'" +++ NL +++ TAB +++ "option a 'b".
Theorem C21_injection : exists text,
  render_uci [("network", VList [VDict [(".type", VStr "t"); (".name", VStr "n"); ("o", VStr evil)]])] = Ok text /\
  parse_text text = Ok [("network", VList [
     VDict [(".name", VStr "n"); (".type", VStr "t"); ("o", VStr "x")];
     VDict [(".name", VStr "e"); (".type", VStr "evil"); ("a", VStr "b")]])].
Proof. eexists. split; vm_compute; reflexivity. Qed.
Print Assumptions C21_injection.
(** Writable values cannot: same packages, same sections, same options. *)
Theorem C21_writable_values_do_not_inject : forall d text d', data_ok d ->
  render_uci d = Ok text -> parse_text text = Ok d' -> data_reads d d'.
Proof.
  intros d text d' H Hr Hp. destruct (uci_round_trip d H) as (t & e & E1 & E2 & E3).
  rewrite Hr in E1. injection E1 as <-. rewrite Hp in E2. injection E2 as <-. exact E3.
Qed.
Print Assumptions C21_writable_values_do_not_inject.

(** C22.  Values are not always kept verbatim... *)
Theorem C22_values_changed : exists text text',
  render_uci [("p", VList [VDict [(".type", VStr "t"); (".name", VStr "n"); ("o", VStr "a    b")]])] = Ok text /\
  In (TAB +++ "option o 'ab'") (split_char NLc text) /\
  render_uci [("p", VList [VDict [(".type", VStr "t"); (".name", VStr "n"); ("o", VStr ("a" +++ NL +++ NL +++ NL +++ "option"))]])] = Ok text' /\
  contains ("'a" +++ NL +++ NL +++ TAB +++ "option'") text' = true.
Proof.
  do 2 eexists. split; [vm_compute; reflexivity|]. split; [vm_compute; do 3 right; left; reflexivity|].
  split; vm_compute; reflexivity.
Qed.
Print Assumptions C22_values_changed.
(** ...but they are when writable. *)
Theorem C22_values_verbatim : forall d text p bs b k v, data_ok d -> render_uci d = Ok text ->
  In (p, VList (map VDict bs)) d -> In b bs -> In (k, v) b -> startswith "." k = false ->
  match uci_value v with
  | Some (VStr x) => In (TAB +++ "option " +++ k +++ " '" +++ x +++ "'") (split_char NLc text)
  | Some (VList xs) => forall x, In (VStr x) xs -> In (TAB +++ "list " +++ k +++ " '" +++ x +++ "'") (split_char NLc text)
  | _ => uci_value v = None
  end.
Proof. exact values_verbatim. Qed.
Print Assumptions C22_values_verbatim.

(** C23.  Options without value and reserved names leave no trace in the text,
    whatever the data. *)
Theorem C23_unwritten_options : forall d d', data_thinned d d' -> render_uci d = render_uci d'.
Proof. exact unwritten_options. Qed.
Print Assumptions C23_unwritten_options.
(** False, 0 and "0" are written. *)
Theorem C23_false_and_zero_written : forall d text p bs b k v, data_ok d -> render_uci d = Ok text ->
  In (p, VList (map VDict bs)) d -> In b bs -> In (k, v) b -> startswith "." k = false ->
  v = VBool false \/ v = VInt 0 \/ v = VStr "0" ->
  In (TAB +++ "option " +++ k +++ " '0'") (split_char NLc text).
Proof.
  intros d text p bs b k v H Hr Hp Hb Hk Hd Hv.
  pose proof (values_verbatim d text p bs b k v H Hr Hp Hb Hk Hd) as G. destruct Hv as [->|[->| ->]]; exact G.
Qed.
Print Assumptions C23_false_and_zero_written.
Example C23_applies : data_thinned
  [("p", VList (map VDict [[(".type", VStr "t"); (".name", VStr "n"); (".index", VInt 1); ("a", VNull); ("b", VStr ""); ("c", VBool false); ("d", VList [])]]))]
  [("p", VList (map VDict [[(".type", VStr "t"); (".name", VStr "n"); ("c", VBool false)]]))].
Proof.
  assert (U : forall kv, fst kv <> ".type" -> fst kv <> ".name" -> startswith "." (fst kv) = true \/ uci_value (snd kv) = None -> unwritten kv) by (intros; repeat split; assumption).
  constructor; [|constructor]. split; [reflexivity|]. do 2 eexists. split; [reflexivity|]. split; [reflexivity|].
  constructor; [|constructor]. do 2 apply thin_keep.
  do 3 (apply thin_drop; [apply U; cbn; (discriminate || auto)|]). apply thin_keep.
  apply thin_drop; [apply U; cbn; (discriminate || auto)|]. constructor.
Qed.

(** C24.  Parsing never fails but with TypeError, exactly when a section has a
    list line for a name that holds a plain value; every section of the last
    package of a name is kept. *)
Theorem C24_total : forall text, (exists d, parse_text text = Ok d) \/ parse_text text = Err EType.
Proof. exact parse_text_total. Qed.
Print Assumptions C24_total.
Theorem C24_fails_iff_clash : forall text, parse_text text = Err EType <->
  exists package section, In package (stripped (re_split "package" text)) /\
    In section (stripped (re_split "config" (after_first package))) /\ clash (other_lines section).
Proof. exact parse_text_fails. Qed.
Print Assumptions C24_fails_iff_clash.
Theorem C24_sections_kept : forall text d, parse_text text = Ok d -> forall package,
  In package (stripped (re_split "package" text)) ->
  (forall l1 l2, stripped (re_split "package" text) = (l1 ++ package :: l2)%list ->
     forall r, In r l2 -> first_line r <> first_line package) ->
  exists sections, dget (first_line package) d = Some (VList sections) /\
    length sections = length (stripped (re_split "config" (after_first package))).
Proof. exact parse_text_sections. Qed.
Print Assumptions C24_sections_kept.
(** Sections of an earlier package of the same name are lost. *)
Definition repeated : string :=
  "package a" +++ NL +++ NL +++ "config x 'one'" +++ NL +++ NL +++ "package a" +++ NL +++ NL +++ "config y 'two'" +++ NL.
Theorem C24_repeated_package_lost :
  parse_text repeated = Ok [("a", VList [VDict [(".name", VStr "two"); (".type", VStr "y")]])].
Proof. vm_compute. reflexivity. Qed.
Print Assumptions C24_repeated_package_lost.
Example C24_applies :
  let text := "package a" +++ NL +++ "config x" +++ NL +++ "option k 1" +++ NL +++ "list k '2'" +++ NL in
  stripped (re_split "package" text) = ["a" +++ NL +++ "config x" +++ NL +++ "option k 1" +++ NL +++ "list k '2'"] /\
  parse_text text = Err EType /\
  parse_text ("package a" +++ NL +++ "config x" +++ NL +++ "option k 1" +++ NL +++ "config 'y' z") =
    Ok [("a", VList [VDict [(".name", VStr "x_1"); (".type", VStr "x"); ("k", VStr "1")]; VDict [(".name", VStr "z"); (".type", VStr "y")]])].
Proof. repeat split; vm_compute; reflexivity. Qed.

(** C25.  Parsing the generated archive is parsing the rendered text. *)
Theorem C25_archive : forall d text config files tar tar',
  data_ok d -> (forall p, In p (dkeys d) -> contains "etc/config/" p = false) ->
  render_uci d = Ok text -> ascii_text text ->
  get_files config = Ok files ->
  (forall f p q, In f files -> file_path f p -> relative_of p q -> startswith "etc/config/" q = false) ->
  generate_packages text [] = Ok tar -> process_files config tar = Ok tar' ->
  parse_tar tar' = parse_text text.
Proof. exact archive_round_trip. Qed.
Print Assumptions C25_archive.
Example C25_applies : exists text tar tar',
  render_uci sample = Ok text /\ ascii_text text /\ generate_packages text [] = Ok tar /\
  process_files [("files", VList [VDict [("path", VStr "/etc/banner"); ("contents", VStr "hi")]])] tar = Ok tar' /\
  map m_name tar' = ["etc/config/network"; "etc/config/system"; "etc/banner"].
Proof.
  do 3 eexists. split; [vm_compute; reflexivity|]. split; [vm_compute; reflexivity|].
  split; [vm_compute; reflexivity|]. split; vm_compute; reflexivity.
Qed.
(** Not so with non-ASCII text: the truncated member loses its last bytes. *)
Definition accent : dict :=
  [("a", VList [VDict [(".type", VStr "t"); (".name", VStr "n"); ("o", VStr (String "233" (String "233" "")))]]);
   ("b", VList [VDict [(".type", VStr "t"); (".name", VStr "m")]])].
Theorem C25_non_ascii_refuted : data_ok accent /\ exists text tar d d',
  render_uci accent = Ok text /\ generate_packages text [] = Ok tar /\
  parse_tar tar = Ok d /\ parse_text text = Ok d' /\ dkeys d' = ["a"; "b"] /\ dkeys d = ["a"].
Proof.
  split.
  - assert (W : forall s, s <> EmptyString -> sforall (fun c => negb (is_space c) && negb (Ascii.eqb c SQc) && negb (Ascii.eqb c DQc)) s = true -> word s) by (intros; split; assumption).
    split; [repeat constructor; cbn; intuition discriminate|]. intros p [<-|[<-|[]]]; (split; [split; [discriminate|]; split; [reflexivity|]; rewrite no_char_spec; split; reflexivity|]);
      eexists [_]; (split; [reflexivity|]); intros b [<-|[]]; (split; [repeat constructor; cbn; intuition discriminate|]).
    + split; [exists "t", "n"; split; [reflexivity|]; split; [apply W; [discriminate|reflexivity]|]; split; reflexivity|].
      intros k v [H|[H|[H|[]]]]; injection H as <- <-; intros Hd; try discriminate Hd. intros _.
      split; [apply W; [discriminate|reflexivity]|]. unfold writable, plain. rewrite !no_char_spec. repeat split; reflexivity.
    + split; [exists "t", "m"; split; [reflexivity|]; split; [apply W; [discriminate|reflexivity]|]; split; reflexivity|].
      intros k v [H|[H|[]]]; injection H as <- <-; intros Hd; discriminate Hd.
  - do 4 eexists. split; [vm_compute; reflexivity|]. split; [vm_compute; reflexivity|]. split; [vm_compute; reflexivity|].
    split; [vm_compute; reflexivity|]. split; reflexivity.
Qed.
Print Assumptions C25_non_ascii_refuted.
