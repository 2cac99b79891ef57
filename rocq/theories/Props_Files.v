(** * Props_Files: properties C14-C19 (additional files, archive members, host names) *)
From Verif Require Import PyBase PyLemmas Files SpecFiles FilesProofs.

(** C14.  Paths accepted by validation, and the archive members made of them,
    are relative and never climb out of the extraction directory. *)
Theorem C14_accepted_paths : forall config files f p,
  validate_file_paths config = Ok tt -> get_files config = Ok files ->
  In f files -> file_path f p ->
  p <> EmptyString /\ path_text p /\
  forall q, relative_of p q -> safe_relative q /\ startswith "/" q = false.
Proof. exact validated_path_safe. Qed.
Print Assumptions C14_accepted_paths.
Theorem C14_archive_members : forall config tar0 tar1 m,
  validate_file_paths config = Ok tt -> process_files config tar0 = Ok tar1 ->
  In m tar1 -> In m tar0 \/ safe_relative (m_name m).
Proof. exact archive_safe. Qed.
Print Assumptions C14_archive_members.
Example C14_applies : exists tar,
  let config := [("files", VList [VDict [("path", VStr "/etc/{{ id }}/a.conf"); ("contents", VStr "x")]])] in
  validate_file_paths config = Ok tt /\ process_files config [] = Ok tar /\
  map m_name tar = ["etc/{{ id }}/a.conf"].
Proof. eexists. split; [vm_compute; reflexivity|]. split; vm_compute; reflexivity. Qed.
Example C14_rejects : forall p, In p ["../x"; "/a/../x"; "a//b"; "./a"; "/"; ""; "a b"; "{a}"; "{{ x"; "//a"; "a/."] ->
  validate_file_paths [("files", VList [VDict [("path", VStr p)]])] = Err (path_error p).
Proof. intros p H. repeat (destruct H as [<-|H]; [vm_compute; reflexivity|]). destruct H. Qed.

(** C15.  Every path of that shape is accepted; a rejection names a file whose
    path does not have it. *)
Theorem C15_no_spurious_rejection : forall config files, get_files config = Ok files ->
  (forall f, In f files -> exists p q, file_path f p /\ p <> EmptyString /\ path_text p /\
     relative_of p q /\ safe_relative q) ->
  validate_file_paths config = Ok tt.
Proof. exact validate_paths_complete. Qed.
Print Assumptions C15_no_spurious_rejection.
Example C15_applies : path_text "/a/{{ x }y}}.z" /\ safe_relative "a/{{ x }y}}.z".
Proof.
  split.
  - repeat (constructor; [unfold path_class; vm_compute; tauto|]).
    apply (pt_var " x }y" ".z"); [reflexivity|].
    repeat (constructor; [unfold path_class; vm_compute; tauto|]). constructor.
  - apply safe_relative_spec. reflexivity.
Qed.

(** C16.  Accepted host names, including the trailing newline the regular
    expression lets through. *)
Theorem C16_hostname : forall s, is_hostname (VStr s) = true <->
  exists c t, (s = String c t \/ s = String c t +++ NL) /\ is_alnum c = true /\
    sforall host_char t = true /\ (1 <= String.length t <= 255)%nat /\
    forall label, In label (split_char "." s) -> (String.length label <= 63)%nat.
Proof. exact hostname_spec. Qed.
Print Assumptions C16_hostname.
(** The intended claim (no newline) is false. *)
Theorem C16_no_newline_refuted : ~ (forall s, is_hostname (VStr s) = true -> contains NL s = false).
Proof. intros H. specialize (H ("router" +++ NL) eq_refl). discriminate. Qed.
Print Assumptions C16_no_newline_refuted.
Example C16_applies : is_hostname (VStr "my-router.lan") = true /\ is_hostname (VStr "-a") = false
  /\ is_hostname (VStr "a") = false /\ is_hostname (VStr "a_b") = false.
Proof. repeat split; vm_compute; reflexivity. Qed.

(** C17.  Deduplication by path. *)
Theorem C17_deduplicate : forall config config', deduplicate_files config = Ok config' ->
  (forall k, k <> "files" -> dget k config' = dget k config) /\ dkeys config' = dkeys config /\
  match dget "files" config with
  | None => config' = config
  | Some v => exists old new ps, v = VList old /\ dget "files" config' = Some (VList new) /\
      Forall2 file_path old ps /\ Forall2 file_path new (firsts ps) /\
      forall f p, In f new -> file_path f p -> last_such (fun g => file_path g p) old f
  end.
Proof. exact deduplicate_spec. Qed.
Print Assumptions C17_deduplicate.
Theorem C17_idempotent : forall config config', deduplicate_files config = Ok config' ->
  deduplicate_files config' = Ok config'.
Proof. exact deduplicate_idem. Qed.
Print Assumptions C17_idempotent.
Example C17_applies :
  let f p c := VDict [("path", VStr p); ("contents", VStr c)] in
  deduplicate_files [("files", VList [f "/a" "1"; f "/b" "2"; f "/a" "3"])]
  = Ok [("files", VList [f "/a" "3"; f "/b" "2"])].
Proof. reflexivity. Qed.

(** C18.  One member per file, in order, after the members already present. *)
Theorem C18_members : forall config tar0 tar1, process_files config tar0 = Ok tar1 ->
  exists files ms, get_files config = Ok files /\ tar1 = (tar0 ++ ms)%list /\
    Forall2 (fun f m => exists c, file_member f c m /\ (ascii_only c = true -> m_data m = c)) files ms.
Proof.
  intros config tar0 tar1 H. apply process_files_spec in H as (files & ms & Hf & HF & ->).
  exists files, ms. split; [exact Hf|]. split; [reflexivity|].
  eapply Forall2_impl; [|exact HF]. intros f m Hm. apply file_mem0_member in Hm as (c & Hm & Hd).
  exists c. split; [exact Hm|]. intros Ha. rewrite Hd, (utf8_ascii c Ha). apply stake_all.
Qed.
Print Assumptions C18_members.
Example C18_applies : process_files
    [("files", VList [VDict [("path", VStr "/a"); ("contents", VStr "x"); ("mode", VStr "0755")];
                      VDict [("path", VStr "b/c"); ("contents", VStr "")]])] []
  = Ok [{| m_name := "a"; m_mode := 493; m_mtime := 0; m_data := "x" |};
        {| m_name := "b/c"; m_mode := 420; m_mtime := 0; m_data := "" |}].
Proof. reflexivity. Qed.

(** C19.  Claim: a member holds the whole UTF-8 contents.  False: it loses as
    many bytes as there are non-ASCII characters. *)
Theorem C19_whole_contents_refuted :
  ~ (forall config tar m f c, process_files config [] = Ok tar -> In m tar ->
       get_files config = Ok [f] -> file_member f c m -> m_data m = utf8 c).
Proof.
  intros H.
  specialize (H [("files", VList [VDict [("path", VStr "a"); ("contents", VStr (String "233" "t"))]])]
     [{| m_name := "a"; m_mode := 420; m_mtime := 0; m_data := String "195" (String "169" "") |}]
     {| m_name := "a"; m_mode := 420; m_mtime := 0; m_data := String "195" (String "169" "") |}
     (VDict [("path", VStr "a"); ("contents", VStr (String "233" "t"))]) (String "233" "t")).
  cbn in H. discriminate H; [reflexivity|left; reflexivity|reflexivity|].
  exists [("path", VStr "a"); ("contents", VStr (String "233" "t"))], "a", "0644".
  repeat split; auto.
  - right. split; [reflexivity|]. intros r E. discriminate.
  - apply (parse_mode_octal "0644" 420). reflexivity.
Qed.
Print Assumptions C19_whole_contents_refuted.
Theorem C19_bytes_lost : forall config tar0 tar1, process_files config tar0 = Ok tar1 ->
  exists files ms, get_files config = Ok files /\ tar1 = (tar0 ++ ms)%list /\
    Forall2 (fun f m => exists c, file_member f c m /\
      (String.length (m_data m) + non_ascii_count c)%nat = String.length (utf8 c) /\
      startswith (m_data m) (utf8 c) = true) files ms.
Proof.
  intros config tar0 tar1 H. apply process_files_spec in H as (files & ms & Hf & HF & ->).
  exists files, ms. split; [exact Hf|]. split; [reflexivity|].
  eapply Forall2_impl; [|exact HF]. intros f m Hm. apply file_mem0_member in Hm as (c & Hm & Hd).
  exists c. split; [exact Hm|]. rewrite Hd. split.
  - rewrite stake_length, utf8_length; [lia|rewrite utf8_length; lia].
  - apply stake_prefix.
Qed.
Print Assumptions C19_bytes_lost.
