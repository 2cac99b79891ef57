(** * C53: the ZeroTier backend *)
From Verif Require Import PyBase StrLemmas Merge Files SpecFiles Backend UciProofs Uci SpecUci SpecConv Json SpecZt JsonProofs ZtBackend ZtProofs ZtApi.

(** C53: JSON that the templates wrote is read back, whatever the texts *)
Theorem C53_json : forall v, document (fun _ => True) v -> exists v', loads (tojson v) = Ok v' /\ same v v'.
Proof. intros v H. exists (canon v). split; [exact (loads_tojson _ v H) | apply canon_same; eauto]. Qed.
(** C53: a valid configuration renders *)
Theorem C53_renders : forall oid schema_ok config vs config',
  dget "zerotier" config = Some (VList (map VDict vs)) -> vs <> [] ->
  base_validate schema_ok config = Ok tt -> deduplicate_files config = Ok config' ->
  exists s1 text, render oid (zerotier_backend schema_ok) false (fresh config) = (s1, Ok text).
Proof. intros oid sc config vs c' H1 H2 H3 H4. exact (zt_renders oid sc config vs c' H1 H2 H3 H4). Qed.
(** C53: render then parse, on any object, gives back the networks in order,
    without the options of the clients *)
Theorem C53_round_trip : forall oid schema_ok config vs s1 text,
  dget "zerotier" config = Some (VList (map VDict vs)) -> vs <> [] -> Forall (network_ok no_comment) vs ->
  render oid (zerotier_backend schema_ok) false (fresh config) = (s1, Ok text) ->
  forall s0, exists vs' inter, let config' := [("zerotier", VList (map VDict vs'))] in
    parse oid (zerotier_backend schema_ok) (parse_zerotier text) s0 = ({| st_config := config'; st_inter := inter |}, base_validate schema_ok config') /\
    Forall2 (fun v v' => same (VDict (settings_of v)) (VDict v')) vs vs'.
Proof. intros oid sc config vs s1 text H1 H2 H3 H4. exact (zt_round_trip oid sc config vs s1 text H1 H2 H3 H4). Qed.
(** C53: the archive begins with one file for each network, in order, named after
    its id, whose JSON is that network's settings, whatever the texts *)
Theorem C53_archive : forall oid schema_ok config vs s1 s2 text tar,
  dget "zerotier" config = Some (VList (map VDict vs)) -> vs <> [] -> Forall (network_ok (fun _ => True)) vs ->
  Forall (fun v => contains ".json" (network_id v) = false) vs ->
  render oid (zerotier_backend schema_ok) false (fresh config) = (s1, Ok text) ->
  generate oid (zerotier_backend schema_ok) (fresh config) = (s2, Ok tar) ->
  exists ms ms', tar = (ms ++ ms')%list /\ Forall2 zt_stored vs ms.
Proof. intros oid sc config vs s1 s2 text tar H1 H2 H3 H4 H5 H6. exact (zt_archive oid sc config vs s1 s2 text tar _ H1 H2 H3 H4 H5 H6). Qed.
(** C53: parsing the archive is parsing the text *)
Theorem C53_archive_parse : forall oid schema_ok config vs s1 s2 text files tar,
  dget "zerotier" config = Some (VList (map VDict vs)) -> vs <> [] -> Forall (network_ok no_comment) vs ->
  Forall (fun v => contains ".json" (network_id v) = false) vs ->
  render oid (zerotier_backend schema_ok) false (fresh config) = (s1, Ok text) ->
  get_files (st_config s1) = Ok files ->
  (forall f p q, In f files -> file_path f p -> relative_of p q -> endswith ".json" q = false) ->
  generate oid (zerotier_backend schema_ok) (fresh config) = (s2, Ok tar) ->
  forall s0, parse oid (zerotier_backend schema_ok) (parse_zerotier_tar tar) s0
           = parse oid (zerotier_backend schema_ok) (parse_zerotier text) s0.
Proof.
  intros oid sc config vs s1 s2 text files tar H1 H2 H3 H4 H5 H6 H7 H8 s0.
  now rewrite (zt_archive_parse oid sc config vs s1 s2 text files tar H1 H2 H3 H4 H5 H6 H7 H8).
Qed.

(** ** The hypotheses are met *)
Definition ex_nets : list dict :=
  [[("name", VStr "a < b & 'c'"); ("nwid", VStr "8056c2e21c000001"); ("private", VBool true); ("mtu", VInt 2800);
    ("routes", VList [VDict [("via", VNull); ("target", VStr "10.0.0.0/24")]; VDict []]); ("tags", VList []);
    ("v4AssignMode", VDict [("zt", VBool false)]); ("client_options", VDict [("x", VInt 1)]); ("load", VFloat "1.5e-07")];
   [("name", VStr ("two" +++ NL +++ "lines")); ("revision", VInt (-1))]].
Definition ex_zt : dict := [("zerotier", VList (map VDict ex_nets))].
Ltac distinct := repeat (constructor; [intros E; cbn in E; repeat destruct E as [E | E]; try discriminate E; exact E|]); constructor.
Ltac doc := lazymatch goal with
  | |- document _ (VDict _) => apply doc_dict; [cbn; distinct | let k := fresh "k" in let v := fresh "v" in let H := fresh "H" in intros k v H; cbn in H; repeat (destruct H as [H | H]; [injection H as <- <-; split; [split; reflexivity | doc] |]); destruct H]
  | |- document _ (VList _) => apply doc_list; let v := fresh "v" in let H := fresh "H" in intros v H; cbn in H; repeat (destruct H as [<- | H]; [doc|]); destruct H
  | |- document _ (VStr _) => apply doc_str; split; reflexivity
  | |- document _ (VFloat _) => apply doc_float; exists EmptyString, "1", ".5", "e-07"; repeat split; try (cbn; tauto); try discriminate;
      [right; repeat split; discriminate | right; exists "5"; repeat split; discriminate | right; exists "-", "07"; repeat split; try (cbn; tauto); discriminate]
  | |- document _ (VBool _) => apply doc_bool
  | |- document _ (VInt _) => apply doc_int
  | |- document _ VNull => apply doc_null
  end.
Example ex_nets_ok : Forall (network_ok no_comment) ex_nets.
Proof.
  constructor; [|constructor; [|constructor]].
  - split; [cbn; distinct|]. split; [cbn [settings_of ddel String.eqb Ascii.eqb Bool.eqb]; doc|]. split; [eexists; reflexivity|]. split; [eexists; split; [reflexivity | apply no_char_spec; reflexivity]|].
    split; intros k x Hk Hx; cbn in Hk; repeat destruct Hk as [<- | Hk]; try destruct Hk; cbn in Hx; try discriminate Hx; injection Hx as <-; eauto.
  - split; [cbn; distinct|]. split; [cbn [settings_of ddel String.eqb Ascii.eqb Bool.eqb]; doc|]. split; [eexists; reflexivity|]. split; [exact I|].
    split; intros k x Hk Hx; cbn in Hk; repeat destruct Hk as [<- | Hk]; try destruct Hk; cbn in Hx; try discriminate Hx; injection Hx as <-; eauto.
Qed.
Definition any_oid : oracle := fun _ n => n.
Example ex_zt_text : exists s1, render any_oid (zerotier_backend (fun _ => Ok tt)) false (fresh ex_zt) = (s1, Ok (join NL
  ["// zerotier controller config: 8056c2e21c000001.json"; ""; "{";
   "    " +++ DQ +++ "load" +++ DQ +++ ": 1.5e-07,";
   "    " +++ DQ +++ "mtu" +++ DQ +++ ": 2800,";
   "    " +++ DQ +++ "name" +++ DQ +++ ": " +++ DQ +++ "a \u003c b \u0026 \u0027c\u0027" +++ DQ +++ ",";
   "    " +++ DQ +++ "nwid" +++ DQ +++ ": " +++ DQ +++ "8056c2e21c000001" +++ DQ +++ ",";
   "    " +++ DQ +++ "private" +++ DQ +++ ": true,";
   "    " +++ DQ +++ "routes" +++ DQ +++ ": [";
   "        {";
   "            " +++ DQ +++ "target" +++ DQ +++ ": " +++ DQ +++ "10.0.0.0/24" +++ DQ +++ ",";
   "            " +++ DQ +++ "via" +++ DQ +++ ": null";
   "        },";
   "        {}";
   "    ],";
   "    " +++ DQ +++ "tags" +++ DQ +++ ": [],";
   "    " +++ DQ +++ "v4AssignMode" +++ DQ +++ ": {";
   "        " +++ DQ +++ "zt" +++ DQ +++ ": false";
   "    }";
   "}"; ""; "// zerotier controller config: .json"; ""; "{";
   "    " +++ DQ +++ "name" +++ DQ +++ ": " +++ DQ +++ "two\nlines" +++ DQ +++ ",";
   "    " +++ DQ +++ "revision" +++ DQ +++ ": -1";
   "}"; ""])).
Proof. eexists. vm_compute. reflexivity. Qed.
Example ex_zt_names : exists s2 tar, generate any_oid (zerotier_backend (fun _ => Ok tt)) (fresh ex_zt) = (s2, Ok tar) /\ map m_name tar = ["8056c2e21c000001.json"; ".json"].
Proof. eexists _, _. vm_compute. split; reflexivity. Qed.
(** C53 (deviation): the parser takes two slashes, or a slash and a star, inside a
    text for a comment: such a network cannot be parsed back, or comes back changed *)
Definition zt_named_net (n : string) : dict := [("zerotier", VList [VDict [("name", VStr n); ("nwid", VStr "1")]])].
Theorem C53_slashes_refuted :
  (exists s1 text, render any_oid (zerotier_backend (fun _ => Ok tt)) false (fresh (zt_named_net "http://a")) = (s1, Ok text) /\ parse_zerotier text = Err EValue) /\
  (exists s1 text, render any_oid (zerotier_backend (fun _ => Ok tt)) false (fresh (zt_named_net "a/*b*/c")) = (s1, Ok text) /\
     parse_zerotier text = Ok [("zerotier", VList [VDict [("name", VStr "ac"); ("nwid", VStr "1")]])]).
Proof. split; eexists _, _; (split; [vm_compute; reflexivity | vm_compute; reflexivity]). Qed.

Print Assumptions C53_json.
Print Assumptions C53_renders.
Print Assumptions C53_round_trip.
Print Assumptions C53_archive.
Print Assumptions C53_archive_parse.
Print Assumptions C53_slashes_refuted.
