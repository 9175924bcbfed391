(** Property theorems about the text of JSON reports: C100. *)
From Coq Require Import QArith Reals.
From Flocq Require Import Core BinarySingleNaN.
From Verif Require Import Base Dict Consts Db NameSpec BaseFacts Report ReportSpec ReportFacts ReportAll TextFacts Text TextSpec Json JsonSpec JsonFacts PyInt Float64 Float64Spec
  Xml XmlTextSpec XmlText JsonTextSpec JsonText JsonTextFacts JsonTextWrite
  XmlWriter XmlReader XmlFactory XmlSpec XmlMeans Merge MergeSpec Dates Rgy Cmd CmdSpec FilesSpec Yaml YamlSpec YamlDocSpec FileReportSpec YamlReportSpec
  Samples P_Float P_Text P_YamlReport.
Set Implicit Arguments.
Local Open Scope string_scope.
Local Open Scope list_scope.

(** The reader decides the grammar; so a text has one reading at most. *)
Theorem C100_reader : forall s d, parse_json s = Some d <-> is_json s d.
Proof. exact parse_json_spec. Qed.
Print Assumptions C100_reader.
Theorem C100_one_reading : forall s d d', is_json s d -> is_json s d' -> d = d'.
Proof. intros s d d' H H'. apply parse_json_spec in H, H'. congruence. Qed.
Print Assumptions C100_one_reading.

(** Text that is written, whatever is in the names: well-formed JSON that says what is
    in the report.  [report] appends a newline to what json.dump writes.  Points without
    bins are written with the int 0; [C100_bare]: reports that are built have coverage
    zero there. *)
Definition tells (t : string) (r : report F64) : Prop := exists d, is_json t d /\ says_report r d.
Lemma value_line : forall t d, is_json_value t d -> is_json (String.append t newline) d.
Proof. intros t d V. exists "", t, newline. repeat split; [constructor|exact V|]. repeat constructor. Qed.
Theorem C100_well_formed :
  forall repr (r : report F64) j, faithful repr -> json_report r = Ok j ->
    Forall (fun x : b64 => is_finite x = true) (report_numbers r) -> Forall bare (rpt_points r) -> Forall unicode (report_texts r) ->
    exists t, dump_json repr j = Ok t /\ tells (String.append t newline) r.
Proof.
  intros repr r j F E N Z U. destruct (dump_report F E N Z U) as (t & d & D & V & S). exists t. split; [exact D|]. exists d. split; [now apply value_line|exact S].
Qed.
Print Assumptions C100_well_formed.
Theorem C100_bare : forall d r, build_report F64 d = Ok r -> Forall bare (rpt_points r).
Proof.
  intros d r B.
  assert (H : Forall2 (everywhere (fun _ => bare) (fun _ _ => True) (fun _ _ => True)) (reported_cgs d) (r_cgs r)).
  { apply report_everywhere; auto. intros c p Hp Hb. apply build_coverpoint_ok in Hp. destruct Hp as [(_ & _ & M & _) ->].
    rewrite Hb in M. assert (E : normal_bins c = []) by now inversion M. unfold ReportSpec.total. now rewrite E. }
  assert (G : forall (g : rcg F64) s, everywhere (fun _ => bare) (fun _ _ => True) (fun _ _ => True) s g -> Forall bare (flat_map (@rg_cps F64) (all_groups g))).
  { induction g as [n i w c cps crs cgs IH] using rcg_nested. intros s E. inversion E as [? ? _ Ep _ Eg]; subst. cbn [all_groups flat_map rg_cps rg_cgs] in *. apply Forall_app. split.
    - clear - Ep. induction Ep; constructor; auto.
    - rewrite Forall_forall in *. intros p I. apply in_flat_map in I. destruct I as (x & Ix & Ip). apply in_flat_map in Ix. destruct Ix as (g & Ig & Ix).
      destruct (Forall2_in_r _ Eg Ig) as (s' & _ & Es). specialize (IH g Ig s' Es). rewrite Forall_forall in IH. apply IH. apply in_flat_map. now exists x. }
  unfold rpt_points, rpt_groups. rewrite Forall_forall. intros p I. apply in_flat_map in I. destruct I as (x & Ix & Ip). apply in_flat_map in Ix. destruct Ix as (g & Ig & Ix).
  destruct (Forall2_in_r _ H Ig) as (s' & _ & Es). specialize (G g s' Es). rewrite Forall_forall in G. apply G. apply in_flat_map. now exists x.
Qed.
Print Assumptions C100_bare.

(** What a text tells is determined up to [alike]; so different data make different
    texts. *)
Theorem C100_tells_one : forall t r r', tells t r -> tells t r' -> alike r r'.
Proof. intros t r r' (d & I & S) (d' & I' & S'). rewrite <- (C100_one_reading I I') in S'. exact (report_one S S'). Qed.
Print Assumptions C100_tells_one.
Theorem C100_different :
  forall repr (r r' : report F64) j j' t, faithful repr ->
    json_report r = Ok j -> Forall (fun x : b64 => is_finite x = true) (report_numbers r) -> Forall bare (rpt_points r) -> Forall unicode (report_texts r) ->
    json_report r' = Ok j' -> Forall (fun x : b64 => is_finite x = true) (report_numbers r') -> Forall bare (rpt_points r') -> Forall unicode (report_texts r') ->
    dump_json repr j = Ok t -> dump_json repr j' = Ok t -> alike r r'.
Proof.
  intros repr r r' j j' t F E N Z U E' N' Z' U' D D'. destruct (C100_well_formed F E N Z U) as (s & Ds & T). destruct (C100_well_formed F E' N' Z' U') as (s' & Ds' & T').
  rewrite D in Ds. rewrite D' in Ds'. injection Ds as <-. injection Ds' as <-. exact (C100_tells_one T T').
Qed.
Print Assumptions C100_different.

(** The JSON report of a database with no crosses, computed in doubles *)
Theorem C100_database :
  forall repr d r, faithful repr -> nonneg_weights (db_root d) -> light_db d -> build_report F64 d = Ok r -> rpt_crosses r = [] -> Forall unicode (report_texts r) ->
    exists t, rf_report (json_format F64 (dump_json repr)) d = (t, Ok tt) /\ tells t r.
Proof.
  intros repr d r F W L B X U. destruct (C37_json_report_partial F64 r) as [P _]. destruct (P X) as (j & J & _).
  assert (N : Forall (fun x : b64 => is_finite x = true) (report_numbers r)) by (eapply Forall_impl; [|exact (C33_double_range d r W L B)]; now intros x [H _]).
  destruct (C100_well_formed F J N (C100_bare _ B) U) as (t & D & T). eexists. split; [|exact T]. cbn [json_format rf_report]. rewrite B. cbn [rbind]. rewrite J. cbn [rbind]. now rewrite D.
Qed.
Print Assumptions C100_database.

(** ** Files *)
Section Files.
  Variable parse : opening -> string -> res elem.
  Variable to_float : string -> option string.
  Variable print_doc : elem -> res string.
  Variable ev : env.
  Variable parse_yaml : string -> res jval.
  Variables (exists_ is_dir writable : string -> bool).
  Variables (show_group show_point : b64 -> string).
  Variable faults : list string -> string -> option exn.
  Variable repr : b64 -> string.
  Hypothesis repr_ok : faithful repr.
  Notation std' := (std parse to_float print_doc ev parse_yaml writable (json_format F64 (dump_json repr)) (txt_format F64 show_group show_point faults)).

  (** A report that can be shown in JSON *)
  Definition showable (r : report F64) : Prop :=
    rpt_crosses r = [] /\ Forall (fun x : b64 => is_finite x = true) (report_numbers r) /\ Forall unicode (report_texts r).
  Definition written (out : option string) (input : string) (t : string) (w w' : world) : Prop :=
    match out with
    | Some p => w_fs w' p = Some t /\ only_touches [input] p w w'
    | None => w_fs w' = w_fs w /\ w_out w' = String.append (w_out w) t /\ w_reads w' = w_reads w ++ [input]
    end.

  Lemma shown : forall d r, build_report F64 d = Ok r -> showable r -> exists t, rf_report (json_format F64 (dump_json repr)) d = (t, Ok tt) /\ tells t r.
  Proof.
    intros d r B (X & N & U). destruct (C37_json_report_partial F64 r) as [P _]. destruct (P X) as (j & J & _). destruct (C100_well_formed repr_ok J N (C100_bare _ B) U) as (t & D & T).
    eexists. split; [|exact T]. cbn [json_format rf_report]. rewrite B. cbn [rbind]. rewrite J. cbn [rbind]. now rewrite D.
  Qed.
  Theorem C100_report_of_xml_file :
    forall input out w vs r, file_says parse to_float w input vs -> match out with Some p => writable p = true | None => True end ->
      expected_report F64 (collapse vs) = Ok r -> showable r ->
      exists w' t, report_cmd std' exists_ is_dir writable None (Some "json") input out w = (w', Ok tt) /\ tells t r /\ written out input t w w'.
  Proof.
    intros input out w vs r Y Wr E S. destruct (xml_reads print_doc ev writable F64 Y) as (d & Rd & B). rewrite E in B. destruct (shown _ B S) as (t & R & T).
    destruct (@report_run std' exists_ is_dir writable None (Some "json") (xml_format parse to_float print_doc ev writable) (json_format F64 (dump_json repr)) input out w d) as (w' & C & F);
      try reflexivity; try assumption.
    rewrite R in C, F. exists w', t. now repeat split.
  Qed.
  Theorem C100_report_of_yaml_file :
    forall input out w gs r, yaml_says parse_yaml w input gs -> match out with Some p => writable p = true | None => True end ->
      yaml_report F64 gs = Ok r -> showable r ->
      exists w' t, report_cmd std' exists_ is_dir writable (Some "yaml") (Some "json") input out w = (w', Ok tt) /\ tells t r /\ written out input t w w'.
  Proof.
    intros input out w gs r Y Wr E S. destruct (yaml_reads F64 Y) as (d & Rd & B). rewrite E in B. destruct (shown _ B S) as (t & R & T).
    destruct (@report_run std' exists_ is_dir writable (Some "yaml") (Some "json") (yaml_format parse_yaml) (json_format F64 (dump_json repr)) input out w d) as (w' & C & F);
      try reflexivity; try assumption.
    rewrite R in C, F. exists w', t. now repeat split.
  Qed.
End Files.
Print Assumptions C100_report_of_xml_file.
Print Assumptions C100_report_of_yaml_file.

(** ** Examples *)

(** What is assumed of float.__repr__ can be had. *)
Example C100_witness_repr : faithful exact_repr /\ exact_repr (quotient 1 8) = "1250000000000000000000000000000000000000000000000000000e-55".
Proof. split; [exact exact_repr_faithful|vm_compute; reflexivity]. Qed.
(** One way to write some of the numbers, for the examples *)
Definition short (x : b64) : string :=
  match find (fun p => match SpecFloat.SFcompare (B2SF (fst p)) (B2SF x) with Some Eq => true | _ => false end) [(of_Z 0, "0.0"); (of_Z 50, "50.0"); (of_Z 100, "100.0")] with Some (_, s) => s | None => "?" end.

(** Names with quotes, backslashes, line breaks and characters outside the first plane *)
Definition odd : db :=
  mkdb [du "top"; inst "i" [O] [cg "a""}],""coverage"": 100" 1 [cp "p" 1 [bin "x\" 1 1; bin (utf8 0x1F600) 1 0; ignore (String "010" "") 1 7]]]].
Definition odd_text : res string := let* r := build_report F64 odd in let* j := json_report r in dump_json short j.
Definition odd_expected : string :=
"{
    ""covergroups"": [
        {
            ""name"": ""a\""}],\""coverage\"": 100"",
            ""coverage"": 50.0,
            ""coverpoints"": [
                {
                    ""coverage"": 50.0,
                    ""bins"": [
                        {
                            ""name"": ""x\\"",
                            ""count"": 1
                        },
                        {
                            ""name"": ""\ud83d\ude00"",
                            ""count"": 0
                        }
                    ],
                    ""ignorebins"": [
                        {
                            ""name"": ""\n"",
                            ""count"": 7
                        }
                    ]
                }
            ]
        }
    ],
    ""coverage"": 50.0
}".
Example C100_odd :
  odd_text = Ok odd_expected /\
  let entry n c := DObj [("name", DStr n); ("count", DNum c 0)] in
  parse_json (String.append odd_expected newline) =
    Some (DObj [("covergroups", DArr [DObj
      [("name", DStr "a""}],""coverage"": 100"); ("coverage", DNum 500 (-1));
       ("coverpoints", DArr [DObj
          [("coverage", DNum 500 (-1)); ("bins", DArr [entry "x\" 1%Z; entry (utf8 0x1F600) 0%Z]);
           ("ignorebins", DArr [entry (String "010" "") 7%Z])]])]]);
     ("coverage", DNum 500 (-1))]).
Proof. split; vm_compute; reflexivity. Qed.
(** A point without bins *)
Definition hollow : db := mkdb [du "top"; inst "i" [O] [cg "g" 1 [cp "p" 1 [illegal "y" 1 2]]]].
Example C100_hollow :
  (let* r := build_report F64 hollow in let* j := json_report r in dump_json short j) = Ok
"{
    ""covergroups"": [
        {
            ""name"": ""g"",
            ""coverage"": 0.0,
            ""coverpoints"": [
                {
                    ""coverage"": 0,
                    ""illegalbins"": [
                        {
                            ""name"": ""y"",
                            ""count"": 2
                        }
                    ]
                }
            ]
        }
    ],
    ""coverage"": 0.0
}".
Proof. vm_compute. reflexivity. Qed.
(** What C100_database asks of it *)
Example C100_witness :
  nonneg_weights (db_root odd) /\ light_db odd /\
  exists r, build_report F64 odd = Ok r /\ rpt_crosses r = [] /\ Forall unicode (report_texts r).
Proof.
  split; [repeat (constructor; cbn; try lia)|]. split; [unfold light_db; repeat (constructor; cbn; try lia)|].
  assert (E : match build_report F64 odd with Ok r => (List.length (rpt_crosses r), report_texts r) | Err _ => (1%nat, []) end =
    (0%nat, ["a""}],""coverage"": 100"; "x\"; utf8 0x1F600; String "010" ""])) by (vm_compute; reflexivity).
  destruct (build_report F64 odd) as [r|]; [|discriminate E]. injection E as L T. exists r. split; [reflexivity|]. split; [now destruct (rpt_crosses r)|]. rewrite T.
  constructor; [asc; cbn; lia|]. constructor; [asc; cbn; lia|]. constructor; [|constructor; [asc; cbn; lia|constructor]].
  exists [0x1F600%N]. split; [|reflexivity]. constructor; [unfold scalar; lia|constructor].
Qed.
(** Texts the grammar has, and some it does not have *)
Example C100_texts :
  parse_json "[1, -0.5e+1 ,true,null,{}, ""\u00e9\/""]" = Some (DArr [DNum 1 0; DNum (-5) 0; DTrue; DNull; DObj []; DStr (String.append (utf8 0xE9) "/")]) /\
  Forall (fun t => parse_json t = None)
    [""; "{'a': 1}"; "[1,]"; "{""a"": 1,}"; "01"; "1."; ".5"; "+1"; "NaN"; "Infinity"; "True"; """\x41"""; """a"; "[1] 2"; "{""a"" 1}"; String """" (String "010" """"); """\ud83d"""].
Proof. split; [vm_compute; reflexivity|]. repeat constructor. Qed.
