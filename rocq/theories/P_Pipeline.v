(** Property theorems about the process as it is started: from the command line
    and the texts of the files to the texts that are written: C103. *)
From Verif Require Import Base BaseFacts Dict Consts Db Report ReportSpec NameSpec Text TextSpec Json Yaml Rgy RgyFacts Cmd CmdSpec Args ArgsSpec ArgsFacts Merge MergeSpec Xml XmlSpec XmlWriter XmlFactory XmlMeans
  Dates FilesSpec FilesAlgebra FilesRead FilesWrite FileReportSpec XmlDocSpec XmlHistSpec XmlText XmlTextSpec XmlTextFacts XmlTextWrite YamlDocSpec YamlReportSpec Float64 PyFloat JsonText JsonTextSpec
  P_Cmd P_Xml P_EndToEnd P_FileReport P_YamlReport P_XmlText P_JsonText P_Args.
Set Implicit Arguments.
Local Open Scope string_scope.
Local Open Scope list_scope.

(** The format is not given, or given and the usual one. *)
Definition usual (name : string) (o : option string) : Prop := o = None \/ o = Some name.

Section Process.
  Variable parse : opening -> string -> res elem.
  Variable to_float : string -> option string.
  Variable ev : env.
  Variable parse_yaml : string -> res jval.
  Variables (exists_ is_dir writable : string -> bool).
  Variable faults : list string -> string -> option exn.
  Variable repr : b64 -> string.
  Variable help : string.
  Variable zero : string.
  Hypothesis library : conforming parse.
  Hypothesis surroundings : good_env ev.
  Hypothesis reads_zero : to_float "0" = Some zero.
  Hypothesis streams : forall w s, faults w s = None.
  Hypothesis repr_ok : faithful repr.
  Notation std' := (std parse to_float (fun e => Ok (put_doc e)) ev parse_yaml writable (json_format F64 (dump_json repr)) (txt_format F64 (show_group : F64 -> string) (show_point : F64 -> string) faults)).

  (** The process started with these arguments: what it leaves behind, and its exit
      status *)
  Notation process := (main std' exists_ is_dir writable help).

  (** The file holds a text that says [vs] and gives every name once. *)
  Definition text_file (w : world) (p : string) (vs : list inst_view) : Prop :=
    exists c, w_fs w p = Some c /\ text_says to_float c vs /\ plain_content vs.

  Lemma text_file_says : forall w p vs, text_file w p vs -> file_says parse to_float w p vs.
  Proof.
    intros w p vs (c & F & (doc & D & R & S) & _). exists c, doc. split; [assumption|]. split; [|now split]. rewrite (document_plain _ _ D). now apply library.
  Qed.

  Lemma usual_convert : forall f g i o, usual "xml" f -> usual "xml" g -> convert std' f g i o = convert std' None None i o.
  Proof. intros f g i o [-> | ->] [-> | ->]; reflexivity. Qed.
  Lemma usual_merge : forall f g i o, usual "xml" f -> usual "xml" g -> merge_cmd std' f g i o = merge_cmd std' None None i o.
  Proof. intros f g i o [-> | ->] [-> | ->]; reflexivity. Qed.

  (** What is written is such a text. *)
  Lemma written_text : forall w p vs text d, file_says parse to_float w p vs -> plain_content vs -> w_fs w p = Some text -> CmdSpec.text_of (fun e => Ok (put_doc e)) ev d = Ok text -> text_file w p vs.
  Proof.
    intros w p vs text d (c & doc & F & Pc & R & S) PC F' T. rewrite F in F'. injection F' as ->. exists text. split; [assumption|]. split; [|assumption].
    unfold CmdSpec.text_of in T. apply rbind_ok in T as (e & We & T). injection T as <-.
    rewrite written_plain in Pc. pose proof (C99_well_formed _ _ _ We) as D. rewrite (proj1 library _ _ D) in Pc. injection Pc as <-. now exists (reparse e).
  Qed.

  Notation "'lxml'" := (C99_library _ library).

  Lemma plain_merged : forall inputs vss w, inputs <> [] -> Forall2 (text_file w) inputs vss -> plain_content (merge_views (List.concat vss)).
  Proof.
    intros inputs vss w NE H.
    assert (H' : Forall2 (fun p vs => file_says parse to_float w p vs /\ plain_content vs) inputs vss).
    { eapply Forall2_imp; [|exact H]. intros p vs F. split; [now apply text_file_says|]. destruct F as (c & _ & _ & PC). exact PC. }
    destruct (@C70_merge_files parse to_float (fun e => Ok (put_doc e)) ev parse_yaml (fun _ => true) (json_format F64 (dump_json repr)) (txt_format F64 (show_group : F64 -> string) (show_point : F64 -> string) faults) zero lxml surroundings reads_zero inputs "" w vss NE eq_refl H') as (w' & _ & _ & _ & PC). exact PC.
  Qed.

  (** *** convert *)
  (** From XML to XML; the result can be converted, merged and reported again. *)
  Theorem C103_convert :
    forall args f g input out w vs, ~ In "" args -> runs (used args) (AConvert f g input out) -> usual "xml" f -> usual "xml" g ->
      writable out = true -> text_file w input vs ->
      exists w', process args w = (w', 0%Z) /\ only_touches [input] out w w' /\ text_file w' out (merge_views vs).
  Proof.
    intros args f g input out w vs N R F G W H. rewrite (proj1 (@C101_process std' exists_ is_dir writable help args w N) _ _ _ _ R), (usual_convert _ _ F G).
    destruct (@C71_convert_file parse to_float (fun e => Ok (put_doc e)) ev parse_yaml writable (json_format F64 (dump_json repr)) (txt_format F64 (show_group : F64 -> string) (show_point : F64 -> string) faults) zero lxml surroundings reads_zero input out w vs W (text_file_says H)) as (w' & C & OT & S).
    { destruct H as (c & _ & _ & PC). exact PC. }
    exists w'. unfold main_status. rewrite C. split; [reflexivity|]. split; [assumption|].
    apply C57_convert_outcome_partial in C as (_ & d0 & d & text & _ & _ & T & F').
    apply (@written_text w' out _ text d S); [|assumption|assumption].
    rewrite <- (app_nil_r vs). apply (@plain_merged [input] [vs] w); [discriminate|]. now repeat constructor.
  Qed.

  (** From YAML to XML *)
  Theorem C103_convert_yaml :
    forall args g input out w gs, ~ In "" args -> runs (used args) (AConvert (Some "yaml") g input out) -> usual "xml" g ->
      writable out = true -> lists parse_yaml w input gs -> presentable (y_says gs) ->
      exists w', process args w = (w', 0%Z) /\ only_touches [input] out w w' /\ text_file w' out (merge_views (y_says gs)).
  Proof.
    intros args g input out w gs N R G W L P. rewrite (proj1 (@C101_process std' exists_ is_dir writable help args w N) _ _ _ _ R).
    assert (E : convert std' (Some "yaml") g input out = convert std' (Some "yaml") None input out) by (destruct G as [-> | ->]; reflexivity). rewrite E.
    destruct (@C73_convert_yaml parse to_float (fun e => Ok (put_doc e)) ev parse_yaml writable (json_format F64 (dump_json repr)) (txt_format F64 (show_group : F64 -> string) (show_point : F64 -> string) faults) zero lxml surroundings reads_zero input out w gs W L P) as (w' & C & OT & S & _).
    exists w'. unfold main_status. rewrite C. split; [reflexivity|]. split; [assumption|].
    apply C57_convert_outcome_partial in C as (_ & d0 & d & text & _ & _ & T & F').
    apply (@written_text w' out _ text d S); [|assumption|assumption].
    destruct (@C73_merge_yaml parse to_float (fun e => Ok (put_doc e)) ev parse_yaml writable (json_format F64 (dump_json repr)) (txt_format F64 (show_group : F64 -> string) (show_point : F64 -> string) faults) zero lxml surroundings reads_zero [input] out w [gs]) as (w2 & _ & _ & _ & PC);
      [discriminate|assumption|constructor; [now split|constructor]|]. cbn [flat_map] in PC. now rewrite app_nil_r in PC.
  Qed.

  (** *** merge *)
  Theorem C103_merge :
    forall args f g l inputs out w vss, ~ In "" args -> runs (used args) (AMerge f g l inputs out) -> usual "xml" f -> usual "xml" g ->
      writable out = true -> Forall2 (text_file w) inputs vss ->
      exists w', process args w = (w', 0%Z) /\ only_touches inputs out w w' /\ text_file w' out (merge_views (List.concat vss)).
  Proof.
    intros args f g l inputs out w vss N R F G W H. rewrite (proj1 (proj2 (@C101_process std' exists_ is_dir writable help args w N)) _ _ _ _ _ R), (usual_merge _ _ F G).
    assert (NE : inputs <> []) by (inversion R; subst; discriminate).
    destruct (@C99_merge_texts parse to_float ev parse_yaml writable (json_format F64 (dump_json repr)) (txt_format F64 (show_group : F64 -> string) (show_point : F64 -> string) faults) zero inputs out w vss library surroundings reads_zero NE W H) as (w' & c & C & OT & FC & S).
    exists w'. unfold main_status. rewrite C. split; [reflexivity|]. split; [assumption|]. exists c. split; [assumption|]. split; [assumption|]. now apply (@plain_merged inputs vss w).
  Qed.

  Theorem C103_merge_yaml :
    forall args g l inputs out w gss, ~ In "" args -> runs (used args) (AMerge (Some "yaml") g l inputs out) -> usual "xml" g ->
      writable out = true -> Forall2 (fun p gs => lists parse_yaml w p gs /\ presentable (y_says gs)) inputs gss ->
      exists w', process args w = (w', 0%Z) /\ only_touches inputs out w w' /\ text_file w' out (merge_views (flat_map y_says gss)).
  Proof.
    intros args g l inputs out w gss N R G W H. rewrite (proj1 (proj2 (@C101_process std' exists_ is_dir writable help args w N)) _ _ _ _ _ R).
    assert (E : merge_cmd std' (Some "yaml") g inputs out = merge_cmd std' (Some "yaml") None inputs out) by (destruct G as [-> | ->]; reflexivity). rewrite E.
    assert (NE : inputs <> []) by (inversion R; subst; discriminate).
    destruct (@C73_merge_yaml parse to_float (fun e => Ok (put_doc e)) ev parse_yaml writable (json_format F64 (dump_json repr)) (txt_format F64 (show_group : F64 -> string) (show_point : F64 -> string) faults) zero lxml surroundings reads_zero inputs out w gss NE W H) as (w' & C & OT & S & PC).
    exists w'. unfold main_status. rewrite C. split; [reflexivity|]. split; [assumption|].
    apply C57_merge_outcome_partial in C as (_ & ds & d & text & _ & _ & T & F').
    now apply (@written_text w' out _ text d S).
  Qed.

  (** *** report *)
  (** Where the text of a report goes: into the named file or to standard output *)
  Definition delivered (out : option string) (input : string) (t : string) (w w' : world) : Prop :=
    match out with
    | Some p => w_fs w' p = Some t /\ only_touches [input] p w w'
    | None => w_fs w' = w_fs w /\ w_out w' = String.append (w_out w) t
    end.
  Definition can_write (out : option string) : Prop := match out with Some p => writable p = true | None => True end.

  Theorem C103_report :
    forall args f g input out w vs r, ~ In "" args -> runs (used args) (AReport f g input out) -> usual "xml" f -> usual "txt" g ->
      can_write out -> text_file w input vs -> expected_report F64 (collapse vs) = Ok r ->
      exists w', process args w = (w', 0%Z) /\ delivered out input (String.concat "" (text (show_group : F64 -> string) (show_point : F64 -> string) false false r)) w w'.
  Proof.
    intros args f g input out w vs r N R F G W H X. rewrite (proj1 (proj2 (proj2 (@C101_process std' exists_ is_dir writable help args w N))) _ _ _ _ R).
    assert (E : report_cmd std' exists_ is_dir writable f g input out = report_cmd std' exists_ is_dir writable None None input out) by (destruct F as [-> | ->], G as [-> | ->]; reflexivity). rewrite E.
    destruct (@C76_report_files parse to_float (fun e => Ok (put_doc e)) ev parse_yaml exists_ is_dir writable (json_format F64 (dump_json repr)) F64 (show_group : F64 -> string) (show_point : F64 -> string) faults streams input out w vs (text_file_says H) W) as (w' & C & D).
    unfold expected_end, expected_text in *. rewrite X in *. exists w'. unfold main_status. rewrite C. split; [reflexivity|]. unfold delivered. destruct out; [assumption|]. tauto.
  Qed.

  Theorem C103_report_json :
    forall args f input out w vs r, ~ In "" args -> runs (used args) (AReport f (Some "json") input out) -> usual "xml" f ->
      can_write out -> text_file w input vs -> expected_report F64 (collapse vs) = Ok r -> showable r ->
      exists w' t, process args w = (w', 0%Z) /\ tells t r /\ delivered out input t w w'.
  Proof.
    intros args f input out w vs r N R F W H X Sh. rewrite (proj1 (proj2 (proj2 (@C101_process std' exists_ is_dir writable help args w N))) _ _ _ _ R).
    assert (E : report_cmd std' exists_ is_dir writable f (Some "json") input out = report_cmd std' exists_ is_dir writable None (Some "json") input out) by (destruct F as [-> | ->]; reflexivity). rewrite E.
    destruct (@C100_report_of_xml_file parse to_float (fun e => Ok (put_doc e)) ev parse_yaml exists_ is_dir writable (show_group : F64 -> string) (show_point : F64 -> string) faults repr repr_ok input out w vs r (text_file_says H) W X Sh) as (w' & t & C & T & D).
    exists w', t. unfold main_status. rewrite C. split; [reflexivity|]. split; [assumption|]. unfold delivered. destruct out; cbn in D; tauto.
  Qed.

  (** Of YAML files *)
  Theorem C103_report_yaml :
    forall args g input out w gs r, ~ In "" args -> runs (used args) (AReport (Some "yaml") g input out) -> usual "txt" g ->
      can_write out -> yaml_says parse_yaml w input gs -> yaml_report F64 gs = Ok r ->
      exists w', process args w = (w', 0%Z) /\ delivered out input (String.concat "" (text (show_group : F64 -> string) (show_point : F64 -> string) false false r)) w w'.
  Proof.
    intros args g input out w gs r N R G W H X. rewrite (proj1 (proj2 (proj2 (@C101_process std' exists_ is_dir writable help args w N))) _ _ _ _ R).
    assert (E : report_cmd std' exists_ is_dir writable (Some "yaml") g input out = report_cmd std' exists_ is_dir writable (Some "yaml") None input out) by (destruct G as [-> | ->]; reflexivity). rewrite E.
    destruct (@C79_report_files parse to_float (fun e => Ok (put_doc e)) ev parse_yaml exists_ is_dir writable F64 (show_group : F64 -> string) (show_point : F64 -> string) faults streams (dump_json repr) input out w gs H W) as (w' & C & D).
    unfold end_of, text_of in *. rewrite X in *. exists w'. unfold main_status. rewrite C. split; [reflexivity|]. unfold delivered. destruct out; [assumption|]. tauto.
  Qed.

  Theorem C103_report_yaml_json :
    forall args input out w gs r, ~ In "" args -> runs (used args) (AReport (Some "yaml") (Some "json") input out) ->
      can_write out -> yaml_says parse_yaml w input gs -> yaml_report F64 gs = Ok r -> showable r ->
      exists w' t, process args w = (w', 0%Z) /\ tells t r /\ delivered out input t w w'.
  Proof.
    intros args input out w gs r N R W H X Sh. rewrite (proj1 (proj2 (proj2 (@C101_process std' exists_ is_dir writable help args w N))) _ _ _ _ R).
    destruct (@C100_report_of_yaml_file parse to_float (fun e => Ok (put_doc e)) ev parse_yaml exists_ is_dir writable (show_group : F64 -> string) (show_point : F64 -> string) faults repr repr_ok input out w gs r H W X Sh) as (w' & t & C & T & D).
    exists w', t. unfold main_status. rewrite C. split; [reflexivity|]. split; [assumption|]. unfold delivered. destruct out; cbn in D; tauto.
  Qed.

  (** *** Merging the results of several runs and looking at the coverage *)
  Theorem C103_merge_and_report :
    forall args args' f g l f' g' inputs mid out w vss r,
      ~ In "" args -> runs (used args) (AMerge f g l inputs mid) -> usual "xml" f -> usual "xml" g ->
      ~ In "" args' -> runs (used args') (AReport f' g' mid out) -> usual "xml" f' -> usual "txt" g' ->
      writable mid = true -> can_write out -> Forall2 (text_file w) inputs vss ->
      expected_report F64 (merge_views (List.concat vss)) = Ok r ->
      exists w1 w2, process args w = (w1, 0%Z) /\ process args' w1 = (w2, 0%Z) /\
        delivered out mid (String.concat "" (text (show_group : F64 -> string) (show_point : F64 -> string) false false r)) w1 w2.
  Proof.
    intros args args' f g l f' g' inputs mid out w vss r N R F G N' R' F' G' W W' H X.
    destruct (@C103_merge args f g l inputs mid w vss N R F G W H) as (w1 & P1 & _ & T1).
    destruct (@C103_report args' f' g' mid out w1 _ r N' R' F' G' W' T1) as (w2 & P2 & D); [|exists w1, w2; auto].
    now rewrite merge_collapsed.
  Qed.
End Process.
Print Assumptions C103_convert.
Print Assumptions C103_convert_yaml.
Print Assumptions C103_merge.
Print Assumptions C103_merge_yaml.
Print Assumptions C103_report.
Print Assumptions C103_report_json.
Print Assumptions C103_report_yaml.
Print Assumptions C103_report_yaml_json.
Print Assumptions C103_merge_and_report.

(** ** Examples *)

(** Two runs of one test bench, as files; the reader of C99 as XML library. *)
Definition text_files : world :=
  World (fun p => match (if String.eqb p "a.xml" then Some run1 else if String.eqb p "b.xml" then Some run2 else None) with
                  | Some d => match write some_env d with Ok e => Some (put_doc e) | Err _ => None end
                  | None => None
                  end) "" [].
Definition start : list string -> world -> world * Z :=
  main (std (fun _ s => parse_text s) (fun s => Some s) (fun e => Ok (put_doc e)) some_env (fun _ => Err LibraryError) (fun _ => true)
          (json_format F64 (dump_json short)) (txt_format F64 (show_group : F64 -> string) (show_point : F64 -> string) (fun _ _ => None)))
    (fun _ => false) (fun _ => false) (fun _ => true) "".

(** What the theorems ask of them *)
Example C103_witness : text_file (fun s => Some s) text_files "a.xml" (content run1) /\ text_file (fun s => Some s) text_files "b.xml" (content run2) /\
  conforming (fun _ s => parse_text s) /\ good_env some_env.
Proof.
  destruct C99_witness_merge as (e1 & e2 & W1 & W2 & G & S1 & P1 & S2 & P2). split; [|split; [|split; [apply C99_library_exists|assumption]]].
  - exists (put_doc e1). cbn [text_files w_fs String.eqb Ascii.eqb Bool.eqb]. rewrite W1. auto.
  - exists (put_doc e2). cbn [text_files w_fs String.eqb Ascii.eqb Bool.eqb]. rewrite W2. auto.
Qed.

(** The two lines as typed, and what is printed at the end *)
Example C103_example :
  let '(w1, s1) := start ["merge"; "a.xml"; "b.xml"; "-o"; "m.xml"] text_files in
  let '(w2, s2) := start ["report"; "m.xml"] w1 in
  s1 = 0%Z /\ s2 = 0%Z /\ w_out w2 =
"TYPE cg : 50.000000%
    CVP a : 100.000000%
    CVP b : 0.000000%
    CVP c : 0.000000%
    CROSS axb : 100.000000%
    INST cg : 50.000000%
        CVP a : 100.000000%
        CVP b : 0.000000%
        CVP c : 0.000000%
        CROSS axb : 100.000000%
TYPE cg : 100.000000%
    CVP q : 100.000000%
    INST cg : 100.000000%
        CVP q : 100.000000%
".
Proof. vm_compute. repeat split. Qed.
