(** Property theorems about reports of XML files: C76. *)
From Coq Require Import QArith.
From Verif Require Import Base Dict Consts Db Report ReportSpec NameSpec BaseFacts NubFacts Xml XmlWriter XmlReader XmlFactory XmlSpec XmlMeans XmlMeansFacts
  Dates Merge MergeSpec Rgy Cmd CmdSpec CmdFacts FilesSpec FilesFacts FilesAlgebra FilesRead FileReportSpec FileReportFacts XmlHistSpec
  Text TextSpec Json Yaml ReportQ Samples P_Text P_Xml P_Cmd P_EndToEnd.
Set Implicit Arguments.
Local Open Scope string_scope.
Local Open Scope list_scope.

(** ** C76 *)

(** The report of what is read from a document is a function of what the document
    says: which entries there are, in which order and nesting, with which bins,
    counts and percentages.  There is no report exactly if an instance has no
    covergroup. *)
Theorem C76_report_of_document :
  forall (A : arith) to_float doc d vs, read to_float doc = Ok d -> doc_says doc vs ->
    build_report A d = expected_report A (collapse vs).
Proof.
  intros A tf doc d vs R S. rewrite (read_reported A tf doc d R). destruct (read_says _ _ _ R) as (vs' & S' & ->). now rewrite (doc_says_one _ _ _ S S').
Qed.
Print Assumptions C76_report_of_document.

(** What is reported after a round trip through XML, for every database that can
    be written and read again: the report of what the database holds, with all
    weights and required hits 1 and every cross bin a normal one; compare C42. *)
Theorem C42_report_after_round_trip :
  forall (A : arith) to_float ev d e zero,
    write ev d = Ok e -> good_crosses_db d ->
    (forall t, valid_dt t = true -> valid_dt (env_local ev t) = true) ->
    Forall (numbers_readable to_float) (db_hist d) -> (db_hist d = [] -> to_float "0" = Some zero) ->
    exists d', read to_float (reparse e) = Ok d' /\ build_report A d' = expected_report A (collapse (content d)).
Proof.
  intros A tf ev d e zero W G C N Z0. destruct (C39_round_trip_general tf ev d e zero W G C N Z0) as (d' & R & _).
  exists d'. split; [exact R|]. eapply C76_report_of_document; [exact R|]. eapply C72_written_says; [exact W|].
  intros i t g c n Ii It Ig Ic In. exact (proj2 (G i t g Ii It Ig c n Ic In)).
Qed.
Print Assumptions C42_report_after_round_trip.

Section Files.
  Variable parse : opening -> string -> res elem.
  Variable to_float : string -> option string.
  Variable print_doc : elem -> res string.
  Variable ev : env.
  Variable parse_yaml : string -> res jval.
  Variables (exists_ is_dir writable : string -> bool).
  Variable json : rpt_format.
  Variable A : arith.
  Variables (show_group show_point : A -> string).
  Variable faults : list string -> string -> option exn.
  Hypothesis streams : forall w s, faults w s = None.
  Notation std' := (std parse to_float print_doc ev parse_yaml writable json (txt_format A show_group show_point faults)).
  Notation says := (file_says parse to_float).

  (** What the text report of a file should be *)
  Definition expected_text (vs : list inst_view) : string :=
    match expected_report A (collapse vs) with
    | Ok r => String.concat "" (text show_group show_point false false r)
    | Err _ => ""
    end.
  Definition expected_end (vs : list inst_view) : res unit :=
    match expected_report A (collapse vs) with Ok _ => Ok tt | Err e => Err e end.

  (** The report command on an accepted file, without formats given: on standard
      output or in the given file. *)
  Theorem C76_report_files :
    forall input out w vs, says w input vs -> match out with Some p => writable p = true | None => True end ->
      exists w', report_cmd std' exists_ is_dir writable None None input out w = (w', expected_end vs) /\
        match out with
        | Some p => w_fs w' p = Some (expected_text vs) /\ only_touches [input] p w w'
        | None => w_fs w' = w_fs w /\ w_out w' = String.append (w_out w) (expected_text vs) /\ w_reads w' = w_reads w ++ [input]
        end.
  Proof.
    intros input out w vs (c & doc & Ef & Ep & (d & R) & S) Wr.
    assert (E : build_report A d = expected_report A (collapse vs)) by (eapply C76_report_of_document; [exact (fr_read _ _ _ R)|exact S]).
    assert (T : rf_report (txt_format A show_group show_point faults) d = (expected_text vs, expected_end vs)).
    { cbn [txt_format rf_report]. pose proof (C34_text_on_failure A show_group show_point faults (TOpts false false) d []) as H.
      unfold expected_text, expected_end. rewrite <- E. destruct (build_report A d) as [r|e] eqn:B.
      - rewrite (C34_text_is_outline A show_group show_point faults (TOpts false false) d r [] streams B). reflexivity.
      - rewrite H. reflexivity. }
    assert (Rd : df_read (xml_format parse to_float print_doc ev writable) input w = (log_read input w, Ok d)).
    { cbn [xml_format df_read]. unfold xml_read, sbind, read_file, slift. rewrite Ef. cbn. rewrite Ep. cbn. now rewrite R. }
    assert (Hd : has_db "xml" std' = true) by reflexivity.
    assert (Gd : get_db "xml" std' = Ok (xml_format parse to_float print_doc ev writable)) by reflexivity.
    assert (Gt : dget "txt" (rg_rpt std') = Some (txt_format A show_group show_point faults)) by (apply dget_dset_same).
    assert (Ht : has_rpt "txt" std' = true) by (unfold has_rpt, dmem; now rewrite Gt).
    assert (Gr : get_rpt "txt" std' = Ok (txt_format A show_group show_point faults)) by (unfold get_rpt, dindex; now rewrite Gt).
    destruct out as [p|]; unfold report_cmd, default_db, default_rpt, or_default; rewrite Hd, Ht, Gd, Gr; cbn [negb]; unfold sbind, slift; rewrite Rd.
    - change (flag (rf_flags (txt_format A show_group show_point faults)) OUT_STREAM) with true. cbn - [txt_format]. unfold open_write. rewrite Wr, T.
      eexists. split; [reflexivity|]. split; [cbn; now rewrite String.eqb_refl|]. split; [|split; [reflexivity|now exists 1%nat]].
      intros q N. cbn. apply String.eqb_neq in N. now rewrite !N.
    - change (flag (rf_flags (txt_format A show_group show_point faults)) OUT_STREAM) with true. cbn - [txt_format]. rewrite T.
      eexists. split; [reflexivity|]. now split.
  Qed.

  (** Merging files and reporting the result reports what the sources say,
      merged. *)
  Variable zero : string.
  Hypothesis lxml : good_lxml parse print_doc.
  Hypothesis surroundings : good_env ev.
  Hypothesis reads_zero : to_float "0" = Some zero.
  Theorem C76_report_of_merge :
    forall inputs out w vss, inputs <> [] -> writable out = true -> Forall2 (fun p vs => says w p vs /\ plain_content vs) inputs vss ->
      exists w1 w2, merge_cmd std' None None inputs out w = (w1, Ok tt) /\
        report_cmd std' exists_ is_dir writable None None out None w1 = (w2, expected_end (merge_views (List.concat vss))) /\
        w_out w2 = String.append (w_out w) (expected_text (merge_views (List.concat vss))).
  Proof.
    intros inputs out w vss NE Wr H.
    destruct (C70_merge_files parse_yaml writable json (txt_format A show_group show_point faults) lxml surroundings reads_zero out NE Wr H) as (w1 & M & (_ & O & _) & Sy & _).
    destruct (@C76_report_files out None w1 _ Sy Logic.I) as (w2 & Rp & _ & P & _). exists w1, w2. split; [exact M|]. split; [exact Rp|]. now rewrite P, O.
  Qed.
End Files.
Print Assumptions C76_report_files.
Print Assumptions C76_report_of_merge.

(** The second of two runs (see C70): coverage of its two instances; the overall
    number is that of the second.  A normal and an ignore bin of one name are
    added up (see C40).  The file is accepted and says this, see
    [C70_witness]. *)
Example C76_example :
  let r := report_of QA (collapse (content run2)) in
  expected_report QA (collapse (content run2)) = Ok r /\
  map (fun g => (rg_name g, map (fun p => (rp_name p, map (fun b => (rb_name b, rb_count b)) (rp_bins p), map rb_name (rp_ignore p))) (rg_cps g), List.length (rg_cgs g))) (r_cgs r) =
    [("cg", [("a", [("hi", 3%Z); ("new", 1%Z)], []); ("c", [("z", 0%Z)], [])], 1%nat); ("cg", [("q", [("z", 3%Z)], [])], 1%nat)] /\
  map (fun g : rcg QA => Qred (rg_cov g)) (r_cgs r) = [50 # 1; 100 # 1] /\ Qred (r_cov r) = 100 # 1.
Proof. vm_compute. now repeat split. Qed.
(** After merging both files, the first covergroup has 4 hits in bin "hi". *)
Example C76_merged :
  let r := report_of QA (merge_views (content run1 ++ content run2)) in
  map (fun g : rcg QA => Qred (rg_cov g)) (r_cgs r) = [50 # 1; 100 # 1] /\
  nth_error (flat_map (fun g => flat_map (fun p => map (fun b => (rb_name b, rb_count b)) (rp_bins p)) (rg_cps g)) (r_cgs r)) 1 = Some ("hi", 4%Z).
Proof. vm_compute. now split. Qed.
