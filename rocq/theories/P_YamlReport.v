(** Property theorems about reports of YAML files (C79) and JSON reports of files
    (C80). *)
From Coq Require Import QArith.
From Verif Require Import Base Dict Consts Db NameSpec NubFacts BaseFacts Report ReportSpec Text TextSpec Json JsonSpec JsonFacts Yaml YamlSpec YamlFacts YamlBuild YamlDocSpec YamlDocFacts
  Xml XmlWriter XmlReader XmlFactory XmlSpec XmlMeans Merge MergeSpec Dates Rgy Cmd CmdSpec CmdFacts FilesSpec FilesFacts FilesAlgebra FilesRead FileReportSpec FileReportFacts YamlReportSpec YamlReportFacts
  ReportQ P_Text P_Yaml P_Cmd P_EndToEnd P_FileReport.
Set Implicit Arguments.
Local Open Scope string_scope.
Local Open Scope list_scope.

(** ** C79 *)

(** The report of what is loaded from a YAML document is a function of what the
    document says. *)
Theorem C79_report_of_yaml :
  forall (A : arith) v d gs, load v = Ok d -> document_lists v gs -> build_report A d = yaml_report A gs.
Proof. intros A v d gs L (o & D & ->). apply reads_doc in D. now apply (yaml_reported A v). Qed.
Print Assumptions C79_report_of_yaml.
(** Without ignore and illegal bins, the bins of a coverpoint of the covergroup are
    the sums by name. *)
Theorem C79_plain_totals :
  forall ps, Forall (fun p => opt_list (yp_ignore p) = [] /\ opt_list (yp_illegal p) = []) ps ->
    total_point_bins ps = by_name yb_name (fun n bs => YBin n (sumZ (map yb_count bs))) (flat_map (fun p => opt_list (yp_bins p)) ps).
Proof. intros ps F. rewrite <- total_pure. exact (pure_plain ps [] F). Qed.
Print Assumptions C79_plain_totals.

(** The report command once the input is read. *)
Lemma report_run : forall (reg : registry) ex dir wr inf outf f rf input out w d,
  has_db (or_default default_db inf) reg = true -> has_rpt (or_default default_rpt outf) reg = true ->
  get_db (or_default default_db inf) reg = Ok f -> get_rpt (or_default default_rpt outf) reg = Ok rf -> flag (rf_flags rf) OUT_STREAM = true ->
  df_read f input w = (log_read input w, Ok d) -> match out with Some p => wr p = true | None => True end ->
  exists w', report_cmd reg ex dir wr inf outf input out w = (w', snd (rf_report rf d)) /\
    match out with
    | Some p => w_fs w' p = Some (fst (rf_report rf d)) /\ only_touches [input] p w w'
    | None => w_fs w' = w_fs w /\ w_out w' = String.append (w_out w) (fst (rf_report rf d)) /\ w_reads w' = w_reads w ++ [input]
    end.
Proof.
  intros reg ex dir wr inf outf f rf input out w d Hd Ht Gd Gr Fl Rd Wr.
  destruct out as [p|]; unfold report_cmd; rewrite Hd, Ht, Gd, Gr; cbn [negb]; unfold sbind, slift; rewrite Rd, Fl; cbn [negb];
    destruct (rf_report rf d) as [t r]; cbn [fst snd].
  - unfold open_write. rewrite Wr. eexists. split; [reflexivity|]. split; [cbn; now rewrite String.eqb_refl|]. split; [|split; [reflexivity|now exists 1%nat]].
    intros q N. cbn. apply String.eqb_neq in N. now rewrite !N.
  - eexists. split; [reflexivity|]. now split.
Qed.

(** The document in a YAML file, for files that load. *)
Definition yaml_says (parse_yaml : string -> res jval) (w : world) (p : string) (gs : list ygroup) : Prop :=
  exists c v d, w_fs w p = Some c /\ parse_yaml c = Ok v /\ load v = Ok d /\ document_lists v gs.

(** What the JSON report of an expected report [exp] writes, and how it ends: for a
    report without crosses, the dumped object with everything but the coverpoint
    names; nothing otherwise (compare C37). *)
Definition json_outcome (A : arith) (dump : json A -> res string) (exp : res (report A)) (text : string) (e : res unit) : Prop :=
  match exp with
  | Err x => text = "" /\ e = Err x
  | Ok r =>
      (rpt_crosses r <> [] -> text = "" /\ e = Err AttributeError) /\
      (rpt_crosses r = [] -> exists j, mirrors_but_point_names r j /\
         match dump j with Ok s => text = String.append s newline /\ e = Ok tt | Err x => text = "" /\ e = Err x end)
  end.

Section Files.
  Variable parse : opening -> string -> res elem.
  Variable to_float : string -> option string.
  Variable print_doc : elem -> res string.
  Variable ev : env.
  Variable parse_yaml : string -> res jval.
  Variables (exists_ is_dir writable : string -> bool).
  Variable A : arith.
  Variables (show_group show_point : A -> string).
  Variable faults : list string -> string -> option exn.
  Hypothesis streams : forall w s, faults w s = None.
  Variable dump : json A -> res string.
  Notation std' := (std parse to_float print_doc ev parse_yaml writable (json_format A dump) (txt_format A show_group show_point faults)).
  Notation says := (file_says parse to_float).

  Definition text_of (exp : res (report A)) : string :=
    match exp with Ok r => String.concat "" (text show_group show_point false false r) | Err _ => "" end.
  Definition end_of (exp : res (report A)) : res unit := match exp with Ok _ => Ok tt | Err e => Err e end.

  Lemma text_report : forall d, rf_report (txt_format A show_group show_point faults) d = (text_of (build_report A d), end_of (build_report A d)).
  Proof.
    intros d. cbn [txt_format rf_report]. pose proof (C34_text_on_failure A show_group show_point faults (TOpts false false) d []) as H.
    destruct (build_report A d) as [r|e] eqn:B.
    - rewrite (C34_text_is_outline A show_group show_point faults (TOpts false false) d r [] streams B). reflexivity.
    - rewrite H. reflexivity.
  Qed.
  Lemma json_reported : forall d, let '(t, e) := rf_report (json_format A dump) d in json_outcome dump (build_report A d) t e.
  Proof.
    intros d. cbn [json_format rf_report]. unfold json_outcome. destruct (build_report A d) as [r|x]; cbn [rbind]; [|now split].
    destruct (C37_json_report_partial A r) as [P Q]. destruct (json_report r) as [j|x] eqn:J.
    - destruct (dump j) as [s|x] eqn:D; cbn [rbind].
      + rewrite D. split; [intros N; specialize (Q N); discriminate|]. intros E. destruct (P E) as (j' & Ej & M). injection Ej as <-. exists j. split; [exact M|]. now rewrite D.
      + rewrite D. split; [intros N; specialize (Q N); discriminate|]. intros E. destruct (P E) as (j' & Ej & M). injection Ej as <-. exists j. split; [exact M|]. now rewrite D.
    - cbn [rbind]. split; [intros N; specialize (Q N); injection Q as ->; now split|]. intros E. destruct (P E) as (j' & Ej & _). discriminate.
  Qed.
  Lemma yaml_reads : forall w input gs, yaml_says parse_yaml w input gs ->
    exists d, df_read (yaml_format parse_yaml) input w = (log_read input w, Ok d) /\ build_report A d = yaml_report A gs.
  Proof.
    intros w input gs (c & v & d & F & P & L & D). exists d. split; [|exact (C79_report_of_yaml A L D)].
    cbn [yaml_format df_read]. rewrite (yaml_read_ok _ _ _ c d F) by (cbn; now rewrite P). reflexivity.
  Qed.
  Lemma xml_reads : forall w input vs, says w input vs ->
    exists d, df_read (xml_format parse to_float print_doc ev writable) input w = (log_read input w, Ok d) /\ build_report A d = expected_report A (collapse vs).
  Proof.
    intros w input vs (c & doc & Ef & Ep & (d & R) & Sy). exists d. split; [|eapply C76_report_of_document; [exact (fr_read _ _ _ R)|exact Sy]].
    cbn [xml_format df_read]. unfold xml_read, sbind, read_file, slift. rewrite Ef. cbn. rewrite Ep. cbn. now rewrite R.
  Qed.

  (** The text report of a YAML file. *)
  Theorem C79_report_files :
    forall input out w gs, yaml_says parse_yaml w input gs -> match out with Some p => writable p = true | None => True end ->
      exists w', report_cmd std' exists_ is_dir writable (Some "yaml") None input out w = (w', end_of (yaml_report A gs)) /\
        match out with
        | Some p => w_fs w' p = Some (text_of (yaml_report A gs)) /\ only_touches [input] p w w'
        | None => w_fs w' = w_fs w /\ w_out w' = String.append (w_out w) (text_of (yaml_report A gs)) /\ w_reads w' = w_reads w ++ [input]
        end.
  Proof.
    intros input out w gs Y Wr. destruct (yaml_reads Y) as (d & Rd & <-).
    destruct (@report_run std' exists_ is_dir writable (Some "yaml") None (yaml_format parse_yaml) (txt_format A show_group show_point faults) input out w d) as (w' & E & F);
      try reflexivity; try assumption.
    rewrite text_report in E, F. cbn [fst snd] in *. exists w'. now split.
  Qed.

  (** ** C80: JSON reports of files *)
  Theorem C80_json_of_xml_files :
    forall input out w vs, says w input vs -> match out with Some p => writable p = true | None => True end ->
      exists w' t e, report_cmd std' exists_ is_dir writable None (Some "json") input out w = (w', e) /\
        json_outcome dump (expected_report A (collapse vs)) t e /\
        match out with
        | Some p => w_fs w' p = Some t /\ only_touches [input] p w w'
        | None => w_fs w' = w_fs w /\ w_out w' = String.append (w_out w) t /\ w_reads w' = w_reads w ++ [input]
        end.
  Proof.
    intros input out w vs Y Wr. destruct (xml_reads Y) as (d & Rd & <-). pose proof (json_reported d) as J.
    destruct (@report_run std' exists_ is_dir writable None (Some "json") (xml_format parse to_float print_doc ev writable) (json_format A dump) input out w d) as (w' & E & F);
      try reflexivity; try assumption.
    destruct (rf_report (json_format A dump) d) as [t e]. cbn [fst snd] in *. exists w', t, e. now split.
  Qed.
  Theorem C80_json_of_yaml_files :
    forall input out w gs, yaml_says parse_yaml w input gs -> match out with Some p => writable p = true | None => True end ->
      exists w' t e, report_cmd std' exists_ is_dir writable (Some "yaml") (Some "json") input out w = (w', e) /\
        json_outcome dump (yaml_report A gs) t e /\
        match out with
        | Some p => w_fs w' p = Some t /\ only_touches [input] p w w'
        | None => w_fs w' = w_fs w /\ w_out w' = String.append (w_out w) t /\ w_reads w' = w_reads w ++ [input]
        end.
  Proof.
    intros input out w gs Y Wr. destruct (yaml_reads Y) as (d & Rd & <-). pose proof (json_reported d) as J.
    destruct (@report_run std' exists_ is_dir writable (Some "yaml") (Some "json") (yaml_format parse_yaml) (json_format A dump) input out w d) as (w' & E & F);
      try reflexivity; try assumption.
    destruct (rf_report (json_format A dump) d) as [t e]. cbn [fst snd] in *. exists w', t, e. now split.
  Qed.
End Files.
Print Assumptions C79_report_files.
Print Assumptions C80_json_of_xml_files.
Print Assumptions C80_json_of_yaml_files.

(** Two instances whose coverpoint "a" needs two hits in each bin (see C49): at the
    level of the covergroup one hit is enough, and bin "y" adds up. *)
Definition groups_in (v : jval) : list ygroup := match d_doc v with Ok (Some gs) => opt_list gs | _ => [] end.
Definition two_insts_world : world := World (fun p => if String.eqb p "in.yaml" then Some "two" else None) "" [].
Definition two_insts_yaml (c : string) : res jval := if String.eqb c "two" then Ok two_insts else Err LibraryError.
Example C79_witness : yaml_says two_insts_yaml two_insts_world "in.yaml" (groups_in two_insts).
Proof. eexists "two", two_insts, _. split; [reflexivity|]. split; [reflexivity|]. split; [vm_compute; reflexivity|]. eexists. split; [apply reads_doc; vm_compute; reflexivity|]. reflexivity. Qed.
Example C79_example :
  match yaml_report QA (groups_in two_insts) with
  | Err _ => False
  | Ok r =>
      map (fun g : rcg QA => (rg_name g, rg_weight g,
             map (fun p : rcp QA => (rp_name p, map (fun b => (rb_name b, rb_goal b, rb_count b)) (rp_bins p), Qred (rp_cov p))) (rg_cps g),
             map (fun x : rcross QA => (rx_name x, map (fun b => (rb_name b, rb_count b)) (rx_bins x), Qred (rx_cov x))) (rg_crosses g), Qred (rg_cov g))) (r_cgs r) =
        [("cg", 3%Z, [("a", [("x", 1%Z, 1%Z); ("y", 1%Z, 2%Z); ("w", 1%Z, 5%Z)], 100 # 1); ("b", [("z", 1%Z, 4%Z)], 100 # 1)],
          [("ab", [("xz", 3%Z); ("wz", 1%Z)], 100 # 1)], 100 # 1)] /\
      map (fun i : rcg QA => (rg_name i, map (fun p : rcp QA => (rp_name p, Qred (rp_cov p))) (rg_cps i), Qred (rg_cov i))) (flat_map (@rg_cgs QA) (r_cgs r)) =
        [("i0", [("a", 0 # 1); ("b", 100 # 1)], 200 # 3); ("i1", [("a", 100 # 1); ("b", 0 # 1)], 200 # 3)] /\
      Qred (r_cov r) = 100 # 1
  end.
Proof. vm_compute. now repeat split. Qed.
(** Weights that add up to 0 and an empty document have no report. *)
Example C79_no_report :
  let g n w := jgroup n [("weight", JInt w); ("instances", JArr [jinst "i" [] []])] in
  (exists d, load (jdoc [g "a" 2%Z; g "b" (-2)%Z]) = Ok d /\ build_report QA d = Err ZeroDivisionError) /\
  (exists d, load (jdoc []) = Ok d /\ build_report QA d = Err ZeroDivisionError).
Proof. split; eexists; (split; [vm_compute; reflexivity|]); vm_compute; reflexivity. Qed.
(** The JSON report of this file fails (it has crosses) and empties the destination;
    that of a file without crosses is written. *)
Example C80_example :
  rpt_crosses match yaml_report QA (groups_in two_insts) with Ok r => r | Err _ => Rpt (A := QA) [] [] 0%Q end <> [] /\
  exists r, yaml_report QA (groups_in (jdoc [jgroup "g" [("instances", JArr [jinst "i" [jpoint "p" [] [jbin "x" 1]] []])]])) = Ok r /\ rpt_crosses r = [].
Proof. split; [vm_compute; discriminate|]. eexists. split; vm_compute; reflexivity. Qed.
