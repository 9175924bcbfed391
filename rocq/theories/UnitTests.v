(** The project's own unit tests (ve/unit), run on the model: evidence that the
    model does what the code does.  These are tests, not properties. *)
From Coq Require Import QArith.
From Verif Require Import Base Dict Consts Db Hist Api CApi Report ReportSpec Merge Yaml Xml XmlWriter XmlReader Schema UcisXsd XmlFactory
  Dates Samples P_Xml.
Local Open Scope string_scope.
Local Open Scope list_scope.
Local Open Scope nat_scope.

(** ** What the tests look at *)

(** A covergroup of the report: name, coverage, and of each coverpoint and each
    cross the number of bins and the coverage. *)
Definition part : Type := nat * Q.
Definition group : Type := string * Q * list part * list part.
Definition seen_group (g : rcg QA) : group :=
  (rg_name g, Qred (rg_cov g : Q),
   map (fun p : rcp QA => (List.length (rp_bins p), Qred (rp_cov p : Q))) (rg_cps g),
   map (fun x : rcross QA => (List.length (rx_bins x), Qred (rx_cov x : Q))) (rg_crosses g)).
(** The covergroups of the report, each with its covergroup instances. *)
Definition seen (r : res (report QA)) : option (list (group * list group)) :=
  match r with
  | Ok r => Some (map (fun g : rcg QA => (seen_group g, map seen_group (rg_cgs g))) (r_cgs r))
  | Err _ => None
  end.
Definition reported (d : res db) : option (list (group * list group)) :=
  match d with Ok d => seen (build_report QA d) | Err _ => None end.

(** ** YAML texts of the tests *)
Definition y_bin (b : string * Z) : jval := JObj [("name", JStr (fst b)); ("count", JInt (snd b))].
Definition y_point (n : string) (bs : list (string * Z)) : jval := JObj [("name", JStr n); ("bins", JArr (map y_bin bs))].
Definition y_point_al (n : string) (al : Z) (bs : list (string * Z)) : jval :=
  JObj [("name", JStr n); ("atleast", JInt al); ("bins", JArr (map y_bin bs))].
Definition y_cross (n : string) (over : list string) (bs : list (string * Z)) : jval :=
  JObj [("name", JStr n); ("coverpoints", JArr (map JStr over)); ("bins", JArr (map y_bin bs))].
Definition y_inst (n : string) (ps : list jval) : jval := JObj [("name", JStr n); ("coverpoints", JArr ps)].
Definition y_inst_x (n : string) (ps xs : list jval) : jval :=
  JObj [("name", JStr n); ("coverpoints", JArr ps); ("crosses", JArr xs)].
Definition y_group (n : string) (is : list jval) : jval := JObj [("name", JStr n); ("instances", JArr is)].
Definition y_group_w (n : string) (w : Z) (is : list jval) : jval :=
  JObj [("name", JStr n); ("weight", JInt w); ("instances", JArr is)].
Definition y_file (gs : list jval) : jval := JObj [("coverage", JObj [("covergroups", JArr gs)])].
Definition one_inst (cg i : string) (b0 b1 : Z) : jval :=
  y_file [y_group cg [y_inst i [y_point "cp1" [("b0", b0); ("b1", b1)]]]].

Definition merged (vs : list jval) : res db :=
  let* ds := traverse load vs in
  let '(d, r) := merge empty_db ds in
  let* _ := r in Ok d.

(** ** ve/unit/test_yaml_reader.py *)

Definition smoke : jval :=
  y_file [y_group_w "ABC" 1
    [y_inst "I1" [y_point_al "CP1" 1 [("a", 1%Z); ("b", 0%Z)]];
     y_inst "I2" [y_point_al "CP1" 1 [("a", 0%Z); ("b", 1%Z)]]]].
Example yaml_smoke :
  reported (load smoke) =
  Some [("ABC", (100#1)%Q, [(2, (100#1)%Q)], [],
         [("I1", (50#1)%Q, [(2, (50#1)%Q)], []); ("I2", (50#1)%Q, [(2, (50#1)%Q)], [])])].
Proof. vm_compute. reflexivity. Qed.

Definition cross_smoke : jval :=
  y_file [y_group_w "ABC" 1
    [y_inst_x "I1" [y_point_al "CP1" 1 [("a", 1%Z); ("b", 0%Z)]; y_point_al "CP2" 1 [("a", 0%Z); ("b", 1%Z)]]
       [y_cross "CP1xCP2" ["CP1"; "CP2"] [("<a,a>", 0%Z); ("<a,b>", 1%Z); ("<b,a>", 0%Z); ("<b,b>", 0%Z)]]]].
(** 125/3 rounds to 41.67. *)
Example yaml_cross_smoke :
  reported (load cross_smoke) =
  Some [("ABC", (125#3)%Q, [(2, (50#1)%Q); (2, (50#1)%Q)], [(4, (25#1)%Q)],
         [("I1", (125#3)%Q, [(2, (50#1)%Q); (2, (50#1)%Q)], [(4, (25#1)%Q)])])].
Proof. vm_compute. reflexivity. Qed.

Example yaml_type_cvg_cvp :
  reported (load (one_inst "cvg" "i1" 1 0)) =
  Some [("cvg", (50#1)%Q, [(2, (50#1)%Q)], [], [("i1", (50#1)%Q, [(2, (50#1)%Q)], [])])].
Proof. vm_compute. reflexivity. Qed.

Example yaml_type_cvg_2_cvp :
  reported (load (y_file [y_group "cvg" [y_inst "i1"
     [y_point "cp1" [("b0", 1%Z); ("b1", 0%Z)]; y_point "cp2" [("b0", 1%Z); ("b1", 1%Z)]]]])) =
  Some [("cvg", (75#1)%Q, [(2, (50#1)%Q); (2, (100#1)%Q)], [], [("i1", (75#1)%Q, [(2, (50#1)%Q); (2, (100#1)%Q)], [])])].
Proof. vm_compute. reflexivity. Qed.

(** ** ve/unit/test_merge.py *)

Example merge_null_type_cg_1_cp :
  reported (merged [one_inst "cvg" "i1" 1 0]) =
  Some [("cvg", (50#1)%Q, [(2, (50#1)%Q)], [], [("i1", (50#1)%Q, [(2, (50#1)%Q)], [])])].
Proof. vm_compute. reflexivity. Qed.

Definition two_insts : jval :=
  y_file [y_group "cvg" [y_inst "inst1" [y_point "cp1" [("b0", 0%Z); ("b1", 1%Z)]];
                         y_inst "inst2" [y_point "cp1" [("b0", 1%Z); ("b1", 0%Z)]]]].
Definition two_halves : option (list (group * list group)) :=
  Some [("cvg", (100#1)%Q, [(2, (100#1)%Q)], [],
         [("inst1", (50#1)%Q, [(2, (50#1)%Q)], []); ("inst2", (50#1)%Q, [(2, (50#1)%Q)], [])])].
Example merge_null_two_insts : reported (load two_insts) = two_halves /\ reported (merged [two_insts]) = two_halves.
Proof. split; vm_compute; reflexivity. Qed.

Example merge_2db_1t_2i : reported (merged [one_inst "cvg" "inst1" 0 1; one_inst "cvg" "inst2" 1 0]) = two_halves.
Proof. vm_compute. reflexivity. Qed.

Example merge_2db_1t_1i :
  reported (merged [one_inst "cvg" "inst1" 0 1; one_inst "cvg" "inst1" 1 0]) =
  Some [("cvg", (100#1)%Q, [(2, (100#1)%Q)], [], [("inst1", (100#1)%Q, [(2, (100#1)%Q)], [])])].
Proof. vm_compute. reflexivity. Qed.

Example merge_3db_1t_2i :
  reported (merged [one_inst "cvg" "inst1" 0 1; one_inst "cvg" "inst1" 1 0; one_inst "cvg" "inst2" 1 0]) =
  Some [("cvg", (100#1)%Q, [(2, (100#1)%Q)], [],
         [("inst1", (100#1)%Q, [(2, (100#1)%Q)], []); ("inst2", (50#1)%Q, [(2, (50#1)%Q)], [])])].
Proof. vm_compute. reflexivity. Qed.

Example merge_3db_2t_1i :
  reported (merged [one_inst "cvg" "inst1" 0 1; one_inst "cvg" "inst1" 1 0; one_inst "cvg2" "inst1" 1 0]) =
  Some [("cvg", (100#1)%Q, [(2, (100#1)%Q)], [], [("inst1", (100#1)%Q, [(2, (100#1)%Q)], [])]);
        ("cvg2", (50#1)%Q, [(2, (50#1)%Q)], [], [("inst1", (50#1)%Q, [(2, (50#1)%Q)], [])])].
Proof. vm_compute. reflexivity. Qed.

(** An instance with two coverpoints and their cross. *)
Definition crossed_inst (n : string) (p q : Z * Z) (c : Z * Z * Z * Z) : jval :=
  let '(c00, c01, c10, c11) := c in
  y_inst_x n [y_point "cp1" [("b0", fst p); ("b1", snd p)]; y_point "cp2" [("b0", fst q); ("b1", snd q)]]
    [y_cross "cp1xc2" ["cp1"; "cp2"] [("<b0,b0>", c00); ("<b0,b1>", c01); ("<b1,b0>", c10); ("<b1,b1>", c11)]].

Definition db_1db_2ci_2cp_1cr : jval :=
  y_file [y_group "cvg" [crossed_inst "inst1" (0, 1)%Z (0, 1)%Z (0, 0, 0, 1)%Z;
                         crossed_inst "inst2" (1, 0)%Z (1, 0)%Z (1, 0, 0, 0)%Z]].
Example merge_1db_2ci_2cp_1cr :
  let r := Some [("cvg", (250#3)%Q, [(2, (100#1)%Q); (2, (100#1)%Q)], [(4, (50#1)%Q)],
                  [("inst1", (125#3)%Q, [(2, (50#1)%Q); (2, (50#1)%Q)], [(4, (25#1)%Q)]);
                   ("inst2", (125#3)%Q, [(2, (50#1)%Q); (2, (50#1)%Q)], [(4, (25#1)%Q)])])] in
  reported (load db_1db_2ci_2cp_1cr) = r /\ reported (merged [db_1db_2ci_2cp_1cr]) = r.
Proof. split; vm_compute; reflexivity. Qed.

Definition db_a : jval :=
  y_file [y_group "cvg" [crossed_inst "inst1" (1, 0)%Z (1, 0)%Z (1, 0, 0, 0)%Z;
                         crossed_inst "inst2" (1, 0)%Z (0, 1)%Z (0, 1, 0, 0)%Z]].
Definition db_b : jval :=
  y_file [y_group "cvg" [crossed_inst "inst1" (0, 1)%Z (1, 0)%Z (0, 0, 1, 0)%Z;
                         crossed_inst "inst2" (0, 1)%Z (0, 1)%Z (0, 0, 0, 1)%Z]].
Example merge_2db_2ci_2cp_1cr :
  reported (load db_a) =
    Some [("cvg", (200#3)%Q, [(2, (50#1)%Q); (2, (100#1)%Q)], [(4, (50#1)%Q)],
           [("inst1", (125#3)%Q, [(2, (50#1)%Q); (2, (50#1)%Q)], [(4, (25#1)%Q)]);
            ("inst2", (125#3)%Q, [(2, (50#1)%Q); (2, (50#1)%Q)], [(4, (25#1)%Q)])])] /\
  reported (merged [db_a; db_b]) =
    Some [("cvg", (100#1)%Q, [(2, (100#1)%Q); (2, (100#1)%Q)], [(4, (100#1)%Q)],
           [("inst1", (200#3)%Q, [(2, (100#1)%Q); (2, (50#1)%Q)], [(4, (50#1)%Q)]);
            ("inst2", (200#3)%Q, [(2, (100#1)%Q); (2, (50#1)%Q)], [(4, (50#1)%Q)])])].
Proof. split; vm_compute; reflexivity. Qed.

(** test_2db_2ci_2cp_1cr_xml: [more] is the second bin of the second document. *)
Definition x_opt : elem := Elem "options" [] None [].
Definition x_bin (n c : string) : elem :=
  Elem "coverpointBin" [("name", n); ("type", "bins"); ("key", "0")] (Some " ")
    [Elem "range" [("from", "-1"); ("to", "-1")] (Some " ") [Elem "contents" [("coverageCount", c)] None []]].
Definition x_point (n : string) (bs : list elem) : elem :=
  Elem "coverpoint" [("name", n); ("key", "0")] (Some " ") (x_opt :: bs).
Definition x_cross_bin (n : string) : elem :=
  Elem "crossBin" [("name", n); ("key", "0"); ("type", "default")] (Some " ")
    [Elem "index" [] (Some "-1") []; Elem "contents" [("coverageCount", "0")] None []].
Definition x_file (n i : string) : elem := Elem "sourceFiles" [("fileName", n); ("id", i)] None [].
Definition x_doc (more : list elem) : elem :=
  Elem "UCIS" [("writtenBy", "apaiva"); ("writtenTime", "2024-09-20T00:00:00"); ("ucisVersion", "1.0")] (Some " ")
    [x_file "__null__file__" "1"; x_file "<unknown>" "2"; x_file "/xxx/agents/l1_client_fcov.py" "3";
     x_file "/xxx/agents/fpu/fpu_fcov.py" "4"; x_file "/xxx/instrn/instrn_fcov/instrn_fcov.py" "5";
     x_file "/xxx/agents/unpack/unpack_fcov.py" "6"; x_file "/xxx/agents/pack/pack_fcov.py" "7";
     Elem "historyNodes" [("historyNodeId", "0"); ("logicalName", "logicalName"); ("physicalName", "foo.ucis");
       ("kind", "HistoryNodeKind.TEST"); ("testStatus", "true"); ("simtime", "0.0"); ("timeunit", "ns"); ("runCwd", ".");
       ("cpuTime", "0.0"); ("seed", "0"); ("cmd", ""); ("args", ""); ("compulsory", "0"); ("date", "2024-09-20T22:19:22");
       ("userName", "user"); ("cost", "0.0"); ("toolCategory", "UCIS:simulator"); ("ucisVersion", "1.0");
       ("vendorId", "unknown"); ("vendorTool", "unknown"); ("vendorToolVersion", "unknown")] None [];
     Elem "instanceCoverages" [("name", "cg_inst"); ("key", "0")] (Some " ")
       [Elem "id" [("file", "1"); ("line", "1"); ("inlineCount", "1")] None [];
        Elem "covergroupCoverage" [] (Some " ")
          [Elem "cgInstance" [("name", "L1ClientOp"); ("key", "0")] (Some " ")
             [x_opt;
              x_point "cp_101_in_fmt" [x_bin "T6TensorStorageType.Float32" "0"];
              x_point "cp_blk_id" (x_bin "cp_blk_id[0]" "5" :: more);
              Elem "cross" [("name", "cc_101_in_fmt_X_upk_id"); ("key", "0")] (Some " ")
                [x_opt; Elem "crossExpr" [] (Some "cp_101_in_fmt") []; Elem "crossExpr" [] (Some "cp_blk_id") [];
                 x_cross_bin "<T6TensorStorageType.Float32,cp_blk_id[0]>";
                 x_cross_bin "<T6TensorStorageType.Float32,cp_blk_id[1]>"]]]]].
Definition xml1 : elem := x_doc [].
Definition xml2 : elem := x_doc [x_bin "cp_blk_id[1]" "5"].
Definition crossed_of (s : scope) : option nat :=
  match s_cls s with KCross l => Some (List.length l) | _ => None end.
Example merge_2db_2ci_2cp_1cr_xml :
  match read sample_float xml1, read sample_float xml2 with
  | Ok d1, Ok d2 =>
      (exists r, build_report QA d1 = Ok r) /\
      let '(d, r) := merge empty_db [d1; d2] in
      r = Ok tt /\ List.length (s_kids (db_root d)) = 2 /\
      option_map (fun s => List.length (s_kids s)) (get_at (db_root d) [1; 0]) = Some 4 /\
      option_map crossed_of (get_at (db_root d) [1; 0; 2]) = Some (Some 2) /\
      option_map crossed_of (get_at (db_root d) [1; 0; 3; 2]) = Some (Some 2)
  | _, _ => False
  end.
Proof. vm_compute. repeat split. eexists. reflexivity. Qed.

(** ** Databases made with the API *)

(** A run of API calls; none of them may raise. *)
Fixpoint calls (d : db) (l : list op) : res db :=
  match l with
  | [] => Ok d
  | o :: t => let '(d', r) := step d o in let* _ := r in calls d' t
  end.

Definition SRC_VLOG : Z := 1%Z.
Definition test_ok : pyval := VEnum 1 "TestStatusT.OK".
Definition kind_test : pyval := VEnum 1 "HistoryNodeKind.TEST".
Definition dummy_test_data (file : string) : list op :=
  [CreateHistoryNode None (VStr "logicalName") (VStr file) kind_test 1605000000;
   SetTestData 0 (TestData test_ok (VStr "UCIS:simulator") (VStr "20200202020") (VFloat "0.0") (VStr "ns") (VStr ".")
     (VFloat "0.0") (VStr "0") (VStr "") (VStr "") (VInt 0) (VStr "user") (VFloat "0.0"))].
Definition at_line (n : Z) : option srcinfo := Some (SrcInfo (Some "dummy") n 0).
Definition a_du (n : string) : op := CreateScope [] n (at_line 0) 1 SRC_OTHER DU_MODULE DU_FLAGS.
Definition an_inst (n : string) (du : handle) : op := CreateInstance [] n None 1 SRC_OTHER INSTANCE (Some du) INST_ONCE.
Definition dummy_instance : list op := [CreateFileHandle "dummy"; a_du "foo.bar"; an_inst "dummy" [0]].

(** ve/unit/db_creator.py create_covergroup: [k] covergroups are there already. *)
Definition a_point (cg : handle) (k : nat) (p : string * Z * list (string * Z)) : list op :=
  let '(n, w, bs) := p in
  CreateCoverpoint cg n None w SRC_OTHER ::
  map (fun b : string * Z => CreateBin (cg ++ [k]) (fst b) None 1 (snd b) CVGBIN) bs.
Definition covergroup (k : nat) (n : string) (ps : list (string * Z * list (string * Z))) : list op :=
  CreateCovergroup [1] n None 1 SRC_OTHER ::
  List.concat (map (fun kp => a_point [1; k] (fst kp) (snd kp)) (combine (seq 0 (List.length ps)) ps)).
Definition creator (l : list op) : res db := calls empty_db (dummy_test_data "file.ucis" ++ dummy_instance ++ l).

Definition b4 (a b c d : Z) : list (string * Z) := [("b1", a); ("b2", b); ("b3", c); ("b4", d)].
Definition b8 (a b c d e f g h : Z) : list (string * Z) := b4 a b c d ++ [("b5", e); ("b6", f); ("b7", g); ("b8", h)].

(** ** ve/unit/test_report.py *)
Example report_single_coverpoint :
  reported (creator (covergroup 0 "cg_t" [("a_cp", 1%Z, b4 1 1 0 0)])) =
  Some [("cg_t", (50#1)%Q, [(4, (50#1)%Q)], [], [])].
Proof. vm_compute. reflexivity. Qed.

Example report_two_coverpoints :
  reported (creator (covergroup 0 "cp_t" [("a_cp", 1%Z, b4 1 1 0 0); ("b_cp", 1%Z, b4 0 0 0 0)])) =
  Some [("cp_t", (25#1)%Q, [(4, (50#1)%Q); (4, 0%Q)], [], [])].
Proof. vm_compute. reflexivity. Qed.

(** 100*4/12 = 100/3 *)
Example report_weights :
  reported (creator (covergroup 0 "cg_t" [("a_cp", 4%Z, b4 1 1 0 0); ("b_cp", 8%Z, b8 0 0 0 0 0 0 1 1)])) =
  Some [("cg_t", (100#3)%Q, [(4, (50#1)%Q); (8, (25#1)%Q)], [], [])].
Proof. vm_compute. reflexivity. Qed.

Definition weights_options : res db :=
  creator (covergroup 0 "cg_t" [("a_cp", 1%Z, b4 1 1 0 0); ("b_cp", 1%Z, b8 0 0 0 0 1 1 1 1)] ++
           covergroup 1 "cg_t" [("a_cp", 1%Z, b4 1 1 1 1); ("b_cp", 1%Z, b8 1 1 1 1 1 1 1 1)]).
Example report_weights_options :
  reported weights_options =
    Some [("cg_t", (50#1)%Q, [(4, (50#1)%Q); (8, (50#1)%Q)], [], []); ("cg_t", (100#1)%Q, [(4, (100#1)%Q); (8, (100#1)%Q)], [], [])] /\
  match weights_options with
  | Ok d => match build_report QA d with Ok r => Qred (r_cov r) = (75#1)%Q | Err _ => False end
  | Err _ => False
  end.
Proof. split; vm_compute; reflexivity. Qed.

(** ** ve/unit/test_xml_output.py, test_xml_reader.py, test_simple_create.py, test_coverage_report.py *)

(** Written, the text parses to a valid document; read and written again, also. *)
Definition valid_xml (d : res db) : bool :=
  match d with
  | Ok d => match write sample_env d with Ok e => ucis_valid (reparse e) | Err _ => false end
  | Err _ => false
  end.
Definition read_back (d : res db) : res db :=
  let* d := d in let* e := write sample_env d in read sample_float (reparse e).

Definition a_bin (h : handle) (n : string) (count : Z) : op := CreateBin h n (at_line 4) 1 count CVGBIN.
Definition simplest : res db :=
  calls empty_db (dummy_test_data "file.ucis" ++ dummy_instance ++
    [CreateCovergroup [1] "cg" (at_line 3) 1 SRC_OTHER;
     CreateCoverpoint [1; 0] "t" (at_line 4) 1 SRC_VLOG;
     SetField [1; 0; 0] (FComment "Hello There");
     a_bin [1; 0; 0] "auto[a]" 4]).
Example simplest_create :
  valid_xml simplest = true /\ (exists d, read_back simplest = Ok d) /\
  reported simplest = Some [("cg", (100#1)%Q, [(1, (100#1)%Q)], [], [])].
Proof. split; [vm_compute; reflexivity|]. split; [eexists|]; vm_compute; reflexivity. Qed.

Definition with_cross (name : string) : res db :=
  calls empty_db (dummy_test_data "file.ucis" ++ [CreateFileHandle "dummy"; a_du "foo.bar"; an_inst name [0];
     CreateCovergroup [1] "cg" (at_line 3) 1 SRC_OTHER;
     CreateCoverpoint [1; 0] "cp1" (at_line 4) 1 SRC_VLOG; a_bin [1; 0; 0] "v[1]" 4; a_bin [1; 0; 0] "v[2]" 4;
     CreateCoverpoint [1; 0] "cp2" (at_line 4) 1 SRC_VLOG; a_bin [1; 0; 1] "v2[1]" 4; a_bin [1; 0; 1] "v2[2]" 4;
     CreateCross [1; 0] "cr" (at_line 4) 1 SRC_VLOG [[1; 0; 0]; [1; 0; 1]];
     a_bin [1; 0; 2] "<v1[1],v2[1]>" 4; a_bin [1; 0; 2] "<v1[2],v2[1]>" 4;
     a_bin [1; 0; 2] "<v1[1],v2[2]>" 4; a_bin [1; 0; 2] "<v1[2],v2[2]>" 4]).
Example cross_written :
  valid_xml (with_cross "dummy") = true /\ valid_xml (with_cross "my_inst_scope") = true /\
  valid_xml (read_back (with_cross "my_inst_scope")) = true.
Proof. repeat split; vm_compute; reflexivity. Qed.

(** Two instances of one name. *)
Definition two_instances : res db :=
  let part (i : nat) := [CreateCovergroup [i] "cg" (at_line 3) 1 SRC_OTHER;
                         CreateCoverpoint [i; 0] "t" (at_line 4) 1 SRC_VLOG; a_bin [i; 0; 0] "auto[a]" 4] in
  calls empty_db (dummy_test_data "file_2inst.ucis" ++ [CreateFileHandle "dummy"; a_du "foo.bar1"; a_du "foo.bar2"; an_inst "dummy" [0]] ++
    part 2 ++ [a_du "foo.bar2"; an_inst "dummy" [3]] ++ part 4).
Example simplest_create_2inst : valid_xml two_instances = true.
Proof. vm_compute. reflexivity. Qed.

Definition type_inst : res db :=
  calls empty_db (dummy_test_data "file_type_inst.ucis" ++ dummy_instance ++
    [CreateCovergroup [1] "cg" (at_line 3) 1 SRC_OTHER;
     CreateCoverpoint [1; 0] "t" (at_line 4) 1 SRC_VLOG; a_bin [1; 0; 0] "auto[a]" 4;
     CreateCoverInstance [1; 0] "cg_i1" (at_line 3) 1 SRC_OTHER;
     CreateCoverpoint [1; 0; 1] "t" (at_line 4) 1 SRC_VLOG; a_bin [1; 0; 1; 0] "auto[a]" 0]).
Example create_type_inst_cg : valid_xml type_inst = true.
Proof. vm_compute. reflexivity. Qed.

(** ** ve/unit/test_xml_examples.py: example_create_ucis.create_ucis, then XmlFactory.write *)
Fixpoint c_calls (d : db) (l : list ccall) : res db :=
  match l with
  | [] => Ok d
  | c :: t => let '(d', r) := c_step d c in let* _ := r in c_calls d' t
  end.

Definition TOGGLEBIN : N := 0x200%N.
Definition in_sv (line token : Z) : option srcinfo := Some (SrcInfo (Some "test.sv") line token).
Definition counted (type flags : N) (n : Z) : cover_data :=
  let c := new_cover_data type flags in
  CoverData (cd_type c) (cd_flags c) n (cd_goal c) (cd_weight c) (cd_limit c) (cd_bitlen c) (cd_at_least c).
Definition a_statement (k : nat) (name : string) (line item count : Z) : list ccall :=
  [ucis_CreateNextCover (Some [1]) name (counted STMTBIN IS_32BIT count) (in_sv line 17);
   ucis_SetIntProperty (AScope [1]) (Z.of_nat k) STMT_INDEX item].
Definition cvp_bin (name : string) (count : Z) : ccall :=
  ucis_CreateNextCover (Some [1; 1; 0]) name
    (CoverData CVGBIN (N.lor IS_32BIT (N.lor HAS_GOAL HAS_WEIGHT)) count 0 1 0 0 (Some 1%Z)) (in_sv 4 0).
(** The two covers of the toggle share their data object (C81): at the end both
    have count 1. *)
Definition create_ucis : res db :=
  c_calls empty_db
    ([ucis_CreateHistoryNode None (VStr "TestLogicalName") (VStr "file.ucis") kind_test 1605000000;
      ucis_SetTestData 0 (TestData test_ok (VStr "UCIS:Simulator") (VStr "20110824143300") (VFloat "0.0") (VStr "ns") (VStr "./")
        (VFloat "0.0") (VStr "0") (VStr "toolname") (VStr "command arguments") (VInt 0) (VStr "ucis_user") (VFloat "0.0"));
      ucis_CreateFileHandle "test.sv" "/work";
      ucis_CreateScope None "work.top" (in_sv 0 0) 1 SRC_VLOG DU_MODULE DU_FLAGS;
      ucis_SetStringProperty (AScope [0]) (-1) (OTHER_STR 19) "FAKE DU SIGNATURE";
      ucis_CreateInstance None "top" None 1 SRC_VLOG INSTANCE (Some [0]) INST_ONCE] ++
     a_statement 0 "#stmt#1#6#1#" 6 1 17 ++ a_statement 1 "#stmt#1#8#1#" 8 1 0 ++ a_statement 2 "#stmt#1#9#2#" 9 2 365 ++
     [ucis_CreateToggle (Some [1]) "t" "" 0 2 2 1;
      ucis_CreateNextCover (Some [1; 0]) "a" (counted TOGGLEBIN IS_32BIT 1) None;
      ucis_CreateNextCover (Some [1; 0]) "b" (counted TOGGLEBIN IS_32BIT 1) None;
      ucis_CreateScope (Some [1]) "cg" (in_sv 3 0) 1 SRC_VLOG COVERGROUP 0;
      ucis_SetIntProperty (AScope [1; 1]) (-1) SCOPE_GOAL 100;
      ucis_SetIntProperty (AScope [1; 1]) (-1) CVG_STROBE 0;
      ucis_SetIntProperty (AScope [1; 1]) (-1) CVG_MERGEINSTANCES 1;
      ucis_SetStringProperty (AScope [1; 1]) (-1) COMMENT "";
      ucis_CreateScope (Some [1; 1]) "t" (in_sv 4 0) 1 SRC_VLOG COVERPOINT 0;
      ucis_SetIntProperty (AScope [1; 1; 0]) (-1) SCOPE_GOAL 100;
      ucis_SetIntProperty (AScope [1; 1; 0]) (-1) CVG_ATLEAST 1;
      ucis_SetStringProperty (AScope [1; 1; 0]) (-1) COMMENT "";
      cvp_bin "auto[a]" 0; cvp_bin "auto[b]" 1]).
Example xml_examples_create_ucis :
  valid_xml create_ucis = true /\
  reported create_ucis = Some [("cg", (50#1)%Q, [(2, (50#1)%Q)], [], [])].
Proof. split; vm_compute; reflexivity. Qed.
