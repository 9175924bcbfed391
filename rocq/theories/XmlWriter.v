(** The XML writer (ucis/xml/xml_writer.py).  An exception leaves no document,
    so the model builds the document in the exception monad. *)
From Verif Require Import Base Dict Consts Db Hist Merge PyInt Dates Xml.
Set Implicit Arguments.
Local Open Scope string_scope.

(** What the writer takes from its surroundings: getpass.getuser(), date.today(),
    datetime.now(), and the local time zone ([Dates.write_date]). *)
Record env := Env { env_user : string; env_today : dt; env_now : dt; env_local : dt -> dt }.

(** ** Source files *)

(** xml_writer.py:349-353: enter a file of a scope. *)
Definition add_file (m : dict Z) (si : srcinfo) : dict Z :=
  match si_file si with
  | Some f => if dmem f m then m else dset f (Z.of_nat (List.length m) + 1)%Z m
  | None => m
  end.

(** xml_writer.py:345-355 find_all_files, for one scope of the iterator. *)
Fixpoint find_files (m : dict Z) (s : scope) : dict Z :=
  match s with
  | Scope a _ _ kids =>
      fold_left (fun m k => if of_type SCOPE_ALL k then find_files m k else m) kids
                (add_file m (a_src a))
  end.

(** xml_writer.py:57-59 *)
Definition file_ids (d : db) : dict Z :=
  fold_left find_files (scopes (db_root d) SCOPE_ALL) [("__null__file__", 1%Z)].

(** xml_writer.py:90-95 *)
Definition source_file_elem (fi : string * Z) : res elem :=
  let* a := set_attrs_l [("fileName", fst fi); ("id", show_int (snd fi))] in
  Ok (Elem "sourceFiles" a None []).

(** ** History nodes *)

(** [str(val)] *)
Definition py_str (v : pyval) : string :=
  match v with
  | VNone => "None"
  | VBool true => "True"
  | VBool false => "False"
  | VInt z => show_int z
  | VEnum _ s => s
  | VFloat s => s
  | VStr s => s
  end.

(** [val >= 0]; a float is known by its text. *)
Definition starts_minus (s : string) : bool :=
  match s with String c _ => Ascii.eqb c "-" | EmptyString => false end.
Definition non_neg (v : pyval) : res bool :=
  match v with
  | VNone | VStr _ => Err TypeError
  | VBool _ => Ok true
  | VInt z | VEnum z _ => Ok (0 <=? z)%Z
  | VFloat s => Ok (seqb s "-0.0" || negb (starts_minus s || seqb s "nan"))
  end.

(** [e.set(name, val)] where [val] may be any value *)
Definition set_val (name : string) (v : pyval) (a : dict string) : res (dict string) :=
  match v with VStr s => set_attr name s a | _ => Err TypeError end.
(** xml_writer.py:312-316 *)
Definition set_bool (name : string) (v : pyval) (a : dict string) : res (dict string) :=
  set_attr name (if truthy v then "true" else "false") a.
(** xml_writer.py:322-324 *)
Definition set_non_null (name : string) (v : pyval) (a : dict string) : res (dict string) :=
  match v with VNone => Ok a | _ => set_attr name (py_str v) a end.
(** xml_writer.py:326-328 *)
Definition set_non_neg (name : string) (v : pyval) (a : dict string) : res (dict string) :=
  let* b := non_neg v in if b then set_attr name (py_str v) a else Ok a.
(** xml_writer.py:318-320; strptime takes strings only *)
Definition set_date (local : dt -> dt) (name : string) (v : pyval) (a : dict string) : res (dict string) :=
  match v with
  | VStr s => let* t := write_date local s in set_attr name t a
  | _ => Err TypeError
  end.

(** xml_writer.py:103-129 *)
Definition history_elem (ev : env) (i : nat) (h : hist) : res elem :=
  let* a := set_attr "historyNodeId" (show_int (Z.of_nat i)) [] in
  let* a := set_val "logicalName" (h_logical h) a in
  let* a := set_non_null "physicalName" (h_physical h) a in
  let* a := set_non_null "kind" (h_kind h) a in
  let* a := set_bool "testStatus" (h_status h) a in
  let* a := set_non_neg "simtime" (h_simtime h) a in
  let* a := set_non_null "timeunit" (h_timeunit h) a in
  let* a := set_non_null "runCwd" (h_runcwd h) a in
  let* a := set_non_neg "cpuTime" (h_cputime h) a in
  let* a := set_non_null "seed" (h_seed h) a in
  let* a := set_non_null "cmd" (h_cmd h) a in
  let* a := set_non_null "args" (h_args h) a in
  let* a := set_non_null "compulsory" (h_compulsory h) a in
  let* a := set_date (env_local ev) "date" (h_date h) a in
  let* a := set_non_null "userName" (h_user h) a in
  let* a := set_non_neg "cost" (h_cost h) a in
  let* a := set_val "toolCategory" (h_toolcat h) a in
  let* a := set_val "ucisVersion" (h_version h) a in
  let* a := set_val "vendorId" (h_vendor h) a in
  let* a := set_val "vendorTool" (h_vtool h) a in
  let* a := set_val "vendorToolVersion" (h_vtoolver h) a in
  let* a := set_non_neg "sameTests" (h_same h) a in
  let* a := set_non_null "comment" (h_comment h) a in
  Ok (Elem "historyNodes" a None []).

(** xml_writer.py:102: enumerate from [i]. *)
Fixpoint history_elems (ev : env) (i : nat) (l : list hist) : res (list elem) :=
  match l with
  | [] => Ok []
  | h :: t => let* e := history_elem ev i h in
              let* es := history_elems ev (S i) t in
              Ok (e :: es)
  end.

(** xml_writer.py:131-157 *)
Definition dummy_history (ev : env) : res elem :=
  let* a := set_attrs_l [("historyNodeId", "0"); ("logicalName", "dummy"); ("physicalName", "dummy");
                         ("kind", "dummy"); ("testStatus", "true"); ("simtime", "0"); ("timeunit", "0");
                         ("runCwd", ""); ("cpuTime", "0"); ("seed", "0"); ("cmd", ""); ("args", "")] in
  let* a := set_date (env_local ev) "date" (VStr (compact (env_now ev))) a in
  let* a := set_attr "userName" "dummy" a in
  let* a := set_attr "toolCategory" "unknown" a in
  let* a := set_attr "ucisVersion" "1.0" a in
  let* a := set_attr "vendorId" "unknown" a in
  let* a := set_attr "vendorTool" "PyUCIS" a in
  let* a := set_attr "vendorToolVersion" "unknown" a in
  Ok (Elem "historyNodes" a None []).

(** xml_writer.py:97-157 write_history_nodes *)
Definition write_history (ev : env) (l : list hist) : res (list elem) :=
  match l with
  | [] => let* e := dummy_history ev in Ok [e]
  | _ => history_elems ev 0 l
  end.

(** ** Coverage *)

(** xml_writer.py:291-292 *)
Definition options_elem : elem := Elem "options" [] None [].

Definition ALL_BINS : N := N.lor CVGBIN (N.lor IGNOREBIN ILLEGALBIN).

(** xml_writer.py:237-244 *)
Definition bin_type (i : item) : res string :=
  let t := cd_type (ci_data i) in
  if N.eqb t CVGBIN then Ok "bins"
  else if N.eqb t IGNOREBIN then Ok "ignore"
  else if N.eqb t ILLEGALBIN then Ok "illegal"
  else Err AttributeError.     (* line 244 formats cp_bin.type, which does not exist *)

(** xml_writer.py:287-288, 255-256 *)
Definition contents_elem (count : Z) : elem := Elem "contents" [("coverageCount", show_int count)] None [].

(** xml_writer.py:229-256 write_coverpoint_bins, one bin *)
Definition bin_elem (i : item) : res elem :=
  let* a := set_attr "name" (ci_name i) [] in
  let* t := bin_type i in
  let* a := set_attr "type" t a in
  let* a := set_attr "key" "0" a in
  Ok (Elem "coverpointBin" a None
        [Elem "range" [("from", "-1"); ("to", "-1")] None [contents_elem (cd_data (ci_data i))]]).

(** xml_writer.py:219-227 write_coverpoint *)
Definition coverpoint_elem (cp : scope) : res elem :=
  let* a := set_attrs_l [("name", s_name cp); ("key", "0")] in
  let* bins := traverse bin_elem (cover_items cp ALL_BINS) in
  Ok (Elem "coverpoint" a None (options_elem :: bins)).

(** xml_writer.py:275-288 write_cross_bins, one bin *)
Definition cross_bin_elem (i : item) : res elem :=
  let* a := set_attrs_l [("name", ci_name i); ("key", "0"); ("type", "default")] in
  Ok (Elem "crossBin" a None
        [Elem "index" [] (Some "-1") []; contents_elem (cd_data (ci_data i))]).

(** xml_writer.py:268-270 *)
Definition cross_expr_elem (r : cpref) : res elem :=
  let* x := set_text (r_name r) in Ok (Elem "crossExpr" [] x []).

(** xml_writer.py:260-273 write_cross *)
Definition cross_elem (cr : scope) : res elem :=
  let* a := set_attrs_l [("name", s_name cr); ("key", "0")] in
  let* refs := crossed cr in
  let* exprs := traverse cross_expr_elem refs in
  let* bins := traverse cross_bin_elem (cover_items cr ALL_BINS) in
  Ok (Elem "cross" a None (options_elem :: exprs ++ bins)).

(** xml_writer.py:201-211 *)
Definition source_id_elem (tag : string) : elem :=
  Elem tag [("file", "1"); ("line", "1"); ("inlineCount", "1")] None [].

(** xml_writer.py:190-217 write_coverinstance *)
Definition cg_instance_elem (cg_name : string) (g : scope) : res elem :=
  let* a := set_attrs_l [("name", s_name g); ("key", "0")] in
  let* ida := set_attrs_l [("cgName", cg_name); ("moduleName", cg_name)] in
  let* cps := traverse coverpoint_elem (scopes g COVERPOINT) in
  let* crs := traverse cross_elem (scopes g CROSS) in
  Ok (Elem "cgInstance" a None
        (options_elem
         :: Elem "cgId" ida None [source_id_elem "cginstSourceId"; source_id_elem "cgSourceId"]
         :: cps ++ crs)).

(** xml_writer.py:172-188 write_covergroups, one covergroup: its instances, or
    itself if it has none. *)
Definition written_instances (g : scope) : list scope :=
  match scopes g COVERINSTANCE with [] => [g] | l => l end.
Definition covergroup_elem (g : scope) : res elem :=
  let* cis := traverse (cg_instance_elem (s_name g)) (written_instances g) in
  Ok (Elem "covergroupCoverage" [] None cis).

(** xml_writer.py:162-169 write_instance_coverages; 330-342 addId(inst, None) *)
Definition instance_elem (s : scope) : res elem :=
  let* a := set_attrs_l [("name", s_name s); ("key", "0")] in
  let* cgs := traverse covergroup_elem (scopes s COVERGROUP) in
  Ok (Elem "instanceCoverages" a None (source_id_elem "id" :: cgs)).

(** xml_writer.py:53-88 write *)
Definition write (ev : env) (d : db) : res elem :=
  let* a := set_attr "writtenBy" (env_user ev) [] in
  let* a := set_date (env_local ev) "writtenTime" (VStr (compact (env_today ev))) a in
  let* a := set_attr "ucisVersion" "1.0" a in
  let* files := traverse source_file_elem (file_ids d) in
  let* hists := write_history ev (db_hist d) in
  let* insts := traverse instance_elem (scopes (db_root d) INSTANCE) in
  Ok (Elem "UCIS" a None (files ++ hists ++ insts)%list).
