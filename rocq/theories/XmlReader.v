(** The XML reader (ucis/xml/xml_reader.py), for a fresh XmlReader object.

    The database under construction is thrown away when an exception is raised,
    so the model returns it only at the end.  The type-level coverpoints and
    crosses of a covergroup, and the instances of the database, get their
    contents while later siblings are created; until then they are kept in a
    dictionary by name and a [slot] holds their place among the children.  [XmlCalls] has
    the calls in their order, and P_XmlCalls proves that they make the same database. *)
From Verif Require Import Base Dict Consts Db Hist PyInt Dates Xml.
Set Implicit Arguments.
Local Open Scope string_scope.

Section Reader.
  (** [float(s)], by the text str() gives for the result; None is ValueError. *)
  Variable to_float : string -> option string.

  (** xml_reader.py:460-464 *)
  Definition get_attr_or (name default : string) (e : elem) : string :=
    match get_attr name e with Some v => v | None => default end.
  Definition get_attr_val (name : string) (e : elem) : pyval :=
    match get_attr name e with Some v => VStr v | None => VNone end.

  (** xml_reader.py:466-470 *)
  Definition get_attr_bool (name : string) (e : elem) : res pyval :=
    let* v := attrib name e in Ok (VBool (seqb v "true")).
  (** xml_reader.py:472-473 *)
  Definition get_attr_int (name : string) (e : elem) : res Z :=
    let* v := attrib name e in py_int v.
  (** xml_reader.py:454-458; strptime(None) is a TypeError *)
  Definition get_attr_date (name : string) (e : elem) : res pyval :=
    match get_attr name e with
    | Some v => let* s := read_date v in Ok (VStr s)
    | None => Err TypeError
    end.

  (** xml_reader.py:475-477 *)
  Definition set_if_ex (f : hist_field) (name : string) (e : elem) (h : hist) : hist :=
    match get_attr name e with Some v => hist_set f (VStr v) h | None => h end.
  (** xml_reader.py:479-481 *)
  Definition set_int_if_ex (f : hist_field) (name : string) (e : elem) (h : hist) : res hist :=
    match get_attr name e with
    | Some v => let* z := py_int v in Ok (hist_set f (VInt z) h)
    | None => Ok h
    end.
  (** xml_reader.py:483-485 *)
  Definition set_float_if_ex (f : hist_field) (name : string) (e : elem) (h : hist) : res hist :=
    match get_attr name e with
    | Some v => match to_float v with
                | Some x => Ok (hist_set f (VFloat x) h)
                | None => Err ValueError
                end
    | None => Ok h
    end.

  (** ** Source files *)

  (** The database's file table and the reader's file_m (ids in the order read). *)
  Definition file_state : Type := list string * list Z.

  (** mem_ucis.py:85-88.  The handle of a sourceFiles element without fileName,
      which has the name None, is left out. *)
  Definition with_file (name : option string) (names : list string) : list string :=
    match name with
    | Some f => if existsb (seqb f) names then names else (names ++ [f])%list
    | None => names
    end.
  (** xml_reader.py:87-93; int(None) is a TypeError *)
  Definition read_source_file (st : file_state) (e : elem) : res file_state :=
    let '(names, ids) := st in
    match get_attr "id" e with
    | Some i => let* z := py_int i in Ok (with_file (get_attr "fileName" e) names, (ids ++ [z])%list)
    | None => Err TypeError
    end.

  (** ** History nodes *)

  (** xml_reader.py:95-121.  The creation time that createHistoryNode stores
      (0 here) is overwritten by setDate. *)
  Definition read_history_node (e : elem) : res hist :=
    let h := new_hist None (get_attr_val "logicalName" e) (get_attr_val "physicalName" e)
                      (get_attr_val "kind" e) 0 in
    let* st := get_attr_bool "testStatus" e in
    let h := hist_set HStatus st h in
    let* h := set_float_if_ex HSimTime "simtime" e h in
    let h := set_if_ex HTimeUnit "timeunit" e h in
    let h := set_if_ex HRunCwd "runCwd" e h in
    let* h := set_float_if_ex HCpuTime "cpuTime" e h in
    let h := set_if_ex HSeed "seed" e h in
    let h := set_if_ex HCmd "cmd" e h in
    let h := set_if_ex HArgs "args" e h in
    let h := set_if_ex HCompulsory "compulsory" e h in
    let* d := get_attr_date "date" e in
    let h := hist_set HDate d h in
    let h := set_if_ex HUserName "userName" e h in
    let* h := set_float_if_ex HCost "cost" e h in
    let* v := attrib "toolCategory" e in
    let h := hist_set HToolCategory (VStr v) h in
    let* v := attrib "vendorId" e in
    let h := hist_set HVendorId (VStr v) h in
    let* v := attrib "vendorTool" e in
    let h := hist_set HVendorTool (VStr v) h in
    let* v := attrib "vendorToolVersion" e in
    let h := hist_set HVendorToolVersion (VStr v) h in
    let* h := set_int_if_ex HSameTests "sameTests" e h in
    Ok (set_if_ex HComment "comment" e h).

  (** ** Covergroups *)

  Inductive slot :=
  | SInst (ci : scope)                            (* a covergroup instance *)
  | SPoint (name : string)                        (* a type-level coverpoint *)
  | SCross (name : string) (refs : list cpref).   (* a type-level cross *)

  (** cp_m: per coverpoint name, the position of the type-level coverpoint and
      its bins (kind, count); cr_m: per cross name, its bins. *)
  Definition cp_map := dict (nat * dict (N * Z)).
  Definition cr_map := dict (dict Z).

  (** xml_reader.py:304-314 *)
  Definition bin_kind_of (e : elem) : res N :=
    let t := get_attr_or "type" "default" e in
    if seqb t "bins" || seqb t "default" then Ok CVGBIN
    else if seqb t "ignore" then Ok IGNOREBIN
    else if seqb t "illegal" then Ok ILLEGALBIN
    else Err RaisedException.

  (** xml_reader.py:294-302 *)
  Definition bin_contents (e : elem) : res elem :=
    match iter "sequence" e, iter "range" e with
    | s :: _, _ => first_iter "contents" s
    | [], r :: _ => first_iter "contents" r
    | [], [] => Err RaisedException
    end.

  (** xml_reader.py:319-323 *)
  Definition tally (m : dict (N * Z)) (name : string) (kind : N) (count : Z) : dict (N * Z) :=
    match dget name m with
    | None => dset name (kind, count) m
    | Some (k, c) => dset name (k, (c + count)%Z) m
    end.

  (** xml_reader.py:291-331 readCoverpointBin: the bins created so far and the
      type-level tally *)
  Definition read_bin (st : list item * dict (N * Z)) (e : elem) : res (list item * dict (N * Z)) :=
    let '(items, m) := st in
    let* c := bin_contents e in
    let* kind := bin_kind_of e in
    let name := get_attr_or "name" "<unknown>" e in
    let* count := get_attr_int "coverageCount" c in
    Ok ((items ++ [new_bin name None 1 count kind])%list, tally m name kind count).

  (** xml_reader.py:391-394 *)
  Definition tally_cross (m : dict Z) (name : string) (count : Z) : dict Z :=
    match dget name m with
    | Some c => dset name (c + count)%Z m
    | None => dset name count m
    end.

  (** xml_reader.py:384-401 readCrossBin *)
  Definition read_cross_bin (st : list item * dict Z) (e : elem) : res (list item * dict Z) :=
    let '(items, m) := st in
    let name := get_attr_or "name" "default" e in
    let* c := first_iter "contents" e in
    let* count := get_attr_int "coverageCount" c in
    Ok ((items ++ [new_bin name None 1 count CVGBIN])%list, tally_cross m name count).

  (** The state while one cgInstance element is read: the type-level scopes added
      for it, the maps, the children of the new covergroup instance, and the
      positions of its coverpoints (cg_inst_cp_m). *)
  Record ist := Ist {
    i_new : list slot; i_cps : cp_map; i_crs : cr_map; i_kids : list scope; i_pos : dict nat }.

  Definition point_scope (name : string) (items : list item) : scope :=
    Scope (s_attrs (new_coverpoint name None 1 SRC_OTHER)) items [] [].
  Definition cross_scope (name : string) (refs : list cpref) (items : list item) : scope :=
    Scope (s_attrs (new_cross name None 1 SRC_OTHER refs)) items [] [].

  (** xml_reader.py:210-232 and 277-289 readCoverpointInst; [k] is the position
      of the covergroup instance in the covergroup. *)
  Definition read_coverpoint (k : nat) (st : ist) (e : elem) : res ist :=
    let name := get_attr_or "name" "<unknown>" e in
    let '(new, cps) :=
      if dmem name (i_cps st) then (i_new st, i_cps st)
      else ((i_new st ++ [SPoint name])%list,
            dset name (k + 1 + List.length (i_new st), []) (i_cps st)) in
    let* entry := dindex name cps in
    let* (items, m) := fold_res read_bin (iter "coverpointBin" e) ([], snd entry) in
    Ok (Ist new (dset name (fst entry, m) cps) (i_crs st)
            (i_kids st ++ [point_scope name items])%list
            (dset name (List.length (i_kids st)) (i_pos st))).

  (** xml_reader.py:240, 350: the name in a crossExpr element *)
  Definition expr_name (e : elem) : res string :=
    match e_text e with Some s => Ok (strip s) | None => Err AttributeError end.

  (** xml_reader.py:239-246 (type level) and 349-355 (instance level): resolve
      the crossExpr elements; [pos] gives the position of a coverpoint below
      [base]. *)
  Definition resolve (base : handle) (pos : string -> option nat) (e : elem) : res (list cpref) :=
    traverse (fun x => let* n := expr_name x in
                       match pos n with
                       | Some i => Ok (CpRef (base ++ [i])%list n)
                       | None => Err RaisedException
                       end) (iter "crossExpr" e).

  (** xml_reader.py:234-263 and 345-369 readCrossInst; [base] is the path of the
      covergroup. *)
  Definition read_cross (base : handle) (k : nat) (st : ist) (e : elem) : res ist :=
    let name := get_attr_or "name" "<unknown>" e in
    let* (new, crs) :=
      (if dmem name (i_crs st) then Ok (i_new st, i_crs st)
       else let* refs := resolve base (fun n => option_map fst (dget n (i_cps st))) e in
            Ok ((i_new st ++ [SCross name refs])%list, dset name [] (i_crs st))) in
    let* entry := dindex name crs in
    let* refs := resolve (base ++ [k])%list (fun n => dget n (i_pos st)) e in
    let* (items, m) := fold_res read_cross_bin (iter "crossBin" e) ([], entry) in
    Ok (Ist new (i_cps st) (dset name m crs)
            (i_kids st ++ [cross_scope name refs items])%list (i_pos st)).

  (** xml_reader.py:197-263: one cgInstance element *)
  Definition cg_state : Type := list slot * cp_map * cr_map.
  Definition read_cg_instance (base : handle) (st : cg_state) (e : elem) : res cg_state :=
    let '(slots, cps, crs) := st in
    let name := get_attr_or "name" "<unknown>" e in
    let k := List.length slots in
    let* i := fold_res (read_coverpoint k) (iter "coverpoint" e) (Ist [] cps crs [] []) in
    let* i := fold_res (read_cross base k) (iter "cross" e) i in
    let ci := Scope (s_attrs (new_coverinstance name None 1 SRC_OTHER)) [] [] (i_kids i) in
    Ok ((slots ++ SInst ci :: i_new i)%list, i_cps i, i_crs i).

  (** xml_reader.py:333-343 populateCoverpointType, 371-382 populateCrossType *)
  Definition type_bins (m : dict (N * Z)) : list item :=
    map (fun x : string * (N * Z) => new_bin (fst x) None 1 (snd (snd x)) (fst (snd x))) m.
  Definition type_cross_bins (m : dict Z) : list item :=
    map (fun x : string * Z => new_bin (fst x) None 1 (snd x) CVGBIN) m.
  Definition fill (cps : cp_map) (crs : cr_map) (s : slot) : scope :=
    match s with
    | SInst ci => ci
    | SPoint n => point_scope n (match dget n cps with Some (_, m) => type_bins m | None => [] end)
    | SCross n refs => cross_scope n refs (match dget n crs with Some m => type_cross_bins m | None => [] end)
    end.

  (** xml_reader.py:180-275: one covergroup type with its cgInstance elements *)
  Definition read_covergroup (base : handle) (name : string) (l : list elem) : res scope :=
    let* (sc, crs) := fold_res (read_cg_instance base) l ([], [], []) in
    let '(slots, cps) := sc in
    Ok (Scope (s_attrs (new_covergroup name None 1 SRC_OTHER)) [] [] (map (fill cps crs) slots)).

  (** xml_reader.py:166-170 *)
  Definition type_name (e : elem) : string :=
    match iter "cgId" e with
    | x :: _ => get_attr_or "cgName" "xxx" x
    | [] => "default"
    end.
  (** xml_reader.py:161-175: the cgInstance elements by type name *)
  Definition by_type (l : list elem) : dict (list elem) :=
    fold_left (fun m e => match dget (type_name e) m with
                          | Some es => dset (type_name e) (es ++ [e])%list m
                          | None => dset (type_name e) [e] m
                          end) l [].

  (** xml_reader.py:151-188 readCovergroups: adds covergroups to those of the
      instance at position [i] of the root *)
  Definition read_covergroups (i : nat) (cgs : list scope) (e : elem) : res (list scope) :=
    fold_res (fun cgs (x : string * list elem) =>
                let* g := read_covergroup [i; List.length cgs] (fst x) (snd x) in
                Ok (cgs ++ [g])%list)
             (by_type (iter "cgInstance" e)) cgs.

  (** ** Instances *)

  Inductive rslot :=
  | RDu (name : string)
  | RInst (name : string) (du : nat).

  (** The children of the database, module_scope_m, and inst_scope_m with the
      covergroups of each instance. *)
  Record rst := Rst { r_slots : list rslot; r_mods : dict nat; r_insts : dict (nat * list scope) }.

  (** xml_reader.py:405-410 readStatementId; the result is not used *)
  Definition check_id (ids : list Z) (e : elem) : res unit :=
    let* f := get_attr_int "file" e in
    let* _ := get_attr_int "line" e in
    let* _ := get_attr_int "inlineCount" e in
    if existsb (Z.eqb f) ids then Ok tt else Err KeyError.

  (** xml_reader.py:412-432 getScope *)
  Definition get_scope (name : string) (st : rst) : rst * nat :=
    match dget name (r_mods st) with
    | Some i => (st, i)
    | None => let i := List.length (r_slots st) in
              (Rst (r_slots st ++ [RDu name])%list (dset name i (r_mods st)) (r_insts st), i)
    end.

  (** xml_reader.py:434-452 getInstScope *)
  Definition get_inst_scope (name : string) (du : nat) (st : rst) : rst * (nat * list scope) :=
    match dget name (r_insts st) with
    | Some x => (st, x)
    | None => let x := (List.length (r_slots st), []) in
              (Rst (r_slots st ++ [RInst name du])%list (r_mods st) (dset name x (r_insts st)), x)
    end.

  (** xml_reader.py:123-147 readInstanceCoverage *)
  Definition read_instance (ids : list Z) (st : rst) (e : elem) : res rst :=
    let* name := attrib "name" e in
    let* _ := traverse (check_id ids) (iter "id" e) in
    let '(st, du) := get_scope (get_attr_or "moduleName" "default" e) st in
    let '(st, x) := get_inst_scope name du st in
    let* cgs := fold_res (read_covergroups (fst x)) (iter "covergroupCoverage" e) (snd x) in
    Ok (Rst (r_slots st) (r_mods st) (dset name (fst x, cgs) (r_insts st))).

  Definition rfill (insts : dict (nat * list scope)) (s : rslot) : scope :=
    match s with
    | RDu n => new_mem_scope n None 1 SRC_OTHER DU_MODULE DU_FLAGS
    | RInst n du =>
        Scope (s_attrs (new_instance n None 1 SRC_OTHER INSTANCE (Some [du]) INST_ONCE)) [] []
              (match dget n insts with Some (_, cgs) => cgs | None => [] end)
    end.

  (** xml_reader.py:57-80 read *)
  Definition read (doc : elem) : res db :=
    let* (names, ids) := fold_res read_source_file (iter "sourceFiles" doc) ([], []) in
    let* hists := traverse read_history_node (iter "historyNodes" doc) in
    let* st := fold_res (read_instance ids) (iter "instanceCoverages" doc) (Rst [] [] []) in
    Ok (Db (Scope (s_attrs (db_root empty_db)) [] [] (map (rfill (r_insts st)) (r_slots st))) names hists).
End Reader.
