(** The XML reader as the program it is (ucis/xml/xml_reader.py): it makes the database by
    API calls, one after the other, and keeps the objects they return in its maps.
    [XmlReader] gives the same databases without the calls; P_XmlCalls proves it.

    For a new XmlReader object.  The state is self.db; the maps, which only this code uses,
    are passed on as values.  Attributes and elements are read by the functions of
    [XmlReader] that make no calls. *)
From Verif Require Import Base Dict Consts Db Hist PyInt Dates Xml XmlReader Api YamlCalls.
Set Implicit Arguments.
Local Open Scope string_scope.
Local Open Scope list_scope.

Section Calls.
  Variable to_float : string -> option string.

  (** xml_reader.py:87-93, for file_m the list of its keys.  As in [XmlReader], a handle
      without a name is left out. *)
  Definition file_calls (ids : list Z) (e : elem) : ST db (list Z) :=
    z <- slift (match get_attr "id" e with Some i => py_int i | None => Err TypeError end) ;;
    match get_attr "fileName" e with Some f => call (CreateFileHandle f) ;;; sret tt | None => sret tt end ;;;
    sret (ids ++ [z]).

  (** xml_reader.py:475-485 *)
  Definition set_call (i : nat) (f : hist_field) (v : pyval) : ST db unit := call (SetHist i f v) ;;; sret tt.
  Definition set_ex (i : nat) (f : hist_field) (name : string) (e : elem) : ST db unit :=
    match get_attr name e with Some v => set_call i f (VStr v) | None => sret tt end.
  Definition set_int_ex (i : nat) (f : hist_field) (name : string) (e : elem) : ST db unit :=
    match get_attr name e with Some v => z <- slift (py_int v) ;; set_call i f (VInt z) | None => sret tt end.
  Definition set_float_ex (i : nat) (f : hist_field) (name : string) (e : elem) : ST db unit :=
    match get_attr name e with
    | Some v => x <- slift (match to_float v with Some x => Ok x | None => Err ValueError end) ;; set_call i f (VFloat x)
    | None => sret tt
    end.

  (** xml_reader.py:95-121; the time of the call is overwritten by setDate *)
  Definition hist_calls (e : elem) : ST db unit :=
    r <- call (CreateHistoryNode None (get_attr_val "logicalName" e) (get_attr_val "physicalName" e) (get_attr_val "kind" e) 0) ;;
    i <- match r with OHist i => sret i | _ => sraise TypeError end ;;
    st <- slift (get_attr_bool "testStatus" e) ;; set_call i HStatus st ;;;
    set_float_ex i HSimTime "simtime" e ;;;
    set_ex i HTimeUnit "timeunit" e ;;;
    set_ex i HRunCwd "runCwd" e ;;;
    set_float_ex i HCpuTime "cpuTime" e ;;;
    set_ex i HSeed "seed" e ;;;
    set_ex i HCmd "cmd" e ;;;
    set_ex i HArgs "args" e ;;;
    set_ex i HCompulsory "compulsory" e ;;;
    d <- slift (get_attr_date "date" e) ;; set_call i HDate d ;;;
    set_ex i HUserName "userName" e ;;;
    set_float_ex i HCost "cost" e ;;;
    v <- slift (attrib "toolCategory" e) ;; set_call i HToolCategory (VStr v) ;;;
    v <- slift (attrib "vendorId" e) ;; set_call i HVendorId (VStr v) ;;;
    v <- slift (attrib "vendorTool" e) ;; set_call i HVendorTool (VStr v) ;;;
    v <- slift (attrib "vendorToolVersion" e) ;; set_call i HVendorToolVersion (VStr v) ;;;
    set_int_ex i HSameTests "sameTests" e ;;;
    set_ex i HComment "comment" e.

  (** xml_reader.py:291-331 readCoverpointBin; [m] is cp_type_i[1] *)
  Definition cp_bin_calls (p : handle) (m : dict (N * Z)) (e : elem) : ST db (dict (N * Z)) :=
    c <- slift (bin_contents e) ;;
    kind <- slift (bin_kind_of e) ;;
    let name := get_attr_or "name" "<unknown>" e in
    count <- slift (get_attr_int "coverageCount" c) ;;
    call (CreateBin p name None 1 count kind) ;;;
    sret (tally m name kind count).
  (** xml_reader.py:384-401 readCrossBin *)
  Definition cr_bin_calls (p : handle) (m : dict Z) (e : elem) : ST db (dict Z) :=
    let name := get_attr_or "name" "default" e in
    c <- slift (first_iter "contents" e) ;;
    count <- slift (get_attr_int "coverageCount" c) ;;
    call (CreateBin p name None 1 count CVGBIN) ;;;
    sret (tally_cross m name count).

  (** xml_reader.py:210-232 with 277-289; [fst st] is cp_m, [snd st] is cg_inst_cp_m *)
  Definition cp_calls (cg ci : handle) (st : dict (handle * dict (N * Z)) * dict handle) (e : elem)
    : ST db (dict (handle * dict (N * Z)) * dict handle) :=
    let name := get_attr_or "name" "<unknown>" e in
    cps <- (if dmem name (fst st) then sret (fst st)
            else t <- made (CreateCoverpoint cg name None 1 SRC_OTHER) ;; sret (dset name (t, []) (fst st))) ;;
    entry <- slift (dindex name cps) ;;
    p <- made (CreateCoverpoint ci name None 1 SRC_OTHER) ;;
    m <- sfold (cp_bin_calls p) (iter "coverpointBin" e) (snd entry) ;;
    sret (dset name (fst entry, m) cps, dset name p (snd st)).

  (** xml_reader.py:238-246 and 348-355 *)
  Definition cross_points (m : string -> option handle) (e : elem) : res (list handle) :=
    traverse (fun x => let* n := expr_name x in
                       match m n with Some h => Ok h | None => Err RaisedException end) (iter "crossExpr" e).

  (** xml_reader.py:234-263 with 345-369; the state is cr_m *)
  Definition cr_calls (cg ci : handle) (cps : dict (handle * dict (N * Z))) (here : dict handle)
    (crs : dict (handle * dict Z)) (e : elem) : ST db (dict (handle * dict Z)) :=
    let name := get_attr_or "name" "<unknown>" e in
    crs <- (if dmem name crs then sret crs
            else l <- slift (cross_points (fun n => option_map fst (dget n cps)) e) ;;
                 t <- made (CreateCross cg name None 1 SRC_OTHER l) ;; sret (dset name (t, []) crs)) ;;
    entry <- slift (dindex name crs) ;;
    l <- slift (cross_points (fun n => dget n here) e) ;;
    c <- made (CreateCross ci name None 1 SRC_OTHER l) ;;
    m <- sfold (cr_bin_calls c) (iter "crossBin" e) (snd entry) ;;
    sret (dset name (fst entry, m) crs).

  (** xml_reader.py:197-263: one cgInstance element *)
  Definition cgi_calls (cg : handle) (st : dict (handle * dict (N * Z)) * dict (handle * dict Z)) (e : elem)
    : ST db (dict (handle * dict (N * Z)) * dict (handle * dict Z)) :=
    ci <- made (CreateCoverInstance cg (get_attr_or "name" "<unknown>" e) None 1 SRC_OTHER) ;;
    ps <- sfold (cp_calls cg ci) (iter "coverpoint" e) (fst st, []) ;;
    crs <- sfold (cr_calls cg ci (fst ps) (snd ps)) (iter "cross" e) (snd st) ;;
    sret (fst ps, crs).

  (** xml_reader.py:190-275 readCovergroup with 333-343 and 371-382 *)
  Definition cg_calls (cg : handle) (l : list elem) : ST db unit :=
    ms <- sfold (cgi_calls cg) l ([], []) ;;
    sfor (fun x : string * (handle * dict (N * Z)) =>
            sfor (fun b : string * (N * Z) => call (CreateBin (fst (snd x)) (fst b) None 1 (snd (snd b)) (fst (snd b))) ;;; sret tt)
                 (snd (snd x))) (fst ms) ;;;
    sfor (fun x : string * (handle * dict Z) =>
            sfor (fun b : string * Z => call (CreateBin (fst (snd x)) (fst b) None 1 (snd b) CVGBIN) ;;; sret tt)
                 (snd (snd x))) (snd ms).

  (** xml_reader.py:151-188 readCovergroups *)
  Definition cgs_calls (inst : handle) (e : elem) : ST db unit :=
    sfor (fun x : string * list elem =>
            cg <- made (CreateCovergroup inst (fst x) None 1 SRC_OTHER) ;; cg_calls cg (snd x))
         (by_type (iter "cgInstance" e)).

  (** xml_reader.py:123-147 with 412-452; [fst st] is module_scope_m, [snd st] is inst_scope_m *)
  Definition ic_calls (ids : list Z) (st : dict handle * dict handle) (e : elem) : ST db (dict handle * dict handle) :=
    name <- slift (attrib "name" e) ;;
    slift (traverse (check_id ids) (iter "id" e)) ;;;
    let mname := get_attr_or "moduleName" "default" e in
    mods <- (if dmem mname (fst st) then sret (fst st)
             else t <- made (CreateScope [] mname None 1 SRC_OTHER DU_MODULE DU_FLAGS) ;; sret (dset mname t (fst st))) ;;
    du <- slift (dindex mname mods) ;;
    insts <- (if dmem name (snd st) then sret (snd st)
              else t <- made (CreateInstance [] name None 1 SRC_OTHER INSTANCE (Some du) INST_ONCE) ;; sret (dset name t (snd st))) ;;
    inst <- slift (dindex name insts) ;;
    sfor (cgs_calls inst) (iter "covergroupCoverage" e) ;;;
    sret (mods, insts).

  (** xml_reader.py:57-80 read, on the new database *)
  Definition read_calls (doc : elem) : ST db unit :=
    ids <- sfold file_calls (iter "sourceFiles" doc) [] ;;
    sfor hist_calls (iter "historyNodes" doc) ;;;
    sfold (ic_calls ids) (iter "instanceCoverages" doc) ([], []) ;;; sret tt.
End Calls.
