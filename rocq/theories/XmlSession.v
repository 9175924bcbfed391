(** One XmlReader object that reads several documents (ucis/xml/xml_reader.py).  The
    reader's maps of files, design units and instances are set up once, in the
    constructor (xml_reader.py:46-50), and are not cleared by [read]
    (xml_reader.py:57-80).

    Simplified: a session is given up at the first document that raises ([XmlResume] goes
    on).  A handle
    cannot express a design unit of another database; the instance then shows no
    design unit, and [foreign] lists it. *)
From Verif Require Import Base Dict Consts Db Hist PyInt Dates Xml XmlReader.
Set Implicit Arguments.
Local Open Scope string_scope.

Section Session.
  Variable to_float : string -> option string.

  (** Where a scope is: the number of its database in the session, and its position. *)
  Definition spot : Type := nat * nat.
  Inductive xslot := XDu (name : string) | XInst (name : string) (du : spot).

  (** The scopes of the database being read, module_scope_m, and inst_scope_m with
      the covergroups of each instance. *)
  Record xst := Xst { xs_slots : list xslot; xs_mods : dict spot; xs_insts : dict (spot * list scope) }.
  (** file_m (the ids known), both maps, and per database its files, history and scopes. *)
  Record session := Session {
    x_ids : list Z; x_mods : dict spot; x_insts : dict (spot * list scope);
    x_dbs : list (list string * list hist * list xslot) }.
  Definition new_session : session := Session [] [] [] [].                 (* xml_reader.py:46-50 *)

  (** xml_reader.py:412-432 getScope; [k] is the number of the current database *)
  Definition scope_in (k : nat) (name : string) (st : xst) : xst * spot :=
    match dget name (xs_mods st) with
    | Some x => (st, x)
    | None => let x := (k, List.length (xs_slots st)) in
              (Xst (xs_slots st ++ [XDu name])%list (dset name x (xs_mods st)) (xs_insts st), x)
    end.
  (** xml_reader.py:434-452 getInstScope *)
  Definition inst_in (k : nat) (name : string) (du : spot) (st : xst) : xst * (spot * list scope) :=
    match dget name (xs_insts st) with
    | Some x => (st, x)
    | None => let x := ((k, List.length (xs_slots st)), []) in
              (Xst (xs_slots st ++ [XInst name du])%list (xs_mods st) (dset name x (xs_insts st)), x)
    end.
  (** xml_reader.py:123-147 readInstanceCoverage *)
  Definition instance_in (k : nat) (ids : list Z) (st : xst) (e : elem) : res xst :=
    let* name := attrib "name" e in
    let* _ := traverse (check_id ids) (iter "id" e) in
    let '(st, du) := scope_in k (get_attr_or "moduleName" "default" e) st in
    let '(st, x) := inst_in k name du st in
    let* cgs := fold_res (read_covergroups (snd (fst x))) (iter "covergroupCoverage" e) (snd x) in
    Ok (Xst (xs_slots st) (xs_mods st) (dset name (fst x, cgs) (xs_insts st))).

  (** xml_reader.py:57-80 read, for a reader that has been used *)
  Definition read_next (se : session) (doc : elem) : res session :=
    let k := List.length (x_dbs se) in
    let* (names, ids) := fold_res read_source_file (iter "sourceFiles" doc) ([], x_ids se) in
    let* hists := traverse (read_history_node to_float) (iter "historyNodes" doc) in
    let* st := fold_res (instance_in k ids) (iter "instanceCoverages" doc) (Xst [] (x_mods se) (x_insts se)) in
    Ok (Session ids (xs_mods st) (xs_insts st) (x_dbs se ++ [(names, hists, xs_slots st)])%list).
  Definition read_all (docs : list elem) : res session := fold_res read_next docs new_session.

  (** ** The databases the caller holds after the session *)
  Definition fill_in (k : nat) (insts : dict (spot * list scope)) (s : xslot) : scope :=
    match s with
    | XDu n => new_mem_scope n None 1 SRC_OTHER DU_MODULE DU_FLAGS
    | XInst n (j, p) =>
        Scope (s_attrs (new_instance n None 1 SRC_OTHER INSTANCE (if Nat.eqb j k then Some [p] else None) INST_ONCE)) [] []
              (match dget n insts with Some (_, cgs) => cgs | None => [] end)
    end.
  Definition database (se : session) (k : nat) (x : list string * list hist * list xslot) : db :=
    Db (Scope (s_attrs (db_root empty_db)) [] [] (map (fill_in k (x_insts se)) (snd x))) (fst (fst x)) (snd (fst x)).
  Fixpoint databases_from (se : session) (k : nat) (l : list (list string * list hist * list xslot)) : list db :=
    match l with
    | [] => []
    | x :: t => database se k x :: databases_from se (S k) t
    end.
  Definition databases (se : session) : list db := databases_from se 0 (x_dbs se).
  (** The instances of database [k] whose design unit belongs to another one. *)
  Definition foreign (k : nat) (x : list string * list hist * list xslot) : list (string * spot) :=
    flat_map (fun s => match s with XInst n (j, p) => if Nat.eqb j k then [] else [(n, (j, p))] | XDu _ => [] end) (snd x).
End Session.
