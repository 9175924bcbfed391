(** One XmlReader object that is used on after a document has raised
    (ucis/xml/xml_reader.py).  What [read] (xml_reader.py:57-80) has done to the reader's
    maps and to the scopes in them stays: the file ids, the design units, the instances,
    and in the instances the covergroups read so far, the last of them unfinished.

    A step of the reader takes a state and gives the new one, and the exception it ended
    with if any.  Simplified: a document here has been parsed (one that does not parse
    leaves the reader as it was, xml_reader.py:58); the files and history nodes of the
    database of a document that raised are left out, the caller never gets it. *)
From Verif Require Import Base Dict Consts Db Hist PyInt Dates Xml XmlReader XmlSession.
Set Implicit Arguments.
Local Open Scope string_scope.

Definition outcome : Type := option exn.

Section Steps.
  Variables A S : Type.
  (** A for loop: it ends with the first exception. *)
  Fixpoint run_steps (f : S -> A -> S * outcome) (l : list A) (s : S) : S * outcome :=
    match l with
    | [] => (s, None)
    | x :: t => match f s x with
                | (s', None) => run_steps f t s'
                | (s', Some e) => (s', Some e)
                end
    end.
  (** A step that changes nothing when it raises. *)
  Definition whole (f : S -> A -> res S) (s : S) (x : A) : S * outcome :=
    match f s x with Ok s' => (s', None) | Err e => (s, Some e) end.
End Steps.

Section Resume.
  Variable to_float : string -> option string.

  (** xml_reader.py:210-232 and 277-289: the coverpoint is there before its bins *)
  Definition coverpoint_step (k : nat) (st : ist) (e : elem) : ist * outcome :=
    let name := get_attr_or "name" "<unknown>" e in
    let '(new, cps) :=
      if dmem name (i_cps st) then (i_new st, i_cps st)
      else ((i_new st ++ [SPoint name])%list,
            dset name (k + 1 + List.length (i_new st), []) (i_cps st)) in
    match dget name cps with
    | None => (st, Some KeyError)                                        (* never: it has just been put there *)
    | Some entry =>
        let '(x, r) := run_steps (whole read_bin) (iter "coverpointBin" e) ([], snd entry) in
        (Ist new (dset name (fst entry, snd x) cps) (i_crs st)
             (i_kids st ++ [point_scope name (fst x)])%list
             (match r with None => dset name (List.length (i_kids st)) (i_pos st) | Some _ => i_pos st end), r)
    end.

  (** xml_reader.py:345-369 readCrossInst, for the type-level cross [name] *)
  Definition cross_inst_step (base : handle) (k : nat) (name : string) (st : ist) (e : elem) : ist * outcome :=
    match resolve (base ++ [k])%list (fun n => dget n (i_pos st)) e with
    | Err x => (st, Some x)
    | Ok refs =>
        match dget name (i_crs st) with
        | None => (st, Some KeyError)                                    (* never: it has just been put there *)
        | Some entry =>
            let '(x, r) := run_steps (whole read_cross_bin) (iter "crossBin" e) ([], entry) in
            (Ist (i_new st) (i_cps st) (dset name (snd x) (i_crs st))
                 (i_kids st ++ [cross_scope name refs (fst x)])%list (i_pos st), r)
        end
    end.
  (** xml_reader.py:234-263 *)
  Definition cross_step (base : handle) (k : nat) (st : ist) (e : elem) : ist * outcome :=
    let name := get_attr_or "name" "<unknown>" e in
    if dmem name (i_crs st) then cross_inst_step base k name st e
    else match resolve base (fun n => option_map fst (dget n (i_cps st))) e with
         | Err x => (st, Some x)
         | Ok refs => cross_inst_step base k name
                        (Ist (i_new st ++ [SCross name refs])%list (i_cps st) (dset name [] (i_crs st)) (i_kids st) (i_pos st)) e
         end.

  (** xml_reader.py:197-263: one cgInstance element *)
  Definition cg_instance_step (base : handle) (st : cg_state) (e : elem) : cg_state * outcome :=
    let '(slots, cps, crs) := st in
    let name := get_attr_or "name" "<unknown>" e in
    let k := List.length slots in
    let '(i, r) :=
      match run_steps (coverpoint_step k) (iter "coverpoint" e) (Ist [] cps crs [] []) with
      | (i, None) => run_steps (cross_step base k) (iter "cross" e) i
      | (i, Some x) => (i, Some x)
      end in
    let ci := Scope (s_attrs (new_coverinstance name None 1 SRC_OTHER)) [] [] (i_kids i) in
    ((slots ++ SInst ci :: i_new i)%list, i_cps i, i_crs i, r).

  (** xml_reader.py:180-275: the bins of the type-level coverpoints and crosses are
      created at the end, so a covergroup that is not finished has none *)
  Definition covergroup_step (base : handle) (name : string) (l : list elem) : scope * outcome :=
    let '(st, r) := run_steps (cg_instance_step base) l ([], [], []) in
    let '(slots, cps, crs) := st in
    (Scope (s_attrs (new_covergroup name None 1 SRC_OTHER)) [] []
           (map (match r with None => fill cps crs | Some _ => fill [] [] end) slots), r).

  (** xml_reader.py:151-188 readCovergroups *)
  Definition covergroups_step (i : nat) (cgs : list scope) (e : elem) : list scope * outcome :=
    run_steps (fun cgs (x : string * list elem) =>
                 let '(g, r) := covergroup_step [i; List.length cgs] (fst x) (snd x) in
                 ((cgs ++ [g])%list, r))
              (by_type (iter "cgInstance" e)) cgs.

  (** xml_reader.py:123-147 readInstanceCoverage *)
  Definition instance_step (k : nat) (ids : list Z) (st : xst) (e : elem) : xst * outcome :=
    match attrib "name" e with
    | Err x => (st, Some x)
    | Ok name =>
        match traverse (check_id ids) (iter "id" e) with
        | Err x => (st, Some x)
        | Ok _ =>
            let '(st, du) := scope_in k (get_attr_or "moduleName" "default" e) st in
            let '(st, x) := inst_in k name du st in
            let '(cgs, r) := run_steps (covergroups_step (snd (fst x))) (iter "covergroupCoverage" e) (snd x) in
            (Xst (xs_slots st) (xs_mods st) (dset name (fst x, cgs) (xs_insts st)), r)
        end
    end.

  (** xml_reader.py:57-80 read, for a reader that has been used *)
  Definition read_step (se : session) (doc : elem) : session * outcome :=
    let k := List.length (x_dbs se) in
    match run_steps (whole read_source_file) (iter "sourceFiles" doc) ([], x_ids se) with
    | ((_, ids), Some x) => (Session ids (x_mods se) (x_insts se) (x_dbs se ++ [([], [], [])])%list, Some x)
    | ((names, ids), None) =>
        match traverse (read_history_node to_float) (iter "historyNodes" doc) with
        | Err x => (Session ids (x_mods se) (x_insts se) (x_dbs se ++ [([], [], [])])%list, Some x)
        | Ok hists =>
            let '(st, r) := run_steps (instance_step k ids) (iter "instanceCoverages" doc) (Xst [] (x_mods se) (x_insts se)) in
            let '(names, hists) := match r with None => (names, hists) | Some _ => ([], []) end in
            (Session ids (xs_mods st) (xs_insts st) (x_dbs se ++ [(names, hists, xs_slots st)])%list, r)
        end
    end.

  (** A caller that goes on after every exception: the state of the reader, and how each
      reading ended. *)
  Fixpoint read_on (docs : list elem) (se : session) : session * list outcome :=
    match docs with
    | [] => (se, [])
    | d :: t => let '(se, r) := read_step se d in
                let '(se, rs) := read_on t se in
                (se, r :: rs)
    end.
  (** What the caller holds afterwards: a database per document that did not raise. *)
  Fixpoint held (rs : list outcome) (ds : list db) : list (option db) :=
    match rs, ds with
    | r :: rs, d :: ds => (match r with None => Some d | Some _ => None end) :: held rs ds
    | _, _ => []
    end.
  Definition read_on_all (docs : list elem) : list (option db) :=
    let '(se, rs) := read_on docs new_session in held rs (databases se).
End Resume.
