(** What is wrong with an XML document that cannot be read, in the order in which it is
    read: the exceptions, one for each thing that is wrong. *)
From Verif Require Import Base Dict Consts Db NameSpec PyInt Dates Xml XmlDocSpec XmlMeans.
Set Implicit Arguments.
Local Open Scope string_scope.
Local Open Scope list_scope.

(** Attributes that are needed, that have to be integers, and that may be left out *)
Definition int_faults (v : string) : list exn := match py_int v with Ok _ => [] | Err _ => [ValueError] end.
Definition needed (name : string) (e : elem) : list exn := match get_attr name e with Some _ => [] | None => [KeyError] end.
Definition needed_int (name : string) (e : elem) : list exn := match get_attr name e with Some v => int_faults v | None => [KeyError] end.
Definition optional (name : string) (e : elem) (faults : string -> list exn) : list exn :=
  match get_attr name e with Some v => faults v | None => [] end.

Definition file_faults (e : elem) : list exn := match get_attr "id" e with Some v => int_faults v | None => [TypeError] end.
(** The numbers of the files *)
Definition numbers (l : list elem) : list Z :=
  flat_map (fun e => match get_attr "id" e with Some v => match py_int v with Ok z => [z] | Err _ => [] end | None => [] end) l.

Section Floats.
  Variable to_float : string -> option string.
  Definition float_faults (v : string) : list exn := match to_float v with Some _ => [] | None => [ValueError] end.
  Definition time_faults (e : elem) : list exn :=
    match get_attr "date" e with
    | Some v => match strptime m_iso v with Ok _ => [] | Err _ => [ValueError] end
    | None => [TypeError]
    end.
  Definition node_faults (e : elem) : list exn :=
    needed "testStatus" e ++ optional "simtime" e float_faults ++ optional "cpuTime" e float_faults ++ time_faults e ++
    optional "cost" e float_faults ++ needed "toolCategory" e ++ needed "vendorId" e ++ needed "vendorTool" e ++
    needed "vendorToolVersion" e ++ optional "sameTests" e int_faults.
End Floats.

(** Bins *)
Definition count_faults (e : elem) : list exn := needed_int "coverageCount" e.
Definition kind_faults (e : elem) : list exn :=
  optional "type" e (fun t => if existsb (seqb t) ["bins"; "default"; "ignore"; "illegal"] then [] else [RaisedException]).
Definition pbin_faults (e : elem) : list exn :=
  match iter "sequence" e ++ iter "range" e with
  | [] => [RaisedException]
  | s :: _ => match iter "contents" s with [] => [StopIteration] | c :: _ => kind_faults e ++ count_faults c end
  end.
Definition xbin_faults (e : elem) : list exn :=
  match iter "contents" e with [] => [StopIteration] | c :: _ => count_faults c end.

(** The coverpoints of a cross, which have to be among [names] *)
Definition expr_faults (names : list string) (e : elem) : list exn :=
  match e_text e with
  | None => [AttributeError]
  | Some s => if existsb (seqb (strip s)) names then [] else [RaisedException]
  end.
(** The crosses of a cgInstance with the coverpoints [own].  A cross with a name that
    is new in its covergroup is first looked up among [known], the coverpoints of
    the cgInstance and of those of the same type before it. *)
Fixpoint crosses_faults (known own seen : list string) (l : list elem) : list exn :=
  match l with
  | [] => []
  | x :: l =>
      (if existsb (seqb (elem_name x)) seen then [] else flat_map (expr_faults known) (iter "crossExpr" x)) ++
      flat_map (expr_faults own) (iter "crossExpr" x) ++ flat_map xbin_faults (iter "crossBin" x) ++
      crosses_faults known own (elem_name x :: seen) l
  end.
Definition names_of (tag : string) (e : elem) : list string := map elem_name (iter tag e).
(** The cgInstances of one covergroup, after others with these coverpoints and crosses *)
Fixpoint type_faults (known seen : list string) (l : list elem) : list exn :=
  match l with
  | [] => []
  | g :: l =>
      flat_map (fun p => flat_map pbin_faults (iter "coverpointBin" p)) (iter "coverpoint" g) ++
      crosses_faults (names_of "coverpoint" g ++ known) (names_of "coverpoint" g) seen (iter "cross" g) ++
      type_faults (names_of "coverpoint" g ++ known) (names_of "cross" g ++ seen) l
  end.
(** The covergroups of a covergroupCoverage element, by type *)
Definition coverage_faults (c : elem) : list exn :=
  flat_map (fun t => type_faults [] [] (named group_type t (iter "cgInstance" c))) (nub (map group_type (iter "cgInstance" c))).

Definition id_faults (ids : list Z) (e : elem) : list exn :=
  needed_int "file" e ++ needed_int "line" e ++ needed_int "inlineCount" e ++
  optional "file" e (fun v => match py_int v with Ok z => if existsb (Z.eqb z) ids then [] else [KeyError] | Err _ => [] end).
Definition instance_faults (ids : list Z) (e : elem) : list exn :=
  needed "name" e ++ flat_map (id_faults ids) (iter "id" e) ++ flat_map coverage_faults (iter "covergroupCoverage" e).

Definition doc_faults (to_float : string -> option string) (doc : elem) : list exn :=
  flat_map file_faults (iter "sourceFiles" doc) ++ flat_map (node_faults to_float) (iter "historyNodes" doc) ++
  flat_map (instance_faults (numbers (iter "sourceFiles" doc))) (iter "instanceCoverages" doc).
