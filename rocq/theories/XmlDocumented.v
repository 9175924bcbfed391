(** The XML interchange format as doc/source/reference/xml_interchange.rst
    describes it, over documents only; written without reference to the reader
    and the writer. *)
From Verif Require Import Base Dict Consts Db NameSpec ReportSpec MergeSpec PyInt Xml XmlSpec XmlDocSpec XmlMeans.
Set Implicit Arguments.
Local Open Scope string_scope.
Local Open Scope list_scope.

(** ** Writing: groups, coverpoints and their bins *)

(** "the bin type as one of bins, ignore, illegal" *)
Definition kind_word (k : N) : option string :=
  if N.eqb k 1 then Some "bins"
  else if N.eqb k (2 ^ 19) then Some "ignore"
  else if N.eqb k (2 ^ 20) then Some "illegal"
  else None.
(** [e] is the coverpointBin of the bin [i]; "both bounds of the range as -1". *)
Definition shows_bin (i : item) (e : elem) : Prop :=
  get_attr "name" e = Some (ci_name i) /\
  kind_word (cd_type (ci_data i)) <> None /\ get_attr "type" e = kind_word (cd_type (ci_data i)) /\
  iter "sequence" e = [] /\
  exists r c, iter "range" e = [r] /\ get_attr "from" r = Some "-1" /\ get_attr "to" r = Some "-1" /\
              iter "contents" r = [c] /\ get_attr "coverageCount" c = Some (show_int (cd_data (ci_data i))).
Definition shows_point (p : scope) (e : elem) : Prop :=
  get_attr "name" e = Some (s_name p) /\ Forall2 shows_bin (all_bins p) (iter "coverpointBin" e).

(** The name and the count of a cross bin. *)
Definition shows_xbin (i : item) (e : elem) : Prop :=
  get_attr "name" e = Some (ci_name i) /\
  exists c, iter "contents" e = [c] /\ get_attr "coverageCount" c = Some (show_int (cd_data (ci_data i))).
Definition shows_cross (x : scope) (e : elem) : Prop :=
  get_attr "name" e = Some (s_name x) /\
  map e_text (iter "crossExpr" e) = map Some (crossed_names x) /\
  Forall2 shows_xbin (all_bins x) (iter "crossBin" e).

(** The data of [g] under its own name; "the cgId section inside the cgInstance
    specifies the associated covergroup type". *)
Definition shows_group (type : string) (g : scope) (e : elem) : Prop :=
  get_attr "name" e = Some (s_name g) /\
  (exists x, iter "cgId" e = [x] /\ get_attr "cgName" x = Some type) /\
  Forall2 shows_point (coverpoints g) (iter "coverpoint" e) /\
  Forall2 shows_cross (crosses g) (iter "cross" e).
(** "When instance coverage is being recorded, all cgInstance sections contain
    instance data"; "when instance coverage is not being recorded, only a single
    cgInstance section is written.  This section contains type data." *)
Definition shows_type (t : scope) (e : elem) : Prop :=
  (coverinstances t <> [] -> Forall2 (shows_group (s_name t)) (coverinstances t) (iter "cgInstance" e)) /\
  (coverinstances t = [] -> exists x, iter "cgInstance" e = [x] /\ shows_group (s_name t) t x).
Definition shows_inst (i : scope) (e : elem) : Prop :=
  get_attr "name" e = Some (s_name i) /\ Forall2 shows_type (covergroups i) (iter "covergroupCoverage" e).
Definition shows_db (d : db) (doc : elem) : Prop :=
  Forall2 shows_inst (instances (db_root d)) (iter "instanceCoverages" doc).

(** ** Writing: the module, the options, the cross bins *)

(** [<cgId cgName="my_covergroup" moduleName="top">]: the covergroup type
    top::my_covergroup. *)
Definition names_module (doc : elem) (modules : list string) : Prop :=
  Forall2 (fun e m => Forall (fun x => get_attr "moduleName" x = Some m) (iter "cgId" e))
          (iter "instanceCoverages" doc) modules.

(** "When writing XML, PyUCIS emits auto_bin_max=0"; also weight and at_least of
    coverpoints are said to be recorded. *)
Definition has_option (n : string) (e : elem) : Prop :=
  exists o, In o (e_kids e) /\ e_tag o = "options" /\ get_attr n o <> None.
Definition no_auto_bins (e : elem) : Prop :=
  exists o, In o (e_kids e) /\ e_tag o = "options" /\ get_attr "auto_bin_max" o = Some "0".

(** "PyUCIS records the bin type only if it is ignore or illegal." *)
Definition cross_type_documented (b : elem) : Prop :=
  get_attr "type" b = None \/ get_attr "type" b = Some "ignore" \/ get_attr "type" b = Some "illegal".

(** The indices of a cross bin: one per crossed coverpoint. The bin called
    <a,b> of a cross of p and q has the place of a in p and that of b in q;
    ignore and illegal bins have -1 throughout.  [g] is the cgInstance and [c]
    the cross. *)
Definition bins_of_point (g : elem) (n : string) : list string :=
  match filter (fun p => String.eqb (elem_name p) n) (iter "coverpoint" g) with
  | p :: _ => map elem_name (iter "coverpointBin" p)
  | [] => []
  end.
Definition crossed_points (c : elem) : list string :=
  map (fun x => match e_text x with Some s => strip s | None => "" end) (iter "crossExpr" c).
Definition indices (b : elem) : list (option string) := map e_text (iter "index" b).
Definition tuple_name (l : list string) : string := ("<" ++ String.concat "," l ++ ">")%string.
Definition at_places (g c : elem) (ks : list nat) (names : list string) : Prop :=
  Forall2 (fun pk n => nth_error (bins_of_point g (fst pk)) (snd pk) = Some n) (combine (crossed_points c) ks) names /\
  List.length ks = List.length (crossed_points c).
Definition cross_indices_documented (g c b : elem) : Prop :=
  (get_attr "type" b <> Some "ignore" -> get_attr "type" b <> Some "illegal" ->
   forall ks names, at_places g c ks names -> elem_name b = tuple_name names ->
     indices b = map (fun k => Some (show_int (Z.of_nat k))) ks) /\
  (get_attr "type" b = Some "ignore" \/ get_attr "type" b = Some "illegal" ->
   indices b = map (fun _ => Some "-1") (crossed_points c)).

(** ** Reading *)

(** The attributes the reader looks at, by element. *)
Definition read_attrs (tag : string) : list string :=
  if String.eqb tag "sourceFiles" then ["fileName"; "id"]
  else if String.eqb tag "historyNodes" then
    ["logicalName"; "physicalName"; "kind"; "testStatus"; "simtime"; "timeunit"; "runCwd"; "cpuTime"; "seed"; "cmd"; "args";
     "compulsory"; "date"; "userName"; "cost"; "toolCategory"; "vendorId"; "vendorTool"; "vendorToolVersion"; "sameTests"; "comment"]
  else if String.eqb tag "instanceCoverages" then ["name"; "moduleName"]
  else if String.eqb tag "id" then ["file"; "line"; "inlineCount"]
  else if String.eqb tag "cgInstance" then ["name"]
  else if String.eqb tag "cgId" then ["cgName"]
  else if String.eqb tag "coverpoint" then ["name"]
  else if String.eqb tag "coverpointBin" then ["name"; "type"]
  else if String.eqb tag "contents" then ["coverageCount"]
  else if String.eqb tag "cross" then ["name"]
  else if String.eqb tag "crossBin" then ["name"]
  else [].
(** The document reduced to these attributes and the texts of crossExpr. *)
Fixpoint seen (e : elem) : elem :=
  match e with
  | Elem t a x ks =>
      Elem t (flat_map (fun n => match dget n a with Some v => [(n, v)] | None => [] end) (read_attrs t))
             (if String.eqb t "crossExpr" then x else None) (map seen ks)
  end.

(** Give every options element the attributes [f] says. *)
Fixpoint with_options (f : elem -> dict string) (e : elem) : elem :=
  match e with
  | Elem t a x ks => Elem t (if String.eqb t "options" then f e else a) x (map (with_options f) ks)
  end.
