(** What an XML document must look like to be read, and what a written document
    says about source files; written without reference to the reader and the
    writer. *)
From Verif Require Import Base Dict Consts Db NameSpec PyInt Dates Xml.
Set Implicit Arguments.
Local Open Scope string_scope.
Local Open Scope list_scope.

(** ** Documents that can be read *)

Definition integer_attr (name : string) (e : elem) (z : Z) : Prop :=
  exists v, get_attr name e = Some v /\ py_int v = Ok z.
Definition has_attr (name : string) (e : elem) : Prop := get_attr name e <> None.

(** The first [contents] element below [e] has an integer count. *)
Definition counted (e : elem) : Prop :=
  exists c l z, iter "contents" e = c :: l /\ integer_attr "coverageCount" c z.

(** A coverpoint bin: a sequence or else a range with a count, and a known type. *)
Definition good_bin (e : elem) : Prop :=
  (exists s l, iter "sequence" e = s :: l /\ counted s) \/
  (iter "sequence" e = [] /\ exists s l, iter "range" e = s :: l /\ counted s).
Definition good_kind (e : elem) : Prop :=
  match get_attr "type" e with
  | None => True
  | Some t => In t ["bins"; "default"; "ignore"; "illegal"]
  end.

Definition good_point (e : elem) : Prop := Forall (fun b => good_bin b /\ good_kind b) (iter "coverpointBin" e).

(** A cross over the coverpoints [names]. *)
Definition good_expr (names : list string) (e : elem) : Prop :=
  exists s, e_text e = Some s /\ In (strip s) names.
Definition good_cross (names : list string) (e : elem) : Prop :=
  Forall (good_expr names) (iter "crossExpr" e) /\ Forall counted (iter "crossBin" e).

Definition elem_name (e : elem) : string := match get_attr "name" e with Some n => n | None => "<unknown>" end.

Definition good_cg_instance (e : elem) : Prop :=
  Forall good_point (iter "coverpoint" e) /\
  Forall (good_cross (map elem_name (iter "coverpoint" e))) (iter "cross" e).

(** A reference to one of the files [ids]. *)
Definition good_id (ids : list Z) (e : elem) : Prop :=
  (exists f, integer_attr "file" e f /\ In f ids) /\
  (exists z, integer_attr "line" e z) /\ (exists z, integer_attr "inlineCount" e z).

Definition good_instance (ids : list Z) (e : elem) : Prop :=
  has_attr "name" e /\ Forall (good_id ids) (iter "id" e) /\
  Forall (fun c => Forall good_cg_instance (iter "cgInstance" c)) (iter "covergroupCoverage" e).

Definition good_file (e : elem) (id : Z) : Prop := integer_attr "id" e id.

(** [P] holds of the attribute if there is one. *)
Definition if_attr (name : string) (e : elem) (P : string -> Prop) : Prop :=
  match get_attr name e with Some v => P v | None => True end.
Definition good_history (to_float : string -> option string) (e : elem) : Prop :=
  Forall (fun a => has_attr a e)
         ["testStatus"; "toolCategory"; "vendorId"; "vendorTool"; "vendorToolVersion"] /\
  (exists v x, get_attr "date" e = Some v /\ strptime m_iso v = Ok x) /\
  Forall (fun a => if_attr a e (fun v => to_float v <> None)) ["simtime"; "cpuTime"; "cost"] /\
  if_attr "sameTests" e (fun v => exists z, py_int v = Ok z).

Definition good_doc (to_float : string -> option string) (doc : elem) : Prop :=
  exists ids, Forall2 good_file (iter "sourceFiles" doc) ids /\
    Forall (good_history to_float) (iter "historyNodes" doc) /\
    Forall (good_instance ids) (iter "instanceCoverages" doc).

(** ** Source files *)

(** The files of the scopes below [s], parents before children and in order; a
    scope whose type has none of the 48 scope bits set is not visited. *)
Fixpoint files_below (s : scope) : list string :=
  match s with
  | Scope _ _ _ kids =>
      flat_map (fun k => if N.eqb (N.land (s_type k) SCOPE_ALL) 0 then []
                         else match si_file (a_src (s_attrs k)) with Some f => [f] | None => [] end
                              ++ files_below k) kids
  end.

(** The placeholder and then every file, in order of first appearance. *)
Definition file_names (d : db) : list string := nub ("__null__file__" :: files_below (db_root d)).

(** Elements of a document. *)
Inductive within : elem -> elem -> Prop :=
| InSelf e : within e e
| InKid x k e : In k (e_kids e) -> within x k -> within x e.
