(** What validity means for the children of an element, and what a database has
    to satisfy for its XML to be valid. *)
From Verif Require Import Base Dict Consts Db Hist Report ReportSpec PyInt Dates Xml XmlSpec XmlDocSpec XmlHistSpec Schema.
Set Implicit Arguments.

(** ** Sequences, as XML Schema defines them *)
Definition alternative (p : particle) (d : elem_decl) : Prop :=
  match p with POne x => d = x | PChoice ds => In d ds end.
Definition occurs (d : elem_decl) (k : nat) : Prop :=
  ed_min d <= k /\ forall m, ed_max d = Some m -> k <= m.
(** Children with the tags [tags] fit the members [ps], with the types [ts]. *)
Inductive fits : list particle -> list string -> list etype -> Prop :=
| FitsNil : fits [] [] []
| FitsCons p d k ps tags ts :
    alternative p d -> occurs d k -> fits ps tags ts ->
    fits (p :: ps) (repeat (ed_name d) k ++ tags)%list (repeat (ed_type d) k ++ ts)%list.

(** No name stands for two members of a sequence. *)
Definition decls (p : particle) : list elem_decl := match p with POne d => [d] | PChoice ds => ds end.
Definition distinct_names (ps : list particle) : Prop := NoDup (map ed_name (flat_map decls ps)).
Definition positive_choices (ps : list particle) : Prop :=
  forall ds d, In (PChoice ds) ps -> In d ds -> 1 <= ed_min d.

(** ** Databases *)

(** There is something to write on every level, and no count is negative. *)
Definition complete_db (d : db) : Prop :=
  instances (db_root d) <> [] /\
  forall i t g, In i (instances (db_root d)) -> In t (covergroups i) -> In g (group_instances t) ->
    coverpoints g <> [] /\
    (forall p, In p (coverpoints g) ->
       all_bins p <> [] /\ forall b, In b (all_bins p) -> (0 <= cd_data (ci_data b))%Z) /\
    (forall c b, In c (crosses g) -> In b (all_bins c) -> (0 <= cd_data (ci_data b))%Z).

(** The numbers of a history node are written as numbers of the schema's types,
    or not written because they are negative. *)
Definition lexical (t : simple) (v : pyval) : Prop := negative v = true \/ simple_ok t (shown v) = true.
Definition valid_hist (h : hist) : Prop :=
  lexical SDouble (h_simtime h) /\ lexical SDouble (h_cputime h) /\ lexical SDecimal (h_cost h) /\
  lexical SNonNegative (h_same h).

(** ** Documents *)
Local Open Scope string_scope.

(** Every crossed name is the name of a coverpoint of the covergroup instance. *)
Definition known_names (doc : elem) : Prop :=
  forall i c g x k, In i (iter "instanceCoverages" doc) -> In c (iter "covergroupCoverage" i) ->
    In g (iter "cgInstance" c) -> In x (iter "cross" g) -> In k (iter "crossExpr" x) ->
    exists s p, e_text k = Some s /\ In p (iter "coverpoint" g) /\ get_attr "name" p = Some (strip s).
(** Every source reference is to a file of the file table. *)
Definition known_files (doc : elem) : Prop :=
  forall i k, In i (iter "instanceCoverages" doc) -> In k (iter "id" i) ->
    exists z f, integer_attr "file" k z /\ In f (iter "sourceFiles" doc) /\ integer_attr "id" f z.
(** Every date is written without fractions of seconds and without time zone. *)
Definition plain_dates (doc : elem) : Prop :=
  forall h, In h (iter "historyNodes" doc) ->
    exists v x, get_attr "date" h = Some v /\ strptime m_iso v = Ok x.
(** Every number of the schema's types is a number for Python. *)
Definition reads_numbers (to_float : string -> option string) : Prop :=
  forall v, simple_ok SDouble v = true \/ simple_ok SDecimal v = true -> to_float v <> None.
