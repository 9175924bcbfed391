(** What a reader that reads several documents makes of them. *)
From Verif Require Import Base Consts Db Hist Xml NameSpec XmlSpec XmlDocSpec XmlMeans.
Set Implicit Arguments.
Local Open Scope string_scope.
Local Open Scope list_scope.

(** The instance names of a document that no earlier document has. *)
Definition new_names (earlier names : list string) : list string := nub (filter (fun n => negb (existsb (String.eqb n) earlier)) names).
(** Database number [k] of a session over documents that say [vss]: the instances that
    document [k] is the first to name, each with the covergroups that any document of
    the session has for it. *)
Definition shared_content (vss : list (list inst_view)) (k : nat) : list inst_view :=
  map (fun n => InstView n (flat_map iv_types (named iv_name n (List.concat vss))))
      (new_names (map iv_name (List.concat (firstn k vss))) (map iv_name (nth k vss []))).

(** The names of the instances and of the design units of a document. *)
Definition instance_names (doc : elem) : list string := map (fun e => attr_or "name" "" e) (iter "instanceCoverages" doc).
Definition unit_names (doc : elem) : list string := map (fun e => attr_or "moduleName" "default" e) (iter "instanceCoverages" doc).
Definition disjoint (l m : list string) : Prop := forall n, In n l -> ~ In n m.
(** No two documents name the same instance or design unit. *)
Definition separate (docs : list elem) : Prop :=
  ForallOrdPairs (fun a b => disjoint (instance_names a) (instance_names b) /\ disjoint (unit_names a) (unit_names b)) docs.

(** A session over [docs] can be read: each document is well formed, where a reference
    to a file may also use an id ([ids]) that an earlier document introduced. *)
Fixpoint good_session (to_float : string -> option string) (ids : list Z) (docs : list elem) : Prop :=
  match docs with
  | [] => True
  | doc :: t =>
      exists new, Forall2 good_file (iter "sourceFiles" doc) new /\
        Forall (good_history to_float) (iter "historyNodes" doc) /\
        Forall (good_instance (ids ++ new)) (iter "instanceCoverages" doc) /\
        good_session to_float (ids ++ new) t
  end.

(** The file ids a reader takes from a document: those of the sourceFiles elements up to
    the first one without an integer id. *)
Definition leading_ids (es : list elem) (ids : list Z) : Prop :=
  exists a b, es = a ++ b /\ Forall2 good_file a ids /\ match b with [] => True | x :: _ => ~ exists z, good_file x z end.
