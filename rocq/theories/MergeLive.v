(** Merging into a database that is itself one of the sources (db_merger.py:24-77).
    [Merge] reads the sources as they were before the merge; here the scopes of the
    destination are looked up when the code uses them.

    Simplified: the lookups for one instance name are made when its turn comes.  While
    that instance is built, only scopes below the new one change. *)
From Verif Require Import Base Dict Consts Db Report Merge.
Set Implicit Arguments.

Inductive source := Itself | Another (d : db).
(** A source instance: a child of the destination, or an instance of another database. *)
Inductive live_inst := Own (i : nat) | Foreign (x : src_inst).

Definition own_child (root : scope) (i : nat) : option src_inst := option_map (pair root) (nth_error (s_kids root) i).
Definition now_inst (root : scope) (x : live_inst) : option src_inst :=
  match x with Own i => own_child root i | Foreign y => Some y end.
Definition now_name (root : scope) (x : live_inst) : string :=
  match now_inst root x with Some y => si_name y | None => EmptyString end.

(** Line 37: db.scopes(INSTANCE) *)
Definition own_instances (root : scope) : list live_inst :=
  map Own (filter (fun i => match nth_error (s_kids root) i with Some s => of_type INSTANCE s | None => false end)
                  (seq 0 (List.length (s_kids root)))).
Definition source_instances (root : scope) (s : source) : list live_inst :=
  match s with
  | Itself => own_instances root
  | Another d => map (fun x => Foreign (db_root d, x)) (scopes (db_root d) INSTANCE)
  end.

(** Lines 47-77, with the instances as they are now *)
Definition live_instance (m : dict (list (option live_inst))) (name : string) : ST scope unit :=
  fun root => merge_instance (map (fun e => (fst e, map (fun o => match o with Some x => now_inst root x | None => None end) (snd e))) m) name root.
(** Lines 24-77; nothing is created before line 47 *)
Definition merge_live (dst : db) (srcs : list source) : db * res unit :=
  let '(m, names) := collect (now_name (db_root dst)) (map (source_instances (db_root dst)) srcs) in
  let '(root, r) := sfor (live_instance m) names (db_root dst) in
  (Db root (db_files dst) (db_hist dst), r).
