(** The database merger (ucis/merge/db_merger.py).

    The destination database is mutated through object references.  Every
    object the merger mutates is one it has just appended as the last child of
    another, so a mutation of a fresh child is modelled by running the code for
    the child on it and appending the result ([new_child]); an exception leaves
    the partially filled child in place.  The destination is an in-memory
    database. *)
From Verif Require Import Base Dict Consts Db Report.
Set Implicit Arguments.

(** Creating a child [c] of the current object (whose path is [base]) and
    running [m] on it; [m] is given the path of the new child. *)
Definition new_child {A} (base : handle) (c : scope) (m : handle -> ST scope A) : ST scope A :=
  fun s =>
    let '(c', r) := m (base ++ [List.length (s_kids s)]) c in
    (add_child s c', r).

Section Collect.
  Context {A : Type} (name : A -> string).

  (** db_merger.py:38-45, 86-92, 121-126, 147-153: enter one scope of source
      number [i] in the name map and the name list.  The four places are
      written slightly differently and do the same. *)
  Definition collect1 (n i : nat) (st : dict (list (option A)) * list string) (x : A)
    : dict (list (option A)) * list string :=
    let '(m, names) := st in
    match dget (name x) m with
    | None => (dset (name x) (set_nth i (Some x) (repeat None n)) m, names ++ [name x])
    | Some l => (dset (name x) (set_nth i (Some x) l) m, names)
    end.

  (** db_merger.py:36-45: the enumerate loop over the sources, [i] being the
      number of the first source in the list. *)
  Fixpoint collect_from (n i : nat) (srcs : list (list A)) (st : dict (list (option A)) * list string)
    : dict (list (option A)) * list string :=
    match srcs with
    | [] => st
    | l :: t => collect_from n (S i) t (fold_left (collect1 n i) l st)
    end.

  Definition collect (srcs : list (list A)) : dict (list (option A)) * list string :=
    collect_from (List.length srcs) 0 srcs ([], []).

  (** db_merger.py:198-204: crosses are collected in plain lists. *)
  Definition collect_list1 (st : dict (list A) * list string) (x : A) : dict (list A) * list string :=
    let '(m, names) := st in
    match dget (name x) m with
    | None => (dset (name x) [x] m, names ++ [name x])
    | Some l => (dset (name x) (l ++ [x]) m, names)
    end.
  Definition collect_list (srcs : list (list A)) : dict (list A) * list string :=
    fold_left (fun st l => fold_left collect_list1 l st) srcs ([], []).
End Collect.

(** db_merger.py:175-182 and 234-241: one bin of the source. *)
Definition bin_acc (st : dict (Z * Z) * list string) (ci : item) : res (dict (Z * Z) * list string) :=
  let '(m, names) := st in
  let d := ci_data ci in
  let* m'names :=
     match dget (ci_name ci) m with
     | Some _ => Ok (m, names)
     | None => let* al := at_least_of d in
               Ok (dset (ci_name ci) (0%Z, al) m, names ++ [ci_name ci])
     end in
  let '(m', names') := m'names in
  let* e := dindex (ci_name ci) m' in
  Ok (dset (ci_name ci) ((fst e + cd_data d)%Z, snd e) m', names').

(** db_merger.py:184-191 and 243-250: createBin on the destination. *)
Definition put_bin (m : dict (Z * Z)) (kind : N) (name : string) : ST scope unit :=
  e <- slift (dindex name m) ;;
  (fun s => (add_item s (new_bin name None (snd e) (fst e) kind), Ok tt)).

(** db_merger.py:169-191 _merge_coverpoint_bins and 228-250 _merge_cross (the
    same code twice), for one bin kind *)
Definition merge_bins1 (srcs : list scope) (kind : N) : ST scope unit :=
  mn <- slift (fold_res (fun st s => fold_res bin_acc (cover_items s kind) st) srcs ([], [])) ;;
  sfor (put_bin (fst mn) kind) (snd mn).

(** ... and for the three kinds in turn. *)
Definition merge_bins (srcs : list scope) : ST scope unit :=
  sfor (merge_bins1 srcs) [CVGBIN; IGNOREBIN; ILLEGALBIN].

(** db_merger.py:155-165: one coverpoint name; the dictionary dst_cp_m is
    returned. [hd_error] is [src_cp_l[0]]. *)
Definition first_of {A} (l : list A) : res A :=
  match l with x :: _ => Ok x | [] => Err IndexError end.

Definition merge_coverpoint (base : handle) (m : dict (list (option scope)))
           (dst_cp_m : dict handle) (name : string) : ST scope (dict handle) :=
  l <- slift (dindex name m) ;;
  cp0 <- slift (first_of (somes l)) ;;
  new_child base (new_coverpoint (s_name cp0) (Some (s_src cp0)) (s_weight cp0) SRC_OTHER)
    (fun p => merge_bins (somes l) ;;; sret (dset name p dst_cp_m)).

Section SFold.
  Context {S A B : Type} (f : B -> A -> ST S B).
  Fixpoint sfold (l : list A) (b : B) : ST S B :=
    match l with
    | [] => sret b
    | x :: xs => sbind (f b x) (sfold xs)
    end.
End SFold.

(** db_merger.py:140-167 _merge_coverpoints *)
Definition merge_coverpoints (base : handle) (cgs : list scope) : ST scope (dict handle) :=
  let '(m, names) := collect s_name (map (fun cg => scopes cg COVERPOINT) cgs) in
  sfold (merge_coverpoint base m) names [].

(** getNumCrossedCoverpoints / getIthCrossedCoverpoint exist on MemCross only. *)
Definition crossed (s : scope) : res (list cpref) :=
  match s_cls s with KCross l => Ok l | _ => Err AttributeError end.

(** db_merger.py:211-217: the raise formats src_cp.getName(), which does not
    exist on a coverpoint, so the exception is an AttributeError. *)
Definition find_cp (dst_cp_m : dict handle) (r : cpref) : res cpref :=
  match dget (r_name r) dst_cp_m with
  | Some p => Ok (CpRef p (r_name r))
  | None => Err AttributeError
  end.

(** db_merger.py:206-226: one cross name *)
Definition merge_cross (base : handle) (dst_cp_m : dict handle) (m : dict (list scope))
           (name : string) : ST scope unit :=
  l <- slift (dindex name m) ;;
  cr0 <- slift (first_of l) ;;
  refs <- slift (let* rs := crossed cr0 in traverse (find_cp dst_cp_m) rs) ;;
  new_child base (new_cross name (Some (s_src cr0)) (s_weight cr0) SRC_OTHER refs)
    (fun _ => merge_bins l).

(** db_merger.py:193-226 _merge_crosses *)
Definition merge_crosses (base : handle) (dst_cp_m : dict handle) (cgs : list scope) : ST scope unit :=
  let '(m, names) := collect_list s_name (map (fun cg => scopes cg CROSS) cgs) in
  sfor (merge_cross base dst_cp_m m) names.

(** db_merger.py:128-138: one covergroup-instance name *)
Definition merge_coverinst (base : handle) (m : dict (list (option scope))) (name : string)
  : ST scope unit :=
  l <- slift (dindex name m) ;;
  g0 <- slift (first_of (somes l)) ;;
  new_child base (new_coverinstance name (Some (s_src g0)) (s_weight g0) SRC_OTHER)
    (fun p => cpm <- merge_coverpoints p (somes l) ;;
              merge_crosses p cpm (somes l)).

(** db_merger.py:113-138 _merge_coverinsts *)
Definition merge_coverinsts (base : handle) (cgs : list scope) : ST scope unit :=
  let '(m, names) := collect s_name (map (fun cg => scopes cg COVERINSTANCE) cgs) in
  sfor (merge_coverinst base m) names.

(** db_merger.py:105-111 _merge_covergroup *)
Definition merge_covergroup (base : handle) (cgs : list scope) : ST scope unit :=
  cpm <- merge_coverpoints base cgs ;;
  merge_crosses base cpm cgs ;;;
  merge_coverinsts base cgs.

(** db_merger.py:94-103: one covergroup name *)
Definition merge_cg_name (base : handle) (m : dict (list (option scope))) (name : string)
  : ST scope unit :=
  l <- slift (dindex name m) ;;
  g0 <- slift (first_of (somes l)) ;;
  new_child base (new_covergroup (s_name g0) (Some (s_src g0)) (s_weight g0) SRC_OTHER)
    (fun p => merge_covergroup p (somes l)).

(** db_merger.py:79-103 _merge_covergroups *)
Definition merge_covergroups (base : handle) (srcs : list scope) : ST scope unit :=
  let '(m, names) := collect s_name (map (fun s => scopes s COVERGROUP) srcs) in
  sfor (merge_cg_name base m) names.

(** A source instance together with the root of its database, in which its
    design-unit reference is resolved. *)
Definition src_inst : Type := scope * scope.   (* (root, instance) *)
Definition si_name (x : src_inst) : string := s_name (snd x).

(** getInstanceDu (mem_instance_scope.py:41-42) exists on instance scopes only;
    a missing design unit is None, which has no getScopeName. *)
Definition instance_du (x : src_inst) : res scope :=
  match s_cls (snd x) with
  | KInst (Some h) => match get_at (fst x) h with
                      | Some du => Ok du
                      | None => Err NoSuchObject
                      end
  | _ => Err AttributeError
  end.

(** db_merger.py:47-77: one instance name.  The new design unit and instance
    are children of the destination root (path []). *)
Definition merge_instance (m : dict (list (option src_inst))) (name : string) : ST scope unit :=
  l <- slift (dindex name m) ;;
  i0 <- slift (first_of (somes l)) ;;
  du <- slift (instance_du i0) ;;
  dup <- new_child [] (new_mem_scope (s_name du) (Some (s_src du)) (s_weight du) SRC_OTHER DU_MODULE DU_FLAGS)
           (fun p => sret p) ;;
  new_child [] (new_instance (si_name i0) (Some (s_src (snd i0))) 1 SRC_OTHER INSTANCE (Some dup) INST_ONCE)
    (fun p => merge_covergroups p (map snd (somes l))).

(** db_merger.py:24-77 merge *)
Definition merge_root (srcs : list scope) : ST scope unit :=
  let '(m, names) := collect si_name (map (fun r => map (pair r) (scopes r INSTANCE)) srcs) in
  sfor (merge_instance m) names.

Definition merge (dst : db) (srcs : list db) : db * res unit :=
  let '(root, r) := merge_root (map db_root srcs) (db_root dst) in
  (Db root (db_files dst) (db_hist dst), r).
