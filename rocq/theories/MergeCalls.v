(** The merger as the program of API calls it is (ucis/merge/db_merger.py).  [Merge] says
    what becomes of the objects of the destination without the calls; P_MergeCalls proves
    that it is the same.  The sources are other databases than the destination, as in
    [Merge]; what is collected from them before the calls (lines 36-45, 85-92, 119-126,
    145-153, 172-182, 198-204 and 231-241) is that of [Merge]. *)
From Verif Require Import Base Dict Consts Db Api YamlCalls Merge.
Set Implicit Arguments.
Local Open Scope list_scope.

(** Lines 169-191 and 228-250: the bins of the object at [p] *)
Definition bins_calls (p : handle) (srcs : list scope) : ST db unit :=
  sfor (fun kind =>
          mn <- slift (fold_res (fun st s => fold_res bin_acc (cover_items s kind) st) srcs ([], [])) ;;
          sfor (fun name => e <- slift (dindex name (fst mn)) ;;
                            call (CreateBin p name None (snd e) (fst e) kind) ;;; sret tt) (snd mn))
       [CVGBIN; IGNOREBIN; ILLEGALBIN].

(** Lines 155-165: the handle is noted before the bins are made, and the dictionary is
    lost when they raise *)
Definition coverpoint_calls (g : handle) (m : dict (list (option scope))) (dst_cp_m : dict handle) (name : string) : ST db (dict handle) :=
  l <- slift (dindex name m) ;;
  cp0 <- slift (first_of (somes l)) ;;
  p <- made (CreateCoverpoint g (s_name cp0) (Some (s_src cp0)) (s_weight cp0) SRC_OTHER) ;;
  let dst_cp_m := dset name p dst_cp_m in
  bins_calls p (somes l) ;;;
  sret dst_cp_m.
(** Lines 140-167 _merge_coverpoints *)
Definition coverpoints_calls (g : handle) (cgs : list scope) : ST db (dict handle) :=
  let '(m, names) := collect s_name (map (fun cg => scopes cg COVERPOINT) cgs) in
  Merge.sfold (coverpoint_calls g m) names [].

(** Lines 206-226: the coverpoints of the destination are passed to createCross *)
Definition mcross_calls (g : handle) (dst_cp_m : dict handle) (m : dict (list scope)) (name : string) : ST db unit :=
  l <- slift (dindex name m) ;;
  cr0 <- slift (first_of l) ;;
  points <- slift (let* rs := Merge.crossed cr0 in
                   traverse (fun r => match dget (r_name r) dst_cp_m with Some p => Ok p | None => Err AttributeError end) rs) ;;
  c <- made (CreateCross g name (Some (s_src cr0)) (s_weight cr0) SRC_OTHER points) ;;
  bins_calls c l.
(** Lines 193-226 _merge_crosses *)
Definition mcrosses_calls (g : handle) (dst_cp_m : dict handle) (cgs : list scope) : ST db unit :=
  let '(m, names) := collect_list s_name (map (fun cg => scopes cg CROSS) cgs) in
  sfor (mcross_calls g dst_cp_m m) names.

(** Lines 113-138 _merge_coverinsts *)
Definition coverinst_calls (g : handle) (m : dict (list (option scope))) (name : string) : ST db unit :=
  l <- slift (dindex name m) ;;
  g0 <- slift (first_of (somes l)) ;;
  i <- made (CreateCoverInstance g name (Some (s_src g0)) (s_weight g0) SRC_OTHER) ;;
  dst_cp_m <- coverpoints_calls i (somes l) ;;
  mcrosses_calls i dst_cp_m (somes l).
Definition coverinsts_calls (g : handle) (cgs : list scope) : ST db unit :=
  let '(m, names) := collect s_name (map (fun cg => scopes cg COVERINSTANCE) cgs) in
  sfor (coverinst_calls g m) names.

(** Lines 105-111 _merge_covergroup *)
Definition covergroup_calls (g : handle) (cgs : list scope) : ST db unit :=
  dst_cp_m <- coverpoints_calls g cgs ;;
  mcrosses_calls g dst_cp_m cgs ;;;
  coverinsts_calls g cgs.
(** Lines 79-103 _merge_covergroups *)
Definition cg_name_calls (i : handle) (m : dict (list (option scope))) (name : string) : ST db unit :=
  l <- slift (dindex name m) ;;
  g0 <- slift (first_of (somes l)) ;;
  g <- made (CreateCovergroup i (s_name g0) (Some (s_src g0)) (s_weight g0) SRC_OTHER) ;;
  covergroup_calls g (somes l).
Definition covergroups_calls (i : handle) (srcs : list scope) : ST db unit :=
  let '(m, names) := collect s_name (map (fun s => scopes s COVERGROUP) srcs) in
  sfor (cg_name_calls i m) names.

(** Lines 47-77 *)
Definition instance_calls (m : dict (list (option src_inst))) (name : string) : ST db unit :=
  l <- slift (dindex name m) ;;
  i0 <- slift (first_of (somes l)) ;;
  src_du <- slift (instance_du i0) ;;
  du <- made (CreateScope [] (s_name src_du) (Some (s_src src_du)) (s_weight src_du) SRC_OTHER DU_MODULE DU_FLAGS) ;;
  i <- made (CreateInstance [] (si_name i0) (Some (s_src (snd i0))) 1 SRC_OTHER INSTANCE (Some du) INST_ONCE) ;;
  covergroups_calls i (map snd (somes l)).
(** Lines 24-77 merge *)
Definition merge_calls (srcs : list db) : ST db unit :=
  let '(m, names) := collect si_name (map (fun r => map (pair r) (scopes r INSTANCE)) (map db_root srcs)) in
  sfor (instance_calls m) names.
