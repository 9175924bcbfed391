(** The in-memory database: scopes, cover items, history nodes. *)
From Verif Require Import Base Dict Consts.
Set Implicit Arguments.

(** ucis/source_info.py SourceInfo(file, line, token).  A file handle
    (ucis/mem/mem_file_handle.py) is determined by its file name, because
    createFileHandle keeps one handle per name (mem_ucis.py:85-88). *)
Record srcinfo := SrcInfo { si_file : option string; si_line : Z; si_token : Z }.

(** mem_scope.py:57: a missing source info becomes SourceInfo(None,-1,-1). *)
Definition no_src : srcinfo := SrcInfo None (-1) (-1).
Definition norm_src (s : option srcinfo) : srcinfo :=
  match s with Some i => i | None => no_src end.

(** ucis/cover_data.py:9-22 CoverData.  [cd_at_least = None] means that the
    attribute does not exist: the constructor does not set it, only
    Coverpoint.createBin does. *)
Record cover_data := CoverData {
  cd_type : N; cd_flags : N; cd_data : Z; cd_goal : Z; cd_weight : Z;
  cd_limit : Z; cd_bitlen : Z; cd_at_least : option Z }.

(** cover_data.py:9-22: values after CoverData(type, flags). *)
Definition new_cover_data (type flags : N) : cover_data :=
  CoverData type flags 0 0 0 0 0 None.

(** ucis/mem/mem_cover_index.py:12-22 MemCoverIndex. *)
Record item := Item { ci_name : string; ci_data : cover_data; ci_src : option srcinfo }.

(** ucis/mem/mem_cover_item.py MemCoverItem: what createNextCover stores on an
    instance scope. *)
Record iitem := IItem { ii_name : string; ii_data : cover_data; ii_src : option srcinfo; ii_stmt : Z }.

(** Object identity of a scope: its path of child positions from the root. *)
Definition handle := list nat.

(** A reference to a coverpoint held by a cross (mem_cross.py:27).  Names of
    scopes never change (there is no setter), so the name is kept with it. *)
Record cpref := CpRef { r_path : handle; r_name : string }.

(** The Python class of a scope, with the fields only that class has. *)
Inductive cls :=
| KDb                                   (* MemUCIS, mem_ucis.py *)
| KScope                                (* MemScope, mem_scope.py *)
| KInst (du : option handle)            (* MemInstanceScope, mem_instance_scope.py *)
| KToggle                               (* MemToggleInstanceScope *)
| KCovergroup                           (* MemCovergroup, mem_covergroup.py *)
| KCoverpoint                           (* MemCoverpoint, mem_coverpoint.py *)
| KCross (cps : list cpref).            (* MemCross, mem_cross.py *)

(** Options of covergroups, coverpoints and crosses (mem_cvg_scope.py,
    mem_covergroup.py).  [co_perinst], [co_mergeinst] exist on covergroups only. *)
Record cvg_opts := CvgOpts {
  co_atleast : Z; co_autobinmax : Z; co_overlap : bool; co_strobe : Z;
  co_comment : string; co_perinst : bool; co_mergeinst : bool }.

(** Fields of a scope object other than its children and items
    (mem_scope.py:46-66). *)
Record attrs := Attrs {
  a_cls : cls; a_name : string; a_src : srcinfo; a_weight : Z; a_source : Z;
  a_type : N; a_flags : N; a_goal : Z; a_srctype : Z; a_under_du : Z;
  a_cvg : cvg_opts }.

(** A scope with its cover items (m_cover_items), instance cover items
    (m_cover_item_l, instances only) and children (m_children). *)
Inductive scope := Scope (a : attrs) (items : list item) (iitems : list iitem) (kids : list scope).

Definition s_attrs (s : scope) := let '(Scope a _ _ _) := s in a.
Definition s_items (s : scope) := let '(Scope _ i _ _) := s in i.
Definition s_iitems (s : scope) := let '(Scope _ _ i _) := s in i.
Definition s_kids (s : scope) := let '(Scope _ _ _ k) := s in k.

(** Accessors: getScopeName, getWeight, getScopeType, getSourceInfo
    (mem_scope.py:71-90). *)
Definition s_name (s : scope) : string := a_name (s_attrs s).
Definition s_weight (s : scope) : Z := a_weight (s_attrs s).
Definition s_type (s : scope) : N := a_type (s_attrs s).
Definition s_src (s : scope) : srcinfo := a_src (s_attrs s).
Definition s_cls (s : scope) : cls := a_cls (s_attrs s).

(** What a loop over scopes(mask) visits (proved in [IterFacts] to be what the
    iterator of mem_scope_iterator.py yields). *)
Definition of_type (mask : N) (s : scope) : bool := mask_hit (s_type s) mask.
Definition scopes (s : scope) (mask : N) : list scope := filter (of_type mask) (s_kids s).

(** What a loop over coverItems(mask) visits (mem_cover_index_iterator.py). *)
Definition item_of_type (mask : N) (i : item) : bool := mask_hit (cd_type (ci_data i)) mask.
Definition cover_items (s : scope) (mask : N) : list item := filter (item_of_type mask) (s_items s).

(** Python values stored in history nodes.  A float is represented by what
    str() prints for it; an IntEnum member by its value and what str() prints
    (which depends on the Python version). *)
Inductive pyval :=
| VNone | VBool (b : bool) | VInt (z : Z) | VEnum (z : Z) (shown : string)
| VFloat (shown : string) | VStr (s : string).

(** ucis/mem/mem_history_node.py:32-60 *)
Record hist := Hist {
  h_parent : option nat; h_logical : pyval; h_physical : pyval; h_kind : pyval;
  h_status : pyval; h_simtime : pyval; h_timeunit : pyval; h_runcwd : pyval;
  h_cputime : pyval; h_seed : pyval; h_cmd : pyval; h_args : pyval;
  h_compulsory : pyval; h_date : pyval; h_user : pyval; h_cost : pyval;
  h_toolcat : pyval; h_version : pyval; h_vendor : pyval; h_vtool : pyval;
  h_vtoolver : pyval; h_same : pyval; h_comment : pyval }.

(** mem_ucis.py:49-68.  writtenBy/writtenTime and the legacy instance-coverage
    list are in Meta.v. *)
Record db := Db { db_root : scope; db_files : list string; db_hist : list hist }.

(** Constructors of scope objects.  The field values after construction follow
    the chain of __init__ calls of each class. *)

Definition no_cvg : cvg_opts := CvgOpts 0 0 false 0 "" false false.

(** mem_scope.py:46-66 with super().__init__ = MemObj (goal stays -1). *)
Definition mk_attrs (c : cls) (name : string) (src : option srcinfo) (weight source : Z)
           (type flags : N) (goal : Z) (o : cvg_opts) : attrs :=
  Attrs c name (norm_src src) weight source type flags goal 0 0 o.

Definition new_scope (a : attrs) : scope := Scope a [] [] [].

(** MemScope(parent, name, srcinfo, weight, source, type, flags) *)
Definition new_mem_scope name src weight source type flags : scope :=
  new_scope (mk_attrs KScope name src weight source type flags (-1) no_cvg).

(** mem_instance_scope.py:24-39: Scope.__init__ (scope.py:40-41) sets the goal to 100. *)
Definition new_instance name src weight source type (du : option handle) flags : scope :=
  new_scope (mk_attrs (KInst du) name src weight source type flags 100 no_cvg).

(** mem_toggle_instance_scope.py: MemInstanceScope with weight 0, source NONE,
    type TOGGLE, no design unit. *)
Definition new_toggle name flags : scope :=
  new_scope (mk_attrs KToggle name None 0 SRC_NONE TOGGLE flags 100 no_cvg).

(** mem_covergroup.py:16-28: Covergroup.__init__ resets detect_overlap and
    strobe to False (cvg_scope.py:30-35), then at_least is set to 0 and
    per_instance and merge_instances to True.  The goal stays -1 because
    CovScope.__init__ (cov_scope.py:27-29) does not call Scope.__init__. *)
Definition new_covergroup name src weight source : scope :=
  new_scope (mk_attrs KCovergroup name src weight source COVERGROUP 0 (-1)
                      (CvgOpts 0 64 false 0 "" true true)).

(** mem_coverpoint.py:15-23, options as reset by CvgScope.__init__. *)
Definition new_coverpoint name src weight source : scope :=
  new_scope (mk_attrs KCoverpoint name src weight source COVERPOINT 0 (-1)
                      (CvgOpts 1 64 false 0 "" false false)).

(** mem_cross.py:15-27: a MemCoverpoint whose type is then set to CROSS
    (Cross.__init__ does nothing). *)
Definition new_cross name src weight source (cps : list cpref) : scope :=
  new_scope (mk_attrs (KCross cps) name src weight source CROSS 0 (-1)
                      (CvgOpts 1 64 false 0 "" false false)).

Definition set_type (t : N) (a : attrs) : attrs :=
  Attrs (a_cls a) (a_name a) (a_src a) (a_weight a) (a_source a) t (a_flags a)
        (a_goal a) (a_srctype a) (a_under_du a) (a_cvg a).

(** mem_scope.py:160-163: a MemCovergroup whose type is set to COVERINSTANCE. *)
Definition new_coverinstance name src weight source : scope :=
  new_scope (set_type COVERINSTANCE (s_attrs (new_covergroup name src weight source))).

(** mem_ucis.py:49-59 *)
Definition empty_db : db :=
  Db (new_scope (mk_attrs KDb "" None 1 SRC_NONE RESERVEDSCOPE 0 (-1) no_cvg)) [] [].

(** coverpoint.py:44-66 createBin: the cover item it creates.  [rhs] is unused. *)
Definition new_bin (name : string) (src : option srcinfo) (at_least count : Z) (kind : N) : item :=
  Item name
       (CoverData kind (N.lor IS_32BIT (N.lor HAS_GOAL HAS_WEIGHT)) count 1 1 0 0 (Some at_least))
       src.

(** Appending to a scope object. *)
Definition add_child (s c : scope) : scope :=
  Scope (s_attrs s) (s_items s) (s_iitems s) (s_kids s ++ [c]).      (* mem_scope.py:68-69 *)
Definition add_item (s : scope) (i : item) : scope :=
  Scope (s_attrs s) (s_items s ++ [i]) (s_iitems s) (s_kids s).      (* mem_scope.py:138-144 *)
Definition add_iitem (s : scope) (i : iitem) : scope :=
  Scope (s_attrs s) (s_items s) (s_iitems s ++ [i]) (s_kids s).      (* mem_instance_scope.py:66-74 *)
Definition set_attrs (s : scope) (a : attrs) : scope :=
  Scope a (s_items s) (s_iitems s) (s_kids s).

(** Navigation by path. *)
Fixpoint get_at (s : scope) (h : handle) : option scope :=
  match h with
  | [] => Some s
  | i :: t => match nth_error (s_kids s) i with
              | Some c => get_at c t
              | None => None
              end
  end.

Fixpoint upd_at (s : scope) (h : handle) (f : scope -> scope) : scope :=
  match h with
  | [] => f s
  | i :: t => Scope (s_attrs s) (s_items s) (s_iitems s)
                    (upd_nth i (fun c => upd_at c t f) (s_kids s))
  end.

(** Induction principle for the nested type. *)
Section ScopeInd.
  Variable P : scope -> Prop.
  Hypothesis H : forall a i ii ks, Forall P ks -> P (Scope a i ii ks).
  Fixpoint scope_rect_nested (s : scope) : P s :=
    match s with
    | Scope a i ii ks =>
        H a i ii ((fix go (l : list scope) : Forall P l :=
                     match l with
                     | [] => Forall_nil P
                     | c :: t => Forall_cons c (scope_rect_nested c) (go t)
                     end) ks)
    end.
End ScopeInd.
