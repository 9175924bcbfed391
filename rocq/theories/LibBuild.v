(** Building and reading a database through the shared library: lib_ucis.py,
    lib_scope.py, lib_covergroup.py, lib_cvg_scope.py, lib_coverpoint.py,
    lib_cross.py, lib_file_handle.py, lib_scope_iterator.py.  The library keeps
    what it is handed; whether it agrees to a creation is left open. *)
From Verif Require Import Base Consts Db Hist Lib.
Set Implicit Arguments.
Local Open Scope Z_scope.

(** * What the library holds *)

(** lib_source_info.py:29-42 _LibSourceInfo; a file handle is the position of
    the file among everything created. *)
Record lsrc := LSrc { ls_file : option nat; ls_line : Z; ls_token : Z }.

(** The arguments of the creating functions after ctypes (libucis.py:58-92).
    The parent None is a null pointer: the new scope is a top-level one. *)
Inductive made :=
| MScope (parent : option nat) (name : option string) (src : option lsrc) (weight source type flags : Z)
| MInstance (parent : option nat) (name : string) (src : option lsrc) (weight source type : Z)
            (du : option nat) (flags : Z)
| MCross (parent : option nat) (name : string) (src : option lsrc) (weight source : Z)
         (points : list (option nat))
| MToggle (parent : option nat) (name : string) (canonical : option string) (flags metric type dir : Z)
| MFile (name : string) (workdir : option string)
| MHistory (logical physical : string) (kind : Z).

(** A cover item (ucis_CreateNextCover). *)
Record lcover := LCover { lc_parent : option nat; lc_name : string; lc_data : lib_cover_data; lc_src : option lsrc }.

(** A handle is the position in [lb_made]. *)
Record library := Library { lb_props : lib_state; lb_made : list made; lb_covers : list lcover }.

(** * What pyucis holds: objects with a handle *)

(** The classes LibUCIS, LibScope, LibCovergroup, LibCoverpoint, LibCross. *)
Inductive lcls := WDb | WScope | WCovergroup | WCoverpoint | WCross.

(** lib_obj.py:33-35: self.obj; None for the database and for an object whose
    creation failed without being noticed. *)
Record lref := LRef { r_cls : lcls; r_obj : option nat }.

(** lib_file_handle.py:29-32 *)
Record lfile := LFile { f_fh : option nat }.

(** ucis/source_info.py SourceInfo(file, line, token), the file a LibFileHandle or None. *)
Record psrc := PSrc { ps_file : option lfile; ps_line : Z; ps_token : Z }.

(** lib_source_info.py:37-42 ctor, called unless the source info is None. *)
Definition lib_src (s : option psrc) : res (option lsrc) :=
  match s with
  | None => Ok None
  | Some i => match ps_file i with
              | None => Err AttributeError
              | Some f => Ok (Some (LSrc (f_fh f) (c_int (ps_line i)) (c_int (ps_token i))))
              end
  end.

(** str.encode(name), then NUL-terminated. *)
Definition encode (name : option string) : res string :=
  match name with Some s => Ok (until_nul s) | None => Err TypeError end.

(** * Properties set by the constructors *)

(** int_property.py:28-59 and str_property.py *)
Definition I_SCOPE_GOAL : N := 4.
Definition I_CVG_ATLEAST : N := 24.
Definition I_CVG_AUTOBINMAX : N := 25.
Definition I_CVG_DETECTOVERLAP : N := 26.
Definition I_CVG_STROBE : N := 28.
Definition I_CVG_PERINSTANCE : N := 29.
Definition I_CVG_GETINSTCOV : N := 30.
Definition I_CVG_MERGEINSTANCES : N := 31.
Definition S_COMMENT : N := 14.

Definition on_props (m : ST lib_state unit) : ST library unit := fun L =>
  let (p, r) := m (lb_props L) in (Library p (lb_made L) (lb_covers L), r).

(** lib_obj.py:44-50 and 71-82 *)
Definition put_int (o : option nat) (p : N) (v : Z) : ST library unit :=
  on_props (set_int_property o (-1) p (VInt v)).
Definition put_str (o : option nat) (p : N) (v : string) : ST library unit :=
  on_props (set_string_property o (-1) p (VStr v)).

(** scope.py:40-41 Scope.__init__ with lib_scope.py:55-56 *)
Definition scope_init (o : option nat) : ST library unit := put_int o I_SCOPE_GOAL 100.

(** cvg_scope.py:30-35 CvgScope.__init__ with lib_cvg_scope.py *)
Definition cvg_options (o : option nat) : ST library unit :=
  put_int o I_CVG_ATLEAST 1;;; put_int o I_CVG_AUTOBINMAX 64;;;
  put_int o I_CVG_DETECTOVERLAP 0;;; put_int o I_CVG_STROBE 0.

(** lib_cvg_scope.py:15-17 *)
Definition cvg_init (o : option nat) : ST library unit := scope_init o;;; cvg_options o.

(** lib_covergroup.py:27-29, covergroup.py:35-43 *)
Definition covergroup_init (o : option nat) : ST library unit :=
  cvg_init o;;; cvg_options o;;;
  put_int o I_CVG_PERINSTANCE 0;;; put_int o I_CVG_MERGEINSTANCES 1;;;
  put_int o I_CVG_GETINSTCOV 0;;; put_str o S_COMMENT "".

(** lib_coverpoint.py:18-20, coverpoint.py:34-36 *)
Definition coverpoint_init (o : option nat) : ST library unit :=
  cvg_init o;;; cvg_options o;;; put_str o S_COMMENT "".

(** lib_cross.py:16-18, cross.py:28-29 *)
Definition cross_init (o : option nat) : ST library unit := cvg_init o.

(** Making an object of a class for a handle. *)
Definition wrap (c : lcls) (o : option nat) : ST library lref :=
  (match c with
   | WDb | WScope => scope_init o
   | WCovergroup => covergroup_init o
   | WCoverpoint => coverpoint_init o
   | WCross => cross_init o
   end);;; sret (LRef c o).

Section Build.
  (** Whether the library agrees to a creation; if not it returns a null
      pointer (or a negative index) and creates nothing.  An exception raised
      in the error callback (libucis.py:125-135) does not reach the caller. *)
  Variable agrees : library -> made -> bool.
  Variable agrees_cover : library -> lcover -> bool.

  Definition make (m : made) : ST library (option nat) := fun L =>
    if agrees L m then (Library (lb_props L) (lb_made L ++ [m]) (lb_covers L), Ok (Some (List.length (lb_made L))))
    else (L, Ok None).

  (** lib_scope.py:64-89 *)
  Definition create_scope (w : lref) (name : option string) (src : option psrc)
      (weight source type flags : Z) : ST library lref :=
    s <- slift (lib_src src);;
    o <- make (MScope (r_obj w) (option_map until_nul name) s (c_int weight) (c_int source)
                 (c_ulonglong type) (c_int flags));;
    match o with
    | None => sraise RaisedException
    | Some _ => wrap WScope o
    end.

  (** lib_scope.py:91-115; reading .obj of None raises. *)
  Definition create_instance (w : lref) (name : option string) (src : option psrc)
      (weight source type : Z) (du : option lref) (flags : Z) : ST library lref :=
    s <- slift (lib_src src);;
    n <- slift (encode name);;
    u <- slift (match du with Some d => Ok (r_obj d) | None => Err AttributeError end);;
    o <- make (MInstance (r_obj w) n s (c_int weight) (c_int source) (c_ulonglong type) u (c_int flags));;
    match o with
    | None => sraise RaisedException
    | Some _ => wrap WScope o
    end.

  (** lib_scope.py:117-135 *)
  Definition create_covergroup (w : lref) (name : option string) (src : option psrc)
      (weight source : Z) : ST library lref :=
    s <- slift (lib_src src);;
    n <- slift (encode name);;
    o <- make (MScope (r_obj w) (Some n) s (c_int weight) (c_int source) (Z.of_N COVERGROUP) 0);;
    wrap WCovergroup o.

  (** lib_scope.py:137-153 *)
  Definition create_toggle (w : lref) (name : option string) (canonical : option string)
      (flags metric type dir : Z) : ST library lref :=
    n <- slift (encode name);;
    o <- make (MToggle (r_obj w) n (option_map until_nul canonical) (c_uint flags) (c_int metric)
                 (c_int type) (c_int dir));;
    wrap WScope o.

  (** The methods of LibCovergroup; other classes do not have them. *)
  Definition of_covergroup (w : lref) (m : ST library lref) : ST library lref :=
    match r_cls w with WCovergroup => m | _ => sraise AttributeError end.

  (** lib_covergroup.py:49-64 *)
  Definition create_coverpoint (w : lref) (name : option string) (src : option psrc)
      (weight source : Z) : ST library lref :=
    of_covergroup w (c <- create_scope w name src weight source (Z.of_N COVERPOINT) 0;;
                     wrap WCoverpoint (r_obj c)).

  (** lib_covergroup.py:66-88 *)
  Definition create_cross (w : lref) (name : option string) (src : option psrc)
      (weight source : Z) (points : list lref) : ST library lref :=
    of_covergroup w
      (s <- slift (lib_src src);;
       n <- slift (encode name);;
       o <- make (MCross (r_obj w) n s (c_int weight) (c_int source) (map r_obj points));;
       wrap WCross o).

  (** lib_covergroup.py:91-110 *)
  Definition create_cover_instance (w : lref) (name : option string) (src : option psrc)
      (weight source : Z) : ST library lref :=
    of_covergroup w
      (s <- slift (lib_src src);;
       n <- slift (encode name);;
       o <- make (MScope (r_obj w) (Some n) s (c_int weight) (c_int source) (Z.of_N COVERINSTANCE) 0);;
       wrap WCovergroup o).

  (** lib_scope.py:155-169: the index that the library returns is not looked at
      (None here if it refuses). *)
  Definition create_next_cover (w : lref) (name : option string) (data : cover_data) (src : option psrc)
    : ST library (option nat) :=
    s <- slift (lib_src src);;
    d <- slift (lib_cover_data_of data);;
    n <- slift (encode name);;
    fun L =>
      let c := LCover (r_obj w) n d s in
      if agrees_cover L c
      then (Library (lb_props L) (lb_made L) (lb_covers L ++ [c]),
            Ok (Some (List.length (filter (fun c' => obj_eqb (lc_parent c') (r_obj w)) (lb_covers L)))))
      else (L, Ok None).

  (** lib_coverpoint.py:22-44, lib_cross.py:20-41.  The kind is None where the
      caller leaves it out; the method of a cross has no such parameter. *)
  Definition create_bin (w : lref) (name : option string) (src : option psrc) (at_least count : Z)
      (kind : option N) : ST library (option nat) :=
    match r_cls w, kind with
    | WCoverpoint, _ =>
        create_next_cover w name
          (lib_bin_data (match kind with Some k => k | None => CVGBIN end) at_least count) src
    | WCross, None => create_next_cover w name (lib_bin_data CVGBIN at_least count) src
    | WCross, Some _ => sraise TypeError
    | _, _ => sraise AttributeError
    end.

  (** lib_ucis.py:67-73 *)
  Definition create_file_handle (name workdir : option string) : ST library lfile :=
    n <- slift (encode name);;
    o <- make (MFile n (option_map until_nul workdir));;
    sret (LFile o).

  (** lib_ucis.py:76-92.  The parent is handed to ctypes as the Python object
      it is, which is no pointer. *)
  Definition create_history_node (parent : option nat) (logical physical : option string) (kind : Z)
    : ST library (option nat) :=
    l <- slift (encode logical);;
    p <- slift (encode physical);;
    match parent with
    | Some _ => sraise ArgumentError
    | None => make (MHistory l p (c_int kind))
    end.
End Build.

(** * Opening and reading *)

(** lib_ucis.py:39-49: what ucis_Open returned, or None. *)
Definition open_db (opened : option library) : option library * res lref :=
  match opened with
  | None => (None, Err RaisedException)
  | Some L => let (L', r) := wrap WDb None L in (Some L', r)
  end.

(** The parent and the type of what was created; None: not a scope. *)
Definition scope_of (m : made) : option (option nat * Z) :=
  match m with
  | MScope p _ _ _ _ t _ => Some (p, t)
  | MInstance p _ _ _ _ t _ _ => Some (p, t)
  | MCross p _ _ _ _ _ => Some (p, Z.of_N CROSS)
  | MToggle p _ _ _ _ _ _ => Some (p, Z.of_N TOGGLE)
  | MFile _ _ | MHistory _ _ _ => None
  end.

(** ucis_ScopeIterate and ucis_ScopeScan: the scopes directly below a scope
    whose type has a bit of the mask, in the order of their creation. *)
Definition listed (L : library) (o : option nat) (mask : Z) : list nat :=
  filter (fun i => match nth_error (lb_made L) i with
                   | Some m => match scope_of m with
                               | Some (p, t) => obj_eqb p o && negb (Z.land t mask =? 0)
                               | None => false
                               end
                   | None => false
                   end)
         (seq 0 (List.length (lb_made L))).

(** lib_scope_iterator.py:18-27: each step makes a LibScope. *)
Fixpoint scan (todo : list nat) : ST library (list lref) :=
  match todo with
  | [] => sret []
  | i :: rest => w <- wrap WScope (Some i);; l <- scan rest;; sret (w :: l)
  end.

(** lib_scope.py:179-180 scopes(mask), consumed by a loop; the mask is passed as
    c_uint32 (libucis.py:100-102). *)
Definition loop_scopes (w : lref) (mask : N) : ST library (list lref) := fun L =>
  scan (listed L (r_obj w) (c_uint (Z.of_N mask))) L.

(** lib_scope.py:171-177: the structure that ucis_GetScopeSourceInfo fills; it
    starts as zero bytes.  For the database itself the library is taken to leave
    it as it is. *)
Definition get_source_info (w : lref) : ST library psrc := fun L =>
  let s := match r_obj w with
           | Some i => match nth_error (lb_made L) i with
                       | Some (MScope _ _ s _ _ _ _) | Some (MInstance _ _ s _ _ _ _ _)
                       | Some (MCross _ _ s _ _ _) => s
                       | _ => None
                       end
           | None => None
           end in
  (L, Ok (match s with
          | Some s => PSrc (Some (LFile (ls_file s))) (ls_line s) (ls_token s)
          | None => PSrc (Some (LFile None)) 0 0
          end)).

(** lib_file_handle.py:34-35: a c_char_p result is bytes (or None). *)
Inductive pytext := PBytes (s : string) | PNone.
Definition get_file_name (f : lfile) : ST library pytext := fun L =>
  (L, Ok (match f_fh f with
          | Some i => match nth_error (lb_made L) i with Some (MFile n _) => PBytes n | _ => PNone end
          | None => PNone
          end)).

(** Not defined by the lib_*.py classes; scope.py:84-112 raises. *)
Definition get_weight (w : lref) : ST library Z := sraise NotImplementedError.
Definition set_weight (w : lref) (v : Z) : ST library unit := sraise NotImplementedError.
Definition get_scope_name (w : lref) : ST library string := sraise NotImplementedError.
Definition get_scope_type (w : lref) : ST library N := sraise NotImplementedError.
Definition cover_items (w : lref) (mask : N) : ST library (list nat) := sraise NotImplementedError.
(** lib_scope.py:52-53 and lib_obj.py:37-42 *)
Definition get_goal (w : lref) : ST library Z := sraise NotImplementedError.
(** lib_ucis.py:51-58: ucis_GetIntProperty is not among the declared functions
    (libucis.py:31-44, 48-114). *)
Definition get_num_tests : ST library Z := sraise RaisedException.

(** lib_scope.py:55-56; lib_cvg_scope.py:19-49; lib_covergroup.py:31-47.  A
    method that the class does not have raises. *)
Inductive lfield :=
| LGoal (v : Z) | LAtLeast (v : Z) | LAutoBinMax (v : Z) | LDetectOverlap (b : bool) | LStrobe (b : bool)
| LComment (s : string) | LPerInstance (b : bool) | LGetInstCoverage (b : bool) | LMergeInstances (b : bool).
Definition b2z (b : bool) : Z := if b then 1 else 0.
Definition has_options (c : lcls) : bool :=
  match c with WCovergroup | WCoverpoint | WCross => true | _ => false end.
Definition set_option (w : lref) (f : lfield) : ST library unit :=
  let cvg (m : ST library unit) := if has_options (r_cls w) then m else sraise AttributeError in
  let cg (m : ST library unit) := match r_cls w with WCovergroup => m | _ => sraise AttributeError end in
  match f with
  | LGoal v => put_int (r_obj w) I_SCOPE_GOAL v
  | LAtLeast v => cvg (put_int (r_obj w) I_CVG_ATLEAST v)
  | LAutoBinMax v => cvg (put_int (r_obj w) I_CVG_AUTOBINMAX v)
  | LDetectOverlap b => cvg (put_int (r_obj w) I_CVG_DETECTOVERLAP (b2z b))
  | LStrobe b => cvg (put_int (r_obj w) I_CVG_STROBE (b2z b))
  | LComment s => cvg (put_str (r_obj w) S_COMMENT s)
  | LPerInstance b => cg (put_int (r_obj w) I_CVG_PERINSTANCE (b2z b))
  | LGetInstCoverage b => cg (put_int (r_obj w) I_CVG_GETINSTCOV (b2z b))
  | LMergeInstances b => cg (put_int (r_obj w) I_CVG_MERGEINSTANCES (b2z b))
  end.

(** lib_ucis.py:101-109: the arguments of ucis_Write, if the call gets that far;
    its return code only goes to the log. *)
Record written := Written { w_file : string; w_scope : option nat; w_recurse : Z; w_covertype : Z }.
Definition write_db (file : option string) (scope : option lref) (recurse : bool) (covertype : Z)
  : res written :=
  match file with
  | None => Err TypeError                         (* "file=" + None *)
  | Some f => match scope with
              | Some _ => Err ArgumentError       (* a Python object for a c_void_p *)
              | None => Ok (Written (until_nul f) None (b2z recurse) (c_uint covertype))
              end
  end.
