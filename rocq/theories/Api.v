(** The in-memory API as operations on a database.  An object of the database is
    addressed by its handle (path of child positions).  A handle that denotes no
    object cannot be passed in Python; here it gives [Err NoSuchObject].
    Simplified: a CoverData object passed to createNextCover is stored by value
    (two items sharing one CoverData object are not modelled). *)
From Verif Require Import Base Consts Db Hist.
Set Implicit Arguments.

(** ** Integer properties: ucis/int_property.py *)
Inductive intprop :=
| IS_MODIFIED | MODIFIED_SINCE_SIM | NUM_TESTS | SCOPE_WEIGHT | SCOPE_GOAL | SCOPE_SOURCE_TYPE
| NUM_CROSSED_CVPS | SCOPE_IS_UNDER_DU | SCOPE_IS_UNDER_COVERINSTANCE | SCOPE_NUM_COVERITEMS
| SCOPE_NUM_EXPR_TERMS | TOGGLE_TYPE | TOGGLE_DIR | TOGGLE_COVERED | BRANCH_HAS_ELSE | BRANCH_ISCASE
| COVER_GOAL | COVER_LIMIT | COVER_WEIGHT | TEST_STATUS | TEST_COMPULSORY | STMT_INDEX | BRANCH_COUNT
| FSM_STATEVAL | CVG_ATLEAST | CVG_AUTOBINMAX | CVG_DETECTOVERLAP | CVG_NUMPRINTMISSING | CVG_STROBE
| CVG_PERINSTANCE | CVG_GETINSTCOV | CVG_MERGEINSTANCES.

(** Python list indexing [l[i]]: negative indices count from the end. *)
Definition py_index (len : nat) (i : Z) : option nat :=
  if (0 <=? i)%Z then (if (i <? Z.of_nat len)%Z then Some (Z.to_nat i) else None)
  else if (0 <=? i + Z.of_nat len)%Z then Some (Z.to_nat (i + Z.of_nat len)) else None.

Definition b2z (b : bool) : Z := if b then 1%Z else 0%Z.

(** scope.py:114-121, then obj.py:35-40 *)
Definition scope_get (s : scope) (p : intprop) : res Z :=
  match p with SCOPE_GOAL => Ok (a_goal (s_attrs s)) | _ => Err UnimplError end.

(** instance_scope.py:36-44, mem_instance_scope.py:86-87, mem_cover_item.py *)
Definition inst_get (s : scope) (idx : Z) (p : intprop) : res Z :=
  match p with
  | STMT_INDEX =>
      match py_index (List.length (s_iitems s)) idx with
      | Some i => match nth_error (s_iitems s) i with
                  | Some c => Ok (ii_stmt c)
                  | None => Err IndexError
                  end
      | None => Err IndexError
      end
  | _ => scope_get s p
  end.

(** cvg_scope.py:68-81 *)
Definition cvg_get (s : scope) (p : intprop) : res Z :=
  let o := a_cvg (s_attrs s) in
  match p with
  | CVG_ATLEAST => Ok (co_atleast o)
  | CVG_AUTOBINMAX => Ok (co_autobinmax o)
  | CVG_DETECTOVERLAP => Ok (b2z (co_overlap o))
  | CVG_STROBE => Ok (co_strobe o)
  | _ => scope_get s p
  end.

(** covergroup.py:89-98 *)
Definition covergroup_get (s : scope) (p : intprop) : res Z :=
  let o := a_cvg (s_attrs s) in
  match p with
  | CVG_PERINSTANCE => Ok (b2z (co_perinst o))
  | CVG_MERGEINSTANCES => Ok (b2z (co_mergeinst o))
  | _ => cvg_get s p
  end.

(** ucis.py:42-55: the three own properties raise UnimplError. *)
Definition ucis_get (s : scope) (p : intprop) : res Z :=
  match p with
  | IS_MODIFIED | MODIFIED_SINCE_SIM | NUM_TESTS => Err UnimplError
  | _ => scope_get s p
  end.

(** mem_scope.py:92-107; super() is the class that follows in the method
    resolution order of the object's class. *)
Definition get_int (s : scope) (idx : Z) (p : intprop) : res Z :=
  match p with
  | SCOPE_WEIGHT => Ok (a_weight (s_attrs s))
  | COVER_GOAL => Ok (a_goal (s_attrs s))
  | SCOPE_SOURCE_TYPE => Ok (a_srctype (s_attrs s))
  | SCOPE_IS_UNDER_DU => Ok (a_under_du (s_attrs s))
  | _ => match s_cls s with
         | KDb => ucis_get s p
         | KScope => scope_get s p
         | KInst _ | KToggle => inst_get s idx p
         | KCovergroup => covergroup_get s p
         | KCoverpoint | KCross _ => cvg_get s p
         end
  end.

(** Field assignments. *)
Definition with_weight (w : Z) (a : attrs) : attrs :=
  Attrs (a_cls a) (a_name a) (a_src a) w (a_source a) (a_type a) (a_flags a) (a_goal a) (a_srctype a) (a_under_du a) (a_cvg a).
Definition with_goal (g : Z) (a : attrs) : attrs :=
  Attrs (a_cls a) (a_name a) (a_src a) (a_weight a) (a_source a) (a_type a) (a_flags a) g (a_srctype a) (a_under_du a) (a_cvg a).
Definition with_srctype (t : Z) (a : attrs) : attrs :=
  Attrs (a_cls a) (a_name a) (a_src a) (a_weight a) (a_source a) (a_type a) (a_flags a) (a_goal a) t (a_under_du a) (a_cvg a).
Definition with_cvg (o : cvg_opts) (a : attrs) : attrs :=
  Attrs (a_cls a) (a_name a) (a_src a) (a_weight a) (a_source a) (a_type a) (a_flags a) (a_goal a) (a_srctype a) (a_under_du a) o.

Definition with_atleast (v : Z) (o : cvg_opts) : cvg_opts :=
  CvgOpts v (co_autobinmax o) (co_overlap o) (co_strobe o) (co_comment o) (co_perinst o) (co_mergeinst o).
Definition with_autobinmax (v : Z) (o : cvg_opts) : cvg_opts :=
  CvgOpts (co_atleast o) v (co_overlap o) (co_strobe o) (co_comment o) (co_perinst o) (co_mergeinst o).
Definition with_overlap (b : bool) (o : cvg_opts) : cvg_opts :=
  CvgOpts (co_atleast o) (co_autobinmax o) b (co_strobe o) (co_comment o) (co_perinst o) (co_mergeinst o).
Definition with_strobe (v : Z) (o : cvg_opts) : cvg_opts :=
  CvgOpts (co_atleast o) (co_autobinmax o) (co_overlap o) v (co_comment o) (co_perinst o) (co_mergeinst o).
Definition with_comment (c : string) (o : cvg_opts) : cvg_opts :=
  CvgOpts (co_atleast o) (co_autobinmax o) (co_overlap o) (co_strobe o) c (co_perinst o) (co_mergeinst o).
Definition with_perinst (b : bool) (o : cvg_opts) : cvg_opts :=
  CvgOpts (co_atleast o) (co_autobinmax o) (co_overlap o) (co_strobe o) (co_comment o) b (co_mergeinst o).
Definition with_mergeinst (b : bool) (o : cvg_opts) : cvg_opts :=
  CvgOpts (co_atleast o) (co_autobinmax o) (co_overlap o) (co_strobe o) (co_comment o) (co_perinst o) b.

Definition upd_attrs (f : attrs -> attrs) (s : scope) : scope := set_attrs s (f (s_attrs s)).
Definition upd_cvg (f : cvg_opts -> cvg_opts) (s : scope) : scope :=
  upd_attrs (fun a => with_cvg (f (a_cvg a)) a) s.
Definition set_iitems (s : scope) (l : list iitem) : scope :=
  Scope (s_attrs s) (s_items s) l (s_kids s).
Definition set_items (s : scope) (l : list item) : scope :=
  Scope (s_attrs s) l (s_iitems s) (s_kids s).

(** scope.py:123-131, obj.py:42-47 *)
Definition scope_set (s : scope) (p : intprop) (v : Z) : res scope :=
  match p with SCOPE_GOAL => Ok (upd_attrs (with_goal v) s) | _ => Err UnimplError end.

(** instance_scope.py:25-34 *)
Definition inst_set (s : scope) (idx : Z) (p : intprop) (v : Z) : res scope :=
  match p with
  | STMT_INDEX =>
      match py_index (List.length (s_iitems s)) idx with
      | Some i => Ok (set_iitems s (upd_nth i (fun c => IItem (ii_name c) (ii_data c) (ii_src c) v) (s_iitems s)))
      | None => Err IndexError
      end
  | _ => scope_set s p v
  end.

(** cvg_scope.py:83-97 *)
Definition cvg_set (s : scope) (p : intprop) (v : Z) : res scope :=
  match p with
  | CVG_ATLEAST => Ok (upd_cvg (with_atleast v) s)
  | CVG_AUTOBINMAX => Ok (upd_cvg (with_autobinmax v) s)
  | CVG_DETECTOVERLAP => Ok (upd_cvg (with_overlap (v =? 1)%Z) s)
  | CVG_STROBE => Ok (upd_cvg (with_strobe v) s)
  | _ => scope_set s p v
  end.

(** covergroup.py:100-110 *)
Definition covergroup_set (s : scope) (p : intprop) (v : Z) : res scope :=
  match p with
  | CVG_PERINSTANCE => Ok (upd_cvg (with_perinst (v =? 1)%Z) s)
  | CVG_MERGEINSTANCES => Ok (upd_cvg (with_mergeinst (v =? 1)%Z) s)
  | _ => cvg_set s p v
  end.

(** mem_scope.py:109-121; ucis.py:57-61 only calls super(). *)
Definition set_int (s : scope) (idx : Z) (p : intprop) (v : Z) : res scope :=
  match p with
  | SCOPE_WEIGHT => Ok (upd_attrs (with_weight v) s)
  | COVER_GOAL => Ok (upd_attrs (with_goal v) s)
  | SCOPE_SOURCE_TYPE => Ok (upd_attrs (with_srctype v) s)
  | _ => match s_cls s with
         | KDb | KScope => scope_set s p v
         | KInst _ | KToggle => inst_set s idx p v
         | KCovergroup => covergroup_set s p v
         | KCoverpoint | KCross _ => cvg_set s p v
         end
  end.

(** Ordinary setters: mem_scope.py:74-81, mem_cvg_scope.py:27-58,
    mem_covergroup.py:30-52. *)
Inductive field :=
| FWeight (w : Z) | FGoal (g : Z)
| FAtLeast (v : Z) | FAutoBinMax (v : Z) | FDetectOverlap (b : bool) | FStrobe (v : Z) | FComment (c : string)
| FPerInstance (b : bool) | FMergeInstances (b : bool).

Definition is_cvg (c : cls) : bool :=
  match c with KCovergroup | KCoverpoint | KCross _ => true | _ => false end.
Definition is_cg (c : cls) : bool := match c with KCovergroup => true | _ => false end.
Definition is_database (c : cls) : bool := match c with KDb => true | _ => false end.
Definition is_inst (c : cls) : bool := match c with KInst _ | KToggle => true | _ => false end.
Definition is_point (c : cls) : bool := match c with KCoverpoint | KCross _ => true | _ => false end.

(** A class without the method raises AttributeError. *)
Definition need {A} (b : bool) (m : res A) : res A := if b then m else Err AttributeError.

Definition set_field (s : scope) (f : field) : res scope :=
  let c := s_cls s in
  match f with
  | FWeight w => Ok (upd_attrs (with_weight w) s)
  | FGoal g => Ok (upd_attrs (with_goal g) s)
  | FAtLeast v => need (is_cvg c) (Ok (upd_cvg (with_atleast v) s))
  | FAutoBinMax v => need (is_cvg c) (Ok (upd_cvg (with_autobinmax v) s))
  | FDetectOverlap b => need (is_cvg c) (Ok (upd_cvg (with_overlap b) s))
  | FStrobe v => need (is_cvg c) (Ok (upd_cvg (with_strobe v) s))
  | FComment t => need (is_cvg c) (Ok (upd_cvg (with_comment t) s))
  | FPerInstance b => need (is_cg c) (Ok (upd_cvg (with_perinst b) s))
  | FMergeInstances b => need (is_cg c) (Ok (upd_cvg (with_mergeinst b) s))
  end.

(** ** String properties: ucis/str_property.py, those used on scopes *)
Inductive strprop := SCOPE_NAME | SCOPE_HIER_NAME | INSTANCE_DU_NAME | UNIQUE_ID | GENERIC | COMMENT | OTHER_STR (n : N).

(** mem_obj.py:32-37 and 39-44.  MemObj precedes CvgScope in the method
    resolution order, so cvg_scope.py:99-116 is never reached. *)
Definition get_str (s : scope) (p : strprop) : res (option string) := Ok None.
Definition set_str (s : scope) (p : strprop) (v : string) : res scope := Ok s.

(** ** Creating scopes *)

(** mem_scope.py:146-175 *)
Definition mem_create_scope (name : string) (src : option srcinfo) (weight source : Z) (type flags : N) : res scope :=
  if DU_ANY type then Ok (new_mem_scope name src weight source type flags)
  else if (type =? COVERGROUP)%N then Ok (new_covergroup name src weight source)
  else if (type =? COVERINSTANCE)%N then Ok (new_coverinstance name src weight source)
  else if (type =? COVERPOINT)%N then Ok (new_coverpoint name src weight source)
  else Err NotImplementedError.

(** mem_instance_scope.py:45-58 *)
Definition inst_create_scope (name : string) (src : option srcinfo) (weight source : Z) (type flags : N) : res scope :=
  if mask_hit type COVERGROUP then Ok (new_covergroup name src weight source)
  else Err UnimplError.

Definition create_scope (c : cls) name src weight source type flags : res scope :=
  if is_inst c then inst_create_scope name src weight source type flags
  else mem_create_scope name src weight source type flags.

(** mem_instance_scope.py:73-84; mem_scope.py:191-198 raises. *)
Definition create_toggle (c : cls) name flags : res scope :=
  if is_inst c then Ok (new_toggle name flags) else Err UnimplError.

(** ** Operations *)
Inductive op :=
| CreateScope (h : handle) (name : string) (src : option srcinfo) (weight source : Z) (type flags : N)
| CreateInstance (h : handle) (name : string) (src : option srcinfo) (weight source : Z) (type : N)
                 (du : option handle) (flags : N)
| CreateToggle (h : handle) (name : string) (flags : N)
| CreateCovergroup (h : handle) (name : string) (src : option srcinfo) (weight source : Z)
| CreateCoverpoint (h : handle) (name : string) (src : option srcinfo) (weight source : Z)
| CreateCross (h : handle) (name : string) (src : option srcinfo) (weight source : Z) (points : list handle)
| CreateCoverInstance (h : handle) (name : string) (src : option srcinfo) (weight source : Z)
| CreateBin (h : handle) (name : string) (src : option srcinfo) (at_least count : Z) (kind : N)
| CreateNextCover (h : handle) (name : string) (data : cover_data) (src : option srcinfo)
| IncrementCover (h : handle) (i : nat) (amt : Z)
| SetInt (h : handle) (idx : Z) (p : intprop) (v : Z)
| GetInt (h : handle) (idx : Z) (p : intprop)
| SetField (h : handle) (f : field)
| SetStr (h : handle) (p : strprop) (v : string)
| GetStr (h : handle) (p : strprop)
| CreateFileHandle (name : string)
| CreateHistoryNode (parent : option nat) (logical physical kind : pyval) (now : Z)
| SetHist (i : nat) (f : hist_field) (v : pyval)
| SetTestData (i : nat) (t : test_data).

(** What a call returns. *)
Inductive out :=
| ONone | OScope (h : handle) | OItem (h : handle) (i : nat) | OIndex (i : nat) | OInt (z : Z)
| OStr (s : option string) | OFile (i : nat) | OHist (i : nat).

Definition at_handle (root : scope) (h : handle) : res scope :=
  match get_at root h with Some s => Ok s | None => Err NoSuchObject end.

(** The scope object an operation is called on. *)
Definition target (o : op) : option handle :=
  match o with
  | CreateScope h _ _ _ _ _ _ | CreateInstance h _ _ _ _ _ _ _ | CreateToggle h _ _
  | CreateCovergroup h _ _ _ _ | CreateCoverpoint h _ _ _ _ | CreateCross h _ _ _ _ _
  | CreateCoverInstance h _ _ _ _ | CreateBin h _ _ _ _ _ | CreateNextCover h _ _ _
  | IncrementCover h _ _ | SetInt h _ _ _ | GetInt h _ _ | SetField h _ | SetStr h _ _ | GetStr h _ => Some h
  | CreateFileHandle _ | CreateHistoryNode _ _ _ _ _ | SetHist _ _ _ | SetTestData _ _ => None
  end.

(** mem_scope.py:68-69 addChild, then the new object is returned; if making the
    new object raises, addChild is not reached. *)
Definition adding (h : handle) (s : scope) (m : res scope) : scope * res out :=
  match m with
  | Ok c => (add_child s c, Ok (OScope (h ++ [List.length (s_kids s)])))
  | Err e => (s, Err e)
  end.

Definition appending (h : handle) (s : scope) (i : item) : scope * res out :=
  (add_item s i, Ok (OItem h (List.length (s_items s)))).

Definition assigning (s : scope) (m : res scope) : scope * res out :=
  match m with Ok s' => (s', Ok ONone) | Err e => (s, Err e) end.

Definition reading {A} (s : scope) (f : A -> out) (m : res A) : scope * res out :=
  match m with Ok v => (s, Ok (f v)) | Err e => (s, Err e) end.

(** mem_cover_index.py:31-32 incrementCover *)
Definition increment (amt : Z) (i : item) : item :=
  let d := ci_data i in
  Item (ci_name i)
       (CoverData (cd_type d) (cd_flags d) (cd_data d + amt) (cd_goal d) (cd_weight d) (cd_limit d)
                  (cd_bitlen d) (cd_at_least d))
       (ci_src i).

(** The objects passed in as crossed coverpoints. *)
Definition cross_refs (root : scope) (points : list handle) : res (list cpref) :=
  traverse (fun p => let* c := at_handle root p in Ok (CpRef p (s_name c))) points.

(** The scope [s] at [h] after the call, and the result. *)
Definition act (root : scope) (h : handle) (s : scope) (o : op) : scope * res out :=
  match o with
  | CreateScope _ name src weight source type flags =>
      adding h s (create_scope (s_cls s) name src weight source type flags)
  | CreateInstance _ name src weight source type du flags =>         (* mem_scope.py:177-189 *)
      adding h s (let* _ := match du with Some u => at_handle root u | None => Ok root end in
                  Ok (new_instance name src weight source type du flags))
  | CreateToggle _ name flags => adding h s (create_toggle (s_cls s) name flags)
  | CreateCovergroup _ name src weight source =>                     (* mem_scope.py:123-136 *)
      adding h s (Ok (new_covergroup name src weight source))
  | CreateCoverpoint _ name src weight source =>                     (* mem_covergroup.py:54-62 *)
      adding h s (need (is_cg (s_cls s)) (Ok (new_coverpoint name src weight source)))
  | CreateCross _ name src weight source points =>                   (* mem_covergroup.py:64-73 *)
      adding h s (let* cps := cross_refs root points in
                  need (is_cg (s_cls s)) (Ok (new_cross name src weight source cps)))
  | CreateCoverInstance _ name src weight source =>                  (* mem_covergroup.py:75-88 *)
      adding h s (if is_database (s_cls s) then Err TypeError               (* mem_ucis.py:97 takes two arguments *)
                  else need (is_cg (s_cls s)) (create_scope (s_cls s) name src weight source COVERINSTANCE 0))
  | CreateBin _ name src at_least count kind =>                      (* coverpoint.py:44-66 *)
      if is_point (s_cls s) then appending h s (new_bin name src at_least count kind)
      else (s, Err AttributeError)
  | CreateNextCover _ name data src =>
      if is_inst (s_cls s)
      then (add_iitem s (IItem name data src 0), Ok (OIndex (List.length (s_iitems s))))  (* mem_instance_scope.py:63-71 *)
      else appending h s (Item name data src)                        (* mem_scope.py:138-144 *)
  | IncrementCover _ i amt =>
      match nth_error (s_items s) i with
      | Some _ => (set_items s (upd_nth i (increment amt) (s_items s)), Ok ONone)
      | None => (s, Err NoSuchObject)
      end
  | SetInt _ idx p v => assigning s (set_int s idx p v)
  | GetInt _ idx p => reading s OInt (get_int s idx p)
  | SetField _ f => assigning s (set_field s f)
  | SetStr _ p v => assigning s (set_str s p v)
  | GetStr _ p => reading s OStr (get_str s p)
  | CreateFileHandle _ | CreateHistoryNode _ _ _ _ _ | SetHist _ _ _ | SetTestData _ _ => (s, Err NoSuchObject)
  end.

(** Position of a file name in the list of names with a handle. *)
Fixpoint index_of (n : string) (l : list string) : option nat :=
  match l with
  | [] => None
  | x :: t => if seqb n x then Some 0 else option_map S (index_of n t)
  end.

Definition with_root (d : db) (r : scope) : db := Db r (db_files d) (db_hist d).
Definition with_hist (d : db) (l : list hist) : db := Db (db_root d) (db_files d) l.

(** Operations on the database object itself. *)
Definition db_act (d : db) (o : op) : db * res out :=
  match o with
  | CreateFileHandle n =>                                             (* mem_ucis.py:85-88 *)
      match index_of n (db_files d) with
      | Some i => (d, Ok (OFile i))
      | None => (Db (db_root d) (db_files d ++ [n]) (db_hist d), Ok (OFile (List.length (db_files d))))
      end
  | CreateHistoryNode parent logical physical kind now =>             (* mem_ucis.py:92-95 *)
      (with_hist d (db_hist d ++ [new_hist parent logical physical kind now]),
       Ok (OHist (List.length (db_hist d))))
  | SetHist i f v =>
      match nth_error (db_hist d) i with
      | Some _ => (with_hist d (upd_nth i (hist_set f v) (db_hist d)), Ok ONone)
      | None => (d, Err NoSuchObject)
      end
  | SetTestData i t =>
      match nth_error (db_hist d) i with
      | Some _ => (with_hist d (upd_nth i (set_test_data t) (db_hist d)), Ok ONone)
      | None => (d, Err NoSuchObject)
      end
  | _ => (d, Err NoSuchObject)
  end.

(** One API call: the database afterwards, and the result or the exception. *)
Definition step (d : db) (o : op) : db * res out :=
  match target o with
  | Some h =>
      match get_at (db_root d) h with
      | Some s => let (s', r) := act (db_root d) h s o in
                  (with_root d (upd_at (db_root d) h (fun _ => s')), r)
      | None => (d, Err NoSuchObject)
      end
  | None => db_act d o
  end.

(** A history of calls. *)
Definition run (d : db) (l : list op) : db := fold_left (fun d o => fst (step d o)) l d.
