(** What C93 asks of the two back ends: a program that builds a database through
    the API leaves the same tree in the in-memory back end and in the shared
    library. *)
From Verif Require Import Base Consts Db Hist Api ApiSpec Lib P_Lib LibBuild.
Set Implicit Arguments.
Local Open Scope Z_scope.

(** * Programs

    The objects a program has been given are numbered: 0 is the database, the
    others are the scopes in the order of their creation.  File handles are
    numbered on their own. *)
Record psource := PSource { p_file : nat; p_line : Z; p_token : Z }.

Inductive cmd :=
| PFile (name : string) (workdir : option string)
| PHistory (logical physical : string) (kind : Z) (now : Z)
| PScope (at_ : nat) (name : string) (src : option psource) (weight source : Z) (type flags : N)
| PInstance (at_ : nat) (name : string) (src : option psource) (weight source : Z) (type : N)
            (du : nat) (flags : N)
| PCovergroup (at_ : nat) (name : string) (src : option psource) (weight source : Z)
| PCoverpoint (at_ : nat) (name : string) (src : option psource) (weight source : Z)
| PCross (at_ : nat) (name : string) (src : option psource) (weight source : Z) (points : list nat)
| PCoverInstance (at_ : nat) (name : string) (src : option psource) (weight source : Z)
| PBin (at_ : nat) (name : string) (src : option psource) (at_least count : Z) (kind : option N)
| PCover (at_ : nat) (name : string) (data : cover_data) (src : option psource)
| PSet (at_ : nat) (f : lfield).

Definition held {A} (l : list A) (i : nat) : res A :=
  match nth_error l i with Some x => Ok x | None => Err NoSuchObject end.

(** ** Run on the in-memory back end *)
Record mem_side := MemSide { m_db : db; m_objs : list handle; m_files : list nat }.

Definition m_src (st : mem_side) (s : option psource) : res (option srcinfo) :=
  match s with
  | None => Ok None
  | Some p => let* f := held (m_files st) (p_file p) in
              let* n := held (db_files (m_db st)) f in
              Ok (Some (SrcInfo (Some n) (p_line p) (p_token p)))
  end.

(** None: setGetInstCoverage of the in-memory back end stores a value that
    nothing reads; programs that call it are left out. *)
Definition m_field (f : lfield) : option field :=
  match f with
  | LGoal v => Some (FGoal v)
  | LAtLeast v => Some (FAtLeast v)
  | LAutoBinMax v => Some (FAutoBinMax v)
  | LDetectOverlap b => Some (FDetectOverlap b)
  | LStrobe b => Some (FStrobe (if b then 1 else 0))
  | LComment s => Some (FComment s)
  | LPerInstance b => Some (FPerInstance b)
  | LMergeInstances b => Some (FMergeInstances b)
  | LGetInstCoverage _ => None
  end.

(** The call that a command makes. *)
Definition m_call (st : mem_side) (c : cmd) : res op :=
  match c with
  | PFile n _ => Ok (CreateFileHandle n)
  | PHistory l p k now => Ok (CreateHistoryNode None (VStr l) (VStr p) (VInt k) now)
  | PScope a n s w so t f =>
      let* h := held (m_objs st) a in let* s := m_src st s in Ok (CreateScope h n s w so t f)
  | PInstance a n s w so t u f =>
      let* h := held (m_objs st) a in let* s := m_src st s in let* u := held (m_objs st) u in
      Ok (CreateInstance h n s w so t (Some u) f)
  | PCovergroup a n s w so =>
      let* h := held (m_objs st) a in let* s := m_src st s in Ok (CreateCovergroup h n s w so)
  | PCoverpoint a n s w so =>
      let* h := held (m_objs st) a in let* s := m_src st s in Ok (CreateCoverpoint h n s w so)
  | PCross a n s w so ps =>
      let* h := held (m_objs st) a in let* s := m_src st s in
      let* ps := traverse (held (m_objs st)) ps in Ok (CreateCross h n s w so ps)
  | PCoverInstance a n s w so =>
      let* h := held (m_objs st) a in let* s := m_src st s in Ok (CreateCoverInstance h n s w so)
  | PBin a n s al ct k =>
      let* h := held (m_objs st) a in let* s := m_src st s in
      Ok (CreateBin h n s al ct (match k with Some k => k | None => CVGBIN end))
  | PCover a n dt s =>
      let* h := held (m_objs st) a in let* s := m_src st s in Ok (CreateNextCover h n dt s)
  | PSet a f =>
      let* h := held (m_objs st) a in
      match m_field f with Some f => Ok (SetField h f) | None => Err NoSuchObject end
  end.

Definition mem_do (st : mem_side) (c : cmd) : res mem_side :=
  let* o := m_call st c in
  match step (m_db st) o with
  | (d, Ok (OScope h)) => Ok (MemSide d (m_objs st ++ [h]) (m_files st))
  | (d, Ok (OFile i)) => Ok (MemSide d (m_objs st) (m_files st ++ [i]))
  | (d, Ok _) => Ok (MemSide d (m_objs st) (m_files st))
  | (_, Err e) => Err e
  end.

Fixpoint mem_run (st : mem_side) (p : list cmd) : res mem_side :=
  match p with [] => Ok st | c :: r => let* st := mem_do st c in mem_run st r end.

(** ** Run on the shared library *)
Record lib_side := LibSide { l_lib : library; l_objs : list lref; l_files : list lfile }.

Definition l_src (st : lib_side) (s : option psource) : res (option psrc) :=
  match s with
  | None => Ok None
  | Some p => let* f := held (l_files st) (p_file p) in
              Ok (Some (PSrc (Some f) (p_line p) (p_token p)))
  end.

Section Run.
  Variable agrees : library -> made -> bool.
  Variable agrees_cover : library -> lcover -> bool.

  Definition got_scope (st : lib_side) (m : ST library lref) : res lib_side :=
    match m (l_lib st) with
    | (L, Ok w) => Ok (LibSide L (l_objs st ++ [w]) (l_files st))
    | (_, Err e) => Err e
    end.
  Definition got_file (st : lib_side) (m : ST library lfile) : res lib_side :=
    match m (l_lib st) with
    | (L, Ok f) => Ok (LibSide L (l_objs st) (l_files st ++ [f]))
    | (_, Err e) => Err e
    end.
  Definition got {A} (st : lib_side) (m : ST library A) : res lib_side :=
    match m (l_lib st) with
    | (L, Ok _) => Ok (LibSide L (l_objs st) (l_files st))
    | (_, Err e) => Err e
    end.

  Definition lib_do (st : lib_side) (c : cmd) : res lib_side :=
    match c with
    | PFile n wd => got_file st (create_file_handle agrees (Some n) wd)
    | PHistory l p k _ => got st (create_history_node agrees None (Some l) (Some p) k)
    | PScope a n s w so t f =>
        let* o := held (l_objs st) a in let* s := l_src st s in
        got_scope st (LibBuild.create_scope agrees o (Some n) s w so (Z.of_N t) (Z.of_N f))
    | PInstance a n s w so t u f =>
        let* o := held (l_objs st) a in let* s := l_src st s in let* u := held (l_objs st) u in
        got_scope st (create_instance agrees o (Some n) s w so (Z.of_N t) (Some u) (Z.of_N f))
    | PCovergroup a n s w so =>
        let* o := held (l_objs st) a in let* s := l_src st s in
        got_scope st (create_covergroup agrees o (Some n) s w so)
    | PCoverpoint a n s w so =>
        let* o := held (l_objs st) a in let* s := l_src st s in
        got_scope st (create_coverpoint agrees o (Some n) s w so)
    | PCross a n s w so ps =>
        let* o := held (l_objs st) a in let* s := l_src st s in let* ps := traverse (held (l_objs st)) ps in
        got_scope st (create_cross agrees o (Some n) s w so ps)
    | PCoverInstance a n s w so =>
        let* o := held (l_objs st) a in let* s := l_src st s in
        got_scope st (create_cover_instance agrees o (Some n) s w so)
    | PBin a n s al ct k =>
        let* o := held (l_objs st) a in let* s := l_src st s in
        got st (create_bin agrees_cover o (Some n) s al ct k)
    | PCover a n dt s =>
        let* o := held (l_objs st) a in let* s := l_src st s in
        got st (create_next_cover agrees_cover o (Some n) dt s)
    | PSet a f => let* o := held (l_objs st) a in got st (set_option o f)
    end.

  Fixpoint lib_run (st : lib_side) (p : list cmd) : res lib_side :=
    match p with [] => Ok st | c :: r => let* st := lib_do st c in lib_run st r end.
End Run.

(** A new database on either side: the object for the database, no files. *)
Definition mem_new : mem_side := MemSide empty_db [[]] [].
Definition lib_new (props : lib_state) : lib_side := LibSide (Library props [] []) [LRef WDb None] [].

(** * The tree in the library *)

(** The parent of a scope (None: no scope). *)
Definition parent_of (m : made) : option (option nat) :=
  match m with
  | MScope p _ _ _ _ _ _ | MInstance p _ _ _ _ _ _ _ | MCross p _ _ _ _ _ | MToggle p _ _ _ _ _ _ => Some p
  | MFile _ _ | MHistory _ _ _ => None
  end.

Definition is_child (L : library) (o : option nat) (i : nat) : bool :=
  match nth_error (lb_made L) i with
  | Some m => match parent_of m with Some p => obj_eqb p o | None => false end
  | None => false
  end.

(** The scopes directly below [o], in the order of their creation. *)
Definition lib_kids (L : library) (o : option nat) : list nat :=
  filter (is_child L o) (seq 0 (List.length (lb_made L))).

(** The scope that is reached from [o] by child positions. *)
Fixpoint from (L : library) (o : option nat) (path : handle) : option (option nat) :=
  match path with
  | [] => Some o
  | k :: r => match nth_error (lib_kids L o) k with Some i => from L (Some i) r | None => None end
  end.
Definition at_path (L : library) (path : handle) : option (option nat) := from L None path.

(** The cover items of [o], in the order of their creation. *)
Definition lib_covers (L : library) (o : option nat) : list lcover :=
  filter (fun c => obj_eqb (lc_parent c) o) (lb_covers L).

(** * Agreement *)

(** Source information: the same file name, line and token, or none. *)
Definition same_loc (L : library) (s : srcinfo) (l : lsrc) : Prop :=
  exists i n wd, ls_file l = Some i /\ nth_error (lb_made L) i = Some (MFile n wd) /\
                 s = SrcInfo (Some n) (ls_line l) (ls_token l).
Definition same_src (L : library) (s : srcinfo) (l : option lsrc) : Prop :=
  match l with
  | None => s = SrcInfo None (-1) (-1)
  | Some l => same_loc L s l
  end.
Definition same_opt_src (L : library) (s : option srcinfo) (l : option lsrc) : Prop :=
  match s, l with
  | None, None => True
  | Some s, Some l => same_loc L s l
  | _, _ => False
  end.

(** The fields of a scope. *)
Definition same_scope (L : library) (a : attrs) (m : made) : Prop :=
  match m with
  | MScope _ name src weight source type flags =>
      name = Some (a_name a) /\ same_src L (a_src a) src /\ weight = a_weight a /\ source = a_source a /\
      type = Z.of_N (a_type a) /\ flags = Z.of_N (a_flags a) /\
      a_cls a = (if (type =? 4096) || (type =? 8192) then KCovergroup
                 else if type =? 16384 then KCoverpoint else KScope)
  | MInstance _ name src weight source type du flags =>
      name = a_name a /\ same_src L (a_src a) src /\ weight = a_weight a /\ source = a_source a /\
      type = Z.of_N (a_type a) /\ flags = Z.of_N (a_flags a) /\
      exists u, a_cls a = KInst (Some u) /\ at_path L u = Some du
  | MCross _ name src weight source points =>
      name = a_name a /\ same_src L (a_src a) src /\ weight = a_weight a /\ source = a_source a /\
      a_type a = 32768%N /\ a_flags a = 0%N /\
      exists l, a_cls a = KCross l /\ Forall2 (fun r o => at_path L (r_path r) = Some o) l points
  | MToggle _ _ _ _ _ _ _ | MFile _ _ | MHistory _ _ _ => False
  end.

(** A cover item: everything but the at_least value, for which the library's
    structure has no place. *)
Definition same_cover (L : library) (i : string * cover_data * option srcinfo) (c : lcover) : Prop :=
  let '(name, d, src) := i in
  lc_name c = name /\ same_opt_src L src (lc_src c) /\
  let l := lc_data c in
  lcd_type l = Z.of_N (cd_type d) /\ lcd_flags l = Z.of_N (cd_flags d) /\ lcd_data l = LBits (cd_data d) /\
  lcd_goal l = cd_goal d /\ lcd_weight l = cd_weight d /\ lcd_limit l = cd_limit d /\
  lcd_bitlen l = cd_bitlen d.

Definition mem_covers (n : node) : list (string * cover_data * option srcinfo) :=
  map (fun i => (ci_name i, ci_data i, ci_src i)) (n_items n) ++
  map (fun i => (ii_name i, ii_data i, ii_src i)) (n_iitems n).

Definition same_node (L : library) (n : node) (o : option nat) : Prop :=
  n_kids n = List.length (lib_kids L o) /\
  Forall2 (same_cover L) (mem_covers n) (lib_covers L o) /\
  match o with
  | None => a_cls (n_attrs n) = KDb
  | Some i => exists m, nth_error (lb_made L) i = Some m /\ same_scope L (n_attrs n) m
  end.

(** The same path leads to something in both, or in neither. *)
Definition same_tree (d : db) (L : library) : Prop :=
  forall path, match view d path, at_path L path with
               | Some n, Some o => same_node L n o
               | None, None => True
               | _, _ => False
               end.

(** The history nodes. *)
Definition lib_history (L : library) : list (string * string * Z) :=
  flat_map (fun m => match m with MHistory l p k => [(l, p, k)] | _ => [] end) (lb_made L).
Definition same_history (d : db) (L : library) : Prop :=
  Forall2 (fun h r => let '(l, p, k) := r in h_logical h = VStr l /\ h_physical h = VStr p /\ h_kind h = VInt k)
          (db_hist d) (lib_history L).

(** The objects that the program holds. *)
Definition same_class (c : cls) (k : lcls) : Prop :=
  match c with
  | KDb => k = WDb
  | KScope | KInst _ => k = WScope
  | KCovergroup => k = WCovergroup
  | KCoverpoint => k = WCoverpoint
  | KCross _ => k = WCross
  | KToggle => False
  end.
Definition same_objects (d : db) (hs : list handle) (L : library) (ws : list lref) : Prop :=
  Forall2 (fun h w => at_path L h = Some (r_obj w) /\
                      exists n, view d h = Some n /\ same_class (a_cls (n_attrs n)) (r_cls w)) hs ws.

(** The options. *)
Definition kind_of (f : lfield) : N :=
  match f with
  | LGoal _ => 0 | LAtLeast _ => 1 | LAutoBinMax _ => 2 | LDetectOverlap _ => 3 | LStrobe _ => 4
  | LComment _ => 5 | LPerInstance _ => 6 | LGetInstCoverage _ => 7 | LMergeInstances _ => 8
  end.

(** The last setting of an option of an object in a program. *)
Fixpoint last_set (p : list cmd) (slot : nat) (k : N) : option lfield :=
  match p with
  | [] => None
  | c :: r =>
      match last_set r slot k with
      | Some f => Some f
      | None => match c with
                | PSet a f => if Nat.eqb a slot && (kind_of f =? k)%N then Some f else None
                | _ => None
                end
      end
  end.

Definition mem_has (a : attrs) (f : lfield) : Prop :=
  match f with
  | LGoal v => a_goal a = v
  | LAtLeast v => co_atleast (a_cvg a) = v
  | LAutoBinMax v => co_autobinmax (a_cvg a) = v
  | LDetectOverlap b => co_overlap (a_cvg a) = b
  | LStrobe b => co_strobe (a_cvg a) = if b then 1 else 0
  | LComment s => co_comment (a_cvg a) = s
  | LPerInstance b => co_perinst (a_cvg a) = b
  | LMergeInstances b => co_mergeinst (a_cvg a) = b
  | LGetInstCoverage _ => False
  end.
Definition lib_has (L : library) (o : option nat) (f : lfield) : Prop :=
  let int p v := l_int (lb_props L) o (-1) p = Some v in
  let flag p (b : bool) := int p (if b then 1 else 0) in
  match f with
  | LGoal v => int 4%N v
  | LAtLeast v => int 24%N v
  | LAutoBinMax v => int 25%N v
  | LDetectOverlap b => flag 26%N b
  | LStrobe b => flag 28%N b
  | LComment s => l_str (lb_props L) o (-1) 14%N = Some s
  | LPerInstance b => flag 29%N b
  | LGetInstCoverage b => flag 30%N b
  | LMergeInstances b => flag 31%N b
  end.

Definition same_options (p : list cmd) (st : mem_side) (st' : lib_side) : Prop :=
  forall slot k f, last_set p slot k = Some f ->
    exists h w n, nth_error (m_objs st) slot = Some h /\ nth_error (l_objs st') slot = Some w /\
                  view (m_db st) h = Some n /\ mem_has (n_attrs n) f /\ lib_has (l_lib st') (r_obj w) f.

(** * Programs for both back ends *)

(** Cover data that survives the library's structure. *)
Definition fits (d : cover_data) : Prop :=
  u64 (Z.of_N (cd_type d)) /\ i32 (Z.of_N (cd_flags d)) /\
  i32 (cd_goal d) /\ i32 (cd_weight d) /\ i32 (cd_limit d) /\ i32 (cd_bitlen d) /\
  ((N.testbit (cd_flags d) 0 = true /\ u32 (cd_data d)) \/
   (N.testbit (cd_flags d) 0 = false /\ N.testbit (cd_flags d) 1 = true /\ u64 (cd_data d))).

Definition fits_src (s : option psource) : Prop :=
  match s with None => True | Some p => i32 (p_line p) /\ i32 (p_token p) end.

Definition fits_field (f : lfield) : Prop :=
  match f with
  | LGoal v | LAtLeast v | LAutoBinMax v => i32 v
  | LComment s => nul_free s
  | _ => True
  end.

Definition coverpoint_at (st : mem_side) (slot : nat) : Prop :=
  exists h n, nth_error (m_objs st) slot = Some h /\ view (m_db st) h = Some n /\
              a_cls (n_attrs n) = KCoverpoint.

(** Numbers that fit, names without NUL, createScope only for design units, a
    kind only for the bins of coverpoints. *)
Definition portable (st : mem_side) (c : cmd) : Prop :=
  match c with
  | PFile n _ => nul_free n
  | PHistory l p k _ => nul_free l /\ nul_free p /\ i32 k
  | PScope _ n s w so t f =>
      nul_free n /\ fits_src s /\ i32 w /\ i32 so /\
      In t [DU_MODULE; DU_ARCH; DU_PACKAGE; DU_PROGRAM; DU_INTERFACE] /\ i32 (Z.of_N f)
  | PInstance _ n s w so t _ f =>
      nul_free n /\ fits_src s /\ i32 w /\ i32 so /\ u64 (Z.of_N t) /\ i32 (Z.of_N f)
  | PCovergroup _ n s w so | PCoverpoint _ n s w so | PCross _ n s w so _ | PCoverInstance _ n s w so =>
      nul_free n /\ fits_src s /\ i32 w /\ i32 so
  | PBin a n s _ ct k =>
      nul_free n /\ fits_src s /\ u32 ct /\
      match k with None => True | Some k => u64 (Z.of_N k) /\ coverpoint_at st a end
  | PCover _ n dt s => nul_free n /\ fits_src s /\ fits dt
  | PSet _ f => fits_field f
  end.

Fixpoint all_portable (st : mem_side) (p : list cmd) : Prop :=
  match p with
  | [] => True
  | c :: r => portable st c /\ match mem_do st c with Ok st => all_portable st r | Err _ => True end
  end.
