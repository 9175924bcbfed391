(** What the API promises, written over a flat view of the database: a map from
    handles to nodes. *)
From Verif Require Import Base Consts Db Hist Api Iter.
Set Implicit Arguments.

(** One object: its fields, its cover items, and how many children it has. *)
Record node := Node { n_attrs : attrs; n_items : list item; n_iitems : list iitem; n_kids : nat }.

Definition node_of (s : scope) : node :=
  Node (s_attrs s) (s_items s) (s_iitems s) (List.length (s_kids s)).
Definition vw (r : scope) (h : handle) : option node := option_map node_of (get_at r h).
Definition view (d : db) (h : handle) : option node := vw (db_root d) h.

(** The requested parent, name, type, weight and source information of a
    creating call.  An instance makes every requested type that includes the
    covergroup bit a plain covergroup. *)
Definition asked_src (s : option srcinfo) : srcinfo := match s with Some i => i | None => SrcInfo None (-1) (-1) end.
Record request := Request { rq_parent : handle; rq_name : string; rq_type : N; rq_weight : Z; rq_src : srcinfo }.

Definition instance_at (d : db) (h : handle) : bool :=
  match view d h with
  | Some n => match a_cls (n_attrs n) with KInst _ | KToggle => true | _ => false end
  | None => false
  end.

Definition requested (d : db) (o : op) : option request :=
  match o with
  | CreateScope h n s w _ t _ =>
      Some (Request h n (if instance_at d h then COVERGROUP else t) w (asked_src s))
  | CreateInstance h n s w _ t _ _ => Some (Request h n t w (asked_src s))
  | CreateToggle h n _ => Some (Request h n TOGGLE 0 (asked_src None))
  | CreateCovergroup h n s w _ => Some (Request h n COVERGROUP w (asked_src s))
  | CreateCoverpoint h n s w _ => Some (Request h n COVERPOINT w (asked_src s))
  | CreateCross h n s w _ _ => Some (Request h n CROSS w (asked_src s))
  | CreateCoverInstance h n s w _ => Some (Request h n COVERINSTANCE w (asked_src s))
  | _ => None
  end.

(** [d'] is [d] with one new node, the last child of [h]; nothing else differs. *)
Definition only_added (d d' : db) (h : handle) (new : node) : Prop :=
  exists n,
    view d h = Some n /\
    view d (h ++ [n_kids n]) = None /\
    view d' (h ++ [n_kids n]) = Some new /\
    view d' h = Some (Node (n_attrs n) (n_items n) (n_iitems n) (S (n_kids n))) /\
    (forall k, k <> h -> k <> h ++ [n_kids n] -> view d' k = view d k) /\
    db_files d' = db_files d /\ db_hist d' = db_hist d.

(** [d'] is [d] except that the node at [h] is now [n']. *)
Definition only_changed (d d' : db) (h : handle) (n' : node) : Prop :=
  view d' h = Some n' /\ (forall k, k <> h -> view d' k = view d k) /\
  db_files d' = db_files d /\ db_hist d' = db_hist d.

(** ** Counters *)
Definition item_at (d : db) (h : handle) (i : nat) : option item :=
  match view d h with Some n => nth_error (n_items n) i | None => None end.

Definition handle_eqb (a b : handle) : bool := if list_eq_dec Nat.eq_dec a b then true else false.

(** The sum of the increments applied to item [i] of scope [h]. *)
Definition increments (h : handle) (i : nat) (l : list op) : Z :=
  sumZ (map (fun o => match o with
                      | IncrementCover h' i' a => if handle_eqb h h' && Nat.eqb i i' then a else 0%Z
                      | _ => 0%Z
                      end) l).

(** ** References *)
Definition resolves (d : db) (n : node) : Prop :=
  match a_cls (n_attrs n) with
  | KInst (Some u) => view d u <> None
  | KCross l => Forall (fun r => exists m, view d (r_path r) = Some m /\ a_name (n_attrs m) = r_name r) l
  | _ => True
  end.
Definition all_resolve (d : db) : Prop := forall h n, view d h = Some n -> resolves d n.

(** What never changes about a scope: its class (with the references it holds),
    name, type, source information and flags. *)
Definition fixed (a a' : attrs) : Prop :=
  a_cls a' = a_cls a /\ a_name a' = a_name a /\ a_type a' = a_type a /\ a_src a' = a_src a /\
  a_source a' = a_source a /\ a_flags a' = a_flags a /\ a_under_du a' = a_under_du a.

(** ** Iteration *)
Definition shares_bit (t m : N) : Prop := exists b, N.testbit t b = true /\ N.testbit m b = true.

(** Positions below [n] of the elements that pass the test. *)
Definition matching (l : list bool) (n : nat) : list nat := filter (fun j => nth j l false) (seq 0 n).

(** ** Integer properties *)

(** The class supports reading / writing the property. *)
Definition readable (c : cls) (p : intprop) : bool :=
  match p with
  | SCOPE_WEIGHT | SCOPE_GOAL | COVER_GOAL | SCOPE_SOURCE_TYPE | SCOPE_IS_UNDER_DU => true
  | STMT_INDEX => match c with KInst _ | KToggle => true | _ => false end
  | CVG_ATLEAST | CVG_AUTOBINMAX | CVG_DETECTOVERLAP | CVG_STROBE =>
      match c with KCovergroup | KCoverpoint | KCross _ => true | _ => false end
  | CVG_PERINSTANCE | CVG_MERGEINSTANCES => match c with KCovergroup => true | _ => false end
  | _ => false
  end.
Definition writable (c : cls) (p : intprop) : bool :=
  match p with SCOPE_IS_UNDER_DU => false | _ => readable c p end.

(** A cover item index is in range for Python (negative ones count from the end). *)
Definition in_range (idx : Z) (len : nat) : Prop := (- Z.of_nat len <= idx < Z.of_nat len)%Z.

(** Flags read back as 0 or 1, other properties as set. *)
Definition read_back (p : intprop) (v : Z) : Z :=
  match p with
  | CVG_DETECTOVERLAP | CVG_PERINSTANCE | CVG_MERGEINSTANCES => if (v =? 1)%Z then 1%Z else 0%Z
  | _ => v
  end.

(** The two names of the goal. *)
Definition canon (p : intprop) : intprop := match p with COVER_GOAL => SCOPE_GOAL | _ => p end.

(** Two readings are of the same variable: same scope, same property and, for
    the statement index, the same cover item. *)
Definition item_index (idx : Z) (len : nat) : Z := if (idx <? 0)%Z then (idx + Z.of_nat len)%Z else idx.
Definition same_variable (h1 h2 : handle) (p1 p2 : intprop) (i1 i2 : Z) (len : nat) : Prop :=
  h1 = h2 /\ canon p1 = canon p2 /\ (p1 = STMT_INDEX -> item_index i1 len = item_index i2 len).

Definition iitems_at (d : db) (h : handle) : nat :=
  match view d h with Some n => List.length (n_iitems n) | None => 0 end.

(** The result of reading a property. *)
Definition read (d : db) (h : handle) (idx : Z) (p : intprop) : res out := snd (step d (GetInt h idx p)).

(** ** createScope *)
Definition du_type (t : N) : bool := existsb (N.testbit t) [24; 25; 26; 27; 28]%N.

(** The class and type of the scope createScope makes for a requested type. *)
Definition scope_made (instance : bool) (t : N) : option (cls * N) :=
  if instance then if N.testbit t 12 then Some (KCovergroup, COVERGROUP) else None
  else if du_type t then Some (KScope, t)
  else if (t =? COVERGROUP)%N then Some (KCovergroup, t)
  else if (t =? COVERINSTANCE)%N then Some (KCovergroup, t)
  else if (t =? COVERPOINT)%N then Some (KCoverpoint, t)
  else None.

(** ** Test data *)

(** The record's fields and the getters that must return them. *)
Definition test_fields (t : test_data) : list (hist_field * pyval) :=
  [(HStatus, td_status t); (HToolCategory, td_toolcategory t); (HDate, td_date t); (HSimTime, td_simtime t);
   (HTimeUnit, td_timeunit t); (HRunCwd, td_runcwd t); (HCpuTime, td_cputime t); (HSeed, td_seed t);
   (HCmd, td_cmd t); (HArgs, td_args t); (HCompulsory, td_compulsory t); (HUserName, td_user t); (HCost, td_cost t)].

(** ** New scopes *)

(** What kind of scope a creating call makes: a plain scope, a design instance
    (toggles included), a covergroup (cover instances included), or a coverpoint
    (crosses included). *)
Inductive sort := Plain | Instance | Group | Point.
Definition sort_made (d : db) (o : op) : sort :=
  match o with
  | CreateInstance _ _ _ _ _ _ _ _ | CreateToggle _ _ _ => Instance
  | CreateCovergroup _ _ _ _ _ | CreateCoverInstance _ _ _ _ _ => Group
  | CreateCoverpoint _ _ _ _ _ | CreateCross _ _ _ _ _ _ => Point
  | CreateScope h _ _ _ _ t _ =>
      match scope_made (instance_at d h) t with
      | Some (KCovergroup, _) => Group
      | Some (KCoverpoint, _) => Point
      | _ => Plain
      end
  | _ => Plain
  end.

(** The value every integer property has right after creation; [None]: it cannot
    be read. *)
Definition initial (k : sort) (weight : Z) (p : intprop) : option Z :=
  match p, k with
  | SCOPE_WEIGHT, _ => Some weight
  | (SCOPE_GOAL | COVER_GOAL), Instance => Some 100%Z
  | (SCOPE_GOAL | COVER_GOAL), _ => Some (-1)%Z
  | (SCOPE_SOURCE_TYPE | SCOPE_IS_UNDER_DU), _ => Some 0%Z
  | CVG_ATLEAST, Group => Some 0%Z
  | CVG_ATLEAST, Point => Some 1%Z
  | CVG_AUTOBINMAX, (Group | Point) => Some 64%Z
  | (CVG_DETECTOVERLAP | CVG_STROBE), (Group | Point) => Some 0%Z
  | (CVG_PERINSTANCE | CVG_MERGEINSTANCES), Group => Some 1%Z
  | _, _ => None
  end.

(** The source language and flags that end up in the new scope: coverage scopes
    keep no flags. *)
Definition kept_source (o : op) : Z :=
  match o with
  | CreateScope _ _ _ _ s _ _ | CreateInstance _ _ _ _ s _ _ _ | CreateCovergroup _ _ _ _ s
  | CreateCoverpoint _ _ _ _ s | CreateCross _ _ _ _ s _ | CreateCoverInstance _ _ _ _ s => s
  | _ => SRC_NONE
  end.
Definition kept_flags (d : db) (o : op) : N :=
  match o, sort_made d o with
  | CreateScope _ _ _ _ _ _ f, Plain => f
  | CreateInstance _ _ _ _ _ _ _ f, _ => f
  | CreateToggle _ _ f, _ => f
  | _, _ => 0%N
  end.

(** The references the new scope holds: the design unit of an instance, the
    crossed coverpoints of a cross, in the order given. *)
Definition design_unit (n : node) : option handle :=
  match a_cls (n_attrs n) with KInst u => u | _ => None end.
Definition crossed (n : node) : list handle :=
  match a_cls (n_attrs n) with KCross l => map r_path l | _ => [] end.
Definition given_unit (o : op) : option handle :=
  match o with CreateInstance _ _ _ _ _ _ u _ => u | _ => None end.
Definition given_points (o : op) : list handle :=
  match o with CreateCross _ _ _ _ _ l => l | _ => [] end.
