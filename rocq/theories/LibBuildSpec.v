(** What C91 and C92 ask of the shared-library back end. *)
From Verif Require Import Base Consts Db Lib P_Lib LibBuild.
Local Open Scope Z_scope.

(** [v] is the number that is left of [z] in an integer of 32 bits. *)
Definition kept32 (z v : Z) : Prop := i32 v /\ (v - z) mod 2 ^ 32 = 0.
Definition keptu32 (z v : Z) : Prop := u32 v /\ (v - z) mod 2 ^ 32 = 0.

(** The scope with handle [i] is directly below [parent] (None: at the top) and
    of type [t]. *)
Definition is_below (L : library) (parent : option nat) (i : nat) (t : Z) : Prop :=
  match nth_error (lb_made L) i with
  | Some (MScope p _ _ _ _ t' _) | Some (MInstance p _ _ _ _ t' _ _) => p = parent /\ t' = t
  | Some (MCross p _ _ _ _ _) => p = parent /\ t = 32768
  | Some (MToggle p _ _ _ _ _ _) => p = parent /\ t = 1
  | _ => False
  end.

(** A type and a mask have a bit in common, among the lower 32. *)
Definition hit32 (t : Z) (mask : N) : Prop :=
  exists n, 0 <= n < 32 /\ Z.testbit t n = true /\ Z.testbit (Z.of_N mask) n = true.

(** The integer properties that are [changed] (by object and number; the index
    is -1) have their new value, and everything else in the library is as it was. *)
Definition only_ints (L L' : library) (changed : option nat -> N -> Z -> Prop) : Prop :=
  lb_made L' = lb_made L /\ lb_covers L' = lb_covers L /\
  l_str (lb_props L') = l_str (lb_props L) /\ l_test (lb_props L') = l_test (lb_props L) /\
  (forall o p v, changed o p v -> l_int (lb_props L') o (-1) p = Some v) /\
  (forall o index p, (forall v, ~ (index = -1 /\ changed o p v)) ->
     l_int (lb_props L') o index p = l_int (lb_props L) o index p).

(** The same library, whatever its properties. *)
Definition same_library (L L' : library) : Prop :=
  lb_made L' = lb_made L /\ lb_covers L' = lb_covers L /\
  (forall o i p, l_int (lb_props L') o i p = l_int (lb_props L) o i p) /\
  (forall o i p, l_str (lb_props L') o i p = l_str (lb_props L) o i p) /\
  (forall n, l_test (lb_props L') n = l_test (lb_props L) n).

(** The integer properties that a new object of a class gets: goal, and for
    functional coverage at_least, auto_bin_max, detect_overlap, strobe; for
    covergroups also per_instance, get_inst_coverage and merge_instances. *)
Definition initial (c : lcls) (p : N) (v : Z) : Prop :=
  (p = 4%N /\ v = 100) \/
  (match c with WCovergroup | WCoverpoint | WCross => True | _ => False end /\
   ((p = 24%N /\ v = 1) \/ (p = 25%N /\ v = 64) \/ (p = 26%N /\ v = 0) \/ (p = 28%N /\ v = 0))) \/
  (c = WCovergroup /\ ((p = 29%N /\ v = 0) \/ (p = 30%N /\ v = 0) \/ (p = 31%N /\ v = 1))).

(** Covergroups and coverpoints get an empty comment (property 14). *)
Definition has_comment (c : lcls) : Prop := c = WCovergroup \/ c = WCoverpoint.

(** [L'] is [L] with the [new] objects at the end, where object [o] has the
    initial properties of class [c]; nothing else has changed. *)
Definition only_created (L L' : library) (new : list made) (o : option nat) (c : lcls) : Prop :=
  lb_made L' = lb_made L ++ new /\ lb_covers L' = lb_covers L /\
  l_test (lb_props L') = l_test (lb_props L) /\
  (forall p v, initial c p v -> l_int (lb_props L') o (-1) p = Some v) /\
  (has_comment c -> l_str (lb_props L') o (-1) 14 = Some ""%string) /\
  (forall o' i p, ~ (o' = o /\ i = -1 /\ exists v, initial c p v) ->
     l_int (lb_props L') o' i p = l_int (lb_props L) o' i p) /\
  (forall o' i p, ~ (o' = o /\ i = -1 /\ p = 14%N /\ has_comment c) ->
     l_str (lb_props L') o' i p = l_str (lb_props L) o' i p).

(** The calls that create scopes. *)
Inductive call :=
| CScope (w : lref) (name : option string) (src : option psrc) (weight source type flags : Z)
| CInstance (w : lref) (name : option string) (src : option psrc) (weight source type : Z)
            (du : option lref) (flags : Z)
| CCovergroup (w : lref) (name : option string) (src : option psrc) (weight source : Z)
| CCoverpoint (w : lref) (name : option string) (src : option psrc) (weight source : Z)
| CCross (w : lref) (name : option string) (src : option psrc) (weight source : Z) (points : list lref)
| CCoverInstance (w : lref) (name : option string) (src : option psrc) (weight source : Z)
| CToggle (w : lref) (name canonical : option string) (flags metric type dir : Z).

Definition perform (agrees : library -> made -> bool) (c : call) : ST library lref :=
  match c with
  | CScope w n s wt so t f => create_scope agrees w n s wt so t f
  | CInstance w n s wt so t du f => create_instance agrees w n s wt so t du f
  | CCovergroup w n s wt so => create_covergroup agrees w n s wt so
  | CCoverpoint w n s wt so => create_coverpoint agrees w n s wt so
  | CCross w n s wt so ps => create_cross agrees w n s wt so ps
  | CCoverInstance w n s wt so => create_cover_instance agrees w n s wt so
  | CToggle w n cn f m t d => create_toggle agrees w n cn f m t d
  end.

(** A source info as the library gets it. *)
Inductive src_given : option psrc -> option lsrc -> Prop :=
| src_none : src_given None None
| src_some : forall fh line token line' token', kept32 line line' -> kept32 token token' ->
    src_given (Some (PSrc (Some (LFile fh)) line token)) (Some (LSrc fh line' token')).

(** What each call asks of the library, and the class of the result. *)
Inductive asks : call -> made -> lcls -> Prop :=
| asks_scope : forall w n n' s s' wt wt' so so' t f f',
    match n, n' with Some a, Some b => c_string a b | None, None => True | _, _ => False end ->
    src_given s s' -> kept32 wt wt' -> kept32 so so' -> u64 t -> kept32 f f' ->
    asks (CScope w n s wt so t f) (MScope (r_obj w) n' s' wt' so' t f') WScope
| asks_instance : forall w n n' s s' wt wt' so so' t du f f',
    c_string n n' -> src_given s s' -> kept32 wt wt' -> kept32 so so' -> u64 t -> kept32 f f' ->
    asks (CInstance w (Some n) s wt so t (Some du) f)
         (MInstance (r_obj w) n' s' wt' so' t (r_obj du) f') WScope
| asks_covergroup : forall w n n' s s' wt wt' so so',
    c_string n n' -> src_given s s' -> kept32 wt wt' -> kept32 so so' ->
    asks (CCovergroup w (Some n) s wt so) (MScope (r_obj w) (Some n') s' wt' so' 4096 0) WCovergroup
| asks_coverpoint : forall w n n' s s' wt wt' so so',
    r_cls w = WCovergroup -> 
    match n, n' with Some a, Some b => c_string a b | None, None => True | _, _ => False end ->
    src_given s s' -> kept32 wt wt' -> kept32 so so' ->
    asks (CCoverpoint w n s wt so) (MScope (r_obj w) n' s' wt' so' 16384 0) WCoverpoint
| asks_cross : forall w n n' s s' wt wt' so so' ps,
    r_cls w = WCovergroup -> c_string n n' -> src_given s s' -> kept32 wt wt' -> kept32 so so' ->
    asks (CCross w (Some n) s wt so ps) (MCross (r_obj w) n' s' wt' so' (map r_obj ps)) WCross
| asks_cover_instance : forall w n n' s s' wt wt' so so',
    r_cls w = WCovergroup -> c_string n n' -> src_given s s' -> kept32 wt wt' -> kept32 so so' ->
    asks (CCoverInstance w (Some n) s wt so) (MScope (r_obj w) (Some n') s' wt' so' 8192 0) WCovergroup
| asks_toggle : forall w n n' cn cn' f f' m m' t t' d d',
    c_string n n' ->
    match cn, cn' with Some a, Some b => c_string a b | None, None => True | _, _ => False end ->
    keptu32 f f' -> kept32 m m' -> kept32 t t' -> kept32 d d' ->
    asks (CToggle w (Some n) cn f m t d) (MToggle (r_obj w) n' cn' f' m' t' d') WScope.

(** The calls that look at the library's answer. *)
Definition checked (c : call) : bool :=
  match c with CScope _ _ _ _ _ _ _ | CInstance _ _ _ _ _ _ _ _ | CCoverpoint _ _ _ _ _ => true | _ => false end.

(** Calls that cannot be carried out, and the exception. *)
Inductive wrong : call -> exn -> Prop :=
| wrong_class_point : forall w n s wt so, r_cls w <> WCovergroup -> wrong (CCoverpoint w n s wt so) AttributeError
| wrong_class_cross : forall w n s wt so ps, r_cls w <> WCovergroup -> wrong (CCross w n s wt so ps) AttributeError
| wrong_class_inst : forall w n s wt so, r_cls w <> WCovergroup -> wrong (CCoverInstance w n s wt so) AttributeError
| wrong_src : forall c line token,
    (exists w n wt so t f, c = CScope w n (Some (PSrc None line token)) wt so t f) \/
    (exists w n wt so t u f, c = CInstance w n (Some (PSrc None line token)) wt so t u f) \/
    (exists w n wt so, c = CCovergroup w n (Some (PSrc None line token)) wt so \/
       c = CCoverpoint w n (Some (PSrc None line token)) wt so \/
       c = CCoverInstance w n (Some (PSrc None line token)) wt so \/
       exists ps, c = CCross w n (Some (PSrc None line token)) wt so ps) ->
    wrong c AttributeError
| wrong_name_inst : forall w s s' wt so t u f, src_given s s' -> wrong (CInstance w None s wt so t u f) TypeError
| wrong_name_group : forall w s s' wt so, src_given s s' -> wrong (CCovergroup w None s wt so) TypeError
| wrong_name_cross : forall w s s' wt so ps, r_cls w = WCovergroup -> src_given s s' ->
    wrong (CCross w None s wt so ps) TypeError
| wrong_name_cinst : forall w s s' wt so, r_cls w = WCovergroup -> src_given s s' ->
    wrong (CCoverInstance w None s wt so) TypeError
| wrong_name_toggle : forall w cn f m t d, wrong (CToggle w None cn f m t d) TypeError
| wrong_du : forall w n s s' wt so t f, src_given s s' -> wrong (CInstance w (Some n) s wt so t None f) AttributeError.

(** The setters of options: which classes have them, and the integer property
    and value that each stands for (None: the comment). *)
Definition has_setter (c : lcls) (f : lfield) : Prop :=
  match f with
  | LGoal _ => True
  | LPerInstance _ | LGetInstCoverage _ | LMergeInstances _ => c = WCovergroup
  | _ => c = WCovergroup \/ c = WCoverpoint \/ c = WCross
  end.
Definition stands_for (f : lfield) : option (N * Z) :=
  match f with
  | LGoal v => Some (4%N, v)
  | LAtLeast v => Some (24%N, v)
  | LAutoBinMax v => Some (25%N, v)
  | LDetectOverlap b => Some (26%N, if b then 1 else 0)
  | LStrobe b => Some (28%N, if b then 1 else 0)
  | LPerInstance b => Some (29%N, if b then 1 else 0)
  | LGetInstCoverage b => Some (30%N, if b then 1 else 0)
  | LMergeInstances b => Some (31%N, if b then 1 else 0)
  | LComment _ => None
  end.
