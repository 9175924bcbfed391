(** Which exceptions calls raise, written without reference to the model of the
    calls. *)
From Verif Require Import Base Consts Db Hist Api ApiSpec.
Set Implicit Arguments.

(** All objects named in a call exist: the scope it is made on, the design unit
    and the coverpoints passed in, the cover item, the history node. *)
Definition there (d : db) (h : handle) : Prop := view d h <> None.
Definition objects_exist (d : db) (o : op) : Prop :=
  (forall h, target o = Some h -> there d h) /\
  match o with
  | CreateInstance _ _ _ _ _ _ (Some u) _ => there d u
  | CreateCross _ _ _ _ _ points => Forall (there d) points
  | IncrementCover h i _ => item_at d h i <> None
  | SetHist i _ _ | SetTestData i _ => (i < List.length (db_hist d))%nat
  | _ => True
  end.

Definition instance_class (c : cls) : Prop := match c with KInst _ | KToggle => True | _ => False end.
Definition covergroup_class (c : cls) : Prop := c = KCovergroup.
Definition point_class (c : cls) : Prop := match c with KCoverpoint | KCross _ => True | _ => False end.

(** The setters a class has. *)
Definition has_setter (c : cls) (f : field) : Prop :=
  match f with
  | FWeight _ | FGoal _ => True
  | FAtLeast _ | FAutoBinMax _ | FDetectOverlap _ | FStrobe _ | FComment _ => covergroup_class c \/ point_class c
  | FPerInstance _ | FMergeInstances _ => covergroup_class c
  end.

(** A call on a scope of class [c] with [len] statement items fails with [e]. *)
Inductive fails (c : cls) (len : nat) : op -> exn -> Prop :=
| F_scope_in_instance h n s w so t f :
    instance_class c -> N.testbit t 12 = false -> fails c len (CreateScope h n s w so t f) UnimplError
| F_scope h n s w so t f :
    ~ instance_class c -> du_type t = false -> t <> COVERGROUP -> t <> COVERINSTANCE -> t <> COVERPOINT ->
    fails c len (CreateScope h n s w so t f) NotImplementedError
| F_toggle h n f : ~ instance_class c -> fails c len (CreateToggle h n f) UnimplError
| F_coverpoint h n s w so : ~ covergroup_class c -> fails c len (CreateCoverpoint h n s w so) AttributeError
| F_cross h n s w so l : ~ covergroup_class c -> fails c len (CreateCross h n s w so l) AttributeError
| F_coverinst_db h n s w so : c = KDb -> fails c len (CreateCoverInstance h n s w so) TypeError
| F_coverinst h n s w so : c <> KDb -> ~ covergroup_class c -> fails c len (CreateCoverInstance h n s w so) AttributeError
| F_bin h n s al k t : ~ point_class c -> fails c len (CreateBin h n s al k t) AttributeError
| F_set h i p v : writable c p = false -> fails c len (SetInt h i p v) UnimplError
| F_set_index h i v : writable c STMT_INDEX = true -> ~ in_range i len -> fails c len (SetInt h i STMT_INDEX v) IndexError
| F_get h i p : readable c p = false -> fails c len (GetInt h i p) UnimplError
| F_get_index h i : readable c STMT_INDEX = true -> ~ in_range i len -> fails c len (GetInt h i STMT_INDEX) IndexError
| F_setter h f : ~ has_setter c f -> fails c len (SetField h f) AttributeError.
