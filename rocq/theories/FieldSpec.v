(** Setters, getters and history nodes: what they promise. *)
From Verif Require Import Base Consts Db Hist Api ApiSpec.
Set Implicit Arguments.

(** ** Setters of scopes *)

(** The settable fields, the value a setter is called with, and what the getter of
    the same name returns.  (scope.py:133-145 and the classes below it) *)
Inductive fname := NWeight | NGoal | NAtLeast | NAutoBinMax | NDetectOverlap | NStrobe | NComment | NPerInstance | NMergeInstances.
Inductive fval := IntVal (z : Z) | BoolVal (b : bool) | TextVal (t : string).
Definition field_set (f : field) : fname :=
  match f with
  | FWeight _ => NWeight | FGoal _ => NGoal | FAtLeast _ => NAtLeast | FAutoBinMax _ => NAutoBinMax
  | FDetectOverlap _ => NDetectOverlap | FStrobe _ => NStrobe | FComment _ => NComment
  | FPerInstance _ => NPerInstance | FMergeInstances _ => NMergeInstances
  end.
Definition value_given (f : field) : fval :=
  match f with
  | FWeight z | FGoal z | FAtLeast z | FAutoBinMax z | FStrobe z => IntVal z
  | FDetectOverlap b | FPerInstance b | FMergeInstances b => BoolVal b
  | FComment t => TextVal t
  end.
Definition getter (n : fname) (a : attrs) : fval :=
  match n with
  | NWeight => IntVal (a_weight a)
  | NGoal => IntVal (a_goal a)
  | NAtLeast => IntVal (co_atleast (a_cvg a))
  | NAutoBinMax => IntVal (co_autobinmax (a_cvg a))
  | NDetectOverlap => BoolVal (co_overlap (a_cvg a))
  | NStrobe => IntVal (co_strobe (a_cvg a))
  | NComment => TextVal (co_comment (a_cvg a))
  | NPerInstance => BoolVal (co_perinst (a_cvg a))
  | NMergeInstances => BoolVal (co_mergeinst (a_cvg a))
  end.
(** The classes that have the setter: all, coverage scopes, covergroups. *)
Definition has_setter (c : cls) (n : fname) : bool :=
  match n, c with
  | (NWeight | NGoal), _ => true
  | (NPerInstance | NMergeInstances), KCovergroup => true
  | (NPerInstance | NMergeInstances), _ => false
  | _, (KCovergroup | KCoverpoint | KCross _) => true
  | _, _ => false
  end.
(** The integer property that shows the same field; comments have none. *)
Definition shown_as (n : fname) : option intprop :=
  match n with
  | NWeight => Some SCOPE_WEIGHT | NGoal => Some SCOPE_GOAL | NAtLeast => Some CVG_ATLEAST | NAutoBinMax => Some CVG_AUTOBINMAX
  | NDetectOverlap => Some CVG_DETECTOVERLAP | NStrobe => Some CVG_STROBE | NComment => None
  | NPerInstance => Some CVG_PERINSTANCE | NMergeInstances => Some CVG_MERGEINSTANCES
  end.
Definition as_int (v : fval) : Z := match v with IntVal z => z | BoolVal true => 1%Z | BoolVal false => 0%Z | TextVal _ => 0%Z end.

(** ** History nodes *)
(** What a new history node answers, besides the names, kind and parent given. *)
Definition hist_initial (now : Z) (f : hist_field) : pyval :=
  match f with
  | HStatus => VEnum 1 "TestStatusT.OK"
  | HSimTime | HCpuTime => VFloat "-1.0"
  | HDate => VInt now
  | HCost | HSameTests => VInt (-1)
  | HToolCategory | HVendorId | HVendorTool | HVendorToolVersion => VStr "unknown"
  | HTimeUnit | HRunCwd | HSeed | HCmd | HArgs | HCompulsory | HUserName | HComment => VNone
  end.
(** What is said about a node once and for all. *)
Definition same_node (a b : hist) : Prop :=
  h_parent b = h_parent a /\ h_logical b = h_logical a /\ h_physical b = h_physical a /\ h_kind b = h_kind a /\ h_version b = h_version a.
(** The call assigns field [f] of node [i]. *)
Definition assigns (i : nat) (f : hist_field) (o : op) : bool :=
  match o with
  | SetHist j g _ => Nat.eqb i j && hist_field_eqb f g
  | SetTestData j t => Nat.eqb i j && existsb (fun p => hist_field_eqb f (fst p)) (test_fields t)
  | _ => false
  end.
