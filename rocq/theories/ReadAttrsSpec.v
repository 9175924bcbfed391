(** What a database read from XML is made of, beyond names, counts and references. *)
From Verif Require Import Base Dict Consts Db.
Set Implicit Arguments.
Local Open Scope Z_scope.

(** Weight 1, source language OTHER, no place in the source *)
Definition as_read (c : cls -> Prop) (type flags : N) (goal : Z) (s : scope) : Prop :=
  c (s_cls s) /\ s_type s = type /\ a_flags (s_attrs s) = flags /\ a_goal (s_attrs s) = goal /\
  s_weight s = 1 /\ a_source (s_attrs s) = 11 /\ s_src s = SrcInfo None (-1) (-1) /\
  a_srctype (s_attrs s) = 0 /\ a_under_du (s_attrs s) = 0 /\ s_iitems s = [].

(** A bin: one of the three kinds, 32 bits with goal and weight, to be hit once *)
Definition bin_as_read (b : item) : Prop :=
  In (cd_type (ci_data b)) [0x1; 0x80000; 0x100000]%N /\
  cd_flags (ci_data b) = 0x19%N /\ cd_goal (ci_data b) = 1 /\ cd_weight (ci_data b) = 1 /\ cd_limit (ci_data b) = 0 /\
  cd_bitlen (ci_data b) = 0 /\ cd_at_least (ci_data b) = Some 1 /\ ci_src b = None.

Definition is_point (c : cls) : Prop := c = KCoverpoint.
Definition is_cross (c : cls) : Prop := exists l, c = KCross l.
Definition is_group (c : cls) : Prop := c = KCovergroup.
Definition is_instance (c : cls) : Prop := exists u, c = KInst (Some u).
Definition is_unit (c : cls) : Prop := c = KScope.

(** Coverpoints and crosses *)
Definition leaf_as_read (s : scope) : Prop :=
  (as_read is_point 0x4000 0 (-1) s \/ as_read is_cross 0x8000 0 (-1) s) /\
  a_cvg (s_attrs s) = CvgOpts 1 64 false 0 "" false false /\ Forall bin_as_read (s_items s) /\ s_kids s = [].
(** Covergroup instances and covergroups *)
Definition group_opts (s : scope) : Prop := a_cvg (s_attrs s) = CvgOpts 0 64 false 0 "" true true /\ s_items s = [].
Definition ginst_as_read (s : scope) : Prop :=
  as_read is_group 0x2000 0 (-1) s /\ group_opts s /\ Forall leaf_as_read (s_kids s).
Definition group_as_read (s : scope) : Prop :=
  as_read is_group 0x1000 0 (-1) s /\ group_opts s /\ Forall (fun k => ginst_as_read k \/ leaf_as_read k) (s_kids s).
(** Instances, whose flag says that they are the only ones of their design unit, and design
    units, whose flags say that all kinds of coverage are there *)
Definition child_as_read (s : scope) : Prop :=
  as_read is_instance 0x10 0x1 100 s /\ s_items s = [] /\ Forall group_as_read (s_kids s) \/
  as_read is_unit 0x1000000 0x17F (-1) s /\ s_items s = [] /\ s_kids s = [].
