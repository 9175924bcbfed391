(** Property theorems about reports with very large weights: C106. *)
From Coq Require Import Reals.
From Flocq Require Import Core BinarySingleNaN.
From Verif Require Import Base Dict Consts Db BaseFacts Report ReportSpec ReportQ ReportMono Float64 Float64Spec Float64All Overflow OverflowSpec OverflowFacts Samples P_Report.
Set Implicit Arguments.
Local Open Scope Z_scope.

(** A report is built if and only if C30's condition holds and the weights can be made
    floats; if only the latter is missing, OverflowError is raised. *)
Theorem C106_reports_built : forall d, (exists r, build_report_py d = Ok r) <-> complete d /\ weights_fit d.
Proof.
  intros d. pose proof (report_py d) as P. split.
  - intros [r E]. now rewrite E in P.
  - intros [C W]. destruct (build_report_py d) as [r|e]; [eauto|]. now destruct (P C) as [_ N].
Qed.
Print Assumptions C106_reports_built.
Theorem C106_overflow : forall d, complete d -> ~ weights_fit d -> build_report_py d = Err OverflowError.
Proof. intros d C N. pose proof (report_py d) as P. destruct (build_report_py d) as [r|e]; [now destruct P|]. now destruct (P C) as [-> _]. Qed.
Print Assumptions C106_overflow.

(** When all weights can be made floats, the report is the one of Report.v in doubles,
    with the same exception if there is one; in particular for the databases the theorems
    about doubles (C33 ff.) are about. *)
Theorem C106_same : forall d, all_weights_fit d -> build_report_py d = build_report F64 d.
Proof. exact report_same. Qed.
Print Assumptions C106_same.
Theorem C106_light : forall d, nonneg_weights (db_root d) -> light_db d -> build_report_py d = build_report F64 d.
Proof.
  intros d H L. apply C106_same. pose proof (fine_insts d H L) as FI. eapply Forall_impl; [|exact FI]. intros i Fi. split; [|split].
  - apply Forall_forall. intros g I. apply fine_weighs. exact (fine_inst_kid i g Fi I).
  - intros g I _. destruct Fi as (Wi & Si & _). apply small_fits. pose proof (@in_sum _ _ (kids_nonneg 12 Wi) (in_map s_weight _ _ I)) as S. unfold covergroups in *. lia.
  - apply small_fits. split; [exact (fine_inst_weights i Fi)|apply Fi].
Qed.
Print Assumptions C106_light.

(** An int can be made a float if and only if it is representable. *)
Theorem C106_float : forall z, is_finite (of_Z z) = true <-> representable z.
Proof. exact fits_spec. Qed.
Print Assumptions C106_float.

(** ** Examples: a weight of 2^1024 - 2^970, and one less.  The weight of a point without
    bins does no harm as long as the sum of the weights is small. *)
Definition weighted (w w' : Z) (bins : list item) : db :=
  mkdb [du "top"; inst "i" [O] [cg "g" 1 [cp "p" w bins; cp "q" w' [bin "x" 1 1]]]].
Definition edge : Z := 2 ^ 1024 - 2 ^ 970.
Definition shown (r : res (report F64)) : res SpecFloat.spec_float := let* x := r in Ok (B2SF (r_cov x)).
Example C106_examples :
  shown (build_report_py (weighted edge 1 [bin "a" 1 1])) = Err OverflowError /\
  shown (build_report_py (weighted (edge - 1) 1 [bin "a" 1 1])) = Err OverflowError /\
  shown (build_report_py (weighted 1000 24 [bin "a" 1 1])) = Ok (B2SF (of_Z 100)) /\
  shown (build_report_py (weighted edge (1 - edge) [])) = Ok (SpecFloat.S754_zero false) /\
  shown (build_report F64 (weighted edge (1 - edge) [])) = Ok SpecFloat.S754_nan.
Proof. repeat split; vm_compute; reflexivity. Qed.
Lemma weighs_point s p : weighs s -> In p (coverpoints s) -> 0 < s_weight p -> normal_bins p <> [] -> representable (s_weight p).
Proof. intros W. destruct W as [s P _ _]. apply P. Qed.
Example C106_witness :
  let d := weighted edge 1 [bin "a" 1 1] in complete d /\ ~ weights_fit d /\ all_weights_fit (weighted 1000 3 []).
Proof.
  cbn zeta. split; [|split].
  - repeat constructor; try discriminate; intros H; vm_compute in H; discriminate H.
  - intros H. apply Forall_inv in H. destruct H as (W & _). apply Forall_inv in W.
    assert (R : representable edge) by (apply (@weighs_point _ (cp "p" edge [bin "a" 1 1]) W); [now left|reflexivity|discriminate]). unfold representable, edge in R. lia.
  - constructor; [|constructor]. split; [constructor; [|constructor]; constructor|split].
    + intros p [<-|[<-|[]]] _; apply fits_spec; vm_compute; reflexivity.
    + intros _. apply fits_spec; vm_compute; reflexivity.
    + constructor.
    + intros g [<-|[]] _; apply fits_spec; vm_compute; reflexivity.
    + apply fits_spec; vm_compute; reflexivity.
Qed.
