(** Reports of merged runs. *)
From Coq Require Import QArith Permutation.
From Verif Require Import Base Dict Consts Db Report ReportSpec Merge MergeSpec MergeReportSpec ReportQ ReportMono MergeReport MergeReportPerm Samples P_Merge.
Set Implicit Arguments.
Local Open Scope nat_scope.

(** Several runs of one testbench: the same covergroups, points, bins,
    thresholds and weights; sound names, counts and weights. *)
Definition runs (srcs : list db) : Prop :=
  (forall a b, In a srcs -> In b srcs -> same_structure (db_root a) (db_root b)) /\
  (forall a, In a srcs -> all_names_distinct (db_root a) /\ counts_nonneg (db_root a) /\
                          flat_instances (db_root a) /\ nonneg_weights (db_root a)).

(** * C89 *)

(** No percentage of the report of the merged runs is below that of any run;
    the merged database has the structure of the runs; and if one of the runs
    has a report, so has the merged database. *)
Theorem C89_merge_never_lowers :
  forall srcs dst', runs srcs -> merge empty_db srcs = (dst', Ok tt) ->
  forall a, In a srcs ->
  same_structure (db_root a) (db_root dst') /\
  forall r, build_report QA a = Ok r ->
  exists r', build_report QA dst' = Ok r' /\ Forall2 Qle (report_numbers r) (report_numbers r').
Proof.
  intros srcs dst' [Hl Hg] Hm a Ha. split.
  - eapply BaseFacts.Forall2_imp; [|apply (@runs_grow srcs dst' Hm Hl Hg a Ha)]. intros i j. apply grow_like_inst.
  - intros r Hr. destruct (@runs_exists srcs dst' Hm Hl Hg a r Ha Hr) as [r' Hr']. exists r'. split; auto.
    apply (@runs_report srcs dst' Hm Hl Hg a r r' Ha Hr Hr').
Qed.
Print Assumptions C89_merge_never_lowers.

(** In particular full coverage is kept. *)
Theorem C89_full_stays_full :
  forall srcs dst' a r r', runs srcs -> merge empty_db srcs = (dst', Ok tt) -> In a srcs ->
  build_report QA a = Ok r -> build_report QA dst' = Ok r' ->
  (r_cov r == 100 -> r_cov r' == 100)%Q.
Proof.
  intros srcs dst' a r r' HR Hm Ha Hr Hr' Hq.
  destruct (C89_merge_never_lowers HR Hm a Ha) as [_ H]. destruct (H r Hr) as (r2 & E & HL).
  rewrite Hr' in E. injection E as <-. 
  pose proof (@report_range dst' r' (@runs_nonneg srcs dst' Hm (proj2 HR)) Hr') as HF.
  unfold report_numbers in *. inversion HL as [|? ? ? ? Hle _]; subst. inversion HF as [|? ? [_ Hle'] _]; subst.
  apply Qle_antisym; auto. eapply Qle_trans; [|exact Hle]. rewrite Hq. apply Qle_refl.
Qed.
Print Assumptions C89_full_stays_full.

(** The order of the runs does not matter to the report. *)
Theorem C89_order_of_runs :
  forall srcs srcs' d d' r r', runs srcs -> Permutation srcs srcs' ->
  merge empty_db srcs = (d, Ok tt) -> merge empty_db srcs' = (d', Ok tt) ->
  build_report QA d = Ok r -> build_report QA d' = Ok r' ->
  Forall2 Qeq (report_numbers r) (report_numbers r').
Proof. intros srcs srcs' d d' r r' [Hl Hg] Hp Hm Hm' Hr Hr'. apply (@runs_order srcs srcs' d d' r r' Hp Hm Hm' Hl Hg Hr Hr'). Qed.
Print Assumptions C89_order_of_runs.

(** Two runs that reach different bins. *)
Definition run (a b c : Z) : db :=
  mkdb [ du "top"; inst "top.i0" [0] [ cg "cg" 2
    [ cp "a" 3 [bin "lo" 1 a; bin "hi" 2 b]; cp "b" 1 [bin "x" 1 c];
      cross "axb" 1 [CpRef [1; 0; 0] "a"; CpRef [1; 0; 1] "b"] [bin "<lo,x>" 1 c];
      ci "cg_1" 1 [ cp "a" 3 [bin "lo" 1 a; bin "hi" 2 b] ] ] ] ].
Lemma run_good a b c : (0 <= a -> 0 <= b -> 0 <= c ->
  all_names_distinct (db_root (run a b c)) /\ counts_nonneg (db_root (run a b c)) /\
  flat_instances (db_root (run a b c)) /\ nonneg_weights (db_root (run a b c)))%Z.
Proof.
  intros Ha Hb Hc. split; [|split; [|split]].
  - unfold all_names_distinct. vm_compute instances.
    repeat constructor; try (simpl; intuition discriminate); try (intros []; all_kids).
  - repeat (constructor; simpl; auto).
  - unfold flat_instances. vm_compute instances. repeat constructor.
  - repeat (constructor; simpl; try discriminate).
Qed.
Example C89_example : runs [run 1 0 0; run 0 2 1] /\ fit (db_root (run 1 0 0)) /\ fit (db_root (run 0 2 1)) /\
  exists d r, merge empty_db [run 1 0 0; run 0 2 1] = (d, Ok tt) /\ build_report QA d = Ok r /\ (r_cov r == 100)%Q /\
  exists r1 r2, build_report QA (run 1 0 0) = Ok r1 /\ build_report QA (run 0 2 1) = Ok r2 /\ (r_cov r1 == 30)%Q /\ (r_cov r2 == 70)%Q.
Proof.
  split; [split|split; [|split]].
  - intros a b [<-|[<-|[]]] [<-|[<-|[]]]; unfold same_structure; vm_compute instances; repeat constructor.
  - intros a [<-|[<-|[]]]; apply run_good; discriminate.
  - apply Forall_forall. intros i Hi. vm_compute in Hi. destruct Hi as [<-|[]]. split; [vm_compute; discriminate|].
    unfold cg_fit, points_fit. repeat constructor; try (intros []; all_kids); try (eexists; split; [reflexivity|]); simpl; intuition; subst; simpl; auto.
  - apply Forall_forall. intros i Hi. vm_compute in Hi. destruct Hi as [<-|[]]. split; [vm_compute; discriminate|].
    unfold cg_fit, points_fit. repeat constructor; try (intros []; all_kids); try (eexists; split; [reflexivity|]); simpl; intuition; subst; simpl; auto.
  - eexists. eexists. split; [vm_compute; reflexivity|]. split; [vm_compute; reflexivity|]. split; [reflexivity|].
    eexists. eexists. split; [vm_compute; reflexivity|]. split; [vm_compute; reflexivity|]. split; reflexivity.
Qed.

(** Runs that differ in a threshold are not covered: the threshold of the first
    is used, and a fully covered run can lead to an uncovered merge. *)
Example C89_thresholds_matter :
  exists a b d ra rd, merge empty_db [b; a] = (d, Ok tt) /\ build_report QA a = Ok ra /\ build_report QA d = Ok rd /\
    (r_cov ra == 100 /\ r_cov rd == 0)%Q.
Proof.
  exists (mkdb [ du "top"; inst "i0" [0] [ cg "cg" 1 [ cp "a" 1 [bin "x" 1 1] ] ] ]),
         (mkdb [ du "top"; inst "i0" [0] [ cg "cg" 1 [ cp "a" 1 [bin "x" 5 1] ] ] ]).
  do 3 eexists. split; [vm_compute; reflexivity|]. split; [vm_compute; reflexivity|]. split; [vm_compute; reflexivity|].
  split; reflexivity.
Qed.
