(** Reports of merged runs, as computed in double precision. *)
From Coq Require Import ZArith Reals Lra Permutation.
From Flocq Require Import Core BinarySingleNaN.
From Verif Require Import Base Dict Consts Db Report ReportSpec ReportFacts ReportMono Merge MergeSpec MergeStruct MergeRefs MergeReportSpec MergeReport MergeReportPerm.
From Verif Require Import Float64 Float64Spec Float64All MergeDouble Samples P_Float P_MergeReport.
Set Implicit Arguments.

Lemma runs_flat srcs dst' : runs srcs -> merge empty_db srcs = (dst', Ok tt) -> flat_instances (db_root dst').
Proof.
  intros [Hl Hg] Hm. eapply Forall_impl; [|exact (@runs_good srcs dst' Hm Hg)]. intros i F. eapply Forall_impl; [|exact F]. intros g [_ H]. exact H.
Qed.
Lemma runs_builds A srcs dst' a r : runs srcs -> merge empty_db srcs = (dst', Ok tt) -> In a srcs -> build_report A a = Ok r ->
  exists r', build_report A dst' = Ok r'.
Proof.
  intros [Hl Hg] Hm Ha Hr.
  assert (exists q, build_report QA a = Ok q) as [q Hq] by (apply build_report_iff; apply (build_report_iff A); eauto).
  destruct (@runs_exists srcs dst' Hm Hl Hg a q Ha Hq) as [q' Hq']. apply build_report_iff. apply (build_report_iff QA). eauto.
Qed.

(** No percentage printed for the merged runs is below the one printed for any of them. *)
Theorem C89_double_never_lowers :
  forall srcs dst', runs srcs -> merge empty_db srcs = (dst', Ok tt) ->
  forall a r, In a srcs -> light_db a -> build_report F64 a = Ok r ->
  exists r', build_report F64 dst' = Ok r' /\
    Forall2 (fun x x' : b64 => (B2R x <= B2R x')%R) (report_numbers r) (report_numbers r').
Proof.
  intros srcs dst' R Hm a r Ha L Hr. destruct (runs_builds _ R Hm Ha Hr) as [r' Hr']. exists r'. split; [exact Hr'|].
  pose proof R as [Hl Hg]. destruct (Hg a Ha) as (_ & _ & Hf & Hw).
  apply (grow_double a dst'); auto; [exact (@runs_grow srcs dst' Hm Hl Hg a Ha)|exact (runs_flat R Hm)].
Qed.
Print Assumptions C89_double_never_lowers.

(** A covergroup or point at exactly 100 in one run is at exactly 100 after the merge. *)
Lemma light_like g h : Forall2 like_points (coverinstances g) (coverinstances h) -> like_points g h ->
  Forall (fun c => coverinstances c = []) (coverinstances h) -> light g -> light h.
Proof.
  assert (E : forall x y, like_points x y -> (sumZ (map s_weight (coverpoints y)) + Z.of_nat (List.length (crosses y)) =
                                             sumZ (map s_weight (coverpoints x)) + Z.of_nat (List.length (crosses x)))%Z).
  { intros x y (_ & F & G). f_equal.
    - clear - F. induction F as [|p q l l' [[_ W] _] _ IH]; [reflexivity|]. cbn. rewrite W. unfold sumZ in *. lia.
    - f_equal. symmetry. eapply Forall2_len. exact G. }
  intros F H Z L. inversion L as [? L1 L2]; subst. constructor; [now rewrite (E g h H)|].
  clear - E F Z L2. induction F as [|x y l l' H _ IH]; constructor; inversion Z as [|? ? Z1 Z2]; inversion L2 as [|? ? L3 L4]; subst; auto.
  inversion L3 as [? L5 _]; subst. constructor; [now rewrite (E x y H)|]. rewrite Z1. constructor.
Qed.
Lemma runs_light srcs dst' a : runs srcs -> merge empty_db srcs = (dst', Ok tt) -> In a srcs -> light_db a -> light_db dst'.
Proof.
  intros R Hm Ha L. pose proof (runs_flat R Hm) as FF. pose proof R as [Hl Hg]. pose proof (@runs_grow srcs dst' Hm Hl Hg a Ha) as G. unfold light_db, flat_instances in *.
  clear - FF G L. induction G as [|i j l l' [_ H] _ IH]; constructor; inversion FF as [|? ? F1 F2]; inversion L as [|? ? [W L1] L2]; subst; auto. split.
  - replace (sumZ (map s_weight (covergroups j))) with (sumZ (map s_weight (covergroups i))); [exact W|].
    clear - H. induction H as [|x y l l' [[[_ E] _] _] _ IH]; [reflexivity|]. cbn. rewrite E. unfold sumZ in *. lia.
  - clear - H F1 L1. induction H as [|x y l l' H _ IH]; constructor; inversion F1 as [|? ? F1a F1b]; inversion L1 as [|? ? L1a L1b]; subst; auto.
    apply grow_like_cg in H. destruct H as [H1 H2]. eapply light_like; eassumption.
Qed.
Theorem C89_double_full_stays :
  forall srcs dst', runs srcs -> merge empty_db srcs = (dst', Ok tt) ->
  forall a r, In a srcs -> light_db a -> build_report F64 a = Ok r ->
  exists r', build_report F64 dst' = Ok r' /\
    Forall2 (fun x x' : b64 => (B2R x = 100 -> B2R x' = 100)%R) (report_numbers r) (report_numbers r').
Proof.
  intros srcs dst' R Hm a r Ha L Hr. destruct (C89_double_never_lowers R Hm Ha L Hr) as (r' & Hr' & F). exists r'. split; [exact Hr'|].
  pose proof (f64_range dst' r' (@runs_nonneg srcs dst' Hm (proj2 R)) (runs_light R Hm Ha L) Hr') as G.
  revert G. induction F as [|x x' l l' H _ IH]; intros G; constructor; inversion G as [|? ? G1 G2]; subst; auto.
  intros E. destruct G1 as [_ G1]. rewrite E in H. lra.
Qed.
Print Assumptions C89_double_full_stays.

(** In whatever order the runs are merged, the report shows the same numbers, to the last bit. *)
Theorem C89_same_numbers_any_order :
  forall A srcs srcs' d d' r r', runs srcs -> Permutation srcs srcs' ->
  merge empty_db srcs = (d, Ok tt) -> merge empty_db srcs' = (d', Ok tt) ->
  build_report A d = Ok r -> build_report A d' = Ok r' -> report_numbers r = report_numbers r'.
Proof.
  intros A srcs srcs' d d' r r' R P M M' B B'.
  assert (R' : runs srcs').
  { destruct R as [Hl Hg]. split; intros; [apply Hl|apply Hg]; (eapply Permutation_in; [apply Permutation_sym, P|assumption]). }
  assert (HP : forall l l' e e', Permutation l l' -> runs l -> merge empty_db l = (e, Ok tt) -> merge empty_db l' = (e', Ok tt) ->
            Forall2 grow_inst (instances (db_root e)) (instances (db_root e'))).
  { intros l l' e e' Q [Hl Hg] He He'. apply (@root_perm (db_root e) (db_root e') (map db_root l) (map db_root l')).
    - apply (merge_is_merge _ _ He).
    - apply (merge_is_merge _ _ He').
    - apply Permutation_map. exact Q.
    - intros a b Ha Hb. apply in_map_iff in Ha, Hb. destruct Ha as (x & <- & Ha). destruct Hb as (y & <- & Hb). auto.
    - intros a Ha. apply in_map_iff in Ha. destruct Ha as (x & <- & Ha). apply (Hg x Ha). }
  apply (grow_both A d d'); auto; [apply (HP srcs srcs'); auto|apply (HP srcs' srcs); auto; now apply Permutation_sym|exact (runs_flat R M)|exact (runs_flat R' M')].
Qed.
Print Assumptions C89_same_numbers_any_order.

Example C89_double_example : runs [run 1 0 0; run 0 2 1] /\ light_db (run 1 0 0) /\
  match merge empty_db [run 1 0 0; run 0 2 1] with
  | (d, Ok tt) => match build_report F64 (run 1 0 0), build_report F64 d with
                  | Ok r, Ok r' => B2SF (r_cov r : b64) = SpecFloat.S754_finite false 8444249301319680 (-48) /\   (* 30.0 *)
                                   B2SF (r_cov r' : b64) = SpecFloat.S754_finite false 7036874417766400 (-46)     (* 100.0 *)
                  | _, _ => False
                  end
  | _ => False
  end.
Proof. split; [exact (proj1 C89_example)|]. split; [sizes|]. vm_compute. auto. Qed.
