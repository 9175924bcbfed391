(** Report percentages over exact rationals. *)
From Coq Require Import QArith Lqa.
From Verif Require Import Base Dict Consts Db Report ReportSpec BaseFacts ReportFacts.
Set Implicit Arguments.
Open Scope Q_scope.

Ltac toQ := change (num QA) with Q in *.

Lemma countb_le {X} (p : X -> bool) l : (countb p l <= List.length l)%nat.
Proof. unfold countb. induction l; simpl; auto. destruct (p a); simpl; lia. Qed.

Lemma pct_eq s : percentage QA (Z.of_nat (hits s)) (Z.of_nat (total s)) = bins_pct s.
Proof.
  unfold percentage, bins_pct.
  destruct (Nat.eqb_spec (total s) 0) as [->|H]; simpl; auto.
  destruct (Z.ltb_spec 0 (Z.of_nat (total s))); [reflexivity | lia].
Qed.

Lemma inject_le a b : (a <= b)%Z -> inject_Z a <= inject_Z b.
Proof. intros. rewrite <- Zle_Qle. auto. Qed.
Lemma inject_lt a b : (a < b)%Z -> inject_Z a < inject_Z b.
Proof. intros. rewrite <- Zlt_Qlt. auto. Qed.
Lemma inject_pos a : (0 < a)%Z -> 0 < inject_Z a.
Proof. intros. apply (inject_lt H). Qed.
Lemma inject_nonneg a : (0 <= a)%Z -> 0 <= inject_Z a.
Proof. intros. apply (inject_le H). Qed.

Lemma bins_pct_range s : 0 <= bins_pct s <= 100.
Proof.
  unfold bins_pct. destruct (Nat.eqb_spec (total s) 0) as [|H]; [lra|].
  assert (0 < inject_Z (Z.of_nat (total s))) by (apply inject_pos; lia).
  assert (Z.of_nat (hits s) <= Z.of_nat (total s))%Z.
  { apply Nat2Z.inj_le. unfold hits, total. apply countb_le. }
  split.
  - apply Qle_shift_div_l; auto. rewrite Qmult_0_l. apply inject_nonneg. lia.
  - apply Qle_shift_div_r; auto. change 100 with (inject_Z 100). rewrite <- inject_Z_mult. apply inject_le. lia.
Qed.

Lemma Qdiv_eq_mul a b q : ~ b == 0 -> (a / b == q <-> a == q * b).
Proof.
  intros H. split; intros E.
  - rewrite <- E. (toQ; field). auto.
  - rewrite E. (toQ; field). auto.
Qed.

Lemma bins_pct_100 s :
  bins_pct s == 100 <-> (total s > 0)%nat /\ forall i, In i (normal_bins s) -> bin_hit i = true.
Proof.
  unfold bins_pct. destruct (Nat.eqb_spec (total s) 0) as [E|H].
  - split; [intros HH; lra | lia].
  - assert (0 < inject_Z (Z.of_nat (total s))) by (apply inject_pos; lia).
    rewrite Qdiv_eq_mul by lra.
    change 100 with (inject_Z 100). rewrite <- inject_Z_mult, inject_Z_injective.
    assert (hits s = total s <-> forall i, In i (normal_bins s) -> bin_hit i = true) as E.
    { unfold hits, total, countb. generalize (normal_bins s). clear. intros l.
      induction l as [|i l IH]; simpl; [tauto|].
      pose proof (countb_le bin_hit l) as HL. unfold countb in HL.
      destruct (bin_hit i) eqn:Ei; simpl.
      - split.
        + intros H j [<-|Hj]; auto. apply IH; auto.
        + intros H. f_equal. apply IH. auto.
      - split; [lia|]. intros H. rewrite (H i (or_introl eq_refl)) in Ei. discriminate. }
    rewrite <- E. lia.
Qed.

(** Sums. *)
Lemma sumQ_app l1 l2 : sumQ (l1 ++ l2) == sumQ l1 + sumQ l2.
Proof. induction l1; simpl; [(toQ; ring) | rewrite IHl1; (toQ; ring)]. Qed.

Definition pw (p : Z * Q) : Q := inject_Z (fst p) * snd p.
Definition pos_parts (l : list (Z * Q)) := filter (fun p => (0 <? fst p)%Z) l.

Lemma cp_fold (cps : list (rcp QA)) (c : Q) d :
  let st := fold_left (@cp_acc QA) cps (c : QA, d) in
  fst st == c + sumQ (map pw (pos_parts (map (fun p : rcp QA => (rp_weight p, rp_cov p : Q)) cps))) /\
  snd st = (d + sumZ (map (@rp_weight QA) cps))%Z.
Proof.
  cbv zeta. revert c d. induction cps as [|p cps IH]; intros c d.
  - simpl. split; [ring | lia].
  - unfold pos_parts. cbn [map filter fold_left fst cp_acc sumZ fold_right].
    destruct (0 <? rp_weight p)%Z.
    + destruct (IH (c + rp_cov p * inject_Z (rp_weight p)) (d + rp_weight p)%Z) as [H1 H2]. split.
      * etransitivity; [exact H1|]. unfold pw, pos_parts. cbn [map sumQ fold_right fst snd]. unfold sumQ. toQ. ring.
      * etransitivity; [exact H2|]. unfold sumZ. lia.
    + destruct (IH c (d + rp_weight p)%Z) as [H1 H2]. split.
      * etransitivity; [exact H1|]. reflexivity.
      * etransitivity; [exact H2|]. unfold sumZ. lia.
Qed.

Lemma cross_fold (xs : list (rcross QA)) (c : Q) d :
  let st := fold_left (@cross_acc QA) xs (c : QA, d) in
  fst st == c + sumQ (map pw (map (fun p : rcross QA => (rx_weight p, rx_cov p : Q)) xs)) /\
  snd st = (d + sumZ (map (@rx_weight QA) xs))%Z.
Proof.
  cbv zeta. revert c d. induction xs as [|p xs IH]; intros c d.
  - simpl. split; [ring | lia].
  - cbn [map fold_left fst cross_acc sumZ fold_right].
    destruct (IH (c + rx_cov p * inject_Z (rx_weight p)) (d + rx_weight p)%Z) as [H1 H2]. split.
    + etransitivity; [exact H1|]. unfold pw. cbn [map sumQ fold_right fst snd]. unfold sumQ. toQ. ring.
    + etransitivity; [exact H2|]. unfold sumZ. lia.
Qed.

(** Total of positive-weight contributions divided by the total weight, as the
    code computes it. *)
Definition code_mean (l : list (Z * Q)) : Q :=
  if (0 <? total_weight l)%Z then sumQ (map pw (pos_parts l)) / inject_Z (total_weight l)
  else sumQ (map pw (pos_parts l)).

Lemma Forall2_map_eq {X Y Z} (f : X -> Z) (g : Y -> Z) l l' :
  Forall2 (fun x y => f x = g y) l l' -> map f l = map g l'.
Proof. induction 1; simpl; congruence. Qed.

Lemma pos_parts_app l1 l2 : pos_parts (l1 ++ l2) = pos_parts l1 ++ pos_parts l2.
Proof. unfold pos_parts. apply filter_app. Qed.

Lemma covergroup_coverage_eq cg cps crs :
  Forall2 (fun c r => build_coverpoint QA c = Ok r) (coverpoints cg) cps ->
  Forall2 (fun c r => build_cross QA c = Ok r) (crosses cg) crs ->
  covergroup_coverage cps crs == code_mean (parts (fun _ => 1%Z) cg).
Proof.
  intros H1 H2. unfold covergroup_coverage.
  destruct (fold_left (@cp_acc QA) cps (@ar_zero QA, 0%Z)) as [c d] eqn:Ecp.
  pose proof (cp_fold cps 0 0%Z) as H3. cbv zeta in H3.
  change (fold_left (@cp_acc QA) cps ((0:Q) : QA, 0%Z)) with (fold_left (@cp_acc QA) cps (@ar_zero QA, 0%Z)) in H3.
  rewrite Ecp in H3. cbn [fst snd] in H3. destruct H3 as [H3 H3'].
  destruct (fold_left (@cross_acc QA) crs (c, d)) as [c' d'] eqn:Ecr.
  pose proof (cross_fold crs c d) as H4. cbv zeta in H4.
  rewrite Ecr in H4. cbn [fst snd] in H4. destruct H4 as [H4 H4'].
  assert (map (fun p : rcp QA => (rp_weight p, rp_cov p : Q)) cps = map (fun c => (s_weight c, bins_pct c)) (coverpoints cg)) as E1.
  { symmetry. apply Forall2_map_eq. eapply Forall2_imp; [|exact H1]. intros s r Hr.
    apply build_coverpoint_ok in Hr. destruct Hr as [(_ & -> & _) ->]. f_equal. symmetry. apply pct_eq. }
  assert (map (fun p : rcross QA => (rx_weight p, rx_cov p : Q)) crs = map (fun c => (1%Z, bins_pct c)) (crosses cg)) as E2.
  { symmetry. apply Forall2_map_eq. eapply Forall2_imp; [|exact H2]. intros s r Hr.
    apply build_cross_ok in Hr. destruct Hr as [_ [-> ->]]. f_equal. symmetry. apply pct_eq. }
  assert (d' = total_weight (parts (fun _ => 1%Z) cg)) as Ed.
  { unfold total_weight, parts. rewrite map_app, sumZ_app, <- E1, <- E2, !map_map. cbn [fst]. rewrite H4', H3'. reflexivity. }
  assert (c' == sumQ (map pw (pos_parts (parts (fun _ => 1%Z) cg)))) as Ec.
  { rewrite H4, H3, E1, E2. unfold parts. rewrite pos_parts_app, map_app, sumQ_app.
    assert (pos_parts (map (fun c0 : scope => (1%Z, bins_pct c0)) (crosses cg)) = map (fun c0 : scope => (1%Z, bins_pct c0)) (crosses cg)) as ->.
    { unfold pos_parts. generalize (crosses cg) as l. induction l as [|x l IHl]; [reflexivity|]. cbn [map filter fst]. change (0 <? 1)%Z with true. rewrite IHl. reflexivity. }
    (toQ; ring). }
  unfold code_mean. rewrite <- Ed. simpl. destruct (0 <? d')%Z; [rewrite Ec|]; try reflexivity. exact Ec.
Qed.

Definition nonneg (l : list (Z * Q)) := Forall (fun p => 0 <= fst p)%Z l.

Lemma nonneg_pos_sum l : nonneg l -> sumQ (map pw (pos_parts l)) == sumQ (map pw l).
Proof.
  unfold pos_parts. induction 1 as [|p l Hp _ IH]; simpl; [reflexivity|].
  destruct (Z.ltb_spec 0 (fst p)); simpl; rewrite IH; [reflexivity|].
  unfold pw at 2. replace (fst p) with 0%Z by lia. unfold inject_Z. (toQ; ring).
Qed.

Lemma nonneg_total l : nonneg l -> (0 <= total_weight l)%Z.
Proof. unfold total_weight. induction 1; simpl; lia. Qed.

Lemma nonneg_zero l : nonneg l -> total_weight l = 0%Z -> sumQ (map pw l) == 0.
Proof.
  induction 1 as [|p l Hp HF IH]; simpl; [reflexivity|]. unfold total_weight in *. simpl.
  intros E. pose proof (nonneg_total HF) as Ht. unfold total_weight in Ht.
  rewrite IH by lia. unfold pw. replace (fst p) with 0%Z by lia. unfold inject_Z. (toQ; ring).
Qed.

Lemma code_mean_spec l : nonneg l -> is_weighted_mean l (code_mean l).
Proof.
  intros H. pose proof (nonneg_total H). unfold code_mean, is_weighted_mean.
  destruct (Z.ltb_spec 0 (total_weight l)) as [Hl|Hl].
  - left. split; [lia|]. rewrite nonneg_pos_sum by auto. unfold weighted_sum. fold pw.
    change (fun p => inject_Z (fst p) * snd p) with pw. (toQ; field).
    intros E. apply inject_pos in Hl. lra.
  - right. split; [lia|]. rewrite nonneg_pos_sum by auto. apply nonneg_zero; auto. lia.
Qed.

Lemma is_weighted_mean_Qeq l q q' : q == q' -> is_weighted_mean l q -> is_weighted_mean l q'.
Proof.
  intros E [[H1 H2]|[H1 H2]]; [left|right]; split; auto.
  - rewrite <- E. auto.
  - rewrite <- E. auto.
Qed.

Lemma parts_nonneg cg :
  Forall (fun c => 0 <= s_weight c)%Z (coverpoints cg) -> nonneg (parts (fun _ => 1%Z) cg).
Proof.
  intros H. unfold parts, nonneg. apply Forall_app. split.
  - induction H; simpl; constructor; auto.
  - induction (crosses cg); simpl; constructor; auto. simpl. lia.
Qed.

Lemma nonneg_weights_cps cg : nonneg_weights cg -> Forall (fun c => 0 <= s_weight c)%Z (coverpoints cg).
Proof.
  intros H. inversion H; subst. unfold coverpoints, kids_with. apply Forall_filter.
  eapply Forall_impl; [|eassumption]. intros a Ha. inversion Ha; auto.
Qed.

(** C24, C25 together: all percentages of a covergroup entry. *)
Lemma build_covergroup_pct cg g :
  nonneg_weights cg -> build_covergroup QA cg = Ok g -> cg_percentages cg g.
Proof.
  revert g. induction cg as [a i ii ks IH] using scope_rect_nested. intros g Hw H.
  apply build_covergroup_level in H. destruct H as (H1 & H2 & H3 & Hg).
  constructor.
  - eapply Forall2_imp; [|exact H1]. intros c p Hp. apply build_coverpoint_ok in Hp.
    destruct Hp as [_ ->]. rewrite pct_eq. reflexivity.
  - eapply Forall2_imp; [|exact H2]. intros c p Hp. apply build_cross_ok in Hp.
    destruct Hp as [_ [_ ->]]. rewrite pct_eq. reflexivity.
  - rewrite Hg. simpl rg_cov. eapply is_weighted_mean_Qeq.
    + symmetry. eapply covergroup_coverage_eq; eauto.
    + apply code_mean_spec, parts_nonneg, nonneg_weights_cps. auto.
  - assert (Forall (fun c => nonneg_weights c /\ forall g, nonneg_weights c -> build_covergroup QA c = Ok g -> cg_percentages c g)
              (coverinstances (Scope a i ii ks))) as HF.
    { unfold coverinstances, kids_with. apply Forall_filter. simpl. inversion Hw; subst. simpl in *.
      clear - IH H0. induction IH; inversion H0; subst; constructor; auto. }
    eapply Forall2_Forall_l; [| exact HF | exact H3]. simpl. intros c g' [Ha Hb] Hc. auto.
Qed.

(** Means stay in the range of their parts. *)
Lemma mean_range l q :
  nonneg l -> Forall (fun p => 0 <= snd p <= 100) l -> is_weighted_mean l q -> 0 <= q <= 100.
Proof.
  intros Hn Hr [[Ht H]|[_ H]]; [|rewrite H; lra].
  assert (0 <= weighted_sum l <= 100 * inject_Z (total_weight l)) as [H1 H2].
  { clear H Ht. unfold weighted_sum, total_weight. induction Hn as [|p l Hp Hn IH]; simpl.
    - unfold inject_Z. lra.
    - inversion Hr; subst. specialize (IH H2). rewrite inject_Z_plus.
      pose proof (inject_nonneg Hp) as Hp'.
      split; [|].
      + assert (0 <= inject_Z (fst p) * snd p) by (apply Qmult_le_0_compat; lra). lra.
      + assert (inject_Z (fst p) * snd p <= inject_Z (fst p) * 100).
        { rewrite !(Qmult_comm (inject_Z (fst p))). apply Qmult_le_compat_r; lra. }
        lra. }
  apply Z.gt_lt in Ht. apply inject_pos in Ht.
  rewrite <- H in H1, H2. split.
  - apply Qmult_le_r with (z := inject_Z (total_weight l)); lra.
  - apply Qmult_le_r with (z := inject_Z (total_weight l)); lra.
Qed.

Lemma parts_range cg : Forall (fun p => 0 <= snd p <= 100) (parts (fun _ => 1%Z) cg).
Proof.
  unfold parts. apply Forall_app. split; apply Forall_map; apply Forall_forall; intros; simpl; apply bins_pct_range.
Qed.

Lemma cg_numbers_eq (A : arith) (g : rcg A) :
  cg_numbers g = rg_cov g :: map (@rp_cov A) (rg_cps g) ++ map (@rx_cov A) (rg_crosses g) ++ flat_map (@cg_numbers A) (rg_cgs g).
Proof. destruct g. simpl. f_equal. Qed.

Lemma cg_pct_range cg g :
  nonneg_weights cg -> cg_percentages cg g -> Forall (fun q : Q => 0 <= q <= 100) (cg_numbers g).
Proof.
  revert g. induction cg as [a i ii ks IH] using scope_rect_nested. intros g Hw H.
  inversion H as [s g' H1 H2 H3 H4]; subst. rewrite cg_numbers_eq. constructor.
  - eapply mean_range; [| apply parts_range | exact H3]. apply parts_nonneg, nonneg_weights_cps. auto.
  - repeat (apply Forall_app; split).
    + clear - H1. induction H1; simpl; constructor; auto. rewrite H. apply bins_pct_range.
    + clear - H2. induction H2; simpl; constructor; auto. rewrite H. apply bins_pct_range.
    + assert (Forall (fun c => nonneg_weights c /\ forall g, nonneg_weights c -> cg_percentages c g -> Forall (fun q : Q => 0 <= q <= 100) (cg_numbers g))
              (coverinstances (Scope a i ii ks))) as HF.
      { unfold coverinstances, kids_with. apply Forall_filter. simpl. inversion Hw; subst. simpl in *.
        clear - IH H5. induction IH; inversion H5; subst; constructor; auto. }
      clear - H4 HF. induction H4; simpl; auto. inversion HF; subst. apply Forall_app. split; auto.
      destruct H2. auto.
Qed.

(** The covergroup contributions to the overall number. *)
Lemma cg_contrib_fold (gs : list (rcg QA)) (c : Q) d :
  fst (fold_left (@cg_contrib QA) gs (c : QA, d)) ==
  c + sumQ (map pw (pos_parts (map (fun g : rcg QA => (rg_weight g, rg_cov g : Q)) gs))).
Proof.
  revert c d. induction gs as [|g gs IH]; intros.
  - simpl. ring.
  - unfold pos_parts. cbn [map filter fold_left fst cg_contrib].
    destruct (0 <? rg_weight g)%Z.
    + etransitivity; [exact (IH (c + rg_cov g * inject_Z (rg_weight g)) (d + rg_weight g)%Z)|].
      unfold pw, pos_parts. cbn [map sumQ fold_right fst snd]. unfold sumQ. toQ. ring.
    + etransitivity; [exact (IH c (d + rg_weight g)%Z)|]. reflexivity.
Qed.

Lemma report_range d r :
  nonneg_weights (db_root d) -> build_report QA d = Ok r ->
  Forall (fun q : Q => 0 <= q <= 100) (report_numbers r).
Proof.
  intros Hw H. apply build_report_ok in H. destruct H as (gss & H1 & Hc & _ & Hcov).
  assert (Forall (fun gs => Forall (fun g : rcg QA => (0 <= rg_weight g)%Z /\ Forall (fun q : Q => 0 <= q <= 100) (cg_numbers g)) gs
             /\ sumZ (map (@rg_weight QA) gs) <> 0%Z) gss) as HF.
  { assert (Forall nonneg_weights (instances (db_root d))) as Hi.
    { unfold instances, kids_with. apply Forall_filter. inversion Hw; auto. }
    clear - H1 Hi. induction H1 as [|s gs ss gss [Ha Hb] _ IH]; constructor; auto.
    - split; auto. inversion Hi; subst. inversion H1; subst.
      assert (Forall nonneg_weights (covergroups s)) as Hg.
      { unfold covergroups, kids_with. apply Forall_filter. auto. }
      clear - Ha Hg. induction Ha; constructor; auto.
      + inversion Hg; subst. split.
        * apply build_covergroup_level in H. destruct H as (_ & _ & _ & ->). simpl. inversion H2; auto.
        * eapply cg_pct_range; eauto. apply build_covergroup_pct; auto.
      + inversion Hg; auto.
    - inversion Hi; auto. }
  unfold report_numbers. constructor.
  - rewrite Hcov. destruct (rev gss) as [|gs t] eqn:E; [simpl; lra|].
    assert (In gs gss) as Hin by (apply in_rev; rewrite E; left; auto).
    rewrite Forall_forall in HF. destruct (HF _ Hin) as [Hgs Hz].
    set (l := map (fun g : rcg QA => (rg_weight g, rg_cov g : Q)) gs).
    assert (nonneg l) as Hn by (unfold l, nonneg; apply Forall_map; eapply Forall_impl; [|exact Hgs]; simpl; tauto).
    assert (total_weight l = sumZ (map (@rg_weight QA) gs)) as Et by (unfold l, total_weight; rewrite map_map; auto).
    eapply (@mean_range l); auto.
    + unfold l. apply Forall_map. eapply Forall_impl; [|exact Hgs]. simpl. intros g [_ Hq].
      rewrite cg_numbers_eq in Hq. inversion Hq; auto.
    + pose proof (nonneg_total Hn). left. split; [lia|].
      rewrite Et. simpl ar_divz. simpl ar_zero.
      transitivity (fst (fold_left (@cg_contrib QA) gs (0, 0%Z))).
      * (toQ; field). intros E0. assert (0 < inject_Z (sumZ (map (@rg_weight QA) gs))) by (apply inject_pos; lia). lra.
      * rewrite cg_contrib_fold. fold l. rewrite nonneg_pos_sum by auto. unfold weighted_sum.
        change (fun p => inject_Z (fst p) * snd p) with pw. (toQ; ring).
  - rewrite Hc. clear - HF. induction HF as [|gs gss [Hgs _] _ IH]; simpl; auto.
    rewrite flat_map_app. apply Forall_app. split; auto.
    clear - Hgs. induction Hgs as [|g gs [_ Hg] _ IH]; simpl; auto. apply Forall_app. auto.
Qed.
