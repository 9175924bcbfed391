(** Whole reports in double precision. *)
From Coq Require Import QArith Qreals ZArith Reals Psatz.
From Flocq Require Import Core BinarySingleNaN.
From Verif Require Import Base Dict Consts Db Report ReportSpec BaseFacts ReportFacts ReportQ ReportMono ReportAll.
From Verif Require Import Float64 Float64Facts Float64Spec Float64Report.
Local Open Scope R_scope.

(** * Two reports side by side *)
Section Rel.
  Variables A A' : arith.
  Variable R0 : A -> A' -> Prop.   (* for points *)
  Variable R : A -> A' -> Prop.
  Variable P PI : scope -> Prop.
  Hypothesis HR : forall x y, R0 x y -> R x y.
  Hypothesis HP : forall s c, P s -> In c (coverinstances s) -> P c.
  Hypothesis HPI : forall i c, PI i -> In c (covergroups i) -> P c.
  Hypothesis Hpt : forall c c', more_hits c c' -> R0 (apct A c) (apct A' c').
  Hypothesis Hcg : forall s s', P s -> more_hits s s' -> R (amean A (aparts A s)) (amean A' (aparts A' s')).
  Hypothesis Hov : forall i i' gs gs', PI i -> more_hits i i' ->
    Forall2 (fun s g => build_covergroup A s = Ok g) (covergroups i) gs ->
    Forall2 (fun s g => build_covergroup A' s = Ok g) (covergroups i') gs' ->
    R (amean A (gparts A gs)) (amean A' (gparts A' gs')).
  Hypothesis Hz : R ar_zero ar_zero.
  Hypothesis HPIw : forall i, PI i -> (0 <= sumZ (map s_weight (covergroups i)))%Z.

  Lemma cg_rel s : forall s' g g', P s -> more_hits s s' ->
    build_covergroup A s = Ok g -> build_covergroup A' s' = Ok g' ->
    Forall2 R (cg_numbers g) (cg_numbers g').
  Proof.
    induction s as [a i ii ks IH] using scope_rect_nested. intros s' g g' Hp Hm B B'.
    rewrite !cg_numbers_eq.
    pose proof (rg_cov_mean _ _ _ B) as Cg. pose proof (rg_cov_mean _ _ _ B') as Cg'.
    pose proof (Hcg _ _ Hp Hm) as H0. rewrite <- Cg, <- Cg' in H0.
    apply build_covergroup_level in B, B'.
    destruct B as (H1 & H2 & H3 & _). destruct B' as (H1' & H2' & H3' & _).
    constructor; [exact H0|]. repeat apply Forall2_app.
    - apply Forall2_map2. eapply F2_trans3; [| exact (more_kids 14 Hm) | exact H1 | exact H1'].
      intros x x' y y' Hx Ey Ey'. cbv beta in Ey, Ey'.
      apply build_coverpoint_ok in Ey, Ey'. destruct Ey as [_ ->], Ey' as [_ ->]. apply HR, Hpt. exact Hx.
    - apply Forall2_map2. eapply F2_trans3; [| exact (more_kids 15 Hm) | exact H2 | exact H2'].
      intros x x' y y' Hx Ey Ey'. cbv beta in Ey, Ey'.
      apply build_cross_ok in Ey, Ey'. destruct Ey as (_ & _ & ->), Ey' as (_ & _ & ->). apply HR, Hpt. exact Hx.
    - pose proof (more_kids 13 Hm) as Hk. fold coverinstances in Hk.
      assert (HF : Forall (fun c => P c /\ forall s' g g', P c -> more_hits c s' ->
                build_covergroup A c = Ok g -> build_covergroup A' s' = Ok g' ->
                Forall2 R (cg_numbers g) (cg_numbers g')) (coverinstances (Scope a i ii ks))).
      { apply Forall_forall. intros c Hc. split; [exact (HP _ _ Hp Hc)|].
        assert (Hk' : In c ks) by (unfold coverinstances, kids_with in Hc; apply filter_In in Hc; exact (proj1 Hc)).
        rewrite Forall_forall in IH. exact (IH c Hk'). }
      clear - HF Hk H3 H3'. revert H3 H3' HF. generalize (rg_cgs g) (rg_cgs g').
      induction Hk as [|c c' cs cs' Hc Hk IHk]; intros l1 l2 H4 H4' HF;
        inversion H4 as [|? g1 ? ? Ga Gb]; inversion H4' as [|? g2 ? ? Ga' Gb']; subst; simpl; auto.
      inversion HF as [|? ? [Hn Hi] HF']; subst. apply Forall2_app; [eapply Hi | apply IHk]; eauto.
  Qed.

  Lemma report_rel d d' r r' :
    Forall PI (instances (db_root d)) -> more_hits (db_root d) (db_root d') ->
    Forall PI (instances (db_root d')) ->
    build_report A d = Ok r -> build_report A' d' = Ok r' ->
    Forall2 R (report_numbers r) (report_numbers r').
  Proof.
    intros Hi Hm Hi' B B'.
    apply overall_mean in B; [|eapply Forall_impl; [|exact Hi]; exact HPIw].
    apply overall_mean in B'; [|eapply Forall_impl; [|exact Hi']; exact HPIw].
    destruct B as (gss & H1 & Hc & Hv). destruct B' as (gss' & H1' & Hc' & Hv').
    pose proof (more_kids 4 Hm) as Hk. fold instances in Hk.
    assert (HF : Forall2 (fun gs gs' => R (amean A (gparts A gs)) (amean A' (gparts A' gs')) /\
                   Forall2 (fun g g' => Forall2 R (cg_numbers g) (cg_numbers g')) gs gs') gss gss').
    { clear - H1 H1' Hi Hk Hov HR HP HPI Hpt Hcg. revert gss gss' H1 H1'.
      induction Hk as [|s s' ss ss' Hs _ IH]; intros gss gss' H1 H1';
        inversion H1 as [|? gs ? ? Ha Ht]; inversion H1' as [|? gs' ? ? Ha' Ht']; subst; constructor.
      2:{ apply IH; auto. inversion Hi; auto. }
      inversion Hi as [|? ? Pi Hi']; subst. split; [eapply Hov; eauto|].
      pose proof (more_kids 12 Hs) as Hk. fold covergroups in Hk.
      assert (Hg : Forall P (covergroups s)) by (apply Forall_forall; intros c Ic; exact (HPI _ _ Pi Ic)).
      clear - Ha Ha' Hk Hg HR HP Hpt Hcg. revert gs gs' Ha Ha'.
      induction Hk as [|c c' l l' Hc _ IH]; intros gs gs' Ha Ha';
        inversion Ha as [|? y ? ? Hy Hl]; inversion Ha' as [|? y0 ? ? Hy0 Hl0]; subst; constructor;
        inversion Hg; subst.
      - eapply cg_rel; eauto.
      - apply IH; auto. }
    unfold report_numbers. constructor.
    - rewrite Hv, Hv'.
      assert (HRv : Forall2 (fun gs gs' => R (amean A (gparts A gs)) (amean A' (gparts A' gs')) /\
                   Forall2 (fun g g' => Forall2 R (cg_numbers g) (cg_numbers g')) gs gs') (rev gss) (rev gss')).
      { clear - HF. induction HF; simpl; auto. apply Forall2_app; auto. }
      inversion HRv as [|? ? ? ? [X _]]; subst; [exact Hz|exact X].
    - rewrite Hc, Hc'. clear - HF. induction HF as [|gs gs' l l' [_ HX] _ IH]; simpl; auto.
      rewrite !flat_map_app. apply Forall2_app; auto.
      clear - HX. induction HX as [|g g' l l' Hq _ IH]; simpl; auto. apply Forall2_app; auto.
  Qed.
End Rel.

Lemma item_more_refl i : item_more i i.
Proof. unfold item_more. repeat split. lia. Qed.

Lemma more_hits_refl s : more_hits s s.
Proof.
  induction s as [a i ii ks IH] using scope_rect_nested. constructor; [reflexivity| |]; cbn.
  - clear. induction i; constructor; auto using item_more_refl.
  - clear - IH. induction IH; constructor; auto.
Qed.

(** * Points *)
Lemma hits_le c : (hits c <= total c)%nat.
Proof. apply countb_le. Qed.

Lemma apct_val c :
  good (apct F64 c) /\
  B2R (apct F64 c : b64) =
    if Nat.eqb (total c) 0 then 0 else rnd (IZR (100 * Z.of_nat (hits c)) / IZR (Z.of_nat (total c))).
Proof.
  unfold apct, percentage. pose proof (hits_le c).
  destruct (Nat.eqb_spec (total c) 0) as [E|E].
  - rewrite E. cbn. split; [split; [reflexivity|cbn; lra]|reflexivity].
  - replace (0 <? Z.of_nat (total c))%Z with true by (symmetry; apply Z.ltb_lt; lia).
    cbn [ar_ratio F64].
    assert (V : is_val (quotient (100 * Z.of_nat (hits c)) (Z.of_nat (total c)))
                       (rnd (IZR (100 * Z.of_nat (hits c)) / IZR (Z.of_nat (total c)))))
      by (apply (quotient_val _ _ 100); [unfold limit|..]; lia).
    destruct V as [F V]. split; [|exact V]. split; [exact F|]. rewrite V.
    apply (rnd_between _ 100); [unfold limit; lia|].
    assert (T : 0 < IZR (Z.of_nat (total c))) by (apply IZR_lt; lia).
    split.
    + apply Rmult_le_pos; [apply IZR_le; lia|]. apply Rlt_le, Rinv_0_lt_compat, T.
    + apply Rmult_le_reg_r with (IZR (Z.of_nat (total c))); [exact T|].
      unfold Rdiv. rewrite Rmult_assoc, Rinv_l by lra. rewrite Rmult_1_r, <- mult_IZR.
      apply IZR_le. lia.
Qed.

Lemma apct_good c : good (apct F64 c).
Proof. apply apct_val. Qed.

Lemma apct_full c : full c -> B2R (apct F64 c : b64) = 100.
Proof.
  intros [T H]. rewrite (proj2 (apct_val c)). destruct (Nat.eqb_spec (total c) 0) as [E|E]; [lia|].
  assert (Eh : hits c = total c).
  { unfold hits, total, countb in *. clear T E. revert H. generalize (normal_bins c).
    induction l as [|x l IH]; intros H; [reflexivity|]. cbn. rewrite (H x (or_introl eq_refl)). cbn.
    rewrite IH; [reflexivity|]. intros i I. apply H. right. exact I. }
  rewrite Eh, mult_IZR. unfold Rdiv. rewrite Rmult_assoc, Rinv_r by (apply not_0_IZR; lia).
  rewrite Rmult_1_r. apply (rnd_int 100). unfold limit; lia.
Qed.

Lemma apct_exact c : Q2R (apct QA c) =
  if Nat.eqb (total c) 0 then 0 else IZR (100 * Z.of_nat (hits c)) / IZR (Z.of_nat (total c)).
Proof.
  unfold apct, percentage. destruct (Nat.eqb_spec (total c) 0) as [E|E].
  - rewrite E. cbn. unfold Q2R. cbn. lra.
  - replace (0 <? Z.of_nat (total c))%Z with true by (symmetry; apply Z.ltb_lt; lia).
    cbn [ar_ratio QA]. rewrite Q2R_div, !Q2R_inject; [reflexivity|].
    intros X. apply Qeq_eqR in X. rewrite Q2R_inject in X. change (Q2R 0) with (0 * / 1) in X.
    assert (0 < IZR (Z.of_nat (total c))) by (apply IZR_lt; lia). lra.
Qed.

Lemma apct_near c : Rabs (B2R (apct F64 c : b64) - Q2R (apct QA c)) <= 100 * u.
Proof.
  rewrite (proj2 (apct_val c)), apct_exact. pose proof (hits_le c).
  destruct (Nat.eqb_spec (total c) 0) as [E|E].
  - rewrite Rminus_0_r, Rabs_R0. unfold u. lra.
  - apply (rnd_error _ 100); [lia|].
    assert (T : 0 < IZR (Z.of_nat (total c))) by (apply IZR_lt; lia).
    split.
    + apply Rmult_le_pos; [apply IZR_le; lia|]. apply Rlt_le, Rinv_0_lt_compat, T.
    + apply Rmult_le_reg_r with (IZR (Z.of_nat (total c))); [exact T|].
      unfold Rdiv. rewrite Rmult_assoc, Rinv_l by lra. rewrite Rmult_1_r, <- mult_IZR.
      apply IZR_le. lia.
Qed.

Lemma apct_le c c' : more_hits c c' -> B2R (apct F64 c : b64) <= B2R (apct F64 c' : b64).
Proof.
  intros H. rewrite (proj2 (apct_val c)), (proj2 (apct_val c')).
  rewrite (more_total H). pose proof (more_hits_count H).
  destruct (Nat.eqb_spec (total c) 0) as [E|E]; [lra|].
  apply rnd_le. apply Rmult_le_compat_r.
  - apply Rlt_le, Rinv_0_lt_compat, IZR_lt. lia.
  - apply IZR_le. lia.
Qed.

(** * Parts of a covergroup *)
Lemma small_46 w : (w <= 2 ^ 46)%Z -> small w.
Proof. unfold small, limit. change (2 ^ 46)%Z with 70368744177664%Z. lia. Qed.

Lemma parts_weight A s :
  weights (aparts A s) = (sumZ (map s_weight (coverpoints s)) + Z.of_nat (List.length (crosses s)))%Z.
Proof.
  unfold weights, aparts. rewrite map_app, sumZ_app, !map_map. cbn [fst]. f_equal.
  induction (crosses s) as [|x l IH]; [reflexivity|]. cbn [map List.length].
  change (sumZ (1%Z :: map (fun _ : scope => 1%Z) l)) with (1 + sumZ (map (fun _ : scope => 1%Z) l))%Z.
  rewrite IH. lia.
Qed.

Lemma parts_length A s :
  List.length (aparts A s) = (List.length (coverpoints s) + List.length (crosses s))%nat.
Proof. unfold aparts. rewrite app_length, !map_length. reflexivity. Qed.

Lemma parts_good s : nonneg_weights s -> Forall good_part (aparts F64 s).
Proof.
  intros H. apply nonneg_weights_cps in H. unfold aparts. apply Forall_app. split; apply Forall_map.
  - eapply Forall_impl; [|exact H]. intros c Hc. split; [exact Hc|apply apct_good].
  - apply Forall_forall. intros c _. split; [cbn; lia|apply apct_good].
Qed.

Lemma parts_near s : Forall2 (near (100 * u)) (aparts F64 s) (aparts QA s).
Proof.
  unfold aparts. apply Forall2_app.
  - induction (coverpoints s); constructor; auto. split; [reflexivity|apply apct_near].
  - induction (crosses s); constructor; auto. split; [reflexivity|apply apct_near].
Qed.

Lemma parts_le s s' : more_hits s s' -> Forall2 part_le (aparts F64 s) (aparts F64 s').
Proof.
  intros H. unfold aparts. apply Forall2_app.
  - pose proof (more_kids 14 H) as K. fold coverpoints in K.
    induction K as [|c c' l l' Hc _ IH]; constructor; auto. split; cbn [fst snd].
    + unfold s_weight. rewrite (more_attrs Hc). reflexivity.
    + apply apct_le. exact Hc.
  - pose proof (more_kids 15 H) as K. fold crosses in K.
    induction K as [|c c' l l' Hc _ IH]; constructor; auto. split; cbn [fst snd]; [reflexivity|].
    apply apct_le. exact Hc.
Qed.

Definition fine_cg (s : scope) : Prop := nonneg_weights s /\ light s.
Definition fine_inst (i : scope) : Prop :=
  nonneg_weights i /\ (sumZ (map s_weight (covergroups i)) <= 2 ^ 46)%Z /\ Forall light (covergroups i).

Lemma kid_nonneg k s c : nonneg_weights s -> In c (kids_with k s) -> nonneg_weights c.
Proof.
  intros H I. inversion H as [? _ H1]; subst. unfold kids_with in I. apply filter_In in I.
  rewrite Forall_forall in H1. apply H1. tauto.
Qed.

Lemma fine_kid s c : fine_cg s -> In c (coverinstances s) -> fine_cg c.
Proof.
  intros [H L] I. split; [exact (kid_nonneg 13 _ _ H I)|].
  inversion L as [? _ L1]; subst. rewrite Forall_forall in L1. apply L1. exact I.
Qed.

Lemma fine_inst_kid i c : fine_inst i -> In c (covergroups i) -> fine_cg c.
Proof.
  intros (H & _ & L) I. split; [exact (kid_nonneg 12 _ _ H I)|].
  rewrite Forall_forall in L. apply L. exact I.
Qed.

Lemma fine_small s : fine_cg s -> small (weights (aparts F64 s)).
Proof. intros [_ L]. rewrite parts_weight. inversion L; subst. apply small_46. assumption. Qed.

Lemma fine_good s : fine_cg s -> good (amean F64 (aparts F64 s)).
Proof. intros H. apply mean_good; [apply parts_good; apply H|apply fine_small; exact H]. Qed.

Lemma fine_inst_weights i : fine_inst i -> (0 <= sumZ (map s_weight (covergroups i)))%Z.
Proof.
  intros (H & _). assert (F : Forall nonneg_weights (covergroups i)).
  { apply Forall_forall. intros c. apply kid_nonneg. exact H. }
  clear - F. induction F as [|c l Hc _ IH]; cbn; [lia|]. inversion Hc; subst. unfold sumZ in *. lia.
Qed.

Lemma gparts_weights A cs gs : Forall2 (fun s g => build_covergroup A s = Ok g) cs gs ->
  weights (gparts A gs) = sumZ (map s_weight cs).
Proof.
  induction 1 as [|c g cs gs B _ IH]; [reflexivity|].
  change (rg_weight g + weights (gparts A gs) = s_weight c + sumZ (map s_weight cs))%Z.
  rewrite IH. apply build_covergroup_level in B. destruct B as (_ & _ & _ & ->). reflexivity.
Qed.

Lemma gparts_good i gs : fine_inst i ->
  Forall2 (fun s g => build_covergroup F64 s = Ok g) (covergroups i) gs ->
  Forall good_part (gparts F64 gs) /\ small (weights (gparts F64 gs)).
Proof.
  intros H F. split.
  - assert (G : Forall fine_cg (covergroups i))
      by (apply Forall_forall; intros c; apply fine_inst_kid; exact H).
    clear - F G. induction F as [|c g cs gs B _ IH]; constructor; inversion G; subst; auto.
    split; cbn [fst snd].
    + apply build_covergroup_level in B. destruct B as (_ & _ & _ & ->). cbn.
      destruct H1 as [N _]. inversion N; assumption.
    + rewrite (rg_cov_mean _ _ _ B). apply fine_good. assumption.
  - rewrite (gparts_weights _ _ _ F). apply small_46. apply H.
Qed.

Lemma fine_insts d : nonneg_weights (db_root d) -> light_db d -> Forall fine_inst (instances (db_root d)).
Proof.
  intros H L. apply Forall_forall. intros i I. split; [exact (kid_nonneg 4 _ _ H I)|].
  unfold light_db in L. rewrite Forall_forall in L. exact (L i I).
Qed.

(** * The results *)
Lemma F2_self {X} (p : X -> Prop) l : Forall2 (fun x _ => p x) l l -> Forall p l.
Proof.
  intros H. remember l as l' in H at 2. clear Heql'. induction H; constructor; auto.
Qed.

Lemma f64_range d r :
  nonneg_weights (db_root d) -> light_db d -> build_report F64 d = Ok r ->
  Forall good (report_numbers r).
Proof.
  intros H L B. apply F2_self.
  assert (Z : good (@ar_zero F64)) by (split; [reflexivity|cbn; lra]).
  pose proof (fine_insts d H L) as FI.
  apply (report_rel F64 F64 (fun x _ => good x) (fun x _ => good x) fine_cg fine_inst) with (d := d) (d' := d);
    auto using more_hits_refl, fine_inst_weights.
  - exact fine_kid.
  - exact fine_inst_kid.
  - intros c c' _. apply apct_good.
  - intros s s' F _. apply fine_good. exact F.
  - intros i i' gs gs' F _ G _. destruct (gparts_good i gs F G). apply mean_good; assumption.
Qed.

Lemma Forall2_len {X Y} (p : X -> Y -> Prop) l l' : Forall2 p l l' -> List.length l = List.length l'.
Proof. induction 1; cbn; congruence. Qed.

Lemma more_light s s' : more_hits s s' -> light s -> light s'.
Proof.
  revert s'. induction s as [a i ii ks IH] using scope_rect_nested. intros s' M L.
  inversion L as [? L1 L2]; subst. constructor.
  - pose proof (more_kids 15 M) as K5. fold crosses in K5. pose proof (more_kids 14 M) as K4. fold coverpoints in K4.
    rewrite <- (Forall2_len _ _ _ K5).
    replace (map s_weight (coverpoints s')) with (map s_weight (coverpoints (Scope a i ii ks))); [exact L1|].
    clear - K4. induction K4 as [|c c' l l' Hc _ IH]; [reflexivity|]. cbn. rewrite IH. f_equal.
    unfold s_weight. rewrite (more_attrs Hc). reflexivity.
  - pose proof (more_kids 13 M) as K. fold coverinstances in K.
    assert (HF : Forall (fun c => forall s', more_hits c s' -> light c -> light s') (coverinstances (Scope a i ii ks))).
    { unfold coverinstances, kids_with. apply Forall_filter. exact IH. }
    clear - K L2 HF. induction K; constructor; inversion L2; inversion HF; subst; auto.
Qed.

Lemma more_fine_inst i i' : more_hits i i' -> fine_inst i -> fine_inst i'.
Proof.
  intros M (H & W & L). split; [exact (more_nonneg M H)|]. split.
  - rewrite (more_weights M). exact W.
  - pose proof (more_kids 12 M) as K. fold covergroups in K.
    clear - K L. induction K; constructor; inversion L; subst; eauto using more_light.
Qed.

Lemma f64_mono d d' r r' :
  more_hits (db_root d) (db_root d') -> nonneg_weights (db_root d) -> light_db d ->
  build_report F64 d = Ok r -> build_report F64 d' = Ok r' ->
  Forall2 (fun x x' : b64 => B2R x <= B2R x') (report_numbers r) (report_numbers r').
Proof.
  intros M H L B B'. pose proof (fine_insts d H L) as FI.
  assert (FI' : Forall fine_inst (instances (db_root d'))).
  { pose proof (more_kids 4 M) as K. fold instances in K. clear - K FI.
    induction K; constructor; inversion FI; subst; eauto using more_fine_inst. }
  apply (report_rel F64 F64 (fun x x' : b64 => B2R x <= B2R x') (fun x x' : b64 => B2R x <= B2R x')
           fine_cg fine_inst) with (d := d) (d' := d');
    auto using fine_inst_weights.
  - exact fine_kid.
  - exact fine_inst_kid.
  - intros c c'. apply apct_le.
  - intros s s' F M'. apply mean_le.
    + apply parts_le. exact M'.
    + apply parts_good. apply F.
    + apply parts_good. apply (more_nonneg M'). apply F.
    + apply fine_small. exact F.
  - intros i i' gs gs' F M' G G'.
    destruct (gparts_good i gs F G) as [G1 S1].
    destruct (gparts_good i' gs' (more_fine_inst _ _ M' F) G') as [G2 _].
    apply mean_le; auto.
    pose proof (more_kids 12 M') as K. fold covergroups in K.
    assert (GF : Forall fine_cg (covergroups i)) by (apply Forall_forall; intros c; apply fine_inst_kid; exact F).
    clear - K G G' GF. revert gs gs' G G'.
    induction K as [|c c' l l' Hc _ IH]; intros gs gs' G G';
      inversion G as [|? y ? ? By Gy]; inversion G' as [|? y' ? ? By' Gy']; subst; constructor.
    + inversion GF; subst. split; cbn [fst snd].
      * apply build_covergroup_level in By, By'. destruct By as (_ & _ & _ & ->), By' as (_ & _ & _ & ->).
        cbn. unfold s_weight. rewrite (more_attrs Hc). reflexivity.
      * rewrite (rg_cov_mean _ _ _ By), (rg_cov_mean _ _ _ By'). apply mean_le.
        -- apply parts_le. exact Hc.
        -- apply parts_good. apply H1.
        -- apply parts_good. apply (more_nonneg Hc). apply H1.
        -- apply fine_small. assumption.
    + apply IH; auto. inversion GF; assumption.
  - cbn. lra.
Qed.

(** Distance from the exact report. *)
Definition cg_bound (n : nat) : R := (INR n + 3) * (100 * u).
Definition bound (n : nat) : R := (2 * INR n + 5) * (100 * u).

Lemma cg_distance n s : fine_cg s -> narrow n s ->
  Rabs (B2R (amean F64 (aparts F64 s) : b64) - Q2R (amean QA (aparts QA s))) <= cg_bound n.
Proof.
  intros F N. assert (U : 0 < u) by (unfold u; lra).
  eapply Rle_trans; [apply (mean_near (100 * u)); [lra|apply parts_near|apply parts_good; apply F|apply fine_small; exact F]|].
  unfold aparts at 1. rewrite app_length, !map_length. inversion N as [? N1 _]; subst. apply le_INR in N1. unfold cg_bound. nra.
Qed.

Lemma f64_distance n d rf rq :
  nonneg_weights (db_root d) -> light_db d -> narrow_db n d ->
  build_report F64 d = Ok rf -> build_report QA d = Ok rq ->
  Forall2 (fun (x : b64) (q : QA) => Rabs (B2R x - Q2R q) <= bound n) (report_numbers rf) (report_numbers rq).
Proof.
  intros H L N B B'. assert (U : 0 < u) by (unfold u; lra).
  assert (Np : 0 <= INR n) by apply pos_INR.
  pose proof (fine_insts d H L) as FI.
  set (P := fun s => fine_cg s /\ narrow n s).
  set (PI := fun i => fine_inst i /\ (List.length (covergroups i) <= n)%nat /\ Forall (narrow n) (covergroups i)).
  assert (HPI : Forall PI (instances (db_root d))).
  { apply Forall_forall. intros i I. unfold narrow_db in N. rewrite Forall_forall in N, FI.
    split; [exact (FI i I)|exact (N i I)]. }
  set (R := fun (x : b64) (q : QA) => Rabs (B2R x - Q2R q) <= bound n).
  set (R1 := fun (x : b64) (q : QA) => Rabs (B2R x - Q2R q) <= cg_bound n).
  set (Rel0 := fun s s' : scope => s = s').
  assert (CG : forall s, P s -> R1 (amean F64 (aparts F64 s)) (amean QA (aparts QA s))).
  { intros s [F Nn]. apply cg_distance; assumption. }
  assert (R1R : forall x q, R1 x q -> R x q).
  { unfold R, R1, cg_bound, bound. intros x q X. nra. }
  assert (Hp : forall s c, P s -> In c (coverinstances s) -> P c).
  { intros s c [F Nn] I. split; [exact (fine_kid _ _ F I)|].
    inversion Nn as [? _ Nk]; subst. rewrite Forall_forall in Nk. exact (Nk c I). }
  assert (Hpi : forall i c, PI i -> In c (covergroups i) -> P c).
  { intros i c (F & _ & Nn) I. split; [exact (fine_inst_kid _ _ F I)|].
    rewrite Forall_forall in Nn. exact (Nn c I). }
  apply overall_mean in B; [|eapply Forall_impl; [|exact FI]; exact fine_inst_weights].
  apply overall_mean in B'; [|eapply Forall_impl; [|exact FI]; exact fine_inst_weights].
  destruct B as (gss & H1 & Hc & Hv). destruct B' as (gss' & H1' & Hc' & Hv').
  assert (CGR : forall s g g', P s -> build_covergroup F64 s = Ok g -> build_covergroup QA s = Ok g' ->
            Forall2 R (cg_numbers g) (cg_numbers g')).
  { clear - Hp CG R1R U Np. intros s. induction s as [a i ii ks IH] using scope_rect_nested. intros g g' HP B B'.
    rewrite !cg_numbers_eq.
    pose proof (rg_cov_mean _ _ _ B) as Cg. pose proof (rg_cov_mean _ _ _ B') as Cg'.
    pose proof (R1R _ _ (CG _ HP)) as H0.
    apply build_covergroup_level in B, B'.
    destruct B as (H1 & H2 & H3 & _). destruct B' as (H1' & H2' & H3' & _).
    assert (PT : forall c, R (apct F64 c) (apct QA c)).
    { intros c. unfold R. eapply Rle_trans; [apply apct_near|]. unfold bound. nra. }
    constructor; [rewrite Cg, Cg'; exact H0|]. repeat apply Forall2_app.
    - apply Forall2_map2. clear - H1 H1' PT. revert H1'. generalize (rg_cps g').
      induction H1 as [|c r cs rs Bc _ IHc]; intros l H1'; inversion H1' as [|? r' ? ? Bc' Hl]; subst; constructor; auto.
      apply build_coverpoint_ok in Bc, Bc'. destruct Bc as [_ ->], Bc' as [_ ->]. apply PT.
    - apply Forall2_map2. clear - H2 H2' PT. revert H2'. generalize (rg_crosses g').
      induction H2 as [|c r cs rs Bc _ IHc]; intros l H2'; inversion H2' as [|? r' ? ? Bc' Hl]; subst; constructor; auto.
      apply build_cross_ok in Bc, Bc'. destruct Bc as (_ & _ & ->), Bc' as (_ & _ & ->). apply PT.
    - assert (HF : Forall (fun c => P c /\ forall (g : rcg F64) (g' : rcg QA), P c ->
                build_covergroup F64 c = Ok g -> build_covergroup QA c = Ok g' ->
                Forall2 R (cg_numbers g) (cg_numbers g')) (coverinstances (Scope a i ii ks))).
      { apply Forall_forall. intros c Hc. split; [exact (Hp _ _ HP Hc)|].
        assert (Hk' : In c ks) by (unfold coverinstances, kids_with in Hc; apply filter_In in Hc; exact (proj1 Hc)).
        rewrite Forall_forall in IH. exact (IH c Hk'). }
      clear - HF H3 H3'. revert H3' HF. generalize (rg_cgs g').
      induction H3 as [|c g1 cs gs Bc _ IHk]; intros l H4' HF;
        inversion H4' as [|? g2 ? ? Ga' Gb']; subst; simpl; auto.
      inversion HF as [|? ? [Hn Hi] HF']; subst. apply Forall2_app; [eapply Hi | apply IHk]; eauto. }
  assert (HF : Forall2 (fun (gs : list (rcg F64)) (gs' : list (rcg QA)) => R (amean F64 (gparts F64 gs)) (amean QA (gparts QA gs')) /\
                 Forall2 (fun (g : rcg F64) (g' : rcg QA) => Forall2 R (cg_numbers g) (cg_numbers g')) gs gs') gss gss').
  { clear - H1 H1' HPI CGR Hpi CG U Np. revert gss' H1' HPI.
    induction H1 as [|i gs is gss Hi _ IH]; intros gss' H1' HPI;
      inversion H1' as [|? gs' ? ? Hi' Ht']; inversion HPI as [|? ? Pi Pis]; subst; constructor.
    2:{ apply IH; auto. }
    assert (PC : Forall P (covergroups i)) by (apply Forall_forall; intros c; apply Hpi; exact Pi).
    split.
    - destruct Pi as (Fi & Len & _). destruct (gparts_good i gs Fi Hi) as [G S].
      assert (NR : Forall2 (near (cg_bound n)) (gparts F64 gs) (gparts QA gs')).
      { clear - Hi Hi' CG PC. revert gs' Hi'.
        induction Hi as [|c g cs gs Bc _ IHc]; intros gs' Hi'; inversion Hi' as [|? g' ? ? Bc' Hl]; subst;
          constructor; inversion PC; subst; auto.
        split; cbn [fst snd].
        - apply build_covergroup_level in Bc, Bc'. destruct Bc as (_ & _ & _ & ->), Bc' as (_ & _ & _ & ->). reflexivity.
        - rewrite (rg_cov_mean _ _ _ Bc), (rg_cov_mean _ _ _ Bc'). apply CG. assumption. }
      unfold R. eapply Rle_trans; [apply (mean_near (cg_bound n)); [unfold cg_bound; nra|exact NR|exact G|exact S]|].
      unfold gparts at 1. rewrite map_length, <- (Forall2_len _ _ _ Hi). apply le_INR in Len.
      unfold cg_bound, bound. nra.
    - clear - Hi Hi' CGR PC. revert gs' Hi'.
      induction Hi as [|c g cs gs Bc _ IHc]; intros gs' Hi'; inversion Hi' as [|? g' ? ? Bc' Hl]; subst;
        constructor; inversion PC; subst; auto. apply (CGR c); auto. }
  unfold report_numbers. constructor.
  - rewrite Hv, Hv'.
    assert (HRv : Forall2 (fun (gs : list (rcg F64)) (gs' : list (rcg QA)) => R (amean F64 (gparts F64 gs)) (amean QA (gparts QA gs')) /\
                 Forall2 (fun (g : rcg F64) (g' : rcg QA) => Forall2 R (cg_numbers g) (cg_numbers g')) gs gs') (rev gss) (rev gss')).
    { clear - HF. induction HF; simpl; auto. apply Forall2_app; auto. }
    inversion HRv as [|? ? ? ? [X _]]; subst; [|exact X].
    assert (E : B2R (@ar_zero F64 : b64) - Q2R (@ar_zero QA) = 0) by (cbn; unfold Q2R; cbn; lra).
    change (Rabs (B2R (@ar_zero F64 : b64) - Q2R (@ar_zero QA)) <= bound n).
    rewrite E, Rabs_R0. unfold bound. nra.
  - rewrite Hc, Hc'. clear - HF. induction HF as [|gs gs' l l' [_ HX] _ IH]; simpl; auto.
    rewrite !flat_map_app. apply Forall2_app; auto.
    clear - HX. induction HX as [|g g' l l' Hq _ IH]; simpl; auto. apply Forall2_app; auto.
Qed.
