(** The report in double precision: the weighted mean as the code computes it. *)
From Coq Require Import QArith Qreals ZArith Reals Psatz.
From Flocq Require Import Core BinarySingleNaN.
From Verif Require Import Base Dict Consts Db Report ReportSpec BaseFacts ReportFacts ReportQ ReportMono.
From Verif Require Import Float64 Float64Facts.
Local Open Scope R_scope.

(** * The code's mean, for any arithmetic *)
Section AnyArith.
  Variable A : arith.

  Definition aacc (st : A * Z) (p : Z * A) : A * Z :=
    ((if (0 <? fst p)%Z then ar_add (fst st) (ar_mulz (snd p) (fst p)) else fst st), (snd st + fst p)%Z).
  Definition amean (l : list (Z * A)) : A :=
    let st := fold_left aacc l (ar_zero, 0%Z) in
    if (0 <? snd st)%Z then ar_divz (fst st) (snd st) else fst st.

  Definition apct (c : scope) : A := percentage A (Z.of_nat (hits c)) (Z.of_nat (total c)).
  Definition aparts (s : scope) : list (Z * A) :=
    map (fun c => (s_weight c, apct c)) (coverpoints s) ++ map (fun c => (1%Z, apct c)) (crosses s).

  Definition weights {X} (l : list (Z * X)) : Z := sumZ (map fst l).

  Lemma aacc_weight l x d : snd (fold_left aacc l (x, d)) = (d + weights l)%Z.
  Proof.
    revert x d. induction l as [|p l IH]; intros x d; cbn; [lia|].
    unfold aacc at 2. cbn [fst snd]. rewrite IH. cbn. unfold weights, sumZ. lia.
  Qed.

  Lemma cp_fold_acc (cps : list (rcp A)) st :
    fold_left (@cp_acc A) cps st = fold_left aacc (map (fun p => (rp_weight p, rp_cov p)) cps) st.
  Proof.
    revert st. induction cps as [|p l IH]; intros [x d]; [reflexivity|]. cbn [fold_left map].
    rewrite <- IH. reflexivity.
  Qed.

  Lemma cross_fold_acc (xs : list (rcross A)) st :
    Forall (fun x => rx_weight x = 1%Z) xs ->
    fold_left (@cross_acc A) xs st = fold_left aacc (map (fun x => (1%Z, rx_cov x)) xs) st.
  Proof.
    revert st. induction xs as [|x l IH]; intros [c d] H; [reflexivity|]. cbn [fold_left map].
    inversion H as [|? ? H1 H2]; subst. rewrite <- IH by exact H2. unfold cross_acc, aacc. cbn.
    rewrite H1. reflexivity.
  Qed.

  Lemma rg_cov_mean s g : build_covergroup A s = Ok g -> rg_cov g = amean (aparts s).
  Proof.
    intros H. apply build_covergroup_level in H. destruct H as (H1 & H2 & _ & ->). cbn [rg_cov].
    unfold covergroup_coverage, amean, aparts. rewrite fold_left_app.
    assert (E1 : map (fun p => (rp_weight p, rp_cov p)) (rg_cps g) =
                 map (fun c => (s_weight c, apct c)) (coverpoints s)).
    { induction H1 as [|c r cs rs B _ IH]; [reflexivity|]. cbn. rewrite IH.
      apply build_coverpoint_ok in B. destruct B as [(_ & W & _) C]. rewrite W, C. reflexivity. }
    assert (E2 : map (fun x => (1%Z, rx_cov x)) (rg_crosses g) =
                 map (fun c => (1%Z, apct c)) (crosses s) /\
                 Forall (fun x => rx_weight x = 1%Z) (rg_crosses g)).
    { induction H2 as [|c r cs rs B _ IH]; [split; [reflexivity|constructor]|]. cbn.
      destruct IH as [IH1 IH2]. apply build_cross_ok in B. destruct B as (_ & W & C).
      rewrite IH1, C. split; [reflexivity | constructor; assumption]. }
    destruct E2 as [E2 W]. rewrite cp_fold_acc, E1, cross_fold_acc, E2 by exact W.
    destruct (fold_left aacc _ _) as [x d]. reflexivity.
  Qed.

  Lemma contrib_fold_acc (gs : list (rcg A)) st :
    fold_left (@cg_contrib A) gs st = fold_left aacc (map (fun g => (rg_weight g, rg_cov g)) gs) st.
  Proof.
    revert st. induction gs as [|g l IH]; intros [x d]; [reflexivity|]. cbn [fold_left map].
    rewrite <- IH. reflexivity.
  Qed.

  Definition gparts (gs : list (rcg A)) : list (Z * A) := map (fun g => (rg_weight g, rg_cov g)) gs.

  Lemma overall_mean d r :
    Forall (fun i => 0 <= sumZ (map s_weight (covergroups i)))%Z (instances (db_root d)) ->
    build_report A d = Ok r ->
    exists gss, Forall2 (fun s gs => Forall2 (fun s g => build_covergroup A s = Ok g) (covergroups s) gs)
                        (instances (db_root d)) gss /\
      r_cgs r = List.concat gss /\
      r_cov r = match rev gss with [] => ar_zero | gs :: _ => amean (gparts gs) end.
  Proof.
    intros Hw H. apply build_report_ok in H. destruct H as (gss & H1 & Hc & _ & Hv).
    exists gss. split; [|split; [exact Hc|]].
    - eapply Forall2_imp; [|exact H1]. intros s gs [Ha _]. exact Ha.
    - rewrite Hv. destruct (rev gss) as [|gs t] eqn:E; [reflexivity|].
      assert (In gs gss) as Hin by (apply in_rev; rewrite E; left; auto).
      destruct (Forall2_in_r _ H1 Hin) as (s & Hs & Ha & Hz).
      rewrite Forall_forall in Hw. specialize (Hw _ Hs).
      unfold amean, gparts. rewrite <- contrib_fold_acc, contrib_div. cbn [Z.add].
      assert (Es : map (@rg_weight A) gs = map s_weight (covergroups s)).
      { clear - Ha. induction Ha as [|c g cs gs B _ IH]; [reflexivity|]. cbn. rewrite IH.
        apply build_covergroup_level in B. destruct B as (_ & _ & _ & ->). reflexivity. }
      rewrite Es in *. destruct (0 <? sumZ (map s_weight (covergroups s)))%Z eqn:P; [reflexivity|].
      apply Z.ltb_ge in P. lia.
  Qed.
End AnyArith.

(** * The mean in double precision *)

Definition good (x : b64) : Prop := is_finite x = true /\ 0 <= B2R x <= 100.
Definition good_part (p : Z * b64) : Prop := (0 <= fst p)%Z /\ good (snd p).

Definition small (w : Z) : Prop := (100 * w <= limit)%Z.

Lemma weights_nonneg {X} (l : list (Z * X)) : Forall (fun p => 0 <= fst p)%Z l -> (0 <= weights l)%Z.
Proof. induction 1; cbn; [lia|]. unfold weights, sumZ in *. lia. Qed.

Lemma good_nonneg l : Forall good_part l -> Forall (fun p => 0 <= fst p)%Z l.
Proof. intros H. eapply Forall_impl; [|exact H]. intros p [P _]. exact P. Qed.

Definition inv (st : b64 * Z) : Prop :=
  (0 <= snd st)%Z /\ is_finite (fst st) = true /\ 0 <= B2R (fst st) <= IZR (100 * snd st).

(** One step, with everything known about it. *)
Lemma step_val x D w c :
  inv (x, D) -> good_part (w, c) -> small (D + w) ->
  exists x', aacc F64 (x, D) (w, c) = (x', (D + w)%Z) /\ inv (x', (D + w)%Z) /\
    B2R x' = (if (0 <? w)%Z then rnd (B2R x + rnd (B2R c * IZR w)) else B2R x).
Proof.
  intros (HD & Fx & Bx) (Hw & Fc & Bc) HS. cbn [fst snd] in *. unfold small in HS.
  unfold aacc. cbn [fst snd]. destruct (0 <? w)%Z eqn:W; eexists; (split; [reflexivity|]); cbn [ar_add ar_mulz F64].
  - apply Z.ltb_lt in W.
    assert (V1 : is_val (of_Z w) (IZR w)) by (apply of_Z_val; lia).
    assert (R1 : 0 <= B2R c * IZR w <= IZR (100 * w)).
    { assert (0 < IZR w) by (apply IZR_lt; lia). rewrite mult_IZR. split; [nra|nra]. }
    assert (V2 : is_val (Bmult mode_NE c (of_Z w)) (rnd (B2R c * IZR w))).
    { apply (mult_val _ _ (B2R c) (IZR w) (100 * w)); [lia|split; auto|exact V1|exact R1]. }
    pose proof (rnd_between _ (100 * w) ltac:(lia) R1) as R2.
    assert (R3 : 0 <= B2R x + rnd (B2R c * IZR w) <= IZR (100 * (D + w))).
    { rewrite Z.mul_add_distr_l, plus_IZR. lra. }
    assert (V3 : is_val (Bplus mode_NE x (Bmult mode_NE c (of_Z w))) (rnd (B2R x + rnd (B2R c * IZR w)))).
    { apply (plus_val _ _ (B2R x) (rnd (B2R c * IZR w)) (100 * (D + w))); [lia|split; auto|exact V2|exact R3]. }
    destruct V3 as [F3 V3]. split; [|exact V3].
    split; [cbn; lia|]. cbn [fst snd]. split; [exact F3|]. rewrite V3. apply rnd_between; [lia|exact R3].
  - apply Z.ltb_ge in W. assert (w = 0%Z) by lia. subst w. rewrite Z.add_0_r. split; [|reflexivity].
    split; [exact HD|]. split; [exact Fx|exact Bx].
Qed.

Lemma inv_zero : inv (B754_zero false, 0%Z).
Proof. split; [cbn; lia|]. split; [reflexivity|]. cbn. lra. Qed.

Lemma fold_inv l : forall st, inv st -> Forall good_part l -> small (snd st + weights l) ->
  inv (fold_left (aacc F64) l st).
Proof.
  induction l as [|[w c] l IH]; intros [x D] I G S; [exact I|].
  inversion G as [|? ? G1 G2]; subst. cbn [fold_left].
  pose proof (weights_nonneg l (good_nonneg l G2)) as W.
  assert (Ew : weights ((w, c) :: l) = (w + weights l)%Z) by reflexivity. rewrite Ew in S. cbn [snd] in S.
  destruct (step_val x D w c I G1) as (x' & E & I' & _); [unfold small in *; lia|].
  rewrite E. apply IH; [exact I'|exact G2|]. cbn [snd]. unfold small in *. lia.
Qed.

Lemma finish_val st : inv st -> small (snd st) ->
  let q := (if (0 <? snd st)%Z then @ar_divz F64 (fst st) (snd st) else fst st) in
  good q /\
  B2R (q : b64) = (if (0 <? snd st)%Z then rnd (B2R (fst st) / IZR (snd st)) else 0).
Proof.
  destruct st as [x D]. intros (HD & Fx & Bx) HS. cbn [fst snd] in *. unfold small in HS.
  destruct (0 <? D)%Z eqn:W; cbn [ar_divz F64].
  - apply Z.ltb_lt in W. assert (D0 : 0 < IZR D) by (apply IZR_lt; lia).
    assert (V1 : is_val (of_Z D) (IZR D)) by (apply of_Z_val; lia).
    assert (R1 : 0 <= B2R x / IZR D <= IZR 100).
    { rewrite mult_IZR in Bx. split.
      - apply Rmult_le_pos; [lra|]. apply Rlt_le, Rinv_0_lt_compat. exact D0.
      - apply Rmult_le_reg_r with (IZR D); [exact D0|]. unfold Rdiv.
        rewrite Rmult_assoc, Rinv_l by lra. lra. }
    assert (V : is_val (Bdiv mode_NE x (of_Z D)) (rnd (B2R x / IZR D))).
    { apply (div_val _ _ (B2R x) (IZR D) 100); [unfold limit; lia|split; auto|exact V1|lra|exact R1]. }
    destruct V as [F V]. split; [|exact V]. split; [exact F|]. rewrite V.
    apply (rnd_between _ 100); [unfold limit; lia|exact R1].
  - apply Z.ltb_ge in W. assert (D = 0%Z) by lia. subst D. cbn in Bx.
    split; [|lra]. split; [exact Fx|lra].
Qed.

Definition frun (l : list (Z * b64)) : b64 * Z := fold_left (aacc F64) l (B754_zero false, 0%Z).

Lemma frun_weight l : snd (frun l) = weights l.
Proof. exact (aacc_weight F64 l (@ar_zero F64) 0%Z). Qed.

Lemma frun_inv l : Forall good_part l -> small (weights l) -> inv (frun l).
Proof. intros G S. apply fold_inv; [exact inv_zero|exact G|exact S]. Qed.

Lemma mean_val l : Forall good_part l -> small (weights l) ->
  good (amean F64 l) /\ B2R (amean F64 l : b64) =
    (if (0 <? weights l)%Z then rnd (B2R (fst (frun l)) / IZR (weights l)) else 0).
Proof.
  intros G S.
  pose proof (finish_val (frun l) (frun_inv l G S)) as F. rewrite frun_weight in F.
  specialize (F S). cbv zeta in F. destruct F as [F1 F2].
  assert (E : amean F64 l = (if (0 <? weights l)%Z then @ar_divz F64 (fst (frun l)) (weights l) else fst (frun l))).
  { rewrite <- frun_weight. reflexivity. }
  rewrite E. split; [exact F1|exact F2].
Qed.

Lemma mean_good l : Forall good_part l -> small (weights l) -> good (amean F64 l).
Proof. intros G S. apply mean_val; assumption. Qed.

(** ** All parts at 100 *)
Lemma fold_full l : forall x D, inv (x, D) -> Forall good_part l -> small (D + weights l) ->
  B2R x = IZR (100 * D) -> Forall (fun p => (0 < fst p)%Z -> B2R (snd p) = 100) l ->
  B2R (fst (fold_left (aacc F64) l (x, D))) = IZR (100 * (D + weights l)).
Proof.
  induction l as [|[w c] l IH]; intros x D I G S E F.
  - cbn [fold_left fst]. rewrite E. change (weights []) with 0%Z. rewrite Z.add_0_r. reflexivity.
  - inversion G as [|? ? G1 G2]; subst. inversion F as [|? ? F1 F2]; subst.
    pose proof (weights_nonneg l (good_nonneg l G2)) as W.
    assert (Ew : weights ((w, c) :: l) = (w + weights l)%Z) by reflexivity. rewrite Ew in *.
    destruct (step_val x D w c I G1) as (x' & Es & I' & V); [unfold small in *; lia|].
    cbn [fold_left]. rewrite Es. rewrite IH; auto.
    + rewrite Z.add_assoc. reflexivity.
    + unfold small in *. lia.
    + rewrite V. destruct (0 <? w)%Z eqn:Hw.
      * apply Z.ltb_lt in Hw. cbn [fst snd] in F1. rewrite (F1 Hw), E.
        destruct I as (HD & _). cbn [snd] in HD. unfold small in S.
        rewrite <- (mult_IZR 100 w). rewrite (rnd_int (100 * w)) by lia. rewrite <- plus_IZR.
        rewrite rnd_int by lia. rewrite Z.mul_add_distr_l. reflexivity.
      * apply Z.ltb_ge in Hw. destruct G1 as [G1 _]. cbn in G1. assert (w = 0%Z) by lia. subst w.
        rewrite E, Z.add_0_r. reflexivity.
Qed.

Lemma mean_full l : Forall good_part l -> small (weights l) -> (0 < weights l)%Z ->
  Forall (fun p => (0 < fst p)%Z -> B2R (snd p) = 100) l -> B2R (amean F64 l : b64) = 100.
Proof.
  intros G S P F. destruct (mean_val l G S) as [_ V]. rewrite V.
  replace (0 <? weights l)%Z with true by (symmetry; apply Z.ltb_lt; lia).
  assert (B : B2R (fst (frun l)) = IZR (100 * weights l))
    by exact (fold_full l (B754_zero false) 0 inv_zero G S eq_refl F).
  rewrite B, mult_IZR. unfold Rdiv. rewrite Rmult_assoc, Rinv_r by (apply not_0_IZR; lia).
  rewrite Rmult_1_r. apply (rnd_int 100). unfold limit; lia.
Qed.

(** ** Larger parts, larger mean *)
Definition part_le (p p' : Z * b64) : Prop := fst p' = fst p /\ B2R (snd p) <= B2R (snd p').

Lemma fold_le l l' : Forall2 part_le l l' -> forall x x' D, inv (x, D) -> inv (x', D) ->
  Forall good_part l -> Forall good_part l' -> small (D + weights l) -> B2R x <= B2R x' ->
  B2R (fst (fold_left (aacc F64) l (x, D))) <= B2R (fst (fold_left (aacc F64) l' (x', D))).
Proof.
  induction 1 as [|[w c] [w' c'] l l' [Ew Ec] _ IH]; intros x x' D I I' G G' S L; [exact L|].
  cbn [fst snd] in Ew, Ec. subst w'.
  inversion G as [|? ? G1 G2]; subst. inversion G' as [|? ? G1' G2']; subst.
  pose proof (weights_nonneg l (good_nonneg l G2)) as W.
  assert (Ew : weights ((w, c) :: l) = (w + weights l)%Z) by reflexivity. rewrite Ew in *.
  destruct (step_val x D w c I G1) as (y & Ey & Iy & Vy); [unfold small in *; lia|].
  destruct (step_val x' D w c' I' G1') as (y' & Ey' & Iy' & Vy'); [unfold small in *; lia|].
  cbn [fold_left]. rewrite Ey, Ey'. apply IH; auto; [unfold small in *; lia|].
  rewrite Vy, Vy'. destruct (0 <? w)%Z eqn:Hw; [|exact L].
  apply Z.ltb_lt in Hw. apply rnd_le. apply Rplus_le_compat; [exact L|]. apply rnd_le.
  apply Rmult_le_compat_r; [apply IZR_le; lia|exact Ec].
Qed.

Lemma part_le_weights l l' : Forall2 part_le l l' -> weights l' = weights l.
Proof. induction 1 as [|p p' l l' [E _] _ IH]; [reflexivity|]. unfold weights, sumZ in *. cbn. lia. Qed.

Lemma mean_le l l' : Forall2 part_le l l' -> Forall good_part l -> Forall good_part l' ->
  small (weights l) -> B2R (amean F64 l : b64) <= B2R (amean F64 l' : b64).
Proof.
  intros H G G' S. pose proof (part_le_weights _ _ H) as Ew.
  destruct (mean_val l G S) as [_ V]. destruct (mean_val l' G') as [_ V']; [rewrite Ew; exact S|].
  rewrite V, V', Ew. destruct (0 <? weights l)%Z eqn:P; [|lra].
  assert (L : B2R (fst (frun l)) <= B2R (fst (frun l'))).
  { apply (fold_le l l' H (B754_zero false) (B754_zero false) 0); auto; try exact inv_zero. cbn; lra. }
  apply Z.ltb_lt in P. apply rnd_le. apply Rmult_le_compat_r; [|exact L].
  apply Rlt_le, Rinv_0_lt_compat, IZR_lt. lia.
Qed.

(** ** Distance from the exact mean *)
Definition near (E : R) (p : Z * b64) (p' : Z * QA) : Prop :=
  fst p' = fst p /\ Rabs (B2R (snd p) - Q2R (snd p')) <= E.

Lemma near_weights E l l' : Forall2 (near E) l l' -> weights l' = weights l.
Proof. induction 1 as [|p p' l l' [Ew _] _ IH]; [reflexivity|].
  change (fst p' + weights l' = fst p + weights l)%Z. rewrite Ew, IH. reflexivity. Qed.

Lemma Q2R_inject z : Q2R (inject_Z z) = IZR z.
Proof. unfold Q2R. cbn. lra. Qed.

Lemma fold_near E l l' : 0 <= E -> Forall2 (near E) l l' ->
  forall x D (X : QA) e,
  inv (x, D) -> Forall good_part l -> small (D + weights l) ->
  Rabs (B2R x - Q2R X) <= e ->
  Rabs (B2R (fst (fold_left (aacc F64) l (x, D))) - Q2R (fst (fold_left (aacc QA) l' (X, D))))
    <= e + IZR (weights l) * (E + 100 * u)
       + INR (List.length l) * (IZR (D + weights l) * (100 * u)).
Proof.
  intros HE. assert (U : 0 < u) by (unfold u; lra).
  induction 1 as [|[w c] [w' C] l l' [Ew Ec] HF IH]; intros x D X e I G S He.
  - cbn [fold_left fst List.length]. change (weights []) with 0%Z. change (INR 0) with 0. lra.
  - cbn [fst snd] in Ew, Ec. subst w'.
    inversion G as [|? ? G1 G2]; subst.
    pose proof (weights_nonneg l (good_nonneg l G2)) as W.
    assert (Ew : weights ((w, c) :: l) = (w + weights l)%Z) by reflexivity. rewrite Ew in *.
    destruct (step_val x D w c I G1) as (y & Ey & Iy & Vy); [unfold small in *; lia|].
    destruct G1 as [Gw [Gf Gc]]. cbn [fst snd] in Gw, Gf, Gc.
    destruct I as (HD & Fx & Bx). cbn [fst snd] in HD, Fx, Bx.
    assert (Wr : 0 <= IZR (weights l)) by (apply IZR_le; lia).
    assert (Dr : 0 <= IZR D) by (apply IZR_le; lia).
    assert (wr : 0 <= IZR w) by (apply IZR_le; lia).
    cbn [fold_left]. rewrite Ey.
    set (Y := fst (aacc QA (X, D) (w, C))).
    assert (EY : aacc QA (X, D) (w, C) = (Y, (D + w)%Z)) by reflexivity. rewrite EY.
    assert (Step : Rabs (B2R y - Q2R Y) <= e + IZR w * (E + 100 * u) + IZR (D + w + weights l) * (100 * u)).
    { rewrite Vy. unfold Y, aacc. cbn [fst snd]. rewrite !plus_IZR.
      destruct (0 <? w)%Z eqn:Hw.
      - apply Z.ltb_lt in Hw. cbn [ar_add ar_mulz QA].
        rewrite Q2R_plus, Q2R_mult, Q2R_inject.
        assert (R1 : 0 <= B2R c * IZR w <= IZR (100 * w)).
        { rewrite mult_IZR. split; nra. }
        unfold small in S.
        pose proof (rnd_between _ (100 * w) ltac:(lia) R1) as R2.
        assert (R3 : 0 <= B2R x + rnd (B2R c * IZR w) <= IZR (100 * (D + w))).
        { rewrite Z.mul_add_distr_l, plus_IZR. lra. }
        pose proof (rnd_error _ (100 * w) ltac:(lia) R1) as E1.
        pose proof (rnd_error _ (100 * (D + w)) ltac:(lia) R3) as E2.
        rewrite mult_IZR in E1. rewrite mult_IZR, plus_IZR in E2.
        assert (E3 : Rabs (B2R c * IZR w - Q2R C * IZR w) <= E * IZR w).
        { rewrite <- Rmult_minus_distr_r, Rabs_mult, (Rabs_pos_eq (IZR w)) by exact wr.
          apply Rmult_le_compat_r; [exact wr|exact Ec]. }
        assert (P0 : 0 <= IZR (weights l) * (100 * u)) by (apply Rmult_le_pos; lra).
        set (p := rnd (B2R c * IZR w)) in *. set (s := rnd (B2R x + p)) in *.
        clearbody p s.
        revert E1 E2 E3 He. unfold Rabs. repeat destruct Rcase_abs; intros; nra.
      - assert (P1 : 0 <= IZR w * (E + 100 * u)) by (apply Rmult_le_pos; lra).
        assert (P2 : 0 <= (IZR D + IZR w + IZR (weights l)) * (100 * u)) by (apply Rmult_le_pos; lra).
        lra. }
    assert (S' : small (D + w + weights l)) by (unfold small in *; lia).
    eapply Rle_trans; [exact (IH y (D + w)%Z Y _ Iy G2 S' Step)|].
    change (List.length ((w, c) :: l)) with (Datatypes.S (List.length l)). rewrite S_INR.
    rewrite !plus_IZR. lra.
Qed.

Lemma exact_bound l' : Forall (fun p : Z * QA => (0 <= fst p)%Z) l' ->
  forall (X : QA) D, weights l' = 0%Z -> Q2R (fst (fold_left (aacc QA) l' (X, D))) = Q2R X.
Proof.
  induction 1 as [|[w C] l Hw H IH]; intros X D E; [reflexivity|].
  pose proof (weights_nonneg l H). assert (weights ((w, C) :: l) = (w + weights l)%Z) by reflexivity.
  cbn [fst] in Hw. assert (w = 0%Z) by lia. subst w. cbn [fold_left].
  change (aacc QA (X, D) (0%Z, C)) with (X, (D + 0)%Z). apply IH. lia.
Qed.

Definition qrun (l : list (Z * QA)) : QA * Z := fold_left (aacc QA) l (@ar_zero QA, 0%Z).

Lemma qmean_val l : Forall (fun p : Z * QA => (0 <= fst p)%Z) l ->
  Q2R (amean QA l) = if (0 <? weights l)%Z then Q2R (fst (qrun l)) / IZR (weights l) else 0.
Proof.
  intros H. pose proof (weights_nonneg l H) as W.
  assert (Es : snd (qrun l) = weights l) by exact (aacc_weight QA l (@ar_zero QA) 0%Z).
  assert (E : amean QA l = (if (0 <? weights l)%Z then @ar_divz QA (fst (qrun l)) (weights l) else fst (qrun l))).
  { rewrite <- Es. reflexivity. }
  rewrite E. destruct (0 <? weights l)%Z eqn:P.
  - apply Z.ltb_lt in P. cbn [ar_divz QA].
    assert (Wr : 0 < IZR (weights l)) by (apply IZR_lt; lia).
    assert (Nz : ~ (inject_Z (weights l) == 0)%Q).
    { intros X. apply Qeq_eqR in X. rewrite Q2R_inject in X. change (Q2R 0) with (0 * / 1) in X. lra. }
    rewrite Q2R_div by exact Nz. rewrite Q2R_inject. reflexivity.
  - apply Z.ltb_ge in P. unfold qrun. rewrite exact_bound; [|exact H|lia].
    cbn. unfold Q2R. cbn. lra.
Qed.

Lemma mean_near E l l' : 0 <= E -> Forall2 (near E) l l' -> Forall good_part l -> small (weights l) ->
  Rabs (B2R (amean F64 l : b64) - Q2R (amean QA l')) <= E + (INR (List.length l) + 2) * (100 * u).
Proof.
  intros HE H G S. assert (U : 0 < u) by (unfold u; lra).
  pose proof (near_weights _ _ _ H) as Ew.
  pose proof (weights_nonneg l (good_nonneg l G)) as W.
  assert (N : 0 <= INR (List.length l)) by apply pos_INR.
  assert (G' : Forall (fun p : Z * QA => (0 <= fst p)%Z) l').
  { clear - H G. induction H as [|p p' l l' [Ep _] _ IH]; constructor.
    - rewrite Ep. inversion G as [|? ? [Gp _] _]; subst. exact Gp.
    - apply IH. inversion G; assumption. }
  destruct (mean_val l G S) as [_ V]. rewrite V, (qmean_val l' G'), Ew.
  destruct (0 <? weights l)%Z eqn:P.
  - apply Z.ltb_lt in P. assert (Wr : 0 < IZR (weights l)) by (apply IZR_lt; lia).
    assert (Z0 : Rabs (B2R (B754_zero false : b64) - Q2R (@ar_zero QA)) <= 0).
    { replace (B2R (B754_zero false : b64) - Q2R (@ar_zero QA)) with 0; [rewrite Rabs_R0; lra|].
      cbn. unfold Q2R. cbn. lra. }
    pose proof (fold_near E l l' HE H (B754_zero false) 0 (@ar_zero QA) 0 inv_zero G S Z0) as F.
    change (fold_left (aacc F64) l (B754_zero false, 0%Z)) with (frun l) in F.
    change (fold_left (aacc QA) l' (@ar_zero QA, 0%Z)) with (qrun l') in F.
    cbn [Z.add] in F.
    destruct (frun_inv l G S) as (_ & _ & Bx). rewrite frun_weight, mult_IZR in Bx.
    set (x := B2R (fst (frun l))) in *. set (y := Q2R (fst (qrun l'))) in *.
    assert (F' : Rabs (x - y) <= 0 + IZR (weights l) * (E + 100 * u)
                                 + INR (List.length l) * (IZR (weights l) * (100 * u))) by exact F.
    clear F. clearbody x y. set (w := IZR (weights l)) in *. clearbody w.
    assert (R1 : 0 <= x / w <= IZR 100).
    { split.
      - apply Rmult_le_pos; [lra|]. apply Rlt_le, Rinv_0_lt_compat. exact Wr.
      - apply Rmult_le_reg_r with w; [exact Wr|]. unfold Rdiv.
        rewrite Rmult_assoc, Rinv_l by lra. lra. }
    pose proof (rnd_error _ 100 ltac:(lia) R1) as E1.
    assert (E2 : Rabs (x / w - y / w) <= E + (INR (List.length l) + 1) * (100 * u)).
    { unfold Rdiv. rewrite <- Rmult_minus_distr_r, Rabs_mult.
      rewrite (Rabs_pos_eq (/ _)) by (apply Rlt_le, Rinv_0_lt_compat; exact Wr).
      apply Rmult_le_reg_r with w; [exact Wr|].
      rewrite Rmult_assoc, Rinv_l by lra. rewrite Rmult_1_r. lra. }
    replace (rnd (x / w) - y / w) with ((rnd (x / w) - x / w) + (x / w - y / w)) by lra.
    eapply Rle_trans; [apply Rabs_triang|]. lra.
  - rewrite Rminus_0_r, Rabs_R0.
    assert (0 <= (INR (List.length l) + 2) * (100 * u)) by (apply Rmult_le_pos; lra). lra.
Qed.
