(** Facts about [F64]: each operation is the correctly rounded real operation, for
    the magnitudes that occur in a report. *)
From Coq Require Import ZArith Reals Psatz.
From Flocq Require Import Core BinarySingleNaN.
From Verif Require Import Base Report Float64.
Local Open Scope R_scope.

Notation fe := (SpecFloat.fexp 53 1024).
Definition rnd (x : R) : R := round radix2 fe (round_mode mode_NE) x.

#[global] Instance fe_valid : Valid_exp fe := FLT_exp_valid (-1074) 53.
#[global] Instance fe_mono : Monotone_exp fe := FLT_exp_monotone (-1074) 53.

Definition limit : Z := 9007199254740992.  (* 2^53 *)

Lemma int_format m : (0 <= m <= limit)%Z -> generic_format radix2 fe (IZR m).
Proof.
  intros H. destruct (Z.eq_dec m limit) as [->|N].
  - change (IZR limit) with (bpow radix2 53).
    apply (generic_format_FLT_bpow radix2 (-1074) 53). lia.
  - apply (generic_format_FLT radix2 (-1074) 53).
    exists (Float radix2 m 0); cbn; try lia.
    + unfold F2R; cbn. lra.
    + unfold limit in *. lia.
Qed.

Lemma rnd_le x y : x <= y -> rnd x <= rnd y.
Proof. intros H. apply round_le; [exact fe_valid | apply valid_rnd_N | exact H]. Qed.

Lemma rnd_int m : (0 <= m <= limit)%Z -> rnd (IZR m) = IZR m.
Proof. intros H. apply round_generic; [apply valid_rnd_N | apply int_format; exact H]. Qed.

Lemma rnd_between x m : (0 <= m <= limit)%Z -> 0 <= x <= IZR m -> 0 <= rnd x <= IZR m.
Proof.
  intros Hm [H1 H2]. split.
  - rewrite <- (rnd_int 0) by (unfold limit; lia). apply rnd_le. exact H1.
  - rewrite <- (rnd_int m) by exact Hm. apply rnd_le. exact H2.
Qed.

Lemma no_overflow x m : (0 <= m <= limit)%Z -> 0 <= x <= IZR m ->
  Rlt_bool (Rabs (rnd x)) (bpow radix2 1024) = true.
Proof.
  intros Hm H. apply Rlt_bool_true. pose proof (rnd_between x m Hm H) as [H1 H2].
  rewrite Rabs_pos_eq by exact H1. eapply Rle_lt_trans; [exact H2|].
  apply Rle_lt_trans with (IZR limit); [apply IZR_le; lia|].
  change (IZR limit) with (bpow radix2 53). apply bpow_lt. lia.
Qed.

Definition is_val (x : b64) (r : R) : Prop := is_finite x = true /\ B2R x = r.

Lemma of_Z_val z : (0 <= z <= limit)%Z -> is_val (of_Z z) (IZR z).
Proof.
  intros H. unfold of_Z, is_val.
  pose proof (binary_normalize_correct 53 1024 prec53 emax1024 mode_NE z 0 false) as C.
  cbn zeta in C.
  assert (E : F2R (Float radix2 z 0) = IZR z) by (unfold F2R; cbn; lra).
  rewrite E in C. fold (rnd (IZR z)) in C.
  rewrite (no_overflow (IZR z) z H) in C.
  - destruct C as (C1 & C2 & _). split; [exact C2|]. rewrite C1. apply rnd_int. exact H.
  - split; [apply IZR_le; lia | lra].
Qed.

Lemma quot_pos_val a b m : (0 <= m <= limit)%Z -> IZR (Zpos a) / IZR (Zpos b) <= IZR m ->
  is_val (quot_pos false a false b) (rnd (IZR (Zpos a) / IZR (Zpos b))).
Proof.
  intros Hm H. unfold quot_pos.
  unfold is_val. rewrite is_finite_SF2B, B2R_SF2B.
  destruct (Bdiv_correct_aux 53 1024 prec53 emax1024 mode_NE false a 0 false b 0) as [_ C].
  cbv zeta in C.
  assert (E : forall p, F2R (Float radix2 (cond_Zopp false (Zpos p)) 0) = IZR (Zpos p))
    by (intros p; unfold F2R; cbn; lra).
  rewrite !E in C. fold (rnd (IZR (Zpos a) / IZR (Zpos b))) in C.
  rewrite (no_overflow _ m Hm) in C.
  - destruct C as (C1 & C2 & _). split.
    + exact C2.
    + exact C1.
  - split; [|exact H]. apply Rlt_le, Rdiv_lt_0_compat; apply IZR_lt; lia.
Qed.

Lemma quotient_val a b m : (0 <= m <= limit)%Z -> (0 <= a)%Z -> (0 < b)%Z -> (a <= m * b)%Z ->
  is_val (quotient a b) (rnd (IZR a / IZR b)).
Proof.
  intros Hm Ha Hb H. destruct a as [|a|a]; [| |lia].
  - split; [reflexivity|]. cbn. unfold Rdiv. rewrite Rmult_0_l. symmetry. apply (rnd_int 0).
    unfold limit; lia.
  - destruct b as [|b|b]; [lia| |lia]. apply (quot_pos_val a b m Hm).
    apply Rmult_le_reg_r with (IZR (Zpos b)); [apply IZR_lt; lia|].
    unfold Rdiv. rewrite Rmult_assoc, Rinv_l by (apply not_0_IZR; lia).
    rewrite Rmult_1_r, <- mult_IZR. apply IZR_le. lia.
Qed.

Lemma mult_val x y r s m : (0 <= m <= limit)%Z -> is_val x r -> is_val y s -> 0 <= r * s <= IZR m ->
  is_val (Bmult mode_NE x y) (rnd (r * s)).
Proof.
  intros Hm [Fx <-] [Fy <-] H.
  pose proof (Bmult_correct 53 1024 prec53 emax1024 mode_NE x y) as C.
  fold (rnd (B2R x * B2R y)) in C. rewrite (no_overflow _ m Hm H) in C.
  destruct C as (C1 & C2 & _). split; [rewrite C2, Fx, Fy; reflexivity | exact C1].
Qed.

Lemma plus_val x y r s m : (0 <= m <= limit)%Z -> is_val x r -> is_val y s -> 0 <= r + s <= IZR m ->
  is_val (Bplus mode_NE x y) (rnd (r + s)).
Proof.
  intros Hm [Fx <-] [Fy <-] H.
  pose proof (Bplus_correct 53 1024 prec53 emax1024 mode_NE x y Fx Fy) as C.
  fold (rnd (B2R x + B2R y)) in C. rewrite (no_overflow _ m Hm H) in C.
  destruct C as (C1 & C2 & _). split; [exact C2 | exact C1].
Qed.

Lemma div_val x y r s m : (0 <= m <= limit)%Z -> is_val x r -> is_val y s -> s <> 0 ->
  0 <= r / s <= IZR m -> is_val (Bdiv mode_NE x y) (rnd (r / s)).
Proof.
  intros Hm [Fx <-] [Fy <-] N H.
  pose proof (Bdiv_correct 53 1024 prec53 emax1024 mode_NE x y N) as C.
  fold (rnd (B2R x / B2R y)) in C. rewrite (no_overflow _ m Hm H) in C.
  destruct C as (C1 & C2 & _). split; [rewrite C2; exact Fx | exact C1].
Qed.

(** The rounding error of a number below the integer [m]. *)
Definition u : R := / 9007199254740992.   (* 2^-53 *)

Lemma rnd_error x m : (0 < m)%Z -> 0 <= x <= IZR m -> Rabs (rnd x - x) <= IZR m * u.
Proof.
  intros Hm [H0 H1].
  assert (M1 : 1 <= IZR m) by (apply IZR_le; lia).
  eapply Rle_trans; [apply error_le_half_ulp; exact fe_valid|].
  assert (U1 : ulp radix2 fe x <= ulp radix2 fe (IZR m)).
  { apply ulp_le; [exact fe_valid | exact fe_mono |]. rewrite !Rabs_pos_eq by lra. exact H1. }
  assert (U2 : ulp radix2 fe (IZR m) <= Rabs (IZR m) * bpow radix2 (1 - 53)).
  { apply (ulp_FLT_le radix2 (-1074) 53). rewrite Rabs_pos_eq by lra.
    eapply Rle_trans; [|exact M1]. change 1 with (bpow radix2 0). apply bpow_le. lia. }
  rewrite Rabs_pos_eq in U2 by lra.
  assert (B : bpow radix2 (1 - 53) = 2 * u).
  { change (bpow radix2 (1 - 53)) with (/ 4503599627370496). unfold u. lra. }
  rewrite B in U2. lra.
Qed.
