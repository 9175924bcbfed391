(** Facts about the printing of percentages. *)
From Coq Require Import ZArith Reals Psatz.
From Flocq Require Import Core BinarySingleNaN.
From Verif Require Import Base PyInt PyIntFacts Float64 Float64Facts PyFloat PrintSpec.
Local Open Scope R_scope.

(** ** Nearest integers *)
Lemma nearest_bounds x d : nearest x d -> Rabs (x - IZR d) <= 1 / 2.
Proof. intros [H|[H _]]; lra. Qed.
Lemma nearest_mono x y d e : nearest x d -> nearest y e -> x <= y -> (d <= e)%Z.
Proof.
  intros Hx Hy L. destruct (Z_le_gt_dec d e) as [|G]; [assumption|exfalso].
  pose proof (nearest_bounds _ _ Hx) as Bx. pose proof (nearest_bounds _ _ Hy) as By.
  apply Rabs_le_inv in Bx, By. assert (D : IZR e + 1 <= IZR d) by (rewrite <- plus_IZR; apply IZR_le; lia).
  assert (E : d = (e + 1)%Z).
  { assert (IZR d <= IZR e + 1) as K by lra. rewrite <- plus_IZR in K. apply le_IZR in K. lia. }
  subst d. pose proof (plus_IZR e 1) as P.
  assert (X : x = IZR e + 1 / 2) by lra. assert (Y : y = IZR e + 1 / 2) by lra.
  destruct Hx as [Hx|[_ Ex]]; [apply Rabs_lt_inv in Hx; lra|]. destruct Hy as [Hy|[_ Ey]]; [apply Rabs_lt_inv in Hy; lra|].
  rewrite Z.even_add in Ex. rewrite Ey in Ex. discriminate.
Qed.
Lemma nearest_unique x d e : nearest x d -> nearest x e -> d = e.
Proof. intros A B. apply Z.le_antisymm; [apply (nearest_mono x x)|apply (nearest_mono x x)]; auto; lra. Qed.
Lemma nearest_int d : nearest (IZR d) d.
Proof. left. replace (IZR d - IZR d) with 0 by lra. rewrite Rabs_R0. lra. Qed.

Lemma div_even_nearest a b : (0 < b)%Z -> nearest (IZR a / IZR b) (div_even a b).
Proof.
  intros B. assert (Bp : 0 < IZR b) by (apply IZR_lt; lia).
  pose proof (Z.div_mod a b ltac:(lia)) as E. pose proof (Z.mod_pos_bound a b B) as M. unfold div_even.
  set (q := (a / b)%Z) in *. set (r := (a mod b)%Z) in *. clearbody q r. subst a.
  assert (V : IZR (b * q + r) / IZR b = IZR q + IZR r / IZR b) by (rewrite plus_IZR, mult_IZR; field; lra). rewrite V. clear V.
  set (f := IZR r / IZR b).
  assert (F0 : 0 <= f). { apply Rmult_le_pos; [apply IZR_le; lia|apply Rlt_le, Rinv_0_lt_compat, Bp]. }
  assert (Fb : f * IZR b = IZR r) by (unfold f; field; lra).
  assert (F1 : f < 1). { apply Rmult_lt_reg_r with (IZR b); [exact Bp|]. rewrite Fb, Rmult_1_l. apply IZR_lt. lia. }
  destruct (Z.compare_spec (2 * r) b) as [C|C|C].
  - assert (f = 1 / 2) as ->. { apply (f_equal IZR) in C. rewrite mult_IZR in C. apply Rmult_eq_reg_r with (IZR b); lra. }
    destruct (Z.even q) eqn:Q.
    + right. split; [|exact Q]. replace (IZR q + 1 / 2 - IZR q) with (1 / 2) by lra. apply Rabs_pos_eq. lra.
    + right. split; [|rewrite Z.even_add, Q; reflexivity]. rewrite plus_IZR. replace (IZR q + 1 / 2 - (IZR q + 1)) with (- (1 / 2)) by lra.
      rewrite Rabs_Ropp. apply Rabs_pos_eq. lra.
  - left. replace (IZR q + f - IZR q) with f by lra. rewrite Rabs_pos_eq by exact F0. apply IZR_lt in C. rewrite mult_IZR in C.
    apply Rmult_lt_reg_r with (IZR b); lra.
  - left. rewrite plus_IZR. replace (IZR q + f - (IZR q + 1)) with (- (1 - f)) by lra. rewrite Rabs_Ropp, Rabs_pos_eq by lra.
    apply IZR_lt in C. rewrite mult_IZR in C. apply Rmult_lt_reg_r with (IZR b); lra.
Qed.

Lemma ten_pos n : (0 < 10 ^ Z.of_nat n)%Z.
Proof. apply Z.pow_pos_nonneg; lia. Qed.
Lemma scaled_nearest n m e : nearest (IZR (Zpos m) * bpow radix2 e * IZR (10 ^ Z.of_nat n)) (scaled n m e).
Proof.
  unfold scaled. destruct (Z.leb_spec 0 e) as [E|E].
  - rewrite <- (IZR_Zpower radix2 e E), <- !mult_IZR.
    match goal with |- nearest (IZR ?a) ?b => replace b with a; [apply nearest_int|] end. cbn [radix_val radix2]. ring.
  - match goal with |- nearest ?a (div_even ?x ?y) => replace a with (IZR x / IZR y); [apply div_even_nearest; apply Z.pow_pos_nonneg; lia|] end.
    rewrite mult_IZR. change (2 ^ (- e))%Z with (radix_val radix2 ^ (- e))%Z. rewrite (IZR_Zpower radix2 (- e)) by lia.
    rewrite bpow_opp. field. apply Rgt_not_eq, bpow_gt_0.
Qed.

(** ** Digits *)
Local Open Scope string_scope.
Fixpoint zeros (k : nat) : string := match k with O => "" | S k' => String "0" (zeros k') end.
Lemma zeros_snoc k : zeros k ++ "0" = zeros (S k).
Proof. induction k as [|k IH]; [reflexivity|]. cbn [zeros append]. f_equal. exact IH. Qed.
Lemma app_assoc_s (a b c : string) : (a ++ b) ++ c = a ++ (b ++ c).
Proof. induction a as [|x a IH]; [reflexivity|]. cbn. now rewrite IH. Qed.
Lemma app_nil_s (a : string) : a ++ "" = a.
Proof. induction a as [|x a IH]; [reflexivity|]. cbn. now rewrite IH. Qed.

Lemma ten_succ k : (10 ^ Z.of_nat (S k) = 10 * 10 ^ Z.of_nat k)%Z.
Proof. rewrite Nat2Z.inj_succ, Z.pow_succ_r by lia. reflexivity. Qed.
Lemma pad_scale n k z : pad (n + k) (z * 10 ^ Z.of_nat k) = pad n z ++ zeros k.
Proof.
  induction k as [|k IH].
  - rewrite Nat.add_0_r. cbn [zeros]. rewrite app_nil_s. f_equal. cbn. lia.
  - rewrite Nat.add_succ_r. cbn [pad]. rewrite ten_succ.
    replace (z * (10 * 10 ^ Z.of_nat k))%Z with (z * 10 ^ Z.of_nat k * 10)%Z by ring.
    rewrite Z.div_mul, Z.mod_mul, IH by lia. rewrite app_assoc_s. f_equal. apply zeros_snoc.
Qed.
Lemma show_fixed_scale n k d : (0 < n)%nat ->
  show_fixed (n + k) (d * 10 ^ Z.of_nat k) = show_fixed n d ++ zeros k.
Proof.
  intros N. destruct n as [|n]; [lia|]. cbn [Nat.add show_fixed].
  replace (10 ^ Z.of_nat (S (n + k)))%Z with (10 ^ Z.of_nat (S n) * 10 ^ Z.of_nat k)%Z
    by (rewrite <- Z.pow_add_r by lia; f_equal; lia).
  pose proof (ten_pos k). pose proof (ten_pos (S n)).
  rewrite Z.div_mul_cancel_r, Z.mul_mod_distr_r by lia.
  change (S (n + k)) with (S n + k)%nat. rewrite pad_scale. now rewrite !app_assoc_s.
Qed.
Lemma show_fixed_int k d : (0 < k)%nat -> show_fixed k (d * 10 ^ Z.of_nat k) = show_int d ++ "." ++ zeros k.
Proof.
  intros K. destruct k as [|k]; [lia|]. cbn [show_fixed]. pose proof (ten_pos (S k)).
  rewrite Z.div_mul, Z.mod_mul by lia. do 2 f_equal.
  assert (P : pad (0 + S k) (0 * 10 ^ Z.of_nat (S k)) = pad 0 0 ++ zeros (S k)) by apply pad_scale.
  rewrite Z.mul_0_l in P. exact P.
Qed.
Lemma pad_two z : (0 <= z < 100)%Z -> pad 2 z = two_digits z.
Proof.
  intros H. assert (F : forallb (fun n => String.eqb (pad 2 (Z.of_nat n)) (two_digits (Z.of_nat n))) (seq 0 100) = true)
    by (vm_compute; reflexivity).
  rewrite forallb_forall in F. specialize (F (Z.to_nat z)). rewrite Z2Nat.id in F by lia.
  apply String.eqb_eq, F, in_seq. lia.
Qed.
Lemma cents d : (0 <= d)%Z -> show_fixed 6 (d * 10 ^ 4) ++ "%" = cents_text d.
Proof.
  intros H. change (show_fixed 6 (d * 10 ^ 4)) with (show_fixed (2 + 4) (d * 10 ^ Z.of_nat 4)).
  rewrite show_fixed_scale by lia. unfold cents_text. cbn [show_fixed]. change (10 ^ Z.of_nat 2)%Z with 100%Z.
  rewrite pad_two by (apply Z.mod_pos_bound; lia). now rewrite !app_assoc_s.
Qed.
Lemma percents d : show_fixed 6 (d * 10 ^ 6) ++ "%" = percent_text d.
Proof.
  change (show_fixed 6 (d * 10 ^ 6)) with (show_fixed 6 (d * 10 ^ Z.of_nat 6)). rewrite show_fixed_int by lia.
  unfold percent_text. now rewrite !app_assoc_s.
Qed.

(** ** Doubles that are not negative, not even -0.0 *)
Definition pos (x : b64) : Prop := is_finite x = true /\ Bsign x = false.
Definition units (n : nat) (x : b64) : Z := match x with B754_finite _ m e _ => scaled n m e | _ => 0%Z end.

Lemma pos_real x : pos x -> (0 <= B2R x)%R.
Proof.
  intros [F S]. destruct x as [s|s| |s m e B]; try discriminate; [cbn; lra|]. cbn in S. subst s.
  cbn [B2R]. apply F2R_ge_0. cbn. lia.
Qed.
Lemma units_nearest n x : pos x -> nearest (B2R x * IZR (10 ^ Z.of_nat n)) (units n x).
Proof.
  intros [F S]. destruct x as [s|s| |s m e B]; try discriminate.
  - cbn [B2R units]. rewrite Rmult_0_l. apply (nearest_int 0).
  - cbn in S. subst s. cbn [B2R units]. unfold F2R. cbn [Fnum Fexp cond_Zopp]. apply scaled_nearest.
Qed.
Lemma format_pos n x : pos x -> format n x = show_fixed n (units n x).
Proof. intros [F S]. destruct x as [s|s| |s m e B]; try discriminate; cbn in S; subst s; reflexivity. Qed.
Lemma units_range n x m : pos x -> (B2R x <= IZR m)%R -> (0 <= units n x <= m * 10 ^ Z.of_nat n)%Z.
Proof.
  intros P L. pose proof (units_nearest n x P) as N. pose proof (pos_real x P) as P0.
  assert (T : (0 < IZR (10 ^ Z.of_nat n))%R) by (apply IZR_lt, ten_pos).
  split.
  - apply (nearest_mono 0 _ _ _ (nearest_int 0) N). apply Rmult_le_pos; lra.
  - apply (nearest_mono _ _ _ _ N (nearest_int (m * 10 ^ Z.of_nat n))). rewrite mult_IZR. apply Rmult_le_compat_r; lra.
Qed.
(** The decimal of a double near [d] units. *)
Lemma units_near n x d : pos x -> (Rabs (B2R x * IZR (10 ^ Z.of_nat n) - IZR d) < 1 / 2)%R -> units n x = d.
Proof. intros P L. apply (nearest_unique _ _ _ (units_nearest n x P)). left. exact L. Qed.

(** ** The operations keep the sign *)
Lemma sign_of_Z z : (0 <= z)%Z -> Bsign (of_Z z) = false.
Proof.
  intros H. unfold of_Z. pose proof (binary_normalize_correct 53 1024 prec53 emax1024 mode_NE z 0 false) as C. cbn zeta in C.
  assert (E : F2R (Float radix2 z 0) = IZR z) by (unfold F2R; cbn; lra). rewrite E in C.
  assert (Z0 : (0 <= IZR z)%R) by (apply IZR_le; exact H). destruct (Rlt_bool _ (bpow radix2 1024)).
  - destruct C as (_ & _ & ->). destruct (Rcompare_spec (IZR z) 0) as [L|_|_]; auto. lra.
  - rewrite (Rlt_bool_false _ _ Z0) in C. destruct (binary_normalize _ _ _ _ _ _ _ _); cbn in C; inversion C; reflexivity.
Qed.
Lemma sign_quot a b : Bsign (quot_pos false a false b) = false.
Proof.
  unfold quot_pos. rewrite Bsign_SF2B.
  destruct (Bdiv_correct_aux 53 1024 prec53 emax1024 mode_NE false a 0 false b 0) as [_ C]. cbv zeta in C.
  destruct (Rlt_bool _ _); [exact (proj2 (proj2 C))|]. rewrite C. reflexivity.
Qed.
Lemma sign_quotient a b : (0 <= a)%Z -> (0 < b)%Z -> Bsign (quotient a b) = false.
Proof. intros A B. destruct b as [|b|b]; try lia. destruct a as [|a|a]; try lia; [reflexivity|apply sign_quot]. Qed.
Lemma sign_mult x y : Bsign x = false -> Bsign y = false -> Bsign (Bmult (prec:=53) (emax:=1024) mode_NE x y) = false.
Proof.
  intros X Y. pose proof (Bmult_correct 53 1024 prec53 emax1024 mode_NE x y) as C.
  destruct (Rlt_bool _ _).
  - destruct C as (_ & _ & C). destruct (Bmult mode_NE x y) eqn:E; try reflexivity; rewrite C by reflexivity; now rewrite X, Y.
  - rewrite X, Y in C. destruct (Bmult mode_NE x y); cbn in C; inversion C; reflexivity.
Qed.
Lemma sign_plus x y : Bsign x = false -> Bsign y = false -> Bsign (Bplus (prec:=53) (emax:=1024) mode_NE x y) = false.
Proof.
  intros X Y.
  destruct (is_finite x) eqn:FX; [destruct (is_finite y) eqn:FY|].
  - pose proof (Bplus_correct 53 1024 prec53 emax1024 mode_NE x y FX FY) as C.
    pose proof (pos_real x (conj FX X)) as PX. pose proof (pos_real y (conj FY Y)) as PY.
    destruct (Rlt_bool _ _).
    + destruct C as (_ & _ & ->). rewrite X, Y. destruct (Rcompare_spec (B2R x + B2R y) 0) as [L| |]; auto. lra.
    + destruct C as [C _]. rewrite X in C. destruct (Bplus mode_NE x y); cbn in C; inversion C; reflexivity.
  - destruct x as [s|s| |s m e B], y as [s'|s'| |s' m' e' B']; try discriminate; cbn in *; subst; reflexivity.
  - destruct x as [s|s| |s m e B], y as [s'|s'| |s' m' e' B']; try discriminate; cbn in *; subst; reflexivity.
Qed.
Lemma sign_div x y : Bsign x = false -> Bsign y = false -> Bsign (Bdiv (prec:=53) (emax:=1024) mode_NE x y) = false.
Proof.
  intros X Y. destruct x as [s|s| |s m e B], y as [s'|s'| |s' m' e' B']; cbn in X, Y; subst; try reflexivity.
  assert (NZ : B2R (B754_finite false m' e' B' : b64) <> 0%R).
  { cbn. apply Rgt_not_eq, F2R_gt_0. cbn. lia. }
  pose proof (Bdiv_correct 53 1024 prec53 emax1024 mode_NE (B754_finite false m e B) _ NZ) as C.
  destruct (Rlt_bool _ _).
  - destruct C as (_ & _ & C). destruct (Bdiv mode_NE _ _) eqn:E; try reflexivity; rewrite C by reflexivity; reflexivity.
  - destruct (Bdiv mode_NE _ _); cbn in C; inversion C; reflexivity.
Qed.

(** ** The three ways to print *)
Lemma ten_le r : (r <= 13)%nat -> (IZR (10 ^ Z.of_nat r) <= IZR (10 ^ 13))%R.
Proof. intros H. apply IZR_le, Z.pow_le_mono_r; lia. Qed.
Lemma round_val r x : pos x -> (B2R x <= 100)%R ->
  pos (round_to r x) /\ (Rabs (B2R (round_to r x) - IZR (units r x) / IZR (10 ^ Z.of_nat r)) <= 100 * u)%R.
Proof.
  intros P L. pose proof (units_range r x 100 P L) as R.
  assert (T : (0 < IZR (10 ^ Z.of_nat r))%R) by (apply IZR_lt, ten_pos).
  assert (Z0 : (Rabs (0 - 0 / IZR (10 ^ Z.of_nat r)) <= 100 * u)%R).
  { replace (0 - 0 / IZR (10 ^ Z.of_nat r))%R with 0%R by (field; lra). rewrite Rabs_R0. unfold u. lra. }
  destruct x as [s|s| |s m e B]; try (destruct P; discriminate).
  - split; [exact P|]. cbn [round_to B2R units]. exact Z0.
  - destruct P as [_ S]. cbn in S. subst s. cbn [round_to units cond_Zopp] in *. set (D := scaled r m e) in *.
    destruct (Z.eqb_spec D 0) as [->|N]; [split; [split; reflexivity|exact Z0]|].
    pose proof (ten_pos r).
    destruct (quotient_val D (10 ^ Z.of_nat r) 100) as [F V]; [unfold limit; lia|lia|lia|lia|].
    split; [split; [exact F|apply sign_quotient; lia]|]. rewrite V. apply (rnd_error _ 100); [lia|].
    split; [apply Rmult_le_pos; [apply IZR_le; lia|apply Rlt_le, Rinv_0_lt_compat, T]|].
    apply Rmult_le_reg_r with (IZR (10 ^ Z.of_nat r)); [exact T|]. unfold Rdiv. rewrite Rmult_assoc, Rinv_l, Rmult_1_r by lra.
    rewrite <- mult_IZR. apply IZR_le. lia.
Qed.
Lemma round_format r k x : pos x -> (B2R x <= 100)%R -> (r + k <= 13)%nat ->
  format (r + k) (round_to r x) = show_fixed (r + k) (units r x * 10 ^ Z.of_nat k).
Proof.
  intros P L K. destruct (round_val r x P L) as [Q E]. rewrite (format_pos _ _ Q). f_equal. apply units_near; [exact Q|].
  set (y := B2R (round_to r x)) in *. set (d := units r x) in *. clearbody y d.
  assert (T : (0 < IZR (10 ^ Z.of_nat r))%R) by (apply IZR_lt, ten_pos).
  assert (TK : (0 < IZR (10 ^ Z.of_nat (r + k)))%R) by (apply IZR_lt, ten_pos).
  assert (S : IZR (10 ^ Z.of_nat (r + k)) = (IZR (10 ^ Z.of_nat r) * IZR (10 ^ Z.of_nat k))%R)
    by (rewrite <- mult_IZR; f_equal; rewrite <- Z.pow_add_r by lia; f_equal; lia).
  replace (y * IZR (10 ^ Z.of_nat (r + k)) - IZR (d * 10 ^ Z.of_nat k))%R
    with ((y - IZR d / IZR (10 ^ Z.of_nat r)) * IZR (10 ^ Z.of_nat (r + k)))%R
    by (rewrite S, mult_IZR; field; lra).
  rewrite Rabs_mult, (Rabs_pos_eq (IZR (10 ^ Z.of_nat (r + k)))) by lra.
  pose proof (ten_le (r + k) K) as B. change (10 ^ 13)%Z with 10000000000000%Z in B.
  apply Rle_lt_trans with (100 * u * IZR (10 ^ Z.of_nat (r + k)))%R; [apply Rmult_le_compat_r; lra|].
  unfold u. lra.
Qed.

Lemma group_text x : pos x -> (B2R x <= 100)%R -> show_group x = cents_text (units 2 x).
Proof.
  intros P L. unfold show_group. change 6%nat with (2 + 4)%nat at 1. rewrite round_format by (auto; lia).
  apply cents. apply (units_range 2 x 100 P L).
Qed.
Lemma old_text r x : pos x -> (B2R x <= 100)%R -> (r <= 13)%nat -> show_old r x = show_fixed r (units r x) ++ "%".
Proof.
  intros P L R. unfold show_old. pose proof (round_format r 0 x P L) as E. rewrite Nat.add_0_r in E. rewrite E by exact R.
  do 2 f_equal. cbn. lia.
Qed.
Lemma of_Z_pos z : (0 <= z <= limit)%Z -> pos (of_Z z).
Proof. intros H. split; [apply (of_Z_val z H)|apply sign_of_Z; lia]. Qed.
Lemma point_text x : pos x -> (B2R x <= 100)%R -> show_point x = percent_text (units 0 x).
Proof.
  intros P L. pose proof (units_range 0 x 100 P L) as R. unfold show_point.
  assert (E : round_int x = Some (units 0 x)).
  { destruct P as [F S]. destruct x as [s|s| |s m e B]; try discriminate; [reflexivity|]. cbn in S. subst s. reflexivity. }
  rewrite E. set (D := units 0 x) in *. clearbody D. assert (H : (0 <= D <= limit)%Z) by (unfold limit; lia).
  rewrite (format_pos _ _ (of_Z_pos D H)). rewrite (units_near 6 (of_Z D) (D * 10 ^ 6)); [apply percents|apply of_Z_pos; exact H|].
  destruct (of_Z_val D H) as [_ ->]. rewrite <- mult_IZR. change (Z.of_nat 6) with 6%Z.
  replace (IZR (D * 10 ^ 6) - IZR (D * 10 ^ 6))%R with 0%R by lra. rewrite Rabs_R0. lra.
Qed.
