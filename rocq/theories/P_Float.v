(** Property theorems about reports in IEEE double precision: C33. *)
From Coq Require Import QArith Qreals ZArith Reals Psatz.
From Flocq Require Import Core BinarySingleNaN.
From Verif Require Import Base Dict Consts Db Report ReportSpec BaseFacts ReportFacts ReportQ ReportMono ReportAll Samples P_Report.
From Verif Require Import Float64 Float64Facts Float64Spec Float64Report Float64All Float64Full.
Local Open Scope R_scope.

(** C33: every percentage of the report, at every depth, is a finite number
    between 0 and 100 (no infinity, no nan). *)
Theorem C33_double_range :
  forall d r, nonneg_weights (db_root d) -> light_db d -> build_report F64 d = Ok r ->
  Forall (fun x : b64 => is_finite x = true /\ 0 <= B2R x <= 100) (report_numbers r).
Proof. exact f64_range. Qed.
Print Assumptions C33_double_range.

(** The division of integers on which the percentages rest is the correctly rounded
    quotient, with the right sign, whatever the signs of the integers, as long as the
    quotient is at most 2^53; and integers up to 2^53 are converted exactly. *)
Lemma rnd_small x : Rabs x <= IZR limit -> Rlt_bool (Rabs (rnd x)) (bpow radix2 1024) = true.
Proof.
  intros H. apply Rlt_bool_true. apply Rle_lt_trans with (IZR limit).
  - change (IZR limit) with (bpow radix2 53) in *. apply abs_round_le_generic; [exact fe_valid|apply valid_rnd_N| |exact H].
    apply (generic_format_FLT_bpow radix2 (-1074) 53). lia.
  - change (IZR limit) with (bpow radix2 53). apply bpow_lt. lia.
Qed.
Lemma quot_pos_signed sa a sb b :
  Rabs (IZR (cond_Zopp sa (Zpos a)) / IZR (cond_Zopp sb (Zpos b))) <= IZR limit ->
  is_val (quot_pos sa a sb b) (rnd (IZR (cond_Zopp sa (Zpos a)) / IZR (cond_Zopp sb (Zpos b)))) /\
  Bsign (quot_pos sa a sb b) = xorb sa sb.
Proof.
  intros H. unfold quot_pos, is_val. rewrite is_finite_SF2B, B2R_SF2B, Bsign_SF2B.
  destruct (Bdiv_correct_aux 53 1024 prec53 emax1024 mode_NE sa a 0 sb b 0) as [_ C]. cbv zeta in C.
  assert (E : forall z, F2R (Float radix2 z 0) = IZR z) by (intros z; unfold F2R; cbn; lra).
  rewrite !E in C. fold (rnd (IZR (cond_Zopp sa (Zpos a)) / IZR (cond_Zopp sb (Zpos b)))) in C.
  rewrite (rnd_small _ H) in C. destruct C as (C1 & C2 & C3). auto.
Qed.
Theorem C33_division : forall a b, (b <> 0)%Z -> (Z.abs a <= limit * Z.abs b)%Z ->
  is_finite (quotient a b) = true /\
  B2R (quotient a b) = round radix2 (FLT_exp (-1074) 53) ZnearestE (IZR a / IZR b) /\
  (Bsign (quotient a b) = xorb (a <? 0)%Z (b <? 0)%Z).
Proof.
  intros a b Hb H.
  assert (A : Rabs (IZR a / IZR b) <= IZR limit).
  { unfold Rdiv. rewrite Rabs_mult, Rabs_inv. rewrite <- !abs_IZR.
    assert (P : 0 < IZR (Z.abs b)) by (apply IZR_lt; lia).
    apply Rmult_le_reg_r with (IZR (Z.abs b)); [exact P|]. rewrite Rmult_assoc, Rinv_l by lra. rewrite Rmult_1_r, <- mult_IZR. apply IZR_le. exact H. }
  destruct a as [|a|a]; [|destruct b as [|b|b]; [congruence| |]|destruct b as [|b|b]; [congruence| |]].
  - split; [reflexivity|]. cbn [quotient B2R Bsign]. split; [|now destruct b]. unfold Rdiv. rewrite Rmult_0_l. symmetry. apply round_0. apply valid_rnd_N.
  - destruct (quot_pos_signed false a false b A) as [[F V] G]. auto.
  - destruct (quot_pos_signed false a true b A) as [[F V] G]. auto.
  - destruct (quot_pos_signed true a false b A) as [[F V] G]. auto.
  - destruct (quot_pos_signed true a true b A) as [[F V] G]. auto.
Qed.
Print Assumptions C33_division.
Theorem C33_conversion : forall z, (Z.abs z <= limit)%Z -> is_finite (of_Z z) = true /\ B2R (of_Z z) = IZR z.
Proof.
  intros z H. unfold of_Z. pose proof (binary_normalize_correct 53 1024 prec53 emax1024 mode_NE z 0 false) as C. cbn zeta in C.
  assert (E : F2R (Float radix2 z 0) = IZR z) by (unfold F2R; cbn; lra). rewrite E in C. fold (rnd (IZR z)) in C.
  assert (R : rnd (IZR z) = IZR z).
  { destruct (Z_le_gt_dec 0 z) as [P|P]; [apply rnd_int; lia|]. unfold rnd. replace (IZR z) with (- IZR (- z)) by (rewrite opp_IZR; lra).
    apply round_generic; [apply valid_rnd_N|]. apply generic_format_opp. apply int_format. lia. }
  rewrite rnd_small in C; [|rewrite <- abs_IZR; apply IZR_le; exact H]. destruct C as (C1 & C2 & _). split; [exact C2|]. now rewrite C1, R.
Qed.
Print Assumptions C33_conversion.
Example C33_division_example : B2SF (quotient 1 (-3)) = SpecFloat.SFopp (B2SF (quotient 1 3)) /\ B2SF (quotient (-100) 8) = SpecFloat.S754_finite true 7036874417766400 (-49).
Proof. vm_compute. auto. Qed.

(** The samples meet the conditions. *)
Ltac sizes := repeat first [apply Forall_nil | apply Forall_cons | apply Light | apply Narrow | split
                           | progress (vm_compute; discriminate) | (vm_compute; lia)].
Example C33_light1 : light_db sample1.
Proof. sizes. Qed.
Example C33_light2 : light_db sample2.
Proof. sizes. Qed.
Example C33_report1 :
  match build_report F64 sample1 with
  | Ok r => B2SF (r_cov r : b64) = SpecFloat.S754_finite false 7036874417766400 (-47)   (* 50.0 *)
  | Err _ => False
  end.
Proof. vm_compute. reflexivity. Qed.

(** C33: a covergroup of positive total weight whose coverpoints of positive
    weight and crosses all have bins, all of them hit, is at exactly 100. *)
Theorem C33_full_is_100 :
  forall d r, nonneg_weights (db_root d) -> light_db d -> build_report F64 d = Ok r ->
  Forall2 (everywhere (fun c (p : rcp F64) => full c -> B2R (rp_cov p : b64) = 100)
                      (fun c (x : rcross F64) => full c -> B2R (rx_cov x : b64) = 100)
     (fun cg (g : rcg F64) =>
        (0 < sumZ (map s_weight (coverpoints cg)) + Z.of_nat (List.length (crosses cg)))%Z ->
        Forall (fun c => (0 < s_weight c)%Z -> full c) (coverpoints cg) -> Forall full (crosses cg) ->
        B2R (rg_cov g : b64) = 100))
    (reported_cgs d) (r_cgs r).
Proof.
  intros d r H L. apply (report_down F64 fine_cg fine_kid); [| | |exact (fine_reported d H L)].
  - intros c p B F. apply build_coverpoint_ok in B. destruct B as [_ ->]. apply apct_full. exact F.
  - intros c p B F. apply build_cross_ok in B. destruct B as (_ & _ & ->). apply apct_full. exact F.
  - intros c h F B W Hc Hx. rewrite (rg_cov_mean _ _ _ B). apply cg_full; auto.
    apply IZR_lt. pose proof (parts_weight F64 c) as X. change (0 < weights (aparts F64 c))%Z. rewrite X. exact W.
Qed.
Print Assumptions C33_full_is_100.
Example C33_full_example :
  exists c, In c (reported_cgs sample2) /\ List.length (coverpoints c) = 1%nat /\ Forall full (coverpoints c).
Proof.
  exists (cg "cg2" 5 [ cp "a" 1 [bin "z" 1 1] ]). split; [cbn; auto|]. split; [reflexivity|].
  repeat constructor; cbn; try lia. intros i [<-|[]]. reflexivity.
Qed.

(** C33, the other way: 100 is not the result of rounding up.  With no more
    than [T] bins in each point, and (parts + 3) * T * (total weight) < 2^53,
    only fully hit covergroups are at 100. *)
Theorem C33_only_full_is_100 :
  forall T d r, (0 < T)%nat -> nonneg_weights (db_root d) -> light_db d -> build_report F64 d = Ok r ->
  Forall2 (everywhere (fun _ _ => True) (fun _ _ => True)
     (fun cg (g : rcg F64) =>
        Forall (fun c => (total c <= T)%nat) (coverpoints cg ++ crosses cg) ->
        ((Z.of_nat (List.length (coverpoints cg) + List.length (crosses cg)) + 3) * Z.of_nat T *
           (sumZ (map s_weight (coverpoints cg)) + Z.of_nat (List.length (crosses cg))) < 2 ^ 53)%Z ->
        B2R (rg_cov g : b64) = 100 ->
        Forall (fun c => (0 < s_weight c)%Z -> full c) (coverpoints cg) /\ Forall full (crosses cg)))
    (reported_cgs d) (r_cgs r).
Proof.
  intros T d r HT H L. apply (report_down F64 fine_cg fine_kid); [auto|auto| |exact (fine_reported d H L)].
  intros c h F B Tb S E. rewrite (rg_cov_mean _ _ _ B) in E. exact (cg_full_inv T c F HT Tb S E).
Qed.
Print Assumptions C33_only_full_is_100.
Example C33_only_full_example :
  Forall (fun cg => Forall (fun c => (total c <= 2)%nat) (coverpoints cg ++ crosses cg) /\
            ((Z.of_nat (List.length (coverpoints cg) + List.length (crosses cg)) + 3) * Z.of_nat 2 *
           (sumZ (map s_weight (coverpoints cg)) + Z.of_nat (List.length (crosses cg))) < 2 ^ 53)%Z) (reported_cgs sample1).
Proof. sizes. Qed.

(** C33: more hits never lower a percentage as computed in double precision. *)
Theorem C33_double_monotone :
  forall d d' r r', more_hits (db_root d) (db_root d') -> nonneg_weights (db_root d) -> light_db d ->
  build_report F64 d = Ok r -> build_report F64 d' = Ok r' ->
  Forall2 (fun x x' : b64 => B2R x <= B2R x') (report_numbers r) (report_numbers r').
Proof. exact f64_mono. Qed.
Print Assumptions C33_double_monotone.

(** C33: the double precision report differs from the exact one by at most
    (2 n + 5) * 100 * 2^-53 in every percentage, where no covergroup has more
    than [n] coverpoints and crosses and no instance more than [n] covergroups. *)
Theorem C33_double_accuracy :
  forall n d rf rq, nonneg_weights (db_root d) -> light_db d -> narrow_db n d ->
  build_report F64 d = Ok rf -> build_report QA d = Ok rq ->
  Forall2 (fun (x : b64) (q : QA) => Rabs (B2R x - Q2R q) <= (2 * INR n + 5) * (100 * / IZR (2 ^ 53)))
          (report_numbers rf) (report_numbers rq).
Proof. exact f64_distance. Qed.
Print Assumptions C33_double_accuracy.
Example C33_narrow : narrow_db 3 sample1 /\ narrow_db 3 sample2.
Proof. sizes. Qed.

(** The bound on the weights is needed: with a little more than 2^48 in total, a fully
    hit covergroup is reported at more than 100. *)
Definition sample_heavy : db :=
  mkdb [ du "top"; inst "i0" [0%nat] [ cg "cg" 1
    [ cp "a" 132075517072146 [bin "x" 1 1]; cp "b" 108232912745351 [bin "x" 1 1];
      cp "c" 130767549339743 [bin "x" 1 1]; cp "d" 34359462136103 [bin "x" 1 1] ] ] ].
Theorem C33_heavy_weights_refuted :
  exists d r, nonneg_weights (db_root d) /\ build_report F64 d = Ok r /\ 100 < B2R (r_cov r : b64).
Proof.
  set (x := match build_report F64 sample_heavy with Ok r => r | Err _ => Rpt [] [] (@ar_zero F64) end).
  exists sample_heavy, x. split; [repeat (constructor; try (vm_compute; discriminate))|]. split.
  - assert (ok : match build_report F64 sample_heavy with Ok _ => true | Err _ => false end = true)
      by (vm_compute; reflexivity).
    unfold x. destruct (build_report F64 sample_heavy); [reflexivity|discriminate].
  - assert (E : B2SF (r_cov x : b64) = SpecFloat.S754_finite false 7036874417766401 (-46)) by (vm_compute; reflexivity).
    rewrite <- SF2R_B2SF, E. unfold SF2R, F2R. cbn [Fnum Fexp cond_Zopp bpow].
    change (Z.pow_pos radix2 46) with 70368744177664%Z. change (Zpos 7036874417766401) with 7036874417766401%Z. lra.
Qed.
Print Assumptions C33_heavy_weights_refuted.
