(** The shared-library back end: C59, C60, C66, C67. *)
From Verif Require Import Base Consts Db Hist Lib.
Local Open Scope Z_scope.

(** The count that a library finds in the structure it is handed (UCIS standard:
    the flags say which member of the union holds it). *)
Definition count_in (l : lib_cover_data) : option Z :=
  match lcd_data l with
  | LBits b => Some (if Z.odd (lcd_flags l) then b mod 2 ^ 32 else b)
  | LVector => None
  end.

(** Whether [x] fits into an unsigned 32-bit, an unsigned 64-bit or a signed
    32-bit integer. *)
Definition u32 (x : Z) : Prop := 0 <= x < 2 ^ 32.
Definition u64 (x : Z) : Prop := 0 <= x < 2 ^ 64.
Definition i32 (x : Z) : Prop := - 2 ^ 31 <= x < 2 ^ 31.

Lemma c_int_small : forall z, i32 z -> c_int z = z.
Proof. unfold i32, c_int, two32. intros z H. rewrite Z.mod_small; lia. Qed.

Lemma c_int_range : forall z, i32 (c_int z).
Proof.
  intros z. unfold i32, c_int, two32.
  pose proof (Z.mod_pos_bound (z + 2147483648) 4294967296 eq_refl). lia.
Qed.

Lemma c_uint_eq : forall z, c_uint z = z <-> u32 z.
Proof.
  unfold u32, c_uint, two32. intros z. split.
  - intros <-. pose proof (Z.mod_pos_bound z 4294967296 eq_refl). lia.
  - intros H. apply Z.mod_small. lia.
Qed.

Lemma c_int_eq : forall z, c_int z = z <-> i32 z.
Proof.
  intros z; split; [intros <-; apply c_int_range | apply c_int_small].
Qed.

(** C59.  Whatever the requested count, createBin on a coverpoint or a cross
    succeeds, and the library is handed the count modulo 2^32; so the count is
    stored exactly if and only if it is between 0 and 2^32 - 1.  The other
    fields of a bin are handed over as they are. *)
Theorem C59_bin_counts_partial : forall kind at_least count,
  (kind < 2 ^ 64)%N ->
  exists l, lib_create_bin kind at_least count = Ok l /\
    lcd_type l = Z.of_N kind /\ lcd_goal l = 1 /\ lcd_weight l = 1 /\ lcd_limit l = 0 /\
    count_in l = Some (count mod 2 ^ 32) /\
    (count_in l = Some count <-> u32 count).
Proof.
  intros kind at_least count K.
  exists (LibCoverData (c_ulonglong (Z.of_N kind)) 25 (LBits (c_uint count)) 1 1 0 0).
  assert (Hc : c_uint count mod 2 ^ 32 = count mod 2 ^ 32).
  { unfold c_uint, two32. apply Z.mod_mod. discriminate. }
  unfold count_in. cbn [lcd_type lcd_flags lcd_goal lcd_weight lcd_limit lcd_data].
  change (Z.odd 25) with true. cbn iota. rewrite Hc.
  split; [reflexivity|]. split.
  { unfold c_ulonglong, two64. apply Z.mod_small. lia. }
  do 4 (split; [reflexivity|]). split.
  - intros [= H]. pose proof (Z.mod_pos_bound count (2 ^ 32) eq_refl). unfold u32. lia.
  - intros U. f_equal. apply Z.mod_small. exact U.
Qed.

Example C59_ex : lib_create_bin CVGBIN 3 7 = Ok (LibCoverData 1 25 (LBits 7) 1 1 0 0).
Proof. reflexivity. Qed.

(** A count of 2^32 is stored as 0: a bin that was hit four thousand million
    times becomes a bin that was never hit. *)
Theorem C59_large_counts_refuted : exists count l,
  0 < count /\ lib_create_bin CVGBIN 1 count = Ok l /\ count_in l = Some 0.
Proof. exists 4294967296, (LibCoverData 1 25 (LBits 0) 1 1 0 0). split; [reflexivity|]. split; reflexivity. Qed.

(** The number of hits a bin needs does not reach the library at all. *)
Theorem C59_at_least_refuted : forall kind count a b,
  lib_create_bin kind a count = lib_create_bin kind b count.
Proof. reflexivity. Qed.

(** Cover data in general (createNextCover): the conversion fails exactly when
    none of the three format flags is set; a 64-bit count is stored modulo
    2^64; goal, weight and limit keep their values if and only if they fit in
    32 bits. *)
Theorem C59_cover_data_partial : forall cd,
  (cd_flags cd < 2 ^ 31)%N ->
  match lib_cover_data_of cd with
  | Err e => e = RaisedException /\ N.testbit (cd_flags cd) 0 = false /\
             N.testbit (cd_flags cd) 1 = false /\ N.testbit (cd_flags cd) 2 = false
  | Ok l =>
      lcd_flags l = Z.of_N (cd_flags cd) /\
      (lcd_goal l = cd_goal cd <-> i32 (cd_goal cd)) /\
      (lcd_weight l = cd_weight cd <-> i32 (cd_weight cd)) /\
      (lcd_limit l = cd_limit cd <-> i32 (cd_limit cd)) /\
      (N.testbit (cd_flags cd) 0 = true -> (count_in l = Some (cd_data cd) <-> u32 (cd_data cd))) /\
      (N.testbit (cd_flags cd) 0 = false -> N.testbit (cd_flags cd) 1 = true ->
       (count_in l = Some (cd_data cd) <-> u64 (cd_data cd)))
  end.
Proof.
  intros cd F. unfold lib_cover_data_of.
  assert (L : forall k m, m = (2 ^ k)%N ->
            negb (N.land (cd_flags cd) m =? 0)%N = N.testbit (cd_flags cd) k).
  { intros k m ->. destruct (N.testbit (cd_flags cd) k) eqn:E.
    - apply negb_true_iff. apply N.eqb_neq. intros H.
      assert (T : N.testbit (N.land (cd_flags cd) (2 ^ k)) k = false) by (rewrite H; apply N.bits_0).
      rewrite N.land_spec, E, N.pow2_bits_true in T. discriminate.
    - apply negb_false_iff. apply N.eqb_eq. apply N.bits_inj. intros i.
      rewrite N.land_spec, N.bits_0. destruct (N.eq_dec i k) as [->|Ne].
      + rewrite E. reflexivity.
      + rewrite N.pow2_bits_false by congruence. apply andb_false_r. }
  rewrite (L 0%N IS_32BIT eq_refl), (L 1%N IS_64BIT eq_refl), (L 2%N IS_VECTOR eq_refl).
  assert (Fl : c_int (Z.of_N (cd_flags cd)) = Z.of_N (cd_flags cd)).
  { apply c_int_small. unfold i32. change (2 ^ 31)%N with 2147483648%N in F. lia. }
  assert (Odd : Z.odd (Z.of_N (cd_flags cd)) = N.testbit (cd_flags cd) 0).
  { rewrite <- Z.bit0_odd. change 0 with (Z.of_N 0). rewrite Z.testbit_of_N. reflexivity. }
  assert (M32 : forall z, c_uint z mod 2 ^ 32 = z mod 2 ^ 32).
  { intros z. unfold c_uint, two32. apply Z.mod_mod. discriminate. }
  assert (I32 : forall z, z mod 2 ^ 32 = z <-> u32 z).
  { intros z. apply c_uint_eq. }
  assert (I64 : forall z, c_ulonglong z = z <-> u64 z).
  { intros z. unfold c_ulonglong, two64, u64. split.
    - intros H. pose proof (Z.mod_pos_bound z 18446744073709551616 eq_refl). lia.
    - intros H. apply Z.mod_small. lia. }
  destruct (N.testbit (cd_flags cd) 0) eqn:B0;
    [| destruct (N.testbit (cd_flags cd) 1) eqn:B1;
       [| destruct (N.testbit (cd_flags cd) 2) eqn:B2 ]];
    cbn [rbind]; [.. | repeat split];
    unfold count_in; cbn [lcd_flags lcd_goal lcd_weight lcd_limit lcd_data];
    rewrite ?Fl, ?Odd; cbn iota;
    (split; [reflexivity|]);
    (split; [apply c_int_eq|]); (split; [apply c_int_eq|]); (split; [apply c_int_eq|]);
    (split; [intros X | intros X Y]); try discriminate.
  - rewrite M32, <- I32. split; [intros [= H]; exact H | intros H; rewrite H; reflexivity].
  - rewrite <- I64. split; [intros [= H]; exact H | intros H; rewrite H; reflexivity].
Qed.

Example C59_cover_data_ex :
  lib_cover_data_of (CoverData CVGBIN 2 (2 ^ 40) 0 0 0 0 None)
    = Ok (LibCoverData 1 2 (LBits (2 ^ 40)) 0 0 0 0).
Proof. reflexivity. Qed.

Print Assumptions C59_bin_counts_partial.
Print Assumptions C59_large_counts_refuted.
Print Assumptions C59_at_least_refuted.
Print Assumptions C59_cover_data_partial.

(** * C60: test data *)

(** Text without NUL, and the text a C string of [s] holds: up to its first NUL. *)
Definition nul_free (s : string) : Prop := forall i, String.get i s <> Some Ascii.zero.
Definition c_string (s p : string) : Prop :=
  nul_free p /\ exists rest, s = (p ++ rest)%string /\ (rest = EmptyString \/ exists r, rest = String Ascii.zero r).

Lemma until_nul_c_string : forall s, c_string s (until_nul s).
Proof.
  induction s as [|c s [IH1 (rest & IH2 & IH3)]]; cbn.
  - split; [intros [|i]; discriminate|]. exists EmptyString. auto.
  - destruct (Ascii.eqb_spec c Ascii.zero) as [->|Ne].
    + split; [intros [|i]; discriminate|]. eexists. split; [reflexivity|]. right. eauto.
    + split.
      * intros [|i]; cbn; [congruence|]. apply IH1.
      * exists rest. split; [cbn; congruence|exact IH3].
Qed.
Lemma until_nul_free : forall s, nul_free s -> until_nul s = s.
Proof.
  intros s. induction s as [|c s IH]; intros H; cbn; [reflexivity|].
  destruct (Ascii.eqb_spec c Ascii.zero) as [->|Ne]; [destruct (H O); reflexivity|].
  f_equal. apply IH. intros i. exact (H (S i)).
Qed.

Section TestData.
  Variable to_double : Z -> option string.

  (** A test record whose fields have the types that its documentation gives:
      status an unsigned 32-bit number, compulsory a signed one, times and cost
      floats, the rest text without NUL or None. *)
  Inductive texty : pyval -> Prop :=
  | texty_none : texty VNone
  | texty_str : forall s, nul_free s -> texty (VStr s).
  Inductive floaty : pyval -> Prop := floaty_float : forall s, floaty (VFloat s).
  Inductive inty (ok : Z -> Prop) : pyval -> Prop :=
  | inty_int : forall z, ok z -> inty ok (VInt z).

  Record proper (t : test_data) : Prop := {
    p_status : inty u32 (td_status t);
    p_compulsory : inty i32 (td_compulsory t);
    p_simtime : floaty (td_simtime t);
    p_cputime : floaty (td_cputime t);
    p_cost : floaty (td_cost t);
    p_timeunit : texty (td_timeunit t);
    p_runcwd : texty (td_runcwd t);
    p_seed : texty (td_seed t);
    p_cmd : texty (td_cmd t);
    p_args : texty (td_args t);
    p_date : texty (td_date t);
    p_user : texty (td_user t);
    p_toolcategory : texty (td_toolcategory t) }.

  Lemma text_round : forall v, texty v -> exists s, set_text v = Ok s /\ get_text s = v.
  Proof.
    intros v [|s H]; cbn; eexists; (split; [reflexivity|]); cbn; [reflexivity|]. rewrite (until_nul_free _ H). reflexivity.
  Qed.
  Lemma float_round : forall v, floaty v -> exists s, set_double to_double v = Ok s /\ VFloat s = v.
  Proof. intros v [s]. exists s. split; reflexivity. Qed.
  Lemma u32_round : forall v, inty u32 v -> exists z, set_int c_uint v = Ok z /\ VInt z = v.
  Proof.
    intros v [z H]. exists z. cbn. split; [|reflexivity]. unfold set_int; cbn.
    rewrite (proj2 (c_uint_eq z) H). reflexivity.
  Qed.
  Lemma i32_round : forall v, inty i32 v -> exists z, set_int c_int v = Ok z /\ VInt z = v.
  Proof.
    intros v [z H]. exists z. cbn. split; [|reflexivity]. unfold set_int; cbn.
    rewrite (c_int_small z H). reflexivity.
  Qed.

  (** The exact effect of the conversion there and back on a proper record: the
      status stays, every other field gets the value of another one. *)
  Theorem C60_fields_partial : forall t, proper t ->
    exists l, lib_test_data_of to_double t = Ok l /\
    let t' := to_testdata l in
    td_status t' = td_status t /\
    td_toolcategory t' = td_simtime t /\
    td_date t' = td_timeunit t /\
    td_simtime t' = td_runcwd t /\
    td_timeunit t' = td_cputime t /\
    td_runcwd t' = td_seed t /\
    td_cputime t' = td_cmd t /\
    td_seed t' = td_args t /\
    td_cmd t' = td_compulsory t /\
    td_args t' = td_date t /\
    td_compulsory t' = td_user t /\
    td_user t' = td_cost t /\
    td_cost t' = td_toolcategory t.
  Proof.
    intros t P.
    destruct (u32_round _ (p_status _ P)) as (st & S1 & S2).
    destruct (i32_round _ (p_compulsory _ P)) as (co & C1 & C2).
    destruct (float_round _ (p_simtime _ P)) as (si & Si1 & Si2).
    destruct (float_round _ (p_cputime _ P)) as (cp & Cp1 & Cp2).
    destruct (float_round _ (p_cost _ P)) as (cs & Cs1 & Cs2).
    destruct (text_round _ (p_timeunit _ P)) as (tu & Tu1 & Tu2).
    destruct (text_round _ (p_runcwd _ P)) as (rc & Rc1 & Rc2).
    destruct (text_round _ (p_seed _ P)) as (se & Se1 & Se2).
    destruct (text_round _ (p_cmd _ P)) as (cm & Cm1 & Cm2).
    destruct (text_round _ (p_args _ P)) as (ar & Ar1 & Ar2).
    destruct (text_round _ (p_date _ P)) as (da & Da1 & Da2).
    destruct (text_round _ (p_user _ P)) as (us & Us1 & Us2).
    destruct (text_round _ (p_toolcategory _ P)) as (tc & Tc1 & Tc2).
    unfold lib_test_data_of.
    rewrite S1, Si1, Tu1, Rc1, Cp1, Se1, Cm1, Ar1, C1, Da1, Us1, Cs1, Tc1. cbn [rbind].
    eexists. split; [reflexivity|]. cbn. repeat split; assumption.
  Qed.

  (** Of any record that is handed over: a number is cut to 32 bits, a text at its
      first NUL; nothing else of the record can be handed over. *)
  Definition cut_text (v : pyval) (o : option string) : Prop :=
    match v with
    | VNone => o = None
    | VStr s => exists p, o = Some p /\ c_string s p
    | _ => False
    end.
  Definition cut_int (ok : Z -> Prop) (v : pyval) (z : Z) : Prop :=
    ok z /\ match v with
            | VInt x | VEnum x _ => z mod 2 ^ 32 = x mod 2 ^ 32
            | VBool b => z = if b then 1 else 0
            | _ => False
            end.
  Lemma set_text_cut : forall v o, set_text v = Ok o -> cut_text v o.
  Proof.
    intros [| | |s| |] o H; try discriminate; injection H as <-; cbn; auto.
    eexists. split; [reflexivity|]. apply until_nul_c_string.
  Qed.
  Lemma c_uint_cut : forall z, u32 (c_uint z) /\ c_uint z mod 2 ^ 32 = z mod 2 ^ 32.
  Proof.
    intros z. unfold u32, c_uint, two32. split; [apply Z.mod_pos_bound; reflexivity|]. apply Z.mod_mod. discriminate.
  Qed.
  Lemma c_int_cut : forall z, i32 (c_int z) /\ c_int z mod 2 ^ 32 = z mod 2 ^ 32.
  Proof.
    intros z. split; [apply c_int_range|]. unfold c_int, two32. change (2 ^ 32) with 4294967296.
    rewrite Zminus_mod, Z.mod_mod, <- Zminus_mod by discriminate. f_equal. lia.
  Qed.
  Theorem C60_stored_partial : forall t l, lib_test_data_of to_double t = Ok l ->
    cut_int u32 (td_status t) (lt_status l) /\ cut_int i32 (td_compulsory t) (lt_compulsory l) /\
    cut_text (td_timeunit t) (lt_timeunit l) /\ cut_text (td_runcwd t) (lt_runcwd l) /\
    cut_text (td_seed t) (lt_seed l) /\ cut_text (td_cmd t) (lt_cmd l) /\ cut_text (td_args t) (lt_args l) /\
    cut_text (td_date t) (lt_date l) /\ cut_text (td_user t) (lt_username l) /\
    cut_text (td_toolcategory t) (lt_toolcategory l) /\
    (forall s, td_simtime t = VFloat s -> lt_simtime l = s) /\
    (forall s, td_cputime t = VFloat s -> lt_cputime l = s) /\
    (forall s, td_cost t = VFloat s -> lt_cost l = s).
  Proof.
    intros t l. unfold lib_test_data_of.
    repeat match goal with |- rbind ?m _ = _ -> _ => destruct m eqn:?; cbn [rbind]; [|discriminate] end.
    intros [= <-]. cbn [lt_status lt_compulsory lt_timeunit lt_runcwd lt_seed lt_cmd lt_args lt_date lt_username lt_toolcategory lt_simtime lt_cputime lt_cost].
    assert (HI : forall conv ok v z, (forall z, ok (conv z) /\ conv z mod 2 ^ 32 = z mod 2 ^ 32) ->
                   conv 0 = 0 -> conv 1 = 1 -> set_int conv v = Ok z -> cut_int ok v z).
    { intros conv ok v z H H0 H1. unfold set_int, cut_int. destruct v; cbn; try discriminate; intros [= <-].
      - split; [apply H|]. match goal with |- context [if ?b then _ else _] => destruct b end; auto.
      - apply H.
      - apply H. }
    repeat match goal with |- _ /\ _ => split end;
      try (apply set_text_cut; assumption);
      try (intros s E; match goal with H : set_double _ ?v = Ok ?x |- ?x = s => rewrite E in H; injection H as <-; reflexivity end).
    - eapply HI; [apply c_uint_cut|reflexivity|reflexivity|eassumption].
    - eapply HI; [apply c_int_cut|reflexivity|reflexivity|eassumption].
  Qed.

  (** Which records are refused, and how: the fields are converted in the order of
      the structure, and the first that has the wrong type, or is a number too
      large for a float, decides.  A number given for a text is taken for an
      address (outside the model). *)
  Inductive slot := Number | Double | Text.
  Definition slots (t : test_data) : list (slot * pyval) :=
    [(Number, td_status t); (Double, td_simtime t); (Text, td_timeunit t); (Text, td_runcwd t);
     (Double, td_cputime t); (Text, td_seed t); (Text, td_cmd t); (Text, td_args t);
     (Number, td_compulsory t); (Text, td_date t); (Text, td_user t); (Double, td_cost t);
     (Text, td_toolcategory t)].
  Definition whole (v : pyval) (z : Z) : Prop :=
    v = VInt z \/ (exists n, v = VEnum z n) \/ (v = VBool true /\ z = 1) \/ (v = VBool false /\ z = 0).
  Inductive refused : slot -> pyval -> exn -> Prop :=
  | R_number_none : refused Number VNone TypeError
  | R_number_text : forall s, refused Number (VStr s) TypeError
  | R_number_float : forall s, refused Number (VFloat s) TypeError
  | R_double_none : refused Double VNone TypeError
  | R_double_text : forall s, refused Double (VStr s) TypeError
  | R_double_large : forall v z, whole v z -> to_double z = None -> refused Double v OverflowError
  | R_text_float : forall s, refused Text (VFloat s) TypeError
  | R_text_address : forall v z, whole v z -> refused Text v NoSuchObject.

  Definition convert (s : slot) (v : pyval) : res unit :=
    match s with
    | Number => let* _ := set_int c_uint v in Ok tt
    | Double => let* _ := set_double to_double v in Ok tt
    | Text => let* _ := set_text v in Ok tt
    end.
  Lemma whole_as_int : forall v z, whole v z <-> as_int v = Some z.
  Proof.
    unfold whole. intros v z. destruct v as [|b| | | |]; try destruct b; cbn; split; try discriminate; try (intros [= <-]; eauto 8);
      intros [H|[[m H]|[[H ->]|[H ->]]]]; try discriminate; try (injection H; intros; subst); reflexivity.
  Qed.
  Lemma convert_err : forall s v e, convert s v = Err e <-> refused s v e.
  Proof.
    intros s v e. unfold convert, set_int, set_double, set_text. destruct s.
    - destruct v; cbn; split; try discriminate; try (intros [= <-]; constructor); intros H; inversion H; reflexivity.
    - destruct (as_int v) as [z|] eqn:E.
      + assert (W := proj2 (whole_as_int _ _) E). assert (match v with VFloat _ => False | _ => True end) as F by (destruct v; try exact I; discriminate).
        replace (match v with VFloat s => Ok s | _ => match to_double z with Some s => Ok s | None => Err OverflowError end end)
          with (match to_double z with Some s => Ok s | None => Err OverflowError end) by (destruct v; try reflexivity; contradiction).
        destruct (to_double z) eqn:D; cbn; split; try discriminate.
        * intros H. inversion H; subst; try discriminate. apply whole_as_int in H0. congruence.
        * intros [= <-]. eapply R_double_large; eauto.
        * intros H. inversion H; subst; try discriminate. reflexivity.
      + destruct v; cbn in E |- *; try discriminate; split; try discriminate; try (intros [= <-]; constructor); intros H; inversion H; subst; try reflexivity;
        match goal with W : whole _ _ |- _ => apply whole_as_int in W; discriminate end.
    - destruct (as_int v) as [z|] eqn:E.
      + assert (W := proj2 (whole_as_int _ _) E). destruct v; cbn in E |- *; try discriminate; (split; [intros [= <-]; eapply R_text_address; eauto|]);
        intros H; inversion H; reflexivity.
      + destruct v; cbn in E |- *; try discriminate; split; try discriminate; try (intros [= <-]; constructor); intros H; inversion H; subst; try reflexivity;
        match goal with W : whole _ _ |- _ => apply whole_as_int in W; discriminate end.
  Qed.
  Fixpoint convert_all (l : list (slot * pyval)) : res unit :=
    match l with [] => Ok tt | (s, v) :: l => let* _ := convert s v in convert_all l end.
  Lemma convert_all_err : forall l e, convert_all l = Err e <->
    exists front s v rest, l = front ++ (s, v) :: rest /\ Forall (fun x => forall e', ~ refused (fst x) (snd x) e') front /\ refused s v e.
  Proof.
    induction l as [|[s v] l IH]; intros e; cbn.
    - split; [discriminate|]. intros ([|? ?] & ? & ? & ? & H & _); discriminate.
    - destruct (convert s v) as [[]|e1] eqn:E; cbn.
      + rewrite IH. assert (forall e', ~ refused s v e') as N by (intros e' R; apply convert_err in R; congruence). split.
        * intros (front & s' & v' & rest & -> & F & R). exists ((s, v) :: front), s', v', rest. split; [reflexivity|]. split; auto.
        * intros ([|x front] & s' & v' & rest & H & F & R); injection H as <- H; [subst; destruct (N e R)|].
          exists front, s', v', rest. inversion F; subst. auto.
      + split.
        * intros [= <-]. exists [], s, v, l. split; [reflexivity|]. split; [constructor|]. now apply convert_err.
        * intros ([|x front] & s' & v' & rest & H & F & R); injection H as <- H.
          -- subst. apply convert_err in R. congruence.
          -- inversion F; subst. cbn in *. apply convert_err in E. destruct (H2 _ E).
  Qed.
  Lemma lib_test_data_convert : forall t e, lib_test_data_of to_double t = Err e <-> convert_all (slots t) = Err e.
  Proof.
    intros t e. unfold lib_test_data_of, slots. cbn [convert_all convert].
    assert (forall v, (let* _ := set_int c_int v in Ok tt) = (let* _ := set_int c_uint v in Ok tt)) as C
      by (intros v; unfold set_int; destruct (as_int v); reflexivity).
    rewrite <- (C (td_compulsory t)).
    repeat match goal with |- context [rbind (set_int ?c ?v) _ = _] => destruct (set_int c v); cbn [rbind]; [|split; intros [= <-]; reflexivity]
                      | |- context [rbind (set_double ?c ?v) _ = _] => destruct (set_double c v); cbn [rbind]; [|split; intros [= <-]; reflexivity]
                      | |- context [rbind (set_text ?v) _ = _] => destruct (set_text v); cbn [rbind]; [|split; intros [= <-]; reflexivity] end.
    split; discriminate.
  Qed.
  Theorem C60_refused_partial : forall t e, lib_test_data_of to_double t = Err e <->
    exists front s v rest, slots t = front ++ (s, v) :: rest /\
      Forall (fun x => forall e', ~ refused (fst x) (snd x) e') front /\ refused s v e.
  Proof. intros t e. rewrite lib_test_data_convert. apply convert_all_err. Qed.
  (** Whole numbers given for times and costs are handed over as floats. *)
  Theorem C60_whole_times_partial : forall t l, lib_test_data_of to_double t = Ok l ->
    (forall z, whole (td_simtime t) z -> to_double z = Some (lt_simtime l)) /\
    (forall z, whole (td_cputime t) z -> to_double z = Some (lt_cputime l)) /\
    (forall z, whole (td_cost t) z -> to_double z = Some (lt_cost l)).
  Proof.
    intros t l. unfold lib_test_data_of.
    repeat match goal with |- rbind ?m _ = _ -> _ => destruct m eqn:?; cbn [rbind]; [|discriminate] end.
    intros [= <-]. cbn [lt_simtime lt_cputime lt_cost].
    assert (forall v x z, set_double to_double v = Ok x -> whole v z -> to_double z = Some x) as D.
    { intros v x z H W. apply whole_as_int in W. unfold set_double in H. rewrite W in H. destruct v; cbn in W; try discriminate W;
      (destruct (to_double z); [|discriminate]); injection H as <-; reflexivity. }
    repeat split; intros z W; eapply D; eauto.
  Qed.

  (** So no proper record survives: the simulation time comes back as the
      directory, which is not a number. *)
  Theorem C60_never_survives_refuted : forall t, proper t ->
    exists l, lib_test_data_of to_double t = Ok l /\ to_testdata l <> t.
  Proof.
    intros t P. destruct (C60_fields_partial t P) as (l & L & E). exists l. split; [exact L|].
    cbn zeta in E. destruct E as (_ & _ & _ & E & _). intros H. rewrite H in E.
    destruct (p_simtime _ P) as [s]. destruct (p_runcwd _ P); discriminate.
  Qed.
End TestData.

Definition record : test_data :=
  TestData (VInt 1) (VStr "sim") (VStr "2020-01-01") (VFloat "10.5") (VStr "ns") (VStr "/tmp")
    (VFloat "2.25") (VStr "42") (VStr "run") (VStr "+x") (VInt 0) (VStr "me") (VFloat "0.5").

Example C60_ex : proper record /\
  (let* l := lib_test_data_of (fun _ => None) record in Ok (to_testdata l)) =
    Ok (TestData (VInt 1) (VFloat "10.5") (VStr "ns") (VStr "/tmp") (VFloat "2.25") (VStr "42")
          (VStr "run") (VStr "+x") (VInt 0) (VStr "2020-01-01") (VStr "me") (VFloat "0.5")
          (VStr "sim")).
Proof.
  split; [|reflexivity].
  constructor; cbn; constructor; unfold u32, i32; try lia; intros i; repeat (first [discriminate | destruct i as [|i]]).
Qed.

Example C60_cut_example :
  (let* l := lib_test_data_of (fun _ => None) (TestData (VInt (2 ^ 32 + 1)) VNone VNone (VFloat "1.0") VNone
       (VStr (String "a" (String Ascii.zero "b"))) (VFloat "1.0") VNone VNone VNone (VInt (2 ^ 31)) VNone (VFloat "1.0")) in
   Ok (lt_status l, lt_runcwd l, lt_compulsory l)) = Ok (1, Some "a"%string, - 2 ^ 31).
Proof. reflexivity. Qed.

(** A record with no simulation time set is refused; so is one whose cost is a
    number that no float holds. *)
Example C60_refused_example :
  lib_test_data_of (fun _ => None) (TestData (VInt 1) VNone VNone VNone VNone VNone VNone VNone VNone VNone VNone VNone VNone)
    = Err TypeError /\
  lib_test_data_of (fun _ => None) (TestData (VInt 1) VNone VNone (VFloat "1.0") VNone VNone (VFloat "1.0") VNone VNone VNone
     (VInt 1) VNone (VInt (2 ^ 1024))) = Err OverflowError.
Proof. split; reflexivity. Qed.

Print Assumptions C60_refused_partial.
Print Assumptions C60_whole_times_partial.
Print Assumptions C60_fields_partial.
Print Assumptions C60_stored_partial.
Print Assumptions C60_never_survives_refuted.

(** * C66: what is set can be read back *)

(** Setting a property stores it, if it is an integer of 32 bits, and changes no
    other property. *)
Theorem C66_int_set_partial : forall o index p z l,
  i32 index ->
  let r := set_int_property o index p (VInt z) l in
  snd r = Ok tt /\
  l_int (fst r) o index p = Some (c_int z) /\
  (c_int z = z <-> i32 z) /\
  (forall o' i' p', (o', i', p') <> (o, index, p) -> l_int (fst r) o' i' p' = l_int l o' i' p') /\
  l_str (fst r) = l_str l /\ l_test (fst r) = l_test l.
Proof.
  intros o index p z l I r. subst r. cbn. rewrite (c_int_small _ I).
  assert (OO : forall a, obj_eqb a a = true) by (intros [n|]; cbn; [apply Nat.eqb_refl | reflexivity]).
  split; [reflexivity|]. split; [rewrite OO, Z.eqb_refl, N.eqb_refl; reflexivity|].
  split; [apply c_int_eq|]. split; [|split; reflexivity].
  - intros o' i' p' Ne.
    destruct (obj_eqb o o' && (index =? i') && (p =? p')%N) eqn:E; [|reflexivity].
    exfalso. apply Ne.
    apply andb_true_iff in E. destruct E as [E E3]. apply andb_true_iff in E. destruct E as [E1 E2].
    apply N.eqb_eq in E3. apply Z.eqb_eq in E2. subst.
    destruct o as [x|], o' as [y|]; cbn in E1; try discriminate; [apply Nat.eqb_eq in E1; subst|]; reflexivity.
Qed.

(** The same for text properties: the text up to its first NUL is stored. *)
Theorem C66_string_set_partial : forall o index p s l,
  i32 index ->
  let r := set_string_property o index p (VStr s) l in
  snd r = Ok tt /\
  (exists q, l_str (fst r) o index p = Some q /\ c_string s q) /\
  (forall o' i' p', (o', i', p') <> (o, index, p) -> l_str (fst r) o' i' p' = l_str l o' i' p') /\
  l_int (fst r) = l_int l /\ l_test (fst r) = l_test l.
Proof.
  intros o index p s l I r. subst r. cbn. rewrite (c_int_small _ I).
  assert (OO : forall a, obj_eqb a a = true) by (intros [n|]; cbn; [apply Nat.eqb_refl | reflexivity]).
  split; [reflexivity|]. split.
  { rewrite OO, Z.eqb_refl, N.eqb_refl. eexists. split; [reflexivity|]. apply until_nul_c_string. }
  split; [|split; reflexivity].
  intros o' i' p' Ne.
  destruct (obj_eqb o o' && (index =? i') && (p =? p')%N) eqn:E; [|reflexivity].
  exfalso. apply Ne.
  apply andb_true_iff in E. destruct E as [E E3]. apply andb_true_iff in E. destruct E as [E1 E2].
  apply N.eqb_eq in E3. apply Z.eqb_eq in E2. subst.
  destruct o as [x|], o' as [y|]; cbn in E1; try discriminate; [apply Nat.eqb_eq in E1; subst|]; reflexivity.
Qed.

(** Values of another type are refused with an exception and nothing is stored. *)
Theorem C66_wrong_types_partial : forall o index p v l,
  (match v with VInt _ | VEnum _ _ | VBool _ => False | _ => True end ->
   set_int_property o index p v l = (l, Err ArgumentError)) /\
  (match v with VStr _ => False | _ => True end ->
   set_string_property o index p v l = (l, Err TypeError)).
Proof. intros o index p [| | | | |] l; split; intros H; try (destruct H; fail); reflexivity. Qed.

(** Test data are stored for the node they are set for, and only there; if they
    cannot be handed over there is an exception and nothing is stored. *)
Theorem C66_test_data_set_partial : forall to_double node t l,
  match lib_test_data_of to_double t with
  | Ok d => exists l', lib_set_test_data to_double node t l = (l', Ok tt) /\ l_test l' node = Some d /\
                       (forall n, n <> node -> l_test l' n = l_test l n) /\ l_int l' = l_int l /\ l_str l' = l_str l
  | Err e => lib_set_test_data to_double node t l = (l, Err e)
  end.
Proof.
  intros to_double node t l. unfold lib_set_test_data. destruct (lib_test_data_of to_double t) as [d|e]; [|reflexivity].
  eexists. split; [reflexivity|]. cbn. rewrite Nat.eqb_refl. repeat split.
  intros n Ne. destruct (Nat.eqb_spec n node); [congruence|reflexivity].
Qed.

(** But nothing that was set can be read: the getters raise in every state. *)
Theorem C66_not_readable_refuted : forall o index p l,
  snd (get_int_property o index p l) = Err NotImplementedError /\
  snd (get_string_property o index p l) = Err NotImplementedError.
Proof. split; reflexivity. Qed.

(** And asking a history node for its test data fails and wipes the data that
    was stored, whatever it was. *)
Theorem C66_test_data_wiped_refuted : forall to_double node t l d,
  lib_test_data_of to_double t = Ok d ->
  let l1 := fst (lib_set_test_data to_double node t l) in
  let r := lib_get_test_data node l1 in
  l_test l1 node = Some d /\
  snd r = Err AttributeError /\
  l_test (fst r) node = Some (LibTestData 0 "0.0" None None "0.0" None None None 0 None None "0.0" None).
Proof.
  intros to_double node t l d D. unfold lib_set_test_data. rewrite D. cbn. rewrite Nat.eqb_refl.
  repeat split.
Qed.

Example C66_ex :
  let l0 := LibState (fun _ _ _ => None) (fun _ _ _ => None) (fun _ => None) in
  let l1 := fst (lib_set_test_data (fun _ => None) 3 record l0) in
  option_map lt_seed (l_test l1 3%nat) = Some (Some "42"%string) /\
  option_map lt_seed (l_test (fst (lib_get_test_data 3 l1)) 3%nat) = Some None.
Proof. split; reflexivity. Qed.

Example C66_string_example :
  let l0 := LibState (fun _ _ _ => None) (fun _ _ _ => None) (fun _ => None) in
  l_str (fst (set_string_property (Some 3%nat) 0 5 (VStr "x y") l0)) (Some 3%nat) 0 5%N = Some "x y"%string.
Proof. reflexivity. Qed.

Print Assumptions C66_int_set_partial.
Print Assumptions C66_string_set_partial.
Print Assumptions C66_wrong_types_partial.
Print Assumptions C66_test_data_set_partial.
Print Assumptions C66_not_readable_refuted.
Print Assumptions C66_test_data_wiped_refuted.

(** * C67: iteration *)

(** Iterating over the scopes visits what the library lists, in order, ends and
    releases the iterator. *)
Theorem C67_scopes_partial : forall todo, scope_loop todo = LoopResult todo (Ok tt) true.
Proof. induction todo as [|x xs IH]; cbn; [reflexivity|]. rewrite IH. reflexivity. Qed.

(** Iterating over history nodes visits them all, but always ends with an
    exception and never releases the iterator. *)
Theorem C67_history_refuted : forall todo, history_loop todo = LoopResult todo (Err TypeError) false.
Proof. induction todo as [|x xs IH]; cbn; [reflexivity|]. rewrite IH. reflexivity. Qed.

(** The database's own methods for it raise. *)
Theorem C67_history_nodes_refuted : lib_get_history_nodes = Err UnimplError.
Proof. reflexivity. Qed.

Print Assumptions C67_scopes_partial.
Print Assumptions C67_history_refuted.
Print Assumptions C67_history_nodes_refuted.
