(** [int(str(z)) = z]. *)
From Verif Require Import Base PyInt.
From Coq Require Import Decimal DecimalString DecimalZ.

Lemma read_uint_acc : forall d p,
  read_digits (NilEmpty.string_of_uint d) (Zpos p) true = Some (Zpos (Pos.of_uint_acc d p)).
Proof.
  induction d; intros p; simpl NilEmpty.string_of_uint;
    cbn [read_digits Pos.of_uint_acc]; [reflexivity|..];
    match goal with |- context [digit_of ?c] =>
      let v := eval vm_compute in (digit_of c) in change (digit_of c) with v end; cbv iota;
    rewrite <- IHd; f_equal; lia.
Qed.

Lemma read_uint : forall d b,
  (b = true \/ d <> Nil) ->
  read_digits (NilEmpty.string_of_uint d) 0 b = Some (Z.of_N (Pos.of_uint d)).
Proof.
  induction d; intros b Hb; simpl NilEmpty.string_of_uint; cbn [read_digits].
  - destruct Hb as [->|H]; [reflexivity|congruence].
  - change (digit_of "0") with (Some 0%Z). cbv iota.
    change (10 * 0 + 0)%Z with 0%Z. rewrite IHd by now left. reflexivity.
  - change (digit_of "1") with (Some 1%Z). cbv iota. apply (read_uint_acc d 1).
  - change (digit_of "2") with (Some 2%Z). cbv iota. apply (read_uint_acc d 2).
  - change (digit_of "3") with (Some 3%Z). cbv iota. apply (read_uint_acc d 3).
  - change (digit_of "4") with (Some 4%Z). cbv iota. apply (read_uint_acc d 4).
  - change (digit_of "5") with (Some 5%Z). cbv iota. apply (read_uint_acc d 5).
  - change (digit_of "6") with (Some 6%Z). cbv iota. apply (read_uint_acc d 6).
  - change (digit_of "7") with (Some 7%Z). cbv iota. apply (read_uint_acc d 7).
  - change (digit_of "8") with (Some 8%Z). cbv iota. apply (read_uint_acc d 8).
  - change (digit_of "9") with (Some 9%Z). cbv iota. apply (read_uint_acc d 9).
Qed.

Lemma read_uint_zero : forall d,
  read_digits (NilZero.string_of_uint d) 0 false = Some (Z.of_N (Pos.of_uint d)).
Proof.
  intros d. destruct d; [reflexivity|..]; apply read_uint; right; discriminate.
Qed.

Lemma uint_head : forall d,
  exists c t, NilZero.string_of_uint d = String c t /\ is_space c = false
              /\ Ascii.eqb c "-" = false /\ Ascii.eqb c "+" = false.
Proof. intros d; destruct d; simpl; eexists; eexists; repeat split; reflexivity. Qed.

Lemma of_int_pos : forall d, Z.of_int (Pos d) = Z.of_N (Pos.of_uint d).
Proof. reflexivity. Qed.
Lemma of_int_neg : forall d, Z.of_int (Neg d) = Z.opp (Z.of_N (Pos.of_uint d)).
Proof. reflexivity. Qed.

Lemma parse_show : forall z, parse_int (show_int z) = Some z.
Proof.
  intros z. unfold show_int, parse_int, NilZero.string_of_int.
  rewrite <- (DecimalZ.of_to z) at 2.
  destruct (Z.to_int z) as [d|d].
  - rewrite of_int_pos. destruct (uint_head d) as (c & t & E & Hs & Hm & Hp).
    rewrite <- read_uint_zero. rewrite E. cbn [skip_spaces]. rewrite Hs, Hm, Hp. reflexivity.
  - rewrite of_int_neg. cbn [skip_spaces]. change (is_space "-") with false. cbv iota.
    rewrite read_uint_zero. reflexivity.
Qed.

Lemma py_int_show : forall z, py_int (show_int z) = Ok z.
Proof. intros. unfold py_int. now rewrite parse_show. Qed.

Lemma show_int_inj : forall a b, show_int a = show_int b -> a = b.
Proof. intros a b H. apply (f_equal parse_int) in H. rewrite !parse_show in H. congruence. Qed.
