(** Printed percentages, without reference to how they are computed. *)
From Coq Require Import ZArith Reals.
From Verif Require Import Base PyInt.
Local Open Scope string_scope.

(** [d] is an integer nearest to [x]; of two, the even one. *)
Definition nearest (x : R) (d : Z) : Prop :=
  (Rabs (x - IZR d) < 1 / 2)%R \/ ((Rabs (x - IZR d) = 1 / 2)%R /\ Z.even d = true).

(** The same for the share of [h] of [t] in percent (0 of nothing is 0). *)
Definition nearest_share (h t : nat) (d : Z) : Prop :=
  (if Nat.eqb t 0 then d = 0
   else let off := Z.abs (100 * Z.of_nat h - d * Z.of_nat t) in
        2 * off < Z.of_nat t \/ (2 * off = Z.of_nat t /\ Z.even d = true))%Z.

(** The texts for [d] percent, and for [d] hundredths of a percent. *)
Definition percent_text (d : Z) : string := show_int d ++ ".000000%".
Definition two_digits (z : Z) : string := (if (z <? 10)%Z then "0" else "") ++ show_int z.
Definition cents_text (d : Z) : string := show_int (d / 100) ++ "." ++ two_digits (d mod 100) ++ "0000%".

(** [s] consists of [r] decimal digits, and they read [m]. *)
Fixpoint number (acc : Z) (s : string) : option Z :=
  match s with
  | EmptyString => Some acc
  | String c t =>
      let n := nat_of_ascii c in
      if (Nat.leb 48 n && Nat.leb n 57)%bool then number (10 * acc + Z.of_nat (n - 48))%Z t else None
  end.
Definition decimals (r : nat) (m : Z) (s : string) : Prop := String.length s = r /\ number 0 s = Some m.

(** The text for [d] units of 10^-r percent, with [r] decimals. *)
Definition decimal_text (r : nat) (d : Z) (text : string) : Prop :=
  exists f, decimals r (d mod 10 ^ Z.of_nat r)%Z f /\
    text = show_int (d / 10 ^ Z.of_nat r)%Z ++ (if Nat.eqb r 0 then "" else "." ++ f) ++ "%".
