(** IEEE-754 binary64 arithmetic as CPython uses it for the report (instance of
    [arith]), built on Flocq's executable definitions.  An int that is too
    large for a float raises OverflowError in Python and becomes an infinity
    here; the theorems are about weights for which this does not happen (see
    Overflow.v for when it does). *)
From Coq Require Import ZArith.
From Flocq Require Import Core BinarySingleNaN.
From Verif Require Import Base Report.

Definition b64 := binary_float 53 1024.

#[global] Instance prec53 : Prec_gt_0 53 := eq_refl.
#[global] Instance emax1024 : Prec_lt_emax 53 1024 := eq_refl.

(** float(z): round to nearest, ties to even (CPython Objects/longobject.c,
    PyLong_AsDouble). *)
Definition of_Z (z : Z) : b64 := binary_normalize 53 1024 _ _ mode_NE z 0 false.

(** a / b on ints, b <> 0: the quotient of the integers, correctly rounded
    (CPython Objects/longobject.c, long_true_divide). *)
Definition quot_pos (sa : bool) (a : positive) (sb : bool) (b : positive) : b64 :=
  SF2B _ (proj1 (Bdiv_correct_aux 53 1024 _ _ mode_NE sa a 0 sb b 0)).
Definition quotient (a b : Z) : b64 :=
  match a, b with
  | Z0, _ => B754_zero (b <? 0)%Z
  | Zpos x, Zpos y => quot_pos false x false y
  | Zpos x, Zneg y => quot_pos false x true y
  | Zneg x, Zpos y => quot_pos true x false y
  | Zneg x, Zneg y => quot_pos true x true y
  | _, Z0 => B754_nan
  end.

(** The arithmetic of coverage_report_builder.py in floats. *)
Definition F64 : arith :=
  Arith (B754_zero false : b64) quotient (fun x w => Bmult mode_NE x (of_Z w)) (Bplus mode_NE)
        (fun x d => Bdiv mode_NE x (of_Z d)).
