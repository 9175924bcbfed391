(** How the text reports print percentages: Python's [round] and ["%f"] on doubles
    (format_rpt_text.py:43-45, 57, 73; text_coverage_report_formatter.py:28-31, 43-44, 61-62). *)
From Coq Require Import ZArith.
From Flocq Require Import Core BinarySingleNaN.
From Verif Require Import Base PyInt Float64.
Local Open Scope string_scope.
Local Open Scope Z_scope.

(** The integer nearest to a / b (b > 0), the even one of two. *)
Definition div_even (a b : Z) : Z :=
  let q := a / b in let r := a mod b in
  match (2 * r) ?= b with
  | Lt => q
  | Gt => q + 1
  | Eq => if Z.even q then q else q + 1
  end.

(** m * 2^e in units of 10^-n, as _Py_dg_dtoa(x, 3, n) computes it: the exact value,
    rounded half to even (CPython Python/dtoa.c). *)
Definition scaled (n : nat) (m : positive) (e : Z) : Z :=
  if 0 <=? e then Zpos m * 2 ^ e * 10 ^ Z.of_nat n
  else div_even (Zpos m * 10 ^ Z.of_nat n) (2 ^ (- e)).

Definition minus (s : bool) : string := if s then "-" else "".
Definition digit (z : Z) : string := String (ascii_of_nat (48 + Z.to_nat z)) "".
(** The last [n] decimal digits of [z]. *)
Fixpoint pad (n : nat) (z : Z) : string :=
  match n with
  | O => ""
  | S n' => pad n' (z / 10) ++ digit (z mod 10)
  end.
(** [d] units of 10^-n, d >= 0, with [n] decimals. *)
Definition show_fixed (n : nat) (d : Z) : string :=
  match n with
  | O => show_int d
  | _ => show_int (d / 10 ^ Z.of_nat n) ++ "." ++ pad n (d mod 10 ^ Z.of_nat n)
  end.

(** ["%.<n>f" % x]; ["%f"] has six decimals. *)
Definition format (n : nat) (x : b64) : string :=
  match x with
  | B754_zero s => minus s ++ show_fixed n 0
  | B754_finite s m e _ => minus s ++ show_fixed n (scaled n m e)
  | B754_infinity s => minus s ++ "inf"
  | B754_nan => "nan"
  end.

(** [round(x, n)]: the decimal, converted back (CPython Objects/floatobject.c, double_round).
    Simplified: overflow, possible only near the largest double, gives an infinity here. *)
Definition round_to (n : nat) (x : b64) : b64 :=
  match x with
  | B754_finite s m e _ =>
      let d := scaled n m e in
      if d =? 0 then B754_zero s else quotient (cond_Zopp s d) (10 ^ Z.of_nat n)
  | _ => x
  end.

(** [round(x)]: an int (floatobject.c, float___round___impl).  [None]: an infinity or nan,
    for which round raises. *)
Definition round_int (x : b64) : option Z :=
  match x with
  | B754_zero _ => Some 0
  | B754_finite s m e _ => Some (cond_Zopp s (scaled 0 m e))
  | _ => None
  end.

(** format_rpt_text.py:43-45: ["%f%%" % round(cg.coverage, 2)] *)
Definition show_group (x : b64) : string := format 6 (round_to 2 x) ++ "%".
(** format_rpt_text.py:57, 73: ["%f%%" % round(cp.coverage)].  The percentage of a point is
    the quotient of two ints and finite; the text for other values is arbitrary. *)
Definition show_point (x : b64) : string :=
  match round_int x with
  | Some z => format 6 (of_Z z) ++ "%"
  | None => ""
  end.
(** text_coverage_report_formatter.py:28-31, 43-44, 61-62: ["%.<r>f%%" % round(x, r)] *)
Definition show_old (r : nat) (x : b64) : string := format r (round_to r x) ++ "%".
