(** Texts that stand for dates. *)
From Verif Require Import Base Dates.
Local Open Scope string_scope.
Local Open Scope Z_scope.

(** The value of a text of digits. *)
Fixpoint decimal (before : Z) (s : string) : option Z :=
  match s with
  | EmptyString => Some before
  | String c t => let n := Z.of_nat (nat_of_ascii c) in
                  if (48 <=? n) && (n <=? 57) then decimal (10 * before + (n - 48)) t else None
  end.
(** [n] digits with the value [z] *)
Definition digits (n : nat) (t : string) (z : Z) : Prop := String.length t = n /\ decimal 0 t = Some z.
Definition one_or_two (t : string) (z : Z) : Prop := digits 1 t z \/ digits 2 t z.
(** The day of a month can have a blank in place of its first digit. *)
Definition day_text (t : string) (z : Z) : Prop := one_or_two t z \/ exists u, t = " " ++ u /\ digits 1 u z.

(** year-month-dayThour:minute:second, with four digits for the year and one or two for
    the rest; the T can be small. *)
Definition iso_text (s : string) (d : dt) : Prop :=
  exists y mo da t h mi se,
    s = y ++ "-" ++ mo ++ "-" ++ da ++ t ++ h ++ ":" ++ mi ++ ":" ++ se /\
    (t = "T" \/ t = "t") /\ digits 4 y (dt_year d) /\ one_or_two mo (dt_month d) /\ day_text da (dt_day d) /\
    one_or_two h (dt_hour d) /\ one_or_two mi (dt_min d) /\ one_or_two se (dt_sec d).

(** The same without anything between; the second form has all digits. *)
Definition compact_text (s : string) (d : dt) : Prop :=
  exists y mo da h mi se,
    s = y ++ mo ++ da ++ h ++ mi ++ se /\
    digits 4 y (dt_year d) /\ one_or_two mo (dt_month d) /\ day_text da (dt_day d) /\
    one_or_two h (dt_hour d) /\ one_or_two mi (dt_min d) /\ one_or_two se (dt_sec d).
Definition full_text (s : string) (d : dt) : Prop :=
  exists y mo da h mi se,
    s = y ++ mo ++ da ++ h ++ mi ++ se /\
    digits 4 y (dt_year d) /\ digits 2 mo (dt_month d) /\ digits 2 da (dt_day d) /\
    digits 2 h (dt_hour d) /\ digits 2 mi (dt_min d) /\ digits 2 se (dt_sec d).

(** The calendar *)
Definition leap_year (y : Z) : Prop := (4 | y) /\ (~ (100 | y) \/ (400 | y)).
Definition month_lengths (y : Z) (l : list Z) : Prop :=
  (leap_year y /\ l = [31; 29; 31; 30; 31; 30; 31; 31; 30; 31; 30; 31])%list \/
  (~ leap_year y /\ l = [31; 28; 31; 30; 31; 30; 31; 31; 30; 31; 30; 31])%list.
Definition real_date (d : dt) : Prop :=
  1 <= dt_year d <= 9999 /\
  (exists l n, month_lengths (dt_year d) l /\ 1 <= dt_month d /\ nth_error l (Z.to_nat (dt_month d - 1)) = Some n /\ 1 <= dt_day d <= n) /\
  0 <= dt_hour d < 24 /\ 0 <= dt_min d < 60 /\ 0 <= dt_sec d < 60.
