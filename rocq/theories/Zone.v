(** The calendar and the local time zone: what [local] stands for in [Dates.write_date]
    (xml_writer.py:318-320: time.mktime of the time tuple, then
    datetime.fromtimestamp).  The conversion between dates and day numbers follows
    Python's Lib/datetime.py (_ymd2ord, _ord2ymd). *)
From Verif Require Import Base Dates.
Local Open Scope Z_scope.

(** _days_before_year *)
Definition days_before_year (y : Z) : Z :=
  let y := y - 1 in y * 365 + y / 4 - y / 100 + y / 400.
(** _days_before_month, in a year that is or is not a leap year *)
Definition month_days (lp : bool) (m : Z) : Z :=
  if m =? 2 then (if lp then 29 else 28)
  else if (m =? 4) || (m =? 6) || (m =? 9) || (m =? 11) then 30 else 31.
Definition dbm (m : Z) : Z :=
  match m with
  | 1 => 0 | 2 => 31 | 3 => 59 | 4 => 90 | 5 => 120 | 6 => 151 | 7 => 181 | 8 => 212 | 9 => 243 | 10 => 273
  | 11 => 304 | _ => 334
  end.
Definition days_before_month (lp : bool) (m : Z) : Z := dbm m + (if (2 <? m) && lp then 1 else 0).
(** _ymd2ord: 1 January of the year 1 is day 1 *)
Definition ymd2ord (y m d : Z) : Z := days_before_year y + days_before_month (leap y) m + d.

(** _ord2ymd, the part within a year: [n] days after 1 January *)
Definition month_day (lp : bool) (n : Z) : Z * Z :=
  let m := (n + 50) / 32 in
  let preceding := dbm m + (if (2 <? m) && lp then 1 else 0) in
  if n <? preceding
  then let m := m - 1 in (m, n - (preceding - month_days lp m) + 1)
  else (m, n - preceding + 1).
Definition ord2ymd (n : Z) : Z * Z * Z :=
  let n := n - 1 in
  let n400 := n / 146097 in let n := n mod 146097 in
  let n100 := n / 36524 in let n := n mod 36524 in
  let n4 := n / 1461 in let n := n mod 1461 in
  let n1 := n / 365 in let n := n mod 365 in
  let year := n400 * 400 + 1 + n100 * 100 + n4 * 4 + n1 in
  if (n1 =? 4) || (n100 =? 4) then (year - 1, 12, 31)
  else let lp := (n1 =? 3) && (negb (n4 =? 24) || (n100 =? 3)) in
       let (m, d) := month_day lp n in (year, m, d).

(** Seconds from 1 January 1970 to a date and time, and back. *)
Definition secs (t : dt) : Z :=
  (ymd2ord (dt_year t) (dt_month t) (dt_day t) - 719163) * 86400 + dt_hour t * 3600 + dt_min t * 60 + dt_sec t.
Definition of_secs (z : Z) : dt :=
  let '(y, m, d) := ord2ymd (z / 86400 + 719163) in
  let r := z mod 86400 in DT y m d (r / 3600) (r mod 3600 / 60) (r mod 60).

(** A time zone gives the offset of the local clock, in seconds, at each moment
    (seconds since the epoch, UTC). *)
Definition zone := Z -> Z.
(** time.localtime(u), and thus datetime.fromtimestamp(u) *)
Definition localtime (off : zone) (u : Z) : dt := of_secs (u + off u).
(** fromtimestamp(mktime(t)); [mktime] is the C library's. *)
Definition through (off : zone) (mktime : dt -> Z) (t : dt) : dt := localtime off (mktime t).
