(** Dates of history nodes: the 14-digit form of the library and the ISO form of
    the XML file (xml_writer.py:318-320 setAttrDateTime, xml_reader.py:454-458
    getAttrDateTime), with the parts of Python's datetime they use. *)
From Verif Require Import Base PyInt.
Local Open Scope string_scope.
Local Open Scope Z_scope.

(** datetime.datetime without microseconds and time zone. *)
Record dt := DT { dt_year : Z; dt_month : Z; dt_day : Z; dt_hour : Z; dt_min : Z; dt_sec : Z }.

Definition leap (y : Z) : bool :=
  (y mod 4 =? 0) && (negb (y mod 100 =? 0) || (y mod 400 =? 0)).
Definition days_in_month (y m : Z) : Z :=
  if m =? 2 then (if leap y then 29 else 28)
  else if (m =? 4) || (m =? 6) || (m =? 9) || (m =? 11) then 30 else 31.

(** What the datetime constructor accepts. *)
Definition valid_dt (d : dt) : bool :=
  (1 <=? dt_year d) && (dt_year d <=? 9999) && (1 <=? dt_month d) && (dt_month d <=? 12)
  && (1 <=? dt_day d) && (dt_day d <=? days_in_month (dt_year d) (dt_month d))
  && (0 <=? dt_hour d) && (dt_hour d <=? 23) && (0 <=? dt_min d) && (dt_min d <=? 59)
  && (0 <=? dt_sec d) && (dt_sec d <=? 59).

(** ** strptime.  It compiles the format to a regular expression (Lib/_strptime.py,
    TimeRE); [matcher] gives the ways a part of it matches a beginning of the
    string, in the order the regular-expression engine tries them.  Digits and
    blanks outside ASCII are not modelled. *)
Definition matcher (A : Type) := string -> list (A * string).
Definition mbind {A B} (m : matcher A) (k : A -> matcher B) : matcher B :=
  fun s => flat_map (fun r => k (fst r) (snd r)) (m s).
Definition mret {A} (a : A) : matcher A := fun s => [(a, s)].
Definition malt {A} (m1 m2 : matcher A) : matcher A := fun s => (m1 s ++ m2 s)%list.

(** A digit between [lo] and [hi]. *)
Definition mdigit (lo hi : Z) : matcher Z :=
  fun s => match s with
           | String c t => match digit_of c with
                           | Some d => if (lo <=? d) && (d <=? hi) then [(d, t)] else []
                           | None => []
                           end
           | EmptyString => []
           end.
(** A literal character; the expressions are compiled with IGNORECASE, so a
    letter (only T is used) matches in either case. *)
Definition mchar (c : ascii) : matcher unit :=
  fun s => match s with
           | String c' t => if Ascii.eqb c c' || (Ascii.eqb c "T" && Ascii.eqb c' "t")
                            then [(tt, t)] else []
           | EmptyString => []
           end.
Definition mtwo (lo1 hi1 lo2 hi2 : Z) : matcher Z :=
  mbind (mdigit lo1 hi1) (fun a => mbind (mdigit lo2 hi2) (fun b => mret (10 * a + b))).

(** %Y: \d\d\d\d *)
Definition m_year : matcher Z :=
  mbind (mtwo 0 9 0 9) (fun a => mbind (mtwo 0 9 0 9) (fun b => mret (100 * a + b))).
(** %m: 1[0-2]|0[1-9]|[1-9] *)
Definition m_month : matcher Z := malt (mtwo 1 1 0 2) (malt (mtwo 0 0 1 9) (mdigit 1 9)).
(** %d: 3[0-1]|[1-2]\d|0[1-9]|[1-9]| [1-9] *)
Definition m_day : matcher Z :=
  malt (mtwo 3 3 0 1) (malt (mtwo 1 2 0 9) (malt (mtwo 0 0 1 9)
    (malt (mdigit 1 9) (mbind (mchar " ") (fun _ => mdigit 1 9))))).
(** %H: 2[0-3]|[0-1]\d|\d *)
Definition m_hour : matcher Z := malt (mtwo 2 2 0 3) (malt (mtwo 0 1 0 9) (mdigit 0 9)).
(** %M: [0-5]\d|\d *)
Definition m_min : matcher Z := malt (mtwo 0 5 0 9) (mdigit 0 9).
(** %S: 6[0-1]|[0-5]\d|\d *)
Definition m_sec : matcher Z := malt (mtwo 6 6 0 1) (malt (mtwo 0 5 0 9) (mdigit 0 9)).

(** "%Y%m%d%H%M%S" *)
Definition m_compact : matcher dt :=
  mbind m_year (fun y => mbind m_month (fun mo => mbind m_day (fun d =>
  mbind m_hour (fun h => mbind m_min (fun mi => mbind m_sec (fun s =>
  mret (DT y mo d h mi s))))))).

(** "%Y-%m-%dT%H:%M:%S" *)
Definition m_iso : matcher dt :=
  mbind m_year (fun y => mbind (mchar "-") (fun _ =>
  mbind m_month (fun mo => mbind (mchar "-") (fun _ =>
  mbind m_day (fun d => mbind (mchar "T") (fun _ =>
  mbind m_hour (fun h => mbind (mchar ":") (fun _ =>
  mbind m_min (fun mi => mbind (mchar ":") (fun _ =>
  mbind m_sec (fun s => mret (DT y mo d h mi s)))))))))))).

(** datetime.strptime: the first match must reach the end of the string and be a
    date; otherwise ValueError. *)
Definition strptime (m : matcher dt) (s : string) : res dt :=
  match m s with
  | (d, EmptyString) :: _ => if valid_dt d then Ok d else Err ValueError
  | _ => Err ValueError
  end.

(** ** Printing *)
Definition digit_char (d : Z) : ascii := ascii_of_nat (Z.to_nat (48 + d)).
Definition pad2 (z : Z) : string :=
  String (digit_char (z / 10)) (String (digit_char (z mod 10)) "").
Definition pad4 (z : Z) : string := pad2 (z / 100) ++ pad2 (z mod 100).

(** isoformat() *)
Definition isoformat (d : dt) : string :=
  pad4 (dt_year d) ++ "-" ++ pad2 (dt_month d) ++ "-" ++ pad2 (dt_day d) ++ "T" ++
  pad2 (dt_hour d) ++ ":" ++ pad2 (dt_min d) ++ ":" ++ pad2 (dt_sec d).

(** strftime("%Y%m%d%H%M%S"); the C library does not pad years below 1000. *)
Definition compact (d : dt) : string :=
  (if dt_year d <? 1000 then show_int (dt_year d) else pad4 (dt_year d)) ++
  pad2 (dt_month d) ++ pad2 (dt_day d) ++ pad2 (dt_hour d) ++ pad2 (dt_min d) ++ pad2 (dt_sec d).

(** xml_writer.py:318-320.  [local] is fromtimestamp(mktime(_)) in the local time
    zone: the identity except for times skipped by a change of the clocks. *)
Definition write_date (local : dt -> dt) (v : string) : res string :=
  let* d := strptime m_compact v in Ok (isoformat (local d)).

(** xml_reader.py:454-458 *)
Definition read_date (v : string) : res string :=
  let* d := strptime m_iso v in Ok (compact d).
