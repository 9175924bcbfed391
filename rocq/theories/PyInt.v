(** Python's [str(int)] and [int(str)] (decimal), which the XML writer and
    reader use for every integer attribute (xml_writer.py:236-239, 285-288,
    322-342; xml_reader.py:460-466), and the text report for counts. *)
From Verif Require Import Base.
From Coq Require Import Decimal DecimalString DecimalZ.

(** [str(z)], also ["%d" % z].  Python's limit on the number of digits of such
    conversions (4300 by default in recent versions) is not modelled. *)
Definition show_int (z : Z) : string := NilZero.string_of_int (Z.to_int z).

(** The whitespace [int] strips from an ASCII string. *)
Definition is_space (c : ascii) : bool :=
  match nat_of_ascii c with
  | 9 | 10 | 11 | 12 | 13 | 32 => true
  | _ => false
  end.

Definition digit_of (c : ascii) : option Z :=
  let n := nat_of_ascii c in
  if (48 <=? n) && (n <=? 57) then Some (Z.of_nat (n - 48)) else None.

Fixpoint skip_spaces (s : string) : string :=
  match s with
  | EmptyString => EmptyString
  | String c t => if is_space c then skip_spaces t else s
  end.

Fixpoint all_spaces (s : string) : bool :=
  match s with
  | EmptyString => true
  | String c t => is_space c && all_spaces t
  end.

(** One or more digits, single underscores allowed between digits, then only
    whitespace. [after_digit] says whether the last character read was a digit. *)
Fixpoint read_digits (s : string) (acc : Z) (after_digit : bool) : option Z :=
  match s with
  | EmptyString => if after_digit then Some acc else None
  | String c t =>
      match digit_of c with
      | Some d => read_digits t (10 * acc + d)%Z true
      | None =>
          if after_digit then
            if Ascii.eqb c "_"%char then read_digits t acc false
            else if all_spaces s then Some acc else None
          else None
      end
  end.

(** [int(s)]; [None] is ValueError. *)
Definition parse_int (s : string) : option Z :=
  match skip_spaces s with
  | String c t =>
      if Ascii.eqb c "-"%char then option_map Z.opp (read_digits t 0 false)
      else if Ascii.eqb c "+"%char then read_digits t 0 false
      else read_digits (String c t) 0 false
  | EmptyString => None
  end.

Definition py_int (s : string) : res Z :=
  match parse_int s with Some z => Ok z | None => Err ValueError end.
