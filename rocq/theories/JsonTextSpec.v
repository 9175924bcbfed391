(** JSON texts, by the grammar of RFC 8259, and what the text of a JSON report
    should say.

    Texts and strings are byte strings in UTF-8; bytes from 128 on, which are parts
    of characters outside ASCII, stand for themselves.  An escaped surrogate that is
    not part of a pair stands for no character and is left out of the grammar. *)
From Coq Require Import Reals.
From Flocq Require Import Core BinarySingleNaN.
From Verif Require Import Base Report Float64 XmlTextSpec.
Set Implicit Arguments.
Local Open Scope string_scope.

(** What a text says.  [DNum m e] is the number m * 10^e. *)
Inductive jdoc :=
| DStr (s : string) | DNum (m e : Z) | DTrue | DFalse | DNull
| DArr (l : list jdoc) | DObj (fields : list (string * jdoc)).

(** ** Numbers (section 6) *)
Definition digit (c : ascii) : bool := let n := nat_of_ascii c in ((48 <=? n) && (n <=? 57))%nat.
Definition digits (s : string) : Prop := s <> "" /\ all (fun c => digit c = true) s.
Fixpoint digits_value (acc : Z) (s : string) : Z :=
  match s with
  | EmptyString => acc
  | String c t => digits_value (acc * 10 + (Z.of_nat (nat_of_ascii c) - 48)) t
  end.
Definition signed (neg : bool) (z : Z) : Z := if neg then Z.opp z else z.
(** No leading zeros *)
Definition whole (s : string) : Prop := digits s /\ (s = "0" \/ prefix "0" s = false).
(** [fraction s f]: the part [s] has the digits [f] behind the point. *)
Inductive fraction : string -> string -> Prop :=
| FNone : fraction "" ""
| FSome f : digits f -> fraction ("." ++ f) f.
Inductive exponent : string -> Z -> Prop :=
| XNone : exponent "" 0
| XPlain c d : c = "e"%char \/ c = "E"%char -> digits d -> exponent (String c d) (digits_value 0 d)
| XPlus c d : c = "e"%char \/ c = "E"%char -> digits d -> exponent (String c ("+" ++ d)) (digits_value 0 d)
| XMinus c d : c = "e"%char \/ c = "E"%char -> digits d -> exponent (String c ("-" ++ d)) (- digits_value 0 d).
Definition is_number (s : string) (m e : Z) : Prop :=
  exists (neg : bool) i fr f ex x, whole i /\ fraction fr f /\ exponent ex x /\
    s = (if neg then "-" else "") ++ i ++ fr ++ ex /\
    m = signed neg (digits_value 0 (i ++ f)) /\ e = (x - Z.of_nat (String.length f))%Z.

(** ** Strings (section 7) *)
Definition unescaped (c : ascii) : bool :=
  let n := nat_of_ascii c in ((32 <=? n) && negb (n =? 34) && negb (n =? 92))%nat.
Definition escaped (c : ascii) : option ascii :=
  if Ascii.eqb c """" then Some """"%char
  else if Ascii.eqb c "\" then Some "\"%char
  else if Ascii.eqb c "/" then Some "/"%char
  else if Ascii.eqb c "b" then Some "008"%char
  else if Ascii.eqb c "f" then Some "012"%char
  else if Ascii.eqb c "n" then Some "010"%char
  else if Ascii.eqb c "r" then Some "013"%char
  else if Ascii.eqb c "t" then Some "009"%char
  else None.
(** Four hexadecimal digits *)
Definition code_unit (h : string) : option N := if (String.length h =? 4)%nat then number 16 0 h else None.
Definition high (n : N) : bool := ((0xD800 <=? n) && (n <=? 0xDBFF))%N.
Definition low (n : N) : bool := ((0xDC00 <=? n) && (n <=? 0xDFFF))%N.
Definition combined (a b : N) : N := (0x10000 + (a - 0xD800) * 0x400 + (b - 0xDC00))%N.
(** [chars raw v]: the characters [raw] between the quotes stand for [v]. *)
Inductive chars : string -> string -> Prop :=
| CNil : chars "" ""
| CPlain c raw v : unescaped c = true -> chars raw v -> chars (String c raw) (String c v)
| CEscaped c x raw v : escaped c = Some x -> chars raw v -> chars (String "\" (String c raw)) (String x v)
| CUnit h n raw v : code_unit h = Some n -> high n = false -> low n = false -> chars raw v ->
    chars ("\u" ++ h ++ raw) (utf8 n ++ v)
| CPair h a h' b raw v : code_unit h = Some a -> high a = true -> code_unit h' = Some b -> low b = true -> chars raw v ->
    chars ("\u" ++ h ++ "\u" ++ h' ++ raw) (utf8 (combined a b) ++ v).
Inductive is_string : string -> string -> Prop :=
| SQuoted raw v : chars raw v -> is_string (String """" (raw ++ """")) v.

(** ** Values (sections 2 to 5) *)
Inductive is_json_value : string -> jdoc -> Prop :=
| VTrue : is_json_value "true" DTrue
| VFalse : is_json_value "false" DFalse
| VNull : is_json_value "null" DNull
| VNum s m e : is_number s m e -> is_json_value s (DNum m e)
| VStr s v : is_string s v -> is_json_value s (DStr v)
| VNoItems w : blank w -> is_json_value ("[" ++ w ++ "]") (DArr [])
| VItems s l : items s l -> is_json_value ("[" ++ s ++ "]") (DArr l)
| VNoMembers w : blank w -> is_json_value ("{" ++ w ++ "}") (DObj [])
| VMembers s l : members s l -> is_json_value ("{" ++ s ++ "}") (DObj l)
with items : string -> list jdoc -> Prop :=
| ILast w x d w' : blank w -> is_json_value x d -> blank w' -> items (w ++ x ++ w') [d]
| IMore w x d w' s l : blank w -> is_json_value x d -> blank w' -> items s l ->
    items (w ++ x ++ w' ++ "," ++ s) (d :: l)
with members : string -> list (string * jdoc) -> Prop :=
| MLast w k n w1 w2 x d w' : blank w -> is_string k n -> blank w1 -> blank w2 -> is_json_value x d -> blank w' ->
    members (w ++ k ++ w1 ++ ":" ++ w2 ++ x ++ w') [(n, d)]
| MMore w k n w1 w2 x d w' s l : blank w -> is_string k n -> blank w1 -> blank w2 -> is_json_value x d -> blank w' -> members s l ->
    members (w ++ k ++ w1 ++ ":" ++ w2 ++ x ++ w' ++ "," ++ s) ((n, d) :: l).
(** The text [s] is a JSON text, and it says [d]. *)
Definition is_json (s : string) (d : jdoc) : Prop :=
  exists w x w', s = w ++ x ++ w' /\ blank w /\ is_json_value x d /\ blank w'.

(** ** Unicode *)

(** A string of characters, that is, of Unicode scalar values. *)
Definition scalar (n : N) : Prop := ((n < 0xD800) \/ (0xE000 <= n <= 0x10FFFF))%N.
Definition unicode (s : string) : Prop :=
  exists l, Forall scalar l /\ s = fold_right (fun n t => utf8 n ++ t) "" l.

(** ** What the report should say *)

(** A member; names of members do not repeat, so that it does not matter which of
    several a reader takes. *)
Definition has (k : string) (d v : jdoc) : Prop :=
  exists fs, d = DObj fs /\ NoDup (map fst fs) /\ In (k, v) fs.
Definition lacks (k : string) (d : jdoc) : Prop :=
  exists fs, d = DObj fs /\ ~ In k (map fst fs).
(** The entries of a list; a member that is not there stands for an empty list. *)
Definition listed (k : string) (d : jdoc) (l : list jdoc) : Prop :=
  has k d (DArr l) \/ (lacks k d /\ l = []).

(** The number in the text, read as a double *)
Definition decimal (m e : Z) : R := (IZR m * powerRZ 10 e)%R.
Definition reads_as (m e : Z) (x : b64) : Prop :=
  B2R x = round radix2 (FLT_exp (-1074) 53) ZnearestE (decimal m e).
Definition number_is (x : b64) (d : jdoc) : Prop := exists m e, d = DNum m e /\ reads_as m e x.

Definition says_bin (b : rbin) (d : jdoc) : Prop :=
  has "name" d (DStr (rb_name b)) /\ has "count" d (DNum (rb_count b) 0).
Definition says_coverage (x : b64) (d : jdoc) : Prop := exists v, has "coverage" d v /\ number_is x v.
Definition says_bins (k : string) (bs : list rbin) (d : jdoc) : Prop :=
  exists l, listed k d l /\ Forall2 says_bin bs l.
Definition says_point (p : rcp F64) (d : jdoc) : Prop :=
  says_coverage (rp_cov p) d /\
  says_bins "bins" (rp_bins p) d /\ says_bins "ignorebins" (rp_ignore p) d /\ says_bins "illegalbins" (rp_illegal p) d.
Inductive says_group : rcg F64 -> jdoc -> Prop :=
| SGroup (g : rcg F64) d ps gs :
    has "name" d (DStr (rg_name g)) -> says_coverage (rg_cov g) d ->
    listed "coverpoints" d ps -> Forall2 says_point (rg_cps g) ps ->
    listed "covergroups" d gs -> Forall2 says_group (rg_cgs g) gs ->
    says_group g d.
Definition says_report (r : report F64) (d : jdoc) : Prop :=
  says_coverage (r_cov r) d /\ exists gs, listed "covergroups" d gs /\ Forall2 says_group (r_cgs r) gs.

(** All names of a report but those of coverpoints *)
Fixpoint group_texts (g : rcg F64) : list string :=
  rg_name g ::
  flat_map (fun p : rcp F64 => map rb_name (rp_bins p ++ rp_ignore p ++ rp_illegal p)%list) (rg_cps g) ++
  flat_map group_texts (rg_cgs g).
Definition report_texts (r : report F64) : list string := flat_map group_texts (r_cgs r).

(** What is assumed of [float.__repr__]: the shortest decimal that reads back as the
    number, in the notation of Python, which is JSON's. *)
Definition faithful (repr : b64 -> string) : Prop :=
  forall x, is_finite x = true -> exists m e, is_number (repr x) m e /\ reads_as m e x.

(** Reports that agree in all a JSON report shows: doubles are compared as
    numbers. *)
Definition alike_bin (b b' : rbin) : Prop := rb_name b = rb_name b' /\ rb_count b = rb_count b'.
Definition alike_point (p p' : rcp F64) : Prop :=
  B2R (rp_cov p : b64) = B2R (rp_cov p' : b64) /\
  Forall2 alike_bin (rp_bins p) (rp_bins p') /\ Forall2 alike_bin (rp_ignore p) (rp_ignore p') /\
  Forall2 alike_bin (rp_illegal p) (rp_illegal p').
Inductive alike_group : rcg F64 -> rcg F64 -> Prop :=
| Alike (g g' : rcg F64) :
    rg_name g = rg_name g' -> B2R (rg_cov g : b64) = B2R (rg_cov g' : b64) ->
    Forall2 alike_point (rg_cps g) (rg_cps g') -> Forall2 alike_group (rg_cgs g) (rg_cgs g') -> alike_group g g'.
Definition alike (r r' : report F64) : Prop :=
  B2R (r_cov r : b64) = B2R (r_cov r' : b64) /\ Forall2 alike_group (r_cgs r) (r_cgs r').
(** A point without bins has coverage zero. *)
Definition bare (p : rcp F64) : Prop := rp_bins p = [] -> rp_cov p = ar_zero.
