(** The schema's simple types and validity of documents, as XML Schema defines
    them: literals by their grammar and their values, elements by an inductive
    definition. *)
From Verif Require Import Base Dict Xml Schema SchemaSpec.
Local Open Scope string_scope.

(** ** Characters *)
Definition chars (s : string) : list ascii := list_ascii_of_string s.
Definition digit (c : ascii) : Prop := 48 <= nat_of_ascii c <= 57.
Definition numeral (s : string) : Prop := Forall digit (chars s).
(** The number a numeral stands for. *)
Definition value (s : string) : Z :=
  fold_left (fun acc c => 10 * acc + (Z.of_nat (nat_of_ascii c) - 48))%Z (chars s) 0%Z.
(** Tab, line feed, carriage return, space *)
Definition blanks (s : string) : Prop := Forall (fun c => In (nat_of_ascii c) [9; 10; 13; 32]) (chars s).

(** ** Literals *)
Definition integer_literal (s : string) (z : Z) : Prop :=
  exists sg n, s = sg ++ n /\ n <> "" /\ numeral n /\
    (In sg [""; "+"] /\ z = value n \/ sg = "-" /\ z = (- value n)%Z).
Definition decimal_literal (s : string) : Prop :=
  exists sg n, s = sg ++ n /\ In sg [""; "+"; "-"] /\
    (n <> "" /\ numeral n \/
     exists a b, n = a ++ "." ++ b /\ numeral a /\ numeral b /\ (a <> "" \/ b <> "")).
Definition double_literal (s : string) : Prop :=
  In s ["INF"; "-INF"; "NaN"] \/ decimal_literal s \/
  exists a e b z, s = a ++ e ++ b /\ In e ["e"; "E"] /\ decimal_literal a /\ integer_literal b z.

Definition two (s : string) : Prop := String.length s = 2 /\ numeral s.
(** Nothing, Z, or a difference from UTC of at most 14 hours *)
Definition zone_literal (s : string) : Prop :=
  s = "" \/ s = "Z" \/
  exists sg h m, s = sg ++ h ++ ":" ++ m /\ In sg ["+"; "-"] /\ two h /\ two m /\
    ((value h <= 13 /\ value m <= 59) \/ (value h = 14 /\ value m = 0))%Z.
Definition month_days (y m : Z) : Z :=
  if existsb (Z.eqb m) [4; 6; 9; 11]%Z then 30
  else if Z.eqb m 2 then
    if ((y mod 400 =? 0) || (y mod 4 =? 0) && negb (y mod 100 =? 0))%Z then 29 else 28
  else 31.
(** A date of the calendar and a time of the day, midnight also as 24:00:00 *)
Definition datetime_literal (s : string) : Prop :=
  exists y mo d h mi se fr zone,
    s = y ++ "-" ++ mo ++ "-" ++ d ++ "T" ++ h ++ ":" ++ mi ++ ":" ++ se ++ fr ++ zone /\
    String.length y = 4 /\ numeral y /\ two mo /\ two d /\ two h /\ two mi /\ two se /\
    (1 <= value y /\ 1 <= value mo <= 12 /\ 1 <= value d <= month_days (value y) (value mo))%Z /\
    (fr = "" \/ exists f, fr = "." ++ f /\ f <> "" /\ numeral f) /\ zone_literal zone /\
    (value h <= 23 /\ value mi <= 59 /\ value se <= 59 \/
     value h = 24 /\ value mi = 0 /\ value se = 0 /\ (fr = "" \/ exists f, fr = "." ++ f /\ value f = 0))%Z.

Definition literal_of (t : simple) (s : string) : Prop :=
  match t with
  | SString => True
  | SEnum l => In s l
  | SInteger => exists z, integer_literal s z
  | SNonNegative => exists z, integer_literal s z /\ (0 <= z)%Z
  | SPositive => exists z, integer_literal s z /\ (1 <= z)%Z
  | SBoolean => In s ["true"; "false"; "1"; "0"]
  | SDouble => double_literal s
  | SDecimal => decimal_literal s
  | SDateTime => datetime_literal s
  end.
(** Blanks around a literal do not count, except in strings. *)
Definition allowed (t : simple) (s : string) : Prop :=
  match t with
  | SString | SEnum _ => literal_of t s
  | _ => exists l core r, s = l ++ core ++ r /\ blanks l /\ blanks r /\ literal_of t core
  end.

(** ** Elements *)
Definition attributes_conform (ds : list attr_decl) (a : dict string) : Prop :=
  (forall d, In d ds -> ad_required d = true -> exists v, In (ad_name d, v) a) /\
  (forall k v, In (k, v) a -> exists d, In d ds /\ ad_name d = k /\ allowed (ad_type d) v).
Definition text_conforms (c : ctype) (x : option string) : Prop :=
  ct_mixed c = true \/ x = None \/ exists s, x = Some s /\ (s = "" \/ ct_parts c <> [] /\ blanks s).
Inductive conforms (sch : schema) : etype -> elem -> Prop :=
| ConformsSimple t tag x :
    allowed t (match x with Some s => s | None => "" end) -> conforms sch (TSimple t) (Elem tag [] x [])
| ConformsComplex n c tag a x ks ts :
    dget n sch = Some c -> attributes_conform (ct_attrs c) a -> text_conforms c x ->
    fits (ct_parts c) (map e_tag ks) ts -> Forall2 (conforms sch) ts ks ->
    conforms sch (TComplex n) (Elem tag a x ks).
