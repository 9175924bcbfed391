(** Validation against the part of XML Schema 1.0 that the UCIS schema
    (ucis/xml/schema/ucis.xsd) uses: complex types that are sequences of
    elements, some with a choice of elements as one member, attributes, mixed
    content, a few built-in simple types and enumerations of strings.  This is
    what [etree.XMLSchema.assertValid] (ucis/xml/__init__.py:62) is taken to
    check; attributes of the schema-instance namespace (xsi:...) are not
    modelled. *)
From Verif Require Import Base Dict PyInt Xml.
Set Implicit Arguments.
Local Open Scope string_scope.

(** ** Simple types *)

Inductive simple :=
| SString | SInteger | SNonNegative | SPositive | SBoolean | SDouble | SDecimal | SDateTime
| SEnum (values : list string).

(** The whiteSpace facet "collapse", as far as the two ends; blanks inside make
    all these types invalid anyway. *)
Definition xml_blank (c : ascii) : bool :=
  match nat_of_ascii c with 9 | 10 | 13 | 32 => true | _ => false end.
Fixpoint trim_left (s : string) : string :=
  match s with
  | EmptyString => EmptyString
  | String c t => if xml_blank c then trim_left t else s
  end.
Fixpoint all_blank (s : string) : bool :=
  match s with EmptyString => true | String c t => xml_blank c && all_blank t end.
Fixpoint trim_right (s : string) : string :=
  match s with
  | EmptyString => EmptyString
  | String c t => if all_blank s then EmptyString else String c (trim_right t)
  end.
Definition trim (s : string) : string := trim_right (trim_left s).

Definition is_digit (c : ascii) : bool := match digit_of c with Some _ => true | None => false end.
Fixpoint all_chars (p : ascii -> bool) (s : string) : bool :=
  match s with EmptyString => true | String c t => p c && all_chars p t end.
(** One digit or more. *)
Definition digits (s : string) : bool := negb (seqb s "") && all_chars is_digit s.

(** The number without its sign, and whether the sign is "-". *)
Definition unsigned (s : string) : string :=
  match s with
  | String c t => if Ascii.eqb c "-" || Ascii.eqb c "+" then t else s
  | EmptyString => s
  end.
Definition minus (s : string) : bool :=
  match s with String c _ => Ascii.eqb c "-" | EmptyString => false end.
Definition all_zeros (s : string) : bool := all_chars (fun c => Ascii.eqb c "0") s.

Definition lex_integer (s : string) : bool := digits (unsigned s).
Definition lex_nonneg (s : string) : bool := lex_integer s && (negb (minus s) || all_zeros (unsigned s)).
Definition lex_positive (s : string) : bool := lex_integer s && negb (minus s) && negb (all_zeros (unsigned s)).
Definition lex_boolean (s : string) : bool := existsb (seqb s) ["true"; "false"; "1"; "0"].

(** The text up to the first character with [p], and the text after it. *)
Fixpoint split_at (p : ascii -> bool) (s : string) : string * option string :=
  match s with
  | EmptyString => (EmptyString, None)
  | String c t => if p c then (EmptyString, Some t)
                  else let '(a, b) := split_at p t in (String c a, b)
  end.

(** Digits with at most one point among them, at least one digit. *)
Definition lex_decimal (s : string) : bool :=
  match split_at (Ascii.eqb ".") (unsigned s) with
  | (a, None) => digits a
  | (a, Some b) => all_chars is_digit a && all_chars is_digit b && negb (seqb a "" && seqb b "")
  end.
Definition lex_double (s : string) : bool :=
  existsb (seqb s) ["INF"; "-INF"; "NaN"] ||
  match split_at (fun c => Ascii.eqb c "e" || Ascii.eqb c "E") s with
  | (a, None) => lex_decimal a
  | (a, Some b) => lex_decimal a && lex_integer b
  end.

(** A number of [n] digits. *)
Fixpoint number (n : nat) (acc : Z) (s : string) : option (Z * string) :=
  match n with
  | O => Some (acc, s)
  | S n => match s with
           | String c t => match digit_of c with Some d => number n (10 * acc + d)%Z t | None => None end
           | EmptyString => None
           end
  end.
Definition literal (c : ascii) (s : string) : option string :=
  match s with String c' t => if Ascii.eqb c c' then Some t else None | EmptyString => None end.

Definition xsd_leap (y : Z) : bool := ((y mod 4 =? 0) && (negb (y mod 100 =? 0) || (y mod 400 =? 0)))%Z.
Definition xsd_days (y m : Z) : Z :=
  (if m =? 2 then (if xsd_leap y then 29 else 28)
   else if existsb (Z.eqb m) [4; 6; 9; 11] then 30 else 31)%Z.

(** Nothing, "Z", or a difference from UTC of at most 14 hours. *)
Definition lex_zone (s : string) : bool :=
  match s with
  | EmptyString => true
  | String c t =>
      (Ascii.eqb c "Z" && seqb t "") ||
      ((Ascii.eqb c "+" || Ascii.eqb c "-") &&
       match number 2 0 t with
       | Some (h, t) =>
           match literal ":" t with
           | Some t => match number 2 0 t with
                       | Some (m, t) => seqb t "" && ((h <? 14) && (m <? 60) || (h =? 14) && (m =? 0))%Z
                       | None => false
                       end
           | None => false
           end
       | None => false
       end)
  end.
(** A fraction of a second, one digit or more, and a zone. *)
Fixpoint skip_digits (s : string) : string :=
  match s with
  | String c t => if is_digit c then skip_digits t else s
  | EmptyString => EmptyString
  end.
Definition lex_after_seconds (s : string) : bool :=
  match s with
  | String c t =>
      if Ascii.eqb c "." then
        match t with String d t' => is_digit d && lex_zone (skip_digits t') | EmptyString => false end
      else lex_zone s
  | EmptyString => true
  end.
(** There is no fraction, or it is zero. *)
Fixpoint skip_zeros (s : string) : string :=
  match s with
  | String c t => if Ascii.eqb c "0" then skip_zeros t else s
  | EmptyString => EmptyString
  end.
Definition zero_fraction (s : string) : bool :=
  match s with
  | String c t => if Ascii.eqb c "." then seqb (skip_digits t) (skip_zeros t) else true
  | EmptyString => true
  end.
(** Years of four digits only (the type also has longer and negative ones). *)
Definition lex_datetime (s : string) : bool :=
  let bind {A} (o : option A) (k : A -> bool) := match o with Some a => k a | None => false end in
  bind (number 4 0 s) (fun '(y, s) => bind (literal "-" s) (fun s =>
  bind (number 2 0 s) (fun '(mo, s) => bind (literal "-" s) (fun s =>
  bind (number 2 0 s) (fun '(d, s) => bind (literal "T" s) (fun s =>
  bind (number 2 0 s) (fun '(h, s) => bind (literal ":" s) (fun s =>
  bind (number 2 0 s) (fun '(mi, s) => bind (literal ":" s) (fun s =>
  bind (number 2 0 s) (fun '(se, s) =>
    ((1 <=? y) && (1 <=? mo) && (mo <=? 12) && (1 <=? d) && (d <=? xsd_days y mo) &&
     ((h <=? 23) && (mi <=? 59) && (se <=? 59) || (h =? 24) && (mi =? 0) && (se =? 0) && zero_fraction s))%Z
    && lex_after_seconds s))))))))))).

Definition simple_ok (t : simple) (s : string) : bool :=
  match t with
  | SString => true
  | SEnum l => existsb (seqb s) l
  | SInteger => lex_integer (trim s)
  | SNonNegative => lex_nonneg (trim s)
  | SPositive => lex_positive (trim s)
  | SBoolean => lex_boolean (trim s)
  | SDouble => lex_double (trim s)
  | SDecimal => lex_decimal (trim s)
  | SDateTime => lex_datetime (trim s)
  end.

(** ** Complex types *)

Inductive etype := TSimple (t : simple) | TComplex (name : string).

Record attr_decl := AttrDecl { ad_name : string; ad_type : simple; ad_required : bool }.
(** [None]: unbounded *)
Record elem_decl := ElemDecl { ed_name : string; ed_type : etype; ed_min : nat; ed_max : option nat }.
Inductive particle :=
| POne (d : elem_decl)
| PChoice (ds : list elem_decl).
Record ctype := CType { ct_attrs : list attr_decl; ct_parts : list particle; ct_mixed : bool }.
Definition schema := dict ctype.

(** The number of leading [n]s. *)
Fixpoint leading (n : string) (tags : list string) : nat :=
  match tags with
  | t :: ts => if seqb n t then S (leading n ts) else O
  | [] => O
  end.
Definition in_range (d : elem_decl) (k : nat) : bool :=
  Nat.leb (ed_min d) k && match ed_max d with Some m => Nat.leb k m | None => true end.

(** The types of the children of an element with these tags.  Taking as many
    elements as possible for each member is right because no name may stand for
    two neighbouring members (unique particle attribution). *)
Fixpoint assign (ps : list particle) (tags : list string) : option (list etype) :=
  match ps with
  | [] => match tags with [] => Some [] | _ => None end
  | p :: ps =>
      match match p with
            | POne d => Some d
            | PChoice ds => match tags with
                            | t :: _ => find (fun d => seqb (ed_name d) t) ds
                            | [] => None
                            end
            end with
      | Some d =>
          let k := leading (ed_name d) tags in
          if in_range d k then option_map (fun l => (repeat (ed_type d) k ++ l)%list) (assign ps (skipn k tags))
          else None
      | None => None      (* every alternative of the choices in this schema occurs at least once *)
      end
  end.

(** Declared attributes of the declared types, and all that are required. *)
Definition attrs_ok (ds : list attr_decl) (a : dict string) : bool :=
  forallb (fun d => negb (ad_required d) || dmem (ad_name d) a) ds &&
  forallb (fun kv : string * string =>
             match find (fun d => seqb (ad_name d) (fst kv)) ds with
             | Some d => simple_ok (ad_type d) (snd kv)
             | None => false
             end) a.

(** Only mixed content has text; between elements there may be blanks. *)
Definition text_ok (c : ctype) (x : option string) : bool :=
  ct_mixed c ||
  match x with
  | None => true
  | Some s => match ct_parts c with [] => seqb s "" | _ => all_blank s end
  end.

Section Valid.
  Variable sch : schema.

  Fixpoint valid (t : etype) (e : elem) {struct e} : bool :=
    match e with
    | Elem _ a x ks =>
        match t with
        | TSimple s =>
            match a, ks with
            | [], [] => simple_ok s (match x with Some v => v | None => "" end)
            | _, _ => false
            end
        | TComplex n =>
            match dget n sch with
            | None => false
            | Some c =>
                attrs_ok (ct_attrs c) a && text_ok c x &&
                match assign (ct_parts c) (map e_tag ks) with
                | None => false
                | Some ts =>
                    (fix all (ts : list etype) (ks : list elem) {struct ks} : bool :=
                       match ks, ts with
                       | [], [] => true
                       | k :: ks, t :: ts => valid t k && all ts ks
                       | _, _ => false
                       end) ts ks
                end
            end
        end
    end.
End Valid.
