(** XML texts, by the grammar of XML 1.0 (Fifth Edition).

    Left out of the grammar: the XML declaration, document types, comments,
    processing instructions and CDATA sections; the writer makes none of them.  A
    prefix of a tag is dropped and declarations of name spaces are no attributes,
    as the reader and the writer see it (xml_reader.py:62-66).  Whether a prefix
    was declared is not looked at.  Strings are byte strings in UTF-8. *)
From Verif Require Import Base Dict Xml.
Set Implicit Arguments.
Local Open Scope string_scope.

Definition all (p : ascii -> Prop) (s : string) : Prop := Forall p (list_ascii_of_string s).

(** [3] S *)
Definition white (c : ascii) : bool :=
  let n := nat_of_ascii c in ((n =? 9) || (n =? 10) || (n =? 13) || (n =? 32))%nat.
Definition blank (s : string) : Prop := all (fun c => white c = true) s.

(** [4], [4a], [5] Name; bytes from 128 on are part of characters outside ASCII,
    all of which are taken to be allowed in names. *)
Definition name_start (c : ascii) : bool :=
  let n := nat_of_ascii c in
  (((65 <=? n) && (n <=? 90)) || ((97 <=? n) && (n <=? 122)) || (n =? 95) || (n =? 58) || (128 <=? n))%nat.
Definition name_char (c : ascii) : bool :=
  let n := nat_of_ascii c in (name_start c || ((48 <=? n) && (n <=? 57)) || (n =? 45) || (n =? 46))%nat.
Definition is_name (s : string) : Prop :=
  exists c t, s = String c t /\ name_start c = true /\ all (fun c => name_char c = true) t.

(** What is behind the colon. *)
Definition local_name (s : string) : string :=
  match index 0 ":" s with
  | Some i => substring (S i) (String.length s - S i) s
  | None => s
  end.
(** Declarations of name spaces. *)
Definition declares (n : string) : bool := seqb n "xmlns" || prefix "xmlns:" n.

(** ** References: [66] CharRef, [68] EntityRef and the predefined entities (4.6) *)

(** [2] Char *)
Definition legal (n : N) : bool :=
  ((n =? 9) || (n =? 10) || (n =? 13) || ((0x20 <=? n) && (n <=? 0xD7FF)) ||
   ((0xE000 <=? n) && (n <=? 0xFFFD)) || ((0x10000 <=? n) && (n <=? 0x10FFFF)))%N.
Definition byte (n : N) : ascii := ascii_of_N n.
Definition utf8 (n : N) : string :=
  (if n <? 0x80 then String (byte n) ""
   else if n <? 0x800 then String (byte (0xC0 + n / 64)) (String (byte (0x80 + n mod 64)) "")
   else if n <? 0x10000 then
     String (byte (0xE0 + n / 4096)) (String (byte (0x80 + n / 64 mod 64)) (String (byte (0x80 + n mod 64)) ""))
   else String (byte (0xF0 + n / 262144)) (String (byte (0x80 + n / 4096 mod 64))
          (String (byte (0x80 + n / 64 mod 64)) (String (byte (0x80 + n mod 64)) ""))))%N.
Definition digit_value (base : N) (c : ascii) : option N :=
  let n := N_of_ascii c in
  let v := (if (48 <=? n) && (n <=? 57) then Some (n - 48)
            else if (97 <=? n) && (n <=? 102) then Some (n - 87)
            else if (65 <=? n) && (n <=? 70) then Some (n - 55) else None)%N in
  match v with Some d => if (d <? base)%N then Some d else None | None => None end.
Fixpoint number (base acc : N) (s : string) : option N :=
  match s with
  | EmptyString => Some acc
  | String c t => match digit_value base c with
                  | Some d => number base (acc * base + d)%N t
                  | None => None
                  end
  end.
Definition char_ref (base : N) (s : string) : option string :=
  match s with
  | EmptyString => None
  | _ => match number base 0 s with
         | Some n => if legal n then Some (utf8 n) else None
         | None => None
         end
  end.
(** What the reference &r; stands for. *)
Definition reference (r : string) : option string :=
  if seqb r "lt" then Some "<"
  else if seqb r "gt" then Some ">"
  else if seqb r "amp" then Some "&"
  else if seqb r "apos" then Some "'"
  else if seqb r "quot" then Some """"
  else match r with
       | String h t =>
           if Ascii.eqb h "#"
           then match t with
                | String x u => if Ascii.eqb x "x" then char_ref 16 u else char_ref 10 t
                | EmptyString => None
                end
           else None
       | EmptyString => None
       end.

(** [means f raw v]: the characters [raw] of a text or an attribute value stand for
    [v]; [f] says what a literal character stands for. *)
Inductive means (f : ascii -> ascii) : string -> string -> Prop :=
| MNil : means f "" ""
| MChar c raw v : xml_char c = true -> c <> "&"%char -> means f raw v -> means f (String c raw) (String (f c) v)
| MRef r x raw v : all (fun c => c <> ";"%char) r -> reference r = Some x -> means f raw v ->
    means f ("&" ++ r ++ ";" ++ raw) (x ++ v).

(** [14] CharData *)
Definition is_text (raw v : string) : Prop :=
  all (fun c => c <> "<"%char) raw /\ (~ exists a b, raw = a ++ "]]>" ++ b) /\ means (fun c => c) raw v.
(** [10] AttValue, with the normalisation of 3.3.3: white space is read as blanks. *)
Definition quote (q : ascii) : Prop := q = """"%char \/ q = "'"%char.
Definition blanked (c : ascii) : ascii := if white c then " "%char else c.
Definition is_value (q : ascii) (raw v : string) : Prop :=
  all (fun c => c <> q /\ c <> "<"%char) raw /\ means blanked raw v.

(** [41] Attribute, with the white space before it *)
Inductive is_attrs : string -> dict string -> Prop :=
| ANil : is_attrs "" []
| ACons w n w1 w2 q raw v s a :
    blank w -> w <> "" -> is_name n -> blank w1 -> blank w2 -> quote q -> is_value q raw v -> is_attrs s a ->
    is_attrs (w ++ n ++ w1 ++ "=" ++ w2 ++ String q (raw ++ String q s)) ((n, v) :: a).

(** White space before the first child is not told from no text (see Xml.v). *)
Fixpoint all_white (s : string) : bool :=
  match s with EmptyString => true | String c t => white c && all_white t end.
Definition leading_text (txt : string) (kids : list elem) : option string :=
  match kids with
  | [] => if seqb txt "" then None else Some txt
  | _ => if all_white txt then None else Some txt
  end.
Definition own (a : dict string) : dict string := filter (fun p => negb (declares (fst p))) a.

(** [39] element, [40] STag, [42] ETag, [43] content, [44] EmptyElemTag.  The text
    of an element is what comes before its first child. *)
Inductive is_elem : string -> elem -> Prop :=
| EEmpty t s a w :
    is_name t -> is_attrs s a -> NoDup (map fst a) -> blank w ->
    is_elem ("<" ++ t ++ s ++ w ++ "/>") (Elem (local_name t) (own a) None [])
| EFull t s a w c txt ks w' :
    is_name t -> is_attrs s a -> NoDup (map fst a) -> blank w -> is_content c txt ks -> blank w' ->
    is_elem ("<" ++ t ++ s ++ w ++ ">" ++ c ++ "</" ++ t ++ w' ++ ">")
            (Elem (local_name t) (own a) (leading_text txt ks) ks)
with is_content : string -> string -> list elem -> Prop :=
| CText raw txt : is_text raw txt -> is_content raw txt []
| CKid raw txt x e c txt' ks :
    is_text raw txt -> is_elem x e -> is_content c txt' ks -> is_content (raw ++ x ++ c) txt (e :: ks).

(** 2.11: ends of lines *)
Fixpoint line_ends (s : string) : string :=
  match s with
  | EmptyString => EmptyString
  | String c t =>
      if (nat_of_ascii c =? 13)%nat
      then match t with
           | String c' t' => if (nat_of_ascii c' =? 10)%nat then String c' (line_ends t') else String "010" (line_ends t)
           | EmptyString => String "010" EmptyString
           end
      else String c (line_ends t)
  end.

(** [1] document: the text [s] is an XML document, and it says [e]. *)
Definition is_document (s : string) (e : elem) : Prop :=
  exists w x w', line_ends s = w ++ x ++ w' /\ blank w /\ is_elem x e /\ blank w'.
