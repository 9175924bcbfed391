(** The text of an XML document: what file.write gets from lxml's tounicode with
    pretty_print (xml_writer.py:86-88), and reading a text.

    The serialiser is lxml's, the code calls it; modelled is what it writes for
    trees like the writer's, where an element has text or children but not both.
    lxml's documents are in UTF-8, so characters outside ASCII are written as they
    are.  The reader ([parse_text]) is none of lxml: it decides the grammar of
    [XmlTextSpec], see P_XmlText.v. *)
From Verif Require Import Base Dict Xml XmlTextSpec.
Set Implicit Arguments.
Local Open Scope string_scope.

(** ** Writing *)

Definition escape (f : ascii -> string) : string -> string :=
  fix go s := match s with EmptyString => "" | String c t => f c ++ go t end.
(** In attribute values *)
Definition esc_attr (c : ascii) : string :=
  if Ascii.eqb c "&" then "&amp;"
  else if Ascii.eqb c "<" then "&lt;"
  else if Ascii.eqb c ">" then "&gt;"
  else if Ascii.eqb c """" then "&quot;"
  else if Ascii.eqb c "009" then "&#9;"
  else if Ascii.eqb c "010" then "&#10;"
  else if Ascii.eqb c "013" then "&#13;"
  else String c "".
(** In texts *)
Definition esc_text (c : ascii) : string :=
  if Ascii.eqb c "&" then "&amp;"
  else if Ascii.eqb c "<" then "&lt;"
  else if Ascii.eqb c ">" then "&gt;"
  else if Ascii.eqb c "013" then "&#13;"
  else String c "".

Definition put_attr (p : string * string) : string := " " ++ fst p ++ "=""" ++ escape esc_attr (snd p) ++ """".
Definition put_attrs (a : dict string) : string := fold_right (fun p s => put_attr p ++ s) "" a.
Definition newline : string := String "010" "".
(** Two blanks for every level *)
Fixpoint indent (n : nat) : string := match n with O => "" | S n => "  " ++ indent n end.

(** An element at level [n]; [ns] are declarations of name spaces. *)
Fixpoint put_elem (ns : string) (n : nat) (e : elem) : string :=
  match e with
  | Elem t a x ks =>
      "<" ++ t ++ ns ++ put_attrs a ++
      match x, ks with
      | None, [] => "/>"
      | Some s, _ => ">" ++ escape esc_text s ++ "</" ++ t ++ ">"
      | None, _ =>
          ">" ++ newline ++
          (fix go l := match l with
                       | [] => ""
                       | k :: l => indent (S n) ++ put_elem "" (S n) k ++ newline ++ go l
                       end) ks ++
          indent n ++ "</" ++ t ++ ">"
      end
  end.
(** xml_writer.py:60-63: the prefix "ucis" is declared at the root; 88: the text,
    which ends with a line feed. *)
Definition put_doc (e : elem) : string :=
  put_elem " xmlns:ucis=""http://www.w3.org/2001/XMLSchema-instance""" 0 e ++ newline.

(** ** Reading *)

(** The longest prefix with [p], and the rest. *)
Fixpoint span (p : ascii -> bool) (s : string) : string * string :=
  match s with
  | EmptyString => ("", "")
  | String c t => if p c then let (a, b) := span p t in (String c a, b) else ("", s)
  end.
Definition skip (s : string) : string := snd (span white s).
(** Just this character *)
Definition eat (c : ascii) (s : string) : option string :=
  match s with String d t => if Ascii.eqb d c then Some t else None | EmptyString => None end.

Notation "'get' p <- x ; k" := (match x with Some p => k | None => None end)
  (at level 200, p pattern, x at level 100, k at level 200).

(** References replaced; [pending] is the part read of a reference. *)
Fixpoint decode (f : ascii -> ascii) (pending : option string) (s : string) : option string :=
  match s with
  | EmptyString => match pending with None => Some "" | Some _ => None end
  | String c t =>
      match pending with
      | None => if Ascii.eqb c "&" then decode f (Some "") t
                else if xml_char c then get v <- decode f None t; Some (String (f c) v)
                else None
      | Some r => if Ascii.eqb c ";" then get x <- reference r; get v <- decode f None t; Some (x ++ v)
                  else decode f (Some (r ++ String c "")) t
      end
  end.

Definition get_name (s : string) : option (string * string) :=
  match s with
  | String c t => if name_start c then let (a, b) := span name_char t in Some (String c a, b) else None
  | EmptyString => None
  end.
(** A quoted value *)
Definition get_quoted (s : string) : option (string * string) :=
  match s with
  | String q s =>
      if Ascii.eqb q """" || Ascii.eqb q "'"
      then let (raw, s) := span (fun c => negb (Ascii.eqb c q || Ascii.eqb c "<")) s in
           get v <- decode blanked None raw;
           get s <- eat q s;
           Some (v, s)
      else None
  | EmptyString => None
  end.
(** Attributes and the white space behind them *)
Fixpoint get_attrs (n : nat) (s : string) : option (dict string * string) :=
  match n with
  | O => None
  | S n =>
      let (w, s1) := span white s in
      match get_name s1 with
      | None => Some ([], s1)
      | Some (k, s) =>
          if seqb w "" then None
          else get s <- eat "=" (skip s);
               get (v, s) <- get_quoted (skip s);
               get (a, s) <- get_attrs n s;
               Some ((k, v) :: a, s)
      end
  end.
Fixpoint distinct (l : list string) : bool :=
  match l with [] => true | x :: l => negb (existsb (seqb x) l) && distinct l end.
Fixpoint cdata_end (s : string) : bool :=
  match s with EmptyString => false | String _ t => prefix "]]>" s || cdata_end t end.
Definition get_text (s : string) : option (string * string) :=
  let (raw, s) := span (fun c => negb (Ascii.eqb c "<")) s in
  if cdata_end raw then None else get v <- decode (fun c => c) None raw; Some (v, s).
(** The start of a tag: its name, attributes and the white space behind *)
Definition get_start (s : string) : option (string * dict string * string) :=
  get s <- eat "<" s;
  get (t, s) <- get_name s;
  get (a, s) <- get_attrs (S (String.length s)) s;
  if distinct (map fst a) then Some (t, a, s) else None.
(** An end tag *)
Definition get_end (t : string) (s : string) : option string :=
  get s <- eat "<" s;
  get s <- eat "/" s;
  get (t', s) <- get_name s;
  if seqb t t' then eat ">" (skip s) else None.

Fixpoint get_elem (n : nat) (s : string) : option (elem * string) :=
  match n with
  | O => None
  | S n =>
      get (t, a, s) <- get_start s;
      match eat "/" s with
      | Some s => get s <- eat ">" s; Some (Elem (local_name t) (own a) None [], s)
      | None =>
          get s <- eat ">" s;
          get (txt, ks, s) <- get_content n s;
          get s <- get_end t s;
          Some (Elem (local_name t) (own a) (leading_text txt ks) ks, s)
      end
  end
(** Up to an end tag or the end *)
with get_content (n : nat) (s : string) : option (string * list elem * string) :=
  match n with
  | O => None
  | S n =>
      get (txt, s) <- get_text s;
      if seqb s "" || prefix "</" s then Some (txt, [], s)
      else get (e, s) <- get_elem n s;
           get (_, ks, s) <- get_content n s;
           Some (txt, e :: ks, s)
  end.

Definition parse_text (s : string) : res elem :=
  let s := skip (line_ends s) in
  match get_elem (2 * String.length s + 1) s with
  | Some (e, s) => if all_white s then Ok e else Err LibraryError
  | None => Err LibraryError
  end.
