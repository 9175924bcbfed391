(** XML documents as lxml presents them.

    Simplifications.  Element tags are given without their namespace: both the
    writer (xml_writer.py:80-84) and the reader (xml_reader.py:62-66) strip it.
    Comments, processing instructions and the text after an element ("tail") are
    left out: the modelled code looks at none of them. Strings are byte strings;
    a character outside ASCII stands as the bytes of its UTF-8 encoding. *)
From Verif Require Import Base Dict.
Set Implicit Arguments.

Inductive elem := Elem (tag : string) (attrs : dict string) (text : option string) (kids : list elem).

Definition e_tag (e : elem) : string := let '(Elem t _ _ _) := e in t.
Definition e_attrs (e : elem) : dict string := let '(Elem _ a _ _) := e in a.
Definition e_text (e : elem) : option string := let '(Elem _ _ x _) := e in x.
Definition e_kids (e : elem) : list elem := let '(Elem _ _ _ k) := e in k.

(** [e.iter(tag)]: the element itself and all elements below it, in document
    order, that have this tag. *)
Fixpoint iter (tag : string) (e : elem) : list elem :=
  match e with
  | Elem t a x ks => (if seqb tag t then [e] else []) ++ flat_map (iter tag) ks
  end.

(** [next(e.iter(tag))] *)
Definition first_iter (tag : string) (e : elem) : res elem :=
  match iter tag e with x :: _ => Ok x | [] => Err StopIteration end.

(** [e.get(name)] *)
Definition get_attr (name : string) (e : elem) : option string := dget name (e_attrs e).
(** [e.attrib[name]] *)
Definition attrib (name : string) (e : elem) : res string := dindex name (e_attrs e).

(** lxml refuses strings XML cannot represent: no control characters except tab,
    line feed and carriage return.  (It also refuses lone surrogates, U+FFFE and
    U+FFFF; not modelled.) *)
Definition xml_char (c : ascii) : bool :=
  let n := nat_of_ascii c in
  (32 <=? n) || (n =? 9) || (n =? 10) || (n =? 13).
Fixpoint xml_ok (s : string) : bool :=
  match s with
  | EmptyString => true
  | String c t => xml_char c && xml_ok t
  end.

(** [e.set(name, value)] for a string value. *)
Definition set_attr (name value : string) (a : dict string) : res (dict string) :=
  if xml_ok value then Ok (dset name value a) else Err ValueError.
(** [e.text = value] for a string value. *)
Definition set_text (value : string) : res (option string) :=
  if xml_ok value then Ok (Some value) else Err ValueError.

(** Setting several attributes in turn. *)
Definition set_attrs_l (l : list (string * string)) : res (dict string) :=
  fold_res (fun a kv => set_attr (fst kv) (snd kv) a) l [].

(** What parsing the serialised document gives.  lxml escapes what has to be
    escaped, so attributes and text come back as they were, except that there is
    no difference between an empty text and no text; pretty printing adds white
    space only to elements with children, whose text the reader does not look
    at.  P_XmlText.v proves this of the texts, for parsers that follow XML's grammar. *)
Fixpoint reparse (e : elem) : elem :=
  match e with
  | Elem t a x ks =>
      Elem t a (match x with Some EmptyString => None | _ => x end) (map reparse ks)
  end.

(** [str.strip()], for ASCII white space. *)
Definition strip_char (c : ascii) : bool :=
  let n := nat_of_ascii c in
  ((9 <=? n) && (n <=? 13)) || ((28 <=? n) && (n <=? 32)).
Fixpoint lstrip (s : string) : string :=
  match s with
  | EmptyString => EmptyString
  | String c t => if strip_char c then lstrip t else s
  end.
Fixpoint rstrip (s : string) : string :=
  match s with
  | EmptyString => EmptyString
  | String c t => match rstrip t with
                  | EmptyString => if strip_char c then EmptyString else String c EmptyString
                  | t' => String c t'
                  end
  end.
Definition strip (s : string) : string := rstrip (lstrip s).
