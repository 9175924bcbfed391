(** The text of a JSON report: what json.dump with indent=4 writes
    (format_rpt_json.py:56-57), and reading a text.

    json.dump is of Python's library, the code calls it; modelled is what it does
    with the objects of the report (CPython Lib/json/encoder.py).  [float.__repr__]
    is a parameter.  The reader ([parse_json]) is none of Python's: it decides the
    grammar of [JsonTextSpec], see P_JsonText.v. *)
From Verif Require Import Base Dict PyInt Report Float64 Json Xml XmlTextSpec XmlText JsonTextSpec.
Set Implicit Arguments.
Local Open Scope string_scope.

(** ** Writing *)

Definition hex_digit (n : N) : ascii := ascii_of_N (if n <? 10 then 48 + n else 87 + n)%N.
(** ['\\u{0:04x}'.format(n)] *)
Definition put_unit (n : N) : string :=
  "\u" ++ String (hex_digit (n / 4096)) (String (hex_digit (n / 256 mod 16))
            (String (hex_digit (n / 16 mod 16)) (String (hex_digit (n mod 16)) ""))).
(** encoder.py:18-34, 50-73 py_encode_basestring_ascii, for one character *)
Definition put_char (n : N) : string :=
  (if n =? 34 then "\""" else if n =? 92 then "\\"
   else if n =? 10 then "\n" else if n =? 13 then "\r" else if n =? 9 then "\t"
   else if n =? 12 then "\f" else if n =? 8 then "\b"
   else if (32 <=? n) && (n <=? 126) then String (ascii_of_N n) ""
   else if n <? 0x10000 then put_unit n
   else put_unit (0xD800 + (n - 0x10000) / 0x400) ++ put_unit (0xDC00 + (n - 0x10000) mod 0x400))%N.

(** The characters of a string, which is a byte string in UTF-8; [None]: it is not. *)
Definition continues (c : ascii) : bool := let n := N_of_ascii c in ((0x80 <=? n) && (n <=? 0xBF))%N.
Definition bits6 (c : ascii) : N := (N_of_ascii c - 0x80)%N.
Definition scalar_b (n : N) : bool := ((n <? 0xD800) || ((0xE000 <=? n) && (n <=? 0x10FFFF)))%N.
Fixpoint scalars (s : string) : option (list N) :=
  match s with
  | EmptyString => Some []
  | String a t =>
      let n := N_of_ascii a in
      if (n <? 0x80)%N then option_map (cons n) (scalars t)
      else match t with
      | EmptyString => None
      | String b t =>
          if negb (continues b) then None
          else if ((0xC2 <=? n) && (n <? 0xE0))%N then option_map (cons ((n - 0xC0) * 64 + bits6 b)%N) (scalars t)
          else match t with
          | EmptyString => None
          | String c t =>
              let k := ((n - 0xE0) * 4096 + bits6 b * 64 + bits6 c)%N in
              if negb (continues c) then None
              else if ((0xE0 <=? n) && (n <? 0xF0))%N
              then if (0x800 <=? k)%N && scalar_b k then option_map (cons k) (scalars t) else None
              else match t with
              | EmptyString => None
              | String d t =>
                  let k := ((n - 0xF0) * 262144 + bits6 b * 4096 + bits6 c * 64 + bits6 d)%N in
                  if continues d && ((0xF0 <=? n) && (n <? 0xF5) && (0x10000 <=? k) && scalar_b k)%N
                  then option_map (cons k) (scalars t) else None
              end
          end
      end
  end.
(** A byte string that is not UTF-8 is no string of Python's; [NoSuchObject]. *)
Definition put_string (s : string) : res string :=
  match scalars s with
  | Some l => Ok ("""" ++ fold_right (fun n t => put_char n ++ t) "" l ++ """")
  | None => Err NoSuchObject
  end.

(** [newline_indent]: four blanks for every level *)
Fixpoint indent4 (n : nat) : string := match n with O => "" | S n => "    " ++ indent4 n end.
Definition next_line (n : nat) : string := newline ++ indent4 n.

Section Dump.
  Variable repr : b64 -> string.                            (* float.__repr__ *)

  (** Entries, each on a line of its own, separated by commas; [f] writes one. *)
  Section Entries.
    Context {X : Type} (f : X -> res string) (n : nat).
    Fixpoint put_entries (first : bool) (l : list X) : res string :=
      match l with
      | [] => Ok ""
      | x :: l =>
          let* t := f x in
          let* u := put_entries false l in
          Ok ((if first then "" else ",") ++ next_line n ++ t ++ u)
      end.
  End Entries.
  (** encoder.py:259-442 _make_iterencode with indent 4 and the separators "," and
      ": " (encoder.py:132-133); 282-334 _iterencode_list, 336-414 _iterencode_dict *)
  Fixpoint put_json (n : nat) (j : json b64) {struct j} : res string :=
    match j with
    | JStr s => put_string s
    | JInt z => Ok (show_int z)
    | JNum x => Ok (repr x)
    | JArr [] => Ok "[]"
    | JArr l =>
        let* body := put_entries (fun x => put_json (S n) x) (S n) true l in
        Ok ("[" ++ body ++ next_line n ++ "]")
    | JObj [] => Ok "{}"
    | JObj fs =>
        let* body := put_entries (fun p : string * json b64 =>
                                    let (k, x) := p in
                                    let* k := put_string k in
                                    let* t := put_json (S n) x in
                                    Ok (k ++ ": " ++ t)) (S n) true fs in
        Ok ("{" ++ body ++ next_line n ++ "}")
    end.
  (** json.dump(j, out, indent=4) *)
  Definition dump_json (j : json F64) : res string := put_json 0 j.
End Dump.

(** ** Reading *)

Definition get_unit (s : string) : option (N * string) :=
  match s with
  | String a (String b (String c (String d (String e (String f t))))) =>
      if Ascii.eqb a "\" && Ascii.eqb b "u"
      then get n <- code_unit (String c (String d (String e (String f "")))); Some (n, t)
      else None
  | _ => None
  end.
(** Up to the closing quote *)
Fixpoint get_chars (n : nat) (s : string) : option (string * string) :=
  match n with
  | O => None
  | S n =>
      match s with
      | EmptyString => None
      | String c t =>
          if Ascii.eqb c """" then Some ("", t)
          else if unescaped c then get (v, r) <- get_chars n t; Some (String c v, r)
          else match get_unit s with
               | Some (a, t) =>
                   if high a
                   then get (b, t) <- get_unit t;
                        if low b then get (v, r) <- get_chars n t; Some (utf8 (combined a b) ++ v, r) else None
                   else if low a then None
                   else get (v, r) <- get_chars n t; Some (utf8 a ++ v, r)
               | None =>
                   if Ascii.eqb c "\"
                   then match t with
                        | String e t => get x <- escaped e; get (v, r) <- get_chars n t; Some (String x v, r)
                        | EmptyString => None
                        end
                   else None
               end
      end
  end.
Definition get_string (s : string) : option (string * string) :=
  get t <- eat """" s; get_chars (S (String.length t)) t.

Definition is_empty (s : string) : bool := match s with EmptyString => true | _ => false end.
Definition get_digits (s : string) : option (string * string) :=
  let (d, r) := span digit s in if is_empty d then None else Some (d, r).
Definition get_fraction (s : string) : option (string * string) :=
  match eat "." s with Some t => get_digits t | None => Some ("", s) end.
Definition get_exponent (s : string) : option (Z * string) :=
  match s with
  | String c t =>
      if Ascii.eqb c "e" || Ascii.eqb c "E"
      then match eat "-" t with
           | Some t => get (d, r) <- get_digits t; Some (- digits_value 0 d, r)%Z
           | None => let t := match eat "+" t with Some t => t | None => t end in
                     get (d, r) <- get_digits t; Some (digits_value 0 d, r)
           end
      else Some (0%Z, s)
  | EmptyString => Some (0%Z, s)
  end.
Definition get_number (s : string) : option (jdoc * string) :=
  let (neg, s) := match eat "-" s with Some t => (true, t) | None => (false, s) end in
  get (i, s) <- get_digits s;
  if seqb i "0" || negb (prefix "0" i)
  then get (f, s) <- get_fraction s;
       get (x, s) <- get_exponent s;
       Some (DNum (signed neg (digits_value 0 (i ++ f))) (x - Z.of_nat (String.length f)), s)
  else None.

Fixpoint get_word (w : string) (s : string) : option string :=
  match w with EmptyString => Some s | String c w => get s <- eat c s; get_word w s end.

Fixpoint get_value (n : nat) (s : string) : option (jdoc * string) :=
  match n with
  | O => None
  | S n =>
      match s with
      | EmptyString => None
      | String c t =>
          if Ascii.eqb c """" then get (v, s) <- get_string s; Some (DStr v, s)
          else if Ascii.eqb c "[" then
            match eat "]" (skip t) with
            | Some s => Some (DArr [], s)
            | None => get (l, s) <- get_items n t; Some (DArr l, s)
            end
          else if Ascii.eqb c "{" then
            match eat "}" (skip t) with
            | Some s => Some (DObj [], s)
            | None => get (l, s) <- get_members n t; Some (DObj l, s)
            end
          else if Ascii.eqb c "t" then get s <- get_word "true" s; Some (DTrue, s)
          else if Ascii.eqb c "f" then get s <- get_word "false" s; Some (DFalse, s)
          else if Ascii.eqb c "n" then get s <- get_word "null" s; Some (DNull, s)
          else get_number s
      end
  end
with get_items (n : nat) (s : string) : option (list jdoc * string) :=
  match n with
  | O => None
  | S n =>
      get (d, s) <- get_value n (skip s);
      match eat "," (skip s) with
      | Some s => get (l, s) <- get_items n s; Some (d :: l, s)
      | None => get s <- eat "]" (skip s); Some ([d], s)
      end
  end
with get_members (n : nat) (s : string) : option (list (string * jdoc) * string) :=
  match n with
  | O => None
  | S n =>
      get (k, s) <- get_string (skip s);
      get s <- eat ":" (skip s);
      get (d, s) <- get_value n (skip s);
      match eat "," (skip s) with
      | Some s => get (l, s) <- get_members n s; Some ((k, d) :: l, s)
      | None => get s <- eat "}" (skip s); Some ([(k, d)], s)
      end
  end.
Definition parse_json (s : string) : option jdoc :=
  get (d, r) <- get_value (S (2 * String.length s)) (skip s);
  if all_white r then Some d else None.
