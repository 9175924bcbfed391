(** What the schema files say: ucis/xml/schema/ucis.xsd as a schema of Schema.v, and
    ucis/schema/coverage.json and covreport.json as those of Yaml.v and CovReport.v.
    Everything that is not understood here makes the reading fail. *)
From Verif Require Import Base Dict Xml XmlTextSpec XmlText Schema Yaml CovReport.
Set Implicit Arguments.
Local Open Scope string_scope.
Local Open Scope list_scope.

Fixpoint each {A B} (f : A -> option B) (l : list A) : option (list B) :=
  match l with [] => Some [] | x :: l => get y <- f x; get ys <- each f l; Some (y :: ys) end.
Definition only (allowed present : list string) : bool := forallb (fun n => existsb (seqb n) allowed) present.

(** ** XML Schema *)

(** A text without its comments and its XML declaration.  [Within e]: in something
    that goes on up to [e]; [Ending n]: [n] characters before its end. *)
Inductive where_ := Text | Within (e : string) | Ending (n : nat).
Fixpoint uncomment (w : where_) (s : string) : string :=
  match s with
  | EmptyString => ""
  | String c t =>
      match w with
      | Text => if prefix "<!--" s then uncomment (Within "-->") t
                else if prefix "<?" s then uncomment (Within "?>") t
                else String c (uncomment Text t)
      | Within e => if prefix e s then uncomment (Ending (String.length e - 1)) t else uncomment w t
      | Ending (S n) => uncomment (match n with O => Text | _ => Ending n end) t
      | Ending O => ""
      end
  end.

Definition simple_names : list (string * simple) :=
  [("xsd:string", SString); ("xsd:integer", SInteger); ("xsd:nonNegativeInteger", SNonNegative); ("xsd:positiveInteger", SPositive);
   ("xsd:boolean", SBoolean); ("xsd:double", SDouble); ("xsd:decimal", SDecimal); ("xsd:dateTime", SDateTime)].
Definition attr_names (e : elem) : list string := map fst (e_attrs e).

(** xsd:attribute, with a type or with an enumeration of strings; a default value
    does not matter for validity. *)
Definition xsd_attr (e : elem) : option attr_decl :=
  if seqb (e_tag e) "attribute" && only ["name"; "type"; "use"; "default"] (attr_names e) then
    get n <- get_attr "name" e;
    get r <- match get_attr "use" e with Some u => if seqb u "required" then Some true else None | None => Some false end;
    match get_attr "type" e, e_kids e with
    | Some t, [] => get s <- dget t simple_names; Some (AttrDecl n s r)
    | None, [Elem st [] _ [Elem re ats _ vs]] =>
        if seqb st "simpleType" && seqb re "restriction" && forallb (fun v => seqb (e_tag v) "enumeration") vs then
          match ats with
          | [(b, x)] => if seqb b "base" && seqb x "xsd:string" then get l <- each (get_attr "value") vs; Some (AttrDecl n (SEnum l) r) else None
          | _ => None
          end
        else None
    | _, _ => None
    end
  else None.

(** The numbers that occur *)
Definition small (s : string) : option nat := dget s [("0", 0); ("1", 1); ("2", 2)].
Definition xsd_elem (e : elem) : option elem_decl :=
  if seqb (e_tag e) "element" && only ["name"; "type"; "minOccurs"; "maxOccurs"] (attr_names e) then
    match e_kids e with
    | [] =>
        get n <- get_attr "name" e;
        get t <- get_attr "type" e;
        get lo <- match get_attr "minOccurs" e with Some x => small x | None => Some 1 end;
        get hi <- match get_attr "maxOccurs" e with
                  | Some x => if seqb x "unbounded" then Some None else get k <- small x; Some (Some k)
                  | None => Some (Some 1)
                  end;
        get ty <- (if prefix "xsd:" t then get s <- dget t simple_names; Some (TSimple s) else Some (TComplex t));
        Some (ElemDecl n ty lo hi)
    | _ => None
    end
  else None.
Definition xsd_particle (e : elem) : option particle :=
  if seqb (e_tag e) "choice" then
    match e_attrs e with [] => get ds <- each xsd_elem (e_kids e); Some (PChoice ds) | _ => None end
  else get d <- xsd_elem e; Some (POne d).

Definition group_of (e : elem) : option (string * list attr_decl) :=
  get n <- get_attr "name" e; get l <- each xsd_attr (e_kids e); Some (n, l).
(** The sequence of a type, if it has one, comes first. *)
Definition xsd_type (groups : dict (list attr_decl)) (e : elem) : option ctype :=
  if only ["name"; "mixed"] (attr_names e) then
    let mixed := match get_attr "mixed" e with Some m => seqb m "true" | None => false end in
    let '(seq, rest) :=
      match e_kids e with
      | s :: rest => if seqb (e_tag s) "sequence" then (Some s, rest) else (None, e_kids e)
      | [] => (None, [])
      end in
    get parts <- match seq with
                 | Some s => match e_attrs s with [] => each xsd_particle (e_kids s) | _ => None end
                 | None => Some []
                 end;
    get attrs <- each (fun a => if seqb (e_tag a) "attributeGroup" then get r <- get_attr "ref" a; dget r groups
                                else get d <- xsd_attr a; Some [d]) rest;
    Some (CType (List.concat attrs) parts mixed)
  else None.

(** The types in the order of the file; the type of the document element has the
    name of this element. *)
Definition xsd_schema (doc : elem) : option schema :=
  let has t := filter (fun e => seqb (e_tag e) t) (e_kids doc) in
  if seqb (e_tag doc) "schema" && only ["complexType"; "element"; "attributeGroup"] (map e_tag (e_kids doc)) then
    get groups <- each group_of (has "attributeGroup");
    get types <- each (fun e => get n <- get_attr "name" e; get t <- xsd_type groups e; Some (n, t)) (has "complexType");
    match has "element" with
    | [Elem _ ats _ [t]] =>
        match ats with
        | [(a, n)] => if seqb a "name" && seqb (e_tag t) "complexType" then get ct <- xsd_type groups t; Some (types ++ [(n, ct)]) else None
        | _ => None
        end
    | _ => None
    end
  else None.
Definition xsd_file (text : string) : option schema :=
  match parse_text (uncomment Text text) with Ok doc => xsd_schema doc | Err _ => None end.

(** ** JSON

    Objects, arrays, strings without escapes, true and false. *)
Definition json_string (s : string) : option (string * string) :=
  get s <- eat """" s;
  let (a, s) := span (fun c => negb (Ascii.eqb c """" || Ascii.eqb c "\")) s in
  get s <- eat """" s;
  Some (a, s).
Definition json_word (w s : string) : option string :=
  if prefix w s then Some (substring (String.length w) (String.length s - String.length w) s) else None.
Fixpoint json_value (n : nat) (s : string) : option (jval * string) :=
  match n with
  | O => None
  | S n =>
      let s := skip s in
      match eat "{" s with
      | Some s =>
          match eat "}" (skip s) with
          | Some s => Some (JObj [], s)
          | None => get (l, s) <- json_fields n s; if distinct (map fst l) then Some (JObj l, s) else None
          end
      | None =>
          match eat "[" s with
          | Some s => match eat "]" (skip s) with Some s => Some (JArr [], s) | None => get (l, s) <- json_items n s; Some (JArr l, s) end
          | None =>
              match json_string s with
              | Some (x, s) => Some (JStr x, s)
              | None => match json_word "true" s with
                        | Some s => Some (JBool true, s)
                        | None => get s <- json_word "false" s; Some (JBool false, s)
                        end
              end
          end
      end
  end
with json_fields (n : nat) (s : string) : option (dict jval * string) :=
  match n with
  | O => None
  | S n =>
      get (k, s) <- json_string (skip s);
      get s <- eat ":" (skip s);
      get (v, s) <- json_value n s;
      match eat "," (skip s) with
      | Some s => get (l, s) <- json_fields n s; Some ((k, v) :: l, s)
      | None => get s <- eat "}" (skip s); Some ([(k, v)], s)
      end
  end
with json_items (n : nat) (s : string) : option (list jval * string) :=
  match n with
  | O => None
  | S n =>
      get (v, s) <- json_value n s;
      match eat "," (skip s) with
      | Some s => get (l, s) <- json_items n s; Some (v :: l, s)
      | None => get s <- eat "]" (skip s); Some ([v], s)
      end
  end.
Definition json_text (s : string) : option jval :=
  get (v, s) <- json_value (String.length s) s; if all_white s then Some v else None.

(** ** JSON Schema *)

(** Members that say nothing about validity. *)
Definition remarks : list string := ["$schema"; "$id"; "$$target"; "title"; "description"; "defs"].
Definition fields_of (v : jval) : dict jval := match v with JObj o => o | _ => [] end.
Definition type_of (o : dict jval) : option string := match dget "type" o with Some (JStr t) => Some t | _ => None end.
(** A reference "#/defs/..." *)
Definition referred (v : jval) : option string := match v with JStr r => json_word "#/defs/" r | _ => None end.
Definition strings_of (v : jval) : option (list string) :=
  match v with JArr l => each (fun x => match x with JStr s => Some s | _ => None end) l | _ => None end.

(** coverage.json, with references replaced by what they refer to *)
Fixpoint cov_schema (n : nat) (defs : dict jval) (v : jval) : option jschema :=
  match n with
  | O => None
  | S n =>
      let o := fields_of v in
      match dget "$ref" o with
      | Some r => if only ["$ref"] (map fst o) then get d <- referred r; get x <- dget d defs; cov_schema n defs x else None
      | None =>
          get t <- type_of o;
          if seqb t "string" then (if only ("type" :: remarks) (map fst o) then Some TStr else None)
          else if seqb t "integer" then (if only ("type" :: remarks) (map fst o) then Some TInt else None)
          else if seqb t "array" then
            (if only ("type" :: "items" :: remarks) (map fst o) then get i <- dget "items" o; get s <- cov_schema n defs i; Some (TArr s) else None)
          else if seqb t "object" then
            (if only ("type" :: "properties" :: "required" :: remarks) (map fst o) then
               get ps <- each (fun p => get s <- cov_schema n defs (snd p); Some (fst p, s))
                              match dget "properties" o with Some x => fields_of x | None => [] end;
               get rq <- match dget "required" o with Some x => strings_of x | None => Some [] end;
               Some (TObj ps rq)
             else None)
          else None
      end
  end.
Definition cov_file (text : string) : option jschema :=
  get v <- json_text text;
  cov_schema (String.length text) match dget "defs" (fields_of v) with Some d => fields_of d | None => [] end v.

(** covreport.json, where references stay *)
Fixpoint rep_schema (n : nat) (v : jval) : option rschema :=
  match n with
  | O => None
  | S n =>
      let o := fields_of v in
      let an_object (typed : bool) :=
        if only ("type" :: "properties" :: "additionalProperties" :: remarks) (map fst o) then
          get ps <- each (fun p => get s <- rep_schema n (snd p); Some (fst p, s))
                         match dget "properties" o with Some x => fields_of x | None => [] end;
          get extra <- match dget "additionalProperties" o with Some (JBool b) => Some b | Some _ => None | None => Some true end;
          Some (RObj typed ps extra)
        else None in
      match dget "$ref" o with
      | Some r => if only ["$ref"] (map fst o) then get d <- referred r; Some (RRef d) else None
      | None =>
          match type_of o with
          | None => an_object false
          | Some t =>
              if seqb t "object" then an_object true
              else if seqb t "array" then
                (if only ("type" :: "items" :: remarks) (map fst o) then get i <- dget "items" o; get s <- rep_schema n i; Some (RArr s) else None)
              else if only ("type" :: remarks) (map fst o) then
                (if seqb t "string" then Some RStr else if seqb t "integer" then Some RInt else if seqb t "number" then Some RNum else None)
              else None
          end
      end
  end.
(** The schema, and the schemas its references stand for *)
Definition rep_file (text : string) : option (rschema * list (string * rschema)) :=
  get v <- json_text text;
  get s <- rep_schema (String.length text) v;
  get ds <- each (fun p => get s <- rep_schema (String.length text) (snd p); Some (fst p, s))
                 match dget "defs" (fields_of v) with Some d => fields_of d | None => [] end;
  Some (s, ds).
