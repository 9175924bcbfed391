(** What an XML document says about coverage, element by element, without
    reference to the reader. *)
From Verif Require Import Base Dict Consts Db NameSpec PyInt Xml XmlSpec XmlDocSpec.
Set Implicit Arguments.
Local Open Scope string_scope.
Local Open Scope list_scope.

Definition attr_or (n dflt : string) (e : elem) : string :=
  match get_attr n e with Some v => v | None => dflt end.

(** [e] has a count: the coverageCount of the first [contents] element below it. *)
Definition counts (e : elem) (z : Z) : Prop :=
  exists c l, iter "contents" e = c :: l /\ integer_attr "coverageCount" c z.

(** A coverpoint bin: its count is that of the first sequence, else that of the
    first range. *)
Definition kind_said (e : elem) : N :=
  match get_attr "type" e with
  | Some t => if String.eqb t "ignore" then IGNOREBIN else if String.eqb t "illegal" then ILLEGALBIN else CVGBIN
  | None => CVGBIN
  end.
Definition bin_says (e : elem) (b : bin_view) : Prop :=
  bv_name b = attr_or "name" "<unknown>" e /\ bv_kind b = kind_said e /\
  exists s l, (iter "sequence" e = s :: l \/ iter "sequence" e = [] /\ iter "range" e = s :: l) /\ counts s (bv_count b).
Definition point_says (e : elem) (p : point_view) : Prop :=
  pv_name p = attr_or "name" "<unknown>" e /\ Forall2 bin_says (iter "coverpointBin" e) (pv_bins p).

(** White space of str.strip, for ASCII: tab, line feed, vertical tab, form feed,
    carriage return, the separators 28-31, space. [t] is [s] without the white
    space around it. *)
Definition white (c : ascii) : Prop := In (nat_of_ascii c) [9; 10; 11; 12; 13; 28; 29; 30; 31; 32].
Definition trimmed (s t : string) : Prop :=
  exists a b, list_ascii_of_string s = a ++ list_ascii_of_string t ++ b /\ Forall white a /\ Forall white b /\
    (forall c l, list_ascii_of_string t = c :: l -> ~ white c) /\ (forall c l, list_ascii_of_string t = l ++ [c] -> ~ white c).

(** A cross names coverpoints, white space around the names does not matter. *)
Definition xbin_says (e : elem) (b : string * Z) : Prop :=
  fst b = attr_or "name" "default" e /\ counts e (snd b).
Definition expr_says (e : elem) (n : string) : Prop := exists s, e_text e = Some s /\ n = strip s.
Definition cross_says (e : elem) (c : cross_view) : Prop :=
  xv_name c = attr_or "name" "<unknown>" e /\
  Forall2 expr_says (iter "crossExpr" e) (xv_crossed c) /\ Forall2 xbin_says (iter "crossBin" e) (xv_bins c).

Definition group_says (e : elem) (g : group_view) : Prop :=
  gv_name g = attr_or "name" "<unknown>" e /\
  Forall2 point_says (iter "coverpoint" e) (gv_points g) /\ Forall2 cross_says (iter "cross" e) (gv_crosses g).

(** The covergroup instances of one covergroupCoverage element, sorted by the
    names of their covergroups, in order of first appearance. *)
Definition group_type (e : elem) : string :=
  match iter "cgId" e with x :: _ => attr_or "cgName" "xxx" x | [] => "default" end.
Definition coverage_says (e : elem) (ts : list type_view) : Prop :=
  Forall2 (fun n t => tv_name t = n /\ Forall2 group_says (named group_type n (iter "cgInstance" e)) (tv_instances t))
          (nub (map group_type (iter "cgInstance" e))) ts.

Definition inst_says (e : elem) (v : inst_view) : Prop :=
  get_attr "name" e = Some (iv_name v) /\
  exists tss, Forall2 coverage_says (iter "covergroupCoverage" e) tss /\ iv_types v = List.concat tss.

Definition doc_says (doc : elem) (vs : list inst_view) : Prop :=
  Forall2 inst_says (iter "instanceCoverages" doc) vs.
