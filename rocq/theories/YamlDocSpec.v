(** What a YAML document says, written without reference to the reader: which
    property of which object holds which value (the titles and descriptions in
    ucis/schema/coverage.json). *)
From Verif Require Import Base Dict Yaml YamlSpec.
Set Implicit Arguments.
Local Open Scope string_scope.
Local Open Scope list_scope.

(** The property [n] is given, and holds [x]. *)
Definition holds_prop {A} (P : jval -> A -> Prop) (n : string) (o : dict jval) (x : A) : Prop :=
  exists v, dget n o = Some v /\ P v x.
(** The property [n] may be left out. *)
Definition may_hold {A} (P : jval -> A -> Prop) (n : string) (o : dict jval) (x : option A) : Prop :=
  match x with None => dget n o = None | Some y => holds_prop P n o y end.
Definition is_string (v : jval) (s : string) : Prop := v = JStr s.
Definition is_integer (v : jval) (z : Z) : Prop := v = JInt z.
Definition is_array {A} (P : jval -> A -> Prop) (v : jval) (l : list A) : Prop := exists vs, v = JArr vs /\ Forall2 P vs l.
Definition is_object {A} (P : dict jval -> A -> Prop) (v : jval) (x : A) : Prop := exists o, v = JObj o /\ P o x.

Definition bin_says : jval -> ybin -> Prop := is_object (fun o b =>
  holds_prop is_string "name" o (yb_name b) /\ holds_prop is_integer "count" o (yb_count b)).
Definition point_says : jval -> ypoint -> Prop := is_object (fun o p =>
  holds_prop is_string "name" o (yp_name p) /\ may_hold is_integer "atleast" o (yp_atleast p) /\
  may_hold (is_array bin_says) "bins" o (yp_bins p) /\ may_hold (is_array bin_says) "ignorebins" o (yp_ignore p) /\
  may_hold (is_array bin_says) "illegalbins" o (yp_illegal p)).
Definition cross_says : jval -> ycross -> Prop := is_object (fun o c =>
  holds_prop is_string "name" o (yc_name c) /\ may_hold is_integer "atleast" o (yc_atleast c) /\
  may_hold (is_array is_string) "coverpoints" o (yc_points c) /\ may_hold (is_array bin_says) "bins" o (yc_bins c)).
Definition inst_says : jval -> yinst -> Prop := is_object (fun o i =>
  holds_prop is_string "name" o (yi_name i) /\ may_hold (is_array point_says) "coverpoints" o (yi_points i) /\
  may_hold (is_array cross_says) "crosses" o (yi_crosses i)).
Definition group_says : jval -> ygroup -> Prop := is_object (fun o g =>
  holds_prop is_string "name" o (yg_name g) /\ may_hold is_integer "weight" o (yg_weight g) /\
  may_hold (is_array inst_says) "instances" o (yg_insts g)).
Definition document_says : jval -> ydoc -> Prop := is_object (fun o doc =>
  may_hold (is_object (fun c gs => may_hold (is_array group_says) "covergroups" c gs)) "coverage" o doc).

(** What may not be left out: the bins of a coverpoint and the coverpoints of a
    cross ([full], in YamlSpec.v). *)
Definition allowed_document (v : jval) : Prop := exists doc, document_says v doc /\ full doc.
(** The document lists the covergroups [gs]; no list is an empty list. *)
Definition document_lists (v : jval) (gs : list ygroup) : Prop := exists o, document_says v (Some o) /\ gs = opt_list o.
