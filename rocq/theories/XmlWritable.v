(** Which databases can be written as XML, without reference to the writer. *)
From Verif Require Import Base Dict Consts Db Hist Report ReportSpec NameSpec MergeSpec PyInt Dates Xml XmlSpec XmlDocSpec XmlHistSpec.
Set Implicit Arguments.
Local Open Scope string_scope.

(** The characters of [s] may occur in an XML document. *)
Definition fine_name (s : string) : Prop := xml_ok s = true.

Definition one_kind (i : item) : Prop := In (cd_type (ci_data i)) [CVGBIN; IGNOREBIN; ILLEGALBIN].
Definition writable_point (p : scope) : Prop :=
  fine_name (s_name p) /\ forall b, In b (all_bins p) -> fine_name (ci_name b) /\ one_kind b.
(** A scope of type cross that was not created with createCross has no list of
    coverpoints. *)
Definition writable_cross (x : scope) : Prop :=
  fine_name (s_name x) /\ (exists l, s_cls x = KCross l) /\ Forall fine_name (crossed_names x) /\
  forall b, In b (all_bins x) -> fine_name (ci_name b).
Definition writable_group (g : scope) : Prop :=
  fine_name (s_name g) /\ Forall writable_point (coverpoints g) /\ Forall writable_cross (crosses g).
Definition writable_type (t : scope) : Prop := fine_name (s_name t) /\ Forall writable_group (group_instances t).
Definition writable_inst (i : scope) : Prop := fine_name (s_name i) /\ Forall writable_type (covergroups i).

(** History nodes *)
Definition text_field (v : pyval) : Prop := exists s, v = VStr s /\ fine_name s.
Definition any_field (v : pyval) : Prop := v = VNone \/ fine_name (shown v).
Definition number_field (v : pyval) : Prop := is_number v = true /\ (negative v = true \/ fine_name (shown v)).
Definition date_field (v : pyval) : Prop := exists s d, v = VStr s /\ strptime m_compact s = Ok d.
Definition writable_hist (h : hist) : Prop :=
  Forall text_field [h_logical h; h_toolcat h; h_version h; h_vendor h; h_vtool h; h_vtoolver h] /\
  Forall any_field [h_physical h; h_kind h; h_timeunit h; h_runcwd h; h_seed h; h_cmd h; h_args h;
                    h_compulsory h; h_user h; h_comment h] /\
  Forall number_field [h_simtime h; h_cputime h; h_cost h; h_same h] /\ date_field (h_date h).

Definition writable_db (d : db) : Prop :=
  Forall fine_name (files_below (db_root d)) /\ Forall writable_hist (db_hist d) /\
  Forall writable_inst (instances (db_root d)).
