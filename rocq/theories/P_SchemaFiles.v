(** The schemas of the model are those in the files. *)
From Verif Require Import Base Schema UcisXsd Yaml CovReport SchemaFiles SchemaText.

(** C86: the schema against which XML files are validated. *)
Theorem C86_schema_file : xsd_file ucis_xsd_file = Some ucis_xsd.
Proof. vm_compute. reflexivity. Qed.
Print Assumptions C86_schema_file.
(** C54: the schema of YAML documents. *)
Theorem C54_schema_file : cov_file coverage_json_file = Some coverage_schema.
Proof. vm_compute. reflexivity. Qed.
Print Assumptions C54_schema_file.
(** C95: the schema of JSON reports. *)
Theorem C95_schema_file : rep_file covreport_json_file = Some (covreport, defs).
Proof. vm_compute. reflexivity. Qed.
Print Assumptions C95_schema_file.
