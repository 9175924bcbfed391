(** The published schema of the JSON report (ucis/schema/covreport.json). *)
From Verif Require Import Base Dict Report Json.
Set Implicit Arguments.
Local Open Scope string_scope.

(** The part of JSON Schema that covreport.json uses.  [RObj typed props extra]: [typed] says
    whether "type": "object" is there, [extra] whether further properties are allowed. *)
Inductive rschema :=
| RStr | RInt | RNum | RArr (items : rschema) | RRef (def : string)
| RObj (typed : bool) (props : list (string * rschema)) (extra : bool).

(** covreport.json:26-155, "defs" *)
Definition bin_def : rschema := RObj true [("name", RStr); ("goal", RInt); ("count", RInt)] true.
Definition cross_def : rschema := RObj true [("name", RStr); ("coverage", RNum); ("bins", RArr (RRef "coverBinType"))] true.
Definition point_def : rschema :=
  RObj true [("name", RStr); ("coverage", RNum); ("bins", RArr (RRef "coverBinType"));
             ("ignorebins", RArr (RRef "coverBinType")); ("illegalbins", RArr (RRef "coverBinType"))] true.
Definition inst_def : rschema :=
  RObj true [("name", RStr); ("coverage", RNum); ("coverpoints", RArr (RRef "coverpointType"));
             ("crosses", RArr (RRef "crossType")); ("covergroups", RArr (RRef "instCovergroupType"))] true.
Definition type_def : rschema :=
  RObj false [("name", RStr); ("coverage", RNum); ("coverpoints", RArr (RRef "coverpointType"));
              ("covergroups", RArr (RRef "instCovergroupType"))] true.
Definition defs : list (string * rschema) :=
  [("typeCovergroupType", type_def); ("instCovergroupType", inst_def); ("coverpointType", point_def);
   ("crossType", cross_def); ("coverBinType", bin_def)].

(** covreport.json:8-23, the property "covreport" *)
Definition body : rschema := RObj true [("covergroups", RArr (RRef "typeCovergroupType")); ("coverage", RNum)] true.
(** covreport.json:1-25 *)
Definition covreport : rschema := RObj true [("covreport", body)] false.
