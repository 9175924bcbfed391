(** Validity of JSON values under a schema (JSON Schema, draft 4: "type", "properties",
    "items", "additionalProperties", "$ref"). *)
From Verif Require Import Base Report Json JsonSpec CovReport.
Set Implicit Arguments.
Local Open Scope string_scope.

Section Valid.
  Variable A : arith.
  Notation json := (json A).

  Inductive valid : rschema -> json -> Prop :=
  | valid_str s : valid RStr (JStr s)
  | valid_int z : valid RInt (JInt z)
  | valid_num_int z : valid RNum (JInt z)
  | valid_num x : valid RNum (JNum x)
  | valid_arr s l : Forall (valid s) l -> valid (RArr s) (JArr l)
  | valid_ref n s j : In (n, s) defs -> valid s j -> valid (RRef n) j
  | valid_obj typed props extra fs :
      (forall n v s, In (n, v) fs -> In (n, s) props -> valid s v) ->
      (extra = false -> forall n v, In (n, v) fs -> exists s, In (n, s) props) ->
      valid (RObj typed props extra) (JObj fs)
  | valid_untyped props extra j : (forall fs, j <> JObj fs) -> valid (RObj false props extra) j.
End Valid.
Arguments valid {A} _ _.
