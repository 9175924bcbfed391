(** The JSON report (ucis/report/format_rpt_json.py).  The objects of the
    python_jsonschema_objects namespace are modelled as their list of set
    properties ([as_dict] leaves out unset ones); their type checks are not
    modelled.  For the rendering by [json.dump] see JsonText.v. *)
From Verif Require Import Base Dict Consts Db Report.
Set Implicit Arguments.
Local Open Scope string_scope.

Inductive json (A : Type) :=
| JStr (s : string) | JInt (z : Z) | JNum (x : A)
| JArr (l : list (json A)) | JObj (fields : list (string * json A)).
Arguments JStr {A} s.
Arguments JInt {A} z.

Section Json.
  Variable A : arith.
  Notation json := (json A).

  (** [if x.f is None: x.f = []; x.f.append(..)] in a loop: the property is set
      only if the loop runs at least once. *)
  Definition list_prop (name : string) (l : list json) : list (string * json) :=
    match l with [] => [] | _ => [(name, JArr l)] end.

  (** format_rpt_json.py:107-110 *)
  Definition json_bin (b : rbin) : json :=
    JObj [("name", JStr (rb_name b)); ("count", JInt (rb_count b))].

  (** format_rpt_json.py:98-128 (details is True, line 24): only the coverage
      and the bins are set, not the name.  The coverage of a point without bins is the
      int 0 (coverage_report_builder.py:128-129), not a float as all others are. *)
  Definition json_coverpoint (p : rcp A) : json :=
    JObj (("coverage", match rp_bins p with [] => JInt 0 | _ => JNum (rp_cov p) end : json)
          :: list_prop "bins" (map json_bin (rp_bins p))
          ++ list_prop "ignorebins" (map json_bin (rp_ignore p))
          ++ list_prop "illegalbins" (map json_bin (rp_illegal p)))%list.

  (** format_rpt_json.py:130-147: line 136 calls [self.writeln], which the class
      does not have.  (Line 87 already reads the property [crosses], which the
      schema's covergroup type lacks; the exception is of the same class.) *)
  Definition json_cross (x : rcross A) : res json := Err AttributeError.

  (** format_rpt_json.py:75-96 *)
  Fixpoint json_covergroup (g : rcg A) {struct g} : res json :=
    match g with
    | RCg name _ _ cov cps crosses cgs =>
        let* xs := traverse json_cross crosses in
        let* gs := traverse json_covergroup cgs in
        Ok (JObj (("name", JStr name) :: ("coverage", JNum cov : json)
                  :: list_prop "coverpoints" (map json_coverpoint cps)
                  ++ list_prop "crosses" xs
                  ++ list_prop "covergroups" gs)%list)
    end.

  (** format_rpt_json.py:40-57: the value passed to [json.dump]; nothing is
      written before.  [as_dict] lists the properties in the order of the schema
      (covreport.json:12-21). *)
  Definition json_report (r : report A) : res json :=
    let* gs := traverse json_covergroup (r_cgs r) in
    Ok (JObj (list_prop "covergroups" gs ++ [("coverage", JNum (r_cov r) : json)])%list).
End Json.
Arguments list_prop {A} _ _.
