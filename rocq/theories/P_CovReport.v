(** Property theorems about the schema of the JSON report: C95. *)
From Coq Require Import QArith.
From Verif Require Import Base Dict Consts Db Report ReportSpec Json JsonSpec JsonFacts CovReport CovReportSpec CovReportFacts Samples P_Text.
Local Open Scope string_scope.

(** C95 is false of the code: no JSON report at all is valid, because "coverage" stands at
    the top level, where the schema allows only "covreport". *)
Theorem C95_valid_refuted :
  forall (A : arith) (r : report A) j, json_report r = Ok j -> ~ @valid A covreport j.
Proof.
  intros A r j H V. unfold json_report in H. destruct (traverse _ (r_cgs r)) as [gs|]; [|discriminate]. cbn in H. injection H as <-.
  inversion V as [| | | | | |? ? ? ? _ E|]; subst.
  destruct (E eq_refl "coverage" (JNum (r_cov r))) as (s & [X|[]]); [apply in_or_app; right; now left|]. discriminate.
Qed.
Print Assumptions C95_valid_refuted.

(** What holds: every report that is written is valid once it is put under "covreport". *)
Theorem C95_body_valid_partial :
  forall (A : arith) (r : report A) j, json_report r = Ok j ->
    @valid A body j /\ @valid A covreport (JObj [("covreport", j)]).
Proof.
  intros A r j H. apply report_valid in H. split; [exact H|]. constructor.
  - intros n v s [E|[]] [E'|[]]. injection E as <- <-. injection E' as <-. exact H.
  - intros _ n v [E|[]]. injection E as <- _. exists body. left. reflexivity.
Qed.
Print Assumptions C95_body_valid_partial.

(** The schema is not empty talk: a count that is no integer, or bins that are no list, are refused. *)
Example C95_schema_refuses : ~ @valid QA body (JObj [("covergroups", JArr [JObj [("coverpoints", JArr [JObj [("bins", JArr [JObj [("count", JStr "1")]])]])]])]) /\
  ~ @valid QA body (JObj [("covergroups", JInt 1)]).
Proof.
  split; intros V.
  - inversion V as [| | | | | |? ? ? ? E _|]; subst. specialize (E _ _ _ (or_introl eq_refl) (or_introl eq_refl)).
    inversion E as [| | | |? ? F| | |]; subst. inversion F as [|? ? R _]; subst. inversion R as [| | | | |? ? ? I T| |]; subst.
    repeat destruct I as [I|I]; inversion I; subst. inversion T as [| | | | | |? ? ? ? E1 _|? ? ? N]; subst; [|destruct (N _ eq_refl)].
    specialize (E1 _ _ _ (or_introl eq_refl) (or_intror (or_intror (or_introl eq_refl)))).
    inversion E1 as [| | | |? ? F1| | |]; subst. inversion F1 as [|? ? R1 _]; subst. inversion R1 as [| | | | |? ? ? I1 T1| |]; subst.
    repeat destruct I1 as [I1|I1]; inversion I1; subst. inversion T1 as [| | | | | |? ? ? ? E2 _|]; subst.
    specialize (E2 _ _ _ (or_introl eq_refl) (or_intror (or_intror (or_introl eq_refl)))).
    inversion E2 as [| | | |? ? F2| | |]; subst. inversion F2 as [|? ? R2 _]; subst. inversion R2 as [| | | | |? ? ? I2 T2| |]; subst.
    repeat destruct I2 as [I2|I2]; inversion I2; subst. inversion T2 as [| | | | | |? ? ? ? E3 _|]; subst.
    specialize (E3 _ _ _ (or_introl eq_refl) (or_intror (or_intror (or_introl eq_refl)))). inversion E3.
  - inversion V as [| | | | | |? ? ? ? E _|]; subst. specialize (E _ _ _ (or_introl eq_refl) (or_introl eq_refl)). inversion E.
Qed.
Example C95_example : match build_report QA sample2 with
                      | Ok r => match json_report r with Ok (JObj [("covergroups", JArr [_; _; _]); ("coverage", _)]) => True | _ => False end
                      | Err _ => False end.
Proof. vm_compute. exact I. Qed.
