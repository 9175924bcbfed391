(** Properties C34-C37 (text and JSON report) and C48 (integers as text). *)
From Coq Require Import QArith Permutation.
From Verif Require Import Base Dict Consts Db Report ReportSpec PyInt PyIntFacts Text TextSpec TextFacts
  Json JsonSpec JsonFacts Samples.
Local Open Scope string_scope.
Local Open Scope nat_scope.

(** A rendering of percentages for the examples. *)
Definition show_q (q : Q) : string := show_int (Qnum q) ++ "/" ++ show_int (Zpos (Qden q)).
Definition sure (_ : list string) (_ : string) : option exn := None.
(** A stream that fails at the [n]-th write. *)
Definition full_after (n : nat) (w : list string) (_ : string) : option exn :=
  if Nat.leb n (List.length w) then Some RaisedException else None.

(** C34.  For every database, every setting, every formatting of percentages:
    on a stream that does not fail the report writes exactly the lines of the
    outline, and leaves the formatter as it was. *)
Theorem C34_text_is_outline :
  forall (A : arith) (show_group show_point : A -> string) faults o d r out,
    (forall w s, faults w s = None) ->
    build_report A d = Ok r ->
    report_text A show_group show_point faults o d (TState "" out) =
    (TState "" (out ++ text show_group show_point (to_details o) (to_by_hit o) r)%list, Ok tt).
Proof.
  intros A sg sp faults o d r out Hf Hr. unfold report_text, sbind, slift. rewrite Hr.
  rewrite emits_groups by reflexivity. exact (put_all_ok _ Hf _ _).
Qed.
Print Assumptions C34_text_is_outline.

(** On any stream, what was written is a beginning of the outline's lines, all
    of it if no exception is raised; nothing is written if the report cannot be
    built. *)
Theorem C34_text_on_failure :
  forall (A : arith) (show_group show_point : A -> string) faults o d out,
    match build_report A d with
    | Err e => report_text A show_group show_point faults o d (TState "" out) = (TState "" out, Err e)
    | Ok r =>
        exists k st res,
          report_text A show_group show_point faults o d (TState "" out) = (st, res) /\
          st = TState "" (out ++ firstn k (text show_group show_point (to_details o) (to_by_hit o) r))%list /\
          (res = Ok tt -> t_out st = (out ++ text show_group show_point (to_details o) (to_by_hit o) r)%list)
    end.
Proof.
  intros A sg sp faults o d out. unfold report_text, sbind, slift.
  destruct (build_report A d) as [r|e]; [|reflexivity].
  rewrite emits_groups by reflexivity.
  destruct (put_all_prefix faults (text sg sp (to_details o) (to_by_hit o) r) (TState "" out))
    as (k & H1 & H2 & _).
  destruct (put_all faults _ _) as [st res]. cbn [fst snd t_out t_ind] in *.
  exists k, st, res. repeat split; [exact H1|]. intros ->. rewrite H1. cbn [t_out].
  rewrite (H2 eq_refl), firstn_all. reflexivity.
Qed.
Print Assumptions C34_text_on_failure.

(** One line per covergroup or instance, coverpoint and cross; with details, a
    heading and one line per bin as well, the ignore and illegal headings only
    where there are such bins. *)
Theorem C34_number_of_lines :
  forall (A : arith) (show_group show_point : A -> string) details by_hit (r : report A),
    List.length (text show_group show_point details by_hit r) =
    List.length (rpt_groups r)
    + list_sum (map (fun p =>
        1 + if details then S (List.length (rp_bins p))
              + (match rp_ignore p with [] => 0 | b => S (List.length b) end)
              + (match rp_illegal p with [] => 0 | b => S (List.length b) end) else 0) (rpt_points r))
    + list_sum (map (fun x => 1 + if details then S (List.length (rx_bins x)) else 0) (rpt_crosses r)).
Proof.
  intros A sg sp details by_hit r. rewrite text_count. f_equal. f_equal. f_equal.
  apply map_ext. intros p. unfold point_lines, extra_entries, bin_entries.
  destruct (rp_ignore p), (rp_illegal p); reflexivity.
Qed.
Print Assumptions C34_number_of_lines.

Example C34_example :
  t_out (fst (report_text QA show_q show_q sure (TOpts true false)
     (mkdb [du "top"; inst "i" [0] [cg "cg" 1 [cp "a" 1 [bin "x" 1 3; ignore "ig" 1 4];
                                               cross "c" 1 [] [];
                                               ci "cg_1" 1 [cp "a" 1 []]]]]) (TState "" []))) =
  [ "TYPE cg : 100/2" ++ newline;
    "    CVP a : 100/1" ++ newline;
    "    Bins:" ++ newline;
    "        x : 3" ++ newline;
    "    IgnoreBins:" ++ newline;
    "        ig : 4" ++ newline;
    "    CROSS c : 0/1" ++ newline;
    "    Bins:" ++ newline;
    "    INST cg_1 : 0/1" ++ newline;
    "        CVP a : 0/1" ++ newline;
    "        Bins:" ++ newline ].
Proof. vm_compute. reflexivity. Qed.

(** C35.  Whatever the stream does, after printing a covergroup, a coverpoint,
    a cross or a list of bins the indentation is what it was before. *)
Theorem C35_indentation_balanced :
  forall (A : arith) (show_group show_point : A -> string) faults o st,
    (forall is_inst g, t_ind (fst (report_covergroup show_group show_point faults o is_inst g st)) = t_ind st) /\
    (forall p, t_ind (fst (report_coverpoint show_point faults o p st)) = t_ind st) /\
    (forall x, t_ind (fst (report_cross show_point faults o x st)) = t_ind st) /\
    (forall bins, t_ind (fst (report_bins faults o bins st)) = t_ind st).
Proof.
  intros A sg sp faults o st.
  repeat split; intros;
    [rewrite (emits_covergroup sg sp faults o g is_inst st) | rewrite (emits_coverpoint sp faults o p st)
    | rewrite (emits_cross sp faults o x st) | rewrite (emits_bins faults o bins st)];
    apply put_all_ind.
Qed.
Print Assumptions C35_indentation_balanced.

(** So a formatter used again after a failure prints as a new one does. *)
Theorem C35_usable_after_failure :
  forall (A : arith) (show_group show_point : A -> string) faults o d out,
    t_ind (fst (report_text A show_group show_point faults o d (TState "" out))) = "".
Proof.
  intros A sg sp faults o d out. unfold report_text, sbind, slift.
  destruct (build_report A d) as [r|e]; [|reflexivity].
  rewrite emits_groups by reflexivity. apply (put_all_ind faults _ (TState "" out)).
Qed.
Print Assumptions C35_usable_after_failure.

(** A run that fails three levels down. *)
Example C35_example :
  let '(st, r) := report_text QA show_q show_q (full_after 8) (TOpts true false)
     (mkdb [du "top"; inst "i" [0] [cg "cg" 1 [ci "cg_1" 1 [ci "cg_2" 1 [cp "a" 1 [bin "x" 1 3; bin "y" 1 4;
          bin "z" 1 4; bin "w" 1 1]]]]]]) (TState "" []) in
  t_ind st = "" /\ r = Err RaisedException /\ nth_error (t_out st) 7 = Some ("                z : 4" ++ newline).
Proof. vm_compute. auto. Qed.

(** C36.  With order_bins_by_hit the lines of a list of bins are those of the
    list rearranged: same bins, hit ones first, both groups in original order. *)
Theorem C36_bins_by_hit :
  forall faults details bins st, (forall w s, faults w s = None) ->
    exists sorted,
      report_bins faults (TOpts details true) bins st =
        report_bins faults (TOpts details false) sorted st /\
      Permutation bins sorted /\
      sorted = (filter (fun b => rb_goal b <=? rb_count b)%Z bins
                ++ filter (fun b => rb_count b <? rb_goal b)%Z bins)%list /\
      t_out (fst (report_bins faults (TOpts details true) bins st)) =
        (t_out st ++ map (fun b => (t_ind st ++ rb_name b ++ " : " ++ show_int (rb_count b) ++ newline)%string) sorted)%list.
Proof.
  intros faults details bins st Hf. exists (hit_first bins).
  split; [|split; [apply hit_first_perm|split; [reflexivity|]]].
  - rewrite !emits_bins. reflexivity.
  - rewrite emits_bins, (put_all_ok _ Hf). cbn [fst t_out to_by_hit]. f_equal.
    unfold body. induction (hit_first bins) as [|b l IH]; [reflexivity|].
    cbn [map flat_map lines_at bin_entry]. cbn [app]. rewrite <- IH. f_equal.
    now rewrite !sapp_assoc.
Qed.
Print Assumptions C36_bins_by_hit.

Example C36_example :
  hit_first [RBin "a" 2 1; RBin "b" 1 1; RBin "c" 1 0; RBin "d" 3 9] =
  [RBin "b" 1 1; RBin "d" 3 9; RBin "a" 2 1; RBin "c" 1 0].
Proof. reflexivity. Qed.

(** C37 does not hold: a report with a cross makes the formatter raise, and the
    coverpoint names are missing from the output. *)
Theorem C37_json_cross_refuted :
  exists d r, build_report QA d = Ok r /\ json_report r = Err AttributeError.
Proof.
  exists sample1.
  destruct (build_report QA sample1) as [r|] eqn:E; [|vm_compute in E; discriminate].
  exists r. split; [reflexivity|]. vm_compute in E. injection E as <-. reflexivity.
Qed.
Print Assumptions C37_json_cross_refuted.

Theorem C37_json_point_names_refuted :
  exists d r j, build_report QA d = Ok r /\ json_report r = Ok j /\ ~ mirrors r j.
Proof.
  exists (mkdb [du "top"; inst "i" [0] [cg "cg" 1 [cp "a" 1 [bin "x" 1 3]]]]).
  eexists. eexists. split; [vm_compute; reflexivity|]. split; [reflexivity|].
  intros [_ H]. cbn in H. inversion H as [|g j l l' Hg _]; subst.
  apply is_group_unnamed in Hg; [discriminate|reflexivity].
Qed.
Print Assumptions C37_json_point_names_refuted.

(** What does hold: the report is produced exactly when it has no cross, and
    then contains everything but the coverpoint names.  Missing from C37: the
    crosses and the coverpoint names. *)
Theorem C37_json_report_partial :
  forall (A : arith) (r : report A),
    (rpt_crosses r = [] -> exists j, json_report r = Ok j /\ mirrors_but_point_names r j) /\
    (rpt_crosses r <> [] -> json_report r = Err AttributeError).
Proof. intros A r. split; [apply report_ok|apply report_cross_err]. Qed.
Print Assumptions C37_json_report_partial.

Example C37_example :
  exists r, build_report QA (mkdb [du "top"; inst "i" [0]
      [cg "cg" 1 [cp "a" 1 [bin "x" 1 3]; ci "cg_1" 1 [cp "a" 1 [illegal "y" 1 1]]]]]) = Ok r
    /\ rpt_crosses r = [] /\ List.length (rpt_points r) = 2.
Proof. eexists. split; [vm_compute; reflexivity|]. split; reflexivity. Qed.

(** C48. *)
Theorem C48_counts_survive_as_text : forall z : Z, py_int (show_int z) = Ok z.
Proof. exact py_int_show. Qed.
Print Assumptions C48_counts_survive_as_text.

Example C48_example :
  show_int (-1) = "-1" /\ show_int 0 = "0" /\ show_int 12345678901234567890 = "12345678901234567890" /\
  py_int " +1_000
" = Ok 1000%Z /\ py_int "1__0" = Err ValueError /\ py_int "" = Err ValueError.
Proof. repeat split; vm_compute; reflexivity. Qed.
