(** The text report (ucis/report/format_rpt_text.py and the older
    ucis/report/text_coverage_report_formatter.py, which differ only in how a
    percentage is formatted). *)
From Verif Require Import Base Dict Consts Db Report PyInt.
Set Implicit Arguments.
Local Open Scope string_scope.

Definition newline : string := String (ascii_of_nat 10) "".

(** What a formatter object and the stream it prints on hold: the indentation
    (format_rpt_text.py:17) and the strings written so far. *)
Record tstate := TState { t_ind : string; t_out : list string }.

(** Settings (format_rpt_text.py:18-19). *)
Record topts := TOpts { to_details : bool; to_by_hit : bool }.

(** Python [s[:-4]]. *)
Definition drop4 (s : string) : string := substring 0 (String.length s - 4) s.

Section Text.
  Variable A : arith.
  (** Text of a covergroup's percentage, with the percent sign: ["%f%%" % round(x, 2)]
      (format_rpt_text.py:43-45); for the older formatter
      ["%.<r>f%%" % round(x, r)] with r = [self.round]
      (text_coverage_report_formatter.py:28-31). *)
  Variable show_group : A -> string.
  (** The same for a coverpoint or cross: ["%f%%" % round(x)] (format_rpt_text.py:57, 73),
      ["%.<r>f%%" % round(x, r)] (text_coverage_report_formatter.py:43-44, 61-62). *)
  Variable show_point : A -> string.
  (** The stream: given what was written so far and the next string, the
      exception its [write] raises, if any.  A failing write writes nothing. *)
  Variable faults : list string -> string -> option exn.
  Variable o : topts.

  Notation M := (ST tstate unit).

  (** [self._fp.write(s)] *)
  Definition put (s : string) : M :=
    fun st => match faults (t_out st) s with
              | Some e => (st, Err e)
              | None => (TState (t_ind st) (t_out st ++ [s])%list, Ok tt)
              end.

  (** format_rpt_text.py:92-93; [msg] is the formatted message. *)
  Definition writeln (msg : string) : M :=
    fun st => put (t_ind st ++ msg ++ newline) st.

  (** [with self.indent(): m], format_rpt_text.py:95-102: [__exit__] also runs
      when [m] raises, and lets the exception through. *)
  Definition indented (m : M) : M :=
    fun st =>
      let '(st', r) := m (TState (t_ind st ++ "    ") (t_out st)) in
      (TState (drop4 (t_ind st')) (t_out st'), r).

  (** format_rpt_text.py:84, 87, 90 *)
  Definition bin_line (b : rbin) : M := writeln (rb_name b ++ " : " ++ show_int (rb_count b)).

  (** format_rpt_text.py:80-90 *)
  Definition report_bins (bins : list rbin) : M :=
    if to_by_hit o then
      sfor (fun b => if rb_hit b then bin_line b else sret tt) bins ;;;
      sfor (fun b => if negb (rb_hit b) then bin_line b else sret tt) bins
    else sfor bin_line bins.

  (** format_rpt_text.py:56-70 *)
  Definition report_coverpoint (p : rcp A) : M :=
    writeln ("CVP " ++ rp_name p ++ " : " ++ show_point (rp_cov p)) ;;;
    if to_details o then
      writeln "Bins:" ;;;
      indented (report_bins (rp_bins p)) ;;;
      (if Nat.ltb 0 (List.length (rp_ignore p)) then
         writeln "IgnoreBins:" ;;; indented (report_bins (rp_ignore p))
       else sret tt) ;;;
      (if Nat.ltb 0 (List.length (rp_illegal p)) then
         writeln "IllegalBins:" ;;; indented (report_bins (rp_illegal p))
       else sret tt)
    else sret tt.

  (** format_rpt_text.py:72-78 *)
  Definition report_cross (x : rcross A) : M :=
    writeln ("CROSS " ++ rx_name x ++ " : " ++ show_point (rx_cov x)) ;;;
    if to_details o then
      writeln "Bins:" ;;; indented (report_bins (rx_bins x))
    else sret tt.

  (** format_rpt_text.py:40-54 *)
  Fixpoint report_covergroup (is_inst : bool) (g : rcg A) {struct g} : M :=
    match g with
    | RCg name _ _ cov cps crosses cgs =>
        writeln ((if is_inst then "INST" else "TYPE") ++ " " ++ name ++ " : " ++ show_group cov) ;;;
        indented (
          sfor report_coverpoint cps ;;;
          sfor report_cross crosses ;;;
          sfor (report_covergroup true) cgs)
    end.

  (** format_rpt_text.py:37-38 *)
  Definition report_groups (r : report A) : M := sfor (report_covergroup false) (r_cgs r).

  (** format_rpt_text.py:30-38: the report is built first. *)
  Definition report_text (d : db) : M :=
    r <- slift (build_report A d) ;; report_groups r.
End Text.
