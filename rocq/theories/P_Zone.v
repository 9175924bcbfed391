(** C88: dates and the local time zone. *)
From Verif Require Import Base PyInt Dates DatesFacts Zone ZoneFacts XmlWriter XmlReader Xml Db Hist XmlSpec XmlHistSpec XmlRound XmlHistFacts Samples P_Xml.
From Coq Require Import Psatz.
Local Open Scope string_scope.
Local Open Scope Z_scope.

(** The clock of the zone shows [t] at some moment. *)
Definition shown_in (off : zone) (t : dt) : Prop := exists u, localtime off u = t.
(** What the C standard says of mktime: for a time that the clock shows, a moment at
    which it does.  Nothing is assumed for times that are skipped. *)
Definition good_mktime (off : zone) (mktime : dt -> Z) : Prop :=
  forall t, valid_dt t = true -> shown_in off t -> localtime off (mktime t) = t.

(** ** The calendar: dates and times correspond one to one to seconds *)
Theorem C88_calendar :
  (forall t, valid_dt t = true -> of_secs (secs t) = t /\ first_second <= secs t <= last_second) /\
  (forall z, first_second <= z <= last_second -> valid_dt (of_secs z) = true /\ secs (of_secs z) = z).
Proof.
  split.
  - intros t V. pose proof V as W. apply valid_iff in W as [W _]. split; [now apply of_secs_secs|]. now apply valid_range.
  - intros z R. destruct (of_secs_ok z) as [W E]. split; [|exact E]. apply valid_range; [exact W|]. now rewrite E.
Qed.
Print Assumptions C88_calendar.
(** The day after a day, month or year ends. *)
Example C88_calendar_example :
  map (fun t => of_secs (secs t + 1)) [DT 1999 12 31 23 59 59; DT 2000 2 28 23 59 59; DT 1900 2 28 23 59 59; DT 2021 3 14 1 59 59] =
  [DT 2000 1 1 0 0 0; DT 2000 2 29 0 0 0; DT 1900 3 1 0 0 0; DT 2021 3 14 2 0 0] /\ secs (DT 1970 1 1 0 0 0) = 0.
Proof. vm_compute. auto. Qed.

(** ** Which dates are written as they are *)
Lemma shown_iff off t : well_formed t -> (shown_in off t <-> exists u, u + off u = secs t).
Proof.
  intros W. split; intros [u H]; exists u.
  - rewrite <- H. unfold localtime. symmetry. apply (of_secs_ok (u + off u)).
  - unfold localtime. rewrite H. now apply of_secs_secs.
Qed.
Theorem C88_written_as_is : forall off mktime t, good_mktime off mktime -> valid_dt t = true ->
  (through off mktime t = t <-> shown_in off t).
Proof.
  intros off mk t G V. split.
  - intros E. now exists (mk t).
  - intros S. now apply G.
Qed.
Print Assumptions C88_written_as_is.

Lemma small_years : forallb (fun y => Nat.ltb (String.length (show_int (Z.of_nat y))) 4) (seq 1 999) = true.
Proof. vm_compute. reflexivity. Qed.
Lemma compact_length t : valid_dt t = true -> 1000 <= dt_year t -> String.length (compact t) = 14%nat.
Proof.
  intros V Y. unfold compact. destruct (Z.ltb_spec (dt_year t) 1000); [lia|]. reflexivity.
Qed.
Lemma slength_app a b : String.length (a ++ b) = (String.length a + String.length b)%nat.
Proof. induction a; simpl; congruence. Qed.
Lemma compact_short t : valid_dt t = true -> dt_year t < 1000 -> (String.length (compact t) < 14)%nat.
Proof.
  intros V Y. unfold compact. destruct (Z.ltb_spec (dt_year t) 1000); [|lia]. rewrite slength_app.
  apply valid_iff in V as [_ R]. pose proof small_years as A. rewrite forallb_forall in A.
  specialize (A (Z.to_nat (dt_year t))). rewrite Z2Nat.id in A by lia. apply Nat.ltb_lt in A; [|apply in_seq; lia].
  change (String.length _) with 10%nat at 2. lia.
Qed.
Lemma compact_inj t t' : valid_dt t = true -> 1000 <= dt_year t -> valid_dt t' = true -> compact t' = compact t -> t' = t.
Proof.
  intros V Y V' E. destruct (Z_lt_ge_dec (dt_year t') 1000) as [L|L].
  - pose proof (compact_short t' V' L) as A. rewrite E, (compact_length t V Y) in A. lia.
  - pose proof (compact_parse t V Y) as P. pose proof (compact_parse t' V' ltac:(lia)) as P'. rewrite E, P in P'. congruence.
Qed.

(** The date of a history node is written and read back unchanged if and only if the
    clock of the writer's zone shows it at some moment. *)
Theorem C88_dates_survive_iff : forall off mktime t,
  good_mktime off mktime -> valid_dt t = true -> 1000 <= dt_year t -> valid_dt (through off mktime t) = true ->
  ((let* x := write_date (through off mktime) (compact t) in read_date x) = Ok (compact t) <-> shown_in off t).
Proof.
  intros off mk t G V Y V'. rewrite <- (C88_written_as_is off mk t G V).
  unfold write_date. rewrite (compact_parse t V Y). cbn [rbind]. unfold read_date. rewrite (iso_parse _ V'). cbn [rbind]. split.
  - intros E. injection E as E. now apply compact_inj.
  - now intros ->.
Qed.
Print Assumptions C88_dates_survive_iff.

(** ** Zones without changes of the clock: every date survives *)
Definition fixed (c : Z) : zone := fun _ => c.
Theorem C88_fixed_offset : forall c mktime, good_mktime (fixed c) mktime ->
  forall t, valid_dt t = true -> through (fixed c) mktime t = t.
Proof.
  intros c mk G t V. apply C88_written_as_is; [exact G|exact V|]. apply valid_iff in V as [W _]. apply shown_iff; [exact W|].
  exists (secs t - c). unfold fixed. lia.
Qed.
Print Assumptions C88_fixed_offset.
(** There is such a mktime. *)
Example C88_fixed_mktime : forall c, good_mktime (fixed c) (fun t => secs t - c).
Proof. intros c t V _. unfold localtime, fixed. replace (secs t - c + c) with (secs t) by lia. now apply C88_calendar. Qed.

(** ** Zones with a change of the clock: at the moment [T] the offset changes from [a]
    to [b].  If the clock is set forward, the times in between are skipped, and only
    these; if it is set back, none is. *)
Definition changing (T a b : Z) : zone := fun u => if u <? T then a else b.
Theorem C88_skipped_times : forall T a b t, valid_dt t = true ->
  (shown_in (changing T a b) t <-> ~ (T + a <= secs t < T + b)).
Proof.
  intros T a b t V. apply valid_iff in V as [W _]. rewrite (shown_iff _ _ W). unfold changing. split.
  - intros [u E] B. destruct (Z.ltb_spec u T); lia.
  - intros N. destruct (Z_lt_ge_dec (secs t) (T + a)) as [L|L].
    + exists (secs t - a). destruct (Z.ltb_spec (secs t - a) T); lia.
    + exists (secs t - b). destruct (Z.ltb_spec (secs t - b) T); lia.
Qed.
Print Assumptions C88_skipped_times.
(** So a date in the skipped hour does not survive, whatever the C library does. *)
Theorem C88_skipped_hour_refuted : exists off t, valid_dt t = true /\ 1000 <= dt_year t /\
  forall mktime, valid_dt (through off mktime t) = true ->
    (let* x := write_date (through off mktime) (compact t) in read_date x) <> Ok (compact t).
Proof.
  (* New York, 14 March 2021: from 2:00 EST (-5 h) to 3:00 EDT (-4 h) *)
  set (T := secs (DT 2021 3 14 7 0 0)). exists (changing T (-18000) (-14400)), (DT 2021 3 14 2 30 0).
  split; [reflexivity|]. split; [cbn; lia|]. intros mk V' E. set (t := DT 2021 3 14 2 30 0) in *.
  assert (V : valid_dt t = true) by reflexivity.
  unfold write_date in E. rewrite (compact_parse t V) in E by (cbn; lia). cbn [rbind] in E. unfold read_date in E. rewrite (iso_parse _ V') in E. cbn [rbind] in E.
  injection E as E. apply compact_inj in E; [|exact V|cbn; lia|exact V'].
  assert (S : shown_in (changing T (-18000) (-14400)) t) by (now exists (mk t)).
  apply C88_skipped_times in S; [|exact V]. apply S. unfold T, t. vm_compute. split; congruence.
Qed.
Print Assumptions C88_skipped_hour_refuted.
(** The hour before and the hour after do. *)
Example C88_around :
  let off := changing (secs (DT 2021 3 14 7 0 0)) (-18000) (-14400) in
  shown_in off (DT 2021 3 14 1 59 59) /\ shown_in off (DT 2021 3 14 3 0 0) /\ ~ shown_in off (DT 2021 3 14 2 59 59).
Proof.
  cbv zeta. split; [|split].
  - exists (secs (DT 2021 3 14 6 59 59)). vm_compute. reflexivity.
  - exists (secs (DT 2021 3 14 7 0 0)). vm_compute. reflexivity.
  - intros S. apply C88_skipped_times in S; [|reflexivity]. apply S. vm_compute. split; congruence.
Qed.

(** ** Dates that pyucis makes itself (datetime.now(), xml_writer.py:148) are what
    the clock shows, so they are always written as they are. *)
Theorem C88_now : forall off mktime u, good_mktime off mktime ->
  let now := localtime off u in valid_dt now = true -> 1000 <= dt_year now ->
  write_date (through off mktime) (compact now) = Ok (isoformat now) /\ read_date (isoformat now) = Ok (compact now).
Proof.
  intros off mk u G now V Y. apply date_any; [now apply compact_parse|]. apply C88_written_as_is; [exact G|exact V|]. now exists u.
Qed.
Print Assumptions C88_now.

(** ** Whole databases: in a zone with a fixed offset, history nodes of the types the
    reader makes come back unchanged. *)
Theorem C88_history_preserved : forall to_float ev d e c mktime,
  env_local ev = through (fixed c) mktime -> good_mktime (fixed c) mktime ->
  write ev d = Ok e -> good_crosses_db d ->
  Forall (numbers_readable to_float) (db_hist d) -> db_hist d <> [] -> Forall (plain_hist to_float) (db_hist d) ->
  Forall (fun h => exists t, h_date h = VStr (compact t) /\ valid_dt t = true /\ (1000 <= dt_year t)%Z) (db_hist d) ->
  exists d', read to_float (reparse e) = Ok d' /\ db_hist d' = db_hist d.
Proof.
  intros tf ev d e c mk L G W GC N NE P D.
  assert (Lo : forall t, valid_dt t = true -> env_local ev t = t) by (intros t V; rewrite L; now apply C88_fixed_offset).
  eapply C44_plain_history_preserved; try eassumption.
  - intros t V. now rewrite (Lo t V).
  - eapply Forall_impl; [|exact D]. intros h (t & E & V & Y). exists t. auto.
Qed.
Print Assumptions C88_history_preserved.
