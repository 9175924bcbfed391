(** C45, continued: which texts are taken for dates. *)
From Verif Require Import Base PyInt Dates DatesFacts DateTextSpec DateTextFacts.
Local Open Scope string_scope.
Local Open Scope Z_scope.

(** The reader takes a text for a date exactly if it has the form of one and the date
    exists. *)
Theorem C45_iso_texts :
  forall s, (forall d, iso_text s d -> real_date d -> read_date s = Ok (compact d)) /\
    (forall x, read_date s = Ok x -> exists d, iso_text s d /\ real_date d /\ x = compact d) /\
    (forall e, read_date s = Err e -> e = ValueError /\ forall d, iso_text s d -> ~ real_date d).
Proof.
  assert (A : forall s d, iso_text s d -> real_date d -> read_date s = Ok (compact d)).
  { intros s d T R. unfold read_date. apply real_valid in R. now rewrite (first_strptime _ _ _ (iso_first _ _ T R) R). }
  intros s. split; [apply A|]. split.
  - intros x H. unfold read_date in H. destruct (strptime m_iso s) as [d|] eqn:E; [|discriminate]. injection H as <-. apply strptime_in in E as (I & V).
    apply takes_iso in I as (t & -> & T). rewrite app_empty_r. exists d. split; [exact T|]. split; [now apply real_valid|reflexivity].
  - intros e H. split; [|intros d T R; rewrite (A s d T R) in H; discriminate]. unfold read_date, strptime in H. destruct (m_iso s) as [|[x [|]] l]; cbn in H; try congruence.
    destruct (valid_dt x); cbn in H; congruence.
Qed.
Print Assumptions C45_iso_texts.

(** The writer takes fourteen digits for the date they show, if it exists, and raises a
    ValueError otherwise; other texts it takes for dates are written with fewer digits. *)
Theorem C45_compact_texts :
  forall local s, (forall d, full_text s d -> real_date d -> write_date local s = Ok (isoformat (local d))) /\
    (forall d, full_text s d -> ~ real_date d -> write_date local s = Err ValueError) /\
    (forall x, write_date local s = Ok x -> exists d, compact_text s d /\ real_date d /\ x = isoformat (local d)).
Proof.
  intros local s. unfold write_date. split; [|split].
  - intros d T R. apply real_valid in R. now rewrite (first_strptime _ _ _ (full_first _ _ T R) R).
  - intros d T R. destruct (strptime m_compact s) as [d'|e] eqn:E; cbn.
    + apply strptime_in in E as (I & V). apply takes_compact in I as (t & -> & C). rewrite app_empty_r in T. rewrite (compact_full _ _ _ C T) in V. apply real_valid in V. contradiction.
    + unfold strptime in E. destruct (m_compact s) as [|[x [|]] l]; try congruence. destruct (valid_dt x); congruence.
  - intros x H. destruct (strptime m_compact s) as [d|] eqn:E; [|discriminate]. injection H as <-. apply strptime_in in E as (I & V). apply takes_compact in I as (t & -> & C). rewrite app_empty_r.
    exists d. split; [exact C|]. split; [now apply real_valid|reflexivity].
Qed.
Print Assumptions C45_compact_texts.

(** Single digits, a blank and a small t; a leap second, which datetime refuses; the 29th of
    February of three years; thirteen digits, where the month takes two digits and the last field one. *)
Example C45_texts :
  map read_date ["2021-3- 4t5:06:7"; "2021-12-31T23:59:60"; "2000-02-29T00:00:00"; "1900-02-29T00:00:00"; "2024-02-29T00:00:00"; "2021-3-4 5:06:7"] =
    [Ok "20210304050607"; Err ValueError; Ok "20000229000000"; Err ValueError; Ok "20240229000000"; Err ValueError] /\
  map (write_date (fun d => d)) ["20210304050607"; "2021121105060"; "20210230050607"] = [Ok "2021-03-04T05:06:07"; Ok "2021-12-11T05:06:00"; Err ValueError].
Proof. vm_compute. split; reflexivity. Qed.
Example C45_forms : iso_text "2021-3- 4t5:06:7" (DT 2021 3 4 5 6 7) /\ real_date (DT 2021 3 4 5 6 7) /\ full_text "20210230050607" (DT 2021 2 30 5 6 7).
Proof.
  split; [|split].
  - exists "2021", "3", " 4", "t", "5", "06", "7". unfold day_text, one_or_two, digits. cbn. repeat split; auto. right. now exists "4".
  - apply real_valid. reflexivity.
  - exists "2021", "02", "30", "05", "06", "07". unfold digits. cbn. repeat split.
Qed.
