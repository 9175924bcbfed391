From Verif Require Import Base PyInt Dates TextFacts.
Local Open Scope string_scope.
Local Open Scope Z_scope.

Definition dig (d : Z) : Prop := 0 <= d <= 9.

Lemma dig_cases : forall (P : Z -> Prop),
  P 0 -> P 1 -> P 2 -> P 3 -> P 4 -> P 5 -> P 6 -> P 7 -> P 8 -> P 9 -> forall d, dig d -> P d.
Proof.
  intros P ? ? ? ? ? ? ? ? ? ? d [L U].
  assert (d = 0 \/ d = 1 \/ d = 2 \/ d = 3 \/ d = 4 \/ d = 5 \/ d = 6 \/ d = 7 \/ d = 8 \/ d = 9) as C by lia.
  intuition (subst; assumption).
Qed.

Lemma digit_of_char : forall d, dig d -> digit_of (digit_char d) = Some d.
Proof. apply dig_cases; reflexivity. Qed.

Lemma mdigit_char : forall lo hi d s, dig d ->
  mdigit lo hi (String (digit_char d) s) = if (lo <=? d) && (d <=? hi) then [(d, s)] else [].
Proof. intros. unfold mdigit. now rewrite digit_of_char. Qed.

Lemma div10 : forall z, 0 <= z <= 99 -> dig (z / 10).
Proof.
  intros z H. split; [apply Z.div_pos; lia|].
  apply Z.lt_succ_r. apply Z.div_lt_upper_bound; lia.
Qed.
Lemma mod10 : forall z, dig (z mod 10).
Proof. intros z. unfold dig. pose proof (Z.mod_pos_bound z 10). lia. Qed.

Lemma mtwo_pad2 : forall a b c d z s, 0 <= z <= 99 ->
  mtwo a b c d (pad2 z ++ s) =
  if ((a <=? z / 10) && (z / 10 <=? b)) && ((c <=? z mod 10) && (z mod 10 <=? d)) then [(z, s)] else [].
Proof.
  intros a b c d z s Hz. unfold mtwo, mbind, pad2. cbn [append].
  rewrite mdigit_char by now apply div10.
  destruct ((a <=? z / 10) && (z / 10 <=? b)); [|reflexivity].
  cbn [flat_map fst snd app andb]. rewrite mdigit_char by apply mod10.
  destruct ((c <=? z mod 10) && (z mod 10 <=? d)); [|reflexivity].
  cbn [flat_map fst snd app mret]. unfold mret. cbn [app]. rewrite <- Z.div_mod by lia. reflexivity.
Qed.

(** The first match of a field printed with two digits. *)
Definition first_is {A} (m : matcher A) (s : string) (v : A) (rest : string) : Prop :=
  exists more, m s = (v, rest) :: more.

Lemma first_bind : forall A B (m : matcher A) (k : A -> matcher B) s v rest w rest',
  first_is m s v rest -> first_is (k v) rest w rest' -> first_is (mbind m k) s w rest'.
Proof.
  intros A B m k s v rest w rest' [m1 E1] [m2 E2]. unfold first_is, mbind. rewrite E1.
  cbn [flat_map fst snd]. rewrite E2. cbn [app]. eexists. reflexivity.
Qed.
Lemma first_ret : forall A (v : A) s, first_is (mret v) s v s.
Proof. intros. exists []. reflexivity. Qed.
Lemma first_char : forall c s, first_is (mchar c) (String c s) tt s.
Proof. intros. exists []. unfold mchar. now rewrite Ascii.eqb_refl. Qed.

Ltac case2 z :=
  match goal with |- context [mtwo ?a ?b ?c ?d (pad2 z ++ ?s)] => rewrite (mtwo_pad2 a b c d z s) by lia end.

Lemma dm : forall z, z = 10 * (z / 10) + z mod 10 /\ 0 <= z mod 10 <= 9.
Proof. intros z. split; [apply Z.div_mod; lia|]. pose proof (Z.mod_pos_bound z 10). lia. Qed.

Lemma first_month : forall z s, 1 <= z <= 12 -> first_is m_month (pad2 z ++ s) z s.
Proof.
  intros z s H. unfold first_is, m_month, malt.
  repeat case2 z. destruct (dm z) as [E R].
  assert (C : z / 10 = 1 /\ z mod 10 <= 2 \/ z / 10 = 0 /\ 1 <= z mod 10) by lia.
  destruct C as [[-> L]|[-> L]].
  - destruct (0 <=? z mod 10) eqn:E1; [|lia]. destruct (z mod 10 <=? 2) eqn:E2; [|lia].
    cbn. eexists. reflexivity.
  - destruct (1 <=? z mod 10) eqn:E1; [|lia]. destruct (z mod 10 <=? 9) eqn:E2; [|lia].
    cbn. eexists. reflexivity.
Qed.

Lemma first_day : forall z s, 1 <= z <= 31 -> first_is m_day (pad2 z ++ s) z s.
Proof.
  intros z s H. unfold first_is, m_day, malt.
  repeat case2 z. destruct (dm z) as [E R].
  assert (C : z / 10 = 3 /\ z mod 10 <= 1 \/ (z / 10 = 1 \/ z / 10 = 2) \/ z / 10 = 0 /\ 1 <= z mod 10) by lia.
  destruct C as [[-> L]|[[->| ->]|[-> L]]];
    destruct (0 <=? z mod 10) eqn:E1; try lia; destruct (z mod 10 <=? 9) eqn:E2; try lia;
    destruct (z mod 10 <=? 1) eqn:E3; try lia; destruct (1 <=? z mod 10) eqn:E4; try lia;
    cbn; eexists; reflexivity.
Qed.

Lemma first_hour : forall z s, 0 <= z <= 23 -> first_is m_hour (pad2 z ++ s) z s.
Proof.
  intros z s H. unfold first_is, m_hour, malt.
  repeat case2 z. destruct (dm z) as [E R].
  assert (C : z / 10 = 2 /\ z mod 10 <= 3 \/ (z / 10 = 0 \/ z / 10 = 1)) by lia.
  destruct C as [[-> L]|[->| ->]];
    destruct (0 <=? z mod 10) eqn:E1; try lia; destruct (z mod 10 <=? 9) eqn:E2; try lia;
    destruct (z mod 10 <=? 3) eqn:E3; try lia; cbn; eexists; reflexivity.
Qed.

Lemma first_min : forall z s, 0 <= z <= 59 -> first_is m_min (pad2 z ++ s) z s.
Proof.
  intros z s H. unfold first_is, m_min, malt.
  repeat case2 z. destruct (dm z) as [E R].
  destruct (0 <=? z / 10) eqn:E0; try lia. destruct (z / 10 <=? 5) eqn:E5; try lia.
  destruct (0 <=? z mod 10) eqn:E1; try lia; destruct (z mod 10 <=? 9) eqn:E2; try lia.
  cbn. eexists. reflexivity.
Qed.

Lemma first_sec : forall z s, 0 <= z <= 59 -> first_is m_sec (pad2 z ++ s) z s.
Proof.
  intros z s H. unfold first_is, m_sec, malt.
  repeat case2 z. destruct (dm z) as [E R].
  destruct (6 <=? z / 10) eqn:E6; try lia.
  destruct (0 <=? z / 10) eqn:E0; try lia. destruct (z / 10 <=? 5) eqn:E5; try lia.
  destruct (0 <=? z mod 10) eqn:E1; try lia; destruct (z mod 10 <=? 9) eqn:E2; try lia.
  cbn. eexists. reflexivity.
Qed.

Lemma first_year : forall z s, 0 <= z <= 9999 -> first_is m_year (pad4 z ++ s) z s.
Proof.
  intros z s H. unfold pad4. rewrite sapp_assoc. unfold m_year.
  assert (R1 : 0 <= z / 100 <= 99).
  { split; [apply Z.div_pos; lia|]. apply Z.lt_succ_r, Z.div_lt_upper_bound; lia. }
  pose proof (Z.mod_pos_bound z 100 ltac:(lia)) as R2.
  assert (T : forall y t, 0 <= y <= 99 -> first_is (mtwo 0 9 0 9) (pad2 y ++ t) y t).
  { intros y t Hy. unfold first_is. case2 y. destruct (dm y) as [E R].
    destruct (0 <=? y / 10) eqn:E0; try lia. destruct (y / 10 <=? 9) eqn:E5; try lia.
    destruct (0 <=? y mod 10) eqn:E1; try lia; destruct (y mod 10 <=? 9) eqn:E2; try lia.
    cbn. eexists. reflexivity. }
  eapply first_bind; [apply T; lia|]. eapply first_bind; [apply T; lia|].
  rewrite <- Z.div_mod by lia. apply first_ret.
Qed.

Lemma valid_bounds : forall d, valid_dt d = true ->
  1 <= dt_year d <= 9999 /\ 1 <= dt_month d <= 12 /\ 1 <= dt_day d <= 31
  /\ 0 <= dt_hour d <= 23 /\ 0 <= dt_min d <= 59 /\ 0 <= dt_sec d <= 59.
Proof.
  intros d H. unfold valid_dt in H. repeat (apply andb_prop in H; destruct H as [H ?]).
  assert (days_in_month (dt_year d) (dt_month d) <= 31).
  { unfold days_in_month. destruct (dt_month d =? 2); [destruct (leap _); lia|].
    destruct (_ || _)%bool; lia. }
  lia.
Qed.

Lemma app_empty_r : forall s : string, s ++ "" = s.
Proof. induction s; simpl; congruence. Qed.

Lemma compact_parse : forall d, valid_dt d = true -> 1000 <= dt_year d ->
  strptime m_compact (compact d) = Ok d.
Proof.
  intros d V Y. destruct (valid_bounds d V) as (Hy & Hm & Hd & Hh & Hi & Hs).
  assert (F : first_is m_compact (compact d) d "").
  { unfold compact. destruct (dt_year d <? 1000) eqn:E; [lia|].
    unfold m_compact.
    eapply first_bind; [apply first_year; lia|].
    eapply first_bind; [apply first_month; lia|].
    eapply first_bind; [apply first_day; lia|].
    eapply first_bind; [apply first_hour; lia|].
    eapply first_bind; [apply first_min; lia|].
    eapply first_bind; [rewrite <- (app_empty_r (pad2 (dt_sec d))); apply first_sec; lia|].
    destruct d; apply first_ret. }
  destruct F as [more F]. unfold strptime. rewrite F, V. reflexivity.
Qed.

Lemma iso_parse : forall d, valid_dt d = true -> strptime m_iso (isoformat d) = Ok d.
Proof.
  intros d V. destruct (valid_bounds d V) as (Hy & Hm & Hd & Hh & Hi & Hs).
  assert (F : first_is m_iso (isoformat d) d "").
  { unfold isoformat. unfold m_iso.
    eapply first_bind; [apply first_year; lia|]. eapply first_bind; [apply first_char|].
    eapply first_bind; [apply first_month; lia|]. eapply first_bind; [apply first_char|].
    eapply first_bind; [apply first_day; lia|]. eapply first_bind; [apply first_char|].
    eapply first_bind; [apply first_hour; lia|]. eapply first_bind; [apply first_char|].
    eapply first_bind; [apply first_min; lia|]. eapply first_bind; [apply first_char|].
    eapply first_bind; [rewrite <- (app_empty_r (pad2 (dt_sec d))); apply first_sec; lia|].
    destruct d; apply first_ret. }
  destruct F as [more F]. unfold strptime. rewrite F, V. reflexivity.
Qed.

Lemma strptime_valid : forall m s d, strptime m s = Ok d -> valid_dt d = true.
Proof.
  intros m s d H. unfold strptime in H. destruct (m s) as [|[d' [|]] l]; try discriminate.
  destruct (valid_dt d') eqn:E; [|discriminate]. now injection H as <-.
Qed.

Lemma date_roundtrip : forall local d, valid_dt d = true -> 1000 <= dt_year d -> local d = d ->
  (let* x := write_date local (compact d) in read_date x) = Ok (compact d).
Proof.
  intros local d V Y L. unfold write_date. rewrite compact_parse by assumption. cbn [rbind].
  rewrite L. unfold read_date. rewrite iso_parse by assumption. reflexivity.
Qed.

(** Any text the writer accepts is read back in its 14-digit form. *)
Lemma date_any : forall local s d, strptime m_compact s = Ok d -> local d = d ->
  write_date local s = Ok (isoformat d) /\ read_date (isoformat d) = Ok (compact d).
Proof.
  intros local s d H L. unfold write_date, read_date. rewrite H. cbn [rbind]. rewrite L.
  rewrite iso_parse by (eapply strptime_valid; exact H). split; reflexivity.
Qed.
