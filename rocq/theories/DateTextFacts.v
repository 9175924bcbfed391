(** Which texts are taken for dates. *)
From Verif Require Import Base PyInt Dates DatesFacts DateTextSpec TextFacts.
Local Open Scope string_scope.
Local Open Scope Z_scope.

(** ** Texts of digits *)
Lemma digit_decimal c d : digit_of c = Some d -> 0 <= d <= 9 /\ decimal 0 (String c "") = Some d.
Proof. destruct c as [[] [] [] [] [] [] [] []]; vm_compute; intros [= <-]; split; try reflexivity; split; discriminate. Qed.
Lemma decimal_digit c z : decimal 0 (String c "") = Some z -> digit_of c = Some z /\ 0 <= z <= 9.
Proof. destruct c as [[] [] [] [] [] [] [] []]; vm_compute; intros [= <-]; split; try reflexivity; split; discriminate. Qed.
Lemma decimal_cons b c t : decimal b (String c t) = match decimal 0 (String c "") with Some d => decimal (10 * b + d) t | None => None end.
Proof. cbn [decimal]. destruct (_ && _)%bool; [|reflexivity]. f_equal. Qed.
Lemma digits1 t z : digits 1 t z -> exists c, t = String c "" /\ digit_of c = Some z /\ 0 <= z <= 9.
Proof. intros (L & D). destruct t as [|c [|]]; try discriminate L. exists c. split; [reflexivity|]. now apply decimal_digit. Qed.
Lemma digits1_intro c z : digit_of c = Some z -> digits 1 (String c "") z.
Proof. intros H. split; [reflexivity|]. now apply digit_decimal in H. Qed.
Lemma digits2 t z : digits 2 t z -> exists c d a b, t = String c (String d "") /\ digit_of c = Some a /\ digit_of d = Some b /\ z = 10 * a + b /\ 0 <= a <= 9 /\ 0 <= b <= 9.
Proof.
  intros (L & D). destruct t as [|c [|d [|]]]; try discriminate L. rewrite decimal_cons in D. destruct (decimal 0 (String c "")) as [a|] eqn:A; [|discriminate].
  rewrite decimal_cons in D. destruct (decimal 0 (String d "")) as [b|] eqn:B; [|discriminate]. apply decimal_digit in A as (A & ?). apply decimal_digit in B as (B & ?).
  cbn in D. injection D as <-. exists c, d, a, b. repeat split; try assumption; lia.
Qed.
Lemma digits2_intro c d a b : digit_of c = Some a -> digit_of d = Some b -> digits 2 (String c (String d "")) (10 * a + b).
Proof.
  intros A B. apply digit_decimal in A as (_ & A). apply digit_decimal in B as (_ & B). split; [reflexivity|]. rewrite decimal_cons, A, decimal_cons, B. cbn. f_equal; lia.
Qed.
Lemma decimal_app t u : forall b, decimal b (t ++ u) = match decimal b t with Some v => decimal v u | None => None end.
Proof. induction t as [|c t IH]; intros b; cbn [append decimal]; [reflexivity|]. destruct (_ && _)%bool; [apply IH|reflexivity]. Qed.
Lemma decimal_from t : forall b v, decimal 0 t = Some v -> decimal b t = Some (b * 10 ^ Z.of_nat (String.length t) + v).
Proof.
  assert (G : forall t b v, decimal b t = Some v -> forall k, decimal (k + b) t = Some (k * 10 ^ Z.of_nat (String.length t) + v)).
  { induction t0 as [|c t0 IH]; intros b v H k; cbn [decimal String.length] in *; [injection H as <-; f_equal; cbn; lia|]. destruct (_ && _)%bool; [|discriminate].
    replace (10 * (k + b) + (Z.of_nat (nat_of_ascii c) - 48)) with (10 * k + (10 * b + (Z.of_nat (nat_of_ascii c) - 48))) by lia. rewrite (IH _ _ H). f_equal.
    rewrite Nat2Z.inj_succ, Z.pow_succ_r by lia. lia. }
  intros b v H. rewrite <- (G t 0 v H b). f_equal. lia.
Qed.
Lemma digits4 t z : digits 4 t z -> exists u v a b, t = u ++ v /\ digits 2 u a /\ digits 2 v b /\ z = 100 * a + b.
Proof.
  intros (L & D). destruct t as [|c1 [|c2 [|c3 [|c4 [|]]]]]; try discriminate L. change (String c1 _) with (String c1 (String c2 "") ++ String c3 (String c4 "")) in D. rewrite decimal_app in D.
  destruct (decimal 0 (String c1 (String c2 ""))) as [a|] eqn:A; [|discriminate].
  assert (B : exists b, decimal 0 (String c3 (String c4 "")) = Some b).
  { cbn [decimal] in D |- *. destruct (_ && _)%bool; [|discriminate]. destruct (_ && _)%bool; [|discriminate]. eauto. }
  destruct B as (b & B). rewrite (decimal_from _ a b B) in D. injection D as <-. exists (String c1 (String c2 "")), (String c3 (String c4 "")), a, b.
  repeat split; try assumption. change (10 ^ Z.of_nat _) with 100. lia.
Qed.
Lemma digits4_intro u v a b : digits 2 u a -> digits 2 v b -> digits 4 (u ++ v) (100 * a + b).
Proof.
  intros (L & A) (M & B). split; [rewrite sapp_length, L, M; reflexivity|]. rewrite decimal_app, A, (decimal_from _ a b B), M. f_equal. change (10 ^ Z.of_nat 2) with 100. lia.
Qed.

(** ** What a match takes *)
Definition takes {A} (m : matcher A) (P : string -> A -> Prop) : Prop := forall s v rest, In (v, rest) (m s) -> exists t, s = t ++ rest /\ P t v.
Lemma takes_digit lo hi : takes (mdigit lo hi) (digits 1).
Proof.
  intros [|c s] v rest H; cbn in H; [destruct H|]. destruct (digit_of c) as [d|] eqn:E; [|destruct H]. destruct (_ && _)%bool; [|destruct H]. destruct H as [[= <- <-]|[]].
  exists (String c ""). split; [reflexivity|]. now apply digits1_intro.
Qed.
Lemma takes_two a b c d : takes (mtwo a b c d) (digits 2).
Proof.
  intros s v rest H. unfold mtwo, mbind in H. apply in_flat_map in H as ((x & r1) & H1 & H). apply in_flat_map in H as ((y & r2) & H2 & H). destruct H as [[= <- <-]|[]]. cbn [fst snd] in *.
  apply takes_digit in H1 as (t1 & -> & D1). apply takes_digit in H2 as (t2 & -> & D2). apply digits1 in D1 as (c1 & -> & D1 & _). apply digits1 in D2 as (c2 & -> & D2 & _).
  exists (String c1 (String c2 "")). split; [reflexivity|]. now apply digits2_intro.
Qed.
Lemma takes_alt A (m1 m2 : matcher A) P : takes m1 P -> takes m2 P -> takes (malt m1 m2) P.
Proof. intros H1 H2 s v rest H. unfold malt in H. apply in_app_or in H as [H|H]; [now apply H1|now apply H2]. Qed.
Lemma takes_weaker A (m : matcher A) (P Q : string -> A -> Prop) : takes m P -> (forall t v, P t v -> Q t v) -> takes m Q.
Proof. intros H W s v rest I. apply H in I as (t & E & T). exists t. auto. Qed.
Lemma takes_bind A B (m : matcher A) (k : A -> matcher B) (P : string -> A -> Prop) (Q : A -> string -> B -> Prop) :
  takes m P -> (forall a, takes (k a) (Q a)) -> takes (mbind m k) (fun t b => exists a u v, t = u ++ v /\ P u a /\ Q a v b).
Proof.
  intros H1 H2 s v rest H. unfold mbind in H. apply in_flat_map in H as ((x & r1) & I1 & H). cbn [fst snd] in H. apply H1 in I1 as (t & -> & T). apply H2 in H as (u & -> & U).
  exists (t ++ u). split; [now rewrite sapp_assoc|]. exists x, t, u. auto.
Qed.
Lemma takes_ret A (a : A) : takes (mret a) (fun t b => t = "" /\ b = a).
Proof. intros s v rest [[= <- <-]|[]]. exists "". auto. Qed.
Lemma takes_char c : takes (mchar c) (fun t _ => t = String c "" \/ c = "T"%char /\ t = "t").
Proof.
  intros [|c' s] v rest H; cbn in H; [destruct H|]. destruct (Ascii.eqb_spec c c') as [<-|N]; cbn [orb] in H.
  - destruct H as [[= <- <-]|[]]. exists (String c ""). auto.
  - destruct (Ascii.eqb_spec c "T") as [->|]; [|destruct H]. destruct (Ascii.eqb_spec c' "t") as [->|]; [|destruct H]. destruct H as [[= <- <-]|[]]. exists "t". auto.
Qed.
Ltac one2 := repeat apply takes_alt; first [eapply takes_weaker; [apply takes_two|intros; now right]|eapply takes_weaker; [apply takes_digit|intros; now left]].
Lemma takes_month : takes m_month one_or_two. Proof. unfold m_month. one2. Qed.
Lemma takes_hour : takes m_hour one_or_two. Proof. unfold m_hour. one2. Qed.
Lemma takes_min : takes m_min one_or_two. Proof. unfold m_min. one2. Qed.
Lemma takes_sec : takes m_sec one_or_two. Proof. unfold m_sec. one2. Qed.
Lemma takes_day : takes m_day day_text.
Proof.
  unfold m_day. repeat apply takes_alt; try (eapply takes_weaker; [apply takes_two|intros; left; now right]); [eapply takes_weaker; [apply takes_digit|intros; left; now left]|].
  eapply takes_weaker; [apply takes_bind; [apply takes_char|intros a; apply takes_digit]|]. intros t v (a & u & w & -> & [->|(E & _)] & D); [|discriminate E]. right. now exists w.
Qed.
Lemma takes_year : takes m_year (digits 4).
Proof.
  unfold m_year. eapply takes_weaker; [apply takes_bind; [apply takes_two|intros a; apply takes_bind; [apply takes_two|intros b; apply takes_ret]]|].
  intros t v (a & u & w & -> & D1 & b & x & y & -> & D2 & -> & ->). rewrite app_empty_r. now apply digits4_intro.
Qed.

Lemma takes_iso : takes m_iso iso_text.
Proof.
  intros s v rest H. unfold m_iso, mbind in H.
  repeat match type of H with In _ (flat_map _ _) => let x := fresh "x" in let r := fresh "r" in let I := fresh "I" in apply in_flat_map in H as ((x & r) & I & H); cbn [fst snd] in * end.
  destruct H as [[= <- <-]|[]].
  apply takes_year in I as (y & -> & Y). apply takes_char in I0 as (c1 & -> & [->|(E & _)]); [|discriminate E]. apply takes_month in I1 as (mo & -> & M). apply takes_char in I2 as (c2 & -> & [->|(E & _)]); [|discriminate E].
  apply takes_day in I3 as (da & -> & D). apply takes_char in I4 as (t & -> & T). apply takes_hour in I5 as (h & -> & Hh). apply takes_char in I6 as (c3 & -> & [->|(E & _)]); [|discriminate E].
  apply takes_min in I7 as (mi & -> & Mi). apply takes_char in I8 as (c4 & -> & [->|(E & _)]); [|discriminate E]. apply takes_sec in I9 as (se & -> & Se).
  exists (y ++ "-" ++ mo ++ "-" ++ da ++ t ++ h ++ ":" ++ mi ++ ":" ++ se). split; [rewrite !sapp_assoc; reflexivity|].
  exists y, mo, da, t, h, mi, se. cbn. repeat split; try assumption; try apply Y. destruct T as [->|(_ & ->)]; auto.
Qed.
Lemma takes_compact : takes m_compact compact_text.
Proof.
  intros s v rest H. unfold m_compact, mbind in H.
  repeat match type of H with In _ (flat_map _ _) => let x := fresh "x" in let r := fresh "r" in let I := fresh "I" in apply in_flat_map in H as ((x & r) & I & H); cbn [fst snd] in * end.
  destruct H as [[= <- <-]|[]].
  apply takes_year in I as (y & -> & Y). apply takes_month in I0 as (mo & -> & M). apply takes_day in I1 as (da & -> & D). apply takes_hour in I2 as (h & -> & Hh).
  apply takes_min in I3 as (mi & -> & Mi). apply takes_sec in I4 as (se & -> & Se).
  exists (y ++ mo ++ da ++ h ++ mi ++ se). split; [rewrite !sapp_assoc; reflexivity|]. exists y, mo, da, h, mi, se. cbn. repeat split; try assumption; apply Y.
Qed.

(** ** What is matched first *)
Definition apart (s : string) : Prop := match s with String c _ => digit_of c = None | EmptyString => True end.
Lemma two_pad t z : digits 2 t z -> t = pad2 z /\ 0 <= z <= 99.
Proof.
  intros H. apply digits2 in H as (c & d & a & b & -> & A & B & -> & RA & RB). unfold pad2. replace ((10 * a + b) / 10) with a by (apply Z.div_unique with b; lia).
  replace ((10 * a + b) mod 10) with b by (apply Z.mod_unique with a; lia). split; [|lia].
  assert (G : forall c a, digit_of c = Some a -> c = digit_char a) by (intros [[] [] [] [] [] [] [] []] x; vm_compute; intros [= <-]; reflexivity). now rewrite <- (G _ _ A), <- (G _ _ B).
Qed.
Lemma one_char t z : digits 1 t z -> t = String (digit_char z) "" /\ 0 <= z <= 9.
Proof.
  intros H. apply digits1 in H as (c & -> & A & R). split; [|exact R].
  assert (G : forall c a, digit_of c = Some a -> c = digit_char a) by (intros [[] [] [] [] [] [] [] []] x; vm_compute; intros [= <-]; reflexivity). now rewrite <- (G _ _ A).
Qed.
Lemma mdigit_apart lo hi s : apart s -> mdigit lo hi s = [].
Proof. destruct s as [|c s]; [reflexivity|]. cbn. now intros ->. Qed.
Lemma mtwo_one a b c d z s : 0 <= z <= 9 -> apart s -> mtwo a b c d (String (digit_char z) s) = [].
Proof.
  intros R H. unfold mtwo, mbind. rewrite mdigit_char by exact R. destruct (_ && _)%bool; [|reflexivity]. cbn [flat_map fst snd]. rewrite (mdigit_apart _ _ _ H). reflexivity.
Qed.
Lemma mdigit_one lo hi z s : 0 <= z <= 9 -> lo <= z <= hi -> mdigit lo hi (String (digit_char z) s) = [(z, s)].
Proof. intros R B. rewrite mdigit_char by exact R. destruct (Z.leb_spec lo z), (Z.leb_spec z hi); try lia. reflexivity. Qed.
Ltac onlyone R H := unfold first_is, malt; rewrite ?(mtwo_one _ _ _ _ _ _ R H); rewrite (mdigit_one _ _ _ _ R) by lia; cbn [app]; eexists; reflexivity.
Lemma one_month z s : 0 <= z <= 9 -> 1 <= z -> apart s -> first_is m_month (String (digit_char z) s) z s.
Proof. intros R B H. unfold m_month. onlyone R H. Qed.
Lemma one_hour z s : 0 <= z <= 9 -> apart s -> first_is m_hour (String (digit_char z) s) z s.
Proof. intros R H. unfold m_hour. onlyone R H. Qed.
Lemma one_min z s : 0 <= z <= 9 -> apart s -> first_is m_min (String (digit_char z) s) z s.
Proof. intros R H. unfold m_min. onlyone R H. Qed.
Lemma one_sec z s : 0 <= z <= 9 -> apart s -> first_is m_sec (String (digit_char z) s) z s.
Proof. intros R H. unfold m_sec. onlyone R H. Qed.
Lemma one_day z s : 0 <= z <= 9 -> 1 <= z -> apart s -> first_is m_day (String (digit_char z) s) z s.
Proof. intros R B H. unfold m_day. onlyone R H. Qed.
Lemma blank_day z s : 0 <= z <= 9 -> 1 <= z -> first_is m_day (String " " (String (digit_char z) s)) z s.
Proof.
  intros R B. unfold first_is, m_day, malt, mtwo, mbind. cbn [mdigit digit_of flat_map app]. change (digit_of " ") with (@None Z). cbn [flat_map app]. unfold mchar. cbn [Ascii.eqb Bool.eqb orb flat_map fst snd].
  rewrite (mdigit_one _ _ _ _ R) by lia. cbn. eexists. reflexivity.
Qed.
Lemma fm t z s : one_or_two t z -> 1 <= z <= 12 -> apart s -> first_is m_month (t ++ s) z s.
Proof. intros [D|D] B H; [apply one_char in D as (-> & R); cbn; now apply one_month|]. apply two_pad in D as (-> & R). now apply first_month. Qed.
Lemma fh t z s : one_or_two t z -> 0 <= z <= 23 -> apart s -> first_is m_hour (t ++ s) z s.
Proof. intros [D|D] B H; [apply one_char in D as (-> & R); cbn; now apply one_hour|]. apply two_pad in D as (-> & R). now apply first_hour. Qed.
Lemma fmi t z s : one_or_two t z -> 0 <= z <= 59 -> apart s -> first_is m_min (t ++ s) z s.
Proof. intros [D|D] B H; [apply one_char in D as (-> & R); cbn; now apply one_min|]. apply two_pad in D as (-> & R). now apply first_min. Qed.
Lemma fs t z s : one_or_two t z -> 0 <= z <= 59 -> apart s -> first_is m_sec (t ++ s) z s.
Proof. intros [D|D] B H; [apply one_char in D as (-> & R); cbn; now apply one_sec|]. apply two_pad in D as (-> & R). now apply first_sec. Qed.
Lemma fd t z s : day_text t z -> 1 <= z <= 31 -> apart s -> first_is m_day (t ++ s) z s.
Proof.
  intros [[D|D]|(u & -> & D)] B H; [apply one_char in D as (-> & R); cbn; now apply one_day|apply two_pad in D as (-> & R); now apply first_day|].
  apply one_char in D as (-> & R). cbn. now apply blank_day.
Qed.
Lemma fy t z s : digits 4 t z -> 0 <= z <= 9999 -> first_is m_year (t ++ s) z s.
Proof.
  intros D B. apply digits4 in D as (u & v & a & b & -> & U & V & ->). apply two_pad in U as (-> & RU). apply two_pad in V as (-> & RV).
  replace (pad2 a ++ pad2 b) with (pad4 (100 * a + b)); [now apply first_year|]. unfold pad4. f_equal; f_equal; [symmetry; apply Z.div_unique with b; lia|symmetry; apply Z.mod_unique with a; lia].
Qed.
Lemma first_t t s : t = "T" \/ t = "t" -> first_is (mchar "T") (t ++ s) tt s.
Proof. intros [->| ->]; exists []; reflexivity. Qed.

Lemma iso_first s d : iso_text s d -> valid_dt d = true -> first_is m_iso s d "".
Proof.
  intros (y & mo & da & t & h & mi & se & -> & T & Y & Mo & Da & H & Mi & Se) V. destruct (valid_bounds d V) as (Hy & Hm & Hd & Hh & Hi & Hs). unfold m_iso.
  eapply first_bind; [apply fy; [exact Y|lia]|]. eapply first_bind; [apply first_char|]. eapply first_bind; [apply fm; [exact Mo|lia|reflexivity]|]. eapply first_bind; [apply first_char|].
  eapply first_bind; [apply fd; [exact Da|lia|destruct T as [->| ->]; reflexivity]|]. eapply first_bind; [apply first_t; exact T|].
  eapply first_bind; [apply fh; [exact H|lia|reflexivity]|]. eapply first_bind; [apply first_char|]. eapply first_bind; [apply fmi; [exact Mi|lia|reflexivity]|]. eapply first_bind; [apply first_char|].
  eapply first_bind; [rewrite <- (app_empty_r se); apply fs; [exact Se|lia|exact I]|]. destruct d; apply first_ret.
Qed.
Lemma full_first s d : full_text s d -> valid_dt d = true -> first_is m_compact s d "".
Proof.
  intros (y & mo & da & h & mi & se & -> & Y & Mo & Da & H & Mi & Se) V. destruct (valid_bounds d V) as (Hy & Hm & Hd & Hh & Hi & Hs). unfold m_compact.
  apply two_pad in Mo as (-> & _). apply two_pad in Da as (-> & _). apply two_pad in H as (-> & _). apply two_pad in Mi as (-> & _). apply two_pad in Se as (-> & _).
  eapply first_bind; [apply fy; [exact Y|lia]|]. eapply first_bind; [apply first_month; lia|]. eapply first_bind; [apply first_day; lia|]. eapply first_bind; [apply first_hour; lia|].
  eapply first_bind; [apply first_min; lia|]. eapply first_bind; [rewrite <- (app_empty_r (pad2 _)); apply first_sec; lia|]. destruct d; apply first_ret.
Qed.
Lemma strptime_in m s d : strptime m s = Ok d -> In (d, "") (m s) /\ valid_dt d = true.
Proof.
  unfold strptime. destruct (m s) as [|[x [|]] l]; try discriminate. destruct (valid_dt x) eqn:V; [|discriminate]. intros [= <-]. split; [now left|exact V].
Qed.
Lemma first_strptime m s d : first_is m s d "" -> valid_dt d = true -> strptime m s = Ok d.
Proof. intros (more & E) V. unfold strptime. now rewrite E, V. Qed.

(** ** The calendar *)
Lemma leap_spec y : leap y = true <-> leap_year y.
Proof.
  unfold leap, leap_year. rewrite Bool.andb_true_iff, Bool.orb_true_iff, Bool.negb_true_iff, !Z.eqb_eq, Z.eqb_neq.
  rewrite !Z.mod_divide by lia. reflexivity.
Qed.
Lemma real_valid d : valid_dt d = true <-> real_date d.
Proof.
  unfold valid_dt, real_date. rewrite !Bool.andb_true_iff, !Z.leb_le. split.
  - intros (((((((((((Y1 & Y2) & M1) & M2) & D1) & D2) & H1) & H2) & I1) & I2) & S1) & S2). repeat split; try lia.
    set (l := (if leap (dt_year d) then [31; 29; 31; 30; 31; 30; 31; 31; 30; 31; 30; 31] else [31; 28; 31; 30; 31; 30; 31; 31; 30; 31; 30; 31])%list).
    exists l, (days_in_month (dt_year d) (dt_month d)). split; [|split; [exact M1|split; [|lia]]].
    + unfold l. destruct (leap (dt_year d)) eqn:L; [left|right]; (split; [|reflexivity]); rewrite <- leap_spec; congruence.
    + unfold l, days_in_month. assert (C : exists k, (k < 12)%nat /\ dt_month d = Z.of_nat k + 1) by (exists (Z.to_nat (dt_month d - 1)); lia). destruct C as (k & K & ->). clear -K.
      replace (Z.to_nat (Z.of_nat k + 1 - 1)) with k by lia. do 12 (destruct k as [|k]; [destruct (leap (dt_year d)); reflexivity|]). lia.
  - intros ((Y1 & Y2) & (l & n & ML & M1 & E & D1 & D2) & (H1 & H2) & (I1 & I2) & S1 & S2).
    assert (M2 : (Z.to_nat (dt_month d - 1) < 12)%nat).
    { assert (X : nth_error l (Z.to_nat (dt_month d - 1)) <> None) by congruence. apply nth_error_Some in X. destruct ML as [(_ & ->)|(_ & ->)]; exact X. }
    repeat split; try lia. apply Z.le_trans with n; [exact D2|]. unfold days_in_month. assert (C : exists k, (k < 12)%nat /\ dt_month d = Z.of_nat k + 1) by (exists (Z.to_nat (dt_month d - 1)); lia).
    destruct C as (k & K & Q). rewrite Q in E |- *. replace (Z.to_nat (Z.of_nat k + 1 - 1)) with k in E by lia. clear - ML E K.
    destruct ML as [(L & ->)|(L & ->)]; rewrite <- leap_spec in L; destruct (leap (dt_year d)); try congruence; (do 12 (destruct k as [|k]; [injection E as <-; vm_compute; discriminate|])); lia.
Qed.

(** ** Fourteen digits *)
Lemma sapp_cut : forall a b c d : string, String.length a = String.length c -> a ++ b = c ++ d -> a = c /\ b = d.
Proof.
  induction a as [|x a IH]; intros b [|y c] d L H; cbn in *; try discriminate; [auto|]. injection H as -> H. injection L as L. destruct (IH b c d L H) as (-> & ->). auto.
Qed.
Lemma len_one_two t z : one_or_two t z -> (String.length t <= 2)%nat.
Proof. intros [(L & _)|(L & _)]; lia. Qed.
Lemma len_day t z : day_text t z -> (String.length t <= 2)%nat.
Proof. intros [H|(u & -> & (L & _))]; [now apply len_one_two in H|]. rewrite sapp_length, L. cbn. lia. Qed.
Lemma two_same t z z' : one_or_two t z -> digits 2 t z' -> z = z'.
Proof. intros [(L & D)|(L & D)] (L' & D'); congruence. Qed.
Lemma day_same t z z' : day_text t z -> digits 2 t z' -> z = z'.
Proof. intros [H|(u & -> & _)] D; [now apply two_same with t|]. destruct D as (_ & D). discriminate D. Qed.
Lemma compact_full s d d' : compact_text s d' -> full_text s d -> d' = d.
Proof.
  intros (y' & mo' & da' & h' & mi' & se' & -> & Y' & Mo' & Da' & H' & Mi' & Se') (y & mo & da & h & mi & se & E & Y & Mo & Da & H & Mi & Se).
  pose proof (len_one_two _ _ Mo'). pose proof (len_day _ _ Da'). pose proof (len_one_two _ _ H'). pose proof (len_one_two _ _ Mi'). pose proof (len_one_two _ _ Se').
  assert (L : String.length (y' ++ mo' ++ da' ++ h' ++ mi' ++ se') = 14%nat).
  { rewrite E, !sapp_length. destruct Y as (-> & _), Mo as (-> & _), Da as (-> & _), H as (-> & _), Mi as (-> & _), Se as (-> & _). reflexivity. }
  rewrite !sapp_length in L. pose proof (proj1 Y'). pose proof (proj1 Y). pose proof (proj1 Mo). pose proof (proj1 Da). pose proof (proj1 H). pose proof (proj1 Mi). pose proof (proj1 Se).
  apply sapp_cut in E as (-> & E); [|lia]. apply sapp_cut in E as (-> & E); [|lia]. apply sapp_cut in E as (-> & E); [|lia]. apply sapp_cut in E as (-> & E); [|lia]. apply sapp_cut in E as (-> & ->); [|lia].
  destruct d as [a1 a2 a3 a4 a5 a6], d' as [b1 b2 b3 b4 b5 b6]. cbn in *. f_equal.
  - destruct Y, Y'. congruence.
  - now apply two_same with mo.
  - now apply day_same with da.
  - now apply two_same with h.
  - now apply two_same with mi.
  - now apply two_same with se.
Qed.
