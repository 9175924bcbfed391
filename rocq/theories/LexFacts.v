(** The checks of the schema's simple types decide their definitions. *)
From Verif Require Import Base Dict BaseFacts PyInt Xml Schema SchemaSpec SchemaFacts LexSpec.
Local Open Scope string_scope.

(** ** Characters *)
Lemma digit_iff : forall c, is_digit c = true <-> digit c.
Proof.
  intros c. unfold is_digit, digit_of, digit. destruct ((48 <=? nat_of_ascii c)%nat && (nat_of_ascii c <=? 57)%nat) eqn:E.
  - apply andb_true_iff in E as [A B]. apply Nat.leb_le in A, B. split; auto.
  - split; [discriminate|]. intros [A B]. apply Nat.leb_le in A, B. rewrite A, B in E. discriminate.
Qed.
Lemma digit_val : forall c d, digit_of c = Some d -> d = (Z.of_nat (nat_of_ascii c) - 48)%Z /\ digit c.
Proof.
  intros c d H. assert (D : digit c) by (apply digit_iff; unfold is_digit; now rewrite H). split; [|exact D]. unfold digit_of in H. unfold digit in D.
  destruct (_ && _); [|discriminate]. injection H as <-. lia.
Qed.
Lemma digit_some : forall c, digit c -> digit_of c = Some (Z.of_nat (nat_of_ascii c) - 48)%Z.
Proof. intros c H. apply digit_iff in H. unfold is_digit in H. destruct (digit_of c) eqn:E; [|discriminate]. now apply digit_val in E as [-> _]. Qed.
Lemma numeral_iff : forall s, all_chars is_digit s = true <-> numeral s.
Proof.
  unfold numeral. induction s as [|c s IH]; cbn; [split; constructor|]. rewrite andb_true_iff, IH, digit_iff. split; [intros []; now constructor|].
  intros H. inversion H. now split.
Qed.
Lemma digits_iff : forall s, digits s = true <-> s <> "" /\ numeral s.
Proof. intros s. unfold digits. rewrite andb_true_iff, numeral_iff, negb_true_iff, String.eqb_neq. reflexivity. Qed.
Lemma blanks_iff : forall s, all_blank s = true <-> blanks s.
Proof.
  unfold blanks. assert (B : forall c, xml_blank c = true <-> In (nat_of_ascii c) [9; 10; 13; 32]).
  { intros c. unfold xml_blank. split.
    - intros H. destruct (nat_of_ascii c) as [|n]; [discriminate|]. do 33 (destruct n as [|n]; [try discriminate; cbn; auto 6|]). discriminate.
    - intros [<-|[<-|[<-|[<-|[]]]]]; reflexivity. }
  induction s as [|c s IH]; cbn; [split; constructor|]. rewrite andb_true_iff, IH, B. split; [intros []; now constructor|]. intros H. inversion H. now split.
Qed.
Lemma numeral_app : forall a b, numeral (a ++ b) <-> numeral a /\ numeral b.
Proof.
  unfold numeral. induction a as [|c a IH]; intros b; cbn; [split; [split; [constructor|]|]; tauto|]. split.
  - intros H. inversion H; subst. apply IH in H3 as [H3 H4]. split; [now constructor|assumption].
  - intros [H K]. inversion H; subst. constructor; [assumption|]. apply IH. now split.
Qed.
Lemma numeral_cons : forall c s, numeral (String c s) <-> digit c /\ numeral s.
Proof. intros c s. unfold numeral. cbn. split; [intros H; inversion H; now split|intros []; now constructor]. Qed.

(** ** Blanks around literals *)
Lemma sapp_assoc : forall a b c : string, (a ++ b) ++ c = a ++ (b ++ c).
Proof. induction a as [|x a IH]; intros; [reflexivity|]. cbn. now rewrite IH. Qed.
Lemma sapp_nil : forall a : string, a ++ "" = a.
Proof. induction a as [|x a IH]; [reflexivity|]. cbn. now rewrite IH. Qed.
Lemma blank_app : forall a b, all_blank (a ++ b) = all_blank a && all_blank b.
Proof. induction a as [|c a IH]; intros b; [reflexivity|]. cbn. now rewrite IH, andb_assoc. Qed.
Lemma trim_left_app : forall l s, all_blank l = true -> trim_left (l ++ s) = trim_left s.
Proof. induction l as [|c l IH]; intros s H; [reflexivity|]. cbn in *. apply andb_true_iff in H as [-> H]. now apply IH. Qed.
Lemma trim_left_blank : forall r, all_blank r = true -> trim_left r = "".
Proof. intros r H. rewrite <- (sapp_nil r). now rewrite trim_left_app. Qed.
Lemma trim_right_app : forall core r, plain core -> all_blank r = true -> trim_right (core ++ r) = core.
Proof.
  induction core as [|c core IH]; intros r P H; cbn [append].
  - destruct r; [reflexivity|]. cbn [trim_right]. now rewrite H.
  - unfold plain in P. cbn in P. apply andb_true_iff in P as [C P]. cbn [trim_right all_blank]. destruct (xml_blank c); [discriminate|]. cbn [andb]. now rewrite IH.
Qed.
Lemma trim_app : forall l core r, all_blank l = true -> plain core -> all_blank r = true -> trim (l ++ core ++ r) = core.
Proof.
  intros l core r L P R. unfold trim. rewrite trim_left_app by assumption. destruct core as [|c core].
  - cbn [append]. now rewrite trim_left_blank.
  - assert (E : trim_left (String c core ++ r) = String c core ++ r).
    { unfold plain in P. cbn in P. apply andb_true_iff in P as [P _]. cbn. now destruct (xml_blank c). }
    rewrite E. now apply trim_right_app.
Qed.
Lemma trim_around : forall s, exists l r, s = l ++ trim s ++ r /\ all_blank l = true /\ all_blank r = true.
Proof.
  assert (L : forall s, exists l, s = l ++ trim_left s /\ all_blank l = true).
  { induction s as [|c s [l [E B]]]; [exists ""; now split|]. cbn [trim_left]. destruct (xml_blank c) eqn:X; [|exists ""; now split].
    exists (String c l). cbn. rewrite X, <- E. now split. }
  assert (R : forall s, exists r, s = trim_right s ++ r /\ all_blank r = true).
  { induction s as [|c s [r [E B]]]; [exists ""; now split|]. cbn [trim_right]. destruct (all_blank (String c s)) eqn:X; [exists (String c s); now split|].
    exists r. cbn. rewrite <- E. now split. }
  intros s. destruct (L s) as [l [E B]]. destruct (R (trim_left s)) as [r [F C]]. exists l, r. unfold trim. rewrite <- F. now repeat split.
Qed.

(** ** Integers *)
Definition val (acc : Z) (s : string) : Z := fold_left (fun acc c => 10 * acc + (Z.of_nat (nat_of_ascii c) - 48))%Z (chars s) acc.
Lemma val_low : forall s acc, numeral s -> (0 <= acc)%Z -> (acc <= val acc s)%Z.
Proof.
  induction s as [|c s IH]; intros acc N A; [cbn; lia|]. apply numeral_cons in N as [D N]. change (acc <= val (10 * acc + (Z.of_nat (nat_of_ascii c) - 48)) s)%Z.
  unfold digit in D. etransitivity; [|apply IH; [assumption|lia]]. lia.
Qed.
Lemma val_zeros : forall s acc, numeral s -> (0 <= acc)%Z -> (all_zeros s = true /\ acc = 0%Z <-> val acc s = 0%Z).
Proof.
  induction s as [|c s IH]; intros acc N A; [cbn; tauto|]. apply numeral_cons in N as [D N]. unfold digit in D.
  change (val acc (String c s)) with (val (10 * acc + (Z.of_nat (nat_of_ascii c) - 48)) s). rewrite <- IH; [|assumption|lia]. unfold all_zeros. cbn [all_chars].
  rewrite andb_true_iff, Ascii.eqb_eq. split.
  - intros [[-> ?] ->]. split; [assumption|reflexivity].
  - intros [Z0 E]. assert (nat_of_ascii c = 48) as C by lia. split; [|lia]. split; [|assumption]. rewrite <- (ascii_nat_embedding c), C. reflexivity.
Qed.
Lemma value_zeros : forall s, numeral s -> (all_zeros s = true <-> value s = 0%Z).
Proof. intros s N. pose proof (val_zeros s 0 N ltac:(lia)) as H. change (value s) with (val 0 s). tauto. Qed.
Lemma value_nonneg : forall s, numeral s -> (0 <= value s)%Z.
Proof. intros s N. exact (val_low s 0 N ltac:(lia)). Qed.

Definition signed (s : string) : Z := if minus s then (- value (unsigned s))%Z else value (unsigned s).
Lemma digit_head : forall n, n <> "" -> numeral n -> unsigned n = n /\ minus n = false.
Proof. intros n H N. apply digits_head. now apply digits_iff. Qed.
Lemma integer_iff : forall s z, integer_literal s z <-> lex_integer s = true /\ z = signed s.
Proof.
  intros s z. unfold lex_integer, signed. rewrite digits_iff. split.
  - intros (sg & n & -> & N0 & N & H). destruct H as [[[<-|[<-|[]]] ->]|[-> ->]]; cbn; auto. destruct (digit_head n N0 N) as [-> ->]. auto.
  - intros [[N0 N] ->]. destruct s as [|c t]; [contradiction|]. cbn in *. destruct (Ascii.eqb_spec c "-") as [->|M]; [|destruct (Ascii.eqb_spec c "+") as [->|P]]; cbn in *.
    + exists "-", t. auto 8.
    + exists "+", t. repeat split; auto. left. split; cbn; auto.
    + exists "", (String c t). repeat split; auto. left. split; cbn; auto.
Qed.
Lemma signed_nonneg : forall s, lex_integer s = true -> (lex_nonneg s = true <-> (0 <= signed s)%Z) /\ (lex_positive s = true <-> (1 <= signed s)%Z).
Proof.
  intros s H. unfold lex_nonneg, lex_positive. rewrite H. unfold lex_integer in H. apply digits_iff in H as [_ N]. unfold signed. pose proof (value_zeros _ N) as V0. pose proof (value_nonneg _ N) as VN.
  destruct (minus s); cbn [negb andb orb].
  - split; [rewrite V0; lia|split; [discriminate|lia]].
  - split; [split; auto|]. rewrite negb_true_iff. destruct (all_zeros (unsigned s)).
    + split; [discriminate|]. intros. exfalso. pose proof (proj1 V0 eq_refl). lia.
    + split; [|reflexivity]. intros _. assert (value (unsigned s) <> 0)%Z by (intros E; apply V0 in E; discriminate). lia.
Qed.

(** ** Decimals and doubles *)
Lemma split_some : forall p a c b, all_chars (fun c => negb (p c)) a = true -> p c = true -> split_at p (a ++ String c b) = (a, Some b).
Proof. intros p. induction a as [|x a IH]; intros c b H C; cbn in *; [now rewrite C|]. apply andb_true_iff in H as [H1 H2]. destruct (p x); [discriminate|]. now rewrite IH. Qed.
Lemma split_inv : forall p s, match split_at p s with
  | (a, None) => a = s
  | (a, Some b) => exists c, p c = true /\ s = a ++ String c b
  end.
Proof.
  intros p. induction s as [|c s IH]; [reflexivity|]. cbn. destruct (p c) eqn:E; [exists c; now split|]. destruct (split_at p s) as [a [b|]].
  - destruct IH as (x & X & ->). now exists x.
  - now subst.
Qed.
Lemma numeral_not : forall (p : ascii -> bool) s, (forall c, p c = true -> is_digit c = false) -> numeral s -> all_chars (fun c => negb (p c)) s = true.
Proof. intros p s P N. apply digit_not; [assumption|now apply numeral_iff]. Qed.

Lemma point_digit : forall c, Ascii.eqb "." c = true -> is_digit c = false.
Proof. intros c E. apply Ascii.eqb_eq in E. now subst. Qed.
Lemma decimal_iff : forall s, lex_decimal s = true <-> decimal_literal s.
Proof.
  assert (U : forall n, (match split_at (Ascii.eqb ".") n with
      | (a, None) => digits a
      | (a, Some b) => all_chars is_digit a && all_chars is_digit b && negb (seqb a "" && seqb b "")
      end) = true <-> (n <> "" /\ numeral n \/ exists a b, n = a ++ "." ++ b /\ numeral a /\ numeral b /\ (a <> "" \/ b <> ""))).
  { intros n. split.
    - pose proof (split_inv (Ascii.eqb ".") n) as S. destruct (split_at (Ascii.eqb ".") n) as [a [b|]].
      + destruct S as (c & C & ->). apply Ascii.eqb_eq in C as <-. rewrite !andb_true_iff, !numeral_iff, negb_true_iff. intros [[A B] E]. right. exists a, b.
        repeat split; auto. destruct a; [right; intros ->; discriminate|left; discriminate].
      + subst. rewrite digits_iff. now left.
    - intros [[N0 N]|(a & b & -> & A & B & E)].
      + rewrite split_none; [now apply digits_iff|]. apply numeral_not; [exact point_digit|exact N].
      + cbn [append]. rewrite split_some; [|apply numeral_not; [exact point_digit|exact A]|reflexivity].
        rewrite !andb_true_iff, !numeral_iff, negb_true_iff. repeat split; auto. apply not_true_is_false. intros F. apply andb_true_iff in F as [F1 F2].
        apply String.eqb_eq in F1, F2. subst. destruct E as [E|E]; now apply E. }
  intros s. unfold lex_decimal. rewrite U. clear U. split.
  - intros H. destruct s as [|c t]; [destruct H as [[H _]|(a & b & E & _)]; [now contradiction H|destruct a; discriminate]|]. cbn [unsigned] in H.
    destruct (Ascii.eqb_spec c "-") as [->|M]; [|destruct (Ascii.eqb_spec c "+") as [->|P]]; cbn [orb] in H.
    + exists "-", t. cbn. repeat split; auto.
    + exists "+", t. cbn. repeat split; auto.
    + exists "", (String c t). cbn. repeat split; auto.
  - intros (sg & n & -> & [<-|[<-|[<-|[]]]] & H); cbn [append unsigned]; try exact H.
    assert (E : unsigned n = n); [|now rewrite E]. destruct H as [[N0 N]|(a & b & -> & A & B & E)]; [apply (digit_head n N0 N)|].
    destruct a as [|c a]; [reflexivity|]. cbn. apply numeral_cons in A as [D _]. unfold digit in D.
    destruct (Ascii.eqb_spec c "-") as [->|_]; [cbn in D; lia|]. destruct (Ascii.eqb_spec c "+") as [->|_]; [cbn in D; lia|]. reflexivity.
Qed.

Definition is_e (c : ascii) : bool := Ascii.eqb c "e" || Ascii.eqb c "E".
Lemma chars_app : forall p a b, all_chars p (a ++ b) = all_chars p a && all_chars p b.
Proof. intros p. induction a as [|c a IH]; intros b; [reflexivity|]. cbn. now rewrite IH, andb_assoc. Qed.
Lemma decimal_not : forall (p : ascii -> bool) s, (forall c, p c = true -> is_digit c = false) -> p "+"%char = false -> p "-"%char = false -> p "."%char = false ->
  decimal_literal s -> all_chars (fun c => negb (p c)) s = true.
Proof.
  intros p s P P1 P2 P3 (sg & n & -> & S & H). rewrite chars_app. apply andb_true_iff. split.
  - destruct S as [<-|[<-|[<-|[]]]]; cbn; [reflexivity|now rewrite P1|now rewrite P2].
  - destruct H as [[_ N]|(a & b & -> & A & B & _)]; [now apply numeral_not|]. rewrite !chars_app. cbn [all_chars]. rewrite P3.
    now rewrite (numeral_not p a P A), (numeral_not p b P B).
Qed.
Lemma e_digit : forall c, is_e c = true -> is_digit c = false.
Proof. intros c E. apply orb_true_iff in E as [E|E]; apply Ascii.eqb_eq in E; now subst. Qed.
Lemma double_iff : forall s, lex_double s = true <-> double_literal s.
Proof.
  intros s. unfold lex_double, double_literal. fold is_e. change (fun c => Ascii.eqb c "e" || Ascii.eqb c "E") with is_e. rewrite orb_true_iff.
  assert (I : existsb (seqb s) ["INF"; "-INF"; "NaN"] = true <-> In s ["INF"; "-INF"; "NaN"]).
  { rewrite existsb_exists. split; [intros (x & X & E); apply String.eqb_eq in E; now subst|]. intros H. exists s. split; [assumption|apply String.eqb_refl]. }
  rewrite I. clear I. split; (intros [H|H]; [now left|right]).
  - pose proof (split_inv is_e s) as S. destruct (split_at is_e s) as [a [b|]].
    + destruct S as (c & C & ->). apply andb_true_iff in H as [A B]. right. exists a, (String c ""), b, (signed b). split; [reflexivity|]. split.
      * apply orb_true_iff in C as [C|C]; apply Ascii.eqb_eq in C; subst; cbn; auto.
      * split; [now apply decimal_iff|now apply integer_iff].
    + subst. left. now apply decimal_iff.
  - destruct H as [D|(a & e & b & z & -> & E & A & B)].
    + rewrite split_none; [now apply decimal_iff|]. apply decimal_not; auto. exact e_digit.
    + assert (N : all_chars (fun c => negb (is_e c)) a = true) by (apply decimal_not; auto; exact e_digit).
      apply decimal_iff in A. apply integer_iff in B as [B _].
      destruct E as [<-|[<-|[]]]; cbn [append]; rewrite split_some by auto; now rewrite A, B.
Qed.

(** ** Dates *)
Lemma number_iff : forall n acc s z rest, number n acc s = Some (z, rest) <->
  exists d, s = d ++ rest /\ String.length d = n /\ numeral d /\ z = val acc d.
Proof.
  induction n as [|n IH]; intros acc s z rest; cbn [number].
  - split.
    + intros H. injection H as <- <-. exists "". repeat split; auto. constructor.
    + intros ([|c d] & -> & L & _ & ->); [reflexivity|discriminate].
  - destruct s as [|c t].
    + split; [discriminate|]. intros ([|c d] & E & L & _); discriminate.
    + destruct (digit_of c) as [v|] eqn:D.
      * apply digit_val in D as [-> D]. rewrite IH. split.
        -- intros (d & -> & <- & N & ->). exists (String c d). repeat split; auto. now apply numeral_cons.
        -- intros ([|x d] & E & L & N & ->); [discriminate|]. injection E as <- ->. injection L as <-. apply numeral_cons in N as [_ N]. now exists d.
      * split; [discriminate|]. intros ([|x d] & E & L & N & _); [discriminate|]. injection E as <- _. apply numeral_cons in N as [N _]. rewrite (digit_some _ N) in D. discriminate.
Qed.
Lemma number_app : forall n d rest, String.length d = n -> numeral d -> number n 0 (d ++ rest) = Some (value d, rest).
Proof. intros n d rest L N. apply number_iff. now exists d. Qed.
Lemma literal_iff : forall c s t, literal c s = Some t <-> s = String c t.
Proof.
  intros c [|x s] t; cbn; [split; discriminate|]. destruct (Ascii.eqb_spec c x) as [->|N].
  - split; [intros H; now injection H as ->|intros H; now injection H as ->].
  - split; [discriminate|]. intros H. injection H as -> _. now contradiction N.
Qed.

Lemma zone_iff : forall s, lex_zone s = true <-> zone_literal s.
Proof.
  intros s. unfold zone_literal. destruct s as [|c t]; [split; [now left|reflexivity]|]. cbn [lex_zone]. rewrite orb_true_iff, !andb_true_iff, orb_true_iff, !Ascii.eqb_eq, String.eqb_eq. split.
  - intros [[-> ->]|[C H]]; [now right; left|]. right. right. destruct (number 2 0 t) as [[h t1]|] eqn:N1; [|discriminate]. apply number_iff in N1 as (hs & -> & L1 & D1 & ->).
    destruct (literal ":" t1) as [t2|] eqn:N2; [|discriminate]. apply literal_iff in N2 as ->.
    destruct (number 2 0 t2) as [[m t3]|] eqn:N3; [|discriminate]. apply number_iff in N3 as (ms & -> & L2 & D2 & ->).
    apply andb_true_iff in H as [E H]. apply String.eqb_eq in E as ->. exists (String c ""), hs, ms. rewrite sapp_nil. split; [reflexivity|]. split; [destruct C; subst; cbn; auto|].
    split; [now split|]. split; [now split|]. apply orb_true_iff in H as [H|H]; apply andb_true_iff in H as [H1 H2].
    + left. apply Z.ltb_lt in H1, H2. change (value hs) with (val 0 hs). change (value ms) with (val 0 ms). lia.
    + right. apply Z.eqb_eq in H1, H2. now split.
  - intros [H|[H|(sg & h & m & E & S & [L1 N1] & [L2 N2] & H)]]; [discriminate|injection H as -> ->; left; now split|].
    right. assert (X : In c ["+"; "-"]%char /\ t = h ++ ":" ++ m). { destruct S as [<-|[<-|[]]]; cbn in E; injection E as -> ->; cbn; auto. }
    destruct X as [C ->]. split; [destruct C as [<-|[<-|[]]]; auto|]. rewrite number_app by assumption. cbn [append literal]. rewrite Ascii.eqb_refl.
    assert (E2 : number 2 0 m = Some (value m, "")) by (rewrite <- (sapp_nil m) at 1; now apply number_app). rewrite E2. unfold seqb. cbn [andb String.eqb]. apply orb_true_iff.
    destruct H as [[H1 H2]|[-> ->]]; [left|now right]. apply andb_true_iff. split; apply Z.ltb_lt; lia.
Qed.
Lemma zone_head : forall c t, zone_literal (String c t) -> is_digit c = false /\ Ascii.eqb c "." = false.
Proof.
  intros c t [H|[H|(sg & h & m & E & S & _)]]; [discriminate|injection H as -> _; now split|]. destruct S as [<-|[<-|[]]]; cbn in E; injection E as -> _; now split.
Qed.
Lemma skip_digits_app : forall f z, numeral f -> zone_literal z -> skip_digits (f ++ z) = z.
Proof.
  induction f as [|c f IH]; intros z N Z0; cbn [append].
  - destruct z as [|c z]; [reflexivity|]. cbn. now rewrite (proj1 (zone_head _ _ Z0)).
  - apply numeral_cons in N as [D N]. cbn. apply digit_iff in D as ->. now apply IH.
Qed.
Lemma skip_split : forall t, exists f, t = f ++ skip_digits t /\ numeral f.
Proof.
  induction t as [|c t (f & E & N)]; [exists ""; split; [reflexivity|constructor]|]. cbn. destruct (is_digit c) eqn:D; [|exists ""; split; [reflexivity|constructor]].
  exists (String c f). cbn. rewrite <- E. split; [reflexivity|]. apply numeral_cons. split; [now apply digit_iff|assumption].
Qed.
Definition fraction (fr : string) : Prop := fr = "" \/ exists f, fr = "." ++ f /\ f <> "" /\ numeral f.
Lemma after_iff : forall s, lex_after_seconds s = true <-> exists fr zone, s = fr ++ zone /\ fraction fr /\ zone_literal zone.
Proof.
  intros s. split.
  - destruct s as [|c t]; [intros _; exists "", ""; split; [reflexivity|]; split; now left|]. cbn [lex_after_seconds]. destruct (Ascii.eqb_spec c ".") as [->|N].
    + destruct t as [|d t]; [discriminate|]. rewrite andb_true_iff. intros [D H]. destruct (skip_split t) as (f & E & F). exists ("." ++ String d f), (skip_digits t).
      split; [cbn; now rewrite <- E|]. split; [|now apply zone_iff]. right. exists (String d f). repeat split; [discriminate|]. apply numeral_cons. split; [now apply digit_iff|assumption].
    + intros H. exists "", (String c t). split; [reflexivity|]. split; [now left|now apply zone_iff].
  - intros (fr & zone & -> & [->|(f & -> & F0 & F)] & H).
    + cbn [append]. destruct zone as [|c t]; [reflexivity|]. cbn [lex_after_seconds]. rewrite (proj2 (zone_head _ _ H)). now apply zone_iff.
    + cbn. destruct f as [|d f]; [now contradiction F0|]. cbn. apply numeral_cons in F as [D F]. apply digit_iff in D as ->. rewrite skip_digits_app by assumption.
      now apply zone_iff.
Qed.
Lemma zero_iff : forall fr zone, fraction fr -> zone_literal zone ->
  (zero_fraction (fr ++ zone) = true <-> (fr = "" \/ exists f, fr = "." ++ f /\ value f = 0%Z)).
Proof.
  intros fr zone [->|(f & -> & F0 & F)] H.
  - cbn [append]. split; [now left|]. intros _. destruct zone as [|c t]; [reflexivity|]. cbn. now rewrite (proj2 (zone_head _ _ H)).
  - cbn. rewrite skip_digits_app by assumption. rewrite String.eqb_eq. split.
    + intros E. right. exists f. split; [reflexivity|]. apply value_zeros; [assumption|]. clear F0.
      assert (X : forall f, numeral f -> forall z', z' = skip_zeros (f ++ zone) -> String.length z' <= String.length zone -> all_zeros f = true).
      { clear -H. induction f as [|c f IH]; intros N z' E L; [reflexivity|]. apply numeral_cons in N as [D N]. cbn in E. unfold all_zeros. cbn [all_chars]. rewrite (Ascii.eqb_sym c) in *.
        destruct (Ascii.eqb "0" c) eqn:C; [|exfalso; subst z'; cbn in L; assert (String.length (f ++ zone) = String.length f + String.length zone) by (clear; induction f; cbn; congruence); lia].
        cbn [andb]. eapply IH; eauto. }
      eapply X; [assumption|exact E|lia].
    + intros [D|(g & E & V)]; [discriminate|]. injection E as <-. apply value_zeros in V; [|assumption]. clear F F0. revert V. unfold all_zeros.
      induction f as [|c f IH]; cbn; intros V.
      * destruct zone as [|c t]; [reflexivity|]. cbn. destruct (Ascii.eqb_spec c "0") as [->|_]; [|reflexivity]. destruct (zone_head _ _ H) as [X _]. discriminate.
      * apply andb_true_iff in V as [C V]. rewrite C. now apply IH.
Qed.

Lemma days_iff : forall y m, xsd_days y m = month_days y m.
Proof.
  intros y m. unfold xsd_days, month_days, xsd_leap. destruct (Z.eqb_spec m 2) as [->|N]; [|reflexivity]. cbn.
  destruct (y mod 4 =? 0)%Z eqn:E4, (y mod 100 =? 0)%Z eqn:E100, (y mod 400 =? 0)%Z eqn:E400; cbn; try reflexivity.
  all: apply Z.eqb_eq in E400; apply Z.eqb_neq in E4; exfalso; apply E4; apply Z.mod_divide in E400; [|lia]; apply Z.mod_divide; [lia|];
    destruct E400 as [k ->]; exists (k * 100)%Z; lia.
Qed.
Lemma datetime_iff : forall s, lex_datetime s = true <-> datetime_literal s.
Proof.
  intros s. unfold lex_datetime, datetime_literal. split.
  - intros H.
    destruct (number 4 0 s) as [[y s1]|] eqn:N; [|discriminate H]. apply number_iff in N as (ys & -> & Ly & Ny & ->).
    destruct (literal "-" s1) as [s2|] eqn:N; [|discriminate H]. apply literal_iff in N as ->.
    destruct (number 2 0 s2) as [[mo s3]|] eqn:N; [|discriminate H]. apply number_iff in N as (mos & -> & Lmo & Nmo & ->).
    destruct (literal "-" s3) as [s4|] eqn:N; [|discriminate H]. apply literal_iff in N as ->.
    destruct (number 2 0 s4) as [[d s5]|] eqn:N; [|discriminate H]. apply number_iff in N as (ds & -> & Ld & Nd & ->).
    destruct (literal "T" s5) as [s6|] eqn:N; [|discriminate H]. apply literal_iff in N as ->.
    destruct (number 2 0 s6) as [[h s7]|] eqn:N; [|discriminate H]. apply number_iff in N as (hs & -> & Lh & Nh & ->).
    destruct (literal ":" s7) as [s8|] eqn:N; [|discriminate H]. apply literal_iff in N as ->.
    destruct (number 2 0 s8) as [[mi s9]|] eqn:N; [|discriminate H]. apply number_iff in N as (mis & -> & Lmi & Nmi & ->).
    destruct (literal ":" s9) as [s10|] eqn:N; [|discriminate H]. apply literal_iff in N as ->.
    destruct (number 2 0 s10) as [[se s11]|] eqn:N; [|discriminate H]. apply number_iff in N as (ses & -> & Lse & Nse & ->).
    apply andb_true_iff in H as [H A]. apply after_iff in A as (fr & zone & -> & F & Zn).
    apply andb_true_iff in H as [H T]. apply andb_true_iff in H as [H D2]. apply andb_true_iff in H as [H D1]. apply andb_true_iff in H as [H M2]. apply andb_true_iff in H as [Y M1].
    rewrite days_iff in D2. rewrite Z.leb_le in *. exists ys, mos, ds, hs, mis, ses, fr, zone. unfold two. change value with (val 0).
    split; [reflexivity|]. repeat (split; [now auto|]).
    apply orb_true_iff in T as [T|T].
    + left. apply andb_true_iff in T as [T T3]. apply andb_true_iff in T as [T1 T2]. rewrite Z.leb_le in *. auto.
    + right. apply andb_true_iff in T as [T T4]. apply andb_true_iff in T as [T T3]. apply andb_true_iff in T as [T1 T2]. rewrite Z.eqb_eq in *.
      apply zero_iff in T4; auto.
  - intros (ys & mos & ds & hs & mis & ses & fr & zone & -> & Ly & Ny & [Lmo Nmo] & [Ld Nd] & [Lh Nh] & [Lmi Nmi] & [Lse Nse] & (Y & M & D) & F & Zn & T).
    rewrite number_app by assumption. cbn [append literal]. rewrite Ascii.eqb_refl.
    rewrite number_app by assumption. cbn [append literal]. rewrite Ascii.eqb_refl.
    rewrite number_app by assumption. cbn [append literal]. rewrite Ascii.eqb_refl.
    rewrite number_app by assumption. cbn [append literal]. rewrite Ascii.eqb_refl.
    rewrite number_app by assumption. cbn [append literal]. rewrite Ascii.eqb_refl.
    rewrite number_app by assumption. apply andb_true_iff. split; [|apply after_iff; now exists fr, zone]. rewrite days_iff.
    repeat (apply andb_true_iff; split); try (apply Z.leb_le; lia). apply orb_true_iff. destruct T as [(T1 & T2 & T3)|(T1 & T2 & T3 & T4)]; [left|right].
    + repeat (apply andb_true_iff; split); apply Z.leb_le; lia.
    + apply zero_iff with (zone := zone) in T4; [|assumption|assumption]. rewrite T1, T2, T3, T4. reflexivity.
Qed.

(** ** All types *)
Lemma numeral_plain : forall s, numeral s -> plain s.
Proof. intros s N. apply digits_plain. now apply numeral_iff. Qed.
Lemma integer_plain : forall s z, integer_literal s z -> plain s.
Proof.
  intros s z (sg & n & -> & _ & N & H). apply plain_app; [|now apply numeral_plain]. destruct H as [[[<-|[<-|[]]] _]|[-> _]]; reflexivity.
Qed.
Lemma decimal_plain : forall s, decimal_literal s -> plain s.
Proof.
  intros s (sg & n & -> & S & H). apply plain_app; [destruct S as [<-|[<-|[<-|[]]]]; reflexivity|].
  destruct H as [[_ N]|(a & b & -> & A & B & _)]; [now apply numeral_plain|]. apply plain_app; [now apply numeral_plain|]. apply plain_app; [reflexivity|now apply numeral_plain].
Qed.
Lemma literal_plain : forall t s, literal_of t s -> match t with SString | SEnum _ => True | _ => plain s end.
Proof.
  intros t s H. destruct t; cbn in H; try exact I.
  - destruct H as [z H]. eapply integer_plain; eauto.
  - destruct H as [z [H _]]. eapply integer_plain; eauto.
  - destruct H as [z [H _]]. eapply integer_plain; eauto.
  - destruct H as [<-|[<-|[<-|[<-|[]]]]]; reflexivity.
  - destruct H as [H|[H|(a & e & b & z & -> & E & A & B)]].
    + destruct H as [<-|[<-|[<-|[]]]]; reflexivity.
    + now apply decimal_plain.
    + apply plain_app; [now apply decimal_plain|]. apply plain_app; [destruct E as [<-|[<-|[]]]; reflexivity|eapply integer_plain; eauto].
  - now apply decimal_plain.
  - destruct H as (y & mo & d & h & mi & se & fr & zone & -> & _ & Ny & [_ Nmo] & [_ Nd] & [_ Nh] & [_ Nmi] & [_ Nse] & _ & F & Zn & _).
    repeat (apply plain_app; [now apply numeral_plain|]; apply plain_app; [reflexivity|]). apply plain_app; [now apply numeral_plain|]. apply plain_app.
    + destruct F as [->|(f & -> & _ & F)]; [reflexivity|]. apply plain_app; [reflexivity|now apply numeral_plain].
    + destruct Zn as [->|[->|(sg & hh & mm & -> & S & [_ A] & [_ B] & _)]]; try reflexivity. apply plain_app; [destruct S as [<-|[<-|[]]]; reflexivity|].
      apply plain_app; [now apply numeral_plain|]. apply plain_app; [reflexivity|now apply numeral_plain].
Qed.
Lemma in_existsb : forall s l, existsb (seqb s) l = true <-> In s l.
Proof. intros s l. rewrite existsb_exists. split; [intros (x & X & E); apply String.eqb_eq in E; now subst|]. intros H. exists s. split; [assumption|apply String.eqb_refl]. Qed.

Theorem simple_iff : forall t s, simple_ok t s = true <-> allowed t s.
Proof.
  intros t s.
  assert (G : forall (lex : string -> bool) (P : string -> Prop), (forall x, lex x = true <-> P x) -> (forall x, P x -> plain x) ->
    (lex (trim s) = true <-> exists l core r, s = l ++ core ++ r /\ blanks l /\ blanks r /\ P core)).
  { intros lex P H Pl. split.
    - intros L. destruct (trim_around s) as (l & r & E & A & B). exists l, (trim s), r. apply blanks_iff in A, B. apply H in L. auto.
    - intros (l & core & r & -> & A & B & C). apply blanks_iff in A, B. rewrite trim_app by eauto. now apply H. }
  destruct t; cbn [simple_ok allowed]; try (apply G; [intros x|intros x H; eapply (literal_plain _ x H)]); cbn [literal_of].
  - split; auto.
  - split; [intros H; exists (signed x); now apply integer_iff|intros [z H]; now apply integer_iff in H].
  - split.
    + intros H. assert (I : lex_integer x = true) by (unfold lex_nonneg in H; now apply andb_true_iff in H as [H _]). exists (signed x). split; [now apply integer_iff|].
      now apply (signed_nonneg x I).
    + intros (z & H & Z0). apply integer_iff in H as [I ->]. now apply (signed_nonneg x I).
  - split.
    + intros H. assert (I : lex_integer x = true) by (unfold lex_positive in H; now apply andb_true_iff in H as [[H _]%andb_true_iff _]). exists (signed x). split; [now apply integer_iff|].
      now apply (signed_nonneg x I).
    + intros (z & H & Z0). apply integer_iff in H as [I ->]. now apply (signed_nonneg x I).
  - apply in_existsb.
  - apply double_iff.
  - apply decimal_iff.
  - apply datetime_iff.
  - apply in_existsb.
Qed.
