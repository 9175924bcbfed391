(** The reader of JSON texts decides the grammar. *)
From Verif Require Import Base BaseFacts LexFacts XmlTextSpec XmlText XmlTextFacts JsonTextSpec JsonText.
Set Implicit Arguments.
Local Open Scope string_scope.
Notation slen := XmlTextFacts.slen.

Ltac chars_cases c := destruct c as [[] [] [] [] [] [] [] []].

(** ** Numbers *)

Lemma get_digits_ok : forall d r, digits d -> stops digit r -> get_digits (d ++ r) = Some (d, r).
Proof. intros d r [N A] R. unfold get_digits. rewrite span_app by assumption. destruct d; [congruence|reflexivity]. Qed.
Lemma get_digits_sound : forall s d r, get_digits s = Some (d, r) -> s = d ++ r /\ digits d /\ stops digit r.
Proof.
  intros s d r H. unfold get_digits in H. destruct (span digit s) as [x y] eqn:E. apply span_sound in E as (-> & A & B).
  destruct x; cbn [is_empty] in H; [discriminate|]. injection H as <- <-. repeat split; try assumption. discriminate.
Qed.
(** What can go on a number *)
Definition numeric (c : ascii) : bool := digit c || Ascii.eqb c "." || Ascii.eqb c "e" || Ascii.eqb c "E".
Lemma numeric_no : forall r, stops numeric r -> stops digit r /\ eat "." r = None /\ get_exponent r = Some (0%Z, r).
Proof.
  intros [|c r] H; [repeat split|]. cbn in H. unfold numeric in H. apply orb_false_iff in H as [H E2]. apply orb_false_iff in H as [H E1]. apply orb_false_iff in H as [D P].
  repeat split; [exact D| |]; cbn; [now rewrite P|now rewrite E1, E2].
Qed.
Lemma first_digit : forall d r, digits d -> exists c t, d ++ r = String c t /\ digit c = true.
Proof. intros [|c d] r [N A]; [congruence|]. apply all_inv in A as [A _]. now exists c, (d ++ r). Qed.
Lemma digit_not : forall c e, digit c = true -> digit e = false -> Ascii.eqb c e = false.
Proof. intros c e D N. apply Ascii.eqb_neq. intros ->. congruence. Qed.
Lemma eat_digits : forall e d r, digits d -> digit e = false -> eat e (d ++ r) = None.
Proof. intros e d r D N. destruct (first_digit r D) as (c & t & -> & C). cbn. now rewrite digit_not. Qed.

Lemma get_fraction_ok : forall fr f r, fraction fr f -> stops digit r -> eat "." r = None -> get_fraction (fr ++ r) = Some (f, r).
Proof. intros fr f r [|g D] S N; unfold get_fraction; cbn [append]; [now rewrite N|]. rewrite eat_ok. now apply get_digits_ok. Qed.
Lemma get_exponent_ok : forall ex x r, exponent ex x -> stops numeric r -> get_exponent (ex ++ r) = Some (x, r).
Proof.
  intros ex x r H R. apply numeric_no in R as (S & _ & E). destruct H as [|c d C D|c d C D|c d C D]; [exact E| | |];
    (unfold get_exponent; cbn [append]; assert (Ascii.eqb c "e" || Ascii.eqb c "E" = true) as -> by (destruct C as [-> | ->]; reflexivity)).
  - rewrite !eat_digits by (try assumption; reflexivity). now rewrite get_digits_ok.
  - cbn [eat append Ascii.eqb Bool.eqb]. now rewrite get_digits_ok.
  - cbn [append]. rewrite eat_ok. now rewrite get_digits_ok.
Qed.
Lemma get_number_ok : forall s m e r, is_number s m e -> stops numeric r -> get_number (s ++ r) = Some (DNum m e, r).
Proof.
  intros s m e r (neg & i & fr & f & ex & x & [Di W] & F & X & -> & -> & ->) R.
  assert (Sx : stops digit (ex ++ r) /\ eat "." (ex ++ r) = None).
  { destruct X as [|c d C _|c d C _|c d C _]; [apply numeric_no in R as (? & ? & _); now split| | |]; destruct C as [-> | ->]; now split. }
  assert (Sf : stops digit (fr ++ ex ++ r)) by (destruct F; [apply Sx|reflexivity]).
  assert (E : (seqb i "0" || negb (prefix "0" i) = true)%bool) by (destruct W as [-> | ->]; [reflexivity|apply orb_true_r]).
  unfold get_number. rewrite !sapp_assoc. destruct neg; cbn [append].
  - rewrite eat_ok, get_digits_ok, E by assumption. rewrite (get_fraction_ok _ F (proj1 Sx) (proj2 Sx)). now rewrite (get_exponent_ok _ X R).
  - rewrite eat_digits by (assumption || reflexivity). rewrite get_digits_ok, E by assumption. rewrite (get_fraction_ok _ F (proj1 Sx) (proj2 Sx)). now rewrite (get_exponent_ok _ X R).
Qed.
Lemma get_fraction_sound : forall s f r, get_fraction s = Some (f, r) -> exists fr, s = fr ++ r /\ fraction fr f.
Proof.
  intros s f r H. unfold get_fraction in H. destruct (eat "." s) as [t|] eqn:E.
  - apply eat_sound in E as ->. apply get_digits_sound in H as (-> & D & _). exists ("." ++ f). split; [reflexivity|now constructor].
  - injection H as <- <-. exists "". split; [reflexivity|constructor].
Qed.
Lemma get_exponent_sound : forall s x r, get_exponent s = Some (x, r) -> exists ex, s = ex ++ r /\ exponent ex x.
Proof.
  intros [|c s] x r H; [injection H as <- <-; exists ""; split; [reflexivity|constructor]|]. unfold get_exponent in H.
  destruct (Ascii.eqb c "e" || Ascii.eqb c "E")%bool eqn:C; [|injection H as <- <-; exists ""; split; [reflexivity|constructor]].
  assert (K : c = "e"%char \/ c = "E"%char) by (apply orb_true_iff in C as [C|C]; apply Ascii.eqb_eq in C; auto).
  destruct (eat "-" s) as [t|] eqn:E.
  - apply eat_sound in E as ->. destruct (get_digits t) as [[d u]|] eqn:G; [|discriminate]. injection H as <- <-. apply get_digits_sound in G as (-> & D & _).
    exists (String c ("-" ++ d)). split; [reflexivity|now constructor].
  - destruct (eat "+" s) as [t|] eqn:E'.
    + apply eat_sound in E' as ->. destruct (get_digits t) as [[d u]|] eqn:G; [|discriminate]. injection H as <- <-. apply get_digits_sound in G as (-> & D & _).
      exists (String c ("+" ++ d)). split; [reflexivity|now constructor].
    + destruct (get_digits s) as [[d u]|] eqn:G; [|discriminate]. injection H as <- <-. apply get_digits_sound in G as (-> & D & _).
      exists (String c d). split; [reflexivity|now constructor].
Qed.
Lemma get_number_sound : forall s d r, get_number s = Some (d, r) -> exists x m e, s = x ++ r /\ d = DNum m e /\ is_number x m e.
Proof.
  intros s d r H. unfold get_number in H.
  assert (exists (neg : bool) t, s = (if neg then "-" else "") ++ t /\ match eat "-" s with Some t => (true, t) | None => (false, s) end = (neg, t)) as (neg & t & -> & K).
  { destruct (eat "-" s) as [t|] eqn:E; [apply eat_sound in E as ->; now exists true, t|now exists false, s]. }
  rewrite K in H. clear K. destruct (get_digits t) as [[i s2]|] eqn:G; [|discriminate]. apply get_digits_sound in G as (-> & Di & _).
  destruct (seqb i "0" || negb (prefix "0" i))%bool eqn:W; [|discriminate]. destruct (get_fraction s2) as [[f s3]|] eqn:F; [|discriminate].
  destruct (get_exponent s3) as [[x s4]|] eqn:X; [|discriminate]. injection H as <- <-. apply get_fraction_sound in F as (fr & -> & F). apply get_exponent_sound in X as (ex & -> & X).
  exists ((if neg then "-" else "") ++ i ++ fr ++ ex). do 2 eexists. split; [now rewrite !sapp_assoc|]. split; [reflexivity|]. exists neg, i, fr, f, ex, x.
  repeat split; try assumption; try apply Di. apply orb_true_iff in W as [W|W]; [left; now apply String.eqb_eq|right; now apply negb_true_iff].
Qed.

(** ** Strings *)

Lemma unit_length : forall h n, code_unit h = Some n -> exists a b c d, h = String a (String b (String c (String d ""))).
Proof.
  intros h n H. unfold code_unit in H. destruct (String.length h =? 4)%nat eqn:E; [|discriminate]. apply Nat.eqb_eq in E.
  destruct h as [|a [|b [|c [|d [|e h]]]]]; try discriminate E. now exists a, b, c, d.
Qed.
Lemma get_unit_ok : forall h n r, code_unit h = Some n -> get_unit ("\u" ++ h ++ r) = Some (n, r).
Proof. intros h n r H. destruct (unit_length _ H) as (a & b & c & d & ->). cbn [append get_unit]. cbn [Ascii.eqb Bool.eqb andb]. now rewrite H. Qed.
Lemma get_unit_sound : forall s n r, get_unit s = Some (n, r) -> exists h, s = "\u" ++ h ++ r /\ code_unit h = Some n.
Proof.
  intros s n r H. destruct s as [|a [|b [|c [|d [|e [|f t]]]]]]; try discriminate H. cbn [get_unit] in H.
  destruct (Ascii.eqb a "\" && Ascii.eqb b "u")%bool eqn:E; [|discriminate]. apply andb_true_iff in E as [E1 E2]. apply Ascii.eqb_eq in E1, E2. subst a b.
  destruct (code_unit _) as [k|] eqn:U; [|discriminate]. injection H as <- <-. eexists. split; [|exact U]. reflexivity.
Qed.
Lemma get_unit_not : forall c t, c <> "\"%char -> get_unit (String c t) = None.
Proof. intros c t N. destruct t as [|b [|d [|e [|f [|g t]]]]]; try reflexivity. cbn [get_unit]. now rewrite (eqb_no N). Qed.
Lemma get_unit_other : forall c t, c <> "u"%char -> get_unit (String "\" (String c t)) = None.
Proof. intros c t N. destruct t as [|d [|e [|f [|g t]]]]; try reflexivity. cbn [get_unit]. now rewrite (eqb_no N), andb_false_r. Qed.
Lemma unescaped_quote : forall c, unescaped c = true -> Ascii.eqb c """" = false /\ c <> "\"%char.
Proof. intros c H. split; [|intros ->; discriminate]. apply Ascii.eqb_neq. intros ->. discriminate. Qed.

Lemma get_chars_ok : forall raw v, chars raw v -> forall n r, (String.length raw < n)%nat -> get_chars n (raw ++ String """" r) = Some (v, r).
Proof.
  induction 1 as [|c raw v U C IH|c x raw v E C IH|h a raw v U Hi Lo C IH|h a h' b raw v U Hi U' Lo C IH]; intros n r L; destruct n as [|n]; try (exfalso; lia).
  - reflexivity.
  - cbn [append get_chars]. rewrite (proj1 (unescaped_quote _ U)), U, IH; [reflexivity|cbn [String.length] in L; lia].
  - cbn [append]. cbn [get_chars]. cbn [Ascii.eqb Bool.eqb unescaped]. change (unescaped "\") with false. cbn match.
    rewrite get_unit_other by (intros ->; discriminate E). rewrite E, IH; [reflexivity|cbn [String.length] in L; lia].
  - rewrite !sapp_assoc. cbn [get_chars]. pose proof (get_unit_ok h (raw ++ String """" r) U) as G. change ("\u" ++ h ++ raw ++ String """" r) with (String "\" (String "u" (h ++ raw ++ String """" r))) in *.
    cbn [Ascii.eqb Bool.eqb]. change (unescaped "\") with false. cbn match. rewrite G, Hi, Lo, IH; [reflexivity|]. rewrite !slen in L. cbn [String.length] in L. lia.
  - rewrite !sapp_assoc. cbn [get_chars]. pose proof (get_unit_ok h ("\u" ++ h' ++ raw ++ String """" r) U) as G. pose proof (get_unit_ok h' (raw ++ String """" r) U') as G'.
    remember ("\u" ++ h' ++ raw ++ String """" r) as t eqn:T. change ("\u" ++ h ++ t) with (String "\" (String "u" (h ++ t))) in *.
    cbn [Ascii.eqb Bool.eqb]. change (unescaped "\") with false. cbn match. rewrite G, Hi, G', Lo, IH; [reflexivity|]. rewrite !slen in L. cbn [String.length] in L. rewrite ?slen in L. lia.
Qed.
Lemma get_chars_sound : forall n s v r, get_chars n s = Some (v, r) -> exists raw, s = raw ++ String """" r /\ chars raw v.
Proof.
  induction n as [|n IH]; intros s v r H; [discriminate|]. destruct s as [|c t]; [discriminate|]. cbn [get_chars] in H.
  destruct (Ascii.eqb c """") eqn:Q. { apply Ascii.eqb_eq in Q as ->. injection H as <- <-. exists "". split; [reflexivity|constructor]. }
  destruct (unescaped c) eqn:U.
  { destruct (get_chars n t) as [[w s]|] eqn:G; [|discriminate]. injection H as <- <-. destruct (IH _ _ _ G) as (raw & -> & C). exists (String c raw). split; [reflexivity|now constructor]. }
  destruct (get_unit (String c t)) as [[a t1]|] eqn:G1.
  - apply get_unit_sound in G1 as (h & E & U1). destruct (high a) eqn:Hi.
    + destruct (get_unit t1) as [[b t2]|] eqn:G2; [|discriminate]. destruct (low b) eqn:Lo; [|discriminate]. destruct (get_chars n t2) as [[w s]|] eqn:G; [|discriminate]. injection H as <- <-.
      apply get_unit_sound in G2 as (h' & -> & U2). destruct (IH _ _ _ G) as (raw & -> & C). exists ("\u" ++ h ++ "\u" ++ h' ++ raw). split; [rewrite E; now rewrite !sapp_assoc|now apply CPair].
    + destruct (low a) eqn:Lo; [discriminate|]. destruct (get_chars n t1) as [[w s]|] eqn:G; [|discriminate]. injection H as <- <-. destruct (IH _ _ _ G) as (raw & -> & C).
      exists ("\u" ++ h ++ raw). split; [rewrite E; now rewrite !sapp_assoc|now apply CUnit].
  - destruct (Ascii.eqb c "\") eqn:E; [|discriminate]. apply Ascii.eqb_eq in E as ->. destruct t as [|e t]; [discriminate|]. destruct (escaped e) as [x|] eqn:E; [|discriminate].
    destruct (get_chars n t) as [[w s]|] eqn:G; [|discriminate]. injection H as <- <-. destruct (IH _ _ _ G) as (raw & -> & C). exists (String "\" (String e raw)). split; [reflexivity|now apply CEscaped].
Qed.
Lemma get_string_ok : forall s v r, is_string s v -> get_string (s ++ r) = Some (v, r).
Proof.
  intros s v r [raw w C]. unfold get_string. cbn [append]. rewrite eat_ok, sapp_assoc. cbn [append]. apply get_chars_ok; [assumption|]. rewrite slen. cbn. lia.
Qed.
Lemma get_string_sound : forall s v r, get_string s = Some (v, r) -> exists x, s = x ++ r /\ is_string x v.
Proof.
  intros s v r H. unfold get_string in H. destruct (eat """" s) as [t|] eqn:E; [|discriminate]. apply eat_sound in E as ->. apply get_chars_sound in H as (raw & -> & C).
  exists (String """" (raw ++ """")). split; [cbn; now rewrite sapp_assoc|now constructor].
Qed.

(** ** Values *)

Scheme value_m := Minimality for is_json_value Sort Prop
with items_m := Minimality for items Sort Prop
with members_m := Minimality for members Sort Prop.
Combined Scheme value_items_members from value_m, items_m, members_m.

(** The first character of a value *)
Definition starts (c : ascii) : bool :=
  digit c || existsb (Ascii.eqb c) ["-"; """"; "["; "{"; "t"; "f"; "n"]%char.
Lemma number_starts : forall s m e, is_number s m e -> exists c t, s = String c t /\ (digit c = true \/ c = "-"%char).
Proof.
  intros s m e (neg & i & fr & f & ex & x & [Di _] & _ & _ & -> & _). destruct (first_digit (fr ++ ex) Di) as (c & t & E & D). destruct neg; cbn.
  - exists "-"%char, (i ++ fr ++ ex). auto.
  - exists c, t. auto.
Qed.
Lemma value_starts : forall x d, is_json_value x d -> exists c t, x = String c t /\ starts c = true.
Proof.
  intros x d [| | |s m e N|s v S|w B|s l I|w B|s l I]; try (eexists _, _; split; reflexivity).
  - destruct (number_starts N) as (c & t & -> & [D| ->]); eexists _, _; (split; [reflexivity|]); [unfold starts; now rewrite D|reflexivity].
  - destruct S. eexists _, _; split; reflexivity.
Qed.
Lemma starts_white : forall c, starts c = true -> white c = false /\ Ascii.eqb c "]" = false /\ Ascii.eqb c "}" = false.
Proof. intros c; chars_cases c; intros H; try discriminate H; repeat split. Qed.
Lemma value_stops : forall x d r, is_json_value x d -> stops white (x ++ r).
Proof. intros x d r V. destruct (value_starts V) as (c & t & -> & S). cbn. now apply starts_white. Qed.
Lemma white_numeric : forall c, white c = true -> numeric c = false.
Proof. intros c; chars_cases c; intros H; try discriminate H; reflexivity. Qed.
Lemma stops_blank : forall w c t, blank w -> numeric c = false -> stops numeric (w ++ String c t).
Proof. intros [|b w] c t B N; [exact N|]. apply all_inv in B as [B _]. cbn. now apply white_numeric. Qed.
Lemma string_stops : forall k n r, is_string k n -> stops white (k ++ r).
Proof. intros k n r [raw v C]. reflexivity. Qed.
Lemma string_first : forall k n, is_string k n -> exists t, k = String """" t.
Proof. intros k n [raw v C]. eexists. reflexivity. Qed.
Lemma value_length : forall x d, is_json_value x d -> (1 <= String.length x)%nat.
Proof. intros x d V. destruct (value_starts V) as (c & t & -> & _). cbn. lia. Qed.

Lemma items_no_end : forall s l r, items s l -> eat "]" (skip (s ++ r)) = None.
Proof.
  intros s l r [w x d w' B V _|w x d w' s' l' B V _ _]; rewrite sapp_assoc, skip_app by (try assumption; rewrite ?sapp_assoc; eapply value_stops; eassumption);
    destruct (value_starts V) as (c & t & -> & S); cbn; now rewrite (proj1 (proj2 (starts_white _ S))).
Qed.
Lemma members_no_end : forall s l r, members s l -> eat "}" (skip (s ++ r)) = None.
Proof.
  intros s l r [w k n w1 w2 x d w' B K _ _ _ _|w k n w1 w2 x d w' s' l' B K _ _ _ _ _]; rewrite sapp_assoc, skip_app by (try assumption; rewrite ?sapp_assoc; eapply string_stops; eassumption);
    destruct (string_first K) as (t & ->); reflexivity.
Qed.
Lemma get_value_number : forall n s m e r, is_number s m e -> stops numeric r -> get_value (S n) (s ++ r) = Some (DNum m e, r).
Proof.
  intros n s m e r N R. rewrite <- (get_number_ok _ N R). destruct (number_starts N) as (c & t & -> & [D| ->]); [|reflexivity].
  cbn [append get_value]. rewrite !(digit_not c) by (assumption || reflexivity). reflexivity.
Qed.
Lemma skip_stop : forall s, stops white s -> skip s = s.
Proof. intros s H. exact (skip_app s (all_nil _) H). Qed.

Lemma get_value_ok :
  (forall x d, is_json_value x d -> forall n r, (2 * String.length x < n)%nat -> stops numeric r -> get_value n (x ++ r) = Some (d, r)) /\
  (forall s l, items s l -> forall n r, (2 * String.length s + 1 < n)%nat -> get_items n (s ++ String "]" r) = Some (l, r)) /\
  (forall s l, members s l -> forall n r, (2 * String.length s + 1 < n)%nat -> get_members n (s ++ String "}" r) = Some (l, r)).
Proof.
  apply value_items_members.
  - intros [|n] r L R; [exfalso; lia|]. reflexivity.
  - intros [|n] r L R; [exfalso; lia|]. reflexivity.
  - intros [|n] r L R; [exfalso; lia|]. reflexivity.
  - intros s m e N [|n] r L R; [exfalso; lia|]. now apply get_value_number.
  - intros s v S [|n] r L R; [exfalso; lia|]. pose proof (get_string_ok r S) as G. destruct (string_first S) as (t & ->). cbn [append get_value]. cbn [append] in G.
    rewrite Ascii.eqb_refl, G. reflexivity.
  - intros w B [|n] r L R; [exfalso; lia|]. rewrite sapp_assoc. cbn [append get_value Ascii.eqb Bool.eqb]. rewrite sapp_assoc. rewrite skip_app by (assumption || reflexivity). reflexivity.
  - intros s l I IH [|n] r L R; [exfalso; lia|]. rewrite sapp_assoc. cbn [append get_value Ascii.eqb Bool.eqb]. rewrite sapp_assoc. cbn [append].
    rewrite (items_no_end _ I), IH; [reflexivity|]. rewrite !slen in L. cbn [String.length] in L. rewrite ?slen in L. cbn [String.length] in L. lia.
  - intros w B [|n] r L R; [exfalso; lia|]. rewrite sapp_assoc. cbn [append get_value Ascii.eqb Bool.eqb]. rewrite sapp_assoc. rewrite skip_app by (assumption || reflexivity). reflexivity.
  - intros s l I IH [|n] r L R; [exfalso; lia|]. rewrite sapp_assoc. cbn [append get_value Ascii.eqb Bool.eqb]. rewrite sapp_assoc. cbn [append].
    rewrite (members_no_end _ I), IH; [reflexivity|]. rewrite !slen in L. cbn [String.length] in L. rewrite ?slen in L. cbn [String.length] in L. lia.
  - intros w x d w' B V IH B' [|n] r L; [exfalso; lia|]. rewrite !slen in L. cbn [get_items]. rewrite !sapp_assoc. rewrite skip_app by (try assumption; eapply value_stops; eassumption).
    rewrite IH; [|lia|apply stops_blank; [assumption|reflexivity]]. rewrite skip_app by (assumption || reflexivity). reflexivity.
  - intros w x d w' s l B V IH B' I IHs [|n] r L; [exfalso; lia|]. rewrite !slen in L. cbn [String.length append] in L. pose proof (value_length V). cbn [get_items]. rewrite !sapp_assoc. rewrite skip_app by (try assumption; eapply value_stops; eassumption).
    cbn [append]. rewrite IH; [|lia|apply stops_blank; [assumption|reflexivity]]. rewrite skip_app by (assumption || reflexivity). rewrite eat_ok, IHs by lia. reflexivity.
  - intros w k nm w1 w2 x d w' B K B1 B2 V IH B' [|n] r L; [exfalso; lia|]. rewrite !slen in L. cbn [String.length append] in L. rewrite ?slen in L. cbn [get_members]. rewrite !sapp_assoc. rewrite skip_app by (try assumption; eapply string_stops; eassumption).
    rewrite (get_string_ok _ K). cbn [append]. rewrite skip_app by (assumption || reflexivity). rewrite eat_ok. rewrite ?sapp_assoc. rewrite skip_app by (try assumption; eapply value_stops; eassumption).
    rewrite IH; [|lia|apply stops_blank; [assumption|reflexivity]]. rewrite skip_app by (assumption || reflexivity). reflexivity.
  - intros w k nm w1 w2 x d w' s l B K B1 B2 V IH B' I IHs [|n] r L; [exfalso; lia|]. rewrite !slen in L. cbn [String.length append] in L. rewrite ?slen in L. cbn [String.length append] in L. cbn [get_members]. rewrite !sapp_assoc. rewrite skip_app by (try assumption; eapply string_stops; eassumption).
    rewrite (get_string_ok _ K). cbn [append]. rewrite skip_app by (assumption || reflexivity). rewrite eat_ok. rewrite ?sapp_assoc. rewrite skip_app by (try assumption; eapply value_stops; eassumption).
    cbn [append]. rewrite IH; [|lia|apply stops_blank; [assumption|reflexivity]]. rewrite skip_app by (assumption || reflexivity). rewrite eat_ok, IHs by lia. reflexivity.
Qed.

Lemma get_word_sound : forall w s r, get_word w s = Some r -> s = w ++ r.
Proof. induction w as [|c w IH]; intros s r H; cbn in H; [now injection H as ->|]. destruct (eat c s) as [t|] eqn:E; [|discriminate]. apply eat_sound in E as ->. cbn. f_equal. now apply IH. Qed.
Lemma get_value_sound : forall n,
  (forall s d r, get_value n s = Some (d, r) -> exists x, s = x ++ r /\ is_json_value x d) /\
  (forall s l r, get_items n s = Some (l, r) -> exists x, s = x ++ String "]" r /\ items x l) /\
  (forall s l r, get_members n s = Some (l, r) -> exists x, s = x ++ String "}" r /\ members x l).
Proof.
  induction n as [|n (IHv & IHi & IHm)]; [repeat split; discriminate|]. split; [|split].
  - intros [|c t] d r H; [discriminate|]. cbn [get_value] in H.
    destruct (Ascii.eqb c """") eqn:C1.
    { destruct (get_string (String c t)) as [[v s]|] eqn:G; [|discriminate]. injection H as <- <-. apply get_string_sound in G as (x & E & S). exists x. split; [exact E|now constructor]. }
    destruct (Ascii.eqb c "[") eqn:C2.
    { apply Ascii.eqb_eq in C2 as ->. destruct (eat "]" (skip t)) as [s|] eqn:E.
      - injection H as <- <-. apply eat_sound in E. destruct (skip_sound t) as (w & K & W & _). rewrite E in K. exists ("[" ++ w ++ "]"). split; [rewrite K; cbn; now rewrite sapp_assoc|now constructor].
      - destruct (get_items n t) as [[l s]|] eqn:G; [|discriminate]. injection H as <- <-. destruct (IHi _ _ _ G) as (x & -> & I). exists ("[" ++ x ++ "]"). split; [cbn; now rewrite sapp_assoc|now constructor]. }
    destruct (Ascii.eqb c "{") eqn:C3.
    { apply Ascii.eqb_eq in C3 as ->. destruct (eat "}" (skip t)) as [s|] eqn:E.
      - injection H as <- <-. apply eat_sound in E. destruct (skip_sound t) as (w & K & W & _). rewrite E in K. exists ("{" ++ w ++ "}"). split; [rewrite K; cbn; now rewrite sapp_assoc|now constructor].
      - destruct (get_members n t) as [[l s]|] eqn:G; [|discriminate]. injection H as <- <-. destruct (IHm _ _ _ G) as (x & -> & I). exists ("{" ++ x ++ "}"). split; [cbn; now rewrite sapp_assoc|now constructor]. }
    destruct (Ascii.eqb c "t"). { destruct (get_word "true" _) as [s|] eqn:G; [|discriminate]. injection H as <- <-. apply get_word_sound in G. exists "true". split; [exact G|constructor]. }
    destruct (Ascii.eqb c "f"). { destruct (get_word "false" _) as [s|] eqn:G; [|discriminate]. injection H as <- <-. apply get_word_sound in G. exists "false". split; [exact G|constructor]. }
    destruct (Ascii.eqb c "n"). { destruct (get_word "null" _) as [s|] eqn:G; [|discriminate]. injection H as <- <-. apply get_word_sound in G. exists "null". split; [exact G|constructor]. }
    apply get_number_sound in H as (x & m & e & E & -> & N). exists x. split; [exact E|now constructor].
  - intros s l r H. cbn [get_items] in H. destruct (get_value n (skip s)) as [[d s1]|] eqn:G; [|discriminate]. destruct (IHv _ _ _ G) as (x & E & V). destruct (skip_sound s) as (w & K & W & _). rewrite E in K.
    destruct (skip_sound s1) as (w' & K' & W' & _). destruct (eat "," (skip s1)) as [s2|] eqn:Q.
    + apply eat_sound in Q. destruct (get_items n s2) as [[l' s3]|] eqn:G2; [|discriminate]. injection H as <- <-. destruct (IHi _ _ _ G2) as (y & -> & I). rewrite Q in K'.
      exists (w ++ x ++ w' ++ "," ++ y). split; [rewrite K, K', !sapp_assoc; reflexivity|now constructor].
    + destruct (eat "]" (skip s1)) as [s2|] eqn:Q2; [|discriminate]. apply eat_sound in Q2. injection H as <- <-. rewrite Q2 in K'. exists (w ++ x ++ w'). split; [rewrite K, K', !sapp_assoc; reflexivity|now constructor].
  - intros s l r H. cbn [get_members] in H. destruct (get_string (skip s)) as [[k s0]|] eqn:G0; [|discriminate]. apply get_string_sound in G0 as (ks & E0 & S). destruct (skip_sound s) as (w & K & W & _). rewrite E0 in K.
    destruct (eat ":" (skip s0)) as [s1|] eqn:Q1; [|discriminate]. apply eat_sound in Q1. destruct (skip_sound s0) as (w1 & K1 & W1 & _). rewrite Q1 in K1.
    destruct (get_value n (skip s1)) as [[d s2]|] eqn:G; [|discriminate]. destruct (IHv _ _ _ G) as (x & E & V). destruct (skip_sound s1) as (w2 & K2 & W2 & _). rewrite E in K2.
    destruct (skip_sound s2) as (w' & K' & W' & _). destruct (eat "," (skip s2)) as [s3|] eqn:Q.
    + apply eat_sound in Q. destruct (get_members n s3) as [[l' s4]|] eqn:G2; [|discriminate]. injection H as <- <-. destruct (IHm _ _ _ G2) as (y & -> & I). rewrite Q in K'.
      exists (w ++ ks ++ w1 ++ ":" ++ w2 ++ x ++ w' ++ "," ++ y). split; [rewrite K, K1, K2, K', !sapp_assoc; reflexivity|now constructor].
    + destruct (eat "}" (skip s2)) as [s3|] eqn:Q2; [|discriminate]. apply eat_sound in Q2. injection H as <- <-. rewrite Q2 in K'.
      exists (w ++ ks ++ w1 ++ ":" ++ w2 ++ x ++ w'). split; [rewrite K, K1, K2, K', !sapp_assoc; reflexivity|now constructor].
Qed.

Lemma parse_json_spec : forall s d, parse_json s = Some d <-> is_json s d.
Proof.
  intros s d. unfold parse_json. split.
  - destruct (get_value _ (skip s)) as [[d' r]|] eqn:G; [|discriminate]. destruct (all_white r) eqn:A; [|discriminate]. intros H. injection H as <-.
    apply get_value_sound in G as (x & E & V). destruct (skip_sound s) as (w & K & W & _). rewrite E in K. exists w, x, r. repeat split; try assumption. now apply all_white_blank.
  - intros (w & x & w' & -> & W & V & W'). rewrite skip_app by (try assumption; eapply value_stops; eassumption).
    rewrite (proj1 get_value_ok _ _ V).
    + apply all_white_blank in W'. now rewrite W'.
    + rewrite !slen. lia.
    + destruct w' as [|c w']; [exact I|]. apply all_inv in W' as [B _]. cbn. now apply white_numeric.
Qed.
