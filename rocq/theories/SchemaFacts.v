(** Validity of written documents. *)
From Coq Require Import Decimal DecimalString DecimalZ.
From Verif Require Import Base Dict Consts Db Hist Report ReportSpec NameSpec MergeSpec BaseFacts PyInt PyIntFacts Dates DatesFacts
  Xml XmlWriter XmlSpec XmlDocSpec XmlWriteFacts XmlHistSpec XmlHistFacts XmlRound XmlStable XmlDocFacts Schema UcisXsd SchemaSpec.
Local Open Scope string_scope.
Local Open Scope list_scope.

(** ** Sequences *)
Lemma leading_split : forall n tags, tags = repeat n (leading n tags) ++ skipn (leading n tags) tags /\
  (forall t ts, skipn (leading n tags) tags = t :: ts -> n <> t).
Proof.
  intros n tags. induction tags as [|t ts [IH1 IH2]]; [split; [reflexivity|discriminate]|]. cbn [leading]. unfold seqb.
  destruct (String.eqb_spec n t) as [->|H]; cbn [repeat skipn app].
  - split; [now rewrite <- IH1|exact IH2].
  - split; [reflexivity|]. intros t' ts' E. injection E as <- _. exact H.
Qed.
Lemma leading_run : forall n k tags, (forall t ts, tags = t :: ts -> n <> t) -> leading n (repeat n k ++ tags) = k.
Proof.
  intros n k tags H. induction k as [|k IH]; cbn [repeat app].
  - destruct tags as [|t ts]; [reflexivity|]. cbn. unfold seqb. destruct (String.eqb_spec n t) as [E|_]; [|reflexivity]. now apply (H t ts) in E.
  - cbn [leading]. unfold seqb. now rewrite String.eqb_refl, IH.
Qed.
Lemma skipn_run : forall A (n : A) k l, skipn k (repeat n k ++ l) = l.
Proof. induction k; [reflexivity|exact IHk]. Qed.
Lemma in_range_occurs : forall d k, in_range d k = true <-> occurs d k.
Proof.
  intros d k. unfold in_range, occurs. rewrite andb_true_iff, Nat.leb_le. split; intros [A B]; (split; [exact A|]).
  - intros m E. rewrite E in B. now apply Nat.leb_le.
  - destruct (ed_max d) as [m|]; [|reflexivity]. apply Nat.leb_le. now apply B.
Qed.

Lemma assign_sound : forall ps tags ts, assign ps tags = Some ts -> fits ps tags ts.
Proof.
  induction ps as [|p ps IH]; intros tags ts H; cbn [assign] in H.
  - destruct tags; [injection H as <-; constructor|discriminate].
  - destruct (match p with POne d => Some d | PChoice ds => match tags with t :: _ => find (fun d => seqb (ed_name d) t) ds | [] => None end end) as [d|] eqn:D; [|discriminate].
    destruct (in_range d (leading (ed_name d) tags)) eqn:R; [|discriminate].
    destruct (assign ps (skipn (leading (ed_name d) tags) tags)) as [l|] eqn:A; [|discriminate]. injection H as <-.
    destruct (leading_split (ed_name d) tags) as [E _]. rewrite E at 1. apply IH in A. apply in_range_occurs in R. constructor; try assumption.
    destruct p as [x|ds]; cbn in *; [congruence|]. destruct tags; [discriminate|]. now apply find_some in D as [D _].
Qed.

Lemma fits_tags : forall ps tags ts, fits ps tags ts -> forall t, In t tags -> In t (map ed_name (flat_map decls ps)).
Proof.
  induction 1 as [|p d k ps tags ts A O F IH]; intros t I; [contradiction|]. cbn [flat_map]. rewrite map_app. apply in_or_app.
  apply in_app_or in I as [I|I]; [left|right; auto]. apply repeat_spec in I. subst t. apply in_map.
  destruct p; cbn in *; [now left|assumption].
Qed.
Lemma find_unique : forall ds d, NoDup (map ed_name ds) -> In d ds -> find (fun x => seqb (ed_name x) (ed_name d)) ds = Some d.
Proof.
  induction ds as [|x ds IH]; intros d N I; [contradiction|]. cbn [find]. inversion N; subst. unfold seqb in *.
  destruct I as [->|I]; [now rewrite String.eqb_refl|]. destruct (String.eqb_spec (ed_name x) (ed_name d)) as [E|_]; [|auto].
  exfalso. apply H1. rewrite E. now apply in_map.
Qed.
Lemma NoDup_app_both : forall A (l l' : list A), NoDup (l ++ l') -> NoDup l /\ NoDup l' /\ forall x, In x l -> In x l' -> False.
Proof.
  induction l as [|x l IH]; intros l' N; cbn in *; [split; [constructor|split; [assumption|contradiction]]|].
  inversion N as [|? ? N1 N2]; subst. destruct (IH l' N2) as (A1 & B & C). split; [|split; [assumption|]].
  - constructor; [|assumption]. intros I. apply N1. apply in_or_app. now left.
  - intros y [->|I] J; [|eauto]. apply N1. apply in_or_app. now right.
Qed.
(** With distinct names the greedy assignment finds the only one. *)
Lemma assign_complete : forall ps tags ts, distinct_names ps -> positive_choices ps -> fits ps tags ts -> assign ps tags = Some ts.
Proof.
  intros ps tags ts N P F. revert N P. induction F as [|p d k ps tags ts A O F IH]; intros N P; [reflexivity|].
  unfold distinct_names in N. cbn [flat_map] in N. rewrite map_app in N. apply NoDup_app_both in N as (N1 & N2 & N3).
  assert (L : leading (ed_name d) (repeat (ed_name d) k ++ tags) = k).
  { apply leading_run. intros t ts' E Et. apply (N3 t); rewrite <- Et.
    - apply in_map. destruct p; cbn in *; [now left|assumption].
    - eapply fits_tags; [exact F|]. rewrite E, Et. now left. }
  assert (D : match p with POne d => Some d | PChoice ds => match repeat (ed_name d) k ++ tags with t :: _ => find (fun d => seqb (ed_name d) t) ds | [] => None end end = Some d).
  { destruct p as [x|ds]; cbn in A; [now subst|]. destruct O as [O1 _]. assert (1 <= ed_min d) by (apply (P ds); [now left|assumption]).
    destruct k as [|k]; [lia|]. cbn [repeat app]. now apply find_unique. }
  cbn [assign]. rewrite D, L, skipn_run, IH; [|assumption|intros ds x I; apply P; now right].
  apply in_range_occurs in O. now rewrite O.
Qed.

(** ** Unfolding validity *)
Section Valid.
  Variable sch : schema.

  Fixpoint all_valid (ts : list etype) (ks : list elem) : bool :=
    match ks, ts with
    | [], [] => true
    | k :: ks, t :: ts => valid sch t k && all_valid ts ks
    | _, _ => false
    end.

  Lemma valid_complex : forall n c tag a x ks, dget n sch = Some c ->
    valid sch (TComplex n) (Elem tag a x ks) =
    attrs_ok (ct_attrs c) a && text_ok c x && match assign (ct_parts c) (map e_tag ks) with Some ts => all_valid ts ks | None => false end.
  Proof.
    intros n c tag a x ks H. cbn [valid]. rewrite H. f_equal. destruct (assign (ct_parts c) (map e_tag ks)) as [ts|]; [|reflexivity].
    revert ts. induction ks as [|k ks IH]; intros [|t ts]; cbn; try reflexivity. now rewrite IH.
  Qed.

  Lemma all_valid_run : forall X (f : X -> elem) t l ts ks,
    all_valid (repeat t (List.length l) ++ ts) (map f l ++ ks) = forallb (fun x => valid sch t (f x)) l && all_valid ts ks.
  Proof.
    intros X f t l ts ks. induction l as [|x l IH]; cbn [List.length repeat map app all_valid forallb]; [reflexivity|].
    rewrite IH. now rewrite andb_assoc.
  Qed.

  Lemma assign_run : forall X (f : X -> elem) d ps l tags, (forall x, In x l -> e_tag (f x) = ed_name d) ->
    (forall t ts, tags = t :: ts -> ed_name d <> t) ->
    assign (POne d :: ps) (map e_tag (map f l) ++ tags) =
    if in_range d (List.length l) then option_map (fun r => repeat (ed_type d) (List.length l) ++ r) (assign ps tags) else None.
  Proof.
    intros X f d ps l tags H N.
    assert (map e_tag (map f l) = repeat (ed_name d) (List.length l)) as ->.
    { clear N. induction l as [|x l IH]; [reflexivity|]. cbn. rewrite (H x) by now left. f_equal. apply IH. intros y I. apply H. now right. }
    cbn [assign]. rewrite leading_run, skipn_run by assumption. reflexivity.
  Qed.

  (** Serialising and parsing does not matter. *)
  Lemma valid_reparse : forall e t, valid sch t (reparse e) = valid sch t e.
  Proof.
    fix IH 1. intros [tag a x ks] t. cbn [reparse valid]. destruct t as [s|n].
    - destruct a; [|reflexivity]. destruct ks; [|reflexivity]. cbn [map]. destruct x as [[|c v]|]; reflexivity.
    - destruct (dget n sch) as [c|]; [|reflexivity].
      assert (T : map e_tag (map reparse ks) = map e_tag ks).
      { rewrite map_map. apply map_ext. now intros []. }
      rewrite T. f_equal.
      + f_equal. unfold text_ok. destruct x as [[|ch v]|]; try reflexivity. destruct (ct_parts c); reflexivity.
      + destruct (assign (ct_parts c) (map e_tag ks)) as [ts|]; [|reflexivity]. clear T. revert ts.
        induction ks as [|k ks IHk]; intros [|t ts]; cbn [map]; try reflexivity. rewrite IH. f_equal. apply IHk.
  Qed.
End Valid.

(** ** Numbers and dates *)
Definition plain (s : string) : Prop := all_chars (fun c => negb (xml_blank c)) s = true.
Lemma plain_trim : forall s, plain s -> trim s = s.
Proof.
  unfold plain, trim. intros s H.
  assert (L : trim_left s = s). { destruct s as [|c t]; [reflexivity|]. cbn in *. apply andb_true_iff in H as [H _]. now destruct (xml_blank c). }
  rewrite L. clear L. induction s as [|c t IH]; [reflexivity|]. cbn [all_chars] in H. apply andb_true_iff in H as [H1 H2]. cbn [trim_right all_blank].
  destruct (xml_blank c); [discriminate|]. cbn [andb]. now rewrite IH.
Qed.
Lemma plain_app : forall s t, plain s -> plain t -> plain (s ++ t)%string.
Proof. unfold plain. induction s as [|c s IH]; intros t H1 H2; [assumption|]. cbn in *. apply andb_true_iff in H1 as [-> H1]. cbn. now apply IH. Qed.

Lemma uint_digits : forall u, all_chars is_digit (NilEmpty.string_of_uint u) = true.
Proof. induction u; cbn; auto. Qed.
Lemma uint_zero_digits : forall u, digits (NilZero.string_of_uint u) = true.
Proof. intros u. unfold digits. destruct u; try reflexivity; cbn; now rewrite uint_digits. Qed.
Lemma digits_plain : forall s, all_chars is_digit s = true -> plain s.
Proof.
  unfold plain. induction s as [|c s IH]; [reflexivity|]. cbn. intros H. apply andb_true_iff in H as [H1 H2]. rewrite IH by assumption. rewrite andb_true_r.
  unfold is_digit, digit_of, xml_blank in *. destruct (nat_of_ascii c) as [|n]; [discriminate|].
  do 33 (destruct n as [|n]; [try reflexivity; discriminate|]). reflexivity.
Qed.

(** str() of an integer: a sign, if negative, and digits. *)
Lemma show_shape : forall z, exists u, digits u = true /\ read_digits u 0 false = Some (Z.abs z) /\
  show_int z = if (z <? 0)%Z then String "-" u else u.
Proof.
  intros z. pose proof (parse_show z) as P. unfold show_int, NilZero.string_of_int in *.
  destruct (Z.to_int z) as [u|u] eqn:E; exists (NilZero.string_of_uint u); (split; [apply uint_zero_digits|]).
  - assert (0 <= z)%Z as Hz. { rewrite <- (DecimalZ.of_to z), E. cbn. apply N2Z.is_nonneg. }
    rewrite read_uint_zero. rewrite <- (DecimalZ.of_to z), E at 1. cbn [Z.of_int]. split; [f_equal; symmetry; apply Z.abs_eq, N2Z.is_nonneg|].
    destruct (Z.ltb_spec z 0); [lia|reflexivity].
  - assert (H : z = Z.opp (Z.of_N (Pos.of_uint u))). { rewrite <- (DecimalZ.of_to z), E. reflexivity. }
    rewrite read_uint_zero. split; [f_equal; rewrite H, Z.abs_opp; symmetry; apply Z.abs_eq, N2Z.is_nonneg|].
    destruct (Z.ltb_spec z 0) as [_|G]; [reflexivity|]. exfalso. assert (z = 0%Z) as -> by (pose proof (N2Z.is_nonneg (Pos.of_uint u)); lia).
    discriminate.
Qed.
Lemma zeros_value : forall u acc b, all_zeros u = true -> forall v, read_digits u acc b = Some v -> acc = 0%Z -> v = 0%Z.
Proof.
  induction u as [|c u IH]; intros acc b H v R ->; cbn in *; [destruct b; congruence|]. apply andb_true_iff in H as [C H].
  apply Ascii.eqb_eq in C. subst c. cbn in R. eapply IH; [exact H|exact R|reflexivity].
Qed.
Lemma zeros_of_value : forall u acc b, all_chars is_digit u = true -> (0 <= acc)%Z -> read_digits u acc b = Some 0%Z -> all_zeros u = true /\ acc = 0%Z.
Proof.
  induction u as [|c u IH]; intros acc b H A R; unfold all_zeros in *; cbn [read_digits all_chars] in *; [destruct b; [injection R as ->; auto|discriminate]|].
  apply andb_true_iff in H as [C H]. unfold is_digit in C. destruct (digit_of c) as [d|] eqn:D; [|discriminate].
  assert (0 <= d)%Z. { unfold digit_of in D. destruct (_ && _); [|discriminate]. injection D as <-. lia. }
  assert (A2 : (0 <= 10 * acc + d)%Z) by lia. destruct (IH _ _ H A2 R) as [Z0 E]. assert (acc = 0 /\ d = 0)%Z as [-> ->] by lia. split; [|reflexivity].
  rewrite Z0, andb_true_r. unfold digit_of in D. destruct ((48 <=? nat_of_ascii c)%nat && (nat_of_ascii c <=? 57)%nat) eqn:Rg; [|discriminate].
  injection D as D. apply andb_true_iff in Rg as [R1 R2]. apply Nat.leb_le in R1, R2.
  assert (nat_of_ascii c = 48) by lia. apply Ascii.eqb_eq. rewrite <- (ascii_nat_embedding c), H1. reflexivity.
Qed.
Lemma digits_head : forall u, digits u = true -> unsigned u = u /\ minus u = false.
Proof.
  intros [|c u] H; [discriminate|]. unfold digits in H. cbn in *. apply andb_true_iff in H as [H _].
  unfold is_digit, digit_of in H.
  destruct (Ascii.eqb_spec c "-") as [->|_]; [discriminate|]. destruct (Ascii.eqb_spec c "+") as [->|_]; [discriminate|]. split; reflexivity.
Qed.
Lemma digits_all : forall u, digits u = true -> all_chars is_digit u = true.
Proof. intros u H. unfold digits in H. now apply andb_true_iff in H as [_ H]. Qed.

Lemma show_plain : forall z, trim (show_int z) = show_int z.
Proof.
  intros z. apply plain_trim. destruct (show_shape z) as (u & D & _ & ->). destruct (z <? 0)%Z; [|now apply digits_plain, digits_all].
  change (plain ("-" ++ u)%string). apply plain_app; [reflexivity|now apply digits_plain, digits_all].
Qed.
Lemma show_integer : forall z, simple_ok SInteger (show_int z) = true.
Proof.
  intros z. cbn. rewrite show_plain. destruct (show_shape z) as (u & D & _ & ->). unfold lex_integer.
  destruct (z <? 0)%Z; [exact D|]. now rewrite (proj1 (digits_head u D)).
Qed.
Lemma show_nonneg : forall z, simple_ok SNonNegative (show_int z) = (0 <=? z)%Z.
Proof.
  intros z. cbn [simple_ok]. rewrite show_plain. pose proof (show_integer z) as I. cbn [simple_ok] in I. rewrite show_plain in I.
  unfold lex_nonneg. rewrite I. cbn [andb]. destruct (show_shape z) as (u & D & R & E). rewrite E.
  destruct (Z.ltb_spec z 0) as [L|L].
  - change (all_zeros u = (0 <=? z)%Z). destruct (all_zeros u) eqn:Z0.
    + apply (zeros_value _ _ _ Z0) in R; [|reflexivity]. lia.
    + symmetry. apply Z.leb_gt. lia.
  - rewrite (proj2 (digits_head u D)). cbn. symmetry. apply Z.leb_le. lia.
Qed.
Lemma show_positive : forall z, simple_ok SPositive (show_int z) = (1 <=? z)%Z.
Proof.
  intros z. cbn [simple_ok]. rewrite show_plain. pose proof (show_integer z) as I. cbn [simple_ok] in I. rewrite show_plain in I.
  unfold lex_positive. rewrite I. cbn [andb]. destruct (show_shape z) as (u & D & R & E). rewrite E.
  destruct (Z.ltb_spec z 0) as [L|L].
  - cbn. symmetry. apply Z.leb_gt. lia.
  - destruct (digits_head u D) as [-> ->]. cbn [negb andb]. rewrite Z.abs_eq in R by assumption.
    destruct (all_zeros u) eqn:Z0; cbn.
    + apply (zeros_value _ _ _ Z0) in R; [|reflexivity]. subst z. reflexivity.
    + symmetry. apply Z.leb_le. destruct (Z.eq_dec z 0) as [->|N]; [|lia].
      apply zeros_of_value in R as [R _]; [congruence|now apply digits_all|lia].
Qed.

Lemma split_none : forall p s, all_chars (fun c => negb (p c)) s = true -> split_at p s = (s, None).
Proof.
  induction s as [|c s IH]; [reflexivity|]. cbn. intros H. apply andb_true_iff in H as [H1 H2]. destruct (p c); [discriminate|]. now rewrite IH.
Qed.
Lemma digit_not : forall (p : ascii -> bool) s, (forall c, p c = true -> is_digit c = false) -> all_chars is_digit s = true -> all_chars (fun c => negb (p c)) s = true.
Proof.
  induction s as [|c s IH]; [reflexivity|]. cbn. intros P H. apply andb_true_iff in H as [H1 H2]. rewrite IH by assumption. rewrite andb_true_r.
  destruct (p c) eqn:E; [|reflexivity]. rewrite (P c E) in H1. discriminate.
Qed.
Lemma digits_decimal : forall u, digits u = true -> lex_decimal u = true.
Proof.
  intros u D. unfold lex_decimal. rewrite (proj1 (digits_head u D)). rewrite split_none; [exact D|].
  apply digit_not; [|now apply digits_all]. intros c E. apply Ascii.eqb_eq in E. subst. reflexivity.
Qed.
(** Integers that are not negative are numbers of all types. *)
Lemma show_numbers : forall z, (0 <= z)%Z -> simple_ok SDouble (show_int z) = true /\ simple_ok SDecimal (show_int z) = true.
Proof.
  intros z H. cbn [simple_ok]. rewrite show_plain. destruct (show_shape z) as (u & D & _ & E). destruct (Z.ltb_spec z 0); [lia|]. rewrite E.
  pose proof (digits_decimal u D) as DD. split; [|exact DD]. unfold lex_double. rewrite split_none; [rewrite DD; apply orb_true_r|].
  apply digit_not; [|now apply digits_all]. intros c E'. apply orb_true_iff in E' as [E'|E']; apply Ascii.eqb_eq in E'; subst; reflexivity.
Qed.

Lemma number_pad2 : forall z acc s, (0 <= z <= 99)%Z -> number 2 acc (pad2 z ++ s)%string = Some ((100 * acc + z)%Z, s).
Proof.
  intros z acc s H. unfold pad2. cbn [append number]. rewrite digit_of_char by now apply div10. rewrite digit_of_char by apply mod10.
  f_equal. f_equal. pose proof (Z.div_mod z 10). lia.
Qed.
Lemma number_plus : forall n m acc s, number (n + m) acc s = match number n acc s with Some (a, t) => number m a t | None => None end.
Proof. induction n as [|n IH]; intros m acc s; [reflexivity|]. cbn [Nat.add number]. destruct s as [|c t]; [reflexivity|]. destruct (digit_of c); [apply IH|reflexivity]. Qed.
Lemma number_pad4 : forall z s, (0 <= z <= 9999)%Z -> number 4 0 (pad4 z ++ s)%string = Some (z, s).
Proof.
  intros z s H. unfold pad4. rewrite TextFacts.sapp_assoc.
  assert (A : (0 <= z / 100 <= 99)%Z). { split; [apply Z.div_pos; lia|]. apply Z.lt_succ_r, Z.div_lt_upper_bound; lia. }
  assert (B : (0 <= z mod 100 <= 99)%Z). { pose proof (Z.mod_pos_bound z 100). lia. }
  change (number 4) with (number (2 + 2)). rewrite number_plus.
  rewrite number_pad2 by assumption. rewrite number_pad2 by assumption. f_equal. f_equal. pose proof (Z.div_mod z 100). lia.
Qed.
Lemma pad2_plain : forall z, (0 <= z <= 99)%Z -> plain (pad2 z).
Proof.
  intros z H. apply digits_plain. unfold pad2. cbn. unfold is_digit. now rewrite digit_of_char, digit_of_char by (apply div10 || apply mod10; assumption).
Qed.

Lemma days_agree : forall y m, xsd_days y m = days_in_month y m.
Proof.
  intros y m. unfold xsd_days, days_in_month. destruct (Z.eqb m 2); [reflexivity|]. cbn [existsb]. rewrite orb_false_r, !orb_assoc. reflexivity.
Qed.
Lemma iso_valid : forall d, valid_dt d = true -> simple_ok SDateTime (isoformat d) = true.
Proof.
  intros [y mo dd h mi s] V. unfold valid_dt in V. cbn [dt_year dt_month dt_day dt_hour dt_min dt_sec] in V.
  repeat (apply andb_true_iff in V as [V ?]). rewrite Z.leb_le in *.
  assert (days_in_month y mo <= 31)%Z. { unfold days_in_month. destruct (mo =? 2)%Z; [destruct (leap y); lia|]. destruct (_ || _); lia. }
  cbn [simple_ok]. unfold isoformat. cbn [dt_year dt_month dt_day dt_hour dt_min dt_sec].
  rewrite plain_trim.
  - unfold lex_datetime. rewrite number_pad4 by lia. cbn [append literal]. rewrite Ascii.eqb_refl.
    rewrite number_pad2 by lia. cbn [append literal]. rewrite Ascii.eqb_refl.
    rewrite number_pad2 by lia. cbn [append literal]. rewrite Ascii.eqb_refl.
    rewrite number_pad2 by lia. cbn [append literal]. rewrite Ascii.eqb_refl.
    rewrite number_pad2 by lia. cbn [append literal]. rewrite Ascii.eqb_refl.
    assert (forall x : string, x = (x ++ "")%string) as NR by (clear; induction x as [|c x IH]; [reflexivity|cbn; now rewrite <- IH]).
    rewrite (NR (pad2 s)). rewrite number_pad2 by lia. rewrite !Z.mul_0_r, !Z.add_0_l. rewrite days_agree. cbn [lex_after_seconds].
    rewrite andb_true_r. repeat (apply andb_true_iff; split); try (apply Z.leb_le; lia).
    apply orb_true_iff. left. repeat (apply andb_true_iff; split); apply Z.leb_le; lia.
  - unfold pad4. repeat (apply plain_app; try reflexivity); try (apply pad2_plain; lia).
    + apply pad2_plain. split; [apply Z.div_pos; lia|]. apply Z.lt_succ_r, Z.div_lt_upper_bound; lia.
    + apply pad2_plain. pose proof (Z.mod_pos_bound y 100). lia.
Qed.
