(** Facts about reading command lines. *)
From Verif Require Import Base BaseFacts Dict XmlReadFacts SchemaRead Args ArgsSpec.
Set Implicit Arguments.
Local Open Scope string_scope.
Local Open Scope list_scope.

(** ** Strings *)
Lemma starts_begins : forall p s, starts p s = true <-> begins p s.
Proof.
  unfold starts, begins. induction p as [|c p IH]; intros s.
  - split; [intros _; now exists s|intros _; now destruct s].
  - destruct s as [|d s]; cbn [String.prefix].
    + split; [discriminate|intros [t E]; discriminate].
    + destruct (ascii_dec c d) as [E|E].
      * subst d. rewrite IH. split; intros [t E]; exists t; cbn in *; [now rewrite E|now inversion E].
      * split; [discriminate|intros [t X]; cbn in X; inversion X; congruence].
Qed.
Lemma has_char_In : forall c s, has_char c s = true <-> In c (list_ascii_of_string s).
Proof.
  intros c s. unfold has_char. rewrite existsb_exists. split.
  - intros (x & H & E). apply Ascii.eqb_eq in E. now subst x.
  - intros H. exists c. split; [assumption|apply Ascii.eqb_refl].
Qed.
Lemma partition_some : forall s a b, partition_eq s = Some (a, b) <-> s = String.append a (String "=" b) /\ no_equals a.
Proof.
  unfold no_equals. induction s as [|c s IH]; intros a b; cbn [partition_eq].
  - split; [discriminate|intros [E _]; destruct a; discriminate].
  - destruct (Ascii.eqb_spec c "=") as [E|E].
    + subst c. split.
      * intros H. inversion H; subst. split; [reflexivity|intros []].
      * intros [H N]. destruct a as [|d a]; cbn in H; inversion H; subst; [reflexivity|].
        exfalso. apply N. now left.
    + split.
      * destruct (partition_eq s) as [[a' b']|]; [|discriminate].
        intros H. inversion H; subst. destruct (proj1 (IH _ _) eq_refl) as [P N]. rewrite P. split; [reflexivity|].
        cbn. intros [X|X]; [now apply E|contradiction].
      * intros [H N]. destruct a as [|d a]; cbn in H; inversion H; subst; [congruence|].
        assert (X : partition_eq (String.append a (String "=" b)) = Some (a, b)).
        { apply IH. split; [reflexivity|]. intros X. apply N. now right. }
        now rewrite X.
Qed.
Lemma partition_none : forall s, partition_eq s = None <-> no_equals s.
Proof.
  unfold no_equals. induction s as [|c s IH]; cbn [partition_eq list_ascii_of_string].
  - split; [intros _ []|reflexivity].
  - destruct (Ascii.eqb_spec c "=") as [E|E].
    + subst c. split; [discriminate|intros N; exfalso; apply N; now left].
    + destruct (partition_eq s) as [[a b]|].
      * split; [discriminate|]. intros N. exfalso. enough (X : Some (a, b) = None) by discriminate. apply IH. intros X. apply N. now right.
      * split; [|reflexivity]. intros _ [X|X]; [now apply E|]. revert X. now apply IH.
Qed.

(** ** One argument *)
Definition ok (T : options) : Prop :=
  NoDup (map fst T) /\ Forall (fun o => no_equals (fst o) /\ exists x t, fst o = String "-" (String x t)) T.

Lemma single {X Y} (f : X -> Y) : forall l x, NoDup (map f l) -> In x l -> (forall y, In y l -> f y = f x) -> l = [x].
Proof.
  intros [|a [|b l]] x N I H.
  - destruct I.
  - destruct I as [I|[]]. now subst.
  - exfalso. inversion N as [|? ? N1 _]; subst. apply N1. left. rewrite (H a), (H b); [reflexivity|right; now left|now left].
Qed.

Section Table.
  Variable T : options.
  Hypothesis OK : ok T.

  Lemma dget_T : forall n a, dget n T = Some a <-> In (n, a) T.
  Proof. intros n a. destruct OK as [N _]. split; [apply dget_In_pair|now apply dget_entry]. Qed.
  Lemma name_T : forall n a, In (n, a) T -> no_equals n /\ exists x t, n = String "-" (String x t).
  Proof. intros n a I. destruct OK as [_ F]. rewrite Forall_forall in F. exact (F _ I). Qed.

  Definition tuple_name (t : string * option_action * bool * option string) : string := fst (fst (fst t)).
  Lemma tuples_nodup : forall s, NoDup (map tuple_name (option_tuples T s)).
  Proof.
    assert (A : forall (f : string * option_action -> list (string * option_action * bool * option string)) (l : options),
               (forall o, f o = [] \/ exists t, f o = [t] /\ tuple_name t = fst o) ->
               NoDup (map fst l) -> NoDup (map tuple_name (flat_map f l))).
    { intros f l H. induction l as [|o l IH]; intros N; cbn [flat_map map]; [constructor|].
      inversion N as [|? ? N1 N2]; subst. destruct (H o) as [E|(t & E & F)]; rewrite E; cbn [app map]; [now apply IH|].
      constructor; [|now apply IH]. rewrite F. intros I. apply N1. clear - I H.
      apply in_map_iff in I. destruct I as (u & U & V). apply in_flat_map in V. destruct V as (o' & O & V).
      apply in_map_iff. exists o'. split; [|assumption]. destruct (H o') as [E|(t & E & F)]; rewrite E in V; [destruct V|].
      destruct V as [V|[]]. subst. congruence. }
    assert (B : forall (g : string * option_action -> bool) (e : bool) (v : option string) (l : options),
               map (fun o => (fst o, snd o, e, v)) (filter g l) = flat_map (fun o => if g o then [(fst o, snd o, e, v)] else []) l).
    { intros g e v l. induction l as [|o l IH]; [reflexivity|]. cbn. destruct (g o); cbn; now rewrite IH. }
    intros s. destruct OK as [N _]. unfold option_tuples. destruct s as [|c [|d r]]; try constructor.
    assert (C : forall p e v, NoDup (map tuple_name (map (fun o => (fst o, snd o, e, v)) (filter (fun o => starts p (fst o)) T)))).
    { intros p e v. rewrite B. apply A; [|assumption]. intros o. destruct (starts p (fst o)); [right|now left]. eexists. split; reflexivity. }
    assert (D : NoDup (map tuple_name (flat_map (fun o : string * option_action =>
                  if seqb (fst o) (String c (String d "")) then [(fst o, snd o, false, Some r)]
                  else if starts (String c (String d r)) (fst o) then [(fst o, snd o, false, None)] else []) T))).
    { apply A; [|assumption]. intros o. destruct (seqb _ _); [right; eexists; split; reflexivity|].
      destruct (starts _ _); [right; eexists; split; reflexivity|now left]. }
    destruct d as [[] [] [] [] [] [] [] []]; try exact D.
    destruct (partition_eq _) as [[a b]|]; apply C.
  Qed.

  Lemma dash_dec : forall x : ascii, x = "-"%char \/ x <> "-"%char.
  Proof. intros x. destruct (ascii_dec x "-"); auto. Qed.
  Lemma tuples_long : forall r,
    option_tuples T (String "-" (String "-" r)) =
    let '(pre, eq, explicit) := match partition_eq (String "-" (String "-" r)) with Some (a, b) => (a, true, Some b) | None => (String "-" (String "-" r), false, None) end in
    map (fun o => (fst o, snd o, eq, explicit)) (filter (fun o => starts pre (fst o)) T).
  Proof. reflexivity. Qed.
  Lemma tuples_short : forall x r, x <> "-"%char ->
    option_tuples T (String "-" (String x r)) =
    flat_map (fun o : string * option_action =>
                  if seqb (fst o) (String "-" (String x "")) then [(fst o, snd o, false, Some r)]
                  else if starts (String "-" (String x r)) (fst o) then [(fst o, snd o, false, None)]
                  else []) T.
  Proof. intros x r N. destruct x as [[] [] [] [] [] [] [] []]; try reflexivity. now elim N. Qed.

  Lemma begins_dashes : forall p, begins "--" p <-> exists r, p = String "-" (String "-" r).
  Proof. reflexivity. Qed.

  Lemma tuples_might : forall x r n a b e, String "-" (String x r) <> "--" ->
    In (n, a, b, e) (option_tuples T (String "-" (String x r))) -> In (n, a) T /\ might T (String "-" (String x r)) n e.
  Proof.
    intros x r n a b e ND I. destruct (dash_dec x) as [E|E].
    - subst x. rewrite tuples_long in I. destruct (partition_eq _) as [[p v]|] eqn:P.
      + apply in_map_iff in I. destruct I as ([n' a'] & I & J). cbn in I. inversion I; subst. clear I.
        apply filter_In in J. destruct J as [J S]. cbn in S. apply starts_begins in S.
        apply partition_some in P. destruct P as [P N]. split; [assumption|]. rewrite P.
        eapply MLongValue; try eassumption.
        destruct p as [|c1 [|c2 p]]; cbn in P; inversion P; subst. now exists p.
      + apply in_map_iff in I. destruct I as ([n' a'] & I & J). cbn in I. inversion I; subst. clear I.
        apply filter_In in J. destruct J as [J S]. cbn in S. apply starts_begins in S.
        apply partition_none in P. split; [assumption|].
        eapply MLong; try eassumption. now exists r.
    - rewrite tuples_short in I by assumption. apply in_flat_map in I. destruct I as ([n' a'] & J & I). cbn [fst snd] in I.
      destruct (seqb n' (String "-" (String x ""))) eqn:Q.
      + destruct I as [I|[]]. inversion I; subst. apply String.eqb_eq in Q. subst n. split; [assumption|].
        eapply MLetter; eassumption.
      + destruct (starts _ n') eqn:S; [|destruct I]. destruct I as [I|[]]. inversion I; subst. split; [assumption|].
        apply starts_begins in S. eapply MShort; try eassumption. intros X. subst n.
        apply String.eqb_neq in Q. now apply Q.
  Qed.
  Lemma might_tuples : forall x r n a e, In (n, a) T -> might T (String "-" (String x r)) n e ->
    exists b, In (n, a, b, e) (option_tuples T (String "-" (String x r))).
  Proof.
    intros x r n a e I M. inversion M as [p n' a' J B1 B2 N S E1|p n' a' v J B1 N S E1|x' v a' J N E1|x' v n' a' J N S X E1]; subst.
    - destruct B1 as [t B1]. cbn in B1. injection B1 as B3 B4. subst x r. rewrite tuples_long.
      apply partition_none in N. rewrite N. exists false. apply in_map_iff. exists (n, a). split; [reflexivity|].
      apply filter_In. split; [assumption|]. now apply starts_begins.
    - destruct B1 as [t B1]. cbn in B1. subst p. cbn in E1. injection E1 as B3 B4. subst x r.
      change (exists b, In (n, a, b, Some v) (option_tuples T (String "-" (String "-" (String.append t (String "=" v)))))). rewrite tuples_long.
      rewrite (proj2 (partition_some _ (String "-" (String "-" t)) v)) by (split; [reflexivity|assumption]).
      exists true. apply in_map_iff. exists (n, a). split; [reflexivity|].
      apply filter_In. split; [assumption|]. now apply starts_begins.
    - rewrite tuples_short by assumption. exists false. apply in_flat_map. exists (String "-" (String x ""), a). split; [assumption|].
      cbn [fst snd]. unfold seqb. rewrite (proj2 (String.eqb_eq _ _) eq_refl). now left.
    - rewrite tuples_short by assumption. exists false. apply in_flat_map. exists (n, a). split; [assumption|].
      cbn [fst snd]. unfold seqb. rewrite (proj2 (String.eqb_neq _ _) X). rewrite (proj2 (starts_begins _ _) S). now left.
  Qed.

  Lemma might_name : forall s n e, might T s n e -> exists a, In (n, a) T.
  Proof. intros s n e M. destruct M; eauto. Qed.
  Lemma might_shape : forall s n e, might T s n e -> exists x r, s = String "-" (String x r).
  Proof.
    intros s n e M. destruct M as [p n a I [t B]|p n a v I [t B]|x v a|x v n a].
    - subst p. cbn. eauto.
    - subst p. cbn. eauto.
    - eauto.
    - eauto.
  Qed.
  Lemma exactly_shape : forall s a e, exactly T s a e -> exists x r, s = String "-" (String x r).
  Proof.
    intros s a e X. destruct X as [n a I|n a v I]; destruct (name_T _ _ I) as (_ & x & t & E); subst n; cbn; eauto.
  Qed.

  (** the exact reading *)
  Definition exact_token (s : string) : option token :=
    match dget s T with
    | Some a => Some (TOption s a false None)
    | None => match partition_eq s with
              | Some (n, v) => match dget n T with Some a => Some (TOption n a true (Some v)) | None => None end
              | None => None
              end
    end.
  Lemma exact_token_some : forall s t, exact_token s = Some t -> exists n a b e, t = TOption n a b e /\ exactly T s a e.
  Proof.
    intros s t H. unfold exact_token in H. destruct (dget s T) as [a|] eqn:D.
    - inversion H; subst. apply dget_T in D. exists s, a, false, None. split; [reflexivity|now constructor].
    - destruct (partition_eq s) as [[n v]|] eqn:P; [|discriminate]. destruct (dget n T) as [a|] eqn:D'; [|discriminate].
      inversion H; subst. apply dget_T in D'. apply partition_some in P. destruct P as [P _]. subst s.
      exists n, a, true, (Some v). split; [reflexivity|]. now apply EValue.
  Qed.
  Lemma exactly_token : forall s a e, exactly T s a e -> exists n b, exact_token s = Some (TOption n a b e).
  Proof.
    intros s a e X. unfold exact_token. destruct X as [n a I|n a v I].
    - apply dget_T in I. rewrite I. eauto.
    - assert (P : partition_eq (String.append n (String.append "=" v)) = Some (n, v)).
      { apply partition_some. split; [reflexivity|]. now apply (name_T _ _ I). }
      destruct (dget (String.append n (String.append "=" v)) T) as [a'|] eqn:D.
      + apply dget_T in D. destruct (name_T _ _ D) as [N _]. apply partition_none in N. congruence.
      + rewrite P. apply dget_T in I. rewrite I. eauto.
  Qed.
  Lemma read_dash : forall x r,
    read_token T (String "-" (String x r)) =
    match exact_token (String "-" (String x r)) with
    | Some t => Some t
    | None => match option_tuples T (String "-" (String x r)) with
              | [(n, a, e, v)] => Some (TOption n a e v)
              | _ :: _ => None
              | [] => if negative_number (String "-" (String x r)) then Some TArg
                      else if has_char " " (String "-" (String x r)) then Some TArg else Some TUnknown
              end
    end.
  Proof.
    intros x r. unfold read_token, exact_token. rewrite Ascii.eqb_refl. cbn [negb].
    destruct (dget (String "-" (String x r)) T); [reflexivity|].
    change (seqb (String x r) "") with false. cbv iota.
    destruct (partition_eq (String "-" (String x r))) as [[n v]|]; [|reflexivity].
    now destruct (dget n T).
  Qed.
  Lemma not_exactly : forall s, exact_token s = None <-> forall a e, ~ exactly T s a e.
  Proof.
    intros s. split.
    - intros H a e X. destruct (exactly_token X) as (n & b & Y). congruence.
    - intros H. destruct (exact_token s) as [t|] eqn:E; [|reflexivity].
      destruct (exact_token_some _ E) as (n & a & b & e & _ & X). elim (H _ _ X).
  Qed.

  (** ** negative numbers *)
  Lemma is_digit_range : forall c, is_digit c = true <-> (48 <= nat_of_ascii c <= 57)%nat.
  Proof. intros c. unfold is_digit. rewrite Bool.andb_true_iff, !Nat.leb_le. reflexivity. Qed.
  Lemma skip_digits_split : forall s, exists a, s = String.append a (skip_digits s) /\
    Forall (fun c => is_digit c = true) (list_ascii_of_string a) /\
    match skip_digits s with String c _ => is_digit c = false | EmptyString => True end.
  Proof.
    induction s as [|c s IH]; cbn [skip_digits].
    - exists "". repeat split. constructor.
    - destruct (is_digit c) eqn:D.
      + destruct IH as (a & E & F & G). exists (String c a). split; [cbn; congruence|]. split; [now constructor|assumption].
      + exists "". repeat split; [constructor|assumption].
  Qed.
  Lemma skip_digits_app : forall a s, Forall (fun c => (48 <= nat_of_ascii c <= 57)%nat) (list_ascii_of_string a) ->
    skip_digits (String.append a s) = skip_digits s.
  Proof.
    induction a as [|c a IH]; intros s F; [reflexivity|]. cbn in *. inversion F; subst.
    rewrite (proj2 (is_digit_range c)) by assumption. now apply IH.
  Qed.
  Lemma at_end_iff : forall s, at_end s = true <-> s = "" \/ s = String "010" "".
  Proof. intros s. unfold at_end. rewrite Bool.orb_true_iff. unfold seqb. now rewrite !String.eqb_eq. Qed.
  Lemma some_digits_iff : forall s, some_digits s = true <-> exists t e, s = String.append t e /\ digits t /\ (e = "" \/ e = String "010" "").
  Proof.
    intros s. unfold some_digits, digits. rewrite Bool.andb_true_iff, at_end_iff. split.
    - intros [H E]. destruct (skip_digits_split s) as (a & S & F & _). exists a, (skip_digits s). split; [assumption|]. split; [|assumption].
      split.
      + intros X. subst a. cbn in S. destruct s as [|c s]; [discriminate|]. cbn [skip_digits] in S. rewrite H in S.
        assert (L : forall q, (String.length (skip_digits q) <= String.length q)%nat).
        { induction q as [|c' q IH]; cbn [skip_digits]; [lia|]. destruct (is_digit c'); cbn; lia. }
        specialize (L s). rewrite <- S in L. cbn in L. lia.
      + eapply Forall_impl; [|exact F]. intros c. apply is_digit_range.
    - intros (t & e & S & [N F] & E). subst s. rewrite skip_digits_app by assumption. split.
      + destruct t as [|c t]; [now elim N|]. cbn in *. inversion F; subst. now apply is_digit_range.
      + destruct E; subst e; [now left|now right].
  Qed.
  Lemma append_assoc : forall a b c, String.append (String.append a b) c = String.append a (String.append b c).
  Proof. induction a; intros; cbn; congruence. Qed.
  Lemma negative_number_iff : forall s, negative_number s = true <-> is_negative s.
  Proof.
    assert (M : forall t, negative_number (String "-" t) = some_digits t || match skip_digits t with String "." u => some_digits u | _ => false end) by reflexivity.
    intros s. unfold is_negative. split.
    - intros H. destruct s as [|c t]; [discriminate|].
      assert (c = "-"%char). { destruct c as [[] [] [] [] [] [] [] []]; try discriminate H. reflexivity. } subst c.
      rewrite M in H. apply Bool.orb_true_iff in H. destruct H as [H|H].
      + apply some_digits_iff in H. destruct H as (a & e & E & D & X). exists a, e. subst t. split; [reflexivity|]. split; [assumption|now left].
      + destruct (skip_digits_split t) as (a & E & F & _). destruct (skip_digits t) as [|c u] eqn:K; [discriminate|].
        assert (c = "."%char). { destruct c as [[] [] [] [] [] [] [] []]; try discriminate H. reflexivity. } subst c.
        change (some_digits u = true) in H. apply some_digits_iff in H. destruct H as (b & e & U & D & X).
        exists (String.append a (String "." b)), e. split; [|split; [assumption|right; exists a, b; split; [reflexivity|split; [|assumption]]]].
        * rewrite append_assoc. cbn. congruence.
        * destruct a as [|c0 a0]; [now left|right]. split; [discriminate|]. eapply Forall_impl; [|exact F]. intros c. apply is_digit_range.
    - intros (t & e & S & E & H). subst s. rewrite M. apply Bool.orb_true_iff. destruct H as [H|(a & b & X & A & B)].
      + left. apply some_digits_iff. now exists t, e.
      + right. subst t. rewrite append_assoc. rewrite skip_digits_app.
        * cbn. apply some_digits_iff. now exists b, e.
        * destruct A as [A|[_ A]]; [subst a; constructor|assumption].
  Qed.

  (** ** reading *)
  Lemma read_gives : forall s n a b e, s <> "--" -> read_token T s = Some (TOption n a b e) -> gives T s a e.
  Proof.
    intros s n a b e ND H. destruct s as [|c [|x r]]; [discriminate| |].
    - cbn in H. destruct (negb (Ascii.eqb c "-")); [discriminate|]. destruct (dget (String c "") T) eqn:D; [|discriminate].
      apply dget_T in D. destruct (name_T _ _ D) as (_ & y & t & E). discriminate.
    - destruct (Ascii.eqb_spec c "-") as [E|E].
      + subst c. rewrite read_dash in H. destruct (exact_token _) as [t|] eqn:X.
        * inversion H; subst. destruct (exact_token_some _ X) as (n' & a' & b' & e' & Q & Y). inversion Q; subst. now left.
        * right. split; [now apply not_exactly|].
          destruct (option_tuples T (String "-" (String x r))) as [|[[[n' a'] b'] e'] [|u l]] eqn:O; [|inversion H; subst|discriminate].
          { destruct (negative_number _); [discriminate|]. destruct (has_char _ _); discriminate. }
          assert (I : In (n, a, b, e) (option_tuples T (String "-" (String x r)))) by (rewrite O; now left).
          destruct (@tuples_might _ _ _ _ _ _ ND I) as [I1 I2]. exists n. split; [assumption|]. split; [assumption|].
          intros n' e' M. destruct (might_name M) as [a' I'].
          destruct (@might_tuples _ _ _ _ _ I' M) as [b' J]. rewrite O in J. destruct J as [J|[]]. now inversion J.
      + exfalso. unfold read_token in H. apply Ascii.eqb_neq in E. rewrite E in H. discriminate.
  Qed.
  Lemma gives_read : forall s a e, s <> "--" -> gives T s a e -> exists n b, read_token T s = Some (TOption n a b e).
  Proof.
    intros s a e ND [X|(X & n & I & M & U)].
    - destruct (exactly_shape X) as (x & r & E). subst s. rewrite read_dash.
      destruct (exactly_token X) as (n & b & Y). rewrite Y. eauto.
    - destruct (might_shape M) as (x & r & E). subst s. rewrite read_dash.
      apply not_exactly in X. rewrite X. destruct (@might_tuples _ _ _ _ _ I M) as [b J].
      assert (S : option_tuples T (String "-" (String x r)) = [(n, a, b, e)]).
      { apply (single tuple_name); [apply tuples_nodup|assumption|]. intros [[[n' a'] b'] e'] J'.
        destruct (@tuples_might _ _ _ _ _ _ ND J') as [_ M']. exact (U _ _ M'). }
      rewrite S. eauto.
  Qed.
  Lemma read_plain : forall s, s <> "--" -> (read_token T s = Some TArg <-> plain T s).
  Proof.
    intros s ND. unfold plain. destruct s as [|c [|x r]].
    - split; [now left|reflexivity].
    - cbn [read_token]. destruct (Ascii.eqb_spec c "-") as [E|E]; cbn [negb].
      + subst c. assert (D : dget "-" T = None).
        { destruct (dget "-" T) eqn:D; [|reflexivity]. apply dget_T in D. destruct (name_T _ _ D) as (_ & y & t & E). discriminate. }
        rewrite D. split; [intros _; right; now left|reflexivity].
      + split; [|reflexivity]. intros _. right. right. left. eauto.
    - destruct (Ascii.eqb_spec c "-") as [E|E].
      + subst c. rewrite read_dash. split.
        * intros H. right. right. right. split; [assumption|]. destruct (exact_token _) as [t|] eqn:X.
          { inversion H; subst. destruct (exact_token_some _ X) as (? & ? & ? & ? & Q & _). discriminate. }
          split; [now apply not_exactly|].
          destruct (option_tuples T (String "-" (String x r))) as [|[[[n' a'] b'] e'] [|u l]] eqn:O; [|discriminate|discriminate].
          split.
          { intros n e M. destruct (might_name M) as [a I]. destruct (@might_tuples _ _ _ _ _ I M) as [b J]. now rewrite O in J. }
          destruct (negative_number _) eqn:NN; [left; now apply negative_number_iff|].
          destruct (has_char " " _) eqn:HC; [right; now apply has_char_In|discriminate].
        * intros [H|[H|[(c & t & H & N)|(_ & H & M & N)]]]; try discriminate.
          { inversion H; subst. now elim N. }
          apply not_exactly in H. rewrite H.
          destruct (option_tuples T (String "-" (String x r))) as [|[[[n' a'] b'] e'] l] eqn:O.
          { destruct N as [N|N]; [apply negative_number_iff in N; now rewrite N|].
            apply has_char_In in N. rewrite N. now destruct (negative_number _). }
          exfalso. assert (I : In (n', a', b', e') (option_tuples T (String "-" (String x r)))) by (rewrite O; now left).
          destruct (@tuples_might _ _ _ _ _ _ ND I) as [_ Y]. exact (M _ _ Y).
      + unfold read_token. rewrite (proj2 (Ascii.eqb_neq c "-") E). cbn [negb]. split; [|reflexivity].
        intros _. right. right. left. eauto.
  Qed.
End Table.
