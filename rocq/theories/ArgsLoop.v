(** Facts about reading command lines: all arguments. *)
From Verif Require Import Base BaseFacts Dict Args ArgsSpec ArgsFacts.
Set Implicit Arguments.
Local Open Scope string_scope.
Local Open Scope list_scope.

Notation tok := (string * token)%type.

(** ** The loop, on tokens *)
Inductive tpieces : list tok -> list (string * string) -> Prop :=
| TPNil : tpieces [] []
| TPJoined s n d b v l vs : tpieces l vs -> tpieces ((s, TOption n (Store d) b (Some v)) :: l) ((d, v) :: vs)
| TPApart s n d b v l vs : tpieces l vs -> tpieces ((s, TOption n (Store d) b None) :: (v, TArg) :: l) ((d, v) :: vs).

Lemma tpieces_head : forall l vs, tpieces l vs -> match l with [] => True | x :: _ => is_option x = true end.
Proof. intros l vs H. now destruct H. Qed.
Lemma tpieces_no_option : forall l vs, tpieces l vs -> existsb is_option l = false -> l = [] /\ vs = [].
Proof. intros l vs H. destruct H; cbn; [auto|discriminate|discriminate]. Qed.

Lemma take_while_app {X} (f : X -> bool) : forall l a b, take_while f l = (a, b) ->
  l = a ++ b /\ forallb f a = true /\ match b with [] => True | x :: _ => f x = false end.
Proof.
  induction l as [|x l IH]; intros a b H; cbn in H.
  - inversion H; subst. auto.
  - destruct (f x) eqn:F.
    + destruct (take_while f l) as [a' b'] eqn:E. inversion H; subst. destruct (IH _ _ eq_refl) as (A & B & C).
      subst l. split; [reflexivity|]. split; [cbn; now rewrite F|assumption].
    + inversion H; subst. auto.
Qed.
Lemma take_while_to {X} (f : X -> bool) : forall a b, forallb f a = true -> match b with [] => True | x :: _ => f x = false end ->
  take_while f (a ++ b) = (a, b).
Proof.
  induction a as [|x a IH]; intros b A B; cbn in *.
  - destruct b; cbn; [reflexivity|]. now rewrite B.
  - apply Bool.andb_true_iff in A. destruct A as [A1 A2]. rewrite A1, (IH b) by assumption. reflexivity.
Qed.

Section Loop.
  Variable p : parser.

  Lemma consume_option_extras : forall x rest st st' rest', consume_option p x rest st = inr (st', rest') ->
    exists e, ps_extras st' = ps_extras st ++ e.
  Proof.
    intros [s t] rest st st' rest' H. unfold consume_option in H. cbn [snd fst] in H.
    destruct t as [| |n [d|] b [v|]|]; try discriminate;
      try (inversion H; subst; cbn; first [exists []; now rewrite app_nil_r | eexists; reflexivity]).
    destruct rest as [|y rest]; [discriminate|]. destruct (is_arg y); [|discriminate].
    inversion H; subst. exists []. cbn. now rewrite app_nil_r.
  Qed.
  Lemma consume_words_extras : forall l st st' rest, consume_words p l st = Some (st', rest) -> ps_extras st' = ps_extras st.
  Proof.
    intros l st st' rest H. unfold consume_words in H. destruct (pa_positional p) as [[n nm]|]; [|discriminate].
    destruct (ps_words st); [discriminate|]. destruct (match_positional n l) as [[ws r]|]; [|discriminate]. now inversion H.
  Qed.
  Lemma loop_extras : forall fuel l st st', loop p fuel l st = Parses st' -> exists e, ps_extras st' = ps_extras st ++ e.
  Proof.
    assert (R : forall st : parsed, exists e, ps_extras st = ps_extras st ++ e) by (intros st; exists []; now rewrite app_nil_r).
    induction fuel as [|fuel IH]; intros l st st' H; cbn [loop] in H; [inversion H; subst; apply R|].
    destruct (existsb is_option l).
    - destruct l as [|x l']; [inversion H; subst; apply R|]. cbv zeta in H.
      assert (K : forall o, (let '(a, rest) := take_while (fun t => negb (is_option t)) (x :: l') in
                   match rest with
                   | x :: rest => match consume_option p x rest (Parsed (ps_values st) (ps_words st) (ps_extras st ++ map fst a)) with
                                  | inl o => o | inr (st, rest) => loop p fuel rest st end
                   | [] => Parses st end) = o -> o = Parses st' -> exists e, ps_extras st' = ps_extras st ++ e).
      { intros o E O. subst o. destruct (take_while _ _) as [a [|y r]]; [inversion O; subst; apply R|].
        destruct (consume_option p y r _) as [o|[st1 r1]] eqn:C.
        - exfalso. subst o. unfold consume_option in C. destruct y as [s t]; cbn [snd fst] in C.
          destruct t as [| |n [d|] b [v|]|]; try discriminate. destruct r as [|z r]; [discriminate|]. destruct (is_arg z); discriminate.
        - destruct (@consume_option_extras _ _ _ _ _ C) as [e1 E1]. destruct (IH _ _ _ O) as [e2 E2]. cbn in E1.
          rewrite E2, E1, <- !app_assoc. eauto. }
      destruct (is_option x); [exact (K _ eq_refl H)|].
      destruct (consume_words p (x :: l') st) as [[st1 r1]|] eqn:C; [|exact (K _ eq_refl H)].
      rewrite <- (@consume_words_extras _ _ _ _ C). exact (IH _ _ _ H).
    - destruct (consume_words p l st) as [[st1 r1]|] eqn:C; inversion H; subst; cbn; [rewrite (@consume_words_extras _ _ _ _ C)|]; eauto.
  Qed.

  (** What one round does on an option in front *)
  Lemma loop_option : forall fuel x l st, is_option x = true ->
    loop p (S fuel) (x :: l) st =
    match consume_option p x l (Parsed (ps_values st) (ps_words st) (ps_extras st ++ [])) with
    | inl o => o | inr (st, rest) => loop p fuel rest st end.
  Proof.
    intros fuel x l st O. cbn [loop existsb]. rewrite O. cbn [orb take_while]. rewrite O. cbn [negb map]. reflexivity.
  Qed.
  Definition cleared (st : parsed) : parsed := Parsed (ps_values st) (ps_words st) (ps_extras st ++ []).
  Lemma cleared_id : forall st, cleared st = st.
  Proof. intros [v w e]. unfold cleared. cbn. now rewrite app_nil_r. Qed.

  (** An option in front, when nothing is left unused in the end *)
  Lemma option_front : forall fuel x l st st', is_option x = true -> loop p (S fuel) (x :: l) st = Parses st' -> ps_extras st' = [] ->
    exists pre d v l', tpieces pre [(d, v)] /\ x :: l = pre ++ l' /\ (List.length l' <= List.length l)%nat /\
      loop p fuel l' (Parsed (ps_values st ++ [(d, v)]) (ps_words st) (ps_extras st)) = Parses st'.
  Proof.
    intros fuel [s t] l st st' O H X. rewrite loop_option in H by assumption. fold (cleared st) in H. rewrite cleared_id in H.
    unfold consume_option in H. cbn [snd fst] in H.
    destruct t as [| |n [d|] b [v|]|]; try discriminate.
    - exists [(s, TOption n (Store d) b (Some v))], d, v, l. split; [repeat constructor|]. split; [reflexivity|]. split; [lia|assumption].
    - destruct l as [|[v t] l]; [discriminate|]. unfold is_arg in H. cbn [snd] in H. destruct t; try discriminate.
      exists [(s, TOption n (Store d) b None); (v, TArg)], d, v, l. split; [repeat constructor|]. split; [reflexivity|]. split; [cbn; lia|assumption].
    - exfalso. apply loop_extras in H. destruct H as [e E]. cbn in E. rewrite X in E. destruct (ps_extras st); discriminate.
  Qed.
  Lemma option_front_back : forall fuel pre d v l st, tpieces pre [(d, v)] -> (List.length (pre ++ l) < S fuel)%nat ->
    loop p (S fuel) (pre ++ l) st = loop p fuel l (Parsed (ps_values st ++ [(d, v)]) (ps_words st) (ps_extras st)).
  Proof.
    intros fuel pre d v l st P _. inversion P as [|s n d' b v' l' vs P1|s n d' b v' l' vs P1]; subst; inversion P1; subst; cbn [app];
      rewrite loop_option by reflexivity; fold (cleared st); rewrite cleared_id; reflexivity.
  Qed.
  Lemma tpieces_cons : forall pre d v l vs, tpieces pre [(d, v)] -> tpieces l vs -> tpieces (pre ++ l) ((d, v) :: vs).
  Proof. intros pre d v l vs P Q. inversion P as [|s n d' b v' l' vs' P1|s n d' b v' l' vs' P1]; subst; inversion P1; subst; now constructor. Qed.
  Lemma tpieces_front : forall l d v vs, tpieces l ((d, v) :: vs) -> exists pre l', l = pre ++ l' /\ tpieces pre [(d, v)] /\ tpieces l' vs /\ pre <> [].
  Proof.
    intros l d v vs P. inversion P as [|s n d' b v' l' vs' P1|s n d' b v' l' vs' P1]; subst.
    - exists [(s, TOption n (Store d) b (Some v))], l'. repeat split; [repeat constructor|assumption|discriminate].
    - exists [(s, TOption n (Store d) b None); (v, TArg)], l'. repeat split; [repeat constructor|assumption|discriminate].
  Qed.

  Definition closed (st : parsed) : Prop := pa_positional p = None \/ ps_words st <> None.
  Lemma closed_words : forall l st, closed st -> consume_words p l st = None.
  Proof.
    intros l st [C|C]; unfold consume_words; [now rewrite C|].
    destruct (pa_positional p) as [[n nm]|]; [|reflexivity]. destruct (ps_words st); [reflexivity|congruence].
  Qed.
  Lemma extras_nil : forall fuel l st st', loop p fuel l st = Parses st' -> ps_extras st' = [] -> ps_extras st = [].
  Proof. intros fuel l st st' H E. apply loop_extras in H. destruct H as [e X]. rewrite E in X. now destruct (ps_extras st). Qed.

  (** Arguments in front that are passed over are left unused. *)
  Lemma skipped : forall fuel x l st st', is_option x = false -> consume_words p (x :: l) st = None ->
    loop p (S fuel) (x :: l) st = Parses st' -> ps_extras st' <> [].
  Proof.
    intros fuel x l st st' O C H E. cbn [loop] in H. rewrite O, C in H. cbv zeta in H.
    destruct (existsb is_option (x :: l)) eqn:Q.
    - cbn [take_while] in H. rewrite O in H. cbn [negb] in H.
      destruct (take_while (fun t => negb (is_option t)) l) as [a [|y r]] eqn:TW.
      + apply take_while_app in TW. destruct TW as (A & B & _). rewrite app_nil_r in A. subst a. cbn [existsb] in Q. rewrite O in Q. cbn in Q.
        apply existsb_exists in Q. destruct Q as (z & Z1 & Z2). rewrite forallb_forall in B. apply B in Z1. rewrite Z2 in Z1. discriminate.
      + destruct (consume_option p y r _) as [o|[st1 r1]] eqn:CO.
        * subst o. unfold consume_option in CO. destruct y as [s t]; cbn [snd fst] in CO.
          destruct t as [| |n [d|] b [v|]|]; try discriminate. destruct r as [|z r]; [discriminate|]. destruct (is_arg z); discriminate.
        * apply extras_nil in H; [|assumption]. destruct (@consume_option_extras _ _ _ _ _ CO) as [e X]. cbn in X. rewrite H in X.
          destruct (ps_extras st); discriminate.
    - inversion H; subst. cbn in E. destruct (ps_extras st); discriminate.
  Qed.

  Lemma loop_closed : forall fuel l st st', (List.length l < fuel)%nat -> closed st -> loop p fuel l st = Parses st' -> ps_extras st' = [] ->
    exists vs, tpieces l vs /\ st' = Parsed (ps_values st ++ vs) (ps_words st) [].
  Proof.
    induction fuel as [|fuel IH]; intros l st st' L C H X; [lia|].
    destruct l as [|x l].
    - pose proof (@extras_nil _ _ _ _ H X) as Y. cbn in H. rewrite (closed_words _ C) in H. inversion H; subst. exists []. split; [constructor|].
      cbn. rewrite Y, !app_nil_r. reflexivity.
    - destruct (is_option x) eqn:O.
      + destruct (@option_front _ _ _ _ _ O H X) as (pre & d & v & l' & P & E & LL & H'). cbn in L.
        destruct (IH l' (Parsed (ps_values st ++ [(d, v)]) (ps_words st) (ps_extras st)) st') as (vs & Q & R); [lia|exact C|assumption|assumption|].
        exists ((d, v) :: vs). split; [rewrite E; now apply tpieces_cons|]. rewrite R. cbn. now rewrite <- app_assoc.
      + exfalso. exact (@skipped _ _ _ _ _ O (closed_words _ C) H X).
  Qed.
  Lemma loop_closed_back : forall vs fuel l st, (List.length l < fuel)%nat -> closed st -> tpieces l vs ->
    loop p fuel l st = Parses (Parsed (ps_values st ++ vs) (ps_words st) (ps_extras st)).
  Proof.
    induction vs as [|[d v] vs IH]; intros fuel l st L C P; (destruct fuel as [|fuel]; [lia|]).
    - inversion P; subst. cbn. rewrite (closed_words _ C). cbn. now rewrite !app_nil_r.
    - destruct (tpieces_front P) as (pre & l' & E & P1 & P2 & N). subst l. rewrite (@option_front_back fuel pre d v) by assumption.
      rewrite IH; [cbn; now rewrite <- app_assoc| |exact C|assumption].
      rewrite app_length in L. destruct pre; [now elim N|]. cbn in L. lia.
  Qed.

  Lemma match_split : forall n l ws rest, match_positional n l = Some (ws, rest) ->
    exists blk, l = blk ++ rest /\ ws = map fst blk /\ blk <> [] /\ match l with x :: _ => is_option x = false | [] => True end.
  Proof.
    intros n l ws rest H. unfold match_positional in H. destruct (take_while is_dashes l) as [d l1] eqn:TW.
    apply take_while_app in TW. destruct TW as (A & B & _). destruct l1 as [|x l2]; [discriminate|].
    destruct (is_arg x) eqn:IA; [|discriminate].
    assert (K : exists m r, l2 = m ++ r /\ ws = map fst (d ++ x :: m) /\ rest = r).
    { destruct n.
      - destruct (take_while is_dashes l2) as [m r] eqn:T2. apply take_while_app in T2. inversion H; subst. exists m, rest. tauto.
      - destruct (take_while (fun t => is_arg t || is_dashes t) l2) as [m r] eqn:T2. apply take_while_app in T2. inversion H; subst. exists m, rest. tauto.
      - inversion H; subst. exists l2, []. now rewrite app_nil_r. }
    destruct K as (m & r & E1 & E2 & E3). subst. exists (d ++ x :: m). rewrite <- app_assoc. split; [reflexivity|]. split; [reflexivity|].
    split; [destruct d; discriminate|]. destruct d as [|y d]; cbn in *.
    - unfold is_arg in IA. unfold is_option. now destruct (snd x).
    - apply Bool.andb_true_iff in B. destruct B as [B _]. unfold is_dashes in B. unfold is_option. now destruct (snd y).
  Qed.

  Variables (n : nargs) (nm : string).
  Hypothesis POS : pa_positional p = Some (n, nm).

  Inductive tline (l : list tok) (vals : list (string * string)) (ws : list string) : Prop :=
  | TLine pre v1 blk post v2 :
      l = pre ++ blk ++ post -> vals = v1 ++ v2 -> ws = words_of n (map fst blk) ->
      tpieces pre v1 -> match_positional n (blk ++ post) = Some (map fst blk, post) -> tpieces post v2 -> tline l vals ws.

  Lemma loop_open : forall fuel l st st', (List.length l < fuel)%nat -> ps_words st = None -> loop p fuel l st = Parses st' ->
    ps_extras st' = [] -> ps_words st' <> None ->
    exists vals ws, tline l vals ws /\ st' = Parsed (ps_values st ++ vals) (Some ws) [].
  Proof.
    induction fuel as [|fuel IH]; intros l st st' L W H X Y; [lia|].
    destruct l as [|x l].
    - cbn in H. assert (C : consume_words p [] st = None) by (unfold consume_words; rewrite POS, W; reflexivity).
      rewrite C in H. inversion H; subst. now cbn in Y.
    - destruct (is_option x) eqn:O.
      + destruct (@option_front _ _ _ _ _ O H X) as (pre & d & v & l' & P & E & LL & H'). cbn in L.
        destruct (IH l' (Parsed (ps_values st ++ [(d, v)]) (ps_words st) (ps_extras st)) st') as (vals & ws & Q & R); [lia|exact W|assumption|assumption|assumption|].
        destruct Q as [pre1 v1 blk post v2 Q1 Q2 Q3 Q4 Q5 Q6].
        exists ((d, v) :: vals), ws. split.
        * apply TLine with (pre := pre ++ pre1) (v1 := (d, v) :: v1) (blk := blk) (post := post) (v2 := v2); try assumption.
          { rewrite E, Q1. now rewrite <- app_assoc. } { now rewrite Q2. } { now apply tpieces_cons. }
        * rewrite R. cbn. now rewrite <- app_assoc.
      + destruct (consume_words p (x :: l) st) as [[st1 rest]|] eqn:C; [|exfalso; exact (@skipped _ _ _ _ _ O C H X)].
        pose proof C as C'. unfold consume_words in C'. rewrite POS, W in C'.
        destruct (match_positional n (x :: l)) as [[ws0 r0]|] eqn:M; [|discriminate]. inversion C'; subst st1 rest. clear C'.
        destruct (@match_split _ _ _ _ M) as (blk & E1 & E2 & E3 & _). subst ws0.
        assert (K : exists vs, tpieces r0 vs /\ st' = Parsed (ps_values st ++ vs) (Some (words_of n (map fst blk))) []).
        { cbn [loop] in H. destruct (existsb is_option (x :: l)) eqn:Q.
          - rewrite O, C in H. destruct (@loop_closed fuel r0 (Parsed (ps_values st) (Some (words_of n (map fst blk))) (ps_extras st)) st') as (vs & A & B); [|right; discriminate|assumption|assumption|].
            + apply (f_equal (@List.length tok)) in E1. rewrite app_length in E1. cbn in E1, L. destruct blk; [now elim E3|]. cbn in E1. lia.
            + exists vs. split; assumption.
          - rewrite C in H. inversion H; subst. cbn in X. destruct (ps_extras st); [|discriminate]. cbn in X. destruct r0; [|discriminate].
            exists []. split; [constructor|]. cbn. now rewrite app_nil_r. }
        destruct K as (vs & K1 & K2). exists vs, (words_of n (map fst blk)). split; [|assumption].
        rewrite E1 in M |- *. apply TLine with (pre := []) (v1 := []) (blk := blk) (post := r0) (v2 := vs); try assumption; try reflexivity. constructor.
  Qed.
  Lemma loop_open_back : forall vals ws fuel l st, (List.length l < fuel)%nat -> ps_words st = None -> tline l vals ws ->
    loop p fuel l st = Parses (Parsed (ps_values st ++ vals) (Some ws) (ps_extras st)).
  Proof.
    intros vals ws fuel l st L W [pre v1 blk post v2 Q1 Q2 Q3 Q4 Q5 Q6]. subst l vals ws.
    revert fuel pre st L W Q4. induction v1 as [|[d v] v1 IH]; intros fuel pre st L W Q4; (destruct fuel as [|fuel]; [lia|]).
    - inversion Q4; subst. cbn [app] in *. destruct (@match_split _ _ _ _ Q5) as (blk' & E1 & E2 & E3 & E4).
      apply app_inv_tail in E1. subst blk'.
      assert (C : consume_words p (blk ++ post) st = Some (Parsed (ps_values st) (Some (words_of n (map fst blk))) (ps_extras st), post)).
      { unfold consume_words. now rewrite POS, W, Q5. }
      assert (LP : (List.length post < fuel)%nat).
      { rewrite app_length in L. destruct blk; [now elim E3|]. cbn in L. lia. }
      cbn [loop]. rewrite C. destruct (existsb is_option (blk ++ post)) eqn:X.
      + destruct (blk ++ post) as [|x l0]; [discriminate|]. rewrite E4.
        rewrite (@loop_closed_back v2); [reflexivity|assumption|right; discriminate|assumption].
      + rewrite existsb_app in X. apply Bool.orb_false_iff in X. destruct X as [_ X].
        destruct (tpieces_no_option Q6 X) as [Y1 Y2]. subst. cbn. now rewrite !app_nil_r.
    - destruct (tpieces_front Q4) as (pre1 & pre2 & E & P1 & P2 & N). subst pre. rewrite <- app_assoc in *.
      rewrite (@option_front_back fuel pre1 d v) by assumption.
      rewrite IH; [cbn; now rewrite <- app_assoc| |exact W|assumption].
      rewrite app_length in L. destruct pre1; [now elim N|]. cbn in L. lia.
  Qed.
End Loop.
