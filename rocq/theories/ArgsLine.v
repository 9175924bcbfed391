(** Facts about reading command lines: from arguments to what is run. *)
From Verif Require Import Base BaseFacts Dict Args ArgsSpec ArgsFacts ArgsLoop.
Set Implicit Arguments.
Local Open Scope string_scope.
Local Open Scope list_scope.

Lemma seqb_true : forall a b, seqb a b = true <-> a = b.
Proof. intros a b. apply String.eqb_eq. Qed.
Lemma seqb_false : forall a b, seqb a b = false <-> a <> b.
Proof. intros a b. apply String.eqb_neq. Qed.

Section Tokens.
  Variable T : options.
  Hypothesis OK : ok T.

  Lemma tokens_fst : forall args l, tokens T args = Some l -> map fst l = args.
  Proof.
    induction args as [|s args IH]; intros l H; cbn in H.
    - now inversion H.
    - destruct (seqb s "--").
      + inversion H; subst. cbn. rewrite map_map. cbn. now rewrite map_id.
      + destruct (read_token T s); [|discriminate]. destruct (tokens T args) as [ts|]; [|discriminate].
        inversion H; subst. cbn. now rewrite (IH ts).
  Qed.
  Definition readable (x : tok) : Prop := fst x <> "--" /\ read_token T (fst x) = Some (snd x).
  Lemma read_no_dashes : forall s, read_token T s <> Some TDashes.
  Proof.
    intros s. unfold read_token. destruct s as [|c t]; [discriminate|]. destruct (negb _); [discriminate|].
    destruct (dget _ T); [discriminate|]. destruct (seqb t ""); [discriminate|].
    destruct (partition_eq _) as [[n v]|].
    - destruct (dget n T); [discriminate|]. destruct (option_tuples _ _) as [|[[[n' a] e] v'] [|]]; try discriminate.
      destruct (negative_number _); [discriminate|]. destruct (has_char _ _); discriminate.
    - destruct (option_tuples _ _) as [|[[[n' a] e] v'] [|]]; try discriminate.
      destruct (negative_number _); [discriminate|]. destruct (has_char _ _); discriminate.
  Qed.
  Lemma tokens_split : forall p q args, tokens T args = Some (p ++ q) -> forallb (fun x => negb (is_dashes x)) p = true ->
    Forall readable p /\ exists args', args = map fst p ++ args' /\ tokens T args' = Some q.
  Proof.
    induction p as [|x p IH]; intros q args H F.
    - split; [constructor|]. exists args. auto.
    - cbn in F. apply Bool.andb_true_iff in F. destruct F as [F1 F2].
      destruct args as [|s args]; [discriminate|]. cbn [tokens] in H. destruct (seqb s "--") eqn:S.
      + inversion H; subst. discriminate.
      + destruct (read_token T s) as [t|] eqn:R; [|discriminate]. destruct (tokens T args) as [ts|] eqn:TS; [|discriminate].
        cbn [app] in H. inversion H; subst. destruct (IH _ _ TS F2) as (A & args' & B & C).
        split; [|exists args'; split; [cbn; now rewrite B|assumption]].
        constructor; [|assumption]. split; [now apply seqb_false|assumption].
  Qed.
  Lemma tokens_app : forall p b q, Forall readable p -> tokens T b = Some q -> tokens T (map fst p ++ b) = Some (p ++ q).
  Proof.
    induction p as [|[s t] p IH]; intros b q F H; [assumption|].
    inversion F as [|? ? [F1 F2] F3]; subst. cbn [map app fst snd tokens] in *. apply seqb_false in F1. now rewrite F1, F2, (IH b q).
  Qed.
  Lemma plain_not_dashes : forall s, plain T s -> s <> "--".
  Proof.
    intros s H E. subst s. destruct H as [H|[H|[(c & t & H & N)|(H & _)]]]; try discriminate; [|now elim H].
    inversion H; subst. now elim N.
  Qed.
  Lemma plain_readable : forall s, plain T s -> readable (s, TArg).
  Proof. intros s H. pose proof (plain_not_dashes H). split; [assumption|]. cbn. now apply read_plain. Qed.
  Lemma readable_plain : forall s, readable (s, TArg) -> plain T s.
  Proof. intros s [A B]. cbn in *. now apply (read_plain OK). Qed.
  Lemma tpieces_pieces : forall l vs, tpieces l vs -> Forall readable l -> pieces T (map fst l) vs.
  Proof.
    induction 1 as [|s n d b v l vs P IH|s n d b v l vs P IH]; intros F; [constructor| |].
    - inversion F as [|? ? [F1 F2] F3]; subst. cbn in F1, F2. change (map fst ((s, TOption n (Store d) b (Some v)) :: l)) with ([s] ++ map fst l).
      constructor; [|now apply IH]. constructor; [assumption|]. exact (read_gives OK F1 F2).
    - inversion F as [|? ? [F1 F2] F3]; subst. inversion F3 as [|? ? F4 F5]; subst. cbn in F1, F2.
      change (map fst ((s, TOption n (Store d) b None) :: (v, TArg) :: l)) with ([s; v] ++ map fst l).
      constructor; [|now apply IH]. apply PApart; [assumption|exact (read_gives OK F1 F2)|now apply readable_plain].
  Qed.
  Lemma pieces_tpieces : forall l vs, pieces T l vs -> exists tl, tpieces tl vs /\ Forall readable tl /\ map fst tl = l.
  Proof.
    induction 1 as [|l d v l' vs P Q IH]; [exists []; repeat constructor|]. destruct IH as (tl & A & B & C).
    destruct P as [s d v N G|s d v N G PL].
    - destruct (gives_read OK N G) as (n & b & R). exists ((s, TOption n (Store d) b (Some v)) :: tl).
      split; [now constructor|]. split; [constructor; [now split|assumption]|]. cbn. now rewrite C.
    - destruct (gives_read OK N G) as (n & b & R). exists ((s, TOption n (Store d) b None) :: (v, TArg) :: tl).
      split; [now constructor|]. split; [|cbn; now rewrite C].
      constructor; [now split|]. constructor; [now apply plain_readable|assumption].
  Qed.
  Lemma tpieces_no_dashes : forall l vs, tpieces l vs -> forallb (fun x => negb (is_dashes x)) l = true.
  Proof. induction 1; cbn; auto. Qed.
End Tokens.

(** ** The block of words *)
Definition many (n : nargs) (ws : list string) : Prop :=
  match n with NOne => List.length ws = 1%nat | _ => ws <> [] end.

Lemma match_args : forall n l ws rest, n <> NParser -> match_positional n l = Some (ws, rest) ->
  exists blk, l = blk ++ rest /\ ws = map fst blk /\ Forall (fun x => is_arg x || is_dashes x = true) blk /\
    match n with NOne => List.length (filter is_arg blk) = 1%nat | _ => filter is_arg blk <> [] end.
Proof.
  intros n l ws rest NP H. unfold match_positional in H. destruct (take_while is_dashes l) as [d l1] eqn:TW.
  apply take_while_app in TW. destruct TW as (A & B & _). destruct l1 as [|x l2]; [discriminate|].
  destruct (is_arg x) eqn:IA; [|discriminate].
  assert (D : forall k, forallb is_dashes k = true -> Forall (fun x => is_arg x || is_dashes x = true) k /\ filter is_arg k = []).
  { induction k as [|y k IH]; intros F; [now split|]. cbn in F. apply Bool.andb_true_iff in F. destruct F as [F1 F2].
    destruct (IH F2) as [I1 I2]. split; [constructor; [rewrite F1; apply Bool.orb_true_r|assumption]|].
    cbn. assert (E : is_arg y = false) by (unfold is_arg; unfold is_dashes in F1; now destruct (snd y)). now rewrite E. }
  destruct (D _ B) as [D1 D2]. destruct n; [| |now elim NP].
  - destruct (take_while is_dashes l2) as [m r] eqn:T2. apply take_while_app in T2. destruct T2 as (E & F & _). inversion H; subst.
    destruct (D _ F) as [D3 D4]. exists (d ++ x :: m). rewrite <- app_assoc. split; [reflexivity|]. split; [reflexivity|]. split.
    + apply Forall_app. split; [assumption|]. constructor; [now rewrite IA|assumption].
    + rewrite filter_app, D2. cbn. now rewrite IA, D4.
  - destruct (take_while (fun t => is_arg t || is_dashes t) l2) as [m r] eqn:T2. apply take_while_app in T2. destruct T2 as (E & F & _). inversion H; subst.
    exists (d ++ x :: m). rewrite <- app_assoc. split; [reflexivity|]. split; [reflexivity|]. split.
    + apply Forall_app. split; [assumption|]. constructor; [now rewrite IA|]. rewrite forallb_forall in F. now apply Forall_forall.
    + rewrite filter_app, D2. cbn. rewrite IA. discriminate.
Qed.
Lemma drop_none : forall l, ~ In "--" l -> drop_dashes l = l.
Proof.
  induction l as [|s l IH]; intros N; [reflexivity|]. cbn. destruct (seqb s "--") eqn:E.
  - apply seqb_true in E. subst. elim N. now left.
  - rewrite IH; [reflexivity|]. intros X. apply N. now right.
Qed.
Lemma drop_first : forall a b, ~ In "--" a -> drop_dashes (a ++ "--" :: b) = a ++ b.
Proof.
  induction a as [|s a IH]; intros b N; [reflexivity|]. cbn. destruct (seqb s "--") eqn:E.
  - apply seqb_true in E. subst. elim N. now left.
  - rewrite IH; [reflexivity|]. intros X. apply N. now right.
Qed.
Lemma words_drop : forall n l, n <> NParser -> words_of n l = drop_dashes l.
Proof. intros [| |] l N; [reflexivity|reflexivity|now elim N]. Qed.

Lemma arg_of : forall x : tok, is_arg x || is_dashes x = true -> is_dashes x = false -> x = (fst x, TArg).
Proof. intros [s t] H D. unfold is_arg, is_dashes in *. cbn in *. destruct t; try discriminate; reflexivity. Qed.
Lemma dashes_of : forall x : tok, is_dashes x = true -> snd x = TDashes.
Proof. intros [s t] D. unfold is_dashes in D. cbn in *. destruct t; try discriminate; reflexivity. Qed.
Lemma filter_all {X} (f : X -> bool) : forall l, Forall (fun x => f x = true) l -> filter f l = l.
Proof. induction 1 as [|x l H _ IH]; [reflexivity|]. cbn. now rewrite H, IH. Qed.

Section Block.
  Variable T : options.
  Hypothesis OK : ok T.
  Variable n : nargs.
  Hypothesis NP : n <> NParser.

  Lemma block_of : forall args blk post v2, tokens T args = Some (blk ++ post) ->
    match_positional n (blk ++ post) = Some (map fst blk, post) -> tpieces post v2 ->
    exists last, block T (map fst blk) (words_of n (map fst blk)) last /\ many n (words_of n (map fst blk)) /\
      (last = true -> post = []) /\ (last = false -> Forall (readable T) blk) /\
      exists rest, args = map fst blk ++ rest /\ (last = false -> tokens T rest = Some post) /\ map fst post = rest.
  Proof.
    intros args blk post v2 TK M P. destruct (match_args _ NP M) as (blk' & E1 & E2 & FA & CNT). apply app_inv_tail in E1. subst blk'. clear E2.
    assert (AR : args = map fst blk ++ map fst post) by (rewrite <- map_app; symmetry; now apply tokens_fst with T).
    rewrite !words_drop by assumption.
    destruct (take_while (fun x => negb (is_dashes x)) blk) as [b1 b2] eqn:TW. apply take_while_app in TW. destruct TW as (E & F & HD).
    assert (RB1 : Forall (readable T) b1 /\ exists args', args = map fst b1 ++ args' /\ tokens T args' = Some (b2 ++ post)).
    { apply tokens_split; [|assumption]. now rewrite app_assoc, <- E. }
    destruct RB1 as (RB1 & args' & AR' & TK').
    assert (A1 : Forall (fun x : tok => x = (fst x, TArg)) b1).
    { subst blk. apply Forall_app in FA. destruct FA as [FA _]. rewrite forallb_forall in F. rewrite Forall_forall in FA |- *.
      intros x I. apply arg_of; [now apply FA|]. apply F in I. now apply Bool.negb_true_iff in I. }
    assert (PL : Forall (plain T) (map fst b1)).
    { apply Forall_forall. intros s I. apply in_map_iff in I. destruct I as (x & X & I). subst s. apply readable_plain; [assumption|].
      rewrite Forall_forall in A1, RB1. rewrite <- (A1 _ I). now apply RB1. }
    assert (ND : ~ In "--" (map fst b1)).
    { intros I. rewrite Forall_forall in PL. apply PL in I. apply plain_not_dashes in I. now elim I. }
    assert (C1 : filter is_arg b1 = b1).
    { apply filter_all. eapply Forall_impl; [|exact A1]. cbn. intros x X. rewrite X. reflexivity. }
    destruct b2 as [|[s t] b3].
    - rewrite app_nil_r in E. subst blk. rewrite drop_none by assumption. exists false. split; [now constructor|].
      rewrite C1 in CNT. split; [destruct n; cbn; [now rewrite map_length|now destruct b1|now elim NP]|].
      split; [discriminate|]. split; [auto|]. exists args'. split; [assumption|]. split; [auto|]. cbn in TK'. exact (tokens_fst _ _ TK').
    - apply Bool.negb_false_iff in HD. apply dashes_of in HD. cbn in HD. subst t.
      destruct args' as [|s' args']; [discriminate|]. cbn [tokens app] in TK'.
      destruct (seqb s' "--") eqn:S.
      2:{ destruct (read_token T s') as [t|] eqn:R; [|discriminate]. destruct (tokens T args'); [|discriminate].
          inversion TK'; subst. elim (@read_no_dashes T _ R). }
      apply seqb_true in S. subst s'. inversion TK' as [[S1 S2]]. subst s.
      assert (A3 : Forall (fun x : tok => is_arg x = true) (b3 ++ post)).
      { rewrite <- S2. apply Forall_forall. intros x I. apply in_map_iff in I. destruct I as (y & Y & _). now subst x. }
      apply Forall_app in A3. destruct A3 as [A3 A4].
      assert (PN : post = []).
      { pose proof (tpieces_head P) as HD. destruct post as [|y post]; [reflexivity|]. inversion A4 as [|? ? Y _]; subst.
        unfold is_arg in Y. unfold is_option in HD. now destruct (snd y). }
      subst post. subst blk. rewrite map_app. cbn [map fst]. rewrite drop_first by assumption.
      exists true. split; [now constructor|]. split.
      + rewrite filter_app, C1 in CNT. cbn [filter] in CNT. change (is_arg ("--", TDashes)) with false in CNT. cbv iota in CNT.
        rewrite (filter_all _ A3) in CNT. rewrite <- map_app. destruct n; cbn; [now rewrite map_length|now destruct (b1 ++ b3)|now elim NP].
      + split; [auto|]. split; [discriminate|]. exists []. split; [|split; [discriminate|reflexivity]].
        rewrite AR. cbn. rewrite map_app. reflexivity.
  Qed.

  Definition arg_tokens (ws : list string) : list tok := map (fun s => (s, TArg)) ws.
  Lemma arg_tokens_fst : forall ws, map fst (arg_tokens ws) = ws.
  Proof. intros ws. unfold arg_tokens. rewrite map_map. apply map_id. Qed.
  Lemma arg_tokens_args : forall ws, forallb (fun t => is_arg t || is_dashes t) (arg_tokens ws) = true.
  Proof. induction ws; [reflexivity|assumption]. Qed.
  Lemma option_stops : forall post v2, tpieces post v2 -> match post with [] => True | x :: _ => is_dashes x = false end /\
    match post with [] => True | x :: _ => is_arg x || is_dashes x = false end.
  Proof.
    intros post v2 P. apply tpieces_head in P. destruct post as [|[s t] post]; [auto|]. unfold is_option, is_arg, is_dashes in *. cbn in *. now destruct t.
  Qed.
  Lemma of_block : forall b ws last post v2, block T b ws last -> many n ws -> tpieces post v2 -> Forall (readable T) post -> (last = true -> post = []) ->
    exists blk, tokens T (b ++ map fst post) = Some (blk ++ post) /\ map fst blk = b /\ words_of n b = ws /\
      match_positional n (blk ++ post) = Some (b, post).
  Proof.
    intros b ws last post v2 B C P R L. rewrite words_drop by assumption. destruct B as [ws PL|w1 w2 PL].
    - assert (RW : Forall (readable T) (arg_tokens ws)).
      { unfold arg_tokens. apply Forall_forall. intros x I. apply in_map_iff in I. destruct I as (s & S & I). subst x.
        apply plain_readable; [assumption|]. rewrite Forall_forall in PL. now apply PL. }
      exists (arg_tokens ws). rewrite arg_tokens_fst. split.
      { rewrite <- (arg_tokens_fst ws) at 1. apply tokens_app; [assumption|].
        pose proof (@tokens_app T post [] [] R eq_refl) as K. rewrite !app_nil_r in K. exact K. }
      split; [reflexivity|]. split.
      { apply drop_none. intros I. rewrite Forall_forall in PL. apply PL in I. apply plain_not_dashes in I. now elim I. }
      destruct (option_stops P) as [O1 O2]. destruct ws as [|w ws]; [destruct n; cbn in C; [discriminate|now elim C|now elim C]|].
      unfold match_positional. cbn [arg_tokens map app take_while is_dashes snd is_arg]. fold (arg_tokens ws). destruct n; [| |now elim NP].
      + destruct ws; [|discriminate]. cbn [arg_tokens map app]. pose proof (take_while_to is_dashes [] post eq_refl O1) as K. cbn [app] in K. now rewrite K.
      + rewrite (take_while_to _ (arg_tokens ws) post); [|apply arg_tokens_args|assumption]. cbn [app map fst]. now rewrite arg_tokens_fst.
    - rewrite (L eq_refl) in *. cbn [map]. rewrite app_nil_r.
      assert (RW : Forall (readable T) (arg_tokens w1)).
      { unfold arg_tokens. apply Forall_forall. intros x I. apply in_map_iff in I. destruct I as (s & S & I). subst x.
        apply plain_readable; [assumption|]. rewrite Forall_forall in PL. now apply PL. }
      exists (arg_tokens w1 ++ ("--", TDashes) :: arg_tokens w2). rewrite !app_nil_r. split.
      { rewrite <- (arg_tokens_fst w1) at 1. apply tokens_app; [assumption|]. reflexivity. }
      split. { rewrite map_app, arg_tokens_fst. cbn. now rewrite arg_tokens_fst. }
      split. { apply drop_first. intros I. rewrite Forall_forall in PL. apply PL in I. apply plain_not_dashes in I. now elim I. }
      unfold match_positional. destruct n; [| |now elim NP].
      + destruct w1 as [|w w1].
        * destruct w2 as [|w [|? ?]]; try discriminate. reflexivity.
        * destruct w1; [|discriminate]. destruct w2; [|discriminate]. reflexivity.
      + assert (G : forall u, take_while (fun t => is_arg t || is_dashes t) (arg_tokens u) = (arg_tokens u, [])).
        { intros u. rewrite <- (app_nil_r (arg_tokens u)) at 1. apply take_while_to; [apply arg_tokens_args|exact I]. }
        destruct w1 as [|w w1].
        * destruct w2 as [|w w2]; [now elim C|]. cbn [arg_tokens map app take_while is_dashes snd is_arg]. fold (arg_tokens w2).
          rewrite G. cbn. now rewrite arg_tokens_fst.
        * cbn [arg_tokens map app take_while is_dashes snd is_arg]. fold (arg_tokens w1). fold (arg_tokens w2).
          assert (G' : take_while (fun t : tok => is_arg t || is_dashes t) (arg_tokens w1 ++ ("--", TDashes) :: arg_tokens w2) = (arg_tokens w1 ++ ("--", TDashes) :: arg_tokens w2, [])).
          { rewrite <- (app_nil_r (arg_tokens w1 ++ _)) at 1. apply take_while_to; [|exact I]. rewrite forallb_app, arg_tokens_args. cbn. apply arg_tokens_args. }
          rewrite G'. cbn [map app fst]. rewrite map_app. cbn [map fst]. now rewrite !arg_tokens_fst.
  Qed.
End Block.

(** ** One parser *)
Section Parser.
  Variable p : parser.
  Hypothesis OK : ok (pa_options p).
  Variables (n : nargs) (nm : string).
  Hypothesis POS : pa_positional p = Some (n, nm).
  Hypothesis NP : n <> NParser.

  Lemma tline_command_line : forall args l vals ws, tokens (pa_options p) args = Some l -> tline n l vals ws ->
    command_line (pa_options p) args vals ws /\ many n ws.
  Proof.
    intros args l vals ws TK [pre v1 blk post v2 Q1 Q2 Q3 Q4 Q5 Q6]. subst l vals ws.
    destruct (@tokens_split _ _ _ _ TK (tpieces_no_dashes Q4)) as (R & args' & A & TK').
    destruct (@block_of _ OK _ NP _ _ _ _ TK' Q5 Q6) as (last & B1 & B2 & B3 & B4 & rest & B5 & B6 & B7). split; [|assumption].
    subst args' args. subst rest. apply CLine with last; [now apply tpieces_pieces|assumption| |].
    - destruct last; [rewrite (B3 eq_refl) in *; inversion Q6; subst; constructor|].
      apply tpieces_pieces; [assumption|assumption|].
      specialize (B6 eq_refl). rewrite <- (app_nil_r post) in B6. apply tokens_split in B6; [tauto|]. exact (tpieces_no_dashes Q6).
    - intros E. now rewrite (B3 E).
  Qed.
  Lemma command_line_tline : forall args vals ws, command_line (pa_options p) args vals ws -> many n ws ->
    exists l, tokens (pa_options p) args = Some l /\ tline n l vals ws.
  Proof.
    intros args vals ws [pre v1 b ws' last post v2 P1 B P2 L] C.
    destruct (pieces_tpieces OK P1) as (tp & A1 & A2 & A3). destruct (pieces_tpieces OK P2) as (tq & A4 & A5 & A6). subst pre post.
    assert (L' : last = true -> tq = []) by (intros E; apply L in E; now destruct tq).
    destruct (@of_block _ OK _ NP _ _ _ _ _ B C A4 A5 L') as (blk & E1 & E2 & E3 & E4).
    exists (tp ++ blk ++ tq). split; [now apply tokens_app|]. subst b.
    now apply TLine with tp v1 blk tq v2.
  Qed.
  Theorem parse_known_line : forall args st,
    parse_known p args = Parses st /\ ps_extras st = [] <->
    exists vals ws, command_line (pa_options p) args vals ws /\ many n ws /\ st = Parsed vals (Some ws) [] /\
      Forall (fun d => stored d st = true) (pa_required p).
  Proof.
    intros args st. unfold parse_known. rewrite POS. split.
    - intros [H X]. destruct (tokens (pa_options p) args) as [l|] eqn:TK; [|discriminate].
      destruct (loop p (S (List.length l)) l (Parsed [] None [])) as [z|st1] eqn:LP; [discriminate|].
      destruct (ps_words st1) as [w|] eqn:W; [|discriminate]. cbn [orb] in H.
      destruct (forallb (fun d => stored d st1) (pa_required p)) eqn:RQ; [|discriminate]. cbn in H. inversion H; subst st1.
      destruct (@loop_open p n nm POS _ l (Parsed [] None []) st (Nat.lt_succ_diag_r _) eq_refl LP X) as (vals & ws & Q & E); [congruence|].
      destruct (@tline_command_line _ _ _ _ TK Q) as [C M]. exists vals, ws. repeat split; try assumption.
      rewrite forallb_forall in RQ. now apply Forall_forall.
    - intros (vals & ws & C & M & E & R). destruct (command_line_tline C M) as (l & TK & Q). rewrite TK.
      rewrite (@loop_open_back p n nm POS vals ws _ l (Parsed [] None [])); [|apply Nat.lt_succ_diag_r|reflexivity|assumption].
      cbn [ps_values ps_words ps_extras app]. rewrite <- E. rewrite (proj2 (forallb_forall _ _)).
      + subst st. auto.
      + rewrite Forall_forall in R. exact R.
  Qed.
End Parser.

(** ** Values *)
Lemma value_given : forall d vals w e, given d vals (value d (Parsed vals w e)).
Proof.
  intros d vals w e. unfold value. cbn [ps_values].
  induction vals as [|[d' v] vals IH] using rev_ind; [intros []|].
  rewrite fold_left_app. cbn [fold_left fst snd]. destruct (seqb d' d) eqn:S.
  - apply seqb_true in S. subst d'. exists vals, []. split; [reflexivity|intros []].
  - apply seqb_false in S. destruct (fold_left _ vals None) as [x|]; cbn [given] in *.
    + destruct IH as (l1 & l2 & E & N). exists l1, (l2 ++ [(d', v)]). subst vals. split; [rewrite <- app_assoc; reflexivity|].
      rewrite map_app, in_app_iff. cbn. tauto.
    + rewrite map_app, in_app_iff. cbn. tauto.
Qed.
Lemma given_unique : forall d vals o o', given d vals o -> given d vals o' -> o = o'.
Proof.
  assert (A : forall (d v : string) vals l1 l2, vals = l1 ++ (d, v) :: l2 -> In d (map fst vals)).
  { intros d v vals l1 l2 E. subst vals. rewrite map_app, in_app_iff. right. now left. }
  intros d vals [v|] [v'|] G G'; cbn in *.
  - destruct G as (l1 & l2 & E & N). destruct G' as (l1' & l2' & E' & N'). subst vals. revert l1' E'.
    induction l1 as [|x l1 IH]; intros [|x' l1'] E'; cbn in E'; inversion E'; subst.
    + reflexivity.
    + elim N. exact (A _ _ _ _ _ eq_refl).
    + elim N'. exact (A _ _ _ _ _ eq_refl).
    + now apply (IH l1').
  - destruct G as (l1 & l2 & E & _). elim G'. exact (A _ _ _ _ _ E).
  - destruct G' as (l1 & l2 & E & _). elim G. exact (A _ _ _ _ _ E).
  - reflexivity.
Qed.
Lemma value_iff : forall d vals w e o, value d (Parsed vals w e) = o <-> given d vals o.
Proof.
  intros d vals w e o. split; [intros E; subst o; apply value_given|]. intros G. exact (@given_unique _ _ _ _ (value_given d vals w e) G).
Qed.
Lemma stored_value : forall d vals w e, stored d (Parsed vals w e) = true <-> exists v, given d vals (Some v).
Proof.
  intros d vals w e. unfold stored. cbn. rewrite existsb_exists. split.
  - intros ([d' v] & I & S). apply seqb_true in S. cbn in S. subst d'. pose proof (value_given d vals w e) as G.
    destruct (value d (Parsed vals w e)) as [x|]; [eauto|]. cbn in G. elim G. apply in_map_iff. now exists (d, v).
  - intros (v & l1 & l2 & E & _). exists (d, v). split; [subst vals; apply in_app_iff; right; now left|]. now apply seqb_true.
Qed.

(** ** The tables *)
Lemma table_ok : forall T : options,
  forallb (fun o : string * option_action => negb (has_char "=" (fst o)) && match fst o with String "-" (String _ _) => true | _ => false end) T = true ->
  NoDup (map fst T) -> ok T.
Proof.
  intros T F N. split; [assumption|]. rewrite forallb_forall in F. apply Forall_forall. intros [n a] I. apply F in I. cbn [fst] in *.
  apply Bool.andb_true_iff in I. destruct I as [I1 I2]. split.
  - intros X. apply has_char_In in X. rewrite X in I1. discriminate.
  - destruct n as [|c [|x t]]; [discriminate| |].
    + destruct c as [[] [] [] [] [] [] [] []]; discriminate.
    + exists x, t. destruct c as [[] [] [] [] [] [] [] []]; try discriminate. reflexivity.
Qed.
Lemma documented_ok : forall c, ok (documented c).
Proof.
  intros c. apply table_ok; [destruct c; reflexivity|].
  destruct c; cbn; repeat (constructor; [cbn; intuition discriminate|]); constructor.
Qed.
Lemma documented_options : forall c, pa_options (sub_parser c) = documented c.
Proof. intros []; reflexivity. Qed.
Lemma help_ok : ok help_options.
Proof. exact (documented_ok CListDb). Qed.
Lemma help_unambiguous : forall s, s <> "--" -> read_token help_options s <> None.
Proof.
  intros s ND. destruct s as [|c [|x r]]; [discriminate| |].
  - unfold read_token. destruct (negb _); [discriminate|]. destruct (dget _ _); [discriminate|]. discriminate.
  - destruct (Ascii.eqb_spec c "-") as [E|E].
    + subst c. rewrite read_dash. destruct (exact_token _ _); [discriminate|].
      assert (K : forall n a b e n' a' b' e' l, option_tuples help_options (String "-" (String x r)) <> (n, a, b, e) :: (n', a', b', e') :: l).
      { assert (SH : forall q, starts (String "-" (String "-" q)) "-h" = false) by reflexivity.
        intros n a b e n' a' b' e' l O. destruct (dash_dec x) as [X|X].
        - subst x. rewrite tuples_long in O. destruct (partition_eq (String "-" (String "-" r))) as [[pre v]|] eqn:P.
          + apply partition_some in P. destruct P as [P _]. destruct pre as [|c1 [|c2 pre]]; cbn in P; inversion P; subst.
            cbn [help_options filter fst] in O. rewrite SH in O. destruct (starts _ "--help") in O; discriminate.
          + cbn [help_options filter fst] in O. rewrite SH in O. destruct (starts _ "--help") in O; discriminate.
        - rewrite tuples_short in O by assumption. cbn [flat_map help_options fst snd] in O.
          assert (S : starts (String "-" (String x r)) "--help" = false).
          { unfold starts. cbn. destruct (ascii_dec x "-"); [contradiction|reflexivity]. }
          assert (S2 : seqb "--help" (String "-" (String x "")) = false).
          { apply seqb_false. discriminate. }
          rewrite S, S2 in O. destruct (seqb "-h" _); [discriminate|]. destruct (starts _ "-h"); discriminate. }
      destruct (option_tuples help_options (String "-" (String x r))) as [|[[[n a] b] e] [|[[[n' a'] b'] e'] l]] eqn:O.
      * destruct (negative_number _); [discriminate|]. destruct (has_char _ _); discriminate.
      * discriminate.
      * elim (K _ _ _ _ _ _ _ _ _ eq_refl).
    + unfold read_token. rewrite (proj2 (Ascii.eqb_neq c "-") E). discriminate.
Qed.
Lemma help_tokens : forall args, exists l, tokens help_options args = Some l.
Proof.
  induction args as [|s args [l IH]]; [exists []; reflexivity|]. cbn [tokens]. destruct (seqb s "--") eqn:S; [eauto|].
  apply seqb_false in S. pose proof (help_unambiguous S). destruct (read_token help_options s); [|congruence]. rewrite IH. eauto.
Qed.
Lemma gives_action : forall T s a e, gives T s a e -> exists n, In (n, a) T.
Proof. intros T s a e [X|(_ & n & I & _)]; [destruct X; eauto|eauto]. Qed.
Lemma help_action : forall n a, In (n, a) help_options -> a = Help.
Proof. intros n a [I|[I|[]]]; now inversion I. Qed.

(** ** The whole line *)
Definition plain_name (s : string) : Prop := match s with EmptyString => True | String c _ => c <> "-"%char end.
Lemma parse_args_cons : forall name rest, plain_name name ->
  parse_args (name :: rest) =
  match command_named name with
  | None => Some (LExit 2)
  | Some c => match parse_known (sub_parser c) rest with
              | Exits z => Some (LExit z)
              | Parses st' => match ps_extras st' with [] => option_map LRun (arguments_of c st') | _ => Some (LExit 2) end
              end
  end.
Proof.
  intros name rest N. unfold parse_args. destruct (help_tokens rest) as [l L].
  assert (SD : seqb name "--" = false).
  { apply seqb_false. intros E. subst name. now elim N. }
  assert (R : read_token help_options name = Some TArg).
  { destruct name as [|c t]; [reflexivity|]. cbn in N. apply Ascii.eqb_neq in N. unfold read_token. now rewrite N. }
  cbn [tokens]. rewrite SD, R, L.
  assert (M : loop main_parser (S (List.length ((name, TArg) :: l))) ((name, TArg) :: l) (Parsed [] None []) = Parses (Parsed [] (Some (name :: rest)) [])).
  { assert (F : map fst l = rest) by now apply tokens_fst with help_options.
    assert (C : consume_words main_parser ((name, TArg) :: l) (Parsed [] None []) = Some (Parsed [] (Some (name :: rest)) [], [])).
    { unfold consume_words. cbn. now rewrite F. }
    cbn [loop List.length]. rewrite C. destruct (existsb is_option ((name, TArg) :: l)); reflexivity. }
  rewrite M. cbn [ps_words ps_extras app]. reflexivity.
Qed.
Lemma parse_args_run_cons : forall argv a, parse_args argv = Some (LRun a) -> exists name rest, argv = name :: rest /\ plain_name name.
Proof.
  intros argv a H. unfold parse_args in H. destruct (help_tokens argv) as [l L].
  destruct argv as [|s rest]; [discriminate|]. rewrite L in H.
  exists s, rest. split; [reflexivity|]. destruct s as [|c t]; [exact I|]. cbn [plain_name]. intros E. subst c.
  cbn [tokens] in L. destruct (seqb (String "-" t) "--") eqn:SD.
  - apply seqb_true in SD. inversion SD; subst. inversion L; subst l. clear L.
    assert (NO : existsb is_option (("--", TDashes) :: map (fun s => (s, TArg)) rest) = false) by (clear; induction rest; [reflexivity|assumption]).
    cbn [loop List.length] in H. rewrite NO in H.
    destruct rest as [|s rest]; [discriminate|].
    assert (C : consume_words main_parser (("--", TDashes) :: map (fun s => (s, TArg)) (s :: rest)) (Parsed [] None []) =
                Some (Parsed [] (Some ("--" :: s :: rest)) [], [])).
    { unfold consume_words. cbn. rewrite map_map. cbn. now rewrite map_id. }
    rewrite C in H. discriminate.
  - apply seqb_false in SD. destruct (read_token help_options (String "-" t)) as [tk|] eqn:R; [|discriminate].
    destruct (tokens help_options rest) as [ts|] eqn:TS; [|discriminate]. inversion L; subst l. clear L.
    assert (K : forall name st, command_named name <> None -> loop main_parser (S (List.length ((String "-" t, tk) :: ts))) ((String "-" t, tk) :: ts) (Parsed [] None []) = Parses st ->
                ps_words st = Some (name :: tl (match ps_words st with Some w => w | None => [] end)) -> ps_extras st = [] -> False).
    { intros name st CN LP W X. destruct (is_option (String "-" t, tk)) eqn:O.
      - destruct tk as [| |n a' b e|]; try discriminate.
        + pose proof (read_gives help_ok SD R) as G. destruct (gives_action G) as [n' I]. apply help_action in I. subst a'.
          rewrite loop_option in LP by reflexivity. unfold consume_option in LP. cbn [snd] in LP. destruct e; discriminate.
        + rewrite loop_option in LP by reflexivity. unfold consume_option in LP. cbn [snd] in LP. apply extras_nil in LP; [|assumption]. discriminate.
      - destruct tk; try discriminate.
        + assert (M : loop main_parser (S (List.length ((String "-" t, TArg) :: ts))) ((String "-" t, TArg) :: ts) (Parsed [] None []) = Parses (Parsed [] (Some (String "-" t :: map fst ts)) [])).
          { assert (C : consume_words main_parser ((String "-" t, TArg) :: ts) (Parsed [] None []) = Some (Parsed [] (Some (String "-" t :: map fst ts)) [], [])) by reflexivity.
            cbn [loop List.length]. rewrite C. destruct (existsb is_option ((String "-" t, TArg) :: ts)); reflexivity. }
          rewrite M in LP. inversion LP; subst st. cbn in W. inversion W; subst name. apply CN. reflexivity.
        + elim (@read_no_dashes help_options _ R). }
    destruct (loop main_parser _ _ _) as [z|st] eqn:LP; [discriminate|].
    destruct (ps_words st) as [[|name w]|] eqn:W; try discriminate.
    destruct (command_named name) as [c|] eqn:CN; [|discriminate].
    destruct (parse_known (sub_parser c) w) as [z|st']; [discriminate|].
    destruct (ps_extras st) as [|e es] eqn:X; [|discriminate].
    apply (K name st); [congruence|reflexivity|now rewrite W|assumption].
Qed.

Lemma command_named_iff : forall s c, command_named s = Some c <->
  s = match c with CConvert => "convert" | CMerge => "merge" | CListDb => "list-db-formats" | CListRpt => "list-rpt-formats" | CReport => "report" end.
Proof.
  intros s c. split; [|intros E; subst s; now destruct c].
  intros H. unfold command_named in H.
  repeat match type of H with
         | match ?s with EmptyString => _ | String _ _ => _ end = _ => destruct s; try discriminate H
         | match ?c with Ascii _ _ _ _ _ _ _ _ => _ end = _ => destruct c; try discriminate H
         | (if ?b then _ else _) = _ => destruct b; try discriminate H
         end; inversion H; reflexivity.
Qed.

Lemma parse_known_none : forall p args st, pa_positional p = None -> pa_options p = help_options -> pa_required p = [] ->
  (parse_known p args = Parses st /\ ps_extras st = [] <-> args = [] /\ st = Parsed [] None []).
Proof.
  intros p args st P O Q. unfold parse_known. rewrite P, O, Q. split.
  - intros [H X]. destruct (help_tokens args) as [l L]. rewrite L in H.
    destruct (loop p (S (List.length l)) l (Parsed [] None [])) as [z|st1] eqn:LP; [discriminate|]. cbn in H. inversion H; subst st1.
    destruct (@loop_closed p _ l (Parsed [] None []) st (Nat.lt_succ_diag_r _) (or_introl P) LP X) as (vs & TP & E).
    assert (R : Forall (readable help_options) l).
    { rewrite <- (app_nil_r l) in L. apply tokens_split in L; [tauto|]. exact (tpieces_no_dashes TP). }
    destruct TP as [|s n d b v l vs TP|s n d b v l vs TP].
    + apply tokens_fst in L. cbn in L. subst. auto.
    + exfalso. inversion R as [|? ? [R1 R2] _]; subst. destruct (gives_action (read_gives help_ok R1 R2)) as [n' I]. apply help_action in I. discriminate.
    + exfalso. inversion R as [|? ? [R1 R2] _]; subst. destruct (gives_action (read_gives help_ok R1 R2)) as [n' I]. apply help_action in I. discriminate.
  - intros [E1 E2]. subst. cbn. unfold consume_words. rewrite P. auto.
Qed.
