(** C91 and C92: reading and building through the shared library. *)
From Coq Require Import Sorted.
From Verif Require Import Base Consts Db Hist Lib P_Lib LibBuild LibBuildSpec.
Local Open Scope Z_scope.

(** * The effect of making an object for a handle *)

Lemma obj_eqb_refl : forall o, obj_eqb o o = true.
Proof. intros [n|]; cbn; [apply Nat.eqb_refl | reflexivity]. Qed.
Lemma obj_eqb_true : forall a b, obj_eqb a b = true <-> a = b.
Proof.
  intros [x|] [y|]; cbn; try (split; congruence).
  rewrite Nat.eqb_eq. split; congruence.
Qed.

Ltac props := unfold wrap, scope_init, covergroup_init, coverpoint_init, cross_init, cvg_init, cvg_options,
  sbind, put_int, put_str, on_props, set_int_property, set_string_property, as_int, sret;
  cbn [lb_props lb_made lb_covers l_int l_str l_test fst snd].

Ltac pick :=
  solve [split; [first [exact I | reflexivity] | pick] | split; reflexivity | reflexivity | left; pick | right; pick].

Lemma wrap_effect : forall c o L, exists L', wrap c o L = (L', Ok (LRef c o)) /\ only_created L L' [] o c.
Proof.
  intros c o L. destruct c; props; (eexists; split; [reflexivity|]); unfold only_created;
    cbn [lb_props lb_made lb_covers l_int l_str l_test]; rewrite app_nil_r;
    (split; [reflexivity|]; split; [reflexivity|]; split; [reflexivity|]; split; [|split; [|split]]).
  all: try (intros p v I; unfold initial in I;
    repeat match goal with H : _ \/ _ |- _ => destruct H | H : _ /\ _ |- _ => destruct H end;
    subst; try contradiction; try discriminate; rewrite obj_eqb_refl; reflexivity).
  all: try (intros [H|H]; try discriminate; rewrite obj_eqb_refl; reflexivity).
  all: intros o' i p H.
  all: try (destruct (obj_eqb o o') eqn:E; cbn [andb]; [|reflexivity]; apply obj_eqb_true in E; subst o';
    destruct (Z.eqb_spec (c_int (-1)) i) as [<-|Ne]; [|reflexivity]; cbn [andb];
    change (c_int (-1)) with (-1) in H).
  all: repeat match goal with |- (if (?a =? ?b)%N then _ else _) = _ => destruct (N.eqb_spec a b) as [<-|?] end.
  all: try reflexivity.
  all: exfalso; apply H; split; [reflexivity|]; split; [reflexivity|].
  all: try (split; [reflexivity|]; unfold has_comment; auto; fail).
  all: eexists; unfold initial; pick.
Qed.

Lemma created_then : forall L L1 L2 m o c,
  lb_props L1 = lb_props L -> lb_made L1 = lb_made L ++ m -> lb_covers L1 = lb_covers L ->
  only_created L1 L2 [] o c -> only_created L L2 m o c.
Proof.
  intros L L1 L2 m o c P M C (A & B & T & I & S & FI & FS). rewrite P in *. rewrite app_nil_r in A.
  unfold only_created. repeat split; auto; congruence.
Qed.

(** * C91 *)

Lemma land_hit : forall t mask,
  negb (Z.land t (c_uint (Z.of_N mask)) =? 0) = true <-> hit32 t mask.
Proof.
  intros t mask. unfold c_uint, two32. change 4294967296 with (2 ^ 32).
  rewrite negb_true_iff, Z.eqb_neq. unfold hit32. split.
  - intros N0.
    destruct (Z.bits_inj_iff (Z.land t (Z.of_N mask mod 2 ^ 32)) 0) as [B _].
    assert (D : (exists n, 0 <= n < 32 /\ Z.testbit t n = true /\ Z.testbit (Z.of_N mask) n = true) \/
                forall n, 0 <= n < 32 -> Z.testbit t n && Z.testbit (Z.of_N mask) n = false).
    { clear. assert (X : forall k : nat, (exists n, 0 <= n < Z.of_nat k /\ Z.testbit t n = true /\ Z.testbit (Z.of_N mask) n = true) \/
        forall n, 0 <= n < Z.of_nat k -> Z.testbit t n && Z.testbit (Z.of_N mask) n = false).
      { induction k as [|k IH]; [right; intros; lia|].
        destruct IH as [(n & R & H)|IH]; [left; exists n; split; [lia|exact H]|].
        destruct (Z.testbit t (Z.of_nat k)) eqn:E1, (Z.testbit (Z.of_N mask) (Z.of_nat k)) eqn:E2.
        1: left; exists (Z.of_nat k); repeat split; auto; lia.
        all: right; intros n R; destruct (Z.eq_dec n (Z.of_nat k)) as [->|Ne]; [rewrite E1, E2; reflexivity | apply IH; lia]. }
      exact (X 32%nat). }
    destruct D as [D|D]; [exact D|]. exfalso. apply N0. apply Z.bits_inj_iff. intros n.
    rewrite Z.bits_0, Z.land_spec.
    destruct (Z.lt_ge_cases n 0) as [Ng|Ng]; [rewrite Z.testbit_neg_r by exact Ng; reflexivity|].
    destruct (Z.lt_ge_cases n 32) as [L|G].
    + rewrite Z.mod_pow2_bits_low by exact L. apply D. lia.
    + rewrite Z.mod_pow2_bits_high by lia. apply andb_false_r.
  - intros (n & R & A & B) E. assert (F : Z.testbit (Z.land t (Z.of_N mask mod 2 ^ 32)) n = false) by (rewrite E; apply Z.bits_0).
    rewrite Z.land_spec, Z.mod_pow2_bits_low, A, B in F by lia. discriminate.
Qed.

(** What a loop sees: the scopes directly below with a type that has a bit of
    the mask among the lower 32, in the order of their creation. *)
Definition seen_by (L : library) (o : option nat) (mask : N) (seen : list nat) : Prop :=
  StronglySorted lt seen /\
  forall i, In i seen <-> exists t, is_below L o i t /\ hit32 t mask.

Definition goals_of (seen : list nat) (o : option nat) (p : N) (v : Z) : Prop :=
  p = 4%N /\ v = 100 /\ exists i, o = Some i /\ In i seen.

Lemma sorted_filter : forall (f : nat -> bool) l, StronglySorted lt l -> StronglySorted lt (filter f l).
Proof.
  intros f l H. induction H as [|x l H IH F]; cbn; [constructor|].
  destruct (f x); [|exact IH]. constructor; [exact IH|].
  apply Forall_forall. intros y Hy. apply filter_In in Hy. destruct Hy as [Hy _].
  rewrite Forall_forall in F. exact (F y Hy).
Qed.
Lemma sorted_seq : forall n k, StronglySorted lt (seq k n).
Proof.
  induction n as [|n IH]; intros k; cbn; [constructor|]. constructor; [apply IH|].
  apply Forall_forall. intros y Hy. apply in_seq in Hy. lia.
Qed.

Lemma listed_seen : forall L o mask, seen_by L o mask (listed L o (c_uint (Z.of_N mask))).
Proof.
  intros L o mask. split; [apply sorted_filter, sorted_seq|].
  intros i. unfold listed. rewrite filter_In, in_seq. unfold is_below.
  destruct (nth_error (lb_made L) i) as [m|] eqn:E.
  - assert (Li : (i < List.length (lb_made L))%nat) by (apply nth_error_Some; congruence).
    assert (G : forall p t, obj_eqb p o && negb (Z.land t (c_uint (Z.of_N mask)) =? 0) = true <->
                            p = o /\ hit32 t mask).
    { intros p t. rewrite andb_true_iff, obj_eqb_true, land_hit. reflexivity. }
    destruct m; cbn [scope_of]; rewrite ?G;
      (split; [intros [_ H] | intros (t & H & Hh)]).
    all: try discriminate; try contradiction.
    1,3: eexists; split; [split; [apply (proj1 H)|reflexivity]|apply (proj2 H)].
    1,2: destruct H as [H1 H2]; subst; split; [lia|auto].
    1,3: eexists; split; [split; [apply (proj1 H)|reflexivity]|apply (proj2 H)].
    1,2: destruct H as [H1 H2]; subst; split; [lia|auto].
  - split; [intros [_ H]; discriminate | intros (t & [] & _)].
Qed.

Lemma goal_set : forall i L, exists L',
  wrap WScope (Some i) L = (L', Ok (LRef WScope (Some i))) /\ only_ints L L' (goals_of [i]).
Proof.
  intros i L. destruct (wrap_effect WScope (Some i) L) as (L' & E & M & C & T & I & S & FI & FS).
  exists L'. split; [exact E|]. rewrite app_nil_r in M.
  assert (SS : l_str (lb_props L') = l_str (lb_props L)).
  { clear - E. unfold wrap, scope_init, sbind, put_int, on_props in E. cbn in E. injection E as <-. reflexivity. }
  unfold only_ints. do 4 (split; [assumption|]). split.
  - intros o p v (-> & -> & j & -> & [<-|[]]). apply I. left. auto.
  - intros o index p H. apply FI. intros (-> & -> & v & V).
    apply (H v). split; [reflexivity|]. unfold initial in V.
    destruct V as [[-> ->]|[[[] _]|[D _]]]; [|discriminate].
    split; [reflexivity|]. split; [reflexivity|]. exists i. split; [reflexivity|left; reflexivity].
Qed.

Lemma scan_effect : forall todo L, exists L',
  scan todo L = (L', Ok (map (fun i => LRef WScope (Some i)) todo)) /\ only_ints L L' (goals_of todo).
Proof.
  induction todo as [|i rest IH]; intros L.
  - exists L. split; [reflexivity|]. unfold only_ints. repeat split.
    intros o p v (_ & _ & j & _ & []).
  - destruct (goal_set i L) as (L1 & E1 & M1 & C1 & S1 & T1 & I1 & F1).
    destruct (IH L1) as (L2 & E2 & M2 & C2 & S2 & T2 & I2 & F2).
    exists L2. split.
    { cbn [scan]. unfold sbind at 1. rewrite E1. unfold sbind at 1. rewrite E2. reflexivity. }
    unfold only_ints. rewrite M2, C2, S2, T2. do 4 (split; [assumption|]). split.
    + intros o p v (-> & -> & j & -> & J).
      destruct (in_dec Nat.eq_dec j rest) as [Jr|Jr].
      * apply I2. split; [reflexivity|]. split; [reflexivity|]. eauto.
      * destruct J as [<-|J]; [|contradiction]. rewrite F2.
        { apply I1. split; [reflexivity|]. split; [reflexivity|]. exists i. cbn. auto. }
        intros v (_ & _ & _ & k & [= <-] & K). contradiction.
    + intros o index p H. rewrite F2, F1; [reflexivity| |].
      * intros v (X & -> & -> & j & -> & [<-|[]]). apply (H 100). split; [exact X|].
        split; [reflexivity|]. split; [reflexivity|]. exists i. cbn. auto.
      * intros v (X & -> & -> & j & -> & J). apply (H 100). split; [exact X|].
        split; [reflexivity|]. split; [reflexivity|]. exists j. cbn. auto.
Qed.

(** C91.  A loop over scopes(mask) sees the scopes directly below whose type
    shares one of the lower 32 bits with the mask, each once and in order.  It
    creates nothing and changes no cover item, no text, no test data; the goal
    of every scope seen is 100 afterwards, and no other property has changed. *)
Theorem C91_loop_partial : forall w mask L, exists seen L',
  loop_scopes w mask L = (L', Ok (map (fun i => LRef WScope (Some i)) seen)) /\
  seen_by L (r_obj w) mask seen /\
  only_ints L L' (goals_of seen).
Proof.
  intros w mask L. exists (listed L (r_obj w) (c_uint (Z.of_N mask))).
  destruct (scan_effect (listed L (r_obj w) (c_uint (Z.of_N mask))) L) as (L' & E & O).
  exists L'. split; [exact E|]. split; [apply listed_seen|exact O].
Qed.

(** So the library is as it was exactly if all scopes seen had the goal 100. *)
Theorem C91_unchanged_partial : forall w mask L,
  same_library L (fst (loop_scopes w mask L)) <->
  (forall i t, is_below L (r_obj w) i t -> hit32 t mask -> l_int (lb_props L) (Some i) (-1) 4 = Some 100).
Proof.
  intros w mask L. destruct (C91_loop_partial w mask L) as (seen & L' & E & (_ & Sn) & M & C & St & T & I & F).
  rewrite E. cbn [fst]. split.
  - intros (_ & _ & A & _) i t B H. rewrite <- A. apply I. split; [reflexivity|]. split; [reflexivity|].
    exists i. split; [reflexivity|]. apply Sn. eauto.
  - intros H. unfold same_library. rewrite M, C, St, T.
    split; [reflexivity|]. split; [reflexivity|]. split; [|split; reflexivity].
    intros o index p.
    assert (D : (index = -1 /\ p = 4%N /\ exists i, o = Some i /\ In i seen) \/
                ~ (index = -1 /\ p = 4%N /\ exists i, o = Some i /\ In i seen)).
    { destruct (Z.eq_dec index (-1)); [|right; tauto]. destruct (N.eq_dec p 4); [|right; tauto].
      destruct o as [i|]; [|right; intros (_ & _ & i & [=] & _)].
      destruct (in_dec Nat.eq_dec i seen); [left; eauto|]. right. intros (_ & _ & j & [= <-] & J). contradiction. }
    destruct D as [(-> & -> & i & -> & J)|D].
    + apply Sn in J. destruct J as (t & B & Hh). rewrite (H i t B Hh). apply I.
      split; [reflexivity|]. split; [reflexivity|]. exists i. split; [reflexivity|]. apply Sn. eauto.
    + apply F. intros v (X & -> & _ & J). apply D. auto.
Qed.

(** Two scopes at the top, the first with a goal of 80. *)
Definition no_props : lib_state := LibState (fun _ _ _ => None) (fun _ _ _ => None) (fun _ => None).
Definition two_scopes : library :=
  Library (LibState (fun o i p => match o with Some O => if (i =? -1) && (p =? 4)%N then Some 80 else None | _ => None end)
             (fun _ _ _ => None) (fun _ => None))
          [MScope None (Some "m1"%string) None 1 1 16777216 0; MScope None (Some "g"%string) None 1 1 4294967296 0] [].

(** Looking at a database changes it: a goal that was set is gone after a loop. *)
Theorem C91_goals_lost_refuted : exists L w mask i,
  l_int (lb_props L) (Some i) (-1) 4 = Some 80 /\
  l_int (lb_props (fst (loop_scopes w mask L))) (Some i) (-1) 4 = Some 100.
Proof. exists two_scopes, (LRef WDb None), DU_MODULE, 0%nat. split; reflexivity. Qed.

(** A mask of which only higher bits are set finds nothing, whatever is there;
    so a scope of such a type is never seen, with whatever mask. *)
Theorem C91_wide_masks_refuted :
  (forall w mask L, Z.of_N mask mod 2 ^ 32 = 0 -> loop_scopes w mask L = (L, Ok [])) /\
  (forall w mask L i t, is_below L (r_obj w) i t -> t mod 2 ^ 32 = 0 ->
     exists seen L', loop_scopes w mask L = (L', Ok (map (fun i => LRef WScope (Some i)) seen)) /\ ~ In i seen).
Proof.
  assert (Z0 : forall a n, a mod 2 ^ 32 = 0 -> 0 <= n < 32 -> Z.testbit a n = false).
  { intros a n H R. rewrite <- (Z.mod_pow2_bits_low a 32 n) by lia. rewrite H. apply Z.bits_0. }
  split.
  - intros w mask L H. unfold loop_scopes.
    destruct (listed_seen L (r_obj w) mask) as [_ Sn].
    destruct (listed L (r_obj w) (c_uint (Z.of_N mask))) as [|i l]; [reflexivity|].
    destruct (proj1 (Sn i) (or_introl eq_refl)) as (t & _ & n & R & _ & B).
    rewrite (Z0 _ _ H R) in B. discriminate.
  - intros w mask L i t B H. destruct (C91_loop_partial w mask L) as (seen & L' & E & (_ & Sn) & _).
    exists seen, L'. split; [exact E|]. intros J. apply Sn in J. destruct J as (t' & B' & n & R & A & _).
    assert (t' = t).
    { unfold is_below in B, B'. destruct (nth_error (lb_made L) i) as [[]|]; try contradiction;
        destruct B, B'; congruence. }
    subst t'. rewrite (Z0 _ _ H R) in A. discriminate.
Qed.

(** Opening a database sets the goal of the database to 100 and changes nothing
    else; if the library cannot open it there is an exception. *)
Theorem C91_open_partial : forall L,
  (exists L', open_db (Some L) = (Some L', Ok (LRef WDb None)) /\
              only_ints L L' (fun o p v => o = None /\ p = 4%N /\ v = 100)) /\
  open_db None = (None, Err RaisedException).
Proof.
  intros L. split; [|reflexivity].
  destruct (wrap_effect WDb None L) as (L' & E & M & C & T & I & S & FI & FS). rewrite app_nil_r in M.
  exists L'. split; [unfold open_db; rewrite E; reflexivity|].
  assert (SS : l_str (lb_props L') = l_str (lb_props L)).
  { clear - E. unfold wrap, scope_init, sbind, put_int, on_props in E. cbn in E. injection E as <-. reflexivity. }
  unfold only_ints. do 4 (split; [assumption|]). split.
  - intros o p v (-> & -> & ->). apply I. left. auto.
  - intros o index p H. apply FI. intros (-> & -> & v & V).
    unfold initial in V. destruct V as [[-> ->]|[[[] _]|[D _]]]; [|discriminate].
    apply (H 100). auto.
Qed.

(** Asking a scope for its source info, or a file for its name, changes nothing.
    The source info is the one the scope was created with; a scope created
    without one gives line 0. *)
Theorem C91_source_info_partial : forall i c L m,
  nth_error (lb_made L) i = Some m ->
  (forall s, (exists p n w so t f, m = MScope p n s w so t f) \/
             (exists p n w so t u f, m = MInstance p n s w so t u f) \/
             (exists p n w so ps, m = MCross p n s w so ps) ->
   get_source_info (LRef c (Some i)) L =
     (L, Ok match s with
            | Some (LSrc fh line token) => PSrc (Some (LFile fh)) line token
            | None => PSrc (Some (LFile None)) 0 0
            end)) /\
  (forall n d, m = MFile n d -> get_file_name (LFile (Some i)) L = (L, Ok (PBytes n))).
Proof.
  intros i c L m N. split.
  - intros s H. unfold get_source_info. cbn [r_obj]. rewrite N.
    destruct H as [(p & n & w & so & t & f & ->)|[(p & n & w & so & t & u & f & ->)|(p & n & w & so & ps & ->)]];
      destruct s as [[fh line token]|]; reflexivity.
  - intros n d ->. unfold get_file_name. cbn [f_fh]. rewrite N. reflexivity.
Qed.

(** Nothing else about a scope can be read: name, type, weight, goal, bins. *)
Theorem C91_unreadable_refuted : forall w mask L,
  snd (get_scope_name w L) = Err NotImplementedError /\ snd (get_scope_type w L) = Err NotImplementedError /\
  snd (get_weight w L) = Err NotImplementedError /\ snd (get_goal w L) = Err NotImplementedError /\
  snd (cover_items w mask L) = Err NotImplementedError /\ snd (get_num_tests L) = Err RaisedException.
Proof. repeat split. Qed.

(** setWeight raises for every scope of the library and leaves the library as it
    is: a weight is what the creating call was given. *)
Theorem C92_set_weight_refuted : forall w v L, set_weight w v L = (L, Err NotImplementedError).
Proof. reflexivity. Qed.
Print Assumptions C92_set_weight_refuted.

Example C91_ex :
  snd (loop_scopes (LRef WDb None) SCOPE_ALL two_scopes) = Ok [LRef WScope (Some 0%nat)] /\
  is_below two_scopes None 1 4294967296.
Proof. split; [reflexivity|]. cbn. auto. Qed.

Print Assumptions C91_loop_partial.
Print Assumptions C91_unchanged_partial.
Print Assumptions C91_goals_lost_refuted.
Print Assumptions C91_wide_masks_refuted.
Print Assumptions C91_open_partial.
Print Assumptions C91_source_info_partial.
Print Assumptions C91_unreadable_refuted.

(** * C92 *)

Lemma kept32_c_int : forall z v, kept32 z v -> c_int z = v.
Proof.
  intros z v [R M]. apply Z.mod_divide in M; [|discriminate]. destruct M as [k M].
  replace z with (v + (- k) * 4294967296) by lia. unfold c_int, two32.
  rewrite <- (c_int_small v R) at 2. unfold c_int, two32. f_equal.
  replace (v + - k * 4294967296 + 2147483648) with (v + 2147483648 + (- k) * 4294967296) by lia.
  apply Z.mod_add. discriminate.
Qed.
Lemma c_int_kept32 : forall z, kept32 z (c_int z).
Proof.
  intros z. split; [apply c_int_range|]. unfold c_int, two32.
  pose proof (Z.div_mod (z + 2147483648) 4294967296 ltac:(discriminate)) as D.
  replace ((z + 2147483648) mod 4294967296 - 2147483648 - z)
    with ((- ((z + 2147483648) / 4294967296)) * 2 ^ 32) by lia.
  apply Z.mod_mul. discriminate.
Qed.
Lemma keptu32_c_uint : forall z v, keptu32 z v -> c_uint z = v.
Proof.
  intros z v [R M]. apply Z.mod_divide in M; [|discriminate]. destruct M as [k M].
  replace z with (v + (- k) * 4294967296) by lia. unfold c_uint, two32.
  rewrite Z.mod_add by discriminate. apply Z.mod_small. unfold u32 in R. lia.
Qed.
Lemma c_uint_keptu32 : forall z, keptu32 z (c_uint z).
Proof.
  intros z. split.
  - unfold u32, c_uint, two32. change (2 ^ 32) with 4294967296. apply Z.mod_pos_bound. reflexivity.
  - unfold c_uint, two32. pose proof (Z.div_mod z 4294967296 ltac:(discriminate)) as D.
    replace (z mod 4294967296 - z) with ((- (z / 4294967296)) * 2 ^ 32) by lia.
    apply Z.mod_mul. discriminate.
Qed.
Lemma c_string_until : forall s q, c_string s q -> until_nul s = q.
Proof.
  intros s q (F & rest & -> & R). revert F. induction q as [|a q IH]; intros F; cbn.
  - destruct R as [->|(r & ->)]; reflexivity.
  - destruct (Ascii.eqb_spec a Ascii.zero) as [->|Ne]; [destruct (F O); reflexivity|].
    f_equal. apply IH. intros i. exact (F (S i)).
Qed.
Lemma opt_string_until : forall n n' : option string,
  match n, n' with Some a, Some b => c_string a b | None, None => True | _, _ => False end ->
  option_map until_nul n = n'.
Proof.
  intros [a|] [b|] H; try contradiction; [|reflexivity]. cbn. f_equal. exact (c_string_until _ _ H).
Qed.
Lemma src_given_ok : forall s s', src_given s s' -> lib_src s = Ok s'.
Proof.
  intros s s' H. destruct H as [|fh line token line' token' A B]; [reflexivity|].
  unfold lib_src. cbn. rewrite (kept32_c_int _ _ A), (kept32_c_int _ _ B). reflexivity.
Qed.
Lemma ulonglong_small : forall t, u64 t -> c_ulonglong t = t.
Proof. intros t H. apply Z.mod_small. exact H. Qed.

Lemma initial_point : forall p v, initial WScope p v -> initial WCoverpoint p v.
Proof. unfold initial. intros p v [H|[[[] _]|[D _]]]; [auto|discriminate]. Qed.

(** What is asked of the library, before its answer. *)
Definition answered (agrees : library -> made -> bool) (c : call) (m : made) (k : lcls) : Prop :=
  forall L, perform agrees c L =
    if agrees L m
    then let L1 := Library (lb_props L) (lb_made L ++ [m]) (lb_covers L) in
         match c with
         | CCoverpoint _ _ _ _ _ =>
             let (L2, _) := wrap WScope (Some (List.length (lb_made L))) L1 in wrap k (Some (List.length (lb_made L))) L2
         | _ => wrap k (Some (List.length (lb_made L))) L1
         end
    else if checked c then (L, Err RaisedException) else wrap k None L.

Lemma asks_answered : forall agrees c m k, asks c m k -> answered agrees c m k.
Proof.
  intros agrees c m k H L. destruct H; cbn [perform checked]; unfold create_scope, create_instance, create_covergroup,
    create_toggle, create_coverpoint, create_cross, create_cover_instance, of_covergroup;
    repeat match goal with
           | H : r_cls _ = _ |- _ => rewrite H; clear H
           | H : src_given _ _ |- _ => apply src_given_ok in H
           | H : kept32 _ _ |- _ => apply kept32_c_int in H
           | H : keptu32 _ _ |- _ => apply keptu32_c_uint in H
           | H : c_string _ _ |- _ => apply c_string_until in H
           | H : u64 _ |- _ => apply ulonglong_small in H
           | H : match ?n with Some _ => _ | None => _ end |- _ => apply opt_string_until in H
           end;
    unfold encode, slift, sbind, make, sraise, create_scope; cbv beta iota;
    repeat match goal with
           | H : lib_src _ = _ |- _ => rewrite H; clear H; cbv beta iota
           | H : c_int _ = _ |- _ => rewrite H; clear H
           | H : c_uint _ = _ |- _ => rewrite H; clear H
           | H : until_nul _ = _ |- _ => rewrite H; clear H
           | H : option_map _ _ = _ |- _ => rewrite H; clear H
           | H : c_ulonglong _ = _ |- _ => rewrite H; clear H
           end; cbn [option_map]; change (c_ulonglong (Z.of_N COVERPOINT)) with 16384.
  all: change (c_int 0) with 0; change (Z.of_N COVERGROUP) with 4096; change (Z.of_N COVERINSTANCE) with 8192.
  4: unfold slift, sbind, make, sraise.
  all: match goal with |- context [if ?a then _ else _] => destruct a end.
  7: { destruct (wrap_effect WScope (Some (List.length (lb_made L)))
         (Library (lb_props L) (lb_made L ++ [MScope (r_obj w) n' s' wt' so' 16384 0]) (lb_covers L))) as (L' & E & _).
       rewrite E. reflexivity. }
  all: reflexivity.
Qed.

Section C92.
  Variable agrees : library -> made -> bool.

  (** C92.  If the library agrees, a creating call returns an object for one new
      scope, made with the arguments of the call: names end at their first NUL,
      numbers are reduced to 32 bits.  The new scope gets the initial options of
      its class; nothing that was there has changed. *)
  Theorem C92_created_partial : forall c m k L,
    asks c m k -> agrees L m = true ->
    exists L', perform agrees c L = (L', Ok (LRef k (Some (List.length (lb_made L))))) /\
               only_created L L' [m] (Some (List.length (lb_made L))) k.
  Proof.
    intros c m k L A G. rewrite (asks_answered agrees _ _ _ A), G. cbv zeta.
    set (o := Some (List.length (lb_made L))).
    set (L1 := Library (lb_props L) (lb_made L ++ [m]) (lb_covers L)).
    assert (One : exists L', wrap k o L1 = (L', Ok (LRef k o)) /\ only_created L L' [m] o k).
    { destruct (wrap_effect k o L1) as (L' & E & O). exists L'. split; [exact E|].
      eapply created_then; [| | |exact O]; reflexivity. }
    destruct c; try exact One.
    assert (k = WCoverpoint) by (inversion A; reflexivity). subst k.
    destruct (wrap_effect WScope o L1) as (L2 & E2 & M2 & C2 & T2 & I2 & S2 & FI2 & FS2). rewrite E2.
    destruct (wrap_effect WCoverpoint o L2) as (L3 & E3 & M3 & C3 & T3 & I3 & S3 & FI3 & FS3).
    exists L3. split; [exact E3|]. rewrite app_nil_r in M2, M3.
    unfold only_created. rewrite M3, M2, C3, C2, T3, T2. do 3 (split; [reflexivity|]).
    split; [exact I3|]. split; [exact S3|]. split.
    - intros o' i p H. rewrite (FI3 _ _ _ H). apply FI2. intros (-> & -> & v & V).
      apply H. split; [reflexivity|]. split; [reflexivity|]. exists v. apply initial_point, V.
    - intros o' i p H. rewrite (FS3 _ _ _ H). apply FS2. intros (-> & -> & -> & [D|D]); discriminate.
  Qed.

  (** If the library refuses, createScope, createInstance and createCoverpoint
      raise an exception and nothing has changed. *)
  Theorem C92_refused_partial : forall c m k L,
    asks c m k -> agrees L m = false -> checked c = true ->
    perform agrees c L = (L, Err RaisedException).
  Proof. intros c m k L A G C. rewrite (asks_answered agrees _ _ _ A), G, C. reflexivity. Qed.

  (** The other calls do not notice.  They return an object without a scope, and
      set the initial options on the database itself. *)
  Theorem C92_refusal_unnoticed_refuted : forall c m k L,
    asks c m k -> agrees L m = false -> checked c = false ->
    exists L', perform agrees c L = (L', Ok (LRef k None)) /\ only_created L L' [] None k.
  Proof.
    intros c m k L A G C. rewrite (asks_answered agrees _ _ _ A), G, C. apply wrap_effect.
  Qed.

  (** What is then created below that object ends up at the top of the database. *)
  Theorem C92_orphans_refuted : forall w n s wt so L m k,
    asks (CCovergroup w (Some n) s wt so) m k -> agrees L m = false ->
    exists L1, perform agrees (CCovergroup w (Some n) s wt so) L = (L1, Ok (LRef WCovergroup None)) /\
      forall n2 s2 wt2 so2 m2 k2,
        asks (CCoverpoint (LRef WCovergroup None) n2 s2 wt2 so2) m2 k2 -> agrees L1 m2 = true ->
        exists L2, perform agrees (CCoverpoint (LRef WCovergroup None) n2 s2 wt2 so2) L1 =
                     (L2, Ok (LRef WCoverpoint (Some (List.length (lb_made L1))))) /\
                   is_below L2 None (List.length (lb_made L1)) 16384.
  Proof.
    intros w n s wt so L m k A G. assert (k = WCovergroup) by (inversion A; reflexivity). subst k.
    destruct (C92_refusal_unnoticed_refuted _ _ _ _ A G eq_refl) as (L1 & E1 & _).
    exists L1. split; [exact E1|]. intros n2 s2 wt2 so2 m2 k2 A2 G2.
    destruct (C92_created_partial _ _ _ _ A2 G2) as (L2 & E2 & M2 & _).
    assert (k2 = WCoverpoint) by (inversion A2; reflexivity). subst k2.
    exists L2. split; [exact E2|]. unfold is_below. rewrite M2, nth_error_app2, Nat.sub_diag by lia.
    inversion A2; subst. cbn. auto.
  Qed.

  (** Calls with arguments that cannot be handed over, or on an object of the
      wrong class, raise an exception and nothing has changed. *)
  Theorem C92_wrong_partial : forall c e L, wrong c e -> perform agrees c L = (L, Err e).
  Proof.
    intros c e L H. destruct H; cbn [perform]; unfold create_scope, create_instance, create_covergroup,
      create_toggle, create_coverpoint, create_cross, create_cover_instance, of_covergroup.
    1-3: destruct (r_cls w); try reflexivity; congruence.
    - destruct H as [(w & n & wt & so & t & f & ->)|[(w & n & wt & so & t & u & f & ->)|
        (w & n & wt & so & [->|[->|[->|(ps & ->)]]])]]; cbn [perform];
        unfold create_scope, create_instance, create_covergroup,
          create_toggle, create_coverpoint, create_cross, create_cover_instance, of_covergroup;
        try reflexivity; destruct (r_cls w); reflexivity.
    - apply src_given_ok in H. unfold sbind, slift. rewrite H. reflexivity.
    - apply src_given_ok in H. unfold sbind, slift. rewrite H. reflexivity.
    - apply src_given_ok in H0. unfold sbind, slift. rewrite H, H0. reflexivity.
    - apply src_given_ok in H0. unfold sbind, slift. rewrite H, H0. reflexivity.
    - reflexivity.
    - apply src_given_ok in H. unfold sbind, slift. rewrite H. reflexivity.
  Qed.

  (** Every call is of one of these kinds (types being integers of 64 bits). *)
  Theorem C92_complete_partial : forall c,
    match c with CScope _ _ _ _ _ t _ | CInstance _ _ _ _ _ t _ _ => u64 t | _ => True end ->
    (exists m k, asks c m k) \/ (exists e, wrong c e).
  Proof.
    intros c T.
    assert (SS : forall s, (exists s', src_given s s') \/ exists line token, s = Some (PSrc None line token)).
    { intros [[[[fh]|] line token]|]; [left| |left]; [|eauto|].
      - eexists. constructor; apply c_int_kept32.
      - eexists. constructor. }
    assert (NN : forall n, exists n', match n, n' with Some a, Some b => c_string a b | None, None => True | _, _ => False end).
    { intros [n|]; [exists (Some (until_nul n)); apply until_nul_c_string|exists None; exact I]. }
    assert (KK : forall w, r_cls w = WCovergroup \/ r_cls w <> WCovergroup).
    { intros [[] o]; cbn; auto; right; discriminate. }
    destruct c as [w n s wt so t f|w n s wt so t du f|w n s wt so|w n s wt so|w n s wt so ps|w n s wt so|w n cn f m t d].
    - destruct (SS s) as [(s' & S')|(line & token & ->)]; [|right; eexists; eapply wrong_src; left; eauto 10].
      destruct (NN n) as (n' & N'). left. do 2 eexists. constructor; eauto using c_int_kept32.
    - destruct (SS s) as [(s' & S')|(line & token & ->)]; [|right; eexists; eapply wrong_src; right; left; eauto 10].
      destruct n as [n|]; [|right; eexists; eapply wrong_name_inst; eauto].
      destruct du as [du|]; [|right; eexists; eapply wrong_du; eauto].
      left. do 2 eexists. constructor; eauto using c_int_kept32, until_nul_c_string.
    - destruct (SS s) as [(s' & S')|(line & token & ->)]; [|right; eexists; eapply wrong_src; right; right; eauto 10].
      destruct n as [n|]; [|right; eexists; eapply wrong_name_group; eauto].
      left. do 2 eexists. constructor; eauto using c_int_kept32, until_nul_c_string.
    - destruct (KK w) as [K|K]; [|right; eexists; eapply wrong_class_point; eauto].
      destruct (SS s) as [(s' & S')|(line & token & ->)]; [|right; eexists; eapply wrong_src; right; right; eauto 10].
      destruct (NN n) as (n' & N'). left. do 2 eexists. constructor; eauto using c_int_kept32.
    - destruct (KK w) as [K|K]; [|right; eexists; eapply wrong_class_cross; eauto].
      destruct (SS s) as [(s' & S')|(line & token & ->)]; [|right; eexists; eapply wrong_src; right; right; eauto 12].
      destruct n as [n|]; [|right; eexists; eapply wrong_name_cross; eauto].
      left. do 2 eexists. constructor; eauto using c_int_kept32, until_nul_c_string.
    - destruct (KK w) as [K|K]; [|right; eexists; eapply wrong_class_inst; eauto].
      destruct (SS s) as [(s' & S')|(line & token & ->)]; [|right; eexists; eapply wrong_src; right; right; eauto 12].
      destruct n as [n|]; [|right; eexists; eapply wrong_name_cinst; eauto].
      left. do 2 eexists. constructor; eauto using c_int_kept32, until_nul_c_string.
    - destruct n as [n|]; [|right; eexists; eapply wrong_name_toggle; eauto].
      destruct (NN cn) as (cn' & N'). left. do 2 eexists.
      constructor; eauto using c_int_kept32, c_uint_keptu32, until_nul_c_string.
  Qed.
End C92.

Section C92_rest.
  Variable agrees : library -> made -> bool.
  Variable agrees_cover : library -> lcover -> bool.

  (** The number of cover items that an object has. *)
  Definition covers_of (L : library) (o : option nat) : list lcover :=
    filter (fun c => match lc_parent c, o with
                     | None, None => true
                     | Some x, Some y => (x =? y)%nat
                     | _, _ => false
                     end) (lb_covers L).

  (** createNextCover adds one cover item with the name, the data (see C59) and
      the source info given; the index returned is the number of items the
      object had.  Nothing else has changed.  Data that cannot be handed over,
      or a missing name, give an exception and nothing has changed. *)
  Theorem C92_cover_partial : forall w n data s s' L,
    src_given s s' ->
    match lib_cover_data_of data with
    | Err e => create_next_cover agrees_cover w n data s L = (L, Err e)
    | Ok d =>
        (n = None -> create_next_cover agrees_cover w n data s L = (L, Err TypeError)) /\
        (forall t q, n = Some t -> c_string t q -> agrees_cover L (LCover (r_obj w) q d s') = true ->
           create_next_cover agrees_cover w n data s L =
             (Library (lb_props L) (lb_made L) (lb_covers L ++ [LCover (r_obj w) q d s']),
              Ok (Some (List.length (covers_of L (r_obj w))))))
    end.
  Proof.
    intros w n data s s' L S. apply src_given_ok in S. unfold create_next_cover, sbind, slift. rewrite S.
    destruct (lib_cover_data_of data) as [d|e]; [|reflexivity].
    split; [intros ->; reflexivity|]. intros t q -> Q G. cbn [encode].
    rewrite (c_string_until _ _ Q), G. reflexivity.
  Qed.

  (** A refused cover item is not reported. *)
  Theorem C92_cover_unnoticed_refuted : forall w t q data d s s' L,
    src_given s s' -> lib_cover_data_of data = Ok d -> c_string t q ->
    agrees_cover L (LCover (r_obj w) q d s') = false ->
    create_next_cover agrees_cover w (Some t) data s L = (L, Ok None).
  Proof.
    intros w t q data d s s' L S D Q G. unfold create_next_cover, sbind, slift.
    rewrite (src_given_ok _ _ S), D. cbn [encode]. rewrite (c_string_until _ _ Q), G. reflexivity.
  Qed.

  (** createBin is createNextCover with the data of a bin, on coverpoints with
      the kind given or CVGBIN; a cross accepts no kind, and the other classes
      have no such method. *)
  Theorem C92_bin_partial : forall w n s at_least count kind L,
    (r_cls w = WCoverpoint ->
     create_bin agrees_cover w n s at_least count kind L =
     create_next_cover agrees_cover w n
       (CoverData (match kind with Some k => k | None => 1%N end) 25 count 1 1 0 0 (Some at_least)) s L) /\
    (r_cls w = WCross -> kind = None ->
     create_bin agrees_cover w n s at_least count kind L =
     create_next_cover agrees_cover w n (CoverData 1 25 count 1 1 0 0 (Some at_least)) s L) /\
    (r_cls w = WCross -> kind <> None ->
     create_bin agrees_cover w n s at_least count kind L = (L, Err TypeError)) /\
    (r_cls w <> WCoverpoint -> r_cls w <> WCross ->
     create_bin agrees_cover w n s at_least count kind L = (L, Err AttributeError)).
  Proof.
    intros w n s al c kind L. unfold create_bin.
    split; [intros ->; reflexivity|]. split; [intros -> ->; reflexivity|].
    split; [intros -> H; destruct kind; [reflexivity|congruence]|].
    intros A B. destruct (r_cls w); try reflexivity; congruence.
  Qed.

  (** createFileHandle: one new file; a refusal is not reported, and source
      infos made with the result then name no file. *)
  Theorem C92_file_partial : forall n q d d' L,
    c_string n q ->
    match d, d' with Some a, Some b => c_string a b | None, None => True | _, _ => False end ->
    (agrees L (MFile q d') = true ->
     create_file_handle agrees (Some n) d L =
       (Library (lb_props L) (lb_made L ++ [MFile q d']) (lb_covers L), Ok (LFile (Some (List.length (lb_made L)))))) /\
    create_file_handle agrees None d L = (L, Err TypeError).
  Proof.
    intros n q d d' L Q D. split; [|reflexivity]. intros G.
    unfold create_file_handle, sbind, slift, encode, make, sret.
    rewrite (c_string_until _ _ Q), (opt_string_until _ _ D), G. reflexivity.
  Qed.
  Theorem C92_file_unnoticed_refuted : forall n q d d' L,
    c_string n q ->
    match d, d' with Some a, Some b => c_string a b | None, None => True | _, _ => False end ->
    agrees L (MFile q d') = false ->
    create_file_handle agrees (Some n) d L = (L, Ok (LFile None)) /\
    forall line token, exists line' token',
      src_given (Some (PSrc (Some (LFile None)) line token)) (Some (LSrc None line' token')).
  Proof.
    intros n q d d' L Q D G. split.
    - unfold create_file_handle, sbind, slift, encode, make, sret.
      rewrite (c_string_until _ _ Q), (opt_string_until _ _ D), G. reflexivity.
    - intros line token. do 2 eexists. constructor; apply c_int_kept32.
  Qed.

  (** createHistoryNode: one new node at the top, if the library agrees. *)
  Theorem C92_history_partial : forall l l' p p' k k' L,
    c_string l l' -> c_string p p' -> kept32 k k' -> agrees L (MHistory l' p' k') = true ->
    create_history_node agrees None (Some l) (Some p) k L =
      (Library (lb_props L) (lb_made L ++ [MHistory l' p' k']) (lb_covers L), Ok (Some (List.length (lb_made L)))).
  Proof.
    intros l l' p p' k k' L A B C G. unfold create_history_node, sbind, slift, encode, make.
    rewrite (c_string_until _ _ A), (c_string_until _ _ B), (kept32_c_int _ _ C), G. reflexivity.
  Qed.

  (** No history node can be created below another one: the call raises,
      whatever the names and the kind. *)
  Theorem C92_history_parent_refuted : forall node l p k L, exists e,
    create_history_node agrees (Some node) l p k L = (L, Err e) /\
    (l <> None -> p <> None -> e = ArgumentError).
  Proof.
    intros node [l|] [p|] k L; eexists; (split; [reflexivity|]); congruence.
  Qed.
End C92_rest.

(** write: the file name up to its first NUL, the whole database, whether to
    recurse, and which cover items; what ucis_Write answers has no effect on the
    result.  A part of the database cannot be written. *)
Theorem C92_write_partial : forall f q recurse ct ct',
  c_string f q -> keptu32 ct ct' ->
  write_db (Some f) None recurse ct = Ok (Written q None (if recurse then 1 else 0) ct').
Proof.
  intros f q recurse ct ct' Q K. unfold write_db.
  rewrite (c_string_until _ _ Q), (keptu32_c_uint _ _ K). reflexivity.
Qed.
Theorem C92_write_scope_refuted : forall f w recurse ct,
  write_db (Some f) (Some w) recurse ct = Err ArgumentError.
Proof. reflexivity. Qed.

(** A module with a covergroup, a coverpoint and a bin; then the same with a
    library that refuses the covergroup. *)
Definition built (agrees : library -> made -> bool) : library * res (option nat) :=
  (d <- perform agrees (CScope (LRef WDb None) (Some "work.m"%string) None 1 1 16777216 0);;
   i <- perform agrees (CInstance (LRef WDb None) (Some "top"%string) None 1 1 16 (Some d) 0);;
   g <- perform agrees (CCovergroup i (Some "cg"%string) None 1 1);;
   p <- perform agrees (CCoverpoint g (Some "cp"%string) None 1 1);;
   create_bin (fun _ _ => true) p (Some "b"%string) None 1 7 None) (Library no_props [] []).

Example C92_ex :
  let yes := built (fun _ _ => true) in
  let no := built (fun _ m => match m with MScope _ _ _ _ _ 4096 _ => false | _ => true end) in
  snd yes = Ok (Some 0%nat) /\
  lb_made (fst yes) =
    [MScope None (Some "work.m"%string) None 1 1 16777216 0; MInstance None "top" None 1 1 16 (Some 0%nat) 0;
     MScope (Some 1%nat) (Some "cg"%string) None 1 1 4096 0; MScope (Some 2%nat) (Some "cp"%string) None 1 1 16384 0] /\
  l_int (lb_props (fst yes)) (Some 2%nat) (-1) 25 = Some 64 /\
  snd no = Ok (Some 0%nat) /\
  lb_made (fst no) =
    [MScope None (Some "work.m"%string) None 1 1 16777216 0; MInstance None "top" None 1 1 16 (Some 0%nat) 0;
     MScope None (Some "cp"%string) None 1 1 16384 0] /\
  l_int (lb_props (fst no)) None (-1) 25 = Some 64.
Proof. repeat split. Qed.

Example C92_asks_ex : exists m,
  asks (CCovergroup (LRef WScope (Some 1%nat)) (Some "cg"%string)
          (Some (PSrc (Some (LFile (Some 5%nat))) 3 (2 ^ 32 + 7))) 1 1) m WCovergroup /\
  m = MScope (Some 1%nat) (Some "cg"%string) (Some (LSrc (Some 5%nat) 3 7)) 1 1 4096 0.
Proof.
  eexists. split; [|reflexivity].
  apply asks_covergroup; unfold kept32, i32; try (split; [lia|reflexivity]).
  - split; [intros i; repeat (first [discriminate | destruct i as [|i]])|].
    exists EmptyString. auto.
  - constructor; unfold kept32, i32; (split; [lia|reflexivity]).
Qed.

Print Assumptions C92_created_partial.
Print Assumptions C92_refused_partial.
Print Assumptions C92_refusal_unnoticed_refuted.
Print Assumptions C92_orphans_refuted.
Print Assumptions C92_wrong_partial.
Print Assumptions C92_complete_partial.
Print Assumptions C92_cover_partial.
Print Assumptions C92_cover_unnoticed_refuted.
Print Assumptions C92_bin_partial.
Print Assumptions C92_file_partial.
Print Assumptions C92_file_unnoticed_refuted.
Print Assumptions C92_history_partial.
Print Assumptions C92_history_parent_refuted.
Print Assumptions C92_write_partial.
Print Assumptions C92_write_scope_refuted.

(** Setting an option stores the value (reduced to 32 bits) as the property it
    stands for, on the object it is called for, and changes nothing else; a
    class without the setter raises and nothing has changed. *)
Theorem C92_set_option_partial : forall w f L,
  (~ has_setter (r_cls w) f -> set_option w f L = (L, Err AttributeError)) /\
  (has_setter (r_cls w) f ->
   match stands_for f with
   | Some (n, v) => forall v', kept32 v v' -> exists L', set_option w f L = (L', Ok tt) /\
       only_ints L L' (fun o p x => o = r_obj w /\ p = n /\ x = v')
   | None => forall s q, f = LComment s -> c_string s q -> exists L', set_option w f L = (L', Ok tt) /\
       lb_made L' = lb_made L /\ lb_covers L' = lb_covers L /\ l_int (lb_props L') = l_int (lb_props L) /\
       l_test (lb_props L') = l_test (lb_props L) /\ l_str (lb_props L') (r_obj w) (-1) 14 = Some q /\
       (forall o i p, ~ (o = r_obj w /\ i = -1 /\ p = 14%N) ->
          l_str (lb_props L') o i p = l_str (lb_props L) o i p)
   end).
Proof.
  assert (P : forall o n v v' L, kept32 v v' -> exists L', put_int o n v L = (L', Ok tt) /\
            only_ints L L' (fun o' p x => o' = o /\ p = n /\ x = v')).
  { intros o n v v' L K. apply kept32_c_int in K. subst v'.
    unfold put_int, on_props, set_int_property, as_int. eexists. split; [reflexivity|].
    unfold only_ints. cbn [lb_made lb_covers lb_props l_str l_test l_int].
    do 4 (split; [reflexivity|]). change (c_int (-1)) with (-1). split.
    - intros o' p x (-> & -> & ->). rewrite obj_eqb_refl, N.eqb_refl. reflexivity.
    - intros o' index p H. destruct (obj_eqb o o') eqn:E; [|reflexivity]. apply obj_eqb_true in E. subst o'.
      destruct (Z.eqb_spec (-1) index) as [<-|]; [|reflexivity].
      destruct (N.eqb_spec n p) as [<-|]; [|reflexivity]. exfalso. apply (H (c_int v)). auto. }
  intros w f L. split.
  - intros H. destruct w as [c o]. unfold set_option. cbn [r_cls r_obj] in *.
    destruct f; cbn [has_setter] in H; try tauto; destruct c; try reflexivity; exfalso; apply H; auto.
  - intros H. destruct w as [c o]. unfold set_option. cbn [r_cls r_obj] in *.
    destruct f as [v|v|v|b|b|s|b|b|b]; cbn [has_setter stands_for] in *; 
      try match goal with |- forall v', kept32 _ _ -> _ => intros v' K end;
      try (destruct H as [->|[->| ->]]); try subst c; cbn [has_options]; try (apply P; exact K).
    all: intros s0 q [= <-] Q; apply c_string_until in Q; unfold put_str, on_props, set_string_property;
      eexists; split; [reflexivity|]; cbn [lb_made lb_covers lb_props l_str l_test l_int];
      change (c_int (-1)) with (-1); do 4 (split; [reflexivity|]).
    all: rewrite Q; split; [rewrite obj_eqb_refl; reflexivity|].
    all: intros o' index p Hn; destruct (obj_eqb o o') eqn:E; [|reflexivity]; apply obj_eqb_true in E; subst o';
      destruct (Z.eqb_spec (-1) index) as [<-|]; [|reflexivity];
      destruct (N.eqb_spec S_COMMENT p) as [<-|]; [|reflexivity]; exfalso; apply Hn; auto.
Qed.

Example C92_option_ex :
  let L' := fst (set_option (LRef WCoverpoint (Some 3%nat)) (LAtLeast 5) (Library no_props [] [])) in
  l_int (lb_props L') (Some 3%nat) (-1) 24 = Some 5 /\
  snd (set_option (LRef WCoverpoint (Some 3%nat)) (LPerInstance true) (Library no_props [] [])) = Err AttributeError.
Proof. split; reflexivity. Qed.

Print Assumptions C92_set_option_partial.
