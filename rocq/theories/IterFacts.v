(** Lemmas about iterators. *)
From Verif Require Import Base BaseFacts Consts Db Hist Api Iter ApiSpec ApiFacts ApiItems.
Set Implicit Arguments.

(** ** One call of next *)
Lemma scan_spec {A} (p : A -> bool) l : forall idx,
  match scan p l idx with
  | (Some i, idx') => exists pre x post, l = pre ++ x :: post /\ Forall (fun y => p y = false) pre /\ p x = true /\
                                         i = idx + List.length pre /\ idx' = S i
  | (None, idx') => Forall (fun y => p y = false) l /\ idx' = idx + List.length l
  end.
Proof.
  induction l as [|x l IH]; intros idx; cbn.
  - split; [constructor|lia].
  - destruct (p x) eqn:E.
    + exists [], x, l. cbn. rewrite Nat.add_0_r. repeat split; auto.
    + specialize (IH (S idx)). destruct (scan p l (S idx)) as [[i|] idx'].
      * destruct IH as (pre & y & post & -> & F & Hy & -> & ->). exists (x :: pre), y, post. cbn.
        rewrite Nat.add_succ_r. repeat split; auto.
      * destruct IH as (F & ->). split; [constructor; auto|lia].
Qed.

Lemma filter_none {A} (p : A -> bool) l : Forall (fun y => p y = false) l -> filter p l = [].
Proof. induction 1 as [|x l H _ IH]; cbn; auto. now rewrite H. Qed.

Arguments filter_none {A} {p l} _.

(** ** A complete loop over an unchanging list *)
Lemma loop_spec {A} (p : A -> bool) (live : list A) fuel : forall idx,
  idx <= List.length live -> List.length live - idx < fuel ->
  exists l, loop p live idx fuel = Some l /\ somes (map (nth_error live) l) = filter p (skipn idx live).
Proof.
  induction fuel as [|f IH]; intros idx Hi Hf; [lia|]. cbn [loop]. unfold next.
  pose proof (scan_spec p (skipn idx live) idx) as H.
  destruct (scan p (skipn idx live) idx) as [[i|] idx'].
  - destruct H as (pre & x & post & Hl & F & Hx & -> & ->).
    pose proof (firstn_skipn idx live) as Hs. rewrite Hl in Hs.
    assert (Hlen : List.length (firstn idx live) = idx) by (rewrite firstn_length; lia).
    assert (Hlive : live = (firstn idx live ++ pre) ++ x :: post) by (rewrite <- app_assoc; auto).
    assert (Hp : List.length (firstn idx live ++ pre) = idx + List.length pre) by (rewrite app_length; lia).
    assert (Htot : List.length live = idx + List.length pre + S (List.length post)).
    { rewrite Hlive, app_length, Hp. reflexivity. }
    destruct (IH (S (idx + List.length pre))) as (l & El & Eq); [lia|lia|].
    rewrite El. eexists. split; [reflexivity|]. cbn [map somes].
    assert (nth_error live (idx + List.length pre) = Some x) as ->.
    { rewrite Hlive, nth_error_app2 by lia. rewrite Hp, Nat.sub_diag. reflexivity. }
    rewrite Eq, Hl, filter_app, (filter_none F). cbn [app filter]. rewrite Hx. f_equal. f_equal.
    assert (E1 : forall (a b : list A), skipn (S (List.length a)) (a ++ x :: b) = b).
    { induction a; cbn; auto. }
    rewrite <- Hp. rewrite Hlive at 2. apply E1.
  - destruct H as (F & _). exists []. split; auto. now rewrite (filter_none F).
Qed.
Lemma for_loop_filter {A} (p : A -> bool) (live : list A) : for_loop p live = Some (filter p live).
Proof.
  unfold for_loop. destruct (@loop_spec _ p live (S (List.length live)) 0) as (l & -> & E); [lia|lia|].
  now rewrite E.
Qed.

(** ** Masks *)
Lemma mask_hit_shares t m : mask_hit t m = true <-> shares_bit t m.
Proof.
  unfold mask_hit, shares_bit. destruct (N.eqb_spec (N.land t m) 0) as [E|E]; cbn.
  - split; [discriminate|]. intros (b & H1 & H2).
    assert (N.testbit (N.land t m) b = true) by (rewrite N.land_spec, H1, H2; reflexivity).
    rewrite E, N.bits_0 in H. discriminate.
  - split; auto. intros _.
    exists (N.log2 (N.land t m)). pose proof (N.bit_log2 _ E) as H. rewrite N.land_spec in H.
    now apply andb_true_iff in H.
Qed.
Lemma loop_by_spec {A} (p q : A -> bool) l :
  (forall x, p x = true <-> q x = true) -> for_loop p l = Some (filter q l).
Proof.
  intros H. rewrite for_loop_filter. f_equal. apply filter_ext. intros x. specialize (H x).
  destruct (p x), (q x); auto; destruct H as [H1 H2]; [symmetry; apply H1 | apply H2]; reflexivity.
Qed.

(** ** Interleaving *)
Lemma matching_ext l l' n : (forall j, j < n -> nth j l false = nth j l' false) -> matching l n = matching l' n.
Proof. intros H. apply filter_ext_in. intros j Hj. apply in_seq in Hj. apply H. lia. Qed.
Lemma matching_app l n k : matching l (n + k) = matching l n ++ filter (fun j => nth j l false) (seq n k).
Proof. unfold matching. rewrite seq_app, filter_app. reflexivity. Qed.

Lemma next_matching (l : list bool) idx i idx' :
  idx <= List.length l ->
  next (fun b => b) l idx = (i, idx') ->
  idx' <= List.length l /\
  matching l idx' = matching l idx ++ (match i with Some j => [j] | None => [] end) /\
  (i = None -> idx' = List.length l).
Proof.
  intros Hle H. unfold next in H. pose proof (scan_spec (fun b : bool => b) (skipn idx l) idx) as S.
  rewrite H in S.
  assert (Hn : forall pre rest, skipn idx l = pre ++ rest -> Forall (fun y => y = false) pre ->
               filter (fun j => nth j l false) (seq idx (List.length pre)) = []).
  { intros pre rest Hl F. apply filter_none. apply Forall_forall. intros j Hj. apply in_seq in Hj.
    rewrite <- (firstn_skipn idx l), Hl.
    rewrite app_nth2 by (rewrite firstn_length; lia). rewrite firstn_length, Nat.min_l by lia.
    rewrite app_nth1 by lia. rewrite Forall_forall in F. apply F. apply nth_In. lia. }
  destruct i as [j|].
  - destruct S as (pre & x & post & Hl & F & Hx & -> & ->).
    assert (List.length l = idx + List.length pre + S (List.length post)) as Htot.
    { pose proof (f_equal (@List.length bool) Hl) as E. rewrite skipn_length, app_length in E. cbn in E. lia. }
    split; [lia|]. split; [|discriminate].
    replace (S (idx + List.length pre)) with (idx + (List.length pre + 1)) by lia.
    rewrite matching_app, seq_app, filter_app, (Hn _ _ Hl F). cbn [app]. f_equal. cbn [seq filter].
    assert (nth (idx + List.length pre) l false = true) as ->; [|reflexivity].
    rewrite <- (firstn_skipn idx l), Hl.
    rewrite app_nth2 by (rewrite firstn_length; lia). rewrite firstn_length, Nat.min_l by lia.
    replace (idx + List.length pre - idx) with (List.length pre) by lia.
    rewrite app_nth2, Nat.sub_diag by lia. exact Hx.
  - destruct S as (F & ->). rewrite skipn_length. split; [lia|]. split; [|intros _; lia].
    rewrite matching_app, <- skipn_length, (Hn (skipn idx l) []), app_nil_r; auto.
    now rewrite app_nil_r.
Qed.

(** The tests of the elements present stay the same under every call. *)
Lemma nth_error_ext {A} (l : list A) : forall l', (forall i, nth_error l i = nth_error l' i) -> l = l'.
Proof.
  induction l as [|x l IH]; intros [|y l'] H; auto.
  - discriminate (H 0).
  - discriminate (H 0).
  - f_equal; [pose proof (H 0) as E; now injection E | apply IH; intros i; exact (H (S i))].
Qed.
Lemma nth_error_firstn {A} (l : list A) : forall n i, i < n -> nth_error (firstn n l) i = nth_error l i.
Proof. induction l as [|x l IH]; intros [|n] [|i] H; cbn; auto; try lia. apply IH. lia. Qed.
Lemma step_tests k d o : is_prefix (tests k d) (tests k (fst (step d o))).
Proof.
  destruct k as [h m|h m|kd]; cbn [tests].
  - destruct (get_at (db_root d) h) as [s|] eqn:Hg; [|eexists; reflexivity].
    (* each child is a scope of the view; types are fixed *)
    destruct (step_keeps o (view_get Hg)) as (n' & Hn' & F & Hk & _).
    destruct (view_some _ _ Hn') as (s' & Hg' & ->). rewrite Hg'. cbn [node_of n_kids] in Hk.
    exists (skipn (List.length (s_kids s)) (map (of_type m) (s_kids s'))).
    rewrite <- (firstn_skipn (List.length (s_kids s)) (map (of_type m) (s_kids s'))) at 1. f_equal.
    apply nth_error_ext. intros i.
    destruct (Nat.lt_ge_cases i (List.length (s_kids s))) as [Hlt|Hge].
    + rewrite nth_error_firstn by assumption. rewrite !nth_error_map.
      destruct (nth_error (s_kids s) i) as [c|] eqn:Ec; [|apply nth_error_None in Ec; lia].
      assert (Hc : get_at (db_root d) (h ++ [i]) = Some c).
      { rewrite get_at_app, Hg. cbn. now rewrite Ec. }
      destruct (step_keeps o (view_get Hc)) as (nc & Hnc & Fc & _).
      destruct (view_some _ _ Hnc) as (c' & Hc' & ->).
      rewrite get_at_app, Hg' in Hc'. cbn in Hc'. destruct (nth_error (s_kids s') i) as [x|] eqn:Ex; [|discriminate].
      injection Hc' as ->. cbn. unfold of_type. f_equal. f_equal.
      destruct Fc as (_ & _ & Ht & _). exact Ht.
    + rewrite (proj2 (nth_error_None _ _)) by (rewrite firstn_length; lia).
      symmetry. apply nth_error_None. rewrite map_length. lia.
  - destruct (get_at (db_root d) h) as [s|] eqn:Hg; [|eexists; reflexivity].
    destruct (step_keeps o (view_get Hg)) as (n' & Hn' & _).
    destruct (view_some _ _ Hn') as (s' & Hg' & ->). rewrite Hg'.
    assert (Hit : forall i it, nth_error (s_items s) i = Some it ->
              nth_error (s_items s') i = Some (increment (inc_of h i o) it)).
    { intros i it Hi. assert (item_at d h i = Some it) as H0 by (unfold item_at; now rewrite (view_get Hg)).
      apply (step_item o) in H0. unfold item_at in H0. rewrite Hn' in H0. exact H0. }
    assert (Hlen : List.length (s_items s) <= List.length (s_items s')).
    { destruct (s_items s) as [|x l] eqn:El; [cbn; lia|]. rewrite <- El in *.
      assert (nth_error (s_items s) (List.length l) <> None) as Hne by (apply nth_error_Some; rewrite El; cbn; lia).
      destruct (nth_error (s_items s) (List.length l)) as [y|] eqn:Ey; [|congruence].
      apply Hit in Ey. assert (List.length l < List.length (s_items s')) by (apply nth_error_Some; congruence).
      rewrite El. cbn. lia. }
    exists (skipn (List.length (s_items s)) (map (item_of_type m) (s_items s'))).
    rewrite <- (firstn_skipn (List.length (s_items s)) (map (item_of_type m) (s_items s'))) at 1. f_equal.
    apply nth_error_ext. intros i.
    destruct (Nat.lt_ge_cases i (List.length (s_items s))) as [Hlt|Hge].
    + rewrite nth_error_firstn by assumption. rewrite !nth_error_map.
      destruct (nth_error (s_items s) i) as [c|] eqn:Ec; [|apply nth_error_None in Ec; lia].
      rewrite (Hit _ _ Ec). reflexivity.
    + rewrite (proj2 (nth_error_None _ _)) by (rewrite firstn_length; lia).
      symmetry. apply nth_error_None. rewrite map_length. lia.
  - assert (Hlen : List.length (db_hist d) <= List.length (db_hist (fst (step d o)))).
    { destruct (db_hist d) as [|x l] eqn:El; [cbn; lia|]. rewrite <- El in *.
      assert (nth_error (db_hist d) (List.length l) <> None) as Hne by (apply nth_error_Some; rewrite El; cbn; lia).
      destruct (nth_error (db_hist d) (List.length l)) as [y|] eqn:Ey; [|congruence].
      destruct (step_hist_keeps d o _ Ey) as (y' & Hy & _).
      assert (List.length l < List.length (db_hist (fst (step d o)))) by (apply nth_error_Some; congruence).
      rewrite El. cbn. lia. }
    exists (skipn (List.length (db_hist d)) (map (kind_matches kd) (db_hist (fst (step d o))))).
    rewrite <- (firstn_skipn (List.length (db_hist d)) (map (kind_matches kd) (db_hist (fst (step d o))))) at 1. f_equal.
    apply nth_error_ext. intros i.
    destruct (Nat.lt_ge_cases i (List.length (db_hist d))) as [Hlt|Hge].
    + rewrite nth_error_firstn by assumption. rewrite !nth_error_map.
      destruct (nth_error (db_hist d) i) as [c|] eqn:Ec; [|apply nth_error_None in Ec; lia].
      destruct (step_hist_keeps d o _ Ec) as (c' & -> & Ek & _). cbn. unfold kind_matches. now rewrite Ek.
    + rewrite (proj2 (nth_error_None _ _)) by (rewrite firstn_length; lia).
      symmetry. apply nth_error_None. rewrite map_length. lia.
Qed.
Lemma run_tests k l : forall d, is_prefix (tests k d) (tests k (run d l)).
Proof.
  induction l as [|o l IH]; intros d; [apply is_prefix_refl|].
  change (run d (o :: l)) with (run (fst (step d o)) l). apply (is_prefix_trans (step_tests k d o) (IH _)).
Qed.

(** Invariant of an iterator in use. *)
Definition iter_inv (k : iter_kind) (s : istate) : Prop :=
  is_idx s <= List.length (tests k (is_db s)) /\
  is_yielded s = matching (tests k (is_db s)) (is_idx s) /\
  (is_stopped s = true -> is_idx s = List.length (tests k (is_db s))).
Lemma istep_inv k s e : iter_inv k s -> iter_inv k (istep k s e).
Proof.
  intros (Hi & Hy & _). destruct e as [|o]; cbn [istep].
  - destruct (next (fun b => b) (tests k (is_db s)) (is_idx s)) as [[i|] idx'] eqn:E;
      destruct (next_matching _ Hi E) as (A & B & C);
      unfold iter_inv; cbn [is_idx is_db is_yielded is_stopped]; rewrite B, Hy, ?app_nil_r; auto.
    split; [exact A|]. split; [reflexivity|discriminate].
  - split; [|split]; cbn; try discriminate.
    + destruct (step_tests k (is_db s) o) as [t ->]. rewrite app_length. lia.
    + rewrite Hy. apply matching_ext. intros j Hj. destruct (step_tests k (is_db s) o) as [t ->].
      now rewrite app_nth1 by lia.
Qed.
Lemma iter_run_inv k d l : iter_inv k (iter_run k d l).
Proof.
  unfold iter_run. assert (H : iter_inv k (IState d 0 [] false)).
  { split; [cbn; lia|]. split; [reflexivity|discriminate]. }
  revert H. generalize (IState d 0 [] false). induction l as [|e l IH]; intros s H; cbn; auto.
  apply IH. now apply istep_inv.
Qed.

(** The database an iterator sees is the one the calls make. *)
Definition calls (l : list event) : list op :=
  flat_map (fun e => match e with Call o => [o] | Next => [] end) l.
Lemma iter_run_db k d l : is_db (iter_run k d l) = run d (calls l).
Proof.
  unfold iter_run. assert (H : forall s, is_db (fold_left (istep k) l s) = run (is_db s) (calls l)).
  { induction l as [|[|o] l IH]; intros s; cbn [fold_left calls flat_map app]; auto.
    - rewrite IH. cbn [istep]. destruct (next _ _ _) as [[i|] idx']; reflexivity.
    - rewrite IH. reflexivity. }
  apply H.
Qed.
