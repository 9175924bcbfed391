(** C81: a bin's count belongs to it alone.

    pyucis stores the CoverData object that the caller passes to createNextCover.
    Two bins given the same object share their count, and the caller can change the
    count of a bin by assigning to the object.  [Heap] models the objects. *)
From Verif Require Import Base Consts Db Hist Api ApiSpec ApiFacts Heap HeapSpec HeapFacts.

Definition fresh : hstate := HState empty_db [].
Lemma fresh_unshared : unshared fresh.
Proof. split; constructor. Qed.
Lemma fresh_grounded : grounded fresh.
Proof. constructor. Qed.

(** *** The property is false: an increment of one bin can change another. *)
Definition shared_demo : list hop :=
  [ Call (CreateScope [] "top" None 1 0 DU_MODULE 0); NewData (CoverData 1 0 0 1 1 0 0 None);
    NextCover [0] "a" 0 None; NextCover [0] "b" 0 None ].
Theorem C81_own_count_refuted : exists l p q amt c, p <> q /\
  let hs := hrun fresh l in
  data_at (seen hs) q = Some c /\
  exists h i, p = Cov h i /\ data_at (seen (fst (hstep hs (Increment h i amt)))) q = Some (add_count amt c) /\ amt <> 0%Z.
Proof.
  exists shared_demo, (Cov [0] 0), (Cov [0] 1), 5%Z, (CoverData 1 0 0 1 1 0 0 None). split; [discriminate|]. split; [reflexivity|].
  exists [0], 0. split; [reflexivity|]. split; [reflexivity|discriminate].
Qed.

(** *** Exactly what changes.  After any history of calls: incrementing a bin adds to
    the count of every item that holds the same object, and changes nothing else. *)
Theorem C81_increment_exactly : forall l h i amt r, let hs := hrun fresh l in
  object_at hs (Cov h i) = Some r ->
  let hs' := fst (hstep hs (Increment h i amt)) in
  snd (hstep hs (Increment h i amt)) = Ok (HOut ONone) /\
  skeleton (seen hs') = skeleton (seen hs) /\
  (forall p, object_at hs' p = object_at hs p) /\
  (forall p, object_at hs p = Some r -> data_at (seen hs') p = option_map (add_count amt) (data_at (seen hs) p)) /\
  (forall p, object_at hs p <> Some r -> data_at (seen hs') p = data_at (seen hs) p).
Proof.
  intros l h i amt r hs O hs'. subst hs'. cbn [hstep]. rewrite ref_object, O. cbn [fst snd]. split; [reflexivity|].
  apply change_object. apply run_grounded, fresh_grounded.
Qed.
(** The same when the caller assigns to an object it created. *)
Theorem C81_assignment_exactly : forall l r c, let hs := hrun fresh l in
  let hs' := fst (hstep hs (AssignData r c)) in
  skeleton (seen hs') = skeleton (seen hs) /\
  (forall p, object_at hs' p = object_at hs p) /\
  (forall p, object_at hs p = Some r -> data_at (seen hs') p = Some c) /\
  (forall p, object_at hs p <> Some r -> data_at (seen hs') p = data_at (seen hs) p).
Proof.
  intros l r c hs hs'. pose proof (run_grounded l fresh fresh_grounded) as G. fold hs in G. subst hs'. cbn [hstep].
  destruct (Nat.ltb r (List.length (hs_heap hs))) eqn:L; cbn [fst].
  - destruct (change_object hs r (fun _ => c) G) as (S1 & S2 & S3 & S4). split; [exact S1|]. split; [exact S2|]. split; [|exact S4].
    intros p O. rewrite (S3 p O), data_seen, O. reflexivity.
  - do 2 (split; [reflexivity|]). split; [|reflexivity]. intros p O. exfalso. apply object_held in O. unfold grounded in G. rewrite Forall_forall in G. apply G in O.
    apply Nat.ltb_ge in L. lia.
Qed.

Lemma get_upd_same : forall h r s s', get_at r h = Some s -> get_at (upd_at r h (fun _ => s')) h = Some s'.
Proof.
  induction h as [|i h IH]; intros r s s' H; [reflexivity|]. cbn in *. rewrite upd_nth_same.
  destruct (nth_error (s_kids r) i) as [c|]; [|discriminate]. cbn. eauto.
Qed.
Lemma get_upd_other : forall h r s s' q, get_at r h = Some s -> s_kids s' = s_kids s -> q <> h ->
  match get_at r q with
  | Some x => exists y, get_at (upd_at r h (fun _ => s')) q = Some y /\ s_items y = s_items x /\ s_iitems y = s_iitems x
  | None => get_at (upd_at r h (fun _ => s')) q = None
  end.
Proof.
  induction h as [|i h IH]; intros r s s' q H K N.
  - cbn in H. injection H as ->. destruct q as [|j q]; [congruence|]. cbn [get_at upd_at]. rewrite K.
    destruct (nth_error (s_kids s) j) as [c|]; [|reflexivity]. destruct (get_at c q) as [x|]; [|reflexivity]. exists x. auto.
  - cbn in H. destruct (nth_error (s_kids r) i) as [c|] eqn:E; [|discriminate]. destruct q as [|j q].
    + cbn. eexists. split; [reflexivity|]. split; reflexivity.
    + cbn [get_at upd_at s_kids]. destruct (Nat.eq_dec i j) as [<-|D].
      * rewrite upd_nth_same, E. cbn [option_map]. apply (IH c s s' q H K). congruence.
      * rewrite upd_nth_other by assumption. destruct (nth_error (s_kids r) j) as [c'|]; [|reflexivity].
        destruct (get_at c' q) as [x|]; [|reflexivity]. exists x. auto.
Qed.
Lemma nth_error_snoc : forall (A : Type) (l : list A) x i, i <> List.length l -> nth_error (l ++ [x]) i = nth_error l i.
Proof.
  intros A l x i N. destruct (Nat.lt_ge_cases i (List.length l)) as [L|L]; [now apply nth_error_app1|].
  transitivity (@None A); [|symmetry]; apply nth_error_None; [rewrite app_length; cbn; lia|assumption].
Qed.
Lemma handle_dec : forall a b : handle, {a = b} + {a <> b}.
Proof. apply list_eq_dec, Nat.eq_dec. Qed.

(** The objects the caller gets: a new object is one that no item holds, with the given
    contents; getCoverData gives the object that the bin holds; createNextCover makes
    the new item hold the object it is given. *)
Theorem C81_objects : forall l, let hs := hrun fresh l in
  (forall c, exists r hs', hstep hs (NewData c) = (hs', Ok (HRef r)) /\ seen hs' = seen hs /\
     (forall p, object_at hs p <> Some r) /\ nth_error (hs_heap hs) r = None /\ nth_error (hs_heap hs') r = Some c /\
     forall q x, nth_error (hs_heap hs) q = Some x -> nth_error (hs_heap hs') q = Some x) /\
  (forall h i, hstep hs (GetData h i) = (hs, match object_at hs (Cov h i) with Some r => Ok (HRef r) | None => Err NoSuchObject end)) /\
  (forall h name r src hs' x, hstep hs (NextCover h name r src) = (hs', Ok x) ->
     hs_heap hs' = hs_heap hs /\
     exists p, object_at hs p = None /\ object_at hs' p = Some r /\ forall q, q <> p -> object_at hs' q = object_at hs q).
Proof.
  intros l hs. pose proof (run_grounded l fresh fresh_grounded) as G. fold hs in G. split; [|split].
  - intros c. cbn [hstep]. eexists. eexists. split; [reflexivity|]. cbn [hs_heap].
    assert (L : nth_error (hs_heap hs) (List.length (hs_heap hs)) = None) by (now apply nth_error_None). split.
    { destruct hs as [d heap]. cbn [hs_db hs_heap] in *. apply seen_ext. intros r R. unfold grounded in G. rewrite Forall_forall in G. specialize (G r R). cbn [hs_heap] in G.
      now rewrite app_nth1. }
    split; [|split; [exact L|split]].
    + intros p O. apply object_held in O. unfold grounded in G. rewrite Forall_forall in G. apply G in O. lia.
    + rewrite nth_error_app2, Nat.sub_diag by lia. reflexivity.
    + intros q x Q. rewrite nth_error_app1; [exact Q|]. apply nth_error_Some. congruence.
  - intros h i. cbn [hstep]. rewrite ref_object. now destruct (object_at hs (Cov h i)).
  - intros h name r src hs' x H. cbn [hstep] in H. destruct (Nat.ltb r (List.length (hs_heap hs))); [|discriminate].
    unfold next_cover in H. destruct (step (hs_db hs) (CreateNextCover h name (ref_data r) src)) as [d y] eqn:S. injection H as <- Y. cbn [hs_heap]. split; [reflexivity|].
    unfold step in S. cbn [target] in S. destruct (get_at (db_root (hs_db hs)) h) as [s|] eqn:Gs; [|now injection S as <- <-].
    cbn [act] in S. assert (R : the_ref (ref_data r) = r) by (unfold the_ref, ref_data; cbn; lia).
    destruct (is_inst (s_cls s)); cbn [appending] in S; injection S as <- <-.
    + exists (InInst h (List.length (s_iitems s))). unfold object_at, data_at. cbn [hs_db with_root db_root]. rewrite Gs, (get_upd_same _ _ _ _ Gs). split; [|split].
      * now rewrite (proj2 (nth_error_None _ _)).
      * cbn [add_iitem s_iitems]. rewrite nth_error_app2, Nat.sub_diag by lia. cbn. now rewrite R.
      * intros q Q. destruct q as [k i|k i]; (destruct (handle_dec k h) as [->|N];
          [rewrite Gs, (get_upd_same _ _ _ _ Gs); cbn [add_iitem s_items s_iitems]
          |pose proof (get_upd_other h _ _ (add_iitem s (IItem name (ref_data r) src 0)) k Gs eq_refl N) as O;
           destruct (get_at (db_root (hs_db hs)) k) as [x0|]; [destruct O as (y & -> & O1 & O2); now rewrite ?O1, ?O2|now rewrite O]]).
        -- reflexivity.
        -- rewrite nth_error_snoc; [reflexivity|congruence].
    + exists (Cov h (List.length (s_items s))). unfold object_at, data_at. cbn [hs_db with_root db_root]. rewrite Gs, (get_upd_same _ _ _ _ Gs). split; [|split].
      * now rewrite (proj2 (nth_error_None _ _)).
      * cbn [add_item s_items]. rewrite nth_error_app2, Nat.sub_diag by lia. cbn. now rewrite R.
      * intros q Q. destruct q as [k i|k i]; (destruct (handle_dec k h) as [->|N];
          [rewrite Gs, (get_upd_same _ _ _ _ Gs); cbn [add_item s_items s_iitems]
          |pose proof (get_upd_other h _ _ (add_item s (Item name (ref_data r) src)) k Gs eq_refl N) as O;
           destruct (get_at (db_root (hs_db hs)) k) as [x0|]; [destruct O as (y & -> & O1 & O2); now rewrite ?O1, ?O2|now rewrite O]]).
        -- rewrite nth_error_snoc; [reflexivity|congruence].
        -- reflexivity.
Qed.

(** *** When the property holds.  A history is careful if it never passes an object
    that an item holds to another item, and never assigns to one.  Then no two items
    share, and the calls are those of the model in which the data is stored by value
    (for which C05 and C06 say what changes), with the same results. *)
Theorem C81_careful : forall l, careful_all fresh l ->
  let hs := hrun fresh l in
  (forall p q r, object_at hs p = Some r -> object_at hs q = Some r -> p = q) /\
  seen hs = run empty_db (all_by_value fresh l) /\
  forall o, careful hs o ->
    seen (fst (hstep hs o)) = run (seen hs) (by_value hs o) /\
    one_result (snd (hstep hs o)) (results (seen hs) (by_value hs o)).
Proof.
  intros l C hs. destruct (careful_history l fresh fresh_unshared C) as [U E]. fold hs in U, E. split; [|split].
  - intros p q r. now apply unshared_places.
  - exact E.
  - intros o Co. now apply careful_by_value.
Qed.
(** In particular an increment changes one bin. *)
Theorem C81_careful_increment : forall l h i amt c, careful_all fresh l ->
  let hs := hrun fresh l in
  data_at (seen hs) (Cov h i) = Some c ->
  let hs' := fst (hstep hs (Increment h i amt)) in
  skeleton (seen hs') = skeleton (seen hs) /\
  data_at (seen hs') (Cov h i) = Some (add_count amt c) /\
  forall p, p <> Cov h i -> data_at (seen hs') p = data_at (seen hs) p.
Proof.
  intros l h i amt c C hs D hs'. rewrite data_seen in D. destruct (object_at hs (Cov h i)) as [r|] eqn:O; [|discriminate].
  destruct (C81_increment_exactly l h i amt r O) as (_ & S1 & _ & S2 & S3). split; [exact S1|]. split.
  - fold hs in S2. fold hs' in S2. rewrite (S2 (Cov h i) O), data_seen, O. cbn [option_map] in *. now injection D as <-.
  - intros p N. apply S3. intros Q. apply N. now apply (proj1 (C81_careful l C) p (Cov h i) r).
Qed.
(** createBin makes an object of its own: histories whose only way of making items is
    createBin, and that do not assign to objects, are careful. *)
Definition bins_only (o : hop) : bool := match o with NextCover _ _ _ _ | AssignData _ _ => false | _ => true end.
Theorem C81_create_bin : forall l, forallb bins_only l = true -> careful_all fresh l.
Proof.
  assert (X : forall l hs, forallb bins_only l = true -> careful_all hs l).
  { induction l as [|o l IH]; intros hs B; [exact I|]. cbn [forallb] in B. apply andb_prop in B as [B1 B2]. split; [|now apply IH]. destruct o; try discriminate B1; exact I. }
  intros l. apply X.
Qed.

(** Examples: a careful history with createBin, createNextCover with objects of their
    own, and increments. *)
Definition careful_demo : list hop :=
  [ Call (CreateScope [] "top" None 1 0 DU_MODULE 0);
    Call (CreateInstance [] "i" None 1 0 INSTANCE (Some [0]) 0);
    Call (CreateCovergroup [1] "cg" None 1 0);
    Call (CreateCoverpoint [1; 0] "cp" None 1 0);
    Bin [1; 0; 0] "x" None 1 0 1; Bin [1; 0; 0] "y" None 1 3 1;
    NewData (CoverData 1 0 0 1 1 0 0 None); AssignData 2 (CoverData 1 0 4 1 1 0 0 None);
    NextCover [1; 0; 0] "z" 2 None; NewData (CoverData 1 0 0 1 1 0 0 None); NextCover [1] "s" 3 None;
    Increment [1; 0; 0] 0 1 ].
Example careful_demo_is_careful : careful_all fresh careful_demo.
Proof. vm_compute. intuition discriminate. Qed.
Example careful_demo_counts :
  map (fun i => option_map cd_data (data_at (seen (hrun fresh careful_demo)) (Cov [1; 0; 0] i))) [0; 1; 2; 3] = [Some 1%Z; Some 3%Z; Some 4%Z; None].
Proof. reflexivity. Qed.
Example shared_demo_shares : object_at (hrun fresh shared_demo) (Cov [0] 0) = Some 0 /\ object_at (hrun fresh shared_demo) (Cov [0] 1) = Some 0.
Proof. now split. Qed.

Print Assumptions C81_own_count_refuted.
Print Assumptions C81_increment_exactly.
Print Assumptions C81_assignment_exactly.
Print Assumptions C81_careful.
Print Assumptions C81_careful_increment.
Print Assumptions C81_create_bin.
Print Assumptions C81_objects.
