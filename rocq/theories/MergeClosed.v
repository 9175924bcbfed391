(** The merger in closed form. *)
From Verif Require Import Base Dict Consts Db Report Merge BaseFacts NameSpec NubFacts.
Set Implicit Arguments.

(** ** Collecting names *)
Section CollectFacts.
  Context {A : Type} (name : A -> string).

  Definition cinv (N : nat) (done : list (list A)) (part : list A) (st : dict (list (option A)) * list string) : Prop :=
    snd st = nub (map name (List.concat done ++ part)) /\
    forall n, dget n (fst st) =
              if sinb n (map name (List.concat done ++ part))
              then Some (map (last_named name n) done ++ last_named name n part :: repeat None (N - S (List.length done)))
              else None.

  Lemma sinb_snoc x l y : sinb x (l ++ [y]) = sinb x l || String.eqb x y.
  Proof. unfold sinb. rewrite existsb_app. simpl. rewrite orb_false_r. auto. Qed.

  Lemma repeat_cons_S {X} (x : X) n : 0 < n -> repeat x n = x :: repeat x (n - 1).
  Proof. destruct n; [lia|]. simpl. rewrite Nat.sub_0_r. auto. Qed.

  Lemma last_named_all_none n (done : list (list A)) :
    ~ In n (map name (List.concat done)) -> map (last_named name n) done = repeat None (List.length done).
  Proof.
    induction done as [|l done IH]; simpl; auto. rewrite map_app, in_app_iff. intros H.
    rewrite IH by tauto. f_equal. apply last_named_none. tauto.
  Qed.

  Lemma collect1_inv N done part st x :
    List.length done < N -> cinv N done part st ->
    cinv N done (part ++ [x]) (collect1 name N (List.length done) st x).
  Proof.
    intros HN [H1 H2]. destruct st as [m names]. simpl in *. subst names.
    unfold cinv. rewrite !app_assoc.
    rewrite (map_app name (List.concat done ++ part) [x]). cbn [map]. rewrite nub_snoc.
    unfold collect1. rewrite (H2 (name x)).
    destruct (sinb (name x) (map name (List.concat done ++ part))) eqn:E.
    - split; auto. intros n. cbn [fst]. rewrite sinb_snoc, last_named_snoc.
      destruct (String.eqb_spec n (name x)) as [->|Hn].
      + rewrite dget_dset_same, orb_true_r. f_equal.
        rewrite set_nth_app; auto. rewrite map_length. auto.
      + rewrite dget_dset_other by auto. rewrite orb_false_r. apply H2.
    - split; auto. intros n. cbn [fst]. rewrite sinb_snoc, last_named_snoc.
      destruct (String.eqb_spec n (name x)) as [->|Hn].
      + rewrite dget_dset_same, orb_true_r. f_equal.
        apply sinb_false in E. rewrite map_app, in_app_iff in E.
        rewrite last_named_all_none by tauto.
        replace N with (List.length done + (N - List.length done)) at 1 by lia.
        rewrite repeat_app. rewrite (@repeat_cons_S _ None (N - List.length done)) by lia.
        rewrite set_nth_app by (rewrite repeat_length; auto).
        replace (N - List.length done - 1) with (N - S (List.length done)) by lia. auto.
      + rewrite dget_dset_other by auto. rewrite orb_false_r. apply H2.
  Qed.

  Lemma collect_fold_inv N done l : forall part st,
    List.length done < N -> cinv N done part st ->
    cinv N done (part ++ l) (fold_left (collect1 name N (List.length done)) l st).
  Proof.
    induction l as [|x l IH]; intros part st HN H; simpl.
    - rewrite app_nil_r. auto.
    - replace (part ++ x :: l) with ((part ++ [x]) ++ l) by (rewrite <- app_assoc; auto).
      apply IH; auto. apply collect1_inv; auto.
  Qed.

  Definition cdone (N : nat) (done : list (list A)) (st : dict (list (option A)) * list string) : Prop :=
    snd st = nub (map name (List.concat done)) /\
    forall n, dget n (fst st) =
              if sinb n (map name (List.concat done))
              then Some (map (last_named name n) done ++ repeat None (N - List.length done))
              else None.

  Lemma cdone_start N done st : List.length done < N -> cdone N done st -> cinv N done [] st.
  Proof.
    intros HN [H1 H2]. unfold cinv. rewrite app_nil_r. split; auto. intros n. rewrite H2.
    destruct (sinb _ _); auto. simpl. rewrite (@repeat_cons_S _ None (N - List.length done)) by lia.
    replace (N - List.length done - 1) with (N - S (List.length done)) by lia. auto.
  Qed.

  Lemma cdone_end N done l st : cinv N done l st -> cdone N (done ++ [l]) st.
  Proof.
    intros [H1 H2]. unfold cdone. rewrite concat_app. simpl. rewrite app_nil_r. split; auto.
    intros n. rewrite H2. rewrite app_length, (map_app (last_named name n)), <- app_assoc. simpl. rewrite Nat.add_1_r. auto.
  Qed.

  Lemma collect_from_inv N srcs : forall done st,
    List.length done + List.length srcs <= N -> cdone N done st ->
    cdone N (done ++ srcs) (collect_from name N (List.length done) srcs st).
  Proof.
    induction srcs as [|l srcs IH]; intros done st HN H; simpl in *.
    - rewrite app_nil_r. auto.
    - replace (done ++ l :: srcs) with ((done ++ [l]) ++ srcs) by (rewrite <- app_assoc; auto).
      replace (S (List.length done)) with (List.length (done ++ [l])) by (rewrite app_length; simpl; lia).
      apply IH.
      + rewrite app_length. simpl. lia.
      + apply cdone_end. apply (collect_fold_inv l (part := [])); [lia|]. apply cdone_start; auto. lia.
  Qed.

  Lemma collect_spec srcs m names :
    collect name srcs = (m, names) ->
    names = nub (map name (List.concat srcs)) /\
    forall n, In n names -> dget n m = Some (map (last_named name n) srcs).
  Proof.
    intros H. unfold collect in H.
    pose proof (@collect_from_inv (List.length srcs) srcs [] ([], [])) as HC. simpl in HC.
    rewrite H in HC. destruct HC as [H1 H2].
    - lia.
    - split; simpl; auto.
    - simpl in *. split; auto. intros n Hn. rewrite H2. subst names. apply (proj1 (nub_in _ _)) in Hn.
      apply sinb_in in Hn. rewrite Hn, Nat.sub_diag. simpl. rewrite app_nil_r. auto.
  Qed.

  Lemma collect_list_fold l : forall done st,
    (snd st = nub (map name done) /\
     forall n, dget n (fst st) = if sinb n (map name done) then Some (named name n done) else None) ->
    let st' := fold_left (collect_list1 name) l st in
    (snd st' = nub (map name (done ++ l)) /\
     forall n, dget n (fst st') = if sinb n (map name (done ++ l)) then Some (named name n (done ++ l)) else None).
  Proof.
    induction l as [|x l IH]; intros done st H; simpl.
    - rewrite app_nil_r. auto.
    - replace (done ++ x :: l) with ((done ++ [x]) ++ l) by (rewrite <- app_assoc; auto).
      apply IH. destruct st as [m names]. destruct H as [H1 H2]. simpl in *. subst names.
      rewrite map_app. simpl map. rewrite nub_snoc, (H2 (name x)).
      destruct (sinb (name x) (map name done)) eqn:E; (split; [auto|]; intros n; cbn [fst];
        rewrite sinb_snoc; unfold named; rewrite filter_app; simpl;
        destruct (String.eqb_spec n (name x)) as [->|Hn];
        [rewrite dget_dset_same, orb_true_r; auto
        |rewrite dget_dset_other by auto; rewrite orb_false_r, app_nil_r; apply H2]).
      f_equal. apply sinb_false in E. pose proof (named_nil name _ _ E) as HN. unfold named in HN. rewrite HN. auto.
  Qed.

  Lemma collect_list_spec srcs m names :
    collect_list name srcs = (m, names) ->
    names = nub (map name (List.concat srcs)) /\
    forall n, In n names -> dget n m = Some (named name n (List.concat srcs)).
  Proof.
    unfold collect_list. intros H.
    assert (forall srcs done st,
      (snd st = nub (map name done) /\
       forall n, dget n (fst st) = if sinb n (map name done) then Some (named name n done) else None) ->
      let st' := fold_left (fun st l => fold_left (collect_list1 name) l st) srcs st in
      (snd st' = nub (map name (done ++ List.concat srcs)) /\
       forall n, dget n (fst st') = if sinb n (map name (done ++ List.concat srcs))
                                    then Some (named name n (done ++ List.concat srcs)) else None)) as HG.
    { clear. induction srcs as [|l srcs IH]; intros done st H; simpl.
      - rewrite app_nil_r. auto.
      - rewrite app_assoc. apply IH. apply collect_list_fold. auto. }
    specialize (HG srcs [] ([], [])). simpl in HG. rewrite H in HG.
    destruct HG as [H1 H2]; [split; auto|]. simpl in *. split; auto.
    intros n Hn. rewrite H2. subst names. apply (proj1 (nub_in _ _)) in Hn. apply sinb_in in Hn. rewrite Hn. auto.
  Qed.
End CollectFacts.

(** ** Loops in the state monad *)
Definition add_kids (s : scope) (l : list scope) : scope :=
  Scope (s_attrs s) (s_items s) (s_iitems s) (s_kids s ++ l).
Definition add_items (s : scope) (l : list item) : scope :=
  Scope (s_attrs s) (s_items s ++ l) (s_iitems s) (s_kids s).

Lemma sbind_ok {S A B} (a : A) (k : A -> ST S B) : sbind (slift (Ok a)) k = k a.
Proof. reflexivity. Qed.

Lemma dindex_some {V} n (m : dict V) v : dget n m = Some v -> dindex n m = Ok v.
Proof. unfold dindex. intros ->. auto. Qed.

Lemma add_kids_nil s : add_kids s [] = s.
Proof. destruct s. unfold add_kids. simpl. rewrite app_nil_r. auto. Qed.
Lemma add_items_nil s : add_items s [] = s.
Proof. destruct s. unfold add_items. simpl. rewrite app_nil_r. auto. Qed.
Lemma add_kids_app s l1 l2 : add_kids (add_kids s l1) l2 = add_kids s (l1 ++ l2).
Proof. unfold add_kids. simpl. rewrite app_assoc. auto. Qed.
Lemma add_items_app s l1 l2 : add_items (add_items s l1) l2 = add_items s (l1 ++ l2).
Proof. unfold add_items. simpl. rewrite app_assoc. auto. Qed.
Lemma add_child_kids s c : add_child s c = add_kids s [c].
Proof. reflexivity. Qed.

(** [m] succeeds exactly when [P] holds, and then has the given effect. *)
Definition closed {S A} (m : ST S A) (P : Prop) (s' : S -> S) (r : S -> A) : Prop :=
  forall s, (P -> m s = (s' s, Ok (r s))) /\ (forall s1 a, m s = (s1, Ok a) -> P).

(** The loop body appends [f k x] at position [k]. *)
Fixpoint mapi {A B} (f : nat -> A -> B) (k : nat) (l : list A) : list B :=
  match l with [] => [] | x :: t => f k x :: mapi f (S k) t end.

Lemma mapi_const {A B} (f : A -> B) k l : mapi (fun _ => f) k l = map f l.
Proof. revert k. induction l; intros; simpl; auto. rewrite IHl. auto. Qed.

Lemma mapi_length {A B} (f : nat -> A -> B) k l : List.length (mapi f k l) = List.length l.
Proof. revert k. induction l; intros; simpl; auto. Qed.

Definition nkids (s : scope) := List.length (s_kids s).
Lemma nkids_add s l : nkids (add_kids s l) = nkids s + List.length l.
Proof. unfold nkids. simpl. apply app_length. Qed.

Lemma sfor_kids {A} (f : A -> ST scope unit) (c : nat -> A -> scope) (P : A -> Prop) l :
  (forall x, In x l -> closed (f x) (P x) (fun s => add_kids s [c (nkids s) x]) (fun _ => tt)) ->
  closed (sfor f l) (Forall P l) (fun s => add_kids s (mapi c (nkids s) l)) (fun _ => tt).
Proof.
  induction l as [|x l IH]; intros HF s; simpl.
  - split; auto. intros _. rewrite add_kids_nil. reflexivity.
  - assert (closed (sfor f l) (Forall P l) (fun s => add_kids s (mapi c (nkids s) l)) (fun _ => tt)) as IH'
      by (apply IH; intros; apply HF; right; auto).
    destruct (HF x (or_introl eq_refl) s) as [Hx1 Hx2]. split.
    + intros H. inversion H; subst. unfold sbind. rewrite Hx1 by auto.
      destruct (IH' (add_kids s [c (nkids s) x])) as [IH1 _]. rewrite IH1 by auto.
      rewrite add_kids_app, nkids_add. simpl. rewrite Nat.add_1_r. auto.
    + unfold sbind. intros s1 a H. destruct (f x s) as [s2 [[]|e]] eqn:E; [|discriminate].
      constructor; eauto. eapply IH'; eauto.
Qed.

Lemma sfor_items {A} (f : A -> ST scope unit) (c : A -> list item) (P : A -> Prop) l :
  (forall x, In x l -> closed (f x) (P x) (fun s => add_items s (c x)) (fun _ => tt)) ->
  closed (sfor f l) (Forall P l) (fun s => add_items s (flat_map c l)) (fun _ => tt).
Proof.
  induction l as [|x l IH]; intros HF s; simpl.
  - split; auto. intros _. rewrite add_items_nil. reflexivity.
  - assert (closed (sfor f l) (Forall P l) (fun s => add_items s (flat_map c l)) (fun _ => tt)) as IH'
      by (apply IH; intros; apply HF; right; auto).
    destruct (HF x (or_introl eq_refl) s) as [Hx1 Hx2]. split.
    + intros H. inversion H; subst. unfold sbind. rewrite Hx1 by auto.
      destruct (IH' (add_items s (c x))) as [IH1 _]. rewrite IH1 by auto.
      rewrite add_items_app. auto.
    + unfold sbind. intros s1 a H. destruct (f x s) as [s2 [[]|e]] eqn:E; [|discriminate].
      constructor; eauto. eapply IH'; eauto.
Qed.

Lemma closed_new_child {A} base c (m : handle -> ST scope A) P c' (r : nat -> A) s :
  (forall k, closed (m (base ++ [k])) P (c' k) (fun _ => r k)) ->
  (P -> new_child base c m s = (add_kids s [c' (nkids s) c], Ok (r (nkids s)))) /\
  (forall s1 a, new_child base c m s = (s1, Ok a) -> P).
Proof.
  intros HC. unfold new_child. fold (nkids s). destruct (HC (nkids s) c) as [H1 H2]. split.
  - intros HP. rewrite H1 by auto. reflexivity.
  - intros s1 a H. destruct (m (base ++ [nkids s]) c) as [c1 [x|e]] eqn:E; inversion H; subst. eauto.
Qed.

(** ** Bins *)
Definition first_al (l : list item) : option Z :=
  match l with [] => None | i :: _ => cd_at_least (ci_data i) end.
Definition alz (o : option Z) : Z := match o with Some z => z | None => 0%Z end.
Definition count_of (i : item) : Z := cd_data (ci_data i).

(** All bins of a kind in the sources, in order. *)
Definition src_bins (kind : N) (srcs : list scope) : list item :=
  flat_map (fun s => cover_items s kind) srcs.

Definition c_bin (kind : N) (its : list item) (n : string) : item :=
  new_bin n None (alz (first_al (named ci_name n its))) (sumZ (map count_of (named ci_name n its))) kind.
Definition c_bins1 (srcs : list scope) (kind : N) : list item :=
  map (c_bin kind (src_bins kind srcs)) (nub (map ci_name (src_bins kind srcs))).
Definition c_bins (srcs : list scope) : list item :=
  c_bins1 srcs CVGBIN ++ c_bins1 srcs IGNOREBIN ++ c_bins1 srcs ILLEGALBIN.
Definition ok_bins1 (srcs : list scope) (kind : N) : Prop :=
  forall n, In n (map ci_name (src_bins kind srcs)) -> first_al (named ci_name n (src_bins kind srcs)) <> None.
Definition ok_bins (srcs : list scope) : Prop := Forall (ok_bins1 srcs) [CVGBIN; IGNOREBIN; ILLEGALBIN].

Lemma fold_res_flat (f : dict (Z * Z) * list string -> item -> res (dict (Z * Z) * list string)) g srcs st :
  fold_res (fun st (s : scope) => fold_res f (g s) st) srcs st = fold_res f (flat_map g srcs) st.
Proof.
  revert st. induction srcs as [|s srcs IH]; intros st; simpl; auto.
  rewrite fold_res_app. destruct (fold_res f (g s) st); simpl; auto.
Qed.

Definition binv (done : list item) (st : dict (Z * Z) * list string) : Prop :=
  snd st = nub (map ci_name done) /\
  forall n, dget n (fst st) =
    if sinb n (map ci_name done)
    then Some (sumZ (map count_of (named ci_name n done)), alz (first_al (named ci_name n done)))
    else None.

Lemma first_al_app l1 l2 : l1 <> [] -> first_al (l1 ++ l2) = first_al l1.
Proof. destruct l1; [congruence|auto]. Qed.

Lemma named_app {A} (name : A -> string) n l1 l2 : named name n (l1 ++ l2) = named name n l1 ++ named name n l2.
Proof. unfold named. apply filter_app. Qed.

Lemma named_nonempty {A} (name : A -> string) n l : In n (map name l) -> named name n l <> [].
Proof.
  intros H E. apply in_map_iff in H. destruct H as (x & Hx & Hl).
  assert (In x (named name n l)) as HI.
  { unfold named. apply filter_In. split; auto. apply String.eqb_eq. auto. }
  rewrite E in HI. inversion HI.
Qed.

Lemma bin_acc_inv done st i :
  binv done st ->
  match bin_acc st i with
  | Ok st' => binv (done ++ [i]) st' /\ (~ In (ci_name i) (map ci_name done) -> cd_at_least (ci_data i) <> None)
  | Err _ => ~ In (ci_name i) (map ci_name done) /\ cd_at_least (ci_data i) = None
  end.
Proof.
  intros [H1 H2]. destruct st as [m names]. simpl in H1, H2. subst names. unfold bin_acc.
  pose proof (H2 (ci_name i)) as HG. rewrite HG.
  destruct (sinb (ci_name i) (map ci_name done)) eqn:E.
  - simpl. unfold dindex. rewrite HG. simpl. apply sinb_in in E. split; [|tauto].
    unfold binv. simpl. rewrite map_app. simpl map. rewrite nub_snoc.
    assert (sinb (ci_name i) (map ci_name done) = true) as E' by (apply sinb_in; auto). rewrite E'. split; auto.
    intros n. rewrite sinb_snoc. rewrite named_app. unfold named at 2 4. simpl.
    destruct (String.eqb_spec n (ci_name i)) as [->|Hn].
    + rewrite dget_dset_same, orb_true_r. rewrite map_app, sumZ_app. simpl.
      rewrite first_al_app by (apply named_nonempty; auto). f_equal. f_equal. unfold count_of. lia.
    + rewrite dget_dset_other by auto. rewrite orb_false_r, app_nil_r. apply H2.
  - unfold at_least_of. destruct (cd_at_least (ci_data i)) as [al|] eqn:EA; simpl.
    + unfold dindex. rewrite dget_dset_same. simpl. split; [|intros; discriminate].
      unfold binv. simpl. rewrite map_app. simpl map. rewrite nub_snoc, E. split; auto.
      intros n. rewrite sinb_snoc. rewrite named_app. unfold named at 2 4. simpl.
      destruct (String.eqb_spec n (ci_name i)) as [->|Hn].
      * rewrite dget_dset_same, orb_true_r. apply sinb_false in E. rewrite (named_nil ci_name _ _ E). simpl.
        rewrite EA. simpl. f_equal. f_equal. unfold count_of. lia.
      * rewrite !dget_dset_other by auto. rewrite orb_false_r, app_nil_r. apply H2.
    + apply sinb_false in E. auto.
Qed.

Definition okb (its : list item) : Prop := forall n, In n (map ci_name its) -> first_al (named ci_name n its) <> None.

Lemma okb_snoc done i :
  okb (done ++ [i]) <-> okb done /\ (~ In (ci_name i) (map ci_name done) -> cd_at_least (ci_data i) <> None).
Proof.
  unfold okb. split.
  - intros H. split.
    + intros n Hn. specialize (H n). rewrite named_app, first_al_app in H by (apply named_nonempty; auto).
      apply H. rewrite map_app, in_app_iff. auto.
    + intros Hn. specialize (H (ci_name i)). rewrite named_app, (named_nil ci_name _ _ Hn) in H.
      unfold named in H. simpl in H. rewrite String.eqb_refl in H. simpl in H. apply H.
      rewrite map_app, in_app_iff. simpl. auto.
  - intros [H1 H2] n Hn. rewrite map_app, in_app_iff in Hn. simpl in Hn. rewrite named_app.
    destruct (in_dec string_dec n (map ci_name done)) as [Hd|Hd].
    + rewrite first_al_app by (apply named_nonempty; auto). auto.
    + rewrite (named_nil ci_name _ _ Hd). destruct Hn as [Hn|[Hn|[]]]; [tauto|]. subst n.
      unfold named. simpl. rewrite String.eqb_refl. simpl. auto.
Qed.

Lemma bin_fold_inv l : forall done st, binv done st -> okb done ->
  match fold_res bin_acc l st with
  | Ok st' => binv (done ++ l) st' /\ okb (done ++ l)
  | Err _ => ~ okb (done ++ l)
  end.
Proof.
  induction l as [|i l IH]; intros done st H Ho; simpl.
  - rewrite app_nil_r. auto.
  - pose proof (bin_acc_inv i H) as HB. destruct (bin_acc st i) as [st'|e]; simpl.
    + destruct HB as [HB1 HB2]. replace (done ++ i :: l) with ((done ++ [i]) ++ l) by (rewrite <- app_assoc; auto).
      apply IH; auto. apply okb_snoc. auto.
    + intros HO. destruct HB as [HB1 HB2]. specialize (HO (ci_name i)).
      rewrite named_app, (named_nil ci_name _ _ HB1) in HO. unfold named in HO. simpl in HO.
      rewrite String.eqb_refl in HO. simpl in HO. apply HO; auto.
      rewrite map_app, in_app_iff. simpl. auto.
Qed.

Lemma merge_bins1_closed srcs kind :
  closed (merge_bins1 srcs kind) (ok_bins1 srcs kind) (fun s => add_items s (c_bins1 srcs kind)) (fun _ => tt).
Proof.
  intros s. unfold merge_bins1. rewrite fold_res_flat. fold (src_bins kind srcs).
  pose proof (@bin_fold_inv (src_bins kind srcs) [] ([], [])) as HB. simpl in HB.
  assert (binv [] ([], [])) as H0 by (split; auto).
  assert (okb []) as H0' by (intros n []). specialize (HB H0 H0'). clear H0 H0'.
  change (ok_bins1 srcs kind) with (okb (src_bins kind srcs)).
  unfold sbind at 1 2, slift. destruct (fold_res bin_acc (src_bins kind srcs) ([], [])) as [[m names]|e].
  - destruct HB as [[H1 H2] HO]. simpl in *. split; [|auto]. intros _. subst names.
    assert (forall l, (forall n, In n l -> In n (nub (map ci_name (src_bins kind srcs)))) -> forall s,
      sfor (put_bin m kind) l s = (add_items s (map (c_bin kind (src_bins kind srcs)) l), Ok tt)) as HL.
    { clear s. induction l as [|n l IH]; intros Hl s; simpl.
      - rewrite add_items_nil. reflexivity.
      - unfold sbind at 1. unfold put_bin at 1. unfold sbind, slift, dindex. rewrite H2.
        assert (sinb n (map ci_name (src_bins kind srcs)) = true) as ->.
        { apply sinb_in. apply nub_in. apply Hl. left; auto. }
        simpl. rewrite IH by (intros; apply Hl; right; auto).
        change (add_item s ?i) with (add_items s [i]). rewrite add_items_app. reflexivity. }
    unfold c_bins1. apply HL. auto.
  - split; [tauto|]. intros s1 a H. discriminate.
Qed.

Lemma merge_bins_closed srcs :
  closed (merge_bins srcs) (ok_bins srcs) (fun s => add_items s (c_bins srcs)) (fun _ => tt).
Proof.
  unfold merge_bins, ok_bins.
  pose proof (@sfor_items _ (merge_bins1 srcs) (c_bins1 srcs) (ok_bins1 srcs) [CVGBIN; IGNOREBIN; ILLEGALBIN]) as H.
  unfold c_bins. simpl flat_map in H. rewrite app_nil_r in H. apply H. intros. apply merge_bins1_closed.
Qed.

(** ** Coverpoints *)
Definition dummy : scope := new_scope (mk_attrs KScope "" None 0 0 0 0 0 no_cvg).
Definition first_scope (l : list scope) : scope := hd dummy l.

Definition with_items (s : scope) (l : list item) : scope := Scope (s_attrs s) l [] [].
Definition with_kids (s : scope) (l : list scope) : scope := Scope (s_attrs s) [] [] l.

Definition c_cp (g : list scope) : scope :=
  let c := first_scope g in
  with_items (new_coverpoint (s_name c) (Some (s_src c)) (s_weight c) SRC_OTHER) (c_bins g).

Definition cp_srcs (cgs : list scope) := map (fun cg => scopes cg COVERPOINT) cgs.
Definition names_of (srcs : list (list scope)) : list string := nub (map s_name (List.concat srcs)).
Definition grp (srcs : list (list scope)) (n : string) : list scope := group s_name n srcs.

Definition c_cps (cgs : list scope) : list scope :=
  map (fun n => c_cp (grp (cp_srcs cgs) n)) (names_of (cp_srcs cgs)).
Definition ok_cps (cgs : list scope) : Prop :=
  Forall (fun n => ok_bins (grp (cp_srcs cgs) n)) (names_of (cp_srcs cgs)).
(** dst_cp_m after the loop, the first coverpoint being child [k]. *)
Definition c_cpm (base : handle) (k : nat) (names : list string) : dict handle :=
  mapi (fun k n => (n, base ++ [k])) k names.

Lemma first_of_group srcs n (Hn : In n (names_of srcs)) :
  exists t, grp srcs n = first_scope (grp srcs n) :: t /\ s_name (first_scope (grp srcs n)) = n.
Proof.
  unfold names_of in Hn. apply (proj1 (nub_in _ _)) in Hn. pose proof (group_nonempty _ _ _ Hn) as HG. fold (grp srcs n) in HG.
  destruct (grp srcs n) as [|x t] eqn:E; [congruence|]. exists t. split; auto.
  simpl. apply (group_in_name s_name n srcs). unfold grp in E. rewrite E. left; auto.
Qed.

Lemma dset_app_new {V} k (v : V) d : ~ In k (dkeys d) -> dset k v d = d ++ [(k, v)].
Proof.
  induction d as [|[k' v'] d IH]; simpl; auto. intros H.
  destruct (String.eqb_spec k k'); [exfalso; apply H; auto|]. rewrite IH by tauto. auto.
Qed.

Lemma merge_coverpoint_closed base srcs m n (d : dict handle) :
  In n (names_of srcs) -> dget n m = Some (map (last_named s_name n) srcs) ->
  closed (merge_coverpoint base m d n) (ok_bins (grp srcs n))
         (fun s => add_kids s [c_cp (grp srcs n)])
         (fun s => dset n (base ++ [nkids s]) d).
Proof.
  intros Hn Hm s. unfold merge_coverpoint. rewrite (dindex_some _ _ Hm), sbind_ok.
  fold (group s_name n srcs). fold (grp srcs n).
  destruct (first_of_group srcs n Hn) as (t & Hg & Hnm).
  assert (first_of (grp srcs n) = Ok (first_scope (grp srcs n))) as -> by (rewrite Hg at 1; reflexivity).
  rewrite sbind_ok.
  set (g := grp srcs n) in *. set (c := first_scope g) in *.
  apply closed_new_child with (c' := fun _ s => add_items s (c_bins g)) (r := fun k => dset n (base ++ [k]) d).
  intros k s1. unfold sbind. destruct (merge_bins_closed g s1) as [H1 H2]. split.
  - intros H. rewrite H1 by auto. reflexivity.
  - intros s2 a H. destruct (merge_bins g s1) as [s3 [[]|e]] eqn:E; [|discriminate]. eauto.
Qed.

Lemma merge_coverpoints_closed base cgs :
  closed (merge_coverpoints base cgs) (ok_cps cgs)
         (fun s => add_kids s (c_cps cgs))
         (fun s => c_cpm base (nkids s) (names_of (cp_srcs cgs))).
Proof.
  unfold merge_coverpoints, ok_cps, c_cps.
  destruct (collect s_name (map (fun cg => scopes cg COVERPOINT) cgs)) as [m names] eqn:E.
  apply collect_spec in E. fold (cp_srcs cgs) in E. destruct E as [-> HM]. fold (names_of (cp_srcs cgs)).
  set (srcs := cp_srcs cgs) in *.
  assert (forall l d, (forall n, In n l -> In n (names_of srcs)) -> NoDup (dkeys d ++ l) ->
    closed (sfold (merge_coverpoint base m) l d) (Forall (fun n => ok_bins (grp srcs n)) l)
       (fun s => add_kids s (map (fun n => c_cp (grp srcs n)) l))
       (fun s => d ++ c_cpm base (nkids s) l)) as HL.
  { induction l as [|n l IH]; intros d Hl Hd s; simpl.
    - split; auto. intros _. unfold sret. rewrite add_kids_nil, app_nil_r. auto.
    - destruct (@merge_coverpoint_closed base srcs m n d (Hl n (or_introl eq_refl)) (HM n (Hl n (or_introl eq_refl))) s) as [H1 H2].
      assert (dset n (base ++ [nkids s]) d = d ++ [(n, base ++ [nkids s])]) as ED.
      { apply dset_app_new. intros HI. apply NoDup_remove_2 in Hd. apply Hd. apply in_or_app. auto. }
      assert (closed (sfold (merge_coverpoint base m) l (dset n (base ++ [nkids s]) d)) (Forall (fun n => ok_bins (grp srcs n)) l)
         (fun s => add_kids s (map (fun n => c_cp (grp srcs n)) l))
         (fun s1 => dset n (base ++ [nkids s]) d ++ c_cpm base (nkids s1) l)) as IH'.
      { apply IH; [intros; apply Hl; right; auto|]. rewrite ED. unfold dkeys. rewrite map_app, <- app_assoc. exact Hd. }
      unfold sbind. split.
      + intros H. inversion H; subst. rewrite H1 by auto.
        destruct (IH' (add_kids s [c_cp (grp srcs n)])) as [IH1 _]. rewrite IH1 by auto.
        rewrite add_kids_app, ED, nkids_add, <- app_assoc. simpl. rewrite Nat.add_1_r. reflexivity.
      + intros s1 a H. destruct (merge_coverpoint base m d n s) as [s2 [d2|e]] eqn:E; [|discriminate].
        pose proof (H2 _ _ eq_refl) as HP. constructor; auto.
        specialize (H1 HP). injection H1 as -> ->.
        apply (proj2 (IH' _) _ _ H). }
  exact (HL (names_of srcs) [] (fun _ H => H) (nub_NoDup _)).
Qed.

(** ** Crosses *)
Definition cr_srcs (cgs : list scope) := map (fun cg => scopes cg CROSS) cgs.
Definition cr_names (cgs : list scope) : list string := names_of (cr_srcs cgs).
Definition cr_grp (cgs : list scope) (n : string) : list scope := named s_name n (List.concat (cr_srcs cgs)).
Definition c_refs (cpm : dict handle) (c : scope) : list cpref :=
  match s_cls c with
  | KCross l => map (fun r => CpRef (match dget (r_name r) cpm with Some p => p | None => [] end) (r_name r)) l
  | _ => []
  end.
Definition c_cross (cpm : dict handle) (n : string) (g : list scope) : scope :=
  let c := first_scope g in
  with_items (new_cross n (Some (s_src c)) (s_weight c) SRC_OTHER (c_refs cpm c)) (c_bins g).
Definition c_crs (cpm : dict handle) (cgs : list scope) : list scope :=
  map (fun n => c_cross cpm n (cr_grp cgs n)) (cr_names cgs).
Definition ok_refs (cpn : list string) (c : scope) : Prop :=
  exists l, s_cls c = KCross l /\ Forall (fun r => In (r_name r) cpn) l.
Definition ok_cross (cpn : list string) (g : list scope) : Prop :=
  ok_refs cpn (first_scope g) /\ ok_bins g.
Definition ok_crs (cpn : list string) (cgs : list scope) : Prop :=
  Forall (fun n => ok_cross cpn (cr_grp cgs n)) (cr_names cgs).

Lemma find_cps cpm l :
  (Forall (fun r => In (r_name r) (dkeys cpm)) l ->
   traverse (find_cp cpm) l = Ok (map (fun r => CpRef (match dget (r_name r) cpm with Some p => p | None => [] end) (r_name r)) l)) /\
  (forall x, traverse (find_cp cpm) l = Ok x -> Forall (fun r => In (r_name r) (dkeys cpm)) l).
Proof.
  induction l as [|r l [IH1 IH2]]; simpl; [auto|]. split.
  - intros H. inversion H as [|? ? Hr Hl]; subst. apply dget_in in Hr. unfold dmem in Hr.
    unfold find_cp at 1. destruct (dget (r_name r) cpm); [|discriminate]. simpl. rewrite IH1 by auto. auto.
  - intros x H. inv_ok. constructor; eauto. unfold find_cp in E.
    apply dget_in. unfold dmem. destruct (dget (r_name r) cpm); [auto|discriminate].
Qed.

Lemma merge_cross_closed base cpm cgs m n :
  In n (cr_names cgs) -> dget n m = Some (cr_grp cgs n) ->
  closed (merge_cross base cpm m n) (ok_cross (dkeys cpm) (cr_grp cgs n))
         (fun s => add_kids s [c_cross cpm n (cr_grp cgs n)]) (fun _ => tt).
Proof.
  intros Hn Hm s. unfold merge_cross. rewrite (dindex_some _ _ Hm), sbind_ok.
  assert (exists t, cr_grp cgs n = first_scope (cr_grp cgs n) :: t) as [t Hg].
  { unfold cr_names, names_of in Hn. apply (proj1 (nub_in _ _)) in Hn. apply named_nonempty in Hn.
    unfold cr_grp. destruct (named s_name n (List.concat (cr_srcs cgs))) as [|x t]; [congruence|]. exists t; auto. }
  assert (first_of (cr_grp cgs n) = Ok (first_scope (cr_grp cgs n))) as -> by (rewrite Hg at 1; reflexivity).
  rewrite sbind_ok.
  set (g := cr_grp cgs n) in *. unfold ok_cross, ok_refs, c_cross, c_refs, crossed.
  set (c := first_scope g) in *. unfold sbind, slift.
  destruct (s_cls c) as [| | | | | |rs];
    try (split; [intros [(l & Hl & _) _]; discriminate | intros s1 a Ha; discriminate]).
  destruct (find_cps cpm rs) as [H1 H2]. simpl rbind.
  pose proof (fun refs => @closed_new_child _ base (new_cross n (Some (s_src c)) (s_weight c) SRC_OTHER refs) (fun _ => merge_bins g) (ok_bins g)
     (fun _ s => add_items s (c_bins g)) (fun _ => tt) s (fun _ => merge_bins_closed g)) as HC.
  split.
  - intros [(l & Hl & HF) Hb]. injection Hl as <-. rewrite (H1 HF).
    destruct (HC (map (fun r => CpRef (match dget (r_name r) cpm with Some p => p | None => [] end) (r_name r)) rs)) as [HC1 _].
    apply HC1. auto.
  - intros s1 a Ha. destruct (traverse (find_cp cpm) rs) as [refs|e] eqn:E; [|discriminate]. split.
    + exists rs. split; eauto.
    + eapply HC. eauto.
Qed.

Lemma merge_crosses_closed base cpm cgs :
  closed (merge_crosses base cpm cgs) (ok_crs (dkeys cpm) cgs)
         (fun s => add_kids s (c_crs cpm cgs)) (fun _ => tt).
Proof.
  unfold merge_crosses.
  destruct (collect_list s_name (map (fun cg => scopes cg CROSS) cgs)) as [m names] eqn:E.
  apply collect_list_spec in E. fold (cr_srcs cgs) in E. destruct E as [-> HM]. fold (names_of (cr_srcs cgs)) in HM |- *.
  fold (cr_names cgs) in HM |- *.
  pose proof (@sfor_kids _ (merge_cross base cpm m) (fun _ n => c_cross cpm n (cr_grp cgs n))
     (fun n => ok_cross (dkeys cpm) (cr_grp cgs n)) (cr_names cgs)) as H.
  intros s. specialize (H (fun n Hn => @merge_cross_closed base cpm cgs m n Hn (HM n Hn)) s). cbv beta in H.
  rewrite (mapi_const (fun n => c_cross cpm n (cr_grp cgs n))) in H. exact H.
Qed.

(** ** Covergroup instances and covergroups *)
Definition c_points (p : handle) (gs : list scope) : list scope :=
  c_cps gs ++ c_crs (c_cpm p 0 (names_of (cp_srcs gs))) gs.
Definition ok_points (gs : list scope) : Prop := ok_cps gs /\ ok_crs (names_of (cp_srcs gs)) gs.

Definition c_coverinst (p : handle) (n : string) (gs : list scope) : scope :=
  let g := first_scope gs in
  with_kids (new_coverinstance n (Some (s_src g)) (s_weight g) SRC_OTHER) (c_points p gs).

Definition ci_srcs (cgs : list scope) := map (fun cg => scopes cg COVERINSTANCE) cgs.
Definition c_insts (base : handle) (k : nat) (cgs : list scope) : list scope :=
  mapi (fun k n => c_coverinst (base ++ [k]) n (grp (ci_srcs cgs) n)) k (names_of (ci_srcs cgs)).
Definition ok_insts (cgs : list scope) : Prop :=
  Forall (fun n => ok_points (grp (ci_srcs cgs) n)) (names_of (ci_srcs cgs)).

Definition c_cg (p : handle) (gs : list scope) : scope :=
  let g := first_scope gs in
  with_kids (new_covergroup (s_name g) (Some (s_src g)) (s_weight g) SRC_OTHER)
            (c_points p gs ++ c_insts p (List.length (c_points p gs)) gs).
Definition ok_cg (gs : list scope) : Prop := ok_points gs /\ ok_insts gs.

Definition cg_srcs (is : list scope) := map (fun s => scopes s COVERGROUP) is.
Definition c_cgs (base : handle) (k : nat) (is : list scope) : list scope :=
  mapi (fun k n => c_cg (base ++ [k]) (grp (cg_srcs is) n)) k (names_of (cg_srcs is)).
Definition ok_cgs (is : list scope) : Prop :=
  Forall (fun n => ok_cg (grp (cg_srcs is) n)) (names_of (cg_srcs is)).

Lemma dkeys_cpm base k l : dkeys (c_cpm base k l) = l.
Proof. unfold dkeys, c_cpm. revert k. induction l; intros; simpl; auto. rewrite IHl. auto. Qed.

(** Coverpoints then crosses of a fresh object. *)
Lemma merge_points_closed p gs c (Hc : s_kids c = []) :
  (ok_points gs ->
   (cpm <- merge_coverpoints p gs ;; merge_crosses p cpm gs) c = (add_kids c (c_points p gs), Ok tt)) /\
  (forall s1 a, (cpm <- merge_coverpoints p gs ;; merge_crosses p cpm gs) c = (s1, Ok a) -> ok_points gs).
Proof.
  unfold sbind, ok_points, c_points. destruct (merge_coverpoints_closed p gs c) as [H1 H2].
  assert (nkids c = 0) as Hk by (unfold nkids; rewrite Hc; auto). rewrite Hk in H1.
  set (cpm := c_cpm p 0 (names_of (cp_srcs gs))) in *.
  pose proof (merge_crosses_closed p cpm gs (add_kids c (c_cps gs))) as [H3 H4].
  assert (dkeys cpm = names_of (cp_srcs gs)) as Ek by apply dkeys_cpm. rewrite Ek in *.
  split.
  - intros [Ha Hb]. rewrite H1 by auto. rewrite H3 by auto. rewrite add_kids_app. auto.
  - intros s1 a H. destruct (merge_coverpoints p gs c) as [s2 [cpm2|e]] eqn:E; [|discriminate].
    pose proof (H2 _ _ eq_refl) as HP. specialize (H1 HP). injection H1 as -> ->. split; auto. eauto.
Qed.

Lemma first_of_grp_ok srcs n : In n (names_of srcs) -> first_of (grp srcs n) = Ok (first_scope (grp srcs n)).
Proof. intros H. destruct (first_of_group srcs n H) as (t & -> & _). reflexivity. Qed.

Lemma new_child_eq {A} base c (m : handle -> ST scope A) s :
  new_child base c m s = (add_kids s [fst (m (base ++ [nkids s]) c)], snd (m (base ++ [nkids s]) c)).
Proof. unfold new_child. fold (nkids s). destruct (m (base ++ [nkids s]) c). reflexivity. Qed.

Lemma merge_coverinst_closed base cgs m n :
  In n (names_of (ci_srcs cgs)) -> dget n m = Some (map (last_named s_name n) (ci_srcs cgs)) ->
  closed (merge_coverinst base m n) (ok_points (grp (ci_srcs cgs) n))
         (fun s => add_kids s [c_coverinst (base ++ [nkids s]) n (grp (ci_srcs cgs) n)]) (fun _ => tt).
Proof.
  intros Hn Hm s. unfold merge_coverinst. rewrite (dindex_some _ _ Hm), sbind_ok.
  fold (group s_name n (ci_srcs cgs)). fold (grp (ci_srcs cgs) n).
  rewrite (first_of_grp_ok _ _ Hn), sbind_ok.
  set (g := grp (ci_srcs cgs) n). set (c := first_scope g).
  rewrite new_child_eq.
  destruct (@merge_points_closed (base ++ [nkids s]) g (new_coverinstance n (Some (s_src c)) (s_weight c) SRC_OTHER) eq_refl) as [H1 H2].
  split.
  - intros H. rewrite H1 by auto. reflexivity.
  - intros s1 a H. injection H as _ H. eapply H2. rewrite <- H. apply surjective_pairing.
Qed.

Lemma merge_coverinsts_closed base cgs :
  closed (merge_coverinsts base cgs) (ok_insts cgs)
         (fun s => add_kids s (c_insts base (nkids s) cgs)) (fun _ => tt).
Proof.
  unfold merge_coverinsts.
  destruct (collect s_name (map (fun cg => scopes cg COVERINSTANCE) cgs)) as [m names] eqn:E.
  apply collect_spec in E. fold (ci_srcs cgs) in E. destruct E as [-> HM]. fold (names_of (ci_srcs cgs)) in HM |- *.
  apply (@sfor_kids _ (merge_coverinst base m) (fun k n => c_coverinst (base ++ [k]) n (grp (ci_srcs cgs) n))
     (fun n => ok_points (grp (ci_srcs cgs) n))).
  intros n Hn. apply merge_coverinst_closed; auto.
Qed.

Lemma merge_covergroup_closed p gs c (Hc : s_kids c = []) :
  (ok_cg gs ->
   merge_covergroup p gs c = (add_kids c (c_points p gs ++ c_insts p (List.length (c_points p gs)) gs), Ok tt)) /\
  (forall s1 a, merge_covergroup p gs c = (s1, Ok a) -> ok_cg gs).
Proof.
  destruct (@merge_points_closed p gs c Hc) as [H1 H2].
  assert (merge_covergroup p gs c =
    ((cpm <- merge_coverpoints p gs ;; merge_crosses p cpm gs) ;;; merge_coverinsts p gs) c) as ->.
  { unfold merge_covergroup, sbind. destruct (merge_coverpoints p gs c) as [s [d|e]]; auto. }
  unfold sbind at 1 3. split.
  - intros [Ha Hb]. rewrite H1 by auto.
    destruct (merge_coverinsts_closed p gs (add_kids c (c_points p gs))) as [H3 _]. rewrite H3 by auto.
    rewrite add_kids_app, nkids_add. unfold nkids. rewrite Hc. reflexivity.
  - intros s1 a H.
    destruct ((cpm <- merge_coverpoints p gs;; merge_crosses p cpm gs) c) as [s2 [[]|e]] eqn:E; [|discriminate].
    split; [eauto|]. eapply merge_coverinsts_closed; eauto.
Qed.

Lemma merge_cg_name_closed base is m n :
  In n (names_of (cg_srcs is)) -> dget n m = Some (map (last_named s_name n) (cg_srcs is)) ->
  closed (merge_cg_name base m n) (ok_cg (grp (cg_srcs is) n))
         (fun s => add_kids s [c_cg (base ++ [nkids s]) (grp (cg_srcs is) n)]) (fun _ => tt).
Proof.
  intros Hn Hm s. unfold merge_cg_name. rewrite (dindex_some _ _ Hm), sbind_ok.
  fold (group s_name n (cg_srcs is)). fold (grp (cg_srcs is) n).
  rewrite (first_of_grp_ok _ _ Hn), sbind_ok.
  set (g := grp (cg_srcs is) n). set (c := first_scope g).
  rewrite new_child_eq.
  destruct (@merge_covergroup_closed (base ++ [nkids s]) g (new_covergroup (s_name c) (Some (s_src c)) (s_weight c) SRC_OTHER) eq_refl) as [H1 H2].
  split.
  - intros H. rewrite H1 by auto. reflexivity.
  - intros s1 a H. injection H as _ H. eapply H2. rewrite <- H. apply surjective_pairing.
Qed.

Lemma merge_covergroups_closed base is :
  closed (merge_covergroups base is) (ok_cgs is)
         (fun s => add_kids s (c_cgs base (nkids s) is)) (fun _ => tt).
Proof.
  unfold merge_covergroups.
  destruct (collect s_name (map (fun s => scopes s COVERGROUP) is)) as [m names] eqn:E.
  apply collect_spec in E. fold (cg_srcs is) in E. destruct E as [-> HM]. fold (names_of (cg_srcs is)) in HM |- *.
  apply (@sfor_kids _ (merge_cg_name base m) (fun k n => c_cg (base ++ [k]) (grp (cg_srcs is) n))
     (fun n => ok_cg (grp (cg_srcs is) n))).
  intros n Hn. apply merge_cg_name_closed; auto.
Qed.

(** ** Instances *)
Definition in_srcs (roots : list scope) : list (list src_inst) :=
  map (fun r => map (pair r) (scopes r INSTANCE)) roots.
Definition in_names (roots : list scope) : list string := nub (map si_name (List.concat (in_srcs roots))).
Definition in_grp (roots : list scope) (n : string) : list src_inst := group si_name n (in_srcs roots).
Definition first_inst (l : list src_inst) : src_inst := hd (dummy, dummy) l.
Definition du_of (x : src_inst) : scope := match instance_du x with Ok d => d | Err _ => dummy end.

Definition c_du (x : src_inst) : scope :=
  new_mem_scope (s_name (du_of x)) (Some (s_src (du_of x))) (s_weight (du_of x)) SRC_OTHER DU_MODULE DU_FLAGS.
Definition c_inst (k : nat) (g : list src_inst) : scope :=
  let x := first_inst g in
  with_kids (new_instance (si_name x) (Some (s_src (snd x))) 1 SRC_OTHER INSTANCE (Some [k]) INST_ONCE)
            (c_cgs [S k] 0 (map snd g)).
Fixpoint c_root (k : nat) (roots : list scope) (names : list string) : list scope :=
  match names with
  | [] => []
  | n :: t => c_du (first_inst (in_grp roots n)) :: c_inst k (in_grp roots n) :: c_root (S (S k)) roots t
  end.
Definition ok_inst (g : list src_inst) : Prop :=
  (exists d, instance_du (first_inst g) = Ok d) /\ ok_cgs (map snd g).
Definition ok_root (roots : list scope) : Prop := Forall (fun n => ok_inst (in_grp roots n)) (in_names roots).

Lemma in_grp_first roots n : In n (in_names roots) ->
  exists t, in_grp roots n = first_inst (in_grp roots n) :: t /\ si_name (first_inst (in_grp roots n)) = n.
Proof.
  intros Hn. unfold in_names in Hn. apply (proj1 (nub_in _ _)) in Hn. pose proof (group_nonempty _ _ _ Hn) as HG.
  fold (in_grp roots n) in HG. destruct (in_grp roots n) as [|x t] eqn:E; [congruence|]. exists t. split; auto.
  simpl. apply (group_in_name si_name n (in_srcs roots)). unfold in_grp in E. rewrite E. left; auto.
Qed.

Lemma merge_instance_closed roots m n :
  In n (in_names roots) -> dget n m = Some (map (last_named si_name n) (in_srcs roots)) ->
  closed (merge_instance m n) (ok_inst (in_grp roots n))
         (fun s => add_kids s [c_du (first_inst (in_grp roots n)); c_inst (nkids s) (in_grp roots n)]) (fun _ => tt).
Proof.
  intros Hn Hm s. unfold merge_instance. rewrite (dindex_some _ _ Hm), sbind_ok.
  fold (group si_name n (in_srcs roots)). fold (in_grp roots n).
  destruct (in_grp_first roots n Hn) as (t & Hg & Hnm).
  assert (first_of (in_grp roots n) = Ok (first_inst (in_grp roots n))) as -> by (rewrite Hg at 1; reflexivity).
  rewrite sbind_ok.
  set (g := in_grp roots n) in *. set (x := first_inst g) in *.
  unfold ok_inst. fold x.
  destruct (instance_du x) as [du|e] eqn:ED.
  2:{ split; [intros [[d Hd] _]; discriminate | intros s1 a Ha; discriminate]. }
  assert (du_of x = du) as Edu by (unfold du_of; rewrite ED; auto).
  rewrite sbind_ok. unfold sbind. rewrite new_child_eq. unfold sret. cbn [fst snd].
  rewrite new_child_eq. cbn [app].
  assert (c_du x = new_mem_scope (s_name du) (Some (s_src du)) (s_weight du) SRC_OTHER DU_MODULE DU_FLAGS) as Ec
    by (unfold c_du; rewrite Edu; auto).
  rewrite <- Ec. rewrite nkids_add. simpl (List.length [c_du x]). rewrite Nat.add_1_r.
  match goal with |- context [merge_covergroups _ _ ?c0] => set (c := c0) end.
  destruct (@merge_covergroups_closed [S (nkids s)] (map snd g) c) as [H1 H2].
  split.
  - intros [_ H]. rewrite H1 by auto. cbn [fst snd]. rewrite add_kids_app. reflexivity.
  - intros s1 a H. injection H as _ H. split; [eauto|]. eapply H2. rewrite <- H. apply surjective_pairing.
Qed.

Lemma merge_root_closed roots :
  closed (merge_root roots) (ok_root roots)
         (fun s => add_kids s (c_root (nkids s) roots (in_names roots))) (fun _ => tt).
Proof.
  unfold merge_root.
  destruct (collect si_name (map (fun r => map (pair r) (scopes r INSTANCE)) roots)) as [m names] eqn:E.
  apply collect_spec in E. fold (in_srcs roots) in E. destruct E as [-> HM]. fold (in_names roots) in HM |- *.
  unfold ok_root.
  assert (forall l, (forall n, In n l -> In n (in_names roots)) ->
    closed (sfor (merge_instance m) l) (Forall (fun n => ok_inst (in_grp roots n)) l)
       (fun s => add_kids s (c_root (nkids s) roots l)) (fun _ => tt)) as HL.
  { induction l as [|n l IH]; intros Hl s; simpl.
    - split; auto. intros _. rewrite add_kids_nil. reflexivity.
    - assert (In n (in_names roots)) as Hn by (apply Hl; left; auto).
      destruct (@merge_instance_closed roots m n Hn (HM n Hn) s) as [H1 H2].
      specialize (IH (fun n' H' => Hl n' (or_intror H'))).
      unfold sbind. split.
      + intros H. inversion H; subst. rewrite H1 by auto.
        destruct (IH (add_kids s [c_du (first_inst (in_grp roots n)); c_inst (nkids s) (in_grp roots n)])) as [IH1 _].
        rewrite IH1 by auto. rewrite add_kids_app, nkids_add. simpl. rewrite Nat.add_comm. reflexivity.
      + intros s1 a H. destruct (merge_instance m n s) as [s2 [[]|e]] eqn:E; [|discriminate].
        constructor; eauto. eapply IH; eauto. }
  apply HL. auto.
Qed.
