(** Counters, references, files and history under histories of API calls. *)
From Verif Require Import Base Consts Db Hist Api Iter ApiSpec ApiFacts ReportSpec.
Set Implicit Arguments.

Arguments only_added_keeps {d d' h c k n} _ _.

(** ** Items *)
Lemma handle_eqb_spec a b : handle_eqb a b = true <-> a = b.
Proof. unfold handle_eqb. destruct (list_eq_dec Nat.eq_dec a b); split; congruence. Qed.
Lemma handle_eqb_refl h : handle_eqb h h = true. Proof. now apply handle_eqb_spec. Qed.

Lemma increment_0 it : increment 0 it = it.
Proof. destruct it as [n [] s]. unfold increment; cbn. now rewrite Z.add_0_r. Qed.
Lemma increment_add a b it : increment b (increment a it) = increment (a + b) it.
Proof. destruct it as [n [] s]. unfold increment; cbn. now rewrite Z.add_assoc. Qed.

Definition inc_of (h : handle) (i : nat) (o : op) : Z :=
  match o with
  | IncrementCover h' i' a => if handle_eqb h h' && Nat.eqb i i' then a else 0%Z
  | _ => 0%Z
  end.

(** A call on scope [h] either leaves its items, appends one, or increments one. *)
Lemma step_item d o h i it :
  item_at d h i = Some it -> item_at (fst (step d o)) h i = Some (increment (inc_of h i o) it).
Proof.
  unfold item_at. destruct (view d h) as [n|] eqn:Hv; [|discriminate]. intros Hi.
  destruct (step_keeps o Hv) as (n' & Hv' & _ & _ & Hoth).
  destruct (list_eq_dec Nat.eq_dec h (match target o with Some k => k | None => 0 :: h end)) as [E|E].
  - assert (Ht : target o = Some h).
    { destruct (target o) as [k|]; [now subst|]. exfalso. clear -E. assert (List.length h = List.length (0 :: h)) by now rewrite E at 1. cbn in H. lia. }
    clear E Hoth. destruct (view_some _ _ Hv) as (s & Hg & ->). rewrite Hv'.
    unfold step in Hv'. rewrite Ht, Hg in Hv'.
    assert (Hn' : forall s' r, act (db_root d) h s o = (s', r) -> n' = node_of s').
    { intros s' r Ha. rewrite Ha in Hv'. cbn [fst] in Hv'. rewrite view_with_root, (vw_upd _ _ Hg) in Hv'.
      rewrite (proj2 (strip_some h h []) (eq_sym (app_nil_r h))), vw_nil in Hv'. congruence. }
    destruct (act (db_root d) h s o) as [s' r] eqn:Ha. rewrite (Hn' _ _ eq_refl).
    cbn [node_of n_items] in Hi |- *.
    assert (Hsame : s_items s' = s_items s -> inc_of h i o = 0%Z ->
                    nth_error (s_items s') i = Some (increment (inc_of h i o) it)).
    { intros -> ->. now rewrite increment_0. }
    assert (Happ : forall x, s_items s' = s_items s ++ [x] -> inc_of h i o = 0%Z ->
                    nth_error (s_items s') i = Some (increment (inc_of h i o) it)).
    { intros x -> ->. rewrite increment_0. rewrite nth_error_app1; auto. apply nth_error_Some. congruence. }
    assert (Hadd : forall m, adding h s m = (s', r) -> s_items s' = s_items s).
    { intros [c|e] H; injection H as <- _; reflexivity. }
    destruct o; cbn [target] in Ht; try discriminate; cbn [act] in Ha;
      try (apply Hsame; [apply (Hadd _ Ha)|reflexivity]).
    + destruct (is_point (s_cls s)); injection Ha as <- _; [eapply Happ|apply Hsame]; reflexivity.
    + destruct (is_inst (s_cls s)); injection Ha as <- _; [apply Hsame|eapply Happ]; reflexivity.
    + injection Ht as ->. cbn [inc_of]. rewrite handle_eqb_refl. cbn [andb].
      destruct (nth_error (s_items s) i0) as [x|] eqn:Ex; injection Ha as <- _.
      * cbn. destruct (Nat.eqb_spec i i0) as [->|Hne].
        -- rewrite upd_nth_same, Hi. reflexivity.
        -- rewrite upd_nth_other by congruence. now rewrite increment_0.
      * destruct (Nat.eqb_spec i i0) as [->|Hne]; [congruence|]. now rewrite increment_0.
    + destruct (set_int s idx p v) as [x|e] eqn:Ex; injection Ha as <- _; apply Hsame; try reflexivity.
      apply (set_int_change Ex).
    + destruct (get_int s idx p); injection Ha as <- _; apply Hsame; reflexivity.
    + destruct (set_field s f) as [x|e] eqn:Ex; injection Ha as <- _; apply Hsame; try reflexivity.
      apply (set_field_change Ex).
    + injection Ha as <- _; apply Hsame; reflexivity.
    + injection Ha as <- _; apply Hsame; reflexivity.
  - assert (Ht : target o <> Some h) by (destruct (target o); congruence).
    destruct (Hoth Ht) as (_ & Eit & _). rewrite Hv', Eit, Hi. f_equal.
    assert (inc_of h i o = 0%Z) as ->; [|now rewrite increment_0].
    destruct o; try reflexivity. cbn in *. unfold handle_eqb.
    destruct (list_eq_dec Nat.eq_dec h h0); [congruence|reflexivity].
Qed.

Arguments step_item {d} o {h i it} _.
Lemma run_item l : forall d h i it,
  item_at d h i = Some it -> item_at (run d l) h i = Some (increment (increments h i l) it).
Proof.
  induction l as [|o l IH]; intros d h i it H.
  - cbn. now rewrite increment_0.
  - change (run d (o :: l)) with (run (fst (step d o)) l). rewrite (IH _ _ _ _ (step_item o H)), increment_add. reflexivity.
Qed.

(** ** Creating cover items *)
Lemma step_bin d h name src al n k d' r :
  step d (CreateBin h name src al n k) = (d', Ok r) ->
  exists nd, view d h = Some nd /\ r = OItem h (List.length (n_items nd)) /\
             only_changed d d' h (Node (n_attrs nd) (n_items nd ++ [new_bin name src al n k]) (n_iitems nd) (n_kids nd)).
Proof.
  intros H. unfold step in H. cbn [target] in H.
  destruct (get_at (db_root d) h) as [s|] eqn:Hg; [|discriminate]. cbn [act] in H.
  destruct (is_point (s_cls s)); [|discriminate]. cbn in H. injection H as <- <-.
  exists (node_of s). split; [now apply view_get|]. split; [reflexivity|].
  exact (@replaced_changed _ _ _ (add_item s (new_bin name src al n k)) Hg eq_refl).
Qed.
Lemma step_bin_ok d h name src al n k nd :
  view d h = Some nd ->
  (exists d' r, step d (CreateBin h name src al n k) = (d', Ok r)) <-> is_point (a_cls (n_attrs nd)) = true.
Proof.
  intros Hv. destruct (view_some _ _ Hv) as (s & Hg & ->). unfold step. cbn [target act]. rewrite Hg.
  cbn [n_attrs node_of]. change (a_cls (s_attrs s)) with (s_cls s).
  destruct (is_point (s_cls s)).
  - split; auto. intros _. cbn. eauto.
  - split; [intros (? & ? & H); discriminate | discriminate].
Qed.

(** createNextCover on a scope that is not an instance. *)
Lemma step_next_cover d h name data src nd :
  view d h = Some nd -> is_inst (a_cls (n_attrs nd)) = false ->
  exists d', step d (CreateNextCover h name data src) = (d', Ok (OItem h (List.length (n_items nd)))) /\
             only_changed d d' h (Node (n_attrs nd) (n_items nd ++ [Item name data src]) (n_iitems nd) (n_kids nd)).
Proof.
  intros Hv Hi. destruct (view_some _ _ Hv) as (s & Hg & ->). unfold step. cbn [target act]. rewrite Hg.
  cbn [n_attrs node_of] in Hi. change (a_cls (s_attrs s)) with (s_cls s) in Hi. rewrite Hi. cbn [appending].
  eexists. split; [reflexivity|].
  exact (@replaced_changed _ _ _ (add_item s (Item name data src)) Hg eq_refl).
Qed.
(** createNextCover on an instance. *)
Lemma step_next_cover_inst d h name data src nd :
  view d h = Some nd -> is_inst (a_cls (n_attrs nd)) = true ->
  exists d', step d (CreateNextCover h name data src) = (d', Ok (OIndex (List.length (n_iitems nd)))) /\
             only_changed d d' h (Node (n_attrs nd) (n_items nd) (n_iitems nd ++ [IItem name data src 0]) (n_kids nd)).
Proof.
  intros Hv Hi. destruct (view_some _ _ Hv) as (s & Hg & ->). unfold step. cbn [target act]. rewrite Hg.
  cbn [n_attrs node_of] in Hi. change (a_cls (s_attrs s)) with (s_cls s) in Hi. rewrite Hi.
  eexists. split; [reflexivity|].
  exact (@replaced_changed _ _ _ (add_iitem s (IItem name data src 0)) Hg eq_refl).
Qed.

(** ** Incrementing makes more hits *)
Lemma item_more_refl i : item_more i i.
Proof. repeat split; lia. Qed.
Lemma more_hits_refl : forall s, more_hits s s.
Proof.
  induction s as [a i ii ks IH] using scope_rect_nested. constructor; auto.
  - cbn. clear. induction i; constructor; auto using item_more_refl.
  - cbn. induction IH; constructor; auto.
Qed.
Lemma more_hits_upd h : forall r s s', get_at r h = Some s -> more_hits s s' ->
  more_hits r (upd_at r h (fun _ => s')).
Proof.
  induction h as [|i h IH]; intros r s s' Hg Hm; cbn in *; [congruence|].
  destruct (nth_error (s_kids r) i) as [c|] eqn:E; [|discriminate].
  constructor; cbn; auto.
  - clear. induction (s_items r); constructor; auto using item_more_refl.
  - revert i E. induction (s_kids r) as [|x l IHl]; intros [|i] E; cbn in *; try discriminate.
    + injection E as ->. constructor; [eapply IH; eauto|].
      clear. induction l; constructor; auto using more_hits_refl.
    + constructor; auto using more_hits_refl.
Qed.
Lemma step_more_hits d h i amt :
  (0 <= amt)%Z -> more_hits (db_root d) (db_root (fst (step d (IncrementCover h i amt)))).
Proof.
  intros Ha. unfold step. cbn [target]. destruct (get_at (db_root d) h) as [s|] eqn:Hg; [|apply more_hits_refl].
  cbn [act]. destruct (nth_error (s_items s) i) eqn:E.
  - cbn. apply more_hits_upd with (s := s); auto. constructor; cbn; auto.
    + clear -Ha. revert i. induction (s_items s) as [|x l IH]; intros [|i]; cbn; constructor; auto using item_more_refl.
      * repeat split; cbn; lia.
      * clear. induction l; constructor; auto using item_more_refl.
    + clear. induction (s_kids s); constructor; auto using more_hits_refl.
  - cbn. rewrite (upd_at_id Hg). apply more_hits_refl.
Qed.

(** ** References *)
Lemma resolves_mono d d' n n' :
  resolves d n -> a_cls (n_attrs n') = a_cls (n_attrs n) ->
  (forall k m, view d k = Some m -> exists m', view d' k = Some m' /\ fixed (n_attrs m) (n_attrs m')) ->
  resolves d' n'.
Proof.
  unfold resolves. intros H -> Hk. destruct (a_cls (n_attrs n)) as [| |[u|]| | | |l]; auto.
  - destruct (view d u) as [m|] eqn:E; [|congruence]. destruct (Hk _ _ E) as (m' & -> & _). discriminate.
  - eapply Forall_impl; [|exact H]. intros r (m & E & En). destruct (Hk _ _ E) as (m' & E' & F).
    exists m'. split; auto. destruct F as (_ & -> & _). exact En.
Qed.

Lemma traverse_forall {A B} (f : A -> res B) (P : B -> Prop) l : forall l',
  (forall x y, f x = Ok y -> P y) -> traverse f l = Ok l' -> Forall P l'.
Proof.
  induction l as [|x l IH]; cbn; intros l' Hf H; [injection H as <-; constructor|].
  destruct (f x) as [y|] eqn:E; [|discriminate]. cbn in H.
  destruct (traverse f l) as [ys|]; [|discriminate]. cbn in H. injection H as <-.
  constructor; eauto.
Qed.

Lemma step_resolves d o : all_resolve d -> all_resolve (fst (step d o)).
Proof.
  intros Hall k n' Hk.
  assert (Hkeep : forall k m, view d k = Some m -> exists m', view (fst (step d o)) k = Some m' /\ fixed (n_attrs m) (n_attrs m')).
  { intros k0 m Hm. destruct (step_keeps o Hm) as (m' & ? & ? & _). eauto. }
  destruct (view d k) as [n|] eqn:Hn.
  - destruct (Hkeep _ _ Hn) as (m' & Hm' & F). rewrite Hk in Hm'. injection Hm' as <-.
    apply (@resolves_mono d _ n n'); auto. { exact (Hall _ _ Hn). } apply F.
  - destruct (step_new _ _ _ Hk Hn) as (h & Ht & _ & _ & _ & Hr).
    (* the new node *)
    destruct (get_at (db_root d) h) as [s|] eqn:Hg.
    2:{ unfold step in Hr. rewrite Ht, Hg in Hr. discriminate. }
    assert (Hnew : forall m, act (db_root d) h s o = adding h s m ->
               (forall c, m = Ok c -> fresh c /\ match s_cls c with
                    | KInst (Some u) => view d u <> None
                    | KCross l => Forall (fun r => exists m, view d (r_path r) = Some m /\ a_name (n_attrs m) = r_name r) l
                    | _ => True end) ->
               resolves (fst (step d o)) n').
    { intros m Ha Hm.
      assert (Es : step d o = let (s', r) := adding h s m in (with_root d (upd_at (db_root d) h (fun _ => s')), r)).
      { unfold step. now rewrite Ht, Hg, Ha. }
      destruct m as [c|e]; cbn [adding] in Es; [|rewrite Es in Hr; discriminate].
      destruct (Hm c eq_refl) as ((Hk0 & _) & Hc).
      assert (En : n' = node_of c).
      { pose proof (replaced_added Hg Hk0) as (m & Hm0 & Hnone & Hnew & _).
        rewrite (view_get Hg) in Hm0. injection Hm0 as <-. rewrite Es in Hk, Hr. cbn in Hk, Hr.
        injection Hr as <-. cbn [n_kids node_of] in Hnew. congruence. }
      apply (@resolves_mono d _ (node_of c) n'); auto. now rewrite En. }
    destruct o; cbn [target] in Ht; try discriminate; injection Ht as ->;
      try (refine (Hnew _ eq_refl _); intros c H).
    + split; [apply (create_scope_fresh H)|].
      unfold create_scope, inst_create_scope, mem_create_scope in H.
      destruct (is_inst (s_cls s)); [destruct (mask_hit _ _)|
        destruct (DU_ANY type); [|destruct (type =? _)%N; [|destruct (type =? _)%N; [|destruct (type =? _)%N]]]];
        try discriminate; injection H as <-; exact I.
    + destruct du as [u|]; cbn in H.
      * unfold at_handle in H. destruct (get_at (db_root d) u) eqn:Eu; [|discriminate]. cbn in H. injection H as <-.
        split; [repeat split|]. cbn. rewrite (view_get Eu). discriminate.
      * injection H as <-. split; [repeat split|exact I].
    + unfold create_toggle in H. destruct (is_inst (s_cls s)); [|discriminate]. injection H as <-. split; [repeat split|exact I].
    + injection H as <-. split; [repeat split|exact I].
    + unfold need in H. destruct (is_cg (s_cls s)); [|discriminate]. injection H as <-. split; [repeat split|exact I].
    + destruct (cross_refs (db_root d) points) as [cps|] eqn:Ec; [|discriminate]. cbn in H.
      unfold need in H. destruct (is_cg (s_cls s)); [|discriminate]. injection H as <-. split; [repeat split|].
      cbn. revert Ec. unfold cross_refs. apply traverse_forall.
      intros p y Hy. unfold at_handle in Hy. destruct (get_at (db_root d) p) as [c|] eqn:Ep; [|discriminate].
      cbn in Hy. injection Hy as <-. cbn. exists (node_of c). split; [now apply view_get|reflexivity].
    + destruct (is_database (s_cls s)); [discriminate|]. unfold need in H. destruct (is_cg (s_cls s)) eqn:Ec; [|discriminate]. split; [apply (create_scope_fresh H)|].
      unfold create_scope in H. destruct (s_cls s); try discriminate. cbn in H. injection H as <-. exact I.
    + exfalso. unfold step in Hr. cbn [target] in Hr. rewrite Hg in Hr. cbn [act] in Hr. destruct (is_point _); discriminate.
    + exfalso. unfold step in Hr. cbn [target] in Hr. rewrite Hg in Hr. cbn [act] in Hr. destruct (is_inst _); discriminate.
    + exfalso. unfold step in Hr. cbn [target] in Hr. rewrite Hg in Hr. cbn [act] in Hr. destruct (nth_error _ _); discriminate.
    + exfalso. unfold step in Hr. cbn [target] in Hr. rewrite Hg in Hr. cbn [act] in Hr. destruct (set_int _ _ _ _); discriminate.
    + exfalso. unfold step in Hr. cbn [target] in Hr. rewrite Hg in Hr. cbn [act] in Hr. destruct (get_int _ _ _); discriminate.
    + exfalso. unfold step in Hr. cbn [target] in Hr. rewrite Hg in Hr. cbn [act] in Hr. destruct (set_field _ _); discriminate.
    + exfalso. unfold step in Hr. cbn [target] in Hr. rewrite Hg in Hr. cbn [act] in Hr. discriminate.
    + exfalso. unfold step in Hr. cbn [target] in Hr. rewrite Hg in Hr. cbn [act] in Hr. discriminate.
Qed.

Lemma run_resolves l : forall d, all_resolve d -> all_resolve (run d l).
Proof. induction l as [|o l IH]; intros d H; cbn; auto. apply IH. now apply step_resolves. Qed.
Lemma empty_resolves : all_resolve empty_db.
Proof.
  intros [|i h] n H; cbn in H.
  - injection H as <-. exact I.
  - unfold view, vw in H. cbn in H. now destruct i.
Qed.

(** ** Files *)
Definition is_prefix {A} (l l' : list A) : Prop := exists t, l' = l ++ t.
Lemma is_prefix_refl {A} (l : list A) : is_prefix l l. Proof. exists []. now rewrite app_nil_r. Qed.
Lemma is_prefix_trans {A} (a b c : list A) : is_prefix a b -> is_prefix b c -> is_prefix a c.
Proof. intros [t ->] [u ->]. exists (t ++ u). now rewrite app_assoc. Qed.
Lemma prefix_nth {A} (l l' : list A) i x : is_prefix l l' -> nth_error l i = Some x -> nth_error l' i = Some x.
Proof. intros [t ->] H. rewrite nth_error_app1; auto. apply nth_error_Some. congruence. Qed.

Lemma index_of_some n l i : index_of n l = Some i -> nth_error l i = Some n.
Proof.
  revert i; induction l as [|x l IH]; cbn; [discriminate|]. intros i.
  unfold seqb. destruct (String.eqb_spec n x) as [->|Hne].
  - intros H; injection H as <-. reflexivity.
  - destruct (index_of n l); [|discriminate]. cbn. intros H; injection H as <-. cbn. now apply IH.
Qed.
Lemma index_of_none n l : index_of n l = None -> ~ In n l.
Proof.
  induction l as [|x l IH]; cbn; auto. unfold seqb. destruct (String.eqb_spec n x) as [->|Hne]; [discriminate|].
  destruct (index_of n l); [discriminate|]. intros _ [H|H]; [congruence|]. now apply IH.
Qed.
Lemma step_files d o :
  is_prefix (db_files d) (db_files (fst (step d o))) /\
  (NoDup (db_files d) -> NoDup (db_files (fst (step d o)))).
Proof.
  assert (Hsame : forall d', db_files d' = db_files d -> is_prefix (db_files d) (db_files d') /\ (NoDup (db_files d) -> NoDup (db_files d'))).
  { intros d' ->. split; auto using is_prefix_refl. }
  unfold step. destruct (target o) as [h|] eqn:Ht.
  - destruct (get_at (db_root d) h); [|now apply Hsame]. destruct (act _ _ _ _). now apply Hsame.
  - destruct o; try (now apply Hsame); cbn [db_act].
    + destruct (index_of name (db_files d)) eqn:E; [now apply Hsame|]. cbn. split; [eexists; reflexivity|].
      intros H. apply NoDup_rev in H. rewrite <- rev_involutive. apply NoDup_rev. rewrite rev_app_distr. cbn.
      constructor; auto. rewrite <- in_rev. now apply index_of_none.
    + destruct (nth_error _ _); now apply Hsame.
    + destruct (nth_error _ _); now apply Hsame.
Qed.
Lemma run_files l : forall d,
  is_prefix (db_files d) (db_files (run d l)) /\ (NoDup (db_files d) -> NoDup (db_files (run d l))).
Proof.
  induction l as [|o l IH]; intros d; cbn; [split; auto using is_prefix_refl|].
  destruct (step_files d o) as [P N]. destruct (IH (fst (step d o))) as [P' N']. split; auto.
  apply (is_prefix_trans P P').
Qed.
Lemma step_file_handle d n :
  exists i, snd (step d (CreateFileHandle n)) = Ok (OFile i) /\
            nth_error (db_files (fst (step d (CreateFileHandle n)))) i = Some n /\
            db_root (fst (step d (CreateFileHandle n))) = db_root d /\
            db_hist (fst (step d (CreateFileHandle n))) = db_hist d.
Proof.
  unfold step; cbn. destruct (index_of n (db_files d)) as [i|] eqn:E; cbn.
  - exists i. repeat split. now apply index_of_some.
  - exists (List.length (db_files d)). repeat split. rewrite nth_error_app2, Nat.sub_diag by lia. reflexivity.
Qed.
Lemma nodup_nth {A} (l : list A) i j x : NoDup l -> nth_error l i = Some x -> nth_error l j = Some x -> i = j.
Proof.
  intros H Hi Hj. assert (i < List.length l) by (apply nth_error_Some; congruence).
  apply (proj1 (NoDup_nth_error l) H); auto. congruence.
Qed.
Lemma file_handles d l a b :
  NoDup (db_files d) ->
  forall i j,
  snd (step d (CreateFileHandle a)) = Ok (OFile i) ->
  snd (step (run (fst (step d (CreateFileHandle a))) l) (CreateFileHandle b)) = Ok (OFile j) ->
  (i = j <-> a = b).
Proof.
  intros Hn i j Hi Hj.
  destruct (step_file_handle d a) as (i' & Ei & Ni & _). rewrite Hi in Ei. injection Ei as <-.
  set (d1 := fst (step d (CreateFileHandle a))) in *.
  destruct (step_file_handle (run d1 l) b) as (j' & Ej & Nj & _). rewrite Hj in Ej. injection Ej as <-.
  set (d2 := fst (step (run d1 l) (CreateFileHandle b))) in *.
  assert (N1 : NoDup (db_files d1)) by (now apply step_files).
  destruct (run_files l d1) as [P2 N2]. specialize (N2 N1).
  destruct (step_files (run d1 l) (CreateFileHandle b)) as [P3 N3]. specialize (N3 N2). fold d2 in P3, N3.
  pose proof (prefix_nth _ (is_prefix_trans P2 P3) Ni) as Ni2.
  split; [congruence|]. intros ->. apply (nodup_nth _ _ N3 Ni2 Nj).
Qed.
Lemma file_kept d l i n : nth_error (db_files d) i = Some n -> nth_error (db_files (run d l)) i = Some n.
Proof. apply prefix_nth. apply run_files. Qed.

(** ** History nodes *)
Lemma step_hist_keeps d o i hn : nth_error (db_hist d) i = Some hn ->
  exists hn', nth_error (db_hist (fst (step d o))) i = Some hn' /\ h_kind hn' = h_kind hn /\
              h_parent hn' = h_parent hn /\ h_logical hn' = h_logical hn /\ h_physical hn' = h_physical hn.
Proof.
  intros H. assert (Hs : forall d', db_hist d' = db_hist d -> exists hn', nth_error (db_hist d') i = Some hn' /\ h_kind hn' = h_kind hn /\
              h_parent hn' = h_parent hn /\ h_logical hn' = h_logical hn /\ h_physical hn' = h_physical hn).
  { intros d' ->. eauto 10. }
  assert (Hu : forall j f, (forall x, h_kind (f x) = h_kind x /\ h_parent (f x) = h_parent x /\ h_logical (f x) = h_logical x /\ h_physical (f x) = h_physical x) ->
     exists hn', nth_error (upd_nth j f (db_hist d)) i = Some hn' /\ h_kind hn' = h_kind hn /\
              h_parent hn' = h_parent hn /\ h_logical hn' = h_logical hn /\ h_physical hn' = h_physical hn).
  { intros j f Hf. destruct (Nat.eq_dec j i) as [->|Hne].
    - rewrite upd_nth_same, H. cbn. eexists. split; [reflexivity|apply Hf].
    - rewrite upd_nth_other, H by assumption. eauto 10. }
  unfold step. destruct (target o) as [h|] eqn:Ht.
  - destruct (get_at (db_root d) h); [|now apply Hs]. destruct (act _ _ _ _). now apply Hs.
  - destruct o; try (now apply Hs); cbn [db_act].
    + destruct (index_of name (db_files d)) eqn:E; now apply Hs.
    + cbn. rewrite nth_error_app1 by (apply nth_error_Some; congruence). eauto 10.
    + destruct (nth_error (db_hist d) i0); [|now apply Hs]. cbn. apply Hu. intros x. repeat split.
    + destruct (nth_error (db_hist d) i0); [|now apply Hs]. cbn. apply Hu. intros x. repeat split.
Qed.
