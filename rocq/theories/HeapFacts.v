(** Lemmas about shared CoverData objects. *)
From Coq Require Import Permutation.
From Verif Require Import Base Consts Db Hist Api Iter ApiSpec ApiFacts BaseFacts Heap HeapSpec.

(** ** Replacing data *)
Lemma map_attrs : forall g s, s_attrs (map_data g s) = s_attrs s.
Proof. intros g []. reflexivity. Qed.
Lemma map_kids : forall g s, s_kids (map_data g s) = map (map_data g) (s_kids s).
Proof. intros g []. reflexivity. Qed.
Lemma map_items : forall g s, s_items (map_data g s) = map (fun x => Item (ci_name x) (g (ci_data x)) (ci_src x)) (s_items s).
Proof. intros g []. reflexivity. Qed.
Lemma map_iitems : forall g s, s_iitems (map_data g s) = map (fun x => IItem (ii_name x) (g (ii_data x)) (ii_src x) (ii_stmt x)) (s_iitems s).
Proof. intros g []. reflexivity. Qed.
Lemma map_cls : forall g s, s_cls (map_data g s) = s_cls s.
Proof. intros g []. reflexivity. Qed.
Lemma get_map : forall g h s, get_at (map_data g s) h = option_map (map_data g) (get_at s h).
Proof.
  intros g. induction h as [|i h IH]; intros s; [reflexivity|]. cbn [get_at]. rewrite map_kids, nth_error_map. destruct (nth_error (s_kids s) i); [apply IH|reflexivity].
Qed.
Lemma upd_map : forall g h s t, map_data g (upd_at s h (fun _ => t)) = upd_at (map_data g s) h (fun _ => map_data g t).
Proof.
  intros g. induction h as [|i h IH]; intros s t; [reflexivity|]. cbn [upd_at map_data]. rewrite map_attrs, map_items, map_iitems, map_kids. f_equal.
  generalize (s_kids s) as l. clear s. intros l. revert i. induction l as [|c l IHl]; intros [|i]; cbn [upd_nth map]; try reflexivity; f_equal; [apply IH|apply IHl].
Qed.

(** A call commutes with replacing data, if it does so on its target. *)
Lemma step_target : forall g d o o' h, target o = Some h -> target o' = Some h ->
  (forall s, get_at (db_root d) h = Some s -> act (map_data g (db_root d)) h (map_data g s) o' =
     (map_data g (fst (act (db_root d) h s o)), snd (act (db_root d) h s o))) ->
  step (map_db g d) o' = (map_db g (fst (step d o)), snd (step d o)).
Proof.
  intros g d o o' h T T' H. unfold step. rewrite T, T'. cbn [map_db with_root db_root]. rewrite get_map. destruct (get_at (db_root d) h) as [s|] eqn:G; [|reflexivity].
  cbn [option_map]. rewrite (H s eq_refl). destruct (act (db_root d) h s o) as [s' r]. cbn [fst snd]. unfold map_db, with_root. cbn [db_root db_files db_hist]. now rewrite upd_map.
Qed.
Lemma adding_map : forall g h s m, (forall c, m = Ok c -> map_data g c = c) ->
  adding h (map_data g s) m = (map_data g (fst (adding h s m)), snd (adding h s m)).
Proof.
  intros g h s [c|e] H; [|reflexivity]. cbn [adding fst snd]. unfold add_child. cbn [map_data]. rewrite map_attrs, map_items, map_iitems, map_kids, map_length.
  f_equal. f_equal. rewrite map_app. cbn [map]. now rewrite (H c eq_refl).
Qed.
Lemma at_map : forall g r h, at_handle (map_data g r) h = (let* s := at_handle r h in Ok (map_data g s)).
Proof. intros g r h. unfold at_handle. rewrite get_map. now destruct (get_at r h). Qed.
Lemma refs_map : forall g r ps, cross_refs (map_data g r) ps = cross_refs r ps.
Proof.
  intros g r ps. unfold cross_refs. induction ps as [|p ps IH]; [reflexivity|]. cbn [traverse]. rewrite IH, at_map. destruct (at_handle r p) as [s|e]; [|reflexivity].
  cbn [rbind]. unfold s_name. now rewrite map_attrs.
Qed.
Lemma set_attrs_map : forall g f s, upd_attrs f (map_data g s) = map_data g (upd_attrs f s).
Proof. intros g f []. reflexivity. Qed.
Lemma assigning_map : forall g s m m', m' = (let* t := m in Ok (map_data g t)) ->
  assigning (map_data g s) m' = (map_data g (fst (assigning s m)), snd (assigning s m)).
Proof. intros g s [t|e] m' ->; reflexivity. Qed.
Lemma reading_map : forall g A s (f : A -> out) m m', m' = m -> reading (map_data g s) f m' = (map_data g (fst (reading s f m)), snd (reading s f m)).
Proof. intros g A s f [t|e] m' ->; reflexivity. Qed.
Lemma upd_map_comm : forall A B (k : A -> B) (f : A -> A) (f' : B -> B) l i, (forall x, k (f x) = f' (k x)) -> map k (upd_nth i f l) = upd_nth i f' (map k l).
Proof. intros A B k f f' l. induction l as [|x l IH]; intros [|i] H; cbn; try reflexivity; f_equal; auto. Qed.
Lemma set_int_map : forall g s idx p v, set_int (map_data g s) idx p v = (let* t := set_int s idx p v in Ok (map_data g t)).
Proof.
  intros g s idx p v. destruct s as [a it ii ks]. cbn [map_data]. unfold set_int, s_cls. cbn [s_attrs].
  assert (X : inst_set (map_data g (Scope a it ii ks)) idx STMT_INDEX v = (let* t := inst_set (Scope a it ii ks) idx STMT_INDEX v in Ok (map_data g t))).
  { unfold inst_set. cbn [s_iitems map_data]. rewrite map_length. destruct (py_index (List.length ii) idx) as [i|]; [|reflexivity].
    cbn [rbind]. unfold set_iitems. cbn [s_attrs s_items s_kids map_data]. do 2 f_equal. symmetry. apply upd_map_comm. reflexivity. }
  destruct p; try reflexivity; destruct (a_cls a) eqn:C; try reflexivity; exact X.
Qed.
Lemma get_int_map : forall g s idx p, get_int (map_data g s) idx p = get_int s idx p.
Proof.
  intros g s idx p. destruct s as [a it ii ks]. cbn [map_data]. unfold get_int, s_cls. cbn [s_attrs].
  assert (X : inst_get (map_data g (Scope a it ii ks)) idx STMT_INDEX = inst_get (Scope a it ii ks) idx STMT_INDEX).
  { unfold inst_get. cbn [s_iitems map_data]. rewrite map_length. destruct (py_index (List.length ii) idx) as [i|]; [|reflexivity].
    rewrite nth_error_map. now destruct (nth_error ii i). }
  destruct p; try reflexivity; destruct (a_cls a) eqn:C; try reflexivity; exact X.
Qed.
Lemma set_field_map : forall g s f, set_field (map_data g s) f = (let* t := set_field s f in Ok (map_data g t)).
Proof. intros g [a it ii ks] f. cbn [map_data]. unfold set_field, s_cls. cbn [s_attrs]. destruct f; try reflexivity; destruct (a_cls a); reflexivity. Qed.

Lemma create_bare : forall g c n src w so t fl s, create_scope c n src w so t fl = Ok s -> map_data g s = s.
Proof.
  intros g c n src w so t fl s H. unfold create_scope, inst_create_scope, mem_create_scope in H.
  destruct (is_inst c); [destruct (mask_hit t COVERGROUP)|destruct (DU_ANY t); [|destruct (t =? COVERGROUP)%N; [|destruct (t =? COVERINSTANCE)%N; [|destruct (t =? COVERPOINT)%N]]]];
    inversion H; reflexivity.
Qed.
Lemma plain_step : forall g d o, plain_call o = true -> step (map_db g d) o = (map_db g (fst (step d o)), snd (step d o)).
Proof.
  intros g d o P. destruct (target o) as [h|] eqn:T.
  - apply (step_target g d o o h T T). intros s G. destruct o; try discriminate P; try discriminate T; cbn [act].
    + rewrite map_cls. apply adding_map. intros c. apply create_bare.
    + assert ((let* _ := match du with Some u => at_handle (map_data g (db_root d)) u | None => Ok (map_data g (db_root d)) end in Ok (new_instance name src weight source type du flags)) =
              (let* _ := match du with Some u => at_handle (db_root d) u | None => Ok (db_root d) end in Ok (new_instance name src weight source type du flags))) as ->.
      { destruct du as [u|]; [|reflexivity]. rewrite at_map. now destruct (at_handle (db_root d) u). }
      apply adding_map. intros c H. apply rbind_ok in H as (? & _ & H). now injection H as <-.
    + rewrite map_cls. apply adding_map. intros c H. unfold create_toggle in H. destruct (is_inst (s_cls s)); [|discriminate]. now injection H as <-.
    + apply adding_map. intros c H. now injection H as <-.
    + rewrite map_cls. apply adding_map. intros c H. unfold need in H. destruct (is_cg (s_cls s)); [|discriminate]. now injection H as <-.
    + rewrite refs_map, map_cls. apply adding_map. intros c H. apply rbind_ok in H as (? & _ & H). unfold need in H. destruct (is_cg (s_cls s)); [|discriminate]. now injection H as <-.
    + rewrite map_cls. apply adding_map. intros c H. destruct (is_database (s_cls s)); [discriminate|]. unfold need in H. destruct (is_cg (s_cls s)); [|discriminate]. revert H. apply create_bare.
    + apply assigning_map. apply set_int_map.
    + apply reading_map. apply get_int_map.
    + apply assigning_map. apply set_field_map.
    + apply assigning_map. reflexivity.
    + apply reading_map. reflexivity.
  - unfold step. rewrite T. destruct o; try discriminate T; cbn [db_act map_db with_root db_root db_files db_hist].
    + now destruct (index_of name (db_files d)).
    + reflexivity.
    + now destruct (nth_error (db_hist d) i).
    + now destruct (nth_error (db_hist d) i).
Qed.
Lemma next_cover_step : forall g d h n c src,
  step (map_db g d) (CreateNextCover h n (g c) src) = (map_db g (fst (step d (CreateNextCover h n c src))), snd (step d (CreateNextCover h n c src))).
Proof.
  intros g d h n c src. apply (step_target g d (CreateNextCover h n c src) (CreateNextCover h n (g c) src) h eq_refl eq_refl). intros s G. cbn [act]. rewrite map_cls. destruct (is_inst (s_cls s)).
  - cbn [fst snd]. unfold add_iitem. cbn [map_data]. rewrite map_attrs, map_items, map_iitems, map_kids, map_length, map_app. reflexivity.
  - unfold appending. cbn [fst snd]. unfold add_item. cbn [map_data]. rewrite map_attrs, map_items, map_iitems, map_kids, map_length, map_app. reflexivity.
Qed.

(** ** Objects that are not held *)
Lemma map_ext_held : forall g g' s, (forall c, In (the_ref c) (held s) -> g c = g' c) -> map_data g s = map_data g' s.
Proof.
  intros g g' s. induction s as [a it ii ks IH] using scope_rect_nested. intros H. cbn [map_data]. cbn [held] in H. f_equal.
  - apply map_ext_in. intros x I. f_equal. apply H. apply in_or_app. left. apply in_map_iff. now exists x.
  - apply map_ext_in. intros x I. f_equal. apply H. apply in_or_app. right. apply in_or_app. left. apply in_map_iff. now exists x.
  - apply map_ext_in. intros x I. rewrite Forall_forall in IH. apply IH; [exact I|]. intros c Ic. apply H. apply in_or_app. right. apply in_or_app. right. apply in_flat_map. now exists x.
Qed.
Lemma held_get : forall h s t r, get_at s h = Some t -> In r (held t) -> In r (held s).
Proof.
  induction h as [|i h IH]; intros s t r G I; [injection G as ->; exact I|]. cbn [get_at] in G. destruct (nth_error (s_kids s) i) as [c|] eqn:E; [|discriminate].
  specialize (IH c t r G I). destruct s as [a it ii ks]. cbn [held s_kids] in *. apply in_or_app. right. apply in_or_app. right. apply in_flat_map. exists c. split; [|exact IH].
  eapply nth_error_In; exact E.
Qed.

(** The objects held after an update of one scope. *)
Lemma held_upd : forall h s t u, get_at s h = Some t ->
  exists l r, Permutation (held s) (l ++ held t ++ r) /\ Permutation (held (upd_at s h (fun _ => u))) (l ++ held u ++ r).
Proof.
  induction h as [|i h IH]; intros s t u G.
  - injection G as ->. exists [], []. cbn [app upd_at]. rewrite !app_nil_r. now split.
  - cbn [get_at] in G. destruct s as [a it ii ks]. cbn [s_kids] in G. cbn [upd_at s_attrs s_items s_iitems s_kids held].
    destruct (nth_error ks i) as [c|] eqn:E; [|discriminate]. destruct (IH c t u G) as (l & r & P & Q). apply nth_error_split in E as (before & after & -> & L).
    exists (map (fun x => the_ref (ci_data x)) it ++ map (fun x => the_ref (ii_data x)) ii ++ flat_map held before ++ l), (r ++ flat_map held after).
    assert (upd_nth i (fun c => upd_at c h (fun _ => u)) (before ++ c :: after) = before ++ upd_at c h (fun _ => u) :: after) as ->.
    { subst i. clear. induction before as [|x l IH]; [reflexivity|]. cbn [app List.length upd_nth]. now rewrite IH. }
    rewrite !flat_map_app. cbn [flat_map]. split.
    + rewrite P, <- !app_assoc. reflexivity.
    + rewrite Q, <- !app_assoc. reflexivity.
Qed.
Lemma step_held : forall d o h s s' x, target o = Some h -> get_at (db_root d) h = Some s -> act (db_root d) h s o = (s', x) ->
  exists l r, Permutation (held (db_root d)) (l ++ held s ++ r) /\ Permutation (held (db_root (fst (step d o)))) (l ++ held s' ++ r).
Proof.
  intros d o h s s' x T G A. unfold step. rewrite T, G, A. cbn [fst with_root db_root]. now apply held_upd.
Qed.
Lemma plain_held : forall d o, plain_call o = true -> Permutation (held (db_root (fst (step d o)))) (held (db_root d)).
Proof.
  intros d o P. destruct (target o) as [h|] eqn:T.
  - destruct (get_at (db_root d) h) as [s|] eqn:G; [|unfold step; rewrite T, G; reflexivity].
    destruct (act (db_root d) h s o) as [s' x] eqn:A. destruct (step_held d o h s s' x T G A) as (l & r & P1 & P2). rewrite P1, P2.
    enough (E : held s' = held s) by (rewrite E; reflexivity).
    assert (AD : forall m, (forall c, m = Ok c -> held c = []) -> held (fst (adding h s m)) = held s).
    { intros [c|e] H; [|reflexivity]. cbn [adding fst]. destruct s as [a it ii ks]. unfold add_child. cbn [s_attrs s_items s_iitems s_kids held]. rewrite flat_map_app. cbn [flat_map].
      rewrite (H c eq_refl). now rewrite !app_nil_r. }
    assert (AS : forall m, (forall c, m = Ok c -> held c = held s) -> held (fst (assigning s m)) = held s) by (intros [c|e] H; [now apply H|reflexivity]).
    assert (RD : forall A (f : A -> out) m, held (fst (reading s f m)) = held s) by (intros A0 f [c|e]; reflexivity).
    assert (UA : forall f t, held (upd_attrs f t) = held t) by (intros f []; reflexivity).
    assert (CB : forall c n src w so t fl k, create_scope c n src w so t fl = Ok k -> held k = []).
    { intros c n src w so t fl k H. unfold create_scope, inst_create_scope, mem_create_scope in H.
      destruct (is_inst c); [destruct (mask_hit t COVERGROUP)|destruct (DU_ANY t); [|destruct (t =? COVERGROUP)%N; [|destruct (t =? COVERINSTANCE)%N; [|destruct (t =? COVERPOINT)%N]]]];
        inversion H; reflexivity. }
    assert (s' = fst (act (db_root d) h s o)) as -> by now rewrite A. clear A x P1 P2.
    destruct o; try discriminate P; try discriminate T; cbn [act].
    + apply AD. intros c. apply CB.
    + apply AD. intros c H. apply rbind_ok in H as (? & _ & H). now injection H as <-.
    + apply AD. intros c H. unfold create_toggle in H. destruct (is_inst (s_cls s)); [|discriminate]. now injection H as <-.
    + apply AD. intros c H. now injection H as <-.
    + apply AD. intros c H. unfold need in H. destruct (is_cg (s_cls s)); [|discriminate]. now injection H as <-.
    + apply AD. intros c H. apply rbind_ok in H as (? & _ & H). unfold need in H. destruct (is_cg (s_cls s)); [|discriminate]. now injection H as <-.
    + apply AD. intros c H. destruct (is_database (s_cls s)); [discriminate|]. unfold need in H. destruct (is_cg (s_cls s)); [|discriminate]. revert H. apply CB.
    + apply AS. intros c H. unfold set_int in H.
      assert (SS : forall p c, scope_set s p v = Ok c -> held c = held s) by (intros q c' Hq; unfold scope_set in Hq; destruct q; try discriminate Hq; injection Hq as <-; apply UA).
      assert (IS : forall p c, inst_set s idx p v = Ok c -> held c = held s).
      { intros q c' Hq. unfold inst_set in Hq. destruct q; try (now apply SS in Hq). destruct (py_index (List.length (s_iitems s)) idx) as [i|]; [|discriminate]. injection Hq as <-.
        destruct s as [a it ii ks]. unfold set_iitems. cbn [s_attrs s_items s_iitems s_kids held]. f_equal. f_equal. apply map_upd_nth. reflexivity. }
      assert (CS : forall p c, cvg_set s p v = Ok c -> held c = held s) by (intros q c' Hq; unfold cvg_set in Hq; destruct q; try (now apply SS in Hq); injection Hq as <-; apply UA).
      assert (GS : forall p c, covergroup_set s p v = Ok c -> held c = held s) by (intros q c' Hq; unfold covergroup_set in Hq; destruct q; try (now apply CS in Hq); injection Hq as <-; apply UA).
      assert (X : match s_cls s with KDb | KScope => scope_set s p v | KInst _ | KToggle => inst_set s idx p v | KCovergroup => covergroup_set s p v | _ => cvg_set s p v end = Ok c -> held c = held s).
      { intros Hx. destruct (s_cls s); eauto. }
      destruct p; try (now apply X); injection H as <-; apply UA.
    + apply RD.
    + apply AS. intros c H. unfold set_field, need in H. destruct f; try (injection H as <-; apply UA); (destruct (is_cvg (s_cls s)); try discriminate H); try (injection H as <-; apply UA);
        destruct (is_cg (s_cls s)); try discriminate H; injection H as <-; apply UA.
    + apply AS. intros c H. now injection H as <-.
    + apply RD.
  - unfold step. rewrite T. destruct o; try discriminate T; cbn [db_act]; try reflexivity.
    + now destruct (index_of name (db_files d)).
    + now destruct (nth_error (db_hist d) i).
    + now destruct (nth_error (db_hist d) i).
Qed.
Lemma cover_held : forall d h n r src, get_at (db_root d) h <> None ->
  Permutation (held (db_root (fst (step d (CreateNextCover h n (ref_data r) src))))) (r :: held (db_root d)).
Proof.
  intros d h n r src G. destruct (get_at (db_root d) h) as [s|] eqn:E; [clear G|contradiction].
  destruct (act (db_root d) h s (CreateNextCover h n (ref_data r) src)) as [s' x] eqn:A.
  destruct (step_held d (CreateNextCover h n (ref_data r) src) h s s' x eq_refl E A) as (l & t & P1 & P2). rewrite P1, P2.
  assert (TR : the_ref (ref_data r) = r) by (unfold the_ref; cbn; apply Nat2Z.id).
  enough (Q : Permutation (held s') (r :: held s)) by (rewrite Q; cbn [app]; symmetry; apply Permutation_middle).
  cbn [act] in A. destruct s as [a it ii ks]. destruct (is_inst (s_cls (Scope a it ii ks))); injection A as <- <-.
  - unfold add_iitem. cbn [s_attrs s_items s_iitems s_kids held]. rewrite map_app. cbn [map ii_data]. rewrite TR.
    rewrite <- !app_assoc. cbn [app]. symmetry. rewrite app_assoc, (app_assoc (map _ it)). apply Permutation_middle.
  - unfold add_item. cbn [s_attrs s_items s_iitems s_kids held]. rewrite map_app. cbn [map ci_data]. rewrite TR.
    rewrite <- !app_assoc. cbn [app]. symmetry. apply Permutation_middle.
Qed.

(** ** One item *)
Lemma nodup_r : forall A (l m : list A), NoDup (l ++ m) -> NoDup m.
Proof. intros A l m. induction l as [|x l IH]; [auto|]. cbn. intros N. inversion N; auto. Qed.
Lemma nodup_l : forall A (l m : list A), NoDup (l ++ m) -> NoDup l.
Proof.
  intros A l m. induction l as [|x l IH]; intros N; [constructor|]. cbn in N. inversion N; subst. constructor; [|now apply IH]. intros I. apply H1. apply in_or_app. now left.
Qed.
Lemma nth_upd : forall A (l : list A) i j f (dflt : A), i < List.length l -> nth j (upd_nth i f l) dflt = if Nat.eqb j i then f (nth j l dflt) else nth j l dflt.
Proof.
  intros A l. induction l as [|x l IH]; intros i j f dflt L; [cbn in L; lia|]. destruct i as [|i], j as [|j]; cbn; try reflexivity. apply IH. cbn in L. lia.
Qed.
Lemma unique_upd : forall g g' h s t i x, NoDup (held s) -> get_at s h = Some t -> nth_error (s_items t) i = Some x ->
  (forall c, the_ref c <> the_ref (ci_data x) -> g' c = g c) ->
  map_data g' s = upd_at (map_data g s) h (fun _ => set_items (map_data g t)
    (upd_nth i (fun y => Item (ci_name y) (g' (ci_data x)) (ci_src y)) (s_items (map_data g t)))).
Proof.
  intros g g'. induction h as [|k h IH]; intros s t i x N G E H.
  - injection G as ->. destruct t as [a it ii ks]. cbn [upd_at map_data s_items] in *. unfold set_items. cbn [s_attrs s_iitems s_kids]. cbn [held] in N.
    apply nth_error_split in E as (before & after & -> & L).
    rewrite !map_app. cbn [map]. rewrite map_app in N. cbn [map] in N.
    assert (NI : forall y, In (the_ref y) (map (fun x => the_ref (ci_data x)) before ++ map (fun x => the_ref (ci_data x)) after ++ map (fun x => the_ref (ii_data x)) ii ++ flat_map held ks) -> g' y = g y).
    { intros y I. apply H. intros Q. rewrite Q in I. rewrite <- !app_assoc in N. cbn [app] in N. apply NoDup_remove_2 in N. contradiction. }
    f_equal.
    + assert (forall (f : item -> item) (l : list item) y l', upd_nth (List.length l) f (l ++ y :: l') = l ++ f y :: l') as U.
      { intros f l y l'. induction l as [|z l IHl]; [reflexivity|]. cbn. now rewrite IHl. }
      rewrite <- L. rewrite <- (map_length (fun x => Item (ci_name x) (g (ci_data x)) (ci_src x)) before), U. cbn [ci_name ci_src]. f_equal; [|f_equal].
      * apply map_ext_in. intros y I. f_equal. apply NI. apply in_or_app. left. apply in_map_iff. now exists y.
      * apply map_ext_in. intros y I. f_equal. apply NI. apply in_or_app. right. apply in_or_app. left. apply in_map_iff. now exists y.
    + apply map_ext_in. intros y I. f_equal. apply NI. apply in_or_app. right. apply in_or_app. right. apply in_or_app. left. apply in_map_iff. now exists y.
    + apply map_ext_in. intros y I. apply map_ext_held. intros c Ic. apply NI. apply in_or_app. right. apply in_or_app. right. apply in_or_app. right. apply in_flat_map. now exists y.
  - cbn [get_at] in G. destruct s as [a it ii ks]. cbn [s_kids] in G. destruct (nth_error ks k) as [c|] eqn:Ek; [|discriminate].
    assert (IX : In (the_ref (ci_data x)) (held c)).
    { apply (held_get h c t _ G). destruct t as [ta tit tii tks]. cbn [held s_items] in *. apply in_or_app. left. apply in_map_iff. exists x. split; [reflexivity|]. eapply nth_error_In; exact E. }
    apply nth_error_split in Ek as (before & after & -> & L). cbn [held] in N. rewrite flat_map_app in N. cbn [flat_map] in N.
    assert (Nc : NoDup (held c)).
    { do 3 apply nodup_r in N. now apply nodup_l in N. }
    assert (NI : forall y, In (the_ref y) (map (fun x => the_ref (ci_data x)) it ++ map (fun x => the_ref (ii_data x)) ii ++ flat_map held before ++ flat_map held after) -> g' y = g y).
    { intros y I. apply H. intros Q. rewrite Q in I. apply in_split in IX as (l1 & l2 & Q2). rewrite Q2 in N.
      assert (N' : NoDup ((map (fun x => the_ref (ci_data x)) it ++ map (fun x => the_ref (ii_data x)) ii ++ flat_map held before ++ l1) ++ the_ref (ci_data x) :: l2 ++ flat_map held after)).
      { rewrite <- !app_assoc in *. cbn [app] in *. exact N. }
      apply NoDup_remove_2 in N'. apply N'. rewrite <- !app_assoc.
      apply in_app_or in I as [I|I]; [apply in_or_app; now left|]. apply in_or_app. right. apply in_app_or in I as [I|I]; [apply in_or_app; now left|]. apply in_or_app. right.
      apply in_app_or in I as [I|I]; [apply in_or_app; now left|]. do 3 (apply in_or_app; right). exact I. }
    cbn [map_data upd_at s_attrs s_items s_iitems s_kids]. f_equal.
    + apply map_ext_in. intros y I. f_equal. apply NI. apply in_or_app. left. apply in_map_iff. now exists y.
    + apply map_ext_in. intros y I. f_equal. apply NI. apply in_or_app. right. apply in_or_app. left. apply in_map_iff. now exists y.
    + rewrite !map_app. cbn [map].
      assert (forall (f : scope -> scope) (l : list scope) y l', upd_nth (List.length l) f (l ++ y :: l') = l ++ f y :: l') as U.
      { intros f l y l'. induction l as [|z l IHl]; [reflexivity|]. cbn. now rewrite IHl. }
      rewrite <- L. rewrite <- (map_length (map_data g) before), U. f_equal; [|f_equal].
      * apply map_ext_in. intros y I. apply map_ext_held. intros q Iq. apply NI. apply in_or_app. right. apply in_or_app. right. apply in_or_app. left. apply in_flat_map. now exists y.
      * now apply IH.
      * apply map_ext_in. intros y I. apply map_ext_held. intros q Iq. apply NI. apply in_or_app. right. apply in_or_app. right. apply in_or_app. right. apply in_flat_map. now exists y.
Qed.

(** ** Careful calls keep objects apart *)
Lemma seen_root : forall hs, db_root (seen hs) = map_data (content_of (hs_heap hs)) (db_root (hs_db hs)).
Proof. intros [[] h]. reflexivity. Qed.
Lemma seen_ext : forall d heap heap', (forall r, In r (held (db_root d)) -> nth r heap' some_data = nth r heap some_data) -> seen (HState d heap') = seen (HState d heap).
Proof.
  intros d heap heap' H. unfold seen, map_db. cbn [hs_db hs_heap]. f_equal. apply map_ext_held. intros c I. unfold content_of. now apply H.
Qed.
Lemma upd_length : forall A (l : list A) i f, List.length (upd_nth i f l) = List.length l.
Proof. intros A l. induction l as [|x l IH]; intros [|i] f; cbn; auto. Qed.
Lemma the_ref_data : forall r, the_ref (ref_data r) = r.
Proof. intros r. unfold the_ref. cbn. apply Nat2Z.id. Qed.

Lemma unshared_perm : forall d d' heap heap', Permutation (held (db_root d')) (held (db_root d)) -> List.length heap <= List.length heap' ->
  unshared (HState d heap) -> unshared (HState d' heap').
Proof.
  intros d d' heap heap' P L [N B]. unfold unshared, held_in in *. cbn [hs_db hs_heap] in *. split.
  - symmetry in P. now apply (Permutation_NoDup P).
  - rewrite P. eapply Forall_impl; [|exact B]. cbn. intros r Hr. lia.
Qed.
Lemma next_cover_unshared : forall d heap h n r src, ~ In r (held (db_root d)) -> r < List.length heap ->
  unshared (HState d heap) -> unshared (fst (next_cover (HState d heap) h n r src)).
Proof.
  intros d heap h n r src NI L U. unfold next_cover. cbn [hs_db hs_heap]. destruct (step d (CreateNextCover h n (ref_data r) src)) as [d' x] eqn:E. cbn [fst].
  destruct (get_at (db_root d) h) as [s|] eqn:G.
  - pose proof (cover_held d h n r src) as P. rewrite G, E in P. cbn [fst] in P. specialize (P ltac:(discriminate)).
    destruct U as [N B]. unfold unshared, held_in in *. cbn [hs_db hs_heap] in *. split.
    + symmetry in P. apply (Permutation_NoDup P). now constructor.
    + rewrite P. now constructor.
  - unfold step in E. cbn [target] in E. rewrite G in E. injection E as <- <-. exact U.
Qed.

Theorem careful_unshared : forall hs o, unshared hs -> careful hs o -> unshared (fst (hstep hs o)).
Proof.
  intros [d heap] o U C. destruct o; cbn [hstep hs_db hs_heap].
  - cbn [fst]. apply (unshared_perm d d heap); auto. rewrite app_length. lia.
  - destruct (Nat.ltb r (List.length heap)); [|exact U]. cbn [fst]. apply (unshared_perm d d heap); auto. rewrite upd_length. lia.
  - destruct (Nat.ltb r (List.length heap)) eqn:L; [|exact U]. apply Nat.ltb_lt in L. now apply next_cover_unshared.
  - destruct (get_at (db_root d) h) as [s|]; [|exact U]. destruct (is_point (s_cls s)); [|exact U].
    apply next_cover_unshared.
    + intros I. destruct U as [_ B]. rewrite Forall_forall in B. specialize (B _ I). cbn [hs_heap] in B. lia.
    + rewrite app_length. cbn. lia.
    + apply (unshared_perm d d heap); auto. rewrite app_length. lia.
  - destruct (ref_at (HState d heap) h i) as [r|]; [|exact U]. cbn [fst]. apply (unshared_perm d d heap); auto. rewrite upd_length. lia.
  - now destruct (ref_at (HState d heap) h i).
  - destruct (plain_call o) eqn:P; [|exact U]. pose proof (plain_held d o P) as Q. destruct (step d o) as [d' x]. cbn [fst] in *. now apply (unshared_perm d d' heap).
Qed.

(** ** Careful calls act by value *)

Lemma next_cover_value : forall d heap h n r src,
  seen (fst (next_cover (HState d heap) h n r src)) = fst (step (seen (HState d heap)) (CreateNextCover h n (nth r heap some_data) src)) /\
  snd (next_cover (HState d heap) h n r src) = lift (snd (step (seen (HState d heap)) (CreateNextCover h n (nth r heap some_data) src))).
Proof.
  intros d heap h n r src. pose proof (next_cover_step (content_of heap) d h n (ref_data r) src) as H.
  unfold content_of at 2 in H. rewrite the_ref_data in H. unfold seen at 2 3. cbn [hs_db hs_heap]. rewrite H. cbn [fst snd].
  unfold next_cover. cbn [hs_db hs_heap]. destruct (step d (CreateNextCover h n (ref_data r) src)) as [d' x]. split; reflexivity.
Qed.

Lemma bin_is_cover : forall d h n src al ct k s, get_at (db_root d) h = Some s -> is_point (s_cls s) = true ->
  step d (CreateBin h n src al ct k) = step d (CreateNextCover h n (ci_data (new_bin n src al ct k)) src).
Proof.
  intros d h n src al ct k s G P. unfold step. cbn [target]. rewrite G. cbn [act]. rewrite P.
  assert (is_inst (s_cls s) = false) as -> by (destruct (s_cls s); try discriminate P; reflexivity). reflexivity.
Qed.

Theorem careful_by_value : forall hs o, unshared hs -> careful hs o ->
  seen (fst (hstep hs o)) = run (seen hs) (by_value hs o) /\
  one_result (snd (hstep hs o)) (results (seen hs) (by_value hs o)).
Proof.
  intros [d heap] o U C.
  assert (ONE : forall p, run (seen (HState d heap)) [p] = fst (step (seen (HState d heap)) p)) by reflexivity.
  assert (RES : forall p, results (seen (HState d heap)) [p] = [snd (step (seen (HState d heap)) p)]) by (intros p; cbn [results]; now destruct (step _ p)).
  assert (GET : forall h, get_at (db_root (seen (HState d heap))) h = option_map (map_data (content_of heap)) (get_at (db_root d) h)) by (intros h; rewrite seen_root; apply get_map).
  assert (BND : forall r, In r (held (db_root d)) -> r < List.length heap) by (destruct U as [_ B]; rewrite Forall_forall in B; exact B).
  destruct o; cbn [by_value hs_heap].
  - split; [|exact I]. cbn [hstep fst hs_db hs_heap]. apply seen_ext. intros r I. apply app_nth1. now apply BND.
  - split; [|exact I]. cbn [hstep hs_db hs_heap]. destruct (Nat.ltb r (List.length heap)) eqn:L; [|reflexivity]. apply Nat.ltb_lt in L. cbn [fst].
    apply seen_ext. intros q I. rewrite nth_upd by exact L. destruct (Nat.eqb_spec q r) as [->|]; [contradiction|reflexivity].
  - cbn [hstep hs_db hs_heap]. destruct (Nat.ltb r (List.length heap)) eqn:L; [|split; [reflexivity|exact I]]. rewrite ONE, RES. apply next_cover_value.
  - rewrite ONE, RES. cbn [hstep hs_db hs_heap]. destruct (get_at (db_root d) h) as [s|] eqn:G.
    + destruct (is_point (s_cls s)) eqn:P.
      * pose proof (next_cover_value d (heap ++ [ci_data (new_bin name src at_least count kind)]) h name (List.length heap) src) as V.
        rewrite app_nth2, Nat.sub_diag in V by lia. change (nth 0 [ci_data (new_bin name src at_least count kind)] some_data) with (ci_data (new_bin name src at_least count kind)) in V.
        rewrite (seen_ext d heap (heap ++ [ci_data (new_bin name src at_least count kind)])) in V by (intros r I; apply app_nth1; now apply BND).
        rewrite <- (bin_is_cover (seen (HState d heap)) h name src at_least count kind (map_data (content_of heap) s)) in V; [exact V|now rewrite GET, G|now rewrite map_cls].
      * unfold step. cbn [target]. rewrite GET, G. cbn [option_map act]. rewrite map_cls, P. cbn [fst snd one_result lift rbind]. split; [|reflexivity].
        symmetry. apply same_effect. now rewrite GET, G.
    + unfold step. cbn [target]. rewrite GET, G. split; reflexivity.
  - rewrite ONE, RES. cbn [hstep hs_db hs_heap]. unfold ref_at. cbn [hs_db]. unfold step. cbn [target]. rewrite GET. destruct (get_at (db_root d) h) as [s|] eqn:G; [|split; reflexivity].
    cbn [option_map act]. rewrite map_items, nth_error_map. destruct (nth_error (s_items s) i) as [x|] eqn:E; cbn [option_map].
    + cbn [fst snd one_result lift rbind]. split; [|reflexivity].
      assert (IN : In (the_ref (ci_data x)) (held (db_root d))).
      { apply (held_get h _ s _ G). destruct s as [a it ii ks]. cbn [held s_items] in *. apply in_or_app. left. apply in_map_iff. exists x. split; [reflexivity|]. eapply nth_error_In; exact E. }
      assert (AT : content_of (upd_nth (the_ref (ci_data x)) (add_count amt) heap) (ci_data x) = add_count amt (content_of heap (ci_data x))).
      { unfold content_of. rewrite nth_upd by now apply BND. now rewrite Nat.eqb_refl. }
      unfold seen at 1, map_db. cbn [hs_db hs_heap].
      rewrite (unique_upd (content_of heap) (content_of (upd_nth (the_ref (ci_data x)) (add_count amt) heap)) h (db_root d) s i x (proj1 U) G E).
      * rewrite seen_root. cbn [hs_db hs_heap]. unfold with_root, seen, map_db. cbn [db_files db_hist hs_db hs_heap with_root]. f_equal. f_equal.
        rewrite AT, map_items.
        rewrite (upd_nth_ext i (fun y => Item (ci_name y) (add_count amt (content_of heap (ci_data x))) (ci_src y)) (increment amt)); [reflexivity|].
        intros y Hy. rewrite nth_error_map, E in Hy. injection Hy as <-. reflexivity.
      * intros c Q. unfold content_of. rewrite nth_upd by now apply BND. now apply Nat.eqb_neq in Q as ->.
    + cbn [fst snd one_result lift rbind]. split; [|reflexivity]. symmetry. apply same_effect. now rewrite GET, G.
  - split; [|exact I]. cbn [hstep]. now destruct (ref_at (HState d heap) h i).
  - cbn [hstep hs_db hs_heap]. destruct (plain_call o) eqn:P; [|split; [reflexivity|exact I]]. rewrite ONE, RES.
    pose proof (plain_step (content_of heap) d o P) as H. unfold seen at 2 3. cbn [hs_db hs_heap]. rewrite H. destruct (step d o) as [d' x]. split; reflexivity.
Qed.

Theorem careful_history : forall l hs, unshared hs -> careful_all hs l ->
  unshared (hrun hs l) /\ seen (hrun hs l) = run (seen hs) (all_by_value hs l).
Proof.
  induction l as [|o l IH]; intros hs U C; [now split|]. destruct C as [C1 C2]. cbn [hrun fold_left all_by_value].
  destruct (IH (fst (hstep hs o)) (careful_unshared hs o U C1) C2) as [U' E]. split; [exact U'|]. unfold hrun in E. rewrite E.
  rewrite (proj1 (careful_by_value hs o U C1)). unfold run. now rewrite fold_left_app.
Qed.

(** ** Calls that share *)
Lemma grounded_perm : forall d d' heap heap', Permutation (held (db_root d')) (held (db_root d)) -> List.length heap <= List.length heap' ->
  grounded (HState d heap) -> grounded (HState d' heap').
Proof.
  intros d d' heap heap' P L B. unfold grounded, held_in in *. cbn [hs_db hs_heap] in *. rewrite P. eapply Forall_impl; [|exact B]. cbn. intros r Hr. lia.
Qed.
Lemma next_cover_grounded : forall d heap h n r src, r < List.length heap ->
  grounded (HState d heap) -> grounded (fst (next_cover (HState d heap) h n r src)).
Proof.
  intros d heap h n r src L U. unfold next_cover. cbn [hs_db hs_heap]. destruct (step d (CreateNextCover h n (ref_data r) src)) as [d' x] eqn:E. cbn [fst].
  destruct (get_at (db_root d) h) as [s|] eqn:G.
  - pose proof (cover_held d h n r src) as P. rewrite G, E in P. cbn [fst] in P. specialize (P ltac:(discriminate)).
    unfold grounded, held_in in *. cbn [hs_db hs_heap] in *. rewrite P. now constructor.
  - unfold step in E. cbn [target] in E. rewrite G in E. injection E as <- <-. exact U.
Qed.
Theorem step_grounded : forall hs o, grounded hs -> grounded (fst (hstep hs o)).
Proof.
  intros [d heap] o U. destruct o; cbn [hstep hs_db hs_heap].
  - cbn [fst]. apply (grounded_perm d d heap); auto. rewrite app_length. lia.
  - destruct (Nat.ltb r (List.length heap)); [|exact U]. cbn [fst]. apply (grounded_perm d d heap); auto. rewrite upd_length. lia.
  - destruct (Nat.ltb r (List.length heap)) eqn:L; [|exact U]. apply Nat.ltb_lt in L. now apply next_cover_grounded.
  - destruct (get_at (db_root d) h) as [s|]; [|exact U]. destruct (is_point (s_cls s)); [|exact U].
    apply next_cover_grounded; [rewrite app_length; cbn; lia|]. apply (grounded_perm d d heap); auto. rewrite app_length. lia.
  - destruct (ref_at (HState d heap) h i) as [r|]; [|exact U]. cbn [fst]. apply (grounded_perm d d heap); auto. rewrite upd_length. lia.
  - now destruct (ref_at (HState d heap) h i).
  - destruct (plain_call o) eqn:P; [|exact U]. pose proof (plain_held d o P) as Q. destruct (step d o) as [d' x]. cbn [fst] in *. now apply (grounded_perm d d' heap).
Qed.
Lemma run_grounded : forall l hs, grounded hs -> grounded (hrun hs l).
Proof. induction l as [|o l IH]; intros hs G; [exact G|]. apply (IH (fst (hstep hs o))). now apply step_grounded. Qed.

Lemma data_map : forall g d p, data_at (map_db g d) p = option_map g (data_at d p).
Proof.
  intros g d [h i|h i]; unfold data_at, map_db; cbn [with_root db_root]; rewrite get_map; destruct (get_at (db_root d) h) as [s|]; try reflexivity; cbn [option_map].
  - rewrite map_items, nth_error_map. now destruct (nth_error (s_items s) i).
  - rewrite map_iitems, nth_error_map. now destruct (nth_error (s_iitems s) i).
Qed.
Lemma data_seen : forall hs p, data_at (seen hs) p = option_map (fun r => nth r (hs_heap hs) some_data) (object_at hs p).
Proof. intros hs p. unfold seen. rewrite data_map. unfold object_at. now destruct (data_at (hs_db hs) p). Qed.
Lemma map_map_data : forall g f s, map_data g (map_data f s) = map_data (fun c => g (f c)) s.
Proof.
  intros g f. induction s as [a it ii ks IH] using scope_rect_nested. cbn [map_data]. rewrite !map_map. f_equal. induction IH as [|k l E Fl IHl]; [reflexivity|]. cbn [map]. now rewrite E, IHl.
Qed.
Lemma skeleton_seen : forall hs, skeleton (seen hs) = skeleton (hs_db hs).
Proof. intros hs. unfold skeleton, seen, map_db, with_root. cbn [db_root db_files db_hist]. now rewrite map_map_data. Qed.
Lemma object_held : forall hs p r, object_at hs p = Some r -> In r (held_in hs).
Proof.
  intros hs [h i|h i] r H; unfold object_at, data_at in H; destruct (get_at (db_root (hs_db hs)) h) as [s|] eqn:G; try discriminate H;
    apply (held_get h _ s _ G); destruct s as [a it ii ks]; cbn [s_items s_iitems held] in *.
  - destruct (nth_error it i) as [x|] eqn:E; [|discriminate]. injection H as <-. apply in_or_app. left. apply in_map_iff. exists x. split; [reflexivity|]. eapply nth_error_In; exact E.
  - destruct (nth_error ii i) as [x|] eqn:E; [|discriminate]. injection H as <-. apply in_or_app. right. apply in_or_app. left. apply in_map_iff. exists x. split; [reflexivity|]. eapply nth_error_In; exact E.
Qed.
Lemma ref_object : forall hs h i, ref_at hs h i = object_at hs (Cov h i).
Proof. intros hs h i. unfold ref_at, object_at, data_at. destruct (get_at _ h) as [s|]; [|reflexivity]. now destruct (nth_error (s_items s) i). Qed.

(** What changing one object changes. *)
Lemma change_object : forall hs r f, grounded hs -> let hs' := HState (hs_db hs) (upd_nth r f (hs_heap hs)) in
  skeleton (seen hs') = skeleton (seen hs) /\
  (forall p, object_at hs' p = object_at hs p) /\
  (forall p, object_at hs p = Some r -> data_at (seen hs') p = option_map f (data_at (seen hs) p)) /\
  (forall p, object_at hs p <> Some r -> data_at (seen hs') p = data_at (seen hs) p).
Proof.
  intros hs r f G hs'. split; [now rewrite !skeleton_seen|]. split; [reflexivity|].
  assert (B : forall q, In q (held_in hs) -> q < List.length (hs_heap hs)) by (unfold grounded in G; now rewrite Forall_forall in G).
  split; intros p H.
  - rewrite !data_seen. change (object_at hs' p) with (object_at hs p). rewrite H. cbn [option_map]. subst hs'. cbn [hs_heap].
    rewrite nth_upd by (apply B; now apply object_held in H). now rewrite Nat.eqb_refl.
  - rewrite !data_seen. change (object_at hs' p) with (object_at hs p). destruct (object_at hs p) as [q|] eqn:E; [|reflexivity]. cbn [option_map]. subst hs'. cbn [hs_heap]. f_equal.
    assert (Q : q <> r) by congruence. clear H. destruct (Nat.lt_ge_cases r (List.length (hs_heap hs))) as [L|L].
    + rewrite nth_upd by exact L. now apply Nat.eqb_neq in Q as ->.
    + f_equal. revert L. generalize (hs_heap hs). clear. intros l. revert r. induction l as [|x l IH]; intros [|r] L; cbn in *; try lia; try reflexivity. rewrite IH; [reflexivity|lia].
Qed.

(** ** One object, one place *)
Lemma in_map_nth : forall A B (f : A -> B) l i x, nth_error l i = Some x -> In (f x) (map f l).
Proof. intros A B f l i x E. apply in_map. eapply nth_error_In; exact E. Qed.
Lemma nodup_disjoint : forall A (l m : list A) x, NoDup (l ++ m) -> In x l -> In x m -> False.
Proof.
  intros A l m x. induction l as [|y l IH]; intros N I J; [contradiction|]. cbn in N. inversion N; subst. destruct I as [->|I]; [apply H1, in_or_app; now right|now apply IH].
Qed.
Lemma nodup_map_nth : forall A B (f : A -> B) l i j x y, NoDup (map f l) -> nth_error l i = Some x -> nth_error l j = Some y -> f x = f y -> i = j.
Proof.
  intros A B f l i j x y N E1 E2 Q. assert (F1 : nth_error (map f l) i = Some (f x)) by now rewrite nth_error_map, E1.
  assert (F2 : nth_error (map f l) j = Some (f y)) by now rewrite nth_error_map, E2. rewrite NoDup_nth_error in N. apply N; [|now rewrite F1, F2, Q].
  apply nth_error_Some. now rewrite F1.
Qed.
Lemma kid_held : forall (ks : list scope) i k r, nth_error ks i = Some k -> In r (held k) -> In r (flat_map held ks).
Proof. intros ks i k r E I. apply in_flat_map. exists k. split; [eapply nth_error_In; exact E|exact I]. Qed.
Lemma kids_apart : forall (ks : list scope) i j k k' r, NoDup (flat_map held ks) -> nth_error ks i = Some k -> nth_error ks j = Some k' -> In r (held k) -> In r (held k') -> i = j.
Proof.
  induction ks as [|c ks IH]; intros i j k k' r N E1 E2 I1 I2; [destruct i; discriminate|]. cbn [flat_map] in N. destruct i as [|i], j as [|j]; cbn in E1, E2; [reflexivity| | |].
  - injection E1 as ->. exfalso. apply (nodup_disjoint _ _ _ r N I1). now apply (kid_held ks j k').
  - injection E2 as ->. exfalso. apply (nodup_disjoint _ _ _ r N I2). now apply (kid_held ks i k).
  - f_equal. apply nodup_r in N. now apply (IH i j k k' r).
Qed.
Lemma kid_nodup : forall (ks : list scope) i k, NoDup (flat_map held ks) -> nth_error ks i = Some k -> NoDup (held k).
Proof.
  induction ks as [|c ks IH]; intros i k N E; [destruct i; discriminate|]. cbn [flat_map] in N. destruct i as [|i]; cbn in E; [injection E as ->; now apply nodup_l in N|].
  apply nodup_r in N. now apply (IH i).
Qed.

Definition in_scope (s : scope) (p : place) : option cover_data :=
  match p with
  | Cov h i => match get_at s h with Some s => option_map ci_data (nth_error (s_items s) i) | None => None end
  | InInst h i => match get_at s h with Some s => option_map ii_data (nth_error (s_iitems s) i) | None => None end
  end.
Definition path_of (p : place) : handle := match p with Cov h _ | InInst h _ => h end.
Definition below (p : place) : place := match p with Cov h i => Cov (tl h) i | InInst h i => InInst (tl h) i end.
Lemma in_scope_held : forall s p c, in_scope s p = Some c -> In (the_ref c) (held s).
Proof.
  intros s p c H. pose proof (object_held (HState (Db s [] []) []) p (the_ref c)) as O. apply O. unfold object_at. cbn [hs_db].
  change (data_at (Db s [] []) p) with (in_scope s p). now rewrite H.
Qed.
Lemma in_scope_own : forall s p c, in_scope s p = Some c -> path_of p = [] ->
  match p with Cov _ i => exists x, nth_error (s_items s) i = Some x /\ c = ci_data x | InInst _ i => exists x, nth_error (s_iitems s) i = Some x /\ c = ii_data x end.
Proof.
  intros s [h i|h i] c H P; cbn [path_of] in P; subst h; cbn [in_scope get_at] in H.
  - destruct (nth_error (s_items s) i) as [x|]; [|discriminate]. injection H as <-. now exists x.
  - destruct (nth_error (s_iitems s) i) as [x|]; [|discriminate]. injection H as <-. now exists x.
Qed.
Lemma in_scope_below : forall s p c k h, in_scope s p = Some c -> path_of p = k :: h -> exists s', nth_error (s_kids s) k = Some s' /\ in_scope s' (below p) = Some c.
Proof.
  intros s [h0 i|h0 i] c k h H P; cbn [path_of] in P; subst h0; cbn [in_scope get_at below tl] in *; destruct (nth_error (s_kids s) k) as [s'|]; try discriminate H; now exists s'.
Qed.
Lemma one_place : forall s p q c c', NoDup (held s) -> in_scope s p = Some c -> in_scope s q = Some c' -> the_ref c = the_ref c' -> p = q.
Proof.
  intros s p. remember (path_of p) as h eqn:P. revert s p P. induction h as [|k h IH]; intros s p P q c c' N H1 H2 R.
  - symmetry in P; pose proof (in_scope_own s p c H1 P) as O1; destruct (path_of q) as [|k' h'] eqn:Q.
    all: destruct s as [a it ii ks]; cbn [held] in N; cbn [s_items s_iitems] in *.
    all: try (pose proof (in_scope_own _ q c' H2 Q) as O2; cbn [s_items s_iitems] in O2).
    all: try (destruct (in_scope_below _ q c' k' h' H2 Q) as (s' & E' & B'); cbn [s_kids] in E'; apply in_scope_held in B'; pose proof (kid_held ks k' s' _ E' B') as KH).
    all: rewrite app_assoc in N; pose proof (nodup_l _ _ _ N) as N1.
    all: destruct p as [h i|h i], O1 as (x & E & ->); cbn [path_of] in P; subst h.
    all: try (exfalso; apply (nodup_disjoint _ _ _ (the_ref c') N); [rewrite <- R; apply in_or_app; (left; now apply (in_map_nth _ _ (fun x => the_ref (ci_data x)) _ i)) || (right; now apply (in_map_nth _ _ (fun x => the_ref (ii_data x)) _ i))|exact KH]).
    all: destruct q as [h j|h j], O2 as (y & E2 & ->); cbn [path_of] in Q; subst h.
    all: try (exfalso; apply (nodup_disjoint _ _ _ (the_ref (ci_data x)) N1); [now apply (in_map_nth _ _ (fun x => the_ref (ci_data x)) _ i)|rewrite R; now apply (in_map_nth _ _ (fun x => the_ref (ii_data x)) _ j)]).
    all: try (exfalso; apply (nodup_disjoint _ _ _ (the_ref (ii_data x)) N1); [rewrite R; now apply (in_map_nth _ _ (fun x => the_ref (ci_data x)) _ j)|now apply (in_map_nth _ _ (fun x => the_ref (ii_data x)) _ i)]).
    all: f_equal.
    all: try (apply nodup_l in N1; now apply (nodup_map_nth _ _ (fun x => the_ref (ci_data x)) it i j x y)).
    all: apply nodup_r in N1; now apply (nodup_map_nth _ _ (fun x => the_ref (ii_data x)) ii i j x y).
  - symmetry in P. destruct (in_scope_below s p c k h H1 P) as (s' & E & B). pose proof (in_scope_held _ _ _ B) as IB.
    destruct s as [a it ii ks]; cbn [held] in N; cbn [s_kids] in E. rewrite app_assoc in N. pose proof (nodup_r _ _ _ N) as N1.
    destruct (path_of q) as [|k' h'] eqn:Q.
    + exfalso. pose proof (in_scope_own _ q c' H2 Q) as O2. cbn [s_items s_iitems] in O2. apply (nodup_disjoint _ _ _ (the_ref c) N); [|now apply (kid_held ks k s')].
      rewrite R. apply in_or_app. destruct q as [hq j|hq j], O2 as (y & E2 & ->); [left; now apply (in_map_nth _ _ (fun x => the_ref (ci_data x)) _ j)|right; now apply (in_map_nth _ _ (fun x => the_ref (ii_data x)) _ j)].
    + destruct (in_scope_below _ q c' k' h' H2 Q) as (s2 & E2 & B2). cbn [s_kids] in E2. pose proof (in_scope_held _ _ _ B2) as IB2. rewrite <- R in IB2.
      pose proof (kids_apart ks k k' s' s2 _ N1 E E2 IB IB2). subst k'. rewrite E in E2. injection E2 as <-.
      assert (X : below p = below q).
      { apply (IH s' (below p)) with (c := c) (c' := c'); auto; [destruct p; cbn [path_of below] in *; now subst|]. now apply (kid_nodup ks k). }
      destruct p, q; cbn [path_of below] in *; try discriminate X; subst; cbn [tl] in X; congruence.
Qed.
Lemma unshared_places : forall hs p q r, unshared hs -> object_at hs p = Some r -> object_at hs q = Some r -> p = q.
Proof.
  intros hs p q r [N _] H1 H2. unfold object_at in *. change (data_at (hs_db hs)) with (in_scope (db_root (hs_db hs))) in *.
  destruct (in_scope _ p) as [c|] eqn:E1; [|discriminate]. destruct (in_scope _ q) as [c'|] eqn:E2; [|discriminate]. cbn [option_map] in *.
  apply (one_place (db_root (hs_db hs)) p q c c'); auto. congruence.
Qed.
