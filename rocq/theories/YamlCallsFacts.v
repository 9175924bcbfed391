(** Lemmas about the YAML reader as a program of API calls. *)
From Verif Require Import Base Dict Consts Db Hist BaseFacts Api ApiFacts Yaml YamlCalls.
Local Open Scope string_scope.
Local Open Scope list_scope.

(** ** Programs that work below one object *)
Definition put (d : db) (h : handle) (s : scope) : db := with_root d (upd_at (db_root d) h (fun _ => s)).
(** From [d], the program changes the object at [h] only, and ends as [x] says. *)
Definition runs {A} (d : db) (h : handle) (m : ST db A) (x : res (scope * A)) : Prop :=
  match x with
  | Ok (s, a) => m d = (put d h s, Ok a)
  | Err e => exists s, m d = (put d h s, Err e)
  end.
Definition behaves {A} (h : handle) (s : scope) (m : ST db A) (x : res (scope * A)) : Prop :=
  forall d, get_at (db_root d) h = Some s -> runs d h m x.

Lemma upd_at_app : forall r h t f, upd_at r (h ++ t) f = upd_at r h (fun s => upd_at s t f).
Proof.
  intros r h. revert r. induction h as [|i h IH]; intros r t f; cbn; [reflexivity|]. f_equal. apply upd_nth_ext. intros x _. apply IH.
Qed.
Lemma upd_at_ext : forall h r s f g, get_at r h = Some s -> f s = g s -> upd_at r h f = upd_at r h g.
Proof.
  induction h as [|i h IH]; intros r s f g G E; cbn in *; [congruence|]. f_equal. apply upd_nth_ext. intros x X. rewrite X in G. now apply (IH x s).
Qed.
Lemma get_upd : forall h r s s', get_at r h = Some s -> get_at (upd_at r h (fun _ => s')) h = Some s'.
Proof.
  induction h as [|i h IH]; intros r s s' G; cbn in *; [reflexivity|]. rewrite upd_nth_same. destruct (nth_error (s_kids r) i) as [c|]; [|discriminate]. cbn. now apply (IH c s).
Qed.
Lemma upd_upd : forall h r s' s'', upd_at (upd_at r h (fun _ => s')) h (fun _ => s'') = upd_at r h (fun _ => s'').
Proof.
  induction h as [|i h IH]; intros r s' s''; cbn; [reflexivity|]. f_equal. generalize (s_kids r). induction i as [|i IHi]; intros [|c l]; cbn; try reflexivity; f_equal; auto.
Qed.
Lemma put_put d h s s' : put (put d h s) h s' = put d h s'.
Proof. unfold put, with_root. cbn. now rewrite upd_upd. Qed.
Lemma put_id d h s : get_at (db_root d) h = Some s -> put d h s = d.
Proof. intros G. unfold put. rewrite upd_at_id by assumption. now destruct d. Qed.
Lemma get_put d h s s' : get_at (db_root d) h = Some s -> get_at (db_root (put d h s')) h = Some s'.
Proof. intros G. unfold put. cbn. now apply (get_upd h _ s). Qed.

Lemma behaves_ret {A} h s (a : A) : behaves h s (sret a) (Ok (s, a)).
Proof. intros d G. cbn. unfold sret. now rewrite put_id. Qed.
Lemma behaves_raise {A} h s e : behaves (A := A) h s (sraise e) (Err e).
Proof. intros d G. exists s. unfold sraise. now rewrite put_id. Qed.
Lemma runs_bind {A B} d h s (m : ST db A) (k : A -> ST db B) x f : get_at (db_root d) h = Some s -> runs d h m x ->
  (forall s' a, x = Ok (s', a) -> behaves h s' (k a) (f s' a)) -> runs d h (sbind m k) (let* (s', a) := x in f s' a).
Proof.
  intros G M K. unfold sbind. destruct x as [[s' a]|e]; cbn [rbind runs] in *.
  - specialize (K s' a eq_refl (put d h s') (get_put d h s s' G)). destruct (f s' a) as [[s'' b]|e]; cbn [runs] in *.
    + rewrite M, K. now rewrite put_put.
    + destruct K as (s'' & K). exists s''. rewrite M, K. now rewrite put_put.
  - destruct M as (s' & ->). now exists s'.
Qed.
Lemma behaves_bind {A B} h s (m : ST db A) (k : A -> ST db B) x f : behaves h s m x ->
  (forall s' a, x = Ok (s', a) -> behaves h s' (k a) (f s' a)) -> behaves h s (sbind m k) (let* (s', a) := x in f s' a).
Proof. intros M K d G. apply (runs_bind d h s); auto. Qed.
Lemma behaves_lift {A B} h s (r : res A) (k : A -> ST db B) f : (forall a, r = Ok a -> behaves h s (k a) (f a)) ->
  behaves h s (sbind (slift r) k) (let* a := r in f a).
Proof.
  intros K d G. unfold sbind, slift. destruct r as [a|e]; cbn [rbind]; [now apply K|]. exists s. now rewrite put_id.
Qed.
(** What is done to an object below is done to the object above it. *)
Lemma runs_below {A} d h rel s c (m : ST db A) x : get_at (db_root d) h = Some s -> get_at s rel = Some c -> runs d (h ++ rel) m x ->
  runs d h m (let* (c', a) := x in Ok (upd_at s rel (fun _ => c'), a)).
Proof.
  intros G C M. assert (E : forall c', put d (h ++ rel) c' = put d h (upd_at s rel (fun _ => c'))).
  { intros c'. unfold put. f_equal. rewrite upd_at_app. now apply (upd_at_ext h _ s). }
  destruct x as [[c' a]|e]; cbn [rbind runs] in *; [now rewrite <- E|]. destruct M as (c' & M). exists (upd_at s rel (fun _ => c')). now rewrite <- E.
Qed.
Lemma behaves_below {A} h rel s c (m : ST db A) x : get_at s rel = Some c -> behaves (h ++ rel) c m x ->
  behaves h s m (let* (c', a) := x in Ok (upd_at s rel (fun _ => c'), a)).
Proof. intros C M d G. apply (runs_below d h rel s c); auto. apply M. now rewrite get_at_app, G. Qed.

Definition put_kids (s : scope) (l : list scope) : scope := Scope (s_attrs s) (s_items s) (s_iitems s) l.
Lemma put_kids_same s : put_kids s (s_kids s) = s.
Proof. now destruct s. Qed.
Lemma upd_nth_last {A} (l : list A) x y : upd_nth (List.length l) (fun _ => y) (l ++ [x]) = l ++ [y].
Proof. induction l as [|z l IH]; cbn; [reflexivity|]. now rewrite IH. Qed.
Lemma upd_last s l c c' : upd_at (put_kids s (l ++ [c])) [List.length l] (fun _ => c') = put_kids s (l ++ [c']).
Proof. cbn. unfold put_kids. now rewrite upd_nth_last. Qed.
Lemma get_last s l c : get_at (put_kids s (l ++ [c])) [List.length l] = Some c.
Proof. cbn. rewrite nth_error_app2 by lia. now rewrite Nat.sub_diag. Qed.

(** ** Single calls *)
Lemma made_child d h s o c : get_at (db_root d) h = Some s -> target o = Some h -> act (db_root d) h s o = adding h s (Ok c) ->
  runs d h (made o) (Ok (add_child s c, h ++ [List.length (s_kids s)])).
Proof. intros G T E. cbn [runs]. unfold made, call, sbind, step. rewrite T, G, E. reflexivity. Qed.

Lemma bins_behave a kind : forall p bins c, is_point (s_cls c) = true ->
  behaves p c (bin_calls a kind p bins) (Ok (Scope (s_attrs c) (s_items c ++ y_bins a kind bins) (s_iitems c) (s_kids c), tt)).
Proof.
  intros p bins. unfold bin_calls, y_bins. induction (opt_list bins) as [|b l IH]; intros c P; cbn [sfor map].
  - rewrite app_nil_r. replace (Scope _ _ _ _) with c by now destruct c. apply behaves_ret.
  - set (c1 := add_item c (new_bin (yb_name b) None a (yb_count b) kind)).
    replace (Scope _ _ _ _) with (Scope (s_attrs c1) (s_items c1 ++ map (fun b => new_bin (yb_name b) None a (yb_count b) kind) l) (s_iitems c1) (s_kids c1))
      by (unfold c1; cbn [add_item s_attrs s_items s_iitems s_kids]; now rewrite <- app_assoc).
    apply (behaves_bind p c _ _ (Ok (c1, tt)) (fun s' _ => Ok (Scope (s_attrs s') (s_items s' ++ map (fun b => new_bin (yb_name b) None a (yb_count b) kind) l) (s_iitems s') (s_kids s'), tt))).
    + intros d G. cbn [runs]. unfold sbind, call, step. cbn [target]. rewrite G. cbn [act]. rewrite P. reflexivity.
    + intros s' u E. injection E as <- _. apply IH. exact P.
Qed.

Lemma point_behaves h s name al b ig il : is_cg (s_cls s) = true ->
  behaves h s (point_calls h name al b ig il) (Ok (put_kids s (s_kids s ++ [record_point name al b ig il]), h ++ [List.length (s_kids s)])).
Proof.
  intros P. unfold point_calls. set (a := at_least_or_1 al). set (c0 := new_coverpoint name None 1 SRC_OTHER). set (n := List.length (s_kids s)).
  apply (behaves_bind h s _ _ (Ok (add_child s c0, h ++ [n])) (fun s' p => Ok (put_kids s (s_kids s ++ [record_point name al b ig il]), p))).
  { intros d G. apply made_child; [assumption|reflexivity|]. cbn [act]. rewrite P. reflexivity. }
  intros s' p E. injection E as <- <-. change (add_child s c0) with (put_kids s (s_kids s ++ [c0])).
  pose (c1 := Scope (s_attrs c0) ([] ++ y_bins a CVGBIN b) [] []). pose (c2 := Scope (s_attrs c0) (s_items c1 ++ y_bins a IGNOREBIN ig) [] []).
  pose (c3 := Scope (s_attrs c0) (s_items c2 ++ y_bins a ILLEGALBIN il) [] []).
  assert (L : forall c c' kind bins, is_point (s_cls c) = true -> c' = Scope (s_attrs c) (s_items c ++ y_bins a kind bins) (s_iitems c) (s_kids c) ->
    behaves h (put_kids s (s_kids s ++ [c])) (bin_calls a kind (h ++ [n]) bins) (Ok (put_kids s (s_kids s ++ [c']), tt))).
  { intros c c' kind bins Q ->. pose proof (behaves_below h [n] _ c _ _ (get_last s (s_kids s) c) (bins_behave a kind (h ++ [n]) bins c Q)) as X.
    cbn [rbind] in X. unfold n in X. now rewrite upd_last in X. }
  apply (behaves_bind h _ _ _ (Ok (put_kids s (s_kids s ++ [c1]), tt)) (fun _ _ => Ok (put_kids s (s_kids s ++ [record_point name al b ig il]), h ++ [n]))); [now apply L|].
  intros ? ? E. injection E as <- <-.
  apply (behaves_bind h _ _ _ (Ok (put_kids s (s_kids s ++ [c2]), tt)) (fun _ _ => Ok (put_kids s (s_kids s ++ [record_point name al b ig il]), h ++ [n]))); [now apply L|].
  intros ? ? E. injection E as <- <-.
  apply (behaves_bind h _ _ _ (Ok (put_kids s (s_kids s ++ [c3]), tt)) (fun _ _ => Ok (put_kids s (s_kids s ++ [record_point name al b ig il]), h ++ [n]))); [now apply L|].
  intros ? ? E. injection E as <- <-. replace c3 with (record_point name al b ig il); [apply behaves_ret|].
  unfold record_point, c3, c2, c1. cbn [s_items]. fold a. now rewrite app_assoc.
Qed.

Lemma cross_runs d h s name al hs refs bins : get_at (db_root d) h = Some s -> is_cg (s_cls s) = true -> cross_refs (db_root d) hs = Ok refs ->
  runs d h (cross_calls h hs name al bins) (Ok (put_kids s (s_kids s ++ [record_cross name al refs bins]), h ++ [List.length (s_kids s)])).
Proof.
  intros G P R. unfold cross_calls. set (a := at_least_or_1 al). set (c0 := new_cross name None 1 SRC_OTHER refs). set (n := List.length (s_kids s)).
  apply (runs_bind d h s _ _ (Ok (add_child s c0, h ++ [n])) (fun s' p => Ok (put_kids s (s_kids s ++ [record_cross name al refs bins]), p))); [assumption| |].
  { apply made_child; [assumption|reflexivity|]. cbn [act]. rewrite R. cbn [rbind]. rewrite P. reflexivity. }
  intros s' p E. injection E as <- <-. change (add_child s c0) with (put_kids s (s_kids s ++ [c0])).
  pose proof (behaves_below h [n] _ c0 _ _ (get_last s (s_kids s) c0) (bins_behave a CVGBIN (h ++ [n]) bins c0 eq_refl)) as X.
  cbn [rbind] in X. unfold n in X. rewrite upd_last in X. fold n in X.
  apply (behaves_bind h _ _ _ _ (fun s' _ => Ok (s', h ++ [n])) X). intros ? ? E. injection E as <- <-. apply behaves_ret.
Qed.

(** ** The coverpoints a cross refers to *)
Definition known (g : handle) (s : scope) (m : dict handle) : Prop :=
  forall n p, dget n m = Some p -> exists rel c, p = g ++ rel /\ get_at s rel = Some c /\ s_name c = n.
Definition grows (s s' : scope) : Prop := forall rel c, get_at s rel = Some c -> exists c', get_at s' rel = Some c' /\ s_name c' = s_name c.
Lemma known_grows g s s' m : known g s m -> grows s s' -> known g s' m.
Proof. intros K G n p E. destruct (K n p E) as (rel & c & -> & C & N). destruct (G rel c C) as (c' & C' & N'). exists rel, c'. repeat split; congruence. Qed.
Lemma grows_refl s : grows s s.
Proof. intros rel c C. now exists c. Qed.
Lemma grows_trans a b c : grows a b -> grows b c -> grows a c.
Proof. intros F G rel x X. destruct (F rel x X) as (y & Y & N). destruct (G rel y Y) as (z & Z & M). exists z. split; congruence. Qed.
Lemma grows_kids s l : grows s (put_kids s (s_kids s ++ l)).
Proof.
  intros [|i t] c C; cbn in *; [injection C as <-; now eexists|]. destruct (nth_error (s_kids s) i) as [k|] eqn:E; [|discriminate].
  rewrite nth_error_app1 by (apply nth_error_Some; congruence). rewrite E. now exists c.
Qed.
Lemma grows_upd : forall rel s c c', get_at s rel = Some c -> grows c c' -> grows s (upd_at s rel (fun _ => c')).
Proof.
  induction rel as [|i rel IH]; intros s c c' C G; cbn in *; [injection C as ->; exact G|]. destruct (nth_error (s_kids s) i) as [k|] eqn:E; [|discriminate].
  intros [|j t] x X; cbn in *; [injection X as <-; now eexists|]. destruct (Nat.eq_dec i j) as [<-|N].
  - rewrite upd_nth_same, E. cbn. rewrite E in X. exact (IH k c c' C G t x X).
  - rewrite upd_nth_other by assumption. destruct (nth_error (s_kids s) j); [|discriminate]. now exists x.
Qed.

Lemma crossed_refs root g s m : get_at root g = Some s -> known g s m -> forall ns,
  match crossed m ns with
  | Ok hs => exists refs, y_resolve m ns = Ok refs /\ cross_refs root hs = Ok refs
  | Err e => y_resolve m ns = Err e
  end.
Proof.
  intros G K. unfold crossed, y_resolve, cross_refs. induction ns as [|n ns IH]; cbn [traverse]; [now exists []|].
  destruct (dget n m) as [p|] eqn:D; cbn [rbind]; [|reflexivity]. destruct (traverse _ ns) as [hs|e]; cbn [rbind].
  - destruct IH as (refs & -> & R). cbn [rbind]. exists (CpRef p n :: refs). split; [reflexivity|]. cbn [traverse]. destruct (K n p D) as (rel & c & -> & C & <-).
    unfold at_handle at 1. rewrite get_at_app, G, C. cbn [rbind]. now rewrite R.
  - now rewrite IH.
Qed.

(** ** The loops *)
Section Points.
  Context {P : Type} (nm : P -> string) (al : P -> option Z) (b ig il : P -> option (list ybin)).
  Definition a_point (p : P) : scope := record_point (nm p) (al p) (b p) (ig p) (il p).
  Lemma positions_cons h k n ns m : positions h k (n :: ns) m = positions h (S k) ns (dset n (h ++ [k]) m).
  Proof. reflexivity. Qed.
  Lemma points_behave h : forall l s m, is_cg (s_cls s) = true ->
    behaves h s (sfold (fun m p => x <- point_calls h (nm p) (al p) (b p) (ig p) (il p) ;; sret (dset (nm p) x m)) l m)
      (Ok (put_kids s (s_kids s ++ map a_point l), positions h (List.length (s_kids s)) (map nm l) m)).
  Proof.
    induction l as [|p l IH]; intros s m C; cbn [sfold map].
    - rewrite app_nil_r, put_kids_same. apply behaves_ret.
    - rewrite positions_cons. set (s1 := put_kids s (s_kids s ++ [a_point p])).
      apply (behaves_bind h s _ _ (Ok (s1, dset (nm p) (h ++ [List.length (s_kids s)]) m))
        (fun _ _ => Ok (put_kids s (s_kids s ++ a_point p :: map a_point l), positions h (S (List.length (s_kids s))) (map nm l) (dset (nm p) (h ++ [List.length (s_kids s)]) m)))).
      + apply (behaves_bind h s _ _ _ (fun s' x => Ok (s', dset (nm p) x m)) (point_behaves h s (nm p) (al p) (b p) (ig p) (il p) C)).
        intros s' x E. injection E as <- <-. apply behaves_ret.
      + intros s' m' E. injection E as <- <-. specialize (IH s1 (dset (nm p) (h ++ [List.length (s_kids s)]) m) C). unfold s1 in IH at 2 3 4. cbn [put_kids s_kids s_attrs s_items s_iitems] in IH.
        rewrite app_length, <- app_assoc in IH. cbn [List.length app] in IH. rewrite Nat.add_1_r in IH. exact IH.
  Qed.
  Lemma known_positions g rel s : forall l k m, known g s m ->
    (forall i p, nth_error l i = Some p -> exists c, get_at s (rel ++ [k + i]) = Some c /\ s_name c = nm p) ->
    known g s (positions (g ++ rel) k (map nm l) m).
  Proof.
    induction l as [|p l IH]; intros k m K H; cbn [map]; [exact K|]. rewrite positions_cons. apply IH.
    - intros n q D. destruct (String.eqb_spec n (nm p)) as [->|E].
      + rewrite dget_dset_same in D. injection D as <-. destruct (H 0 p eq_refl) as (c & C & N). rewrite Nat.add_0_r in C.
        exists (rel ++ [k]), c. rewrite app_assoc. auto.
      + rewrite dget_dset_other in D by assumption. now apply K.
    - intros i q Q. destruct (H (S i) q Q) as (c & C & N). exists c. now rewrite Nat.add_succ_l, <- Nat.add_succ_r.
  Qed.
End Points.

Section Crosses.
  Context {C : Type} (nm : C -> string) (al : C -> option Z) (bs : C -> option (list ybin)) (ns : C -> res (list string)).
  Lemma crosses_behave g rel m : forall l s c, get_at s rel = Some c -> is_cg (s_cls c) = true -> known g s m ->
    behaves g s (sfor (fun x => points <- slift (let* n := ns x in crossed m n) ;; cross_calls (g ++ rel) points (nm x) (al x) (bs x) ;;; sret tt) l)
      (let* cs := traverse (fun x => let* n := ns x in let* refs := y_resolve m n in Ok (record_cross (nm x) (al x) refs (bs x))) l in
       Ok (upd_at s rel (fun _ => put_kids c (s_kids c ++ cs)), tt)).
  Proof.
    induction l as [|x l IH]; intros s c G P K; cbn [sfor traverse].
    - cbn [rbind]. rewrite app_nil_r, put_kids_same. rewrite upd_at_id by assumption. apply behaves_ret.
    - set (body := fun x => points <- slift (let* n := ns x in crossed m n) ;; cross_calls (g ++ rel) points (nm x) (al x) (bs x) ;;; sret tt) in *.
      lazymatch goal with |- behaves _ _ _ ?X => change (behaves g s (sbind (body x) (fun _ => sfor body l)) X) end.
      intros d GD. pose proof (fun n => crossed_refs (db_root d) g s m GD K n) as R.
      assert (F : forall e, (let* n := ns x in crossed m n) = Err e -> exists s', sbind (body x) (fun _ => sfor body l) d = (put d g s', Err e)).
      { intros e E. exists s. unfold sbind at 1. unfold body at 1. unfold sbind, slift. rewrite E. now rewrite put_id. }
      destruct (ns x) as [n|e] eqn:EN; cbn [rbind] in *; [|now apply F]. specialize (R n). destruct (crossed m n) as [hs|e] eqn:EH; [|rewrite R; cbn [rbind]; now apply F].
      destruct R as (refs & -> & R). cbn [rbind]. set (c1 := put_kids c (s_kids c ++ [record_cross (nm x) (al x) refs (bs x)])).
      assert (G1 : get_at (db_root d) (g ++ rel) = Some c) by now rewrite get_at_app, GD.
      pose proof (runs_below d g rel s c _ _ GD G (cross_runs d (g ++ rel) c (nm x) (al x) hs refs (bs x) G1 P R)) as X. cbn [rbind runs] in X. fold c1 in X.
      assert (GC : get_at (upd_at s rel (fun _ => c1)) rel = Some c1) by now apply (get_upd rel s c).
      assert (K1 : known g (upd_at s rel (fun _ => c1)) m).
      { apply (known_grows g s); [assumption|]. apply (grows_upd rel s c c1 G). apply grows_kids. }
      specialize (IH _ c1 GC P K1).
      assert (Y : runs d g (sbind (body x) (fun _ => sfor body l))
        (let* cs := traverse (fun x => let* n := ns x in let* refs := y_resolve m n in Ok (record_cross (nm x) (al x) refs (bs x))) l in
         Ok (upd_at (upd_at s rel (fun _ => c1)) rel (fun _ => put_kids c1 (s_kids c1 ++ cs)), tt))).
      { apply (runs_bind d g s (body x) _ (Ok (upd_at s rel (fun _ => c1), tt)) (fun s' _ => let* cs := _ in Ok (upd_at s' rel (fun _ => put_kids c1 (s_kids c1 ++ cs)), tt))); [assumption| |].
        - cbn [runs]. unfold body, sbind, slift. rewrite EN. cbn [rbind]. rewrite EH. rewrite X. reflexivity.
        - intros s' u E. injection E as <- _. exact IH. }
      destruct (traverse _ l) as [cs|e]; cbn [rbind] in *; [|exact Y]. rewrite upd_upd in Y. unfold c1, put_kids in Y. cbn [s_kids s_attrs s_items s_iitems] in Y. rewrite <- app_assoc in Y. exact Y.
  Qed.
End Crosses.

(** ** Covergroup instances *)
Lemma known_kids g s l m : known g s m -> known g (put_kids s (s_kids s ++ l)) m.
Proof. intros K. apply (known_grows g s); [assumption|apply grows_kids]. Qed.

Lemma inst_behaves g s w m i : is_cg (s_cls s) = true -> known g s m ->
  behaves g s (inst_calls g w m i) (let* (m', kids) := record_inst g w (m, s_kids s) i in Ok (put_kids s kids, m')) /\
  (forall m' kids, record_inst g w (m, s_kids s) i = Ok (m', kids) -> known g (put_kids s kids) m').
Proof.
  intros P K. unfold inst_calls, record_inst. set (k := List.length (s_kids s)). set (points := opt_list (yi_points i)).
  set (c0 := new_coverinstance (yi_name i) None w SRC_OTHER). set (s0 := put_kids s (s_kids s ++ [c0])).
  pose (ps := map (fun p => record_point (yp_name p) (yp_atleast p) (yp_bins p) (yp_ignore p) (yp_illegal p)) points).
  pose (c1 := put_kids c0 ps). pose (s1 := put_kids s (s_kids s ++ [c1])). pose (m1 := positions (g ++ [k]) 0 (map yp_name points) m).
  assert (G0 : get_at s0 [k] = Some c0) by apply get_last. assert (G1 : get_at s1 [k] = Some c1) by apply get_last.
  assert (U0 : forall c, upd_at s0 [k] (fun _ => c) = put_kids s (s_kids s ++ [c])) by (intros c; apply upd_last).
  assert (U1 : forall c, upd_at s1 [k] (fun _ => c) = put_kids s (s_kids s ++ [c])) by (intros c; apply upd_last).
  assert (K1 : known g s1 m1).
  { unfold m1. apply known_positions.
    - unfold s1. now apply known_kids.
    - intros j p E. cbn [Nat.add app]. cbn [get_at]. cbn [get_at] in G1. destruct (nth_error (s_kids s1) k) as [x|]; [|discriminate]. injection G1 as ->.
      unfold c1. cbn [put_kids s_kids]. unfold ps. rewrite (map_nth_error _ _ _ E). eexists. split; reflexivity. }
  pose (cs := traverse (fun c => let* n := match yc_points c with Some ns => Ok ns | None => Err TypeError end in
                                 let* refs := y_resolve m1 n in Ok (record_cross (yc_name c) (yc_atleast c) refs (yc_bins c))) (opt_list (yi_crosses i))).
  assert (E : (let* crosses := cs in Ok (put_kids s (s_kids s ++ [put_kids c0 (ps ++ crosses)]), m1)) =
    (let* (m', kids) := (let* crosses := cs in Ok (m1, s_kids s ++ [Scope (s_attrs c0) [] [] (ps ++ crosses)])) in Ok (put_kids s kids, m'))) by now destruct cs.
  split.
  - change (behaves g s (inst_calls g w m i) (let* (m', kids) := (let* crosses := cs in Ok (m1, s_kids s ++ [Scope (s_attrs c0) [] [] (ps ++ crosses)])) in Ok (put_kids s kids, m'))).
    rewrite <- E. unfold inst_calls.
    apply (behaves_bind g s _ _ (Ok (s0, g ++ [k])) (fun _ _ => let* crosses := cs in Ok (put_kids s (s_kids s ++ [put_kids c0 (ps ++ crosses)]), m1))).
    { intros d G. apply made_child; [assumption|reflexivity|]. cbn [act]. unfold is_cg in P. destruct (s_cls s); try discriminate. reflexivity. }
    intros ? ? Q. injection Q as <- <-.
    pose proof (behaves_below g [k] s0 c0 _ _ G0 (points_behave yp_name yp_atleast yp_bins yp_ignore yp_illegal (g ++ [k]) points c0 m eq_refl)) as X. cbn [rbind] in X. rewrite U0 in X.
    apply (behaves_bind g s0 _ _ (Ok (s1, m1)) (fun _ _ => let* crosses := cs in Ok (put_kids s (s_kids s ++ [put_kids c0 (ps ++ crosses)]), m1)) X).
    intros ? ? Q. injection Q as <- <-.
    pose proof (crosses_behave yc_name yc_atleast yc_bins (fun c => match yc_points c with Some ns => Ok ns | None => Err TypeError end) g [k] m1 (opt_list (yi_crosses i)) s1 c1 G1 eq_refl K1) as Y.
    fold cs in Y.
    assert (Z : behaves g s1 (sfor (fun c => points <- slift (let* ns := match yc_points c with Some ns => Ok ns | None => Err TypeError end in crossed m1 ns) ;;
                 cross_calls (g ++ [k]) points (yc_name c) (yc_atleast c) (yc_bins c) ;;; sret tt) (opt_list (yi_crosses i)) ;;; sret m1)
      (let* (s', u) := (let* cs := cs in Ok (upd_at s1 [k] (fun _ => put_kids c1 (s_kids c1 ++ cs)), tt)) in Ok (s', m1))).
    { apply (behaves_bind g s1 _ _ _ (fun s' _ => Ok (s', m1)) Y). intros s' u _. apply behaves_ret. }
    destruct cs as [crosses|e]; cbn [rbind] in *; [|exact Z]. rewrite U1 in Z. exact Z.
  - intros m' kids. change (rbind cs (fun crosses => Ok (m1, s_kids s ++ [Scope (s_attrs c0) [] [] (ps ++ crosses)])) = Ok (m', kids) -> known g (put_kids s kids) m').
    intros H. apply rbind_ok in H as (crosses & _ & H). injection H as <- <-. apply (known_grows g s1); [exact K1|].
    pose proof (grows_upd [k] s1 c1 (put_kids c1 (s_kids c1 ++ crosses)) G1 (grows_kids c1 crosses)) as Q. rewrite U1 in Q. exact Q.
Qed.

Lemma insts_behave g w : forall is s m, is_cg (s_cls s) = true -> known g s m ->
  behaves g s (sfold (inst_calls g w) is m) (let* (m', kids) := fold_res (record_inst g w) is (m, s_kids s) in Ok (put_kids s kids, m')).
Proof.
  induction is as [|i is IH]; intros s m P K; cbn [sfold fold_res].
  - cbn [rbind]. rewrite put_kids_same. apply behaves_ret.
  - destruct (inst_behaves g s w m i P K) as [X Y]. destruct (record_inst g w (m, s_kids s) i) as [[m1 kids]|e]; cbn [rbind] in *.
    + apply (behaves_bind g s _ _ (Ok (put_kids s kids, m1)) (fun s' m' => let* (m2, ks) := fold_res (record_inst g w) is (m', s_kids s') in Ok (put_kids s ks, m2)) X).
      intros ? ? Q. injection Q as <- <-. exact (IH (put_kids s kids) m1 P (Y m1 kids eq_refl)).
    + intros d G. destruct (X d G) as (s' & E). exists s'. unfold sbind. now rewrite E.
Qed.

(** ** Covergroups *)
Lemma group_behaves h s g : behaves h s (group_calls h g) (let* c := process_covergroup (h ++ [List.length (s_kids s)]) g in Ok (put_kids s (s_kids s ++ [c]), tt)).
Proof.
  unfold group_calls, process_covergroup. set (w := match yg_weight g with Some w => w | None => 1%Z end). set (k := List.length (s_kids s)).
  destruct (fold_res type_inst (opt_list (yg_insts g)) ([], [])) as [[tps tcs]|e] eqn:ET; cbn [rbind].
  2:{ intros d G. exists s. unfold sbind, slift. now rewrite put_id. }
  set (c0 := new_covergroup (yg_name g) None w SRC_OTHER). set (s0 := put_kids s (s_kids s ++ [c0])).
  set (m := positions (h ++ [k]) 0 (dkeys tps) []). set (c1 := put_kids c0 (type_point_scopes tps)).
  pose (tcr := type_cross_scopes m tcs).
  pose (rest := fun kids => match yg_insts g with None => Err TypeError | Some is => let* (m', ks) := fold_res (record_inst (h ++ [k]) w) is ([], kids) in Ok (put_kids c0 ks) end).
  assert (B : behaves (h ++ [k]) c0 (
      m <- sfold (fun m (p : string * tpoint) =>
                h <- point_calls (h ++ [k]) (fst p) None (t_bins (snd p)) (t_ignore (snd p)) (t_illegal (snd p)) ;;
                sret (dset (fst p) h m)) tps [] ;;
      sfor (fun c : string * tcross =>
          points <- slift (crossed m (tc_points (snd c))) ;;
          cross_calls (h ++ [k]) points (fst c) None (tc_bins (snd c)) ;;; sret tt) tcs ;;;
      match yg_insts g with
      | None => sraise TypeError
      | Some is => sfold (inst_calls (h ++ [k]) w) is [] ;;; sret tt
      end) (let* x := tcr in let* c := rest (type_point_scopes tps ++ x) in Ok (c, tt))).
  { apply (behaves_bind (h ++ [k]) c0 _ _ (Ok (c1, m)) (fun _ _ => let* x := tcr in let* c := rest (type_point_scopes tps ++ x) in Ok (c, tt))).
    { exact (points_behave (fun p : string * tpoint => fst p) (fun _ => None) (fun p => t_bins (snd p)) (fun p => t_ignore (snd p)) (fun p => t_illegal (snd p)) (h ++ [k]) tps c0 [] eq_refl). }
    intros ? ? Q. injection Q as <- <-.
    assert (K : known (h ++ [k]) c1 m).
    { unfold m, dkeys. rewrite <- (app_nil_r (h ++ [k])) at 2. apply (known_positions (fun p : string * tpoint => fst p) (h ++ [k]) []).
      - intros n p D. discriminate.
      - intros j p E. cbn [app Nat.add get_at]. unfold c1, type_point_scopes. cbn [put_kids s_kids]. rewrite (map_nth_error _ _ _ E). eexists. split; reflexivity. }
    pose proof (crosses_behave (fun c : string * tcross => fst c) (fun _ => None) (fun c => tc_bins (snd c)) (fun c => Ok (tc_points (snd c))) (h ++ [k]) [] m tcs c1 c1 eq_refl eq_refl K) as X.
    rewrite app_nil_r in X. change (traverse _ tcs) with tcr in X. cbn [rbind] in X.
    pose (after := fun x => put_kids c0 (type_point_scopes tps ++ x)).
    change (behaves (h ++ [k]) c1 (sfor (fun c : string * tcross => points <- slift (crossed m (tc_points (snd c))) ;; cross_calls (h ++ [k]) points (fst c) None (tc_bins (snd c)) ;;; sret tt) tcs)
      (let* x := tcr in Ok (after x, tt))) in X.
    destruct tcr as [x|e]; cbn [rbind] in *.
    - apply (behaves_bind (h ++ [k]) c1 _ _ (Ok (after x, tt)) (fun _ _ => let* c := rest (type_point_scopes tps ++ x) in Ok (c, tt)) X).
      intros ? ? Q. injection Q as <- <-. unfold rest. destruct (yg_insts g) as [is|]; cbn [rbind]; [|apply behaves_raise].
      pose proof (insts_behave (h ++ [k]) w is (after x) [] eq_refl) as Y. specialize (Y ltac:(intros n p D; discriminate)). unfold after in Y at 2. cbn [put_kids s_kids] in Y.
      destruct (fold_res (record_inst (h ++ [k]) w) is _) as [[m' ks]|e]; cbn [rbind] in *.
      + apply (behaves_bind (h ++ [k]) (after x) _ _ _ (fun s' _ => Ok (s', tt)) Y). intros s' u _. apply behaves_ret.
      + intros d G. destruct (Y d G) as (s' & E). exists s'. unfold sbind. now rewrite E.
    - intros d G. destruct (X d G) as (s' & E). exists s'. unfold sbind at 1. now rewrite E. }
  assert (R : (let* x := tcr in match yg_insts g with None => Err TypeError | Some is =>
      let* (_, kids) := fold_res (record_inst (h ++ [k]) w) is ([], type_point_scopes tps ++ x) in Ok (Scope (s_attrs c0) [] [] kids) end) =
      (let* x := tcr in rest (type_point_scopes tps ++ x))).
  { destruct tcr; cbn [rbind]; [|reflexivity]. unfold rest. destruct (yg_insts g); reflexivity. }
  change (behaves h s (sbind (slift (Ok (tps, tcs))) (fun types => group <- made (CreateCovergroup h (yg_name g) None w SRC_OTHER) ;;
    m <- sfold (fun m (p : string * tpoint) =>
                h <- point_calls group (fst p) None (t_bins (snd p)) (t_ignore (snd p)) (t_illegal (snd p)) ;;
                sret (dset (fst p) h m)) (fst types) [] ;;
    sfor (fun c : string * tcross =>
          points <- slift (crossed m (tc_points (snd c))) ;;
          cross_calls group points (fst c) None (tc_bins (snd c)) ;;; sret tt) (snd types) ;;;
    match yg_insts g with
    | None => sraise TypeError
    | Some is => sfold (inst_calls group w) is [] ;;; sret tt
    end)) (let* c := (let* x := tcr in match yg_insts g with None => Err TypeError | Some is =>
      let* (_, kids) := fold_res (record_inst (h ++ [k]) w) is ([], type_point_scopes tps ++ x) in Ok (Scope (s_attrs c0) [] [] kids) end) in Ok (put_kids s (s_kids s ++ [c]), tt))).
  rewrite R. apply (behaves_lift h s (Ok (tps, tcs)) _ (fun _ => let* c := (let* x := tcr in rest (type_point_scopes tps ++ x)) in Ok (put_kids s (s_kids s ++ [c]), tt))).
  intros a Q. injection Q as <-. cbn [fst snd].
  apply (behaves_bind h s _ _ (Ok (s0, h ++ [k])) (fun _ _ => let* c := (let* x := tcr in rest (type_point_scopes tps ++ x)) in Ok (put_kids s (s_kids s ++ [c]), tt))).
  { intros d G. apply made_child; [assumption|reflexivity|]. reflexivity. }
  intros ? ? Q. injection Q as <- <-. pose proof (behaves_below h [k] s0 c0 _ _ (get_last s (s_kids s) c0) B) as X.
  destruct tcr as [x|e]; cbn [rbind] in *; [|exact X]. destruct (rest _) as [c|e]; cbn [rbind] in *; [|exact X]. unfold s0, k in X. rewrite upd_last in X. exact X.
Qed.

Lemma groups_behave h : forall gs s, behaves h s (sfor (group_calls h) gs)
  (let* cgs := fold_res (fun cgs g => let* c := process_covergroup (h ++ [List.length cgs]) g in Ok (cgs ++ [c])) gs (s_kids s) in Ok (put_kids s cgs, tt)).
Proof.
  induction gs as [|g gs IH]; intros s; cbn [sfor fold_res].
  - cbn [rbind]. rewrite put_kids_same. apply behaves_ret.
  - pose proof (group_behaves h s g) as X. destruct (process_covergroup _ g) as [c|e]; cbn [rbind] in *.
    + apply (behaves_bind h s _ _ (Ok (put_kids s (s_kids s ++ [c]), tt)) (fun s' _ => let* cgs := fold_res _ gs (s_kids s') in Ok (put_kids s cgs, tt)) X).
      intros ? ? Q. injection Q as <- <-. exact (IH (put_kids s (s_kids s ++ [c]))).
    + intros d G. destruct (X d G) as (s' & E). exists s'. unfold sbind. now rewrite E.
Qed.

Lemma doc_same : forall doc, match build doc with Ok d => doc_calls doc empty_db = (d, Ok tt) | Err e => exists d, doc_calls doc empty_db = (d, Err e) end.
Proof.
  intros doc. unfold doc_calls, build.
  set (d0 := Db (Scope (s_attrs (db_root empty_db)) [] [] [new_mem_scope "du" None 1 SRC_OTHER DU_MODULE DU_FLAGS; new_instance "cg_inst" None 1 SRC_OTHER INSTANCE (Some [0]) INST_ONCE]) [] []).
  assert (E : forall A (k : handle -> ST db A), (du <- made (CreateScope [] "du" None 1 SRC_OTHER DU_MODULE DU_FLAGS) ;;
    inst <- made (CreateInstance [] "cg_inst" None 1 SRC_OTHER INSTANCE (Some du) INST_ONCE) ;; k inst) empty_db = k [1] d0) by reflexivity.
  rewrite E. clear E. destruct doc as [groups|]; [|now eexists].
  pose proof (groups_behave [1] (opt_list groups) (new_instance "cg_inst" None 1 SRC_OTHER INSTANCE (Some [0]) INST_ONCE) d0 eq_refl) as X. cbn [s_kids new_instance new_scope app] in X.
  destruct (fold_res _ _ _) as [cgs|e]; cbn [rbind runs] in *; [exact X|]. destruct X as (s & ->). now eexists.
Qed.
