(** The two back ends: C93. *)
From Verif Require Import Base Consts Db Hist Api ApiSpec ApiFacts Lib P_Lib LibBuild LibBuildSpec P_LibBuild
  LibSameSpec.
Local Open Scope Z_scope.

Lemma F2_impl : forall A B (P Q : A -> B -> Prop) l l',
  (forall x y, P x y -> Q x y) -> Forall2 P l l' -> Forall2 Q l l'.
Proof. intros A B P Q l l' H F. induction F; constructor; auto. Qed.
Arguments F2_impl {A B P Q l l'} _ _.
Lemma NoDup_app_snoc : forall A (l : list A) x, NoDup l -> ~ In x l -> NoDup (l ++ [x]).
Proof.
  intros A l x N. induction N as [|y l H N IH]; intros I; cbn; [repeat constructor; auto|].
  constructor; [|apply IH; intros D; apply I; right; exact D].
  rewrite in_app_iff. intros [D|[->|[]]]; [exact (H D)|]. apply I. left. reflexivity.
Qed.

(** ** The tree in the library *)
Lemma obj_eqb_iff : forall a b, obj_eqb a b = true <-> a = b.
Proof. intros a b. split; [apply obj_eqb_true|]. intros ->. apply obj_eqb_refl. Qed.

Lemma from_app : forall L p o q,
  from L o (p ++ q) = match from L o p with Some o' => from L o' q | None => None end.
Proof.
  intros L p. induction p as [|k p IH]; intros o q; cbn; [reflexivity|].
  destruct (nth_error (lib_kids L o) k); [apply IH|reflexivity].
Qed.
Lemma at_path_snoc : forall L p k,
  at_path L (p ++ [k]) =
  match at_path L p with Some o => option_map Some (nth_error (lib_kids L o) k) | None => None end.
Proof.
  intros L p k. unfold at_path. rewrite from_app. destruct (from L None p) as [o|]; [|reflexivity].
  cbn. destruct (nth_error (lib_kids L o) k); reflexivity.
Qed.

Lemma kids_parent : forall L o i,
  In i (lib_kids L o) <-> exists m, nth_error (lb_made L) i = Some m /\ parent_of m = Some o.
Proof.
  intros L o i. unfold lib_kids. rewrite filter_In, in_seq. unfold is_child. split.
  - intros [_ H]. destruct (nth_error (lb_made L) i) as [m|]; [|discriminate]. exists m. split; [reflexivity|].
    destruct (parent_of m) as [p|]; [|discriminate]. apply obj_eqb_iff in H. congruence.
  - intros (m & E & P). rewrite E, P, obj_eqb_refl. split; [|reflexivity].
    assert (i < List.length (lb_made L))%nat by (apply nth_error_Some; congruence). lia.
Qed.
Lemma kids_nodup : forall L o, NoDup (lib_kids L o).
Proof. intros L o. apply NoDup_filter, seq_NoDup. Qed.

Lemma at_path_inj : forall L p q o, at_path L p = Some o -> at_path L q = Some o -> p = q.
Proof.
  intros L p. induction p as [|k p IH] using rev_ind; intros q o Hp Hq.
  - injection Hp as <-. destruct q as [|j q] using rev_ind; [reflexivity|]. rewrite at_path_snoc in Hq.
    destruct (at_path L q) as [o'|]; [|discriminate]. destruct (nth_error (lib_kids L o') j); discriminate.
  - rewrite at_path_snoc in Hp. destruct (at_path L p) as [op|] eqn:Ep; [|discriminate].
    destruct (nth_error (lib_kids L op) k) as [i|] eqn:Ek; [|discriminate]. injection Hp as <-.
    destruct q as [|j q _] using rev_ind; [discriminate|]. rewrite at_path_snoc in Hq.
    destruct (at_path L q) as [oq|] eqn:Eq; [|discriminate].
    destruct (nth_error (lib_kids L oq) j) as [i'|] eqn:Ej; [|discriminate]. injection Hq as ->.
    pose proof (proj1 (kids_parent _ _ _) (nth_error_In _ _ Ek)) as (m & M & P).
    pose proof (proj1 (kids_parent _ _ _) (nth_error_In _ _ Ej)) as (m' & M' & P').
    assert (op = oq) by congruence. subst oq. rewrite (IH q op eq_refl Eq). f_equal. f_equal.
    apply (proj1 (NoDup_nth_error (lib_kids L op)) (kids_nodup L op)); [|congruence].
    apply nth_error_Some. congruence.
Qed.

(** Adding something that was made. *)
Lemma kids_add : forall L L' m o,
  lb_made L' = lb_made L ++ [m] ->
  lib_kids L' o = lib_kids L o ++ (match parent_of m with
                                   | Some p => if obj_eqb p o then [List.length (lb_made L)] else []
                                   | None => []
                                   end).
Proof.
  intros L L' m o E. unfold lib_kids. rewrite E, app_length. cbn [List.length].
  rewrite Nat.add_1_r, seq_S, filter_app. cbn [filter Nat.add]. f_equal.
  - apply filter_ext_in. intros i Hi. apply in_seq in Hi. unfold is_child. rewrite E, nth_error_app1 by lia. reflexivity.
  - unfold is_child. rewrite E, nth_error_app2, Nat.sub_diag by lia. cbn.
    destruct (parent_of m) as [p|]; [|reflexivity]. destruct (obj_eqb p o); reflexivity.
Qed.

Definition ordered (L : library) : Prop :=
  forall i m p, nth_error (lb_made L) i = Some m -> parent_of m = Some (Some p) -> (p < i)%nat.

Lemma kids_beyond : forall L i, ordered L -> (List.length (lb_made L) <= i)%nat -> lib_kids L (Some i) = [].
Proof.
  intros L i O H. destruct (lib_kids L (Some i)) as [|j l] eqn:E; [reflexivity|]. exfalso.
  assert (In j (lib_kids L (Some i))) as I by (rewrite E; left; reflexivity).
  apply kids_parent in I. destruct I as (m & M & P). pose proof (O _ _ _ M P).
  assert (j < List.length (lb_made L))%nat by (apply nth_error_Some; congruence). lia.
Qed.

Lemma at_path_below : forall L p i, at_path L p = Some (Some i) -> (i < List.length (lb_made L))%nat.
Proof.
  intros L p i H. destruct p as [|k p _] using rev_ind; [discriminate|]. rewrite at_path_snoc in H.
  destruct (at_path L p) as [o|]; [|discriminate].
  destruct (nth_error (lib_kids L o) k) as [j|] eqn:E; [|discriminate]. injection H as ->.
  apply nth_error_In, kids_parent in E. destruct E as (m & E & _). apply nth_error_Some. congruence.
Qed.

Lemma at_path_same : forall L L', lb_made L' = lb_made L -> forall p, at_path L' p = at_path L p.
Proof.
  intros L L' E p. assert (K : forall o, lib_kids L' o = lib_kids L o).
  { intros o. unfold lib_kids, is_child. rewrite E. reflexivity. }
  unfold at_path. generalize (@None nat). induction p as [|k p IH]; intros o; cbn; [reflexivity|].
  rewrite K. destruct (nth_error (lib_kids L o) k); [apply IH|reflexivity].
Qed.

Lemma at_path_other : forall L L' m, lb_made L' = lb_made L ++ [m] -> parent_of m = None ->
  forall p, at_path L' p = at_path L p.
Proof.
  intros L L' m E N p. assert (K : forall o, lib_kids L' o = lib_kids L o).
  { intros o. rewrite (kids_add L L' m o E), N, app_nil_r. reflexivity. }
  unfold at_path. generalize (@None nat). induction p as [|k p IH]; intros o; cbn; [reflexivity|].
  rewrite K. destruct (nth_error (lib_kids L o) k); [apply IH|reflexivity].
Qed.

Lemma at_path_add : forall L L' m o h,
  ordered L -> lb_made L' = lb_made L ++ [m] -> parent_of m = Some o -> at_path L h = Some o ->
  let new := h ++ [List.length (lib_kids L o)] in
  at_path L' new = Some (Some (List.length (lb_made L))) /\
  at_path L new = None /\
  forall p, p <> new -> at_path L' p = at_path L p.
Proof.
  intros L L' m o h O E P H new.
  assert (N : at_path L new = None).
  { unfold new. rewrite at_path_snoc, H. replace (nth_error (lib_kids L o) (List.length (lib_kids L o))) with (@None nat); [reflexivity|].
    symmetry. apply nth_error_None. lia. }
  assert (K : forall o', lib_kids L' o' = lib_kids L o' ++ (if obj_eqb o o' then [List.length (lb_made L)] else [])).
  { intros o'. rewrite (kids_add L L' m o' E), P. reflexivity. }
  assert (O' : obj_eqb o (Some (List.length (lb_made L))) = false).
  { destruct (obj_eqb o _) eqn:Eo; [|reflexivity]. apply obj_eqb_iff in Eo. subst o. apply at_path_below in H. lia. }
  assert (Main : forall p, (p = new -> at_path L' p = Some (Some (List.length (lb_made L)))) /\
                           (p <> new -> at_path L' p = at_path L p)).
  { intros p. induction p as [|j p [IH1 IH2]] using rev_ind.
    - split; [intros D; unfold new in D; destruct h; discriminate|reflexivity].
    - rewrite !at_path_snoc. split.
      + intros D. unfold new in D. apply app_inj_tail in D. destruct D as [-> ->].
        rewrite IH2 by (intros D; unfold new in D; apply (f_equal (@List.length _)) in D; rewrite app_length in D; cbn in D; lia).
        rewrite H, K, obj_eqb_refl, nth_error_app2, Nat.sub_diag by lia. reflexivity.
      + intros D. destruct (list_eq_dec Nat.eq_dec p new) as [->|Np].
        * rewrite (IH1 eq_refl), N, K, O', (kids_beyond L _ O (le_n _)). cbn. destruct j; reflexivity.
        * rewrite (IH2 Np). destruct (at_path L p) as [o'|] eqn:Ep; [|reflexivity]. rewrite K.
          destruct (obj_eqb o o') eqn:Eo; [|rewrite app_nil_r; reflexivity].
          apply obj_eqb_iff in Eo. subst o'. pose proof (at_path_inj _ _ _ _ Ep H) as ->.
          assert (j <> List.length (lib_kids L o)) by (intros ->; apply D; reflexivity).
          destruct (Nat.lt_ge_cases j (List.length (lib_kids L o))).
          { rewrite nth_error_app1 by assumption. reflexivity. }
          rewrite nth_error_app2 by assumption.
          rewrite (proj2 (nth_error_None (lib_kids L o) j)) by assumption.
          destruct (j - List.length (lib_kids L o))%nat as [|[|x]] eqn:X; [lia| |]; reflexivity. }
  split; [apply (Main new); reflexivity|]. split; [exact N|]. intros p. apply (Main p).
Qed.

(** ** Later states agree on what was there *)
Definition extends (L L' : library) : Prop :=
  (forall i m, nth_error (lb_made L) i = Some m -> nth_error (lb_made L') i = Some m) /\
  (forall p o, at_path L p = Some o -> at_path L' p = Some o).

Lemma same_loc_ext : forall L L' s l, extends L L' -> same_loc L s l -> same_loc L' s l.
Proof. intros L L' s l [E _] (i & n & wd & A & B & C). exists i, n, wd. auto. Qed.
Lemma same_src_ext : forall L L' s l, extends L L' -> same_src L s l -> same_src L' s l.
Proof. intros L L' s [l|] E H; [|exact H]. exact (same_loc_ext L L' s l E H). Qed.
Lemma same_opt_src_ext : forall L L' s l, extends L L' -> same_opt_src L s l -> same_opt_src L' s l.
Proof. intros L L' [s|] [l|] E H; try exact H. exact (same_loc_ext L L' s l E H). Qed.
Lemma same_scope_ext : forall L L' a m, extends L L' -> same_scope L a m -> same_scope L' a m.
Proof.
  intros L L' a m E H. destruct m; cbn in *; try contradiction.
  - destruct H as (A & B & C). split; [exact A|]. split; [apply (same_src_ext L); assumption|exact C].
  - destruct H as (A & B & C1 & C2 & C3 & C4 & u & U1 & U2). split; [exact A|].
    split; [apply (same_src_ext L); assumption|]. do 4 (split; [assumption|]). exists u. split; [exact U1|].
    apply E, U2.
  - destruct H as (A & B & C1 & C2 & C3 & C4 & l & U1 & U2). split; [exact A|].
    split; [apply (same_src_ext L); assumption|]. do 4 (split; [assumption|]). exists l. split; [exact U1|].
    revert U2. apply F2_impl. intros x y X. apply E, X.
Qed.
Lemma same_cover_ext : forall L L' i c, extends L L' -> same_cover L i c -> same_cover L' i c.
Proof.
  intros L L' [[n d] s] c E (A & B & C). split; [exact A|]. split; [|exact C]. apply (same_opt_src_ext L); assumption.
Qed.

(** ** The relation between the two sides *)
Record sim (st : mem_side) (st' : lib_side) : Prop := Sim {
  sim_tree : same_tree (m_db st) (l_lib st');
  sim_hist : same_history (m_db st) (l_lib st');
  sim_objs : same_objects (m_db st) (m_objs st) (l_lib st') (l_objs st');
  sim_files : Forall2 (fun i f => exists name j wd, nth_error (db_files (m_db st)) i = Some name /\
                         f_fh f = Some j /\ nth_error (lb_made (l_lib st')) j = Some (MFile name wd))
                      (m_files st) (l_files st');
  sim_order : ordered (l_lib st');
  sim_parents : Forall (fun c => match lc_parent c with Some p => (p < List.length (lb_made (l_lib st')))%nat | None => True end)
                       (lb_covers (l_lib st'));
  sim_items : forall h n, view (m_db st) h = Some n ->
     if is_inst (a_cls (n_attrs n)) then n_items n = [] else n_iitems n = [];
  sim_nodup : NoDup (m_objs st) }.

Lemma extends_made : forall L L' m, lb_made L' = lb_made L ++ [m] ->
  (forall p o, at_path L p = Some o -> at_path L' p = Some o) -> extends L L'.
Proof.
  intros L L' m E H. split; [|exact H]. intros i x X. rewrite E, nth_error_app1; [exact X|].
  apply nth_error_Some. congruence.
Qed.

Lemma ordered_add : forall L L' m, lb_made L' = lb_made L ++ [m] ->
  (forall p, parent_of m = Some (Some p) -> (p < List.length (lb_made L))%nat) -> ordered L -> ordered L'.
Proof.
  intros L L' m E H O i x p X P. rewrite E in X.
  destruct (Nat.lt_ge_cases i (List.length (lb_made L))) as [I|I].
  - rewrite nth_error_app1 in X by exact I. exact (O _ _ _ X P).
  - rewrite nth_error_app2 in X by exact I.
    destruct (i - List.length (lb_made L))%nat as [|[|y]] eqn:D; try discriminate.
    injection X as <-. pose proof (H _ P). lia.
Qed.

Lemma covers_same : forall L L' o, lb_covers L' = lb_covers L -> lib_covers L' o = lib_covers L o.
Proof. intros L L' o E. unfold lib_covers. rewrite E. reflexivity. Qed.

Lemma history_same : forall L L' m, lb_made L' = lb_made L ++ [m] -> parent_of m <> None ->
  lib_history L' = lib_history L.
Proof.
  intros L L' m E P. unfold lib_history. rewrite E, flat_map_app. cbn.
  destruct m; cbn in *; try congruence; apply app_nil_r.
Qed.

(** A new scope on both sides. *)
Lemma sim_scope : forall st st' h o d' L' c m w,
  sim st st' -> at_path (l_lib st') h = Some o ->
  only_added (m_db st) d' h c -> n_items c = [] -> n_iitems c = [] -> n_kids c = 0%nat ->
  lb_made L' = lb_made (l_lib st') ++ [m] -> lb_covers L' = lb_covers (l_lib st') ->
  parent_of m = Some o -> same_scope (l_lib st') (n_attrs c) m ->
  r_obj w = Some (List.length (lb_made (l_lib st'))) -> same_class (a_cls (n_attrs c)) (r_cls w) ->
  exists k, view (m_db st) h = Some k /\
    sim (MemSide d' (m_objs st ++ [h ++ [n_kids k]]) (m_files st))
        (LibSide L' (l_objs st' ++ [w]) (l_files st')).
Proof.
  intros [d hs fs] [L ws lfs] h o d' L' c m w [T H O F R Q I U] A (n & V & Vn & V' & Vh & Vo & Df & Dh) C1 C2 C3 EM EC P SS W K.
  cbn [m_db m_objs m_files l_lib l_objs l_files] in *. exists n. split; [exact V|].
  pose proof (T h) as Th. rewrite V, A in Th. destruct Th as (Tk & Tc & To).
  destruct (at_path_add L L' m o h R EM P A) as (A1 & A2 & A3). rewrite <- Tk in A1, A2, A3.
  set (new := h ++ [n_kids n]) in *.
  assert (E : extends L L').
  { apply (extends_made L L' m EM). intros p x X. rewrite A3; [exact X|]. intros ->. congruence. }
  assert (O' : obj_eqb o (Some (List.length (lb_made L))) = false).
  { destruct (obj_eqb o _) eqn:Eo; [|reflexivity]. apply obj_eqb_iff in Eo. subst o. apply at_path_below in A. lia. }
  assert (Hn : h <> new).
  { unfold new. intros D. apply (f_equal (@List.length _)) in D. rewrite app_length in D. cbn in D. lia. }
  assert (Node : forall p x y, p <> h -> view d p = Some x -> at_path L p = Some y -> same_node L' x y).
  { intros p x y Np Vp Ap. pose proof (T p) as Tp. rewrite Vp, Ap in Tp. destruct Tp as (T1 & T2 & T3).
    split; [|split].
    - rewrite (kids_add L L' m y EM), P. destruct (obj_eqb o y) eqn:Eo; [|rewrite app_nil_r; exact T1].
      apply obj_eqb_iff in Eo. subst y. exfalso. apply Np. exact (at_path_inj _ _ _ _ Ap A).
    - rewrite (covers_same L L' y EC). revert T2. apply F2_impl. intros a b. apply (same_cover_ext L L' a b E).
    - destruct y as [i|]; [|exact T3]. destruct T3 as (x' & X1 & X2). exists x'. split; [apply E, X1|].
      apply (same_scope_ext L); assumption. }
  constructor; cbn [m_db m_objs m_files l_lib l_objs l_files].
  - intros p. destruct (list_eq_dec Nat.eq_dec p new) as [->|Np].
    + rewrite V', A1. split; [|split].
      * rewrite C3, (kids_add L L' m _ EM), P, O', (kids_beyond L _ R (le_n _)). reflexivity.
      * unfold mem_covers. rewrite C1, C2. cbn. rewrite (covers_same L L' _ EC). unfold lib_covers.
        replace (filter (fun c0 => obj_eqb (lc_parent c0) (Some (List.length (lb_made L)))) (lb_covers L)) with (@nil lcover); [constructor|].
        symmetry. clear - Q. induction Q as [|x l Hx Ql IH]; [reflexivity|]. cbn.
        destruct (obj_eqb (lc_parent x) _) eqn:D; [|exact IH]. apply obj_eqb_iff in D. rewrite D in Hx. lia.
      * exists m. split; [rewrite EM, nth_error_app2, Nat.sub_diag by lia; reflexivity|].
        apply (same_scope_ext L); assumption.
    + rewrite (A3 p Np). destruct (list_eq_dec Nat.eq_dec p h) as [->|Nh].
      * rewrite Vh, A. split; [|split]; cbn [n_kids n_attrs n_items n_iitems].
        -- rewrite (kids_add L L' m _ EM), P, obj_eqb_refl, app_length. cbn. lia.
        -- change (mem_covers _) with (mem_covers n). rewrite (covers_same L L' _ EC). revert Tc. apply F2_impl.
           intros a b. apply (same_cover_ext L L' a b E).
        -- destruct o as [i|]; [|exact To]. destruct To as (x' & X1 & X2). exists x'. split; [apply E, X1|].
           apply (same_scope_ext L); assumption.
      * rewrite (Vo p Nh Np). pose proof (T p) as Tp. destruct (view d p) as [x|] eqn:Vp, (at_path L p) as [y|] eqn:Ap; auto.
        exact (Node p x y Nh Vp Ap).
  - unfold same_history in *. rewrite Dh, (history_same L L' m EM) by congruence. exact H.
  - apply Forall2_app.
    + revert O. apply F2_impl. intros x y (X1 & x' & X2 & X3). split; [apply E, X1|].
      destruct (list_eq_dec Nat.eq_dec x h) as [->|Nx].
      * rewrite V in X2. injection X2 as <-. eexists. split; [exact Vh|]. exact X3.
      * exists x'. split; [|exact X3]. rewrite Vo; auto. intros ->. congruence.
    + constructor; [|constructor]. rewrite W. split; [exact A1|]. exists c. auto.
  - revert F. apply F2_impl. intros i f (nm & j & wd & F1 & F2 & F3). exists nm, j, wd. rewrite Df.
    split; [exact F1|]. split; [exact F2|]. apply E, F3.
  - apply (ordered_add L L' m EM); [|exact R]. intros p Pp. rewrite P in Pp. injection Pp as ->.
    exact (at_path_below _ _ _ A).
  - rewrite EC, EM, app_length. revert Q. apply Forall_impl. intros x. destruct (lc_parent x); [cbn; lia|auto].
  - intros p x Vp. destruct (list_eq_dec Nat.eq_dec p new) as [->|Np].
    + rewrite V' in Vp. injection Vp as <-. rewrite C1, C2. destruct (is_inst _); reflexivity.
    + destruct (list_eq_dec Nat.eq_dec p h) as [->|Nh].
      * rewrite Vh in Vp. injection Vp as <-. exact (I h n V).
      * rewrite (Vo p Nh Np) in Vp. exact (I p x Vp).
  - apply NoDup_app_snoc; [exact U|]. intros D. clear - O D Vn. fold new in Vn. induction O as [|x y l l' (X1 & x' & X2 & X3) O IH]; [destruct D|].
    destruct D as [->|D]; [congruence|]. exact (IH D).
Qed.

(** The same made objects. *)
Lemma extends_same : forall L L', lb_made L' = lb_made L -> extends L L'.
Proof.
  intros L L' E. split; [rewrite E; auto|]. intros p o. rewrite (at_path_same L L' E). auto.
Qed.
Lemma kids_same : forall L L' o, lb_made L' = lb_made L -> lib_kids L' o = lib_kids L o.
Proof. intros L L' o E. unfold lib_kids, is_child. rewrite E. reflexivity. Qed.

(** One node changes, and the cover items of its library object grow by [cs]. *)
Lemma sim_node : forall st st' h o d' L' k k' cs,
  sim st st' -> at_path (l_lib st') h = Some o -> view (m_db st) h = Some k ->
  only_changed (m_db st) d' h k' -> n_kids k' = n_kids k ->
  a_cls (n_attrs k') = a_cls (n_attrs k) ->
  (forall m, same_scope (l_lib st') (n_attrs k) m -> same_scope (l_lib st') (n_attrs k') m) ->
  (if is_inst (a_cls (n_attrs k)) then n_items k' = [] else n_iitems k' = []) ->
  lb_made L' = lb_made (l_lib st') -> lb_covers L' = lb_covers (l_lib st') ++ cs ->
  Forall (fun c => lc_parent c = o) cs ->
  (exists new, mem_covers k' = mem_covers k ++ new /\ Forall2 (same_cover (l_lib st')) new cs) ->
  sim (MemSide d' (m_objs st) (m_files st)) (LibSide L' (l_objs st') (l_files st')).
Proof.
  intros [d hs fs] [L ws lfs] h o d' L' k k' cs [T H O F R Q I U] A V (V' & Vo & Df & Dh) Ck Cc Cs Ci EM EC Pc (new & Mc & Fc).
  cbn [m_db m_objs m_files l_lib l_objs l_files] in *.
  pose proof (extends_same L L' EM) as E.
  assert (CO : forall y, lib_covers L' y = lib_covers L y ++ (if obj_eqb o y then cs else [])).
  { intros y. unfold lib_covers. rewrite EC, filter_app. f_equal. clear - Pc.
    induction Pc as [|x l Hx Pl IH]; [destruct (obj_eqb o y); reflexivity|]. cbn. rewrite Hx, IH.
    destruct (obj_eqb o y); reflexivity. }
  constructor; cbn [m_db m_objs m_files l_lib l_objs l_files].
  - intros p. rewrite (at_path_same L L' EM). pose proof (T p) as Tp.
    destruct (list_eq_dec Nat.eq_dec p h) as [->|Nh].
    + rewrite V, A in Tp. rewrite V', A. destruct Tp as (T1 & T2 & T3). split; [|split].
      * rewrite Ck, (kids_same L L' o EM). exact T1.
      * rewrite Mc, CO, obj_eqb_refl. apply Forall2_app.
        -- revert T2. apply F2_impl. intros a b. apply (same_cover_ext L L' a b E).
        -- revert Fc. apply F2_impl. intros a b. apply (same_cover_ext L L' a b E).
      * destruct o as [i|]; [|congruence]. destruct T3 as (m & X1 & X2). exists m. split; [apply E, X1|].
        apply (same_scope_ext L); [exact E|]. apply Cs, X2.
    + rewrite (Vo p Nh). destruct (view d p) as [x|], (at_path L p) as [y|] eqn:Ap; auto.
      destruct Tp as (T1 & T2 & T3). split; [|split].
      * rewrite (kids_same L L' y EM). exact T1.
      * rewrite CO. destruct (obj_eqb o y) eqn:Eo.
        { apply obj_eqb_iff in Eo. subst y. exfalso. apply Nh. exact (at_path_inj _ _ _ _ Ap A). }
        rewrite app_nil_r. revert T2. apply F2_impl. intros a b. apply (same_cover_ext L L' a b E).
      * destruct y as [i|]; [|exact T3]. destruct T3 as (m & X1 & X2). exists m. split; [apply E, X1|].
        apply (same_scope_ext L); [exact E|exact X2].
  - unfold same_history, lib_history in *. rewrite Dh, EM. exact H.
  - revert O. apply F2_impl. intros x y (X1 & x' & X2 & X3). split; [apply E, X1|].
    destruct (list_eq_dec Nat.eq_dec x h) as [->|Nx].
    + rewrite V in X2. injection X2 as <-. exists k'. split; [exact V'|]. rewrite Cc. exact X3.
    + exists x'. rewrite (Vo x Nx). auto.
  - revert F. apply F2_impl. intros i f (nm & j & wd & F1 & F2 & F3). exists nm, j, wd. rewrite Df, EM. auto.
  - intros i m p. rewrite EM. apply R.
  - rewrite EC, EM. apply Forall_app. split; [exact Q|]. revert Pc. apply Forall_impl. intros c ->.
    destruct o as [i|]; [|auto]. exact (at_path_below _ _ _ A).
  - intros p x Vp. destruct (list_eq_dec Nat.eq_dec p h) as [->|Nh].
    + rewrite V' in Vp. injection Vp as <-. rewrite Cc. exact Ci.
    + rewrite (Vo p Nh) in Vp. exact (I p x Vp).
  - exact U.
Qed.

(** A file or a history node. *)
Lemma sim_other : forall st st' d' L' m,
  sim st st' -> db_root d' = db_root (m_db st) ->
  (forall i n, nth_error (db_files (m_db st)) i = Some n -> nth_error (db_files d') i = Some n) ->
  lb_made L' = lb_made (l_lib st') ++ [m] -> lb_covers L' = lb_covers (l_lib st') -> parent_of m = None ->
  same_history d' L' ->
  sim (MemSide d' (m_objs st) (m_files st)) (LibSide L' (l_objs st') (l_files st')).
Proof.
  intros [d hs fs] [L ws lfs] d' L' m [T H O F R Q I U] Er Ef EM EC P SH.
  cbn [m_db m_objs m_files l_lib l_objs l_files] in *.
  pose proof (at_path_other L L' m EM P) as AP.
  assert (E : extends L L'). { apply (extends_made L L' m EM). intros p o. rewrite AP. auto. }
  assert (VV : forall p, view d' p = view d p) by (intros p; unfold view; rewrite Er; reflexivity).
  constructor; cbn [m_db m_objs m_files l_lib l_objs l_files].
  - intros p. rewrite AP, VV. pose proof (T p) as Tp. destruct (view d p) as [x|], (at_path L p) as [y|]; auto.
    destruct Tp as (T1 & T2 & T3). split; [|split].
    + rewrite (kids_add L L' m y EM), P, app_nil_r. exact T1.
    + rewrite (covers_same L L' y EC). revert T2. apply F2_impl. intros a b. apply (same_cover_ext L L' a b E).
    + destruct y as [i|]; [|exact T3]. destruct T3 as (m' & X1 & X2). exists m'. split; [apply E, X1|].
      apply (same_scope_ext L); [exact E|exact X2].
  - exact SH.
  - revert O. apply F2_impl. intros x y (X1 & x' & X2 & X3). split; [apply E, X1|]. exists x'. rewrite VV. auto.
  - revert F. apply F2_impl. intros i f (nm & j & wd & F1 & F2 & F3). exists nm, j, wd.
    split; [apply Ef, F1|]. split; [exact F2|]. apply E, F3.
  - apply (ordered_add L L' m EM); [|exact R]. intros p X. congruence.
  - rewrite EC, EM, app_length. revert Q. apply Forall_impl. intros x. destruct (lc_parent x); [cbn; lia|auto].
  - intros p x. rewrite VV. apply I.
  - exact U.
Qed.

(** ** Arguments of the commands *)
Lemma kept32_refl : forall z, i32 z -> kept32 z z.
Proof. intros z H. split; [exact H|]. rewrite Z.sub_diag. reflexivity. Qed.
Lemma app_empty : forall s : string, (s ++ "")%string = s.
Proof. induction s as [|a s IH]; cbn; congruence. Qed.
Lemma c_string_refl : forall s, nul_free s -> c_string s s.
Proof. intros s H. split; [exact H|]. exists ""%string. split; [symmetry; apply app_empty|left; reflexivity]. Qed.

Lemma c_string_prefix : forall s, c_string s (until_nul s).
Proof.
  induction s as [|a s (F & rest & E & R)]; cbn.
  - apply c_string_refl. intros [|i]; discriminate.
  - destruct (Ascii.eqb_spec a Ascii.zero) as [->|Ne].
    + split; [intros [|i]; discriminate|]. exists (String Ascii.zero s). split; [reflexivity|right; eauto].
    + split.
      * intros [|i]; cbn; [congruence|apply F].
      * exists rest. split; [cbn; f_equal; exact E|exact R].
Qed.

Lemma F2_nth : forall A B (P : A -> B -> Prop) l l' i x,
  Forall2 P l l' -> nth_error l i = Some x -> exists y, nth_error l' i = Some y /\ P x y.
Proof.
  intros A B P l l' i x F. revert i. induction F as [|a b l l' H F IH]; intros [|i] E; cbn in *; try discriminate.
  - injection E as <-. eauto.
  - apply IH, E.
Qed.
Arguments F2_nth {A B P l l' i x} _ _.

Lemma held_ok : forall A (l : list A) i x, held l i = Ok x <-> nth_error l i = Some x.
Proof. intros A l i x. unfold held. destruct (nth_error l i); split; congruence. Qed.

Lemma sim_held : forall st st' a h, sim st st' -> held (m_objs st) a = Ok h ->
  exists w n, held (l_objs st') a = Ok w /\ at_path (l_lib st') h = Some (r_obj w) /\
              view (m_db st) h = Some n /\ same_class (a_cls (n_attrs n)) (r_cls w).
Proof.
  intros st st' a h S H. apply held_ok in H. destruct (F2_nth (sim_objs _ _ S) H) as (w & W & A & n & V & C).
  exists w, n. split; [apply held_ok, W|]. auto.
Qed.

Lemma sim_src : forall st st' s ms, sim st st' -> m_src st s = Ok ms -> fits_src s ->
  exists ps ls, l_src st' s = Ok ps /\ src_given ps ls /\ same_src (l_lib st') (norm_src ms) ls /\
                same_opt_src (l_lib st') ms ls.
Proof.
  intros st st' [[f ln tk]|] ms S H K.
  - cbn [m_src p_file p_line p_token fits_src] in *. unfold held in H.
    destruct (nth_error (m_files st) f) as [i|] eqn:E; [|discriminate].
    destruct (F2_nth (sim_files _ _ S) E) as (lf & W & nm & j & wd & F1 & F2 & F3).
    cbn [rbind] in H. rewrite F1 in H. injection H as <-.
    destruct lf as [fh]. cbn in F2. subst fh.
    exists (Some (PSrc (Some (LFile (Some j))) ln tk)), (Some (LSrc (Some j) ln tk)).
    split; [cbn; unfold held; rewrite W; reflexivity|].
    split; [constructor; apply kept32_refl; tauto|].
    assert (same_loc (l_lib st') (SrcInfo (Some nm) ln tk) (LSrc (Some j) ln tk)) by (exists j, nm, wd; auto).
    split; assumption.
  - injection H as <-. exists None, None. cbn. repeat split. constructor.
Qed.

Lemma sim_points : forall st st' ps hs, sim st st' -> traverse (held (m_objs st)) ps = Ok hs ->
  exists ws, traverse (held (l_objs st')) ps = Ok ws /\
             Forall2 (fun h w => at_path (l_lib st') h = Some (r_obj w)) hs ws.
Proof.
  intros st st' ps hs S. revert hs. induction ps as [|a ps IH]; intros hs H.
  - injection H as <-. exists []. split; [reflexivity|constructor].
  - cbn [traverse] in H. destruct (held (m_objs st) a) as [h|] eqn:E; [|discriminate].
    destruct (sim_held _ _ _ _ S E) as (w & n & W & A & _). cbn in H.
    destruct (traverse (held (m_objs st)) ps) as [t|] eqn:T; [|discriminate]. injection H as <-.
    destruct (IH t eq_refl) as (ws & E1 & E2). exists (w :: ws). cbn [traverse]. rewrite W. cbn. rewrite E1.
    split; [reflexivity|]. constructor; assumption.
Qed.

Lemma refs_paths : forall root hs refs, cross_refs root hs = Ok refs -> map r_path refs = hs.
Proof.
  intros root hs. unfold cross_refs. induction hs as [|h hs IH]; intros refs H; cbn [traverse] in H.
  - injection H as <-. reflexivity.
  - destruct (at_handle root h) as [c|]; [|discriminate]. cbn in H.
    match type of H with context [traverse ?f hs] => destruct (traverse f hs) as [t|] eqn:T end; [|discriminate].
    injection H as <-. cbn. f_equal. apply IH. reflexivity.
Qed.

Lemma refs_points : forall L refs hs ws, map r_path refs = hs ->
  Forall2 (fun h w => at_path L h = Some (r_obj w)) hs ws ->
  Forall2 (fun r o => at_path L (r_path r) = Some o) refs (map r_obj ws).
Proof.
  intros L refs. induction refs as [|r refs IH]; intros hs ws E F; cbn in E; subst hs; inversion F; subst; cbn; constructor; eauto.
Qed.

(** ** Options *)
Definition has_opt (st : mem_side) (st' : lib_side) (slot : nat) (f : lfield) : Prop :=
  exists h w n, nth_error (m_objs st) slot = Some h /\ nth_error (l_objs st') slot = Some w /\
                view (m_db st) h = Some n /\ mem_has (n_attrs n) f /\ lib_has (l_lib st') (r_obj w) f.

Lemma lib_has_frame : forall L L' o f,
  (forall p, l_int (lb_props L') o (-1) p = l_int (lb_props L) o (-1) p) ->
  (forall p, l_str (lb_props L') o (-1) p = l_str (lb_props L) o (-1) p) ->
  lib_has L o f -> lib_has L' o f.
Proof. intros L L' o f A B H. destruct f; cbn in *; rewrite ?A, ?B; exact H. Qed.

(** Nothing about options changes. *)
Definition opts_kept (st : mem_side) (st' : lib_side) (st1 : mem_side) (st1' : lib_side) : Prop :=
  forall slot f, has_opt st st' slot f -> has_opt st1 st1' slot f.

Section Step.
  Variable agrees : library -> made -> bool.
  Variable agrees_cover : library -> lcover -> bool.
  Hypothesis yes : forall L m, agrees L m = true.
  Hypothesis yes_cover : forall L c, agrees_cover L c = true.

  Lemma do_scope : forall st st' o h w s c cl m k,
    sim st st' -> at_path (l_lib st') h = Some (r_obj w) -> target o = Some h ->
    get_at (db_root (m_db st)) h = Some s -> act (db_root (m_db st)) h s o = adding h s (Ok c) -> fresh c ->
    asks cl m k -> parent_of m = Some (r_obj w) -> same_scope (l_lib st') (s_attrs c) m ->
    same_class (a_cls (s_attrs c)) k ->
    exists d' new L' w', step (m_db st) o = (d', Ok (OScope new)) /\
      perform agrees cl (l_lib st') = (L', Ok w') /\
      sim (MemSide d' (m_objs st ++ [new]) (m_files st)) (LibSide L' (l_objs st' ++ [w']) (l_files st')) /\
      opts_kept st st' (MemSide d' (m_objs st ++ [new]) (m_files st)) (LibSide L' (l_objs st' ++ [w']) (l_files st')).
  Proof.
    intros st st' o h w s c cl m k S A T G Ac (F1 & F2 & F3) K P SS SC.
    destruct (C92_created_partial agrees cl m k (l_lib st') K (yes _ _)) as (L' & E & EM & EC & _ & _ & _ & EI & ES).
    set (d' := with_root (m_db st) (upd_at (db_root (m_db st)) h (fun _ => add_child s c))).
    pose proof (replaced_added G F1) as OA. fold d' in OA.
    assert (Hst : step (m_db st) o = (d', Ok (OScope (h ++ [List.length (s_kids s)])))).
    { unfold step. rewrite T, G, Ac. reflexivity. }
    pose proof (view_get G) as V.
    assert (N0 : n_kids (node_of c) = 0%nat) by (cbn; rewrite F1; reflexivity).
    destruct (sim_scope st st' h (r_obj w) d' L' (node_of c) m (LRef k (Some (List.length (lb_made (l_lib st')))))
                S A OA F2 F3 N0 EM EC P SS eq_refl SC) as (n & Vn & SIM).
    rewrite V in Vn. injection Vn as <-. cbn [n_kids node_of] in SIM.
    exists d', (h ++ [List.length (s_kids s)]), L', (LRef k (Some (List.length (lb_made (l_lib st'))))).
    split; [exact Hst|]. split; [exact E|]. split; [exact SIM|].
    intros slot f (h0 & w0 & n0 & X1 & X2 & X3 & X4 & X5).
    destruct (F2_nth (sim_objs _ _ S) X1) as (w1 & W1 & A1 & _). assert (w1 = w0) by congruence. subst w1.
    destruct OA as (x & Y1 & Y2 & Y3 & Y4 & Y5 & _). rewrite V in Y1. injection Y1 as <-.
    assert (View : exists n1, view d' h0 = Some n1 /\ n_attrs n1 = n_attrs n0).
    { destruct (list_eq_dec Nat.eq_dec h0 h) as [->|Nh].
      - eexists. split; [exact Y4|]. rewrite V in X3. injection X3 as <-. reflexivity.
      - exists n0. split; [|reflexivity]. rewrite Y5; auto. intros ->. congruence. }
    destruct View as (n1 & V1 & V2).
    exists h0, w0, n1. cbn [m_objs l_objs m_db l_lib]. rewrite V2.
    split; [rewrite nth_error_app1; [exact X1|]; apply nth_error_Some; congruence|].
    split; [rewrite nth_error_app1; [exact X2|]; apply nth_error_Some; congruence|].
    split; [exact V1|]. split; [exact X4|]. revert X5.
    assert (Ne : r_obj w0 <> Some (List.length (lb_made (l_lib st')))).
    { intros D. rewrite D in A1. apply at_path_below in A1. lia. }
    apply lib_has_frame; intros p.
    - apply EI. intros (D & _). exact (Ne D).
    - apply ES. intros (D & _). exact (Ne D).
  Qed.

  Lemma do_cover : forall st st' h w s o i dat nm q src ls r s',
    sim st st' -> at_path (l_lib st') h = Some (r_obj w) -> target o = Some h ->
    get_at (db_root (m_db st)) h = Some s -> act (db_root (m_db st)) h s o = (s', Ok r) ->
    s_kids s' = s_kids s -> s_attrs s' = s_attrs s ->
    (if is_inst (s_cls s) then s_items s' = s_items s /\ s_iitems s' = s_iitems s ++ [IItem nm dat src 0]
     else s_items s' = s_items s ++ [Item nm dat src] /\ s_iitems s' = s_iitems s) ->
    src_given q ls -> same_opt_src (l_lib st') src ls -> nul_free nm -> fits dat ->
    (i = create_next_cover agrees_cover w (Some nm) dat q) ->
    exists d' L' x, step (m_db st) o = (d', Ok r) /\ i (l_lib st') = (L', Ok x) /\
      sim (MemSide d' (m_objs st) (m_files st)) (LibSide L' (l_objs st') (l_files st')) /\
      opts_kept st st' (MemSide d' (m_objs st) (m_files st)) (LibSide L' (l_objs st') (l_files st')).
  Proof.
    intros st st' h w s o i dat nm q src ls r s' S A T G Ac K1 K2 K3 Q1 Q2 NF (B1 & B2 & B3 & B4 & B5 & B6 & B7) ->.
    assert (exists l, lib_cover_data_of dat = Ok l /\ lcd_type l = Z.of_N (cd_type dat) /\
              lcd_flags l = Z.of_N (cd_flags dat) /\ lcd_data l = LBits (cd_data dat) /\ lcd_goal l = cd_goal dat /\
              lcd_weight l = cd_weight dat /\ lcd_limit l = cd_limit dat /\ lcd_bitlen l = cd_bitlen dat) as (l & El & Dl).
    { unfold lib_cover_data_of.
      assert (Bit0 : negb (N.land (cd_flags dat) IS_32BIT =? 0)%N = N.testbit (cd_flags dat) 0).
      { destruct (cd_flags dat) as [|[x|x|]]; reflexivity. }
      assert (Bit1 : negb (N.land (cd_flags dat) IS_64BIT =? 0)%N = N.testbit (cd_flags dat) 1).
      { destruct (cd_flags dat) as [|[[x|x|]|[x|x|]|]]; reflexivity. }
      rewrite Bit0, Bit1.
      assert (exists b, (if N.testbit (cd_flags dat) 0 then Ok (LBits (c_uint (cd_data dat)))
                else if N.testbit (cd_flags dat) 1 then Ok (LBits (c_ulonglong (cd_data dat)))
                else if negb (N.land (cd_flags dat) IS_VECTOR =? 0)%N then Ok LVector else Err RaisedException) = Ok b /\
                b = LBits (cd_data dat)) as (b & Eb & Db).
      { destruct B7 as [(-> & X)|(-> & -> & X)]; eexists; (split; [reflexivity|]); f_equal.
        - apply c_uint_eq, X.
        - apply ulonglong_small, X. }
      rewrite Eb. cbn [rbind]. eexists. split; [reflexivity|]. cbn.
      rewrite (ulonglong_small _ B1), !c_int_small by assumption. rewrite Db. repeat split. }
    pose proof (C92_cover_partial agrees_cover w (Some nm) dat q ls (l_lib st') Q1) as C. rewrite El in C.
    destruct C as [_ C]. specialize (C nm nm eq_refl (c_string_refl nm NF) (yes_cover _ _)).
    set (d' := with_root (m_db st) (upd_at (db_root (m_db st)) h (fun _ => s'))).
    pose proof (replaced_changed G K1) as OC. fold d' in OC.
    assert (Hst : step (m_db st) o = (d', Ok r)).
    { unfold step. rewrite T, G, Ac. reflexivity. }
    pose proof (view_get G) as V.
    exists d'. eexists. eexists. split; [exact Hst|]. split; [exact C|]. split.
    - eapply (sim_node st st' h (r_obj w) d' _ (node_of s) (node_of s') [LCover (r_obj w) nm l ls]); eauto.
      + cbn. rewrite K1. reflexivity.
      + cbn. rewrite K2. reflexivity.
      + cbn. rewrite K2. auto.
      + pose proof (sim_items _ _ S _ _ V) as I. cbn in *. unfold s_cls in K3. destruct (is_inst (a_cls (s_attrs s))).
        * rewrite (proj1 K3). exact I.
        * rewrite (proj2 K3). exact I.
      + exists [(nm, dat, src)]. split.
        * pose proof (sim_items _ _ S _ _ V) as I. unfold mem_covers. cbn in *. unfold s_cls in K3.
          destruct (is_inst (a_cls (s_attrs s))); destruct K3 as [K3 K4]; rewrite K3, K4, ?I, ?map_app, ?app_nil_r, ?app_assoc; reflexivity.
        * constructor; [|constructor]. cbn. split; [reflexivity|]. split; [exact Q2|]. exact Dl.
    - intros slot f (h0 & w0 & n0 & X1 & X2 & X3 & X4 & X5). destruct OC as (Y1 & Y2 & _).
      assert (View : exists n1, view d' h0 = Some n1 /\ n_attrs n1 = n_attrs n0).
      { destruct (list_eq_dec Nat.eq_dec h0 h) as [->|Nh].
        - eexists. split; [exact Y1|]. rewrite V in X3. injection X3 as <-. exact K2.
        - exists n0. split; [|reflexivity]. rewrite Y2; auto. }
      destruct View as (n1 & V1 & V2). exists h0, w0, n1. cbn [m_objs l_objs m_db l_lib]. rewrite V2.
      split; [exact X1|]. split; [exact X2|]. split; [exact V1|]. split; [exact X4|]. exact X5.
  Qed.

  Lemma set_field_attrs : forall f f' s s' k,
    m_field f = Some f' -> set_field s f' = Ok s' -> same_class (s_cls s) k ->
    has_setter k f /\
    exists a, s' = set_attrs s a /\ a_cls a = s_cls s /\
      (forall L m, same_scope L (s_attrs s) m -> same_scope L a m) /\
      mem_has a f /\ (forall g, kind_of g <> kind_of f -> mem_has (s_attrs s) g -> mem_has a g).
  Proof.
    intros f f' s s' k M H C. destruct f; cbn in M; try discriminate; injection M as <-; cbn in H; unfold need in H;
      try (destruct (is_cvg (s_cls s)) eqn:E; [|discriminate]);
      try (destruct (is_cg (s_cls s)) eqn:E; [|discriminate]); injection H as <-.
    all: split; [cbn; destruct (s_cls s); cbn in *; subst; try discriminate; auto|].
    all: eexists; (split; [reflexivity|]); (split; [reflexivity|]); (split; [|split; [reflexivity|]]).
    all: try (intros g Ng; destruct g; cbn in *; auto; congruence).
    all: intros L m Hm; destruct m; exact Hm.
  Qed.

  Lemma do_set : forall st st' a h w f f' s s',
    sim st st' -> nth_error (m_objs st) a = Some h -> nth_error (l_objs st') a = Some w ->
    at_path (l_lib st') h = Some (r_obj w) -> get_at (db_root (m_db st)) h = Some s ->
    same_class (s_cls s) (r_cls w) -> m_field f = Some f' -> set_field s f' = Ok s' -> fits_field f ->
    exists d' L', step (m_db st) (SetField h f') = (d', Ok ONone) /\ set_option w f (l_lib st') = (L', Ok tt) /\
      let st1 := MemSide d' (m_objs st) (m_files st) in
      let st1' := LibSide L' (l_objs st') (l_files st') in
      sim st1 st1' /\ has_opt st1 st1' a f /\
      (forall slot g, has_opt st st' slot g -> (slot = a -> kind_of g <> kind_of f) -> has_opt st1 st1' slot g).
  Proof.
    intros st st' a h w f f' s s' S Hh Hw A G SC MF SF FF.
    destruct (set_field_attrs f f' s s' (r_cls w) MF SF SC) as (HS & at' & -> & T1 & T2 & T3 & T4).
    set (s' := set_attrs s at') in *.
    set (d' := with_root (m_db st) (upd_at (db_root (m_db st)) h (fun _ => s'))).
    pose proof (@replaced_changed (m_db st) h s s' G eq_refl) as OC. fold d' in OC.
    assert (Hst : step (m_db st) (SetField h f') = (d', Ok ONone)).
    { unfold step. cbn [target act]. rewrite G, SF. reflexivity. }
    pose proof (view_get G) as V.
    assert (exists L', set_option w f (l_lib st') = (L', Ok tt) /\ lb_made L' = lb_made (l_lib st') /\
              lb_covers L' = lb_covers (l_lib st') /\ lib_has L' (r_obj w) f /\
              (forall o g, lib_has (l_lib st') o g -> (o = r_obj w -> kind_of g <> kind_of f) -> lib_has L' o g))
      as (L' & EL & EM & EC & LF & LO).
    { pose proof (proj2 (C92_set_option_partial w f (l_lib st')) HS) as C.
      destruct (stands_for f) as [[n v]|] eqn:SF'.
      - assert (i32 v) as Iv.
        { destruct f; cbn in SF'; try discriminate; injection SF' as <- <-; try exact FF; destruct b; unfold i32; lia. }
        destruct (C v (kept32_refl v Iv)) as (L' & E & (M & Cv & Ss & _ & Ch & Fr)). exists L'.
        split; [exact E|]. split; [exact M|]. split; [exact Cv|]. split.
        + pose proof (Ch (r_obj w) n v (conj eq_refl (conj eq_refl eq_refl))) as X.
          destruct f; cbn in SF'; try discriminate; injection SF' as <- <-; exact X.
        + intros o g Hg Kg.
          assert (Fr' : forall p, (o = r_obj w -> p <> n) -> l_int (lb_props L') o (-1) p = l_int (lb_props (l_lib st')) o (-1) p).
          { intros p Hp. apply Fr. intros x (_ & D1 & D2 & _). exact (Hp D1 D2). }
          assert (St : l_str (lb_props L') o (-1) 14 = l_str (lb_props (l_lib st')) o (-1) 14) by (rewrite Ss; reflexivity).
          destruct g; cbn in Hg |- *; try (rewrite St; exact Hg);
            (rewrite Fr'; [exact Hg|]); intros ->; specialize (Kg eq_refl); intros <-;
            destruct f; cbn in SF', Kg; try discriminate; congruence.
      - destruct f as [| | | | |t| | |]; try discriminate. cbn in FF.
        destruct (C t t eq_refl (c_string_refl t FF)) as (L' & E & M & Cv & In & _ & Ch & Fr). exists L'.
        split; [exact E|]. split; [exact M|]. split; [exact Cv|]. split; [exact Ch|].
        intros o g Hg Kg. destruct g; cbn in Hg |- *; rewrite ?In; try exact Hg.
        rewrite Fr; [exact Hg|]. intros (-> & _). exact (Kg eq_refl eq_refl). }
    exists d', L'. split; [exact Hst|]. split; [exact EL|]. cbv zeta. destruct OC as (Y1 & Y2 & Y3).
    split; [|split].
    - apply (sim_node st st' h (r_obj w) d' L' (node_of s) (node_of s') [] S A V (conj Y1 (conj Y2 Y3)) eq_refl T1
               (T2 (l_lib st')) (sim_items _ _ S _ _ V) EM).
      + rewrite app_nil_r. exact EC.
      + constructor.
      + exists []. split; [rewrite app_nil_r; reflexivity|constructor].
    - exists h, w, (node_of s'). cbn [m_objs l_objs m_db l_lib]. auto.
    - intros slot g (h0 & w0 & n0 & X1 & X2 & X3 & X4 & X5) Kg.
      destruct (Nat.eq_dec slot a) as [->|Na].
      + rewrite Hh in X1. injection X1 as <-. rewrite Hw in X2. injection X2 as <-. rewrite V in X3. injection X3 as <-.
        exists h, w, (node_of s'). cbn [m_objs l_objs m_db l_lib]. do 3 (split; [assumption|]).
        split; [apply T4; auto|]. apply LO; auto.
      + assert (Nh : h0 <> h).
        { intros ->. apply Na. apply (proj1 (NoDup_nth_error (m_objs st)) (sim_nodup _ _ S)); [|congruence].
          apply nth_error_Some. congruence. }
        exists h0, w0, n0. cbn [m_objs l_objs m_db l_lib]. rewrite (Y2 h0 Nh). do 4 (split; [assumption|]).
        apply LO; [exact X5|]. intros D.
        destruct (F2_nth (sim_objs _ _ S) X1) as (w1 & W1 & A1 & _). assert (w1 = w0) by congruence. subst w1.
        exfalso. apply Nh. rewrite D in A1. exact (at_path_inj _ _ _ _ A1 A).
  Qed.

  (** One command. *)
  Lemma do_step : forall st st' c st1,
    sim st st' -> portable st c -> mem_do st c = Ok st1 ->
    exists st1', lib_do agrees agrees_cover st' c = Ok st1' /\ sim st1 st1' /\
      (forall slot f, c = PSet slot f -> has_opt st1 st1' slot f) /\
      (forall slot g, has_opt st st' slot g ->
         (forall f, c = PSet slot f -> kind_of g <> kind_of f) -> has_opt st1 st1' slot g).
  Proof.
    intros st st' c st1 S P H. unfold mem_do in H.
    destruct (m_call st c) as [o|] eqn:MC; [|discriminate]. cbn [rbind] in H.
    assert (Fin : forall d' new st0 st0', step (m_db st) o = (d', Ok (OScope new)) ->
              st0 = MemSide d' (m_objs st ++ [new]) (m_files st) ->
              (forall slot f, c <> PSet slot f) -> lib_do agrees agrees_cover st' c = Ok st0' ->
              sim st0 st0' -> opts_kept st st' st0 st0' ->
              exists st1', lib_do agrees agrees_cover st' c = Ok st1' /\ sim st1 st1' /\
                (forall slot f, c = PSet slot f -> has_opt st1 st1' slot f) /\
                (forall slot g, has_opt st st' slot g ->
                   (forall f, c = PSet slot f -> kind_of g <> kind_of f) -> has_opt st1 st1' slot g)).
    { intros d' new st0 st0' E -> N1 E' S0 O0. rewrite E in H. injection H as <-. exists st0'.
      split; [exact E'|]. split; [exact S0|]. split; [intros slot f D; destruct (N1 _ _ D)|]. intros slot g G _. apply O0, G. }
    destruct c as [nm wd|l p k now|a nm s w so t f|a nm s w so t u f|a nm s w so|a nm s w so|a nm s w so ps|a nm s w so|a nm s al ct k|a nm dt s|a f];
      cbn [m_call portable] in MC, P.
    - (* file *) injection MC as <-. cbn [step target db_act] in H.
      assert (exists d' i, step (m_db st) (CreateFileHandle nm) = (d', Ok (OFile i)) /\ db_root d' = db_root (m_db st) /\
                db_hist d' = db_hist (m_db st) /\ nth_error (db_files d') i = Some nm /\
                (forall j x, nth_error (db_files (m_db st)) j = Some x -> nth_error (db_files d') j = Some x)) as (d' & i & Es & Er & Eh & Ei & Ef).
      { cbn [step target db_act]. destruct (index_of nm (db_files (m_db st))) as [i|] eqn:Ix.
        - exists (m_db st), i. split; [reflexivity|]. split; [reflexivity|]. split; [reflexivity|]. split; [|auto].
          clear - Ix. revert i Ix. induction (db_files (m_db st)) as [|x r IH]; intros i Ix; cbn in Ix; [discriminate|].
          destruct (seqb nm x) eqn:Sq.
          + injection Ix as <-. cbn. f_equal. symmetry. apply String.eqb_eq. exact Sq.
          + destruct (index_of nm r) as [j|]; [|discriminate]. injection Ix as <-. cbn. apply IH. reflexivity.
        - eexists. eexists. split; [reflexivity|]. cbn. split; [reflexivity|]. split; [reflexivity|].
          split; [rewrite nth_error_app2, Nat.sub_diag by lia; reflexivity|].
          intros j x X. rewrite nth_error_app1; [exact X|]. apply nth_error_Some. congruence. }
      change (match index_of nm (db_files (m_db st)) with
              | Some i0 => (m_db st, Ok (OFile i0))
              | None => (Db (db_root (m_db st)) (db_files (m_db st) ++ [nm]) (db_hist (m_db st)), Ok (OFile (List.length (db_files (m_db st)))))
              end) with (step (m_db st) (CreateFileHandle nm)) in H.
      rewrite Es in H. injection H as <-.
      pose proof (proj1 (C92_file_partial agrees nm nm wd (option_map until_nul wd) (l_lib st')
                    (c_string_refl nm P) ltac:(destruct wd; cbn; [apply c_string_prefix|exact I])) (yes _ _)) as E.
      set (L' := Library _ _ _) in E.
      eexists. cbn [lib_do]. unfold got_file. rewrite E. split; [reflexivity|].
      assert (S1 : sim (MemSide d' (m_objs st) (m_files st)) (LibSide L' (l_objs st') (l_files st'))).
      { apply (sim_other st st' d' L' (MFile nm (option_map until_nul wd)) S Er Ef eq_refl eq_refl eq_refl).
        pose proof (sim_hist _ _ S) as SH. unfold same_history, lib_history in *. rewrite Eh. unfold L'. cbn [lb_made].
        rewrite flat_map_app. cbn. rewrite app_nil_r. exact SH. }
      split; [|split; [intros ? ? D; discriminate|]].
      + destruct S1 as [Q1 Q2 Q3 Q4 Q5 Q6 Q7 Q8]. constructor; auto. cbn [m_db m_objs m_files l_lib l_objs l_files] in *.
        apply Forall2_app; [exact Q4|]. constructor; [|constructor].
        exists nm, (List.length (lb_made (l_lib st'))), (option_map until_nul wd).
        split; [exact Ei|]. split; [reflexivity|]. unfold L'. cbn. rewrite nth_error_app2, Nat.sub_diag by lia. reflexivity.
      + intros slot g (h0 & w0 & n0 & X1 & X2 & X3 & X4 & X5) _. exists h0, w0, n0.
        cbn [m_db m_objs m_files l_lib l_objs l_files]. unfold view in *. rewrite Er. auto.
    - (* history *) injection MC as <-. cbn [step target db_act] in H. injection H as <-.
      destruct P as (P1 & P2 & P3).
      pose proof (C92_history_partial agrees l l p p k k (l_lib st') (c_string_refl l P1) (c_string_refl p P2) (kept32_refl k P3) (yes _ _)) as E.
      set (L' := Library _ _ _) in E.
      eexists. cbn [lib_do]. unfold got. rewrite E. split; [reflexivity|].
      split; [|split; [intros ? ? D; discriminate|]].
      + apply (sim_other st st' (with_hist (m_db st) (db_hist (m_db st) ++ [new_hist None (VStr l) (VStr p) (VInt k) now])) L'
                 (MHistory l p k) S eq_refl (fun _ _ X => X) eq_refl eq_refl eq_refl).
        pose proof (sim_hist _ _ S) as SH. unfold same_history, lib_history in *. unfold L'. cbn [lb_made db_hist with_hist].
        rewrite flat_map_app. apply Forall2_app; [exact SH|]. cbn. repeat constructor.
      + intros slot g (h0 & w0 & n0 & X1 & X2 & X3 & X4 & X5) _. exists h0, w0, n0. auto.
    - (* scope *) destruct P as (P1 & P2 & P3 & P4 & P5 & P6).
      destruct (held (m_objs st) a) as [h|] eqn:Ha; [|discriminate]. cbn [rbind] in MC.
      destruct (m_src st s) as [ms|] eqn:Hs; [|discriminate]. injection MC as <-.
      destruct (sim_held _ _ _ _ S Ha) as (w0 & n & W & A & V & C).
      destruct (sim_src _ _ _ _ S Hs P2) as (q & ls & R1 & R2 & R3 & R4).
      destruct (get_at (db_root (m_db st)) h) as [sc|] eqn:G; [|unfold view, vw in V; rewrite G in V; discriminate].
      assert (Ac : act (db_root (m_db st)) h sc (CreateScope h nm ms w so t f) = adding h sc (Ok (new_mem_scope nm ms w so t f))).
      { unfold step in H. cbn [target] in H. rewrite G in H. cbn [act] in H |- *. unfold Api.create_scope in *.
        destruct (is_inst (s_cls sc)).
        - unfold inst_create_scope in H. destruct P5 as [<-|[<-|[<-|[<-|[<-|[]]]]]]; discriminate.
        - unfold mem_create_scope. destruct P5 as [<-|[<-|[<-|[<-|[<-|[]]]]]]; reflexivity. }
      assert (u64 (Z.of_N t)) as Ut by (destruct P5 as [<-|[<-|[<-|[<-|[<-|[]]]]]]; unfold u64; cbn; lia).
      destruct (do_scope st st' (CreateScope h nm ms w so t f) h w0 sc _ (CScope w0 (Some nm) q w so (Z.of_N t) (Z.of_N f)) _ WScope S A eq_refl G Ac
                  ltac:(repeat split)
                  (asks_scope w0 (Some nm) (Some nm) q ls w w so so (Z.of_N t) (Z.of_N f) (Z.of_N f) (c_string_refl nm P1) R2
                     (kept32_refl _ P3) (kept32_refl _ P4) Ut (kept32_refl _ P6))
                  eq_refl) as (d' & new & L' & w' & E1 & E2 & E3 & E4).
      { cbn. repeat (split; [reflexivity || exact R3|]). destruct P5 as [<-|[<-|[<-|[<-|[<-|[]]]]]]; reflexivity. }
      { reflexivity. }
      refine (Fin _ _ _ _ E1 eq_refl _ _ E3 E4); [intros; discriminate|].
      cbn [lib_do]. rewrite W, R1. cbn [rbind]. unfold got_scope. cbn [perform] in E2. rewrite E2. reflexivity.
    - (* instance *) destruct P as (P1 & P2 & P3 & P4 & P5 & P6).
      destruct (held (m_objs st) a) as [h|] eqn:Ha; [|discriminate]. cbn [rbind] in MC.
      destruct (m_src st s) as [ms|] eqn:Hs; [|discriminate]. cbn [rbind] in MC.
      destruct (held (m_objs st) u) as [hu|] eqn:Hu; [|discriminate]. injection MC as <-.
      destruct (sim_held _ _ _ _ S Ha) as (w0 & n & W & A & V & C).
      destruct (sim_held _ _ _ _ S Hu) as (wu & nu & Wu & Au & Vu & Cu).
      destruct (sim_src _ _ _ _ S Hs P2) as (q & ls & R1 & R2 & R3 & R4).
      destruct (get_at (db_root (m_db st)) h) as [sc|] eqn:G; [|unfold view, vw in V; rewrite G in V; discriminate].
      assert (Ac : act (db_root (m_db st)) h sc (CreateInstance h nm ms w so t (Some hu) f) = adding h sc (Ok (new_instance nm ms w so t (Some hu) f))).
      { cbn [act]. unfold at_handle. destruct (get_at (db_root (m_db st)) hu) eqn:Gu; [reflexivity|].
        unfold view, vw in Vu; rewrite Gu in Vu; discriminate. }
      destruct (do_scope st st' (CreateInstance h nm ms w so t (Some hu) f) h w0 sc _ (CInstance w0 (Some nm) q w so (Z.of_N t) (Some wu) (Z.of_N f)) _ WScope S A eq_refl G Ac
                  ltac:(repeat split)
                  (asks_instance w0 nm nm q ls w w so so (Z.of_N t) wu (Z.of_N f) (Z.of_N f) (c_string_refl nm P1) R2
                     (kept32_refl _ P3) (kept32_refl _ P4) P5 (kept32_refl _ P6))
                  eq_refl) as (d' & new & L' & w' & E1 & E2 & E3 & E4).
      { cbn. repeat (split; [reflexivity || exact R3|]). exists hu. split; [reflexivity|exact Au]. }
      { reflexivity. }
      refine (Fin _ _ _ _ E1 eq_refl _ _ E3 E4); [intros; discriminate|].
      cbn [lib_do]. rewrite W, R1, Wu. cbn [rbind]. unfold got_scope. cbn [perform] in E2. rewrite E2. reflexivity.
    - (* covergroup *) destruct P as (P1 & P2 & P3 & P4).
      destruct (held (m_objs st) a) as [h|] eqn:Ha; [|discriminate]. cbn [rbind] in MC.
      destruct (m_src st s) as [ms|] eqn:Hs; [|discriminate]. injection MC as <-.
      destruct (sim_held _ _ _ _ S Ha) as (w0 & n & W & A & V & C).
      destruct (sim_src _ _ _ _ S Hs P2) as (q & ls & R1 & R2 & R3 & R4).
      destruct (get_at (db_root (m_db st)) h) as [sc|] eqn:G; [|unfold view, vw in V; rewrite G in V; discriminate].
      destruct (do_scope st st' (CreateCovergroup h nm ms w so) h w0 sc (new_covergroup nm ms w so) (CCovergroup w0 (Some nm) q w so) _ WCovergroup S A eq_refl G eq_refl
                  ltac:(repeat split)
                  (asks_covergroup w0 nm nm q ls w w so so (c_string_refl nm P1) R2 (kept32_refl _ P3) (kept32_refl _ P4))
                  eq_refl) as (d' & new & L' & w' & E1 & E2 & E3 & E4).
      { cbn. repeat (split; [reflexivity || exact R3|]). reflexivity. }
      { reflexivity. }
      refine (Fin _ _ _ _ E1 eq_refl _ _ E3 E4); [intros; discriminate|].
      cbn [lib_do]. rewrite W, R1. cbn [rbind]. unfold got_scope. cbn [perform] in E2. rewrite E2. reflexivity.
    - (* coverpoint *) destruct P as (P1 & P2 & P3 & P4).
      destruct (held (m_objs st) a) as [h|] eqn:Ha; [|discriminate]. cbn [rbind] in MC.
      destruct (m_src st s) as [ms|] eqn:Hs; [|discriminate]. injection MC as <-.
      destruct (sim_held _ _ _ _ S Ha) as (w0 & n & W & A & V & C).
      destruct (sim_src _ _ _ _ S Hs P2) as (q & ls & R1 & R2 & R3 & R4).
      destruct (get_at (db_root (m_db st)) h) as [sc|] eqn:G; [|unfold view, vw in V; rewrite G in V; discriminate].
      pose proof (view_get G) as V'. rewrite V in V'. injection V' as ->. cbn [n_attrs node_of] in C.
      assert (Cg : is_cg (s_cls sc) = true).
      { unfold step in H. cbn [target] in H. rewrite G in H. cbn [act] in H. destruct (is_cg (s_cls sc)); [reflexivity|discriminate]. }
      assert (Wc : r_cls w0 = WCovergroup) by (unfold s_cls in Cg; destruct (a_cls (s_attrs sc)); try discriminate; exact C).
      assert (Ac : act (db_root (m_db st)) h sc (CreateCoverpoint h nm ms w so) = adding h sc (Ok (new_coverpoint nm ms w so))).
      { cbn [act]. rewrite Cg. reflexivity. }
      destruct (do_scope st st' (CreateCoverpoint h nm ms w so) h w0 sc _ (CCoverpoint w0 (Some nm) q w so) _ WCoverpoint S A eq_refl G Ac
                  ltac:(repeat split)
                  (asks_coverpoint w0 (Some nm) (Some nm) q ls w w so so Wc (c_string_refl nm P1) R2 (kept32_refl _ P3) (kept32_refl _ P4))
                  eq_refl) as (d' & new & L' & w' & E1 & E2 & E3 & E4).
      { cbn. repeat (split; [reflexivity || exact R3|]). reflexivity. }
      { reflexivity. }
      refine (Fin _ _ _ _ E1 eq_refl _ _ E3 E4); [intros; discriminate|].
      cbn [lib_do]. rewrite W, R1. cbn [rbind]. unfold got_scope. cbn [perform] in E2. rewrite E2. reflexivity.
    - (* cross *) destruct P as (P1 & P2 & P3 & P4).
      destruct (held (m_objs st) a) as [h|] eqn:Ha; [|discriminate]. cbn [rbind] in MC.
      destruct (m_src st s) as [ms|] eqn:Hs; [|discriminate]. cbn [rbind] in MC.
      destruct (traverse (held (m_objs st)) ps) as [hs|] eqn:Hp; [|discriminate]. injection MC as <-.
      destruct (sim_held _ _ _ _ S Ha) as (w0 & n & W & A & V & C).
      destruct (sim_src _ _ _ _ S Hs P2) as (q & ls & R1 & R2 & R3 & R4).
      destruct (sim_points _ _ _ _ S Hp) as (ws & Wp & Fp).
      destruct (get_at (db_root (m_db st)) h) as [sc|] eqn:G; [|unfold view, vw in V; rewrite G in V; discriminate].
      pose proof (view_get G) as V'. rewrite V in V'. injection V' as ->. cbn [n_attrs node_of] in C.
      assert (exists refs, cross_refs (db_root (m_db st)) hs = Ok refs /\ is_cg (s_cls sc) = true) as (refs & Rf & Cg).
      { unfold step in H. cbn [target] in H. rewrite G in H. cbn [act] in H.
        destruct (cross_refs (db_root (m_db st)) hs) as [refs|]; [|discriminate]. cbn [rbind] in H.
        exists refs. split; [reflexivity|]. destruct (is_cg (s_cls sc)); [reflexivity|discriminate]. }
      assert (Wc : r_cls w0 = WCovergroup) by (unfold s_cls in Cg; destruct (a_cls (s_attrs sc)); try discriminate; exact C).
      assert (Ac : act (db_root (m_db st)) h sc (CreateCross h nm ms w so hs) = adding h sc (Ok (new_cross nm ms w so refs))).
      { cbn [act]. rewrite Rf, Cg. reflexivity. }
      destruct (do_scope st st' (CreateCross h nm ms w so hs) h w0 sc _ (CCross w0 (Some nm) q w so ws) _ WCross S A eq_refl G Ac
                  ltac:(repeat split)
                  (asks_cross w0 nm nm q ls w w so so ws Wc (c_string_refl nm P1) R2 (kept32_refl _ P3) (kept32_refl _ P4))
                  eq_refl) as (d' & new & L' & w' & E1 & E2 & E3 & E4).
      { cbn. repeat (split; [reflexivity || exact R3|]). exists refs. split; [reflexivity|].
        exact (refs_points _ _ _ _ (refs_paths _ _ _ Rf) Fp). }
      { reflexivity. }
      refine (Fin _ _ _ _ E1 eq_refl _ _ E3 E4); [intros; discriminate|].
      cbn [lib_do]. rewrite W, R1, Wp. cbn [rbind]. unfold got_scope. cbn [perform] in E2. rewrite E2. reflexivity.
    - (* coverinstance *) destruct P as (P1 & P2 & P3 & P4).
      destruct (held (m_objs st) a) as [h|] eqn:Ha; [|discriminate]. cbn [rbind] in MC.
      destruct (m_src st s) as [ms|] eqn:Hs; [|discriminate]. injection MC as <-.
      destruct (sim_held _ _ _ _ S Ha) as (w0 & n & W & A & V & C).
      destruct (sim_src _ _ _ _ S Hs P2) as (q & ls & R1 & R2 & R3 & R4).
      destruct (get_at (db_root (m_db st)) h) as [sc|] eqn:G; [|unfold view, vw in V; rewrite G in V; discriminate].
      pose proof (view_get G) as V'. rewrite V in V'. injection V' as ->. cbn [n_attrs node_of] in C.
      assert (Cg : is_cg (s_cls sc) = true).
      { unfold step in H. cbn [target] in H. rewrite G in H. cbn [act] in H. destruct (is_database (s_cls sc)); [discriminate|]. destruct (is_cg (s_cls sc)); [reflexivity|discriminate]. }
      assert (Wc : r_cls w0 = WCovergroup) by (unfold s_cls in Cg; destruct (a_cls (s_attrs sc)); try discriminate; exact C).
      assert (Ac : act (db_root (m_db st)) h sc (CreateCoverInstance h nm ms w so) = adding h sc (Ok (new_coverinstance nm ms w so))).
      { cbn [act]. rewrite Cg. cbn [need]. unfold Api.create_scope, is_database. destruct (s_cls sc); try discriminate. reflexivity. }
      destruct (do_scope st st' (CreateCoverInstance h nm ms w so) h w0 sc _ (CCoverInstance w0 (Some nm) q w so) _ WCovergroup S A eq_refl G Ac
                  ltac:(repeat split)
                  (asks_cover_instance w0 nm nm q ls w w so so Wc (c_string_refl nm P1) R2 (kept32_refl _ P3) (kept32_refl _ P4))
                  eq_refl) as (d' & new & L' & w' & E1 & E2 & E3 & E4).
      { cbn. repeat (split; [reflexivity || exact R3|]). reflexivity. }
      { reflexivity. }
      refine (Fin _ _ _ _ E1 eq_refl _ _ E3 E4); [intros; discriminate|].
      cbn [lib_do]. rewrite W, R1. cbn [rbind]. unfold got_scope. cbn [perform] in E2. rewrite E2. reflexivity.
    - (* bin *) destruct P as (P1 & P2 & P3 & P4).
      destruct (held (m_objs st) a) as [h|] eqn:Ha; [|discriminate]. cbn [rbind] in MC.
      destruct (m_src st s) as [ms|] eqn:Hs; [|discriminate]. injection MC as <-.
      destruct (sim_held _ _ _ _ S Ha) as (w0 & n & W & A & V & C).
      destruct (sim_src _ _ _ _ S Hs P2) as (q & ls & R1 & R2 & R3 & R4).
      destruct (get_at (db_root (m_db st)) h) as [sc|] eqn:G; [|unfold view, vw in V; rewrite G in V; discriminate].
      pose proof (view_get G) as V'. rewrite V in V'. injection V' as ->. cbn [n_attrs node_of] in C.
      set (kd := match k with Some k => k | None => CVGBIN end) in *.
      assert (Pt : is_point (s_cls sc) = true).
      { unfold step in H. cbn [target] in H. rewrite G in H. cbn [act] in H. destruct (is_point (s_cls sc)); [reflexivity|discriminate]. }
      assert (Ni : is_inst (s_cls sc) = false) by (destruct (s_cls sc); auto; discriminate).
      assert (Ku : u64 (Z.of_N kd)).
      { unfold kd. destruct k as [k|]; [apply P4|]. unfold u64. cbn. lia. }
      assert (Ac : act (db_root (m_db st)) h sc (CreateBin h nm ms al ct kd) =
                   (add_item sc (new_bin nm ms al ct kd), Ok (OItem h (List.length (s_items sc))))).
      { cbn [act]. rewrite Pt. reflexivity. }
      assert (Eb : create_bin agrees_cover w0 (Some nm) q al ct k (l_lib st') =
                   create_next_cover agrees_cover w0 (Some nm) (ci_data (new_bin nm ms al ct kd)) q (l_lib st')).
      { destruct (C92_bin_partial agrees_cover w0 (Some nm) q al ct k (l_lib st')) as (B1 & B2 & _).
        unfold s_cls in Pt. destruct (a_cls (s_attrs sc)) as [| |[u|]| | | |cps] eqn:Ec; try discriminate; cbn in C.
        - rewrite (B1 C). reflexivity.
        - destruct k as [k|]; [|rewrite (B2 C eq_refl); reflexivity]. destruct P4 as [_ (h0 & n0 & X1 & X2 & X3)].
          apply held_ok in Ha. rewrite Ha in X1. injection X1 as <-. rewrite V in X2. injection X2 as <-.
          cbn in X3. congruence. }
      destruct (do_cover st st' h w0 sc (CreateBin h nm ms al ct kd) _ (ci_data (new_bin nm ms al ct kd)) nm q ms ls _ _ S A eq_refl G Ac eq_refl eq_refl
                  ltac:(rewrite Ni; split; reflexivity) R2 R4 P1
                  ltac:(unfold fits; cbn [new_bin ci_data cd_type cd_flags cd_data cd_goal cd_weight cd_limit cd_bitlen]; split; [exact Ku|]; do 5 (split; [unfold i32; cbn; lia|]); left; split; [reflexivity|exact P3])
                  eq_refl) as (d' & L' & x & E1 & E2 & E3 & E4).
      rewrite E1 in H. injection H as <-. eexists. cbn [lib_do]. rewrite W, R1. cbn [rbind]. unfold got. rewrite Eb, E2.
      split; [reflexivity|]. split; [exact E3|]. split; [intros ? ? D; discriminate|]. intros slot g Hg _. apply E4, Hg.
    - (* cover *) destruct P as (P1 & P2 & P3).
      destruct (held (m_objs st) a) as [h|] eqn:Ha; [|discriminate]. cbn [rbind] in MC.
      destruct (m_src st s) as [ms|] eqn:Hs; [|discriminate]. injection MC as <-.
      destruct (sim_held _ _ _ _ S Ha) as (w0 & n & W & A & V & C).
      destruct (sim_src _ _ _ _ S Hs P2) as (q & ls & R1 & R2 & R3 & R4).
      destruct (get_at (db_root (m_db st)) h) as [sc|] eqn:G; [|unfold view, vw in V; rewrite G in V; discriminate].
      assert (exists s' r, act (db_root (m_db st)) h sc (CreateNextCover h nm dt ms) = (s', Ok r) /\
                s_kids s' = s_kids sc /\ s_attrs s' = s_attrs sc /\
                (if is_inst (s_cls sc) then s_items s' = s_items sc /\ s_iitems s' = s_iitems sc ++ [IItem nm dt ms 0]
                 else s_items s' = s_items sc ++ [Item nm dt ms] /\ s_iitems s' = s_iitems sc) /\
                (match r with OScope _ | OFile _ => False | _ => True end)) as (s' & r & Ac & K1 & K2 & K3 & K4).
      { cbn [act]. destruct (is_inst (s_cls sc)); eexists; eexists; (split; [reflexivity|]); repeat split. }
      destruct (do_cover st st' h w0 sc (CreateNextCover h nm dt ms) _ dt nm q ms ls _ _ S A eq_refl G Ac K1 K2 K3 R2 R4 P1 P3 eq_refl)
        as (d' & L' & x & E1 & E2 & E3 & E4).
      rewrite E1 in H. assert (st1 = MemSide d' (m_objs st) (m_files st)) by (destruct r; try contradiction; congruence). subst st1.
      eexists. cbn [lib_do]. rewrite W, R1. cbn [rbind]. unfold got. rewrite E2.
      split; [reflexivity|]. split; [exact E3|]. split; [intros ? ? D; discriminate|]. intros slot g Hg _. apply E4, Hg.
    - (* option *)
      destruct (held (m_objs st) a) as [h|] eqn:Ha; [|discriminate]. cbn [rbind] in MC.
      destruct (m_field f) as [f'|] eqn:MF; [|discriminate]. injection MC as <-.
      destruct (sim_held _ _ _ _ S Ha) as (w0 & n & W & A & V & C).
      destruct (get_at (db_root (m_db st)) h) as [sc|] eqn:G; [|unfold view, vw in V; rewrite G in V; discriminate].
      pose proof (view_get G) as V'. rewrite V in V'. injection V' as ->. cbn [n_attrs node_of] in C.
      assert (exists s', set_field sc f' = Ok s') as (s' & SF).
      { unfold step in H. cbn [target] in H. rewrite G in H. cbn [act] in H. destruct (set_field sc f') as [s'|]; [eauto|discriminate]. }
      destruct (do_set st st' a h w0 f f' sc s' S (proj1 (held_ok _ _ _ _) Ha) (proj1 (held_ok _ _ _ _) W) A G C MF SF P)
        as (d' & L' & E1 & E2 & E3 & E4 & E5).
      rewrite E1 in H. injection H as <-. eexists. cbn [lib_do]. rewrite W. cbn [rbind]. unfold got. rewrite E2.
      split; [reflexivity|]. split; [exact E3|]. split.
      + intros slot g D. injection D as <- <-. exact E4.
      + intros slot g Hg Kg. apply E5; [exact Hg|]. intros ->. apply Kg. reflexivity.
  Qed.
End Step.

(** ** Programs *)
Lemma sim_new : forall props, sim mem_new (lib_new props).
Proof.
  intros props. constructor; cbn.
  - intros path. destruct path as [|k path].
    + cbn. split; [reflexivity|]. split; [constructor|reflexivity].
    + unfold view, vw. cbn. unfold at_path. cbn. destruct k; exact I.
  - constructor.
  - constructor; [|constructor]. split; [reflexivity|]. eexists. split; reflexivity.
  - constructor.
  - intros i m p E. destruct i; discriminate.
  - constructor.
  - intros h n V. destruct h as [|k h]; [|unfold view, vw in V; destruct k; discriminate].
    injection V as <-. reflexivity.
  - constructor; [intros []|constructor].
Qed.

Lemma last_set_snoc : forall p c slot k,
  last_set (p ++ [c]) slot k =
  match c with
  | PSet a f => if Nat.eqb a slot && (kind_of f =? k)%N then Some f else last_set p slot k
  | _ => last_set p slot k
  end.
Proof.
  intros p c slot k. induction p as [|x p IH].
  - destruct c; reflexivity.
  - cbn [app last_set]. rewrite IH. clear IH. destruct c; try reflexivity.
    destruct (Nat.eqb _ _ && (kind_of f =? k)%N)%bool; reflexivity.
Qed.
Lemma last_set_kind : forall p slot k f, last_set p slot k = Some f -> kind_of f = k.
Proof.
  intros p slot k f. induction p as [|c p IH]; cbn; [discriminate|].
  destruct (last_set p slot k) as [g|]; [exact IH|]. destruct c as [| | | | | | | | | |a g]; try discriminate.
  destruct (Nat.eqb a slot); [|discriminate]. destruct (N.eqb_spec (kind_of g) k); [|discriminate]. cbn. congruence.
Qed.

Section Programs.
  Let k0 : kept32 0 0. Proof. apply kept32_refl. unfold i32. lia. Qed.
  Let k1 : kept32 1 1. Proof. apply kept32_refl. unfold i32. lia. Qed.
  Variable agrees : library -> made -> bool.
  Variable agrees_cover : library -> lcover -> bool.
  Hypothesis yes : forall L m, agrees L m = true.
  Hypothesis yes_cover : forall L c, agrees_cover L c = true.

  Lemma run_same : forall p done st st' st1,
    sim st st' -> (forall slot k f, last_set done slot k = Some f -> has_opt st st' slot f) ->
    all_portable st p -> mem_run st p = Ok st1 ->
    exists st1', lib_run agrees agrees_cover st' p = Ok st1' /\ sim st1 st1' /\
      (forall slot k f, last_set (done ++ p) slot k = Some f -> has_opt st1 st1' slot f).
  Proof.
    induction p as [|c p IH]; intros done st st' st1 S O P H; cbn in P, H.
    - injection H as <-. exists st'. rewrite app_nil_r. auto.
    - destruct P as [P1 P2]. destruct (mem_do st c) as [st0|] eqn:E; [|discriminate].
      destruct (do_step agrees agrees_cover yes yes_cover st st' c st0 S P1 E) as (st0' & L1 & S0 & O1 & O2).
      cbn [lib_run]. rewrite L1. cbn [rbind] in H |- *. replace (done ++ c :: p) with ((done ++ [c]) ++ p) by (rewrite <- app_assoc; reflexivity).
      apply (IH (done ++ [c]) st0 st0' st1 S0); [|exact P2|exact H].
      intros slot k f F. rewrite last_set_snoc in F.
      destruct c as [| | | | | | | | | |a g]; try (apply O2; [exact (O _ _ _ F)|intros; discriminate]).
      destruct (Nat.eqb_spec a slot) as [->|Na]; cbn [andb] in F.
      + destruct (N.eqb_spec (kind_of g) k) as [Kg|Kg].
        * injection F as <-. apply O1. reflexivity.
        * apply O2; [exact (O _ _ _ F)|]. intros f' D. injection D as <-. pose proof (last_set_kind _ _ _ _ F). congruence.
      + apply O2; [exact (O _ _ _ F)|]. intros f' D. injection D as D _. congruence.
  Qed.

  (** C93.  A program that builds a database in memory without an exception also
      builds it through a library that agrees to everything, if its numbers and
      names fit.  Then the same path leads to the same scope on both sides, with
      the same fields, references and cover items in the same order, or to
      nothing on both; the history nodes are the same; the objects the program
      holds stand for the same scopes; and every option that the program has set
      has the value that was set last, on both sides.  Missing from the full
      property: what the refutations below say. *)
  Theorem C93_same_partial : forall props p st,
    all_portable mem_new p -> mem_run mem_new p = Ok st ->
    exists st', lib_run agrees agrees_cover (lib_new props) p = Ok st' /\
      same_tree (m_db st) (l_lib st') /\ same_history (m_db st) (l_lib st') /\
      same_objects (m_db st) (m_objs st) (l_lib st') (l_objs st') /\
      same_options p st st'.
  Proof.
    intros props p st P H.
    destruct (run_same p [] mem_new (lib_new props) st (sim_new props) ltac:(discriminate) P H) as (st' & E & S & O).
    exists st'. split; [exact E|]. split; [exact (sim_tree _ _ S)|]. split; [exact (sim_hist _ _ S)|].
    split; [exact (sim_objs _ _ S)|]. exact O.
  Qed.

  (** What a program has not set is not the same: the goal, the at_least value
      and per_instance of a new covergroup have no common value. *)
  Theorem C93_defaults_refuted : forall props n w so,
    nul_free n -> i32 w -> i32 so ->
    exists st st' h wr nd, mem_run mem_new [PCovergroup 0 n None w so] = Ok st /\
      lib_run agrees agrees_cover (lib_new props) [PCovergroup 0 n None w so] = Ok st' /\
      m_objs st = [[]; h] /\ l_objs st' = [LRef WDb None; wr] /\ view (m_db st) h = Some nd /\
      forall f, (exists v, f = LGoal v) \/ (exists v, f = LAtLeast v) \/ (exists b, f = LPerInstance b) ->
        ~ (mem_has (n_attrs nd) f /\ lib_has (l_lib st') (r_obj wr) f).
  Proof.
    intros props n w so N W S.
    destruct (C92_created_partial agrees (CCovergroup (LRef WDb None) (Some n) None w so)
                (MScope None (Some n) None w so 4096 0) WCovergroup (Library props [] [])
                (asks_covergroup (LRef WDb None) n n None None w w so so (c_string_refl n N) src_none
                   (kept32_refl _ W) (kept32_refl _ S)) (yes _ _)) as (L' & E & _ & _ & _ & EI & _).
    eexists. eexists. exists [0%nat], (LRef WCovergroup (Some 0%nat)). eexists.
    split; [reflexivity|]. split.
    { cbn [lib_run lib_do l_objs lib_new held nth_error l_src rbind]. unfold got_scope. cbn [l_lib lib_new]. cbn [perform] in E.
      rewrite E. reflexivity. }
    split; [reflexivity|]. split; [reflexivity|]. split; [reflexivity|].
    cbn [List.length lb_made] in EI. intros f Hf (A & B). destruct Hf as [(v & ->)|[(v & ->)|(b & ->)]]; cbn in A, B; subst.
    - rewrite (EI 4%N 100) in B; [discriminate|]. left. auto.
    - rewrite (EI 24%N 1) in B; [discriminate|]. right. left. auto.
    - rewrite (EI 29%N 0) in B; [discriminate|]. right. right. auto.
  Qed.

  (** A bin of a cross with a kind: an exception with the library only. *)
  Theorem C93_cross_kind_refuted : forall props n k,
    nul_free n ->
    let p := [PCovergroup 0 n None 1 0; PCross 1 n None 1 0 []; PBin 2 n None 1 1 (Some k)] in
    (exists st, mem_run mem_new p = Ok st) /\
    lib_run agrees agrees_cover (lib_new props) p = Err TypeError.
  Proof.
    intros props n k N p. split; [eexists; reflexivity|].
    pose (L0 := Library props [] []).
    destruct (C92_created_partial agrees (CCovergroup (LRef WDb None) (Some n) None 1 0)
                (MScope None (Some n) None 1 0 4096 0) WCovergroup L0
                (asks_covergroup (LRef WDb None) n n None None 1 1 0 0 (c_string_refl n N) src_none
                   k1 k0) (yes _ _)) as (L1 & E1 & _).
    set (w1 := LRef WCovergroup (Some (List.length (lb_made L0)))) in *.
    destruct (C92_created_partial agrees (CCross w1 (Some n) None 1 0 [])
                (MCross (r_obj w1) n None 1 0 (map r_obj [])) WCross L1
                (asks_cross w1 n n None None 1 1 0 0 [] eq_refl (c_string_refl n N) src_none
                   k1 k0) (yes _ _)) as (L2 & E2 & _).
    unfold p. cbn [lib_run lib_do l_objs l_files lib_new held nth_error l_src rbind]. unfold got_scope at 1. cbn [l_lib lib_new l_objs l_files].
    cbn [perform] in E1, E2. fold L0. rewrite E1. cbn [rbind l_objs l_files app held nth_error traverse].
    unfold got_scope. cbn [l_lib]. rewrite E2. reflexivity.
  Qed.

  (** createScope for a covergroup: with the library the object it returns is no
      covergroup. *)
  Theorem C93_scope_class_refuted : forall props n,
    nul_free n ->
    let p := [PScope 0 n None 1 0 COVERGROUP 0; PCoverpoint 1 n None 1 0] in
    (exists st, mem_run mem_new p = Ok st) /\
    lib_run agrees agrees_cover (lib_new props) p = Err AttributeError.
  Proof.
    intros props n N p. split; [eexists; reflexivity|].
    pose (L0 := Library props [] []).
    destruct (C92_created_partial agrees (CScope (LRef WDb None) (Some n) None 1 0 4096 0)
                (MScope None (Some n) None 1 0 4096 0) WScope L0
                (asks_scope (LRef WDb None) (Some n) (Some n) None None 1 1 0 0 4096 0 0 (c_string_refl n N) src_none
                   k1 k0 ltac:(unfold u64; lia)
                   k0) (yes _ _)) as (L1 & E1 & _).
    unfold p. cbn [lib_run lib_do l_objs l_files lib_new held nth_error l_src rbind]. unfold got_scope at 1. cbn [l_lib lib_new l_objs l_files].
    cbn [perform] in E1. change (Z.of_N COVERGROUP) with 4096. change (Z.of_N 0) with 0. fold L0. rewrite E1. reflexivity.
  Qed.

  (** createScope for any other kind of scope works with the library and raises
      in memory. *)
  Theorem C93_scope_types_refuted : forall props n t,
    nul_free n -> (exists b, t = (2 ^ b)%N) -> u64 (Z.of_N t) ->
    ~ In t [DU_MODULE; DU_ARCH; DU_PACKAGE; DU_PROGRAM; DU_INTERFACE; COVERGROUP; COVERINSTANCE; COVERPOINT] ->
    let p := [PScope 0 n None 1 0 t 0] in
    mem_run mem_new p = Err NotImplementedError /\
    exists st, lib_run agrees agrees_cover (lib_new props) p = Ok st.
  Proof.
    intros props n t N (b & ->) U D p. split.
    - unfold p. cbn [mem_run]. unfold mem_do. cbn [m_call held m_objs mem_new nth_error rbind m_src].
      unfold step. cbn [target get_at db_root empty_db m_db act]. unfold Api.create_scope, mem_create_scope.
      cbn [new_scope mk_attrs s_cls s_attrs a_cls is_inst].
      assert (DU_ANY (2 ^ b) = false) as ->.
      { unfold DU_ANY, mask_hit. apply Bool.negb_false_iff, N.eqb_eq. apply N.bits_inj. intros i.
        rewrite N.land_spec, N.bits_0. destruct (N.eqb_spec b i) as [->|Ni].
        - rewrite N.pow2_bits_true. cbn [andb]. destruct (N.testbit DU_BITS i) eqn:Ti; [|reflexivity]. exfalso. apply D.
          assert (i < 64)%N as Hi.
          { apply N.nle_gt. intros Hi. rewrite (N.bits_above_log2 DU_BITS i) in Ti; [discriminate|].
            change (N.log2 DU_BITS) with 28%N. lia. }
          assert (In i [24; 25; 26; 27; 28]%N) as Hin.
          { clear - Ti Hi. revert Ti. 
            assert (Hc : forallb (fun j => negb (N.testbit DU_BITS j) || existsb (N.eqb j) [24; 25; 26; 27; 28]%N) (map N.of_nat (seq 0 64)) = true) by reflexivity.
            rewrite forallb_forall in Hc. intros Ti. specialize (Hc i). rewrite Ti in Hc. cbn [negb orb] in Hc.
            assert (In i (map N.of_nat (seq 0 64))) as Hm.
            { apply in_map_iff. exists (N.to_nat i). split; [apply N2Nat.id|]. apply in_seq. lia. }
            apply Hc in Hm. apply existsb_exists in Hm. destruct Hm as (x & X1 & X2). apply N.eqb_eq in X2. subst. exact X1. }
          cbn in Hin. destruct Hin as [<-|[<-|[<-|[<-|[<-|[]]]]]]; cbn; auto 10.
        - rewrite N.pow2_bits_false by exact Ni. reflexivity. }
      repeat match goal with |- context [(2 ^ b =? ?x)%N] =>
        destruct (N.eqb_spec (2 ^ b)%N x) as [Eq|_]; [exfalso; apply D; rewrite Eq; cbn; auto 10|] end.
      reflexivity.
    - destruct (C92_created_partial agrees (CScope (LRef WDb None) (Some n) None 1 0 (Z.of_N (2 ^ b)) 0)
                (MScope None (Some n) None 1 0 (Z.of_N (2 ^ b)) 0) WScope (Library props [] [])
                (asks_scope (LRef WDb None) (Some n) (Some n) None None 1 1 0 0 (Z.of_N (2 ^ b)) 0 0 (c_string_refl n N) src_none
                   k1 k0 U
                   k0) (yes _ _)) as (L1 & E1 & _).
      unfold p. cbn [lib_run lib_do l_objs l_files lib_new held nth_error l_src rbind]. unfold got_scope. cbn [l_lib lib_new].
      cbn [perform] in E1. change (Z.of_N 0) with 0. rewrite E1. eexists. reflexivity.
  Qed.
End Programs.

(** A program that meets the hypotheses. *)
Definition sample : list cmd :=
  [ PFile "top.sv" (Some "/work"%string);
    PHistory "test1" "test1.ucis" 1 1700000000;
    PScope 0 "module" (Some (PSource 0 1 0)) 1 3 DU_MODULE 0;
    PInstance 0 "top" (Some (PSource 0 4 0)) 1 3 INSTANCE 1 0;
    PCovergroup 2 "cg" (Some (PSource 0 10 0)) 1 3;
    PSet 3 (LGoal 90);
    PCoverpoint 3 "a" (Some (PSource 0 11 0)) 1 3;
    PBin 4 "a0" (Some (PSource 0 11 0)) 1 7 None;
    PBin 4 "ill" None 1 0 (Some ILLEGALBIN);
    PCoverpoint 3 "b" None 2 3;
    PBin 5 "b0" None 1 4294967295 None;
    PCross 3 "axb" None 1 3 [4; 5]%nat;
    PBin 6 "a0,b0" None 1 2 None;
    PCoverInstance 3 "cg1" None 1 3;
    PSet 3 (LGoal 80); PSet 7 (LAtLeast 2); PSet 4 (LComment "note");
    PCover 2 "stmt" (CoverData STMTBIN 1 12 0 0 0 0 None) (Some (PSource 0 20 1)) ].

Lemma portable_step : forall st c r st1,
  portable st c -> mem_do st c = Ok st1 -> all_portable st1 r -> all_portable st (c :: r).
Proof. intros st c r st1 A B C. cbn. rewrite B. auto. Qed.

Ltac free := let i := fresh in intros i; repeat (first [discriminate | destruct i as [|i]]).
Ltac fit := repeat match goal with
  | |- nul_free _ => free
  | |- i32 _ => unfold i32; cbn; lia
  | |- u32 _ => unfold u32; cbn; lia
  | |- u64 _ => unfold u64; cbn; lia
  | |- fits_src _ => cbn
  | |- fits_field _ => cbn
  | |- True => exact I
  | |- _ /\ _ => split
  end.
Example sample_portable : all_portable mem_new sample.
Proof.
  unfold sample.
  repeat match goal with
         | |- all_portable _ (_ :: _) => eapply portable_step; [|vm_compute; reflexivity|]
         | |- all_portable _ [] => exact I
         end.
  all: unfold portable; try (solve [fit]).
  - fit. left. reflexivity.
  - fit. eexists. eexists. split; [reflexivity|]. split; reflexivity.
  - fit. unfold fits. fit. left. split; [reflexivity|fit].
Qed.
Example sample_runs : exists st, mem_run mem_new sample = Ok st /\
  view (m_db st) [1; 0; 2]%nat <> None /\ List.length (m_objs st) = 8%nat.
Proof. eexists. split; [vm_compute; reflexivity|]. split; [discriminate|reflexivity]. Qed.
Example sample_last : last_set sample 3 0 = Some (LGoal 80) /\ last_set sample 7 1 = Some (LAtLeast 2) /\
  last_set sample 4 5 = Some (LComment "note").
Proof. repeat split. Qed.

(** Its tree in a library that agrees: the cross of the covergroup of the
    instance refers to the two coverpoints. *)
Example sample_library : exists st,
  lib_run (fun _ _ => true) (fun _ _ => true) (lib_new (LibState (fun _ _ _ => None) (fun _ _ _ => None) (fun _ => None))) sample = Ok st /\
  at_path (l_lib st) [1; 0; 2]%nat = Some (Some 7%nat) /\
  nth_error (lb_made (l_lib st)) 7 = Some (MCross (Some 4%nat) "axb" None 1 3 [Some 5%nat; Some 6%nat]) /\
  map lc_name (lib_covers (l_lib st) (Some 5%nat)) = ["a0"; "ill"]%string.
Proof. eexists. split; [vm_compute; reflexivity|]. repeat split. Qed.

Example plain_name : nul_free "cg". Proof. free. Qed.
Example other_type : (exists b, BRANCH = (2 ^ b)%N) /\ u64 (Z.of_N BRANCH) /\
  ~ In BRANCH [DU_MODULE; DU_ARCH; DU_PACKAGE; DU_PROGRAM; DU_INTERFACE; COVERGROUP; COVERINSTANCE; COVERPOINT].
Proof.
  split; [exists 1%N; reflexivity|]. split; [unfold u64; cbn; lia|].
  intros H. repeat (destruct H as [H|H]; [discriminate|]). exact H.
Qed.

Print Assumptions C93_same_partial.
Print Assumptions C93_defaults_refuted.
Print Assumptions C93_cross_kind_refuted.
Print Assumptions C93_scope_class_refuted.
Print Assumptions C93_scope_types_refuted.
