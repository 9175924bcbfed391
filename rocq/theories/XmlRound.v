(** Writing and reading back. *)
From Verif Require Import Base Dict Consts Db Hist Report ReportSpec NameSpec NubFacts MergeSpec BaseFacts ReportFacts
  PyInt PyIntFacts Dates DatesFacts Xml XmlWriter XmlReader XmlSpec XmlWriteFacts XmlReadFacts XmlViews XmlHistSpec XmlHistFacts.
Local Open Scope string_scope.
Local Open Scope list_scope.

(** ** Instances *)
Definition types_step (p : nat) (ts : list type_view) (cgs : list scope) : res (list scope) :=
  fold_res (fun cgs t => let* g := type_step [p; List.length cgs] t in Ok (cgs ++ [g])) ts cgs.

Definition inst_step (st : rst) (v : inst_view) : res rst :=
  let '(st, du) := get_scope "default" st in
  let '(st, x) := get_inst_scope (iv_name v) du st in
  let* cgs := types_step (fst x) (iv_types v) (snd x) in
  Ok (Rst (r_slots st) (r_mods st) (dset (iv_name v) (fst x, cgs) (r_insts st))).

Definition doc_inst (v : inst_view) : Prop := Forall doc_type (iv_types v).

Lemma types_step_r : forall p ts cgs, Forall doc_type ts ->
  fold_res (read_covergroups p) (map r_type ts) cgs = types_step p ts cgs.
Proof.
  intros p. induction ts as [|t ts IH]; intros cgs F; [reflexivity|]. inversion F; subst.
  unfold types_step. cbn [map fold_res]. rewrite read_covergroups_r by assumption.
  destruct (type_step [p; List.length cgs] t); [|reflexivity]. cbn [rbind]. now apply IH.
Qed.

Lemma read_instance_r : forall ids st v, existsb (Z.eqb 1) ids = true -> doc_inst v ->
  read_instance ids st (r_inst v) = inst_step st v.
Proof.
  intros ids st v I D. unfold read_instance, inst_step. rewrite inst_ids, inst_types.
  change (attrib "name" (r_inst v)) with (Ok (iv_name v)). cbn [rbind traverse].
  assert (check_id ids (source_id_elem "id") = Ok tt) as ->.
  { unfold check_id. change (get_attr_int "file" (source_id_elem "id")) with (Ok 1%Z).
    change (get_attr_int "line" (source_id_elem "id")) with (Ok 1%Z).
    change (get_attr_int "inlineCount" (source_id_elem "id")) with (Ok 1%Z). cbn [rbind]. now rewrite I. }
  cbn [rbind]. change (get_attr_or "moduleName" "default" (r_inst v)) with "default".
  destruct (get_scope "default" st) as [s1 du]. destruct (get_inst_scope (iv_name v) du s1) as [s2 x].
  now rewrite types_step_r.
Qed.

Lemma read_instances_r : forall ids vs st, existsb (Z.eqb 1) ids = true -> Forall doc_inst vs ->
  fold_res (read_instance ids) (map r_inst vs) st = fold_res inst_step vs st.
Proof.
  intros ids vs. induction vs as [|v vs IH]; intros st I F; [reflexivity|]. inversion F; subst. cbn [map fold_res].
  rewrite read_instance_r by assumption. destruct (inst_step st v); [|reflexivity]. cbn [rbind]. now apply IH.
Qed.

(** ** Reader states with a single design unit *)
Lemma NoDup_app_l : forall A (l l' : list A), NoDup (l ++ l') -> NoDup l.
Proof.
  induction l as [|x l IH]; intros l' N; [constructor|]. inversion N; subst. constructor.
  - intros I. apply H1. apply in_or_app. now left.
  - eapply IH. eassumption.
Qed.
Definition ilist := list (string * list scope).
Fixpoint placed (i : nat) (l : ilist) : dict (nat * list scope) :=
  match l with
  | [] => []
  | (n, c) :: t => (n, (i, c)) :: placed (S i) t
  end.
Definition canon (l : ilist) : rst :=
  match l with
  | [] => Rst [] [] []
  | _ => Rst (RDu "default" :: map (fun x => RInst (fst x) 0) l) [("default", 0)] (placed 1 l)
  end.

Lemma placed_app : forall l l' i, placed i (l ++ l') = placed i l ++ placed (i + List.length l) l'.
Proof.
  induction l as [|[n c] l IH]; intros l' i; cbn [placed app List.length]; [now rewrite Nat.add_0_r|].
  rewrite IH. now rewrite Nat.add_succ_r.
Qed.
Lemma dget_placed : forall l i n, dget n (placed i l) = None <-> ~ In n (map fst l).
Proof.
  induction l as [|[m c] l IH]; intros i n; cbn; [tauto|].
  destruct (String.eqb_spec n m) as [->|H]; [intuition discriminate|]. rewrite IH. intuition congruence.
Qed.
Lemma dget_placed_in : forall l i k n c, NoDup (map fst l) -> nth_error l k = Some (n, c) ->
  dget n (placed i l) = Some (i + k, c).
Proof.
  induction l as [|[m d] l IH]; intros i k n c N H; [destruct k; discriminate|]. inversion N as [|? ? N1 N2]; subst. cbn [placed dget].
  destruct k as [|k]; cbn [nth_error] in H.
  - injection H as -> ->. rewrite String.eqb_refl. now rewrite Nat.add_0_r.
  - destruct (String.eqb_spec n m) as [->|Hn].
    + exfalso. apply N1. apply nth_error_In in H. change m with (fst (m, c)). now apply in_map.
    + rewrite (IH (S i) k n c N2 H). f_equal. f_equal. lia.
Qed.
Lemma dset_placed_at : forall l i k n c c', NoDup (map fst l) -> nth_error l k = Some (n, c) ->
  dset n (i + k, c') (placed i l) = placed i (set_nth k (n, c') l).
Proof.
  induction l as [|[m d] l IH]; intros i k n c c' N H; [destruct k; discriminate|]. inversion N as [|? ? N1 N2]; subst. cbn [placed dset].
  destruct k as [|k]; cbn [nth_error set_nth] in *.
  - injection H as -> ->. rewrite String.eqb_refl. cbn [placed]. now rewrite Nat.add_0_r.
  - destruct (String.eqb_spec n m) as [->|Hn].
    + exfalso. apply N1. apply nth_error_In in H. change m with (fst (m, c)). now apply in_map.
    + cbn [placed]. f_equal. rewrite <- (IH (S i) k n c c' N2 H). f_equal. f_equal. lia.
Qed.

Lemma placed_length : forall l i, List.length (placed i l) = List.length l.
Proof. induction l as [|[n c] l IH]; intros i; cbn; [reflexivity|]. now rewrite IH. Qed.

(** The state before the covergroups of an instance are read. *)
Lemma open_new : forall l n, ~ In n (map fst l) ->
  (let '(st, du) := get_scope "default" (canon l) in get_inst_scope n du st) = (canon (l ++ [(n, [])]), (S (List.length l), [])).
Proof.
  intros l n H. destruct l as [|x l].
  - reflexivity.
  - change (get_scope "default" (canon (x :: l))) with (canon (x :: l), 0). cbv iota beta.
    unfold get_inst_scope. change (r_insts (canon (x :: l))) with (placed 1 (x :: l)).
    rewrite (proj2 (dget_placed (x :: l) 1 n) H).
    change (r_slots (canon (x :: l))) with (RDu "default" :: map (fun x => RInst (fst x) 0) (x :: l)).
    cbn [List.length]. rewrite map_length. f_equal. unfold canon. cbn [app].
    change (x :: l ++ [(n, [])]) with ((x :: l) ++ [(n, [])]). rewrite map_app, placed_app.
    rewrite dset_new by (unfold dmem; now rewrite (proj2 (dget_placed (x :: l) 1 n) H)). reflexivity.
Qed.
Lemma open_old : forall l k n c, NoDup (map fst l) -> nth_error l k = Some (n, c) ->
  (let '(st, du) := get_scope "default" (canon l) in get_inst_scope n du st) = (canon l, (S k, c)).
Proof.
  intros l k n c N H. destruct l as [|x l]; [destruct k; discriminate|].
  change (get_scope "default" (canon (x :: l))) with (canon (x :: l), 0). cbv iota beta.
  unfold get_inst_scope. change (r_insts (canon (x :: l))) with (placed 1 (x :: l)).
  rewrite (dget_placed_in (x :: l) 1 k n c N H). reflexivity.
Qed.
Lemma set_nth_map : forall A B (f : A -> B) l k x y, nth_error l k = Some y -> f x = f y -> map f (set_nth k x l) = map f l.
Proof.
  induction l as [|z l IH]; intros k x y H E; [destruct k; discriminate|].
  destruct k as [|k]; cbn in *; [injection H as ->; now rewrite E|]. f_equal. eapply IH; eassumption.
Qed.
Lemma close_inst : forall l k n c c', NoDup (map fst l) -> nth_error l k = Some (n, c) ->
  Rst (r_slots (canon l)) (r_mods (canon l)) (dset n (S k, c') (r_insts (canon l))) = canon (set_nth k (n, c') l).
Proof.
  intros l k n c c' N H. destruct l as [|x l]; [destruct k; discriminate|].
  change (r_insts (canon (x :: l))) with (placed 1 (x :: l)).
  pose proof (dset_placed_at (x :: l) 1 k n c c' N H) as E. cbn [Nat.add] in E. rewrite E.
  assert (M : map (fun x : string * list scope => RInst (fst x) 0) (set_nth k (n, c') (x :: l)) = map (fun x => RInst (fst x) 0) (x :: l))
    by (eapply set_nth_map; [exact H|reflexivity]).
  unfold canon at 1 2. destruct (set_nth k (n, c') (x :: l)) as [|y q] eqn:S.
  - destruct k; discriminate.
  - unfold canon. rewrite M. reflexivity.
Qed.

Lemma nth_error_snoc : forall A (l : list A) x, nth_error (l ++ [x]) (List.length l) = Some x.
Proof. intros. rewrite nth_error_app2, Nat.sub_diag by lia. reflexivity. Qed.

Lemma inst_step_new : forall l v, NoDup (map fst l) -> ~ In (iv_name v) (map fst l) ->
  inst_step (canon l) v = let* cgs := types_step (S (List.length l)) (iv_types v) [] in Ok (canon (l ++ [(iv_name v, cgs)])).
Proof.
  intros l v N H. unfold inst_step. pose proof (open_new l (iv_name v) H) as O.
  destruct (get_scope "default" (canon l)) as [s1 du]. rewrite O. cbn [fst snd].
  destruct (types_step _ _ _) as [cgs|]; [|reflexivity]. cbn [rbind]. f_equal.
  assert (N' : NoDup (map fst (l ++ [(iv_name v, @nil scope)]))).
  { rewrite map_app. cbn. clear O.
    apply NoDup_rev in N. rewrite <- rev_involutive. apply NoDup_rev. rewrite rev_app_distr. cbn. constructor; [|assumption].
    now rewrite <- in_rev. }
  rewrite (close_inst _ _ _ _ cgs N' (nth_error_snoc _ _ _)). f_equal. apply set_nth_app. reflexivity.
Qed.

(** ** The views of a reader state *)
Definition view_entry (x : string * list scope) : inst_view := InstView (fst x) (map view_type (snd x)).
Definition all_groups (l : ilist) : Prop := Forall (fun x => Forall (fun g => s_type g = COVERGROUP) (snd x)) l.

Definition root_of (st : rst) : scope :=
  Scope (s_attrs (db_root empty_db)) [] [] (map (rfill (r_insts st)) (r_slots st)).

Definition entry_scope (x : string * list scope) : scope :=
  Scope (s_attrs (new_instance (fst x) None 1 SRC_OTHER INSTANCE (Some [0]) INST_ONCE)) [] [] (snd x).

Lemma rfill_entries : forall l, NoDup (map fst l) -> 
  map (rfill (placed 1 l)) (map (fun x => RInst (fst x) 0) l) = map entry_scope l.
Proof.
  intros l N. rewrite map_map. apply map_ext_in. intros [n c] I. apply In_nth_error in I as (k & I).
  cbn [rfill fst]. rewrite (dget_placed_in _ _ _ _ _ N I). reflexivity.
Qed.

Lemma canon_instances : forall l, NoDup (map fst l) -> instances (root_of (canon l)) = map entry_scope l.
Proof.
  intros l N. destruct l as [|x l]; [reflexivity|]. unfold instances, kids_with, root_of. cbn [s_kids].
  change (r_slots (canon (x :: l))) with (RDu "default" :: map (fun x => RInst (fst x) 0) (x :: l)).
  change (r_insts (canon (x :: l))) with (placed 1 (x :: l)).
  rewrite (map_cons (rfill (placed 1 (x :: l)))), (rfill_entries (x :: l) N).
  change (rfill (placed 1 (x :: l)) (RDu "default")) with (new_mem_scope "default" None 1 SRC_OTHER DU_MODULE DU_FLAGS).
  cbn [filter]. change (N.testbit (s_type (new_mem_scope "default" None 1 SRC_OTHER DU_MODULE DU_FLAGS)) 4) with false.
  cbv iota. clear N. induction (x :: l) as [|y q IH]; [reflexivity|]. cbn [map filter].
  change (N.testbit (s_type (entry_scope y)) 4) with true. cbv iota. now rewrite IH.
Qed.

Lemma covergroups_all : forall x, Forall (fun g => s_type g = COVERGROUP) (snd x) -> covergroups (entry_scope x) = snd x.
Proof.
  intros x F. unfold covergroups, kids_with, entry_scope. cbn [s_kids].
  induction F as [|g l E F IH]; [reflexivity|]. cbn [filter]. rewrite E. change (N.testbit COVERGROUP 12) with true.
  cbv iota. now rewrite IH.
Qed.

Lemma canon_views : forall l, NoDup (map fst l) -> all_groups l ->
  map view_inst (instances (root_of (canon l))) = map view_entry l.
Proof.
  intros l N G. rewrite canon_instances by assumption. rewrite map_map. apply map_ext_in. intros x I.
  unfold view_inst. rewrite covergroups_all by (unfold all_groups in G; rewrite Forall_forall in G; now apply G). reflexivity.
Qed.

(** ** Reading what was rendered *)
Definition known_type (t : type_view) : Prop := Forall (fun g => Forall (known g) (gv_crosses g)) (tv_instances t).

Lemma types_step_total : forall p ts cgs, Forall doc_type ts -> Forall known_type ts ->
  exists gs, types_step p ts cgs = Ok (cgs ++ gs) /\ map view_type gs = ts /\ Forall (fun g => s_type g = COVERGROUP) gs.
Proof.
  intros p. induction ts as [|t ts IH]; intros cgs D K.
  - exists []. rewrite app_nil_r. split; [reflexivity|split; [reflexivity|constructor]].
  - inversion D; subst. inversion K; subst. unfold types_step. cbn [fold_res].
    destruct (type_step_total [p; List.length cgs] t H3) as (g & Hg). rewrite Hg. cbn [rbind].
    destruct (type_step_view _ _ _ H1 Hg) as (V & _ & T). destruct (IH (cgs ++ [g]) H2 H4) as (gs & E & VS & F).
    exists (g :: gs). unfold types_step in E. rewrite E, <- app_assoc. split; [reflexivity|]. split; [cbn; now rewrite V, VS|now constructor].
Qed.

Lemma insts_step_total : forall vs l, Forall doc_inst vs -> Forall (fun v => Forall known_type (iv_types v)) vs ->
  NoDup (map fst l ++ map iv_name vs) -> all_groups l ->
  exists l', fold_res inst_step vs (canon l) = Ok (canon (l ++ l')) /\ map view_entry l' = vs /\ all_groups (l ++ l') /\
             NoDup (map fst (l ++ l')).
Proof.
  induction vs as [|v vs IH]; intros l D K N G.
  - exists []. cbn in N. rewrite app_nil_r in *. auto.
  - inversion D; subst. inversion K; subst. cbn [fold_res map] in *.
    assert (N1 : NoDup (map fst l)) by (eapply NoDup_app_l; exact N).
    assert (N2 : ~ In (iv_name v) (map fst l)).
    { intros I. apply NoDup_remove_2 in N. apply N. apply in_or_app. now left. }
    rewrite inst_step_new by assumption.
    destruct (types_step_total (S (List.length l)) (iv_types v) [] H1 H3) as (gs & E & V & F). rewrite E. cbn [rbind app].
    destruct (IH (l ++ [(iv_name v, gs)])) as (l' & E' & V' & G' & N'); auto.
    + rewrite map_app. cbn. rewrite <- app_assoc. exact N.
    + unfold all_groups. apply Forall_app. split; [assumption|]. now constructor.
    + exists ((iv_name v, gs) :: l'). rewrite <- app_assoc in *. split; [assumption|]. split; [|auto].
      cbn [map]. rewrite V'. unfold view_entry. cbn [fst snd]. rewrite V. now destruct v.
Qed.

(** The same without distinct names. *)
Lemma set_nth_names : forall X Y (F F' : X -> Y) l k n, NoDup l -> nth_error l k = Some n ->
  (forall m, m <> n -> F' m = F m) -> set_nth k (F' n) (map F l) = map F' l.
Proof.
  induction l as [|x l IH]; intros k n N H E; [destruct k; discriminate|]. inversion N as [|? ? N1 N2]; subst. destruct k as [|k]; cbn in *.
  - injection H as ->. f_equal. apply map_ext_in. intros m I. symmetry. apply E. intros ->. contradiction.
  - f_equal; [symmetry; apply E; intros ->; apply N1; now apply nth_error_In in H|]. now apply IH.
Qed.
Lemma set_nth_map_comm : forall X Y (f : X -> Y) l k x, map f (set_nth k x l) = set_nth k (f x) (map f l).
Proof. induction l as [|y l IH]; intros [|k] x; cbn; try reflexivity. now rewrite IH. Qed.
Lemma collapse_names : forall vs, map iv_name (collapse vs) = nub (map iv_name vs).
Proof. intros vs. unfold collapse. rewrite map_map. apply map_id. Qed.
Lemma insts_collapse : forall vs, Forall doc_inst vs -> Forall (fun v => Forall known_type (iv_types v)) vs ->
  exists l, fold_res inst_step vs (canon []) = Ok (canon l) /\ map view_entry l = collapse vs /\ all_groups l /\ NoDup (map fst l).
Proof.
  induction vs as [|v vs IH] using rev_ind; intros D K.
  - exists []. repeat split; constructor.
  - apply Forall_app in D as [D D']. apply Forall_app in K as [K K']. inversion D'; subst. inversion K'; subst.
    destruct (IH D K) as (l & E & V & G & N). rewrite fold_res_app, E. cbn [rbind fold_res].
    assert (NM : map fst l = nub (map iv_name vs)).
    { rewrite <- collapse_names, <- V, map_map. reflexivity. }
    destruct (in_dec string_dec (iv_name v) (map fst l)) as [I|I].
    + apply in_map_iff in I as ([n c] & Hn & I). cbn in Hn. subst n. apply In_nth_error in I as (k & I).
      unfold inst_step. pose proof (open_old l k _ _ N I) as O. destruct (get_scope "default" (canon l)) as [s1 du]. rewrite O. cbn [fst snd].
      destruct (types_step_total (S k) (iv_types v) c H1 H3) as (gs & Eg & Vg & Fg). rewrite Eg. cbn [rbind].
      rewrite (close_inst _ _ _ _ (c ++ gs) N I). exists (set_nth k (iv_name v, c ++ gs) l). split; [reflexivity|].
      assert (I' : nth_error (map fst l) k = Some (iv_name v)) by (rewrite nth_error_map, I; reflexivity).
      assert (Nv : sinb (iv_name v) (map iv_name vs) = true).
      { apply sinb_in. apply nth_error_In in I'. rewrite NM in I'. now apply (proj1 (nub_in _ _)) in I'. }
      split; [|split].
      * rewrite set_nth_map_comm, V. unfold collapse at 2. rewrite map_app. cbn [map]. rewrite nub_snoc, Nv.
        rewrite NM in I'. unfold collapse.
        rewrite <- (set_nth_names _ _ (fun n => InstView n (flat_map iv_types (named iv_name n vs)))
                      (fun n => InstView n (flat_map iv_types (named iv_name n (vs ++ [v])))) _ k (iv_name v) (nub_NoDup _) I').
        -- f_equal. unfold view_entry. cbn [fst snd]. f_equal. rewrite map_app, Vg.
           assert (view_entry (iv_name v, c) = InstView (iv_name v) (flat_map iv_types (named iv_name (iv_name v) vs))) as X.
           { apply (f_equal (fun l => nth_error l k)) in V. rewrite nth_error_map, I in V. cbn [option_map] in V.
             unfold collapse in V. rewrite nth_error_map, I' in V. cbn in V. congruence. }
           injection X as X. rewrite X, named_snoc, String.eqb_refl, flat_map_app. cbn. now rewrite app_nil_r.
        -- intros m Hm. f_equal. rewrite named_snoc. destruct (String.eqb_spec m (iv_name v)); [contradiction|]. now rewrite app_nil_r.
      * unfold all_groups in *. apply Forall_forall. intros x Ix. apply In_nth_error in Ix as (j & Ix).
        destruct (Nat.eq_dec j k) as [->|Hj].
        -- assert (nth_error (set_nth k (iv_name v, c ++ gs) l) k = Some (iv_name v, c ++ gs)) as X.
           { clear -I. revert k I. induction l as [|y l IH]; intros [|k] I; try discriminate; [reflexivity|]. now apply IH. }
           rewrite X in Ix. injection Ix as <-. cbn [snd]. apply Forall_app. split; [|assumption].
           rewrite Forall_forall in G. apply nth_error_In in I. exact (G _ I).
        -- assert (nth_error (set_nth k (iv_name v, c ++ gs) l) j = nth_error l j) as X.
           { clear -Hj. revert j k Hj. induction l as [|y l IH]; intros [|j] [|k] Hj; try reflexivity; [now contradiction Hj|]. cbn. apply IH. congruence. }
           rewrite X in Ix. rewrite Forall_forall in G. apply nth_error_In in Ix. exact (G _ Ix).
      * rewrite (set_nth_map _ _ fst l k (iv_name v, c ++ gs) _ I eq_refl). assumption.
    + rewrite inst_step_new by assumption.
      destruct (types_step_total (S (List.length l)) (iv_types v) [] H1 H3) as (gs & Eg & Vg & Fg). rewrite Eg. cbn [rbind app].
      exists (l ++ [(iv_name v, gs)]). split; [reflexivity|].
      assert (Nv : sinb (iv_name v) (map iv_name vs) = false).
      { apply sinb_false. intros J. apply I. rewrite NM. now apply nub_in. }
      split; [|split].
      * rewrite map_app, V. unfold collapse. rewrite map_app. cbn [map]. rewrite nub_snoc, Nv, map_app. f_equal.
        -- apply map_ext_in. intros m J. f_equal. rewrite named_snoc. destruct (String.eqb_spec m (iv_name v)) as [->|]; [|now rewrite app_nil_r].
           exfalso. apply I. now rewrite NM.
        -- cbn. unfold view_entry. cbn [fst snd]. rewrite Vg. f_equal. f_equal. rewrite named_snoc, String.eqb_refl.
           assert (named iv_name (iv_name v) vs = []) as ->.
           { destruct (named iv_name (iv_name v) vs) eqn:Q; [reflexivity|]. exfalso. apply sinb_false in Nv. apply Nv.
             apply named_in_names. rewrite Q. discriminate. }
           cbn. now rewrite app_nil_r.
      * unfold all_groups. apply Forall_app. split; [assumption|]. now constructor.
      * rewrite map_app. cbn. apply NoDup_rev in N. rewrite <- rev_involutive. apply NoDup_rev. rewrite rev_app_distr. cbn. constructor; [|assumption].
        now rewrite <- in_rev.
Qed.
Lemma collapse_distinct : forall vs, NoDup (map iv_name vs) -> collapse vs = vs.
Proof.
  intros vs N. unfold collapse. rewrite nub_id by assumption.
  assert (X : forall l, incl l vs -> map (fun n => InstView n (flat_map iv_types (named iv_name n vs))) (map iv_name l) = l).
  { induction l as [|v l IH]; intros I; [reflexivity|]. cbn [map]. rewrite IH by (intros x Ix; apply I; now right). f_equal.
    assert (named iv_name (iv_name v) vs = [v]) as ->.
    { assert (Iv : In v vs) by (apply I; now left). clear I IH. induction vs as [|x vs IHv]; [destruct Iv|].
      inversion N as [|? ? N1 N2]; subst. unfold named in *. cbn [filter]. destruct Iv as [->|Iv].
      - rewrite String.eqb_refl. f_equal. destruct (filter _ vs) as [|y q] eqn:Q; [reflexivity|]. exfalso. apply N1.
        assert (In y (filter (fun x => String.eqb (iv_name v) (iv_name x)) vs)) as Iy by (rewrite Q; now left).
        apply filter_In in Iy as [Iy E]. apply String.eqb_eq in E. rewrite E. now apply in_map.
      - destruct (String.eqb_spec (iv_name v) (iv_name x)) as [E|_]; [|now apply IHv].
        exfalso. apply N1. rewrite <- E. now apply in_map. }
    cbn. rewrite app_nil_r. now destruct v. }
  apply X. apply incl_refl.
Qed.

(** ** Reparsing *)
Definition filled_type (t : type_view) : Prop := Forall (fun g => Forall filled (gv_crosses g)) (tv_instances t).

Lemma reparse_map : forall A (f : A -> elem) l, (forall x, In x l -> reparse (f x) = f x) -> map reparse (map f l) = map f l.
Proof. intros A f l H. rewrite map_map. apply map_ext_in. exact H. Qed.

Lemma reparse_bin : forall b, reparse (r_bin b) = r_bin b.
Proof. reflexivity. Qed.
Lemma reparse_point : forall p, reparse (r_point p) = r_point p.
Proof. intros p. unfold r_point. cbn [reparse map]. rewrite reparse_map by reflexivity. reflexivity. Qed.
Lemma reparse_cross : forall c, filled c -> reparse (r_cross c) = r_cross c.
Proof.
  intros c F. unfold r_cross. cbn [reparse map]. rewrite map_app, !reparse_map; [reflexivity|reflexivity|].
  intros n I. unfold filled in F. rewrite Forall_forall in F. specialize (F n I). destruct n; [now contradiction F|reflexivity].
Qed.
Lemma reparse_group : forall tn g, Forall filled (gv_crosses g) -> reparse (r_group tn g) = r_group tn g.
Proof.
  intros tn g F. unfold r_group. cbn [reparse map]. rewrite map_app, !reparse_map; [reflexivity| |].
  - intros c I. apply reparse_cross. rewrite Forall_forall in F. now apply F.
  - intros p _. apply reparse_point.
Qed.
Lemma reparse_inst : forall v, Forall filled_type (iv_types v) -> reparse (r_inst v) = r_inst v.
Proof.
  intros v F. unfold r_inst. cbn [reparse map]. rewrite reparse_map; [reflexivity|]. intros t I.
  rewrite Forall_forall in F. specialize (F t I). unfold r_type. cbn [reparse]. rewrite reparse_map; [reflexivity|].
  intros g J. apply reparse_group. unfold filled_type in F. rewrite Forall_forall in F. now apply F.
Qed.

(** ** Source files *)
Lemma read_files_r : forall l names ids, exists names', 
  fold_res read_source_file (map r_file l) (names, ids) = Ok (names', ids ++ map snd l) /\
  names' = fold_left (fun a f => if existsb (seqb f) a then a else a ++ [f]) (map fst l) names.
Proof.
  induction l as [|[f i] l IH]; intros names ids; cbn [map fold_res fold_left].
  - exists names. now rewrite app_nil_r.
  - unfold read_source_file at 1. change (get_attr "fileName" (r_file (f, i))) with (Some f).
    change (get_attr "id" (r_file (f, i))) with (Some (show_int i)). cbv iota beta. rewrite py_int_show. cbn [rbind with_file].
    destruct (IH (if existsb (seqb f) names then names else names ++ [f]) (ids ++ [i])) as (n' & E & E').
    exists n'. rewrite E, <- app_assoc. cbn [fst snd]. split; [reflexivity|assumption].
Qed.

Lemma add_file_keeps : forall m si k, In k m -> In k (add_file m si).
Proof.
  intros m si k I. unfold add_file. destruct (si_file si) as [f|]; [|assumption]. destruct (dmem f m) eqn:D; [assumption|].
  rewrite dset_new by assumption. apply in_or_app. now left.
Qed.
Lemma fold_keeps : forall A B (f : B -> A -> B) (I : B -> Prop) l b, (forall b x, In x l -> I b -> I (f b x)) -> I b -> I (fold_left f l b).
Proof.
  induction l as [|x l IH]; intros b H Ib; [assumption|]. cbn. apply IH; [|apply H; [now left|assumption]].
  intros. apply H; [now right|assumption].
Qed.

(** Induction over a database tree. *)
Lemma find_files_inv : forall (I : dict Z -> Prop), (forall m si, I m -> I (add_file m si)) ->
  forall s m, I m -> I (find_files m s).
Proof.
  intros I H. fix IH 1. intros [a it rt kids] m Im. cbn [find_files].
  generalize (add_file m (a_src a)) (H m (a_src a) Im). clear m Im.
  induction kids as [|k kids IHk]; intros m Im; cbn [fold_left]; [assumption|].
  destruct (of_type SCOPE_ALL k); [|now apply IHk]. apply IHk. now apply IH.
Qed.

Lemma file_ids_inv : forall (I : dict Z -> Prop) d, (forall m si, I m -> I (add_file m si)) ->
  I [("__null__file__", 1%Z)] -> I (file_ids d).
Proof.
  intros I d H I0. unfold file_ids. apply fold_keeps; [|assumption]. intros m s _. now apply find_files_inv.
Qed.

Lemma file_ids_one : forall d, existsb (Z.eqb 1) (map snd (file_ids d)) = true.
Proof.
  intros d. apply existsb_exists. exists 1%Z. split; [|reflexivity].
  change 1%Z with (snd ("__null__file__", 1%Z)). apply in_map.
  apply (file_ids_inv (fun m => In ("__null__file__", 1%Z) m)); [|now left].
  intros m si. apply add_file_keeps.
Qed.

(** ** History elements *)
Definition hist_node (e : elem) : Prop := exists a, e = Elem "historyNodes" a None [].

Lemma history_elems_nodes : forall ev l i hs, history_elems ev i l = Ok hs -> Forall hist_node hs.
Proof.
  induction l as [|h l IH]; intros i hs H; cbn [history_elems] in H; [injection H as <-; constructor|].
  apply rbind_ok in H as (e & He & H). apply rbind_ok in H as (es & Hes & H). injection H as <-.
  constructor; [|eapply IH; exact Hes].
  apply history_elem_ok in He as (ln & ds & d & tc & uv & vi & vt & vv & _ & _ & _ & _ & _ & _ & _ & _ & ->).
  eexists. reflexivity.
Qed.
Lemma dummy_node : forall ev e, dummy_history ev = Ok e -> hist_node e.
Proof.
  intros ev e H. unfold dummy_history in H.
  repeat (apply rbind_ok in H as (? & _ & H)). injection H as <-. eexists. reflexivity.
Qed.
Lemma write_history_nodes : forall ev l hs, write_history ev l = Ok hs -> Forall hist_node hs.
Proof.
  intros ev l hs H. destruct l; unfold write_history in H; [|eapply history_elems_nodes; exact H].
  apply rbind_ok in H as (e & He & H). injection H as <-. constructor; [|constructor]. eapply dummy_node. exact He.
Qed.

Lemma nodes_iter : forall tag hs, Forall hist_node hs -> flat_map (iter tag) hs = if seqb tag "historyNodes" then hs else [].
Proof.
  intros tag hs F. induction F as [|e hs (a & ->) F IH]; [now destruct (seqb _ _)|]. cbn [flat_map iter]. rewrite IH.
  destruct (seqb tag "historyNodes"); reflexivity.
Qed.
Lemma nodes_reparse : forall hs, Forall hist_node hs -> map reparse hs = hs.
Proof. intros hs F. induction F as [|e hs (a & ->) F IH]; [reflexivity|]. cbn [map]. now rewrite IH. Qed.

(** ** Documents *)
Definition rendered (a : dict string) (fs : dict Z) (hs : list elem) (vs : list inst_view) : elem :=
  Elem "UCIS" a None (map r_file fs ++ hs ++ map r_inst vs).

Definition read_names (fs : dict Z) : list string :=
  fold_left (fun a f => if existsb (seqb f) a then a else a ++ [f]) (map fst fs) [].

Lemma read_rendered : forall to_float a fs hs vs, Forall hist_node hs -> Forall doc_inst vs ->
  existsb (Z.eqb 1) (map snd fs) = true ->
  read to_float (rendered a fs hs vs) =
    let* hists := traverse (read_history_node to_float) hs in
    let* st := fold_res inst_step vs (canon []) in
    Ok (Db (root_of st) (read_names fs) hists).
Proof.
  intros tf a fs hs vs H D I. unfold read, rendered.
  assert (F1 : iter "sourceFiles" (Elem "UCIS" a None (map r_file fs ++ hs ++ map r_inst vs)) = map r_file fs).
  { cbn [iter]. change (seqb "sourceFiles" "UCIS") with false. cbn [app].
    rewrite !flat_map_app, iter_all, nodes_iter, iter_none; [|intros i; apply inst_quiet; now left|assumption|reflexivity].
    change (seqb "sourceFiles" "historyNodes") with false. cbv iota. now rewrite !app_nil_r. }
  assert (F2 : iter "historyNodes" (Elem "UCIS" a None (map r_file fs ++ hs ++ map r_inst vs)) = hs).
  { cbn [iter]. change (seqb "historyNodes" "UCIS") with false. cbn [app].
    rewrite !flat_map_app, iter_none, nodes_iter, iter_none; [|intros i; apply inst_quiet; right; now left|assumption|reflexivity].
    change (seqb "historyNodes" "historyNodes") with true. cbv iota. now rewrite !app_nil_r. }
  assert (F3 : iter "instanceCoverages" (Elem "UCIS" a None (map r_file fs ++ hs ++ map r_inst vs)) = map r_inst vs).
  { cbn [iter]. change (seqb "instanceCoverages" "UCIS") with false. cbn [app].
    rewrite !flat_map_app, iter_none, nodes_iter, iter_all; [|intros i; apply inst_self|assumption|reflexivity].
    reflexivity. }
  rewrite F1, F2, F3. destruct (read_files_r fs [] []) as (names & -> & ->). cbn [rbind app].
  destruct (traverse _ hs) as [hists|]; [|reflexivity]. cbn [rbind].
  rewrite read_instances_r by assumption. reflexivity.
Qed.

(** ** Views of a database that satisfies the conditions *)
Lemma doc_content : forall d, Forall exact_inst (instances (db_root d)) -> good_crosses_db d ->
  Forall doc_inst (content d) /\
  Forall (fun v => Forall known_type (iv_types v)) (content d) /\
  Forall (fun v => Forall filled_type (iv_types v)) (content d).
Proof.
  intros d E G.
  assert (X : forall i t g, In i (instances (db_root d)) -> In t (covergroups i) -> In g (group_instances t) ->
              doc_group (view_group g) /\ Forall (known (view_group g)) (gv_crosses (view_group g)) /\ Forall filled (gv_crosses (view_group g))).
  { intros i t g Ii It Ig. specialize (G i t g Ii It Ig). rewrite Forall_forall in E. specialize (E i Ii).
    unfold exact_inst in E. rewrite Forall_forall in E. specialize (E t It). rewrite Forall_forall in E. specialize (E g Ig).
    unfold doc_group, view_group. cbn [gv_points gv_crosses]. split; [split|split].
    - apply Forall_forall. intros p Ip. apply in_map_iff in Ip as (s & <- & Is). unfold exact_group in E.
      rewrite Forall_forall in E. specialize (E s Is). unfold exact_point. cbn [view_point pv_bins].
      apply Forall_forall. intros b Ib. apply in_map_iff in Ib as (x & <- & Ix). rewrite Forall_forall in E. now apply E.
    - apply Forall_forall. intros c Ic. apply in_map_iff in Ic as (s & <- & Is). unfold stripped. cbn [view_cross xv_crossed].
      apply Forall_forall. intros n In_. now apply (G s n Is In_).
    - apply Forall_forall. intros c Ic. apply in_map_iff in Ic as (s & <- & Is). unfold known. cbn [view_cross xv_crossed gv_points].
      apply Forall_forall. intros n In_. rewrite map_map. change (fun x => pv_name (view_point x)) with s_name. now apply (G s n Is In_).
    - apply Forall_forall. intros c Ic. apply in_map_iff in Ic as (s & <- & Is). unfold filled. cbn [view_cross xv_crossed].
      apply Forall_forall. intros n In_. now apply (G s n Is In_). }
  assert (Y : forall P : group_view -> Prop,
              (forall i t g, In i (instances (db_root d)) -> In t (covergroups i) -> In g (group_instances t) -> P (view_group g)) ->
              Forall (fun v => Forall (fun t => Forall P (tv_instances t)) (iv_types v)) (content d)).
  { intros P HP. apply Forall_forall. intros v Iv. apply in_map_iff in Iv as (i & <- & Ii). cbn [view_inst iv_types].
    apply Forall_forall. intros t It. apply in_map_iff in It as (t' & <- & It). cbn [view_type tv_instances].
    apply Forall_forall. intros g Ig. apply in_map_iff in Ig as (g' & <- & Ig). eapply HP; eassumption. }
  assert (NE : Forall (fun v => Forall (fun t => tv_instances t <> []) (iv_types v)) (content d)).
  { apply Forall_forall. intros v Iv. apply in_map_iff in Iv as (i & <- & Ii). cbn [view_inst iv_types].
    apply Forall_forall. intros t It. apply in_map_iff in It as (t' & <- & It). cbn [view_type tv_instances].
    unfold group_instances. destruct (coverinstances t'); discriminate. }
  split; [|split].
  - assert (D : Forall (fun v => Forall (fun t => Forall doc_group (tv_instances t)) (iv_types v)) (content d))
      by (apply Y; intros i t g Ii It Ig; now apply (X i t g)).
    apply Forall_forall. intros v Iv. rewrite Forall_forall in D, NE. specialize (D v Iv). specialize (NE v Iv).
    unfold doc_inst, doc_type. apply Forall_forall. intros t It. rewrite Forall_forall in D, NE. split; auto.
  - apply (Y (fun g => Forall (known g) (gv_crosses g))). intros i t g Ii It Ig. now apply (X i t g).
  - apply (Y (fun g => Forall filled (gv_crosses g))). intros i t g Ii It Ig. now apply (X i t g).
Qed.

Lemma content_names : forall d, map iv_name (content d) = map s_name (instances (db_root d)).
Proof. intros d. unfold content. now rewrite map_map. Qed.

(** ** History nodes back *)
Lemma history_elems_back : forall to_float ev l i hs, (forall d, valid_dt d = true -> valid_dt (env_local ev d) = true) ->
  history_elems ev i l = Ok hs -> Forall (numbers_readable to_float) l ->
  exists l', traverse (read_history_node to_float) hs = Ok l' /\
    Forall2 (fun h h' => exists ds d, h_date h = VStr ds /\ strptime m_compact ds = Ok d /\ h' = back to_float (env_local ev) h d) l l'.
Proof.
  intros tf ev l. induction l as [|h l IH]; intros i hs V H F; cbn [history_elems] in H.
  - injection H as <-. exists []. split; [reflexivity|constructor].
  - apply rbind_ok in H as (e & He & H). apply rbind_ok in H as (es & Hes & H). injection H as <-.
    inversion F; subst. destruct (IH _ _ V Hes H2) as (l' & T & F2).
    destruct (read_written_node tf ev i h e V He H1) as (ds & d & D & P & R).
    exists (back tf (env_local ev) h d :: l'). cbn [traverse]. rewrite R. cbn [rbind]. rewrite T. split; [reflexivity|].
    constructor; [|assumption]. exists ds, d. auto.
Qed.

(** The node written when there is no history. *)
Definition dummy_attrs (date : string) : dict string :=
  [("historyNodeId", "0"); ("logicalName", "dummy"); ("physicalName", "dummy");
   ("kind", "dummy"); ("testStatus", "true"); ("simtime", "0"); ("timeunit", "0");
   ("runCwd", ""); ("cpuTime", "0"); ("seed", "0"); ("cmd", ""); ("args", ""); ("date", date);
   ("userName", "dummy"); ("toolCategory", "unknown"); ("ucisVersion", "1.0"); ("vendorId", "unknown");
   ("vendorTool", "PyUCIS"); ("vendorToolVersion", "unknown")].
Definition dummy_back (zero : string) (date : string) : hist :=
  Hist None (VStr "dummy") (VStr "dummy") (VStr "dummy") (VBool true) (VFloat zero) (VStr "0") (VStr "")
       (VFloat zero) (VStr "0") (VStr "") (VStr "") VNone (VStr date) (VStr "dummy") (VInt (-1))
       (VStr "unknown") (VStr "1.0") (VStr "unknown") (VStr "PyUCIS") (VStr "unknown") (VInt (-1)) VNone.

Lemma dummy_ok : forall ev e, dummy_history ev = Ok e ->
  exists d, strptime m_compact (compact (env_now ev)) = Ok d /\
            e = Elem "historyNodes" (dummy_attrs (isoformat (env_local ev d))) None [].
Proof.
  intros ev e H. unfold dummy_history in H. apply rbind_ok in H as (a & E & H).
  cbn in E. injection E as <-. apply rbind_ok in H as (a & E & H).
  unfold set_date in E. apply rbind_ok in E as (t & Ht & E). unfold write_date in Ht.
  apply rbind_ok in Ht as (d & Hd & Ht). injection Ht as <-. exists d. split; [assumption|].
  unfold set_attr in E. destruct (xml_ok (isoformat (env_local ev d))); [|discriminate]. injection E as <-.
  cbn in H. injection H as <-. reflexivity.
Qed.
Lemma dummy_read : forall to_float ev e zero, (forall d, valid_dt d = true -> valid_dt (env_local ev d) = true) ->
  dummy_history ev = Ok e -> to_float "0" = Some zero ->
  exists d, strptime m_compact (compact (env_now ev)) = Ok d /\
    read_history_node to_float e = Ok (dummy_back zero (compact (env_local ev d))).
Proof.
  intros tf ev e zero V H Z0. apply dummy_ok in H as (d & Hd & ->). exists d. split; [assumption|].
  set (iso := isoformat (env_local ev d)).
  assert (R : read_date iso = Ok (compact (env_local ev d))).
  { unfold read_date, iso. rewrite iso_parse by (apply V; eapply strptime_valid; exact Hd). reflexivity. }
  clearbody iso. unfold read_history_node, get_attr_date, get_attr_bool, set_float_if_ex, get_attr_val, attrib, dindex, get_attr, set_int_if_ex, set_if_ex, get_attr, dummy_attrs.
  cbn [e_attrs dget String.eqb Ascii.eqb Bool.eqb rbind]. rewrite Z0. cbn [rbind]. rewrite R. reflexivity.
Qed.

Lemma write_history_back : forall to_float ev l hs zero, (forall d, valid_dt d = true -> valid_dt (env_local ev d) = true) ->
  write_history ev l = Ok hs -> Forall (numbers_readable to_float) l -> (l = [] -> to_float "0" = Some zero) ->
  exists l', traverse (read_history_node to_float) hs = Ok l' /\
    match l with
    | [] => exists date, l' = [dummy_back zero date]
    | _ => Forall2 (fun h h' => exists ds d, h_date h = VStr ds /\ strptime m_compact ds = Ok d /\ h' = back to_float (env_local ev) h d) l l'
    end.
Proof.
  intros tf ev l hs zero V H F Z0. destruct l as [|h l].
  - unfold write_history in H. apply rbind_ok in H as (e & He & H). injection H as <-.
    destruct (dummy_read tf ev e zero V He (Z0 eq_refl)) as (d & _ & R). cbn [traverse]. rewrite R. cbn [rbind].
    eexists. split; [reflexivity|]. eexists. reflexivity.
  - unfold write_history in H. now apply (history_elems_back tf ev (h :: l) 0 hs).
Qed.
