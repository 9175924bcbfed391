(** What a freshly created scope looks like. *)
From Verif Require Import Base BaseFacts Consts Db Hist Api Iter ApiSpec ApiFacts ApiItems ApiProps IterFacts ReportSpec P_Api.
Set Implicit Arguments.

Lemma du_type_any t : du_type t = DU_ANY t.
Proof.
  unfold du_type, DU_ANY. cbn [existsb]. rewrite !orb_false_r.
  apply eq_true_iff_eq. rewrite mask_hit_shares. rewrite !orb_true_iff. unfold shares_bit.
  assert (Hb : forall b, N.testbit DU_BITS b = true <-> b = 24%N \/ b = 25%N \/ b = 26%N \/ b = 27%N \/ b = 28%N).
  { intros b. unfold DU_BITS. rewrite !N.lor_spec, !orb_true_iff.
    change DU_MODULE with (2 ^ 24)%N. change DU_ARCH with (2 ^ 25)%N. change DU_PACKAGE with (2 ^ 26)%N.
    change DU_PROGRAM with (2 ^ 27)%N. change DU_INTERFACE with (2 ^ 28)%N.
    rewrite !N.pow2_bits_eqb, !N.eqb_eq. intuition congruence. }
  split.
  - intros [E|[E|[E|[E|E]]]]; eexists; (split; [exact E|]); apply Hb; auto 10.
  - intros (b & E & Eb). apply Hb in Eb. destruct Eb as [->|[->|[->|[->| ->]]]]; auto 10.
Qed.

(** The attributes a scope of each sort starts with. *)
Definition start_opts (k : sort) : cvg_opts :=
  match k with
  | Group => CvgOpts 0 64 false 0 "" true true
  | Point => CvgOpts 1 64 false 0 "" false false
  | _ => no_cvg
  end.
Definition starts (k : sort) (o : op) (flags : N) (a : attrs) : Prop :=
  a_cvg a = start_opts k /\ a_goal a = (match k with Instance => 100 | _ => -1 end)%Z /\
  a_srctype a = 0%Z /\ a_under_du a = 0%Z /\ a_source a = kept_source o /\ a_flags a = flags /\
  match k, a_cls a with
  | Plain, KScope | Group, KCovergroup | Point, KCoverpoint | Point, KCross _
  | Instance, KInst _ | Instance, KToggle => True
  | _, _ => False
  end /\
  (match a_cls a with KInst u => u | _ => None end) = given_unit o /\
  (match a_cls a with KCross l => map r_path l | _ => [] end) = given_points o.

Lemma step_starts d o d' r rq :
  requested d o = Some rq -> step d o = (d', Ok r) ->
  exists n s', view d (rq_parent rq) = Some n /\ r = OScope (rq_parent rq ++ [n_kids n]) /\
    view d' (rq_parent rq ++ [n_kids n]) = Some (node_of s') /\
    starts (sort_made d o) o (kept_flags d o) (s_attrs s') /\
    a_weight (s_attrs s') = rq_weight rq /\ s_iitems s' = [].
Proof.
  intros Hr Hs.
  assert (Ht : target o = Some (rq_parent rq)) by (destruct o; cbn in Hr |- *; try discriminate; injection Hr as <-; reflexivity).
  unfold step in Hs. rewrite Ht in Hs. remember (rq_parent rq) as h eqn:Eh.
  destruct (get_at (db_root d) h) as [s|] eqn:Hg; [|discriminate].
  assert (Hadd : forall m, (let (s', r0) := adding h s m in (with_root d (upd_at (db_root d) h (fun _ => s')), r0)) = (d', Ok r) ->
     (forall c, m = Ok c -> starts (sort_made d o) o (kept_flags d o) (s_attrs c) /\
                            a_weight (s_attrs c) = rq_weight rq /\ s_iitems c = [] /\ s_kids c = []) ->
     exists n s', view d h = Some n /\ r = OScope (h ++ [n_kids n]) /\
       view d' (h ++ [n_kids n]) = Some (node_of s') /\
       starts (sort_made d o) o (kept_flags d o) (s_attrs s') /\
       a_weight (s_attrs s') = rq_weight rq /\ s_iitems s' = []).
  { intros [c|e] H Hm; cbn in H; [|discriminate]. injection H as <- <-.
    destruct (Hm c eq_refl) as (Hst & Hw & Hi & Hk).
    exists (node_of s), c.
    pose proof (view_get Hg) as Hv.
    destruct (replaced_added Hg Hk) as (m & Hvm & _ & Hnew & _).
    rewrite Hv in Hvm. injection Hvm as <-. repeat (split; [solve [auto]|]). auto. }
  assert (Hmade : forall cl name src weight source t flags c,
     create_scope cl name src weight source t flags = Ok c ->
     c = match scope_made (is_inst cl) t with
         | Some (KCovergroup, ty) => new_scope (set_type ty (s_attrs (new_covergroup name src weight source)))
         | Some (KCoverpoint, ty) => new_coverpoint name src weight source
         | _ => new_mem_scope name src weight source t flags
         end).
  { intros cl name src weight source t flags c. unfold create_scope, inst_create_scope, mem_create_scope, scope_made.
    rewrite du_type_any. destruct (is_inst cl).
    - assert (E : mask_hit t COVERGROUP = N.testbit t 12).
      { change COVERGROUP with (2 ^ 12)%N. apply mask_hit_bit. }
      rewrite E. destruct (N.testbit t 12); [|discriminate]. intros H. now injection H as <-.
    - destruct (DU_ANY t); [intros H; now injection H as <-|].
      destruct (N.eqb_spec t COVERGROUP) as [->|_]; [intros H; now injection H as <-|].
      destruct (N.eqb_spec t COVERINSTANCE) as [->|_]; [intros H; now injection H as <-|].
      destruct (N.eqb_spec t COVERPOINT) as [->|_]; [intros H; now injection H as <-|discriminate]. }
  pose proof (view_get Hg) as Hv.
  destruct o; cbn [requested] in Hr; try discriminate; injection Hr as <-; cbn [act] in Hs; cbn [rq_parent] in Eh;
    subst h; cbn [rq_weight] in *.
  - apply (Hadd _ Hs). intros c H. apply Hmade in H. unfold kept_flags, sort_made, instance_at. rewrite Hv.
    cbn [node_of n_attrs]. change (match a_cls (s_attrs s) with KInst _ | KToggle => true | _ => false end) with (is_inst (s_cls s)).
    subst c. unfold scope_made. destruct (is_inst (s_cls s)).
    { destruct (N.testbit type 12); repeat split. }
    destruct (du_type type); [repeat split|].
    destruct (N.eqb_spec type COVERGROUP) as [->|_]; [repeat split|].
    destruct (N.eqb_spec type COVERINSTANCE) as [->|_]; [repeat split|].
    destruct (N.eqb_spec type COVERPOINT) as [->|_]; repeat split.
  - apply (Hadd _ Hs). intros c H. destruct (match du with Some u => at_handle (db_root d) u | None => _ end); [|discriminate].
    cbn in H. injection H as <-. repeat split.
  - apply (Hadd _ Hs). intros c H. unfold create_toggle in H. destruct (is_inst _); [|discriminate].
    injection H as <-. repeat split.
  - apply (Hadd (Ok (new_covergroup name src weight source)) Hs). intros c H. injection H as <-. repeat split.
  - apply (Hadd _ Hs). intros c H. unfold need in H. destruct (is_cg _); [|discriminate]. injection H as <-. repeat split.
  - apply (Hadd _ Hs). intros c H. destruct (cross_refs (db_root d) points) as [l|] eqn:El; [|discriminate]. cbn in H.
    unfold need in H. destruct (is_cg _); [|discriminate]. injection H as <-.
    repeat split. cbn. clear -El. unfold cross_refs in El. apply traverse_ok in El.
    induction El as [|p c l l' E El IH]; [reflexivity|]. cbn. rewrite IH. f_equal.
    destruct (at_handle (db_root d) p); [|discriminate]. cbn in E. now injection E as <-.
  - apply (Hadd _ Hs). intros c H. destruct (is_database _); [discriminate|]. unfold need in H. destruct (is_cg (s_cls s)) eqn:E; [|discriminate].
    apply Hmade in H.
    assert (is_inst (s_cls s) = false) as Ei by (destruct (s_cls s); auto; discriminate).
    rewrite Ei in H. cbn in H. subst c. repeat split.
Qed.

Arguments step_starts {d o d' r rq} _ _.

(** * C74 *)

(** Every integer property of a new scope, whichever call made it. *)
Theorem C74_initial_properties : forall d o rq d' h idx p,
  requested d o = Some rq -> step d o = (d', Ok (OScope h)) ->
  match initial (sort_made d o) (rq_weight rq) p with
  | Some v => read d' h idx p = Ok (OInt v)
  | None => exists e, read d' h idx p = Err e
  end.
Proof.
  intros d o rq d' h idx p Hr Hs.
  destruct (step_starts Hr Hs) as (n & s & _ & Eh & Hv & St & Hw & Hi). injection Eh as ->.
  unfold view, vw in Hv. destruct (get_at (db_root d') _) as [s'|] eqn:Hg; [|discriminate].
  cbn in Hv. rewrite (read_at idx p Hg). destruct s as [a it ii ks], s' as [a' it' ii' ks'].
  unfold node_of in Hv. cbn in Hv, Hw, Hi, St. injection Hv as -> -> -> _. subst ii.
  destruct St as (Ec & Eg & Es & Eu & _ & _ & Ek & _).
  clear -Ec Eg Es Eu Ek Hw. revert Ec Ek Eg. generalize (rq_weight rq) as w, (sort_made d o) as k, Hw. clear d o rq Hw.
  assert (Hn : py_index 0 idx = None).
  { unfold py_index. cbn. destruct (0 <=? idx)%Z eqn:E0.
    - destruct (idx <? 0)%Z eqn:E1; [lia|reflexivity].
    - rewrite Z.add_0_r, E0. reflexivity. }
  destruct a as [c na sr w' so ty fl g st un op]. cbn [a_weight a_cvg a_cls a_goal a_srctype a_under_du] in *.
  subst st un. intros w k -> -> Ek ->.
  unfold get_int, s_cls, ucis_get, inst_get. cbn [s_attrs s_iitems a_cls List.length]. rewrite Hn.
  destruct k, c; try contradiction; clear Ek; destruct p; cbn; first [reflexivity | eexists; reflexivity].
Qed.
Print Assumptions C74_initial_properties.

(** Everything else about it: the comment is empty, the source language and the
    flags are those given (coverage scopes keep no flags), it refers to the
    design unit and to the coverpoints given, and it has no items or children. *)
Theorem C74_initial_fields : forall d o rq d' h,
  requested d o = Some rq -> step d o = (d', Ok (OScope h)) ->
  exists n, view d' h = Some n /\
    co_comment (a_cvg (n_attrs n)) = ""%string /\
    a_source (n_attrs n) = kept_source o /\ a_flags (n_attrs n) = kept_flags d o /\
    design_unit n = given_unit o /\ crossed n = given_points o /\
    n_items n = [] /\ n_iitems n = [] /\ n_kids n = 0.
Proof.
  intros d o rq d' h Hr Hs.
  destruct (step_starts Hr Hs) as (n & s & Hn & Eh & Hv & St & Hw & Hi). injection Eh as ->.
  destruct (step_created Hr Hs) as (n' & c & Hn' & _ & (m & Hm & _ & Hc & _) & _ & _ & _ & _ & Hi' & Hii & Hk).
  rewrite Hn in Hn', Hm. injection Hn' as <-. injection Hm as <-.
  rewrite Hv in Hc. injection Hc as <-.
  destruct St as (Ec & Eg & Es & Eu & Eso & Ef & Ek & Edu & Ecr).
  exists (node_of s). split; [exact Hv|]. cbn [node_of n_attrs] in *. rewrite Ec.
  split; [destruct (sort_made d o); reflexivity|].
  split; [exact Eso|]. split; [exact Ef|]. split; [exact Edu|]. split; [exact Ecr|]. auto.
Qed.
Print Assumptions C74_initial_fields.

(** A new covergroup collects coverage per instance and merges its instances; a
    new coverpoint expects one hit per bin, a new covergroup says nothing. *)
Example C74_example :
  let d := fst (step demo_db (CreateCovergroup [1] "cg2" None 3 SRC_OTHER)) in
  match snd (step demo_db (CreateCovergroup [1] "cg2" None 3 SRC_OTHER)) with
  | Ok (OScope h) =>
      (map (read d h 0) [SCOPE_WEIGHT; SCOPE_GOAL; CVG_ATLEAST; CVG_PERINSTANCE; CVG_MERGEINSTANCES; CVG_AUTOBINMAX] =
       map (fun z => Ok (OInt z)) [3; -1; 0; 1; 1; 64]%Z) /\
      read (fst (step d (CreateCoverpoint h "p" None 1 SRC_OTHER))) (h ++ [0]) 0 CVG_ATLEAST = Ok (OInt 1)
  | _ => False
  end.
Proof. vm_compute. auto. Qed.
