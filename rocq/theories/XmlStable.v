(** The round trips: databases through XML once, and databases that came from XML. *)
From Verif Require Import Base Dict Consts Db Hist Report ReportSpec NameSpec NubFacts MergeSpec BaseFacts ReportFacts
  PyInt PyIntFacts Dates DatesFacts Xml XmlWriter XmlReader XmlSpec XmlWriteFacts XmlReadFacts XmlViews XmlHistSpec XmlHistFacts XmlRound.
Local Open Scope string_scope.
Local Open Scope list_scope.

(** ** Any database *)
Lemma reparse_rendered : forall a fs hs vs, Forall hist_node hs -> Forall (fun v => Forall filled_type (iv_types v)) vs ->
  reparse (rendered a fs hs vs) = rendered a fs hs vs.
Proof.
  intros a fs hs vs H F. unfold rendered. cbn [reparse]. rewrite !map_app, (nodes_reparse hs H).
  rewrite !reparse_map; [reflexivity| |reflexivity].
  intros v I. apply reparse_inst. rewrite Forall_forall in F. now apply F.
Qed.

Definition clock_ok (ev : env) : Prop := forall d, valid_dt d = true -> valid_dt (env_local ev d) = true.

Lemma round_trip_any : forall to_float ev d e zero,
  write ev d = Ok e -> good_crosses_db d -> clock_ok ev ->
  Forall (numbers_readable to_float) (db_hist d) -> (db_hist d = [] -> to_float "0" = Some zero) ->
  exists l hs', read to_float (reparse e) = Ok (Db (root_of (canon l)) (read_names (file_ids d)) hs') /\
    map view_entry l = collapse (content d) /\ all_groups l /\ NoDup (map fst l) /\
    match db_hist d with
    | [] => exists date, hs' = [dummy_back zero date]
    | hs => Forall2 (fun h h' => exists ds x, h_date h = VStr ds /\ strptime m_compact ds = Ok x /\
                                              h' = back to_float (env_local ev) h x) hs hs'
    end.
Proof.
  intros tf ev d e zero W GC CO NR Z0. apply write_ok in W as (a & hs & WH & -> & EX).
  pose proof (write_history_nodes _ _ _ WH) as HN.
  destruct (doc_content d EX GC) as (DD & DK & DF).
  change (Elem "UCIS" a None (map r_file (file_ids d) ++ hs ++ map r_inst (content d))) with (rendered a (file_ids d) hs (content d)).
  rewrite reparse_rendered by assumption. rewrite read_rendered by (assumption || apply file_ids_one).
  destruct (write_history_back tf ev (db_hist d) hs zero CO WH NR Z0) as (hs' & -> & HB). cbn [rbind].
  destruct (insts_collapse (content d) DD DK) as (l & E & V & G & N).
  rewrite E. cbn [rbind app] in *. exists l, hs'. split; [reflexivity|]. split; [assumption|]. split; [assumption|]. split; [assumption|].
  destruct (db_hist d); assumption.
Qed.
Lemma round_trip : forall to_float ev d e zero,
  write ev d = Ok e -> distinct_instances d -> good_crosses_db d -> clock_ok ev ->
  Forall (numbers_readable to_float) (db_hist d) -> (db_hist d = [] -> to_float "0" = Some zero) ->
  exists l hs', read to_float (reparse e) = Ok (Db (root_of (canon l)) (read_names (file_ids d)) hs') /\
    map view_entry l = content d /\ all_groups l /\ NoDup (map fst l) /\
    match db_hist d with
    | [] => exists date, hs' = [dummy_back zero date]
    | hs => Forall2 (fun h h' => exists ds x, h_date h = VStr ds /\ strptime m_compact ds = Ok x /\
                                              h' = back to_float (env_local ev) h x) hs hs'
    end.
Proof.
  intros tf ev d e zero W DI GC CO NR Z0. destruct (round_trip_any tf ev d e zero W GC CO NR Z0) as (l & hs & R & V & X).
  exists l, hs. split; [exact R|]. split; [|exact X]. rewrite V. apply collapse_distinct. rewrite content_names. exact DI.
Qed.

(** ** Databases read from XML *)
Lemma by_type_nonempty : forall l, Forall (fun x : string * list elem => snd x <> []) (by_type l).
Proof.
  intros l. unfold by_type. apply fold_keeps; [|constructor]. intros m e _ F.
  assert (X : forall k (v : list elem) m, v <> [] -> Forall (fun x : string * list elem => snd x <> []) m ->
              Forall (fun x : string * list elem => snd x <> []) (dset k v m)).
  { clear. intros k v m Hv F. induction F as [|[k' v'] m H F IH]; cbn; [now repeat constructor|].
    destruct (String.eqb k k'); constructor; auto. }
  destruct (dget (type_name e) m); apply X; auto; [now destruct l0|discriminate].
Qed.

(** Crosses that were read name coverpoints of their instance. *)
Lemma point_steps_pos : forall k ps st n, dmem n (i_pos (fold_left (point_step k) ps st)) = true ->
  dmem n (i_pos st) = true \/ In n (map pv_name ps).
Proof.
  intros k ps. induction ps as [|p ps IH]; intros st n H; cbn in *; [now left|].
  apply IH in H as [H|H]; [|right; now right].
  destruct (point_step_known k st p n) as [_ E]. rewrite E in H. apply orb_true_iff in H as [H|H]; [now left|].
  right. left. unfold seqb in H. symmetry. now apply String.eqb_eq.
Qed.
Lemma resolve_names_known : forall base pos ns refs, resolve_names base pos ns = Ok refs -> Forall (fun n => pos n <> None) ns.
Proof.
  intros base pos. unfold resolve_names. induction ns as [|n ns IH]; intros refs H; cbn [traverse] in H; [constructor|].
  apply rbind_ok in H as (r & Hr & H). apply rbind_ok in H as (rs & Hrs & H). constructor; [|eapply IH; exact Hrs].
  destruct (pos n); [discriminate|discriminate].
Qed.
Lemma cross_step_known : forall base k st c st', cross_step base k st c = Ok st' ->
  Forall (fun n => dmem n (i_pos st) = true) (xv_crossed c) /\ i_pos st' = i_pos st.
Proof.
  intros base k st c st' H. unfold cross_step in H. apply rbind_ok in H as ([new crs] & _ & H).
  apply rbind_ok in H as (refs & Hr & H). injection H as <-. split; [|reflexivity].
  apply resolve_names_known in Hr. eapply Forall_impl; [|exact Hr]. cbn. intros n E. unfold dmem. now destruct (dget n (i_pos st)).
Qed.
Lemma group_step_known : forall base st g st', group_step base st g = Ok st' -> Forall (known g) (gv_crosses g).
Proof.
  intros base [[slots cps] crs] g st' H. unfold group_step in H. apply rbind_ok in H as (i & H & _).
  set (i0 := fold_left (point_step (List.length slots)) (gv_points g) (Ist [] cps crs [] [])) in *.
  assert (K : forall n, dmem n (i_pos i0) = true -> In n (map pv_name (gv_points g))).
  { intros n D. apply point_steps_pos in D as [D|D]; [discriminate|assumption]. }
  clearbody i0. revert i0 H K. induction (gv_crosses g) as [|c cs IH]; intros i0 H K; [constructor|]. cbn [fold_res] in H.
  apply rbind_ok in H as (i1 & H1 & H). apply cross_step_known in H1 as [F E]. constructor.
  - eapply Forall_impl; [|exact F]. exact K.
  - eapply IH; [exact H|]. intros n D. apply K. now rewrite <- E.
Qed.
Lemma type_step_known : forall base t g, type_step base t = Ok g -> known_type t.
Proof.
  intros base t g H. unfold type_step in H. apply rbind_ok in H as ([[s c] x] & H & _). unfold known_type.
  revert H. generalize (@nil slot, @nil (string * (nat * dict (N * Z))), @nil (string * dict Z)).
  induction (tv_instances t) as [|v vs IH]; intros st H; [constructor|]. cbn [fold_res] in H.
  apply rbind_ok in H as (s1 & H1 & H). constructor; [eapply group_step_known; exact H1|]. eapply IH. exact H.
Qed.

(** Each covergroup is what its view gives. *)
Definition self_made (p j : nat) (g : scope) : Prop := exists t, doc_type t /\ type_step [p; j] t = Ok g.
Definition groups_made (p : nat) (cgs : list scope) : Prop := forall j g, nth_error cgs j = Some g -> self_made p j g.

Lemma self_made_view : forall p j g, self_made p j g ->
  doc_type (view_type g) /\ type_step [p; j] (view_type g) = Ok g /\ known_type (view_type g) /\ s_type g = COVERGROUP.
Proof.
  intros p j g (t & D & S). destruct (type_step_view _ _ _ D S) as (V & _ & T). rewrite V.
  split; [assumption|]. split; [assumption|]. split; [eapply type_step_known; exact S|assumption].
Qed.

Lemma read_covergroups_made : forall p cgs e cgs', read_covergroups p cgs e = Ok cgs' -> groups_made p cgs -> groups_made p cgs'.
Proof.
  intros p cgs e cgs' H. unfold read_covergroups in H. pose proof (by_type_nonempty (iter "cgInstance" e)) as NE.
  rewrite Forall_forall in NE. eapply fold_res_inv with (I := groups_made p); [|exact H].
  intros l [n es] l' I E G. apply rbind_ok in E as (g & E & E'). injection E' as <-. cbn [fst snd] in E.
  apply read_covergroup_step in E as (t & D & _ & S); [|now apply (NE (n, es))].
  intros j h N. apply nth_snoc in N as [N|[-> ->]]; [now apply G|]. exists t. auto.
Qed.

(** Any document. *)
Definition inst_names (l : list rslot) : list string :=
  flat_map (fun s => match s with RInst n _ => [n] | RDu _ => [] end) l.
Definition rst_doc (st : rst) : Prop :=
  inst_names (r_slots st) = dkeys (r_insts st) /\ NoDup (dkeys (r_insts st)) /\
  forall n p cgs, dget n (r_insts st) = Some (p, cgs) -> groups_made p cgs.

Lemma NoDup_dset : forall V (d : dict V) k v, NoDup (dkeys d) -> NoDup (dkeys (dset k v d)).
Proof.
  intros V d k v N. rewrite dkeys_dset. destruct (dmem k d) eqn:D; [assumption|].
  apply NoDup_rev in N. rewrite <- rev_involutive. apply NoDup_rev. rewrite rev_app_distr. cbn. constructor; [|assumption].
  rewrite <- in_rev. intros I. apply dget_in in I. congruence.
Qed.

Lemma read_instance_doc : forall ids st e st', read_instance ids st e = Ok st' -> rst_doc st -> rst_doc st'.
Proof.
  intros ids st e st' H (I1 & I2 & I3). unfold read_instance in H.
  apply rbind_ok in H as (name & _ & H). apply rbind_ok in H as (u & _ & H).
  destruct (get_scope _ st) as [st1 du] eqn:GS.
  assert (J : rst_doc st1).
  { unfold get_scope in GS. destruct (dget _ (r_mods st)) as [i|]; injection GS as <- <-; [now repeat split|].
    split; cbn [r_slots r_insts]; [|split; assumption]. unfold inst_names. rewrite flat_map_snoc. cbn. now rewrite app_nil_r. }
  clear I1 I2 I3 GS. destruct J as (I1 & I2 & I3). destruct (get_inst_scope name du st1) as [st2 x] eqn:GI.
  assert (J : rst_doc st2 /\ dget name (r_insts st2) = Some x).
  { unfold get_inst_scope in GI. destruct (dget name (r_insts st1)) as [y|] eqn:D; injection GI as <- <-;
      [split; [split; [assumption|split; assumption]|assumption]|].
    split; [|apply dget_dset_same]. split; cbn [r_slots r_insts].
    - unfold inst_names. rewrite flat_map_snoc, dkeys_dset. unfold dmem. rewrite D. cbn. unfold inst_names in I1. now rewrite I1.
    - split; [now apply NoDup_dset|]. intros n p cgs G. destruct (String.eqb_spec n name) as [->|Hn].
      + rewrite dget_dset_same in G. injection G as <- <-. intros [|j] g Q; discriminate.
      + rewrite dget_dset_other in G by assumption. now apply (I3 n p cgs). }
  clear I1 I2 I3 GI. destruct J as [(I1 & I2 & I3) GX]. apply rbind_ok in H as (cgs & HC & H). injection H as <-.
  destruct x as [p0 cgs0]. cbn [fst snd] in *.
  assert (O : groups_made p0 cgs).
  { eapply fold_res_inv with (I := groups_made p0); [|exact HC|exact (I3 _ _ _ GX)].
    intros ? ? ? _. apply read_covergroups_made. }
  split; cbn [r_slots r_insts].
  - rewrite dkeys_dset. unfold dmem. now rewrite GX.
  - split; [now apply NoDup_dset|]. intros n p c G. destruct (String.eqb_spec n name) as [->|Hn].
    + rewrite dget_dset_same in G. now injection G as <- <-.
    + rewrite dget_dset_other in G by assumption. now apply (I3 n p c).
Qed.

Lemma read_state : forall to_float doc d, read to_float doc = Ok d ->
  exists st ids, db_root d = root_of st /\ rst_doc st /\ 
    fold_res (read_instance ids) (iter "instanceCoverages" doc) (Rst [] [] []) = Ok st.
Proof.
  intros tf doc d H. unfold read in H.
  apply rbind_ok in H as ([names ids] & _ & H). apply rbind_ok in H as (hs & _ & H).
  apply rbind_ok in H as (st & HS & H). injection H as <-. exists st, ids. split; [reflexivity|]. split; [|assumption].
  eapply fold_res_inv with (I := rst_doc); [|exact HS|].
  - intros ? ? ? _. apply read_instance_doc.
  - split; [reflexivity|]. split; [constructor|]. intros; discriminate.
Qed.

Lemma doc_instances : forall st, rst_doc st ->
  map s_name (instances (root_of st)) = inst_names (r_slots st) /\
  forall i, In i (instances (root_of st)) -> exists p cgs, groups_made p cgs /\ s_kids i = cgs.
Proof.
  intros st (I1 & I2 & I3). unfold instances, kids_with, root_of. cbn [s_kids]. split.
  - clear I1 I2 I3. induction (r_slots st) as [|s l IH]; [reflexivity|]. destruct s as [n|n du]; cbn [map filter rfill].
    + change (N.testbit (s_type (new_mem_scope n None 1 SRC_OTHER DU_MODULE DU_FLAGS)) 4) with false. cbv iota. exact IH.
    + change (N.testbit (s_type (Scope (s_attrs (new_instance n None 1 SRC_OTHER INSTANCE (Some [du]) INST_ONCE)) [] []
        match dget n (r_insts st) with Some (_, cgs) => cgs | None => [] end)) 4) with true.
      cbv iota. cbn [map inst_names flat_map app]. f_equal. exact IH.
  - intros i I. apply filter_In in I as [I T]. apply in_map_iff in I as (s & <- & I). destruct s as [n|n du]; [discriminate|].
    cbn [rfill s_kids]. destruct (dget n (r_insts st)) as [[p cgs]|] eqn:G.
    + exists p, cgs. split; [eapply I3; exact G|reflexivity].
    + exists 0, []. split; [intros [|j] g Q; discriminate|reflexivity].
Qed.

(** Crosses with non-empty crossed names. *)
Definition named_crosses (d : db) : Prop :=
  forall i t g c n, In i (instances (db_root d)) -> In t (covergroups i) -> In g (group_instances t) ->
    In c (crosses g) -> In n (crossed_names c) -> n <> EmptyString.

(** A database read from XML has distinct instance names, and its crosses
    refer to coverpoints of their own covergroup instance. *)
Lemma read_wellformed : forall to_float doc d, read to_float doc = Ok d ->
  distinct_instances d /\ (named_crosses d -> good_crosses_db d).
Proof.
  intros tf doc d H. apply read_state in H as (st & ids & E & J & _). destruct (doc_instances st J) as [N G].
  unfold distinct_instances, named_crosses, good_crosses_db. rewrite E. split.
  - rewrite N. destruct J as (-> & J & _). exact J.
  - intros NC i t g Ii It Ig c n Ic In_. destruct (G i Ii) as (p & cgs & M & K).
    pose proof It as It0. unfold covergroups, kids_with in It. apply filter_In in It as [It _]. rewrite K in It.
    apply In_nth_error in It as (j & It). apply M in It. apply self_made_view in It as ((DG & _) & _ & KT & TT).
    assert (Iv : In (view_group g) (tv_instances (view_type t))) by (cbn; now apply in_map).
    rewrite Forall_forall in DG. destruct (DG _ Iv) as [_ ST]. unfold known_type in KT. rewrite Forall_forall in KT.
    specialize (KT _ Iv). assert (Ivc : In (view_cross c) (gv_crosses (view_group g))) by (cbn; now apply in_map).
    rewrite Forall_forall in KT, ST. specialize (KT _ Ivc). specialize (ST _ Ivc). unfold known in KT. unfold stripped in ST.
    rewrite Forall_forall in KT, ST. cbn [view_cross xv_crossed] in KT, ST. split; [|split].
    + specialize (KT n In_). cbn in KT. rewrite map_map in KT. exact KT.
    + now apply ST.
    + eapply NC; eassumption.
Qed.

(** ** Fixed points *)
Definition made (l : ilist) : Prop :=
  NoDup (map fst l) /\ forall k n c, nth_error l k = Some (n, c) -> groups_made (S k) c.

(** Every instance of the document belongs to the design unit pyucis itself uses. *)
Definition default_modules (doc : elem) : Prop :=
  Forall (fun e => get_attr_or "moduleName" "default" e = "default") (iter "instanceCoverages" doc).

Lemma nth_error_set_nth : forall A (l : list A) k x i, nth_error (set_nth k x l) i =
  if Nat.eqb i k then match nth_error l k with Some _ => Some x | None => None end else nth_error l i.
Proof.
  induction l as [|y l IH]; intros k x i.
  - destruct k as [|k], i as [|i]; cbn; try reflexivity. now destruct (Nat.eqb i k).
  - destruct k as [|k], i as [|i]; cbn; try reflexivity. apply IH.
Qed.

Lemma read_instance_made : forall ids l e st', read_instance ids (canon l) e = Ok st' ->
  get_attr_or "moduleName" "default" e = "default" -> made l -> exists l', st' = canon l' /\ made l'.
Proof.
  intros ids l e st' H M (N & G). unfold read_instance in H.
  apply rbind_ok in H as (name & _ & H). apply rbind_ok in H as (u & _ & H). rewrite M in H.
  destruct (in_dec string_dec name (map fst l)) as [I|I].
  - apply in_map_iff in I as ([n c] & E & I). cbn in E. subst n. apply In_nth_error in I as (k & I).
    pose proof (open_old l k name c N I) as O. destruct (get_scope "default" (canon l)) as [s1 du]. rewrite O in H. cbn [fst snd] in H.
    apply rbind_ok in H as (cgs & HC & H). injection H as <-. rewrite (close_inst l k name c cgs N I).
    eexists. split; [reflexivity|]. split.
    + erewrite set_nth_map; [assumption|exact I|reflexivity].
    + intros k' n' c' E. rewrite nth_error_set_nth in E. destruct (Nat.eqb_spec k' k) as [->|Hk]; [|now apply (G k' n' c')].
      rewrite I in E. injection E as <- <-.
      eapply fold_res_inv with (I := groups_made (S k)); [|exact HC|eapply G; exact I]. intros ? ? ? _. apply read_covergroups_made.
  - pose proof (open_new l name I) as O. destruct (get_scope "default" (canon l)) as [s1 du]. rewrite O in H. cbn [fst snd] in H.
    apply rbind_ok in H as (cgs & HC & H). injection H as <-.
    assert (N' : NoDup (map fst (l ++ [(name, @nil scope)]))).
    { rewrite map_app. cbn. apply NoDup_rev in N. rewrite <- rev_involutive. apply NoDup_rev. rewrite rev_app_distr. cbn.
      constructor; [|assumption]. now rewrite <- in_rev. }
    rewrite (close_inst _ _ _ _ cgs N' (nth_error_snoc _ _ _)).
    eexists. split; [reflexivity|]. split.
    + erewrite set_nth_map; [assumption|apply nth_error_snoc|reflexivity].
    + intros k' n' c' E. rewrite set_nth_app in E by reflexivity. apply nth_snoc in E as [E|[-> E]]; [now apply (G k' n' c')|].
      injection E as -> ->.
      eapply fold_res_inv with (I := groups_made (S (List.length l))); [|exact HC|intros [|j] g Q; discriminate].
      intros ? ? ? _. apply read_covergroups_made.
Qed.

Lemma read_made : forall ids es l st, Forall (fun e => get_attr_or "moduleName" "default" e = "default") es -> made l ->
  fold_res (read_instance ids) es (canon l) = Ok st -> exists l', st = canon l' /\ made l'.
Proof.
  induction es as [|e es IH]; intros l st F M H; cbn [fold_res] in H.
  - injection H as <-. exists l. auto.
  - inversion F; subst. apply rbind_ok in H as (s1 & H1 & H).
    destruct (read_instance_made _ _ _ _ H1 H2 M) as (l1 & -> & M1). eapply IH; eassumption.
Qed.

Lemma types_step_replay : forall p cgs acc, (forall j g, nth_error cgs j = Some g -> type_step [p; List.length acc + j] (view_type g) = Ok g) ->
  types_step p (map view_type cgs) acc = Ok (acc ++ cgs).
Proof.
  intros p. induction cgs as [|g cgs IH]; intros acc H.
  - cbn. now rewrite app_nil_r.
  - unfold types_step. cbn [map fold_res]. pose proof (H 0 g eq_refl) as H0. rewrite Nat.add_0_r in H0. rewrite H0. cbn [rbind].
    unfold types_step in IH. rewrite IH; [now rewrite <- app_assoc|]. intros j g' N.
    rewrite app_length. cbn. replace (List.length acc + 1 + j) with (List.length acc + S j) by lia. now apply H.
Qed.

Lemma replay : forall l2 l1, made (l1 ++ l2) -> fold_res inst_step (map view_entry l2) (canon l1) = Ok (canon (l1 ++ l2)).
Proof.
  induction l2 as [|[n c] l2 IH]; intros l1 M.
  - rewrite app_nil_r. reflexivity.
  - cbn [map fold_res]. destruct M as [N G]. pose proof N as N0. rewrite map_app in N0. cbn in N0.
    rewrite inst_step_new; cbn [view_entry iv_name fst snd iv_types].
    + rewrite types_step_replay.
      * cbn [rbind app]. rewrite IH; [now rewrite <- app_assoc|]. rewrite <- app_assoc. cbn. now split.
      * intros j g E. cbn [List.length Nat.add]. apply self_made_view. apply (G (List.length l1) n c); [|assumption].
        rewrite nth_error_app2, Nat.sub_diag by lia. reflexivity.
    + eapply NoDup_app_l. exact N0.
    + intros I. apply NoDup_remove_2 in N0. apply N0. apply in_or_app. now left.
Qed.

Lemma made_groups : forall l, made l -> all_groups l /\ Forall doc_inst (map view_entry l).
Proof.
  intros l [N G].
  assert (X : forall x g, In x l -> In g (snd x) -> doc_type (view_type g) /\ s_type g = COVERGROUP).
  { intros [n c] g I J. apply In_nth_error in I as (k & I). apply In_nth_error in J as (j & J).
    specialize (G k n c I j g J). apply self_made_view in G as (A & _ & _ & B). auto. }
  split.
  - apply Forall_forall. intros x I. apply Forall_forall. intros g J. now apply (X x g).
  - apply Forall_forall. intros v I. apply in_map_iff in I as (x & <- & I). unfold doc_inst. cbn.
    apply Forall_forall. intros t J. apply in_map_iff in J as (g & <- & J). now apply (X x g).
Qed.

(** The date of the node is one the local clock shows. *)
Definition stable_date (local : dt -> dt) (h : hist) : Prop :=
  exists d, h_date h = VStr (compact d) /\ valid_dt d = true /\ (1000 <= dt_year d)%Z /\ local d = d.

Lemma plain_history_back : forall to_float local l l',
  Forall (plain_hist to_float) l -> Forall (stable_date local) l ->
  Forall2 (fun h h' => exists ds x, h_date h = VStr ds /\ strptime m_compact ds = Ok x /\ h' = back to_float local h x) l l' ->
  l' = l.
Proof.
  intros tf local l l' P S F. induction F as [|h h' l l' (ds & x & D & PX & ->) F IH]; [reflexivity|].
  inversion P; subst. inversion S as [|? ? (d & SD & V & Y & L) S']; subst. f_equal; [|auto].
  rewrite D in SD. injection SD as ->. rewrite compact_parse in PX by assumption. injection PX as <-.
  eapply back_plain; try eassumption; [now apply compact_parse|now rewrite L].
Qed.

Lemma content_made : forall l names hs, made l -> content (Db (root_of (canon l)) names hs) = map view_entry l.
Proof. intros l names hs M. unfold content. cbn [db_root]. apply canon_views; [apply M|now apply made_groups]. Qed.

Theorem stable : forall to_float doc d ev e zero, read to_float doc = Ok d -> default_modules doc ->
  write ev d = Ok e -> named_crosses d -> clock_ok ev ->
  Forall (numbers_readable to_float) (db_hist d) -> (db_hist d = [] -> to_float "0" = Some zero) ->
  exists d', read to_float (reparse e) = Ok d' /\ db_root d' = db_root d /\
    db_files d' = read_names (file_ids d) /\
    (db_hist d <> [] -> Forall (plain_hist to_float) (db_hist d) -> Forall (stable_date (env_local ev)) (db_hist d) ->
     db_hist d' = db_hist d).
Proof.
  intros tf doc d ev e zero R DM W NC CO NR Z0.
  destruct (read_wellformed _ _ _ R) as [DI GC]. specialize (GC NC).
  pose proof (read_state _ _ _ R) as (st & ids & E & _ & F).
  destruct (read_made ids _ [] st DM) as (l & -> & M); [split; [constructor|intros [|k] n c Q; discriminate]|exact F|].
  destruct (round_trip tf ev d e zero W DI GC CO NR Z0) as (l2 & hs & RR & V & G & N & H).
  eexists. split; [exact RR|]. cbn [db_root db_files db_hist].
  assert (C : content d = map view_entry l).
  { destruct d as [root names h]. cbn [db_root] in E. subst root. now apply content_made. }
  (* reading the document of [l] gives [l] *)
  apply write_ok in W as (a & ehs & WH & -> & EX).
  pose proof (write_history_nodes _ _ _ WH) as HN. destruct (doc_content d EX GC) as (DD & _ & DF).
  change (Elem "UCIS" a None (map r_file (file_ids d) ++ ehs ++ map r_inst (content d))) with (rendered a (file_ids d) ehs (content d)) in RR.
  rewrite reparse_rendered in RR by assumption. rewrite read_rendered in RR by (assumption || apply file_ids_one).
  apply rbind_ok in RR as (hs2 & T & RR). rewrite C in RR. rewrite (replay l []) in RR by exact M. cbn [rbind app] in RR.
  split; [rewrite E; congruence|]. split; [reflexivity|].
  intros NE P S. destruct (db_hist d) as [|h0 h] eqn:EH; [now contradiction NE|]. eapply plain_history_back; eassumption.
Qed.
