(** The references of a database read from an XML document. *)
From Verif Require Import Base Dict Consts Db BaseFacts ApiSpec MergeClosed RefsFacts RefsMerge Xml XmlReader XmlReadFacts.
Local Open Scope string_scope.
Local Open Scope list_scope.

Section Instances.
  Variables (base : handle) (k : nat) (a : attrs).
  Definition kids_ok (st : ist) : Prop :=
    let s := Scope a [] [] (i_kids st) in
    inner (base ++ [k]) s /\ forall n i, dget n (i_pos st) = Some i -> exists x, nth_error (i_kids st) i = Some x /\ s_name x = n.
  Lemma kids_point st e st' : read_coverpoint k st e = Ok st' -> kids_ok st -> kids_ok st'.
  Proof.
    intros H [I P].
    assert (X : exists items, i_kids st' = i_kids st ++ [point_scope (get_attr_or "name" "<unknown>" e) items] /\
                              i_pos st' = dset (get_attr_or "name" "<unknown>" e) (List.length (i_kids st)) (i_pos st)).
    { unfold read_coverpoint in H. destruct (dmem (get_attr_or "name" "<unknown>" e) (i_cps st)); apply rbind_ok in H as (en & _ & H);
        apply rbind_ok in H as ([i m] & _ & H); injection H as <-; cbn [i_kids i_pos]; eauto. }
    destruct X as (items & K & Q). unfold kids_ok. rewrite K, Q. split.
    - apply (inner_add_leaf _ (Scope a [] [] (i_kids st)) (point_scope _ items)); [exact I|reflexivity|]. exact Logic.I.
    - intros n i D. destruct (String.eqb_spec n (get_attr_or "name" "<unknown>" e)) as [->|N].
      + rewrite dget_dset_same in D. injection D as <-. eexists. rewrite nth_error_app2, Nat.sub_diag by lia. split; reflexivity.
      + rewrite dget_dset_other in D by assumption. destruct (P n i D) as (x & E & S). exists x. split; [|exact S]. now apply nth_error_app_some.
  Qed.
  Lemma kids_cross st e st' : read_cross base k st e = Ok st' -> kids_ok st -> kids_ok st'.
  Proof.
    intros H [I P]. unfold read_cross in H. apply rbind_ok in H as ([new crs] & _ & H). apply rbind_ok in H as (en & _ & H).
    apply rbind_ok in H as (refs & R & H). apply rbind_ok in H as ([items m] & _ & H). injection H as <-. unfold kids_ok. cbn [i_kids i_pos].
    apply resolve_ok in R as [R _]. split.
    - apply (inner_add_leaf _ (Scope a [] [] (i_kids st)) (cross_scope _ refs items)); [exact I|reflexivity|].
      unfold scope_ok. cbn. eapply Forall_impl; [|exact R]. intros r (i & D & E). destruct (P _ _ D) as (x & N & S).
      exists [i], x. cbn. rewrite N. repeat split; auto. discriminate.
    - intros n i D. destruct (P n i D) as (x & E & S). exists x. split; [|exact S]. now apply nth_error_app_some.
  Qed.
End Instances.

Definition insts_inner (base : handle) (slots : list slot) : Prop :=
  forall k c, nth_error slots k = Some (SInst c) -> inner (base ++ [k]) c.
Lemma cg_instance_inner base st e st' : read_cg_instance base st e = Ok st' -> insts_inner base (fst (fst st)) -> insts_inner base (fst (fst st')).
Proof.
  destruct st as [[slots cps] crs]. intros H I. unfold read_cg_instance in H. apply rbind_ok in H as (i1 & H1 & H). apply rbind_ok in H as (i2 & H2 & H).
  injection H as <-. cbn [fst] in *.
  assert (N2 : slot_insts (i_new i2) = []).
  { eapply fold_res_inv with (I := fun s => slot_insts (i_new s) = []); [|exact H2|].
    - intros ? ? ? _. apply no_inst_cross.
    - eapply fold_res_inv with (I := fun s => slot_insts (i_new s) = []); [|exact H1|reflexivity]. intros ? ? ? _. apply no_inst_point. }
  set (a := s_attrs (new_coverinstance (get_attr_or "name" "<unknown>" e) None 1 SRC_OTHER)) in *.
  assert (K : kids_ok base (List.length slots) a i2).
  { eapply fold_res_inv with (I := kids_ok base (List.length slots) a); [|exact H2|].
    - intros ? ? ? _. apply kids_cross.
    - eapply fold_res_inv with (I := kids_ok base (List.length slots) a); [|exact H1|].
      + intros ? ? ? _. apply kids_point.
      + split; [|intros; discriminate]. apply plain_inner; [reflexivity|]. now intros p s. }
  intros k c N. destruct (Nat.lt_ge_cases k (List.length slots)) as [L|L].
  - rewrite nth_error_app1 in N by exact L. now apply I.
  - rewrite nth_error_app2 in N by exact L. destruct (k - List.length slots) as [|q] eqn:Q; cbn in N.
    + injection N as <-. replace k with (List.length slots) by lia. apply K.
    + exfalso. apply nth_error_In in N. assert (X : In c (slot_insts (i_new i2))) by (unfold slot_insts; apply in_flat_map; exists (SInst c); split; [exact N|now left]).
      now rewrite N2 in X.
Qed.

Lemma covergroup_inner base name l g : read_covergroup base name l = Ok g -> inner base g.
Proof.
  intros H. unfold read_covergroup in H. apply rbind_ok in H as ([[slots cps] crs] & H1 & H). injection H as <-.
  assert (C : cg_inv base (slots, cps, crs)).
  { eapply fold_res_inv with (I := cg_inv base); [|exact H1|apply cg_inv_init]. intros ? ? ? _. apply read_cg_instance_inv. }
  assert (J : insts_inner base slots).
  { change slots with (fst (fst (slots, cps, crs))). eapply fold_res_inv with (I := fun st => insts_inner base (fst (fst st))); [|exact H1|].
    - intros ? ? ? _. apply cg_instance_inner.
    - intros [|k] c N; discriminate. }
  destruct C as (_ & _ & _ & _ & _ & CR). apply inner_intro; [exact Logic.I|]. cbn [s_kids]. intros k c q x N G.
  rewrite nth_error_map in N. destruct (nth_error slots k) as [sl|] eqn:E; [|discriminate]. injection N as <-. destruct sl as [c|n|n refs]; cbn [fill] in G.
  - apply (scope_ok_child base _ k c); [cbn; now rewrite nth_error_map, E|]. exact (J k c E q x G).
  - revert q x G. apply inner_leaf; [reflexivity|exact Logic.I].
  - revert q x G. apply inner_leaf; [reflexivity|]. unfold scope_ok. cbn.
    assert (X : In (n, refs) (slot_crosses slots)) by (unfold slot_crosses; apply in_flat_map; exists (SCross n refs); split; [eapply nth_error_In; eauto|now left]).
    apply CR in X as [F _]. eapply Forall_impl; [|exact F]. intros r (i & P & Ni). exists [i], (fill cps crs (SPoint (r_name r))).
    cbn [get_at s_kids]. rewrite nth_error_map, Ni. repeat split; auto. discriminate.
Qed.

(** ** The whole database *)
Definition all_inner (p : nat) (cgs : list scope) : Prop := forall j g, nth_error cgs j = Some g -> inner [p; j] g.
Lemma covergroups_inner p cgs e cgs' : read_covergroups p cgs e = Ok cgs' -> all_inner p cgs -> all_inner p cgs'.
Proof.
  intros H. unfold read_covergroups in H. eapply fold_res_inv with (I := all_inner p); [|exact H].
  intros l [n es] l' _ E G. apply rbind_ok in E as (g & E & E'). injection E' as <-. apply covergroup_inner in E. intros j h N.
  apply nth_snoc in N as [N|[-> ->]]; auto.
Qed.

Definition rst_ok (st : rst) : Prop :=
  rst_inv st /\ (forall n p cgs, dget n (r_insts st) = Some (p, cgs) -> all_inner p cgs) /\
  (forall p n du, nth_error (r_slots st) p = Some (RInst n du) -> du < List.length (r_slots st)) /\
  (forall n i, dget n (r_mods st) = Some i -> i < List.length (r_slots st)).
Lemma instance_ok ids st e st' : read_instance ids st e = Ok st' -> rst_ok st -> rst_ok st'.
Proof.
  intros H (I0 & I1 & I2 & I3). split; [eapply read_instance_inv; eauto|]. unfold read_instance in H.
  apply rbind_ok in H as (name & _ & H). apply rbind_ok in H as (u & _ & H). destruct (get_scope _ st) as [st1 du] eqn:GS.
  assert (J : (forall n p cgs, dget n (r_insts st1) = Some (p, cgs) -> all_inner p cgs) /\
              (forall p n du, nth_error (r_slots st1) p = Some (RInst n du) -> du < List.length (r_slots st1)) /\
              (forall n i, dget n (r_mods st1) = Some i -> i < List.length (r_slots st1)) /\ du < List.length (r_slots st1)).
  { unfold get_scope in GS. destruct (dget _ (r_mods st)) as [i|] eqn:D; injection GS as <- <-; [now eauto 6|]. cbn [r_slots r_insts r_mods]. rewrite app_length. cbn.
    split; [exact I1|]. split; [|split; [|lia]].
    - intros p n d N. apply nth_snoc in N as [N|[_ N]]; [|discriminate]. specialize (I2 _ _ _ N). lia.
    - intros n i G. destruct (String.eqb_spec n (get_attr_or "moduleName" "default" e)) as [->|X].
      + rewrite dget_dset_same in G. injection G as <-. lia.
      + rewrite dget_dset_other in G by assumption. specialize (I3 _ _ G). lia. }
  clear I0 I1 I2 I3 GS. destruct J as (I1 & I2 & I3 & L). destruct (get_inst_scope name du st1) as [st2 x] eqn:GI.
  assert (J : ((forall n p cgs, dget n (r_insts st2) = Some (p, cgs) -> all_inner p cgs) /\
              (forall p n du, nth_error (r_slots st2) p = Some (RInst n du) -> du < List.length (r_slots st2)) /\
              (forall n i, dget n (r_mods st2) = Some i -> i < List.length (r_slots st2))) /\ all_inner (fst x) (snd x)).
  { unfold get_inst_scope in GI. destruct (dget name (r_insts st1)) as [y|] eqn:D; injection GI as <- <-.
    - split; [auto|]. destruct y. eapply I1; eauto.
    - cbn [r_slots r_insts r_mods fst snd]. rewrite app_length. cbn. assert (Y : forall p, all_inner p []) by (intros p [|j] g N; discriminate).
      split; [|apply Y]. split; [|split].
      + intros n p cgs G. destruct (String.eqb_spec n name) as [->|X].
        * rewrite dget_dset_same in G. injection G as <- <-. apply Y.
        * rewrite dget_dset_other in G by assumption. eauto.
      + intros p n d N. apply nth_snoc in N as [N|[_ N]]; [specialize (I2 _ _ _ N); lia|]. injection N as _ ->. lia.
      + intros n i G. specialize (I3 _ _ G). lia. }
  clear I1 I2 I3 GI. destruct J as ((I1 & I2 & I3) & O). apply rbind_ok in H as (cgs & HC & H). injection H as <-. cbn [r_slots r_insts r_mods].
  split; [|split; assumption]. intros n p c G. destruct (String.eqb_spec n name) as [->|X].
  - rewrite dget_dset_same in G. injection G as <- <-. eapply fold_res_inv with (I := all_inner (fst x)); [|exact HC|exact O].
    intros ? ? ? _. apply covergroups_inner.
  - rewrite dget_dset_other in G by assumption. eauto.
Qed.

Theorem read_resolves : forall to_float doc d, read to_float doc = Ok d -> all_resolve d.
Proof.
  intros tf doc d H. unfold read in H. apply rbind_ok in H as ([names ids] & _ & H). apply rbind_ok in H as (hs & _ & H).
  apply rbind_ok in H as (st & HS & H). injection H as <-.
  assert (J : rst_ok st).
  { eapply fold_res_inv with (I := rst_ok); [|exact HS|].
    - intros ? ? ? _. apply instance_ok.
    - split; [apply rst_inv_init|]. cbn. split; [|split]; intros; try discriminate. destruct p; discriminate. }
  destruct J as ([I0 _] & I1 & I2 & _). apply built_resolves; [reflexivity|]. cbn [db_root s_kids]. rewrite map_length. intros k c N. rewrite nth_error_map in N.
  destruct (nth_error (r_slots st) k) as [[n|n du]|] eqn:E; [| |discriminate]; injection N as <-; cbn [rfill].
  - right. apply plain_inner; [reflexivity|]. now intros p s.
  - left. split; [exists [du], du; repeat split; eauto|]. cbn [s_kids]. destruct (I0 _ _ _ E) as [cgs G]. rewrite G. exact (I1 _ _ _ G).
Qed.
