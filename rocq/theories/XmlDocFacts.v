(** Which documents are read; source files of a written document. *)
From Verif Require Import Base Dict Consts Db Hist Report ReportSpec NameSpec NubFacts MergeSpec BaseFacts ReportFacts
  PyInt PyIntFacts Dates DatesFacts Xml XmlWriter XmlReader XmlSpec XmlDocSpec XmlWriteFacts XmlReadFacts XmlViews XmlHistSpec XmlHistFacts
  XmlRound XmlStable.
Local Open Scope string_scope.
Local Open Scope list_scope.

(** ** When loops succeed *)
Definition ok {A} (r : res A) : Prop := exists a, r = Ok a.

Lemma ok_ret : forall A (a : A), ok (Ok a) <-> True.
Proof. intros. split; [trivial|intros _; now exists a]. Qed.
Lemma ok_bind : forall A B (m : res A) (k : A -> res B), ok (rbind m k) <-> exists a, m = Ok a /\ ok (k a).
Proof.
  intros A B m k. split.
  - intros (b & H). apply rbind_ok in H as (a & E & H). exists a. split; [assumption|now exists b].
  - intros (a & -> & b & H). exists b. exact H.
Qed.
Lemma ok_bind_all : forall A B (m : res A) (k : A -> res B) (P : Prop), (forall a, m = Ok a -> ok (k a) <-> P) ->
  ok (rbind m k) <-> ok m /\ P.
Proof.
  intros A B m k P H. rewrite ok_bind. split.
  - intros (a & E & K). split; [now exists a|]. now apply (H a E).
  - intros ((a & E) & p). exists a. split; [assumption|]. now apply (H a E).
Qed.
Lemma ok_fold : forall S X (f : S -> X -> res S) (I : S -> Prop) (P : X -> Prop) l st,
  (forall st x st', In x l -> I st -> f st x = Ok st' -> I st') ->
  (forall st x, In x l -> I st -> ok (f st x) <-> P x) ->
  I st -> ok (fold_res f l st) <-> Forall P l.
Proof.
  intros S X f I P. induction l as [|x l IH]; intros st HI HP Is; cbn [fold_res].
  - rewrite ok_ret. split; auto.
  - rewrite Forall_cons_iff. rewrite <- (HP st x (or_introl eq_refl) Is). apply ok_bind_all.
    intros st' E. apply IH; [intros; eapply HI; eauto; now right|intros; apply HP; [now right|assumption]|].
    eapply HI; [now left|exact Is|exact E].
Qed.
Lemma ok_traverse : forall X Y (f : X -> res Y) (P : X -> Prop) l, (forall x, In x l -> ok (f x) <-> P x) ->
  ok (traverse f l) <-> Forall P l.
Proof.
  intros X Y f P. induction l as [|x l IH]; intros H; cbn [traverse].
  - rewrite ok_ret. split; auto.
  - rewrite Forall_cons_iff, <- (H x (or_introl eq_refl)). apply ok_bind_all. intros y _.
    rewrite (ok_bind_all _ _ (traverse f l) _ True) by (intros; apply ok_ret).
    rewrite IH by (intros; apply H; now right). tauto.
Qed.

(** ** Elements *)
Lemma ok_int_attr : forall name e, ok (get_attr_int name e) <-> exists z, integer_attr name e z.
Proof.
  intros name e. unfold get_attr_int, attrib, dindex, integer_attr, get_attr. destruct (dget name (e_attrs e)) as [v|]; cbn [rbind].
  - split; intros (z & H); [exists z; now exists v|]. destruct H as (v' & [= <-] & H). now exists z.
  - split; intros (z & H); [discriminate|]. destruct H as (v' & H & _). discriminate.
Qed.
Lemma int_attr_det : forall name e z, get_attr_int name e = Ok z <-> integer_attr name e z.
Proof.
  intros name e z. unfold get_attr_int, attrib, dindex, integer_attr, get_attr. destruct (dget name (e_attrs e)) as [v|]; cbn [rbind].
  - split; [intros H; now exists v|]. intros (v' & [= <-] & H). exact H.
  - split; [discriminate|]. intros (v' & H & _). discriminate.
Qed.
Lemma ok_counted : forall e, ok (let* c := first_iter "contents" e in get_attr_int "coverageCount" c) <-> counted e.
Proof.
  intros e. unfold first_iter, counted. destruct (iter "contents" e) as [|c l]; cbn [rbind].
  - split; [intros (z & H); discriminate|]. intros (c & l & z & H & _). discriminate.
  - rewrite ok_int_attr. split.
    + intros (z & H). exists c, l, z. auto.
    + intros (c' & l' & z & [= <- <-] & H). now exists z.
Qed.
Lemma ok_kind : forall e, ok (bin_kind_of e) <-> good_kind e.
Proof.
  intros e. unfold bin_kind_of, good_kind, get_attr_or, seqb. destruct (get_attr "type" e) as [t|]; [|split; [trivial|intros _; now exists CVGBIN]].
  cbn [In]. destruct (String.eqb_spec t "bins") as [->|N1]; [cbn [orb]; rewrite ok_ret; tauto|].
  destruct (String.eqb_spec t "default") as [->|N2]; [cbn [orb]; rewrite ok_ret; tauto|].
  destruct (String.eqb_spec t "ignore") as [->|N3]; [cbn [orb]; rewrite ok_ret; tauto|].
  destruct (String.eqb_spec t "illegal") as [->|N4]; [cbn [orb]; rewrite ok_ret; tauto|]. cbn.
  split; [intros (k & H); discriminate|]. intuition congruence.
Qed.
Lemma ok_contents : forall e, (exists c, bin_contents e = Ok c /\ exists z, integer_attr "coverageCount" c z) <-> good_bin e.
Proof.
  intros e. unfold bin_contents, good_bin.
  assert (X : forall s, (exists c, first_iter "contents" s = Ok c /\ exists z, integer_attr "coverageCount" c z) <-> counted s).
  { intros s. rewrite <- ok_counted, ok_bind. split; intros (c & H & K); exists c; (split; [assumption|]); now apply ok_int_attr in K || apply ok_int_attr. }
  destruct (iter "sequence" e) as [|s l].
  - destruct (iter "range" e) as [|s l].
    + split; [intros (c & H & _); discriminate|]. intros [(s & l & H & _)|(_ & s & l & H & _)]; discriminate.
    + rewrite X. split; [intros H; right; split; [reflexivity|]; now exists s, l|].
      intros [(s' & l' & H & _)|(_ & s' & l' & [= <- <-] & H)]; [discriminate|assumption].
  - rewrite X. split; [intros H; left; now exists s, l|].
    intros [(s' & l' & [= <- <-] & H)|(H & _)]; [assumption|discriminate].
Qed.
Lemma ok_bin : forall st e, ok (read_bin st e) <-> good_bin e /\ good_kind e.
Proof.
  intros [items m] e. unfold read_bin. rewrite ok_bind. split.
  - intros (c & E & H). apply ok_bind in H as (k & Ek & H). apply ok_bind in H as (z & Ez & _). split.
    + apply ok_contents. exists c. split; [assumption|]. exists z. now apply int_attr_det.
    + apply ok_kind. now exists k.
  - intros [B K]. apply ok_contents in B as (c & E & z & Z). apply ok_kind in K as (k & K). exists c. split; [assumption|].
    apply int_attr_det in Z. rewrite K. cbn [rbind]. rewrite Z. cbn [rbind]. now eexists.
Qed.
Lemma ok_xbin : forall st e, ok (read_cross_bin st e) <-> counted e.
Proof.
  intros [items m] e. unfold read_cross_bin. rewrite <- ok_counted. rewrite !ok_bind. split; intros (c & E & H); exists c; (split; [assumption|]).
  - apply ok_bind in H as (z & Ez & _). now exists z.
  - destruct H as (z & E'). rewrite E'. cbn [rbind]. now eexists.
Qed.
Lemma ok_coverpoint : forall k st e, ok (read_coverpoint k st e) <-> good_point e.
Proof.
  intros k st e. unfold read_coverpoint. set (name := get_attr_or "name" "<unknown>" e).
  assert (X : forall new cps, dmem name cps = true ->
    ok (let* entry := dindex name cps in
        let* (items, m) := fold_res read_bin (iter "coverpointBin" e) ([], snd entry) in
        Ok (Ist new (dset name (fst entry, m) cps) (i_crs st) (i_kids st ++ [point_scope name items]) (dset name (List.length (i_kids st)) (i_pos st))))
    <-> good_point e).
  { intros new cps M. unfold dmem in M. unfold dindex. destruct (dget name cps) as [en|]; [|discriminate]. cbn [rbind].
    rewrite (ok_bind_all _ _ _ _ True) by (intros [items m] _; apply ok_ret).
    rewrite (ok_fold _ _ read_bin (fun _ => True) (fun b => good_bin b /\ good_kind b)); [unfold good_point; tauto|trivial| |trivial].
    intros st0 x _ _. apply ok_bin. }
  destruct (dmem name (i_cps st)) eqn:D; apply X; [assumption|]. unfold dmem. now rewrite dget_dset_same.
Qed.

(** The coverpoints of an instance are known under their names. *)
Lemma read_coverpoint_pos : forall k st e st', read_coverpoint k st e = Ok st' ->
  forall n, dmem n (i_pos st') = dmem n (i_pos st) || seqb n (elem_name e) /\
            dmem n (i_cps st') = dmem n (i_cps st) || seqb n (elem_name e).
Proof.
  intros k st e st' H n. unfold read_coverpoint in H. change (get_attr_or "name" "<unknown>" e) with (elem_name e) in H.
  set (name := elem_name e) in *. unfold dmem, seqb.
  destruct (dmem name (i_cps st)); apply rbind_ok in H as (en & He & H); apply rbind_ok in H as ([items m] & Hb & H); injection H as <-;
    cbn [i_pos i_cps]; destruct (String.eqb_spec n name) as [->|E]; rewrite ?orb_true_r, ?orb_false_r, ?dget_dset_same; auto;
    rewrite !dget_dset_other by assumption; auto.
Qed.
Lemma read_coverpoints_pos : forall k es st st', fold_res (read_coverpoint k) es st = Ok st' ->
  forall n, dmem n (i_pos st') = dmem n (i_pos st) || sinb n (map elem_name es) /\
            dmem n (i_cps st') = dmem n (i_cps st) || sinb n (map elem_name es).
Proof.
  induction es as [|e es IH]; intros st st' H n; cbn [fold_res map] in *.
  - injection H as <-. cbn. now rewrite !orb_false_r.
  - apply rbind_ok in H as (s1 & H1 & H). destruct (IH _ _ H n) as [-> ->]. destruct (read_coverpoint_pos _ _ _ _ H1 n) as [-> ->].
    unfold sinb, seqb. cbn [existsb]. now rewrite !orb_assoc.
Qed.

Lemma ok_resolve : forall base pos e, ok (resolve base pos e) <->
  Forall (fun x => exists s, e_text x = Some s /\ pos (strip s) <> None) (iter "crossExpr" e).
Proof.
  intros base pos e. unfold resolve. apply ok_traverse. intros x _. unfold expr_name. destruct (e_text x) as [s|]; cbn [rbind].
  - destruct (pos (strip s)) eqn:E.
    + rewrite ok_ret. split; [intros _; exists s; split; [reflexivity|congruence]|trivial].
    + split; [intros (? & H); discriminate|]. intros (s' & [= <-] & H). congruence.
  - split; [intros (? & H); discriminate|]. intros (s & H & _). discriminate.
Qed.

Definition cross_state (names : list string) (st : ist) : Prop :=
  (forall n, dmem n (i_pos st) = sinb n names) /\ (forall n, In n names -> dmem n (i_cps st) = true).

Lemma ok_cross : forall base k names st e, cross_state names st -> ok (read_cross base k st e) <-> good_cross names e.
Proof.
  intros base k names st e [SP SC]. unfold read_cross. set (name := get_attr_or "name" "<unknown>" e).
  assert (R1 : ok (resolve (base ++ [k]) (fun n => dget n (i_pos st)) e) <-> Forall (good_expr names) (iter "crossExpr" e)).
  { rewrite ok_resolve. split; apply Forall_impl; intros x (s & E & H); exists s; (split; [assumption|]).
    - apply sinb_in. rewrite <- SP. unfold dmem. now destruct (dget (strip s) (i_pos st)).
    - apply sinb_in in H. rewrite <- SP in H. unfold dmem in H. now destruct (dget (strip s) (i_pos st)). }
  assert (R2 : Forall (good_expr names) (iter "crossExpr" e) -> ok (resolve base (fun n => option_map fst (dget n (i_cps st))) e)).
  { intros F. apply ok_resolve. eapply Forall_impl; [|exact F]. intros x (s & E & H). exists s. split; [assumption|].
    apply SC in H. unfold dmem in H. now destruct (dget (strip s) (i_cps st)). }
  assert (Y : forall (new : list slot) crs, dmem name crs = true ->
    ok (let* entry := dindex name crs in
        let* refs := resolve (base ++ [k]) (fun n => dget n (i_pos st)) e in
        let* (items, m) := fold_res read_cross_bin (iter "crossBin" e) ([], entry) in
        Ok (Ist new (i_cps st) (dset name m crs) (i_kids st ++ [cross_scope name refs items]) (i_pos st)))
    <-> good_cross names e).
  { intros new crs M. unfold dmem in M. unfold dindex. destruct (dget name crs) as [en|]; [|discriminate]. cbn [rbind].
    rewrite (ok_bind_all _ _ _ _ (Forall counted (iter "crossBin" e))); [unfold good_cross; tauto|].
    intros refs _. rewrite (ok_bind_all _ _ _ _ True) by (intros [items m] _; apply ok_ret).
    rewrite (ok_fold _ _ read_cross_bin (fun _ => True) counted); [tauto|trivial| |trivial]. intros. apply ok_xbin. }
  destruct (dmem name (i_crs st)) eqn:D.
  - cbn [rbind]. apply Y. assumption.
  - rewrite ok_bind. split.
    + intros ([new crs] & H1 & H). apply rbind_ok in H1 as (refs & _ & H1). injection H1 as <- <-.
      apply Y in H; [assumption|]. unfold dmem. now rewrite dget_dset_same.
    + intros G. destruct (R2 (proj1 G)) as (refs & ->). cbn [rbind]. eexists. split; [reflexivity|]. cbv iota beta. apply Y; [|assumption].
      unfold dmem. now rewrite dget_dset_same.
Qed.
Lemma read_cross_keeps : forall base k names st e st', cross_state names st -> read_cross base k st e = Ok st' -> cross_state names st'.
Proof.
  intros base k names st e st' [SP SC] H. unfold read_cross in H. apply rbind_ok in H as ([new crs] & _ & H).
  apply rbind_ok in H as (en & _ & H). apply rbind_ok in H as (refs & _ & H). apply rbind_ok in H as ([it m] & _ & H). injection H as <-.
  split; assumption.
Qed.
Lemma ok_cg_instance : forall base st e, ok (read_cg_instance base st e) <-> good_cg_instance e.
Proof.
  intros base [[slots cps] crs] e. unfold read_cg_instance, good_cg_instance.
  rewrite (ok_bind_all _ _ _ _ (Forall (good_cross (map elem_name (iter "coverpoint" e))) (iter "cross" e))).
  - rewrite (ok_fold _ _ _ (fun _ => True) good_point); [tauto|trivial| |trivial]. intros. apply ok_coverpoint.
  - intros i Hi. rewrite (ok_bind_all _ _ _ _ True) by (intros; apply ok_ret).
    assert (S : cross_state (map elem_name (iter "coverpoint" e)) i).
    { pose proof (read_coverpoints_pos _ _ _ _ Hi) as X. split; [intros n; apply X|]. intros n I. rewrite (proj2 (X n)).
      apply sinb_in in I. rewrite I. apply orb_true_r. }
    rewrite (ok_fold _ _ _ (cross_state (map elem_name (iter "coverpoint" e))) (good_cross (map elem_name (iter "coverpoint" e)))); [tauto| | |exact S].
    + intros s x s' _ Hs H. eapply read_cross_keeps; eassumption.
    + intros s x _ Hs. now apply ok_cross.
Qed.
Lemma ok_covergroup : forall base name l, ok (read_covergroup base name l) <-> Forall good_cg_instance l.
Proof.
  intros base name l. unfold read_covergroup.
  rewrite (ok_bind_all _ _ _ _ True) by (intros [[s c] x] _; apply ok_ret).
  rewrite (ok_fold _ _ _ (fun _ => True) good_cg_instance); [tauto|trivial| |trivial]. intros. apply ok_cg_instance.
Qed.

Lemma by_type_in : forall l e, In e (flat_map snd (by_type l)) <-> In e l.
Proof.
  assert (X : forall (m : dict (list elem)) n e x, In x (flat_map snd (match dget n m with Some es => dset n (es ++ [e]) m | None => dset n [e] m end)) <->
                               In x (flat_map snd m) \/ x = e).
  { intros m n e x. induction m as [|[k v] m IH]; cbn [dget].
    - cbn. intuition.
    - destruct (String.eqb_spec n k) as [->|N].
      + cbn [dset flat_map snd]. rewrite String.eqb_refl. cbn [flat_map snd]. rewrite !in_app_iff. cbn [In]. intuition.
      + destruct (dget n m) as [es|]; cbn [dset]; destruct (String.eqb_spec n k); try contradiction; cbn [flat_map snd];
          rewrite !in_app_iff, IH; tauto. }
  intros l. induction l as [|y l IH] using rev_ind; intros e; [reflexivity|]. unfold by_type in *. rewrite fold_left_app. cbn [fold_left].
  rewrite X, IH, in_app_iff. cbn [In]. intuition.
Qed.
Lemma ok_covergroups : forall p cgs e, ok (read_covergroups p cgs e) <-> Forall good_cg_instance (iter "cgInstance" e).
Proof.
  intros p cgs e. unfold read_covergroups.
  rewrite (ok_fold _ _ _ (fun _ => True) (fun x => Forall good_cg_instance (snd x))); [|trivial| |trivial].
  - rewrite !Forall_forall. split.
    + intros H x I. apply by_type_in in I. apply in_flat_map in I as (y & Iy & Ix). specialize (H y Iy). rewrite Forall_forall in H. now apply H.
    + intros H y Iy. apply Forall_forall. intros x Ix. apply H. apply by_type_in. apply in_flat_map. now exists y.
  - intros st [n es] _ _. cbn [fst snd]. rewrite (ok_bind_all _ _ _ _ True) by (intros; apply ok_ret). rewrite ok_covergroup. tauto.
Qed.
Lemma ok_id : forall ids e, ok (check_id ids e) <-> good_id ids e.
Proof.
  intros ids e. unfold check_id, good_id. rewrite ok_bind. split.
  - intros (f & Ef & H). apply ok_bind in H as (l & El & H). apply ok_bind in H as (c & Ec & H).
    apply int_attr_det in Ef, El, Ec. destruct (existsb (Z.eqb f) ids) eqn:X; [|destruct H as (? & H); discriminate].
    apply existsb_exists in X as (y & I & Q). apply Z.eqb_eq in Q as <-. split; [now exists f|]. split; [now exists l|now exists c].
  - intros ((f & Ef & I) & (l & El) & (c & Ec)). apply int_attr_det in Ef, El, Ec. exists f. split; [assumption|].
    rewrite El. cbn [rbind]. rewrite Ec. cbn [rbind].
    assert (existsb (Z.eqb f) ids = true) as -> by (apply existsb_exists; exists f; split; [assumption|apply Z.eqb_refl]). now eexists.
Qed.
Lemma ok_attrib : forall n e, ok (attrib n e) <-> has_attr n e.
Proof.
  intros n e. unfold attrib, has_attr, dindex, get_attr. destruct (dget n (e_attrs e)).
  - rewrite ok_ret. split; [discriminate|trivial].
  - split; [intros (? & H); discriminate|intros H; now contradiction H].
Qed.
Lemma ok_instance : forall ids st e, ok (read_instance ids st e) <-> good_instance ids e.
Proof.
  intros ids st e. unfold read_instance, good_instance.
  rewrite (ok_bind_all _ _ _ _ (Forall (good_id ids) (iter "id" e) /\ Forall (fun c => Forall good_cg_instance (iter "cgInstance" c)) (iter "covergroupCoverage" e)));
    [rewrite ok_attrib; tauto|]. intros name _.
  rewrite (ok_bind_all _ _ _ _ (Forall (fun c => Forall good_cg_instance (iter "cgInstance" c)) (iter "covergroupCoverage" e))).
  - rewrite (ok_traverse _ _ _ (good_id ids)); [tauto|]. intros. apply ok_id.
  - intros _ _. destruct (get_scope _ st) as [s1 du]. destruct (get_inst_scope name du s1) as [s2 x].
    rewrite (ok_bind_all _ _ _ _ True) by (intros; apply ok_ret).
    rewrite (ok_fold _ _ _ (fun _ => True) (fun c => Forall good_cg_instance (iter "cgInstance" c))); [tauto|trivial| |trivial].
    intros. apply ok_covergroups.
Qed.

(** ** File table and history *)
Lemma read_files_ok : forall es names ids names' ids', fold_res read_source_file es (names, ids) = Ok (names', ids') ->
  exists new, ids' = ids ++ new /\ Forall2 good_file es new.
Proof.
  induction es as [|e es IH]; intros names ids names' ids' H; cbn [fold_res] in H.
  - injection H as _ <-. exists []. rewrite app_nil_r. auto.
  - apply rbind_ok in H as ([n1 i1] & H1 & H). unfold read_source_file in H1.
    destruct (get_attr "id" e) as [i|] eqn:EI; [|discriminate].
    apply rbind_ok in H1 as (z & Ez & H1). injection H1 as <- <-. apply IH in H as (new & -> & F).
    exists (z :: new). rewrite <- app_assoc. split; [reflexivity|]. constructor; [|assumption]. exists i. auto.
Qed.
Lemma read_files_total : forall es new names ids, Forall2 good_file es new ->
  exists names', fold_res read_source_file es (names, ids) = Ok (names', ids ++ new).
Proof.
  intros es new names ids F. revert names ids. induction F as [|e z es new (v & E & Z) F IH]; intros names ids; cbn [fold_res].
  - exists names. now rewrite app_nil_r.
  - unfold read_source_file at 1.
    rewrite E, Z. cbn [rbind]. edestruct IH as (n' & ->). exists n'. now rewrite <- app_assoc.
Qed.

Section Hist.
  Variable to_float : string -> option string.

  Lemma ok_float : forall f n e h, ok (set_float_if_ex to_float f n e h) <-> if_attr n e (fun v => to_float v <> None).
  Proof.
    intros f n e h. unfold set_float_if_ex, if_attr. destruct (get_attr n e) as [v|]; [|rewrite ok_ret; tauto].
    destruct (to_float v); [rewrite ok_ret; split; [congruence|trivial]|]. split; [intros (? & H); discriminate|congruence].
  Qed.
  Lemma ok_history : forall e, ok (read_history_node to_float e) <-> good_history to_float e.
  Proof.
    intros e. unfold read_history_node, good_history. rewrite !Forall_cons_iff.
    assert (N : forall P, Forall P (@nil string) <-> True) by (split; auto). rewrite !N.
    unfold get_attr_bool.
    split.
    - intros H. repeat (apply ok_bind in H as (? & ? & H)).
      assert (D : exists v x, get_attr "date" e = Some v /\ strptime m_iso v = Ok x).
      { match goal with D : get_attr_date "date" e = _ |- _ => rename D into DD end. unfold get_attr_date in DD.
        destruct (get_attr "date" e) as [v|]; [|discriminate]. apply rbind_ok in DD as (s & DD & _). unfold read_date in DD.
        apply rbind_ok in DD as (x' & DD & _). exists v, x'. auto. }
      match goal with S : rbind (attrib "testStatus" e) _ = _ |- _ => apply rbind_ok in S as (ts & S & _) end.
      rewrite <- !ok_attrib.
      assert (SI : forall f n h h', set_int_if_ex f n e h = Ok h' -> if_attr n e (fun v => exists z, py_int v = Ok z)).
      { clear. intros f n h h' H. unfold set_int_if_ex, if_attr in *. destruct (get_attr n e); [|trivial]. apply rbind_ok in H as (z & H & _). now exists z. }
      repeat match goal with F : set_float_if_ex _ ?f ?n e ?h = Ok ?x |- _ =>
        assert (if_attr n e (fun v => to_float v <> None)) by (apply (ok_float f n e h); now exists x); clear F end.
      match goal with F : set_int_if_ex _ _ _ _ = _ |- _ => apply SI in F end.
      unfold ok. repeat split; try eassumption; eauto.
    - intros ((S & T & V & VT & VV & _) & (v & x & D & P) & (F1 & F2 & F3 & _) & I).
      rewrite <- ok_attrib in S, T, V, VT, VV. destruct S as (s & ->), T as (t & ->), V as (vv & ->), VT as (vt & ->), VV as (vw & ->).
      cbn [rbind].
      assert (G1 : forall f h, exists h', set_float_if_ex to_float f "simtime" e h = Ok h') by (intros f h; exact (proj2 (ok_float f _ e h) F1)).
      assert (G2 : forall f h, exists h', set_float_if_ex to_float f "cpuTime" e h = Ok h') by (intros f h; exact (proj2 (ok_float f _ e h) F2)).
      assert (G3 : forall f h, exists h', set_float_if_ex to_float f "cost" e h = Ok h') by (intros f h; exact (proj2 (ok_float f _ e h) F3)).
      assert (G4 : forall f h, exists h', set_int_if_ex f "sameTests" e h = Ok h').
      { intros f h. unfold set_int_if_ex, if_attr in *. destruct (get_attr "sameTests" e); [|now eexists]. destruct I as (z & ->). cbn. now eexists. }
      assert (GD : exists y, get_attr_date "date" e = Ok y).
      { unfold get_attr_date. rewrite D. unfold read_date. rewrite P. cbn. now eexists. }
      cbv zeta. edestruct G1 as (h1 & ->). cbn [rbind]. edestruct G2 as (h2 & ->). cbn [rbind].
      destruct GD as (y & ->). cbn [rbind]. edestruct G3 as (h3 & ->). cbn [rbind]. edestruct G4 as (h4 & ->). cbn [rbind]. now eexists.
  Qed.

  (** Reading succeeds exactly on good documents. *)
  Lemma ok_read : forall doc, ok (read to_float doc) <-> good_doc to_float doc.
  Proof.
    intros doc. unfold read, good_doc. rewrite ok_bind. split.
    - intros ([names ids] & F & H). apply read_files_ok in F as (new & E & F). cbn [app] in E. subst new. exists ids. split; [assumption|].
      apply ok_bind in H as (hs & EH & H). apply ok_bind in H as (st & ES & _). split.
      + rewrite <- (ok_traverse _ _ (read_history_node to_float)); [now exists hs|]. intros. apply ok_history.
      + rewrite <- (ok_fold _ _ (read_instance ids) (fun _ => True) (good_instance ids) _ (Rst [] [] [])); [now exists st|trivial| |trivial]. intros. apply ok_instance.
    - intros (ids & F & H & I). destruct (read_files_total _ _ [] [] F) as (names & ->). exists (names, ids). split; [reflexivity|].
      rewrite <- (ok_traverse _ _ (read_history_node to_float)) in H by (intros; apply ok_history). destruct H as (hs & ->). cbn [rbind].
      rewrite <- (ok_fold _ _ (read_instance ids) (fun _ => True) (good_instance ids) _ (Rst [] [] [])) in I; [|trivial|intros; apply ok_instance|exact Logic.I].
      destruct I as (st & ->). cbn [rbind]. now eexists.
  Qed.
End Hist.

(** ** Source files *)
Definition enter (m : dict Z) (f : string) : dict Z := if dmem f m then m else dset f (Z.of_nat (List.length m) + 1)%Z m.
Definition own_file (s : scope) : list string := match si_file (a_src (s_attrs s)) with Some f => [f] | None => [] end.

Lemma of_all : forall s, of_type SCOPE_ALL s = negb (N.eqb (N.land (s_type s) SCOPE_ALL) 0).
Proof. reflexivity. Qed.

Lemma find_files_list : forall s m, find_files m s = fold_left enter (own_file s ++ files_below s) m.
Proof.
  fix IH 1. intros [a it rt kids] m. rewrite fold_left_app. cbn [find_files files_below].
  replace (fold_left enter (own_file (Scope a it rt kids)) m) with (add_file m (a_src a))
    by (unfold own_file, add_file, enter; cbn [s_attrs]; now destruct (si_file (a_src a))).
  generalize (add_file m (a_src a)). clear m. induction kids as [|k kids IHk]; intros m; cbn [fold_left flat_map]; [reflexivity|].
  rewrite fold_left_app. rewrite of_all. destruct (N.eqb (N.land (s_type k) SCOPE_ALL) 0); cbn [negb].
  - cbn [fold_left]. apply IHk.
  - rewrite (IH k m). unfold own_file. apply IHk.
Qed.
Lemma file_ids_list : forall d, file_ids d = fold_left enter (files_below (db_root d)) [("__null__file__", 1%Z)].
Proof.
  intros d. unfold file_ids. generalize [("__null__file__", 1%Z)]. destruct (db_root d) as [a it rt kids]. unfold scopes. cbn [files_below s_kids].
  induction kids as [|k kids IH]; intros m; [reflexivity|]. cbn [filter flat_map]. rewrite fold_left_app, of_all.
  destruct (N.eqb (N.land (s_type k) SCOPE_ALL) 0); cbn [negb fold_left]; rewrite <- IH; [reflexivity|].
  now rewrite find_files_list.
Qed.

Definition numbered (l : list string) : dict Z := combine l (map Z.of_nat (seq 1 (List.length l))).

Lemma numbered_snoc : forall l f, numbered (l ++ [f]) = numbered l ++ [(f, (Z.of_nat (List.length l) + 1)%Z)].
Proof.
  intros l f. unfold numbered. rewrite app_length. cbn [List.length]. rewrite Nat.add_1_r, seq_S, map_app. cbn [map].
  assert (X : forall A B (a a' : list A) (b b' : list B), List.length a = List.length b -> combine (a ++ a') (b ++ b') = combine a b ++ combine a' b').
  { clear. induction a as [|x a IH]; intros a' [|y b] b' H; cbn in *; try discriminate; [reflexivity|]. rewrite IH by congruence. reflexivity. }
  rewrite X by (now rewrite map_length, seq_length). cbn. f_equal. f_equal. f_equal. lia.
Qed.
Lemma numbered_keys : forall l, dkeys (numbered l) = l.
Proof.
  intros l. unfold dkeys, numbered. assert (X : forall A B (a : list A) (b : list B), List.length a = List.length b -> map fst (combine a b) = a).
  { clear. induction a as [|x a IH]; intros [|y b] H; cbn in *; try discriminate; [reflexivity|]. rewrite IH by congruence. reflexivity. }
  apply X. now rewrite map_length, seq_length.
Qed.
Lemma numbered_length : forall l, List.length (numbered l) = List.length l.
Proof. intros. unfold numbered. rewrite combine_length, map_length, seq_length. lia. Qed.
Lemma enter_numbered : forall fs l, NoDup l -> fold_left enter fs (numbered (nub l)) = numbered (nub (l ++ fs)).
Proof.
  induction fs as [|f fs IH] using rev_ind; intros l N; cbn [fold_left]; [now rewrite app_nil_r|].
  rewrite fold_left_app, IH by assumption. cbn [fold_left]. rewrite app_assoc, nub_snoc. unfold enter.
  assert (dmem f (numbered (nub (l ++ fs))) = sinb f (l ++ fs)) as ->.
  { destruct (sinb f (l ++ fs)) eqn:E.
    - apply dget_in. rewrite numbered_keys. apply nub_in. now apply sinb_in.
    - destruct (dmem f (numbered (nub (l ++ fs)))) eqn:D; [|reflexivity]. apply dget_in in D. rewrite numbered_keys in D.
      apply (proj1 (nub_in _ _)) in D. apply sinb_in in D. congruence. }
  destruct (sinb f (l ++ fs)) eqn:E; [reflexivity|]. rewrite numbered_length, numbered_snoc. apply dset_new.
  destruct (dmem f (numbered (nub (l ++ fs)))) eqn:D; [|reflexivity]. apply dget_in in D. rewrite numbered_keys in D.
  apply (proj1 (nub_in _ _)) in D. apply sinb_in in D. congruence.
Qed.
Lemma file_ids_spec : forall d, file_ids d = numbered (file_names d).
Proof.
  intros d. rewrite file_ids_list. change [("__null__file__", 1%Z)] with (numbered (nub ["__null__file__"])).
  rewrite enter_numbered by (repeat constructor; auto). reflexivity.
Qed.

(** ** References to files in a written document *)
Definition file_ref (x : elem) : Prop := forall v, get_attr "file" x = Some v -> v = "1".
Definition refs_ok (e : elem) : Prop := forall x, within x e -> file_ref x.

Lemma refs_elem : forall t a x ks, file_ref (Elem t a x ks) -> Forall refs_ok ks -> refs_ok (Elem t a x ks).
Proof.
  intros t a x ks R F y W. inversion W as [e|y' k e I W']; subst; [assumption|]. cbn [e_kids] in I. rewrite Forall_forall in F. now apply (F k I).
Qed.
Lemma refs_map : forall X (f : X -> elem) l, (forall x, refs_ok (f x)) -> Forall refs_ok (map f l).
Proof. intros X f l H. apply Forall_forall. intros e I. apply in_map_iff in I as (x & <- & _). apply H. Qed.
Ltac no_ref := let v := fresh in let H := fresh in intros v H; vm_compute in H; discriminate.
Lemma refs_source : forall t, refs_ok (source_id_elem t).
Proof. intros t. apply refs_elem; [|constructor]. intros v H. change (Some "1" = Some v) in H. congruence. Qed.
Lemma refs_contents : forall z, refs_ok (contents_elem z).
Proof. intros z. apply refs_elem; [|constructor]. intros v H. discriminate. Qed.
Lemma refs_options : refs_ok options_elem.
Proof. apply refs_elem; [|constructor]. intros v H. discriminate. Qed.
Lemma refs_bin : forall b, refs_ok (r_bin b).
Proof.
  intros b. apply refs_elem; [intros v H; discriminate|]. constructor; [|constructor]. apply refs_elem; [intros v H; discriminate|].
  constructor; [apply refs_contents|constructor].
Qed.
Lemma refs_point : forall p, refs_ok (r_point p).
Proof. intros p. apply refs_elem; [intros v H; discriminate|]. constructor; [apply refs_options|]. apply refs_map, refs_bin. Qed.
Lemma refs_xbin : forall b, refs_ok (r_xbin b).
Proof.
  intros b. apply refs_elem; [intros v H; discriminate|]. constructor; [apply refs_elem; [intros v H; discriminate|constructor]|].
  constructor; [apply refs_contents|constructor].
Qed.
Lemma refs_cross : forall c, refs_ok (r_cross c).
Proof.
  intros c. apply refs_elem; [intros v H; discriminate|]. constructor; [apply refs_options|]. apply Forall_app. split; apply refs_map; [|apply refs_xbin].
  intros n. apply refs_elem; [intros v H; discriminate|constructor].
Qed.
Lemma refs_group : forall tn g, refs_ok (r_group tn g).
Proof.
  intros tn g. apply refs_elem; [intros v H; discriminate|]. constructor; [apply refs_options|]. constructor.
  - apply refs_elem; [intros v H; discriminate|]. constructor; [apply refs_source|]. constructor; [apply refs_source|constructor].
  - apply Forall_app. split; apply refs_map; [apply refs_point|apply refs_cross].
Qed.
Lemma refs_inst : forall v, refs_ok (r_inst v).
Proof.
  intros i. apply refs_elem; [intros v H; discriminate|]. constructor; [apply refs_source|]. apply refs_map. intros t.
  apply refs_elem; [intros v H; discriminate|]. apply refs_map, refs_group.
Qed.

Lemma keep_no_file : forall l v, dget "file" (keep l) = Some v -> In "file" (map fst l).
Proof.
  intros l v H. destruct (existsb (String.eqb "file") (map fst l)) eqn:E.
  - apply existsb_exists in E as (x & I & E). apply String.eqb_eq in E. now subst.
  - apply keep_mem in E. unfold dmem in E. rewrite H in E. discriminate.
Qed.
Lemma refs_hist : forall ev i h e, history_elem ev i h = Ok e -> refs_ok e.
Proof.
  intros ev i h e H. apply history_elem_ok in H as (ln & ds & d & tc & uv & vi & vt & vv & _ & _ & _ & _ & _ & _ & _ & _ & ->).
  apply refs_elem; [|constructor]. intros v G. unfold get_attr in G. cbn [e_attrs] in G. apply keep_no_file in G.
  cbn in G. repeat destruct G as [G|G]; discriminate || contradiction.
Qed.
Lemma refs_hists : forall ev l hs, write_history ev l = Ok hs -> Forall refs_ok hs.
Proof.
  intros ev l hs H. destruct l as [|h l].
  - apply rbind_ok in H as (e & E & H). injection H as <-. constructor; [|constructor].
    apply dummy_ok in E as (d & _ & ->). apply refs_elem; [|constructor]. intros v G. discriminate.
  - unfold write_history in H. revert hs H. generalize (h :: l) 0. clear. induction l as [|h l IH]; intros i hs H; cbn in H.
    + injection H as <-. constructor.
    + apply rbind_ok in H as (e & E & H). apply rbind_ok in H as (es & Es & H). injection H as <-.
      constructor; [eapply refs_hist; exact E|eapply IH; exact Es].
Qed.
Lemma write_attrs : forall ev d e, write ev d = Ok e -> forall k, has_attr k e -> In k ["writtenBy"; "writtenTime"; "ucisVersion"].
Proof.
  intros ev d e H k G. unfold write in H. apply rbind_ok in H as (a1 & E1 & H). apply rbind_ok in H as (a2 & E2 & H). apply rbind_ok in H as (a3 & E3 & H).
  apply rbind_ok in H as (fs & _ & H). apply rbind_ok in H as (hs & _ & H). apply rbind_ok in H as (is_ & _ & H). injection H as <-.
  unfold has_attr, get_attr in G. cbn [e_attrs] in G.
  apply (keep_set []) in E1; [|reflexivity]. subst a1. apply keep_date in E2 as (s & x & _ & _ & ->); [|reflexivity].
  apply keep_set in E3; [|reflexivity]. subst a3. cbn [app] in G.
  assert (dmem k (keep [("writtenBy", Some (env_user ev)); ("writtenTime", Some (isoformat (env_local ev x))); ("ucisVersion", Some "1.0")]) = true) as M
    by (unfold dmem; now destruct (dget k _)).
  apply dget_in in M. exact M.
Qed.
Lemma written_refs : forall ev d e, write ev d = Ok e -> refs_ok e.
Proof.
  intros ev d e W. pose proof (write_attrs _ _ _ W) as A. apply write_ok in W as (a & hs & WH & -> & _).
  apply refs_elem.
  - intros v G. assert (X : has_attr "file" (Elem "UCIS" a None (map r_file (file_ids d) ++ hs ++ map r_inst (content d)))) by (unfold has_attr; congruence).
    apply A in X. cbn in X. repeat destruct X as [X|X]; discriminate || contradiction.
  - apply Forall_app. split; [apply refs_map; intros f; apply refs_elem; [intros v G; discriminate|constructor]|].
    apply Forall_app. split; [eapply refs_hists; exact WH|]. apply refs_map, refs_inst.
Qed.
Lemma nodes_files : forall hs, Forall hist_node hs -> flat_map (iter "sourceFiles") hs = [].
Proof. intros hs F. now rewrite (nodes_iter "sourceFiles" hs F). Qed.
Lemma written_files : forall ev d e, write ev d = Ok e -> iter "sourceFiles" e = map r_file (numbered (file_names d)).
Proof.
  intros ev d e W. apply write_ok in W as (a & hs & WH & -> & _). pose proof (write_history_nodes _ _ _ WH) as HN.
  cbn [iter]. change (seqb "sourceFiles" "UCIS") with false. cbv iota. cbn [app].
  rewrite !flat_map_app, (nodes_files hs HN), (iter_all _ r_file) by reflexivity.
  rewrite (iter_none _ r_inst) by (intros; apply inst_quiet; now left). rewrite !app_nil_r, file_ids_spec. reflexivity.
Qed.
