(** Lemmas about readers that are used on after a document has raised. *)
From Verif Require Import Base Dict Consts Db Hist ReportSpec BaseFacts NameSpec NubFacts PyInt Dates Xml XmlReader XmlSpec XmlReadFacts XmlRound XmlStable
  XmlDocSpec XmlDocFacts XmlMeans XmlMeansFacts XmlSession XmlSessionSpec XmlSessionFacts XmlResume.
Local Open Scope string_scope.
Local Open Scope list_scope.

(** ** Agreement with the reader that is given up *)
(** The step ends as the program does, and in its state when it returns. *)
Definition ends {S} (r : res S) (p : S * outcome) : Prop :=
  match r with Ok s => p = (s, None) | Err e => snd p = Some e end.

Lemma ends_steps {A S} (f : S -> A -> S * outcome) g : (forall s x, ends (g s x) (f s x)) -> forall l s, ends (fold_res g l s) (run_steps f l s).
Proof.
  intros H. induction l as [|x l IH]; intros s; cbn [fold_res run_steps]; [reflexivity|]. specialize (H s x).
  destruct (g s x) as [s1|e]; cbn [rbind ends] in *; [rewrite H; apply IH|]. destruct (f s x) as [s1 r]. cbn in *. now subst.
Qed.
Lemma ends_whole {A S} (g : S -> A -> res S) s x : ends (g s x) (whole g s x).
Proof. unfold whole. now destruct (g s x). Qed.

Lemma dget_dmem {V} n (d : dict V) : dmem n d = true -> exists v, dget n d = Some v.
Proof.
  intros H. destruct (dget n d) as [v|] eqn:E; [now exists v|]. exfalso. induction d as [|[k v] d IH]; [discriminate|].
  unfold dmem in *. cbn in *. destruct (String.eqb n k); [discriminate|auto].
Qed.

Lemma ends_coverpoint : forall k st e, ends (read_coverpoint k st e) (coverpoint_step k st e).
Proof.
  intros k st e. unfold read_coverpoint, coverpoint_step. set (name := get_attr_or "name" "<unknown>" e).
  assert (X : forall new cps, (exists v, dget name cps = Some v) ->
    ends (let* entry := dindex name cps in let* (items, m) := fold_res read_bin (iter "coverpointBin" e) ([], snd entry) in
          Ok (Ist new (dset name (fst entry, m) cps) (i_crs st) (i_kids st ++ [point_scope name items]) (dset name (List.length (i_kids st)) (i_pos st))))
      match dget name cps with
      | None => (st, Some KeyError)
      | Some entry =>
          let '(x, r) := run_steps (whole read_bin) (iter "coverpointBin" e) ([], snd entry) in
          (Ist new (dset name (fst entry, snd x) cps) (i_crs st) (i_kids st ++ [point_scope name (fst x)])
             (match r with None => dset name (List.length (i_kids st)) (i_pos st) | Some _ => i_pos st end), r)
      end).
  { intros new cps (v & E). unfold dindex. rewrite E. cbn [rbind].
    pose proof (ends_steps (whole read_bin) read_bin (ends_whole read_bin) (iter "coverpointBin" e) ([], snd v)) as H.
    destruct (fold_res read_bin _ _) as [[items m]|x]; cbn [rbind ends] in *; [now rewrite H|]. destruct (run_steps _ _ _) as [[i m] r]. cbn in *. now subst. }
  destruct (dmem name (i_cps st)) eqn:M; apply X; [now apply dget_dmem|]. eexists. apply dget_dset_same.
Qed.

Lemma ends_cross : forall base k st e, ends (read_cross base k st e) (cross_step base k st e).
Proof.
  intros base k st e. unfold read_cross, cross_step. set (name := get_attr_or "name" "<unknown>" e).
  assert (X : forall new crs, (exists v, dget name crs = Some v) ->
    ends (let* entry := dindex name crs in let* refs := resolve (base ++ [k]) (fun n => dget n (i_pos st)) e in
          let* (items, m) := fold_res read_cross_bin (iter "crossBin" e) ([], entry) in
          Ok (Ist new (i_cps st) (dset name m crs) (i_kids st ++ [cross_scope name refs items]) (i_pos st)))
      (cross_inst_step base k name (Ist new (i_cps st) crs (i_kids st) (i_pos st)) e)).
  { intros new crs (v & E). unfold dindex, cross_inst_step. cbn [i_pos i_crs i_new i_cps i_kids]. rewrite E. cbn [rbind].
    destruct (resolve (base ++ [k]) _ e) as [refs|x]; cbn [rbind]; [|reflexivity].
    pose proof (ends_steps (whole read_cross_bin) read_cross_bin (ends_whole read_cross_bin) (iter "crossBin" e) ([], v)) as H.
    destruct (fold_res read_cross_bin _ _) as [[items m]|x]; cbn [rbind ends] in *; [now rewrite H|]. destruct (run_steps _ _ _) as [[i m] r]. cbn in *. now subst. }
  destruct (dmem name (i_crs st)) eqn:M; cbn [rbind].
  - destruct st as [a b c d f]. cbn [i_new i_cps i_crs i_kids i_pos] in *. apply X. now apply dget_dmem.
  - destruct (resolve base _ e) as [refs|x]; cbn [rbind]; [|reflexivity]. apply X. eexists. apply dget_dset_same.
Qed.

Lemma ends_cg_instance : forall base st e, ends (read_cg_instance base st e) (cg_instance_step base st e).
Proof.
  intros base [[slots cps] crs] e. unfold read_cg_instance, cg_instance_step. set (k := List.length slots).
  pose proof (ends_steps _ _ (ends_coverpoint k) (iter "coverpoint" e) (Ist [] cps crs [] [])) as H.
  destruct (fold_res (read_coverpoint k) _ _) as [i|x]; cbn [rbind ends] in *.
  - rewrite H. pose proof (ends_steps _ _ (ends_cross base k) (iter "cross" e) i) as H'.
    destruct (fold_res (read_cross base k) _ _) as [j|x]; cbn [rbind ends] in *; [now rewrite H'|]. destruct (run_steps (cross_step _ _) _ _) as [j r]. exact H'.
  - destruct (run_steps (coverpoint_step k) _ _) as [j r]. cbn in H. subst. reflexivity.
Qed.

Lemma ends_covergroup : forall base name l, ends (read_covergroup base name l) (covergroup_step base name l).
Proof.
  intros base name l. unfold read_covergroup, covergroup_step. pose proof (ends_steps _ _ (ends_cg_instance base) l ([], [], [])) as H.
  destruct (fold_res (read_cg_instance base) _ _) as [[[slots cps] crs]|x]; cbn [rbind ends] in *; [now rewrite H|].
  destruct (run_steps _ _ _) as [[[a b] c] r]. exact H.
Qed.

Lemma ends_covergroups : forall i cgs e, ends (read_covergroups i cgs e) (covergroups_step i cgs e).
Proof.
  intros i cgs e. unfold read_covergroups, covergroups_step. apply ends_steps. intros s [n l]. cbn [fst snd].
  pose proof (ends_covergroup [i; List.length s] n l) as H. destruct (read_covergroup _ _ _) as [g|x]; cbn [rbind ends] in *; [now rewrite H|].
  destruct (covergroup_step _ _ _) as [g r]. exact H.
Qed.

Lemma ends_instance : forall k ids st e, ends (instance_in k ids st e) (instance_step k ids st e).
Proof.
  intros k ids st e. unfold instance_in, instance_step. destruct (attrib "name" e) as [name|x]; cbn [rbind]; [|reflexivity].
  destruct (traverse (check_id ids) _) as [u|x]; cbn [rbind]; [|reflexivity].
  destruct (scope_in k _ st) as [st1 du]. destruct (inst_in k name du st1) as [st2 x].
  pose proof (ends_steps _ _ (ends_covergroups (snd (fst x))) (iter "covergroupCoverage" e) (snd x)) as H.
  destruct (fold_res (read_covergroups _) _ _) as [cgs|y]; cbn [rbind ends] in *; [now rewrite H|]. destruct (run_steps _ _ _) as [g r]. exact H.
Qed.

Section Next.
  Variable to_float : string -> option string.
  Lemma ends_next : forall se doc, ends (read_next to_float se doc) (read_step to_float se doc).
  Proof.
    intros se doc. unfold read_next, read_step.
    pose proof (ends_steps _ _ (ends_whole read_source_file) (iter "sourceFiles" doc) ([], x_ids se)) as H.
    destruct (fold_res read_source_file _ _) as [[names ids]|x]; cbn [rbind ends] in *.
    - rewrite H. destruct (traverse _ _) as [hs|x]; cbn [rbind]; [|reflexivity].
      pose proof (ends_steps _ _ (ends_instance (List.length (x_dbs se)) ids) (iter "instanceCoverages" doc) (Xst [] (x_mods se) (x_insts se))) as H'.
      destruct (fold_res (instance_in _ _) _ _) as [st|x]; cbn [rbind ends] in *; [now rewrite H'|]. destruct (run_steps (instance_step _ _) _ _) as [st r]. cbn in H'. now subst.
    - destruct (run_steps _ _ _) as [[a b] r]. cbn in H. subst. reflexivity.
  Qed.
  Lemma read_on_ends : forall docs se,
    match fold_res (read_next to_float) docs se with
    | Ok se' => read_on to_float docs se = (se', repeat None (List.length docs))
    | Err e => exists k, nth_error (snd (read_on to_float docs se)) k = Some (Some e) /\ firstn k (snd (read_on to_float docs se)) = repeat None k
    end.
  Proof.
    induction docs as [|d docs IH]; intros se; cbn [fold_res read_on]; [reflexivity|]. pose proof (ends_next se d) as H.
    destruct (read_next to_float se d) as [s1|x]; cbn [rbind ends] in *.
    - rewrite H. specialize (IH s1). destruct (fold_res _ docs s1) as [s2|x].
      + now rewrite IH.
      + destruct IH as (k & A & B). exists (S k). destruct (read_on to_float docs s1) as [s2 rs]. cbn in *. now rewrite B.
    - exists 0. destruct (read_step to_float se d) as [s1 r]. cbn in H. subst. destruct (read_on to_float docs s1) as [s2 rs]. split; reflexivity.
  Qed.
  Lemma read_on_app : forall a b se, read_on to_float (a ++ b) se =
    let '(s1, r1) := read_on to_float a se in let '(s2, r2) := read_on to_float b s1 in (s2, r1 ++ r2).
  Proof.
    induction a as [|d a IH]; intros b se; cbn [read_on app].
    - now destruct (read_on to_float b se).
    - destruct (read_step to_float se d) as [s1 r]. rewrite IH. destruct (read_on to_float a s1) as [s2 r1]. now destruct (read_on to_float b s2).
  Qed.
  Lemma read_on_length : forall docs se, List.length (snd (read_on to_float docs se)) = List.length docs.
  Proof.
    induction docs as [|d docs IH]; intros se; cbn [read_on]; [reflexivity|]. destruct (read_step to_float se d) as [s1 r]. specialize (IH s1).
    destruct (read_on to_float docs s1). cbn in *. now rewrite IH.
  Qed.
End Next.

(** ** What a step leaves alone *)
Lemma steps_inv {A S} (P : S -> Prop) (f : S -> A -> S * outcome) l :
  (forall s x, In x l -> P s -> P (fst (f s x))) -> forall s, P s -> P (fst (run_steps f l s)).
Proof.
  induction l as [|x l IH]; intros H s I; cbn [run_steps]; [assumption|]. pose proof (H s x (or_introl eq_refl) I) as I1.
  destruct (f s x) as [s1 [e|]]; cbn [fst] in *; [assumption|]. apply IH; [intros s' y Q; apply H; now right|assumption].
Qed.

Lemma covergroups_grow : forall i e cgs, exists more, fst (covergroups_step i cgs e) = cgs ++ more.
Proof.
  intros i e cgs. unfold covergroups_step. apply (steps_inv (fun s => exists more, s = cgs ++ more)).
  - intros s [n l] _ (more & ->). destruct (covergroup_step _ _ _) as [g r]. cbn [fst]. exists (more ++ [g]). now rewrite app_assoc.
  - exists []. now rewrite app_nil_r.
Qed.
Lemma all_covergroups_grow : forall i es cgs, exists more, fst (run_steps (covergroups_step i) es cgs) = cgs ++ more.
Proof.
  intros i es cgs. apply (steps_inv (fun s => exists more, s = cgs ++ more)); [|exists []; now rewrite app_nil_r].
  intros s e _ (more & ->). destruct (covergroups_grow i e (cgs ++ more)) as (m & ->). exists (more ++ m). now rewrite app_assoc.
Qed.

(** What reading instances does to the maps it started from. *)
Record frame (ind umd : list string) (m0 : dict spot) (i0 : dict (spot * list scope)) (st : xst) : Prop := Frame {
  f_old : forall n, ~ In n ind -> dget n (xs_insts st) = dget n i0;
  f_grow : forall n p c, dget n i0 = Some (p, c) -> exists more, dget n (xs_insts st) = Some (p, c ++ more);
  f_insts : forall n, In n (dkeys (xs_insts st)) -> In n (dkeys i0) \/ In n ind;
  f_mods : forall n, In n (dkeys (xs_mods st)) -> In n (dkeys m0) \/ In n umd;
  f_slots : forall n, In n (xnames (xs_slots st)) -> In n ind /\ In n (dkeys (xs_insts st)) }.

Lemma dkeys_dset_mono {V} (d : dict V) k v n : In n (dkeys d) -> In n (dkeys (dset k v d)).
Proof. intros H. rewrite dkeys_dset. destruct (dmem k d); [assumption|]. apply in_or_app. now left. Qed.
Lemma dkeys_dset_self {V} (d : dict V) k v : In k (dkeys (dset k v d)).
Proof.
  destruct (in_dec string_dec k (dkeys (dset k v d))) as [H|H]; [assumption|]. pose proof (dget_absent _ _ _ H) as E. now rewrite dget_dset_same in E.
Qed.

Lemma frame_instance : forall k ids ind umd m0 i0 st e, In (attr_or "name" "" e) ind -> In (attr_or "moduleName" "default" e) umd ->
  frame ind umd m0 i0 st -> frame ind umd m0 i0 (fst (instance_step k ids st e)).
Proof.
  intros k ids ind umd m0 i0 st e HN HM F. unfold instance_step. destruct (attrib "name" e) as [name|x] eqn:Hn; [|assumption].
  assert (AN : attr_or "name" "" e = name).
  { unfold attrib, dindex in Hn. unfold attr_or, get_attr. destruct (dget "name" (e_attrs e)); [now injection Hn as ->|discriminate]. }
  rewrite AN in HN. destruct (traverse _ _); [|assumption]. change (get_attr_or "moduleName" "default" e) with (attr_or "moduleName" "default" e).
  destruct (scope_in k _ st) as [st1 du] eqn:GS.
  assert (F1 : frame ind umd m0 i0 st1).
  { unfold scope_in in GS. destruct (dget _ (xs_mods st)); injection GS as <- <-; [assumption|]. destruct F as [A B C D E]. constructor; cbn [xs_slots xs_mods xs_insts]; auto.
    - intros n Q. apply dkeys_dset_in in Q as [->|Q]; auto.
    - intros n Q. unfold xnames in Q. rewrite flat_map_app in Q. cbn in Q. rewrite app_nil_r in Q. auto. }
  clear F GS. destruct (inst_in k name du st1) as [st2 x] eqn:GI.
  assert (F2 : frame ind umd m0 i0 st2 /\ dget name (xs_insts st2) = Some x).
  { unfold inst_in in GI. destruct (dget name (xs_insts st1)) as [y|] eqn:G; injection GI as <- <-; [now split|]. split; [|apply dget_dset_same].
    destruct F1 as [A B C D E]. constructor; cbn [xs_slots xs_mods xs_insts]; auto.
    - intros n Q. rewrite dget_dset_other by congruence. auto.
    - intros n p c Q. destruct (B n p c Q) as (more & M). exists more. rewrite dget_dset_other; [assumption|]. intros ->. congruence.
    - intros n Q. apply dkeys_dset_in in Q as [->|Q]; auto.
    - intros n Q. unfold xnames in Q. rewrite flat_map_app in Q. apply in_app_or in Q as [Q|Q].
      + destruct (E n Q). split; [assumption|]. now apply dkeys_dset_mono.
      + destruct Q as [<-|[]]. split; [assumption|]. apply dkeys_dset_self. }
  clear GI F1. destruct F2 as [[A B C D E] G]. pose proof (all_covergroups_grow (snd (fst x)) (iter "covergroupCoverage" e) (snd x)) as (more & M).
  destruct (run_steps _ _ _) as [cgs r]. cbn [fst] in *. subst cgs. constructor; cbn [xs_slots xs_mods xs_insts]; auto.
  - intros n Q. rewrite dget_dset_other by congruence. auto.
  - intros n p c Q. destruct (B n p c Q) as (m & M). destruct (String.eqb_spec n name) as [->|N].
    + rewrite dget_dset_same. rewrite G in M. injection M as ->. cbn [fst snd]. exists (m ++ more). now rewrite app_assoc.
    + rewrite dget_dset_other by assumption. now exists m.
  - intros n Q. apply dkeys_dset_in in Q as [->|Q]; auto.
  - intros n Q. destruct (E n Q). split; [assumption|]. now apply dkeys_dset_mono.
Qed.

Section Steps.
  Variable to_float : string -> option string.
  (** One document, whether it raises or not. *)
  Lemma step_frame : forall se doc, exists x, x_dbs (fst (read_step to_float se doc)) = x_dbs se ++ [x] /\
    frame (instance_names doc) (unit_names doc) (x_mods se) (x_insts se)
      (Xst (snd x) (x_mods (fst (read_step to_float se doc))) (x_insts (fst (read_step to_float se doc)))).
  Proof.
    intros se doc. unfold read_step.
    assert (F0 : frame (instance_names doc) (unit_names doc) (x_mods se) (x_insts se) (Xst [] (x_mods se) (x_insts se))).
    { constructor; cbn; auto; [|tauto]. intros n p c E. exists []. now rewrite app_nil_r. }
    destruct (run_steps (whole _) _ _) as [[names ids] [x|]]; [eexists; split; [reflexivity|exact F0]|].
    destruct (traverse _ _); [|eexists; split; [reflexivity|exact F0]].
    pose proof (steps_inv (frame (instance_names doc) (unit_names doc) (x_mods se) (x_insts se)) (instance_step (List.length (x_dbs se)) ids) (iter "instanceCoverages" doc)) as H.
    specialize (H (fun s e Q => frame_instance _ ids _ _ _ _ s e (in_map _ _ _ Q) (in_map _ _ _ Q)) _ F0).
    destruct (run_steps (instance_step _ _) _ _) as [st r]. cbn [fst] in H. destruct st as [sl mo ins]. cbn [xs_slots xs_mods xs_insts].
    destruct r; eexists; (split; [reflexivity|]); exact H.
  Qed.
  Lemma read_on_dbs : forall docs se, exists l, x_dbs (fst (read_on to_float docs se)) = x_dbs se ++ l /\ List.length l = List.length docs.
  Proof.
    induction docs as [|d docs IH]; intros se; cbn [read_on].
    - exists []. now rewrite app_nil_r.
    - destruct (step_frame se d) as (x & E & _). destruct (read_step to_float se d) as [s1 r]. cbn [fst] in E. destruct (IH s1) as (l & E' & L).
      destruct (read_on to_float docs s1) as [s2 rs]. cbn [fst] in *. exists (x :: l). rewrite E', E, <- app_assoc. cbn. now rewrite L.
  Qed.

  (** The invariant of a session: the maps have names of the documents only. *)
  Definition named_by (se : session) (docs : list elem) : Prop := sep_inv se docs (databases se).
  Lemma named_step : forall se docs doc, named_by se docs -> named_by (fst (read_step to_float se doc)) (docs ++ [doc]).
  Proof.
    intros se docs doc (_ & I2 & I3 & I4). destruct (step_frame se doc) as (x & E & [A B C D F]). cbn [xs_slots xs_mods xs_insts] in *.
    assert (O : forall P : elem -> Prop, (exists d, In d docs /\ P d) -> exists d, In d (docs ++ [doc]) /\ P d).
    { intros P (d & Q & R). exists d. split; [apply in_or_app; now left|assumption]. }
    assert (N : In doc (docs ++ [doc])) by (apply in_or_app; right; now left).
    split; [reflexivity|]. split; [|split].
    - intros n Q. destruct (C n Q); eauto.
    - intros n Q. destruct (D n Q); eauto.
    - intros y Q n R. rewrite E in Q. apply in_app_or in Q as [Q|[<-|[]]]; [eauto|]. destruct (F n R). eauto.
  Qed.
  Lemma named_on : forall docs se before, named_by se before -> named_by (fst (read_on to_float docs se)) (before ++ docs).
  Proof.
    induction docs as [|d docs IH]; intros se before I; cbn [read_on]; [now rewrite app_nil_r|]. pose proof (named_step se before d I) as I1.
    destruct (read_step to_float se d) as [s1 r]. cbn [fst] in I1. specialize (IH s1 _ I1). destruct (read_on to_float docs s1). cbn [fst] in *. now rewrite <- app_assoc in IH.
  Qed.
  Lemma named_new : named_by new_session [].
  Proof. split; [reflexivity|]. cbn. split; [|split]; intros n []. Qed.

  (** Names that no further document has. *)
  Lemma on_old : forall docs se n, (forall d, In d docs -> ~ In n (instance_names d)) ->
    dget n (x_insts (fst (read_on to_float docs se))) = dget n (x_insts se).
  Proof.
    induction docs as [|d docs IH]; intros se n H; cbn [read_on]; [reflexivity|]. destruct (step_frame se d) as (x & _ & [A _ _ _ _]). cbn [xs_insts] in A.
    specialize (A n (H d (or_introl eq_refl))). destruct (read_step to_float se d) as [s1 r]. cbn [fst] in A.
    specialize (IH s1 n (fun d' Q => H d' (or_intror Q))). destruct (read_on to_float docs s1). cbn [fst] in *. congruence.
  Qed.
  (** The instances only gain covergroups. *)
  Lemma on_grow : forall docs se n p c, dget n (x_insts se) = Some (p, c) ->
    exists more, dget n (x_insts (fst (read_on to_float docs se))) = Some (p, c ++ more).
  Proof.
    induction docs as [|d docs IH]; intros se n p c H; cbn [read_on]; [exists []; now rewrite app_nil_r|].
    destruct (step_frame se d) as (x & _ & [_ B _ _ _]). cbn [xs_insts] in B. destruct (B n p c H) as (more & M).
    destruct (read_step to_float se d) as [s1 r]. cbn [fst] in M. destruct (IH s1 n p _ M) as (m2 & M2). destruct (read_on to_float docs s1). cbn [fst] in *.
    exists (more ++ m2). now rewrite app_assoc.
  Qed.
  (** The instances of the databases are in the map. *)
  Definition known (se : session) : Prop := forall x, In x (x_dbs se) -> forall n, In n (xnames (snd x)) -> exists p c, dget n (x_insts se) = Some (p, c).
  Lemma dkeys_dget {V} (d : dict V) n : In n (dkeys d) -> exists v, dget n d = Some v.
  Proof.
    induction d as [|[k v] d IH]; [intros []|]. cbn. intros [->|H]; [exists v; now rewrite String.eqb_refl|]. destruct (String.eqb n k); [now exists v|auto].
  Qed.
  Lemma known_step : forall se doc, known se -> known (fst (read_step to_float se doc)).
  Proof.
    intros se doc K. destruct (step_frame se doc) as (x & E & [A B C D F]). cbn [xs_slots xs_mods xs_insts] in *. intros y Q n R. rewrite E in Q.
    apply in_app_or in Q as [Q|[<-|[]]].
    - destruct (K y Q n R) as (p & c & G). destruct (B n p c G) as (more & M). eauto.
    - destruct (F n R) as [_ G]. apply dkeys_dget in G as ([p c] & G). eauto.
  Qed.
  Lemma known_on : forall docs se, known se -> known (fst (read_on to_float docs se)).
  Proof.
    induction docs as [|d docs IH]; intros se K; cbn [read_on]; [assumption|]. pose proof (known_step se d K) as K1.
    destruct (read_step to_float se d) as [s1 r]. cbn [fst] in K1. specialize (IH s1 K1). now destruct (read_on to_float docs s1).
  Qed.
End Steps.

(** ** The file ids *)
Lemma files_leading : forall es names ids, exists new, snd (fst (run_steps (whole read_source_file) es (names, ids))) = ids ++ new /\ leading_ids es new.
Proof.
  induction es as [|e es IH]; intros names ids; cbn [run_steps].
  - exists []. rewrite app_nil_r. split; [reflexivity|]. exists [], []. repeat split. constructor.
  - unfold whole at 1. unfold read_source_file at 1.
    assert (X : ~ (exists z, good_file e z) -> exists new, ids = ids ++ new /\ leading_ids (e :: es) new).
    { intros N. exists []. rewrite app_nil_r. split; [reflexivity|]. exists [], (e :: es). split; [reflexivity|]. split; [constructor|exact N]. }
    destruct (get_attr "id" e) as [i|] eqn:G; [|cbn [fst snd]; apply X; intros (z & v & E & _); congruence].
    destruct (py_int i) as [z|x] eqn:P; cbn [rbind]; [|cbn [fst snd]; apply X; intros (z & v & E & Q); congruence].
    destruct (IH (with_file (get_attr "fileName" e) names) (ids ++ [z])) as (new & -> & (a & b & -> & F & B)). exists (z :: new). rewrite <- app_assoc. split; [reflexivity|].
    exists (e :: a), b. split; [reflexivity|]. split; [|exact B]. constructor; [|exact F]. now exists i.
Qed.
Section Ids.
  Variable to_float : string -> option string.
  Lemma step_ids : forall se doc, exists new, x_ids (fst (read_step to_float se doc)) = x_ids se ++ new /\ leading_ids (iter "sourceFiles" doc) new.
  Proof.
    intros se doc. unfold read_step. destruct (files_leading (iter "sourceFiles" doc) [] (x_ids se)) as (new & E & L). exists new. split; [|exact L].
    destruct (run_steps (whole _) _ _) as [[names ids] [x|]]; cbn [fst snd] in E; subst ids; [reflexivity|]. destruct (traverse _ _); [|reflexivity].
    destruct (run_steps (instance_step _ _) _ _) as [st [|]]; reflexivity.
  Qed.
  Lemma step_ok : forall se doc, snd (read_step to_float se doc) = None <-> good_session to_float (x_ids se) [doc].
  Proof.
    intros se doc. rewrite <- (ok_session to_float [doc] se). cbn [fold_res]. pose proof (ends_next to_float se doc) as X.
    destruct (read_next to_float se doc) as [s1|e]; cbn [ends rbind] in *.
    - rewrite X. split; [intros _; now exists s1|reflexivity].
    - rewrite X. split; [discriminate|]. intros (s & Q). discriminate.
  Qed.
  Lemma on_ids : forall docs se, exists idss, Forall2 (fun doc ids => leading_ids (iter "sourceFiles" doc) ids) docs idss /\
    forall k doc, nth_error docs k = Some doc ->
      (nth_error (snd (read_on to_float docs se)) k = Some None <-> good_session to_float (x_ids se ++ List.concat (firstn k idss)) [doc]).
  Proof.
    induction docs as [|d docs IH]; intros se; cbn [read_on].
    - exists []. split; [constructor|]. intros [|k] doc E; discriminate.
    - destruct (step_ids se d) as (new & E & L). pose proof (step_ok se d) as O. destruct (read_step to_float se d) as [s1 r]. cbn [fst snd] in *.
      destruct (IH s1) as (idss & F & N). destruct (read_on to_float docs s1) as [s2 rs]. cbn [snd] in *. exists (new :: idss). split; [now constructor|].
      intros [|k] doc Q; cbn [nth_error firstn List.concat] in *.
      + injection Q as <-. rewrite app_nil_r, <- O. split; [intros H; injection H as H; exact H|intros H; now rewrite H].
      + rewrite (N k doc Q), E, <- app_assoc. reflexivity.
  Qed.
End Ids.
