(** Facts about the YAML reader. *)
From Verif Require Import Base Dict Consts Db NameSpec NubFacts BaseFacts Yaml YamlSpec.
Local Open Scope string_scope.
Local Open Scope list_scope.

(** ** Valid documents have the expected parts *)
Lemma traverse_total : forall A B (f : A -> res B) (P : B -> Prop) l, (forall x, In x l -> exists y, f x = Ok y /\ P y) ->
  exists ys, traverse f l = Ok ys /\ Forall P ys.
Proof.
  intros A B f P l. induction l as [|x l IH]; intros H; [exists []; split; [reflexivity|constructor]|].
  destruct (H x (or_introl eq_refl)) as (y & E & Py). destruct IH as (ys & Es & Pys); [intros z I; apply H; now right|].
  exists (y :: ys). cbn. rewrite E. cbn. rewrite Es. split; [reflexivity|now constructor].
Qed.
Lemma arr_total : forall A (f : jval -> res A) P s v, (forall x, jvalid s x = true -> exists y, f x = Ok y /\ P y) ->
  jvalid (TArr s) v = true -> exists ys, d_arr f v = Ok ys /\ Forall P ys.
Proof.
  intros A f P s v H V. destruct v; try discriminate V. cbn in *. rewrite forallb_forall in V. apply traverse_total. auto.
Qed.
Lemma maybe_total : forall A (f : jval -> res A) P s n props req o, jvalid (TObj props req) (JObj o) = true ->
  In (n, s) props -> (forall x, jvalid s x = true -> exists y, f x = Ok y /\ P y) ->
  exists r, maybe n f o = Ok r /\ (forall y, r = Some y -> P y) /\ (In n req -> r <> None).
Proof.
  intros A f P s n props req o V I H. cbn [jvalid] in V. apply andb_true_iff in V as [V1 V2]. rewrite forallb_forall in V1, V2.
  specialize (V2 _ I). cbn [fst snd] in V2. unfold maybe. destruct (dget n o) as [v|] eqn:E.
  - destruct (H v V2) as (y & Ey & Py). exists (Some y). rewrite Ey. split; [reflexivity|]. split; [intros y' E'; now injection E' as <-|discriminate].
  - exists None. split; [reflexivity|]. split; [discriminate|]. intros I'. specialize (V1 _ I'). unfold dmem in V1. rewrite E in V1. discriminate.
Qed.
Lemma need_total : forall A (f : jval -> res A) P s n props req o, jvalid (TObj props req) (JObj o) = true ->
  In (n, s) props -> In n req -> (forall x, jvalid s x = true -> exists y, f x = Ok y /\ P y) ->
  exists y, need n f o = Ok y /\ P y.
Proof.
  intros A f P s n props req o V I R H. destruct (maybe_total _ f P s n props req o V I H) as (r & E & Pr & N).
  unfold maybe in E. unfold need. destruct (dget n o) as [v|].
  - apply rbind_ok in E as (y & E & Er). injection Er as <-. exists y. auto.
  - injection E as <-. now contradiction (N R).
Qed.
Lemma str_total : forall x, jvalid TStr x = true -> exists y, d_str x = Ok y /\ True.
Proof. intros [] H; try discriminate. eexists. split; [reflexivity|exact I]. Qed.
Lemma int_total : forall x, jvalid TInt x = true -> exists y, d_int x = Ok y /\ True.
Proof. intros [] H; try discriminate. eexists. split; [reflexivity|exact I]. Qed.
Lemma obj_total : forall p r v, jvalid (TObj p r) v = true -> exists o, v = JObj o.
Proof. intros p r [] H; try discriminate. now eexists. Qed.

Ltac listed := cbn; tauto.
Ltac prop1 V n f P s H :=
  let r := fresh "r" in let E := fresh "E" in let Pr := fresh "Pr" in let N := fresh "N" in
  destruct (maybe_total _ f P s n _ _ _ V) as (r & E & Pr & N); [listed|exact H|rewrite E; cbn [rbind]].
Ltac name1 V := let y := fresh "nm" in let E := fresh "E" in
  destruct (need_total _ d_str (fun _ => True) TStr "name" _ _ _ V) as (y & E & _); [listed|listed|exact str_total|rewrite E; cbn [rbind]].

Lemma bin_total : forall v, jvalid bin_schema v = true -> exists b, d_bin v = Ok b /\ True.
Proof.
  intros v V. destruct (obj_total _ _ _ V) as [o ->]. unfold d_bin. cbn [d_obj rbind]. name1 V.
  destruct (need_total _ d_int (fun _ => True) TInt "count" _ _ _ V) as (z & E' & _); [listed|listed|exact int_total|rewrite E'; cbn [rbind]].
  eexists. split; [reflexivity|exact I].
Qed.
Lemma bins_total : forall v, jvalid (TArr bin_schema) v = true -> exists b, d_arr d_bin v = Ok b /\ Forall (fun _ => True) b.
Proof. intros v. apply arr_total. exact bin_total. Qed.
Lemma point_total : forall v, jvalid point_schema v = true -> exists p, d_point v = Ok p /\ yp_bins p <> None.
Proof.
  intros v V. destruct (obj_total _ _ _ V) as [o ->]. unfold d_point. cbn [d_obj rbind]. name1 V.
  prop1 V "atleast" d_int (fun _ : Z => True) TInt int_total. prop1 V "bins" (d_arr d_bin) (Forall (fun _ : ybin => True)) (TArr bin_schema) bins_total.
  prop1 V "ignorebins" (d_arr d_bin) (Forall (fun _ : ybin => True)) (TArr bin_schema) bins_total.
  prop1 V "illegalbins" (d_arr d_bin) (Forall (fun _ : ybin => True)) (TArr bin_schema) bins_total.
  eexists. split; [reflexivity|]. cbn. apply N0. listed.
Qed.
Lemma cross_total : forall v, jvalid cross_schema v = true -> exists p, d_cross v = Ok p /\ yc_points p <> None.
Proof.
  intros v V. destruct (obj_total _ _ _ V) as [o ->]. unfold d_cross. cbn [d_obj rbind]. name1 V.
  prop1 V "atleast" d_int (fun _ : Z => True) TInt int_total.
  prop1 V "coverpoints" (d_arr d_str) (Forall (fun _ : string => True)) (TArr TStr) (fun v => arr_total _ d_str (fun _ => True) TStr v str_total).
  prop1 V "bins" (d_arr d_bin) (Forall (fun _ : ybin => True)) (TArr bin_schema) bins_total.
  eexists. split; [reflexivity|]. cbn. apply N0. listed.
Qed.
Lemma inst_total : forall v, jvalid inst_schema v = true -> exists p, d_inst v = Ok p /\ full_inst p.
Proof.
  intros v V. destruct (obj_total _ _ _ V) as [o ->]. unfold d_inst. cbn [d_obj rbind]. name1 V.
  prop1 V "coverpoints" (d_arr d_point) (Forall (fun p => yp_bins p <> None)) (TArr point_schema)
    (fun v => arr_total _ d_point (fun p => yp_bins p <> None) point_schema v point_total).
  prop1 V "crosses" (d_arr d_cross) (Forall (fun p => yc_points p <> None)) (TArr cross_schema)
    (fun v => arr_total _ d_cross (fun p => yc_points p <> None) cross_schema v cross_total).
  eexists. split; [reflexivity|]. split; [destruct r|destruct r0]; cbn; auto.
Qed.
Lemma group_total : forall v, jvalid group_schema v = true -> exists p, d_group v = Ok p /\ Forall full_inst (insts_of p).
Proof.
  intros v V. destruct (obj_total _ _ _ V) as [o ->]. unfold d_group. cbn [d_obj rbind]. name1 V.
  prop1 V "weight" d_int (fun _ : Z => True) TInt int_total.
  prop1 V "instances" (d_arr d_inst) (Forall full_inst) (TArr inst_schema) (fun v => arr_total _ d_inst full_inst inst_schema v inst_total).
  eexists. split; [reflexivity|]. destruct r0; cbn; auto.
Qed.
Lemma valid_decodes : forall v, jvalid coverage_schema v = true -> exists doc, d_doc v = Ok doc /\ full doc.
Proof.
  intros v V. destruct (obj_total _ _ _ V) as [o ->]. unfold d_doc. cbn [d_obj rbind].
  set (P := fun x : option (list ygroup) => forall gs, x = Some gs -> Forall (fun g => Forall full_inst (insts_of g)) gs).
  destruct (maybe_total _ (fun c => let* o := d_obj c in maybe "covergroups" (d_arr d_group) o) P (TObj [("covergroups", TArr group_schema)] []) "coverage" _ _ _ V)
    as (r & E & Pr & _); [listed| |].
  - intros c Vc. destruct (obj_total _ _ _ Vc) as [o' ->]. cbn [d_obj rbind].
    destruct (maybe_total _ (d_arr d_group) (Forall (fun g => Forall full_inst (insts_of g))) (TArr group_schema) "covergroups" _ _ _ Vc) as (x & Ex & Px & _); [listed| |].
    + intros w Vw. exact (arr_total _ d_group (fun g => Forall full_inst (insts_of g)) group_schema w group_total Vw).
    + exists x. split; [exact Ex|exact Px].
  - exists r. split; [exact E|]. intros gs ->. now apply (Pr (Some gs) eq_refl gs).
Qed.

(** ** Loops that keep one entry per name *)
Section Grouped.
  Context {A S : Type} (name : A -> string) (step : option S -> A -> res S).
  Definition gstep (m : dict S) (a : A) : res (dict S) :=
    let* s := step (dget (name a) m) a in Ok (dset (name a) s m).
  Definition gfold (l : list A) : res (option S) :=
    fold_res (fun o a => let* s := step o a in Ok (Some s)) l None.

  Lemma named_snoc : forall n l a, named name n (l ++ [a]) = named name n l ++ (if String.eqb n (name a) then [a] else []).
  Proof. intros n l a. unfold named. rewrite filter_app. cbn. now destruct (String.eqb n (name a)). Qed.

  Lemma grouped_inv : forall l m, fold_res gstep l [] = Ok m ->
    dkeys m = nub (map name l) /\ forall n, gfold (named name n l) = Ok (dget n m).
  Proof.
    induction l as [|a l IH] using rev_ind; intros m H; [injection H as <-; split; reflexivity|].
    rewrite fold_res_app in H. apply rbind_ok in H as (m0 & H0 & H). destruct (IH m0 H0) as [K G]. cbn in H. apply rbind_ok in H as (m1 & H & E). injection E as ->.
    unfold gstep in H. apply rbind_ok in H as (s & Hs & H). injection H as <-. split.
    - rewrite map_app. cbn [map]. rewrite nub_snoc, dkeys_dset, K.
      destruct (dmem (name a) m0) eqn:D.
      + apply dget_in in D. rewrite K in D. apply (proj1 (nub_in _ _)) in D. apply sinb_in in D. now rewrite D.
      + assert (sinb (name a) (map name l) = false) as ->; [|reflexivity]. apply not_true_is_false. intros T. apply sinb_in in T.
        assert (dmem (name a) m0 = true); [|congruence]. apply dget_in. rewrite K. now apply nub_in.
    - intros n. rewrite named_snoc. unfold gfold. rewrite fold_res_app. fold (gfold (named name n l)). rewrite G. cbn [rbind].
      destruct (String.eqb_spec n (name a)) as [->|N].
      + cbn. rewrite Hs. cbn. now rewrite dget_dset_same.
      + cbn. now rewrite dget_dset_other.
  Qed.
  Lemma grouped_ok : forall l, (exists m, fold_res gstep l [] = Ok m) <-> forall n, exists o, gfold (named name n l) = Ok o.
  Proof.
    intros l. split.
    - intros [m H] n. destruct (grouped_inv l m H) as [_ G]. eexists. apply G.
    - induction l as [|a l IH] using rev_ind; intros H; [eexists; reflexivity|].
      destruct IH as [m M].
      { intros n. destruct (H n) as [o O]. rewrite named_snoc in O. unfold gfold in O. rewrite fold_res_app in O. apply rbind_ok in O as (o' & O & _). now exists o'. }
      rewrite fold_res_app, M. cbn [rbind fold_res]. destruct (grouped_inv l m M) as [_ G]. destruct (H (name a)) as [o O].
      rewrite named_snoc, String.eqb_refl in O. unfold gfold in O. rewrite fold_res_app in O. fold (gfold (named name (name a) l)) in O. rewrite G in O. cbn in O.
      unfold gstep. destruct (step (dget (name a) m) a) as [s|e]; [|discriminate]. eexists. reflexivity.
  Qed.
End Grouped.

Lemma fold_res_ext : forall A B (f g : B -> A -> res B) l b, (forall b a, f b a = g b a) -> fold_res f l b = fold_res g l b.
Proof. intros A B f g l. induction l as [|x l IH]; intros b H; [reflexivity|]. cbn. rewrite H. destruct (g b x); cbn; auto. Qed.

(** The two loops over instances are loops over points and over crosses. *)
Lemma type_inst_split : forall l a b m c,
  fold_res type_inst l (a, b) = Ok (m, c) <-> fold_res type_point (all_points l) a = Ok m /\ fold_res type_cross (all_crosses l) b = Ok c.
Proof.
  induction l as [|i l IH]; intros a b m c; cbn [fold_res].
  - cbn. split; [intros E; injection E as <- <-; auto|intros [E1 E2]; congruence].
  - unfold all_points, all_crosses. cbn [flat_map]. rewrite !fold_res_app. unfold type_inst at 1. unfold points_of at 1, crosses_of at 1.
    destruct (fold_res type_point (opt_list (yi_points i)) a) as [a'|e] eqn:Ea; cbn [rbind].
    + destruct (fold_res type_cross (opt_list (yi_crosses i)) b) as [b'|e] eqn:Eb; cbn [rbind]; [apply IH|]. split; [discriminate|intros [_ H]; discriminate].
    + split; [discriminate|intros [H _]; discriminate].
Qed.

(** ** Sums *)
Lemma found_in : forall n l, found n l = sinb n (map yb_name l).
Proof.
  intros n l. unfold found, sinb. induction l as [|b l IH]; [reflexivity|]. cbn. rewrite IH. f_equal. unfold seqb. apply String.eqb_sym.
Qed.
Definition summed (bs : list ybin) : list ybin := map (fun n => YBin n (sumZ (map yb_count (named yb_name n bs)))) (nub (map yb_name bs)).
Lemma summed_names : forall bs, map yb_name (summed bs) = nub (map yb_name bs).
Proof. intros bs. unfold summed. rewrite map_map. cbn. apply map_id. Qed.
Lemma bump_map : forall n c f l, NoDup l -> In n l ->
  bump n c (map (fun x => YBin x (f x)) l) = map (fun x => YBin x (if String.eqb x n then f x + c else f x)%Z) l.
Proof.
  intros n c f l N I. induction l as [|x l IH]; [contradiction|]. inversion N as [|? ? N1 N2]; subst. cbn [map bump yb_name yb_count]. unfold seqb.
  destruct (String.eqb_spec x n) as [->|H].
  - f_equal. apply map_ext_in. intros y Iy. destruct (String.eqb_spec y n) as [->|_]; [contradiction|reflexivity].
  - f_equal. destruct I as [->|I]; [now contradiction H|]. auto.
Qed.
Lemma tally_sum : forall bs b, tally_bin (summed bs) b = summed (bs ++ [b]).
Proof.
  intros bs b. unfold tally_bin. rewrite found_in, summed_names. unfold summed. rewrite map_app. cbn [map]. rewrite nub_snoc.
  assert (S : forall n, named yb_name n (bs ++ [b]) = named yb_name n bs ++ if String.eqb n (yb_name b) then [b] else []) by (intros; apply named_snoc).
  destruct (sinb (yb_name b) (map yb_name bs)) eqn:D.
  - apply sinb_in in D. assert (sinb (yb_name b) (nub (map yb_name bs)) = true) as -> by (apply sinb_in; now apply nub_in).
    rewrite (bump_map _ _ (fun n => sumZ (map yb_count (named yb_name n bs)))); [|apply nub_NoDup|now apply nub_in].
    apply map_ext. intros n. rewrite S. f_equal. rewrite map_app, sumZ_app. destruct (String.eqb n (yb_name b)); cbn; lia.
  - apply sinb_false in D. assert (sinb (yb_name b) (nub (map yb_name bs)) = false) as -> by (apply sinb_false; rewrite nub_in; assumption).
    rewrite map_app. cbn [map]. f_equal.
    + apply map_ext_in. intros n I. rewrite S. apply (proj1 (nub_in _ _)) in I. destruct (String.eqb_spec n (yb_name b)) as [->|_]; [contradiction|]. now rewrite app_nil_r.
    + rewrite S, String.eqb_refl, (named_nil _ _ _ D). cbn. f_equal. f_equal. lia.
Qed.
Lemma tally_sums : forall bs' bs, fold_left tally_bin bs' (summed bs) = summed (bs ++ bs').
Proof.
  induction bs' as [|b bs' IH]; intros bs; cbn; [now rewrite app_nil_r|]. rewrite tally_sum, IH, <- app_assoc. reflexivity.
Qed.

(** ** Points *)
Definition point_pure (l : list ybin) (p : ypoint) : list ybin :=
  fold_left tally_bin (opt_list (yp_bins p)) l ++ opt_list (yp_ignore p) ++ opt_list (yp_illegal p).
Lemma other_appends : forall bs l, fold_res tally_other bs (Some l, []) = Ok (Some (l ++ bs), []).
Proof.
  induction bs as [|b bs IH]; intros l; cbn; [now rewrite app_nil_r|]. rewrite IH, <- app_assoc. cbn. now destruct b.
Qed.
Definition clean (t : tpoint) : Prop := opt_list (t_ignore t) = [] /\ opt_list (t_illegal t) = [].
Lemma tally_point_pure : forall t p, clean t -> yp_bins p <> None ->
  exists t', tally_point t p = Ok t' /\ clean t' /\ t_bins t' = Some (point_pure (opt_list (t_bins t)) p).
Proof.
  intros t p [C1 C2] B. unfold tally_point, point_pure. destruct (yp_bins p) as [bs|]; [clear B|now contradiction B]. cbn [opt_list].
  set (l := fold_left tally_bin bs (opt_list (t_bins t))). rewrite C1, C2.
  assert (X : forall o own bs1 l1, opt_list own = [] ->
    exists own', (match o with Some bs0 => let* (x, y) := fold_res tally_other bs0 (Some l1, []) in Ok (x, Some y) | None => Ok (Some l1, own) end) =
      Ok (Some (l1 ++ bs1), own') /\ opt_list own' = [] \/ bs1 <> opt_list o).
  { intros o own bs1 l1 E. destruct o as [bs0|]; cbn [opt_list].
    - destruct (list_eq_dec (fun x y : ybin => ltac:(decide equality; [apply Z.eq_dec|apply string_dec])) bs1 bs0) as [->|N]; [|exists None; right; exact N].
      exists (Some []). left. rewrite other_appends. now cbn.
    - destruct bs1; [|exists None; right; discriminate]. exists own. left. rewrite app_nil_r. now split. }
  destruct (X (yp_ignore p) (t_ignore t) (opt_list (yp_ignore p)) l C1) as (g & [[-> Eg]|N]); [|now contradiction N].
  cbn [rbind]. destruct (X (yp_illegal p) (t_illegal t) (opt_list (yp_illegal p)) (l ++ opt_list (yp_ignore p)) C2) as (i & [[-> Ei]|N]); [|now contradiction N].
  cbn [rbind]. eexists. split; [reflexivity|]. split; [split; assumption|]. cbn. now rewrite <- app_assoc.
Qed.

Definition point_step (o : option tpoint) (p : ypoint) : res tpoint :=
  tally_point (match o with Some t => t | None => TPoint None None None end) p.
Lemma type_point_gstep : forall m p, type_point m p = gstep yp_name point_step m p.
Proof. reflexivity. Qed.
Lemma point_gfold : forall ps, Forall (fun p => yp_bins p <> None) ps ->
  exists o, gfold point_step ps = Ok o /\
    match o with
    | None => ps = []
    | Some t => clean t /\ ps <> [] /\ t_bins t = Some (fold_left point_pure ps [])
    end.
Proof.
  induction ps as [|p ps IH] using rev_ind; intros F; [exists None; split; reflexivity|]. apply Forall_app in F as [F1 F2]. inversion F2 as [|? ? B _]; subst.
  destruct (IH F1) as (o & G & C). unfold gfold in *. rewrite fold_res_app, G. cbn [rbind fold_res]. unfold point_step.
  set (t := match o with Some t => t | None => TPoint None None None end).
  assert (Ct : clean t /\ opt_list (t_bins t) = fold_left point_pure ps []).
  { unfold t. destruct o as [t0|]; [destruct C as (C & _ & E); rewrite E; now split|subst ps; split; [split; reflexivity|reflexivity]]. }
  destruct Ct as [Ct Et]. destruct (tally_point_pure t p Ct B) as (t' & E & C' & E'). rewrite E. cbn [rbind]. exists (Some t'). split; [reflexivity|].
  split; [assumption|]. split; [now destruct ps|]. rewrite fold_left_app. cbn. now rewrite <- Et.
Qed.
Lemma points_fold : forall ps, Forall (fun p => yp_bins p <> None) ps ->
  exists m, fold_res type_point ps [] = Ok m /\ dkeys m = nub (map yp_name ps) /\
    forall n, match dget n m with
              | None => named yp_name n ps = []
              | Some t => clean t /\ t_bins t = Some (fold_left point_pure (named yp_name n ps) [])
              end.
Proof.
  intros ps F.
  assert (E : exists m, fold_res (gstep yp_name point_step) ps [] = Ok m).
  { apply grouped_ok. intros n. destruct (point_gfold (named yp_name n ps)) as (o & O & _); [now apply Forall_filter|]. now exists o. }
  destruct E as [m E]. exists m. split; [exact E|]. destruct (grouped_inv _ _ _ _ E) as [K G]. split; [assumption|]. intros n.
  destruct (point_gfold (named yp_name n ps)) as (o & O & C); [now apply Forall_filter|]. rewrite G in O. injection O as <-.
  destruct (dget n m); [|assumption]. now destruct C as (C1 & _ & C2).
Qed.
Lemma pure_plain : forall ps bs, Forall (fun p => opt_list (yp_ignore p) = [] /\ opt_list (yp_illegal p) = []) ps ->
  fold_left point_pure ps (summed bs) = summed (bs ++ flat_map (fun p => opt_list (yp_bins p)) ps).
Proof.
  induction ps as [|p ps IH]; intros bs F; cbn [fold_left flat_map]; [now rewrite app_nil_r|]. inversion F as [|? ? [E1 E2] F']; subst.
  unfold point_pure at 2. rewrite E1, E2. cbn [app]. rewrite app_nil_r, tally_sums, IH by assumption. now rewrite app_assoc.
Qed.

(** ** Crosses *)
Definition cross_step (o : option tcross) (c : ycross) : res tcross :=
  match yc_points c with
  | None => Err RaisedException
  | Some ps =>
      let t := match o with Some t => t | None => TCross ps (match yc_bins c with Some _ => Some [] | None => None end) end in
      let* bins := fold_res tally_cross_bin (opt_list (yc_bins c)) (tc_bins t) in
      Ok (TCross (tc_points t) bins)
  end.
Lemma type_cross_gstep : forall m c, type_cross m c = gstep yc_name cross_step m c.
Proof.
  intros m c. unfold type_cross, gstep, cross_step. destruct (yc_points c) as [ps|]; [|reflexivity].
  destruct (fold_res tally_cross_bin (opt_list (yc_bins c)) _); reflexivity.
Qed.
Lemma cross_bins_some : forall bs l, fold_res tally_cross_bin bs (Some l) = Ok (Some (fold_left tally_bin bs l)).
Proof.
  induction bs as [|b bs IH]; intros l; [reflexivity|]. cbn [fold_res fold_left]. unfold tally_cross_bin at 1, tally_bin at 2. cbn [opt_list option_map].
  destruct (found (yb_name b) l); cbn [rbind]; apply IH.
Qed.
Lemma cross_bins_none : forall bs o, fold_res tally_cross_bin bs None = Ok o <-> bs = [] /\ o = None.
Proof.
  intros [|b bs] o; cbn; [split; [intros E; injection E as <-; auto|intros [_ ->]; reflexivity]|]. split; [discriminate|intros [E _]; discriminate].
Qed.
(** What the loop over the crosses of one name gives. *)
Lemma cross_gfold : forall cs, Forall (fun c => yc_points c <> None) cs ->
  forall o, gfold cross_step cs = Ok o <->
    match cs with
    | [] => o = None
    | c :: l =>
        match yc_bins c with
        | Some _ => o = Some (TCross (opt_list (yc_points c)) (Some (summed (flat_map (fun c => opt_list (yc_bins c)) cs))))
        | None => Forall (fun c' => opt_list (yc_bins c') = []) l /\ o = Some (TCross (opt_list (yc_points c)) None)
        end
    end.
Proof.
  intros [|c cs] F o; [cbn; split; congruence|]. inversion F as [|? ? P F']; subst. unfold gfold. cbn [fold_res]. unfold cross_step at 1.
  destruct (yc_points c) as [ps|]; [clear P|now contradiction P]. cbn [tc_bins tc_points opt_list flat_map].
  destruct (yc_bins c) as [bs|] eqn:B; cbn [opt_list].
  - rewrite cross_bins_some. cbn [rbind]. change (@nil ybin) with (summed []). rewrite tally_sums. cbn [app].
    assert (X : forall l bs, Forall (fun c => yc_points c <> None) l ->
      fold_res (fun o a => let* s := cross_step o a in Ok (Some s)) l (Some (TCross ps (Some (summed bs)))) =
      Ok (Some (TCross ps (Some (summed (bs ++ flat_map (fun c => opt_list (yc_bins c)) l)))))).
    { clear. induction l as [|c l IH]; intros bs F; cbn [fold_res flat_map]; [now rewrite app_nil_r|]. inversion F as [|? ? P F']; subst.
      unfold cross_step at 1. destruct (yc_points c) as [q|]; [clear P|now contradiction P]. cbn [tc_bins tc_points]. rewrite cross_bins_some. cbn [rbind].
      rewrite tally_sums, IH by assumption. now rewrite app_assoc. }
    rewrite X by assumption. split; congruence.
  - cbn [fold_res rbind].
    assert (X : forall l o, Forall (fun c => yc_points c <> None) l ->
      (fold_res (fun o a => let* s := cross_step o a in Ok (Some s)) l (Some (TCross ps None)) = Ok o <->
       Forall (fun c' => opt_list (yc_bins c') = []) l /\ o = Some (TCross ps None))).
    { clear. induction l as [|c l IH]; intros o F; cbn [fold_res].
      - split; [intros E; injection E as <-; split; [constructor|reflexivity]|intros [_ ->]; reflexivity].
      - inversion F as [|? ? P F']; subst. unfold cross_step at 1. destruct (yc_points c) as [q|]; [clear P|now contradiction P]. cbn [tc_bins tc_points].
        destruct (opt_list (yc_bins c)) as [|b bs] eqn:B.
        + cbn [fold_res rbind]. rewrite IH by assumption. split; [intros [G E]; split; [now constructor|assumption]|intros [G E]; inversion G; auto].
        + cbn. split; [discriminate|]. intros [G _]. inversion G as [|? ? G1 _]; subst. congruence. }
    apply X. assumption.
Qed.
