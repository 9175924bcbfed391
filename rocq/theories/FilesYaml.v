(** Databases loaded from YAML documents: what they hold, and that they can be
    merged and written. *)
From Verif Require Import Base Dict Consts Db Hist Report ReportSpec NameSpec NubFacts BaseFacts MergeSpec Xml XmlWriter
  XmlSpec XmlDocSpec XmlReport XmlMeans XmlWritable FilesSpec FilesFacts FilesMerge Yaml YamlSpec YamlFacts YamlBuild.
Local Open Scope string_scope.
Local Open Scope list_scope.

(** ** Every scope *)
Inductive plain_scope : scope -> Prop :=
| PlainScope s : si_file (s_src s) = None -> Forall al_present (s_items s) -> (s_type s = CROSS -> exists l, s_cls s = KCross l) ->
    Forall plain_scope (s_kids s) -> plain_scope s.
Lemma plain_bare : forall s, plain_scope s -> bare s.
Proof.
  fix IH 2. intros s [s' A _ _ K]. constructor; [assumption|]. induction K as [|k l P _ IHl]; constructor; [now apply IH|assumption].
Qed.
Lemma plain_bins : forall a k bs, Forall al_present (y_bins a k bs).
Proof. intros. unfold y_bins. apply Forall_forall. intros x I. apply in_map_iff in I as (b & <- & _). discriminate. Qed.
Lemma plain_record_point : forall n a b i l, plain_scope (record_point n a b i l).
Proof. intros. constructor; [reflexivity| |discriminate|constructor]. cbn. rewrite !Forall_app. split; [|split]; apply plain_bins. Qed.
Lemma plain_record_cross : forall n a r b, plain_scope (record_cross n a r b).
Proof. intros. constructor; [reflexivity| |intros _; eexists; reflexivity|constructor]. apply plain_bins. Qed.
Lemma plain_traverse : forall X (f : X -> res scope) l ss, traverse f l = Ok ss -> (forall x s, f x = Ok s -> plain_scope s) -> Forall plain_scope ss.
Proof.
  induction l as [|x l IH]; intros ss H P; [injection H as <-; constructor|]. cbn [traverse] in H. apply rbind_ok in H as (s & Hs & H). apply rbind_ok in H as (t & Ht & H).
  injection H as <-. constructor; [eapply P; exact Hs|now apply IH].
Qed.
Lemma plain_inst : forall base w st i st', record_inst base w st i = Ok st' -> Forall plain_scope (snd st) -> Forall plain_scope (snd st').
Proof.
  intros base w [m kids] i [m' kids'] H P. unfold record_inst in H. apply rbind_ok in H as (cs & Hc & H). injection H as _ <-. cbn [snd] in *. apply Forall_app. split; [assumption|].
  constructor; [|constructor]. constructor; [reflexivity|constructor|discriminate|]. cbn [s_kids]. apply Forall_app. split.
  - apply Forall_forall. intros s I. apply in_map_iff in I as (p & <- & _). apply plain_record_point.
  - eapply plain_traverse; [exact Hc|]. intros c s E. cbn beta in E. apply rbind_ok in E as (ns & _ & E). apply rbind_ok in E as (refs & _ & E). injection E as <-. apply plain_record_cross.
Qed.
Lemma plain_group : forall base g s, process_covergroup base g = Ok s -> plain_scope s.
Proof.
  intros base g s H. unfold process_covergroup in H. apply rbind_ok in H as ([ps cs] & _ & H). apply rbind_ok in H as (tcs & HT & H).
  destruct (yg_insts g) as [is|]; [|discriminate]. apply rbind_ok in H as ([m kids] & HI & H). injection H as <-.
  constructor; [reflexivity|constructor|discriminate|]. cbn [s_kids].
  assert (P : Forall plain_scope (type_point_scopes ps ++ tcs)).
  { apply Forall_app. split.
    - apply Forall_forall. intros s I. apply in_map_iff in I as (p & <- & _). apply plain_record_point.
    - eapply plain_traverse; [exact HT|]. intros c s E. cbn beta in E. apply rbind_ok in E as (refs & _ & E). injection E as <-. apply plain_record_cross. }
  enough (G : forall is st0 st, fold_res (record_inst base match yg_weight g with Some w => w | None => 1%Z end) is st0 = Ok st -> Forall plain_scope (snd st0) -> Forall plain_scope (snd st)).
  { exact (G _ _ _ HI P). }
  clear. induction is as [|i is IH]; intros st0 st H P; [injection H as <-; exact P|].
  cbn [fold_res] in H. apply rbind_ok in H as (st1 & H1 & H). eapply IH; [exact H|]. eapply plain_inst; eassumption.
Qed.

(** ** Parts by type *)
Lemma of_type : forall bit T l, Forall (fun s => s_type s = T) l -> filter (fun s => N.testbit (s_type s) bit) l = if N.testbit T bit then l else [].
Proof. intros bit T l F. induction F as [|s l E _ IH]; [now destruct (N.testbit T bit)|]. cbn. rewrite E, IH. now destruct (N.testbit T bit). Qed.
Lemma Forall2_types : forall X (R : X -> scope -> Prop) T l m, Forall2 R l m -> (forall x s, R x s -> s_type s = T) -> Forall (fun s => s_type s = T) m.
Proof. induction 1; intros E; constructor; eauto. Qed.
Lemma inst_parts : forall w i s, YamlSpec.recorded_inst w i s ->
  Forall2 recorded_point (points_of i) (coverpoints s) /\ Forall2 recorded_cross (crosses_of i) (crosses s).
Proof.
  intros w i s (_ & _ & _ & _ & ps & cs & K & P & X). unfold coverpoints, crosses, kids_with. rewrite K, !filter_app.
  assert (TP : Forall (fun s => s_type s = COVERPOINT) ps) by (eapply Forall2_types; [exact P|]; intros p s' Hp; apply Hp).
  assert (TX : Forall (fun s => s_type s = CROSS) cs) by (eapply Forall2_types; [exact X|]; intros p s' Hp; apply Hp).
  rewrite !(of_type _ _ ps TP), !(of_type _ _ cs TX). cbn [N.testbit COVERPOINT CROSS]. cbn. now rewrite app_nil_r.
Qed.
Lemma group_parts : forall g s, YamlSpec.recorded_group g s -> exists tps tcs ins,
  coverpoints s = tps /\ crosses s = tcs /\ coverinstances s = ins /\ s_kids s = tps ++ tcs ++ ins /\
  Forall (fun s => s_type s = COVERPOINT) tps /\ Forall (fun s => s_type s = CROSS) tcs /\ Forall (fun s => s_type s = COVERINSTANCE) ins /\
  map s_name tps = nub (map yp_name (all_points (insts_of g))) /\ Forall2 (YamlSpec.recorded_inst (weight_of g)) (insts_of g) ins.
Proof.
  intros g s (_ & _ & _ & _ & tps & tcs & ins & K & NP & _ & P & X & I). exists tps, tcs, ins. unfold coverpoints, crosses, coverinstances, kids_with. rewrite K, !filter_app.
  assert (TP : Forall (fun s => s_type s = COVERPOINT) tps) by (eapply Forall_impl; [|exact P]; intros t Ht; apply Ht).
  assert (TX : Forall (fun s => s_type s = CROSS) tcs) by (eapply Forall_impl; [|exact X]; intros t Ht; apply Ht).
  assert (TI : Forall (fun s => s_type s = COVERINSTANCE) ins) by (eapply Forall2_types; [exact I|]; intros p s' Hp; apply Hp).
  rewrite !(of_type _ _ tps TP), !(of_type _ _ tcs TX), !(of_type _ _ ins TI). cbn. rewrite !app_nil_r. repeat (split; [try reflexivity; assumption|]). assumption.
Qed.

(** ** Views *)
Lemma bins_view : forall a k bs its, In k [CVGBIN; IGNOREBIN; ILLEGALBIN] -> Forall2 (YamlSpec.is_bin a k) bs its ->
  map view_bin (filter XmlSpec.is_bin its) = map (y_bin k) bs.
Proof.
  intros a k bs its Ik F. induction F as [|b x bs its (N & D & T & _) _ IH]; [reflexivity|]. cbn [filter].
  assert (XmlSpec.is_bin x = true) as ->. { unfold XmlSpec.is_bin. rewrite T. cbn in Ik. destruct Ik as [<-|[<-|[<-|[]]]]; reflexivity. }
  cbn [map]. rewrite IH. f_equal. unfold view_bin, y_bin. now rewrite N, D, T.
Qed.
Lemma point_view_y : forall p s, recorded_point p s -> view_point s = y_point p.
Proof.
  intros p s (N & _ & _ & _ & n & g & l & I & A & B & C). unfold view_point, y_point, all_bins. rewrite I, !filter_app, !map_app.
  rewrite (bins_view _ _ _ _ (or_introl eq_refl) A), (bins_view _ _ _ _ (or_intror (or_introl eq_refl)) B), (bins_view _ _ _ _ (or_intror (or_intror (or_introl eq_refl))) C).
  now rewrite N.
Qed.
Lemma cross_view_y : forall c s, recorded_cross c s -> view_cross s = y_cross c.
Proof.
  intros c s (N & _ & _ & _ & R & I). unfold view_cross, y_cross. rewrite N. f_equal.
  - unfold refs_of in R. unfold crossed_names. destruct (s_cls s); assumption.
  - unfold all_bins. pose proof (bins_view _ _ _ _ (or_introl eq_refl) I) as E. apply (f_equal (map (fun b => (bv_name b, bv_count b)))) in E. rewrite !map_map in E. exact E.
Qed.
Lemma Forall2_map_eq : forall X Y Z (R : X -> Y -> Prop) (f : X -> Z) (g : Y -> Z) l m, Forall2 R l m -> (forall x y, R x y -> g y = f x) -> map g m = map f l.
Proof. induction 1 as [|x y l m H _ IH]; intros E; [reflexivity|]. cbn. rewrite IH by assumption. now rewrite (E x y). Qed.
Lemma inst_view_y : forall w i s, YamlSpec.recorded_inst w i s -> view_group s = y_inst i.
Proof.
  intros w i s R. destruct (inst_parts _ _ _ R) as [P X]. destruct R as (N & _). unfold view_group, y_inst. rewrite N. f_equal.
  - exact (Forall2_map_eq _ _ _ _ _ _ _ _ P point_view_y).
  - exact (Forall2_map_eq _ _ _ _ _ _ _ _ X cross_view_y).
Qed.
Lemma type_view_y : forall g s, YamlSpec.recorded_group g s -> insts_of g <> [] -> view_type s = y_group g.
Proof.
  intros g s R NE. destruct (group_parts _ _ R) as (tps & tcs & ins & _ & _ & CI & _ & _ & _ & _ & _ & F). destruct R as (N & _). unfold view_type, y_group. rewrite N. f_equal.
  unfold group_instances. rewrite CI. destruct ins as [|x l]; [inversion F as [E|]; now rewrite <- E in NE|].
  exact (Forall2_map_eq _ _ _ _ _ _ _ _ F (fun i s => inst_view_y _ i s)).
Qed.

(** ** Loaded databases *)
Lemma app_split : forall X (a a' b b' : list X), a ++ b = a' ++ b' -> List.length a = List.length a' -> a = a' /\ b = b'.
Proof. induction a as [|x a IH]; intros [|y a'] b b' E L; try discriminate L; [now split|]. cbn in E. injection E as -> E. destruct (IH a' b b' E) as [-> ->]; [now injection L|now split]. Qed.
Lemma same_length : forall X Y (R : X -> Y -> Prop) l m, Forall2 R l m -> List.length l = List.length m.
Proof. induction 1; cbn; congruence. Qed.
Section Loaded.
  Variables (v : jval) (d : db) (gs : option (list ygroup)).
  Hypothesis L : load v = Ok d.
  Hypothesis D : d_doc v = Ok (Some gs).
  Hypothesis P : presentable (y_says (opt_list gs)).

  Lemma ly_insts : forall g, In g (opt_list gs) -> insts_of g <> [].
  Proof.
    intros g I E. destruct P as (_ & _ & T). destruct (T _ (y_group g) (or_introl eq_refl)) as [NE _]; [cbn; now apply in_map|]. apply NE. unfold y_group, insts_of in *. cbn. now rewrite E.
  Qed.
  Lemma ly_root : exists inst, s_kids (db_root d) = [new_mem_scope "du" None 1 SRC_OTHER DU_MODULE DU_FLAGS; inst] /\ instances (db_root d) = [inst] /\ covergroups inst = s_kids inst /\
    s_name inst = "cg_inst" /\ du_in (db_root d) inst = Some (new_mem_scope "du" None 1 SRC_OTHER DU_MODULE DU_FLAGS) /\ si_file (s_src inst) = None /\
    Forall2 (fun g s => In g (opt_list gs) /\ Forall full_inst (insts_of g) /\ YamlSpec.recorded_group g s /\ exists base, process_covergroup base g = Ok s) (opt_list gs) (s_kids inst) /\
    db_hist d = [] /\ si_file (s_src (db_root d)) = None.
  Proof.
    pose proof (load_recorded _ _ _ L D) as (_ & _ & du & inst & K & _ & _ & _ & _ & _ & _ & _ & RG).
    destruct (load_groups _ _ L) as (gs' & cgs & D' & FF & E & Len & A). rewrite D in D'. injection D' as <-. rewrite E in K. cbn in K. injection K as <- <-. cbn [s_kids] in RG.
    eexists. rewrite E. cbn [db_root s_kids]. split; [reflexivity|].
    assert (T : Forall (fun s => s_type s = COVERGROUP) cgs) by (eapply Forall2_types; [exact RG|]; intros g s Hg; apply Hg).
    split; [reflexivity|]. split; [unfold covergroups, kids_with; cbn [s_kids]; now rewrite (of_type 12 _ cgs T)|]. split; [reflexivity|]. split; [reflexivity|]. split; [reflexivity|].
    split; [|split; reflexivity]. apply positional; [assumption|]. intros before g after Eg. destruct (A before g after Eg) as (s & N & Pc). exists s. split; [assumption|].
    split; [rewrite Eg; apply in_or_app; right; now left|]. split; [rewrite Eg in FF; apply Forall_app in FF as [_ FF]; now inversion FF|]. split; [|eexists; exact Pc].
    assert (R : Forall2 YamlSpec.recorded_group (opt_list gs) cgs) by assumption. clear -R Eg N. rewrite Eg in R. clear Eg. revert cgs R N. induction before as [|b before IH]; intros cgs R N.
    - cbn in *. inversion R; subst. cbn in N. now injection N as <-.
    - cbn in *. inversion R; subst. cbn in N. eapply IH; eassumption.
  Qed.

  Lemma ly_content : content d = y_says (opt_list gs).
  Proof.
    destruct ly_root as (inst & _ & E & C & N & _ & _ & F & _). unfold content, y_says. rewrite E. cbn [map]. unfold view_inst. rewrite N, C. do 2 f_equal.
    refine (Forall2_map_eq _ _ _ _ _ _ _ _ F _). intros g s (I & _ & R & _). apply type_view_y; [assumption|now apply ly_insts].
  Qed.
  Lemma ly_types : forall i t, In i (instances (db_root d)) -> In t (covergroups i) ->
    exists g, In g (opt_list gs) /\ Forall full_inst (insts_of g) /\ YamlSpec.recorded_group g t /\ exists base, process_covergroup base g = Ok t.
  Proof.
    destruct ly_root as (inst & _ & E & C & _ & _ & _ & F & _). intros i t Ii It. rewrite E in Ii. destruct Ii as [<-|[]]. rewrite C in It.
    destruct (Forall2_in_r _ F It) as (g & _ & H). now exists g.
  Qed.
  Lemma ly_crosses : forall i t g x, In i (instances (db_root d)) -> In t (covergroups i) -> In g (group_instances t) -> In x (crosses g) ->
    forall n, In n (crossed_names x) -> In n (map s_name (coverpoints g)) /\ strip n = n /\ n <> "".
  Proof.
    intros i t g x Ii It Ig Ix n In_. destruct P as (_ & _ & T). pose proof ly_content as C. unfold content in C.
    assert (Iv : In (view_inst i) (y_says (opt_list gs))) by (rewrite <- C; now apply in_map).
    destruct (T _ (view_type t) Iv) as [_ X]; [cbn; now apply in_map|]. specialize (X (view_group g) (view_cross x) n). cbn [view_type tv_instances view_group gv_crosses gv_points view_cross xv_crossed] in X.
    rewrite map_map in X. apply X; [now apply in_map|now apply in_map|assumption].
  Qed.
  Lemma ly_sound : sound_root (db_root d).
  Proof.
    apply views_sound.
    - destruct ly_root as (inst & _ & E & _). rewrite E. discriminate.
    - change (Forall fine_inst_view (content d)). rewrite ly_content. apply P.
    - intros i t Ii It. destruct (ly_types i t Ii It) as (g & Ig & _ & R & base & Pc). destruct (group_parts _ _ R) as (tps & tcs & ins & _ & _ & -> & K & _ & _ & _ & _ & F). split.
      + intros ->. inversion F as [E|]. symmetry in E. now apply ly_insts in E.
      + intros s x Is Ix. destruct (Forall2_in_r _ F Is) as (i' & _ & Ri). destruct (inst_parts _ _ _ Ri) as [_ X]. destruct (Forall2_in_r _ X Ix) as (c & _ & (_ & T & _ & _ & _ & B)).
        pose proof (plain_group _ _ _ Pc) as PG. inversion PG as [s0 _ _ _ PK E0]. subst s0. rewrite K in PK. rewrite !Forall_app in PK. destruct PK as (_ & _ & PI). rewrite Forall_forall in PI.
        specialize (PI s Is). inversion PI as [s0 _ _ _ PK E0]. subst s0. rewrite Forall_forall in PK. assert (Px : plain_scope x) by (apply PK; unfold crosses, kids_with in Ix; now apply filter_In in Ix as [Ix _]).
        split; [inversion Px; auto|]. intros b Ib. destruct (Forall2_in_r _ B Ib) as (? & _ & (_ & _ & Tb & _)). exact Tb.
    - intros i t g Ii It Ig x n Ix In_. eapply ly_crosses; eassumption.
  Qed.
  Lemma ly_plain : forall i t, In i (instances (db_root d)) -> In t (covergroups i) -> plain_scope t.
  Proof. intros i t Ii It. destruct (ly_types i t Ii It) as (g & _ & _ & _ & base & Pc). eapply plain_group. exact Pc. Qed.
  Lemma ly_bare : bare (db_root d).
  Proof.
    destruct ly_root as (inst & K & E & C & _ & _ & SI & _ & _ & SR). constructor; [assumption|]. rewrite K. constructor; [constructor; [reflexivity|constructor]|]. constructor; [|constructor].
    constructor; [assumption|]. apply Forall_forall. intros t It. apply plain_bare. apply (ly_plain inst); [rewrite E; now left|now rewrite C].
  Qed.
  Lemma plain_fit : forall s, plain_scope s -> point_fit s.
  Proof. intros s [s' _ A _ _] k. unfold bins_with. now apply Forall_filter. Qed.
  Lemma plain_kid : forall bit s c, plain_scope s -> In c (kids_with bit s) -> plain_scope c.
  Proof. intros bit s c [s' _ _ _ K] I. unfold kids_with in I. apply filter_In in I as [I _]. rewrite Forall_forall in K. now apply K. Qed.
  Lemma ly_fit : fit (db_root d).
  Proof.
    apply Forall_forall. intros i Ii. split.
    - destruct ly_root as (inst & _ & E & _ & _ & Du & _). rewrite E in Ii. destruct Ii as [<-|[]]. rewrite Du. discriminate.
    - apply Forall_forall. intros t It. pose proof (ly_plain i t Ii It) as PT. destruct (ly_types i t Ii It) as (g & Ig & FI & R & base & Pc). split.
      + split; [apply Forall_forall; intros p Ip; apply plain_fit; eapply plain_kid; eassumption|]. apply Forall_forall. intros x Ix. pose proof (plain_kid _ _ _ PT Ix) as Px.
        split; [now apply plain_fit|]. destruct (covergroup_recorded _ _ _ FI Pc) as (_ & _ & _ & _ & tps & tcs & ins & K & NP & _ & _ & _ & X & F & (RT & _)).
        destruct (group_parts _ _ R) as (tps' & tcs' & ins' & CP & CX & _ & K' & T1 & T2 & T3 & NP' & F').
        assert (TX : Forall (fun s => s_type s = CROSS) tcs) by (eapply Forall_impl; [|exact X]; intros y Hy; apply Hy).
        assert (ET : tps' = tps /\ tcs' = tcs).
        { assert (L1 : List.length tps' = List.length tps) by (rewrite <- (map_length s_name tps'), <- (map_length s_name tps); congruence).
          rewrite K in K'. assert (L2 : List.length ins = List.length ins') by (rewrite <- (same_length _ _ _ _ _ F), <- (same_length _ _ _ _ _ F'); reflexivity).
          apply app_split in K' as [E1 K']; [|congruence]. pose proof (f_equal (@List.length scope) K') as LL. rewrite !app_length in LL.
          apply app_split in K' as [E2 _]; [|lia]. now split. }
        destruct ET as [E1 E2]. rewrite CX, E2 in Ix. rewrite CP, E1. rewrite Forall_forall in TX. destruct Px as [x _ _ KX _]. destruct (KX (TX _ Ix)) as (l & El). exists l. split; [assumption|].
        intros r Ir. destruct (RT x r Ix) as (k & sc & _ & N & En); [unfold refs_of; now rewrite El|]. rewrite <- En. apply in_map. now apply nth_error_In in N.
      + apply Forall_forall. intros s Is. pose proof (plain_kid _ _ _ PT Is) as Ps. split; [apply Forall_forall; intros p Ip; apply plain_fit; eapply plain_kid; eassumption|].
        apply Forall_forall. intros x Ix. pose proof (plain_kid _ _ _ Ps Ix) as Px. split; [now apply plain_fit|].
        assert (Tx : s_type x = CROSS).
        { destruct (group_parts _ _ R) as (tps & tcs & ins & _ & _ & CI & _ & _ & _ & _ & _ & F). rewrite CI in Is. destruct (Forall2_in_r _ F Is) as (i' & _ & Ri).
          destruct (inst_parts _ _ _ Ri) as [_ X]. destruct (Forall2_in_r _ X Ix) as (c & _ & (_ & T & _)). exact T. }
        destruct Px as [x _ _ KX _]. destruct (KX Tx) as (l & El). exists l. split; [assumption|]. intros r Ir.
        assert (Ig' : In s (group_instances t)) by (unfold group_instances; destruct (coverinstances t); [contradiction|assumption]).
        refine (proj1 (ly_crosses i t s x Ii It Ig' Ix (r_name r) _)). unfold crossed_names. rewrite El. now apply in_map.
  Qed.
  Lemma ly_no_repeats : no_repeats (db_root d).
  Proof.
    destruct P as (_ & T & _). unfold told_once in T. assert (EC : collapse (y_says (opt_list gs)) = y_says (opt_list gs)).
    { unfold collapse, y_says. cbn. now rewrite app_nil_r. }
    rewrite EC, <- ly_content in T. unfold content in T. rewrite Forall_map, Forall_forall in T. split.
    - unfold distinct. destruct ly_root as (inst & _ & E & _). rewrite E. repeat constructor. intros [].
    - apply Forall_forall. intros i Ii. destruct (T i Ii) as [N1 T1]. cbn [view_inst iv_types] in N1, T1. rewrite map_map in N1. split; [exact N1|].
      apply Forall_forall. intros t It. rewrite Forall_map, Forall_forall in T1. destruct (T1 t It) as [N2 T2]. cbn [view_type tv_instances] in N2, T2. rewrite map_map in N2. rewrite Forall_map in T2.
      destruct (ly_types i t Ii It) as (g & Ig & FI & R & base & Pc). destruct (group_parts _ _ R) as (tps & tcs & ins & CP & _ & CI & _ & _ & _ & _ & NP & F).
      assert (GI : group_instances t = coverinstances t).
      { unfold group_instances. rewrite CI. destruct ins; [|reflexivity]. inversion F as [E|]. symmetry in E. now apply ly_insts in E. }
      rewrite GI in *. split; [|split].
      + unfold distinct. rewrite CP, NP. apply nub_NoDup.
      + exact N2.
      + eapply Forall_impl; [|exact T2]. intros s Hs. cbn [view_group gv_points] in Hs. rewrite map_map in Hs. exact Hs.
  Qed.
  Lemma ly_named : crosses_named (y_says (opt_list gs)).
  Proof. intros i t g x Ii It Ig Ix In_. destruct P as (_ & _ & T). destruct (T i t Ii It) as [_ X]. destruct (X g x "" Ig Ix In_) as (_ & _ & N). now apply N. Qed.
End Loaded.
