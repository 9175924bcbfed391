(** The reader takes from a document what it says. *)
From Verif Require Import Base Dict Consts Db Hist Report ReportSpec NameSpec NubFacts MergeSpec BaseFacts ReportFacts
  PyInt PyIntFacts Dates Xml XmlWriter XmlReader XmlSpec XmlDocSpec XmlWriteFacts XmlReadFacts XmlViews XmlRound XmlStable XmlMeans.
Local Open Scope string_scope.
Local Open Scope list_scope.

Lemma get_int_integer : forall n e z, get_attr_int n e = Ok z -> integer_attr n e z.
Proof.
  intros n e z H. unfold get_attr_int, attrib, dindex in H. unfold integer_attr, get_attr.
  destruct (dget n (e_attrs e)) as [v|]; [|discriminate]. exists v. now split.
Qed.
Lemma first_iter_ok : forall tag e x, first_iter tag e = Ok x -> exists l, iter tag e = x :: l.
Proof. intros tag e x H. unfold first_iter in H. destruct (iter tag e) as [|y l]; [discriminate|]. injection H as ->. now exists l. Qed.

Lemma kind_of_said : forall e k, bin_kind_of e = Ok k -> k = kind_said e /\ exact_kind k.
Proof.
  intros e k H. unfold bin_kind_of, get_attr_or in H. unfold kind_said, exact_kind, seqb in *.
  destruct (get_attr "type" e) as [t|].
  - destruct (String.eqb t "bins") eqn:E1.
    { apply String.eqb_eq in E1. subst t. injection H as <-. cbn. auto. }
    destruct (String.eqb t "default") eqn:E2.
    { apply String.eqb_eq in E2. subst t. injection H as <-. cbn. auto. }
    cbn [orb] in H. destruct (String.eqb t "ignore"); [injection H as <-; auto|].
    destruct (String.eqb t "illegal"); [injection H as <-; auto|discriminate].
  - cbn in H. injection H as <-. auto.
Qed.

Lemma nub_snoc_dec : forall l x, nub (l ++ [x]) = if in_dec string_dec x l then nub l else nub l ++ [x].
Proof.
  intros l x. rewrite nub_snoc. destruct (in_dec string_dec x l) as [I|I].
  - apply sinb_in in I. now rewrite I.
  - apply sinb_false in I. now rewrite I.
Qed.

Lemma read_bin_says : forall items m e items' m', read_bin (items, m) e = Ok (items', m') ->
  exists b, bin_says e b /\ exact_kind (bv_kind b) /\ items' = items ++ [item_of b] /\ m' = tally_item m (item_of b).
Proof.
  intros items m e items' m' H. unfold read_bin in H.
  apply rbind_ok in H as (c & H1 & H). apply rbind_ok in H as (k & H2 & H). apply rbind_ok in H as (z & H3 & H). injection H as <- <-.
  apply kind_of_said in H2 as [E K]. exists (BinView (get_attr_or "name" "<unknown>" e) z k). split; [|auto].
  split; [reflexivity|]. split; [exact E|]. cbn [bv_count]. unfold bin_contents in H1.
  destruct (iter "sequence" e) as [|s l] eqn:S.
  - destruct (iter "range" e) as [|s l] eqn:R; [discriminate|]. apply first_iter_ok in H1 as (l' & H1).
    exists s, l. split; [now right|]. exists c, l'. split; [assumption|]. now apply get_int_integer.
  - apply first_iter_ok in H1 as (l' & H1). exists s, l. split; [now left|]. exists c, l'. split; [assumption|]. now apply get_int_integer.
Qed.
Lemma read_bins_says : forall es items m items' m', fold_res read_bin es (items, m) = Ok (items', m') ->
  exists bs, Forall2 bin_says es bs /\ Forall (fun b => exact_kind (bv_kind b)) bs /\ items' = items ++ map item_of bs /\
             m' = fold_left tally_item (map item_of bs) m.
Proof.
  induction es as [|e es IH]; intros items m items' m' H; cbn [fold_res] in H.
  - injection H as <- <-. exists []. rewrite app_nil_r. auto.
  - apply rbind_ok in H as ([i1 m1] & H1 & H). apply read_bin_says in H1 as (b & S & K & -> & ->).
    apply IH in H as (bs & F & FK & -> & ->). exists (b :: bs). rewrite <- app_assoc. auto.
Qed.

Lemma read_coverpoint_says : forall k st e st', read_coverpoint k st e = Ok st' ->
  exists p, point_says e p /\ exact_point p /\ st' = point_step k st p.
Proof.
  intros k st e st' H. unfold read_coverpoint in H. set (name := get_attr_or "name" "<unknown>" e) in *.
  destruct (dmem name (i_cps st)) eqn:D; apply rbind_ok in H as (en & He & H);
    apply rbind_ok in H as ([items m] & Hb & H); injection H as <-;
    apply read_bins_says in Hb as (bs & S & F & -> & ->);
    exists (PointView name bs); (split; [now split|]); (split; [exact F|]); unfold point_step; cbn [pv_name pv_bins]; rewrite D;
    unfold dindex in He; destruct (dget name _) in *; try discriminate; injection He as <-; reflexivity.
Qed.
Lemma read_coverpoints_says : forall k es st st', fold_res (read_coverpoint k) es st = Ok st' ->
  exists ps, Forall2 point_says es ps /\ Forall exact_point ps /\ st' = fold_left (point_step k) ps st.
Proof.
  induction es as [|e es IH]; intros st st' H; cbn [fold_res] in H.
  - injection H as <-. exists []. auto.
  - apply rbind_ok in H as (s1 & H1 & H). apply read_coverpoint_says in H1 as (p & S & E & ->).
    apply IH in H as (ps & FS & F & ->). exists (p :: ps). auto.
Qed.

Lemma read_xbin_says : forall items m e items' m', read_cross_bin (items, m) e = Ok (items', m') ->
  exists b, xbin_says e b /\ items' = items ++ [xitem_of b] /\ m' = tally_xitem m (xitem_of b).
Proof.
  intros items m e items' m' H. unfold read_cross_bin in H.
  apply rbind_ok in H as (c & H1 & H). apply rbind_ok in H as (z & H3 & H). injection H as <- <-.
  exists (get_attr_or "name" "default" e, z). split; [|auto]. split; [reflexivity|]. cbn [snd].
  apply first_iter_ok in H1 as (l & H1). exists c, l. split; [assumption|]. now apply get_int_integer.
Qed.
Lemma read_xbins_says : forall es items m items' m', fold_res read_cross_bin es (items, m) = Ok (items', m') ->
  exists bs, Forall2 xbin_says es bs /\ items' = items ++ map xitem_of bs /\ m' = fold_left tally_xitem (map xitem_of bs) m.
Proof.
  induction es as [|e es IH]; intros items m items' m' H; cbn [fold_res] in H.
  - injection H as <- <-. exists []. rewrite app_nil_r. auto.
  - apply rbind_ok in H as ([i1 m1] & H1 & H). apply read_xbin_says in H1 as (b & S & -> & ->).
    apply IH in H as (bs & F & -> & ->). exists (b :: bs). rewrite <- app_assoc. auto.
Qed.

Lemma exprs_say : forall es ns, traverse expr_name es = Ok ns -> Forall2 expr_says es ns.
Proof.
  intros es ns H. apply traverse_ok in H. eapply Forall2_imp; [|exact H]. intros e n E. unfold expr_name in E.
  destruct (e_text e) as [s|] eqn:T; [|discriminate]. injection E as <-. exists s. auto.
Qed.

Lemma read_cross_says : forall base k st e st', read_cross base k st e = Ok st' ->
  exists c, cross_says e c /\ stripped c /\ cross_step base k st c = Ok st'.
Proof.
  intros base k st e st' H. unfold read_cross in H. set (name := get_attr_or "name" "<unknown>" e) in *.
  apply rbind_ok in H as ([new crs] & H1 & H). apply rbind_ok in H as (en & He & H).
  apply rbind_ok in H as (refs & Hr & H). apply rbind_ok in H as ([items m] & Hb & H). injection H as <-.
  apply read_xbins_says in Hb as (bs & S & -> & ->). pose proof Hr as Hr'. apply resolve_ok in Hr' as [_ T].
  exists (CrossView name (map r_name refs) bs).
  split; [split; [reflexivity|split; [now apply exprs_say|exact S]]|]. split; [now apply exprs_stripped in T|].
  unfold cross_step. cbn [xv_name xv_crossed xv_bins].
  rewrite (resolve_step _ _ _ _ T) in Hr. rewrite (resolve_step _ _ _ _ T) in H1. rewrite H1. cbn [rbind].
  unfold dindex in He. destruct (dget name crs) as [x|]; [|discriminate]. injection He as ->.
  rewrite Hr. reflexivity.
Qed.
Lemma read_crosses_says : forall base k es st st', fold_res (read_cross base k) es st = Ok st' ->
  exists cs, Forall2 cross_says es cs /\ Forall stripped cs /\ fold_res (cross_step base k) cs st = Ok st'.
Proof.
  induction es as [|e es IH]; intros st st' H; cbn [fold_res] in H.
  - injection H as <-. exists []. auto.
  - apply rbind_ok in H as (s1 & H1 & H). apply read_cross_says in H1 as (c & S & E & H1).
    apply IH in H as (cs & FS & F & H). exists (c :: cs). split; [now constructor|]. split; [now constructor|]. cbn. now rewrite H1.
Qed.

Lemma read_cg_instance_says : forall base st e st', read_cg_instance base st e = Ok st' ->
  exists g, group_says e g /\ doc_group g /\ group_step base st g = Ok st'.
Proof.
  intros base [[slots cps] crs] e st' H. unfold read_cg_instance in H.
  apply rbind_ok in H as (i1 & H1 & H). apply rbind_ok in H as (i2 & H2 & H). injection H as <-.
  apply read_coverpoints_says in H1 as (ps & SP & FP & ->). apply read_crosses_says in H2 as (cs & SC & FC & H2).
  exists (GroupView (get_attr_or "name" "<unknown>" e) ps cs). split; [now split|]. split; [now split|].
  unfold group_step. cbn [gv_name gv_points gv_crosses]. rewrite H2. reflexivity.
Qed.
Lemma read_covergroup_says : forall base name l g, read_covergroup base name l = Ok g -> l <> [] ->
  exists t, tv_name t = name /\ Forall2 group_says l (tv_instances t) /\ doc_type t /\ type_step base t = Ok g.
Proof.
  intros base name l g H NE. unfold read_covergroup in H. apply rbind_ok in H as ([[slots cps] crs] & H1 & H).
  assert (X : forall l st st', fold_res (read_cg_instance base) l st = Ok st' ->
              exists gs, Forall2 group_says l gs /\ Forall doc_group gs /\ fold_res (group_step base) gs st = Ok st').
  { clear. induction l as [|e l IH]; intros st st' H; cbn [fold_res] in H.
    - injection H as <-. exists []. auto.
    - apply rbind_ok in H as (s1 & H1 & H). apply read_cg_instance_says in H1 as (g & S & E & H1).
      apply IH in H as (gs & FS & F & H). exists (g :: gs). split; [now constructor|]. split; [now constructor|]. cbn. now rewrite H1. }
  apply X in H1 as (gs & S & F & H1). exists (TypeView name gs). split; [reflexivity|]. split; [exact S|]. split.
  - split; [assumption|]. cbn. intros ->. inversion S. congruence.
  - unfold type_step. cbn [tv_instances tv_name]. now rewrite H1.
Qed.

(** The sorting by covergroup. *)
Lemma by_type_spec : forall l, by_type l = map (fun n => (n, named group_type n l)) (nub (map group_type l)).
Proof.
  assert (TN : forall e, type_name e = group_type e) by reflexivity.
  intros l. induction l as [|x l IH] using rev_ind; [reflexivity|].
  unfold by_type. rewrite fold_left_app. cbn [fold_left]. fold (by_type l). rewrite TN.
  rewrite map_app. cbn [map]. set (f := fun n => (n, named group_type n l)) in *.
  assert (K : forall ns n, NoDup ns -> dget n (map f ns) = if in_dec string_dec n ns then Some (named group_type n l) else None).
  { clear. induction ns as [|m ns IH]; intros n N; [reflexivity|]. cbn [map dget f]. inversion N; subst.
    destruct (String.eqb_spec n m) as [->|D].
    - destruct (in_dec string_dec m (m :: ns)) as [|Q]; [reflexivity|]. exfalso. apply Q. now left.
    - rewrite IH by assumption. destruct (in_dec string_dec n ns), (in_dec string_dec n (m :: ns)) as [I|I]; try reflexivity.
      + exfalso. apply I. now right.
      + exfalso. destruct I as [->|I]; congruence. }
  rewrite IH. rewrite K by apply nub_NoDup. rewrite nub_snoc_dec.
  set (n0 := group_type x). set (g := fun n => (n, named group_type n (l ++ [x]))).
  assert (G : forall n, n <> n0 -> g n = f n).
  { intros n D. unfold g, f. rewrite named_snoc. fold n0. apply String.eqb_neq in D. rewrite D. now rewrite app_nil_r. }
  assert (G0 : g n0 = (n0, named group_type n0 l ++ [x])).
  { unfold g. rewrite named_snoc. fold n0. now rewrite String.eqb_refl. }
  destruct (in_dec string_dec n0 (nub (map group_type l))) as [I|I].
  - destruct (in_dec string_dec n0 (map group_type l)) as [_|Q]; [|exfalso; apply Q; now apply nub_in].
    pose proof (nub_NoDup (map group_type l)) as N. revert N I. generalize (nub (map group_type l)). clear -G G0.
    induction l0 as [|m ns IH]; intros N I; [contradiction|]. cbn [map dset f]. inversion N; subst.
    destruct (String.eqb_spec n0 m) as [E|D].
    + subst m. rewrite G0. f_equal. clear -G H1. induction ns as [|m ns IH]; [reflexivity|]. cbn [map].
      rewrite G; [f_equal; apply IH; intros I; apply H1; now right|]. intros ->. apply H1. now left.
    + cbn [map]. rewrite (G m) by congruence. unfold f at 1. f_equal. apply IH; [assumption|]. destruct I as [->|I]; [congruence|assumption].
  - destruct (in_dec string_dec n0 (map group_type l)) as [Q|_]; [exfalso; apply I; now apply nub_in|].
    rewrite map_app. cbn [map]. rewrite G0. assert (NM : named group_type n0 l = []).
    { destruct (named group_type n0 l) eqn:E; [reflexivity|]. exfalso. apply I. apply nub_in. apply named_in_names. congruence. }
    rewrite NM. cbn [app]. revert I. generalize (nub (map group_type l)). clear -G. induction l0 as [|m ns IH]; intros I; [reflexivity|].
    cbn [map dset app f]. destruct (String.eqb_spec n0 m) as [->|D]; [exfalso; apply I; now left|].
    rewrite (G m) by congruence. unfold f at 1. f_equal. apply IH. intros J. apply I. now right.
Qed.

Lemma read_covergroups_says : forall p cgs e cgs', read_covergroups p cgs e = Ok cgs' ->
  exists ts gs, coverage_says e ts /\ cgs' = cgs ++ gs /\ map view_type gs = ts /\ Forall (fun g => s_type g = COVERGROUP) gs.
Proof.
  intros p cgs e cgs' H. unfold read_covergroups in H. pose proof (by_type_nonempty (iter "cgInstance" e)) as NE.
  rewrite by_type_spec in H, NE. unfold coverage_says. set (l := iter "cgInstance" e) in *.
  revert NE cgs H. generalize (nub (map group_type l)). induction l0 as [|n ns IH]; intros NE cgs H; cbn [map fold_res] in H.
  - injection H as <-. exists [], []. rewrite app_nil_r. auto.
  - cbn [map] in NE. inversion NE as [|? ? N0 NE']; subst. apply rbind_ok in H as (c1 & H1 & H).
    apply rbind_ok in H1 as (g & H1 & E). injection E as <-. cbn [fst snd] in *.
    apply read_covergroup_says in H1 as (t & TN & S & D & TS); [|assumption].
    destruct (IH NE' _ H) as (ts & gs & F & -> & V & T). destruct (type_step_view _ _ _ D TS) as (V1 & _ & T1).
    exists (t :: ts), (g :: gs). split; [constructor; auto|]. split; [now rewrite <- app_assoc|]. split; [cbn; congruence|now constructor].
Qed.

(** Instances *)
Definition state_says (st : rst) (vs : list inst_view) : Prop :=
  inst_names (r_slots st) = nub (map iv_name vs) /\
  forall n, match dget n (r_insts st) with
            | Some (p, cgs) => In n (map iv_name vs) /\ map view_type cgs = flat_map iv_types (named iv_name n vs) /\
                               Forall (fun g => s_type g = COVERGROUP) cgs
            | None => ~ In n (map iv_name vs)
            end.

Lemma read_instance_says : forall ids st e st' vs, read_instance ids st e = Ok st' -> state_says st vs ->
  exists v, inst_says e v /\ state_says st' (vs ++ [v]).
Proof.
  intros ids st e st' vs H I. unfold read_instance in H.
  apply rbind_ok in H as (name & Hn & H). apply rbind_ok in H as (u & _ & H).
  assert (AN : get_attr "name" e = Some name).
  { unfold attrib, dindex in Hn. unfold get_attr. destruct (dget "name" (e_attrs e)); [now injection Hn as ->|discriminate]. }
  destruct (get_scope _ st) as [st1 du] eqn:GS.
  assert (J : state_says st1 vs).
  { destruct I as [I1 I2]. unfold get_scope in GS. destruct (dget _ (r_mods st)) as [i|]; injection GS as <- <-; [now split|].
    split; cbn [r_slots r_insts]; [|assumption]. unfold inst_names. rewrite flat_map_snoc. cbn. now rewrite app_nil_r. }
  clear I GS. destruct (get_inst_scope name du st1) as [st2 x] eqn:GI.
  apply rbind_ok in H as (cgs & HC & H). injection H as <-.
  assert (C : forall es c c', fold_res (read_covergroups (fst x)) es c = Ok c' ->
    exists tss gs, Forall2 coverage_says es tss /\ c' = c ++ gs /\ map view_type gs = List.concat tss /\ Forall (fun g => s_type g = COVERGROUP) gs).
  { clear. induction es as [|e es IH]; intros c c' H; cbn [fold_res] in H.
    - injection H as <-. exists [], []. rewrite app_nil_r. auto.
    - apply rbind_ok in H as (c1 & H1 & H). apply read_covergroups_says in H1 as (ts & gs & S & -> & V & T).
      apply IH in H as (tss & gs' & FS & -> & V' & T'). exists (ts :: tss), (gs ++ gs'). split; [now constructor|].
      rewrite app_assoc. split; [reflexivity|]. split; [rewrite map_app; cbn; congruence|]. apply Forall_app. now split. }
  apply C in HC as (tss & gs & FS & -> & V & T). clear C. exists (InstView name (List.concat tss)). split.
  { split; [exact AN|]. exists tss. split; [assumption|reflexivity]. }
  destruct J as [J1 J2]. unfold get_inst_scope in GI. specialize (J2 name) as J0.
  assert (NS : forall n, named iv_name n (vs ++ [InstView name (List.concat tss)]) =
               named iv_name n vs ++ (if String.eqb n name then [InstView name (List.concat tss)] else [])) by (intros; now rewrite named_snoc).
  destruct (dget name (r_insts st1)) as [[p c0]|] eqn:D; injection GI as <- <-; cbn [fst snd].
  - destruct J0 as (In0 & V0 & T0). split; cbn [r_slots r_insts].
    + rewrite map_app. cbn [map iv_name]. rewrite nub_snoc_dec. destruct (in_dec string_dec name (map iv_name vs)); [assumption|contradiction].
    + intros n. destruct (String.eqb_spec n name) as [->|Hn'].
      * rewrite dget_dset_same, NS, String.eqb_refl. split; [rewrite map_app; apply in_or_app; now left|].
        split; [rewrite map_app, flat_map_app, V0; cbn; rewrite app_nil_r; congruence|]. apply Forall_app. now split.
      * rewrite dget_dset_other by assumption. specialize (J2 n). rewrite NS. apply String.eqb_neq in Hn' as E. rewrite E, app_nil_r, map_app.
        destruct (dget n (r_insts st1)) as [[p' c']|]; [destruct J2 as (A & B & C0); split; [apply in_or_app; now left|now split]|].
        intros Q. apply in_app_or in Q as [Q|[Q|[]]]; [now apply J2|]. cbn in Q. congruence.
  - cbn [app]. split; cbn [r_slots r_insts].
    + unfold inst_names. rewrite flat_map_snoc. fold (inst_names (r_slots st1)). rewrite J1, map_app. cbn [map iv_name]. rewrite nub_snoc_dec.
      destruct (in_dec string_dec name (map iv_name vs)); [contradiction|reflexivity].
    + intros n. destruct (String.eqb_spec n name) as [->|Hn'].
      * rewrite dget_dset_same, NS, String.eqb_refl. split; [rewrite map_app; apply in_or_app; right; now left|].
        assert (NM : named iv_name name vs = []) by (destruct (named iv_name name vs) eqn:E; [reflexivity|]; exfalso; apply J0; apply named_in_names; congruence).
        rewrite NM. cbn. rewrite app_nil_r. now split.
      * rewrite dget_dset_other by assumption. rewrite dget_dset_other by assumption. specialize (J2 n). rewrite NS. apply String.eqb_neq in Hn' as E. rewrite E, app_nil_r, map_app.
        destruct (dget n (r_insts st1)) as [[p' c']|]; [destruct J2 as (A & B & C0); split; [apply in_or_app; now left|now split]|].
        intros Q. apply in_app_or in Q as [Q|[Q|[]]]; [now apply J2|]. cbn in Q. congruence.
Qed.

Lemma state_content : forall st vs, state_says st vs -> map view_inst (instances (root_of st)) = collapse vs.
Proof.
  intros st vs [I1 I2]. unfold collapse. rewrite <- I1. unfold instances, kids_with, root_of. cbn [s_kids]. clear I1.
  induction (r_slots st) as [|s l IH]; [reflexivity|]. destruct s as [n|n du]; cbn [map filter rfill].
  - change (N.testbit (s_type (new_mem_scope n None 1 SRC_OTHER DU_MODULE DU_FLAGS)) 4) with false. cbv iota. exact IH.
  - change (N.testbit (s_type (Scope (s_attrs (new_instance n None 1 SRC_OTHER INSTANCE (Some [du]) INST_ONCE)) [] []
      match dget n (r_insts st) with Some (_, cgs) => cgs | None => [] end)) 4) with true.
    cbv iota. cbn [map inst_names flat_map app]. f_equal; [|exact IH]. unfold view_inst. cbn [s_name]. f_equal.
    unfold covergroups, kids_with. cbn [s_kids]. specialize (I2 n). destruct (dget n (r_insts st)) as [[p cgs]|].
    + destruct I2 as (_ & V & T). rewrite <- V. f_equal. clear -T. induction T as [|g l E T IH]; [reflexivity|].
      cbn [filter]. rewrite E. cbn. now rewrite IH.
    + destruct (named iv_name n vs) eqn:E; [reflexivity|]. exfalso. apply I2. apply named_in_names. congruence.
Qed.

Theorem read_says : forall to_float doc d, read to_float doc = Ok d ->
  exists vs, doc_says doc vs /\ content d = collapse vs.
Proof.
  intros tf doc d H. apply read_state in H as (st & ids & E & _ & H).
  assert (X : forall es st st' vs, fold_res (read_instance ids) es st = Ok st' -> state_says st vs ->
              exists vs', Forall2 inst_says es vs' /\ state_says st' (vs ++ vs')).
  { clear. induction es as [|e es IH]; intros st st' vs H I; cbn [fold_res] in H.
    - injection H as <-. exists []. rewrite app_nil_r. auto.
    - apply rbind_ok in H as (s1 & H1 & H). destruct (read_instance_says _ _ _ _ _ H1 I) as (v & S & I1).
      destruct (IH _ _ _ H I1) as (vs' & F & I2). exists (v :: vs'). split; [now constructor|]. now rewrite <- app_assoc in I2. }
  destruct (X _ _ _ [] H) as (vs & F & I); [split; [reflexivity|intros n; cbn; auto]|].
  exists vs. split; [assumption|]. unfold content. rewrite E. now apply state_content.
Qed.

(** ** A document says one thing *)
Lemma Forall2_fun : forall A B (R : A -> B -> Prop), (forall a b b', R a b -> R a b' -> b = b') ->
  forall l x y, Forall2 R l x -> Forall2 R l y -> x = y.
Proof.
  intros A B R H l. induction l as [|a l IH]; intros x y X Y; inversion X; subst; inversion Y; subst; [reflexivity|]. f_equal; eauto.
Qed.
Lemma integer_attr_fun : forall n e z z', integer_attr n e z -> integer_attr n e z' -> z = z'.
Proof. intros n e z z' (v & G & P) (v' & G' & P'). congruence. Qed.
Lemma counts_fun : forall e z z', counts e z -> counts e z' -> z = z'.
Proof. intros e z z' (c & l & I & H) (c' & l' & I' & H'). rewrite I in I'. injection I' as <- <-. eauto using integer_attr_fun. Qed.
Lemma bin_says_fun : forall e b b', bin_says e b -> bin_says e b' -> b = b'.
Proof.
  intros e [n k c] [n' k' c'] (A & B & s & l & I & C) (A' & B' & s' & l' & I' & C'). cbn in *. subst. f_equal.
  assert (s = s').
  { destruct I as [I|[I1 I2]], I' as [I'|[I1' I2']]; congruence. }
  subst s'. eauto using counts_fun.
Qed.
Lemma point_says_fun : forall e b b', point_says e b -> point_says e b' -> b = b'.
Proof. intros e [n bs] [n' bs'] (A & B) (A' & B'). cbn in *. subst. f_equal. eapply Forall2_fun; eauto using bin_says_fun. Qed.
Lemma cross_says_fun : forall e b b', cross_says e b -> cross_says e b' -> b = b'.
Proof.
  intros e [n cs bs] [n' cs' bs'] (A & C & B) (A' & C' & B'). cbn in *. subst. f_equal.
  - revert C C'. apply Forall2_fun. intros a s s' (t & T & ->) (t' & T' & ->). congruence.
  - revert B B'. apply Forall2_fun. intros a [x z] [x' z'] (E & H) (E' & H'). cbn in *. subst. f_equal. eauto using counts_fun.
Qed.
Lemma group_says_fun : forall e b b', group_says e b -> group_says e b' -> b = b'.
Proof.
  intros e [n cs bs] [n' cs' bs'] (A & C & B) (A' & C' & B'). cbn in *. subst.
  f_equal; [revert C C'|revert B B']; apply Forall2_fun; eauto using point_says_fun, cross_says_fun.
Qed.
Lemma coverage_says_fun : forall e b b', coverage_says e b -> coverage_says e b' -> b = b'.
Proof.
  intros e b b'. unfold coverage_says. apply Forall2_fun. intros n [x l] [x' l'] (A & B) (A' & B'). cbn in *. subst. f_equal.
  revert B B'. apply Forall2_fun. exact group_says_fun.
Qed.
Lemma inst_says_fun : forall e b b', inst_says e b -> inst_says e b' -> b = b'.
Proof.
  intros e [n ts] [n' ts'] (A & l & B & C) (A' & l' & B' & C'). cbn in *. rewrite A in A'. injection A' as <-. f_equal.
  assert (l = l') by (revert B B'; apply Forall2_fun; exact coverage_says_fun). congruence.
Qed.
Theorem doc_says_one : forall doc vs vs', doc_says doc vs -> doc_says doc vs' -> vs = vs'.
Proof. intros doc vs vs'. apply Forall2_fun. exact inst_says_fun. Qed.
