(** C85: merging into a database that is also a source. *)
From Verif Require Import Base Dict Consts Db Report ReportSpec NameSpec MergeSpec BaseFacts Merge MergeClosed MergeMore MergeRefs Hist Api ApiSpec ApiFacts ApiItems MergeLive Samples P_Merge.
Local Open Scope list_scope.

(** ** Collecting the images of scopes *)
Section CollectMap.
  Context {A B : Type} (na : A -> string) (nb : B -> string) (g : A -> B).
  Definition img (m : dict (list (option A))) : dict (list (option B)) := map (fun e => (fst e, map (option_map g) (snd e))) m.
  Lemma dget_img : forall m n, dget n (img m) = option_map (map (option_map g)) (dget n m).
  Proof. induction m as [|[k v] m IH]; intros n; [reflexivity|]. cbn. destruct (String.eqb n k); [reflexivity|apply IH]. Qed.
  Lemma dset_img : forall m n l, dset n (map (option_map g) l) (img m) = img (dset n l m).
  Proof. induction m as [|[k v] m IH]; intros n l; [reflexivity|]. cbn. destruct (String.eqb n k); [reflexivity|]. cbn. now rewrite IH. Qed.
  Lemma set_nth_map : forall i x l, set_nth i (option_map g (Some x)) (map (option_map g) l) = map (option_map g) (set_nth i (Some x) l).
  Proof. induction i as [|i IH]; intros x [|y l]; cbn; try reflexivity. cbn in IH. now rewrite IH. Qed.
  Lemma repeat_map : forall n, repeat None n = map (option_map g) (repeat None n).
  Proof. induction n as [|n IH]; [reflexivity|]. cbn. now rewrite <- IH. Qed.
  Lemma collect1_img : forall n i m names x, nb (g x) = na x ->
    collect1 nb n i (img m, names) (g x) = (let (m', l') := collect1 na n i (m, names) x in (img m', l')).
  Proof.
    intros n i m names x E. unfold collect1. rewrite E, dget_img. destruct (dget (na x) m) as [l|]; cbn [option_map].
    - change (Some (g x)) with (option_map g (Some x)). now rewrite set_nth_map, dset_img.
    - change (Some (g x)) with (option_map g (Some x)). now rewrite repeat_map, set_nth_map, dset_img.
  Qed.
  Lemma collect_fold_img : forall n i l m names, Forall (fun x => nb (g x) = na x) l ->
    fold_left (collect1 nb n i) (map g l) (img m, names) = (let (m', l') := fold_left (collect1 na n i) l (m, names) in (img m', l')).
  Proof.
    intros n i. induction l as [|x l IH]; intros m names F; [reflexivity|]. inversion F; subst. cbn [map fold_left]. rewrite collect1_img by assumption.
    destruct (collect1 na n i (m, names) x) as [m1 n1]. now apply IH.
  Qed.
  Lemma collect_img : forall srcs, Forall (Forall (fun x => nb (g x) = na x)) srcs ->
    collect nb (map (map g) srcs) = (let (m, l) := collect na srcs in (img m, l)).
  Proof.
    intros srcs. unfold collect. rewrite map_length. change (@nil (string * list (option B))) with (img []). generalize (List.length srcs), 0, (@nil string), (@nil (string * list (option A))).
    induction srcs as [|l srcs IH]; intros n i names m F; [reflexivity|]. inversion F; subst. cbn [map collect_from]. change (list (string * list (option A))) with (dict (list (option A))) in *. rewrite collect_fold_img by assumption.
    match goal with |- context [fold_left (collect1 na n i) l ?z] => destruct (fold_left (collect1 na n i) l z) as [m1 n1] end. now apply IH.
  Qed.
  (** Everything collected comes from the sources. *)
  Definition all_in (P : A -> Prop) (m : dict (list (option A))) : Prop := Forall (fun e => Forall (fun o => match o with Some x => P x | None => True end) (snd e)) m.
  Lemma all_in_dget : forall P m n l, all_in P m -> dget n m = Some l -> Forall (fun o => match o with Some x => P x | None => True end) l.
  Proof.
    intros P m n l H. induction H as [|[k v] m H _ IH]; cbn; [discriminate|]. destruct (String.eqb n k); [intros E; now injection E as <-|exact IH].
  Qed.
  Lemma all_in_dset : forall P m n l, all_in P m -> Forall (fun o => match o with Some x => P x | None => True end) l -> all_in P (dset n l m).
  Proof.
    intros P m n l H F. induction H as [|[k v] m H Hm IH]; cbn; [now repeat constructor|]. destruct (String.eqb n k); constructor; auto.
  Qed.
  Lemma Forall_set_nth : forall (P : option A -> Prop) i x l, P x -> Forall P l -> Forall P (set_nth i x l).
  Proof. induction i as [|i IH]; intros x l Hx F; destruct F; cbn; constructor; auto. Qed.
  Lemma collect_all_in : forall P srcs, Forall (Forall P) srcs -> all_in P (fst (collect na srcs)).
  Proof.
    intros P srcs F. unfold collect.
    assert (X : forall n i names m, all_in P m -> all_in P (fst (collect_from na n i srcs (m, names)))); [|apply X; constructor].
    induction F as [|l srcs Fl Fs IH]; intros n i names m H; cbn [collect_from]; [exact H|].
    assert (Y : all_in P (fst (fold_left (collect1 na n i) l (m, names)))).
    { revert m names H. induction Fl as [|x l Px Fl IHl]; intros m names H; cbn [fold_left]; [exact H|].
      assert (Z1 : all_in P (fst (collect1 na n i (m, names) x))).
      { unfold collect1. destruct (dget (na x) m) as [v|] eqn:D; cbn [fst]; apply all_in_dset; auto; apply Forall_set_nth; auto.
        - eapply all_in_dget; eauto.
        - clear. induction n; cbn; constructor; auto. }
      destruct (collect1 na n i (m, names) x) as [m1 n1]. now apply IHl. }
    destruct (fold_left (collect1 na n i) l (m, names)) as [m1 n1]. now apply IH.
  Qed.
End CollectMap.

(** ** Lookups now and before the merge *)
(** The instances of [root] refer to design units that exist. *)
Definition units_exist (root : scope) : Prop :=
  forall k h, In k (s_kids root) -> s_cls k = KInst (Some h) -> get_at root h <> None.

Definition before (root : scope) (x : live_inst) : src_inst := match now_inst root x with Some y => y | None => (root, root) end.
Definition there (root : scope) (x : live_inst) : Prop := match x with Own i => i < List.length (s_kids root) | Foreign _ => True end.

Lemma own_instances_there : forall root, Forall (there root) (own_instances root).
Proof.
  intros root. apply Forall_forall. intros x H. apply in_map_iff in H as (i & <- & H). apply filter_In in H as [H _]. apply in_seq in H. cbn. lia.
Qed.
Lemma filter_seq : forall (p : scope -> bool) (l : list scope) k pre (all := pre ++ l), List.length pre = k ->
  map (nth_error all) (filter (fun i => match nth_error all i with Some s => p s | None => false end) (seq k (List.length l))) = map Some (filter p l).
Proof.
  intros p. induction l as [|x l IH]; intros k pre all E; [reflexivity|]. cbn [List.length seq filter].
  assert (N : nth_error all k = Some x) by (unfold all; rewrite nth_error_app2 by lia; now replace (k - List.length pre) with 0 by lia).
  rewrite N. specialize (IH (S k) (pre ++ [x])). cbv zeta in IH. rewrite <- app_assoc in IH. cbn [app] in IH. fold all in IH.
  rewrite app_length in IH. cbn [List.length] in IH. specialize (IH ltac:(lia)). destruct (p x); [cbn [map]; now rewrite N, IH|exact IH].
Qed.
Lemma before_own : forall root, map (before root) (own_instances root) = map (pair root) (scopes root INSTANCE).
Proof.
  intros root. pose proof (filter_seq (of_type INSTANCE) (s_kids root) 0 [] eq_refl) as H. cbn [app] in H. unfold own_instances, scopes. rewrite map_map.
  revert H. generalize (filter (fun i => match nth_error (s_kids root) i with Some s => of_type INSTANCE s | None => false end) (seq 0 (List.length (s_kids root)))),
    (filter (of_type INSTANCE) (s_kids root)).
  induction l as [|i l IH]; intros [|x m] H; try discriminate; [reflexivity|]. cbn in H. injection H as H1 H2. cbn [map]. rewrite (IH m H2).
  unfold before, now_inst, own_child. now rewrite H1.
Qed.
Lemma before_sources : forall root srcs, map (map (before (db_root root))) (map (source_instances (db_root root)) srcs) =
  map (fun r => map (pair r) (scopes r INSTANCE)) (map db_root (map (fun s => match s with Itself => root | Another d => d end) srcs)).
Proof.
  intros root srcs. rewrite !map_map. apply map_ext. intros [|d]; cbn [source_instances]; [apply before_own|]. rewrite map_map. now apply map_ext.
Qed.

Definition current (r0 r : scope) (a b : src_inst) : Prop :=
  snd a = snd b /\ (a = b \/ (fst a = r /\ fst b = r0 /\ In (snd b) (s_kids r0))).
Lemma now_current : forall r0 r x, kext r0 r -> there r0 x -> exists a, now_inst r x = Some a /\ current r0 r a (before r0 x).
Proof.
  intros r0 r [i|y] (_ & _ & _ & new & K) T; cbn in T.
  - unfold before, now_inst, own_child. destruct (nth_error (s_kids r0) i) as [k|] eqn:N; [|apply nth_error_None in N; lia].
    rewrite K, nth_error_app1, N by exact T. cbn [option_map]. eexists. split; [reflexivity|]. split; [reflexivity|]. right. split; [reflexivity|]. split; [reflexivity|].
    now apply nth_error_In in N.
  - eexists. split; [reflexivity|]. split; [reflexivity|now left].
Qed.
Lemma somes_current : forall r0 r l, kext r0 r -> Forall (fun o => match o with Some x => there r0 x | None => True end) l ->
  Forall2 (current r0 r) (somes (map (fun o => match o with Some x => now_inst r x | None => None end) l)) (somes (map (option_map (before r0)) l)).
Proof.
  intros r0 r l K F. induction F as [|[x|] l Hx F IH]; cbn; [constructor| |exact IH].
  destruct (now_current r0 r x K Hx) as (a & -> & C). constructor; assumption.
Qed.

Lemma du_current : forall r0 r a b, units_exist r0 -> kext r0 r -> current r0 r a b ->
  match instance_du a, instance_du b with
  | Ok d, Ok d' => s_name d = s_name d' /\ s_src d = s_src d' /\ s_weight d = s_weight d'
  | Err e, Err e' => e = e'
  | _, _ => False
  end.
Proof.
  intros r0 r [ra k] [rb k'] U K [E C]. cbn [snd fst] in *. subst k'. destruct C as [C|(-> & -> & I)].
  - injection C as ->. destruct (instance_du (rb, k)); auto.
  - unfold instance_du. cbn [fst snd]. destruct (s_cls k) as [| |o| | | |] eqn:S; try reflexivity. destruct o as [h|]; [|reflexivity].
    specialize (U k h I S). destruct (get_at r0 h) as [d|] eqn:G; [|congruence]. destruct h as [|i h].
    + cbn in *. injection G as <-. destruct K as (A & _). unfold s_name, s_src, s_weight. rewrite A. auto.
    + rewrite (kext_paths K G) by discriminate. auto.
Qed.

Lemma live_step : forall r0 r m name, units_exist r0 -> kext r0 r -> all_in (there r0) m ->
  live_instance m name r = merge_instance (img (before r0) m) name r.
Proof.
  intros r0 r m name U K A. unfold live_instance, merge_instance.
  assert (D : dget name (map (fun e => (fst e, map (fun o => match o with Some x => now_inst r x | None => None end) (snd e))) m) =
              option_map (map (fun o => match o with Some x => now_inst r x | None => None end)) (dget name m)).
  { clear. induction m as [|[k v] m IH]; [reflexivity|]. cbn. destruct (String.eqb name k); [reflexivity|apply IH]. }
  unfold dindex. rewrite D, dget_img. destruct (dget name m) as [l|] eqn:E; cbn [option_map]; [|reflexivity].
  pose proof (somes_current r0 r l K (all_in_dget _ _ _ _ A E)) as F. rewrite !sbind_ok.
  remember (somes (map (fun o => match o with Some x => now_inst r x | None => None end) l)) as la. remember (somes (map (option_map (before r0)) l)) as lb. clear Heqla Heqlb.
  assert (M : map snd la = map snd lb) by (clear -F; induction F as [|a b la lb [C _] F IH]; cbn; congruence).
  destruct F as [|a b la lb C F]; [reflexivity|]. cbn [first_of]. rewrite !sbind_ok. cbv beta. pose proof (du_current _ _ _ _ U K C) as X.
  destruct (instance_du a) as [d|e], (instance_du b) as [d'|e']; try contradiction.
  - rewrite !sbind_ok. cbv beta. destruct X as (-> & -> & ->). destruct C as [C _]. unfold si_name. rewrite M, C. reflexivity.
  - now subst.
Qed.
Lemma live_for : forall r0 m names r, units_exist r0 -> kext r0 r -> all_in (there r0) m ->
  sfor (live_instance m) names r = sfor (merge_instance (img (before r0) m)) names r.
Proof.
  intros r0 m. induction names as [|n names IH]; intros r U K A; [reflexivity|]. cbn [sfor]. unfold sbind. rewrite (live_step r0) by assumption.
  assert (X : kexts (merge_instance (img (before r0) m) n)).
  { unfold merge_instance. repeat (apply kexts_bind; [try apply kexts_lift; try apply kexts_child | intros]). apply kexts_child. }
  specialize (X r). destruct (merge_instance (img (before r0) m) n r) as [r1 [u|e]]; [|reflexivity]. cbn in X. apply IH; auto. eapply kext_trans; eauto.
Qed.

Lemma units_resolve : forall d, all_resolve d -> units_exist (db_root d).
Proof.
  intros d R k h I E G. apply In_nth_error in I as [i I]. specialize (R [i] (node_of k)). unfold resolves, view, vw in R. rewrite get_at_one, I in R.
  specialize (R eq_refl). unfold s_cls in E. cbn [node_of n_attrs] in R. rewrite E, G in R. now apply R.
Qed.

(** ** Merged databases have no dangling references *)
Definition no_inst (s : scope) : Prop := forall q c o, get_at s q = Some c -> s_cls c <> KInst o.
Lemma no_inst_step : forall s, (forall o, s_cls s <> KInst o) -> (forall c, In c (s_kids s) -> no_inst c) -> no_inst s.
Proof.
  intros s H K [|i q] c o G; cbn in G; [injection G as <-; apply H|]. destruct (nth_error (s_kids s) i) as [x|] eqn:N; [|discriminate].
  apply nth_error_In in N. exact (K x N q c o G).
Qed.
Lemma points_no_inst : forall p gs c, In c (c_points p gs) -> no_inst c.
Proof.
  intros p gs c H. apply in_app_or in H as [H|H]; apply in_map_iff in H as (n & <- & _); (apply no_inst_step; [discriminate|intros ? []]).
Qed.
Lemma cg_no_inst : forall p gs, no_inst (c_cg p gs).
Proof.
  intros p gs. apply no_inst_step; [discriminate|]. intros c H. apply in_app_or in H as [H|H]; [exact (points_no_inst _ _ _ H)|].
  apply In_nth_error in H as [i H]. apply nth_mapi in H as (n & _ & ->). apply no_inst_step; [discriminate|]. intros c H. exact (points_no_inst _ _ _ H).
Qed.
Lemma inst_below : forall k g i q c o, get_at (c_inst k g) (i :: q) = Some c -> s_cls c <> KInst o.
Proof.
  intros k g i q c o G. cbn [get_at] in G. destruct (nth_error (s_kids (c_inst k g)) i) as [x|] eqn:N; [|discriminate].
  change (s_kids (c_inst k g)) with (c_cgs [S k] 0 (map snd g)) in N. apply nth_mapi in N as (n & _ & ->). eapply cg_no_inst; eauto.
Qed.
Theorem C85_references_resolve :
  forall dst srcs dst', all_resolve dst -> merge dst srcs = (dst', Ok tt) -> all_resolve dst'.
Proof.
  intros dst srcs dst' R M h n V. pose proof (@merge_refs _ _ _ M) as MR. pose proof (proj1 (@merge_appends _ _ _ _ M)) as K.
  assert (keep : forall k m, view dst k = Some m -> exists m', view dst' k = Some m' /\ fixed (n_attrs m) (n_attrs m')).
  { intros k m E. unfold view, vw in *. destruct (get_at (db_root dst) k) as [x|] eqn:G; [|discriminate]. injection E as <-. destruct k as [|i k].
    - cbn in G. injection G as <-. exists (node_of (db_root dst')). split; [reflexivity|]. cbn [node_of n_attrs]. rewrite (proj1 K). apply fixed_refl.
    - rewrite (kext_paths K G) by discriminate. exists (node_of x). split; [reflexivity|apply fixed_refl]. }
  destruct (view dst h) as [m|] eqn:O.
  { destruct (keep _ _ O) as (m' & E & F). rewrite V in E. injection E as <-. apply (@resolves_mono dst _ m n); auto. { exact (R _ _ O). } apply F. }
  destruct h as [|k t]; [discriminate|]. assert (L : List.length (s_kids (db_root dst)) <= k).
  { destruct (Nat.le_gt_cases (List.length (s_kids (db_root dst))) k) as [L|L]; [exact L|]. exfalso.
    destruct (nth_error (s_kids (db_root dst)) k) as [x|] eqn:N; [|apply nth_error_None in N; lia]. unfold view, vw in *. cbn [get_at] in *.
    rewrite N in O. destruct K as (_ & _ & _ & new & K). rewrite K, nth_error_app1, N in V by exact L. rewrite V in O. discriminate. }
  specialize (MR k t L). unfold view, vw in V. destruct (get_at (db_root dst') (k :: t)) as [c|] eqn:G; [|discriminate]. injection V as <-.
  unfold resolves. cbn [node_of n_attrs]. change (a_cls (s_attrs c)) with (s_cls c). destruct (s_cls c) as [| |[u|]| | | |l] eqn:S; try exact I.
  - clear MR. revert M. unfold merge. set (roots := map db_root srcs). destruct (merge_root_closed roots (db_root dst)) as [H1 H2].
    destruct (merge_root roots (db_root dst)) as [s [[]|e]] eqn:E; [|discriminate]. specialize (H1 (H2 _ _ eq_refl)). injection H1 as ->.
    intros M. injection M as <-. cbn [db_root] in G. unfold view, vw. cbn [db_root].
    set (root' := add_kids (db_root dst) (c_root (nkids (db_root dst)) roots (in_names roots))) in *. cbn [get_at] in G.
    destruct (nth_error (s_kids root') k) as [x|] eqn:Ex; [|discriminate].
    assert (Ex' : nth_error (c_root (nkids (db_root dst)) roots (in_names roots)) (k - nkids (db_root dst)) = Some x).
    { unfold root', add_kids in Ex. cbn [s_kids] in Ex. rewrite nth_error_app2 in Ex by auto. exact Ex. }
    destruct (c_root_nth _ _ _ _ Ex') as [[Hx Hc]|(nm & i' & Hn & Hi & ->)].
    { destruct t as [|j t]; cbn in G; [injection G as <-; congruence|]. rewrite Hx in G. destruct j; discriminate. }
    destruct t as [|j t]; [|exfalso; eapply inst_below; eauto]. cbn in G. injection G as <-. cbn in S. injection S as <-.
    cbn [get_at]. assert (k = Datatypes.S (nkids (db_root dst) + i')) by (unfold nkids in *; lia).
    assert (k < List.length (s_kids root')) by (apply nth_error_Some; congruence).
    destruct (nth_error (s_kids root') (nkids (db_root dst) + i')) eqn:N; [discriminate|]. apply nth_error_None in N. lia.
  - apply Forall_forall. intros r I. destruct (MR _ _ _ G S I) as (q & i & j & cp & _ & _ & E & _ & En). exists (node_of cp).
    split; [now apply view_get|exact En].
Qed.
Print Assumptions C85_references_resolve.

(** ** C85 *)

(** Merging into a database that is also a source does what it would do with a copy
    of that database as source; so all properties of merges hold for it. *)
Theorem C85_itself_as_source :
  forall d srcs, all_resolve d ->
  merge_live d srcs = merge d (map (fun s => match s with Itself => d | Another x => x end) srcs).
Proof.
  intros d srcs U%units_resolve. unfold merge_live, merge, merge_root. rewrite <- before_sources.
  rewrite (collect_img (now_name (db_root d)) si_name (before (db_root d))).
  - pose proof (collect_all_in (now_name (db_root d)) (there (db_root d)) (map (source_instances (db_root d)) srcs)) as A.
    destruct (collect (now_name (db_root d)) (map (source_instances (db_root d)) srcs)) as [m names]. cbn [fst] in A.
    rewrite (live_for (db_root d)); [reflexivity|assumption|apply kext_refl|]. apply A. apply Forall_forall. intros l I. apply in_map_iff in I as ([|x] & <- & _).
    + apply own_instances_there.
    + apply Forall_forall. intros y I. apply in_map_iff in I as (z & <- & _). exact Logic.I.
  - apply Forall_forall. intros l I. apply in_map_iff in I as ([|x] & <- & _).
    + eapply Forall_impl; [|apply own_instances_there]. intros [i|y] T; cbn in T; [|reflexivity]. unfold before, now_name, now_inst, own_child.
      destruct (nth_error (s_kids (db_root d)) i) eqn:N; [reflexivity|apply nth_error_None in N; lia].
    + apply Forall_forall. intros y I. apply in_map_iff in I as (z & <- & _). reflexivity.
Qed.
Print Assumptions C85_itself_as_source.

(** The counts: everything counted in [d] is counted once more for every time [d] is a source. *)
Theorem C85_counts :
  forall d srcs d', all_resolve d -> merge_live d srcs = (d', Ok tt) ->
  no_repeats (db_root d) -> (forall x, In (Another x) srcs -> no_repeats (db_root x)) ->
  forall a, count_at a (db_root d') =
            (count_at a (db_root d) +
             sumZ (map (fun s => match s with Itself => count_at a (db_root d) | Another x => count_at a (db_root x) end) srcs))%Z.
Proof.
  intros d srcs d' R M N F a. rewrite C85_itself_as_source in M by assumption. rewrite (@C14_merged_counts _ _ _ M).
  - rewrite map_map. do 2 f_equal. apply map_ext. now intros [|x].
  - apply Forall_forall. intros x I. apply in_map_iff in I as ([|y] & <- & I); auto.
Qed.
Print Assumptions C85_counts.

Example merged12_resolves : all_resolve merged12.
Proof. exact (@C85_references_resolve _ _ _ empty_resolves merged12_ok). Qed.
Example C85_example :
  let '(d, r) := merge_live merged12 [Itself; Another sample1] in
  r = Ok tt /\ map s_name (instances (db_root d)) = ["top.i0"; "top.i1"; "top.i0"; "top.i1"]%string /\
  map (count_at hi_bin) [db_root merged12; db_root sample1; db_root d] = [4; 1; 9]%Z.
Proof. vm_compute. repeat split. Qed.
