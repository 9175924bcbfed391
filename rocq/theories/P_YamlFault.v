(** Property C108: what loading a YAML document raises. *)
From Verif Require Import Base Dict Consts Db NameSpec NubFacts Yaml YamlSpec YamlDocSpec YamlFacts YamlPrints YamlBuild YamlDocFacts YamlFaultSpec BaseFacts P_Yaml.
Local Open Scope string_scope.
Local Open Scope list_scope.

Lemma crosses_fold_ok l : Forall (fun c => yc_points c <> None) l ->
  ((exists cs, fold_res type_cross l [] = Ok cs) <->
   forall n c cs, named yc_name n l = c :: cs -> yc_bins c = None -> Forall (fun c' => opt_list (yc_bins c') = []) cs).
Proof.
  intros F. assert (FN : forall n, Forall (fun c => yc_points c <> None) (named yc_name n l)) by (intros; now apply Forall_filter).
  rewrite (fold_res_ext _ _ _ (gstep yc_name cross_step)) by apply type_cross_gstep. rewrite grouped_ok. split.
  - intros H n c cs E B. destruct (H n) as [o O]. apply cross_gfold in O; [|apply FN]. rewrite E, B in O. tauto.
  - intros H n. specialize (FN n). specialize (H n). destruct (named yc_name n l) as [|c cs] eqn:E; [exists None; reflexivity|].
    destruct (yc_bins c) as [bs|] eqn:B.
    + eexists. apply cross_gfold; [assumption|]. rewrite B. reflexivity.
    + eexists. apply cross_gfold; [assumption|]. rewrite B. split; [|reflexivity]. exact (H c cs eq_refl B).
Qed.
(** Errors of loops *)
Lemma fold_err A B (f : B -> A -> res B) (P : A -> Prop) (Q : exn -> Prop) l : Forall P l ->
  (forall b x e, P x -> f b x = Err e -> Q e) -> forall b e, fold_res f l b = Err e -> Q e.
Proof.
  intros F H. induction F as [|x l Px F IH]; intros b e E; cbn in E; [discriminate|]. destruct (f b x) as [b'|e'] eqn:X; cbn in E; [now apply (IH b')|].
  injection E as <-. now apply (H b x).
Qed.
Lemma traverse_err A B (f : A -> res B) (P : A -> Prop) (Q : exn -> Prop) l : Forall P l ->
  (forall x e, P x -> f x = Err e -> Q e) -> forall e, traverse f l = Err e -> Q e.
Proof.
  intros F H. induction F as [|x l Px F IH]; intros e E; cbn in E; [discriminate|]. destruct (f x) as [y|e'] eqn:X; cbn in E; [|injection E as <-; now apply (H x)].
  destruct (traverse f l) as [ys|e']; cbn in E; [discriminate|injection E as <-; now apply IH].
Qed.
Lemma resolve_err m ns e : y_resolve m ns = Err e -> e = RaisedException.
Proof. intros H. eapply traverse_err with (P := fun _ => True) (Q := fun e => e = RaisedException); [|intros x e' _ X|exact H]; [now apply Forall_forall|]. cbv beta in X; destruct (dget x m); congruence. Qed.
Lemma tally_cross_err bs o e : fold_res tally_cross_bin bs o = Err e -> e = AttributeError.
Proof.
  intros H. eapply fold_err with (P := fun _ => True) (Q := fun e => e = AttributeError); [|intros b x e' _ X|exact H]; [now apply Forall_forall|].
  unfold tally_cross_bin in X. destruct (found _ _); [discriminate|]. destruct b; congruence.
Qed.
Lemma tally_other_err bs st e : fold_res tally_other bs st = Err e -> e = AttributeError.
Proof.
  intros H. eapply fold_err with (P := fun _ => True) (Q := fun e => e = AttributeError); [|intros b x e' _ X|exact H]; [now apply Forall_forall|].
  unfold tally_other in X. destruct b as [b own]. destruct (found _ _); [discriminate|]. destruct b; congruence.
Qed.
Lemma type_point_err m p e : type_point m p = Err e -> e = AttributeError.
Proof.
  unfold type_point. set (t := match dget _ m with Some t => t | None => _ end). clearbody t. destruct (tally_point t p) as [t'|e'] eqn:E; cbn; [discriminate|]. intros [= <-].
  unfold tally_point in E. set (b1 := match yp_bins p with Some _ => _ | None => _ end) in E. clearbody b1.
  set (x := match yp_ignore p with Some _ => _ | None => _ end) in E. assert (X : forall e, x = Err e -> e = AttributeError).
  { unfold x. intros e. destruct (yp_ignore p) as [bs|]; [|discriminate]. destruct (fold_res tally_other bs _) as [[? ?]|] eqn:F; cbn; [discriminate|]. intros [= <-]. eapply tally_other_err. exact F. }
  destruct x as [[b2 ig]|e2]; cbn [rbind] in E; [|injection E as <-; now apply X].
  set (y := match yp_illegal p with Some _ => _ | None => _ end) in E. assert (Y : forall e, y = Err e -> e = AttributeError).
  { unfold y. intros e. destruct (yp_illegal p) as [bs|]; [|discriminate]. destruct (fold_res tally_other bs _) as [[? ?]|] eqn:F; cbn; [discriminate|]. intros [= <-]. eapply tally_other_err. exact F. }
  destruct y as [[b3 il]|e3]; cbn [rbind] in E; [discriminate|injection E as <-; now apply Y].
Qed.
Lemma type_cross_err m c e : yc_points c <> None -> type_cross m c = Err e -> e = AttributeError.
Proof.
  intros N. unfold type_cross. destruct (yc_points c) as [ps|]; [|contradiction]. destruct (fold_res tally_cross_bin _ _) eqn:F; cbn; [discriminate|]. intros [= <-].
  eapply tally_cross_err. exact F.
Qed.
Lemma type_inst_err st i e : full_inst i -> type_inst st i = Err e -> e = AttributeError.
Proof.
  destruct st as [ps cs]. intros (_ & FC). unfold type_inst. destruct (fold_res type_point _ ps) as [ps'|e'] eqn:P; cbn [rbind].
  - destruct (fold_res type_cross _ cs) as [cs'|e'] eqn:C; cbn; [discriminate|]. intros [= <-].
    eapply fold_err with (P := fun c => yc_points c <> None) (Q := fun e => e = AttributeError); [exact FC|intros; eapply type_cross_err; eauto|exact C].
  - intros [= <-]. eapply fold_err with (P := fun _ => True) (Q := fun e => e = AttributeError); [|intros; eapply type_point_err; eauto|exact P]. now apply Forall_forall.
Qed.
Lemma record_inst_err base w st i e : full_inst i -> record_inst base w st i = Err e -> e = RaisedException.
Proof.
  destruct st as [m kids]. intros (_ & FC) H. unfold record_inst in H. destruct (traverse _ (opt_list (yi_crosses i))) as [cr|e'] eqn:T; cbn [rbind] in H; [discriminate|]. injection H as <-.
  eapply traverse_err with (P := fun c => yc_points c <> None) (Q := fun e => e = RaisedException); [exact FC| |exact T]. intros c e0 N X. cbv beta in X.
  destruct (yc_points c) as [ns|]; [|contradiction]. cbn [rbind] in X. destruct (y_resolve _ ns) eqn:R; cbn in X; [discriminate|]. injection X as <-. eapply resolve_err. exact R.
Qed.
Lemma group_err base g : Forall full_inst (insts_of g) -> forall e, process_covergroup base g = Err e <-> group_raises g e.
Proof.
  intros F. assert (D : forall e, process_covergroup base g = Err e -> group_raises g e).
  - intros e H. assert (NL : ~ loadable_group g) by (intros L; apply (covergroup_loads base g F) in L as (s & L); congruence).
    assert (FP : Forall (fun p => yp_bins p <> None) (all_points (insts_of g))).
    { apply Forall_forall. intros p I. apply in_flat_map in I as (i & Ii & Ip). rewrite Forall_forall in F. destruct (F i Ii) as [A _]. rewrite Forall_forall in A. auto. }
    assert (FC : Forall (fun c => yc_points c <> None) (all_crosses (insts_of g))).
    { apply Forall_forall. intros p I. apply in_flat_map in I as (i & Ii & Ip). rewrite Forall_forall in F. destruct (F i Ii) as [_ A]. rewrite Forall_forall in A. auto. }
    pose proof (crosses_fold_ok _ FC) as XC. destruct (points_fold _ FP) as (ps & HP & _ & _).
    unfold process_covergroup in H. fold (insts_of g) in H. destruct (yg_insts g) as [is|] eqn:EI.
    + assert (N : yg_insts g <> None) by congruence. assert (EIs : insts_of g = is) by (unfold insts_of; now rewrite EI).
      match type of H with context [fold_res type_inst ?a ?b] => destruct (fold_res type_inst a b) as [[ps' cs]|e'] eqn:T end; cbn [rbind] in H.
      * apply type_inst_split in T as (_ & T). assert (B : bins_from_the_start g) by (refine (proj1 XC _); now exists cs).
        assert (e = RaisedException) as ->.
        { match type of H with context [type_cross_scopes ?u cs] => destruct (type_cross_scopes u cs) as [tcs|e'] eqn:S end; cbn [rbind] in H.
          - match type of H with context [fold_res (record_inst ?u ?v) ?a ?b] => destruct (fold_res (record_inst u v) a b) as [[? ?]|e'] eqn:R end; cbn [rbind] in H; [discriminate|]. injection H as <-.
            rewrite EIs in F. eapply fold_err with (P := full_inst) (Q := fun e => e = RaisedException); [exact F|intros; eapply record_inst_err; eauto|exact R].
          - injection H as <-. eapply traverse_err with (P := fun _ => True) (Q := fun e => e = RaisedException); [now apply Forall_forall| |exact S].
            intros x e0 _ X. cbv beta in X. match type of X with context [y_resolve ?u ?w] => destruct (y_resolve u w) eqn:R end; cbn in X; [discriminate|]. injection X as <-. eapply resolve_err. exact R. }
        apply unknown_point; [exact N|exact B|]. intros K. apply NL. split; [exact N|]. split; [exact K|exact B].
      * injection H as <-. assert (e' = AttributeError) as -> by (eapply fold_err with (P := full_inst) (Q := fun e => e = AttributeError); [exact F|intros; eapply type_inst_err; eauto|exact T]).
        apply bins_too_late; [exact N|]. intros B. destruct (proj2 XC B) as (cs & HC). pose proof (proj2 (type_inst_split (insts_of g) [] [] ps cs) (conj HP HC)) as HX.
        pose proof (eq_trans (eq_sym T) HX). discriminate.
    + unfold insts_of in H. rewrite EI in H. cbn in H. injection H as <-. now apply no_instances.
  - intros e. split; [apply D|]. intros R. destruct (process_covergroup base g) as [s|e'] eqn:E.
    + exfalso. destruct (proj1 (covergroup_loads base g F) (ex_intro _ s E)) as (N & K & B). destruct R; congruence || contradiction.
    + specialize (D e' eq_refl). f_equal. destruct R, D; congruence || contradiction || reflexivity.
Qed.
Lemma groups_err gs : Forall (fun g => Forall full_inst (insts_of g)) gs -> forall e,
  fold_res (fun cgs g => let* s := process_covergroup [1; List.length cgs] g in Ok (cgs ++ [s])) gs [] = Err e <->
  exists before g after, gs = before ++ g :: after /\ Forall loadable_group before /\ group_raises g e.
Proof.
  induction gs as [|g gs IH] using rev_ind; intros F e.
  - cbn. split; [discriminate|]. intros (b & g & a & E & _). now destruct b.
  - apply Forall_app in F as [F1 F2]. inversion F2 as [|? ? F3 _]; subst. rewrite fold_res_app. pose proof (groups_ok gs F1) as OK. specialize (IH F1).
    destruct (fold_res _ gs []) as [cgs|e'] eqn:E.
    + cbn [rbind fold_res]. split.
      * intros H. destruct (process_covergroup _ g) as [s|e'] eqn:P; cbn in H; [discriminate|]. injection H as <-. exists gs, g, []. split; [reflexivity|]. split; [apply OK; now exists cgs|].
        eapply group_err; [exact F3|exact P].
      * intros (b & g' & a & Eg & L & R). destruct a as [|z a _] using rev_ind.
        -- apply app_inj_tail in Eg as (<- & <-). apply (group_err [1; List.length cgs] _ F3) in R. now rewrite R.
        -- rewrite app_comm_cons, app_assoc in Eg. apply app_inj_tail in Eg as (-> & _). assert (X : @Ok (list scope) cgs = Err e) by (apply IH; now exists b, g', a). discriminate.
    + cbn [rbind]. rewrite IH. split.
      * intros (b & g' & a & -> & L & R). exists b, g', (a ++ [g]). rewrite <- app_assoc. auto.
      * intros (b & g' & a & Eg & L & R). destruct a as [|z a _] using rev_ind.
        -- apply app_inj_tail in Eg as (<- & <-). exfalso. destruct (proj2 OK L) as (c & X). discriminate.
        -- rewrite app_comm_cons, app_assoc in Eg. apply app_inj_tail in Eg as (-> & _). now exists b, g', a.
Qed.

(** A document that the schema does not allow is refused by the validation; an allowed one
    raises what its first covergroup that cannot be loaded raises. *)
Theorem C108_loading :
  forall v e, load v = Err e <->
    (~ allowed_document v /\ e = LibraryError) \/ (exists doc, document_says v doc /\ full doc /\ document_raises doc e).
Proof.
  intros v e. destruct (jvalid coverage_schema v) eqn:V.
  - destruct (valid_decodes v V) as (doc & D & F). assert (S : document_says v doc) by now apply reads_doc.
    assert (U : forall doc', document_says v doc' -> doc' = doc) by (intros doc' S'; apply reads_doc in S'; congruence).
    assert (A : allowed_document v) by (now exists doc).
    transitivity (document_raises doc e).
    + unfold load. rewrite V, D. cbn [rbind]. destruct doc as [gs|]; cbn [build].
      * assert (FG : Forall (fun g => Forall full_inst (insts_of g)) (opt_list gs)) by (destruct gs as [gs|]; [now apply F|constructor]).
        pose proof (groups_err _ FG e) as G. destruct (fold_res _ (opt_list gs) []) as [cgs|e'] eqn:E; cbn [rbind].
        -- split; [discriminate|]. intros R. inversion R as [|b g a e0 L GR]; subst. assert (X : @Ok (list scope) cgs = Err e) by (apply G; exists b, g, a; auto). discriminate.
        -- split.
           ++ intros [= <-]. destruct (proj1 G eq_refl) as (b & g & a & Eg & L & R). destruct gs as [gs|]; cbn in Eg; [subst gs; now constructor|now destruct b].
           ++ intros R. inversion R as [|b g a e0 L GR]; subst. assert (X : @Err (list scope) e' = Err e) by (apply G; exists b, g, a; auto). congruence.
      * split; [intros [= <-]; constructor|]. intros R. inversion R; subst. reflexivity.
    + split; [intros R; right; now exists doc|]. intros [(N & _)|(doc' & S' & _ & R)]; [contradiction|]. now rewrite <- (U _ S').
  - assert (N : ~ allowed_document v) by (intros A; apply valid_iff in A; congruence). unfold load. rewrite V. split.
    + intros [= <-]. now left.
    + intros [(_ & ->)|(doc & S & F & _)]; [reflexivity|]. exfalso. apply N. now exists doc.
Qed.
Print Assumptions C108_loading.

(** Loading prints nothing, except for a covergroup without instances, which then raises: one
    line with the name of the covergroup. *)
Lemma warnings_none gs : forall cgs0 : list scope, Forall (fun g => Forall full_inst (insts_of g)) gs ->
  (exists before g after, gs = before ++ g :: after /\ Forall loadable_group before /\ yg_insts g = None /\ warnings (List.length cgs0) gs = warning (yg_name g)) \/
  (warnings (List.length cgs0) gs = "" /\ forall before g after, gs = before ++ g :: after -> Forall loadable_group before -> yg_insts g <> None).
Proof.
  induction gs as [|g gs IH]; intros cgs0 F; [right; split; [reflexivity|]; intros b g a E; now destruct b|]. inversion F as [|? ? F1 F2]; subst. rewrite warnings_cons.
  destruct (yg_insts g) as [is|] eqn:E; [|left; exists [], g, gs; auto].
  destruct (process_covergroup [1; List.length cgs0] g) as [s|e] eqn:P.
  - specialize (IH (cgs0 ++ [s]) F2). rewrite app_length, Nat.add_1_r in IH. assert (L : loadable_group g) by (apply (covergroup_loads [1; List.length cgs0] g F1); now exists s).
    destruct IH as [(b & h & a & Eg & Lb & N & W)|(W & N)].
    + left. exists (g :: b), h, a. split; [now rewrite Eg|]. split; [now constructor|]. now split.
    + right. split; [exact W|]. intros [|x b] h a Eg Lb.
      * injection Eg as <- _. congruence.
      * injection Eg as <- Eg. inversion Lb; subst. eapply N; [reflexivity|assumption].
  - right. split; [reflexivity|]. intros [|x b] h a Eg Lb; [injection Eg as <- _; congruence|]. injection Eg as <- _. inversion Lb as [|? ? L _]; subst.
    apply (covergroup_loads [1; List.length cgs0] g F1) in L as (s & L). congruence.
Qed.
Theorem C108_printed :
  forall v,
  (load v <> Err TypeError -> load_prints v = "") /\
  (load v = Err TypeError -> exists before g after, document_says v (Some (Some (before ++ g :: after))) /\ Forall loadable_group before /\ yg_insts g = None /\
     load_prints v = ("Warning: Covergroup type " ++ yg_name g ++ " has no instances" ++ String "010" "")%string).
Proof.
  intros v. unfold load_prints. destruct (jvalid coverage_schema v) eqn:V; [|split; [reflexivity|]; unfold load; now rewrite V].
  destruct (valid_decodes v V) as (doc & D & F). assert (S : document_says v doc) by now apply reads_doc. rewrite D.
  assert (A : allowed_document v) by now exists doc.
  destruct doc as [gs|]; [|split; [reflexivity|]; unfold load; rewrite V, D; discriminate].
  assert (FG : Forall (fun g => Forall full_inst (insts_of g)) (opt_list gs)) by (destruct gs as [gs|]; [now apply F|constructor]).
  destruct (warnings_none (opt_list gs) [] FG) as [(b & g & a & Eg & L & N & W)|(W & N)]; cbn [List.length] in W; rewrite W.
  - assert (gs = Some (b ++ g :: a)) as -> by (destruct gs; cbn in Eg; [now subst|now destruct b]).
    assert (E : load v = Err TypeError). { apply C108_loading. right. exists (Some (Some (b ++ g :: a))). split; [exact S|]. split; [exact F|]. constructor; [exact L|now constructor]. }
    split; [intros Q; contradiction|]. intros _. exists b, g, a. repeat split; assumption.
  - split; [reflexivity|]. intros E. exfalso. apply C108_loading in E as [(NA & _)|(doc & S' & _ & R)]; [contradiction|].
    apply reads_doc in S'. rewrite D in S'. injection S' as <-. inversion R as [|b g a e L GR]; subst. inversion GR. now apply (N b g a).
Qed.
Print Assumptions C108_printed.

(** What comes first in the document does not always come first: below, the first instance
    crosses a coverpoint that is unknown, and the second has bins that come too late; then the
    same without them; then covergroups without instances before and after. *)
Definition unknown_and_late (bins : list (string * jval)) : jval :=
  let points := [jpoint "a" [] [jbin "x" 1]] in
  jgroup "cg" [("instances", JArr [jinst "i0" points [jcross "d" ["b"] []; jcross "c" ["a"] []]; jinst "i1" points [jcross "c" ["a"] bins]])].
Definition some_bins : list (string * jval) := [("bins", JArr [jbin "x" 1])].
Example C108_example :
  map (fun v => match load v with Ok _ => None | Err e => Some e end)
    [jdoc [unknown_and_late some_bins]; jdoc [unknown_and_late []]; jdoc [jgroup "cg" []; unknown_and_late []]; jdoc [unknown_and_late []; jgroup "cg" []]; JObj []; JNull; two_insts] =
  [Some AttributeError; Some RaisedException; Some TypeError; Some RaisedException; Some AttributeError; Some LibraryError; None].
Proof. vm_compute. reflexivity. Qed.
Example C108_example_printed :
  map load_prints [jdoc [jgroup "g" [("instances", JArr [])]; jgroup "cg" []; jgroup "other" []]; jdoc [unknown_and_late []; jgroup "cg" []]; two_insts] =
  [("Warning: Covergroup type cg has no instances" ++ String "010" "")%string; ""; ""].
Proof. vm_compute. reflexivity. Qed.
