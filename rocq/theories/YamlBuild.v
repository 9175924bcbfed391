(** The scopes the YAML reader creates. *)
From Verif Require Import Base Dict Consts Db NameSpec NubFacts BaseFacts Yaml YamlSpec YamlFacts.
Local Open Scope string_scope.
Local Open Scope list_scope.

(** ** Positions of coverpoints *)
Lemma positions_cons : forall base k x names m, positions base k (x :: names) m = positions base (S k) names (dset x (base ++ [k]) m).
Proof. reflexivity. Qed.
Lemma positions_out : forall base names k m n, ~ In n names -> dget n (positions base k names m) = dget n m.
Proof.
  induction names as [|x names IH]; intros k m n N; [reflexivity|]. rewrite positions_cons, IH by (intros I; apply N; now right).
  apply dget_dset_other. intros ->. apply N. now left.
Qed.
Lemma positions_in : forall base names k m n, In n names -> exists j, nth_error names j = Some n /\ dget n (positions base k names m) = Some (base ++ [k + j]).
Proof.
  induction names as [|x names IH]; intros k m n I; [contradiction|]. rewrite positions_cons.
  destruct (in_dec string_dec n names) as [J|J].
  - destruct (IH (S k) (dset x (base ++ [k]) m) n J) as (j & E & G). exists (S j). split; [assumption|]. rewrite G. do 3 f_equal. lia.
  - destruct I as [->|I]; [|contradiction]. exists 0. split; [reflexivity|]. rewrite positions_out by assumption. rewrite dget_dset_same. do 3 f_equal. lia.
Qed.

Lemma resolve_ok : forall m ns refs, y_resolve m ns = Ok refs -> map r_name refs = ns /\ Forall (fun r => dget (r_name r) m = Some (r_path r)) refs.
Proof.
  intros m. induction ns as [|n ns IH]; intros refs H; [injection H as <-; split; [reflexivity|constructor]|].
  unfold y_resolve in *. cbn [traverse] in H. apply rbind_ok in H as (r & Hr & H). apply rbind_ok in H as (rs & Hs & H). injection H as <-.
  destruct (dget n m) as [h|] eqn:D; [|discriminate]. injection Hr as <-. destruct (IH rs Hs) as [E F]. split; [cbn; now f_equal|]. now constructor.
Qed.
Lemma resolve_succeeds : forall m ns, (exists refs, y_resolve m ns = Ok refs) <-> forall n, In n ns -> dget n m <> None.
Proof.
  intros m. induction ns as [|n ns IH]; [split; [contradiction|eexists; reflexivity]|]. unfold y_resolve in *. cbn [traverse]. split.
  - intros [refs H] x [<-|I]; apply rbind_ok in H as (r & Hr & H).
    + intros E. rewrite E in Hr. discriminate.
    + apply rbind_ok in H as (rs & Hs & _). apply (proj1 IH (ex_intro _ _ Hs)). assumption.
  - intros H. destruct (dget n m) as [h|] eqn:D; [|now contradiction (H n (or_introl eq_refl))].
    destruct (proj2 IH) as [rs E]; [intros x I; apply H; now right|]. rewrite E. eexists. reflexivity.
Qed.

(** ** Scopes are recorded *)
Lemma bins_recorded : forall a k bs, Forall2 (is_bin a k) (opt_list bs) (y_bins a k bs).
Proof.
  intros a k bs. unfold y_bins. induction (opt_list bs) as [|b l IH]; cbn; constructor; [|exact IH]. repeat split.
Qed.
Definition point_scope_of (p : ypoint) : scope := record_point (yp_name p) (yp_atleast p) (yp_bins p) (yp_ignore p) (yp_illegal p).
Lemma point_recorded : forall p, recorded_point p (point_scope_of p).
Proof.
  intros p. repeat split. exists (y_bins (or_1 (yp_atleast p)) CVGBIN (yp_bins p)), (y_bins (or_1 (yp_atleast p)) IGNOREBIN (yp_ignore p)),
    (y_bins (or_1 (yp_atleast p)) ILLEGALBIN (yp_illegal p)). split; [reflexivity|]. repeat split; apply bins_recorded.
Qed.
Lemma points_recorded : forall l, Forall2 recorded_point l (map point_scope_of l).
Proof. induction l as [|p l IH]; cbn [map]; constructor; [apply point_recorded|exact IH]. Qed.
Lemma positional : forall A B (R : A -> B -> Prop) l l', List.length l' = List.length l ->
  (forall before x after, l = before ++ x :: after -> exists y, nth_error l' (List.length before) = Some y /\ R x y) -> Forall2 R l l'.
Proof.
  intros A B R. induction l as [|x l IH]; intros l' L H; (destruct l' as [|y l']; [|]); try discriminate; constructor.
  - destruct (H [] x l eq_refl) as (y' & E & P). injection E as ->. exact P.
  - apply IH; [cbn in L; lia|]. intros before z after ->. exact (H (x :: before) z after eq_refl).
Qed.
Lemma cross_recorded : forall c refs, map r_name refs = opt_list (yc_points c) -> recorded_cross c (record_cross (yc_name c) (yc_atleast c) refs (yc_bins c)).
Proof. intros c refs E. repeat split; [assumption|apply bins_recorded]. Qed.
Lemma sums_summed : forall bs, sums bs (y_bins 1 CVGBIN (Some (summed bs))).
Proof.
  intros bs. unfold sums, y_bins, summed. cbn [opt_list]. rewrite map_map. induction (nub (map yb_name bs)) as [|n l IH]; cbn; constructor; [|exact IH]. repeat split.
Qed.

Section Insts.
  Variables (base : handle) (w : Z) (kids0 : list scope).
  Notation K0 := (List.length kids0).

  Definition ref_ok (before : list yinst) (i : yinst) (r : cpref) : Prop :=
    exists a i' b k, before ++ [i] = a ++ i' :: b /\ nth_error (map yp_name (points_of i')) k = Some (r_name r) /\
      r_path r = base ++ [K0 + List.length a; k] /\ (In (r_name r) (map yp_name (points_of i)) -> b = []).
  Definition inst_at (before : list yinst) (i : yinst) (s : scope) : Prop :=
    YamlSpec.recorded_inst w i s /\ forall c r, In c (s_kids s) -> In r (refs_of c) -> ref_ok before i r.
  Definition known (before : list yinst) (i : yinst) : Prop :=
    forall c n, In c (crosses_of i) -> In n (opt_list (yc_points c)) -> In n (map yp_name (all_points (before ++ [i]))).

  (** cp_n_scope_m after the instances [before] *)
  Definition map_ok (before : list yinst) (m : dict handle) : Prop :=
    (forall n h, dget n m = Some h -> exists a i b k, before = a ++ i :: b /\ nth_error (map yp_name (points_of i)) k = Some n /\
                                                     h = base ++ [K0 + List.length a; k]) /\
    forall n, In n (map yp_name (all_points before)) <-> dget n m <> None.

  Lemma all_points_snoc : forall l i, all_points (l ++ [i]) = all_points l ++ points_of i.
  Proof. intros. unfold all_points. rewrite flat_map_app. cbn. now rewrite app_nil_r. Qed.
  Lemma map_ok_step : forall before i m, map_ok before m ->
    map_ok (before ++ [i]) (positions (base ++ [K0 + List.length before]) 0 (map yp_name (points_of i)) m).
  Proof.
    intros before i m [M1 M2]. set (names := map yp_name (points_of i)). split.
    - intros n h G. destruct (in_dec string_dec n names) as [I|I].
      + destruct (positions_in (base ++ [K0 + List.length before]) names 0 m n I) as (j & E & G'). rewrite G in G'. injection G' as ->.
        exists before, i, [], j. split; [reflexivity|]. split; [exact E|]. rewrite <- app_assoc. reflexivity.
      + rewrite positions_out in G by assumption. destruct (M1 n h G) as (a & i' & b & k & -> & E & H). exists a, i', (b ++ [i]), k.
        split; [now rewrite <- app_assoc|]. now split.
    - intros n. rewrite all_points_snoc, map_app, in_app_iff. destruct (in_dec string_dec n names) as [I|I].
      + destruct (positions_in (base ++ [K0 + List.length before]) names 0 m n I) as (j & E & G'). rewrite G'. split; [discriminate|]. intros _. now right.
      + rewrite positions_out by assumption. rewrite <- M2. split; [intros [A|A]; [assumption|contradiction]|now left].
  Qed.

  Lemma step_inv : forall before i m ins m' kids', map_ok before m -> List.length ins = List.length before ->
    record_inst base w (m, kids0 ++ ins) i = Ok (m', kids') ->
    map_ok (before ++ [i]) m' /\ exists s, kids' = kids0 ++ ins ++ [s] /\ inst_at before i s.
  Proof.
    intros before i m ins m' kids' M L H. unfold record_inst in H. rewrite app_length, L in H. fold (points_of i) in H.
    pose proof (map_ok_step before i m M) as M'. set (m1 := positions _ _ _ _) in H, M'.
    apply rbind_ok in H as (cs & Hc & H). injection H as <- <-. split; [assumption|]. eexists. split; [rewrite app_assoc; reflexivity|].
    assert (C : Forall2 (fun c s => exists refs, s = record_cross (yc_name c) (yc_atleast c) refs (yc_bins c) /\
                          map r_name refs = opt_list (yc_points c) /\ Forall (fun r => dget (r_name r) m1 = Some (r_path r)) refs) (crosses_of i) cs).
    { fold (crosses_of i) in Hc. revert cs Hc. induction (crosses_of i) as [|c l IH]; intros cs Hc; [injection Hc as <-; constructor|].
      cbn [traverse] in Hc. apply rbind_ok in Hc as (s & Hs & Hc). apply rbind_ok in Hc as (ss & Hss & Hc). injection Hc as <-.
      constructor; [|now apply IH]. apply rbind_ok in Hs as (ns & Hn & Hs). destruct (yc_points c) as [ns'|]; [|discriminate]. injection Hn as ->.
      apply rbind_ok in Hs as (refs & Hr & Hs). injection Hs as <-. apply resolve_ok in Hr as [E F]. now exists refs. }
    split.
    - repeat split. exists (map point_scope_of (points_of i)), cs. split; [reflexivity|]. split.
      + apply points_recorded.
      + eapply Forall2_imp; [|exact C]. intros c s (refs & -> & E & _). now apply cross_recorded.
    - intros c r Ic Ir. cbn [s_kids] in Ic. apply in_app_or in Ic as [Ic|Ic].
      + apply in_map_iff in Ic as (p & <- & _). contradiction.
      + destruct (Forall2_in_r _ C Ic) as (c0 & _ & refs & -> & _ & F). cbn in Ir. rewrite Forall_forall in F. specialize (F r Ir).
        destruct (in_dec string_dec (r_name r) (map yp_name (points_of i))) as [I|I].
        * unfold m1 in F. destruct (positions_in (base ++ [K0 + List.length before]) (map yp_name (points_of i)) 0 m (r_name r) I) as (j & E & G).
          rewrite F in G. injection G as G. exists before, i, [], j. split; [reflexivity|]. split; [assumption|]. split; [rewrite G, <- app_assoc; reflexivity|reflexivity].
        * destruct M' as [M1 _]. destruct (M1 _ _ F) as (a & i' & b & k & A & E & P). exists a, i', b, k. split; [exact A|]. split; [exact E|]. split; [exact P|contradiction].
  Qed.
  Lemma step_ok : forall before i m ins, map_ok before m -> List.length ins = List.length before -> Forall (fun c => yc_points c <> None) (crosses_of i) ->
    ((exists st, record_inst base w (m, kids0 ++ ins) i = Ok st) <-> known before i).
  Proof.
    intros before i m ins M L F. unfold record_inst. rewrite app_length, L. fold (points_of i). fold (crosses_of i).
    pose proof (map_ok_step before i m M) as M'. set (m1 := positions _ _ _ _) in *.
    assert (X : (exists cs, traverse (fun c => let* ns := match yc_points c with Some ns => Ok ns | None => Err TypeError end in
                       let* refs := y_resolve m1 ns in Ok (record_cross (yc_name c) (yc_atleast c) refs (yc_bins c))) (crosses_of i) = Ok cs) <->
                known before i).
    { unfold known. destruct M' as [_ M2]. induction F as [|c l P F IH]; [split; [intros _ c n []|eexists; reflexivity]|]. cbn [traverse].
      destruct (yc_points c) as [ns|] eqn:Ec; [clear P|now contradiction P]. cbn [rbind]. split.
      - intros [cs H]. apply rbind_ok in H as (s & Hs & H). apply rbind_ok in H as (ss & Hss & _). apply rbind_ok in Hs as (refs & Hr & _).
        intros c' n [<-|I] In_.
        + apply M2. rewrite Ec in In_. apply (proj1 (resolve_succeeds m1 ns) (ex_intro _ _ Hr)). exact In_.
        + apply (proj1 IH (ex_intro _ _ Hss) c' n I In_).
      - intros H. destruct (proj2 (resolve_succeeds m1 ns)) as [refs ->].
        { intros n I. apply M2. apply (H c n (or_introl eq_refl)). now rewrite Ec. }
        destruct (proj2 IH) as [ss ->]; [intros c' n I; apply H; now right|]. eexists. reflexivity. }
    rewrite <- X. split.
    - intros [st H]. apply rbind_ok in H as (cs & Hc & _). now exists cs.
    - intros [cs ->]. eexists. reflexivity.
  Qed.

  Lemma insts_inv : forall is m kids, fold_res (record_inst base w) is ([], kids0) = Ok (m, kids) ->
    map_ok is m /\ exists ins, kids = kids0 ++ ins /\ List.length ins = List.length is /\
      forall before i after, is = before ++ i :: after -> exists s, nth_error ins (List.length before) = Some s /\ inst_at before i s.
  Proof.
    induction is as [|i is IH] using rev_ind; intros m kids H.
    - injection H as <- <-. split.
      + split; [intros n h E; discriminate|]. intros n. cbn. split; [contradiction|intros N; now contradiction N].
      + exists []. split; [now rewrite app_nil_r|]. split; [reflexivity|]. intros [|? ?] ? ? E; discriminate.
    - rewrite fold_res_app in H. apply rbind_ok in H as ([m0 kids1] & H0 & H). destruct (IH m0 kids1 H0) as (M & ins & -> & L & A).
      cbn [fold_res] in H. apply rbind_ok in H as ([m1 kids2] & H1 & H). injection H as <- <-.
      destruct (step_inv is i m0 ins m1 kids2 M L H1) as (M' & s & -> & P). split; [assumption|]. exists (ins ++ [s]). split; [reflexivity|].
      split; [rewrite !app_length, L; reflexivity|]. intros before j after E.
      destruct after as [|z after _] using rev_ind.
      + apply app_inj_tail in E as [<- <-]. exists s. split; [|assumption]. rewrite <- L, nth_error_app2 by lia. now rewrite Nat.sub_diag.
      + rewrite app_comm_cons, app_assoc in E. apply app_inj_tail in E as [E _]. destruct (A before j after E) as (s' & N & P'). exists s'. split; [|assumption].
        rewrite nth_error_app1; [assumption|]. apply nth_error_Some. congruence.
  Qed.
  Lemma insts_ok : forall is, Forall full_inst is ->
    ((exists st, fold_res (record_inst base w) is ([], kids0) = Ok st) <-> forall before i after, is = before ++ i :: after -> known before i).
  Proof.
    induction is as [|i is IH] using rev_ind; intros F.
    - split; [intros _ [|? ?] ? ? E; discriminate|eexists; reflexivity].
    - apply Forall_app in F as [F1 F2]. inversion F2 as [|? ? [_ FC] _]; subst. specialize (IH F1). rewrite fold_res_app. split.
      + intros [st H]. apply rbind_ok in H as ([m kids] & H0 & H). destruct (insts_inv _ _ _ H0) as (M & ins & -> & L & _).
        cbn [fold_res] in H. apply rbind_ok in H as (st' & H1 & _). intros before j after E.
        destruct after as [|z after _] using rev_ind.
        * apply app_inj_tail in E as [<- <-]. apply (step_ok is i m ins M L FC). now exists st'.
        * rewrite app_comm_cons, app_assoc in E. apply app_inj_tail in E as [E _]. apply (proj1 IH (ex_intro _ _ H0) before j after E).
      + intros H. destruct (proj2 IH) as [[m kids] E]; [intros b j a ->; apply (H b j (a ++ [i])); now rewrite <- app_assoc|].
        rewrite E. cbn [rbind fold_res]. destruct (insts_inv _ _ _ E) as (M & ins & -> & L & _).
        destruct (proj2 (step_ok is i m ins M L FC)) as [st ->]; [apply (H is i []); reflexivity|]. now exists st.
  Qed.
End Insts.

(** ** One covergroup *)
Definition type_scope (base : handle) (n : nat) (t : scope) : Prop :=
  forall r, In r (refs_of t) -> exists k, k < n /\ r_path r = base ++ [k].

Lemma traverse_crosses : forall m cs tcs, type_cross_scopes m cs = Ok tcs ->
  Forall2 (fun (c : string * tcross) s => exists refs, s = record_cross (fst c) None refs (tc_bins (snd c)) /\
             map r_name refs = tc_points (snd c) /\ Forall (fun r => dget (r_name r) m = Some (r_path r)) refs) cs tcs.
Proof.
  intros m cs tcs H. unfold type_cross_scopes in H. apply traverse_ok in H. eapply Forall2_imp; [|exact H].
  intros c s E. cbn in E. apply rbind_ok in E as (refs & Hr & E). injection E as <-. apply resolve_ok in Hr as [E F]. now exists refs.
Qed.

Lemma dget_nodup : forall A (m : dict A) n v, NoDup (dkeys m) -> In (n, v) m -> dget n m = Some v.
Proof.
  induction m as [|[k x] m IH]; intros n v N I; [contradiction|]. inversion N as [|? ? N1 N2]; subst. cbn. destruct I as [E|I].
  - injection E as -> ->. now rewrite String.eqb_refl.
  - destruct (String.eqb_spec n k) as [->|_]; [|now apply IH]. exfalso. apply N1. apply in_map_iff. now exists (k, v).
Qed.

Definition group_refs (base : handle) (tps tcs ins : list scope) (is : list yinst) : Prop :=
  (forall t r, In t tcs -> In r (refs_of t) -> exists k s, r_path r = base ++ [k] /\ nth_error tps k = Some s /\ s_name s = r_name r) /\
  (forall before i after, is = before ++ i :: after -> exists s, nth_error ins (List.length before) = Some s /\
     forall c r, In c (s_kids s) -> In r (refs_of c) -> ref_ok base (tps ++ tcs) before i r).

Theorem covergroup_recorded : forall base g s, Forall full_inst (insts_of g) -> process_covergroup base g = Ok s ->
  s_name s = yg_name g /\ s_type s = COVERGROUP /\ s_weight s = weight_of g /\ s_items s = [] /\
  exists tps tcs ins, s_kids s = tps ++ tcs ++ ins /\
    map s_name tps = nub (map yp_name (all_points (insts_of g))) /\
    map s_name tcs = nub (map yc_name (all_crosses (insts_of g))) /\
    Forall (fun t => type_point_ok (named yp_name (s_name t) (all_points (insts_of g))) t) tps /\
    Forall (fun t => s_items t = y_bins 1 CVGBIN (Some (fold_left point_pure (named yp_name (s_name t) (all_points (insts_of g))) [])) /\ refs_of t = []) tps /\
    Forall (fun t => type_cross_ok (named yc_name (s_name t) (all_crosses (insts_of g))) t) tcs /\
    Forall2 (YamlSpec.recorded_inst (weight_of g)) (insts_of g) ins /\
    group_refs base tps tcs ins (insts_of g).
Proof.
  intros base g s F H. unfold process_covergroup in H. fold (weight_of g) in H. fold (insts_of g) in H.
  assert (FP : Forall (fun p => yp_bins p <> None) (all_points (insts_of g))).
  { apply Forall_forall. intros p I. apply in_flat_map in I as (i & Ii & Ip). rewrite Forall_forall in F. destruct (F i Ii) as [A _]. rewrite Forall_forall in A. auto. }
  assert (FC : Forall (fun c => yc_points c <> None) (all_crosses (insts_of g))).
  { apply Forall_forall. intros p I. apply in_flat_map in I as (i & Ii & Ip). rewrite Forall_forall in F. destruct (F i Ii) as [_ A]. rewrite Forall_forall in A. auto. }
  apply rbind_ok in H as ([ps cs] & H1 & H). apply type_inst_split in H1 as [HP HC]. apply rbind_ok in H as (tcs & HT & H).
  destruct (yg_insts g) as [is|] eqn:EI; [|discriminate]. apply rbind_ok in H as ([m kids] & HI & H). injection H as <-.
  assert (EIs : insts_of g = is) by (unfold insts_of; now rewrite EI). rewrite EIs in *.
  destruct (points_fold _ FP) as (ps' & HP' & KP & GP). rewrite HP in HP'. injection HP' as <-.
  rewrite (fold_res_ext _ _ _ (gstep yc_name cross_step)) in HC by apply type_cross_gstep. destruct (grouped_inv _ _ _ _ HC) as [KC GC].
  destruct (insts_inv _ _ _ _ _ _ HI) as (_ & ins & -> & L & A).
  repeat (split; [reflexivity|]). exists (type_point_scopes ps), tcs, ins. split; [cbn; now rewrite <- app_assoc|].
  apply traverse_crosses in HT.
  assert (NP : map s_name (type_point_scopes ps) = dkeys ps) by (unfold type_point_scopes, dkeys; rewrite map_map; reflexivity).
  assert (NC : map s_name tcs = dkeys cs).
  { unfold dkeys. clear -HT. induction HT as [|c s cs tcs (refs & -> & _) H IH]; [reflexivity|]. cbn. now f_equal. }
  split; [now rewrite NP|]. split; [now rewrite NC|].
  assert (TP : forall t, In t (type_point_scopes ps) -> exists n tp, t = record_point n None (t_bins tp) (t_ignore tp) (t_illegal tp) /\ clean tp /\
                t_bins tp = Some (fold_left point_pure (named yp_name n (all_points is)) [])).
  { intros t I. unfold type_point_scopes in I. apply in_map_iff in I as ([n tp] & <- & I). cbn [fst snd].
    exists n, tp. split; [reflexivity|]. specialize (GP n). rewrite (dget_nodup _ ps n tp) in GP; [exact GP| |assumption]. rewrite KP. apply nub_NoDup. }
  split; [|split].
  - apply Forall_forall. intros t I. destruct (TP t I) as (n & tp & -> & [C1 C2] & B). cbn [s_name s_attrs record_point a_name new_coverpoint new_scope mk_attrs].
    split; [reflexivity|]. split; [reflexivity|]. split; [reflexivity|]. intros PL. unfold record_point. cbn [s_items]. unfold y_bins at 2 3. rewrite C1, C2, B. cbn [map app].
    rewrite app_nil_r. change (@nil ybin) with (summed []). rewrite pure_plain by exact PL. apply sums_summed.
  - apply Forall_forall. intros t I. destruct (TP t I) as (n & tp & -> & [C1 C2] & B). split; [|reflexivity]. unfold record_point. cbn [s_items s_name s_attrs a_name new_coverpoint new_scope mk_attrs].
    unfold y_bins at 2 3. rewrite C1, C2, B. cbn [map app]. now rewrite app_nil_r.
  - split; [|split].
    + apply Forall_forall. intros t I. destruct (Forall2_in_r _ HT I) as ([n tc] & Ic & refs & -> & E & _). cbn [fst snd] in *.
      cbn [s_name s_attrs record_cross a_name new_cross new_scope mk_attrs].
      specialize (GC n). rewrite (dget_nodup _ cs n tc) in GC; [|rewrite KC; apply nub_NoDup|assumption].
      apply cross_gfold in GC; [|now apply Forall_filter]. destruct (named yc_name n (all_crosses is)) as [|c l] eqn:EN; [discriminate|].
      split; [reflexivity|]. split; [reflexivity|]. split; [reflexivity|]. cbn [refs_of s_cls a_cls s_items].
      destruct (yc_bins c) as [bs|] eqn:EB.
      * injection GC as ->. cbn [tc_points tc_bins] in *. split; [exists c, l; split; [reflexivity|exact E]|]. apply sums_summed.
      * destruct GC as [Fl GC]. injection GC as ->. cbn [tc_points tc_bins] in *. split; [exists c, l; split; [reflexivity|exact E]|].
        assert (flat_map (fun c => opt_list (yc_bins c)) (c :: l) = []) as ->.
        { cbn. rewrite EB. cbn. clear -Fl. induction Fl as [|x l H F IH]; [reflexivity|]. cbn. now rewrite H. }
        constructor.
    + apply positional; [assumption|]. intros before i after E. destruct (A before i after E) as (s & N & P & _). now exists s.
    + split.
      * intros t r It Ir. destruct (Forall2_in_r _ HT It) as ([n tc] & Ic & refs & -> & _ & FR). cbn in Ir. rewrite Forall_forall in FR. specialize (FR r Ir).
        destruct (in_dec string_dec (r_name r) (dkeys ps)) as [I|I]; [|rewrite positions_out in FR by assumption; discriminate].
        destruct (positions_in base (dkeys ps) 0 [] (r_name r) I) as (j & Ej & G). rewrite FR in G. injection G as G.
        rewrite <- NP in Ej. rewrite nth_error_map in Ej. destruct (nth_error (type_point_scopes ps) j) as [sc|] eqn:EN; [|discriminate]. injection Ej as Ej.
        exists j, sc. split; [assumption|]. now split.
      * intros before i after E. destruct (A before i after E) as (s & N & _ & Q). now exists s.
Qed.

Lemma first_named : forall n cs c l, named yc_name n cs = c :: l -> In c cs.
Proof. intros n cs c l E. assert (I : In c (named yc_name n cs)) by (rewrite E; now left). unfold named in I. apply filter_In in I. tauto. Qed.

Theorem covergroup_loads : forall base g, Forall full_inst (insts_of g) -> ((exists s, process_covergroup base g = Ok s) <-> loadable_group g).
Proof.
  intros base g F.
  assert (FP : Forall (fun p => yp_bins p <> None) (all_points (insts_of g))).
  { apply Forall_forall. intros p I. apply in_flat_map in I as (i & Ii & Ip). rewrite Forall_forall in F. destruct (F i Ii) as [A _]. rewrite Forall_forall in A. auto. }
  assert (FC : Forall (fun c => yc_points c <> None) (all_crosses (insts_of g))).
  { apply Forall_forall. intros p I. apply in_flat_map in I as (i & Ii & Ip). rewrite Forall_forall in F. destruct (F i Ii) as [_ A]. rewrite Forall_forall in A. auto. }
  assert (FN : forall n, Forall (fun c => yc_points c <> None) (named yc_name n (all_crosses (insts_of g)))) by (intros; now apply Forall_filter).
  assert (XC : (exists cs, fold_res type_cross (all_crosses (insts_of g)) [] = Ok cs) <->
               forall n c cs, named yc_name n (all_crosses (insts_of g)) = c :: cs -> yc_bins c = None -> Forall (fun c' => opt_list (yc_bins c') = []) cs).
  { rewrite (fold_res_ext _ _ _ (gstep yc_name cross_step)) by apply type_cross_gstep. rewrite grouped_ok. split.
    - intros H n c cs E B. destruct (H n) as [o O]. apply cross_gfold in O; [|apply FN]. rewrite E, B in O. tauto.
    - intros H n. specialize (FN n). specialize (H n). destruct (named yc_name n (all_crosses (insts_of g))) as [|c cs] eqn:E.
      + exists None. reflexivity.
      + destruct (yc_bins c) as [bs|] eqn:B.
        * eexists. apply cross_gfold; [assumption|]. rewrite B. reflexivity.
        * eexists. apply cross_gfold; [assumption|]. rewrite B. split; [|reflexivity]. exact (H c cs eq_refl B). }
  unfold process_covergroup. fold (insts_of g). unfold loadable_group.
  destruct (points_fold _ FP) as (ps & HP & KP & GP). split.
  - intros [s H]. apply rbind_ok in H as ([ps' cs] & H1 & H). apply type_inst_split in H1 as [HP' HC]. apply rbind_ok in H as (tcs & HT & H).
    destruct (yg_insts g) as [is|] eqn:EI; [|discriminate]. apply rbind_ok in H as (st & HI & _).
    split; [discriminate|]. split; [|apply XC; now exists cs]. intros before i after c n E Ic In_.
    assert (EIs : insts_of g = is) by (unfold insts_of; now rewrite EI). rewrite EIs in *.
    apply (proj1 (insts_ok _ _ _ is F) (ex_intro _ _ HI) before i after E c n Ic In_).
  - intros (N & K & C). apply XC in C as [cs HC]. pose proof (proj2 (type_inst_split (insts_of g) [] [] ps cs) (conj HP HC)) as HX.
    match goal with |- context [fold_res type_inst ?l ?s] => replace (fold_res type_inst l s) with (@Ok (dict tpoint * dict tcross) (ps, cs)) by (symmetry; exact HX) end.
    cbn [rbind].
    rewrite (fold_res_ext _ _ _ (gstep yc_name cross_step)) in HC by apply type_cross_gstep. destruct (grouped_inv _ _ _ _ HC) as [KC GC].
    assert (exists tcs, type_cross_scopes (positions base 0 (dkeys ps) []) cs = Ok tcs) as [tcs ->].
    { unfold type_cross_scopes.
      assert (X : forall c, In c cs -> forall n, In n (tc_points (snd c)) -> dget n (positions base 0 (dkeys ps) []) <> None).
      { intros [m tc] Ic n In_. cbn [snd] in In_. specialize (GC m). rewrite (dget_nodup _ cs m tc) in GC; [|rewrite KC; apply nub_NoDup|assumption].
        apply cross_gfold in GC; [|apply FN]. destruct (named yc_name m (all_crosses (insts_of g))) as [|c l] eqn:E; [discriminate|].
        assert (PT : tc_points tc = opt_list (yc_points c)) by (destruct (yc_bins c); [injection GC as ->; reflexivity|destruct GC as [_ GC]; injection GC as ->; reflexivity]).
        rewrite PT in In_. pose proof (first_named _ _ _ _ E) as I. apply in_flat_map in I as (i & Ii & Ic').
        apply in_split in Ii as (before & after & Es). specialize (K before i after c n Es Ic' In_).
        assert (I : In n (dkeys ps)).
        { rewrite KP. apply nub_in. rewrite Es. unfold all_points in *. rewrite flat_map_app, map_app, in_app_iff in *. cbn in K |- *. rewrite app_nil_r in K.
          rewrite map_app, in_app_iff. tauto. }
        destruct (positions_in base (dkeys ps) 0 [] n I) as (j & _ & ->). discriminate. }
      clear -X. induction cs as [|c cs IH]; [eexists; reflexivity|]. cbn [traverse].
      destruct (proj2 (resolve_succeeds (positions base 0 (dkeys ps) []) (tc_points (snd c))) (X c (or_introl eq_refl))) as [refs ->]. cbn [rbind].
      destruct IH as [tcs ->]; [intros; eapply X; [right; eassumption|assumption]|]. eexists. reflexivity. }
    cbn [rbind]. destruct (yg_insts g) as [is|] eqn:EI; [|now contradiction N].
    assert (EIs : insts_of g = is) by (unfold insts_of; now rewrite EI). rewrite EIs in *.
    destruct (proj2 (insts_ok base match yg_weight g with Some w => w | None => 1%Z end (type_point_scopes ps ++ tcs) is F)) as [[m kids] HI];
      [|match goal with |- context [fold_res (record_inst ?b ?w) ?l ?s] => replace (fold_res (record_inst b w) l s) with (@Ok (dict handle * list scope) (m, kids)) by (symmetry; exact HI) end; eexists; reflexivity]. intros before i after E c n Ic In_. exact (K before i after c n E Ic In_).
Qed.

(** ** The database *)
Lemma groups_fold : forall gs cgs, fold_res (fun cgs g => let* s := process_covergroup [1; List.length cgs] g in Ok (cgs ++ [s])) gs [] = Ok cgs ->
  List.length cgs = List.length gs /\
  forall before g after, gs = before ++ g :: after -> exists s, nth_error cgs (List.length before) = Some s /\ process_covergroup [1; List.length before] g = Ok s.
Proof.
  induction gs as [|g gs IH] using rev_ind; intros cgs H.
  - injection H as <-. split; [reflexivity|]. intros [|? ?] ? ? E; discriminate.
  - rewrite fold_res_app in H. apply rbind_ok in H as (cgs0 & H0 & H). destruct (IH cgs0 H0) as [L A]. cbn [fold_res] in H.
    apply rbind_ok in H as (cgs1 & H1 & H). injection H as <-. apply rbind_ok in H1 as (s & Hs & H1). injection H1 as <-.
    split; [rewrite !app_length, L; reflexivity|]. intros before j after E. destruct after as [|z after _] using rev_ind.
    + apply app_inj_tail in E as [<- <-]. exists s. split; [|now rewrite <- L]. rewrite <- L, nth_error_app2 by lia. now rewrite Nat.sub_diag.
    + rewrite app_comm_cons, app_assoc in E. apply app_inj_tail in E as [E _]. destruct (A before j after E) as (s' & N & P). exists s'. split; [|assumption].
      rewrite nth_error_app1; [assumption|]. apply nth_error_Some. congruence.
Qed.
Lemma groups_ok : forall gs, Forall (fun g => Forall full_inst (insts_of g)) gs ->
  ((exists cgs, fold_res (fun cgs g => let* s := process_covergroup [1; List.length cgs] g in Ok (cgs ++ [s])) gs [] = Ok cgs) <-> Forall loadable_group gs).
Proof.
  induction gs as [|g gs IH] using rev_ind; intros F; [split; [constructor|eexists; reflexivity]|].
  apply Forall_app in F as [F1 F2]. inversion F2 as [|? ? F3 _]; subst. rewrite fold_res_app, Forall_app, <- (IH F1). split.
  - intros [cgs H]. apply rbind_ok in H as (cgs0 & H0 & H). split; [now exists cgs0|]. cbn [fold_res] in H. apply rbind_ok in H as (? & H & _).
    apply rbind_ok in H as (s & H & _). constructor; [|constructor]. apply (covergroup_loads [1; List.length cgs0] g F3). now exists s.
  - intros [[cgs0 ->] H]. inversion H as [|? ? H1 _]; subst. cbn [rbind fold_res]. apply (covergroup_loads [1; List.length cgs0] g F3) in H1 as [s ->]. eexists. reflexivity.
Qed.

Theorem loads_iff : forall v doc, jvalid coverage_schema v = true -> d_doc v = Ok doc -> ((exists d, load v = Ok d) <-> loadable doc).
Proof.
  intros v doc V D. destruct (valid_decodes v V) as (doc' & D' & F). rewrite D in D'. injection D' as <-. unfold load. rewrite V, D. cbn [rbind build].
  destruct doc as [gs|]; [|split; [intros [d E]; discriminate|contradiction]]. cbn [build loadable].
  assert (FG : Forall (fun g => Forall full_inst (insts_of g)) (opt_list gs)) by (destruct gs as [gs|]; [now apply F|constructor]).
  rewrite <- (groups_ok _ FG). split.
  - intros [d H]. apply rbind_ok in H as (cgs & H & _). now exists cgs.
  - intros [cgs ->]. eexists. reflexivity.
Qed.

(** What a loaded document leaves, covergroup by covergroup. *)
Theorem load_groups : forall v d, load v = Ok d ->
  exists gs cgs, d_doc v = Ok (Some gs) /\ Forall (fun g => Forall full_inst (insts_of g)) (opt_list gs) /\
    d = Db (Scope (s_attrs (db_root empty_db)) [] []
                [new_mem_scope "du" None 1 SRC_OTHER DU_MODULE DU_FLAGS;
                 Scope (s_attrs (new_instance "cg_inst" None 1 SRC_OTHER INSTANCE (Some [0]) INST_ONCE)) [] [] cgs]) [] [] /\
    List.length cgs = List.length (opt_list gs) /\
    forall before g after, opt_list gs = before ++ g :: after ->
      exists s, nth_error cgs (List.length before) = Some s /\ process_covergroup [1; List.length before] g = Ok s.
Proof.
  intros v d H. unfold load in H. destruct (jvalid coverage_schema v) eqn:V; [|discriminate]. destruct (valid_decodes v V) as (doc & D & F). rewrite D in H. cbn [rbind] in H.
  destruct doc as [gs|]; [|discriminate]. unfold build in H. apply rbind_ok in H as (cgs & H & E). injection E as <-. destruct (groups_fold _ _ H) as [L A].
  exists gs, cgs. split; [assumption|]. split; [destruct gs as [gs|]; [now apply F|constructor]|]. split; [reflexivity|]. now split.
Qed.
Theorem load_recorded : forall v gs d, load v = Ok d -> d_doc v = Ok (Some gs) -> recorded (opt_list gs) d.
Proof.
  intros v gs d H D. destruct (load_groups v d H) as (gs' & cgs & D' & F & -> & L & A). rewrite D in D'. injection D' as <-.
  split; [reflexivity|]. split; [reflexivity|]. eexists _, _. split; [reflexivity|]. repeat (split; [reflexivity|]). cbn [s_kids].
  apply positional; [assumption|]. intros before g after E. destruct (A before g after E) as (s & N & P). exists s. split; [assumption|].
  assert (Fg : Forall full_inst (insts_of g)) by (rewrite E in F; apply Forall_app in F as [_ F]; now inversion F).
  destruct (covergroup_recorded _ g s Fg P) as (P1 & P2 & P3 & P4 & tps & tcs & ins & K & N1 & N2 & Q1 & _ & Q2 & Q3 & _).
  repeat (split; [assumption|]). exists tps, tcs, ins. repeat (split; [assumption|]). assumption.
Qed.
