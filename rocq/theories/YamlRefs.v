(** Cross references and ignored bins of databases loaded from YAML. *)
From Verif Require Import Base Dict Consts Db NameSpec NubFacts BaseFacts Yaml YamlSpec YamlFacts YamlBuild.
Local Open Scope string_scope.
Local Open Scope list_scope.

Lemma nth_middle : forall A (a b c : list A) n x, nth_error b n = Some x -> nth_error (a ++ b ++ c) (List.length a + n) = Some x.
Proof.
  intros. rewrite nth_error_app2 by lia. replace (List.length a + n - List.length a) with n by lia.
  rewrite nth_error_app1; [assumption|]. apply nth_error_Some. congruence.
Qed.
Lemma Forall2_nth : forall A B (R : A -> B -> Prop) l l' n x, Forall2 R l l' -> nth_error l n = Some x -> exists y, nth_error l' n = Some y /\ R x y.
Proof.
  intros A B R l l' n x F. revert n. induction F as [|a b l l' H F IH]; intros [|n] E; cbn in *; try discriminate.
  - injection E as <-. now exists b.
  - now apply IH.
Qed.
Lemma Forall2_nth_r : forall A B (R : A -> B -> Prop) l l' n y, Forall2 R l l' -> nth_error l' n = Some y -> exists x, nth_error l n = Some x /\ R x y.
Proof.
  intros A B R l l' n y F. revert n. induction F as [|a b l l' H F IH]; intros [|n] E; cbn in *; try discriminate.
  - injection E as <-. now exists a.
  - now apply IH.
Qed.

(** The references of one covergroup, as addresses relative to it. *)
Definition own_ref (base : handle) (s : scope) (r : cpref) : Prop :=
  exists k p, r_path r = base ++ [k] /\ nth_error (s_kids s) k = Some p /\ s_type p = COVERPOINT /\ s_name p = r_name r.
Definition has_point (s : scope) (n : string) : Prop := exists p, In p (s_kids s) /\ s_type p = COVERPOINT /\ s_name p = n.

Lemma covergroup_refs : forall base g s, Forall full_inst (insts_of g) -> process_covergroup base g = Ok s ->
  (forall t r, In t (s_kids s) -> s_type t = CROSS -> In r (refs_of t) -> own_ref base s r) /\
  (forall q i c r, nth_error (s_kids s) q = Some i -> s_type i = COVERINSTANCE -> In c (s_kids i) -> In r (refs_of c) ->
     exists q' i', q' <= q /\ nth_error (s_kids s) q' = Some i' /\ s_type i' = COVERINSTANCE /\ own_ref (base ++ [q']) i' r /\
       (has_point i (r_name r) -> q' = q)).
Proof.
  intros base g s F H.
  destruct (covergroup_recorded _ _ _ F H) as (_ & _ & _ & _ & tps & tcs & ins & K & _ & _ & TP & TR & TC & FI & RT & RI).
  unfold own_ref. rewrite K. rewrite Forall_forall in TP, TR, TC. split.
  - intros t r It Ty Ir. apply in_app_or in It as [It|It].
    { destruct (TR t It) as [_ E]. rewrite E in Ir. contradiction. }
    apply in_app_or in It as [It|It].
    + destruct (RT t r It Ir) as (k & p & P & N & E). exists k, p. split; [assumption|].
      split; [rewrite nth_error_app1; [assumption|apply nth_error_Some; congruence]|].
      destruct (TP p (nth_error_In _ _ N)) as (T & _). now split.
    + destruct (Forall2_in_r _ FI It) as (i & _ & _ & T & _). rewrite Ty in T. discriminate.
  - intros q i c r Nq Ty Ic Ir. rewrite app_assoc in Nq |- *.
    destruct (Nat.lt_ge_cases q (List.length (tps ++ tcs))) as [Lt|Ge].
    { exfalso. rewrite nth_error_app1 in Nq by assumption. apply nth_error_In in Nq. apply in_app_or in Nq as [I|I].
      - destruct (TP i I) as (T & _). rewrite Ty in T. discriminate.
      - destruct (TC i I) as (T & _). rewrite Ty in T. discriminate. }
    rewrite nth_error_app2 in Nq by assumption. destruct (Forall2_nth_r _ _ _ _ _ _ _ FI Nq) as (yi & Ni & Ri).
    apply nth_error_split in Ni as (before & after & E & L). destruct (RI before yi after E) as (i0 & N0 & Q). rewrite L, Nq in N0. injection N0 as <-.
    destruct (Q c r Ic Ir) as (a & yi' & b & k & Es & Nk & P & Own).
    assert (Ea : exists b', insts_of g = a ++ yi' :: b').
    { exists (b ++ after). rewrite E. change (yi :: after) with ([yi] ++ after). rewrite app_assoc, Es, <- app_assoc. reflexivity. }
    destruct Ea as [b' Ea].
    assert (N' : nth_error (insts_of g) (List.length a) = Some yi') by (rewrite Ea, nth_error_app2, Nat.sub_diag by lia; reflexivity).
    destruct (Forall2_nth _ _ _ _ _ _ _ FI N') as (i' & Ni' & Ri'). destruct Ri' as (_ & T' & _ & _ & ps & cs & K' & FP & _).
    assert (Lab : List.length a + List.length b = List.length before).
    { apply (f_equal (@List.length yinst)) in Es. rewrite !app_length in Es. cbn in Es. lia. }
    exists (List.length (tps ++ tcs) + List.length a), i'. split; [lia|].
    split; [rewrite nth_error_app2 by lia; rewrite <- Ni'; f_equal; lia|]. split; [assumption|]. split.
    + rewrite nth_error_map in Nk. destruct (nth_error (points_of yi') k) as [yp|] eqn:Ek; [|discriminate]. injection Nk as Nk.
      destruct (Forall2_nth _ _ _ _ _ _ _ FP Ek) as (p & Ep & N1 & T1 & _). exists k, p. split; [rewrite P, <- app_assoc; reflexivity|].
      split; [rewrite K', nth_error_app1; [assumption|apply nth_error_Some; congruence]|]. split; [assumption|congruence].
    + intros (p & Ip & Tp & Np). destruct Ri as (_ & _ & _ & _ & ps1 & cs1 & K1 & FP1 & FC1). rewrite K1 in Ip. apply in_app_or in Ip as [Ip|Ip].
      * destruct (Forall2_in_r _ FP1 Ip) as (yp & Iy & N1 & _). rewrite Own in Lab; [cbn in Lab; lia|]. apply in_map_iff. exists yp. split; [congruence|assumption].
      * destruct (Forall2_in_r _ FC1 Ip) as (yc & _ & _ & T1 & _). rewrite Tp in T1. discriminate.
Qed.

Lemma get_at_app : forall h1 h2 s, get_at s (h1 ++ h2) = match get_at s h1 with Some x => get_at x h2 | None => None end.
Proof. induction h1 as [|k h1 IH]; intros h2 s; [reflexivity|]. cbn. destruct (nth_error (s_kids s) k); [apply IH|reflexivity]. Qed.
Lemma own_refers : forall root base s r, get_at root base = Some s -> own_ref base s r -> refers_within root base r.
Proof.
  intros root base s r G (k & p & P & N & T & E). exists k, p. split; [assumption|]. split; [|now split].
  rewrite P, get_at_app, G. cbn. now rewrite N.
Qed.

(** The crosses of a loaded database. *)
Theorem load_references : forall v d j g, load v = Ok d -> get_at (db_root d) [1; j] = Some g ->
  (forall t r, In t (s_kids g) -> s_type t = CROSS -> In r (refs_of t) -> refers_within (db_root d) [1; j] r) /\
  (forall q i c r, nth_error (s_kids g) q = Some i -> s_type i = COVERINSTANCE -> In c (s_kids i) -> In r (refs_of c) ->
     exists q', q' <= q /\ refers_within (db_root d) [1; j; q'] r /\
       (exists i', nth_error (s_kids g) q' = Some i' /\ s_type i' = COVERINSTANCE) /\
       (has_point i (r_name r) -> q' = q)).
Proof.
  intros v d j g H G. destruct (load_groups v d H) as (gs & cgs & D & F & Ed & L & A).
  assert (Nj : nth_error cgs j = Some g).
  { rewrite Ed in G. cbn in G. destruct (nth_error cgs j); [assumption|discriminate]. }
  assert (X : exists yg, nth_error (opt_list gs) j = Some yg).
  { destruct (nth_error (opt_list gs) j) eqn:E; [eauto|]. apply nth_error_None in E. rewrite <- L in E. apply nth_error_None in E. congruence. }
  destruct X as [yg Ny]. apply nth_error_split in Ny as (before & after & E & Lb). destruct (A before yg after E) as (g' & N & P). rewrite Lb in N, P.
  rewrite Nj in N. injection N as <-.
  assert (Fg : Forall full_inst (insts_of yg)) by (rewrite E in F; apply Forall_app in F as [_ F]; now inversion F).
  destruct (covergroup_refs _ _ _ Fg P) as [R1 R2]. split.
  - intros t r It Tt Ir. apply (own_refers _ _ g); [assumption|]. exact (R1 t r It Tt Ir).
  - intros q i c r Nq Ti Ic Ir. destruct (R2 q i c r Nq Ti Ic Ir) as (q' & i' & Le & N' & T' & O & Own). exists q'. split; [assumption|].
    split; [|split; [now exists i'|assumption]]. apply (own_refers _ [1; j; q'] i'); [|exact O].
    change [1; j; q'] with ([1; j] ++ [q']). rewrite get_at_app, G. cbn. now rewrite N'.
Qed.

(** ** Coverpoints with ignore and illegal bins *)
Definition every_bin (p : ypoint) : list ybin := opt_list (yp_bins p) ++ opt_list (yp_ignore p) ++ opt_list (yp_illegal p).

Lemma bump_total : forall n c l, found n l = true -> sumZ (map yb_count (bump n c l)) = (sumZ (map yb_count l) + c)%Z /\ map yb_name (bump n c l) = map yb_name l.
Proof.
  intros n c. induction l as [|b l IH]; intros H; [discriminate|]. cbn in *. unfold seqb in *. destruct (String.eqb_spec (yb_name b) n) as [E|E].
  - cbn. split; [lia|reflexivity].
  - cbn in H. destruct (IH H) as [S N]. cbn. split; [unfold sumZ in S; lia|congruence].
Qed.
Lemma tally_total : forall bs l, sumZ (map yb_count (fold_left tally_bin bs l)) = (sumZ (map yb_count l) + sumZ (map yb_count bs))%Z /\
  forall n, In n (map yb_name (fold_left tally_bin bs l)) <-> In n (map yb_name l) \/ In n (map yb_name bs).
Proof.
  induction bs as [|b bs IH]; intros l; [split; [unfold sumZ; cbn; lia|cbn; tauto]|]. cbn [fold_left]. destruct (IH (tally_bin l b)) as [S N]. rewrite S.
  unfold tally_bin in *. destruct (found (yb_name b) l) eqn:E.
  - destruct (bump_total _ (yb_count b) l E) as [S' N']. rewrite S'. split; [unfold sumZ; cbn; lia|]. intros n. rewrite N, N'. cbn.
    rewrite found_in in E. apply sinb_in in E. split; [tauto|]. intros [A|[A|A]]; subst; tauto.
  - rewrite map_app, sumZ_app. cbn. split; [unfold sumZ; lia|]. intros n. rewrite N, map_app, in_app_iff. cbn. tauto.
Qed.
Lemma pure_total : forall ps l, sumZ (map yb_count (fold_left point_pure ps l)) = (sumZ (map yb_count l) + sumZ (map yb_count (flat_map every_bin ps)))%Z /\
  forall n, In n (map yb_name (fold_left point_pure ps l)) <-> In n (map yb_name l) \/ In n (map yb_name (flat_map every_bin ps)).
Proof.
  induction ps as [|p ps IH]; intros l; [split; [unfold sumZ; cbn; lia|cbn; tauto]|]. cbn [fold_left flat_map]. destruct (IH (point_pure l p)) as [S N]. rewrite S.
  destruct (tally_total (opt_list (yp_bins p)) l) as [S' N']. unfold point_pure, every_bin. split.
  - rewrite !map_app, !sumZ_app, S'. lia.
  - intros n. rewrite N. unfold point_pure. rewrite !map_app, !in_app_iff, N'. tauto.
Qed.

(** The coverpoint of the type: only normal bins, with every name of every bin of
    any kind, and the sum of all the counts. *)
Definition mixed (ps : list ypoint) (t : scope) : Prop :=
  Forall (fun x => cd_type (ci_data x) = CVGBIN /\ cd_at_least (ci_data x) = Some 1%Z) (s_items t) /\
  sumZ (map (fun x => cd_data (ci_data x)) (s_items t)) = sumZ (map yb_count (flat_map every_bin ps)) /\
  forall n, In n (map ci_name (s_items t)) <-> In n (map yb_name (flat_map every_bin ps)).

Theorem type_points_mixed : forall base g s, Forall full_inst (insts_of g) -> process_covergroup base g = Ok s ->
  Forall (fun t => s_type t = COVERPOINT -> mixed (named yp_name (s_name t) (all_points (insts_of g))) t) (s_kids s).
Proof.
  intros base g s F H.
  destruct (covergroup_recorded _ _ _ F H) as (_ & _ & _ & _ & tps & tcs & ins & K & _ & _ & _ & TR & TC & FI & _).
  rewrite K. apply Forall_app. split; [|apply Forall_app; split].
  - eapply Forall_impl; [|exact TR]. intros t [E _] _. unfold mixed. rewrite E. unfold y_bins. cbn [opt_list].
    destruct (pure_total (named yp_name (s_name t) (all_points (insts_of g))) []) as [S N]. split; [|split].
    + apply Forall_forall. intros x I. apply in_map_iff in I as (b & <- & _). now split.
    + rewrite map_map. cbn [ci_data cd_data new_bin]. rewrite <- (Z.add_0_l (sumZ (map yb_count (flat_map _ _)))). exact S.
    + intros n. rewrite map_map. cbn [ci_name new_bin]. rewrite (N n). cbn. tauto.
  - eapply Forall_impl; [|exact TC]. intros t (T & _) E. rewrite E in T. discriminate.
  - apply Forall_forall. intros t I E. destruct (Forall2_in_r _ FI I) as (i & _ & _ & T & _). rewrite E in T. discriminate.
Qed.
