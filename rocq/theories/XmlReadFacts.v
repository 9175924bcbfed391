(** What the reader builds, for every document. *)
From Verif Require Import Base Dict Consts Db Hist Report ReportSpec NameSpec NubFacts MergeSpec BaseFacts ReportFacts
  PyInt Xml XmlReader XmlSpec.
Local Open Scope string_scope.
Local Open Scope list_scope.

Definition count_of (i : item) : Z := cd_data (ci_data i).

(** ** Tallies *)
Definition tally_item (m : dict (N * Z)) (i : item) : dict (N * Z) :=
  tally m (ci_name i) (cd_type (ci_data i)) (count_of i).
Definition tally_all (l : list item) : dict (N * Z) := fold_left tally_item l [].
Definition tally_xitem (m : dict Z) (i : item) : dict Z := tally_cross m (ci_name i) (count_of i).
Definition tally_xall (l : list item) : dict Z := fold_left tally_xitem l [].

Lemma named_snoc : forall A (name : A -> string) n l x,
  named name n (l ++ [x]) = named name n l ++ (if String.eqb n (name x) then [x] else []).
Proof. intros. unfold named. rewrite filter_app. cbn. now destruct (String.eqb n (name x)). Qed.

Lemma named_app : forall A (name : A -> string) n l l', named name n (l ++ l') = named name n l ++ named name n l'.
Proof. intros. unfold named. apply filter_app. Qed.

Lemma named_in_names : forall A (name : A -> string) n l, named name n l <> [] <-> In n (map name l).
Proof.
  intros A name n l. split.
  - intros H. destruct (named name n l) as [|x y] eqn:E; [easy|]. assert (In x (named name n l)) as I by (rewrite E; now left).
    unfold named in I. apply filter_In in I as [I Q]. apply String.eqb_eq in Q. subst. now apply in_map.
  - intros H E. apply in_map_iff in H as (x & <- & I).
    assert (In x (named name (name x) l)) as J by (apply filter_In; split; [assumption|apply String.eqb_refl]).
    rewrite E in J. destruct J.
Qed.

Definition sum_counts (l : list item) : Z := sumZ (map count_of l).

Lemma sum_counts_snoc : forall l i, sum_counts (l ++ [i]) = (sum_counts l + count_of i)%Z.
Proof. intros. unfold sum_counts. rewrite map_app, sumZ_app. cbn. lia. Qed.

Lemma dmem_dget : forall V k (d : dict V), dmem k d = match dget k d with Some _ => true | None => false end.
Proof. reflexivity. Qed.

Lemma tally_spec : forall l,
  dkeys (tally_all l) = nub (map ci_name l) /\
  forall n, dget n (tally_all l) =
            match named ci_name n l with
            | [] => None
            | x :: y => Some (cd_type (ci_data x), sum_counts (x :: y))
            end.
Proof.
  induction l as [|i l IH] using rev_ind; [split; [reflexivity|intros; reflexivity]|].
  destruct IH as [IK IG]. unfold tally_all in *. rewrite fold_left_app. cbn [fold_left].
  set (m := fold_left tally_item l []) in *. unfold tally_item, tally.
  assert (M : dmem (ci_name i) m = sinb (ci_name i) (map ci_name l)).
  { destruct (sinb (ci_name i) (map ci_name l)) eqn:E.
    - apply dget_in. rewrite IK. apply nub_in. now apply sinb_in.
    - destruct (dmem (ci_name i) m) eqn:D; [|reflexivity]. apply dget_in in D. rewrite IK in D. apply (proj1 (nub_in _ _)) in D.
      apply sinb_in in D. congruence. }
  split.
  - rewrite map_app. cbn [map]. rewrite nub_snoc, <- M. rewrite <- IK.
    destruct (dget (ci_name i) m) as [[k c]|] eqn:G; rewrite dkeys_dset; reflexivity.
  - intros n. rewrite named_snoc. destruct (String.eqb_spec n (ci_name i)) as [->|Hn].
    + rewrite (IG (ci_name i)).
      destruct (named ci_name (ci_name i) l) as [|x y]; cbn [app]; rewrite dget_dset_same.
      * unfold sum_counts. cbn. do 2 f_equal. lia.
      * do 2 f_equal. change (x :: y ++ [i]) with ((x :: y) ++ [i]). now rewrite sum_counts_snoc.
    + rewrite app_nil_r, <- IG.
      destruct (dget (ci_name i) m) as [[k c]|]; now rewrite dget_dset_other.
Qed.

Lemma tally_xspec : forall l,
  dkeys (tally_xall l) = nub (map ci_name l) /\
  forall n, dget n (tally_xall l) =
            match named ci_name n l with
            | [] => None
            | x :: y => Some (sum_counts (x :: y))
            end.
Proof.
  induction l as [|i l IH] using rev_ind; [split; [reflexivity|intros; reflexivity]|].
  destruct IH as [IK IG]. unfold tally_xall in *. rewrite fold_left_app. cbn [fold_left].
  set (m := fold_left tally_xitem l []) in *. unfold tally_xitem, tally_cross.
  assert (M : dmem (ci_name i) m = sinb (ci_name i) (map ci_name l)).
  { destruct (sinb (ci_name i) (map ci_name l)) eqn:E.
    - apply dget_in. rewrite IK. apply nub_in. now apply sinb_in.
    - destruct (dmem (ci_name i) m) eqn:D; [|reflexivity]. apply dget_in in D. rewrite IK in D. apply (proj1 (nub_in _ _)) in D.
      apply sinb_in in D. congruence. }
  split.
  - rewrite map_app. cbn [map]. rewrite nub_snoc, <- M. rewrite <- IK.
    destruct (dget (ci_name i) m) as [c|] eqn:G; rewrite dkeys_dset; reflexivity.
  - intros n. rewrite named_snoc. destruct (String.eqb_spec n (ci_name i)) as [->|Hn].
    + rewrite (IG (ci_name i)).
      destruct (named ci_name (ci_name i) l) as [|x y]; cbn [app]; rewrite dget_dset_same.
      * unfold sum_counts. cbn. f_equal. lia.
      * f_equal. change (x :: y ++ [i]) with ((x :: y) ++ [i]). now rewrite sum_counts_snoc.
    + rewrite app_nil_r, <- IG.
      destruct (dget (ci_name i) m) as [c|]; now rewrite dget_dset_other.
Qed.

Lemma dget_entry : forall V (d : dict V) k v, NoDup (dkeys d) -> In (k, v) d -> dget k d = Some v.
Proof.
  induction d as [|[k' v'] d IH]; intros k v N I; [destruct I|]. cbn in N. inversion N as [|? ? N1 N2]; subst.
  cbn. destruct I as [E|I].
  - injection E as -> ->. now rewrite String.eqb_refl.
  - destruct (String.eqb_spec k k') as [->|]; [|now apply IH]. exfalso. apply N1. unfold dkeys.
    apply in_map_iff. now exists (k', v).
Qed.

Lemma type_bins_sum : forall l t, s_items t = type_bins (tally_all l) -> sums_bins t l.
Proof.
  intros l t E. destruct (tally_spec l) as [K G]. unfold sums_bins. rewrite E. split.
  - unfold type_bins. rewrite map_map. cbn [ci_name new_bin]. exact K.
  - unfold type_bins. apply Forall_forall. intros b I. apply in_map_iff in I as ([n [k c]] & <- & I).
    apply dget_entry in I; [|rewrite K; apply nub_NoDup]. rewrite G in I. cbn [ci_name new_bin fst snd ci_data cd_data cd_type].
    destruct (named ci_name n l) as [|x y]; [discriminate|]. injection I as <- <-. split; [reflexivity|]. now exists x, y.
Qed.

Lemma type_cross_bins_sum : forall l t, Forall (fun i => cd_type (ci_data i) = CVGBIN) l ->
  s_items t = type_cross_bins (tally_xall l) -> sums_bins t l.
Proof.
  intros l t F E. destruct (tally_xspec l) as [K G]. unfold sums_bins. rewrite E. split.
  - unfold type_cross_bins. rewrite map_map. cbn [ci_name new_bin]. exact K.
  - unfold type_cross_bins. apply Forall_forall. intros b I. apply in_map_iff in I as ([n c] & <- & I).
    apply dget_entry in I; [|rewrite K; apply nub_NoDup]. rewrite G in I. cbn [ci_name new_bin fst snd ci_data cd_data cd_type].
    destruct (named ci_name n l) as [|x y] eqn:N; [discriminate|]. injection I as <-. split; [reflexivity|]. exists x, y.
    split; [reflexivity|]. symmetry. rewrite Forall_forall in F. apply F.
    assert (In x (named ci_name n l)) as J by (rewrite N; now left). now apply filter_In in J.
Qed.

(** ** Bins *)
Lemma read_bins_tally : forall es items m items' m',
  fold_res read_bin es (items, m) = Ok (items', m') ->
  exists new, items' = items ++ new /\ m' = fold_left tally_item new m /\
    Forall (fun i => exists n c k, i = new_bin n None 1 c k /\ (k = CVGBIN \/ k = IGNOREBIN \/ k = ILLEGALBIN)) new.
Proof.
  induction es as [|e es IH]; intros items m items' m' H; cbn [fold_res] in H.
  - injection H as <- <-. exists []. now rewrite app_nil_r.
  - apply rbind_ok in H as ([i1 m1] & H1 & H). apply IH in H as (new & -> & -> & F).
    unfold read_bin in H1. apply rbind_ok in H1 as (c & _ & H1). apply rbind_ok in H1 as (k & Hk & H1).
    apply rbind_ok in H1 as (z & _ & H1). injection H1 as <- <-.
    eexists (new_bin _ None 1 z k :: new). rewrite <- app_assoc. split; [reflexivity|]. split; [reflexivity|].
    constructor; [|assumption]. do 3 eexists. split; [reflexivity|].
    unfold bin_kind_of in Hk. destruct (_ || _)%bool in Hk; [injection Hk as <-; auto|].
    destruct (seqb _ _) in Hk; [injection Hk as <-; auto|].
    destruct (seqb _ _) in Hk; [injection Hk as <-; auto|discriminate].
Qed.

Lemma read_cross_bins_tally : forall es items m items' m',
  fold_res read_cross_bin es (items, m) = Ok (items', m') ->
  exists new, items' = items ++ new /\ m' = fold_left tally_xitem new m /\
    Forall (fun i => exists n c, i = new_bin n None 1 c CVGBIN) new.
Proof.
  induction es as [|e es IH]; intros items m items' m' H; cbn [fold_res] in H.
  - injection H as <- <-. exists []. now rewrite app_nil_r.
  - apply rbind_ok in H as ([i1 m1] & H1 & H). apply IH in H as (new & -> & -> & F).
    unfold read_cross_bin in H1. apply rbind_ok in H1 as (c & _ & H1).
    apply rbind_ok in H1 as (z & _ & H1). injection H1 as <- <-.
    eexists (new_bin _ None 1 z CVGBIN :: new). rewrite <- app_assoc. split; [reflexivity|]. split; [reflexivity|].
    constructor; [|assumption]. do 2 eexists. reflexivity.
Qed.

(** ** Slots and invariants *)
Definition slot_points (l : list slot) : list string :=
  flat_map (fun s => match s with SPoint n => [n] | _ => [] end) l.
Definition slot_crosses (l : list slot) : list (string * list cpref) :=
  flat_map (fun s => match s with SCross n r => [(n, r)] | _ => [] end) l.
Definition slot_insts (l : list slot) : list scope :=
  flat_map (fun s => match s with SInst c => [c] | _ => [] end) l.

Definition is_point (s : scope) : Prop := exists n items, s = point_scope n items.
Definition is_cross (s : scope) : Prop :=
  exists n refs items, s = cross_scope n refs items /\ Forall (fun i => cd_type (ci_data i) = CVGBIN) items.

Definition point_inv (sl : list slot) (cps : cp_map) (P : list scope) : Prop :=
  dkeys cps = nub (map s_name P) /\ slot_points sl = dkeys cps /\
  forall n pos m, dget n cps = Some (pos, m) ->
    nth_error sl pos = Some (SPoint n) /\ m = tally_all (flat_map s_items (named s_name n P)).

Definition good_ref (base : handle) (sl : list slot) (r : cpref) : Prop :=
  exists i, r_path r = base ++ [i] /\ nth_error sl i = Some (SPoint (r_name r)).

Definition cross_inv (base : handle) (sl : list slot) (crs : cr_map) (C : list scope) : Prop :=
  dkeys crs = nub (map s_name C) /\ map fst (slot_crosses sl) = dkeys crs /\
  (forall n m, dget n crs = Some m -> m = tally_xall (flat_map s_items (named s_name n C))) /\
  forall n refs, In (n, refs) (slot_crosses sl) ->
    Forall (good_ref base sl) refs /\
    exists x y, named s_name n C = x :: y /\ crossed_names x = map r_name refs.

Lemma flat_map_snoc : forall A B (f : A -> list B) l x, flat_map f (l ++ [x]) = flat_map f l ++ f x.
Proof. intros. rewrite flat_map_app. cbn. now rewrite app_nil_r. Qed.

Lemma nth_error_app_some : forall A (l l' : list A) i x, nth_error l i = Some x -> nth_error (l ++ l') i = Some x.
Proof. intros A l l' i x H. rewrite nth_error_app1; [assumption|]. apply nth_error_Some. congruence. Qed.

Lemma good_ref_more : forall base sl sl' r, good_ref base sl r -> good_ref base (sl ++ sl') r.
Proof. intros base sl sl' r (i & P & N). exists i. split; [assumption|]. now apply nth_error_app_some. Qed.

(** One coverpoint. *)
Lemma read_coverpoint_inv : forall slots x base k st e st' P C,
  k = List.length slots -> read_coverpoint k st e = Ok st' ->
  point_inv (slots ++ SInst x :: i_new st) (i_cps st) P ->
  cross_inv base (slots ++ SInst x :: i_new st) (i_crs st) C ->
  exists items,
    let p := point_scope (get_attr_or "name" "<unknown>" e) items in
    i_kids st' = i_kids st ++ [p] /\ i_crs st' = i_crs st /\
    i_pos st' = dset (s_name p) (List.length (i_kids st)) (i_pos st) /\
    point_inv (slots ++ SInst x :: i_new st') (i_cps st') (P ++ [p]) /\
    cross_inv base (slots ++ SInst x :: i_new st') (i_crs st') C.
Proof.
  intros slots x base k st e st' P C -> H (PK & PS & PG) CI.
  unfold read_coverpoint in H. set (name := get_attr_or "name" "<unknown>" e) in *.
  destruct (dmem name (i_cps st)) eqn:D.
  - (* known name *)
    apply rbind_ok in H as (entry & He & H). apply rbind_ok in H as ([items m] & Hb & H). injection H as <-.
    apply read_bins_tally in Hb as (new & -> & -> & _). cbn [app] in *. exists new. cbn zeta. cbn [i_kids i_crs i_new i_cps i_pos].
    unfold dindex in He. destruct (dget name (i_cps st)) as [[pos m0]|] eqn:G; [|discriminate]. injection He as <-.
    split; [reflexivity|]. split; [reflexivity|]. split; [reflexivity|]. split; [|assumption].
    cbn [fst snd]. destruct (PG _ _ _ G) as [GN GM].
    assert (IN : In name (map s_name P)).
    { apply dget_in in D. rewrite PK in D. now apply (proj1 (nub_in _ _)) in D. }
    unfold point_inv. rewrite map_app. cbn [map]. change (s_name (point_scope name new)) with name.
    rewrite nub_snoc, (proj2 (sinb_in _ _) IN), dkeys_dset, D.
    split; [assumption|]. split; [assumption|]. intros n p m. rewrite named_snoc.
    change (s_name (point_scope name new)) with name. destruct (String.eqb_spec n name) as [->|Hn].
    + rewrite dget_dset_same. intros [= <- <-]. split; [assumption|]. rewrite flat_map_app. cbn [flat_map].
      rewrite app_nil_r. unfold tally_all. rewrite fold_left_app. unfold tally_all in GM. now rewrite <- GM.
    + rewrite dget_dset_other, app_nil_r by assumption. apply PG.
  - (* new name *)
    apply rbind_ok in H as (entry & He & H). apply rbind_ok in H as ([items m] & Hb & H). injection H as <-.
    apply read_bins_tally in Hb as (new & -> & -> & _). cbn [app] in *. exists new. cbn zeta. cbn [i_kids i_crs i_new i_cps i_pos].
    unfold dindex in He. rewrite dget_dset_same in He. injection He as <-. cbn [fst snd].
    split; [reflexivity|]. split; [reflexivity|]. split; [reflexivity|].
    assert (NI : ~ In name (map s_name P)).
    { intros I. apply (proj2 (nub_in _ _)) in I. rewrite <- PK in I. apply dget_in in I. congruence. }
    assert (EQ : slots ++ SInst x :: i_new st ++ [SPoint name] = (slots ++ SInst x :: i_new st) ++ [SPoint name])
      by (now rewrite <- app_assoc).
    rewrite EQ. set (sl := slots ++ SInst x :: i_new st) in *. split.
    + unfold point_inv. rewrite map_app. cbn [map]. change (s_name (point_scope name new)) with name.
      rewrite nub_snoc, (proj2 (sinb_false _ _) NI).
      assert (DM : forall v, dmem name (dset name v (i_cps st)) = true)
        by (intros v; unfold dmem; now rewrite dget_dset_same).
      rewrite dkeys_dset, DM, dkeys_dset, D. split; [now rewrite PK|]. split.
      * unfold slot_points. rewrite flat_map_snoc. now rewrite <- PS.
      * intros n p m. rewrite named_snoc. change (s_name (point_scope name new)) with name.
        destruct (String.eqb_spec n name) as [->|Hn].
        -- rewrite dget_dset_same. intros [= <- <-]. split.
           ++ rewrite nth_error_app2; unfold sl; rewrite app_length; cbn [List.length]; [|lia].
              replace (List.length slots + 1 + List.length (i_new st) - (List.length slots + S (List.length (i_new st)))) with 0 by lia.
              reflexivity.
           ++ rewrite named_nil by assumption. cbn. now rewrite app_nil_r.
        -- rewrite !dget_dset_other, app_nil_r by assumption. intros G. destruct (PG _ _ _ G) as [GN GM].
           split; [now apply nth_error_app_some|assumption].
    + destruct CI as (CK & CS & CG & CR). split; [assumption|]. split.
      * unfold slot_crosses. rewrite flat_map_snoc. cbn. rewrite app_nil_r. assumption.
      * split; [assumption|]. intros n refs I. unfold slot_crosses in I. rewrite flat_map_snoc in I. cbn in I.
        rewrite app_nil_r in I. destruct (CR n refs I) as [F E]. split; [|assumption].
        eapply Forall_impl; [|exact F]. intros r. apply good_ref_more.
Qed.

Lemma read_coverpoints_inv : forall es slots x base k st st' P C,
  k = List.length slots -> fold_res (read_coverpoint k) es st = Ok st' ->
  point_inv (slots ++ SInst x :: i_new st) (i_cps st) P ->
  cross_inv base (slots ++ SInst x :: i_new st) (i_crs st) C ->
  exists ps, i_kids st' = i_kids st ++ ps /\ i_crs st' = i_crs st /\ Forall is_point ps /\
    map s_name ps = map (get_attr_or "name" "<unknown>") es /\
    point_inv (slots ++ SInst x :: i_new st') (i_cps st') (P ++ ps) /\
    cross_inv base (slots ++ SInst x :: i_new st') (i_crs st') C.
Proof.
  induction es as [|e es IH]; intros slots x base k st st' P C K H PI CI; cbn [fold_res] in H.
  - injection H as <-. exists []. rewrite !app_nil_r. auto 12.
  - apply rbind_ok in H as (s1 & H1 & H).
    destruct (read_coverpoint_inv _ x base _ _ _ _ _ _ K H1 PI CI) as (items & EK & EC & _ & PI' & CI').
    destruct (IH _ x base _ _ _ _ _ K H PI' CI') as (ps & EK' & EC' & F & N & PI'' & CI'').
    exists (point_scope (get_attr_or "name" "<unknown>" e) items :: ps). rewrite EK', EK, EC', EC, <- app_assoc in *.
    split; [reflexivity|]. split; [reflexivity|]. split; [constructor; [eexists _, _; reflexivity|assumption]|].
    split; [cbn; now f_equal|]. cbn [app] in PI''. split; assumption.
Qed.

(** Crosses. *)
Lemma resolve_ok : forall base pos e refs, resolve base pos e = Ok refs ->
  Forall (fun r => exists i, pos (r_name r) = Some i /\ r_path r = base ++ [i]) refs /\
  traverse expr_name (iter "crossExpr" e) = Ok (map r_name refs).
Proof.
  intros base pos e refs H. unfold resolve in H. revert refs H.
  induction (iter "crossExpr" e) as [|x l IH]; intros refs H; cbn [traverse] in *.
  - injection H as <-. split; [constructor|reflexivity].
  - apply rbind_ok in H as (r & Hr & H). apply rbind_ok in H as (rs & Hrs & H). injection H as <-.
    apply rbind_ok in Hr as (n & Hn & Hr). destruct (pos n) as [i|] eqn:E; [|discriminate]. injection Hr as <-.
    destruct (IH _ Hrs) as [F T]. split.
    + constructor; [|assumption]. cbn. now exists i.
    + rewrite Hn. cbn [rbind]. rewrite T. reflexivity.
Qed.

Lemma read_cross_inv : forall slots x base k st e st' P C,
  read_cross base k st e = Ok st' ->
  point_inv (slots ++ SInst x :: i_new st) (i_cps st) P ->
  cross_inv base (slots ++ SInst x :: i_new st) (i_crs st) C ->
  exists refs items,
    let c := cross_scope (get_attr_or "name" "<unknown>" e) refs items in
    i_kids st' = i_kids st ++ [c] /\ i_pos st' = i_pos st /\ i_cps st' = i_cps st /\ is_cross c /\
    traverse expr_name (iter "crossExpr" e) = Ok (map r_name refs) /\
    Forall (fun r => exists i, dget (r_name r) (i_pos st) = Some i /\ r_path r = (base ++ [k]) ++ [i]) refs /\
    point_inv (slots ++ SInst x :: i_new st') (i_cps st') P /\
    cross_inv base (slots ++ SInst x :: i_new st') (i_crs st') (C ++ [c]).
Proof.
  intros slots x base k st e st' P C H PI CI. unfold read_cross in H.
  set (name := get_attr_or "name" "<unknown>" e) in *.
  apply rbind_ok in H as ([new crs] & H1 & H). apply rbind_ok in H as (entry & He & H).
  apply rbind_ok in H as (refs & Hr & H). apply rbind_ok in H as ([items m] & Hb & H). injection H as <-.
  apply read_cross_bins_tally in Hb as (items' & -> & -> & FB). cbn [app] in *.
  apply resolve_ok in Hr as [FR TR]. exists refs, items'. cbn zeta. cbn [i_kids i_pos i_cps i_new i_crs].
  split; [reflexivity|]. split; [reflexivity|]. split; [reflexivity|].
  assert (FB' : Forall (fun i => cd_type (ci_data i) = CVGBIN) items').
  { eapply Forall_impl; [|exact FB]. intros i (n & c & ->). reflexivity. }
  split; [exists name, refs, items'; split; [reflexivity|assumption]|]. split; [assumption|]. split; [assumption|].
  destruct CI as (CK & CS & CG & CR). set (sl := slots ++ SInst x :: i_new st) in *.
  destruct (dmem name (i_crs st)) eqn:D.
  - injection H1 as <- <-. split; [assumption|]. unfold dindex in He.
    destruct (dget name (i_crs st)) as [m0|] eqn:G; [|discriminate]. injection He as <-.
    assert (IN : In name (map s_name C)).
    { apply dget_in in D. rewrite CK in D. now apply (proj1 (nub_in _ _)) in D. }
    unfold cross_inv. rewrite map_app. cbn [map]. change (s_name (cross_scope name refs items')) with name.
    rewrite nub_snoc, (proj2 (sinb_in _ _) IN), dkeys_dset, D. split; [assumption|]. split; [assumption|]. split.
    + intros n m. rewrite named_snoc. change (s_name (cross_scope name refs items')) with name.
      destruct (String.eqb_spec n name) as [->|Hn].
      * rewrite dget_dset_same. intros [= <-]. rewrite flat_map_app. cbn [flat_map].
        rewrite app_nil_r. unfold tally_xall. rewrite fold_left_app. specialize (CG _ _ G). unfold tally_xall in CG.
        now rewrite <- CG.
      * rewrite dget_dset_other, app_nil_r by assumption. apply CG.
    + intros n rf I. destruct (CR n rf I) as [F (a & b & E1 & E2)]. split; [assumption|].
      exists a. rewrite named_snoc, E1. eexists. split; [reflexivity|assumption].
  - apply rbind_ok in H1 as (trefs & Ht & H1). injection H1 as <- <-.
    unfold dindex in He. rewrite dget_dset_same in He. injection He as <-.
    assert (NI : ~ In name (map s_name C)).
    { intros I. apply (proj2 (nub_in _ _)) in I. rewrite <- CK in I. apply dget_in in I. congruence. }
    assert (EQ : slots ++ SInst x :: i_new st ++ [SCross name trefs] = sl ++ [SCross name trefs])
      by (unfold sl; now rewrite <- app_assoc).
    rewrite EQ. destruct PI as (PK & PS & PG). split.
    + split; [assumption|]. split.
      * unfold slot_points. rewrite flat_map_snoc. cbn. now rewrite app_nil_r.
      * intros n p m G. destruct (PG _ _ _ G) as [GN GM]. split; [now apply nth_error_app_some|assumption].
    + unfold cross_inv. rewrite map_app. cbn [map]. change (s_name (cross_scope name refs items')) with name.
      rewrite nub_snoc, (proj2 (sinb_false _ _) NI).
      assert (DM : forall v, dmem name (dset name v (i_crs st)) = true)
        by (intros v; unfold dmem; now rewrite dget_dset_same).
      rewrite dkeys_dset, DM, dkeys_dset, D. split; [now rewrite CK|]. split.
      * unfold slot_crosses. rewrite flat_map_snoc, map_app. cbn. now rewrite <- CS.
      * split.
        -- intros n m. rewrite named_snoc. change (s_name (cross_scope name refs items')) with name.
           destruct (String.eqb_spec n name) as [->|Hn].
           ++ rewrite dget_dset_same. intros [= <-]. rewrite named_nil by assumption. cbn. now rewrite app_nil_r.
           ++ rewrite !dget_dset_other, app_nil_r by assumption. apply CG.
        -- intros n rf I. unfold slot_crosses in I. rewrite flat_map_snoc in I. apply in_app_or in I as [I|I].
           ++ destruct (CR n rf I) as [F (a & b & E1 & E2)]. split.
              ** eapply Forall_impl; [|exact F]. intros r. apply good_ref_more.
              ** exists a. rewrite named_snoc, E1. eexists. split; [reflexivity|assumption].
           ++ cbn in I. destruct I as [I|[]]. injection I as <- <-. apply resolve_ok in Ht as [FT TT]. split.
              ** eapply Forall_impl; [|exact FT]. cbn. intros r (i & Ei & Ep). exists i. split; [assumption|].
                 destruct (dget (r_name r) (i_cps st)) as [[pos m]|] eqn:G; [|discriminate]. cbn in Ei. injection Ei as ->.
                 apply nth_error_app_some. now apply (PG _ _ _ G).
              ** exists (cross_scope name refs items'), []. rewrite named_snoc, named_nil by assumption.
                 change (s_name (cross_scope name refs items')) with name. rewrite String.eqb_refl. split; [reflexivity|].
                 change (crossed_names (cross_scope name refs items')) with (map r_name refs). congruence.
Qed.

Lemma read_crosses_inv : forall es slots x base k st st' P C,
  fold_res (read_cross base k) es st = Ok st' ->
  point_inv (slots ++ SInst x :: i_new st) (i_cps st) P ->
  cross_inv base (slots ++ SInst x :: i_new st) (i_crs st) C ->
  exists cs, i_kids st' = i_kids st ++ cs /\ Forall is_cross cs /\
    map s_name cs = map (get_attr_or "name" "<unknown>") es /\
    point_inv (slots ++ SInst x :: i_new st') (i_cps st') P /\
    cross_inv base (slots ++ SInst x :: i_new st') (i_crs st') (C ++ cs).
Proof.
  induction es as [|e es IH]; intros slots x base k st st' P C H PI CI; cbn [fold_res] in H.
  - injection H as <-. exists []. rewrite !app_nil_r. auto 12.
  - apply rbind_ok in H as (s1 & H1 & H).
    destruct (read_cross_inv _ x _ _ _ _ _ _ _ H1 PI CI) as (refs & items & EK & _ & _ & IC & _ & _ & PI' & CI').
    destruct (IH _ x base _ _ _ _ _ H PI' CI') as (cs & EK' & F & N & PI'' & CI'').
    eexists (_ :: cs). rewrite EK', EK, <- app_assoc in *.
    split; [reflexivity|]. split; [constructor; eassumption|].
    split; [cbn; now f_equal|]. cbn [app] in CI''. split; assumption.
Qed.

(** ** Covergroup instances *)
Definition is_ci (c : scope) : Prop :=
  exists n ps cs, c = Scope (s_attrs (new_coverinstance n None 1 SRC_OTHER)) [] [] (ps ++ cs)
                  /\ Forall is_point ps /\ Forall is_cross cs.

Lemma filter_points : forall b ps, Forall is_point ps ->
  filter (fun c => N.testbit (s_type c) b) ps = if N.testbit COVERPOINT b then ps else [].
Proof.
  intros b ps F. induction F as [|p ps (n & items & ->) F IH]; cbn [filter]; [now destruct (N.testbit COVERPOINT b)|].
  change (s_type (point_scope n items)) with COVERPOINT. rewrite IH. now destruct (N.testbit COVERPOINT b).
Qed.
Lemma filter_crosses : forall b cs, Forall is_cross cs ->
  filter (fun c => N.testbit (s_type c) b) cs = if N.testbit CROSS b then cs else [].
Proof.
  intros b ps F. induction F as [|p ps (n & refs & items & -> & _) F IH]; cbn [filter]; [now destruct (N.testbit CROSS b)|].
  change (s_type (cross_scope n refs items)) with CROSS. rewrite IH. now destruct (N.testbit CROSS b).
Qed.

Lemma ci_parts : forall n ps cs, Forall is_point ps -> Forall is_cross cs ->
  let c := Scope (s_attrs (new_coverinstance n None 1 SRC_OTHER)) [] [] (ps ++ cs) in
  coverpoints c = ps /\ crosses c = cs /\ coverinstances c = [].
Proof.
  intros n ps cs FP FC c. unfold coverpoints, crosses, coverinstances, kids_with, c. cbn [s_kids].
  rewrite !filter_app, !(fun b => filter_points b ps FP), !(fun b => filter_crosses b cs FC).
  cbn. rewrite !app_nil_r. auto.
Qed.

Definition cg_inv (base : handle) (st : cg_state) : Prop :=
  let '(slots, cps, crs) := st in
  Forall is_ci (slot_insts slots) /\
  point_inv slots cps (flat_map coverpoints (slot_insts slots)) /\
  cross_inv base slots crs (flat_map crosses (slot_insts slots)).

Lemma no_inst_point : forall k st e st', read_coverpoint k st e = Ok st' ->
  slot_insts (i_new st) = [] -> slot_insts (i_new st') = [].
Proof.
  intros k st e st' H N. unfold read_coverpoint in H.
  destruct (dmem (get_attr_or "name" "<unknown>" e) (i_cps st)); apply rbind_ok in H as (en & _ & H);
    apply rbind_ok in H as ([i m] & _ & H); injection H as <-; cbn [i_new]; [assumption|].
  unfold slot_insts. rewrite flat_map_snoc. cbn. now rewrite app_nil_r.
Qed.
Lemma no_inst_cross : forall b k st e st', read_cross b k st e = Ok st' ->
  slot_insts (i_new st) = [] -> slot_insts (i_new st') = [].
Proof.
  intros b k st e st' H N. unfold read_cross in H. apply rbind_ok in H as ([new crs] & H1 & H).
  apply rbind_ok in H as (en & _ & H). apply rbind_ok in H as (r & _ & H).
  apply rbind_ok in H as ([i m] & _ & H). injection H as <-. cbn [i_new].
  destruct (dmem (get_attr_or "name" "<unknown>" e) (i_crs st)); [injection H1 as <- _; assumption|].
  apply rbind_ok in H1 as (rs & _ & H1). injection H1 as <- _.
  unfold slot_insts. rewrite flat_map_snoc. cbn. now rewrite app_nil_r.
Qed.
Lemma fold_res_inv : forall A B (f : B -> A -> res B) (I : B -> Prop) l b b',
  (forall b x b', In x l -> f b x = Ok b' -> I b -> I b') -> fold_res f l b = Ok b' -> I b -> I b'.
Proof.
  induction l as [|x l IH]; intros b b' H E Ib; cbn in E; [now injection E as <-|].
  apply rbind_ok in E as (b1 & E1 & E). eapply IH; [|exact E|].
  - intros. eapply H; eauto. now right.
  - eapply H; eauto. now left.
Qed.

Lemma inst_slot_inv : forall base sl cps crs P C x, point_inv sl cps P -> cross_inv base sl crs C ->
  point_inv (sl ++ [SInst x]) cps P /\ cross_inv base (sl ++ [SInst x]) crs C.
Proof.
  intros base sl cps crs P C x (PK & PS & PG) (CK & CS & CG & CR). split.
  - split; [assumption|]. split; [unfold slot_points; rewrite flat_map_snoc; cbn; now rewrite app_nil_r|].
    intros n p m G. destruct (PG _ _ _ G) as [GN GM]. split; [now apply nth_error_app_some|assumption].
  - split; [assumption|]. split; [unfold slot_crosses; rewrite flat_map_snoc; cbn; now rewrite app_nil_r|].
    split; [assumption|]. intros n rf I. unfold slot_crosses in I. rewrite flat_map_snoc in I. cbn in I.
    rewrite app_nil_r in I. destruct (CR n rf I) as [F E]. split; [|assumption].
    eapply Forall_impl; [|exact F]. intros r. apply good_ref_more.
Qed.

Lemma read_cg_instance_inv : forall base st e st', read_cg_instance base st e = Ok st' -> cg_inv base st -> cg_inv base st'.
Proof.
  intros base [[slots cps] crs] e st' H (FI & PI & CI). unfold read_cg_instance in H.
  apply rbind_ok in H as (i1 & H1 & H). apply rbind_ok in H as (i2 & H2 & H). injection H as <-.
  set (name := get_attr_or "name" "<unknown>" e) in *.
  set (ci := Scope _ _ _ (i_kids i2)).
  assert (N2 : slot_insts (i_new i2) = []).
  { eapply fold_res_inv with (I := fun s => slot_insts (i_new s) = []); [|exact H2|].
    - intros ? ? ? _. apply no_inst_cross.
    - eapply fold_res_inv with (I := fun s => slot_insts (i_new s) = []); [|exact H1|reflexivity].
      intros ? ? ? _. apply no_inst_point. }
  destruct (inst_slot_inv base slots cps crs _ _ ci PI CI) as [PI0 CI0].
  destruct (read_coverpoints_inv _ slots ci base _ _ _ _ _ eq_refl H1 PI0 CI0) as (ps & K1 & _ & FP & _ & PI1 & CI1).
  destruct (read_crosses_inv _ slots ci base _ _ _ _ _ H2 PI1 CI1) as (cs & K2 & FC & _ & PI2 & CI2).
  cbn [i_kids app] in K1. rewrite K1 in K2.
  destruct (ci_parts name ps cs FP FC) as (E1 & E2 & E3).
  assert (EC : ci = Scope (s_attrs (new_coverinstance name None 1 SRC_OTHER)) [] [] (ps ++ cs)) by (unfold ci; now rewrite K2).
  assert (EI : slot_insts (slots ++ SInst ci :: i_new i2) = slot_insts slots ++ [ci]).
  { unfold slot_insts in *. rewrite flat_map_app. cbn [flat_map]. now rewrite N2. }
  unfold cg_inv. rewrite EI, !flat_map_snoc. rewrite <- EC in E1, E2. rewrite E1, E2. split; [|split; assumption].
  apply Forall_app. split; [assumption|]. constructor; [|constructor]. now exists name, ps, cs.
Qed.

(** ** A covergroup *)
Definition point_of (cps : cp_map) (n : string) : scope :=
  point_scope n (match dget n cps with Some (_, m) => type_bins m | None => [] end).
Definition cross_of (crs : cr_map) (x : string * list cpref) : scope :=
  cross_scope (fst x) (snd x) (match dget (fst x) crs with Some m => type_cross_bins m | None => [] end).

Lemma cg_parts : forall cps crs a slots, Forall is_ci (slot_insts slots) ->
  let g := Scope a [] [] (map (fill cps crs) slots) in
  coverinstances g = slot_insts slots /\
  coverpoints g = map (point_of cps) (slot_points slots) /\
  crosses g = map (cross_of crs) (slot_crosses slots).
Proof.
  intros cps crs a slots F g. unfold coverinstances, coverpoints, crosses, kids_with, g. cbn [s_kids].
  induction slots as [|s slots IH]; [now split|].
  destruct s as [c|n|n refs]; cbn [map fill].
  - cbn in F. inversion F as [|? ? (n & ps & cs & E & _) F']; subst. destruct (IH F') as (I1 & I2 & I3).
    cbn [filter]. cbn [fill].
    change (s_type (Scope (s_attrs (new_coverinstance n None 1 SRC_OTHER)) [] [] (ps ++ cs))) with COVERINSTANCE. cbn [N.testbit COVERINSTANCE Pos.testbit].
    rewrite I1, I2, I3. split; [reflexivity|split; reflexivity].
  - destruct (IH F) as (I1 & I2 & I3). cbn [filter]. change (s_type (point_scope n _)) with COVERPOINT.
    cbn [N.testbit COVERPOINT Pos.testbit]. rewrite I1, I2, I3. split; [reflexivity|split; reflexivity].
  - destruct (IH F) as (I1 & I2 & I3). cbn [filter]. change (s_type (cross_scope n refs _)) with CROSS.
    cbn [N.testbit CROSS Pos.testbit]. rewrite I1, I2, I3. split; [reflexivity|split; reflexivity].
Qed.

Lemma sums_up_ok : forall base cps crs a slots,
  cg_inv base (slots, cps, crs) ->
  let g := Scope a [] [] (map (fill cps crs) slots) in
  sums_up coverpoints g /\ sums_up crosses g /\ Forall (type_cross_ok base g) (crosses g).
Proof.
  intros base cps crs a slots (FI & (PK & PS & PG) & (CK & CS & CG & CR)) g.
  destruct (cg_parts cps crs a slots FI) as (GI & GP & GC). fold g in GI, GP, GC.
  unfold sums_up. rewrite GI, GP, GC. split; [|split].
  - split.
    + rewrite map_map. cbn. rewrite map_id. congruence.
    + apply Forall_forall. intros t I. apply in_map_iff in I as (n & <- & I).
      change (s_name (point_of cps n)) with n. rewrite PS in I. apply dget_in in I. unfold dmem in I.
      destruct (dget n cps) as [[pos m]|] eqn:G; [|discriminate]. destruct (PG _ _ _ G) as [_ M].
      apply type_bins_sum. unfold point_of. rewrite G. cbn. now rewrite M.
  - split.
    + rewrite map_map. cbn. change (fun x : string * list cpref => fst x) with (@fst string (list cpref)). congruence.
    + apply Forall_forall. intros t I. apply in_map_iff in I as ([n refs] & <- & I).
      change (s_name (cross_of crs (n, refs))) with n.
      assert (K : In n (dkeys crs)) by (rewrite <- CS; apply in_map_iff; exists (n, refs); auto).
      apply dget_in in K. unfold dmem in K. destruct (dget n crs) as [m|] eqn:G; [|discriminate].
      apply type_cross_bins_sum.
      * apply Forall_forall. intros i Ii. apply in_flat_map in Ii as (c & Ic & Ii).
        unfold named in Ic. apply filter_In in Ic as [Ic _]. apply in_flat_map in Ic as (ci & Ici & Ic).
        rewrite Forall_forall in FI. destruct (FI _ Ici) as (nm & ps & cs & -> & FP & FC).
        destruct (ci_parts nm ps cs FP FC) as (_ & E2 & _). rewrite E2 in Ic. rewrite Forall_forall in FC.
        destruct (FC _ Ic) as (n' & r' & it & -> & FT). rewrite Forall_forall in FT. now apply FT.
      * unfold cross_of. cbn [fst snd]. rewrite G. cbn. now rewrite (CG _ _ G).
  - apply Forall_forall. intros t I. apply in_map_iff in I as ([n refs] & <- & I).
    destruct (CR n refs I) as [FR (x & y & E1 & E2)]. split.
    + exists x, y. rewrite GI. change (s_name (cross_of crs (n, refs))) with n. split; [assumption|].
      symmetry. exact E2.
    + cbn. intros r Ir. rewrite Forall_forall in FR. destruct (FR r Ir) as (i & Ep & En).
      exists i, (point_of cps (r_name r)). split; [assumption|]. split.
      * rewrite (map_nth_error _ _ _ En). reflexivity.
      * split; [|reflexivity]. cut (In (point_of cps (r_name r)) (coverpoints g)); [trivial|]. rewrite GP. apply in_map. unfold slot_points. apply in_flat_map.
        exists (SPoint (r_name r)). split; [now apply nth_error_In in En|now left].
Qed.

Definition group_ok (base : handle) (g : scope) : Prop :=
  sums_up coverpoints g /\ sums_up crosses g /\ Forall (type_cross_ok base g) (crosses g).

Lemma cg_inv_init : forall base, cg_inv base ([], [], []).
Proof.
  intros base. split; [constructor|]. split; (split; [reflexivity|]; split; [reflexivity|]).
  - intros n pos m H. discriminate.
  - split; [intros; discriminate|intros n r []].
Qed.

Lemma read_covergroup_ok : forall base name l g, read_covergroup base name l = Ok g ->
  s_name g = name /\ s_type g = COVERGROUP /\ group_ok base g.
Proof.
  intros base name l g H. unfold read_covergroup in H. apply rbind_ok in H as ([[slots cps] crs] & H1 & H).
  injection H as <-. split; [reflexivity|]. split; [reflexivity|]. apply sums_up_ok.
  eapply fold_res_inv with (I := cg_inv base); [|exact H1|apply cg_inv_init].
  intros ? ? ? _. apply read_cg_instance_inv.
Qed.

(** ** The database *)
Definition groups_ok (p : nat) (cgs : list scope) : Prop :=
  forall j g, nth_error cgs j = Some g -> s_type g = COVERGROUP /\ group_ok [p; j] g.

Lemma read_covergroups_ok : forall p cgs e cgs', read_covergroups p cgs e = Ok cgs' -> groups_ok p cgs -> groups_ok p cgs'.
Proof.
  intros p cgs e cgs' H. unfold read_covergroups in H.
  eapply fold_res_inv with (I := groups_ok p); [|exact H].
  intros l [n es] l' _ E G. apply rbind_ok in E as (g & E & E'). injection E' as <-.
  apply read_covergroup_ok in E as (_ & T & O). intros j h N.
  destruct (Nat.lt_ge_cases j (List.length l)) as [L|L].
  - rewrite nth_error_app1 in N by assumption. now apply G.
  - rewrite nth_error_app2 in N by assumption. destruct (j - List.length l) as [|q] eqn:Q.
    + injection N as <-. replace j with (List.length l) by lia. now split.
    + cbn in N. destruct q; discriminate.
Qed.

Definition rst_inv (st : rst) : Prop :=
  (forall p n du, nth_error (r_slots st) p = Some (RInst n du) -> exists cgs, dget n (r_insts st) = Some (p, cgs)) /\
  (forall n p cgs, dget n (r_insts st) = Some (p, cgs) -> groups_ok p cgs /\ p < List.length (r_slots st)).

Lemma nth_snoc : forall A (l : list A) x p y, nth_error (l ++ [x]) p = Some y ->
  nth_error l p = Some y \/ (p = List.length l /\ y = x).
Proof.
  intros A l x p y H. destruct (Nat.lt_ge_cases p (List.length l)) as [L|L].
  - rewrite nth_error_app1 in H by assumption. now left.
  - rewrite nth_error_app2 in H by assumption. destruct (p - List.length l) as [|q] eqn:Q; cbn in H.
    + injection H as ->. right. split; [lia|reflexivity].
    + destruct q; discriminate.
Qed.

Lemma read_instance_inv : forall ids st e st', read_instance ids st e = Ok st' -> rst_inv st -> rst_inv st'.
Proof.
  intros ids st e st' H [I1 I2]. unfold read_instance in H.
  apply rbind_ok in H as (name & _ & H). apply rbind_ok in H as (u & _ & H).
  destruct (get_scope _ st) as [st1 du] eqn:GS.
  assert (J : rst_inv st1).
  { unfold get_scope in GS. destruct (dget _ (r_mods st)) as [i|]; injection GS as <- <-; [now split|].
    split; cbn [r_slots r_insts].
    - intros p n d N. apply nth_snoc in N as [N|[_ N]]; [eauto|discriminate].
    - intros n p cgs G. destruct (I2 n p cgs G) as [O L]. split; [assumption|]. rewrite app_length. cbn. lia. }
  clear I1 I2 GS. destruct J as [I1 I2]. destruct (get_inst_scope name du st1) as [st2 x] eqn:GI.
  assert (J : rst_inv st2 /\ dget name (r_insts st2) = Some x).
  { unfold get_inst_scope in GI. destruct (dget name (r_insts st1)) as [y|] eqn:D; injection GI as <- <-;
      [split; [split; assumption|assumption]|].
    cbn [r_slots r_insts]. split; [|apply dget_dset_same]. split; cbn [r_slots r_insts].
    - intros p n d N. apply nth_snoc in N as [N|[-> N]].
      + destruct (I1 _ _ _ N) as [cgs C]. destruct (String.eqb_spec n name) as [->|Hn]; [congruence|].
        exists cgs. now rewrite dget_dset_other.
      + injection N as -> ->. eexists. apply dget_dset_same.
    - intros n p cgs G. rewrite app_length. cbn. destruct (String.eqb_spec n name) as [->|Hn].
      + rewrite dget_dset_same in G. injection G as <- <-. split; [intros [|j] g Q; discriminate|lia].
      + rewrite dget_dset_other in G by assumption. destruct (I2 _ _ _ G). split; [assumption|lia]. }
  clear I1 I2 GI. destruct J as [[I1 I2] GX]. apply rbind_ok in H as (cgs & HC & H). injection H as <-.
  destruct x as [p0 cgs0]. cbn [fst snd] in *.
  assert (O : groups_ok p0 cgs).
  { eapply fold_res_inv with (I := groups_ok p0); [|exact HC|exact (proj1 (I2 _ _ _ GX))].
    intros ? ? ? _. apply read_covergroups_ok. }
  split; cbn [r_slots r_insts].
  - intros p n d N. destruct (I1 _ _ _ N) as [c C]. destruct (String.eqb_spec n name) as [->|Hn].
    + rewrite dget_dset_same. exists cgs. congruence.
    + exists c. now rewrite dget_dset_other.
  - intros n p c G. destruct (String.eqb_spec n name) as [->|Hn].
    + rewrite dget_dset_same in G. injection G as <- <-. split; [assumption|]. now apply (I2 _ _ _ GX).
    + rewrite dget_dset_other in G by assumption. now apply I2 in G.
Qed.

Lemma rst_inv_init : rst_inv (Rst [] [] []).
Proof. split; cbn; intros; [destruct p; discriminate|discriminate]. Qed.

(** Every database the reader builds: below each instance there are only
    covergroups whose type coverage sums up their instances. *)
Lemma read_type_coverage : forall to_float doc d, read to_float doc = Ok d ->
  forall i inst j g, nth_error (s_kids (db_root d)) i = Some inst -> nth_error (s_kids inst) j = Some g ->
  s_type inst = INSTANCE /\ s_type g = COVERGROUP /\ group_ok [i; j] g.
Proof.
  intros tf doc d H i inst j g Hi Hj. unfold read in H.
  apply rbind_ok in H as ([names ids] & _ & H). apply rbind_ok in H as (hs & _ & H).
  apply rbind_ok in H as (st & HS & H). injection H as <-. cbn [db_root s_kids] in Hi.
  assert (J : rst_inv st).
  { eapply fold_res_inv with (I := rst_inv); [|exact HS|apply rst_inv_init]. intros ? ? ? _. apply read_instance_inv. }
  destruct J as [I1 I2]. rewrite nth_error_map in Hi.
  destruct (nth_error (r_slots st) i) as [s|] eqn:N; cbn in Hi; [|discriminate]. injection Hi as <-.
  destruct s as [n|n du]; cbn in Hj; [destruct j; discriminate|].
  destruct (I1 _ _ _ N) as [cgs C]. rewrite C in Hj. destruct (I2 _ _ _ C) as [O _].
  split; [reflexivity|]. now apply O.
Qed.
