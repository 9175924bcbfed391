From Verif Require Import Base Dict Consts Db Report PyInt Text TextSpec.
From Coq Require Import Permutation.
Set Implicit Arguments.
Local Open Scope string_scope.

Lemma sapp_assoc : forall a b c : string, (a ++ b) ++ c = a ++ b ++ c.
Proof. induction a; intros; simpl; [reflexivity|]. now rewrite IHa. Qed.
Lemma sapp_length : forall a b, String.length (a ++ b) = String.length a + String.length b.
Proof. induction a; intros; simpl; [reflexivity|]. now rewrite IHa. Qed.
Lemma substring_app : forall a b, substring 0 (String.length a) (a ++ b) = a.
Proof. induction a; intros b; simpl; [now destruct b|]. now rewrite IHa. Qed.
Lemma drop4_indent : forall s, drop4 (s ++ "    ") = s.
Proof.
  intros. unfold drop4. rewrite sapp_length.
  replace (String.length s + String.length "    " - 4) with (String.length s) by (simpl; lia).
  apply substring_app.
Qed.
Lemma blanks_app : forall a b, blanks a ++ blanks b = blanks (a + b).
Proof. induction a; intros; simpl; [reflexivity|]. now rewrite IHa. Qed.

Section RcgInd.
  Variable A : arith.
  Variable P : rcg A -> Prop.
  Variable H : forall n i w c cps crs cgs, Forall P cgs -> P (RCg n i w c cps crs cgs).
  Fixpoint rcg_nested (g : rcg A) : P g :=
    match g with
    | RCg n i w c cps crs cgs =>
        H n i w c cps crs
          ((fix go (l : list (rcg A)) : Forall P l :=
              match l with
              | [] => Forall_nil P
              | x :: t => Forall_cons x (rcg_nested x) (go t)
              end) cgs)
    end.
End RcgInd.

Section Facts.
  Variable A : arith.
  Variables (show_group show_point : A -> string).
  Variable faults : list string -> string -> option exn.
  Variable o : topts.
  Notation put := (put faults).

  (** Writing a list of strings one after the other. *)
  Definition put_all (l : list string) : ST tstate unit := sfor put l.

  Lemma put_all_app : forall l1 l2 st,
    put_all (l1 ++ l2)%list st = sbind (put_all l1) (fun _ => put_all l2) st.
  Proof.
    induction l1 as [|x l1 IH]; intros; [reflexivity|].
    unfold put_all in *. simpl. unfold sbind at 1 2 3.
    destruct (put x st) as [st' [[]|e]]; [apply IH|reflexivity].
  Qed.

  Lemma put_all_ind : forall l st, t_ind (fst (put_all l st)) = t_ind st.
  Proof.
    induction l as [|x l IH]; intros; [reflexivity|].
    unfold put_all in *. simpl. unfold sbind, Text.put at 1.
    destruct (faults (t_out st) x); [reflexivity|]. now rewrite IH.
  Qed.

  (** The indentation plays no part in writing. *)
  Lemma put_all_other : forall l st i,
    put_all l (TState i (t_out st)) =
    (TState i (t_out (fst (put_all l st))), snd (put_all l st)).
  Proof.
    induction l as [|x l IH]; intros; [reflexivity|].
    unfold put_all in *. simpl. unfold sbind.
    change (Text.put faults x (TState i (t_out st))) with
      (match faults (t_out st) x with Some e => (TState i (t_out st), Err e)
       | None => (TState i (t_out st ++ [x])%list, Ok tt) end).
    change (Text.put faults x st) with
      (match faults (t_out st) x with Some e => (st, @Err unit e)
       | None => (TState (t_ind st) (t_out st ++ [x])%list, Ok tt) end).
    destruct (faults (t_out st) x); [reflexivity|].
    exact (IH (TState (t_ind st) (t_out st ++ [x])%list) i).
  Qed.

  (** [m] behaves like writing the list of strings [f ind]. *)
  Definition emits (m : ST tstate unit) (f : string -> list string) : Prop :=
    forall st, m st = put_all (f (t_ind st)) st.

  Lemma emits_ret : emits (sret tt) (fun _ => []).
  Proof. intros st. reflexivity. Qed.

  Lemma emits_writeln : forall s, emits (writeln faults s) (fun i => [i ++ s ++ newline]).
  Proof.
    intros s st. unfold writeln, put_all. simpl. unfold sbind, Text.put.
    destruct (faults _ _); reflexivity.
  Qed.

  Lemma emits_bind : forall m1 m2 f1 f2,
    emits m1 f1 -> emits m2 f2 -> emits (sbind m1 (fun _ => m2)) (fun i => f1 i ++ f2 i)%list.
  Proof.
    intros m1 m2 f1 f2 H1 H2 st. rewrite put_all_app. unfold sbind. rewrite H1.
    pose proof (put_all_ind (f1 (t_ind st)) st) as Hi.
    destruct (put_all (f1 (t_ind st)) st) as [st' [[]|e]]; [|reflexivity].
    cbn [fst] in Hi. rewrite H2, Hi. reflexivity.
  Qed.

  Lemma emits_assoc : forall (m1 m2 m3 : ST tstate unit) f,
    emits (sbind (sbind m1 (fun _ => m2)) (fun _ => m3)) f ->
    emits (sbind m1 (fun _ => sbind m2 (fun _ => m3))) f.
  Proof.
    intros m1 m2 m3 f H st. rewrite <- H. unfold sbind.
    destruct (m1 st) as [s1 [[]|]]; reflexivity.
  Qed.

  Lemma emits_ext : forall m f g, emits m f -> (forall i, f i = g i) -> emits m g.
  Proof. intros m f g H E st. rewrite <- E. apply H. Qed.

  Lemma emits_indented : forall m f, emits m f -> emits (indented m) (fun i => f (i ++ "    ")).
  Proof.
    intros m f H st. unfold indented. rewrite H. cbn [t_ind].
    rewrite put_all_other. cbn [t_ind t_out fst snd].
    pose proof (put_all_ind (f (t_ind st ++ "    ")) st) as Hi.
    destruct (put_all (f (t_ind st ++ "    ")) st) as [[i w] r]. cbn [fst snd t_out t_ind] in *.
    rewrite drop4_indent. now rewrite <- Hi.
  Qed.

  Lemma emits_sfor : forall X (m : X -> ST tstate unit) f l,
    Forall (fun x => emits (m x) (f x)) l ->
    emits (sfor m l) (fun i => flat_map (fun x => f x i) l).
  Proof.
    intros X m f l H. induction H as [|x l Hx Hl IH]; [exact emits_ret|].
    simpl. exact (emits_bind Hx IH).
  Qed.

  Lemma emits_if : forall (b : bool) m f, emits m f ->
    emits (if b then m else sret tt) (fun i => if b then f i else [])%list.
  Proof. intros [] m f H; [exact H|exact emits_ret]. Qed.


  (** Lines of an outline below an arbitrary indentation. *)
  Fixpoint lines_at (i : string) (t : outline) : list string :=
    match t with
    | Entry l below => (i ++ l ++ newline) :: flat_map (lines_at (i ++ "    ")) below
    end.

  Lemma flat_map_map : forall (X Y W : Type) (f : Y -> list W) (g : X -> Y) l,
    flat_map f (map g l) = flat_map (fun x => f (g x)) l.
  Proof. induction l; simpl; congruence. Qed.

  Lemma flat_map_filter : forall X Y (p : X -> bool) (f : X -> list Y) l,
    flat_map (fun x => if p x then f x else []) l = flat_map f (filter p l).
  Proof. induction l as [|x l IH]; simpl; [reflexivity|]. destruct (p x); simpl; now rewrite IH. Qed.

  Lemma negb_hit : forall b, negb (rb_hit b) = (rb_count b <? rb_goal b)%Z.
  Proof. intros b. unfold rb_hit. rewrite Z.leb_antisym. apply negb_involutive. Qed.

  Definition body (by_hit : bool) bins := map bin_entry (if by_hit then hit_first bins else bins).

  Lemma emits_bins : forall bins,
    emits (report_bins faults o bins) (fun i => flat_map (lines_at i) (body (to_by_hit o) bins)).
  Proof.
    intros bins. unfold report_bins, body.
    assert (Hb : forall l, Forall (fun b => emits (bin_line faults b) (fun i => lines_at i (bin_entry b))) l).
    { intros l. apply Forall_forall. intros b _. apply emits_writeln. }
    destruct (to_by_hit o).
    - eapply emits_ext.
      + apply emits_bind;
        [apply emits_sfor with (f := fun b i => if rb_hit b then lines_at i (bin_entry b) else [])
        |apply emits_sfor with (f := fun b i => if negb (rb_hit b) then lines_at i (bin_entry b) else [])];
        (apply Forall_forall; intros b _;
         exact (emits_if _ (proj1 (Forall_forall _ [b]) (Hb [b]) b (or_introl eq_refl)))).
      + intros i. cbv beta. rewrite flat_map_map.
        rewrite (flat_map_filter rb_hit), (flat_map_filter (fun b => negb (rb_hit b))).
        unfold hit_first. rewrite flat_map_app. f_equal. f_equal.
        apply filter_ext. exact negb_hit.
    - eapply emits_ext; [apply emits_sfor, Hb|]. intros i. now rewrite flat_map_map.
  Qed.

  Lemma emits_section : forall title bins,
    emits (writeln faults title ;;; indented (report_bins faults o bins))
          (fun i => lines_at i (bins_entry (to_by_hit o) title bins)).
  Proof.
    intros. eapply emits_ext; [apply emits_bind; [apply emits_writeln|apply emits_indented, emits_bins]|].
    reflexivity.
  Qed.

  Lemma emits_extra : forall title bins,
    emits (if Nat.ltb 0 (List.length bins) then
             writeln faults title ;;; indented (report_bins faults o bins) else sret tt)
          (fun i => flat_map (lines_at i) (extra_bins (to_by_hit o) title bins)).
  Proof.
    intros title [|b bins]; [exact emits_ret|].
    change (Nat.ltb 0 (List.length (b :: bins))) with true. cbv iota.
    eapply emits_ext; [apply emits_section|]. intros i. cbn [extra_bins flat_map].
    now rewrite app_nil_r.
  Qed.

  Lemma emits_coverpoint : forall p,
    emits (report_coverpoint show_point faults o p)
          (fun i => flat_map (lines_at i) (point_entries show_point (to_details o) (to_by_hit o) p)).
  Proof.
    intros p. unfold report_coverpoint, point_entries.
    destruct (to_details o).
    - eapply emits_ext; [apply emits_bind; [apply emits_writeln|]|].
      + apply emits_assoc.
        apply (emits_bind (emits_section _ _) (emits_bind (emits_extra _ _) (emits_extra _ _))).
      + intros i. cbv beta. cbn [flat_map lines_at]. cbn [app].
        f_equal. now rewrite flat_map_app.
    - eapply emits_ext; [apply emits_bind; [apply emits_writeln|apply emits_ret]|]. reflexivity.
  Qed.

  Lemma emits_cross : forall x,
    emits (report_cross show_point faults o x)
          (fun i => flat_map (lines_at i) (cross_entries show_point (to_details o) (to_by_hit o) x)).
  Proof.
    intros x. unfold report_cross, cross_entries.
    destruct (to_details o).
    - eapply emits_ext; [apply emits_bind; [apply emits_writeln|apply emits_section]|].
      intros i. cbn [flat_map]. rewrite app_nil_r. reflexivity.
    - eapply emits_ext; [apply emits_bind; [apply emits_writeln|apply emits_ret]|]. reflexivity.
  Qed.

  Definition kind_of (is_inst : bool) : string := if is_inst then "INST" else "TYPE".

  Lemma emits_covergroup : forall g is_inst,
    emits (report_covergroup show_group show_point faults o is_inst g)
          (fun i => lines_at i (group_entry show_group show_point (to_details o) (to_by_hit o)
                                            (kind_of is_inst) g)).
  Proof.
    induction g as [n iname w c cps crs cgs IH] using rcg_nested. intros is_inst.
    cbn [report_covergroup group_entry]. eapply emits_ext.
    - apply emits_bind; [apply emits_writeln|]. apply emits_indented.
      apply emits_bind; [|apply emits_bind].
      + apply emits_sfor. apply Forall_forall. intros p _. apply emits_coverpoint.
      + apply emits_sfor. apply Forall_forall. intros p _. apply emits_cross.
      + apply emits_sfor. apply Forall_impl with (2 := IH). intros g H. exact (H true).
    - intros i. cbv beta. cbn [lines_at]. rewrite !flat_map_app, flat_map_map. cbn [app].
      f_equal. f_equal; [|f_equal].
      + induction cps as [|p l IHl]; [reflexivity|]. cbn [flat_map]. rewrite flat_map_app. now f_equal.
      + induction crs as [|p l IHl]; [reflexivity|]. cbn [flat_map]. rewrite flat_map_app. now f_equal.
  Qed.

  Lemma lines_at_blanks : forall t n, lines_at (blanks (4 * n)) t = lines n t.
  Proof.
    fix IH 1. intros [l below] n. cbn [lines_at lines]. f_equal.
    change "    " with (blanks 4). rewrite blanks_app.
    replace (4 * n + 4) with (4 * S n) by lia.
    induction below as [|t ts IHts]; [reflexivity|].
    cbn [flat_map]. f_equal; [apply IH|apply IHts].
  Qed.

  Lemma emits_groups : forall r st, t_ind st = "" ->
    report_groups show_group show_point faults o r st =
    put_all (text show_group show_point (to_details o) (to_by_hit o) r) st.
  Proof.
    intros r st Hi. unfold report_groups, text.
    etransitivity.
    - apply (emits_sfor _ (fun g i => lines_at i (group_entry show_group show_point (to_details o)
               (to_by_hit o) "TYPE" g))).
      apply Forall_forall. intros g _. exact (emits_covergroup g false).
    - cbv beta. rewrite Hi. f_equal. apply flat_map_ext. intros g. apply (lines_at_blanks _ 0).
  Qed.

  (** Whatever the stream does, what was written is a beginning of the list. *)
  Lemma put_all_prefix : forall l st,
    exists k, fst (put_all l st) = TState (t_ind st) (t_out st ++ firstn k l)%list
              /\ (snd (put_all l st) = Ok tt -> k = List.length l)
              /\ (forall e, snd (put_all l st) = Err e ->
                    exists x, nth_error l k = Some x /\ faults (t_out st ++ firstn k l)%list x = Some e).
  Proof.
    induction l as [|x l IH]; intros st.
    - exists 0. destruct st. simpl. rewrite app_nil_r. repeat split; congruence.
    - unfold put_all in *. simpl. unfold sbind.
      change (Text.put faults x st) with
        (match faults (t_out st) x with Some e => (st, @Err unit e)
         | None => (TState (t_ind st) (t_out st ++ [x])%list, Ok tt) end).
      destruct (faults (t_out st) x) as [e|] eqn:E.
      + exists 0. destruct st. simpl in *. rewrite app_nil_r. repeat split; try congruence.
        intros e' H. exists x. split; congruence.
      + destruct (IH (TState (t_ind st) (t_out st ++ [x])%list)) as (k & H1 & H2 & H3).
        cbn [t_ind t_out] in H1, H3. exists (S k). simpl.
        rewrite H1, <- app_assoc. simpl. split; [reflexivity|]. split.
        * intros H. f_equal. now apply H2.
        * intros e H. destruct (H3 e H) as (y & Hy & Hf). exists y. split; [exact Hy|].
          now rewrite <- app_assoc in Hf.
  Qed.

  Lemma put_all_ok : (forall w s, faults w s = None) ->
    forall l st, put_all l st = (TState (t_ind st) (t_out st ++ l)%list, Ok tt).
  Proof.
    intros H. induction l as [|x l IH]; intros st.
    - destruct st; simpl. unfold put_all, sfor, sret. now rewrite app_nil_r.
    - unfold put_all in *. simpl. unfold sbind, Text.put at 1. rewrite H.
      rewrite IH. cbn [t_ind t_out]. now rewrite <- app_assoc.
  Qed.
End Facts.

Lemma hit_first_perm : forall bins, Permutation bins (hit_first bins).
Proof.
  intros bins. unfold hit_first. induction bins as [|b l IH]; [constructor|]. simpl.
  rewrite (Z.leb_antisym (rb_count b) (rb_goal b)).
  destruct (rb_count b <? rb_goal b)%Z; simpl.
  - now apply Permutation_cons_app.
  - now constructor.
Qed.

Section Counting.
  Variable A : arith.
  Variables (show_group show_point : A -> string) (by_hit : bool).

  Fixpoint entries (t : outline) : nat :=
    match t with Entry _ below => S (list_sum (map entries below)) end.

  Lemma lines_count : forall t n, List.length (lines n t) = entries t.
  Proof.
    fix IH 1. intros [l below] n. cbn [lines entries List.length]. f_equal.
    generalize (S n). intros m. induction below as [|t ts IHts]; [reflexivity|].
    cbn [flat_map map]. rewrite app_length. change (list_sum (entries t :: map entries ts))
      with (entries t + list_sum (map entries ts)). rewrite IHts. f_equal. apply IH.
  Qed.

  Lemma list_sum_app : forall a b, list_sum (a ++ b)%list = list_sum a + list_sum b.
  Proof. intros. unfold list_sum. rewrite fold_right_app. induction a; simpl; [reflexivity|]. lia. Qed.

  Lemma flat_map_length : forall X Y (f : X -> list Y) l,
    List.length (flat_map f l) = list_sum (map (fun x => List.length (f x)) l).
  Proof. induction l; simpl; [reflexivity|]. rewrite app_length. now rewrite IHl. Qed.

  Lemma sum_flat_map : forall X Y (f : X -> list Y) g l,
    list_sum (map g (flat_map f l)) = list_sum (map (fun x => list_sum (map g (f x))) l).
  Proof. induction l; simpl; [reflexivity|]. rewrite map_app, list_sum_app. now rewrite IHl. Qed.

  Lemma list_sum_add : forall X (f g : X -> nat) l,
    list_sum (map (fun x => f x + g x) l) = list_sum (map f l) + list_sum (map g l).
  Proof. induction l; simpl; [reflexivity|]. rewrite IHl. lia. Qed.

  Definition bin_entries (bins : list rbin) := S (List.length bins).
  Definition extra_entries (bins : list rbin) := match bins with [] => 0 | b => bin_entries b end.
  Definition point_lines (details : bool) (p : rcp A) : nat :=
    1 + if details then bin_entries (rp_bins p) + extra_entries (rp_ignore p) + extra_entries (rp_illegal p)
        else 0.
  Definition cross_lines (details : bool) (x : rcross A) : nat :=
    1 + if details then bin_entries (rx_bins x) else 0.

  Lemma bins_entry_count : forall t bins, entries (bins_entry by_hit t bins) = bin_entries bins.
  Proof.
    intros. unfold bins_entry, bin_entries. cbn [entries]. f_equal.
    rewrite map_map. transitivity (List.length (if by_hit then hit_first bins else bins)).
    - induction (if by_hit then hit_first bins else bins) as [|b l IH]; [reflexivity|]. simpl. now f_equal.
    - destruct by_hit; [|reflexivity]. apply Permutation_length, Permutation_sym, hit_first_perm.
  Qed.

  Lemma extra_count : forall t bins,
    list_sum (map entries (extra_bins by_hit t bins)) = extra_entries bins.
  Proof.
    intros t [|b l]; [reflexivity|]. unfold extra_bins, extra_entries.
    rewrite <- (bins_entry_count t). cbn [map]. unfold list_sum. cbn [fold_right]. lia.
  Qed.

  Lemma point_count : forall details p,
    list_sum (map entries (point_entries show_point details by_hit p)) = point_lines details p.
  Proof.
    intros [] p; [|reflexivity]. unfold point_entries, point_lines. cbn [map].
    rewrite map_app. unfold list_sum at 1. cbn [fold_right]. fold (list_sum).
    change (fold_right Nat.add 0) with list_sum. rewrite list_sum_app, !extra_count, bins_entry_count.
    cbn [entries map]. unfold list_sum. cbn [fold_right]. lia.
  Qed.

  Lemma cross_count : forall details x,
    list_sum (map entries (cross_entries show_point details by_hit x)) = cross_lines details x.
  Proof.
    intros [] p; [|reflexivity]. unfold cross_entries, cross_lines. cbn [map].
    unfold list_sum. cbn [fold_right]. rewrite bins_entry_count. cbn [entries map fold_right]. 
    unfold list_sum. cbn [fold_right]. lia.
  Qed.

  Lemma group_count : forall details g kind,
    entries (group_entry show_group show_point details by_hit kind g) =
    List.length (all_groups g)
    + list_sum (map (point_lines details) (flat_map (@rg_cps A) (all_groups g)))
    + list_sum (map (cross_lines details) (flat_map (@rg_crosses A) (all_groups g))).
  Proof.
    intros details. induction g as [n i w c cps crs cgs IH] using rcg_nested. intros kind.
    cbn [group_entry entries all_groups flat_map rg_cps rg_crosses List.length].
    rewrite !map_app, !list_sum_app, !sum_flat_map.
    rewrite (map_ext _ _ (point_count details)), (map_ext _ _ (cross_count details)).
    assert (E : list_sum (map entries (map (group_entry show_group show_point details by_hit "INST") cgs))
      = List.length (flat_map all_groups cgs)
        + list_sum (map (point_lines details) (flat_map (@rg_cps A) (flat_map all_groups cgs)))
        + list_sum (map (cross_lines details) (flat_map (@rg_crosses A) (flat_map all_groups cgs)))).
    { rewrite map_map. induction IH as [|g l Hg Hl IHl]; [reflexivity|].
      cbn [map flat_map]. change (list_sum (?a :: ?b)) with (a + list_sum b).
      rewrite app_length, !flat_map_app, !map_app, !list_sum_app.
      transitivity (entries (group_entry show_group show_point details by_hit "INST" g) +
        list_sum (map (fun x => entries (group_entry show_group show_point details by_hit "INST" x)) l));
        [reflexivity|].
      rewrite IHl, (Hg "INST"). lia. }
    rewrite E, !sum_flat_map. lia.
  Qed.

  Lemma text_count : forall details (r : report A),
    List.length (text show_group show_point details by_hit r) =
    List.length (rpt_groups r) + list_sum (map (point_lines details) (rpt_points r))
    + list_sum (map (cross_lines details) (rpt_crosses r)).
  Proof.
    intros details r. unfold text, rpt_groups, rpt_points, rpt_crosses. destruct r as [l m c]. cbn [r_cgs].
    rewrite flat_map_length.
    rewrite (map_ext _ (fun g => entries (group_entry show_group show_point details by_hit "TYPE" g)))
      by (intros; apply lines_count).
    induction l as [|g l IH]; [reflexivity|].
    cbn [map flat_map]. change (list_sum (?a :: ?b)) with (a + list_sum b).
    unfold rpt_groups in *. cbn [r_cgs flat_map] in *.
    rewrite app_length, !flat_map_app, !map_app, !list_sum_app.
    transitivity (entries (group_entry show_group show_point details by_hit "TYPE" g) +
        list_sum (map (fun x => entries (group_entry show_group show_point details by_hit "TYPE" x)) l));
        [reflexivity|].
    rewrite IH, group_count. lia.
  Qed.
End Counting.
