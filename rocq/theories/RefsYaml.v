(** The references of a database loaded from a YAML document. *)
From Verif Require XmlReadFacts.
From Verif Require Import Base Dict Consts Db BaseFacts ApiSpec MergeClosed RefsFacts RefsMerge Json Yaml YamlFacts YamlBuild.
Local Open Scope string_scope.
Local Open Scope list_scope.

Definition map_in (base : handle) (m : dict handle) (s : scope) : Prop :=
  forall n h, dget n m = Some h -> exists q x, h = base ++ q /\ q <> [] /\ get_at s q = Some x /\ s_name x = n.
Lemma map_in_refs base m s ns refs : map_in base m s -> y_resolve m ns = Ok refs -> Forall (ok_ref base s) refs.
Proof.
  intros M H. apply resolve_ok in H as [_ F]. eapply Forall_impl; [|exact F]. intros r D. destruct (M _ _ D) as (q & x & P & Q & G & N). now exists q, x.
Qed.
Lemma traverse_in : forall A B (f : A -> res B) l l' y, traverse f l = Ok l' -> In y l' -> exists x, In x l /\ f x = Ok y.
Proof.
  induction l as [|x l IH]; intros l' y H I; cbn in H; [injection H as <-; contradiction|]. apply rbind_ok in H as (b & Hb & H). apply rbind_ok in H as (bs & Hs & H).
  injection H as <-. destruct I as [<-|I]; [exists x; split; [now left|assumption]|]. destruct (IH _ _ Hs I) as (z & Iz & Ez). exists z. split; [now right|assumption].
Qed.

Section Group.
  Variables (base : handle) (a : attrs) (w : Z).
  Definition group (kids : list scope) : scope := Scope a [] [] kids.
  Definition gst (st : dict handle * list scope) : Prop := inner base (group (snd st)) /\ map_in base (fst st) (group (snd st)).
  Lemma inst_step st i st' : record_inst base w st i = Ok st' -> gst st -> gst st'.
  Proof.
    destruct st as [m kids]. unfold gst. cbn [fst snd]. intros H [I M]. unfold record_inst in H. apply rbind_ok in H as (cs & HC & H). injection H as <-. cbn [fst snd].
    set (points := opt_list (yi_points i)) in *. set (m' := positions (base ++ [List.length kids]) 0 (map yp_name points) m) in *.
    set (sc := Scope _ _ _ _).
    assert (SC : nth_error (kids ++ [sc]) (List.length kids) = Some sc) by (rewrite nth_error_app2, Nat.sub_diag by lia; reflexivity).
    assert (M' : map_in base m' (group (kids ++ [sc]))).
    { intros n h D. destruct (in_dec string_dec n (map yp_name points)) as [Y|Y].
      - destruct (positions_in (base ++ [List.length kids]) (map yp_name points) 0 m n Y) as (j & N & D'). unfold m' in D. rewrite D' in D. injection D as <-. cbn [Nat.add].
        rewrite nth_error_map in N. destruct (nth_error points j) as [yp|] eqn:E; [|discriminate]. injection N as N.
        exists [List.length kids; j], (point_scope_of yp). split; [now rewrite <- app_assoc|]. split; [discriminate|]. split; [|exact N].
        unfold group. cbn [get_at s_kids]. rewrite SC. unfold sc. cbn [s_kids].
        rewrite nth_error_app1 by (rewrite map_length; apply nth_error_Some; congruence). rewrite nth_error_map, E. reflexivity.
      - unfold m' in D. rewrite positions_out in D by exact Y. destruct (M n h D) as (q & x & P & Q & G & N). exists q, x. repeat split; auto.
        destruct q as [|k q]; [congruence|]. cbn in *. destruct (nth_error kids k) eqn:E; [|discriminate]. rewrite nth_error_app1, E; [exact G|]. apply nth_error_Some. congruence. }
    split; [|exact M']. apply (inner_grow base (group kids) _ [sc]); auto. intros [|k] c q x N G; [|destruct k; discriminate]. cbn in N. injection N as <-.
    destruct q as [|k q]; cbn in G; [injection G as <-; exact Logic.I|]. destruct (nth_error _ k) as [y|] eqn:E in G; [|discriminate].
    apply nth_error_In in E. apply in_app_or in E as [E|E].
    - apply in_map_iff in E as (p & <- & _). revert q x G. apply inner_leaf; [reflexivity|exact Logic.I].
    - destruct (traverse_in _ _ _ _ _ _ HC E) as (c & _ & F). apply rbind_ok in F as (ns & _ & F). apply rbind_ok in F as (refs & R & F). injection F as <-.
      revert q x G. apply inner_leaf; [reflexivity|]. unfold scope_ok. cbn. eapply map_in_refs; eauto.
  Qed.
End Group.

Lemma type_points_in base a ps tcs : map_in base (positions base 0 (dkeys ps) []) (group a (type_point_scopes ps ++ tcs)).
Proof.
  intros n h D. destruct (in_dec string_dec n (dkeys ps)) as [Y|Y].
  - destruct (positions_in base (dkeys ps) 0 [] n Y) as (j & N & D'). rewrite D' in D. injection D as <-. cbn [Nat.add].
    unfold dkeys in N. rewrite nth_error_map in N. destruct (nth_error ps j) as [p|] eqn:E; [|discriminate]. injection N as N.
    exists [j], (record_point (fst p) None (t_bins (snd p)) (t_ignore (snd p)) (t_illegal (snd p))). split; [reflexivity|]. split; [discriminate|]. split; [|exact N].
    unfold group. cbn [get_at s_kids]. unfold type_point_scopes. rewrite nth_error_app1 by (rewrite map_length; apply nth_error_Some; congruence). rewrite nth_error_map, E. reflexivity.
  - rewrite positions_out in D by exact Y. discriminate.
Qed.

Lemma covergroup_inner base g s : process_covergroup base g = Ok s -> inner base s.
Proof.
  intros H. unfold process_covergroup in H. apply rbind_ok in H as ([ps cs] & _ & H). apply rbind_ok in H as (tcs & HT & H).
  destruct (yg_insts g) as [is|]; [|discriminate]. apply rbind_ok in H as ([m kids] & HF & H). injection H as <-.
  set (w := match yg_weight g with Some w => w | None => 1%Z end) in *. set (a := s_attrs (new_covergroup (yg_name g) None w SRC_OTHER)).
  assert (X : gst base a (m, kids)); [|apply X]. eapply XmlReadFacts.fold_res_inv with (I := gst base a); [|exact HF|].
  - intros b x b' _. apply inst_step.
  - split; [|intros n h D; discriminate]. cbn [snd]. apply inner_intro; [exact Logic.I|]. intros k c q x N G. unfold group in N. cbn [s_kids] in N.
    apply nth_error_In in N. apply in_app_or in N as [N|N].
    + unfold type_point_scopes in N. apply in_map_iff in N as (p & <- & _). revert q x G. apply inner_leaf; [reflexivity|exact Logic.I].
    + unfold type_cross_scopes in HT. destruct (traverse_in _ _ _ _ _ _ HT N) as (c' & _ & F). apply rbind_ok in F as (refs & R & F). injection F as <-.
      revert q x G. apply inner_leaf; [reflexivity|]. unfold scope_ok. cbn. eapply map_in_refs; [|exact R]. apply type_points_in.
Qed.

Theorem load_resolves : forall v d, load v = Ok d -> all_resolve d.
Proof.
  intros v d H. unfold load in H. destruct (jvalid coverage_schema v); [|discriminate]. apply rbind_ok in H as (doc & _ & H). unfold build in H.
  destruct doc as [gs|]; [|discriminate]. apply rbind_ok in H as (cgs & HF & H). injection H as <-.
  assert (K : forall j g, nth_error cgs j = Some g -> inner [1; j] g).
  { eapply XmlReadFacts.fold_res_inv with (I := fun cgs => forall j g, nth_error cgs j = Some g -> inner [1; j] g); [|exact HF|intros [|j] g N; discriminate].
    intros b x b' _ E I. apply rbind_ok in E as (s & E & E'). injection E' as <-. apply covergroup_inner in E. intros j g N.
    destruct (Nat.lt_ge_cases j (List.length b)) as [L|L]; [rewrite nth_error_app1 in N by exact L; auto|]. rewrite nth_error_app2 in N by exact L.
    destruct (j - List.length b) as [|q] eqn:Q; cbn in N; [|destruct q; discriminate]. injection N as <-. now replace j with (List.length b) by lia. }
  apply built_resolves; [reflexivity|]. cbn [db_root s_kids List.length]. intros [|[|k]] c N; cbn in N.
  - injection N as <-. right. apply plain_inner; [reflexivity|]. now intros p s.
  - injection N as <-. left. split; [exists [0], 0; repeat split; lia|]. exact K.
  - destruct k; discriminate.
Qed.
