(** Exceptions of the API calls. *)
From Verif Require Import Base Consts Db Hist Api ApiSpec ApiFacts ApiProps BaseFacts P_Created RaiseSpec.
Set Implicit Arguments.

Lemma py_index_none len i : py_index len i = None <-> ~ in_range i len.
Proof.
  rewrite <- py_index_some. destruct (py_index len i) as [j|]; split; intros H; try discriminate; auto.
  - exfalso. apply H. eauto.
  - intros [j E]. discriminate.
Qed.
Lemma py_index_lt len i j : py_index len i = Some j -> j < len.
Proof.
  unfold py_index. destruct (Z.leb_spec 0 i); [destruct (Z.ltb_spec i (Z.of_nat len))|destruct (Z.leb_spec 0 (i + Z.of_nat len))];
    intros E; try discriminate; injection E as <-; lia.
Qed.

Ltac fin := split; [intros H; (discriminate H || (injection H as <-; auto 8))
                   |intros [[H1 H2]|(H1 & H2 & H3 & H4)]; subst; try discriminate; auto].
Lemma set_int_err s idx p v e : set_int s idx p v = Err e <->
  (writable (s_cls s) p = false /\ e = UnimplError) \/
  (p = STMT_INDEX /\ writable (s_cls s) p = true /\ ~ in_range idx (List.length (s_iitems s)) /\ e = IndexError).
Proof.
  rewrite <- py_index_none. unfold set_int, scope_set, inst_set, covergroup_set, cvg_set, writable, readable.
  destruct p; try fin; destruct (s_cls s) as [| |[u|]| | | |l]; try fin; destruct (py_index _ _); fin.
Qed.
Lemma get_int_err s idx p e : get_int s idx p = Err e <->
  (readable (s_cls s) p = false /\ e = UnimplError) \/
  (p = STMT_INDEX /\ readable (s_cls s) p = true /\ ~ in_range idx (List.length (s_iitems s)) /\ e = IndexError).
Proof.
  rewrite <- py_index_none. unfold get_int, scope_get, inst_get, covergroup_get, cvg_get, ucis_get, readable.
  destruct p; try fin; destruct (s_cls s) as [| |[u|]| | | |l]; try fin;
    (destruct (py_index _ _) as [j|] eqn:Ej; [apply py_index_lt in Ej; apply nth_error_Some in Ej; destruct (nth_error (s_iitems s) j); [|congruence]|]; fin).
Qed.

Lemma there_get d h : there d h -> exists s, get_at (db_root d) h = Some s.
Proof. unfold there, view, vw. destruct (get_at (db_root d) h); eauto. intros []; reflexivity. Qed.
Lemma refs_there d l : Forall (there d) l -> exists x, cross_refs (db_root d) l = Ok x.
Proof.
  unfold cross_refs. induction 1 as [|h l Hh _ [x IH]]; cbn; eauto. destruct (there_get Hh) as (s & E).
  unfold at_handle at 1. rewrite E. cbn [rbind]. rewrite IH. cbn. eauto.
Qed.
Lemma inst_class_iff c : is_inst c = true <-> instance_class c.
Proof. destruct c; cbn; split; auto; discriminate || contradiction. Qed.
Lemma inst_class_not c : is_inst c = false <-> ~ instance_class c.
Proof. destruct c; cbn; split; auto; try discriminate; intros H; exfalso; auto. Qed.
Lemma cg_class_not c : is_cg c = false <-> ~ covergroup_class c.
Proof. unfold covergroup_class. destruct c; cbn; split; auto; try discriminate; try (intros H; exfalso; auto; fail). Qed.
Lemma cg_class_iff c : is_cg c = true <-> covergroup_class c.
Proof. unfold covergroup_class. destruct c; cbn; split; auto; try discriminate. Qed.
Lemma point_class_not c : is_point c = false <-> ~ point_class c.
Proof. destruct c; cbn; split; auto; try discriminate; intros H; exfalso; auto. Qed.
Lemma point_class_iff c : is_point c = true <-> point_class c.
Proof. destruct c; cbn; split; auto; discriminate || contradiction. Qed.
Lemma created_err c n s w so t f e : create_scope c n s w so t f = Err e <->
  (instance_class c /\ N.testbit t 12 = false /\ e = UnimplError) \/
  (~ instance_class c /\ du_type t = false /\ t <> COVERGROUP /\ t <> COVERINSTANCE /\ t <> COVERPOINT /\ e = NotImplementedError).
Proof.
  unfold create_scope, inst_create_scope, mem_create_scope. rewrite (mask_hit_bit t 12 : mask_hit t COVERGROUP = _), <- du_type_any.
  destruct (is_inst c) eqn:Ec.
  - apply inst_class_iff in Ec. destruct (N.testbit t 12); split; try discriminate; try (intros [(_ & H & _)|(H & _)]; [discriminate|contradiction]).
    + intros H. injection H as <-. auto.
    + intros [(_ & _ & ->)|(H & _)]; [auto|contradiction].
  - apply inst_class_not in Ec. destruct (du_type t).
    { split; [discriminate|]. intros [(H & _)|(_ & H & _)]; [contradiction|discriminate]. }
    destruct (N.eqb_spec t COVERGROUP). { split; [discriminate|]. intros [(H & _)|(_ & _ & H & _)]; contradiction. }
    destruct (N.eqb_spec t COVERINSTANCE). { split; [discriminate|]. intros [(H & _)|(_ & _ & _ & H & _)]; contradiction. }
    destruct (N.eqb_spec t COVERPOINT). { split; [discriminate|]. intros [(H & _)|(_ & _ & _ & _ & H & _)]; contradiction. }
    split; [intros H; injection H as <-; auto 10|]. intros [(H & _)|(_ & _ & _ & _ & _ & ->)]; [contradiction|auto].
Qed.

Lemma adding_snd h s m e : snd (adding h s m) = Err e <-> m = Err e.
Proof. destruct m; cbn; split; congruence. Qed.
Lemma need_err {A} b (x : A) e : need b (Ok x) = Err e <-> b = false /\ e = AttributeError.
Proof. destruct b; cbn; split; try discriminate; intuition congruence. Qed.

Lemma raises d o n h e : objects_exist d o -> target o = Some h -> view d h = Some n ->
  snd (step d o) = Err e <-> fails (a_cls (n_attrs n)) (List.length (n_iitems n)) o e.
Proof.
  intros [HT HO] Ht Hv. destruct (view_some _ _ Hv) as (s & Hg & ->). cbn [n_attrs n_iitems node_of]. fold (s_cls s).
  unfold step. rewrite Ht, Hg.
  replace (snd (let (s', r) := act (db_root d) h s o in (with_root d (upd_at (db_root d) h (fun _ => s')), r)))
    with (snd (act (db_root d) h s o)) by (destruct (act (db_root d) h s o); reflexivity).
  destruct o; cbn [target] in Ht; try discriminate; injection Ht as ->; cbn [act] in *.
  - rewrite adding_snd, created_err. split; [intros [(? & ? & ->)|(? & ? & ? & ? & ? & ->)]; now constructor|].
    intros H. inversion H; subst; auto 10.
  - rewrite adding_snd. destruct du as [u|]; cbn in HO |- *.
    + destruct (there_get HO) as (x & E). unfold at_handle. rewrite E. cbn. split; [discriminate|]. intros H; inversion H.
    + split; [discriminate|]. intros H; inversion H.
  - rewrite adding_snd. unfold create_toggle. destruct (is_inst (s_cls s)) eqn:Ec.
    + split; [discriminate|]. apply inst_class_iff in Ec. intros H; inversion H; subst; contradiction.
    + apply inst_class_not in Ec. split; [intros H; injection H as <-; now constructor|]. intros H; inversion H; auto.
  - rewrite adding_snd. split; [discriminate|]. intros H; inversion H.
  - rewrite adding_snd, need_err, cg_class_not. split; [intros [? ->]; now constructor|]. intros H; inversion H; auto.
  - rewrite adding_snd. destruct (refs_there HO) as (x & ->). cbn. rewrite need_err, cg_class_not.
    split; [intros [? ->]; now constructor|]. intros H; inversion H; auto.
  - rewrite adding_snd. destruct (s_cls s) as [| |u| | | |l] eqn:Ec; cbn;
      try (split; [intros H; injection H as <-; constructor; unfold covergroup_class; congruence|];
           intros H; inversion H; subst; congruence || reflexivity).
    split; [discriminate|]. intros H; inversion H; subst; congruence.
  - destruct (is_point (s_cls s)) eqn:Ec; cbn.
    + apply point_class_iff in Ec. split; [discriminate|]. intros H; inversion H; subst; contradiction.
    + apply point_class_not in Ec. split; [intros H; injection H as <-; now constructor|]. intros H; inversion H; auto.
  - destruct (is_inst (s_cls s)); cbn; (split; [discriminate|]; intros H; inversion H).
  - unfold item_at in HO. rewrite Hv in HO. cbn in HO. destruct (nth_error (s_items s) i); [|congruence]. cbn.
    split; [discriminate|]. intros H; inversion H.
  - transitivity (set_int s idx p v = Err e); [destruct (set_int s idx p v); cbn; split; congruence|]. rewrite set_int_err.
    split; [intros [[? ->]|(-> & ? & ? & ->)]; now constructor|]. intros H; inversion H; subst; auto 6.
  - transitivity (get_int s idx p = Err e); [destruct (get_int s idx p); cbn; split; congruence|]. rewrite get_int_err.
    split; [intros [[? ->]|(-> & ? & ? & ->)]; now constructor|]. intros H; inversion H; subst; auto 6.
  - transitivity (set_field s f = Err e); [destruct (set_field s f); cbn; split; congruence|].
    assert (set_field s f = Err e <-> ~ has_setter (s_cls s) f /\ e = AttributeError) as ->.
    { unfold set_field, need, has_setter, covergroup_class, point_class.
      destruct f; try (split; [discriminate|intros [H _]; exfalso; auto; fail]);
      destruct (s_cls s); cbn; split; try discriminate; try (intros [H _]; exfalso; auto; fail); try (intros [_ ->]; reflexivity);
      intros H; injection H as <-; split; auto; intuition discriminate. }
    split; [intros [? ->]; now constructor|]. intros H; inversion H; auto.
  - cbn. split; [discriminate|]. intros H; inversion H.
  - cbn. split; [discriminate|]. intros H; inversion H.
Qed.
Lemma raises_none d o : objects_exist d o -> target o = None -> exists r, snd (step d o) = Ok r.
Proof.
  intros [_ HO] Ht. unfold step. rewrite Ht. destruct o; cbn in Ht; try discriminate; cbn; eauto.
  - destruct (index_of _ _); cbn; eauto.
  - apply nth_error_Some in HO. destruct (nth_error (db_hist d) i); [cbn; eauto|congruence].
  - apply nth_error_Some in HO. destruct (nth_error (db_hist d) i); [cbn; eauto|congruence].
Qed.
