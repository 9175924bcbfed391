(** Which types of scopes and cover items a database contains. *)
From Verif Require Import Base Dict Consts Db BaseFacts Api ApiSpec ApiFacts ApiItems Merge MergeClosed MergeLive P_MergeLive RefsMerge P_Refs Enums TypesSpec Xml XmlReader XmlReadFacts Json Yaml SchemaRead.
Local Open Scope string_scope.
Local Open Scope list_scope.

(** ** Masks *)
Lemma scope_type_pow t : In t scope_types -> exists k, t = (2 ^ k)%N.
Proof.
  intros I. exists (N.log2 t). assert (A : forallb (fun t => (t =? 2 ^ N.log2 t)%N) scope_types = true) by reflexivity.
  rewrite forallb_forall in A. now apply N.eqb_eq, A.
Qed.
Lemma cover_type_pow t : In t cover_types -> exists k, t = (2 ^ k)%N.
Proof.
  intros I. exists (N.log2 t). assert (A : forallb (fun t => (t =? 2 ^ N.log2 t)%N) cover_types = true) by reflexivity.
  rewrite forallb_forall in A. now apply N.eqb_eq, A.
Qed.
Lemma hit_pow k m : mask_hit (2 ^ k) m = N.testbit m k.
Proof.
  unfold mask_hit. destruct (N.testbit m k) eqn:T.
  - apply negb_true_iff, N.eqb_neq. intros E. assert (X : N.testbit (N.land (2 ^ k) m) k = false) by (rewrite E; apply N.bits_0).
    rewrite N.land_spec, N.pow2_bits_true, T in X. discriminate.
  - apply negb_false_iff, N.eqb_eq. apply N.bits_inj. intros j. rewrite N.land_spec, N.bits_0, N.pow2_bits_eqb.
    destruct (N.eqb_spec k j) as [<-|]; [now rewrite T|reflexivity].
Qed.
Lemma hit_joined (P : N -> Prop) : (forall t, P t -> exists k, t = (2 ^ k)%N) -> forall t ts, P t -> Forall P ts ->
  mask_hit t (joined ts) = existsb (N.eqb t) ts.
Proof.
  intros H t ts p F. destruct (H t p) as [k ->]. rewrite hit_pow. induction F as [|u ts q F IH]; [apply N.bits_0|].
  cbn [joined fold_right existsb]. fold (joined ts). rewrite N.lor_spec, IH. f_equal. destruct (H u q) as [j ->]. rewrite N.pow2_bits_eqb.
  destruct (N.eqb_spec j k) as [->|D]; symmetry; [apply N.eqb_refl|]. apply N.eqb_neq. intros E. apply D. symmetry. revert E. apply N.pow_inj_r. lia.
Qed.

(** ** Trees with listed types only *)
Inductive good : scope -> Prop :=
| Good a items iitems kids :
    Forall (fun i => In (cd_type (ci_data i)) cover_types) items ->
    Forall (fun c => In (s_type c) scope_types /\ good c) kids -> good (Scope a items iitems kids).
Definition good_kid (c : scope) : Prop := In (s_type c) scope_types /\ good c.
Definition good_item (i : item) : Prop := In (cd_type (ci_data i)) cover_types.

Lemma good_parts s : good s <-> Forall good_item (s_items s) /\ Forall good_kid (s_kids s).
Proof. split; [intros []; now split|]. destruct s. intros [H K]. now constructor. Qed.
Lemma good_get s : good s -> forall h c, get_at s h = Some c -> good c /\ (h <> [] -> In (s_type c) scope_types).
Proof.
  intros G h. revert s G. induction h as [|k h IH]; intros s G c E; cbn in E; [injection E as <-; split; [exact G|congruence]|].
  destruct (nth_error (s_kids s) k) as [x|] eqn:N; [|discriminate]. apply good_parts in G as [_ K]. rewrite Forall_forall in K.
  destruct (K x (nth_error_In _ _ N)) as [T G]. destruct (IH x G c E) as [G' T']. split; [exact G'|]. intros _.
  destruct h; [cbn in E; now injection E as <-|]. apply T'. discriminate.
Qed.
Lemma good_child s c : good s -> good_kid c -> good (add_child s c).
Proof. rewrite !good_parts. intros [I K] C. split; [exact I|]. cbn. apply Forall_app. split; auto. Qed.
Lemma good_add_item s i : good s -> good_item i -> good (add_item s i).
Proof. rewrite !good_parts. intros [I K] C. split; [|exact K]. cbn. apply Forall_app. split; auto. Qed.
Lemma good_new a : good (new_scope a). Proof. constructor; constructor. Qed.
Ltac listed := vm_compute; repeat (first [left; reflexivity | right]).

(** ** Calls *)
Definition same_tree (s s' : scope) : Prop := s_type s' = s_type s /\ s_items s' = s_items s /\ s_kids s' = s_kids s.
Lemma same_good s s' : same_tree s s' -> good s -> good s' /\ s_type s' = s_type s.
Proof. intros (T & I & K) G. split; [|exact T]. apply good_parts in G. apply good_parts. now rewrite I, K. Qed.
Lemma set_int_same s idx p v s' : set_int s idx p v = Ok s' -> same_tree s s'.
Proof.
  unfold set_int, covergroup_set, cvg_set, inst_set, scope_set.
  destruct p, (s_cls s); intros H; try discriminate;
    try (destruct (py_index _ _) in H; [|discriminate]); injection H as <-; repeat split; reflexivity.
Qed.
Lemma set_field_same s f s' : set_field s f = Ok s' -> same_tree s s'.
Proof.
  unfold set_field, need. destruct f; cbn; intros H; try destruct (is_cvg (s_cls s)) in H; try destruct (is_cg (s_cls s)) in H; try discriminate; injection H as <-; repeat split; reflexivity.
Qed.
Lemma adding_good h s m : good s -> (forall c, m = Ok c -> good_kid c) -> good (fst (adding h s m)) /\ s_type (fst (adding h s m)) = s_type s.
Proof. intros G K. destruct m as [c|e]; cbn; split; auto. apply good_child; auto. Qed.
Lemma created_good c name src weight source t flags x : In t scope_types -> create_scope c name src weight source t flags = Ok x -> good_kid x.
Proof.
  intros T. unfold create_scope, inst_create_scope, mem_create_scope. destruct (is_inst c).
  - destruct (mask_hit t COVERGROUP); [|discriminate]. intros H. injection H as <-. split; [listed|apply good_new].
  - destruct (DU_ANY t); [intros H; injection H as <-; split; [exact T|apply good_new]|].
    destruct (t =? COVERGROUP)%N; [intros H; injection H as <-; split; [listed|apply good_new]|].
    destruct (t =? COVERINSTANCE)%N; [intros H; injection H as <-; split; [listed|apply good_new]|].
    destruct (t =? COVERPOINT)%N; [intros H; injection H as <-; split; [listed|apply good_new]|discriminate].
Qed.
Lemma act_good root h s o : good s -> listed_call o -> good (fst (act root h s o)) /\ s_type (fst (act root h s o)) = s_type s.
Proof.
  intros G L. destruct o; cbn [act fst listed_call] in *; try (split; [exact G|reflexivity]).
  - apply adding_good; auto. intros c. now apply created_good.
  - apply adding_good; auto. intros c H. apply rbind_ok in H as (_ & _ & H). injection H as <-. split; [exact L|apply good_new].
  - apply adding_good; auto. unfold create_toggle. intros c. destruct (is_inst (s_cls s)); [|discriminate]. intros H. injection H as <-. split; [listed|apply good_new].
  - apply adding_good; auto. intros c H. injection H as <-. split; [listed|apply good_new].
  - apply adding_good; auto. intros c. unfold need. destruct (is_cg (s_cls s)); [|discriminate]. intros H. injection H as <-. split; [listed|apply good_new].
  - apply adding_good; auto. intros c H. apply rbind_ok in H as (r & _ & H). unfold need in H. destruct (is_cg (s_cls s)); [|discriminate]. injection H as <-. split; [listed|apply good_new].
  - apply adding_good; auto. intros c. destruct (is_database (s_cls s)); [discriminate|]. unfold need. destruct (is_cg (s_cls s)); [|discriminate]. apply created_good. listed.
  - destruct (Api.is_point (s_cls s)); [|split; [exact G|reflexivity]]. split; [|reflexivity]. apply good_add_item; auto.
  - destruct (is_inst (s_cls s)); (split; [|reflexivity]); [|apply good_add_item; auto]. apply good_parts in G. now apply good_parts.
  - destruct (nth_error (s_items s) i) as [x|]; [|split; [exact G|reflexivity]]. split; [|reflexivity]. apply good_parts in G as [I K]. apply good_parts. split; [|exact K].
    cbn. clear -I. revert i. induction I as [|y l H I IH]; intros [|i]; cbn; constructor; auto.
  - unfold assigning. destruct (set_int _ _ _ _) as [s'|e] eqn:E; [|split; [exact G|reflexivity]]. exact (same_good _ _ (set_int_same _ _ _ _ _ E) G).
  - unfold reading. destruct (get_int _ _ _); (split; [exact G|reflexivity]).
  - unfold assigning. destruct (set_field _ _) as [s'|e] eqn:E; [|split; [exact G|reflexivity]]. exact (same_good _ _ (set_field_same _ _ _ E) G).
Qed.
Lemma upd_good h : forall s f, (forall c, get_at s h = Some c -> good c -> good (f c) /\ s_type (f c) = s_type c) -> good s -> good (upd_at s h f) /\ s_type (upd_at s h f) = s_type s.
Proof.
  induction h as [|k h IH]; intros s f H G; cbn; [now apply H|]. split; [|reflexivity]. apply good_parts in G as [I K]. apply good_parts. split; [exact I|]. cbn.
  cbn in H. revert k H. induction K as [|x l [T X] K IHl]; intros k H; destruct k; cbn; constructor; auto; try (split; auto).
  - destruct (IH x f H X) as [A B]. now rewrite B.
  - now apply IH.
Qed.
Lemma step_good d o : good (db_root d) -> listed_call o -> good (db_root (fst (step d o))).
Proof.
  intros G L. unfold step. destruct (target o) as [h|] eqn:T.
  - destruct (get_at (db_root d) h) as [s|] eqn:E; [|exact G]. pose proof (fun H => act_good (db_root d) h s o H L) as A.
    destruct (act (db_root d) h s o) as [s' r]. cbn in *. apply upd_good; [|exact G]. intros c E'. rewrite E in E'. injection E' as <-. exact A.
  - destruct o; try discriminate; cbn; try exact G; [destruct (index_of _ _)|destruct (nth_error _ _)..]; exact G.
Qed.

(** ** Merges, also failing ones *)
Definition keeps {A} (m : ST scope A) : Prop := forall s, good s -> good (fst (m s)) /\ s_attrs (fst (m s)) = s_attrs s.
Lemma keeps_ret {A} (a : A) : keeps (sret a). Proof. now split. Qed.
Lemma keeps_lift {A} (r : res A) : keeps (slift r). Proof. now split. Qed.
Lemma keeps_bind {A B} (m : ST scope A) (k : A -> ST scope B) : keeps m -> (forall a, keeps (k a)) -> keeps (sbind m k).
Proof.
  intros H K s G. destruct (H s G) as [H1 H2]. unfold sbind. destruct (m s) as [s' [a|e]]; cbn [fst] in *; [|now split]. destruct (K a s' H1) as [K1 K2].
  split; [exact K1|congruence].
Qed.
Lemma keeps_for {A} (f : A -> ST scope unit) l : (forall x, In x l -> keeps (f x)) -> keeps (sfor f l).
Proof.
  induction l as [|x l IH]; intros H; cbn; [apply keeps_ret|]. apply keeps_bind; [apply H; now left|]. intros _. apply IH. intros y I. apply H. now right.
Qed.
Lemma keeps_fold {A B} (f : B -> A -> ST scope B) l : (forall b x, keeps (f b x)) -> forall b, keeps (sfold f l b).
Proof. intros H. induction l as [|x l IH]; intros b; cbn; [apply keeps_ret|]. apply keeps_bind; auto. Qed.
Lemma keeps_child {A} base c (m : handle -> ST scope A) : good_kid c -> (forall p, keeps (m p)) -> keeps (new_child base c m).
Proof.
  intros [T C] K s G. unfold new_child. destruct (K (base ++ [List.length (s_kids s)]) c C) as [K1 K2]. destruct (m _ c) as [c' r]. cbn [fst] in *. split; [|reflexivity].
  apply good_child; auto. split; [|exact K1]. unfold s_type. now rewrite K2.
Qed.
Lemma keeps_bins l : keeps (merge_bins l).
Proof.
  apply keeps_for. intros k I. apply keeps_bind; [apply keeps_lift|]. intros mn. apply keeps_for. intros n _. apply keeps_bind; [apply keeps_lift|]. intros e s G. cbn. split; [|reflexivity].
  apply good_add_item; auto. unfold good_item. cbn. destruct I as [<-|[<-|[<-|[]]]]; listed.
Qed.
Lemma keeps_points base l : keeps (merge_coverpoints base l).
Proof.
  unfold merge_coverpoints. destruct (collect _ _) as [m names]. apply keeps_fold. intros b n. apply keeps_bind; [apply keeps_lift|]. intros g. apply keeps_bind; [apply keeps_lift|]. intros c.
  apply keeps_child; [split; [listed|apply good_new]|]. intros p. apply keeps_bind; [apply keeps_bins|]. intros _. apply keeps_ret.
Qed.
Lemma keeps_crosses base dm l : keeps (merge_crosses base dm l).
Proof.
  unfold merge_crosses. destruct (collect_list _ _) as [m names]. apply keeps_for. intros n _. apply keeps_bind; [apply keeps_lift|]. intros g. apply keeps_bind; [apply keeps_lift|]. intros c.
  apply keeps_bind; [apply keeps_lift|]. intros r. apply keeps_child; [split; [listed|apply good_new]|]. intros _. apply keeps_bins.
Qed.
Lemma keeps_root srcs : keeps (merge_root srcs).
Proof.
  unfold merge_root. destruct (collect _ _) as [m names]. apply keeps_for. intros n _. apply keeps_bind; [apply keeps_lift|]. intros g. apply keeps_bind; [apply keeps_lift|]. intros c.
  apply keeps_bind; [apply keeps_lift|]. intros du. apply keeps_bind; [apply keeps_child; [split; [listed|apply good_new]|]; intros p; apply keeps_ret|]. intros dup.
  apply keeps_child; [split; [listed|apply good_new]|]. intros p. unfold merge_covergroups. destruct (collect _ _) as [m' names']. apply keeps_for. intros n' _.
  apply keeps_bind; [apply keeps_lift|]. intros g'. apply keeps_bind; [apply keeps_lift|]. intros c'. apply keeps_child; [split; [listed|apply good_new]|]. intros q. unfold merge_covergroup.
  apply keeps_bind; [apply keeps_points|]. intros dm. apply keeps_bind; [apply keeps_crosses|]. intros _. unfold merge_coverinsts. destruct (collect _ _) as [m2 names2]. apply keeps_for. intros n2 _.
  apply keeps_bind; [apply keeps_lift|]. intros g2. apply keeps_bind; [apply keeps_lift|]. intros c2. apply keeps_child; [split; [listed|apply good_new]|]. intros p2.
  apply keeps_bind; [apply keeps_points|]. intros dm2. apply keeps_crosses.
Qed.
Lemma merge_good d srcs : good (db_root d) -> good (db_root (fst (merge d srcs))).
Proof.
  intros G. unfold merge. destruct (keeps_root (map db_root srcs) (db_root d) G) as [H _]. destruct (merge_root _ _) as [r x]. exact H.
Qed.

(** ** XML documents *)
Lemma good_leaf a items : Forall good_item items -> good (Scope a items [] []).
Proof. intros H. constructor; auto. Qed.
Definition good_tally (m : dict (N * Z)) : Prop := Forall (fun x : string * (N * Z) => In (fst (snd x)) cover_types) m.
Lemma dset_forall {V} (P : string * V -> Prop) k v (d : dict V) : P (k, v) -> Forall P d -> Forall P (dset k v d).
Proof.
  intros p F. induction F as [|[k' v'] d q F IH]; cbn; [constructor; auto|]. destruct (String.eqb_spec k k') as [<-|E]; constructor; auto.
Qed.
Lemma dget_forall {V} (P : string * V -> Prop) k v (d : dict V) : dget k d = Some v -> Forall P d -> P (k, v).
Proof. intros G F. rewrite Forall_forall in F. apply F. now apply dget_In_pair. Qed.
Lemma read_bin_good st e st' : read_bin st e = Ok st' -> Forall good_item (fst st) /\ good_tally (snd st) -> Forall good_item (fst st') /\ good_tally (snd st').
Proof.
  destruct st as [items m]. unfold read_bin. intros H [I M]. apply rbind_ok in H as (c & _ & H). apply rbind_ok in H as (kind & K & H). apply rbind_ok in H as (n & _ & H). injection H as <-. cbn [fst snd] in *.
  assert (L : In kind cover_types).
  { unfold bin_kind_of in K. destruct (_ || _) in K; [injection K as <-; listed|]. destruct (seqb _ "ignore") in K; [injection K as <-; listed|].
    destruct (seqb _ "illegal") in K; [injection K as <-; listed|discriminate]. }
  split; [apply Forall_app; split; [exact I|constructor; [exact L|constructor]]|]. unfold tally. destruct (dget _ m) as [[k z]|] eqn:D; apply dset_forall; auto.
  exact (dget_forall (fun x : string * (N * Z) => In (fst (snd x)) cover_types) _ _ _ D M).
Qed.
Definition good_cps (m : cp_map) : Prop := Forall (fun x : string * (nat * dict (N * Z)) => good_tally (snd (snd x))) m.
Definition good_ist (st : ist) : Prop := good_cps (i_cps st) /\ Forall good_kid (i_kids st).
Lemma read_point_good k st e st' : read_coverpoint k st e = Ok st' -> good_ist st -> good_ist st'.
Proof.
  intros H [C K]. unfold read_coverpoint in H.
  destruct (if dmem _ _ then _ else _) as [new cps] eqn:B in H. assert (C' : good_cps cps).
  { destruct (dmem _ _) in B; injection B as <- <-; [exact C|]. apply dset_forall; [constructor|exact C]. }
  apply rbind_ok in H as (en & D & H). apply rbind_ok in H as ([items m] & F & H). injection H as <-.
  unfold dindex in D. destruct (dget _ cps) as [x|] eqn:G in D; [|discriminate]. injection D as <-.
  pose proof (dget_forall (fun x : string * (nat * dict (N * Z)) => good_tally (snd (snd x))) _ _ _ G C') as T. cbn [snd] in T.
  assert (X : Forall good_item items /\ good_tally m).
  { change (Forall good_item (fst (items, m)) /\ good_tally (snd (items, m))). eapply fold_res_inv with (I := fun st => Forall good_item (fst st) /\ good_tally (snd st)); [|exact F|split; [constructor|exact T]].
    intros ? ? ? _. apply read_bin_good. }
  destruct X as [I M]. split; cbn [i_cps i_kids]; [apply dset_forall; [exact M|exact C']|]. apply Forall_app. split; [exact K|]. constructor; [|constructor]. split; [listed|now apply good_leaf].
Qed.
Lemma read_cross_bin_good st e st' : read_cross_bin st e = Ok st' -> Forall good_item (fst st) -> Forall good_item (fst st').
Proof.
  destruct st as [items m]. unfold read_cross_bin. intros H I. apply rbind_ok in H as (c & _ & H). apply rbind_ok in H as (n & _ & H). injection H as <-. cbn [fst] in *.
  apply Forall_app; split; [exact I|constructor; [unfold good_item; listed|constructor]].
Qed.
Lemma read_cross_good base k st e st' : read_cross base k st e = Ok st' -> good_ist st -> good_ist st'.
Proof.
  intros H [C K]. unfold read_cross in H. apply rbind_ok in H as ([new crs] & _ & H). apply rbind_ok in H as (en & _ & H). apply rbind_ok in H as (refs & _ & H).
  apply rbind_ok in H as ([items m] & F & H). injection H as <-. split; cbn [i_cps i_kids]; [exact C|]. apply Forall_app. split; [exact K|]. constructor; [|constructor]. split; [listed|apply good_leaf].
  change (Forall good_item (fst (items, m))). eapply fold_res_inv with (I := fun st => Forall good_item (fst st)); [|exact F|constructor]. intros ? ? ? _. apply read_cross_bin_good.
Qed.
Definition good_slot (s : slot) : Prop := match s with SInst c => good_kid c | _ => True end.
Lemma new_point_inst k st e st' : read_coverpoint k st e = Ok st' -> Forall good_slot (i_new st) -> Forall good_slot (i_new st').
Proof.
  intros H I. unfold read_coverpoint in H. destruct (dmem _ _) in H; apply rbind_ok in H as (en & D & H); apply rbind_ok in H as ([items m] & F & H); injection H as <-; cbn [i_new]; [exact I|].
  apply Forall_app. split; [exact I|repeat constructor].
Qed.
Lemma new_cross_inst base k st e st' : read_cross base k st e = Ok st' -> Forall good_slot (i_new st) -> Forall good_slot (i_new st').
Proof.
  intros H I. unfold read_cross in H. apply rbind_ok in H as ([new crs] & N & H). apply rbind_ok in H as (en & _ & H). apply rbind_ok in H as (refs & _ & H).
  apply rbind_ok in H as ([items m] & F & H). injection H as <-. cbn [i_new]. destruct (dmem _ _) in N; [injection N as <- <-; exact I|]. apply rbind_ok in N as (r & _ & N). injection N as <- <-.
  apply Forall_app. split; [exact I|repeat constructor].
Qed.
Definition good_cg (st : cg_state) : Prop := Forall good_slot (fst (fst st)) /\ good_cps (snd (fst st)).
Lemma read_cg_inst_good base st e st' : read_cg_instance base st e = Ok st' -> good_cg st -> good_cg st'.
Proof.
  destruct st as [[slots cps] crs]. intros H [I C]. cbn [fst snd] in *. unfold read_cg_instance in H. apply rbind_ok in H as (i1 & H1 & H). apply rbind_ok in H as (i2 & H2 & H). injection H as <-.
  set (J := fun st : ist => good_ist st /\ Forall good_slot (i_new st)).
  assert (X : J i2).
  { eapply fold_res_inv with (I := J); [|exact H2|eapply fold_res_inv with (I := J); [|exact H1|]].
    - intros ? ? ? _ E [A B]. split; [eapply read_cross_good|eapply new_cross_inst]; eauto.
    - intros ? ? ? _ E [A B]. split; [eapply read_point_good|eapply new_point_inst]; eauto.
    - repeat split; cbn; auto. }
  destruct X as [[A B] D]. split; cbn [fst snd]; [|exact A]. apply Forall_app. split; [exact I|]. constructor; [|exact D]. split; [listed|]. constructor; [constructor|exact B].
Qed.
Lemma read_covergroup_good base name l g : read_covergroup base name l = Ok g -> good_kid g.
Proof.
  unfold read_covergroup. intros H. apply rbind_ok in H as ([[slots cps] crs] & H1 & H). injection H as <-.
  assert (X : good_cg (slots, cps, crs)).
  { eapply fold_res_inv with (I := good_cg); [|exact H1|split; constructor]. intros ? ? ? _. apply read_cg_inst_good. }
  destruct X as [S C]. cbn [fst snd] in *. split; [listed|]. constructor; [constructor|]. change (Forall good_kid (map (fill cps crs) slots)). apply Forall_map. eapply Forall_impl; [|exact S].
  intros [ci|n|n refs] X; cbn [fill]; [exact X| |]; (split; [listed|]); apply good_leaf.
  - destruct (dget n cps) as [[p m]|] eqn:D; [|constructor]. pose proof (dget_forall (fun x : string * (nat * dict (N * Z)) => good_tally (snd (snd x))) _ _ _ D C) as T. cbn in T.
    unfold type_bins. apply Forall_map. exact T.
  - destruct (dget n crs); [|constructor]. unfold type_cross_bins. apply Forall_map. apply Forall_forall. intros x _. unfold good_item. listed.
Qed.
Definition good_insts (m : dict (nat * list scope)) : Prop := Forall (fun x : string * (nat * list scope) => Forall good_kid (snd (snd x))) m.
Lemma read_instance_good ids st e st' : read_instance ids st e = Ok st' -> good_insts (r_insts st) -> good_insts (r_insts st').
Proof.
  intros H I. unfold read_instance in H. apply rbind_ok in H as (name & _ & H). apply rbind_ok in H as (us & _ & H).
  destruct (get_scope _ st) as [st1 du] eqn:G1. destruct (get_inst_scope name du st1) as [st2 x] eqn:G2. apply rbind_ok in H as (cgs & F & H). injection H as <-. cbn [r_insts].
  assert (I1 : good_insts (r_insts st1)). { unfold get_scope in G1. destruct (dget _ _) in G1; injection G1 as <- _; exact I. }
  assert (X : good_insts (r_insts st2) /\ Forall good_kid (snd x)).
  { unfold get_inst_scope in G2. destruct (dget name (r_insts st1)) as [y|] eqn:D; injection G2 as <- <-.
    - split; [exact I1|]. exact (dget_forall (fun x : string * (nat * list scope) => Forall good_kid (snd (snd x))) _ _ _ D I1).
    - split; [|constructor]. cbn [r_insts]. apply dset_forall; [constructor|exact I1]. }
  destruct X as [I2 K]. apply dset_forall; [|exact I2]. cbn [snd]. eapply fold_res_inv with (I := Forall good_kid); [|exact F|exact K].
  intros a y b _ H A. unfold read_covergroups in H. eapply fold_res_inv with (I := Forall good_kid); [|exact H|exact A].
  intros a' z b' _ H' A'. apply rbind_ok in H' as (g & R & H'). injection H' as <-. apply Forall_app. split; [exact A'|]. constructor; [|constructor]. eapply read_covergroup_good; eauto.
Qed.
Lemma read_good tf doc d : read tf doc = Ok d -> good (db_root d).
Proof.
  intros H. unfold read in H. apply rbind_ok in H as ([names ids] & _ & H). apply rbind_ok in H as (hs & _ & H). apply rbind_ok in H as (st & F & H). injection H as <-. cbn [db_root].
  assert (X : good_insts (r_insts st)).
  { eapply fold_res_inv with (I := fun st => good_insts (r_insts st)); [|exact F|constructor]. intros ? ? ? _. apply read_instance_good. }
  constructor; [constructor|]. change (Forall good_kid (map (rfill (r_insts st)) (r_slots st))). apply Forall_map. apply Forall_forall. intros [n|n du] _; cbn [rfill]; (split; [listed|]); [apply good_new|].
  constructor; [constructor|]. change (Forall good_kid (match dget n (r_insts st) with Some (_, cgs) => cgs | None => [] end)). destruct (dget n (r_insts st)) as [[p c]|] eqn:D; [|constructor].
  exact (dget_forall (fun x : string * (nat * list scope) => Forall good_kid (snd (snd x))) _ _ _ D X).
Qed.

(** ** YAML documents *)
Lemma y_bins_good a k bs : In k cover_types -> Forall good_item (y_bins a k bs).
Proof. intros H. unfold y_bins. apply Forall_map. apply Forall_forall. intros b _. exact H. Qed.
Lemma record_point_good n a b i l : good_kid (record_point n a b i l).
Proof. split; [listed|]. apply good_leaf. rewrite !Forall_app. repeat split; apply y_bins_good; listed. Qed.
Lemma record_cross_good n a r b : good_kid (record_cross n a r b).
Proof. split; [listed|]. apply good_leaf. apply y_bins_good; listed. Qed.
Lemma process_good base g s : process_covergroup base g = Ok s -> good_kid s.
Proof.
  unfold process_covergroup. intros H. apply rbind_ok in H as ([ps cs] & _ & H). apply rbind_ok in H as (tcs & T & H). destruct (yg_insts g) as [is|]; [|discriminate].
  apply rbind_ok in H as ([m kids] & F & H). injection H as <-. split; [listed|]. constructor; [constructor|]. change (Forall good_kid (snd (m, kids))).
  eapply fold_res_inv with (I := fun st => Forall good_kid (snd st)); [|exact F|].
  - intros [m1 k1] i [m2 k2] _ R K. unfold record_inst in R. apply rbind_ok in R as (crosses & C & R). injection R as _ <-. cbn [snd] in *. apply Forall_app. split; [exact K|]. constructor; [|constructor].
    split; [listed|]. constructor; [constructor|]. apply Forall_app. split.
    + apply Forall_map. apply Forall_forall. intros p _. apply record_point_good.
    + eapply traverse_forall; [|exact C]. intros c x E. apply rbind_ok in E as (ns & _ & E). apply rbind_ok in E as (refs & _ & E). injection E as <-. apply record_cross_good.
  - cbn [snd]. apply Forall_app. split.
    + unfold type_point_scopes. apply Forall_map. apply Forall_forall. intros p _. apply record_point_good.
    + unfold type_cross_scopes in T. eapply traverse_forall; [|exact T]. intros c x E. apply rbind_ok in E as (refs & _ & E). injection E as <-. apply record_cross_good.
Qed.
Lemma load_good doc d : load doc = Ok d -> good (db_root d).
Proof.
  intros H. unfold load in H. destruct (jvalid coverage_schema doc); [|discriminate]. apply rbind_ok in H as (v & _ & H). unfold build in H. destruct v as [gs|]; [|discriminate].
  apply rbind_ok in H as (cgs & F & H). injection H as <-. cbn [db_root]. constructor; [constructor|]. constructor; [split; [listed|apply good_new]|]. constructor; [|constructor]. split; [listed|].
  constructor; [constructor|]. change (Forall good_kid cgs). eapply fold_res_inv with (I := Forall good_kid); [|exact F|constructor].
  intros a g b _ E A. apply rbind_ok in E as (s & P & E). injection E as <-. apply Forall_app. split; [exact A|]. constructor; [|constructor]. eapply process_good; eauto.
Qed.
