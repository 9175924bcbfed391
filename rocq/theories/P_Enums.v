(** C97: the types of the enumerations, and masks made of them. *)
From Verif Require Import Base Dict Consts Db BaseFacts Api Iter IterFacts ApiSpec ApiFacts ApiItems Enums TypesSpec TypesFacts Merge MergeLive P_MergeLive Json Yaml Xml XmlReader P_Refs P_Api P_Yaml Samples MergeStruct.
Local Open Scope string_scope.
Local Open Scope list_scope.

(** Every type is one bit, and no two types (and no two names) are the same. *)
Theorem C97_one_bit_each :
  NoDup (map fst scope_type_t) /\ NoDup scope_types /\ (forall t, In t scope_types -> exists k, t = (2 ^ k)%N) /\
  NoDup (map fst cover_type_t) /\ NoDup cover_types /\ (forall t, In t cover_types -> exists k, t = (2 ^ k)%N).
Proof.
  repeat split; try exact scope_type_pow; try exact cover_type_pow;
    (repeat (constructor; [cbn; intros H; repeat (destruct H as [H|H]; [discriminate H|]); exact H|]); constructor).
Qed.
Print Assumptions C97_one_bit_each.

(** Databases made with the API, merges and files contain no other type. *)
Lemma made_obtained tf d : made tf d -> obtained tf d.
Proof. intros H. induction H; [apply ObNew|eapply ObXml; eauto|eapply ObYaml; eauto|now apply ObCall|now apply ObMerge]. Qed.
Lemma made_good tf d : made tf d -> good (db_root d).
Proof.
  intros H. induction H as [|doc d H|doc d H|d o H IH L|d srcs H IH].
  - apply good_new.
  - eapply read_good; eauto.
  - eapply load_good; eauto.
  - now apply step_good.
  - rewrite C85_itself_as_source by (eapply C87_references_resolve; apply made_obtained; eassumption). now apply merge_good.
Qed.
Theorem C97_types_listed : forall to_float d, made to_float d -> all_listed d.
Proof.
  intros tf d M h n V. apply view_some in V as (s & G & ->). destruct (good_get _ (made_good _ _ M) _ _ G) as [A B]. split; [exact B|].
  now apply good_parts in A as [A _].
Qed.
Print Assumptions C97_types_listed.

(** A loop over scopes(A | B | ...) visits exactly the children of the types A, B, ... *)
Theorem C97_scopes : forall to_float d h s ts (sel : scope -> bool),
  made to_float d -> get_at (db_root d) h = Some s -> incl ts scope_types ->
  (forall c, sel c = true <-> In (s_type c) ts) ->
  for_loop (of_type (joined ts)) (s_kids s) = Some (filter sel (s_kids s)).
Proof.
  intros tf d h s ts sel M G I H. unfold of_type. rewrite for_loop_filter. f_equal. destruct (good_get _ (made_good _ _ M) _ _ G) as [A _]. apply good_parts in A as [_ K].
  apply filter_ext_in. intros c C. rewrite Forall_forall in K. destruct (K c C) as [T _].
  rewrite (hit_joined (fun t => In t scope_types) scope_type_pow); [|exact T|now apply Forall_forall]. apply eq_true_iff_eq. rewrite H, existsb_exists.
  split; [intros (x & X & E); apply N.eqb_eq in E; now rewrite E|intros X; exists (s_type c); split; [exact X|apply N.eqb_refl]].
Qed.
Print Assumptions C97_scopes.

(** scopes(ALL) visits every child. *)
Theorem C97_all_scopes : forall to_float d h s,
  made to_float d -> get_at (db_root d) h = Some s ->
  for_loop (of_type SCOPE_ALL) (s_kids s) = Some (s_kids s).
Proof.
  intros tf d h s M G. unfold of_type. rewrite for_loop_filter. f_equal. destruct (good_get _ (made_good _ _ M) _ _ G) as [A _]. apply good_parts in A as [_ K].
  apply filter_all. apply Forall_forall. intros c C. rewrite Forall_forall in K. destruct (K c C) as [T _].
  assert (A : forallb (fun t => mask_hit t SCOPE_ALL) scope_types = true) by reflexivity. rewrite forallb_forall in A. now apply A.
Qed.
Print Assumptions C97_all_scopes.

(** The same for coverItems. *)
Theorem C97_items : forall to_float d h s ts (sel : item -> bool),
  made to_float d -> get_at (db_root d) h = Some s -> incl ts cover_types ->
  (forall i, sel i = true <-> In (cd_type (ci_data i)) ts) ->
  for_loop (item_of_type (joined ts)) (s_items s) = Some (filter sel (s_items s)).
Proof.
  intros tf d h s ts sel M G I H. unfold item_of_type. rewrite for_loop_filter. f_equal. destruct (good_get _ (made_good _ _ M) _ _ G) as [A _]. apply good_parts in A as [K _].
  apply filter_ext_in. intros c C. rewrite Forall_forall in K. specialize (K c C).
  rewrite (hit_joined (fun t => In t cover_types) cover_type_pow); [|exact K|now apply Forall_forall]. apply eq_true_iff_eq. rewrite H, existsb_exists.
  split; [intros (x & X & E); apply N.eqb_eq in E; now rewrite E|intros X; exists (cd_type (ci_data c)); split; [exact X|apply N.eqb_refl]].
Qed.
Print Assumptions C97_items.

(** DU_ANY holds of the five design-unit types and of no other type. *)
Theorem C97_design_units : forall n t, In (n, t) scope_type_t ->
  (DU_ANY t = true <-> In n ["DU_MODULE"; "DU_ARCH"; "DU_PACKAGE"; "DU_PROGRAM"; "DU_INTERFACE"]).
Proof.
  intros n t I. assert (A : forallb (fun x : string * N => Bool.eqb (DU_ANY (snd x)) (existsb (seqb (fst x)) ["DU_MODULE"; "DU_ARCH"; "DU_PACKAGE"; "DU_PROGRAM"; "DU_INTERFACE"])) scope_type_t = true) by reflexivity.
  rewrite forallb_forall in A. specialize (A _ I). cbn [fst snd] in A. apply eqb_prop in A. rewrite A, existsb_exists. split.
  - intros (x & X & E). apply String.eqb_eq in E. now subst.
  - intros X. exists n. split; [exact X|apply String.eqb_refl].
Qed.
Print Assumptions C97_design_units.

(** The constants used by the rest of the model are the members of these names. *)
Theorem C97_constants :
  map (fun n => member n (scope_type_t ++ scope_type_specials))
    ["TOGGLE"; "BRANCH"; "EXPR"; "COND"; "INSTANCE"; "COVERGROUP"; "COVERINSTANCE"; "COVERPOINT"; "CROSS"; "DU_MODULE"; "DU_ARCH"; "DU_PACKAGE"; "DU_PROGRAM"; "DU_INTERFACE"; "RESERVEDSCOPE"; "ALL"] =
  map Some [TOGGLE; BRANCH; EXPR; COND; INSTANCE; COVERGROUP; COVERINSTANCE; COVERPOINT; CROSS; DU_MODULE; DU_ARCH; DU_PACKAGE; DU_PROGRAM; DU_INTERFACE; RESERVEDSCOPE; SCOPE_ALL] /\
  map (fun n => member n cover_type_t) ["CVGBIN"; "COVERBIN"; "STMTBIN"; "IGNOREBIN"; "ILLEGALBIN"; "DEFAULTBIN"] =
  map Some [CVGBIN; COVERBIN; STMTBIN; IGNOREBIN; ILLEGALBIN; DEFAULTBIN] /\
  map (fun n => member n cover_flags_t) ["IS_32BIT"; "IS_64BIT"; "IS_VECTOR"; "HAS_GOAL"; "HAS_WEIGHT"] =
  map Some [IS_32BIT; IS_64BIT; IS_VECTOR; HAS_GOAL; HAS_WEIGHT] /\
  map (fun n => member n source_t) ["NONE"; "OTHER"] = map Some [SRC_NONE; SRC_OTHER] /\
  map (fun n => member n history_node_kind) ["NONE"; "ALL"; "TEST"; "MERGE"] = map Some [HISTORY_NONE; HISTORY_ALL; HISTORY_TEST; HISTORY_MERGE].
Proof. repeat split. Qed.
Print Assumptions C97_constants.

(** The other members of CoverTypeT: GENERICBIN is USERBIN under another name;
    USERBITS has the seven bits above BLOCKBIN, RESERVEDBIN the highest eight, and
    neither has a bit of a type: asked for with coverItems, both yield nothing. *)
Theorem C97_special_items :
  member "GENERICBIN" cover_type_specials = member "USERBIN" cover_type_t /\
  exists user reserved,
    member "USERBITS" cover_type_specials = Some user /\ member "RESERVEDBIN" cover_type_specials = Some reserved /\
    (forall k, N.testbit user k = true <-> 25 <= k < 32)%N /\
    (forall k, N.testbit reserved k = true <-> 56 <= k < 64)%N /\
    map fst cover_type_specials = ["GENERICBIN"; "USERBITS"; "RESERVEDBIN"] /\
    forall to_float d h s, made to_float d -> get_at (db_root d) h = Some s ->
      for_loop (item_of_type user) (s_items s) = Some [] /\ for_loop (item_of_type reserved) (s_items s) = Some [].
Proof.
  split; [reflexivity|]. exists (N.shiftl (N.ones 7) 25)%N, (N.shiftl (N.ones 8) 56)%N. split; [reflexivity|]. split; [reflexivity|].
  assert (B : forall n m k, (N.testbit (N.shiftl (N.ones n) m) k = true <-> m <= k < m + n)%N).
  { intros n m k. destruct (N.lt_ge_cases k m) as [X|X].
    - rewrite N.shiftl_spec_low by exact X. split; [discriminate|lia].
    - rewrite N.shiftl_spec_high' by exact X. destruct (N.lt_ge_cases (k - m) n) as [Y|Y].
      + rewrite N.ones_spec_low by exact Y. split; [lia|reflexivity].
      + rewrite N.ones_spec_high by exact Y. split; [discriminate|lia]. }
  split; [intros k; apply (B 7%N 25%N)|]. split; [intros k; apply (B 8%N 56%N)|]. split; [reflexivity|].
  intros tf d h s M G. destruct (good_get _ (made_good _ _ M) _ _ G) as [A _]. apply good_parts in A as [K _].
  unfold item_of_type. rewrite !for_loop_filter. split; f_equal; apply filter_none; apply Forall_forall; intros c C; rewrite Forall_forall in K; specialize (K c C).
  - assert (A : forallb (fun t => negb (mask_hit t (N.shiftl (N.ones 7) 25)%N)) cover_types = true) by reflexivity. rewrite forallb_forall in A. now apply negb_true_iff, A.
  - assert (A : forallb (fun t => negb (mask_hit t (N.shiftl (N.ones 8) 56)%N)) cover_types = true) by reflexivity. rewrite forallb_forall in A. now apply negb_true_iff, A.
Qed.
Print Assumptions C97_special_items.

(** The numbers of the languages and of the test states. *)
Theorem C97_numbers :
  source_t = [("VHDL", 0); ("VLOG", 1); ("SV", 2); ("SYSTEMC", 3); ("PSL_VHDL", 4); ("PSL_VLOG", 5); ("PSL_SV", 6); ("PSL_SYSTEMC", 7);
              ("E", 8); ("VERA", 9); ("NONE", 10); ("OTHER", 11); ("SOURCE_ERROR", 12)]%Z /\
  test_status_t = [("OK", 1); ("WARNING", 2); ("ERROR", 3); ("FATAL", 4); ("MISSING", 5); ("MERGE_ERROR", 6)]%Z.
Proof. split; reflexivity. Qed.
Print Assumptions C97_numbers.

(** The database object itself has a type that ALL does not select. *)
Theorem C97_database_type : forall to_float d, made to_float d -> s_type (db_root d) = RESERVEDSCOPE /\ of_type SCOPE_ALL (db_root d) = false.
Proof.
  intros tf d M. assert (T : s_type (db_root d) = RESERVEDSCOPE); [|split; [exact T|unfold of_type; now rewrite T]]. induction M as [|doc d H|doc d H|d o H IH L|d srcs H IH].
  - reflexivity.
  - unfold read in H. apply rbind_ok in H as ([names ids] & _ & H). apply rbind_ok in H as (hs & _ & H). apply rbind_ok in H as (st & F & H). now injection H as <-.
  - unfold load in H. destruct (jvalid coverage_schema doc); [|discriminate]. apply rbind_ok in H as (v & _ & H). unfold build in H. destruct v as [gs|]; [|discriminate].
    apply rbind_ok in H as (cgs & F & H). now injection H as <-.
  - pose proof (made_good _ _ H) as G. rewrite <- IH. clear IH. unfold step. destruct (target o) as [h|] eqn:T.
    + destruct (get_at (db_root d) h) as [s|] eqn:E; [|reflexivity]. pose proof (fun X => act_good (db_root d) h s o X L) as A.
      destruct (act (db_root d) h s o) as [s' r]. cbn in *. apply upd_good; [|exact G]. intros c E'. rewrite E in E'. injection E' as <-. exact A.
    + destruct o; try discriminate; cbn; try reflexivity; [destruct (index_of _ _)|destruct (nth_error _ _)..]; reflexivity.
  - rewrite C85_itself_as_source by (eapply C87_references_resolve; apply made_obtained; eassumption). unfold merge. set (l := map db_root _).
    destruct (keeps_root l (db_root d) (made_good _ _ H)) as [_ A]. destruct (merge_root l (db_root d)) as [r x]. cbn [fst db_root] in *. unfold s_type in *. now rewrite A.
Qed.
Print Assumptions C97_database_type.

(** A merged database with coverpoints, a cross and a covergroup instance. *)
Definition halved : db := fst (step half_merged (CreateScope [] "pkg" None 1 SRC_OTHER DU_PACKAGE 0)).
Example C97_example :
  made (fun _ => None) halved /\
  match get_at (db_root halved) [3; 0] with
  | Some g => option_map (map s_name) (for_loop (of_type (joined [COVERPOINT; CROSS])) (s_kids g)) <>
              option_map (map s_name) (for_loop (of_type (joined [COVERPOINT; CROSS; COVERINSTANCE])) (s_kids g))
  | None => False
  end /\
  option_map (map s_name) (for_loop (of_type (joined [DU_PACKAGE])) (s_kids (db_root halved))) = Some ["pkg"].
Proof.
  split; [|vm_compute; split; [discriminate|reflexivity]].
  apply MdCall; [|vm_compute; repeat (first [left; reflexivity | right])]. apply MdMerge. apply (MdYaml _ two_insts). vm_compute. reflexivity.
Qed.
