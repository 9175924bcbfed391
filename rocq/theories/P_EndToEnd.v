(** Property theorems about the commands on XML files, from file to file: C70, C71. *)
From Coq Require Import Permutation.
From Verif Require Import Base Dict Consts Db Report ReportSpec NameSpec BaseFacts NubFacts Xml XmlWriter XmlFactory XmlSpec XmlMeans XmlMeansFacts XmlWritable
  Dates DatesFacts Merge MergeSpec Rgy Cmd CmdSpec SchemaSpec SchemaRead FilesSpec FilesFacts FilesMerge FilesRead FilesViews FilesAlgebra FilesWrite FilesYaml Samples
  Text Json Yaml ReportQ XmlDocSpec XmlHistSpec P_Merge P_Xml P_Schema P_Files P_Cmd P_Yaml YamlDocSpec YamlDocFacts.
Set Implicit Arguments.
Local Open Scope string_scope.
Local Open Scope list_scope.

Lemma sound_db : forall d, sound_root (db_root d) -> files_below (db_root d) = [] -> db_hist d = [] ->
  writable_db d /\ complete_db d /\ good_crosses_db d.
Proof.
  intros d [NE S] F H. rewrite Forall_forall in S.
  assert (G : forall i t g, In i (instances (db_root d)) -> In t (covergroups i) -> In g (group_instances t) -> sound_group g).
  { intros i t g Ii It Ig. destruct (S i Ii) as [_ T]. rewrite Forall_forall in T. specialize (T t It). rewrite (sound_instances T) in Ig. destruct T as (_ & _ & T).
    rewrite Forall_forall in T. now apply T. }
  split; [|split].
  - unfold writable_db. rewrite F, H. split; [constructor|]. split; [constructor|]. apply Forall_forall. intros i Ii. destruct (S i Ii) as [N T]. split; [assumption|].
    apply Forall_forall. intros t It. rewrite Forall_forall in T. destruct (T t It) as (Nt & _). split; [assumption|]. apply Forall_forall. intros g Ig.
    destruct (G i t g Ii It Ig) as (Ng & _ & P & X & _). split; [assumption|]. rewrite Forall_forall in P, X. split; apply Forall_forall; intros p Ip; [apply (P p Ip)|apply (X p Ip)].
  - split; [assumption|]. intros i t g Ii It Ig. destruct (G i t g Ii It Ig) as (_ & NP & P & X & _). rewrite Forall_forall in P, X. split; [assumption|]. split.
    + intros p Ip. destruct (P p Ip) as (_ & NB & B). split; [assumption|]. intros b Ib. rewrite Forall_forall in B. apply (B b Ib).
    + intros c b Ic Ib. destruct (X c Ic) as (_ & B). rewrite Forall_forall in B. apply (B b Ib).
  - intros i t g Ii It Ig. apply (G i t g Ii It Ig).
Qed.

Section Files.
  Variable parse : opening -> string -> res elem.
  Variable to_float : string -> option string.
  Variable print_doc : elem -> res string.
  Variable ev : env.
  Variable parse_yaml : string -> res jval.
  Variables (writable : string -> bool).
  Variables (json txt : rpt_format).
  Variable zero : string.
  Hypothesis lxml : good_lxml parse print_doc.
  Hypothesis surroundings : good_env ev.
  Hypothesis reads_zero : to_float "0" = Some zero.
  Notation std' := (std parse to_float print_doc ev parse_yaml writable json txt).
  Notation says := (file_says parse to_float).

  (** *** Reading the sources, merging, writing *)
  Lemma sources : forall w inputs vss, Forall2 (fun p vs => says w p vs /\ plain_content vs) inputs vss ->
    exists ds, Forall2 (holds parse to_float parse_yaml "xml" w) inputs ds /\
      Forall2 (fun d vs => content d = collapse vs) ds vss /\
      Forall (fun d => sound_root (db_root d) /\ bare (db_root d) /\ fit (db_root d) /\ no_repeats (db_root d)) ds.
  Proof.
    intros w inputs vss H. induction H as [|p vs inputs vss ((c & doc & Ef & Ep & (d & R) & S) & T & X) _ (ds & A & B & C)]; [exists []; now repeat constructor|].
    exists (d :: ds). pose proof (proj1 lxml _ _ _ Ep) as Cl. split; [|split]; constructor; try assumption.
    - split; [now left|]. exists c. split; [assumption|]. unfold decode. cbn [String.eqb Ascii.eqb Bool.eqb]. rewrite Ep. exact R.
    - eapply fr_content; eassumption.
    - split; [eapply fr_sound; eassumption|]. split; [eapply fr_bare; eassumption|]. split; [eapply fr_fit; eassumption|eapply fr_no_repeats; eassumption].
  Qed.
  Lemma writing : forall d, sound_root (db_root d) -> files_below (db_root d) = [] -> db_hist d = [] ->
    exists text doc, text_of print_doc ev d = Ok text /\ parse (open_file text) text = Ok doc /\ (exists d', factory_read to_float doc = Ok d') /\ doc_says doc (content d).
  Proof.
    intros d S F H. destruct (sound_db d S F H) as (W & C & G). destruct surroundings as (U & L & T1 & T2 & N1 & N2).
    assert (D : forall x, valid_dt x = true -> (1000 <= dt_year x)%Z -> date_field (VStr (compact x))).
    { intros x V Y. exists (compact x), x. split; [reflexivity|now apply compact_parse]. }
    destruct (proj2 (C69_writable_iff ev d L)) as (e & We); [repeat split; try assumption; try apply D; try assumption; try apply W; intros; now apply D|].
    destruct (proj2 lxml ev d e We) as (text & P & Q). exists text, (reparse e). split; [unfold text_of; rewrite We; exact P|]. split; [assumption|]. split.
    - destruct (C47_read_back to_float ev d e zero We C) as (d' & R & _); try assumption; rewrite ?H; try constructor; auto. now exists d'.
    - eapply written_says; [exact We|]. intros i t g c n Ii It Ig Ic In_. apply (G i t g Ii It Ig c n Ic In_).
  Qed.
  Lemma content_of_sources : forall ds vss, Forall2 (fun d vs => content d = collapse vs) ds vss ->
    flat_map (fun r => map view_inst (instances r)) (map db_root ds) = flat_map collapse vss.
  Proof. induction 1 as [|d vs ds vss E _ IH]; [reflexivity|]. cbn [map flat_map]. unfold content in E. now rewrite E, IH. Qed.
  Lemma merging : forall ds vss, ds <> [] -> Forall2 (fun d vs => content d = collapse vs) ds vss ->
    Forall (fun d => sound_root (db_root d) /\ bare (db_root d) /\ fit (db_root d) /\ no_repeats (db_root d)) ds ->
    exists m, Merge.merge empty_db ds = (m, Ok tt) /\ sound_root (db_root m) /\ files_below (db_root m) = [] /\ db_hist m = [] /\ content m = merge_views (List.concat vss).
  Proof.
    intros ds vss NE E H. rewrite Forall_forall in H. destruct (@C20_fit_sources_merge empty_db ds) as (m & M); [apply Forall_forall; intros d I; apply (H d I)|].
    exists m. split; [assumption|]. pose proof (C15_merged_structure _ _ M) as I.
    assert (NE' : map db_root ds <> []) by (destruct ds; [now contradiction NE|discriminate]).
    assert (SS : Forall sound_root (map db_root ds)) by (apply Forall_map, Forall_forall; intros d J; apply (H d J)).
    split; [now apply (merge_sound _ _ I)|]. split; [|split].
    - eapply merge_no_files; [exact I|]. apply Forall_map, Forall_forall. intros d J. apply (H d J).
    - destruct (C21_destination_kept _ _ M) as (_ & _ & ->). reflexivity.
    - unfold content. rewrite (root_view_merge I NE' SS); [|apply Forall_map, Forall_forall; intros d J; apply (H d J)].
      rewrite (content_of_sources E). apply merge_collapses.
  Qed.

  (** ** C70 *)

  (** Files that are accepted, give every name once and have no cross over an
      unnamed coverpoint can be merged; the result is again such a file, and it
      says the merge of what the sources say. *)
  Theorem C70_merge_files :
    forall inputs out w vss,
      inputs <> [] -> writable out = true -> Forall2 (fun p vs => says w p vs /\ plain_content vs) inputs vss ->
      exists w', merge_cmd std' None None inputs out w = (w', Ok tt) /\ only_touches inputs out w w' /\
        says w' out (merge_views (List.concat vss)) /\ plain_content (merge_views (List.concat vss)).
  Proof.
    intros inputs out w vss NE Wr H. destruct (sources H) as (ds & Hd & E & P).
    assert (ND : ds <> []) by (intros ->; inversion Hd; subst; now apply NE).
    destruct (merging ND E P) as (m & M & S & F & Hh & C). destruct (writing m S F Hh) as (text & doc & T & Pd & R & D). rewrite C in D.
    destruct (merge_cmd std' None None inputs out w) as [w' r] eqn:Ew. exists w'.
    assert (r = Ok tt) as ->.
    { change r with (snd (w', r)). rewrite <- Ew. apply C57_merge_succeeds_iff. split; [reflexivity|]. split; [reflexivity|]. split; [assumption|]. now exists ds, m, text. }
    pose proof Ew as Ex. apply C57_merge_outcome_partial in Ex as (OT & ds' & m' & text' & Hd' & M' & T' & Ef). split; [reflexivity|]. split; [exact (touches_quiet OT)|].
    cbn [or_default] in Hd'. assert (ds' = ds) as ->.
    { clear -Hd Hd'. revert ds' Hd'. induction Hd as [|p d inputs ds (_ & c & Ec & Dc) _ IH]; intros ds' Hd'; inversion Hd' as [|? d' ? ds'' (_ & c' & Ec' & Dc') Hr]; subst; [reflexivity|].
      rewrite Ec in Ec'. injection Ec' as <-. rewrite Dc in Dc'. injection Dc' as <-. f_equal. now apply IH. }
    rewrite M in M'. injection M' as <-. rewrite T in T'. injection T' as <-. split; [now exists text, doc|].
    split; [apply merge_told_once|]. apply merge_crosses_named. clear -H. intros v t g x Iv It Ig Ix. apply in_concat in Iv as (vs & I & Iv).
    apply (Forall2_in_r _ H) in I as (p & _ & _ & _ & X). eapply X; eassumption.
  Qed.

  (** Every count of the result is the sum of the counts at that place in the
      sources; nothing is lost and nothing is new. *)
  Theorem C70_counts :
    forall inputs out w vss,
      inputs <> [] -> writable out = true -> Forall2 (fun p vs => says w p vs /\ plain_content vs) inputs vss ->
      exists w' vs', merge_cmd std' None None inputs out w = (w', Ok tt) /\ says w' out vs' /\
        forall l, (said l vs' = [] <-> Forall (fun vs => said l vs = []) vss) /\
                  (said l vs' <> [] -> said l vs' = [sumZ (map (fun vs => sumZ (said l vs)) vss)]).
  Proof.
    intros inputs out w vss NE Wr H. destruct (C70_merge_files NE Wr H) as (w' & E & _ & S & _). exists w', (merge_views (List.concat vss)).
    split; [assumption|]. split; [assumption|]. intros l. rewrite said_merge, said_concat. split.
    - rewrite Forall_forall. split.
      + intros T vs I. destruct (said l vs) as [|z zs] eqn:Q; [reflexivity|]. exfalso. destruct (flat_map (said l) vss) as [|y ys] eqn:Fm; [|discriminate T].
        assert (J : In z (flat_map (said l) vss)) by (apply in_flat_map; exists vs; split; [assumption|]; rewrite Q; now left). now rewrite Fm in J.
      + intros T. destruct (flat_map (said l) vss) as [|y ys] eqn:Fm; [reflexivity|]. exfalso.
        assert (J : In y (flat_map (said l) vss)) by (rewrite Fm; now left). apply in_flat_map in J as (vs & I & J). now rewrite (T vs I) in J.
    - intros N. assert (sumZ (map (fun vs => sumZ (said l vs)) vss) = sumZ (flat_map (said l) vss)) as ->.
      { clear. induction vss as [|vs vss IH]; [reflexivity|]. cbn [flat_map map]. rewrite sumZ_app, <- IH. reflexivity. }
      destruct (flat_map (said l) vss); [contradiction|reflexivity].
  Qed.

  (** Merging some of the files first and merging the result with the others says
      the same as merging all at once. *)
  Theorem C70_stages :
    forall first before after mid out out' w vb vf va,
      first <> [] -> writable mid = true -> writable out = true -> writable out' = true -> ~ In mid (before ++ after) ->
      Forall2 (fun p vs => says w p vs /\ plain_content vs) before vb ->
      Forall2 (fun p vs => says w p vs /\ plain_content vs) first vf ->
      Forall2 (fun p vs => says w p vs /\ plain_content vs) after va ->
      exists w1 w2 w3 vs,
        merge_cmd std' None None first mid w = (w1, Ok tt) /\ merge_cmd std' None None (before ++ mid :: after) out w1 = (w2, Ok tt) /\ says w2 out vs /\
        merge_cmd std' None None (before ++ first ++ after) out' w = (w3, Ok tt) /\ says w3 out' vs.
  Proof.
    intros first before after mid out out' w vb vf va NE W1 W2 W3 NI B F A.
    destruct (C70_merge_files NE W1 F) as (w1 & E1 & (U1 & _) & S1 & P1).
    assert (K : forall l vss, (forall p, In p l -> p <> mid) -> Forall2 (fun p vs => says w p vs /\ plain_content vs) l vss -> Forall2 (fun p vs => says w1 p vs /\ plain_content vs) l vss).
    { intros l vss N H. induction H as [|p vs l vss ((c & doc & Ec & R) & Pc) _ IH]; constructor; [|apply IH; intros q I; apply N; now right].
      split; [|assumption]. exists c, doc. split; [|assumption]. rewrite U1; [assumption|]. apply N. now left. }
    assert (H2 : Forall2 (fun p vs => says w1 p vs /\ plain_content vs) (before ++ mid :: after) (vb ++ merge_views (List.concat vf) :: va)).
    { apply Forall2_app; [apply K; [|assumption]|constructor; [now split|apply K; [|assumption]]]; intros p I ->; apply NI, in_or_app; auto. }
    destruct (@C70_merge_files (before ++ mid :: after) out w1 _ ltac:(destruct before; discriminate) W2 H2) as (w2 & E2 & _ & S2 & _).
    assert (H3 : Forall2 (fun p vs => says w p vs /\ plain_content vs) (before ++ first ++ after) (vb ++ vf ++ va)) by (repeat apply Forall2_app; assumption).
    assert (NE3 : before ++ first ++ after <> []) by (destruct before; [destruct first; [now contradiction NE|]|]; discriminate).
    destruct (C70_merge_files NE3 W3 H3) as (w3 & E3 & _ & S3 & _). exists w1, w2, w3, (merge_views (List.concat (vb ++ vf ++ va))).
    repeat (split; [assumption|]). split; [|now split]. rewrite concat_app in S2. cbn [List.concat] in S2. rewrite merge_stage in S2. rewrite !concat_app. exact S2.
  Qed.

  (** The order of the sources does not matter for the counts. *)
  Theorem C70_order :
    forall inputs inputs' out w vss vss',
      Permutation (combine inputs vss) (combine inputs' vss') -> inputs <> [] -> writable out = true ->
      Forall2 (fun p vs => says w p vs /\ plain_content vs) inputs vss -> Forall2 (fun p vs => says w p vs /\ plain_content vs) inputs' vss' ->
      exists w1 w2 v1 v2,
        merge_cmd std' None None inputs out w = (w1, Ok tt) /\ says w1 out v1 /\
        merge_cmd std' None None inputs' out w = (w2, Ok tt) /\ says w2 out v2 /\ forall l, said l v1 = said l v2.
  Proof.
    intros inputs inputs' out w vss vss' P NE Wr H H'.
    assert (L : forall i v, Forall2 (fun p vs => says w p vs /\ plain_content vs) i v -> map fst (combine i v) = i /\ map snd (combine i v) = v).
    { clear. induction 1 as [|? ? ? ? _ _ [IH1 IH2]]; [now split|]. cbn. now rewrite IH1, IH2. }
    destruct (L _ _ H) as [L1 L2]. destruct (L _ _ H') as [L1' L2'].
    assert (NE' : inputs' <> []). { intros E. rewrite E in P. cbn in P. apply Permutation_sym, Permutation_nil in P. rewrite P in L1. now symmetry in L1. }
    destruct (C70_merge_files NE Wr H) as (w1 & E1 & _ & S1 & _). destruct (C70_merge_files NE' Wr H') as (w2 & E2 & _ & S2 & _).
    eexists w1, w2, _, _. split; [exact E1|]. split; [exact S1|]. split; [exact E2|]. split; [exact S2|]. intros l. rewrite !said_merge, !said_concat.
    apply (Permutation_map snd) in P. rewrite L2, L2' in P. apply (Permutation_flat_map (said l)) in P.
    assert (Q : sumZ (flat_map (said l) vss) = sumZ (flat_map (said l) vss')).
    { clear -P. induction P as [|x a b _ IH|x y a|a b c _ IH1 _ IH2]; unfold sumZ in *; cbn; lia. }
    destruct (flat_map (said l) vss) as [|z zs]; destruct (flat_map (said l) vss') as [|z' zs'].
    - reflexivity.
    - now apply Permutation_nil_cons in P.
    - symmetry in P. now apply Permutation_nil_cons in P.
    - unfold total. now rewrite Q.
  Qed.

  (** ** C71 *)

  (** Converting an accepted file gives an accepted file that says the same, except
      that parts of one name have become one. *)
  Theorem C71_convert_file :
    forall input out w vs,
      writable out = true -> says w input vs -> plain_content vs ->
      exists w', convert std' None None input out w = (w', Ok tt) /\ only_touches [input] out w w' /\ says w' out (merge_views vs).
  Proof.
    intros input out w vs Wr S0 P0. assert (H : Forall2 (fun p vs => says w p vs /\ plain_content vs) [input] [vs]) by (constructor; [now split|constructor]).
    destruct (sources H) as (ds & Hd & E & P). inversion Hd as [|? d ? ds' Hh' Hn]; subst. inversion Hn; subst.
    destruct (@merging [d] [vs] ltac:(discriminate) E P) as (m & M & S & F & Hh & C). destruct (writing m S F Hh) as (text & doc & T & Pd & R & D). rewrite C in D.
    cbn [List.concat] in D. rewrite app_nil_r in D.
    destruct (convert std' None None input out w) as [w' r] eqn:Ew. exists w'.
    assert (r = Ok tt) as ->.
    { change r with (snd (w', r)). rewrite <- Ew. apply C57_convert_succeeds_iff. split; [reflexivity|]. split; [reflexivity|]. split; [assumption|]. now exists d, m, text. }
    pose proof Ew as Ex. apply C57_convert_outcome_partial in Ex as (OT & d' & m' & text' & Hd' & M' & T' & Ef). split; [reflexivity|]. split; [exact (touches_quiet OT)|].
    cbn [or_default] in Hd'. assert (d' = d) as ->.
    { destruct Hh' as (_ & c & Ec & Dc). destruct Hd' as (_ & c' & Ec' & Dc'). rewrite Ec in Ec'. injection Ec' as <-. rewrite Dc in Dc'. now injection Dc'. }
    rewrite M in M'. injection M' as <-. rewrite T in T'. injection T' as <-. now exists text, doc.
  Qed.
  (** In particular every count stays, where counts under one name are added up. *)
  Theorem C71_counts :
    forall input out w vs,
      writable out = true -> says w input vs -> plain_content vs ->
      exists w' vs', convert std' None None input out w = (w', Ok tt) /\ says w' out vs' /\ forall l, said l vs' = total (said l vs).
  Proof.
    intros input out w vs Wr S P. destruct (C71_convert_file Wr S P) as (w' & E & _ & S'). exists w', (merge_views vs). split; [assumption|].
    split; [assumption|]. intros l. apply said_merge.
  Qed.
  (** Nothing changes if there is nothing to merge, in particular when a converted
      or merged file is converted again. *)
  Theorem C71_nothing_changes :
    forall input out w vs,
      writable out = true -> says w input vs -> plain_content vs -> settled vs \/ (exists vs0, vs = merge_views vs0) ->
      exists w', convert std' None None input out w = (w', Ok tt) /\ says w' out vs.
  Proof.
    intros input out w vs Wr S P H. destruct (C71_convert_file Wr S P) as (w' & E & _ & S'). exists w'. split; [assumption|].
    destruct H as [H|(vs0 & ->)]; [now rewrite settled_same in S'|]. pose proof (merge_stage [] vs0 []) as M. cbn [app] in M. rewrite !app_nil_r in M. now rewrite M in S'.
  Qed.

  (** ** C73 *)

  (** The file [p] holds a YAML document that loads and lists [gs]. *)
  Definition lists (w : world) (p : string) (gs : list ygroup) : Prop :=
    exists c v o, w_fs w p = Some c /\ parse_yaml c = Ok v /\ (exists d, load v = Ok d) /\ document_says v (Some o) /\ gs = opt_list o.
  Lemma yaml_sources : forall w inputs gss, Forall2 (fun p gs => lists w p gs /\ presentable (y_says gs)) inputs gss ->
    exists ds, Forall2 (holds parse to_float parse_yaml "yaml" w) inputs ds /\
      Forall2 (fun d vs => content d = collapse vs) ds (map y_says gss) /\
      Forall (fun d => sound_root (db_root d) /\ bare (db_root d) /\ fit (db_root d) /\ no_repeats (db_root d)) ds.
  Proof.
    intros w inputs gss H. induction H as [|p gs inputs gss ((c & v & o & Ec & Ev & (d & L) & D & ->) & P) _ (ds & A & B & C)]; [exists []; now repeat constructor|].
    apply reads_doc in D. exists (d :: ds). split; [|split].
    - constructor; [|assumption]. split; [now right|]. exists c. split; [assumption|]. unfold decode. cbn [String.eqb Ascii.eqb Bool.eqb]. rewrite Ev. exact L.
    - cbn [map]. constructor; [|assumption]. rewrite (ly_content _ _ _ L D P). unfold collapse, y_says. cbn. now rewrite app_nil_r.
    - constructor; [|assumption]. split; [eapply ly_sound; eassumption|]. split; [eapply ly_bare; eassumption|]. split; [eapply ly_fit; eassumption|eapply ly_no_repeats; eassumption].
  Qed.
  (** YAML files that list what XML can express are merged into an XML file that says
      the merge of what they list. *)
  Theorem C73_merge_yaml :
    forall inputs out w gss,
      inputs <> [] -> writable out = true -> Forall2 (fun p gs => lists w p gs /\ presentable (y_says gs)) inputs gss ->
      exists w', merge_cmd std' (Some "yaml") None inputs out w = (w', Ok tt) /\ only_touches inputs out w w' /\
        says w' out (merge_views (flat_map y_says gss)) /\ plain_content (merge_views (flat_map y_says gss)).
  Proof.
    intros inputs out w gss NE Wr H. destruct (yaml_sources H) as (ds & Hd & E & P).
    assert (ND : ds <> []) by (intros ->; inversion Hd; subst; now apply NE).
    destruct (merging ND E P) as (m & M & S & F & Hh & C). destruct (writing m S F Hh) as (text & doc & T & Pd & R & D). rewrite C in D. rewrite <- flat_map_concat_map in D.
    destruct (merge_cmd std' (Some "yaml") None inputs out w) as [w' r] eqn:Ew. exists w'.
    assert (r = Ok tt) as ->.
    { change r with (snd (w', r)). rewrite <- Ew. apply C57_merge_succeeds_iff. split; [reflexivity|]. split; [reflexivity|]. split; [assumption|]. now exists ds, m, text. }
    pose proof Ew as Ex. apply C57_merge_outcome_partial in Ex as (OT & ds' & m' & text' & Hd' & M' & T' & Ef). split; [reflexivity|]. split; [exact (touches_quiet OT)|].
    cbn [or_default] in Hd'. assert (ds' = ds) as ->.
    { clear -Hd Hd'. revert ds' Hd'. induction Hd as [|p d inputs ds (_ & c & Ec & Dc) _ IH]; intros ds' Hd'; inversion Hd' as [|? d' ? ds'' (_ & c' & Ec' & Dc') Hr]; subst; [reflexivity|].
      rewrite Ec in Ec'. injection Ec' as <-. rewrite Dc in Dc'. injection Dc' as <-. f_equal. now apply IH. }
    rewrite M in M'. injection M' as <-. rewrite T in T'. injection T' as <-. split; [now exists text, doc|].
    split; [apply merge_told_once|]. apply merge_crosses_named. clear -H. intros v t g x Iv It Ig Ix. apply in_flat_map in Iv as (gs & I & Iv).
    apply (Forall2_in_r _ H) in I as (p & _ & (c & y & o & _ & _ & (d & L) & D & ->) & P). apply reads_doc in D. eapply (ly_named _ P); eassumption.
  Qed.
  Theorem C73_counts :
    forall inputs out w gss,
      inputs <> [] -> writable out = true -> Forall2 (fun p gs => lists w p gs /\ presentable (y_says gs)) inputs gss ->
      exists w' vs', merge_cmd std' (Some "yaml") None inputs out w = (w', Ok tt) /\ says w' out vs' /\
        forall l, said l vs' = total (flat_map (fun gs => said l (y_says gs)) gss).
  Proof.
    intros inputs out w gss NE Wr H. destruct (C73_merge_yaml NE Wr H) as (w' & E & _ & S & _). exists w', (merge_views (flat_map y_says gss)). split; [assumption|]. split; [assumption|].
    intros l. rewrite said_merge. f_equal. rewrite flat_map_concat_map, said_concat. rewrite flat_map_concat_map, map_map, <- flat_map_concat_map. reflexivity.
  Qed.
  (** Converting one YAML file to XML. *)
  Theorem C73_convert_yaml :
    forall input out w gs,
      writable out = true -> lists w input gs -> presentable (y_says gs) ->
      exists w', convert std' (Some "yaml") None input out w = (w', Ok tt) /\ only_touches [input] out w w' /\
        says w' out (merge_views (y_says gs)) /\ (settled (y_says gs) -> says w' out (y_says gs)).
  Proof.
    intros input out w gs Wr S0 P0. assert (H : Forall2 (fun p gs => lists w p gs /\ presentable (y_says gs)) [input] [gs]) by (constructor; [now split|constructor]).
    destruct (yaml_sources H) as (ds & Hd & E & P). inversion Hd as [|? d ? ds' Hh' Hn]; subst. inversion Hn; subst.
    destruct (@merging [d] (map y_says [gs]) ltac:(discriminate) E P) as (m & M & S & F & Hh & C). destruct (writing m S F Hh) as (text & doc & T & Pd & R & D). rewrite C in D.
    cbn [List.concat map] in D. rewrite app_nil_r in D.
    destruct (convert std' (Some "yaml") None input out w) as [w' r] eqn:Ew. exists w'.
    assert (r = Ok tt) as ->.
    { change r with (snd (w', r)). rewrite <- Ew. apply C57_convert_succeeds_iff. split; [reflexivity|]. split; [reflexivity|]. split; [assumption|]. now exists d, m, text. }
    pose proof Ew as Ex. apply C57_convert_outcome_partial in Ex as (OT & d' & m' & text' & Hd' & M' & T' & Ef). split; [reflexivity|]. split; [exact (touches_quiet OT)|].
    cbn [or_default] in Hd'. assert (d' = d) as ->.
    { destruct Hh' as (_ & c & Ec & Dc). destruct Hd' as (_ & c' & Ec' & Dc'). rewrite Ec in Ec'. injection Ec' as <-. rewrite Dc in Dc'. now injection Dc'. }
    rewrite M in M'. injection M' as <-. rewrite T in T'. injection T' as <-. assert (X : says w' out (merge_views (y_says gs))) by now exists text, doc.
    split; [assumption|]. intros St. now rewrite settled_same in X.
  Qed.
End Files.
Print Assumptions C73_merge_yaml.
Print Assumptions C73_counts.
Print Assumptions C73_convert_yaml.
Print Assumptions C71_nothing_changes.
Print Assumptions C70_merge_files.
Print Assumptions C70_counts.
Print Assumptions C70_stages.
Print Assumptions C70_order.
Print Assumptions C71_convert_file.
Print Assumptions C71_counts.

(** ** What a written document says *)

(** C72.  Once written and parsed again, a document says what the database
    holds, if no crossed coverpoint has an empty name or one with spaces around
    it: read by the rules of [doc_says], not by the reader of pyucis. *)
Theorem C72_written_says :
  forall ev d e, write ev d = Ok e ->
    (forall i t g c n, In i (instances (db_root d)) -> In t (covergroups i) -> In g (group_instances t) -> In c (crosses g) -> In n (crossed_names c) ->
       strip n = n /\ n <> "") ->
    doc_says (reparse e) (content d).
Proof. exact written_says. Qed.
Print Assumptions C72_written_says.
(** Every string in it is one XML can hold. *)
Theorem C72_written_clean : forall ev d e, write ev d = Ok e -> clean e = true.
Proof. exact written_clean. Qed.
Print Assumptions C72_written_clean.

(** ** A concrete XML library *)

(** A notation for documents that is easy to parse: strings and lists are written
    with a digit before each element and a final 0. *)
Fixpoint put_str (s rest : string) : string :=
  match s with EmptyString => String "0" rest | String c t => String "1" (String c (put_str t rest)) end.
Fixpoint get_str (s : string) : option (string * string) :=
  match s with
  | String "0" rest => Some ("", rest)
  | String "1" (String c t) => match get_str t with Some (u, rest) => Some (String c u, rest) | None => None end
  | _ => None
  end.
Fixpoint put_attrs (a : dict string) (rest : string) : string :=
  match a with [] => String "0" rest | (k, v) :: t => String "1" (put_str k (put_str v (put_attrs t rest))) end.
Fixpoint get_attrs (n : nat) (s : string) : option (dict string * string) :=
  match n with
  | O => None
  | S n => match s with
           | String "0" rest => Some ([], rest)
           | String "1" t => match get_str t with
                             | Some (k, t) => match get_str t with
                                              | Some (v, t) => match get_attrs n t with Some (a, rest) => Some ((k, v) :: a, rest) | None => None end
                                              | None => None
                                              end
                             | None => None
                             end
           | _ => None
           end
  end.
Definition put_text (x : option string) (rest : string) : string :=
  match x with None => String "0" rest | Some s => String "1" (put_str s rest) end.
Definition get_text (s : string) : option (option string * string) :=
  match s with
  | String "0" rest => Some (None, rest)
  | String "1" t => match get_str t with Some (u, rest) => Some (Some u, rest) | None => None end
  | _ => None
  end.
Fixpoint put_elem (e : elem) (rest : string) : string :=
  match e with
  | Elem t a x ks =>
      put_str t (put_attrs a (put_text x
        ((fix put_kids (l : list elem) : string := match l with [] => String "0" rest | k :: l => String "1" (put_elem k (put_kids l)) end) ks)))
  end.
Fixpoint put_kids (l : list elem) (rest : string) : string :=
  match l with [] => String "0" rest | k :: l => String "1" (put_elem k (put_kids l rest)) end.
Fixpoint get_kids (get : string -> option (elem * string)) (n : nat) (s : string) : option (list elem * string) :=
  match n with
  | O => None
  | S n => match s with
           | String "0" rest => Some ([], rest)
           | String "1" t => match get t with
                             | Some (k, t) => match get_kids get n t with Some (l, rest) => Some (k :: l, rest) | None => None end
                             | None => None
                             end
           | _ => None
           end
  end.
Fixpoint get_elem (n : nat) (s : string) : option (elem * string) :=
  match n with
  | O => None
  | S n => match get_str s with
           | Some (t, s) => match get_attrs n s with
                            | Some (a, s) => match get_text s with
                                             | Some (x, s) => match get_kids (get_elem n) n s with Some (ks, s) => Some (Elem t a x ks, s) | None => None end
                                             | None => None
                                             end
                            | None => None
                            end
           | None => None
           end
  end.
Definition toy_print (e : elem) : res string := Ok (put_elem e "").
Definition toy_parse (o : opening) (c : string) : res elem :=
  match get_elem (String.length c) c with
  | Some (e, EmptyString) => if clean e then Ok (reparse e) else Err LibraryError
  | _ => Err LibraryError
  end.

Lemma get_put_str : forall s rest, get_str (put_str s rest) = Some (s, rest).
Proof. induction s as [|c s IH]; intros rest; [reflexivity|]. cbn. now rewrite IH. Qed.
Lemma len_put_str : forall s rest, String.length (put_str s rest) = (S (2 * String.length s) + String.length rest)%nat.
Proof. induction s as [|c s IH]; intros rest; [reflexivity|]. cbn [put_str String.length]. rewrite IH. cbn [String.length]. lia. Qed.
Lemma get_put_attrs : forall a rest n, String.length (put_attrs a rest) <= n -> get_attrs n (put_attrs a rest) = Some (a, rest).
Proof.
  induction a as [|[k v] a IH]; intros rest n L; destruct n as [|n]; cbn [put_attrs String.length] in L; try lia; [reflexivity|].
  cbn [put_attrs get_attrs]. rewrite !get_put_str, IH; [reflexivity|]. rewrite !len_put_str in L. lia.
Qed.
Lemma len_put_attrs : forall a rest, String.length rest < String.length (put_attrs a rest).
Proof. induction a as [|[k v] a IH]; intros rest; cbn [put_attrs String.length]; [lia|]. rewrite !len_put_str. specialize (IH rest). lia. Qed.
Lemma get_put_text : forall x rest, get_text (put_text x rest) = Some (x, rest).
Proof. intros [s|] rest; cbn; [now rewrite get_put_str|reflexivity]. Qed.
Lemma len_put_text : forall x rest, String.length rest < String.length (put_text x rest).
Proof. intros [s|] rest; cbn [put_text String.length]; [rewrite len_put_str|]; lia. Qed.
Lemma put_elem_eq : forall t a x ks rest, put_elem (Elem t a x ks) rest = put_str t (put_attrs a (put_text x (put_kids ks rest))).
Proof. intros. cbn [put_elem]. do 3 f_equal. induction ks as [|k ks IH]; [reflexivity|]. cbn. now rewrite IH. Qed.
Lemma len_put_elem : forall e rest, String.length rest < String.length (put_elem e rest).
Proof.
  induction e as [t a x ks IH] using elem_ind2. intros rest. rewrite put_elem_eq, len_put_str.
  assert (K : String.length rest < String.length (put_kids ks rest)).
  { induction ks as [|k ks IHk]; cbn [put_kids String.length]; [lia|]. pose proof (IH k (or_introl eq_refl) (put_kids ks rest)).
    assert (String.length rest < String.length (put_kids ks rest)) by (apply IHk; intros; apply IH; now right). lia. }
  pose proof (len_put_text x (put_kids ks rest)). pose proof (len_put_attrs a (put_text x (put_kids ks rest))). lia.
Qed.
Lemma get_put_elem : forall e rest n, String.length (put_elem e rest) <= n -> get_elem n (put_elem e rest) = Some (e, rest).
Proof.
  induction e as [t a x ks IH] using elem_ind2. intros rest n L. rewrite put_elem_eq in *. rewrite len_put_str in L. destruct n as [|n]; [lia|]. cbn [get_elem].
  rewrite get_put_str. rewrite get_put_attrs by lia. rewrite get_put_text.
  pose proof (len_put_attrs a (put_text x (put_kids ks rest))). pose proof (len_put_text x (put_kids ks rest)).
  assert (K : forall m, String.length (put_kids ks rest) <= n -> String.length (put_kids ks rest) <= m -> get_kids (get_elem n) m (put_kids ks rest) = Some (ks, rest)).
  { clear L H H0. induction ks as [|k ks IHk]; intros m L Lm; destruct m as [|m]; cbn [put_kids String.length] in L, Lm; try lia; [reflexivity|].
    cbn [put_kids get_kids]. rewrite IH by (try (now left); lia). pose proof (len_put_elem k (put_kids ks rest)). rewrite IHk; [reflexivity|intros; apply IH; [now right|assumption]|lia|lia]. }
  rewrite K by lia. reflexivity.
Qed.
Lemma toy_lxml : good_lxml toy_parse toy_print.
Proof.
  split.
  - intros o c e H. unfold toy_parse in H. destruct (get_elem (String.length c) c) as [[e' [|]]|]; try discriminate. destruct (clean e') eqn:C; [|discriminate]. injection H as <-. now apply reparse_clean.
  - intros ev d e W. exists (put_elem e ""). split; [reflexivity|]. unfold toy_parse. rewrite get_put_elem by lia. now rewrite (written_clean _ _ W).
Qed.

(** Two runs of one test bench, as files in that notation. *)
Definition run1 : db := mkdb [ du "top"; inst "top.i0" [0] [ cg "cg" 1 [ci "cg" 1 (points [1; 0; 0] 4)] ] ].
Definition run2 : db :=
  mkdb [ du "top"; inst "top.i0" [0] [ cg "cg" 1 [ci "cg" 1 [cp "a" 1 [bin "hi" 1 3; bin "new" 1 1]; cp "c" 1 [bin "z" 1 0]]] ];
         inst "top.i1" [0] [ cg "cg" 1 [ci "cg" 1 [cp "q" 1 [bin "z" 1 1; ignore "z" 1 2]]] ] ].
Definition toy_file (d : db) : option string := match write some_env d with Ok e => Some (put_elem e "") | Err _ => None end.
Definition toy_world : world :=
  World (fun p => if String.eqb p "a.xml" then toy_file run1 else if String.eqb p "b.xml" then toy_file run2 else None) "" [].

Lemma toy_env : good_env some_env.
Proof. split; [reflexivity|]. split; [now intros|]. vm_compute. repeat split; discriminate. Qed.
Lemma toy_says : forall d w p e, write some_env d = Ok e -> w_fs w p = Some (put_elem e "") -> (exists d', factory_read (fun s => Some s) (reparse e) = Ok d') ->
  (forall i t g c n, In i (instances (db_root d)) -> In t (covergroups i) -> In g (group_instances t) -> In c (crosses g) -> In n (crossed_names c) -> strip n = n /\ n <> "") ->
  file_says toy_parse (fun s => Some s) w p (content d).
Proof.
  intros d w p e W F R C. exists (put_elem e ""), (reparse e). split; [assumption|]. split; [|split; [assumption|now apply written_says with some_env]].
  unfold toy_parse. rewrite get_put_elem by lia. now rewrite (written_clean _ _ W).
Qed.
Lemma crosses_named_all : forall vs,
  forallb (fun n => negb (String.eqb n "")) (flat_map xv_crossed (flat_map gv_crosses (flat_map tv_instances (flat_map iv_types vs)))) = true -> crosses_named vs.
Proof.
  intros vs C v t g x I1 I2 I3 I4 I5. rewrite forallb_forall in C. assert (H : negb (String.eqb "" "") = true); [|discriminate H]. apply C.
  apply in_flat_map. exists x. split; [|assumption]. apply in_flat_map. exists g. split; [|assumption]. apply in_flat_map. exists t. split; [|assumption]. apply in_flat_map. now exists v.
Qed.
Example C70_witness :
  Forall2 (fun p vs => file_says toy_parse (fun s => Some s) toy_world p vs /\ plain_content vs) ["a.xml"; "b.xml"] [content run1; content run2] /\
  good_lxml toy_parse toy_print /\ good_env some_env.
Proof.
  split; [|split; [exact toy_lxml|exact toy_env]].
  assert (K : forall d p e, write some_env d = Ok e -> w_fs toy_world p = Some (put_elem e "") ->
    (match factory_read (fun s => Some s) (reparse e) with Ok _ => true | Err _ => false end) = true ->
    forallb (fun n => String.eqb (strip n) n && negb (String.eqb n ""))
      (flat_map crossed_names (flat_map crosses (flat_map group_instances (flat_map covergroups (instances (db_root d)))))) = true ->
    file_says toy_parse (fun s => Some s) toy_world p (content d)).
  { intros d p e W F R C. eapply toy_says; try eassumption. destruct (factory_read _ (reparse e)) as [d'|]; [now exists d'|discriminate].
    intros i t g c n I1 I2 I3 I4 I5. rewrite forallb_forall in C.
    assert (In n (flat_map crossed_names (flat_map crosses (flat_map group_instances (flat_map covergroups (instances (db_root d))))))) as I.
    { apply in_flat_map. exists c. split; [|assumption]. apply in_flat_map. exists g. split; [|assumption]. apply in_flat_map. exists t. split; [|assumption]. apply in_flat_map. now exists i. }
    specialize (C n I). apply andb_true_iff in C as [C1 C2]. apply String.eqb_eq in C1. split; [assumption|]. intros ->. discriminate. }
  constructor; [|constructor; [|constructor]].
  - split.
    + destruct (write some_env run1) as [e|] eqn:W; [|vm_compute in W; discriminate]. eapply K; [exact W| | |].
      * cbn [w_fs toy_world String.eqb Ascii.eqb Bool.eqb]. unfold toy_file. now rewrite W.
      * vm_compute in W. injection W as <-. vm_compute. reflexivity.
      * reflexivity.
    + clear. split; [vm_compute|now apply crosses_named_all].
      repeat constructor; cbn; intuition discriminate.
  - split.
    + destruct (write some_env run2) as [e|] eqn:W; [|vm_compute in W; discriminate]. eapply K; [exact W| | |].
      * cbn [w_fs toy_world String.eqb Ascii.eqb Bool.eqb]. unfold toy_file. now rewrite W.
      * vm_compute in W. injection W as <-. vm_compute. reflexivity.
      * reflexivity.
    + clear. split; [vm_compute|now apply crosses_named_all].
      repeat constructor; cbn; intuition discriminate.
Qed.
(** What the merged file says about bin "hi" of coverpoint "a": 1 and 3 hits. *)
Example C70_sum : said (Place "top.i0" "cg" "cg" Coverpoint "a" Normal "hi") (merge_views (content run1 ++ content run2)) = [4%Z].
Proof. reflexivity. Qed.
Lemma NoDup_some : forall X Y (f : X -> Y) q l, NoDup (map f l) -> NoDup (map f (filter q l)).
Proof.
  induction l as [|x l IH]; intros N; [constructor|]. cbn in N. inversion N as [|? ? N1 N2]; subst. cbn. destruct (q x); [|now apply IH]. cbn. constructor; [|now apply IH].
  intros I. apply N1. apply in_map_iff in I as (y & <- & I). apply filter_In in I as [I _]. now apply in_map.
Qed.
Example C71_settled : settled (content run1).
Proof.
  split; [repeat constructor; cbn; intuition discriminate|]. constructor; [|constructor]. split; [repeat constructor; cbn; intuition discriminate|].
  constructor; [|constructor]. split; [repeat constructor; cbn; intuition discriminate|]. constructor; [|constructor].
  split; [repeat constructor; cbn; intuition discriminate|]. split; [|split; repeat constructor; cbn; intuition discriminate].
  repeat constructor; try (intros k; apply NoDup_some); repeat constructor; cbn; intuition discriminate.
Qed.

(** The same two databases, for C72. *)
Example C72_witness : exists e, write some_env run2 = Ok e /\ List.length (iter "coverpointBin" e) = 5.
Proof. destruct (write some_env run2) as [e|] eqn:W; [|vm_compute in W; discriminate]. exists e. split; [reflexivity|]. vm_compute in W. injection W as <-. reflexivity. Qed.

(** Checks of the conditions on a document given in full. *)
Ltac fine :=
  match goal with
  | |- Forall _ [] => apply Forall_nil
  | |- Forall _ (_ :: _) => apply Forall_cons; fine
  | |- fine_inst_view _ => split; cbn [iv_name iv_types]; fine
  | |- fine_type_view _ => split; cbn [tv_name tv_instances]; fine
  | |- fine_group_view _ => split; [|split; [|split]]; cbn [gv_name gv_points gv_crosses]; fine
  | |- fine_point_view _ => split; [|split]; cbn [pv_name pv_bins]; fine
  | |- fine_cross_view _ => split; [|split]; cbn [xv_name xv_crossed xv_bins]; fine
  | |- fine_bin_view _ => split; [|split]; cbn [bv_name bv_kind bv_count]; fine
  | |- fine_name _ /\ _ => split; cbn [fst snd]; fine
  | |- fine_name _ => vm_compute; reflexivity
  | |- In _ _ => vm_compute; tauto
  | |- (_ <= _)%Z => vm_compute; discriminate
  | |- _ <> _ => discriminate
  end.

(** A YAML file with the sample document of [P_Yaml]. *)
Definition y_world : world := World (fun p => if String.eqb p "a.yaml" then Some "doc" else None) "" [].
Definition y_parse (c : string) : res jval := if String.eqb c "doc" then Ok two_insts else Err LibraryError.
Definition y_groups : list ygroup := match d_doc two_insts with Ok (Some o) => opt_list o | _ => [] end.
Example C73_witness : lists y_parse y_world "a.yaml" y_groups /\ presentable (y_says y_groups) /\ settled (y_says y_groups).
Proof.
  split; [|split].
  - eexists "doc", two_insts, _. split; [reflexivity|]. split; [reflexivity|]. split; [eexists; vm_compute; reflexivity|]. split; [apply reads_doc; vm_compute; reflexivity|reflexivity].
  - split; [|split].
    + let v := eval vm_compute in (y_says y_groups) in change (y_says y_groups) with v. fine.
    + vm_compute. repeat constructor; cbn; intuition discriminate.
    + intros v t [<-|[]] [<-|[]]. split; [discriminate|]. intros g x n [<-|[<-|[]]] [<-|[]] [<-|[<-|[]]]; (split; [cbn; tauto|split; [reflexivity|discriminate]]).
  - split; [repeat constructor; cbn; intuition discriminate|]. constructor; [|constructor]. split; [repeat constructor; cbn; intuition discriminate|].
    constructor; [|constructor]. split; [repeat constructor; cbn; intuition discriminate|].
    repeat constructor; try (intros k; apply NoDup_some); repeat constructor; cbn; intuition discriminate.
Qed.
