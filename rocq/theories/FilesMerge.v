(** Merging databases that come from files. *)
From Verif Require Import Base Dict Consts Db Hist Report ReportSpec NameSpec NubFacts BaseFacts MergeSpec Xml XmlSpec XmlDocSpec
  XmlReport XmlMeans XmlWritable FilesSpec FilesFacts.
Local Open Scope string_scope.
Local Open Scope list_scope.

(** ** Parts of a merged scope *)
Lemma of_name_in : forall n f srcs y, In y (of_name n f srcs) -> s_name y = n /\ exists s, In s srcs /\ In y (f s).
Proof.
  intros n f srcs y I. split; [eapply group_in_name; exact I|]. apply group_in in I as (l & I & J). apply in_map_iff in I as (s & <- & I). eauto.
Qed.
Lemma of_name_some : forall n f srcs, In n (map s_name (flat_map f srcs)) -> exists y, In y (of_name n f srcs).
Proof.
  intros n f srcs I. rewrite flat_map_concat_map in I. apply group_nonempty in I. unfold of_name.
  destruct (group s_name n (map f srcs)) as [|y l]; [now contradiction I|]. exists y. now left.
Qed.
Lemma opn_in : forall P f c srcs x, one_per_name P f c srcs -> In x (f c) ->
  P x (of_name (s_name x) f srcs) /\ exists y, In y (of_name (s_name x) f srcs).
Proof.
  intros P f c srcs x H I. unfold one_per_name in H. apply (Forall2_in_r _ H) in I as (n & In_ & <- & Px). split; [assumption|].
  apply of_name_some. now apply nub_in.
Qed.
Lemma Forall2_in_l' : forall X Y (R : X -> Y -> Prop) l m, Forall2 R l m -> forall x, In x l -> exists y, In y m /\ R x y.
Proof.
  induction 1 as [|x y l m H _ IH]; intros z I; [contradiction|]. destruct I as [<-|I]; [exists y; split; [now left|assumption]|].
  destruct (IH z I) as (w & A & B). exists w. split; [now right|assumption].
Qed.
Lemma opn_has : forall P f c srcs s y, one_per_name P f c srcs -> In s srcs -> In y (f s) -> exists x, In x (f c) /\ s_name x = s_name y.
Proof.
  intros P f c srcs s y H Is Iy. destruct (Forall2_in_l' _ _ _ _ _ H (s_name y)) as (x & Ix & E & _).
  - apply nub_in. apply in_map. apply in_flat_map. eauto.
  - exists x. now split.
Qed.
Lemma mcr_in : forall c srcs x, merged_crosses c srcs -> In x (crosses c) ->
  merged_cross x (named s_name (s_name x) (flat_map crosses srcs)).
Proof. intros c srcs x H I. apply (Forall2_in_r _ H) in I as (n & _ & <- & Px). exact Px. Qed.
Lemma named_crosses_in : forall n srcs y, In y (named s_name n (flat_map crosses srcs)) -> s_name y = n /\ exists s, In s srcs /\ In y (crosses s).
Proof. intros n srcs y I. apply named_In in I as [I E]. split; [assumption|]. now apply in_flat_map in I. Qed.

(** ** Bins *)
Lemma bin_kinds : forall s b, In b (all_bins s) -> exists k, In b (bins_with (kind_bit k) s).
Proof.
  intros s b I. unfold all_bins in I. apply filter_In in I as [I B]. unfold is_bin in B. apply orb_true_iff in B as [B|B]; [apply orb_true_iff in B as [B|B]|].
  - exists Normal. apply filter_In. now split.
  - exists Ignore. apply filter_In. now split.
  - exists Illegal. apply filter_In. now split.
Qed.
Lemma kind_bins : forall s b k, In b (bins_with (kind_bit k) s) -> In b (all_bins s).
Proof. intros s b k I. unfold bins_with in I. apply filter_In in I as [I B]. apply filter_In. split; [assumption|]. eapply kind_is_bin. exact B. Qed.
Lemma merged_kind : forall c srcs k, merged_point c srcs -> merged_bins k c srcs.
Proof. intros c srcs k (_ & _ & _ & A & B & C). destruct k; assumption. Qed.
Lemma mp_bin : forall c srcs b, merged_point c srcs -> In b (all_bins c) ->
  exists k i s its, In s srcs /\ In i (bins_with (kind_bit k) s) /\ ci_name b = ci_name i /\ cd_type (ci_data b) = kind_type k /\
    cd_at_least (ci_data b) = cd_at_least (ci_data i) /\ count b = sumZ (map count its) /\
    (forall j, In j its -> exists s, In s srcs /\ In j (all_bins s)).
Proof.
  intros c srcs b M I. apply bin_kinds in I as (k & I). exists k. pose proof (merged_kind _ _ k M) as MB. unfold merged_bins in MB.
  apply (Forall2_in_r _ MB) in I as (n & _ & E & _ & T & _ & _ & D & i & t & N & A & _).
  set (its := flat_map (bins_with (kind_bit k)) srcs) in *. assert (J : In i (named ci_name n its)) by (rewrite N; now left).
  apply named_In in J as [J En]. unfold its in J. apply in_flat_map in J as (s & Is & J). exists i, s, (named ci_name n its).
  repeat split; auto; try congruence. intros j Jj. apply named_In in Jj as [Jj _]. apply in_flat_map in Jj as (s' & Is' & Jj). exists s'. split; [assumption|].
  eapply kind_bins. exact Jj.
Qed.
Lemma mp_has : forall c srcs s, merged_point c srcs -> In s srcs -> all_bins s <> [] -> all_bins c <> [].
Proof.
  intros c srcs s M Is NE. destruct (all_bins s) as [|b l] eqn:E; [now contradiction NE|].
  assert (I : In b (all_bins s)) by (rewrite E; now left). apply bin_kinds in I as (k & I). pose proof (merged_kind _ _ k M) as MB. unfold merged_bins in MB.
  destruct (Forall2_in_l' _ _ _ _ _ MB (ci_name b)) as (x & Ix & _).
  - apply nub_in. apply in_map. apply in_flat_map. eauto.
  - intros E'. apply kind_bins in Ix. rewrite E' in Ix. contradiction.
Qed.
Lemma sum_nonneg : forall l, (forall i, In i l -> (0 <= count i)%Z) -> (0 <= sumZ (map count l))%Z.
Proof.
  induction l as [|i l IH]; intros H; [unfold sumZ; cbn; lia|]. cbn [map]. unfold sumZ in *. cbn [fold_right].
  specialize (H i (or_introl eq_refl)) as A. assert (0 <= fold_right Z.add 0 (map count l))%Z by (apply IH; intros j J; apply H; now right). lia.
Qed.
Lemma kind_one : forall b k, cd_type (ci_data b) = kind_type k -> one_kind b.
Proof. intros b k E. unfold one_kind. rewrite E. destruct k; cbn; tauto. Qed.

Lemma merged_point_sound : forall c srcs, merged_point c srcs -> fine_name (s_name c) -> Forall sound_point srcs -> sound_point c.
Proof.
  intros c srcs M F S. rewrite Forall_forall in S. destruct (proj1 M) as (x & t & E & W & _).
  assert (Ix : In x srcs) by (rewrite E; now left). destruct (S x Ix) as (_ & NE & _). split; [|split].
  - split; [assumption|]. intros b I. destruct (mp_bin _ _ _ M I) as (k & i & s & its & Is & Ii & N & T & _).
    destruct (S s Is) as ((_ & B) & _). apply kind_bins in Ii. destruct (B i Ii) as [Fi _]. split; [now rewrite N|]. eapply kind_one. exact T.
  - eapply mp_has; eassumption.
  - apply Forall_forall. intros b I. destruct (mp_bin _ _ _ M I) as (k & i & s & its & Is & Ii & _ & _ & A & D & J).
    rewrite D. apply sum_nonneg. intros j Ij. destruct (J j Ij) as (s' & Is' & B). destruct (S s' Is') as (_ & _ & C). rewrite Forall_forall in C. now apply C.
Qed.
Lemma merged_cross_sound : forall c srcs, merged_cross c srcs -> fine_name (s_name c) -> Forall sound_cross srcs -> sound_cross c.
Proof.
  intros c srcs (M & x & t & E & CN & NN) F S. rewrite Forall_forall in S. assert (Ix : In x srcs) by (rewrite E; now left).
  destruct (S x Ix) as ((_ & (l & Kx) & Fx & _) & _).
  assert (exists l', s_cls c = KCross l' /\ map r_name l' = map r_name l) as (l' & Kc & El).
  { unfold cross_names in CN. rewrite Kx in CN. destruct (s_cls c) as [| | | | | |l']; try discriminate. exists l'. split; [reflexivity|congruence]. }
  split; [split; [assumption|split; [|split]]|].
  - now exists l'.
  - unfold crossed_names in *. rewrite Kc, El. now rewrite Kx in Fx.
  - intros b I. destruct (mp_bin _ _ _ M I) as (k & i & s & its & Is & Ii & N & _). rewrite N.
    destruct (S s Is) as ((_ & _ & _ & B) & _). apply B. eapply kind_bins. exact Ii.
  - apply Forall_forall. intros b I. destruct (mp_bin _ _ _ M I) as (k & i & s & its & Is & Ii & N & T & A & D & J).
    destruct (S s Is) as (_ & C). rewrite Forall_forall in C. destruct (C i (kind_bins _ _ _ Ii)) as (Ti & _). split.
    + unfold bins_with in Ii. apply filter_In in Ii as [_ Bi]. rewrite Ti in Bi. destruct k; [exact T|discriminate|discriminate].
    + rewrite D. apply sum_nonneg. intros j Ij. destruct (J j Ij) as (s' & Is' & B). destruct (S s' Is') as (_ & C'). rewrite Forall_forall in C'. now apply C'.
Qed.
Lemma merged_cross_names : forall c srcs n, merged_cross c srcs -> In n (crossed_names c) -> exists x, In x srcs /\ In n (crossed_names x).
Proof.
  intros c srcs n (_ & x & t & E & CN & NN) I. exists x. split; [rewrite E; now left|]. unfold cross_names, crossed_names in *.
  destruct (s_cls c); try contradiction. destruct (s_cls x); try discriminate. injection CN as CN. now rewrite <- CN.
Qed.

(** ** Covergroup instances, covergroups, instances *)
Lemma merged_ci_sound : forall c srcs, merged_ci c srcs -> fine_name (s_name c) -> Forall sound_group srcs -> sound_group c.
Proof.
  intros c srcs ((x & t & E & _) & _ & MP & MX) F S. assert (Ix : In x srcs) by (rewrite E; now left). rewrite Forall_forall in S.
  split; [assumption|]. split; [|split; [|split]].
  - destruct (S x Ix) as (_ & NE & _). destruct (coverpoints x) as [|p l] eqn:Ep; [now contradiction NE|].
    assert (Ip : In p (coverpoints x)) by (rewrite Ep; now left). destruct (opn_has _ _ _ _ _ _ MP Ix Ip) as (y & Iy & _). intros E'. now rewrite E' in Iy.
  - apply Forall_forall. intros p Ip. destruct (opn_in _ _ _ _ _ MP Ip) as [M (y & Iy)]. eapply merged_point_sound; [exact M| |].
    + apply of_name_in in Iy as (<- & s & Is & Iy). destruct (S s Is) as (_ & _ & P & _). rewrite Forall_forall in P. apply (P y Iy).
    + apply Forall_forall. intros q Iq. apply of_name_in in Iq as (_ & s & Is & Iq). destruct (S s Is) as (_ & _ & P & _). rewrite Forall_forall in P. now apply P.
  - apply Forall_forall. intros p Ip. pose proof (mcr_in _ _ _ MX Ip) as M.
    assert (A : forall q, In q (named s_name (s_name p) (flat_map crosses srcs)) -> sound_cross q /\ s_name q = s_name p).
    { intros q Iq. apply named_crosses_in in Iq as (N & s & Is & Iq). split; [|assumption]. destruct (S s Is) as (_ & _ & _ & P & _). rewrite Forall_forall in P. now apply P. }
    eapply merged_cross_sound; [exact M| |].
    + destruct M as (_ & y & t' & Ey & _). destruct (A y) as [((Fy & _) & _) Ny]; [rewrite Ey; now left|]. now rewrite <- Ny.
    + apply Forall_forall. intros q Iq. now apply A.
  - intros y n Iy In_. pose proof (mcr_in _ _ _ MX Iy) as M. destruct (merged_cross_names _ _ _ M In_) as (q & Iq & Inq).
    apply named_crosses_in in Iq as (_ & s & Is & Iq). destruct (S s Is) as (_ & _ & _ & _ & G). destruct (G q n Iq Inq) as (K & B). split; [|assumption].
    apply in_map_iff in K as (p & <- & Ip). destruct (opn_has _ _ _ _ _ _ MP Is Ip) as (p' & Ip' & <-). now apply in_map.
Qed.
Lemma merged_cg_sound : forall c srcs, merged_cg c srcs -> fine_name (s_name c) -> Forall sound_type srcs -> sound_type c.
Proof.
  intros c srcs ((x & t & E & _) & _ & _ & _ & MI) F S. assert (Ix : In x srcs) by (rewrite E; now left). rewrite Forall_forall in S.
  split; [assumption|]. split.
  - destruct (S x Ix) as (_ & NE & _). destruct (coverinstances x) as [|p l] eqn:Ep; [now contradiction NE|].
    assert (Ip : In p (coverinstances x)) by (rewrite Ep; now left). destruct (opn_has _ _ _ _ _ _ MI Ix Ip) as (y & Iy & _). intros E'. now rewrite E' in Iy.
  - apply Forall_forall. intros p Ip. destruct (opn_in _ _ _ _ _ MI Ip) as [M (y & Iy)]. eapply merged_ci_sound; [exact M| |].
    + apply of_name_in in Iy as (<- & s & Is & Iy). destruct (S s Is) as (_ & _ & P). rewrite Forall_forall in P. apply (P y Iy).
    + apply Forall_forall. intros q Iq. apply of_name_in in Iq as (_ & s & Is & Iq). destruct (S s Is) as (_ & _ & P). rewrite Forall_forall in P. now apply P.
Qed.
Lemma merged_inst_sound : forall c srcs, merged_inst c srcs -> fine_name (s_name c) -> Forall sound_inst srcs -> sound_inst c.
Proof.
  intros c srcs (_ & _ & _ & MI) F S. rewrite Forall_forall in S. split; [assumption|].
  apply Forall_forall. intros p Ip. destruct (opn_in _ _ _ _ _ MI Ip) as [M (y & Iy)]. eapply merged_cg_sound; [exact M| |].
  - apply of_name_in in Iy as (<- & s & Is & Iy). destruct (S s Is) as (_ & P). rewrite Forall_forall in P. apply (P y Iy).
  - apply Forall_forall. intros q Iq. apply of_name_in in Iq as (_ & s & Is & Iq). destruct (S s Is) as (_ & P). rewrite Forall_forall in P. now apply P.
Qed.

(** ** The database *)
Lemma inst_of_name_in : forall n roots r i, In (r, i) (inst_of_name n roots) -> In r roots /\ In i (instances r) /\ s_name i = n.
Proof.
  intros n roots r i I. unfold inst_of_name in I. apply somes_in in I. apply in_map_iff in I as (r' & E & I).
  destruct (last_named s_name n (instances r')) as [j|] eqn:L; [|discriminate]. injection E as <- <-. apply last_named_some in L as [L N]. auto.
Qed.
Lemma merge_instances : forall root' srcs, is_merge (db_root empty_db) root' srcs ->
  exists pairs, s_kids root' = flat_map (fun di => [fst di; snd di]) pairs /\ instances root' = map snd pairs /\
    Forall2 (fun n di => merged_pair root' (inst_of_name n srcs) n di) (nub (map s_name (flat_map instances srcs))) pairs.
Proof.
  intros root' srcs (pairs & _ & _ & _ & K & F). exists pairs. change (s_kids (db_root empty_db)) with (@nil scope) in K. cbn [app] in K. split; [exact K|]. split; [|exact F].
  unfold instances, kids_with. rewrite K. clear K. revert F. generalize (nub (map s_name (flat_map instances srcs))). intros ns F.
  induction F as [|n [d i] ns pairs M F IH]; [reflexivity|]. cbn [flat_map app filter fst snd map]. destruct M as (_ & Ti & Td & _).
  rewrite Td. change (N.testbit DU_MODULE 4) with false. cbv iota. cbn [filter]. rewrite Ti. change (N.testbit INSTANCE 4) with true. cbv iota. f_equal. exact IH.
Qed.
Lemma merge_sound : forall root' srcs, is_merge (db_root empty_db) root' srcs -> srcs <> [] -> Forall sound_root srcs -> sound_root root'.
Proof.
  intros root' srcs M NE S. apply merge_instances in M as (pairs & _ & E & F). unfold sound_root. rewrite E. split.
  - destruct srcs as [|s srcs]; [now contradiction NE|]. inversion S as [|? ? [N _] _]; subst. destruct (instances s) as [|i l] eqn:Ei; [now contradiction N|].
    destruct (Forall2_in_l' _ _ _ _ _ F (s_name i)) as (di & I & _).
    + apply nub_in. cbn [flat_map]. rewrite Ei. now left.
    + intros E'. apply (in_map snd) in I. now rewrite E' in I.
  - apply Forall_forall. intros i I. apply in_map_iff in I as ([d i'] & <- & I). cbn [snd].
    apply (Forall2_in_r _ F) in I as (n & _ & N & _ & _ & _ & _ & MI & r & x & t & sd & Es & _).
    assert (A : forall y, In y (map snd (inst_of_name n srcs)) -> sound_inst y /\ s_name y = n).
    { intros y Iy. apply in_map_iff in Iy as ([r0 y0] & <- & Iy). apply inst_of_name_in in Iy as (Ir & Iy & Ny). rewrite Forall_forall in S.
      destruct (S r0 Ir) as [_ Q]. rewrite Forall_forall in Q. split; [now apply Q|assumption]. }
    eapply merged_inst_sound; [exact MI| |].
    + destruct (A x) as [[Fx _] Nx]; [rewrite Es; now left|]. congruence.
    + apply Forall_forall. intros y Iy. now apply A.
Qed.

(** ** Files *)
Inductive bare : scope -> Prop :=
| Bare s : si_file (s_src s) = None -> Forall bare (s_kids s) -> bare s.
Lemma bare_files : forall s, bare s -> files_below s = [].
Proof.
  induction s as [a i ii ks IH] using scope_rect_nested. intros O. inversion O as [s _ K Es]. subst s. cbn [s_kids] in K. cbn [files_below].
  apply no_files_kids. rewrite Forall_forall in *. intros k I. specialize (K k I). split; [now inversion K|]. now apply IH.
Qed.
Lemma ones_bare : forall s, ones s -> bare s.
Proof.
  induction s as [a i ii ks IH] using scope_rect_nested. intros O. inversion O as [s _ F _ K Es]. subst s. constructor; [exact F|].
  cbn [s_kids] in *. rewrite Forall_forall in *. auto.
Qed.
Lemma bare_kids : forall bit s c, bare s -> In c (kids_with bit s) -> bare c.
Proof. intros bit s c B I. inversion B as [s' _ K Es]. subst s'. unfold kids_with in I. apply filter_In in I as [I _]. rewrite Forall_forall in K. now apply K. Qed.
Lemma bare_get : forall h s c, bare s -> get_at s h = Some c -> bare c.
Proof.
  induction h as [|i h IH]; intros s c B G; [cbn in G; now injection G as <-|]. cbn in G. destruct (nth_error (s_kids s) i) as [k|] eqn:E; [|discriminate].
  apply (IH k); [|assumption]. inversion B as [s' _ K Es]. subst s'. apply nth_error_In in E. rewrite Forall_forall in K. now apply K.
Qed.
Lemma bare_first : forall c srcs, attrs_of_first c srcs -> Forall bare srcs -> si_file (s_src c) = None.
Proof. intros c srcs (x & t & -> & _ & ->) B. inversion B as [|? ? Bx _]; subst. now inversion Bx. Qed.
Lemma bare_point : forall c srcs, merged_point c srcs -> Forall bare srcs -> bare c.
Proof. intros c srcs (A & K & _) B. constructor; [eapply bare_first; eassumption|]. rewrite K. constructor. Qed.
Lemma bare_of_name : forall n bit srcs, Forall bare srcs -> Forall bare (of_name n (kids_with bit) srcs).
Proof.
  intros n bit srcs B. apply Forall_forall. intros y I. apply of_name_in in I as (_ & s & Is & I). rewrite Forall_forall in B. eapply bare_kids; [|exact I]; now apply B.
Qed.
Lemma bare_points : forall c srcs, one_per_name merged_point coverpoints c srcs -> merged_crosses c srcs -> Forall bare srcs ->
  Forall bare (coverpoints c) /\ Forall bare (crosses c).
Proof.
  intros c srcs MP MX B. split; apply Forall_forall; intros p Ip.
  - destruct (opn_in _ _ _ _ _ MP Ip) as [M _]. eapply bare_point; [exact M|]. now apply bare_of_name.
  - destruct (mcr_in _ _ _ MX Ip) as [M _]. eapply bare_point; [exact M|]. apply Forall_forall. intros y I. apply named_crosses_in in I as (_ & s & Is & I).
    rewrite Forall_forall in B. eapply bare_kids; [|exact I]; now apply B.
Qed.
Lemma bare_ci : forall c srcs, merged_ci c srcs -> Forall bare srcs -> bare c.
Proof.
  intros c srcs (A & K & MP & MX) B. constructor; [eapply bare_first; eassumption|]. rewrite K. apply Forall_app. now apply bare_points with srcs.
Qed.
Lemma bare_cg : forall c srcs, merged_cg c srcs -> Forall bare srcs -> bare c.
Proof.
  intros c srcs (A & K & MP & MX & MI) B. constructor; [eapply bare_first; eassumption|]. rewrite K. destruct (bare_points c srcs MP MX B).
  repeat (apply Forall_app; split); try assumption. apply Forall_forall. intros p Ip. destruct (opn_in _ _ _ _ _ MI Ip) as [M _].
  eapply bare_ci; [exact M|]. now apply bare_of_name.
Qed.
Lemma bare_inst : forall c srcs, merged_inst c srcs -> Forall bare srcs -> bare c.
Proof.
  intros c srcs ((x & t & E & S) & _ & K & MI) B. constructor.
  - rewrite S. subst srcs. inversion B as [|? ? Bx _]; subst. now inversion Bx.
  - rewrite K. apply Forall_forall. intros p Ip. destruct (opn_in _ _ _ _ _ MI Ip) as [M _]. eapply bare_cg; [exact M|]. now apply bare_of_name.
Qed.
(** A merge of databases without source files has none either. *)
Lemma merge_no_files : forall root' srcs, is_merge (db_root empty_db) root' srcs -> Forall bare srcs -> files_below root' = [].
Proof.
  intros root' srcs M B. apply merge_instances in M as (pairs & K & _ & F).
  assert (Forall (fun k => si_file (a_src (s_attrs k)) = None /\ files_below k = []) (s_kids root')) as A.
  { rewrite Forall_forall in B. apply Forall_forall. intros k I. pose proof I as I0. rewrite K in I. apply in_flat_map in I as ([d i] & I & Ik).
    apply (Forall2_in_r _ F) in I as (n & _ & N & Ti & Td & _ & DU & MI & r & x & t & sd & Es & Du & _ & _ & Sd).
    assert (In (r, x) (inst_of_name n srcs)) as Irx by (rewrite Es; now left). apply inst_of_name_in in Irx as (Ir & Ix & _).
    destruct Ik as [<-|[<-|[]]]; cbn [fst snd] in *.
    - assert (bare sd). { unfold du_in in Du. destruct (s_cls x) as [| |[h|]| | | |]; try discriminate. eapply bare_get; [now apply (B r)|exact Du]. }
      split; [change (si_file (s_src d) = None); rewrite Sd; now inversion H|]. destruct d as [a it ii ks]. cbn in DU. subst ks. reflexivity.
    - assert (bare i) as Bi. { eapply bare_inst; [exact MI|]. apply Forall_forall. intros y Iy. apply in_map_iff in Iy as ([r0 y0] & <- & Iy).
        apply inst_of_name_in in Iy as (Ir0 & Iy & _). eapply bare_kids; [now apply (B r0)|exact Iy]. }
      split; [now inversion Bi|now apply bare_files]. }
  destruct root' as [a it ii ks]. cbn [files_below s_kids] in *. now apply no_files_kids.
Qed.
