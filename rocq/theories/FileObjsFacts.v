(** Which file objects a program changes. *)
From Verif Require Import Base Dict Db Report Xml XmlWriter XmlReader Schema UcisXsd XmlFactory Merge Yaml Cmd FileObjs.
Set Implicit Arguments.

(** Objects that were there change only as [R] allows, new ones are closed. *)
Definition keeps (R : nat -> fobj -> fobj -> Prop) (S S' : fstate) : Prop :=
  (forall j o, nth_error (fs_objs S) j = Some o -> exists o', nth_error (fs_objs S') j = Some o' /\ R j o o') /\
  (forall j o', List.length (fs_objs S) <= j -> nth_error (fs_objs S') j = Some o' -> fo_open o' = false).
Record fair (R : nat -> fobj -> fobj -> Prop) : Prop := Fair {
  fair_refl : forall j o, R j o o;
  fair_trans : forall j a b c, R j a b -> R j b c -> R j a c;
  fair_open : forall j a b, R j a b -> fo_open b = fo_open a }.
Definition tidy {A} R (m : ST fstate A) : Prop := forall S, keeps R S (fst (m S)).
(** ... besides the object [n]. *)
Definition but (n : nat) (R : nat -> fobj -> fobj -> Prop) j a b : Prop := (j = n /\ fo_open b = fo_open a) \/ R j a b.

Section Tidy.
  Variable R : nat -> fobj -> fobj -> Prop.
  Hypothesis F : fair R.

  Lemma keeps_refl : forall S, keeps R S S.
  Proof.
    intros S. split; [intros j o H; exists o; split; [exact H|apply (fair_refl F)]|].
    intros j o' L H. assert (j < List.length (fs_objs S)) by (apply nth_error_Some; congruence). lia.
  Qed.
  Lemma keeps_trans : forall S1 S2 S3, keeps R S1 S2 -> keeps R S2 S3 -> keeps R S1 S3.
  Proof.
    intros S1 S2 S3 [A A'] [B B']. split.
    - intros j o H. destruct (A j o H) as (o2 & H2 & R2). destruct (B j o2 H2) as (o3 & H3 & R3).
      exists o3. split; [exact H3|eapply (fair_trans F); eassumption].
    - intros j o' L H. destruct (Nat.lt_ge_cases j (List.length (fs_objs S2))) as [X|X]; [|exact (B' j o' X H)].
      destruct (nth_error (fs_objs S2) j) as [o2|] eqn:E; [|apply nth_error_None in E; lia].
      destruct (B j o2 E) as (o3 & H3 & R3). rewrite H in H3. injection H3 as <-. rewrite (fair_open F _ _ _ R3). exact (A' j o2 L E).
  Qed.
  Lemma tidy_ret {A} (a : A) : tidy R (sret a).
  Proof. intros S. apply keeps_refl. Qed.
  Lemma tidy_raise {A} e : tidy R (@sraise fstate A e).
  Proof. intros S. apply keeps_refl. Qed.
  Lemma tidy_lift {A} (r : res A) : tidy R (slift r).
  Proof. intros S. apply keeps_refl. Qed.
  Lemma tidy_bind {A B} (m : ST fstate A) (k : A -> ST fstate B) : tidy R m -> (forall a, tidy R (k a)) -> tidy R (sbind m k).
  Proof.
    intros M K S. unfold sbind. specialize (M S). destruct (m S) as [S1 [a|e]]; cbn [fst] in *; [|exact M].
    eapply keeps_trans; [exact M|apply K].
  Qed.
  Lemma set_nth_same {X} (l : list X) i x : i < List.length l -> nth_error (set_nth i x l) i = Some x.
  Proof. revert i. induction l as [|h l IH]; intros [|i] L; cbn in *; try lia; [reflexivity|]. apply IH. lia. Qed.
  Lemma set_nth_other {X} (l : list X) i j x : i <> j -> nth_error (set_nth i x l) j = nth_error l j.
  Proof. revert i j. induction l as [|h l IH]; intros [|i] [|j] N; cbn; try reflexivity; try congruence. apply IH. congruence. Qed.
  Lemma set_nth_len {X} (l : list X) i x : List.length (set_nth i x l) = List.length l.
  Proof. revert i. induction l as [|h l IH]; intros [|i]; cbn; congruence. Qed.
  Lemma tidy_on {A} i (f : fobj -> fobj * res A) : (forall o, R i o (fst (f o))) -> tidy R (on_obj i f).
  Proof.
    intros H S. unfold on_obj. destruct (nth_error (fs_objs S) i) as [o|] eqn:E; [|apply keeps_refl].
    specialize (H o). destruct (f o) as [o' r]. cbn [fst fs_objs] in *.
    assert (L : i < List.length (fs_objs S)) by (apply nth_error_Some; congruence). split; cbn [fs_objs].
    - intros j q Q. destruct (Nat.eq_dec i j) as [<-|N].
      + exists o'. rewrite set_nth_same by exact L. split; [reflexivity|]. congruence.
      + exists q. rewrite set_nth_other by exact N. split; [exact Q|apply (fair_refl F)].
    - intros j q X Q. assert (j < List.length (fs_objs S)); [|lia]. rewrite <- (set_nth_len (fs_objs S) i o'). apply nth_error_Some. congruence.
  Qed.
  (** A block that closes what it opens *)
  Lemma tidy_with {A} (m : ST fstate nat) (body : nat -> ST fstate A) :
    (forall S S1 r, m S = (S1, r) -> (S1 = S /\ exists e, r = Err e) \/
       (exists o, fs_objs S1 = fs_objs S ++ [o] /\ r = Ok (List.length (fs_objs S)))) ->
    (forall S S1 n, m S = (S1, Ok n) -> keeps (but n R) S1 (fst (body n S1))) ->
    tidy R (with_obj m body).
  Proof.
    intros M B S. unfold with_obj, sbind. specialize (M S). specialize (B S). destruct (m S) as [S1 r] eqn:E.
    destruct (M S1 r eq_refl) as [[-> [e ->]]|(o & O & ->)]; [apply keeps_refl|].
    specialize (B S1 _ eq_refl). set (n := List.length (fs_objs S)) in *. unfold finally, close. destruct (body n S1) as [S2 r2]. cbn [fst] in B. destruct B as [B B'].
    assert (N1 : nth_error (fs_objs S1) n = Some o) by (rewrite O; unfold n; rewrite nth_error_app2, Nat.sub_diag by lia; reflexivity).
    destruct (B _ _ N1) as (o2 & N2 & _). rewrite N2. cbn [fst fs_objs].
    assert (L2 : n < List.length (fs_objs S2)) by (apply nth_error_Some; congruence). split; cbn [fs_objs].
    - intros j q Q. assert (J : j < n) by (unfold n; apply nth_error_Some; congruence). rewrite set_nth_other by lia.
      assert (Q1 : nth_error (fs_objs S1) j = Some q) by (rewrite O, nth_error_app1 by exact J; exact Q).
      destruct (B _ _ Q1) as (q' & Q' & [[X _]|X]); [lia|]. eauto.
    - intros j q L Q. fold n in L. destruct (Nat.eq_dec n j) as [<-|X]; [rewrite set_nth_same in Q by exact L2; now injection Q as <-|].
      rewrite set_nth_other in Q by exact X. apply (B' j); [|exact Q]. rewrite O, app_length. cbn. fold n. lia.
  Qed.
  Lemma fair_but n : fair (but n R).
  Proof.
    destruct F as [FR FT FO]. split; unfold but.
    - intros j o. right. apply FR.
    - intros j a b c [[-> X]|X] [[Y Z]|Z].
      + left. split; congruence.
      + left. split; [reflexivity|]. rewrite (FO _ _ _ Z). exact X.
      + left. split; [exact Y|]. rewrite Z. eapply FO; exact X.
      + right. eauto.
    - intros j a b [[_ X]|X]; eauto.
  Qed.
End Tidy.

Lemma open_in_new : forall k p S S1 r, open_in k p S = (S1, r) ->
  (S1 = S /\ exists e, r = Err e) \/ (exists o, fs_objs S1 = fs_objs S ++ [o] /\ r = Ok (List.length (fs_objs S))).
Proof. intros k p S S1 r. unfold open_in. destruct (fs_disk S p); intros H; injection H as <- <-; [right; cbn; eauto|left; eauto]. Qed.
Lemma open_out_new : forall w p S S1 r, open_out w p S = (S1, r) ->
  (S1 = S /\ exists e, r = Err e) \/ (exists o, fs_objs S1 = fs_objs S ++ [o] /\ r = Ok (List.length (fs_objs S))).
Proof. intros w p S S1 r. unfold open_out. destruct (w p); intros H; injection H as <- <-; [right; cbn; eauto|left; eauto]. Qed.

Section Programs.
  Variable parse : opening -> string -> nat -> res elem.
  Variable stops : opening -> string -> nat -> nat.
  Variable to_float : string -> option string.
  Variable print_doc : elem -> res string.
  Variable ev : env.
  Variable parse_yaml : string -> res jval.
  Variable writable : string -> bool.
  Variable importable : opening -> bool.
  Variable xsd : string.
  Notation open_xml := (open_xml importable).
  Notation validate_fp := (validate_fp parse stops xsd).
  Notation parse_fp := (parse_fp parse stops).
  Notation read_xml := (read_xml parse stops to_float importable xsd).

  (** Only the position may change. *)
  Definition moved (a b : fobj) : Prop := exists n, b = at_pos n a.
  Definition moves (A : nat -> Prop) (j : nat) (a b : fobj) : Prop := b = a \/ (A j /\ moved a b).
  Lemma moved_trans : forall a b c, moved a b -> moved b c -> moved a c.
  Proof. intros a b c [n ->] [m ->]. now exists m. Qed.
  Lemma moves_fair A : fair (moves A).
  Proof.
    split; unfold moves.
    - now left.
    - intros j a b c [->|[X Y]] [->|[Z W]]; auto. right. split; [exact X|]. eapply moved_trans; eassumption.
    - intros j a b [->|[_ [n ->]]]; reflexivity.
  Qed.
  Lemma parse_tidy R (F : fair R) i : (forall a b, moved a b -> R i a b) -> tidy R (parse_fp (Some i)).
  Proof.
    intros H. cbn. apply tidy_on; [exact F|]. intros o. destruct (fo_open o); cbn [fst]; [apply H; eexists; reflexivity|apply (fair_refl F)].
  Qed.
  Lemma validate_tidy R (F : fair R) i : (forall a b, moved a b -> R i a b) -> tidy R (validate_fp (Some i)).
  Proof.
    intros H. unfold FileObjs.validate_fp. apply tidy_bind; [exact F| |].
    - apply tidy_with; [exact F|apply open_in_new|]. intros S S1 n _. apply tidy_ret. now apply fair_but.
    - intros _. unfold check_doc. apply tidy_bind; [exact F|now apply parse_tidy|]. intros doc. destruct (ucis_valid doc); [apply tidy_ret|apply tidy_raise]; exact F.
  Qed.
  Lemma rewind_tidy R (F : fair R) i : (forall a b, moved a b -> R i a b) -> tidy R (rewind i).
  Proof.
    intros H. apply tidy_on; [exact F|]. intros o. destruct (fo_open o); [destruct (fo_seeks o)|]; cbn [fst]; try apply (fair_refl F). apply H. eexists; reflexivity.
  Qed.
  Lemma moved_but n R a b : moved a b -> but n R n a b.
  Proof. intros [m ->]. left. split; reflexivity. Qed.

  (** The object that a name is opened to is closed on all ways out. *)
  Lemma read_name_tidy R (F : fair R) p : tidy R (read_xml (Name p)).
  Proof.
    intros S. unfold FileObjs.read_xml. unfold FileObjs.open_xml.
    assert (W : tidy R (with_obj (open_in Plain p) (fun i => on_obj i (fun o => (at_pos 4 o, Ok (open_file (fo_text o))))))).
    { apply tidy_with; [exact F|apply open_in_new|]. intros S0 S1 n _. apply tidy_on; [now apply fair_but|]. intros o. left. now split. }
    unfold sbind at 1. unfold sbind at 1. specialize (W S). destruct (with_obj (open_in Plain p) _ S) as [S1 [k|e]]; cbn [fst] in W; [|exact W].
    eapply (keeps_trans F); [exact W|]. clear W S.
    assert (Main : forall k, keeps R S1 (fst ((f <- (i <- open_in k p;; sret (Some i));; or_else (validate_fp f) (close_fp f);;; rewind_fp f;;;
                     finally (doc <- parse_fp f;; slift (read to_float doc)) (close_fp f)) S1))).
    { clear k. intros k. unfold sbind at 1 2.
      (* as a block *)
      destruct (open_in k p S1) as [S2 [n|e]] eqn:E; [|destruct (open_in_new _ _ _ E) as [[-> _]|(o & _ & [=])]; apply (keeps_refl F)]. unfold sret at 1. cbv beta iota. cbn [rewind_fp close_fp].
      set (body := fun (i : nat) => (validate_fp (Some i) ;;; rewind i ;;; (doc <- parse_fp (Some i) ;; slift (read to_float doc)))).
      assert (T : keeps R S1 (fst (with_obj (open_in k p) body S1))).
      { apply tidy_with; [exact F|apply open_in_new|]. intros S S' m _. pose proof (fair_but F m) as FB. unfold body. pose proof (@moved_but m R) as MB.
        apply tidy_bind; [exact FB|now apply validate_tidy|]. intros _. apply tidy_bind; [exact FB|now apply rewind_tidy|]. intros _.
        apply tidy_bind; [exact FB|now apply parse_tidy|]. intros doc. now apply tidy_lift. }
      unfold with_obj, sbind at 1, finally, body in T. rewrite E in T. cbn [fst] in T.
      assert (O : exists o, nth_error (fs_objs S2) n = Some o /\ fo_open o = true /\ fo_seeks o = true).
      { unfold open_in in E. destruct (fs_disk S1 p) as [c|]; [|discriminate]. injection E as <- <-. exists (FObj k c 0 true true None). cbn. rewrite nth_error_app2, Nat.sub_diag by lia. repeat split. }
      destruct O as (o & O1 & O2 & O3).
      unfold or_else, sbind at 1 2. unfold sbind at 1 2 in T.
      pose proof (@validate_tidy (moves (eq n)) (moves_fair (eq n)) n (fun a b M => or_intror (conj eq_refl M)) S2) as V.
      destruct (validate_fp (Some n) S2) as [S3 [u|e]]; cbn [fst] in V.
      - destruct V as [V _]. destruct (V n o O1) as (o3 & N3 & X3).
        assert (Q : fo_open o3 = true /\ fo_seeks o3 = true) by (destruct X3 as [->|[_ [m ->]]]; cbn; auto). destruct Q as [Q1 Q2].
        unfold rewind, on_obj in *. rewrite N3, Q1, Q2 in *. unfold finally in *.
        destruct ((doc <- parse_fp (Some n);; slift (read to_float doc)) _) as [S4 r4]. destruct (close n S4) as [S5 r5]. clear - T. cbn [fst] in *. exact T.
      - destruct (close n S3) as [S4 r4]. cbn [fst] in *. destruct r4; exact T. }
    destruct k; [| |exact (Main Plain)].
    - destruct (importable Gzip); [exact (Main Gzip)|]. cbn. unfold or_else, sbind at 1 2.
      assert (V : tidy R (validate_fp None)). { unfold FileObjs.validate_fp. apply tidy_bind; [exact F|apply tidy_with; [exact F|apply open_in_new|]; intros S S' m _; apply tidy_ret; now apply fair_but|]. intros _. apply (tidy_raise F). }
      specialize (V S1). destruct (validate_fp None S1) as [S3 [u|e]]; cbn [fst] in *; exact V.
    - destruct (importable Lz4); [exact (Main Lz4)|]. cbn. unfold or_else, sbind at 1 2.
      assert (V : tidy R (validate_fp None)). { unfold FileObjs.validate_fp. apply tidy_bind; [exact F|apply tidy_with; [exact F|apply open_in_new|]; intros S S' m _; apply tidy_ret; now apply fair_but|]. intros _. apply (tidy_raise F). }
      specialize (V S1). destruct (validate_fp None S1) as [S3 [u|e]]; cbn [fst] in *; exact V.
  Qed.
End Programs.
