(** The decoder of Yaml.v finds what the document says. *)
From Verif Require Import Base Dict BaseFacts Yaml YamlSpec YamlFacts YamlDocSpec.
Set Implicit Arguments.
Local Open Scope string_scope.
Local Open Scope list_scope.

(** [f] is right about [P]. *)
Definition reads {A} (f : jval -> res A) (P : jval -> A -> Prop) : Prop := forall v x, f v = Ok x <-> P v x.

Lemma reads_str : reads d_str is_string.
Proof. intros v x. unfold is_string. destruct v; cbn; split; intros H; try discriminate; now injection H as ->. Qed.
Lemma reads_int : reads d_int is_integer.
Proof. intros v x. unfold is_integer. destruct v; cbn; split; intros H; try discriminate; now injection H as ->. Qed.
Lemma reads_list : forall A (f : jval -> res A) P, reads f P -> forall l xs, traverse f l = Ok xs <-> Forall2 P l xs.
Proof.
  intros A f P R l. induction l as [|v l IH]; intros xs; cbn.
  - split; [intros [= <-]; constructor|]. now inversion 1.
  - split.
    + intros H. apply rbind_ok in H as (x & E & H). apply rbind_ok in H as (ys & Es & H). injection H as <-. constructor; [now apply R|now apply IH].
    + inversion 1 as [|? x ? ys Px Ps]; subst. apply R in Px. apply IH in Ps. now rewrite Px, Ps.
Qed.
Lemma reads_arr : forall A (f : jval -> res A) P, reads f P -> reads (d_arr f) (is_array P).
Proof.
  intros A f P R v x. unfold is_array. destruct v; cbn; split; try discriminate; try (now intros (? & [=] & _)).
  - intros H. exists l. split; [reflexivity|]. now apply (reads_list R).
  - intros (vs & [= ->] & H). now apply (reads_list R).
Qed.
Lemma reads_need : forall A (f : jval -> res A) P n o x, reads f P -> (need n f o = Ok x <-> holds_prop P n o x).
Proof.
  intros A f P n o x R. unfold need, holds_prop. destruct (dget n o) as [v|]; split.
  - intros H. exists v. split; [reflexivity|now apply R].
  - intros (v' & [= <-] & H). now apply R.
  - discriminate.
  - now intros (? & [=] & _).
Qed.
Lemma reads_maybe : forall A (f : jval -> res A) P n o x, reads f P -> (maybe n f o = Ok x <-> may_hold P n o x).
Proof.
  intros A f P n o x R. unfold maybe, may_hold, holds_prop. destruct (dget n o) as [v|]; split.
  - intros H. apply rbind_ok in H as (y & E & H). injection H as <-. exists v. split; [reflexivity|now apply R].
  - destruct x as [y|]; [|discriminate]. intros (v' & [= <-] & H). apply R in H. now rewrite H.
  - now intros [= <-].
  - destruct x; [now intros (? & [=] & _)|reflexivity].
Qed.
Lemma reads_obj : forall A (f : dict jval -> res A) P, (forall o x, f o = Ok x <-> P o x) -> reads (fun v => let* o := d_obj v in f o) (is_object P).
Proof.
  intros A f P R v x. unfold is_object. destruct v; cbn; split; try discriminate; try (now intros (? & [=] & _)).
  - intros H. exists fields. split; [reflexivity|now apply R].
  - intros (o & [= ->] & H). now apply R.
Qed.

Lemma reads_bin : reads d_bin bin_says.
Proof.
  apply reads_obj. intros o [n c]. cbn. rewrite <- (reads_need "name" o n reads_str), <- (reads_need "count" o c reads_int). split.
  - intros H. apply rbind_ok in H as (? & -> & H). apply rbind_ok in H as (? & -> & H). now injection H as -> ->.
  - now intros (-> & ->).
Qed.
Lemma reads_bins : reads (d_arr d_bin) (is_array bin_says).
Proof. apply reads_arr, reads_bin. Qed.
Lemma reads_point : reads d_point point_says.
Proof.
  apply reads_obj. intros o [n a b g l]. cbn [yp_name yp_atleast yp_bins yp_ignore yp_illegal].
  rewrite <- (reads_need "name" o n reads_str), <- (reads_maybe "atleast" o a reads_int), <- (reads_maybe "bins" o b reads_bins),
    <- (reads_maybe "ignorebins" o g reads_bins), <- (reads_maybe "illegalbins" o l reads_bins). split.
  - intros H. do 5 (apply rbind_ok in H as (? & -> & H)). now injection H as -> -> -> -> ->.
  - now intros (-> & -> & -> & -> & ->).
Qed.
Lemma reads_cross : reads d_cross cross_says.
Proof.
  apply reads_obj. intros o [n a p b]. cbn [yc_name yc_atleast yc_points yc_bins].
  rewrite <- (reads_need "name" o n reads_str), <- (reads_maybe "atleast" o a reads_int), <- (reads_maybe "coverpoints" o p (reads_arr reads_str)),
    <- (reads_maybe "bins" o b reads_bins). split.
  - intros H. do 4 (apply rbind_ok in H as (? & -> & H)). now injection H as -> -> -> ->.
  - now intros (-> & -> & -> & ->).
Qed.
Lemma reads_inst : reads d_inst inst_says.
Proof.
  apply reads_obj. intros o [n p c]. cbn [yi_name yi_points yi_crosses].
  rewrite <- (reads_need "name" o n reads_str), <- (reads_maybe "coverpoints" o p (reads_arr reads_point)), <- (reads_maybe "crosses" o c (reads_arr reads_cross)). split.
  - intros H. do 3 (apply rbind_ok in H as (? & -> & H)). now injection H as -> -> ->.
  - now intros (-> & -> & ->).
Qed.
Lemma reads_group : reads d_group group_says.
Proof.
  apply reads_obj. intros o [n w i]. cbn [yg_name yg_weight yg_insts].
  rewrite <- (reads_need "name" o n reads_str), <- (reads_maybe "weight" o w reads_int), <- (reads_maybe "instances" o i (reads_arr reads_inst)). split.
  - intros H. do 3 (apply rbind_ok in H as (? & -> & H)). now injection H as -> -> ->.
  - now intros (-> & -> & ->).
Qed.
Theorem reads_doc : forall v doc, d_doc v = Ok doc <-> document_says v doc.
Proof.
  refine (reads_obj _ _ _). intros o doc. apply reads_maybe. refine (reads_obj _ _ _). intros c gs. apply reads_maybe, reads_arr, reads_group.
Qed.
Theorem says_one : forall v doc doc', document_says v doc -> document_says v doc' -> doc = doc'.
Proof. intros v doc doc' H H'. apply reads_doc in H, H'. congruence. Qed.

(** ** Validation *)

(** What a valid value needs, and that it is enough. *)
Lemma fits_arr : forall A (P : jval -> A -> Prop) (F : A -> Prop) s, (forall v x, P v x -> F x -> jvalid s v = true) ->
  forall v l, is_array P v l -> Forall F l -> jvalid (TArr s) v = true.
Proof.
  intros A P F s H v l (vs & -> & E) Fl. cbn. induction E as [|v x vs l Px _ IH]; [reflexivity|]. inversion Fl; subst. cbn. rewrite (H v x) by assumption. now apply IH.
Qed.
Lemma fits_maybe : forall A (P : jval -> A -> Prop) n o x s, may_hold P n o x -> (forall v y, x = Some y -> P v y -> jvalid s v = true) ->
  (match dget n o with Some v => jvalid s v | None => true end) = true.
Proof. intros A P n o [y|] s H V; cbn in H; [|now rewrite H]. destruct H as (v & -> & Pv). now apply (V v y). Qed.
Lemma fits_need : forall A (P : jval -> A -> Prop) n o x s, holds_prop P n o x -> (forall v, P v x -> jvalid s v = true) ->
  dmem n o = true /\ (match dget n o with Some v => jvalid s v | None => true end) = true.
Proof. intros A P n o x s (v & E & Pv) V. unfold dmem. rewrite E. split; [reflexivity|now apply V]. Qed.
Lemma fits_str : forall v s, is_string v s -> jvalid TStr v = true.
Proof. now intros v s ->. Qed.
Lemma fits_int : forall v z, is_integer v z -> jvalid TInt v = true.
Proof. now intros v z ->. Qed.
Lemma some_mem : forall A (P : jval -> A -> Prop) n o x, may_hold P n o x -> x <> None -> dmem n o = true.
Proof. intros A P n o [y|] H N; [|contradiction]. destruct H as (v & E & _). unfold dmem. now rewrite E. Qed.

Lemma all_true : forall A (l : list A), Forall (fun _ => True) l.
Proof. intros A l. now induction l; constructor. Qed.
Lemma fits_bin : forall v b, bin_says v b -> jvalid bin_schema v = true.
Proof.
  intros v b (o & -> & N & C). destruct (fits_need TStr N (fun v => @fits_str v _)) as [N1 N2]. destruct (fits_need TInt C (fun v => @fits_int v _)) as [C1 C2].
  unfold bin_schema. cbn [jvalid forallb fst snd]. cbn [jvalid] in *. now rewrite N1, N2, C1, C2.
Qed.
Lemma fits_bins : forall v l, is_array bin_says v l -> jvalid (TArr bin_schema) v = true.
Proof. intros v l H. apply (@fits_arr _ _ (fun _ => True) bin_schema (fun v x Px _ => fits_bin Px) _ _ H), all_true. Qed.
Lemma fits_point : forall v p, point_says v p -> yp_bins p <> None -> jvalid point_schema v = true.
Proof.
  intros v p (o & -> & N & A & B & G & L) Nb. destruct (fits_need TStr N (fun v => @fits_str v _)) as [N1 N2].
  pose proof (@some_mem _ _ _ _ _ B Nb) as M. pose proof (@fits_maybe _ _ _ _ _ TInt A (fun v y _ => @fits_int v y)) as A1.
  pose proof (@fits_maybe _ _ _ _ _ _ B (fun v y _ => @fits_bins v y)) as B1. pose proof (@fits_maybe _ _ _ _ _ _ G (fun v y _ => @fits_bins v y)) as G1.
  pose proof (@fits_maybe _ _ _ _ _ _ L (fun v y _ => @fits_bins v y)) as L1.
  unfold point_schema. cbn [jvalid forallb fst snd]. cbn [jvalid] in *. now rewrite N1, N2, M, A1, B1, G1, L1.
Qed.
Lemma fits_cross : forall v c, cross_says v c -> yc_points c <> None -> jvalid cross_schema v = true.
Proof.
  intros v c (o & -> & N & A & P & B) Np. destruct (fits_need TStr N (fun v => @fits_str v _)) as [N1 N2].
  pose proof (@some_mem _ _ _ _ _ P Np) as M. pose proof (@fits_maybe _ _ _ _ _ TInt A (fun v y _ => @fits_int v y)) as A1.
  assert (P1 : match dget "coverpoints" o with Some v => jvalid (TArr TStr) v | None => true end = true).
  { apply (@fits_maybe _ _ _ _ _ _ P). intros v y _ H. apply (@fits_arr _ _ (fun _ => True) TStr (fun v x Px _ => fits_str Px) _ _ H), all_true. }
  pose proof (@fits_maybe _ _ _ _ _ _ B (fun v y _ => @fits_bins v y)) as B1.
  unfold cross_schema. cbn [jvalid forallb fst snd]. cbn [jvalid] in *. now rewrite N1, N2, M, A1, B1, P1.
Qed.
Lemma fits_inst : forall v i, inst_says v i -> full_inst i -> jvalid inst_schema v = true.
Proof.
  intros v i (o & -> & N & P & C) [Fp Fc]. destruct (fits_need TStr N (fun v => @fits_str v _)) as [N1 N2].
  assert (P1 : match dget "coverpoints" o with Some v => jvalid (TArr point_schema) v | None => true end = true).
  { apply (@fits_maybe _ _ _ _ _ _ P). intros v y E H. apply (@fits_arr _ _ (fun p => yp_bins p <> None) point_schema fits_point _ _ H). unfold points_of in Fp. now rewrite E in Fp. }
  assert (C1 : match dget "crosses" o with Some v => jvalid (TArr cross_schema) v | None => true end = true).
  { apply (@fits_maybe _ _ _ _ _ _ C). intros v y E H. apply (@fits_arr _ _ (fun c => yc_points c <> None) cross_schema fits_cross _ _ H). unfold crosses_of in Fc. now rewrite E in Fc. }
  unfold inst_schema. cbn [forallb fst snd jvalid]. cbn [jvalid] in *. now rewrite N1, N2, P1, C1.
Qed.
Lemma fits_group : forall v g, group_says v g -> Forall full_inst (insts_of g) -> jvalid group_schema v = true.
Proof.
  intros v g (o & -> & N & W & I) F. destruct (fits_need TStr N (fun v => @fits_str v _)) as [N1 N2].
  pose proof (@fits_maybe _ _ _ _ _ TInt W (fun v y _ => @fits_int v y)) as W1.
  assert (I1 : match dget "instances" o with Some v => jvalid (TArr inst_schema) v | None => true end = true).
  { apply (@fits_maybe _ _ _ _ _ _ I). intros v y E H. apply (@fits_arr _ _ full_inst inst_schema fits_inst _ _ H). unfold insts_of in F. now rewrite E in F. }
  unfold group_schema. cbn [forallb fst snd jvalid]. cbn [jvalid] in *. now rewrite N1, N2, W1, I1.
Qed.
Theorem valid_iff : forall v, jvalid coverage_schema v = true <-> allowed_document v.
Proof.
  intros v. split.
  - intros V. destruct (valid_decodes v V) as (doc & D & F). exists doc. split; [now apply reads_doc|assumption].
  - intros (doc & (o & -> & D) & F).
    assert (D1 : match dget "coverage" o with Some v => jvalid (TObj [("covergroups", TArr group_schema)] []) v | None => true end = true).
    { apply (@fits_maybe _ _ _ _ _ _ D). intros c gs -> (oc & -> & G).
      assert (G1 : match dget "covergroups" oc with Some v => jvalid (TArr group_schema) v | None => true end = true).
      { apply (@fits_maybe _ _ _ _ _ _ G). intros v l -> H. apply (@fits_arr _ _ (fun g => Forall full_inst (insts_of g)) group_schema fits_group _ _ H). now apply F. }
      cbn [forallb fst snd jvalid]. cbn [jvalid] in G1. now rewrite G1. }
    unfold coverage_schema. cbn [jvalid]. cbn [forallb fst snd]. now rewrite D1.
Qed.
