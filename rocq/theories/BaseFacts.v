(** Lemmas about the base vocabulary. *)
From Verif Require Import Base Dict Consts Db.
Set Implicit Arguments.

Lemma rbind_ok {A B} (m : res A) (k : A -> res B) b :
  rbind m k = Ok b -> exists a, m = Ok a /\ k a = Ok b.
Proof. destruct m; simpl; intros; [eauto | discriminate]. Qed.

Lemma rbind_err {A B} (m : res A) (k : A -> res B) e :
  rbind m k = Err e -> m = Err e \/ exists a, m = Ok a /\ k a = Err e.
Proof. destruct m; simpl; intros H; [eauto | injection H as ->; auto]. Qed.

Ltac inv_ok :=
  repeat match goal with
  | H : rbind _ _ = Ok _ |- _ =>
      let a := fresh "a" in let E := fresh "E" in
      apply rbind_ok in H; destruct H as [a [E H]]
  | H : (let '(_, _) := ?p in _) = Ok _ |- _ => destruct p
  | H : Ok _ = Ok _ |- _ => injection H as H
  | H : Err _ = Ok _ |- _ => discriminate H
  end.

Lemma traverse_ok {A B} (f : A -> res B) l l' :
  traverse f l = Ok l' <-> Forall2 (fun a b => f a = Ok b) l l'.
Proof.
  revert l'. induction l as [|a l IH]; intros l'; simpl.
  - split; intros H; [injection H as <-; constructor | inversion H; auto].
  - split; intros H.
    + inv_ok. subst. constructor; auto. apply IH. auto.
    + inversion H; subst; clear H. rewrite H2. simpl.
      assert (traverse f l = Ok l'0) as -> by (apply IH; auto). reflexivity.
Qed.

Lemma traverse_if_filter {A B} p (f : A -> res B) l :
  traverse_if p f l = traverse f (filter p l).
Proof.
  induction l as [|a l IH]; simpl; auto.
  destruct (p a); simpl; rewrite ?IH; auto.
Qed.

Lemma traverse_ext {A B} (f g : A -> res B) l :
  Forall (fun x => f x = g x) l -> traverse f l = traverse g l.
Proof. induction 1 as [|x l Hx _ IH]; simpl; auto. rewrite Hx, IH. auto. Qed.

Lemma fold_res_app {A B} (f : B -> A -> res B) l1 l2 b :
  fold_res f (l1 ++ l2) b = rbind (fold_res f l1 b) (fold_res f l2).
Proof.
  revert b; induction l1 as [|a l1 IH]; intros b; simpl; auto.
  destruct (f b a); simpl; auto.
Qed.

(** A mask with a single bit tests that bit. *)
Lemma mask_hit_bit t k : mask_hit t (2 ^ k)%N = N.testbit t k.
Proof.
  unfold mask_hit.
  destruct (N.testbit t k) eqn:E.
  - destruct (N.eqb_spec (N.land t (2 ^ k)) 0) as [H|H]; auto.
    apply (f_equal (fun x => N.testbit x k)) in H.
    rewrite N.land_spec, E, N.pow2_bits_true, N.bits_0 in H. discriminate.
  - destruct (N.eqb_spec (N.land t (2 ^ k)) 0) as [H|H]; auto.
    exfalso. apply H. apply N.bits_inj. intros n.
    rewrite N.land_spec, N.bits_0.
    destruct (N.eq_dec n k) as [->|Hn].
    + rewrite E. auto.
    + rewrite N.pow2_bits_false by congruence. apply andb_false_r.
Qed.

Lemma sumZ_app l1 l2 : sumZ (l1 ++ l2) = (sumZ l1 + sumZ l2)%Z.
Proof. unfold sumZ. induction l1; simpl; lia. Qed.

Lemma filter_ext_in' {A} (p q : A -> bool) l :
  (forall x, p x = q x) -> filter p l = filter q l.
Proof. intros. apply filter_ext. auto. Qed.

Lemma Forall2_map_l {A B C} (f : A -> B) (R : B -> C -> Prop) l l' :
  Forall2 R (map f l) l' <-> Forall2 (fun a c => R (f a) c) l l'.
Proof.
  revert l'. induction l as [|a l IH]; intros l'; simpl; split; intros H; inversion H; subst; constructor; auto; apply IH; auto.
Qed.

Lemma Forall2_imp {A B} (R S : A -> B -> Prop) l l' :
  (forall a b, R a b -> S a b) -> Forall2 R l l' -> Forall2 S l l'.
Proof. induction 2; constructor; auto. Qed.

Lemma Forall2_Forall_l {A B} (P : A -> Prop) (R S : A -> B -> Prop) l l' :
  (forall a b, P a -> R a b -> S a b) -> Forall P l -> Forall2 R l l' -> Forall2 S l l'.
Proof. intros HI HP H. revert HP. induction H; intros HP; inversion HP; subst; constructor; auto. Qed.

Lemma Forall_filter {A} (P : A -> Prop) p l : Forall P l -> Forall P (filter p l).
Proof. induction 1; simpl; auto. destruct (p x); auto. Qed.

Lemma Forall2_length' {A B} (R : A -> B -> Prop) l l' : Forall2 R l l' -> List.length l = List.length l'.
Proof. induction 1; simpl; auto. Qed.

Lemma Forall2_in_r {A B} (R : A -> B -> Prop) l l' b :
  Forall2 R l l' -> In b l' -> exists a, In a l /\ R a b.
Proof.
  induction 1; simpl; [tauto|]. intros [->|Hb]; [eauto|].
  destruct (IHForall2 Hb) as [a [? ?]]. eauto.
Qed.

Lemma Forall2_in_l {A B} (R : A -> B -> Prop) l l' a :
  Forall2 R l l' -> In a l -> exists b, In b l' /\ R a b.
Proof.
  induction 1; simpl; [tauto|]. intros [->|Hb]; [eauto|].
  destruct (IHForall2 Hb) as [b [? ?]]. eauto.
Qed.

Lemma Forall2_filter {A B} (R : A -> B -> Prop) p q l l' :
  (forall a b, R a b -> p a = q b) -> Forall2 R l l' -> Forall2 R (filter p l) (filter q l').
Proof.
  intros E. induction 1 as [|a b l l' HR _ IH]; simpl; auto.
  rewrite <- (E a b HR). destruct (p a); auto.
Qed.

Lemma Forall2_app_split_l {A B} (R : A -> B -> Prop) l1 l2 l' :
  Forall2 R (l1 ++ l2) l' -> exists l1' l2', l' = l1' ++ l2' /\ Forall2 R l1 l1' /\ Forall2 R l2 l2'.
Proof. intros H. apply Forall2_app_inv_l in H. destruct H as (a & b & ? & ? & ?). eauto 6. Qed.

Lemma Forall2_comb {A B C} (R : A -> B -> Prop) (S : A -> C -> Prop) (T : B -> C -> Prop) l l1 l2 :
  (forall a b c, R a b -> S a c -> T b c) -> Forall2 R l l1 -> Forall2 S l l2 -> Forall2 T l1 l2.
Proof.
  intros HI H. revert l2. induction H; intros l2 H2; inversion H2; subst; constructor; eauto.
Qed.

(** Dictionaries. *)
Lemma dget_dset_same {V} k (v : V) d : dget k (dset k v d) = Some v.
Proof.
  induction d as [|[k' v'] d IH]; simpl.
  - rewrite String.eqb_refl. auto.
  - destruct (String.eqb k k') eqn:E; simpl; rewrite E; auto.
Qed.

Lemma dget_dset_other {V} k k' (v : V) d : k <> k' -> dget k (dset k' v d) = dget k d.
Proof.
  intros Hn. induction d as [|[k2 v2] d IH]; simpl.
  - destruct (String.eqb_spec k k'); congruence.
  - destruct (String.eqb_spec k' k2); simpl; subst.
    + destruct (String.eqb_spec k k2); congruence.
    + destruct (String.eqb_spec k k2); auto.
Qed.

Lemma dkeys_dset {V} k (v : V) d :
  dkeys (dset k v d) = if dmem k d then dkeys d else dkeys d ++ [k].
Proof.
  unfold dmem. induction d as [|[k2 v2] d IH]; simpl; auto.
  destruct (String.eqb k k2) eqn:E; simpl; auto.
  rewrite IH. destruct (dget k d); auto.
Qed.

Lemma dget_in {V} k (d : dict V) : dmem k d = true <-> In k (dkeys d).
Proof.
  unfold dmem. induction d as [|[k2 v2] d IH]; simpl.
  - split; [discriminate | tauto].
  - destruct (String.eqb_spec k k2).
    + split; auto.
    + rewrite IH. split; [auto | intros [?|?]; congruence].
Qed.
