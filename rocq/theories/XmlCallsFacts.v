(** Lemmas about the XML reader as a program of API calls. *)
From Coq Require Import Permutation.
From Verif Require Import XmlResumeFacts.
From Verif Require Import Base Dict Consts Db Hist PyInt Dates Xml XmlReader XmlSession XmlResume BaseFacts Api ApiFacts YamlCalls YamlCallsFacts XmlCalls.
Local Open Scope string_scope.
Local Open Scope list_scope.

(** ** Programs that follow the steps of another *)

(** From a database with [s] at [g], the program changes the object at [g] only: it ends
    with [v m] there, for the result [m] of the other, or with the same exception. *)
Definition sim {A M} (g : handle) (v : M -> scope) (R : A -> M -> Prop) (s : scope) (p : ST db A) (r : res M) : Prop :=
  forall d, get_at (db_root d) g = Some s ->
    match r with
    | Ok m => exists a, p d = (put d g (v m), Ok a) /\ R a m
    | Err e => exists s', p d = (put d g s', Err e)
    end.
Lemma sim_ret {A M} g v (R : A -> M -> Prop) s a m : v m = s -> R a m -> sim g v R s (sret a) (Ok m).
Proof. intros <- H d G. exists a. split; [|assumption]. unfold sret. now rewrite put_id. Qed.
Lemma sim_bind {A B M N} g v (R : A -> M -> Prop) v' (R' : B -> N -> Prop) s p k r f :
  sim g v R s p r -> (forall a m, r = Ok m -> R a m -> sim g v' R' (v m) (k a) (f m)) -> sim g v' R' s (sbind p k) (rbind r f).
Proof.
  intros P K d G. specialize (P d G). unfold sbind. destruct r as [m|e]; cbn [rbind].
  - destruct P as (a & E & H). rewrite E. specialize (K a m eq_refl H (put d g (v m)) (get_put d g s (v m) G)).
    destruct (f m) as [m'|e].
    + destruct K as (b & K & H'). exists b. rewrite put_put in K. auto.
    + destruct K as (s' & K). exists s'. now rewrite put_put in K.
  - destruct P as (s' & E). exists s'. now rewrite E.
Qed.
Lemma sim_unit {A B M} g s1 (R : A -> unit -> Prop) v (R' : B -> M -> Prop) s p k r :
  sim g (fun _ : unit => s1) R s p (Ok tt) -> (forall a, R a tt -> sim g v R' s1 (k a) r) -> sim g v R' s (sbind p k) r.
Proof. intros P K. apply (sim_bind g (fun _ => s1) R v R' s p k (Ok tt) (fun _ => r) P). intros a [] _. apply K. Qed.
Lemma sim_lifts {X Y A M} g v (R : A -> M -> Prop) s (q : res X) (r : res Y) (T : X -> Y -> Prop) k f :
  match q, r with Ok x, Ok y => T x y | Err e, Err e' => e = e' | _, _ => False end ->
  (forall x y, T x y -> sim g v R s (k x) (f y)) -> sim g v R s (sbind (slift q) k) (rbind r f).
Proof.
  intros E K d G. unfold sbind, slift. destruct q as [x|e], r as [y|e']; cbn [rbind]; try contradiction; [exact (K x y E d G)|].
  subst. exists s. now rewrite put_id.
Qed.
Lemma sim_lift {X A M} g v (R : A -> M -> Prop) s (r : res X) k f :
  (forall x, sim g v R s (k x) (f x)) -> sim g v R s (sbind (slift r) k) (rbind r f).
Proof. intros K. apply (sim_lifts g v R s r r eq); [now destruct r|]. now intros x _ <-. Qed.
Lemma sim_ret_bind {A B M} g v (R : B -> M -> Prop) s (a : A) k r : sim g v R s (k a) r -> sim g v R s (sbind (sret a) k) r.
Proof. intros H d G. exact (H d G). Qed.
Lemma sim_assoc {A B C M} g v (R : C -> M -> Prop) s (m : ST db A) (k : A -> ST db B) l r :
  sim g v R s (sbind m (fun a => sbind (k a) l)) r -> sim g v R s (sbind (sbind m k) l) r.
Proof.
  intros H d G. specialize (H d G). assert (E : sbind (sbind m k) l d = sbind m (fun a => sbind (k a) l) d) by (unfold sbind; now destruct (m d) as [d1 [x|e]]).
  now rewrite E.
Qed.
Lemma sim_rassoc {A X Y M} g v (R : A -> M -> Prop) s p (r : res X) (f : X -> res Y) h :
  sim g v R s p (rbind r (fun x => rbind (f x) h)) -> sim g v R s p (rbind (rbind r f) h).
Proof. now destruct r. Qed.
Lemma sim_view {A M} g v v' (R R' : A -> M -> Prop) s p r : sim g v R s p r -> (forall m, v m = v' m) -> (forall a m, R a m -> R' a m) -> sim g v' R' s p r.
Proof.
  intros P V W d G. specialize (P d G). destruct r as [m|e]; [|exact P]. destruct P as (a & P & H). exists a. rewrite <- V. auto.
Qed.
Lemma sim_map {A M N} g v (R : A -> M -> Prop) v' (R' : A -> N -> Prop) s p r f :
  sim g v R s p r -> (forall a m, R a m -> v m = v' (f m) /\ R' a (f m)) -> sim g v' R' s p (let* m := r in Ok (f m)).
Proof.
  intros P W d G. specialize (P d G). destruct r as [m|e]; cbn [rbind]; [|exact P]. destruct P as (a & P & H). exists a. destruct (W a m H) as [<- H']. auto.
Qed.
Lemma sim_below {A M} g h rel s c v (R : A -> M -> Prop) p r : h = g ++ rel -> get_at s rel = Some c -> sim h v R c p r ->
  sim g (fun m => upd_at s rel (fun _ => v m)) R s p r.
Proof.
  intros -> C P d G. assert (GC : get_at (db_root d) (g ++ rel) = Some c) by now rewrite get_at_app, G. specialize (P d GC).
  assert (E : forall c', put d (g ++ rel) c' = put d g (upd_at s rel (fun _ => c'))).
  { intros c'. unfold put. f_equal. rewrite upd_at_app. now apply (upd_at_ext g _ s). }
  destruct r as [m|e].
  - destruct P as (a & P & H). exists a. rewrite <- E. auto.
  - destruct P as (c' & P). eexists. rewrite P, E. reflexivity.
Qed.
Lemma sim_fold {A M X} g v (R : A -> M -> Prop) p f (l : list X) : (forall x a m, R a m -> sim g v R (v m) (p a x) (f m x)) ->
  forall a m, R a m -> sim g v R (v m) (sfold p l a) (fold_res f l m).
Proof.
  intros H. induction l as [|x l IH]; intros a m Ram; cbn [sfold fold_res]; [now apply sim_ret|].
  apply (sim_bind g v R v R); [now apply H|]. intros a' m' _ R'. now apply IH.
Qed.
Lemma sim_made {A M} g h rel s c c0 o v (R : A -> M -> Prop) k r : target o = Some h -> h = g ++ rel -> get_at s rel = Some c ->
  (forall d, get_at (db_root d) g = Some s -> act (db_root d) h c o = adding h c (Ok c0)) ->
  sim g v R (upd_at s rel (fun _ => add_child c c0)) (k (h ++ [List.length (s_kids c)])) r -> sim g v R s (sbind (made o) k) r.
Proof.
  intros T -> C E K. apply (sim_unit g (upd_at s rel (fun _ => add_child c c0)) (fun a _ => a = (g ++ rel) ++ [List.length (s_kids c)])).
  - intros d G. assert (GC : get_at (db_root d) (g ++ rel) = Some c) by now rewrite get_at_app, G.
    pose proof (runs_below d g rel s c _ _ G C (made_child d (g ++ rel) c o c0 GC T (E d G))) as X. cbn [rbind runs] in X.
    eexists. split; [exact X|reflexivity].
  - now intros a ->.
Qed.

(** The same for a step that says what is left when it raises. *)
Definition simx {A M} (g : handle) (v : M -> scope) (R : A -> M -> Prop) (s : scope) (p : ST db A) (r : M * outcome) : Prop :=
  forall d, get_at (db_root d) g = Some s ->
    match snd r with
    | None => exists a, p d = (put d g (v (fst r)), Ok a) /\ R a (fst r)
    | Some e => p d = (put d g (v (fst r)), Err e)
    end.
Lemma x_ret {A M} g v (R : A -> M -> Prop) s a m : v m = s -> R a m -> simx g v R s (sret a) (m, None).
Proof. intros <- H d G. exists a. split; [|assumption]. unfold sret. cbn [fst]. now rewrite put_id. Qed.
Lemma x_ok {A B M N} g v (R : A -> M -> Prop) v' (R' : B -> N -> Prop) s p k m r :
  simx g v R s p (m, None) -> (forall a, R a m -> simx g v' R' (v m) (k a) r) -> simx g v' R' s (sbind p k) r.
Proof.
  intros P K d G. destruct (P d G) as (a & E & H). cbn [fst] in E. unfold sbind. rewrite E. specialize (K a H (put d g (v m)) (get_put d g s (v m) G)).
  destruct (snd r); [|destruct K as (b & K & W); exists b; split; [|exact W]]; now rewrite put_put in K.
Qed.
Lemma x_err {A B M N} g v (R : A -> M -> Prop) v' (R' : B -> N -> Prop) s p k m e m' :
  simx g v R s p (m, Some e) -> v' m' = v m -> simx g v' R' s (sbind p k) (m', Some e).
Proof. intros P V d G. specialize (P d G). cbn [fst snd] in *. unfold sbind. rewrite P, V. reflexivity. Qed.
Lemma x_lift_ok {A B M} g v (R : B -> M -> Prop) s q (a : A) k r : q = Ok a -> simx g v R s (k a) r -> simx g v R s (sbind (slift q) k) r.
Proof. intros -> H d G. exact (H d G). Qed.
Lemma x_lift_err {A B M} g v (R : B -> M -> Prop) s (q : res A) e k m : q = Err e -> v m = s -> simx g v R s (sbind (slift q) k) (m, Some e).
Proof. intros -> V d G. cbn. unfold sbind, slift. now rewrite V, put_id. Qed.
Lemma x_ret_bind {A B M} g v (R : B -> M -> Prop) s (a : A) k r : simx g v R s (k a) r -> simx g v R s (sbind (sret a) k) r.
Proof. intros H d G. exact (H d G). Qed.
Lemma x_assoc {A B C M} g v (R : C -> M -> Prop) s (m : ST db A) (k : A -> ST db B) l r :
  simx g v R s (sbind m (fun a => sbind (k a) l)) r -> simx g v R s (sbind (sbind m k) l) r.
Proof.
  intros H d G. specialize (H d G). assert (E : sbind (sbind m k) l d = sbind m (fun a => sbind (k a) l) d) by (unfold sbind; now destruct (m d) as [d1 [x|e]]).
  now rewrite E.
Qed.
Lemma x_map {A M N} g v (R : A -> M -> Prop) v' (R' : A -> N -> Prop) s p m o m' :
  simx g v R s p (m, o) -> v m = v' m' -> (forall a, o = None -> R a m -> R' a m') -> simx g v' R' s p (m', o).
Proof.
  intros P V W d G. specialize (P d G). cbn [fst snd] in *. destruct o; [now rewrite <- V|]. destruct P as (a & P & H). exists a. rewrite <- V. auto.
Qed.
Lemma x_below {A M} g h rel s c v (R : A -> M -> Prop) p r : h = g ++ rel -> get_at s rel = Some c -> simx h v R c p r ->
  simx g (fun m => upd_at s rel (fun _ => v m)) R s p r.
Proof.
  intros -> C P d G. assert (GC : get_at (db_root d) (g ++ rel) = Some c) by now rewrite get_at_app, G. specialize (P d GC).
  assert (E : forall c', put d (g ++ rel) c' = put d g (upd_at s rel (fun _ => c'))).
  { intros c'. unfold put. f_equal. rewrite upd_at_app. now apply (upd_at_ext g _ s). }
  destruct (snd r); [now rewrite P, E|]. destruct P as (a & P & H). exists a. rewrite <- E. auto.
Qed.
Lemma x_fold {A M X} g v (R : A -> M -> Prop) p f (l : list X) : (forall x a m, R a m -> simx g v R (v m) (p a x) (f m x)) ->
  forall a m, R a m -> simx g v R (v m) (sfold p l a) (run_steps f l m).
Proof.
  intros H. induction l as [|x l IH]; intros a m Ram; cbn [sfold run_steps]; [now apply x_ret|]. specialize (H x a m Ram).
  destruct (f m x) as [m' [e|]]; [now apply (x_err g v R v R _ _ _ m')|]. apply (x_ok g v R v R _ _ _ m'); [exact H|]. intros a'. apply IH.
Qed.
Lemma x_for {M X} g v p f (l : list X) : (forall x m, simx g v (fun (_ : unit) (_ : M) => True) (v m) (p x) (f m x)) ->
  forall m, simx g v (fun _ _ => True) (v m) (sfor p l) (run_steps f l m).
Proof.
  intros H. induction l as [|x l IH]; intros m; cbn [sfor run_steps]; [now apply x_ret|]. specialize (H x m).
  destruct (f m x) as [m' [e|]]; [now apply (x_err g v (fun _ _ => True) v (fun _ _ => True) _ _ _ m')|]. apply (x_ok g v (fun _ _ => True) v (fun _ _ => True) _ _ _ m'); [exact H|]. intros a' _. apply IH.
Qed.
Lemma x_made {A M} g h rel s c c0 o v (R : A -> M -> Prop) k r : target o = Some h -> h = g ++ rel -> get_at s rel = Some c ->
  (forall d, get_at (db_root d) g = Some s -> act (db_root d) h c o = adding h c (Ok c0)) ->
  simx g v R (upd_at s rel (fun _ => add_child c c0)) (k (h ++ [List.length (s_kids c)])) r -> simx g v R s (sbind (made o) k) r.
Proof.
  intros T -> C E K. apply (x_ok g (fun _ : unit => upd_at s rel (fun _ => add_child c c0)) (fun a _ => a = (g ++ rel) ++ [List.length (s_kids c)]) _ _ _ _ _ tt).
  - intros d G. assert (GC : get_at (db_root d) (g ++ rel) = Some c) by now rewrite get_at_app, G.
    pose proof (runs_below d g rel s c _ _ G C (made_child d (g ++ rel) c o c0 GC T (E d G))) as X. cbn [rbind runs] in X.
    eexists. split; [exact X|reflexivity].
  - now intros a ->.
Qed.
(** A step that changes nothing when it raises, and a program that does so too. *)
Lemma x_whole {A M X} g v (R : A -> M -> Prop) p (f : M -> X -> res M) m x :
  sim g v R (v m) p (f m x) -> (forall d e, get_at (db_root d) g = Some (v m) -> f m x = Err e -> fst (p d) = d) -> simx g v R (v m) p (whole f m x).
Proof.
  intros H W d G. specialize (H d G). unfold whole. destruct (f m x) as [m'|e] eqn:F; cbn [fst snd]; [exact H|]. destruct H as (s' & H). specialize (W d e G eq_refl).
  rewrite H in *. cbn [fst] in W. now rewrite W, put_id.
Qed.

(** ** Bins *)
Lemma bin_sim {A M} p at_ items name n kind v (R : A -> M -> Prop) k r : is_point (a_cls at_) = true ->
  sim p v R (Scope at_ (items ++ [new_bin name None 1 n kind]) [] []) (k tt) r ->
  sim p v R (Scope at_ items [] []) (sbind (call (CreateBin p name None 1 n kind)) (fun _ => k tt)) r.
Proof.
  intros P K. apply (sim_unit p (Scope at_ (items ++ [new_bin name None 1 n kind]) [] []) (fun _ _ => True)); [|now intros].
  intros d G. eexists. split; [|exact I]. unfold call, step. cbn [target]. rewrite G. cbn [act]. unfold s_cls. cbn [s_attrs]. rewrite P. reflexivity.
Qed.
Definition with_items (at_ : attrs) (items : list item) : scope := Scope at_ items [] [].
Lemma cp_bins_sim p at_ es items m : is_point (a_cls at_) = true ->
  sim p (fun x => with_items at_ (fst x)) (fun a x => a = snd x) (with_items at_ items) (sfold (cp_bin_calls p) es m) (fold_res read_bin es (items, m)).
Proof.
  intros P. apply (sim_fold p (fun x => with_items at_ (fst x)) (fun a x => a = snd x) (cp_bin_calls p) read_bin es) with (a := m) (m := (items, m)); [|reflexivity].
  intros e a [its m'] E. cbn [snd] in E. subst a. unfold cp_bin_calls, read_bin. cbn [fst].
  apply sim_lift. intros c. apply sim_lift. intros kind. apply sim_lift. intros n.
  apply (bin_sim p at_ its _ n kind _ _ (fun _ => sret _)); [assumption|]. now apply sim_ret.
Qed.
Lemma cr_bins_sim p at_ es items m : is_point (a_cls at_) = true ->
  sim p (fun x => with_items at_ (fst x)) (fun a x => a = snd x) (with_items at_ items) (sfold (cr_bin_calls p) es m) (fold_res read_cross_bin es (items, m)).
Proof.
  intros P. apply (sim_fold p (fun x => with_items at_ (fst x)) (fun a x => a = snd x) (cr_bin_calls p) read_cross_bin es) with (a := m) (m := (items, m)); [|reflexivity].
  intros e a [its m'] E. cbn [snd] in E. subst a. unfold cr_bin_calls, read_cross_bin. cbn [fst].
  apply sim_lift. intros c. apply sim_lift. intros n.
  apply (bin_sim p at_ its _ n CVGBIN _ _ (fun _ => sret _)); [assumption|]. now apply sim_ret.
Qed.
Lemma cp_bins_x p at_ es items m : is_point (a_cls at_) = true ->
  simx p (fun x => with_items at_ (fst x)) (fun a x => a = snd x) (with_items at_ items) (sfold (cp_bin_calls p) es m) (run_steps (whole read_bin) es (items, m)).
Proof.
  intros P. apply (x_fold p (fun x => with_items at_ (fst x)) (fun a x => a = snd x) (cp_bin_calls p) (whole read_bin) es) with (a := m) (m := (items, m)); [|reflexivity].
  intros e a [its m'] E. cbn [snd] in E. subst a. apply (x_whole p (fun x => with_items at_ (fst x)) (fun a x => a = snd x) (cp_bin_calls p m' e) read_bin (its, m') e).
  - pose proof (cp_bins_sim p at_ [e] its m' P) as H. cbn [sfold fold_res] in H. intros d G. specialize (H d G). unfold sbind, sret in H.
    destruct (cp_bin_calls p m' e d) as [d1 [x|y]], (read_bin (its, m') e) as [[i1 m1]|z]; cbn [rbind fst snd] in *; exact H.
  - intros d x _. unfold cp_bin_calls, read_bin, sbind, slift. destruct (bin_contents e) as [c|?]; [|reflexivity]. cbn [rbind]. destruct (bin_kind_of e) as [kind|?]; [|reflexivity]. cbn [rbind].
    destruct (get_attr_int "coverageCount" c) as [n|?]; [|reflexivity]. discriminate.
Qed.
Lemma cr_bins_x p at_ es items m : is_point (a_cls at_) = true ->
  simx p (fun x => with_items at_ (fst x)) (fun a x => a = snd x) (with_items at_ items) (sfold (cr_bin_calls p) es m) (run_steps (whole read_cross_bin) es (items, m)).
Proof.
  intros P. apply (x_fold p (fun x => with_items at_ (fst x)) (fun a x => a = snd x) (cr_bin_calls p) (whole read_cross_bin) es) with (a := m) (m := (items, m)); [|reflexivity].
  intros e a [its m'] E. cbn [snd] in E. subst a. apply (x_whole p (fun x => with_items at_ (fst x)) (fun a x => a = snd x) (cr_bin_calls p m' e) read_cross_bin (its, m') e).
  - pose proof (cr_bins_sim p at_ [e] its m' P) as H. cbn [sfold fold_res] in H. intros d G. specialize (H d G). unfold sbind, sret in H.
    destruct (cr_bin_calls p m' e d) as [d1 [x|y]], (read_cross_bin (its, m') e) as [[i1 m1]|z]; cbn [rbind fst snd] in *; exact H.
  - intros d x _. unfold cr_bin_calls, read_cross_bin, sbind, slift. destruct (first_iter "contents" e) as [c|?]; [|reflexivity]. cbn [rbind].
    destruct (get_attr_int "coverageCount" c) as [n|?]; [|reflexivity]. discriminate.
Qed.
Lemma items_sim {B} p at_ (nm : B -> string) (ct : B -> Z) (kd : B -> N) : is_point (a_cls at_) = true -> forall l items,
  sim p (fun _ : unit => with_items at_ (items ++ map (fun b => new_bin (nm b) None 1 (ct b) (kd b)) l)) (fun _ _ => True) (with_items at_ items)
    (sfor (fun b => call (CreateBin p (nm b) None 1 (ct b) (kd b)) ;;; sret tt) l) (Ok tt).
Proof.
  intros P. induction l as [|b l IH]; intros items; cbn [sfor map].
  - rewrite app_nil_r. now apply sim_ret.
  - apply sim_assoc. apply (bin_sim p at_ items _ _ _ _ _ (fun _ => sret tt ;;; sfor _ l)); [assumption|]. apply sim_ret_bind.
    specialize (IH (items ++ [new_bin (nm b) None 1 (ct b) (kd b)])). rewrite <- app_assoc in IH. exact IH.
Qed.

(** ** The maps *)
Definition dmap {A B} (f : A -> B) (m : dict A) : dict B := map (fun x => (fst x, f (snd x))) m.
Lemma dget_dmap {A B} (f : A -> B) n m : dget n (dmap f m) = option_map f (dget n m).
Proof. induction m as [|[k x] m IH]; cbn; [reflexivity|]. now destruct (String.eqb n k). Qed.
Lemma dset_dmap {A B} (f : A -> B) n x m : dset n (f x) (dmap f m) = dmap f (dset n x m).
Proof. induction m as [|[k y] m IH]; cbn; [reflexivity|]. destruct (String.eqb n k); cbn; [reflexivity|]. f_equal. exact IH. Qed.
Lemma dmem_dmap {A B} (f : A -> B) n m : dmem n (dmap f m) = dmem n m.
Proof. unfold dmem. rewrite dget_dmap. now destruct (dget n m). Qed.
Lemma dindex_dmap {A B} (f : A -> B) n m : dindex n (dmap f m) = match dget n m with Some x => Ok (f x) | None => Err KeyError end.
Proof. unfold dindex. rewrite dget_dmap. now destruct (dget n m). Qed.
Lemma keys_dset {A} n (x : A) m : NoDup (dkeys m) -> NoDup (dkeys (dset n x m)).
Proof.
  intros D. rewrite dkeys_dset. destruct (dmem n m) eqn:E; [exact D|]. apply (Permutation_NoDup (l := n :: dkeys m)); [apply Permutation_cons_append|].
  constructor; [|exact D]. rewrite <- dget_in. congruence.
Qed.

(** Where the objects of the maps are among the children. *)
Definition placed (l : list (option string)) (pos : string -> option nat) : Prop := forall n i, nth_error l i = Some (Some n) <-> pos n = Some i.
Lemma nth_snoc {A} (l : list A) x i y : nth_error (l ++ [x]) i = Some y <-> nth_error l i = Some y \/ (i = List.length l /\ x = y).
Proof.
  destruct (Nat.lt_trichotomy i (List.length l)) as [H|[H|H]].
  - rewrite nth_error_app1 by assumption. split; [auto|]. intros [?|[? _]]; [assumption|lia].
  - subst i. rewrite nth_error_app2, Nat.sub_diag by lia. cbn. assert (N : nth_error l (List.length l) = None) by now apply nth_error_None. rewrite N. intuition congruence.
  - assert (N : nth_error (l ++ [x]) i = None) by (apply nth_error_None; rewrite app_length; cbn; lia). assert (N' : nth_error l i = None) by (apply nth_error_None; lia).
    rewrite N, N'. split; [discriminate|]. intros [?|[? _]]; [discriminate|lia].
Qed.
Lemma placed_none l pos : placed l pos -> placed (l ++ [None]) pos.
Proof. intros P n i. rewrite nth_snoc, (P n i). intuition congruence. Qed.
Lemma placed_ext l pos pos' : placed l pos -> (forall n, pos' n = pos n) -> placed l pos'.
Proof. intros P E n i. now rewrite E. Qed.
Lemma placed_new l pos pos' n : placed l pos -> pos n = None -> pos' n = Some (List.length l) -> (forall x, x <> n -> pos' x = pos x) -> placed (l ++ [Some n]) pos'.
Proof.
  intros P N E O x i. rewrite nth_snoc, (P x i). destruct (String.eqb_spec x n) as [->|D].
  - rewrite N, E. intuition congruence.
  - rewrite O by assumption. intuition congruence.
Qed.
Definition pos_of {D} (m : dict (nat * D)) (n : string) : option nat := option_map fst (dget n m).
Lemma pos_same {D} (m : dict (nat * D)) n i x y : dget n m = Some (i, x) -> forall k, pos_of (dset n (i, y) m) k = pos_of m k.
Proof.
  intros E k. unfold pos_of. destruct (String.eqb_spec k n) as [->|N]; [now rewrite dget_dset_same, E|now rewrite dget_dset_other].
Qed.
Lemma placed_dset {D} l (m : dict (nat * D)) n x : placed l (pos_of m) -> dget n m = None -> placed (l ++ [Some n]) (pos_of (dset n (List.length l, x) m)).
Proof.
  intros P N. apply (placed_new l (pos_of m)); [assumption| | |]; unfold pos_of.
  - now rewrite N.
  - now rewrite dget_dset_same.
  - intros k K. now rewrite dget_dset_other.
Qed.
Lemma not_mem {A} n (m : dict A) : dmem n m = false -> dget n m = None.
Proof. unfold dmem. now destruct (dget n m). Qed.

(** ** One cgInstance element *)
Definition point_slot (s : slot) : option string := match s with SPoint n => Some n | _ => None end.
Definition cross_slot (s : slot) : option string := match s with SCross n _ => Some n | _ => None end.
(** The children of a covergroup before the types are filled. *)
Definition bare : slot -> scope := fill [] [].
Definition up {D} (g : handle) (x : nat * D) : handle * D := (g ++ [fst x], snd x).

Lemma cross_same base s (pos' : string -> option handle) (pos : string -> option nat) e :
  (forall n, pos' n = option_map (fun i => base ++ [i]) (pos n)) ->
  (forall n i, pos n = Some i -> exists c, nth_error (s_kids s) i = Some c /\ s_name c = n) ->
  match cross_points pos' e, resolve base pos e with
  | Ok hs, Ok refs => forall root, get_at root base = Some s -> cross_refs root hs = Ok refs
  | Err x, Err y => x = y
  | _, _ => False
  end.
Proof.
  intros E K. unfold cross_points, resolve, cross_refs. induction (iter "crossExpr" e) as [|x l IH]; cbn [traverse]; [reflexivity|].
  destruct (expr_name x) as [n|er]; cbn [rbind]; [|reflexivity]. rewrite E. destruct (pos n) as [i|] eqn:P; cbn [option_map rbind]; [|reflexivity].
  destruct (traverse _ l) as [hs|er]; destruct (traverse _ l) as [refs|er']; cbn [rbind]; try contradiction; [|assumption].
  intros root G. cbn [traverse]. destruct (K n i P) as (c & C & N). unfold at_handle at 1. rewrite get_at_app, G. cbn [get_at]. rewrite C. cbn [rbind].
  rewrite (IH root G). cbn [rbind]. now rewrite N.
Qed.

(** The type scopes are where the maps say. *)
Record types_ok (slots : list slot) (cps : cp_map) (qc : dict (nat * dict Z)) : Prop := TypesOk {
  to_points : placed (map point_slot slots) (pos_of cps);
  to_crosses : placed (map cross_slot slots) (pos_of qc);
  to_cp_keys : NoDup (dkeys cps);
  to_cr_keys : NoDup (dkeys qc) }.
Definition group_rel (base : handle) (a : dict (handle * dict (N * Z)) * dict (handle * dict Z)) (st : cg_state) : Prop :=
  exists qc, fst a = dmap (up base) (snd (fst st)) /\ snd a = dmap (up base) qc /\ snd st = dmap snd qc /\ types_ok (fst (fst st)) (snd (fst st)) qc.

Section Instance.
  Variables (base : handle) (c : scope) (sl : list slot) (iname : string).
  Hypothesis cg : is_cg (s_cls c) = true.
  Let k := List.length sl.
  Let ci_of (kids : list scope) : scope := Scope (s_attrs (new_coverinstance iname None 1 SRC_OTHER)) [] [] kids.
  Let inside (ci : scope) (new : list slot) : scope := put_kids c (map bare (sl ++ SInst ci :: new)).
  Let seen (st : ist) : scope := inside (ci_of (i_kids st)) (i_new st).

  Let get_ci ci new : get_at (inside ci new) [k] = Some ci.
  Proof. unfold inside. cbn. rewrite map_app, nth_error_app2; rewrite map_length; [|unfold k; lia]. unfold k. now rewrite Nat.sub_diag. Qed.
  Let upd_ci ci ci' new : upd_at (inside ci new) [k] (fun _ => ci') = inside ci' new.
  Proof.
    unfold inside. cbn. unfold put_kids. f_equal. rewrite !map_app. cbn [map]. unfold k. generalize (map bare new). rewrite <- (map_length bare sl). generalize (map bare sl). intros l.
    induction l as [|x l IH]; intros m; cbn; [reflexivity|]. now rewrite IH.
  Qed.
  Let upd_kid kids x y new : upd_at (inside (ci_of (kids ++ [x])) new) [k; List.length kids] (fun _ => y) = inside (ci_of (kids ++ [y])) new.
  Proof.
    change [k; List.length kids] with ([k] ++ [List.length kids]). rewrite upd_at_app. rewrite (upd_at_ext [k] _ (ci_of (kids ++ [x])) _ (fun _ => ci_of (kids ++ [y]))); [apply upd_ci|apply get_ci|].
    unfold ci_of. cbn. f_equal. apply upd_nth_last.
  Qed.
  Let get_kid kids x new : get_at (inside (ci_of (kids ++ [x])) new) [k; List.length kids] = Some x.
  Proof.
    change [k; List.length kids] with ([k] ++ [List.length kids]). rewrite get_at_app, get_ci. cbn. rewrite nth_error_app2, Nat.sub_diag by lia. reflexivity.
  Qed.
  Let grow ci new s : add_child (inside ci new) (bare s) = inside ci (new ++ [s]).
  Proof. unfold inside, put_kids, add_child. cbn. f_equal. rewrite !map_app. cbn [map]. rewrite map_app, <- app_assoc. reflexivity. Qed.
  Let many ci new : List.length (s_kids (inside ci new)) = k + 1 + List.length new.
  Proof. unfold inside. cbn. rewrite map_length, app_length. cbn. unfold k. lia. Qed.

  Let names (sel : slot -> option string) (new : list slot) : list (option string) := map sel sl ++ None :: map sel new.
  Let names_len sel new : List.length (names sel new) = k + 1 + List.length new.
  Proof. unfold names. rewrite app_length. cbn. rewrite !map_length. unfold k. lia. Qed.
  Let names_new sel new s : names sel (new ++ [s]) = names sel new ++ [sel s].
  Proof. unfold names. rewrite map_app, <- app_assoc. reflexivity. Qed.

  (** What the maps say. *)
  Record maps_ok (new : list slot) (cps : cp_map) (qc : dict (nat * dict Z)) : Prop := MapsOk {
    mo_points : placed (names point_slot new) (pos_of cps);
    mo_crosses : placed (names cross_slot new) (pos_of qc);
    mo_cp_keys : NoDup (dkeys cps);
    mo_cr_keys : NoDup (dkeys qc) }.
  Let kids_ok (kids : list scope) (pos : dict nat) : Prop := forall n i, dget n pos = Some i -> exists s, nth_error kids i = Some s /\ s_name s = n.
  Let rel (cps : dict (handle * dict (N * Z))) (here : dict handle) (crs : dict (handle * dict Z)) (st : ist) : Prop :=
    exists qc, cps = dmap (up base) (i_cps st) /\ here = dmap (fun i => (base ++ [k]) ++ [i]) (i_pos st) /\ crs = dmap (up base) qc /\ i_crs st = dmap snd qc /\
      maps_ok (i_new st) (i_cps st) qc /\ kids_ok (i_kids st) (i_pos st).

  Let kids_more kids pos x n : kids_ok kids pos -> s_name x = n -> kids_ok (kids ++ [x]) (dset n (List.length kids) pos).
  Proof.
    intros K N m i D. destruct (String.eqb_spec m n) as [->|E].
    - rewrite dget_dset_same in D. injection D as <-. exists x. rewrite nth_error_app2, Nat.sub_diag by lia. auto.
    - rewrite dget_dset_other in D by assumption. destruct (K m i D) as (s & S & M). exists s. split; [|assumption]. rewrite nth_error_app1; [assumption|]. apply nth_error_Some. congruence.
  Qed.
  Let kids_more' kids pos x : kids_ok kids pos -> kids_ok (kids ++ [x]) pos.
  Proof.
    intros K m i D. destruct (K m i D) as (s & S & M). exists s. split; [|assumption]. rewrite nth_error_app1; [assumption|]. apply nth_error_Some. congruence.
  Qed.

  Lemma cp_sim crs e cps here st : rel cps here crs st ->
    sim base seen (fun a st => rel (fst a) (snd a) crs st) (seen st) (cp_calls base (base ++ [k]) (cps, here) e) (read_coverpoint k st e).
  Proof.
    intros (qc & -> & -> & -> & Ec & MO & KO). unfold cp_calls, read_coverpoint. cbn [fst snd]. set (name := get_attr_or "name" "<unknown>" e).
    set (rest := fun cps : dict (handle * dict (N * Z)) => entry <- slift (dindex name cps) ;;
      p <- made (CreateCoverpoint (base ++ [k]) name None 1 SRC_OTHER) ;;
      m <- sfold (cp_bin_calls p) (iter "coverpointBin" e) (snd entry) ;;
      sret (dset name (fst entry, m) cps, dset name p (dmap (fun i => (base ++ [k]) ++ [i]) (i_pos st)))).
    assert (REST : forall new cps, maps_ok new cps qc -> sim base seen (fun a st => rel (fst a) (snd a) (dmap (up base) qc) st) (inside (ci_of (i_kids st)) new) (rest (dmap (up base) cps))
      (let* entry := dindex name cps in let* (items, m) := fold_res read_bin (iter "coverpointBin" e) ([], snd entry) in
       Ok (Ist new (dset name (fst entry, m) cps) (i_crs st) (i_kids st ++ [point_scope name items]) (dset name (List.length (i_kids st)) (i_pos st))))).
    { intros new cps MO'. unfold rest. apply (sim_lifts base _ _ _ _ _ (fun x y => x = up base y /\ dget name cps = Some y)).
      { rewrite dindex_dmap. unfold dindex. now destruct (dget name cps). }
      intros x [i m] (-> & DG). unfold up. cbn [fst snd].
      apply (sim_made base (base ++ [k]) [k] _ (ci_of (i_kids st)) (point_scope name [])); [reflexivity|reflexivity|apply get_ci|reflexivity|].
      cbn [ci_of s_kids]. rewrite upd_ci. change (add_child (ci_of (i_kids st)) (point_scope name [])) with (ci_of (i_kids st ++ [point_scope name []])).
      apply (sim_bind base (fun x : list item * dict (N * Z) => inside (ci_of (i_kids st ++ [point_scope name (fst x)])) new) (fun a x => a = snd x)).
      - pose proof (sim_below base ((base ++ [k]) ++ [List.length (i_kids st)]) [k; List.length (i_kids st)] _ _ _ _ _ _ ltac:(now rewrite <- app_assoc) (get_kid (i_kids st) (point_scope name []) new)
          (cp_bins_sim ((base ++ [k]) ++ [List.length (i_kids st)]) (s_attrs (new_coverpoint name None 1 SRC_OTHER)) (iter "coverpointBin" e) [] m eq_refl)) as X.
        apply (sim_view _ _ _ _ _ _ _ _ X); [|auto]. intros y. apply upd_kid.
      - intros a [items m'] _ ->. cbn [fst snd]. apply sim_ret; [reflexivity|]. exists qc. cbn [fst snd i_cps i_pos i_crs i_new i_kids].
        split; [exact (dset_dmap (up base) name (i, m') cps)|]. split; [exact (dset_dmap (fun i => (base ++ [k]) ++ [i]) name (List.length (i_kids st)) (i_pos st))|]. split; [reflexivity|]. split; [assumption|].
        split; [|now apply kids_more]. destruct MO' as [A B C D]. constructor; [|assumption|now apply keys_dset|assumption].
        apply (placed_ext _ _ _ A). now apply (pos_same _ name i m). }
    rewrite dmem_dmap. destruct (dmem name (i_cps st)) eqn:DM.
    - apply sim_ret_bind. now apply REST.
    - apply not_mem in DM. apply sim_assoc. apply (sim_made base base [] _ (seen st) (bare (SPoint name))); [reflexivity|now rewrite app_nil_r|reflexivity|intros d G; cbn [act]; change (s_cls (seen st)) with (s_cls c); rewrite cg; reflexivity|].
      apply sim_ret_bind. cbn [upd_at]. unfold seen. rewrite grow, many.
      change (base ++ [k + 1 + List.length (i_new st)], @nil (string * (N * Z))) with (up base (k + 1 + List.length (i_new st), @nil (string * (N * Z)))). rewrite dset_dmap. apply REST.
      destruct MO as [A B C D]. constructor; [|rewrite names_new; now apply placed_none|now apply keys_dset|assumption].
      rewrite names_new, <- (names_len point_slot (i_new st)). now apply placed_dset.
  Qed.

  (** ... and with what an exception leaves. *)
  Lemma cp_x crs e cps here st : rel cps here crs st ->
    simx base seen (fun a st => rel (fst a) (snd a) crs st) (seen st) (cp_calls base (base ++ [k]) (cps, here) e) (coverpoint_step k st e).
  Proof.
    intros (qc & -> & -> & -> & Ec & MO & KO). unfold cp_calls, coverpoint_step. cbn [fst snd]. set (name := get_attr_or "name" "<unknown>" e).
    set (rest := fun cps : dict (handle * dict (N * Z)) => entry <- slift (dindex name cps) ;;
      p <- made (CreateCoverpoint (base ++ [k]) name None 1 SRC_OTHER) ;;
      m <- sfold (cp_bin_calls p) (iter "coverpointBin" e) (snd entry) ;;
      sret (dset name (fst entry, m) cps, dset name p (dmap (fun i => (base ++ [k]) ++ [i]) (i_pos st)))).
    assert (REST : forall new cps entry, maps_ok new cps qc -> dget name cps = Some entry ->
      simx base seen (fun a st => rel (fst a) (snd a) (dmap (up base) qc) st) (inside (ci_of (i_kids st)) new) (rest (dmap (up base) cps))
      (let '(x, r) := run_steps (whole read_bin) (iter "coverpointBin" e) ([], snd entry) in
       (Ist new (dset name (fst entry, snd x) cps) (i_crs st) (i_kids st ++ [point_scope name (fst x)])
          (match r with None => dset name (List.length (i_kids st)) (i_pos st) | Some _ => i_pos st end), r))).
    { intros new cps [i m] MO' DG. unfold rest. apply (x_lift_ok _ _ _ _ _ (up base (i, m))); [rewrite dindex_dmap; now rewrite DG|]. unfold up. cbn [fst snd].
      apply (x_made base (base ++ [k]) [k] _ (ci_of (i_kids st)) (point_scope name [])); [reflexivity|reflexivity|apply get_ci|reflexivity|].
      cbn [ci_of s_kids]. rewrite upd_ci. change (add_child (ci_of (i_kids st)) (point_scope name [])) with (ci_of (i_kids st ++ [point_scope name []])).
      pose proof (x_below base ((base ++ [k]) ++ [List.length (i_kids st)]) [k; List.length (i_kids st)] _ _ _ _ _ _ ltac:(now rewrite <- app_assoc) (get_kid (i_kids st) (point_scope name []) new)
          (cp_bins_x ((base ++ [k]) ++ [List.length (i_kids st)]) (s_attrs (new_coverpoint name None 1 SRC_OTHER)) (iter "coverpointBin" e) [] m eq_refl)) as X.
      destruct (run_steps (whole read_bin) (iter "coverpointBin" e) ([], m)) as [[items m'] [er|]]; cbn [fst snd].
      - apply (x_err _ _ _ _ _ _ _ _ _ _ _ X). symmetry. apply upd_kid.
      - apply (x_ok _ _ _ _ _ _ _ _ _ _ X). cbn [fst snd]. intros a ->. rewrite upd_kid. apply x_ret; [reflexivity|]. exists qc. cbn [fst snd i_cps i_pos i_crs i_new i_kids].
        split; [exact (dset_dmap (up base) name (i, m') cps)|]. split; [exact (dset_dmap (fun i => (base ++ [k]) ++ [i]) name (List.length (i_kids st)) (i_pos st))|]. split; [reflexivity|]. split; [assumption|].
        split; [|now apply kids_more]. destruct MO' as [A B C D]. constructor; [|assumption|now apply keys_dset|assumption].
        apply (placed_ext _ _ _ A). now apply (pos_same _ name i m). }
    rewrite dmem_dmap. destruct (dmem name (i_cps st)) eqn:DM.
    - apply x_ret_bind. unfold dmem in DM. destruct (dget name (i_cps st)) as [entry|] eqn:DG; [|discriminate DM]. now apply REST.
    - apply not_mem in DM. rewrite dget_dset_same. apply x_assoc.
      apply (x_made base base [] _ (seen st) (bare (SPoint name))); [reflexivity|now rewrite app_nil_r|reflexivity|intros d G; cbn [act]; change (s_cls (seen st)) with (s_cls c); rewrite cg; reflexivity|].
      apply x_ret_bind. cbn [upd_at]. unfold seen. rewrite grow, many.
      change (base ++ [k + 1 + List.length (i_new st)], @nil (string * (N * Z))) with (up base (k + 1 + List.length (i_new st), @nil (string * (N * Z)))). rewrite dset_dmap. apply REST; [|apply dget_dset_same].
      destruct MO as [A B C D]. constructor; [|rewrite names_new; now apply placed_none|now apply keys_dset|assumption].
      rewrite names_new, <- (names_len point_slot (i_new st)). now apply placed_dset.
  Qed.

  Let point_named new cps qc ci n i : maps_ok new cps qc -> pos_of cps n = Some i -> exists x, nth_error (s_kids (inside ci new)) i = Some x /\ s_name x = n.
  Proof.
    intros MO P. apply (mo_points _ _ _ MO) in P. unfold names in P. change (None :: map point_slot new) with (map point_slot (SInst ci :: new)) in P. rewrite <- map_app in P.
    rewrite nth_error_map in P. unfold inside. cbn [s_kids put_kids]. rewrite nth_error_map. destruct (nth_error (sl ++ SInst ci :: new) i) as [[|m|]|]; try discriminate P.
    cbn in P. injection P as ->. eexists. split; reflexivity.
  Qed.

  Lemma cr_sim cps here e crs st : rel cps here crs st ->
    sim base seen (fun a st => rel cps here a st) (seen st) (cr_calls base (base ++ [k]) cps here crs e) (read_cross base k st e).
  Proof.
    intros (qc & -> & -> & -> & Ec & MO & KO). unfold cr_calls, read_cross. set (name := get_attr_or "name" "<unknown>" e).
    set (here := dmap (fun i => (base ++ [k]) ++ [i]) (i_pos st)). set (cps := dmap (up base) (i_cps st)).
    set (rest := fun crs : dict (handle * dict Z) => entry <- slift (dindex name crs) ;;
      l <- slift (cross_points (fun n => dget n here) e) ;;
      p <- made (CreateCross (base ++ [k]) name None 1 SRC_OTHER l) ;;
      m <- sfold (cr_bin_calls p) (iter "crossBin" e) (snd entry) ;;
      sret (dset name (fst entry, m) crs)).
    assert (REST : forall new qc, maps_ok new (i_cps st) qc -> sim base seen (fun a st => rel cps here a st) (inside (ci_of (i_kids st)) new) (rest (dmap (up base) qc))
      (let* entry := dindex name (dmap snd qc) in let* refs := resolve (base ++ [k]) (fun n => dget n (i_pos st)) e in
       let* (items, m) := fold_res read_cross_bin (iter "crossBin" e) ([], entry) in
       Ok (Ist new (i_cps st) (dset name m (dmap snd qc)) (i_kids st ++ [cross_scope name refs items]) (i_pos st)))).
    { intros new qc' MO'. unfold rest. apply (sim_lifts base _ _ _ _ _ (fun x y => exists i, x = up base (i, y) /\ dget name qc' = Some (i, y))).
      { rewrite !dindex_dmap. destruct (dget name qc') as [[i m]|]; [|reflexivity]. now exists i. }
      intros x m (i & -> & DG). unfold up at 1 2. cbn [fst snd].
      apply (sim_lifts base _ _ _ _ _ (fun hs refs => forall root, get_at root (base ++ [k]) = Some (ci_of (i_kids st)) -> cross_refs root hs = Ok refs)).
      { apply cross_same; [intros n; apply dget_dmap|exact KO]. }
      intros hs refs CR.
      apply (sim_made base (base ++ [k]) [k] _ (ci_of (i_kids st)) (cross_scope name refs [])); [reflexivity|reflexivity|apply get_ci| |].
      { intros d G. cbn [act]. rewrite CR by (rewrite get_at_app, G; apply get_ci). reflexivity. }
      cbn [ci_of s_kids]. rewrite upd_ci. change (add_child (ci_of (i_kids st)) (cross_scope name refs [])) with (ci_of (i_kids st ++ [cross_scope name refs []])).
      apply (sim_bind base (fun x : list item * dict Z => inside (ci_of (i_kids st ++ [cross_scope name refs (fst x)])) new) (fun a x => a = snd x)).
      - pose proof (sim_below base ((base ++ [k]) ++ [List.length (i_kids st)]) [k; List.length (i_kids st)] _ _ _ _ _ _ ltac:(now rewrite <- app_assoc) (get_kid (i_kids st) (cross_scope name refs []) new)
          (cr_bins_sim ((base ++ [k]) ++ [List.length (i_kids st)]) (s_attrs (new_cross name None 1 SRC_OTHER refs)) (iter "crossBin" e) [] m eq_refl)) as X.
        apply (sim_view _ _ _ _ _ _ _ _ X); [|auto]. intros y. apply upd_kid.
      - intros a [items m'] _ ->. cbn [fst snd]. apply sim_ret; [reflexivity|]. exists (dset name (i, m') qc'). cbn [fst snd i_cps i_pos i_crs i_new i_kids].
        split; [reflexivity|]. split; [reflexivity|]. split; [exact (dset_dmap (up base) name (i, m') qc')|]. split; [exact (dset_dmap snd name (i, m') qc')|].
        split; [|now apply kids_more']. destruct MO' as [A B C D]. constructor; [assumption| |assumption|now apply keys_dset].
        apply (placed_ext _ _ _ B). now apply (pos_same _ name i m). }
    rewrite Ec, !dmem_dmap. destruct (dmem name qc) eqn:DM.
    - apply sim_ret_bind. cbn [rbind]. now apply REST.
    - apply not_mem in DM. apply sim_assoc.
      apply sim_rassoc.
      apply (sim_lifts base _ _ _ _ _ (fun hs refs => forall root, get_at root base = Some (seen st) -> cross_refs root hs = Ok refs)).
      { apply cross_same; [|intros n i; now apply (point_named _ _ qc)]. intros n. unfold cps. rewrite dget_dmap. now destruct (dget n (i_cps st)). }
      intros hs refs CR. apply sim_assoc.
      apply (sim_made base base [] _ (seen st) (bare (SCross name refs))); [reflexivity|now rewrite app_nil_r|reflexivity| |].
      { intros d G. cbn [act]. rewrite (CR _ G). cbn [rbind]. change (s_cls (seen st)) with (s_cls c). rewrite cg. reflexivity. }
      apply sim_ret_bind. cbn [upd_at rbind]. unfold seen. rewrite grow, many.
      change (base ++ [k + 1 + List.length (i_new st)], @nil (string * Z)) with (up base (k + 1 + List.length (i_new st), @nil (string * Z))). rewrite dset_dmap.
      replace (dset name [] (dmap snd qc)) with (dmap snd (dset name (k + 1 + List.length (i_new st), @nil (string * Z)) qc)) by (symmetry; exact (dset_dmap snd name (k + 1 + List.length (i_new st), []) qc)). apply REST.
      destruct MO as [A B C D]. constructor; [rewrite names_new; now apply placed_none| |assumption|now apply keys_dset].
      rewrite names_new, <- (names_len cross_slot (i_new st)). now apply placed_dset.
  Qed.

  Lemma inst_sim e cps qc : types_ok sl cps qc ->
    sim base (fun st : cg_state => put_kids c (map bare (fst (fst st)))) (group_rel base) (put_kids c (map bare (sl ++ [SInst (ci_of [])])))
      (ps <- sfold (cp_calls base (base ++ [k])) (iter "coverpoint" e) (dmap (up base) cps, []) ;;
       crs <- sfold (cr_calls base (base ++ [k]) (fst ps) (snd ps)) (iter "cross" e) (dmap (up base) qc) ;;
       sret (fst ps, crs))
      (let* i := fold_res (read_coverpoint k) (iter "coverpoint" e) (Ist [] cps (dmap snd qc) [] []) in
       let* i := fold_res (read_cross base k) (iter "cross" e) i in
       Ok (sl ++ SInst (ci_of (i_kids i)) :: i_new i, i_cps i, i_crs i)).
  Proof.
    intros [A B C D]. change (put_kids c (map bare (sl ++ [SInst (ci_of [])]))) with (seen (Ist [] cps (dmap snd qc) [] [])).
    apply (sim_bind base seen (fun a st => rel (fst a) (snd a) (dmap (up base) qc) st)).
    - apply (sim_fold base seen (fun a st => rel (fst a) (snd a) (dmap (up base) qc) st)); [intros x [p h] st; apply cp_sim|].
      exists qc. cbn [fst snd i_cps i_pos i_crs i_new i_kids]. split; [reflexivity|]. split; [reflexivity|]. split; [reflexivity|]. split; [reflexivity|]. split; [|intros n i E; discriminate E].
      constructor; unfold names; cbn [map]; auto using placed_none.
    - intros [p h] st _ Rst. cbn [fst snd] in *.
      apply (sim_bind base seen (fun a st => rel p h a st)).
      + apply (sim_fold base seen (fun a st => rel p h a st)); [|exact Rst]. intros x a st'. apply cr_sim.
      + intros a st' _ (qc' & -> & -> & -> & Ec & MO & _). apply sim_ret; [reflexivity|]. exists qc'. cbn [fst snd]. split; [reflexivity|]. split; [reflexivity|]. split; [assumption|].
        destruct MO as [A' B' C' D']. constructor; [rewrite map_app; exact A'|rewrite map_app; exact B'|assumption|assumption].
  Qed.

  Lemma cr_x cps here e crs st : rel cps here crs st ->
    simx base seen (fun a st => rel cps here a st) (seen st) (cr_calls base (base ++ [k]) cps here crs e) (cross_step base k st e).
  Proof.
    intros (qc & -> & -> & -> & Ec & MO & KO). unfold cr_calls, cross_step. set (name := get_attr_or "name" "<unknown>" e).
    set (here := dmap (fun i => (base ++ [k]) ++ [i]) (i_pos st)). set (cps := dmap (up base) (i_cps st)).
    set (rest := fun crs : dict (handle * dict Z) => entry <- slift (dindex name crs) ;;
      l <- slift (cross_points (fun n => dget n here) e) ;;
      p <- made (CreateCross (base ++ [k]) name None 1 SRC_OTHER l) ;;
      m <- sfold (cr_bin_calls p) (iter "crossBin" e) (snd entry) ;;
      sret (dset name (fst entry, m) crs)).
    assert (REST : forall new qc i m, maps_ok new (i_cps st) qc -> dget name qc = Some (i, m) ->
      simx base seen (fun a st => rel cps here a st) (inside (ci_of (i_kids st)) new) (rest (dmap (up base) qc))
        (cross_inst_step base k name (Ist new (i_cps st) (dmap snd qc) (i_kids st) (i_pos st)) e)).
    { intros new qc' i m MO' DG. unfold rest, cross_inst_step. cbn [i_pos i_crs i_new i_cps i_kids]. apply (x_lift_ok _ _ _ _ _ (up base (i, m))); [rewrite dindex_dmap; now rewrite DG|].
      pose proof (cross_same (base ++ [k]) (ci_of (i_kids st)) (fun n => dget n here) (fun n => dget n (i_pos st)) e (fun n => dget_dmap _ n (i_pos st)) KO) as CS.
      destruct (cross_points (fun n => dget n here) e) as [hs|x] eqn:CP, (resolve (base ++ [k]) (fun n => dget n (i_pos st)) e) as [refs|y]; try contradiction.
      2:{ subst y. now apply x_lift_err. }
      apply (x_lift_ok _ _ _ _ _ hs); [reflexivity|]. rewrite dget_dmap, DG. cbn [option_map snd]. unfold up at 1 2. cbn [fst snd].
      apply (x_made base (base ++ [k]) [k] _ (ci_of (i_kids st)) (cross_scope name refs [])); [reflexivity|reflexivity|apply get_ci| |].
      { intros d G. cbn [act]. rewrite CS by (rewrite get_at_app, G; apply get_ci). reflexivity. }
      cbn [ci_of s_kids]. rewrite upd_ci. change (add_child (ci_of (i_kids st)) (cross_scope name refs [])) with (ci_of (i_kids st ++ [cross_scope name refs []])).
      pose proof (x_below base ((base ++ [k]) ++ [List.length (i_kids st)]) [k; List.length (i_kids st)] _ _ _ _ _ _ ltac:(now rewrite <- app_assoc) (get_kid (i_kids st) (cross_scope name refs []) new)
          (cr_bins_x ((base ++ [k]) ++ [List.length (i_kids st)]) (s_attrs (new_cross name None 1 SRC_OTHER refs)) (iter "crossBin" e) [] m eq_refl)) as X.
      destruct (run_steps (whole read_cross_bin) (iter "crossBin" e) ([], m)) as [[items m'] [er|]]; cbn [fst snd].
      - apply (x_err _ _ _ _ _ _ _ _ _ _ _ X). symmetry. apply upd_kid.
      - apply (x_ok _ _ _ _ _ _ _ _ _ _ X). cbn [fst snd]. intros a ->. rewrite upd_kid. apply x_ret; [reflexivity|]. exists (dset name (i, m') qc'). cbn [fst snd i_cps i_pos i_crs i_new i_kids].
        split; [reflexivity|]. split; [reflexivity|]. split; [exact (dset_dmap (up base) name (i, m') qc')|]. split; [exact (dset_dmap snd name (i, m') qc')|].
        split; [|now apply kids_more']. destruct MO' as [A B C D]. constructor; [assumption| |assumption|now apply keys_dset].
        apply (placed_ext _ _ _ B). now apply (pos_same _ name i m). }
    rewrite Ec, !dmem_dmap. destruct (dmem name qc) eqn:DM.
    - apply x_ret_bind. unfold dmem in DM. destruct (dget name qc) as [[i m]|] eqn:DG; [|discriminate DM]. pose proof (REST (i_new st) qc i m MO DG) as H. rewrite <- Ec in H. now destruct st.
    - apply not_mem in DM. apply x_assoc.
      pose proof (cross_same base (seen st) (fun n => option_map fst (dget n cps)) (pos_of (i_cps st)) e) as CS.
      assert (CS' : forall n, option_map fst (dget n cps) = option_map (fun i => base ++ [i]) (pos_of (i_cps st) n)).
      { intros n. unfold cps, pos_of. rewrite dget_dmap. now destruct (dget n (i_cps st)). }
      specialize (CS CS' (fun n i => point_named _ _ qc _ n i MO)). change (fun n => option_map fst (dget n (i_cps st))) with (pos_of (i_cps st)).
      destruct (cross_points (fun n => option_map fst (dget n cps)) e) as [hs|x] eqn:CP, (resolve base (pos_of (i_cps st)) e) as [refs|y]; try contradiction.
      2:{ subst y. now apply x_lift_err. }
      apply (x_lift_ok _ _ _ _ _ hs); [reflexivity|]. apply x_assoc.
      apply (x_made base base [] _ (seen st) (bare (SCross name refs))); [reflexivity|now rewrite app_nil_r|reflexivity| |].
      { intros d G. cbn [act]. rewrite (CS _ G). cbn [rbind]. change (s_cls (seen st)) with (s_cls c). rewrite cg. reflexivity. }
      apply x_ret_bind. cbn [upd_at rbind]. unfold seen. rewrite grow, many.
      change (base ++ [k + 1 + List.length (i_new st)], @nil (string * Z)) with (up base (k + 1 + List.length (i_new st), @nil (string * Z))). rewrite dset_dmap.
      replace (dset name [] (dmap snd qc)) with (dmap snd (dset name (k + 1 + List.length (i_new st), @nil (string * Z)) qc)) by (symmetry; exact (dset_dmap snd name (k + 1 + List.length (i_new st), []) qc)).
      apply (REST _ _ (k + 1 + List.length (i_new st)) []); [|apply dget_dset_same].
      destruct MO as [A B C D]. constructor; [rewrite names_new; now apply placed_none| |assumption|now apply keys_dset].
      rewrite names_new, <- (names_len cross_slot (i_new st)). now apply placed_dset.
  Qed.

  Lemma inst_x e cps qc : types_ok sl cps qc ->
    simx base (fun st : cg_state => put_kids c (map bare (fst (fst st)))) (group_rel base) (put_kids c (map bare (sl ++ [SInst (ci_of [])])))
      (ps <- sfold (cp_calls base (base ++ [k])) (iter "coverpoint" e) (dmap (up base) cps, []) ;;
       crs <- sfold (cr_calls base (base ++ [k]) (fst ps) (snd ps)) (iter "cross" e) (dmap (up base) qc) ;;
       sret (fst ps, crs))
      (let '(i, r) :=
        match run_steps (coverpoint_step k) (iter "coverpoint" e) (Ist [] cps (dmap snd qc) [] []) with
        | (i, None) => run_steps (cross_step base k) (iter "cross" e) i
        | (i, Some x) => (i, Some x)
        end in
       (sl ++ SInst (ci_of (i_kids i)) :: i_new i, i_cps i, i_crs i, r)).
  Proof.
    intros [A B C D]. change (put_kids c (map bare (sl ++ [SInst (ci_of [])]))) with (seen (Ist [] cps (dmap snd qc) [] [])).
    assert (X : simx base seen (fun a st => rel (fst a) (snd a) (dmap (up base) qc) st) (seen (Ist [] cps (dmap snd qc) [] [])) (sfold (cp_calls base (base ++ [k])) (iter "coverpoint" e) (dmap (up base) cps, []))
      (run_steps (coverpoint_step k) (iter "coverpoint" e) (Ist [] cps (dmap snd qc) [] []))).
    { apply (x_fold base seen (fun a st => rel (fst a) (snd a) (dmap (up base) qc) st)); [intros x [p h] st; apply cp_x|].
      exists qc. cbn [fst snd i_cps i_pos i_crs i_new i_kids]. split; [reflexivity|]. split; [reflexivity|]. split; [reflexivity|]. split; [reflexivity|]. split; [|intros n i E; discriminate E].
      constructor; unfold names; cbn [map]; auto using placed_none. }
    destruct (run_steps (coverpoint_step k) (iter "coverpoint" e) (Ist [] cps (dmap snd qc) [] [])) as [i [er|]].
    { apply (x_err _ _ _ _ _ _ _ _ _ _ _ X). reflexivity. }
    apply (x_ok _ _ _ _ _ _ _ _ _ _ X). intros [p h] Rst. cbn [fst snd] in *.
    assert (Y : simx base seen (fun a st => rel p h a st) (seen i) (sfold (cr_calls base (base ++ [k]) p h) (iter "cross" e) (dmap (up base) qc)) (run_steps (cross_step base k) (iter "cross" e) i)).
    { apply (x_fold base seen (fun a st => rel p h a st)); [|exact Rst]. intros x a st'. apply cr_x. }
    destruct (run_steps (cross_step base k) (iter "cross" e) i) as [j [er|]].
    { apply (x_err _ _ _ _ _ _ _ _ _ _ _ Y). reflexivity. }
    apply (x_ok _ _ _ _ _ _ _ _ _ _ Y). intros a (qc' & -> & -> & -> & Ec & MO & _). apply x_ret; [reflexivity|]. exists qc'. cbn [fst snd]. split; [reflexivity|]. split; [reflexivity|]. split; [assumption|].
    destruct MO as [A' B' C' D']. constructor; [rewrite map_app; exact A'|rewrite map_app; exact B'|assumption|assumption].
  Qed.
End Instance.

Lemma cgi_sim base c e a st : is_cg (s_cls c) = true -> group_rel base a st ->
  sim base (fun st : cg_state => put_kids c (map bare (fst (fst st)))) (group_rel base) (put_kids c (map bare (fst (fst st)))) (cgi_calls base a e) (read_cg_instance base st e).
Proof.
  intros CG (qc & E1 & E2 & E3 & TO). destruct a as [p q], st as [[sl cps] crs]. cbn [fst snd] in *. subst p q crs. unfold cgi_calls, read_cg_instance. cbn [fst snd].
  set (name := get_attr_or "name" "<unknown>" e). set (ci := new_coverinstance name None 1 SRC_OTHER).
  apply (sim_made base base [] _ (put_kids c (map bare sl)) ci); [reflexivity|now rewrite app_nil_r|reflexivity| |].
  { intros d G. cbn [act]. change (s_cls (put_kids c (map bare sl))) with (s_cls c). destruct (s_cls c); try discriminate CG. reflexivity. }
  cbn [upd_at put_kids s_kids]. rewrite map_length.
  replace (add_child _ ci) with (put_kids c (map bare (sl ++ [SInst ci]))) by (rewrite map_app; reflexivity).
  exact (inst_sim base c sl name CG e cps qc TO).
Qed.

Lemma cgi_x base c e a st : is_cg (s_cls c) = true -> group_rel base a st ->
  simx base (fun st : cg_state => put_kids c (map bare (fst (fst st)))) (group_rel base) (put_kids c (map bare (fst (fst st)))) (cgi_calls base a e) (cg_instance_step base st e).
Proof.
  intros CG (qc & E1 & E2 & E3 & TO). destruct a as [p q], st as [[sl cps] crs]. cbn [fst snd] in *. subst p q crs. unfold cgi_calls, cg_instance_step. cbn [fst snd].
  set (name := get_attr_or "name" "<unknown>" e). set (ci := new_coverinstance name None 1 SRC_OTHER).
  apply (x_made base base [] _ (put_kids c (map bare sl)) ci); [reflexivity|now rewrite app_nil_r|reflexivity| |].
  { intros d G. cbn [act]. change (s_cls (put_kids c (map bare sl))) with (s_cls c). destruct (s_cls c); try discriminate CG. reflexivity. }
  cbn [upd_at put_kids s_kids]. rewrite map_length.
  replace (add_child _ ci) with (put_kids c (map bare (sl ++ [SInst ci]))) by (rewrite map_app; reflexivity).
  exact (inst_x base c sl name CG e cps qc TO).
Qed.

(** ** The bins of the types *)
Lemma nth_error_ext {A} (l : list A) : forall l', (forall i, nth_error l i = nth_error l' i) -> l = l'.
Proof.
  induction l as [|x l IH]; intros [|y l'] H; [reflexivity|specialize (H 0); discriminate H|specialize (H 0); discriminate H|].
  f_equal; [specialize (H 0); now injection H|]. apply IH. intros i. exact (H (S i)).
Qed.
Section Populate.
  Context {D : Type} (base : handle) (c : scope) (slots : list slot) (sel : slot -> option string) (at_ : slot -> attrs) (other : slot -> scope) (its : D -> list item)
    (prog : handle -> D -> ST db unit).
  Let G (m : dict (nat * D)) (s : slot) : scope :=
    match sel s with
    | Some n => with_items (at_ s) (match dget n m with Some x => its (snd x) | None => [] end)
    | None => other s
    end.
  Hypothesis prog_ok : forall p s n m, sel s = Some n ->
    sim p (fun _ : unit => with_items (at_ s) (its m)) (fun _ _ => True) (with_items (at_ s) []) (prog p m) (Ok tt).
  Lemma dget_app (a b : dict (nat * D)) n : dget n (a ++ b) = match dget n a with Some x => Some x | None => dget n b end.
  Proof. induction a as [|[k x] a IH]; cbn; [reflexivity|]. now destruct (String.eqb n k). Qed.
  Lemma populate : forall todo done, NoDup (dkeys (done ++ todo)) -> placed (map sel slots) (pos_of (done ++ todo)) ->
    sim base (fun _ : unit => put_kids c (map (G (done ++ todo)) slots)) (fun _ _ => True) (put_kids c (map (G done) slots))
      (sfor (fun x : string * (handle * D) => prog (fst (snd x)) (snd (snd x))) (dmap (up base) todo)) (Ok tt).
  Proof.
    induction todo as [|[n [i m]] todo IH]; intros done ND P; cbn [sfor dmap map].
    - rewrite app_nil_r. now apply sim_ret.
    - assert (ND' : dget n done = None).
      { destruct (dget n done) as [x|] eqn:E; [|reflexivity]. exfalso. unfold dkeys in ND. rewrite map_app in ND. cbn [map fst] in ND. apply NoDup_remove_2 in ND. apply ND.
        apply in_or_app. left. apply (dget_in n done). unfold dmem. now rewrite E. }
      assert (PI : pos_of (done ++ (n, (i, m)) :: todo) n = Some i) by (unfold pos_of; rewrite dget_app, ND'; cbn [dget]; now rewrite String.eqb_refl).
      pose proof (proj2 (P n i) PI) as AT. rewrite nth_error_map in AT. destruct (nth_error slots i) as [s|] eqn:SI; [|discriminate AT]. cbn in AT. injection AT as AT.
      apply (sim_unit base (put_kids c (map (G (done ++ [(n, (i, m))])) slots)) (fun _ _ => True)).
      + assert (X : get_at (put_kids c (map (G done) slots)) [i] = Some (with_items (at_ s) [])).
        { cbn. rewrite nth_error_map, SI. cbn. unfold G. now rewrite AT, ND'. }
        apply (sim_view _ _ _ _ _ _ _ _ (sim_below base (base ++ [i]) [i] _ _ _ _ _ _ eq_refl X (prog_ok (base ++ [i]) s n m AT))); [|auto].
        intros _. cbn. unfold put_kids. f_equal. apply nth_error_ext. intros j. destruct (Nat.eq_dec i j) as [<-|N].
        * rewrite upd_nth_same, !nth_error_map, SI. cbn. unfold G. rewrite AT, dget_app, ND'. cbn [dget]. now rewrite String.eqb_refl.
        * rewrite upd_nth_other, !nth_error_map by assumption. destruct (nth_error slots j) as [t|] eqn:SJ; [|reflexivity]. cbn. f_equal. unfold G. destruct (sel t) as [x|] eqn:ST; [|reflexivity].
          assert (x <> n). { intros ->. assert (Q : nth_error (map sel slots) j = Some (Some n)) by (rewrite nth_error_map, SJ; cbn; congruence). apply P in Q. congruence. }
          rewrite dget_app. cbn [dget]. destruct (String.eqb_spec x n); [contradiction|]. now destruct (dget x done).
      + intros _ _. specialize (IH (done ++ [(n, (i, m))])). rewrite <- app_assoc in IH. cbn [app] in IH. now apply IH.
  Qed.
End Populate.

Lemma cg_sim base name l : sim base (fun s : scope => s) (fun _ _ => True) (new_covergroup name None 1 SRC_OTHER) (cg_calls base l) (read_covergroup base name l).
Proof.
  unfold cg_calls, read_covergroup. set (c := new_covergroup name None 1 SRC_OTHER).
  apply (sim_bind base (fun st : cg_state => put_kids c (map bare (fst (fst st)))) (group_rel base)).
  - apply (sim_fold base (fun st : cg_state => put_kids c (map bare (fst (fst st)))) (group_rel base) (cgi_calls base) (read_cg_instance base) l) with (a := ([], [])) (m := ([], [], [])).
    + intros x a m Ram. now apply cgi_sim.
    + exists []. split; [reflexivity|]. split; [reflexivity|]. split; [reflexivity|]. constructor; try constructor; intros E; try discriminate E; now destruct i.
  - intros [p q] [[slots cps] crs] _ (qc & E1 & E2 & E3 & [A B C D]). cbn [fst snd] in *. subst p q crs.
    pose (point_at := fun s => match s with SPoint n => s_attrs (new_coverpoint n None 1 SRC_OTHER) | _ => s_attrs c end).
    pose (cross_at := fun s => match s with SCross n refs => s_attrs (new_cross n None 1 SRC_OTHER refs) | _ => s_attrs c end).
    apply (sim_unit base (put_kids c (map (fill cps []) slots)) (fun _ _ => True)).
    + pose proof (populate base c slots point_slot point_at bare type_bins
        (fun h m => sfor (fun b : string * (N * Z) => call (CreateBin h (fst b) None 1 (snd (snd b)) (fst (snd b))) ;;; sret tt) m)) as X.
      assert (H : forall p s n m, point_slot s = Some n -> sim p (fun _ : unit => with_items (point_at s) (type_bins m)) (fun _ _ => True) (with_items (point_at s) [])
        (sfor (fun b : string * (N * Z) => call (CreateBin p (fst b) None 1 (snd (snd b)) (fst (snd b))) ;;; sret tt) m) (Ok tt)).
      { intros p [|x|] n m E; try discriminate E. exact (items_sim p (point_at (SPoint x)) fst (fun b => snd (snd b)) (fun b => fst (snd b)) eq_refl m []). }
      specialize (X H cps [] C A). cbn [app] in X.
      replace (map bare slots) with (map (fun s => match point_slot s with Some n => with_items (point_at s) match dget n ([] : cp_map) with Some x => type_bins (snd x) | None => [] end | None => bare s end) slots)
        by (apply map_ext; now intros [| |]).
      apply (sim_view _ _ _ _ _ _ _ _ X); [|auto]. intros _. f_equal. apply map_ext. intros [|n|]; try reflexivity. cbn. now destruct (dget n cps) as [[? ?]|].
    + intros _ _. pose proof (populate base c slots cross_slot cross_at (fill cps []) type_cross_bins
        (fun h m => sfor (fun b : string * Z => call (CreateBin h (fst b) None 1 (snd b) CVGBIN) ;;; sret tt) m)) as X.
      assert (H : forall p s n m, cross_slot s = Some n -> sim p (fun _ : unit => with_items (cross_at s) (type_cross_bins m)) (fun _ _ => True) (with_items (cross_at s) [])
        (sfor (fun b : string * Z => call (CreateBin p (fst b) None 1 (snd b) CVGBIN) ;;; sret tt) m) (Ok tt)).
      { intros p [|x|x r] n m E; try discriminate E. exact (items_sim p (cross_at (SCross x r)) fst snd (fun _ => CVGBIN) eq_refl m []). }
      specialize (X H qc [] D B). cbn [app] in X.
      replace (map (fill cps []) slots) with (map (fun s => match cross_slot s with Some n => with_items (cross_at s) match dget n ([] : dict (nat * dict Z)) with Some x => type_cross_bins (snd x) | None => [] end | None => fill cps [] s end) slots)
        by (apply map_ext; now intros [| |]).
      apply (sim_map _ _ _ (fun s : scope => s) (fun _ _ => True) _ _ _ (fun _ : unit => Scope (s_attrs c) [] [] (map (fill cps (dmap snd qc)) slots)) X). intros _ _ _. split; [|exact I].
      unfold put_kids. cbn [s_items s_iitems c new_covergroup]. f_equal. apply map_ext. intros [|n|n r]; try reflexivity. cbn. rewrite dget_dmap. now destruct (dget n qc).
Qed.

Lemma cg_x base name l : simx base (fun s : scope => s) (fun _ _ => True) (new_covergroup name None 1 SRC_OTHER) (cg_calls base l) (covergroup_step base name l).
Proof.
  pose proof (cg_sim base name l) as S. pose proof (ends_covergroup base name l) as E.
  destruct (read_covergroup base name l) as [g|x]; cbn [ends] in E.
  { rewrite E. intros d G. exact (S d G). }
  clear S. unfold cg_calls, covergroup_step in *. set (c := new_covergroup name None 1 SRC_OTHER).
  assert (X : simx base (fun st : cg_state => put_kids c (map bare (fst (fst st)))) (group_rel base) c (sfold (cgi_calls base) l ([], [])) (run_steps (cg_instance_step base) l ([], [], []))).
  { apply (x_fold base (fun st : cg_state => put_kids c (map bare (fst (fst st)))) (group_rel base) (cgi_calls base) (cg_instance_step base) l) with (a := ([], [])) (m := ([], [], [])).
    + intros y a m Ram. now apply cgi_x.
    + exists []. split; [reflexivity|]. split; [reflexivity|]. split; [reflexivity|]. constructor; try constructor; intros Q; try discriminate Q; now destruct i. }
  destruct (run_steps (cg_instance_step base) l ([], [], [])) as [[[slots cps] crs] [y|]]; [|discriminate E].
  apply (x_err _ _ _ _ _ _ _ _ _ _ _ X). cbn [fst]. unfold put_kids. cbn [s_items s_iitems c new_covergroup]. reflexivity.
Qed.

(** ** Covergroups of an instance *)
Lemma sim_for {M X} g v p f (l : list X) : (forall x m, sim g v (fun (_ : unit) (_ : M) => True) (v m) (p x) (f m x)) ->
  forall m, sim g v (fun _ _ => True) (v m) (sfor p l) (fold_res f l m).
Proof.
  intros H. induction l as [|x l IH]; intros m; cbn [sfor fold_res]; [now apply sim_ret|].
  apply (sim_bind g v (fun _ _ => True) v (fun _ _ => True)); [apply H|]. intros a m' _ _. apply IH.
Qed.
Lemma cgs_sim i s e cgs : sim [i] (put_kids s) (fun _ _ => True) (put_kids s cgs) (cgs_calls [i] e) (read_covergroups i cgs e).
Proof.
  unfold cgs_calls, read_covergroups. revert cgs. apply sim_for. intros [name l] cgs. cbn [fst snd]. set (c := new_covergroup name None 1 SRC_OTHER).
  apply (sim_made [i] [i] [] _ (put_kids s cgs) c); [reflexivity|reflexivity|reflexivity|reflexivity|]. cbn [upd_at put_kids s_kids].
  change (add_child _ c) with (put_kids s (cgs ++ [c])).
  pose proof (sim_below [i] ([i] ++ [List.length cgs]) [List.length cgs] _ _ _ _ _ _ eq_refl (get_last s cgs c) (cg_sim [i; List.length cgs] name l)) as X.
  apply (sim_map _ _ _ (put_kids s) (fun _ _ => True) _ _ _ (fun g => cgs ++ [g]) X). intros _ g _. split; [|exact I]. apply upd_last.
Qed.

Lemma cgs_x i s e cgs : simx [i] (put_kids s) (fun _ _ => True) (put_kids s cgs) (cgs_calls [i] e) (covergroups_step i cgs e).
Proof.
  unfold cgs_calls, covergroups_step. revert cgs. apply x_for. intros [name l] cgs. cbn [fst snd]. set (c := new_covergroup name None 1 SRC_OTHER).
  apply (x_made [i] [i] [] _ (put_kids s cgs) c); [reflexivity|reflexivity|reflexivity|reflexivity|]. cbn [upd_at put_kids s_kids].
  change (add_child _ c) with (put_kids s (cgs ++ [c])).
  pose proof (x_below [i] ([i] ++ [List.length cgs]) [List.length cgs] _ _ _ _ _ _ eq_refl (get_last s cgs c) (cg_x [i; List.length cgs] name l)) as X.
  destruct (covergroup_step [i; List.length cgs] name l) as [g r].
  apply (x_map _ _ _ (put_kids s) (fun _ _ => True) _ _ _ _ (cgs ++ [g]) X); [|auto]. apply upd_last.
Qed.

(** ** Instances *)
Definition inst_slot (s : rslot) : option string := match s with RInst n _ => Some n | _ => None end.
Definition root_view (st : rst) : scope := put_kids (db_root empty_db) (map (rfill (r_insts st)) (r_slots st)).
Definition root_rel (a : dict handle * dict handle) (st : rst) : Prop :=
  fst a = dmap (fun i => [i]) (r_mods st) /\ snd a = dmap (fun x : nat * list scope => [fst x]) (r_insts st) /\
  (forall n i, dget n (r_mods st) = Some i -> i < List.length (r_slots st)) /\ placed (map inst_slot (r_slots st)) (pos_of (r_insts st)).
Lemma sim_lift_ok {A B M} g v (R : B -> M -> Prop) s (a : A) k r : sim g v R s (k a) r -> sim g v R s (sbind (slift (Ok a)) k) r.
Proof. intros H d G. exact (H d G). Qed.
Lemma sim_lift_eq {A B M} g v (R : B -> M -> Prop) s q (a : A) k r : q = Ok a -> sim g v R s (k a) r -> sim g v R s (sbind (slift q) k) r.
Proof. intros ->. apply sim_lift_ok. Qed.

Section Root.
  Variables (name : string) (es : list elem).
  Let third (a : dict handle * dict handle) : ST db (dict handle * dict handle) :=
    inst <- slift (dindex name (snd a)) ;; sfor (cgs_calls inst) es ;;; sret a.
  Lemma third_sim a st x : root_rel a st -> dget name (r_insts st) = Some x ->
    sim [] root_view root_rel (root_view st) (third a)
      (let* cgs := fold_res (read_covergroups (fst x)) es (snd x) in Ok (Rst (r_slots st) (r_mods st) (dset name (fst x, cgs) (r_insts st)))).
  Proof.
    intros (E1 & E2 & Hm & P) DG. destruct x as [i cgs]. unfold third. rewrite E2, dindex_dmap, DG. apply sim_lift_ok. cbn [fst snd].
    assert (AT : nth_error (map inst_slot (r_slots st)) i = Some (Some name)) by (apply P; unfold pos_of; now rewrite DG).
    rewrite nth_error_map in AT. destruct (nth_error (r_slots st) i) as [[|n du]|] eqn:SI; try discriminate AT. cbn in AT. injection AT as ->.
    set (s := new_instance name None 1 SRC_OTHER INSTANCE (Some [du]) INST_ONCE).
    assert (X : get_at (root_view st) [i] = Some (put_kids s cgs)). { cbn. rewrite nth_error_map, SI. cbn. now rewrite DG. }
    apply (sim_bind [] (fun cgs => upd_at (root_view st) [i] (fun _ => put_kids s cgs)) (fun _ _ => True)).
    - apply (sim_below [] [i] [i] _ _ (put_kids s) _ _ _ eq_refl X). apply sim_for. intros e l. apply cgs_sim.
    - intros _ cgs' _ _. apply sim_ret.
      + unfold root_view. cbn [r_insts r_slots upd_at put_kids s_attrs s_items s_iitems s_kids]. unfold put_kids. f_equal. apply nth_error_ext. intros j. rewrite nth_error_map. destruct (Nat.eq_dec i j) as [<-|N].
        * rewrite upd_nth_same, nth_error_map, SI. cbn. now rewrite dget_dset_same.
        * rewrite upd_nth_other, nth_error_map by assumption. destruct (nth_error (r_slots st) j) as [[m|m u]|] eqn:SJ; [reflexivity| |reflexivity]. cbn.
          assert (m <> name). { intros ->. assert (Q : nth_error (map inst_slot (r_slots st)) j = Some (Some name)) by now rewrite nth_error_map, SJ. apply P in Q. unfold pos_of in Q. rewrite DG in Q. cbn in Q. congruence. }
          now rewrite dget_dset_other.
      + split; [exact E1|]. split; [|split; [exact Hm|]].
        * rewrite E2. cbn [r_insts]. clear -DG. induction (r_insts st) as [|[n y] m IH]; cbn in *; [discriminate|]. destruct (String.eqb name n); cbn; [now injection DG as ->|].
          f_equal. now apply IH.
        * apply (placed_ext _ _ _ P). cbn [r_insts]. now apply (pos_same _ name i cgs).
  Qed.
  Lemma third_x a st x : root_rel a st -> dget name (r_insts st) = Some x ->
    simx [] root_view root_rel (root_view st) (third a)
      (let '(cgs, r) := run_steps (covergroups_step (fst x)) es (snd x) in (Rst (r_slots st) (r_mods st) (dset name (fst x, cgs) (r_insts st)), r)).
  Proof.
    intros (E1 & E2 & Hm & P) DG. destruct x as [i cgs]. unfold third. apply (x_lift_ok _ _ _ _ _ [i]); [rewrite E2, dindex_dmap; now rewrite DG|]. cbn [fst snd].
    assert (AT : nth_error (map inst_slot (r_slots st)) i = Some (Some name)) by (apply P; unfold pos_of; now rewrite DG).
    rewrite nth_error_map in AT. destruct (nth_error (r_slots st) i) as [[|n du]|] eqn:SI; try discriminate AT. cbn in AT. injection AT as ->.
    set (s := new_instance name None 1 SRC_OTHER INSTANCE (Some [du]) INST_ONCE).
    assert (X : get_at (root_view st) [i] = Some (put_kids s cgs)). { cbn. rewrite nth_error_map, SI. cbn. now rewrite DG. }
    assert (V : forall cgs', root_view (Rst (r_slots st) (r_mods st) (dset name (i, cgs') (r_insts st))) = upd_at (root_view st) [i] (fun _ => put_kids s cgs')).
    { intros cgs'. unfold root_view. cbn [r_insts r_slots upd_at put_kids s_attrs s_items s_iitems s_kids]. unfold put_kids. f_equal. apply nth_error_ext. intros j. rewrite nth_error_map. destruct (Nat.eq_dec i j) as [<-|N].
      - rewrite upd_nth_same, nth_error_map, SI. cbn. now rewrite dget_dset_same.
      - rewrite upd_nth_other, nth_error_map by assumption. destruct (nth_error (r_slots st) j) as [[m|m u]|] eqn:SJ; [reflexivity| |reflexivity]. cbn.
          assert (m <> name). { intros ->. assert (Q : nth_error (map inst_slot (r_slots st)) j = Some (Some name)) by now rewrite nth_error_map, SJ. apply P in Q. unfold pos_of in Q. rewrite DG in Q. cbn in Q. congruence. }
          now rewrite dget_dset_other. }
    assert (Y : simx [] (fun cgs => upd_at (root_view st) [i] (fun _ => put_kids s cgs)) (fun _ _ => True) (root_view st) (sfor (cgs_calls [i]) es) (run_steps (covergroups_step i) es cgs)).
    { apply (x_below [] [i] [i] _ _ (put_kids s) _ _ _ eq_refl X). apply x_for. intros e l. apply cgs_x. }
    destruct (run_steps (covergroups_step i) es cgs) as [cgs' [er|]].
    { apply (x_err _ _ _ _ _ _ _ _ _ _ _ Y). apply V. }
    apply (x_ok _ _ _ _ _ _ _ _ _ _ Y). intros _ _. apply x_ret; [apply V|].
    split; [exact E1|]. split; [|split; [exact Hm|]].
    - rewrite E2. cbn [r_insts]. clear -DG. induction (r_insts st) as [|[n y] m IH]; cbn in *; [discriminate|]. destruct (String.eqb name n); cbn; [now injection DG as ->|].
          f_equal. now apply IH.
    - apply (placed_ext _ _ _ P). cbn [r_insts]. now apply (pos_same _ name i cgs).
  Qed.
  Let second (mods insts : dict handle) (du : handle) : ST db (dict handle * dict handle) :=
    insts <- (if dmem name insts then sret insts
              else t <- made (CreateInstance [] name None 1 SRC_OTHER INSTANCE (Some du) INST_ONCE) ;; sret (dset name t insts)) ;;
    third (mods, insts).
  Lemma second_sim a st du : root_rel a st -> du < List.length (r_slots st) ->
    sim [] root_view root_rel (root_view st) (second (fst a) (snd a) [du])
      (let '(st, x) := get_inst_scope name du st in
       let* cgs := fold_res (read_covergroups (fst x)) es (snd x) in Ok (Rst (r_slots st) (r_mods st) (dset name (fst x, cgs) (r_insts st)))).
  Proof.
    intros RR L. pose proof RR as (E1 & E2 & Hm & P). unfold second, get_inst_scope. replace (dmem name (snd a)) with (dmem name (r_insts st)) by (now rewrite E2, dmem_dmap). unfold dmem.
    destruct (dget name (r_insts st)) as [x|] eqn:DG.
    - apply sim_ret_bind. replace (fst a, snd a) with a by now destruct a. now apply third_sim.
    - apply sim_assoc. set (c := new_instance name None 1 SRC_OTHER INSTANCE (Some [du]) INST_ONCE).
      apply (sim_made [] [] [] _ (root_view st) c); [reflexivity|reflexivity|reflexivity| |].
      { intros d G. cbn [act]. unfold at_handle. cbn in G. injection G as ->. cbn [get_at root_view put_kids s_kids]. rewrite nth_error_map.
        destruct (nth_error (r_slots st) du) eqn:E; [reflexivity|]. apply nth_error_None in E. lia. }
      apply sim_ret_bind. cbn [upd_at]. set (st1 := Rst (r_slots st ++ [RInst name du]) (r_mods st) (dset name (List.length (r_slots st), []) (r_insts st))).
      assert (V : add_child (root_view st) c = root_view st1).
      { unfold root_view, add_child, put_kids. cbn [st1 r_slots r_insts s_attrs s_items s_iitems s_kids]. f_equal. rewrite map_app. cbn [map]. f_equal.
        - apply map_ext_in. intros [m|m u] I; [reflexivity|]. cbn. assert (m <> name).
          { intros ->. apply In_nth_error in I as [j J]. assert (Q : nth_error (map inst_slot (r_slots st)) j = Some (Some name)) by now rewrite nth_error_map, J. apply P in Q. unfold pos_of in Q. rewrite DG in Q. discriminate Q. }
          now rewrite dget_dset_other.
        - cbn. now rewrite dget_dset_same. }
      rewrite V. replace (List.length (s_kids (root_view st))) with (List.length (r_slots st)) by (cbn; now rewrite map_length). cbn [app].
      apply (third_sim (fst a, dset name [List.length (r_slots st)] (snd a)) st1 (List.length (r_slots st), [])); [|cbn [st1 r_insts]; apply dget_dset_same].
      split; [exact E1|]. cbn [fst snd st1 r_mods r_insts r_slots]. split; [|split].
      + rewrite E2. exact (dset_dmap (fun x : nat * list scope => [fst x]) name (List.length (r_slots st), []) (r_insts st)).
      + intros n i D. specialize (Hm n i D). rewrite app_length. lia.
      + rewrite map_app. cbn [map]. rewrite <- (map_length inst_slot (r_slots st)). now apply placed_dset.
  Qed.
  Lemma second_x a st du : root_rel a st -> du < List.length (r_slots st) ->
    simx [] root_view root_rel (root_view st) (second (fst a) (snd a) [du])
      (let '(st, x) := get_inst_scope name du st in
       let '(cgs, r) := run_steps (covergroups_step (fst x)) es (snd x) in (Rst (r_slots st) (r_mods st) (dset name (fst x, cgs) (r_insts st)), r)).
  Proof.
    intros RR L. pose proof RR as (E1 & E2 & Hm & P). unfold second, get_inst_scope. replace (dmem name (snd a)) with (dmem name (r_insts st)) by (now rewrite E2, dmem_dmap). unfold dmem.
    destruct (dget name (r_insts st)) as [x|] eqn:DG.
    - apply x_ret_bind. replace (fst a, snd a) with a by now destruct a. now apply third_x.
    - apply x_assoc. set (c := new_instance name None 1 SRC_OTHER INSTANCE (Some [du]) INST_ONCE).
      apply (x_made [] [] [] _ (root_view st) c); [reflexivity|reflexivity|reflexivity| |].
      { intros d G. cbn [act]. unfold at_handle. cbn in G. injection G as ->. cbn [get_at root_view put_kids s_kids]. rewrite nth_error_map.
        destruct (nth_error (r_slots st) du) eqn:E; [reflexivity|]. apply nth_error_None in E. lia. }
      apply x_ret_bind. cbn [upd_at]. set (st1 := Rst (r_slots st ++ [RInst name du]) (r_mods st) (dset name (List.length (r_slots st), []) (r_insts st))).
      assert (V : add_child (root_view st) c = root_view st1).
      { unfold root_view, add_child, put_kids. cbn [st1 r_slots r_insts s_attrs s_items s_iitems s_kids]. f_equal. rewrite map_app. cbn [map]. f_equal.
        - apply map_ext_in. intros [m|m u] I; [reflexivity|]. cbn. assert (m <> name).
          { intros ->. apply In_nth_error in I as [j J]. assert (Q : nth_error (map inst_slot (r_slots st)) j = Some (Some name)) by now rewrite nth_error_map, J. apply P in Q. unfold pos_of in Q. rewrite DG in Q. discriminate Q. }
          now rewrite dget_dset_other.
        - cbn. now rewrite dget_dset_same. }
      rewrite V. replace (List.length (s_kids (root_view st))) with (List.length (r_slots st)) by (cbn; now rewrite map_length). cbn [app].
      apply (third_x (fst a, dset name [List.length (r_slots st)] (snd a)) st1 (List.length (r_slots st), [])); [|cbn [st1 r_insts]; apply dget_dset_same].
      split; [exact E1|]. cbn [fst snd st1 r_mods r_insts r_slots]. split; [|split].
      + rewrite E2. exact (dset_dmap (fun x : nat * list scope => [fst x]) name (List.length (r_slots st), []) (r_insts st)).
      + intros n i D. specialize (Hm n i D). rewrite app_length. lia.
      + rewrite map_app. cbn [map]. rewrite <- (map_length inst_slot (r_slots st)). now apply placed_dset.
  Qed.
End Root.

Lemma ic_sim ids e a st : root_rel a st -> sim [] root_view root_rel (root_view st) (ic_calls ids a e) (read_instance ids st e).
Proof.
  intros RR. pose proof RR as (E1 & E2 & Hm & P). unfold ic_calls, read_instance. apply sim_lift. intros name. apply sim_lift. intros _.
  set (mname := get_attr_or "moduleName" "default" e). unfold get_scope. replace (dmem mname (fst a)) with (dmem mname (r_mods st)) by (now rewrite E1, dmem_dmap). unfold dmem.
  destruct (dget mname (r_mods st)) as [i|] eqn:DG.
  - apply sim_ret_bind. apply (sim_lift_eq _ _ _ _ _ [i]); [rewrite E1, dindex_dmap; now rewrite DG|]. apply second_sim; [assumption|]. exact (Hm _ _ DG).
  - apply sim_assoc. set (c := new_mem_scope mname None 1 SRC_OTHER DU_MODULE DU_FLAGS).
    apply (sim_made [] [] [] _ (root_view st) c); [reflexivity|reflexivity|reflexivity|reflexivity|].
    apply sim_ret_bind. cbn [upd_at]. set (st1 := Rst (r_slots st ++ [RDu mname]) (dset mname (List.length (r_slots st)) (r_mods st)) (r_insts st)).
    assert (V : add_child (root_view st) c = root_view st1).
    { unfold root_view, add_child, put_kids. cbn [st1 r_slots r_insts s_attrs s_items s_iitems s_kids]. f_equal. rewrite map_app. reflexivity. }
    rewrite V. replace (List.length (s_kids (root_view st))) with (List.length (r_slots st)) by (cbn; now rewrite map_length). cbn [app].
    apply (sim_lift_eq _ _ _ _ _ [List.length (r_slots st)]); [unfold dindex; now rewrite dget_dset_same|].
    apply (second_sim name (iter "covergroupCoverage" e) (dset mname [List.length (r_slots st)] (fst a), snd a) st1); [|cbn [st1 r_slots]; rewrite app_length; cbn; lia].
    split; [|split; [exact E2|split]]; cbn [fst snd st1 r_mods r_insts r_slots].
    + rewrite E1. exact (dset_dmap (fun i => [i]) mname (List.length (r_slots st)) (r_mods st)).
    + intros n i D. rewrite app_length. cbn. destruct (String.eqb_spec n mname) as [->|N]; [rewrite dget_dset_same in D; injection D as <-; lia|].
      rewrite dget_dset_other in D by assumption. specialize (Hm n i D). lia.
    + rewrite map_app. now apply placed_none.
Qed.

(** The same over [instance_step], for the states of a first document. *)
Definition at0 (i : nat) : spot := (0, i).
Definition lift_slot (s : rslot) : xslot := match s with RDu n => XDu n | RInst n du => XInst n (at0 du) end.
Definition lift_st (st : rst) : xst := Xst (map lift_slot (r_slots st)) (dmap at0 (r_mods st)) (dmap (fun x : nat * list scope => (at0 (fst x), snd x)) (r_insts st)).
Definition inst_rstep (ids : list Z) (st : rst) (e : elem) : rst * outcome :=
  match attrib "name" e with
  | Err x => (st, Some x)
  | Ok name =>
      match traverse (check_id ids) (iter "id" e) with
      | Err x => (st, Some x)
      | Ok _ =>
          let '(st, du) := get_scope (get_attr_or "moduleName" "default" e) st in
          let '(st, x) := get_inst_scope name du st in
          let '(cgs, r) := run_steps (covergroups_step (fst x)) (iter "covergroupCoverage" e) (snd x) in
          (Rst (r_slots st) (r_mods st) (dset name (fst x, cgs) (r_insts st)), r)
      end
  end.
Lemma rstep_lift ids st e : instance_step 0 ids (lift_st st) e = (lift_st (fst (inst_rstep ids st e)), snd (inst_rstep ids st e)).
Proof.
  unfold instance_step, inst_rstep. destruct (attrib "name" e) as [name|x]; [|reflexivity]. destruct (traverse (check_id ids) (iter "id" e)); [|reflexivity].
  set (mname := get_attr_or "moduleName" "default" e).
  assert (A : scope_in 0 mname (lift_st st) = (lift_st (fst (get_scope mname st)), at0 (snd (get_scope mname st)))).
  { unfold scope_in, get_scope. cbn [lift_st xs_mods]. rewrite dget_dmap. destruct (dget mname (r_mods st)) as [i|]; [reflexivity|]. cbn [option_map fst snd xs_slots xs_insts].
    unfold lift_st. cbn [r_slots r_mods r_insts xs_slots xs_mods xs_insts fst snd]. rewrite map_length, map_app. cbn [map lift_slot]. now rewrite <- (dset_dmap at0). }
  rewrite A. destruct (get_scope mname st) as [st1 du]. cbn [fst snd].
  assert (B : inst_in 0 name (at0 du) (lift_st st1) = (lift_st (fst (get_inst_scope name du st1)), (at0 (fst (snd (get_inst_scope name du st1))), snd (snd (get_inst_scope name du st1))))).
  { unfold inst_in, get_inst_scope. cbn [lift_st xs_insts]. rewrite dget_dmap. destruct (dget name (r_insts st1)) as [i|]; [reflexivity|]. cbn [option_map fst snd xs_slots xs_insts xs_mods].
    unfold lift_st. cbn [r_slots r_mods r_insts xs_slots xs_mods xs_insts fst snd]. rewrite map_length, map_app. cbn [map lift_slot]. now rewrite <- (dset_dmap (fun x : nat * list scope => (at0 (fst x), snd x))). }
  rewrite B. destruct (get_inst_scope name du st1) as [st2 [i cgs]]. cbn [fst snd at0]. destruct (run_steps (covergroups_step i) (iter "covergroupCoverage" e) cgs) as [cgs' r]. cbn [fst snd].
  unfold lift_st. cbn [r_slots r_mods r_insts xs_slots xs_mods xs_insts]. now rewrite <- (dset_dmap (fun x : nat * list scope => (at0 (fst x), snd x))).
Qed.
Lemma rsteps_lift ids : forall l st, run_steps (instance_step 0 ids) l (lift_st st) = (lift_st (fst (run_steps (inst_rstep ids) l st)), snd (run_steps (inst_rstep ids) l st)).
Proof.
  induction l as [|e l IH]; intros st; cbn [run_steps]; [reflexivity|]. rewrite rstep_lift. destruct (inst_rstep ids st e) as [st1 [x|]]; cbn [fst snd]; [reflexivity|]. apply IH.
Qed.
Lemma ic_x ids e a st : root_rel a st -> simx [] root_view root_rel (root_view st) (ic_calls ids a e) (inst_rstep ids st e).
Proof.
  intros RR. pose proof RR as (E1 & E2 & Hm & P). unfold ic_calls, inst_rstep. destruct (attrib "name" e) as [name|x] eqn:AN; [apply (x_lift_ok _ _ _ _ _ name); [reflexivity|]|now apply x_lift_err].
  destruct (traverse (check_id ids) (iter "id" e)) as [u|x] eqn:CI; [apply (x_lift_ok _ _ _ _ _ u); [reflexivity|]|now apply x_lift_err].
  set (mname := get_attr_or "moduleName" "default" e). unfold get_scope. replace (dmem mname (fst a)) with (dmem mname (r_mods st)) by (now rewrite E1, dmem_dmap). unfold dmem.
  destruct (dget mname (r_mods st)) as [i|] eqn:DG.
  - apply x_ret_bind. apply (x_lift_ok _ _ _ _ _ [i]); [rewrite E1, dindex_dmap; now rewrite DG|]. apply second_x; [assumption|]. exact (Hm _ _ DG).
  - apply x_assoc. set (c := new_mem_scope mname None 1 SRC_OTHER DU_MODULE DU_FLAGS).
    apply (x_made [] [] [] _ (root_view st) c); [reflexivity|reflexivity|reflexivity|reflexivity|].
    apply x_ret_bind. cbn [upd_at]. set (st1 := Rst (r_slots st ++ [RDu mname]) (dset mname (List.length (r_slots st)) (r_mods st)) (r_insts st)).
    assert (V : add_child (root_view st) c = root_view st1).
    { unfold root_view, add_child, put_kids. cbn [st1 r_slots r_insts s_attrs s_items s_iitems s_kids]. f_equal. rewrite map_app. reflexivity. }
    rewrite V. replace (List.length (s_kids (root_view st))) with (List.length (r_slots st)) by (cbn; now rewrite map_length). cbn [app].
    apply (x_lift_ok _ _ _ _ _ [List.length (r_slots st)]); [unfold dindex; now rewrite dget_dset_same|].
    apply (second_x name (iter "covergroupCoverage" e) (dset mname [List.length (r_slots st)] (fst a), snd a) st1); [|cbn [st1 r_slots]; rewrite app_length; cbn; lia].
    split; [|split; [exact E2|split]]; cbn [fst snd st1 r_mods r_insts r_slots].
    + rewrite E1. exact (dset_dmap (fun i => [i]) mname (List.length (r_slots st)) (r_mods st)).
    + intros n i D. rewrite app_length. cbn. destruct (String.eqb_spec n mname) as [->|N]; [rewrite dget_dset_same in D; injection D as <-; lia|].
      rewrite dget_dset_other in D by assumption. specialize (Hm n i D). lia.
    + rewrite map_app. now apply placed_none.
Qed.

(** ** Source files and history nodes *)
Lemma index_none f l : index_of f l = None <-> existsb (seqb f) l = false.
Proof.
  induction l as [|x l IH]; cbn; [tauto|]. destruct (seqb f x); cbn; [split; discriminate|]. rewrite <- IH. destruct (index_of f l); cbn; split; congruence.
Qed.
Lemma file_one e ids d : match read_source_file (db_files d, ids) e with
  | Ok (names, ids') => file_calls ids e d = (Db (db_root d) names (db_hist d), Ok ids')
  | Err x => file_calls ids e d = (d, Err x)
  end.
Proof.
  unfold read_source_file, file_calls, sbind, slift. destruct (get_attr "id" e) as [t|]; [|reflexivity]. destruct (py_int t) as [z|er]; cbn [rbind]; [|reflexivity].
  unfold with_file. destruct (get_attr "fileName" e) as [f|]; [|now destruct d].
  unfold call, step. cbn [target db_act]. destruct (index_of f (db_files d)) as [i|] eqn:X.
  - destruct (existsb (seqb f) (db_files d)) eqn:Y; [|apply index_none in Y; congruence]. now destruct d.
  - apply index_none in X. now rewrite X.
Qed.
Lemma files_calls : forall l ids d, match fold_res read_source_file l (db_files d, ids) with
  | Ok (names, ids') => sfold file_calls l ids d = (Db (db_root d) names (db_hist d), Ok ids')
  | Err e => exists d', sfold file_calls l ids d = (d', Err e)
  end.
Proof.
  induction l as [|e l IH]; intros ids d; cbn [sfold fold_res]; [now destruct d|]. pose proof (file_one e ids d) as F. unfold sbind.
  destruct (read_source_file (db_files d, ids) e) as [[names ids']|x]; cbn [rbind]; rewrite F; [|now eexists].
  exact (IH ids' (Db (db_root d) names (db_hist d))).
Qed.

(** The history node under construction is the last one. *)
Section Node.
  Variables (to_float : string -> option string) (l : list hist).
  Let i := List.length l.
  Definition hsim (h : hist) (p : ST db unit) (r : res hist) : Prop := forall d, db_hist d = l ++ [h] ->
    match r with
    | Ok h' => p d = (with_hist d (l ++ [h']), Ok tt)
    | Err e => exists d', p d = (d', Err e)
    end.
  Lemma hs_bind h p k r f : hsim h p r -> (forall h1, hsim h1 k (f h1)) -> hsim h (p ;;; k) (rbind r f).
  Proof.
    intros P K d G. specialize (P d G). unfold sbind. destruct r as [h1|e]; cbn [rbind].
    - rewrite P. exact (K h1 (with_hist d (l ++ [h1])) eq_refl).
    - destruct P as (d' & ->). now exists d'.
  Qed.
  Lemma hs_then h p k h1 r : hsim h p (Ok h1) -> hsim h1 k r -> hsim h (p ;;; k) r.
  Proof. intros P K d G. specialize (P d G). cbn in P. unfold sbind. rewrite P. exact (K (with_hist d (l ++ [h1])) eq_refl). Qed.
  Lemma hs_lift {X} h (r : res X) k f : (forall x, hsim h (k x) (f x)) -> hsim h (sbind (slift r) k) (rbind r f).
  Proof. intros K d G. unfold sbind, slift. destruct r as [x|e]; cbn [rbind]; [exact (K x d G)|now exists d]. Qed.
  Lemma hs_skip h : hsim h (sret tt) (Ok h).
  Proof. intros d G. rewrite <- G. now destruct d. Qed.
  Lemma hs_set h f v : hsim h (set_call i f v) (Ok (hist_set f v h)).
  Proof.
    intros d G. unfold set_call, call, sbind, step. cbn [target db_act]. rewrite G. rewrite nth_error_app2 by (unfold i; lia). unfold i. rewrite Nat.sub_diag. cbn [nth_error sret].
    unfold sret. repeat f_equal. clear. induction l as [|x m IH]; cbn; [reflexivity|]. now rewrite IH.
  Qed.
  Lemma hs_ex h f n e : hsim h (set_ex i f n e) (Ok (set_if_ex f n e h)).
  Proof. unfold set_ex, set_if_ex. destruct (get_attr n e); [apply hs_set|apply hs_skip]. Qed.
  Lemma hs_int h f n e : hsim h (set_int_ex i f n e) (set_int_if_ex f n e h).
  Proof. unfold set_int_ex, set_int_if_ex. destruct (get_attr n e); [|apply hs_skip]. apply hs_lift. intros z. apply hs_set. Qed.
  Lemma hs_float h f n e : hsim h (set_float_ex to_float i f n e) (set_float_if_ex to_float f n e h).
  Proof.
    unfold set_float_ex, set_float_if_ex. destruct (get_attr n e) as [t|]; [|apply hs_skip]. destruct (to_float t) as [x|].
    - intros d G. exact (hs_set h f (VFloat x) d G).
    - intros d G. now exists d.
  Qed.
End Node.
Lemma hist_one to_float e d : match read_history_node to_float e with
  | Ok h => hist_calls to_float e d = (with_hist d (db_hist d ++ [h]), Ok tt)
  | Err x => exists d', hist_calls to_float e d = (d', Err x)
  end.
Proof.
  unfold hist_calls, read_history_node. cbn zeta. set (h0 := new_hist _ _ _ _ _).
  unfold sbind at 1. unfold call at 1, step. cbn [target db_act]. unfold sbind at 1. cbn [sret]. fold h0.
  lazymatch goal with |- match ?r with _ => _ end => lazymatch goal with |- context [?p (with_hist d (db_hist d ++ [h0]))] => assert (H : hsim (db_hist d) h0 p r) end end.
  { repeat first [ apply hs_lift; intros ? | eapply hs_then; [apply hs_set|] | eapply hs_then; [apply hs_ex|] | apply hs_bind; [apply hs_float|intros ?] | apply hs_bind; [apply hs_int|intros ?] ].
    apply hs_ex. }
  exact (H (with_hist d (db_hist d ++ [h0])) eq_refl).
Qed.
Lemma hists_calls to_float : forall l d, match traverse (read_history_node to_float) l with
  | Ok hs => sfor (hist_calls to_float) l d = (with_hist d (db_hist d ++ hs), Ok tt)
  | Err e => exists d', sfor (hist_calls to_float) l d = (d', Err e)
  end.
Proof.
  induction l as [|e l IH]; intros d; cbn [traverse sfor].
  - rewrite app_nil_r. now destruct d.
  - pose proof (hist_one to_float e d) as H. unfold sbind. destruct (read_history_node to_float e) as [h|x]; cbn [rbind]; [|destruct H as (d' & ->); now exists d'].
    rewrite H. specialize (IH (with_hist d (db_hist d ++ [h]))). destruct (traverse _ l) as [hs|x]; cbn [rbind]; [|exact IH].
    rewrite IH. unfold with_hist. cbn. now rewrite <- app_assoc.
Qed.

Lemma read_same to_float doc : match read to_float doc with
  | Ok d => read_calls to_float doc empty_db = (d, Ok tt)
  | Err e => exists d, read_calls to_float doc empty_db = (d, Err e)
  end.
Proof.
  unfold read, read_calls, sbind. pose proof (files_calls (iter "sourceFiles" doc) [] empty_db) as F. change (db_files empty_db) with (@nil string) in F.
  destruct (fold_res read_source_file (iter "sourceFiles" doc) ([], [])) as [[names ids]|e]; cbn [rbind]; [|destruct F as (d & ->); now exists d]. rewrite F.
  set (d1 := Db (db_root empty_db) names (db_hist empty_db)). pose proof (hists_calls to_float (iter "historyNodes" doc) d1) as H.
  destruct (traverse (read_history_node to_float) (iter "historyNodes" doc)) as [hs|e]; cbn [rbind]; [|destruct H as (d & ->); now exists d]. rewrite H. cbn [app db_hist d1 empty_db].
  assert (RR : root_rel ([], []) (Rst [] [] [])). { split; [reflexivity|]. split; [reflexivity|]. split; [intros n i E; discriminate E|]. intros n i. destruct i; cbn; split; discriminate. }
  pose proof (sim_fold [] root_view root_rel (ic_calls ids) (read_instance ids) (iter "instanceCoverages" doc) (fun x a m => ic_sim ids x a m) ([], []) (Rst [] [] []) RR
    (with_hist d1 hs) eq_refl) as S.
  destruct (fold_res (read_instance ids) (iter "instanceCoverages" doc) (Rst [] [] [])) as [st|e]; cbn [rbind].
  - destruct S as (a & S & _). unfold with_hist, d1 in *. cbn in *. now rewrite S.
  - destruct S as (s & S). unfold with_hist, d1 in *. cbn in *. rewrite S. now eexists.
Qed.

(** ** What an exception leaves *)
Definition keeps {A} (p : ST db A) : Prop := forall d, db_root (fst (p d)) = db_root d.
Lemma keeps_bind {A B} (p : ST db A) (k : A -> ST db B) : keeps p -> (forall a, keeps (k a)) -> keeps (sbind p k).
Proof. intros P K d. specialize (P d). unfold sbind. destruct (p d) as [d1 [a|e]]; cbn [fst] in *; [|assumption]. rewrite <- P. apply K. Qed.
Lemma keeps_ret {A} (r : res A) : keeps (fun d => (d, r)).
Proof. intros d. reflexivity. Qed.
Lemma keeps_fold {A X} (p : A -> X -> ST db A) l : (forall a x, keeps (p a x)) -> forall a, keeps (sfold p l a).
Proof. intros H. induction l as [|x l IH]; intros a; cbn [sfold]; [apply (keeps_ret (Ok a))|]. apply keeps_bind; auto. Qed.
Lemma keeps_for {X} (p : X -> ST db unit) l : (forall x, keeps (p x)) -> keeps (sfor p l).
Proof. intros H. induction l as [|x l IH]; cbn [sfor]; [apply (keeps_ret (Ok tt))|]. apply keeps_bind; auto. Qed.
Lemma keeps_call o : target o = None -> keeps (call o).
Proof.
  intros T d. unfold call, step. rewrite T. unfold db_act. destruct o; try discriminate T; try reflexivity; cbn;
    repeat match goal with |- context [match ?x with _ => _ end] => destruct x; cbn end; reflexivity.
Qed.
Lemma keeps_file ids e : keeps (file_calls ids e).
Proof.
  unfold file_calls. repeat first [apply keeps_bind; intros | apply keeps_call; reflexivity | apply keeps_ret | lazymatch goal with |- keeps (match ?x with _ => _ end) => destruct x end].
Qed.
Lemma keeps_hist tf e : keeps (hist_calls tf e).
Proof.
  unfold hist_calls, set_ex, set_int_ex, set_float_ex, set_call.
  repeat first [apply keeps_bind; intros | apply keeps_call; reflexivity | apply keeps_ret | lazymatch goal with |- keeps (match ?x with _ => _ end) => destruct x end].
Qed.
Lemma read_left tf doc : map db_root (databases (fst (read_step tf new_session doc))) = [db_root (fst (read_calls tf doc empty_db))] /\
  snd (read_step tf new_session doc) = match snd (read_calls tf doc empty_db) with Ok _ => None | Err e => Some e end.
Proof.
  unfold read_step, read_calls, sbind. cbn [new_session x_dbs x_ids x_mods x_insts List.length app].
  pose proof (keeps_fold file_calls (iter "sourceFiles" doc) keeps_file [] empty_db) as KF. pose proof (files_calls (iter "sourceFiles" doc) [] empty_db) as F. change (db_files empty_db) with (@nil string) in F.
  pose proof (ends_steps _ _ (ends_whole read_source_file) (iter "sourceFiles" doc) ([], [])) as EF.
  destruct (fold_res read_source_file (iter "sourceFiles" doc) ([], [])) as [[names ids]|e]; cbn [ends] in EF.
  2:{ destruct F as (d & F). rewrite F in *. destruct (run_steps (whole read_source_file) _ _) as [[names ids] o]. cbn [snd fst] in *. subst o. cbn. split; [now rewrite KF|reflexivity]. }
  rewrite EF, F in *. clear F EF. set (d1 := Db (db_root empty_db) names (db_hist empty_db)). clear KF.
  pose proof (keeps_for (hist_calls tf) (iter "historyNodes" doc) (keeps_hist tf) d1) as KH. pose proof (hists_calls tf (iter "historyNodes" doc) d1) as H.
  destruct (traverse (read_history_node tf) (iter "historyNodes" doc)) as [hs|e].
  2:{ destruct H as (d & H). rewrite H in *. cbn [fst] in *. cbn. split; [now rewrite KH|reflexivity]. }
  rewrite H. clear KH H.
  assert (RR : root_rel ([], []) (Rst [] [] [])). { split; [reflexivity|]. split; [reflexivity|]. split; [intros n i E; discriminate E|]. intros n i. destruct i; cbn; split; discriminate. }
  pose proof (x_fold [] root_view root_rel (ic_calls ids) (inst_rstep ids) (iter "instanceCoverages" doc) (fun x a m => ic_x ids x a m) ([], []) (Rst [] [] []) RR
    (with_hist d1 (db_hist d1 ++ hs)) eq_refl) as S.
  change (Xst [] [] []) with (lift_st (Rst [] [] [])). rewrite rsteps_lift. destruct (run_steps (inst_rstep ids) (iter "instanceCoverages" doc) (Rst [] [] [])) as [st o]. cbn [fst snd] in *.
  assert (V : forall nh, map db_root (databases (Session ids (xs_mods (lift_st st)) (xs_insts (lift_st st)) [(nh, xs_slots (lift_st st))])) = [root_view st]).
  { intros nh. unfold databases. cbn [databases_from x_dbs map]. unfold database. cbn [db_root snd x_insts]. unfold root_view, put_kids. repeat f_equal. unfold lift_st. cbn [xs_slots xs_insts]. rewrite map_map.
    apply map_ext. intros [n|n du]; [reflexivity|]. cbn. rewrite dget_dmap. now destruct (dget n (r_insts st)) as [[i l]|]. }
  destruct o as [e|].
  - rewrite S. cbn [fst snd]. split; [apply V|reflexivity].
  - destruct S as (a & -> & _). cbn [fst snd sret]. split; [apply V|reflexivity].
Qed.
(** The source files of the database that is left. *)
Lemma files_step : forall l ids d, db_files (fst (sfold file_calls l ids d)) = fst (fst (run_steps (whole read_source_file) l (db_files d, ids))).
Proof.
  induction l as [|e l IH]; intros ids d; cbn [sfold run_steps]; [reflexivity|]. pose proof (file_one e ids d) as F. unfold sbind, whole at 1.
  destruct (read_source_file (db_files d, ids) e) as [[names ids']|x]; rewrite F; [|reflexivity]. exact (IH ids' (Db (db_root d) names (db_hist d))).
Qed.
Definition keepf {A} (p : ST db A) : Prop := forall d, db_files (fst (p d)) = db_files d.
Lemma keepf_bind {A B} (p : ST db A) (k : A -> ST db B) : keepf p -> (forall a, keepf (k a)) -> keepf (sbind p k).
Proof. intros P K d. specialize (P d). unfold sbind. destruct (p d) as [d1 [a|e]]; cbn [fst] in *; [|assumption]. rewrite <- P. apply K. Qed.
Lemma keepf_ret {A} (r : res A) : keepf (fun d => (d, r)).
Proof. intros d. reflexivity. Qed.
Lemma keepf_fold {A X} (p : A -> X -> ST db A) l : (forall a x, keepf (p a x)) -> forall a, keepf (sfold p l a).
Proof. intros H. induction l as [|x l IH]; intros a; cbn [sfold]; [apply (keepf_ret (Ok a))|]. apply keepf_bind; auto. Qed.
Lemma keepf_for {X} (p : X -> ST db unit) l : (forall x, keepf (p x)) -> keepf (sfor p l).
Proof. intros H. induction l as [|x l IH]; cbn [sfor]; [apply (keepf_ret (Ok tt))|]. apply keepf_bind; auto. Qed.
Lemma keepf_call o : (forall f, o <> CreateFileHandle f) -> keepf (call o).
Proof.
  intros T d. unfold call, step, db_act, at_handle. destruct o; try (exfalso; eapply T; reflexivity); cbn;
    repeat match goal with |- context [match ?x with _ => _ end] => destruct x; cbn end; reflexivity.
Qed.
Lemma keepf_made o : (forall f, o <> CreateFileHandle f) -> keepf (made o).
Proof. intros T. pose proof (keepf_call o T) as K. unfold made. apply keepf_bind; [exact K|]. intros a. destruct a; apply keepf_ret. Qed.
Lemma left_files tf doc : db_files (fst (read_calls tf doc empty_db)) = fst (fst (run_steps (whole read_source_file) (iter "sourceFiles" doc) ([], []))).
Proof.
  pose proof (files_step (iter "sourceFiles" doc) [] empty_db) as F. change (db_files empty_db) with (@nil string) in F. rewrite <- F. clear F. unfold read_calls, sbind at 1. destruct (sfold file_calls _ _ _) as [d [ids|e]]; [|reflexivity]. cbn [fst].
  lazymatch goal with |- db_files (fst (?q d)) = _ => assert (K : keepf q); [|exact (K d)] end.
  unfold hist_calls, ic_calls, cgs_calls, cg_calls, cgi_calls, cp_calls, cr_calls, cp_bin_calls, cr_bin_calls, set_ex, set_int_ex, set_float_ex, set_call.
  repeat first [apply keepf_made; intros ? Q; discriminate Q | apply keepf_call; intros ? Q; discriminate Q | apply keepf_for; intros | apply keepf_fold; intros | apply keepf_bind; [|intros] | apply keepf_ret
    | lazymatch goal with
      | |- keepf (match ?x with _ => _ end) => destruct x
      | |- keepf (if ?x then _ else _) => destruct x
      end ].
Qed.
