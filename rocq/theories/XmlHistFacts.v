(** History nodes through XML. *)
From Verif Require Import Base Dict Consts Db Hist BaseFacts PyInt PyIntFacts Dates DatesFacts Xml XmlWriter XmlReader
  XmlHistSpec.
Local Open Scope string_scope.
Local Open Scope list_scope.

(** ** Attribute lists with optional entries *)
Definition keep (l : list (string * option string)) : dict string :=
  flat_map (fun x => match snd x with Some v => [(fst x, v)] | None => [] end) l.

Lemma dset_new : forall V (d : dict V) k v, dmem k d = false -> dset k v d = d ++ [(k, v)].
Proof.
  intros V d k v. unfold dmem. induction d as [|[k' v'] d IH]; [reflexivity|]. cbn.
  destruct (String.eqb k k'); [discriminate|]. intros H. now rewrite IH.
Qed.

Lemma keep_mem : forall l k, existsb (String.eqb k) (map fst l) = false -> dmem k (keep l) = false.
Proof.
  unfold dmem. induction l as [|[n [v|]] l IH]; intros k H; cbn in *; [reflexivity| |].
  - apply orb_false_iff in H as [-> H]. now apply IH.
  - apply orb_false_iff in H as [_ H]. now apply IH.
Qed.

Lemma keep_app : forall l l', keep (l ++ l') = keep l ++ keep l'.
Proof. intros. apply flat_map_app. Qed.

Lemma keep_get : forall l k, NoDup (map fst l) -> dget k (keep l) = match dget k l with Some o => o | None => None end.
Proof.
  induction l as [|[n o] l IH]; intros k N; [reflexivity|]. inversion N as [|? ? N1 N2]; subst. cbn [dget fst snd].
  destruct o as [v|]; cbn [keep flat_map snd fst app].
  - cbn [dget]. destruct (String.eqb k n); [reflexivity|]. now apply IH.
  - destruct (String.eqb_spec k n) as [->|H]; [|now apply IH].
    assert (dmem n (keep l) = false) as D.
    { apply keep_mem. apply not_true_iff_false. intros E. apply existsb_exists in E as (x & I & E).
      apply String.eqb_eq in E. subst. now apply N1. }
    unfold dmem in D. fold (keep l). now destruct (dget n (keep l)).
Qed.

Definition fresh (n : string) (l : list (string * option string)) : Prop := existsb (String.eqb n) (map fst l) = false.

Lemma keep_set : forall l n v a, fresh n l -> set_attr n v (keep l) = Ok a -> a = keep (l ++ [(n, Some v)]).
Proof.
  intros l n v a F H. unfold set_attr in H. destruct (xml_ok v); [|discriminate]. injection H as <-.
  rewrite dset_new by (now apply keep_mem). now rewrite keep_app.
Qed.
Lemma keep_skip : forall l n, keep l = keep (l ++ [(n, None)]).
Proof. intros. rewrite keep_app. cbn. now rewrite app_nil_r. Qed.

Lemma keep_val : forall l n v a, fresh n l -> set_val n v (keep l) = Ok a ->
  exists s, v = VStr s /\ a = keep (l ++ [(n, Some s)]).
Proof.
  intros l n v a F H. unfold set_val in H. destruct v; try discriminate. exists s. split; [reflexivity|]. eapply keep_set; eassumption.
Qed.

Definition text_of (v : pyval) : option string := match v with VNone => None | _ => Some (py_str v) end.
Lemma keep_non_null : forall l n v a, fresh n l -> set_non_null n v (keep l) = Ok a -> a = keep (l ++ [(n, text_of v)]).
Proof.
  intros l n v a F H. unfold set_non_null in H.
  destruct v; try (eapply keep_set; eassumption). injection H as <-. apply keep_skip.
Qed.
Lemma shown_py : forall v, py_str v = shown v.
Proof. reflexivity. Qed.
Definition num_of (v : pyval) : option string := if negative v then None else Some (shown v).
Lemma non_neg_negative : forall v b, non_neg v = Ok b -> b = negb (negative v).
Proof.
  intros v b H. destruct v; try discriminate; injection H as <-; cbn; try reflexivity; try lia.
  fold (starts_minus shown). destruct (seqb shown "-0.0"); cbn; reflexivity.
Qed.
Lemma keep_non_neg : forall l n v a, fresh n l -> set_non_neg n v (keep l) = Ok a -> a = keep (l ++ [(n, num_of v)]).
Proof.
  intros l n v a F H. unfold set_non_neg in H. apply rbind_ok in H as (b & Hb & H). apply non_neg_negative in Hb as ->.
  unfold num_of. destruct (negative v); cbn in H; [injection H as <-; apply keep_skip|]. eapply keep_set; eassumption.
Qed.
Lemma keep_date : forall local l n v a, fresh n l -> set_date local n v (keep l) = Ok a ->
  exists s d, v = VStr s /\ strptime m_compact s = Ok d /\ a = keep (l ++ [(n, Some (isoformat (local d)))]).
Proof.
  intros local l n v a F H. unfold set_date in H. destruct v; try discriminate.
  apply rbind_ok in H as (t & Ht & H). unfold write_date in Ht. apply rbind_ok in Ht as (d & Hd & Ht). injection Ht as <-.
  exists s, d. split; [reflexivity|]. split; [assumption|]. eapply keep_set; eassumption.
Qed.
Lemma keep_bool : forall l n v a, fresh n l -> set_bool n v (keep l) = Ok a ->
  a = keep (l ++ [(n, Some (if truthy v then "true" else "false"))]).
Proof. intros l n v a F H. eapply keep_set; eassumption. Qed.

(** The attributes of a written history node. *)
Definition hist_attrs (i : nat) (lname : string) (h : hist) (date tc uv vi vt vv : string) : list (string * option string) :=
  [("historyNodeId", Some (show_int (Z.of_nat i))); ("logicalName", Some lname);
   ("physicalName", text_of (h_physical h)); ("kind", text_of (h_kind h));
   ("testStatus", Some (if truthy (h_status h) then "true" else "false"));
   ("simtime", num_of (h_simtime h)); ("timeunit", text_of (h_timeunit h)); ("runCwd", text_of (h_runcwd h));
   ("cpuTime", num_of (h_cputime h)); ("seed", text_of (h_seed h)); ("cmd", text_of (h_cmd h));
   ("args", text_of (h_args h)); ("compulsory", text_of (h_compulsory h)); ("date", Some date);
   ("userName", text_of (h_user h)); ("cost", num_of (h_cost h)); ("toolCategory", Some tc);
   ("ucisVersion", Some uv); ("vendorId", Some vi); ("vendorTool", Some vt); ("vendorToolVersion", Some vv);
   ("sameTests", num_of (h_same h)); ("comment", text_of (h_comment h))].

Lemma history_elem_ok : forall ev i h e, history_elem ev i h = Ok e ->
  exists ln ds d tc uv vi vt vv,
    h_logical h = VStr ln /\ h_date h = VStr ds /\ strptime m_compact ds = Ok d /\ h_toolcat h = VStr tc /\
    h_version h = VStr uv /\ h_vendor h = VStr vi /\ h_vtool h = VStr vt /\ h_vtoolver h = VStr vv /\
    e = Elem "historyNodes" (keep (hist_attrs i ln h (isoformat (env_local ev d)) tc uv vi vt vv)) None [].
Proof.
  intros ev i h e H. unfold history_elem in H.
  apply rbind_ok in H as (a1 & E & H). apply (keep_set []) in E; [|reflexivity]. subst a1.
  apply rbind_ok in H as (a & E & H). apply keep_val in E as (ln & L & ->); [|reflexivity].
  apply rbind_ok in H as (a & E & H). apply keep_non_null in E; [|reflexivity]. subst a.
  apply rbind_ok in H as (a & E & H). apply keep_non_null in E; [|reflexivity]. subst a.
  apply rbind_ok in H as (a & E & H). apply keep_bool in E; [|reflexivity]. subst a.
  apply rbind_ok in H as (a & E & H). apply keep_non_neg in E; [|reflexivity]. subst a.
  apply rbind_ok in H as (a & E & H). apply keep_non_null in E; [|reflexivity]. subst a.
  apply rbind_ok in H as (a & E & H). apply keep_non_null in E; [|reflexivity]. subst a.
  apply rbind_ok in H as (a & E & H). apply keep_non_neg in E; [|reflexivity]. subst a.
  apply rbind_ok in H as (a & E & H). apply keep_non_null in E; [|reflexivity]. subst a.
  apply rbind_ok in H as (a & E & H). apply keep_non_null in E; [|reflexivity]. subst a.
  apply rbind_ok in H as (a & E & H). apply keep_non_null in E; [|reflexivity]. subst a.
  apply rbind_ok in H as (a & E & H). apply keep_non_null in E; [|reflexivity]. subst a.
  apply rbind_ok in H as (a & E & H). apply keep_date in E as (ds & d & D & P & ->); [|reflexivity].
  apply rbind_ok in H as (a & E & H). apply keep_non_null in E; [|reflexivity]. subst a.
  apply rbind_ok in H as (a & E & H). apply keep_non_neg in E; [|reflexivity]. subst a.
  apply rbind_ok in H as (a & E & H). apply keep_val in E as (tc & T & ->); [|reflexivity].
  apply rbind_ok in H as (a & E & H). apply keep_val in E as (uv & U & ->); [|reflexivity].
  apply rbind_ok in H as (a & E & H). apply keep_val in E as (vi & V & ->); [|reflexivity].
  apply rbind_ok in H as (a & E & H). apply keep_val in E as (vt & VT & ->); [|reflexivity].
  apply rbind_ok in H as (a & E & H). apply keep_val in E as (vv & VV & ->); [|reflexivity].
  apply rbind_ok in H as (a & E & H). apply keep_non_neg in E; [|reflexivity]. subst a.
  apply rbind_ok in H as (a & E & H). apply keep_non_null in E; [|reflexivity]. subst a.
  injection H as <-. exists ln, ds, d, tc, uv, vi, vt, vv. auto 12.
Qed.

Lemma hist_attrs_nodup : forall i ln h date tc uv vi vt vv, NoDup (map fst (hist_attrs i ln h date tc uv vi vt vv)).
Proof.
  intros. cbn [hist_attrs map fst].
  repeat (constructor; [cbn [In]; intros F; repeat (destruct F as [F|F]; [discriminate|]); exact F|]). constructor.
Qed.

Section Read.
  Variable to_float : string -> option string.

  Lemma set_if_text : forall f name e h v, get_attr name e = text_of v ->
    set_if_ex f name e h = match v with VNone => h | _ => hist_set f (VStr (shown v)) h end.
  Proof. intros f name e h v H. unfold set_if_ex. rewrite H. now destruct v. Qed.

  Definition num_back (default v : pyval) : pyval :=
    if negative v then default else match to_float (shown v) with Some x => VFloat x | None => default end.
  Definition int_back (default v : pyval) : pyval :=
    if negative v then default else match py_int (shown v) with Ok z => VInt z | Err _ => default end.

  (** What reading the written node gives. *)
  Definition back (local : dt -> dt) (h : hist) (d : dt) : hist :=
    Hist None (h_logical h) (as_text (h_physical h)) (as_text (h_kind h)) (VBool (truthy (h_status h)))
         (num_back (VFloat "-1.0") (h_simtime h)) (as_text (h_timeunit h)) (as_text (h_runcwd h))
         (num_back (VFloat "-1.0") (h_cputime h)) (as_text (h_seed h)) (as_text (h_cmd h)) (as_text (h_args h))
         (as_text (h_compulsory h)) (VStr (compact (local d))) (as_text (h_user h)) (num_back (VInt (-1)) (h_cost h))
         (h_toolcat h) (VStr "1.0") (h_vendor h) (h_vtool h) (h_vtoolver h) (int_back (VInt (-1)) (h_same h))
         (as_text (h_comment h)).

  Lemma set_if_get : forall f name e h v, get_attr name e = text_of v -> hist_get f h = VNone ->
    set_if_ex f name e h = hist_set f (as_text v) h.
  Proof.
    intros f name e h v H N. unfold set_if_ex. rewrite H. destruct v; try reflexivity.
    cbn. destruct h, f; cbn in N; rewrite N; reflexivity.
  Qed.
  Lemma set_float_get : forall f name e h v, get_attr name e = num_of v ->
    (negative v = false -> to_float (shown v) <> None) ->
    set_float_if_ex to_float f name e h = Ok (hist_set f (num_back (hist_get f h) v) h).
  Proof.
    intros f name e h v H R. unfold set_float_if_ex, num_back. rewrite H. unfold num_of. destruct (negative v).
    - destruct h, f; reflexivity.
    - destruct (to_float (shown v)); [reflexivity|]. now contradiction R.
  Qed.
  Lemma set_int_get : forall f name e h v, get_attr name e = num_of v ->
    (negative v = false -> exists z, py_int (shown v) = Ok z) ->
    set_int_if_ex f name e h = Ok (hist_set f (int_back (hist_get f h) v) h).
  Proof.
    intros f name e h v H R. unfold set_int_if_ex, int_back. rewrite H. unfold num_of. destruct (negative v).
    - destruct h, f; reflexivity.
    - destruct R as (z & ->); reflexivity.
  Qed.

  Theorem read_written_node : forall ev i h e, (forall d, valid_dt d = true -> valid_dt (env_local ev d) = true) ->
    history_elem ev i h = Ok e -> numbers_readable to_float h ->
    exists ds d, h_date h = VStr ds /\ strptime m_compact ds = Ok d /\
      read_history_node to_float e = Ok (back (env_local ev) h d).
  Proof.
    intros ev i h e LV H [RF RI]. apply history_elem_ok in H as (ln & ds & d & tc & uv & vi & vt & vv & L & D & P & T & U & V & VT & VV & ->).
    exists ds, d. split; [assumption|]. split; [assumption|].
    set (l := hist_attrs i ln h (isoformat (env_local ev d)) tc uv vi vt vv).
    assert (G : forall n, get_attr n (Elem "historyNodes" (keep l) None []) = match dget n l with Some o => o | None => None end)
      by (intros n; apply keep_get, hist_attrs_nodup).
    set (e := Elem "historyNodes" (keep l) None []) in *.
    assert (A : forall n s, dget n l = Some (Some s) -> attrib n e = Ok s).
    { intros n s E. specialize (G n). rewrite E in G. unfold attrib, dindex. unfold get_attr in G. now rewrite G. }
    assert (GT : forall n o, dget n l = Some o -> get_attr n e = o) by (intros n o E; rewrite G, E; reflexivity).
    clear G. clearbody e.
    unfold read_history_node.
    unfold get_attr_bool. rewrite (A "testStatus" _ eq_refl). cbn [rbind].
    unfold get_attr_val. rewrite (GT "logicalName" _ eq_refl).
    rewrite (set_float_get HSimTime "simtime" e _ (h_simtime h) (GT "simtime" _ eq_refl)) by (apply RF; auto). cbn [rbind].
    rewrite (set_if_get HTimeUnit "timeunit" e _ (h_timeunit h) (GT "timeunit" _ eq_refl)) by reflexivity.
    rewrite (set_if_get HRunCwd "runCwd" e _ (h_runcwd h) (GT "runCwd" _ eq_refl)) by reflexivity.
    rewrite (set_float_get HCpuTime "cpuTime" e _ (h_cputime h) (GT "cpuTime" _ eq_refl)) by (apply RF; auto). cbn [rbind].
    rewrite (set_if_get HSeed "seed" e _ (h_seed h) (GT "seed" _ eq_refl)) by reflexivity.
    rewrite (set_if_get HCmd "cmd" e _ (h_cmd h) (GT "cmd" _ eq_refl)) by reflexivity.
    rewrite (set_if_get HArgs "args" e _ (h_args h) (GT "args" _ eq_refl)) by reflexivity.
    rewrite (set_if_get HCompulsory "compulsory" e _ (h_compulsory h) (GT "compulsory" _ eq_refl)) by reflexivity.
    unfold get_attr_date. rewrite (GT "date" _ eq_refl). unfold read_date.
    rewrite iso_parse by (apply LV; eapply strptime_valid; exact P). cbn [rbind].
    rewrite (set_if_get HUserName "userName" e _ (h_user h) (GT "userName" _ eq_refl)) by reflexivity.
    rewrite (set_float_get HCost "cost" e _ (h_cost h) (GT "cost" _ eq_refl)) by (apply RF; auto). cbn [rbind].
    rewrite (A "toolCategory" _ eq_refl). cbn [rbind]. rewrite (A "vendorId" _ eq_refl). cbn [rbind].
    rewrite (A "vendorTool" _ eq_refl). cbn [rbind]. rewrite (A "vendorToolVersion" _ eq_refl). cbn [rbind].
    rewrite (set_int_get HSameTests "sameTests" e _ (h_same h) (GT "sameTests" _ eq_refl)) by exact RI. cbn [rbind].
    rewrite (set_if_get HComment "comment" e _ (h_comment h) (GT "comment" _ eq_refl)) by reflexivity.
    rewrite (GT "physicalName" _ eq_refl), (GT "kind" _ eq_refl).
    unfold back. rewrite L, T, V, VT, VV.
    assert (TX : forall v, match text_of v with Some s => VStr s | None => VNone end = as_text v) by (now destruct v).
    rewrite !TX.
    assert (B : seqb (if truthy (h_status h) then "true" else "false") "true" = truthy (h_status h))
      by (now destruct (truthy (h_status h))).
    rewrite B. reflexivity.
  Qed.

  Lemma truthy_spec : forall v, truthy v = true <-> counts_as_true v.
  Proof.
    assert (Z0 : forall z, negb (z =? 0)%Z = true <-> z <> 0%Z) by (intros z; rewrite negb_true_iff; apply Z.eqb_neq).
    assert (S0 : forall s t, negb (seqb s t) = true <-> s <> t) by (intros s t; rewrite negb_true_iff; apply String.eqb_neq).
    intros v. destruct v; cbn [truthy]; split; intros H; try discriminate; try (now inversion H); rewrite ?negb_orb, ?andb_true_iff, ?Z0, ?S0 in *;
      try (now constructor); try (inversion H; subst; now rewrite ?Z0, ?S0).
    all: try (subst; now constructor). all: try (destruct H; now constructor).
  Qed.

  Lemma back_spec : forall local h ds d, numbers_readable to_float h -> h_date h = VStr ds -> strptime m_compact ds = Ok d ->
    hist_back to_float local h (back local h d).
  Proof.
    intros local h ds d [RF RI] D P. unfold hist_back, back. cbn [h_parent h_logical h_physical h_kind h_status h_simtime h_timeunit h_runcwd
      h_cputime h_seed h_cmd h_args h_compulsory h_date h_user h_cost h_toolcat h_version h_vendor h_vtool h_vtoolver h_same h_comment].
    assert (N : forall df v, (v = h_simtime h \/ v = h_cputime h \/ v = h_cost h) -> number_back to_float df v (num_back df v)).
    { intros df v I. unfold number_back, num_back. destruct (negative v) eqn:E; [reflexivity|].
      specialize (RF v I E). destruct (to_float (shown v)) as [x|]; [|now contradiction RF]. now exists x. }
    repeat (split; [first [reflexivity | apply N; auto | exists ds, d; auto; fail | (exists (truthy (h_status h)); split; [reflexivity|apply truthy_spec])]|]). split; [|reflexivity].
    unfold integer_back, int_back. destruct (negative (h_same h)); [reflexivity|]. destruct (RI eq_refl) as (z & ->). now exists z.
  Qed.
End Read.

Lemma text_plain : forall v, text_or_none v -> as_text v = v.
Proof. intros v [->|(s & ->)]; reflexivity. Qed.

(** A node that has the types the reader produces comes back as it was. *)
Lemma back_plain : forall to_float local h ds d, plain_hist to_float h -> h_date h = VStr ds ->
  strptime m_compact ds = Ok d -> compact (local d) = ds -> back to_float local h d = h.
Proof.
  intros tf local h ds d (P0 & P1 & P2 & (b & P3) & P4 & P5 & P6 & P7 & P8 & P9 & P10 & P11 & P12 & P13 & P14 & P15 & P16) D P E.
  unfold back. rewrite !text_plain by assumption. rewrite E, <- D, <- P0, <- P14, P3. cbn [truthy]. rewrite <- P3.
  assert (F : forall v, float_or_unset tf v -> num_back tf (VFloat "-1.0") v = v).
  { intros v [->|(s & -> & N & T)]; [reflexivity|]. unfold num_back. rewrite N. cbn [shown]. now rewrite T. }
  rewrite !F by assumption.
  assert (num_back tf (VInt (-1)) (h_cost h) = h_cost h) as ->.
  { destruct P13 as [->|(s & E1 & N & T)]; [reflexivity|]. unfold num_back. rewrite N, E1. cbn [shown]. now rewrite T. }
  assert (int_back (VInt (-1)) (h_same h) = h_same h) as ->.
  { destruct P15 as [->|(z & Z0 & ->)]; [reflexivity|]. unfold int_back. cbn [negative shown].
    rewrite (proj2 (Z.ltb_ge z 0) Z0), py_int_show. reflexivity. }
  now destruct h.
Qed.

Lemma plain_readable : forall to_float h, plain_hist to_float h -> numbers_readable to_float h.
Proof.
  intros tf h (P0 & P1 & P2 & (b & P3) & P4 & P5 & P6 & P7 & P8 & P9 & P10 & P11 & P12 & P13 & P14 & P15 & P16). split.
  - assert (F : forall v, float_or_unset tf v -> negative v = false -> tf (shown v) <> None).
    { intros v [->|(s & -> & N & T)]; [discriminate|]. intros _. cbn. congruence. }
    intros v [->|[->| ->]]; [now apply F|now apply F|].
    destruct P13 as [->|(s & -> & N & T)]; [discriminate|]. intros _. cbn. congruence.
  - destruct P15 as [->|(z & Z0 & ->)]; [discriminate|]. intros _. exists z. apply py_int_show.
Qed.
