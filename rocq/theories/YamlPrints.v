(** What the YAML loader prints: nothing if it succeeds, and at most one warning. *)
From Verif Require Import Base Dict Consts Db Yaml.
Local Open Scope string_scope.
Local Open Scope list_scope.

Lemma app_end s : (s ++ "")%string = s.
Proof. induction s as [|c s IH]; cbn; congruence. Qed.
Lemma no_instances_raises base g : yg_insts g = None -> process_covergroup base g = Err TypeError.
Proof. intros E. unfold process_covergroup. rewrite E. reflexivity. Qed.
Lemma warnings_cons k g gs : warnings k (g :: gs) =
  match yg_insts g with None => warning (yg_name g) | Some _ => match process_covergroup [1; k] g with Ok _ => warnings (S k) gs | Err _ => "" end end.
Proof.
  cbn [warnings]. destruct (yg_insts g) as [is|] eqn:E; [reflexivity|]. rewrite (no_instances_raises [1; k] g E). apply app_end.
Qed.
Lemma warnings_ok gs : forall cgs0 cgs,
  fold_res (fun cgs g => let* s := process_covergroup [1; List.length cgs] g in Ok (cgs ++ [s])) gs cgs0 = Ok cgs -> warnings (List.length cgs0) gs = "".
Proof.
  induction gs as [|g gs IH]; intros cgs0 cgs H; [reflexivity|]. rewrite warnings_cons. cbn [fold_res] in H.
  destruct (yg_insts g) as [is|] eqn:E; [|rewrite (no_instances_raises _ g E) in H; discriminate].
  destruct (process_covergroup [1; List.length cgs0] g) as [s|e]; cbn [rbind] in H; [|discriminate]. apply IH in H. rewrite app_length, Nat.add_1_r in H. exact H.
Qed.
Lemma warnings_cases gs : forall k, warnings k gs = "" \/ exists n, warnings k gs = warning n.
Proof.
  induction gs as [|g gs IH]; intros k; [now left|]. rewrite warnings_cons. destruct (yg_insts g); [|right; now exists (yg_name g)].
  destruct (process_covergroup [1; k] g); [apply IH|now left].
Qed.
Lemma load_quiet v d : load v = Ok d -> load_prints v = "".
Proof.
  unfold load, load_prints. destruct (jvalid coverage_schema v); [|reflexivity]. destruct (d_doc v) as [[gs|]|e]; cbn [rbind build]; try discriminate. intros H.
  destruct (fold_res _ (opt_list gs) []) as [cgs|] eqn:F in H; [|discriminate]. exact (warnings_ok _ _ _ F).
Qed.
Lemma load_prints_cases v : load_prints v = "" \/ exists n, load_prints v = warning n.
Proof.
  unfold load_prints. destruct (jvalid coverage_schema v); [|now left]. destruct (d_doc v) as [[gs|]|e]; [apply warnings_cases|now left|now left].
Qed.
