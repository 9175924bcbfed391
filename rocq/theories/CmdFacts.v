(** Facts about the commands. *)
From Verif Require Import Base Dict Consts Db Report Text Json Xml XmlWriter XmlFactory Merge Yaml YamlPrints BaseFacts Rgy Cmd CmdSpec.
Local Open Scope string_scope.
Local Open Scope list_scope.

(** ** Opening files *)
Lemma open_gzip : forall c, open_file c = Gzip <-> exists rest, c = String.append (bytes [31; 139]%N) rest.
Proof.
  intros c. unfold open_file, read_at, seqb. split.
  - destruct (String.eqb_spec (substring 0 2 c) (bytes [31; 139]%N)) as [E|_].
    + intros _. destruct c as [|a [|b c]]; try discriminate E. cbn in E. injection E as -> -> _. exists c. reflexivity.
    + destruct (_ && _); discriminate.
  - intros [rest ->]. cbn. destruct rest; reflexivity.
Qed.
Lemma open_lz4 : forall c, open_file c = Lz4 <-> exists rest, c = String.append (bytes [4; 34; 77; 24]%N) rest.
Proof.
  intros c. unfold open_file, read_at, seqb. split.
  - destruct (String.eqb_spec (substring 0 2 c) (bytes [31; 139]%N)) as [_|_]; [discriminate|].
    destruct (String.eqb_spec (substring 0 2 c) (bytes [4; 34]%N)) as [E|_]; [|discriminate].
    destruct (String.eqb_spec (substring 2 2 c) (bytes [77; 24]%N)) as [F|_]; [|discriminate]. intros _.
    destruct c as [|a [|b c]]; try discriminate E. cbn in E. injection E as -> -> _.
    destruct c as [|x [|y c]]; try discriminate F. cbn in F. injection F as -> -> _. exists c. reflexivity.
  - intros [rest ->]. cbn. destruct rest; reflexivity.
Qed.

(** ** Unknown formats *)
Lemma has_get : forall D (m : dict D) f, dmem f m = true -> exists d, dindex f m = Ok d.
Proof. intros D m f. unfold dmem, dindex. destruct (dget f m) as [d|]; [eauto|discriminate]. Qed.

Section Std.
  Variable parse : opening -> string -> res elem.
  Variable to_float : string -> option string.
  Variable print_doc : elem -> res string.
  Variable ev : env.
  Variable parse_yaml : string -> res jval.
  Variable writable : string -> bool.
  Variables (json txt : rpt_format).
  Notation std' := (std parse to_float print_doc ev parse_yaml writable json txt).
  Notation holds' := (holds parse to_float parse_yaml).
  Notation text' := (text_of print_doc ev).

  Lemma std_get : forall f, dindex f (rg_db std') =
    if String.eqb f "xml" then Ok (xml_format parse to_float print_doc ev writable)
    else if String.eqb f "libucis" then Ok lib_format
    else if String.eqb f "yaml" then Ok (yaml_format parse_yaml) else Err KeyError.
  Proof.
    intros f. unfold dindex. change (rg_db std') with
      [("xml", xml_format parse to_float print_doc ev writable); ("libucis", lib_format); ("yaml", yaml_format parse_yaml)].
    cbn [dget]. unfold seqb. destruct (String.eqb f "xml"), (String.eqb f "libucis"), (String.eqb f "yaml"); reflexivity.
  Qed.

  (** Reading leaves the files alone *)
  Definition said {A} (w w' : world) (r : res A) : Prop :=
    w_out w' = w_out w \/ (exists e, r = Err e) /\ exists g, w_out w' = String.append (w_out w) (warning g).
  Definition same {A} (w w' : world) (r : res A) : Prop := w_fs w' = w_fs w /\ said w w' r.
  Lemma same_ok A w w' (a : A) : same w w' (Ok a) -> w_fs w' = w_fs w /\ w_out w' = w_out w.
  Proof. intros (F & [S|((e & E) & _)]); [now split|discriminate]. Qed.
  Lemma same_err A B w w' (r : res A) e : (forall a, r <> Ok a) -> same w w' r -> same w w' (@Err B e).
  Proof. intros N (F & [S|(_ & S)]); (split; [exact F|]); [now left|right; split; [now exists e|exact S]]. Qed.
  (** The YAML reader *)
  Lemma yaml_read_run p w : yaml_read parse_yaml p w =
    match w_fs w p with
    | None => (w, Err OSError)
    | Some c => match parse_yaml c with
                | Err e => (log_read p w, Err e)
                | Ok v => (match load_prints v with "" => log_read p w | s => print s (log_read p w) end, load v)
                end
    end.
  Proof.
    unfold yaml_read, sbind, read_file, slift, sret, smod. destruct (w_fs w p) as [c|]; [|reflexivity]. destruct (parse_yaml c) as [v|]; [|reflexivity]. now destruct (load_prints v).
  Qed.
  Lemma yaml_read_ok p w c d : w_fs w p = Some c -> (let* v := parse_yaml c in load v) = Ok d -> yaml_read parse_yaml p w = (log_read p w, Ok d).
  Proof.
    intros F H. rewrite yaml_read_run, F. destruct (parse_yaml c) as [v|]; [|discriminate]. cbn [rbind] in H. now rewrite (load_quiet _ _ H), H.
  Qed.
  Lemma std_read : forall f desc p w w' r, dindex f (rg_db std') = Ok desc -> df_read desc p w = (w', r) ->
    same w w' r /\ (w_reads w' = w_reads w \/ w_reads w' = w_reads w ++ [p]) /\ forall d, r = Ok d <-> holds' f w p d.
  Proof.
    intros f desc p w w' r. rewrite std_get. unfold holds, decode.
    destruct (String.eqb_spec f "xml") as [->|N1]; [|destruct (String.eqb_spec f "libucis") as [->|N2]; [|destruct (String.eqb_spec f "yaml") as [->|N3]]];
      intros E; try discriminate E; injection E as <-; cbn [df_read xml_format lib_format yaml_format].
    - unfold xml_read, sbind, read_file, slift. destruct (w_fs w p) as [c|] eqn:Ec; intros E; injection E as <- <-.
      + split; [split; [reflexivity|now left]|]. split; [now right|]. intros d. split; [intros E; split; [now left|]; exists c; now split|].
        intros (_ & c' & E & F). congruence.
      + split; [split; [reflexivity|now left]|]. split; [now left|]. intros d. split; [discriminate|]. intros (_ & c & E & _). discriminate.
    - intros E. injection E as <- <-. split; [split; [reflexivity|now left]|]. split; [now left|]. intros d. split; [discriminate|]. intros ([E|E] & _); discriminate.
    - rewrite yaml_read_run. destruct (w_fs w p) as [c|] eqn:Ec; [|intros E; injection E as <- <-].
      + destruct (parse_yaml c) as [v|e] eqn:Ev; intros E; injection E as <- <-.
        * split; [|split].
          -- destruct (load_prints_cases v) as [Q|(g & Q)]; rewrite Q; [split; [reflexivity|now left]|]. split; [reflexivity|]. right. split; [|now exists g].
             destruct (load v) as [d|e] eqn:L; [|now exists e]. rewrite (load_quiet _ _ L) in Q. discriminate Q.
          -- right. now destruct (load_prints v).
          -- intros d. split; [intros E; split; [now right|]; exists c; split; [reflexivity|]; cbn; now rewrite Ev|]. intros (_ & c' & E & F). injection E as <-. cbn in F. now rewrite Ev in F.
        * split; [split; [reflexivity|now left]|]. split; [now right|]. intros d. split; [discriminate|]. intros (_ & c' & E & F). injection E as <-. cbn in F. now rewrite Ev in F.
      + split; [split; [reflexivity|now left]|]. split; [now left|]. intros d. split; [discriminate|]. intros (_ & c & E & _). discriminate.
  Qed.
  Lemma wrap_inv : forall A (m : M A) w w' r, wrap m w = (w', r) -> exists r0, m w = (w', r0) /\ forall a, r = Ok a <-> r0 = Ok a.
  Proof.
    intros A m w w' r H. unfold wrap in H. destruct (m w) as [w1 [a|e]]; injection H as <- <-; [now exists (Ok a)|]. exists (Err e). split; [reflexivity|]. split; discriminate.
  Qed.
  Lemma holds_same : forall f w w' p d, w_fs w' = w_fs w -> (holds' f w' p d <-> holds' f w p d).
  Proof. intros f w w' p d E. unfold holds. now rewrite E. Qed.

  Lemma std_write : forall f desc d out w, dindex f (rg_db std') = Ok desc -> df_create desc = Ok tt ->
    df_write desc d out w =
      if String.eqb f "xml" then
        if writable out then
          match text' d with
          | Ok text => (write_file out text (write_file out "" w), Ok tt)
          | Err e => (write_file out "" w, Err e)
          end
        else (w, Err OSError)
      else (w, Err RaisedException).
  Proof.
    intros f desc d out w. rewrite std_get. destruct (String.eqb f "xml"); [|destruct (String.eqb f "libucis"); [|destruct (String.eqb f "yaml")]];
      intros E; try discriminate E; injection E as <-; intros C; try discriminate C.
    - cbn [df_write xml_format]. unfold xml_write, open_write, sbind, slift, smod. fold (text' d). destruct (writable out); [|reflexivity].
      unfold text_of. destruct (let* doc := write ev d in print_doc doc); reflexivity.
    - reflexivity.
  Qed.

  (** How writing the merged database ends *)
  Definition written (outf : string) (dbs : list db) (out : string) (w w' : world) (r : res unit) : Prop :=
    match r with
    | Ok _ => outf = "xml" /\ writable out = true /\
              exists d text, Merge.merge empty_db dbs = (d, Ok tt) /\ text' d = Ok text /\ w_fs w' out = Some text
    | Err _ => w_fs w' out = w_fs w out \/
               outf = "xml" /\ writable out = true /\ w_fs w' out = Some "" /\
               exists d e, Merge.merge empty_db dbs = (d, Ok tt) /\ text' d = Err e
    end.
  Lemma finish : forall f desc dbs out w w' r, dindex f (rg_db std') = Ok desc -> forall g : M unit -> M unit,
    (g = (fun m => m) \/ g = (fun m => wrap m)) ->
    (slift (df_create desc) ;;; (let '(out_db, r0) := Merge.merge empty_db dbs in g (slift r0) ;;; df_write desc out_db out)) w = (w', r) ->
    written f dbs out w w' r /\ (forall p, p <> out -> w_fs w' p = w_fs w p) /\ w_out w' = w_out w /\ w_reads w' = w_reads w /\
    (r = Ok tt <-> f = "xml" /\ writable out = true /\ exists d text, Merge.merge empty_db dbs = (d, Ok tt) /\ text' d = Ok text).
  Proof.
    intros f desc dbs out w w' r G g Hg H. unfold sbind in H. unfold slift at 1 in H.
    assert (NC : df_create desc <> Ok tt -> f <> "xml").
    { intros N ->. rewrite std_get in G. cbn in G. injection G as <-. now apply N. }
    destruct (df_create desc) as [[]|e] eqn:C.
    2: { injection H as <- <-. cbn. split; [now left|]. split; [reflexivity|]. split; [reflexivity|]. split; [reflexivity|]. split; [discriminate|].
         intros [E _]. exfalso. apply NC; [discriminate|assumption]. }
    destruct (Merge.merge empty_db dbs) as [d r0] eqn:Mg.
    assert (X : exists r1, g (slift r0) w = (w, r1) /\ (r1 = Ok tt <-> r0 = Ok tt)).
    { destruct Hg as [Hg|Hg]; subst g; unfold wrap, slift; destruct r0 as [[]|e]; eexists; (split; [reflexivity|]); split; congruence. }
    destruct X as (r1 & Er & Ei). rewrite Er in H. destruct r1 as [[]|e].
    2: { injection H as <- <-. cbn. split; [now left|]. split; [reflexivity|]. split; [reflexivity|]. split; [reflexivity|]. split; [discriminate|].
         intros (_ & _ & d' & t & E & _). injection E as <- ->. destruct Ei as [_ Ei]. now specialize (Ei eq_refl). }
    assert (r0 = Ok tt) as -> by now apply Ei. rewrite (std_write f desc d out w G C) in H. unfold written.
    destruct (String.eqb_spec f "xml") as [->|N]; [|injection H as <- <-].
    2: { cbn. split; [now left|]. split; [reflexivity|]. split; [reflexivity|]. split; [reflexivity|]. split; [discriminate|]. intros [E _]. contradiction. }
    destruct (writable out) eqn:W; [|injection H as <- <-].
    2: { cbn. split; [now left|]. split; [reflexivity|]. split; [reflexivity|]. split; [reflexivity|]. split; [discriminate|]. intros (_ & E & _). discriminate. }
    destruct (text' d) as [text|e] eqn:T; injection H as <- <-.
    - cbn. split; [split; [reflexivity|]; split; [reflexivity|]; exists d, text; split; [exact Mg|]; split; [assumption|now rewrite String.eqb_refl]|].
      split; [intros p Np; apply String.eqb_neq in Np; now rewrite Np|]. split; [reflexivity|]. split; [reflexivity|].
      split; [|reflexivity]. intros _. split; [reflexivity|]. split; [reflexivity|]. now exists d, text.
    - cbn. split; [right; split; [reflexivity|]; split; [reflexivity|]; split; [now rewrite String.eqb_refl|]; exists d, e; now split|].
      split; [intros p Np; apply String.eqb_neq in Np; now rewrite Np|]. split; [reflexivity|]. split; [reflexivity|]. split; [discriminate|].
      intros (_ & _ & d' & t & E & F). injection E as <-. congruence.
  Qed.

  Lemma read_all_inv : forall f desc, dindex f (rg_db std') = Ok desc -> forall ps w w' r, read_all desc ps w = (w', r) ->
    same w w' r /\ (exists k, w_reads w' = w_reads w ++ firstn k ps) /\ forall ds, r = Ok ds <-> Forall2 (holds' f w) ps ds.
  Proof.
    intros f desc G. induction ps as [|p ps IH]; intros w w' r H.
    - injection H as <- <-. split; [split; [reflexivity|now left]|]. split; [exists 0; cbn; now rewrite app_nil_r|]. intros ds.
      split; [intros E; injection E as <-; constructor|]. intros F. inversion F. reflexivity.
    - cbn [read_all] in H. unfold sbind at 1 in H. destruct (wrap (df_read desc p) w) as [w1 r1] eqn:E1.
      apply wrap_inv in E1 as (r0 & E1 & Eq1). destruct (std_read _ _ _ _ _ _ G E1) as (S0 & L & Hd).
      assert (L1 : exists k, w_reads w1 = w_reads w ++ firstn k (p :: ps)) by (destruct L as [L|L]; rewrite L; [exists 0; cbn; now rewrite app_nil_r|now exists 1]).
      destruct r1 as [d|e]; [|injection H as <- <-].
      + unfold sbind in H. destruct (read_all desc ps w1) as [w2 r2] eqn:E2. assert (r0 = Ok d) as R0 by now apply Eq1. rewrite R0 in S0. apply same_ok in S0 as (S1 & S2).
        destruct (IH w1 w2 r2 E2) as ([T1 T2] & L2 & Hs). clear R0.
        assert (Sm : same w w2 r2) by (split; [congruence|]; unfold said in T2; now rewrite S2 in T2).
        assert (D : holds' f w p d) by (apply Hd; now apply Eq1).
        assert (Wr : w_reads w1 = w_reads w ++ [p]).
        { destruct L as [L|L]; [|assumption]. exfalso. clear -E1 Eq1 G L. assert (r0 = Ok d) as -> by now apply Eq1. revert G E1. rewrite std_get.
          destruct (String.eqb f "xml"); [|destruct (String.eqb f "libucis"); [|destruct (String.eqb f "yaml")]]; intros G; try discriminate G; injection G as <-;
            cbn [df_read xml_format lib_format yaml_format]; rewrite ?yaml_read_run; unfold xml_read, sbind, read_file, slift, sraise; try (intros E; discriminate E);
            destruct (w_fs w p) as [c|]; try (intros E; discriminate E); [|destruct (parse_yaml c) as [v|]; [|intros E; discriminate E]]; intros E; injection E as E _; rewrite <- E in L;
            [|destruct (load_prints v)]; cbn in L; apply (f_equal (@List.length string)) in L; rewrite app_length in L; cbn in L; lia. }
        assert (L3 : exists k, w_reads w2 = w_reads w ++ firstn k (p :: ps)) by (destruct L2 as [k L2]; exists (S k); rewrite L2, Wr, <- app_assoc; reflexivity).
        destruct r2 as [ds|e]; injection H as <- <-; (split; [first [exact Sm|apply same_ok in Sm as (Sm1 & Sm2); split; [exact Sm1|now left]|eapply same_err; [|exact Sm]; discriminate]|]); (split; [assumption|]); intros ds'.
        * split.
          -- intros E. injection E as <-. constructor; [assumption|]. pose proof (proj1 (Hs ds) eq_refl) as F. eapply Forall2_imp; [|exact F].
             intros a b. apply holds_same. congruence.
          -- intros F. inversion F as [|? d' ? ds2 F1 F2]; subst. f_equal. f_equal.
             ++ apply Hd in F1. assert (F3 : Ok d = Ok d') by (rewrite <- F1; symmetry; now apply Eq1). now injection F3.
             ++ assert (F3 : Ok ds = Ok ds2) by (apply Hs; eapply Forall2_imp; [|exact F2]; intros a b; apply holds_same; congruence). now injection F3.
        * split; [discriminate|]. intros F. inversion F as [|? d' ? ds2 F1 F2]; subst.
          assert (F3 : Err e = Ok ds2) by (apply Hs; eapply Forall2_imp; [|exact F2]; intros a b; apply holds_same; congruence). discriminate.
      + split; [eapply same_err; [|exact S0]; intros a E; apply Eq1 in E; discriminate|]. split; [assumption|]. intros ds. split; [discriminate|]. intros F. inversion F as [|? d' ? ds2 F1 F2]; subst.
        apply Hd in F1. apply Eq1 in F1. discriminate.
  Qed.
End Std.
