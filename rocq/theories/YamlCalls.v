(** The YAML reader as the program it is (ucis/yaml/yaml_reader.py): an object that makes
    a database by API calls, one after the other, and may be used again.  [Yaml] gives the
    same databases without the calls; P_YamlCalls proves it.

    The state of the reader is the database of its last reading (self.db); cg_default_du
    and cg_default_inst are set and used within one reading.  The tallies of lines 116-217,
    which make no calls, are those of [Yaml]; its printing is left out. *)
From Verif Require Import Base Dict Consts Db Hist Api Yaml.
Set Implicit Arguments.
Local Open Scope string_scope.
Local Open Scope list_scope.

Definition call (o : op) : ST db out := fun d => step d o.
(** A call that makes a scope. *)
Definition made (o : op) : ST db handle :=
  r <- call o ;; match r with OScope h => sret h | _ => sraise TypeError end.

Section SFold.
  Context {S A B : Type} (f : B -> A -> ST S B).
  Fixpoint sfold (l : list A) (b : B) : ST S B :=
    match l with
    | [] => sret b
    | x :: t => b' <- f b x ;; sfold t b'
    end.
End SFold.

(** Lines 291-299, 301-309, 311-319 and 341-348 *)
Definition bin_calls (at_least : Z) (kind : N) (p : handle) (bins : option (list ybin)) : ST db unit :=
  sfor (fun b => call (CreateBin p (yb_name b) None at_least (yb_count b) kind) ;;; sret tt) (opt_list bins).

(** Lines 273-321 record_coverpoint *)
Definition point_calls (parent : handle) (name : string) (atleast : option Z) (bins ignore illegal : option (list ybin)) : ST db handle :=
  let a := at_least_or_1 atleast in
  p <- made (CreateCoverpoint parent name None 1 SRC_OTHER) ;;
  bin_calls a CVGBIN p bins ;;;
  bin_calls a IGNOREBIN p ignore ;;;
  bin_calls a ILLEGALBIN p illegal ;;;
  sret p.
(** Lines 323-350 record_cross *)
Definition cross_calls (parent : handle) (points : list handle) (name : string) (atleast : option Z) (bins : option (list ybin)) : ST db handle :=
  c <- made (CreateCross parent name None 1 SRC_OTHER points) ;;
  bin_calls (at_least_or_1 atleast) CVGBIN c bins ;;;
  sret c.

(** Lines 236-243 and 262-269; [m] is cp_n_scope_m *)
Definition crossed (m : dict handle) (names : list string) : res (list handle) :=
  traverse (fun n => match dget n m with Some h => Ok h | None => Err RaisedException end) names.

(** Lines 250-271: one covergroup instance *)
Definition inst_calls (group : handle) (weight : Z) (m : dict handle) (i : yinst) : ST db (dict handle) :=
  ci <- made (CreateCoverInstance group (yi_name i) None weight SRC_OTHER) ;;
  m <- sfold (fun m p => h <- point_calls ci (yp_name p) (yp_atleast p) (yp_bins p) (yp_ignore p) (yp_illegal p) ;;
                         sret (dset (yp_name p) h m)) (opt_list (yi_points i)) m ;;
  sfor (fun c => points <- slift (let* ns := match yc_points c with Some ns => Ok ns | None => Err TypeError end in crossed m ns) ;;
                 cross_calls ci points (yc_name c) (yc_atleast c) (yc_bins c) ;;; sret tt) (opt_list (yi_crosses i)) ;;;
  sret m.

(** Lines 108-271 process_covergroup *)
Definition group_calls (inst : handle) (g : ygroup) : ST db unit :=
  let weight := match yg_weight g with Some w => w | None => 1%Z end in
  types <- slift (fold_res type_inst (opt_list (yg_insts g)) ([], [])) ;;
  group <- made (CreateCovergroup inst (yg_name g) None weight SRC_OTHER) ;;
  m <- sfold (fun m (p : string * tpoint) =>
                h <- point_calls group (fst p) None (t_bins (snd p)) (t_ignore (snd p)) (t_illegal (snd p)) ;;
                sret (dset (fst p) h m)) (fst types) [] ;;
  sfor (fun c : string * tcross =>
          points <- slift (crossed m (tc_points (snd c))) ;;
          cross_calls group points (fst c) None (tc_bins (snd c)) ;;; sret tt) (snd types) ;;;
  match yg_insts g with
  | None => sraise TypeError                                            (* line 249 *)
  | Some is => sfold (inst_calls group weight) is [] ;;; sret tt
  end.

(** Lines 76-103 *)
Definition doc_calls (doc : ydoc) : ST db unit :=
  du <- made (CreateScope [] "du" None 1 SRC_OTHER DU_MODULE DU_FLAGS) ;;
  inst <- made (CreateInstance [] "cg_inst" None 1 SRC_OTHER INSTANCE (Some du) INST_ONCE) ;;
  match doc with
  | None => sraise AttributeError                                       (* line 101 *)
  | Some groups => sfor (group_calls inst) (opt_list groups)
  end.

(** Lines 62-105 load: a document that is not valid is found out before the new
    database is made *)
Definition load_with (v : jval) : ST (option db) db := fun st =>
  if jvalid coverage_schema v then
    match d_doc v with
    | Err e => (st, Err e)
    | Ok doc => let '(d, r) := doc_calls doc empty_db in
                (Some d, match r with Ok _ => Ok d | Err e => Err e end)
    end
  else (st, Err LibraryError).

(** One reader for several documents, used on after exceptions. *)
Fixpoint load_all (docs : list jval) (st : option db) : option db * list (res db) :=
  match docs with
  | [] => (st, [])
  | v :: t => let '(st, r) := load_with v st in let '(st, rs) := load_all t st in (st, r :: rs)
  end.
