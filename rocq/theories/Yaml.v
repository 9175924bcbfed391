(** Reading coverage data in YAML (ucis/yaml/yaml_reader.py).  A document is what
    [yaml.load] gives, as far as it can be written as JSON (line 72 passes it
    through [json.dumps]). *)
From Verif Require Import Base Dict Consts Db.
Set Implicit Arguments.
Local Open Scope string_scope.
Local Open Scope list_scope.

(** ** Documents and their schema *)

Inductive jval :=
| JNull | JBool (b : bool) | JInt (z : Z) | JFloat (shown : string) | JStr (s : string)
| JArr (l : list jval) | JObj (fields : dict jval).

(** The part of JSON Schema that ucis/schema/coverage.json uses; references are
    replaced by what they refer to. *)
Inductive jschema :=
| TStr | TInt | TArr (items : jschema) | TObj (props : dict jschema) (required : list string).

(** [jsonschema.validate] (line 69): properties that are not listed are allowed. *)
Fixpoint jvalid (s : jschema) (v : jval) {struct s} : bool :=
  match s, v with
  | TStr, JStr _ => true
  | TInt, JInt _ => true
  | TArr t, JArr l => forallb (jvalid t) l
  | TObj props required, JObj fields =>
      forallb (fun n => dmem n fields) required &&
      forallb (fun p : string * jschema =>
                 match dget (fst p) fields with Some x => jvalid (snd p) x | None => true end) props
  | _, _ => false
  end.

(** schema/coverage.json *)
Definition bin_schema : jschema := TObj [("name", TStr); ("count", TInt)] ["name"; "count"].
Definition point_schema : jschema :=
  TObj [("name", TStr); ("atleast", TInt); ("bins", TArr bin_schema); ("ignorebins", TArr bin_schema);
        ("illegalbins", TArr bin_schema)] ["name"; "bins"].
Definition cross_schema : jschema :=
  TObj [("name", TStr); ("atleast", TInt); ("coverpoints", TArr TStr); ("bins", TArr bin_schema)]
       ["name"; "coverpoints"].
Definition inst_schema : jschema :=
  TObj [("name", TStr); ("coverpoints", TArr point_schema); ("crosses", TArr cross_schema)] ["name"].
Definition group_schema : jschema :=
  TObj [("name", TStr); ("weight", TInt); ("instances", TArr inst_schema)] ["name"].
Definition coverage_schema : jschema :=
  TObj [("coverage", TObj [("covergroups", TArr group_schema)] [])] [].

(** ** Objects (line 71-72)

    The objects of the python_jsonschema_objects namespace: a property that is
    not given is None.  Integers, strings and arrays are taken to behave like
    plain ones. *)
Record ybin := YBin { yb_name : string; yb_count : Z }.
Record ypoint := YPoint {
  yp_name : string; yp_atleast : option Z; yp_bins : option (list ybin);
  yp_ignore : option (list ybin); yp_illegal : option (list ybin) }.
Record ycross := YCross {
  yc_name : string; yc_atleast : option Z; yc_points : option (list string); yc_bins : option (list ybin) }.
Record yinst := YInst {
  yi_name : string; yi_points : option (list ypoint); yi_crosses : option (list ycross) }.
Record ygroup := YGroup { yg_name : string; yg_weight : option Z; yg_insts : option (list yinst) }.
(** [None]: no property "coverage"; [Some None]: no property "covergroups" *)
Definition ydoc := option (option (list ygroup)).

(** Reading one property; [LibraryError] cannot happen for a valid document. *)
Definition d_str (v : jval) : res string := match v with JStr s => Ok s | _ => Err LibraryError end.
Definition d_int (v : jval) : res Z := match v with JInt z => Ok z | _ => Err LibraryError end.
Definition d_arr {A} (f : jval -> res A) (v : jval) : res (list A) :=
  match v with JArr l => traverse f l | _ => Err LibraryError end.
Definition d_obj (v : jval) : res (dict jval) := match v with JObj o => Ok o | _ => Err LibraryError end.
Definition need {A} (n : string) (f : jval -> res A) (o : dict jval) : res A :=
  match dget n o with Some v => f v | None => Err LibraryError end.
Definition maybe {A} (n : string) (f : jval -> res A) (o : dict jval) : res (option A) :=
  match dget n o with Some v => let* x := f v in Ok (Some x) | None => Ok None end.

Definition d_bin (v : jval) : res ybin :=
  let* o := d_obj v in
  let* n := need "name" d_str o in
  let* c := need "count" d_int o in
  Ok (YBin n c).
Definition d_point (v : jval) : res ypoint :=
  let* o := d_obj v in
  let* n := need "name" d_str o in
  let* a := maybe "atleast" d_int o in
  let* b := maybe "bins" (d_arr d_bin) o in
  let* g := maybe "ignorebins" (d_arr d_bin) o in
  let* l := maybe "illegalbins" (d_arr d_bin) o in
  Ok (YPoint n a b g l).
Definition d_cross (v : jval) : res ycross :=
  let* o := d_obj v in
  let* n := need "name" d_str o in
  let* a := maybe "atleast" d_int o in
  let* p := maybe "coverpoints" (d_arr d_str) o in
  let* b := maybe "bins" (d_arr d_bin) o in
  Ok (YCross n a p b).
Definition d_inst (v : jval) : res yinst :=
  let* o := d_obj v in
  let* n := need "name" d_str o in
  let* p := maybe "coverpoints" (d_arr d_point) o in
  let* c := maybe "crosses" (d_arr d_cross) o in
  Ok (YInst n p c).
Definition d_group (v : jval) : res ygroup :=
  let* o := d_obj v in
  let* n := need "name" d_str o in
  let* w := maybe "weight" d_int o in
  let* i := maybe "instances" (d_arr d_inst) o in
  Ok (YGroup n w i).
Definition d_doc (v : jval) : res ydoc :=
  let* o := d_obj v in
  maybe "coverage" (fun c => let* o := d_obj c in maybe "covergroups" (d_arr d_group) o) o.

(** ** Type coverage from instance data *)

(** The objects cp_t of lines 127-184; [t_ignore] and [t_illegal] are the lists
    that lines 158 and 175 search. *)
Record tpoint := TPoint { t_bins : option (list ybin); t_ignore : option (list ybin); t_illegal : option (list ybin) }.
(** The objects cr_t of lines 192-217.  The keys of cr_t_bins_m are the names in
    the list of bins, because lines 216 and 217 add to both. *)
Record tcross := TCross { tc_points : list string; tc_bins : option (list ybin) }.

Definition found (n : string) (l : list ybin) : bool := existsb (fun b => seqb (yb_name b) n) l.
(** Add to the first bin of this name. *)
Fixpoint bump (n : string) (c : Z) (l : list ybin) : list ybin :=
  match l with
  | [] => []
  | b :: t => if seqb (yb_name b) n then YBin (yb_name b) (yb_count b + c) :: t else b :: bump n c t
  end.
Definition opt_list {A} (o : option (list A)) : list A := match o with Some l => l | None => [] end.

(** Lines 138-150 *)
Definition tally_bin (l : list ybin) (b : ybin) : list ybin :=
  if found (yb_name b) l then bump (yb_name b) (yb_count b) l
  else l ++ [YBin (yb_name b) (0 + yb_count b)].
(** Lines 155-167 and 172-184: the bin is searched in [own], but a new one is
    appended to [bins]. *)
Definition tally_other (st : option (list ybin) * list ybin) (b : ybin) : res (option (list ybin) * list ybin) :=
  let '(bins, own) := st in
  if found (yb_name b) own then Ok (bins, bump (yb_name b) (yb_count b) own)
  else match bins with
       | Some l => Ok (Some (l ++ [YBin (yb_name b) (0 + yb_count b)]), own)
       | None => Err AttributeError
       end.

(** Lines 135-184 *)
Definition tally_point (t : tpoint) (p : ypoint) : res tpoint :=
  let bins1 := match yp_bins p with
               | Some bs => Some (fold_left tally_bin bs (opt_list (t_bins t)))
               | None => t_bins t
               end in
  let* (bins2, ignore) :=
    match yp_ignore p with
    | Some bs => let* (x, y) := fold_res tally_other bs (bins1, opt_list (t_ignore t)) in Ok (x, Some y)
    | None => Ok (bins1, t_ignore t)
    end in
  let* (bins3, illegal) :=
    match yp_illegal p with
    | Some bs => let* (x, y) := fold_res tally_other bs (bins2, opt_list (t_illegal t)) in Ok (x, Some y)
    | None => Ok (bins2, t_illegal t)
    end in
  Ok (TPoint bins3 ignore illegal).

(** Lines 125-132 *)
Definition type_point (m : dict tpoint) (p : ypoint) : res (dict tpoint) :=
  let t := match dget (yp_name p) m with Some t => t | None => TPoint None None None end in
  let* t' := tally_point t p in
  Ok (dset (yp_name p) t' m).

(** Lines 209-217 *)
Definition tally_cross_bin (bins : option (list ybin)) (b : ybin) : res (option (list ybin)) :=
  if found (yb_name b) (opt_list bins) then Ok (option_map (bump (yb_name b) (yb_count b)) bins)
  else match bins with
       | Some l => Ok (Some (l ++ [YBin (yb_name b) (yb_count b)]))
       | None => Err AttributeError
       end.
(** Lines 187-217 *)
Definition type_cross (m : dict tcross) (c : ycross) : res (dict tcross) :=
  match yc_points c with
  | None => Err RaisedException
  | Some ps =>
      let t := match dget (yc_name c) m with
               | Some t => t
               | None => TCross ps (match yc_bins c with Some _ => Some [] | None => None end)
               end in
      let* bins := fold_res tally_cross_bin (opt_list (yc_bins c)) (tc_bins t) in
      Ok (dset (yc_name c) (TCross (tc_points t) bins) m)
  end.

(** Lines 123-217 *)
Definition type_inst (st : dict tpoint * dict tcross) (i : yinst) : res (dict tpoint * dict tcross) :=
  let '(ps, cs) := st in
  let* ps := fold_res type_point (opt_list (yi_points i)) ps in
  let* cs := fold_res type_cross (opt_list (yi_crosses i)) cs in
  Ok (ps, cs).

(** ** Scopes *)

Definition y_bins (at_least : Z) (kind : N) (bs : option (list ybin)) : list item :=
  map (fun b => new_bin (yb_name b) None at_least (yb_count b) kind) (opt_list bs).
Definition at_least_or_1 (a : option Z) : Z := match a with Some z => z | None => 1%Z end.

(** Lines 273-321 record_coverpoint: the scope it creates *)
Definition record_point (name : string) (atleast : option Z) (bins ignore illegal : option (list ybin)) : scope :=
  let a := at_least_or_1 atleast in
  Scope (s_attrs (new_coverpoint name None 1 SRC_OTHER))
        (y_bins a CVGBIN bins ++ y_bins a IGNOREBIN ignore ++ y_bins a ILLEGALBIN illegal) [] [].
(** Lines 323-350 record_cross; createBin's default kind is CVGBIN *)
Definition record_cross (name : string) (atleast : option Z) (refs : list cpref) (bins : option (list ybin)) : scope :=
  Scope (s_attrs (new_cross name None 1 SRC_OTHER refs)) (y_bins (at_least_or_1 atleast) CVGBIN bins) [] [].

(** Lines 236-243 and 262-269; [m] is cp_n_scope_m *)
Definition y_resolve (m : dict handle) (names : list string) : res (list cpref) :=
  traverse (fun n => match dget n m with Some h => Ok (CpRef h n) | None => Err RaisedException end) names.

(** Lines 229-233: the type-level coverpoints; [base] is the path of the covergroup *)
Definition type_point_scopes (ps : dict tpoint) : list scope :=
  map (fun p : string * tpoint => record_point (fst p) None (t_bins (snd p)) (t_ignore (snd p)) (t_illegal (snd p))) ps.
Definition positions (base : handle) (k : nat) (names : list string) (m : dict handle) : dict handle :=
  fst (fold_left (fun (st : dict handle * nat) n => (dset n (base ++ [snd st]) (fst st), S (snd st))) names (m, k)).
(** Lines 235-245 *)
Definition type_cross_scopes (m : dict handle) (cs : dict tcross) : res (list scope) :=
  traverse (fun c : string * tcross =>
              let* refs := y_resolve m (tc_points (snd c)) in
              Ok (record_cross (fst c) None refs (tc_bins (snd c)))) cs.

(** Lines 249-271: one covergroup instance; [cp_n_scope_m] is kept from one
    instance to the next *)
Definition record_inst (base : handle) (weight : Z) (st : dict handle * list scope) (i : yinst)
  : res (dict handle * list scope) :=
  let '(m, kids) := st in
  let me := base ++ [List.length kids] in
  let points := opt_list (yi_points i) in
  let m := positions me 0 (map yp_name points) m in
  let* crosses :=
    traverse (fun c => let* ns := match yc_points c with Some ns => Ok ns | None => Err TypeError end in
                       let* refs := y_resolve m ns in
                       Ok (record_cross (yc_name c) (yc_atleast c) refs (yc_bins c)))
             (opt_list (yi_crosses i)) in
  let scope_i :=
    Scope (s_attrs (new_coverinstance (yi_name i) None weight SRC_OTHER)) [] []
          (map (fun p => record_point (yp_name p) (yp_atleast p) (yp_bins p) (yp_ignore p) (yp_illegal p)) points
           ++ crosses) in
  Ok (m, kids ++ [scope_i]).

(** Lines 108-271 process_covergroup; [base] is the path of the new covergroup *)
Definition process_covergroup (base : handle) (g : ygroup) : res scope :=
  let weight := match yg_weight g with Some w => w | None => 1%Z end in
  let* (ps, cs) := fold_res type_inst (opt_list (yg_insts g)) ([], []) in
  let tps := type_point_scopes ps in
  let* tcs := type_cross_scopes (positions base 0 (dkeys ps) []) cs in
  match yg_insts g with
  | None => Err TypeError                                              (* line 249 *)
  | Some is =>
      let* (_, kids) := fold_res (record_inst base weight) is ([], tps ++ tcs) in
      Ok (Scope (s_attrs (new_covergroup (yg_name g) None weight SRC_OTHER)) [] [] kids)
  end.

(** Lines 74-105 *)
Definition build (doc : ydoc) : res db :=
  match doc with
  | None => Err AttributeError                                         (* line 101 *)
  | Some groups =>
      let* cgs := fold_res (fun cgs g => let* s := process_covergroup [1; List.length cgs] g in Ok (cgs ++ [s]))
                           (opt_list groups) [] in
      Ok (Db (Scope (s_attrs (db_root empty_db)) [] []
                [new_mem_scope "du" None 1 SRC_OTHER DU_MODULE DU_FLAGS;
                 Scope (s_attrs (new_instance "cg_inst" None 1 SRC_OTHER INSTANCE (Some [0]) INST_ONCE)) [] [] cgs]) [] [])
  end.

(** What is printed on the way: line 220, before the covergroup is created.  The loop of
    lines 101-103 ends at the first covergroup that raises. *)
Definition warning (name : string) : string :=
  ("Warning: Covergroup type " ++ name ++ " has no instances" ++ String "010" "")%string.
Fixpoint warnings (k : nat) (gs : list ygroup) : string :=
  match gs with
  | [] => ""
  | g :: t => (match yg_insts g with None => warning (yg_name g) | Some _ => "" end ++
               match process_covergroup [1; k] g with Ok _ => warnings (S k) t | Err _ => "" end)%string
  end.
Definition load_prints (v : jval) : string :=
  if jvalid coverage_schema v then
    match d_doc v with Ok (Some gs) => warnings 0 (opt_list gs) | _ => "" end
  else "".

(** Lines 62-105 load *)
Definition load (v : jval) : res db :=
  if jvalid coverage_schema v then let* doc := d_doc v in build doc else Err LibraryError.
