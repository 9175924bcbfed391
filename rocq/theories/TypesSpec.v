(** Calls that use types of the enumerations, and databases that contain no other. *)
From Verif Require Import Base Consts Db Api ApiSpec Enums Merge MergeLive Json Yaml Xml XmlReader.

(** The types of scopes and of cover items. *)
Definition scope_types : list N := map snd scope_type_t.
Definition cover_types : list N := map snd cover_type_t.

(** A call that passes a type passes one of the enumeration. *)
Definition listed_call (o : op) : Prop :=
  match o with
  | CreateScope _ _ _ _ _ t _ | CreateInstance _ _ _ _ _ t _ _ => In t scope_types
  | CreateBin _ _ _ _ _ t => In t cover_types
  | CreateNextCover _ _ data _ => In (cd_type data) cover_types
  | _ => True
  end.

(** The databases obtained with such calls, merges and files. *)
Inductive made (to_float : string -> option string) : db -> Prop :=
| MdNew : made to_float empty_db
| MdXml doc d : read to_float doc = Ok d -> made to_float d
| MdYaml doc d : load doc = Ok d -> made to_float d
| MdCall d o : made to_float d -> listed_call o -> made to_float (fst (step d o))
| MdMerge d srcs : made to_float d -> made to_float (fst (merge_live d srcs)).

Definition all_listed (d : db) : Prop :=
  forall h n, view d h = Some n ->
    (h <> [] -> In (a_type (n_attrs n)) scope_types) /\
    Forall (fun i => In (cd_type (ci_data i)) cover_types) (n_items n).
