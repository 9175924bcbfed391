(** What the commands are for, without reference to how they do it. *)
From Verif Require Import Base Dict Consts Db Report Text Json Xml XmlWriter XmlFactory Merge Yaml Rgy Cmd.
Set Implicit Arguments.
Local Open Scope string_scope.
Local Open Scope list_scope.

Section Spec.
  Variable parse : opening -> string -> res elem.
  Variable to_float : string -> option string.
  Variable print_doc : elem -> res string.
  Variable ev : env.
  Variable parse_yaml : string -> res jval.
  Variable writable : string -> bool.
  Variables (json txt : rpt_format).

  (** The registry as it is after start-up *)
  Definition std : registry :=
    init_rgy df_name rf_name (xml_format parse to_float print_doc ev writable) lib_format (yaml_format parse_yaml) json txt.

  (** The database in a file of a known format *)
  Definition decode (fmt c : string) : res db :=
    if String.eqb fmt "xml" then let* doc := parse (open_file c) c in factory_read to_float doc
    else let* v := parse_yaml c in load v.
  Definition holds (fmt : string) (w : world) (p : string) (d : db) : Prop :=
    (fmt = "xml" \/ fmt = "yaml") /\ exists c, w_fs w p = Some c /\ decode fmt c = Ok d.
  (** The text of a database as XML *)
  Definition text_of (d : db) : res string := let* doc := write ev d in print_doc doc.

  (** Only the file [out] is written, nothing is printed and only files of
      [inputs] are read. *)
  Definition only_touches (inputs : list string) (out : string) (w w' : world) : Prop :=
    (forall p, p <> out -> w_fs w' p = w_fs w p) /\ w_out w' = w_out w /\
    exists k, w_reads w' = w_reads w ++ firstn k inputs.
  (** The same, but a run that fails may have printed one warning. *)
  Definition touches_or_warns {A} (inputs : list string) (out : string) (w w' : world) (r : res A) : Prop :=
    (forall p, p <> out -> w_fs w' p = w_fs w p) /\
    (w_out w' = w_out w \/ (exists e, r = Err e) /\ exists g, w_out w' = String.append (w_out w) (warning g)) /\
    exists k, w_reads w' = w_reads w ++ firstn k inputs.
End Spec.
