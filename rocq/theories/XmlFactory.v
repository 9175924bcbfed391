(** Reading with validation. *)
From Verif Require Import Base Db Xml XmlReader Schema UcisXsd.

(** xml/xml_factory.py:54-80 XmlFactory.read: the document is validated against
    the schema and then read; an invalid document raises lxml's DocumentInvalid.
    Opening the file and parsing are left out. *)
Definition factory_read (to_float : string -> option string) (doc : elem) : res db :=
  if ucis_valid doc then read to_float doc else Err LibraryError.
