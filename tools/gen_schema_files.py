#!/usr/bin/env python3
"""Writes the text of the three schema files as Coq strings, character by character.
usage: gen_schema_files.py /repo > rocq/theories/SchemaFiles.v"""
import sys

FILES = [('ucis_xsd_file', 'src/ucis/xml/schema/ucis.xsd'),
         ('coverage_json_file', 'src/ucis/schema/coverage.json'),
         ('covreport_json_file', 'src/ucis/schema/covreport.json')]
print('''(** The text of the schema files that come with pyucis, character by character.
    Generated by tools/gen_schema_files.py. *)
From Coq Require Import String.
Local Open Scope string_scope.
''')
for name, path in FILES:
    text = open(sys.argv[1] + '/' + path, newline='', encoding='ascii').read()
    print('(** %s *)' % path)
    print('Definition %s : string := "%s".\n' % (name, text.replace('"', '""')))
