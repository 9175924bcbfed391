# A Rocq model of pyucis: design

Source: fvutils/pyucis in /repo, read as text. Prover: Coq 8.16.1. All theories are in `rocq/theories`.
The properties are in `properties.jsonl`; which theorems stand for which property, and whether the code
satisfies it, is in `MANIFEST.json`.

## How the model is organised

| layer | model (no proofs) | specification (used in statements) | lemmas | property theorems |
|---|---|---|---|---|
| base | `Base` `Dict` `Consts` `PyInt` | `NameSpec` | `BaseFacts` `NubFacts` `PyIntFacts` | |
| database and API | `Db` `Hist` `Api` `Iter` `CApi` | `ApiSpec` `FieldSpec` | `ApiFacts` `ApiItems` `ApiProps` `IterFacts` | `P_Api` `P_Created` `P_Fields` `P_CApi` |
| shared data objects | `Heap` | `HeapSpec` | `HeapFacts` | `P_Heap` |
| merging | `Merge` `MergeLive` `MergeCalls` | `MergeSpec` | `MergeClosed` `MergeStruct` `MergeCount` `MergeMore` `MergeRefs` `MergeStage` `MergeCallsFacts` | `P_Merge` `P_MergeOptions` `P_MergeLive` `P_MergeCalls` |
| reports of converted files | | `ConvertReportSpec` | `ConvertReportFacts` | `P_ConvertReport` |
| reports of merged runs | | `MergeReportSpec` | `MergeReport` `MergeReportPerm` `MergeDouble` | `P_MergeReport` `P_MergeDouble` |
| data of the database object | `Meta` | `P_Meta` | | `P_Meta` |
| text of XML files | `XmlText` | `XmlTextSpec` | `XmlTextFacts`, `XmlTextWrite` | `P_XmlText` |
| text of JSON reports | `JsonText` | `JsonTextSpec` | `JsonTextFacts` `JsonTextWrite` | `P_JsonText` |
| enumerations with all members | `Enums` | `TypesSpec` | `TypesFacts` | `P_Enums` |
| references in all obtainable databases | | `P_Refs` (`obtained`) | `RefsFacts` `RefsMerge` `RefsXml` `RefsYaml` | `P_Refs` |
| report | `Report` | `ReportSpec` | `ReportFacts` `ReportQ` `ReportMono` `ReportAll` | `P_Report` |
| report in doubles | `Float64` | `Float64Spec` | `Float64Facts` `Float64Report` `Float64All` `Float64Full` | `P_Float` |
| schema of the JSON report | `CovReport` | `CovReportSpec` | `CovReportFacts` | `P_CovReport` |
| documented XML format | (`XmlWriter`, `XmlReader`) | `XmlDocumented` | `XmlDocumentedFacts` | `P_XmlDocs` |
| printed percentages | `PyFloat` | `PrintSpec` | `PrintFacts` `PrintReport` | `P_Print` |
| coverage that counts | (`Report`, `Merge`, `XmlWriter`) | `SeenSpec` | `SeenFacts` | `P_Seen` |
| exceptions | (`Api`, `Report`, `Merge`) | `RaiseSpec` | `RaiseFacts`, `RaiseRM` | `P_Raise` |
| text and JSON output | `Text` `Json` | `TextSpec` `JsonSpec` | `TextFacts` `JsonFacts` | `P_Text` |
| XML | `Xml` `Dates` `XmlWriter` `XmlReader` `XmlFactory` `XmlSession` `XmlResume` `XmlCalls` `XmlLeft` | `XmlSpec` `XmlHistSpec` `XmlDocSpec` `XmlReport` `XmlMeans` `XmlWritable` `XmlSessionSpec` | `DatesFacts` `XmlWriteFacts` `XmlReadFacts` `XmlViews` `XmlHistFacts` `XmlRound` `XmlStable` `XmlDocFacts` `XmlMeansFacts` `XmlWritableFacts` `XmlSessionFacts` `XmlResumeFacts` `XmlCallsFacts` `XmlLeftFacts` | `P_Xml` `P_Files` `P_Session` `P_Resume` `P_XmlCalls` |
| dates and time zones | `Zone` | | `ZoneFacts` | `P_Zone` |
| XML schema | `Schema` `UcisXsd` | `SchemaSpec` `LexSpec` | `SchemaFacts` `SchemaDoc` `SchemaRead` `LexFacts` | `P_Schema` `P_Validation` |
| text of the schema files | `SchemaFiles` `SchemaText` | | | `P_SchemaFiles` |
| YAML | `Yaml` `YamlCalls` | `YamlSpec` `YamlDocSpec` `YamlFaultSpec` | `YamlFacts` `YamlPrints` `YamlBuild` `YamlRefs` `YamlDocFacts` `YamlCallsFacts` | `P_Yaml` `P_YamlFault` `P_YamlCalls` |
| command line | `Args` | `ArgsSpec` | `ArgsFacts` `ArgsLoop` `ArgsLine` | `P_Args` `P_Pipeline` |
| registry, commands | `Rgy` `Cmd` | `CmdSpec` | `RgyFacts` `CmdFacts` | `P_Cmd` |
| file objects | `FileObjs` | in `P_FileObjs` | `FileObjsFacts` | `P_FileObjs` |
| from file to file | (the above composed) | `FilesSpec` `FileReportSpec` `YamlReportSpec` | `FilesFacts` `FilesMerge` `FilesRead` `FilesViews` `FilesAlgebra` `FilesWrite` `FilesYaml` `FileReportFacts` `YamlReportFacts` | `P_EndToEnd` `P_FileReport` `P_YamlReport` |
| shared library | `Lib`, `LibBuild` | in `P_Lib`, `LibBuildSpec`, `LibSameSpec` | in `P_Lib`, `P_LibBuild`, `P_LibSame` | `P_Lib`, `P_LibBuild`, `P_LibSame` |

`Samples` holds databases for the examples. `UcisXsd` is generated from `ucis/xml/schema/ucis.xsd` by
`tools/gen_xsd.py`; the generated file is committed. `SchemaFiles` holds the text of the three
schema files character by character (`tools/gen_schema_files.py`), and `P_SchemaFiles` proves that the
schemas of the model are what these texts say.

To review a property: read its text in `properties.jsonl`, the theorem in the `P_` file, and the
specification file of that layer. The model files matter for the question whether the model is the code.

### Conventions

* A Python exception is the value `Err e`. Where a caller can observe the state after an exception
  (merging into a caller's database, API calls, commands) the state is returned together with the error.
* A Python object is addressed by its path from the root (list of child indices). pyucis has no operation
  that removes or moves a scope, so a path is a faithful object identity (C12 shows that paths stay valid).
* Python `int` is `Z`, bit masks are `N`, `str` is `string` (bytes; other characters stand as their UTF-8
  bytes), `dict` is an insertion-ordered association list.
* Percentages are computed with an arithmetic given by a record `arith`. It is instantiated with exact
  rationals (`QA`) and with IEEE binary64 (`F64`, on Flocq's executable definitions).
* History nodes can hold values of any Python type; `pyval` has None, bool, int, str, float and enum members.
  A float is given by the text `str()` shows for it.
* A property that the code violates has a theorem `..._refuted` (a witness, or "for every ...") and
  theorems that say exactly what the code does instead. Its status in MANIFEST.json is "partial".
* Beside each theorem there is an `Example` that applies it to, or computes, a concrete case.

## What is modelled and how it is proved, property by property

* C01, C05, C06, C09, C11, C12, C61: `Api.step : db -> op -> db * result` is shown to be a point update of a
  flat map from paths to nodes (`ApiSpec.view`). Induction over histories of calls.
* C02, C03, C04, C08: iterators are an index into a live list. Invariant over all interleavings of `next`
  with API calls.
* C07: induction over histories of calls.
* C10, C13: false of the code. Witness, and what happens instead for every scope.
* C74: all fields and readable properties of a scope just created, for each of the creating calls.
* C82, C83: one call at a time, then induction over histories of calls.
* C84: an invariant over the documents read so far; a simulation between the used reader and a new one for documents with names of their own.
* C111: the same steps with the state they leave when they raise; agreement with C84's reader by induction over every loop, and a frame for what a document can touch.
* C85: the merge with lookups in the changing destination is a model of its own; it is equal to the merge of values because a merge only appends children to the root.
* C86: an inductive definition of conformance and grammars with values for the simple types (`LexSpec`); the checker decides them.
* C89: the structure theorem of merges (C15) is applied level by level to sources of one structure; bins only grow, so every mean does (monotonicity as in C28). In double precision the same follows from C33 for the reported part of the databases (`MergeDouble.sk_db`), which has the same numbers in any arithmetic.
* C90: what a YAML document says in XML terms (C73) has as expected report (C76) the report of the document (C79), entry by entry, once weights and thresholds are 1; dropping these does not change what XML says.
* C91: the library is a list of what was created with tables of properties; a loop is a fold over the children listed. Effect by induction over the children; the mask by a bit argument. Partial: the code resets goals and cuts masks.
* C92: the calls hand over arguments as ctypes converts them; whether the library agrees is a parameter. The effect of each call for each answer by computation; that every call is covered by a case analysis. Partial: refusals go unnoticed.
* C93: programs name the objects they hold by number and are run on both models. The relation "every path leads to the same scope, or to nothing, on both sides" is kept by every command; paths in the library are injective because every scope has one parent, made before it. Partial: the defaults of new covergroups, kinds of bins of crosses and the types createScope accepts differ.
* C94: `round` and `%f` of CPython are modelled on doubles as exact integer arithmetic with one rounding (`PyFloat`), checked against Python by evaluation. The printed decimal is the nearest one because the rounding errors in between are far below half a unit; half-way cases of points are representable and stay half-way. False for 100 %: 199 of 200 bins are printed as 100.
* C95: validity of JSON values as an inductive predicate over the schema; the schema is that of the file (`C95_schema_file`). False of the code for every report; the value of "covreport" would be valid (induction on the nesting of covergroups).
* C96: the documented format as predicates over element trees; written documents by the form the writer's facts give them, element by element; reading: the document reduced to the attributes the reader looks at is read the same (induction on the document). The clauses on options, modules and cross bins are false of the code.
* C97: every member that is a type is a power of two (checked on the table), so a joined mask hits a type iff it is one of the joined ones (induction on the list, bit by bit); an invariant of trees kept by every call, merge and reader says that no other types occur.
* C98: the database object with its own data around the contents; induction on histories. Files: the attributes of the root element for every written document; witnesses for what is lost.
* C99: the text of a file: lxml's pretty printer on the writer's trees (`put_doc`), XML's grammar as inductive relations (`is_document`), and a reader proved to decide it (hence texts have one reading). By induction on trees the printed text is in the grammar; every parser following the grammar then meets the assumption `good_lxml`.
* C100: the text of a JSON report: json.dump with indent 4 on the report's objects (`dump_json`), RFC 8259's grammar as inductive relations (`is_json`), and a reader proved to decide it. By induction on objects the text is in the grammar and tells the object; an object that mirrors a report says the report (`says_report`). Numbers are compared as doubles: the decimal in the text, rounded to nearest even, is the percentage.
* C101: command lines: argparse's tokens, its loop over options and positional arguments and `__main__.main` are modelled (`Args`); the specification (`ArgsSpec`) says with inductive relations which arguments are options, values and words and which lines run what (`runs`). Proved equivalent: one argument at a time (`read_gives`, `read_plain`), then the loop on tokens by induction on their number (nothing may be left unused, and unused arguments never become used), then the whole line. `C101_merge_files` composes this with C99.
* C102: `--libucis` has no influence (refuted): both lines are accepted with the same inputs, and the command does not look at the value.
* C103: the process as it is started: C101 composed with C71, C73, C76, C79, C99 and C100, so that arguments and texts of files come in and texts of files and of standard output come out; the percentages are printed by the model of `%` and `round` of C94.
* C104: two databases that agree on the scopes looked at (`SeenSpec.same_...`) have the same report, merges and document: by induction on the builder, and for the merger by a simulation of its name tables. A call on another scope replaces a subtree that none of these relations look into (induction on the path).
* C105: the exceptions of a call are an inductive table over classes (`RaiseSpec.fails`), compared with each case of the step function; for merges and reports a predicate `all exceptions are AttributeErrors` is pushed through the monadic code, with C20 and C30 for when they fail.
* C106: the builder again with the conversions of ints to floats that can raise (`Overflow`); which weights are converted is an inductive predicate on the tree (`OverflowSpec.weighs`). The boundary comes from two computed roundings and monotonicity of rounding; by induction on trees the checked builder either does what Report.v says or raises OverflowError.
* C107: `FaultSpec.db_faults` and `FaultReadSpec.doc_faults` list what is wrong with a database or document, as exceptions, in the order in which it is met; `first m l` says that a computation raises the first of a list. One lemma for each function of the writer and the reader, composed by the lemma for sequencing (`first_bind`) and those for loops. The reader's dictionaries are related to lists of names (`keyed`).
* C108: `YamlFaultSpec.group_raises` and `document_raises` give the exception of a covergroup and of a document; each loop of the loader can raise only one class (`fold_err`, `traverse_err`), and the condition for loading (C54) says which loop fails.
* C112: `YamlCalls` is the reader as the calls of `Api` it makes, in their order; each loop is shown to put at the end of its scope what `Yaml.build` gives (`YamlCallsFacts.behaves`), so the restructuring of `Yaml` is proved, not trusted.
* C113: the same for the XML reader. `XmlCallsFacts.sim` relates a program of calls to a step of `XmlReader`, by the object it works on; the slots and positions of `XmlReader` are the places of the objects in the reader's maps (`placed`), and filling the slots is what populateCoverpointType and populateCrossType do (`populate`). `simx` does the same against the steps of `XmlResume`, with what an exception leaves (C113_left); `XmlLeft` gives the history nodes such a document leaves.
* C114: the same for the merger, with the state it leaves when it raises (`MergeCallsFacts.lock`: the program does to the object at a handle what `Merge` does to a scope, step by step). `P_MergeCalls.had` lists the ways to come by a database.
* C109, C110: file objects (text, position, open or closed) as a list in the state. `keeps R` says which old objects may change and how, and that new ones are closed; it is pushed through the monadic code, with one lemma for blocks that close what they open. C110 computes the outcome. Both are false in part.
* C88: Python's day-number algorithm is proved to be a bijection; a time zone is a function from moments to offsets.
* C87: the obtainable databases as an inductive predicate; references stay inside the subtree that was built (`inner`), for merges by triples over success and exception.
  A session ends at the first document that raises.
* C77, C78: the `ucis_*` functions as calls on the same database model. Frame and effect theorems from those of
  the methods; C78 is false of the code.
* C81: `CoverData` objects in a heap, items hold references. False of the code when objects are shared; for histories
  that do not share, a refinement proof shows that the by-value model `Api` is faithful.
* C14-C23: the merger, a mutating program, is proved equal to a closed form, and the closed form to
  the declarative `is_merge` (`MergeSpec`). Counts, order-independence, staging, references and
  preservation of the destination follow from `is_merge`. C22 is false of the code.
* C75: false of the code (options are reset to defaults). The exact options of every added scope.
* C24-C29, C31: the report builder is proved to mirror the database; each percentage equals a
  counting specification over rationals. C27 compares two reports field by field.
  C30, C32 and the cross half of C31 are false of the code.
* C33: the same builder over binary64. Every operation is the rounded real operation; bounds by
  monotonicity of rounding and by rounding-error analysis. The condition on weights is needed (witness).
* C34-C36: the formatter over a stream that may fail at any write. Output equals a declarative outline.
* C37: false for crosses. The exact JSON value otherwise.
* C38, C72: the written document as a function of the database, and what it says (`XmlMeans`).
* C39-C44: writer to an element tree, reader from an element tree, composed. The reader is proved
  to build `import_doc`-style views from the views of the database.
* C45: strptime/strftime on the two formats, character by character. `DateTextSpec` describes the texts taken for dates without the matcher; since the matcher lists all ways of matching and Python takes the first, the facts show that the first one of a text of the form is the date shown.
* C46, C68: the exact set of documents that can be read, and what is read; `ReadAttrsSpec` says what all scopes and bins that were read have in common.
* C47, C63: XML Schema validation is modelled for the constructs ucis.xsd uses. Writer output validates iff
  the database is complete; valid documents are readable iff stated conditions hold.
* C48: decimal `str`/`int` on all integers.
* C69: the exact set of databases that can be written.
* C49-C54: YAML reader from the document tree, with its JSON schema. What a document says (`document_says`) and which documents the schema allows are specified as relations, apart from the decoder. C51-C54 false in part.
* C55-C58, C62, C64, C65: registry as a finite map; commands as programs over a world (files, printed text, files
  read). C57, C64 and C65 are false of the code.
* C59, C60, C66, C67: field-by-field conversions of ctypes structures. False in part.
* C70, C71, C73: the commands composed with reader, merger and writer, from file contents to file
  contents, stated over what documents say.
* C76, C79, C80: the report command composed with reader (XML, YAML) and report builder (text, JSON), stated over
  what documents say. C80 is false in part (C37).

## Trusted base

* Coq's kernel (the vcheck build and `coqchk` accept all files).
* Axioms. `Print Assumptions` stands under every property theorem. It prints "Closed under the global
  context" for all theorems except these about binary64: `C33_division`, `C33_conversion`, `C33_double_range`, `C33_full_is_100`,
  `C33_only_full_is_100`, `C33_double_monotone`, `C33_double_accuracy`, `C33_heavy_weights_refuted`,
  `C89_double_never_lowers`, `C89_double_full_stays`, those of C94 except `C94_texts_differ`, and those
  of C100 about reports. They rest on
  the standard library's axioms of the real numbers:
  `ClassicalDedekindReals.sig_not_dec`, `ClassicalDedekindReals.sig_forall_dec`,
  `FunctionalExtensionality.functional_extensionality_dep`, `Classical_Prop.classic`.
  No axioms are added. Flocq is used for definitions and proved lemmas.
* The reading of the Python code. Every definition of the model cites file and lines.
* The text of ucis.xsd, coverage.json and covreport.json in `SchemaFiles.v` (a copy, made by
  `tools/gen_schema_files.py`), and the reading of schema documents in `SchemaText.v`: what an `xsd:element`,
  a "$ref" and so on mean. That the schemas of the model say the same as these texts is proved
  (`C86_schema_file`, `C54_schema_file`, `C95_schema_file`).
* What is assumed of other software. These are universally quantified parameters of the theorems,
  with hypotheses where stated:
  * `parse`, `print_doc`: lxml parsing and serialising. C39-C44 and C70-C73 assume that parsing a printed
    document gives the same tree up to `Xml.reparse` (empty text becomes no text); this is `good_lxml`.
    Decompression (gzip, lz4) is part of `parse`. C99 proves it for the modelled serialiser and every parser
    that follows the grammar of XML; what stays assumed is that lxml's serialiser writes what `XmlText.put_doc`
    writes and that its parser follows the grammar.
  * `ev` (`good_env`): user name and clock used by the writer; the user name is printable.
  * `to_float`: Python's `float(str)`. C63 assumes it accepts every xsd:double and xsd:decimal; C70 that it reads "0".
  * `parse_yaml`: PyYAML, arbitrary.
  * `exists_`, `is_dir`, `writable`: the file system's answers, arbitrary. Concurrent changes of files by other
    programs are not modelled.
  * `faults`: at which write a stream raises, arbitrary (C34, C35). C76 and C79 assume it does not raise.
  * `show_group`, `show_point`, `dump`: `%f` formatting of a percentage and `json.dump`, arbitrary (C94 is about the actual ones).
  * `repr` (`faithful`): Python's `float.__repr__` writes a JSON number that reads back as the same double (C100).
    `C100_witness_repr` shows that such a function exists.
  * argparse (CPython 3.11.10) does with the tables of `__main__.py` what `Args` does (C101). The model was compared with argparse itself on
    4500 random command lines for a parser of the same shape (`tools/args_compare.py`): no difference.
  * `json.dump` writes what `JsonText.dump_json` writes (C100); lone surrogates in Python strings are not modelled.
  * File objects (C109, C110): `close` flushes and can be repeated; `etree.parse` reads from the position, where it stops is arbitrary (`stops`);
    what is opened with "w" gets its text when it is closed. The installed `ucis.xsd` holds the schema.
  * ctypes conversions as documented by Python, on a little-endian machine.

## What is modelled

Python files whose code is modelled, with the layer:

* API: `__init__.py` (the `ucis_*` functions) `obj.py` `scope.py` `ucis.py` `instance_scope.py` `cvg_scope.py` `covergroup.py` `coverpoint.py` `cover_data.py`
  `history_node.py` `test_data.py` `source_info.py` `scope_type_t.py` and the property and type enumerations; `mem/`: `mem_obj`
  `mem_scope` `mem_ucis` `mem_instance_scope` `mem_toggle_instance_scope` `mem_cvg_scope` `mem_covergroup` `mem_coverpoint` `mem_cross`
  `mem_cover_item` `mem_cover_index` `mem_history_node` `mem_file_handle` and the three iterators
* merging: `merge/db_merger.py`
* report: `report/coverage_report.py` `coverage_report_builder.py` `format_rpt_text.py` `format_rpt_json.py`
  `text_coverage_report_formatter.py`
* XML: `xml/xml_writer.py` `xml_reader.py` `xml_factory.py` `xml_ucis.py` `db_format_if_xml.py`, `schema/ucis.xsd`
* YAML: `yaml/yaml_reader.py` `yaml_ucis.py` `db_format_if_yaml.py`, `schema/coverage.json`
* registry and commands: `rgy/format_rgy.py` `format_if_rpt.py`, all of `cmd/`, `__main__.py`
* shared library: `lib/libucis.py` `lib_ucis` `lib_obj` `lib_scope` `lib_scope_iterator` `lib_history_node`
  `lib_history_node_iterator` `lib_cover_data` `lib_test_data` `lib_coverpoint` `lib_cross` `db_format_if_lib`

## Not modelled

* lxml, PyYAML, jsonschema, ctypes, json, gzip, lz4 themselves (see the assumptions above). The classes that
  python_jsonschema_objects generates are taken to behave like plain data.
* Aliasing of `CoverData` objects, except in `Heap` (C81): all other layers store the data of an item by value, which
  C81 justifies for histories that do not share objects. `SourceInfo` objects are stored by value everywhere.
* Python's limit on the number of digits in int/str conversion, recursion limits, memory.
* Messages of exceptions (only the class is kept); Python's warnings.
* Leap seconds; names of users. Time zones only in `Zone` (C88); elsewhere `env_local` is a parameter.
* Classes that no modelled code reaches: `mem_du_scope` `mem_statement_id`
  `mem_source_file` `mem_factory` `source_file` `name_value` `cover_type` `mem_cover_type` `db.py`.
* Stubs: the cobertura formatter, `yaml_writer`, `yaml_factory.read`.
* The functions of the C library behind `lib/`: it is taken to keep what it is handed, and to list scopes in the order of their creation; whether it agrees to a creation is left open.

## The project's own tests

`UnitTests` runs every enabled test of `ve/unit` on the model, as `Example`s: the calls the test makes, and the values it asserts.
All hold. They show that the model behaves like the code where its authors said how it behaves; no property rests on them.

## Wrong programs

`seeded/LOG.jsonl` has one line per edit of the model in a scratch copy. `theorems_failed` lists the property
theorems whose proof is rejected, or rests on a lemma whose proof is rejected; `proofs_rejected` lists the lemmas that
fail directly. An edit that no theorem noticed led to a stronger theorem, named in `tightened`. For an edit with neither,
`note` says why no claim is broken.
