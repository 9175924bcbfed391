{"id": "C01", "title": "Creating a scope changes nothing else", "statement": "Each successful create call on an in-memory database (createScope, createInstance, createCovergroup, createCoverpoint, createCross, createCoverInstance, createToggle) adds exactly one new, empty scope with the requested name, type, weight and source information at the end of the parent's children. Every scope that existed before keeps its name, type, attributes, children order and cover items. A failed call changes nothing.", "quantifier": "every database reachable by any sequence of API calls, every parent handle, every argument", "why_tests_cant": "Tests look at one or two hand-built hierarchies; the claim is a frame condition over every other scope of every reachable database.", "anchors": ["src/ucis/mem/mem_scope.py:MemScope.createScope", "src/ucis/mem/mem_scope.py:MemScope.createInstance", "src/ucis/mem/mem_scope.py:MemScope.createCovergroup", "src/ucis/mem/mem_covergroup.py:MemCovergroup", "src/ucis/mem/mem_instance_scope.py:MemInstanceScope"]}
{"id": "C02", "title": "Scope enumeration is exact", "statement": "scopes(mask) yields each child whose type shares a bit with the mask exactly once, in creation order, and yields no other scope; it then stops.", "quantifier": "every scope, every child list, every mask", "why_tests_cant": "The number, order and type bits of the children and the mask are unbounded.", "anchors": ["src/ucis/mem/mem_scope_iterator.py:MemScopeIterator.__next__", "src/ucis/mem/mem_scope.py:MemScope.scopes"]}
{"id": "C03", "title": "Cover-item enumeration is exact", "statement": "coverItems(mask) yields each cover item of the scope whose bin type shares a bit with the mask exactly once, in creation order, and nothing else; it then stops.", "quantifier": "every scope, every item list, every mask", "why_tests_cant": "As C02.", "anchors": ["src/ucis/mem/mem_cover_index_iterator.py:MemCoverIndexIterator.__next__", "src/ucis/mem/mem_scope.py:MemScope.coverItems"]}
{"id": "C04", "title": "Iterators survive concurrent creation", "statement": "If scopes (or cover items, or history nodes) are created while an iterator over their parent is in use, the iterator never yields an item twice, never reorders, never skips a matching item: what it has yielded is always exactly the matching part of the list prefix it has passed, and at exhaustion it has yielded every matching item present at that moment.", "quantifier": "every interleaving of next() calls and creations", "why_tests_cant": "Interleavings of iteration and creation are unbounded; tests only iterate over finished databases.", "anchors": ["src/ucis/mem/mem_scope_iterator.py", "src/ucis/mem/mem_cover_index_iterator.py", "src/ucis/mem/mem_history_node_iterator.py"]}
{"id": "C05", "title": "Hit counters count", "statement": "After any sequence of API calls the count of a bin equals the count it was created with plus the sum of all increments applied to that very bin; no other operation changes it.", "quantifier": "every history of API calls on a database, every bin", "why_tests_cant": "Histories are unbounded; a wrong-bin or lost update shows only in some of them.", "anchors": ["src/ucis/mem/mem_cover_index.py:MemCoverIndex.incrementCover", "src/ucis/coverpoint.py:Coverpoint.createBin"]}
{"id": "C06", "title": "A created bin is stored as given", "statement": "createBin(name, src, at_least, count, rhs, kind) on a coverpoint or cross appends one cover item with that name, source, count, at_least and kind, goal 1 and weight 1, after all existing items, and changes nothing else.", "quantifier": "every reachable database, every coverpoint or cross, every argument", "why_tests_cant": "As C01.", "anchors": ["src/ucis/coverpoint.py:Coverpoint.createBin", "src/ucis/mem/mem_scope.py:MemScope.createNextCover"]}
{"id": "C07", "title": "File handles are unique per file name", "statement": "createFileHandle returns the same handle for the same file name and different handles for different names, whatever calls happened in between, and never changes an existing handle.", "quantifier": "every sequence of createFileHandle calls (with any other calls in between)", "why_tests_cant": "Depends on the whole call history.", "anchors": ["src/ucis/mem/mem_ucis.py:MemUCIS.createFileHandle"]}
{"id": "C08", "title": "History nodes are enumerated by kind", "statement": "historyNodes(kind) yields exactly the history nodes of that kind (all nodes for ALL) in creation order.", "quantifier": "every list of history nodes and every kind", "why_tests_cant": "As C02.", "anchors": ["src/ucis/mem/mem_history_node_iterator.py:MemHistoryNodeIterator.__next__", "src/ucis/mem/mem_ucis.py:MemUCIS.historyNodes"]}
{"id": "C09", "title": "Integer properties behave like variables", "statement": "Setting a supported integer property of a scope and reading it back gives the value set (0/1-normalised for flag properties); no other scope, bin or unrelated property changes; unsupported properties are rejected without effect. COVER_GOAL and SCOPE_GOAL name the same goal.", "quantifier": "every reachable database, scope class, property and value, and every pair of properties", "why_tests_cant": "32 properties times all scope classes, with inheritance deciding which code runs; tests check three or four pairs.", "anchors": ["src/ucis/mem/mem_scope.py:MemScope.getIntProperty", "src/ucis/mem/mem_scope.py:MemScope.setIntProperty", "src/ucis/scope.py:Scope.getIntProperty", "src/ucis/cvg_scope.py:CvgScope.getIntProperty", "src/ucis/covergroup.py:Covergroup.getIntProperty", "src/ucis/instance_scope.py:InstanceScope.getIntProperty", "src/ucis/ucis.py:UCIS.getIntProperty"]}
{"id": "C10", "title": "String properties behave like variables", "statement": "A string property set on a scope can be read back (e.g. the COMMENT of a covergroup).", "quantifier": "every scope, property and value", "why_tests_cant": "A property of the method-resolution order, true or false for all values at once.", "anchors": ["src/ucis/mem/mem_obj.py:MemObj.getStringProperty", "src/ucis/mem/mem_obj.py:MemObj.setStringProperty", "src/ucis/cvg_scope.py:CvgScope.setStringProperty"]}
{"id": "C11", "title": "createScope accepts exactly the supported types", "statement": "createScope on a general scope creates a design unit for every type containing a design-unit bit, a covergroup, coverinstance or coverpoint for exactly those types, and raises for every other type; on an instance it creates a covergroup for every type containing the COVERGROUP bit and raises for every other. A raise leaves the database unchanged.", "quantifier": "every 64-bit type value, every scope class", "why_tests_cant": "The type is a bit mask with 2^64 values.", "anchors": ["src/ucis/mem/mem_scope.py:MemScope.createScope", "src/ucis/mem/mem_instance_scope.py:MemInstanceScope.createScope", "src/ucis/scope_type_t.py:ScopeTypeT.DU_ANY"]}
{"id": "C12", "title": "References always resolve", "statement": "In every reachable database the design unit of each instance and each crossed coverpoint of each cross is a scope of the database that still has the name, type and position it had when the reference was made.", "quantifier": "every history of API calls", "why_tests_cant": "An invariant over all histories.", "anchors": ["src/ucis/mem/mem_instance_scope.py:MemInstanceScope.getInstanceDu", "src/ucis/mem/mem_cross.py:MemCross.getIthCrossedCoverpoint"]}
{"id": "C13", "title": "Cover items created on an instance are visible", "statement": "A cover item created with createNextCover on an instance scope is enumerated by coverItems of that scope.", "quantifier": "every instance scope and item", "why_tests_cant": "Tests only use createNextCover on instances through integer properties.", "anchors": ["src/ucis/mem/mem_instance_scope.py:MemInstanceScope.createNextCover", "src/ucis/mem/mem_scope.py:MemScope.coverItems"]}
{"id": "C14", "title": "Merged counts are the sums of the source counts", "statement": "After merging any databases, the count of the bin addressed by instance, covergroup, optional covergroup instance, coverpoint or cross, bin kind and bin name equals the sum over all sources of the counts at that address (0 where absent), provided no source uses one instance, covergroup, covergroup-instance or coverpoint name twice in one parent.", "quantifier": "any number of sources of any shape, every address", "why_tests_cant": "Any number of sources, names and bins; unit tests merge two or three fixed databases.", "anchors": ["src/ucis/merge/db_merger.py:DbMerger.merge", "src/ucis/merge/db_merger.py:DbMerger._merge_covergroups", "src/ucis/merge/db_merger.py:DbMerger._merge_coverinsts", "src/ucis/merge/db_merger.py:DbMerger._merge_coverpoints", "src/ucis/merge/db_merger.py:DbMerger._merge_coverpoint_bins", "src/ucis/merge/db_merger.py:DbMerger._merge_crosses", "src/ucis/merge/db_merger.py:DbMerger._merge_cross"]}
{"id": "C15", "title": "Merged structure is the ordered union", "statement": "At every level the merged database has exactly the names that occur in some source at that place, each once, in order of first appearance; bins are grouped by kind (normal, ignore, illegal).", "quantifier": "any number of sources of any shape", "why_tests_cant": "As C14.", "anchors": ["src/ucis/merge/db_merger.py:DbMerger.merge", "src/ucis/merge/db_merger.py:DbMerger._merge_covergroup", "src/ucis/merge/db_merger.py:DbMerger._merge_coverpoints"]}
{"id": "C16", "title": "Merging is insensitive to source order", "statement": "Permuting the sources leaves the set of addresses and every merged count unchanged (attributes such as weight and at_least may come from a different source).", "quantifier": "every list of sources and every permutation", "why_tests_cant": "All permutations of all databases.", "anchors": ["src/ucis/merge/db_merger.py:DbMerger.merge"]}
{"id": "C17", "title": "Merging can be done in stages", "statement": "Merging a merged database with further databases gives the same names and counts as merging all of them at once.", "quantifier": "every split of every list of sources", "why_tests_cant": "Unbounded.", "anchors": ["src/ucis/merge/db_merger.py:DbMerger.merge"]}
{"id": "C18", "title": "Convert copies the coverage", "statement": "Merging a single database with distinct names into an empty one (what the convert command does) preserves every name, order within kind, count, kind and at_least of every bin, and every covergroup, coverpoint and cross weight.", "quantifier": "every database with distinct names", "why_tests_cant": "Unbounded.", "anchors": ["src/ucis/merge/db_merger.py:DbMerger.merge", "src/ucis/cmd/cmd_convert.py:convert"]}
{"id": "C19", "title": "Merged attributes come from the first source", "statement": "The weight and source location of each merged covergroup, covergroup instance, coverpoint and cross, the design-unit name and weight of each merged instance, the crossed coverpoints of each cross and the at_least of each merged bin are those of the first source in which the item occurs.", "quantifier": "any number of sources of any shape", "why_tests_cant": "As C14.", "anchors": ["src/ucis/merge/db_merger.py:DbMerger._merge_covergroups", "src/ucis/merge/db_merger.py:DbMerger._merge_coverpoints", "src/ucis/merge/db_merger.py:DbMerger._merge_crosses"]}
{"id": "C20", "title": "Merged crosses refer to merged coverpoints, or the merge fails", "statement": "Every cross of the merged database refers to coverpoints of the same merged covergroup (or covergroup instance), with the same names and order as in the source; the merge raises exactly when some cross names a coverpoint its merged covergroup does not have, an instance has no design unit, or a bin lacks an at_least.", "quantifier": "any number of sources of any shape", "why_tests_cant": "The failure condition ranges over all cross/coverpoint name combinations.", "anchors": ["src/ucis/merge/db_merger.py:DbMerger._merge_crosses"]}
{"id": "C21", "title": "Merging never destroys destination data", "statement": "Whatever the sources, and whether or not the merge fails half way, every scope and bin present in the destination before the merge is still there, unchanged and in place; only new scopes are appended.", "quantifier": "any destination, any sources, any failure point", "why_tests_cant": "Failure can happen at any cross of any covergroup.", "anchors": ["src/ucis/merge/db_merger.py:DbMerger.merge"]}
{"id": "C22", "title": "Merging loses no counts when a name is repeated inside one source", "statement": "If one source holds two sibling coverpoints (or covergroups, instances) of the same name, the merged count is still the sum of all counts of that source at that name.", "quantifier": "every source with repeated names", "why_tests_cant": "Needs a source with repeated names; no test has one.", "anchors": ["src/ucis/merge/db_merger.py:DbMerger._merge_coverpoints", "src/ucis/merge/db_merger.py:DbMerger._merge_crosses"]}
{"id": "C23", "title": "Merging never lowers bin coverage", "statement": "With non-negative counts, and equal at_least per bin across sources, a bin hit in any source is hit in the merged database.", "quantifier": "any number of sources of any shape", "why_tests_cant": "As C14.", "anchors": ["src/ucis/merge/db_merger.py:DbMerger._merge_coverpoint_bins", "src/ucis/report/coverage_report_builder.py:CoverageReportBuilder.build_coverpoint"]}
{"id": "C24", "title": "Coverpoint and cross percentages", "statement": "The reported coverage of a coverpoint or cross is 100 times the number of its normal bins whose count reaches at_least divided by the number of its normal bins, and 0 if it has none; ignore and illegal bins do not matter.", "quantifier": "every coverpoint and cross", "why_tests_cant": "Unbounded bins and counts.", "anchors": ["src/ucis/report/coverage_report_builder.py:CoverageReportBuilder.build_coverpoint", "src/ucis/report/coverage_report_builder.py:CoverageReportBuilder.build_cross"]}
{"id": "C25", "title": "Covergroup percentage is the weighted mean", "statement": "The reported coverage of a covergroup (or covergroup instance) is the weighted mean of its coverpoints and crosses (with the weights of the report entries; see C32 for crosses), and 0 if all weights are 0; covergroup instances do not contribute to it.", "quantifier": "every covergroup with non-negative weights", "why_tests_cant": "Unbounded.", "anchors": ["src/ucis/report/coverage_report_builder.py:CoverageReportBuilder.build_covergroup"]}
{"id": "C26", "title": "Percentages stay between 0 and 100", "statement": "With non-negative weights every coverage number of a report lies between 0 and 100.", "quantifier": "every database with non-negative weights", "why_tests_cant": "Unbounded.", "anchors": ["src/ucis/report/coverage_report_builder.py:CoverageReportBuilder.build_covergroup", "src/ucis/report/coverage_report_builder.py:CoverageReportBuilder.build_covergroups"]}
{"id": "C27", "title": "More hits never lower coverage", "statement": "With non-negative weights, incrementing any bin by a non-negative amount never lowers any percentage of the report.", "quantifier": "every database and every bin", "why_tests_cant": "Two reports of unbounded databases are compared.", "anchors": ["src/ucis/report/coverage_report_builder.py:CoverageReportBuilder.build_covergroup", "src/ucis/report/coverage_report_builder.py:CoverageReportBuilder.build_covergroups", "src/ucis/mem/mem_cover_index.py:MemCoverIndex.incrementCover"]}
{"id": "C28", "title": "100% means everything is hit", "statement": "With positive weights, a covergroup with at least one coverpoint or cross is reported at 100 exactly when every one of its coverpoints and crosses has at least one normal bin and all normal bins are hit.", "quantifier": "every covergroup with positive weights", "why_tests_cant": "Unbounded.", "anchors": ["src/ucis/report/coverage_report_builder.py:CoverageReportBuilder.build_covergroup"]}
{"id": "C29", "title": "Reports list everything once", "statement": "A report lists exactly the covergroups of the top-level instances, in order, with all their coverpoints, crosses, normal, ignore and illegal bins and nested covergroup instances, names and counts unchanged; looking a covergroup up by name gives the last one of that name.", "quantifier": "every database for which a report is produced", "why_tests_cant": "Unbounded.", "anchors": ["src/ucis/report/coverage_report_builder.py:CoverageReportBuilder._build", "src/ucis/report/coverage_report_builder.py:CoverageReportBuilder.build_covergroups", "src/ucis/report/coverage_report_builder.py:CoverageReportBuilder.build_covergroup"]}
{"id": "C30", "title": "Overall percentage covers all covergroups", "statement": "The overall coverage of a report is the weighted mean of all its covergroups, and a report can be produced for every database.", "quantifier": "every database", "why_tests_cant": "Needs two instances, or an instance without covergroups; no test has either.", "anchors": ["src/ucis/report/coverage_report_builder.py:CoverageReportBuilder.build_covergroups", "src/ucis/report/coverage_report.py:CoverageReport"]}
{"id": "C31", "title": "Hit flags agree with the percentage", "statement": "In a report, the percentage of a coverpoint or cross equals the share of its listed bins that are flagged as hit.", "quantifier": "every coverpoint and cross", "why_tests_cant": "Needs a cross bin with at_least other than 1.", "anchors": ["src/ucis/report/coverage_report_builder.py:CoverageReportBuilder.build_cross", "src/ucis/report/coverage_report.py:CoverageReport.CoverBin.hit"]}
{"id": "C32", "title": "Cross weights count", "statement": "The weight of a cross is used when its covergroup's percentage is computed, as for coverpoints.", "quantifier": "every covergroup with a cross of weight other than 1", "why_tests_cant": "Needs a cross weight other than 1.", "anchors": ["src/ucis/report/coverage_report_builder.py:CoverageReportBuilder.build_cross", "src/ucis/report/coverage_report_builder.py:CoverageReportBuilder.build_covergroup"]}
{"id": "C33", "title": "Percentages stay in range in double precision", "statement": "With non-negative weights whose sums are at most 2^46, every percentage computed in IEEE double precision is finite and lies between 0 and 100, a fully hit covergroup is reported as exactly 100 (and, for moderate sizes, no other), more hits never lower a percentage, and each percentage is within (2n+5)*100*2^-53 of the exact one, n bounding the number of parts that are averaged.", "quantifier": "every covergroup with such weights, with IEEE-754 binary64 rounding", "why_tests_cant": "Rounding errors depend on all inputs; a test covers a handful of them.", "anchors": ["src/ucis/report/coverage_report_builder.py:CoverageReportBuilder.build_covergroup", "src/ucis/report/coverage_report_builder.py:CoverageReportBuilder.build_coverpoint"]}
{"id": "C34", "title": "The text report is complete and ordered", "statement": "The text report has exactly one line per covergroup, covergroup instance, coverpoint and cross, in report order, indented by four blanks per nesting level, and with details exactly one line per bin under the right heading.", "quantifier": "every report", "why_tests_cant": "Unbounded nesting and lengths.", "anchors": ["src/ucis/report/format_rpt_text.py:FormatRptText.report_covergroup", "src/ucis/report/format_rpt_text.py:FormatRptText.report_coverpoint", "src/ucis/report/format_rpt_text.py:FormatRptText.report_bins"]}
{"id": "C35", "title": "Indentation is balanced", "statement": "After printing any covergroup, coverpoint or cross the indentation is what it was before, also when the printing raises half way.", "quantifier": "every report and every point of failure", "why_tests_cant": "Unbounded nesting, any failure point.", "anchors": ["src/ucis/report/format_rpt_text.py:FormatRptText.__enter__", "src/ucis/report/format_rpt_text.py:FormatRptText.__exit__"]}
{"id": "C36", "title": "Ordering bins by hit loses nothing", "statement": "With order_bins_by_hit the bin lines are the same bin lines in a different order: hit bins first, then the others, each group in original order.", "quantifier": "every bin list", "why_tests_cant": "Unbounded.", "anchors": ["src/ucis/report/format_rpt_text.py:FormatRptText.report_bins"]}
{"id": "C37", "title": "The JSON report mirrors the coverage report", "statement": "The JSON report lists all covergroups, coverpoints, crosses and bins of the report with names, percentages and counts.", "quantifier": "every report", "why_tests_cant": "Unbounded; needs a cross.", "anchors": ["src/ucis/report/format_rpt_json.py:FormatRptJson.report_covergroup", "src/ucis/report/format_rpt_json.py:FormatRptJson.report_coverpoint", "src/ucis/report/format_rpt_json.py:FormatRptJson.report_cross"]}
{"id": "C38", "title": "Source-file numbering", "statement": "The XML file table gives each file referenced by a scope exactly one id; ids are 1..n without gaps or repeats, id 1 being the placeholder; every file id used elsewhere in the file is in the table.", "quantifier": "every database", "why_tests_cant": "Unbounded hierarchies and file sets.", "anchors": ["src/ucis/xml/xml_writer.py:XmlWriter.find_all_files", "src/ucis/xml/xml_writer.py:XmlWriter.write_source_files", "src/ucis/xml/xml_writer.py:XmlWriter.addId"]}
{"id": "C39", "title": "XML round trip preserves instance coverage", "statement": "Writing a database as XML and reading it back preserves, for every top-level instance with a distinct name, every covergroup name, every covergroup-instance name, every coverpoint and cross name and crossed-coverpoint list, and every bin name, count and (for coverpoints) kind, in order.", "quantifier": "every database whose crosses refer to coverpoints of their own covergroup instance", "why_tests_cant": "Unbounded databases; tests check one file.", "anchors": ["src/ucis/xml/xml_writer.py:XmlWriter.write", "src/ucis/xml/xml_reader.py:XmlReader.read", "src/ucis/xml/xml_reader.py:XmlReader.readCovergroup"]}
{"id": "C40", "title": "Reconstructed type coverage is the sum over instances", "statement": "When XML is read, the type-level count of each bin of a coverpoint or cross is the sum of the counts of the bins of that name over all instances of the covergroup type in the element, and type-level names appear once each in order of first appearance.", "quantifier": "every UCIS XML document", "why_tests_cant": "Unbounded.", "anchors": ["src/ucis/xml/xml_reader.py:XmlReader.readCovergroup", "src/ucis/xml/xml_reader.py:XmlReader.readCoverpointBin", "src/ucis/xml/xml_reader.py:XmlReader.populateCoverpointType", "src/ucis/xml/xml_reader.py:XmlReader.populateCrossType"]}
{"id": "C41", "title": "XML is stable after one round trip", "statement": "Writing and reading a database that itself was produced by reading XML gives the same database again.", "quantifier": "every database obtained by reading XML with distinct instance names", "why_tests_cant": "Unbounded.", "anchors": ["src/ucis/xml/xml_writer.py:XmlWriter.write", "src/ucis/xml/xml_reader.py:XmlReader.read"]}
{"id": "C42", "title": "XML round trip preserves reported coverage", "statement": "Writing a database as XML and reading it back leaves all reported percentages of covergroup instances unchanged.", "quantifier": "every database whose bins all have at_least 1 and whose weights are all 1 (in general: false)", "why_tests_cant": "Unbounded; needs at_least or weights other than 1.", "anchors": ["src/ucis/xml/xml_writer.py:XmlWriter.write", "src/ucis/xml/xml_reader.py:XmlReader.read", "src/ucis/report/coverage_report_builder.py:CoverageReportBuilder.build"]}
{"id": "C43", "title": "XML round trip preserves the kind of cross bins", "statement": "Ignore and illegal bins of crosses are still ignore and illegal bins after writing XML and reading it back.", "quantifier": "every cross", "why_tests_cant": "Needs ignore or illegal cross bins.", "anchors": ["src/ucis/xml/xml_writer.py:XmlWriter.write_cross_bins", "src/ucis/xml/xml_reader.py:XmlReader.readCrossBin"]}
{"id": "C44", "title": "XML round trip preserves history nodes", "statement": "Writing a database as XML and reading it back preserves each history node's names, test status, times, user, command, category, vendor data and comment, and the nodes are still found by kind.", "quantifier": "every list of history nodes", "why_tests_cant": "Unbounded field values.", "anchors": ["src/ucis/xml/xml_writer.py:XmlWriter.write_history_nodes", "src/ucis/xml/xml_reader.py:XmlReader.readHistoryNode", "src/ucis/mem/mem_history_node.py"]}
{"id": "C45", "title": "Dates survive the XML round trip", "statement": "The 14-digit date of a history node is written as ISO 8601 and read back as the same 14 digits, for every valid date and time. The reader takes a text for a date exactly if it has the form year-month-dayThour:minute:second (one or two digits each but for the year, a small t allowed, the day with a leading blank allowed) and the date exists; any other text raises a ValueError. The writer takes fourteen digits for the date they show, and raises a ValueError if there is no such date.", "quantifier": "every calendar date with year 1000-9999 and every time of day; every text", "why_tests_cant": "About 3*10^11 dates, calendar and leap-year rules.", "anchors": ["src/ucis/xml/xml_writer.py:XmlWriter.setAttrDateTime", "src/ucis/xml/xml_reader.py:XmlReader.getAttrDateTime"]}
{"id": "C46", "title": "Malformed XML is rejected, never misread", "statement": "Reading a coverpoint bin with neither range nor sequence, with an unknown bin type, with a non-integer count, or a cross over an unknown coverpoint, or an id with an unknown file raises an error and yields no database.", "quantifier": "every XML document", "why_tests_cant": "Unbounded document shapes.", "anchors": ["src/ucis/xml/xml_reader.py:XmlReader.readCoverpointBin", "src/ucis/xml/xml_reader.py:XmlReader.readCrossInst", "src/ucis/xml/xml_reader.py:XmlReader.readStatementId"]}
{"id": "C47", "title": "Written XML validates", "statement": "The XML written for a database satisfies the UCIS schema (so that pyucis itself can read it) exactly when the database has an instance, every written covergroup instance has a coverpoint, every coverpoint has a written bin, no count is negative, and the numbers of the history nodes have the form the schema asks for.", "quantifier": "every database the writer accepts", "why_tests_cant": "Unbounded databases against the whole schema.", "anchors": ["src/ucis/xml/xml_writer.py:XmlWriter.write", "src/ucis/xml/schema/ucis.xsd", "src/ucis/xml/xml_factory.py:XmlFactory.read"]}
{"id": "C48", "title": "Counts survive as text", "statement": "Every integer count written in decimal is read back as the same integer.", "quantifier": "every integer", "why_tests_cant": "Unbounded integers.", "anchors": ["src/ucis/xml/xml_writer.py:XmlWriter.write_coverpoint_bins", "src/ucis/xml/xml_reader.py:XmlReader.getAttrInt"]}
{"id": "C49", "title": "YAML instance data is recorded faithfully", "statement": "Loading a YAML document records every covergroup, instance, coverpoint and cross with their names and order, and every instance-level bin with its name, count, kind and at_least.", "quantifier": "every valid YAML coverage document that loads", "why_tests_cant": "Unbounded.", "anchors": ["src/ucis/yaml/yaml_reader.py:YamlReader.process_covergroup", "src/ucis/yaml/yaml_reader.py:YamlReader.record_coverpoint", "src/ucis/yaml/yaml_reader.py:YamlReader.record_cross"]}
{"id": "C50", "title": "YAML type coverage is the sum over instances", "statement": "For coverpoints without ignore and illegal bins, and for crosses, the type-level count of each bin is the sum of the counts of that name over all instances; names appear once, in order of first appearance.", "quantifier": "every valid YAML coverage document that loads", "why_tests_cant": "Unbounded.", "anchors": ["src/ucis/yaml/yaml_reader.py:YamlReader.process_covergroup"]}
{"id": "C51", "title": "YAML type coverage keeps ignore and illegal bins apart", "statement": "Ignore and illegal bins of a YAML coverpoint are ignore and illegal bins of the covergroup type as well.", "quantifier": "every YAML coverpoint with ignore or illegal bins", "why_tests_cant": "No test looks at type-level ignore bins.", "anchors": ["src/ucis/yaml/yaml_reader.py:YamlReader.process_covergroup"]}
{"id": "C52", "title": "YAML type coverage respects atleast", "statement": "A bin that does not reach the coverpoint's atleast in any instance, and whose total does not either, is not hit at the type level.", "quantifier": "every YAML coverpoint with atleast above 1", "why_tests_cant": "No test looks at type-level atleast.", "anchors": ["src/ucis/yaml/yaml_reader.py:YamlReader.process_covergroup", "src/ucis/yaml/yaml_reader.py:YamlReader.record_coverpoint"]}
{"id": "C53", "title": "YAML crosses resolve in their own instance", "statement": "A cross of a covergroup instance refers to coverpoints of that same instance, and a cross over a coverpoint the instance does not have is rejected.", "quantifier": "every YAML coverage document", "why_tests_cant": "Needs two instances with different coverpoints.", "anchors": ["src/ucis/yaml/yaml_reader.py:YamlReader.process_covergroup"]}
{"id": "C54", "title": "YAML documents allowed by the schema load", "statement": "A document that satisfies the coverage schema and whose crosses name existing coverpoints loads without error.", "quantifier": "every schema-valid YAML document", "why_tests_cant": "Optional parts can be absent in many combinations.", "anchors": ["src/ucis/yaml/yaml_reader.py:YamlReader.process_covergroup", "src/ucis/schema/coverage.json"]}
{"id": "C55", "title": "Format registry behaves like a map", "statement": "After any sequence of registrations, a format is known exactly when it was registered, lookup gives the most recent registration, the listing is sorted without repeats, and asking for the registry again never resets it.", "quantifier": "every sequence of registry calls", "why_tests_cant": "Unbounded histories.", "anchors": ["src/ucis/rgy/format_rgy.py:FormatRgy"]}
{"id": "C56", "title": "Unknown formats are rejected before anything happens", "statement": "convert, merge and report called with an unknown input or output format raise before reading an input or touching the output.", "quantifier": "every command line and file-system state", "why_tests_cant": "All combinations of arguments and files.", "anchors": ["src/ucis/cmd/cmd_convert.py:convert", "src/ucis/cmd/cmd_merge.py:merge", "src/ucis/cmd/cmd_report.py:report"]}
{"id": "C57", "title": "A failing command leaves the output file alone", "statement": "If convert, merge or report fails, the output file has its old content (or is still absent).", "quantifier": "every command line, file-system state and point of failure", "why_tests_cant": "Needs a failure at each possible point.", "anchors": ["src/ucis/cmd/cmd_convert.py:convert", "src/ucis/cmd/cmd_merge.py:merge", "src/ucis/cmd/cmd_report.py:report", "src/ucis/xml/xml_ucis.py:XmlUCIS.write"]}
{"id": "C58", "title": "Input compression is recognised by content", "statement": "An XML input file is opened as gzip exactly if it starts with 1f 8b, as lz4 exactly if it starts with 04 22 4d 18, and as plain text otherwise, including files shorter than four bytes.", "quantifier": "every file content", "why_tests_cant": "All byte strings.", "anchors": ["src/ucis/xml/xml_factory.py:XmlFactory._open_file"]}
{"id": "C59", "title": "The library back end stores counts exactly", "statement": "A bin count handed to the shared-library back end is the count stored.", "quantifier": "every count", "why_tests_cant": "Needs counts of 2^32 and more.", "anchors": ["src/ucis/lib/lib_cover_data.py:LibCoverData.ctor", "src/ucis/coverpoint.py:Coverpoint.createBin"]}
{"id": "C60", "title": "Test data survives the library conversion", "statement": "Converting test data to the library representation and back gives the same test data.", "quantifier": "every test record", "why_tests_cant": "All field values.", "anchors": ["src/ucis/lib/lib_test_data.py:LibTestData", "src/ucis/test_data.py:TestData"]}
{"id": "C61", "title": "Setting test data is complete", "statement": "setTestData on a history node makes each getter return the corresponding field of the test record, and leaves the node's names, kind, vendor data and comment alone.", "quantifier": "every history node and test record", "why_tests_cant": "All field values.", "anchors": ["src/ucis/history_node.py:HistoryNode.setTestData", "src/ucis/mem/mem_history_node.py:MemHistoryNode"]}
{"id": "C62", "title": "Plus-arguments are separated from ordinary arguments", "statement": "The command line is split into plus-arguments and ordinary arguments: each argument ends up in exactly one of the two lists, in order; the split fails only for an empty argument.", "quantifier": "every argument list", "why_tests_cant": "Unbounded.", "anchors": ["src/ucis/__main__.py:main"]}
{"id": "C63", "title": "Which valid documents are read", "statement": "An XML document that passes pyucis's own schema validation is read without error if and only if every crossed name is a coverpoint of the same covergroup instance, every source reference names a listed file, and every history date is written without fraction and time zone.", "quantifier": "every XML document", "why_tests_cant": "The schema allows unboundedly many documents, and the reader searches whole subtrees by tag name.", "anchors": ["src/ucis/xml/xml_factory.py:XmlFactory.read", "src/ucis/xml/xml_reader.py:XmlReader", "src/ucis/xml/schema/ucis.xsd"]}
{"id": "C64", "title": "A failing command is reported by its exit status", "statement": "When a command of the command-line tool fails, the tool ends with a non-zero exit status; when it succeeds, with status zero.", "quantifier": "every command line, file system and database", "why_tests_cant": "Every way in which a command can fail.", "anchors": ["src/ucis/__main__.py:main", "src/ucis/cmd/cmd_convert.py:convert", "src/ucis/cmd/cmd_merge.py:merge", "src/ucis/cmd/cmd_report.py:report"]}
{"id": "C65", "title": "A report format that writes into a directory can be used", "statement": "A registered report format that says it writes into a directory can be selected with the report command. If the command fails, the files that were there are still there.", "quantifier": "every such format, database and output name", "why_tests_cant": "No format of this kind is registered by default.", "anchors": ["src/ucis/cmd/cmd_report.py:report", "src/ucis/rgy/format_if_rpt.py"]}
{"id": "C66", "title": "What is set on a library object can be read back", "statement": "A property or test record set on an object of the shared-library back end is what the corresponding getter returns; reading changes nothing.", "quantifier": "every object, property, value and state of the library", "why_tests_cant": "Needs a real UCIS library; all values and states.", "anchors": ["src/ucis/lib/lib_obj.py:LibObj", "src/ucis/lib/lib_history_node.py:LibHistoryNode"]}
{"id": "C67", "title": "Iterating over a library database", "statement": "Iterating over the scopes or history nodes of a database of the shared-library back end visits each object the library lists once, in order, then ends normally and releases the library's iterator.", "quantifier": "every list of objects", "why_tests_cant": "Unbounded.", "anchors": ["src/ucis/lib/lib_scope_iterator.py:LibScopeIterator", "src/ucis/lib/lib_history_node_iterator.py:LibHistoryNodeIterator", "src/ucis/lib/lib_ucis.py:LibUCIS"]}
{"id": "C68", "title": "Reading an XML file gives exactly what the file says", "statement": "The database read from an XML document has, for every instance, covergroup, covergroup instance, coverpoint, cross and bin element of the document, the corresponding object with the name, kind and count the document gives (with the documented defaults for missing names), in document order, and nothing else; instances of one name become one instance. What the document does not give is the same for all documents: every scope has weight 1, source language OTHER and no place in the source, every bin has at-least 1, goal 1 and weight 1, and options are those of new scopes.", "quantifier": "every XML document that is read without error", "why_tests_cant": "Documents of other tools: unbounded nesting, optional attributes, sequences or ranges, several covergroups per element.", "anchors": ["src/ucis/xml/xml_reader.py:XmlReader", "src/ucis/xml/xml_factory.py:XmlFactory.read"]}
{"id": "C69", "title": "Which databases can be written as XML", "statement": "Writing a database as XML succeeds if and only if all its names are text XML can hold, every coverpoint bin has exactly one of the kinds normal, ignore and illegal, every cross was created with its coverpoints, and the fields of its history nodes have the types and date format they should have.", "quantifier": "every in-memory database, user name and clock", "why_tests_cant": "Every name, every combination of bin types and every history node field.", "anchors": ["src/ucis/xml/xml_writer.py:XmlWriter"]}
{"id": "C70", "title": "Merging XML files from file to file", "statement": "`ucis merge` on accepted XML files succeeds and writes one accepted XML file which says exactly what the inputs say together: the same instances, covergroups, covergroup instances, coverpoints, crosses and bins by name, in order of first appearance, each bin with the sum of the counts the inputs give it and nothing else. Merging in stages gives the same file contents as merging at once, the order of the inputs does not change any count, and no other file changes.", "quantifier": "every list of XML files that validate and can be read, in which names are not repeated within covergroups and crosses name coverpoints; every number of files and every way to split the merge in stages", "why_tests_cant": "The files, their number, their sizes, overlapping names and the staging are unbounded; the property spans parser, validator, reader, merger and writer.", "anchors": ["src/ucis/cmd/cmd_merge.py:merge", "src/ucis/merge/db_merger.py:DbMerger.merge", "src/ucis/xml/xml_reader.py:XmlReader.read", "src/ucis/xml/xml_writer.py:XmlWriter.write", "src/ucis/xml/xml_factory.py:XmlFactory.read"]}
{"id": "C71", "title": "Converting an XML file to XML", "statement": "`ucis convert` from XML to XML succeeds on accepted files and the new file says what the old one says, with elements of one name combined; nothing changes at all if no name is repeated and the bins of a coverpoint are in the order of their kinds, in particular if the file was written by convert or merge.", "quantifier": "every XML file that validates and can be read, in which names are not repeated within covergroups and crosses name coverpoints", "why_tests_cant": "Every document, and the chain of parser, validator, reader and writer.", "anchors": ["src/ucis/cmd/cmd_convert.py:convert", "src/ucis/xml/xml_reader.py:XmlReader.read", "src/ucis/xml/xml_writer.py:XmlWriter.write"]}
{"id": "C72", "title": "A written XML document says what the database holds", "statement": "Whenever a database is written as XML, the document, read by independent rules (and not by the reader of this library), lists exactly the instances, covergroups, covergroup instances, coverpoints, crosses, bins, kinds and counts of the database in their order, and every string in it is one XML can hold.", "quantifier": "every in-memory database that can be written, whose crossed coverpoints have names without surrounding white space", "why_tests_cant": "Every shape of database, every name and count; a round trip test cannot notice a writer and a reader that agree on a wrong format.", "anchors": ["src/ucis/xml/xml_writer.py:XmlWriter"]}
{"id": "C73", "title": "Converting and merging YAML files to XML", "statement": "`ucis convert` and `ucis merge` with YAML input succeed on documents that list what XML can express, and the XML file they write is accepted and says what the documents list: the same covergroups, instances, coverpoints, crosses and bins under one instance, each bin with the sum of its counts over all documents; a single document in which no name is repeated is carried over without any change.", "quantifier": "every list of YAML documents that load, have names XML can hold, no negative counts, no empty covergroups, instances or coverpoints, no repeated covergroup, instance or coverpoint names, and crosses over coverpoints of their own instance", "why_tests_cant": "The documents, their number and their sizes are unbounded; the property spans YAML loader, merger, XML writer and validator.", "anchors": ["src/ucis/cmd/cmd_convert.py:convert", "src/ucis/cmd/cmd_merge.py:merge", "src/ucis/yaml/yaml_reader.py:YamlReader", "src/ucis/xml/xml_writer.py:XmlWriter.write"]}
{"id": "C74", "title": "What a newly created scope looks like", "statement": "After any successful creating call (createScope, createInstance, createToggle, createCovergroup, createCoverpoint, createCross, createCoverInstance) every integer property of the returned object has its documented start value: the weight is the one given, the goal is 100 for instances and toggles and unset (-1) otherwise, source type and under-design-unit are 0, a covergroup expects 0 hits, a coverpoint or cross 1, both have 64 automatic bins, no overlap detection and no strobe, a covergroup collects per instance and merges instances; every other property raises. Source language and flags are those given (coverage scopes keep no flags), an instance refers to the given design unit and a cross to exactly the given coverpoints in order, the comment is empty and there are no items or children.", "quantifier": "every database, every creating call with every argument, every property and index", "why_tests_cant": "Arguments and databases are unbounded; wrong defaults come from the chain of constructors of several base classes and only show for particular classes.", "anchors": ["src/ucis/mem/mem_scope.py:MemScope.__init__", "src/ucis/mem/mem_covergroup.py:MemCovergroup.__init__", "src/ucis/mem/mem_coverpoint.py:MemCoverpoint.__init__", "src/ucis/mem/mem_cross.py:MemCross.__init__", "src/ucis/mem/mem_instance_scope.py:MemInstanceScope.__init__", "src/ucis/cvg_scope.py:CvgScope.__init__", "src/ucis/scope.py:Scope.__init__"]}
{"id": "C75", "title": "Merging keeps options and goals", "statement": "A merge carries over the goal, the options (at-least, automatic bin limit, overlap detection, strobe, comment, per-instance, merge-instances), the flags and the design-unit kind of the scopes it merges, and the goal, weight, limit and flags of the bins. Intended; the code resets them: every scope a merge adds has the options of a newly created scope, and its bins those of newly created bins, whatever the sources say.", "quantifier": "every list of source databases, every destination, every scope a successful merge adds", "why_tests_cant": "The loss only shows for sources that use non-default options, at any place in trees of any size.", "anchors": ["src/ucis/merge/db_merger.py:DbMerger.merge", "src/ucis/merge/db_merger.py:DbMerger._merge_covergroups", "src/ucis/merge/db_merger.py:DbMerger._merge_coverpoints"]}
{"id": "C76", "title": "The report of an XML file is a function of what the file says", "statement": "For every XML document that can be read, the coverage report built from it is exactly determined by what the document says: one entry per covergroup of each instance, in order, with the totals of its coverpoints and crosses over its instances (one bin per name, counts added up), below it one entry per covergroup instance with its own bins and counts, percentages being the share of bins with at least one hit and means with equal weights; the by-name lookup gives the last covergroup of each name and the overall number is that of the last instance; there is no report (ZeroDivisionError) exactly if an instance has no covergroup. The report command on such a file writes the text of exactly this report to standard output or to the given file and changes nothing else; and reporting the result of a merge reports the merge of what the sources say.", "quantifier": "all documents that can be read, all arithmetics (exact and binary64), all accepted files, output on a stream or in a file, all lists of merged files", "why_tests_cant": "Tests compare a few reports with stored texts; that nothing else in the document (weights, goals, at-least counts, keys, user attributes) influences the report, and that nothing said is left out, needs all documents.", "anchors": ["src/ucis/xml/xml_reader.py:XmlReader.read", "src/ucis/report/coverage_report_builder.py:CoverageReportBuilder.build", "src/ucis/report/format_rpt_text.py:FormatRptText", "src/ucis/cmd/cmd_report.py:report"]}
{"id": "C77", "title": "The C-style functions act on the object they are given, or on the database", "statement": "Each ucis_* function has the effect of the method it stands for on the given object; None as object or parent stands for the database (for the parent of a cover item it raises instead). A creating call adds exactly one new empty scope, under the given parent or at the top level, with the name, type, weight and source information given. No call changes any scope or history node other than the one it is for, a call that raises changes nothing, an integer property that can be set reads back as set (flags and test status as 0 or 1), and ucis_Time gives 14 digits that stand for the present time.", "quantifier": "every database, every call of every ucis_* function on in-memory databases with every argument, every property and index", "why_tests_cant": "Databases and arguments are unbounded; a swapped or dropped argument in one of the wrappers only shows for particular values.", "anchors": ["src/ucis/__init__.py:ucis_GetIntProperty", "src/ucis/__init__.py:ucis_SetIntProperty", "src/ucis/__init__.py:ucis_CreateScope", "src/ucis/__init__.py:ucis_CreateInstance", "src/ucis/__init__.py:ucis_CreateToggle", "src/ucis/__init__.py:ucis_CreateNextCover", "src/ucis/__init__.py:ucis_Time", "src/ucis/mem/mem_history_node.py:MemHistoryNode.getIntProperty"]}
{"id": "C78", "title": "The C-style functions are usable on in-memory databases", "statement": "Through the C-style functions a scope can be removed, real and handle properties can be read and set, string properties read back as set, the status of a test reads back as it was set, and a toggle keeps its canonical name, metric, type and direction. Intended; the code does none of this: removing raises AttributeError for every scope, real and handle properties raise UnimplError for every object, strings set on scopes are dropped, every status reads as 1 after setting test data and only the value 1 reads back as set, and the four toggle arguments are discarded.", "quantifier": "every in-memory database, object, property and value", "why_tests_cant": "The functions exist and are documented, so a test of their presence passes; that no object whatever supports them is a statement about all objects.", "anchors": ["src/ucis/__init__.py:ucis_RemoveScope", "src/ucis/__init__.py:ucis_GetRealProperty", "src/ucis/__init__.py:ucis_GetHandleProperty", "src/ucis/__init__.py:ucis_SetStringProperty", "src/ucis/mem/mem_history_node.py:MemHistoryNode.setIntProperty", "src/ucis/mem/mem_toggle_instance_scope.py:MemToggleInstanceScope.__init__"]}
{"id": "C79", "title": "The report of a YAML file is a function of what the file says", "statement": "For every YAML document that loads, the coverage report built from it is exactly determined by what the document says: one entry per covergroup, in order and with its weight, with the totals of its coverpoints and crosses over its instances, where one hit covers a bin; below it one entry per instance with its own bins, counts and required hits; percentages are the share of covered bins, means with equal weights within a covergroup, and the mean weighted by covergroup over all; there is no report (ZeroDivisionError) exactly if the weights add up to 0. The report command on such a file writes the text of exactly this report to standard output or to the given file and changes nothing else.", "quantifier": "all documents that load, all arithmetics (exact and binary64), all files with such a document, output on a stream or in a file", "why_tests_cant": "Tests load a few documents; that each option and count of a document has exactly the documented influence on the report needs all documents.", "anchors": ["src/ucis/yaml/yaml_reader.py:YamlReader.loads", "src/ucis/yaml/yaml_reader.py:YamlReader.process_covergroup", "src/ucis/report/coverage_report_builder.py:CoverageReportBuilder.build", "src/ucis/cmd/cmd_report.py:report"]}
{"id": "C80", "title": "The JSON report of a file contains what the file says", "statement": "For every accepted XML or YAML file, the report command with output format json writes one JSON object to standard output or to the given file that holds, for every covergroup, covergroup instance, coverpoint, cross and bin of the report of the file, its name, coverage and count, in order; it changes nothing else.", "quantifier": "all accepted XML files and all YAML files that load, output on a stream or in a file, all arithmetics", "why_tests_cant": "Tests would have to compare the output for every shape of covergroup; the reports with crosses are exactly those that are never produced.", "anchors": ["src/ucis/report/format_rpt_json.py:FormatRptJson.report", "src/ucis/report/format_rpt_json.py:FormatRptJson.report_cross", "src/ucis/cmd/cmd_report.py:report"]}
{"id": "C81", "title": "A bin's count belongs to it alone", "statement": "Incrementing a bin adds to that bin's count and to no other bin's, whatever CoverData objects the bins were created from; and only increments change a count once the bin exists.", "quantifier": "all histories of calls that create scopes and bins, create, pass and assign to CoverData objects, and increment bins; all pairs of bins", "why_tests_cant": "Whether two bins share state depends on the whole history of which objects were passed where; a test tries one history.", "anchors": ["src/ucis/mem/mem_scope.py:MemScope.createNextCover", "src/ucis/mem/mem_cover_index.py:MemCoverIndex.incrementCover", "src/ucis/coverpoint.py:Coverpoint.createBin", "src/ucis/cover_data.py:CoverData"]}
{"id": "C82", "title": "Setters set their field and nothing else", "statement": "A setter of a scope (weight, goal, at_least, auto_bin_max, detect_overlap, strobe, comment, per_instance, merge_instances) makes the getter of the same name, and the integer property for the same field, return the value given; every other field and property of that scope, its items and children, every other scope, file handle and history node stays as it was. The setter exists on exactly the classes that have the field; elsewhere the call raises and changes nothing.", "quantifier": "all databases, scopes, setters and values", "why_tests_cant": "Two setters sharing a variable, or a class overriding one side of a getter/setter pair, shows only for particular combinations of class, setter and value.", "anchors": ["src/ucis/mem/mem_scope.py:MemScope.setWeight", "src/ucis/mem/mem_cvg_scope.py:MemCvgScope.setAtLeast", "src/ucis/mem/mem_covergroup.py:MemCovergroup.setPerInstance", "src/ucis/cvg_scope.py:CvgScope.getIntProperty"]}
{"id": "C83", "title": "History nodes keep what they were given", "statement": "Creating a history node adds exactly one node, after the existing ones, with the parent, names and kind given and the documented initial values, and changes nothing else. A setter of a history node changes one field of one node. Whatever calls follow, a node keeps its place, names, kind and parent, and a field keeps its value until that field of that node is set.", "quantifier": "all databases, history nodes, fields, values and histories of calls", "why_tests_cant": "Loss of a field depends on the whole sequence of calls made on all nodes.", "anchors": ["src/ucis/mem/mem_history_node.py:MemHistoryNode", "src/ucis/mem/mem_ucis.py:MemUCIS.createHistoryNode", "src/ucis/history_node.py:HistoryNode.setTestData"]}
{"id": "C84", "title": "A reader object can read several files", "statement": "Reading several XML files one after the other with one XmlReader object gives, for each file, the database that a new reader would give for it; a sequence of files can be read if each of them can.", "quantifier": "all sequences of XML documents of any length, including repeated ones", "why_tests_cant": "What a reader remembers from earlier files matters only for particular combinations of instance, module and file ids in later ones.", "anchors": ["src/ucis/xml/xml_reader.py:XmlReader", "src/ucis/xml/xml_reader.py:XmlReader.getScope", "src/ucis/xml/xml_reader.py:XmlReader.getInstScope"]}
{"id": "C85", "title": "A database can be merged into itself", "statement": "Merging into a database that is itself among the sources, once or several times, gives what merging copies of it would give: the merge reads only what was there before it began. Each bin that was there is counted once more for each time the database is a source. A merge into a database without dangling references leaves none.", "quantifier": "all databases in which references resolve, all lists of sources with the destination at any positions, also merges that fail", "why_tests_cant": "The merge reads the database it is changing; whether a loop sees scopes added earlier in the same merge depends on the order of reading and creating.", "anchors": ["src/ucis/merge/db_merger.py:DbMerger.merge", "src/ucis/mem/mem_instance_scope.py:MemInstanceScope.getInstanceDu"]}
{"id": "C86", "title": "XML validation accepts exactly the conforming files", "statement": "Reading an XML file through the XML format interface refuses it, without reading it, exactly if it does not conform to the UCIS schema: the root is UCIS; every element has the declared attributes with values of their types and all required ones; its children form the declared sequence with the declared numbers of occurrences; simple values follow the grammar and the range of their type (integers, decimals, doubles, booleans, calendar dates with zones). A file that conforms is read without further checks.", "quantifier": "all XML documents, all strings as attribute values and text", "why_tests_cant": "Validity is defined by grammars over unbounded documents and strings; tests see a few files.", "anchors": ["src/ucis/xml/__init__.py:validate_ucis_xml", "src/ucis/xml/xml_factory.py:XmlFactory.read", "src/ucis/xml/schema/ucis.xsd"]}
{"id": "C87", "title": "No dangling references in any obtainable database", "statement": "In every database a program can have in memory - new, read from an XML file by a fresh reader, loaded from a YAML file, and then changed by any sequence of API calls and merges, failing ones and merges of a database into itself included - every design unit of an instance is a scope of that database, every coverpoint of a cross is a scope of that database with the name the cross reports for it, and no two file handles have the same name.", "quantifier": "all histories of reading, API calls and merges, with all documents and all merge sources", "why_tests_cant": "It must hold for every history, including merges that raise half-way; tests run a few histories.", "anchors": ["src/ucis/merge/db_merger.py:DbMerger.merge", "src/ucis/xml/xml_reader.py:XmlReader.read", "src/ucis/yaml/yaml_reader.py:YamlReader.load", "src/ucis/mem/mem_cross.py:MemCross", "src/ucis/mem/mem_instance_scope.py:MemInstanceScope", "src/ucis/mem/mem_ucis.py:MemUCIS.createFileHandle"]}
{"id": "C88", "title": "Dates and the writer's time zone", "statement": "Dates and times correspond one to one to seconds, over the whole range of years 1 to 9999. In every time zone, the date of a history node is written to XML and read back unchanged exactly if the clock of that zone shows it at some moment: always in zones with a fixed offset; with a change of the clock, always except for the times that are skipped when the clock is set forward. Dates that pyucis takes from the clock itself always survive.", "quantifier": "every date with year 1000-9999, every time zone (a function from moments to offsets), every mktime that finds a moment for each time that exists", "why_tests_cant": "Every calendar date and every time zone; a test runs in one zone.", "anchors": ["src/ucis/xml/xml_writer.py:XmlWriter.setAttrDateTime", "src/ucis/xml/xml_writer.py:XmlWriter.write_history_nodes", "src/ucis/xml/xml_reader.py:XmlReader.getAttrDateTime"]}
{"id": "C89", "title": "Merging runs never lowers a percentage", "statement": "When databases of the same structure (the same instances, covergroups, coverpoints, crosses and bins with the same weights and thresholds, differing in counts) are merged into an empty database, the merged database has that structure too and has a report if one of them has; every percentage of its report - overall, of each covergroup, coverpoint, cross and covergroup instance - is at least the one in the report of each of the merged databases; a fully covered run stays fully covered; and the report does not depend on the order of the databases.", "quantifier": "all lists of databases of one structure, all structures, sizes and counts, all orders", "why_tests_cant": "Quantifies over arbitrarily many runs, all combinations of counts and all orders; tests merge two or three fixed databases.", "anchors": ["src/ucis/merge/db_merger.py: DbMerger.merge", "src/ucis/report/coverage_report_builder.py: CoverageReportBuilder.build"]}
{"id": "C90", "title": "A converted YAML file has the same report", "statement": "Converting a YAML coverage file to XML and reporting the XML file prints the report of the YAML file, if what the file says can be written as XML (names XML can hold, distinct names, no negative counts, ...), it has no ignore and illegal bins, and all its weights and required hits are 1. If only the last is not so, the report of the XML file is that of the same YAML document with all weights and required hits 1: names, bins, counts and the totals and percentages of covergroups stay, and the percentage of no covergroup instance falls; weights, thresholds and the overall percentage are lost.", "quantifier": "all YAML documents, numbers of covergroups, instances, coverpoints, crosses and bins, all counts, weights and thresholds", "why_tests_cant": "Two different readers, the merger, a writer and the report builder must agree for every document; tests compare a few.", "anchors": ["src/ucis/cmd/cmd_convert.py:convert", "src/ucis/cmd/cmd_report.py:report", "src/ucis/yaml/yaml_reader.py:YamlReader", "src/ucis/xml/xml_writer.py:XmlWriter", "src/ucis/report/coverage_report_builder.py:CoverageReportBuilder"]}
{"id": "C91", "title": "Looking at a library database does not change it", "statement": "Opening a database kept by a UCIS shared library, looping over the scopes below an object and asking for source infos and file names changes nothing in the database, and the loop finds every scope below whose type is in the mask.", "quantifier": "all library databases, objects, masks of any width, stored goals", "why_tests_cant": "The effect is in the C library, which unit tests replace or do not look at; and it depends on what goals and types are stored.", "anchors": ["src/ucis/lib/lib_scope_iterator.py:LibScopeIterator", "src/ucis/lib/lib_scope.py:LibScope", "src/ucis/lib/lib_ucis.py:LibUCIS", "src/ucis/scope.py:Scope.__init__", "src/ucis/lib/libucis.py:fspec"]}
{"id": "C92", "title": "Creating objects through a UCIS library", "statement": "A creating call hands its arguments to the library unchanged, creates exactly the one object asked for, with the documented initial options, and changes nothing else; if the library refuses, or an argument cannot be handed over, there is an exception and nothing has changed. A setter changes the one property it is for.", "quantifier": "all calls, arguments, library states, and all answers of the library", "why_tests_cant": "Refusals of the library cannot be provoked in unit tests, and what goes wrong afterwards depends on what is created next.", "anchors": ["src/ucis/lib/lib_scope.py:LibScope", "src/ucis/lib/lib_covergroup.py:LibCovergroup", "src/ucis/lib/lib_coverpoint.py:LibCoverpoint", "src/ucis/lib/lib_cross.py:LibCross", "src/ucis/lib/lib_ucis.py:LibUCIS", "src/ucis/lib/lib_cvg_scope.py:LibCvgScope"]}
{"id": "C93", "title": "Both back ends build the same database", "statement": "A program that builds a database through the API leaves the same database in memory and in a UCIS library: the same scopes at the same places with the same fields and options, design units, crossed coverpoints, cover items in the same order, and the same history nodes. A call that raises with one back end raises with the other.", "quantifier": "all programs of creating and option-setting calls, in any order and of any length", "why_tests_cant": "Tests build one small database per back end; the agreement must hold for every order of calls, and no UCIS library is available to the unit tests.", "anchors": ["src/ucis/mem/mem_scope.py:MemScope", "src/ucis/mem/mem_covergroup.py:MemCovergroup", "src/ucis/mem/mem_ucis.py:MemUCIS", "src/ucis/lib/lib_scope.py:LibScope", "src/ucis/lib/lib_covergroup.py:LibCovergroup", "src/ucis/lib/lib_cross.py:LibCross"]}
{"id": "C94", "title": "The printed percentages are the percentages", "statement": "In the text report every coverpoint and cross is printed with the whole percentage nearest to its share of hit bins (half-way cases to the even one), without any error of the floating-point division; every covergroup with the hundredth of a percent nearest to its weighted mean; the older formatter with the number of decimals it is set to.  More hits never lower a printed percentage.  100 is printed for items that are fully covered and for no others.", "quantifier": "all databases, all reports, all formatter settings, all weights and counts", "why_tests_cant": "Rounding happens three times (division, round(), formatting); a test sees a handful of quotients, the boundary cases are rare", "anchors": ["src/ucis/report/format_rpt_text.py:FormatRptText.report_covergroup", "src/ucis/report/format_rpt_text.py:FormatRptText.report_coverpoint", "src/ucis/report/format_rpt_text.py:FormatRptText.report_cross", "src/ucis/report/text_coverage_report_formatter.py:TextCoverageReportFormatter"]}
{"id": "C95", "title": "The JSON report is valid under its published schema", "statement": "Every JSON report the program writes is valid under the schema that comes with the program for it and that the documentation prints (schema/covreport.json).", "quantifier": "all databases for which a JSON report is written, all arithmetics", "why_tests_cant": "A test validates one document, if any; validity has to hold for every nesting, every missing or empty list of bins", "anchors": ["src/ucis/report/format_rpt_json.py:FormatRptJson.report", "src/ucis/report/format_rpt_json.py:FormatRptJson.report_covergroup", "src/ucis/schema/covreport.json", "doc/source/reference/coverage_report_json.rst"]}
{"id": "C96", "title": "The XML format is the documented one", "statement": "A written XML file follows the published description of the interchange format: per covergroup one section per instance (or one with the type data), the covergroup and its module named, coverpoint bins with type bins, ignore or illegal and the range -1 to -1, auto_bin_max=0 among the options, cross bins with the indices their names tell and a type only if ignore or illegal. A reader takes the documented options (per_instance, merge_instances, weight, at_least) into account and does not interpret value ranges.", "quantifier": "every database that can be written; every document that is read", "why_tests_cant": "Unbounded databases and documents; independence of the reader from parts of the document is a statement about pairs of documents.", "anchors": ["src/ucis/xml/xml_writer.py:XmlWriter.write_coverinstance", "src/ucis/xml/xml_writer.py:XmlWriter.write_coverpoint_bins", "src/ucis/xml/xml_writer.py:XmlWriter.write_cross_bins", "src/ucis/xml/xml_writer.py:XmlWriter.write_options", "src/ucis/xml/xml_reader.py:XmlReader.read", "doc/source/reference/xml_interchange.rst"]}
{"id": "C97", "title": "Type masks select exactly the named types", "statement": "In every database built with types of the enumerations, read from a file or merged, scopes(A | B | ...) yields exactly the children whose type is one of A, B, ..., in order, scopes(ALL) yields every child, and coverItems(A | B | ...) exactly the items of these types. DU_ANY holds of the five design-unit types and no other. The type of the database object is not selected by ALL. USERBITS and RESERVEDBIN select no item of a named type, and GENERICBIN is USERBIN.", "quantifier": "every database obtained by any history of calls, merges and files; every scope of it; every list of types", "why_tests_cant": "Unbounded databases and all 2^34 (2^22 for items) combinations of types.", "anchors": ["src/ucis/scope_type_t.py:ScopeTypeT", "src/ucis/cover_type_t.py:CoverTypeT", "src/ucis/mem/mem_scope_iterator.py", "src/ucis/mem/mem_cover_index_iterator.py"]}
{"id": "C98", "title": "Who wrote a database, and when", "statement": "getWrittenBy and getWrittenTime return what was set last, at first the user and the time of creation; no other call, no merge and no close changes them, and setting them changes nothing else. The instances of the older interface are listed in order of creation, each with its number as key. A written file records the user and time of the database, and reading the file restores them.", "quantifier": "every history of calls on a database object; every database written or read", "why_tests_cant": "Unbounded histories.", "anchors": ["src/ucis/mem/mem_ucis.py:MemUCIS.setWrittenBy", "src/ucis/mem/mem_ucis.py:MemUCIS.setWrittenTime", "src/ucis/mem/mem_ucis.py:MemUCIS.createCoverInstance", "src/ucis/xml/xml_writer.py:XmlWriter.write", "src/ucis/xml/xml_reader.py:XmlReader.read"]}
{"id": "C99", "title": "Written XML files are well-formed and say what was written", "statement": "Whatever characters the names and texts in a database have (quotes, angle brackets, ampersands, white space, line ends, ]]>), the text of the file written for it is a well-formed XML document; it has one reading, which gives back every name, text and count exactly; databases with different coverage get different texts. Reading the text back and merging such texts work on what they say.", "quantifier": "every database that can be written; every text; every parser that follows the grammar of XML", "why_tests_cant": "Unbounded strings and trees; escaping errors show only for particular combinations of characters.", "anchors": ["src/ucis/xml/xml_writer.py:XmlWriter.write", "src/ucis/xml/xml_reader.py:XmlReader.read", "src/ucis/xml/xml_ucis.py:XmlUCIS.write", "src/ucis/xml/xml_factory.py:XmlFactory._open_file"]}
{"id": "C100", "title": "JSON reports are well-formed and say what is in the report", "statement": "Whatever characters the names in a report without crosses have (quotes, backslashes, control characters, characters outside ASCII), the JSON report written for it is a well-formed JSON text with exactly one reading. The reading gives the overall coverage, and for every covergroup and instance its name and coverage, its coverpoints' coverage, and the exact names and counts of all bins, in order; percentages read back as the same doubles. Reports that differ in any of this get different texts. The report command writes this text for XML and YAML files.", "quantifier": "every report without crosses, every file, every way of writing doubles that reads back", "why_tests_cant": "Unbounded strings and trees; escaping errors show only for particular combinations of characters.", "anchors": ["src/ucis/report/format_rpt_json.py:FormatRptJson.report", "src/ucis/cmd/cmd_report.py:report"]}
{"id": "C101", "title": "Command lines: which run a command, and with which values", "statement": "A command line runs a command exactly if it is the name of the command followed by options, one block of inputs (one for convert and report, at least one for merge, none for the list commands) and further options, with --out given for convert and merge. Options may be spelled in full, abbreviated to a beginning that fits one option only, with the value behind '=' or behind the letter of a one-letter option; behind '--' inputs may look like options; of several values of an option the last counts. The command gets exactly these inputs and values. Every other line ends the process with the help (status 0) or an error (status 2; 1 if an argument is empty) and neither reads nor writes a file; a line that begins with -h, also with letters behind it, with the help, unless '-' or '=' follows the letters h. Merging XML files from the command line writes the merge of what they say.", "quantifier": "every list of arguments, every registry, every state of the files", "why_tests_cant": "Unbounded lists of unbounded strings; abbreviations, values that look like options and the order of options and inputs interact.", "anchors": ["src/ucis/__main__.py:get_parser", "src/ucis/__main__.py:main", "src/ucis/cmd/cmd_merge.py:merge", "src/ucis/cmd/cmd_convert.py:convert", "src/ucis/cmd/cmd_report.py:report"]}
{"id": "C102", "title": "merge uses the library named with --libucis", "statement": "The shared library whose name or path is given with --libucis is the one merge works with.", "quantifier": "every name of a library, every input and output", "why_tests_cant": "Only a comparison of runs with different libraries in all states of the files could show that the option has no influence.", "anchors": ["src/ucis/__main__.py:get_parser", "src/ucis/cmd/cmd_merge.py:merge"]}
{"id": "C103", "title": "The process from its arguments and the texts of the files to the texts it writes", "statement": "Started with any command line that runs convert, merge or report on XML or YAML files that can be read, the process ends with status 0 and writes: for convert and merge, a well-formed XML file that can be read again and says the merge of what the inputs say; for report, the text report (with the percentages as printed in double precision) or the JSON report of what the input says, in the named file or on standard output. No other file changes. Merging files and reporting the result prints the report of the merge of what the sources say.", "quantifier": "every command line of that kind, every content of the files, every XML library that follows the grammar of XML", "why_tests_cant": "Unbounded arguments, files and numbers of sources; a test compares single outputs.", "anchors": ["src/ucis/__main__.py:main", "src/ucis/cmd/cmd_convert.py:convert", "src/ucis/cmd/cmd_merge.py:merge", "src/ucis/cmd/cmd_report.py:report"]}
{"id": "C104", "title": "Only the covergroups of the instances directly under the database count", "statement": "What a report says, what a merge adds to its destination, and what a written XML file says (apart from its table of source files) depend on nothing but the covergroups, with their coverpoints, crosses and covergroup instances, of the instances that are children of the database (for a merge also on the design units these name). Creating scopes, adding bins, counting and setting fields anywhere else - in an instance inside an instance, in a covergroup of the database itself or of a design unit, below a coverpoint - changes none of them, although the calls succeed and the database holds the coverage. Covergroup instances inside covergroup instances count in reports but not in merges and written files.", "quantifier": "every database, every history of API calls on such scopes, every destination and every list of other sources, every arithmetic", "why_tests_cant": "Non-interference over unbounded histories and trees: a test can only show that one call had no effect on one output.", "anchors": ["src/ucis/report/coverage_report_builder.py:build", "src/ucis/merge/db_merger.py:merge", "src/ucis/xml/xml_writer.py:write_instance_coverages", "src/ucis/mem/mem_instance_scope.py:MemInstanceScope"]}
{"id": "C105", "title": "What failing calls, merges and reports raise", "statement": "If the objects named in a call exist, the class of the scope it is made on and the number of that scope's statement items decide whether the call fails and with which exception: instances refuse types without the covergroup bit with UnimplError and other scopes refuse types they cannot create with NotImplementedError, toggles outside instances and integer properties a class does not have are an UnimplError, coverpoints, crosses, covergroup instances, bins and setters on the wrong class are an AttributeError (covergroup instances on the database itself a TypeError), a statement index out of range is an IndexError; nothing else fails. A merge of databases made by calls fails exactly when the sources do not fit together, and then with AttributeError. A report fails exactly when some instance has none: the first such instance decides, by an AttributeError if one of its covergroups has a bin without at_least and otherwise by a ZeroDivisionError. Of the registered database formats, \"libucis\" fails to create or read with a bare Exception and to write with NotImplementedError, \"yaml\" fails to write with a bare Exception, \"xml\" writes unless the path cannot be opened (OSError) or the database cannot be written, a missing file is an OSError, and every other name is a KeyError.", "quantifier": "every database, every call and its arguments, every destination and list of sources, every arithmetic", "why_tests_cant": "Callers catch exceptions by class. That no other class ever comes out of any call on any tree, and that a given class comes out exactly under a given condition, is a statement about all failing inputs.", "anchors": ["src/ucis/mem/mem_scope.py:MemScope", "src/ucis/mem/mem_instance_scope.py:MemInstanceScope.createScope", "src/ucis/mem/mem_obj.py:MemObj", "src/ucis/merge/db_merger.py:merge", "src/ucis/report/coverage_report_builder.py:build_covergroups", "src/ucis/rgy/format_rgy.py:FormatRgy", "src/ucis/lib/db_format_if_lib.py:DbFormatIfLib"]}
{"id": "C106", "title": "Reports with very large weights", "statement": "A report of a database is computed if and only if every bin has an at_least, no instance has covergroup weights adding up to zero, and every weight that is multiplied or divided by rounds to a finite double, i.e. lies strictly between -(2^1024 - 2^970) and 2^1024 - 2^970: the positive weights of coverpoints that have bins, the positive sums of the weights in a covergroup (a cross counting 1), the positive weights of covergroups, and the sum of the covergroup weights of each instance. If only a weight is too large, OverflowError is raised. If all weights fit, the report is the one computed in double arithmetic without these checks.", "quantifier": "every database and all integer weights, positive or negative", "why_tests_cant": "Weights are Python ints without bounds, read from XML and YAML files; the limit is a rounding boundary beyond any weight a test uses, and which weights take part in float arithmetic depends on signs and empty bin lists.", "anchors": ["src/ucis/report/coverage_report_builder.py:CoverageReportBuilder.build_covergroups", "src/ucis/report/coverage_report_builder.py:CoverageReportBuilder.build_covergroup", "src/ucis/report/coverage_report_builder.py:CoverageReportBuilder.build_coverpoint"]}
{"id": "C107", "title": "Which exceptions writing and reading XML raise", "statement": "Writing a database as XML, and reading an XML document, raises the exception that belongs to the first thing that is wrong in the order in which the writer and the reader meet names, attributes, fields, bins and crosses, and succeeds if nothing is wrong; writing raises only ValueErrors, TypeErrors and AttributeErrors; a document allowed by the schema raises a ValueError for a date with fractions of seconds or a time zone, and otherwise a KeyError for an unknown file or an AttributeError or Exception for a crossed name that is not a coverpoint.", "quantifier": "every in-memory database and clock; every XML document", "why_tests_cant": "Databases and documents with any number of things wrong, in any combination.", "anchors": ["src/ucis/xml/xml_writer.py:XmlWriter", "src/ucis/xml/xml_reader.py:XmlReader"]}
{"id": "C108", "title": "Which exceptions loading YAML raises, and what it prints", "statement": "Loading a YAML document that the coverage schema does not allow fails in the validation. An allowed document without the property coverage raises AttributeError. Otherwise the first covergroup that cannot be loaded decides: TypeError if it has no list of instances; else AttributeError if some cross has bins although the first cross of its name in the covergroup has no list of bins; else Exception if some cross names a coverpoint that neither its instance nor an earlier one has. Bins that come too late win over unknown coverpoints, also over those of earlier instances. Nothing else is ever raised. Nothing is printed, except for a covergroup without instances: one warning with its name, before the TypeError.", "quantifier": "every YAML document", "why_tests_cant": "Documents with several faults at once, in any order and at any depth.", "anchors": ["src/ucis/yaml/yaml_reader.py:YamlReader.load", "src/ucis/yaml/yaml_reader.py:YamlReader.process_covergroup"]}
{"id": "C109", "title": "Files that are opened are closed", "statement": "Reading, validating, writing, converting, merging and reporting close every file they open, also when they fail, and leave file objects handed in by the caller open.", "quantifier": "all file systems, file objects, names, contents, databases, and all outcomes of parsing, validation, reading and writing", "why_tests_cant": "The ways out by exception are many, and a file that is not closed shows only when the process runs out of file objects or loses what is in a buffer.", "anchors": ["src/ucis/xml/xml_factory.py:XmlFactory", "src/ucis/xml/__init__.py:validate_ucis_xml", "src/ucis/xml/xml_ucis.py:XmlUCIS.write", "src/ucis/yaml/db_format_if_yaml.py:DbFormatIfYaml.read", "src/ucis/cmd/cmd_report.py:report"]}
{"id": "C110", "title": "What is read is what was validated", "statement": "XmlFactory.read returns the database of the document that it validated, for a file name and for a file object alike; what was written to a file object can be read from it.", "quantifier": "all names, contents, kinds of compression, file objects and positions", "why_tests_cant": "Every text and every position in it is a case of its own; tests read files by name or objects at their beginning.", "anchors": ["src/ucis/xml/xml_factory.py:XmlFactory.read", "src/ucis/xml/xml_factory.py:XmlFactory._open_file", "src/ucis/xml/__init__.py:validate_ucis_xml"]}
{"id": "C111", "title": "A document that raises leaves nothing behind in the reader", "statement": "An XmlReader that has raised for one document reads the following documents as a new reader would, and the databases it returned before stay as they were.", "quantifier": "all sequences of documents, wherever in them the failing documents are and whatever they fail at", "why_tests_cant": "Tests read one document per reader, and stop at the first exception; where a document fails and what it shares with the others has no bound.", "anchors": ["src/ucis/xml/xml_reader.py:XmlReader.read", "src/ucis/xml/xml_reader.py:XmlReader.readInstanceCoverage", "src/ucis/xml/xml_reader.py:XmlReader.readCovergroup", "src/ucis/xml/xml_reader.py:XmlReader.getInstScope"]}
{"id": "C112", "title": "A YAML reader makes its databases by API calls alone, and can be used again", "statement": "A YamlReader object reads each document as a new reader would, whatever it has read or failed to read before. Its database can be built by API calls that all return, and so can the unfinished one that a failing document leaves in the reader, which has all that the covergroups before the failing one give.", "quantifier": "all sequences of YAML documents, valid and not valid, readable and not", "why_tests_cant": "Tests use a new reader for each document and drop it after an exception; sequences of documents and the places where they fail have no bound.", "anchors": ["src/ucis/yaml/yaml_reader.py:YamlReader.load", "src/ucis/yaml/yaml_reader.py:YamlReader.process_covergroup", "src/ucis/yaml/yaml_reader.py:YamlReader.record_coverpoint", "src/ucis/yaml/yaml_reader.py:YamlReader.record_cross"]}
{"id": "C113", "title": "The XML reader makes its databases by API calls alone", "statement": "Reading an XML document makes API calls on a new database, one after the other, and leaves the database, or the exception, that the document determines. The database can be built by API calls that all return, and so can the unfinished one that a document that raises leaves in the reader, so in both every reference leads to an object of the database. The unfinished one has all that was created and set before the exception, and nothing else.", "quantifier": "all XML documents, valid and not valid, readable and not", "why_tests_cant": "Tests compare a few databases after reading; that type coverage is complete although it is created while later instances are read, and what an exception leaves, depends on the order of elements without bound.", "anchors": ["src/ucis/xml/xml_reader.py:XmlReader.read", "src/ucis/xml/xml_reader.py:XmlReader.readCovergroup", "src/ucis/xml/xml_reader.py:XmlReader.populateCoverpointType", "src/ucis/xml/xml_reader.py:XmlReader.getInstScope"]}
{"id": "C114", "title": "The merger works by API calls alone, and so every database a program obtains can be built by calls", "statement": "Merging makes API calls on the destination, one after the other, and leaves it, with or without an exception, in the state the merge model says. So every database that a program obtains from new ones by API calls, by reading YAML and XML documents, with or without an exception, and by merges, with or without an exception, can be built from a new database by API calls that all return; in all of them every reference leads to an object of the database.", "quantifier": "all destinations, all lists of source databases, all sequences of calls, readings and merges", "why_tests_cant": "Tests merge a few databases into a new one; that no mixture of failed and successful readings, merges and calls leads to a database which calls could not build is a statement about histories without bound.", "anchors": ["src/ucis/merge/db_merger.py:DbMerger.merge", "src/ucis/merge/db_merger.py:DbMerger._merge_coverpoints", "src/ucis/merge/db_merger.py:DbMerger._merge_crosses", "src/ucis/merge/db_merger.py:DbMerger._merge_coverinsts"]}
