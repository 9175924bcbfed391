(** The UCIS schema, src/ucis/xml/schema/ucis.xsd, one entry per complex type in
    the order of the file; the last is the type of the document element UCIS.
    Generated by tools/gen_xsd.py. *)
From Verif Require Import Base Dict Schema.
Local Open Scope string_scope.

Definition ucis_xsd : schema :=
  [("NAME_VALUE", CType
      []
      [POne (ElemDecl "name" (TSimple SString) 1 (Some 1));
       POne (ElemDecl "value" (TSimple SString) 1 (Some 1))]
      false);
   ("USER_ATTR", CType
      [AttrDecl "key" SString true;
       AttrDecl "type" (SEnum ["int"; "float"; "double"; "str"; "bits"; "int64"]) true;
       AttrDecl "len" SInteger false]
      []
      true);
   ("BIN_CONTENTS", CType
      [AttrDecl "nameComponent" SString false;
       AttrDecl "typeComponent" SString false;
       AttrDecl "coverageCount" SNonNegative true]
      [POne (ElemDecl "historyNodeId" (TSimple SNonNegative) 0 None)]
      false);
   ("BIN", CType
      [AttrDecl "alias" SString false;
       AttrDecl "coverageCountGoal" SNonNegative false;
       AttrDecl "excluded" SBoolean false;
       AttrDecl "excludedReason" SString false;
       AttrDecl "weight" SNonNegative false]
      [POne (ElemDecl "contents" (TComplex "BIN_CONTENTS") 1 (Some 1));
       POne (ElemDecl "userAttr" (TComplex "USER_ATTR") 0 None)]
      false);
   ("SOURCE_FILE", CType
      [AttrDecl "fileName" SString true;
       AttrDecl "id" SPositive true]
      []
      false);
   ("HISTORY_NODE", CType
      [AttrDecl "historyNodeId" SNonNegative true;
       AttrDecl "parentId" SNonNegative false;
       AttrDecl "logicalName" SString true;
       AttrDecl "physicalName" SString false;
       AttrDecl "kind" SString false;
       AttrDecl "testStatus" SBoolean true;
       AttrDecl "simtime" SDouble false;
       AttrDecl "timeunit" SString false;
       AttrDecl "runCwd" SString false;
       AttrDecl "cpuTime" SDouble false;
       AttrDecl "seed" SString false;
       AttrDecl "cmd" SString false;
       AttrDecl "args" SString false;
       AttrDecl "compulsory" SString false;
       AttrDecl "date" SDateTime true;
       AttrDecl "userName" SString false;
       AttrDecl "cost" SDecimal false;
       AttrDecl "toolCategory" SString true;
       AttrDecl "ucisVersion" SString true;
       AttrDecl "vendorId" SString true;
       AttrDecl "vendorTool" SString true;
       AttrDecl "vendorToolVersion" SString true;
       AttrDecl "sameTests" SNonNegative false;
       AttrDecl "comment" SString false]
      [POne (ElemDecl "userAttr" (TComplex "USER_ATTR") 0 None)]
      false);
   ("DIMENSION", CType
      [AttrDecl "left" SInteger true;
       AttrDecl "right" SInteger true;
       AttrDecl "downto" SBoolean true]
      []
      false);
   ("TOGGLE", CType
      [AttrDecl "from" SString true;
       AttrDecl "to" SString true]
      [POne (ElemDecl "bin" (TComplex "BIN") 1 (Some 1))]
      false);
   ("TOGGLE_BIT", CType
      [AttrDecl "name" SString true;
       AttrDecl "key" SString true;
       AttrDecl "alias" SString false;
       AttrDecl "excluded" SBoolean false;
       AttrDecl "excludedReason" SString false;
       AttrDecl "weight" SNonNegative false]
      [POne (ElemDecl "index" (TSimple SNonNegative) 0 None);
       POne (ElemDecl "toggle" (TComplex "TOGGLE") 1 None);
       POne (ElemDecl "userAttr" (TComplex "USER_ATTR") 0 None)]
      false);
   ("TOGGLE_OBJECT", CType
      [AttrDecl "name" SString true;
       AttrDecl "key" SString true;
       AttrDecl "type" SString false;
       AttrDecl "portDirection" SString false;
       AttrDecl "alias" SString false;
       AttrDecl "excluded" SBoolean false;
       AttrDecl "excludedReason" SString false;
       AttrDecl "weight" SNonNegative false]
      [POne (ElemDecl "dimension" (TComplex "DIMENSION") 0 None);
       POne (ElemDecl "id" (TComplex "STATEMENT_ID") 1 (Some 1));
       POne (ElemDecl "toggleBit" (TComplex "TOGGLE_BIT") 1 None);
       POne (ElemDecl "userAttr" (TComplex "USER_ATTR") 0 None)]
      false);
   ("METRIC_MODE", CType
      [AttrDecl "metricMode" SString true]
      [POne (ElemDecl "userAttr" (TComplex "USER_ATTR") 0 None)]
      false);
   ("TOGGLE_COVERAGE", CType
      [AttrDecl "metricMode" SString false;
       AttrDecl "weight" SNonNegative false]
      [POne (ElemDecl "toggleObject" (TComplex "TOGGLE_OBJECT") 0 None);
       POne (ElemDecl "metricMode" (TComplex "METRIC_MODE") 0 None);
       POne (ElemDecl "userAttr" (TComplex "USER_ATTR") 0 None)]
      false);
   ("LINE_ID", CType
      [AttrDecl "file" SPositive true;
       AttrDecl "line" SPositive true]
      []
      false);
   ("STATEMENT_ID", CType
      [AttrDecl "file" SPositive true;
       AttrDecl "line" SPositive true;
       AttrDecl "inlineCount" SPositive true]
      []
      false);
   ("STATEMENT", CType
      [AttrDecl "alias" SString false;
       AttrDecl "excluded" SBoolean false;
       AttrDecl "excludedReason" SString false;
       AttrDecl "weight" SNonNegative false]
      [POne (ElemDecl "id" (TComplex "STATEMENT_ID") 1 (Some 1));
       POne (ElemDecl "bin" (TComplex "BIN") 1 (Some 1));
       POne (ElemDecl "userAttr" (TComplex "USER_ATTR") 0 None)]
      false);
   ("BLOCK", CType
      [AttrDecl "parentProcess" SString false;
       AttrDecl "alias" SString false;
       AttrDecl "excluded" SBoolean false;
       AttrDecl "excludedReason" SString false;
       AttrDecl "weight" SNonNegative false]
      [POne (ElemDecl "statementId" (TComplex "STATEMENT_ID") 0 None);
       POne (ElemDecl "hierarchicalBlock" (TComplex "BLOCK") 0 None);
       POne (ElemDecl "blockBin" (TComplex "BIN") 1 (Some 1));
       POne (ElemDecl "blockId" (TComplex "STATEMENT_ID") 1 (Some 1));
       POne (ElemDecl "userAttr" (TComplex "USER_ATTR") 0 None)]
      false);
   ("PROCESS_BLOCK", CType
      [AttrDecl "processType" SString true;
       AttrDecl "alias" SString false;
       AttrDecl "excluded" SBoolean false;
       AttrDecl "excludedReason" SString false;
       AttrDecl "weight" SNonNegative false]
      [POne (ElemDecl "block" (TComplex "BLOCK") 0 None);
       POne (ElemDecl "userAttr" (TComplex "USER_ATTR") 0 None)]
      false);
   ("BLOCK_COVERAGE", CType
      [AttrDecl "metricMode" SString false;
       AttrDecl "weight" SNonNegative false]
      [PChoice [ElemDecl "process" (TComplex "PROCESS_BLOCK") 1 None; ElemDecl "block" (TComplex "BLOCK") 1 None; ElemDecl "statement" (TComplex "STATEMENT") 1 None];
       POne (ElemDecl "userAttr" (TComplex "USER_ATTR") 0 None)]
      false);
   ("EXPR", CType
      [AttrDecl "name" SString true;
       AttrDecl "key" SString true;
       AttrDecl "exprString" SString true;
       AttrDecl "index" SNonNegative true;
       AttrDecl "width" SNonNegative true;
       AttrDecl "statementType" SString false;
       AttrDecl "alias" SString false;
       AttrDecl "excluded" SBoolean false;
       AttrDecl "excludedReason" SString false;
       AttrDecl "weight" SNonNegative false]
      [POne (ElemDecl "id" (TComplex "STATEMENT_ID") 1 (Some 1));
       POne (ElemDecl "subExpr" (TSimple SString) 1 None);
       POne (ElemDecl "bin" (TComplex "BIN") 1 None);
       POne (ElemDecl "hierarchicalExpr" (TComplex "EXPR") 0 None);
       POne (ElemDecl "userAttr" (TComplex "USER_ATTR") 0 None)]
      false);
   ("CONDITION_COVERAGE", CType
      [AttrDecl "metricMode" SString false;
       AttrDecl "weight" SNonNegative false]
      [POne (ElemDecl "expr" (TComplex "EXPR") 0 None);
       POne (ElemDecl "userAttr" (TComplex "USER_ATTR") 0 None)]
      false);
   ("BRANCH", CType
      []
      [POne (ElemDecl "id" (TComplex "STATEMENT_ID") 1 (Some 1));
       POne (ElemDecl "nestedBranch" (TComplex "BRANCH_STATEMENT") 0 None);
       POne (ElemDecl "branchBin" (TComplex "BIN") 1 (Some 1));
       POne (ElemDecl "userAttr" (TComplex "USER_ATTR") 0 None)]
      false);
   ("BRANCH_STATEMENT", CType
      [AttrDecl "branchExpr" SString false;
       AttrDecl "statementType" SString true;
       AttrDecl "alias" SString false;
       AttrDecl "excluded" SBoolean false;
       AttrDecl "excludedReason" SString false;
       AttrDecl "weight" SNonNegative false]
      [POne (ElemDecl "id" (TComplex "STATEMENT_ID") 1 (Some 1));
       POne (ElemDecl "branch" (TComplex "BRANCH") 0 None);
       POne (ElemDecl "userAttr" (TComplex "USER_ATTR") 0 None)]
      false);
   ("BRANCH_COVERAGE", CType
      [AttrDecl "metricMode" SString false;
       AttrDecl "weight" SNonNegative false]
      [POne (ElemDecl "statement" (TComplex "BRANCH_STATEMENT") 0 None);
       POne (ElemDecl "userAttr" (TComplex "USER_ATTR") 0 None)]
      false);
   ("FSM_STATE", CType
      [AttrDecl "stateName" SString false;
       AttrDecl "stateValue" SString false]
      [POne (ElemDecl "stateBin" (TComplex "BIN") 1 (Some 1));
       POne (ElemDecl "userAttr" (TComplex "USER_ATTR") 0 None)]
      false);
   ("FSM_TRANSITION", CType
      []
      [POne (ElemDecl "state" (TSimple SString) 2 None);
       POne (ElemDecl "transitionBin" (TComplex "BIN") 1 (Some 1));
       POne (ElemDecl "userAttr" (TComplex "USER_ATTR") 0 None)]
      false);
   ("FSM", CType
      [AttrDecl "name" SString false;
       AttrDecl "type" SString false;
       AttrDecl "width" SPositive false;
       AttrDecl "alias" SString false;
       AttrDecl "excluded" SBoolean false;
       AttrDecl "excludedReason" SString false;
       AttrDecl "weight" SNonNegative false]
      [POne (ElemDecl "state" (TComplex "FSM_STATE") 0 None);
       POne (ElemDecl "stateTransition" (TComplex "FSM_TRANSITION") 0 None);
       POne (ElemDecl "userAttr" (TComplex "USER_ATTR") 0 None)]
      false);
   ("FSM_COVERAGE", CType
      [AttrDecl "metricMode" SString false;
       AttrDecl "weight" SNonNegative false]
      [POne (ElemDecl "fsm" (TComplex "FSM") 0 None);
       POne (ElemDecl "userAttr" (TComplex "USER_ATTR") 0 None)]
      false);
   ("ASSERTION", CType
      [AttrDecl "name" SString true;
       AttrDecl "assertionKind" SString true;
       AttrDecl "alias" SString false;
       AttrDecl "excluded" SBoolean false;
       AttrDecl "excludedReason" SString false;
       AttrDecl "weight" SNonNegative false]
      [POne (ElemDecl "coverBin" (TComplex "BIN") 0 (Some 1));
       POne (ElemDecl "passBin" (TComplex "BIN") 0 (Some 1));
       POne (ElemDecl "failBin" (TComplex "BIN") 0 (Some 1));
       POne (ElemDecl "vacuousBin" (TComplex "BIN") 0 (Some 1));
       POne (ElemDecl "disabledBin" (TComplex "BIN") 0 (Some 1));
       POne (ElemDecl "attemptBin" (TComplex "BIN") 0 (Some 1));
       POne (ElemDecl "activeBin" (TComplex "BIN") 0 (Some 1));
       POne (ElemDecl "peakActiveBin" (TComplex "BIN") 0 (Some 1));
       POne (ElemDecl "userAttr" (TComplex "USER_ATTR") 0 None)]
      false);
   ("ASSERTION_COVERAGE", CType
      [AttrDecl "metricMode" SString false;
       AttrDecl "weight" SNonNegative false]
      [POne (ElemDecl "assertion" (TComplex "ASSERTION") 0 None);
       POne (ElemDecl "userAttr" (TComplex "USER_ATTR") 0 None)]
      false);
   ("SEQUENCE", CType
      []
      [POne (ElemDecl "contents" (TComplex "BIN_CONTENTS") 1 (Some 1));
       POne (ElemDecl "seqValue" (TSimple SInteger) 1 None)]
      false);
   ("RANGE_VALUE", CType
      [AttrDecl "from" SInteger true;
       AttrDecl "to" SInteger true]
      [POne (ElemDecl "contents" (TComplex "BIN_CONTENTS") 1 (Some 1))]
      false);
   ("COVERPOINT_BIN", CType
      [AttrDecl "alias" SString false;
       AttrDecl "type" (SEnum ["bins"; "default"; "ignore"; "illegal"]) true;
       AttrDecl "name" SString true;
       AttrDecl "key" SString true]
      [PChoice [ElemDecl "range" (TComplex "RANGE_VALUE") 1 None; ElemDecl "sequence" (TComplex "SEQUENCE") 1 None];
       POne (ElemDecl "userAttr" (TComplex "USER_ATTR") 0 None)]
      false);
   ("CROSS_BIN", CType
      [AttrDecl "type" SString false;
       AttrDecl "alias" SString false;
       AttrDecl "name" SString true;
       AttrDecl "key" SString true]
      [POne (ElemDecl "index" (TSimple SInteger) 1 None);
       POne (ElemDecl "contents" (TComplex "BIN_CONTENTS") 1 (Some 1));
       POne (ElemDecl "userAttr" (TComplex "USER_ATTR") 0 None)]
      false);
   ("CROSS_OPTIONS", CType
      [AttrDecl "weight" SNonNegative false;
       AttrDecl "goal" SNonNegative false;
       AttrDecl "comment" SString false;
       AttrDecl "at_least" SNonNegative false;
       AttrDecl "cross_num_print_missing" SNonNegative false]
      []
      false);
   ("CROSS", CType
      [AttrDecl "name" SString true;
       AttrDecl "key" SString true;
       AttrDecl "alias" SString false]
      [POne (ElemDecl "options" (TComplex "CROSS_OPTIONS") 1 (Some 1));
       POne (ElemDecl "crossExpr" (TSimple SString) 0 None);
       POne (ElemDecl "crossBin" (TComplex "CROSS_BIN") 0 None);
       POne (ElemDecl "userAttr" (TComplex "USER_ATTR") 0 None)]
      false);
   ("COVERPOINT_OPTIONS", CType
      [AttrDecl "weight" SNonNegative false;
       AttrDecl "goal" SNonNegative false;
       AttrDecl "comment" SString false;
       AttrDecl "at_least" SNonNegative false;
       AttrDecl "detect_overlap" SBoolean false;
       AttrDecl "auto_bin_max" SNonNegative false]
      []
      false);
   ("COVERPOINT", CType
      [AttrDecl "name" SString true;
       AttrDecl "key" SString true;
       AttrDecl "alias" SString false;
       AttrDecl "exprString" SString false]
      [POne (ElemDecl "options" (TComplex "COVERPOINT_OPTIONS") 1 (Some 1));
       POne (ElemDecl "coverpointBin" (TComplex "COVERPOINT_BIN") 1 None);
       POne (ElemDecl "userAttr" (TComplex "USER_ATTR") 0 None)]
      false);
   ("CG_ID", CType
      [AttrDecl "cgName" SString true;
       AttrDecl "moduleName" SString true]
      [POne (ElemDecl "cginstSourceId" (TComplex "STATEMENT_ID") 1 (Some 1));
       POne (ElemDecl "cgSourceId" (TComplex "STATEMENT_ID") 1 (Some 1))]
      false);
   ("CGINST_OPTIONS", CType
      [AttrDecl "weight" SNonNegative false;
       AttrDecl "goal" SNonNegative false;
       AttrDecl "comment" SString false;
       AttrDecl "at_least" SNonNegative false;
       AttrDecl "detect_overlap" SBoolean false;
       AttrDecl "auto_bin_max" SNonNegative false;
       AttrDecl "cross_num_print_missing" SNonNegative false;
       AttrDecl "per_instance" SBoolean false;
       AttrDecl "merge_instances" SBoolean false]
      []
      false);
   ("CGINSTANCE", CType
      [AttrDecl "name" SString true;
       AttrDecl "key" SString true;
       AttrDecl "alias" SString false;
       AttrDecl "excluded" SBoolean false;
       AttrDecl "excludedReason" SString false]
      [POne (ElemDecl "options" (TComplex "CGINST_OPTIONS") 1 (Some 1));
       POne (ElemDecl "cgId" (TComplex "CG_ID") 1 (Some 1));
       POne (ElemDecl "cgParms" (TComplex "NAME_VALUE") 0 None);
       POne (ElemDecl "coverpoint" (TComplex "COVERPOINT") 1 None);
       POne (ElemDecl "cross" (TComplex "CROSS") 0 None);
       POne (ElemDecl "userAttr" (TComplex "USER_ATTR") 0 None)]
      false);
   ("COVERGROUP_COVERAGE", CType
      [AttrDecl "metricMode" SString false;
       AttrDecl "weight" SNonNegative false]
      [POne (ElemDecl "cgInstance" (TComplex "CGINSTANCE") 0 None);
       POne (ElemDecl "userAttr" (TComplex "USER_ATTR") 0 None)]
      false);
   ("INSTANCE_COVERAGE", CType
      [AttrDecl "name" SString true;
       AttrDecl "key" SString true;
       AttrDecl "instanceId" SInteger false;
       AttrDecl "alias" SString false;
       AttrDecl "moduleName" SString false;
       AttrDecl "parentInstanceId" SInteger false]
      [POne (ElemDecl "designParameter" (TComplex "NAME_VALUE") 0 None);
       POne (ElemDecl "id" (TComplex "STATEMENT_ID") 1 (Some 1));
       POne (ElemDecl "toggleCoverage" (TComplex "TOGGLE_COVERAGE") 0 None);
       POne (ElemDecl "blockCoverage" (TComplex "BLOCK_COVERAGE") 0 None);
       POne (ElemDecl "conditionCoverage" (TComplex "CONDITION_COVERAGE") 0 None);
       POne (ElemDecl "branchCoverage" (TComplex "BRANCH_COVERAGE") 0 None);
       POne (ElemDecl "fsmCoverage" (TComplex "FSM_COVERAGE") 0 None);
       POne (ElemDecl "assertionCoverage" (TComplex "ASSERTION_COVERAGE") 0 None);
       POne (ElemDecl "covergroupCoverage" (TComplex "COVERGROUP_COVERAGE") 0 None);
       POne (ElemDecl "userAttr" (TComplex "USER_ATTR") 0 None)]
      false);
   ("UCIS", CType
      [AttrDecl "ucisVersion" SString true;
       AttrDecl "writtenBy" SString true;
       AttrDecl "writtenTime" SDateTime true]
      [POne (ElemDecl "sourceFiles" (TComplex "SOURCE_FILE") 1 None);
       POne (ElemDecl "historyNodes" (TComplex "HISTORY_NODE") 1 None);
       POne (ElemDecl "instanceCoverages" (TComplex "INSTANCE_COVERAGE") 1 None)]
      false)].

(** ucis/xml/__init__.py:41-62 validate_ucis_xml: a document is valid if its root
    is a valid UCIS element (namespaces are removed first). *)
Definition ucis_valid (doc : Xml.elem) : bool :=
  seqb (Xml.e_tag doc) "UCIS" && valid ucis_xsd (TComplex "UCIS") doc.
