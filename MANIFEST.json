{
 "claims": [
  {
   "property": "C01",
   "status": "proved",
   "theorems": [
    "C01_code_validity"
   ],
   "note": "iff, all byte strings"
  },
  {
   "property": "C02",
   "status": "proved",
   "theorems": [
    "C02_doc_round_trip"
   ],
   "note": "all layouts of the documented format"
  },
  {
   "property": "C03",
   "status": "proved",
   "theorems": [
    "C03_parser_accepts",
    "C03_parser_rejects",
    "C03_no_doc",
    "C03_no_panic"
   ],
   "note": "acceptance and rejection characterised by the line grammar, iff"
  },
  {
   "property": "C04",
   "status": "proved",
   "theorems": [
    "C04_only_valid_codes"
   ],
   "note": ""
  },
  {
   "property": "C05",
   "status": "proved",
   "theorems": [
    "C05_only_the_block_matters",
    "C05_indentation_irrelevant"
   ],
   "note": ""
  },
  {
   "property": "C06",
   "status": "proved",
   "theorems": [
    "C06_order_irrelevant",
    "C06_duplicate_irrelevant"
   ],
   "note": ""
  },
  {
   "property": "C07",
   "status": "proved",
   "theorems": [
    "C07_declared_none",
    "C07_no_indicator",
    "C07_empty_block_is_no_declaration_refuted"
   ],
   "note": "the _refuted theorem records a surprising consequence"
  },
  {
   "property": "C08",
   "status": "proved",
   "theorems": [
    "C08_annotation_text",
    "C08_annotation_unique",
    "C08_annotation_valid",
    "C08_comment",
    "C08_written_lists",
    "C08_written_mods",
    "C08_signed_commas_refuted"
   ],
   "note": ""
  },
  {
   "property": "C09",
   "status": "proved",
   "theorems": [
    "C09_malformed_reported",
    "C09_plain_comments",
    "C09_multiple_reported",
    "C09_exhaustive",
    "C09_exact",
    "C09_reading",
    "C09_wrong",
    "C09_right_or_wrong"
   ],
   "note": "C09_exact: annotation in effect and list of reports are exactly those of the specification `annotated` (SpecAnnotation): which text is wrong in which way, order, multiple lines; the effect on the codes is C10."
  },
  {
   "property": "C10",
   "status": "proved",
   "theorems": [
    "C10_overwrite",
    "C10_modify",
    "C10_unannotated",
    "C10_malformed",
    "C10_exact",
    "C10_added"
   ],
   "note": "Effect of one return statement, for every visited set and every table of called functions; C10_exact: for any comments (also malformed or several annotations) codes, reports (with text) and crashes of the statement; C10_added: the codes added by an annotation are found in every completing run."
  },
  {
   "property": "C11",
   "status": "proved",
   "theorems": [
    "C11_union",
    "C11_difference",
    "C11_slice_to_set",
    "C11_add",
    "C11_slice",
    "C11_slice_round_trip"
   ],
   "note": "maps are values in the model, so non-modification of inputs is by construction (the Go loops only write to the freshly made result)"
  },
  {
   "property": "C12",
   "status": "proved",
   "theorems": [
    "C12_mismatch_report",
    "C12_report_order_independent",
    "C12_message_unambiguous"
   ],
   "note": ""
  },
  {
   "property": "C13",
   "status": "proved",
   "theorems": [
    "C13_components_are_sccs"
   ],
   "note": "scc package driven depth-first over any finite graph"
  },
  {
   "property": "C14",
   "status": "proved",
   "theorems": [
    "C14_reverse_topological"
   ],
   "note": ""
  },
  {
   "property": "C15",
   "status": "proved",
   "theorems": [
    "C15_visit_panics_iff_visited",
    "C15_edge_recurses_iff_new",
    "C15_after_safe",
    "C15_driver_safe"
   ],
   "note": "call histories are arbitrary for the first three"
  },
  {
   "property": "C16",
   "status": "proved",
   "theorems": [
    "C16_common"
   ],
   "note": "Completed runs of packages with usable functions and no recursion through called function literals (see DESIGN 1.4)."
  },
  {
   "property": "C17",
   "status": "proved",
   "theorems": [
    "C17_sound",
    "C17_complete",
    "C17_equations",
    "C17_least",
    "C17_verdicts",
    "C17_example_literal",
    "C17_refuted_blank"
   ],
   "note": "Found codes = least solution, at the level of a whole run (packages without recursion through function literals called by a variable: C18_refuted_literal shows why); per-code completeness assumes that annotations agree about the code wherever one variable is returned (agree_everywhere, finding 4)."
  },
  {
   "property": "C18",
   "status": "proved",
   "theorems": [
    "C18_order_independent",
    "C18_example",
    "C18_example_literals",
    "C18_refuted_names",
    "C18_refuted_literal"
   ],
   "note": "Whole runs (runVerify), all iteration orders of the eight map iterations; packages may call function literals through variables (C18_example_literals: once, and twice, which crashes for every order). C18_example: the hypotheses hold for two packages (the order of the diagnostics does vary: eo_result, eo_result_reversed). C18_refuted_names: with a local interface type of the same name as another one the analyzer crashes for some orders only. C18_refuted_literal: with recursion through a function literal the order decides whether a missing code is reported."
  },
  {
   "property": "C19",
   "status": "proved",
   "theorems": [
    "C19_tracking"
   ],
   "note": "Tracking is exact and terminates. Hypotheses: lexical scoping, and the start identifier is no parameter of a function literal."
  },
  {
   "property": "C20",
   "status": "proved",
   "theorems": [
    "C20_reports",
    "C20_event_reported",
    "C20_origin_reported",
    "C20_function_origin_reported",
    "C20_parameter_origin_reported",
    "C20_refuted"
   ],
   "note": "Reports are exactly the events of SpecEvents.v; C20_refuted: parameters of function literals can escape."
  },
  {
   "property": "C21",
   "status": "proved",
   "theorems": [
    "C21_terminates",
    "C21_tracking",
    "C21_expression",
    "C21_bounded",
    "analysed_exists"
   ],
   "note": "Whole run never exhausts any depth; no function body analysed twice."
  },
  {
   "property": "C22",
   "status": "proved",
   "theorems": [
    "C22_found",
    "C22_promise",
    "C22_sound",
    "C22_example",
    "C22_refuted_alias",
    "C22_refuted_closure",
    "C22_refuted_paren",
    "C22_refuted_nil",
    "C22_refuted_place",
    "C22_refuted_compound",
    "C22_refuted_range_field",
    "C22_refuted_range_alias",
    "C22_refuted_range_result",
    "C22_refuted_exposed",
    "C22_refuted_exposed_alias",
    "C22_refuted_promoted",
    "C22_refuted_pointer",
    "C22_refuted_zero",
    "C22_refuted_assert",
    "C22_refuted_conversion",
    "C22_refuted_recover",
    "C22_refuted_defer",
    "C22_refuted_nil_field",
    "C22_refuted_setter",
    "C22_refuted_range"
   ],
   "note": "C22_found / C22_sound: soundness of the analyzer with respect to an execution semantics (SpecExec.v: heap of error cells, variables, calls, closures, writes in any order, outside code may fill exposed variables). C22_promise: the assume/guarantee form; imported functions are any behaviour that is true to their facts. Presuppositions: disciplined, resolved (SpecSound.v). C22_example: a package with executions that meets them. C22_refuted_*: for each clause of disciplined a package that breaks it, accepted silently, with an execution that returns an undeclared code."
  },
  {
   "property": "C23",
   "status": "proved",
   "theorems": [
    "C23_exact_literals",
    "C23_exact",
    "C23_crash_or_complete",
    "C23_completes_safe",
    "C23_requests",
    "C23_two_callers",
    "C23_no_crash_events",
    "C23_example",
    "C23_example_literals",
    "C23_example_crashes",
    "C23_refuted_lambda",
    "C23_refuted_map",
    "C23_refuted_body",
    "C23_refuted_results",
    "C23_refuted_multi",
    "C23_refuted_ctor",
    "C23_refuted_spread",
    "C23_refuted_functype",
    "C23_refuted_field"
   ],
   "note": "Exact characterisation of crashes (iff), with function literals called through variables (C23_exact_literals) and without (C23_exact). How often a literal is asked for (literal_requests) is the one notion taken from the model; its members are characterised by C23_requests, and two callers always crash (C23_two_callers). The original claim (never crashes) is refuted by eight compiling packages."
  },
  {
   "property": "C24",
   "status": "proved",
   "theorems": [
    "C24_recorded_position",
    "C24_position_to_parameter",
    "C24_parameter_to_position",
    "C36_declared_call",
    "C36_trusted",
    "C24_refuted_method"
   ],
   "note": "Recorded position = the position of the parameter with that name and of type string; both lookups are inverse; at a call the argument at that position is read (C36_declared_call, C36_trusted)."
  },
  {
   "property": "C25",
   "status": "proved",
   "theorems": [
    "C25_code_method",
    "C25_error_types",
    "C25_run",
    "C25_refuted_alias",
    "C25_refuted_local_alias"
   ],
   "note": "The Code method's result and reports are exactly determined by the expressions whose value it may return; the facts about all type declarations follow. Presupposes types_usable (lexical scoping, no closure parameter returned); ExampleCode.v meets it."
  },
  {
   "property": "C26",
   "status": "proved",
   "theorems": [
    "C26_keyed",
    "C26_positional",
    "C26_empty"
   ],
   "note": "Through any nesting of parentheses and &."
  },
  {
   "property": "C27",
   "status": "proved",
   "theorems": [
    "C27_methods",
    "C27_reports",
    "C27_order_independent",
    "C27_qualified",
    "C27_refuted_dot",
    "C27_refuted_alias"
   ],
   "note": "Interfaces of a package with unique interface names (by name, as Go guarantees without local interface types); embedding merged exactly, clashes reported iff declarations differ, independent of iteration order."
  },
  {
   "property": "C28",
   "status": "proved",
   "theorems": [
    "C28_conversions",
    "C28_excess_reported",
    "C28_nothing_else",
    "C28_declared"
   ],
   "note": "Exact verdict for each conversion site; sites are those of the model of findConversions (C29). C28_declared: for methods with declared codes, without any presupposition about the functions of the package."
  },
  {
   "property": "C29",
   "status": "proved",
   "theorems": [
    "C29_checked",
    "C29_run",
    "C29_panics",
    "C29_example",
    "C29_refuted"
   ],
   "note": "The checks are exactly those for the conversions of SpecSites.v. C29_refuted: arguments of calls through values of a named function type are not checked."
  },
  {
   "property": "C30",
   "status": "proved",
   "theorems": [
    "C30_declarations",
    "C30_code_facts",
    "C30_constructor_facts",
    "C30_interface_facts",
    "C30_type_facts"
   ],
   "note": "Facts after a complete run, stated against the documentation grammar."
  },
  {
   "property": "C31",
   "status": "proved",
   "theorems": [
    "C31_documentation_reports",
    "C31_flag_only_adds"
   ],
   "note": ""
  },
  {
   "property": "C32",
   "status": "proved",
   "theorems": [
    "C32_misplaced_errors",
    "C32_not_checked"
   ],
   "note": ""
  },
  {
   "property": "C33",
   "status": "proved",
   "theorems": [
    "C33_analysed",
    "C17_verdicts"
   ],
   "note": ""
  },
  {
   "property": "C34",
   "status": "proved",
   "theorems": [
    "C34_constant",
    "C34_long",
    "C34_refuted",
    "C34_unquote",
    "C34_text",
    "C34_written",
    "C34_same",
    "C34_understood",
    "C34_text_example",
    "quote_identifier"
   ],
   "note": "Exact for constants of any length; C34_refuted exhibits a valid code of 71 characters that is rejected. C34_text/C34_same: the text of go/constant and strconv.Unquote modelled in full and proved to give what the analysis model uses, for all byte strings and any set of printable runes."
  },
  {
   "property": "C35",
   "status": "proved",
   "theorems": [
    "C35_callers",
    "C35_more_codes",
    "may_mono"
   ],
   "note": "C35_callers: caller contains the codes of its callee unless its own annotation removes them. C35_more_codes: growing declarations elsewhere. may_mono: growing own sources (engine level)."
  },
  {
   "property": "C36",
   "status": "proved",
   "theorems": [
    "C36_declared_call",
    "C36_trusted",
    "C36_forwarder",
    "C36_example_forwarder",
    "C36_example_codes"
   ],
   "note": "Exactly the declared codes and the constructor argument; no function is analysed because of such a call. C36_forwarder (PropTrusted.v): in every completed run, a function all whose return statements forward calls of functions with declared codes gets exactly the declared codes (plus constructor arguments); instance: RunPackage1 of the test package multipackage."
  },
  {
   "property": "C37",
   "status": "proved",
   "theorems": [
    "C37_own_statement",
    "C37_refuted"
   ],
   "note": "Holds where agree_at holds (no other statement returning the same variable subtracts the code); C37_refuted shows that the condition is needed."
  },
  {
   "property": "C38",
   "status": "proved",
   "theorems": [
    "C38_field_assignment"
   ],
   "note": "In every completing run; without any hypothesis about annotations."
  },
  {
   "property": "C39",
   "status": "proved",
   "theorems": [
    "C39_function",
    "C39_method",
    "C39_method_object",
    "C39_refuted_nil"
   ],
   "note": "exact characterisation of collectFunctions / searchMethod; witness C39_witness"
  },
  {
   "property": "C40",
   "status": "proved",
   "theorems": [
    "C40_codes_text",
    "C40_codes",
    "C40_constructor",
    "C40_interface_text",
    "C40_interface",
    "C40_type_text",
    "C40_type",
    "C40_set_text",
    "C40_set",
    "C40_refuted_set"
   ],
   "note": "FactText.v models the String methods of all facts. The codes of the facts are valid codes (C04, C34), names have no spaces or quotes (Go identifiers)."
  },
  {
   "property": "C41",
   "status": "proved",
   "theorems": [
    "C41_runs",
    "C41_least",
    "C41_facts",
    "C41_sound",
    "C41_example",
    "C41_example_undeclared",
    "C41_refuted_constructor",
    "C41_refuted_undeclared"
   ],
   "note": "C41_runs, C41_least: the meaning of a program is the least fixpoint of linking its packages. C41_facts: all exported facts are true in all executions. C41_sound: documented functions return declared codes only. C41_example, C41_example_undeclared: programs of two packages, with a call through an interface (whose method is declared, or not), that meet the presuppositions. C41_refuted_*: without declared_methods the claim is false."
  },
  {
   "property": "C42",
   "status": "proved",
   "theorems": [
    "C42_declares",
    "C42_malformed",
    "C42_style",
    "C42_every_comment",
    "C42_directives",
    "C42_line_comments",
    "C42_block_comment",
    "C42_line_or_block",
    "C42_round_trip",
    "C42_example",
    "C42_round_trip_example"
   ],
   "note": "From the raw comments of a group (ast.CommentGroup.Text modelled in CommentText.v) to the declared codes."
  },
  {
   "property": "C43",
   "status": "proved",
   "theorems": [
    "C43_once",
    "C43_above",
    "C43_behind",
    "C43_elsewhere",
    "C43_not_at",
    "C43_annotation",
    "C43_effect",
    "C43_none",
    "C43_clause",
    "C43_example",
    "C43_example_texts",
    "C43_example_says",
    "C43_refuted_case"
   ],
   "note": "go/ast's NewCommentMap modelled; positions are inputs. The exception (case clauses) is C43_clause and, on a concrete file, C43_refuted_case."
  },
  {
   "property": "C44",
   "status": "proved",
   "theorems": [
    "C44_rearranged",
    "C44_example"
   ],
   "note": "the same package with its declarations permuted: same facts, same diagnostics up to order, same crashes"
  },
  {
   "property": "C45",
   "status": "proved",
   "theorems": [
    "C45_documentation",
    "C45_corrected",
    "C45_example"
   ],
   "note": "Positions of nodes are kept fixed when the documentation is replaced (the model identifies nodes symbolically). Both packages are presupposed to be usable (C17). Interface documentation is not varied: it is trusted at calls (C36)."
  },
  {
   "property": "C46",
   "status": "proved",
   "theorems": [
    "C46_slice_to_set",
    "C46_union",
    "C46_difference",
    "C46_add",
    "C46_unchanged",
    "C46_no_nil_panic",
    "C46_values",
    "C46_values_determined",
    "C46_example",
    "C46_careless"
   ],
   "note": "Operations are modelled with their loops on a heap of maps; the functions of the analyzer are reduced to what they do with code sets (SetProgram.v cites each), everything else being left open. C46_careless shows that the discipline the theorems rest on is needed and that the check rejects a function without it."
  },
  {
   "property": "C47",
   "status": "proved",
   "theorems": [
    "C47_sound",
    "C47_complete",
    "C47_found",
    "C47_verdicts",
    "C47_clean",
    "cycle_check_spec",
    "usable_from_spec",
    "agree_from_spec",
    "l_untracked",
    "l_twice",
    "l_wrong"
   ],
   "note": "Hypothesis no_literal_cycle (checkable: cycle_check). Example: a package with a function that cannot be tracked (ExampleLocal.v)."
  },
  {
   "property": "C48",
   "status": "proved",
   "theorems": [
    "C48_facts",
    "C48_facts_documentation",
    "C48_found",
    "C48_diagnostics",
    "C48_conversions",
    "C48_refuted_conversions"
   ],
   "note": "Two versions of a package with the same signatures (with_bodies; same_headers: also the same documentation, for C48_facts and C48_conversions). Hypotheses: methods of error types unedited, interfaces_ok and distinct_definitions as in C18, no cycle of function literals (no_literal_cycle; not for the facts and conversions), the same declared parameter positions, both runs complete. C48_conversions: reports about methods with declared codes, per declaration; what is said about other methods may change: C48_refuted_conversions."
  },
  {
   "property": "C49",
   "status": "proved",
   "theorems": [
    "C49_codes",
    "C49_more",
    "C49_new",
    "C49_found",
    "C49_update",
    "C49_example",
    "C49_example_update"
   ],
   "note": "two complete runs of the same package, any orders; functions whose code can be tracked; both sets of facts have the same functions with declared codes, the same error types (with the same field, and with constant codes or without), the same interfaces with the same methods (which may declare other codes), and the same constructor facts"
  }
 ]
}