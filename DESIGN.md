# A formal model of go-serum-analyzer in Rocq (Coq 8.16.1)

Source: `/repo/analysis` (read as text, never built here).  Model and proofs: `/verif/rocq/theories`.
Properties: `properties.jsonl` (C01..).  Status and theorem names per property: `MANIFEST.json`.
Wrong programs the theorems were tested against: `seeded/LOG.jsonl`.

## 1. How to read the development

For each property there is (a) a small specification `Spec*.v` that talks about Go source, types, executions,
strings or graphs and not about the algorithm, (b) the model of the Go functions, (c) the theorem `Cnn_*` in a
`Prop*.v` file.  Every definition of the model has a comment with the file and lines it models, and what it simplifies.
Proof files (`*Proofs.v`, `Sound*.v`, `Run*.v`, ...) need not be read.  Example packages (`Example*.v`, `Witness.v`,
`ExecWitness.v`) are closed terms produced by the scripts in `tools/`; they show that hypotheses can be met and that the
refuted claims are false.

### 1.1 The model (code that exists)

| file | models |
|---|---|
| `GoString.v` | Go strings as byte lists, UTF-8 decoding as in `for range`, `strings.TrimSpace/Split/HasPrefix/Index/Join/TrimPrefix`, `unicode.IsSpace`, bytewise `sort.Strings` |
| `ErrorCode.v` | `isErrorCodeValid`, `checkErrorCodeValid` (analyse.go 183-212) |
| `DocParser.v` | find_error_docs.go, all states of the machine |
| `Annotation.v` | annotation.go, both extraction functions and the choice among comments |
| `CodeSet.v` | set_operations.go, `checkIfErrorCodesMatch`, `reportIfCodesDoNotMatch` |
| `Constant.v` | `getErrorCodeFromConstant` (extract_error_code.go) with go/constant's `String()` (quoting, truncation at 72 runes) |
| `CommentText.v` | go/ast's `CommentGroup.Text`, called by `findErrorDocs` |
| `CommentMap.v` | `createCommentMap` (analyse.go 245-257) with go/ast's `NewCommentMap`: which node a comment belongs to |
| `Quote.v` | strconv.Quote, strconv.Unquote, utf8.EncodeRune and go/constant's `String()` themselves; PropQuote.v proves that Constant.v describes them (C34_text, C34_same) |
| `FactText.v` | the `String` methods of all facts |
| `Scc.v` | package scc (`Visit`, `EndVisit`, `HandleEdge`, `AfterRecurse`) |
| `GoAst.v` | the part of go/ast the analyzer looks at; `ast.Inspect` as pre-order traversal with pruning; helpers `getNamedType`, `getUnderlyingType`, ... |
| `Taint.v` | taint_spread.go |
| `Extract.v` | extract_error_code.go |
| `Analyse.v` | analyse.go 494-930: return statements, expressions, calls, function variables, variables, code fields |
| `Engine.v` | `findErrorCodesInFunc`, `unifyAnalysisResultForComponent` and the recursion between functions |
| `Phase.v` | a phase of `runVerify`: a result, diagnostics, or a panic |
| `ErrorTypes.v` | tag_error_types.go |
| `Claims.v` | `findErrorReturningFunctions`, `checkFunctionReturnsError`, `findClaimedErrorCodes`, `findErrorCodeParamIdent`, fact export |
| `Interfaces.v` | interfaces_collect.go |
| `Conversions.v` | interfaces_verify.go |
| `Verify.v` | function_lookup.go (`forEach`), `runVerify` |
| `SetHeap.v` | set_operations.go again, on a heap of maps: references, nil, loops that insert one value at a time; a language for functions that handle code sets, with Go's semantics (`runs`) and with sets as values (`means`) |
| `SetProgram.v` | every function of the analyzer that handles code sets, reduced to what it does with them |

Not modelled: `cmd/` (the driver's `main`), `init` (flag registration), the empty `AFact` markers, `logf`.
Oracles (inputs of the model, see 1.3): go/parser (syntax, positions and comments; the comments of a node are the field `pk_comments` of the
package, which C43 relates to `createCommentMap` by the hypothesis `comments_from`), the method sets of go/types (the
searches `searchMethodType` and `searchMethod` in them are modelled; `LookupProofs.v` relates them to `SpecLookup.v`), go/types, the fact
store of the analysis framework.

### 1.2 Effectful set expressions

All functions of analyse.go that return a `CodeSet` do so by unions and differences of (a) sets computed from syntax, types
and facts, and (b) results of recursive `findErrorCodesInFunc` calls; no branch looks at the content of such a set,
and the local state (`visitedIdents`, taint results) does not depend on them.  Each such Go function is therefore modelled by a
Gallina function that produces an *effectful set expression* (`eff`): sets, union, difference, report, panic, call with
`HandleEdge`/`AfterRecurse`, call without them, in the evaluation order of the Go code.  `Engine.v` evaluates it with the scc state,
the cache of results and the diagnostics.

Loops and recursion on unbounded data (tracking of variables, recursion between functions, embedding) take fuel; C21 proves that the
fuel `runVerify` passes never runs out, so that "out of fuel" is not an outcome of a run.  Map iteration orders are explicit
parameters (`orders`): the theorems hold for all of them.

### 1.3 Oracles

`package` (GoAst.v) is what the analyzer gets from go/parser, go/types and the framework: the syntax trees, `TypesInfo.Types`, `Uses`,
`Defs`, `Selections`, `typeutil.Callee`, `types.Implements`, `types.Identical`, method sets, text of comments and docs, imported facts.
The theorems quantify over all packages.  What they need of the oracles is written in the statement as a predicate of
`SpecProgram.v` (`usable`: lexical scoping; within an assignment a variable has one type), `SpecCrash.v`, `SpecInterfaces.v`, `SpecSound.v` (`resolved`).

Simplifications of the syntax: generics do not occur (the analyzer predates them); positions are node identities, so the column of a
diagnostic is not modelled, its node is.  A diagnostic is its node and its text, byte by byte; the specifications state the texts in
tables of their own (`SpecMessages.v`, `SpecEvents.v`, `SpecReports.v`), so that a wrong message in the model is noticed.

### 1.4 Predicates that restrict the package, and why

* `usable_functions`: every function has a body, obeys Go's scoping, and parameters of function literals are neither returned nor called.
  Without: crash (`C23_refuted_body`), silently lost codes (`C20_refuted`).  C47 asks it only of the function in question and of those
  whose errors it may return; of the package as a whole it asks `no_literal_cycle`, about what function literals mention.
* `no_literal_recursion`: a function literal that is called through a local variable does not lead back to the function that calls
  it.  Without: codes lost depending on the map order (`C18_refuted_literal`).  A literal called once is in scope
  (`C17_example_literal`).
* `literals_apart` (C18, C23 only): a function literal assigned to a variable is not a declared function, and is not called where it is
  written (holds of every Go package).
* `agree_everywhere`: return statements that return the same variable agree about what they subtract.  Without: `C37_refuted`.
* `unique_interfaces`: interface types have different names.  Without: `C18_refuted_names`.
* `disciplined` (C22 only): 20 clauses, each shown to be needed by a package in `ExecWitness.v`.
* `declared_methods` (C41 only): methods that implement interfaces declare codes, or are declared in the package that converts the value;
  and they are no error constructors.  Without: `C41_refuted_undeclared`, `C41_refuted_constructor`.
* `well_linked` (C41 only): what Go and the framework guarantee about several packages.  Facts are handed on from package to package;
  those about unexported functions that are no methods may be left out, as go/analysis does.
* `uses_resolved` (C41 only): an expression that is called or assigned and that refers to a function of the package, according to the type
  checker, is also resolved to its declaration by the parser or by the name (holds of every Go package).
* `completes`/`looped`: the run does not crash.  When it does: C23.

### 1.5 The model against the project's own tests

`tools/conform.py` translates all packages of `/repo/analysis/testdata` into terms (`Test_*.v`; `tools/goparse.py` is a Go parser,
`tools/gocheck.py` a small go/types; comments and docs go through the models of go/ast, `CommentText.v` and `CommentMap.v`), and states as
theorems what `runVerify` answers: `t_<package>_ascending` and `t_<package>_descending`, for two opposite choices of all map orders.
The script compares the answers with the `// want` comments and with the lists in `analyse_test.go`: all 18 packages of TestVerifyAnalyzer
and both of TestNotImplemented give exactly the expected diagnostics (303) and facts (303), in both orders.  This is the evidence,
besides reading, that the model says what the code does; it is not part of any proof.

`t_<package>_presuppositions` proves which of the predicates of 1.4 the package satisfies.  All of them hold of nearly all packages.
Exceptions: `func_literal` returns a parameter of a function literal on purpose (`usable`; a diagnostic is expected there), and has
literals which the checker `recursion_check` takes to be recursive; functions that modify errors through a second reference, or
whose address is taken, are not `disciplined` (C22): `ModifyError` in `examples` is listed there as a limitation of the analyzer.

## 2. Per property: what is modelled and how it is proved

| | theorems | model | proof |
|---|---|---|---|
| C01 | `C01_code_validity` | ErrorCode | iff with a relational pattern, over all byte strings |
| C02-C07 | `PropDoc.v` | DocParser | declarative line grammar without states (`SpecDoc.v`), induction on lines |
| C08, C09 | `PropAnnotation.v` | Annotation | grammar of annotations (`SpecAnnotation.v`), split/trim lemmas |
| C10 | `C10_*` | Analyse, Engine | equation for one statement; `C10_added` for whole runs |
| C11, C12 | `PropCodeSet.v` | CodeSet | finite sets; any duplicate-free enumeration |
| C13-C15 | `PropScc.v` | Scc | Tarjan invariant over all finite graphs; protocol histories |
| C16, C17 | `PropRun.v` | Engine, Analyse, Verify | combined Tarjan and code invariant; least solution `may_return` |
| C18 | `PropOrder.v` | Verify | determinism of the specification of each phase; `EngineOnce.v`: the engine panics iff a literal is asked for twice, whatever the order |
| C19 | `C19_tracking` | Taint | closure under assignments, both directions |
| C20 | `PropEvents.v` | Analyse, Taint | diagnostics = events of `SpecEvents.v` |
| C21 | `PropEnd.v` | all | fuel bounds; counting of analysed bodies |
| C22 | `PropSound.v`, `PropExecRefuted.v` | Verify + `SpecExec.v` | executions over a heap; simulation by `may_return` |
| C23 | `PropCrash.v`, `PropRefuted.v`, `Findings.v` | Verify | iff with the crash forms of `SpecCrash.v` |
| C24 | `PropClaims.v`, `PropAnalyse.v` | Claims, Extract | parameter lists |
| C25 | `PropCodeMethod.v`, `PropErrorTypes.v` | ErrorTypes | returned expressions of the Code method |
| C26 | `PropAnalyse.v` | Extract | literals by key or position |
| C27 | `PropInterfaces.v` | Interfaces | DFS over embeddings, any order |
| C28, C29 | `PropConversions.v`, `PropSites.v` | Conversions | exact set of sites, exact verdicts |
| C30-C33 | `PropClaims.v`, `PropFacts.v`, `PropRun.v` | Claims, Verify | facts after a run |
| C34 | `PropAnalyse.v`, `PropQuote.v` | Constant, Quote | exact for every length; refuted beyond 70 characters; quoting and unquoting from the library's definitions |
| C35-C38 | `PropAnalyse.v`, `PropTrusted.v` | Analyse, Engine | monotonicity; run-level membership; C36 for runs: `C36_forwarder`, from C47; C37 with its exact condition |
| C39 | `PropLookup.v` | Verify, GoAst | call resolution |
| C40 | `PropFactText.v` | FactText | injectivity and order independence |
| C41 | `PropWhole.v`, `ExampleWhole.v` | Verify + `SpecExec.v`, `SpecWhole.v` | C22 per package; induction on the depth of calls between packages |
| C42 | `PropComment.v` | CommentText, DocParser + `SpecComment.v` | lines of the text = tidied lines of the comments, up to a final empty line |
| C43 | `PropCommentMap.v`, `PropAnnotationComment.v`, `ExampleLayout.v` | CommentMap, CommentText, Annotation + `SpecLayout.v` | invariant of the node loop: stack of open groups; every owner is near its comment |
| C44 | `PropArrange.v`, `ExampleArrange.v` | Verify + `SpecArrange.v` | each phase on the permuted lists gives permuted results; then C18. The model keeps the position and identity of each node, so a changed line number in a message is not covered. Presupposes that no error type has an alias in the package (finding 27) and that functions sharing a name (init, _) stay in order |
| C45 | `PropRedoc.v`, `ExampleRedoc.v` | Verify + `SpecRedoc.v` | each function of the model gives the same result for a function with another doc comment (`RedocProofs.v`, `RedocPhases.v`); the facts during the loop agree by C30 for constructor positions; found codes by C17's least fixed point. Nodes keep their identity, so shifted line numbers are not covered. |
| C46 | `PropSets.v`, `ExampleSets.v` | SetHeap, SetProgram | ownership: a function adds only to sets it made and has not given away (`check`, decided for `analyzer_sets`); induction on executions with the sets hidden from the callee as invariant; simulation by values. This justifies the other files' treating sets as values. The Go functions are related to their reductions by reading. |
| C47 | `SpecLocal.v`, `PropLocal.v`, `ExampleLocal.v` | Engine, Analyse, Verify | the calls of *any* function stay within the functions it mentions (`LocalProofs.v`: invariant of the tracking), so the protocol stays exact for the plan as it is; for a function that can be tracked, with all it calls, the plan's least solution is `may_return`; a code derivation uses at most one called function |
| C48 | `SpecEdit.v`, `EditProofs.v`, `EditPhases.v`, `PropEdit.v`, `SpecSettled.v`, `PropSettled.v`, `ExampleEdit.v`, `ExampleEdited.v` | ErrorTypes, Claims, Engine, Analyse, Verify | two versions of a package as `with_bodies`: other function bodies and documentation, the same signatures (`C48_facts`: the same documentation, too); the tables of types and comments hold the entries of both versions (they are indexed by nodes, and unedited nodes keep their identities; positions are identities of nodes, so moved lines are not seen as changes). The plan of an untouched function is literally the same; the set of unaffected functions is closed under calls, so the least solutions agree on it (`part_may`); facts by the order independence of C18. Reports about conversions (C28) are compared where the codes of the method are declared: they depend on the exported facts and the declaration alone (`C48_conversions`, by induction over the checks, without any presupposition about the functions: `C28_declared`); others may change (`C48_refuted_conversions`, finding 40) |
| C49 | `IfaceGrow.v`, `SpecGrow.v`, `GrowProofs.v`, `PropGrow.v`, `ExampleGrow.v` | ErrorTypes, Engine, Analyse | the phases before the loop do not depend on imported codes (`types_grow`: tagging looks at the type being tagged only; `interfaces_sim`: embedded imported interfaces with other codes give interfaces with the same methods, and the codes of embedded methods are not exported as codes of methods), so the facts of the loop differ in codes only; `may_return` is monotone in them, code by code, as long as the *sets* of functions that declare codes, and of types that have constant codes, are the same (they occur negatively: a function without declared codes is looked up in the package, a conversion to a type without constant codes likewise); soundness and completeness for one function from C47; `C49_update`: the reports after an update of a dependency, from C47_verdicts and C47_clean. Not said: what happens if a dependency function starts or stops to declare codes |

## 3. Trusted base

* Coq's kernel, 8.16.1.  `vm_compute` is used in the examples and witnesses, and for the check of `analyzer_sets` (C46).
* `Print Assumptions` says *Closed under the global context* for every theorem named in `MANIFEST.json`: no axiom is used.  Loading
  std++ loads ssreflect, whose `Coq.ssr.ssrunder` declares the module parameters `Under_rel.*`; they are
  in the environment, no theorem depends on them.
* No axioms, no `Admitted`, no functors, no kernel check switched off.
* That the model says what the Go code does: by reading (each definition cites its lines), and by the project's own tests (1.5).
* `quoted` (fmt's %q of an identifier) puts quotes around the name: that is what strconv.Quote does with names in valid UTF-8 that
  consist of printable runes and contain neither quotes nor backslashes (`quote_identifier`); Go's identifiers are such names.  Texts
  from comments and constants that are quoted go through the full model of strconv.Quote (`Quote.v`).
* That `SpecExec.v` describes Go's executions as far as errors and codes are concerned (C22, C41 only), and `SpecWhole.v` how
  packages call each other (C41 only).

## 4. Findings: where the code does not do what one would expect

Those with a theorem name are proved of a concrete package (or for all inputs); the others were found while modelling.

1. Constant codes of more than 70 characters are rejected (`C34_refuted`, exact bound `C34_long`).
2. The same function literal called through a variable at two return statements: `scc.Visit` panics (`C23_refuted_lambda`).
3. `AfterRecurse` is missing in findErrorCodesInLambdaAssignment: recursion through a literal can lose codes, so an undeclared code
   is accepted for one map order and reported for the other (`C18_refuted_literal`).
4. `visitedIdents` is shared by the return statements of a function: a `-=` on the first `return err` acts on later ones (`C37_refuted`).
5. `err, ok := m[k]; return err` panics (`C23_refuted_map`).
6. `for _, err := range errs { return err }`: no codes, no report (`C22_refuted_range`, `C22_refuted_range_*`).
7. Code field assigned inside a closure on a right-hand side, or through an alias: missed (`C22_refuted_closure`, `C22_refuted_alias`).
8. findCodesAssignedToErrorCodeFieldInAssignment dereferences a nil field in an assignment to several variables (`C23_refuted_field`).
9. An error constructor called with the results of one call, `NewErr(two())`: panic (`C23_refuted_ctor`); method expressions shift the positions.
10. `return g()` with several results: index out of range in the conversion check (`C23_refuted_multi`).
11. `func f() () {}`: panic (`C23_refuted_results`).
12. Interfaces are keyed by name, also local ones: they overwrite each other; 26.
13. `var f func() error = nil; return f()`: report about a function nil in a dot-imported package (`C39_refuted_nil`).
14. An `Errors:` block without items is no declaration (`C07_empty_block_is_no_declaration_refuted`); `Errors: nonexistent` is read as none;
    commas between signed codes are rejected (`C08_signed_commas_refuted`).
15. Facts about error constructors do not exist yet when the methods of error types are analysed (`C24_refuted_method`).
16. Functions without body: nil dereference (`C23_refuted_body`).
17. `f(xs...)` for a variadic parameter of error interface type: panic (`C23_refuted_spread`).
18. A parameter of a closure that flows into a returned variable is silently accepted in some forms (`C20_refuted`).
19. A variable called `nil` is ignored (`C22_refuted_nil`, `C22_refuted_nil_field`).
20. Of several functions named `_` only the last is looked up (`C17_refuted_blank`).
21. `type A = other.Error`: spurious report about a missing Code method (`C25_refuted_alias`).
22. A value of a foreign type whose method declares no codes converts to an error interface without a report
    (`C41_refuted_undeclared`: so a package that is accepted returns an undeclared code).
23. Embedding a dot-imported interface: its methods are dropped (`C27_refuted_dot`).
24. Embedding an alias of an interface: dropped (`C27_refuted_alias`).
25. Calls through values of a named function type are taken for conversions (`C29_refuted`), and crash when assigned (`C23_refuted_functype`).
26. Interfaces of the same name can form a cycle of embeddings: crash for some map orders only (`C18_refuted_names`).
27. An alias of a local error type is tagged again, possibly losing the code field (`C25_refuted_local_alias`).
28.-37. Ways to return undeclared codes without any report: zero values (`C22_refuted_zero`), compound assignments (`C22_refuted_compound`), struct
    conversions (`C22_refuted_conversion`), parenthesised targets (`C22_refuted_paren`), deferred closures (`C22_refuted_defer`), overwriting
    through pointers (`C22_refuted_place`), failed type assertions (`C22_refuted_assert`), variables filled through their address
    (`C22_refuted_exposed`, `C22_refuted_exposed_alias`), setters, promoted fields and pointers to fields (`C22_refuted_setter`,
    `C22_refuted_promoted`, `C22_refuted_pointer`), recovered panics (`C22_refuted_recover`).
38. A method that is an error constructor (`param: code`) may implement an interface method that declares no codes: conversion checks
    compare the declared codes and ignore the code parameter (`C41_refuted_constructor`).
39. An annotation behind the last return statement of a `case` or `select` clause, or behind a labelled one, is silently ignored: the clause
    ends at the same place as the statement and go/ast associates the comment with the clause (`C43_clause`, `C43_refuted_case`).
    Above the statement it works (`C43_above`).
40. What is reported about a conversion can change when an unrelated function is edited: a method that declares no codes is analysed together
    with a function that mentions it, if there is one, with what its callees really return; otherwise at the conversion, where its callees
    count with what they declare.  The difference shows if the declaration of a callee is wrong (which is reported as well)
    (`C48_refuted_conversions`).
## 5. What is not proved

* Nothing is said about the driver, flags parsing, or the framework's transport of facts between processes.
* The columns of diagnostics (only their node is modelled).
* C22 speaks about one package whose imported functions return only codes that their facts declare.  C41 discharges this for programs of
  several packages.  There, a call of an interface method runs a method of a type that is converted to the (named, declared)
  interface somewhere in the program; interface values that come from type assertions (`x.(I)` of an `any`) or from conversions
  to anonymous interfaces or to types declared as `type I J` are not covered: the analyzer does not check these.
* C41 covers undeclared methods that implement interfaces only where their own package converts the value (`LateRun.v`: they are analysed
  then); undeclared methods of other packages are not looked at by the analyzer at all (`C41_refuted_undeclared`).
