{"id": "C01", "title": "Error code validity is exactly the documented pattern", "statement": "A string is accepted as an error code (in docs, annotations and constants alike) if and only if it matches ^[a-zA-Z][a-zA-Z0-9\\-]*[a-zA-Z0-9]$ or ^[a-zA-Z]$; arbitrary (also invalid UTF-8) byte strings are covered.", "quantifier": "every byte string", "why_tests_cant": "the input space is infinite and includes malformed UTF-8, on which the rune loop behaves differently from a byte loop", "anchors": ["analysis/analyse.go: isErrorCodeValid, checkErrorCodeValid"]}
{"id": "C02", "title": "Doc round trip", "statement": "Documenting any finite set of valid codes in the documented block format (any leading text that is not itself a block indicator, 'Errors:', blank line, one '- code -- text' line per code with any indentation/alignment white space and any description, optional constructor parameter line, end of doc or blank line) is parsed back to exactly that set and that parameter, and never rejected.", "quantifier": "every finite list of valid codes, every layout and every surrounding text", "why_tests_cant": "unbounded code lists, layouts and surrounding texts", "anchors": ["analysis/find_error_docs.go: findErrorDocsSM.run"]}
{"id": "C03", "title": "Doc parser accepts exactly the documented grammar", "statement": "For every doc string: the parser's result (codes, parameter, declared-none flag, or rejection) is the one determined by the documented line grammar, stated without a state machine: text before the block ignored; 'Errors:' must be followed by a blank line; the block extends to the next blank line; '- ' lines must contain ' --' and a valid code or a parameter; no second indicator after the block has started.", "quantifier": "every doc string", "why_tests_cant": "every possible string must be classified", "anchors": ["analysis/find_error_docs.go: findErrorDocsSM, stateInit, stateNeedBlankLine, stateParsing, stateDone"]}
{"id": "C04", "title": "Parsed docs only ever contain valid codes", "statement": "Whatever the doc text, every code produced by the doc parser is valid (C01) and non-empty, and at most one constructor parameter is produced, non-empty and without surrounding white space.", "quantifier": "every doc string", "why_tests_cant": "universal over inputs", "anchors": ["analysis/find_error_docs.go: stateParsing.step"]}
{"id": "C05", "title": "Only the block matters", "statement": "Text before the block that contains no indicator line, text after the terminating blank line that contains no further indicator, non-item lines inside the block, indentation, and descriptions after ' --' do not change the parse result.", "quantifier": "every doc string and every change of the irrelevant parts", "why_tests_cant": "relational property over pairs of unbounded inputs", "anchors": ["analysis/find_error_docs.go"]}
{"id": "C06", "title": "Order and duplicates of documented codes are irrelevant", "statement": "Permuting or duplicating the item lines of an accepted block gives the same set of declared codes.", "quantifier": "every list of item lines and every permutation/duplication", "why_tests_cant": "relational property over unbounded lists", "anchors": ["analysis/find_error_docs.go: stateParsing.step"]}
{"id": "C07", "title": "'Errors: none' and no-declaration are distinguished from a block", "statement": "The declared-none flag is set iff the first indicator line of the accepted doc starts with 'Errors: none', in which case no codes and no parameter are declared; a doc without indicator line yields no codes, no parameter and no flag; a doc is treated as declaring iff flag, codes or parameter are present.", "quantifier": "every doc string", "why_tests_cant": "universal over inputs", "anchors": ["analysis/find_error_docs.go: stateInit.step", "analysis/analyse.go: findClaimedErrorCodes"]}
{"id": "C08", "title": "Return annotations: parse result is exactly the documented one", "statement": "For every list of codes, formatting them as '= a, b', '+= a, b', '-= a, b' or '+a -b ...' after 'Error Codes' and parsing gives exactly the overwrite/add/subtract sets; every parsed annotation contains only valid codes.", "quantifier": "every list of codes, every comment text", "why_tests_cant": "unbounded inputs", "anchors": ["analysis/annotation.go: getReturnStmtAnnotations, extractCodesFromStringAnnotation, extractCodeModificationsFromStringAnnotation"]}
{"id": "C09", "title": "Invalid annotations are reported and have no effect", "statement": "If an annotation is malformed (missing operator, bad operator, missing sign, invalid code) a diagnostic saying which of these it is is reported for that return statement and the codes counted for it are those without any annotation; comments without the indicator never produce diagnostics nor change codes; if there are several annotation lines, each one after the first is reported, the last one counts, and the first malformed one ends the reading.", "quantifier": "every comment text", "why_tests_cant": "universal over inputs", "anchors": ["analysis/annotation.go: getReturnStmtAnnotations"]}
{"id": "C10", "title": "Effect of a return annotation", "statement": "The codes contributed by an annotated return statement are: the overwrite set (and nothing inside the statement is analysed) for '='; otherwise (codes of the expression minus subtracted) plus added. In particular a code both subtracted and added is contributed.", "quantifier": "every function, return statement, annotation", "why_tests_cant": "universal over programs", "anchors": ["analysis/analyse.go: findErrorCodesInFunctionReturnStmts"]}
{"id": "C11", "title": "Code set algebra", "statement": "Union, Difference, SliceToSet, Add and Slice implement mathematical union, difference, set formation, insertion and duplicate-free enumeration for every map iteration order, without modifying their inputs.", "quantifier": "every pair of sets, every map iteration order", "why_tests_cant": "map iteration order is chosen by the runtime", "anchors": ["analysis/set_operations.go"]}
{"id": "C12", "title": "Mismatch report iff sets differ, with exactly the differing codes", "statement": "A function's mismatch diagnostic is emitted iff the found and the declared code sets differ; the message lists exactly found minus declared as missing and declared minus found as unused, each sorted, independent of map iteration order; from the message the two lists can be recovered uniquely when the codes are valid.", "quantifier": "every pair of code sets, every map iteration order", "why_tests_cant": "unbounded sets, runtime-chosen iteration orders", "anchors": ["analysis/analyse.go: checkIfErrorCodesMatch, reportIfCodesDoNotMatch"]}
{"id": "C13", "title": "SCC package finds exactly the strongly connected components", "statement": "Driving the scc.State protocol by depth-first search over any finite directed graph from any sequence of start nodes yields components that are exactly the strongly connected components of the visited part: two nodes are in one component iff each reaches the other, each visited node is in exactly one component.", "quantifier": "every finite directed graph, every edge order, every sequence of roots", "why_tests_cant": "all graphs and traversal orders", "anchors": ["analysis/scc/strongly_connected_components.go: Visit, EndVisit, HandleEdge, AfterRecurse"]}
{"id": "C14", "title": "Components are emitted in reverse topological order", "statement": "When a component is emitted, every node reachable from it has already been emitted (in this or an earlier component), and the stack is empty once a start node's visit ends.", "quantifier": "every finite directed graph and traversal order", "why_tests_cant": "all graphs and traversal orders", "anchors": ["analysis/scc/strongly_connected_components.go"]}
{"id": "C15", "title": "SCC protocol safety", "statement": "Visit panics iff the node was visited before; a driver which recurses exactly when HandleEdge says so never panics and visits each reachable node exactly once.", "quantifier": "every call history of the protocol", "why_tests_cant": "all call histories", "anchors": ["analysis/scc/strongly_connected_components.go: Visit, HandleEdge"]}
{"id": "C16", "title": "Mutually recursive functions get one common result", "statement": "After the analysis, any two analysed functions that (transitively) call each other have the same code set, which contains the codes of every member.", "quantifier": "every package, every call graph, every processing order", "why_tests_cant": "all call graphs", "anchors": ["analysis/analyse.go: findErrorCodesInFunc, unifyAnalysisResultForComponent"]}
{"id": "C17", "title": "Inter-procedural exactness", "statement": "The codes found for a function are exactly the least solution: a code is found iff it comes from the function's own error sources, or from a called function (minus the codes the annotation of that return statement subtracts, plus added), closed under mutual recursion. Holds when functions are called directly, by method, by function literal expression or through a variable that holds a function literal, as long as such a literal does not lead back to its caller (then it fails: C18_refuted_literal).", "quantifier": "every package call structure, every processing order", "why_tests_cant": "all recursive call structures", "anchors": ["analysis/analyse.go: findErrorCodesInFunc, findErrorCodesFromFunctionCall"]}
{"id": "C18", "title": "Result independent of map iteration order", "statement": "For two runs of the analyzer on the same package with the same imported facts that differ only in the iteration orders over maps (functions, methods, claims, tracked variables, interfaces and their methods): both crash, or both finish with the same exported facts and the same diagnostics up to their order. (Precondition: interface types have different names, also those declared in functions - otherwise the analyzer can crash for some orders only, which is proved of a program; no function literal called through a variable leads back to its caller - then the order decides whether a missing code is reported, which is also proved of a program.)", "quantifier": "every package, every pair of iteration orders", "why_tests_cant": "the runtime picks the order; a test sees one", "anchors": ["analysis/analyse.go: runVerify, findCodesAssignedToErrorCodeFields", "analysis/function_lookup.go: forEach", "analysis/interfaces_collect.go: findErrorReturningInterfaces, exportInterfaceFacts", "analysis/interfaces_verify.go"]}
{"id": "C19", "title": "Variable tracking collects every assigned source", "statement": "For a tracked variable, the collected sources are exactly the non-variable expressions reachable from it via initialisers and assignments (also inside closures) through local variables; tracking terminates for cyclic assignments.", "quantifier": "every function body, every assignment graph", "why_tests_cant": "all assignment graphs including cycles", "anchors": ["analysis/taint_spread.go: findSpread, processAssignedExpr, findValueForIdentInValueSpec"]}
{"id": "C20", "title": "Untrackable origins are always reported", "statement": "If the value a checked function returns (or a function variable it calls, or the code parameter of a constructor) is, or is transitively assigned from, a parameter, receiver, package-level variable or variable declared outside the function, a diagnostic is emitted at that identifier; and no diagnostic of the analysis is emitted without such a cause. (This fails for parameters of function literals inside the function: counterexample C20_refuted.)", "quantifier": "every function body, every assignment graph", "why_tests_cant": "all assignment graphs", "anchors": ["analysis/taint_spread.go: findSpread, blockParams", "analysis/analyse.go: isIdentOriginOutsideFunctionScope, findErrorCodesFromIdentTaint"]}
{"id": "C21", "title": "The analysis terminates", "statement": "For every package (recursive functions, cyclic assignments, recursive literals included) the analysis of a function terminates; the number of function analyses is bounded by the number of functions and literals.", "quantifier": "every package", "why_tests_cant": "non-termination cannot be observed by a test", "anchors": ["analysis/analyse.go: findErrorCodesInFunc, findErrorCodesInExpression", "analysis/taint_spread.go: findSpread"]}
{"id": "C22", "title": "Soundness against execution", "statement": "If the analyzer emits no diagnostic, then whenever a documented function returns an error at run time, the code of that error is among the declared codes (or was passed to the function, an error constructor, as its code argument) - provided the package stays within a discipline that rules out the ways the analyzer is known to be unsound: writing code fields through aliases, parenthesised targets, compound assignments, range clauses, promoted fields, pointers to fields or setters; overwriting errors through pointers; variables filled through their address; zero values and failed assertions of struct errors with constant codes; conversions between struct errors; results set by deferred calls or left zero by a recovered panic; variables or fields called nil. Each of these exclusions is necessary: there is a program that violates it, that the analyzer accepts silently and that returns an undeclared code.", "quantifier": "every package, every run of the analyzer (all map iteration orders, all imported facts), every execution of every function of the package, with arbitrary memory and arguments, and every behaviour of the imported functions that is true to the imported facts", "why_tests_cant": "all programs and all executions", "anchors": ["analysis/analyse.go: findErrorCodesInFunc, findErrorCodesInExpression, findErrorCodesFromIdentTaint, findCodesAssignedToErrorCodeFields", "analysis/taint_spread.go: taintSpread.findSpread", "analysis/extract_error_code.go: extractErrorCodesFromAffector, extractErrorCodeFromConstructorCall, findFieldInitExpression"]}
{"id": "C23", "title": "Crashes of the analyzer are exactly characterised", "statement": "(Amended: the natural claim that no type-correct package makes the analyzer panic is false, see C23_refuted_*.) For packages whose variables can be tracked and in which no function literal called through a variable leads back to its caller: the analyzer panics iff (1) a function or an interface method is declared with an empty parenthesised result list, or (2) a function that is analysed contains one of the constructs listed in the specification (two-valued index/receive expressions or calls through named function types assigned to a returned variable; an error constructor called with fewer argument expressions than its code parameter needs; ...), or (3) a conversion to an error interface whose value the analyzer does not find (multi-value returns and arguments, slices spread into variadic parameters). or (4) the functions analysed follow calls through variables to the same function literal twice. Otherwise it comes to an end with a result.", "quantifier": "every package meeting the conditions, all facts, flags and iteration orders", "why_tests_cant": "universal over programs", "anchors": ["analysis/analyse.go: findErrorCodesFromIdentTaint, findErrorCodesInLambdaAssignment", "analysis/interfaces_verify.go: findConversionsInReturnStmt"]}
{"id": "C24", "title": "Constructor parameter is tracked by the right position", "statement": "The parameter position recorded for a declared constructor parameter is the position of the parameter with that name, it is of type string, looking the position up gives the same parameter, and at a call the code is read from the argument at that position.", "quantifier": "every parameter list and call", "why_tests_cant": "all parameter lists incl. grouped and unnamed ones", "anchors": ["analysis/analyse.go: findErrorCodeParamIdent", "analysis/extract_error_code.go: getParamPosition, getParamIdent, extractErrorCodeFromConstructorCall"]}
{"id": "C25", "title": "Code() method analysis", "statement": "For an accepted error type, the recorded codes are exactly the non-empty valid constants that the Code method returns (directly or through local variables) plus constants assigned to the code field in its methods, the recorded field is the one and only receiver field returned, with its position in the struct; anything else returned is reported.", "quantifier": "every Code method body", "why_tests_cant": "all method bodies", "anchors": ["analysis/tag_error_types.go: analyseCodeMethod, analyseReturnedExpression, getFieldPosition"]}
{"id": "C26", "title": "Field initialisers are found by key or position", "statement": "For a composite literal of an error type with code field at position i named n, the expression used as the code is the value keyed n for a keyed literal, the i-th element for a positional one, and none (no diagnostic) if empty or the key is absent; parentheses and & are transparent.", "quantifier": "every composite literal", "why_tests_cant": "all literals", "anchors": ["analysis/extract_error_code.go: findFieldInitExpression"]}
{"id": "C27", "title": "Embedded interfaces: merged declarations", "statement": "The error methods of an interface with embedded interfaces are its own plus those of all transitively embedded interfaces; if the same method is declared with different code sets a diagnostic is emitted, independent of the map iteration order.", "quantifier": "every acyclic embedding graph and map iteration order", "why_tests_cant": "all embedding graphs and iteration orders", "anchors": ["analysis/interfaces_collect.go: embeddingInterfaceDFS, addEmbeddedInterfaceErrorMethods"]}
{"id": "C28", "title": "Interface conversion check iff subset", "statement": "A conversion of an expression to an error interface is reported iff some error method of the value's type has a code that the interface method does not declare; the report names exactly the excess codes, sorted; identical types and nil are never reported. For methods that declare their codes this holds whatever the functions of the package look like.", "quantifier": "every interface, type and code sets", "why_tests_cant": "all interfaces and code sets", "anchors": ["analysis/interfaces_verify.go: checkIfTypeIsValidSubtypeForInterface"]}
{"id": "C29", "title": "Every conversion site is checked", "statement": "The values checked against the codes of an error interface are exactly those converted by an assignment, var declaration, call argument (including variadic ones), explicit conversion, composite literal (fields, elements, map keys), return statement, map index, range, send, type assertion or type switch case anywhere in the package, inside any function or literal, each against the interface it is converted to. (This fails for the arguments of calls through a value of a named function type: counterexample C29_refuted.)", "quantifier": "every package AST", "why_tests_cant": "all ASTs", "anchors": ["analysis/interfaces_verify.go: findConversionsToErrorReturningInterfaces, findConversionsIn*"]}
{"id": "C30", "title": "Exported facts are exactly the declared codes", "statement": "The ErrorCodes fact exported for a function is exactly its declared code set (not the found one) and exists iff the function returns an error last, has an accepted doc and declares something; the constructor fact exists iff it moreover declares a parameter.", "quantifier": "every package", "why_tests_cant": "all packages", "anchors": ["analysis/analyse.go: exportErrorCodeFacts, exportErrorConstructorFacts, findClaimedErrorCodes"]}
{"id": "C31", "title": "Strict flag", "statement": "The 'exported, but does not declare' diagnostic is emitted iff the flag is set, the function is exported, returns an error last, its docs are accepted and declare nothing, and it is not a Cause method of a coded error type; the flag changes no other diagnostics and no facts.", "quantifier": "every package, both flag values", "why_tests_cant": "relational property over all packages", "anchors": ["analysis/analyse.go: findClaimedErrorCodes"]}
{"id": "C32", "title": "Errors not in last position are reported", "statement": "A function whose last result is not an error but another result is gets one diagnostic per such result and is not analysed; a function whose last result is an error gets none.", "quantifier": "every result list", "why_tests_cant": "all result lists", "anchors": ["analysis/analyse.go: checkFunctionReturnsError"]}
{"id": "C33", "title": "Undocumented functions are never blamed", "statement": "A mismatch diagnostic is only ever emitted for a function with an accepted declaration; functions without declaration are analysed only if needed by a declared function or interface conversion.", "quantifier": "every package", "why_tests_cant": "all packages", "anchors": ["analysis/analyse.go: runVerify"]}
{"id": "C34", "title": "Constant codes: usable iff valid", "statement": "A string constant whose quoted form has at most 70 characters is extracted as error code iff it is a valid code; the empty string is silently ignored and anything else is reported. A longer constant is never extracted and always reported (so that valid codes of more than 70 characters are rejected: counterexample C34_refuted).", "quantifier": "every constant string", "why_tests_cant": "unbounded strings; the quoting used internally truncates long ones", "anchors": ["analysis/extract_error_code.go: getErrorCodeFromConstant, extractErrorCodeFromStringExpression"]}
{"id": "C35", "title": "Code changes propagate to callers", "statement": "Adding codes to a function's own sources can only enlarge the codes found for it and its callers; a caller that does not subtract contains every code of its callee.", "quantifier": "every call graph", "why_tests_cant": "all call graphs", "anchors": ["analysis/analyse.go: findErrorCodesFromFunctionCall"]}
{"id": "C36", "title": "Declared callees are trusted across packages", "statement": "For a call to a function with an exported ErrorCodes fact (another package, or interface method), exactly the declared codes (plus the constructor argument) are counted, regardless of its body.", "quantifier": "every call", "why_tests_cant": "all calls and callee bodies", "anchors": ["analysis/analyse.go: findErrorCodesFromFunctionCall"]}
{"id": "C37", "title": "Annotations act on their own return statement only", "statement": "The codes a return statement contributes, after applying its own annotation, are found unless another return statement of the function that returns the same variable removes them: whenever the annotations of statements returning a common variable agree on a code, subtracting it elsewhere does not remove it. (Without this condition the property fails, since variables are visited once per function: counterexample C37_refuted.)", "quantifier": "every function body", "why_tests_cant": "all bodies", "anchors": ["analysis/analyse.go: findErrorCodesInFunctionReturnStmts, findErrorCodesFromIdentTaint"]}
{"id": "C38", "title": "Code field assignments are tracked", "statement": "Every constant assigned to the code field of a returned local error variable is counted.", "quantifier": "every function body", "why_tests_cant": "all bodies", "anchors": ["analysis/analyse.go: findCodesAssignedToErrorCodeFields, findCodesAssignedToErrorCodeFieldInAssignment"]}
{"id": "C39", "title": "Calls are resolved to the right declaration", "statement": "A called name without object is resolved to the last declaration of a plain function with that name; a selected method x.m is resolved to the declaration in this package whose object is the method that x's type (or the type of its address) has under that name, whatever other types have methods of the same name.", "quantifier": "every package, receiver type and name", "why_tests_cant": "all combinations of declarations, receivers, pointer/value method sets and declaration orders", "anchors": ["analysis/function_lookup.go: collectFunctions, searchMethodType, searchMethod, searchFunction"]}
{"id": "C40", "title": "Fact texts", "statement": "The text a fact is shown with (by drivers and in tests) does not depend on map iteration order: ErrorCodes and ErrorType facts list their codes, ErrorInterface facts the names of their methods, in increasing byte order. Two ErrorCodes (ErrorConstructor, ErrorType) facts have the same text iff they are equal; ErrorInterface facts iff they have the same method names. (The text of a bare code set does depend on the order.)", "quantifier": "every fact and every map iteration order", "why_tests_cant": "all finite sets of codes and all iteration orders", "anchors": ["analysis/analyse.go: ErrorCodes.String, ErrorConstructor.String", "analysis/interfaces_collect.go: ErrorInterface.String", "analysis/tag_error_types.go: ErrorType.String, ErrorCodeField.String", "analysis/set_operations.go: CodeSet.String"]}
{"id": "C41", "title": "Soundness of whole programs", "statement": "If every package of a program has been analysed with the facts exported by the packages it imports, and nothing is reported for any of them, then no documented function of any package returns, in any execution of the whole program, an error with a code it does not declare (or that was not passed to it, an error constructor, as its code) - executions run through all packages: calls of imported functions run their bodies, calls of interface methods run a method of some type that a package of the program converts to the interface - provided the packages stay within the discipline of C22 and the methods that implement interfaces declare their codes, or belong to the package that converts the value, and are no error constructors. Both exclusions are needed: there are programs, accepted silently, that break one of them and return an undeclared code.", "quantifier": "every program (any number of packages, any import graph), all runs of the analyzer on its packages, every execution of every function, any depth of calls between packages, any behaviour of functions outside the program that is true to its facts", "why_tests_cant": "all programs and all executions across packages", "anchors": ["analysis/analyse.go: runVerify, exportErrorCodesFact", "analysis/interfaces_verify.go: findConversionsToErrorReturningInterfaces, checkIfExprHasValidSubtypeForInterface", "analysis/interfaces_collect.go: exportInterfaceFacts"]}
{"id": "C42", "title": "The style of a doc comment does not matter", "statement": "The codes a doc comment declares (or the complaint about it) depend only on its lines: whether they are written as // comments or in a /* */ comment, their indentation and trailing white space, the number of consecutive empty lines, empty lines at the start and directives such as //go:noinline have no effect; a declaration written in line comments is read as meant with any number of empty lines after the indicator.", "quantifier": "every group of comments of both Go styles, every text, every layout", "why_tests_cant": "unbounded texts and layouts; two stages of white space handling (go/ast's and the analyzer's) interact", "anchors": ["analysis/analyse.go: findErrorDocs", "analysis/find_error_docs.go: findErrorDocsSM.run"]}
{"id": "C43", "title": "Annotations belong to the statement they stand at", "statement": "Every comment of a file is associated with exactly one node. A comment on lines of its own directly above a statement, or behind it on its last line (unless an enclosing clause or statement ends at the same place), belongs to that statement whatever else the file contains; its lines are then read as the statement's annotation, with no influence of other comments, of the comment style or of white space, and comments that stand elsewhere are never read as its annotation. Behind the last statement of a case clause the comment belongs to the clause and the annotation is ignored.", "quantifier": "every file with any nodes, extents, nesting and comments; every comment and statement in it; every comment style and text", "why_tests_cant": "unbounded nesting, numbers of nodes and comments, and distances between them", "anchors": ["analysis/analyse.go: createCommentMap", "analysis/annotation.go: getReturnStmtAnnotations"]}
{"id": "C44", "title": "The order of declarations and files does not matter", "statement": "Handing the files of a package over in another order, moving declarations within a file or to another file of the package changes neither the exported facts nor the set of diagnostics (their order may change), nor whether the analyzer crashes. (Presupposed: what the Go compiler guarantees about duplicate declarations, no alias of an error type within the package, and the presuppositions of C18; functions that share a name, i.e. init and _, stay in order.)", "quantifier": "every package, every permutation of its function declarations, type declarations and top-level declarations, every iteration order of the maps in both runs, all imported facts", "why_tests_cant": "factorially many arrangements of unboundedly many declarations, combined with arbitrary map iteration orders", "anchors": ["analysis/analyse.go: runVerify", "analysis/function_lookup.go: collectFunctions", "analysis/tag_error_types.go: findAndTagErrorTypes", "analysis/tag_error_types.go: getCodeFuncFromError", "analysis/interfaces_collect.go: findErrorReturningInterfaces", "analysis/interfaces_verify.go: findConversionsToErrorReturningInterfaces"]}
{"id": "C45", "title": "Documentation influences only what a function is compared with", "statement": "Rewriting the doc comments of functions, in any way that keeps which parameters are declared to be error codes, changes neither the error types and interfaces found, nor the codes found for any function, nor what is reported about the bodies of functions; it changes only which functions are analysed and which codes their bodies are compared with. In particular one round of corrections is enough: once every documented function declares the codes that were found for it, no function is reported to have a mismatch of declared and actual codes, and nothing new is reported about the bodies.", "quantifier": "every package, every replacement of the documentation of any set of its functions, every iteration order of the maps in both runs, all imported facts", "why_tests_cant": "quantifies over all pairs of packages that differ in documentation; the analysis of a function runs through shared caches (found codes, strongly connected components) whose contents depend on which functions are documented and in which order they are reached", "anchors": ["analysis/analyse.go: runVerify, findClaimedErrorCodes, exportErrorConstructorFacts, findErrorCodesInFunc, reportIfCodesDoNotMatch", "analysis/tag_error_types.go: findAndTagErrorTypes", "analysis/function_lookup.go: collectFunctions"]}
{"id": "C46", "title": "Code sets behave like values although they are shared maps", "statement": "A CodeSet is a Go map, and the same map is held by the cache of results, by all functions of a recursive component, by the claims, by interfaces that embed each other and by exported facts. Set, SliceToSet, Union and Difference make a new set and change no existing one, whatever order their loops run in and also if the arguments are nil or the same set; Add changes its receiver alone. No function of the analyzer changes a set that existed when it was called - no cached result, declared set or fact ever changes by being used - none adds to a nil set (which would panic), and all sets read, kept and returned are those a program in which sets are plain values would read, keep and return.", "quantifier": "all heaps of sets, all ways in which cache, claims, annotations and facts share them, all arguments, all iteration orders, all branches, loop counts, codes and places, all allocation choices", "why_tests_cant": "A forbidden write through an alias shows only for a particular sharing pattern and order of later reads; tests run a few patterns and compare final messages only.", "anchors": ["analysis/set_operations.go: Set, SliceToSet, Slice, Add, Union, Difference", "analysis/analyse.go: findErrorCodesInFunc, unifyAnalysisResultForComponent, findErrorCodesFromFunctionCall, findCodesAssignedToErrorCodeFieldInAssignment, exportErrorCodesFact", "analysis/extract_error_code.go: extractErrorCodesFromAffector, ectractErrorCodesFromConstructor", "analysis/annotation.go: getReturnStmtAnnotations, extractCodesFromStringAnnotation", "analysis/interfaces_collect.go: addEmbeddedInterfaceErrorMethods, exportErrorInterfaceFact", "analysis/interfaces_verify.go: checkIfTypeIsValidSubtypeForInterface"]}
{"id": "C47", "title": "A function that cannot be tracked does not spoil what is said about the others", "statement": "If the analysis of a package comes to an end, C17 needs little of the rest of the package: if a function and the functions whose errors it may return (directly or by way of others) are written so that variables can be tracked, then the codes found for it are codes it may return, and all of them (those the annotations of these functions agree about); and the analyzer's comparison of its doc comment with them is among the diagnostics. This holds whatever the other functions look like, for instance if they return the results of calls of closure parameters. If nothing at all is reported, every declaration of such a function is exact. All that is asked of the package as a whole is that no function literal assigned to a variable mentions, directly or by way of other functions, the function in which it is assigned.", "quantifier": "every package, every function in it, whatever the other functions are, every processing order, all facts of imported packages", "why_tests_cant": "the other functions share caches and the recursion bookkeeping with the one in question; a test fixes them", "anchors": ["analysis/analyse.go: runVerify, findErrorCodesInFunc, findErrorCodesFromFunctionCall, findErrorCodesInLambdaAssignment", "analysis/scc/strongly_connected_components.go"]}
{"id": "C48", "title": "Editing a function has only local consequences", "statement": "Let two versions of a package differ only in the bodies and documentation of functions (same declarations and signatures; the methods of error types unedited; the same parameters declared to be error codes). Then the facts the analyzer exports - all that analyses of importing packages depend on - are the same for both versions, except the declared codes of functions whose documentation was edited; if only bodies were edited, all facts are the same. The same is said about the documentation of each function that was not edited. For each function that was not edited and does not mention an edited function, directly or indirectly, by name, method or function literal, the same error codes are found, the same is said about its body, and the same verdict is given about its documented codes; and the diagnostics about types and signatures are the same. If only bodies were edited, then in each declaration that was not edited the same is reported about conversions to error interfaces, as far as methods are concerned that declare their codes.", "quantifier": "all packages, all edits of any number of bodies and documentations, all sets of imported facts, all iteration orders of both runs", "why_tests_cant": "It relates two runs of the analyzer for every possible edit of every package; a test compares a few fixed versions, and an influence of one function on the analysis of an unrelated one (through the shared state of the analysis) shows only for particular combinations.", "anchors": ["analysis/analyse.go: runVerify, exportErrorCodeFacts, exportErrorConstructorFacts, findErrorCodesInFunc", "analysis/tag_error_types.go: findAndTagErrorTypes", "analysis/scc/strongly_connected_components.go"]}
{"id": "C49", "title": "Codes of dependencies are taken over monotonically and code by code", "statement": "Let a package be analysed twice, with imported facts that differ only in which codes the functions, methods (of types and of interfaces) and error types of its dependencies declare. For a function that declares codes and can be tracked (together with the functions the errors of which it may return): if every dependency function, method or type that had a code still has it, then that code is still found for the function if it was found before; in particular, if the dependencies declare more codes, no code is lost. Conversely, a code that is found only with the new facts is one that some dependency function or type declares now and did not declare before. In particular, if nothing was reported about a package and its dependencies then come to declare more codes, all that is said about the documented codes of its functions that can be tracked is that such new codes are missing in their documentation.", "quantifier": "all packages, all pairs of sets of imported facts that differ in declared codes only, all iteration orders of both runs, all codes", "why_tests_cant": "It relates two analyses of every package for every change of what its dependencies declare. A test fixes the dependency; and caches, annotations that subtract codes, recursion and the decision whether a function is looked up or analysed could each make the result non-monotone for some input.", "anchors": ["analysis/analyse.go: findErrorCodesFromFunctionCall, findErrorCodesInCallExpression, runVerify", "analysis/tag_error_types.go: findAndTagErrorTypes", "analysis/extract_error_code.go: extractErrorCodesFromAffector", "analysis/interfaces_collect.go: embeddingInterfaceDFS, exportInterfaceFacts"]}
