(** * What the analyzer does with code sets.

    Every function of /repo/analysis that handles values of type CodeSet, reduced to that (see SetHeap.v): which branch is taken, how often a loop runs, which
    codes are added and which entry of a map is read or written is left open, so an execution of the Go function is an execution of the
    function here with the same allocations, reads and writes of sets.  Simplifications: structs that hold code sets and are local to one function
    (codeMethodAnalysis, findErrorDocsSM, annotationReturnStmt before it is returned) are local variables, and their methods are inlined. *)
From Coq Require Import Ascii String.
From stdpp Require Import base list gmap.
From Verif Require Import GoString ErrorCode CodeSet SetHeap.
Local Open Scope string_scope.

Notation "s ;;; t" := (SSeq s t) (at level 65, right associativity).
Definition call_ (f : string) (args : list string) : stmt := SCall "_" f args.
(** return f(...) *)
Definition return_call (f : string) : stmt := SCall "_" f [] ;;; SReturn "_".
(** return nil *)
Definition return_nil : stmt := SNil "_" ;;; SReturn "_".
(** return Set() *)
Definition return_set : stmt := SSet "_" ;;; SReturn "_".
(** if ... { s } *)
Definition when_ (s : stmt) : stmt := SIf s SSkip.

(** analyse.go 466-490, findErrorCodesInFunc. *)
Definition p_findErrorCodesInFunc := SetFunc [] (
  SSet "result" ;;;                                                                                             (* 470 *)
  SCall "paramCodes" "ectractErrorCodesFromConstructor" [] ;;; SUnion "result" "result" "paramCodes" ;;;         (* 473-474 *)
  SCall "returnCodes" "findErrorCodesInFunctionReturnStmts" [] ;;; SUnion "result" "result" "returnCodes" ;;;    (* 476-477 *)
  SCall "assignedCodes" "findCodesAssignedToErrorCodeFields" [] ;;; SUnion "result" "result" "assignedCodes" ;;; (* 479-480 *)
  SStore "result" ;;;                                                                                           (* 482 *)
  when_ (return_call "unifyAnalysisResultForComponent") ;;;                                                     (* 485-487 *)
  SReturn "result").
(** analyse.go 494-521, findErrorCodesInFunctionReturnStmts: the function literal shares the variable result. *)
Definition p_findErrorCodesInFunctionReturnStmts := SetFunc [] (
  SSet "result" ;;;
  SLoop ["result"] (
    call_ "getReturnStmtAnnotations" [] ;;;
    SIf (SLoad "overwrite" ;;; SUnion "result" "result" "overwrite")                                            (* 504 *)
        (SCall "returnCodes" "findErrorCodesInReturnStmt" [] ;;;                                                (* 508 *)
         when_ (SLoad "subCodes" ;;; SDifference "returnCodes" "returnCodes" "subCodes" ;;;                      (* 510 *)
                SLoad "addCodes" ;;; SUnion "returnCodes" "returnCodes" "addCodes") ;;;                          (* 511 *)
         SUnion "result" "result" "returnCodes")) ;;;                                                           (* 514 *)
  SReturn "result").
(** analyse.go 525-544, unifyAnalysisResultForComponent: all functions of the component share one set. *)
Definition p_unifyAnalysisResultForComponent := SetFunc [] (
  SSet "result" ;;;
  SLoop ["result"] (SLoad "codes" ;;; SUnion "result" "result" "codes") ;;;                                      (* 529-535 *)
  SLoop [] (SStore "result") ;;;                                                                                (* 538-541 *)
  SReturn "result").
(** analyse.go 550-573, findErrorCodesInReturnStmt. *)
Definition p_findErrorCodesInReturnStmt := SetFunc [] (SIf (return_call "findErrorCodesInExpression") return_nil).
(** analyse.go 576-620, findErrorCodesInExpression. *)
Definition p_findErrorCodesInExpression := SetFunc [] (
  SIf (return_call "findErrorCodesInCallExpression")
 (SIf (return_call "findErrorCodesFromIdentTaint")
 (SIf (return_call "extractErrorCodesFromAffector")
      return_nil))).
(** analyse.go 630-633, findErrorCodesInCallExpression. *)
Definition p_findErrorCodesInCallExpression := SetFunc [] (return_call "findErrorCodesFromFunctionCall").
(** analyse.go 638-725, findErrorCodesFromFunctionCall. *)
Definition p_findErrorCodesFromFunctionCall := SetFunc [] (
  SSet "result" ;;;                                                                                             (* 642 *)
  when_ (SAdd "result") ;;;                                                                                     (* 645 *)
  when_ (SLoad "fact.Codes" ;;; SUnion "_" "result" "fact.Codes" ;;; SReturn "_") ;;;                             (* 651-653 *)
  when_ (SCall "conversionCodes" "extractErrorCodesFromTypeConversion" [] ;;;                                   (* 657 *)
         SRead "conversionCodes" ;;; when_ (SUnion "_" "result" "conversionCodes" ;;; SReturn "_")) ;;;           (* 658-660 *)
  when_ (SIf return_set                                                                                        (* 674, 684, 695, 707 *)
        (SIf (return_call "extractErrorCodesFromAffector")                                                     (* 682 *)
             (return_call "findErrorCodesFromAllAssignedLambdas"))) ;;;                                         (* 687 *)
  when_ (SIf (SCall "newCodes" "findErrorCodesInFunc" [] ;;; SUnion "result" "result" "newCodes")               (* 713-714 *)
             (SLoad "cachedResult" ;;; SUnion "result" "result" "cachedResult")) ;;;                             (* 716-717 *)
  SReturn "result").
(** analyse.go 729-752, findErrorCodesFromAllAssignedLambdas. *)
Definition p_findErrorCodesFromAllAssignedLambdas := SetFunc [] (
  SSet "result" ;;;
  SLoop ["result"] (SCall "newCodes" "findErrorCodesInLambdaAssignment" [] ;;; SUnion "result" "result" "newCodes") ;;;
  SReturn "result").
(** analyse.go 754-777, findErrorCodesInLambdaAssignment. *)
Definition p_findErrorCodesInLambdaAssignment := SetFunc [] (
  SNil "result" ;;;
  when_ (SIf (SCall "result" "findErrorCodesInFunc" []) (SCall "result" "findErrorCodesFromFunctionCall" [])) ;;;
  SReturn "result").
(** analyse.go 780-823, findErrorCodesFromIdentTaint. *)
Definition p_findErrorCodesFromIdentTaint := SetFunc [] (
  SSet "result" ;;;
  SLoop ["result"] (SCall "newCodes" "findErrorCodesInExpression" [] ;;; SUnion "result" "result" "newCodes") ;;;            (* 795-798 *)
  SLoop ["result"] (
    SIf (SCall "newCodes" "findErrorCodesInExpression" [] ;;; SUnion "result" "result" "newCodes")                          (* 803-804 *)
        (when_ (SCall "newCodes" "findErrorCodesInCallExpression" [] ;;; SUnion "result" "result" "newCodes"))) ;;;          (* 810-816 *)
  SReturn "result").
(** analyse.go 842-851, findCodesAssignedToErrorCodeFields. *)
Definition p_findCodesAssignedToErrorCodeFields := SetFunc [] (
  SSet "result" ;;;
  SLoop ["result"] (SCall "newCodes" "findCodesAssignedToErrorCodeField" [] ;;; SUnion "result" "result" "newCodes") ;;;
  SReturn "result").
(** analyse.go 853-873, findCodesAssignedToErrorCodeField. *)
Definition p_findCodesAssignedToErrorCodeField := SetFunc [] (
  SSet "result" ;;;
  when_ (SReturn "result") ;;;
  SLoop ["result"] (when_ (SCall "newCodes" "findCodesAssignedToErrorCodeFieldInAssignment" [] ;;; SUnion "result" "result" "newCodes")) ;;;
  SReturn "result").
(** analyse.go 877-927, findCodesAssignedToErrorCodeFieldInAssignment. *)
Definition p_findCodesAssignedToErrorCodeFieldInAssignment := SetFunc [] (
  SSet "result" ;;;
  when_ (SReturn "result") ;;;
  SLoop ["result"] (when_ (SAdd "result")) ;;;
  SReturn "result").

(** extract_error_code.go 16-45, extractErrorCodesFromAffector. *)
Definition p_extractErrorCodesFromAffector := SetFunc [] (
  SSet "result" ;;;
  when_ (SReturn "result") ;;;
  when_ (SSet "slice" ;;; SUnion "result" "result" "slice") ;;;
  when_ (SAdd "result") ;;;
  SReturn "result").
(** extract_error_code.go 118-127, extractErrorCodesFromTypeConversion. *)
Definition p_extractErrorCodesFromTypeConversion := SetFunc [] (SIf return_nil return_set).
(** extract_error_code.go 223-256, ectractErrorCodesFromConstructor. *)
Definition p_ectractErrorCodesFromConstructor := SetFunc [] (
  SSet "result" ;;;
  when_ (SReturn "result") ;;;
  SLoop ["result"] (when_ (SAdd "result")) ;;;
  SReturn "result").

(** analyse.go 260-265, findErrorDocs. *)
Definition p_findErrorDocs := SetFunc [] (SIf return_nil (return_call "findErrorDocsSM.run")).
(** find_error_docs.go 53-68, run, with step (91-147) inlined. *)
Definition p_run := SetFunc [] (
  SSet "sm.seen" ;;;
  SLoop ["sm.seen"] (SIf return_nil (when_ (SRead "sm.seen" ;;; when_ (SAdd "sm.seen")))) ;;;                    (* 59-65, 135-137 *)
  SReturn "sm.seen").
(** analyse.go 316-351, findClaimedErrorCodes: the claims are places. *)
Definition p_findClaimedErrorCodes := SetFunc [] (
  SLoop [] (SCall "codes" "findErrorDocs" [] ;;; when_ (SRead "codes" ;;; when_ (SStore "codes")))).
(** analyse.go 410-414, exportErrorCodeFacts. *)
Definition p_exportErrorCodeFacts := SetFunc [] (SLoop [] (SLoad "funcCodes.codes" ;;; call_ "exportErrorCodesFact" ["funcCodes.codes"])).
(** analyse.go 417-432, exportErrorCodesFact: the fact holds the set itself. *)
Definition p_exportErrorCodesFact := SetFunc ["codes"] (when_ (SStore "codes")).
(** analyse.go 436-454, checkIfErrorCodesMatch. *)
Definition p_checkIfErrorCodesMatch := SetFunc ["foundCodes"; "claimedCodes"] (
  SDifference "missing" "foundCodes" "claimedCodes" ;;; SRead "missing" ;;;
  SDifference "unused" "claimedCodes" "foundCodes" ;;; SRead "unused").
(** analyse.go 457-462, reportIfCodesDoNotMatch. *)
Definition p_reportIfCodesDoNotMatch := SetFunc ["foundCodes"; "claimedCodes"] (call_ "checkIfErrorCodesMatch" ["foundCodes"; "claimedCodes"]).
(** analyse.go 123-163, runVerify. *)
Definition p_runVerify := SetFunc [] (
  call_ "findAndTagErrorTypes" [] ;;;
  call_ "findErrorReturningInterfaces" [] ;;; call_ "exportInterfaceFacts" [] ;;;
  call_ "findClaimedErrorCodes" [] ;;;
  SLoop [] (SLoad "claims.codes" ;;; SLoad "foundCodes" ;;; when_ (SCall "foundCodes" "findErrorCodesInFunc" []) ;;;
            call_ "reportIfCodesDoNotMatch" ["foundCodes"; "claims.codes"]) ;;;                                 (* 146-153 *)
  call_ "exportErrorCodeFacts" [] ;;;
  SLoop [] (call_ "checkIfTypeIsValidSubtypeForInterface" [])).                                                (* 160 *)
(** analyse.go 59-63, ErrorCodes.String: reads the set of the fact. *)
Definition p_ErrorCodesString := SetFunc [] (SLoad "e.Codes" ;;; SRead "e.Codes").

(** annotation.go 35-97, getReturnStmtAnnotations, with extractCodeModificationsFromStringAnnotation (122-146) inlined: the fields of the annotation become places when the
    line is done. *)
Definition p_getReturnStmtAnnotations := SetFunc [] (
  SLoop [] (when_ (
    when_ return_nil ;;;                                                                                        (* 59-62 *)
    SSet "addCodes" ;;; SSet "subCodes" ;;; SSet "overwrite" ;;;                                                  (* 68 *)
    SIf (SCall "overwrite" "extractCodesFromStringAnnotation" [])                                              (* 72 *)
   (SIf (SCall "addCodes" "extractCodesFromStringAnnotation" [])                                               (* 76 *)
   (SIf (SCall "subCodes" "extractCodesFromStringAnnotation" [])                                               (* 82 *)
        (SLoop ["addCodes"; "subCodes"] (when_ (SIf return_nil (SIf (SAdd "addCodes") (SAdd "subCodes"))))))) ;;;   (* 78, 84; 123-143 *)
    when_ return_nil ;;;                                                                                        (* 90-93 *)
    SStore "overwrite" ;;; SStore "addCodes" ;;; SStore "subCodes"))).
(** annotation.go 100-117, extractCodesFromStringAnnotation. *)
Definition p_extractCodesFromStringAnnotation := SetFunc [] (
  SSet "result" ;;;
  when_ (SReturn "result") ;;;
  SLoop ["result"] (SIf return_nil (SAdd "result")) ;;;
  SReturn "result").

(** tag_error_types.go 44-81, findAndTagErrorTypes, and 84-110, tagErrorType. *)
Definition p_findAndTagErrorTypes := SetFunc [] (
  SLoop [] (when_ (call_ "analyseCodeMethod" [] ;;; when_ (call_ "analyseMethodsOfErrorType" [])))).
(** tag_error_types.go 187-234, analyseCodeMethod, with the methods of codeMethodAnalysis (236-312) inlined: they add to state.codes, any number of times.  (The codes of an ErrorType are a
    slice, made by Slice.) *)
Definition p_analyseCodeMethod := SetFunc [] (
  SSet "state.codes" ;;;
  SLoop ["state.codes"] (when_ (SAdd "state.codes")) ;;;                                                        (* 247 *)
  SCopy "constants" "state.codes" ;;; SRead "constants" ;;; SRead "constants").                                  (* 214, 226, 233 *)
(** tag_error_types.go 340-367, analyseMethodsOfErrorType. *)
Definition p_analyseMethodsOfErrorType := SetFunc [] (
  when_ (
    SSet "assignedCodes" ;;;
    SLoop ["assignedCodes"] (when_ (SCall "newCodes" "findCodesAssignedToErrorCodeField" [] ;;; SUnion "assignedCodes" "assignedCodes" "newCodes")) ;;;
    SRead "assignedCodes" ;;;
    when_ (SSet "slice" ;;; SUnion "codes" "slice" "assignedCodes" ;;; SRead "codes"))).

(** interfaces_collect.go 50-86, findErrorReturningInterfaces, with the traversal of the embedded interfaces (161-206). *)
Definition p_findErrorReturningInterfaces := SetFunc [] (
  SLoop [] (call_ "checkIfInterfaceMethodDeclaresErrors" []) ;;;
  SLoop [] (SIf (call_ "addEmbeddedInterfaceErrorMethods" []) (call_ "addEmbeddedInterfaceErrorMethodsForFact" []))).
(** interfaces_collect.go 121-154, checkIfInterfaceMethodDeclaresErrors: the codes of the method are a place. *)
Definition p_checkIfInterfaceMethodDeclaresErrors := SetFunc [] (
  when_ (SCall "codes" "findErrorDocs" [] ;;; when_ (SRead "codes" ;;; when_ (SStore "codes")))).
(** interfaces_collect.go 212-222, addEmbeddedInterfaceErrorMethods: both interfaces hold the same set afterwards. *)
Definition p_addEmbeddedInterfaceErrorMethods := SetFunc [] (
  SLoop [] (SLoad "newErrorMethod.codes" ;;;
    SIf (SStore "newErrorMethod.codes")
        (SLoad "oldErrorMethod.codes" ;;; call_ "checkEmbeddedInterfaceErrorMethodCodes" ["oldErrorMethod.codes"; "newErrorMethod.codes"]))).
(** interfaces_collect.go 224-234, addEmbeddedInterfaceErrorMethodsForFact: likewise with the set of a fact. *)
Definition p_addEmbeddedInterfaceErrorMethodsForFact := SetFunc [] (
  SLoop [] (SLoad "newErrorMethodCodes" ;;;
    SIf (SStore "newErrorMethodCodes")
        (SLoad "oldErrorMethod.codes" ;;; call_ "checkEmbeddedInterfaceErrorMethodCodes" ["oldErrorMethod.codes"; "newErrorMethodCodes"]))).
(** interfaces_collect.go 237-242, checkEmbeddedInterfaceErrorMethodCodes. *)
Definition p_checkEmbeddedInterfaceErrorMethodCodes := SetFunc ["oldCodes"; "newCodes"] (call_ "checkIfErrorCodesMatch" ["oldCodes"; "newCodes"]).
(** interfaces_collect.go 246-260, exportInterfaceFacts. *)
Definition p_exportInterfaceFacts := SetFunc [] (
  SLoop [] (call_ "exportErrorInterfaceFact" [] ;;;
    SLoop [] (SLoad "errorMethod.codes" ;;; when_ (call_ "exportErrorCodesFact" ["errorMethod.codes"])))).
(** interfaces_collect.go 262-276, exportErrorInterfaceFact. *)
Definition p_exportErrorInterfaceFact := SetFunc [] (when_ (SLoop [] (SLoad "errorMethod.codes" ;;; SStore "errorMethod.codes"))).
(** interfaces_verify.go 484-527, checkIfTypeIsValidSubtypeForInterface. *)
Definition p_checkIfTypeIsValidSubtypeForInterface := SetFunc [] (
  when_ (SLoop [] (
    SLoad "interfaceCodes" ;;; SNil "foundCodes" ;;;
    SIf (SLoad "implementedCodes.Codes" ;;; SCopy "foundCodes" "implementedCodes.Codes")
        (SLoad "foundCodes" ;;; when_ (SCall "foundCodes" "findErrorCodesInFunc" [])) ;;;
    SDifference "unexpectedCodes" "foundCodes" "interfaceCodes" ;;; SRead "unexpectedCodes" ;;; SRead "unexpectedCodes"))).

Definition analyzer_sets : setprog := list_to_map [
  ("findErrorCodesInFunc", p_findErrorCodesInFunc);
  ("findErrorCodesInFunctionReturnStmts", p_findErrorCodesInFunctionReturnStmts);
  ("unifyAnalysisResultForComponent", p_unifyAnalysisResultForComponent);
  ("findErrorCodesInReturnStmt", p_findErrorCodesInReturnStmt);
  ("findErrorCodesInExpression", p_findErrorCodesInExpression);
  ("findErrorCodesInCallExpression", p_findErrorCodesInCallExpression);
  ("findErrorCodesFromFunctionCall", p_findErrorCodesFromFunctionCall);
  ("findErrorCodesFromAllAssignedLambdas", p_findErrorCodesFromAllAssignedLambdas);
  ("findErrorCodesInLambdaAssignment", p_findErrorCodesInLambdaAssignment);
  ("findErrorCodesFromIdentTaint", p_findErrorCodesFromIdentTaint);
  ("findCodesAssignedToErrorCodeFields", p_findCodesAssignedToErrorCodeFields);
  ("findCodesAssignedToErrorCodeField", p_findCodesAssignedToErrorCodeField);
  ("findCodesAssignedToErrorCodeFieldInAssignment", p_findCodesAssignedToErrorCodeFieldInAssignment);
  ("extractErrorCodesFromAffector", p_extractErrorCodesFromAffector);
  ("extractErrorCodesFromTypeConversion", p_extractErrorCodesFromTypeConversion);
  ("ectractErrorCodesFromConstructor", p_ectractErrorCodesFromConstructor);
  ("findErrorDocs", p_findErrorDocs);
  ("findErrorDocsSM.run", p_run);
  ("findClaimedErrorCodes", p_findClaimedErrorCodes);
  ("exportErrorCodeFacts", p_exportErrorCodeFacts);
  ("exportErrorCodesFact", p_exportErrorCodesFact);
  ("checkIfErrorCodesMatch", p_checkIfErrorCodesMatch);
  ("reportIfCodesDoNotMatch", p_reportIfCodesDoNotMatch);
  ("runVerify", p_runVerify);
  ("ErrorCodes.String", p_ErrorCodesString);
  ("getReturnStmtAnnotations", p_getReturnStmtAnnotations);
  ("extractCodesFromStringAnnotation", p_extractCodesFromStringAnnotation);
  ("findAndTagErrorTypes", p_findAndTagErrorTypes);
  ("analyseCodeMethod", p_analyseCodeMethod);
  ("analyseMethodsOfErrorType", p_analyseMethodsOfErrorType);
  ("findErrorReturningInterfaces", p_findErrorReturningInterfaces);
  ("checkIfInterfaceMethodDeclaresErrors", p_checkIfInterfaceMethodDeclaresErrors);
  ("addEmbeddedInterfaceErrorMethods", p_addEmbeddedInterfaceErrorMethods);
  ("addEmbeddedInterfaceErrorMethodsForFact", p_addEmbeddedInterfaceErrorMethodsForFact);
  ("checkEmbeddedInterfaceErrorMethodCodes", p_checkEmbeddedInterfaceErrorMethodCodes);
  ("exportInterfaceFacts", p_exportInterfaceFacts);
  ("exportErrorInterfaceFact", p_exportErrorInterfaceFact);
  ("checkIfTypeIsValidSubtypeForInterface", p_checkIfTypeIsValidSubtypeForInterface)
].

Lemma analyzer_checked : check_prog analyzer_sets = true.
Proof. vm_compute. reflexivity. Qed.
