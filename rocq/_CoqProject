-Q theories Verif

theories/GoString.v
theories/ErrorCode.v
theories/DocParser.v
theories/Annotation.v
theories/SpecSpace.v
theories/GoStringProofs.v
theories/SpecCodes.v
theories/SpecDoc.v
theories/ErrorCodeProofs.v
theories/DocParserProofs.v
theories/SpecDocFormat.v
theories/SpecMessages.v
theories/DocFormatProofs.v
theories/SpecAnnotation.v
theories/AnnotationProofs.v
theories/PropDoc.v
theories/PropAnnotation.v
theories/Scc.v
theories/Engine.v
theories/SpecEngine.v
theories/SpecScc.v
theories/EngineProofs.v
theories/EngineTheorems.v
theories/PropScc.v
theories/CodeSet.v
theories/CodeSetProofs.v
theories/PropCodeSet.v
theories/Constant.v
theories/GoAst.v
theories/Taint.v
theories/Extract.v
theories/Analyse.v
theories/SpecTaint.v
theories/TaintProofs.v
theories/SpecLookup.v
theories/LookupProofs.v
theories/SpecMay.v
theories/SpecProgram.v
theories/VocabularyProofs.v
theories/Termination.v
theories/ExprProofs.v
theories/MayProofs.v
theories/CallProofs.v
theories/FunctionProofs.v
theories/ReturnProofs.v
theories/OwnProofs.v
theories/ProgramProofs.v
theories/ObserveProofs.v
theories/Phase.v
theories/ErrorTypes.v
theories/Quote.v
theories/Claims.v
theories/Interfaces.v
theories/Conversions.v
theories/Verify.v
theories/SpecRun.v
theories/RunEngine.v
theories/SafeEngine.v
theories/EngineOnce.v
theories/MainLoop.v
theories/SpecClaims.v
theories/PhaseProofs.v
theories/ClaimsProofs.v
theories/FactProofs.v
theories/RunProofs.v
theories/EndProofs.v
theories/PropClaims.v
theories/SpecInterfaces.v
theories/InterfacesProofs.v
theories/PropInterfaces.v
theories/PropFacts.v
theories/CheckEngine.v
theories/SpecEnd.v
theories/RunChecks.v
theories/PropRun.v
theories/SpecEvents.v
theories/EventProofs.v
theories/SpecReports.v
theories/PropConversions.v
theories/PropEvents.v
theories/PropAnalyse.v
theories/PropLookup.v
theories/QuoteProofs.v
theories/PropQuote.v
theories/CommentText.v
theories/SpecComment.v
theories/PropComment.v
theories/Checkers.v
theories/ExampleBase.v
theories/Example.v
theories/Witness.v
theories/PropRefuted.v
theories/Findings.v
theories/Counting.v
theories/PropEnd.v
theories/SpecCodeMethod.v
theories/CodeMethodProofs.v
theories/PropCodeMethod.v
theories/PropErrorTypes.v
theories/CodeCheckers.v
theories/ExampleCode.v
theories/SpecSites.v
theories/PropSites.v
theories/ExampleSites.v
theories/SpecLiterals.v
theories/EdgeProofs.v
theories/SpecCrash.v
theories/PropCrash.v
theories/FormChecker.v
theories/ExampleCrash.v
theories/PropOrder.v
theories/InterfaceChecker.v
theories/ExampleOrder.v
theories/SpecArrange.v
theories/ArrangeProofs.v
theories/ArrangePhases.v
theories/PropArrange.v
theories/ExampleArrange.v
theories/SpecRedoc.v
theories/RedocProofs.v
theories/RedocPhases.v
theories/PropRedoc.v
theories/ExampleRedoc.v
theories/SetHeap.v
theories/SetHeapProofs.v
theories/SetProgram.v
theories/PropSets.v
theories/ExampleSets.v
theories/LiteralChecker.v
theories/ExampleLiteral.v
theories/SpecExec.v
theories/SpecSound.v
theories/ExecProofs.v
theories/SoundProofs.v
theories/SoundCalls.v
theories/SoundHeap.v
theories/SoundMain.v
theories/PropSound.v
theories/SoundChecker.v
theories/ExampleSound.v
theories/ExecTools.v
theories/ExecWitness.v
theories/PropExecRefuted.v
theories/SpecWhole.v
theories/LinkProofs.v
theories/LateProofs.v
theories/LateRun.v
theories/PropWhole.v
theories/ChainChecker.v
theories/WholeWitness.v
theories/ExampleWhole.v
theories/FactText.v
theories/PropFactText.v
theories/CommentMap.v
theories/SpecLayout.v
theories/PropCommentMap.v
theories/PropAnnotationComment.v
theories/ExampleLayout.v
theories/RecursionChecker.v
theories/Conform.v
theories/Test_001.v
theories/Test_annotation.v
theories/Test_docformat.v
theories/Test_dotimport.v
theories/Test_error_constructor.v
theories/Test_errortypes.v
theories/Test_examples.v
theories/Test_field_assignment.v
theories/Test_func_literal.v
theories/Test_interfaces.v
theories/Test_methods.v
theories/Test_multifile.v
theories/Test_multipackage.v
theories/Test_recursion.v
theories/Test_typecast.v
theories/Test_dereference_assignment.v
theories/Test_type_assertion.v
theories/SpecLocal.v
theories/LocalProofs.v
theories/PropLocal.v
theories/LocalChecker.v
theories/ExampleLocal.v
theories/PropTrusted.v
theories/ExampleTrusted.v
theories/SpecEdit.v
theories/EditProofs.v
theories/EditPhases.v
theories/PropEdit.v
theories/SpecSettled.v
theories/PropSettled.v
theories/ExampleEdit.v
theories/ExampleEdited.v
theories/IfaceGrow.v
theories/SpecGrow.v
theories/GrowProofs.v
theories/PropGrow.v
theories/ExampleGrow.v
