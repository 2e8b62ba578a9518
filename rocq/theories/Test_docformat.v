(** * The test package docformat of /repo/analysis/testdata/src, run on the model.  Generated by tools/conform.py; see Conform.v. *)
From Coq Require Import Ascii String.
From stdpp Require Import base list gmap.
From Verif Require Import GoString Scc Engine Constant CommentText CommentMap Phase FactText Conform Claims Analyse Verify SpecTaint SpecProgram SpecLiterals SpecCodeMethod SpecInterfaces SpecSites SpecCrash SpecSound SpecWhole SpecLayout Checkers RecursionChecker LiteralChecker CodeCheckers FormChecker InterfaceChecker SoundChecker ChainChecker ExampleLayout GoAst.
Local Open Scope N_scope.
Definition t_docformat_f1 : func := Func 3 (Some (DeclInfo (Ident 4 (str "Correct") (Some 1)) None (Some (comment_text [(str "// Correct is a demo function."); (str "// The following is a valid example of an errors docstring."); (str "//"); (str "// Errors:"); (str "//"); (str "//    - hello-error       -- is always returned"); (str "// The following error codes should not occur:"); (str "//    - hello-unreachable -- should never be returned"); (str "//    - hello-unreachable --"); (str "//"); (str "// After a blank line comments in any format may follow."); (str "// Additional blocks starting with 'Errors:' are disallowed.")])))) (FuncType 5 [] (Some [(Field 8 [] 9)]) 442) (Some (Node 10 (KOther (str "*ast.BlockStmt")) [(Node 11 (KOther (str "*ast.IfStmt")) [(Node 12 (KIdent (str "false") None) []); (Node 13 (KOther (str "*ast.BlockStmt")) [(Node 14 KReturn [(Node 15 (KUnary true) [(Node 16 KComposite [(Node 18 KBasicLit [])])])])])]); (Node 19 KReturn [(Node 20 (KUnary true) [(Node 21 KComposite [(Node 23 KBasicLit [])])])])])) 448 593.
Definition t_docformat_f2 : func := Func 24 (Some (DeclInfo (Ident 25 (str "NewError") (Some 2)) None (Some (comment_text [(str "// NewError is a constructor for Error using the code parameter."); (str "//"); (str "// Errors:"); (str "//"); (str "//    - param: code   -- is used if the provided flag is true"); (str "//    - unknown-error -- is used otherwise")])))) (FuncType 26 [(Field 28 [(Ident 29 (str "code") (Some 3))] 30); (Field 31 [(Ident 32 (str "flag") (Some 4))] 33)] (Some [(Field 35 [] 36)]) 820) (Some (Node 37 (KOther (str "*ast.BlockStmt")) [(Node 38 (KOther (str "*ast.IfStmt")) [(Node 39 (KIdent (str "flag") (Some 4)) []); (Node 40 (KOther (str "*ast.BlockStmt")) [(Node 41 KReturn [(Node 42 (KUnary true) [(Node 43 KComposite [(Node 45 (KIdent (str "code") (Some 3)) [])])])])])]); (Node 46 KReturn [(Node 47 (KUnary true) [(Node 48 KComposite [(Node 50 KBasicLit [])])])])])) 826 993.
Definition t_docformat_f3 : func := Func 51 (Some (DeclInfo (Ident 52 (str "NoError") (Some 5)) None (Some (comment_text [(str "// NoError is a demo function."); (str "// Functions that don't return an error, don't have to declare them in an errors docstring.")])))) (FuncType 53 [] None 0) (Some (Node 55 (KOther (str "*ast.BlockStmt")) [])) 1133 1135.
Definition t_docformat_f4 : func := Func 56 (Some (DeclInfo (Ident 57 (str "InvalidNoErrors") (Some 6)) None None)) (FuncType 58 [] (Some [(Field 61 [] 62)]) 1160) (Some (Node 63 (KOther (str "*ast.BlockStmt")) [(Node 64 KReturn [(Node 65 KCall [(Node 66 (KIdent (str "correctNoErrors") (Some 7)) [])])])])) 1166 1282.
Definition t_docformat_f5 : func := Func 67 (Some (DeclInfo (Ident 68 (str "InvalidNoErrorsWithComment") (Some 8)) None (Some (comment_text [(str "// InvalidNoErrorsWithComment is demo function."); (str "// Erros are not documented in this function which should be detected by our analyzer.")])))) (FuncType 69 [] (Some [(Field 72 [] 73)]) 1453) (Some (Node 74 (KOther (str "*ast.BlockStmt")) [(Node 75 KReturn [(Node 76 KCall [(Node 77 (KIdent (str "correctNoErrors") (Some 7)) [])])])])) 1459 1586.
Definition t_docformat_f6 : func := Func 78 (Some (DeclInfo (Ident 79 (str "correctNoErrors") (Some 7)) None None)) (FuncType 80 [] (Some [(Field 83 [] 84)]) 1611) (Some (Node 85 (KOther (str "*ast.BlockStmt")) [(Node 86 KReturn [(Node 87 (KIdent (str "nil") None) [])])])) 1617 1678.
Definition t_docformat_f7 : func := Func 88 (Some (DeclInfo (Ident 89 (str "CorrectNoErrors1") (Some 9)) None (Some (comment_text [(str "// CorrectNoErrors1 returns no errors and correctly declares that."); (str "//"); (str "// Errors: none")])))) (FuncType 90 [] (Some [(Field 93 [] 94)]) 1790) (Some (Node 95 (KOther (str "*ast.BlockStmt")) [(Node 96 KReturn [(Node 97 (KIdent (str "nil") None) [])])])) 1796 1850.
Definition t_docformat_f8 : func := Func 98 (Some (DeclInfo (Ident 99 (str "CorrectNoErrors2") (Some 10)) None (Some (comment_text [(str "// CorrectNoErrors2 returns no errors and correctly declares that."); (str "//"); (str "// Errors: none -- some optional docu here why no errors are returned")])))) (FuncType 100 [] (Some [(Field 103 [] 104)]) 2016) (Some (Node 105 (KOther (str "*ast.BlockStmt")) [(Node 106 KReturn [(Node 107 (KIdent (str "nil") None) [])])])) 2022 2076.
Definition t_docformat_f9 : func := Func 108 (Some (DeclInfo (Ident 109 (str "Two") (Some 11)) None (Some (comment_text [(str "// Two is a test function."); (str "// It returns an error value it creates itself."); (str "// The following errors docstring is missing a blank line after 'Errors:'."); (str "//"); (str "// Errors:"); (str "//    - hello-error -- is always returned.")])))) (FuncType 110 [] (Some [(Field 113 [] 114)]) 2296) (Some (Node 115 (KOther (str "*ast.BlockStmt")) [(Node 116 KReturn [(Node 117 (KUnary true) [(Node 118 KComposite [(Node 120 KBasicLit [])])])])])) 2302 2433.
Definition t_docformat_f10 : func := Func 121 (Some (DeclInfo (Ident 122 (str "InvalidRepeatedErrorsDeclaration1") (Some 12)) None (Some (comment_text [(str "// InvalidRepeatedErrorsDeclaration1 is a demo function."); (str "// The following errors docstring has multiple 'Errors:' block indicators which is invalid."); (str "//"); (str "// Errors:"); (str "//"); (str "// Errors:"); (str "//"); (str "//    - hello-error -- is always returned.")])))) (FuncType 123 [] (Some [(Field 126 [] 127)]) 2699) (Some (Node 128 (KOther (str "*ast.BlockStmt")) [(Node 129 KReturn [(Node 130 (KUnary true) [(Node 131 KComposite [(Node 133 KBasicLit [])])])])])) 2705 2847.
Definition t_docformat_f11 : func := Func 134 (Some (DeclInfo (Ident 135 (str "InvalidRepeatedErrorsDeclaration2") (Some 13)) None (Some (comment_text [(str "// InvalidRepeatedErrorsDeclaration2 is a demo function."); (str "// The following errors docstring has multiple 'Errors:' block indicators which is invalid."); (str "//"); (str "// Errors:"); (str "//"); (str "//    - hello-error -- is always returned."); (str "//"); (str "// Errors:"); (str "//"); (str "//    - hello-error -- is always returned.")])))) (FuncType 136 [] (Some [(Field 139 [] 140)]) 3159) (Some (Node 141 (KOther (str "*ast.BlockStmt")) [(Node 142 KReturn [(Node 143 (KUnary true) [(Node 144 KComposite [(Node 146 KBasicLit [])])])])])) 3165 3307.
Definition t_docformat_f12 : func := Func 147 (Some (DeclInfo (Ident 148 (str "InvalidRepeatedErrorsDeclaration3") (Some 14)) None (Some (comment_text [(str "// InvalidRepeatedErrorsDeclaration3 is a demo function."); (str "// The following errors docstring has multiple 'Errors:' block indicators which is invalid."); (str "//"); (str "// Errors: none"); (str "//"); (str "// Errors:"); (str "//"); (str "//    - hello-error -- is always returned.")])))) (FuncType 149 [] (Some [(Field 152 [] 153)]) 3578) (Some (Node 154 (KOther (str "*ast.BlockStmt")) [(Node 155 KReturn [(Node 156 (KUnary true) [(Node 157 KComposite [(Node 159 KBasicLit [])])])])])) 3584 3726.
Definition t_docformat_f13 : func := Func 160 (Some (DeclInfo (Ident 161 (str "InvalidRepeatedErrorsDeclaration4") (Some 15)) None (Some (comment_text [(str "// InvalidRepeatedErrorsDeclaration4 is a demo function."); (str "// The following errors docstring has multiple 'Errors:' block indicators which is invalid."); (str "//"); (str "// Errors:"); (str "//"); (str "//    - hello-error -- is always returned."); (str "//"); (str "// Errors: none")])))) (FuncType 162 [] (Some [(Field 165 [] 166)]) 3997) (Some (Node 167 (KOther (str "*ast.BlockStmt")) [(Node 168 KReturn [(Node 169 (KIdent (str "nil") None) [])])])) 4003 4127.
Definition t_docformat_f14 : func := Func 170 (Some (DeclInfo (Ident 171 (str "Five") (Some 16)) None (Some (comment_text [(str "// Five is a demo function."); (str "// The following errors docstring has an error code line with an invalid format."); (str "//"); (str "// Errors:"); (str "//"); (str "//    - hello-error - is always returned.")])))) (FuncType 172 [] (Some [(Field 175 [] 176)]) 4309) (Some (Node 177 (KOther (str "*ast.BlockStmt")) [(Node 178 KReturn [(Node 179 (KUnary true) [(Node 180 KComposite [(Node 182 KBasicLit [])])])])])) 4315 4483.
Definition t_docformat_f15 : func := Func 183 (Some (DeclInfo (Ident 184 (str "Six") (Some 17)) None (Some (comment_text [(str "// Six is a demo function."); (str "// The following errors docstring has an invalid whitespace error code."); (str "//"); (str "// Errors:"); (str "//"); (str "//    - hello-error -- is always returned."); (str "//    - -- is invalid.")])))) (FuncType 185 [] (Some [(Field 188 [] 189)]) 4678) (Some (Node 190 (KOther (str "*ast.BlockStmt")) [(Node 191 KReturn [(Node 192 (KUnary true) [(Node 193 KComposite [(Node 195 KBasicLit [])])])])])) 4684 4802.
Definition t_docformat_f16 : func := Func 196 (Some (DeclInfo (Ident 197 (str "Seven") (Some 18)) None (Some (comment_text [(str "// Seven is a demo function."); (str "// The following errors docstring has an invalid whitespace error code."); (str "//"); (str "// Errors:"); (str "//"); (str "//    - hello-error -- is always returned."); (str "//    -             -- is invalid.")])))) (FuncType 198 [] (Some [(Field 201 [] 202)]) 5013) (Some (Node 203 (KOther (str "*ast.BlockStmt")) [(Node 204 KReturn [(Node 205 (KUnary true) [(Node 206 KComposite [(Node 208 KBasicLit [])])])])])) 5019 5139.
Definition t_docformat_f17 : func := Func 209 (Some (DeclInfo (Ident 210 (str "InvalidCodeFormat1") (Some 19)) None (Some (comment_text [(str "// InvalidCodeFormat1 declares an error with invalid format."); (str "//"); (str "// Errors:"); (str "//"); (str "// - invalid- -- ending with a dash")])))) (FuncType 211 [] (Some [(Field 214 [] 215)]) 5281) (Some (Node 216 (KOther (str "*ast.BlockStmt")) [(Node 217 KReturn [(Node 218 (KIdent (str "nil") None) [])])])) 5287 5417.
Definition t_docformat_f18 : func := Func 219 (Some (DeclInfo (Ident 220 (str "InvalidCodeFormat2") (Some 20)) None (Some (comment_text [(str "// InvalidCodeFormat2 declares an error with invalid format."); (str "//"); (str "// Errors:"); (str "//"); (str "// - -invalid -- starting with a dash")])))) (FuncType 221 [] (Some [(Field 224 [] 225)]) 5561) (Some (Node 226 (KOther (str "*ast.BlockStmt")) [(Node 227 KReturn [(Node 228 (KIdent (str "nil") None) [])])])) 5567 5697.
Definition t_docformat_f19 : func := Func 229 (Some (DeclInfo (Ident 230 (str "InvalidCodeFormat3") (Some 21)) None (Some (comment_text [(str "// InvalidCodeFormat3 declares an error with invalid format."); (str "//"); (str "// Errors:"); (str "//"); (str "// - 0invalid-error -- starting with a number")])))) (FuncType 231 [] (Some [(Field 234 [] 235)]) 5849) (Some (Node 236 (KOther (str "*ast.BlockStmt")) [(Node 237 KReturn [(Node 238 (KIdent (str "nil") None) [])])])) 5855 5985.
Definition t_docformat_f20 : func := Func 239 (Some (DeclInfo (Ident 240 (str "InvalidCodeFormat4") (Some 22)) None (Some (comment_text [(str "// InvalidCodeFormat4 declares an error with invalid format."); (str "//"); (str "// Errors:"); (str "//"); (str "// - invalid(error)-code -- containing invalid chars (braces)")])))) (FuncType 241 [] (Some [(Field 244 [] 245)]) 6153) (Some (Node 246 (KOther (str "*ast.BlockStmt")) [(Node 247 KReturn [(Node 248 (KIdent (str "nil") None) [])])])) 6159 6289.
Definition t_docformat_f21 : func := Func 249 (Some (DeclInfo (Ident 250 (str "InvalidCodeFormat5") (Some 23)) None (Some (comment_text [(str "// InvalidCodeFormat5 declares an error with invalid format."); (str "//"); (str "// Errors:"); (str "//"); (str "// - invalid error -- containing invalid char (space)")])))) (FuncType 251 [] (Some [(Field 254 [] 255)]) 6449) (Some (Node 256 (KOther (str "*ast.BlockStmt")) [(Node 257 KReturn [(Node 258 (KIdent (str "nil") None) [])])])) 6455 6585.
Definition t_docformat_f22 : func := Func 259 (Some (DeclInfo (Ident 260 (str "InvalidConstructor1") (Some 24)) None (Some (comment_text [(str "// Errors:"); (str "//"); (str "//    - param: code1 --"); (str "//    - param: code2 --")])))) (FuncType 261 [(Field 263 [(Ident 264 (str "code1") (Some 25)); (Ident 265 (str "code2") (Some 26))] 266)] (Some [(Field 268 [] 269)]) 6695) (Some (Node 270 (KOther (str "*ast.BlockStmt")) [(Node 271 KReturn [(Node 272 (KIdent (str "nil") None) [])])])) 6701 6865.
Definition t_docformat_f23 : func := Func 273 (Some (DeclInfo (Ident 274 (str "InvalidConstructor2") (Some 27)) None (Some (comment_text [(str "// Errors:"); (str "//"); (str "//    - param:    --")])))) (FuncType 275 [(Field 277 [(Ident 278 (str "code1") (Some 28)); (Ident 279 (str "code2") (Some 29))] 280)] (Some [(Field 282 [] 283)]) 6948) (Some (Node 284 (KOther (str "*ast.BlockStmt")) [(Node 285 KReturn [(Node 286 (KIdent (str "nil") None) [])])])) 6954 7080.
Definition t_docformat_f24 : func := Func 287 (Some (DeclInfo (Ident 288 (str "InvalidConstructor3") (Some 30)) None (Some (comment_text [(str "// Errors:"); (str "//"); (str "//    - param: code -- does not actually exist")])))) (FuncType 289 [(Field 291 [(Ident 292 (str "_") (Some 31))] 293)] (Some [(Field 295 [] 296)]) 7178) (Some (Node 297 (KOther (str "*ast.BlockStmt")) [(Node 298 KReturn [(Node 299 (KIdent (str "nil") None) [])])])) 7184 7283.
Definition t_docformat_f25 : func := Func 300 (Some (DeclInfo (Ident 301 (str "InvalidErrorCodeParamType") (Some 32)) None (Some (comment_text [(str "// Errors:"); (str "//"); (str "//    - param: code -- code with invalid type")])))) (FuncType 302 [(Field 304 [(Ident 305 (str "code") (Some 33))] 306)] (Some [(Field 308 [] 309)]) 7386) (Some (Node 310 (KOther (str "*ast.BlockStmt")) [(Node 311 KReturn [(Node 312 (KIdent (str "nil") None) [])])])) 7392 7470.
Definition t_docformat_f26 : func := Func 408 (Some (DeclInfo (Ident 414 (str "Code") None) (Some [(Field 410 [(Ident 411 (str "e") (Some 34))] 412)]) None)) (FuncType 415 [] (Some [(Field 418 [] 419)]) 10419) (Some (Node 420 (KOther (str "*ast.BlockStmt")) [(Node 421 KReturn [(Node 422 KSelector [(Node 423 (KIdent (str "e") (Some 34)) []); (Node 424 (KIdent (str "TheCode") None) [])])])])) 10440 10460.
Definition t_docformat_f27 : func := Func 425 (Some (DeclInfo (Ident 431 (str "Message") None) (Some [(Field 427 [(Ident 428 (str "e") (Some 35))] 429)]) None)) (FuncType 432 [] (Some [(Field 435 [] 436)]) 10487) (Some (Node 437 (KOther (str "*ast.BlockStmt")) [(Node 438 KReturn [(Node 439 KSelector [(Node 440 (KIdent (str "e") (Some 35)) []); (Node 441 (KIdent (str "TheCode") None) [])])])])) 10505 10525.
Definition t_docformat_f28 : func := Func 442 (Some (DeclInfo (Ident 448 (str "Details") None) (Some [(Field 444 [(Ident 445 (str "e") (Some 36))] 446)]) None)) (FuncType 449 [] (Some [(Field 452 [] 453)]) 10552) (Some (Node 456 (KOther (str "*ast.BlockStmt")) [(Node 457 KReturn [(Node 458 (KIdent (str "nil") None) [])])])) 10570 10584.
Definition t_docformat_f29 : func := Func 459 (Some (DeclInfo (Ident 465 (str "Cause") None) (Some [(Field 461 [(Ident 462 (str "e") (Some 37))] 463)]) None)) (FuncType 466 [] (Some [(Field 469 [] 470)]) 10609) (Some (Node 471 (KOther (str "*ast.BlockStmt")) [(Node 472 KReturn [(Node 473 (KIdent (str "nil") None) [])])])) 10629 10643.
Definition t_docformat_f30 : func := Func 474 (Some (DeclInfo (Ident 480 (str "Error") None) (Some [(Field 476 [(Ident 477 (str "e") (Some 38))] 478)]) None)) (FuncType 481 [] (Some [(Field 484 [] 485)]) 10668) (Some (Node 486 (KOther (str "*ast.BlockStmt")) [(Node 487 KReturn [(Node 488 KCall [(Node 489 KSelector [(Node 490 (KIdent (str "e") (Some 38)) []); (Node 491 (KIdent (str "Message") None) [])])])])])) 10688 10710.
Definition t_docformat_gendecls : list gendecl := [GenDecl 313 [(Some (TypeSpec (Ident 315 (str "InterfaceOne") (Some 39)) (XInterface 316 [IMethod 318 (Ident 319 (str "One") None) None (FuncType 320 [] (Some [(Field 323 [] 324)]) 7509); IMethod 325 (Ident 326 (str "OneWithComment") None) (Some (comment_text [(str "// OneWithComment is demo function."); (str "// Erros are not documented in this function which should be detected by our analyzer.")])) (FuncType 327 [] (Some [(Field 330 [] 331)]) 7725); IMethod 332 (Ident 333 (str "one") None) None (FuncType 334 [] (Some [(Field 337 [] 338)]) 7816)])))]; GenDecl 339 [(Some (TypeSpec (Ident 341 (str "OddDocstringInterface") (Some 40)) (XInterface 342 [IMethod 344 (Ident 345 (str "Two") None) (Some (comment_text [(str "// Two is a test function."); (str "//"); (str "// Errors:"); (str "//    - hello-error -- is always returned.")])) (FuncType 346 [] (Some [(Field 349 [] 350)]) 8025); IMethod 351 (Ident 352 (str "Three") None) (Some (comment_text [(str "// Three is a demo function."); (str "// The following errors docstring has multiple 'Errors:' block indicators which is invalid."); (str "//"); (str "// Errors:"); (str "//"); (str "// Errors:"); (str "//"); (str "//    - hello-error -- is always returned.")])) (FuncType 353 [] (Some [(Field 356 [] 357)]) 8350); IMethod 358 (Ident 359 (str "Four") None) (Some (comment_text [(str "// Four is a demo function."); (str "// The following errors docstring has multiple 'Errors:' block indicators which is invalid."); (str "//"); (str "// Errors:"); (str "//"); (str "//    - hello-error -- is always returned."); (str "//"); (str "// Errors:"); (str "//"); (str "//    - hello-error -- is always returned.")])) (FuncType 360 [] (Some [(Field 363 [] 364)]) 8704); IMethod 365 (Ident 366 (str "Five") None) (Some (comment_text [(str "// Five is a demo function."); (str "// The following errors docstring has an error code line with an invalid format."); (str "//"); (str "// Errors:"); (str "//"); (str "//    - hello-error - is always returned.")])) (FuncType 367 [] (Some [(Field 370 [] 371)]) 8981); IMethod 372 (Ident 373 (str "Six") None) (Some (comment_text [(str "// Six is a demo function."); (str "// The following errors docstring has an invalid whitespace error code."); (str "//"); (str "// Errors:"); (str "//"); (str "//    - hello-error -- is always returned."); (str "//    - -- is invalid.")])) (FuncType 374 [] (Some [(Field 377 [] 378)]) 9327); IMethod 379 (Ident 380 (str "Seven") None) (Some (comment_text [(str "// Seven is a demo function."); (str "// The following errors docstring has an invalid whitespace error code."); (str "//"); (str "// Errors:"); (str "//"); (str "//    - hello-error -- is always returned."); (str "//    -             -- is invalid.")])) (FuncType 381 [] (Some [(Field 384 [] 385)]) 9639); IMethod 386 (Ident 387 (str "InvalidCodeFormat1") None) (Some (comment_text [(str "// InvalidCodeFormat1 declares an error with invalid format."); (str "//"); (str "// Errors:"); (str "//"); (str "// - invalid- -- ending with a dash")])) (FuncType 388 [] (Some [(Field 391 [] 392)]) 9882); IMethod 393 (Ident 394 (str "InvalidCodeFormat2") None) (Some (comment_text [(str "// InvalidCodeFormat2 declares an error with invalid format."); (str "//"); (str "// Errors:"); (str "//"); (str "// - -invalid -- starting with a dash")])) (FuncType 395 [] (Some [(Field 398 [] 399)]) 10155)])))]; GenDecl 400 [(Some (TypeSpec (Ident 402 (str "Error") (Some 41)) (XStruct [[(Ident 406 (str "TheCode") None)]])))]].
Definition t_docformat_top : list topdecl := [TopFunc 1; TopFunc 2; TopFunc 3; TopFunc 4; TopFunc 5; TopFunc 6; TopFunc 7; TopFunc 8; TopFunc 9; TopFunc 10; TopFunc 11; TopFunc 12; TopFunc 13; TopFunc 14; TopFunc 15; TopFunc 16; TopFunc 17; TopFunc 18; TopFunc 19; TopFunc 20; TopFunc 21; TopFunc 22; TopFunc 23; TopFunc 24; TopFunc 25; TopNode (Node 313 (KOther (str "*ast.GenDecl")) [(Node 314 (KOther (str "*ast.TypeSpec")) [])]); TopNode (Node 339 (KOther (str "*ast.GenDecl")) [(Node 340 (KOther (str "*ast.TypeSpec")) [])]); TopNode (Node 400 (KOther (str "*ast.GenDecl")) [(Node 401 (KOther (str "*ast.TypeSpec")) [])]); TopFunc 26; TopFunc 27; TopFunc 28; TopFunc 29; TopFunc 30].
Definition t_docformat_objs : list (N * object) := [(1, Object false 432 (DFunc 1)); (2, Object false 787 (DFunc 2)); (3, Object true 796 DOther); (4, Object true 809 DOther); (5, Object false 1123 (DFunc 3)); (6, Object false 1142 (DFunc 4)); (7, Object false 1593 (DFunc 6)); (8, Object false 1424 (DFunc 5)); (9, Object false 1771 (DFunc 7)); (10, Object false 1997 (DFunc 8)); (11, Object false 2290 (DFunc 9)); (12, Object false 2663 (DFunc 10)); (13, Object false 3123 (DFunc 11)); (14, Object false 3542 (DFunc 12)); (15, Object false 3961 (DFunc 13)); (16, Object false 4302 (DFunc 14)); (17, Object false 4672 (DFunc 15)); (18, Object false 5005 (DFunc 16)); (19, Object false 5260 (DFunc 17)); (20, Object false 5540 (DFunc 18)); (21, Object false 5828 (DFunc 19)); (22, Object false 6132 (DFunc 20)); (23, Object false 6428 (DFunc 21)); (24, Object false 6654 (DFunc 22)); (25, Object true 6674 DOther); (26, Object true 6681 DOther); (27, Object false 6907 (DFunc 23)); (28, Object true 6927 DOther); (29, Object true 6934 DOther); (30, Object false 7148 (DFunc 24)); (31, Object true 7168 DOther); (32, Object false 7350 (DFunc 25)); (33, Object true 7376 DOther); (34, Object true 10402 DOther); (35, Object true 10467 DOther); (36, Object true 10532 DOther); (37, Object true 10591 DOther); (38, Object true 10650 DOther); (39, Object false 7477 DType); (40, Object false 7896 DType); (41, Object false 10292 DType)].
Definition t_docformat_types : list (N * gotype) := [(5, (TSignature [] [(TNamed 1)] false)); (9, (TNamed 1)); (12, (TBasic (str "bool"))); (15, (TPointer (TNamed 74))); (16, (TNamed 74)); (17, (TNamed 74)); (18, (TBasic (str "string"))); (20, (TPointer (TNamed 74))); (21, (TNamed 74)); (22, (TNamed 74)); (23, (TBasic (str "string"))); (26, (TSignature [(TBasic (str "string")); (TBasic (str "bool"))] [(TNamed 1)] false)); (29, (TBasic (str "string"))); (30, (TBasic (str "string"))); (32, (TBasic (str "bool"))); (33, (TBasic (str "bool"))); (36, (TNamed 1)); (39, (TBasic (str "bool"))); (42, (TPointer (TNamed 74))); (43, (TNamed 74)); (44, (TNamed 74)); (45, (TBasic (str "string"))); (47, (TPointer (TNamed 74))); (48, (TNamed 74)); (49, (TNamed 74)); (50, (TBasic (str "string"))); (53, (TSignature [] [] false)); (58, (TSignature [] [(TNamed 1)] false)); (62, (TNamed 1)); (65, (TNamed 1)); (66, (TSignature [] [(TNamed 1)] false)); (69, (TSignature [] [(TNamed 1)] false)); (73, (TNamed 1)); (76, (TNamed 1)); (77, (TSignature [] [(TNamed 1)] false)); (80, (TSignature [] [(TNamed 1)] false)); (84, (TNamed 1)); (87, TUntypedNil); (90, (TSignature [] [(TNamed 1)] false)); (94, (TNamed 1)); (97, TUntypedNil); (100, (TSignature [] [(TNamed 1)] false)); (104, (TNamed 1)); (107, TUntypedNil); (110, (TSignature [] [(TNamed 1)] false)); (114, (TNamed 1)); (117, (TPointer (TNamed 74))); (118, (TNamed 74)); (119, (TNamed 74)); (120, (TBasic (str "string"))); (123, (TSignature [] [(TNamed 1)] false)); (127, (TNamed 1)); (130, (TPointer (TNamed 74))); (131, (TNamed 74)); (132, (TNamed 74)); (133, (TBasic (str "string"))); (136, (TSignature [] [(TNamed 1)] false)); (140, (TNamed 1)); (143, (TPointer (TNamed 74))); (144, (TNamed 74)); (145, (TNamed 74)); (146, (TBasic (str "string"))); (149, (TSignature [] [(TNamed 1)] false)); (153, (TNamed 1)); (156, (TPointer (TNamed 74))); (157, (TNamed 74)); (158, (TNamed 74)); (159, (TBasic (str "string"))); (162, (TSignature [] [(TNamed 1)] false)); (166, (TNamed 1)); (169, TUntypedNil); (172, (TSignature [] [(TNamed 1)] false)); (176, (TNamed 1)); (179, (TPointer (TNamed 74))); (180, (TNamed 74)); (181, (TNamed 74)); (182, (TBasic (str "string"))); (185, (TSignature [] [(TNamed 1)] false)); (189, (TNamed 1)); (192, (TPointer (TNamed 74))); (193, (TNamed 74)); (194, (TNamed 74)); (195, (TBasic (str "string"))); (198, (TSignature [] [(TNamed 1)] false)); (202, (TNamed 1)); (205, (TPointer (TNamed 74))); (206, (TNamed 74)); (207, (TNamed 74)); (208, (TBasic (str "string"))); (211, (TSignature [] [(TNamed 1)] false)); (215, (TNamed 1)); (218, TUntypedNil); (221, (TSignature [] [(TNamed 1)] false)); (225, (TNamed 1)); (228, TUntypedNil); (231, (TSignature [] [(TNamed 1)] false)); (235, (TNamed 1)); (238, TUntypedNil); (241, (TSignature [] [(TNamed 1)] false)); (245, (TNamed 1)); (248, TUntypedNil); (251, (TSignature [] [(TNamed 1)] false)); (255, (TNamed 1)); (258, TUntypedNil); (261, (TSignature [(TBasic (str "string")); (TBasic (str "string"))] [(TNamed 1)] false)); (264, (TBasic (str "string"))); (265, (TBasic (str "string"))); (266, (TBasic (str "string"))); (269, (TNamed 1)); (272, TUntypedNil); (275, (TSignature [(TBasic (str "string")); (TBasic (str "string"))] [(TNamed 1)] false)); (278, (TBasic (str "string"))); (279, (TBasic (str "string"))); (280, (TBasic (str "string"))); (283, (TNamed 1)); (286, TUntypedNil); (289, (TSignature [(TBasic (str "string"))] [(TNamed 1)] false)); (292, (TBasic (str "string"))); (293, (TBasic (str "string"))); (296, (TNamed 1)); (299, TUntypedNil); (302, (TSignature [(TBasic (str "int"))] [(TNamed 1)] false)); (305, (TBasic (str "int"))); (306, (TBasic (str "int"))); (309, (TNamed 1)); (312, TUntypedNil); (315, (TNamed 72)); (316, (TInterface 5)); (319, (TSignature [] [(TNamed 1)] false)); (320, (TSignature [] [(TNamed 1)] false)); (324, (TNamed 1)); (326, (TSignature [] [(TNamed 1)] false)); (327, (TSignature [] [(TNamed 1)] false)); (331, (TNamed 1)); (333, (TSignature [] [(TNamed 1)] false)); (334, (TSignature [] [(TNamed 1)] false)); (338, (TNamed 1)); (341, (TNamed 73)); (342, (TInterface 6)); (345, (TSignature [] [(TNamed 1)] false)); (346, (TSignature [] [(TNamed 1)] false)); (350, (TNamed 1)); (352, (TSignature [] [(TNamed 1)] false)); (353, (TSignature [] [(TNamed 1)] false)); (357, (TNamed 1)); (359, (TSignature [] [(TNamed 1)] false)); (360, (TSignature [] [(TNamed 1)] false)); (364, (TNamed 1)); (366, (TSignature [] [(TNamed 1)] false)); (367, (TSignature [] [(TNamed 1)] false)); (371, (TNamed 1)); (373, (TSignature [] [(TNamed 1)] false)); (374, (TSignature [] [(TNamed 1)] false)); (378, (TNamed 1)); (380, (TSignature [] [(TNamed 1)] false)); (381, (TSignature [] [(TNamed 1)] false)); (385, (TNamed 1)); (387, (TSignature [] [(TNamed 1)] false)); (388, (TSignature [] [(TNamed 1)] false)); (392, (TNamed 1)); (394, (TSignature [] [(TNamed 1)] false)); (395, (TSignature [] [(TNamed 1)] false)); (399, (TNamed 1)); (402, (TNamed 74)); (403, (TStruct [((str "TheCode"), (TBasic (str "string")))])); (406, (TBasic (str "string"))); (407, (TBasic (str "string"))); (411, (TPointer (TNamed 74))); (412, (TPointer (TNamed 74))); (413, (TNamed 74)); (415, (TSignature [] [(TBasic (str "string"))] false)); (419, (TBasic (str "string"))); (422, (TBasic (str "string"))); (423, (TPointer (TNamed 74))); (424, (TBasic (str "string"))); (428, (TPointer (TNamed 74))); (429, (TPointer (TNamed 74))); (430, (TNamed 74)); (432, (TSignature [] [(TBasic (str "string"))] false)); (436, (TBasic (str "string"))); (439, (TBasic (str "string"))); (440, (TPointer (TNamed 74))); (441, (TBasic (str "string"))); (445, (TPointer (TNamed 74))); (446, (TPointer (TNamed 74))); (447, (TNamed 74)); (449, (TSignature [] [(TMap (TBasic (str "string")) (TBasic (str "string")))] false)); (453, (TMap (TBasic (str "string")) (TBasic (str "string")))); (454, (TBasic (str "string"))); (455, (TBasic (str "string"))); (458, TUntypedNil); (462, (TPointer (TNamed 74))); (463, (TPointer (TNamed 74))); (464, (TNamed 74)); (466, (TSignature [] [(TNamed 1)] false)); (470, (TNamed 1)); (473, TUntypedNil); (477, (TPointer (TNamed 74))); (478, (TPointer (TNamed 74))); (479, (TNamed 74)); (481, (TSignature [] [(TBasic (str "string"))] false)); (485, (TBasic (str "string"))); (488, (TBasic (str "string"))); (489, (TSignature [] [(TBasic (str "string"))] false)); (490, (TPointer (TNamed 74))); (491, (TSignature [] [(TBasic (str "string"))] false))].
Definition t_docformat_values : list (N * constval) := [(12, COther); (18, CString (str "hello-unreachable")); (23, CString (str "hello-error")); (50, CString (str "unknown-error")); (120, CString (str "hello-error")); (133, CString (str "hello-error")); (146, CString (str "hello-error")); (159, CString (str "hello-error")); (182, CString (str "hello-error")); (195, CString (str "hello-error")); (208, CString (str "hello-error"))].
Definition t_docformat_uses : list (N * tobj) := [(9, 1); (12, 22); (17, 74); (22, 74); (30, 5); (33, 4); (36, 1); (39, 86); (44, 74); (45, 85); (49, 74); (62, 1); (66, 52); (73, 1); (77, 52); (84, 1); (87, 24); (94, 1); (97, 24); (104, 1); (107, 24); (114, 1); (119, 74); (127, 1); (132, 74); (140, 1); (145, 74); (153, 1); (158, 74); (166, 1); (169, 24); (176, 1); (181, 74); (189, 1); (194, 74); (202, 1); (207, 74); (215, 1); (218, 24); (225, 1); (228, 24); (235, 1); (238, 24); (245, 1); (248, 24); (255, 1); (258, 24); (266, 5); (269, 1); (272, 24); (280, 5); (283, 1); (286, 24); (293, 5); (296, 1); (299, 24); (306, 6); (309, 1); (312, 24); (324, 1); (331, 1); (338, 1); (350, 1); (357, 1); (364, 1); (371, 1); (378, 1); (385, 1); (392, 1); (399, 1); (407, 5); (413, 74); (419, 5); (423, 80); (424, 104); (430, 74); (436, 5); (440, 81); (441, 104); (447, 74); (454, 5); (455, 5); (458, 24); (464, 74); (470, 1); (473, 24); (479, 74); (485, 5); (490, 84); (491, 76)].
Definition t_docformat_defs : list (N * tobj) := [(4, 47); (25, 48); (29, 85); (32, 86); (52, 49); (57, 50); (68, 51); (79, 52); (89, 53); (99, 54); (109, 55); (122, 56); (135, 57); (148, 58); (161, 59); (171, 60); (184, 61); (197, 62); (210, 63); (220, 64); (230, 65); (240, 66); (250, 67); (260, 68); (264, 87); (265, 88); (274, 69); (278, 89); (279, 90); (288, 70); (292, 91); (301, 71); (305, 92); (315, 72); (319, 93); (326, 94); (333, 95); (341, 73); (345, 96); (352, 97); (359, 98); (366, 99); (373, 100); (380, 101); (387, 102); (394, 103); (402, 74); (411, 80); (414, 75); (428, 81); (431, 76); (445, 82); (448, 77); (462, 83); (465, 78); (477, 84); (480, 79)].
Definition t_docformat_sels : list (N * (tobj * gotype)) := [(422, (104, (TPointer (TNamed 74)))); (439, (104, (TPointer (TNamed 74)))); (489, (76, (TPointer (TNamed 74))))].
Definition t_docformat_pkgnames : list (N * gostring) := [].
Definition t_docformat_objnames : list (N * gostring) := [(1, (str "error")); (2, (str "Error")); (3, (str "?")); (4, (str "bool")); (5, (str "string")); (6, (str "int")); (7, (str "int8")); (8, (str "int16")); (9, (str "int32")); (10, (str "int64")); (11, (str "uint")); (12, (str "uint8")); (13, (str "uint16")); (14, (str "uint32")); (15, (str "uint64")); (16, (str "uintptr")); (17, (str "float32")); (18, (str "float64")); (19, (str "complex64")); (20, (str "complex128")); (21, (str "true")); (22, (str "false")); (23, (str "iota")); (24, (str "nil")); (25, (str "append")); (26, (str "cap")); (27, (str "close")); (28, (str "complex")); (29, (str "copy")); (30, (str "delete")); (31, (str "imag")); (32, (str "len")); (33, (str "make")); (34, (str "new")); (35, (str "panic")); (36, (str "print")); (37, (str "println")); (38, (str "real")); (39, (str "recover")); (40, (str "Errorf")); (41, (str "Sprintf")); (42, (str "Println")); (43, (str "New")); (44, (str "HasPrefix")); (45, (str "Float32")); (46, (str "Float64")); (47, (str "Correct")); (48, (str "NewError")); (49, (str "NoError")); (50, (str "InvalidNoErrors")); (51, (str "InvalidNoErrorsWithComment")); (52, (str "correctNoErrors")); (53, (str "CorrectNoErrors1")); (54, (str "CorrectNoErrors2")); (55, (str "Two")); (56, (str "InvalidRepeatedErrorsDeclaration1")); (57, (str "InvalidRepeatedErrorsDeclaration2")); (58, (str "InvalidRepeatedErrorsDeclaration3")); (59, (str "InvalidRepeatedErrorsDeclaration4")); (60, (str "Five")); (61, (str "Six")); (62, (str "Seven")); (63, (str "InvalidCodeFormat1")); (64, (str "InvalidCodeFormat2")); (65, (str "InvalidCodeFormat3")); (66, (str "InvalidCodeFormat4")); (67, (str "InvalidCodeFormat5")); (68, (str "InvalidConstructor1")); (69, (str "InvalidConstructor2")); (70, (str "InvalidConstructor3")); (71, (str "InvalidErrorCodeParamType")); (72, (str "InterfaceOne")); (73, (str "OddDocstringInterface")); (74, (str "Error")); (75, (str "Code")); (76, (str "Message")); (77, (str "Details")); (78, (str "Cause")); (79, (str "Error")); (80, (str "e")); (81, (str "e")); (82, (str "e")); (83, (str "e")); (84, (str "e")); (85, (str "code")); (86, (str "flag")); (87, (str "code1")); (88, (str "code2")); (89, (str "code1")); (90, (str "code2")); (91, (str "_")); (92, (str "code")); (93, (str "One")); (94, (str "OneWithComment")); (95, (str "one")); (96, (str "Two")); (97, (str "Three")); (98, (str "Four")); (99, (str "Five")); (100, (str "Six")); (101, (str "Seven")); (102, (str "InvalidCodeFormat1")); (103, (str "InvalidCodeFormat2")); (104, (str "TheCode"))].
Definition t_docformat_objtypes : list (N * gotype) := [(1, (TNamed 1)); (2, (TSignature [] [(TBasic (str "string"))] false)); (4, (TBasic (str "bool"))); (5, (TBasic (str "string"))); (6, (TBasic (str "int"))); (7, (TBasic (str "int8"))); (8, (TBasic (str "int16"))); (9, (TBasic (str "int32"))); (10, (TBasic (str "int64"))); (11, (TBasic (str "uint"))); (12, (TBasic (str "uint8"))); (13, (TBasic (str "uint16"))); (14, (TBasic (str "uint32"))); (15, (TBasic (str "uint64"))); (16, (TBasic (str "uintptr"))); (17, (TBasic (str "float32"))); (18, (TBasic (str "float64"))); (19, (TBasic (str "complex64"))); (20, (TBasic (str "complex128"))); (40, (TSignature [(TBasic (str "string")); (TSlice (TInterface 4))] [(TNamed 1)] true)); (41, (TSignature [(TBasic (str "string")); (TSlice (TInterface 4))] [(TBasic (str "string"))] true)); (42, (TSignature [(TSlice (TInterface 4))] [(TBasic (str "int")); (TNamed 1)] true)); (43, (TSignature [(TBasic (str "string"))] [(TNamed 1)] false)); (44, (TSignature [(TBasic (str "string")); (TBasic (str "string"))] [(TBasic (str "bool"))] false)); (45, (TSignature [] [(TBasic (str "float32"))] false)); (46, (TSignature [] [(TBasic (str "float64"))] false)); (47, (TSignature [] [(TNamed 1)] false)); (48, (TSignature [(TBasic (str "string")); (TBasic (str "bool"))] [(TNamed 1)] false)); (49, (TSignature [] [] false)); (50, (TSignature [] [(TNamed 1)] false)); (51, (TSignature [] [(TNamed 1)] false)); (52, (TSignature [] [(TNamed 1)] false)); (53, (TSignature [] [(TNamed 1)] false)); (54, (TSignature [] [(TNamed 1)] false)); (55, (TSignature [] [(TNamed 1)] false)); (56, (TSignature [] [(TNamed 1)] false)); (57, (TSignature [] [(TNamed 1)] false)); (58, (TSignature [] [(TNamed 1)] false)); (59, (TSignature [] [(TNamed 1)] false)); (60, (TSignature [] [(TNamed 1)] false)); (61, (TSignature [] [(TNamed 1)] false)); (62, (TSignature [] [(TNamed 1)] false)); (63, (TSignature [] [(TNamed 1)] false)); (64, (TSignature [] [(TNamed 1)] false)); (65, (TSignature [] [(TNamed 1)] false)); (66, (TSignature [] [(TNamed 1)] false)); (67, (TSignature [] [(TNamed 1)] false)); (68, (TSignature [(TBasic (str "string")); (TBasic (str "string"))] [(TNamed 1)] false)); (69, (TSignature [(TBasic (str "string")); (TBasic (str "string"))] [(TNamed 1)] false)); (70, (TSignature [(TBasic (str "string"))] [(TNamed 1)] false)); (71, (TSignature [(TBasic (str "int"))] [(TNamed 1)] false)); (72, (TNamed 72)); (73, (TNamed 73)); (74, (TNamed 74)); (75, (TSignature [] [(TBasic (str "string"))] false)); (76, (TSignature [] [(TBasic (str "string"))] false)); (77, (TSignature [] [(TMap (TBasic (str "string")) (TBasic (str "string")))] false)); (78, (TSignature [] [(TNamed 1)] false)); (79, (TSignature [] [(TBasic (str "string"))] false)); (80, (TPointer (TNamed 74))); (81, (TPointer (TNamed 74))); (82, (TPointer (TNamed 74))); (83, (TPointer (TNamed 74))); (84, (TPointer (TNamed 74))); (85, (TBasic (str "string"))); (86, (TBasic (str "bool"))); (87, (TBasic (str "string"))); (88, (TBasic (str "string"))); (89, (TBasic (str "string"))); (90, (TBasic (str "string"))); (91, (TBasic (str "string"))); (92, (TBasic (str "int"))); (93, (TSignature [] [(TNamed 1)] false)); (94, (TSignature [] [(TNamed 1)] false)); (95, (TSignature [] [(TNamed 1)] false)); (96, (TSignature [] [(TNamed 1)] false)); (97, (TSignature [] [(TNamed 1)] false)); (98, (TSignature [] [(TNamed 1)] false)); (99, (TSignature [] [(TNamed 1)] false)); (100, (TSignature [] [(TNamed 1)] false)); (101, (TSignature [] [(TNamed 1)] false)); (102, (TSignature [] [(TNamed 1)] false)); (103, (TSignature [] [(TNamed 1)] false)); (104, (TBasic (str "string")))].
Definition t_docformat_under : list (N * gotype) := [(1, (TInterface 1)); (72, (TInterface 5)); (73, (TInterface 6)); (74, (TStruct [((str "TheCode"), (TBasic (str "string")))]))].
Definition t_docformat_named_methods : list (N * (list gostring)) := [(74, [(str "Code"); (str "Message"); (str "Details"); (str "Cause"); (str "Error")])].
Definition t_docformat_methods : list (gotype * gostring * tobj) := [((TInterface 1), (str "Error"), 2); ((TInterface 5), (str "One"), 93); ((TInterface 5), (str "OneWithComment"), 94); ((TInterface 5), (str "one"), 95); ((TInterface 6), (str "Five"), 99); ((TInterface 6), (str "Four"), 98); ((TInterface 6), (str "InvalidCodeFormat1"), 102); ((TInterface 6), (str "InvalidCodeFormat2"), 103); ((TInterface 6), (str "Seven"), 101); ((TInterface 6), (str "Six"), 100); ((TInterface 6), (str "Three"), 97); ((TInterface 6), (str "Two"), 96); ((TNamed 1), (str "Error"), 2); ((TNamed 72), (str "One"), 93); ((TNamed 72), (str "OneWithComment"), 94); ((TNamed 72), (str "one"), 95); ((TNamed 73), (str "Five"), 99); ((TNamed 73), (str "Four"), 98); ((TNamed 73), (str "InvalidCodeFormat1"), 102); ((TNamed 73), (str "InvalidCodeFormat2"), 103); ((TNamed 73), (str "Seven"), 101); ((TNamed 73), (str "Six"), 100); ((TNamed 73), (str "Three"), 97); ((TNamed 73), (str "Two"), 96); ((TPointer (TNamed 74)), (str "Cause"), 78); ((TPointer (TNamed 74)), (str "Code"), 75); ((TPointer (TNamed 74)), (str "Details"), 77); ((TPointer (TNamed 74)), (str "Error"), 79); ((TPointer (TNamed 74)), (str "Message"), 76)].
Definition t_docformat_ierr : list gotype := [(TInterface 1); (TNamed 1); (TPointer (TNamed 74))].
Definition t_docformat_iree : list gotype := [(TPointer (TNamed 74))].
Definition t_docformat_icause : list gotype := [(TPointer (TNamed 74))].
Definition t_docformat_impl : list (gotype * gotype) := [((TInterface 1), (TInterface 1)); ((TInterface 5), (TInterface 5)); ((TInterface 6), (TInterface 6)); ((TNamed 1), (TInterface 1)); ((TNamed 72), (TInterface 5)); ((TNamed 73), (TInterface 6)); ((TPointer (TNamed 74)), (TInterface 1))].
Definition t_docformat_nodes0 : list snode := [SNode 1 (Place 0 1) (Place 10709 321) true; SNode 2 (Place 8 1) (Place 17 1) false; SNode 3 (Place 426 15) (Place 592 20) true; SNode 4 (Place 431 15) (Place 438 15) false; SNode 5 (Place 426 15) (Place 446 15) false; SNode 6 (Place 438 15) (Place 440 15) false; SNode 7 (Place 441 15) (Place 446 15) false; SNode 8 (Place 441 15) (Place 446 15) true; SNode 9 (Place 441 15) (Place 446 15) false; SNode 10 (Place 447 15) (Place 592 20) true; SNode 11 (Place 510 16) (Place 560 18) true; SNode 12 (Place 513 16) (Place 518 16) false; SNode 13 (Place 519 16) (Place 560 18) true; SNode 14 (Place 523 17) (Place 557 17) true; SNode 15 (Place 530 17) (Place 557 17) false; SNode 16 (Place 531 17) (Place 557 17) false; SNode 17 (Place 531 17) (Place 536 17) false; SNode 18 (Place 537 17) (Place 556 17) false; SNode 19 (Place 562 19) (Place 590 19) true; SNode 20 (Place 569 19) (Place 590 19) false; SNode 21 (Place 570 19) (Place 590 19) false; SNode 22 (Place 570 19) (Place 575 19) false; SNode 23 (Place 576 19) (Place 589 19) false; SNode 24 (Place 781 28) (Place 992 33) true; SNode 25 (Place 786 28) (Place 794 28) false; SNode 26 (Place 781 28) (Place 824 28) false; SNode 27 (Place 794 28) (Place 818 28) false; SNode 28 (Place 795 28) (Place 806 28) true; SNode 29 (Place 795 28) (Place 799 28) false; SNode 30 (Place 800 28) (Place 806 28) false; SNode 31 (Place 808 28) (Place 817 28) true; SNode 32 (Place 808 28) (Place 812 28) false; SNode 33 (Place 813 28) (Place 817 28) false; SNode 34 (Place 819 28) (Place 824 28) false; SNode 35 (Place 819 28) (Place 824 28) true; SNode 36 (Place 819 28) (Place 824 28) false; SNode 37 (Place 825 28) (Place 992 33) true; SNode 38 (Place 924 29) (Place 958 31) true; SNode 39 (Place 927 29) (Place 931 29) false; SNode 40 (Place 932 29) (Place 958 31) true; SNode 41 (Place 936 30) (Place 955 30) true; SNode 42 (Place 943 30) (Place 955 30) false; SNode 43 (Place 944 30) (Place 955 30) false; SNode 44 (Place 944 30) (Place 949 30) false; SNode 45 (Place 950 30) (Place 954 30) false; SNode 46 (Place 960 32) (Place 990 32) true; SNode 47 (Place 967 32) (Place 990 32) false; SNode 48 (Place 968 32) (Place 990 32) false; SNode 49 (Place 968 32) (Place 973 32) false; SNode 50 (Place 974 32) (Place 989 32) false; SNode 51 (Place 1117 37) (Place 1134 37) true; SNode 52 (Place 1122 37) (Place 1129 37) false; SNode 53 (Place 1117 37) (Place 1131 37) false; SNode 54 (Place 1129 37) (Place 1131 37) false; SNode 55 (Place 1132 37) (Place 1134 37) true; SNode 56 (Place 1136 39) (Place 1281 41) true; SNode 57 (Place 1141 39) (Place 1156 39) false; SNode 58 (Place 1136 39) (Place 1164 39) false; SNode 59 (Place 1156 39) (Place 1158 39) false; SNode 60 (Place 1159 39) (Place 1164 39) false; SNode 61 (Place 1159 39) (Place 1164 39) true; SNode 62 (Place 1159 39) (Place 1164 39) false; SNode 63 (Place 1165 39) (Place 1281 41) true; SNode 64 (Place 1255 40) (Place 1279 40) true; SNode 65 (Place 1262 40) (Place 1279 40) false; SNode 66 (Place 1262 40) (Place 1277 40) false; SNode 67 (Place 1418 45) (Place 1585 47) true; SNode 68 (Place 1423 45) (Place 1449 45) false; SNode 69 (Place 1418 45) (Place 1457 45) false; SNode 70 (Place 1449 45) (Place 1451 45) false; SNode 71 (Place 1452 45) (Place 1457 45) false; SNode 72 (Place 1452 45) (Place 1457 45) true; SNode 73 (Place 1452 45) (Place 1457 45) false; SNode 74 (Place 1458 45) (Place 1585 47) true; SNode 75 (Place 1559 46) (Place 1583 46) true; SNode 76 (Place 1566 46) (Place 1583 46) false; SNode 77 (Place 1566 46) (Place 1581 46) false; SNode 78 (Place 1587 49) (Place 1677 51) true; SNode 79 (Place 1592 49) (Place 1607 49) false; SNode 80 (Place 1587 49) (Place 1615 49) false; SNode 81 (Place 1607 49) (Place 1609 49) false; SNode 82 (Place 1610 49) (Place 1615 49) false; SNode 83 (Place 1610 49) (Place 1615 49) true; SNode 84 (Place 1610 49) (Place 1615 49) false; SNode 85 (Place 1616 49) (Place 1677 51) true; SNode 86 (Place 1665 50) (Place 1675 50) true; SNode 87 (Place 1672 50) (Place 1675 50) false; SNode 88 (Place 1765 56) (Place 1849 58) true; SNode 89 (Place 1770 56) (Place 1786 56) false; SNode 90 (Place 1765 56) (Place 1794 56) false; SNode 91 (Place 1786 56) (Place 1788 56) false; SNode 92 (Place 1789 56) (Place 1794 56) false; SNode 93 (Place 1789 56) (Place 1794 56) true; SNode 94 (Place 1789 56) (Place 1794 56) false; SNode 95 (Place 1795 56) (Place 1849 58) true; SNode 96 (Place 1837 57) (Place 1847 57) true; SNode 97 (Place 1844 57) (Place 1847 57) false; SNode 98 (Place 1991 63) (Place 2075 65) true; SNode 99 (Place 1996 63) (Place 2012 63) false; SNode 100 (Place 1991 63) (Place 2020 63) false; SNode 101 (Place 2012 63) (Place 2014 63) false; SNode 102 (Place 2015 63) (Place 2020 63) false; SNode 103 (Place 2015 63) (Place 2020 63) true; SNode 104 (Place 2015 63) (Place 2020 63) false; SNode 105 (Place 2021 63) (Place 2075 65) true; SNode 106 (Place 2063 64) (Place 2073 64) true; SNode 107 (Place 2070 64) (Place 2073 64) false; SNode 108 (Place 2284 73) (Place 2432 75) true; SNode 109 (Place 2289 73) (Place 2292 73) false; SNode 110 (Place 2284 73) (Place 2300 73) false; SNode 111 (Place 2292 73) (Place 2294 73) false; SNode 112 (Place 2295 73) (Place 2300 73) false; SNode 113 (Place 2295 73) (Place 2300 73) true; SNode 114 (Place 2295 73) (Place 2300 73) false; SNode 115 (Place 2301 73) (Place 2432 75) true; SNode 116 (Place 2402 74) (Place 2430 74) true; SNode 117 (Place 2409 74) (Place 2430 74) false; SNode 118 (Place 2410 74) (Place 2430 74) false; SNode 119 (Place 2410 74) (Place 2415 74) false; SNode 120 (Place 2416 74) (Place 2429 74) false; SNode 121 (Place 2657 85) (Place 2846 87) true; SNode 122 (Place 2662 85) (Place 2695 85) false; SNode 123 (Place 2657 85) (Place 2703 85) false; SNode 124 (Place 2695 85) (Place 2697 85) false; SNode 125 (Place 2698 85) (Place 2703 85) false; SNode 126 (Place 2698 85) (Place 2703 85) true; SNode 127 (Place 2698 85) (Place 2703 85) false; SNode 128 (Place 2704 85) (Place 2846 87) true; SNode 129 (Place 2816 86) (Place 2844 86) true; SNode 130 (Place 2823 86) (Place 2844 86) false; SNode 131 (Place 2824 86) (Place 2844 86) false; SNode 132 (Place 2824 86) (Place 2829 86) false; SNode 133 (Place 2830 86) (Place 2843 86) false; SNode 134 (Place 3117 99) (Place 3306 101) true; SNode 135 (Place 3122 99) (Place 3155 99) false; SNode 136 (Place 3117 99) (Place 3163 99) false; SNode 137 (Place 3155 99) (Place 3157 99) false; SNode 138 (Place 3158 99) (Place 3163 99) false; SNode 139 (Place 3158 99) (Place 3163 99) true; SNode 140 (Place 3158 99) (Place 3163 99) false; SNode 141 (Place 3164 99) (Place 3306 101) true; SNode 142 (Place 3276 100) (Place 3304 100) true; SNode 143 (Place 3283 100) (Place 3304 100) false; SNode 144 (Place 3284 100) (Place 3304 100) false; SNode 145 (Place 3284 100) (Place 3289 100) false; SNode 146 (Place 3290 100) (Place 3303 100) false; SNode 147 (Place 3536 111) (Place 3725 113) true; SNode 148 (Place 3541 111) (Place 3574 111) false; SNode 149 (Place 3536 111) (Place 3582 111) false; SNode 150 (Place 3574 111) (Place 3576 111) false; SNode 151 (Place 3577 111) (Place 3582 111) false; SNode 152 (Place 3577 111) (Place 3582 111) true; SNode 153 (Place 3577 111) (Place 3582 111) false; SNode 154 (Place 3583 111) (Place 3725 113) true; SNode 155 (Place 3695 112) (Place 3723 112) true; SNode 156 (Place 3702 112) (Place 3723 112) false; SNode 157 (Place 3703 112) (Place 3723 112) false; SNode 158 (Place 3703 112) (Place 3708 112) false; SNode 159 (Place 3709 112) (Place 3722 112) false; SNode 160 (Place 3955 123) (Place 4126 125) true; SNode 161 (Place 3960 123) (Place 3993 123) false; SNode 162 (Place 3955 123) (Place 4001 123) false; SNode 163 (Place 3993 123) (Place 3995 123) false; SNode 164 (Place 3996 123) (Place 4001 123) false; SNode 165 (Place 3996 123) (Place 4001 123) true; SNode 166 (Place 3996 123) (Place 4001 123) false; SNode 167 (Place 4002 123) (Place 4126 125) true; SNode 168 (Place 4114 124) (Place 4124 124) true; SNode 169 (Place 4121 124) (Place 4124 124) false; SNode 170 (Place 4296 133) (Place 4482 135) true; SNode 171 (Place 4301 133) (Place 4305 133) false; SNode 172 (Place 4296 133) (Place 4313 133) false; SNode 173 (Place 4305 133) (Place 4307 133) false; SNode 174 (Place 4308 133) (Place 4313 133) false; SNode 175 (Place 4308 133) (Place 4313 133) true; SNode 176 (Place 4308 133) (Place 4313 133) false; SNode 177 (Place 4314 133) (Place 4482 135) true; SNode 178 (Place 4452 134) (Place 4480 134) true; SNode 179 (Place 4459 134) (Place 4480 134) false; SNode 180 (Place 4460 134) (Place 4480 134) false; SNode 181 (Place 4460 134) (Place 4465 134) false; SNode 182 (Place 4466 134) (Place 4479 134) false; SNode 183 (Place 4666 144) (Place 4801 146) true; SNode 184 (Place 4671 144) (Place 4674 144) false; SNode 185 (Place 4666 144) (Place 4682 144) false; SNode 186 (Place 4674 144) (Place 4676 144) false; SNode 187 (Place 4677 144) (Place 4682 144) false; SNode 188 (Place 4677 144) (Place 4682 144) true; SNode 189 (Place 4677 144) (Place 4682 144) false; SNode 190 (Place 4683 144) (Place 4801 146) true; SNode 191 (Place 4771 145) (Place 4799 145) true; SNode 192 (Place 4778 145) (Place 4799 145) false; SNode 193 (Place 4779 145) (Place 4799 145) false; SNode 194 (Place 4779 145) (Place 4784 145) false; SNode 195 (Place 4785 145) (Place 4798 145) false; SNode 196 (Place 4999 155) (Place 5138 157) true; SNode 197 (Place 5004 155) (Place 5009 155) false; SNode 198 (Place 4999 155) (Place 5017 155) false; SNode 199 (Place 5009 155) (Place 5011 155) false; SNode 200 (Place 5012 155) (Place 5017 155) false; SNode 201 (Place 5012 155) (Place 5017 155) true; SNode 202 (Place 5012 155) (Place 5017 155) false; SNode 203 (Place 5018 155) (Place 5138 157) true; SNode 204 (Place 5108 156) (Place 5136 156) true; SNode 205 (Place 5115 156) (Place 5136 156) false; SNode 206 (Place 5116 156) (Place 5136 156) false; SNode 207 (Place 5116 156) (Place 5121 156) false; SNode 208 (Place 5122 156) (Place 5135 156) false; SNode 209 (Place 5254 164) (Place 5416 166) true; SNode 210 (Place 5259 164) (Place 5277 164) false; SNode 211 (Place 5254 164) (Place 5285 164) false; SNode 212 (Place 5277 164) (Place 5279 164) false; SNode 213 (Place 5280 164) (Place 5285 164) false; SNode 214 (Place 5280 164) (Place 5285 164) true; SNode 215 (Place 5280 164) (Place 5285 164) false; SNode 216 (Place 5286 164) (Place 5416 166) true; SNode 217 (Place 5404 165) (Place 5414 165) true; SNode 218 (Place 5411 165) (Place 5414 165) false; SNode 219 (Place 5534 173) (Place 5696 175) true; SNode 220 (Place 5539 173) (Place 5557 173) false; SNode 221 (Place 5534 173) (Place 5565 173) false; SNode 222 (Place 5557 173) (Place 5559 173) false; SNode 223 (Place 5560 173) (Place 5565 173) false; SNode 224 (Place 5560 173) (Place 5565 173) true; SNode 225 (Place 5560 173) (Place 5565 173) false; SNode 226 (Place 5566 173) (Place 5696 175) true; SNode 227 (Place 5684 174) (Place 5694 174) true; SNode 228 (Place 5691 174) (Place 5694 174) false; SNode 229 (Place 5822 182) (Place 5984 184) true; SNode 230 (Place 5827 182) (Place 5845 182) false; SNode 231 (Place 5822 182) (Place 5853 182) false; SNode 232 (Place 5845 182) (Place 5847 182) false; SNode 233 (Place 5848 182) (Place 5853 182) false; SNode 234 (Place 5848 182) (Place 5853 182) true; SNode 235 (Place 5848 182) (Place 5853 182) false; SNode 236 (Place 5854 182) (Place 5984 184) true; SNode 237 (Place 5972 183) (Place 5982 183) true; SNode 238 (Place 5979 183) (Place 5982 183) false; SNode 239 (Place 6126 191) (Place 6288 193) true; SNode 240 (Place 6131 191) (Place 6149 191) false; SNode 241 (Place 6126 191) (Place 6157 191) false; SNode 242 (Place 6149 191) (Place 6151 191) false; SNode 243 (Place 6152 191) (Place 6157 191) false; SNode 244 (Place 6152 191) (Place 6157 191) true; SNode 245 (Place 6152 191) (Place 6157 191) false; SNode 246 (Place 6158 191) (Place 6288 193) true; SNode 247 (Place 6276 192) (Place 6286 192) true; SNode 248 (Place 6283 192) (Place 6286 192) false; SNode 249 (Place 6422 200) (Place 6584 202) true; SNode 250 (Place 6427 200) (Place 6445 200) false; SNode 251 (Place 6422 200) (Place 6453 200) false; SNode 252 (Place 6445 200) (Place 6447 200) false; SNode 253 (Place 6448 200) (Place 6453 200) false; SNode 254 (Place 6448 200) (Place 6453 200) true; SNode 255 (Place 6448 200) (Place 6453 200) false; SNode 256 (Place 6454 200) (Place 6584 202) true; SNode 257 (Place 6572 201) (Place 6582 201) true; SNode 258 (Place 6579 201) (Place 6582 201) false; SNode 259 (Place 6648 208) (Place 6864 210) true; SNode 260 (Place 6653 208) (Place 6672 208) false; SNode 261 (Place 6648 208) (Place 6699 208) false; SNode 262 (Place 6672 208) (Place 6693 208) false; SNode 263 (Place 6673 208) (Place 6692 208) true; SNode 264 (Place 6673 208) (Place 6678 208) false; SNode 265 (Place 6680 208) (Place 6685 208) false; SNode 266 (Place 6686 208) (Place 6692 208) false; SNode 267 (Place 6694 208) (Place 6699 208) false; SNode 268 (Place 6694 208) (Place 6699 208) true; SNode 269 (Place 6694 208) (Place 6699 208) false; SNode 270 (Place 6700 208) (Place 6864 210) true; SNode 271 (Place 6852 209) (Place 6862 209) true; SNode 272 (Place 6859 209) (Place 6862 209) false; SNode 273 (Place 6901 215) (Place 7079 217) true; SNode 274 (Place 6906 215) (Place 6925 215) false; SNode 275 (Place 6901 215) (Place 6952 215) false; SNode 276 (Place 6925 215) (Place 6946 215) false; SNode 277 (Place 6926 215) (Place 6945 215) true; SNode 278 (Place 6926 215) (Place 6931 215) false; SNode 279 (Place 6933 215) (Place 6938 215) false; SNode 280 (Place 6939 215) (Place 6945 215) false; SNode 281 (Place 6947 215) (Place 6952 215) false; SNode 282 (Place 6947 215) (Place 6952 215) true; SNode 283 (Place 6947 215) (Place 6952 215) false; SNode 284 (Place 6953 215) (Place 7079 217) true; SNode 285 (Place 7067 216) (Place 7077 216) true; SNode 286 (Place 7074 216) (Place 7077 216) false; SNode 287 (Place 7142 222) (Place 7282 224) true; SNode 288 (Place 7147 222) (Place 7166 222) false; SNode 289 (Place 7142 222) (Place 7182 222) false; SNode 290 (Place 7166 222) (Place 7176 222) false; SNode 291 (Place 7167 222) (Place 7175 222) true; SNode 292 (Place 7167 222) (Place 7168 222) false; SNode 293 (Place 7169 222) (Place 7175 222) false; SNode 294 (Place 7177 222) (Place 7182 222) false; SNode 295 (Place 7177 222) (Place 7182 222) true; SNode 296 (Place 7177 222) (Place 7182 222) false; SNode 297 (Place 7183 222) (Place 7282 224) true; SNode 298 (Place 7270 223) (Place 7280 223) true; SNode 299 (Place 7277 223) (Place 7280 223) false; SNode 300 (Place 7344 229) (Place 7469 231) true; SNode 301 (Place 7349 229) (Place 7374 229) false; SNode 302 (Place 7344 229) (Place 7390 229) false; SNode 303 (Place 7374 229) (Place 7384 229) false; SNode 304 (Place 7375 229) (Place 7383 229) true; SNode 305 (Place 7375 229) (Place 7379 229) false; SNode 306 (Place 7380 229) (Place 7383 229) false; SNode 307 (Place 7385 229) (Place 7390 229) false; SNode 308 (Place 7385 229) (Place 7390 229) true; SNode 309 (Place 7385 229) (Place 7390 229) false; SNode 310 (Place 7391 229) (Place 7469 231) true; SNode 311 (Place 7457 230) (Place 7467 230) true; SNode 312 (Place 7464 230) (Place 7467 230) false; SNode 313 (Place 7471 233) (Place 7888 241) true; SNode 314 (Place 7476 233) (Place 7888 241) true; SNode 315 (Place 7476 233) (Place 7488 233) false; SNode 316 (Place 7489 233) (Place 7888 241) false; SNode 317 (Place 7499 233) (Place 7888 241) false; SNode 318 (Place 7502 234) (Place 7513 234) true; SNode 319 (Place 7502 234) (Place 7505 234) false; SNode 320 (Place 7505 234) (Place 7513 234) false; SNode 321 (Place 7505 234) (Place 7507 234) false; SNode 322 (Place 7508 234) (Place 7513 234) false; SNode 323 (Place 7508 234) (Place 7513 234) true; SNode 324 (Place 7508 234) (Place 7513 234) false; SNode 325 (Place 7707 238) (Place 7729 238) true; SNode 326 (Place 7707 238) (Place 7721 238) false; SNode 327 (Place 7721 238) (Place 7729 238) false; SNode 328 (Place 7721 238) (Place 7723 238) false; SNode 329 (Place 7724 238) (Place 7729 238) false; SNode 330 (Place 7724 238) (Place 7729 238) true; SNode 331 (Place 7724 238) (Place 7729 238) false; SNode 332 (Place 7809 240) (Place 7820 240) true; SNode 333 (Place 7809 240) (Place 7812 240) false; SNode 334 (Place 7812 240) (Place 7820 240) false; SNode 335 (Place 7812 240) (Place 7814 240) false; SNode 336 (Place 7815 240) (Place 7820 240) false; SNode 337 (Place 7815 240) (Place 7820 240) true; SNode 338 (Place 7815 240) (Place 7820 240) false; SNode 339 (Place 7890 243) (Place 10284 311) true; SNode 340 (Place 7895 243) (Place 10284 311) true; SNode 341 (Place 7895 243) (Place 7916 243) false; SNode 342 (Place 7917 243) (Place 10284 311) false; SNode 343 (Place 7927 243) (Place 10284 311) false; SNode 344 (Place 8018 248) (Place 8029 248) true; SNode 345 (Place 8018 248) (Place 8021 248) false; SNode 346 (Place 8021 248) (Place 8029 248) false; SNode 347 (Place 8021 248) (Place 8023 248) false; SNode 348 (Place 8024 248) (Place 8029 248) false; SNode 349 (Place 8024 248) (Place 8029 248) true; SNode 350 (Place 8024 248) (Place 8029 248) false; SNode 351 (Place 8341 258) (Place 8354 258) true; SNode 352 (Place 8341 258) (Place 8346 258) false; SNode 353 (Place 8346 258) (Place 8354 258) false; SNode 354 (Place 8346 258) (Place 8348 258) false; SNode 355 (Place 8349 258) (Place 8354 258) false; SNode 356 (Place 8349 258) (Place 8354 258) true; SNode 357 (Place 8349 258) (Place 8354 258) false; SNode 358 (Place 8696 270) (Place 8708 270) true; SNode 359 (Place 8696 270) (Place 8700 270) false; SNode 360 (Place 8700 270) (Place 8708 270) false; SNode 361 (Place 8700 270) (Place 8702 270) false; SNode 362 (Place 8703 270) (Place 8708 270) false; SNode 363 (Place 8703 270) (Place 8708 270) true; SNode 364 (Place 8703 270) (Place 8708 270) false; SNode 365 (Place 8973 278) (Place 8985 278) true; SNode 366 (Place 8973 278) (Place 8977 278) false; SNode 367 (Place 8977 278) (Place 8985 278) false; SNode 368 (Place 8977 278) (Place 8979 278) false; SNode 369 (Place 8980 278) (Place 8985 278) false; SNode 370 (Place 8980 278) (Place 8985 278) true; SNode 371 (Place 8980 278) (Place 8985 278) false; SNode 372 (Place 9320 287) (Place 9331 287) true; SNode 373 (Place 9320 287) (Place 9323 287) false; SNode 374 (Place 9323 287) (Place 9331 287) false; SNode 375 (Place 9323 287) (Place 9325 287) false; SNode 376 (Place 9326 287) (Place 9331 287) false; SNode 377 (Place 9326 287) (Place 9331 287) true; SNode 378 (Place 9326 287) (Place 9331 287) false; SNode 379 (Place 9630 296) (Place 9643 296) true; SNode 380 (Place 9630 296) (Place 9635 296) false; SNode 381 (Place 9635 296) (Place 9643 296) false; SNode 382 (Place 9635 296) (Place 9637 296) false; SNode 383 (Place 9638 296) (Place 9643 296) false; SNode 384 (Place 9638 296) (Place 9643 296) true; SNode 385 (Place 9638 296) (Place 9643 296) false; SNode 386 (Place 9860 303) (Place 9886 303) true; SNode 387 (Place 9860 303) (Place 9878 303) false; SNode 388 (Place 9878 303) (Place 9886 303) false; SNode 389 (Place 9878 303) (Place 9880 303) false; SNode 390 (Place 9881 303) (Place 9886 303) false; SNode 391 (Place 9881 303) (Place 9886 303) true; SNode 392 (Place 9881 303) (Place 9886 303) false; SNode 393 (Place 10133 310) (Place 10159 310) true; SNode 394 (Place 10133 310) (Place 10151 310) false; SNode 395 (Place 10151 310) (Place 10159 310) false; SNode 396 (Place 10151 310) (Place 10153 310) false; SNode 397 (Place 10154 310) (Place 10159 310) false; SNode 398 (Place 10154 310) (Place 10159 310) true; SNode 399 (Place 10154 310) (Place 10159 310) false; SNode 400 (Place 10286 313) (Place 10393 315) true; SNode 401 (Place 10291 313) (Place 10393 315) true; SNode 402 (Place 10291 313) (Place 10296 313) false; SNode 403 (Place 10297 313) (Place 10393 315) false; SNode 404 (Place 10304 313) (Place 10393 315) false; SNode 405 (Place 10377 314) (Place 10391 314) true; SNode 406 (Place 10377 314) (Place 10384 314) false; SNode 407 (Place 10385 314) (Place 10391 314) false; SNode 408 (Place 10395 317) (Place 10459 317) true; SNode 409 (Place 10400 317) (Place 10410 317) false; SNode 410 (Place 10401 317) (Place 10409 317) true; SNode 411 (Place 10401 317) (Place 10402 317) false; SNode 412 (Place 10403 317) (Place 10409 317) false; SNode 413 (Place 10404 317) (Place 10409 317) false; SNode 414 (Place 10411 317) (Place 10415 317) false; SNode 415 (Place 10395 317) (Place 10424 317) false; SNode 416 (Place 10415 317) (Place 10417 317) false; SNode 417 (Place 10418 317) (Place 10424 317) false; SNode 418 (Place 10418 317) (Place 10424 317) true; SNode 419 (Place 10418 317) (Place 10424 317) false; SNode 420 (Place 10439 317) (Place 10459 317) true; SNode 421 (Place 10441 317) (Place 10457 317) true; SNode 422 (Place 10448 317) (Place 10457 317) false; SNode 423 (Place 10448 317) (Place 10449 317) false; SNode 424 (Place 10450 317) (Place 10457 317) false; SNode 425 (Place 10460 318) (Place 10524 318) true; SNode 426 (Place 10465 318) (Place 10475 318) false; SNode 427 (Place 10466 318) (Place 10474 318) true; SNode 428 (Place 10466 318) (Place 10467 318) false; SNode 429 (Place 10468 318) (Place 10474 318) false; SNode 430 (Place 10469 318) (Place 10474 318) false; SNode 431 (Place 10476 318) (Place 10483 318) false; SNode 432 (Place 10460 318) (Place 10492 318) false; SNode 433 (Place 10483 318) (Place 10485 318) false; SNode 434 (Place 10486 318) (Place 10492 318) false; SNode 435 (Place 10486 318) (Place 10492 318) true; SNode 436 (Place 10486 318) (Place 10492 318) false; SNode 437 (Place 10504 318) (Place 10524 318) true; SNode 438 (Place 10506 318) (Place 10522 318) true; SNode 439 (Place 10513 318) (Place 10522 318) false; SNode 440 (Place 10513 318) (Place 10514 318) false; SNode 441 (Place 10515 318) (Place 10522 318) false; SNode 442 (Place 10525 319) (Place 10583 319) true; SNode 443 (Place 10530 319) (Place 10540 319) false; SNode 444 (Place 10531 319) (Place 10539 319) true; SNode 445 (Place 10531 319) (Place 10532 319) false; SNode 446 (Place 10533 319) (Place 10539 319) false; SNode 447 (Place 10534 319) (Place 10539 319) false; SNode 448 (Place 10541 319) (Place 10548 319) false; SNode 449 (Place 10525 319) (Place 10568 319) false; SNode 450 (Place 10548 319) (Place 10550 319) false; SNode 451 (Place 10551 319) (Place 10568 319) false; SNode 452 (Place 10551 319) (Place 10568 319) true; SNode 453 (Place 10551 319) (Place 10568 319) false; SNode 454 (Place 10555 319) (Place 10561 319) false; SNode 455 (Place 10562 319) (Place 10568 319) false; SNode 456 (Place 10569 319) (Place 10583 319) true; SNode 457 (Place 10571 319) (Place 10581 319) true; SNode 458 (Place 10578 319) (Place 10581 319) false; SNode 459 (Place 10584 320) (Place 10642 320) true; SNode 460 (Place 10589 320) (Place 10599 320) false; SNode 461 (Place 10590 320) (Place 10598 320) true; SNode 462 (Place 10590 320) (Place 10591 320) false; SNode 463 (Place 10592 320) (Place 10598 320) false; SNode 464 (Place 10593 320) (Place 10598 320) false; SNode 465 (Place 10600 320) (Place 10605 320) false; SNode 466 (Place 10584 320) (Place 10613 320) false; SNode 467 (Place 10605 320) (Place 10607 320) false; SNode 468 (Place 10608 320) (Place 10613 320) false; SNode 469 (Place 10608 320) (Place 10613 320) true; SNode 470 (Place 10608 320) (Place 10613 320) false; SNode 471 (Place 10628 320) (Place 10642 320) true; SNode 472 (Place 10630 320) (Place 10640 320) true; SNode 473 (Place 10637 320) (Place 10640 320) false; SNode 474 (Place 10643 321) (Place 10709 321) true; SNode 475 (Place 10648 321) (Place 10658 321) false; SNode 476 (Place 10649 321) (Place 10657 321) true; SNode 477 (Place 10649 321) (Place 10650 321) false; SNode 478 (Place 10651 321) (Place 10657 321) false; SNode 479 (Place 10652 321) (Place 10657 321) false; SNode 480 (Place 10659 321) (Place 10664 321) false; SNode 481 (Place 10643 321) (Place 10673 321) false; SNode 482 (Place 10664 321) (Place 10666 321) false; SNode 483 (Place 10667 321) (Place 10673 321) false; SNode 484 (Place 10667 321) (Place 10673 321) true; SNode 485 (Place 10667 321) (Place 10673 321) false; SNode 486 (Place 10687 321) (Place 10709 321) true; SNode 487 (Place 10689 321) (Place 10707 321) true; SNode 488 (Place 10696 321) (Place 10707 321) false; SNode 489 (Place 10696 321) (Place 10705 321) false; SNode 490 (Place 10696 321) (Place 10697 321) false; SNode 491 (Place 10698 321) (Place 10705 321) false].
Definition t_docformat_cgroups0 : list cgroup := [CGroup (Place 19 3) (Place 425 14) [(str "// Correct is a demo function."); (str "// The following is a valid example of an errors docstring."); (str "//"); (str "// Errors:"); (str "//"); (str "//    - hello-error       -- is always returned"); (str "// The following error codes should not occur:"); (str "//    - hello-unreachable -- should never be returned"); (str "//    - hello-unreachable --"); (str "//"); (str "// After a blank line comments in any format may follow."); (str "// Additional blocks starting with 'Errors:' are disallowed.")]; CGroup (Place 449 15) (Place 508 15) [(str "// want Correct:""ErrorCodes: hello-error hello-unreachable""")]; CGroup (Place 594 22) (Place 780 27) [(str "// NewError is a constructor for Error using the code parameter."); (str "//"); (str "// Errors:"); (str "//"); (str "//    - param: code   -- is used if the provided flag is true"); (str "//    - unknown-error -- is used otherwise")]; CGroup (Place 827 28) (Place 922 28) [(str "// want NewError:""ErrorConstructor: {CodeParamPosition:0}"" NewError:""ErrorCodes: unknown-error""")]; CGroup (Place 994 35) (Place 1116 36) [(str "// NoError is a demo function."); (str "// Functions that don't return an error, don't have to declare them in an errors docstring.")]; CGroup (Place 1167 39) (Place 1253 39) [(str "// want `function ""InvalidNoErrors"" is exported, but does not declare any error codes`")]; CGroup (Place 1283 43) (Place 1417 44) [(str "// InvalidNoErrorsWithComment is demo function."); (str "// Erros are not documented in this function which should be detected by our analyzer.")]; CGroup (Place 1460 45) (Place 1557 45) [(str "// want `function ""InvalidNoErrorsWithComment"" is exported, but does not declare any error codes`")]; CGroup (Place 1618 49) (Place 1663 49) [(str "// no problem if the function is not exported")]; CGroup (Place 1679 53) (Place 1764 55) [(str "// CorrectNoErrors1 returns no errors and correctly declares that."); (str "//"); (str "// Errors: none")]; CGroup (Place 1797 56) (Place 1835 56) [(str "// want CorrectNoErrors1:""ErrorCodes:""")]; CGroup (Place 1851 60) (Place 1990 62) [(str "// CorrectNoErrors2 returns no errors and correctly declares that."); (str "//"); (str "// Errors: none -- some optional docu here why no errors are returned")]; CGroup (Place 2023 63) (Place 2061 63) [(str "// want CorrectNoErrors2:""ErrorCodes:""")]; CGroup (Place 2077 67) (Place 2283 72) [(str "// Two is a test function."); (str "// It returns an error value it creates itself."); (str "// The following errors docstring is missing a blank line after 'Errors:'."); (str "//"); (str "// Errors:"); (str "//    - hello-error -- is always returned.")]; CGroup (Place 2303 73) (Place 2400 73) [(str "// want `function ""Two"" has odd docstring: need a blank line after the 'Errors:' block indicator`")]; CGroup (Place 2434 77) (Place 2656 84) [(str "// InvalidRepeatedErrorsDeclaration1 is a demo function."); (str "// The following errors docstring has multiple 'Errors:' block indicators which is invalid."); (str "//"); (str "// Errors:"); (str "//"); (str "// Errors:"); (str "//"); (str "//    - hello-error -- is always returned.")]; CGroup (Place 2706 85) (Place 2814 85) [(str "// want `function ""InvalidRepeatedErrorsDeclaration1"" has odd docstring: repeated 'Errors:' block indicator`")]; CGroup (Place 2848 89) (Place 3116 98) [(str "// InvalidRepeatedErrorsDeclaration2 is a demo function."); (str "// The following errors docstring has multiple 'Errors:' block indicators which is invalid."); (str "//"); (str "// Errors:"); (str "//"); (str "//    - hello-error -- is always returned."); (str "//"); (str "// Errors:"); (str "//"); (str "//    - hello-error -- is always returned.")]; CGroup (Place 3166 99) (Place 3274 99) [(str "// want `function ""InvalidRepeatedErrorsDeclaration2"" has odd docstring: repeated 'Errors:' block indicator`")]; CGroup (Place 3308 103) (Place 3535 110) [(str "// InvalidRepeatedErrorsDeclaration3 is a demo function."); (str "// The following errors docstring has multiple 'Errors:' block indicators which is invalid."); (str "//"); (str "// Errors: none"); (str "//"); (str "// Errors:"); (str "//"); (str "//    - hello-error -- is always returned.")]; CGroup (Place 3585 111) (Place 3693 111) [(str "// want `function ""InvalidRepeatedErrorsDeclaration3"" has odd docstring: repeated 'Errors:' block indicator`")]; CGroup (Place 3727 115) (Place 3954 122) [(str "// InvalidRepeatedErrorsDeclaration4 is a demo function."); (str "// The following errors docstring has multiple 'Errors:' block indicators which is invalid."); (str "//"); (str "// Errors:"); (str "//"); (str "//    - hello-error -- is always returned."); (str "//"); (str "// Errors: none")]; CGroup (Place 4004 123) (Place 4112 123) [(str "// want `function ""InvalidRepeatedErrorsDeclaration4"" has odd docstring: repeated 'Errors:' block indicator`")]; CGroup (Place 4128 127) (Place 4295 132) [(str "// Five is a demo function."); (str "// The following errors docstring has an error code line with an invalid format."); (str "//"); (str "// Errors:"); (str "//"); (str "//    - hello-error - is always returned.")]; CGroup (Place 4316 133) (Place 4450 133) [(str "// want `function ""Five"" has odd docstring: mid block, a line leading with '- ' didnt contain a '--' to mark the end of the code name`")]; CGroup (Place 4484 137) (Place 4665 143) [(str "// Six is a demo function."); (str "// The following errors docstring has an invalid whitespace error code."); (str "//"); (str "// Errors:"); (str "//"); (str "//    - hello-error -- is always returned."); (str "//    - -- is invalid.")]; CGroup (Place 4685 144) (Place 4769 144) [(str "// want `function ""Six"" has odd docstring: an error code can't be purely whitespace`")]; CGroup (Place 4803 148) (Place 4998 154) [(str "// Seven is a demo function."); (str "// The following errors docstring has an invalid whitespace error code."); (str "//"); (str "// Errors:"); (str "//"); (str "//    - hello-error -- is always returned."); (str "//    -             -- is invalid.")]; CGroup (Place 5020 155) (Place 5106 155) [(str "// want `function ""Seven"" has odd docstring: an error code can't be purely whitespace`")]; CGroup (Place 5140 159) (Place 5253 163) [(str "// InvalidCodeFormat1 declares an error with invalid format."); (str "//"); (str "// Errors:"); (str "//"); (str "// - invalid- -- ending with a dash")]; CGroup (Place 5288 164) (Place 5402 164) [(str "// want `function ""InvalidCodeFormat1"" has odd docstring: declared error code has invalid format: should match .*`")]; CGroup (Place 5418 168) (Place 5533 172) [(str "// InvalidCodeFormat2 declares an error with invalid format."); (str "//"); (str "// Errors:"); (str "//"); (str "// - -invalid -- starting with a dash")]; CGroup (Place 5568 173) (Place 5682 173) [(str "// want `function ""InvalidCodeFormat2"" has odd docstring: declared error code has invalid format: should match .*`")]; CGroup (Place 5698 177) (Place 5821 181) [(str "// InvalidCodeFormat3 declares an error with invalid format."); (str "//"); (str "// Errors:"); (str "//"); (str "// - 0invalid-error -- starting with a number")]; CGroup (Place 5856 182) (Place 5970 182) [(str "// want `function ""InvalidCodeFormat3"" has odd docstring: declared error code has invalid format: should match .*`")]; CGroup (Place 5986 186) (Place 6125 190) [(str "// InvalidCodeFormat4 declares an error with invalid format."); (str "//"); (str "// Errors:"); (str "//"); (str "// - invalid(error)-code -- containing invalid chars (braces)")]; CGroup (Place 6160 191) (Place 6274 191) [(str "// want `function ""InvalidCodeFormat4"" has odd docstring: declared error code has invalid format: should match .*`")]; CGroup (Place 6290 195) (Place 6421 199) [(str "// InvalidCodeFormat5 declares an error with invalid format."); (str "//"); (str "// Errors:"); (str "//"); (str "// - invalid error -- containing invalid char (space)")]; CGroup (Place 6456 200) (Place 6570 200) [(str "// want `function ""InvalidCodeFormat5"" has odd docstring: declared error code has invalid format: should match .*`")]; CGroup (Place 6586 204) (Place 6647 207) [(str "// Errors:"); (str "//"); (str "//    - param: code1 --"); (str "//    - param: code2 --")]; CGroup (Place 6702 208) (Place 6850 208) [(str "// want `function ""InvalidConstructor1"" has odd docstring: cannot define more than one error code parameter \(found multiple 'param:' inidicators\)`")]; CGroup (Place 6866 212) (Place 6900 214) [(str "// Errors:"); (str "//"); (str "//    - param:    --")]; CGroup (Place 6955 215) (Place 7065 215) [(str "// want `function ""InvalidConstructor2"" has odd docstring: an error code parameter can't be purely whitespace`")]; CGroup (Place 7081 219) (Place 7141 221) [(str "// Errors:"); (str "//"); (str "//    - param: code -- does not actually exist")]; CGroup (Place 7185 222) (Place 7268 222) [(str "// want `declared error code parameter ""code"" could not be found in parameter list`")]; CGroup (Place 7284 226) (Place 7343 228) [(str "// Errors:"); (str "//"); (str "//    - param: code -- code with invalid type")]; CGroup (Place 7393 229) (Place 7455 229) [(str "// want `error code parameter ""code"" has to be of type string`")]; CGroup (Place 7514 234) (Place 7579 234) [(str "// want `interface method ""One"" does not declare any error codes`")]; CGroup (Place 7582 236) (Place 7705 237) [(str "// OneWithComment is demo function."); (str "// Erros are not documented in this function which should be detected by our analyzer.")]; CGroup (Place 7730 238) (Place 7806 238) [(str "// want `interface method ""OneWithComment"" does not declare any error codes`")]; CGroup (Place 7821 240) (Place 7886 240) [(str "// want `interface method ""one"" does not declare any error codes`")]; CGroup (Place 7930 244) (Place 8016 247) [(str "// Two is a test function."); (str "//"); (str "// Errors:"); (str "//    - hello-error -- is always returned.")]; CGroup (Place 8030 248) (Place 8135 248) [(str "// want `interface method ""Two"" has odd docstring: need a blank line after the 'Errors:' block indicator`")]; CGroup (Place 8138 250) (Place 8339 257) [(str "// Three is a demo function."); (str "// The following errors docstring has multiple 'Errors:' block indicators which is invalid."); (str "//"); (str "// Errors:"); (str "//"); (str "// Errors:"); (str "//"); (str "//    - hello-error -- is always returned.")]; CGroup (Place 8355 258) (Place 8443 258) [(str "// want `interface method ""Three"" has odd docstring: repeated 'Errors:' block indicator`")]; CGroup (Place 8446 260) (Place 8694 269) [(str "// Four is a demo function."); (str "// The following errors docstring has multiple 'Errors:' block indicators which is invalid."); (str "//"); (str "// Errors:"); (str "//"); (str "//    - hello-error -- is always returned."); (str "//"); (str "// Errors:"); (str "//"); (str "//    - hello-error -- is always returned.")]; CGroup (Place 8709 270) (Place 8796 270) [(str "// want `interface method ""Four"" has odd docstring: repeated 'Errors:' block indicator`")]; CGroup (Place 8799 272) (Place 8971 277) [(str "// Five is a demo function."); (str "// The following errors docstring has an error code line with an invalid format."); (str "//"); (str "// Errors:"); (str "//"); (str "//    - hello-error - is always returned.")]; CGroup (Place 8986 278) (Place 9128 278) [(str "// want `interface method ""Five"" has odd docstring: mid block, a line leading with '- ' didnt contain a '--' to mark the end of the code name`")]; CGroup (Place 9131 280) (Place 9318 286) [(str "// Six is a demo function."); (str "// The following errors docstring has an invalid whitespace error code."); (str "//"); (str "// Errors:"); (str "//"); (str "//    - hello-error -- is always returned."); (str "//    - -- is invalid.")]; CGroup (Place 9332 287) (Place 9424 287) [(str "// want `interface method ""Six"" has odd docstring: an error code can't be purely whitespace`")]; CGroup (Place 9427 289) (Place 9628 295) [(str "// Seven is a demo function."); (str "// The following errors docstring has an invalid whitespace error code."); (str "//"); (str "// Errors:"); (str "//"); (str "//    - hello-error -- is always returned."); (str "//    -             -- is invalid.")]; CGroup (Place 9644 296) (Place 9738 296) [(str "// want `interface method ""Seven"" has odd docstring: an error code can't be purely whitespace`")]; CGroup (Place 9741 298) (Place 9858 302) [(str "// InvalidCodeFormat1 declares an error with invalid format."); (str "//"); (str "// Errors:"); (str "//"); (str "// - invalid- -- ending with a dash")]; CGroup (Place 9887 303) (Place 10009 303) [(str "// want `interface method ""InvalidCodeFormat1"" has odd docstring: declared error code has invalid format: should match .*`")]; CGroup (Place 10012 305) (Place 10131 309) [(str "// InvalidCodeFormat2 declares an error with invalid format."); (str "//"); (str "// Errors:"); (str "//"); (str "// - -invalid -- starting with a dash")]; CGroup (Place 10160 310) (Place 10282 310) [(str "// want `interface method ""InvalidCodeFormat2"" has odd docstring: declared error code has invalid format: should match .*`")]; CGroup (Place 10306 313) (Place 10375 313) [(str "// want Error:`ErrorType{Field:{Name:""TheCode"", Position:0}, Codes:}`")]].
Definition t_docformat_files : list source_file := [SourceFile t_docformat_nodes0 t_docformat_cgroups0].
Definition t_docformat_info : typeinfo := map_info (list_to_map t_docformat_types) (list_to_map t_docformat_values) (list_to_map t_docformat_uses) (list_to_map t_docformat_defs) (list_to_map t_docformat_sels) (list_to_set [1; 4; 5; 6; 7; 8; 9; 10; 11; 12; 13; 14; 15; 16; 17; 18; 19; 20; 72; 73; 74]) (list_to_map t_docformat_pkgnames) (list_to_map t_docformat_objnames) (list_to_map t_docformat_objtypes) (list_to_map t_docformat_under) t_docformat_methods t_docformat_ierr t_docformat_iree t_docformat_icause t_docformat_impl (list_to_map t_docformat_named_methods).
Definition t_docformat : package := Package (list_to_map [(1, t_docformat_f1); (2, t_docformat_f2); (3, t_docformat_f3); (4, t_docformat_f4); (5, t_docformat_f5); (6, t_docformat_f6); (7, t_docformat_f7); (8, t_docformat_f8); (9, t_docformat_f9); (10, t_docformat_f10); (11, t_docformat_f11); (12, t_docformat_f12); (13, t_docformat_f13); (14, t_docformat_f14); (15, t_docformat_f15); (16, t_docformat_f16); (17, t_docformat_f17); (18, t_docformat_f18); (19, t_docformat_f19); (20, t_docformat_f20); (21, t_docformat_f21); (22, t_docformat_f22); (23, t_docformat_f23); (24, t_docformat_f24); (25, t_docformat_f25); (26, t_docformat_f26); (27, t_docformat_f27); (28, t_docformat_f28); (29, t_docformat_f29); (30, t_docformat_f30)]) [1; 2; 3; 4; 5; 6; 7; 8; 9; 10; 11; 12; 13; 14; 15; 16; 17; 18; 19; 20; 21; 22; 23; 24; 25; 26; 27; 28; 29; 30] t_docformat_gendecls t_docformat_top (list_to_map t_docformat_objs) (fun id => default [] (createCommentMap t_docformat_files id)) t_docformat_info.
Definition t_docformat_rank : gostring -> nat := fun n => default 0%nat ((list_to_map [((str "InterfaceOne"), 1%nat); ((str "OddDocstringInterface"), 1%nat)] : gmap gostring nat) !! n).

(** docformat: 30 diagnostics and 6 facts, as its "want" comments demand. *)
Theorem t_docformat_ascending :
  report (run_test t_docformat ascending (Facts ∅ ∅ ∅ ∅)) = Some [
    (318, (str "interface method ""One"" does not declare any error codes")) (* docformat.go:234 *);
    (325, (str "interface method ""OneWithComment"" does not declare any error codes")) (* docformat.go:238 *);
    (332, (str "interface method ""one"" does not declare any error codes")) (* docformat.go:240 *);
    (344, (str "interface method ""Two"" has odd docstring: need a blank line after the 'Errors:' block indicator")) (* docformat.go:248 *);
    (351, (str "interface method ""Three"" has odd docstring: repeated 'Errors:' block indicator")) (* docformat.go:258 *);
    (358, (str "interface method ""Four"" has odd docstring: repeated 'Errors:' block indicator")) (* docformat.go:270 *);
    (365, (str "interface method ""Five"" has odd docstring: mid block, a line leading with '- ' didnt contain a '--' to mark the end of the code name")) (* docformat.go:278 *);
    (372, (str "interface method ""Six"" has odd docstring: an error code can't be purely whitespace")) (* docformat.go:287 *);
    (379, (str "interface method ""Seven"" has odd docstring: an error code can't be purely whitespace")) (* docformat.go:296 *);
    (386, (str "interface method ""InvalidCodeFormat1"" has odd docstring: declared error code has invalid format: should match [a-zA-Z][a-zA-Z0-9\-]*[a-zA-Z0-9]")) (* docformat.go:303 *);
    (393, (str "interface method ""InvalidCodeFormat2"" has odd docstring: declared error code has invalid format: should match [a-zA-Z][a-zA-Z0-9\-]*[a-zA-Z0-9]")) (* docformat.go:310 *);
    (121, (str "function ""InvalidRepeatedErrorsDeclaration1"" has odd docstring: repeated 'Errors:' block indicator")) (* docformat.go:85 *);
    (259, (str "function ""InvalidConstructor1"" has odd docstring: cannot define more than one error code parameter (found multiple 'param:' inidicators)")) (* docformat.go:208 *);
    (209, (str "function ""InvalidCodeFormat1"" has odd docstring: declared error code has invalid format: should match [a-zA-Z][a-zA-Z0-9\-]*[a-zA-Z0-9]")) (* docformat.go:164 *);
    (305, (str "error code parameter ""code"" has to be of type string")) (* docformat.go:229 *);
    (170, (str "function ""Five"" has odd docstring: mid block, a line leading with '- ' didnt contain a '--' to mark the end of the code name")) (* docformat.go:133 *);
    (134, (str "function ""InvalidRepeatedErrorsDeclaration2"" has odd docstring: repeated 'Errors:' block indicator")) (* docformat.go:99 *);
    (273, (str "function ""InvalidConstructor2"" has odd docstring: an error code parameter can't be purely whitespace")) (* docformat.go:215 *);
    (219, (str "function ""InvalidCodeFormat2"" has odd docstring: declared error code has invalid format: should match [a-zA-Z][a-zA-Z0-9\-]*[a-zA-Z0-9]")) (* docformat.go:173 *);
    (147, (str "function ""InvalidRepeatedErrorsDeclaration3"" has odd docstring: repeated 'Errors:' block indicator")) (* docformat.go:111 *);
    (289, (str "declared error code parameter ""code"" could not be found in parameter list")) (* docformat.go:222 *);
    (229, (str "function ""InvalidCodeFormat3"" has odd docstring: declared error code has invalid format: should match [a-zA-Z][a-zA-Z0-9\-]*[a-zA-Z0-9]")) (* docformat.go:182 *);
    (160, (str "function ""InvalidRepeatedErrorsDeclaration4"" has odd docstring: repeated 'Errors:' block indicator")) (* docformat.go:123 *);
    (239, (str "function ""InvalidCodeFormat4"" has odd docstring: declared error code has invalid format: should match [a-zA-Z][a-zA-Z0-9\-]*[a-zA-Z0-9]")) (* docformat.go:191 *);
    (249, (str "function ""InvalidCodeFormat5"" has odd docstring: declared error code has invalid format: should match [a-zA-Z][a-zA-Z0-9\-]*[a-zA-Z0-9]")) (* docformat.go:200 *);
    (196, (str "function ""Seven"" has odd docstring: an error code can't be purely whitespace")) (* docformat.go:155 *);
    (108, (str "function ""Two"" has odd docstring: need a blank line after the 'Errors:' block indicator")) (* docformat.go:73 *);
    (56, (str "function ""InvalidNoErrors"" is exported, but does not declare any error codes")) (* docformat.go:39 *);
    (67, (str "function ""InvalidNoErrorsWithComment"" is exported, but does not declare any error codes")) (* docformat.go:45 *);
    (183, (str "function ""Six"" has odd docstring: an error code can't be purely whitespace")) (* docformat.go:144 *)] /\
  fact_texts (facts_after_test (run_test t_docformat ascending (Facts ∅ ∅ ∅ ∅))) [47; 48; 49; 50; 51; 52; 53; 54; 55; 56; 57; 58; 59; 60; 61; 62; 63; 64; 65; 66; 67; 68; 69; 70; 71; 72; 73; 74; 75; 76; 77; 78; 79; 80; 81; 82; 83; 84; 85; 86; 87; 88; 89; 90; 91; 92; 93; 94; 95; 96; 97; 98; 99; 100; 101; 102; 103] = [
    (47, (str "ErrorCodes: hello-error hello-unreachable")) (* docformat.go:15 Correct *);
    (48, (str "ErrorCodes: unknown-error")) (* docformat.go:28 NewError *);
    (48, (str "ErrorConstructor: {CodeParamPosition:0}")) (* docformat.go:28 NewError *);
    (53, (str "ErrorCodes: ")) (* docformat.go:56 CorrectNoErrors1 *);
    (54, (str "ErrorCodes: ")) (* docformat.go:63 CorrectNoErrors2 *);
    (74, (str "ErrorType{Field:{Name:""TheCode"", Position:0}, Codes:}")) (* docformat.go:313 Error *)].
Proof. vm_compute. split; reflexivity. Qed.

(** docformat: 30 diagnostics and 6 facts, as its "want" comments demand. *)
Theorem t_docformat_descending :
  report (run_test t_docformat descending (Facts ∅ ∅ ∅ ∅)) = Some [
    (318, (str "interface method ""One"" does not declare any error codes")) (* docformat.go:234 *);
    (325, (str "interface method ""OneWithComment"" does not declare any error codes")) (* docformat.go:238 *);
    (332, (str "interface method ""one"" does not declare any error codes")) (* docformat.go:240 *);
    (344, (str "interface method ""Two"" has odd docstring: need a blank line after the 'Errors:' block indicator")) (* docformat.go:248 *);
    (351, (str "interface method ""Three"" has odd docstring: repeated 'Errors:' block indicator")) (* docformat.go:258 *);
    (358, (str "interface method ""Four"" has odd docstring: repeated 'Errors:' block indicator")) (* docformat.go:270 *);
    (365, (str "interface method ""Five"" has odd docstring: mid block, a line leading with '- ' didnt contain a '--' to mark the end of the code name")) (* docformat.go:278 *);
    (372, (str "interface method ""Six"" has odd docstring: an error code can't be purely whitespace")) (* docformat.go:287 *);
    (379, (str "interface method ""Seven"" has odd docstring: an error code can't be purely whitespace")) (* docformat.go:296 *);
    (386, (str "interface method ""InvalidCodeFormat1"" has odd docstring: declared error code has invalid format: should match [a-zA-Z][a-zA-Z0-9\-]*[a-zA-Z0-9]")) (* docformat.go:303 *);
    (393, (str "interface method ""InvalidCodeFormat2"" has odd docstring: declared error code has invalid format: should match [a-zA-Z][a-zA-Z0-9\-]*[a-zA-Z0-9]")) (* docformat.go:310 *);
    (183, (str "function ""Six"" has odd docstring: an error code can't be purely whitespace")) (* docformat.go:144 *);
    (67, (str "function ""InvalidNoErrorsWithComment"" is exported, but does not declare any error codes")) (* docformat.go:45 *);
    (56, (str "function ""InvalidNoErrors"" is exported, but does not declare any error codes")) (* docformat.go:39 *);
    (108, (str "function ""Two"" has odd docstring: need a blank line after the 'Errors:' block indicator")) (* docformat.go:73 *);
    (196, (str "function ""Seven"" has odd docstring: an error code can't be purely whitespace")) (* docformat.go:155 *);
    (249, (str "function ""InvalidCodeFormat5"" has odd docstring: declared error code has invalid format: should match [a-zA-Z][a-zA-Z0-9\-]*[a-zA-Z0-9]")) (* docformat.go:200 *);
    (239, (str "function ""InvalidCodeFormat4"" has odd docstring: declared error code has invalid format: should match [a-zA-Z][a-zA-Z0-9\-]*[a-zA-Z0-9]")) (* docformat.go:191 *);
    (160, (str "function ""InvalidRepeatedErrorsDeclaration4"" has odd docstring: repeated 'Errors:' block indicator")) (* docformat.go:123 *);
    (229, (str "function ""InvalidCodeFormat3"" has odd docstring: declared error code has invalid format: should match [a-zA-Z][a-zA-Z0-9\-]*[a-zA-Z0-9]")) (* docformat.go:182 *);
    (289, (str "declared error code parameter ""code"" could not be found in parameter list")) (* docformat.go:222 *);
    (147, (str "function ""InvalidRepeatedErrorsDeclaration3"" has odd docstring: repeated 'Errors:' block indicator")) (* docformat.go:111 *);
    (219, (str "function ""InvalidCodeFormat2"" has odd docstring: declared error code has invalid format: should match [a-zA-Z][a-zA-Z0-9\-]*[a-zA-Z0-9]")) (* docformat.go:173 *);
    (273, (str "function ""InvalidConstructor2"" has odd docstring: an error code parameter can't be purely whitespace")) (* docformat.go:215 *);
    (134, (str "function ""InvalidRepeatedErrorsDeclaration2"" has odd docstring: repeated 'Errors:' block indicator")) (* docformat.go:99 *);
    (170, (str "function ""Five"" has odd docstring: mid block, a line leading with '- ' didnt contain a '--' to mark the end of the code name")) (* docformat.go:133 *);
    (305, (str "error code parameter ""code"" has to be of type string")) (* docformat.go:229 *);
    (209, (str "function ""InvalidCodeFormat1"" has odd docstring: declared error code has invalid format: should match [a-zA-Z][a-zA-Z0-9\-]*[a-zA-Z0-9]")) (* docformat.go:164 *);
    (259, (str "function ""InvalidConstructor1"" has odd docstring: cannot define more than one error code parameter (found multiple 'param:' inidicators)")) (* docformat.go:208 *);
    (121, (str "function ""InvalidRepeatedErrorsDeclaration1"" has odd docstring: repeated 'Errors:' block indicator")) (* docformat.go:85 *)] /\
  fact_texts (facts_after_test (run_test t_docformat descending (Facts ∅ ∅ ∅ ∅))) [47; 48; 49; 50; 51; 52; 53; 54; 55; 56; 57; 58; 59; 60; 61; 62; 63; 64; 65; 66; 67; 68; 69; 70; 71; 72; 73; 74; 75; 76; 77; 78; 79; 80; 81; 82; 83; 84; 85; 86; 87; 88; 89; 90; 91; 92; 93; 94; 95; 96; 97; 98; 99; 100; 101; 102; 103] = [
    (47, (str "ErrorCodes: hello-error hello-unreachable")) (* docformat.go:15 Correct *);
    (48, (str "ErrorCodes: unknown-error")) (* docformat.go:28 NewError *);
    (48, (str "ErrorConstructor: {CodeParamPosition:0}")) (* docformat.go:28 NewError *);
    (53, (str "ErrorCodes: ")) (* docformat.go:56 CorrectNoErrors1 *);
    (54, (str "ErrorCodes: ")) (* docformat.go:63 CorrectNoErrors2 *);
    (74, (str "ErrorType{Field:{Name:""TheCode"", Position:0}, Codes:}")) (* docformat.go:313 Error *)].
Proof. vm_compute. split; reflexivity. Qed.

(** The presuppositions of the general theorems that this package satisfies. *)
Theorem t_docformat_presuppositions :
  (forall fa, usable_functions t_docformat fa) /\
  (forall fa, no_literal_recursion t_docformat (collectFunctions t_docformat) fa) /\
  (forall fa, literals_apart t_docformat (collectFunctions t_docformat) fa) /\
  types_usable t_docformat /\
  (forall w n, occurs t_docformat w n -> ~ ill_formed t_docformat w n) /\
  distinct_definitions t_docformat /\
  interfaces_ok t_docformat /\
  uses_resolved t_docformat (collectFunctions t_docformat) /\
  (forall g fn, pk_funcs t_docformat !! g = Some fn -> disciplined t_docformat (facts_after_test (run_test t_docformat ascending (Facts ∅ ∅ ∅ ∅))) fn /\ resolved t_docformat (collectFunctions t_docformat) (facts_after_test (run_test t_docformat ascending (Facts ∅ ∅ ∅ ∅))) fn) /\
  Forall layout t_docformat_files.
Proof.
  split_and!.
  - intros fa; apply package_usable_spec; vm_compute; reflexivity.
  - intros fa; apply recursion_check_spec; vm_compute; reflexivity.
  - intros fa; apply apart_spec; vm_compute; reflexivity.
  - apply types_ok_spec; vm_compute; reflexivity.
  - apply package_formed_spec; vm_compute; reflexivity.
  - apply definitions_check_spec; vm_compute; reflexivity.
  - apply (interfaces_check_spec t_docformat t_docformat_rank); vm_compute; reflexivity.
  - apply uses_check_spec; vm_compute; reflexivity.
  - intros g fn; apply sound_ok_spec; vm_compute; reflexivity.
  - apply layouts_spec; vm_compute; reflexivity.
Qed.
