(** * OCLint's own unit tests of oclint-rules/test/size, as examples about the model

    Written by tools/conformance/emit.py; do not edit. *)
From Verif Require Import Base ModelConfig ModelSource ModelAST ModelRuleTable ConformanceBase.

(** ** oclint-rules/test/size/CyclomaticComplexityRuleTest.cpp *)

Definition CyclomaticComplexity_NoDecisionPoint : testcase :=
  {| ts_lang := LC; ts_path := $"input.c"; ts_code := [];
     ts_comments := []; ts_conf := [($"CYCLOMATIC_COMPLEXITY", $"1")];
     ts_tops := [(toplevel 0 (TFunction false), (Node 0 [] (FunctionDecl {| f_name := $"aMethod"; f_method := None; f_isDefinition := true; f_bodyLines := (1)%Z |} [] (Some (Node 1 [] (CompoundStmt []))))))];
     ts_locs := [(1,1,1,18); (1,16,1,18)]%Z;
     ts_evals := []; ts_same := []; ts_decls := []; ts_parents := [] |}.
Example CyclomaticComplexity_NoDecisionPoint_holds : sorted_violations_of (shippedRule sh_CyclomaticComplexity) CyclomaticComplexity_NoDecisionPoint = Some [].
Proof. vm_compute. reflexivity. Qed.

Definition CyclomaticComplexity_OneIfStatement : testcase :=
  {| ts_lang := LC; ts_path := $"input.c"; ts_code := [];
     ts_comments := []; ts_conf := [($"CYCLOMATIC_COMPLEXITY", $"1")];
     ts_tops := [(toplevel 0 (TFunction false), (Node 0 [] (FunctionDecl {| f_name := $"aMethod"; f_method := None; f_isDefinition := true; f_bodyLines := (1)%Z |} [] (Some (Node 1 [] (CompoundStmt [(Node 2 [] (IfStmt [] (Node 3 [] (IntegerLiteral (1)%Z)) (Node 4 [] (CompoundStmt [])) None))]))))))];
     ts_locs := [(1,1,1,28); (1,16,1,28); (1,18,1,26); (1,22,1,22); (1,25,1,26)]%Z;
     ts_evals := [(3, true)]; ts_same := []; ts_decls := []; ts_parents := [] |}.
Example CyclomaticComplexity_OneIfStatement_holds : nth_violation (shippedRule sh_CyclomaticComplexity) CyclomaticComplexity_OneIfStatement 0 = Some (1, 1, 1, 28, $"Cyclomatic Complexity Number 2 exceeds limit of 1")%Z.
Proof. vm_compute. reflexivity. Qed.

Definition CyclomaticComplexity_OneForStatement : testcase :=
  {| ts_lang := LC; ts_path := $"input.c"; ts_code := [];
     ts_comments := []; ts_conf := [($"CYCLOMATIC_COMPLEXITY", $"1")];
     ts_tops := [(toplevel 0 (TFunction false), (Node 0 [] (FunctionDecl {| f_name := $"aMethod"; f_method := None; f_isDefinition := true; f_bodyLines := (1)%Z |} [] (Some (Node 1 [] (CompoundStmt [(Node 2 [] (ForStmt None [] None None (Node 3 [] (CompoundStmt []))))]))))))];
     ts_locs := [(1,1,1,29); (1,16,1,29); (1,18,1,27); (1,26,1,27)]%Z;
     ts_evals := []; ts_same := []; ts_decls := []; ts_parents := [] |}.
Example CyclomaticComplexity_OneForStatement_holds : nth_violation (shippedRule sh_CyclomaticComplexity) CyclomaticComplexity_OneForStatement 0 = Some (1, 1, 1, 29, $"Cyclomatic Complexity Number 2 exceeds limit of 1")%Z.
Proof. vm_compute. reflexivity. Qed.

Definition CyclomaticComplexity_OneObjCForCollectionStatement : testcase :=
  {| ts_lang := LObjC; ts_path := $"input.m"; ts_code := [];
     ts_comments := []; ts_conf := [($"CYCLOMATIC_COMPLEXITY", $"1")];
     ts_tops := [(toplevel 0 (TFunction false), (Node 0 [] (FunctionDecl {| f_name := $"aMethod"; f_method := None; f_isDefinition := true; f_bodyLines := (1)%Z |} [] (Some (Node 1 [] (CompoundStmt [(Node 2 [] (DeclStmt [(Node 3 [] (VarDecl {| v_isParm := false; v_name := $"array"; v_used := true; v_referenced := true; v_local := true; v_staticMember := false; v_private := false; v_unusedAttr := false; v_defaultArg := false; v_canonicalType := $"struct objc_object *"; v_inTemplate := false; v_contexts := [CxFunction true true false] |} None))])); (Node 4 [] (ObjCForCollectionStmt (Node 5 [] (DeclStmt [(Node 6 [] (VarDecl {| v_isParm := false; v_name := $"one"; v_used := false; v_referenced := false; v_local := true; v_staticMember := false; v_private := false; v_unusedAttr := false; v_defaultArg := false; v_canonicalType := $"struct objc_object *"; v_inTemplate := false; v_contexts := [CxFunction true true false] |} None))])) (Node 7 $"id" (ImplicitCastExpr CK_LValueToRValue (Node 8 $"id" (DeclRefExpr 3 $"array" false)))) (Node 9 [] (CompoundStmt []))))]))))))];
     ts_locs := [(1,1,1,52); (1,16,1,52); (1,18,1,26); (1,18,1,21); (1,28,1,50); (1,32,1,35); (1,32,1,35); (1,42,1,42); (1,42,1,42); (1,49,1,50)]%Z;
     ts_evals := []; ts_same := []; ts_decls := []; ts_parents := [] |}.
Example CyclomaticComplexity_OneObjCForCollectionStatement_holds : nth_violation (shippedRule sh_CyclomaticComplexity) CyclomaticComplexity_OneObjCForCollectionStatement 0 = Some (1, 1, 1, 52, $"Cyclomatic Complexity Number 2 exceeds limit of 1")%Z.
Proof. vm_compute. reflexivity. Qed.

Definition CyclomaticComplexity_OneWhileStatement : testcase :=
  {| ts_lang := LC; ts_path := $"input.c"; ts_code := [];
     ts_comments := []; ts_conf := [($"CYCLOMATIC_COMPLEXITY", $"1")];
     ts_tops := [(toplevel 0 (TFunction false), (Node 0 [] (FunctionDecl {| f_name := $"aMethod"; f_method := None; f_isDefinition := true; f_bodyLines := (1)%Z |} [] (Some (Node 1 [] (CompoundStmt [(Node 2 [] (WhileStmt [] (Node 3 [] (IntegerLiteral (1)%Z)) (Node 4 [] (CompoundStmt []))))]))))))];
     ts_locs := [(1,1,1,30); (1,16,1,30); (1,18,1,28); (1,24,1,24); (1,27,1,28)]%Z;
     ts_evals := []; ts_same := []; ts_decls := []; ts_parents := [] |}.
Example CyclomaticComplexity_OneWhileStatement_holds : nth_violation (shippedRule sh_CyclomaticComplexity) CyclomaticComplexity_OneWhileStatement 0 = Some (1, 1, 1, 30, $"Cyclomatic Complexity Number 2 exceeds limit of 1")%Z.
Proof. vm_compute. reflexivity. Qed.

Definition CyclomaticComplexity_OneDoStatement : testcase :=
  {| ts_lang := LC; ts_path := $"input.c"; ts_code := [];
     ts_comments := []; ts_conf := [($"CYCLOMATIC_COMPLEXITY", $"1")];
     ts_tops := [(toplevel 0 (TFunction false), (Node 0 [] (FunctionDecl {| f_name := $"aMethod"; f_method := None; f_isDefinition := true; f_bodyLines := (1)%Z |} [] (Some (Node 1 [] (CompoundStmt [(Node 2 [] (DoStmt (Node 3 [] (CompoundStmt [])) (Node 4 [] (IntegerLiteral (1)%Z))))]))))))];
     ts_locs := [(1,1,1,34); (1,16,1,34); (1,18,1,31); (1,21,1,22); (1,30,1,30)]%Z;
     ts_evals := []; ts_same := []; ts_decls := []; ts_parents := [] |}.
Example CyclomaticComplexity_OneDoStatement_holds : nth_violation (shippedRule sh_CyclomaticComplexity) CyclomaticComplexity_OneDoStatement 0 = Some (1, 1, 1, 34, $"Cyclomatic Complexity Number 2 exceeds limit of 1")%Z.
Proof. vm_compute. reflexivity. Qed.

Definition CyclomaticComplexity_OneCaseStatement : testcase :=
  {| ts_lang := LC; ts_path := $"input.c"; ts_code := [];
     ts_comments := []; ts_conf := [($"CYCLOMATIC_COMPLEXITY", $"1")];
     ts_tops := [(toplevel 0 (TFunction false), (Node 0 [] (FunctionDecl {| f_name := $"aMethod"; f_method := None; f_isDefinition := true; f_bodyLines := (1)%Z |} [] (Some (Node 1 [] (CompoundStmt [(Node 2 [] (DeclStmt [(Node 3 [] (VarDecl {| v_isParm := false; v_name := $"i"; v_used := true; v_referenced := true; v_local := true; v_staticMember := false; v_private := false; v_unusedAttr := false; v_defaultArg := false; v_canonicalType := $"int"; v_inTemplate := false; v_contexts := [CxFunction true true false] |} (Some (Node 4 [] (IntegerLiteral (1)%Z)))))])); (Node 5 [] (SwitchStmt [] (Node 6 [] (ImplicitCastExpr CK_LValueToRValue (Node 7 [] (DeclRefExpr 3 $"i" false)))) (Node 8 [] (CompoundStmt [(Node 9 [] (CaseStmt (Node 10 [] (OtherExpr [(Node 11 [] (IntegerLiteral (1)%Z))])) (Node 12 [] BreakStmt)))])) false))]))))))];
     ts_locs := [(1,1,1,59); (1,16,1,59); (1,18,1,27); (1,18,1,26); (1,26,1,26); (1,29,1,57); (1,37,1,37); (1,37,1,37); (1,40,1,57); (1,42,1,50); (1,47,1,47); (1,47,1,47); (1,50,1,50)]%Z;
     ts_evals := []; ts_same := []; ts_decls := []; ts_parents := [] |}.
Example CyclomaticComplexity_OneCaseStatement_holds : nth_violation (shippedRule sh_CyclomaticComplexity) CyclomaticComplexity_OneCaseStatement 0 = Some (1, 1, 1, 59, $"Cyclomatic Complexity Number 2 exceeds limit of 1")%Z.
Proof. vm_compute. reflexivity. Qed.

Definition CyclomaticComplexity_TwoCaseStatements : testcase :=
  {| ts_lang := LC; ts_path := $"input.c"; ts_code := [];
     ts_comments := []; ts_conf := [($"CYCLOMATIC_COMPLEXITY", $"1")];
     ts_tops := [(toplevel 0 (TFunction false), (Node 0 [] (FunctionDecl {| f_name := $"aMethod"; f_method := None; f_isDefinition := true; f_bodyLines := (1)%Z |} [] (Some (Node 1 [] (CompoundStmt [(Node 2 [] (DeclStmt [(Node 3 [] (VarDecl {| v_isParm := false; v_name := $"i"; v_used := true; v_referenced := true; v_local := true; v_staticMember := false; v_private := false; v_unusedAttr := false; v_defaultArg := false; v_canonicalType := $"int"; v_inTemplate := false; v_contexts := [CxFunction true true false] |} (Some (Node 4 [] (IntegerLiteral (1)%Z)))))])); (Node 5 [] (SwitchStmt [] (Node 6 [] (ImplicitCastExpr CK_LValueToRValue (Node 7 [] (DeclRefExpr 3 $"i" false)))) (Node 8 [] (CompoundStmt [(Node 9 [] (CaseStmt (Node 10 [] (OtherExpr [(Node 11 [] (IntegerLiteral (1)%Z))])) (Node 12 [] (CaseStmt (Node 13 [] (OtherExpr [(Node 14 [] (IntegerLiteral (2)%Z))])) (Node 15 [] BreakStmt)))))])) false))]))))))];
     ts_locs := [(1,1,1,67); (1,16,1,67); (1,18,1,27); (1,18,1,26); (1,26,1,26); (1,29,1,65); (1,37,1,37); (1,37,1,37); (1,40,1,65); (1,42,1,58); (1,47,1,47); (1,47,1,47); (1,50,1,58); (1,55,1,55); (1,55,1,55); (1,58,1,58)]%Z;
     ts_evals := []; ts_same := []; ts_decls := []; ts_parents := [] |}.
Example CyclomaticComplexity_TwoCaseStatements_holds : nth_violation (shippedRule sh_CyclomaticComplexity) CyclomaticComplexity_TwoCaseStatements 0 = Some (1, 1, 1, 67, $"Cyclomatic Complexity Number 3 exceeds limit of 1")%Z.
Proof. vm_compute. reflexivity. Qed.

Definition CyclomaticComplexity_OneCXXCatchStatement : testcase :=
  {| ts_lang := LCXX; ts_path := $"input.cpp"; ts_code := [];
     ts_comments := []; ts_conf := [($"CYCLOMATIC_COMPLEXITY", $"1")];
     ts_tops := [(toplevel 0 (TFunction false), (Node 0 [] (FunctionDecl {| f_name := $"aMethod"; f_method := None; f_isDefinition := true; f_bodyLines := (1)%Z |} [] (Some (Node 1 [] (CompoundStmt [(Node 2 [] (CXXTryStmt (Node 3 [] (CompoundStmt [])) [(Node 4 [] (CXXCatchStmt None (Node 5 [] (CompoundStmt []))))]))]))))))];
     ts_locs := [(1,1,1,40); (1,16,1,40); (1,18,1,38); (1,22,1,23); (1,25,1,38); (1,37,1,38)]%Z;
     ts_evals := []; ts_same := []; ts_decls := []; ts_parents := [] |}.
Example CyclomaticComplexity_OneCXXCatchStatement_holds : nth_violation (shippedRule sh_CyclomaticComplexity) CyclomaticComplexity_OneCXXCatchStatement 0 = Some (1, 1, 1, 40, $"Cyclomatic Complexity Number 2 exceeds limit of 1")%Z.
Proof. vm_compute. reflexivity. Qed.

Definition CyclomaticComplexity_OneObjCAtCatchStatement : testcase :=
  {| ts_lang := LObjC; ts_path := $"input.m"; ts_code := [];
     ts_comments := []; ts_conf := [($"CYCLOMATIC_COMPLEXITY", $"1")];
     ts_tops := [(toplevel 0 (TFunction false), (Node 0 [] (FunctionDecl {| f_name := $"aMethod"; f_method := None; f_isDefinition := true; f_bodyLines := (1)%Z |} [] (Some (Node 1 [] (CompoundStmt [(Node 2 [] (ObjCAtTryStmt (Node 3 [] (CompoundStmt [])) [(Node 4 [] (ObjCAtCatchStmt None (Node 5 [] (CompoundStmt []))))] None))]))))))];
     ts_locs := [(1,1,1,44); (1,16,1,44); (1,18,1,42); (1,23,1,24); (1,26,1,42); (1,41,1,42)]%Z;
     ts_evals := []; ts_same := []; ts_decls := []; ts_parents := [] |}.
Example CyclomaticComplexity_OneObjCAtCatchStatement_holds : nth_violation (shippedRule sh_CyclomaticComplexity) CyclomaticComplexity_OneObjCAtCatchStatement 0 = Some (1, 1, 1, 44, $"Cyclomatic Complexity Number 2 exceeds limit of 1")%Z.
Proof. vm_compute. reflexivity. Qed.

Definition CyclomaticComplexity_OneConditionalOperator : testcase :=
  {| ts_lang := LC; ts_path := $"input.c"; ts_code := [];
     ts_comments := []; ts_conf := [($"CYCLOMATIC_COMPLEXITY", $"1")];
     ts_tops := [(toplevel 0 (TFunction false), (Node 0 [] (FunctionDecl {| f_name := $"aMethod"; f_method := None; f_isDefinition := true; f_bodyLines := (1)%Z |} [] (Some (Node 1 [] (CompoundStmt [(Node 2 [] (DeclStmt [(Node 3 [] (VarDecl {| v_isParm := false; v_name := $"i"; v_used := false; v_referenced := false; v_local := true; v_staticMember := false; v_private := false; v_unusedAttr := false; v_defaultArg := false; v_canonicalType := $"int"; v_inTemplate := false; v_contexts := [CxFunction true true false] |} (Some (Node 4 [] (ConditionalOperator (Node 5 [] (IntegerLiteral (0)%Z)) (Node 6 [] (IntegerLiteral (1)%Z)) (Node 7 [] (UnaryOperator UO_Minus (Node 8 [] (IntegerLiteral (1)%Z)))))))))]))]))))))];
     ts_locs := [(1,1,1,38); (1,16,1,38); (1,18,1,36); (1,18,1,35); (1,26,1,35); (1,26,1,26); (1,30,1,30); (1,34,1,35); (1,35,1,35)]%Z;
     ts_evals := [(5, false)]; ts_same := []; ts_decls := []; ts_parents := [] |}.
Example CyclomaticComplexity_OneConditionalOperator_holds : nth_violation (shippedRule sh_CyclomaticComplexity) CyclomaticComplexity_OneConditionalOperator 0 = Some (1, 1, 1, 38, $"Cyclomatic Complexity Number 2 exceeds limit of 1")%Z.
Proof. vm_compute. reflexivity. Qed.

Definition CyclomaticComplexity_OneLogicAndOperator : testcase :=
  {| ts_lang := LC; ts_path := $"input.c"; ts_code := [];
     ts_comments := []; ts_conf := [($"CYCLOMATIC_COMPLEXITY", $"1")];
     ts_tops := [(toplevel 0 (TFunction false), (Node 0 [] (FunctionDecl {| f_name := $"aMethod"; f_method := None; f_isDefinition := true; f_bodyLines := (1)%Z |} [] (Some (Node 1 [] (CompoundStmt [(Node 2 [] (DeclStmt [(Node 3 [] (VarDecl {| v_isParm := false; v_name := $"b"; v_used := false; v_referenced := false; v_local := true; v_staticMember := false; v_private := false; v_unusedAttr := false; v_defaultArg := false; v_canonicalType := $"int"; v_inTemplate := false; v_contexts := [CxFunction true true false] |} (Some (Node 4 [] (BinaryOperator BO_LAnd (Node 5 [] (IntegerLiteral (1)%Z)) (Node 6 [] (IntegerLiteral (0)%Z)))))))]))]))))))];
     ts_locs := [(1,1,1,34); (1,16,1,34); (1,18,1,32); (1,18,1,31); (1,26,1,31); (1,26,1,26); (1,31,1,31)]%Z;
     ts_evals := []; ts_same := []; ts_decls := []; ts_parents := [] |}.
Example CyclomaticComplexity_OneLogicAndOperator_holds : nth_violation (shippedRule sh_CyclomaticComplexity) CyclomaticComplexity_OneLogicAndOperator 0 = Some (1, 1, 1, 34, $"Cyclomatic Complexity Number 2 exceeds limit of 1")%Z.
Proof. vm_compute. reflexivity. Qed.

Definition CyclomaticComplexity_OneLogicOrOperator : testcase :=
  {| ts_lang := LC; ts_path := $"input.c"; ts_code := [];
     ts_comments := []; ts_conf := [($"CYCLOMATIC_COMPLEXITY", $"1")];
     ts_tops := [(toplevel 0 (TFunction false), (Node 0 [] (FunctionDecl {| f_name := $"aMethod"; f_method := None; f_isDefinition := true; f_bodyLines := (1)%Z |} [] (Some (Node 1 [] (CompoundStmt [(Node 2 [] (DeclStmt [(Node 3 [] (VarDecl {| v_isParm := false; v_name := $"b"; v_used := false; v_referenced := false; v_local := true; v_staticMember := false; v_private := false; v_unusedAttr := false; v_defaultArg := false; v_canonicalType := $"int"; v_inTemplate := false; v_contexts := [CxFunction true true false] |} (Some (Node 4 [] (BinaryOperator BO_LOr (Node 5 [] (IntegerLiteral (1)%Z)) (Node 6 [] (IntegerLiteral (0)%Z)))))))]))]))))))];
     ts_locs := [(1,1,1,34); (1,16,1,34); (1,18,1,32); (1,18,1,31); (1,26,1,31); (1,26,1,26); (1,31,1,31)]%Z;
     ts_evals := []; ts_same := []; ts_decls := []; ts_parents := [] |}.
Example CyclomaticComplexity_OneLogicOrOperator_holds : nth_violation (shippedRule sh_CyclomaticComplexity) CyclomaticComplexity_OneLogicOrOperator 0 = Some (1, 1, 1, 34, $"Cyclomatic Complexity Number 2 exceeds limit of 1")%Z.
Proof. vm_compute. reflexivity. Qed.

Definition CyclomaticComplexity_ABinaryOperatorButHasNoEffectOnCCNCouting : testcase :=
  {| ts_lang := LC; ts_path := $"input.c"; ts_code := [];
     ts_comments := []; ts_conf := [($"CYCLOMATIC_COMPLEXITY", $"1")];
     ts_tops := [(toplevel 0 (TFunction false), (Node 0 [] (FunctionDecl {| f_name := $"aMethod"; f_method := None; f_isDefinition := true; f_bodyLines := (1)%Z |} [] (Some (Node 1 [] (CompoundStmt [(Node 2 [] (DeclStmt [(Node 3 [] (VarDecl {| v_isParm := false; v_name := $"b"; v_used := false; v_referenced := false; v_local := true; v_staticMember := false; v_private := false; v_unusedAttr := false; v_defaultArg := false; v_canonicalType := $"int"; v_inTemplate := false; v_contexts := [CxFunction true true false] |} (Some (Node 4 [] (BinaryOperator BO_EQ (Node 5 [] (IntegerLiteral (1)%Z)) (Node 6 [] (IntegerLiteral (0)%Z)))))))]))]))))))];
     ts_locs := [(1,1,1,34); (1,16,1,34); (1,18,1,32); (1,18,1,31); (1,26,1,31); (1,26,1,26); (1,31,1,31)]%Z;
     ts_evals := []; ts_same := []; ts_decls := []; ts_parents := [] |}.
Example CyclomaticComplexity_ABinaryOperatorButHasNoEffectOnCCNCouting_holds : sorted_violations_of (shippedRule sh_CyclomaticComplexity) CyclomaticComplexity_ABinaryOperatorButHasNoEffectOnCCNCouting = Some [].
Proof. vm_compute. reflexivity. Qed.

Definition CyclomaticComplexity_SuppressCyclomaticComplexity : testcase :=
  {| ts_lang := LC; ts_path := $"input.c"; ts_code := [];
     ts_comments := []; ts_conf := [($"CYCLOMATIC_COMPLEXITY", $"1")];
     ts_tops := [(toplevel 0 (TFunction false), (Node 0 [] (FunctionDecl {| f_name := $"aMethod"; f_method := None; f_isDefinition := true; f_bodyLines := (1)%Z |} [] (Some (Node 1 [] (CompoundStmt [(Node 2 [] (DeclStmt [(Node 3 [] (VarDecl {| v_isParm := false; v_name := $"b"; v_used := false; v_referenced := false; v_local := true; v_staticMember := false; v_private := false; v_unusedAttr := false; v_defaultArg := false; v_canonicalType := $"int"; v_inTemplate := false; v_contexts := [CxFunction true true false] |} (Some (Node 4 [] (BinaryOperator BO_LOr (Node 5 [] (IntegerLiteral (1)%Z)) (Node 6 [] (IntegerLiteral (0)%Z)))))))]))]))))))];
     ts_locs := [(1,1,1,107); (1,89,1,107); (1,91,1,105); (1,91,1,104); (1,99,1,104); (1,99,1,99); (1,104,1,104)]%Z;
     ts_evals := []; ts_same := []; ts_decls := [(0, (Decl [$"oclint:suppress[high cyclomatic complexity]"] None))]; ts_parents := [(None, true); ((Some 0), false); ((Some 1), false); ((Some 2), true); ((Some 3), false); ((Some 4), false); ((Some 4), false)] |}.
Example CyclomaticComplexity_SuppressCyclomaticComplexity_holds : sorted_violations_of (shippedRule sh_CyclomaticComplexity) CyclomaticComplexity_SuppressCyclomaticComplexity = Some [].
Proof. vm_compute. reflexivity. Qed.

(** ** oclint-rules/test/size/LongClassRuleTest.cpp *)

Definition LongClass_CXXClass : testcase :=
  {| ts_lang := LCXX; ts_path := $"input.cpp"; ts_code := [];
     ts_comments := []; ts_conf := [($"LONG_CLASS", $"0")];
     ts_tops := [(toplevel 0 (TOther), (Node 0 [] (CXXRecordDecl {| r_class := (CxxRecord 0 $"c" true false None []); r_fields := 0; r_methods := 0; r_lines := (1)%Z |} [])))];
     ts_locs := [(1,1,1,10)]%Z;
     ts_evals := []; ts_same := []; ts_decls := []; ts_parents := [] |}.
Example LongClass_CXXClass_holds : nth_violation (shippedRule sh_LongClass) LongClass_CXXClass 0 = Some (1, 1, 1, 10, $"C++ class with 1 lines exceeds limit of 0")%Z.
Proof. vm_compute. reflexivity. Qed.

Definition LongClass_CXXClass_2 : testcase :=
  {| ts_lang := LCXX; ts_path := $"input.cpp"; ts_code := [];
     ts_comments := []; ts_conf := [($"LONG_CLASS", $"0")];
     ts_tops := [(toplevel 0 (TOther), (Node 0 [] (CXXRecordDecl {| r_class := (CxxRecord 0 $"c" true false None []); r_fields := 0; r_methods := 1; r_lines := (3)%Z |} [(Node 1 [] (FunctionDecl {| f_name := $"m"; f_method := (Some {| cm_virtual := false; cm_static := false; cm_private := true; cm_inRecord := true |}); f_isDefinition := false; f_bodyLines := (0)%Z |} [] None))])))];
     ts_locs := [(1,1,3,1); (2,1,2,8)]%Z;
     ts_evals := []; ts_same := []; ts_decls := []; ts_parents := [] |}.
Example LongClass_CXXClass_2_holds : nth_violation (shippedRule sh_LongClass) LongClass_CXXClass_2 0 = Some (1, 1, 3, 1, $"C++ class with 3 lines exceeds limit of 0")%Z.
Proof. vm_compute. reflexivity. Qed.

Definition LongClass_CXXClassIgnoreOtherMethods : testcase :=
  {| ts_lang := LCXX; ts_path := $"input.cpp"; ts_code := [];
     ts_comments := []; ts_conf := [($"LONG_CLASS", $"0")];
     ts_tops := [(toplevel 0 (TFunction false), (Node 0 [] (FunctionDecl {| f_name := $"m"; f_method := None; f_isDefinition := false; f_bodyLines := (0)%Z |} [] None))); (toplevel 1 (TOther), (Node 1 [] (CXXRecordDecl {| r_class := (CxxRecord 1 $"c" true false None []); r_fields := 0; r_methods := 0; r_lines := (1)%Z |} []))); (toplevel 2 (TFunction false), (Node 2 [] (FunctionDecl {| f_name := $"n"; f_method := None; f_isDefinition := false; f_bodyLines := (0)%Z |} [] None)))];
     ts_locs := [(1,1,1,8); (1,11,1,20); (2,1,2,8)]%Z;
     ts_evals := []; ts_same := []; ts_decls := []; ts_parents := [] |}.
Example LongClass_CXXClassIgnoreOtherMethods_holds : nth_violation (shippedRule sh_LongClass) LongClass_CXXClassIgnoreOtherMethods 0 = Some (1, 11, 1, 20, $"C++ class with 1 lines exceeds limit of 0")%Z.
Proof. vm_compute. reflexivity. Qed.

Definition LongClass_ObjCInterface : testcase :=
  {| ts_lang := LObjC; ts_path := $"input.m"; ts_code := [];
     ts_comments := []; ts_conf := [($"LONG_CLASS", $"0")];
     ts_tops := [(toplevel 0 (TOther), (Node 0 [] (ObjCContainerDecl {| oc_kind := OKInterface; oc_name := $"a"; oc_lines := (2)%Z; oc_ivars := 0; oc_methods := []; oc_classes := [$"a"]; oc_superMethods := None |} [])))];
     ts_locs := [(1,1,2,2)]%Z;
     ts_evals := []; ts_same := []; ts_decls := []; ts_parents := [] |}.
Example LongClass_ObjCInterface_holds : nth_violation (shippedRule sh_LongClass) LongClass_ObjCInterface 0 = Some (1, 1, 2, 2, $"Objective-C interface with 2 lines exceeds limit of 0")%Z.
Proof. vm_compute. reflexivity. Qed.

Definition LongClass_ObjCInterface_2 : testcase :=
  {| ts_lang := LObjC; ts_path := $"input.m"; ts_code := [];
     ts_comments := []; ts_conf := [($"LONG_CLASS", $"0")];
     ts_tops := [(toplevel 0 (TOther), (Node 0 [] (ObjCContainerDecl {| oc_kind := OKInterface; oc_name := $"b"; oc_lines := (2)%Z; oc_ivars := 0; oc_methods := []; oc_classes := [$"b"]; oc_superMethods := None |} []))); (toplevel 1 (TOther), (Node 1 [] (ObjCContainerDecl {| oc_kind := OKInterface; oc_name := $"a"; oc_lines := (3)%Z; oc_ivars := 0; oc_methods := [($"m", true)]; oc_classes := [$"a"; $"b"]; oc_superMethods := (Some ($"b", [])) |} [(Node 2 [] (ObjCMethodDecl {| om_selector := $"m"; om_class := (Some $"a"); om_overriding := false; om_overridden := []; om_bodyLines := (0)%Z |} [] None))])))];
     ts_locs := [(1,1,2,2); (3,1,5,2); (4,1,4,10)]%Z;
     ts_evals := []; ts_same := []; ts_decls := []; ts_parents := [] |}.
Example LongClass_ObjCInterface_2_holds : nth_violation (shippedRule sh_LongClass) LongClass_ObjCInterface_2 0 = Some (1, 1, 2, 2, $"Objective-C interface with 2 lines exceeds limit of 0")%Z.
Proof. vm_compute. reflexivity. Qed.

Definition LongClass_ObjCInterface_3 : testcase :=
  {| ts_lang := LObjC; ts_path := $"input.m"; ts_code := [];
     ts_comments := []; ts_conf := [($"LONG_CLASS", $"0")];
     ts_tops := [(toplevel 0 (TOther), (Node 0 [] (ObjCContainerDecl {| oc_kind := OKInterface; oc_name := $"b"; oc_lines := (2)%Z; oc_ivars := 0; oc_methods := []; oc_classes := [$"b"]; oc_superMethods := None |} []))); (toplevel 1 (TOther), (Node 1 [] (ObjCContainerDecl {| oc_kind := OKInterface; oc_name := $"a"; oc_lines := (3)%Z; oc_ivars := 0; oc_methods := [($"m", true)]; oc_classes := [$"a"; $"b"]; oc_superMethods := (Some ($"b", [])) |} [(Node 2 [] (ObjCMethodDecl {| om_selector := $"m"; om_class := (Some $"a"); om_overriding := false; om_overridden := []; om_bodyLines := (0)%Z |} [] None))])))];
     ts_locs := [(1,1,2,2); (3,1,5,2); (4,1,4,10)]%Z;
     ts_evals := []; ts_same := []; ts_decls := []; ts_parents := [] |}.
Example LongClass_ObjCInterface_3_holds : nth_violation (shippedRule sh_LongClass) LongClass_ObjCInterface_3 1 = Some (3, 1, 5, 2, $"Objective-C interface with 3 lines exceeds limit of 0")%Z.
Proof. vm_compute. reflexivity. Qed.

Definition LongClass_ObjCProtocol : testcase :=
  {| ts_lang := LObjC; ts_path := $"input.m"; ts_code := [];
     ts_comments := []; ts_conf := [($"LONG_CLASS", $"0")];
     ts_tops := [(toplevel 0 (TOther), (Node 0 [] (ObjCContainerDecl {| oc_kind := OKProtocol; oc_name := $"a"; oc_lines := (2)%Z; oc_ivars := 0; oc_methods := []; oc_classes := []; oc_superMethods := None |} [])))];
     ts_locs := [(1,1,2,2)]%Z;
     ts_evals := []; ts_same := []; ts_decls := []; ts_parents := [] |}.
Example LongClass_ObjCProtocol_holds : nth_violation (shippedRule sh_LongClass) LongClass_ObjCProtocol 0 = Some (1, 1, 2, 2, $"Objective-C protocol with 2 lines exceeds limit of 0")%Z.
Proof. vm_compute. reflexivity. Qed.

Definition LongClass_ObjCProtocol_2 : testcase :=
  {| ts_lang := LObjC; ts_path := $"input.m"; ts_code := [];
     ts_comments := []; ts_conf := [($"LONG_CLASS", $"0")];
     ts_tops := [(toplevel 0 (TOther), (Node 0 [] (ObjCContainerDecl {| oc_kind := OKProtocol; oc_name := $"a"; oc_lines := (3)%Z; oc_ivars := 0; oc_methods := [($"m", true)]; oc_classes := []; oc_superMethods := None |} [(Node 1 [] (ObjCMethodDecl {| om_selector := $"m"; om_class := None; om_overriding := false; om_overridden := []; om_bodyLines := (0)%Z |} [] None))])))];
     ts_locs := [(1,1,3,2); (2,1,2,10)]%Z;
     ts_evals := []; ts_same := []; ts_decls := []; ts_parents := [] |}.
Example LongClass_ObjCProtocol_2_holds : nth_violation (shippedRule sh_LongClass) LongClass_ObjCProtocol_2 0 = Some (1, 1, 3, 2, $"Objective-C protocol with 3 lines exceeds limit of 0")%Z.
Proof. vm_compute. reflexivity. Qed.

Definition LongClass_ObjCCategory : testcase :=
  {| ts_lang := LObjC; ts_path := $"input.m"; ts_code := [];
     ts_comments := []; ts_conf := [($"LONG_CLASS", $"0")];
     ts_tops := [(toplevel 0 (TOther), (Node 0 [] (ObjCContainerDecl {| oc_kind := OKInterface; oc_name := $"a"; oc_lines := (2)%Z; oc_ivars := 0; oc_methods := []; oc_classes := [$"a"]; oc_superMethods := None |} []))); (toplevel 1 (TOther), (Node 1 [] (ObjCContainerDecl {| oc_kind := OKCategory; oc_name := $"b"; oc_lines := (2)%Z; oc_ivars := 0; oc_methods := []; oc_classes := []; oc_superMethods := None |} [])))];
     ts_locs := [(1,1,2,2); (3,1,4,2)]%Z;
     ts_evals := []; ts_same := []; ts_decls := []; ts_parents := [] |}.
Example LongClass_ObjCCategory_holds : nth_violation (shippedRule sh_LongClass) LongClass_ObjCCategory 0 = Some (1, 1, 2, 2, $"Objective-C interface with 2 lines exceeds limit of 0")%Z.
Proof. vm_compute. reflexivity. Qed.

Definition LongClass_ObjCCategory_2 : testcase :=
  {| ts_lang := LObjC; ts_path := $"input.m"; ts_code := [];
     ts_comments := []; ts_conf := [($"LONG_CLASS", $"0")];
     ts_tops := [(toplevel 0 (TOther), (Node 0 [] (ObjCContainerDecl {| oc_kind := OKInterface; oc_name := $"a"; oc_lines := (2)%Z; oc_ivars := 0; oc_methods := []; oc_classes := [$"a"]; oc_superMethods := None |} []))); (toplevel 1 (TOther), (Node 1 [] (ObjCContainerDecl {| oc_kind := OKCategory; oc_name := $"b"; oc_lines := (2)%Z; oc_ivars := 0; oc_methods := []; oc_classes := []; oc_superMethods := None |} [])))];
     ts_locs := [(1,1,2,2); (3,1,4,2)]%Z;
     ts_evals := []; ts_same := []; ts_decls := []; ts_parents := [] |}.
Example LongClass_ObjCCategory_2_holds : nth_violation (shippedRule sh_LongClass) LongClass_ObjCCategory_2 1 = Some (3, 1, 4, 2, $"Objective-C category with 2 lines exceeds limit of 0")%Z.
Proof. vm_compute. reflexivity. Qed.

Definition LongClass_ObjCCategory_3 : testcase :=
  {| ts_lang := LObjC; ts_path := $"input.m"; ts_code := [];
     ts_comments := []; ts_conf := [($"LONG_CLASS", $"0")];
     ts_tops := [(toplevel 0 (TOther), (Node 0 [] (ObjCContainerDecl {| oc_kind := OKInterface; oc_name := $"c"; oc_lines := (2)%Z; oc_ivars := 0; oc_methods := []; oc_classes := [$"c"]; oc_superMethods := None |} []))); (toplevel 1 (TOther), (Node 1 [] (ObjCContainerDecl {| oc_kind := OKInterface; oc_name := $"a"; oc_lines := (3)%Z; oc_ivars := 0; oc_methods := [($"m", true)]; oc_classes := [$"a"; $"c"]; oc_superMethods := (Some ($"c", [])) |} [(Node 2 [] (ObjCMethodDecl {| om_selector := $"m"; om_class := (Some $"a"); om_overriding := false; om_overridden := []; om_bodyLines := (0)%Z |} [] None))]))); (toplevel 3 (TOther), (Node 3 [] (ObjCContainerDecl {| oc_kind := OKCategory; oc_name := $"b"; oc_lines := (3)%Z; oc_ivars := 0; oc_methods := [($"n", true)]; oc_classes := []; oc_superMethods := None |} [(Node 4 [] (ObjCMethodDecl {| om_selector := $"n"; om_class := (Some $"a"); om_overriding := false; om_overridden := []; om_bodyLines := (0)%Z |} [] None))])))];
     ts_locs := [(1,1,2,2); (3,1,5,2); (4,1,4,10); (6,1,8,2); (7,1,7,10)]%Z;
     ts_evals := []; ts_same := []; ts_decls := []; ts_parents := [] |}.
Example LongClass_ObjCCategory_3_holds : nth_violation (shippedRule sh_LongClass) LongClass_ObjCCategory_3 0 = Some (1, 1, 2, 2, $"Objective-C interface with 2 lines exceeds limit of 0")%Z.
Proof. vm_compute. reflexivity. Qed.

Definition LongClass_ObjCCategory_4 : testcase :=
  {| ts_lang := LObjC; ts_path := $"input.m"; ts_code := [];
     ts_comments := []; ts_conf := [($"LONG_CLASS", $"0")];
     ts_tops := [(toplevel 0 (TOther), (Node 0 [] (ObjCContainerDecl {| oc_kind := OKInterface; oc_name := $"c"; oc_lines := (2)%Z; oc_ivars := 0; oc_methods := []; oc_classes := [$"c"]; oc_superMethods := None |} []))); (toplevel 1 (TOther), (Node 1 [] (ObjCContainerDecl {| oc_kind := OKInterface; oc_name := $"a"; oc_lines := (3)%Z; oc_ivars := 0; oc_methods := [($"m", true)]; oc_classes := [$"a"; $"c"]; oc_superMethods := (Some ($"c", [])) |} [(Node 2 [] (ObjCMethodDecl {| om_selector := $"m"; om_class := (Some $"a"); om_overriding := false; om_overridden := []; om_bodyLines := (0)%Z |} [] None))]))); (toplevel 3 (TOther), (Node 3 [] (ObjCContainerDecl {| oc_kind := OKCategory; oc_name := $"b"; oc_lines := (3)%Z; oc_ivars := 0; oc_methods := [($"n", true)]; oc_classes := []; oc_superMethods := None |} [(Node 4 [] (ObjCMethodDecl {| om_selector := $"n"; om_class := (Some $"a"); om_overriding := false; om_overridden := []; om_bodyLines := (0)%Z |} [] None))])))];
     ts_locs := [(1,1,2,2); (3,1,5,2); (4,1,4,10); (6,1,8,2); (7,1,7,10)]%Z;
     ts_evals := []; ts_same := []; ts_decls := []; ts_parents := [] |}.
Example LongClass_ObjCCategory_4_holds : nth_violation (shippedRule sh_LongClass) LongClass_ObjCCategory_4 1 = Some (3, 1, 5, 2, $"Objective-C interface with 3 lines exceeds limit of 0")%Z.
Proof. vm_compute. reflexivity. Qed.

Definition LongClass_ObjCCategory_5 : testcase :=
  {| ts_lang := LObjC; ts_path := $"input.m"; ts_code := [];
     ts_comments := []; ts_conf := [($"LONG_CLASS", $"0")];
     ts_tops := [(toplevel 0 (TOther), (Node 0 [] (ObjCContainerDecl {| oc_kind := OKInterface; oc_name := $"c"; oc_lines := (2)%Z; oc_ivars := 0; oc_methods := []; oc_classes := [$"c"]; oc_superMethods := None |} []))); (toplevel 1 (TOther), (Node 1 [] (ObjCContainerDecl {| oc_kind := OKInterface; oc_name := $"a"; oc_lines := (3)%Z; oc_ivars := 0; oc_methods := [($"m", true)]; oc_classes := [$"a"; $"c"]; oc_superMethods := (Some ($"c", [])) |} [(Node 2 [] (ObjCMethodDecl {| om_selector := $"m"; om_class := (Some $"a"); om_overriding := false; om_overridden := []; om_bodyLines := (0)%Z |} [] None))]))); (toplevel 3 (TOther), (Node 3 [] (ObjCContainerDecl {| oc_kind := OKCategory; oc_name := $"b"; oc_lines := (3)%Z; oc_ivars := 0; oc_methods := [($"n", true)]; oc_classes := []; oc_superMethods := None |} [(Node 4 [] (ObjCMethodDecl {| om_selector := $"n"; om_class := (Some $"a"); om_overriding := false; om_overridden := []; om_bodyLines := (0)%Z |} [] None))])))];
     ts_locs := [(1,1,2,2); (3,1,5,2); (4,1,4,10); (6,1,8,2); (7,1,7,10)]%Z;
     ts_evals := []; ts_same := []; ts_decls := []; ts_parents := [] |}.
Example LongClass_ObjCCategory_5_holds : nth_violation (shippedRule sh_LongClass) LongClass_ObjCCategory_5 2 = Some (6, 1, 8, 2, $"Objective-C category with 3 lines exceeds limit of 0")%Z.
Proof. vm_compute. reflexivity. Qed.

Definition LongClass_ObjCImplementation : testcase :=
  {| ts_lang := LObjC; ts_path := $"input.m"; ts_code := [];
     ts_comments := []; ts_conf := [($"LONG_CLASS", $"0")];
     ts_tops := [(toplevel 0 (TOther), (Node 0 [] (ObjCContainerDecl {| oc_kind := OKInterface; oc_name := $"c"; oc_lines := (2)%Z; oc_ivars := 0; oc_methods := []; oc_classes := [$"c"]; oc_superMethods := None |} []))); (toplevel 1 (TOther), (Node 1 [] (ObjCContainerDecl {| oc_kind := OKInterface; oc_name := $"a"; oc_lines := (2)%Z; oc_ivars := 0; oc_methods := []; oc_classes := [$"a"; $"c"]; oc_superMethods := (Some ($"c", [])) |} []))); (toplevel 2 (TOther), (Node 2 [] (ObjCContainerDecl {| oc_kind := OKImplementation; oc_name := $"a"; oc_lines := (2)%Z; oc_ivars := 0; oc_methods := []; oc_classes := [$"a"; $"c"]; oc_superMethods := (Some ($"c", [])) |} [])))];
     ts_locs := [(1,1,2,2); (3,1,4,2); (5,1,6,1)]%Z;
     ts_evals := []; ts_same := []; ts_decls := []; ts_parents := [] |}.
Example LongClass_ObjCImplementation_holds : nth_violation (shippedRule sh_LongClass) LongClass_ObjCImplementation 0 = Some (1, 1, 2, 2, $"Objective-C interface with 2 lines exceeds limit of 0")%Z.
Proof. vm_compute. reflexivity. Qed.

Definition LongClass_ObjCImplementation_2 : testcase :=
  {| ts_lang := LObjC; ts_path := $"input.m"; ts_code := [];
     ts_comments := []; ts_conf := [($"LONG_CLASS", $"0")];
     ts_tops := [(toplevel 0 (TOther), (Node 0 [] (ObjCContainerDecl {| oc_kind := OKInterface; oc_name := $"c"; oc_lines := (2)%Z; oc_ivars := 0; oc_methods := []; oc_classes := [$"c"]; oc_superMethods := None |} []))); (toplevel 1 (TOther), (Node 1 [] (ObjCContainerDecl {| oc_kind := OKInterface; oc_name := $"a"; oc_lines := (2)%Z; oc_ivars := 0; oc_methods := []; oc_classes := [$"a"; $"c"]; oc_superMethods := (Some ($"c", [])) |} []))); (toplevel 2 (TOther), (Node 2 [] (ObjCContainerDecl {| oc_kind := OKImplementation; oc_name := $"a"; oc_lines := (2)%Z; oc_ivars := 0; oc_methods := []; oc_classes := [$"a"; $"c"]; oc_superMethods := (Some ($"c", [])) |} [])))];
     ts_locs := [(1,1,2,2); (3,1,4,2); (5,1,6,1)]%Z;
     ts_evals := []; ts_same := []; ts_decls := []; ts_parents := [] |}.
Example LongClass_ObjCImplementation_2_holds : nth_violation (shippedRule sh_LongClass) LongClass_ObjCImplementation_2 1 = Some (3, 1, 4, 2, $"Objective-C interface with 2 lines exceeds limit of 0")%Z.
Proof. vm_compute. reflexivity. Qed.

Definition LongClass_ObjCImplementation_3 : testcase :=
  {| ts_lang := LObjC; ts_path := $"input.m"; ts_code := [];
     ts_comments := []; ts_conf := [($"LONG_CLASS", $"0")];
     ts_tops := [(toplevel 0 (TOther), (Node 0 [] (ObjCContainerDecl {| oc_kind := OKInterface; oc_name := $"c"; oc_lines := (2)%Z; oc_ivars := 0; oc_methods := []; oc_classes := [$"c"]; oc_superMethods := None |} []))); (toplevel 1 (TOther), (Node 1 [] (ObjCContainerDecl {| oc_kind := OKInterface; oc_name := $"a"; oc_lines := (2)%Z; oc_ivars := 0; oc_methods := []; oc_classes := [$"a"; $"c"]; oc_superMethods := (Some ($"c", [])) |} []))); (toplevel 2 (TOther), (Node 2 [] (ObjCContainerDecl {| oc_kind := OKImplementation; oc_name := $"a"; oc_lines := (2)%Z; oc_ivars := 0; oc_methods := []; oc_classes := [$"a"; $"c"]; oc_superMethods := (Some ($"c", [])) |} [])))];
     ts_locs := [(1,1,2,2); (3,1,4,2); (5,1,6,1)]%Z;
     ts_evals := []; ts_same := []; ts_decls := []; ts_parents := [] |}.
Example LongClass_ObjCImplementation_3_holds : nth_violation (shippedRule sh_LongClass) LongClass_ObjCImplementation_3 2 = Some (5, 1, 6, 1, $"Objective-C implementation with 2 lines exceeds limit of 0")%Z.
Proof. vm_compute. reflexivity. Qed.

Definition LongClass_ObjCImplementation_4 : testcase :=
  {| ts_lang := LObjC; ts_path := $"input.m"; ts_code := [];
     ts_comments := []; ts_conf := [($"LONG_CLASS", $"0")];
     ts_tops := [(toplevel 0 (TOther), (Node 0 [] (ObjCContainerDecl {| oc_kind := OKInterface; oc_name := $"c"; oc_lines := (2)%Z; oc_ivars := 0; oc_methods := []; oc_classes := [$"c"]; oc_superMethods := None |} []))); (toplevel 1 (TOther), (Node 1 [] (ObjCContainerDecl {| oc_kind := OKInterface; oc_name := $"a"; oc_lines := (3)%Z; oc_ivars := 0; oc_methods := [($"m", true)]; oc_classes := [$"a"; $"c"]; oc_superMethods := (Some ($"c", [])) |} [(Node 2 [] (ObjCMethodDecl {| om_selector := $"m"; om_class := (Some $"a"); om_overriding := false; om_overridden := []; om_bodyLines := (0)%Z |} [] None))]))); (toplevel 3 (TOther), (Node 3 [] (ObjCContainerDecl {| oc_kind := OKImplementation; oc_name := $"a"; oc_lines := (3)%Z; oc_ivars := 0; oc_methods := [($"m", true)]; oc_classes := [$"a"; $"c"]; oc_superMethods := (Some ($"c", [])) |} [(Node 4 [] (ObjCMethodDecl {| om_selector := $"m"; om_class := (Some $"a"); om_overriding := false; om_overridden := []; om_bodyLines := (1)%Z |} [] (Some (Node 5 [] (CompoundStmt [])))))])))];
     ts_locs := [(1,1,2,2); (3,1,5,2); (4,1,4,10); (6,1,8,1); (7,1,7,12); (7,11,7,12)]%Z;
     ts_evals := []; ts_same := []; ts_decls := []; ts_parents := [] |}.
Example LongClass_ObjCImplementation_4_holds : nth_violation (shippedRule sh_LongClass) LongClass_ObjCImplementation_4 0 = Some (1, 1, 2, 2, $"Objective-C interface with 2 lines exceeds limit of 0")%Z.
Proof. vm_compute. reflexivity. Qed.

Definition LongClass_ObjCImplementation_5 : testcase :=
  {| ts_lang := LObjC; ts_path := $"input.m"; ts_code := [];
     ts_comments := []; ts_conf := [($"LONG_CLASS", $"0")];
     ts_tops := [(toplevel 0 (TOther), (Node 0 [] (ObjCContainerDecl {| oc_kind := OKInterface; oc_name := $"c"; oc_lines := (2)%Z; oc_ivars := 0; oc_methods := []; oc_classes := [$"c"]; oc_superMethods := None |} []))); (toplevel 1 (TOther), (Node 1 [] (ObjCContainerDecl {| oc_kind := OKInterface; oc_name := $"a"; oc_lines := (3)%Z; oc_ivars := 0; oc_methods := [($"m", true)]; oc_classes := [$"a"; $"c"]; oc_superMethods := (Some ($"c", [])) |} [(Node 2 [] (ObjCMethodDecl {| om_selector := $"m"; om_class := (Some $"a"); om_overriding := false; om_overridden := []; om_bodyLines := (0)%Z |} [] None))]))); (toplevel 3 (TOther), (Node 3 [] (ObjCContainerDecl {| oc_kind := OKImplementation; oc_name := $"a"; oc_lines := (3)%Z; oc_ivars := 0; oc_methods := [($"m", true)]; oc_classes := [$"a"; $"c"]; oc_superMethods := (Some ($"c", [])) |} [(Node 4 [] (ObjCMethodDecl {| om_selector := $"m"; om_class := (Some $"a"); om_overriding := false; om_overridden := []; om_bodyLines := (1)%Z |} [] (Some (Node 5 [] (CompoundStmt [])))))])))];
     ts_locs := [(1,1,2,2); (3,1,5,2); (4,1,4,10); (6,1,8,1); (7,1,7,12); (7,11,7,12)]%Z;
     ts_evals := []; ts_same := []; ts_decls := []; ts_parents := [] |}.
Example LongClass_ObjCImplementation_5_holds : nth_violation (shippedRule sh_LongClass) LongClass_ObjCImplementation_5 1 = Some (3, 1, 5, 2, $"Objective-C interface with 3 lines exceeds limit of 0")%Z.
Proof. vm_compute. reflexivity. Qed.

Definition LongClass_ObjCImplementation_6 : testcase :=
  {| ts_lang := LObjC; ts_path := $"input.m"; ts_code := [];
     ts_comments := []; ts_conf := [($"LONG_CLASS", $"0")];
     ts_tops := [(toplevel 0 (TOther), (Node 0 [] (ObjCContainerDecl {| oc_kind := OKInterface; oc_name := $"c"; oc_lines := (2)%Z; oc_ivars := 0; oc_methods := []; oc_classes := [$"c"]; oc_superMethods := None |} []))); (toplevel 1 (TOther), (Node 1 [] (ObjCContainerDecl {| oc_kind := OKInterface; oc_name := $"a"; oc_lines := (3)%Z; oc_ivars := 0; oc_methods := [($"m", true)]; oc_classes := [$"a"; $"c"]; oc_superMethods := (Some ($"c", [])) |} [(Node 2 [] (ObjCMethodDecl {| om_selector := $"m"; om_class := (Some $"a"); om_overriding := false; om_overridden := []; om_bodyLines := (0)%Z |} [] None))]))); (toplevel 3 (TOther), (Node 3 [] (ObjCContainerDecl {| oc_kind := OKImplementation; oc_name := $"a"; oc_lines := (3)%Z; oc_ivars := 0; oc_methods := [($"m", true)]; oc_classes := [$"a"; $"c"]; oc_superMethods := (Some ($"c", [])) |} [(Node 4 [] (ObjCMethodDecl {| om_selector := $"m"; om_class := (Some $"a"); om_overriding := false; om_overridden := []; om_bodyLines := (1)%Z |} [] (Some (Node 5 [] (CompoundStmt [])))))])))];
     ts_locs := [(1,1,2,2); (3,1,5,2); (4,1,4,10); (6,1,8,1); (7,1,7,12); (7,11,7,12)]%Z;
     ts_evals := []; ts_same := []; ts_decls := []; ts_parents := [] |}.
Example LongClass_ObjCImplementation_6_holds : nth_violation (shippedRule sh_LongClass) LongClass_ObjCImplementation_6 2 = Some (6, 1, 8, 1, $"Objective-C implementation with 3 lines exceeds limit of 0")%Z.
Proof. vm_compute. reflexivity. Qed.

(** ** oclint-rules/test/size/LongLineRuleTest.cpp *)

Definition LongLine_GetNumberOfCharactersForALine : testcase :=
  {| ts_lang := LC; ts_path := $"input.c"; ts_code := (source [$"void m() {}"]);
     ts_comments := []; ts_conf := [($"LONG_LINE", $"0")];
     ts_tops := [(toplevel 0 (TFunction false), (Node 0 [] (FunctionDecl {| f_name := $"m"; f_method := None; f_isDefinition := true; f_bodyLines := (1)%Z |} [] (Some (Node 1 [] (CompoundStmt []))))))];
     ts_locs := [(1,1,1,11); (1,10,1,11)]%Z;
     ts_evals := []; ts_same := []; ts_decls := []; ts_parents := [] |}.
Example LongLine_GetNumberOfCharactersForALine_holds : nth_violation (shippedRule sh_LongLine) LongLine_GetNumberOfCharactersForALine 0 = Some (1, 1, 1, 11, $"Line with 11 characters exceeds limit of 0")%Z.
Proof. vm_compute. reflexivity. Qed.

Definition LongLine_GetNumberOfCharactersForThreeLines : testcase :=
  {| ts_lang := LC; ts_path := $"input.c"; ts_code := (source [$"void m() {"; $"  "; $"}"]);
     ts_comments := []; ts_conf := [($"LONG_LINE", $"0")];
     ts_tops := [(toplevel 0 (TFunction false), (Node 0 [] (FunctionDecl {| f_name := $"m"; f_method := None; f_isDefinition := true; f_bodyLines := (3)%Z |} [] (Some (Node 1 [] (CompoundStmt []))))))];
     ts_locs := [(1,1,3,1); (1,10,3,1)]%Z;
     ts_evals := []; ts_same := []; ts_decls := []; ts_parents := [] |}.
Example LongLine_GetNumberOfCharactersForThreeLines_holds : nth_violation (shippedRule sh_LongLine) LongLine_GetNumberOfCharactersForThreeLines 0 = Some (1, 1, 1, 10, $"Line with 10 characters exceeds limit of 0")%Z.
Proof. vm_compute. reflexivity. Qed.

Definition LongLine_GetNumberOfCharactersForThreeLines_2 : testcase :=
  {| ts_lang := LC; ts_path := $"input.c"; ts_code := (source [$"void m() {"; $"  "; $"}"]);
     ts_comments := []; ts_conf := [($"LONG_LINE", $"0")];
     ts_tops := [(toplevel 0 (TFunction false), (Node 0 [] (FunctionDecl {| f_name := $"m"; f_method := None; f_isDefinition := true; f_bodyLines := (3)%Z |} [] (Some (Node 1 [] (CompoundStmt []))))))];
     ts_locs := [(1,1,3,1); (1,10,3,1)]%Z;
     ts_evals := []; ts_same := []; ts_decls := []; ts_parents := [] |}.
Example LongLine_GetNumberOfCharactersForThreeLines_2_holds : nth_violation (shippedRule sh_LongLine) LongLine_GetNumberOfCharactersForThreeLines_2 1 = Some (2, 1, 2, 2, $"Line with 2 characters exceeds limit of 0")%Z.
Proof. vm_compute. reflexivity. Qed.

Definition LongLine_GetNumberOfCharactersForThreeLines_3 : testcase :=
  {| ts_lang := LC; ts_path := $"input.c"; ts_code := (source [$"void m() {"; $"  "; $"}"]);
     ts_comments := []; ts_conf := [($"LONG_LINE", $"0")];
     ts_tops := [(toplevel 0 (TFunction false), (Node 0 [] (FunctionDecl {| f_name := $"m"; f_method := None; f_isDefinition := true; f_bodyLines := (3)%Z |} [] (Some (Node 1 [] (CompoundStmt []))))))];
     ts_locs := [(1,1,3,1); (1,10,3,1)]%Z;
     ts_evals := []; ts_same := []; ts_decls := []; ts_parents := [] |}.
Example LongLine_GetNumberOfCharactersForThreeLines_3_holds : nth_violation (shippedRule sh_LongLine) LongLine_GetNumberOfCharactersForThreeLines_3 2 = Some (3, 1, 3, 1, $"Line with 1 characters exceeds limit of 0")%Z.
Proof. vm_compute. reflexivity. Qed.

(** ** oclint-rules/test/size/LongMethodRuleTest.cpp *)

Definition LongMethod_OneLine : testcase :=
  {| ts_lang := LC; ts_path := $"input.c"; ts_code := [];
     ts_comments := []; ts_conf := [($"LONG_METHOD", $"0")];
     ts_tops := [(toplevel 0 (TFunction false), (Node 0 [] (FunctionDecl {| f_name := $"aMethod"; f_method := None; f_isDefinition := true; f_bodyLines := (1)%Z |} [] (Some (Node 1 [] (CompoundStmt []))))))];
     ts_locs := [(1,1,1,18); (1,16,1,18)]%Z;
     ts_evals := []; ts_same := []; ts_decls := []; ts_parents := [] |}.
Example LongMethod_OneLine_holds : nth_violation (shippedRule sh_LongMethod) LongMethod_OneLine 0 = Some (1, 1, 1, 18, $"Method with 1 lines exceeds limit of 0")%Z.
Proof. vm_compute. reflexivity. Qed.

Definition LongMethod_OneLineWithoutBraces : testcase :=
  {| ts_lang := LCXX; ts_path := $"input.cpp"; ts_code := [];
     ts_comments := []; ts_conf := [($"LONG_METHOD", $"0")];
     ts_tops := [(toplevel 0 (TFunction false), (Node 0 [] (FunctionDecl {| f_name := $"aMethod"; f_method := None; f_isDefinition := true; f_bodyLines := (1)%Z |} [] (Some (Node 1 [] (CXXTryStmt (Node 2 [] (CompoundStmt [])) [(Node 3 [] (CXXCatchStmt None (Node 4 [] (CompoundStmt []))))]))))))];
     ts_locs := [(1,1,1,34); (1,16,1,34); (1,19,1,20); (1,22,1,34); (1,33,1,34)]%Z;
     ts_evals := []; ts_same := []; ts_decls := []; ts_parents := [] |}.
Example LongMethod_OneLineWithoutBraces_holds : nth_violation (shippedRule sh_LongMethod) LongMethod_OneLineWithoutBraces 0 = Some (1, 1, 1, 34, $"Method with 1 lines exceeds limit of 0")%Z.
Proof. vm_compute. reflexivity. Qed.

Definition LongMethod_TweLines : testcase :=
  {| ts_lang := LC; ts_path := $"input.c"; ts_code := [];
     ts_comments := []; ts_conf := [($"LONG_METHOD", $"0")];
     ts_tops := [(toplevel 0 (TFunction false), (Node 0 [] (FunctionDecl {| f_name := $"aMethod"; f_method := None; f_isDefinition := true; f_bodyLines := (2)%Z |} [] (Some (Node 1 [] (CompoundStmt []))))))];
     ts_locs := [(1,1,2,1); (1,16,2,1)]%Z;
     ts_evals := []; ts_same := []; ts_decls := []; ts_parents := [] |}.
Example LongMethod_TweLines_holds : nth_violation (shippedRule sh_LongMethod) LongMethod_TweLines 0 = Some (1, 1, 2, 1, $"Method with 2 lines exceeds limit of 0")%Z.
Proof. vm_compute. reflexivity. Qed.

(** ** oclint-rules/test/size/NPathComplexityRuleTest.cpp *)

Definition NPathComplexity_EmptyMethod : testcase :=
  {| ts_lang := LC; ts_path := $"input.c"; ts_code := [];
     ts_comments := []; ts_conf := [($"NPATH_COMPLEXITY", $"1")];
     ts_tops := [(toplevel 0 (TFunction false), (Node 0 [] (FunctionDecl {| f_name := $"mthd"; f_method := None; f_isDefinition := true; f_bodyLines := (1)%Z |} [] (Some (Node 1 [] (CompoundStmt []))))))];
     ts_locs := [(1,1,1,15); (1,13,1,15)]%Z;
     ts_evals := []; ts_same := []; ts_decls := []; ts_parents := [] |}.
Example NPathComplexity_EmptyMethod_holds : sorted_violations_of (shippedRule sh_NPathComplexity) NPathComplexity_EmptyMethod = Some [].
Proof. vm_compute. reflexivity. Qed.

Definition NPathComplexity_IfStmtWithConstantConditionAndEmptyThenCompoundStmt : testcase :=
  {| ts_lang := LC; ts_path := $"input.c"; ts_code := [];
     ts_comments := []; ts_conf := [($"NPATH_COMPLEXITY", $"1")];
     ts_tops := [(toplevel 0 (TFunction false), (Node 0 [] (FunctionDecl {| f_name := $"mthd"; f_method := None; f_isDefinition := true; f_bodyLines := (1)%Z |} [] (Some (Node 1 [] (CompoundStmt [(Node 2 [] (IfStmt [] (Node 3 [] (IntegerLiteral (1)%Z)) (Node 4 [] (CompoundStmt [])) None))]))))))];
     ts_locs := [(1,1,1,25); (1,13,1,25); (1,15,1,23); (1,19,1,19); (1,22,1,23)]%Z;
     ts_evals := [(3, true)]; ts_same := []; ts_decls := []; ts_parents := [] |}.
Example NPathComplexity_IfStmtWithConstantConditionAndEmptyThenCompoundStmt_holds : nth_violation (shippedRule sh_NPathComplexity) NPathComplexity_IfStmtWithConstantConditionAndEmptyThenCompoundStmt 0 = Some (1, 1, 1, 25, $"NPath Complexity Number 2 exceeds limit of 1")%Z.
Proof. vm_compute. reflexivity. Qed.

Definition NPathComplexity_IfStmtWithOneLogicAndOperatorConditionAndEmptyThenCompoundStmt : testcase :=
  {| ts_lang := LC; ts_path := $"input.c"; ts_code := [];
     ts_comments := []; ts_conf := [($"NPATH_COMPLEXITY", $"1")];
     ts_tops := [(toplevel 0 (TFunction false), (Node 0 [] (FunctionDecl {| f_name := $"mthd"; f_method := None; f_isDefinition := true; f_bodyLines := (1)%Z |} [] (Some (Node 1 [] (CompoundStmt [(Node 2 [] (IfStmt [] (Node 3 [] (BinaryOperator BO_LAnd (Node 4 [] (IntegerLiteral (1)%Z)) (Node 5 [] (IntegerLiteral (0)%Z)))) (Node 6 [] (CompoundStmt [])) None))]))))))];
     ts_locs := [(1,1,1,30); (1,13,1,30); (1,15,1,28); (1,19,1,24); (1,19,1,19); (1,24,1,24); (1,27,1,28)]%Z;
     ts_evals := [(3, false)]; ts_same := []; ts_decls := []; ts_parents := [] |}.
Example NPathComplexity_IfStmtWithOneLogicAndOperatorConditionAndEmptyThenCompoundStmt_holds : nth_violation (shippedRule sh_NPathComplexity) NPathComplexity_IfStmtWithOneLogicAndOperatorConditionAndEmptyThenCompoundStmt 0 = Some (1, 1, 1, 30, $"NPath Complexity Number 3 exceeds limit of 1")%Z.
Proof. vm_compute. reflexivity. Qed.

Definition NPathComplexity_IfStmtWithOneLogicOrOperatorConditionAndEmptyThenCompoundStmt : testcase :=
  {| ts_lang := LC; ts_path := $"input.c"; ts_code := [];
     ts_comments := []; ts_conf := [($"NPATH_COMPLEXITY", $"1")];
     ts_tops := [(toplevel 0 (TFunction false), (Node 0 [] (FunctionDecl {| f_name := $"mthd"; f_method := None; f_isDefinition := true; f_bodyLines := (1)%Z |} [] (Some (Node 1 [] (CompoundStmt [(Node 2 [] (IfStmt [] (Node 3 [] (BinaryOperator BO_LOr (Node 4 [] (IntegerLiteral (1)%Z)) (Node 5 [] (IntegerLiteral (0)%Z)))) (Node 6 [] (CompoundStmt [])) None))]))))))];
     ts_locs := [(1,1,1,30); (1,13,1,30); (1,15,1,28); (1,19,1,24); (1,19,1,19); (1,24,1,24); (1,27,1,28)]%Z;
     ts_evals := [(3, true)]; ts_same := []; ts_decls := []; ts_parents := [] |}.
Example NPathComplexity_IfStmtWithOneLogicOrOperatorConditionAndEmptyThenCompoundStmt_holds : nth_violation (shippedRule sh_NPathComplexity) NPathComplexity_IfStmtWithOneLogicOrOperatorConditionAndEmptyThenCompoundStmt 0 = Some (1, 1, 1, 30, $"NPath Complexity Number 3 exceeds limit of 1")%Z.
Proof. vm_compute. reflexivity. Qed.

Definition NPathComplexity_IfStmtWithMultipleLogicAndOrOperatorsConditionAndEmptyThenCompoundStmt : testcase :=
  {| ts_lang := LC; ts_path := $"input.c"; ts_code := [];
     ts_comments := []; ts_conf := [($"NPATH_COMPLEXITY", $"1")];
     ts_tops := [(toplevel 0 (TFunction false), (Node 0 [] (FunctionDecl {| f_name := $"mthd"; f_method := None; f_isDefinition := true; f_bodyLines := (1)%Z |} [] (Some (Node 1 [] (CompoundStmt [(Node 2 [] (IfStmt [] (Node 3 [] (BinaryOperator BO_LOr (Node 4 [] (IntegerLiteral (0)%Z)) (Node 5 [] (BinaryOperator BO_LAnd (Node 6 [] (IntegerLiteral (1)%Z)) (Node 7 [] (IntegerLiteral (0)%Z)))))) (Node 8 [] (CompoundStmt [])) None))]))))))];
     ts_locs := [(1,1,1,35); (1,13,1,35); (1,15,1,33); (1,19,1,29); (1,19,1,19); (1,24,1,29); (1,24,1,24); (1,29,1,29); (1,32,1,33)]%Z;
     ts_evals := [(3, false)]; ts_same := []; ts_decls := []; ts_parents := [] |}.
Example NPathComplexity_IfStmtWithMultipleLogicAndOrOperatorsConditionAndEmptyThenCompoundStmt_holds : nth_violation (shippedRule sh_NPathComplexity) NPathComplexity_IfStmtWithMultipleLogicAndOrOperatorsConditionAndEmptyThenCompoundStmt 0 = Some (1, 1, 1, 35, $"NPath Complexity Number 4 exceeds limit of 1")%Z.
Proof. vm_compute. reflexivity. Qed.

Definition NPathComplexity_IfElseStmtWithConstantConditionAndEmptyThenCompoundStmt : testcase :=
  {| ts_lang := LC; ts_path := $"input.c"; ts_code := [];
     ts_comments := []; ts_conf := [($"NPATH_COMPLEXITY", $"1")];
     ts_tops := [(toplevel 0 (TFunction false), (Node 0 [] (FunctionDecl {| f_name := $"mthd"; f_method := None; f_isDefinition := true; f_bodyLines := (1)%Z |} [] (Some (Node 1 [] (CompoundStmt [(Node 2 [] (IfStmt [] (Node 3 [] (IntegerLiteral (1)%Z)) (Node 4 [] (CompoundStmt [])) (Some (Node 5 [] (CompoundStmt [])))))]))))))];
     ts_locs := [(1,1,1,33); (1,13,1,33); (1,15,1,31); (1,19,1,19); (1,22,1,23); (1,30,1,31)]%Z;
     ts_evals := [(3, true)]; ts_same := []; ts_decls := []; ts_parents := [] |}.
Example NPathComplexity_IfElseStmtWithConstantConditionAndEmptyThenCompoundStmt_holds : nth_violation (shippedRule sh_NPathComplexity) NPathComplexity_IfElseStmtWithConstantConditionAndEmptyThenCompoundStmt 0 = Some (1, 1, 1, 33, $"NPath Complexity Number 2 exceeds limit of 1")%Z.
Proof. vm_compute. reflexivity. Qed.

Definition NPathComplexity_IfElseStmtWithOneLogicAndOperatorConditionAndEmptyThenCompoundStmt : testcase :=
  {| ts_lang := LC; ts_path := $"input.c"; ts_code := [];
     ts_comments := []; ts_conf := [($"NPATH_COMPLEXITY", $"1")];
     ts_tops := [(toplevel 0 (TFunction false), (Node 0 [] (FunctionDecl {| f_name := $"mthd"; f_method := None; f_isDefinition := true; f_bodyLines := (1)%Z |} [] (Some (Node 1 [] (CompoundStmt [(Node 2 [] (IfStmt [] (Node 3 [] (BinaryOperator BO_LAnd (Node 4 [] (IntegerLiteral (1)%Z)) (Node 5 [] (IntegerLiteral (0)%Z)))) (Node 6 [] (CompoundStmt [])) (Some (Node 7 [] (CompoundStmt [])))))]))))))];
     ts_locs := [(1,1,1,38); (1,13,1,38); (1,15,1,36); (1,19,1,24); (1,19,1,19); (1,24,1,24); (1,27,1,28); (1,35,1,36)]%Z;
     ts_evals := [(3, false)]; ts_same := []; ts_decls := []; ts_parents := [] |}.
Example NPathComplexity_IfElseStmtWithOneLogicAndOperatorConditionAndEmptyThenCompoundStmt_holds : nth_violation (shippedRule sh_NPathComplexity) NPathComplexity_IfElseStmtWithOneLogicAndOperatorConditionAndEmptyThenCompoundStmt 0 = Some (1, 1, 1, 38, $"NPath Complexity Number 3 exceeds limit of 1")%Z.
Proof. vm_compute. reflexivity. Qed.

Definition NPathComplexity_IfElseStmtWithOneLogicOrOperatorConditionAndEmptyThenCompoundStmt : testcase :=
  {| ts_lang := LC; ts_path := $"input.c"; ts_code := [];
     ts_comments := []; ts_conf := [($"NPATH_COMPLEXITY", $"1")];
     ts_tops := [(toplevel 0 (TFunction false), (Node 0 [] (FunctionDecl {| f_name := $"mthd"; f_method := None; f_isDefinition := true; f_bodyLines := (1)%Z |} [] (Some (Node 1 [] (CompoundStmt [(Node 2 [] (IfStmt [] (Node 3 [] (BinaryOperator BO_LOr (Node 4 [] (IntegerLiteral (1)%Z)) (Node 5 [] (IntegerLiteral (0)%Z)))) (Node 6 [] (CompoundStmt [])) (Some (Node 7 [] (CompoundStmt [])))))]))))))];
     ts_locs := [(1,1,1,38); (1,13,1,38); (1,15,1,36); (1,19,1,24); (1,19,1,19); (1,24,1,24); (1,27,1,28); (1,35,1,36)]%Z;
     ts_evals := [(3, true)]; ts_same := []; ts_decls := []; ts_parents := [] |}.
Example NPathComplexity_IfElseStmtWithOneLogicOrOperatorConditionAndEmptyThenCompoundStmt_holds : nth_violation (shippedRule sh_NPathComplexity) NPathComplexity_IfElseStmtWithOneLogicOrOperatorConditionAndEmptyThenCompoundStmt 0 = Some (1, 1, 1, 38, $"NPath Complexity Number 3 exceeds limit of 1")%Z.
Proof. vm_compute. reflexivity. Qed.

Definition NPathComplexity_IfElseStmtWithMultipleLogicAndOrOperatorsConditionAndEmptyThenCompoundStmt : testcase :=
  {| ts_lang := LC; ts_path := $"input.c"; ts_code := [];
     ts_comments := []; ts_conf := [($"NPATH_COMPLEXITY", $"1")];
     ts_tops := [(toplevel 0 (TFunction false), (Node 0 [] (FunctionDecl {| f_name := $"mthd"; f_method := None; f_isDefinition := true; f_bodyLines := (1)%Z |} [] (Some (Node 1 [] (CompoundStmt [(Node 2 [] (IfStmt [] (Node 3 [] (BinaryOperator BO_LOr (Node 4 [] (IntegerLiteral (0)%Z)) (Node 5 [] (BinaryOperator BO_LAnd (Node 6 [] (IntegerLiteral (1)%Z)) (Node 7 [] (IntegerLiteral (0)%Z)))))) (Node 8 [] (CompoundStmt [])) (Some (Node 9 [] (CompoundStmt [])))))]))))))];
     ts_locs := [(1,1,1,43); (1,13,1,43); (1,15,1,41); (1,19,1,29); (1,19,1,19); (1,24,1,29); (1,24,1,24); (1,29,1,29); (1,32,1,33); (1,40,1,41)]%Z;
     ts_evals := [(3, false)]; ts_same := []; ts_decls := []; ts_parents := [] |}.
Example NPathComplexity_IfElseStmtWithMultipleLogicAndOrOperatorsConditionAndEmptyThenCompoundStmt_holds : nth_violation (shippedRule sh_NPathComplexity) NPathComplexity_IfElseStmtWithMultipleLogicAndOrOperatorsConditionAndEmptyThenCompoundStmt 0 = Some (1, 1, 1, 43, $"NPath Complexity Number 4 exceeds limit of 1")%Z.
Proof. vm_compute. reflexivity. Qed.

Definition NPathComplexity_NestedIfStmt : testcase :=
  {| ts_lang := LC; ts_path := $"input.c"; ts_code := [];
     ts_comments := []; ts_conf := [($"NPATH_COMPLEXITY", $"1")];
     ts_tops := [(toplevel 0 (TFunction false), (Node 0 [] (FunctionDecl {| f_name := $"mthd"; f_method := None; f_isDefinition := true; f_bodyLines := (1)%Z |} [] (Some (Node 1 [] (CompoundStmt [(Node 2 [] (IfStmt [] (Node 3 [] (IntegerLiteral (1)%Z)) (Node 4 [] (CompoundStmt [(Node 5 [] (IfStmt [] (Node 6 [] (IntegerLiteral (1)%Z)) (Node 7 [] (CompoundStmt [])) None))])) None))]))))))];
     ts_locs := [(1,1,1,36); (1,13,1,36); (1,15,1,34); (1,19,1,19); (1,22,1,34); (1,24,1,32); (1,28,1,28); (1,31,1,32)]%Z;
     ts_evals := [(3, true); (6, true)]; ts_same := []; ts_decls := []; ts_parents := [] |}.
Example NPathComplexity_NestedIfStmt_holds : nth_violation (shippedRule sh_NPathComplexity) NPathComplexity_NestedIfStmt 0 = Some (1, 1, 1, 36, $"NPath Complexity Number 3 exceeds limit of 1")%Z.
Proof. vm_compute. reflexivity. Qed.

Definition NPathComplexity_NestedIfElseStmt : testcase :=
  {| ts_lang := LC; ts_path := $"input.c"; ts_code := [];
     ts_comments := []; ts_conf := [($"NPATH_COMPLEXITY", $"1")];
     ts_tops := [(toplevel 0 (TFunction false), (Node 0 [] (FunctionDecl {| f_name := $"mthd"; f_method := None; f_isDefinition := true; f_bodyLines := (1)%Z |} [] (Some (Node 1 [] (CompoundStmt [(Node 2 [] (IfStmt [] (Node 3 [] (IntegerLiteral (1)%Z)) (Node 4 [] (CompoundStmt [(Node 5 [] (IfStmt [] (Node 6 [] (IntegerLiteral (1)%Z)) (Node 7 [] (CompoundStmt [])) (Some (Node 8 [] (CompoundStmt [])))))])) (Some (Node 9 [] (CompoundStmt [(Node 10 [] (IfStmt [] (Node 11 [] (IntegerLiteral (1)%Z)) (Node 12 [] (CompoundStmt [])) (Some (Node 13 [] (CompoundStmt [])))))])))))]))))))];
     ts_locs := [(1,1,1,71); (1,13,1,71); (1,15,1,69); (1,19,1,19); (1,22,1,42); (1,24,1,40); (1,28,1,28); (1,31,1,32); (1,39,1,40); (1,49,1,69); (1,51,1,67); (1,55,1,55); (1,58,1,59); (1,66,1,67)]%Z;
     ts_evals := [(3, true); (6, true); (11, true)]; ts_same := []; ts_decls := []; ts_parents := [] |}.
Example NPathComplexity_NestedIfElseStmt_holds : nth_violation (shippedRule sh_NPathComplexity) NPathComplexity_NestedIfElseStmt 0 = Some (1, 1, 1, 71, $"NPath Complexity Number 4 exceeds limit of 1")%Z.
Proof. vm_compute. reflexivity. Qed.

Definition NPathComplexity_WhileStmtWithConstantConditionAndEmptyCompoundStmt : testcase :=
  {| ts_lang := LC; ts_path := $"input.c"; ts_code := [];
     ts_comments := []; ts_conf := [($"NPATH_COMPLEXITY", $"1")];
     ts_tops := [(toplevel 0 (TFunction false), (Node 0 [] (FunctionDecl {| f_name := $"mthd"; f_method := None; f_isDefinition := true; f_bodyLines := (1)%Z |} [] (Some (Node 1 [] (CompoundStmt [(Node 2 [] (WhileStmt [] (Node 3 [] (IntegerLiteral (1)%Z)) (Node 4 [] (CompoundStmt []))))]))))))];
     ts_locs := [(1,1,1,28); (1,13,1,28); (1,15,1,26); (1,22,1,22); (1,25,1,26)]%Z;
     ts_evals := []; ts_same := []; ts_decls := []; ts_parents := [] |}.
Example NPathComplexity_WhileStmtWithConstantConditionAndEmptyCompoundStmt_holds : nth_violation (shippedRule sh_NPathComplexity) NPathComplexity_WhileStmtWithConstantConditionAndEmptyCompoundStmt 0 = Some (1, 1, 1, 28, $"NPath Complexity Number 2 exceeds limit of 1")%Z.
Proof. vm_compute. reflexivity. Qed.

Definition NPathComplexity_WhileStmtWithOneLogicAndOperatorConditionAndEmptyCompoundStmt : testcase :=
  {| ts_lang := LC; ts_path := $"input.c"; ts_code := [];
     ts_comments := []; ts_conf := [($"NPATH_COMPLEXITY", $"1")];
     ts_tops := [(toplevel 0 (TFunction false), (Node 0 [] (FunctionDecl {| f_name := $"mthd"; f_method := None; f_isDefinition := true; f_bodyLines := (1)%Z |} [] (Some (Node 1 [] (CompoundStmt [(Node 2 [] (WhileStmt [] (Node 3 [] (BinaryOperator BO_LAnd (Node 4 [] (IntegerLiteral (1)%Z)) (Node 5 [] (IntegerLiteral (0)%Z)))) (Node 6 [] (CompoundStmt []))))]))))))];
     ts_locs := [(1,1,1,33); (1,13,1,33); (1,15,1,31); (1,22,1,27); (1,22,1,22); (1,27,1,27); (1,30,1,31)]%Z;
     ts_evals := []; ts_same := []; ts_decls := []; ts_parents := [] |}.
Example NPathComplexity_WhileStmtWithOneLogicAndOperatorConditionAndEmptyCompoundStmt_holds : nth_violation (shippedRule sh_NPathComplexity) NPathComplexity_WhileStmtWithOneLogicAndOperatorConditionAndEmptyCompoundStmt 0 = Some (1, 1, 1, 33, $"NPath Complexity Number 3 exceeds limit of 1")%Z.
Proof. vm_compute. reflexivity. Qed.

Definition NPathComplexity_WhileStmtWithOneLogicOrOperatorConditionAndEmptyCompoundStmt : testcase :=
  {| ts_lang := LC; ts_path := $"input.c"; ts_code := [];
     ts_comments := []; ts_conf := [($"NPATH_COMPLEXITY", $"1")];
     ts_tops := [(toplevel 0 (TFunction false), (Node 0 [] (FunctionDecl {| f_name := $"mthd"; f_method := None; f_isDefinition := true; f_bodyLines := (1)%Z |} [] (Some (Node 1 [] (CompoundStmt [(Node 2 [] (WhileStmt [] (Node 3 [] (BinaryOperator BO_LOr (Node 4 [] (IntegerLiteral (1)%Z)) (Node 5 [] (IntegerLiteral (0)%Z)))) (Node 6 [] (CompoundStmt []))))]))))))];
     ts_locs := [(1,1,1,33); (1,13,1,33); (1,15,1,31); (1,22,1,27); (1,22,1,22); (1,27,1,27); (1,30,1,31)]%Z;
     ts_evals := []; ts_same := []; ts_decls := []; ts_parents := [] |}.
Example NPathComplexity_WhileStmtWithOneLogicOrOperatorConditionAndEmptyCompoundStmt_holds : nth_violation (shippedRule sh_NPathComplexity) NPathComplexity_WhileStmtWithOneLogicOrOperatorConditionAndEmptyCompoundStmt 0 = Some (1, 1, 1, 33, $"NPath Complexity Number 3 exceeds limit of 1")%Z.
Proof. vm_compute. reflexivity. Qed.

Definition NPathComplexity_DoWhileStmtWithConstantConditionAndEmptyCompoundStmt : testcase :=
  {| ts_lang := LC; ts_path := $"input.c"; ts_code := [];
     ts_comments := []; ts_conf := [($"NPATH_COMPLEXITY", $"1")];
     ts_tops := [(toplevel 0 (TFunction false), (Node 0 [] (FunctionDecl {| f_name := $"mthd"; f_method := None; f_isDefinition := true; f_bodyLines := (1)%Z |} [] (Some (Node 1 [] (CompoundStmt [(Node 2 [] (DoStmt (Node 3 [] (CompoundStmt [])) (Node 4 [] (IntegerLiteral (1)%Z))))]))))))];
     ts_locs := [(1,1,1,32); (1,13,1,32); (1,15,1,29); (1,18,1,19); (1,28,1,28)]%Z;
     ts_evals := []; ts_same := []; ts_decls := []; ts_parents := [] |}.
Example NPathComplexity_DoWhileStmtWithConstantConditionAndEmptyCompoundStmt_holds : nth_violation (shippedRule sh_NPathComplexity) NPathComplexity_DoWhileStmtWithConstantConditionAndEmptyCompoundStmt 0 = Some (1, 1, 1, 32, $"NPath Complexity Number 2 exceeds limit of 1")%Z.
Proof. vm_compute. reflexivity. Qed.

Definition NPathComplexity_DoWhileStmtWithOneLogicAndOperatorConditionAndEmptyCompoundStmt : testcase :=
  {| ts_lang := LC; ts_path := $"input.c"; ts_code := [];
     ts_comments := []; ts_conf := [($"NPATH_COMPLEXITY", $"1")];
     ts_tops := [(toplevel 0 (TFunction false), (Node 0 [] (FunctionDecl {| f_name := $"mthd"; f_method := None; f_isDefinition := true; f_bodyLines := (1)%Z |} [] (Some (Node 1 [] (CompoundStmt [(Node 2 [] (DoStmt (Node 3 [] (CompoundStmt [])) (Node 4 [] (BinaryOperator BO_LAnd (Node 5 [] (IntegerLiteral (1)%Z)) (Node 6 [] (IntegerLiteral (0)%Z))))))]))))))];
     ts_locs := [(1,1,1,37); (1,13,1,37); (1,15,1,34); (1,18,1,19); (1,28,1,33); (1,28,1,28); (1,33,1,33)]%Z;
     ts_evals := []; ts_same := []; ts_decls := []; ts_parents := [] |}.
Example NPathComplexity_DoWhileStmtWithOneLogicAndOperatorConditionAndEmptyCompoundStmt_holds : nth_violation (shippedRule sh_NPathComplexity) NPathComplexity_DoWhileStmtWithOneLogicAndOperatorConditionAndEmptyCompoundStmt 0 = Some (1, 1, 1, 37, $"NPath Complexity Number 3 exceeds limit of 1")%Z.
Proof. vm_compute. reflexivity. Qed.

Definition NPathComplexity_DoWhileStmtWithOneLogicOrOperatorConditionAndEmptyCompoundStmt : testcase :=
  {| ts_lang := LC; ts_path := $"input.c"; ts_code := [];
     ts_comments := []; ts_conf := [($"NPATH_COMPLEXITY", $"1")];
     ts_tops := [(toplevel 0 (TFunction false), (Node 0 [] (FunctionDecl {| f_name := $"mthd"; f_method := None; f_isDefinition := true; f_bodyLines := (1)%Z |} [] (Some (Node 1 [] (CompoundStmt [(Node 2 [] (DoStmt (Node 3 [] (CompoundStmt [])) (Node 4 [] (BinaryOperator BO_LOr (Node 5 [] (IntegerLiteral (1)%Z)) (Node 6 [] (IntegerLiteral (0)%Z))))))]))))))];
     ts_locs := [(1,1,1,37); (1,13,1,37); (1,15,1,34); (1,18,1,19); (1,28,1,33); (1,28,1,28); (1,33,1,33)]%Z;
     ts_evals := []; ts_same := []; ts_decls := []; ts_parents := [] |}.
Example NPathComplexity_DoWhileStmtWithOneLogicOrOperatorConditionAndEmptyCompoundStmt_holds : nth_violation (shippedRule sh_NPathComplexity) NPathComplexity_DoWhileStmtWithOneLogicOrOperatorConditionAndEmptyCompoundStmt 0 = Some (1, 1, 1, 37, $"NPath Complexity Number 3 exceeds limit of 1")%Z.
Proof. vm_compute. reflexivity. Qed.

Definition NPathComplexity_ForStmtWithSimpleConditionAndEmptyCompoundStmt : testcase :=
  {| ts_lang := LC; ts_path := $"input.c"; ts_code := [];
     ts_comments := []; ts_conf := [($"NPATH_COMPLEXITY", $"1")];
     ts_tops := [(toplevel 0 (TFunction false), (Node 0 [] (FunctionDecl {| f_name := $"mthd"; f_method := None; f_isDefinition := true; f_bodyLines := (1)%Z |} [] (Some (Node 1 [] (CompoundStmt [(Node 2 [] (ForStmt (Some (Node 3 [] (DeclStmt [(Node 4 [] (VarDecl {| v_isParm := false; v_name := $"i"; v_used := true; v_referenced := true; v_local := true; v_staticMember := false; v_private := false; v_unusedAttr := false; v_defaultArg := false; v_canonicalType := $"int"; v_inTemplate := false; v_contexts := [CxFunction true true false] |} (Some (Node 5 [] (IntegerLiteral (0)%Z)))))]))) [] (Some (Node 6 [] (BinaryOperator BO_Other (Node 7 [] (ImplicitCastExpr CK_LValueToRValue (Node 8 [] (DeclRefExpr 4 $"i" false)))) (Node 9 [] (IntegerLiteral (1)%Z))))) (Some (Node 10 [] (UnaryOperator UO_Other (Node 11 [] (DeclRefExpr 4 $"i" false))))) (Node 12 [] (CompoundStmt []))))]))))))];
     ts_locs := [(1,1,1,46); (1,13,1,46); (1,15,1,44); (1,20,1,29); (1,20,1,28); (1,28,1,28); (1,31,1,35); (1,31,1,31); (1,31,1,31); (1,35,1,35); (1,38,1,39); (1,38,1,38); (1,43,1,44)]%Z;
     ts_evals := []; ts_same := []; ts_decls := []; ts_parents := [] |}.
Example NPathComplexity_ForStmtWithSimpleConditionAndEmptyCompoundStmt_holds : nth_violation (shippedRule sh_NPathComplexity) NPathComplexity_ForStmtWithSimpleConditionAndEmptyCompoundStmt 0 = Some (1, 1, 1, 46, $"NPath Complexity Number 3 exceeds limit of 1")%Z.
Proof. vm_compute. reflexivity. Qed.

Definition NPathComplexity_ForStmtWithOneLogicAndOperatorConditionAndEmptyCompoundStmt : testcase :=
  {| ts_lang := LC; ts_path := $"input.c"; ts_code := [];
     ts_comments := []; ts_conf := [($"NPATH_COMPLEXITY", $"1")];
     ts_tops := [(toplevel 0 (TFunction false), (Node 0 [] (FunctionDecl {| f_name := $"mthd"; f_method := None; f_isDefinition := true; f_bodyLines := (1)%Z |} [] (Some (Node 1 [] (CompoundStmt [(Node 2 [] (ForStmt (Some (Node 3 [] (DeclStmt [(Node 4 [] (VarDecl {| v_isParm := false; v_name := $"i"; v_used := true; v_referenced := true; v_local := true; v_staticMember := false; v_private := false; v_unusedAttr := false; v_defaultArg := false; v_canonicalType := $"int"; v_inTemplate := false; v_contexts := [CxFunction true true false] |} (Some (Node 5 [] (IntegerLiteral (0)%Z)))))]))) [] (Some (Node 6 [] (BinaryOperator BO_LAnd (Node 7 [] (BinaryOperator BO_Other (Node 8 [] (ImplicitCastExpr CK_LValueToRValue (Node 9 [] (DeclRefExpr 4 $"i" false)))) (Node 10 [] (IntegerLiteral (1)%Z)))) (Node 11 [] (IntegerLiteral (0)%Z))))) (Some (Node 12 [] (UnaryOperator UO_Other (Node 13 [] (DeclRefExpr 4 $"i" false))))) (Node 14 [] (CompoundStmt []))))]))))))];
     ts_locs := [(1,1,1,51); (1,13,1,51); (1,15,1,49); (1,20,1,29); (1,20,1,28); (1,28,1,28); (1,31,1,40); (1,31,1,35); (1,31,1,31); (1,31,1,31); (1,35,1,35); (1,40,1,40); (1,43,1,44); (1,43,1,43); (1,48,1,49)]%Z;
     ts_evals := []; ts_same := []; ts_decls := []; ts_parents := [] |}.
Example NPathComplexity_ForStmtWithOneLogicAndOperatorConditionAndEmptyCompoundStmt_holds : nth_violation (shippedRule sh_NPathComplexity) NPathComplexity_ForStmtWithOneLogicAndOperatorConditionAndEmptyCompoundStmt 0 = Some (1, 1, 1, 51, $"NPath Complexity Number 4 exceeds limit of 1")%Z.
Proof. vm_compute. reflexivity. Qed.

Definition NPathComplexity_ObjCForeachStmtWithEmptyCompoundStmt : testcase :=
  {| ts_lang := LObjC; ts_path := $"input.m"; ts_code := [];
     ts_comments := []; ts_conf := [($"NPATH_COMPLEXITY", $"1")];
     ts_tops := [(toplevel 0 (TFunction false), (Node 0 [] (FunctionDecl {| f_name := $"mthd"; f_method := None; f_isDefinition := true; f_bodyLines := (1)%Z |} [] (Some (Node 1 [] (CompoundStmt [(Node 2 [] (DeclStmt [(Node 3 [] (VarDecl {| v_isParm := false; v_name := $"anArray"; v_used := true; v_referenced := true; v_local := true; v_staticMember := false; v_private := false; v_unusedAttr := false; v_defaultArg := false; v_canonicalType := $"struct objc_object *"; v_inTemplate := false; v_contexts := [CxFunction true true false] |} None))])); (Node 4 [] (ObjCForCollectionStmt (Node 5 [] (DeclStmt [(Node 6 [] (VarDecl {| v_isParm := false; v_name := $"it"; v_used := false; v_referenced := false; v_local := true; v_staticMember := false; v_private := false; v_unusedAttr := false; v_defaultArg := false; v_canonicalType := $"struct objc_object *"; v_inTemplate := false; v_contexts := [CxFunction true true false] |} None))])) (Node 7 $"id" (ImplicitCastExpr CK_LValueToRValue (Node 8 $"id" (DeclRefExpr 3 $"anArray" false)))) (Node 9 [] (CompoundStmt []))))]))))))];
     ts_locs := [(1,1,1,53); (1,13,1,53); (1,15,1,25); (1,15,1,18); (1,27,1,51); (1,32,1,35); (1,32,1,35); (1,41,1,41); (1,41,1,41); (1,50,1,51)]%Z;
     ts_evals := []; ts_same := []; ts_decls := []; ts_parents := [] |}.
Example NPathComplexity_ObjCForeachStmtWithEmptyCompoundStmt_holds : nth_violation (shippedRule sh_NPathComplexity) NPathComplexity_ObjCForeachStmtWithEmptyCompoundStmt 0 = Some (1, 1, 1, 53, $"NPath Complexity Number 3 exceeds limit of 1")%Z.
Proof. vm_compute. reflexivity. Qed.

Definition NPathComplexity_ObjCForeachStmtWithCompoundStmtWithIfStmt : testcase :=
  {| ts_lang := LObjC; ts_path := $"input.m"; ts_code := [];
     ts_comments := []; ts_conf := [($"NPATH_COMPLEXITY", $"1")];
     ts_tops := [(toplevel 0 (TFunction false), (Node 0 [] (FunctionDecl {| f_name := $"mthd"; f_method := None; f_isDefinition := true; f_bodyLines := (1)%Z |} [] (Some (Node 1 [] (CompoundStmt [(Node 2 [] (DeclStmt [(Node 3 [] (VarDecl {| v_isParm := false; v_name := $"anArray"; v_used := true; v_referenced := true; v_local := true; v_staticMember := false; v_private := false; v_unusedAttr := false; v_defaultArg := false; v_canonicalType := $"struct objc_object *"; v_inTemplate := false; v_contexts := [CxFunction true true false] |} None))])); (Node 4 [] (ObjCForCollectionStmt (Node 5 [] (DeclStmt [(Node 6 [] (VarDecl {| v_isParm := false; v_name := $"it"; v_used := false; v_referenced := false; v_local := true; v_staticMember := false; v_private := false; v_unusedAttr := false; v_defaultArg := false; v_canonicalType := $"struct objc_object *"; v_inTemplate := false; v_contexts := [CxFunction true true false] |} None))])) (Node 7 $"id" (ImplicitCastExpr CK_LValueToRValue (Node 8 $"id" (DeclRefExpr 3 $"anArray" false)))) (Node 9 [] (CompoundStmt [(Node 10 [] (IfStmt [] (Node 11 $"int" (IntegerLiteral (1)%Z)) (Node 12 [] (CompoundStmt [])) None))]))))]))))))];
     ts_locs := [(1,1,1,64); (1,13,1,64); (1,15,1,25); (1,15,1,18); (1,27,1,62); (1,32,1,35); (1,32,1,35); (1,41,1,41); (1,41,1,41); (1,50,1,62); (1,52,1,60); (1,56,1,56); (1,59,1,60)]%Z;
     ts_evals := [(11, true)]; ts_same := []; ts_decls := []; ts_parents := [] |}.
Example NPathComplexity_ObjCForeachStmtWithCompoundStmtWithIfStmt_holds : nth_violation (shippedRule sh_NPathComplexity) NPathComplexity_ObjCForeachStmtWithCompoundStmtWithIfStmt 0 = Some (1, 1, 1, 64, $"NPath Complexity Number 4 exceeds limit of 1")%Z.
Proof. vm_compute. reflexivity. Qed.

Definition NPathComplexity_SwitchStmtWithSimpleConditionAndEmptyBody : testcase :=
  {| ts_lang := LC; ts_path := $"input.c"; ts_code := [];
     ts_comments := []; ts_conf := [($"NPATH_COMPLEXITY", $"1")];
     ts_tops := [(toplevel 0 (TFunction false), (Node 0 [] (FunctionDecl {| f_name := $"mthd"; f_method := None; f_isDefinition := true; f_bodyLines := (1)%Z |} [] (Some (Node 1 [] (CompoundStmt [(Node 2 [] (DeclStmt [(Node 3 [] (VarDecl {| v_isParm := false; v_name := $"i"; v_used := true; v_referenced := true; v_local := true; v_staticMember := false; v_private := false; v_unusedAttr := false; v_defaultArg := false; v_canonicalType := $"int"; v_inTemplate := false; v_contexts := [CxFunction true true false] |} None))])); (Node 4 [] (SwitchStmt [] (Node 5 [] (ImplicitCastExpr CK_LValueToRValue (Node 6 [] (DeclRefExpr 3 $"i" false)))) (Node 7 [] (CompoundStmt [])) false))]))))))];
     ts_locs := [(1,1,1,36); (1,13,1,36); (1,15,1,20); (1,15,1,19); (1,22,1,34); (1,30,1,30); (1,30,1,30); (1,33,1,34)]%Z;
     ts_evals := []; ts_same := []; ts_decls := []; ts_parents := [] |}.
Example NPathComplexity_SwitchStmtWithSimpleConditionAndEmptyBody_holds : sorted_violations_of (shippedRule sh_NPathComplexity) NPathComplexity_SwitchStmtWithSimpleConditionAndEmptyBody = Some [].
Proof. vm_compute. reflexivity. Qed.

Definition NPathComplexity_SwitchStmtWithSimpleConditionAndOneCase : testcase :=
  {| ts_lang := LC; ts_path := $"input.c"; ts_code := [];
     ts_comments := []; ts_conf := [($"NPATH_COMPLEXITY", $"1")];
     ts_tops := [(toplevel 0 (TFunction false), (Node 0 [] (FunctionDecl {| f_name := $"mthd"; f_method := None; f_isDefinition := true; f_bodyLines := (1)%Z |} [] (Some (Node 1 [] (CompoundStmt [(Node 2 [] (DeclStmt [(Node 3 [] (VarDecl {| v_isParm := false; v_name := $"i"; v_used := true; v_referenced := true; v_local := true; v_staticMember := false; v_private := false; v_unusedAttr := false; v_defaultArg := false; v_canonicalType := $"int"; v_inTemplate := false; v_contexts := [CxFunction true true false] |} None))])); (Node 4 [] (SwitchStmt [] (Node 5 [] (ImplicitCastExpr CK_LValueToRValue (Node 6 [] (DeclRefExpr 3 $"i" false)))) (Node 7 [] (CompoundStmt [(Node 8 [] (CaseStmt (Node 9 [] (OtherExpr [(Node 10 [] (IntegerLiteral (1)%Z))])) (Node 11 [] BreakStmt)))])) false))]))))))];
     ts_locs := [(1,1,1,52); (1,13,1,52); (1,15,1,20); (1,15,1,19); (1,22,1,50); (1,30,1,30); (1,30,1,30); (1,33,1,50); (1,35,1,43); (1,40,1,40); (1,40,1,40); (1,43,1,43)]%Z;
     ts_evals := []; ts_same := []; ts_decls := []; ts_parents := [] |}.
Example NPathComplexity_SwitchStmtWithSimpleConditionAndOneCase_holds : sorted_violations_of (shippedRule sh_NPathComplexity) NPathComplexity_SwitchStmtWithSimpleConditionAndOneCase = Some [].
Proof. vm_compute. reflexivity. Qed.

Definition NPathComplexity_SwitchStmtWithSimpleConditionAndOneCaseOneDefault : testcase :=
  {| ts_lang := LC; ts_path := $"input.c"; ts_code := [];
     ts_comments := []; ts_conf := [($"NPATH_COMPLEXITY", $"1")];
     ts_tops := [(toplevel 0 (TFunction false), (Node 0 [] (FunctionDecl {| f_name := $"mthd"; f_method := None; f_isDefinition := true; f_bodyLines := (1)%Z |} [] (Some (Node 1 [] (CompoundStmt [(Node 2 [] (DeclStmt [(Node 3 [] (VarDecl {| v_isParm := false; v_name := $"i"; v_used := true; v_referenced := true; v_local := true; v_staticMember := false; v_private := false; v_unusedAttr := false; v_defaultArg := false; v_canonicalType := $"int"; v_inTemplate := false; v_contexts := [CxFunction true true false] |} None))])); (Node 4 [] (SwitchStmt [] (Node 5 [] (ImplicitCastExpr CK_LValueToRValue (Node 6 [] (DeclRefExpr 3 $"i" false)))) (Node 7 [] (CompoundStmt [(Node 8 [] (CaseStmt (Node 9 [] (OtherExpr [(Node 10 [] (IntegerLiteral (1)%Z))])) (Node 11 [] BreakStmt))); (Node 12 [] (DefaultStmt (Node 13 [] BreakStmt)))])) false))]))))))];
     ts_locs := [(1,1,1,68); (1,13,1,68); (1,15,1,20); (1,15,1,19); (1,22,1,66); (1,30,1,30); (1,30,1,30); (1,33,1,66); (1,35,1,43); (1,40,1,40); (1,40,1,40); (1,43,1,43); (1,50,1,59); (1,59,1,59)]%Z;
     ts_evals := []; ts_same := []; ts_decls := []; ts_parents := [] |}.
Example NPathComplexity_SwitchStmtWithSimpleConditionAndOneCaseOneDefault_holds : nth_violation (shippedRule sh_NPathComplexity) NPathComplexity_SwitchStmtWithSimpleConditionAndOneCaseOneDefault 0 = Some (1, 1, 1, 68, $"NPath Complexity Number 2 exceeds limit of 1")%Z.
Proof. vm_compute. reflexivity. Qed.

Definition NPathComplexity_SwitchStmtWithSimpleConditionAndTwoCasesOneDefault : testcase :=
  {| ts_lang := LC; ts_path := $"input.c"; ts_code := [];
     ts_comments := []; ts_conf := [($"NPATH_COMPLEXITY", $"1")];
     ts_tops := [(toplevel 0 (TFunction false), (Node 0 [] (FunctionDecl {| f_name := $"mthd"; f_method := None; f_isDefinition := true; f_bodyLines := (1)%Z |} [] (Some (Node 1 [] (CompoundStmt [(Node 2 [] (DeclStmt [(Node 3 [] (VarDecl {| v_isParm := false; v_name := $"i"; v_used := true; v_referenced := true; v_local := true; v_staticMember := false; v_private := false; v_unusedAttr := false; v_defaultArg := false; v_canonicalType := $"int"; v_inTemplate := false; v_contexts := [CxFunction true true false] |} None))])); (Node 4 [] (SwitchStmt [] (Node 5 [] (ImplicitCastExpr CK_LValueToRValue (Node 6 [] (DeclRefExpr 3 $"i" false)))) (Node 7 [] (CompoundStmt [(Node 8 [] (CaseStmt (Node 9 [] (OtherExpr [(Node 10 [] (IntegerLiteral (1)%Z))])) (Node 11 [] BreakStmt))); (Node 12 [] (CaseStmt (Node 13 [] (OtherExpr [(Node 14 [] (IntegerLiteral (2)%Z))])) (Node 15 [] BreakStmt))); (Node 16 [] (DefaultStmt (Node 17 [] BreakStmt)))])) false))]))))))];
     ts_locs := [(1,1,1,83); (1,13,1,83); (1,15,1,20); (1,15,1,19); (1,22,1,81); (1,30,1,30); (1,30,1,30); (1,33,1,81); (1,35,1,43); (1,40,1,40); (1,40,1,40); (1,43,1,43); (1,50,1,58); (1,55,1,55); (1,55,1,55); (1,58,1,58); (1,65,1,74); (1,74,1,74)]%Z;
     ts_evals := []; ts_same := []; ts_decls := []; ts_parents := [] |}.
Example NPathComplexity_SwitchStmtWithSimpleConditionAndTwoCasesOneDefault_holds : nth_violation (shippedRule sh_NPathComplexity) NPathComplexity_SwitchStmtWithSimpleConditionAndTwoCasesOneDefault 0 = Some (1, 1, 1, 83, $"NPath Complexity Number 3 exceeds limit of 1")%Z.
Proof. vm_compute. reflexivity. Qed.

Definition NPathComplexity_SwitchStmtWithSimpleConditionAndOneCaseOneIfOneDefault : testcase :=
  {| ts_lang := LC; ts_path := $"input.c"; ts_code := [];
     ts_comments := []; ts_conf := [($"NPATH_COMPLEXITY", $"1")];
     ts_tops := [(toplevel 0 (TFunction false), (Node 0 [] (FunctionDecl {| f_name := $"mthd"; f_method := None; f_isDefinition := true; f_bodyLines := (1)%Z |} [] (Some (Node 1 [] (CompoundStmt [(Node 2 [] (DeclStmt [(Node 3 [] (VarDecl {| v_isParm := false; v_name := $"i"; v_used := true; v_referenced := true; v_local := true; v_staticMember := false; v_private := false; v_unusedAttr := false; v_defaultArg := false; v_canonicalType := $"int"; v_inTemplate := false; v_contexts := [CxFunction true true false] |} None))])); (Node 4 [] (SwitchStmt [] (Node 5 [] (ImplicitCastExpr CK_LValueToRValue (Node 6 [] (DeclRefExpr 3 $"i" false)))) (Node 7 [] (CompoundStmt [(Node 8 [] (CaseStmt (Node 9 [] (OtherExpr [(Node 10 [] (IntegerLiteral (1)%Z))])) (Node 11 [] BreakStmt))); (Node 12 [] (IfStmt [] (Node 13 [] (BinaryOperator BO_LAnd (Node 14 [] (BinaryOperator BO_Other (Node 15 [] (ImplicitCastExpr CK_LValueToRValue (Node 16 [] (DeclRefExpr 3 $"i" false)))) (Node 17 [] (IntegerLiteral (0)%Z)))) (Node 18 [] (BinaryOperator BO_Other (Node 19 [] (ImplicitCastExpr CK_LValueToRValue (Node 20 [] (DeclRefExpr 3 $"i" false)))) (Node 21 [] (IntegerLiteral (0)%Z)))))) (Node 22 [] (CompoundStmt [])) None)); (Node 23 [] (DefaultStmt (Node 24 [] BreakStmt)))])) false))]))))))];
     ts_locs := [(1,1,1,91); (1,13,1,91); (1,15,1,20); (1,15,1,19); (1,22,1,89); (1,30,1,30); (1,30,1,30); (1,33,1,89); (1,35,1,43); (1,40,1,40); (1,40,1,40); (1,43,1,43); (1,50,1,71); (1,54,1,67); (1,54,1,58); (1,54,1,54); (1,54,1,54); (1,58,1,58); (1,63,1,67); (1,63,1,63); (1,63,1,63); (1,67,1,67); (1,70,1,71); (1,73,1,82); (1,82,1,82)]%Z;
     ts_evals := []; ts_same := []; ts_decls := []; ts_parents := [] |}.
Example NPathComplexity_SwitchStmtWithSimpleConditionAndOneCaseOneIfOneDefault_holds : nth_violation (shippedRule sh_NPathComplexity) NPathComplexity_SwitchStmtWithSimpleConditionAndOneCaseOneIfOneDefault 0 = Some (1, 1, 1, 91, $"NPath Complexity Number 4 exceeds limit of 1")%Z.
Proof. vm_compute. reflexivity. Qed.

Definition NPathComplexity_SwitchStmtWithSimpleConditionAndOneCaseAsIfOneDefault : testcase :=
  {| ts_lang := LC; ts_path := $"input.c"; ts_code := [];
     ts_comments := []; ts_conf := [($"NPATH_COMPLEXITY", $"1")];
     ts_tops := [(toplevel 0 (TFunction false), (Node 0 [] (FunctionDecl {| f_name := $"mthd"; f_method := None; f_isDefinition := true; f_bodyLines := (1)%Z |} [] (Some (Node 1 [] (CompoundStmt [(Node 2 [] (DeclStmt [(Node 3 [] (VarDecl {| v_isParm := false; v_name := $"i"; v_used := true; v_referenced := true; v_local := true; v_staticMember := false; v_private := false; v_unusedAttr := false; v_defaultArg := false; v_canonicalType := $"int"; v_inTemplate := false; v_contexts := [CxFunction true true false] |} None))])); (Node 4 [] (SwitchStmt [] (Node 5 [] (ImplicitCastExpr CK_LValueToRValue (Node 6 [] (DeclRefExpr 3 $"i" false)))) (Node 7 [] (CompoundStmt [(Node 8 [] (CaseStmt (Node 9 [] (OtherExpr [(Node 10 [] (IntegerLiteral (1)%Z))])) (Node 11 [] (IfStmt [] (Node 12 [] (BinaryOperator BO_LAnd (Node 13 [] (BinaryOperator BO_Other (Node 14 [] (ImplicitCastExpr CK_LValueToRValue (Node 15 [] (DeclRefExpr 3 $"i" false)))) (Node 16 [] (IntegerLiteral (0)%Z)))) (Node 17 [] (BinaryOperator BO_Other (Node 18 [] (ImplicitCastExpr CK_LValueToRValue (Node 19 [] (DeclRefExpr 3 $"i" false)))) (Node 20 [] (IntegerLiteral (0)%Z)))))) (Node 21 [] (CompoundStmt [])) None)))); (Node 22 [] BreakStmt); (Node 23 [] (DefaultStmt (Node 24 [] BreakStmt)))])) false))]))))))];
     ts_locs := [(1,1,1,91); (1,13,1,91); (1,15,1,20); (1,15,1,19); (1,22,1,89); (1,30,1,30); (1,30,1,30); (1,33,1,89); (1,35,1,64); (1,40,1,40); (1,40,1,40); (1,43,1,64); (1,47,1,60); (1,47,1,51); (1,47,1,47); (1,47,1,47); (1,51,1,51); (1,56,1,60); (1,56,1,56); (1,56,1,56); (1,60,1,60); (1,63,1,64); (1,66,1,66); (1,73,1,82); (1,82,1,82)]%Z;
     ts_evals := []; ts_same := []; ts_decls := []; ts_parents := [] |}.
Example NPathComplexity_SwitchStmtWithSimpleConditionAndOneCaseAsIfOneDefault_holds : nth_violation (shippedRule sh_NPathComplexity) NPathComplexity_SwitchStmtWithSimpleConditionAndOneCaseAsIfOneDefault 0 = Some (1, 1, 1, 91, $"NPath Complexity Number 4 exceeds limit of 1")%Z.
Proof. vm_compute. reflexivity. Qed.

Definition NPathComplexity_SwitchStmtWithSimpleConditionAndOneCaseAsTwoIfsOneDefault : testcase :=
  {| ts_lang := LC; ts_path := $"input.c"; ts_code := [];
     ts_comments := []; ts_conf := [($"NPATH_COMPLEXITY", $"1")];
     ts_tops := [(toplevel 0 (TFunction false), (Node 0 [] (FunctionDecl {| f_name := $"mthd"; f_method := None; f_isDefinition := true; f_bodyLines := (1)%Z |} [] (Some (Node 1 [] (CompoundStmt [(Node 2 [] (DeclStmt [(Node 3 [] (VarDecl {| v_isParm := false; v_name := $"i"; v_used := true; v_referenced := true; v_local := true; v_staticMember := false; v_private := false; v_unusedAttr := false; v_defaultArg := false; v_canonicalType := $"int"; v_inTemplate := false; v_contexts := [CxFunction true true false] |} None))])); (Node 4 [] (SwitchStmt [] (Node 5 [] (ImplicitCastExpr CK_LValueToRValue (Node 6 [] (DeclRefExpr 3 $"i" false)))) (Node 7 [] (CompoundStmt [(Node 8 [] (CaseStmt (Node 9 [] (OtherExpr [(Node 10 [] (IntegerLiteral (1)%Z))])) (Node 11 [] (IfStmt [] (Node 12 [] (BinaryOperator BO_Other (Node 13 [] (ImplicitCastExpr CK_LValueToRValue (Node 14 [] (DeclRefExpr 3 $"i" false)))) (Node 15 [] (IntegerLiteral (0)%Z)))) (Node 16 [] (CompoundStmt [])) None)))); (Node 17 [] (IfStmt [] (Node 18 [] (BinaryOperator BO_Other (Node 19 [] (ImplicitCastExpr CK_LValueToRValue (Node 20 [] (DeclRefExpr 3 $"i" false)))) (Node 21 [] (IntegerLiteral (0)%Z)))) (Node 22 [] (CompoundStmt [])) None)); (Node 23 [] BreakStmt); (Node 24 [] (DefaultStmt (Node 25 [] BreakStmt)))])) false))]))))))];
     ts_locs := [(1,1,1,96); (1,13,1,96); (1,15,1,20); (1,15,1,19); (1,22,1,94); (1,30,1,30); (1,30,1,30); (1,33,1,94); (1,35,1,55); (1,40,1,40); (1,40,1,40); (1,43,1,55); (1,47,1,51); (1,47,1,47); (1,47,1,47); (1,51,1,51); (1,54,1,55); (1,57,1,69); (1,61,1,65); (1,61,1,61); (1,61,1,61); (1,65,1,65); (1,68,1,69); (1,71,1,71); (1,78,1,87); (1,87,1,87)]%Z;
     ts_evals := []; ts_same := []; ts_decls := []; ts_parents := [] |}.
Example NPathComplexity_SwitchStmtWithSimpleConditionAndOneCaseAsTwoIfsOneDefault_holds : nth_violation (shippedRule sh_NPathComplexity) NPathComplexity_SwitchStmtWithSimpleConditionAndOneCaseAsTwoIfsOneDefault 0 = Some (1, 1, 1, 96, $"NPath Complexity Number 5 exceeds limit of 1")%Z.
Proof. vm_compute. reflexivity. Qed.

Definition NPathComplexity_BasicConditionalOperator : testcase :=
  {| ts_lang := LC; ts_path := $"input.c"; ts_code := [];
     ts_comments := []; ts_conf := [($"NPATH_COMPLEXITY", $"1")];
     ts_tops := [(toplevel 0 (TFunction false), (Node 0 [] (FunctionDecl {| f_name := $"mthd"; f_method := None; f_isDefinition := true; f_bodyLines := (1)%Z |} [] (Some (Node 1 [] (CompoundStmt [(Node 2 [] (IfStmt [] (Node 3 [] (ConditionalOperator (Node 4 [] (IntegerLiteral (1)%Z)) (Node 5 [] (IntegerLiteral (2)%Z)) (Node 6 [] (IntegerLiteral (3)%Z)))) (Node 7 [] (CompoundStmt [])) None))]))))))];
     ts_locs := [(1,1,1,33); (1,13,1,33); (1,15,1,31); (1,19,1,27); (1,19,1,19); (1,23,1,23); (1,27,1,27); (1,30,1,31)]%Z;
     ts_evals := [(3, true); (4, true)]; ts_same := []; ts_decls := []; ts_parents := [] |}.
Example NPathComplexity_BasicConditionalOperator_holds : nth_violation (shippedRule sh_NPathComplexity) NPathComplexity_BasicConditionalOperator 0 = Some (1, 1, 1, 33, $"NPath Complexity Number 4 exceeds limit of 1")%Z.
Proof. vm_compute. reflexivity. Qed.

Definition NPathComplexity_NastingConditionalOperator : testcase :=
  {| ts_lang := LC; ts_path := $"input.c"; ts_code := [];
     ts_comments := []; ts_conf := [($"NPATH_COMPLEXITY", $"1")];
     ts_tops := [(toplevel 0 (TFunction false), (Node 0 [] (FunctionDecl {| f_name := $"mthd"; f_method := None; f_isDefinition := true; f_bodyLines := (1)%Z |} [] (Some (Node 1 [] (CompoundStmt [(Node 2 [] (IfStmt [] (Node 3 [] (ConditionalOperator (Node 4 [] (IntegerLiteral (1)%Z)) (Node 5 [] (ParenExpr (Node 6 [] (ConditionalOperator (Node 7 [] (IntegerLiteral (2)%Z)) (Node 8 [] (IntegerLiteral (3)%Z)) (Node 9 [] (IntegerLiteral (4)%Z)))))) (Node 10 [] (ParenExpr (Node 11 [] (ConditionalOperator (Node 12 [] (IntegerLiteral (5)%Z)) (Node 13 [] (IntegerLiteral (6)%Z)) (Node 14 [] (IntegerLiteral (7)%Z)))))))) (Node 15 [] (CompoundStmt [])) None))]))))))];
     ts_locs := [(1,1,1,53); (1,13,1,53); (1,15,1,51); (1,19,1,47); (1,19,1,19); (1,23,1,33); (1,24,1,32); (1,24,1,24); (1,28,1,28); (1,32,1,32); (1,37,1,47); (1,38,1,46); (1,38,1,38); (1,42,1,42); (1,46,1,46); (1,50,1,51)]%Z;
     ts_evals := [(3, true); (4, true); (7, true); (12, true)]; ts_same := []; ts_decls := []; ts_parents := [] |}.
Example NPathComplexity_NastingConditionalOperator_holds : nth_violation (shippedRule sh_NPathComplexity) NPathComplexity_NastingConditionalOperator 0 = Some (1, 1, 1, 53, $"NPath Complexity Number 8 exceeds limit of 1")%Z.
Proof. vm_compute. reflexivity. Qed.

Definition NPathComplexity_SuppressHighNPathComplexity : testcase :=
  {| ts_lang := LC; ts_path := $"input.c"; ts_code := [];
     ts_comments := []; ts_conf := [($"NPATH_COMPLEXITY", $"1")];
     ts_tops := [(toplevel 0 (TFunction false), (Node 0 [] (FunctionDecl {| f_name := $"mthd"; f_method := None; f_isDefinition := true; f_bodyLines := (1)%Z |} [] (Some (Node 1 [] (CompoundStmt [(Node 2 [] (IfStmt [] (Node 3 [] (ConditionalOperator (Node 4 [] (IntegerLiteral (1)%Z)) (Node 5 [] (IntegerLiteral (2)%Z)) (Node 6 [] (IntegerLiteral (3)%Z)))) (Node 7 [] (CompoundStmt [])) None))]))))))];
     ts_locs := [(1,1,1,101); (1,81,1,101); (1,83,1,99); (1,87,1,95); (1,87,1,87); (1,91,1,91); (1,95,1,95); (1,98,1,99)]%Z;
     ts_evals := [(3, true); (4, true)]; ts_same := []; ts_decls := [(0, (Decl [$"oclint:suppress[high npath complexity]"] None))]; ts_parents := [(None, true); ((Some 0), false); ((Some 1), false); ((Some 2), false); ((Some 3), false); ((Some 3), false); ((Some 3), false); ((Some 2), false)] |}.
Example NPathComplexity_SuppressHighNPathComplexity_holds : sorted_violations_of (shippedRule sh_NPathComplexity) NPathComplexity_SuppressHighNPathComplexity = Some [].
Proof. vm_compute. reflexivity. Qed.

(** ** oclint-rules/test/size/NcssMethodCountRuleTest.cpp *)

Definition NcssMethodCount_EmptyFunction : testcase :=
  {| ts_lang := LC; ts_path := $"input.c"; ts_code := [];
     ts_comments := []; ts_conf := [($"NCSS_METHOD", $"1")];
     ts_tops := [(toplevel 0 (TFunction false), (Node 0 [] (FunctionDecl {| f_name := $"aMethod"; f_method := None; f_isDefinition := true; f_bodyLines := (1)%Z |} [] (Some (Node 1 [] (CompoundStmt []))))))];
     ts_locs := [(1,1,1,18); (1,16,1,18)]%Z;
     ts_evals := []; ts_same := []; ts_decls := []; ts_parents := [] |}.
Example NcssMethodCount_EmptyFunction_holds : sorted_violations_of (shippedRule sh_NcssMethodCount) NcssMethodCount_EmptyFunction = Some [].
Proof. vm_compute. reflexivity. Qed.

Definition NcssMethodCount_NullStmtsDoNotContribute : testcase :=
  {| ts_lang := LC; ts_path := $"input.c"; ts_code := [];
     ts_comments := []; ts_conf := [($"NCSS_METHOD", $"1")];
     ts_tops := [(toplevel 0 (TFunction false), (Node 0 [] (FunctionDecl {| f_name := $"aMethod"; f_method := None; f_isDefinition := true; f_bodyLines := (6)%Z |} [] (Some (Node 1 [] (CompoundStmt [(Node 2 [] NullStmt); (Node 3 [] NullStmt); (Node 4 [] NullStmt); (Node 5 [] NullStmt); (Node 6 [] NullStmt)]))))))];
     ts_locs := [(1,1,6,2); (1,16,6,2); (2,1,2,1); (3,1,3,1); (4,1,4,1); (5,1,5,1); (6,1,6,1)]%Z;
     ts_evals := []; ts_same := []; ts_decls := []; ts_parents := [] |}.
Example NcssMethodCount_NullStmtsDoNotContribute_holds : sorted_violations_of (shippedRule sh_NcssMethodCount) NcssMethodCount_NullStmtsDoNotContribute = Some [].
Proof. vm_compute. reflexivity. Qed.

Definition NcssMethodCount_SemiColonAfterDeclStmtCount : testcase :=
  {| ts_lang := LC; ts_path := $"input.c"; ts_code := [];
     ts_comments := []; ts_conf := [($"NCSS_METHOD", $"1")];
     ts_tops := [(toplevel 0 (TFunction false), (Node 0 [] (FunctionDecl {| f_name := $"aMethod"; f_method := None; f_isDefinition := true; f_bodyLines := (1)%Z |} [] (Some (Node 1 [] (CompoundStmt [(Node 2 [] (DeclStmt [(Node 3 [] (VarDecl {| v_isParm := false; v_name := $"a"; v_used := false; v_referenced := false; v_local := true; v_staticMember := false; v_private := false; v_unusedAttr := false; v_defaultArg := false; v_canonicalType := $"int"; v_inTemplate := false; v_contexts := [CxFunction true true false] |} (Some (Node 4 [] (IntegerLiteral (1)%Z)))))]))]))))))];
     ts_locs := [(1,1,1,29); (1,16,1,29); (1,18,1,27); (1,18,1,26); (1,26,1,26)]%Z;
     ts_evals := []; ts_same := []; ts_decls := []; ts_parents := [] |}.
Example NcssMethodCount_SemiColonAfterDeclStmtCount_holds : nth_violation (shippedRule sh_NcssMethodCount) NcssMethodCount_SemiColonAfterDeclStmtCount 0 = Some (1, 1, 1, 29, $"Method of 2 non-commenting source statements exceeds limit of 1")%Z.
Proof. vm_compute. reflexivity. Qed.

Definition NcssMethodCount_DeclStmtWithManyVariables : testcase :=
  {| ts_lang := LC; ts_path := $"input.c"; ts_code := [];
     ts_comments := []; ts_conf := [($"NCSS_METHOD", $"1")];
     ts_tops := [(toplevel 0 (TFunction false), (Node 0 [] (FunctionDecl {| f_name := $"m"; f_method := None; f_isDefinition := true; f_bodyLines := (1)%Z |} [] (Some (Node 1 [] (CompoundStmt [(Node 2 [] (DeclStmt [(Node 3 [] (VarDecl {| v_isParm := false; v_name := $"a"; v_used := false; v_referenced := false; v_local := true; v_staticMember := false; v_private := false; v_unusedAttr := false; v_defaultArg := false; v_canonicalType := $"int"; v_inTemplate := false; v_contexts := [CxFunction true true false] |} (Some (Node 4 [] (IntegerLiteral (1)%Z))))); (Node 5 [] (VarDecl {| v_isParm := false; v_name := $"b"; v_used := false; v_referenced := false; v_local := true; v_staticMember := false; v_private := false; v_unusedAttr := false; v_defaultArg := false; v_canonicalType := $"int"; v_inTemplate := false; v_contexts := [CxFunction true true false] |} (Some (Node 6 [] (IntegerLiteral (2)%Z))))); (Node 7 [] (VarDecl {| v_isParm := false; v_name := $"c"; v_used := false; v_referenced := false; v_local := true; v_staticMember := false; v_private := false; v_unusedAttr := false; v_defaultArg := false; v_canonicalType := $"int"; v_inTemplate := false; v_contexts := [CxFunction true true false] |} (Some (Node 8 [] (IntegerLiteral (3)%Z)))))]))]))))))];
     ts_locs := [(1,1,1,37); (1,10,1,37); (1,12,1,35); (1,12,1,20); (1,20,1,20); (1,12,1,27); (1,27,1,27); (1,12,1,34); (1,34,1,34)]%Z;
     ts_evals := []; ts_same := []; ts_decls := []; ts_parents := [] |}.
Example NcssMethodCount_DeclStmtWithManyVariables_holds : nth_violation (shippedRule sh_NcssMethodCount) NcssMethodCount_DeclStmtWithManyVariables 0 = Some (1, 1, 1, 37, $"Method of 2 non-commenting source statements exceeds limit of 1")%Z.
Proof. vm_compute. reflexivity. Qed.

Definition NcssMethodCount_MethodCall : testcase :=
  {| ts_lang := LC; ts_path := $"input.c"; ts_code := [];
     ts_comments := []; ts_conf := [($"NCSS_METHOD", $"1")];
     ts_tops := [(toplevel 0 (TFunction false), (Node 0 [] (FunctionDecl {| f_name := $"n"; f_method := None; f_isDefinition := false; f_bodyLines := (0)%Z |} [] None))); (toplevel 1 (TFunction false), (Node 1 [] (FunctionDecl {| f_name := $"m"; f_method := None; f_isDefinition := true; f_bodyLines := (1)%Z |} [] (Some (Node 2 [] (CompoundStmt [(Node 3 [] (CallExpr (Some ($"n", (Decl [] None))) (Node 4 [] (ImplicitCastExpr CK_Other (Node 5 [] (DeclRefExpr 0 $"n" false)))) []))]))))))];
     ts_locs := [(1,1,1,8); (1,11,1,27); (1,20,1,27); (1,22,1,24); (1,22,1,22); (1,22,1,22)]%Z;
     ts_evals := []; ts_same := []; ts_decls := []; ts_parents := [] |}.
Example NcssMethodCount_MethodCall_holds : nth_violation (shippedRule sh_NcssMethodCount) NcssMethodCount_MethodCall 0 = Some (1, 11, 1, 27, $"Method of 2 non-commenting source statements exceeds limit of 1")%Z.
Proof. vm_compute. reflexivity. Qed.

Definition NcssMethodCount_EmptyCompoundStmt : testcase :=
  {| ts_lang := LC; ts_path := $"input.c"; ts_code := [];
     ts_comments := []; ts_conf := [($"NCSS_METHOD", $"1")];
     ts_tops := [(toplevel 0 (TFunction false), (Node 0 [] (FunctionDecl {| f_name := $"aMethod"; f_method := None; f_isDefinition := true; f_bodyLines := (6)%Z |} [] (Some (Node 1 [] (CompoundStmt [(Node 2 [] (CompoundStmt [])); (Node 3 [] (CompoundStmt [])); (Node 4 [] (CompoundStmt [])); (Node 5 [] (CompoundStmt [])); (Node 6 [] (CompoundStmt []))]))))))];
     ts_locs := [(1,1,6,3); (1,16,6,3); (2,1,2,2); (3,1,3,2); (4,1,4,2); (5,1,5,2); (6,1,6,2)]%Z;
     ts_evals := []; ts_same := []; ts_decls := []; ts_parents := [] |}.
Example NcssMethodCount_EmptyCompoundStmt_holds : sorted_violations_of (shippedRule sh_NcssMethodCount) NcssMethodCount_EmptyCompoundStmt = Some [].
Proof. vm_compute. reflexivity. Qed.

Definition NcssMethodCount_IfStatement : testcase :=
  {| ts_lang := LC; ts_path := $"input.c"; ts_code := [];
     ts_comments := []; ts_conf := [($"NCSS_METHOD", $"1")];
     ts_tops := [(toplevel 0 (TFunction false), (Node 0 [] (FunctionDecl {| f_name := $"m"; f_method := None; f_isDefinition := true; f_bodyLines := (1)%Z |} [] (Some (Node 1 [] (CompoundStmt [(Node 2 [] (IfStmt [] (Node 3 [] (IntegerLiteral (1)%Z)) (Node 4 [] (CompoundStmt [])) None))]))))))];
     ts_locs := [(1,1,1,22); (1,10,1,22); (1,12,1,20); (1,16,1,16); (1,19,1,20)]%Z;
     ts_evals := [(3, true)]; ts_same := []; ts_decls := []; ts_parents := [] |}.
Example NcssMethodCount_IfStatement_holds : nth_violation (shippedRule sh_NcssMethodCount) NcssMethodCount_IfStatement 0 = Some (1, 1, 1, 22, $"Method of 2 non-commenting source statements exceeds limit of 1")%Z.
Proof. vm_compute. reflexivity. Qed.

Definition NcssMethodCount_IfStatementWithElse : testcase :=
  {| ts_lang := LC; ts_path := $"input.c"; ts_code := [];
     ts_comments := []; ts_conf := [($"NCSS_METHOD", $"1")];
     ts_tops := [(toplevel 0 (TFunction false), (Node 0 [] (FunctionDecl {| f_name := $"m"; f_method := None; f_isDefinition := true; f_bodyLines := (1)%Z |} [] (Some (Node 1 [] (CompoundStmt [(Node 2 [] (IfStmt [] (Node 3 [] (IntegerLiteral (1)%Z)) (Node 4 [] (CompoundStmt [])) (Some (Node 5 [] (CompoundStmt [])))))]))))))];
     ts_locs := [(1,1,1,30); (1,10,1,30); (1,12,1,28); (1,16,1,16); (1,19,1,20); (1,27,1,28)]%Z;
     ts_evals := [(3, true)]; ts_same := []; ts_decls := []; ts_parents := [] |}.
Example NcssMethodCount_IfStatementWithElse_holds : nth_violation (shippedRule sh_NcssMethodCount) NcssMethodCount_IfStatementWithElse 0 = Some (1, 1, 1, 30, $"Method of 3 non-commenting source statements exceeds limit of 1")%Z.
Proof. vm_compute. reflexivity. Qed.

Definition NcssMethodCount_ForStatement : testcase :=
  {| ts_lang := LC; ts_path := $"input.c"; ts_code := [];
     ts_comments := []; ts_conf := [($"NCSS_METHOD", $"1")];
     ts_tops := [(toplevel 0 (TFunction false), (Node 0 [] (FunctionDecl {| f_name := $"m"; f_method := None; f_isDefinition := true; f_bodyLines := (1)%Z |} [] (Some (Node 1 [] (CompoundStmt [(Node 2 [] (ForStmt None [] None None (Node 3 [] (CompoundStmt []))))]))))))];
     ts_locs := [(1,1,1,23); (1,10,1,23); (1,12,1,21); (1,20,1,21)]%Z;
     ts_evals := []; ts_same := []; ts_decls := []; ts_parents := [] |}.
Example NcssMethodCount_ForStatement_holds : nth_violation (shippedRule sh_NcssMethodCount) NcssMethodCount_ForStatement 0 = Some (1, 1, 1, 23, $"Method of 2 non-commenting source statements exceeds limit of 1")%Z.
Proof. vm_compute. reflexivity. Qed.

Definition NcssMethodCount_ObjCForCollectionStatement : testcase :=
  {| ts_lang := LObjC; ts_path := $"input.m"; ts_code := [];
     ts_comments := []; ts_conf := [($"NCSS_METHOD", $"1")];
     ts_tops := [(toplevel 0 (TFunction false), (Node 0 [] (FunctionDecl {| f_name := $"m"; f_method := None; f_isDefinition := true; f_bodyLines := (1)%Z |} [] (Some (Node 1 [] (CompoundStmt [(Node 2 [] (DeclStmt [(Node 3 [] (VarDecl {| v_isParm := false; v_name := $"array"; v_used := true; v_referenced := true; v_local := true; v_staticMember := false; v_private := false; v_unusedAttr := false; v_defaultArg := false; v_canonicalType := $"struct objc_object *"; v_inTemplate := false; v_contexts := [CxFunction true true false] |} None))])); (Node 4 [] (ObjCForCollectionStmt (Node 5 [] (DeclStmt [(Node 6 [] (VarDecl {| v_isParm := false; v_name := $"one"; v_used := false; v_referenced := false; v_local := true; v_staticMember := false; v_private := false; v_unusedAttr := false; v_defaultArg := false; v_canonicalType := $"struct objc_object *"; v_inTemplate := false; v_contexts := [CxFunction true true false] |} None))])) (Node 7 $"id" (ImplicitCastExpr CK_LValueToRValue (Node 8 $"id" (DeclRefExpr 3 $"array" false)))) (Node 9 [] (CompoundStmt []))))]))))))];
     ts_locs := [(1,1,1,46); (1,10,1,46); (1,12,1,20); (1,12,1,15); (1,22,1,44); (1,26,1,29); (1,26,1,29); (1,36,1,36); (1,36,1,36); (1,43,1,44)]%Z;
     ts_evals := []; ts_same := []; ts_decls := []; ts_parents := [] |}.
Example NcssMethodCount_ObjCForCollectionStatement_holds : nth_violation (shippedRule sh_NcssMethodCount) NcssMethodCount_ObjCForCollectionStatement 0 = Some (1, 1, 1, 46, $"Method of 3 non-commenting source statements exceeds limit of 1")%Z.
Proof. vm_compute. reflexivity. Qed.

Definition NcssMethodCount_WhileStatement : testcase :=
  {| ts_lang := LC; ts_path := $"input.c"; ts_code := [];
     ts_comments := []; ts_conf := [($"NCSS_METHOD", $"1")];
     ts_tops := [(toplevel 0 (TFunction false), (Node 0 [] (FunctionDecl {| f_name := $"m"; f_method := None; f_isDefinition := true; f_bodyLines := (1)%Z |} [] (Some (Node 1 [] (CompoundStmt [(Node 2 [] (WhileStmt [] (Node 3 [] (IntegerLiteral (1)%Z)) (Node 4 [] (CompoundStmt []))))]))))))];
     ts_locs := [(1,1,1,24); (1,10,1,24); (1,12,1,22); (1,18,1,18); (1,21,1,22)]%Z;
     ts_evals := []; ts_same := []; ts_decls := []; ts_parents := [] |}.
Example NcssMethodCount_WhileStatement_holds : nth_violation (shippedRule sh_NcssMethodCount) NcssMethodCount_WhileStatement 0 = Some (1, 1, 1, 24, $"Method of 2 non-commenting source statements exceeds limit of 1")%Z.
Proof. vm_compute. reflexivity. Qed.

Definition NcssMethodCount_DoStatement : testcase :=
  {| ts_lang := LC; ts_path := $"input.c"; ts_code := [];
     ts_comments := []; ts_conf := [($"NCSS_METHOD", $"1")];
     ts_tops := [(toplevel 0 (TFunction false), (Node 0 [] (FunctionDecl {| f_name := $"m"; f_method := None; f_isDefinition := true; f_bodyLines := (1)%Z |} [] (Some (Node 1 [] (CompoundStmt [(Node 2 [] (DoStmt (Node 3 [] (CompoundStmt [])) (Node 4 [] (IntegerLiteral (1)%Z))))]))))))];
     ts_locs := [(1,1,1,28); (1,10,1,28); (1,12,1,25); (1,15,1,16); (1,24,1,24)]%Z;
     ts_evals := []; ts_same := []; ts_decls := []; ts_parents := [] |}.
Example NcssMethodCount_DoStatement_holds : nth_violation (shippedRule sh_NcssMethodCount) NcssMethodCount_DoStatement 0 = Some (1, 1, 1, 28, $"Method of 3 non-commenting source statements exceeds limit of 1")%Z.
Proof. vm_compute. reflexivity. Qed.

Definition NcssMethodCount_CXXTryCatch : testcase :=
  {| ts_lang := LCXX; ts_path := $"input.cpp"; ts_code := [];
     ts_comments := []; ts_conf := [($"NCSS_METHOD", $"1")];
     ts_tops := [(toplevel 0 (TFunction false), (Node 0 [] (FunctionDecl {| f_name := $"m"; f_method := None; f_isDefinition := true; f_bodyLines := (1)%Z |} [] (Some (Node 1 [] (CompoundStmt [(Node 2 [] (CXXTryStmt (Node 3 [] (CompoundStmt [(Node 4 [] (DeclStmt [(Node 5 [] (VarDecl {| v_isParm := false; v_name := $"a"; v_used := false; v_referenced := false; v_local := true; v_staticMember := false; v_private := false; v_unusedAttr := false; v_defaultArg := false; v_canonicalType := $"int"; v_inTemplate := false; v_contexts := [CxFunction true true false] |} (Some (Node 6 [] (IntegerLiteral (1)%Z)))))]))])) [(Node 7 [] (CXXCatchStmt None (Node 8 [] (CompoundStmt [(Node 9 [] (DeclStmt [(Node 10 [] (VarDecl {| v_isParm := false; v_name := $"b"; v_used := false; v_referenced := false; v_local := true; v_staticMember := false; v_private := false; v_unusedAttr := false; v_defaultArg := false; v_canonicalType := $"int"; v_inTemplate := false; v_contexts := [CxFunction true true false] |} (Some (Node 11 [] (IntegerLiteral (2)%Z)))))]))]))))]))]))))))];
     ts_locs := [(1,1,1,58); (1,10,1,58); (1,12,1,56); (1,16,1,29); (1,18,1,27); (1,18,1,26); (1,26,1,26); (1,31,1,56); (1,43,1,56); (1,45,1,54); (1,45,1,53); (1,53,1,53)]%Z;
     ts_evals := []; ts_same := []; ts_decls := []; ts_parents := [] |}.
Example NcssMethodCount_CXXTryCatch_holds : nth_violation (shippedRule sh_NcssMethodCount) NcssMethodCount_CXXTryCatch 0 = Some (1, 1, 1, 58, $"Method of 5 non-commenting source statements exceeds limit of 1")%Z.
Proof. vm_compute. reflexivity. Qed.

Definition NcssMethodCount_ObjCTryCatch : testcase :=
  {| ts_lang := LObjC; ts_path := $"input.m"; ts_code := [];
     ts_comments := []; ts_conf := [($"NCSS_METHOD", $"1")];
     ts_tops := [(toplevel 0 (TFunction false), (Node 0 [] (FunctionDecl {| f_name := $"m"; f_method := None; f_isDefinition := true; f_bodyLines := (1)%Z |} [] (Some (Node 1 [] (CompoundStmt [(Node 2 [] (ObjCAtTryStmt (Node 3 [] (CompoundStmt [])) [(Node 4 [] (ObjCAtCatchStmt None (Node 5 [] (CompoundStmt []))))] None))]))))))];
     ts_locs := [(1,1,1,38); (1,10,1,38); (1,12,1,36); (1,17,1,18); (1,20,1,36); (1,35,1,36)]%Z;
     ts_evals := []; ts_same := []; ts_decls := []; ts_parents := [] |}.
Example NcssMethodCount_ObjCTryCatch_holds : nth_violation (shippedRule sh_NcssMethodCount) NcssMethodCount_ObjCTryCatch 0 = Some (1, 1, 1, 38, $"Method of 3 non-commenting source statements exceeds limit of 1")%Z.
Proof. vm_compute. reflexivity. Qed.

Definition NcssMethodCount_ObjCTryCatchFinally : testcase :=
  {| ts_lang := LObjC; ts_path := $"input.m"; ts_code := [];
     ts_comments := []; ts_conf := [($"NCSS_METHOD", $"1")];
     ts_tops := [(toplevel 0 (TFunction false), (Node 0 [] (FunctionDecl {| f_name := $"m"; f_method := None; f_isDefinition := true; f_bodyLines := (1)%Z |} [] (Some (Node 1 [] (CompoundStmt [(Node 2 [] (ObjCAtTryStmt (Node 3 [] (CompoundStmt [(Node 4 [] (DeclStmt [(Node 5 [] (VarDecl {| v_isParm := false; v_name := $"c"; v_used := false; v_referenced := false; v_local := true; v_staticMember := false; v_private := false; v_unusedAttr := false; v_defaultArg := false; v_canonicalType := $"int"; v_inTemplate := false; v_contexts := [CxFunction true true false] |} (Some (Node 6 $"int" (IntegerLiteral (3)%Z)))))]))])) [(Node 7 [] (ObjCAtCatchStmt None (Node 8 [] (CompoundStmt [(Node 9 [] (DeclStmt [(Node 10 [] (VarDecl {| v_isParm := false; v_name := $"a"; v_used := false; v_referenced := false; v_local := true; v_staticMember := false; v_private := false; v_unusedAttr := false; v_defaultArg := false; v_canonicalType := $"int"; v_inTemplate := false; v_contexts := [CxFunction true true false] |} (Some (Node 11 $"int" (IntegerLiteral (1)%Z)))))]))]))))] (Some (Node 12 [] (ObjCAtFinallyStmt (Node 13 [] (CompoundStmt [(Node 14 [] (DeclStmt [(Node 15 [] (VarDecl {| v_isParm := false; v_name := $"b"; v_used := false; v_referenced := false; v_local := true; v_staticMember := false; v_private := false; v_unusedAttr := false; v_defaultArg := false; v_canonicalType := $"int"; v_inTemplate := false; v_contexts := [CxFunction true true false] |} (Some (Node 16 $"int" (IntegerLiteral (2)%Z)))))]))])))))))]))))))];
     ts_locs := [(1,1,1,86); (1,10,1,86); (1,12,1,84); (1,17,1,30); (1,19,1,28); (1,19,1,27); (1,27,1,27); (1,32,1,60); (1,47,1,60); (1,49,1,58); (1,49,1,57); (1,57,1,57); (1,62,1,84); (1,71,1,84); (1,73,1,82); (1,73,1,81); (1,81,1,81)]%Z;
     ts_evals := []; ts_same := []; ts_decls := []; ts_parents := [] |}.
Example NcssMethodCount_ObjCTryCatchFinally_holds : nth_violation (shippedRule sh_NcssMethodCount) NcssMethodCount_ObjCTryCatchFinally 0 = Some (1, 1, 1, 86, $"Method of 7 non-commenting source statements exceeds limit of 1")%Z.
Proof. vm_compute. reflexivity. Qed.

Definition NcssMethodCount_ObjCAutoreleasePool : testcase :=
  {| ts_lang := LObjC; ts_path := $"input.m"; ts_code := [];
     ts_comments := []; ts_conf := [($"NCSS_METHOD", $"1")];
     ts_tops := [(toplevel 0 (TFunction false), (Node 0 [] (FunctionDecl {| f_name := $"m"; f_method := None; f_isDefinition := true; f_bodyLines := (1)%Z |} [] (Some (Node 1 [] (CompoundStmt [(Node 2 [] (ObjCAutoreleasePoolStmt (Node 3 [] (CompoundStmt [(Node 4 [] (DeclStmt [(Node 5 [] (VarDecl {| v_isParm := false; v_name := $"a"; v_used := false; v_referenced := false; v_local := true; v_staticMember := false; v_private := false; v_unusedAttr := false; v_defaultArg := false; v_canonicalType := $"int"; v_inTemplate := false; v_contexts := [CxFunction true true false] |} (Some (Node 6 $"int" (IntegerLiteral (1)%Z)))))]))]))))]))))))];
     ts_locs := [(1,1,1,44); (1,10,1,44); (1,12,1,42); (1,29,1,42); (1,31,1,40); (1,31,1,39); (1,39,1,39)]%Z;
     ts_evals := []; ts_same := []; ts_decls := []; ts_parents := [] |}.
Example NcssMethodCount_ObjCAutoreleasePool_holds : nth_violation (shippedRule sh_NcssMethodCount) NcssMethodCount_ObjCAutoreleasePool 0 = Some (1, 1, 1, 44, $"Method of 3 non-commenting source statements exceeds limit of 1")%Z.
Proof. vm_compute. reflexivity. Qed.

Definition NcssMethodCount_ObjCSynchronized : testcase :=
  {| ts_lang := LObjC; ts_path := $"input.m"; ts_code := [];
     ts_comments := []; ts_conf := [($"NCSS_METHOD", $"1")];
     ts_tops := [(toplevel 0 (TFunction false), (Node 0 [] (FunctionDecl {| f_name := $"m"; f_method := None; f_isDefinition := true; f_bodyLines := (1)%Z |} [] (Some (Node 1 [] (CompoundStmt [(Node 2 [] (DeclStmt [(Node 3 [] (VarDecl {| v_isParm := false; v_name := $"res"; v_used := true; v_referenced := true; v_local := true; v_staticMember := false; v_private := false; v_unusedAttr := false; v_defaultArg := false; v_canonicalType := $"struct objc_object *"; v_inTemplate := false; v_contexts := [CxFunction true true false] |} None))])); (Node 4 [] (ObjCAtSynchronizedStmt (Node 5 $"id" (ImplicitCastExpr CK_LValueToRValue (Node 6 $"id" (DeclRefExpr 3 $"res" false)))) (Node 7 [] (CompoundStmt [(Node 8 [] (DeclStmt [(Node 9 [] (VarDecl {| v_isParm := false; v_name := $"a"; v_used := false; v_referenced := false; v_local := true; v_staticMember := false; v_private := false; v_unusedAttr := false; v_defaultArg := false; v_canonicalType := $"int"; v_inTemplate := false; v_contexts := [CxFunction true true false] |} (Some (Node 10 $"int" (IntegerLiteral (1)%Z)))))]))]))))]))))))];
     ts_locs := [(1,1,1,54); (1,10,1,54); (1,12,1,18); (1,12,1,15); (1,20,1,52); (1,34,1,34); (1,34,1,34); (1,39,1,52); (1,41,1,50); (1,41,1,49); (1,49,1,49)]%Z;
     ts_evals := []; ts_same := []; ts_decls := []; ts_parents := [] |}.
Example NcssMethodCount_ObjCSynchronized_holds : nth_violation (shippedRule sh_NcssMethodCount) NcssMethodCount_ObjCSynchronized 0 = Some (1, 1, 1, 54, $"Method of 4 non-commenting source statements exceeds limit of 1")%Z.
Proof. vm_compute. reflexivity. Qed.

Definition NcssMethodCount_OneCaseStatement : testcase :=
  {| ts_lang := LC; ts_path := $"input.c"; ts_code := [];
     ts_comments := []; ts_conf := [($"NCSS_METHOD", $"1")];
     ts_tops := [(toplevel 0 (TFunction false), (Node 0 [] (FunctionDecl {| f_name := $"m"; f_method := None; f_isDefinition := true; f_bodyLines := (1)%Z |} [] (Some (Node 1 [] (CompoundStmt [(Node 2 [] (DeclStmt [(Node 3 [] (VarDecl {| v_isParm := false; v_name := $"i"; v_used := true; v_referenced := true; v_local := true; v_staticMember := false; v_private := false; v_unusedAttr := false; v_defaultArg := false; v_canonicalType := $"int"; v_inTemplate := false; v_contexts := [CxFunction true true false] |} (Some (Node 4 [] (IntegerLiteral (1)%Z)))))])); (Node 5 [] (SwitchStmt [] (Node 6 [] (ImplicitCastExpr CK_LValueToRValue (Node 7 [] (DeclRefExpr 3 $"i" false)))) (Node 8 [] (CompoundStmt [(Node 9 [] (CaseStmt (Node 10 [] (OtherExpr [(Node 11 [] (IntegerLiteral (1)%Z))])) (Node 12 [] BreakStmt)))])) false))]))))))];
     ts_locs := [(1,1,1,53); (1,10,1,53); (1,12,1,21); (1,12,1,20); (1,20,1,20); (1,23,1,51); (1,31,1,31); (1,31,1,31); (1,34,1,51); (1,36,1,44); (1,41,1,41); (1,41,1,41); (1,44,1,44)]%Z;
     ts_evals := []; ts_same := []; ts_decls := []; ts_parents := [] |}.
Example NcssMethodCount_OneCaseStatement_holds : nth_violation (shippedRule sh_NcssMethodCount) NcssMethodCount_OneCaseStatement 0 = Some (1, 1, 1, 53, $"Method of 5 non-commenting source statements exceeds limit of 1")%Z.
Proof. vm_compute. reflexivity. Qed.

Definition NcssMethodCount_TwoCaseStatements : testcase :=
  {| ts_lang := LC; ts_path := $"input.c"; ts_code := [];
     ts_comments := []; ts_conf := [($"NCSS_METHOD", $"1")];
     ts_tops := [(toplevel 0 (TFunction false), (Node 0 [] (FunctionDecl {| f_name := $"m"; f_method := None; f_isDefinition := true; f_bodyLines := (1)%Z |} [] (Some (Node 1 [] (CompoundStmt [(Node 2 [] (DeclStmt [(Node 3 [] (VarDecl {| v_isParm := false; v_name := $"i"; v_used := true; v_referenced := true; v_local := true; v_staticMember := false; v_private := false; v_unusedAttr := false; v_defaultArg := false; v_canonicalType := $"int"; v_inTemplate := false; v_contexts := [CxFunction true true false] |} (Some (Node 4 [] (IntegerLiteral (1)%Z)))))])); (Node 5 [] (SwitchStmt [] (Node 6 [] (ImplicitCastExpr CK_LValueToRValue (Node 7 [] (DeclRefExpr 3 $"i" false)))) (Node 8 [] (CompoundStmt [(Node 9 [] (CaseStmt (Node 10 [] (OtherExpr [(Node 11 [] (IntegerLiteral (1)%Z))])) (Node 12 [] (CaseStmt (Node 13 [] (OtherExpr [(Node 14 [] (IntegerLiteral (2)%Z))])) (Node 15 [] BreakStmt)))))])) false))]))))))];
     ts_locs := [(1,1,1,61); (1,10,1,61); (1,12,1,21); (1,12,1,20); (1,20,1,20); (1,23,1,59); (1,31,1,31); (1,31,1,31); (1,34,1,59); (1,36,1,52); (1,41,1,41); (1,41,1,41); (1,44,1,52); (1,49,1,49); (1,49,1,49); (1,52,1,52)]%Z;
     ts_evals := []; ts_same := []; ts_decls := []; ts_parents := [] |}.
Example NcssMethodCount_TwoCaseStatements_holds : nth_violation (shippedRule sh_NcssMethodCount) NcssMethodCount_TwoCaseStatements 0 = Some (1, 1, 1, 61, $"Method of 6 non-commenting source statements exceeds limit of 1")%Z.
Proof. vm_compute. reflexivity. Qed.

Definition NcssMethodCount_TwoCaseStatementsAndDefault : testcase :=
  {| ts_lang := LC; ts_path := $"input.c"; ts_code := [];
     ts_comments := []; ts_conf := [($"NCSS_METHOD", $"1")];
     ts_tops := [(toplevel 0 (TFunction false), (Node 0 [] (FunctionDecl {| f_name := $"m"; f_method := None; f_isDefinition := true; f_bodyLines := (1)%Z |} [] (Some (Node 1 [] (CompoundStmt [(Node 2 [] (DeclStmt [(Node 3 [] (VarDecl {| v_isParm := false; v_name := $"i"; v_used := true; v_referenced := true; v_local := true; v_staticMember := false; v_private := false; v_unusedAttr := false; v_defaultArg := false; v_canonicalType := $"int"; v_inTemplate := false; v_contexts := [CxFunction true true false] |} (Some (Node 4 [] (IntegerLiteral (1)%Z)))))])); (Node 5 [] (SwitchStmt [] (Node 6 [] (ImplicitCastExpr CK_LValueToRValue (Node 7 [] (DeclRefExpr 3 $"i" false)))) (Node 8 [] (CompoundStmt [(Node 9 [] (CaseStmt (Node 10 [] (OtherExpr [(Node 11 [] (IntegerLiteral (1)%Z))])) (Node 12 [] (BinaryOperator BO_Assign (Node 13 [] (DeclRefExpr 3 $"i" false)) (Node 14 [] (IntegerLiteral (2)%Z)))))); (Node 15 [] BreakStmt); (Node 16 [] (CaseStmt (Node 17 [] (OtherExpr [(Node 18 [] (IntegerLiteral (2)%Z))])) (Node 19 [] BreakStmt))); (Node 20 [] (DefaultStmt (Node 21 [] BreakStmt)))])) false))]))))))];
     ts_locs := [(1,1,1,91); (1,10,1,91); (1,12,1,21); (1,12,1,20); (1,20,1,20); (1,23,1,89); (1,31,1,31); (1,31,1,31); (1,34,1,89); (1,36,1,48); (1,41,1,41); (1,41,1,41); (1,44,1,48); (1,44,1,44); (1,48,1,48); (1,51,1,51); (1,58,1,66); (1,63,1,63); (1,63,1,63); (1,66,1,66); (1,73,1,82); (1,82,1,82)]%Z;
     ts_evals := []; ts_same := []; ts_decls := []; ts_parents := [] |}.
Example NcssMethodCount_TwoCaseStatementsAndDefault_holds : nth_violation (shippedRule sh_NcssMethodCount) NcssMethodCount_TwoCaseStatementsAndDefault 0 = Some (1, 1, 1, 91, $"Method of 10 non-commenting source statements exceeds limit of 1")%Z.
Proof. vm_compute. reflexivity. Qed.

Definition NcssMethodCount_SupressHighNcssMethod : testcase :=
  {| ts_lang := LC; ts_path := $"input.c"; ts_code := [];
     ts_comments := []; ts_conf := [($"NCSS_METHOD", $"1")];
     ts_tops := [(toplevel 0 (TFunction false), (Node 0 [] (FunctionDecl {| f_name := $"aMethod"; f_method := None; f_isDefinition := true; f_bodyLines := (1)%Z |} [] (Some (Node 1 [] (CompoundStmt [(Node 2 [] (DoStmt (Node 3 [] (CompoundStmt [])) (Node 4 [] (IntegerLiteral (1)%Z))))]))))))];
     ts_locs := [(1,1,1,97); (1,79,1,97); (1,81,1,94); (1,84,1,85); (1,93,1,93)]%Z;
     ts_evals := []; ts_same := []; ts_decls := [(0, (Decl [$"oclint:suppress[high ncss method]"] None))]; ts_parents := [(None, true); ((Some 0), false); ((Some 1), false); ((Some 2), false); ((Some 2), false)] |}.
Example NcssMethodCount_SupressHighNcssMethod_holds : sorted_violations_of (shippedRule sh_NcssMethodCount) NcssMethodCount_SupressHighNcssMethod = Some [].
Proof. vm_compute. reflexivity. Qed.

(** ** oclint-rules/test/size/NestedBlockDepthRuleTest.cpp *)

Definition NestedBlockDepth_EmptyFunction : testcase :=
  {| ts_lang := LC; ts_path := $"input.c"; ts_code := [];
     ts_comments := []; ts_conf := [($"NESTED_BLOCK_DEPTH", $"1")];
     ts_tops := [(toplevel 0 (TFunction false), (Node 0 [] (FunctionDecl {| f_name := $"m"; f_method := None; f_isDefinition := true; f_bodyLines := (1)%Z |} [] (Some (Node 1 [] (CompoundStmt []))))))];
     ts_locs := [(1,1,1,11); (1,10,1,11)]%Z;
     ts_evals := []; ts_same := []; ts_decls := []; ts_parents := [] |}.
Example NestedBlockDepth_EmptyFunction_holds : sorted_violations_of (shippedRule sh_NestedBlockDepth) NestedBlockDepth_EmptyFunction = Some [].
Proof. vm_compute. reflexivity. Qed.

Definition NestedBlockDepth_TwoLevelBlock : testcase :=
  {| ts_lang := LC; ts_path := $"input.c"; ts_code := [];
     ts_comments := []; ts_conf := [($"NESTED_BLOCK_DEPTH", $"1")];
     ts_tops := [(toplevel 0 (TFunction false), (Node 0 [] (FunctionDecl {| f_name := $"m"; f_method := None; f_isDefinition := true; f_bodyLines := (1)%Z |} [] (Some (Node 1 [] (CompoundStmt [(Node 2 [] (CompoundStmt []))]))))))];
     ts_locs := [(1,1,1,13); (1,10,1,13); (1,11,1,12)]%Z;
     ts_evals := []; ts_same := []; ts_decls := []; ts_parents := [] |}.
Example NestedBlockDepth_TwoLevelBlock_holds : nth_violation (shippedRule sh_NestedBlockDepth) NestedBlockDepth_TwoLevelBlock 0 = Some (1, 10, 1, 13, $"Block depth of 2 exceeds limit of 1")%Z.
Proof. vm_compute. reflexivity. Qed.

Definition NestedBlockDepth_ChooseTheDeepest : testcase :=
  {| ts_lang := LC; ts_path := $"input.c"; ts_code := [];
     ts_comments := []; ts_conf := [($"NESTED_BLOCK_DEPTH", $"1")];
     ts_tops := [(toplevel 0 (TFunction false), (Node 0 [] (FunctionDecl {| f_name := $"m"; f_method := None; f_isDefinition := true; f_bodyLines := (1)%Z |} [] (Some (Node 1 [] (CompoundStmt [(Node 2 [] (CompoundStmt [])); (Node 3 [] (CompoundStmt [(Node 4 [] (CompoundStmt [(Node 5 [] (CompoundStmt []))]))])); (Node 6 [] (CompoundStmt [(Node 7 [] (CompoundStmt []))]))]))))))];
     ts_locs := [(1,1,1,23); (1,10,1,23); (1,11,1,12); (1,13,1,18); (1,14,1,17); (1,15,1,16); (1,19,1,22); (1,20,1,21)]%Z;
     ts_evals := []; ts_same := []; ts_decls := []; ts_parents := [] |}.
Example NestedBlockDepth_ChooseTheDeepest_holds : nth_violation (shippedRule sh_NestedBlockDepth) NestedBlockDepth_ChooseTheDeepest 0 = Some (1, 10, 1, 23, $"Block depth of 4 exceeds limit of 1")%Z.
Proof. vm_compute. reflexivity. Qed.

Definition NestedBlockDepth_IfStatement : testcase :=
  {| ts_lang := LC; ts_path := $"input.c"; ts_code := [];
     ts_comments := []; ts_conf := [($"NESTED_BLOCK_DEPTH", $"1")];
     ts_tops := [(toplevel 0 (TFunction false), (Node 0 [] (FunctionDecl {| f_name := $"m"; f_method := None; f_isDefinition := true; f_bodyLines := (1)%Z |} [] (Some (Node 1 [] (CompoundStmt [(Node 2 [] (IfStmt [] (Node 3 [] (IntegerLiteral (1)%Z)) (Node 4 [] (CompoundStmt [])) None))]))))))];
     ts_locs := [(1,1,1,22); (1,10,1,22); (1,12,1,20); (1,16,1,16); (1,19,1,20)]%Z;
     ts_evals := [(3, true)]; ts_same := []; ts_decls := []; ts_parents := [] |}.
Example NestedBlockDepth_IfStatement_holds : nth_violation (shippedRule sh_NestedBlockDepth) NestedBlockDepth_IfStatement 0 = Some (1, 10, 1, 22, $"Block depth of 2 exceeds limit of 1")%Z.
Proof. vm_compute. reflexivity. Qed.

Definition NestedBlockDepth_IfStatementWithElse : testcase :=
  {| ts_lang := LC; ts_path := $"input.c"; ts_code := [];
     ts_comments := []; ts_conf := [($"NESTED_BLOCK_DEPTH", $"1")];
     ts_tops := [(toplevel 0 (TFunction false), (Node 0 [] (FunctionDecl {| f_name := $"m"; f_method := None; f_isDefinition := true; f_bodyLines := (1)%Z |} [] (Some (Node 1 [] (CompoundStmt [(Node 2 [] (IfStmt [] (Node 3 [] (IntegerLiteral (1)%Z)) (Node 4 [] (CompoundStmt [])) (Some (Node 5 [] (CompoundStmt [(Node 6 [] (CompoundStmt [(Node 7 [] (CompoundStmt []))]))])))))]))))))];
     ts_locs := [(1,1,1,34); (1,10,1,34); (1,12,1,32); (1,16,1,16); (1,19,1,20); (1,27,1,32); (1,28,1,31); (1,29,1,30)]%Z;
     ts_evals := [(3, true)]; ts_same := []; ts_decls := []; ts_parents := [] |}.
Example NestedBlockDepth_IfStatementWithElse_holds : nth_violation (shippedRule sh_NestedBlockDepth) NestedBlockDepth_IfStatementWithElse 0 = Some (1, 10, 1, 34, $"Block depth of 4 exceeds limit of 1")%Z.
Proof. vm_compute. reflexivity. Qed.

Definition NestedBlockDepth_ForStatement : testcase :=
  {| ts_lang := LC; ts_path := $"input.c"; ts_code := [];
     ts_comments := []; ts_conf := [($"NESTED_BLOCK_DEPTH", $"1")];
     ts_tops := [(toplevel 0 (TFunction false), (Node 0 [] (FunctionDecl {| f_name := $"m"; f_method := None; f_isDefinition := true; f_bodyLines := (1)%Z |} [] (Some (Node 1 [] (CompoundStmt [(Node 2 [] (ForStmt None [] None None (Node 3 [] (CompoundStmt []))))]))))))];
     ts_locs := [(1,1,1,23); (1,10,1,23); (1,12,1,21); (1,20,1,21)]%Z;
     ts_evals := []; ts_same := []; ts_decls := []; ts_parents := [] |}.
Example NestedBlockDepth_ForStatement_holds : nth_violation (shippedRule sh_NestedBlockDepth) NestedBlockDepth_ForStatement 0 = Some (1, 10, 1, 23, $"Block depth of 2 exceeds limit of 1")%Z.
Proof. vm_compute. reflexivity. Qed.

Definition NestedBlockDepth_ObjCForCollectionStatement : testcase :=
  {| ts_lang := LObjC; ts_path := $"input.m"; ts_code := [];
     ts_comments := []; ts_conf := [($"NESTED_BLOCK_DEPTH", $"1")];
     ts_tops := [(toplevel 0 (TFunction false), (Node 0 [] (FunctionDecl {| f_name := $"m"; f_method := None; f_isDefinition := true; f_bodyLines := (1)%Z |} [] (Some (Node 1 [] (CompoundStmt [(Node 2 [] (DeclStmt [(Node 3 [] (VarDecl {| v_isParm := false; v_name := $"array"; v_used := true; v_referenced := true; v_local := true; v_staticMember := false; v_private := false; v_unusedAttr := false; v_defaultArg := false; v_canonicalType := $"struct objc_object *"; v_inTemplate := false; v_contexts := [CxFunction true true false] |} None))])); (Node 4 [] (ObjCForCollectionStmt (Node 5 [] (DeclStmt [(Node 6 [] (VarDecl {| v_isParm := false; v_name := $"one"; v_used := false; v_referenced := false; v_local := true; v_staticMember := false; v_private := false; v_unusedAttr := false; v_defaultArg := false; v_canonicalType := $"struct objc_object *"; v_inTemplate := false; v_contexts := [CxFunction true true false] |} None))])) (Node 7 $"id" (ImplicitCastExpr CK_LValueToRValue (Node 8 $"id" (DeclRefExpr 3 $"array" false)))) (Node 9 [] (CompoundStmt []))))]))))))];
     ts_locs := [(1,1,1,46); (1,10,1,46); (1,12,1,20); (1,12,1,15); (1,22,1,44); (1,26,1,29); (1,26,1,29); (1,36,1,36); (1,36,1,36); (1,43,1,44)]%Z;
     ts_evals := []; ts_same := []; ts_decls := []; ts_parents := [] |}.
Example NestedBlockDepth_ObjCForCollectionStatement_holds : nth_violation (shippedRule sh_NestedBlockDepth) NestedBlockDepth_ObjCForCollectionStatement 0 = Some (1, 10, 1, 46, $"Block depth of 2 exceeds limit of 1")%Z.
Proof. vm_compute. reflexivity. Qed.

Definition NestedBlockDepth_WhileStatement : testcase :=
  {| ts_lang := LC; ts_path := $"input.c"; ts_code := [];
     ts_comments := []; ts_conf := [($"NESTED_BLOCK_DEPTH", $"1")];
     ts_tops := [(toplevel 0 (TFunction false), (Node 0 [] (FunctionDecl {| f_name := $"m"; f_method := None; f_isDefinition := true; f_bodyLines := (1)%Z |} [] (Some (Node 1 [] (CompoundStmt [(Node 2 [] (WhileStmt [] (Node 3 [] (IntegerLiteral (1)%Z)) (Node 4 [] (CompoundStmt []))))]))))))];
     ts_locs := [(1,1,1,24); (1,10,1,24); (1,12,1,22); (1,18,1,18); (1,21,1,22)]%Z;
     ts_evals := []; ts_same := []; ts_decls := []; ts_parents := [] |}.
Example NestedBlockDepth_WhileStatement_holds : nth_violation (shippedRule sh_NestedBlockDepth) NestedBlockDepth_WhileStatement 0 = Some (1, 10, 1, 24, $"Block depth of 2 exceeds limit of 1")%Z.
Proof. vm_compute. reflexivity. Qed.

Definition NestedBlockDepth_DoStatement : testcase :=
  {| ts_lang := LC; ts_path := $"input.c"; ts_code := [];
     ts_comments := []; ts_conf := [($"NESTED_BLOCK_DEPTH", $"1")];
     ts_tops := [(toplevel 0 (TFunction false), (Node 0 [] (FunctionDecl {| f_name := $"m"; f_method := None; f_isDefinition := true; f_bodyLines := (1)%Z |} [] (Some (Node 1 [] (CompoundStmt [(Node 2 [] (DoStmt (Node 3 [] (CompoundStmt [])) (Node 4 [] (IntegerLiteral (1)%Z))))]))))))];
     ts_locs := [(1,1,1,28); (1,10,1,28); (1,12,1,25); (1,15,1,16); (1,24,1,24)]%Z;
     ts_evals := []; ts_same := []; ts_decls := []; ts_parents := [] |}.
Example NestedBlockDepth_DoStatement_holds : nth_violation (shippedRule sh_NestedBlockDepth) NestedBlockDepth_DoStatement 0 = Some (1, 10, 1, 28, $"Block depth of 2 exceeds limit of 1")%Z.
Proof. vm_compute. reflexivity. Qed.

Definition NestedBlockDepth_CXXTryCatch : testcase :=
  {| ts_lang := LCXX; ts_path := $"input.cpp"; ts_code := [];
     ts_comments := []; ts_conf := [($"NESTED_BLOCK_DEPTH", $"1")];
     ts_tops := [(toplevel 0 (TFunction false), (Node 0 [] (FunctionDecl {| f_name := $"m"; f_method := None; f_isDefinition := true; f_bodyLines := (1)%Z |} [] (Some (Node 1 [] (CompoundStmt [(Node 2 [] (CXXTryStmt (Node 3 [] (CompoundStmt [(Node 4 [] (DeclStmt [(Node 5 [] (VarDecl {| v_isParm := false; v_name := $"a"; v_used := false; v_referenced := false; v_local := true; v_staticMember := false; v_private := false; v_unusedAttr := false; v_defaultArg := false; v_canonicalType := $"int"; v_inTemplate := false; v_contexts := [CxFunction true true false] |} (Some (Node 6 [] (IntegerLiteral (1)%Z)))))]))])) [(Node 7 [] (CXXCatchStmt None (Node 8 [] (CompoundStmt [(Node 9 [] (DeclStmt [(Node 10 [] (VarDecl {| v_isParm := false; v_name := $"b"; v_used := false; v_referenced := false; v_local := true; v_staticMember := false; v_private := false; v_unusedAttr := false; v_defaultArg := false; v_canonicalType := $"int"; v_inTemplate := false; v_contexts := [CxFunction true true false] |} (Some (Node 11 [] (IntegerLiteral (2)%Z)))))])); (Node 12 [] (CompoundStmt [(Node 13 [] (CompoundStmt []))]))]))))]))]))))))];
     ts_locs := [(1,1,1,62); (1,10,1,62); (1,12,1,60); (1,16,1,29); (1,18,1,27); (1,18,1,26); (1,26,1,26); (1,31,1,60); (1,43,1,60); (1,45,1,54); (1,45,1,53); (1,53,1,53); (1,56,1,59); (1,57,1,58)]%Z;
     ts_evals := []; ts_same := []; ts_decls := []; ts_parents := [] |}.
Example NestedBlockDepth_CXXTryCatch_holds : nth_violation (shippedRule sh_NestedBlockDepth) NestedBlockDepth_CXXTryCatch 0 = Some (1, 10, 1, 62, $"Block depth of 4 exceeds limit of 1")%Z.
Proof. vm_compute. reflexivity. Qed.

Definition NestedBlockDepth_ObjCTryCatch : testcase :=
  {| ts_lang := LObjC; ts_path := $"input.m"; ts_code := [];
     ts_comments := []; ts_conf := [($"NESTED_BLOCK_DEPTH", $"1")];
     ts_tops := [(toplevel 0 (TFunction false), (Node 0 [] (FunctionDecl {| f_name := $"m"; f_method := None; f_isDefinition := true; f_bodyLines := (1)%Z |} [] (Some (Node 1 [] (CompoundStmt [(Node 2 [] (ObjCAtTryStmt (Node 3 [] (CompoundStmt [])) [(Node 4 [] (ObjCAtCatchStmt None (Node 5 [] (CompoundStmt [(Node 6 [] (CompoundStmt [(Node 7 [] (CompoundStmt []))]))]))))] None))]))))))];
     ts_locs := [(1,1,1,42); (1,10,1,42); (1,12,1,40); (1,17,1,18); (1,20,1,40); (1,35,1,40); (1,36,1,39); (1,37,1,38)]%Z;
     ts_evals := []; ts_same := []; ts_decls := []; ts_parents := [] |}.
Example NestedBlockDepth_ObjCTryCatch_holds : nth_violation (shippedRule sh_NestedBlockDepth) NestedBlockDepth_ObjCTryCatch 0 = Some (1, 10, 1, 42, $"Block depth of 4 exceeds limit of 1")%Z.
Proof. vm_compute. reflexivity. Qed.

Definition NestedBlockDepth_ObjCTryCatchFinally : testcase :=
  {| ts_lang := LObjC; ts_path := $"input.m"; ts_code := [];
     ts_comments := []; ts_conf := [($"NESTED_BLOCK_DEPTH", $"1")];
     ts_tops := [(toplevel 0 (TFunction false), (Node 0 [] (FunctionDecl {| f_name := $"m"; f_method := None; f_isDefinition := true; f_bodyLines := (1)%Z |} [] (Some (Node 1 [] (CompoundStmt [(Node 2 [] (ObjCAtTryStmt (Node 3 [] (CompoundStmt [(Node 4 [] (DeclStmt [(Node 5 [] (VarDecl {| v_isParm := false; v_name := $"c"; v_used := false; v_referenced := false; v_local := true; v_staticMember := false; v_private := false; v_unusedAttr := false; v_defaultArg := false; v_canonicalType := $"int"; v_inTemplate := false; v_contexts := [CxFunction true true false] |} (Some (Node 6 $"int" (IntegerLiteral (3)%Z)))))]))])) [(Node 7 [] (ObjCAtCatchStmt None (Node 8 [] (CompoundStmt [(Node 9 [] (DeclStmt [(Node 10 [] (VarDecl {| v_isParm := false; v_name := $"a"; v_used := false; v_referenced := false; v_local := true; v_staticMember := false; v_private := false; v_unusedAttr := false; v_defaultArg := false; v_canonicalType := $"int"; v_inTemplate := false; v_contexts := [CxFunction true true false] |} (Some (Node 11 $"int" (IntegerLiteral (1)%Z)))))]))]))))] (Some (Node 12 [] (ObjCAtFinallyStmt (Node 13 [] (CompoundStmt [(Node 14 [] (DeclStmt [(Node 15 [] (VarDecl {| v_isParm := false; v_name := $"b"; v_used := false; v_referenced := false; v_local := true; v_staticMember := false; v_private := false; v_unusedAttr := false; v_defaultArg := false; v_canonicalType := $"int"; v_inTemplate := false; v_contexts := [CxFunction true true false] |} (Some (Node 16 $"int" (IntegerLiteral (2)%Z)))))])); (Node 17 [] (CompoundStmt [(Node 18 [] (CompoundStmt []))]))])))))))]))))))];
     ts_locs := [(1,1,1,90); (1,10,1,90); (1,12,1,88); (1,17,1,30); (1,19,1,28); (1,19,1,27); (1,27,1,27); (1,32,1,60); (1,47,1,60); (1,49,1,58); (1,49,1,57); (1,57,1,57); (1,62,1,88); (1,71,1,88); (1,73,1,82); (1,73,1,81); (1,81,1,81); (1,84,1,87); (1,85,1,86)]%Z;
     ts_evals := []; ts_same := []; ts_decls := []; ts_parents := [] |}.
Example NestedBlockDepth_ObjCTryCatchFinally_holds : nth_violation (shippedRule sh_NestedBlockDepth) NestedBlockDepth_ObjCTryCatchFinally 0 = Some (1, 10, 1, 90, $"Block depth of 4 exceeds limit of 1")%Z.
Proof. vm_compute. reflexivity. Qed.

Definition NestedBlockDepth_ObjCAutoreleasePool : testcase :=
  {| ts_lang := LObjC; ts_path := $"input.m"; ts_code := [];
     ts_comments := []; ts_conf := [($"NESTED_BLOCK_DEPTH", $"1")];
     ts_tops := [(toplevel 0 (TFunction false), (Node 0 [] (FunctionDecl {| f_name := $"m"; f_method := None; f_isDefinition := true; f_bodyLines := (1)%Z |} [] (Some (Node 1 [] (CompoundStmt [(Node 2 [] (ObjCAutoreleasePoolStmt (Node 3 [] (CompoundStmt [(Node 4 [] (DeclStmt [(Node 5 [] (VarDecl {| v_isParm := false; v_name := $"a"; v_used := false; v_referenced := false; v_local := true; v_staticMember := false; v_private := false; v_unusedAttr := false; v_defaultArg := false; v_canonicalType := $"int"; v_inTemplate := false; v_contexts := [CxFunction true true false] |} (Some (Node 6 $"int" (IntegerLiteral (1)%Z)))))]))]))))]))))))];
     ts_locs := [(1,1,1,44); (1,10,1,44); (1,12,1,42); (1,29,1,42); (1,31,1,40); (1,31,1,39); (1,39,1,39)]%Z;
     ts_evals := []; ts_same := []; ts_decls := []; ts_parents := [] |}.
Example NestedBlockDepth_ObjCAutoreleasePool_holds : nth_violation (shippedRule sh_NestedBlockDepth) NestedBlockDepth_ObjCAutoreleasePool 0 = Some (1, 10, 1, 44, $"Block depth of 2 exceeds limit of 1")%Z.
Proof. vm_compute. reflexivity. Qed.

Definition NestedBlockDepth_ObjCSynchronized : testcase :=
  {| ts_lang := LObjC; ts_path := $"input.m"; ts_code := [];
     ts_comments := []; ts_conf := [($"NESTED_BLOCK_DEPTH", $"1")];
     ts_tops := [(toplevel 0 (TFunction false), (Node 0 [] (FunctionDecl {| f_name := $"m"; f_method := None; f_isDefinition := true; f_bodyLines := (1)%Z |} [] (Some (Node 1 [] (CompoundStmt [(Node 2 [] (DeclStmt [(Node 3 [] (VarDecl {| v_isParm := false; v_name := $"res"; v_used := true; v_referenced := true; v_local := true; v_staticMember := false; v_private := false; v_unusedAttr := false; v_defaultArg := false; v_canonicalType := $"struct objc_object *"; v_inTemplate := false; v_contexts := [CxFunction true true false] |} None))])); (Node 4 [] (ObjCAtSynchronizedStmt (Node 5 $"id" (ImplicitCastExpr CK_LValueToRValue (Node 6 $"id" (DeclRefExpr 3 $"res" false)))) (Node 7 [] (CompoundStmt [(Node 8 [] (DeclStmt [(Node 9 [] (VarDecl {| v_isParm := false; v_name := $"a"; v_used := false; v_referenced := false; v_local := true; v_staticMember := false; v_private := false; v_unusedAttr := false; v_defaultArg := false; v_canonicalType := $"int"; v_inTemplate := false; v_contexts := [CxFunction true true false] |} (Some (Node 10 $"int" (IntegerLiteral (1)%Z)))))]))]))))]))))))];
     ts_locs := [(1,1,1,54); (1,10,1,54); (1,12,1,18); (1,12,1,15); (1,20,1,52); (1,34,1,34); (1,34,1,34); (1,39,1,52); (1,41,1,50); (1,41,1,49); (1,49,1,49)]%Z;
     ts_evals := []; ts_same := []; ts_decls := []; ts_parents := [] |}.
Example NestedBlockDepth_ObjCSynchronized_holds : nth_violation (shippedRule sh_NestedBlockDepth) NestedBlockDepth_ObjCSynchronized 0 = Some (1, 10, 1, 54, $"Block depth of 2 exceeds limit of 1")%Z.
Proof. vm_compute. reflexivity. Qed.

Definition NestedBlockDepth_OneCaseStatement : testcase :=
  {| ts_lang := LC; ts_path := $"input.c"; ts_code := [];
     ts_comments := []; ts_conf := [($"NESTED_BLOCK_DEPTH", $"1")];
     ts_tops := [(toplevel 0 (TFunction false), (Node 0 [] (FunctionDecl {| f_name := $"m"; f_method := None; f_isDefinition := true; f_bodyLines := (1)%Z |} [] (Some (Node 1 [] (CompoundStmt [(Node 2 [] (DeclStmt [(Node 3 [] (VarDecl {| v_isParm := false; v_name := $"i"; v_used := true; v_referenced := true; v_local := true; v_staticMember := false; v_private := false; v_unusedAttr := false; v_defaultArg := false; v_canonicalType := $"int"; v_inTemplate := false; v_contexts := [CxFunction true true false] |} (Some (Node 4 [] (IntegerLiteral (1)%Z)))))])); (Node 5 [] (SwitchStmt [] (Node 6 [] (ImplicitCastExpr CK_LValueToRValue (Node 7 [] (DeclRefExpr 3 $"i" false)))) (Node 8 [] (CompoundStmt [(Node 9 [] (CaseStmt (Node 10 [] (OtherExpr [(Node 11 [] (IntegerLiteral (1)%Z))])) (Node 12 [] BreakStmt)))])) false))]))))))];
     ts_locs := [(1,1,1,53); (1,10,1,53); (1,12,1,21); (1,12,1,20); (1,20,1,20); (1,23,1,51); (1,31,1,31); (1,31,1,31); (1,34,1,51); (1,36,1,44); (1,41,1,41); (1,41,1,41); (1,44,1,44)]%Z;
     ts_evals := []; ts_same := []; ts_decls := []; ts_parents := [] |}.
Example NestedBlockDepth_OneCaseStatement_holds : nth_violation (shippedRule sh_NestedBlockDepth) NestedBlockDepth_OneCaseStatement 0 = Some (1, 10, 1, 53, $"Block depth of 2 exceeds limit of 1")%Z.
Proof. vm_compute. reflexivity. Qed.

Definition NestedBlockDepth_TwoCaseStatements : testcase :=
  {| ts_lang := LC; ts_path := $"input.c"; ts_code := [];
     ts_comments := []; ts_conf := [($"NESTED_BLOCK_DEPTH", $"1")];
     ts_tops := [(toplevel 0 (TFunction false), (Node 0 [] (FunctionDecl {| f_name := $"m"; f_method := None; f_isDefinition := true; f_bodyLines := (1)%Z |} [] (Some (Node 1 [] (CompoundStmt [(Node 2 [] (DeclStmt [(Node 3 [] (VarDecl {| v_isParm := false; v_name := $"i"; v_used := true; v_referenced := true; v_local := true; v_staticMember := false; v_private := false; v_unusedAttr := false; v_defaultArg := false; v_canonicalType := $"int"; v_inTemplate := false; v_contexts := [CxFunction true true false] |} (Some (Node 4 [] (IntegerLiteral (1)%Z)))))])); (Node 5 [] (SwitchStmt [] (Node 6 [] (ImplicitCastExpr CK_LValueToRValue (Node 7 [] (DeclRefExpr 3 $"i" false)))) (Node 8 [] (CompoundStmt [(Node 9 [] (CaseStmt (Node 10 [] (OtherExpr [(Node 11 [] (IntegerLiteral (1)%Z))])) (Node 12 [] (CaseStmt (Node 13 [] (OtherExpr [(Node 14 [] (IntegerLiteral (2)%Z))])) (Node 15 [] BreakStmt)))))])) false))]))))))];
     ts_locs := [(1,1,1,61); (1,10,1,61); (1,12,1,21); (1,12,1,20); (1,20,1,20); (1,23,1,59); (1,31,1,31); (1,31,1,31); (1,34,1,59); (1,36,1,52); (1,41,1,41); (1,41,1,41); (1,44,1,52); (1,49,1,49); (1,49,1,49); (1,52,1,52)]%Z;
     ts_evals := []; ts_same := []; ts_decls := []; ts_parents := [] |}.
Example NestedBlockDepth_TwoCaseStatements_holds : nth_violation (shippedRule sh_NestedBlockDepth) NestedBlockDepth_TwoCaseStatements 0 = Some (1, 10, 1, 61, $"Block depth of 2 exceeds limit of 1")%Z.
Proof. vm_compute. reflexivity. Qed.

Definition NestedBlockDepth_TwoCaseStatementsAndDefault : testcase :=
  {| ts_lang := LC; ts_path := $"input.c"; ts_code := [];
     ts_comments := []; ts_conf := [($"NESTED_BLOCK_DEPTH", $"1")];
     ts_tops := [(toplevel 0 (TFunction false), (Node 0 [] (FunctionDecl {| f_name := $"m"; f_method := None; f_isDefinition := true; f_bodyLines := (1)%Z |} [] (Some (Node 1 [] (CompoundStmt [(Node 2 [] (DeclStmt [(Node 3 [] (VarDecl {| v_isParm := false; v_name := $"i"; v_used := true; v_referenced := true; v_local := true; v_staticMember := false; v_private := false; v_unusedAttr := false; v_defaultArg := false; v_canonicalType := $"int"; v_inTemplate := false; v_contexts := [CxFunction true true false] |} (Some (Node 4 [] (IntegerLiteral (1)%Z)))))])); (Node 5 [] (SwitchStmt [] (Node 6 [] (ImplicitCastExpr CK_LValueToRValue (Node 7 [] (DeclRefExpr 3 $"i" false)))) (Node 8 [] (CompoundStmt [(Node 9 [] (CaseStmt (Node 10 [] (OtherExpr [(Node 11 [] (IntegerLiteral (1)%Z))])) (Node 12 [] (BinaryOperator BO_Assign (Node 13 [] (DeclRefExpr 3 $"i" false)) (Node 14 [] (IntegerLiteral (2)%Z)))))); (Node 15 [] BreakStmt); (Node 16 [] (CaseStmt (Node 17 [] (OtherExpr [(Node 18 [] (IntegerLiteral (2)%Z))])) (Node 19 [] BreakStmt))); (Node 20 [] (DefaultStmt (Node 21 [] BreakStmt)))])) false))]))))))];
     ts_locs := [(1,1,1,91); (1,10,1,91); (1,12,1,21); (1,12,1,20); (1,20,1,20); (1,23,1,89); (1,31,1,31); (1,31,1,31); (1,34,1,89); (1,36,1,48); (1,41,1,41); (1,41,1,41); (1,44,1,48); (1,44,1,44); (1,48,1,48); (1,51,1,51); (1,58,1,66); (1,63,1,63); (1,63,1,63); (1,66,1,66); (1,73,1,82); (1,82,1,82)]%Z;
     ts_evals := []; ts_same := []; ts_decls := []; ts_parents := [] |}.
Example NestedBlockDepth_TwoCaseStatementsAndDefault_holds : nth_violation (shippedRule sh_NestedBlockDepth) NestedBlockDepth_TwoCaseStatementsAndDefault 0 = Some (1, 10, 1, 91, $"Block depth of 2 exceeds limit of 1")%Z.
Proof. vm_compute. reflexivity. Qed.

(** ** oclint-rules/test/size/TooManyFieldsRuleTest.cpp *)

Definition TooManyFields_CXXClassNoField : testcase :=
  {| ts_lang := LCXX; ts_path := $"input.cpp"; ts_code := [];
     ts_comments := []; ts_conf := [($"TOO_MANY_FIELDS", $"2")];
     ts_tops := [(toplevel 0 (TOther), (Node 0 [] (CXXRecordDecl {| r_class := (CxxRecord 0 $"c" true false None []); r_fields := 0; r_methods := 1; r_lines := (1)%Z |} [(Node 1 [] (FunctionDecl {| f_name := $"m"; f_method := (Some {| cm_virtual := false; cm_static := false; cm_private := true; cm_inRecord := true |}); f_isDefinition := true; f_bodyLines := (1)%Z |} [] (Some (Node 2 [] (CompoundStmt [])))))])))];
     ts_locs := [(1,1,1,23); (1,11,1,21); (1,20,1,21)]%Z;
     ts_evals := []; ts_same := []; ts_decls := []; ts_parents := [] |}.
Example TooManyFields_CXXClassNoField_holds : sorted_violations_of (shippedRule sh_TooManyFields) TooManyFields_CXXClassNoField = Some [].
Proof. vm_compute. reflexivity. Qed.

Definition TooManyFields_CXXClassTwoFields : testcase :=
  {| ts_lang := LCXX; ts_path := $"input.cpp"; ts_code := [];
     ts_comments := []; ts_conf := [($"TOO_MANY_FIELDS", $"2")];
     ts_tops := [(toplevel 0 (TOther), (Node 0 [] (CXXRecordDecl {| r_class := (CxxRecord 0 $"c" true false None []); r_fields := 2; r_methods := 1; r_lines := (1)%Z |} [(Node 1 [] (OtherDecl [])); (Node 2 [] (OtherDecl [])); (Node 3 [] (FunctionDecl {| f_name := $"m"; f_method := (Some {| cm_virtual := false; cm_static := false; cm_private := true; cm_inRecord := true |}); f_isDefinition := true; f_bodyLines := (1)%Z |} [] (Some (Node 4 [] (CompoundStmt [])))))])))];
     ts_locs := [(1,1,1,37); (1,11,1,15); (1,18,1,22); (1,25,1,35); (1,34,1,35)]%Z;
     ts_evals := []; ts_same := []; ts_decls := []; ts_parents := [] |}.
Example TooManyFields_CXXClassTwoFields_holds : sorted_violations_of (shippedRule sh_TooManyFields) TooManyFields_CXXClassTwoFields = Some [].
Proof. vm_compute. reflexivity. Qed.

Definition TooManyFields_CXXClassThreeFields : testcase :=
  {| ts_lang := LCXX; ts_path := $"input.cpp"; ts_code := [];
     ts_comments := []; ts_conf := [($"TOO_MANY_FIELDS", $"2")];
     ts_tops := [(toplevel 0 (TOther), (Node 0 [] (CXXRecordDecl {| r_class := (CxxRecord 0 $"c" true false None []); r_fields := 3; r_methods := 1; r_lines := (1)%Z |} [(Node 1 [] (OtherDecl [])); (Node 2 [] (OtherDecl [])); (Node 3 [] (OtherDecl [])); (Node 4 [] (FunctionDecl {| f_name := $"m"; f_method := (Some {| cm_virtual := false; cm_static := false; cm_private := true; cm_inRecord := true |}); f_isDefinition := true; f_bodyLines := (1)%Z |} [] (Some (Node 5 [] (CompoundStmt [])))))])))];
     ts_locs := [(1,1,1,40); (1,11,1,15); (1,11,1,18); (1,21,1,25); (1,28,1,38); (1,37,1,38)]%Z;
     ts_evals := []; ts_same := []; ts_decls := []; ts_parents := [] |}.
Example TooManyFields_CXXClassThreeFields_holds : nth_violation (shippedRule sh_TooManyFields) TooManyFields_CXXClassThreeFields 0 = Some (1, 1, 1, 40, $"C++ class with 3 fields exceeds limit of 2")%Z.
Proof. vm_compute. reflexivity. Qed.

Definition TooManyFields_CXXClassFourFields : testcase :=
  {| ts_lang := LCXX; ts_path := $"input.cpp"; ts_code := [];
     ts_comments := []; ts_conf := [($"TOO_MANY_FIELDS", $"2")];
     ts_tops := [(toplevel 0 (TOther), (Node 0 [] (CXXRecordDecl {| r_class := (CxxRecord 0 $"c" true false None []); r_fields := 4; r_methods := 1; r_lines := (1)%Z |} [(Node 1 [] (OtherDecl [])); (Node 2 [] (OtherDecl [])); (Node 3 [] (OtherDecl [])); (Node 4 [] (OtherDecl [])); (Node 5 [] (FunctionDecl {| f_name := $"m"; f_method := (Some {| cm_virtual := false; cm_static := false; cm_private := true; cm_inRecord := true |}); f_isDefinition := true; f_bodyLines := (1)%Z |} [] (Some (Node 6 [] (CompoundStmt [])))))])))];
     ts_locs := [(1,1,1,43); (1,11,1,15); (1,11,1,18); (1,21,1,25); (1,21,1,28); (1,31,1,41); (1,40,1,41)]%Z;
     ts_evals := []; ts_same := []; ts_decls := []; ts_parents := [] |}.
Example TooManyFields_CXXClassFourFields_holds : nth_violation (shippedRule sh_TooManyFields) TooManyFields_CXXClassFourFields 0 = Some (1, 1, 1, 43, $"C++ class with 4 fields exceeds limit of 2")%Z.
Proof. vm_compute. reflexivity. Qed.

Definition TooManyFields_ObjCInterfaceNoField : testcase :=
  {| ts_lang := LObjC; ts_path := $"input.m"; ts_code := [];
     ts_comments := []; ts_conf := [($"TOO_MANY_FIELDS", $"2")];
     ts_tops := [(toplevel 0 (TOther), (Node 0 [] (ObjCContainerDecl {| oc_kind := OKInterface; oc_name := $"a"; oc_lines := (2)%Z; oc_ivars := 0; oc_methods := []; oc_classes := [$"a"]; oc_superMethods := None |} [])))];
     ts_locs := [(1,1,2,2)]%Z;
     ts_evals := []; ts_same := []; ts_decls := []; ts_parents := [] |}.
Example TooManyFields_ObjCInterfaceNoField_holds : sorted_violations_of (shippedRule sh_TooManyFields) TooManyFields_ObjCInterfaceNoField = Some [].
Proof. vm_compute. reflexivity. Qed.

Definition TooManyFields_ObjCInterfaceTwoFields : testcase :=
  {| ts_lang := LObjC; ts_path := $"input.m"; ts_code := [];
     ts_comments := []; ts_conf := [($"TOO_MANY_FIELDS", $"2")];
     ts_tops := [(toplevel 0 (TOther), (Node 0 [] (ObjCContainerDecl {| oc_kind := OKInterface; oc_name := $"a"; oc_lines := (5)%Z; oc_ivars := 2; oc_methods := []; oc_classes := [$"a"]; oc_superMethods := None |} [(Node 1 [] (OtherDecl [])); (Node 2 [] (OtherDecl []))])))];
     ts_locs := [(1,1,5,2); (2,1,2,5); (3,1,3,5)]%Z;
     ts_evals := []; ts_same := []; ts_decls := []; ts_parents := [] |}.
Example TooManyFields_ObjCInterfaceTwoFields_holds : sorted_violations_of (shippedRule sh_TooManyFields) TooManyFields_ObjCInterfaceTwoFields = Some [].
Proof. vm_compute. reflexivity. Qed.

Definition TooManyFields_ObjCInterfaceThreeFields : testcase :=
  {| ts_lang := LObjC; ts_path := $"input.m"; ts_code := [];
     ts_comments := []; ts_conf := [($"TOO_MANY_FIELDS", $"2")];
     ts_tops := [(toplevel 0 (TOther), (Node 0 [] (ObjCContainerDecl {| oc_kind := OKInterface; oc_name := $"a"; oc_lines := (5)%Z; oc_ivars := 3; oc_methods := []; oc_classes := [$"a"]; oc_superMethods := None |} [(Node 1 [] (OtherDecl [])); (Node 2 [] (OtherDecl [])); (Node 3 [] (OtherDecl []))])))];
     ts_locs := [(1,1,5,2); (2,1,2,5); (2,1,2,8); (3,1,3,5)]%Z;
     ts_evals := []; ts_same := []; ts_decls := []; ts_parents := [] |}.
Example TooManyFields_ObjCInterfaceThreeFields_holds : nth_violation (shippedRule sh_TooManyFields) TooManyFields_ObjCInterfaceThreeFields 0 = Some (1, 1, 5, 2, $"Objective-C interface with 3 fields exceeds limit of 2")%Z.
Proof. vm_compute. reflexivity. Qed.

Definition TooManyFields_ObjCInterfaceFourFields : testcase :=
  {| ts_lang := LObjC; ts_path := $"input.m"; ts_code := [];
     ts_comments := []; ts_conf := [($"TOO_MANY_FIELDS", $"2")];
     ts_tops := [(toplevel 0 (TOther), (Node 0 [] (ObjCContainerDecl {| oc_kind := OKInterface; oc_name := $"a"; oc_lines := (5)%Z; oc_ivars := 4; oc_methods := []; oc_classes := [$"a"]; oc_superMethods := None |} [(Node 1 [] (OtherDecl [])); (Node 2 [] (OtherDecl [])); (Node 3 [] (OtherDecl [])); (Node 4 [] (OtherDecl []))])))];
     ts_locs := [(1,1,5,2); (2,1,2,5); (2,1,2,8); (3,1,3,5); (3,1,3,8)]%Z;
     ts_evals := []; ts_same := []; ts_decls := []; ts_parents := [] |}.
Example TooManyFields_ObjCInterfaceFourFields_holds : nth_violation (shippedRule sh_TooManyFields) TooManyFields_ObjCInterfaceFourFields 0 = Some (1, 1, 5, 2, $"Objective-C interface with 4 fields exceeds limit of 2")%Z.
Proof. vm_compute. reflexivity. Qed.

Definition TooManyFields_ObjCInterfaceFourFieldsWithOneProperty : testcase :=
  {| ts_lang := LObjC; ts_path := $"input.m"; ts_code := [];
     ts_comments := []; ts_conf := [($"TOO_MANY_FIELDS", $"2")];
     ts_tops := [(toplevel 0 (TOther), (Node 0 [] (ObjCContainerDecl {| oc_kind := OKInterface; oc_name := $"a"; oc_lines := (6)%Z; oc_ivars := 4; oc_methods := [($"m", true); ($"setM:", true)]; oc_classes := [$"a"]; oc_superMethods := None |} [(Node 1 [] (OtherDecl [])); (Node 2 [] (OtherDecl [])); (Node 3 [] (OtherDecl [])); (Node 4 [] (OtherDecl [])); (Node 5 [] (OtherDecl []))])))];
     ts_locs := [(1,1,6,2); (2,1,2,5); (2,1,2,8); (3,1,3,5); (3,1,3,8); (5,1,5,15)]%Z;
     ts_evals := []; ts_same := []; ts_decls := []; ts_parents := [] |}.
Example TooManyFields_ObjCInterfaceFourFieldsWithOneProperty_holds : nth_violation (shippedRule sh_TooManyFields) TooManyFields_ObjCInterfaceFourFieldsWithOneProperty 0 = Some (1, 1, 6, 2, $"Objective-C interface with 4 fields exceeds limit of 2")%Z.
Proof. vm_compute. reflexivity. Qed.

(** ** oclint-rules/test/size/TooManyMethodsRuleTest.cpp *)

Definition TooManyMethods_CXXClassNoMethod : testcase :=
  {| ts_lang := LCXX; ts_path := $"input.cpp"; ts_code := [];
     ts_comments := []; ts_conf := [($"TOO_MANY_METHODS", $"3")];
     ts_tops := [(toplevel 0 (TOther), (Node 0 [] (CXXRecordDecl {| r_class := (CxxRecord 0 $"c" true false None []); r_fields := 1; r_methods := 1; r_lines := (1)%Z |} [(Node 1 [] (OtherDecl [])); (Node 2 [] (FunctionDecl {| f_name := $"m"; f_method := (Some {| cm_virtual := false; cm_static := false; cm_private := true; cm_inRecord := true |}); f_isDefinition := true; f_bodyLines := (1)%Z |} [] (Some (Node 3 [] (CompoundStmt [])))))])))];
     ts_locs := [(1,1,1,30); (1,11,1,15); (1,18,1,28); (1,27,1,28)]%Z;
     ts_evals := []; ts_same := []; ts_decls := []; ts_parents := [] |}.
Example TooManyMethods_CXXClassNoMethod_holds : sorted_violations_of (shippedRule sh_TooManyMethods) TooManyMethods_CXXClassNoMethod = Some [].
Proof. vm_compute. reflexivity. Qed.

Definition TooManyMethods_CXXClassThreeMethods : testcase :=
  {| ts_lang := LCXX; ts_path := $"input.cpp"; ts_code := [];
     ts_comments := []; ts_conf := [($"TOO_MANY_METHODS", $"3")];
     ts_tops := [(toplevel 0 (TOther), (Node 0 [] (CXXRecordDecl {| r_class := (CxxRecord 0 $"c" true false None []); r_fields := 1; r_methods := 3; r_lines := (1)%Z |} [(Node 1 [] (OtherDecl [])); (Node 2 [] (FunctionDecl {| f_name := $"m"; f_method := (Some {| cm_virtual := false; cm_static := false; cm_private := true; cm_inRecord := true |}); f_isDefinition := true; f_bodyLines := (1)%Z |} [] (Some (Node 3 [] (CompoundStmt []))))); (Node 4 [] (FunctionDecl {| f_name := $"n"; f_method := (Some {| cm_virtual := false; cm_static := false; cm_private := true; cm_inRecord := true |}); f_isDefinition := true; f_bodyLines := (1)%Z |} [] (Some (Node 5 [] (CompoundStmt []))))); (Node 6 [] (FunctionDecl {| f_name := $"o"; f_method := (Some {| cm_virtual := false; cm_static := false; cm_private := true; cm_inRecord := true |}); f_isDefinition := true; f_bodyLines := (1)%Z |} [] (Some (Node 7 [] (CompoundStmt [])))))])))];
     ts_locs := [(1,1,1,54); (1,11,1,15); (1,18,1,28); (1,27,1,28); (1,30,1,40); (1,39,1,40); (1,42,1,52); (1,51,1,52)]%Z;
     ts_evals := []; ts_same := []; ts_decls := []; ts_parents := [] |}.
Example TooManyMethods_CXXClassThreeMethods_holds : sorted_violations_of (shippedRule sh_TooManyMethods) TooManyMethods_CXXClassThreeMethods = Some [].
Proof. vm_compute. reflexivity. Qed.

Definition TooManyMethods_CXXClassFourMethods : testcase :=
  {| ts_lang := LCXX; ts_path := $"input.cpp"; ts_code := [];
     ts_comments := []; ts_conf := [($"TOO_MANY_METHODS", $"3")];
     ts_tops := [(toplevel 0 (TOther), (Node 0 [] (CXXRecordDecl {| r_class := (CxxRecord 0 $"c" true false None []); r_fields := 1; r_methods := 4; r_lines := (1)%Z |} [(Node 1 [] (OtherDecl [])); (Node 2 [] (FunctionDecl {| f_name := $"m"; f_method := (Some {| cm_virtual := false; cm_static := false; cm_private := true; cm_inRecord := true |}); f_isDefinition := true; f_bodyLines := (1)%Z |} [] (Some (Node 3 [] (CompoundStmt []))))); (Node 4 [] (FunctionDecl {| f_name := $"n"; f_method := (Some {| cm_virtual := false; cm_static := false; cm_private := true; cm_inRecord := true |}); f_isDefinition := true; f_bodyLines := (1)%Z |} [] (Some (Node 5 [] (CompoundStmt []))))); (Node 6 [] (FunctionDecl {| f_name := $"o"; f_method := (Some {| cm_virtual := false; cm_static := false; cm_private := true; cm_inRecord := true |}); f_isDefinition := true; f_bodyLines := (1)%Z |} [] (Some (Node 7 [] (CompoundStmt []))))); (Node 8 [] (FunctionDecl {| f_name := $"p"; f_method := (Some {| cm_virtual := false; cm_static := false; cm_private := true; cm_inRecord := true |}); f_isDefinition := true; f_bodyLines := (1)%Z |} [] (Some (Node 9 [] (CompoundStmt [])))))])))];
     ts_locs := [(1,1,1,66); (1,11,1,15); (1,18,1,28); (1,27,1,28); (1,30,1,40); (1,39,1,40); (1,42,1,52); (1,51,1,52); (1,54,1,64); (1,63,1,64)]%Z;
     ts_evals := []; ts_same := []; ts_decls := []; ts_parents := [] |}.
Example TooManyMethods_CXXClassFourMethods_holds : nth_violation (shippedRule sh_TooManyMethods) TooManyMethods_CXXClassFourMethods 0 = Some (1, 1, 1, 66, $"C++ class with 4 methods exceeds limit of 3")%Z.
Proof. vm_compute. reflexivity. Qed.

Definition TooManyMethods_CXXClassFiveMethods : testcase :=
  {| ts_lang := LCXX; ts_path := $"input.cpp"; ts_code := [];
     ts_comments := []; ts_conf := [($"TOO_MANY_METHODS", $"3")];
     ts_tops := [(toplevel 0 (TOther), (Node 0 [] (CXXRecordDecl {| r_class := (CxxRecord 0 $"c" true false None []); r_fields := 1; r_methods := 5; r_lines := (1)%Z |} [(Node 1 [] (OtherDecl [])); (Node 2 [] (FunctionDecl {| f_name := $"m"; f_method := (Some {| cm_virtual := false; cm_static := false; cm_private := true; cm_inRecord := true |}); f_isDefinition := true; f_bodyLines := (1)%Z |} [] (Some (Node 3 [] (CompoundStmt []))))); (Node 4 [] (FunctionDecl {| f_name := $"n"; f_method := (Some {| cm_virtual := false; cm_static := false; cm_private := true; cm_inRecord := true |}); f_isDefinition := true; f_bodyLines := (1)%Z |} [] (Some (Node 5 [] (CompoundStmt []))))); (Node 6 [] (FunctionDecl {| f_name := $"o"; f_method := (Some {| cm_virtual := false; cm_static := false; cm_private := true; cm_inRecord := true |}); f_isDefinition := true; f_bodyLines := (1)%Z |} [] (Some (Node 7 [] (CompoundStmt []))))); (Node 8 [] (FunctionDecl {| f_name := $"p"; f_method := (Some {| cm_virtual := false; cm_static := false; cm_private := true; cm_inRecord := true |}); f_isDefinition := true; f_bodyLines := (1)%Z |} [] (Some (Node 9 [] (CompoundStmt []))))); (Node 10 [] (FunctionDecl {| f_name := $"q"; f_method := (Some {| cm_virtual := false; cm_static := false; cm_private := true; cm_inRecord := true |}); f_isDefinition := true; f_bodyLines := (1)%Z |} [] (Some (Node 11 [] (CompoundStmt [])))))])))];
     ts_locs := [(1,1,1,78); (1,11,1,15); (1,18,1,28); (1,27,1,28); (1,30,1,40); (1,39,1,40); (1,42,1,52); (1,51,1,52); (1,54,1,64); (1,63,1,64); (1,66,1,76); (1,75,1,76)]%Z;
     ts_evals := []; ts_same := []; ts_decls := []; ts_parents := [] |}.
Example TooManyMethods_CXXClassFiveMethods_holds : nth_violation (shippedRule sh_TooManyMethods) TooManyMethods_CXXClassFiveMethods 0 = Some (1, 1, 1, 78, $"C++ class with 5 methods exceeds limit of 3")%Z.
Proof. vm_compute. reflexivity. Qed.

Definition TooManyMethods_ObjCImplementationNoMethod : testcase :=
  {| ts_lang := LObjC; ts_path := $"input.m"; ts_code := [];
     ts_comments := []; ts_conf := [($"TOO_MANY_METHODS", $"3")];
     ts_tops := [(toplevel 0 (TOther), (Node 0 [] (ObjCContainerDecl {| oc_kind := OKInterface; oc_name := $"a"; oc_lines := (2)%Z; oc_ivars := 0; oc_methods := []; oc_classes := [$"a"]; oc_superMethods := None |} []))); (toplevel 1 (TOther), (Node 1 [] (ObjCContainerDecl {| oc_kind := OKImplementation; oc_name := $"a"; oc_lines := (2)%Z; oc_ivars := 0; oc_methods := []; oc_classes := [$"a"]; oc_superMethods := None |} [])))];
     ts_locs := [(1,1,2,2); (3,1,4,1)]%Z;
     ts_evals := []; ts_same := []; ts_decls := []; ts_parents := [] |}.
Example TooManyMethods_ObjCImplementationNoMethod_holds : sorted_violations_of (shippedRule sh_TooManyMethods) TooManyMethods_ObjCImplementationNoMethod = Some [].
Proof. vm_compute. reflexivity. Qed.

Definition TooManyMethods_ObjCImplementationThreeMethods : testcase :=
  {| ts_lang := LObjC; ts_path := $"input.m"; ts_code := [];
     ts_comments := []; ts_conf := [($"TOO_MANY_METHODS", $"3")];
     ts_tops := [(toplevel 0 (TOther), (Node 0 [] (ObjCContainerDecl {| oc_kind := OKInterface; oc_name := $"a"; oc_lines := (2)%Z; oc_ivars := 0; oc_methods := []; oc_classes := [$"a"]; oc_superMethods := None |} []))); (toplevel 1 (TOther), (Node 1 [] (ObjCContainerDecl {| oc_kind := OKImplementation; oc_name := $"a"; oc_lines := (5)%Z; oc_ivars := 0; oc_methods := [($"m", true); ($"n", false); ($"o", true)]; oc_classes := [$"a"]; oc_superMethods := None |} [(Node 2 [] (ObjCMethodDecl {| om_selector := $"m"; om_class := (Some $"a"); om_overriding := false; om_overridden := []; om_bodyLines := (1)%Z |} [] (Some (Node 3 [] (CompoundStmt []))))); (Node 4 [] (ObjCMethodDecl {| om_selector := $"n"; om_class := (Some $"a"); om_overriding := false; om_overridden := []; om_bodyLines := (1)%Z |} [] (Some (Node 5 [] (CompoundStmt []))))); (Node 6 [] (ObjCMethodDecl {| om_selector := $"o"; om_class := (Some $"a"); om_overriding := false; om_overridden := []; om_bodyLines := (1)%Z |} [] (Some (Node 7 [] (CompoundStmt [])))))])))];
     ts_locs := [(1,1,2,2); (3,1,7,1); (4,1,4,11); (4,10,4,11); (5,1,5,11); (5,10,5,11); (6,1,6,11); (6,10,6,11)]%Z;
     ts_evals := []; ts_same := []; ts_decls := []; ts_parents := [] |}.
Example TooManyMethods_ObjCImplementationThreeMethods_holds : sorted_violations_of (shippedRule sh_TooManyMethods) TooManyMethods_ObjCImplementationThreeMethods = Some [].
Proof. vm_compute. reflexivity. Qed.

Definition TooManyMethods_ObjCImplementationFourMethods : testcase :=
  {| ts_lang := LObjC; ts_path := $"input.m"; ts_code := [];
     ts_comments := []; ts_conf := [($"TOO_MANY_METHODS", $"3")];
     ts_tops := [(toplevel 0 (TOther), (Node 0 [] (ObjCContainerDecl {| oc_kind := OKInterface; oc_name := $"a"; oc_lines := (2)%Z; oc_ivars := 0; oc_methods := []; oc_classes := [$"a"]; oc_superMethods := None |} []))); (toplevel 1 (TOther), (Node 1 [] (ObjCContainerDecl {| oc_kind := OKImplementation; oc_name := $"a"; oc_lines := (6)%Z; oc_ivars := 0; oc_methods := [($"m", true); ($"n", false); ($"o", true); ($"p", false)]; oc_classes := [$"a"]; oc_superMethods := None |} [(Node 2 [] (ObjCMethodDecl {| om_selector := $"m"; om_class := (Some $"a"); om_overriding := false; om_overridden := []; om_bodyLines := (1)%Z |} [] (Some (Node 3 [] (CompoundStmt []))))); (Node 4 [] (ObjCMethodDecl {| om_selector := $"n"; om_class := (Some $"a"); om_overriding := false; om_overridden := []; om_bodyLines := (1)%Z |} [] (Some (Node 5 [] (CompoundStmt []))))); (Node 6 [] (ObjCMethodDecl {| om_selector := $"o"; om_class := (Some $"a"); om_overriding := false; om_overridden := []; om_bodyLines := (1)%Z |} [] (Some (Node 7 [] (CompoundStmt []))))); (Node 8 [] (ObjCMethodDecl {| om_selector := $"p"; om_class := (Some $"a"); om_overriding := false; om_overridden := []; om_bodyLines := (1)%Z |} [] (Some (Node 9 [] (CompoundStmt [])))))])))];
     ts_locs := [(1,1,2,2); (3,1,8,1); (4,1,4,11); (4,10,4,11); (5,1,5,11); (5,10,5,11); (6,1,6,11); (6,10,6,11); (7,1,7,11); (7,10,7,11)]%Z;
     ts_evals := []; ts_same := []; ts_decls := []; ts_parents := [] |}.
Example TooManyMethods_ObjCImplementationFourMethods_holds : nth_violation (shippedRule sh_TooManyMethods) TooManyMethods_ObjCImplementationFourMethods 0 = Some (3, 1, 8, 1, $"Objective-C implementation with 4 methods exceeds limit of 3")%Z.
Proof. vm_compute. reflexivity. Qed.

Definition TooManyMethods_ObjCImplementationFiveMethods : testcase :=
  {| ts_lang := LObjC; ts_path := $"input.m"; ts_code := [];
     ts_comments := []; ts_conf := [($"TOO_MANY_METHODS", $"3")];
     ts_tops := [(toplevel 0 (TOther), (Node 0 [] (ObjCContainerDecl {| oc_kind := OKInterface; oc_name := $"a"; oc_lines := (2)%Z; oc_ivars := 0; oc_methods := []; oc_classes := [$"a"]; oc_superMethods := None |} []))); (toplevel 1 (TOther), (Node 1 [] (ObjCContainerDecl {| oc_kind := OKImplementation; oc_name := $"a"; oc_lines := (7)%Z; oc_ivars := 0; oc_methods := [($"m", true); ($"n", false); ($"o", true); ($"p", false); ($"q", true)]; oc_classes := [$"a"]; oc_superMethods := None |} [(Node 2 [] (ObjCMethodDecl {| om_selector := $"m"; om_class := (Some $"a"); om_overriding := false; om_overridden := []; om_bodyLines := (1)%Z |} [] (Some (Node 3 [] (CompoundStmt []))))); (Node 4 [] (ObjCMethodDecl {| om_selector := $"n"; om_class := (Some $"a"); om_overriding := false; om_overridden := []; om_bodyLines := (1)%Z |} [] (Some (Node 5 [] (CompoundStmt []))))); (Node 6 [] (ObjCMethodDecl {| om_selector := $"o"; om_class := (Some $"a"); om_overriding := false; om_overridden := []; om_bodyLines := (1)%Z |} [] (Some (Node 7 [] (CompoundStmt []))))); (Node 8 [] (ObjCMethodDecl {| om_selector := $"p"; om_class := (Some $"a"); om_overriding := false; om_overridden := []; om_bodyLines := (1)%Z |} [] (Some (Node 9 [] (CompoundStmt []))))); (Node 10 [] (ObjCMethodDecl {| om_selector := $"q"; om_class := (Some $"a"); om_overriding := false; om_overridden := []; om_bodyLines := (1)%Z |} [] (Some (Node 11 [] (CompoundStmt [])))))])))];
     ts_locs := [(1,1,2,2); (3,1,9,1); (4,1,4,11); (4,10,4,11); (5,1,5,11); (5,10,5,11); (6,1,6,11); (6,10,6,11); (7,1,7,11); (7,10,7,11); (8,1,8,11); (8,10,8,11)]%Z;
     ts_evals := []; ts_same := []; ts_decls := []; ts_parents := [] |}.
Example TooManyMethods_ObjCImplementationFiveMethods_holds : nth_violation (shippedRule sh_TooManyMethods) TooManyMethods_ObjCImplementationFiveMethods 0 = Some (3, 1, 9, 1, $"Objective-C implementation with 5 methods exceeds limit of 3")%Z.
Proof. vm_compute. reflexivity. Qed.

Definition TooManyMethods_ObjCCategoryImplThreeMethods : testcase :=
  {| ts_lang := LObjC; ts_path := $"input.m"; ts_code := [];
     ts_comments := []; ts_conf := [($"TOO_MANY_METHODS", $"3")];
     ts_tops := [(toplevel 0 (TOther), (Node 0 [] (ObjCContainerDecl {| oc_kind := OKInterface; oc_name := $"a"; oc_lines := (2)%Z; oc_ivars := 0; oc_methods := []; oc_classes := [$"a"]; oc_superMethods := None |} []))); (toplevel 1 (TOther), (Node 1 [] (ObjCContainerDecl {| oc_kind := OKCategory; oc_name := $"b"; oc_lines := (2)%Z; oc_ivars := 0; oc_methods := []; oc_classes := []; oc_superMethods := None |} []))); (toplevel 2 (TOther), (Node 2 [] (ObjCContainerDecl {| oc_kind := OKCategoryImpl; oc_name := $"b"; oc_lines := (5)%Z; oc_ivars := 0; oc_methods := [($"m", true); ($"n", false); ($"o", true)]; oc_classes := [$"a"]; oc_superMethods := None |} [(Node 3 [] (ObjCMethodDecl {| om_selector := $"m"; om_class := (Some $"a"); om_overriding := false; om_overridden := []; om_bodyLines := (1)%Z |} [] (Some (Node 4 [] (CompoundStmt []))))); (Node 5 [] (ObjCMethodDecl {| om_selector := $"n"; om_class := (Some $"a"); om_overriding := false; om_overridden := []; om_bodyLines := (1)%Z |} [] (Some (Node 6 [] (CompoundStmt []))))); (Node 7 [] (ObjCMethodDecl {| om_selector := $"o"; om_class := (Some $"a"); om_overriding := false; om_overridden := []; om_bodyLines := (1)%Z |} [] (Some (Node 8 [] (CompoundStmt [])))))]))); (toplevel 9 (TOther), (Node 9 [] (ObjCContainerDecl {| oc_kind := OKImplementation; oc_name := $"a"; oc_lines := (2)%Z; oc_ivars := 0; oc_methods := []; oc_classes := [$"a"]; oc_superMethods := None |} [])))];
     ts_locs := [(1,1,2,2); (3,1,4,2); (5,1,9,1); (6,1,6,11); (6,10,6,11); (7,1,7,11); (7,10,7,11); (8,1,8,11); (8,10,8,11); (10,1,11,1)]%Z;
     ts_evals := []; ts_same := []; ts_decls := []; ts_parents := [] |}.
Example TooManyMethods_ObjCCategoryImplThreeMethods_holds : sorted_violations_of (shippedRule sh_TooManyMethods) TooManyMethods_ObjCCategoryImplThreeMethods = Some [].
Proof. vm_compute. reflexivity. Qed.

Definition TooManyMethods_ObjCCategoryImplFourMethods : testcase :=
  {| ts_lang := LObjC; ts_path := $"input.m"; ts_code := [];
     ts_comments := []; ts_conf := [($"TOO_MANY_METHODS", $"3")];
     ts_tops := [(toplevel 0 (TOther), (Node 0 [] (ObjCContainerDecl {| oc_kind := OKInterface; oc_name := $"a"; oc_lines := (2)%Z; oc_ivars := 0; oc_methods := []; oc_classes := [$"a"]; oc_superMethods := None |} []))); (toplevel 1 (TOther), (Node 1 [] (ObjCContainerDecl {| oc_kind := OKCategory; oc_name := $"b"; oc_lines := (2)%Z; oc_ivars := 0; oc_methods := []; oc_classes := []; oc_superMethods := None |} []))); (toplevel 2 (TOther), (Node 2 [] (ObjCContainerDecl {| oc_kind := OKCategoryImpl; oc_name := $"b"; oc_lines := (6)%Z; oc_ivars := 0; oc_methods := [($"m", true); ($"n", false); ($"o", true); ($"p", false)]; oc_classes := [$"a"]; oc_superMethods := None |} [(Node 3 [] (ObjCMethodDecl {| om_selector := $"m"; om_class := (Some $"a"); om_overriding := false; om_overridden := []; om_bodyLines := (1)%Z |} [] (Some (Node 4 [] (CompoundStmt []))))); (Node 5 [] (ObjCMethodDecl {| om_selector := $"n"; om_class := (Some $"a"); om_overriding := false; om_overridden := []; om_bodyLines := (1)%Z |} [] (Some (Node 6 [] (CompoundStmt []))))); (Node 7 [] (ObjCMethodDecl {| om_selector := $"o"; om_class := (Some $"a"); om_overriding := false; om_overridden := []; om_bodyLines := (1)%Z |} [] (Some (Node 8 [] (CompoundStmt []))))); (Node 9 [] (ObjCMethodDecl {| om_selector := $"p"; om_class := (Some $"a"); om_overriding := false; om_overridden := []; om_bodyLines := (1)%Z |} [] (Some (Node 10 [] (CompoundStmt [])))))]))); (toplevel 11 (TOther), (Node 11 [] (ObjCContainerDecl {| oc_kind := OKImplementation; oc_name := $"a"; oc_lines := (2)%Z; oc_ivars := 0; oc_methods := []; oc_classes := [$"a"]; oc_superMethods := None |} [])))];
     ts_locs := [(1,1,2,2); (3,1,4,2); (5,1,10,1); (6,1,6,11); (6,10,6,11); (7,1,7,11); (7,10,7,11); (8,1,8,11); (8,10,8,11); (9,1,9,11); (9,10,9,11); (11,1,12,1)]%Z;
     ts_evals := []; ts_same := []; ts_decls := []; ts_parents := [] |}.
Example TooManyMethods_ObjCCategoryImplFourMethods_holds : nth_violation (shippedRule sh_TooManyMethods) TooManyMethods_ObjCCategoryImplFourMethods 0 = Some (5, 1, 10, 1, $"Objective-C implementation with 4 methods exceeds limit of 3")%Z.
Proof. vm_compute. reflexivity. Qed.

Definition TooManyMethods_ObjCCategoryImplFiveMethods : testcase :=
  {| ts_lang := LObjC; ts_path := $"input.m"; ts_code := [];
     ts_comments := []; ts_conf := [($"TOO_MANY_METHODS", $"3")];
     ts_tops := [(toplevel 0 (TOther), (Node 0 [] (ObjCContainerDecl {| oc_kind := OKInterface; oc_name := $"a"; oc_lines := (2)%Z; oc_ivars := 0; oc_methods := []; oc_classes := [$"a"]; oc_superMethods := None |} []))); (toplevel 1 (TOther), (Node 1 [] (ObjCContainerDecl {| oc_kind := OKCategory; oc_name := $"b"; oc_lines := (2)%Z; oc_ivars := 0; oc_methods := []; oc_classes := []; oc_superMethods := None |} []))); (toplevel 2 (TOther), (Node 2 [] (ObjCContainerDecl {| oc_kind := OKCategoryImpl; oc_name := $"b"; oc_lines := (7)%Z; oc_ivars := 0; oc_methods := [($"m", true); ($"n", false); ($"o", true); ($"p", false); ($"q", true)]; oc_classes := [$"a"]; oc_superMethods := None |} [(Node 3 [] (ObjCMethodDecl {| om_selector := $"m"; om_class := (Some $"a"); om_overriding := false; om_overridden := []; om_bodyLines := (1)%Z |} [] (Some (Node 4 [] (CompoundStmt []))))); (Node 5 [] (ObjCMethodDecl {| om_selector := $"n"; om_class := (Some $"a"); om_overriding := false; om_overridden := []; om_bodyLines := (1)%Z |} [] (Some (Node 6 [] (CompoundStmt []))))); (Node 7 [] (ObjCMethodDecl {| om_selector := $"o"; om_class := (Some $"a"); om_overriding := false; om_overridden := []; om_bodyLines := (1)%Z |} [] (Some (Node 8 [] (CompoundStmt []))))); (Node 9 [] (ObjCMethodDecl {| om_selector := $"p"; om_class := (Some $"a"); om_overriding := false; om_overridden := []; om_bodyLines := (1)%Z |} [] (Some (Node 10 [] (CompoundStmt []))))); (Node 11 [] (ObjCMethodDecl {| om_selector := $"q"; om_class := (Some $"a"); om_overriding := false; om_overridden := []; om_bodyLines := (1)%Z |} [] (Some (Node 12 [] (CompoundStmt [])))))]))); (toplevel 13 (TOther), (Node 13 [] (ObjCContainerDecl {| oc_kind := OKImplementation; oc_name := $"a"; oc_lines := (2)%Z; oc_ivars := 0; oc_methods := []; oc_classes := [$"a"]; oc_superMethods := None |} [])))];
     ts_locs := [(1,1,2,2); (3,1,4,2); (5,1,11,1); (6,1,6,11); (6,10,6,11); (7,1,7,11); (7,10,7,11); (8,1,8,11); (8,10,8,11); (9,1,9,11); (9,10,9,11); (10,1,10,11); (10,10,10,11); (12,1,13,1)]%Z;
     ts_evals := []; ts_same := []; ts_decls := []; ts_parents := [] |}.
Example TooManyMethods_ObjCCategoryImplFiveMethods_holds : nth_violation (shippedRule sh_TooManyMethods) TooManyMethods_ObjCCategoryImplFiveMethods 0 = Some (5, 1, 11, 1, $"Objective-C implementation with 5 methods exceeds limit of 3")%Z.
Proof. vm_compute. reflexivity. Qed.

Definition TooManyMethods_ObjCImplementationFourMethodsMethodsWithOneProperty : testcase :=
  {| ts_lang := LObjC; ts_path := $"input.m"; ts_code := [];
     ts_comments := []; ts_conf := [($"TOO_MANY_METHODS", $"3")];
     ts_tops := [(toplevel 0 (TOther), (Node 0 [] (ObjCContainerDecl {| oc_kind := OKInterface; oc_name := $"a"; oc_lines := (6)%Z; oc_ivars := 1; oc_methods := [($"i", true); ($"setI:", true)]; oc_classes := [$"a"]; oc_superMethods := None |} [(Node 1 [] (OtherDecl [])); (Node 2 [] (OtherDecl []))]))); (toplevel 3 (TOther), (Node 3 [] (ObjCContainerDecl {| oc_kind := OKImplementation; oc_name := $"a"; oc_lines := (8)%Z; oc_ivars := 0; oc_methods := [($"i", true); ($"setI:", true); ($"m", true); ($"n", false); ($"o", true); ($"p", false); ($"q", true)]; oc_classes := [$"a"]; oc_superMethods := None |} [(Node 4 [] (OtherDecl [])); (Node 5 [] (ObjCMethodDecl {| om_selector := $"m"; om_class := (Some $"a"); om_overriding := false; om_overridden := []; om_bodyLines := (1)%Z |} [] (Some (Node 6 [] (CompoundStmt []))))); (Node 7 [] (ObjCMethodDecl {| om_selector := $"n"; om_class := (Some $"a"); om_overriding := false; om_overridden := []; om_bodyLines := (1)%Z |} [] (Some (Node 8 [] (CompoundStmt []))))); (Node 9 [] (ObjCMethodDecl {| om_selector := $"o"; om_class := (Some $"a"); om_overriding := false; om_overridden := []; om_bodyLines := (1)%Z |} [] (Some (Node 10 [] (CompoundStmt []))))); (Node 11 [] (ObjCMethodDecl {| om_selector := $"p"; om_class := (Some $"a"); om_overriding := false; om_overridden := []; om_bodyLines := (1)%Z |} [] (Some (Node 12 [] (CompoundStmt []))))); (Node 13 [] (ObjCMethodDecl {| om_selector := $"q"; om_class := (Some $"a"); om_overriding := false; om_overridden := []; om_bodyLines := (1)%Z |} [] (Some (Node 14 [] (CompoundStmt [])))))])))];
     ts_locs := [(1,1,6,2); (3,1,3,5); (5,1,5,15); (7,1,14,1); (8,1,8,13); (9,1,9,11); (9,10,9,11); (10,1,10,11); (10,10,10,11); (11,1,11,11); (11,10,11,11); (12,1,12,11); (12,10,12,11); (13,1,13,11); (13,10,13,11)]%Z;
     ts_evals := []; ts_same := []; ts_decls := []; ts_parents := [] |}.
Example TooManyMethods_ObjCImplementationFourMethodsMethodsWithOneProperty_holds : nth_violation (shippedRule sh_TooManyMethods) TooManyMethods_ObjCImplementationFourMethodsMethodsWithOneProperty 0 = Some (7, 1, 14, 1, $"Objective-C implementation with 7 methods exceeds limit of 3")%Z.
Proof. vm_compute. reflexivity. Qed.

(** ** oclint-rules/test/size/TooManyParametersRuleTest.cpp *)

Definition TooManyParameters_NoParameter : testcase :=
  {| ts_lang := LC; ts_path := $"input.c"; ts_code := [];
     ts_comments := []; ts_conf := [($"TOO_MANY_PARAMETERS", $"1")];
     ts_tops := [(toplevel 0 (TFunction false), (Node 0 [] (FunctionDecl {| f_name := $"m"; f_method := None; f_isDefinition := true; f_bodyLines := (1)%Z |} [] (Some (Node 1 [] (CompoundStmt []))))))];
     ts_locs := [(1,1,1,11); (1,10,1,11)]%Z;
     ts_evals := []; ts_same := []; ts_decls := []; ts_parents := [] |}.
Example TooManyParameters_NoParameter_holds : sorted_violations_of (shippedRule sh_TooManyParameters) TooManyParameters_NoParameter = Some [].
Proof. vm_compute. reflexivity. Qed.

Definition TooManyParameters_OneParameter : testcase :=
  {| ts_lang := LC; ts_path := $"input.c"; ts_code := [];
     ts_comments := []; ts_conf := [($"TOO_MANY_PARAMETERS", $"1")];
     ts_tops := [(toplevel 0 (TFunction false), (Node 0 [] (FunctionDecl {| f_name := $"m"; f_method := None; f_isDefinition := true; f_bodyLines := (1)%Z |} [(Node 1 [] (VarDecl {| v_isParm := true; v_name := $"a"; v_used := false; v_referenced := false; v_local := false; v_staticMember := false; v_private := false; v_unusedAttr := false; v_defaultArg := false; v_canonicalType := $"int"; v_inTemplate := false; v_contexts := [CxFunction true true false] |} None))] (Some (Node 2 [] (CompoundStmt []))))))];
     ts_locs := [(1,1,1,16); (1,8,1,12); (1,15,1,16)]%Z;
     ts_evals := []; ts_same := []; ts_decls := []; ts_parents := [] |}.
Example TooManyParameters_OneParameter_holds : sorted_violations_of (shippedRule sh_TooManyParameters) TooManyParameters_OneParameter = Some [].
Proof. vm_compute. reflexivity. Qed.

Definition TooManyParameters_TwoParameters : testcase :=
  {| ts_lang := LC; ts_path := $"input.c"; ts_code := [];
     ts_comments := []; ts_conf := [($"TOO_MANY_PARAMETERS", $"1")];
     ts_tops := [(toplevel 0 (TFunction false), (Node 0 [] (FunctionDecl {| f_name := $"m"; f_method := None; f_isDefinition := true; f_bodyLines := (1)%Z |} [(Node 1 [] (VarDecl {| v_isParm := true; v_name := $"a"; v_used := false; v_referenced := false; v_local := false; v_staticMember := false; v_private := false; v_unusedAttr := false; v_defaultArg := false; v_canonicalType := $"int"; v_inTemplate := false; v_contexts := [CxFunction true true false] |} None)); (Node 2 [] (VarDecl {| v_isParm := true; v_name := $"b"; v_used := false; v_referenced := false; v_local := false; v_staticMember := false; v_private := false; v_unusedAttr := false; v_defaultArg := false; v_canonicalType := $"int"; v_inTemplate := false; v_contexts := [CxFunction true true false] |} None))] (Some (Node 3 [] (CompoundStmt []))))))];
     ts_locs := [(1,1,1,23); (1,8,1,12); (1,15,1,19); (1,22,1,23)]%Z;
     ts_evals := []; ts_same := []; ts_decls := []; ts_parents := [] |}.
Example TooManyParameters_TwoParameters_holds : nth_violation (shippedRule sh_TooManyParameters) TooManyParameters_TwoParameters 0 = Some (1, 1, 1, 23, $"Method with 2 parameters exceeds limit of 1")%Z.
Proof. vm_compute. reflexivity. Qed.

Definition TooManyParameters_EmptyMethod : testcase :=
  {| ts_lang := LC; ts_path := $"input.c"; ts_code := [];
     ts_comments := []; ts_conf := [($"TOO_MANY_PARAMETERS", $"1")];
     ts_tops := [(toplevel 0 (TFunction false), (Node 0 [] (FunctionDecl {| f_name := $"m"; f_method := None; f_isDefinition := false; f_bodyLines := (0)%Z |} [(Node 1 [] (VarDecl {| v_isParm := true; v_name := $"a"; v_used := false; v_referenced := false; v_local := false; v_staticMember := false; v_private := false; v_unusedAttr := false; v_defaultArg := false; v_canonicalType := $"int"; v_inTemplate := false; v_contexts := [CxFunction false false false] |} None)); (Node 2 [] (VarDecl {| v_isParm := true; v_name := $"b"; v_used := false; v_referenced := false; v_local := false; v_staticMember := false; v_private := false; v_unusedAttr := false; v_defaultArg := false; v_canonicalType := $"int"; v_inTemplate := false; v_contexts := [CxFunction false false false] |} None)); (Node 3 [] (VarDecl {| v_isParm := true; v_name := $"c"; v_used := false; v_referenced := false; v_local := false; v_staticMember := false; v_private := false; v_unusedAttr := false; v_defaultArg := false; v_canonicalType := $"int"; v_inTemplate := false; v_contexts := [CxFunction false false false] |} None))] None)))];
     ts_locs := [(1,1,1,27); (1,8,1,12); (1,15,1,19); (1,22,1,26)]%Z;
     ts_evals := []; ts_same := []; ts_decls := []; ts_parents := [] |}.
Example TooManyParameters_EmptyMethod_holds : sorted_violations_of (shippedRule sh_TooManyParameters) TooManyParameters_EmptyMethod = Some [].
Proof. vm_compute. reflexivity. Qed.

Definition TooManyParameters_CXXTwoParameters : testcase :=
  {| ts_lang := LCXX; ts_path := $"input.cpp"; ts_code := [];
     ts_comments := []; ts_conf := [($"TOO_MANY_PARAMETERS", $"1")];
     ts_tops := [(toplevel 0 (TOther), (Node 0 [] (CXXRecordDecl {| r_class := (CxxRecord 0 $"a" true false None []); r_fields := 0; r_methods := 1; r_lines := (4)%Z |} [(Node 1 [] (FunctionDecl {| f_name := $"m"; f_method := (Some {| cm_virtual := false; cm_static := false; cm_private := false; cm_inRecord := true |}); f_isDefinition := true; f_bodyLines := (1)%Z |} [(Node 2 [] (VarDecl {| v_isParm := true; v_name := $"a"; v_used := false; v_referenced := false; v_local := false; v_staticMember := false; v_private := false; v_unusedAttr := false; v_defaultArg := false; v_canonicalType := $"int"; v_inTemplate := false; v_contexts := [CxFunction true true false; CxRecord] |} None)); (Node 3 [] (VarDecl {| v_isParm := true; v_name := $"b"; v_used := false; v_referenced := false; v_local := false; v_staticMember := false; v_private := false; v_unusedAttr := false; v_defaultArg := false; v_canonicalType := $"int"; v_inTemplate := false; v_contexts := [CxFunction true true false; CxRecord] |} None))] (Some (Node 4 [] (CompoundStmt [])))))])))];
     ts_locs := [(1,1,4,1); (3,1,3,23); (3,8,3,12); (3,15,3,19); (3,22,3,23)]%Z;
     ts_evals := []; ts_same := []; ts_decls := []; ts_parents := [] |}.
Example TooManyParameters_CXXTwoParameters_holds : nth_violation (shippedRule sh_TooManyParameters) TooManyParameters_CXXTwoParameters 0 = Some (3, 1, 3, 23, $"Method with 2 parameters exceeds limit of 1")%Z.
Proof. vm_compute. reflexivity. Qed.

Definition TooManyParameters_ObjCTwoParameters : testcase :=
  {| ts_lang := LObjC; ts_path := $"input.m"; ts_code := [];
     ts_comments := []; ts_conf := [($"TOO_MANY_PARAMETERS", $"1")];
     ts_tops := [(toplevel 0 (TOther), (Node 0 [] (ObjCContainerDecl {| oc_kind := OKInterface; oc_name := $"AnInterface"; oc_lines := (2)%Z; oc_ivars := 0; oc_methods := []; oc_classes := [$"AnInterface"]; oc_superMethods := None |} []))); (toplevel 1 (TOther), (Node 1 [] (ObjCContainerDecl {| oc_kind := OKInterface; oc_name := $"AnImplementation"; oc_lines := (3)%Z; oc_ivars := 0; oc_methods := [($"m:another:", true)]; oc_classes := [$"AnImplementation"; $"AnInterface"]; oc_superMethods := (Some ($"AnInterface", [])) |} [(Node 2 [] (ObjCMethodDecl {| om_selector := $"m:another:"; om_class := (Some $"AnImplementation"); om_overriding := false; om_overridden := []; om_bodyLines := (0)%Z |} [(Node 3 [] (VarDecl {| v_isParm := true; v_name := $"a"; v_used := false; v_referenced := false; v_local := false; v_staticMember := false; v_private := false; v_unusedAttr := false; v_defaultArg := false; v_canonicalType := $"int"; v_inTemplate := false; v_contexts := [CxObjCMethod true false false false; CxOther] |} None)); (Node 4 [] (VarDecl {| v_isParm := true; v_name := $"b"; v_used := false; v_referenced := false; v_local := false; v_staticMember := false; v_private := false; v_unusedAttr := false; v_defaultArg := false; v_canonicalType := $"int"; v_inTemplate := false; v_contexts := [CxObjCMethod true false false false; CxOther] |} None))] None))]))); (toplevel 5 (TOther), (Node 5 [] (ObjCContainerDecl {| oc_kind := OKImplementation; oc_name := $"AnImplementation"; oc_lines := (4)%Z; oc_ivars := 0; oc_methods := [($"m:another:", true)]; oc_classes := [$"AnImplementation"; $"AnInterface"]; oc_superMethods := (Some ($"AnInterface", [])) |} [(Node 6 [] (ObjCMethodDecl {| om_selector := $"m:another:"; om_class := (Some $"AnImplementation"); om_overriding := false; om_overridden := []; om_bodyLines := (1)%Z |} [(Node 7 [] (VarDecl {| v_isParm := true; v_name := $"a"; v_used := false; v_referenced := false; v_local := false; v_staticMember := false; v_private := false; v_unusedAttr := false; v_defaultArg := false; v_canonicalType := $"int"; v_inTemplate := false; v_contexts := [CxObjCMethod false false false false] |} None)); (Node 8 [] (VarDecl {| v_isParm := true; v_name := $"b"; v_used := false; v_referenced := false; v_local := false; v_staticMember := false; v_private := false; v_unusedAttr := false; v_defaultArg := false; v_canonicalType := $"int"; v_inTemplate := false; v_contexts := [CxObjCMethod false false false false] |} None))] (Some (Node 9 [] (CompoundStmt [])))))])))];
     ts_locs := [(1,1,2,2); (3,1,5,2); (4,1,4,32); (4,12,4,16); (4,27,4,31); (6,1,9,1); (7,1,8,2); (7,12,7,16); (7,27,7,31); (8,1,8,2)]%Z;
     ts_evals := []; ts_same := []; ts_decls := []; ts_parents := [] |}.
Example TooManyParameters_ObjCTwoParameters_holds : nth_violation (shippedRule sh_TooManyParameters) TooManyParameters_ObjCTwoParameters 0 = Some (7, 1, 8, 2, $"Method with 2 parameters exceeds limit of 1")%Z.
Proof. vm_compute. reflexivity. Qed.

Definition TooManyParameters_Suppress : testcase :=
  {| ts_lang := LObjC; ts_path := $"input.m"; ts_code := [];
     ts_comments := []; ts_conf := [($"TOO_MANY_PARAMETERS", $"1")];
     ts_tops := [(toplevel 0 (TOther), (Node 0 [] (ObjCContainerDecl {| oc_kind := OKInterface; oc_name := $"AnInterface"; oc_lines := (2)%Z; oc_ivars := 0; oc_methods := []; oc_classes := [$"AnInterface"]; oc_superMethods := None |} []))); (toplevel 1 (TOther), (Node 1 [] (ObjCContainerDecl {| oc_kind := OKInterface; oc_name := $"AnImplementation"; oc_lines := (3)%Z; oc_ivars := 0; oc_methods := [($"m:another:", true)]; oc_classes := [$"AnImplementation"; $"AnInterface"]; oc_superMethods := (Some ($"AnInterface", [])) |} [(Node 2 [] (ObjCMethodDecl {| om_selector := $"m:another:"; om_class := (Some $"AnImplementation"); om_overriding := false; om_overridden := []; om_bodyLines := (0)%Z |} [(Node 3 [] (VarDecl {| v_isParm := true; v_name := $"a"; v_used := false; v_referenced := false; v_local := false; v_staticMember := false; v_private := false; v_unusedAttr := false; v_defaultArg := false; v_canonicalType := $"int"; v_inTemplate := false; v_contexts := [CxObjCMethod true false false false; CxOther] |} None)); (Node 4 [] (VarDecl {| v_isParm := true; v_name := $"b"; v_used := false; v_referenced := false; v_local := false; v_staticMember := false; v_private := false; v_unusedAttr := false; v_defaultArg := false; v_canonicalType := $"int"; v_inTemplate := false; v_contexts := [CxObjCMethod true false false false; CxOther] |} None))] None))]))); (toplevel 5 (TOther), (Node 5 [] (ObjCContainerDecl {| oc_kind := OKImplementation; oc_name := $"AnImplementation"; oc_lines := (4)%Z; oc_ivars := 0; oc_methods := [($"m:another:", true)]; oc_classes := [$"AnImplementation"; $"AnInterface"]; oc_superMethods := (Some ($"AnInterface", [])) |} [(Node 6 [] (ObjCMethodDecl {| om_selector := $"m:another:"; om_class := (Some $"AnImplementation"); om_overriding := false; om_overridden := []; om_bodyLines := (1)%Z |} [(Node 7 [] (VarDecl {| v_isParm := true; v_name := $"a"; v_used := false; v_referenced := false; v_local := false; v_staticMember := false; v_private := false; v_unusedAttr := false; v_defaultArg := false; v_canonicalType := $"int"; v_inTemplate := false; v_contexts := [CxObjCMethod false false false false] |} None)); (Node 8 [] (VarDecl {| v_isParm := true; v_name := $"b"; v_used := false; v_referenced := false; v_local := false; v_staticMember := false; v_private := false; v_unusedAttr := false; v_defaultArg := false; v_canonicalType := $"int"; v_inTemplate := false; v_contexts := [CxObjCMethod false false false false] |} None))] (Some (Node 9 [] (CompoundStmt [(Node 10 [] NullStmt)])))))])))];
     ts_locs := [(1,1,2,2); (3,1,5,2); (4,1,4,99); (4,12,4,16); (4,27,4,31); (6,1,9,1); (7,1,8,3); (7,12,7,16); (7,27,7,31); (8,1,8,3); (8,2,8,2)]%Z;
     ts_evals := []; ts_same := []; ts_decls := [(2, (Decl [$"oclint:suppress[too many parameters]"] (Some (Method false None (InOther (Some NoCategory)))))); (6, (Decl [$"oclint:suppress[too many parameters]"] (Some (Method false None (InOther (Some NoCategory))))))]; ts_parents := [(None, true); (None, true); ((Some 1), true); ((Some 2), true); ((Some 2), true); (None, true); ((Some 5), true); ((Some 6), true); ((Some 6), true); ((Some 6), false); ((Some 9), false)] |}.
Example TooManyParameters_Suppress_holds : sorted_violations_of (shippedRule sh_TooManyParameters) TooManyParameters_Suppress = Some [].
Proof. vm_compute. reflexivity. Qed.

