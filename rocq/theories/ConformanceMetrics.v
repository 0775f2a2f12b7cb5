(** * OCLint's own unit tests of oclint-metrics/test, as examples about the model

    Written by tools/conformance/emit.py; do not edit. *)
From Verif Require Import Base ModelConfig ModelSource ModelAST ModelRuleTable ConformanceBase.

(** ** oclint-metrics/test/CyclomaticComplexityMetricTest.cpp *)

Example CyclomaticComplexityMetric_EmptyFunction : getCyclomaticComplexity (Node 0 [] (FunctionDecl {| f_name := $"m"; f_method := None; f_isDefinition := true; f_bodyLines := (1)%Z |} [] (Some (Node 1 [] (CompoundStmt []))))) = 1%Z.
Proof. vm_compute. reflexivity. Qed.

Example CyclomaticComplexityMetric_OneIfStatement : getCyclomaticComplexity (Node 0 [] (FunctionDecl {| f_name := $"aMethod"; f_method := None; f_isDefinition := true; f_bodyLines := (1)%Z |} [] (Some (Node 1 [] (CompoundStmt [(Node 2 [] (IfStmt [] (Node 3 [] (IntegerLiteral (1)%Z)) (Node 4 [] (CompoundStmt [])) None))]))))) = 2%Z.
Proof. vm_compute. reflexivity. Qed.

Example CyclomaticComplexityMetric_OneForStatement : getCyclomaticComplexity (Node 0 [] (FunctionDecl {| f_name := $"aMethod"; f_method := None; f_isDefinition := true; f_bodyLines := (1)%Z |} [] (Some (Node 1 [] (CompoundStmt [(Node 2 [] (ForStmt None [] None None (Node 3 [] (CompoundStmt []))))]))))) = 2%Z.
Proof. vm_compute. reflexivity. Qed.

Example CyclomaticComplexityMetric_OneObjCForCollectionStatement : getCyclomaticComplexity (Node 0 [] (FunctionDecl {| f_name := $"aMethod"; f_method := None; f_isDefinition := true; f_bodyLines := (1)%Z |} [] (Some (Node 1 [] (CompoundStmt [(Node 2 [] (DeclStmt [(Node 3 [] (VarDecl {| v_isParm := false; v_name := $"array"; v_used := true; v_referenced := true; v_local := true; v_staticMember := false; v_private := false; v_unusedAttr := false; v_defaultArg := false; v_canonicalType := $"struct objc_object *"; v_inTemplate := false; v_contexts := [CxFunction true true false] |} None))])); (Node 4 [] (ObjCForCollectionStmt (Node 5 [] (DeclStmt [(Node 6 [] (VarDecl {| v_isParm := false; v_name := $"one"; v_used := false; v_referenced := false; v_local := true; v_staticMember := false; v_private := false; v_unusedAttr := false; v_defaultArg := false; v_canonicalType := $"struct objc_object *"; v_inTemplate := false; v_contexts := [CxFunction true true false] |} None))])) (Node 7 $"id" (ImplicitCastExpr CK_LValueToRValue (Node 8 $"id" (DeclRefExpr 3 $"array" false)))) (Node 9 [] (CompoundStmt []))))]))))) = 2%Z.
Proof. vm_compute. reflexivity. Qed.

Example CyclomaticComplexityMetric_OneWhileStatement : getCyclomaticComplexity (Node 0 [] (FunctionDecl {| f_name := $"aMethod"; f_method := None; f_isDefinition := true; f_bodyLines := (1)%Z |} [] (Some (Node 1 [] (CompoundStmt [(Node 2 [] (WhileStmt [] (Node 3 [] (IntegerLiteral (1)%Z)) (Node 4 [] (CompoundStmt []))))]))))) = 2%Z.
Proof. vm_compute. reflexivity. Qed.

Example CyclomaticComplexityMetric_OneDoStatement : getCyclomaticComplexity (Node 0 [] (FunctionDecl {| f_name := $"aMethod"; f_method := None; f_isDefinition := true; f_bodyLines := (1)%Z |} [] (Some (Node 1 [] (CompoundStmt [(Node 2 [] (DoStmt (Node 3 [] (CompoundStmt [])) (Node 4 [] (IntegerLiteral (1)%Z))))]))))) = 2%Z.
Proof. vm_compute. reflexivity. Qed.

Example CyclomaticComplexityMetric_OneCaseStatement : getCyclomaticComplexity (Node 0 [] (FunctionDecl {| f_name := $"aMethod"; f_method := None; f_isDefinition := true; f_bodyLines := (1)%Z |} [] (Some (Node 1 [] (CompoundStmt [(Node 2 [] (DeclStmt [(Node 3 [] (VarDecl {| v_isParm := false; v_name := $"i"; v_used := true; v_referenced := true; v_local := true; v_staticMember := false; v_private := false; v_unusedAttr := false; v_defaultArg := false; v_canonicalType := $"int"; v_inTemplate := false; v_contexts := [CxFunction true true false] |} (Some (Node 4 [] (IntegerLiteral (1)%Z)))))])); (Node 5 [] (SwitchStmt [] (Node 6 [] (ImplicitCastExpr CK_LValueToRValue (Node 7 [] (DeclRefExpr 3 $"i" false)))) (Node 8 [] (CompoundStmt [(Node 9 [] (CaseStmt (Node 10 [] (OtherExpr [(Node 11 [] (IntegerLiteral (1)%Z))])) (Node 12 [] BreakStmt)))])) false))]))))) = 2%Z.
Proof. vm_compute. reflexivity. Qed.

Example CyclomaticComplexityMetric_TwoCaseStatements : getCyclomaticComplexity (Node 0 [] (FunctionDecl {| f_name := $"aMethod"; f_method := None; f_isDefinition := true; f_bodyLines := (1)%Z |} [] (Some (Node 1 [] (CompoundStmt [(Node 2 [] (DeclStmt [(Node 3 [] (VarDecl {| v_isParm := false; v_name := $"i"; v_used := true; v_referenced := true; v_local := true; v_staticMember := false; v_private := false; v_unusedAttr := false; v_defaultArg := false; v_canonicalType := $"int"; v_inTemplate := false; v_contexts := [CxFunction true true false] |} (Some (Node 4 [] (IntegerLiteral (1)%Z)))))])); (Node 5 [] (SwitchStmt [] (Node 6 [] (ImplicitCastExpr CK_LValueToRValue (Node 7 [] (DeclRefExpr 3 $"i" false)))) (Node 8 [] (CompoundStmt [(Node 9 [] (CaseStmt (Node 10 [] (OtherExpr [(Node 11 [] (IntegerLiteral (1)%Z))])) (Node 12 [] (CaseStmt (Node 13 [] (OtherExpr [(Node 14 [] (IntegerLiteral (2)%Z))])) (Node 15 [] BreakStmt)))))])) false))]))))) = 3%Z.
Proof. vm_compute. reflexivity. Qed.

Example CyclomaticComplexityMetric_OneCXXCatchStatement : getCyclomaticComplexity (Node 0 [] (FunctionDecl {| f_name := $"aMethod"; f_method := None; f_isDefinition := true; f_bodyLines := (1)%Z |} [] (Some (Node 1 [] (CompoundStmt [(Node 2 [] (CXXTryStmt (Node 3 [] (CompoundStmt [])) [(Node 4 [] (CXXCatchStmt None (Node 5 [] (CompoundStmt []))))]))]))))) = 2%Z.
Proof. vm_compute. reflexivity. Qed.

Example CyclomaticComplexityMetric_OneObjCAtCatchStatement : getCyclomaticComplexity (Node 0 [] (FunctionDecl {| f_name := $"aMethod"; f_method := None; f_isDefinition := true; f_bodyLines := (1)%Z |} [] (Some (Node 1 [] (CompoundStmt [(Node 2 [] (ObjCAtTryStmt (Node 3 [] (CompoundStmt [])) [(Node 4 [] (ObjCAtCatchStmt None (Node 5 [] (CompoundStmt []))))] None))]))))) = 2%Z.
Proof. vm_compute. reflexivity. Qed.

Example CyclomaticComplexityMetric_OneConditionalOperator : getCyclomaticComplexity (Node 0 [] (FunctionDecl {| f_name := $"aMethod"; f_method := None; f_isDefinition := true; f_bodyLines := (1)%Z |} [] (Some (Node 1 [] (CompoundStmt [(Node 2 [] (DeclStmt [(Node 3 [] (VarDecl {| v_isParm := false; v_name := $"i"; v_used := false; v_referenced := false; v_local := true; v_staticMember := false; v_private := false; v_unusedAttr := false; v_defaultArg := false; v_canonicalType := $"int"; v_inTemplate := false; v_contexts := [CxFunction true true false] |} (Some (Node 4 [] (ConditionalOperator (Node 5 [] (IntegerLiteral (0)%Z)) (Node 6 [] (IntegerLiteral (1)%Z)) (Node 7 [] (UnaryOperator UO_Minus (Node 8 [] (IntegerLiteral (1)%Z)))))))))]))]))))) = 2%Z.
Proof. vm_compute. reflexivity. Qed.

Example CyclomaticComplexityMetric_OneLogicAndOperator : getCyclomaticComplexity (Node 0 [] (FunctionDecl {| f_name := $"aMethod"; f_method := None; f_isDefinition := true; f_bodyLines := (1)%Z |} [] (Some (Node 1 [] (CompoundStmt [(Node 2 [] (DeclStmt [(Node 3 [] (VarDecl {| v_isParm := false; v_name := $"b"; v_used := false; v_referenced := false; v_local := true; v_staticMember := false; v_private := false; v_unusedAttr := false; v_defaultArg := false; v_canonicalType := $"int"; v_inTemplate := false; v_contexts := [CxFunction true true false] |} (Some (Node 4 [] (BinaryOperator BO_LAnd (Node 5 [] (IntegerLiteral (1)%Z)) (Node 6 [] (IntegerLiteral (0)%Z)))))))]))]))))) = 2%Z.
Proof. vm_compute. reflexivity. Qed.

Example CyclomaticComplexityMetric_OneLogicOrOperator : getCyclomaticComplexity (Node 0 [] (FunctionDecl {| f_name := $"aMethod"; f_method := None; f_isDefinition := true; f_bodyLines := (1)%Z |} [] (Some (Node 1 [] (CompoundStmt [(Node 2 [] (DeclStmt [(Node 3 [] (VarDecl {| v_isParm := false; v_name := $"b"; v_used := false; v_referenced := false; v_local := true; v_staticMember := false; v_private := false; v_unusedAttr := false; v_defaultArg := false; v_canonicalType := $"int"; v_inTemplate := false; v_contexts := [CxFunction true true false] |} (Some (Node 4 [] (BinaryOperator BO_LOr (Node 5 [] (IntegerLiteral (1)%Z)) (Node 6 [] (IntegerLiteral (0)%Z)))))))]))]))))) = 2%Z.
Proof. vm_compute. reflexivity. Qed.

Example CyclomaticComplexityMetric_ABinaryOperatorButHasNoEffectOnCCNCouting : getCyclomaticComplexity (Node 0 [] (FunctionDecl {| f_name := $"aMethod"; f_method := None; f_isDefinition := true; f_bodyLines := (1)%Z |} [] (Some (Node 1 [] (CompoundStmt [(Node 2 [] (DeclStmt [(Node 3 [] (VarDecl {| v_isParm := false; v_name := $"b"; v_used := false; v_referenced := false; v_local := true; v_staticMember := false; v_private := false; v_unusedAttr := false; v_defaultArg := false; v_canonicalType := $"int"; v_inTemplate := false; v_contexts := [CxFunction true true false] |} (Some (Node 4 [] (BinaryOperator BO_EQ (Node 5 [] (IntegerLiteral (1)%Z)) (Node 6 [] (IntegerLiteral (0)%Z)))))))]))]))))) = 1%Z.
Proof. vm_compute. reflexivity. Qed.

(** ** oclint-metrics/test/NPathComplexityMetricTest.cpp *)

Example NPathComplexityMetric_EmptyMethod : nPath (Node 1 [] (CompoundStmt [])) = Val 1%Z.
Proof. vm_compute. reflexivity. Qed.

Example NPathComplexityMetric_IfStmtWithConstantConditionAndEmptyThenCompoundStmt : nPath (Node 1 [] (CompoundStmt [(Node 2 [] (IfStmt [] (Node 3 [] (IntegerLiteral (1)%Z)) (Node 4 [] (CompoundStmt [])) None))])) = Val 2%Z.
Proof. vm_compute. reflexivity. Qed.

Example NPathComplexityMetric_IfStmtWithOneLogicAndOperatorConditionAndEmptyThenCompoundStmt : nPath (Node 1 [] (CompoundStmt [(Node 2 [] (IfStmt [] (Node 3 [] (BinaryOperator BO_LAnd (Node 4 [] (IntegerLiteral (1)%Z)) (Node 5 [] (IntegerLiteral (0)%Z)))) (Node 6 [] (CompoundStmt [])) None))])) = Val 3%Z.
Proof. vm_compute. reflexivity. Qed.

Example NPathComplexityMetric_IfStmtWithOneLogicOrOperatorConditionAndEmptyThenCompoundStmt : nPath (Node 1 [] (CompoundStmt [(Node 2 [] (IfStmt [] (Node 3 [] (BinaryOperator BO_LOr (Node 4 [] (IntegerLiteral (1)%Z)) (Node 5 [] (IntegerLiteral (0)%Z)))) (Node 6 [] (CompoundStmt [])) None))])) = Val 3%Z.
Proof. vm_compute. reflexivity. Qed.

Example NPathComplexityMetric_IfStmtWithMultipleLogicAndOrOperatorsConditionAndEmptyThenCompoundStmt : nPath (Node 1 [] (CompoundStmt [(Node 2 [] (IfStmt [] (Node 3 [] (BinaryOperator BO_LOr (Node 4 [] (IntegerLiteral (0)%Z)) (Node 5 [] (BinaryOperator BO_LAnd (Node 6 [] (IntegerLiteral (1)%Z)) (Node 7 [] (IntegerLiteral (0)%Z)))))) (Node 8 [] (CompoundStmt [])) None))])) = Val 4%Z.
Proof. vm_compute. reflexivity. Qed.

Example NPathComplexityMetric_IfElseStmtWithConstantConditionAndEmptyThenCompoundStmt : nPath (Node 1 [] (CompoundStmt [(Node 2 [] (IfStmt [] (Node 3 [] (IntegerLiteral (1)%Z)) (Node 4 [] (CompoundStmt [])) (Some (Node 5 [] (CompoundStmt [])))))])) = Val 2%Z.
Proof. vm_compute. reflexivity. Qed.

Example NPathComplexityMetric_IfElseStmtWithOneLogicAndOperatorConditionAndEmptyThenCompoundStmt : nPath (Node 1 [] (CompoundStmt [(Node 2 [] (IfStmt [] (Node 3 [] (BinaryOperator BO_LAnd (Node 4 [] (IntegerLiteral (1)%Z)) (Node 5 [] (IntegerLiteral (0)%Z)))) (Node 6 [] (CompoundStmt [])) (Some (Node 7 [] (CompoundStmt [])))))])) = Val 3%Z.
Proof. vm_compute. reflexivity. Qed.

Example NPathComplexityMetric_IfElseStmtWithOneLogicOrOperatorConditionAndEmptyThenCompoundStmt : nPath (Node 1 [] (CompoundStmt [(Node 2 [] (IfStmt [] (Node 3 [] (BinaryOperator BO_LOr (Node 4 [] (IntegerLiteral (1)%Z)) (Node 5 [] (IntegerLiteral (0)%Z)))) (Node 6 [] (CompoundStmt [])) (Some (Node 7 [] (CompoundStmt [])))))])) = Val 3%Z.
Proof. vm_compute. reflexivity. Qed.

Example NPathComplexityMetric_IfElseStmtWithMultipleLogicAndOrOperatorsConditionAndEmptyThenCompoundStmt : nPath (Node 1 [] (CompoundStmt [(Node 2 [] (IfStmt [] (Node 3 [] (BinaryOperator BO_LOr (Node 4 [] (IntegerLiteral (0)%Z)) (Node 5 [] (BinaryOperator BO_LAnd (Node 6 [] (IntegerLiteral (1)%Z)) (Node 7 [] (IntegerLiteral (0)%Z)))))) (Node 8 [] (CompoundStmt [])) (Some (Node 9 [] (CompoundStmt [])))))])) = Val 4%Z.
Proof. vm_compute. reflexivity. Qed.

Example NPathComplexityMetric_NestedIfStmt : nPath (Node 1 [] (CompoundStmt [(Node 2 [] (IfStmt [] (Node 3 [] (IntegerLiteral (1)%Z)) (Node 4 [] (CompoundStmt [(Node 5 [] (IfStmt [] (Node 6 [] (IntegerLiteral (1)%Z)) (Node 7 [] (CompoundStmt [])) None))])) None))])) = Val 3%Z.
Proof. vm_compute. reflexivity. Qed.

Example NPathComplexityMetric_NestedIfElseStmt : nPath (Node 1 [] (CompoundStmt [(Node 2 [] (IfStmt [] (Node 3 [] (IntegerLiteral (1)%Z)) (Node 4 [] (CompoundStmt [(Node 5 [] (IfStmt [] (Node 6 [] (IntegerLiteral (1)%Z)) (Node 7 [] (CompoundStmt [])) (Some (Node 8 [] (CompoundStmt [])))))])) (Some (Node 9 [] (CompoundStmt [(Node 10 [] (IfStmt [] (Node 11 [] (IntegerLiteral (1)%Z)) (Node 12 [] (CompoundStmt [])) (Some (Node 13 [] (CompoundStmt [])))))])))))])) = Val 4%Z.
Proof. vm_compute. reflexivity. Qed.

Example NPathComplexityMetric_WhileStmtWithConstantConditionAndEmptyCompoundStmt : nPath (Node 1 [] (CompoundStmt [(Node 2 [] (WhileStmt [] (Node 3 [] (IntegerLiteral (1)%Z)) (Node 4 [] (CompoundStmt []))))])) = Val 2%Z.
Proof. vm_compute. reflexivity. Qed.

Example NPathComplexityMetric_WhileStmtWithOneLogicAndOperatorConditionAndEmptyCompoundStmt : nPath (Node 1 [] (CompoundStmt [(Node 2 [] (WhileStmt [] (Node 3 [] (BinaryOperator BO_LAnd (Node 4 [] (IntegerLiteral (1)%Z)) (Node 5 [] (IntegerLiteral (0)%Z)))) (Node 6 [] (CompoundStmt []))))])) = Val 3%Z.
Proof. vm_compute. reflexivity. Qed.

Example NPathComplexityMetric_WhileStmtWithOneLogicOrOperatorConditionAndEmptyCompoundStmt : nPath (Node 1 [] (CompoundStmt [(Node 2 [] (WhileStmt [] (Node 3 [] (BinaryOperator BO_LOr (Node 4 [] (IntegerLiteral (1)%Z)) (Node 5 [] (IntegerLiteral (0)%Z)))) (Node 6 [] (CompoundStmt []))))])) = Val 3%Z.
Proof. vm_compute. reflexivity. Qed.

Example NPathComplexityMetric_DoWhileStmtWithConstantConditionAndEmptyCompoundStmt : nPath (Node 1 [] (CompoundStmt [(Node 2 [] (DoStmt (Node 3 [] (CompoundStmt [])) (Node 4 [] (IntegerLiteral (1)%Z))))])) = Val 2%Z.
Proof. vm_compute. reflexivity. Qed.

Example NPathComplexityMetric_DoWhileStmtWithOneLogicAndOperatorConditionAndEmptyCompoundStmt : nPath (Node 1 [] (CompoundStmt [(Node 2 [] (DoStmt (Node 3 [] (CompoundStmt [])) (Node 4 [] (BinaryOperator BO_LAnd (Node 5 [] (IntegerLiteral (1)%Z)) (Node 6 [] (IntegerLiteral (0)%Z))))))])) = Val 3%Z.
Proof. vm_compute. reflexivity. Qed.

Example NPathComplexityMetric_DoWhileStmtWithOneLogicOrOperatorConditionAndEmptyCompoundStmt : nPath (Node 1 [] (CompoundStmt [(Node 2 [] (DoStmt (Node 3 [] (CompoundStmt [])) (Node 4 [] (BinaryOperator BO_LOr (Node 5 [] (IntegerLiteral (1)%Z)) (Node 6 [] (IntegerLiteral (0)%Z))))))])) = Val 3%Z.
Proof. vm_compute. reflexivity. Qed.

Example NPathComplexityMetric_ForStmtWithSimpleConditionAndEmptyCompoundStmt : nPath (Node 1 [] (CompoundStmt [(Node 2 [] (ForStmt (Some (Node 3 [] (DeclStmt [(Node 4 [] (VarDecl {| v_isParm := false; v_name := $"i"; v_used := true; v_referenced := true; v_local := true; v_staticMember := false; v_private := false; v_unusedAttr := false; v_defaultArg := false; v_canonicalType := $"int"; v_inTemplate := false; v_contexts := [CxFunction true true false] |} (Some (Node 5 [] (IntegerLiteral (0)%Z)))))]))) [] (Some (Node 6 [] (BinaryOperator BO_Other (Node 7 [] (ImplicitCastExpr CK_LValueToRValue (Node 8 [] (DeclRefExpr 4 $"i" false)))) (Node 9 [] (IntegerLiteral (1)%Z))))) (Some (Node 10 [] (UnaryOperator UO_Other (Node 11 [] (DeclRefExpr 4 $"i" false))))) (Node 12 [] (CompoundStmt []))))])) = Val 3%Z.
Proof. vm_compute. reflexivity. Qed.

Example NPathComplexityMetric_ForStmtWithOneLogicAndOperatorConditionAndEmptyCompoundStmt : nPath (Node 1 [] (CompoundStmt [(Node 2 [] (ForStmt (Some (Node 3 [] (DeclStmt [(Node 4 [] (VarDecl {| v_isParm := false; v_name := $"i"; v_used := true; v_referenced := true; v_local := true; v_staticMember := false; v_private := false; v_unusedAttr := false; v_defaultArg := false; v_canonicalType := $"int"; v_inTemplate := false; v_contexts := [CxFunction true true false] |} (Some (Node 5 [] (IntegerLiteral (0)%Z)))))]))) [] (Some (Node 6 [] (BinaryOperator BO_LAnd (Node 7 [] (BinaryOperator BO_Other (Node 8 [] (ImplicitCastExpr CK_LValueToRValue (Node 9 [] (DeclRefExpr 4 $"i" false)))) (Node 10 [] (IntegerLiteral (1)%Z)))) (Node 11 [] (IntegerLiteral (0)%Z))))) (Some (Node 12 [] (UnaryOperator UO_Other (Node 13 [] (DeclRefExpr 4 $"i" false))))) (Node 14 [] (CompoundStmt []))))])) = Val 4%Z.
Proof. vm_compute. reflexivity. Qed.

Example NPathComplexityMetric_ObjCForeachStmtWithEmptyCompoundStmt : nPath (Node 1 [] (CompoundStmt [(Node 2 [] (DeclStmt [(Node 3 [] (VarDecl {| v_isParm := false; v_name := $"anArray"; v_used := true; v_referenced := true; v_local := true; v_staticMember := false; v_private := false; v_unusedAttr := false; v_defaultArg := false; v_canonicalType := $"struct objc_object *"; v_inTemplate := false; v_contexts := [CxFunction true true false] |} None))])); (Node 4 [] (ObjCForCollectionStmt (Node 5 [] (DeclStmt [(Node 6 [] (VarDecl {| v_isParm := false; v_name := $"it"; v_used := false; v_referenced := false; v_local := true; v_staticMember := false; v_private := false; v_unusedAttr := false; v_defaultArg := false; v_canonicalType := $"struct objc_object *"; v_inTemplate := false; v_contexts := [CxFunction true true false] |} None))])) (Node 7 $"id" (ImplicitCastExpr CK_LValueToRValue (Node 8 $"id" (DeclRefExpr 3 $"anArray" false)))) (Node 9 [] (CompoundStmt []))))])) = Val 3%Z.
Proof. vm_compute. reflexivity. Qed.

Example NPathComplexityMetric_ObjCForeachStmtWithCompoundStmtWithIfStmt : nPath (Node 1 [] (CompoundStmt [(Node 2 [] (DeclStmt [(Node 3 [] (VarDecl {| v_isParm := false; v_name := $"anArray"; v_used := true; v_referenced := true; v_local := true; v_staticMember := false; v_private := false; v_unusedAttr := false; v_defaultArg := false; v_canonicalType := $"struct objc_object *"; v_inTemplate := false; v_contexts := [CxFunction true true false] |} None))])); (Node 4 [] (ObjCForCollectionStmt (Node 5 [] (DeclStmt [(Node 6 [] (VarDecl {| v_isParm := false; v_name := $"it"; v_used := false; v_referenced := false; v_local := true; v_staticMember := false; v_private := false; v_unusedAttr := false; v_defaultArg := false; v_canonicalType := $"struct objc_object *"; v_inTemplate := false; v_contexts := [CxFunction true true false] |} None))])) (Node 7 $"id" (ImplicitCastExpr CK_LValueToRValue (Node 8 $"id" (DeclRefExpr 3 $"anArray" false)))) (Node 9 [] (CompoundStmt [(Node 10 [] (IfStmt [] (Node 11 $"int" (IntegerLiteral (1)%Z)) (Node 12 [] (CompoundStmt [])) None))]))))])) = Val 4%Z.
Proof. vm_compute. reflexivity. Qed.

Example NPathComplexityMetric_SwitchStmtWithSimpleConditionAndEmptyBody : nPath (Node 1 [] (CompoundStmt [(Node 2 [] (DeclStmt [(Node 3 [] (VarDecl {| v_isParm := false; v_name := $"i"; v_used := true; v_referenced := true; v_local := true; v_staticMember := false; v_private := false; v_unusedAttr := false; v_defaultArg := false; v_canonicalType := $"int"; v_inTemplate := false; v_contexts := [CxFunction true true false] |} None))])); (Node 4 [] (SwitchStmt [] (Node 5 [] (ImplicitCastExpr CK_LValueToRValue (Node 6 [] (DeclRefExpr 3 $"i" false)))) (Node 7 [] (CompoundStmt [])) false))])) = Val 0%Z.
Proof. vm_compute. reflexivity. Qed.

Example NPathComplexityMetric_SwitchStmtWithSimpleConditionAndOneCase : nPath (Node 1 [] (CompoundStmt [(Node 2 [] (DeclStmt [(Node 3 [] (VarDecl {| v_isParm := false; v_name := $"i"; v_used := true; v_referenced := true; v_local := true; v_staticMember := false; v_private := false; v_unusedAttr := false; v_defaultArg := false; v_canonicalType := $"int"; v_inTemplate := false; v_contexts := [CxFunction true true false] |} None))])); (Node 4 [] (SwitchStmt [] (Node 5 [] (ImplicitCastExpr CK_LValueToRValue (Node 6 [] (DeclRefExpr 3 $"i" false)))) (Node 7 [] (CompoundStmt [(Node 8 [] (CaseStmt (Node 9 [] (OtherExpr [(Node 10 [] (IntegerLiteral (1)%Z))])) (Node 11 [] BreakStmt)))])) false))])) = Val 1%Z.
Proof. vm_compute. reflexivity. Qed.

Example NPathComplexityMetric_SwitchStmtWithSimpleConditionAndOneReturn : nPath (Node 1 [] (CompoundStmt [(Node 2 [] (DeclStmt [(Node 3 [] (VarDecl {| v_isParm := false; v_name := $"i"; v_used := true; v_referenced := true; v_local := true; v_staticMember := false; v_private := false; v_unusedAttr := false; v_defaultArg := false; v_canonicalType := $"int"; v_inTemplate := false; v_contexts := [CxFunction true true false] |} None))])); (Node 4 [] (SwitchStmt [] (Node 5 [] (ImplicitCastExpr CK_LValueToRValue (Node 6 [] (DeclRefExpr 3 $"i" false)))) (Node 7 [] (ReturnStmt None)) false))])) = Val 1%Z.
Proof. vm_compute. reflexivity. Qed.

Example NPathComplexityMetric_SwitchStmtWithSimpleConditionAndOneCaseOneDefault : nPath (Node 1 [] (CompoundStmt [(Node 2 [] (DeclStmt [(Node 3 [] (VarDecl {| v_isParm := false; v_name := $"i"; v_used := true; v_referenced := true; v_local := true; v_staticMember := false; v_private := false; v_unusedAttr := false; v_defaultArg := false; v_canonicalType := $"int"; v_inTemplate := false; v_contexts := [CxFunction true true false] |} None))])); (Node 4 [] (SwitchStmt [] (Node 5 [] (ImplicitCastExpr CK_LValueToRValue (Node 6 [] (DeclRefExpr 3 $"i" false)))) (Node 7 [] (CompoundStmt [(Node 8 [] (CaseStmt (Node 9 [] (OtherExpr [(Node 10 [] (IntegerLiteral (1)%Z))])) (Node 11 [] BreakStmt))); (Node 12 [] (DefaultStmt (Node 13 [] BreakStmt)))])) false))])) = Val 2%Z.
Proof. vm_compute. reflexivity. Qed.

Example NPathComplexityMetric_SwitchStmtWithSimpleConditionAndTwoCasesOneDefault : nPath (Node 1 [] (CompoundStmt [(Node 2 [] (DeclStmt [(Node 3 [] (VarDecl {| v_isParm := false; v_name := $"i"; v_used := true; v_referenced := true; v_local := true; v_staticMember := false; v_private := false; v_unusedAttr := false; v_defaultArg := false; v_canonicalType := $"int"; v_inTemplate := false; v_contexts := [CxFunction true true false] |} None))])); (Node 4 [] (SwitchStmt [] (Node 5 [] (ImplicitCastExpr CK_LValueToRValue (Node 6 [] (DeclRefExpr 3 $"i" false)))) (Node 7 [] (CompoundStmt [(Node 8 [] (CaseStmt (Node 9 [] (OtherExpr [(Node 10 [] (IntegerLiteral (1)%Z))])) (Node 11 [] BreakStmt))); (Node 12 [] (CaseStmt (Node 13 [] (OtherExpr [(Node 14 [] (IntegerLiteral (2)%Z))])) (Node 15 [] BreakStmt))); (Node 16 [] (DefaultStmt (Node 17 [] BreakStmt)))])) false))])) = Val 3%Z.
Proof. vm_compute. reflexivity. Qed.

Example NPathComplexityMetric_SwitchStmtWithSimpleConditionAndOneCaseOneIfOneDefault : nPath (Node 1 [] (CompoundStmt [(Node 2 [] (DeclStmt [(Node 3 [] (VarDecl {| v_isParm := false; v_name := $"i"; v_used := true; v_referenced := true; v_local := true; v_staticMember := false; v_private := false; v_unusedAttr := false; v_defaultArg := false; v_canonicalType := $"int"; v_inTemplate := false; v_contexts := [CxFunction true true false] |} None))])); (Node 4 [] (SwitchStmt [] (Node 5 [] (ImplicitCastExpr CK_LValueToRValue (Node 6 [] (DeclRefExpr 3 $"i" false)))) (Node 7 [] (CompoundStmt [(Node 8 [] (CaseStmt (Node 9 [] (OtherExpr [(Node 10 [] (IntegerLiteral (1)%Z))])) (Node 11 [] BreakStmt))); (Node 12 [] (IfStmt [] (Node 13 [] (BinaryOperator BO_LAnd (Node 14 [] (BinaryOperator BO_Other (Node 15 [] (ImplicitCastExpr CK_LValueToRValue (Node 16 [] (DeclRefExpr 3 $"i" false)))) (Node 17 [] (IntegerLiteral (0)%Z)))) (Node 18 [] (BinaryOperator BO_Other (Node 19 [] (ImplicitCastExpr CK_LValueToRValue (Node 20 [] (DeclRefExpr 3 $"i" false)))) (Node 21 [] (IntegerLiteral (0)%Z)))))) (Node 22 [] (CompoundStmt [])) None)); (Node 23 [] (DefaultStmt (Node 24 [] BreakStmt)))])) false))])) = Val 4%Z.
Proof. vm_compute. reflexivity. Qed.

Example NPathComplexityMetric_SwitchStmtWithSimpleConditionAndOneCaseAsIfOneDefault : nPath (Node 1 [] (CompoundStmt [(Node 2 [] (DeclStmt [(Node 3 [] (VarDecl {| v_isParm := false; v_name := $"i"; v_used := true; v_referenced := true; v_local := true; v_staticMember := false; v_private := false; v_unusedAttr := false; v_defaultArg := false; v_canonicalType := $"int"; v_inTemplate := false; v_contexts := [CxFunction true true false] |} None))])); (Node 4 [] (SwitchStmt [] (Node 5 [] (ImplicitCastExpr CK_LValueToRValue (Node 6 [] (DeclRefExpr 3 $"i" false)))) (Node 7 [] (CompoundStmt [(Node 8 [] (CaseStmt (Node 9 [] (OtherExpr [(Node 10 [] (IntegerLiteral (1)%Z))])) (Node 11 [] (IfStmt [] (Node 12 [] (BinaryOperator BO_LAnd (Node 13 [] (BinaryOperator BO_Other (Node 14 [] (ImplicitCastExpr CK_LValueToRValue (Node 15 [] (DeclRefExpr 3 $"i" false)))) (Node 16 [] (IntegerLiteral (0)%Z)))) (Node 17 [] (BinaryOperator BO_Other (Node 18 [] (ImplicitCastExpr CK_LValueToRValue (Node 19 [] (DeclRefExpr 3 $"i" false)))) (Node 20 [] (IntegerLiteral (0)%Z)))))) (Node 21 [] (CompoundStmt [])) None)))); (Node 22 [] BreakStmt); (Node 23 [] (DefaultStmt (Node 24 [] BreakStmt)))])) false))])) = Val 4%Z.
Proof. vm_compute. reflexivity. Qed.

Example NPathComplexityMetric_SwitchStmtWithSimpleConditionAndOneCaseAsTwoIfsOneDefault : nPath (Node 1 [] (CompoundStmt [(Node 2 [] (DeclStmt [(Node 3 [] (VarDecl {| v_isParm := false; v_name := $"i"; v_used := true; v_referenced := true; v_local := true; v_staticMember := false; v_private := false; v_unusedAttr := false; v_defaultArg := false; v_canonicalType := $"int"; v_inTemplate := false; v_contexts := [CxFunction true true false] |} None))])); (Node 4 [] (SwitchStmt [] (Node 5 [] (ImplicitCastExpr CK_LValueToRValue (Node 6 [] (DeclRefExpr 3 $"i" false)))) (Node 7 [] (CompoundStmt [(Node 8 [] (CaseStmt (Node 9 [] (OtherExpr [(Node 10 [] (IntegerLiteral (1)%Z))])) (Node 11 [] (IfStmt [] (Node 12 [] (BinaryOperator BO_Other (Node 13 [] (ImplicitCastExpr CK_LValueToRValue (Node 14 [] (DeclRefExpr 3 $"i" false)))) (Node 15 [] (IntegerLiteral (0)%Z)))) (Node 16 [] (CompoundStmt [])) None)))); (Node 17 [] (IfStmt [] (Node 18 [] (BinaryOperator BO_Other (Node 19 [] (ImplicitCastExpr CK_LValueToRValue (Node 20 [] (DeclRefExpr 3 $"i" false)))) (Node 21 [] (IntegerLiteral (0)%Z)))) (Node 22 [] (CompoundStmt [])) None)); (Node 23 [] BreakStmt); (Node 24 [] (DefaultStmt (Node 25 [] BreakStmt)))])) false))])) = Val 5%Z.
Proof. vm_compute. reflexivity. Qed.

Example NPathComplexityMetric_BasicConditionalOperator : nPath (Node 1 [] (CompoundStmt [(Node 2 [] (IfStmt [] (Node 3 [] (ConditionalOperator (Node 4 [] (IntegerLiteral (1)%Z)) (Node 5 [] (IntegerLiteral (2)%Z)) (Node 6 [] (IntegerLiteral (3)%Z)))) (Node 7 [] (CompoundStmt [])) None))])) = Val 4%Z.
Proof. vm_compute. reflexivity. Qed.

Example NPathComplexityMetric_NastingConditionalOperator : nPath (Node 1 [] (CompoundStmt [(Node 2 [] (IfStmt [] (Node 3 [] (ConditionalOperator (Node 4 [] (IntegerLiteral (1)%Z)) (Node 5 [] (ParenExpr (Node 6 [] (ConditionalOperator (Node 7 [] (IntegerLiteral (2)%Z)) (Node 8 [] (IntegerLiteral (3)%Z)) (Node 9 [] (IntegerLiteral (4)%Z)))))) (Node 10 [] (ParenExpr (Node 11 [] (ConditionalOperator (Node 12 [] (IntegerLiteral (5)%Z)) (Node 13 [] (IntegerLiteral (6)%Z)) (Node 14 [] (IntegerLiteral (7)%Z)))))))) (Node 15 [] (CompoundStmt [])) None))])) = Val 8%Z.
Proof. vm_compute. reflexivity. Qed.

(** ** oclint-metrics/test/NcssMetricTest.cpp *)

Example NcssMetric_EmptyFunction : ncss (Node 1 [] (CompoundStmt [])) = 0%Z.
Proof. vm_compute. reflexivity. Qed.

Example NcssMetric_NullStmtsDoNotContribute : ncss (Node 1 [] (CompoundStmt [(Node 2 [] NullStmt); (Node 3 [] NullStmt); (Node 4 [] NullStmt); (Node 5 [] NullStmt); (Node 6 [] NullStmt)])) = 0%Z.
Proof. vm_compute. reflexivity. Qed.

Example NcssMetric_SemiColonAfterDeclStmtCount : ncss (Node 1 [] (CompoundStmt [(Node 2 [] (DeclStmt [(Node 3 [] (VarDecl {| v_isParm := false; v_name := $"a"; v_used := false; v_referenced := false; v_local := true; v_staticMember := false; v_private := false; v_unusedAttr := false; v_defaultArg := false; v_canonicalType := $"int"; v_inTemplate := false; v_contexts := [CxFunction true true false] |} (Some (Node 4 [] (IntegerLiteral (1)%Z)))))]))])) = 1%Z.
Proof. vm_compute. reflexivity. Qed.

Example NcssMetric_DeclStmtWithManyVariables : ncss (Node 1 [] (CompoundStmt [(Node 2 [] (DeclStmt [(Node 3 [] (VarDecl {| v_isParm := false; v_name := $"a"; v_used := false; v_referenced := false; v_local := true; v_staticMember := false; v_private := false; v_unusedAttr := false; v_defaultArg := false; v_canonicalType := $"int"; v_inTemplate := false; v_contexts := [CxFunction true true false] |} (Some (Node 4 [] (IntegerLiteral (1)%Z))))); (Node 5 [] (VarDecl {| v_isParm := false; v_name := $"b"; v_used := false; v_referenced := false; v_local := true; v_staticMember := false; v_private := false; v_unusedAttr := false; v_defaultArg := false; v_canonicalType := $"int"; v_inTemplate := false; v_contexts := [CxFunction true true false] |} (Some (Node 6 [] (IntegerLiteral (2)%Z))))); (Node 7 [] (VarDecl {| v_isParm := false; v_name := $"c"; v_used := false; v_referenced := false; v_local := true; v_staticMember := false; v_private := false; v_unusedAttr := false; v_defaultArg := false; v_canonicalType := $"int"; v_inTemplate := false; v_contexts := [CxFunction true true false] |} (Some (Node 8 [] (IntegerLiteral (3)%Z)))))]))])) = 1%Z.
Proof. vm_compute. reflexivity. Qed.

Example NcssMetric_MethodCall : ncss (Node 2 [] (CompoundStmt [(Node 3 [] (CallExpr (Some ($"n", (Decl [] None))) (Node 4 [] (ImplicitCastExpr CK_Other (Node 5 [] (DeclRefExpr 0 $"n" false)))) []))])) = 1%Z.
Proof. vm_compute. reflexivity. Qed.

Example NcssMetric_EmptyCompoundStmt : ncss (Node 1 [] (CompoundStmt [(Node 2 [] (CompoundStmt [])); (Node 3 [] (CompoundStmt [])); (Node 4 [] (CompoundStmt [])); (Node 5 [] (CompoundStmt [])); (Node 6 [] (CompoundStmt []))])) = 0%Z.
Proof. vm_compute. reflexivity. Qed.

Example NcssMetric_IfStatement : ncss (Node 1 [] (CompoundStmt [(Node 2 [] (IfStmt [] (Node 3 [] (IntegerLiteral (1)%Z)) (Node 4 [] (CompoundStmt [])) None))])) = 1%Z.
Proof. vm_compute. reflexivity. Qed.

Example NcssMetric_IfStatementWithElse : ncss (Node 1 [] (CompoundStmt [(Node 2 [] (IfStmt [] (Node 3 [] (IntegerLiteral (1)%Z)) (Node 4 [] (CompoundStmt [])) (Some (Node 5 [] (CompoundStmt [])))))])) = 2%Z.
Proof. vm_compute. reflexivity. Qed.

Example NcssMetric_ForStatement : ncss (Node 1 [] (CompoundStmt [(Node 2 [] (ForStmt None [] None None (Node 3 [] (CompoundStmt []))))])) = 1%Z.
Proof. vm_compute. reflexivity. Qed.

Example NcssMetric_ObjCForCollectionStatement : ncss (Node 1 [] (CompoundStmt [(Node 2 [] (DeclStmt [(Node 3 [] (VarDecl {| v_isParm := false; v_name := $"array"; v_used := true; v_referenced := true; v_local := true; v_staticMember := false; v_private := false; v_unusedAttr := false; v_defaultArg := false; v_canonicalType := $"struct objc_object *"; v_inTemplate := false; v_contexts := [CxFunction true true false] |} None))])); (Node 4 [] (ObjCForCollectionStmt (Node 5 [] (DeclStmt [(Node 6 [] (VarDecl {| v_isParm := false; v_name := $"one"; v_used := false; v_referenced := false; v_local := true; v_staticMember := false; v_private := false; v_unusedAttr := false; v_defaultArg := false; v_canonicalType := $"struct objc_object *"; v_inTemplate := false; v_contexts := [CxFunction true true false] |} None))])) (Node 7 $"id" (ImplicitCastExpr CK_LValueToRValue (Node 8 $"id" (DeclRefExpr 3 $"array" false)))) (Node 9 [] (CompoundStmt []))))])) = 2%Z.
Proof. vm_compute. reflexivity. Qed.

Example NcssMetric_WhileStatement : ncss (Node 1 [] (CompoundStmt [(Node 2 [] (WhileStmt [] (Node 3 [] (IntegerLiteral (1)%Z)) (Node 4 [] (CompoundStmt []))))])) = 1%Z.
Proof. vm_compute. reflexivity. Qed.

Example NcssMetric_DoStatement : ncss (Node 1 [] (CompoundStmt [(Node 2 [] (DoStmt (Node 3 [] (CompoundStmt [])) (Node 4 [] (IntegerLiteral (1)%Z))))])) = 2%Z.
Proof. vm_compute. reflexivity. Qed.

Example NcssMetric_CXXTryCatch : ncss (Node 1 [] (CompoundStmt [(Node 2 [] (CXXTryStmt (Node 3 [] (CompoundStmt [(Node 4 [] (DeclStmt [(Node 5 [] (VarDecl {| v_isParm := false; v_name := $"a"; v_used := false; v_referenced := false; v_local := true; v_staticMember := false; v_private := false; v_unusedAttr := false; v_defaultArg := false; v_canonicalType := $"int"; v_inTemplate := false; v_contexts := [CxFunction true true false] |} (Some (Node 6 [] (IntegerLiteral (1)%Z)))))]))])) [(Node 7 [] (CXXCatchStmt None (Node 8 [] (CompoundStmt [(Node 9 [] (DeclStmt [(Node 10 [] (VarDecl {| v_isParm := false; v_name := $"b"; v_used := false; v_referenced := false; v_local := true; v_staticMember := false; v_private := false; v_unusedAttr := false; v_defaultArg := false; v_canonicalType := $"int"; v_inTemplate := false; v_contexts := [CxFunction true true false] |} (Some (Node 11 [] (IntegerLiteral (2)%Z)))))]))]))))]))])) = 4%Z.
Proof. vm_compute. reflexivity. Qed.

Example NcssMetric_ObjCTryCatch : ncss (Node 1 [] (CompoundStmt [(Node 2 [] (ObjCAtTryStmt (Node 3 [] (CompoundStmt [])) [(Node 4 [] (ObjCAtCatchStmt None (Node 5 [] (CompoundStmt []))))] None))])) = 2%Z.
Proof. vm_compute. reflexivity. Qed.

Example NcssMetric_ObjCTryCatchFinally : ncss (Node 1 [] (CompoundStmt [(Node 2 [] (ObjCAtTryStmt (Node 3 [] (CompoundStmt [(Node 4 [] (DeclStmt [(Node 5 [] (VarDecl {| v_isParm := false; v_name := $"c"; v_used := false; v_referenced := false; v_local := true; v_staticMember := false; v_private := false; v_unusedAttr := false; v_defaultArg := false; v_canonicalType := $"int"; v_inTemplate := false; v_contexts := [CxFunction true true false] |} (Some (Node 6 $"int" (IntegerLiteral (3)%Z)))))]))])) [(Node 7 [] (ObjCAtCatchStmt None (Node 8 [] (CompoundStmt [(Node 9 [] (DeclStmt [(Node 10 [] (VarDecl {| v_isParm := false; v_name := $"a"; v_used := false; v_referenced := false; v_local := true; v_staticMember := false; v_private := false; v_unusedAttr := false; v_defaultArg := false; v_canonicalType := $"int"; v_inTemplate := false; v_contexts := [CxFunction true true false] |} (Some (Node 11 $"int" (IntegerLiteral (1)%Z)))))]))]))))] (Some (Node 12 [] (ObjCAtFinallyStmt (Node 13 [] (CompoundStmt [(Node 14 [] (DeclStmt [(Node 15 [] (VarDecl {| v_isParm := false; v_name := $"b"; v_used := false; v_referenced := false; v_local := true; v_staticMember := false; v_private := false; v_unusedAttr := false; v_defaultArg := false; v_canonicalType := $"int"; v_inTemplate := false; v_contexts := [CxFunction true true false] |} (Some (Node 16 $"int" (IntegerLiteral (2)%Z)))))]))])))))))])) = 6%Z.
Proof. vm_compute. reflexivity. Qed.

Example NcssMetric_ObjCAutoreleasePool : ncss (Node 1 [] (CompoundStmt [(Node 2 [] (ObjCAutoreleasePoolStmt (Node 3 [] (CompoundStmt [(Node 4 [] (DeclStmt [(Node 5 [] (VarDecl {| v_isParm := false; v_name := $"a"; v_used := false; v_referenced := false; v_local := true; v_staticMember := false; v_private := false; v_unusedAttr := false; v_defaultArg := false; v_canonicalType := $"int"; v_inTemplate := false; v_contexts := [CxFunction true true false] |} (Some (Node 6 $"int" (IntegerLiteral (1)%Z)))))]))]))))])) = 2%Z.
Proof. vm_compute. reflexivity. Qed.

Example NcssMetric_ObjCSynchronized : ncss (Node 1 [] (CompoundStmt [(Node 2 [] (DeclStmt [(Node 3 [] (VarDecl {| v_isParm := false; v_name := $"res"; v_used := true; v_referenced := true; v_local := true; v_staticMember := false; v_private := false; v_unusedAttr := false; v_defaultArg := false; v_canonicalType := $"struct objc_object *"; v_inTemplate := false; v_contexts := [CxFunction true true false] |} None))])); (Node 4 [] (ObjCAtSynchronizedStmt (Node 5 $"id" (ImplicitCastExpr CK_LValueToRValue (Node 6 $"id" (DeclRefExpr 3 $"res" false)))) (Node 7 [] (CompoundStmt [(Node 8 [] (DeclStmt [(Node 9 [] (VarDecl {| v_isParm := false; v_name := $"a"; v_used := false; v_referenced := false; v_local := true; v_staticMember := false; v_private := false; v_unusedAttr := false; v_defaultArg := false; v_canonicalType := $"int"; v_inTemplate := false; v_contexts := [CxFunction true true false] |} (Some (Node 10 $"int" (IntegerLiteral (1)%Z)))))]))]))))])) = 3%Z.
Proof. vm_compute. reflexivity. Qed.

Example NcssMetric_OneCaseStatement : ncss (Node 1 [] (CompoundStmt [(Node 2 [] (DeclStmt [(Node 3 [] (VarDecl {| v_isParm := false; v_name := $"i"; v_used := true; v_referenced := true; v_local := true; v_staticMember := false; v_private := false; v_unusedAttr := false; v_defaultArg := false; v_canonicalType := $"int"; v_inTemplate := false; v_contexts := [CxFunction true true false] |} (Some (Node 4 [] (IntegerLiteral (1)%Z)))))])); (Node 5 [] (SwitchStmt [] (Node 6 [] (ImplicitCastExpr CK_LValueToRValue (Node 7 [] (DeclRefExpr 3 $"i" false)))) (Node 8 [] (CompoundStmt [(Node 9 [] (CaseStmt (Node 10 [] (OtherExpr [(Node 11 [] (IntegerLiteral (1)%Z))])) (Node 12 [] BreakStmt)))])) false))])) = 4%Z.
Proof. vm_compute. reflexivity. Qed.

Example NcssMetric_TwoCaseStatements : ncss (Node 1 [] (CompoundStmt [(Node 2 [] (DeclStmt [(Node 3 [] (VarDecl {| v_isParm := false; v_name := $"i"; v_used := true; v_referenced := true; v_local := true; v_staticMember := false; v_private := false; v_unusedAttr := false; v_defaultArg := false; v_canonicalType := $"int"; v_inTemplate := false; v_contexts := [CxFunction true true false] |} (Some (Node 4 [] (IntegerLiteral (1)%Z)))))])); (Node 5 [] (SwitchStmt [] (Node 6 [] (ImplicitCastExpr CK_LValueToRValue (Node 7 [] (DeclRefExpr 3 $"i" false)))) (Node 8 [] (CompoundStmt [(Node 9 [] (CaseStmt (Node 10 [] (OtherExpr [(Node 11 [] (IntegerLiteral (1)%Z))])) (Node 12 [] (CaseStmt (Node 13 [] (OtherExpr [(Node 14 [] (IntegerLiteral (2)%Z))])) (Node 15 [] BreakStmt)))))])) false))])) = 5%Z.
Proof. vm_compute. reflexivity. Qed.

Example NcssMetric_TwoCaseStatementsAndDefault : ncss (Node 1 [] (CompoundStmt [(Node 2 [] (DeclStmt [(Node 3 [] (VarDecl {| v_isParm := false; v_name := $"i"; v_used := true; v_referenced := true; v_local := true; v_staticMember := false; v_private := false; v_unusedAttr := false; v_defaultArg := false; v_canonicalType := $"int"; v_inTemplate := false; v_contexts := [CxFunction true true false] |} (Some (Node 4 [] (IntegerLiteral (1)%Z)))))])); (Node 5 [] (SwitchStmt [] (Node 6 [] (ImplicitCastExpr CK_LValueToRValue (Node 7 [] (DeclRefExpr 3 $"i" false)))) (Node 8 [] (CompoundStmt [(Node 9 [] (CaseStmt (Node 10 [] (OtherExpr [(Node 11 [] (IntegerLiteral (1)%Z))])) (Node 12 [] (BinaryOperator BO_Assign (Node 13 [] (DeclRefExpr 3 $"i" false)) (Node 14 [] (IntegerLiteral (2)%Z)))))); (Node 15 [] BreakStmt); (Node 16 [] (CaseStmt (Node 17 [] (OtherExpr [(Node 18 [] (IntegerLiteral (2)%Z))])) (Node 19 [] BreakStmt))); (Node 20 [] (DefaultStmt (Node 21 [] BreakStmt)))])) false))])) = 9%Z.
Proof. vm_compute. reflexivity. Qed.

(** ** oclint-metrics/test/StmtDepthMetricTest.cpp *)

Example StmtDepthMetric_EmptyFunction : depth (Node 1 [] (CompoundStmt [])) = 1.
Proof. vm_compute. reflexivity. Qed.

Example StmtDepthMetric_TwoLevelBlock : depth (Node 1 [] (CompoundStmt [(Node 2 [] (CompoundStmt []))])) = 2.
Proof. vm_compute. reflexivity. Qed.

Example StmtDepthMetric_ChooseTheDeepest : depth (Node 1 [] (CompoundStmt [(Node 2 [] (CompoundStmt [])); (Node 3 [] (CompoundStmt [(Node 4 [] (CompoundStmt [(Node 5 [] (CompoundStmt []))]))])); (Node 6 [] (CompoundStmt [(Node 7 [] (CompoundStmt []))]))])) = 4.
Proof. vm_compute. reflexivity. Qed.

Example StmtDepthMetric_IfStatement : depth (Node 1 [] (CompoundStmt [(Node 2 [] (IfStmt [] (Node 3 [] (IntegerLiteral (1)%Z)) (Node 4 [] (CompoundStmt [])) None))])) = 2.
Proof. vm_compute. reflexivity. Qed.

Example StmtDepthMetric_IfStatementWithElse : depth (Node 1 [] (CompoundStmt [(Node 2 [] (IfStmt [] (Node 3 [] (IntegerLiteral (1)%Z)) (Node 4 [] (CompoundStmt [])) (Some (Node 5 [] (CompoundStmt [(Node 6 [] (CompoundStmt [(Node 7 [] (CompoundStmt []))]))])))))])) = 4.
Proof. vm_compute. reflexivity. Qed.

Example StmtDepthMetric_ForStatement : depth (Node 1 [] (CompoundStmt [(Node 2 [] (ForStmt None [] None None (Node 3 [] (CompoundStmt []))))])) = 2.
Proof. vm_compute. reflexivity. Qed.

Example StmtDepthMetric_ObjCForCollectionStatement : depth (Node 1 [] (CompoundStmt [(Node 2 [] (DeclStmt [(Node 3 [] (VarDecl {| v_isParm := false; v_name := $"array"; v_used := true; v_referenced := true; v_local := true; v_staticMember := false; v_private := false; v_unusedAttr := false; v_defaultArg := false; v_canonicalType := $"struct objc_object *"; v_inTemplate := false; v_contexts := [CxFunction true true false] |} None))])); (Node 4 [] (ObjCForCollectionStmt (Node 5 [] (DeclStmt [(Node 6 [] (VarDecl {| v_isParm := false; v_name := $"one"; v_used := false; v_referenced := false; v_local := true; v_staticMember := false; v_private := false; v_unusedAttr := false; v_defaultArg := false; v_canonicalType := $"struct objc_object *"; v_inTemplate := false; v_contexts := [CxFunction true true false] |} None))])) (Node 7 $"id" (ImplicitCastExpr CK_LValueToRValue (Node 8 $"id" (DeclRefExpr 3 $"array" false)))) (Node 9 [] (CompoundStmt []))))])) = 2.
Proof. vm_compute. reflexivity. Qed.

Example StmtDepthMetric_WhileStatement : depth (Node 1 [] (CompoundStmt [(Node 2 [] (WhileStmt [] (Node 3 [] (IntegerLiteral (1)%Z)) (Node 4 [] (CompoundStmt []))))])) = 2.
Proof. vm_compute. reflexivity. Qed.

Example StmtDepthMetric_DoStatement : depth (Node 1 [] (CompoundStmt [(Node 2 [] (DoStmt (Node 3 [] (CompoundStmt [])) (Node 4 [] (IntegerLiteral (1)%Z))))])) = 2.
Proof. vm_compute. reflexivity. Qed.

Example StmtDepthMetric_CXXTryCatch : depth (Node 1 [] (CompoundStmt [(Node 2 [] (CXXTryStmt (Node 3 [] (CompoundStmt [(Node 4 [] (DeclStmt [(Node 5 [] (VarDecl {| v_isParm := false; v_name := $"a"; v_used := false; v_referenced := false; v_local := true; v_staticMember := false; v_private := false; v_unusedAttr := false; v_defaultArg := false; v_canonicalType := $"int"; v_inTemplate := false; v_contexts := [CxFunction true true false] |} (Some (Node 6 [] (IntegerLiteral (1)%Z)))))]))])) [(Node 7 [] (CXXCatchStmt None (Node 8 [] (CompoundStmt [(Node 9 [] (DeclStmt [(Node 10 [] (VarDecl {| v_isParm := false; v_name := $"b"; v_used := false; v_referenced := false; v_local := true; v_staticMember := false; v_private := false; v_unusedAttr := false; v_defaultArg := false; v_canonicalType := $"int"; v_inTemplate := false; v_contexts := [CxFunction true true false] |} (Some (Node 11 [] (IntegerLiteral (2)%Z)))))])); (Node 12 [] (CompoundStmt [(Node 13 [] (CompoundStmt []))]))]))))]))])) = 4.
Proof. vm_compute. reflexivity. Qed.

Example StmtDepthMetric_ObjCTryCatch : depth (Node 1 [] (CompoundStmt [(Node 2 [] (ObjCAtTryStmt (Node 3 [] (CompoundStmt [])) [(Node 4 [] (ObjCAtCatchStmt None (Node 5 [] (CompoundStmt [(Node 6 [] (CompoundStmt [(Node 7 [] (CompoundStmt []))]))]))))] None))])) = 4.
Proof. vm_compute. reflexivity. Qed.

Example StmtDepthMetric_ObjCTryCatchFinally : depth (Node 1 [] (CompoundStmt [(Node 2 [] (ObjCAtTryStmt (Node 3 [] (CompoundStmt [(Node 4 [] (DeclStmt [(Node 5 [] (VarDecl {| v_isParm := false; v_name := $"c"; v_used := false; v_referenced := false; v_local := true; v_staticMember := false; v_private := false; v_unusedAttr := false; v_defaultArg := false; v_canonicalType := $"int"; v_inTemplate := false; v_contexts := [CxFunction true true false] |} (Some (Node 6 $"int" (IntegerLiteral (3)%Z)))))]))])) [(Node 7 [] (ObjCAtCatchStmt None (Node 8 [] (CompoundStmt [(Node 9 [] (DeclStmt [(Node 10 [] (VarDecl {| v_isParm := false; v_name := $"a"; v_used := false; v_referenced := false; v_local := true; v_staticMember := false; v_private := false; v_unusedAttr := false; v_defaultArg := false; v_canonicalType := $"int"; v_inTemplate := false; v_contexts := [CxFunction true true false] |} (Some (Node 11 $"int" (IntegerLiteral (1)%Z)))))]))]))))] (Some (Node 12 [] (ObjCAtFinallyStmt (Node 13 [] (CompoundStmt [(Node 14 [] (DeclStmt [(Node 15 [] (VarDecl {| v_isParm := false; v_name := $"b"; v_used := false; v_referenced := false; v_local := true; v_staticMember := false; v_private := false; v_unusedAttr := false; v_defaultArg := false; v_canonicalType := $"int"; v_inTemplate := false; v_contexts := [CxFunction true true false] |} (Some (Node 16 $"int" (IntegerLiteral (2)%Z)))))])); (Node 17 [] (CompoundStmt [(Node 18 [] (CompoundStmt []))]))])))))))])) = 4.
Proof. vm_compute. reflexivity. Qed.

Example StmtDepthMetric_ObjCAutoreleasePool : depth (Node 1 [] (CompoundStmt [(Node 2 [] (ObjCAutoreleasePoolStmt (Node 3 [] (CompoundStmt [(Node 4 [] (DeclStmt [(Node 5 [] (VarDecl {| v_isParm := false; v_name := $"a"; v_used := false; v_referenced := false; v_local := true; v_staticMember := false; v_private := false; v_unusedAttr := false; v_defaultArg := false; v_canonicalType := $"int"; v_inTemplate := false; v_contexts := [CxFunction true true false] |} (Some (Node 6 $"int" (IntegerLiteral (1)%Z)))))]))]))))])) = 2.
Proof. vm_compute. reflexivity. Qed.

Example StmtDepthMetric_ObjCSynchronized : depth (Node 1 [] (CompoundStmt [(Node 2 [] (DeclStmt [(Node 3 [] (VarDecl {| v_isParm := false; v_name := $"res"; v_used := true; v_referenced := true; v_local := true; v_staticMember := false; v_private := false; v_unusedAttr := false; v_defaultArg := false; v_canonicalType := $"struct objc_object *"; v_inTemplate := false; v_contexts := [CxFunction true true false] |} None))])); (Node 4 [] (ObjCAtSynchronizedStmt (Node 5 $"id" (ImplicitCastExpr CK_LValueToRValue (Node 6 $"id" (DeclRefExpr 3 $"res" false)))) (Node 7 [] (CompoundStmt [(Node 8 [] (DeclStmt [(Node 9 [] (VarDecl {| v_isParm := false; v_name := $"a"; v_used := false; v_referenced := false; v_local := true; v_staticMember := false; v_private := false; v_unusedAttr := false; v_defaultArg := false; v_canonicalType := $"int"; v_inTemplate := false; v_contexts := [CxFunction true true false] |} (Some (Node 10 $"int" (IntegerLiteral (1)%Z)))))]))]))))])) = 2.
Proof. vm_compute. reflexivity. Qed.

Example StmtDepthMetric_OneCaseStatement : depth (Node 1 [] (CompoundStmt [(Node 2 [] (DeclStmt [(Node 3 [] (VarDecl {| v_isParm := false; v_name := $"i"; v_used := true; v_referenced := true; v_local := true; v_staticMember := false; v_private := false; v_unusedAttr := false; v_defaultArg := false; v_canonicalType := $"int"; v_inTemplate := false; v_contexts := [CxFunction true true false] |} (Some (Node 4 [] (IntegerLiteral (1)%Z)))))])); (Node 5 [] (SwitchStmt [] (Node 6 [] (ImplicitCastExpr CK_LValueToRValue (Node 7 [] (DeclRefExpr 3 $"i" false)))) (Node 8 [] (CompoundStmt [(Node 9 [] (CaseStmt (Node 10 [] (OtherExpr [(Node 11 [] (IntegerLiteral (1)%Z))])) (Node 12 [] BreakStmt)))])) false))])) = 2.
Proof. vm_compute. reflexivity. Qed.

Example StmtDepthMetric_TwoCaseStatements : depth (Node 1 [] (CompoundStmt [(Node 2 [] (DeclStmt [(Node 3 [] (VarDecl {| v_isParm := false; v_name := $"i"; v_used := true; v_referenced := true; v_local := true; v_staticMember := false; v_private := false; v_unusedAttr := false; v_defaultArg := false; v_canonicalType := $"int"; v_inTemplate := false; v_contexts := [CxFunction true true false] |} (Some (Node 4 [] (IntegerLiteral (1)%Z)))))])); (Node 5 [] (SwitchStmt [] (Node 6 [] (ImplicitCastExpr CK_LValueToRValue (Node 7 [] (DeclRefExpr 3 $"i" false)))) (Node 8 [] (CompoundStmt [(Node 9 [] (CaseStmt (Node 10 [] (OtherExpr [(Node 11 [] (IntegerLiteral (1)%Z))])) (Node 12 [] (CaseStmt (Node 13 [] (OtherExpr [(Node 14 [] (IntegerLiteral (2)%Z))])) (Node 15 [] BreakStmt)))))])) false))])) = 2.
Proof. vm_compute. reflexivity. Qed.

Example StmtDepthMetric_TwoCaseStatementsAndDefault : depth (Node 1 [] (CompoundStmt [(Node 2 [] (DeclStmt [(Node 3 [] (VarDecl {| v_isParm := false; v_name := $"i"; v_used := true; v_referenced := true; v_local := true; v_staticMember := false; v_private := false; v_unusedAttr := false; v_defaultArg := false; v_canonicalType := $"int"; v_inTemplate := false; v_contexts := [CxFunction true true false] |} (Some (Node 4 [] (IntegerLiteral (1)%Z)))))])); (Node 5 [] (SwitchStmt [] (Node 6 [] (ImplicitCastExpr CK_LValueToRValue (Node 7 [] (DeclRefExpr 3 $"i" false)))) (Node 8 [] (CompoundStmt [(Node 9 [] (CaseStmt (Node 10 [] (OtherExpr [(Node 11 [] (IntegerLiteral (1)%Z))])) (Node 12 [] (BinaryOperator BO_Assign (Node 13 [] (DeclRefExpr 3 $"i" false)) (Node 14 [] (IntegerLiteral (2)%Z)))))); (Node 15 [] BreakStmt); (Node 16 [] (CaseStmt (Node 17 [] (OtherExpr [(Node 18 [] (IntegerLiteral (2)%Z))])) (Node 19 [] BreakStmt))); (Node 20 [] (DefaultStmt (Node 21 [] BreakStmt)))])) false))])) = 2.
Proof. vm_compute. reflexivity. Qed.

