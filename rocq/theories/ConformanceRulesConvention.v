(** * OCLint's own unit tests of oclint-rules/test/convention, as examples about the model

    Written by tools/conformance/emit.py; do not edit. *)
From Verif Require Import Base ModelConfig ModelSource ModelAST ModelRuleTable ConformanceBase.

(** ** oclint-rules/test/convention/AvoidBranchingStatementAsLastInLoopRuleTest.cpp *)

Definition AvoidBranchingStatementAsLastInLoop_CleanCode : testcase :=
  {| ts_lang := LObjC; ts_path := $"input.m"; ts_code := [];
     ts_comments := []; ts_conf := [];
     ts_tops := [(toplevel 0 (TFunction false), (Node 0 [] (FunctionDecl {| f_name := $"a"; f_method := None; f_isDefinition := true; f_bodyLines := (1)%Z |} [] (Some (Node 1 [] (CompoundStmt []))))))];
     ts_locs := [(1,1,1,11); (1,10,1,11)]%Z;
     ts_evals := []; ts_same := []; ts_decls := []; ts_parents := [] |}.
Example AvoidBranchingStatementAsLastInLoop_CleanCode_holds : sorted_violations_of (shippedRule sh_AvoidBranchingStatementAsLastInLoop) AvoidBranchingStatementAsLastInLoop_CleanCode = Some [].
Proof. vm_compute. reflexivity. Qed.

Definition AvoidBranchingStatementAsLastInLoop_EmptyForeachBreak : testcase :=
  {| ts_lang := LObjC; ts_path := $"input.m"; ts_code := [];
     ts_comments := []; ts_conf := [];
     ts_tops := [(toplevel 0 (TFunction false), (Node 0 [] (FunctionDecl {| f_name := $"a"; f_method := None; f_isDefinition := true; f_bodyLines := (1)%Z |} [(Node 1 [] (VarDecl {| v_isParm := true; v_name := $"b"; v_used := false; v_referenced := false; v_local := false; v_staticMember := false; v_private := false; v_unusedAttr := false; v_defaultArg := false; v_canonicalType := $"int"; v_inTemplate := false; v_contexts := [CxFunction true true false] |} None))] (Some (Node 2 [] (CompoundStmt [(Node 3 [] (DeclStmt [(Node 4 [] (VarDecl {| v_isParm := false; v_name := $"collection"; v_used := true; v_referenced := true; v_local := true; v_staticMember := false; v_private := false; v_unusedAttr := false; v_defaultArg := false; v_canonicalType := $"struct objc_object *"; v_inTemplate := false; v_contexts := [CxFunction true true false] |} None))])); (Node 5 [] (ObjCForCollectionStmt (Node 6 [] (DeclStmt [(Node 7 [] (VarDecl {| v_isParm := false; v_name := $"it"; v_used := false; v_referenced := false; v_local := true; v_staticMember := false; v_private := false; v_unusedAttr := false; v_defaultArg := false; v_canonicalType := $"struct objc_object *"; v_inTemplate := false; v_contexts := [CxFunction true true false] |} None))])) (Node 8 $"id" (ImplicitCastExpr CK_LValueToRValue (Node 9 $"id" (DeclRefExpr 4 $"collection" false)))) (Node 10 [] (CompoundStmt []))))]))))))];
     ts_locs := [(1,1,1,62); (1,8,1,12); (1,15,1,62); (1,17,1,30); (1,17,1,20); (1,32,1,60); (1,37,1,40); (1,37,1,40); (1,46,1,46); (1,46,1,46); (1,58,1,60)]%Z;
     ts_evals := []; ts_same := []; ts_decls := []; ts_parents := [] |}.
Example AvoidBranchingStatementAsLastInLoop_EmptyForeachBreak_holds : sorted_violations_of (shippedRule sh_AvoidBranchingStatementAsLastInLoop) AvoidBranchingStatementAsLastInLoop_EmptyForeachBreak = Some [].
Proof. vm_compute. reflexivity. Qed.

Definition AvoidBranchingStatementAsLastInLoop_EmptyForBreak : testcase :=
  {| ts_lang := LObjC; ts_path := $"input.m"; ts_code := [];
     ts_comments := []; ts_conf := [];
     ts_tops := [(toplevel 0 (TFunction false), (Node 0 [] (FunctionDecl {| f_name := $"a"; f_method := None; f_isDefinition := true; f_bodyLines := (1)%Z |} [(Node 1 [] (VarDecl {| v_isParm := true; v_name := $"b"; v_used := true; v_referenced := true; v_local := false; v_staticMember := false; v_private := false; v_unusedAttr := false; v_defaultArg := false; v_canonicalType := $"int"; v_inTemplate := false; v_contexts := [CxFunction true true false] |} None))] (Some (Node 2 [] (CompoundStmt [(Node 3 [] (ForStmt (Some (Node 4 [] (DeclStmt [(Node 5 [] (VarDecl {| v_isParm := false; v_name := $"i"; v_used := true; v_referenced := true; v_local := true; v_staticMember := false; v_private := false; v_unusedAttr := false; v_defaultArg := false; v_canonicalType := $"int"; v_inTemplate := false; v_contexts := [CxFunction true true false] |} (Some (Node 6 $"int" (IntegerLiteral (0)%Z)))))]))) [] (Some (Node 7 $"int" (BinaryOperator BO_Other (Node 8 $"int" (ImplicitCastExpr CK_LValueToRValue (Node 9 $"int" (DeclRefExpr 5 $"i" false)))) (Node 10 $"int" (ImplicitCastExpr CK_LValueToRValue (Node 11 $"int" (DeclRefExpr 1 $"b" false))))))) (Some (Node 12 $"int" (UnaryOperator UO_Other (Node 13 $"int" (DeclRefExpr 5 $"i" false))))) (Node 14 [] (CompoundStmt []))))]))))))];
     ts_locs := [(1,1,1,49); (1,8,1,12); (1,15,1,49); (1,17,1,47); (1,22,1,31); (1,22,1,30); (1,30,1,30); (1,33,1,37); (1,33,1,33); (1,33,1,33); (1,37,1,37); (1,37,1,37); (1,40,1,41); (1,40,1,40); (1,45,1,47)]%Z;
     ts_evals := []; ts_same := []; ts_decls := []; ts_parents := [] |}.
Example AvoidBranchingStatementAsLastInLoop_EmptyForBreak_holds : sorted_violations_of (shippedRule sh_AvoidBranchingStatementAsLastInLoop) AvoidBranchingStatementAsLastInLoop_EmptyForBreak = Some [].
Proof. vm_compute. reflexivity. Qed.

Definition AvoidBranchingStatementAsLastInLoop_EmptyWhileBreak : testcase :=
  {| ts_lang := LObjC; ts_path := $"input.m"; ts_code := [];
     ts_comments := []; ts_conf := [];
     ts_tops := [(toplevel 0 (TFunction false), (Node 0 [] (FunctionDecl {| f_name := $"a"; f_method := None; f_isDefinition := true; f_bodyLines := (1)%Z |} [(Node 1 [] (VarDecl {| v_isParm := true; v_name := $"b"; v_used := true; v_referenced := true; v_local := false; v_staticMember := false; v_private := false; v_unusedAttr := false; v_defaultArg := false; v_canonicalType := $"int"; v_inTemplate := false; v_contexts := [CxFunction true true false] |} None))] (Some (Node 2 [] (CompoundStmt [(Node 3 [] (WhileStmt [] (Node 4 $"int" (BinaryOperator BO_Other (Node 5 $"int" (ImplicitCastExpr CK_LValueToRValue (Node 6 $"int" (DeclRefExpr 1 $"b" false)))) (Node 7 $"int" (IntegerLiteral (0)%Z)))) (Node 8 [] (CompoundStmt []))))]))))))];
     ts_locs := [(1,1,1,35); (1,8,1,12); (1,15,1,35); (1,17,1,33); (1,24,1,28); (1,24,1,24); (1,24,1,24); (1,28,1,28); (1,31,1,33)]%Z;
     ts_evals := []; ts_same := []; ts_decls := []; ts_parents := [] |}.
Example AvoidBranchingStatementAsLastInLoop_EmptyWhileBreak_holds : sorted_violations_of (shippedRule sh_AvoidBranchingStatementAsLastInLoop) AvoidBranchingStatementAsLastInLoop_EmptyWhileBreak = Some [].
Proof. vm_compute. reflexivity. Qed.

Definition AvoidBranchingStatementAsLastInLoop_EmptyDoWhileBreak : testcase :=
  {| ts_lang := LObjC; ts_path := $"input.m"; ts_code := [];
     ts_comments := []; ts_conf := [];
     ts_tops := [(toplevel 0 (TFunction false), (Node 0 [] (FunctionDecl {| f_name := $"a"; f_method := None; f_isDefinition := true; f_bodyLines := (1)%Z |} [(Node 1 [] (VarDecl {| v_isParm := true; v_name := $"b"; v_used := true; v_referenced := true; v_local := false; v_staticMember := false; v_private := false; v_unusedAttr := false; v_defaultArg := false; v_canonicalType := $"int"; v_inTemplate := false; v_contexts := [CxFunction true true false] |} None))] (Some (Node 2 [] (CompoundStmt [(Node 3 [] (DoStmt (Node 4 [] (CompoundStmt [])) (Node 5 $"int" (BinaryOperator BO_Other (Node 6 $"int" (ImplicitCastExpr CK_LValueToRValue (Node 7 $"int" (DeclRefExpr 1 $"b" false)))) (Node 8 $"int" (IntegerLiteral (0)%Z))))))]))))))];
     ts_locs := [(1,1,1,38); (1,8,1,12); (1,15,1,38); (1,17,1,35); (1,20,1,21); (1,30,1,34); (1,30,1,30); (1,30,1,30); (1,34,1,34)]%Z;
     ts_evals := []; ts_same := []; ts_decls := []; ts_parents := [] |}.
Example AvoidBranchingStatementAsLastInLoop_EmptyDoWhileBreak_holds : sorted_violations_of (shippedRule sh_AvoidBranchingStatementAsLastInLoop) AvoidBranchingStatementAsLastInLoop_EmptyDoWhileBreak = Some [].
Proof. vm_compute. reflexivity. Qed.

Definition AvoidBranchingStatementAsLastInLoop_GoodForeachBreak : testcase :=
  {| ts_lang := LObjC; ts_path := $"input.m"; ts_code := [];
     ts_comments := []; ts_conf := [];
     ts_tops := [(toplevel 0 (TFunction false), (Node 0 [] (FunctionDecl {| f_name := $"a"; f_method := None; f_isDefinition := true; f_bodyLines := (1)%Z |} [(Node 1 [] (VarDecl {| v_isParm := true; v_name := $"b"; v_used := true; v_referenced := true; v_local := false; v_staticMember := false; v_private := false; v_unusedAttr := false; v_defaultArg := false; v_canonicalType := $"int"; v_inTemplate := false; v_contexts := [CxFunction true true false] |} None))] (Some (Node 2 [] (CompoundStmt [(Node 3 [] (DeclStmt [(Node 4 [] (VarDecl {| v_isParm := false; v_name := $"collection"; v_used := true; v_referenced := true; v_local := true; v_staticMember := false; v_private := false; v_unusedAttr := false; v_defaultArg := false; v_canonicalType := $"struct objc_object *"; v_inTemplate := false; v_contexts := [CxFunction true true false] |} None))])); (Node 5 [] (ObjCForCollectionStmt (Node 6 [] (DeclStmt [(Node 7 [] (VarDecl {| v_isParm := false; v_name := $"it"; v_used := false; v_referenced := false; v_local := true; v_staticMember := false; v_private := false; v_unusedAttr := false; v_defaultArg := false; v_canonicalType := $"struct objc_object *"; v_inTemplate := false; v_contexts := [CxFunction true true false] |} None))])) (Node 8 $"id" (ImplicitCastExpr CK_LValueToRValue (Node 9 $"id" (DeclRefExpr 4 $"collection" false)))) (Node 10 [] (CompoundStmt [(Node 11 [] (IfStmt [] (Node 12 $"int" (ImplicitCastExpr CK_LValueToRValue (Node 13 $"int" (DeclRefExpr 1 $"b" false)))) (Node 14 [] (CompoundStmt [(Node 15 [] BreakStmt)])) None))]))))]))))))];
     ts_locs := [(1,1,1,79); (1,8,1,12); (1,15,1,79); (1,17,1,30); (1,17,1,20); (1,32,1,77); (1,37,1,40); (1,37,1,40); (1,46,1,46); (1,46,1,46); (1,58,1,77); (1,60,1,75); (1,63,1,63); (1,63,1,63); (1,66,1,75); (1,68,1,68)]%Z;
     ts_evals := []; ts_same := []; ts_decls := []; ts_parents := [] |}.
Example AvoidBranchingStatementAsLastInLoop_GoodForeachBreak_holds : sorted_violations_of (shippedRule sh_AvoidBranchingStatementAsLastInLoop) AvoidBranchingStatementAsLastInLoop_GoodForeachBreak = Some [].
Proof. vm_compute. reflexivity. Qed.

Definition AvoidBranchingStatementAsLastInLoop_GoodForeachContinue : testcase :=
  {| ts_lang := LObjC; ts_path := $"input.m"; ts_code := [];
     ts_comments := []; ts_conf := [];
     ts_tops := [(toplevel 0 (TFunction false), (Node 0 [] (FunctionDecl {| f_name := $"a"; f_method := None; f_isDefinition := true; f_bodyLines := (1)%Z |} [(Node 1 [] (VarDecl {| v_isParm := true; v_name := $"b"; v_used := true; v_referenced := true; v_local := false; v_staticMember := false; v_private := false; v_unusedAttr := false; v_defaultArg := false; v_canonicalType := $"int"; v_inTemplate := false; v_contexts := [CxFunction true true false] |} None))] (Some (Node 2 [] (CompoundStmt [(Node 3 [] (DeclStmt [(Node 4 [] (VarDecl {| v_isParm := false; v_name := $"collection"; v_used := true; v_referenced := true; v_local := true; v_staticMember := false; v_private := false; v_unusedAttr := false; v_defaultArg := false; v_canonicalType := $"struct objc_object *"; v_inTemplate := false; v_contexts := [CxFunction true true false] |} None))])); (Node 5 [] (ObjCForCollectionStmt (Node 6 [] (DeclStmt [(Node 7 [] (VarDecl {| v_isParm := false; v_name := $"it"; v_used := false; v_referenced := false; v_local := true; v_staticMember := false; v_private := false; v_unusedAttr := false; v_defaultArg := false; v_canonicalType := $"struct objc_object *"; v_inTemplate := false; v_contexts := [CxFunction true true false] |} None))])) (Node 8 $"id" (ImplicitCastExpr CK_LValueToRValue (Node 9 $"id" (DeclRefExpr 4 $"collection" false)))) (Node 10 [] (CompoundStmt [(Node 11 [] (IfStmt [] (Node 12 $"int" (ImplicitCastExpr CK_LValueToRValue (Node 13 $"int" (DeclRefExpr 1 $"b" false)))) (Node 14 [] (CompoundStmt [(Node 15 [] ContinueStmt)])) None))]))))]))))))];
     ts_locs := [(1,1,1,82); (1,8,1,12); (1,15,1,82); (1,17,1,30); (1,17,1,20); (1,32,1,80); (1,37,1,40); (1,37,1,40); (1,46,1,46); (1,46,1,46); (1,58,1,80); (1,60,1,78); (1,63,1,63); (1,63,1,63); (1,66,1,78); (1,68,1,68)]%Z;
     ts_evals := []; ts_same := []; ts_decls := []; ts_parents := [] |}.
Example AvoidBranchingStatementAsLastInLoop_GoodForeachContinue_holds : sorted_violations_of (shippedRule sh_AvoidBranchingStatementAsLastInLoop) AvoidBranchingStatementAsLastInLoop_GoodForeachContinue = Some [].
Proof. vm_compute. reflexivity. Qed.

Definition AvoidBranchingStatementAsLastInLoop_GoodForeachReturn : testcase :=
  {| ts_lang := LObjC; ts_path := $"input.m"; ts_code := [];
     ts_comments := []; ts_conf := [];
     ts_tops := [(toplevel 0 (TFunction false), (Node 0 [] (FunctionDecl {| f_name := $"a"; f_method := None; f_isDefinition := true; f_bodyLines := (1)%Z |} [(Node 1 [] (VarDecl {| v_isParm := true; v_name := $"b"; v_used := true; v_referenced := true; v_local := false; v_staticMember := false; v_private := false; v_unusedAttr := false; v_defaultArg := false; v_canonicalType := $"int"; v_inTemplate := false; v_contexts := [CxFunction true true false] |} None))] (Some (Node 2 [] (CompoundStmt [(Node 3 [] (DeclStmt [(Node 4 [] (VarDecl {| v_isParm := false; v_name := $"collection"; v_used := true; v_referenced := true; v_local := true; v_staticMember := false; v_private := false; v_unusedAttr := false; v_defaultArg := false; v_canonicalType := $"struct objc_object *"; v_inTemplate := false; v_contexts := [CxFunction true true false] |} None))])); (Node 5 [] (ObjCForCollectionStmt (Node 6 [] (DeclStmt [(Node 7 [] (VarDecl {| v_isParm := false; v_name := $"it"; v_used := false; v_referenced := false; v_local := true; v_staticMember := false; v_private := false; v_unusedAttr := false; v_defaultArg := false; v_canonicalType := $"struct objc_object *"; v_inTemplate := false; v_contexts := [CxFunction true true false] |} None))])) (Node 8 $"id" (ImplicitCastExpr CK_LValueToRValue (Node 9 $"id" (DeclRefExpr 4 $"collection" false)))) (Node 10 [] (CompoundStmt [(Node 11 [] (IfStmt [] (Node 12 $"int" (ImplicitCastExpr CK_LValueToRValue (Node 13 $"int" (DeclRefExpr 1 $"b" false)))) (Node 14 [] (CompoundStmt [(Node 15 [] (ReturnStmt None))])) None))]))))]))))))];
     ts_locs := [(1,1,1,80); (1,8,1,12); (1,15,1,80); (1,17,1,30); (1,17,1,20); (1,32,1,78); (1,37,1,40); (1,37,1,40); (1,46,1,46); (1,46,1,46); (1,58,1,78); (1,60,1,76); (1,63,1,63); (1,63,1,63); (1,66,1,76); (1,68,1,68)]%Z;
     ts_evals := []; ts_same := []; ts_decls := []; ts_parents := [] |}.
Example AvoidBranchingStatementAsLastInLoop_GoodForeachReturn_holds : sorted_violations_of (shippedRule sh_AvoidBranchingStatementAsLastInLoop) AvoidBranchingStatementAsLastInLoop_GoodForeachReturn = Some [].
Proof. vm_compute. reflexivity. Qed.

Definition AvoidBranchingStatementAsLastInLoop_GoodForBreak : testcase :=
  {| ts_lang := LObjC; ts_path := $"input.m"; ts_code := [];
     ts_comments := []; ts_conf := [];
     ts_tops := [(toplevel 0 (TFunction false), (Node 0 [] (FunctionDecl {| f_name := $"a"; f_method := None; f_isDefinition := true; f_bodyLines := (1)%Z |} [(Node 1 [] (VarDecl {| v_isParm := true; v_name := $"b"; v_used := true; v_referenced := true; v_local := false; v_staticMember := false; v_private := false; v_unusedAttr := false; v_defaultArg := false; v_canonicalType := $"int"; v_inTemplate := false; v_contexts := [CxFunction true true false] |} None))] (Some (Node 2 [] (CompoundStmt [(Node 3 [] (ForStmt (Some (Node 4 [] (DeclStmt [(Node 5 [] (VarDecl {| v_isParm := false; v_name := $"i"; v_used := true; v_referenced := true; v_local := true; v_staticMember := false; v_private := false; v_unusedAttr := false; v_defaultArg := false; v_canonicalType := $"int"; v_inTemplate := false; v_contexts := [CxFunction true true false] |} (Some (Node 6 $"int" (IntegerLiteral (0)%Z)))))]))) [] (Some (Node 7 $"int" (BinaryOperator BO_Other (Node 8 $"int" (ImplicitCastExpr CK_LValueToRValue (Node 9 $"int" (DeclRefExpr 5 $"i" false)))) (Node 10 $"int" (ImplicitCastExpr CK_LValueToRValue (Node 11 $"int" (DeclRefExpr 1 $"b" false))))))) (Some (Node 12 $"int" (UnaryOperator UO_Other (Node 13 $"int" (DeclRefExpr 5 $"i" false))))) (Node 14 [] (CompoundStmt [(Node 15 [] (IfStmt [] (Node 16 $"int" (ImplicitCastExpr CK_LValueToRValue (Node 17 $"int" (DeclRefExpr 1 $"b" false)))) (Node 18 [] (CompoundStmt [(Node 19 [] BreakStmt)])) None))]))))]))))))];
     ts_locs := [(1,1,1,66); (1,8,1,12); (1,15,1,66); (1,17,1,64); (1,22,1,31); (1,22,1,30); (1,30,1,30); (1,33,1,37); (1,33,1,33); (1,33,1,33); (1,37,1,37); (1,37,1,37); (1,40,1,41); (1,40,1,40); (1,45,1,64); (1,47,1,62); (1,50,1,50); (1,50,1,50); (1,53,1,62); (1,55,1,55)]%Z;
     ts_evals := []; ts_same := []; ts_decls := []; ts_parents := [] |}.
Example AvoidBranchingStatementAsLastInLoop_GoodForBreak_holds : sorted_violations_of (shippedRule sh_AvoidBranchingStatementAsLastInLoop) AvoidBranchingStatementAsLastInLoop_GoodForBreak = Some [].
Proof. vm_compute. reflexivity. Qed.

Definition AvoidBranchingStatementAsLastInLoop_GoodForContinue : testcase :=
  {| ts_lang := LObjC; ts_path := $"input.m"; ts_code := [];
     ts_comments := []; ts_conf := [];
     ts_tops := [(toplevel 0 (TFunction false), (Node 0 [] (FunctionDecl {| f_name := $"a"; f_method := None; f_isDefinition := true; f_bodyLines := (1)%Z |} [(Node 1 [] (VarDecl {| v_isParm := true; v_name := $"b"; v_used := true; v_referenced := true; v_local := false; v_staticMember := false; v_private := false; v_unusedAttr := false; v_defaultArg := false; v_canonicalType := $"int"; v_inTemplate := false; v_contexts := [CxFunction true true false] |} None))] (Some (Node 2 [] (CompoundStmt [(Node 3 [] (ForStmt (Some (Node 4 [] (DeclStmt [(Node 5 [] (VarDecl {| v_isParm := false; v_name := $"i"; v_used := true; v_referenced := true; v_local := true; v_staticMember := false; v_private := false; v_unusedAttr := false; v_defaultArg := false; v_canonicalType := $"int"; v_inTemplate := false; v_contexts := [CxFunction true true false] |} (Some (Node 6 $"int" (IntegerLiteral (0)%Z)))))]))) [] (Some (Node 7 $"int" (BinaryOperator BO_Other (Node 8 $"int" (ImplicitCastExpr CK_LValueToRValue (Node 9 $"int" (DeclRefExpr 5 $"i" false)))) (Node 10 $"int" (ImplicitCastExpr CK_LValueToRValue (Node 11 $"int" (DeclRefExpr 1 $"b" false))))))) (Some (Node 12 $"int" (UnaryOperator UO_Other (Node 13 $"int" (DeclRefExpr 5 $"i" false))))) (Node 14 [] (CompoundStmt [(Node 15 [] (IfStmt [] (Node 16 $"int" (ImplicitCastExpr CK_LValueToRValue (Node 17 $"int" (DeclRefExpr 1 $"b" false)))) (Node 18 [] (CompoundStmt [(Node 19 [] ContinueStmt)])) None))]))))]))))))];
     ts_locs := [(1,1,1,69); (1,8,1,12); (1,15,1,69); (1,17,1,67); (1,22,1,31); (1,22,1,30); (1,30,1,30); (1,33,1,37); (1,33,1,33); (1,33,1,33); (1,37,1,37); (1,37,1,37); (1,40,1,41); (1,40,1,40); (1,45,1,67); (1,47,1,65); (1,50,1,50); (1,50,1,50); (1,53,1,65); (1,55,1,55)]%Z;
     ts_evals := []; ts_same := []; ts_decls := []; ts_parents := [] |}.
Example AvoidBranchingStatementAsLastInLoop_GoodForContinue_holds : sorted_violations_of (shippedRule sh_AvoidBranchingStatementAsLastInLoop) AvoidBranchingStatementAsLastInLoop_GoodForContinue = Some [].
Proof. vm_compute. reflexivity. Qed.

Definition AvoidBranchingStatementAsLastInLoop_GoodForReturn : testcase :=
  {| ts_lang := LObjC; ts_path := $"input.m"; ts_code := [];
     ts_comments := []; ts_conf := [];
     ts_tops := [(toplevel 0 (TFunction false), (Node 0 [] (FunctionDecl {| f_name := $"a"; f_method := None; f_isDefinition := true; f_bodyLines := (1)%Z |} [(Node 1 [] (VarDecl {| v_isParm := true; v_name := $"b"; v_used := true; v_referenced := true; v_local := false; v_staticMember := false; v_private := false; v_unusedAttr := false; v_defaultArg := false; v_canonicalType := $"int"; v_inTemplate := false; v_contexts := [CxFunction true true false] |} None))] (Some (Node 2 [] (CompoundStmt [(Node 3 [] (ForStmt (Some (Node 4 [] (DeclStmt [(Node 5 [] (VarDecl {| v_isParm := false; v_name := $"i"; v_used := true; v_referenced := true; v_local := true; v_staticMember := false; v_private := false; v_unusedAttr := false; v_defaultArg := false; v_canonicalType := $"int"; v_inTemplate := false; v_contexts := [CxFunction true true false] |} (Some (Node 6 $"int" (IntegerLiteral (0)%Z)))))]))) [] (Some (Node 7 $"int" (BinaryOperator BO_Other (Node 8 $"int" (ImplicitCastExpr CK_LValueToRValue (Node 9 $"int" (DeclRefExpr 5 $"i" false)))) (Node 10 $"int" (ImplicitCastExpr CK_LValueToRValue (Node 11 $"int" (DeclRefExpr 1 $"b" false))))))) (Some (Node 12 $"int" (UnaryOperator UO_Other (Node 13 $"int" (DeclRefExpr 5 $"i" false))))) (Node 14 [] (CompoundStmt [(Node 15 [] (IfStmt [] (Node 16 $"int" (ImplicitCastExpr CK_LValueToRValue (Node 17 $"int" (DeclRefExpr 1 $"b" false)))) (Node 18 [] (CompoundStmt [(Node 19 [] (ReturnStmt None))])) None))]))))]))))))];
     ts_locs := [(1,1,1,67); (1,8,1,12); (1,15,1,67); (1,17,1,65); (1,22,1,31); (1,22,1,30); (1,30,1,30); (1,33,1,37); (1,33,1,33); (1,33,1,33); (1,37,1,37); (1,37,1,37); (1,40,1,41); (1,40,1,40); (1,45,1,65); (1,47,1,63); (1,50,1,50); (1,50,1,50); (1,53,1,63); (1,55,1,55)]%Z;
     ts_evals := []; ts_same := []; ts_decls := []; ts_parents := [] |}.
Example AvoidBranchingStatementAsLastInLoop_GoodForReturn_holds : sorted_violations_of (shippedRule sh_AvoidBranchingStatementAsLastInLoop) AvoidBranchingStatementAsLastInLoop_GoodForReturn = Some [].
Proof. vm_compute. reflexivity. Qed.

Definition AvoidBranchingStatementAsLastInLoop_GoodWhileBreak : testcase :=
  {| ts_lang := LObjC; ts_path := $"input.m"; ts_code := [];
     ts_comments := []; ts_conf := [];
     ts_tops := [(toplevel 0 (TFunction false), (Node 0 [] (FunctionDecl {| f_name := $"a"; f_method := None; f_isDefinition := true; f_bodyLines := (1)%Z |} [(Node 1 [] (VarDecl {| v_isParm := true; v_name := $"b"; v_used := true; v_referenced := true; v_local := false; v_staticMember := false; v_private := false; v_unusedAttr := false; v_defaultArg := false; v_canonicalType := $"int"; v_inTemplate := false; v_contexts := [CxFunction true true false] |} None))] (Some (Node 2 [] (CompoundStmt [(Node 3 [] (WhileStmt [] (Node 4 $"int" (BinaryOperator BO_Other (Node 5 $"int" (ImplicitCastExpr CK_LValueToRValue (Node 6 $"int" (DeclRefExpr 1 $"b" false)))) (Node 7 $"int" (IntegerLiteral (0)%Z)))) (Node 8 [] (CompoundStmt [(Node 9 [] (IfStmt [] (Node 10 $"int" (ImplicitCastExpr CK_LValueToRValue (Node 11 $"int" (DeclRefExpr 1 $"b" false)))) (Node 12 [] (CompoundStmt [(Node 13 [] BreakStmt)])) None))]))))]))))))];
     ts_locs := [(1,1,1,52); (1,8,1,12); (1,15,1,52); (1,17,1,50); (1,24,1,28); (1,24,1,24); (1,24,1,24); (1,28,1,28); (1,31,1,50); (1,33,1,48); (1,36,1,36); (1,36,1,36); (1,39,1,48); (1,41,1,41)]%Z;
     ts_evals := []; ts_same := []; ts_decls := []; ts_parents := [] |}.
Example AvoidBranchingStatementAsLastInLoop_GoodWhileBreak_holds : sorted_violations_of (shippedRule sh_AvoidBranchingStatementAsLastInLoop) AvoidBranchingStatementAsLastInLoop_GoodWhileBreak = Some [].
Proof. vm_compute. reflexivity. Qed.

Definition AvoidBranchingStatementAsLastInLoop_GoodWhileContinue : testcase :=
  {| ts_lang := LObjC; ts_path := $"input.m"; ts_code := [];
     ts_comments := []; ts_conf := [];
     ts_tops := [(toplevel 0 (TFunction false), (Node 0 [] (FunctionDecl {| f_name := $"a"; f_method := None; f_isDefinition := true; f_bodyLines := (1)%Z |} [(Node 1 [] (VarDecl {| v_isParm := true; v_name := $"b"; v_used := true; v_referenced := true; v_local := false; v_staticMember := false; v_private := false; v_unusedAttr := false; v_defaultArg := false; v_canonicalType := $"int"; v_inTemplate := false; v_contexts := [CxFunction true true false] |} None))] (Some (Node 2 [] (CompoundStmt [(Node 3 [] (WhileStmt [] (Node 4 $"int" (BinaryOperator BO_Other (Node 5 $"int" (ImplicitCastExpr CK_LValueToRValue (Node 6 $"int" (DeclRefExpr 1 $"b" false)))) (Node 7 $"int" (IntegerLiteral (0)%Z)))) (Node 8 [] (CompoundStmt [(Node 9 [] (IfStmt [] (Node 10 $"int" (ImplicitCastExpr CK_LValueToRValue (Node 11 $"int" (DeclRefExpr 1 $"b" false)))) (Node 12 [] (CompoundStmt [(Node 13 [] ContinueStmt)])) None))]))))]))))))];
     ts_locs := [(1,1,1,55); (1,8,1,12); (1,15,1,55); (1,17,1,53); (1,24,1,28); (1,24,1,24); (1,24,1,24); (1,28,1,28); (1,31,1,53); (1,33,1,51); (1,36,1,36); (1,36,1,36); (1,39,1,51); (1,41,1,41)]%Z;
     ts_evals := []; ts_same := []; ts_decls := []; ts_parents := [] |}.
Example AvoidBranchingStatementAsLastInLoop_GoodWhileContinue_holds : sorted_violations_of (shippedRule sh_AvoidBranchingStatementAsLastInLoop) AvoidBranchingStatementAsLastInLoop_GoodWhileContinue = Some [].
Proof. vm_compute. reflexivity. Qed.

Definition AvoidBranchingStatementAsLastInLoop_GoodWhileReturn : testcase :=
  {| ts_lang := LObjC; ts_path := $"input.m"; ts_code := [];
     ts_comments := []; ts_conf := [];
     ts_tops := [(toplevel 0 (TFunction false), (Node 0 [] (FunctionDecl {| f_name := $"a"; f_method := None; f_isDefinition := true; f_bodyLines := (1)%Z |} [(Node 1 [] (VarDecl {| v_isParm := true; v_name := $"b"; v_used := true; v_referenced := true; v_local := false; v_staticMember := false; v_private := false; v_unusedAttr := false; v_defaultArg := false; v_canonicalType := $"int"; v_inTemplate := false; v_contexts := [CxFunction true true false] |} None))] (Some (Node 2 [] (CompoundStmt [(Node 3 [] (WhileStmt [] (Node 4 $"int" (BinaryOperator BO_Other (Node 5 $"int" (ImplicitCastExpr CK_LValueToRValue (Node 6 $"int" (DeclRefExpr 1 $"b" false)))) (Node 7 $"int" (IntegerLiteral (0)%Z)))) (Node 8 [] (CompoundStmt [(Node 9 [] (IfStmt [] (Node 10 $"int" (ImplicitCastExpr CK_LValueToRValue (Node 11 $"int" (DeclRefExpr 1 $"b" false)))) (Node 12 [] (CompoundStmt [(Node 13 [] (ReturnStmt None))])) None))]))))]))))))];
     ts_locs := [(1,1,1,53); (1,8,1,12); (1,15,1,53); (1,17,1,51); (1,24,1,28); (1,24,1,24); (1,24,1,24); (1,28,1,28); (1,31,1,51); (1,33,1,49); (1,36,1,36); (1,36,1,36); (1,39,1,49); (1,41,1,41)]%Z;
     ts_evals := []; ts_same := []; ts_decls := []; ts_parents := [] |}.
Example AvoidBranchingStatementAsLastInLoop_GoodWhileReturn_holds : sorted_violations_of (shippedRule sh_AvoidBranchingStatementAsLastInLoop) AvoidBranchingStatementAsLastInLoop_GoodWhileReturn = Some [].
Proof. vm_compute. reflexivity. Qed.

Definition AvoidBranchingStatementAsLastInLoop_GoodDoWhileBreak : testcase :=
  {| ts_lang := LObjC; ts_path := $"input.m"; ts_code := [];
     ts_comments := []; ts_conf := [];
     ts_tops := [(toplevel 0 (TFunction false), (Node 0 [] (FunctionDecl {| f_name := $"a"; f_method := None; f_isDefinition := true; f_bodyLines := (1)%Z |} [(Node 1 [] (VarDecl {| v_isParm := true; v_name := $"b"; v_used := true; v_referenced := true; v_local := false; v_staticMember := false; v_private := false; v_unusedAttr := false; v_defaultArg := false; v_canonicalType := $"int"; v_inTemplate := false; v_contexts := [CxFunction true true false] |} None))] (Some (Node 2 [] (CompoundStmt [(Node 3 [] (DoStmt (Node 4 [] (CompoundStmt [(Node 5 [] (IfStmt [] (Node 6 $"int" (ImplicitCastExpr CK_LValueToRValue (Node 7 $"int" (DeclRefExpr 1 $"b" false)))) (Node 8 [] (CompoundStmt [(Node 9 [] BreakStmt)])) None))])) (Node 10 $"int" (BinaryOperator BO_Other (Node 11 $"int" (ImplicitCastExpr CK_LValueToRValue (Node 12 $"int" (DeclRefExpr 1 $"b" false)))) (Node 13 $"int" (IntegerLiteral (0)%Z))))))]))))))];
     ts_locs := [(1,1,1,56); (1,8,1,12); (1,15,1,56); (1,17,1,53); (1,20,1,39); (1,22,1,37); (1,25,1,25); (1,25,1,25); (1,28,1,37); (1,30,1,30); (1,48,1,52); (1,48,1,48); (1,48,1,48); (1,52,1,52)]%Z;
     ts_evals := []; ts_same := []; ts_decls := []; ts_parents := [] |}.
Example AvoidBranchingStatementAsLastInLoop_GoodDoWhileBreak_holds : sorted_violations_of (shippedRule sh_AvoidBranchingStatementAsLastInLoop) AvoidBranchingStatementAsLastInLoop_GoodDoWhileBreak = Some [].
Proof. vm_compute. reflexivity. Qed.

Definition AvoidBranchingStatementAsLastInLoop_GoodDoWhileContinue : testcase :=
  {| ts_lang := LObjC; ts_path := $"input.m"; ts_code := [];
     ts_comments := []; ts_conf := [];
     ts_tops := [(toplevel 0 (TFunction false), (Node 0 [] (FunctionDecl {| f_name := $"a"; f_method := None; f_isDefinition := true; f_bodyLines := (1)%Z |} [(Node 1 [] (VarDecl {| v_isParm := true; v_name := $"b"; v_used := true; v_referenced := true; v_local := false; v_staticMember := false; v_private := false; v_unusedAttr := false; v_defaultArg := false; v_canonicalType := $"int"; v_inTemplate := false; v_contexts := [CxFunction true true false] |} None))] (Some (Node 2 [] (CompoundStmt [(Node 3 [] (DoStmt (Node 4 [] (CompoundStmt [(Node 5 [] (IfStmt [] (Node 6 $"int" (ImplicitCastExpr CK_LValueToRValue (Node 7 $"int" (DeclRefExpr 1 $"b" false)))) (Node 8 [] (CompoundStmt [(Node 9 [] ContinueStmt)])) None))])) (Node 10 $"int" (BinaryOperator BO_Other (Node 11 $"int" (ImplicitCastExpr CK_LValueToRValue (Node 12 $"int" (DeclRefExpr 1 $"b" false)))) (Node 13 $"int" (IntegerLiteral (0)%Z))))))]))))))];
     ts_locs := [(1,1,1,59); (1,8,1,12); (1,15,1,59); (1,17,1,56); (1,20,1,42); (1,22,1,40); (1,25,1,25); (1,25,1,25); (1,28,1,40); (1,30,1,30); (1,51,1,55); (1,51,1,51); (1,51,1,51); (1,55,1,55)]%Z;
     ts_evals := []; ts_same := []; ts_decls := []; ts_parents := [] |}.
Example AvoidBranchingStatementAsLastInLoop_GoodDoWhileContinue_holds : sorted_violations_of (shippedRule sh_AvoidBranchingStatementAsLastInLoop) AvoidBranchingStatementAsLastInLoop_GoodDoWhileContinue = Some [].
Proof. vm_compute. reflexivity. Qed.

Definition AvoidBranchingStatementAsLastInLoop_GoodDoWhileReturn : testcase :=
  {| ts_lang := LObjC; ts_path := $"input.m"; ts_code := [];
     ts_comments := []; ts_conf := [];
     ts_tops := [(toplevel 0 (TFunction false), (Node 0 [] (FunctionDecl {| f_name := $"a"; f_method := None; f_isDefinition := true; f_bodyLines := (1)%Z |} [(Node 1 [] (VarDecl {| v_isParm := true; v_name := $"b"; v_used := true; v_referenced := true; v_local := false; v_staticMember := false; v_private := false; v_unusedAttr := false; v_defaultArg := false; v_canonicalType := $"int"; v_inTemplate := false; v_contexts := [CxFunction true true false] |} None))] (Some (Node 2 [] (CompoundStmt [(Node 3 [] (DoStmt (Node 4 [] (CompoundStmt [(Node 5 [] (IfStmt [] (Node 6 $"int" (ImplicitCastExpr CK_LValueToRValue (Node 7 $"int" (DeclRefExpr 1 $"b" false)))) (Node 8 [] (CompoundStmt [(Node 9 [] (ReturnStmt None))])) None))])) (Node 10 $"int" (BinaryOperator BO_Other (Node 11 $"int" (ImplicitCastExpr CK_LValueToRValue (Node 12 $"int" (DeclRefExpr 1 $"b" false)))) (Node 13 $"int" (IntegerLiteral (0)%Z))))))]))))))];
     ts_locs := [(1,1,1,57); (1,8,1,12); (1,15,1,57); (1,17,1,54); (1,20,1,40); (1,22,1,38); (1,25,1,25); (1,25,1,25); (1,28,1,38); (1,30,1,30); (1,49,1,53); (1,49,1,49); (1,49,1,49); (1,53,1,53)]%Z;
     ts_evals := []; ts_same := []; ts_decls := []; ts_parents := [] |}.
Example AvoidBranchingStatementAsLastInLoop_GoodDoWhileReturn_holds : sorted_violations_of (shippedRule sh_AvoidBranchingStatementAsLastInLoop) AvoidBranchingStatementAsLastInLoop_GoodDoWhileReturn = Some [].
Proof. vm_compute. reflexivity. Qed.

Definition AvoidBranchingStatementAsLastInLoop_BadForeachBreak : testcase :=
  {| ts_lang := LObjC; ts_path := $"input.m"; ts_code := [];
     ts_comments := []; ts_conf := [];
     ts_tops := [(toplevel 0 (TFunction false), (Node 0 [] (FunctionDecl {| f_name := $"a"; f_method := None; f_isDefinition := true; f_bodyLines := (1)%Z |} [(Node 1 [] (VarDecl {| v_isParm := true; v_name := $"b"; v_used := false; v_referenced := false; v_local := false; v_staticMember := false; v_private := false; v_unusedAttr := false; v_defaultArg := false; v_canonicalType := $"int"; v_inTemplate := false; v_contexts := [CxFunction true true false] |} None))] (Some (Node 2 [] (CompoundStmt [(Node 3 [] (DeclStmt [(Node 4 [] (VarDecl {| v_isParm := false; v_name := $"collection"; v_used := true; v_referenced := true; v_local := true; v_staticMember := false; v_private := false; v_unusedAttr := false; v_defaultArg := false; v_canonicalType := $"struct objc_object *"; v_inTemplate := false; v_contexts := [CxFunction true true false] |} None))])); (Node 5 [] (ObjCForCollectionStmt (Node 6 [] (DeclStmt [(Node 7 [] (VarDecl {| v_isParm := false; v_name := $"it"; v_used := false; v_referenced := false; v_local := true; v_staticMember := false; v_private := false; v_unusedAttr := false; v_defaultArg := false; v_canonicalType := $"struct objc_object *"; v_inTemplate := false; v_contexts := [CxFunction true true false] |} None))])) (Node 8 $"id" (ImplicitCastExpr CK_LValueToRValue (Node 9 $"id" (DeclRefExpr 4 $"collection" false)))) (Node 10 [] (CompoundStmt [(Node 11 [] BreakStmt)]))))]))))))];
     ts_locs := [(1,1,1,69); (1,8,1,12); (1,15,1,69); (1,17,1,30); (1,17,1,20); (1,32,1,67); (1,37,1,40); (1,37,1,40); (1,46,1,46); (1,46,1,46); (1,58,1,67); (1,60,1,60)]%Z;
     ts_evals := []; ts_same := []; ts_decls := []; ts_parents := [] |}.
Example AvoidBranchingStatementAsLastInLoop_BadForeachBreak_holds : nth_violation (shippedRule sh_AvoidBranchingStatementAsLastInLoop) AvoidBranchingStatementAsLastInLoop_BadForeachBreak 0 = Some (1, 60, 1, 60, $"")%Z.
Proof. vm_compute. reflexivity. Qed.

Definition AvoidBranchingStatementAsLastInLoop_BadForeachContinue : testcase :=
  {| ts_lang := LObjC; ts_path := $"input.m"; ts_code := [];
     ts_comments := []; ts_conf := [];
     ts_tops := [(toplevel 0 (TFunction false), (Node 0 [] (FunctionDecl {| f_name := $"a"; f_method := None; f_isDefinition := true; f_bodyLines := (1)%Z |} [(Node 1 [] (VarDecl {| v_isParm := true; v_name := $"b"; v_used := false; v_referenced := false; v_local := false; v_staticMember := false; v_private := false; v_unusedAttr := false; v_defaultArg := false; v_canonicalType := $"int"; v_inTemplate := false; v_contexts := [CxFunction true true false] |} None))] (Some (Node 2 [] (CompoundStmt [(Node 3 [] (DeclStmt [(Node 4 [] (VarDecl {| v_isParm := false; v_name := $"collection"; v_used := true; v_referenced := true; v_local := true; v_staticMember := false; v_private := false; v_unusedAttr := false; v_defaultArg := false; v_canonicalType := $"struct objc_object *"; v_inTemplate := false; v_contexts := [CxFunction true true false] |} None))])); (Node 5 [] (ObjCForCollectionStmt (Node 6 [] (DeclStmt [(Node 7 [] (VarDecl {| v_isParm := false; v_name := $"it"; v_used := false; v_referenced := false; v_local := true; v_staticMember := false; v_private := false; v_unusedAttr := false; v_defaultArg := false; v_canonicalType := $"struct objc_object *"; v_inTemplate := false; v_contexts := [CxFunction true true false] |} None))])) (Node 8 $"id" (ImplicitCastExpr CK_LValueToRValue (Node 9 $"id" (DeclRefExpr 4 $"collection" false)))) (Node 10 [] (CompoundStmt [(Node 11 [] ContinueStmt)]))))]))))))];
     ts_locs := [(1,1,1,72); (1,8,1,12); (1,15,1,72); (1,17,1,30); (1,17,1,20); (1,32,1,70); (1,37,1,40); (1,37,1,40); (1,46,1,46); (1,46,1,46); (1,58,1,70); (1,60,1,60)]%Z;
     ts_evals := []; ts_same := []; ts_decls := []; ts_parents := [] |}.
Example AvoidBranchingStatementAsLastInLoop_BadForeachContinue_holds : nth_violation (shippedRule sh_AvoidBranchingStatementAsLastInLoop) AvoidBranchingStatementAsLastInLoop_BadForeachContinue 0 = Some (1, 60, 1, 60, $"")%Z.
Proof. vm_compute. reflexivity. Qed.

Definition AvoidBranchingStatementAsLastInLoop_BadForeachReturn : testcase :=
  {| ts_lang := LObjC; ts_path := $"input.m"; ts_code := [];
     ts_comments := []; ts_conf := [];
     ts_tops := [(toplevel 0 (TFunction false), (Node 0 [] (FunctionDecl {| f_name := $"a"; f_method := None; f_isDefinition := true; f_bodyLines := (1)%Z |} [(Node 1 [] (VarDecl {| v_isParm := true; v_name := $"b"; v_used := false; v_referenced := false; v_local := false; v_staticMember := false; v_private := false; v_unusedAttr := false; v_defaultArg := false; v_canonicalType := $"int"; v_inTemplate := false; v_contexts := [CxFunction true true false] |} None))] (Some (Node 2 [] (CompoundStmt [(Node 3 [] (DeclStmt [(Node 4 [] (VarDecl {| v_isParm := false; v_name := $"collection"; v_used := true; v_referenced := true; v_local := true; v_staticMember := false; v_private := false; v_unusedAttr := false; v_defaultArg := false; v_canonicalType := $"struct objc_object *"; v_inTemplate := false; v_contexts := [CxFunction true true false] |} None))])); (Node 5 [] (ObjCForCollectionStmt (Node 6 [] (DeclStmt [(Node 7 [] (VarDecl {| v_isParm := false; v_name := $"it"; v_used := false; v_referenced := false; v_local := true; v_staticMember := false; v_private := false; v_unusedAttr := false; v_defaultArg := false; v_canonicalType := $"struct objc_object *"; v_inTemplate := false; v_contexts := [CxFunction true true false] |} None))])) (Node 8 $"id" (ImplicitCastExpr CK_LValueToRValue (Node 9 $"id" (DeclRefExpr 4 $"collection" false)))) (Node 10 [] (CompoundStmt [(Node 11 [] (ReturnStmt None))]))))]))))))];
     ts_locs := [(1,1,1,70); (1,8,1,12); (1,15,1,70); (1,17,1,30); (1,17,1,20); (1,32,1,68); (1,37,1,40); (1,37,1,40); (1,46,1,46); (1,46,1,46); (1,58,1,68); (1,60,1,60)]%Z;
     ts_evals := []; ts_same := []; ts_decls := []; ts_parents := [] |}.
Example AvoidBranchingStatementAsLastInLoop_BadForeachReturn_holds : nth_violation (shippedRule sh_AvoidBranchingStatementAsLastInLoop) AvoidBranchingStatementAsLastInLoop_BadForeachReturn 0 = Some (1, 60, 1, 60, $"")%Z.
Proof. vm_compute. reflexivity. Qed.

Definition AvoidBranchingStatementAsLastInLoop_BadForBreak : testcase :=
  {| ts_lang := LObjC; ts_path := $"input.m"; ts_code := [];
     ts_comments := []; ts_conf := [];
     ts_tops := [(toplevel 0 (TFunction false), (Node 0 [] (FunctionDecl {| f_name := $"a"; f_method := None; f_isDefinition := true; f_bodyLines := (1)%Z |} [(Node 1 [] (VarDecl {| v_isParm := true; v_name := $"b"; v_used := true; v_referenced := true; v_local := false; v_staticMember := false; v_private := false; v_unusedAttr := false; v_defaultArg := false; v_canonicalType := $"int"; v_inTemplate := false; v_contexts := [CxFunction true true false] |} None))] (Some (Node 2 [] (CompoundStmt [(Node 3 [] (ForStmt (Some (Node 4 [] (DeclStmt [(Node 5 [] (VarDecl {| v_isParm := false; v_name := $"i"; v_used := true; v_referenced := true; v_local := true; v_staticMember := false; v_private := false; v_unusedAttr := false; v_defaultArg := false; v_canonicalType := $"int"; v_inTemplate := false; v_contexts := [CxFunction true true false] |} (Some (Node 6 $"int" (IntegerLiteral (0)%Z)))))]))) [] (Some (Node 7 $"int" (BinaryOperator BO_Other (Node 8 $"int" (ImplicitCastExpr CK_LValueToRValue (Node 9 $"int" (DeclRefExpr 5 $"i" false)))) (Node 10 $"int" (ImplicitCastExpr CK_LValueToRValue (Node 11 $"int" (DeclRefExpr 1 $"b" false))))))) (Some (Node 12 $"int" (UnaryOperator UO_Other (Node 13 $"int" (DeclRefExpr 5 $"i" false))))) (Node 14 [] (CompoundStmt [(Node 15 [] BreakStmt)]))))]))))))];
     ts_locs := [(1,1,1,56); (1,8,1,12); (1,15,1,56); (1,17,1,54); (1,22,1,31); (1,22,1,30); (1,30,1,30); (1,33,1,37); (1,33,1,33); (1,33,1,33); (1,37,1,37); (1,37,1,37); (1,40,1,41); (1,40,1,40); (1,45,1,54); (1,47,1,47)]%Z;
     ts_evals := []; ts_same := []; ts_decls := []; ts_parents := [] |}.
Example AvoidBranchingStatementAsLastInLoop_BadForBreak_holds : nth_violation (shippedRule sh_AvoidBranchingStatementAsLastInLoop) AvoidBranchingStatementAsLastInLoop_BadForBreak 0 = Some (1, 47, 1, 47, $"")%Z.
Proof. vm_compute. reflexivity. Qed.

Definition AvoidBranchingStatementAsLastInLoop_BadForContinue : testcase :=
  {| ts_lang := LObjC; ts_path := $"input.m"; ts_code := [];
     ts_comments := []; ts_conf := [];
     ts_tops := [(toplevel 0 (TFunction false), (Node 0 [] (FunctionDecl {| f_name := $"a"; f_method := None; f_isDefinition := true; f_bodyLines := (1)%Z |} [(Node 1 [] (VarDecl {| v_isParm := true; v_name := $"b"; v_used := true; v_referenced := true; v_local := false; v_staticMember := false; v_private := false; v_unusedAttr := false; v_defaultArg := false; v_canonicalType := $"int"; v_inTemplate := false; v_contexts := [CxFunction true true false] |} None))] (Some (Node 2 [] (CompoundStmt [(Node 3 [] (ForStmt (Some (Node 4 [] (DeclStmt [(Node 5 [] (VarDecl {| v_isParm := false; v_name := $"i"; v_used := true; v_referenced := true; v_local := true; v_staticMember := false; v_private := false; v_unusedAttr := false; v_defaultArg := false; v_canonicalType := $"int"; v_inTemplate := false; v_contexts := [CxFunction true true false] |} (Some (Node 6 $"int" (IntegerLiteral (0)%Z)))))]))) [] (Some (Node 7 $"int" (BinaryOperator BO_Other (Node 8 $"int" (ImplicitCastExpr CK_LValueToRValue (Node 9 $"int" (DeclRefExpr 5 $"i" false)))) (Node 10 $"int" (ImplicitCastExpr CK_LValueToRValue (Node 11 $"int" (DeclRefExpr 1 $"b" false))))))) (Some (Node 12 $"int" (UnaryOperator UO_Other (Node 13 $"int" (DeclRefExpr 5 $"i" false))))) (Node 14 [] (CompoundStmt [(Node 15 [] ContinueStmt)]))))]))))))];
     ts_locs := [(1,1,1,59); (1,8,1,12); (1,15,1,59); (1,17,1,57); (1,22,1,31); (1,22,1,30); (1,30,1,30); (1,33,1,37); (1,33,1,33); (1,33,1,33); (1,37,1,37); (1,37,1,37); (1,40,1,41); (1,40,1,40); (1,45,1,57); (1,47,1,47)]%Z;
     ts_evals := []; ts_same := []; ts_decls := []; ts_parents := [] |}.
Example AvoidBranchingStatementAsLastInLoop_BadForContinue_holds : nth_violation (shippedRule sh_AvoidBranchingStatementAsLastInLoop) AvoidBranchingStatementAsLastInLoop_BadForContinue 0 = Some (1, 47, 1, 47, $"")%Z.
Proof. vm_compute. reflexivity. Qed.

Definition AvoidBranchingStatementAsLastInLoop_BadForReturn : testcase :=
  {| ts_lang := LObjC; ts_path := $"input.m"; ts_code := [];
     ts_comments := []; ts_conf := [];
     ts_tops := [(toplevel 0 (TFunction false), (Node 0 [] (FunctionDecl {| f_name := $"a"; f_method := None; f_isDefinition := true; f_bodyLines := (1)%Z |} [(Node 1 [] (VarDecl {| v_isParm := true; v_name := $"b"; v_used := true; v_referenced := true; v_local := false; v_staticMember := false; v_private := false; v_unusedAttr := false; v_defaultArg := false; v_canonicalType := $"int"; v_inTemplate := false; v_contexts := [CxFunction true true false] |} None))] (Some (Node 2 [] (CompoundStmt [(Node 3 [] (ForStmt (Some (Node 4 [] (DeclStmt [(Node 5 [] (VarDecl {| v_isParm := false; v_name := $"i"; v_used := true; v_referenced := true; v_local := true; v_staticMember := false; v_private := false; v_unusedAttr := false; v_defaultArg := false; v_canonicalType := $"int"; v_inTemplate := false; v_contexts := [CxFunction true true false] |} (Some (Node 6 $"int" (IntegerLiteral (0)%Z)))))]))) [] (Some (Node 7 $"int" (BinaryOperator BO_Other (Node 8 $"int" (ImplicitCastExpr CK_LValueToRValue (Node 9 $"int" (DeclRefExpr 5 $"i" false)))) (Node 10 $"int" (ImplicitCastExpr CK_LValueToRValue (Node 11 $"int" (DeclRefExpr 1 $"b" false))))))) (Some (Node 12 $"int" (UnaryOperator UO_Other (Node 13 $"int" (DeclRefExpr 5 $"i" false))))) (Node 14 [] (CompoundStmt [(Node 15 [] (ReturnStmt None))]))))]))))))];
     ts_locs := [(1,1,1,57); (1,8,1,12); (1,15,1,57); (1,17,1,55); (1,22,1,31); (1,22,1,30); (1,30,1,30); (1,33,1,37); (1,33,1,33); (1,33,1,33); (1,37,1,37); (1,37,1,37); (1,40,1,41); (1,40,1,40); (1,45,1,55); (1,47,1,47)]%Z;
     ts_evals := []; ts_same := []; ts_decls := []; ts_parents := [] |}.
Example AvoidBranchingStatementAsLastInLoop_BadForReturn_holds : nth_violation (shippedRule sh_AvoidBranchingStatementAsLastInLoop) AvoidBranchingStatementAsLastInLoop_BadForReturn 0 = Some (1, 47, 1, 47, $"")%Z.
Proof. vm_compute. reflexivity. Qed.

Definition AvoidBranchingStatementAsLastInLoop_BadWhileBreak : testcase :=
  {| ts_lang := LObjC; ts_path := $"input.m"; ts_code := [];
     ts_comments := []; ts_conf := [];
     ts_tops := [(toplevel 0 (TFunction false), (Node 0 [] (FunctionDecl {| f_name := $"a"; f_method := None; f_isDefinition := true; f_bodyLines := (1)%Z |} [(Node 1 [] (VarDecl {| v_isParm := true; v_name := $"b"; v_used := true; v_referenced := true; v_local := false; v_staticMember := false; v_private := false; v_unusedAttr := false; v_defaultArg := false; v_canonicalType := $"int"; v_inTemplate := false; v_contexts := [CxFunction true true false] |} None))] (Some (Node 2 [] (CompoundStmt [(Node 3 [] (WhileStmt [] (Node 4 $"int" (BinaryOperator BO_Other (Node 5 $"int" (ImplicitCastExpr CK_LValueToRValue (Node 6 $"int" (DeclRefExpr 1 $"b" false)))) (Node 7 $"int" (IntegerLiteral (0)%Z)))) (Node 8 [] (CompoundStmt [(Node 9 [] BreakStmt)]))))]))))))];
     ts_locs := [(1,1,1,42); (1,8,1,12); (1,15,1,42); (1,17,1,40); (1,24,1,28); (1,24,1,24); (1,24,1,24); (1,28,1,28); (1,31,1,40); (1,33,1,33)]%Z;
     ts_evals := []; ts_same := []; ts_decls := []; ts_parents := [] |}.
Example AvoidBranchingStatementAsLastInLoop_BadWhileBreak_holds : nth_violation (shippedRule sh_AvoidBranchingStatementAsLastInLoop) AvoidBranchingStatementAsLastInLoop_BadWhileBreak 0 = Some (1, 33, 1, 33, $"")%Z.
Proof. vm_compute. reflexivity. Qed.

Definition AvoidBranchingStatementAsLastInLoop_BadWhileContinue : testcase :=
  {| ts_lang := LObjC; ts_path := $"input.m"; ts_code := [];
     ts_comments := []; ts_conf := [];
     ts_tops := [(toplevel 0 (TFunction false), (Node 0 [] (FunctionDecl {| f_name := $"a"; f_method := None; f_isDefinition := true; f_bodyLines := (1)%Z |} [(Node 1 [] (VarDecl {| v_isParm := true; v_name := $"b"; v_used := true; v_referenced := true; v_local := false; v_staticMember := false; v_private := false; v_unusedAttr := false; v_defaultArg := false; v_canonicalType := $"int"; v_inTemplate := false; v_contexts := [CxFunction true true false] |} None))] (Some (Node 2 [] (CompoundStmt [(Node 3 [] (WhileStmt [] (Node 4 $"int" (BinaryOperator BO_Other (Node 5 $"int" (ImplicitCastExpr CK_LValueToRValue (Node 6 $"int" (DeclRefExpr 1 $"b" false)))) (Node 7 $"int" (IntegerLiteral (0)%Z)))) (Node 8 [] (CompoundStmt [(Node 9 [] ContinueStmt)]))))]))))))];
     ts_locs := [(1,1,1,45); (1,8,1,12); (1,15,1,45); (1,17,1,43); (1,24,1,28); (1,24,1,24); (1,24,1,24); (1,28,1,28); (1,31,1,43); (1,33,1,33)]%Z;
     ts_evals := []; ts_same := []; ts_decls := []; ts_parents := [] |}.
Example AvoidBranchingStatementAsLastInLoop_BadWhileContinue_holds : nth_violation (shippedRule sh_AvoidBranchingStatementAsLastInLoop) AvoidBranchingStatementAsLastInLoop_BadWhileContinue 0 = Some (1, 33, 1, 33, $"")%Z.
Proof. vm_compute. reflexivity. Qed.

Definition AvoidBranchingStatementAsLastInLoop_BadWhileReturn : testcase :=
  {| ts_lang := LObjC; ts_path := $"input.m"; ts_code := [];
     ts_comments := []; ts_conf := [];
     ts_tops := [(toplevel 0 (TFunction false), (Node 0 [] (FunctionDecl {| f_name := $"a"; f_method := None; f_isDefinition := true; f_bodyLines := (1)%Z |} [(Node 1 [] (VarDecl {| v_isParm := true; v_name := $"b"; v_used := true; v_referenced := true; v_local := false; v_staticMember := false; v_private := false; v_unusedAttr := false; v_defaultArg := false; v_canonicalType := $"int"; v_inTemplate := false; v_contexts := [CxFunction true true false] |} None))] (Some (Node 2 [] (CompoundStmt [(Node 3 [] (WhileStmt [] (Node 4 $"int" (BinaryOperator BO_Other (Node 5 $"int" (ImplicitCastExpr CK_LValueToRValue (Node 6 $"int" (DeclRefExpr 1 $"b" false)))) (Node 7 $"int" (IntegerLiteral (0)%Z)))) (Node 8 [] (CompoundStmt [(Node 9 [] (ReturnStmt None))]))))]))))))];
     ts_locs := [(1,1,1,43); (1,8,1,12); (1,15,1,43); (1,17,1,41); (1,24,1,28); (1,24,1,24); (1,24,1,24); (1,28,1,28); (1,31,1,41); (1,33,1,33)]%Z;
     ts_evals := []; ts_same := []; ts_decls := []; ts_parents := [] |}.
Example AvoidBranchingStatementAsLastInLoop_BadWhileReturn_holds : nth_violation (shippedRule sh_AvoidBranchingStatementAsLastInLoop) AvoidBranchingStatementAsLastInLoop_BadWhileReturn 0 = Some (1, 33, 1, 33, $"")%Z.
Proof. vm_compute. reflexivity. Qed.

Definition AvoidBranchingStatementAsLastInLoop_BadDoWhileBreak : testcase :=
  {| ts_lang := LObjC; ts_path := $"input.m"; ts_code := [];
     ts_comments := []; ts_conf := [];
     ts_tops := [(toplevel 0 (TFunction false), (Node 0 [] (FunctionDecl {| f_name := $"a"; f_method := None; f_isDefinition := true; f_bodyLines := (1)%Z |} [(Node 1 [] (VarDecl {| v_isParm := true; v_name := $"b"; v_used := true; v_referenced := true; v_local := false; v_staticMember := false; v_private := false; v_unusedAttr := false; v_defaultArg := false; v_canonicalType := $"int"; v_inTemplate := false; v_contexts := [CxFunction true true false] |} None))] (Some (Node 2 [] (CompoundStmt [(Node 3 [] (DoStmt (Node 4 [] (CompoundStmt [(Node 5 [] BreakStmt)])) (Node 6 $"int" (BinaryOperator BO_Other (Node 7 $"int" (ImplicitCastExpr CK_LValueToRValue (Node 8 $"int" (DeclRefExpr 1 $"b" false)))) (Node 9 $"int" (IntegerLiteral (0)%Z))))))]))))))];
     ts_locs := [(1,1,1,46); (1,8,1,12); (1,15,1,46); (1,17,1,43); (1,20,1,29); (1,22,1,22); (1,38,1,42); (1,38,1,38); (1,38,1,38); (1,42,1,42)]%Z;
     ts_evals := []; ts_same := []; ts_decls := []; ts_parents := [] |}.
Example AvoidBranchingStatementAsLastInLoop_BadDoWhileBreak_holds : nth_violation (shippedRule sh_AvoidBranchingStatementAsLastInLoop) AvoidBranchingStatementAsLastInLoop_BadDoWhileBreak 0 = Some (1, 22, 1, 22, $"")%Z.
Proof. vm_compute. reflexivity. Qed.

Definition AvoidBranchingStatementAsLastInLoop_BadDoWhileContinue : testcase :=
  {| ts_lang := LObjC; ts_path := $"input.m"; ts_code := [];
     ts_comments := []; ts_conf := [];
     ts_tops := [(toplevel 0 (TFunction false), (Node 0 [] (FunctionDecl {| f_name := $"a"; f_method := None; f_isDefinition := true; f_bodyLines := (1)%Z |} [(Node 1 [] (VarDecl {| v_isParm := true; v_name := $"b"; v_used := true; v_referenced := true; v_local := false; v_staticMember := false; v_private := false; v_unusedAttr := false; v_defaultArg := false; v_canonicalType := $"int"; v_inTemplate := false; v_contexts := [CxFunction true true false] |} None))] (Some (Node 2 [] (CompoundStmt [(Node 3 [] (DoStmt (Node 4 [] (CompoundStmt [(Node 5 [] ContinueStmt)])) (Node 6 $"int" (BinaryOperator BO_Other (Node 7 $"int" (ImplicitCastExpr CK_LValueToRValue (Node 8 $"int" (DeclRefExpr 1 $"b" false)))) (Node 9 $"int" (IntegerLiteral (0)%Z))))))]))))))];
     ts_locs := [(1,1,1,49); (1,8,1,12); (1,15,1,49); (1,17,1,46); (1,20,1,32); (1,22,1,22); (1,41,1,45); (1,41,1,41); (1,41,1,41); (1,45,1,45)]%Z;
     ts_evals := []; ts_same := []; ts_decls := []; ts_parents := [] |}.
Example AvoidBranchingStatementAsLastInLoop_BadDoWhileContinue_holds : nth_violation (shippedRule sh_AvoidBranchingStatementAsLastInLoop) AvoidBranchingStatementAsLastInLoop_BadDoWhileContinue 0 = Some (1, 22, 1, 22, $"")%Z.
Proof. vm_compute. reflexivity. Qed.

Definition AvoidBranchingStatementAsLastInLoop_BadDoWhileReturn : testcase :=
  {| ts_lang := LObjC; ts_path := $"input.m"; ts_code := [];
     ts_comments := []; ts_conf := [];
     ts_tops := [(toplevel 0 (TFunction false), (Node 0 [] (FunctionDecl {| f_name := $"a"; f_method := None; f_isDefinition := true; f_bodyLines := (1)%Z |} [(Node 1 [] (VarDecl {| v_isParm := true; v_name := $"b"; v_used := true; v_referenced := true; v_local := false; v_staticMember := false; v_private := false; v_unusedAttr := false; v_defaultArg := false; v_canonicalType := $"int"; v_inTemplate := false; v_contexts := [CxFunction true true false] |} None))] (Some (Node 2 [] (CompoundStmt [(Node 3 [] (DoStmt (Node 4 [] (CompoundStmt [(Node 5 [] (ReturnStmt None))])) (Node 6 $"int" (BinaryOperator BO_Other (Node 7 $"int" (ImplicitCastExpr CK_LValueToRValue (Node 8 $"int" (DeclRefExpr 1 $"b" false)))) (Node 9 $"int" (IntegerLiteral (0)%Z))))))]))))))];
     ts_locs := [(1,1,1,47); (1,8,1,12); (1,15,1,47); (1,17,1,44); (1,20,1,30); (1,22,1,22); (1,39,1,43); (1,39,1,39); (1,39,1,39); (1,43,1,43)]%Z;
     ts_evals := []; ts_same := []; ts_decls := []; ts_parents := [] |}.
Example AvoidBranchingStatementAsLastInLoop_BadDoWhileReturn_holds : nth_violation (shippedRule sh_AvoidBranchingStatementAsLastInLoop) AvoidBranchingStatementAsLastInLoop_BadDoWhileReturn 0 = Some (1, 22, 1, 22, $"")%Z.
Proof. vm_compute. reflexivity. Qed.

(** ** oclint-rules/test/convention/BaseClassDestructorShouldBeVirtualOrProtectedRuleTest.cpp *)

Definition BaseClassDestructorShouldBeVirtualOrProtected_VirtualBaseDestructor : testcase :=
  {| ts_lang := LCXX; ts_path := $"input.cpp"; ts_code := [];
     ts_comments := []; ts_conf := [];
     ts_tops := [(toplevel 0 (TOther), (Node 0 [] (CXXRecordDecl {| r_class := (CxxRecord 0 $"Base" true true (Some (true, false)) []); r_fields := 0; r_methods := 1; r_lines := (1)%Z |} [(Node 1 [] (FunctionDecl {| f_name := $"~Base"; f_method := (Some {| cm_virtual := true; cm_static := false; cm_private := false; cm_inRecord := true |}); f_isDefinition := false; f_bodyLines := (0)%Z |} [] None))]))); (toplevel 2 (TOther), (Node 2 [] (CXXRecordDecl {| r_class := (CxxRecord 2 $"C" true true None [(true, (Some (CxxRecord 0 $"Base" true true (Some (true, false)) [])))]); r_fields := 0; r_methods := 0; r_lines := (1)%Z |} [])))];
     ts_locs := [(1,1,1,39); (1,22,1,36); (2,1,2,24)]%Z;
     ts_evals := []; ts_same := []; ts_decls := []; ts_parents := [] |}.
Example BaseClassDestructorShouldBeVirtualOrProtected_VirtualBaseDestructor_holds : sorted_violations_of (shippedRule sh_BaseClassDestructorShouldBeVirtualOrProtected) BaseClassDestructorShouldBeVirtualOrProtected_VirtualBaseDestructor = Some [].
Proof. vm_compute. reflexivity. Qed.

Definition BaseClassDestructorShouldBeVirtualOrProtected_ProtectedBaseDestructor : testcase :=
  {| ts_lang := LCXX; ts_path := $"input.cpp"; ts_code := [];
     ts_comments := []; ts_conf := [];
     ts_tops := [(toplevel 0 (TOther), (Node 0 [] (CXXRecordDecl {| r_class := (CxxRecord 0 $"Base" true false (Some (false, true)) []); r_fields := 0; r_methods := 1; r_lines := (1)%Z |} [(Node 1 [] (FunctionDecl {| f_name := $"~Base"; f_method := (Some {| cm_virtual := false; cm_static := false; cm_private := false; cm_inRecord := true |}); f_isDefinition := false; f_bodyLines := (0)%Z |} [] None))]))); (toplevel 2 (TOther), (Node 2 [] (CXXRecordDecl {| r_class := (CxxRecord 2 $"C" true false None [(true, (Some (CxxRecord 0 $"Base" true false (Some (false, true)) [])))]); r_fields := 0; r_methods := 0; r_lines := (1)%Z |} [])))];
     ts_locs := [(1,1,1,34); (1,25,1,31); (2,1,2,24)]%Z;
     ts_evals := []; ts_same := []; ts_decls := []; ts_parents := [] |}.
Example BaseClassDestructorShouldBeVirtualOrProtected_ProtectedBaseDestructor_holds : sorted_violations_of (shippedRule sh_BaseClassDestructorShouldBeVirtualOrProtected) BaseClassDestructorShouldBeVirtualOrProtected_ProtectedBaseDestructor = Some [].
Proof. vm_compute. reflexivity. Qed.

Definition BaseClassDestructorShouldBeVirtualOrProtected_PublicBaseDestructor : testcase :=
  {| ts_lang := LCXX; ts_path := $"input.cpp"; ts_code := [];
     ts_comments := []; ts_conf := [];
     ts_tops := [(toplevel 0 (TOther), (Node 0 [] (CXXRecordDecl {| r_class := (CxxRecord 0 $"Base" true false (Some (false, false)) []); r_fields := 0; r_methods := 1; r_lines := (1)%Z |} [(Node 1 [] (FunctionDecl {| f_name := $"~Base"; f_method := (Some {| cm_virtual := false; cm_static := false; cm_private := false; cm_inRecord := true |}); f_isDefinition := false; f_bodyLines := (0)%Z |} [] None))]))); (toplevel 2 (TOther), (Node 2 [] (CXXRecordDecl {| r_class := (CxxRecord 2 $"C" true true (Some (true, false)) [(true, (Some (CxxRecord 0 $"Base" true false (Some (false, false)) [])))]); r_fields := 0; r_methods := 1; r_lines := (1)%Z |} [(Node 3 [] (FunctionDecl {| f_name := $"~C"; f_method := (Some {| cm_virtual := true; cm_static := false; cm_private := true; cm_inRecord := true |}); f_isDefinition := false; f_bodyLines := (0)%Z |} [] None))])))];
     ts_locs := [(1,1,1,31); (1,22,1,28); (2,1,2,39); (2,25,2,36)]%Z;
     ts_evals := []; ts_same := []; ts_decls := []; ts_parents := [] |}.
Example BaseClassDestructorShouldBeVirtualOrProtected_PublicBaseDestructor_holds : sorted_violations_of (shippedRule sh_BaseClassDestructorShouldBeVirtualOrProtected) BaseClassDestructorShouldBeVirtualOrProtected_PublicBaseDestructor = Some [(1, 1, 1, 31, $"~Base() should be protected or virtual according to class C")%Z].
Proof. vm_compute. reflexivity. Qed.

Definition BaseClassDestructorShouldBeVirtualOrProtected_PublicImplicitBaseDestructor : testcase :=
  {| ts_lang := LCXX; ts_path := $"input.cpp"; ts_code := [];
     ts_comments := []; ts_conf := [];
     ts_tops := [(toplevel 0 (TOther), (Node 0 [] (CXXRecordDecl {| r_class := (CxxRecord 0 $"Base" true false None []); r_fields := 0; r_methods := 0; r_lines := (1)%Z |} []))); (toplevel 1 (TOther), (Node 1 [] (CXXRecordDecl {| r_class := (CxxRecord 1 $"C" true true (Some (true, false)) [(true, (Some (CxxRecord 0 $"Base" true false None [])))]); r_fields := 0; r_methods := 1; r_lines := (1)%Z |} [(Node 2 [] (FunctionDecl {| f_name := $"~C"; f_method := (Some {| cm_virtual := true; cm_static := false; cm_private := true; cm_inRecord := true |}); f_isDefinition := false; f_bodyLines := (0)%Z |} [] None))])))];
     ts_locs := [(1,1,1,13); (2,1,2,39); (2,25,2,36)]%Z;
     ts_evals := []; ts_same := []; ts_decls := []; ts_parents := [] |}.
Example BaseClassDestructorShouldBeVirtualOrProtected_PublicImplicitBaseDestructor_holds : sorted_violations_of (shippedRule sh_BaseClassDestructorShouldBeVirtualOrProtected) BaseClassDestructorShouldBeVirtualOrProtected_PublicImplicitBaseDestructor = Some [(1, 1, 1, 13, $"~Base() should be protected or virtual according to class C")%Z].
Proof. vm_compute. reflexivity. Qed.

Definition BaseClassDestructorShouldBeVirtualOrProtected_NotVirtualChildClass : testcase :=
  {| ts_lang := LCXX; ts_path := $"input.cpp"; ts_code := [];
     ts_comments := []; ts_conf := [];
     ts_tops := [(toplevel 0 (TOther), (Node 0 [] (CXXRecordDecl {| r_class := (CxxRecord 0 $"Base" true false (Some (false, false)) []); r_fields := 0; r_methods := 1; r_lines := (1)%Z |} [(Node 1 [] (FunctionDecl {| f_name := $"~Base"; f_method := (Some {| cm_virtual := false; cm_static := false; cm_private := false; cm_inRecord := true |}); f_isDefinition := false; f_bodyLines := (0)%Z |} [] None))]))); (toplevel 2 (TOther), (Node 2 [] (CXXRecordDecl {| r_class := (CxxRecord 2 $"C" true false None [(true, (Some (CxxRecord 0 $"Base" true false (Some (false, false)) [])))]); r_fields := 0; r_methods := 0; r_lines := (1)%Z |} [])))];
     ts_locs := [(1,1,1,31); (1,22,1,28); (2,1,2,24)]%Z;
     ts_evals := []; ts_same := []; ts_decls := []; ts_parents := [] |}.
Example BaseClassDestructorShouldBeVirtualOrProtected_NotVirtualChildClass_holds : sorted_violations_of (shippedRule sh_BaseClassDestructorShouldBeVirtualOrProtected) BaseClassDestructorShouldBeVirtualOrProtected_NotVirtualChildClass = Some [].
Proof. vm_compute. reflexivity. Qed.

Definition BaseClassDestructorShouldBeVirtualOrProtected_ReportOnlyOnce : testcase :=
  {| ts_lang := LCXX; ts_path := $"input.cpp"; ts_code := [];
     ts_comments := []; ts_conf := [];
     ts_tops := [(toplevel 0 (TOther), (Node 0 [] (CXXRecordDecl {| r_class := (CxxRecord 0 $"Base" true false None []); r_fields := 0; r_methods := 0; r_lines := (1)%Z |} []))); (toplevel 1 (TOther), (Node 1 [] (CXXRecordDecl {| r_class := (CxxRecord 1 $"Intermediate" true true (Some (true, false)) [(true, (Some (CxxRecord 0 $"Base" true false None [])))]); r_fields := 0; r_methods := 1; r_lines := (1)%Z |} [(Node 2 [] (FunctionDecl {| f_name := $"~Intermediate"; f_method := (Some {| cm_virtual := true; cm_static := false; cm_private := false; cm_inRecord := true |}); f_isDefinition := false; f_bodyLines := (0)%Z |} [] None))]))); (toplevel 3 (TOther), (Node 3 [] (CXXRecordDecl {| r_class := (CxxRecord 3 $"Child" true true (Some (true, false)) [(true, (Some (CxxRecord 1 $"Intermediate" true true (Some (true, false)) [(true, (Some (CxxRecord 0 $"Base" true false None [])))])))]); r_fields := 0; r_methods := 1; r_lines := (1)%Z |} [(Node 4 [] (FunctionDecl {| f_name := $"~Child"; f_method := (Some {| cm_virtual := true; cm_static := false; cm_private := false; cm_inRecord := true |}); f_isDefinition := false; f_bodyLines := (0)%Z |} [] None))])))];
     ts_locs := [(1,1,1,13); (2,1,2,69); (2,44,2,66); (3,1,3,63); (3,45,3,60)]%Z;
     ts_evals := []; ts_same := []; ts_decls := []; ts_parents := [] |}.
Example BaseClassDestructorShouldBeVirtualOrProtected_ReportOnlyOnce_holds : sorted_violations_of (shippedRule sh_BaseClassDestructorShouldBeVirtualOrProtected) BaseClassDestructorShouldBeVirtualOrProtected_ReportOnlyOnce = Some [(1, 1, 1, 13, $"~Base() should be protected or virtual according to class Intermediate")%Z].
Proof. vm_compute. reflexivity. Qed.

Definition BaseClassDestructorShouldBeVirtualOrProtected_SuccessiveInheritance : testcase :=
  {| ts_lang := LCXX; ts_path := $"input.cpp"; ts_code := [];
     ts_comments := []; ts_conf := [];
     ts_tops := [(toplevel 0 (TOther), (Node 0 [] (CXXRecordDecl {| r_class := (CxxRecord 0 $"Base" true false None []); r_fields := 0; r_methods := 0; r_lines := (1)%Z |} []))); (toplevel 1 (TOther), (Node 1 [] (CXXRecordDecl {| r_class := (CxxRecord 1 $"Intermediate" true false None [(true, (Some (CxxRecord 0 $"Base" true false None [])))]); r_fields := 0; r_methods := 0; r_lines := (1)%Z |} []))); (toplevel 2 (TOther), (Node 2 [] (CXXRecordDecl {| r_class := (CxxRecord 2 $"Child" true true (Some (true, false)) [(true, (Some (CxxRecord 1 $"Intermediate" true false None [(true, (Some (CxxRecord 0 $"Base" true false None [])))])))]); r_fields := 0; r_methods := 1; r_lines := (1)%Z |} [(Node 3 [] (FunctionDecl {| f_name := $"~Child"; f_method := (Some {| cm_virtual := true; cm_static := false; cm_private := false; cm_inRecord := true |}); f_isDefinition := false; f_bodyLines := (0)%Z |} [] None))])))];
     ts_locs := [(1,1,1,13); (2,1,2,35); (3,1,3,63); (3,45,3,60)]%Z;
     ts_evals := []; ts_same := []; ts_decls := []; ts_parents := [] |}.
Example BaseClassDestructorShouldBeVirtualOrProtected_SuccessiveInheritance_holds : sorted_violations_of (shippedRule sh_BaseClassDestructorShouldBeVirtualOrProtected) BaseClassDestructorShouldBeVirtualOrProtected_SuccessiveInheritance = Some [(1, 1, 1, 13, $"~Base() should be protected or virtual according to class Child")%Z; (2, 1, 2, 35, $"~Intermediate() should be protected or virtual according to class Child")%Z].
Proof. vm_compute. reflexivity. Qed.

Definition BaseClassDestructorShouldBeVirtualOrProtected_MultiplePublicBaseClasses : testcase :=
  {| ts_lang := LCXX; ts_path := $"input.cpp"; ts_code := [];
     ts_comments := []; ts_conf := [];
     ts_tops := [(toplevel 0 (TOther), (Node 0 [] (CXXRecordDecl {| r_class := (CxxRecord 0 $"Base1" true false None []); r_fields := 0; r_methods := 0; r_lines := (1)%Z |} []))); (toplevel 1 (TOther), (Node 1 [] (CXXRecordDecl {| r_class := (CxxRecord 1 $"Base2" true false None []); r_fields := 0; r_methods := 0; r_lines := (1)%Z |} []))); (toplevel 2 (TOther), (Node 2 [] (CXXRecordDecl {| r_class := (CxxRecord 2 $"C" true true (Some (true, false)) [(true, (Some (CxxRecord 0 $"Base1" true false None []))); (true, (Some (CxxRecord 1 $"Base2" true false None [])))]); r_fields := 0; r_methods := 1; r_lines := (1)%Z |} [(Node 3 [] (FunctionDecl {| f_name := $"~C"; f_method := (Some {| cm_virtual := true; cm_static := false; cm_private := true; cm_inRecord := true |}); f_isDefinition := false; f_bodyLines := (0)%Z |} [] None))])))];
     ts_locs := [(1,1,1,14); (2,1,2,14); (3,1,3,54); (3,40,3,51)]%Z;
     ts_evals := []; ts_same := []; ts_decls := []; ts_parents := [] |}.
Example BaseClassDestructorShouldBeVirtualOrProtected_MultiplePublicBaseClasses_holds : sorted_violations_of (shippedRule sh_BaseClassDestructorShouldBeVirtualOrProtected) BaseClassDestructorShouldBeVirtualOrProtected_MultiplePublicBaseClasses = Some [(1, 1, 1, 14, $"~Base1() should be protected or virtual according to class C")%Z; (2, 1, 2, 14, $"~Base2() should be protected or virtual according to class C")%Z].
Proof. vm_compute. reflexivity. Qed.

Definition BaseClassDestructorShouldBeVirtualOrProtected_DiamondBaseClasses : testcase :=
  {| ts_lang := LCXX; ts_path := $"input.cpp"; ts_code := [];
     ts_comments := []; ts_conf := [];
     ts_tops := [(toplevel 0 (TOther), (Node 0 [] (CXXRecordDecl {| r_class := (CxxRecord 0 $"Base" true false None []); r_fields := 0; r_methods := 0; r_lines := (1)%Z |} []))); (toplevel 1 (TOther), (Node 1 [] (CXXRecordDecl {| r_class := (CxxRecord 1 $"Left" true false None [(true, (Some (CxxRecord 0 $"Base" true false None [])))]); r_fields := 0; r_methods := 0; r_lines := (1)%Z |} []))); (toplevel 2 (TOther), (Node 2 [] (CXXRecordDecl {| r_class := (CxxRecord 2 $"Right" true false None [(true, (Some (CxxRecord 0 $"Base" true false None [])))]); r_fields := 0; r_methods := 0; r_lines := (1)%Z |} []))); (toplevel 3 (TOther), (Node 3 [] (CXXRecordDecl {| r_class := (CxxRecord 3 $"C" true true (Some (true, false)) [(true, (Some (CxxRecord 1 $"Left" true false None [(true, (Some (CxxRecord 0 $"Base" true false None [])))]))); (true, (Some (CxxRecord 2 $"Right" true false None [(true, (Some (CxxRecord 0 $"Base" true false None [])))])))]); r_fields := 0; r_methods := 1; r_lines := (1)%Z |} [(Node 4 [] (FunctionDecl {| f_name := $"~C"; f_method := (Some {| cm_virtual := true; cm_static := false; cm_private := true; cm_inRecord := true |}); f_isDefinition := false; f_bodyLines := (0)%Z |} [] None))])))];
     ts_locs := [(1,1,1,13); (2,1,2,35); (3,1,3,36); (4,1,4,53); (4,39,4,50)]%Z;
     ts_evals := []; ts_same := []; ts_decls := []; ts_parents := [] |}.
Example BaseClassDestructorShouldBeVirtualOrProtected_DiamondBaseClasses_holds : sorted_violations_of (shippedRule sh_BaseClassDestructorShouldBeVirtualOrProtected) BaseClassDestructorShouldBeVirtualOrProtected_DiamondBaseClasses = Some [(1, 1, 1, 13, $"~Base() should be protected or virtual according to class C")%Z; (1, 1, 1, 13, $"~Base() should be protected or virtual according to class C")%Z; (2, 1, 2, 35, $"~Left() should be protected or virtual according to class C")%Z; (3, 1, 3, 36, $"~Right() should be protected or virtual according to class C")%Z].
Proof. vm_compute. reflexivity. Qed.

Definition BaseClassDestructorShouldBeVirtualOrProtected_MultipleKindBaseClasses : testcase :=
  {| ts_lang := LCXX; ts_path := $"input.cpp"; ts_code := [];
     ts_comments := []; ts_conf := [];
     ts_tops := [(toplevel 0 (TOther), (Node 0 [] (CXXRecordDecl {| r_class := (CxxRecord 0 $"PublicBase" true false None []); r_fields := 0; r_methods := 0; r_lines := (1)%Z |} []))); (toplevel 1 (TOther), (Node 1 [] (CXXRecordDecl {| r_class := (CxxRecord 1 $"ProtectedBase" true false None []); r_fields := 0; r_methods := 0; r_lines := (1)%Z |} []))); (toplevel 2 (TOther), (Node 2 [] (CXXRecordDecl {| r_class := (CxxRecord 2 $"PrivatedBase" true false None []); r_fields := 0; r_methods := 0; r_lines := (1)%Z |} []))); (toplevel 3 (TOther), (Node 3 [] (CXXRecordDecl {| r_class := (CxxRecord 3 $"PublicVBase" true false None []); r_fields := 0; r_methods := 0; r_lines := (1)%Z |} []))); (toplevel 4 (TOther), (Node 4 [] (CXXRecordDecl {| r_class := (CxxRecord 4 $"ProtectedVBase" true false None []); r_fields := 0; r_methods := 0; r_lines := (1)%Z |} []))); (toplevel 5 (TOther), (Node 5 [] (CXXRecordDecl {| r_class := (CxxRecord 5 $"PrivatedVBase" true false None []); r_fields := 0; r_methods := 0; r_lines := (1)%Z |} []))); (toplevel 6 (TOther), (Node 6 [] (CXXRecordDecl {| r_class := (CxxRecord 6 $"C" true true (Some (true, false)) [(true, (Some (CxxRecord 0 $"PublicBase" true false None []))); (false, (Some (CxxRecord 1 $"ProtectedBase" true false None []))); (false, (Some (CxxRecord 2 $"PrivatedBase" true false None []))); (true, (Some (CxxRecord 3 $"PublicVBase" true false None []))); (false, (Some (CxxRecord 4 $"ProtectedVBase" true false None []))); (false, (Some (CxxRecord 5 $"PrivatedVBase" true false None [])))]); r_fields := 0; r_methods := 1; r_lines := (5)%Z |} [(Node 7 [] (FunctionDecl {| f_name := $"~C"; f_method := (Some {| cm_virtual := true; cm_static := false; cm_private := true; cm_inRecord := true |}); f_isDefinition := false; f_bodyLines := (0)%Z |} [] None))])))];
     ts_locs := [(1,1,1,19); (2,1,2,22); (3,1,3,21); (4,1,4,20); (5,1,5,23); (6,1,6,22); (7,1,11,17); (11,3,11,14)]%Z;
     ts_evals := []; ts_same := []; ts_decls := []; ts_parents := [] |}.
Example BaseClassDestructorShouldBeVirtualOrProtected_MultipleKindBaseClasses_holds : sorted_violations_of (shippedRule sh_BaseClassDestructorShouldBeVirtualOrProtected) BaseClassDestructorShouldBeVirtualOrProtected_MultipleKindBaseClasses = Some [(1, 1, 1, 19, $"~PublicBase() should be protected or virtual according to class C")%Z; (4, 1, 4, 20, $"~PublicVBase() should be protected or virtual according to class C")%Z].
Proof. vm_compute. reflexivity. Qed.

Definition BaseClassDestructorShouldBeVirtualOrProtected_SkipCheckingOnForwardDeclarations : testcase :=
  {| ts_lang := LCXX; ts_path := $"input.cpp"; ts_code := [];
     ts_comments := []; ts_conf := [];
     ts_tops := [(toplevel 0 (TOther), (Node 0 [] (OtherDecl [(Node 1 [] (CXXRecordDecl {| r_class := (CxxRecord 1002 $"aa" false false None []); r_fields := 0; r_methods := 0; r_lines := (1)%Z |} []))])))];
     ts_locs := [(1,1,1,23); (1,14,1,20)]%Z;
     ts_evals := []; ts_same := []; ts_decls := []; ts_parents := [] |}.
Example BaseClassDestructorShouldBeVirtualOrProtected_SkipCheckingOnForwardDeclarations_holds : sorted_violations_of (shippedRule sh_BaseClassDestructorShouldBeVirtualOrProtected) BaseClassDestructorShouldBeVirtualOrProtected_SkipCheckingOnForwardDeclarations = Some [].
Proof. vm_compute. reflexivity. Qed.

(** ** oclint-rules/test/convention/CoveredSwitchStatementsDontNeedDefaultRuleTest.cpp *)

Definition CoveredSwitchStatementsDontNeedDefault_SwitchHasDefaultButNotCovered : testcase :=
  {| ts_lang := LC; ts_path := $"input.c"; ts_code := [];
     ts_comments := []; ts_conf := [];
     ts_tops := [(toplevel 0 (TOther), (Node 0 [] (OtherDecl [(Node 1 [] (OtherDecl [(Node 2 [] (IntegerLiteral (0)%Z))])); (Node 3 [] (OtherDecl [(Node 4 [] (IntegerLiteral (1)%Z))])); (Node 5 [] (OtherDecl [(Node 6 [] (IntegerLiteral (2)%Z))]))]))); (toplevel 7 (TOther), (Node 7 [] (OtherDecl []))); (toplevel 8 (TFunction false), (Node 8 [] (FunctionDecl {| f_name := $"aMethod"; f_method := None; f_isDefinition := true; f_bodyLines := (8)%Z |} [(Node 9 [] (VarDecl {| v_isParm := true; v_name := $"a"; v_used := true; v_referenced := true; v_local := false; v_staticMember := false; v_private := false; v_unusedAttr := false; v_defaultArg := false; v_canonicalType := $"eValues"; v_inTemplate := false; v_contexts := [CxFunction true true false] |} None))] (Some (Node 10 [] (CompoundStmt [(Node 11 [] (SwitchStmt [] (Node 12 [] (ImplicitCastExpr CK_Other (Node 13 [] (ImplicitCastExpr CK_LValueToRValue (Node 14 [] (DeclRefExpr 9 $"a" false)))))) (Node 15 [] (CompoundStmt [(Node 16 [] (CaseStmt (Node 17 [] (OtherExpr [(Node 18 [] (DeclRefExpr 27 $"value1" true))])) (Node 19 [] BreakStmt))); (Node 20 [] (CaseStmt (Node 21 [] (OtherExpr [(Node 22 [] (DeclRefExpr 28 $"value2" true))])) (Node 23 [] BreakStmt))); (Node 24 [] (DefaultStmt (Node 25 [] BreakStmt)))])) false))]))))))];
     ts_locs := [(1,9,5,1); (2,1,2,10); (2,10,2,10); (3,1,3,10); (3,10,3,10); (4,1,4,10); (4,10,4,10); (1,1,5,3); (6,1,13,3); (6,14,6,22); (6,25,13,3); (6,27,13,1); (6,34,6,34); (6,34,6,34); (6,34,6,34); (6,36,13,1); (7,1,8,2); (7,6,7,6); (7,6,7,6); (8,2,8,2); (9,1,10,2); (9,6,9,6); (9,6,9,6); (10,2,10,2); (11,1,12,2); (12,2,12,2)]%Z;
     ts_evals := []; ts_same := []; ts_decls := []; ts_parents := [] |}.
Example CoveredSwitchStatementsDontNeedDefault_SwitchHasDefaultButNotCovered_holds : sorted_violations_of (shippedRule sh_CoveredSwitchStatementsDontNeedDefault) CoveredSwitchStatementsDontNeedDefault_SwitchHasDefaultButNotCovered = Some [].
Proof. vm_compute. reflexivity. Qed.

Definition CoveredSwitchStatementsDontNeedDefault_SwitchHasDefaultButCovered : testcase :=
  {| ts_lang := LC; ts_path := $"input.c"; ts_code := [];
     ts_comments := []; ts_conf := [];
     ts_tops := [(toplevel 0 (TOther), (Node 0 [] (OtherDecl [(Node 1 [] (OtherDecl [(Node 2 [] (IntegerLiteral (0)%Z))])); (Node 3 [] (OtherDecl [(Node 4 [] (IntegerLiteral (1)%Z))]))]))); (toplevel 5 (TOther), (Node 5 [] (OtherDecl []))); (toplevel 6 (TFunction false), (Node 6 [] (FunctionDecl {| f_name := $"aMethod"; f_method := None; f_isDefinition := true; f_bodyLines := (8)%Z |} [(Node 7 [] (VarDecl {| v_isParm := true; v_name := $"a"; v_used := true; v_referenced := true; v_local := false; v_staticMember := false; v_private := false; v_unusedAttr := false; v_defaultArg := false; v_canonicalType := $"eValues"; v_inTemplate := false; v_contexts := [CxFunction true true false] |} None))] (Some (Node 8 [] (CompoundStmt [(Node 9 [] (SwitchStmt [] (Node 10 [] (ImplicitCastExpr CK_Other (Node 11 [] (ImplicitCastExpr CK_LValueToRValue (Node 12 [] (DeclRefExpr 7 $"a" false)))))) (Node 13 [] (CompoundStmt [(Node 14 [] (CaseStmt (Node 15 [] (OtherExpr [(Node 16 [] (DeclRefExpr 25 $"value1" true))])) (Node 17 [] BreakStmt))); (Node 18 [] (CaseStmt (Node 19 [] (OtherExpr [(Node 20 [] (DeclRefExpr 26 $"value2" true))])) (Node 21 [] BreakStmt))); (Node 22 [] (DefaultStmt (Node 23 [] BreakStmt)))])) true))]))))))];
     ts_locs := [(1,9,4,1); (2,1,2,10); (2,10,2,10); (3,1,3,10); (3,10,3,10); (1,1,4,3); (5,1,12,3); (5,14,5,22); (5,25,12,3); (5,27,12,1); (5,34,5,34); (5,34,5,34); (5,34,5,34); (5,36,12,1); (6,1,7,2); (6,6,6,6); (6,6,6,6); (7,2,7,2); (8,1,9,2); (8,6,8,6); (8,6,8,6); (9,2,9,2); (10,1,11,2); (11,2,11,2)]%Z;
     ts_evals := []; ts_same := []; ts_decls := []; ts_parents := [] |}.
Example CoveredSwitchStatementsDontNeedDefault_SwitchHasDefaultButCovered_holds : nth_violation (shippedRule sh_CoveredSwitchStatementsDontNeedDefault) CoveredSwitchStatementsDontNeedDefault_SwitchHasDefaultButCovered 0 = Some (5, 27, 12, 1, $"")%Z.
Proof. vm_compute. reflexivity. Qed.

Definition CoveredSwitchStatementsDontNeedDefault_SwitchNoDefaultButCovered : testcase :=
  {| ts_lang := LC; ts_path := $"input.c"; ts_code := [];
     ts_comments := []; ts_conf := [];
     ts_tops := [(toplevel 0 (TOther), (Node 0 [] (OtherDecl [(Node 1 [] (OtherDecl [(Node 2 [] (IntegerLiteral (0)%Z))])); (Node 3 [] (OtherDecl [(Node 4 [] (IntegerLiteral (1)%Z))]))]))); (toplevel 5 (TOther), (Node 5 [] (OtherDecl []))); (toplevel 6 (TFunction false), (Node 6 [] (FunctionDecl {| f_name := $"aMethod"; f_method := None; f_isDefinition := true; f_bodyLines := (6)%Z |} [(Node 7 [] (VarDecl {| v_isParm := true; v_name := $"a"; v_used := true; v_referenced := true; v_local := false; v_staticMember := false; v_private := false; v_unusedAttr := false; v_defaultArg := false; v_canonicalType := $"eValues"; v_inTemplate := false; v_contexts := [CxFunction true true false] |} None))] (Some (Node 8 [] (CompoundStmt [(Node 9 [] (SwitchStmt [] (Node 10 [] (ImplicitCastExpr CK_Other (Node 11 [] (ImplicitCastExpr CK_LValueToRValue (Node 12 [] (DeclRefExpr 7 $"a" false)))))) (Node 13 [] (CompoundStmt [(Node 14 [] (CaseStmt (Node 15 [] (OtherExpr [(Node 16 [] (DeclRefExpr 23 $"value1" true))])) (Node 17 [] BreakStmt))); (Node 18 [] (CaseStmt (Node 19 [] (OtherExpr [(Node 20 [] (DeclRefExpr 24 $"value2" true))])) (Node 21 [] BreakStmt)))])) true))]))))))];
     ts_locs := [(1,9,4,1); (2,1,2,10); (2,10,2,10); (3,1,3,10); (3,10,3,10); (1,1,4,3); (5,1,10,3); (5,14,5,22); (5,25,10,3); (5,27,10,1); (5,34,5,34); (5,34,5,34); (5,34,5,34); (5,36,10,1); (6,1,7,2); (6,6,6,6); (6,6,6,6); (7,2,7,2); (8,1,9,2); (8,6,8,6); (8,6,8,6); (9,2,9,2)]%Z;
     ts_evals := []; ts_same := []; ts_decls := []; ts_parents := [] |}.
Example CoveredSwitchStatementsDontNeedDefault_SwitchNoDefaultButCovered_holds : sorted_violations_of (shippedRule sh_CoveredSwitchStatementsDontNeedDefault) CoveredSwitchStatementsDontNeedDefault_SwitchNoDefaultButCovered = Some [].
Proof. vm_compute. reflexivity. Qed.

(** ** oclint-rules/test/convention/DefaultLabelNotLastInSwitchStatementRuleTest.cpp *)

Definition DefaultLabelNotLastInSwitchStatement_DefaultIsLast : testcase :=
  {| ts_lang := LC; ts_path := $"input.c"; ts_code := [];
     ts_comments := []; ts_conf := [];
     ts_tops := [(toplevel 0 (TFunction false), (Node 0 [] (FunctionDecl {| f_name := $"aMethod"; f_method := None; f_isDefinition := true; f_bodyLines := (6)%Z |} [(Node 1 [] (VarDecl {| v_isParm := true; v_name := $"a"; v_used := true; v_referenced := true; v_local := false; v_staticMember := false; v_private := false; v_unusedAttr := false; v_defaultArg := false; v_canonicalType := $"int"; v_inTemplate := false; v_contexts := [CxFunction true true false] |} None))] (Some (Node 2 [] (CompoundStmt [(Node 3 [] (SwitchStmt [] (Node 4 [] (ImplicitCastExpr CK_LValueToRValue (Node 5 [] (DeclRefExpr 1 $"a" false)))) (Node 6 [] (CompoundStmt [(Node 7 [] (CaseStmt (Node 8 [] (OtherExpr [(Node 9 [] (IntegerLiteral (1)%Z))])) (Node 10 [] BreakStmt))); (Node 11 [] (DefaultStmt (Node 12 [] BreakStmt)))])) false))]))))))];
     ts_locs := [(1,1,6,3); (1,14,1,18); (1,21,6,3); (1,23,6,1); (1,30,1,30); (1,30,1,30); (1,32,6,1); (2,1,3,2); (2,6,2,6); (2,6,2,6); (3,2,3,2); (4,1,5,2); (5,2,5,2)]%Z;
     ts_evals := []; ts_same := []; ts_decls := []; ts_parents := [] |}.
Example DefaultLabelNotLastInSwitchStatement_DefaultIsLast_holds : sorted_violations_of (shippedRule sh_DefaultLabelNotLastInSwitchStatement) DefaultLabelNotLastInSwitchStatement_DefaultIsLast = Some [].
Proof. vm_compute. reflexivity. Qed.

Definition DefaultLabelNotLastInSwitchStatement_DefaultInTheMiddle : testcase :=
  {| ts_lang := LC; ts_path := $"input.c"; ts_code := [];
     ts_comments := []; ts_conf := [];
     ts_tops := [(toplevel 0 (TFunction false), (Node 0 [] (FunctionDecl {| f_name := $"aMethod"; f_method := None; f_isDefinition := true; f_bodyLines := (8)%Z |} [(Node 1 [] (VarDecl {| v_isParm := true; v_name := $"a"; v_used := true; v_referenced := true; v_local := false; v_staticMember := false; v_private := false; v_unusedAttr := false; v_defaultArg := false; v_canonicalType := $"int"; v_inTemplate := false; v_contexts := [CxFunction true true false] |} None))] (Some (Node 2 [] (CompoundStmt [(Node 3 [] (SwitchStmt [] (Node 4 [] (ImplicitCastExpr CK_LValueToRValue (Node 5 [] (DeclRefExpr 1 $"a" false)))) (Node 6 [] (CompoundStmt [(Node 7 [] (CaseStmt (Node 8 [] (OtherExpr [(Node 9 [] (IntegerLiteral (1)%Z))])) (Node 10 [] BreakStmt))); (Node 11 [] (DefaultStmt (Node 12 [] BreakStmt))); (Node 13 [] (CaseStmt (Node 14 [] (OtherExpr [(Node 15 [] (IntegerLiteral (2)%Z))])) (Node 16 [] BreakStmt)))])) false))]))))))];
     ts_locs := [(1,1,8,3); (1,14,1,18); (1,21,8,3); (1,23,8,1); (1,30,1,30); (1,30,1,30); (1,32,8,1); (2,1,3,2); (2,6,2,6); (2,6,2,6); (3,2,3,2); (4,1,5,2); (5,2,5,2); (6,1,7,2); (6,6,6,6); (6,6,6,6); (7,2,7,2)]%Z;
     ts_evals := []; ts_same := []; ts_decls := []; ts_parents := [] |}.
Example DefaultLabelNotLastInSwitchStatement_DefaultInTheMiddle_holds : nth_violation (shippedRule sh_DefaultLabelNotLastInSwitchStatement) DefaultLabelNotLastInSwitchStatement_DefaultInTheMiddle 0 = Some (4, 1, 5, 2, $"")%Z.
Proof. vm_compute. reflexivity. Qed.

Definition DefaultLabelNotLastInSwitchStatement_SwitchNoDefault : testcase :=
  {| ts_lang := LC; ts_path := $"input.c"; ts_code := [];
     ts_comments := []; ts_conf := [];
     ts_tops := [(toplevel 0 (TFunction false), (Node 0 [] (FunctionDecl {| f_name := $"aMethod"; f_method := None; f_isDefinition := true; f_bodyLines := (6)%Z |} [(Node 1 [] (VarDecl {| v_isParm := true; v_name := $"a"; v_used := true; v_referenced := true; v_local := false; v_staticMember := false; v_private := false; v_unusedAttr := false; v_defaultArg := false; v_canonicalType := $"int"; v_inTemplate := false; v_contexts := [CxFunction true true false] |} None))] (Some (Node 2 [] (CompoundStmt [(Node 3 [] (SwitchStmt [] (Node 4 [] (ImplicitCastExpr CK_LValueToRValue (Node 5 [] (DeclRefExpr 1 $"a" false)))) (Node 6 [] (CompoundStmt [(Node 7 [] (CaseStmt (Node 8 [] (OtherExpr [(Node 9 [] (IntegerLiteral (1)%Z))])) (Node 10 [] BreakStmt))); (Node 11 [] (CaseStmt (Node 12 [] (OtherExpr [(Node 13 [] (IntegerLiteral (2)%Z))])) (Node 14 [] BreakStmt)))])) false))]))))))];
     ts_locs := [(1,1,6,3); (1,14,1,18); (1,21,6,3); (1,23,6,1); (1,30,1,30); (1,30,1,30); (1,32,6,1); (2,1,3,2); (2,6,2,6); (2,6,2,6); (3,2,3,2); (4,1,5,2); (4,6,4,6); (4,6,4,6); (5,2,5,2)]%Z;
     ts_evals := []; ts_same := []; ts_decls := []; ts_parents := [] |}.
Example DefaultLabelNotLastInSwitchStatement_SwitchNoDefault_holds : sorted_violations_of (shippedRule sh_DefaultLabelNotLastInSwitchStatement) DefaultLabelNotLastInSwitchStatement_SwitchNoDefault = Some [].
Proof. vm_compute. reflexivity. Qed.

(** ** oclint-rules/test/convention/DestructorOfVirtualClassRuleTest.cpp *)

Definition DestructorOfVirtualClass_NonVirtualClass : testcase :=
  {| ts_lang := LCXX; ts_path := $"input.cpp"; ts_code := [];
     ts_comments := []; ts_conf := [];
     ts_tops := [(toplevel 0 (TOther), (Node 0 [] (CXXRecordDecl {| r_class := (CxxRecord 0 $"C" true false (Some (false, false)) []); r_fields := 0; r_methods := 2; r_lines := (1)%Z |} [(Node 1 [] (FunctionDecl {| f_name := $"~C"; f_method := (Some {| cm_virtual := false; cm_static := false; cm_private := false; cm_inRecord := true |}); f_isDefinition := false; f_bodyLines := (0)%Z |} [] None)); (Node 2 [] (FunctionDecl {| f_name := $"f"; f_method := (Some {| cm_virtual := false; cm_static := false; cm_private := false; cm_inRecord := true |}); f_isDefinition := false; f_bodyLines := (0)%Z |} [] None))])))];
     ts_locs := [(1,1,1,35); (1,19,1,22); (1,25,1,32)]%Z;
     ts_evals := []; ts_same := []; ts_decls := []; ts_parents := [] |}.
Example DestructorOfVirtualClass_NonVirtualClass_holds : sorted_violations_of (shippedRule sh_DestructorOfVirtualClass) DestructorOfVirtualClass_NonVirtualClass = Some [].
Proof. vm_compute. reflexivity. Qed.

Definition DestructorOfVirtualClass_VirtualDestructor : testcase :=
  {| ts_lang := LCXX; ts_path := $"input.cpp"; ts_code := [];
     ts_comments := []; ts_conf := [];
     ts_tops := [(toplevel 0 (TOther), (Node 0 [] (CXXRecordDecl {| r_class := (CxxRecord 0 $"C" true true (Some (true, false)) []); r_fields := 0; r_methods := 2; r_lines := (1)%Z |} [(Node 1 [] (FunctionDecl {| f_name := $"~C"; f_method := (Some {| cm_virtual := true; cm_static := false; cm_private := false; cm_inRecord := true |}); f_isDefinition := false; f_bodyLines := (0)%Z |} [] None)); (Node 2 [] (FunctionDecl {| f_name := $"f"; f_method := (Some {| cm_virtual := true; cm_static := false; cm_private := false; cm_inRecord := true |}); f_isDefinition := false; f_bodyLines := (0)%Z |} [] None))])))];
     ts_locs := [(1,1,1,51); (1,19,1,30); (1,33,1,48)]%Z;
     ts_evals := []; ts_same := []; ts_decls := []; ts_parents := [] |}.
Example DestructorOfVirtualClass_VirtualDestructor_holds : sorted_violations_of (shippedRule sh_DestructorOfVirtualClass) DestructorOfVirtualClass_VirtualDestructor = Some [].
Proof. vm_compute. reflexivity. Qed.

Definition DestructorOfVirtualClass_NonVirtualDestructor : testcase :=
  {| ts_lang := LCXX; ts_path := $"input.cpp"; ts_code := [];
     ts_comments := []; ts_conf := [];
     ts_tops := [(toplevel 0 (TOther), (Node 0 [] (CXXRecordDecl {| r_class := (CxxRecord 0 $"C" true true (Some (false, false)) []); r_fields := 0; r_methods := 2; r_lines := (1)%Z |} [(Node 1 [] (FunctionDecl {| f_name := $"~C"; f_method := (Some {| cm_virtual := false; cm_static := false; cm_private := false; cm_inRecord := true |}); f_isDefinition := false; f_bodyLines := (0)%Z |} [] None)); (Node 2 [] (FunctionDecl {| f_name := $"f"; f_method := (Some {| cm_virtual := true; cm_static := false; cm_private := false; cm_inRecord := true |}); f_isDefinition := false; f_bodyLines := (0)%Z |} [] None))])))];
     ts_locs := [(1,1,1,43); (1,19,1,22); (1,25,1,40)]%Z;
     ts_evals := []; ts_same := []; ts_decls := []; ts_parents := [] |}.
Example DestructorOfVirtualClass_NonVirtualDestructor_holds : sorted_violations_of (shippedRule sh_DestructorOfVirtualClass) DestructorOfVirtualClass_NonVirtualDestructor = Some [(1, 1, 1, 43, $"class C should have a virtual destructor ~C()")%Z].
Proof. vm_compute. reflexivity. Qed.

Definition DestructorOfVirtualClass_NoDestructor : testcase :=
  {| ts_lang := LCXX; ts_path := $"input.cpp"; ts_code := [];
     ts_comments := []; ts_conf := [];
     ts_tops := [(toplevel 0 (TOther), (Node 0 [] (CXXRecordDecl {| r_class := (CxxRecord 0 $"C" true true None []); r_fields := 0; r_methods := 1; r_lines := (1)%Z |} [(Node 1 [] (FunctionDecl {| f_name := $"f"; f_method := (Some {| cm_virtual := true; cm_static := false; cm_private := false; cm_inRecord := true |}); f_isDefinition := false; f_bodyLines := (0)%Z |} [] None))])))];
     ts_locs := [(1,1,1,37); (1,19,1,34)]%Z;
     ts_evals := []; ts_same := []; ts_decls := []; ts_parents := [] |}.
Example DestructorOfVirtualClass_NoDestructor_holds : sorted_violations_of (shippedRule sh_DestructorOfVirtualClass) DestructorOfVirtualClass_NoDestructor = Some [(1, 1, 1, 37, $"class C should have a virtual destructor ~C()")%Z].
Proof. vm_compute. reflexivity. Qed.

Definition DestructorOfVirtualClass_BrokenDerivatedFromBrokenVirtualClass : testcase :=
  {| ts_lang := LCXX; ts_path := $"input.cpp"; ts_code := [];
     ts_comments := []; ts_conf := [];
     ts_tops := [(toplevel 0 (TOther), (Node 0 [] (CXXRecordDecl {| r_class := (CxxRecord 0 $"Base" true true None []); r_fields := 0; r_methods := 1; r_lines := (1)%Z |} [(Node 1 [] (FunctionDecl {| f_name := $"f"; f_method := (Some {| cm_virtual := true; cm_static := false; cm_private := false; cm_inRecord := true |}); f_isDefinition := false; f_bodyLines := (0)%Z |} [] None))]))); (toplevel 2 (TOther), (Node 2 [] (CXXRecordDecl {| r_class := (CxxRecord 2 $"C" true true (Some (false, false)) [(true, (Some (CxxRecord 0 $"Base" true true None [])))]); r_fields := 0; r_methods := 1; r_lines := (1)%Z |} [(Node 3 [] (FunctionDecl {| f_name := $"~C"; f_method := (Some {| cm_virtual := false; cm_static := false; cm_private := false; cm_inRecord := true |}); f_isDefinition := false; f_bodyLines := (0)%Z |} [] None))])))];
     ts_locs := [(1,1,1,40); (1,22,1,37); (2,1,2,39); (2,33,2,36)]%Z;
     ts_evals := []; ts_same := []; ts_decls := []; ts_parents := [] |}.
Example DestructorOfVirtualClass_BrokenDerivatedFromBrokenVirtualClass_holds : sorted_violations_of (shippedRule sh_DestructorOfVirtualClass) DestructorOfVirtualClass_BrokenDerivatedFromBrokenVirtualClass = Some [(1, 1, 1, 40, $"class Base should have a virtual destructor ~Base()")%Z; (2, 1, 2, 39, $"class C should have a virtual destructor ~C()")%Z].
Proof. vm_compute. reflexivity. Qed.

Definition DestructorOfVirtualClass_FixedDerivatedFromBrokenVirtualClass : testcase :=
  {| ts_lang := LCXX; ts_path := $"input.cpp"; ts_code := [];
     ts_comments := []; ts_conf := [];
     ts_tops := [(toplevel 0 (TOther), (Node 0 [] (CXXRecordDecl {| r_class := (CxxRecord 0 $"Base" true true None []); r_fields := 0; r_methods := 1; r_lines := (1)%Z |} [(Node 1 [] (FunctionDecl {| f_name := $"f"; f_method := (Some {| cm_virtual := true; cm_static := false; cm_private := false; cm_inRecord := true |}); f_isDefinition := false; f_bodyLines := (0)%Z |} [] None))]))); (toplevel 2 (TOther), (Node 2 [] (CXXRecordDecl {| r_class := (CxxRecord 2 $"C" true true (Some (true, false)) [(true, (Some (CxxRecord 0 $"Base" true true None [])))]); r_fields := 0; r_methods := 1; r_lines := (1)%Z |} [(Node 3 [] (FunctionDecl {| f_name := $"~C"; f_method := (Some {| cm_virtual := true; cm_static := false; cm_private := false; cm_inRecord := true |}); f_isDefinition := false; f_bodyLines := (0)%Z |} [] None))])))];
     ts_locs := [(1,1,1,40); (1,22,1,37); (2,1,2,47); (2,33,2,44)]%Z;
     ts_evals := []; ts_same := []; ts_decls := []; ts_parents := [] |}.
Example DestructorOfVirtualClass_FixedDerivatedFromBrokenVirtualClass_holds : sorted_violations_of (shippedRule sh_DestructorOfVirtualClass) DestructorOfVirtualClass_FixedDerivatedFromBrokenVirtualClass = Some [(1, 1, 1, 40, $"class Base should have a virtual destructor ~Base()")%Z].
Proof. vm_compute. reflexivity. Qed.

Definition DestructorOfVirtualClass_ImplicitVirtualDestructor : testcase :=
  {| ts_lang := LCXX; ts_path := $"input.cpp"; ts_code := [];
     ts_comments := []; ts_conf := [];
     ts_tops := [(toplevel 0 (TOther), (Node 0 [] (CXXRecordDecl {| r_class := (CxxRecord 0 $"Base" true true (Some (true, false)) []); r_fields := 0; r_methods := 1; r_lines := (1)%Z |} [(Node 1 [] (FunctionDecl {| f_name := $"~Base"; f_method := (Some {| cm_virtual := true; cm_static := false; cm_private := false; cm_inRecord := true |}); f_isDefinition := false; f_bodyLines := (0)%Z |} [] None))]))); (toplevel 2 (TOther), (Node 2 [] (CXXRecordDecl {| r_class := (CxxRecord 2 $"C" true true (Some (true, false)) [(true, (Some (CxxRecord 0 $"Base" true true (Some (true, false)) [])))]); r_fields := 0; r_methods := 2; r_lines := (1)%Z |} [(Node 3 [] (FunctionDecl {| f_name := $"~C"; f_method := (Some {| cm_virtual := false; cm_static := false; cm_private := false; cm_inRecord := true |}); f_isDefinition := false; f_bodyLines := (0)%Z |} [] None)); (Node 4 [] (FunctionDecl {| f_name := $"f"; f_method := (Some {| cm_virtual := true; cm_static := false; cm_private := false; cm_inRecord := true |}); f_isDefinition := false; f_bodyLines := (0)%Z |} [] None))])))];
     ts_locs := [(1,1,1,39); (1,22,1,36); (2,1,2,57); (2,33,2,36); (2,39,2,54)]%Z;
     ts_evals := []; ts_same := []; ts_decls := []; ts_parents := [] |}.
Example DestructorOfVirtualClass_ImplicitVirtualDestructor_holds : sorted_violations_of (shippedRule sh_DestructorOfVirtualClass) DestructorOfVirtualClass_ImplicitVirtualDestructor = Some [].
Proof. vm_compute. reflexivity. Qed.

(** ** oclint-rules/test/convention/InvertedLogicRuleTest.cpp *)

Definition InvertedLogic_IfElseInCorrectOrder : testcase :=
  {| ts_lang := LC; ts_path := $"input.c"; ts_code := [];
     ts_comments := []; ts_conf := [];
     ts_tops := [(toplevel 0 (TFunction false), (Node 0 [] (FunctionDecl {| f_name := $"aMethod"; f_method := None; f_isDefinition := true; f_bodyLines := (1)%Z |} [] (Some (Node 1 [] (CompoundStmt [(Node 2 [] (DeclStmt [(Node 3 [] (VarDecl {| v_isParm := false; v_name := $"i"; v_used := true; v_referenced := true; v_local := true; v_staticMember := false; v_private := false; v_unusedAttr := false; v_defaultArg := false; v_canonicalType := $"int"; v_inTemplate := false; v_contexts := [CxFunction true true false] |} None))])); (Node 4 [] (IfStmt [] (Node 5 [] (IntegerLiteral (1)%Z)) (Node 6 [] (CompoundStmt [(Node 7 [] (BinaryOperator BO_Assign (Node 8 [] (DeclRefExpr 3 $"i" false)) (Node 9 [] (IntegerLiteral (1)%Z))))])) (Some (Node 10 [] (CompoundStmt [(Node 11 [] (BinaryOperator BO_Assign (Node 12 [] (DeclRefExpr 3 $"i" false)) (Node 13 [] (IntegerLiteral (0)%Z))))])))))]))))))];
     ts_locs := [(1,1,1,59); (1,16,1,59); (1,18,1,23); (1,18,1,22); (1,25,1,57); (1,29,1,29); (1,32,1,41); (1,34,1,38); (1,34,1,34); (1,38,1,38); (1,48,1,57); (1,50,1,54); (1,50,1,50); (1,54,1,54)]%Z;
     ts_evals := [(5, true)]; ts_same := []; ts_decls := []; ts_parents := [] |}.
Example InvertedLogic_IfElseInCorrectOrder_holds : sorted_violations_of (shippedRule sh_InvertedLogic) InvertedLogic_IfElseInCorrectOrder = Some [].
Proof. vm_compute. reflexivity. Qed.

Definition InvertedLogic_IfLogicalNotUnaryOperator : testcase :=
  {| ts_lang := LC; ts_path := $"input.c"; ts_code := [];
     ts_comments := []; ts_conf := [];
     ts_tops := [(toplevel 0 (TFunction false), (Node 0 [] (FunctionDecl {| f_name := $"aMethod"; f_method := None; f_isDefinition := true; f_bodyLines := (1)%Z |} [] (Some (Node 1 [] (CompoundStmt [(Node 2 [] (DeclStmt [(Node 3 [] (VarDecl {| v_isParm := false; v_name := $"i"; v_used := true; v_referenced := true; v_local := true; v_staticMember := false; v_private := false; v_unusedAttr := false; v_defaultArg := false; v_canonicalType := $"int"; v_inTemplate := false; v_contexts := [CxFunction true true false] |} None))])); (Node 4 [] (IfStmt [] (Node 5 [] (UnaryOperator UO_LNot (Node 6 [] (IntegerLiteral (1)%Z)))) (Node 7 [] (CompoundStmt [(Node 8 [] (BinaryOperator BO_Assign (Node 9 [] (DeclRefExpr 3 $"i" false)) (Node 10 [] (IntegerLiteral (1)%Z))))])) (Some (Node 11 [] (CompoundStmt [(Node 12 [] (BinaryOperator BO_Assign (Node 13 [] (DeclRefExpr 3 $"i" false)) (Node 14 [] (IntegerLiteral (0)%Z))))])))))]))))))];
     ts_locs := [(1,1,1,60); (1,16,1,60); (1,18,1,23); (1,18,1,22); (1,25,1,58); (1,29,1,30); (1,30,1,30); (1,33,1,42); (1,35,1,39); (1,35,1,35); (1,39,1,39); (1,49,1,58); (1,51,1,55); (1,51,1,51); (1,55,1,55)]%Z;
     ts_evals := [(5, false)]; ts_same := []; ts_decls := []; ts_parents := [] |}.
Example InvertedLogic_IfLogicalNotUnaryOperator_holds : nth_violation (shippedRule sh_InvertedLogic) InvertedLogic_IfLogicalNotUnaryOperator 0 = Some (1, 29, 1, 30, $"")%Z.
Proof. vm_compute. reflexivity. Qed.

Definition InvertedLogic_IfNotEqualBinaryOperator : testcase :=
  {| ts_lang := LC; ts_path := $"input.c"; ts_code := [];
     ts_comments := []; ts_conf := [];
     ts_tops := [(toplevel 0 (TFunction false), (Node 0 [] (FunctionDecl {| f_name := $"aMethod"; f_method := None; f_isDefinition := true; f_bodyLines := (1)%Z |} [] (Some (Node 1 [] (CompoundStmt [(Node 2 [] (DeclStmt [(Node 3 [] (VarDecl {| v_isParm := false; v_name := $"i"; v_used := true; v_referenced := true; v_local := true; v_staticMember := false; v_private := false; v_unusedAttr := false; v_defaultArg := false; v_canonicalType := $"int"; v_inTemplate := false; v_contexts := [CxFunction true true false] |} None))])); (Node 4 [] (IfStmt [] (Node 5 [] (BinaryOperator BO_NE (Node 6 [] (IntegerLiteral (1)%Z)) (Node 7 [] (IntegerLiteral (0)%Z)))) (Node 8 [] (CompoundStmt [(Node 9 [] (BinaryOperator BO_Assign (Node 10 [] (DeclRefExpr 3 $"i" false)) (Node 11 [] (IntegerLiteral (1)%Z))))])) (Some (Node 12 [] (CompoundStmt [(Node 13 [] (BinaryOperator BO_Assign (Node 14 [] (DeclRefExpr 3 $"i" false)) (Node 15 [] (IntegerLiteral (0)%Z))))])))))]))))))];
     ts_locs := [(1,1,1,64); (1,16,1,64); (1,18,1,23); (1,18,1,22); (1,25,1,62); (1,29,1,34); (1,29,1,29); (1,34,1,34); (1,37,1,46); (1,39,1,43); (1,39,1,39); (1,43,1,43); (1,53,1,62); (1,55,1,59); (1,55,1,55); (1,59,1,59)]%Z;
     ts_evals := [(5, true)]; ts_same := []; ts_decls := []; ts_parents := [] |}.
Example InvertedLogic_IfNotEqualBinaryOperator_holds : nth_violation (shippedRule sh_InvertedLogic) InvertedLogic_IfNotEqualBinaryOperator 0 = Some (1, 29, 1, 34, $"")%Z.
Proof. vm_compute. reflexivity. Qed.

Definition InvertedLogic_IfNegativeConditionWithNoElseBlockIsFine : testcase :=
  {| ts_lang := LC; ts_path := $"input.c"; ts_code := [];
     ts_comments := []; ts_conf := [];
     ts_tops := [(toplevel 0 (TFunction false), (Node 0 [] (FunctionDecl {| f_name := $"aMethod"; f_method := None; f_isDefinition := true; f_bodyLines := (1)%Z |} [] (Some (Node 1 [] (CompoundStmt [(Node 2 [] (DeclStmt [(Node 3 [] (VarDecl {| v_isParm := false; v_name := $"i"; v_used := true; v_referenced := true; v_local := true; v_staticMember := false; v_private := false; v_unusedAttr := false; v_defaultArg := false; v_canonicalType := $"int"; v_inTemplate := false; v_contexts := [CxFunction true true false] |} None))])); (Node 4 [] (IfStmt [] (Node 5 [] (UnaryOperator UO_LNot (Node 6 [] (IntegerLiteral (1)%Z)))) (Node 7 [] (CompoundStmt [(Node 8 [] (BinaryOperator BO_Assign (Node 9 [] (DeclRefExpr 3 $"i" false)) (Node 10 [] (IntegerLiteral (1)%Z))))])) None))]))))))];
     ts_locs := [(1,1,1,44); (1,16,1,44); (1,18,1,23); (1,18,1,22); (1,25,1,42); (1,29,1,30); (1,30,1,30); (1,33,1,42); (1,35,1,39); (1,35,1,35); (1,39,1,39)]%Z;
     ts_evals := [(5, false)]; ts_same := []; ts_decls := []; ts_parents := [] |}.
Example InvertedLogic_IfNegativeConditionWithNoElseBlockIsFine_holds : sorted_violations_of (shippedRule sh_InvertedLogic) InvertedLogic_IfNegativeConditionWithNoElseBlockIsFine = Some [].
Proof. vm_compute. reflexivity. Qed.

Definition InvertedLogic_ConditionalOperatorCorrectOrder : testcase :=
  {| ts_lang := LC; ts_path := $"input.c"; ts_code := [];
     ts_comments := []; ts_conf := [];
     ts_tops := [(toplevel 0 (TFunction false), (Node 0 [] (FunctionDecl {| f_name := $"m"; f_method := None; f_isDefinition := true; f_bodyLines := (1)%Z |} [(Node 1 [] (VarDecl {| v_isParm := true; v_name := $"i"; v_used := true; v_referenced := true; v_local := false; v_staticMember := false; v_private := false; v_unusedAttr := false; v_defaultArg := false; v_canonicalType := $"int"; v_inTemplate := false; v_contexts := [CxFunction true true false] |} None))] (Some (Node 2 [] (CompoundStmt [(Node 3 [] (ReturnStmt (Some (Node 4 [] (ConditionalOperator (Node 5 [] (BinaryOperator BO_EQ (Node 6 [] (ImplicitCastExpr CK_LValueToRValue (Node 7 [] (DeclRefExpr 1 $"i" false)))) (Node 8 [] (IntegerLiteral (1)%Z)))) (Node 9 [] (IntegerLiteral (2)%Z)) (Node 10 [] (IntegerLiteral (3)%Z)))))))]))))))];
     ts_locs := [(1,1,1,39); (1,7,1,11); (1,14,1,39); (1,16,1,36); (1,23,1,36); (1,23,1,28); (1,23,1,23); (1,23,1,23); (1,28,1,28); (1,32,1,32); (1,36,1,36)]%Z;
     ts_evals := []; ts_same := []; ts_decls := []; ts_parents := [] |}.
Example InvertedLogic_ConditionalOperatorCorrectOrder_holds : sorted_violations_of (shippedRule sh_InvertedLogic) InvertedLogic_ConditionalOperatorCorrectOrder = Some [].
Proof. vm_compute. reflexivity. Qed.

Definition InvertedLogic_ConditionalOperatorCorrectOrder_2 : testcase :=
  {| ts_lang := LC; ts_path := $"input.c"; ts_code := [];
     ts_comments := []; ts_conf := [];
     ts_tops := [(toplevel 0 (TFunction false), (Node 0 [] (FunctionDecl {| f_name := $"m"; f_method := None; f_isDefinition := true; f_bodyLines := (1)%Z |} [(Node 1 [] (VarDecl {| v_isParm := true; v_name := $"i"; v_used := true; v_referenced := true; v_local := false; v_staticMember := false; v_private := false; v_unusedAttr := false; v_defaultArg := false; v_canonicalType := $"int"; v_inTemplate := false; v_contexts := [CxFunction true true false] |} None))] (Some (Node 2 [] (CompoundStmt [(Node 3 [] (ReturnStmt (Some (Node 4 [] (ConditionalOperator (Node 5 [] (ImplicitCastExpr CK_LValueToRValue (Node 6 [] (DeclRefExpr 1 $"i" false)))) (Node 7 [] (IntegerLiteral (2)%Z)) (Node 8 [] (IntegerLiteral (3)%Z)))))))]))))))];
     ts_locs := [(1,1,1,34); (1,7,1,11); (1,14,1,34); (1,16,1,31); (1,23,1,31); (1,23,1,23); (1,23,1,23); (1,27,1,27); (1,31,1,31)]%Z;
     ts_evals := []; ts_same := []; ts_decls := []; ts_parents := [] |}.
Example InvertedLogic_ConditionalOperatorCorrectOrder_2_holds : sorted_violations_of (shippedRule sh_InvertedLogic) InvertedLogic_ConditionalOperatorCorrectOrder_2 = Some [].
Proof. vm_compute. reflexivity. Qed.

Definition InvertedLogic_ConditionalOperatorLogicalNotUnaryOperator : testcase :=
  {| ts_lang := LC; ts_path := $"input.c"; ts_code := [];
     ts_comments := []; ts_conf := [];
     ts_tops := [(toplevel 0 (TFunction false), (Node 0 [] (FunctionDecl {| f_name := $"m"; f_method := None; f_isDefinition := true; f_bodyLines := (1)%Z |} [(Node 1 [] (VarDecl {| v_isParm := true; v_name := $"i"; v_used := true; v_referenced := true; v_local := false; v_staticMember := false; v_private := false; v_unusedAttr := false; v_defaultArg := false; v_canonicalType := $"int"; v_inTemplate := false; v_contexts := [CxFunction true true false] |} None))] (Some (Node 2 [] (CompoundStmt [(Node 3 [] (ReturnStmt (Some (Node 4 [] (ConditionalOperator (Node 5 [] (UnaryOperator UO_LNot (Node 6 [] (ImplicitCastExpr CK_LValueToRValue (Node 7 [] (DeclRefExpr 1 $"i" false)))))) (Node 8 [] (IntegerLiteral (2)%Z)) (Node 9 [] (IntegerLiteral (3)%Z)))))))]))))))];
     ts_locs := [(1,1,1,35); (1,7,1,11); (1,14,1,35); (1,16,1,32); (1,23,1,32); (1,23,1,24); (1,24,1,24); (1,24,1,24); (1,28,1,28); (1,32,1,32)]%Z;
     ts_evals := []; ts_same := []; ts_decls := []; ts_parents := [] |}.
Example InvertedLogic_ConditionalOperatorLogicalNotUnaryOperator_holds : nth_violation (shippedRule sh_InvertedLogic) InvertedLogic_ConditionalOperatorLogicalNotUnaryOperator 0 = Some (1, 23, 1, 24, $"")%Z.
Proof. vm_compute. reflexivity. Qed.

Definition InvertedLogic_ConditionalOperatorNotEqualBinaryOperator : testcase :=
  {| ts_lang := LC; ts_path := $"input.c"; ts_code := [];
     ts_comments := []; ts_conf := [];
     ts_tops := [(toplevel 0 (TFunction false), (Node 0 [] (FunctionDecl {| f_name := $"m"; f_method := None; f_isDefinition := true; f_bodyLines := (1)%Z |} [(Node 1 [] (VarDecl {| v_isParm := true; v_name := $"i"; v_used := true; v_referenced := true; v_local := false; v_staticMember := false; v_private := false; v_unusedAttr := false; v_defaultArg := false; v_canonicalType := $"int"; v_inTemplate := false; v_contexts := [CxFunction true true false] |} None))] (Some (Node 2 [] (CompoundStmt [(Node 3 [] (ReturnStmt (Some (Node 4 [] (ConditionalOperator (Node 5 [] (BinaryOperator BO_NE (Node 6 [] (ImplicitCastExpr CK_LValueToRValue (Node 7 [] (DeclRefExpr 1 $"i" false)))) (Node 8 [] (IntegerLiteral (0)%Z)))) (Node 9 [] (IntegerLiteral (3)%Z)) (Node 10 [] (IntegerLiteral (2)%Z)))))))]))))))];
     ts_locs := [(1,1,1,39); (1,7,1,11); (1,14,1,39); (1,16,1,36); (1,23,1,36); (1,23,1,28); (1,23,1,23); (1,23,1,23); (1,28,1,28); (1,32,1,32); (1,36,1,36)]%Z;
     ts_evals := []; ts_same := []; ts_decls := []; ts_parents := [] |}.
Example InvertedLogic_ConditionalOperatorNotEqualBinaryOperator_holds : nth_violation (shippedRule sh_InvertedLogic) InvertedLogic_ConditionalOperatorNotEqualBinaryOperator 0 = Some (1, 23, 1, 28, $"")%Z.
Proof. vm_compute. reflexivity. Qed.

(** ** oclint-rules/test/convention/MissingBreakInSwitchStatementRuleTest.cpp *)

Definition MissingBreakInSwitchStatement_CasesHaveBreaks : testcase :=
  {| ts_lang := LC; ts_path := $"input.c"; ts_code := [];
     ts_comments := []; ts_conf := [];
     ts_tops := [(toplevel 0 (TFunction false), (Node 0 [] (FunctionDecl {| f_name := $"aMethod"; f_method := None; f_isDefinition := true; f_bodyLines := (10)%Z |} [(Node 1 [] (VarDecl {| v_isParm := true; v_name := $"a"; v_used := true; v_referenced := true; v_local := false; v_staticMember := false; v_private := false; v_unusedAttr := false; v_defaultArg := false; v_canonicalType := $"int"; v_inTemplate := false; v_contexts := [CxFunction true true false] |} None))] (Some (Node 2 [] (CompoundStmt [(Node 3 [] (SwitchStmt [] (Node 4 [] (ImplicitCastExpr CK_LValueToRValue (Node 5 [] (DeclRefExpr 1 $"a" false)))) (Node 6 [] (CompoundStmt [(Node 7 [] (CaseStmt (Node 8 [] (OtherExpr [(Node 9 [] (IntegerLiteral (1)%Z))])) (Node 10 [] BreakStmt))); (Node 11 [] (CaseStmt (Node 12 [] (OtherExpr [(Node 13 [] (IntegerLiteral (2)%Z))])) (Node 14 [] BreakStmt))); (Node 15 [] (CaseStmt (Node 16 [] (OtherExpr [(Node 17 [] (IntegerLiteral (3)%Z))])) (Node 18 [] BreakStmt))); (Node 19 [] (CaseStmt (Node 20 [] (OtherExpr [(Node 21 [] (IntegerLiteral (4)%Z))])) (Node 22 [] BreakStmt)))])) false))]))))))];
     ts_locs := [(1,1,10,3); (1,14,1,18); (1,21,10,3); (1,23,10,1); (1,30,1,30); (1,30,1,30); (1,32,10,1); (2,1,3,2); (2,6,2,6); (2,6,2,6); (3,2,3,2); (4,1,5,2); (4,6,4,6); (4,6,4,6); (5,2,5,2); (6,1,7,2); (6,6,6,6); (6,6,6,6); (7,2,7,2); (8,1,9,2); (8,6,8,6); (8,6,8,6); (9,2,9,2)]%Z;
     ts_evals := []; ts_same := []; ts_decls := []; ts_parents := [] |}.
Example MissingBreakInSwitchStatement_CasesHaveBreaks_holds : sorted_violations_of (shippedRule sh_MissingBreakInSwitchStatement) MissingBreakInSwitchStatement_CasesHaveBreaks = Some [].
Proof. vm_compute. reflexivity. Qed.

Definition MissingBreakInSwitchStatement_OneCaseWithBreak : testcase :=
  {| ts_lang := LC; ts_path := $"input.c"; ts_code := [];
     ts_comments := []; ts_conf := [];
     ts_tops := [(toplevel 0 (TFunction false), (Node 0 [] (FunctionDecl {| f_name := $"m"; f_method := None; f_isDefinition := false; f_bodyLines := (0)%Z |} [] None))); (toplevel 1 (TFunction false), (Node 1 [] (FunctionDecl {| f_name := $"aMethod"; f_method := None; f_isDefinition := true; f_bodyLines := (6)%Z |} [(Node 2 [] (VarDecl {| v_isParm := true; v_name := $"a"; v_used := true; v_referenced := true; v_local := false; v_staticMember := false; v_private := false; v_unusedAttr := false; v_defaultArg := false; v_canonicalType := $"int"; v_inTemplate := false; v_contexts := [CxFunction true true false] |} None))] (Some (Node 3 [] (CompoundStmt [(Node 4 [] (SwitchStmt [] (Node 5 [] (ImplicitCastExpr CK_LValueToRValue (Node 6 [] (DeclRefExpr 2 $"a" false)))) (Node 7 [] (CompoundStmt [(Node 8 [] (CaseStmt (Node 9 [] (OtherExpr [(Node 10 [] (IntegerLiteral (1)%Z))])) (Node 11 [] (CallExpr (Some ($"m", (Decl [] None))) (Node 12 [] (ImplicitCastExpr CK_Other (Node 13 [] (DeclRefExpr 0 $"m" false)))) [])))); (Node 14 [] BreakStmt)])) false))]))))))];
     ts_locs := [(1,1,1,8); (1,11,6,3); (1,24,1,28); (1,31,6,3); (2,1,6,1); (2,8,2,8); (2,8,2,8); (2,10,6,1); (3,1,4,4); (3,6,3,6); (3,6,3,6); (4,2,4,4); (4,2,4,2); (4,2,4,2); (5,2,5,2)]%Z;
     ts_evals := []; ts_same := []; ts_decls := []; ts_parents := [] |}.
Example MissingBreakInSwitchStatement_OneCaseWithBreak_holds : sorted_violations_of (shippedRule sh_MissingBreakInSwitchStatement) MissingBreakInSwitchStatement_OneCaseWithBreak = Some [].
Proof. vm_compute. reflexivity. Qed.

Definition MissingBreakInSwitchStatement_OneCaseHasNoBreak : testcase :=
  {| ts_lang := LC; ts_path := $"input.c"; ts_code := [];
     ts_comments := []; ts_conf := [];
     ts_tops := [(toplevel 0 (TFunction false), (Node 0 [] (FunctionDecl {| f_name := $"m"; f_method := None; f_isDefinition := false; f_bodyLines := (0)%Z |} [] None))); (toplevel 1 (TFunction false), (Node 1 [] (FunctionDecl {| f_name := $"aMethod"; f_method := None; f_isDefinition := true; f_bodyLines := (9)%Z |} [(Node 2 [] (VarDecl {| v_isParm := true; v_name := $"a"; v_used := true; v_referenced := true; v_local := false; v_staticMember := false; v_private := false; v_unusedAttr := false; v_defaultArg := false; v_canonicalType := $"int"; v_inTemplate := false; v_contexts := [CxFunction true true false] |} None))] (Some (Node 3 [] (CompoundStmt [(Node 4 [] (SwitchStmt [] (Node 5 [] (ImplicitCastExpr CK_LValueToRValue (Node 6 [] (DeclRefExpr 2 $"a" false)))) (Node 7 [] (CompoundStmt [(Node 8 [] (CaseStmt (Node 9 [] (OtherExpr [(Node 10 [] (IntegerLiteral (1)%Z))])) (Node 11 [] (CallExpr (Some ($"m", (Decl [] None))) (Node 12 [] (ImplicitCastExpr CK_Other (Node 13 [] (DeclRefExpr 0 $"m" false)))) [])))); (Node 14 [] BreakStmt); (Node 15 [] (CaseStmt (Node 16 [] (OtherExpr [(Node 17 [] (IntegerLiteral (2)%Z))])) (Node 18 [] (CallExpr (Some ($"m", (Decl [] None))) (Node 19 [] (ImplicitCastExpr CK_Other (Node 20 [] (DeclRefExpr 0 $"m" false)))) [])))); (Node 21 [] (CaseStmt (Node 22 [] (OtherExpr [(Node 23 [] (IntegerLiteral (3)%Z))])) (Node 24 [] BreakStmt)))])) false))]))))))];
     ts_locs := [(1,1,1,8); (1,11,9,3); (1,24,1,28); (1,31,9,3); (1,33,9,1); (1,40,1,40); (1,40,1,40); (1,42,9,1); (2,1,3,4); (2,6,2,6); (2,6,2,6); (3,2,3,4); (3,2,3,2); (3,2,3,2); (4,2,4,2); (5,1,6,4); (5,6,5,6); (5,6,5,6); (6,2,6,4); (6,2,6,2); (6,2,6,2); (7,1,8,2); (7,6,7,6); (7,6,7,6); (8,2,8,2)]%Z;
     ts_evals := []; ts_same := []; ts_decls := []; ts_parents := [] |}.
Example MissingBreakInSwitchStatement_OneCaseHasNoBreak_holds : nth_violation (shippedRule sh_MissingBreakInSwitchStatement) MissingBreakInSwitchStatement_OneCaseHasNoBreak 0 = Some (1, 33, 9, 1, $"")%Z.
Proof. vm_compute. reflexivity. Qed.

Definition MissingBreakInSwitchStatement_TwoCasesHaveNoBreak : testcase :=
  {| ts_lang := LC; ts_path := $"input.c"; ts_code := [];
     ts_comments := []; ts_conf := [];
     ts_tops := [(toplevel 0 (TFunction false), (Node 0 [] (FunctionDecl {| f_name := $"m"; f_method := None; f_isDefinition := false; f_bodyLines := (0)%Z |} [] None))); (toplevel 1 (TFunction false), (Node 1 [] (FunctionDecl {| f_name := $"aMethod"; f_method := None; f_isDefinition := true; f_bodyLines := (8)%Z |} [(Node 2 [] (VarDecl {| v_isParm := true; v_name := $"a"; v_used := true; v_referenced := true; v_local := false; v_staticMember := false; v_private := false; v_unusedAttr := false; v_defaultArg := false; v_canonicalType := $"int"; v_inTemplate := false; v_contexts := [CxFunction true true false] |} None))] (Some (Node 3 [] (CompoundStmt [(Node 4 [] (SwitchStmt [] (Node 5 [] (ImplicitCastExpr CK_LValueToRValue (Node 6 [] (DeclRefExpr 2 $"a" false)))) (Node 7 [] (CompoundStmt [(Node 8 [] (CaseStmt (Node 9 [] (OtherExpr [(Node 10 [] (IntegerLiteral (1)%Z))])) (Node 11 [] (CallExpr (Some ($"m", (Decl [] None))) (Node 12 [] (ImplicitCastExpr CK_Other (Node 13 [] (DeclRefExpr 0 $"m" false)))) [])))); (Node 14 [] (CaseStmt (Node 15 [] (OtherExpr [(Node 16 [] (IntegerLiteral (2)%Z))])) (Node 17 [] (CallExpr (Some ($"m", (Decl [] None))) (Node 18 [] (ImplicitCastExpr CK_Other (Node 19 [] (DeclRefExpr 0 $"m" false)))) [])))); (Node 20 [] (CaseStmt (Node 21 [] (OtherExpr [(Node 22 [] (IntegerLiteral (3)%Z))])) (Node 23 [] BreakStmt)))])) false))]))))))];
     ts_locs := [(1,1,1,8); (1,11,8,3); (1,24,1,28); (1,31,8,3); (1,33,8,1); (1,40,1,40); (1,40,1,40); (1,42,8,1); (2,1,3,4); (2,6,2,6); (2,6,2,6); (3,2,3,4); (3,2,3,2); (3,2,3,2); (4,1,5,4); (4,6,4,6); (4,6,4,6); (5,2,5,4); (5,2,5,2); (5,2,5,2); (6,1,7,2); (6,6,6,6); (6,6,6,6); (7,2,7,2)]%Z;
     ts_evals := []; ts_same := []; ts_decls := []; ts_parents := [] |}.
Example MissingBreakInSwitchStatement_TwoCasesHaveNoBreak_holds : nth_violation (shippedRule sh_MissingBreakInSwitchStatement) MissingBreakInSwitchStatement_TwoCasesHaveNoBreak 0 = Some (1, 33, 8, 1, $"")%Z.
Proof. vm_compute. reflexivity. Qed.

Definition MissingBreakInSwitchStatement_DefaultHasNoBreak : testcase :=
  {| ts_lang := LC; ts_path := $"input.c"; ts_code := [];
     ts_comments := []; ts_conf := [];
     ts_tops := [(toplevel 0 (TFunction false), (Node 0 [] (FunctionDecl {| f_name := $"m"; f_method := None; f_isDefinition := false; f_bodyLines := (0)%Z |} [] None))); (toplevel 1 (TFunction false), (Node 1 [] (FunctionDecl {| f_name := $"aMethod"; f_method := None; f_isDefinition := true; f_bodyLines := (9)%Z |} [(Node 2 [] (VarDecl {| v_isParm := true; v_name := $"a"; v_used := true; v_referenced := true; v_local := false; v_staticMember := false; v_private := false; v_unusedAttr := false; v_defaultArg := false; v_canonicalType := $"int"; v_inTemplate := false; v_contexts := [CxFunction true true false] |} None))] (Some (Node 3 [] (CompoundStmt [(Node 4 [] (SwitchStmt [] (Node 5 [] (ImplicitCastExpr CK_LValueToRValue (Node 6 [] (DeclRefExpr 2 $"a" false)))) (Node 7 [] (CompoundStmt [(Node 8 [] (CaseStmt (Node 9 [] (OtherExpr [(Node 10 [] (IntegerLiteral (1)%Z))])) (Node 11 [] (CallExpr (Some ($"m", (Decl [] None))) (Node 12 [] (ImplicitCastExpr CK_Other (Node 13 [] (DeclRefExpr 0 $"m" false)))) [])))); (Node 14 [] BreakStmt); (Node 15 [] (CaseStmt (Node 16 [] (OtherExpr [(Node 17 [] (IntegerLiteral (2)%Z))])) (Node 18 [] BreakStmt))); (Node 19 [] (DefaultStmt (Node 20 [] (CallExpr (Some ($"m", (Decl [] None))) (Node 21 [] (ImplicitCastExpr CK_Other (Node 22 [] (DeclRefExpr 0 $"m" false)))) []))))])) false))]))))))];
     ts_locs := [(1,1,1,8); (1,11,9,3); (1,24,1,28); (1,31,9,3); (1,33,9,1); (1,40,1,40); (1,40,1,40); (1,42,9,1); (2,1,3,4); (2,6,2,6); (2,6,2,6); (3,2,3,4); (3,2,3,2); (3,2,3,2); (4,2,4,2); (5,1,6,2); (5,6,5,6); (5,6,5,6); (6,2,6,2); (7,1,8,4); (8,2,8,4); (8,2,8,2); (8,2,8,2)]%Z;
     ts_evals := []; ts_same := []; ts_decls := []; ts_parents := [] |}.
Example MissingBreakInSwitchStatement_DefaultHasNoBreak_holds : nth_violation (shippedRule sh_MissingBreakInSwitchStatement) MissingBreakInSwitchStatement_DefaultHasNoBreak 0 = Some (1, 33, 9, 1, $"")%Z.
Proof. vm_compute. reflexivity. Qed.

Definition MissingBreakInSwitchStatement_NoCase : testcase :=
  {| ts_lang := LC; ts_path := $"input.c"; ts_code := [];
     ts_comments := []; ts_conf := [];
     ts_tops := [(toplevel 0 (TFunction false), (Node 0 [] (FunctionDecl {| f_name := $"aMethod"; f_method := None; f_isDefinition := true; f_bodyLines := (1)%Z |} [(Node 1 [] (VarDecl {| v_isParm := true; v_name := $"a"; v_used := true; v_referenced := true; v_local := false; v_staticMember := false; v_private := false; v_unusedAttr := false; v_defaultArg := false; v_canonicalType := $"int"; v_inTemplate := false; v_contexts := [CxFunction true true false] |} None))] (Some (Node 2 [] (CompoundStmt [(Node 3 [] (SwitchStmt [] (Node 4 [] (ImplicitCastExpr CK_LValueToRValue (Node 5 [] (DeclRefExpr 1 $"a" false)))) (Node 6 [] (CompoundStmt [])) false))]))))))];
     ts_locs := [(1,1,1,35); (1,14,1,18); (1,21,1,35); (1,23,1,33); (1,30,1,30); (1,30,1,30); (1,32,1,33)]%Z;
     ts_evals := []; ts_same := []; ts_decls := []; ts_parents := [] |}.
Example MissingBreakInSwitchStatement_NoCase_holds : sorted_violations_of (shippedRule sh_MissingBreakInSwitchStatement) MissingBreakInSwitchStatement_NoCase = Some [].
Proof. vm_compute. reflexivity. Qed.

Definition MissingBreakInSwitchStatement_SkipCasesWithNoStatement : testcase :=
  {| ts_lang := LC; ts_path := $"input.c"; ts_code := [];
     ts_comments := []; ts_conf := [];
     ts_tops := [(toplevel 0 (TFunction false), (Node 0 [] (FunctionDecl {| f_name := $"aMethod"; f_method := None; f_isDefinition := true; f_bodyLines := (7)%Z |} [(Node 1 [] (VarDecl {| v_isParm := true; v_name := $"a"; v_used := true; v_referenced := true; v_local := false; v_staticMember := false; v_private := false; v_unusedAttr := false; v_defaultArg := false; v_canonicalType := $"int"; v_inTemplate := false; v_contexts := [CxFunction true true false] |} None))] (Some (Node 2 [] (CompoundStmt [(Node 3 [] (SwitchStmt [] (Node 4 [] (ImplicitCastExpr CK_LValueToRValue (Node 5 [] (DeclRefExpr 1 $"a" false)))) (Node 6 [] (CompoundStmt [(Node 7 [] (CaseStmt (Node 8 [] (OtherExpr [(Node 9 [] (IntegerLiteral (1)%Z))])) (Node 10 [] (CaseStmt (Node 11 [] (OtherExpr [(Node 12 [] (IntegerLiteral (2)%Z))])) (Node 13 [] BreakStmt))))); (Node 14 [] (DefaultStmt (Node 15 [] BreakStmt)))])) false))]))))))];
     ts_locs := [(1,1,7,3); (1,14,1,18); (1,21,7,3); (1,23,7,1); (1,30,1,30); (1,30,1,30); (1,32,7,1); (2,1,4,2); (2,6,2,6); (2,6,2,6); (3,1,4,2); (3,6,3,6); (3,6,3,6); (4,2,4,2); (5,1,6,2); (6,2,6,2)]%Z;
     ts_evals := []; ts_same := []; ts_decls := []; ts_parents := [] |}.
Example MissingBreakInSwitchStatement_SkipCasesWithNoStatement_holds : sorted_violations_of (shippedRule sh_MissingBreakInSwitchStatement) MissingBreakInSwitchStatement_SkipCasesWithNoStatement = Some [].
Proof. vm_compute. reflexivity. Qed.

Definition MissingBreakInSwitchStatement_SkipCasesWithReturn : testcase :=
  {| ts_lang := LC; ts_path := $"input.c"; ts_code := [];
     ts_comments := []; ts_conf := [];
     ts_tops := [(toplevel 0 (TFunction false), (Node 0 [] (FunctionDecl {| f_name := $"aMethod"; f_method := None; f_isDefinition := true; f_bodyLines := (8)%Z |} [(Node 1 [] (VarDecl {| v_isParm := true; v_name := $"a"; v_used := true; v_referenced := true; v_local := false; v_staticMember := false; v_private := false; v_unusedAttr := false; v_defaultArg := false; v_canonicalType := $"int"; v_inTemplate := false; v_contexts := [CxFunction true true false] |} None))] (Some (Node 2 [] (CompoundStmt [(Node 3 [] (SwitchStmt [] (Node 4 [] (ImplicitCastExpr CK_LValueToRValue (Node 5 [] (DeclRefExpr 1 $"a" false)))) (Node 6 [] (CompoundStmt [(Node 7 [] (CaseStmt (Node 8 [] (OtherExpr [(Node 9 [] (IntegerLiteral (1)%Z))])) (Node 10 [] (ReturnStmt (Some (Node 11 [] (IntegerLiteral (1)%Z))))))); (Node 12 [] (CaseStmt (Node 13 [] (OtherExpr [(Node 14 [] (IntegerLiteral (2)%Z))])) (Node 15 [] (ReturnStmt (Some (Node 16 [] (IntegerLiteral (2)%Z))))))); (Node 17 [] (DefaultStmt (Node 18 [] (ReturnStmt (Some (Node 19 [] (IntegerLiteral (3)%Z)))))))])) false))]))))))];
     ts_locs := [(1,1,8,3); (1,13,1,17); (1,20,8,3); (1,22,8,1); (1,29,1,29); (1,29,1,29); (1,31,8,1); (2,1,3,9); (2,6,2,6); (2,6,2,6); (3,2,3,9); (3,9,3,9); (4,1,5,9); (4,6,4,6); (4,6,4,6); (5,2,5,9); (5,9,5,9); (6,1,7,9); (7,2,7,9); (7,9,7,9)]%Z;
     ts_evals := []; ts_same := []; ts_decls := []; ts_parents := [] |}.
Example MissingBreakInSwitchStatement_SkipCasesWithReturn_holds : sorted_violations_of (shippedRule sh_MissingBreakInSwitchStatement) MissingBreakInSwitchStatement_SkipCasesWithReturn = Some [].
Proof. vm_compute. reflexivity. Qed.

Definition MissingBreakInSwitchStatement_SkipCasesWithCXXThrow : testcase :=
  {| ts_lang := LCXX; ts_path := $"input.cpp"; ts_code := [];
     ts_comments := []; ts_conf := [];
     ts_tops := [(toplevel 0 (TFunction false), (Node 0 [] (FunctionDecl {| f_name := $"aMethod"; f_method := None; f_isDefinition := true; f_bodyLines := (8)%Z |} [(Node 1 [] (VarDecl {| v_isParm := true; v_name := $"a"; v_used := true; v_referenced := true; v_local := false; v_staticMember := false; v_private := false; v_unusedAttr := false; v_defaultArg := false; v_canonicalType := $"int"; v_inTemplate := false; v_contexts := [CxFunction true true false] |} None))] (Some (Node 2 [] (CompoundStmt [(Node 3 [] (SwitchStmt [] (Node 4 [] (ImplicitCastExpr CK_LValueToRValue (Node 5 [] (DeclRefExpr 1 $"a" false)))) (Node 6 [] (CompoundStmt [(Node 7 [] (CaseStmt (Node 8 [] (OtherExpr [(Node 9 [] (IntegerLiteral (1)%Z))])) (Node 10 [] (CXXThrowExpr (Some (Node 11 [] (IntegerLiteral (1)%Z))))))); (Node 12 [] (CaseStmt (Node 13 [] (OtherExpr [(Node 14 [] (IntegerLiteral (2)%Z))])) (Node 15 [] (ReturnStmt (Some (Node 16 [] (IntegerLiteral (2)%Z))))))); (Node 17 [] (DefaultStmt (Node 18 [] (CXXThrowExpr (Some (Node 19 [] (IntegerLiteral (3)%Z)))))))])) false))]))))))];
     ts_locs := [(1,1,8,3); (1,13,1,17); (1,20,8,3); (1,22,8,1); (1,29,1,29); (1,29,1,29); (1,31,8,1); (2,1,3,8); (2,6,2,6); (2,6,2,6); (3,2,3,8); (3,8,3,8); (4,1,5,9); (4,6,4,6); (4,6,4,6); (5,2,5,9); (5,9,5,9); (6,1,7,8); (7,2,7,8); (7,8,7,8)]%Z;
     ts_evals := []; ts_same := []; ts_decls := []; ts_parents := [] |}.
Example MissingBreakInSwitchStatement_SkipCasesWithCXXThrow_holds : sorted_violations_of (shippedRule sh_MissingBreakInSwitchStatement) MissingBreakInSwitchStatement_SkipCasesWithCXXThrow = Some [].
Proof. vm_compute. reflexivity. Qed.

Definition MissingBreakInSwitchStatement_SkipCasesWithObjCThrow : testcase :=
  {| ts_lang := LObjC; ts_path := $"input.m"; ts_code := [];
     ts_comments := []; ts_conf := [];
     ts_tops := [(toplevel 0 (TFunction false), (Node 0 [] (FunctionDecl {| f_name := $"aMethod"; f_method := None; f_isDefinition := true; f_bodyLines := (8)%Z |} [(Node 1 [] (VarDecl {| v_isParm := true; v_name := $"a"; v_used := true; v_referenced := true; v_local := false; v_staticMember := false; v_private := false; v_unusedAttr := false; v_defaultArg := false; v_canonicalType := $"int"; v_inTemplate := false; v_contexts := [CxFunction true true false] |} None))] (Some (Node 2 [] (CompoundStmt [(Node 3 [] (DeclStmt [(Node 4 [] (VarDecl {| v_isParm := false; v_name := $"ex1"; v_used := true; v_referenced := true; v_local := true; v_staticMember := false; v_private := false; v_unusedAttr := false; v_defaultArg := false; v_canonicalType := $"struct objc_object *"; v_inTemplate := false; v_contexts := [CxFunction true true false] |} None)); (Node 5 [] (VarDecl {| v_isParm := false; v_name := $"ex2"; v_used := true; v_referenced := true; v_local := true; v_staticMember := false; v_private := false; v_unusedAttr := false; v_defaultArg := false; v_canonicalType := $"struct objc_object *"; v_inTemplate := false; v_contexts := [CxFunction true true false] |} None))])); (Node 6 [] (SwitchStmt [] (Node 7 $"int" (ImplicitCastExpr CK_LValueToRValue (Node 8 $"int" (DeclRefExpr 1 $"a" false)))) (Node 9 [] (CompoundStmt [(Node 10 [] (CaseStmt (Node 11 $"int" (OtherExpr [(Node 12 $"int" (IntegerLiteral (1)%Z))])) (Node 13 [] (ObjCAtThrowStmt (Some (Node 14 $"id" (ImplicitCastExpr CK_LValueToRValue (Node 15 $"id" (DeclRefExpr 4 $"ex1" false))))))))); (Node 16 [] (CaseStmt (Node 17 $"int" (OtherExpr [(Node 18 $"int" (IntegerLiteral (2)%Z))])) (Node 19 [] (ReturnStmt (Some (Node 20 $"int" (IntegerLiteral (2)%Z))))))); (Node 21 [] (DefaultStmt (Node 22 [] (ObjCAtThrowStmt (Some (Node 23 $"id" (ImplicitCastExpr CK_LValueToRValue (Node 24 $"id" (DeclRefExpr 5 $"ex2" false)))))))))])) false))]))))))];
     ts_locs := [(1,1,8,3); (1,13,1,17); (1,20,8,3); (1,22,1,33); (1,22,1,25); (1,22,1,30); (1,35,8,1); (1,42,1,42); (1,42,1,42); (1,44,8,1); (2,1,3,9); (2,6,2,6); (2,6,2,6); (3,2,3,9); (3,9,3,9); (3,9,3,9); (4,1,5,9); (4,6,4,6); (4,6,4,6); (5,2,5,9); (5,9,5,9); (6,1,7,9); (7,2,7,9); (7,9,7,9); (7,9,7,9)]%Z;
     ts_evals := []; ts_same := []; ts_decls := []; ts_parents := [] |}.
Example MissingBreakInSwitchStatement_SkipCasesWithObjCThrow_holds : sorted_violations_of (shippedRule sh_MissingBreakInSwitchStatement) MissingBreakInSwitchStatement_SkipCasesWithObjCThrow = Some [].
Proof. vm_compute. reflexivity. Qed.

Definition MissingBreakInSwitchStatement_SkipCasesWithContinue : testcase :=
  {| ts_lang := LC; ts_path := $"input.c"; ts_code := [];
     ts_comments := []; ts_conf := [];
     ts_tops := [(toplevel 0 (TFunction false), (Node 0 [] (FunctionDecl {| f_name := $"aMethod"; f_method := None; f_isDefinition := true; f_bodyLines := (10)%Z |} [(Node 1 [] (VarDecl {| v_isParm := true; v_name := $"a"; v_used := true; v_referenced := true; v_local := false; v_staticMember := false; v_private := false; v_unusedAttr := false; v_defaultArg := false; v_canonicalType := $"int"; v_inTemplate := false; v_contexts := [CxFunction true true false] |} None))] (Some (Node 2 [] (CompoundStmt [(Node 3 [] (ForStmt (Some (Node 4 [] (DeclStmt [(Node 5 [] (VarDecl {| v_isParm := false; v_name := $"i"; v_used := true; v_referenced := true; v_local := true; v_staticMember := false; v_private := false; v_unusedAttr := false; v_defaultArg := false; v_canonicalType := $"int"; v_inTemplate := false; v_contexts := [CxFunction true true false] |} (Some (Node 6 [] (IntegerLiteral (0)%Z)))))]))) [] (Some (Node 7 [] (BinaryOperator BO_Other (Node 8 [] (ImplicitCastExpr CK_LValueToRValue (Node 9 [] (DeclRefExpr 5 $"i" false)))) (Node 10 [] (IntegerLiteral (2)%Z))))) (Some (Node 11 [] (UnaryOperator UO_Other (Node 12 [] (DeclRefExpr 5 $"i" false))))) (Node 13 [] (CompoundStmt [(Node 14 [] (SwitchStmt [] (Node 15 [] (ImplicitCastExpr CK_LValueToRValue (Node 16 [] (DeclRefExpr 1 $"a" false)))) (Node 17 [] (CompoundStmt [(Node 18 [] (CaseStmt (Node 19 [] (OtherExpr [(Node 20 [] (IntegerLiteral (1)%Z))])) (Node 21 [] ContinueStmt))); (Node 22 [] (CaseStmt (Node 23 [] (OtherExpr [(Node 24 [] (IntegerLiteral (2)%Z))])) (Node 25 [] ContinueStmt))); (Node 26 [] (DefaultStmt (Node 27 [] ContinueStmt)))])) false))]))))]))))))];
     ts_locs := [(1,1,10,5); (1,13,1,17); (1,20,10,5); (2,1,10,3); (2,5,2,12); (2,5,2,11); (2,11,2,11); (2,13,2,15); (2,13,2,13); (2,13,2,13); (2,15,2,15); (2,17,2,19); (2,19,2,19); (2,22,10,3); (3,2,10,1); (3,9,3,9); (3,9,3,9); (3,11,10,1); (4,2,5,3); (4,7,4,7); (4,7,4,7); (5,3,5,3); (6,2,7,3); (6,7,6,7); (6,7,6,7); (7,3,7,3); (8,2,9,3); (9,3,9,3)]%Z;
     ts_evals := []; ts_same := []; ts_decls := []; ts_parents := [] |}.
Example MissingBreakInSwitchStatement_SkipCasesWithContinue_holds : sorted_violations_of (shippedRule sh_MissingBreakInSwitchStatement) MissingBreakInSwitchStatement_SkipCasesWithContinue = Some [].
Proof. vm_compute. reflexivity. Qed.

Definition MissingBreakInSwitchStatement_CasesHaveAssignmentAndBreak : testcase :=
  {| ts_lang := LC; ts_path := $"input.c"; ts_code := [];
     ts_comments := []; ts_conf := [];
     ts_tops := [(toplevel 0 (TFunction false), (Node 0 [] (FunctionDecl {| f_name := $"aMethod"; f_method := None; f_isDefinition := true; f_bodyLines := (7)%Z |} [(Node 1 [] (VarDecl {| v_isParm := true; v_name := $"a"; v_used := true; v_referenced := true; v_local := false; v_staticMember := false; v_private := false; v_unusedAttr := false; v_defaultArg := false; v_canonicalType := $"int"; v_inTemplate := false; v_contexts := [CxFunction true true false] |} None))] (Some (Node 2 [] (CompoundStmt [(Node 3 [] (DeclStmt [(Node 4 [] (VarDecl {| v_isParm := false; v_name := $"i"; v_used := true; v_referenced := true; v_local := true; v_staticMember := false; v_private := false; v_unusedAttr := false; v_defaultArg := false; v_canonicalType := $"int"; v_inTemplate := false; v_contexts := [CxFunction true true false] |} None))])); (Node 5 [] (SwitchStmt [] (Node 6 [] (ImplicitCastExpr CK_LValueToRValue (Node 7 [] (DeclRefExpr 1 $"a" false)))) (Node 8 [] (CompoundStmt [(Node 9 [] (CaseStmt (Node 10 [] (OtherExpr [(Node 11 [] (IntegerLiteral (1)%Z))])) (Node 12 [] (BinaryOperator BO_Assign (Node 13 [] (DeclRefExpr 4 $"i" false)) (Node 14 [] (IntegerLiteral (1)%Z)))))); (Node 15 [] BreakStmt)])) false))]))))))];
     ts_locs := [(1,1,7,3); (1,14,1,18); (1,21,7,3); (2,1,2,6); (2,1,2,5); (3,1,7,1); (3,8,3,8); (3,8,3,8); (3,10,7,1); (4,1,5,6); (4,6,4,6); (4,6,4,6); (5,2,5,6); (5,2,5,2); (5,6,5,6); (6,2,6,2)]%Z;
     ts_evals := []; ts_same := []; ts_decls := []; ts_parents := [] |}.
Example MissingBreakInSwitchStatement_CasesHaveAssignmentAndBreak_holds : sorted_violations_of (shippedRule sh_MissingBreakInSwitchStatement) MissingBreakInSwitchStatement_CasesHaveAssignmentAndBreak = Some [].
Proof. vm_compute. reflexivity. Qed.

Definition MissingBreakInSwitchStatement_CaseWithCXXCtorThrow : testcase :=
  {| ts_lang := LCXX; ts_path := $"input.cpp"; ts_code := [];
     ts_comments := []; ts_conf := [];
     ts_tops := [(toplevel 0 (TOther), (Node 0 [] (CXXRecordDecl {| r_class := (CxxRecord 0 $"ExcClass" true false None []); r_fields := 0; r_methods := 1; r_lines := (1)%Z |} [(Node 1 [] (FunctionDecl {| f_name := $"ExcClass"; f_method := (Some {| cm_virtual := false; cm_static := false; cm_private := false; cm_inRecord := true |}); f_isDefinition := true; f_bodyLines := (1)%Z |} [] (Some (Node 2 [] (CompoundStmt [])))))]))); (toplevel 3 (TFunction false), (Node 3 [] (FunctionDecl {| f_name := $"aMethod"; f_method := None; f_isDefinition := true; f_bodyLines := (22)%Z |} [(Node 4 [] (VarDecl {| v_isParm := true; v_name := $"a"; v_used := true; v_referenced := true; v_local := false; v_staticMember := false; v_private := false; v_unusedAttr := false; v_defaultArg := false; v_canonicalType := $"int"; v_inTemplate := false; v_contexts := [CxFunction true true false] |} None))] (Some (Node 5 [] (CompoundStmt [(Node 6 [] (DeclStmt [(Node 7 [] (VarDecl {| v_isParm := false; v_name := $"res"; v_used := true; v_referenced := true; v_local := true; v_staticMember := false; v_private := false; v_unusedAttr := false; v_defaultArg := false; v_canonicalType := $"int"; v_inTemplate := false; v_contexts := [CxFunction true true false] |} (Some (Node 8 [] (IntegerLiteral (123)%Z)))))])); (Node 9 [] (SwitchStmt [] (Node 10 [] (ImplicitCastExpr CK_LValueToRValue (Node 11 [] (DeclRefExpr 4 $"a" false)))) (Node 12 [] (CompoundStmt [(Node 13 [] (CaseStmt (Node 14 [] (OtherExpr [(Node 15 [] (IntegerLiteral (1)%Z))])) (Node 16 [] (BinaryOperator BO_Assign (Node 17 [] (DeclRefExpr 7 $"res" false)) (Node 18 [] (IntegerLiteral (1)%Z)))))); (Node 19 [] (CXXThrowExpr (Some (Node 20 [] (IntegerLiteral (123)%Z))))); (Node 21 [] (CaseStmt (Node 22 [] (OtherExpr [(Node 23 [] (IntegerLiteral (2)%Z))])) (Node 24 [] (BinaryOperator BO_Assign (Node 25 [] (DeclRefExpr 7 $"res" false)) (Node 26 [] (IntegerLiteral (2)%Z)))))); (Node 27 [] (CXXThrowExpr (Some (Node 28 [] (ImplicitCastExpr CK_Other (Node 29 [] (StringLiteral $"abc"))))))); (Node 30 [] (CaseStmt (Node 31 [] (OtherExpr [(Node 32 [] (IntegerLiteral (3)%Z))])) (Node 33 [] (BinaryOperator BO_Assign (Node 34 [] (DeclRefExpr 7 $"res" false)) (Node 35 [] (IntegerLiteral (3)%Z)))))); (Node 36 [] (CXXThrowExpr (Some (Node 37 [] (OtherExpr []))))); (Node 38 [] (CaseStmt (Node 39 [] (OtherExpr [(Node 40 [] (IntegerLiteral (4)%Z))])) (Node 41 [] (BinaryOperator BO_CompoundAssign (Node 42 [] (DeclRefExpr 7 $"res" false)) (Node 43 [] (IntegerLiteral (1)%Z)))))); (Node 44 [] (CompoundStmt [(Node 45 [] (CXXThrowExpr (Some (Node 46 [] (OtherExpr [])))))])); (Node 47 [] (DefaultStmt (Node 48 [] (BinaryOperator BO_CompoundAssign (Node 49 [] (DeclRefExpr 7 $"res" false)) (Node 50 [] (IntegerLiteral (1)%Z)))))); (Node 51 [] (CXXThrowExpr (Some (Node 52 [] (OtherExpr [])))))])) false)); (Node 53 [] (ReturnStmt (Some (Node 54 [] (ImplicitCastExpr CK_LValueToRValue (Node 55 [] (DeclRefExpr 7 $"res" false)))))))]))))))];
     ts_locs := [(1,1,1,39); (1,25,1,37); (1,36,1,37); (2,1,23,13); (2,13,2,17); (2,20,23,13); (3,1,3,14); (3,1,3,11); (3,11,3,11); (4,1,22,1); (4,8,4,8); (4,8,4,8); (4,11,22,1); (5,1,6,8); (5,6,5,6); (5,6,5,6); (6,2,6,8); (6,2,6,2); (6,8,6,8); (7,2,7,8); (7,8,7,8); (8,1,9,8); (8,6,8,6); (8,6,8,6); (9,2,9,8); (9,2,9,2); (9,8,9,8); (10,2,10,8); (10,8,10,8); (10,8,10,8); (11,1,12,8); (11,6,11,6); (11,6,11,6); (12,2,12,8); (12,2,12,2); (12,8,12,8); (13,2,13,17); (13,8,13,17); (14,1,15,9); (14,6,14,6); (14,6,14,6); (15,2,15,9); (15,2,15,2); (15,9,15,9); (16,2,18,2); (17,3,17,18); (17,9,17,18); (19,1,20,9); (20,2,20,9); (20,2,20,2); (20,9,20,9); (21,2,21,17); (21,8,21,17); (23,1,23,8); (23,8,23,8); (23,8,23,8)]%Z;
     ts_evals := []; ts_same := []; ts_decls := []; ts_parents := [] |}.
Example MissingBreakInSwitchStatement_CaseWithCXXCtorThrow_holds : sorted_violations_of (shippedRule sh_MissingBreakInSwitchStatement) MissingBreakInSwitchStatement_CaseWithCXXCtorThrow = Some [].
Proof. vm_compute. reflexivity. Qed.

(** ** oclint-rules/test/convention/NonCaseLabelInSwitchStatementRuleTest.cpp *)

Definition NonCaseLabelInSwitchStatement_CaseAndDefault : testcase :=
  {| ts_lang := LC; ts_path := $"input.c"; ts_code := [];
     ts_comments := []; ts_conf := [];
     ts_tops := [(toplevel 0 (TFunction false), (Node 0 [] (FunctionDecl {| f_name := $"aMethod"; f_method := None; f_isDefinition := true; f_bodyLines := (6)%Z |} [(Node 1 [] (VarDecl {| v_isParm := true; v_name := $"a"; v_used := true; v_referenced := true; v_local := false; v_staticMember := false; v_private := false; v_unusedAttr := false; v_defaultArg := false; v_canonicalType := $"int"; v_inTemplate := false; v_contexts := [CxFunction true true false] |} None))] (Some (Node 2 [] (CompoundStmt [(Node 3 [] (SwitchStmt [] (Node 4 [] (ImplicitCastExpr CK_LValueToRValue (Node 5 [] (DeclRefExpr 1 $"a" false)))) (Node 6 [] (CompoundStmt [(Node 7 [] (CaseStmt (Node 8 [] (OtherExpr [(Node 9 [] (IntegerLiteral (1)%Z))])) (Node 10 [] BreakStmt))); (Node 11 [] (DefaultStmt (Node 12 [] BreakStmt)))])) false))]))))))];
     ts_locs := [(1,1,6,3); (1,14,1,18); (1,21,6,3); (1,23,6,1); (1,30,1,30); (1,30,1,30); (1,32,6,1); (2,1,3,2); (2,6,2,6); (2,6,2,6); (3,2,3,2); (4,1,5,2); (5,2,5,2)]%Z;
     ts_evals := []; ts_same := []; ts_decls := []; ts_parents := [] |}.
Example NonCaseLabelInSwitchStatement_CaseAndDefault_holds : sorted_violations_of (shippedRule sh_NonCaseLabelInSwitchStatement) NonCaseLabelInSwitchStatement_CaseAndDefault = Some [].
Proof. vm_compute. reflexivity. Qed.

Definition NonCaseLabelInSwitchStatement_OneLabel : testcase :=
  {| ts_lang := LC; ts_path := $"input.c"; ts_code := [];
     ts_comments := []; ts_conf := [];
     ts_tops := [(toplevel 0 (TFunction false), (Node 0 [] (FunctionDecl {| f_name := $"aMethod"; f_method := None; f_isDefinition := true; f_bodyLines := (8)%Z |} [(Node 1 [] (VarDecl {| v_isParm := true; v_name := $"a"; v_used := true; v_referenced := true; v_local := false; v_staticMember := false; v_private := false; v_unusedAttr := false; v_defaultArg := false; v_canonicalType := $"int"; v_inTemplate := false; v_contexts := [CxFunction true true false] |} None))] (Some (Node 2 [] (CompoundStmt [(Node 3 [] (SwitchStmt [] (Node 4 [] (ImplicitCastExpr CK_LValueToRValue (Node 5 [] (DeclRefExpr 1 $"a" false)))) (Node 6 [] (CompoundStmt [(Node 7 [] (CaseStmt (Node 8 [] (OtherExpr [(Node 9 [] (IntegerLiteral (1)%Z))])) (Node 10 [] BreakStmt))); (Node 11 [] (LabelStmt $"label1" (Node 12 [] BreakStmt))); (Node 13 [] (CaseStmt (Node 14 [] (OtherExpr [(Node 15 [] (IntegerLiteral (2)%Z))])) (Node 16 [] BreakStmt)))])) false))]))))))];
     ts_locs := [(1,1,8,3); (1,14,1,18); (1,21,8,3); (1,23,8,1); (1,30,1,30); (1,30,1,30); (1,32,8,1); (2,1,3,2); (2,6,2,6); (2,6,2,6); (3,2,3,2); (4,1,5,2); (5,2,5,2); (6,1,7,2); (6,6,6,6); (6,6,6,6); (7,2,7,2)]%Z;
     ts_evals := []; ts_same := []; ts_decls := []; ts_parents := [] |}.
Example NonCaseLabelInSwitchStatement_OneLabel_holds : nth_violation (shippedRule sh_NonCaseLabelInSwitchStatement) NonCaseLabelInSwitchStatement_OneLabel 0 = Some (4, 1, 5, 2, $"")%Z.
Proof. vm_compute. reflexivity. Qed.

Definition NonCaseLabelInSwitchStatement_TwoLabels : testcase :=
  {| ts_lang := LC; ts_path := $"input.c"; ts_code := [];
     ts_comments := []; ts_conf := [];
     ts_tops := [(toplevel 0 (TFunction false), (Node 0 [] (FunctionDecl {| f_name := $"aMethod"; f_method := None; f_isDefinition := true; f_bodyLines := (6)%Z |} [(Node 1 [] (VarDecl {| v_isParm := true; v_name := $"a"; v_used := true; v_referenced := true; v_local := false; v_staticMember := false; v_private := false; v_unusedAttr := false; v_defaultArg := false; v_canonicalType := $"int"; v_inTemplate := false; v_contexts := [CxFunction true true false] |} None))] (Some (Node 2 [] (CompoundStmt [(Node 3 [] (SwitchStmt [] (Node 4 [] (ImplicitCastExpr CK_LValueToRValue (Node 5 [] (DeclRefExpr 1 $"a" false)))) (Node 6 [] (CompoundStmt [(Node 7 [] (LabelStmt $"label1" (Node 8 [] BreakStmt))); (Node 9 [] (LabelStmt $"label2" (Node 10 [] BreakStmt)))])) false))]))))))];
     ts_locs := [(1,1,6,3); (1,14,1,18); (1,21,6,3); (1,23,6,1); (1,30,1,30); (1,30,1,30); (1,32,6,1); (2,1,3,2); (3,2,3,2); (4,1,5,2); (5,2,5,2)]%Z;
     ts_evals := []; ts_same := []; ts_decls := []; ts_parents := [] |}.
Example NonCaseLabelInSwitchStatement_TwoLabels_holds : nth_violation (shippedRule sh_NonCaseLabelInSwitchStatement) NonCaseLabelInSwitchStatement_TwoLabels 0 = Some (2, 1, 3, 2, $"")%Z.
Proof. vm_compute. reflexivity. Qed.

Definition NonCaseLabelInSwitchStatement_TwoLabels_2 : testcase :=
  {| ts_lang := LC; ts_path := $"input.c"; ts_code := [];
     ts_comments := []; ts_conf := [];
     ts_tops := [(toplevel 0 (TFunction false), (Node 0 [] (FunctionDecl {| f_name := $"aMethod"; f_method := None; f_isDefinition := true; f_bodyLines := (6)%Z |} [(Node 1 [] (VarDecl {| v_isParm := true; v_name := $"a"; v_used := true; v_referenced := true; v_local := false; v_staticMember := false; v_private := false; v_unusedAttr := false; v_defaultArg := false; v_canonicalType := $"int"; v_inTemplate := false; v_contexts := [CxFunction true true false] |} None))] (Some (Node 2 [] (CompoundStmt [(Node 3 [] (SwitchStmt [] (Node 4 [] (ImplicitCastExpr CK_LValueToRValue (Node 5 [] (DeclRefExpr 1 $"a" false)))) (Node 6 [] (CompoundStmt [(Node 7 [] (LabelStmt $"label1" (Node 8 [] BreakStmt))); (Node 9 [] (LabelStmt $"label2" (Node 10 [] BreakStmt)))])) false))]))))))];
     ts_locs := [(1,1,6,3); (1,14,1,18); (1,21,6,3); (1,23,6,1); (1,30,1,30); (1,30,1,30); (1,32,6,1); (2,1,3,2); (3,2,3,2); (4,1,5,2); (5,2,5,2)]%Z;
     ts_evals := []; ts_same := []; ts_decls := []; ts_parents := [] |}.
Example NonCaseLabelInSwitchStatement_TwoLabels_2_holds : nth_violation (shippedRule sh_NonCaseLabelInSwitchStatement) NonCaseLabelInSwitchStatement_TwoLabels_2 1 = Some (4, 1, 5, 2, $"")%Z.
Proof. vm_compute. reflexivity. Qed.

(** ** oclint-rules/test/convention/ObjCAssignIvarOutsideAccessorsRuleTest.cpp *)

Definition ObjCAssignIvarOutsideAccessors_TestInit : testcase :=
  {| ts_lang := LObjC; ts_path := $"input.m"; ts_code := [];
     ts_comments := []; ts_conf := [];
     ts_tops := [(toplevel 0 (TOther), (Node 0 [] (ObjCContainerDecl {| oc_kind := OKInterface; oc_name := $"NSObject"; oc_lines := (2)%Z; oc_ivars := 0; oc_methods := []; oc_classes := [$"NSObject"]; oc_superMethods := None |} []))); (toplevel 1 (TOther), (Node 1 [] (ObjCContainerDecl {| oc_kind := OKInterface; oc_name := $"Foo"; oc_lines := (8)%Z; oc_ivars := 2; oc_methods := [($"bar", true); ($"setBar:", true); ($"foo", true); ($"setFoo:", true)]; oc_classes := [$"Foo"; $"NSObject"]; oc_superMethods := (Some ($"NSObject", [])) |} [(Node 2 [] (OtherDecl [])); (Node 3 [] (OtherDecl [])); (Node 4 [] (OtherDecl [])); (Node 5 [] (OtherDecl []))]))); (toplevel 6 (TOther), (Node 6 [] (ObjCContainerDecl {| oc_kind := OKImplementation; oc_name := $"Foo"; oc_lines := (8)%Z; oc_ivars := 0; oc_methods := [($"foo", true); ($"setFoo:", true); ($"bar", true); ($"setBar:", true); ($"init", true)]; oc_classes := [$"Foo"; $"NSObject"]; oc_superMethods := (Some ($"NSObject", [])) |} [(Node 7 [] (OtherDecl [])); (Node 8 [] (OtherDecl [])); (Node 9 [] (ObjCMethodDecl {| om_selector := $"init"; om_class := (Some $"Foo"); om_overriding := false; om_overridden := []; om_bodyLines := (4)%Z |} [] (Some (Node 10 [] (CompoundStmt [(Node 11 $"int" (BinaryOperator BO_Assign (Node 12 $"int" (ObjCIvarRefExpr $"_bar" (Some $"Foo") (Node 13 $"Foo *" (ImplicitCastExpr CK_LValueToRValue (Node 14 $"Foo *" (DeclRefExpr 1018 $"self" false)))))) (Node 15 $"int" (IntegerLiteral (3)%Z)))); (Node 16 [] (ReturnStmt (Some (Node 17 $"id" (ImplicitCastExpr CK_BitCast (Node 18 $"Foo *" (ImplicitCastExpr CK_LValueToRValue (Node 19 $"Foo *" (DeclRefExpr 1018 $"self" false)))))))))])))))])))];
     ts_locs := [(2,1,3,2); (4,1,11,2); (6,5,6,9); (7,5,7,10); (9,1,9,35); (10,1,10,36); (12,1,19,1); (13,1,13,19); (14,1,14,19); (15,1,18,1); (15,12,18,1); (16,5,16,12); (16,5,16,5); (16,5,16,5); (16,5,16,5); (16,12,16,12); (17,5,17,12); (17,12,17,12); (17,12,17,12); (17,12,17,12)]%Z;
     ts_evals := []; ts_same := []; ts_decls := []; ts_parents := [] |}.
Example ObjCAssignIvarOutsideAccessors_TestInit_holds : sorted_violations_of (shippedRule sh_ObjCAssignIvarOutsideAccessors) ObjCAssignIvarOutsideAccessors_TestInit = Some [].
Proof. vm_compute. reflexivity. Qed.

Definition ObjCAssignIvarOutsideAccessors_TestInitWith : testcase :=
  {| ts_lang := LObjC; ts_path := $"input.m"; ts_code := [];
     ts_comments := []; ts_conf := [];
     ts_tops := [(toplevel 0 (TOther), (Node 0 [] (ObjCContainerDecl {| oc_kind := OKInterface; oc_name := $"NSObject"; oc_lines := (2)%Z; oc_ivars := 0; oc_methods := []; oc_classes := [$"NSObject"]; oc_superMethods := None |} []))); (toplevel 1 (TOther), (Node 1 [] (ObjCContainerDecl {| oc_kind := OKInterface; oc_name := $"Foo"; oc_lines := (8)%Z; oc_ivars := 2; oc_methods := [($"bar", true); ($"setBar:", true); ($"foo", true); ($"setFoo:", true)]; oc_classes := [$"Foo"; $"NSObject"]; oc_superMethods := (Some ($"NSObject", [])) |} [(Node 2 [] (OtherDecl [])); (Node 3 [] (OtherDecl [])); (Node 4 [] (OtherDecl [])); (Node 5 [] (OtherDecl []))]))); (toplevel 6 (TOther), (Node 6 [] (ObjCContainerDecl {| oc_kind := OKImplementation; oc_name := $"Foo"; oc_lines := (8)%Z; oc_ivars := 0; oc_methods := [($"foo", true); ($"setFoo:", true); ($"bar", true); ($"setBar:", true); ($"initWith", true)]; oc_classes := [$"Foo"; $"NSObject"]; oc_superMethods := (Some ($"NSObject", [])) |} [(Node 7 [] (OtherDecl [])); (Node 8 [] (OtherDecl [])); (Node 9 [] (ObjCMethodDecl {| om_selector := $"initWith"; om_class := (Some $"Foo"); om_overriding := false; om_overridden := []; om_bodyLines := (4)%Z |} [] (Some (Node 10 [] (CompoundStmt [(Node 11 $"int" (BinaryOperator BO_Assign (Node 12 $"int" (ObjCIvarRefExpr $"_bar" (Some $"Foo") (Node 13 $"Foo *" (ImplicitCastExpr CK_LValueToRValue (Node 14 $"Foo *" (DeclRefExpr 1018 $"self" false)))))) (Node 15 $"int" (IntegerLiteral (3)%Z)))); (Node 16 [] (ReturnStmt (Some (Node 17 $"id" (ImplicitCastExpr CK_BitCast (Node 18 $"Foo *" (ImplicitCastExpr CK_LValueToRValue (Node 19 $"Foo *" (DeclRefExpr 1018 $"self" false)))))))))])))))])))];
     ts_locs := [(2,1,3,2); (4,1,11,2); (6,5,6,9); (7,5,7,10); (9,1,9,35); (10,1,10,36); (12,1,19,1); (13,1,13,19); (14,1,14,19); (15,1,18,1); (15,16,18,1); (16,5,16,12); (16,5,16,5); (16,5,16,5); (16,5,16,5); (16,12,16,12); (17,5,17,12); (17,12,17,12); (17,12,17,12); (17,12,17,12)]%Z;
     ts_evals := []; ts_same := []; ts_decls := []; ts_parents := [] |}.
Example ObjCAssignIvarOutsideAccessors_TestInitWith_holds : sorted_violations_of (shippedRule sh_ObjCAssignIvarOutsideAccessors) ObjCAssignIvarOutsideAccessors_TestInitWith = Some [].
Proof. vm_compute. reflexivity. Qed.

Definition ObjCAssignIvarOutsideAccessors_TestChangeGetter : testcase :=
  {| ts_lang := LObjC; ts_path := $"input.m"; ts_code := [];
     ts_comments := []; ts_conf := [];
     ts_tops := [(toplevel 0 (TOther), (Node 0 [] (ObjCContainerDecl {| oc_kind := OKInterface; oc_name := $"NSObject"; oc_lines := (2)%Z; oc_ivars := 0; oc_methods := []; oc_classes := [$"NSObject"]; oc_superMethods := None |} []))); (toplevel 1 (TOther), (Node 1 [] (ObjCContainerDecl {| oc_kind := OKInterface; oc_name := $"Foo"; oc_lines := (8)%Z; oc_ivars := 2; oc_methods := [($"bar", true); ($"setBar:", true); ($"foo", true); ($"setFoo:", true)]; oc_classes := [$"Foo"; $"NSObject"]; oc_superMethods := (Some ($"NSObject", [])) |} [(Node 2 [] (OtherDecl [])); (Node 3 [] (OtherDecl [])); (Node 4 [] (OtherDecl [])); (Node 5 [] (OtherDecl []))]))); (toplevel 6 (TOther), (Node 6 [] (ObjCContainerDecl {| oc_kind := OKImplementation; oc_name := $"Foo"; oc_lines := (8)%Z; oc_ivars := 0; oc_methods := [($"foo", true); ($"setFoo:", true); ($"bar", true); ($"setBar:", true); ($"bar", true)]; oc_classes := [$"Foo"; $"NSObject"]; oc_superMethods := (Some ($"NSObject", [])) |} [(Node 7 [] (OtherDecl [])); (Node 8 [] (OtherDecl [])); (Node 9 [] (ObjCMethodDecl {| om_selector := $"bar"; om_class := (Some $"Foo"); om_overriding := false; om_overridden := []; om_bodyLines := (4)%Z |} [] (Some (Node 10 [] (CompoundStmt [(Node 11 $"int" (BinaryOperator BO_Assign (Node 12 $"int" (ObjCIvarRefExpr $"_bar" (Some $"Foo") (Node 13 $"Foo *" (ImplicitCastExpr CK_LValueToRValue (Node 14 $"Foo *" (DeclRefExpr 1019 $"self" false)))))) (Node 15 $"int" (IntegerLiteral (3)%Z)))); (Node 16 [] (ReturnStmt (Some (Node 17 $"int" (ImplicitCastExpr CK_LValueToRValue (Node 18 $"int" (ObjCIvarRefExpr $"_bar" (Some $"Foo") (Node 19 $"Foo *" (ImplicitCastExpr CK_LValueToRValue (Node 20 $"Foo *" (DeclRefExpr 1019 $"self" false)))))))))))])))))])))];
     ts_locs := [(2,1,3,2); (4,1,11,2); (6,5,6,9); (7,5,7,10); (9,1,9,35); (10,1,10,36); (12,1,19,1); (13,1,13,19); (14,1,14,19); (15,1,18,1); (15,12,18,1); (16,5,16,12); (16,5,16,5); (16,5,16,5); (16,5,16,5); (16,12,16,12); (17,5,17,12); (17,12,17,12); (17,12,17,12); (17,12,17,12); (17,12,17,12)]%Z;
     ts_evals := []; ts_same := []; ts_decls := []; ts_parents := [] |}.
Example ObjCAssignIvarOutsideAccessors_TestChangeGetter_holds : sorted_violations_of (shippedRule sh_ObjCAssignIvarOutsideAccessors) ObjCAssignIvarOutsideAccessors_TestChangeGetter = Some [].
Proof. vm_compute. reflexivity. Qed.

Definition ObjCAssignIvarOutsideAccessors_TestChangeSetter : testcase :=
  {| ts_lang := LObjC; ts_path := $"input.m"; ts_code := [];
     ts_comments := []; ts_conf := [];
     ts_tops := [(toplevel 0 (TOther), (Node 0 [] (ObjCContainerDecl {| oc_kind := OKInterface; oc_name := $"NSObject"; oc_lines := (2)%Z; oc_ivars := 0; oc_methods := []; oc_classes := [$"NSObject"]; oc_superMethods := None |} []))); (toplevel 1 (TOther), (Node 1 [] (ObjCContainerDecl {| oc_kind := OKInterface; oc_name := $"Foo"; oc_lines := (8)%Z; oc_ivars := 2; oc_methods := [($"bar", true); ($"setBar:", true); ($"foo", true); ($"setFoo:", true)]; oc_classes := [$"Foo"; $"NSObject"]; oc_superMethods := (Some ($"NSObject", [])) |} [(Node 2 [] (OtherDecl [])); (Node 3 [] (OtherDecl [])); (Node 4 [] (OtherDecl [])); (Node 5 [] (OtherDecl []))]))); (toplevel 6 (TOther), (Node 6 [] (ObjCContainerDecl {| oc_kind := OKImplementation; oc_name := $"Foo"; oc_lines := (9)%Z; oc_ivars := 0; oc_methods := [($"foo", true); ($"setFoo:", true); ($"bar", true); ($"setBar:", true); ($"setFoo:", true)]; oc_classes := [$"Foo"; $"NSObject"]; oc_superMethods := (Some ($"NSObject", [])) |} [(Node 7 [] (OtherDecl [])); (Node 8 [] (OtherDecl [])); (Node 9 [] (ObjCMethodDecl {| om_selector := $"setFoo:"; om_class := (Some $"Foo"); om_overriding := false; om_overridden := []; om_bodyLines := (5)%Z |} [(Node 10 [] (VarDecl {| v_isParm := true; v_name := $"foo"; v_used := true; v_referenced := true; v_local := false; v_staticMember := false; v_private := false; v_unusedAttr := false; v_defaultArg := false; v_canonicalType := $"struct objc_object *"; v_inTemplate := false; v_contexts := [CxObjCMethod false false false false] |} None))] (Some (Node 11 [] (CompoundStmt [(Node 12 [] (IfStmt [] (Node 13 $"int" (BinaryOperator BO_EQ (Node 14 $"Foo *" (ImplicitCastExpr CK_LValueToRValue (Node 15 $"Foo *" (ObjCIvarRefExpr $"_foo" (Some $"Foo") (Node 16 $"Foo *" (ImplicitCastExpr CK_LValueToRValue (Node 17 $"Foo *" (DeclRefExpr 1028 $"self" false)))))))) (Node 18 $"Foo *" (ImplicitCastExpr CK_BitCast (Node 19 $"id" (ParenExpr (Node 20 $"id" (CStyleCastExpr CK_NullToPointer (Node 21 $"int" (IntegerLiteral (0)%Z)))))))))) (Node 22 [] (CompoundStmt [(Node 23 $"Foo *" (BinaryOperator BO_Assign (Node 24 $"Foo *" (ObjCIvarRefExpr $"_foo" (Some $"Foo") (Node 25 $"Foo *" (ImplicitCastExpr CK_LValueToRValue (Node 26 $"Foo *" (DeclRefExpr 1028 $"self" false)))))) (Node 27 $"Foo *" (ImplicitCastExpr CK_BitCast (Node 28 $"id" (ImplicitCastExpr CK_LValueToRValue (Node 29 $"id" (DeclRefExpr 10 $"foo" false))))))))])) None))])))))])))];
     ts_locs := [(2,1,3,2); (4,1,11,2); (6,5,6,9); (7,5,7,10); (9,1,9,35); (10,1,10,36); (12,1,20,1); (13,1,13,19); (14,1,14,19); (15,1,19,1); (15,17,15,20); (15,24,19,1); (16,5,18,5); (16,8,16,16); (16,8,16,8); (16,8,16,8); (16,8,16,8); (16,8,16,8); (16,16,16,16); (16,16,16,16); (16,16,16,16); (16,16,16,16); (16,21,18,5); (17,9,17,16); (17,9,17,9); (17,9,17,9); (17,9,17,9); (17,16,17,16); (17,16,17,16); (17,16,17,16)]%Z;
     ts_evals := []; ts_same := []; ts_decls := []; ts_parents := [] |}.
Example ObjCAssignIvarOutsideAccessors_TestChangeSetter_holds : sorted_violations_of (shippedRule sh_ObjCAssignIvarOutsideAccessors) ObjCAssignIvarOutsideAccessors_TestChangeSetter = Some [].
Proof. vm_compute. reflexivity. Qed.

Definition ObjCAssignIvarOutsideAccessors_TestOtherMethod : testcase :=
  {| ts_lang := LObjC; ts_path := $"input.m"; ts_code := [];
     ts_comments := []; ts_conf := [];
     ts_tops := [(toplevel 0 (TOther), (Node 0 [] (ObjCContainerDecl {| oc_kind := OKInterface; oc_name := $"NSObject"; oc_lines := (2)%Z; oc_ivars := 0; oc_methods := []; oc_classes := [$"NSObject"]; oc_superMethods := None |} []))); (toplevel 1 (TOther), (Node 1 [] (ObjCContainerDecl {| oc_kind := OKInterface; oc_name := $"Foo"; oc_lines := (8)%Z; oc_ivars := 2; oc_methods := [($"bar", true); ($"setBar:", true); ($"foo", true); ($"setFoo:", true)]; oc_classes := [$"Foo"; $"NSObject"]; oc_superMethods := (Some ($"NSObject", [])) |} [(Node 2 [] (OtherDecl [])); (Node 3 [] (OtherDecl [])); (Node 4 [] (OtherDecl [])); (Node 5 [] (OtherDecl []))]))); (toplevel 6 (TOther), (Node 6 [] (ObjCContainerDecl {| oc_kind := OKImplementation; oc_name := $"Foo"; oc_lines := (7)%Z; oc_ivars := 0; oc_methods := [($"foo", true); ($"setFoo:", true); ($"bar", true); ($"setBar:", true); ($"doSomething", true)]; oc_classes := [$"Foo"; $"NSObject"]; oc_superMethods := (Some ($"NSObject", [])) |} [(Node 7 [] (OtherDecl [])); (Node 8 [] (OtherDecl [])); (Node 9 [] (ObjCMethodDecl {| om_selector := $"doSomething"; om_class := (Some $"Foo"); om_overriding := false; om_overridden := []; om_bodyLines := (3)%Z |} [] (Some (Node 10 [] (CompoundStmt [(Node 11 $"int" (BinaryOperator BO_Assign (Node 12 $"int" (ObjCIvarRefExpr $"_bar" (Some $"Foo") (Node 13 $"Foo *" (ImplicitCastExpr CK_LValueToRValue (Node 14 $"Foo *" (DeclRefExpr 1014 $"self" false)))))) (Node 15 $"int" (IntegerLiteral (3)%Z))))])))))])))];
     ts_locs := [(2,1,3,2); (4,1,11,2); (6,5,6,9); (7,5,7,10); (9,1,9,35); (10,1,10,36); (12,1,18,1); (13,1,13,19); (14,1,14,19); (15,1,17,1); (15,21,17,1); (16,5,16,12); (16,5,16,5); (16,5,16,5); (16,5,16,5); (16,12,16,12)]%Z;
     ts_evals := []; ts_same := []; ts_decls := []; ts_parents := [] |}.
Example ObjCAssignIvarOutsideAccessors_TestOtherMethod_holds : nth_violation (shippedRule sh_ObjCAssignIvarOutsideAccessors) ObjCAssignIvarOutsideAccessors_TestOtherMethod 0 = Some (16, 5, 16, 5, $"")%Z.
Proof. vm_compute. reflexivity. Qed.

Definition ObjCAssignIvarOutsideAccessors_TestChildPropertyAccess : testcase :=
  {| ts_lang := LObjC; ts_path := $"input.m"; ts_code := [];
     ts_comments := []; ts_conf := [];
     ts_tops := [(toplevel 0 (TOther), (Node 0 [] (ObjCContainerDecl {| oc_kind := OKInterface; oc_name := $"NSObject"; oc_lines := (2)%Z; oc_ivars := 0; oc_methods := []; oc_classes := [$"NSObject"]; oc_superMethods := None |} []))); (toplevel 1 (TOther), (Node 1 [] (ObjCContainerDecl {| oc_kind := OKInterface; oc_name := $"Foo"; oc_lines := (8)%Z; oc_ivars := 2; oc_methods := [($"bar", true); ($"setBar:", true); ($"foo", true); ($"setFoo:", true)]; oc_classes := [$"Foo"; $"NSObject"]; oc_superMethods := (Some ($"NSObject", [])) |} [(Node 2 [] (OtherDecl [])); (Node 3 [] (OtherDecl [])); (Node 4 [] (OtherDecl [])); (Node 5 [] (OtherDecl []))]))); (toplevel 6 (TOther), (Node 6 [] (ObjCContainerDecl {| oc_kind := OKImplementation; oc_name := $"Foo"; oc_lines := (7)%Z; oc_ivars := 0; oc_methods := [($"foo", true); ($"setFoo:", true); ($"bar", true); ($"setBar:", true); ($"doSomething", true)]; oc_classes := [$"Foo"; $"NSObject"]; oc_superMethods := (Some ($"NSObject", [])) |} [(Node 7 [] (OtherDecl [])); (Node 8 [] (OtherDecl [])); (Node 9 [] (ObjCMethodDecl {| om_selector := $"doSomething"; om_class := (Some $"Foo"); om_overriding := false; om_overridden := []; om_bodyLines := (3)%Z |} [] (Some (Node 10 [] (CompoundStmt [(Node 11 $"int" (OtherExpr [(Node 12 $"int" (BinaryOperator BO_Assign (Node 13 $"int" (ObjCPropertyRefExpr true (Some $"Foo") (Some $"Foo") (Some (Node 14 $"Foo *" (OtherExpr []))))) (Node 15 $"int" (OtherExpr [])))); (Node 16 $"Foo *" (ImplicitCastExpr CK_LValueToRValue (Node 17 $"Foo *" (ObjCIvarRefExpr $"_foo" (Some $"Foo") (Node 18 $"Foo *" (ImplicitCastExpr CK_LValueToRValue (Node 19 $"Foo *" (DeclRefExpr 1022 $"self" false)))))))); (Node 20 $"int" (IntegerLiteral (3)%Z)); (Node 21 $"void" (ObjCMessageExpr {| ms_selector := $"setBar:"; ms_receiver := RInstance; ms_implicit := true; ms_interface := (Some $"Foo"); ms_method := (Some (Decl [] (Some (Method true (Some []) (InOther (Some NoCategory)))))); ms_methodClass := (Some $"Foo") |} (Some (Node 22 $"Foo *" (OtherExpr []))) [(Node 23 $"int" (OtherExpr []))]))]))])))))])))];
     ts_locs := [(2,1,3,2); (4,1,11,2); (6,5,6,9); (7,5,7,10); (9,1,9,35); (10,1,10,36); (12,1,18,1); (13,1,13,19); (14,1,14,19); (15,1,17,1); (15,21,17,1); (16,5,16,16); (16,5,16,16); (16,5,16,10); (16,5,16,5); (16,16,16,16); (16,5,16,5); (16,5,16,5); (16,5,16,5); (16,5,16,5); (16,16,16,16); (16,10,16,10); (16,5,16,5); (16,16,16,16)]%Z;
     ts_evals := []; ts_same := []; ts_decls := []; ts_parents := [] |}.
Example ObjCAssignIvarOutsideAccessors_TestChildPropertyAccess_holds : sorted_violations_of (shippedRule sh_ObjCAssignIvarOutsideAccessors) ObjCAssignIvarOutsideAccessors_TestChildPropertyAccess = Some [].
Proof. vm_compute. reflexivity. Qed.

(** ** oclint-rules/test/convention/ParameterReassignmentRuleTest.cpp *)

Definition ParameterReassignment_UseParameter : testcase :=
  {| ts_lang := LC; ts_path := $"input.c"; ts_code := [];
     ts_comments := []; ts_conf := [];
     ts_tops := [(toplevel 0 (TFunction false), (Node 0 [] (FunctionDecl {| f_name := $"useInt"; f_method := None; f_isDefinition := false; f_bodyLines := (0)%Z |} [(Node 1 [] (VarDecl {| v_isParm := true; v_name := $"i"; v_used := false; v_referenced := false; v_local := false; v_staticMember := false; v_private := false; v_unusedAttr := false; v_defaultArg := false; v_canonicalType := $"int"; v_inTemplate := false; v_contexts := [CxFunction false false false] |} None))] None))); (toplevel 2 (TFunction false), (Node 2 [] (FunctionDecl {| f_name := $"m"; f_method := None; f_isDefinition := true; f_bodyLines := (1)%Z |} [(Node 3 [] (VarDecl {| v_isParm := true; v_name := $"a"; v_used := true; v_referenced := true; v_local := false; v_staticMember := false; v_private := false; v_unusedAttr := false; v_defaultArg := false; v_canonicalType := $"int"; v_inTemplate := false; v_contexts := [CxFunction true true false] |} None))] (Some (Node 4 [] (CompoundStmt [(Node 5 [] (CallExpr (Some ($"useInt", (Decl [] None))) (Node 6 [] (ImplicitCastExpr CK_Other (Node 7 [] (DeclRefExpr 0 $"useInt" false)))) [(Node 8 [] (ImplicitCastExpr CK_LValueToRValue (Node 9 [] (DeclRefExpr 3 $"a" false))))]))]))))))];
     ts_locs := [(1,1,1,18); (1,13,1,17); (1,21,1,48); (1,28,1,32); (1,35,1,48); (1,37,1,45); (1,37,1,37); (1,37,1,37); (1,44,1,44); (1,44,1,44)]%Z;
     ts_evals := []; ts_same := []; ts_decls := []; ts_parents := [] |}.
Example ParameterReassignment_UseParameter_holds : sorted_violations_of (shippedRule sh_ParameterReassignment) ParameterReassignment_UseParameter = Some [].
Proof. vm_compute. reflexivity. Qed.

Definition ParameterReassignment_ReassignParameter : testcase :=
  {| ts_lang := LC; ts_path := $"input.c"; ts_code := [];
     ts_comments := []; ts_conf := [];
     ts_tops := [(toplevel 0 (TFunction false), (Node 0 [] (FunctionDecl {| f_name := $"m"; f_method := None; f_isDefinition := true; f_bodyLines := (1)%Z |} [(Node 1 [] (VarDecl {| v_isParm := true; v_name := $"a"; v_used := true; v_referenced := true; v_local := false; v_staticMember := false; v_private := false; v_unusedAttr := false; v_defaultArg := false; v_canonicalType := $"int"; v_inTemplate := false; v_contexts := [CxFunction true true false] |} None))] (Some (Node 2 [] (CompoundStmt [(Node 3 [] (BinaryOperator BO_Assign (Node 4 [] (DeclRefExpr 1 $"a" false)) (Node 5 [] (IntegerLiteral (1)%Z))))]))))))];
     ts_locs := [(1,1,1,24); (1,8,1,12); (1,15,1,24); (1,17,1,21); (1,17,1,17); (1,21,1,21)]%Z;
     ts_evals := []; ts_same := []; ts_decls := []; ts_parents := [] |}.
Example ParameterReassignment_ReassignParameter_holds : nth_violation (shippedRule sh_ParameterReassignment) ParameterReassignment_ReassignParameter 0 = Some (1, 17, 1, 21, $"")%Z.
Proof. vm_compute. reflexivity. Qed.

Definition ParameterReassignment_MultipleParameterReassignments : testcase :=
  {| ts_lang := LC; ts_path := $"input.c"; ts_code := [];
     ts_comments := []; ts_conf := [];
     ts_tops := [(toplevel 0 (TFunction false), (Node 0 [] (FunctionDecl {| f_name := $"m"; f_method := None; f_isDefinition := true; f_bodyLines := (1)%Z |} [(Node 1 [] (VarDecl {| v_isParm := true; v_name := $"a"; v_used := true; v_referenced := true; v_local := false; v_staticMember := false; v_private := false; v_unusedAttr := false; v_defaultArg := false; v_canonicalType := $"int"; v_inTemplate := false; v_contexts := [CxFunction true true false] |} None))] (Some (Node 2 [] (CompoundStmt [(Node 3 [] (BinaryOperator BO_Assign (Node 4 [] (DeclRefExpr 1 $"a" false)) (Node 5 [] (IntegerLiteral (1)%Z)))); (Node 6 [] (BinaryOperator BO_Assign (Node 7 [] (DeclRefExpr 1 $"a" false)) (Node 8 [] (IntegerLiteral (2)%Z))))]))))))];
     ts_locs := [(1,1,1,31); (1,8,1,12); (1,15,1,31); (1,17,1,21); (1,17,1,17); (1,21,1,21); (1,24,1,28); (1,24,1,24); (1,28,1,28)]%Z;
     ts_evals := []; ts_same := []; ts_decls := []; ts_parents := [] |}.
Example ParameterReassignment_MultipleParameterReassignments_holds : nth_violation (shippedRule sh_ParameterReassignment) ParameterReassignment_MultipleParameterReassignments 0 = Some (1, 17, 1, 21, $"")%Z.
Proof. vm_compute. reflexivity. Qed.

Definition ParameterReassignment_MultipleParameterReassignments_2 : testcase :=
  {| ts_lang := LC; ts_path := $"input.c"; ts_code := [];
     ts_comments := []; ts_conf := [];
     ts_tops := [(toplevel 0 (TFunction false), (Node 0 [] (FunctionDecl {| f_name := $"m"; f_method := None; f_isDefinition := true; f_bodyLines := (1)%Z |} [(Node 1 [] (VarDecl {| v_isParm := true; v_name := $"a"; v_used := true; v_referenced := true; v_local := false; v_staticMember := false; v_private := false; v_unusedAttr := false; v_defaultArg := false; v_canonicalType := $"int"; v_inTemplate := false; v_contexts := [CxFunction true true false] |} None))] (Some (Node 2 [] (CompoundStmt [(Node 3 [] (BinaryOperator BO_Assign (Node 4 [] (DeclRefExpr 1 $"a" false)) (Node 5 [] (IntegerLiteral (1)%Z)))); (Node 6 [] (BinaryOperator BO_Assign (Node 7 [] (DeclRefExpr 1 $"a" false)) (Node 8 [] (IntegerLiteral (2)%Z))))]))))))];
     ts_locs := [(1,1,1,31); (1,8,1,12); (1,15,1,31); (1,17,1,21); (1,17,1,17); (1,21,1,21); (1,24,1,28); (1,24,1,24); (1,28,1,28)]%Z;
     ts_evals := []; ts_same := []; ts_decls := []; ts_parents := [] |}.
Example ParameterReassignment_MultipleParameterReassignments_2_holds : nth_violation (shippedRule sh_ParameterReassignment) ParameterReassignment_MultipleParameterReassignments_2 1 = Some (1, 24, 1, 28, $"")%Z.
Proof. vm_compute. reflexivity. Qed.

Definition ParameterReassignment_MultipleParametersBeingReassigned : testcase :=
  {| ts_lang := LC; ts_path := $"input.c"; ts_code := [];
     ts_comments := []; ts_conf := [];
     ts_tops := [(toplevel 0 (TFunction false), (Node 0 [] (FunctionDecl {| f_name := $"m"; f_method := None; f_isDefinition := true; f_bodyLines := (1)%Z |} [(Node 1 [] (VarDecl {| v_isParm := true; v_name := $"a"; v_used := true; v_referenced := true; v_local := false; v_staticMember := false; v_private := false; v_unusedAttr := false; v_defaultArg := false; v_canonicalType := $"int"; v_inTemplate := false; v_contexts := [CxFunction true true false] |} None)); (Node 2 [] (VarDecl {| v_isParm := true; v_name := $"b"; v_used := false; v_referenced := false; v_local := false; v_staticMember := false; v_private := false; v_unusedAttr := false; v_defaultArg := false; v_canonicalType := $"int"; v_inTemplate := false; v_contexts := [CxFunction true true false] |} None)); (Node 3 [] (VarDecl {| v_isParm := true; v_name := $"c"; v_used := true; v_referenced := true; v_local := false; v_staticMember := false; v_private := false; v_unusedAttr := false; v_defaultArg := false; v_canonicalType := $"int"; v_inTemplate := false; v_contexts := [CxFunction true true false] |} None))] (Some (Node 4 [] (CompoundStmt [(Node 5 [] (BinaryOperator BO_Assign (Node 6 [] (DeclRefExpr 1 $"a" false)) (Node 7 [] (IntegerLiteral (1)%Z)))); (Node 8 [] (BinaryOperator BO_Assign (Node 9 [] (DeclRefExpr 3 $"c" false)) (Node 10 [] (IntegerLiteral (3)%Z))))]))))))];
     ts_locs := [(1,1,1,45); (1,8,1,12); (1,15,1,19); (1,22,1,26); (1,29,1,45); (1,31,1,35); (1,31,1,31); (1,35,1,35); (1,38,1,42); (1,38,1,38); (1,42,1,42)]%Z;
     ts_evals := []; ts_same := []; ts_decls := []; ts_parents := [] |}.
Example ParameterReassignment_MultipleParametersBeingReassigned_holds : nth_violation (shippedRule sh_ParameterReassignment) ParameterReassignment_MultipleParametersBeingReassigned 0 = Some (1, 31, 1, 35, $"")%Z.
Proof. vm_compute. reflexivity. Qed.

Definition ParameterReassignment_MultipleParametersBeingReassigned_2 : testcase :=
  {| ts_lang := LC; ts_path := $"input.c"; ts_code := [];
     ts_comments := []; ts_conf := [];
     ts_tops := [(toplevel 0 (TFunction false), (Node 0 [] (FunctionDecl {| f_name := $"m"; f_method := None; f_isDefinition := true; f_bodyLines := (1)%Z |} [(Node 1 [] (VarDecl {| v_isParm := true; v_name := $"a"; v_used := true; v_referenced := true; v_local := false; v_staticMember := false; v_private := false; v_unusedAttr := false; v_defaultArg := false; v_canonicalType := $"int"; v_inTemplate := false; v_contexts := [CxFunction true true false] |} None)); (Node 2 [] (VarDecl {| v_isParm := true; v_name := $"b"; v_used := false; v_referenced := false; v_local := false; v_staticMember := false; v_private := false; v_unusedAttr := false; v_defaultArg := false; v_canonicalType := $"int"; v_inTemplate := false; v_contexts := [CxFunction true true false] |} None)); (Node 3 [] (VarDecl {| v_isParm := true; v_name := $"c"; v_used := true; v_referenced := true; v_local := false; v_staticMember := false; v_private := false; v_unusedAttr := false; v_defaultArg := false; v_canonicalType := $"int"; v_inTemplate := false; v_contexts := [CxFunction true true false] |} None))] (Some (Node 4 [] (CompoundStmt [(Node 5 [] (BinaryOperator BO_Assign (Node 6 [] (DeclRefExpr 1 $"a" false)) (Node 7 [] (IntegerLiteral (1)%Z)))); (Node 8 [] (BinaryOperator BO_Assign (Node 9 [] (DeclRefExpr 3 $"c" false)) (Node 10 [] (IntegerLiteral (3)%Z))))]))))))];
     ts_locs := [(1,1,1,45); (1,8,1,12); (1,15,1,19); (1,22,1,26); (1,29,1,45); (1,31,1,35); (1,31,1,31); (1,35,1,35); (1,38,1,42); (1,38,1,38); (1,42,1,42)]%Z;
     ts_evals := []; ts_same := []; ts_decls := []; ts_parents := [] |}.
Example ParameterReassignment_MultipleParametersBeingReassigned_2_holds : nth_violation (shippedRule sh_ParameterReassignment) ParameterReassignment_MultipleParametersBeingReassigned_2 1 = Some (1, 38, 1, 42, $"")%Z.
Proof. vm_compute. reflexivity. Qed.

Definition ParameterReassignment_CXXParameterReassignment : testcase :=
  {| ts_lang := LCXX; ts_path := $"input.cpp"; ts_code := [];
     ts_comments := []; ts_conf := [];
     ts_tops := [(toplevel 0 (TOther), (Node 0 [] (CXXRecordDecl {| r_class := (CxxRecord 0 $"a" true false None []); r_fields := 0; r_methods := 1; r_lines := (4)%Z |} [(Node 1 [] (FunctionDecl {| f_name := $"m"; f_method := (Some {| cm_virtual := false; cm_static := false; cm_private := false; cm_inRecord := true |}); f_isDefinition := false; f_bodyLines := (3)%Z |} [(Node 2 [] (VarDecl {| v_isParm := true; v_name := $"a"; v_used := false; v_referenced := false; v_local := false; v_staticMember := false; v_private := false; v_unusedAttr := false; v_defaultArg := false; v_canonicalType := $"int"; v_inTemplate := false; v_contexts := [CxFunction false true false; CxRecord] |} None))] None))]))); (toplevel 3 (TFunction false), (Node 3 [] (FunctionDecl {| f_name := $"m"; f_method := (Some {| cm_virtual := false; cm_static := false; cm_private := false; cm_inRecord := false |}); f_isDefinition := true; f_bodyLines := (3)%Z |} [(Node 4 [] (VarDecl {| v_isParm := true; v_name := $"a"; v_used := true; v_referenced := true; v_local := false; v_staticMember := false; v_private := false; v_unusedAttr := false; v_defaultArg := false; v_canonicalType := $"int"; v_inTemplate := false; v_contexts := [CxFunction true true false] |} None))] (Some (Node 5 [] (CompoundStmt [(Node 6 [] (BinaryOperator BO_Assign (Node 7 [] (DeclRefExpr 4 $"a" false)) (Node 8 [] (IntegerLiteral (1)%Z))))]))))))];
     ts_locs := [(1,1,4,1); (3,1,3,13); (3,8,3,12); (5,1,8,1); (5,11,5,15); (6,1,8,1); (7,1,7,5); (7,1,7,1); (7,5,7,5)]%Z;
     ts_evals := []; ts_same := []; ts_decls := []; ts_parents := [] |}.
Example ParameterReassignment_CXXParameterReassignment_holds : nth_violation (shippedRule sh_ParameterReassignment) ParameterReassignment_CXXParameterReassignment 0 = Some (7, 1, 7, 5, $"")%Z.
Proof. vm_compute. reflexivity. Qed.

Definition ParameterReassignment_ObjCParameterReassignment : testcase :=
  {| ts_lang := LObjC; ts_path := $"input.m"; ts_code := [];
     ts_comments := []; ts_conf := [];
     ts_tops := [(toplevel 0 (TOther), (Node 0 [] (ObjCContainerDecl {| oc_kind := OKInterface; oc_name := $"AnInterface"; oc_lines := (2)%Z; oc_ivars := 0; oc_methods := []; oc_classes := [$"AnInterface"]; oc_superMethods := None |} []))); (toplevel 1 (TOther), (Node 1 [] (ObjCContainerDecl {| oc_kind := OKInterface; oc_name := $"AnImplementation"; oc_lines := (3)%Z; oc_ivars := 0; oc_methods := [($"m:", true)]; oc_classes := [$"AnImplementation"; $"AnInterface"]; oc_superMethods := (Some ($"AnInterface", [])) |} [(Node 2 [] (ObjCMethodDecl {| om_selector := $"m:"; om_class := (Some $"AnImplementation"); om_overriding := false; om_overridden := []; om_bodyLines := (0)%Z |} [(Node 3 [] (VarDecl {| v_isParm := true; v_name := $"a"; v_used := false; v_referenced := false; v_local := false; v_staticMember := false; v_private := false; v_unusedAttr := false; v_defaultArg := false; v_canonicalType := $"int"; v_inTemplate := false; v_contexts := [CxObjCMethod true false false false; CxOther] |} None))] None))]))); (toplevel 4 (TOther), (Node 4 [] (ObjCContainerDecl {| oc_kind := OKImplementation; oc_name := $"AnImplementation"; oc_lines := (6)%Z; oc_ivars := 0; oc_methods := [($"m:", true)]; oc_classes := [$"AnImplementation"; $"AnInterface"]; oc_superMethods := (Some ($"AnInterface", [])) |} [(Node 5 [] (ObjCMethodDecl {| om_selector := $"m:"; om_class := (Some $"AnImplementation"); om_overriding := false; om_overridden := []; om_bodyLines := (3)%Z |} [(Node 6 [] (VarDecl {| v_isParm := true; v_name := $"a"; v_used := true; v_referenced := true; v_local := false; v_staticMember := false; v_private := false; v_unusedAttr := false; v_defaultArg := false; v_canonicalType := $"int"; v_inTemplate := false; v_contexts := [CxObjCMethod false false false false] |} None))] (Some (Node 7 [] (CompoundStmt [(Node 8 $"int" (BinaryOperator BO_Assign (Node 9 $"int" (DeclRefExpr 6 $"a" false)) (Node 10 $"int" (IntegerLiteral (1)%Z))))])))))])))];
     ts_locs := [(1,1,2,2); (3,1,5,2); (4,1,4,17); (4,12,4,16); (6,1,11,1); (7,1,10,1); (7,12,7,16); (8,1,10,1); (9,1,9,5); (9,1,9,1); (9,5,9,5)]%Z;
     ts_evals := []; ts_same := []; ts_decls := []; ts_parents := [] |}.
Example ParameterReassignment_ObjCParameterReassignment_holds : nth_violation (shippedRule sh_ParameterReassignment) ParameterReassignment_ObjCParameterReassignment 0 = Some (9, 1, 9, 5, $"")%Z.
Proof. vm_compute. reflexivity. Qed.

(** ** oclint-rules/test/convention/SwitchStatementsShouldHaveDefaultRuleTest.cpp *)

Definition SwitchStatementsShouldHaveDefault_SwitchHasDefault : testcase :=
  {| ts_lang := LC; ts_path := $"input.c"; ts_code := [];
     ts_comments := []; ts_conf := [];
     ts_tops := [(toplevel 0 (TFunction false), (Node 0 [] (FunctionDecl {| f_name := $"aMethod"; f_method := None; f_isDefinition := true; f_bodyLines := (6)%Z |} [(Node 1 [] (VarDecl {| v_isParm := true; v_name := $"a"; v_used := true; v_referenced := true; v_local := false; v_staticMember := false; v_private := false; v_unusedAttr := false; v_defaultArg := false; v_canonicalType := $"int"; v_inTemplate := false; v_contexts := [CxFunction true true false] |} None))] (Some (Node 2 [] (CompoundStmt [(Node 3 [] (SwitchStmt [] (Node 4 [] (ImplicitCastExpr CK_LValueToRValue (Node 5 [] (DeclRefExpr 1 $"a" false)))) (Node 6 [] (CompoundStmt [(Node 7 [] (CaseStmt (Node 8 [] (OtherExpr [(Node 9 [] (IntegerLiteral (1)%Z))])) (Node 10 [] BreakStmt))); (Node 11 [] (DefaultStmt (Node 12 [] BreakStmt)))])) false))]))))))];
     ts_locs := [(1,1,6,3); (1,14,1,18); (1,21,6,3); (1,23,6,1); (1,30,1,30); (1,30,1,30); (1,32,6,1); (2,1,3,2); (2,6,2,6); (2,6,2,6); (3,2,3,2); (4,1,5,2); (5,2,5,2)]%Z;
     ts_evals := []; ts_same := []; ts_decls := []; ts_parents := [] |}.
Example SwitchStatementsShouldHaveDefault_SwitchHasDefault_holds : sorted_violations_of (shippedRule sh_SwitchStatementsShouldHaveDefault) SwitchStatementsShouldHaveDefault_SwitchHasDefault = Some [].
Proof. vm_compute. reflexivity. Qed.

Definition SwitchStatementsShouldHaveDefault_SwitchNoDefault : testcase :=
  {| ts_lang := LC; ts_path := $"input.c"; ts_code := [];
     ts_comments := []; ts_conf := [];
     ts_tops := [(toplevel 0 (TFunction false), (Node 0 [] (FunctionDecl {| f_name := $"aMethod"; f_method := None; f_isDefinition := true; f_bodyLines := (6)%Z |} [(Node 1 [] (VarDecl {| v_isParm := true; v_name := $"a"; v_used := true; v_referenced := true; v_local := false; v_staticMember := false; v_private := false; v_unusedAttr := false; v_defaultArg := false; v_canonicalType := $"int"; v_inTemplate := false; v_contexts := [CxFunction true true false] |} None))] (Some (Node 2 [] (CompoundStmt [(Node 3 [] (SwitchStmt [] (Node 4 [] (ImplicitCastExpr CK_LValueToRValue (Node 5 [] (DeclRefExpr 1 $"a" false)))) (Node 6 [] (CompoundStmt [(Node 7 [] (CaseStmt (Node 8 [] (OtherExpr [(Node 9 [] (IntegerLiteral (1)%Z))])) (Node 10 [] BreakStmt))); (Node 11 [] (CaseStmt (Node 12 [] (OtherExpr [(Node 13 [] (IntegerLiteral (2)%Z))])) (Node 14 [] BreakStmt)))])) false))]))))))];
     ts_locs := [(1,1,6,3); (1,14,1,18); (1,21,6,3); (1,23,6,1); (1,30,1,30); (1,30,1,30); (1,32,6,1); (2,1,3,2); (2,6,2,6); (2,6,2,6); (3,2,3,2); (4,1,5,2); (4,6,4,6); (4,6,4,6); (5,2,5,2)]%Z;
     ts_evals := []; ts_same := []; ts_decls := []; ts_parents := [] |}.
Example SwitchStatementsShouldHaveDefault_SwitchNoDefault_holds : nth_violation (shippedRule sh_SwitchStatementsShouldHaveDefault) SwitchStatementsShouldHaveDefault_SwitchNoDefault 0 = Some (1, 23, 6, 1, $"")%Z.
Proof. vm_compute. reflexivity. Qed.

Definition SwitchStatementsShouldHaveDefault_SwitchNoDefaultButCovered : testcase :=
  {| ts_lang := LC; ts_path := $"input.c"; ts_code := [];
     ts_comments := []; ts_conf := [];
     ts_tops := [(toplevel 0 (TOther), (Node 0 [] (OtherDecl [(Node 1 [] (OtherDecl [(Node 2 [] (IntegerLiteral (0)%Z))])); (Node 3 [] (OtherDecl [(Node 4 [] (IntegerLiteral (1)%Z))]))]))); (toplevel 5 (TOther), (Node 5 [] (OtherDecl []))); (toplevel 6 (TFunction false), (Node 6 [] (FunctionDecl {| f_name := $"aMethod"; f_method := None; f_isDefinition := true; f_bodyLines := (6)%Z |} [(Node 7 [] (VarDecl {| v_isParm := true; v_name := $"a"; v_used := true; v_referenced := true; v_local := false; v_staticMember := false; v_private := false; v_unusedAttr := false; v_defaultArg := false; v_canonicalType := $"eValues"; v_inTemplate := false; v_contexts := [CxFunction true true false] |} None))] (Some (Node 8 [] (CompoundStmt [(Node 9 [] (SwitchStmt [] (Node 10 [] (ImplicitCastExpr CK_Other (Node 11 [] (ImplicitCastExpr CK_LValueToRValue (Node 12 [] (DeclRefExpr 7 $"a" false)))))) (Node 13 [] (CompoundStmt [(Node 14 [] (CaseStmt (Node 15 [] (OtherExpr [(Node 16 [] (DeclRefExpr 23 $"value1" true))])) (Node 17 [] BreakStmt))); (Node 18 [] (CaseStmt (Node 19 [] (OtherExpr [(Node 20 [] (DeclRefExpr 24 $"value2" true))])) (Node 21 [] BreakStmt)))])) true))]))))))];
     ts_locs := [(1,9,4,1); (2,1,2,10); (2,10,2,10); (3,1,3,10); (3,10,3,10); (1,1,4,3); (5,1,10,3); (5,14,5,22); (5,25,10,3); (5,27,10,1); (5,34,5,34); (5,34,5,34); (5,34,5,34); (5,36,10,1); (6,1,7,2); (6,6,6,6); (6,6,6,6); (7,2,7,2); (8,1,9,2); (8,6,8,6); (8,6,8,6); (9,2,9,2)]%Z;
     ts_evals := []; ts_same := []; ts_decls := []; ts_parents := [] |}.
Example SwitchStatementsShouldHaveDefault_SwitchNoDefaultButCovered_holds : sorted_violations_of (shippedRule sh_SwitchStatementsShouldHaveDefault) SwitchStatementsShouldHaveDefault_SwitchNoDefaultButCovered = Some [].
Proof. vm_compute. reflexivity. Qed.

Definition SwitchStatementsShouldHaveDefault_SwitchNoDefaultAndNotCovered : testcase :=
  {| ts_lang := LC; ts_path := $"input.c"; ts_code := [];
     ts_comments := []; ts_conf := [];
     ts_tops := [(toplevel 0 (TOther), (Node 0 [] (OtherDecl [(Node 1 [] (OtherDecl [(Node 2 [] (IntegerLiteral (0)%Z))])); (Node 3 [] (OtherDecl [(Node 4 [] (IntegerLiteral (1)%Z))])); (Node 5 [] (OtherDecl [(Node 6 [] (IntegerLiteral (2)%Z))]))]))); (toplevel 7 (TOther), (Node 7 [] (OtherDecl []))); (toplevel 8 (TFunction false), (Node 8 [] (FunctionDecl {| f_name := $"aMethod"; f_method := None; f_isDefinition := true; f_bodyLines := (6)%Z |} [(Node 9 [] (VarDecl {| v_isParm := true; v_name := $"a"; v_used := true; v_referenced := true; v_local := false; v_staticMember := false; v_private := false; v_unusedAttr := false; v_defaultArg := false; v_canonicalType := $"eValues"; v_inTemplate := false; v_contexts := [CxFunction true true false] |} None))] (Some (Node 10 [] (CompoundStmt [(Node 11 [] (SwitchStmt [] (Node 12 [] (ImplicitCastExpr CK_Other (Node 13 [] (ImplicitCastExpr CK_LValueToRValue (Node 14 [] (DeclRefExpr 9 $"a" false)))))) (Node 15 [] (CompoundStmt [(Node 16 [] (CaseStmt (Node 17 [] (OtherExpr [(Node 18 [] (DeclRefExpr 25 $"value1" true))])) (Node 19 [] BreakStmt))); (Node 20 [] (CaseStmt (Node 21 [] (OtherExpr [(Node 22 [] (DeclRefExpr 26 $"value2" true))])) (Node 23 [] BreakStmt)))])) false))]))))))];
     ts_locs := [(1,9,5,1); (2,1,2,10); (2,10,2,10); (3,1,3,10); (3,10,3,10); (4,1,4,10); (4,10,4,10); (1,1,5,3); (6,1,11,3); (6,14,6,22); (6,25,11,3); (6,27,11,1); (6,34,6,34); (6,34,6,34); (6,34,6,34); (6,36,11,1); (7,1,8,2); (7,6,7,6); (7,6,7,6); (8,2,8,2); (9,1,10,2); (9,6,9,6); (9,6,9,6); (10,2,10,2)]%Z;
     ts_evals := []; ts_same := []; ts_decls := []; ts_parents := [] |}.
Example SwitchStatementsShouldHaveDefault_SwitchNoDefaultAndNotCovered_holds : nth_violation (shippedRule sh_SwitchStatementsShouldHaveDefault) SwitchStatementsShouldHaveDefault_SwitchNoDefaultAndNotCovered 0 = Some (6, 27, 11, 1, $"")%Z.
Proof. vm_compute. reflexivity. Qed.

(** ** oclint-rules/test/convention/TooFewBranchesInSwitchStatementRuleTest.cpp *)

Definition TooFewBranchesInSwitchStatement_FourBranches : testcase :=
  {| ts_lang := LC; ts_path := $"input.c"; ts_code := [];
     ts_comments := []; ts_conf := [($"MINIMUM_CASES_IN_SWITCH", $"3")];
     ts_tops := [(toplevel 0 (TFunction false), (Node 0 [] (FunctionDecl {| f_name := $"aMethod"; f_method := None; f_isDefinition := true; f_bodyLines := (10)%Z |} [(Node 1 [] (VarDecl {| v_isParm := true; v_name := $"a"; v_used := true; v_referenced := true; v_local := false; v_staticMember := false; v_private := false; v_unusedAttr := false; v_defaultArg := false; v_canonicalType := $"int"; v_inTemplate := false; v_contexts := [CxFunction true true false] |} None))] (Some (Node 2 [] (CompoundStmt [(Node 3 [] (SwitchStmt [] (Node 4 [] (ImplicitCastExpr CK_LValueToRValue (Node 5 [] (DeclRefExpr 1 $"a" false)))) (Node 6 [] (CompoundStmt [(Node 7 [] (CaseStmt (Node 8 [] (OtherExpr [(Node 9 [] (IntegerLiteral (1)%Z))])) (Node 10 [] BreakStmt))); (Node 11 [] (CaseStmt (Node 12 [] (OtherExpr [(Node 13 [] (IntegerLiteral (2)%Z))])) (Node 14 [] BreakStmt))); (Node 15 [] (CaseStmt (Node 16 [] (OtherExpr [(Node 17 [] (IntegerLiteral (3)%Z))])) (Node 18 [] BreakStmt))); (Node 19 [] (CaseStmt (Node 20 [] (OtherExpr [(Node 21 [] (IntegerLiteral (4)%Z))])) (Node 22 [] BreakStmt)))])) false))]))))))];
     ts_locs := [(1,1,10,3); (1,14,1,18); (1,21,10,3); (1,23,10,1); (1,30,1,30); (1,30,1,30); (1,32,10,1); (2,1,3,2); (2,6,2,6); (2,6,2,6); (3,2,3,2); (4,1,5,2); (4,6,4,6); (4,6,4,6); (5,2,5,2); (6,1,7,2); (6,6,6,6); (6,6,6,6); (7,2,7,2); (8,1,9,2); (8,6,8,6); (8,6,8,6); (9,2,9,2)]%Z;
     ts_evals := []; ts_same := []; ts_decls := []; ts_parents := [] |}.
Example TooFewBranchesInSwitchStatement_FourBranches_holds : sorted_violations_of (shippedRule sh_TooFewBranchesInSwitchStatement) TooFewBranchesInSwitchStatement_FourBranches = Some [].
Proof. vm_compute. reflexivity. Qed.

Definition TooFewBranchesInSwitchStatement_ThreeBranches : testcase :=
  {| ts_lang := LC; ts_path := $"input.c"; ts_code := [];
     ts_comments := []; ts_conf := [($"MINIMUM_CASES_IN_SWITCH", $"3")];
     ts_tops := [(toplevel 0 (TFunction false), (Node 0 [] (FunctionDecl {| f_name := $"aMethod"; f_method := None; f_isDefinition := true; f_bodyLines := (8)%Z |} [(Node 1 [] (VarDecl {| v_isParm := true; v_name := $"a"; v_used := true; v_referenced := true; v_local := false; v_staticMember := false; v_private := false; v_unusedAttr := false; v_defaultArg := false; v_canonicalType := $"int"; v_inTemplate := false; v_contexts := [CxFunction true true false] |} None))] (Some (Node 2 [] (CompoundStmt [(Node 3 [] (SwitchStmt [] (Node 4 [] (ImplicitCastExpr CK_LValueToRValue (Node 5 [] (DeclRefExpr 1 $"a" false)))) (Node 6 [] (CompoundStmt [(Node 7 [] (CaseStmt (Node 8 [] (OtherExpr [(Node 9 [] (IntegerLiteral (1)%Z))])) (Node 10 [] BreakStmt))); (Node 11 [] (CaseStmt (Node 12 [] (OtherExpr [(Node 13 [] (IntegerLiteral (2)%Z))])) (Node 14 [] BreakStmt))); (Node 15 [] (CaseStmt (Node 16 [] (OtherExpr [(Node 17 [] (IntegerLiteral (3)%Z))])) (Node 18 [] BreakStmt)))])) false))]))))))];
     ts_locs := [(1,1,8,3); (1,14,1,18); (1,21,8,3); (1,23,8,1); (1,30,1,30); (1,30,1,30); (1,32,8,1); (2,1,3,2); (2,6,2,6); (2,6,2,6); (3,2,3,2); (4,1,5,2); (4,6,4,6); (4,6,4,6); (5,2,5,2); (6,1,7,2); (6,6,6,6); (6,6,6,6); (7,2,7,2)]%Z;
     ts_evals := []; ts_same := []; ts_decls := []; ts_parents := [] |}.
Example TooFewBranchesInSwitchStatement_ThreeBranches_holds : sorted_violations_of (shippedRule sh_TooFewBranchesInSwitchStatement) TooFewBranchesInSwitchStatement_ThreeBranches = Some [].
Proof. vm_compute. reflexivity. Qed.

Definition TooFewBranchesInSwitchStatement_TwoBranches : testcase :=
  {| ts_lang := LC; ts_path := $"input.c"; ts_code := [];
     ts_comments := []; ts_conf := [($"MINIMUM_CASES_IN_SWITCH", $"3")];
     ts_tops := [(toplevel 0 (TFunction false), (Node 0 [] (FunctionDecl {| f_name := $"aMethod"; f_method := None; f_isDefinition := true; f_bodyLines := (6)%Z |} [(Node 1 [] (VarDecl {| v_isParm := true; v_name := $"a"; v_used := true; v_referenced := true; v_local := false; v_staticMember := false; v_private := false; v_unusedAttr := false; v_defaultArg := false; v_canonicalType := $"int"; v_inTemplate := false; v_contexts := [CxFunction true true false] |} None))] (Some (Node 2 [] (CompoundStmt [(Node 3 [] (SwitchStmt [] (Node 4 [] (ImplicitCastExpr CK_LValueToRValue (Node 5 [] (DeclRefExpr 1 $"a" false)))) (Node 6 [] (CompoundStmt [(Node 7 [] (CaseStmt (Node 8 [] (OtherExpr [(Node 9 [] (IntegerLiteral (1)%Z))])) (Node 10 [] BreakStmt))); (Node 11 [] (CaseStmt (Node 12 [] (OtherExpr [(Node 13 [] (IntegerLiteral (2)%Z))])) (Node 14 [] BreakStmt)))])) false))]))))))];
     ts_locs := [(1,1,6,3); (1,14,1,18); (1,21,6,3); (1,23,6,1); (1,30,1,30); (1,30,1,30); (1,32,6,1); (2,1,3,2); (2,6,2,6); (2,6,2,6); (3,2,3,2); (4,1,5,2); (4,6,4,6); (4,6,4,6); (5,2,5,2)]%Z;
     ts_evals := []; ts_same := []; ts_decls := []; ts_parents := [] |}.
Example TooFewBranchesInSwitchStatement_TwoBranches_holds : nth_violation (shippedRule sh_TooFewBranchesInSwitchStatement) TooFewBranchesInSwitchStatement_TwoBranches 0 = Some (1, 23, 6, 1, $"")%Z.
Proof. vm_compute. reflexivity. Qed.

Definition TooFewBranchesInSwitchStatement_OneBranche : testcase :=
  {| ts_lang := LC; ts_path := $"input.c"; ts_code := [];
     ts_comments := []; ts_conf := [($"MINIMUM_CASES_IN_SWITCH", $"3")];
     ts_tops := [(toplevel 0 (TFunction false), (Node 0 [] (FunctionDecl {| f_name := $"aMethod"; f_method := None; f_isDefinition := true; f_bodyLines := (4)%Z |} [(Node 1 [] (VarDecl {| v_isParm := true; v_name := $"a"; v_used := true; v_referenced := true; v_local := false; v_staticMember := false; v_private := false; v_unusedAttr := false; v_defaultArg := false; v_canonicalType := $"int"; v_inTemplate := false; v_contexts := [CxFunction true true false] |} None))] (Some (Node 2 [] (CompoundStmt [(Node 3 [] (SwitchStmt [] (Node 4 [] (ImplicitCastExpr CK_LValueToRValue (Node 5 [] (DeclRefExpr 1 $"a" false)))) (Node 6 [] (CompoundStmt [(Node 7 [] (CaseStmt (Node 8 [] (OtherExpr [(Node 9 [] (IntegerLiteral (1)%Z))])) (Node 10 [] BreakStmt)))])) false))]))))))];
     ts_locs := [(1,1,4,3); (1,14,1,18); (1,21,4,3); (1,23,4,1); (1,30,1,30); (1,30,1,30); (1,32,4,1); (2,1,3,2); (2,6,2,6); (2,6,2,6); (3,2,3,2)]%Z;
     ts_evals := []; ts_same := []; ts_decls := []; ts_parents := [] |}.
Example TooFewBranchesInSwitchStatement_OneBranche_holds : nth_violation (shippedRule sh_TooFewBranchesInSwitchStatement) TooFewBranchesInSwitchStatement_OneBranche 0 = Some (1, 23, 4, 1, $"")%Z.
Proof. vm_compute. reflexivity. Qed.

Definition TooFewBranchesInSwitchStatement_ZeroBranch : testcase :=
  {| ts_lang := LC; ts_path := $"input.c"; ts_code := [];
     ts_comments := []; ts_conf := [($"MINIMUM_CASES_IN_SWITCH", $"3")];
     ts_tops := [(toplevel 0 (TFunction false), (Node 0 [] (FunctionDecl {| f_name := $"aMethod"; f_method := None; f_isDefinition := true; f_bodyLines := (4)%Z |} [(Node 1 [] (VarDecl {| v_isParm := true; v_name := $"a"; v_used := true; v_referenced := true; v_local := false; v_staticMember := false; v_private := false; v_unusedAttr := false; v_defaultArg := false; v_canonicalType := $"int"; v_inTemplate := false; v_contexts := [CxFunction true true false] |} None))] (Some (Node 2 [] (CompoundStmt [(Node 3 [] (SwitchStmt [] (Node 4 [] (ImplicitCastExpr CK_LValueToRValue (Node 5 [] (DeclRefExpr 1 $"a" false)))) (Node 6 [] (CompoundStmt [(Node 7 [] (DefaultStmt (Node 8 [] BreakStmt)))])) false))]))))))];
     ts_locs := [(1,1,4,3); (1,14,1,18); (1,21,4,3); (1,23,4,1); (1,30,1,30); (1,30,1,30); (1,32,4,1); (2,1,3,2); (3,2,3,2)]%Z;
     ts_evals := []; ts_same := []; ts_decls := []; ts_parents := [] |}.
Example TooFewBranchesInSwitchStatement_ZeroBranch_holds : nth_violation (shippedRule sh_TooFewBranchesInSwitchStatement) TooFewBranchesInSwitchStatement_ZeroBranch 0 = Some (1, 23, 4, 1, $"")%Z.
Proof. vm_compute. reflexivity. Qed.

(** ** oclint-rules/test/convention/PreferEarlyExitRuleTest.cpp *)

Definition Loops_LoopWithShortIf : testcase :=
  {| ts_lang := LC; ts_path := $"input.c"; ts_code := [];
     ts_comments := []; ts_conf := [($"MAXIMUM_IF_LENGTH", $"3")];
     ts_tops := [(toplevel 0 (TFunction false), (Node 0 [] (FunctionDecl {| f_name := $"test"; f_method := None; f_isDefinition := true; f_bodyLines := (9)%Z |} [(Node 1 [] (VarDecl {| v_isParm := true; v_name := $"a"; v_used := true; v_referenced := true; v_local := false; v_staticMember := false; v_private := false; v_unusedAttr := false; v_defaultArg := false; v_canonicalType := $"int"; v_inTemplate := false; v_contexts := [CxFunction true true false] |} None))] (Some (Node 2 [] (CompoundStmt [(Node 3 [] (ForStmt (Some (Node 4 [] (DeclStmt [(Node 5 [] (VarDecl {| v_isParm := false; v_name := $"i"; v_used := true; v_referenced := true; v_local := true; v_staticMember := false; v_private := false; v_unusedAttr := false; v_defaultArg := false; v_canonicalType := $"int"; v_inTemplate := false; v_contexts := [CxFunction true true false] |} (Some (Node 6 [] (IntegerLiteral (0)%Z)))))]))) [] (Some (Node 7 [] (BinaryOperator BO_NE (Node 8 [] (ImplicitCastExpr CK_LValueToRValue (Node 9 [] (DeclRefExpr 5 $"i" false)))) (Node 10 [] (IntegerLiteral (5)%Z))))) (Some (Node 11 [] (UnaryOperator UO_Other (Node 12 [] (DeclRefExpr 5 $"i" false))))) (Node 13 [] (CompoundStmt [(Node 14 [] (IfStmt [] (Node 15 [] (ImplicitCastExpr CK_LValueToRValue (Node 16 [] (DeclRefExpr 1 $"a" false)))) (Node 17 [] (CompoundStmt [(Node 18 [] (BinaryOperator BO_CompoundAssign (Node 19 [] (DeclRefExpr 1 $"a" false)) (Node 20 [] (IntegerLiteral (2)%Z))))])) None))])))); (Node 21 [] (ReturnStmt (Some (Node 22 [] (ImplicitCastExpr CK_LValueToRValue (Node 23 [] (DeclRefExpr 1 $"a" false)))))))]))))))];
     ts_locs := [(1,1,9,1); (1,10,1,14); (1,17,9,1); (3,1,7,1); (3,6,3,15); (3,6,3,14); (3,14,3,14); (3,17,3,22); (3,17,3,17); (3,17,3,17); (3,22,3,22); (3,25,3,27); (3,27,3,27); (3,30,7,1); (4,1,6,1); (4,5,4,5); (4,5,4,5); (4,8,6,1); (5,1,5,6); (5,1,5,1); (5,6,5,6); (8,1,8,8); (8,8,8,8); (8,8,8,8)]%Z;
     ts_evals := []; ts_same := []; ts_decls := []; ts_parents := [] |}.
Example Loops_LoopWithShortIf_holds : sorted_violations_of (shippedRule sh_PreferEarlyExit) Loops_LoopWithShortIf = Some [].
Proof. vm_compute. reflexivity. Qed.

Definition Loops_LoopWithLongIf : testcase :=
  {| ts_lang := LC; ts_path := $"input.c"; ts_code := [];
     ts_comments := []; ts_conf := [($"MAXIMUM_IF_LENGTH", $"3")];
     ts_tops := [(toplevel 0 (TFunction false), (Node 0 [] (FunctionDecl {| f_name := $"test"; f_method := None; f_isDefinition := true; f_bodyLines := (10)%Z |} [(Node 1 [] (VarDecl {| v_isParm := true; v_name := $"a"; v_used := true; v_referenced := true; v_local := false; v_staticMember := false; v_private := false; v_unusedAttr := false; v_defaultArg := false; v_canonicalType := $"int"; v_inTemplate := false; v_contexts := [CxFunction true true false] |} None))] (Some (Node 2 [] (CompoundStmt [(Node 3 [] (ForStmt (Some (Node 4 [] (DeclStmt [(Node 5 [] (VarDecl {| v_isParm := false; v_name := $"i"; v_used := true; v_referenced := true; v_local := true; v_staticMember := false; v_private := false; v_unusedAttr := false; v_defaultArg := false; v_canonicalType := $"int"; v_inTemplate := false; v_contexts := [CxFunction true true false] |} (Some (Node 6 [] (IntegerLiteral (0)%Z)))))]))) [] (Some (Node 7 [] (BinaryOperator BO_NE (Node 8 [] (ImplicitCastExpr CK_LValueToRValue (Node 9 [] (DeclRefExpr 5 $"i" false)))) (Node 10 [] (IntegerLiteral (5)%Z))))) (Some (Node 11 [] (UnaryOperator UO_Other (Node 12 [] (DeclRefExpr 5 $"i" false))))) (Node 13 [] (CompoundStmt [(Node 14 [] (IfStmt [] (Node 15 [] (ImplicitCastExpr CK_LValueToRValue (Node 16 [] (DeclRefExpr 1 $"a" false)))) (Node 17 [] (CompoundStmt [(Node 18 [] (BinaryOperator BO_CompoundAssign (Node 19 [] (DeclRefExpr 1 $"a" false)) (Node 20 [] (IntegerLiteral (2)%Z)))); (Node 21 [] (BinaryOperator BO_CompoundAssign (Node 22 [] (DeclRefExpr 1 $"a" false)) (Node 23 [] (IntegerLiteral (2)%Z))))])) None))])))); (Node 24 [] (ReturnStmt (Some (Node 25 [] (ImplicitCastExpr CK_LValueToRValue (Node 26 [] (DeclRefExpr 1 $"a" false)))))))]))))))];
     ts_locs := [(1,1,10,1); (1,10,1,14); (1,17,10,1); (3,1,8,1); (3,6,3,15); (3,6,3,14); (3,14,3,14); (3,17,3,22); (3,17,3,17); (3,17,3,17); (3,22,3,22); (3,25,3,27); (3,27,3,27); (3,30,8,1); (4,1,7,1); (4,5,4,5); (4,5,4,5); (4,8,7,1); (5,1,5,6); (5,1,5,1); (5,6,5,6); (6,1,6,6); (6,1,6,1); (6,6,6,6); (9,1,9,8); (9,8,9,8); (9,8,9,8)]%Z;
     ts_evals := []; ts_same := []; ts_decls := []; ts_parents := [] |}.
Example Loops_LoopWithLongIf_holds : nth_violation (shippedRule sh_PreferEarlyExit) Loops_LoopWithLongIf 0 = Some (4, 1, 7, 1, $"Use early exit/continue to simplify code and reduce indentation")%Z.
Proof. vm_compute. reflexivity. Qed.

Definition Loops_LoopWithShortIf_2 : testcase :=
  {| ts_lang := LC; ts_path := $"input.c"; ts_code := [];
     ts_comments := []; ts_conf := [($"MAXIMUM_IF_LENGTH", $"3")];
     ts_tops := [(toplevel 0 (TFunction false), (Node 0 [] (FunctionDecl {| f_name := $"test"; f_method := None; f_isDefinition := true; f_bodyLines := (9)%Z |} [(Node 1 [] (VarDecl {| v_isParm := true; v_name := $"a"; v_used := true; v_referenced := true; v_local := false; v_staticMember := false; v_private := false; v_unusedAttr := false; v_defaultArg := false; v_canonicalType := $"int"; v_inTemplate := false; v_contexts := [CxFunction true true false] |} None))] (Some (Node 2 [] (CompoundStmt [(Node 3 [] (DeclStmt [(Node 4 [] (VarDecl {| v_isParm := false; v_name := $"i"; v_used := true; v_referenced := true; v_local := true; v_staticMember := false; v_private := false; v_unusedAttr := false; v_defaultArg := false; v_canonicalType := $"int"; v_inTemplate := false; v_contexts := [CxFunction true true false] |} (Some (Node 5 [] (IntegerLiteral (0)%Z)))))])); (Node 6 [] (DoStmt (Node 7 [] (CompoundStmt [(Node 8 [] (IfStmt [] (Node 9 [] (ImplicitCastExpr CK_LValueToRValue (Node 10 [] (DeclRefExpr 1 $"a" false)))) (Node 11 [] (CompoundStmt [(Node 12 [] (BinaryOperator BO_CompoundAssign (Node 13 [] (DeclRefExpr 1 $"a" false)) (Node 14 [] (IntegerLiteral (2)%Z))))])) None))])) (Node 15 [] (BinaryOperator BO_NE (Node 16 [] (UnaryOperator UO_Other (Node 17 [] (DeclRefExpr 4 $"i" false)))) (Node 18 [] (IntegerLiteral (5)%Z)))))); (Node 19 [] (ReturnStmt (Some (Node 20 [] (ImplicitCastExpr CK_LValueToRValue (Node 21 [] (DeclRefExpr 1 $"a" false)))))))]))))))];
     ts_locs := [(1,1,9,1); (1,10,1,14); (1,17,9,1); (2,1,2,10); (2,1,2,9); (2,9,2,9); (3,1,7,18); (3,4,7,1); (4,1,6,1); (4,5,4,5); (4,5,4,5); (4,8,6,1); (5,1,5,6); (5,1,5,1); (5,6,5,6); (7,10,7,17); (7,10,7,12); (7,12,7,12); (7,17,7,17); (8,1,8,8); (8,8,8,8); (8,8,8,8)]%Z;
     ts_evals := []; ts_same := []; ts_decls := []; ts_parents := [] |}.
Example Loops_LoopWithShortIf_2_holds : sorted_violations_of (shippedRule sh_PreferEarlyExit) Loops_LoopWithShortIf_2 = Some [].
Proof. vm_compute. reflexivity. Qed.

Definition Loops_LoopWithLongIf_2 : testcase :=
  {| ts_lang := LC; ts_path := $"input.c"; ts_code := [];
     ts_comments := []; ts_conf := [($"MAXIMUM_IF_LENGTH", $"3")];
     ts_tops := [(toplevel 0 (TFunction false), (Node 0 [] (FunctionDecl {| f_name := $"test"; f_method := None; f_isDefinition := true; f_bodyLines := (10)%Z |} [(Node 1 [] (VarDecl {| v_isParm := true; v_name := $"a"; v_used := true; v_referenced := true; v_local := false; v_staticMember := false; v_private := false; v_unusedAttr := false; v_defaultArg := false; v_canonicalType := $"int"; v_inTemplate := false; v_contexts := [CxFunction true true false] |} None))] (Some (Node 2 [] (CompoundStmt [(Node 3 [] (DeclStmt [(Node 4 [] (VarDecl {| v_isParm := false; v_name := $"i"; v_used := true; v_referenced := true; v_local := true; v_staticMember := false; v_private := false; v_unusedAttr := false; v_defaultArg := false; v_canonicalType := $"int"; v_inTemplate := false; v_contexts := [CxFunction true true false] |} (Some (Node 5 [] (IntegerLiteral (0)%Z)))))])); (Node 6 [] (DoStmt (Node 7 [] (CompoundStmt [(Node 8 [] (IfStmt [] (Node 9 [] (ImplicitCastExpr CK_LValueToRValue (Node 10 [] (DeclRefExpr 1 $"a" false)))) (Node 11 [] (CompoundStmt [(Node 12 [] (BinaryOperator BO_CompoundAssign (Node 13 [] (DeclRefExpr 1 $"a" false)) (Node 14 [] (IntegerLiteral (2)%Z)))); (Node 15 [] (BinaryOperator BO_CompoundAssign (Node 16 [] (DeclRefExpr 1 $"a" false)) (Node 17 [] (IntegerLiteral (2)%Z))))])) None))])) (Node 18 [] (BinaryOperator BO_NE (Node 19 [] (UnaryOperator UO_Other (Node 20 [] (DeclRefExpr 4 $"i" false)))) (Node 21 [] (IntegerLiteral (5)%Z)))))); (Node 22 [] (ReturnStmt (Some (Node 23 [] (ImplicitCastExpr CK_LValueToRValue (Node 24 [] (DeclRefExpr 1 $"a" false)))))))]))))))];
     ts_locs := [(1,1,10,1); (1,10,1,14); (1,17,10,1); (2,1,2,10); (2,1,2,9); (2,9,2,9); (3,1,8,18); (3,4,8,1); (4,1,7,1); (4,5,4,5); (4,5,4,5); (4,8,7,1); (5,1,5,6); (5,1,5,1); (5,6,5,6); (6,1,6,6); (6,1,6,1); (6,6,6,6); (8,10,8,17); (8,10,8,12); (8,12,8,12); (8,17,8,17); (9,1,9,8); (9,8,9,8); (9,8,9,8)]%Z;
     ts_evals := []; ts_same := []; ts_decls := []; ts_parents := [] |}.
Example Loops_LoopWithLongIf_2_holds : nth_violation (shippedRule sh_PreferEarlyExit) Loops_LoopWithLongIf_2 0 = Some (4, 1, 7, 1, $"Use early exit/continue to simplify code and reduce indentation")%Z.
Proof. vm_compute. reflexivity. Qed.

Definition Loops_LoopWithShortIf_3 : testcase :=
  {| ts_lang := LC; ts_path := $"input.c"; ts_code := [];
     ts_comments := []; ts_conf := [($"MAXIMUM_IF_LENGTH", $"3")];
     ts_tops := [(toplevel 0 (TFunction false), (Node 0 [] (FunctionDecl {| f_name := $"test"; f_method := None; f_isDefinition := true; f_bodyLines := (9)%Z |} [(Node 1 [] (VarDecl {| v_isParm := true; v_name := $"a"; v_used := true; v_referenced := true; v_local := false; v_staticMember := false; v_private := false; v_unusedAttr := false; v_defaultArg := false; v_canonicalType := $"int"; v_inTemplate := false; v_contexts := [CxFunction true true false] |} None))] (Some (Node 2 [] (CompoundStmt [(Node 3 [] (DeclStmt [(Node 4 [] (VarDecl {| v_isParm := false; v_name := $"i"; v_used := true; v_referenced := true; v_local := true; v_staticMember := false; v_private := false; v_unusedAttr := false; v_defaultArg := false; v_canonicalType := $"int"; v_inTemplate := false; v_contexts := [CxFunction true true false] |} (Some (Node 5 [] (IntegerLiteral (0)%Z)))))])); (Node 6 [] (WhileStmt [] (Node 7 [] (BinaryOperator BO_NE (Node 8 [] (UnaryOperator UO_Other (Node 9 [] (DeclRefExpr 4 $"i" false)))) (Node 10 [] (IntegerLiteral (5)%Z)))) (Node 11 [] (CompoundStmt [(Node 12 [] (IfStmt [] (Node 13 [] (ImplicitCastExpr CK_LValueToRValue (Node 14 [] (DeclRefExpr 1 $"a" false)))) (Node 15 [] (CompoundStmt [(Node 16 [] (BinaryOperator BO_CompoundAssign (Node 17 [] (DeclRefExpr 1 $"a" false)) (Node 18 [] (IntegerLiteral (2)%Z))))])) None))])))); (Node 19 [] (ReturnStmt (Some (Node 20 [] (ImplicitCastExpr CK_LValueToRValue (Node 21 [] (DeclRefExpr 1 $"a" false)))))))]))))))];
     ts_locs := [(1,1,9,1); (1,10,1,14); (1,17,9,1); (2,1,2,10); (2,1,2,9); (2,9,2,9); (3,1,7,1); (3,8,3,15); (3,8,3,9); (3,8,3,8); (3,15,3,15); (3,18,7,1); (4,1,6,1); (4,5,4,5); (4,5,4,5); (4,8,6,1); (5,1,5,6); (5,1,5,1); (5,6,5,6); (8,1,8,8); (8,8,8,8); (8,8,8,8)]%Z;
     ts_evals := []; ts_same := []; ts_decls := []; ts_parents := [] |}.
Example Loops_LoopWithShortIf_3_holds : sorted_violations_of (shippedRule sh_PreferEarlyExit) Loops_LoopWithShortIf_3 = Some [].
Proof. vm_compute. reflexivity. Qed.

Definition Loops_LoopWithLongIf_3 : testcase :=
  {| ts_lang := LC; ts_path := $"input.c"; ts_code := [];
     ts_comments := []; ts_conf := [($"MAXIMUM_IF_LENGTH", $"3")];
     ts_tops := [(toplevel 0 (TFunction false), (Node 0 [] (FunctionDecl {| f_name := $"test"; f_method := None; f_isDefinition := true; f_bodyLines := (10)%Z |} [(Node 1 [] (VarDecl {| v_isParm := true; v_name := $"a"; v_used := true; v_referenced := true; v_local := false; v_staticMember := false; v_private := false; v_unusedAttr := false; v_defaultArg := false; v_canonicalType := $"int"; v_inTemplate := false; v_contexts := [CxFunction true true false] |} None))] (Some (Node 2 [] (CompoundStmt [(Node 3 [] (DeclStmt [(Node 4 [] (VarDecl {| v_isParm := false; v_name := $"i"; v_used := true; v_referenced := true; v_local := true; v_staticMember := false; v_private := false; v_unusedAttr := false; v_defaultArg := false; v_canonicalType := $"int"; v_inTemplate := false; v_contexts := [CxFunction true true false] |} (Some (Node 5 [] (IntegerLiteral (0)%Z)))))])); (Node 6 [] (WhileStmt [] (Node 7 [] (BinaryOperator BO_NE (Node 8 [] (UnaryOperator UO_Other (Node 9 [] (DeclRefExpr 4 $"i" false)))) (Node 10 [] (IntegerLiteral (5)%Z)))) (Node 11 [] (CompoundStmt [(Node 12 [] (IfStmt [] (Node 13 [] (ImplicitCastExpr CK_LValueToRValue (Node 14 [] (DeclRefExpr 1 $"a" false)))) (Node 15 [] (CompoundStmt [(Node 16 [] (BinaryOperator BO_CompoundAssign (Node 17 [] (DeclRefExpr 1 $"a" false)) (Node 18 [] (IntegerLiteral (2)%Z)))); (Node 19 [] (BinaryOperator BO_CompoundAssign (Node 20 [] (DeclRefExpr 1 $"a" false)) (Node 21 [] (IntegerLiteral (2)%Z))))])) None))])))); (Node 22 [] (ReturnStmt (Some (Node 23 [] (ImplicitCastExpr CK_LValueToRValue (Node 24 [] (DeclRefExpr 1 $"a" false)))))))]))))))];
     ts_locs := [(1,1,10,1); (1,10,1,14); (1,17,10,1); (2,1,2,10); (2,1,2,9); (2,9,2,9); (3,1,8,1); (3,8,3,15); (3,8,3,9); (3,8,3,8); (3,15,3,15); (3,18,8,1); (4,1,7,1); (4,5,4,5); (4,5,4,5); (4,8,7,1); (5,1,5,6); (5,1,5,1); (5,6,5,6); (6,1,6,6); (6,1,6,1); (6,6,6,6); (9,1,9,8); (9,8,9,8); (9,8,9,8)]%Z;
     ts_evals := []; ts_same := []; ts_decls := []; ts_parents := [] |}.
Example Loops_LoopWithLongIf_3_holds : nth_violation (shippedRule sh_PreferEarlyExit) Loops_LoopWithLongIf_3 0 = Some (4, 1, 7, 1, $"Use early exit/continue to simplify code and reduce indentation")%Z.
Proof. vm_compute. reflexivity. Qed.

Definition FlowControlStatements_FunctionWithShortIf : testcase :=
  {| ts_lang := LC; ts_path := $"input.c"; ts_code := [];
     ts_comments := []; ts_conf := [($"MAXIMUM_IF_LENGTH", $"3")];
     ts_tops := [(toplevel 0 (TFunction false), (Node 0 [] (FunctionDecl {| f_name := $"test"; f_method := None; f_isDefinition := true; f_bodyLines := (11)%Z |} [(Node 1 [] (VarDecl {| v_isParm := true; v_name := $"a"; v_used := true; v_referenced := true; v_local := false; v_staticMember := false; v_private := false; v_unusedAttr := false; v_defaultArg := false; v_canonicalType := $"int"; v_inTemplate := false; v_contexts := [CxFunction true true false] |} None))] (Some (Node 2 [] (CompoundStmt [(Node 3 [] (DeclStmt [(Node 4 [] (VarDecl {| v_isParm := false; v_name := $"label_ptr"; v_used := false; v_referenced := false; v_local := true; v_staticMember := false; v_private := false; v_unusedAttr := false; v_defaultArg := false; v_canonicalType := $"const void *"; v_inTemplate := false; v_contexts := [CxFunction true true false] |} (Some (Node 5 [] (ImplicitCastExpr CK_Other (Node 6 [] (OtherExpr [])))))))])); (Node 7 [] (LabelStmt $"LABEL" (Node 8 [] (ForStmt None [] None None (Node 9 [] (CompoundStmt [(Node 10 [] (DeclStmt [(Node 11 [] (VarDecl {| v_isParm := false; v_name := $"i"; v_used := true; v_referenced := true; v_local := true; v_staticMember := false; v_private := false; v_unusedAttr := false; v_defaultArg := false; v_canonicalType := $"int"; v_inTemplate := false; v_contexts := [CxFunction true true false] |} (Some (Node 12 [] (IntegerLiteral (2)%Z)))))])); (Node 13 [] (IfStmt [] (Node 14 [] (ImplicitCastExpr CK_LValueToRValue (Node 15 [] (DeclRefExpr 1 $"a" false)))) (Node 16 [] (CompoundStmt [(Node 17 [] (BinaryOperator BO_CompoundAssign (Node 18 [] (DeclRefExpr 11 $"i" false)) (Node 19 [] (IntegerLiteral (2)%Z))))])) None)); (Node 20 [] BreakStmt)]))))))]))))))];
     ts_locs := [(1,1,11,1); (1,10,1,14); (1,17,11,1); (2,1,2,32); (2,1,2,27); (2,25,2,27); (2,25,2,27); (3,1,10,1); (4,1,10,1); (4,10,10,1); (5,3,5,12); (5,3,5,11); (5,11,5,11); (6,3,8,3); (6,7,6,7); (6,7,6,7); (6,10,8,3); (7,1,7,6); (7,1,7,1); (7,6,7,6); (9,1,9,1)]%Z;
     ts_evals := []; ts_same := []; ts_decls := []; ts_parents := [] |}.
Example FlowControlStatements_FunctionWithShortIf_holds : sorted_violations_of (shippedRule sh_PreferEarlyExit) FlowControlStatements_FunctionWithShortIf = Some [].
Proof. vm_compute. reflexivity. Qed.

Definition FlowControlStatements_FunctionWithLongIf : testcase :=
  {| ts_lang := LC; ts_path := $"input.c"; ts_code := [];
     ts_comments := []; ts_conf := [($"MAXIMUM_IF_LENGTH", $"3")];
     ts_tops := [(toplevel 0 (TFunction false), (Node 0 [] (FunctionDecl {| f_name := $"test"; f_method := None; f_isDefinition := true; f_bodyLines := (12)%Z |} [(Node 1 [] (VarDecl {| v_isParm := true; v_name := $"a"; v_used := true; v_referenced := true; v_local := false; v_staticMember := false; v_private := false; v_unusedAttr := false; v_defaultArg := false; v_canonicalType := $"int"; v_inTemplate := false; v_contexts := [CxFunction true true false] |} None))] (Some (Node 2 [] (CompoundStmt [(Node 3 [] (DeclStmt [(Node 4 [] (VarDecl {| v_isParm := false; v_name := $"label_ptr"; v_used := false; v_referenced := false; v_local := true; v_staticMember := false; v_private := false; v_unusedAttr := false; v_defaultArg := false; v_canonicalType := $"const void *"; v_inTemplate := false; v_contexts := [CxFunction true true false] |} (Some (Node 5 [] (ImplicitCastExpr CK_Other (Node 6 [] (OtherExpr [])))))))])); (Node 7 [] (LabelStmt $"LABEL" (Node 8 [] (ForStmt None [] None None (Node 9 [] (CompoundStmt [(Node 10 [] (DeclStmt [(Node 11 [] (VarDecl {| v_isParm := false; v_name := $"i"; v_used := true; v_referenced := true; v_local := true; v_staticMember := false; v_private := false; v_unusedAttr := false; v_defaultArg := false; v_canonicalType := $"int"; v_inTemplate := false; v_contexts := [CxFunction true true false] |} (Some (Node 12 [] (IntegerLiteral (2)%Z)))))])); (Node 13 [] (IfStmt [] (Node 14 [] (ImplicitCastExpr CK_LValueToRValue (Node 15 [] (DeclRefExpr 1 $"a" false)))) (Node 16 [] (CompoundStmt [(Node 17 [] (BinaryOperator BO_CompoundAssign (Node 18 [] (DeclRefExpr 11 $"i" false)) (Node 19 [] (IntegerLiteral (2)%Z)))); (Node 20 [] (BinaryOperator BO_CompoundAssign (Node 21 [] (DeclRefExpr 11 $"i" false)) (Node 22 [] (IntegerLiteral (2)%Z))))])) None)); (Node 23 [] BreakStmt)]))))))]))))))];
     ts_locs := [(1,1,12,1); (1,10,1,14); (1,17,12,1); (2,1,2,32); (2,1,2,27); (2,25,2,27); (2,25,2,27); (3,1,11,1); (4,1,11,1); (4,10,11,1); (5,3,5,12); (5,3,5,11); (5,11,5,11); (6,3,9,3); (6,7,6,7); (6,7,6,7); (6,10,9,3); (7,1,7,6); (7,1,7,1); (7,6,7,6); (8,1,8,6); (8,1,8,1); (8,6,8,6); (10,1,10,1)]%Z;
     ts_evals := []; ts_same := []; ts_decls := []; ts_parents := [] |}.
Example FlowControlStatements_FunctionWithLongIf_holds : nth_violation (shippedRule sh_PreferEarlyExit) FlowControlStatements_FunctionWithLongIf 0 = Some (6, 3, 9, 3, $"Use early exit/continue to simplify code and reduce indentation")%Z.
Proof. vm_compute. reflexivity. Qed.

Definition FlowControlStatements_FunctionWithShortIf_2 : testcase :=
  {| ts_lang := LC; ts_path := $"input.c"; ts_code := [];
     ts_comments := []; ts_conf := [($"MAXIMUM_IF_LENGTH", $"3")];
     ts_tops := [(toplevel 0 (TFunction false), (Node 0 [] (FunctionDecl {| f_name := $"test"; f_method := None; f_isDefinition := true; f_bodyLines := (11)%Z |} [(Node 1 [] (VarDecl {| v_isParm := true; v_name := $"a"; v_used := true; v_referenced := true; v_local := false; v_staticMember := false; v_private := false; v_unusedAttr := false; v_defaultArg := false; v_canonicalType := $"int"; v_inTemplate := false; v_contexts := [CxFunction true true false] |} None))] (Some (Node 2 [] (CompoundStmt [(Node 3 [] (DeclStmt [(Node 4 [] (VarDecl {| v_isParm := false; v_name := $"label_ptr"; v_used := false; v_referenced := false; v_local := true; v_staticMember := false; v_private := false; v_unusedAttr := false; v_defaultArg := false; v_canonicalType := $"const void *"; v_inTemplate := false; v_contexts := [CxFunction true true false] |} (Some (Node 5 [] (ImplicitCastExpr CK_Other (Node 6 [] (OtherExpr [])))))))])); (Node 7 [] (LabelStmt $"LABEL" (Node 8 [] (ForStmt None [] None None (Node 9 [] (CompoundStmt [(Node 10 [] (DeclStmt [(Node 11 [] (VarDecl {| v_isParm := false; v_name := $"i"; v_used := true; v_referenced := true; v_local := true; v_staticMember := false; v_private := false; v_unusedAttr := false; v_defaultArg := false; v_canonicalType := $"int"; v_inTemplate := false; v_contexts := [CxFunction true true false] |} (Some (Node 12 [] (IntegerLiteral (2)%Z)))))])); (Node 13 [] (IfStmt [] (Node 14 [] (ImplicitCastExpr CK_LValueToRValue (Node 15 [] (DeclRefExpr 1 $"a" false)))) (Node 16 [] (CompoundStmt [(Node 17 [] (BinaryOperator BO_CompoundAssign (Node 18 [] (DeclRefExpr 11 $"i" false)) (Node 19 [] (IntegerLiteral (2)%Z))))])) None)); (Node 20 [] ContinueStmt)]))))))]))))))];
     ts_locs := [(1,1,11,1); (1,10,1,14); (1,17,11,1); (2,1,2,32); (2,1,2,27); (2,25,2,27); (2,25,2,27); (3,1,10,1); (4,1,10,1); (4,10,10,1); (5,3,5,12); (5,3,5,11); (5,11,5,11); (6,3,8,3); (6,7,6,7); (6,7,6,7); (6,10,8,3); (7,1,7,6); (7,1,7,1); (7,6,7,6); (9,1,9,1)]%Z;
     ts_evals := []; ts_same := []; ts_decls := []; ts_parents := [] |}.
Example FlowControlStatements_FunctionWithShortIf_2_holds : sorted_violations_of (shippedRule sh_PreferEarlyExit) FlowControlStatements_FunctionWithShortIf_2 = Some [].
Proof. vm_compute. reflexivity. Qed.

Definition FlowControlStatements_FunctionWithLongIf_2 : testcase :=
  {| ts_lang := LC; ts_path := $"input.c"; ts_code := [];
     ts_comments := []; ts_conf := [($"MAXIMUM_IF_LENGTH", $"3")];
     ts_tops := [(toplevel 0 (TFunction false), (Node 0 [] (FunctionDecl {| f_name := $"test"; f_method := None; f_isDefinition := true; f_bodyLines := (12)%Z |} [(Node 1 [] (VarDecl {| v_isParm := true; v_name := $"a"; v_used := true; v_referenced := true; v_local := false; v_staticMember := false; v_private := false; v_unusedAttr := false; v_defaultArg := false; v_canonicalType := $"int"; v_inTemplate := false; v_contexts := [CxFunction true true false] |} None))] (Some (Node 2 [] (CompoundStmt [(Node 3 [] (DeclStmt [(Node 4 [] (VarDecl {| v_isParm := false; v_name := $"label_ptr"; v_used := false; v_referenced := false; v_local := true; v_staticMember := false; v_private := false; v_unusedAttr := false; v_defaultArg := false; v_canonicalType := $"const void *"; v_inTemplate := false; v_contexts := [CxFunction true true false] |} (Some (Node 5 [] (ImplicitCastExpr CK_Other (Node 6 [] (OtherExpr [])))))))])); (Node 7 [] (LabelStmt $"LABEL" (Node 8 [] (ForStmt None [] None None (Node 9 [] (CompoundStmt [(Node 10 [] (DeclStmt [(Node 11 [] (VarDecl {| v_isParm := false; v_name := $"i"; v_used := true; v_referenced := true; v_local := true; v_staticMember := false; v_private := false; v_unusedAttr := false; v_defaultArg := false; v_canonicalType := $"int"; v_inTemplate := false; v_contexts := [CxFunction true true false] |} (Some (Node 12 [] (IntegerLiteral (2)%Z)))))])); (Node 13 [] (IfStmt [] (Node 14 [] (ImplicitCastExpr CK_LValueToRValue (Node 15 [] (DeclRefExpr 1 $"a" false)))) (Node 16 [] (CompoundStmt [(Node 17 [] (BinaryOperator BO_CompoundAssign (Node 18 [] (DeclRefExpr 11 $"i" false)) (Node 19 [] (IntegerLiteral (2)%Z)))); (Node 20 [] (BinaryOperator BO_CompoundAssign (Node 21 [] (DeclRefExpr 11 $"i" false)) (Node 22 [] (IntegerLiteral (2)%Z))))])) None)); (Node 23 [] ContinueStmt)]))))))]))))))];
     ts_locs := [(1,1,12,1); (1,10,1,14); (1,17,12,1); (2,1,2,32); (2,1,2,27); (2,25,2,27); (2,25,2,27); (3,1,11,1); (4,1,11,1); (4,10,11,1); (5,3,5,12); (5,3,5,11); (5,11,5,11); (6,3,9,3); (6,7,6,7); (6,7,6,7); (6,10,9,3); (7,1,7,6); (7,1,7,1); (7,6,7,6); (8,1,8,6); (8,1,8,1); (8,6,8,6); (10,1,10,1)]%Z;
     ts_evals := []; ts_same := []; ts_decls := []; ts_parents := [] |}.
Example FlowControlStatements_FunctionWithLongIf_2_holds : nth_violation (shippedRule sh_PreferEarlyExit) FlowControlStatements_FunctionWithLongIf_2 0 = Some (6, 3, 9, 3, $"Use early exit/continue to simplify code and reduce indentation")%Z.
Proof. vm_compute. reflexivity. Qed.

Definition FlowControlStatements_FunctionWithShortIf_3 : testcase :=
  {| ts_lang := LC; ts_path := $"input.c"; ts_code := [];
     ts_comments := []; ts_conf := [($"MAXIMUM_IF_LENGTH", $"3")];
     ts_tops := [(toplevel 0 (TFunction false), (Node 0 [] (FunctionDecl {| f_name := $"test"; f_method := None; f_isDefinition := true; f_bodyLines := (11)%Z |} [(Node 1 [] (VarDecl {| v_isParm := true; v_name := $"a"; v_used := true; v_referenced := true; v_local := false; v_staticMember := false; v_private := false; v_unusedAttr := false; v_defaultArg := false; v_canonicalType := $"int"; v_inTemplate := false; v_contexts := [CxFunction true true false] |} None))] (Some (Node 2 [] (CompoundStmt [(Node 3 [] (DeclStmt [(Node 4 [] (VarDecl {| v_isParm := false; v_name := $"label_ptr"; v_used := false; v_referenced := false; v_local := true; v_staticMember := false; v_private := false; v_unusedAttr := false; v_defaultArg := false; v_canonicalType := $"const void *"; v_inTemplate := false; v_contexts := [CxFunction true true false] |} (Some (Node 5 [] (ImplicitCastExpr CK_Other (Node 6 [] (OtherExpr [])))))))])); (Node 7 [] (LabelStmt $"LABEL" (Node 8 [] (ForStmt None [] None None (Node 9 [] (CompoundStmt [(Node 10 [] (DeclStmt [(Node 11 [] (VarDecl {| v_isParm := false; v_name := $"i"; v_used := true; v_referenced := true; v_local := true; v_staticMember := false; v_private := false; v_unusedAttr := false; v_defaultArg := false; v_canonicalType := $"int"; v_inTemplate := false; v_contexts := [CxFunction true true false] |} (Some (Node 12 [] (IntegerLiteral (2)%Z)))))])); (Node 13 [] (IfStmt [] (Node 14 [] (ImplicitCastExpr CK_LValueToRValue (Node 15 [] (DeclRefExpr 1 $"a" false)))) (Node 16 [] (CompoundStmt [(Node 17 [] (BinaryOperator BO_CompoundAssign (Node 18 [] (DeclRefExpr 11 $"i" false)) (Node 19 [] (IntegerLiteral (2)%Z))))])) None)); (Node 20 [] (GotoStmt $"LABEL"))]))))))]))))))];
     ts_locs := [(1,1,11,1); (1,10,1,14); (1,17,11,1); (2,1,2,32); (2,1,2,27); (2,25,2,27); (2,25,2,27); (3,1,10,1); (4,1,10,1); (4,10,10,1); (5,3,5,12); (5,3,5,11); (5,11,5,11); (6,3,8,3); (6,7,6,7); (6,7,6,7); (6,10,8,3); (7,1,7,6); (7,1,7,1); (7,6,7,6); (9,1,9,6)]%Z;
     ts_evals := []; ts_same := []; ts_decls := []; ts_parents := [] |}.
Example FlowControlStatements_FunctionWithShortIf_3_holds : sorted_violations_of (shippedRule sh_PreferEarlyExit) FlowControlStatements_FunctionWithShortIf_3 = Some [].
Proof. vm_compute. reflexivity. Qed.

Definition FlowControlStatements_FunctionWithLongIf_3 : testcase :=
  {| ts_lang := LC; ts_path := $"input.c"; ts_code := [];
     ts_comments := []; ts_conf := [($"MAXIMUM_IF_LENGTH", $"3")];
     ts_tops := [(toplevel 0 (TFunction false), (Node 0 [] (FunctionDecl {| f_name := $"test"; f_method := None; f_isDefinition := true; f_bodyLines := (12)%Z |} [(Node 1 [] (VarDecl {| v_isParm := true; v_name := $"a"; v_used := true; v_referenced := true; v_local := false; v_staticMember := false; v_private := false; v_unusedAttr := false; v_defaultArg := false; v_canonicalType := $"int"; v_inTemplate := false; v_contexts := [CxFunction true true false] |} None))] (Some (Node 2 [] (CompoundStmt [(Node 3 [] (DeclStmt [(Node 4 [] (VarDecl {| v_isParm := false; v_name := $"label_ptr"; v_used := false; v_referenced := false; v_local := true; v_staticMember := false; v_private := false; v_unusedAttr := false; v_defaultArg := false; v_canonicalType := $"const void *"; v_inTemplate := false; v_contexts := [CxFunction true true false] |} (Some (Node 5 [] (ImplicitCastExpr CK_Other (Node 6 [] (OtherExpr [])))))))])); (Node 7 [] (LabelStmt $"LABEL" (Node 8 [] (ForStmt None [] None None (Node 9 [] (CompoundStmt [(Node 10 [] (DeclStmt [(Node 11 [] (VarDecl {| v_isParm := false; v_name := $"i"; v_used := true; v_referenced := true; v_local := true; v_staticMember := false; v_private := false; v_unusedAttr := false; v_defaultArg := false; v_canonicalType := $"int"; v_inTemplate := false; v_contexts := [CxFunction true true false] |} (Some (Node 12 [] (IntegerLiteral (2)%Z)))))])); (Node 13 [] (IfStmt [] (Node 14 [] (ImplicitCastExpr CK_LValueToRValue (Node 15 [] (DeclRefExpr 1 $"a" false)))) (Node 16 [] (CompoundStmt [(Node 17 [] (BinaryOperator BO_CompoundAssign (Node 18 [] (DeclRefExpr 11 $"i" false)) (Node 19 [] (IntegerLiteral (2)%Z)))); (Node 20 [] (BinaryOperator BO_CompoundAssign (Node 21 [] (DeclRefExpr 11 $"i" false)) (Node 22 [] (IntegerLiteral (2)%Z))))])) None)); (Node 23 [] (GotoStmt $"LABEL"))]))))))]))))))];
     ts_locs := [(1,1,12,1); (1,10,1,14); (1,17,12,1); (2,1,2,32); (2,1,2,27); (2,25,2,27); (2,25,2,27); (3,1,11,1); (4,1,11,1); (4,10,11,1); (5,3,5,12); (5,3,5,11); (5,11,5,11); (6,3,9,3); (6,7,6,7); (6,7,6,7); (6,10,9,3); (7,1,7,6); (7,1,7,1); (7,6,7,6); (8,1,8,6); (8,1,8,1); (8,6,8,6); (10,1,10,6)]%Z;
     ts_evals := []; ts_same := []; ts_decls := []; ts_parents := [] |}.
Example FlowControlStatements_FunctionWithLongIf_3_holds : nth_violation (shippedRule sh_PreferEarlyExit) FlowControlStatements_FunctionWithLongIf_3 0 = Some (6, 3, 9, 3, $"Use early exit/continue to simplify code and reduce indentation")%Z.
Proof. vm_compute. reflexivity. Qed.

Definition FlowControlStatements_FunctionWithShortIf_4 : testcase :=
  {| ts_lang := LC; ts_path := $"input.c"; ts_code := [];
     ts_comments := []; ts_conf := [($"MAXIMUM_IF_LENGTH", $"3")];
     ts_tops := [(toplevel 0 (TFunction false), (Node 0 [] (FunctionDecl {| f_name := $"test"; f_method := None; f_isDefinition := true; f_bodyLines := (11)%Z |} [(Node 1 [] (VarDecl {| v_isParm := true; v_name := $"a"; v_used := true; v_referenced := true; v_local := false; v_staticMember := false; v_private := false; v_unusedAttr := false; v_defaultArg := false; v_canonicalType := $"int"; v_inTemplate := false; v_contexts := [CxFunction true true false] |} None))] (Some (Node 2 [] (CompoundStmt [(Node 3 [] (DeclStmt [(Node 4 [] (VarDecl {| v_isParm := false; v_name := $"label_ptr"; v_used := true; v_referenced := true; v_local := true; v_staticMember := false; v_private := false; v_unusedAttr := false; v_defaultArg := false; v_canonicalType := $"const void *"; v_inTemplate := false; v_contexts := [CxFunction true true false] |} (Some (Node 5 [] (ImplicitCastExpr CK_Other (Node 6 [] (OtherExpr [])))))))])); (Node 7 [] (LabelStmt $"LABEL" (Node 8 [] (ForStmt None [] None None (Node 9 [] (CompoundStmt [(Node 10 [] (DeclStmt [(Node 11 [] (VarDecl {| v_isParm := false; v_name := $"i"; v_used := true; v_referenced := true; v_local := true; v_staticMember := false; v_private := false; v_unusedAttr := false; v_defaultArg := false; v_canonicalType := $"int"; v_inTemplate := false; v_contexts := [CxFunction true true false] |} (Some (Node 12 [] (IntegerLiteral (2)%Z)))))])); (Node 13 [] (IfStmt [] (Node 14 [] (ImplicitCastExpr CK_LValueToRValue (Node 15 [] (DeclRefExpr 1 $"a" false)))) (Node 16 [] (CompoundStmt [(Node 17 [] (BinaryOperator BO_CompoundAssign (Node 18 [] (DeclRefExpr 11 $"i" false)) (Node 19 [] (IntegerLiteral (2)%Z))))])) None)); (Node 20 [] (IndirectGotoStmt (Node 21 [] (ImplicitCastExpr CK_LValueToRValue (Node 22 [] (DeclRefExpr 4 $"label_ptr" false))))))]))))))]))))))];
     ts_locs := [(1,1,11,1); (1,10,1,14); (1,17,11,1); (2,1,2,32); (2,1,2,27); (2,25,2,27); (2,25,2,27); (3,1,10,1); (4,1,10,1); (4,10,10,1); (5,3,5,12); (5,3,5,11); (5,11,5,11); (6,3,8,3); (6,7,6,7); (6,7,6,7); (6,10,8,3); (7,1,7,6); (7,1,7,1); (7,6,7,6); (9,1,9,7); (9,7,9,7); (9,7,9,7)]%Z;
     ts_evals := []; ts_same := []; ts_decls := []; ts_parents := [] |}.
Example FlowControlStatements_FunctionWithShortIf_4_holds : sorted_violations_of (shippedRule sh_PreferEarlyExit) FlowControlStatements_FunctionWithShortIf_4 = Some [].
Proof. vm_compute. reflexivity. Qed.

Definition FlowControlStatements_FunctionWithLongIf_4 : testcase :=
  {| ts_lang := LC; ts_path := $"input.c"; ts_code := [];
     ts_comments := []; ts_conf := [($"MAXIMUM_IF_LENGTH", $"3")];
     ts_tops := [(toplevel 0 (TFunction false), (Node 0 [] (FunctionDecl {| f_name := $"test"; f_method := None; f_isDefinition := true; f_bodyLines := (12)%Z |} [(Node 1 [] (VarDecl {| v_isParm := true; v_name := $"a"; v_used := true; v_referenced := true; v_local := false; v_staticMember := false; v_private := false; v_unusedAttr := false; v_defaultArg := false; v_canonicalType := $"int"; v_inTemplate := false; v_contexts := [CxFunction true true false] |} None))] (Some (Node 2 [] (CompoundStmt [(Node 3 [] (DeclStmt [(Node 4 [] (VarDecl {| v_isParm := false; v_name := $"label_ptr"; v_used := true; v_referenced := true; v_local := true; v_staticMember := false; v_private := false; v_unusedAttr := false; v_defaultArg := false; v_canonicalType := $"const void *"; v_inTemplate := false; v_contexts := [CxFunction true true false] |} (Some (Node 5 [] (ImplicitCastExpr CK_Other (Node 6 [] (OtherExpr [])))))))])); (Node 7 [] (LabelStmt $"LABEL" (Node 8 [] (ForStmt None [] None None (Node 9 [] (CompoundStmt [(Node 10 [] (DeclStmt [(Node 11 [] (VarDecl {| v_isParm := false; v_name := $"i"; v_used := true; v_referenced := true; v_local := true; v_staticMember := false; v_private := false; v_unusedAttr := false; v_defaultArg := false; v_canonicalType := $"int"; v_inTemplate := false; v_contexts := [CxFunction true true false] |} (Some (Node 12 [] (IntegerLiteral (2)%Z)))))])); (Node 13 [] (IfStmt [] (Node 14 [] (ImplicitCastExpr CK_LValueToRValue (Node 15 [] (DeclRefExpr 1 $"a" false)))) (Node 16 [] (CompoundStmt [(Node 17 [] (BinaryOperator BO_CompoundAssign (Node 18 [] (DeclRefExpr 11 $"i" false)) (Node 19 [] (IntegerLiteral (2)%Z)))); (Node 20 [] (BinaryOperator BO_CompoundAssign (Node 21 [] (DeclRefExpr 11 $"i" false)) (Node 22 [] (IntegerLiteral (2)%Z))))])) None)); (Node 23 [] (IndirectGotoStmt (Node 24 [] (ImplicitCastExpr CK_LValueToRValue (Node 25 [] (DeclRefExpr 4 $"label_ptr" false))))))]))))))]))))))];
     ts_locs := [(1,1,12,1); (1,10,1,14); (1,17,12,1); (2,1,2,32); (2,1,2,27); (2,25,2,27); (2,25,2,27); (3,1,11,1); (4,1,11,1); (4,10,11,1); (5,3,5,12); (5,3,5,11); (5,11,5,11); (6,3,9,3); (6,7,6,7); (6,7,6,7); (6,10,9,3); (7,1,7,6); (7,1,7,1); (7,6,7,6); (8,1,8,6); (8,1,8,1); (8,6,8,6); (10,1,10,7); (10,7,10,7); (10,7,10,7)]%Z;
     ts_evals := []; ts_same := []; ts_decls := []; ts_parents := [] |}.
Example FlowControlStatements_FunctionWithLongIf_4_holds : nth_violation (shippedRule sh_PreferEarlyExit) FlowControlStatements_FunctionWithLongIf_4 0 = Some (6, 3, 9, 3, $"Use early exit/continue to simplify code and reduce indentation")%Z.
Proof. vm_compute. reflexivity. Qed.

Definition PreferEarlyExit_LongIfAndReturnInsideBlock : testcase :=
  {| ts_lang := LC; ts_path := $"input.c"; ts_code := [];
     ts_comments := []; ts_conf := [($"MAXIMUM_IF_LENGTH", $"3")];
     ts_tops := [(toplevel 0 (TFunction false), (Node 0 [] (FunctionDecl {| f_name := $"test"; f_method := None; f_isDefinition := true; f_bodyLines := (8)%Z |} [(Node 1 [] (VarDecl {| v_isParm := true; v_name := $"a"; v_used := true; v_referenced := true; v_local := false; v_staticMember := false; v_private := false; v_unusedAttr := false; v_defaultArg := false; v_canonicalType := $"int"; v_inTemplate := false; v_contexts := [CxFunction true true false] |} None))] (Some (Node 2 [] (CompoundStmt [(Node 3 [] (DeclStmt [(Node 4 [] (VarDecl {| v_isParm := false; v_name := $"i"; v_used := true; v_referenced := true; v_local := true; v_staticMember := false; v_private := false; v_unusedAttr := false; v_defaultArg := false; v_canonicalType := $"int"; v_inTemplate := false; v_contexts := [CxFunction true true false] |} (Some (Node 5 [] (IntegerLiteral (2)%Z)))))])); (Node 6 [] (IfStmt [] (Node 7 [] (ImplicitCastExpr CK_LValueToRValue (Node 8 [] (DeclRefExpr 1 $"a" false)))) (Node 9 [] (CompoundStmt [(Node 10 [] (BinaryOperator BO_CompoundAssign (Node 11 [] (DeclRefExpr 4 $"i" false)) (Node 12 [] (IntegerLiteral (2)%Z)))); (Node 13 [] (BinaryOperator BO_CompoundAssign (Node 14 [] (DeclRefExpr 4 $"i" false)) (Node 15 [] (IntegerLiteral (2)%Z))))])) None)); (Node 16 [] (ReturnStmt (Some (Node 17 [] (ImplicitCastExpr CK_LValueToRValue (Node 18 [] (DeclRefExpr 4 $"i" false)))))))]))))))];
     ts_locs := [(1,1,8,1); (1,10,1,14); (1,17,8,1); (2,3,2,12); (2,3,2,11); (2,11,2,11); (3,3,6,3); (3,7,3,7); (3,7,3,7); (3,10,6,3); (4,1,4,6); (4,1,4,1); (4,6,4,6); (5,1,5,6); (5,1,5,1); (5,6,5,6); (7,3,7,10); (7,10,7,10); (7,10,7,10)]%Z;
     ts_evals := []; ts_same := []; ts_decls := []; ts_parents := [] |}.
Example PreferEarlyExit_LongIfAndReturnInsideBlock_holds : nth_violation (shippedRule sh_PreferEarlyExit) PreferEarlyExit_LongIfAndReturnInsideBlock 0 = Some (3, 3, 6, 3, $"Use early exit/continue to simplify code and reduce indentation")%Z.
Proof. vm_compute. reflexivity. Qed.

