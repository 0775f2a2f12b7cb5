(** * OCLint's own unit tests of oclint-rules/test/redundant, as examples about the model

    Written by tools/conformance/emit.py; do not edit. *)
From Verif Require Import Base ModelConfig ModelSource ModelAST ModelRuleTable ConformanceBase.

(** ** oclint-rules/test/redundant/RedundantConditionalOperatorRuleTest.cpp *)

Definition RedundantConditionalOperator_GoodConditionalOperator : testcase :=
  {| ts_lang := LC; ts_path := $"input.c"; ts_code := [];
     ts_comments := []; ts_conf := [];
     ts_tops := [(toplevel 0 (TFunction false), (Node 0 [] (FunctionDecl {| f_name := $"m"; f_method := None; f_isDefinition := true; f_bodyLines := (1)%Z |} [(Node 1 [] (VarDecl {| v_isParm := true; v_name := $"a"; v_used := true; v_referenced := true; v_local := false; v_staticMember := false; v_private := false; v_unusedAttr := false; v_defaultArg := false; v_canonicalType := $"int"; v_inTemplate := false; v_contexts := [CxFunction true true false] |} None)); (Node 2 [] (VarDecl {| v_isParm := true; v_name := $"b"; v_used := true; v_referenced := true; v_local := false; v_staticMember := false; v_private := false; v_unusedAttr := false; v_defaultArg := false; v_canonicalType := $"int"; v_inTemplate := false; v_contexts := [CxFunction true true false] |} None))] (Some (Node 3 [] (CompoundStmt [(Node 4 [] (DeclStmt [(Node 5 [] (VarDecl {| v_isParm := false; v_name := $"c"; v_used := false; v_referenced := false; v_local := true; v_staticMember := false; v_private := false; v_unusedAttr := false; v_defaultArg := false; v_canonicalType := $"int"; v_inTemplate := false; v_contexts := [CxFunction true true false] |} (Some (Node 6 [] (ConditionalOperator (Node 7 [] (BinaryOperator BO_Other (Node 8 [] (ImplicitCastExpr CK_LValueToRValue (Node 9 [] (DeclRefExpr 1 $"a" false)))) (Node 10 [] (ImplicitCastExpr CK_LValueToRValue (Node 11 [] (DeclRefExpr 2 $"b" false)))))) (Node 12 [] (ImplicitCastExpr CK_LValueToRValue (Node 13 [] (DeclRefExpr 1 $"a" false)))) (Node 14 [] (ImplicitCastExpr CK_LValueToRValue (Node 15 [] (DeclRefExpr 2 $"b" false)))))))))]))]))))))];
     ts_locs := [(1,1,1,47); (1,8,1,12); (1,15,1,19); (1,22,1,47); (1,24,1,45); (1,24,1,44); (1,32,1,44); (1,32,1,36); (1,32,1,32); (1,32,1,32); (1,36,1,36); (1,36,1,36); (1,40,1,40); (1,40,1,40); (1,44,1,44); (1,44,1,44)]%Z;
     ts_evals := []; ts_same := []; ts_decls := []; ts_parents := [] |}.
Example RedundantConditionalOperator_GoodConditionalOperator_holds : sorted_violations_of (shippedRule sh_RedundantConditionalOperator) RedundantConditionalOperator_GoodConditionalOperator = Some [].
Proof. vm_compute. reflexivity. Qed.

Definition RedundantConditionalOperator_CppTrueExprIsTrueAndFalseExprIsFalse : testcase :=
  {| ts_lang := LCXX; ts_path := $"input.cpp"; ts_code := [];
     ts_comments := []; ts_conf := [];
     ts_tops := [(toplevel 0 (TFunction false), (Node 0 [] (FunctionDecl {| f_name := $"m"; f_method := None; f_isDefinition := true; f_bodyLines := (1)%Z |} [(Node 1 [] (VarDecl {| v_isParm := true; v_name := $"a"; v_used := true; v_referenced := true; v_local := false; v_staticMember := false; v_private := false; v_unusedAttr := false; v_defaultArg := false; v_canonicalType := $"int"; v_inTemplate := false; v_contexts := [CxFunction true true false] |} None)); (Node 2 [] (VarDecl {| v_isParm := true; v_name := $"b"; v_used := true; v_referenced := true; v_local := false; v_staticMember := false; v_private := false; v_unusedAttr := false; v_defaultArg := false; v_canonicalType := $"int"; v_inTemplate := false; v_contexts := [CxFunction true true false] |} None))] (Some (Node 3 [] (CompoundStmt [(Node 4 [] (DeclStmt [(Node 5 [] (VarDecl {| v_isParm := false; v_name := $"c"; v_used := false; v_referenced := false; v_local := true; v_staticMember := false; v_private := false; v_unusedAttr := false; v_defaultArg := false; v_canonicalType := $"bool"; v_inTemplate := false; v_contexts := [CxFunction true true false] |} (Some (Node 6 [] (ConditionalOperator (Node 7 [] (BinaryOperator BO_Other (Node 8 [] (ImplicitCastExpr CK_LValueToRValue (Node 9 [] (DeclRefExpr 1 $"a" false)))) (Node 10 [] (ImplicitCastExpr CK_LValueToRValue (Node 11 [] (DeclRefExpr 2 $"b" false)))))) (Node 12 [] (CXXBoolLiteralExpr true)) (Node 13 [] (CXXBoolLiteralExpr false)))))))]))]))))))];
     ts_locs := [(1,1,1,55); (1,8,1,12); (1,15,1,19); (1,22,1,55); (1,24,1,53); (1,24,1,48); (1,33,1,48); (1,33,1,37); (1,33,1,33); (1,33,1,33); (1,37,1,37); (1,37,1,37); (1,41,1,41); (1,48,1,48)]%Z;
     ts_evals := []; ts_same := []; ts_decls := []; ts_parents := [] |}.
Example RedundantConditionalOperator_CppTrueExprIsTrueAndFalseExprIsFalse_holds : sorted_violations_of (shippedRule sh_RedundantConditionalOperator) RedundantConditionalOperator_CppTrueExprIsTrueAndFalseExprIsFalse = Some [(1, 33, 1, 48, $"")%Z].
Proof. vm_compute. reflexivity. Qed.

Definition RedundantConditionalOperator_CppTrueExprIsFalseAndFalseExprIsTrue : testcase :=
  {| ts_lang := LCXX; ts_path := $"input.cpp"; ts_code := [];
     ts_comments := []; ts_conf := [];
     ts_tops := [(toplevel 0 (TFunction false), (Node 0 [] (FunctionDecl {| f_name := $"m"; f_method := None; f_isDefinition := true; f_bodyLines := (1)%Z |} [(Node 1 [] (VarDecl {| v_isParm := true; v_name := $"a"; v_used := true; v_referenced := true; v_local := false; v_staticMember := false; v_private := false; v_unusedAttr := false; v_defaultArg := false; v_canonicalType := $"int"; v_inTemplate := false; v_contexts := [CxFunction true true false] |} None)); (Node 2 [] (VarDecl {| v_isParm := true; v_name := $"b"; v_used := true; v_referenced := true; v_local := false; v_staticMember := false; v_private := false; v_unusedAttr := false; v_defaultArg := false; v_canonicalType := $"int"; v_inTemplate := false; v_contexts := [CxFunction true true false] |} None))] (Some (Node 3 [] (CompoundStmt [(Node 4 [] (DeclStmt [(Node 5 [] (VarDecl {| v_isParm := false; v_name := $"c"; v_used := false; v_referenced := false; v_local := true; v_staticMember := false; v_private := false; v_unusedAttr := false; v_defaultArg := false; v_canonicalType := $"bool"; v_inTemplate := false; v_contexts := [CxFunction true true false] |} (Some (Node 6 [] (ConditionalOperator (Node 7 [] (BinaryOperator BO_Other (Node 8 [] (ImplicitCastExpr CK_LValueToRValue (Node 9 [] (DeclRefExpr 1 $"a" false)))) (Node 10 [] (ImplicitCastExpr CK_LValueToRValue (Node 11 [] (DeclRefExpr 2 $"b" false)))))) (Node 12 [] (CXXBoolLiteralExpr false)) (Node 13 [] (CXXBoolLiteralExpr true)))))))]))]))))))];
     ts_locs := [(1,1,1,55); (1,8,1,12); (1,15,1,19); (1,22,1,55); (1,24,1,53); (1,24,1,49); (1,33,1,49); (1,33,1,37); (1,33,1,33); (1,33,1,33); (1,37,1,37); (1,37,1,37); (1,41,1,41); (1,49,1,49)]%Z;
     ts_evals := []; ts_same := []; ts_decls := []; ts_parents := [] |}.
Example RedundantConditionalOperator_CppTrueExprIsFalseAndFalseExprIsTrue_holds : sorted_violations_of (shippedRule sh_RedundantConditionalOperator) RedundantConditionalOperator_CppTrueExprIsFalseAndFalseExprIsTrue = Some [(1, 33, 1, 49, $"")%Z].
Proof. vm_compute. reflexivity. Qed.

Definition RedundantConditionalOperator_ObjCTrueExprIsYesAndFalseExprIsNo : testcase :=
  {| ts_lang := LObjC; ts_path := $"input.m"; ts_code := [];
     ts_comments := []; ts_conf := [];
     ts_tops := [(toplevel 0 (TOther), (Node 0 [] (OtherDecl []))); (toplevel 1 (TFunction false), (Node 1 [] (FunctionDecl {| f_name := $"m"; f_method := None; f_isDefinition := true; f_bodyLines := (1)%Z |} [(Node 2 [] (VarDecl {| v_isParm := true; v_name := $"a"; v_used := true; v_referenced := true; v_local := false; v_staticMember := false; v_private := false; v_unusedAttr := false; v_defaultArg := false; v_canonicalType := $"int"; v_inTemplate := false; v_contexts := [CxFunction true true false] |} None)); (Node 3 [] (VarDecl {| v_isParm := true; v_name := $"b"; v_used := true; v_referenced := true; v_local := false; v_staticMember := false; v_private := false; v_unusedAttr := false; v_defaultArg := false; v_canonicalType := $"int"; v_inTemplate := false; v_contexts := [CxFunction true true false] |} None))] (Some (Node 4 [] (CompoundStmt [(Node 5 [] (DeclStmt [(Node 6 [] (VarDecl {| v_isParm := false; v_name := $"c"; v_used := false; v_referenced := false; v_local := true; v_staticMember := false; v_private := false; v_unusedAttr := false; v_defaultArg := false; v_canonicalType := $"signed char"; v_inTemplate := false; v_contexts := [CxFunction true true false] |} (Some (Node 7 $"BOOL" (ImplicitCastExpr CK_Other (Node 8 $"int" (ConditionalOperator (Node 9 $"int" (BinaryOperator BO_Other (Node 10 $"int" (ImplicitCastExpr CK_LValueToRValue (Node 11 $"int" (DeclRefExpr 2 $"a" false)))) (Node 12 $"int" (ImplicitCastExpr CK_LValueToRValue (Node 13 $"int" (DeclRefExpr 3 $"b" false)))))) (Node 14 $"int" (ImplicitCastExpr CK_Other (Node 15 $"BOOL" (CStyleCastExpr CK_Other (Node 16 $"int" (IntegerLiteral (1)%Z)))))) (Node 17 $"int" (ImplicitCastExpr CK_Other (Node 18 $"BOOL" (CStyleCastExpr CK_Other (Node 19 $"int" (IntegerLiteral (0)%Z)))))))))))))]))]))))))];
     ts_locs := [(1,1,1,24); (4,1,4,51); (4,8,4,12); (4,15,4,19); (4,22,4,51); (4,24,4,49); (4,24,4,47); (4,33,4,47); (4,33,4,47); (4,33,4,37); (4,33,4,33); (4,33,4,33); (4,37,4,37); (4,37,4,37); (4,41,4,41); (4,41,4,41); (4,41,4,41); (4,47,4,47); (4,47,4,47); (4,47,4,47)]%Z;
     ts_evals := []; ts_same := []; ts_decls := []; ts_parents := [] |}.
Example RedundantConditionalOperator_ObjCTrueExprIsYesAndFalseExprIsNo_holds : sorted_violations_of (shippedRule sh_RedundantConditionalOperator) RedundantConditionalOperator_ObjCTrueExprIsYesAndFalseExprIsNo = Some [(4, 33, 4, 47, $"")%Z].
Proof. vm_compute. reflexivity. Qed.

Definition RedundantConditionalOperator_ObjCTrueExprIsNoAndFalseExprIsYes : testcase :=
  {| ts_lang := LObjC; ts_path := $"input.m"; ts_code := [];
     ts_comments := []; ts_conf := [];
     ts_tops := [(toplevel 0 (TOther), (Node 0 [] (OtherDecl []))); (toplevel 1 (TFunction false), (Node 1 [] (FunctionDecl {| f_name := $"m"; f_method := None; f_isDefinition := true; f_bodyLines := (1)%Z |} [(Node 2 [] (VarDecl {| v_isParm := true; v_name := $"a"; v_used := true; v_referenced := true; v_local := false; v_staticMember := false; v_private := false; v_unusedAttr := false; v_defaultArg := false; v_canonicalType := $"int"; v_inTemplate := false; v_contexts := [CxFunction true true false] |} None)); (Node 3 [] (VarDecl {| v_isParm := true; v_name := $"b"; v_used := true; v_referenced := true; v_local := false; v_staticMember := false; v_private := false; v_unusedAttr := false; v_defaultArg := false; v_canonicalType := $"int"; v_inTemplate := false; v_contexts := [CxFunction true true false] |} None))] (Some (Node 4 [] (CompoundStmt [(Node 5 [] (DeclStmt [(Node 6 [] (VarDecl {| v_isParm := false; v_name := $"c"; v_used := false; v_referenced := false; v_local := true; v_staticMember := false; v_private := false; v_unusedAttr := false; v_defaultArg := false; v_canonicalType := $"signed char"; v_inTemplate := false; v_contexts := [CxFunction true true false] |} (Some (Node 7 $"BOOL" (ImplicitCastExpr CK_Other (Node 8 $"int" (ConditionalOperator (Node 9 $"int" (BinaryOperator BO_Other (Node 10 $"int" (ImplicitCastExpr CK_LValueToRValue (Node 11 $"int" (DeclRefExpr 2 $"a" false)))) (Node 12 $"int" (ImplicitCastExpr CK_LValueToRValue (Node 13 $"int" (DeclRefExpr 3 $"b" false)))))) (Node 14 $"int" (ImplicitCastExpr CK_Other (Node 15 $"BOOL" (CStyleCastExpr CK_Other (Node 16 $"int" (IntegerLiteral (0)%Z)))))) (Node 17 $"int" (ImplicitCastExpr CK_Other (Node 18 $"BOOL" (CStyleCastExpr CK_Other (Node 19 $"int" (IntegerLiteral (1)%Z)))))))))))))]))]))))))];
     ts_locs := [(1,1,1,24); (4,1,4,51); (4,8,4,12); (4,15,4,19); (4,22,4,51); (4,24,4,49); (4,24,4,46); (4,33,4,46); (4,33,4,46); (4,33,4,37); (4,33,4,33); (4,33,4,33); (4,37,4,37); (4,37,4,37); (4,41,4,41); (4,41,4,41); (4,41,4,41); (4,46,4,46); (4,46,4,46); (4,46,4,46)]%Z;
     ts_evals := []; ts_same := []; ts_decls := []; ts_parents := [] |}.
Example RedundantConditionalOperator_ObjCTrueExprIsNoAndFalseExprIsYes_holds : sorted_violations_of (shippedRule sh_RedundantConditionalOperator) RedundantConditionalOperator_ObjCTrueExprIsNoAndFalseExprIsYes = Some [(4, 33, 4, 46, $"")%Z].
Proof. vm_compute. reflexivity. Qed.

Definition RedundantConditionalOperator_ObjCTrueExprIsYesAndFalseExprIsNo_HasFeatureObjCBOOL : testcase :=
  {| ts_lang := LObjC; ts_path := $"input.m"; ts_code := [];
     ts_comments := []; ts_conf := [];
     ts_tops := [(toplevel 0 (TOther), (Node 0 [] (OtherDecl []))); (toplevel 1 (TFunction false), (Node 1 [] (FunctionDecl {| f_name := $"m"; f_method := None; f_isDefinition := true; f_bodyLines := (1)%Z |} [(Node 2 [] (VarDecl {| v_isParm := true; v_name := $"a"; v_used := true; v_referenced := true; v_local := false; v_staticMember := false; v_private := false; v_unusedAttr := false; v_defaultArg := false; v_canonicalType := $"int"; v_inTemplate := false; v_contexts := [CxFunction true true false] |} None)); (Node 3 [] (VarDecl {| v_isParm := true; v_name := $"b"; v_used := true; v_referenced := true; v_local := false; v_staticMember := false; v_private := false; v_unusedAttr := false; v_defaultArg := false; v_canonicalType := $"int"; v_inTemplate := false; v_contexts := [CxFunction true true false] |} None))] (Some (Node 4 [] (CompoundStmt [(Node 5 [] (DeclStmt [(Node 6 [] (VarDecl {| v_isParm := false; v_name := $"c"; v_used := false; v_referenced := false; v_local := true; v_staticMember := false; v_private := false; v_unusedAttr := false; v_defaultArg := false; v_canonicalType := $"signed char"; v_inTemplate := false; v_contexts := [CxFunction true true false] |} (Some (Node 7 $"BOOL" (ImplicitCastExpr CK_Other (Node 8 $"int" (ConditionalOperator (Node 9 $"int" (BinaryOperator BO_Other (Node 10 $"int" (ImplicitCastExpr CK_LValueToRValue (Node 11 $"int" (DeclRefExpr 2 $"a" false)))) (Node 12 $"int" (ImplicitCastExpr CK_LValueToRValue (Node 13 $"int" (DeclRefExpr 3 $"b" false)))))) (Node 14 $"int" (ImplicitCastExpr CK_Other (Node 15 $"signed char" (ObjCBoolLiteralExpr true)))) (Node 16 $"int" (ImplicitCastExpr CK_Other (Node 17 $"signed char" (ObjCBoolLiteralExpr false)))))))))))]))]))))))];
     ts_locs := [(1,1,1,24); (4,1,4,51); (4,8,4,12); (4,15,4,19); (4,22,4,51); (4,24,4,49); (4,24,4,47); (4,33,4,47); (4,33,4,47); (4,33,4,37); (4,33,4,33); (4,33,4,33); (4,37,4,37); (4,37,4,37); (4,41,4,41); (4,41,4,41); (4,47,4,47); (4,47,4,47)]%Z;
     ts_evals := []; ts_same := []; ts_decls := []; ts_parents := [] |}.
Example RedundantConditionalOperator_ObjCTrueExprIsYesAndFalseExprIsNo_HasFeatureObjCBOOL_holds : sorted_violations_of (shippedRule sh_RedundantConditionalOperator) RedundantConditionalOperator_ObjCTrueExprIsYesAndFalseExprIsNo_HasFeatureObjCBOOL = Some [(4, 33, 4, 47, $"")%Z].
Proof. vm_compute. reflexivity. Qed.

Definition RedundantConditionalOperator_ObjCTrueExprIsNoAndFalseExprIsYes_HasFeatureObjCBOOL : testcase :=
  {| ts_lang := LObjC; ts_path := $"input.m"; ts_code := [];
     ts_comments := []; ts_conf := [];
     ts_tops := [(toplevel 0 (TOther), (Node 0 [] (OtherDecl []))); (toplevel 1 (TFunction false), (Node 1 [] (FunctionDecl {| f_name := $"m"; f_method := None; f_isDefinition := true; f_bodyLines := (1)%Z |} [(Node 2 [] (VarDecl {| v_isParm := true; v_name := $"a"; v_used := true; v_referenced := true; v_local := false; v_staticMember := false; v_private := false; v_unusedAttr := false; v_defaultArg := false; v_canonicalType := $"int"; v_inTemplate := false; v_contexts := [CxFunction true true false] |} None)); (Node 3 [] (VarDecl {| v_isParm := true; v_name := $"b"; v_used := true; v_referenced := true; v_local := false; v_staticMember := false; v_private := false; v_unusedAttr := false; v_defaultArg := false; v_canonicalType := $"int"; v_inTemplate := false; v_contexts := [CxFunction true true false] |} None))] (Some (Node 4 [] (CompoundStmt [(Node 5 [] (DeclStmt [(Node 6 [] (VarDecl {| v_isParm := false; v_name := $"c"; v_used := false; v_referenced := false; v_local := true; v_staticMember := false; v_private := false; v_unusedAttr := false; v_defaultArg := false; v_canonicalType := $"signed char"; v_inTemplate := false; v_contexts := [CxFunction true true false] |} (Some (Node 7 $"BOOL" (ImplicitCastExpr CK_Other (Node 8 $"int" (ConditionalOperator (Node 9 $"int" (BinaryOperator BO_Other (Node 10 $"int" (ImplicitCastExpr CK_LValueToRValue (Node 11 $"int" (DeclRefExpr 2 $"a" false)))) (Node 12 $"int" (ImplicitCastExpr CK_LValueToRValue (Node 13 $"int" (DeclRefExpr 3 $"b" false)))))) (Node 14 $"int" (ImplicitCastExpr CK_Other (Node 15 $"signed char" (ObjCBoolLiteralExpr false)))) (Node 16 $"int" (ImplicitCastExpr CK_Other (Node 17 $"signed char" (ObjCBoolLiteralExpr true)))))))))))]))]))))))];
     ts_locs := [(1,1,1,24); (4,1,4,51); (4,8,4,12); (4,15,4,19); (4,22,4,51); (4,24,4,49); (4,24,4,46); (4,33,4,46); (4,33,4,46); (4,33,4,37); (4,33,4,33); (4,33,4,33); (4,37,4,37); (4,37,4,37); (4,41,4,41); (4,41,4,41); (4,46,4,46); (4,46,4,46)]%Z;
     ts_evals := []; ts_same := []; ts_decls := []; ts_parents := [] |}.
Example RedundantConditionalOperator_ObjCTrueExprIsNoAndFalseExprIsYes_HasFeatureObjCBOOL_holds : sorted_violations_of (shippedRule sh_RedundantConditionalOperator) RedundantConditionalOperator_ObjCTrueExprIsNoAndFalseExprIsYes_HasFeatureObjCBOOL = Some [(4, 33, 4, 46, $"")%Z].
Proof. vm_compute. reflexivity. Qed.

Definition RedundantConditionalOperator_SameIntegerLiteral : testcase :=
  {| ts_lang := LC; ts_path := $"input.c"; ts_code := [];
     ts_comments := []; ts_conf := [];
     ts_tops := [(toplevel 0 (TFunction false), (Node 0 [] (FunctionDecl {| f_name := $"m"; f_method := None; f_isDefinition := true; f_bodyLines := (1)%Z |} [(Node 1 [] (VarDecl {| v_isParm := true; v_name := $"a"; v_used := true; v_referenced := true; v_local := false; v_staticMember := false; v_private := false; v_unusedAttr := false; v_defaultArg := false; v_canonicalType := $"int"; v_inTemplate := false; v_contexts := [CxFunction true true false] |} None)); (Node 2 [] (VarDecl {| v_isParm := true; v_name := $"b"; v_used := true; v_referenced := true; v_local := false; v_staticMember := false; v_private := false; v_unusedAttr := false; v_defaultArg := false; v_canonicalType := $"int"; v_inTemplate := false; v_contexts := [CxFunction true true false] |} None))] (Some (Node 3 [] (CompoundStmt [(Node 4 [] (DeclStmt [(Node 5 [] (VarDecl {| v_isParm := false; v_name := $"c"; v_used := false; v_referenced := false; v_local := true; v_staticMember := false; v_private := false; v_unusedAttr := false; v_defaultArg := false; v_canonicalType := $"int"; v_inTemplate := false; v_contexts := [CxFunction true true false] |} (Some (Node 6 [] (ConditionalOperator (Node 7 [] (BinaryOperator BO_Other (Node 8 [] (ImplicitCastExpr CK_LValueToRValue (Node 9 [] (DeclRefExpr 1 $"a" false)))) (Node 10 [] (ImplicitCastExpr CK_LValueToRValue (Node 11 [] (DeclRefExpr 2 $"b" false)))))) (Node 12 [] (IntegerLiteral (1)%Z)) (Node 13 [] (IntegerLiteral (1)%Z)))))))]))]))))))];
     ts_locs := [(1,1,1,47); (1,8,1,12); (1,15,1,19); (1,22,1,47); (1,24,1,45); (1,24,1,44); (1,32,1,44); (1,32,1,36); (1,32,1,32); (1,32,1,32); (1,36,1,36); (1,36,1,36); (1,40,1,40); (1,44,1,44)]%Z;
     ts_evals := []; ts_same := []; ts_decls := []; ts_parents := [] |}.
Example RedundantConditionalOperator_SameIntegerLiteral_holds : sorted_violations_of (shippedRule sh_RedundantConditionalOperator) RedundantConditionalOperator_SameIntegerLiteral = Some [(1, 32, 1, 44, $"")%Z].
Proof. vm_compute. reflexivity. Qed.

Definition RedundantConditionalOperator_DifferentIntegerLiteral : testcase :=
  {| ts_lang := LC; ts_path := $"input.c"; ts_code := [];
     ts_comments := []; ts_conf := [];
     ts_tops := [(toplevel 0 (TFunction false), (Node 0 [] (FunctionDecl {| f_name := $"m"; f_method := None; f_isDefinition := true; f_bodyLines := (1)%Z |} [(Node 1 [] (VarDecl {| v_isParm := true; v_name := $"a"; v_used := true; v_referenced := true; v_local := false; v_staticMember := false; v_private := false; v_unusedAttr := false; v_defaultArg := false; v_canonicalType := $"int"; v_inTemplate := false; v_contexts := [CxFunction true true false] |} None)); (Node 2 [] (VarDecl {| v_isParm := true; v_name := $"b"; v_used := true; v_referenced := true; v_local := false; v_staticMember := false; v_private := false; v_unusedAttr := false; v_defaultArg := false; v_canonicalType := $"int"; v_inTemplate := false; v_contexts := [CxFunction true true false] |} None))] (Some (Node 3 [] (CompoundStmt [(Node 4 [] (DeclStmt [(Node 5 [] (VarDecl {| v_isParm := false; v_name := $"c"; v_used := false; v_referenced := false; v_local := true; v_staticMember := false; v_private := false; v_unusedAttr := false; v_defaultArg := false; v_canonicalType := $"int"; v_inTemplate := false; v_contexts := [CxFunction true true false] |} (Some (Node 6 [] (ConditionalOperator (Node 7 [] (BinaryOperator BO_Other (Node 8 [] (ImplicitCastExpr CK_LValueToRValue (Node 9 [] (DeclRefExpr 1 $"a" false)))) (Node 10 [] (ImplicitCastExpr CK_LValueToRValue (Node 11 [] (DeclRefExpr 2 $"b" false)))))) (Node 12 [] (IntegerLiteral (1)%Z)) (Node 13 [] (IntegerLiteral (2)%Z)))))))]))]))))))];
     ts_locs := [(1,1,1,47); (1,8,1,12); (1,15,1,19); (1,22,1,47); (1,24,1,45); (1,24,1,44); (1,32,1,44); (1,32,1,36); (1,32,1,32); (1,32,1,32); (1,36,1,36); (1,36,1,36); (1,40,1,40); (1,44,1,44)]%Z;
     ts_evals := []; ts_same := []; ts_decls := []; ts_parents := [] |}.
Example RedundantConditionalOperator_DifferentIntegerLiteral_holds : sorted_violations_of (shippedRule sh_RedundantConditionalOperator) RedundantConditionalOperator_DifferentIntegerLiteral = Some [].
Proof. vm_compute. reflexivity. Qed.

Definition RedundantConditionalOperator_SameFloatingLiteral : testcase :=
  {| ts_lang := LC; ts_path := $"input.c"; ts_code := [];
     ts_comments := []; ts_conf := [];
     ts_tops := [(toplevel 0 (TFunction false), (Node 0 [] (FunctionDecl {| f_name := $"m"; f_method := None; f_isDefinition := true; f_bodyLines := (1)%Z |} [(Node 1 [] (VarDecl {| v_isParm := true; v_name := $"a"; v_used := true; v_referenced := true; v_local := false; v_staticMember := false; v_private := false; v_unusedAttr := false; v_defaultArg := false; v_canonicalType := $"int"; v_inTemplate := false; v_contexts := [CxFunction true true false] |} None)); (Node 2 [] (VarDecl {| v_isParm := true; v_name := $"b"; v_used := true; v_referenced := true; v_local := false; v_staticMember := false; v_private := false; v_unusedAttr := false; v_defaultArg := false; v_canonicalType := $"int"; v_inTemplate := false; v_contexts := [CxFunction true true false] |} None))] (Some (Node 3 [] (CompoundStmt [(Node 4 [] (DeclStmt [(Node 5 [] (VarDecl {| v_isParm := false; v_name := $"f"; v_used := false; v_referenced := false; v_local := true; v_staticMember := false; v_private := false; v_unusedAttr := false; v_defaultArg := false; v_canonicalType := $"float"; v_inTemplate := false; v_contexts := [CxFunction true true false] |} (Some (Node 6 [] (ConditionalOperator (Node 7 [] (BinaryOperator BO_Other (Node 8 [] (ImplicitCastExpr CK_LValueToRValue (Node 9 [] (DeclRefExpr 1 $"a" false)))) (Node 10 [] (ImplicitCastExpr CK_LValueToRValue (Node 11 [] (DeclRefExpr 2 $"b" false)))))) (Node 12 [] (FloatingLiteral (4607182418800017408)%Z)) (Node 13 [] (FloatingLiteral (4607182418800017408)%Z)))))))]))]))))))];
     ts_locs := [(1,1,1,55); (1,8,1,12); (1,15,1,19); (1,22,1,55); (1,24,1,53); (1,24,1,49); (1,34,1,49); (1,34,1,38); (1,34,1,34); (1,34,1,34); (1,38,1,38); (1,38,1,38); (1,42,1,42); (1,49,1,49)]%Z;
     ts_evals := []; ts_same := []; ts_decls := []; ts_parents := [] |}.
Example RedundantConditionalOperator_SameFloatingLiteral_holds : sorted_violations_of (shippedRule sh_RedundantConditionalOperator) RedundantConditionalOperator_SameFloatingLiteral = Some [(1, 34, 1, 49, $"")%Z].
Proof. vm_compute. reflexivity. Qed.

Definition RedundantConditionalOperator_DifferentFloatingLiteralSameValue : testcase :=
  {| ts_lang := LC; ts_path := $"input.c"; ts_code := [];
     ts_comments := []; ts_conf := [];
     ts_tops := [(toplevel 0 (TFunction false), (Node 0 [] (FunctionDecl {| f_name := $"m"; f_method := None; f_isDefinition := true; f_bodyLines := (1)%Z |} [(Node 1 [] (VarDecl {| v_isParm := true; v_name := $"a"; v_used := true; v_referenced := true; v_local := false; v_staticMember := false; v_private := false; v_unusedAttr := false; v_defaultArg := false; v_canonicalType := $"int"; v_inTemplate := false; v_contexts := [CxFunction true true false] |} None)); (Node 2 [] (VarDecl {| v_isParm := true; v_name := $"b"; v_used := true; v_referenced := true; v_local := false; v_staticMember := false; v_private := false; v_unusedAttr := false; v_defaultArg := false; v_canonicalType := $"int"; v_inTemplate := false; v_contexts := [CxFunction true true false] |} None))] (Some (Node 3 [] (CompoundStmt [(Node 4 [] (DeclStmt [(Node 5 [] (VarDecl {| v_isParm := false; v_name := $"f"; v_used := false; v_referenced := false; v_local := true; v_staticMember := false; v_private := false; v_unusedAttr := false; v_defaultArg := false; v_canonicalType := $"float"; v_inTemplate := false; v_contexts := [CxFunction true true false] |} (Some (Node 6 [] (ImplicitCastExpr CK_Other (Node 7 [] (ConditionalOperator (Node 8 [] (BinaryOperator BO_Other (Node 9 [] (ImplicitCastExpr CK_LValueToRValue (Node 10 [] (DeclRefExpr 1 $"a" false)))) (Node 11 [] (ImplicitCastExpr CK_LValueToRValue (Node 12 [] (DeclRefExpr 2 $"b" false)))))) (Node 13 [] (FloatingLiteral (4607182418800017408)%Z)) (Node 14 [] (FloatingLiteral (4607182418800017408)%Z)))))))))]))]))))))];
     ts_locs := [(1,1,1,54); (1,8,1,12); (1,15,1,19); (1,22,1,54); (1,24,1,52); (1,24,1,48); (1,34,1,48); (1,34,1,48); (1,34,1,38); (1,34,1,34); (1,34,1,34); (1,38,1,38); (1,38,1,38); (1,42,1,42); (1,48,1,48)]%Z;
     ts_evals := []; ts_same := []; ts_decls := []; ts_parents := [] |}.
Example RedundantConditionalOperator_DifferentFloatingLiteralSameValue_holds : sorted_violations_of (shippedRule sh_RedundantConditionalOperator) RedundantConditionalOperator_DifferentFloatingLiteralSameValue = Some [(1, 34, 1, 48, $"")%Z].
Proof. vm_compute. reflexivity. Qed.

Definition RedundantConditionalOperator_DifferentFloatingLiteralDifferentValue : testcase :=
  {| ts_lang := LC; ts_path := $"input.c"; ts_code := [];
     ts_comments := []; ts_conf := [];
     ts_tops := [(toplevel 0 (TFunction false), (Node 0 [] (FunctionDecl {| f_name := $"m"; f_method := None; f_isDefinition := true; f_bodyLines := (1)%Z |} [(Node 1 [] (VarDecl {| v_isParm := true; v_name := $"a"; v_used := true; v_referenced := true; v_local := false; v_staticMember := false; v_private := false; v_unusedAttr := false; v_defaultArg := false; v_canonicalType := $"int"; v_inTemplate := false; v_contexts := [CxFunction true true false] |} None)); (Node 2 [] (VarDecl {| v_isParm := true; v_name := $"b"; v_used := true; v_referenced := true; v_local := false; v_staticMember := false; v_private := false; v_unusedAttr := false; v_defaultArg := false; v_canonicalType := $"int"; v_inTemplate := false; v_contexts := [CxFunction true true false] |} None))] (Some (Node 3 [] (CompoundStmt [(Node 4 [] (DeclStmt [(Node 5 [] (VarDecl {| v_isParm := false; v_name := $"f"; v_used := false; v_referenced := false; v_local := true; v_staticMember := false; v_private := false; v_unusedAttr := false; v_defaultArg := false; v_canonicalType := $"float"; v_inTemplate := false; v_contexts := [CxFunction true true false] |} (Some (Node 6 [] (ImplicitCastExpr CK_Other (Node 7 [] (ConditionalOperator (Node 8 [] (BinaryOperator BO_Other (Node 9 [] (ImplicitCastExpr CK_LValueToRValue (Node 10 [] (DeclRefExpr 1 $"a" false)))) (Node 11 [] (ImplicitCastExpr CK_LValueToRValue (Node 12 [] (DeclRefExpr 2 $"b" false)))))) (Node 13 [] (FloatingLiteral (4607182418800017408)%Z)) (Node 14 [] (FloatingLiteral (4607227454796291113)%Z)))))))))]))]))))))];
     ts_locs := [(1,1,1,54); (1,8,1,12); (1,15,1,19); (1,22,1,54); (1,24,1,52); (1,24,1,48); (1,34,1,48); (1,34,1,48); (1,34,1,38); (1,34,1,34); (1,34,1,34); (1,38,1,38); (1,38,1,38); (1,42,1,42); (1,48,1,48)]%Z;
     ts_evals := []; ts_same := []; ts_decls := []; ts_parents := [] |}.
Example RedundantConditionalOperator_DifferentFloatingLiteralDifferentValue_holds : sorted_violations_of (shippedRule sh_RedundantConditionalOperator) RedundantConditionalOperator_DifferentFloatingLiteralDifferentValue = Some [].
Proof. vm_compute. reflexivity. Qed.

Definition RedundantConditionalOperator_SameCharacterLiteral : testcase :=
  {| ts_lang := LC; ts_path := $"input.c"; ts_code := [];
     ts_comments := []; ts_conf := [];
     ts_tops := [(toplevel 0 (TFunction false), (Node 0 [] (FunctionDecl {| f_name := $"m"; f_method := None; f_isDefinition := true; f_bodyLines := (1)%Z |} [(Node 1 [] (VarDecl {| v_isParm := true; v_name := $"a"; v_used := true; v_referenced := true; v_local := false; v_staticMember := false; v_private := false; v_unusedAttr := false; v_defaultArg := false; v_canonicalType := $"int"; v_inTemplate := false; v_contexts := [CxFunction true true false] |} None)); (Node 2 [] (VarDecl {| v_isParm := true; v_name := $"b"; v_used := true; v_referenced := true; v_local := false; v_staticMember := false; v_private := false; v_unusedAttr := false; v_defaultArg := false; v_canonicalType := $"int"; v_inTemplate := false; v_contexts := [CxFunction true true false] |} None))] (Some (Node 3 [] (CompoundStmt [(Node 4 [] (DeclStmt [(Node 5 [] (VarDecl {| v_isParm := false; v_name := $"c"; v_used := false; v_referenced := false; v_local := true; v_staticMember := false; v_private := false; v_unusedAttr := false; v_defaultArg := false; v_canonicalType := $"char"; v_inTemplate := false; v_contexts := [CxFunction true true false] |} (Some (Node 6 [] (ImplicitCastExpr CK_Other (Node 7 [] (ConditionalOperator (Node 8 [] (BinaryOperator BO_Other (Node 9 [] (ImplicitCastExpr CK_LValueToRValue (Node 10 [] (DeclRefExpr 1 $"a" false)))) (Node 11 [] (ImplicitCastExpr CK_LValueToRValue (Node 12 [] (DeclRefExpr 2 $"b" false)))))) (Node 13 [] (CharacterLiteral 99%Z)) (Node 14 [] (CharacterLiteral 99%Z)))))))))]))]))))))];
     ts_locs := [(1,1,1,52); (1,8,1,12); (1,15,1,19); (1,22,1,52); (1,24,1,50); (1,24,1,47); (1,33,1,47); (1,33,1,47); (1,33,1,37); (1,33,1,33); (1,33,1,33); (1,37,1,37); (1,37,1,37); (1,41,1,41); (1,47,1,47)]%Z;
     ts_evals := []; ts_same := []; ts_decls := []; ts_parents := [] |}.
Example RedundantConditionalOperator_SameCharacterLiteral_holds : sorted_violations_of (shippedRule sh_RedundantConditionalOperator) RedundantConditionalOperator_SameCharacterLiteral = Some [(1, 33, 1, 47, $"")%Z].
Proof. vm_compute. reflexivity. Qed.

Definition RedundantConditionalOperator_DifferentCharacterLiteral : testcase :=
  {| ts_lang := LC; ts_path := $"input.c"; ts_code := [];
     ts_comments := []; ts_conf := [];
     ts_tops := [(toplevel 0 (TFunction false), (Node 0 [] (FunctionDecl {| f_name := $"m"; f_method := None; f_isDefinition := true; f_bodyLines := (1)%Z |} [(Node 1 [] (VarDecl {| v_isParm := true; v_name := $"a"; v_used := true; v_referenced := true; v_local := false; v_staticMember := false; v_private := false; v_unusedAttr := false; v_defaultArg := false; v_canonicalType := $"int"; v_inTemplate := false; v_contexts := [CxFunction true true false] |} None)); (Node 2 [] (VarDecl {| v_isParm := true; v_name := $"b"; v_used := true; v_referenced := true; v_local := false; v_staticMember := false; v_private := false; v_unusedAttr := false; v_defaultArg := false; v_canonicalType := $"int"; v_inTemplate := false; v_contexts := [CxFunction true true false] |} None))] (Some (Node 3 [] (CompoundStmt [(Node 4 [] (DeclStmt [(Node 5 [] (VarDecl {| v_isParm := false; v_name := $"c"; v_used := false; v_referenced := false; v_local := true; v_staticMember := false; v_private := false; v_unusedAttr := false; v_defaultArg := false; v_canonicalType := $"char"; v_inTemplate := false; v_contexts := [CxFunction true true false] |} (Some (Node 6 [] (ImplicitCastExpr CK_Other (Node 7 [] (ConditionalOperator (Node 8 [] (BinaryOperator BO_Other (Node 9 [] (ImplicitCastExpr CK_LValueToRValue (Node 10 [] (DeclRefExpr 1 $"a" false)))) (Node 11 [] (ImplicitCastExpr CK_LValueToRValue (Node 12 [] (DeclRefExpr 2 $"b" false)))))) (Node 13 [] (CharacterLiteral 99%Z)) (Node 14 [] (CharacterLiteral 115%Z)))))))))]))]))))))];
     ts_locs := [(1,1,1,52); (1,8,1,12); (1,15,1,19); (1,22,1,52); (1,24,1,50); (1,24,1,47); (1,33,1,47); (1,33,1,47); (1,33,1,37); (1,33,1,33); (1,33,1,33); (1,37,1,37); (1,37,1,37); (1,41,1,41); (1,47,1,47)]%Z;
     ts_evals := []; ts_same := []; ts_decls := []; ts_parents := [] |}.
Example RedundantConditionalOperator_DifferentCharacterLiteral_holds : sorted_violations_of (shippedRule sh_RedundantConditionalOperator) RedundantConditionalOperator_DifferentCharacterLiteral = Some [].
Proof. vm_compute. reflexivity. Qed.

Definition RedundantConditionalOperator_SameStringLiteral : testcase :=
  {| ts_lang := LC; ts_path := $"input.c"; ts_code := [];
     ts_comments := []; ts_conf := [];
     ts_tops := [(toplevel 0 (TFunction false), (Node 0 [] (FunctionDecl {| f_name := $"m"; f_method := None; f_isDefinition := true; f_bodyLines := (1)%Z |} [(Node 1 [] (VarDecl {| v_isParm := true; v_name := $"a"; v_used := true; v_referenced := true; v_local := false; v_staticMember := false; v_private := false; v_unusedAttr := false; v_defaultArg := false; v_canonicalType := $"int"; v_inTemplate := false; v_contexts := [CxFunction true true false] |} None)); (Node 2 [] (VarDecl {| v_isParm := true; v_name := $"b"; v_used := true; v_referenced := true; v_local := false; v_staticMember := false; v_private := false; v_unusedAttr := false; v_defaultArg := false; v_canonicalType := $"int"; v_inTemplate := false; v_contexts := [CxFunction true true false] |} None))] (Some (Node 3 [] (CompoundStmt [(Node 4 [] (DeclStmt [(Node 5 [] (VarDecl {| v_isParm := false; v_name := $"c"; v_used := false; v_referenced := false; v_local := true; v_staticMember := false; v_private := false; v_unusedAttr := false; v_defaultArg := false; v_canonicalType := $"char *"; v_inTemplate := false; v_contexts := [CxFunction true true false] |} (Some (Node 6 [] (ConditionalOperator (Node 7 [] (BinaryOperator BO_Other (Node 8 [] (ImplicitCastExpr CK_LValueToRValue (Node 9 [] (DeclRefExpr 1 $"a" false)))) (Node 10 [] (ImplicitCastExpr CK_LValueToRValue (Node 11 [] (DeclRefExpr 2 $"b" false)))))) (Node 12 [] (ImplicitCastExpr CK_Other (Node 13 [] (StringLiteral $"a")))) (Node 14 [] (ImplicitCastExpr CK_Other (Node 15 [] (StringLiteral $"a")))))))))]))]))))))];
     ts_locs := [(1,1,1,53); (1,8,1,12); (1,15,1,19); (1,22,1,53); (1,24,1,51); (1,24,1,48); (1,34,1,48); (1,34,1,38); (1,34,1,34); (1,34,1,34); (1,38,1,38); (1,38,1,38); (1,42,1,42); (1,42,1,42); (1,48,1,48); (1,48,1,48)]%Z;
     ts_evals := []; ts_same := []; ts_decls := []; ts_parents := [] |}.
Example RedundantConditionalOperator_SameStringLiteral_holds : sorted_violations_of (shippedRule sh_RedundantConditionalOperator) RedundantConditionalOperator_SameStringLiteral = Some [(1, 34, 1, 48, $"")%Z].
Proof. vm_compute. reflexivity. Qed.

Definition RedundantConditionalOperator_SameEmptyStringLiteral : testcase :=
  {| ts_lang := LC; ts_path := $"input.c"; ts_code := [];
     ts_comments := []; ts_conf := [];
     ts_tops := [(toplevel 0 (TFunction false), (Node 0 [] (FunctionDecl {| f_name := $"m"; f_method := None; f_isDefinition := true; f_bodyLines := (1)%Z |} [(Node 1 [] (VarDecl {| v_isParm := true; v_name := $"a"; v_used := true; v_referenced := true; v_local := false; v_staticMember := false; v_private := false; v_unusedAttr := false; v_defaultArg := false; v_canonicalType := $"int"; v_inTemplate := false; v_contexts := [CxFunction true true false] |} None)); (Node 2 [] (VarDecl {| v_isParm := true; v_name := $"b"; v_used := true; v_referenced := true; v_local := false; v_staticMember := false; v_private := false; v_unusedAttr := false; v_defaultArg := false; v_canonicalType := $"int"; v_inTemplate := false; v_contexts := [CxFunction true true false] |} None))] (Some (Node 3 [] (CompoundStmt [(Node 4 [] (DeclStmt [(Node 5 [] (VarDecl {| v_isParm := false; v_name := $"c"; v_used := false; v_referenced := false; v_local := true; v_staticMember := false; v_private := false; v_unusedAttr := false; v_defaultArg := false; v_canonicalType := $"char *"; v_inTemplate := false; v_contexts := [CxFunction true true false] |} (Some (Node 6 [] (ConditionalOperator (Node 7 [] (BinaryOperator BO_Other (Node 8 [] (ImplicitCastExpr CK_LValueToRValue (Node 9 [] (DeclRefExpr 1 $"a" false)))) (Node 10 [] (ImplicitCastExpr CK_LValueToRValue (Node 11 [] (DeclRefExpr 2 $"b" false)))))) (Node 12 [] (ImplicitCastExpr CK_Other (Node 13 [] (StringLiteral $"")))) (Node 14 [] (ImplicitCastExpr CK_Other (Node 15 [] (StringLiteral $"")))))))))]))]))))))];
     ts_locs := [(1,1,1,51); (1,8,1,12); (1,15,1,19); (1,22,1,51); (1,24,1,49); (1,24,1,47); (1,34,1,47); (1,34,1,38); (1,34,1,34); (1,34,1,34); (1,38,1,38); (1,38,1,38); (1,42,1,42); (1,42,1,42); (1,47,1,47); (1,47,1,47)]%Z;
     ts_evals := []; ts_same := []; ts_decls := []; ts_parents := [] |}.
Example RedundantConditionalOperator_SameEmptyStringLiteral_holds : sorted_violations_of (shippedRule sh_RedundantConditionalOperator) RedundantConditionalOperator_SameEmptyStringLiteral = Some [(1, 34, 1, 47, $"")%Z].
Proof. vm_compute. reflexivity. Qed.

Definition RedundantConditionalOperator_DifferentStringLiteral : testcase :=
  {| ts_lang := LC; ts_path := $"input.c"; ts_code := [];
     ts_comments := []; ts_conf := [];
     ts_tops := [(toplevel 0 (TFunction false), (Node 0 [] (FunctionDecl {| f_name := $"m"; f_method := None; f_isDefinition := true; f_bodyLines := (1)%Z |} [(Node 1 [] (VarDecl {| v_isParm := true; v_name := $"a"; v_used := true; v_referenced := true; v_local := false; v_staticMember := false; v_private := false; v_unusedAttr := false; v_defaultArg := false; v_canonicalType := $"int"; v_inTemplate := false; v_contexts := [CxFunction true true false] |} None)); (Node 2 [] (VarDecl {| v_isParm := true; v_name := $"b"; v_used := true; v_referenced := true; v_local := false; v_staticMember := false; v_private := false; v_unusedAttr := false; v_defaultArg := false; v_canonicalType := $"int"; v_inTemplate := false; v_contexts := [CxFunction true true false] |} None))] (Some (Node 3 [] (CompoundStmt [(Node 4 [] (DeclStmt [(Node 5 [] (VarDecl {| v_isParm := false; v_name := $"c"; v_used := false; v_referenced := false; v_local := true; v_staticMember := false; v_private := false; v_unusedAttr := false; v_defaultArg := false; v_canonicalType := $"char *"; v_inTemplate := false; v_contexts := [CxFunction true true false] |} (Some (Node 6 [] (ConditionalOperator (Node 7 [] (BinaryOperator BO_Other (Node 8 [] (ImplicitCastExpr CK_LValueToRValue (Node 9 [] (DeclRefExpr 1 $"a" false)))) (Node 10 [] (ImplicitCastExpr CK_LValueToRValue (Node 11 [] (DeclRefExpr 2 $"b" false)))))) (Node 12 [] (ImplicitCastExpr CK_Other (Node 13 [] (StringLiteral $"a")))) (Node 14 [] (ImplicitCastExpr CK_Other (Node 15 [] (StringLiteral $"b")))))))))]))]))))))];
     ts_locs := [(1,1,1,53); (1,8,1,12); (1,15,1,19); (1,22,1,53); (1,24,1,51); (1,24,1,48); (1,34,1,48); (1,34,1,38); (1,34,1,34); (1,34,1,34); (1,38,1,38); (1,38,1,38); (1,42,1,42); (1,42,1,42); (1,48,1,48); (1,48,1,48)]%Z;
     ts_evals := []; ts_same := []; ts_decls := []; ts_parents := [] |}.
Example RedundantConditionalOperator_DifferentStringLiteral_holds : sorted_violations_of (shippedRule sh_RedundantConditionalOperator) RedundantConditionalOperator_DifferentStringLiteral = Some [].
Proof. vm_compute. reflexivity. Qed.

Definition RedundantConditionalOperator_WithOneEmptyStringLiteral : testcase :=
  {| ts_lang := LC; ts_path := $"input.c"; ts_code := [];
     ts_comments := []; ts_conf := [];
     ts_tops := [(toplevel 0 (TFunction false), (Node 0 [] (FunctionDecl {| f_name := $"m"; f_method := None; f_isDefinition := true; f_bodyLines := (1)%Z |} [(Node 1 [] (VarDecl {| v_isParm := true; v_name := $"a"; v_used := true; v_referenced := true; v_local := false; v_staticMember := false; v_private := false; v_unusedAttr := false; v_defaultArg := false; v_canonicalType := $"int"; v_inTemplate := false; v_contexts := [CxFunction true true false] |} None)); (Node 2 [] (VarDecl {| v_isParm := true; v_name := $"b"; v_used := true; v_referenced := true; v_local := false; v_staticMember := false; v_private := false; v_unusedAttr := false; v_defaultArg := false; v_canonicalType := $"int"; v_inTemplate := false; v_contexts := [CxFunction true true false] |} None))] (Some (Node 3 [] (CompoundStmt [(Node 4 [] (DeclStmt [(Node 5 [] (VarDecl {| v_isParm := false; v_name := $"c"; v_used := false; v_referenced := false; v_local := true; v_staticMember := false; v_private := false; v_unusedAttr := false; v_defaultArg := false; v_canonicalType := $"char *"; v_inTemplate := false; v_contexts := [CxFunction true true false] |} (Some (Node 6 [] (ConditionalOperator (Node 7 [] (BinaryOperator BO_Other (Node 8 [] (ImplicitCastExpr CK_LValueToRValue (Node 9 [] (DeclRefExpr 1 $"a" false)))) (Node 10 [] (ImplicitCastExpr CK_LValueToRValue (Node 11 [] (DeclRefExpr 2 $"b" false)))))) (Node 12 [] (ImplicitCastExpr CK_Other (Node 13 [] (StringLiteral $"a")))) (Node 14 [] (ImplicitCastExpr CK_Other (Node 15 [] (StringLiteral $"")))))))))]))]))))))];
     ts_locs := [(1,1,1,52); (1,8,1,12); (1,15,1,19); (1,22,1,52); (1,24,1,50); (1,24,1,48); (1,34,1,48); (1,34,1,38); (1,34,1,34); (1,34,1,34); (1,38,1,38); (1,38,1,38); (1,42,1,42); (1,42,1,42); (1,48,1,48); (1,48,1,48)]%Z;
     ts_evals := []; ts_same := []; ts_decls := []; ts_parents := [] |}.
Example RedundantConditionalOperator_WithOneEmptyStringLiteral_holds : sorted_violations_of (shippedRule sh_RedundantConditionalOperator) RedundantConditionalOperator_WithOneEmptyStringLiteral = Some [].
Proof. vm_compute. reflexivity. Qed.

Definition RedundantConditionalOperator_CppSameBoolean : testcase :=
  {| ts_lang := LCXX; ts_path := $"input.cpp"; ts_code := [];
     ts_comments := []; ts_conf := [];
     ts_tops := [(toplevel 0 (TFunction false), (Node 0 [] (FunctionDecl {| f_name := $"m"; f_method := None; f_isDefinition := true; f_bodyLines := (1)%Z |} [(Node 1 [] (VarDecl {| v_isParm := true; v_name := $"a"; v_used := true; v_referenced := true; v_local := false; v_staticMember := false; v_private := false; v_unusedAttr := false; v_defaultArg := false; v_canonicalType := $"int"; v_inTemplate := false; v_contexts := [CxFunction true true false] |} None)); (Node 2 [] (VarDecl {| v_isParm := true; v_name := $"b"; v_used := true; v_referenced := true; v_local := false; v_staticMember := false; v_private := false; v_unusedAttr := false; v_defaultArg := false; v_canonicalType := $"int"; v_inTemplate := false; v_contexts := [CxFunction true true false] |} None))] (Some (Node 3 [] (CompoundStmt [(Node 4 [] (DeclStmt [(Node 5 [] (VarDecl {| v_isParm := false; v_name := $"c"; v_used := false; v_referenced := false; v_local := true; v_staticMember := false; v_private := false; v_unusedAttr := false; v_defaultArg := false; v_canonicalType := $"bool"; v_inTemplate := false; v_contexts := [CxFunction true true false] |} (Some (Node 6 [] (ConditionalOperator (Node 7 [] (BinaryOperator BO_Other (Node 8 [] (ImplicitCastExpr CK_LValueToRValue (Node 9 [] (DeclRefExpr 1 $"a" false)))) (Node 10 [] (ImplicitCastExpr CK_LValueToRValue (Node 11 [] (DeclRefExpr 2 $"b" false)))))) (Node 12 [] (CXXBoolLiteralExpr true)) (Node 13 [] (CXXBoolLiteralExpr true)))))))]))]))))))];
     ts_locs := [(1,1,1,54); (1,8,1,12); (1,15,1,19); (1,22,1,54); (1,24,1,52); (1,24,1,48); (1,33,1,48); (1,33,1,37); (1,33,1,33); (1,33,1,33); (1,37,1,37); (1,37,1,37); (1,41,1,41); (1,48,1,48)]%Z;
     ts_evals := []; ts_same := []; ts_decls := []; ts_parents := [] |}.
Example RedundantConditionalOperator_CppSameBoolean_holds : sorted_violations_of (shippedRule sh_RedundantConditionalOperator) RedundantConditionalOperator_CppSameBoolean = Some [(1, 33, 1, 48, $"")%Z].
Proof. vm_compute. reflexivity. Qed.

Definition RedundantConditionalOperator_ObjCSameBoolean : testcase :=
  {| ts_lang := LObjC; ts_path := $"input.m"; ts_code := [];
     ts_comments := []; ts_conf := [];
     ts_tops := [(toplevel 0 (TOther), (Node 0 [] (OtherDecl []))); (toplevel 1 (TFunction false), (Node 1 [] (FunctionDecl {| f_name := $"m"; f_method := None; f_isDefinition := true; f_bodyLines := (1)%Z |} [(Node 2 [] (VarDecl {| v_isParm := true; v_name := $"a"; v_used := true; v_referenced := true; v_local := false; v_staticMember := false; v_private := false; v_unusedAttr := false; v_defaultArg := false; v_canonicalType := $"int"; v_inTemplate := false; v_contexts := [CxFunction true true false] |} None)); (Node 3 [] (VarDecl {| v_isParm := true; v_name := $"b"; v_used := true; v_referenced := true; v_local := false; v_staticMember := false; v_private := false; v_unusedAttr := false; v_defaultArg := false; v_canonicalType := $"int"; v_inTemplate := false; v_contexts := [CxFunction true true false] |} None))] (Some (Node 4 [] (CompoundStmt [(Node 5 [] (DeclStmt [(Node 6 [] (VarDecl {| v_isParm := false; v_name := $"c"; v_used := false; v_referenced := false; v_local := true; v_staticMember := false; v_private := false; v_unusedAttr := false; v_defaultArg := false; v_canonicalType := $"signed char"; v_inTemplate := false; v_contexts := [CxFunction true true false] |} (Some (Node 7 $"BOOL" (ImplicitCastExpr CK_Other (Node 8 $"int" (ConditionalOperator (Node 9 $"int" (BinaryOperator BO_Other (Node 10 $"int" (ImplicitCastExpr CK_LValueToRValue (Node 11 $"int" (DeclRefExpr 2 $"a" false)))) (Node 12 $"int" (ImplicitCastExpr CK_LValueToRValue (Node 13 $"int" (DeclRefExpr 3 $"b" false)))))) (Node 14 $"int" (ImplicitCastExpr CK_Other (Node 15 $"BOOL" (CStyleCastExpr CK_Other (Node 16 $"int" (IntegerLiteral (0)%Z)))))) (Node 17 $"int" (ImplicitCastExpr CK_Other (Node 18 $"BOOL" (CStyleCastExpr CK_Other (Node 19 $"int" (IntegerLiteral (0)%Z)))))))))))))]))]))))))];
     ts_locs := [(1,1,1,24); (4,1,4,50); (4,8,4,12); (4,15,4,19); (4,22,4,50); (4,24,4,48); (4,24,4,46); (4,33,4,46); (4,33,4,46); (4,33,4,37); (4,33,4,33); (4,33,4,33); (4,37,4,37); (4,37,4,37); (4,41,4,41); (4,41,4,41); (4,41,4,41); (4,46,4,46); (4,46,4,46); (4,46,4,46)]%Z;
     ts_evals := []; ts_same := []; ts_decls := []; ts_parents := [] |}.
Example RedundantConditionalOperator_ObjCSameBoolean_holds : sorted_violations_of (shippedRule sh_RedundantConditionalOperator) RedundantConditionalOperator_ObjCSameBoolean = Some [(4, 33, 4, 46, $"")%Z].
Proof. vm_compute. reflexivity. Qed.

Definition RedundantConditionalOperator_SameVariable : testcase :=
  {| ts_lang := LC; ts_path := $"input.c"; ts_code := [];
     ts_comments := []; ts_conf := [];
     ts_tops := [(toplevel 0 (TFunction false), (Node 0 [] (FunctionDecl {| f_name := $"m"; f_method := None; f_isDefinition := true; f_bodyLines := (1)%Z |} [(Node 1 [] (VarDecl {| v_isParm := true; v_name := $"a"; v_used := true; v_referenced := true; v_local := false; v_staticMember := false; v_private := false; v_unusedAttr := false; v_defaultArg := false; v_canonicalType := $"int"; v_inTemplate := false; v_contexts := [CxFunction true true false] |} None)); (Node 2 [] (VarDecl {| v_isParm := true; v_name := $"b"; v_used := true; v_referenced := true; v_local := false; v_staticMember := false; v_private := false; v_unusedAttr := false; v_defaultArg := false; v_canonicalType := $"int"; v_inTemplate := false; v_contexts := [CxFunction true true false] |} None)); (Node 3 [] (VarDecl {| v_isParm := true; v_name := $"d"; v_used := true; v_referenced := true; v_local := false; v_staticMember := false; v_private := false; v_unusedAttr := false; v_defaultArg := false; v_canonicalType := $"int"; v_inTemplate := false; v_contexts := [CxFunction true true false] |} None))] (Some (Node 4 [] (CompoundStmt [(Node 5 [] (DeclStmt [(Node 6 [] (VarDecl {| v_isParm := false; v_name := $"c"; v_used := false; v_referenced := false; v_local := true; v_staticMember := false; v_private := false; v_unusedAttr := false; v_defaultArg := false; v_canonicalType := $"int"; v_inTemplate := false; v_contexts := [CxFunction true true false] |} (Some (Node 7 [] (ConditionalOperator (Node 8 [] (BinaryOperator BO_Other (Node 9 [] (ImplicitCastExpr CK_LValueToRValue (Node 10 [] (DeclRefExpr 1 $"a" false)))) (Node 11 [] (ImplicitCastExpr CK_LValueToRValue (Node 12 [] (DeclRefExpr 2 $"b" false)))))) (Node 13 [] (ImplicitCastExpr CK_LValueToRValue (Node 14 [] (DeclRefExpr 3 $"d" false)))) (Node 15 [] (ImplicitCastExpr CK_LValueToRValue (Node 16 [] (DeclRefExpr 3 $"d" false)))))))))]))]))))))];
     ts_locs := [(1,1,1,54); (1,8,1,12); (1,15,1,19); (1,22,1,26); (1,29,1,54); (1,31,1,52); (1,31,1,51); (1,39,1,51); (1,39,1,43); (1,39,1,39); (1,39,1,39); (1,43,1,43); (1,43,1,43); (1,47,1,47); (1,47,1,47); (1,51,1,51); (1,51,1,51)]%Z;
     ts_evals := []; ts_same := []; ts_decls := []; ts_parents := [] |}.
Example RedundantConditionalOperator_SameVariable_holds : sorted_violations_of (shippedRule sh_RedundantConditionalOperator) RedundantConditionalOperator_SameVariable = Some [(1, 39, 1, 51, $"")%Z].
Proof. vm_compute. reflexivity. Qed.

Definition RedundantConditionalOperator_DifferentVariable : testcase :=
  {| ts_lang := LC; ts_path := $"input.c"; ts_code := [];
     ts_comments := []; ts_conf := [];
     ts_tops := [(toplevel 0 (TFunction false), (Node 0 [] (FunctionDecl {| f_name := $"m"; f_method := None; f_isDefinition := true; f_bodyLines := (1)%Z |} [(Node 1 [] (VarDecl {| v_isParm := true; v_name := $"a"; v_used := true; v_referenced := true; v_local := false; v_staticMember := false; v_private := false; v_unusedAttr := false; v_defaultArg := false; v_canonicalType := $"int"; v_inTemplate := false; v_contexts := [CxFunction true true false] |} None)); (Node 2 [] (VarDecl {| v_isParm := true; v_name := $"b"; v_used := true; v_referenced := true; v_local := false; v_staticMember := false; v_private := false; v_unusedAttr := false; v_defaultArg := false; v_canonicalType := $"int"; v_inTemplate := false; v_contexts := [CxFunction true true false] |} None)); (Node 3 [] (VarDecl {| v_isParm := true; v_name := $"d"; v_used := true; v_referenced := true; v_local := false; v_staticMember := false; v_private := false; v_unusedAttr := false; v_defaultArg := false; v_canonicalType := $"int"; v_inTemplate := false; v_contexts := [CxFunction true true false] |} None)); (Node 4 [] (VarDecl {| v_isParm := true; v_name := $"e"; v_used := true; v_referenced := true; v_local := false; v_staticMember := false; v_private := false; v_unusedAttr := false; v_defaultArg := false; v_canonicalType := $"int"; v_inTemplate := false; v_contexts := [CxFunction true true false] |} None))] (Some (Node 5 [] (CompoundStmt [(Node 6 [] (DeclStmt [(Node 7 [] (VarDecl {| v_isParm := false; v_name := $"c"; v_used := false; v_referenced := false; v_local := true; v_staticMember := false; v_private := false; v_unusedAttr := false; v_defaultArg := false; v_canonicalType := $"int"; v_inTemplate := false; v_contexts := [CxFunction true true false] |} (Some (Node 8 [] (ConditionalOperator (Node 9 [] (BinaryOperator BO_Other (Node 10 [] (ImplicitCastExpr CK_LValueToRValue (Node 11 [] (DeclRefExpr 1 $"a" false)))) (Node 12 [] (ImplicitCastExpr CK_LValueToRValue (Node 13 [] (DeclRefExpr 2 $"b" false)))))) (Node 14 [] (ImplicitCastExpr CK_LValueToRValue (Node 15 [] (DeclRefExpr 3 $"d" false)))) (Node 16 [] (ImplicitCastExpr CK_LValueToRValue (Node 17 [] (DeclRefExpr 4 $"e" false)))))))))]))]))))))];
     ts_locs := [(1,1,1,61); (1,8,1,12); (1,15,1,19); (1,22,1,26); (1,29,1,33); (1,36,1,61); (1,38,1,59); (1,38,1,58); (1,46,1,58); (1,46,1,50); (1,46,1,46); (1,46,1,46); (1,50,1,50); (1,50,1,50); (1,54,1,54); (1,54,1,54); (1,58,1,58); (1,58,1,58)]%Z;
     ts_evals := []; ts_same := []; ts_decls := []; ts_parents := [] |}.
Example RedundantConditionalOperator_DifferentVariable_holds : sorted_violations_of (shippedRule sh_RedundantConditionalOperator) RedundantConditionalOperator_DifferentVariable = Some [].
Proof. vm_compute. reflexivity. Qed.

(** ** oclint-rules/test/redundant/RedundantIfStatementRuleTest.cpp *)

Definition RedundantIfStatement_GoodIfStatement : testcase :=
  {| ts_lang := LC; ts_path := $"input.c"; ts_code := [];
     ts_comments := []; ts_conf := [];
     ts_tops := [(toplevel 0 (TFunction false), (Node 0 [] (FunctionDecl {| f_name := $"aMethod"; f_method := None; f_isDefinition := true; f_bodyLines := (1)%Z |} [] (Some (Node 1 [] (CompoundStmt [(Node 2 [] (IfStmt [] (Node 3 [] (IntegerLiteral (1)%Z)) (Node 4 [] (CompoundStmt [(Node 5 [] NullStmt)])) None))]))))))];
     ts_locs := [(1,1,1,29); (1,16,1,29); (1,18,1,27); (1,22,1,22); (1,25,1,27); (1,26,1,26)]%Z;
     ts_evals := [(3, true)]; ts_same := []; ts_decls := []; ts_parents := [] |}.
Example RedundantIfStatement_GoodIfStatement_holds : sorted_violations_of (shippedRule sh_RedundantIfStatement) RedundantIfStatement_GoodIfStatement = Some [].
Proof. vm_compute. reflexivity. Qed.

Definition RedundantIfStatement_CPPTrueThenAndFalseElse : testcase :=
  {| ts_lang := LCXX; ts_path := $"input.cpp"; ts_code := [];
     ts_comments := []; ts_conf := [];
     ts_tops := [(toplevel 0 (TFunction false), (Node 0 [] (FunctionDecl {| f_name := $"aMethod"; f_method := None; f_isDefinition := true; f_bodyLines := (1)%Z |} [] (Some (Node 1 [] (CompoundStmt [(Node 2 [] (IfStmt [] (Node 3 [] (ImplicitCastExpr CK_Other (Node 4 [] (IntegerLiteral (1)%Z)))) (Node 5 [] (CompoundStmt [(Node 6 [] (ReturnStmt (Some (Node 7 [] (CXXBoolLiteralExpr true)))))])) (Some (Node 8 [] (ReturnStmt (Some (Node 9 [] (CXXBoolLiteralExpr false))))))))]))))))];
     ts_locs := [(1,1,1,61); (1,16,1,61); (1,18,1,54); (1,22,1,22); (1,22,1,22); (1,25,1,40); (1,27,1,34); (1,34,1,34); (1,47,1,54); (1,54,1,54)]%Z;
     ts_evals := [(3, true)]; ts_same := []; ts_decls := []; ts_parents := [] |}.
Example RedundantIfStatement_CPPTrueThenAndFalseElse_holds : sorted_violations_of (shippedRule sh_RedundantIfStatement) RedundantIfStatement_CPPTrueThenAndFalseElse = Some [(1, 18, 1, 54, $"")%Z].
Proof. vm_compute. reflexivity. Qed.

Definition RedundantIfStatement_CPPFalseThenAndTrueElse : testcase :=
  {| ts_lang := LCXX; ts_path := $"input.cpp"; ts_code := [];
     ts_comments := []; ts_conf := [];
     ts_tops := [(toplevel 0 (TFunction false), (Node 0 [] (FunctionDecl {| f_name := $"aMethod"; f_method := None; f_isDefinition := true; f_bodyLines := (1)%Z |} [] (Some (Node 1 [] (CompoundStmt [(Node 2 [] (IfStmt [] (Node 3 [] (ImplicitCastExpr CK_Other (Node 4 [] (IntegerLiteral (1)%Z)))) (Node 5 [] (ReturnStmt (Some (Node 6 [] (CXXBoolLiteralExpr false))))) (Some (Node 7 [] (CompoundStmt [(Node 8 [] (ReturnStmt (Some (Node 9 [] (CXXBoolLiteralExpr true)))))])))))]))))))];
     ts_locs := [(1,1,1,61); (1,16,1,61); (1,18,1,59); (1,22,1,22); (1,22,1,22); (1,25,1,32); (1,32,1,32); (1,44,1,59); (1,46,1,53); (1,53,1,53)]%Z;
     ts_evals := [(3, true)]; ts_same := []; ts_decls := []; ts_parents := [] |}.
Example RedundantIfStatement_CPPFalseThenAndTrueElse_holds : sorted_violations_of (shippedRule sh_RedundantIfStatement) RedundantIfStatement_CPPFalseThenAndTrueElse = Some [(1, 18, 1, 59, $"")%Z].
Proof. vm_compute. reflexivity. Qed.

Definition RedundantIfStatement_CPPBooleanDeclaration : testcase :=
  {| ts_lang := LCXX; ts_path := $"input.cpp"; ts_code := [];
     ts_comments := []; ts_conf := [];
     ts_tops := [(toplevel 0 (TFunction false), (Node 0 [] (FunctionDecl {| f_name := $"aMethod"; f_method := None; f_isDefinition := true; f_bodyLines := (1)%Z |} [] (Some (Node 1 [] (CompoundStmt [(Node 2 [] (DeclStmt [(Node 3 [] (VarDecl {| v_isParm := false; v_name := $"b"; v_used := true; v_referenced := true; v_local := true; v_staticMember := false; v_private := false; v_unusedAttr := false; v_defaultArg := false; v_canonicalType := $"bool"; v_inTemplate := false; v_contexts := [CxFunction true true false] |} None))])); (Node 4 [] (IfStmt [] (Node 5 [] (ImplicitCastExpr CK_Other (Node 6 [] (IntegerLiteral (1)%Z)))) (Node 7 [] (CompoundStmt [(Node 8 [] (BinaryOperator BO_Assign (Node 9 [] (DeclRefExpr 3 $"b" false)) (Node 10 [] (CXXBoolLiteralExpr true))))])) (Some (Node 11 [] (BinaryOperator BO_Assign (Node 12 [] (DeclRefExpr 3 $"b" false)) (Node 13 [] (CXXBoolLiteralExpr false)))))))]))))))];
     ts_locs := [(1,1,1,63); (1,16,1,63); (1,18,1,24); (1,18,1,23); (1,26,1,56); (1,30,1,30); (1,30,1,30); (1,33,1,45); (1,35,1,39); (1,35,1,35); (1,39,1,39); (1,52,1,56); (1,52,1,52); (1,56,1,56)]%Z;
     ts_evals := [(5, true)]; ts_same := []; ts_decls := []; ts_parents := [] |}.
Example RedundantIfStatement_CPPBooleanDeclaration_holds : sorted_violations_of (shippedRule sh_RedundantIfStatement) RedundantIfStatement_CPPBooleanDeclaration = Some [(1, 26, 1, 56, $"")%Z].
Proof. vm_compute. reflexivity. Qed.

Definition RedundantIfStatement_ObjCYesThenAndNoElse : testcase :=
  {| ts_lang := LObjC; ts_path := $"input.m"; ts_code := [];
     ts_comments := []; ts_conf := [];
     ts_tops := [(toplevel 0 (TOther), (Node 0 [] (OtherDecl []))); (toplevel 1 (TFunction false), (Node 1 [] (FunctionDecl {| f_name := $"aMethod"; f_method := None; f_isDefinition := true; f_bodyLines := (1)%Z |} [] (Some (Node 2 [] (CompoundStmt [(Node 3 [] (IfStmt [] (Node 4 $"int" (IntegerLiteral (1)%Z)) (Node 5 [] (CompoundStmt [(Node 6 [] (ReturnStmt (Some (Node 7 $"BOOL" (CStyleCastExpr CK_Other (Node 8 $"int" (IntegerLiteral (1)%Z)))))))])) (Some (Node 9 [] (ReturnStmt (Some (Node 10 $"BOOL" (CStyleCastExpr CK_Other (Node 11 $"int" (IntegerLiteral (0)%Z))))))))))]))))))];
     ts_locs := [(1,1,1,22); (4,1,4,57); (4,16,4,57); (4,18,4,53); (4,22,4,22); (4,25,4,39); (4,27,4,34); (4,34,4,34); (4,34,4,34); (4,46,4,53); (4,53,4,53); (4,53,4,53)]%Z;
     ts_evals := [(4, true)]; ts_same := []; ts_decls := []; ts_parents := [] |}.
Example RedundantIfStatement_ObjCYesThenAndNoElse_holds : sorted_violations_of (shippedRule sh_RedundantIfStatement) RedundantIfStatement_ObjCYesThenAndNoElse = Some [(4, 18, 4, 53, $"")%Z].
Proof. vm_compute. reflexivity. Qed.

Definition RedundantIfStatement_ObjCNoThenAndYesElse : testcase :=
  {| ts_lang := LObjC; ts_path := $"input.m"; ts_code := [];
     ts_comments := []; ts_conf := [];
     ts_tops := [(toplevel 0 (TOther), (Node 0 [] (OtherDecl []))); (toplevel 1 (TFunction false), (Node 1 [] (FunctionDecl {| f_name := $"aMethod"; f_method := None; f_isDefinition := true; f_bodyLines := (1)%Z |} [] (Some (Node 2 [] (CompoundStmt [(Node 3 [] (IfStmt [] (Node 4 $"int" (IntegerLiteral (1)%Z)) (Node 5 [] (ReturnStmt (Some (Node 6 $"BOOL" (CStyleCastExpr CK_Other (Node 7 $"int" (IntegerLiteral (0)%Z))))))) (Some (Node 8 [] (CompoundStmt [(Node 9 [] (ReturnStmt (Some (Node 10 $"BOOL" (CStyleCastExpr CK_Other (Node 11 $"int" (IntegerLiteral (1)%Z)))))))])))))]))))))];
     ts_locs := [(1,1,1,22); (4,1,4,57); (4,16,4,57); (4,18,4,55); (4,22,4,22); (4,25,4,32); (4,32,4,32); (4,32,4,32); (4,41,4,55); (4,43,4,50); (4,50,4,50); (4,50,4,50)]%Z;
     ts_evals := [(4, true)]; ts_same := []; ts_decls := []; ts_parents := [] |}.
Example RedundantIfStatement_ObjCNoThenAndYesElse_holds : sorted_violations_of (shippedRule sh_RedundantIfStatement) RedundantIfStatement_ObjCNoThenAndYesElse = Some [(4, 18, 4, 55, $"")%Z].
Proof. vm_compute. reflexivity. Qed.

Definition RedundantIfStatement_ObjCBOOLDeclaration : testcase :=
  {| ts_lang := LObjC; ts_path := $"input.m"; ts_code := [];
     ts_comments := []; ts_conf := [];
     ts_tops := [(toplevel 0 (TOther), (Node 0 [] (OtherDecl []))); (toplevel 1 (TFunction false), (Node 1 [] (FunctionDecl {| f_name := $"aMethod"; f_method := None; f_isDefinition := true; f_bodyLines := (1)%Z |} [] (Some (Node 2 [] (CompoundStmt [(Node 3 [] (DeclStmt [(Node 4 [] (VarDecl {| v_isParm := false; v_name := $"b"; v_used := true; v_referenced := true; v_local := true; v_staticMember := false; v_private := false; v_unusedAttr := false; v_defaultArg := false; v_canonicalType := $"signed char"; v_inTemplate := false; v_contexts := [CxFunction true true false] |} None))])); (Node 5 [] (IfStmt [] (Node 6 $"int" (IntegerLiteral (1)%Z)) (Node 7 [] (CompoundStmt [(Node 8 $"BOOL" (BinaryOperator BO_Assign (Node 9 $"BOOL" (DeclRefExpr 4 $"b" false)) (Node 10 $"BOOL" (CStyleCastExpr CK_Other (Node 11 $"int" (IntegerLiteral (1)%Z))))))])) (Some (Node 12 $"BOOL" (BinaryOperator BO_Assign (Node 13 $"BOOL" (DeclRefExpr 4 $"b" false)) (Node 14 $"BOOL" (CStyleCastExpr CK_Other (Node 15 $"int" (IntegerLiteral (0)%Z)))))))))]))))))];
     ts_locs := [(1,1,1,22); (4,1,4,59); (4,16,4,59); (4,18,4,24); (4,18,4,23); (4,26,4,55); (4,30,4,30); (4,33,4,44); (4,35,4,39); (4,35,4,35); (4,39,4,39); (4,39,4,39); (4,51,4,55); (4,51,4,51); (4,55,4,55); (4,55,4,55)]%Z;
     ts_evals := [(6, true)]; ts_same := []; ts_decls := []; ts_parents := [] |}.
Example RedundantIfStatement_ObjCBOOLDeclaration_holds : sorted_violations_of (shippedRule sh_RedundantIfStatement) RedundantIfStatement_ObjCBOOLDeclaration = Some [(4, 26, 4, 55, $"")%Z].
Proof. vm_compute. reflexivity. Qed.

Definition RedundantIfStatement_ObjCYesThenAndNoElse_HasFeatureObjCBOOL : testcase :=
  {| ts_lang := LObjC; ts_path := $"input.m"; ts_code := [];
     ts_comments := []; ts_conf := [];
     ts_tops := [(toplevel 0 (TOther), (Node 0 [] (OtherDecl []))); (toplevel 1 (TFunction false), (Node 1 [] (FunctionDecl {| f_name := $"aMethod"; f_method := None; f_isDefinition := true; f_bodyLines := (1)%Z |} [] (Some (Node 2 [] (CompoundStmt [(Node 3 [] (IfStmt [] (Node 4 $"int" (IntegerLiteral (1)%Z)) (Node 5 [] (CompoundStmt [(Node 6 [] (ReturnStmt (Some (Node 7 $"signed char" (ObjCBoolLiteralExpr true)))))])) (Some (Node 8 [] (ReturnStmt (Some (Node 9 $"signed char" (ObjCBoolLiteralExpr false))))))))]))))))];
     ts_locs := [(1,1,1,22); (4,1,4,57); (4,16,4,57); (4,18,4,53); (4,22,4,22); (4,25,4,39); (4,27,4,34); (4,34,4,34); (4,46,4,53); (4,53,4,53)]%Z;
     ts_evals := [(4, true)]; ts_same := []; ts_decls := []; ts_parents := [] |}.
Example RedundantIfStatement_ObjCYesThenAndNoElse_HasFeatureObjCBOOL_holds : sorted_violations_of (shippedRule sh_RedundantIfStatement) RedundantIfStatement_ObjCYesThenAndNoElse_HasFeatureObjCBOOL = Some [(4, 18, 4, 53, $"")%Z].
Proof. vm_compute. reflexivity. Qed.

Definition RedundantIfStatement_ObjCNoThenAndYesElse_HasFeatureObjCBOOL : testcase :=
  {| ts_lang := LObjC; ts_path := $"input.m"; ts_code := [];
     ts_comments := []; ts_conf := [];
     ts_tops := [(toplevel 0 (TOther), (Node 0 [] (OtherDecl []))); (toplevel 1 (TFunction false), (Node 1 [] (FunctionDecl {| f_name := $"aMethod"; f_method := None; f_isDefinition := true; f_bodyLines := (1)%Z |} [] (Some (Node 2 [] (CompoundStmt [(Node 3 [] (IfStmt [] (Node 4 $"int" (IntegerLiteral (1)%Z)) (Node 5 [] (ReturnStmt (Some (Node 6 $"signed char" (ObjCBoolLiteralExpr false))))) (Some (Node 7 [] (CompoundStmt [(Node 8 [] (ReturnStmt (Some (Node 9 $"signed char" (ObjCBoolLiteralExpr true)))))])))))]))))))];
     ts_locs := [(1,1,1,22); (4,1,4,57); (4,16,4,57); (4,18,4,55); (4,22,4,22); (4,25,4,32); (4,32,4,32); (4,41,4,55); (4,43,4,50); (4,50,4,50)]%Z;
     ts_evals := [(4, true)]; ts_same := []; ts_decls := []; ts_parents := [] |}.
Example RedundantIfStatement_ObjCNoThenAndYesElse_HasFeatureObjCBOOL_holds : sorted_violations_of (shippedRule sh_RedundantIfStatement) RedundantIfStatement_ObjCNoThenAndYesElse_HasFeatureObjCBOOL = Some [(4, 18, 4, 55, $"")%Z].
Proof. vm_compute. reflexivity. Qed.

Definition RedundantIfStatement_ObjCBOOLDeclaration_HasFeatureObjCBOOL : testcase :=
  {| ts_lang := LObjC; ts_path := $"input.m"; ts_code := [];
     ts_comments := []; ts_conf := [];
     ts_tops := [(toplevel 0 (TOther), (Node 0 [] (OtherDecl []))); (toplevel 1 (TFunction false), (Node 1 [] (FunctionDecl {| f_name := $"aMethod"; f_method := None; f_isDefinition := true; f_bodyLines := (1)%Z |} [] (Some (Node 2 [] (CompoundStmt [(Node 3 [] (DeclStmt [(Node 4 [] (VarDecl {| v_isParm := false; v_name := $"b"; v_used := true; v_referenced := true; v_local := true; v_staticMember := false; v_private := false; v_unusedAttr := false; v_defaultArg := false; v_canonicalType := $"signed char"; v_inTemplate := false; v_contexts := [CxFunction true true false] |} None))])); (Node 5 [] (IfStmt [] (Node 6 $"int" (IntegerLiteral (1)%Z)) (Node 7 [] (CompoundStmt [(Node 8 $"BOOL" (BinaryOperator BO_Assign (Node 9 $"BOOL" (DeclRefExpr 4 $"b" false)) (Node 10 $"signed char" (ObjCBoolLiteralExpr true))))])) (Some (Node 11 $"BOOL" (BinaryOperator BO_Assign (Node 12 $"BOOL" (DeclRefExpr 4 $"b" false)) (Node 13 $"signed char" (ObjCBoolLiteralExpr false)))))))]))))))];
     ts_locs := [(1,1,1,22); (4,1,4,59); (4,16,4,59); (4,18,4,24); (4,18,4,23); (4,26,4,55); (4,30,4,30); (4,33,4,44); (4,35,4,39); (4,35,4,35); (4,39,4,39); (4,51,4,55); (4,51,4,51); (4,55,4,55)]%Z;
     ts_evals := [(6, true)]; ts_same := []; ts_decls := []; ts_parents := [] |}.
Example RedundantIfStatement_ObjCBOOLDeclaration_HasFeatureObjCBOOL_holds : sorted_violations_of (shippedRule sh_RedundantIfStatement) RedundantIfStatement_ObjCBOOLDeclaration_HasFeatureObjCBOOL = Some [(4, 26, 4, 55, $"")%Z].
Proof. vm_compute. reflexivity. Qed.

Definition RedundantIfStatement_SameBooleanReturn : testcase :=
  {| ts_lang := LObjC; ts_path := $"input.m"; ts_code := [];
     ts_comments := []; ts_conf := [];
     ts_tops := [(toplevel 0 (TOther), (Node 0 [] (OtherDecl []))); (toplevel 1 (TFunction false), (Node 1 [] (FunctionDecl {| f_name := $"aMethod"; f_method := None; f_isDefinition := true; f_bodyLines := (1)%Z |} [] (Some (Node 2 [] (CompoundStmt [(Node 3 [] (DeclStmt [(Node 4 [] (VarDecl {| v_isParm := false; v_name := $"b"; v_used := true; v_referenced := true; v_local := true; v_staticMember := false; v_private := false; v_unusedAttr := false; v_defaultArg := false; v_canonicalType := $"signed char"; v_inTemplate := false; v_contexts := [CxFunction true true false] |} None))])); (Node 5 [] (IfStmt [] (Node 6 $"int" (IntegerLiteral (1)%Z)) (Node 7 [] (CompoundStmt [(Node 8 $"BOOL" (BinaryOperator BO_Assign (Node 9 $"BOOL" (DeclRefExpr 4 $"b" false)) (Node 10 $"BOOL" (CStyleCastExpr CK_Other (Node 11 $"int" (IntegerLiteral (1)%Z))))))])) (Some (Node 12 $"BOOL" (BinaryOperator BO_Assign (Node 13 $"BOOL" (DeclRefExpr 4 $"b" false)) (Node 14 $"BOOL" (CStyleCastExpr CK_Other (Node 15 $"int" (IntegerLiteral (1)%Z)))))))))]))))))];
     ts_locs := [(1,1,1,24); (4,1,4,60); (4,16,4,60); (4,18,4,24); (4,18,4,23); (4,26,4,55); (4,30,4,30); (4,33,4,44); (4,35,4,39); (4,35,4,35); (4,39,4,39); (4,39,4,39); (4,51,4,55); (4,51,4,51); (4,55,4,55); (4,55,4,55)]%Z;
     ts_evals := [(6, true)]; ts_same := []; ts_decls := []; ts_parents := [] |}.
Example RedundantIfStatement_SameBooleanReturn_holds : sorted_violations_of (shippedRule sh_RedundantIfStatement) RedundantIfStatement_SameBooleanReturn = Some [].
Proof. vm_compute. reflexivity. Qed.

Definition RedundantIfStatement_OneThenAndZeroElse : testcase :=
  {| ts_lang := LC; ts_path := $"input.c"; ts_code := [];
     ts_comments := []; ts_conf := [];
     ts_tops := [(toplevel 0 (TFunction false), (Node 0 [] (FunctionDecl {| f_name := $"aMethod"; f_method := None; f_isDefinition := true; f_bodyLines := (1)%Z |} [] (Some (Node 1 [] (CompoundStmt [(Node 2 [] (IfStmt [] (Node 3 [] (IntegerLiteral (1)%Z)) (Node 4 [] (CompoundStmt [(Node 5 [] (ReturnStmt (Some (Node 6 [] (IntegerLiteral (1)%Z)))))])) (Some (Node 7 [] (ReturnStmt (Some (Node 8 [] (IntegerLiteral (0)%Z))))))))]))))))];
     ts_locs := [(1,1,1,53); (1,15,1,53); (1,17,1,50); (1,21,1,21); (1,24,1,36); (1,26,1,33); (1,33,1,33); (1,43,1,50); (1,50,1,50)]%Z;
     ts_evals := [(3, true)]; ts_same := []; ts_decls := []; ts_parents := [] |}.
Example RedundantIfStatement_OneThenAndZeroElse_holds : sorted_violations_of (shippedRule sh_RedundantIfStatement) RedundantIfStatement_OneThenAndZeroElse = Some [].
Proof. vm_compute. reflexivity. Qed.

Definition RedundantIfStatement_ZeroThenAndOneElse : testcase :=
  {| ts_lang := LC; ts_path := $"input.c"; ts_code := [];
     ts_comments := []; ts_conf := [];
     ts_tops := [(toplevel 0 (TFunction false), (Node 0 [] (FunctionDecl {| f_name := $"aMethod"; f_method := None; f_isDefinition := true; f_bodyLines := (1)%Z |} [] (Some (Node 1 [] (CompoundStmt [(Node 2 [] (IfStmt [] (Node 3 [] (IntegerLiteral (1)%Z)) (Node 4 [] (ReturnStmt (Some (Node 5 [] (IntegerLiteral (0)%Z))))) (Some (Node 6 [] (CompoundStmt [(Node 7 [] (ReturnStmt (Some (Node 8 [] (IntegerLiteral (1)%Z)))))])))))]))))))];
     ts_locs := [(1,1,1,53); (1,15,1,53); (1,17,1,51); (1,21,1,21); (1,24,1,31); (1,31,1,31); (1,39,1,51); (1,41,1,48); (1,48,1,48)]%Z;
     ts_evals := [(3, true)]; ts_same := []; ts_decls := []; ts_parents := [] |}.
Example RedundantIfStatement_ZeroThenAndOneElse_holds : sorted_violations_of (shippedRule sh_RedundantIfStatement) RedundantIfStatement_ZeroThenAndOneElse = Some [].
Proof. vm_compute. reflexivity. Qed.

Definition RedundantIfStatement_CIntDeclaration : testcase :=
  {| ts_lang := LC; ts_path := $"input.c"; ts_code := [];
     ts_comments := []; ts_conf := [];
     ts_tops := [(toplevel 0 (TFunction false), (Node 0 [] (FunctionDecl {| f_name := $"aMethod"; f_method := None; f_isDefinition := true; f_bodyLines := (1)%Z |} [] (Some (Node 1 [] (CompoundStmt [(Node 2 [] (DeclStmt [(Node 3 [] (VarDecl {| v_isParm := false; v_name := $"b"; v_used := true; v_referenced := true; v_local := true; v_staticMember := false; v_private := false; v_unusedAttr := false; v_defaultArg := false; v_canonicalType := $"int"; v_inTemplate := false; v_contexts := [CxFunction true true false] |} None))])); (Node 4 [] (IfStmt [] (Node 5 [] (IntegerLiteral (1)%Z)) (Node 6 [] (CompoundStmt [(Node 7 [] (BinaryOperator BO_Assign (Node 8 [] (DeclRefExpr 3 $"b" false)) (Node 9 [] (IntegerLiteral (6)%Z))))])) (Some (Node 10 [] (BinaryOperator BO_Assign (Node 11 [] (DeclRefExpr 3 $"b" false)) (Node 12 [] (IntegerLiteral (0)%Z)))))))]))))))];
     ts_locs := [(1,1,1,55); (1,16,1,55); (1,18,1,23); (1,18,1,22); (1,25,1,52); (1,29,1,29); (1,32,1,41); (1,34,1,38); (1,34,1,34); (1,38,1,38); (1,48,1,52); (1,48,1,48); (1,52,1,52)]%Z;
     ts_evals := [(5, true)]; ts_same := []; ts_decls := []; ts_parents := [] |}.
Example RedundantIfStatement_CIntDeclaration_holds : sorted_violations_of (shippedRule sh_RedundantIfStatement) RedundantIfStatement_CIntDeclaration = Some [].
Proof. vm_compute. reflexivity. Qed.

(** ** oclint-rules/test/redundant/RedundantLocalVariableRuleTest.cpp *)

Definition RedundantLocalVariable_NoRedundantLocalVariable : testcase :=
  {| ts_lang := LC; ts_path := $"input.c"; ts_code := [];
     ts_comments := []; ts_conf := [];
     ts_tops := [(toplevel 0 (TFunction false), (Node 0 [] (FunctionDecl {| f_name := $"aMethod"; f_method := None; f_isDefinition := true; f_bodyLines := (1)%Z |} [] (Some (Node 1 [] (CompoundStmt [(Node 2 [] (DeclStmt [(Node 3 [] (VarDecl {| v_isParm := false; v_name := $"i"; v_used := true; v_referenced := true; v_local := true; v_staticMember := false; v_private := false; v_unusedAttr := false; v_defaultArg := false; v_canonicalType := $"int"; v_inTemplate := false; v_contexts := [CxFunction true true false] |} (Some (Node 4 [] (IntegerLiteral (1)%Z)))))])); (Node 5 [] (UnaryOperator UO_Other (Node 6 [] (DeclRefExpr 3 $"i" false)))); (Node 7 [] (ReturnStmt (Some (Node 8 [] (IntegerLiteral (0)%Z)))))]))))))];
     ts_locs := [(1,1,1,43); (1,15,1,43); (1,17,1,26); (1,17,1,25); (1,25,1,25); (1,28,1,29); (1,28,1,28); (1,33,1,40); (1,40,1,40)]%Z;
     ts_evals := []; ts_same := []; ts_decls := []; ts_parents := [] |}.
Example RedundantLocalVariable_NoRedundantLocalVariable_holds : sorted_violations_of (shippedRule sh_RedundantLocalVariable) RedundantLocalVariable_NoRedundantLocalVariable = Some [].
Proof. vm_compute. reflexivity. Qed.

Definition RedundantLocalVariable_DeclVarFollowedByReturnStmt : testcase :=
  {| ts_lang := LC; ts_path := $"input.c"; ts_code := [];
     ts_comments := []; ts_conf := [];
     ts_tops := [(toplevel 0 (TFunction false), (Node 0 [] (FunctionDecl {| f_name := $"aMethod"; f_method := None; f_isDefinition := true; f_bodyLines := (1)%Z |} [] (Some (Node 1 [] (CompoundStmt [(Node 2 [] (DeclStmt [(Node 3 [] (VarDecl {| v_isParm := false; v_name := $"i"; v_used := true; v_referenced := true; v_local := true; v_staticMember := false; v_private := false; v_unusedAttr := false; v_defaultArg := false; v_canonicalType := $"int"; v_inTemplate := false; v_contexts := [CxFunction true true false] |} (Some (Node 4 [] (IntegerLiteral (1)%Z)))))])); (Node 5 [] (ReturnStmt (Some (Node 6 [] (ImplicitCastExpr CK_LValueToRValue (Node 7 [] (DeclRefExpr 3 $"i" false)))))))]))))))];
     ts_locs := [(1,1,1,38); (1,15,1,38); (1,17,1,26); (1,17,1,25); (1,25,1,25); (1,28,1,35); (1,35,1,35); (1,35,1,35)]%Z;
     ts_evals := []; ts_same := []; ts_decls := []; ts_parents := [] |}.
Example RedundantLocalVariable_DeclVarFollowedByReturnStmt_holds : sorted_violations_of (shippedRule sh_RedundantLocalVariable) RedundantLocalVariable_DeclVarFollowedByReturnStmt = Some [(1, 17, 1, 25, $"")%Z].
Proof. vm_compute. reflexivity. Qed.

Definition RedundantLocalVariable_DeclVarFollowedByReturnStmtInANestedCompoundStmt : testcase :=
  {| ts_lang := LC; ts_path := $"input.c"; ts_code := [];
     ts_comments := []; ts_conf := [];
     ts_tops := [(toplevel 0 (TFunction false), (Node 0 [] (FunctionDecl {| f_name := $"aMethod"; f_method := None; f_isDefinition := true; f_bodyLines := (1)%Z |} [] (Some (Node 1 [] (CompoundStmt [(Node 2 [] (IfStmt [] (Node 3 [] (IntegerLiteral (1)%Z)) (Node 4 [] (CompoundStmt [(Node 5 [] (DeclStmt [(Node 6 [] (VarDecl {| v_isParm := false; v_name := $"i"; v_used := true; v_referenced := true; v_local := true; v_staticMember := false; v_private := false; v_unusedAttr := false; v_defaultArg := false; v_canonicalType := $"int"; v_inTemplate := false; v_contexts := [CxFunction true true false] |} (Some (Node 7 [] (IntegerLiteral (1)%Z)))))])); (Node 8 [] (ReturnStmt (Some (Node 9 [] (ImplicitCastExpr CK_LValueToRValue (Node 10 [] (DeclRefExpr 6 $"i" false)))))))])) None)); (Node 11 [] (ReturnStmt (Some (Node 12 [] (IntegerLiteral (0)%Z)))))]))))))];
     ts_locs := [(1,1,1,59); (1,15,1,59); (1,17,1,47); (1,21,1,21); (1,24,1,47); (1,26,1,35); (1,26,1,34); (1,34,1,34); (1,37,1,44); (1,44,1,44); (1,44,1,44); (1,49,1,56); (1,56,1,56)]%Z;
     ts_evals := [(3, true)]; ts_same := []; ts_decls := []; ts_parents := [] |}.
Example RedundantLocalVariable_DeclVarFollowedByReturnStmtInANestedCompoundStmt_holds : sorted_violations_of (shippedRule sh_RedundantLocalVariable) RedundantLocalVariable_DeclVarFollowedByReturnStmtInANestedCompoundStmt = Some [(1, 26, 1, 34, $"")%Z].
Proof. vm_compute. reflexivity. Qed.

(** ** oclint-rules/test/redundant/RedundantNilCheckRuleTest.cpp *)

Definition RedundantNilCheck_ObjC_CorrectNullEqCheck : testcase :=
  {| ts_lang := LObjC; ts_path := $"input.m"; ts_code := [];
     ts_comments := []; ts_conf := [];
     ts_tops := [(toplevel 0 (TOther), (Node 0 [] (OtherDecl []))); (toplevel 1 (TOther), (Node 1 [] (ObjCContainerDecl {| oc_kind := OKInterface; oc_name := $"NSObject"; oc_lines := (2)%Z; oc_ivars := 0; oc_methods := []; oc_classes := [$"NSObject"]; oc_superMethods := None |} []))); (toplevel 2 (TOther), (Node 2 [] (ObjCContainerDecl {| oc_kind := OKInterface; oc_name := $"A"; oc_lines := (4)%Z; oc_ivars := 0; oc_methods := [($"isEqualTo:", true); ($"compare:withOther:", false)]; oc_classes := [$"A"; $"NSObject"]; oc_superMethods := (Some ($"NSObject", [])) |} [(Node 3 [] (ObjCMethodDecl {| om_selector := $"isEqualTo:"; om_class := (Some $"A"); om_overriding := false; om_overridden := []; om_bodyLines := (0)%Z |} [(Node 4 [] (VarDecl {| v_isParm := true; v_name := $"obj"; v_used := false; v_referenced := false; v_local := false; v_staticMember := false; v_private := false; v_unusedAttr := false; v_defaultArg := false; v_canonicalType := $"struct objc_object *"; v_inTemplate := false; v_contexts := [CxObjCMethod true false false false; CxOther] |} None))] None)); (Node 5 [] (ObjCMethodDecl {| om_selector := $"compare:withOther:"; om_class := (Some $"A"); om_overriding := false; om_overridden := []; om_bodyLines := (0)%Z |} [(Node 6 [] (VarDecl {| v_isParm := true; v_name := $"obj1"; v_used := false; v_referenced := false; v_local := false; v_staticMember := false; v_private := false; v_unusedAttr := false; v_defaultArg := false; v_canonicalType := $"A *"; v_inTemplate := false; v_contexts := [CxObjCMethod true false false false; CxOther] |} None)); (Node 7 [] (VarDecl {| v_isParm := true; v_name := $"obj2"; v_used := false; v_referenced := false; v_local := false; v_staticMember := false; v_private := false; v_unusedAttr := false; v_defaultArg := false; v_canonicalType := $"A *"; v_inTemplate := false; v_contexts := [CxObjCMethod true false false false; CxOther] |} None))] None))]))); (toplevel 8 (TOther), (Node 8 [] (ObjCContainerDecl {| oc_kind := OKImplementation; oc_name := $"A"; oc_lines := (6)%Z; oc_ivars := 0; oc_methods := [($"isEqualTo:", true); ($"compare:withOther:", false)]; oc_classes := [$"A"; $"NSObject"]; oc_superMethods := (Some ($"NSObject", [])) |} [(Node 9 [] (ObjCMethodDecl {| om_selector := $"isEqualTo:"; om_class := (Some $"A"); om_overriding := false; om_overridden := []; om_bodyLines := (1)%Z |} [(Node 10 [] (VarDecl {| v_isParm := true; v_name := $"obj"; v_used := false; v_referenced := false; v_local := false; v_staticMember := false; v_private := false; v_unusedAttr := false; v_defaultArg := false; v_canonicalType := $"struct objc_object *"; v_inTemplate := false; v_contexts := [CxObjCMethod false false false false] |} None))] (Some (Node 11 [] (CompoundStmt [(Node 12 [] (ReturnStmt (Some (Node 13 $"BOOL" (CStyleCastExpr CK_Other (Node 14 $"int" (IntegerLiteral (1)%Z)))))))]))))); (Node 15 [] (ObjCMethodDecl {| om_selector := $"compare:withOther:"; om_class := (Some $"A"); om_overriding := false; om_overridden := []; om_bodyLines := (3)%Z |} [(Node 16 [] (VarDecl {| v_isParm := true; v_name := $"obj1"; v_used := true; v_referenced := true; v_local := false; v_staticMember := false; v_private := false; v_unusedAttr := false; v_defaultArg := false; v_canonicalType := $"A *"; v_inTemplate := false; v_contexts := [CxObjCMethod false false false false] |} None)); (Node 17 [] (VarDecl {| v_isParm := true; v_name := $"obj2"; v_used := true; v_referenced := true; v_local := false; v_staticMember := false; v_private := false; v_unusedAttr := false; v_defaultArg := false; v_canonicalType := $"A *"; v_inTemplate := false; v_contexts := [CxObjCMethod false false false false] |} None))] (Some (Node 18 [] (CompoundStmt [(Node 19 [] (IfStmt [] (Node 20 $"BOOL" (ObjCMessageExpr {| ms_selector := $"isEqualTo:"; ms_receiver := RInstance; ms_implicit := false; ms_interface := (Some $"A"); ms_method := (Some (Decl [] (Some (Method false None (InOther (Some NoCategory)))))); ms_methodClass := (Some $"A") |} (Some (Node 21 $"A *" (ImplicitCastExpr CK_LValueToRValue (Node 22 $"A *" (DeclRefExpr 16 $"obj1" false))))) [(Node 23 $"id" (ImplicitCastExpr CK_BitCast (Node 24 $"A *" (ImplicitCastExpr CK_LValueToRValue (Node 25 $"A *" (DeclRefExpr 17 $"obj2" false))))))])) (Node 26 [] (CompoundStmt [(Node 27 [] NullStmt)])) None))])))))])))];
     ts_locs := [(2,1,2,21); (5,1,6,2); (7,1,10,2); (8,1,8,26); (8,20,8,23); (9,1,9,46); (9,18,9,22); (9,38,9,42); (11,1,16,1); (12,1,12,41); (12,20,12,23); (12,27,12,41); (12,29,12,36); (12,36,12,36); (12,36,12,36); (13,1,15,1); (13,18,13,22); (13,38,13,42); (13,47,15,1); (14,5,14,36); (14,9,14,29); (14,10,14,10); (14,10,14,10); (14,25,14,25); (14,25,14,25); (14,25,14,25); (14,32,14,36); (14,34,14,34)]%Z;
     ts_evals := []; ts_same := []; ts_decls := []; ts_parents := [] |}.
Example RedundantNilCheck_ObjC_CorrectNullEqCheck_holds : sorted_violations_of (shippedRule sh_RedundantNilCheck) RedundantNilCheck_ObjC_CorrectNullEqCheck = Some [].
Proof. vm_compute. reflexivity. Qed.

Definition RedundantNilCheck_ObjC_EzButRedundantNullEqCheck : testcase :=
  {| ts_lang := LObjC; ts_path := $"input.m"; ts_code := [];
     ts_comments := []; ts_conf := [];
     ts_tops := [(toplevel 0 (TOther), (Node 0 [] (OtherDecl []))); (toplevel 1 (TOther), (Node 1 [] (ObjCContainerDecl {| oc_kind := OKInterface; oc_name := $"NSObject"; oc_lines := (2)%Z; oc_ivars := 0; oc_methods := []; oc_classes := [$"NSObject"]; oc_superMethods := None |} []))); (toplevel 2 (TOther), (Node 2 [] (ObjCContainerDecl {| oc_kind := OKInterface; oc_name := $"A"; oc_lines := (4)%Z; oc_ivars := 0; oc_methods := [($"isEqualTo:", true); ($"compare:withOther:", false)]; oc_classes := [$"A"; $"NSObject"]; oc_superMethods := (Some ($"NSObject", [])) |} [(Node 3 [] (ObjCMethodDecl {| om_selector := $"isEqualTo:"; om_class := (Some $"A"); om_overriding := false; om_overridden := []; om_bodyLines := (0)%Z |} [(Node 4 [] (VarDecl {| v_isParm := true; v_name := $"obj"; v_used := false; v_referenced := false; v_local := false; v_staticMember := false; v_private := false; v_unusedAttr := false; v_defaultArg := false; v_canonicalType := $"struct objc_object *"; v_inTemplate := false; v_contexts := [CxObjCMethod true false false false; CxOther] |} None))] None)); (Node 5 [] (ObjCMethodDecl {| om_selector := $"compare:withOther:"; om_class := (Some $"A"); om_overriding := false; om_overridden := []; om_bodyLines := (0)%Z |} [(Node 6 [] (VarDecl {| v_isParm := true; v_name := $"obj1"; v_used := false; v_referenced := false; v_local := false; v_staticMember := false; v_private := false; v_unusedAttr := false; v_defaultArg := false; v_canonicalType := $"A *"; v_inTemplate := false; v_contexts := [CxObjCMethod true false false false; CxOther] |} None)); (Node 7 [] (VarDecl {| v_isParm := true; v_name := $"obj2"; v_used := false; v_referenced := false; v_local := false; v_staticMember := false; v_private := false; v_unusedAttr := false; v_defaultArg := false; v_canonicalType := $"A *"; v_inTemplate := false; v_contexts := [CxObjCMethod true false false false; CxOther] |} None))] None))]))); (toplevel 8 (TOther), (Node 8 [] (ObjCContainerDecl {| oc_kind := OKImplementation; oc_name := $"A"; oc_lines := (6)%Z; oc_ivars := 0; oc_methods := [($"isEqualTo:", true); ($"compare:withOther:", false)]; oc_classes := [$"A"; $"NSObject"]; oc_superMethods := (Some ($"NSObject", [])) |} [(Node 9 [] (ObjCMethodDecl {| om_selector := $"isEqualTo:"; om_class := (Some $"A"); om_overriding := false; om_overridden := []; om_bodyLines := (1)%Z |} [(Node 10 [] (VarDecl {| v_isParm := true; v_name := $"obj"; v_used := false; v_referenced := false; v_local := false; v_staticMember := false; v_private := false; v_unusedAttr := false; v_defaultArg := false; v_canonicalType := $"struct objc_object *"; v_inTemplate := false; v_contexts := [CxObjCMethod false false false false] |} None))] (Some (Node 11 [] (CompoundStmt [(Node 12 [] (ReturnStmt (Some (Node 13 $"BOOL" (CStyleCastExpr CK_Other (Node 14 $"int" (IntegerLiteral (1)%Z)))))))]))))); (Node 15 [] (ObjCMethodDecl {| om_selector := $"compare:withOther:"; om_class := (Some $"A"); om_overriding := false; om_overridden := []; om_bodyLines := (3)%Z |} [(Node 16 [] (VarDecl {| v_isParm := true; v_name := $"obj1"; v_used := true; v_referenced := true; v_local := false; v_staticMember := false; v_private := false; v_unusedAttr := false; v_defaultArg := false; v_canonicalType := $"A *"; v_inTemplate := false; v_contexts := [CxObjCMethod false false false false] |} None)); (Node 17 [] (VarDecl {| v_isParm := true; v_name := $"obj2"; v_used := true; v_referenced := true; v_local := false; v_staticMember := false; v_private := false; v_unusedAttr := false; v_defaultArg := false; v_canonicalType := $"A *"; v_inTemplate := false; v_contexts := [CxObjCMethod false false false false] |} None))] (Some (Node 18 [] (CompoundStmt [(Node 19 [] (IfStmt [] (Node 20 $"int" (BinaryOperator BO_LAnd (Node 21 $"A *" (ImplicitCastExpr CK_LValueToRValue (Node 22 $"A *" (DeclRefExpr 16 $"obj1" false)))) (Node 23 $"BOOL" (ObjCMessageExpr {| ms_selector := $"isEqualTo:"; ms_receiver := RInstance; ms_implicit := false; ms_interface := (Some $"A"); ms_method := (Some (Decl [] (Some (Method false None (InOther (Some NoCategory)))))); ms_methodClass := (Some $"A") |} (Some (Node 24 $"A *" (ImplicitCastExpr CK_LValueToRValue (Node 25 $"A *" (DeclRefExpr 16 $"obj1" false))))) [(Node 26 $"id" (ImplicitCastExpr CK_BitCast (Node 27 $"A *" (ImplicitCastExpr CK_LValueToRValue (Node 28 $"A *" (DeclRefExpr 17 $"obj2" false))))))])))) (Node 29 [] (CompoundStmt [(Node 30 [] NullStmt)])) None))])))))])))];
     ts_locs := [(2,1,2,21); (5,1,6,2); (7,1,10,2); (8,1,8,26); (8,20,8,23); (9,1,9,46); (9,18,9,22); (9,38,9,42); (11,1,16,1); (12,1,12,41); (12,20,12,23); (12,27,12,41); (12,29,12,36); (12,36,12,36); (12,36,12,36); (13,1,15,1); (13,18,13,22); (13,38,13,42); (13,47,15,1); (14,5,14,44); (14,9,14,37); (14,9,14,9); (14,9,14,9); (14,17,14,37); (14,18,14,18); (14,18,14,18); (14,33,14,33); (14,33,14,33); (14,33,14,33); (14,40,14,44); (14,42,14,42)]%Z;
     ts_evals := []; ts_same := []; ts_decls := []; ts_parents := [] |}.
Example RedundantNilCheck_ObjC_EzButRedundantNullEqCheck_holds : sorted_violations_of (shippedRule sh_RedundantNilCheck) RedundantNilCheck_ObjC_EzButRedundantNullEqCheck = Some [(14, 9, 14, 37, $"")%Z].
Proof. vm_compute. reflexivity. Qed.

Definition RedundantNilCheck_ObjC_ExplicitButRedundantNullEqCheck : testcase :=
  {| ts_lang := LObjC; ts_path := $"input.m"; ts_code := [];
     ts_comments := []; ts_conf := [];
     ts_tops := [(toplevel 0 (TOther), (Node 0 [] (OtherDecl []))); (toplevel 1 (TOther), (Node 1 [] (ObjCContainerDecl {| oc_kind := OKInterface; oc_name := $"NSObject"; oc_lines := (2)%Z; oc_ivars := 0; oc_methods := []; oc_classes := [$"NSObject"]; oc_superMethods := None |} []))); (toplevel 2 (TOther), (Node 2 [] (ObjCContainerDecl {| oc_kind := OKInterface; oc_name := $"A"; oc_lines := (4)%Z; oc_ivars := 0; oc_methods := [($"isEqualTo:", true); ($"compare:withOther:", false)]; oc_classes := [$"A"; $"NSObject"]; oc_superMethods := (Some ($"NSObject", [])) |} [(Node 3 [] (ObjCMethodDecl {| om_selector := $"isEqualTo:"; om_class := (Some $"A"); om_overriding := false; om_overridden := []; om_bodyLines := (0)%Z |} [(Node 4 [] (VarDecl {| v_isParm := true; v_name := $"obj"; v_used := false; v_referenced := false; v_local := false; v_staticMember := false; v_private := false; v_unusedAttr := false; v_defaultArg := false; v_canonicalType := $"struct objc_object *"; v_inTemplate := false; v_contexts := [CxObjCMethod true false false false; CxOther] |} None))] None)); (Node 5 [] (ObjCMethodDecl {| om_selector := $"compare:withOther:"; om_class := (Some $"A"); om_overriding := false; om_overridden := []; om_bodyLines := (0)%Z |} [(Node 6 [] (VarDecl {| v_isParm := true; v_name := $"obj1"; v_used := false; v_referenced := false; v_local := false; v_staticMember := false; v_private := false; v_unusedAttr := false; v_defaultArg := false; v_canonicalType := $"A *"; v_inTemplate := false; v_contexts := [CxObjCMethod true false false false; CxOther] |} None)); (Node 7 [] (VarDecl {| v_isParm := true; v_name := $"obj2"; v_used := false; v_referenced := false; v_local := false; v_staticMember := false; v_private := false; v_unusedAttr := false; v_defaultArg := false; v_canonicalType := $"A *"; v_inTemplate := false; v_contexts := [CxObjCMethod true false false false; CxOther] |} None))] None))]))); (toplevel 8 (TOther), (Node 8 [] (ObjCContainerDecl {| oc_kind := OKImplementation; oc_name := $"A"; oc_lines := (6)%Z; oc_ivars := 0; oc_methods := [($"isEqualTo:", true); ($"compare:withOther:", false)]; oc_classes := [$"A"; $"NSObject"]; oc_superMethods := (Some ($"NSObject", [])) |} [(Node 9 [] (ObjCMethodDecl {| om_selector := $"isEqualTo:"; om_class := (Some $"A"); om_overriding := false; om_overridden := []; om_bodyLines := (1)%Z |} [(Node 10 [] (VarDecl {| v_isParm := true; v_name := $"obj"; v_used := false; v_referenced := false; v_local := false; v_staticMember := false; v_private := false; v_unusedAttr := false; v_defaultArg := false; v_canonicalType := $"struct objc_object *"; v_inTemplate := false; v_contexts := [CxObjCMethod false false false false] |} None))] (Some (Node 11 [] (CompoundStmt [(Node 12 [] (ReturnStmt (Some (Node 13 $"BOOL" (CStyleCastExpr CK_Other (Node 14 $"int" (IntegerLiteral (1)%Z)))))))]))))); (Node 15 [] (ObjCMethodDecl {| om_selector := $"compare:withOther:"; om_class := (Some $"A"); om_overriding := false; om_overridden := []; om_bodyLines := (3)%Z |} [(Node 16 [] (VarDecl {| v_isParm := true; v_name := $"obj1"; v_used := true; v_referenced := true; v_local := false; v_staticMember := false; v_private := false; v_unusedAttr := false; v_defaultArg := false; v_canonicalType := $"A *"; v_inTemplate := false; v_contexts := [CxObjCMethod false false false false] |} None)); (Node 17 [] (VarDecl {| v_isParm := true; v_name := $"obj2"; v_used := true; v_referenced := true; v_local := false; v_staticMember := false; v_private := false; v_unusedAttr := false; v_defaultArg := false; v_canonicalType := $"A *"; v_inTemplate := false; v_contexts := [CxObjCMethod false false false false] |} None))] (Some (Node 18 [] (CompoundStmt [(Node 19 [] (IfStmt [] (Node 20 $"int" (BinaryOperator BO_LAnd (Node 21 $"int" (BinaryOperator BO_NE (Node 22 $"A *" (ImplicitCastExpr CK_LValueToRValue (Node 23 $"A *" (DeclRefExpr 16 $"obj1" false)))) (Node 24 $"A *" (ImplicitCastExpr CK_BitCast (Node 25 $"id" (CStyleCastExpr CK_NullToPointer (Node 26 $"int" (IntegerLiteral (0)%Z)))))))) (Node 27 $"BOOL" (ObjCMessageExpr {| ms_selector := $"isEqualTo:"; ms_receiver := RInstance; ms_implicit := false; ms_interface := (Some $"A"); ms_method := (Some (Decl [] (Some (Method false None (InOther (Some NoCategory)))))); ms_methodClass := (Some $"A") |} (Some (Node 28 $"A *" (ImplicitCastExpr CK_LValueToRValue (Node 29 $"A *" (DeclRefExpr 16 $"obj1" false))))) [(Node 30 $"id" (ImplicitCastExpr CK_BitCast (Node 31 $"A *" (ImplicitCastExpr CK_LValueToRValue (Node 32 $"A *" (DeclRefExpr 17 $"obj2" false))))))])))) (Node 33 [] (CompoundStmt [(Node 34 [] NullStmt)])) None))])))))])))];
     ts_locs := [(2,1,2,21); (5,1,6,2); (7,1,10,2); (8,1,8,26); (8,20,8,23); (9,1,9,46); (9,18,9,22); (9,38,9,42); (11,1,16,1); (12,1,12,41); (12,20,12,23); (12,27,12,41); (12,29,12,36); (12,36,12,36); (12,36,12,36); (13,1,15,1); (13,18,13,22); (13,38,13,42); (13,47,15,1); (14,5,14,51); (14,9,14,44); (14,9,14,17); (14,9,14,9); (14,9,14,9); (14,17,14,17); (14,17,14,17); (14,17,14,17); (14,24,14,44); (14,25,14,25); (14,25,14,25); (14,40,14,40); (14,40,14,40); (14,40,14,40); (14,47,14,51); (14,49,14,49)]%Z;
     ts_evals := []; ts_same := []; ts_decls := []; ts_parents := [] |}.
Example RedundantNilCheck_ObjC_ExplicitButRedundantNullEqCheck_holds : sorted_violations_of (shippedRule sh_RedundantNilCheck) RedundantNilCheck_ObjC_ExplicitButRedundantNullEqCheck = Some [(14, 9, 14, 44, $"")%Z].
Proof. vm_compute. reflexivity. Qed.

Definition RedundantNilCheck_ObjC_EzNullNeCheck : testcase :=
  {| ts_lang := LObjC; ts_path := $"input.m"; ts_code := [];
     ts_comments := []; ts_conf := [];
     ts_tops := [(toplevel 0 (TOther), (Node 0 [] (OtherDecl []))); (toplevel 1 (TOther), (Node 1 [] (ObjCContainerDecl {| oc_kind := OKInterface; oc_name := $"NSObject"; oc_lines := (2)%Z; oc_ivars := 0; oc_methods := []; oc_classes := [$"NSObject"]; oc_superMethods := None |} []))); (toplevel 2 (TOther), (Node 2 [] (ObjCContainerDecl {| oc_kind := OKInterface; oc_name := $"A"; oc_lines := (4)%Z; oc_ivars := 0; oc_methods := [($"isEqualTo:", true); ($"compare:withOther:", false)]; oc_classes := [$"A"; $"NSObject"]; oc_superMethods := (Some ($"NSObject", [])) |} [(Node 3 [] (ObjCMethodDecl {| om_selector := $"isEqualTo:"; om_class := (Some $"A"); om_overriding := false; om_overridden := []; om_bodyLines := (0)%Z |} [(Node 4 [] (VarDecl {| v_isParm := true; v_name := $"obj"; v_used := false; v_referenced := false; v_local := false; v_staticMember := false; v_private := false; v_unusedAttr := false; v_defaultArg := false; v_canonicalType := $"struct objc_object *"; v_inTemplate := false; v_contexts := [CxObjCMethod true false false false; CxOther] |} None))] None)); (Node 5 [] (ObjCMethodDecl {| om_selector := $"compare:withOther:"; om_class := (Some $"A"); om_overriding := false; om_overridden := []; om_bodyLines := (0)%Z |} [(Node 6 [] (VarDecl {| v_isParm := true; v_name := $"obj1"; v_used := false; v_referenced := false; v_local := false; v_staticMember := false; v_private := false; v_unusedAttr := false; v_defaultArg := false; v_canonicalType := $"A *"; v_inTemplate := false; v_contexts := [CxObjCMethod true false false false; CxOther] |} None)); (Node 7 [] (VarDecl {| v_isParm := true; v_name := $"obj2"; v_used := false; v_referenced := false; v_local := false; v_staticMember := false; v_private := false; v_unusedAttr := false; v_defaultArg := false; v_canonicalType := $"A *"; v_inTemplate := false; v_contexts := [CxObjCMethod true false false false; CxOther] |} None))] None))]))); (toplevel 8 (TOther), (Node 8 [] (ObjCContainerDecl {| oc_kind := OKImplementation; oc_name := $"A"; oc_lines := (6)%Z; oc_ivars := 0; oc_methods := [($"isEqualTo:", true); ($"compare:withOther:", false)]; oc_classes := [$"A"; $"NSObject"]; oc_superMethods := (Some ($"NSObject", [])) |} [(Node 9 [] (ObjCMethodDecl {| om_selector := $"isEqualTo:"; om_class := (Some $"A"); om_overriding := false; om_overridden := []; om_bodyLines := (1)%Z |} [(Node 10 [] (VarDecl {| v_isParm := true; v_name := $"obj"; v_used := false; v_referenced := false; v_local := false; v_staticMember := false; v_private := false; v_unusedAttr := false; v_defaultArg := false; v_canonicalType := $"struct objc_object *"; v_inTemplate := false; v_contexts := [CxObjCMethod false false false false] |} None))] (Some (Node 11 [] (CompoundStmt [(Node 12 [] (ReturnStmt (Some (Node 13 $"BOOL" (CStyleCastExpr CK_Other (Node 14 $"int" (IntegerLiteral (1)%Z)))))))]))))); (Node 15 [] (ObjCMethodDecl {| om_selector := $"compare:withOther:"; om_class := (Some $"A"); om_overriding := false; om_overridden := []; om_bodyLines := (3)%Z |} [(Node 16 [] (VarDecl {| v_isParm := true; v_name := $"obj1"; v_used := true; v_referenced := true; v_local := false; v_staticMember := false; v_private := false; v_unusedAttr := false; v_defaultArg := false; v_canonicalType := $"A *"; v_inTemplate := false; v_contexts := [CxObjCMethod false false false false] |} None)); (Node 17 [] (VarDecl {| v_isParm := true; v_name := $"obj2"; v_used := true; v_referenced := true; v_local := false; v_staticMember := false; v_private := false; v_unusedAttr := false; v_defaultArg := false; v_canonicalType := $"A *"; v_inTemplate := false; v_contexts := [CxObjCMethod false false false false] |} None))] (Some (Node 18 [] (CompoundStmt [(Node 19 [] (IfStmt [] (Node 20 $"int" (BinaryOperator BO_LAnd (Node 21 $"A *" (ImplicitCastExpr CK_LValueToRValue (Node 22 $"A *" (DeclRefExpr 16 $"obj1" false)))) (Node 23 $"int" (UnaryOperator UO_LNot (Node 24 $"BOOL" (ObjCMessageExpr {| ms_selector := $"isEqualTo:"; ms_receiver := RInstance; ms_implicit := false; ms_interface := (Some $"A"); ms_method := (Some (Decl [] (Some (Method false None (InOther (Some NoCategory)))))); ms_methodClass := (Some $"A") |} (Some (Node 25 $"A *" (ImplicitCastExpr CK_LValueToRValue (Node 26 $"A *" (DeclRefExpr 16 $"obj1" false))))) [(Node 27 $"id" (ImplicitCastExpr CK_BitCast (Node 28 $"A *" (ImplicitCastExpr CK_LValueToRValue (Node 29 $"A *" (DeclRefExpr 17 $"obj2" false))))))])))))) (Node 30 [] (CompoundStmt [(Node 31 [] NullStmt)])) None))])))))])))];
     ts_locs := [(2,1,2,21); (5,1,6,2); (7,1,10,2); (8,1,8,26); (8,20,8,23); (9,1,9,46); (9,18,9,22); (9,38,9,42); (11,1,16,1); (12,1,12,41); (12,20,12,23); (12,27,12,41); (12,29,12,36); (12,36,12,36); (12,36,12,36); (13,1,15,1); (13,18,13,22); (13,38,13,42); (13,47,15,1); (14,5,14,45); (14,9,14,38); (14,9,14,9); (14,9,14,9); (14,17,14,38); (14,18,14,38); (14,19,14,19); (14,19,14,19); (14,34,14,34); (14,34,14,34); (14,34,14,34); (14,41,14,45); (14,43,14,43)]%Z;
     ts_evals := []; ts_same := []; ts_decls := []; ts_parents := [] |}.
Example RedundantNilCheck_ObjC_EzNullNeCheck_holds : sorted_violations_of (shippedRule sh_RedundantNilCheck) RedundantNilCheck_ObjC_EzNullNeCheck = Some [].
Proof. vm_compute. reflexivity. Qed.

Definition RedundantNilCheck_ObjC_ExplicitNullNeCheck : testcase :=
  {| ts_lang := LObjC; ts_path := $"input.m"; ts_code := [];
     ts_comments := []; ts_conf := [];
     ts_tops := [(toplevel 0 (TOther), (Node 0 [] (OtherDecl []))); (toplevel 1 (TOther), (Node 1 [] (ObjCContainerDecl {| oc_kind := OKInterface; oc_name := $"NSObject"; oc_lines := (2)%Z; oc_ivars := 0; oc_methods := []; oc_classes := [$"NSObject"]; oc_superMethods := None |} []))); (toplevel 2 (TOther), (Node 2 [] (ObjCContainerDecl {| oc_kind := OKInterface; oc_name := $"A"; oc_lines := (4)%Z; oc_ivars := 0; oc_methods := [($"isEqualTo:", true); ($"compare:withOther:", false)]; oc_classes := [$"A"; $"NSObject"]; oc_superMethods := (Some ($"NSObject", [])) |} [(Node 3 [] (ObjCMethodDecl {| om_selector := $"isEqualTo:"; om_class := (Some $"A"); om_overriding := false; om_overridden := []; om_bodyLines := (0)%Z |} [(Node 4 [] (VarDecl {| v_isParm := true; v_name := $"obj"; v_used := false; v_referenced := false; v_local := false; v_staticMember := false; v_private := false; v_unusedAttr := false; v_defaultArg := false; v_canonicalType := $"struct objc_object *"; v_inTemplate := false; v_contexts := [CxObjCMethod true false false false; CxOther] |} None))] None)); (Node 5 [] (ObjCMethodDecl {| om_selector := $"compare:withOther:"; om_class := (Some $"A"); om_overriding := false; om_overridden := []; om_bodyLines := (0)%Z |} [(Node 6 [] (VarDecl {| v_isParm := true; v_name := $"obj1"; v_used := false; v_referenced := false; v_local := false; v_staticMember := false; v_private := false; v_unusedAttr := false; v_defaultArg := false; v_canonicalType := $"A *"; v_inTemplate := false; v_contexts := [CxObjCMethod true false false false; CxOther] |} None)); (Node 7 [] (VarDecl {| v_isParm := true; v_name := $"obj2"; v_used := false; v_referenced := false; v_local := false; v_staticMember := false; v_private := false; v_unusedAttr := false; v_defaultArg := false; v_canonicalType := $"A *"; v_inTemplate := false; v_contexts := [CxObjCMethod true false false false; CxOther] |} None))] None))]))); (toplevel 8 (TOther), (Node 8 [] (ObjCContainerDecl {| oc_kind := OKImplementation; oc_name := $"A"; oc_lines := (6)%Z; oc_ivars := 0; oc_methods := [($"isEqualTo:", true); ($"compare:withOther:", false)]; oc_classes := [$"A"; $"NSObject"]; oc_superMethods := (Some ($"NSObject", [])) |} [(Node 9 [] (ObjCMethodDecl {| om_selector := $"isEqualTo:"; om_class := (Some $"A"); om_overriding := false; om_overridden := []; om_bodyLines := (1)%Z |} [(Node 10 [] (VarDecl {| v_isParm := true; v_name := $"obj"; v_used := false; v_referenced := false; v_local := false; v_staticMember := false; v_private := false; v_unusedAttr := false; v_defaultArg := false; v_canonicalType := $"struct objc_object *"; v_inTemplate := false; v_contexts := [CxObjCMethod false false false false] |} None))] (Some (Node 11 [] (CompoundStmt [(Node 12 [] (ReturnStmt (Some (Node 13 $"BOOL" (CStyleCastExpr CK_Other (Node 14 $"int" (IntegerLiteral (1)%Z)))))))]))))); (Node 15 [] (ObjCMethodDecl {| om_selector := $"compare:withOther:"; om_class := (Some $"A"); om_overriding := false; om_overridden := []; om_bodyLines := (3)%Z |} [(Node 16 [] (VarDecl {| v_isParm := true; v_name := $"obj1"; v_used := true; v_referenced := true; v_local := false; v_staticMember := false; v_private := false; v_unusedAttr := false; v_defaultArg := false; v_canonicalType := $"A *"; v_inTemplate := false; v_contexts := [CxObjCMethod false false false false] |} None)); (Node 17 [] (VarDecl {| v_isParm := true; v_name := $"obj2"; v_used := true; v_referenced := true; v_local := false; v_staticMember := false; v_private := false; v_unusedAttr := false; v_defaultArg := false; v_canonicalType := $"A *"; v_inTemplate := false; v_contexts := [CxObjCMethod false false false false] |} None))] (Some (Node 18 [] (CompoundStmt [(Node 19 [] (IfStmt [] (Node 20 $"int" (BinaryOperator BO_LAnd (Node 21 $"int" (BinaryOperator BO_NE (Node 22 $"A *" (ImplicitCastExpr CK_LValueToRValue (Node 23 $"A *" (DeclRefExpr 16 $"obj1" false)))) (Node 24 $"A *" (ImplicitCastExpr CK_BitCast (Node 25 $"id" (CStyleCastExpr CK_NullToPointer (Node 26 $"int" (IntegerLiteral (0)%Z)))))))) (Node 27 $"int" (UnaryOperator UO_LNot (Node 28 $"BOOL" (ObjCMessageExpr {| ms_selector := $"isEqualTo:"; ms_receiver := RInstance; ms_implicit := false; ms_interface := (Some $"A"); ms_method := (Some (Decl [] (Some (Method false None (InOther (Some NoCategory)))))); ms_methodClass := (Some $"A") |} (Some (Node 29 $"A *" (ImplicitCastExpr CK_LValueToRValue (Node 30 $"A *" (DeclRefExpr 16 $"obj1" false))))) [(Node 31 $"id" (ImplicitCastExpr CK_BitCast (Node 32 $"A *" (ImplicitCastExpr CK_LValueToRValue (Node 33 $"A *" (DeclRefExpr 17 $"obj2" false))))))])))))) (Node 34 [] (CompoundStmt [(Node 35 [] NullStmt)])) None))])))))])))];
     ts_locs := [(2,1,2,21); (5,1,6,2); (7,1,10,2); (8,1,8,26); (8,20,8,23); (9,1,9,46); (9,18,9,22); (9,38,9,42); (11,1,16,1); (12,1,12,41); (12,20,12,23); (12,27,12,41); (12,29,12,36); (12,36,12,36); (12,36,12,36); (13,1,15,1); (13,18,13,22); (13,38,13,42); (13,47,15,1); (14,5,14,52); (14,9,14,45); (14,9,14,17); (14,9,14,9); (14,9,14,9); (14,17,14,17); (14,17,14,17); (14,17,14,17); (14,24,14,45); (14,25,14,45); (14,26,14,26); (14,26,14,26); (14,41,14,41); (14,41,14,41); (14,41,14,41); (14,48,14,52); (14,50,14,50)]%Z;
     ts_evals := []; ts_same := []; ts_decls := []; ts_parents := [] |}.
Example RedundantNilCheck_ObjC_ExplicitNullNeCheck_holds : sorted_violations_of (shippedRule sh_RedundantNilCheck) RedundantNilCheck_ObjC_ExplicitNullNeCheck = Some [].
Proof. vm_compute. reflexivity. Qed.

Definition RedundantNilCheck_ObjC_LogicOrEzNullEqCheck : testcase :=
  {| ts_lang := LObjC; ts_path := $"input.m"; ts_code := [];
     ts_comments := []; ts_conf := [];
     ts_tops := [(toplevel 0 (TOther), (Node 0 [] (OtherDecl []))); (toplevel 1 (TOther), (Node 1 [] (ObjCContainerDecl {| oc_kind := OKInterface; oc_name := $"NSObject"; oc_lines := (2)%Z; oc_ivars := 0; oc_methods := []; oc_classes := [$"NSObject"]; oc_superMethods := None |} []))); (toplevel 2 (TOther), (Node 2 [] (ObjCContainerDecl {| oc_kind := OKInterface; oc_name := $"A"; oc_lines := (4)%Z; oc_ivars := 0; oc_methods := [($"isEqualTo:", true); ($"compare:withOther:", false)]; oc_classes := [$"A"; $"NSObject"]; oc_superMethods := (Some ($"NSObject", [])) |} [(Node 3 [] (ObjCMethodDecl {| om_selector := $"isEqualTo:"; om_class := (Some $"A"); om_overriding := false; om_overridden := []; om_bodyLines := (0)%Z |} [(Node 4 [] (VarDecl {| v_isParm := true; v_name := $"obj"; v_used := false; v_referenced := false; v_local := false; v_staticMember := false; v_private := false; v_unusedAttr := false; v_defaultArg := false; v_canonicalType := $"struct objc_object *"; v_inTemplate := false; v_contexts := [CxObjCMethod true false false false; CxOther] |} None))] None)); (Node 5 [] (ObjCMethodDecl {| om_selector := $"compare:withOther:"; om_class := (Some $"A"); om_overriding := false; om_overridden := []; om_bodyLines := (0)%Z |} [(Node 6 [] (VarDecl {| v_isParm := true; v_name := $"obj1"; v_used := false; v_referenced := false; v_local := false; v_staticMember := false; v_private := false; v_unusedAttr := false; v_defaultArg := false; v_canonicalType := $"A *"; v_inTemplate := false; v_contexts := [CxObjCMethod true false false false; CxOther] |} None)); (Node 7 [] (VarDecl {| v_isParm := true; v_name := $"obj2"; v_used := false; v_referenced := false; v_local := false; v_staticMember := false; v_private := false; v_unusedAttr := false; v_defaultArg := false; v_canonicalType := $"A *"; v_inTemplate := false; v_contexts := [CxObjCMethod true false false false; CxOther] |} None))] None))]))); (toplevel 8 (TOther), (Node 8 [] (ObjCContainerDecl {| oc_kind := OKImplementation; oc_name := $"A"; oc_lines := (6)%Z; oc_ivars := 0; oc_methods := [($"isEqualTo:", true); ($"compare:withOther:", false)]; oc_classes := [$"A"; $"NSObject"]; oc_superMethods := (Some ($"NSObject", [])) |} [(Node 9 [] (ObjCMethodDecl {| om_selector := $"isEqualTo:"; om_class := (Some $"A"); om_overriding := false; om_overridden := []; om_bodyLines := (1)%Z |} [(Node 10 [] (VarDecl {| v_isParm := true; v_name := $"obj"; v_used := false; v_referenced := false; v_local := false; v_staticMember := false; v_private := false; v_unusedAttr := false; v_defaultArg := false; v_canonicalType := $"struct objc_object *"; v_inTemplate := false; v_contexts := [CxObjCMethod false false false false] |} None))] (Some (Node 11 [] (CompoundStmt [(Node 12 [] (ReturnStmt (Some (Node 13 $"BOOL" (CStyleCastExpr CK_Other (Node 14 $"int" (IntegerLiteral (1)%Z)))))))]))))); (Node 15 [] (ObjCMethodDecl {| om_selector := $"compare:withOther:"; om_class := (Some $"A"); om_overriding := false; om_overridden := []; om_bodyLines := (3)%Z |} [(Node 16 [] (VarDecl {| v_isParm := true; v_name := $"obj1"; v_used := true; v_referenced := true; v_local := false; v_staticMember := false; v_private := false; v_unusedAttr := false; v_defaultArg := false; v_canonicalType := $"A *"; v_inTemplate := false; v_contexts := [CxObjCMethod false false false false] |} None)); (Node 17 [] (VarDecl {| v_isParm := true; v_name := $"obj2"; v_used := true; v_referenced := true; v_local := false; v_staticMember := false; v_private := false; v_unusedAttr := false; v_defaultArg := false; v_canonicalType := $"A *"; v_inTemplate := false; v_contexts := [CxObjCMethod false false false false] |} None))] (Some (Node 18 [] (CompoundStmt [(Node 19 [] (IfStmt [] (Node 20 $"int" (BinaryOperator BO_LOr (Node 21 $"A *" (ImplicitCastExpr CK_LValueToRValue (Node 22 $"A *" (DeclRefExpr 16 $"obj1" false)))) (Node 23 $"BOOL" (ObjCMessageExpr {| ms_selector := $"isEqualTo:"; ms_receiver := RInstance; ms_implicit := false; ms_interface := (Some $"A"); ms_method := (Some (Decl [] (Some (Method false None (InOther (Some NoCategory)))))); ms_methodClass := (Some $"A") |} (Some (Node 24 $"A *" (ImplicitCastExpr CK_LValueToRValue (Node 25 $"A *" (DeclRefExpr 16 $"obj1" false))))) [(Node 26 $"id" (ImplicitCastExpr CK_BitCast (Node 27 $"A *" (ImplicitCastExpr CK_LValueToRValue (Node 28 $"A *" (DeclRefExpr 17 $"obj2" false))))))])))) (Node 29 [] (CompoundStmt [(Node 30 [] NullStmt)])) None))])))))])))];
     ts_locs := [(2,1,2,21); (5,1,6,2); (7,1,10,2); (8,1,8,26); (8,20,8,23); (9,1,9,46); (9,18,9,22); (9,38,9,42); (11,1,16,1); (12,1,12,41); (12,20,12,23); (12,27,12,41); (12,29,12,36); (12,36,12,36); (12,36,12,36); (13,1,15,1); (13,18,13,22); (13,38,13,42); (13,47,15,1); (14,5,14,44); (14,9,14,37); (14,9,14,9); (14,9,14,9); (14,17,14,37); (14,18,14,18); (14,18,14,18); (14,33,14,33); (14,33,14,33); (14,33,14,33); (14,40,14,44); (14,42,14,42)]%Z;
     ts_evals := []; ts_same := []; ts_decls := []; ts_parents := [] |}.
Example RedundantNilCheck_ObjC_LogicOrEzNullEqCheck_holds : sorted_violations_of (shippedRule sh_RedundantNilCheck) RedundantNilCheck_ObjC_LogicOrEzNullEqCheck = Some [].
Proof. vm_compute. reflexivity. Qed.

Definition RedundantNilCheck_ObjC_LogicOrExplicitNullEqCheck : testcase :=
  {| ts_lang := LObjC; ts_path := $"input.m"; ts_code := [];
     ts_comments := []; ts_conf := [];
     ts_tops := [(toplevel 0 (TOther), (Node 0 [] (OtherDecl []))); (toplevel 1 (TOther), (Node 1 [] (ObjCContainerDecl {| oc_kind := OKInterface; oc_name := $"NSObject"; oc_lines := (2)%Z; oc_ivars := 0; oc_methods := []; oc_classes := [$"NSObject"]; oc_superMethods := None |} []))); (toplevel 2 (TOther), (Node 2 [] (ObjCContainerDecl {| oc_kind := OKInterface; oc_name := $"A"; oc_lines := (4)%Z; oc_ivars := 0; oc_methods := [($"isEqualTo:", true); ($"compare:withOther:", false)]; oc_classes := [$"A"; $"NSObject"]; oc_superMethods := (Some ($"NSObject", [])) |} [(Node 3 [] (ObjCMethodDecl {| om_selector := $"isEqualTo:"; om_class := (Some $"A"); om_overriding := false; om_overridden := []; om_bodyLines := (0)%Z |} [(Node 4 [] (VarDecl {| v_isParm := true; v_name := $"obj"; v_used := false; v_referenced := false; v_local := false; v_staticMember := false; v_private := false; v_unusedAttr := false; v_defaultArg := false; v_canonicalType := $"struct objc_object *"; v_inTemplate := false; v_contexts := [CxObjCMethod true false false false; CxOther] |} None))] None)); (Node 5 [] (ObjCMethodDecl {| om_selector := $"compare:withOther:"; om_class := (Some $"A"); om_overriding := false; om_overridden := []; om_bodyLines := (0)%Z |} [(Node 6 [] (VarDecl {| v_isParm := true; v_name := $"obj1"; v_used := false; v_referenced := false; v_local := false; v_staticMember := false; v_private := false; v_unusedAttr := false; v_defaultArg := false; v_canonicalType := $"A *"; v_inTemplate := false; v_contexts := [CxObjCMethod true false false false; CxOther] |} None)); (Node 7 [] (VarDecl {| v_isParm := true; v_name := $"obj2"; v_used := false; v_referenced := false; v_local := false; v_staticMember := false; v_private := false; v_unusedAttr := false; v_defaultArg := false; v_canonicalType := $"A *"; v_inTemplate := false; v_contexts := [CxObjCMethod true false false false; CxOther] |} None))] None))]))); (toplevel 8 (TOther), (Node 8 [] (ObjCContainerDecl {| oc_kind := OKImplementation; oc_name := $"A"; oc_lines := (6)%Z; oc_ivars := 0; oc_methods := [($"isEqualTo:", true); ($"compare:withOther:", false)]; oc_classes := [$"A"; $"NSObject"]; oc_superMethods := (Some ($"NSObject", [])) |} [(Node 9 [] (ObjCMethodDecl {| om_selector := $"isEqualTo:"; om_class := (Some $"A"); om_overriding := false; om_overridden := []; om_bodyLines := (1)%Z |} [(Node 10 [] (VarDecl {| v_isParm := true; v_name := $"obj"; v_used := false; v_referenced := false; v_local := false; v_staticMember := false; v_private := false; v_unusedAttr := false; v_defaultArg := false; v_canonicalType := $"struct objc_object *"; v_inTemplate := false; v_contexts := [CxObjCMethod false false false false] |} None))] (Some (Node 11 [] (CompoundStmt [(Node 12 [] (ReturnStmt (Some (Node 13 $"BOOL" (CStyleCastExpr CK_Other (Node 14 $"int" (IntegerLiteral (1)%Z)))))))]))))); (Node 15 [] (ObjCMethodDecl {| om_selector := $"compare:withOther:"; om_class := (Some $"A"); om_overriding := false; om_overridden := []; om_bodyLines := (3)%Z |} [(Node 16 [] (VarDecl {| v_isParm := true; v_name := $"obj1"; v_used := true; v_referenced := true; v_local := false; v_staticMember := false; v_private := false; v_unusedAttr := false; v_defaultArg := false; v_canonicalType := $"A *"; v_inTemplate := false; v_contexts := [CxObjCMethod false false false false] |} None)); (Node 17 [] (VarDecl {| v_isParm := true; v_name := $"obj2"; v_used := true; v_referenced := true; v_local := false; v_staticMember := false; v_private := false; v_unusedAttr := false; v_defaultArg := false; v_canonicalType := $"A *"; v_inTemplate := false; v_contexts := [CxObjCMethod false false false false] |} None))] (Some (Node 18 [] (CompoundStmt [(Node 19 [] (IfStmt [] (Node 20 $"int" (BinaryOperator BO_LOr (Node 21 $"int" (BinaryOperator BO_NE (Node 22 $"A *" (ImplicitCastExpr CK_LValueToRValue (Node 23 $"A *" (DeclRefExpr 16 $"obj1" false)))) (Node 24 $"A *" (ImplicitCastExpr CK_BitCast (Node 25 $"id" (CStyleCastExpr CK_NullToPointer (Node 26 $"int" (IntegerLiteral (0)%Z)))))))) (Node 27 $"BOOL" (ObjCMessageExpr {| ms_selector := $"isEqualTo:"; ms_receiver := RInstance; ms_implicit := false; ms_interface := (Some $"A"); ms_method := (Some (Decl [] (Some (Method false None (InOther (Some NoCategory)))))); ms_methodClass := (Some $"A") |} (Some (Node 28 $"A *" (ImplicitCastExpr CK_LValueToRValue (Node 29 $"A *" (DeclRefExpr 16 $"obj1" false))))) [(Node 30 $"id" (ImplicitCastExpr CK_BitCast (Node 31 $"A *" (ImplicitCastExpr CK_LValueToRValue (Node 32 $"A *" (DeclRefExpr 17 $"obj2" false))))))])))) (Node 33 [] (CompoundStmt [(Node 34 [] NullStmt)])) None))])))))])))];
     ts_locs := [(2,1,2,21); (5,1,6,2); (7,1,10,2); (8,1,8,26); (8,20,8,23); (9,1,9,46); (9,18,9,22); (9,38,9,42); (11,1,16,1); (12,1,12,41); (12,20,12,23); (12,27,12,41); (12,29,12,36); (12,36,12,36); (12,36,12,36); (13,1,15,1); (13,18,13,22); (13,38,13,42); (13,47,15,1); (14,5,14,51); (14,9,14,44); (14,9,14,17); (14,9,14,9); (14,9,14,9); (14,17,14,17); (14,17,14,17); (14,17,14,17); (14,24,14,44); (14,25,14,25); (14,25,14,25); (14,40,14,40); (14,40,14,40); (14,40,14,40); (14,47,14,51); (14,49,14,49)]%Z;
     ts_evals := []; ts_same := []; ts_decls := []; ts_parents := [] |}.
Example RedundantNilCheck_ObjC_LogicOrExplicitNullEqCheck_holds : sorted_violations_of (shippedRule sh_RedundantNilCheck) RedundantNilCheck_ObjC_LogicOrExplicitNullEqCheck = Some [].
Proof. vm_compute. reflexivity. Qed.

Definition RedundantNilCheck_ObjC_LogicAndEzNullEqCheck : testcase :=
  {| ts_lang := LObjC; ts_path := $"input.m"; ts_code := [];
     ts_comments := []; ts_conf := [];
     ts_tops := [(toplevel 0 (TOther), (Node 0 [] (OtherDecl []))); (toplevel 1 (TOther), (Node 1 [] (ObjCContainerDecl {| oc_kind := OKInterface; oc_name := $"NSObject"; oc_lines := (2)%Z; oc_ivars := 0; oc_methods := []; oc_classes := [$"NSObject"]; oc_superMethods := None |} []))); (toplevel 2 (TOther), (Node 2 [] (ObjCContainerDecl {| oc_kind := OKInterface; oc_name := $"A"; oc_lines := (4)%Z; oc_ivars := 0; oc_methods := [($"isEqualTo:", true); ($"compare:withOther:", false)]; oc_classes := [$"A"; $"NSObject"]; oc_superMethods := (Some ($"NSObject", [])) |} [(Node 3 [] (ObjCMethodDecl {| om_selector := $"isEqualTo:"; om_class := (Some $"A"); om_overriding := false; om_overridden := []; om_bodyLines := (0)%Z |} [(Node 4 [] (VarDecl {| v_isParm := true; v_name := $"obj"; v_used := false; v_referenced := false; v_local := false; v_staticMember := false; v_private := false; v_unusedAttr := false; v_defaultArg := false; v_canonicalType := $"struct objc_object *"; v_inTemplate := false; v_contexts := [CxObjCMethod true false false false; CxOther] |} None))] None)); (Node 5 [] (ObjCMethodDecl {| om_selector := $"compare:withOther:"; om_class := (Some $"A"); om_overriding := false; om_overridden := []; om_bodyLines := (0)%Z |} [(Node 6 [] (VarDecl {| v_isParm := true; v_name := $"obj1"; v_used := false; v_referenced := false; v_local := false; v_staticMember := false; v_private := false; v_unusedAttr := false; v_defaultArg := false; v_canonicalType := $"A *"; v_inTemplate := false; v_contexts := [CxObjCMethod true false false false; CxOther] |} None)); (Node 7 [] (VarDecl {| v_isParm := true; v_name := $"obj2"; v_used := false; v_referenced := false; v_local := false; v_staticMember := false; v_private := false; v_unusedAttr := false; v_defaultArg := false; v_canonicalType := $"A *"; v_inTemplate := false; v_contexts := [CxObjCMethod true false false false; CxOther] |} None))] None))]))); (toplevel 8 (TOther), (Node 8 [] (ObjCContainerDecl {| oc_kind := OKImplementation; oc_name := $"A"; oc_lines := (6)%Z; oc_ivars := 0; oc_methods := [($"isEqualTo:", true); ($"compare:withOther:", false)]; oc_classes := [$"A"; $"NSObject"]; oc_superMethods := (Some ($"NSObject", [])) |} [(Node 9 [] (ObjCMethodDecl {| om_selector := $"isEqualTo:"; om_class := (Some $"A"); om_overriding := false; om_overridden := []; om_bodyLines := (1)%Z |} [(Node 10 [] (VarDecl {| v_isParm := true; v_name := $"obj"; v_used := false; v_referenced := false; v_local := false; v_staticMember := false; v_private := false; v_unusedAttr := false; v_defaultArg := false; v_canonicalType := $"struct objc_object *"; v_inTemplate := false; v_contexts := [CxObjCMethod false false false false] |} None))] (Some (Node 11 [] (CompoundStmt [(Node 12 [] (ReturnStmt (Some (Node 13 $"BOOL" (CStyleCastExpr CK_Other (Node 14 $"int" (IntegerLiteral (1)%Z)))))))]))))); (Node 15 [] (ObjCMethodDecl {| om_selector := $"compare:withOther:"; om_class := (Some $"A"); om_overriding := false; om_overridden := []; om_bodyLines := (3)%Z |} [(Node 16 [] (VarDecl {| v_isParm := true; v_name := $"obj1"; v_used := true; v_referenced := true; v_local := false; v_staticMember := false; v_private := false; v_unusedAttr := false; v_defaultArg := false; v_canonicalType := $"A *"; v_inTemplate := false; v_contexts := [CxObjCMethod false false false false] |} None)); (Node 17 [] (VarDecl {| v_isParm := true; v_name := $"obj2"; v_used := true; v_referenced := true; v_local := false; v_staticMember := false; v_private := false; v_unusedAttr := false; v_defaultArg := false; v_canonicalType := $"A *"; v_inTemplate := false; v_contexts := [CxObjCMethod false false false false] |} None))] (Some (Node 18 [] (CompoundStmt [(Node 19 [] (IfStmt [] (Node 20 $"int" (BinaryOperator BO_LAnd (Node 21 $"int" (UnaryOperator UO_LNot (Node 22 $"A *" (ImplicitCastExpr CK_LValueToRValue (Node 23 $"A *" (DeclRefExpr 16 $"obj1" false)))))) (Node 24 $"BOOL" (ObjCMessageExpr {| ms_selector := $"isEqualTo:"; ms_receiver := RInstance; ms_implicit := false; ms_interface := (Some $"A"); ms_method := (Some (Decl [] (Some (Method false None (InOther (Some NoCategory)))))); ms_methodClass := (Some $"A") |} (Some (Node 25 $"A *" (ImplicitCastExpr CK_LValueToRValue (Node 26 $"A *" (DeclRefExpr 16 $"obj1" false))))) [(Node 27 $"id" (ImplicitCastExpr CK_BitCast (Node 28 $"A *" (ImplicitCastExpr CK_LValueToRValue (Node 29 $"A *" (DeclRefExpr 17 $"obj2" false))))))])))) (Node 30 [] (CompoundStmt [(Node 31 [] NullStmt)])) None))])))))])))];
     ts_locs := [(2,1,2,21); (5,1,6,2); (7,1,10,2); (8,1,8,26); (8,20,8,23); (9,1,9,46); (9,18,9,22); (9,38,9,42); (11,1,16,1); (12,1,12,41); (12,20,12,23); (12,27,12,41); (12,29,12,36); (12,36,12,36); (12,36,12,36); (13,1,15,1); (13,18,13,22); (13,38,13,42); (13,47,15,1); (14,5,14,45); (14,9,14,38); (14,9,14,10); (14,10,14,10); (14,10,14,10); (14,18,14,38); (14,19,14,19); (14,19,14,19); (14,34,14,34); (14,34,14,34); (14,34,14,34); (14,41,14,45); (14,43,14,43)]%Z;
     ts_evals := []; ts_same := []; ts_decls := []; ts_parents := [] |}.
Example RedundantNilCheck_ObjC_LogicAndEzNullEqCheck_holds : sorted_violations_of (shippedRule sh_RedundantNilCheck) RedundantNilCheck_ObjC_LogicAndEzNullEqCheck = Some [].
Proof. vm_compute. reflexivity. Qed.

Definition RedundantNilCheck_ObjC_LogicAndExplicitNullEqCheck : testcase :=
  {| ts_lang := LObjC; ts_path := $"input.m"; ts_code := [];
     ts_comments := []; ts_conf := [];
     ts_tops := [(toplevel 0 (TOther), (Node 0 [] (OtherDecl []))); (toplevel 1 (TOther), (Node 1 [] (ObjCContainerDecl {| oc_kind := OKInterface; oc_name := $"NSObject"; oc_lines := (2)%Z; oc_ivars := 0; oc_methods := []; oc_classes := [$"NSObject"]; oc_superMethods := None |} []))); (toplevel 2 (TOther), (Node 2 [] (ObjCContainerDecl {| oc_kind := OKInterface; oc_name := $"A"; oc_lines := (4)%Z; oc_ivars := 0; oc_methods := [($"isEqualTo:", true); ($"compare:withOther:", false)]; oc_classes := [$"A"; $"NSObject"]; oc_superMethods := (Some ($"NSObject", [])) |} [(Node 3 [] (ObjCMethodDecl {| om_selector := $"isEqualTo:"; om_class := (Some $"A"); om_overriding := false; om_overridden := []; om_bodyLines := (0)%Z |} [(Node 4 [] (VarDecl {| v_isParm := true; v_name := $"obj"; v_used := false; v_referenced := false; v_local := false; v_staticMember := false; v_private := false; v_unusedAttr := false; v_defaultArg := false; v_canonicalType := $"struct objc_object *"; v_inTemplate := false; v_contexts := [CxObjCMethod true false false false; CxOther] |} None))] None)); (Node 5 [] (ObjCMethodDecl {| om_selector := $"compare:withOther:"; om_class := (Some $"A"); om_overriding := false; om_overridden := []; om_bodyLines := (0)%Z |} [(Node 6 [] (VarDecl {| v_isParm := true; v_name := $"obj1"; v_used := false; v_referenced := false; v_local := false; v_staticMember := false; v_private := false; v_unusedAttr := false; v_defaultArg := false; v_canonicalType := $"A *"; v_inTemplate := false; v_contexts := [CxObjCMethod true false false false; CxOther] |} None)); (Node 7 [] (VarDecl {| v_isParm := true; v_name := $"obj2"; v_used := false; v_referenced := false; v_local := false; v_staticMember := false; v_private := false; v_unusedAttr := false; v_defaultArg := false; v_canonicalType := $"A *"; v_inTemplate := false; v_contexts := [CxObjCMethod true false false false; CxOther] |} None))] None))]))); (toplevel 8 (TOther), (Node 8 [] (ObjCContainerDecl {| oc_kind := OKImplementation; oc_name := $"A"; oc_lines := (6)%Z; oc_ivars := 0; oc_methods := [($"isEqualTo:", true); ($"compare:withOther:", false)]; oc_classes := [$"A"; $"NSObject"]; oc_superMethods := (Some ($"NSObject", [])) |} [(Node 9 [] (ObjCMethodDecl {| om_selector := $"isEqualTo:"; om_class := (Some $"A"); om_overriding := false; om_overridden := []; om_bodyLines := (1)%Z |} [(Node 10 [] (VarDecl {| v_isParm := true; v_name := $"obj"; v_used := false; v_referenced := false; v_local := false; v_staticMember := false; v_private := false; v_unusedAttr := false; v_defaultArg := false; v_canonicalType := $"struct objc_object *"; v_inTemplate := false; v_contexts := [CxObjCMethod false false false false] |} None))] (Some (Node 11 [] (CompoundStmt [(Node 12 [] (ReturnStmt (Some (Node 13 $"BOOL" (CStyleCastExpr CK_Other (Node 14 $"int" (IntegerLiteral (1)%Z)))))))]))))); (Node 15 [] (ObjCMethodDecl {| om_selector := $"compare:withOther:"; om_class := (Some $"A"); om_overriding := false; om_overridden := []; om_bodyLines := (3)%Z |} [(Node 16 [] (VarDecl {| v_isParm := true; v_name := $"obj1"; v_used := true; v_referenced := true; v_local := false; v_staticMember := false; v_private := false; v_unusedAttr := false; v_defaultArg := false; v_canonicalType := $"A *"; v_inTemplate := false; v_contexts := [CxObjCMethod false false false false] |} None)); (Node 17 [] (VarDecl {| v_isParm := true; v_name := $"obj2"; v_used := true; v_referenced := true; v_local := false; v_staticMember := false; v_private := false; v_unusedAttr := false; v_defaultArg := false; v_canonicalType := $"A *"; v_inTemplate := false; v_contexts := [CxObjCMethod false false false false] |} None))] (Some (Node 18 [] (CompoundStmt [(Node 19 [] (IfStmt [] (Node 20 $"int" (BinaryOperator BO_LAnd (Node 21 $"int" (BinaryOperator BO_EQ (Node 22 $"A *" (ImplicitCastExpr CK_LValueToRValue (Node 23 $"A *" (DeclRefExpr 16 $"obj1" false)))) (Node 24 $"A *" (ImplicitCastExpr CK_BitCast (Node 25 $"id" (CStyleCastExpr CK_NullToPointer (Node 26 $"int" (IntegerLiteral (0)%Z)))))))) (Node 27 $"BOOL" (ObjCMessageExpr {| ms_selector := $"isEqualTo:"; ms_receiver := RInstance; ms_implicit := false; ms_interface := (Some $"A"); ms_method := (Some (Decl [] (Some (Method false None (InOther (Some NoCategory)))))); ms_methodClass := (Some $"A") |} (Some (Node 28 $"A *" (ImplicitCastExpr CK_LValueToRValue (Node 29 $"A *" (DeclRefExpr 16 $"obj1" false))))) [(Node 30 $"id" (ImplicitCastExpr CK_BitCast (Node 31 $"A *" (ImplicitCastExpr CK_LValueToRValue (Node 32 $"A *" (DeclRefExpr 17 $"obj2" false))))))])))) (Node 33 [] (CompoundStmt [(Node 34 [] NullStmt)])) None))])))))])))];
     ts_locs := [(2,1,2,21); (5,1,6,2); (7,1,10,2); (8,1,8,26); (8,20,8,23); (9,1,9,46); (9,18,9,22); (9,38,9,42); (11,1,16,1); (12,1,12,41); (12,20,12,23); (12,27,12,41); (12,29,12,36); (12,36,12,36); (12,36,12,36); (13,1,15,1); (13,18,13,22); (13,38,13,42); (13,47,15,1); (14,5,14,51); (14,9,14,44); (14,9,14,17); (14,9,14,9); (14,9,14,9); (14,17,14,17); (14,17,14,17); (14,17,14,17); (14,24,14,44); (14,25,14,25); (14,25,14,25); (14,40,14,40); (14,40,14,40); (14,40,14,40); (14,47,14,51); (14,49,14,49)]%Z;
     ts_evals := []; ts_same := []; ts_decls := []; ts_parents := [] |}.
Example RedundantNilCheck_ObjC_LogicAndExplicitNullEqCheck_holds : sorted_violations_of (shippedRule sh_RedundantNilCheck) RedundantNilCheck_ObjC_LogicAndExplicitNullEqCheck = Some [].
Proof. vm_compute. reflexivity. Qed.

Definition RedundantNilCheck_ObjC_ShouldIgnoreDifferentIdentifers : testcase :=
  {| ts_lang := LObjC; ts_path := $"input.m"; ts_code := [];
     ts_comments := []; ts_conf := [];
     ts_tops := [(toplevel 0 (TOther), (Node 0 [] (OtherDecl []))); (toplevel 1 (TOther), (Node 1 [] (ObjCContainerDecl {| oc_kind := OKInterface; oc_name := $"NSObject"; oc_lines := (2)%Z; oc_ivars := 0; oc_methods := []; oc_classes := [$"NSObject"]; oc_superMethods := None |} []))); (toplevel 2 (TOther), (Node 2 [] (ObjCContainerDecl {| oc_kind := OKInterface; oc_name := $"A"; oc_lines := (4)%Z; oc_ivars := 0; oc_methods := [($"isEqualTo:", true); ($"compare:withOther:", false)]; oc_classes := [$"A"; $"NSObject"]; oc_superMethods := (Some ($"NSObject", [])) |} [(Node 3 [] (ObjCMethodDecl {| om_selector := $"isEqualTo:"; om_class := (Some $"A"); om_overriding := false; om_overridden := []; om_bodyLines := (0)%Z |} [(Node 4 [] (VarDecl {| v_isParm := true; v_name := $"obj"; v_used := false; v_referenced := false; v_local := false; v_staticMember := false; v_private := false; v_unusedAttr := false; v_defaultArg := false; v_canonicalType := $"struct objc_object *"; v_inTemplate := false; v_contexts := [CxObjCMethod true false false false; CxOther] |} None))] None)); (Node 5 [] (ObjCMethodDecl {| om_selector := $"compare:withOther:"; om_class := (Some $"A"); om_overriding := false; om_overridden := []; om_bodyLines := (0)%Z |} [(Node 6 [] (VarDecl {| v_isParm := true; v_name := $"obj1"; v_used := false; v_referenced := false; v_local := false; v_staticMember := false; v_private := false; v_unusedAttr := false; v_defaultArg := false; v_canonicalType := $"A *"; v_inTemplate := false; v_contexts := [CxObjCMethod true false false false; CxOther] |} None)); (Node 7 [] (VarDecl {| v_isParm := true; v_name := $"obj2"; v_used := false; v_referenced := false; v_local := false; v_staticMember := false; v_private := false; v_unusedAttr := false; v_defaultArg := false; v_canonicalType := $"A *"; v_inTemplate := false; v_contexts := [CxObjCMethod true false false false; CxOther] |} None))] None))]))); (toplevel 8 (TOther), (Node 8 [] (ObjCContainerDecl {| oc_kind := OKImplementation; oc_name := $"A"; oc_lines := (6)%Z; oc_ivars := 0; oc_methods := [($"isEqualTo:", true); ($"compare:withOther:", false)]; oc_classes := [$"A"; $"NSObject"]; oc_superMethods := (Some ($"NSObject", [])) |} [(Node 9 [] (ObjCMethodDecl {| om_selector := $"isEqualTo:"; om_class := (Some $"A"); om_overriding := false; om_overridden := []; om_bodyLines := (1)%Z |} [(Node 10 [] (VarDecl {| v_isParm := true; v_name := $"obj"; v_used := false; v_referenced := false; v_local := false; v_staticMember := false; v_private := false; v_unusedAttr := false; v_defaultArg := false; v_canonicalType := $"struct objc_object *"; v_inTemplate := false; v_contexts := [CxObjCMethod false false false false] |} None))] (Some (Node 11 [] (CompoundStmt [(Node 12 [] (ReturnStmt (Some (Node 13 $"BOOL" (CStyleCastExpr CK_Other (Node 14 $"int" (IntegerLiteral (1)%Z)))))))]))))); (Node 15 [] (ObjCMethodDecl {| om_selector := $"compare:withOther:"; om_class := (Some $"A"); om_overriding := false; om_overridden := []; om_bodyLines := (3)%Z |} [(Node 16 [] (VarDecl {| v_isParm := true; v_name := $"obj1"; v_used := true; v_referenced := true; v_local := false; v_staticMember := false; v_private := false; v_unusedAttr := false; v_defaultArg := false; v_canonicalType := $"A *"; v_inTemplate := false; v_contexts := [CxObjCMethod false false false false] |} None)); (Node 17 [] (VarDecl {| v_isParm := true; v_name := $"obj2"; v_used := true; v_referenced := true; v_local := false; v_staticMember := false; v_private := false; v_unusedAttr := false; v_defaultArg := false; v_canonicalType := $"A *"; v_inTemplate := false; v_contexts := [CxObjCMethod false false false false] |} None))] (Some (Node 18 [] (CompoundStmt [(Node 19 [] (IfStmt [] (Node 20 $"int" (BinaryOperator BO_LAnd (Node 21 $"int" (BinaryOperator BO_NE (Node 22 $"A *" (ImplicitCastExpr CK_LValueToRValue (Node 23 $"A *" (DeclRefExpr 16 $"obj1" false)))) (Node 24 $"A *" (ImplicitCastExpr CK_BitCast (Node 25 $"id" (CStyleCastExpr CK_NullToPointer (Node 26 $"int" (IntegerLiteral (0)%Z)))))))) (Node 27 $"BOOL" (ObjCMessageExpr {| ms_selector := $"isEqualTo:"; ms_receiver := RInstance; ms_implicit := false; ms_interface := (Some $"A"); ms_method := (Some (Decl [] (Some (Method false None (InOther (Some NoCategory)))))); ms_methodClass := (Some $"A") |} (Some (Node 28 $"A *" (ImplicitCastExpr CK_LValueToRValue (Node 29 $"A *" (DeclRefExpr 17 $"obj2" false))))) [(Node 30 $"id" (ImplicitCastExpr CK_BitCast (Node 31 $"A *" (ImplicitCastExpr CK_LValueToRValue (Node 32 $"A *" (DeclRefExpr 16 $"obj1" false))))))])))) (Node 33 [] (CompoundStmt [(Node 34 [] NullStmt)])) None))])))))])))];
     ts_locs := [(2,1,2,21); (5,1,6,2); (7,1,10,2); (8,1,8,26); (8,20,8,23); (9,1,9,46); (9,18,9,22); (9,38,9,42); (11,1,16,1); (12,1,12,41); (12,20,12,23); (12,27,12,41); (12,29,12,36); (12,36,12,36); (12,36,12,36); (13,1,15,1); (13,18,13,22); (13,38,13,42); (13,47,15,1); (14,5,14,51); (14,9,14,44); (14,9,14,17); (14,9,14,9); (14,9,14,9); (14,17,14,17); (14,17,14,17); (14,17,14,17); (14,24,14,44); (14,25,14,25); (14,25,14,25); (14,40,14,40); (14,40,14,40); (14,40,14,40); (14,47,14,51); (14,49,14,49)]%Z;
     ts_evals := []; ts_same := []; ts_decls := []; ts_parents := [] |}.
Example RedundantNilCheck_ObjC_ShouldIgnoreDifferentIdentifers_holds : sorted_violations_of (shippedRule sh_RedundantNilCheck) RedundantNilCheck_ObjC_ShouldIgnoreDifferentIdentifers = Some [].
Proof. vm_compute. reflexivity. Qed.

Definition RedundantNilCheck_ObjC_MultipleMessageExpr : testcase :=
  {| ts_lang := LObjC; ts_path := $"input.m"; ts_code := [];
     ts_comments := []; ts_conf := [];
     ts_tops := [(toplevel 0 (TOther), (Node 0 [] (OtherDecl []))); (toplevel 1 (TOther), (Node 1 [] (ObjCContainerDecl {| oc_kind := OKInterface; oc_name := $"NSObject"; oc_lines := (2)%Z; oc_ivars := 0; oc_methods := []; oc_classes := [$"NSObject"]; oc_superMethods := None |} []))); (toplevel 2 (TOther), (Node 2 [] (ObjCContainerDecl {| oc_kind := OKInterface; oc_name := $"A"; oc_lines := (4)%Z; oc_ivars := 0; oc_methods := [($"isEqualTo:", true); ($"compare:withOther:", false)]; oc_classes := [$"A"; $"NSObject"]; oc_superMethods := (Some ($"NSObject", [])) |} [(Node 3 [] (ObjCMethodDecl {| om_selector := $"isEqualTo:"; om_class := (Some $"A"); om_overriding := false; om_overridden := []; om_bodyLines := (0)%Z |} [(Node 4 [] (VarDecl {| v_isParm := true; v_name := $"obj"; v_used := false; v_referenced := false; v_local := false; v_staticMember := false; v_private := false; v_unusedAttr := false; v_defaultArg := false; v_canonicalType := $"struct objc_object *"; v_inTemplate := false; v_contexts := [CxObjCMethod true false false false; CxOther] |} None))] None)); (Node 5 [] (ObjCMethodDecl {| om_selector := $"compare:withOther:"; om_class := (Some $"A"); om_overriding := false; om_overridden := []; om_bodyLines := (0)%Z |} [(Node 6 [] (VarDecl {| v_isParm := true; v_name := $"obj1"; v_used := false; v_referenced := false; v_local := false; v_staticMember := false; v_private := false; v_unusedAttr := false; v_defaultArg := false; v_canonicalType := $"A *"; v_inTemplate := false; v_contexts := [CxObjCMethod true false false false; CxOther] |} None)); (Node 7 [] (VarDecl {| v_isParm := true; v_name := $"obj2"; v_used := false; v_referenced := false; v_local := false; v_staticMember := false; v_private := false; v_unusedAttr := false; v_defaultArg := false; v_canonicalType := $"A *"; v_inTemplate := false; v_contexts := [CxObjCMethod true false false false; CxOther] |} None))] None))]))); (toplevel 8 (TOther), (Node 8 [] (ObjCContainerDecl {| oc_kind := OKImplementation; oc_name := $"A"; oc_lines := (6)%Z; oc_ivars := 0; oc_methods := [($"isEqualTo:", true); ($"compare:withOther:", false)]; oc_classes := [$"A"; $"NSObject"]; oc_superMethods := (Some ($"NSObject", [])) |} [(Node 9 [] (ObjCMethodDecl {| om_selector := $"isEqualTo:"; om_class := (Some $"A"); om_overriding := false; om_overridden := []; om_bodyLines := (1)%Z |} [(Node 10 [] (VarDecl {| v_isParm := true; v_name := $"obj"; v_used := false; v_referenced := false; v_local := false; v_staticMember := false; v_private := false; v_unusedAttr := false; v_defaultArg := false; v_canonicalType := $"struct objc_object *"; v_inTemplate := false; v_contexts := [CxObjCMethod false false false false] |} None))] (Some (Node 11 [] (CompoundStmt [(Node 12 [] (ReturnStmt (Some (Node 13 $"BOOL" (CStyleCastExpr CK_Other (Node 14 $"int" (IntegerLiteral (1)%Z)))))))]))))); (Node 15 [] (ObjCMethodDecl {| om_selector := $"compare:withOther:"; om_class := (Some $"A"); om_overriding := false; om_overridden := []; om_bodyLines := (3)%Z |} [(Node 16 [] (VarDecl {| v_isParm := true; v_name := $"obj1"; v_used := true; v_referenced := true; v_local := false; v_staticMember := false; v_private := false; v_unusedAttr := false; v_defaultArg := false; v_canonicalType := $"A *"; v_inTemplate := false; v_contexts := [CxObjCMethod false false false false] |} None)); (Node 17 [] (VarDecl {| v_isParm := true; v_name := $"obj2"; v_used := true; v_referenced := true; v_local := false; v_staticMember := false; v_private := false; v_unusedAttr := false; v_defaultArg := false; v_canonicalType := $"A *"; v_inTemplate := false; v_contexts := [CxObjCMethod false false false false] |} None))] (Some (Node 18 [] (CompoundStmt [(Node 19 [] (IfStmt [] (Node 20 $"int" (BinaryOperator BO_LAnd (Node 21 $"int" (BinaryOperator BO_NE (Node 22 $"A *" (ImplicitCastExpr CK_LValueToRValue (Node 23 $"A *" (DeclRefExpr 16 $"obj1" false)))) (Node 24 $"A *" (ImplicitCastExpr CK_BitCast (Node 25 $"id" (CStyleCastExpr CK_NullToPointer (Node 26 $"int" (IntegerLiteral (0)%Z)))))))) (Node 27 $"int" (ParenExpr (Node 28 $"int" (BinaryOperator BO_LAnd (Node 29 $"BOOL" (ObjCMessageExpr {| ms_selector := $"isEqualTo:"; ms_receiver := RInstance; ms_implicit := false; ms_interface := (Some $"A"); ms_method := (Some (Decl [] (Some (Method false None (InOther (Some NoCategory)))))); ms_methodClass := (Some $"A") |} (Some (Node 30 $"A *" (ImplicitCastExpr CK_LValueToRValue (Node 31 $"A *" (DeclRefExpr 17 $"obj2" false))))) [(Node 32 $"id" (ImplicitCastExpr CK_BitCast (Node 33 $"A *" (ImplicitCastExpr CK_LValueToRValue (Node 34 $"A *" (DeclRefExpr 16 $"obj1" false))))))])) (Node 35 $"BOOL" (ObjCMessageExpr {| ms_selector := $"isEqualTo:"; ms_receiver := RInstance; ms_implicit := false; ms_interface := (Some $"A"); ms_method := (Some (Decl [] (Some (Method false None (InOther (Some NoCategory)))))); ms_methodClass := (Some $"A") |} (Some (Node 36 $"A *" (ImplicitCastExpr CK_LValueToRValue (Node 37 $"A *" (DeclRefExpr 16 $"obj1" false))))) [(Node 38 $"id" (ImplicitCastExpr CK_BitCast (Node 39 $"A *" (ImplicitCastExpr CK_LValueToRValue (Node 40 $"A *" (DeclRefExpr 17 $"obj2" false))))))])))))))) (Node 41 [] (CompoundStmt [(Node 42 [] NullStmt)])) None))])))))])))];
     ts_locs := [(2,1,2,21); (5,1,6,2); (7,1,10,2); (8,1,8,26); (8,20,8,23); (9,1,9,46); (9,18,9,22); (9,38,9,42); (11,1,16,1); (12,1,12,41); (12,20,12,23); (12,27,12,41); (12,29,12,36); (12,36,12,36); (12,36,12,36); (13,1,15,1); (13,18,13,22); (13,38,13,42); (13,47,15,1); (14,5,14,78); (14,9,14,71); (14,9,14,17); (14,9,14,9); (14,9,14,9); (14,17,14,17); (14,17,14,17); (14,17,14,17); (14,24,14,71); (14,25,14,70); (14,25,14,45); (14,26,14,26); (14,26,14,26); (14,41,14,41); (14,41,14,41); (14,41,14,41); (14,50,14,70); (14,51,14,51); (14,51,14,51); (14,66,14,66); (14,66,14,66); (14,66,14,66); (14,74,14,78); (14,76,14,76)]%Z;
     ts_evals := []; ts_same := []; ts_decls := []; ts_parents := [] |}.
Example RedundantNilCheck_ObjC_MultipleMessageExpr_holds : sorted_violations_of (shippedRule sh_RedundantNilCheck) RedundantNilCheck_ObjC_MultipleMessageExpr = Some [(14, 9, 14, 71, $"")%Z].
Proof. vm_compute. reflexivity. Qed.

(** ** oclint-rules/test/redundant/UnnecessaryElseStatementRuleTest.cpp *)

Definition UnnecessaryElseStatement_IfStmtWithoutElseBlock : testcase :=
  {| ts_lang := LC; ts_path := $"input.c"; ts_code := [];
     ts_comments := []; ts_conf := [];
     ts_tops := [(toplevel 0 (TFunction false), (Node 0 [] (FunctionDecl {| f_name := $"m"; f_method := None; f_isDefinition := true; f_bodyLines := (1)%Z |} [] (Some (Node 1 [] (CompoundStmt [(Node 2 [] (IfStmt [] (Node 3 [] (IntegerLiteral (1)%Z)) (Node 4 [] (CompoundStmt [])) None))]))))))];
     ts_locs := [(1,1,1,21); (1,10,1,21); (1,12,1,19); (1,15,1,15); (1,18,1,19)]%Z;
     ts_evals := [(3, true)]; ts_same := []; ts_decls := []; ts_parents := [] |}.
Example UnnecessaryElseStatement_IfStmtWithoutElseBlock_holds : sorted_violations_of (shippedRule sh_UnnecessaryElseStatement) UnnecessaryElseStatement_IfStmtWithoutElseBlock = Some [].
Proof. vm_compute. reflexivity. Qed.

Definition UnnecessaryElseStatement_IfStmtHasNoReturn : testcase :=
  {| ts_lang := LC; ts_path := $"input.c"; ts_code := [];
     ts_comments := []; ts_conf := [];
     ts_tops := [(toplevel 0 (TFunction false), (Node 0 [] (FunctionDecl {| f_name := $"m"; f_method := None; f_isDefinition := true; f_bodyLines := (1)%Z |} [] (Some (Node 1 [] (CompoundStmt [(Node 2 [] (IfStmt [] (Node 3 [] (IntegerLiteral (1)%Z)) (Node 4 [] (CompoundStmt [])) (Some (Node 5 [] (CompoundStmt [])))))]))))))];
     ts_locs := [(1,1,1,29); (1,10,1,29); (1,12,1,27); (1,15,1,15); (1,18,1,19); (1,26,1,27)]%Z;
     ts_evals := [(3, true)]; ts_same := []; ts_decls := []; ts_parents := [] |}.
Example UnnecessaryElseStatement_IfStmtHasNoReturn_holds : sorted_violations_of (shippedRule sh_UnnecessaryElseStatement) UnnecessaryElseStatement_IfStmtHasNoReturn = Some [].
Proof. vm_compute. reflexivity. Qed.

Definition UnnecessaryElseStatement_IfThenStmtIsReturn : testcase :=
  {| ts_lang := LC; ts_path := $"input.c"; ts_code := [];
     ts_comments := []; ts_conf := [];
     ts_tops := [(toplevel 0 (TFunction false), (Node 0 [] (FunctionDecl {| f_name := $"m"; f_method := None; f_isDefinition := true; f_bodyLines := (1)%Z |} [] (Some (Node 1 [] (CompoundStmt [(Node 2 [] (IfStmt [] (Node 3 [] (IntegerLiteral (1)%Z)) (Node 4 [] (ReturnStmt None)) (Some (Node 5 [] (CompoundStmt [])))))]))))))];
     ts_locs := [(1,1,1,34); (1,10,1,34); (1,12,1,32); (1,15,1,15); (1,18,1,18); (1,31,1,32)]%Z;
     ts_evals := [(3, true)]; ts_same := []; ts_decls := []; ts_parents := [] |}.
Example UnnecessaryElseStatement_IfThenStmtIsReturn_holds : sorted_violations_of (shippedRule sh_UnnecessaryElseStatement) UnnecessaryElseStatement_IfThenStmtIsReturn = Some [(1, 31, 1, 32, $"")%Z].
Proof. vm_compute. reflexivity. Qed.

Definition UnnecessaryElseStatement_IfThenBlockHasReturn : testcase :=
  {| ts_lang := LC; ts_path := $"input.c"; ts_code := [];
     ts_comments := []; ts_conf := [];
     ts_tops := [(toplevel 0 (TFunction false), (Node 0 [] (FunctionDecl {| f_name := $"m"; f_method := None; f_isDefinition := true; f_bodyLines := (1)%Z |} [] (Some (Node 1 [] (CompoundStmt [(Node 2 [] (IfStmt [] (Node 3 [] (IntegerLiteral (1)%Z)) (Node 4 [] (CompoundStmt [(Node 5 [] (ReturnStmt None))])) (Some (Node 6 [] (CompoundStmt [])))))]))))))];
     ts_locs := [(1,1,1,38); (1,10,1,38); (1,12,1,36); (1,15,1,15); (1,18,1,28); (1,20,1,20); (1,35,1,36)]%Z;
     ts_evals := [(3, true)]; ts_same := []; ts_decls := []; ts_parents := [] |}.
Example UnnecessaryElseStatement_IfThenBlockHasReturn_holds : sorted_violations_of (shippedRule sh_UnnecessaryElseStatement) UnnecessaryElseStatement_IfThenBlockHasReturn = Some [(1, 35, 1, 36, $"")%Z].
Proof. vm_compute. reflexivity. Qed.

Definition UnnecessaryElseStatement_NotEveryBranchEndWithReturn : testcase :=
  {| ts_lang := LC; ts_path := $"input.c"; ts_code := [];
     ts_comments := []; ts_conf := [];
     ts_tops := [(toplevel 0 (TFunction false), (Node 0 [] (FunctionDecl {| f_name := $"m"; f_method := None; f_isDefinition := true; f_bodyLines := (1)%Z |} [] (Some (Node 1 [] (CompoundStmt [(Node 2 [] (IfStmt [] (Node 3 [] (IntegerLiteral (1)%Z)) (Node 4 [] (CompoundStmt [(Node 5 [] (IfStmt [] (Node 6 [] (IntegerLiteral (0)%Z)) (Node 7 [] (CompoundStmt [(Node 8 [] (IfStmt [] (Node 9 [] (IntegerLiteral (1)%Z)) (Node 10 [] (ReturnStmt None)) None))])) None))])) (Some (Node 11 [] (CompoundStmt [])))))]))))))];
     ts_locs := [(1,1,1,54); (1,10,1,54); (1,12,1,52); (1,15,1,15); (1,18,1,44); (1,20,1,42); (1,23,1,23); (1,26,1,42); (1,28,1,34); (1,31,1,31); (1,34,1,34); (1,51,1,52)]%Z;
     ts_evals := [(3, true); (6, false); (9, true)]; ts_same := []; ts_decls := []; ts_parents := [] |}.
Example UnnecessaryElseStatement_NotEveryBranchEndWithReturn_holds : sorted_violations_of (shippedRule sh_UnnecessaryElseStatement) UnnecessaryElseStatement_NotEveryBranchEndWithReturn = Some [].
Proof. vm_compute. reflexivity. Qed.

Definition UnnecessaryElseStatement_ElseIfShouldBeIgnored : testcase :=
  {| ts_lang := LC; ts_path := $"input.c"; ts_code := [];
     ts_comments := []; ts_conf := [];
     ts_tops := [(toplevel 0 (TFunction false), (Node 0 [] (FunctionDecl {| f_name := $"m"; f_method := None; f_isDefinition := true; f_bodyLines := (1)%Z |} [] (Some (Node 1 [] (CompoundStmt [(Node 2 [] (IfStmt [] (Node 3 [] (IntegerLiteral (1)%Z)) (Node 4 [] (CompoundStmt [(Node 5 [] (ReturnStmt None))])) (Some (Node 6 [] (IfStmt [] (Node 7 [] (IntegerLiteral (0)%Z)) (Node 8 [] (CompoundStmt [(Node 9 [] (ReturnStmt None))])) None)))))]))))))];
     ts_locs := [(1,1,1,53); (1,10,1,53); (1,12,1,51); (1,15,1,15); (1,18,1,28); (1,20,1,20); (1,35,1,51); (1,38,1,38); (1,41,1,51); (1,43,1,43)]%Z;
     ts_evals := [(3, true); (7, false)]; ts_same := []; ts_decls := []; ts_parents := [] |}.
Example UnnecessaryElseStatement_ElseIfShouldBeIgnored_holds : sorted_violations_of (shippedRule sh_UnnecessaryElseStatement) UnnecessaryElseStatement_ElseIfShouldBeIgnored = Some [].
Proof. vm_compute. reflexivity. Qed.

Definition UnnecessaryElseStatement_NestedElseIf : testcase :=
  {| ts_lang := LC; ts_path := $"input.c"; ts_code := [];
     ts_comments := []; ts_conf := [];
     ts_tops := [(toplevel 0 (TFunction false), (Node 0 [] (FunctionDecl {| f_name := $"m"; f_method := None; f_isDefinition := true; f_bodyLines := (1)%Z |} [] (Some (Node 1 [] (CompoundStmt [(Node 2 [] (IfStmt [] (Node 3 [] (IntegerLiteral (1)%Z)) (Node 4 [] (CompoundStmt [(Node 5 [] (ReturnStmt None))])) (Some (Node 6 [] (IfStmt [] (Node 7 [] (IntegerLiteral (0)%Z)) (Node 8 [] (CompoundStmt [(Node 9 [] (ReturnStmt None))])) (Some (Node 10 [] (CompoundStmt []))))))))]))))))];
     ts_locs := [(1,1,1,62); (1,10,1,62); (1,12,1,60); (1,15,1,15); (1,18,1,28); (1,20,1,20); (1,35,1,60); (1,39,1,39); (1,42,1,52); (1,44,1,44); (1,59,1,60)]%Z;
     ts_evals := [(3, true); (7, false)]; ts_same := []; ts_decls := []; ts_parents := [] |}.
Example UnnecessaryElseStatement_NestedElseIf_holds : sorted_violations_of (shippedRule sh_UnnecessaryElseStatement) UnnecessaryElseStatement_NestedElseIf = Some [(1, 59, 1, 60, $"")%Z].
Proof. vm_compute. reflexivity. Qed.

Definition UnnecessaryElseStatement_NestedElseIfNotAllBranchesEndWithReturn : testcase :=
  {| ts_lang := LC; ts_path := $"input.c"; ts_code := [];
     ts_comments := []; ts_conf := [];
     ts_tops := [(toplevel 0 (TFunction false), (Node 0 [] (FunctionDecl {| f_name := $"m"; f_method := None; f_isDefinition := true; f_bodyLines := (1)%Z |} [] (Some (Node 1 [] (CompoundStmt [(Node 2 [] (DeclStmt [(Node 3 [] (VarDecl {| v_isParm := false; v_name := $"i"; v_used := true; v_referenced := true; v_local := true; v_staticMember := false; v_private := false; v_unusedAttr := false; v_defaultArg := false; v_canonicalType := $"int"; v_inTemplate := false; v_contexts := [CxFunction true true false] |} None))])); (Node 4 [] (IfStmt [] (Node 5 [] (IntegerLiteral (1)%Z)) (Node 6 [] (CompoundStmt [(Node 7 [] (BinaryOperator BO_Assign (Node 8 [] (DeclRefExpr 3 $"i" false)) (Node 9 [] (IntegerLiteral (1)%Z))))])) (Some (Node 10 [] (IfStmt [] (Node 11 [] (IntegerLiteral (0)%Z)) (Node 12 [] (CompoundStmt [(Node 13 [] (ReturnStmt None))])) (Some (Node 14 [] (CompoundStmt [(Node 15 [] (BinaryOperator BO_Assign (Node 16 [] (DeclRefExpr 3 $"i" false)) (Node 17 [] (IntegerLiteral (0)%Z))))]))))))))]))))))];
     ts_locs := [(1,1,1,74); (1,10,1,74); (1,12,1,17); (1,12,1,16); (1,19,1,72); (1,22,1,22); (1,25,1,34); (1,27,1,31); (1,27,1,27); (1,31,1,31); (1,41,1,72); (1,45,1,45); (1,48,1,56); (1,49,1,49); (1,63,1,72); (1,65,1,69); (1,65,1,65); (1,69,1,69)]%Z;
     ts_evals := [(5, true); (11, false)]; ts_same := []; ts_decls := []; ts_parents := [] |}.
Example UnnecessaryElseStatement_NestedElseIfNotAllBranchesEndWithReturn_holds : sorted_violations_of (shippedRule sh_UnnecessaryElseStatement) UnnecessaryElseStatement_NestedElseIfNotAllBranchesEndWithReturn = Some [].
Proof. vm_compute. reflexivity. Qed.

Definition UnnecessaryElseStatement_IfThenBlockContainsReturnAsLast : testcase :=
  {| ts_lang := LC; ts_path := $"input.c"; ts_code := [];
     ts_comments := []; ts_conf := [];
     ts_tops := [(toplevel 0 (TFunction false), (Node 0 [] (FunctionDecl {| f_name := $"m"; f_method := None; f_isDefinition := true; f_bodyLines := (1)%Z |} [] (Some (Node 1 [] (CompoundStmt [(Node 2 [] (IfStmt [] (Node 3 [] (IntegerLiteral (1)%Z)) (Node 4 [] (CompoundStmt [(Node 5 [] (DeclStmt [(Node 6 [] (VarDecl {| v_isParm := false; v_name := $"i"; v_used := false; v_referenced := false; v_local := true; v_staticMember := false; v_private := false; v_unusedAttr := false; v_defaultArg := false; v_canonicalType := $"int"; v_inTemplate := false; v_contexts := [CxFunction true true false] |} (Some (Node 7 [] (IntegerLiteral (1)%Z)))))])); (Node 8 [] (ReturnStmt None))])) (Some (Node 9 [] (CompoundStmt [])))))]))))))];
     ts_locs := [(1,1,1,49); (1,10,1,49); (1,12,1,47); (1,15,1,15); (1,18,1,39); (1,20,1,29); (1,20,1,28); (1,28,1,28); (1,31,1,31); (1,46,1,47)]%Z;
     ts_evals := [(3, true)]; ts_same := []; ts_decls := []; ts_parents := [] |}.
Example UnnecessaryElseStatement_IfThenBlockContainsReturnAsLast_holds : sorted_violations_of (shippedRule sh_UnnecessaryElseStatement) UnnecessaryElseStatement_IfThenBlockContainsReturnAsLast = Some [(1, 46, 1, 47, $"")%Z].
Proof. vm_compute. reflexivity. Qed.

Definition UnnecessaryElseStatement_IfThenBlockContainsReturnNotLast : testcase :=
  {| ts_lang := LC; ts_path := $"input.c"; ts_code := [];
     ts_comments := []; ts_conf := [];
     ts_tops := [(toplevel 0 (TFunction false), (Node 0 [] (FunctionDecl {| f_name := $"m"; f_method := None; f_isDefinition := true; f_bodyLines := (1)%Z |} [] (Some (Node 1 [] (CompoundStmt [(Node 2 [] (IfStmt [] (Node 3 [] (IntegerLiteral (1)%Z)) (Node 4 [] (CompoundStmt [(Node 5 [] (ReturnStmt None)); (Node 6 [] (DeclStmt [(Node 7 [] (VarDecl {| v_isParm := false; v_name := $"i"; v_used := false; v_referenced := false; v_local := true; v_staticMember := false; v_private := false; v_unusedAttr := false; v_defaultArg := false; v_canonicalType := $"int"; v_inTemplate := false; v_contexts := [CxFunction true true false] |} (Some (Node 8 [] (IntegerLiteral (2)%Z)))))]))])) (Some (Node 9 [] (CompoundStmt [])))))]))))))];
     ts_locs := [(1,1,1,49); (1,10,1,49); (1,12,1,47); (1,15,1,15); (1,18,1,39); (1,20,1,20); (1,28,1,37); (1,28,1,36); (1,36,1,36); (1,46,1,47)]%Z;
     ts_evals := [(3, true)]; ts_same := []; ts_decls := []; ts_parents := [] |}.
Example UnnecessaryElseStatement_IfThenBlockContainsReturnNotLast_holds : sorted_violations_of (shippedRule sh_UnnecessaryElseStatement) UnnecessaryElseStatement_IfThenBlockContainsReturnNotLast = Some [(1, 46, 1, 47, $"")%Z].
Proof. vm_compute. reflexivity. Qed.

Definition UnnecessaryElseStatement_EmbeddedIfStatementsEndingWithReturn : testcase :=
  {| ts_lang := LC; ts_path := $"input.c"; ts_code := [];
     ts_comments := []; ts_conf := [];
     ts_tops := [(toplevel 0 (TFunction false), (Node 0 [] (FunctionDecl {| f_name := $"m"; f_method := None; f_isDefinition := true; f_bodyLines := (1)%Z |} [] (Some (Node 1 [] (CompoundStmt [(Node 2 [] (IfStmt [] (Node 3 [] (IntegerLiteral (1)%Z)) (Node 4 [] (CompoundStmt [(Node 5 [] (IfStmt [] (Node 6 [] (IntegerLiteral (0)%Z)) (Node 7 [] (CompoundStmt [(Node 8 [] (ReturnStmt None))])) (Some (Node 9 [] (CompoundStmt [(Node 10 [] (ReturnStmt None))])))))])) (Some (Node 11 [] (CompoundStmt [(Node 12 [] (DeclStmt [(Node 13 [] (VarDecl {| v_isParm := false; v_name := $"i"; v_used := false; v_referenced := false; v_local := true; v_staticMember := false; v_private := false; v_unusedAttr := false; v_defaultArg := false; v_canonicalType := $"int"; v_inTemplate := false; v_contexts := [CxFunction true true false] |} (Some (Node 14 [] (IntegerLiteral (0)%Z)))))]))])))))]))))))];
     ts_locs := [(1,1,1,79); (1,10,1,79); (1,12,1,77); (1,16,1,16); (1,19,1,57); (1,21,1,55); (1,25,1,25); (1,28,1,38); (1,30,1,30); (1,45,1,55); (1,47,1,47); (1,64,1,77); (1,66,1,75); (1,66,1,74); (1,74,1,74)]%Z;
     ts_evals := [(3, true); (6, false)]; ts_same := []; ts_decls := []; ts_parents := [] |}.
Example UnnecessaryElseStatement_EmbeddedIfStatementsEndingWithReturn_holds : sorted_violations_of (shippedRule sh_UnnecessaryElseStatement) UnnecessaryElseStatement_EmbeddedIfStatementsEndingWithReturn = Some [(1, 45, 1, 55, $"")%Z; (1, 64, 1, 77, $"")%Z].
Proof. vm_compute. reflexivity. Qed.

(** ** oclint-rules/test/redundant/UnnecessaryNullCheckForCXXDeallocRuleTest.cpp *)

Definition UnnecessaryNullCheckForCXXDealloc_IfDelete : testcase :=
  {| ts_lang := LCXX; ts_path := $"input.cpp"; ts_code := [];
     ts_comments := []; ts_conf := [];
     ts_tops := [(toplevel 0 (TFunction false), (Node 0 [] (FunctionDecl {| f_name := $"m"; f_method := None; f_isDefinition := true; f_bodyLines := (1)%Z |} [(Node 1 [] (VarDecl {| v_isParm := true; v_name := $"c"; v_used := true; v_referenced := true; v_local := false; v_staticMember := false; v_private := false; v_unusedAttr := false; v_defaultArg := false; v_canonicalType := $"char *"; v_inTemplate := false; v_contexts := [CxFunction true true false] |} None))] (Some (Node 2 [] (CompoundStmt [(Node 3 [] (IfStmt [] (Node 4 [] (ImplicitCastExpr CK_PointerToBoolean (Node 5 [] (ImplicitCastExpr CK_LValueToRValue (Node 6 [] (DeclRefExpr 1 $"c" false)))))) (Node 7 [] (CXXDeleteExpr (Node 8 [] (ImplicitCastExpr CK_LValueToRValue (Node 9 [] (DeclRefExpr 1 $"c" false)))))) None))]))))))];
     ts_locs := [(1,1,1,36); (1,8,1,14); (1,17,1,36); (1,19,1,33); (1,23,1,23); (1,23,1,23); (1,23,1,23); (1,26,1,33); (1,33,1,33); (1,33,1,33)]%Z;
     ts_evals := []; ts_same := [(4, 0); (5, 1); (6, 2); (7, 3); (8, 1); (9, 2)]; ts_decls := []; ts_parents := [] |}.
Example UnnecessaryNullCheckForCXXDealloc_IfDelete_holds : sorted_violations_of (shippedRule sh_UnnecessaryNullCheckForCXXDealloc) UnnecessaryNullCheckForCXXDealloc_IfDelete = Some [(1, 19, 1, 33, $"")%Z].
Proof. vm_compute. reflexivity. Qed.

Definition UnnecessaryNullCheckForCXXDealloc_Comparator : testcase :=
  {| ts_lang := LCXX; ts_path := $"input.cpp"; ts_code := [];
     ts_comments := []; ts_conf := [];
     ts_tops := [(toplevel 0 (TFunction false), (Node 0 [] (FunctionDecl {| f_name := $"m"; f_method := None; f_isDefinition := true; f_bodyLines := (1)%Z |} [(Node 1 [] (VarDecl {| v_isParm := true; v_name := $"c"; v_used := true; v_referenced := true; v_local := false; v_staticMember := false; v_private := false; v_unusedAttr := false; v_defaultArg := false; v_canonicalType := $"char *"; v_inTemplate := false; v_contexts := [CxFunction true true false] |} None))] (Some (Node 2 [] (CompoundStmt [(Node 3 [] (IfStmt [] (Node 4 [] (BinaryOperator BO_NE (Node 5 [] (ImplicitCastExpr CK_LValueToRValue (Node 6 [] (DeclRefExpr 1 $"c" false)))) (Node 7 [] (ImplicitCastExpr CK_NullToPointer (Node 8 [] (IntegerLiteral (0)%Z)))))) (Node 9 [] (CXXDeleteExpr (Node 10 [] (ImplicitCastExpr CK_LValueToRValue (Node 11 [] (DeclRefExpr 1 $"c" false)))))) None))]))))))];
     ts_locs := [(1,1,1,41); (1,8,1,14); (1,17,1,41); (1,19,1,38); (1,23,1,28); (1,23,1,23); (1,23,1,23); (1,28,1,28); (1,28,1,28); (1,31,1,38); (1,38,1,38); (1,38,1,38)]%Z;
     ts_evals := []; ts_same := [(4, 0); (5, 1); (6, 2); (7, 3); (8, 4); (9, 5); (10, 1); (11, 2)]; ts_decls := []; ts_parents := [] |}.
Example UnnecessaryNullCheckForCXXDealloc_Comparator_holds : sorted_violations_of (shippedRule sh_UnnecessaryNullCheckForCXXDealloc) UnnecessaryNullCheckForCXXDealloc_Comparator = Some [(1, 19, 1, 38, $"")%Z].
Proof. vm_compute. reflexivity. Qed.

Definition UnnecessaryNullCheckForCXXDealloc_Comparator_2 : testcase :=
  {| ts_lang := LCXX; ts_path := $"input.cpp"; ts_code := [];
     ts_comments := []; ts_conf := [];
     ts_tops := [(toplevel 0 (TFunction false), (Node 0 [] (FunctionDecl {| f_name := $"m"; f_method := None; f_isDefinition := true; f_bodyLines := (1)%Z |} [(Node 1 [] (VarDecl {| v_isParm := true; v_name := $"c"; v_used := true; v_referenced := true; v_local := false; v_staticMember := false; v_private := false; v_unusedAttr := false; v_defaultArg := false; v_canonicalType := $"char *"; v_inTemplate := false; v_contexts := [CxFunction true true false] |} None))] (Some (Node 2 [] (CompoundStmt [(Node 3 [] (IfStmt [] (Node 4 [] (BinaryOperator BO_NE (Node 5 [] (ImplicitCastExpr CK_BitCast (Node 6 [] (ImplicitCastExpr CK_LValueToRValue (Node 7 [] (DeclRefExpr 1 $"c" false)))))) (Node 8 [] (CStyleCastExpr CK_NullToPointer (Node 9 [] (IntegerLiteral (0)%Z)))))) (Node 10 [] (CXXDeleteExpr (Node 11 [] (ImplicitCastExpr CK_LValueToRValue (Node 12 [] (DeclRefExpr 1 $"c" false)))))) None))]))))))];
     ts_locs := [(1,1,1,48); (1,8,1,14); (1,17,1,48); (1,19,1,45); (1,23,1,35); (1,23,1,23); (1,23,1,23); (1,23,1,23); (1,28,1,35); (1,35,1,35); (1,38,1,45); (1,45,1,45); (1,45,1,45)]%Z;
     ts_evals := []; ts_same := [(4, 0); (5, 1); (6, 2); (7, 3); (8, 4); (9, 5); (10, 6); (11, 2); (12, 3)]; ts_decls := []; ts_parents := [] |}.
Example UnnecessaryNullCheckForCXXDealloc_Comparator_2_holds : sorted_violations_of (shippedRule sh_UnnecessaryNullCheckForCXXDealloc) UnnecessaryNullCheckForCXXDealloc_Comparator_2 = Some [(1, 19, 1, 45, $"")%Z].
Proof. vm_compute. reflexivity. Qed.

Definition UnnecessaryNullCheckForCXXDealloc_Comparator_3 : testcase :=
  {| ts_lang := LCXX; ts_path := $"input.cpp"; ts_code := [];
     ts_comments := []; ts_conf := [];
     ts_tops := [(toplevel 0 (TFunction false), (Node 0 [] (FunctionDecl {| f_name := $"m"; f_method := None; f_isDefinition := true; f_bodyLines := (1)%Z |} [(Node 1 [] (VarDecl {| v_isParm := true; v_name := $"c"; v_used := true; v_referenced := true; v_local := false; v_staticMember := false; v_private := false; v_unusedAttr := false; v_defaultArg := false; v_canonicalType := $"char *"; v_inTemplate := false; v_contexts := [CxFunction true true false] |} None))] (Some (Node 2 [] (CompoundStmt [(Node 3 [] (IfStmt [] (Node 4 [] (BinaryOperator BO_NE (Node 5 [] (ImplicitCastExpr CK_LValueToRValue (Node 6 [] (DeclRefExpr 1 $"c" false)))) (Node 7 [] (ImplicitCastExpr CK_NullToPointer (Node 8 [] (OtherExpr [])))))) (Node 9 [] (CXXDeleteExpr (Node 10 [] (ImplicitCastExpr CK_LValueToRValue (Node 11 [] (DeclRefExpr 1 $"c" false)))))) None))]))))))];
     ts_locs := [(1,1,1,47); (1,8,1,14); (1,17,1,47); (1,19,1,44); (1,23,1,28); (1,23,1,23); (1,23,1,23); (1,28,1,28); (1,28,1,28); (1,37,1,44); (1,44,1,44); (1,44,1,44)]%Z;
     ts_evals := []; ts_same := [(4, 0); (5, 1); (6, 2); (7, 3); (8, 4); (9, 5); (10, 1); (11, 2)]; ts_decls := []; ts_parents := [] |}.
Example UnnecessaryNullCheckForCXXDealloc_Comparator_3_holds : sorted_violations_of (shippedRule sh_UnnecessaryNullCheckForCXXDealloc) UnnecessaryNullCheckForCXXDealloc_Comparator_3 = Some [(1, 19, 1, 44, $"")%Z].
Proof. vm_compute. reflexivity. Qed.

Definition UnnecessaryNullCheckForCXXDealloc_ResetDeleteBlock : testcase :=
  {| ts_lang := LCXX; ts_path := $"input.cpp"; ts_code := [];
     ts_comments := []; ts_conf := [];
     ts_tops := [(toplevel 0 (TFunction false), (Node 0 [] (FunctionDecl {| f_name := $"m"; f_method := None; f_isDefinition := true; f_bodyLines := (1)%Z |} [(Node 1 [] (VarDecl {| v_isParm := true; v_name := $"c"; v_used := true; v_referenced := true; v_local := false; v_staticMember := false; v_private := false; v_unusedAttr := false; v_defaultArg := false; v_canonicalType := $"char *"; v_inTemplate := false; v_contexts := [CxFunction true true false] |} None))] (Some (Node 2 [] (CompoundStmt [(Node 3 [] (IfStmt [] (Node 4 [] (ImplicitCastExpr CK_PointerToBoolean (Node 5 [] (ImplicitCastExpr CK_LValueToRValue (Node 6 [] (DeclRefExpr 1 $"c" false)))))) (Node 7 [] (CompoundStmt [(Node 8 [] (CXXDeleteExpr (Node 9 [] (ImplicitCastExpr CK_LValueToRValue (Node 10 [] (DeclRefExpr 1 $"c" false)))))); (Node 11 [] (BinaryOperator BO_Assign (Node 12 [] (DeclRefExpr 1 $"c" false)) (Node 13 [] (ImplicitCastExpr CK_NullToPointer (Node 14 [] (IntegerLiteral (0)%Z))))))])) None))]))))))];
     ts_locs := [(1,1,1,47); (1,8,1,14); (1,17,1,47); (1,19,1,45); (1,23,1,23); (1,23,1,23); (1,23,1,23); (1,26,1,45); (1,28,1,35); (1,35,1,35); (1,35,1,35); (1,38,1,42); (1,38,1,38); (1,42,1,42); (1,42,1,42)]%Z;
     ts_evals := []; ts_same := [(4, 0); (5, 1); (6, 2); (8, 3); (9, 1); (10, 2); (11, 4); (12, 2); (13, 5); (14, 6)]; ts_decls := []; ts_parents := [] |}.
Example UnnecessaryNullCheckForCXXDealloc_ResetDeleteBlock_holds : sorted_violations_of (shippedRule sh_UnnecessaryNullCheckForCXXDealloc) UnnecessaryNullCheckForCXXDealloc_ResetDeleteBlock = Some [(1, 19, 1, 45, $"")%Z].
Proof. vm_compute. reflexivity. Qed.

Definition UnnecessaryNullCheckForCXXDealloc_ResetDeleteBlock_2 : testcase :=
  {| ts_lang := LCXX; ts_path := $"input.cpp"; ts_code := [];
     ts_comments := []; ts_conf := [];
     ts_tops := [(toplevel 0 (TFunction false), (Node 0 [] (FunctionDecl {| f_name := $"m"; f_method := None; f_isDefinition := true; f_bodyLines := (1)%Z |} [(Node 1 [] (VarDecl {| v_isParm := true; v_name := $"c"; v_used := true; v_referenced := true; v_local := false; v_staticMember := false; v_private := false; v_unusedAttr := false; v_defaultArg := false; v_canonicalType := $"char *"; v_inTemplate := false; v_contexts := [CxFunction true true false] |} None))] (Some (Node 2 [] (CompoundStmt [(Node 3 [] (IfStmt [] (Node 4 [] (ImplicitCastExpr CK_PointerToBoolean (Node 5 [] (ImplicitCastExpr CK_LValueToRValue (Node 6 [] (DeclRefExpr 1 $"c" false)))))) (Node 7 [] (CompoundStmt [(Node 8 [] (CXXDeleteExpr (Node 9 [] (ImplicitCastExpr CK_LValueToRValue (Node 10 [] (DeclRefExpr 1 $"c" false)))))); (Node 11 [] (BinaryOperator BO_Assign (Node 12 [] (DeclRefExpr 1 $"c" false)) (Node 13 [] (ImplicitCastExpr CK_NullToPointer (Node 14 [] (OtherExpr []))))))])) None))]))))))];
     ts_locs := [(1,1,1,53); (1,8,1,14); (1,17,1,53); (1,19,1,51); (1,23,1,23); (1,23,1,23); (1,23,1,23); (1,26,1,51); (1,28,1,35); (1,35,1,35); (1,35,1,35); (1,38,1,42); (1,38,1,38); (1,42,1,42); (1,42,1,42)]%Z;
     ts_evals := []; ts_same := [(4, 0); (5, 1); (6, 2); (8, 3); (9, 1); (10, 2); (11, 4); (12, 2); (13, 5); (14, 6)]; ts_decls := []; ts_parents := [] |}.
Example UnnecessaryNullCheckForCXXDealloc_ResetDeleteBlock_2_holds : sorted_violations_of (shippedRule sh_UnnecessaryNullCheckForCXXDealloc) UnnecessaryNullCheckForCXXDealloc_ResetDeleteBlock_2 = Some [(1, 19, 1, 51, $"")%Z].
Proof. vm_compute. reflexivity. Qed.

Definition UnnecessaryNullCheckForCXXDealloc_DeleteArray : testcase :=
  {| ts_lang := LCXX; ts_path := $"input.cpp"; ts_code := [];
     ts_comments := []; ts_conf := [];
     ts_tops := [(toplevel 0 (TFunction false), (Node 0 [] (FunctionDecl {| f_name := $"m"; f_method := None; f_isDefinition := true; f_bodyLines := (1)%Z |} [(Node 1 [] (VarDecl {| v_isParm := true; v_name := $"c"; v_used := true; v_referenced := true; v_local := false; v_staticMember := false; v_private := false; v_unusedAttr := false; v_defaultArg := false; v_canonicalType := $"char *"; v_inTemplate := false; v_contexts := [CxFunction true true false] |} None))] (Some (Node 2 [] (CompoundStmt [(Node 3 [] (IfStmt [] (Node 4 [] (BinaryOperator BO_NE (Node 5 [] (ImplicitCastExpr CK_LValueToRValue (Node 6 [] (DeclRefExpr 1 $"c" false)))) (Node 7 [] (ImplicitCastExpr CK_NullToPointer (Node 8 [] (IntegerLiteral (0)%Z)))))) (Node 9 [] (CXXDeleteExpr (Node 10 [] (ImplicitCastExpr CK_LValueToRValue (Node 11 [] (DeclRefExpr 1 $"c" false)))))) None))]))))))];
     ts_locs := [(1,1,1,44); (1,8,1,14); (1,17,1,44); (1,19,1,41); (1,23,1,28); (1,23,1,23); (1,23,1,23); (1,28,1,28); (1,28,1,28); (1,31,1,41); (1,41,1,41); (1,41,1,41)]%Z;
     ts_evals := []; ts_same := [(4, 0); (5, 1); (6, 2); (7, 3); (8, 4); (9, 5); (10, 1); (11, 2)]; ts_decls := []; ts_parents := [] |}.
Example UnnecessaryNullCheckForCXXDealloc_DeleteArray_holds : sorted_violations_of (shippedRule sh_UnnecessaryNullCheckForCXXDealloc) UnnecessaryNullCheckForCXXDealloc_DeleteArray = Some [(1, 19, 1, 41, $"")%Z].
Proof. vm_compute. reflexivity. Qed.

Definition UnnecessaryNullCheckForCXXDealloc_DeleteArray_2 : testcase :=
  {| ts_lang := LCXX; ts_path := $"input.cpp"; ts_code := [];
     ts_comments := []; ts_conf := [];
     ts_tops := [(toplevel 0 (TOther), (Node 0 [] (CXXRecordDecl {| r_class := (CxxRecord 0 $"S" true false (Some (false, false)) []); r_fields := 0; r_methods := 1; r_lines := (1)%Z |} [(Node 1 [] (FunctionDecl {| f_name := $"~S"; f_method := (Some {| cm_virtual := false; cm_static := false; cm_private := false; cm_inRecord := true |}); f_isDefinition := false; f_bodyLines := (0)%Z |} [] None))]))); (toplevel 2 (TFunction false), (Node 2 [] (FunctionDecl {| f_name := $"m"; f_method := None; f_isDefinition := true; f_bodyLines := (1)%Z |} [(Node 3 [] (VarDecl {| v_isParm := true; v_name := $"s"; v_used := true; v_referenced := true; v_local := false; v_staticMember := false; v_private := false; v_unusedAttr := false; v_defaultArg := false; v_canonicalType := $"S *"; v_inTemplate := false; v_contexts := [CxFunction true true false] |} None))] (Some (Node 4 [] (CompoundStmt [(Node 5 [] (IfStmt [] (Node 6 [] (ImplicitCastExpr CK_PointerToBoolean (Node 7 [] (ImplicitCastExpr CK_LValueToRValue (Node 8 [] (DeclRefExpr 3 $"s" false)))))) (Node 9 [] (CXXDeleteExpr (Node 10 [] (ImplicitCastExpr CK_LValueToRValue (Node 11 [] (DeclRefExpr 3 $"s" false)))))) None))]))))))];
     ts_locs := [(1,1,1,16); (1,11,1,14); (1,19,1,51); (1,26,1,29); (1,32,1,51); (1,34,1,49); (1,38,1,38); (1,38,1,38); (1,38,1,38); (1,41,1,49); (1,49,1,49); (1,49,1,49)]%Z;
     ts_evals := []; ts_same := [(6, 0); (7, 1); (8, 2); (9, 3); (10, 1); (11, 2)]; ts_decls := []; ts_parents := [] |}.
Example UnnecessaryNullCheckForCXXDealloc_DeleteArray_2_holds : sorted_violations_of (shippedRule sh_UnnecessaryNullCheckForCXXDealloc) UnnecessaryNullCheckForCXXDealloc_DeleteArray_2 = Some [(1, 34, 1, 49, $"")%Z].
Proof. vm_compute. reflexivity. Qed.

Definition UnnecessaryNullCheckForCXXDealloc_CorrectCode : testcase :=
  {| ts_lang := LCXX; ts_path := $"input.cpp"; ts_code := [];
     ts_comments := []; ts_conf := [];
     ts_tops := [(toplevel 0 (TFunction false), (Node 0 [] (FunctionDecl {| f_name := $"m"; f_method := None; f_isDefinition := true; f_bodyLines := (1)%Z |} [(Node 1 [] (VarDecl {| v_isParm := true; v_name := $"c"; v_used := true; v_referenced := true; v_local := false; v_staticMember := false; v_private := false; v_unusedAttr := false; v_defaultArg := false; v_canonicalType := $"char *"; v_inTemplate := false; v_contexts := [CxFunction true true false] |} None))] (Some (Node 2 [] (CompoundStmt [(Node 3 [] (IfStmt [] (Node 4 [] (ImplicitCastExpr CK_PointerToBoolean (Node 5 [] (ImplicitCastExpr CK_LValueToRValue (Node 6 [] (DeclRefExpr 1 $"c" false)))))) (Node 7 [] (CompoundStmt [(Node 8 [] (CXXDeleteExpr (Node 9 [] (ImplicitCastExpr CK_LValueToRValue (Node 10 [] (DeclRefExpr 1 $"c" false))))))])) (Some (Node 11 [] NullStmt))))]))))))];
     ts_locs := [(1,1,1,47); (1,8,1,14); (1,17,1,47); (1,19,1,45); (1,23,1,23); (1,23,1,23); (1,23,1,23); (1,26,1,38); (1,28,1,35); (1,35,1,35); (1,35,1,35); (1,45,1,45)]%Z;
     ts_evals := []; ts_same := [(4, 0); (5, 1); (6, 2); (8, 3); (9, 1); (10, 2)]; ts_decls := []; ts_parents := [] |}.
Example UnnecessaryNullCheckForCXXDealloc_CorrectCode_holds : sorted_violations_of (shippedRule sh_UnnecessaryNullCheckForCXXDealloc) UnnecessaryNullCheckForCXXDealloc_CorrectCode = Some [].
Proof. vm_compute. reflexivity. Qed.

Definition UnnecessaryNullCheckForCXXDealloc_CorrectCode_2 : testcase :=
  {| ts_lang := LCXX; ts_path := $"input.cpp"; ts_code := [];
     ts_comments := []; ts_conf := [];
     ts_tops := [(toplevel 0 (TFunction false), (Node 0 [] (FunctionDecl {| f_name := $"m"; f_method := None; f_isDefinition := true; f_bodyLines := (1)%Z |} [(Node 1 [] (VarDecl {| v_isParm := true; v_name := $"c"; v_used := true; v_referenced := true; v_local := false; v_staticMember := false; v_private := false; v_unusedAttr := false; v_defaultArg := false; v_canonicalType := $"char *"; v_inTemplate := false; v_contexts := [CxFunction true true false] |} None))] (Some (Node 2 [] (CompoundStmt [(Node 3 [] (IfStmt [] (Node 4 [] (ImplicitCastExpr CK_PointerToBoolean (Node 5 [] (ImplicitCastExpr CK_LValueToRValue (Node 6 [] (DeclRefExpr 1 $"c" false)))))) (Node 7 [] (CXXDeleteExpr (Node 8 [] (ImplicitCastExpr CK_LValueToRValue (Node 9 [] (DeclRefExpr 1 $"c" false)))))) (Some (Node 10 [] NullStmt))))]))))))];
     ts_locs := [(1,1,1,43); (1,8,1,14); (1,17,1,43); (1,19,1,41); (1,23,1,23); (1,23,1,23); (1,23,1,23); (1,26,1,33); (1,33,1,33); (1,33,1,33); (1,41,1,41)]%Z;
     ts_evals := []; ts_same := [(4, 0); (5, 1); (6, 2); (7, 3); (8, 1); (9, 2)]; ts_decls := []; ts_parents := [] |}.
Example UnnecessaryNullCheckForCXXDealloc_CorrectCode_2_holds : sorted_violations_of (shippedRule sh_UnnecessaryNullCheckForCXXDealloc) UnnecessaryNullCheckForCXXDealloc_CorrectCode_2 = Some [].
Proof. vm_compute. reflexivity. Qed.

Definition UnnecessaryNullCheckForCXXDealloc_CorrectCode_3 : testcase :=
  {| ts_lang := LCXX; ts_path := $"input.cpp"; ts_code := [];
     ts_comments := []; ts_conf := [];
     ts_tops := [(toplevel 0 (TFunction false), (Node 0 [] (FunctionDecl {| f_name := $"m"; f_method := None; f_isDefinition := true; f_bodyLines := (1)%Z |} [(Node 1 [] (VarDecl {| v_isParm := true; v_name := $"c"; v_used := true; v_referenced := true; v_local := false; v_staticMember := false; v_private := false; v_unusedAttr := false; v_defaultArg := false; v_canonicalType := $"char *"; v_inTemplate := false; v_contexts := [CxFunction true true false] |} None))] (Some (Node 2 [] (CompoundStmt [(Node 3 [] (IfStmt [] (Node 4 [] (ImplicitCastExpr CK_PointerToBoolean (Node 5 [] (ImplicitCastExpr CK_LValueToRValue (Node 6 [] (DeclRefExpr 1 $"c" false)))))) (Node 7 [] (CompoundStmt [(Node 8 [] (CXXDeleteExpr (Node 9 [] (ImplicitCastExpr CK_LValueToRValue (Node 10 [] (DeclRefExpr 1 $"c" false)))))); (Node 11 [] (BinaryOperator BO_Assign (Node 12 [] (DeclRefExpr 1 $"c" false)) (Node 13 [] (ImplicitCastExpr CK_NullToPointer (Node 14 [] (IntegerLiteral (0)%Z)))))); (Node 15 [] (UnaryOperator UO_Other (Node 16 [] (DeclRefExpr 1 $"c" false))))])) None))]))))))];
     ts_locs := [(1,1,1,52); (1,8,1,14); (1,17,1,52); (1,19,1,50); (1,23,1,23); (1,23,1,23); (1,23,1,23); (1,26,1,50); (1,28,1,35); (1,35,1,35); (1,35,1,35); (1,38,1,42); (1,38,1,38); (1,42,1,42); (1,42,1,42); (1,45,1,47); (1,47,1,47)]%Z;
     ts_evals := []; ts_same := [(4, 0); (5, 1); (6, 2); (8, 3); (9, 1); (10, 2); (11, 4); (12, 2); (13, 5); (14, 6); (15, 7); (16, 2)]; ts_decls := []; ts_parents := [] |}.
Example UnnecessaryNullCheckForCXXDealloc_CorrectCode_3_holds : sorted_violations_of (shippedRule sh_UnnecessaryNullCheckForCXXDealloc) UnnecessaryNullCheckForCXXDealloc_CorrectCode_3 = Some [].
Proof. vm_compute. reflexivity. Qed.

Definition UnnecessaryNullCheckForCXXDealloc_CorrectCode_4 : testcase :=
  {| ts_lang := LCXX; ts_path := $"input.cpp"; ts_code := [];
     ts_comments := []; ts_conf := [];
     ts_tops := [(toplevel 0 (TFunction false), (Node 0 [] (FunctionDecl {| f_name := $"m"; f_method := None; f_isDefinition := true; f_bodyLines := (1)%Z |} [(Node 1 [] (VarDecl {| v_isParm := true; v_name := $"c"; v_used := true; v_referenced := true; v_local := false; v_staticMember := false; v_private := false; v_unusedAttr := false; v_defaultArg := false; v_canonicalType := $"char *"; v_inTemplate := false; v_contexts := [CxFunction true true false] |} None)); (Node 2 [] (VarDecl {| v_isParm := true; v_name := $"b"; v_used := true; v_referenced := true; v_local := false; v_staticMember := false; v_private := false; v_unusedAttr := false; v_defaultArg := false; v_canonicalType := $"char *"; v_inTemplate := false; v_contexts := [CxFunction true true false] |} None))] (Some (Node 3 [] (CompoundStmt [(Node 4 [] (IfStmt [] (Node 5 [] (ImplicitCastExpr CK_PointerToBoolean (Node 6 [] (ImplicitCastExpr CK_LValueToRValue (Node 7 [] (DeclRefExpr 1 $"c" false)))))) (Node 8 [] (CompoundStmt [(Node 9 [] (CXXDeleteExpr (Node 10 [] (ImplicitCastExpr CK_LValueToRValue (Node 11 [] (DeclRefExpr 1 $"c" false)))))); (Node 12 [] (BinaryOperator BO_Assign (Node 13 [] (DeclRefExpr 1 $"c" false)) (Node 14 [] (ImplicitCastExpr CK_LValueToRValue (Node 15 [] (DeclRefExpr 2 $"b" false))))))])) None))]))))))];
     ts_locs := [(1,1,1,56); (1,8,1,14); (1,17,1,23); (1,26,1,56); (1,28,1,54); (1,32,1,32); (1,32,1,32); (1,32,1,32); (1,35,1,54); (1,37,1,44); (1,44,1,44); (1,44,1,44); (1,47,1,51); (1,47,1,47); (1,51,1,51); (1,51,1,51)]%Z;
     ts_evals := []; ts_same := [(5, 0); (6, 1); (7, 2); (9, 3); (10, 1); (11, 2); (12, 4); (13, 2); (14, 5); (15, 6)]; ts_decls := []; ts_parents := [] |}.
Example UnnecessaryNullCheckForCXXDealloc_CorrectCode_4_holds : sorted_violations_of (shippedRule sh_UnnecessaryNullCheckForCXXDealloc) UnnecessaryNullCheckForCXXDealloc_CorrectCode_4 = Some [].
Proof. vm_compute. reflexivity. Qed.

(** ** oclint-rules/test/redundant/UselessParenthesesRuleTest.cpp *)

Definition UselessParentheses_NoParentheses : testcase :=
  {| ts_lang := LC; ts_path := $"input.c"; ts_code := [];
     ts_comments := []; ts_conf := [];
     ts_tops := [(toplevel 0 (TFunction false), (Node 0 [] (FunctionDecl {| f_name := $"m"; f_method := None; f_isDefinition := true; f_bodyLines := (1)%Z |} [] (Some (Node 1 [] (CompoundStmt [(Node 2 [] (IfStmt [] (Node 3 [] (IntegerLiteral (1)%Z)) (Node 4 [] (CompoundStmt [])) None))]))))))];
     ts_locs := [(1,1,1,21); (1,10,1,21); (1,12,1,19); (1,15,1,15); (1,18,1,19)]%Z;
     ts_evals := [(3, true)]; ts_same := []; ts_decls := []; ts_parents := [] |}.
Example UselessParentheses_NoParentheses_holds : sorted_violations_of (shippedRule sh_UselessParentheses) UselessParentheses_NoParentheses = Some [].
Proof. vm_compute. reflexivity. Qed.

Definition UselessParentheses_RedundantParenthesesInReturnStmt : testcase :=
  {| ts_lang := LC; ts_path := $"input.c"; ts_code := [];
     ts_comments := []; ts_conf := [];
     ts_tops := [(toplevel 0 (TFunction false), (Node 0 [] (FunctionDecl {| f_name := $"m"; f_method := None; f_isDefinition := true; f_bodyLines := (1)%Z |} [] (Some (Node 1 [] (CompoundStmt [(Node 2 [] (ReturnStmt (Some (Node 3 [] (ParenExpr (Node 4 [] (IntegerLiteral (0)%Z)))))))]))))))];
     ts_locs := [(1,1,1,23); (1,9,1,23); (1,11,1,20); (1,18,1,20); (1,19,1,19)]%Z;
     ts_evals := []; ts_same := []; ts_decls := []; ts_parents := [] |}.
Example UselessParentheses_RedundantParenthesesInReturnStmt_holds : sorted_violations_of (shippedRule sh_UselessParentheses) UselessParentheses_RedundantParenthesesInReturnStmt = Some [(1, 18, 1, 20, $"")%Z].
Proof. vm_compute. reflexivity. Qed.

Definition UselessParentheses_RedundantParenthesesInAssignment : testcase :=
  {| ts_lang := LC; ts_path := $"input.c"; ts_code := [];
     ts_comments := []; ts_conf := [];
     ts_tops := [(toplevel 0 (TFunction false), (Node 0 [] (FunctionDecl {| f_name := $"m"; f_method := None; f_isDefinition := true; f_bodyLines := (1)%Z |} [(Node 1 [] (VarDecl {| v_isParm := true; v_name := $"x"; v_used := true; v_referenced := true; v_local := false; v_staticMember := false; v_private := false; v_unusedAttr := false; v_defaultArg := false; v_canonicalType := $"int"; v_inTemplate := false; v_contexts := [CxFunction true true false] |} None))] (Some (Node 2 [] (CompoundStmt [(Node 3 [] (DeclStmt [(Node 4 [] (VarDecl {| v_isParm := false; v_name := $"y"; v_used := true; v_referenced := true; v_local := true; v_staticMember := false; v_private := false; v_unusedAttr := false; v_defaultArg := false; v_canonicalType := $"int"; v_inTemplate := false; v_contexts := [CxFunction true true false] |} (Some (Node 5 [] (ParenExpr (Node 6 [] (BinaryOperator BO_Other (Node 7 [] (ImplicitCastExpr CK_LValueToRValue (Node 8 [] (DeclRefExpr 1 $"x" false)))) (Node 9 [] (IntegerLiteral (1)%Z)))))))))])); (Node 10 [] (ReturnStmt (Some (Node 11 [] (ImplicitCastExpr CK_LValueToRValue (Node 12 [] (DeclRefExpr 4 $"y" false)))))))]))))))];
     ts_locs := [(1,1,1,43); (1,7,1,11); (1,14,1,43); (1,16,1,31); (1,16,1,30); (1,24,1,30); (1,25,1,29); (1,25,1,25); (1,25,1,25); (1,29,1,29); (1,33,1,40); (1,40,1,40); (1,40,1,40)]%Z;
     ts_evals := []; ts_same := []; ts_decls := []; ts_parents := [] |}.
Example UselessParentheses_RedundantParenthesesInAssignment_holds : sorted_violations_of (shippedRule sh_UselessParentheses) UselessParentheses_RedundantParenthesesInAssignment = Some [(1, 24, 1, 30, $"")%Z].
Proof. vm_compute. reflexivity. Qed.

Definition UselessParentheses_RedundantParenthesesInMultipleAssignments : testcase :=
  {| ts_lang := LC; ts_path := $"input.c"; ts_code := [];
     ts_comments := []; ts_conf := [];
     ts_tops := [(toplevel 0 (TFunction false), (Node 0 [] (FunctionDecl {| f_name := $"m"; f_method := None; f_isDefinition := true; f_bodyLines := (1)%Z |} [(Node 1 [] (VarDecl {| v_isParm := true; v_name := $"x"; v_used := true; v_referenced := true; v_local := false; v_staticMember := false; v_private := false; v_unusedAttr := false; v_defaultArg := false; v_canonicalType := $"int"; v_inTemplate := false; v_contexts := [CxFunction true true false] |} None))] (Some (Node 2 [] (CompoundStmt [(Node 3 [] (DeclStmt [(Node 4 [] (VarDecl {| v_isParm := false; v_name := $"a"; v_used := false; v_referenced := false; v_local := true; v_staticMember := false; v_private := false; v_unusedAttr := false; v_defaultArg := false; v_canonicalType := $"int"; v_inTemplate := false; v_contexts := [CxFunction true true false] |} None)); (Node 5 [] (VarDecl {| v_isParm := false; v_name := $"y"; v_used := true; v_referenced := true; v_local := true; v_staticMember := false; v_private := false; v_unusedAttr := false; v_defaultArg := false; v_canonicalType := $"int"; v_inTemplate := false; v_contexts := [CxFunction true true false] |} (Some (Node 6 [] (ParenExpr (Node 7 [] (BinaryOperator BO_Other (Node 8 [] (ImplicitCastExpr CK_LValueToRValue (Node 9 [] (DeclRefExpr 1 $"x" false)))) (Node 10 [] (IntegerLiteral (1)%Z))))))))); (Node 11 [] (VarDecl {| v_isParm := false; v_name := $"z"; v_used := true; v_referenced := true; v_local := true; v_staticMember := false; v_private := false; v_unusedAttr := false; v_defaultArg := false; v_canonicalType := $"int"; v_inTemplate := false; v_contexts := [CxFunction true true false] |} (Some (Node 12 [] (ParenExpr (Node 13 [] (BinaryOperator BO_Other (Node 14 [] (ImplicitCastExpr CK_LValueToRValue (Node 15 [] (DeclRefExpr 1 $"x" false)))) (Node 16 [] (IntegerLiteral (2)%Z)))))))))])); (Node 17 [] (ReturnStmt (Some (Node 18 [] (BinaryOperator BO_Other (Node 19 [] (ImplicitCastExpr CK_LValueToRValue (Node 20 [] (DeclRefExpr 5 $"y" false)))) (Node 21 [] (ImplicitCastExpr CK_LValueToRValue (Node 22 [] (DeclRefExpr 11 $"z" false)))))))))]))))))];
     ts_locs := [(1,1,1,63); (1,7,1,11); (1,14,1,63); (1,16,1,47); (1,16,1,20); (1,16,1,33); (1,27,1,33); (1,28,1,32); (1,28,1,28); (1,28,1,28); (1,32,1,32); (1,16,1,46); (1,40,1,46); (1,41,1,45); (1,41,1,41); (1,41,1,41); (1,45,1,45); (1,49,1,60); (1,56,1,60); (1,56,1,56); (1,56,1,56); (1,60,1,60); (1,60,1,60)]%Z;
     ts_evals := []; ts_same := []; ts_decls := []; ts_parents := [] |}.
Example UselessParentheses_RedundantParenthesesInMultipleAssignments_holds : sorted_violations_of (shippedRule sh_UselessParentheses) UselessParentheses_RedundantParenthesesInMultipleAssignments = Some [(1, 27, 1, 33, $"")%Z; (1, 40, 1, 46, $"")%Z].
Proof. vm_compute. reflexivity. Qed.

Definition UselessParentheses_RedundantParenthesesInIfCondition : testcase :=
  {| ts_lang := LC; ts_path := $"input.c"; ts_code := [];
     ts_comments := []; ts_conf := [];
     ts_tops := [(toplevel 0 (TFunction false), (Node 0 [] (FunctionDecl {| f_name := $"m"; f_method := None; f_isDefinition := true; f_bodyLines := (1)%Z |} [(Node 1 [] (VarDecl {| v_isParm := true; v_name := $"x"; v_used := true; v_referenced := true; v_local := false; v_staticMember := false; v_private := false; v_unusedAttr := false; v_defaultArg := false; v_canonicalType := $"int"; v_inTemplate := false; v_contexts := [CxFunction true true false] |} None))] (Some (Node 2 [] (CompoundStmt [(Node 3 [] (IfStmt [] (Node 4 [] (ParenExpr (Node 5 [] (BinaryOperator BO_Other (Node 6 [] (ImplicitCastExpr CK_LValueToRValue (Node 7 [] (DeclRefExpr 1 $"x" false)))) (Node 8 [] (IntegerLiteral (0)%Z)))))) (Node 9 [] (CompoundStmt [(Node 10 [] (ReturnStmt None))])) None))]))))))];
     ts_locs := [(1,1,1,42); (1,8,1,12); (1,15,1,42); (1,17,1,40); (1,21,1,27); (1,22,1,26); (1,22,1,22); (1,22,1,22); (1,26,1,26); (1,30,1,40); (1,32,1,32)]%Z;
     ts_evals := []; ts_same := []; ts_decls := []; ts_parents := [] |}.
Example UselessParentheses_RedundantParenthesesInIfCondition_holds : sorted_violations_of (shippedRule sh_UselessParentheses) UselessParentheses_RedundantParenthesesInIfCondition = Some [(1, 21, 1, 27, $"")%Z].
Proof. vm_compute. reflexivity. Qed.

Definition UselessParentheses_ParenthesesInArithmetic : testcase :=
  {| ts_lang := LC; ts_path := $"input.c"; ts_code := [];
     ts_comments := []; ts_conf := [];
     ts_tops := [(toplevel 0 (TFunction false), (Node 0 [] (FunctionDecl {| f_name := $"m"; f_method := None; f_isDefinition := true; f_bodyLines := (1)%Z |} [(Node 1 [] (VarDecl {| v_isParm := true; v_name := $"x"; v_used := true; v_referenced := true; v_local := false; v_staticMember := false; v_private := false; v_unusedAttr := false; v_defaultArg := false; v_canonicalType := $"int"; v_inTemplate := false; v_contexts := [CxFunction true true false] |} None))] (Some (Node 2 [] (CompoundStmt [(Node 3 [] (ReturnStmt (Some (Node 4 [] (BinaryOperator BO_Other (Node 5 [] (ParenExpr (Node 6 [] (BinaryOperator BO_Other (Node 7 [] (ImplicitCastExpr CK_LValueToRValue (Node 8 [] (DeclRefExpr 1 $"x" false)))) (Node 9 [] (IntegerLiteral (1)%Z)))))) (Node 10 [] (IntegerLiteral (2)%Z)))))))]))))))];
     ts_locs := [(1,1,1,36); (1,7,1,11); (1,14,1,36); (1,16,1,33); (1,23,1,33); (1,23,1,29); (1,24,1,28); (1,24,1,24); (1,24,1,24); (1,28,1,28); (1,33,1,33)]%Z;
     ts_evals := []; ts_same := []; ts_decls := []; ts_parents := [] |}.
Example UselessParentheses_ParenthesesInArithmetic_holds : sorted_violations_of (shippedRule sh_UselessParentheses) UselessParentheses_ParenthesesInArithmetic = Some [].
Proof. vm_compute. reflexivity. Qed.

