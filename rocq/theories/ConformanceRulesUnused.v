(** * OCLint's own unit tests of oclint-rules/test/unused, as examples about the model

    Written by tools/conformance/emit.py; do not edit. *)
From Verif Require Import Base ModelConfig ModelSource ModelAST ModelRuleTable ConformanceBase.

(** ** oclint-rules/test/unused/UnusedLocalVariableRuleTest.cpp *)

Definition UnusedLocalVariable_UsedLocalVariable : testcase :=
  {| ts_lang := LC; ts_path := $"input.c"; ts_code := [];
     ts_comments := []; ts_conf := [];
     ts_tops := [(toplevel 0 (TFunction false), (Node 0 [] (FunctionDecl {| f_name := $"aMethod"; f_method := None; f_isDefinition := true; f_bodyLines := (1)%Z |} [] (Some (Node 1 [] (CompoundStmt [(Node 2 [] (DeclStmt [(Node 3 [] (VarDecl {| v_isParm := false; v_name := $"a"; v_used := true; v_referenced := true; v_local := true; v_staticMember := false; v_private := false; v_unusedAttr := false; v_defaultArg := false; v_canonicalType := $"int"; v_inTemplate := false; v_contexts := [CxFunction true true false] |} None))])); (Node 4 [] (BinaryOperator BO_Assign (Node 5 [] (DeclRefExpr 3 $"a" false)) (Node 6 [] (IntegerLiteral (1)%Z))))]))))))];
     ts_locs := [(1,1,1,32); (1,16,1,32); (1,18,1,23); (1,18,1,22); (1,25,1,29); (1,25,1,25); (1,29,1,29)]%Z;
     ts_evals := []; ts_same := []; ts_decls := []; ts_parents := [] |}.
Example UnusedLocalVariable_UsedLocalVariable_holds : sorted_violations_of (shippedRule sh_UnusedLocalVariable) UnusedLocalVariable_UsedLocalVariable = Some [].
Proof. vm_compute. reflexivity. Qed.

Definition UnusedLocalVariable_UnusedLocalVariable : testcase :=
  {| ts_lang := LC; ts_path := $"input.c"; ts_code := [];
     ts_comments := []; ts_conf := [];
     ts_tops := [(toplevel 0 (TFunction false), (Node 0 [] (FunctionDecl {| f_name := $"aMethod"; f_method := None; f_isDefinition := true; f_bodyLines := (1)%Z |} [] (Some (Node 1 [] (CompoundStmt [(Node 2 [] (DeclStmt [(Node 3 [] (VarDecl {| v_isParm := false; v_name := $"a"; v_used := false; v_referenced := false; v_local := true; v_staticMember := false; v_private := false; v_unusedAttr := false; v_defaultArg := false; v_canonicalType := $"int"; v_inTemplate := false; v_contexts := [CxFunction true true false] |} None))]))]))))))];
     ts_locs := [(1,1,1,25); (1,16,1,25); (1,18,1,23); (1,18,1,22)]%Z;
     ts_evals := []; ts_same := []; ts_decls := []; ts_parents := [] |}.
Example UnusedLocalVariable_UnusedLocalVariable_holds : nth_violation (shippedRule sh_UnusedLocalVariable) UnusedLocalVariable_UnusedLocalVariable 0 = Some (1, 18, 1, 22, $"The local variable 'a' is unused.")%Z.
Proof. vm_compute. reflexivity. Qed.

Definition UnusedLocalVariable_UnusedLocalVariableWithIntialAssignment : testcase :=
  {| ts_lang := LC; ts_path := $"input.c"; ts_code := [];
     ts_comments := []; ts_conf := [];
     ts_tops := [(toplevel 0 (TFunction false), (Node 0 [] (FunctionDecl {| f_name := $"aMethod"; f_method := None; f_isDefinition := true; f_bodyLines := (1)%Z |} [] (Some (Node 1 [] (CompoundStmt [(Node 2 [] (DeclStmt [(Node 3 [] (VarDecl {| v_isParm := false; v_name := $"a"; v_used := false; v_referenced := false; v_local := true; v_staticMember := false; v_private := false; v_unusedAttr := false; v_defaultArg := false; v_canonicalType := $"int"; v_inTemplate := false; v_contexts := [CxFunction true true false] |} (Some (Node 4 [] (IntegerLiteral (1)%Z)))))]))]))))))];
     ts_locs := [(1,1,1,29); (1,16,1,29); (1,18,1,27); (1,18,1,26); (1,26,1,26)]%Z;
     ts_evals := []; ts_same := []; ts_decls := []; ts_parents := [] |}.
Example UnusedLocalVariable_UnusedLocalVariableWithIntialAssignment_holds : nth_violation (shippedRule sh_UnusedLocalVariable) UnusedLocalVariable_UnusedLocalVariableWithIntialAssignment 0 = Some (1, 18, 1, 26, $"The local variable 'a' is unused.")%Z.
Proof. vm_compute. reflexivity. Qed.

Definition UnusedLocalVariable_UsedConstLocalVariable : testcase :=
  {| ts_lang := LCXX; ts_path := $"input.cpp"; ts_code := [];
     ts_comments := []; ts_conf := [];
     ts_tops := [(toplevel 0 (TFunction false), (Node 0 [] (FunctionDecl {| f_name := $"f"; f_method := None; f_isDefinition := true; f_bodyLines := (1)%Z |} [(Node 1 [] (VarDecl {| v_isParm := true; v_name := $"dummy"; v_used := false; v_referenced := false; v_local := false; v_staticMember := false; v_private := false; v_unusedAttr := false; v_defaultArg := false; v_canonicalType := $"int"; v_inTemplate := false; v_contexts := [CxFunction true true false] |} None))] (Some (Node 2 [] (CompoundStmt [(Node 3 [] (DeclStmt [(Node 4 [] (VarDecl {| v_isParm := false; v_name := $"a"; v_used := true; v_referenced := true; v_local := true; v_staticMember := false; v_private := false; v_unusedAttr := false; v_defaultArg := false; v_canonicalType := $"const int"; v_inTemplate := false; v_contexts := [CxFunction true true false] |} (Some (Node 5 [] (IntegerLiteral (1)%Z)))))])); (Node 6 [] (CallExpr (Some ($"f", (Decl [] None))) (Node 7 [] (ImplicitCastExpr CK_Other (Node 8 [] (DeclRefExpr 0 $"f" false)))) [(Node 9 [] (ImplicitCastExpr CK_LValueToRValue (Node 10 [] (DeclRefExpr 4 $"a" false))))]))]))))))];
     ts_locs := [(1,1,1,43); (1,8,1,12); (1,19,1,43); (1,21,1,36); (1,21,1,35); (1,35,1,35); (1,38,1,41); (1,38,1,38); (1,38,1,38); (1,40,1,40); (1,40,1,40)]%Z;
     ts_evals := []; ts_same := []; ts_decls := []; ts_parents := [] |}.
Example UnusedLocalVariable_UsedConstLocalVariable_holds : sorted_violations_of (shippedRule sh_UnusedLocalVariable) UnusedLocalVariable_UsedConstLocalVariable = Some [].
Proof. vm_compute. reflexivity. Qed.

Definition UnusedLocalVariable_DeclarationOutsideMethodShouldBeIgnored : testcase :=
  {| ts_lang := LC; ts_path := $"input.c"; ts_code := [];
     ts_comments := []; ts_conf := [];
     ts_tops := [(toplevel 0 (TOther), (Node 0 [] (VarDecl {| v_isParm := false; v_name := $"i"; v_used := false; v_referenced := false; v_local := false; v_staticMember := false; v_private := false; v_unusedAttr := false; v_defaultArg := false; v_canonicalType := $"int"; v_inTemplate := false; v_contexts := [] |} (Some (Node 1 [] (IntegerLiteral (1)%Z))))))];
     ts_locs := [(1,1,1,9); (1,9,1,9)]%Z;
     ts_evals := []; ts_same := []; ts_decls := []; ts_parents := [] |}.
Example UnusedLocalVariable_DeclarationOutsideMethodShouldBeIgnored_holds : sorted_violations_of (shippedRule sh_UnusedLocalVariable) UnusedLocalVariable_DeclarationOutsideMethodShouldBeIgnored = Some [].
Proof. vm_compute. reflexivity. Qed.

Definition UnusedLocalVariable_UnusedMethodParameterShouldBeIgnoredInThisRule : testcase :=
  {| ts_lang := LC; ts_path := $"input.c"; ts_code := [];
     ts_comments := []; ts_conf := [];
     ts_tops := [(toplevel 0 (TFunction false), (Node 0 [] (FunctionDecl {| f_name := $"aMethod"; f_method := None; f_isDefinition := true; f_bodyLines := (1)%Z |} [(Node 1 [] (VarDecl {| v_isParm := true; v_name := $"a"; v_used := false; v_referenced := false; v_local := false; v_staticMember := false; v_private := false; v_unusedAttr := false; v_defaultArg := false; v_canonicalType := $"int"; v_inTemplate := false; v_contexts := [CxFunction true true false] |} None))] (Some (Node 2 [] (CompoundStmt [(Node 3 [] (ReturnStmt (Some (Node 4 [] (IntegerLiteral (0)%Z)))))]))))))];
     ts_locs := [(1,1,1,32); (1,13,1,17); (1,20,1,32); (1,22,1,29); (1,29,1,29)]%Z;
     ts_evals := []; ts_same := []; ts_decls := []; ts_parents := [] |}.
Example UnusedLocalVariable_UnusedMethodParameterShouldBeIgnoredInThisRule_holds : sorted_violations_of (shippedRule sh_UnusedLocalVariable) UnusedLocalVariable_UnusedMethodParameterShouldBeIgnoredInThisRule = Some [].
Proof. vm_compute. reflexivity. Qed.

Definition UnusedLocalVariable_IgnoreUnusedLocalVariableInTemplateFunction : testcase :=
  {| ts_lang := LCXX; ts_path := $"input.cpp"; ts_code := [];
     ts_comments := []; ts_conf := [];
     ts_tops := [(toplevel 0 (TOther), (Node 0 [] (OtherDecl [(Node 1 [] (FunctionDecl {| f_name := $"m"; f_method := None; f_isDefinition := true; f_bodyLines := (1)%Z |} [] (Some (Node 2 [] (CompoundStmt [(Node 3 [] (DeclStmt [(Node 4 [] (VarDecl {| v_isParm := false; v_name := $"i"; v_used := true; v_referenced := true; v_local := true; v_staticMember := false; v_private := false; v_unusedAttr := false; v_defaultArg := false; v_canonicalType := $"int"; v_inTemplate := true; v_contexts := [CxFunction true true false] |} (Some (Node 5 [] (IntegerLiteral (1)%Z)))))])); (Node 6 [] (ReturnStmt (Some (Node 7 [] (ImplicitCastExpr CK_LValueToRValue (Node 8 [] (DeclRefExpr 4 $"i" false)))))))])))))])))];
     ts_locs := [(1,1,1,54); (1,23,1,54); (1,31,1,54); (1,33,1,42); (1,33,1,41); (1,41,1,41); (1,44,1,51); (1,51,1,51); (1,51,1,51)]%Z;
     ts_evals := []; ts_same := []; ts_decls := []; ts_parents := [] |}.
Example UnusedLocalVariable_IgnoreUnusedLocalVariableInTemplateFunction_holds : sorted_violations_of (shippedRule sh_UnusedLocalVariable) UnusedLocalVariable_IgnoreUnusedLocalVariableInTemplateFunction = Some [].
Proof. vm_compute. reflexivity. Qed.

Definition UnusedLocalVariable_SuppressUnusedLocalVariable : testcase :=
  {| ts_lang := LC; ts_path := $"input.c"; ts_code := [];
     ts_comments := []; ts_conf := [];
     ts_tops := [(toplevel 0 (TFunction false), (Node 0 [] (FunctionDecl {| f_name := $"aMethod"; f_method := None; f_isDefinition := true; f_bodyLines := (1)%Z |} [] (Some (Node 1 [] (CompoundStmt [(Node 2 [] (DeclStmt [(Node 3 [] (VarDecl {| v_isParm := false; v_name := $"a"; v_used := false; v_referenced := false; v_local := true; v_staticMember := false; v_private := false; v_unusedAttr := false; v_defaultArg := false; v_canonicalType := $"int"; v_inTemplate := false; v_contexts := [CxFunction true true false] |} None))]))]))))))];
     ts_locs := [(1,1,1,94); (1,16,1,94); (1,18,1,92); (1,18,1,22)]%Z;
     ts_evals := []; ts_same := []; ts_decls := [(3, (Decl [$"oclint:suppress[unused local variable]"] None))]; ts_parents := [(None, true); ((Some 0), false); ((Some 1), false); ((Some 2), true)] |}.
Example UnusedLocalVariable_SuppressUnusedLocalVariable_holds : sorted_violations_of (shippedRule sh_UnusedLocalVariable) UnusedLocalVariable_SuppressUnusedLocalVariable = Some [].
Proof. vm_compute. reflexivity. Qed.

Definition UnusedLocalVariable_IgnoreVariablesWithoutAName : testcase :=
  {| ts_lang := LCXX; ts_path := $"input.cpp"; ts_code := [];
     ts_comments := []; ts_conf := [];
     ts_tops := [(toplevel 0 (TFunction false), (Node 0 [] (FunctionDecl {| f_name := $"f"; f_method := None; f_isDefinition := false; f_bodyLines := (0)%Z |} [] None))); (toplevel 1 (TFunction false), (Node 1 [] (FunctionDecl {| f_name := $"g"; f_method := None; f_isDefinition := true; f_bodyLines := (1)%Z |} [] (Some (Node 2 [] (CompoundStmt [(Node 3 [] (CXXTryStmt (Node 4 [] (CompoundStmt [(Node 5 [] (CallExpr (Some ($"f", (Decl [] None))) (Node 6 [] (ImplicitCastExpr CK_Other (Node 7 [] (DeclRefExpr 0 $"f" false)))) []))])) [(Node 8 [] (CXXCatchStmt (Some (Node 9 [] (VarDecl {| v_isParm := false; v_name := $""; v_used := false; v_referenced := false; v_local := true; v_staticMember := false; v_private := false; v_unusedAttr := false; v_defaultArg := false; v_canonicalType := $"int &"; v_inTemplate := false; v_contexts := [CxFunction true true false] |} None))) (Node 10 [] (CompoundStmt [(Node 11 [] (ReturnStmt (Some (Node 12 [] (CXXBoolLiteralExpr false)))))]))))])); (Node 13 [] (ReturnStmt (Some (Node 14 [] (CXXBoolLiteralExpr true)))))]))))))];
     ts_locs := [(1,1,1,8); (1,11,1,80); (1,20,1,80); (1,22,1,65); (1,26,1,33); (1,28,1,30); (1,28,1,28); (1,28,1,28); (1,35,1,65); (1,42,1,46); (1,49,1,65); (1,51,1,58); (1,58,1,58); (1,67,1,74); (1,74,1,74)]%Z;
     ts_evals := []; ts_same := []; ts_decls := []; ts_parents := [] |}.
Example UnusedLocalVariable_IgnoreVariablesWithoutAName_holds : sorted_violations_of (shippedRule sh_UnusedLocalVariable) UnusedLocalVariable_IgnoreVariablesWithoutAName = Some [].
Proof. vm_compute. reflexivity. Qed.

(** ** oclint-rules/test/unused/UnusedMethodParameterRuleTest.cpp *)

Definition UnusedMethodParameter_MethodWithUsedParameter : testcase :=
  {| ts_lang := LC; ts_path := $"input.c"; ts_code := [];
     ts_comments := []; ts_conf := [];
     ts_tops := [(toplevel 0 (TFunction false), (Node 0 [] (FunctionDecl {| f_name := $"aMethod"; f_method := None; f_isDefinition := true; f_bodyLines := (1)%Z |} [] (Some (Node 1 [] (CompoundStmt [(Node 2 [] (DeclStmt [(Node 3 [] (VarDecl {| v_isParm := false; v_name := $"a"; v_used := true; v_referenced := true; v_local := true; v_staticMember := false; v_private := false; v_unusedAttr := false; v_defaultArg := false; v_canonicalType := $"int"; v_inTemplate := false; v_contexts := [CxFunction true true false] |} None))])); (Node 4 [] (BinaryOperator BO_Assign (Node 5 [] (DeclRefExpr 3 $"a" false)) (Node 6 [] (IntegerLiteral (1)%Z))))]))))))];
     ts_locs := [(1,1,1,32); (1,16,1,32); (1,18,1,23); (1,18,1,22); (1,25,1,29); (1,25,1,25); (1,29,1,29)]%Z;
     ts_evals := []; ts_same := []; ts_decls := []; ts_parents := [] |}.
Example UnusedMethodParameter_MethodWithUsedParameter_holds : sorted_violations_of (shippedRule sh_UnusedMethodParameter) UnusedMethodParameter_MethodWithUsedParameter = Some [].
Proof. vm_compute. reflexivity. Qed.

Definition UnusedMethodParameter_MethodWithUnusedParameter : testcase :=
  {| ts_lang := LC; ts_path := $"input.c"; ts_code := [];
     ts_comments := []; ts_conf := [];
     ts_tops := [(toplevel 0 (TFunction false), (Node 0 [] (FunctionDecl {| f_name := $"aMethod"; f_method := None; f_isDefinition := true; f_bodyLines := (1)%Z |} [(Node 1 [] (VarDecl {| v_isParm := true; v_name := $"a"; v_used := false; v_referenced := false; v_local := false; v_staticMember := false; v_private := false; v_unusedAttr := false; v_defaultArg := false; v_canonicalType := $"int"; v_inTemplate := false; v_contexts := [CxFunction true true false] |} None))] (Some (Node 2 [] (CompoundStmt []))))))];
     ts_locs := [(1,1,1,23); (1,14,1,18); (1,21,1,23)]%Z;
     ts_evals := []; ts_same := []; ts_decls := []; ts_parents := [] |}.
Example UnusedMethodParameter_MethodWithUnusedParameter_holds : nth_violation (shippedRule sh_UnusedMethodParameter) UnusedMethodParameter_MethodWithUnusedParameter 0 = Some (1, 14, 1, 18, $"The parameter 'a' is unused.")%Z.
Proof. vm_compute. reflexivity. Qed.

Definition UnusedMethodParameter_MethodWithUnusedParameterSuppressThisRule : testcase :=
  {| ts_lang := LC; ts_path := $"input.c"; ts_code := [];
     ts_comments := []; ts_conf := [];
     ts_tops := [(toplevel 0 (TFunction false), (Node 0 [] (FunctionDecl {| f_name := $"aMethod"; f_method := None; f_isDefinition := true; f_bodyLines := (1)%Z |} [(Node 1 [] (VarDecl {| v_isParm := true; v_name := $"a"; v_used := false; v_referenced := false; v_local := false; v_staticMember := false; v_private := false; v_unusedAttr := false; v_defaultArg := false; v_canonicalType := $"int"; v_inTemplate := false; v_contexts := [CxFunction true true false] |} None))] (Some (Node 2 [] (CompoundStmt []))))))];
     ts_locs := [(1,1,1,93); (1,14,1,18); (1,91,1,93)]%Z;
     ts_evals := []; ts_same := []; ts_decls := [(1, (Decl [$"oclint:suppress[unused method parameter]"] None))]; ts_parents := [(None, true); ((Some 0), true); ((Some 0), false)] |}.
Example UnusedMethodParameter_MethodWithUnusedParameterSuppressThisRule_holds : sorted_violations_of (shippedRule sh_UnusedMethodParameter) UnusedMethodParameter_MethodWithUnusedParameterSuppressThisRule = Some [].
Proof. vm_compute. reflexivity. Qed.

Definition UnusedMethodParameter_MethodWithUnusedParameterSuppressAll : testcase :=
  {| ts_lang := LC; ts_path := $"input.c"; ts_code := [];
     ts_comments := []; ts_conf := [];
     ts_tops := [(toplevel 0 (TFunction false), (Node 0 [] (FunctionDecl {| f_name := $"aMethod"; f_method := None; f_isDefinition := true; f_bodyLines := (1)%Z |} [(Node 1 [] (VarDecl {| v_isParm := true; v_name := $"a"; v_used := false; v_referenced := false; v_local := false; v_staticMember := false; v_private := false; v_unusedAttr := false; v_defaultArg := false; v_canonicalType := $"int"; v_inTemplate := false; v_contexts := [CxFunction true true false] |} None))] (Some (Node 2 [] (CompoundStmt []))))))];
     ts_locs := [(1,1,1,68); (1,14,1,18); (1,66,1,68)]%Z;
     ts_evals := []; ts_same := []; ts_decls := [(1, (Decl [$"oclint:suppress"] None))]; ts_parents := [(None, true); ((Some 0), true); ((Some 0), false)] |}.
Example UnusedMethodParameter_MethodWithUnusedParameterSuppressAll_holds : sorted_violations_of (shippedRule sh_UnusedMethodParameter) UnusedMethodParameter_MethodWithUnusedParameterSuppressAll = Some [].
Proof. vm_compute. reflexivity. Qed.

Definition UnusedMethodParameter_CppParameterHasNoNameShouldBeIgnored : testcase :=
  {| ts_lang := LCXX; ts_path := $"input.cpp"; ts_code := [];
     ts_comments := []; ts_conf := [];
     ts_tops := [(toplevel 0 (TFunction false), (Node 0 [] (FunctionDecl {| f_name := $"aMethod"; f_method := None; f_isDefinition := true; f_bodyLines := (1)%Z |} [(Node 1 [] (VarDecl {| v_isParm := true; v_name := $""; v_used := false; v_referenced := false; v_local := false; v_staticMember := false; v_private := false; v_unusedAttr := false; v_defaultArg := false; v_canonicalType := $"int"; v_inTemplate := false; v_contexts := [CxFunction true true false] |} None))] (Some (Node 2 [] (CompoundStmt []))))))];
     ts_locs := [(1,1,1,20); (1,14,1,14); (1,19,1,20)]%Z;
     ts_evals := []; ts_same := []; ts_decls := []; ts_parents := [] |}.
Example UnusedMethodParameter_CppParameterHasNoNameShouldBeIgnored_holds : sorted_violations_of (shippedRule sh_UnusedMethodParameter) UnusedMethodParameter_CppParameterHasNoNameShouldBeIgnored = Some [].
Proof. vm_compute. reflexivity. Qed.

Definition UnusedMethodParameter_ObjCMethodWithUnusedParameter : testcase :=
  {| ts_lang := LObjC; ts_path := $"input.m"; ts_code := [];
     ts_comments := []; ts_conf := [];
     ts_tops := [(toplevel 0 (TOther), (Node 0 [] (ObjCContainerDecl {| oc_kind := OKInterface; oc_name := $"AnInterface"; oc_lines := (2)%Z; oc_ivars := 0; oc_methods := []; oc_classes := [$"AnInterface"]; oc_superMethods := None |} []))); (toplevel 1 (TOther), (Node 1 [] (ObjCContainerDecl {| oc_kind := OKInterface; oc_name := $"AClass"; oc_lines := (3)%Z; oc_ivars := 0; oc_methods := [($"aMethod:", true)]; oc_classes := [$"AClass"; $"AnInterface"]; oc_superMethods := (Some ($"AnInterface", [])) |} [(Node 2 [] (ObjCMethodDecl {| om_selector := $"aMethod:"; om_class := (Some $"AClass"); om_overriding := false; om_overridden := []; om_bodyLines := (0)%Z |} [(Node 3 [] (VarDecl {| v_isParm := true; v_name := $"a"; v_used := false; v_referenced := false; v_local := false; v_staticMember := false; v_private := false; v_unusedAttr := false; v_defaultArg := false; v_canonicalType := $"int"; v_inTemplate := false; v_contexts := [CxObjCMethod true false false false; CxOther] |} None))] None))]))); (toplevel 4 (TOther), (Node 4 [] (ObjCContainerDecl {| oc_kind := OKImplementation; oc_name := $"AClass"; oc_lines := (3)%Z; oc_ivars := 0; oc_methods := [($"aMethod:", true)]; oc_classes := [$"AClass"; $"AnInterface"]; oc_superMethods := (Some ($"AnInterface", [])) |} [(Node 5 [] (ObjCMethodDecl {| om_selector := $"aMethod:"; om_class := (Some $"AClass"); om_overriding := false; om_overridden := []; om_bodyLines := (1)%Z |} [(Node 6 [] (VarDecl {| v_isParm := true; v_name := $"a"; v_used := false; v_referenced := false; v_local := false; v_staticMember := false; v_private := false; v_unusedAttr := false; v_defaultArg := false; v_canonicalType := $"int"; v_inTemplate := false; v_contexts := [CxObjCMethod false false false false] |} None))] (Some (Node 7 [] (CompoundStmt [])))))])))];
     ts_locs := [(1,1,2,2); (3,1,5,2); (4,1,4,23); (4,18,4,22); (6,1,8,1); (7,1,7,25); (7,18,7,22); (7,24,7,25)]%Z;
     ts_evals := []; ts_same := []; ts_decls := []; ts_parents := [] |}.
Example UnusedMethodParameter_ObjCMethodWithUnusedParameter_holds : nth_violation (shippedRule sh_UnusedMethodParameter) UnusedMethodParameter_ObjCMethodWithUnusedParameter 0 = Some (7, 18, 7, 22, $"The parameter 'a' is unused.")%Z.
Proof. vm_compute. reflexivity. Qed.

Definition UnusedMethodParameter_ObjCMethodWithUnusedParameterSuppressThisRule : testcase :=
  {| ts_lang := LObjC; ts_path := $"input.m"; ts_code := [];
     ts_comments := []; ts_conf := [];
     ts_tops := [(toplevel 0 (TOther), (Node 0 [] (ObjCContainerDecl {| oc_kind := OKInterface; oc_name := $"AnInterface"; oc_lines := (2)%Z; oc_ivars := 0; oc_methods := []; oc_classes := [$"AnInterface"]; oc_superMethods := None |} []))); (toplevel 1 (TOther), (Node 1 [] (ObjCContainerDecl {| oc_kind := OKInterface; oc_name := $"AClass"; oc_lines := (3)%Z; oc_ivars := 0; oc_methods := [($"aMethod:", true)]; oc_classes := [$"AClass"; $"AnInterface"]; oc_superMethods := (Some ($"AnInterface", [])) |} [(Node 2 [] (ObjCMethodDecl {| om_selector := $"aMethod:"; om_class := (Some $"AClass"); om_overriding := false; om_overridden := []; om_bodyLines := (0)%Z |} [(Node 3 [] (VarDecl {| v_isParm := true; v_name := $"a"; v_used := false; v_referenced := false; v_local := false; v_staticMember := false; v_private := false; v_unusedAttr := false; v_defaultArg := false; v_canonicalType := $"int"; v_inTemplate := false; v_contexts := [CxObjCMethod true false false false; CxOther] |} None))] None))]))); (toplevel 4 (TOther), (Node 4 [] (ObjCContainerDecl {| oc_kind := OKImplementation; oc_name := $"AClass"; oc_lines := (3)%Z; oc_ivars := 0; oc_methods := [($"aMethod:", true)]; oc_classes := [$"AClass"; $"AnInterface"]; oc_superMethods := (Some ($"AnInterface", [])) |} [(Node 5 [] (ObjCMethodDecl {| om_selector := $"aMethod:"; om_class := (Some $"AClass"); om_overriding := false; om_overridden := []; om_bodyLines := (1)%Z |} [(Node 6 [] (VarDecl {| v_isParm := true; v_name := $"a"; v_used := false; v_referenced := false; v_local := false; v_staticMember := false; v_private := false; v_unusedAttr := false; v_defaultArg := false; v_canonicalType := $"int"; v_inTemplate := false; v_contexts := [CxObjCMethod false false false false] |} None))] (Some (Node 7 [] (CompoundStmt [])))))])))];
     ts_locs := [(1,1,2,2); (3,1,5,2); (4,1,4,23); (4,18,4,22); (6,1,8,1); (7,1,7,96); (7,18,7,93); (7,95,7,96)]%Z;
     ts_evals := []; ts_same := []; ts_decls := [(2, (Decl [] (Some (Method false None (InOther (Some NoCategory)))))); (5, (Decl [] (Some (Method false None (InOther (Some NoCategory)))))); (6, (Decl [$"oclint:suppress[unused method parameter]"] None))]; ts_parents := [(None, true); (None, true); ((Some 1), true); ((Some 2), true); (None, true); ((Some 4), true); ((Some 5), true); ((Some 5), false)] |}.
Example UnusedMethodParameter_ObjCMethodWithUnusedParameterSuppressThisRule_holds : sorted_violations_of (shippedRule sh_UnusedMethodParameter) UnusedMethodParameter_ObjCMethodWithUnusedParameterSuppressThisRule = Some [].
Proof. vm_compute. reflexivity. Qed.

Definition UnusedMethodParameter_ObjCMethodWithUnusedParameterSuppressAll : testcase :=
  {| ts_lang := LObjC; ts_path := $"input.m"; ts_code := [];
     ts_comments := []; ts_conf := [];
     ts_tops := [(toplevel 0 (TOther), (Node 0 [] (ObjCContainerDecl {| oc_kind := OKInterface; oc_name := $"AnInterface"; oc_lines := (2)%Z; oc_ivars := 0; oc_methods := []; oc_classes := [$"AnInterface"]; oc_superMethods := None |} []))); (toplevel 1 (TOther), (Node 1 [] (ObjCContainerDecl {| oc_kind := OKInterface; oc_name := $"AClass"; oc_lines := (3)%Z; oc_ivars := 0; oc_methods := [($"aMethod:", true)]; oc_classes := [$"AClass"; $"AnInterface"]; oc_superMethods := (Some ($"AnInterface", [])) |} [(Node 2 [] (ObjCMethodDecl {| om_selector := $"aMethod:"; om_class := (Some $"AClass"); om_overriding := false; om_overridden := []; om_bodyLines := (0)%Z |} [(Node 3 [] (VarDecl {| v_isParm := true; v_name := $"a"; v_used := false; v_referenced := false; v_local := false; v_staticMember := false; v_private := false; v_unusedAttr := false; v_defaultArg := false; v_canonicalType := $"int"; v_inTemplate := false; v_contexts := [CxObjCMethod true false false false; CxOther] |} None))] None))]))); (toplevel 4 (TOther), (Node 4 [] (ObjCContainerDecl {| oc_kind := OKImplementation; oc_name := $"AClass"; oc_lines := (3)%Z; oc_ivars := 0; oc_methods := [($"aMethod:", true)]; oc_classes := [$"AClass"; $"AnInterface"]; oc_superMethods := (Some ($"AnInterface", [])) |} [(Node 5 [] (ObjCMethodDecl {| om_selector := $"aMethod:"; om_class := (Some $"AClass"); om_overriding := false; om_overridden := []; om_bodyLines := (1)%Z |} [(Node 6 [] (VarDecl {| v_isParm := true; v_name := $"a"; v_used := false; v_referenced := false; v_local := false; v_staticMember := false; v_private := false; v_unusedAttr := false; v_defaultArg := false; v_canonicalType := $"int"; v_inTemplate := false; v_contexts := [CxObjCMethod false false false false] |} None))] (Some (Node 7 [] (CompoundStmt [])))))])))];
     ts_locs := [(1,1,2,2); (3,1,5,2); (4,1,4,23); (4,18,4,22); (6,1,8,1); (7,1,7,71); (7,18,7,68); (7,70,7,71)]%Z;
     ts_evals := []; ts_same := []; ts_decls := [(2, (Decl [] (Some (Method false None (InOther (Some NoCategory)))))); (5, (Decl [] (Some (Method false None (InOther (Some NoCategory)))))); (6, (Decl [$"oclint:suppress"] None))]; ts_parents := [(None, true); (None, true); ((Some 1), true); ((Some 2), true); (None, true); ((Some 4), true); ((Some 5), true); ((Some 5), false)] |}.
Example UnusedMethodParameter_ObjCMethodWithUnusedParameterSuppressAll_holds : sorted_violations_of (shippedRule sh_UnusedMethodParameter) UnusedMethodParameter_ObjCMethodWithUnusedParameterSuppressAll = Some [].
Proof. vm_compute. reflexivity. Qed.

Definition UnusedMethodParameter_ObjCMethodWithUnusedParameterMultipleSuppress : testcase :=
  {| ts_lang := LObjC; ts_path := $"input.m"; ts_code := [];
     ts_comments := []; ts_conf := [];
     ts_tops := [(toplevel 0 (TOther), (Node 0 [] (ObjCContainerDecl {| oc_kind := OKInterface; oc_name := $"AnInterface"; oc_lines := (2)%Z; oc_ivars := 0; oc_methods := []; oc_classes := [$"AnInterface"]; oc_superMethods := None |} []))); (toplevel 1 (TOther), (Node 1 [] (ObjCContainerDecl {| oc_kind := OKInterface; oc_name := $"AClass"; oc_lines := (3)%Z; oc_ivars := 0; oc_methods := [($"aMethod:", true)]; oc_classes := [$"AClass"; $"AnInterface"]; oc_superMethods := (Some ($"AnInterface", [])) |} [(Node 2 [] (ObjCMethodDecl {| om_selector := $"aMethod:"; om_class := (Some $"AClass"); om_overriding := false; om_overridden := []; om_bodyLines := (0)%Z |} [(Node 3 [] (VarDecl {| v_isParm := true; v_name := $"a"; v_used := false; v_referenced := false; v_local := false; v_staticMember := false; v_private := false; v_unusedAttr := false; v_defaultArg := false; v_canonicalType := $"int"; v_inTemplate := false; v_contexts := [CxObjCMethod true false false false; CxOther] |} None))] None))]))); (toplevel 4 (TOther), (Node 4 [] (ObjCContainerDecl {| oc_kind := OKImplementation; oc_name := $"AClass"; oc_lines := (3)%Z; oc_ivars := 0; oc_methods := [($"aMethod:", true)]; oc_classes := [$"AClass"; $"AnInterface"]; oc_superMethods := (Some ($"AnInterface", [])) |} [(Node 5 [] (ObjCMethodDecl {| om_selector := $"aMethod:"; om_class := (Some $"AClass"); om_overriding := false; om_overridden := []; om_bodyLines := (1)%Z |} [(Node 6 [] (VarDecl {| v_isParm := true; v_name := $"a"; v_used := false; v_referenced := false; v_local := false; v_staticMember := false; v_private := false; v_unusedAttr := false; v_defaultArg := false; v_canonicalType := $"int"; v_inTemplate := false; v_contexts := [CxObjCMethod false false false false] |} None))] (Some (Node 7 [] (CompoundStmt [])))))])))];
     ts_locs := [(1,1,2,2); (3,1,5,2); (4,1,4,23); (4,18,4,22); (6,1,8,1); (7,1,7,132); (7,18,7,129); (7,131,7,132)]%Z;
     ts_evals := []; ts_same := []; ts_decls := [(2, (Decl [] (Some (Method false None (InOther (Some NoCategory)))))); (5, (Decl [] (Some (Method false None (InOther (Some NoCategory)))))); (6, (Decl [$"oclint:suppress[unused method parameter]"; $"oclint:suppress[rule2]"] None))]; ts_parents := [(None, true); (None, true); ((Some 1), true); ((Some 2), true); (None, true); ((Some 4), true); ((Some 5), true); ((Some 5), false)] |}.
Example UnusedMethodParameter_ObjCMethodWithUnusedParameterMultipleSuppress_holds : sorted_violations_of (shippedRule sh_UnusedMethodParameter) UnusedMethodParameter_ObjCMethodWithUnusedParameterMultipleSuppress = Some [].
Proof. vm_compute. reflexivity. Qed.

Definition UnusedMethodParameter_ObjCMethodWithUnusedParameterMultipleSuppressReverse : testcase :=
  {| ts_lang := LObjC; ts_path := $"input.m"; ts_code := [];
     ts_comments := []; ts_conf := [];
     ts_tops := [(toplevel 0 (TOther), (Node 0 [] (ObjCContainerDecl {| oc_kind := OKInterface; oc_name := $"AnInterface"; oc_lines := (2)%Z; oc_ivars := 0; oc_methods := []; oc_classes := [$"AnInterface"]; oc_superMethods := None |} []))); (toplevel 1 (TOther), (Node 1 [] (ObjCContainerDecl {| oc_kind := OKInterface; oc_name := $"AClass"; oc_lines := (3)%Z; oc_ivars := 0; oc_methods := [($"aMethod:", true)]; oc_classes := [$"AClass"; $"AnInterface"]; oc_superMethods := (Some ($"AnInterface", [])) |} [(Node 2 [] (ObjCMethodDecl {| om_selector := $"aMethod:"; om_class := (Some $"AClass"); om_overriding := false; om_overridden := []; om_bodyLines := (0)%Z |} [(Node 3 [] (VarDecl {| v_isParm := true; v_name := $"a"; v_used := false; v_referenced := false; v_local := false; v_staticMember := false; v_private := false; v_unusedAttr := false; v_defaultArg := false; v_canonicalType := $"int"; v_inTemplate := false; v_contexts := [CxObjCMethod true false false false; CxOther] |} None))] None))]))); (toplevel 4 (TOther), (Node 4 [] (ObjCContainerDecl {| oc_kind := OKImplementation; oc_name := $"AClass"; oc_lines := (3)%Z; oc_ivars := 0; oc_methods := [($"aMethod:", true)]; oc_classes := [$"AClass"; $"AnInterface"]; oc_superMethods := (Some ($"AnInterface", [])) |} [(Node 5 [] (ObjCMethodDecl {| om_selector := $"aMethod:"; om_class := (Some $"AClass"); om_overriding := false; om_overridden := []; om_bodyLines := (1)%Z |} [(Node 6 [] (VarDecl {| v_isParm := true; v_name := $"a"; v_used := false; v_referenced := false; v_local := false; v_staticMember := false; v_private := false; v_unusedAttr := false; v_defaultArg := false; v_canonicalType := $"int"; v_inTemplate := false; v_contexts := [CxObjCMethod false false false false] |} None))] (Some (Node 7 [] (CompoundStmt [])))))])))];
     ts_locs := [(1,1,2,2); (3,1,5,2); (4,1,4,23); (4,18,4,22); (6,1,8,1); (7,1,7,132); (7,18,7,129); (7,131,7,132)]%Z;
     ts_evals := []; ts_same := []; ts_decls := [(2, (Decl [] (Some (Method false None (InOther (Some NoCategory)))))); (5, (Decl [] (Some (Method false None (InOther (Some NoCategory)))))); (6, (Decl [$"oclint:suppress[rule2]"; $"oclint:suppress[unused method parameter]"] None))]; ts_parents := [(None, true); (None, true); ((Some 1), true); ((Some 2), true); (None, true); ((Some 4), true); ((Some 5), true); ((Some 5), false)] |}.
Example UnusedMethodParameter_ObjCMethodWithUnusedParameterMultipleSuppressReverse_holds : sorted_violations_of (shippedRule sh_UnusedMethodParameter) UnusedMethodParameter_ObjCMethodWithUnusedParameterMultipleSuppressReverse = Some [].
Proof. vm_compute. reflexivity. Qed.

Definition UnusedMethodParameter_ObjCMethodWithUnusedParameterSupressOther : testcase :=
  {| ts_lang := LObjC; ts_path := $"input.m"; ts_code := [];
     ts_comments := []; ts_conf := [];
     ts_tops := [(toplevel 0 (TOther), (Node 0 [] (ObjCContainerDecl {| oc_kind := OKInterface; oc_name := $"AnInterface"; oc_lines := (2)%Z; oc_ivars := 0; oc_methods := []; oc_classes := [$"AnInterface"]; oc_superMethods := None |} []))); (toplevel 1 (TOther), (Node 1 [] (ObjCContainerDecl {| oc_kind := OKInterface; oc_name := $"AClass"; oc_lines := (3)%Z; oc_ivars := 0; oc_methods := [($"aMethod:", true)]; oc_classes := [$"AClass"; $"AnInterface"]; oc_superMethods := (Some ($"AnInterface", [])) |} [(Node 2 [] (ObjCMethodDecl {| om_selector := $"aMethod:"; om_class := (Some $"AClass"); om_overriding := false; om_overridden := []; om_bodyLines := (0)%Z |} [(Node 3 [] (VarDecl {| v_isParm := true; v_name := $"a"; v_used := false; v_referenced := false; v_local := false; v_staticMember := false; v_private := false; v_unusedAttr := false; v_defaultArg := false; v_canonicalType := $"int"; v_inTemplate := false; v_contexts := [CxObjCMethod true false false false; CxOther] |} None))] None))]))); (toplevel 4 (TOther), (Node 4 [] (ObjCContainerDecl {| oc_kind := OKImplementation; oc_name := $"AClass"; oc_lines := (3)%Z; oc_ivars := 0; oc_methods := [($"aMethod:", true)]; oc_classes := [$"AClass"; $"AnInterface"]; oc_superMethods := (Some ($"AnInterface", [])) |} [(Node 5 [] (ObjCMethodDecl {| om_selector := $"aMethod:"; om_class := (Some $"AClass"); om_overriding := false; om_overridden := []; om_bodyLines := (1)%Z |} [(Node 6 [] (VarDecl {| v_isParm := true; v_name := $"a"; v_used := false; v_referenced := false; v_local := false; v_staticMember := false; v_private := false; v_unusedAttr := false; v_defaultArg := false; v_canonicalType := $"int"; v_inTemplate := false; v_contexts := [CxObjCMethod false false false false] |} None))] (Some (Node 7 [] (CompoundStmt [])))))])))];
     ts_locs := [(1,1,2,2); (3,1,5,2); (4,1,4,23); (4,18,4,22); (6,1,8,1); (7,1,7,78); (7,18,7,75); (7,77,7,78)]%Z;
     ts_evals := []; ts_same := []; ts_decls := [(2, (Decl [] (Some (Method false None (InOther (Some NoCategory)))))); (5, (Decl [] (Some (Method false None (InOther (Some NoCategory)))))); (6, (Decl [$"oclint:suppress[rule2]"] None))]; ts_parents := [(None, true); (None, true); ((Some 1), true); ((Some 2), true); (None, true); ((Some 4), true); ((Some 5), true); ((Some 5), false)] |}.
Example UnusedMethodParameter_ObjCMethodWithUnusedParameterSupressOther_holds : nth_violation (shippedRule sh_UnusedMethodParameter) UnusedMethodParameter_ObjCMethodWithUnusedParameterSupressOther 0 = Some (7, 18, 7, 75, $"The parameter 'a' is unused.")%Z.
Proof. vm_compute. reflexivity. Qed.

Definition UnusedMethodParameter_FunctionDeclarationWithoutDefincationShouldBeIgnored : testcase :=
  {| ts_lang := LC; ts_path := $"input.c"; ts_code := [];
     ts_comments := []; ts_conf := [];
     ts_tops := [(toplevel 0 (TFunction false), (Node 0 [] (FunctionDecl {| f_name := $"aMethod"; f_method := None; f_isDefinition := false; f_bodyLines := (0)%Z |} [(Node 1 [] (VarDecl {| v_isParm := true; v_name := $"a"; v_used := false; v_referenced := false; v_local := false; v_staticMember := false; v_private := false; v_unusedAttr := false; v_defaultArg := false; v_canonicalType := $"int"; v_inTemplate := false; v_contexts := [CxFunction false false false] |} None))] None)))];
     ts_locs := [(1,1,1,18); (1,13,1,17)]%Z;
     ts_evals := []; ts_same := []; ts_decls := []; ts_parents := [] |}.
Example UnusedMethodParameter_FunctionDeclarationWithoutDefincationShouldBeIgnored_holds : sorted_violations_of (shippedRule sh_UnusedMethodParameter) UnusedMethodParameter_FunctionDeclarationWithoutDefincationShouldBeIgnored = Some [].
Proof. vm_compute. reflexivity. Qed.

Definition UnusedMethodParameter_FunctionDefinationWithUnusedParameterDeclarationShouldBeIgnored : testcase :=
  {| ts_lang := LC; ts_path := $"input.c"; ts_code := [];
     ts_comments := []; ts_conf := [];
     ts_tops := [(toplevel 0 (TFunction false), (Node 0 [] (FunctionDecl {| f_name := $"aMethod"; f_method := None; f_isDefinition := false; f_bodyLines := (1)%Z |} [(Node 1 [] (VarDecl {| v_isParm := true; v_name := $"a"; v_used := false; v_referenced := false; v_local := false; v_staticMember := false; v_private := false; v_unusedAttr := false; v_defaultArg := false; v_canonicalType := $"int"; v_inTemplate := false; v_contexts := [CxFunction false true false] |} None))] None))); (toplevel 2 (TFunction false), (Node 2 [] (FunctionDecl {| f_name := $"aMethod"; f_method := None; f_isDefinition := true; f_bodyLines := (1)%Z |} [(Node 3 [] (VarDecl {| v_isParm := true; v_name := $"a"; v_used := false; v_referenced := false; v_local := false; v_staticMember := false; v_private := false; v_unusedAttr := false; v_defaultArg := false; v_canonicalType := $"int"; v_inTemplate := false; v_contexts := [CxFunction true true false] |} None))] (Some (Node 4 [] (CompoundStmt [(Node 5 [] (ReturnStmt (Some (Node 6 [] (IntegerLiteral (1)%Z)))))]))))))];
     ts_locs := [(1,1,1,18); (1,13,1,17); (2,1,2,32); (2,13,2,17); (2,20,2,32); (2,22,2,29); (2,29,2,29)]%Z;
     ts_evals := []; ts_same := []; ts_decls := []; ts_parents := [] |}.
Example UnusedMethodParameter_FunctionDefinationWithUnusedParameterDeclarationShouldBeIgnored_holds : nth_violation (shippedRule sh_UnusedMethodParameter) UnusedMethodParameter_FunctionDefinationWithUnusedParameterDeclarationShouldBeIgnored 0 = Some (2, 13, 2, 17, $"The parameter 'a' is unused.")%Z.
Proof. vm_compute. reflexivity. Qed.

Definition UnusedMethodParameter_CppMethodDeclarationWithoutDefinationShouldBeIgnored : testcase :=
  {| ts_lang := LCXX; ts_path := $"input.cpp"; ts_code := [];
     ts_comments := []; ts_conf := [];
     ts_tops := [(toplevel 0 (TOther), (Node 0 [] (CXXRecordDecl {| r_class := (CxxRecord 0 $"AClass" true false None []); r_fields := 0; r_methods := 1; r_lines := (1)%Z |} [(Node 1 [] (FunctionDecl {| f_name := $"aMethod"; f_method := (Some {| cm_virtual := false; cm_static := false; cm_private := true; cm_inRecord := true |}); f_isDefinition := false; f_bodyLines := (1)%Z |} [(Node 2 [] (VarDecl {| v_isParm := true; v_name := $"a"; v_used := false; v_referenced := false; v_local := false; v_staticMember := false; v_private := false; v_unusedAttr := false; v_defaultArg := false; v_canonicalType := $"int"; v_inTemplate := false; v_contexts := [CxFunction false true false; CxRecord] |} None))] None))]))); (toplevel 3 (TFunction false), (Node 3 [] (FunctionDecl {| f_name := $"aMethod"; f_method := (Some {| cm_virtual := false; cm_static := false; cm_private := true; cm_inRecord := false |}); f_isDefinition := true; f_bodyLines := (1)%Z |} [(Node 4 [] (VarDecl {| v_isParm := true; v_name := $"a"; v_used := false; v_referenced := false; v_local := false; v_staticMember := false; v_private := false; v_unusedAttr := false; v_defaultArg := false; v_canonicalType := $"int"; v_inTemplate := false; v_contexts := [CxFunction true true false] |} None))] (Some (Node 5 [] (CompoundStmt [(Node 6 [] (ReturnStmt (Some (Node 7 [] (IntegerLiteral (0)%Z)))))]))))))];
     ts_locs := [(1,1,1,36); (1,16,1,33); (1,28,1,32); (2,1,2,40); (2,21,2,25); (2,28,2,40); (2,30,2,37); (2,37,2,37)]%Z;
     ts_evals := []; ts_same := []; ts_decls := []; ts_parents := [] |}.
Example UnusedMethodParameter_CppMethodDeclarationWithoutDefinationShouldBeIgnored_holds : nth_violation (shippedRule sh_UnusedMethodParameter) UnusedMethodParameter_CppMethodDeclarationWithoutDefinationShouldBeIgnored 0 = Some (2, 21, 2, 25, $"The parameter 'a' is unused.")%Z.
Proof. vm_compute. reflexivity. Qed.

Definition UnusedMethodParameter_CppMethodInheritanceFromBaseClassShouldBeIgnored : testcase :=
  {| ts_lang := LCXX; ts_path := $"input.cpp"; ts_code := [];
     ts_comments := []; ts_conf := [];
     ts_tops := [(toplevel 0 (TOther), (Node 0 [] (CXXRecordDecl {| r_class := (CxxRecord 0 $"BaseClass" true true None []); r_fields := 0; r_methods := 1; r_lines := (2)%Z |} [(Node 1 [] (FunctionDecl {| f_name := $"aMethod"; f_method := (Some {| cm_virtual := true; cm_static := false; cm_private := false; cm_inRecord := true |}); f_isDefinition := false; f_bodyLines := (0)%Z |} [(Node 2 [] (VarDecl {| v_isParm := true; v_name := $"a"; v_used := false; v_referenced := false; v_local := false; v_staticMember := false; v_private := false; v_unusedAttr := false; v_defaultArg := false; v_canonicalType := $"int"; v_inTemplate := false; v_contexts := [CxFunction false false true; CxRecord] |} None))] None))]))); (toplevel 3 (TOther), (Node 3 [] (CXXRecordDecl {| r_class := (CxxRecord 3 $"SubClass" true true None [(true, (Some (CxxRecord 0 $"BaseClass" true true None [])))]); r_fields := 0; r_methods := 1; r_lines := (2)%Z |} [(Node 4 [] (FunctionDecl {| f_name := $"aMethod"; f_method := (Some {| cm_virtual := true; cm_static := false; cm_private := false; cm_inRecord := true |}); f_isDefinition := false; f_bodyLines := (1)%Z |} [(Node 5 [] (VarDecl {| v_isParm := true; v_name := $"a"; v_used := false; v_referenced := false; v_local := false; v_staticMember := false; v_private := false; v_unusedAttr := false; v_defaultArg := false; v_canonicalType := $"int"; v_inTemplate := false; v_contexts := [CxFunction false true true; CxRecord] |} None))] None))]))); (toplevel 6 (TFunction false), (Node 6 [] (FunctionDecl {| f_name := $"aMethod"; f_method := (Some {| cm_virtual := true; cm_static := false; cm_private := false; cm_inRecord := false |}); f_isDefinition := true; f_bodyLines := (1)%Z |} [(Node 7 [] (VarDecl {| v_isParm := true; v_name := $"a"; v_used := false; v_referenced := false; v_local := false; v_staticMember := false; v_private := false; v_unusedAttr := false; v_defaultArg := false; v_canonicalType := $"int"; v_inTemplate := false; v_contexts := [CxFunction true true true] |} None))] (Some (Node 8 [] (CompoundStmt [(Node 9 [] (ReturnStmt (Some (Node 10 [] (IntegerLiteral (0)%Z)))))]))))))];
     ts_locs := [(1,1,2,30); (2,2,2,27); (2,22,2,26); (3,1,4,29); (4,2,4,27); (4,22,4,26); (5,1,5,42); (5,23,5,27); (5,30,5,42); (5,32,5,39); (5,39,5,39)]%Z;
     ts_evals := []; ts_same := []; ts_decls := []; ts_parents := [] |}.
Example UnusedMethodParameter_CppMethodInheritanceFromBaseClassShouldBeIgnored_holds : sorted_violations_of (shippedRule sh_UnusedMethodParameter) UnusedMethodParameter_CppMethodInheritanceFromBaseClassShouldBeIgnored = Some [].
Proof. vm_compute. reflexivity. Qed.

Definition UnusedMethodParameter_CppMethodWithoutVirtualInBaseClassIsAViolation : testcase :=
  {| ts_lang := LCXX; ts_path := $"input.cpp"; ts_code := [];
     ts_comments := []; ts_conf := [];
     ts_tops := [(toplevel 0 (TOther), (Node 0 [] (CXXRecordDecl {| r_class := (CxxRecord 0 $"BaseClass" true false None []); r_fields := 0; r_methods := 1; r_lines := (2)%Z |} [(Node 1 [] (FunctionDecl {| f_name := $"aMethod"; f_method := (Some {| cm_virtual := false; cm_static := false; cm_private := false; cm_inRecord := true |}); f_isDefinition := false; f_bodyLines := (0)%Z |} [(Node 2 [] (VarDecl {| v_isParm := true; v_name := $"a"; v_used := false; v_referenced := false; v_local := false; v_staticMember := false; v_private := false; v_unusedAttr := false; v_defaultArg := false; v_canonicalType := $"int"; v_inTemplate := false; v_contexts := [CxFunction false false false; CxRecord] |} None))] None))]))); (toplevel 3 (TOther), (Node 3 [] (CXXRecordDecl {| r_class := (CxxRecord 3 $"SubClass" true false None [(true, (Some (CxxRecord 0 $"BaseClass" true false None [])))]); r_fields := 0; r_methods := 1; r_lines := (2)%Z |} [(Node 4 [] (FunctionDecl {| f_name := $"aMethod"; f_method := (Some {| cm_virtual := false; cm_static := false; cm_private := false; cm_inRecord := true |}); f_isDefinition := false; f_bodyLines := (1)%Z |} [(Node 5 [] (VarDecl {| v_isParm := true; v_name := $"a"; v_used := false; v_referenced := false; v_local := false; v_staticMember := false; v_private := false; v_unusedAttr := false; v_defaultArg := false; v_canonicalType := $"int"; v_inTemplate := false; v_contexts := [CxFunction false true false; CxRecord] |} None))] None))]))); (toplevel 6 (TFunction false), (Node 6 [] (FunctionDecl {| f_name := $"aMethod"; f_method := (Some {| cm_virtual := false; cm_static := false; cm_private := false; cm_inRecord := false |}); f_isDefinition := true; f_bodyLines := (1)%Z |} [(Node 7 [] (VarDecl {| v_isParm := true; v_name := $"a"; v_used := false; v_referenced := false; v_local := false; v_staticMember := false; v_private := false; v_unusedAttr := false; v_defaultArg := false; v_canonicalType := $"int"; v_inTemplate := false; v_contexts := [CxFunction true true false] |} None))] (Some (Node 8 [] (CompoundStmt [(Node 9 [] (ReturnStmt (Some (Node 10 [] (IntegerLiteral (0)%Z)))))]))))))];
     ts_locs := [(1,1,2,22); (2,2,2,19); (2,14,2,18); (3,1,4,22); (4,2,4,19); (4,14,4,18); (5,1,5,42); (5,23,5,27); (5,30,5,42); (5,32,5,39); (5,39,5,39)]%Z;
     ts_evals := []; ts_same := []; ts_decls := []; ts_parents := [] |}.
Example UnusedMethodParameter_CppMethodWithoutVirtualInBaseClassIsAViolation_holds : nth_violation (shippedRule sh_UnusedMethodParameter) UnusedMethodParameter_CppMethodWithoutVirtualInBaseClassIsAViolation 0 = Some (5, 23, 5, 27, $"The parameter 'a' is unused.")%Z.
Proof. vm_compute. reflexivity. Qed.

Definition UnusedMethodParameter_StaticFunctionShouldBeIgnored : testcase :=
  {| ts_lang := LCXX; ts_path := $"input.cpp"; ts_code := [];
     ts_comments := []; ts_conf := [];
     ts_tops := [(toplevel 0 (TOther), (Node 0 [] (CXXRecordDecl {| r_class := (CxxRecord 0 $"AClass" true false None []); r_fields := 0; r_methods := 0; r_lines := (1)%Z |} [(Node 1 [] (VarDecl {| v_isParm := false; v_name := $"aString"; v_used := false; v_referenced := false; v_local := false; v_staticMember := true; v_private := true; v_unusedAttr := false; v_defaultArg := false; v_canonicalType := $"int"; v_inTemplate := false; v_contexts := [CxRecord] |} None))]))); (toplevel 2 (TOther), (Node 2 [] (VarDecl {| v_isParm := false; v_name := $"aString"; v_used := false; v_referenced := false; v_local := false; v_staticMember := true; v_private := true; v_unusedAttr := false; v_defaultArg := false; v_canonicalType := $"int"; v_inTemplate := false; v_contexts := [] |} (Some (Node 3 [] (IntegerLiteral (1)%Z))))))];
     ts_locs := [(1,1,1,36); (1,16,1,27); (2,1,2,22); (2,21,2,21)]%Z;
     ts_evals := []; ts_same := []; ts_decls := []; ts_parents := [] |}.
Example UnusedMethodParameter_StaticFunctionShouldBeIgnored_holds : sorted_violations_of (shippedRule sh_UnusedMethodParameter) UnusedMethodParameter_StaticFunctionShouldBeIgnored = Some [].
Proof. vm_compute. reflexivity. Qed.

Definition UnusedMethodParameter_ObjCMethodDeclarationInsideInterfaceShouldBeIgnored : testcase :=
  {| ts_lang := LObjC; ts_path := $"input.m"; ts_code := [];
     ts_comments := []; ts_conf := [];
     ts_tops := [(toplevel 0 (TOther), (Node 0 [] (ObjCContainerDecl {| oc_kind := OKInterface; oc_name := $"AnInterface"; oc_lines := (3)%Z; oc_ivars := 0; oc_methods := [($"aMethod:", true)]; oc_classes := [$"AnInterface"]; oc_superMethods := None |} [(Node 1 [] (ObjCMethodDecl {| om_selector := $"aMethod:"; om_class := (Some $"AnInterface"); om_overriding := false; om_overridden := []; om_bodyLines := (0)%Z |} [(Node 2 [] (VarDecl {| v_isParm := true; v_name := $"a"; v_used := false; v_referenced := false; v_local := false; v_staticMember := false; v_private := false; v_unusedAttr := false; v_defaultArg := false; v_canonicalType := $"int"; v_inTemplate := false; v_contexts := [CxObjCMethod true false false false; CxOther] |} None))] None))])))];
     ts_locs := [(1,1,3,2); (2,1,2,23); (2,18,2,22)]%Z;
     ts_evals := []; ts_same := []; ts_decls := []; ts_parents := [] |}.
Example UnusedMethodParameter_ObjCMethodDeclarationInsideInterfaceShouldBeIgnored_holds : sorted_violations_of (shippedRule sh_UnusedMethodParameter) UnusedMethodParameter_ObjCMethodDeclarationInsideInterfaceShouldBeIgnored = Some [].
Proof. vm_compute. reflexivity. Qed.

Definition UnusedMethodParameter_ObjCMethodDeclarationInsideProtocolShouldBeIgnored : testcase :=
  {| ts_lang := LObjC; ts_path := $"input.m"; ts_code := [];
     ts_comments := []; ts_conf := [];
     ts_tops := [(toplevel 0 (TOther), (Node 0 [] (ObjCContainerDecl {| oc_kind := OKProtocol; oc_name := $"AnInterface"; oc_lines := (3)%Z; oc_ivars := 0; oc_methods := [($"aMethod:", true)]; oc_classes := []; oc_superMethods := None |} [(Node 1 [] (ObjCMethodDecl {| om_selector := $"aMethod:"; om_class := None; om_overriding := false; om_overridden := []; om_bodyLines := (0)%Z |} [(Node 2 [] (VarDecl {| v_isParm := true; v_name := $"a"; v_used := false; v_referenced := false; v_local := false; v_staticMember := false; v_private := false; v_unusedAttr := false; v_defaultArg := false; v_canonicalType := $"int"; v_inTemplate := false; v_contexts := [CxObjCMethod true false false false] |} None))] None))])))];
     ts_locs := [(1,1,3,2); (2,1,2,23); (2,18,2,22)]%Z;
     ts_evals := []; ts_same := []; ts_decls := []; ts_parents := [] |}.
Example UnusedMethodParameter_ObjCMethodDeclarationInsideProtocolShouldBeIgnored_holds : sorted_violations_of (shippedRule sh_UnusedMethodParameter) UnusedMethodParameter_ObjCMethodDeclarationInsideProtocolShouldBeIgnored = Some [].
Proof. vm_compute. reflexivity. Qed.

Definition UnusedMethodParameter_ObjCMethodDeclarationInsideCategoryShouldBeIgnored : testcase :=
  {| ts_lang := LObjC; ts_path := $"input.m"; ts_code := [];
     ts_comments := []; ts_conf := [];
     ts_tops := [(toplevel 0 (TOther), (Node 0 [] (ObjCContainerDecl {| oc_kind := OKInterface; oc_name := $"AnInterface"; oc_lines := (2)%Z; oc_ivars := 0; oc_methods := []; oc_classes := [$"AnInterface"]; oc_superMethods := None |} []))); (toplevel 1 (TOther), (Node 1 [] (ObjCContainerDecl {| oc_kind := OKCategory; oc_name := $"ACategory"; oc_lines := (3)%Z; oc_ivars := 0; oc_methods := [($"aMethod:", true)]; oc_classes := []; oc_superMethods := None |} [(Node 2 [] (ObjCMethodDecl {| om_selector := $"aMethod:"; om_class := (Some $"AnInterface"); om_overriding := false; om_overridden := []; om_bodyLines := (0)%Z |} [(Node 3 [] (VarDecl {| v_isParm := true; v_name := $"a"; v_used := false; v_referenced := false; v_local := false; v_staticMember := false; v_private := false; v_unusedAttr := false; v_defaultArg := false; v_canonicalType := $"int"; v_inTemplate := false; v_contexts := [CxObjCMethod true false false false] |} None))] None))])))];
     ts_locs := [(1,1,2,2); (3,1,5,2); (4,1,4,23); (4,18,4,22)]%Z;
     ts_evals := []; ts_same := []; ts_decls := []; ts_parents := [] |}.
Example UnusedMethodParameter_ObjCMethodDeclarationInsideCategoryShouldBeIgnored_holds : sorted_violations_of (shippedRule sh_UnusedMethodParameter) UnusedMethodParameter_ObjCMethodDeclarationInsideCategoryShouldBeIgnored = Some [].
Proof. vm_compute. reflexivity. Qed.

Definition UnusedMethodParameter_ObjCMethodInheritanceFromBaseInterfaceShouldBeIgnored : testcase :=
  {| ts_lang := LObjC; ts_path := $"input.m"; ts_code := [];
     ts_comments := []; ts_conf := [];
     ts_tops := [(toplevel 0 (TOther), (Node 0 [] (ObjCContainerDecl {| oc_kind := OKInterface; oc_name := $"BaseClass"; oc_lines := (3)%Z; oc_ivars := 0; oc_methods := [($"aMethod:", true)]; oc_classes := [$"BaseClass"]; oc_superMethods := None |} [(Node 1 [] (ObjCMethodDecl {| om_selector := $"aMethod:"; om_class := (Some $"BaseClass"); om_overriding := false; om_overridden := []; om_bodyLines := (0)%Z |} [(Node 2 [] (VarDecl {| v_isParm := true; v_name := $"a"; v_used := false; v_referenced := false; v_local := false; v_staticMember := false; v_private := false; v_unusedAttr := false; v_defaultArg := false; v_canonicalType := $"int"; v_inTemplate := false; v_contexts := [CxObjCMethod true false false false; CxOther] |} None))] None))]))); (toplevel 3 (TOther), (Node 3 [] (ObjCContainerDecl {| oc_kind := OKInterface; oc_name := $"SubClass"; oc_lines := (2)%Z; oc_ivars := 0; oc_methods := []; oc_classes := [$"SubClass"; $"BaseClass"]; oc_superMethods := (Some ($"BaseClass", [($"aMethod:", true, (Decl [] (Some (Method false None (InOther (Some NoCategory))))))])) |} []))); (toplevel 4 (TOther), (Node 4 [] (ObjCContainerDecl {| oc_kind := OKImplementation; oc_name := $"SubClass"; oc_lines := (3)%Z; oc_ivars := 0; oc_methods := [($"aMethod:", true)]; oc_classes := [$"SubClass"; $"BaseClass"]; oc_superMethods := (Some ($"BaseClass", [($"aMethod:", true, (Decl [] (Some (Method false None (InOther (Some NoCategory))))))])) |} [(Node 5 [] (ObjCMethodDecl {| om_selector := $"aMethod:"; om_class := (Some $"SubClass"); om_overriding := true; om_overridden := [(Decl [] (Some (Method false None (InOther (Some NoCategory)))))]; om_bodyLines := (1)%Z |} [(Node 6 [] (VarDecl {| v_isParm := true; v_name := $"a"; v_used := false; v_referenced := false; v_local := false; v_staticMember := false; v_private := false; v_unusedAttr := false; v_defaultArg := false; v_canonicalType := $"int"; v_inTemplate := false; v_contexts := [CxObjCMethod false true false false] |} None))] (Some (Node 7 [] (CompoundStmt [])))))])))];
     ts_locs := [(1,1,3,2); (2,1,2,23); (2,18,2,22); (4,5,5,2); (6,19,8,1); (7,1,7,25); (7,18,7,22); (7,24,7,25)]%Z;
     ts_evals := []; ts_same := []; ts_decls := []; ts_parents := [] |}.
Example UnusedMethodParameter_ObjCMethodInheritanceFromBaseInterfaceShouldBeIgnored_holds : sorted_violations_of (shippedRule sh_UnusedMethodParameter) UnusedMethodParameter_ObjCMethodInheritanceFromBaseInterfaceShouldBeIgnored = Some [].
Proof. vm_compute. reflexivity. Qed.

Definition UnusedMethodParameter_ObjCMethodImplementedForProtocolShouldBeIgnored : testcase :=
  {| ts_lang := LObjC; ts_path := $"input.m"; ts_code := [];
     ts_comments := []; ts_conf := [];
     ts_tops := [(toplevel 0 (TOther), (Node 0 [] (ObjCContainerDecl {| oc_kind := OKInterface; oc_name := $"Object"; oc_lines := (2)%Z; oc_ivars := 0; oc_methods := []; oc_classes := [$"Object"]; oc_superMethods := None |} []))); (toplevel 1 (TOther), (Node 1 [] (ObjCContainerDecl {| oc_kind := OKProtocol; oc_name := $"AProtocol"; oc_lines := (3)%Z; oc_ivars := 0; oc_methods := [($"aMethod:", true)]; oc_classes := []; oc_superMethods := None |} [(Node 2 [] (ObjCMethodDecl {| om_selector := $"aMethod:"; om_class := None; om_overriding := false; om_overridden := []; om_bodyLines := (0)%Z |} [(Node 3 [] (VarDecl {| v_isParm := true; v_name := $"a"; v_used := false; v_referenced := false; v_local := false; v_staticMember := false; v_private := false; v_unusedAttr := false; v_defaultArg := false; v_canonicalType := $"int"; v_inTemplate := false; v_contexts := [CxObjCMethod true false false false] |} None))] None))]))); (toplevel 4 (TOther), (Node 4 [] (ObjCContainerDecl {| oc_kind := OKInterface; oc_name := $"AnInterface"; oc_lines := (2)%Z; oc_ivars := 0; oc_methods := []; oc_classes := [$"AnInterface"; $"Object"]; oc_superMethods := (Some ($"Object", [])) |} []))); (toplevel 5 (TOther), (Node 5 [] (ObjCContainerDecl {| oc_kind := OKImplementation; oc_name := $"AnInterface"; oc_lines := (3)%Z; oc_ivars := 0; oc_methods := [($"aMethod:", true)]; oc_classes := [$"AnInterface"; $"Object"]; oc_superMethods := (Some ($"Object", [])) |} [(Node 6 [] (ObjCMethodDecl {| om_selector := $"aMethod:"; om_class := (Some $"AnInterface"); om_overriding := true; om_overridden := [(Decl [] (Some (Method false None (InProtocol (Some [])))))]; om_bodyLines := (1)%Z |} [(Node 7 [] (VarDecl {| v_isParm := true; v_name := $"a"; v_used := false; v_referenced := false; v_local := false; v_staticMember := false; v_private := false; v_unusedAttr := false; v_defaultArg := false; v_canonicalType := $"int"; v_inTemplate := false; v_contexts := [CxObjCMethod false false true false] |} None))] (Some (Node 8 [] (CompoundStmt [])))))])))];
     ts_locs := [(1,1,2,2); (3,1,5,2); (4,1,4,23); (4,18,4,22); (6,1,7,2); (8,1,10,1); (9,1,9,25); (9,18,9,22); (9,24,9,25)]%Z;
     ts_evals := []; ts_same := []; ts_decls := []; ts_parents := [] |}.
Example UnusedMethodParameter_ObjCMethodImplementedForProtocolShouldBeIgnored_holds : sorted_violations_of (shippedRule sh_UnusedMethodParameter) UnusedMethodParameter_ObjCMethodImplementedForProtocolShouldBeIgnored = Some [].
Proof. vm_compute. reflexivity. Qed.

Definition UnusedMethodParameter_ObjCMethodWithIBActionAttribute : testcase :=
  {| ts_lang := LObjC; ts_path := $"input.m"; ts_code := [];
     ts_comments := []; ts_conf := [];
     ts_tops := [(toplevel 0 (TOther), (Node 0 [] (ObjCContainerDecl {| oc_kind := OKInterface; oc_name := $"AnInterface"; oc_lines := (2)%Z; oc_ivars := 0; oc_methods := []; oc_classes := [$"AnInterface"]; oc_superMethods := None |} []))); (toplevel 1 (TOther), (Node 1 [] (ObjCContainerDecl {| oc_kind := OKInterface; oc_name := $"AClass"; oc_lines := (3)%Z; oc_ivars := 0; oc_methods := [($"aMethod:", true)]; oc_classes := [$"AClass"; $"AnInterface"]; oc_superMethods := (Some ($"AnInterface", [])) |} [(Node 2 [] (ObjCMethodDecl {| om_selector := $"aMethod:"; om_class := (Some $"AClass"); om_overriding := false; om_overridden := []; om_bodyLines := (0)%Z |} [(Node 3 [] (VarDecl {| v_isParm := true; v_name := $"sender"; v_used := false; v_referenced := false; v_local := false; v_staticMember := false; v_private := false; v_unusedAttr := false; v_defaultArg := false; v_canonicalType := $"struct objc_object *"; v_inTemplate := false; v_contexts := [CxObjCMethod true false false true; CxOther] |} None))] None))]))); (toplevel 4 (TOther), (Node 4 [] (ObjCContainerDecl {| oc_kind := OKImplementation; oc_name := $"AClass"; oc_lines := (3)%Z; oc_ivars := 0; oc_methods := [($"aMethod:", true)]; oc_classes := [$"AClass"; $"AnInterface"]; oc_superMethods := (Some ($"AnInterface", [])) |} [(Node 5 [] (ObjCMethodDecl {| om_selector := $"aMethod:"; om_class := (Some $"AClass"); om_overriding := false; om_overridden := []; om_bodyLines := (1)%Z |} [(Node 6 [] (VarDecl {| v_isParm := true; v_name := $"sender"; v_used := false; v_referenced := false; v_local := false; v_staticMember := false; v_private := false; v_unusedAttr := false; v_defaultArg := false; v_canonicalType := $"struct objc_object *"; v_inTemplate := false; v_contexts := [CxObjCMethod false false false true] |} None))] (Some (Node 7 [] (CompoundStmt [])))))])))];
     ts_locs := [(1,1,2,2); (3,1,5,2); (4,1,4,31); (4,22,4,25); (6,1,8,1); (7,1,7,33); (7,22,7,25); (7,32,7,33)]%Z;
     ts_evals := []; ts_same := []; ts_decls := []; ts_parents := [] |}.
Example UnusedMethodParameter_ObjCMethodWithIBActionAttribute_holds : sorted_violations_of (shippedRule sh_UnusedMethodParameter) UnusedMethodParameter_ObjCMethodWithIBActionAttribute = Some [].
Proof. vm_compute. reflexivity. Qed.

Definition UnusedMethodParameter_ObjCMethodWithIBActionAttributeMixed : testcase :=
  {| ts_lang := LObjC; ts_path := $"input.m"; ts_code := [];
     ts_comments := []; ts_conf := [];
     ts_tops := [(toplevel 0 (TOther), (Node 0 [] (ObjCContainerDecl {| oc_kind := OKInterface; oc_name := $"AnInterface"; oc_lines := (2)%Z; oc_ivars := 0; oc_methods := []; oc_classes := [$"AnInterface"]; oc_superMethods := None |} []))); (toplevel 1 (TOther), (Node 1 [] (ObjCContainerDecl {| oc_kind := OKInterface; oc_name := $"AClass"; oc_lines := (4)%Z; oc_ivars := 0; oc_methods := [($"aMethod:", true); ($"bMethod:", true)]; oc_classes := [$"AClass"; $"AnInterface"]; oc_superMethods := (Some ($"AnInterface", [])) |} [(Node 2 [] (ObjCMethodDecl {| om_selector := $"aMethod:"; om_class := (Some $"AClass"); om_overriding := false; om_overridden := []; om_bodyLines := (0)%Z |} [(Node 3 [] (VarDecl {| v_isParm := true; v_name := $"sender"; v_used := false; v_referenced := false; v_local := false; v_staticMember := false; v_private := false; v_unusedAttr := false; v_defaultArg := false; v_canonicalType := $"struct objc_object *"; v_inTemplate := false; v_contexts := [CxObjCMethod true false false true; CxOther] |} None))] None)); (Node 4 [] (ObjCMethodDecl {| om_selector := $"bMethod:"; om_class := (Some $"AClass"); om_overriding := false; om_overridden := []; om_bodyLines := (0)%Z |} [(Node 5 [] (VarDecl {| v_isParm := true; v_name := $"a"; v_used := false; v_referenced := false; v_local := false; v_staticMember := false; v_private := false; v_unusedAttr := false; v_defaultArg := false; v_canonicalType := $"int"; v_inTemplate := false; v_contexts := [CxObjCMethod true false false false; CxOther] |} None))] None))]))); (toplevel 6 (TOther), (Node 6 [] (ObjCContainerDecl {| oc_kind := OKImplementation; oc_name := $"AClass"; oc_lines := (4)%Z; oc_ivars := 0; oc_methods := [($"aMethod:", true); ($"bMethod:", true)]; oc_classes := [$"AClass"; $"AnInterface"]; oc_superMethods := (Some ($"AnInterface", [])) |} [(Node 7 [] (ObjCMethodDecl {| om_selector := $"aMethod:"; om_class := (Some $"AClass"); om_overriding := false; om_overridden := []; om_bodyLines := (1)%Z |} [(Node 8 [] (VarDecl {| v_isParm := true; v_name := $"sender"; v_used := false; v_referenced := false; v_local := false; v_staticMember := false; v_private := false; v_unusedAttr := false; v_defaultArg := false; v_canonicalType := $"struct objc_object *"; v_inTemplate := false; v_contexts := [CxObjCMethod false false false true] |} None))] (Some (Node 9 [] (CompoundStmt []))))); (Node 10 [] (ObjCMethodDecl {| om_selector := $"bMethod:"; om_class := (Some $"AClass"); om_overriding := false; om_overridden := []; om_bodyLines := (1)%Z |} [(Node 11 [] (VarDecl {| v_isParm := true; v_name := $"a"; v_used := false; v_referenced := false; v_local := false; v_staticMember := false; v_private := false; v_unusedAttr := false; v_defaultArg := false; v_canonicalType := $"int"; v_inTemplate := false; v_contexts := [CxObjCMethod false false false false] |} None))] (Some (Node 12 [] (CompoundStmt [])))))])))];
     ts_locs := [(1,1,2,2); (3,1,6,2); (4,1,4,31); (4,22,4,25); (5,1,5,23); (5,18,5,22); (7,1,10,1); (8,1,8,33); (8,22,8,25); (8,32,8,33); (9,1,9,25); (9,18,9,22); (9,24,9,25)]%Z;
     ts_evals := []; ts_same := []; ts_decls := []; ts_parents := [] |}.
Example UnusedMethodParameter_ObjCMethodWithIBActionAttributeMixed_holds : nth_violation (shippedRule sh_UnusedMethodParameter) UnusedMethodParameter_ObjCMethodWithIBActionAttributeMixed 0 = Some (9, 18, 9, 22, $"The parameter 'a' is unused.")%Z.
Proof. vm_compute. reflexivity. Qed.

Definition UnusedLocalVariable_IgnoreUnusedParameterInTemplateFunction : testcase :=
  {| ts_lang := LCXX; ts_path := $"input.cpp"; ts_code := [];
     ts_comments := []; ts_conf := [];
     ts_tops := [(toplevel 0 (TOther), (Node 0 [] (OtherDecl [(Node 1 [] (FunctionDecl {| f_name := $"m"; f_method := None; f_isDefinition := true; f_bodyLines := (1)%Z |} [(Node 2 [] (VarDecl {| v_isParm := true; v_name := $"i"; v_used := false; v_referenced := false; v_local := false; v_staticMember := false; v_private := false; v_unusedAttr := false; v_defaultArg := false; v_canonicalType := $"int"; v_inTemplate := true; v_contexts := [CxFunction true true false] |} None))] (Some (Node 3 [] (CompoundStmt [(Node 4 [] (ReturnStmt (Some (Node 5 [] (IntegerLiteral (0)%Z)))))])))))])))];
     ts_locs := [(1,1,1,48); (1,23,1,48); (1,29,1,33); (1,36,1,48); (1,38,1,45); (1,45,1,45)]%Z;
     ts_evals := []; ts_same := []; ts_decls := []; ts_parents := [] |}.
Example UnusedLocalVariable_IgnoreUnusedParameterInTemplateFunction_holds : sorted_violations_of (shippedRule sh_UnusedMethodParameter) UnusedLocalVariable_IgnoreUnusedParameterInTemplateFunction = Some [].
Proof. vm_compute. reflexivity. Qed.

Definition UnusedMethodParameter_UnusedLocalVariableShouldBeIgnoredInThisRule : testcase :=
  {| ts_lang := LC; ts_path := $"input.c"; ts_code := [];
     ts_comments := []; ts_conf := [];
     ts_tops := [(toplevel 0 (TFunction false), (Node 0 [] (FunctionDecl {| f_name := $"aMethod"; f_method := None; f_isDefinition := true; f_bodyLines := (1)%Z |} [] (Some (Node 1 [] (CompoundStmt [(Node 2 [] (DeclStmt [(Node 3 [] (VarDecl {| v_isParm := false; v_name := $"a"; v_used := false; v_referenced := false; v_local := true; v_staticMember := false; v_private := false; v_unusedAttr := false; v_defaultArg := false; v_canonicalType := $"int"; v_inTemplate := false; v_contexts := [CxFunction true true false] |} None))])); (Node 4 [] (ReturnStmt (Some (Node 5 [] (IntegerLiteral (0)%Z)))))]))))))];
     ts_locs := [(1,1,1,34); (1,15,1,34); (1,17,1,22); (1,17,1,21); (1,24,1,31); (1,31,1,31)]%Z;
     ts_evals := []; ts_same := []; ts_decls := []; ts_parents := [] |}.
Example UnusedMethodParameter_UnusedLocalVariableShouldBeIgnoredInThisRule_holds : sorted_violations_of (shippedRule sh_UnusedMethodParameter) UnusedMethodParameter_UnusedLocalVariableShouldBeIgnoredInThisRule = Some [].
Proof. vm_compute. reflexivity. Qed.

Definition UnusedMethodParameter_AttributeUnusedSupressesFirstParameterRule : testcase :=
  {| ts_lang := LC; ts_path := $"input.c"; ts_code := [];
     ts_comments := []; ts_conf := [];
     ts_tops := [(toplevel 0 (TFunction false), (Node 0 [] (FunctionDecl {| f_name := $"aMethod"; f_method := None; f_isDefinition := false; f_bodyLines := (1)%Z |} [(Node 1 [] (VarDecl {| v_isParm := true; v_name := $"a"; v_used := false; v_referenced := false; v_local := false; v_staticMember := false; v_private := false; v_unusedAttr := false; v_defaultArg := false; v_canonicalType := $"int"; v_inTemplate := false; v_contexts := [CxFunction false true false] |} None)); (Node 2 [] (VarDecl {| v_isParm := true; v_name := $"b"; v_used := false; v_referenced := false; v_local := false; v_staticMember := false; v_private := false; v_unusedAttr := false; v_defaultArg := false; v_canonicalType := $"int"; v_inTemplate := false; v_contexts := [CxFunction false true false] |} None))] None))); (toplevel 3 (TFunction false), (Node 3 [] (FunctionDecl {| f_name := $"aMethod"; f_method := None; f_isDefinition := true; f_bodyLines := (1)%Z |} [(Node 4 [] (VarDecl {| v_isParm := true; v_name := $"a"; v_used := false; v_referenced := false; v_local := false; v_staticMember := false; v_private := false; v_unusedAttr := true; v_defaultArg := false; v_canonicalType := $"int"; v_inTemplate := false; v_contexts := [CxFunction true true false] |} None)); (Node 5 [] (VarDecl {| v_isParm := true; v_name := $"b"; v_used := false; v_referenced := false; v_local := false; v_staticMember := false; v_private := false; v_unusedAttr := false; v_defaultArg := false; v_canonicalType := $"int"; v_inTemplate := false; v_contexts := [CxFunction true true false] |} None))] (Some (Node 6 [] (CompoundStmt [(Node 7 [] (ReturnStmt (Some (Node 8 [] (IntegerLiteral (1)%Z)))))]))))))];
     ts_locs := [(1,1,1,25); (1,13,1,17); (1,20,1,24); (2,1,2,63); (2,13,2,41); (2,44,2,48); (2,51,2,63); (2,53,2,60); (2,60,2,60)]%Z;
     ts_evals := []; ts_same := []; ts_decls := []; ts_parents := [] |}.
Example UnusedMethodParameter_AttributeUnusedSupressesFirstParameterRule_holds : nth_violation (shippedRule sh_UnusedMethodParameter) UnusedMethodParameter_AttributeUnusedSupressesFirstParameterRule 0 = Some (2, 44, 2, 48, $"The parameter 'b' is unused.")%Z.
Proof. vm_compute. reflexivity. Qed.

Definition UnusedMethodParameter_AttributeUnusedSupressesSecondParameterRule : testcase :=
  {| ts_lang := LC; ts_path := $"input.c"; ts_code := [];
     ts_comments := []; ts_conf := [];
     ts_tops := [(toplevel 0 (TFunction false), (Node 0 [] (FunctionDecl {| f_name := $"aMethod"; f_method := None; f_isDefinition := false; f_bodyLines := (1)%Z |} [(Node 1 [] (VarDecl {| v_isParm := true; v_name := $"a"; v_used := false; v_referenced := false; v_local := false; v_staticMember := false; v_private := false; v_unusedAttr := false; v_defaultArg := false; v_canonicalType := $"int"; v_inTemplate := false; v_contexts := [CxFunction false true false] |} None)); (Node 2 [] (VarDecl {| v_isParm := true; v_name := $"b"; v_used := false; v_referenced := false; v_local := false; v_staticMember := false; v_private := false; v_unusedAttr := false; v_defaultArg := false; v_canonicalType := $"int"; v_inTemplate := false; v_contexts := [CxFunction false true false] |} None))] None))); (toplevel 3 (TFunction false), (Node 3 [] (FunctionDecl {| f_name := $"aMethod"; f_method := None; f_isDefinition := true; f_bodyLines := (1)%Z |} [(Node 4 [] (VarDecl {| v_isParm := true; v_name := $"a"; v_used := false; v_referenced := false; v_local := false; v_staticMember := false; v_private := false; v_unusedAttr := false; v_defaultArg := false; v_canonicalType := $"int"; v_inTemplate := false; v_contexts := [CxFunction true true false] |} None)); (Node 5 [] (VarDecl {| v_isParm := true; v_name := $"b"; v_used := false; v_referenced := false; v_local := false; v_staticMember := false; v_private := false; v_unusedAttr := true; v_defaultArg := false; v_canonicalType := $"int"; v_inTemplate := false; v_contexts := [CxFunction true true false] |} None))] (Some (Node 6 [] (CompoundStmt [(Node 7 [] (ReturnStmt (Some (Node 8 [] (IntegerLiteral (1)%Z)))))]))))))];
     ts_locs := [(1,1,1,25); (1,13,1,17); (1,20,1,24); (2,1,2,63); (2,13,2,17); (2,20,2,48); (2,51,2,63); (2,53,2,60); (2,60,2,60)]%Z;
     ts_evals := []; ts_same := []; ts_decls := []; ts_parents := [] |}.
Example UnusedMethodParameter_AttributeUnusedSupressesSecondParameterRule_holds : nth_violation (shippedRule sh_UnusedMethodParameter) UnusedMethodParameter_AttributeUnusedSupressesSecondParameterRule 0 = Some (2, 13, 2, 17, $"The parameter 'a' is unused.")%Z.
Proof. vm_compute. reflexivity. Qed.

Definition UnusedMethodParameter_AttributeUnusedSupressesAllParameterRule : testcase :=
  {| ts_lang := LC; ts_path := $"input.c"; ts_code := [];
     ts_comments := []; ts_conf := [];
     ts_tops := [(toplevel 0 (TFunction false), (Node 0 [] (FunctionDecl {| f_name := $"aMethod"; f_method := None; f_isDefinition := false; f_bodyLines := (1)%Z |} [(Node 1 [] (VarDecl {| v_isParm := true; v_name := $"a"; v_used := false; v_referenced := false; v_local := false; v_staticMember := false; v_private := false; v_unusedAttr := false; v_defaultArg := false; v_canonicalType := $"int"; v_inTemplate := false; v_contexts := [CxFunction false true false] |} None)); (Node 2 [] (VarDecl {| v_isParm := true; v_name := $"b"; v_used := false; v_referenced := false; v_local := false; v_staticMember := false; v_private := false; v_unusedAttr := false; v_defaultArg := false; v_canonicalType := $"int"; v_inTemplate := false; v_contexts := [CxFunction false true false] |} None))] None))); (toplevel 3 (TFunction false), (Node 3 [] (FunctionDecl {| f_name := $"aMethod"; f_method := None; f_isDefinition := true; f_bodyLines := (1)%Z |} [(Node 4 [] (VarDecl {| v_isParm := true; v_name := $"a"; v_used := false; v_referenced := false; v_local := false; v_staticMember := false; v_private := false; v_unusedAttr := true; v_defaultArg := false; v_canonicalType := $"int"; v_inTemplate := false; v_contexts := [CxFunction true true false] |} None)); (Node 5 [] (VarDecl {| v_isParm := true; v_name := $"b"; v_used := false; v_referenced := false; v_local := false; v_staticMember := false; v_private := false; v_unusedAttr := true; v_defaultArg := false; v_canonicalType := $"int"; v_inTemplate := false; v_contexts := [CxFunction true true false] |} None))] (Some (Node 6 [] (CompoundStmt [(Node 7 [] (ReturnStmt (Some (Node 8 [] (IntegerLiteral (1)%Z)))))]))))))];
     ts_locs := [(1,1,1,25); (1,13,1,17); (1,20,1,24); (2,1,2,87); (2,13,2,41); (2,44,2,72); (2,75,2,87); (2,77,2,84); (2,84,2,84)]%Z;
     ts_evals := []; ts_same := []; ts_decls := []; ts_parents := [] |}.
Example UnusedMethodParameter_AttributeUnusedSupressesAllParameterRule_holds : sorted_violations_of (shippedRule sh_UnusedMethodParameter) UnusedMethodParameter_AttributeUnusedSupressesAllParameterRule = Some [].
Proof. vm_compute. reflexivity. Qed.

