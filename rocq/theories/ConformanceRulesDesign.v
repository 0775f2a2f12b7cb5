(** * OCLint's own unit tests of oclint-rules/test/design, as examples about the model

    Written by tools/conformance/emit.py; do not edit. *)
From Verif Require Import Base ModelConfig ModelSource ModelAST ModelRuleTable ConformanceBase.

(** ** oclint-rules/test/design/AvoidDefaultArgumentsOnVirtualMethodsRuleTest.cpp *)

Definition AvoidDefaultArgumentsOnVirtualMethods_VirtualWithDefaultArg : testcase :=
  {| ts_lang := LCXX; ts_path := $"input.cpp"; ts_code := [];
     ts_comments := []; ts_conf := [];
     ts_tops := [(toplevel 0 (TOther), (Node 0 [] (CXXRecordDecl {| r_class := (CxxRecord 0 $"Test" true true None []); r_fields := 0; r_methods := 1; r_lines := (1)%Z |} [(Node 1 [] (FunctionDecl {| f_name := $"test"; f_method := (Some {| cm_virtual := true; cm_static := false; cm_private := true; cm_inRecord := true |}); f_isDefinition := false; f_bodyLines := (0)%Z |} [(Node 2 [] (VarDecl {| v_isParm := true; v_name := $"a"; v_used := false; v_referenced := false; v_local := false; v_staticMember := false; v_private := false; v_unusedAttr := false; v_defaultArg := true; v_canonicalType := $"int"; v_inTemplate := false; v_contexts := [CxFunction false false true; CxRecord] |} (Some (Node 3 [] (IntegerLiteral (0)%Z)))))] None))])))];
     ts_locs := [(1,1,1,42); (1,14,1,39); (1,32,1,38); (1,38,1,38)]%Z;
     ts_evals := []; ts_same := []; ts_decls := []; ts_parents := [] |}.
Example AvoidDefaultArgumentsOnVirtualMethods_VirtualWithDefaultArg_holds : nth_violation (shippedRule sh_AvoidDefaultArgumentsOnVirtualMethods) AvoidDefaultArgumentsOnVirtualMethods_VirtualWithDefaultArg 0 = Some (1, 14, 1, 39, $"")%Z.
Proof. vm_compute. reflexivity. Qed.

Definition AvoidDefaultArgumentsOnVirtualMethods_VirtualWithSomeArgs : testcase :=
  {| ts_lang := LCXX; ts_path := $"input.cpp"; ts_code := [];
     ts_comments := []; ts_conf := [];
     ts_tops := [(toplevel 0 (TOther), (Node 0 [] (CXXRecordDecl {| r_class := (CxxRecord 0 $"Test" true true None []); r_fields := 0; r_methods := 1; r_lines := (1)%Z |} [(Node 1 [] (FunctionDecl {| f_name := $"test"; f_method := (Some {| cm_virtual := true; cm_static := false; cm_private := true; cm_inRecord := true |}); f_isDefinition := false; f_bodyLines := (0)%Z |} [(Node 2 [] (VarDecl {| v_isParm := true; v_name := $"a"; v_used := false; v_referenced := false; v_local := false; v_staticMember := false; v_private := false; v_unusedAttr := false; v_defaultArg := false; v_canonicalType := $"int"; v_inTemplate := false; v_contexts := [CxFunction false false true; CxRecord] |} None)); (Node 3 [] (VarDecl {| v_isParm := true; v_name := $"b"; v_used := false; v_referenced := false; v_local := false; v_staticMember := false; v_private := false; v_unusedAttr := false; v_defaultArg := false; v_canonicalType := $"int"; v_inTemplate := false; v_contexts := [CxFunction false false true; CxRecord] |} None))] None))])))];
     ts_locs := [(1,1,1,47); (1,14,1,44); (1,32,1,36); (1,39,1,43)]%Z;
     ts_evals := []; ts_same := []; ts_decls := []; ts_parents := [] |}.
Example AvoidDefaultArgumentsOnVirtualMethods_VirtualWithSomeArgs_holds : sorted_violations_of (shippedRule sh_AvoidDefaultArgumentsOnVirtualMethods) AvoidDefaultArgumentsOnVirtualMethods_VirtualWithSomeArgs = Some [].
Proof. vm_compute. reflexivity. Qed.

Definition AvoidDefaultArgumentsOnVirtualMethods_NonVirtualWithDefaultArg : testcase :=
  {| ts_lang := LCXX; ts_path := $"input.cpp"; ts_code := [];
     ts_comments := []; ts_conf := [];
     ts_tops := [(toplevel 0 (TOther), (Node 0 [] (CXXRecordDecl {| r_class := (CxxRecord 0 $"Test" true false None []); r_fields := 0; r_methods := 1; r_lines := (1)%Z |} [(Node 1 [] (FunctionDecl {| f_name := $"test"; f_method := (Some {| cm_virtual := false; cm_static := false; cm_private := true; cm_inRecord := true |}); f_isDefinition := false; f_bodyLines := (0)%Z |} [(Node 2 [] (VarDecl {| v_isParm := true; v_name := $"a"; v_used := false; v_referenced := false; v_local := false; v_staticMember := false; v_private := false; v_unusedAttr := false; v_defaultArg := true; v_canonicalType := $"int"; v_inTemplate := false; v_contexts := [CxFunction false false false; CxRecord] |} (Some (Node 3 [] (IntegerLiteral (0)%Z)))))] None))])))];
     ts_locs := [(1,1,1,34); (1,14,1,31); (1,24,1,30); (1,30,1,30)]%Z;
     ts_evals := []; ts_same := []; ts_decls := []; ts_parents := [] |}.
Example AvoidDefaultArgumentsOnVirtualMethods_NonVirtualWithDefaultArg_holds : sorted_violations_of (shippedRule sh_AvoidDefaultArgumentsOnVirtualMethods) AvoidDefaultArgumentsOnVirtualMethods_NonVirtualWithDefaultArg = Some [].
Proof. vm_compute. reflexivity. Qed.

(** ** oclint-rules/test/design/AvoidPrivateStaticMembersRuleTest.cpp *)

Definition AvoidPrivateStaticMembers_PrivateStaticField : testcase :=
  {| ts_lang := LCXX; ts_path := $"input.cpp"; ts_code := [];
     ts_comments := []; ts_conf := [];
     ts_tops := [(toplevel 0 (TOther), (Node 0 [] (CXXRecordDecl {| r_class := (CxxRecord 0 $"Test" true false None []); r_fields := 0; r_methods := 0; r_lines := (1)%Z |} [(Node 1 [] (VarDecl {| v_isParm := false; v_name := $"a"; v_used := false; v_referenced := false; v_local := false; v_staticMember := true; v_private := true; v_unusedAttr := false; v_defaultArg := false; v_canonicalType := $"int"; v_inTemplate := false; v_contexts := [CxRecord] |} None))])))];
     ts_locs := [(1,1,1,28); (1,14,1,25)]%Z;
     ts_evals := []; ts_same := []; ts_decls := []; ts_parents := [] |}.
Example AvoidPrivateStaticMembers_PrivateStaticField_holds : nth_violation (shippedRule sh_AvoidPrivateStaticMembers) AvoidPrivateStaticMembers_PrivateStaticField 0 = Some (1, 14, 1, 25, $"")%Z.
Proof. vm_compute. reflexivity. Qed.

Definition AvoidPrivateStaticMembers_PrivateStaticMethod : testcase :=
  {| ts_lang := LCXX; ts_path := $"input.cpp"; ts_code := [];
     ts_comments := []; ts_conf := [];
     ts_tops := [(toplevel 0 (TOther), (Node 0 [] (CXXRecordDecl {| r_class := (CxxRecord 0 $"Test" true false None []); r_fields := 0; r_methods := 1; r_lines := (1)%Z |} [(Node 1 [] (FunctionDecl {| f_name := $"a"; f_method := (Some {| cm_virtual := false; cm_static := true; cm_private := true; cm_inRecord := true |}); f_isDefinition := false; f_bodyLines := (0)%Z |} [] None))])))];
     ts_locs := [(1,1,1,30); (1,14,1,27)]%Z;
     ts_evals := []; ts_same := []; ts_decls := []; ts_parents := [] |}.
Example AvoidPrivateStaticMembers_PrivateStaticMethod_holds : nth_violation (shippedRule sh_AvoidPrivateStaticMembers) AvoidPrivateStaticMembers_PrivateStaticMethod 0 = Some (1, 14, 1, 27, $"")%Z.
Proof. vm_compute. reflexivity. Qed.

Definition AvoidPrivateStaticMembers_PublicStaticField : testcase :=
  {| ts_lang := LCXX; ts_path := $"input.cpp"; ts_code := [];
     ts_comments := []; ts_conf := [];
     ts_tops := [(toplevel 0 (TOther), (Node 0 [] (CXXRecordDecl {| r_class := (CxxRecord 0 $"Test" true false None []); r_fields := 0; r_methods := 0; r_lines := (1)%Z |} [(Node 1 [] (VarDecl {| v_isParm := false; v_name := $"a"; v_used := false; v_referenced := false; v_local := false; v_staticMember := true; v_private := false; v_unusedAttr := false; v_defaultArg := false; v_canonicalType := $"int"; v_inTemplate := false; v_contexts := [CxRecord] |} None))])))];
     ts_locs := [(1,1,1,36); (1,22,1,33)]%Z;
     ts_evals := []; ts_same := []; ts_decls := []; ts_parents := [] |}.
Example AvoidPrivateStaticMembers_PublicStaticField_holds : sorted_violations_of (shippedRule sh_AvoidPrivateStaticMembers) AvoidPrivateStaticMembers_PublicStaticField = Some [].
Proof. vm_compute. reflexivity. Qed.

Definition AvoidPrivateStaticMembers_PublicStaticMethod : testcase :=
  {| ts_lang := LCXX; ts_path := $"input.cpp"; ts_code := [];
     ts_comments := []; ts_conf := [];
     ts_tops := [(toplevel 0 (TOther), (Node 0 [] (CXXRecordDecl {| r_class := (CxxRecord 0 $"Test" true false None []); r_fields := 0; r_methods := 1; r_lines := (1)%Z |} [(Node 1 [] (FunctionDecl {| f_name := $"a"; f_method := (Some {| cm_virtual := false; cm_static := true; cm_private := false; cm_inRecord := true |}); f_isDefinition := false; f_bodyLines := (0)%Z |} [] None))])))];
     ts_locs := [(1,1,1,38); (1,22,1,35)]%Z;
     ts_evals := []; ts_same := []; ts_decls := []; ts_parents := [] |}.
Example AvoidPrivateStaticMembers_PublicStaticMethod_holds : sorted_violations_of (shippedRule sh_AvoidPrivateStaticMembers) AvoidPrivateStaticMembers_PublicStaticMethod = Some [].
Proof. vm_compute. reflexivity. Qed.

(** ** oclint-rules/test/design/FeatureEnvyRuleTest.cpp *)

Definition FeatureEnvy_ObjCImplementationNoMethod : testcase :=
  {| ts_lang := LObjC; ts_path := $"input.m"; ts_code := [];
     ts_comments := []; ts_conf := [];
     ts_tops := [(toplevel 0 (TOther), (Node 0 [] (ObjCContainerDecl {| oc_kind := OKInterface; oc_name := $"a"; oc_lines := (2)%Z; oc_ivars := 0; oc_methods := []; oc_classes := [$"a"]; oc_superMethods := None |} []))); (toplevel 1 (TOther), (Node 1 [] (ObjCContainerDecl {| oc_kind := OKImplementation; oc_name := $"a"; oc_lines := (2)%Z; oc_ivars := 0; oc_methods := []; oc_classes := [$"a"]; oc_superMethods := None |} [])))];
     ts_locs := [(1,1,2,2); (3,1,4,1)]%Z;
     ts_evals := []; ts_same := []; ts_decls := []; ts_parents := [] |}.
Example FeatureEnvy_ObjCImplementationNoMethod_holds : sorted_violations_of featureEnvyRule FeatureEnvy_ObjCImplementationNoMethod = Some [].
Proof. vm_compute. reflexivity. Qed.

Definition FeatureEnvy_ObjcMethodMessageOther : testcase :=
  {| ts_lang := LObjC; ts_path := $"input.m"; ts_code := [];
     ts_comments := []; ts_conf := [];
     ts_tops := [(toplevel 0 (TOther), (Node 0 [] (ObjCContainerDecl {| oc_kind := OKInterface; oc_name := $"B"; oc_lines := (2)%Z; oc_ivars := 0; oc_methods := []; oc_classes := [$"B"]; oc_superMethods := None |} []))); (toplevel 1 (TOther), (Node 1 [] (ObjCContainerDecl {| oc_kind := OKImplementation; oc_name := $"B"; oc_lines := (4)%Z; oc_ivars := 0; oc_methods := [($"f", true)]; oc_classes := [$"B"]; oc_superMethods := None |} [(Node 2 [] (ObjCMethodDecl {| om_selector := $"f"; om_class := (Some $"B"); om_overriding := false; om_overridden := []; om_bodyLines := (2)%Z |} [] (Some (Node 3 [] (CompoundStmt [])))))]))); (toplevel 4 (TOther), (Node 4 [] (ObjCContainerDecl {| oc_kind := OKInterface; oc_name := $"A"; oc_lines := (2)%Z; oc_ivars := 0; oc_methods := []; oc_classes := [$"A"]; oc_superMethods := None |} []))); (toplevel 5 (TOther), (Node 5 [] (ObjCContainerDecl {| oc_kind := OKImplementation; oc_name := $"A"; oc_lines := (6)%Z; oc_ivars := 0; oc_methods := [($"f", true)]; oc_classes := [$"A"]; oc_superMethods := None |} [(Node 6 [] (ObjCMethodDecl {| om_selector := $"f"; om_class := (Some $"A"); om_overriding := false; om_overridden := []; om_bodyLines := (4)%Z |} [] (Some (Node 7 [] (CompoundStmt [(Node 8 [] (DeclStmt [(Node 9 [] (VarDecl {| v_isParm := false; v_name := $"b"; v_used := true; v_referenced := true; v_local := true; v_staticMember := false; v_private := false; v_unusedAttr := false; v_defaultArg := false; v_canonicalType := $"B *"; v_inTemplate := false; v_contexts := [CxObjCMethod false false false false] |} None))])); (Node 10 $"id" (ObjCMessageExpr {| ms_selector := $"f"; ms_receiver := RInstance; ms_implicit := false; ms_interface := (Some $"B"); ms_method := None; ms_methodClass := None |} (Some (Node 11 $"B *" (ImplicitCastExpr CK_LValueToRValue (Node 12 $"B *" (DeclRefExpr 9 $"b" false))))) []))])))))])))];
     ts_locs := [(1,1,2,2); (3,1,6,1); (4,1,5,1); (4,12,5,1); (7,1,8,2); (9,1,14,1); (10,1,13,1); (10,11,13,1); (11,5,11,9); (11,5,11,8); (12,5,12,9); (12,6,12,6); (12,6,12,6)]%Z;
     ts_evals := []; ts_same := []; ts_decls := []; ts_parents := [] |}.
Example FeatureEnvy_ObjcMethodMessageOther_holds : nth_violation featureEnvyRule FeatureEnvy_ObjcMethodMessageOther 0 = Some (10, 1, 13, 1, $"Method f messages B more than self.")%Z.
Proof. vm_compute. reflexivity. Qed.

Definition FeatureEnvy_ObjcMethodMessageSelf : testcase :=
  {| ts_lang := LObjC; ts_path := $"input.m"; ts_code := [];
     ts_comments := []; ts_conf := [];
     ts_tops := [(toplevel 0 (TOther), (Node 0 [] (ObjCContainerDecl {| oc_kind := OKInterface; oc_name := $"B"; oc_lines := (2)%Z; oc_ivars := 0; oc_methods := []; oc_classes := [$"B"]; oc_superMethods := None |} []))); (toplevel 1 (TOther), (Node 1 [] (ObjCContainerDecl {| oc_kind := OKImplementation; oc_name := $"B"; oc_lines := (4)%Z; oc_ivars := 0; oc_methods := [($"f", true)]; oc_classes := [$"B"]; oc_superMethods := None |} [(Node 2 [] (ObjCMethodDecl {| om_selector := $"f"; om_class := (Some $"B"); om_overriding := false; om_overridden := []; om_bodyLines := (2)%Z |} [] (Some (Node 3 [] (CompoundStmt [])))))]))); (toplevel 4 (TOther), (Node 4 [] (ObjCContainerDecl {| oc_kind := OKInterface; oc_name := $"A"; oc_lines := (2)%Z; oc_ivars := 0; oc_methods := []; oc_classes := [$"A"]; oc_superMethods := None |} []))); (toplevel 5 (TOther), (Node 5 [] (ObjCContainerDecl {| oc_kind := OKImplementation; oc_name := $"A"; oc_lines := (5)%Z; oc_ivars := 0; oc_methods := [($"f", true)]; oc_classes := [$"A"]; oc_superMethods := None |} [(Node 6 [] (ObjCMethodDecl {| om_selector := $"f"; om_class := (Some $"A"); om_overriding := false; om_overridden := []; om_bodyLines := (3)%Z |} [] (Some (Node 7 [] (CompoundStmt [(Node 8 $"id" (ObjCMessageExpr {| ms_selector := $"f"; ms_receiver := RInstance; ms_implicit := false; ms_interface := (Some $"A"); ms_method := None; ms_methodClass := None |} (Some (Node 9 $"A *" (ImplicitCastExpr CK_LValueToRValue (Node 10 $"A *" (DeclRefExpr 1009 $"self" false))))) []))])))))])))];
     ts_locs := [(1,1,2,2); (3,1,6,1); (4,1,5,1); (4,12,5,1); (7,1,8,2); (9,1,13,1); (10,1,12,1); (10,11,12,1); (11,5,11,12); (11,6,11,6); (11,6,11,6)]%Z;
     ts_evals := []; ts_same := []; ts_decls := []; ts_parents := [] |}.
Example FeatureEnvy_ObjcMethodMessageSelf_holds : sorted_violations_of featureEnvyRule FeatureEnvy_ObjcMethodMessageSelf = Some [].
Proof. vm_compute. reflexivity. Qed.

Definition FeatureEnvy_ObjcClassMethodMessageSelf : testcase :=
  {| ts_lang := LObjC; ts_path := $"input.m"; ts_code := [];
     ts_comments := []; ts_conf := [];
     ts_tops := [(toplevel 0 (TOther), (Node 0 [] (ObjCContainerDecl {| oc_kind := OKInterface; oc_name := $"A"; oc_lines := (2)%Z; oc_ivars := 0; oc_methods := []; oc_classes := [$"A"]; oc_superMethods := None |} []))); (toplevel 1 (TOther), (Node 1 [] (ObjCContainerDecl {| oc_kind := OKImplementation; oc_name := $"A"; oc_lines := (5)%Z; oc_ivars := 0; oc_methods := [($"f", false)]; oc_classes := [$"A"]; oc_superMethods := None |} [(Node 2 [] (ObjCMethodDecl {| om_selector := $"f"; om_class := (Some $"A"); om_overriding := false; om_overridden := []; om_bodyLines := (3)%Z |} [] (Some (Node 3 [] (CompoundStmt [(Node 4 $"id" (ObjCMessageExpr {| ms_selector := $"f"; ms_receiver := RInstance; ms_implicit := false; ms_interface := None; ms_method := None; ms_methodClass := None |} (Some (Node 5 $"id" (ImplicitCastExpr CK_LValueToRValue (Node 6 $"id" (DeclRefExpr 1005 $"self" false))))) []))])))))])))];
     ts_locs := [(1,1,2,2); (3,1,7,1); (4,1,6,1); (4,11,6,1); (5,5,5,12); (5,6,5,6); (5,6,5,6)]%Z;
     ts_evals := []; ts_same := []; ts_decls := []; ts_parents := [] |}.
Example FeatureEnvy_ObjcClassMethodMessageSelf_holds : sorted_violations_of featureEnvyRule FeatureEnvy_ObjcClassMethodMessageSelf = Some [].
Proof. vm_compute. reflexivity. Qed.

Definition FeatureEnvy_ObjcMethodMessageSelfAndOtherEqually : testcase :=
  {| ts_lang := LObjC; ts_path := $"input.m"; ts_code := [];
     ts_comments := []; ts_conf := [];
     ts_tops := [(toplevel 0 (TOther), (Node 0 [] (ObjCContainerDecl {| oc_kind := OKInterface; oc_name := $"B"; oc_lines := (2)%Z; oc_ivars := 0; oc_methods := []; oc_classes := [$"B"]; oc_superMethods := None |} []))); (toplevel 1 (TOther), (Node 1 [] (ObjCContainerDecl {| oc_kind := OKImplementation; oc_name := $"B"; oc_lines := (4)%Z; oc_ivars := 0; oc_methods := [($"f", true)]; oc_classes := [$"B"]; oc_superMethods := None |} [(Node 2 [] (ObjCMethodDecl {| om_selector := $"f"; om_class := (Some $"B"); om_overriding := false; om_overridden := []; om_bodyLines := (2)%Z |} [] (Some (Node 3 [] (CompoundStmt [])))))]))); (toplevel 4 (TOther), (Node 4 [] (ObjCContainerDecl {| oc_kind := OKInterface; oc_name := $"A"; oc_lines := (2)%Z; oc_ivars := 0; oc_methods := []; oc_classes := [$"A"]; oc_superMethods := None |} []))); (toplevel 5 (TOther), (Node 5 [] (ObjCContainerDecl {| oc_kind := OKImplementation; oc_name := $"A"; oc_lines := (7)%Z; oc_ivars := 0; oc_methods := [($"f", true)]; oc_classes := [$"A"]; oc_superMethods := None |} [(Node 6 [] (ObjCMethodDecl {| om_selector := $"f"; om_class := (Some $"A"); om_overriding := false; om_overridden := []; om_bodyLines := (5)%Z |} [] (Some (Node 7 [] (CompoundStmt [(Node 8 [] (DeclStmt [(Node 9 [] (VarDecl {| v_isParm := false; v_name := $"b"; v_used := true; v_referenced := true; v_local := true; v_staticMember := false; v_private := false; v_unusedAttr := false; v_defaultArg := false; v_canonicalType := $"B *"; v_inTemplate := false; v_contexts := [CxObjCMethod false false false false] |} None))])); (Node 10 $"id" (ObjCMessageExpr {| ms_selector := $"f"; ms_receiver := RInstance; ms_implicit := false; ms_interface := (Some $"B"); ms_method := None; ms_methodClass := None |} (Some (Node 11 $"B *" (ImplicitCastExpr CK_LValueToRValue (Node 12 $"B *" (DeclRefExpr 9 $"b" false))))) [])); (Node 13 $"id" (ObjCMessageExpr {| ms_selector := $"f"; ms_receiver := RInstance; ms_implicit := false; ms_interface := (Some $"A"); ms_method := None; ms_methodClass := None |} (Some (Node 14 $"A *" (ImplicitCastExpr CK_LValueToRValue (Node 15 $"A *" (DeclRefExpr 1014 $"self" false))))) []))])))))])))];
     ts_locs := [(1,1,2,2); (3,1,6,1); (4,1,5,1); (4,12,5,1); (7,1,8,2); (9,1,15,1); (10,1,14,1); (10,11,14,1); (11,5,11,9); (11,5,11,8); (12,5,12,9); (12,6,12,6); (12,6,12,6); (13,5,13,12); (13,6,13,6); (13,6,13,6)]%Z;
     ts_evals := []; ts_same := []; ts_decls := []; ts_parents := [] |}.
Example FeatureEnvy_ObjcMethodMessageSelfAndOtherEqually_holds : sorted_violations_of featureEnvyRule FeatureEnvy_ObjcMethodMessageSelfAndOtherEqually = Some [].
Proof. vm_compute. reflexivity. Qed.

Definition FeatureEnvy_ObjcMethodMessageSelfLessThanOther : testcase :=
  {| ts_lang := LObjC; ts_path := $"input.m"; ts_code := [];
     ts_comments := []; ts_conf := [];
     ts_tops := [(toplevel 0 (TOther), (Node 0 [] (ObjCContainerDecl {| oc_kind := OKInterface; oc_name := $"B"; oc_lines := (2)%Z; oc_ivars := 0; oc_methods := []; oc_classes := [$"B"]; oc_superMethods := None |} []))); (toplevel 1 (TOther), (Node 1 [] (ObjCContainerDecl {| oc_kind := OKImplementation; oc_name := $"B"; oc_lines := (4)%Z; oc_ivars := 0; oc_methods := [($"f", true)]; oc_classes := [$"B"]; oc_superMethods := None |} [(Node 2 [] (ObjCMethodDecl {| om_selector := $"f"; om_class := (Some $"B"); om_overriding := false; om_overridden := []; om_bodyLines := (2)%Z |} [] (Some (Node 3 [] (CompoundStmt [])))))]))); (toplevel 4 (TOther), (Node 4 [] (ObjCContainerDecl {| oc_kind := OKInterface; oc_name := $"A"; oc_lines := (2)%Z; oc_ivars := 0; oc_methods := []; oc_classes := [$"A"]; oc_superMethods := None |} []))); (toplevel 5 (TOther), (Node 5 [] (ObjCContainerDecl {| oc_kind := OKImplementation; oc_name := $"A"; oc_lines := (8)%Z; oc_ivars := 0; oc_methods := [($"f", true)]; oc_classes := [$"A"]; oc_superMethods := None |} [(Node 6 [] (ObjCMethodDecl {| om_selector := $"f"; om_class := (Some $"A"); om_overriding := false; om_overridden := []; om_bodyLines := (6)%Z |} [] (Some (Node 7 [] (CompoundStmt [(Node 8 [] (DeclStmt [(Node 9 [] (VarDecl {| v_isParm := false; v_name := $"b"; v_used := true; v_referenced := true; v_local := true; v_staticMember := false; v_private := false; v_unusedAttr := false; v_defaultArg := false; v_canonicalType := $"B *"; v_inTemplate := false; v_contexts := [CxObjCMethod false false false false] |} None))])); (Node 10 $"id" (ObjCMessageExpr {| ms_selector := $"f"; ms_receiver := RInstance; ms_implicit := false; ms_interface := (Some $"B"); ms_method := None; ms_methodClass := None |} (Some (Node 11 $"B *" (ImplicitCastExpr CK_LValueToRValue (Node 12 $"B *" (DeclRefExpr 9 $"b" false))))) [])); (Node 13 $"id" (ObjCMessageExpr {| ms_selector := $"f"; ms_receiver := RInstance; ms_implicit := false; ms_interface := (Some $"A"); ms_method := None; ms_methodClass := None |} (Some (Node 14 $"A *" (ImplicitCastExpr CK_LValueToRValue (Node 15 $"A *" (DeclRefExpr 1017 $"self" false))))) [])); (Node 16 $"id" (ObjCMessageExpr {| ms_selector := $"f"; ms_receiver := RInstance; ms_implicit := false; ms_interface := (Some $"B"); ms_method := None; ms_methodClass := None |} (Some (Node 17 $"B *" (ImplicitCastExpr CK_LValueToRValue (Node 18 $"B *" (DeclRefExpr 9 $"b" false))))) []))])))))])))];
     ts_locs := [(1,1,2,2); (3,1,6,1); (4,1,5,1); (4,12,5,1); (7,1,8,2); (9,1,16,1); (10,1,15,1); (10,11,15,1); (11,5,11,9); (11,5,11,8); (12,5,12,9); (12,6,12,6); (12,6,12,6); (13,5,13,12); (13,6,13,6); (13,6,13,6); (14,5,14,9); (14,6,14,6); (14,6,14,6)]%Z;
     ts_evals := []; ts_same := []; ts_decls := []; ts_parents := [] |}.
Example FeatureEnvy_ObjcMethodMessageSelfLessThanOther_holds : nth_violation featureEnvyRule FeatureEnvy_ObjcMethodMessageSelfLessThanOther 0 = Some (10, 1, 15, 1, $"Method f messages B more than self.")%Z.
Proof. vm_compute. reflexivity. Qed.

Definition FeatureEnvy_ObjcMethodAccessesPropertyOfAnotherClass : testcase :=
  {| ts_lang := LObjC; ts_path := $"input.m"; ts_code := [];
     ts_comments := []; ts_conf := [];
     ts_tops := [(toplevel 0 (TOther), (Node 0 [] (ObjCContainerDecl {| oc_kind := OKInterface; oc_name := $"B"; oc_lines := (3)%Z; oc_ivars := 0; oc_methods := [($"p", true); ($"setP:", true)]; oc_classes := [$"B"]; oc_superMethods := None |} [(Node 1 [] (OtherDecl []))]))); (toplevel 2 (TOther), (Node 2 [] (ObjCContainerDecl {| oc_kind := OKImplementation; oc_name := $"B"; oc_lines := (2)%Z; oc_ivars := 0; oc_methods := []; oc_classes := [$"B"]; oc_superMethods := None |} []))); (toplevel 3 (TOther), (Node 3 [] (ObjCContainerDecl {| oc_kind := OKInterface; oc_name := $"A"; oc_lines := (2)%Z; oc_ivars := 0; oc_methods := []; oc_classes := [$"A"]; oc_superMethods := None |} []))); (toplevel 4 (TOther), (Node 4 [] (ObjCContainerDecl {| oc_kind := OKImplementation; oc_name := $"A"; oc_lines := (6)%Z; oc_ivars := 0; oc_methods := [($"f", true)]; oc_classes := [$"A"]; oc_superMethods := None |} [(Node 5 [] (ObjCMethodDecl {| om_selector := $"f"; om_class := (Some $"A"); om_overriding := false; om_overridden := []; om_bodyLines := (4)%Z |} [] (Some (Node 6 [] (CompoundStmt [(Node 7 [] (DeclStmt [(Node 8 [] (VarDecl {| v_isParm := false; v_name := $"b"; v_used := true; v_referenced := true; v_local := true; v_staticMember := false; v_private := false; v_unusedAttr := false; v_defaultArg := false; v_canonicalType := $"B *"; v_inTemplate := false; v_contexts := [CxObjCMethod false false false false] |} None))])); (Node 9 $"int" (OtherExpr [(Node 10 $"int" (BinaryOperator BO_Assign (Node 11 $"int" (ObjCPropertyRefExpr true (Some $"B") (Some $"B") (Some (Node 12 $"B *" (OtherExpr []))))) (Node 13 $"int" (OtherExpr [])))); (Node 14 $"B *" (ImplicitCastExpr CK_LValueToRValue (Node 15 $"B *" (DeclRefExpr 8 $"b" false)))); (Node 16 $"int" (IntegerLiteral (5)%Z)); (Node 17 $"void" (ObjCMessageExpr {| ms_selector := $"setP:"; ms_receiver := RInstance; ms_implicit := true; ms_interface := (Some $"B"); ms_method := (Some (Decl [] (Some (Method true (Some []) (InOther (Some NoCategory)))))); ms_methodClass := (Some $"B") |} (Some (Node 18 $"B *" (OtherExpr []))) [(Node 19 $"int" (OtherExpr []))]))]))])))))])))];
     ts_locs := [(1,1,3,2); (2,1,2,15); (4,1,5,1); (6,1,7,2); (8,1,13,1); (9,1,12,1); (9,11,12,1); (10,5,10,9); (10,5,10,8); (11,5,11,11); (11,5,11,11); (11,5,11,7); (11,5,11,5); (11,11,11,11); (11,5,11,5); (11,5,11,5); (11,11,11,11); (11,7,11,7); (11,5,11,5); (11,11,11,11)]%Z;
     ts_evals := []; ts_same := []; ts_decls := []; ts_parents := [] |}.
Example FeatureEnvy_ObjcMethodAccessesPropertyOfAnotherClass_holds : nth_violation featureEnvyRule FeatureEnvy_ObjcMethodAccessesPropertyOfAnotherClass 0 = Some (9, 1, 12, 1, $"Method f messages B more than self.")%Z.
Proof. vm_compute. reflexivity. Qed.

Definition FeatureEnvy_ObjcMethodAccessesImplicitPropertySetterOfAnotherClass : testcase :=
  {| ts_lang := LObjC; ts_path := $"input.m"; ts_code := [];
     ts_comments := []; ts_conf := [];
     ts_tops := [(toplevel 0 (TOther), (Node 0 [] (ObjCContainerDecl {| oc_kind := OKInterface; oc_name := $"B"; oc_lines := (4)%Z; oc_ivars := 0; oc_methods := [($"p", true); ($"setP:", true)]; oc_classes := [$"B"]; oc_superMethods := None |} [(Node 1 [] (ObjCMethodDecl {| om_selector := $"p"; om_class := (Some $"B"); om_overriding := false; om_overridden := []; om_bodyLines := (0)%Z |} [] None)); (Node 2 [] (ObjCMethodDecl {| om_selector := $"setP:"; om_class := (Some $"B"); om_overriding := false; om_overridden := []; om_bodyLines := (0)%Z |} [(Node 3 [] (VarDecl {| v_isParm := true; v_name := $"value"; v_used := false; v_referenced := false; v_local := false; v_staticMember := false; v_private := false; v_unusedAttr := false; v_defaultArg := false; v_canonicalType := $"int"; v_inTemplate := false; v_contexts := [CxObjCMethod true false false false; CxOther] |} None))] None))]))); (toplevel 4 (TOther), (Node 4 [] (ObjCContainerDecl {| oc_kind := OKImplementation; oc_name := $"B"; oc_lines := (2)%Z; oc_ivars := 0; oc_methods := []; oc_classes := [$"B"]; oc_superMethods := None |} []))); (toplevel 5 (TOther), (Node 5 [] (ObjCContainerDecl {| oc_kind := OKInterface; oc_name := $"A"; oc_lines := (2)%Z; oc_ivars := 0; oc_methods := []; oc_classes := [$"A"]; oc_superMethods := None |} []))); (toplevel 6 (TOther), (Node 6 [] (ObjCContainerDecl {| oc_kind := OKImplementation; oc_name := $"A"; oc_lines := (6)%Z; oc_ivars := 0; oc_methods := [($"f", true)]; oc_classes := [$"A"]; oc_superMethods := None |} [(Node 7 [] (ObjCMethodDecl {| om_selector := $"f"; om_class := (Some $"A"); om_overriding := false; om_overridden := []; om_bodyLines := (4)%Z |} [] (Some (Node 8 [] (CompoundStmt [(Node 9 [] (DeclStmt [(Node 10 [] (VarDecl {| v_isParm := false; v_name := $"b"; v_used := true; v_referenced := true; v_local := true; v_staticMember := false; v_private := false; v_unusedAttr := false; v_defaultArg := false; v_canonicalType := $"B *"; v_inTemplate := false; v_contexts := [CxObjCMethod false false false false] |} None))])); (Node 11 $"id" (OtherExpr [(Node 12 $"id" (BinaryOperator BO_Assign (Node 13 $"id" (ObjCPropertyRefExpr true (Some $"B") (Some $"B") (Some (Node 14 $"B *" (OtherExpr []))))) (Node 15 $"id" (OtherExpr [])))); (Node 16 $"B *" (ImplicitCastExpr CK_LValueToRValue (Node 17 $"B *" (DeclRefExpr 10 $"b" false)))); (Node 18 $"id" (ImplicitCastExpr CK_Other (Node 19 $"int" (IntegerLiteral (5)%Z)))); (Node 20 $"void" (ObjCMessageExpr {| ms_selector := $"setP:"; ms_receiver := RInstance; ms_implicit := true; ms_interface := (Some $"B"); ms_method := (Some (Decl [] (Some (Method false None (InOther (Some NoCategory)))))); ms_methodClass := (Some $"B") |} (Some (Node 21 $"B *" (OtherExpr []))) [(Node 22 $"id" (OtherExpr []))]))]))])))))])))];
     ts_locs := [(1,1,4,2); (2,1,2,9); (3,1,3,24); (3,15,3,19); (5,1,6,1); (7,1,8,2); (9,1,14,1); (10,1,13,1); (10,11,13,1); (11,5,11,9); (11,5,11,8); (12,5,12,11); (12,5,12,11); (12,5,12,7); (12,5,12,5); (12,11,12,11); (12,5,12,5); (12,5,12,5); (12,11,12,11); (12,11,12,11); (12,7,12,7); (12,5,12,5); (12,11,12,11)]%Z;
     ts_evals := []; ts_same := []; ts_decls := []; ts_parents := [] |}.
Example FeatureEnvy_ObjcMethodAccessesImplicitPropertySetterOfAnotherClass_holds : nth_violation featureEnvyRule FeatureEnvy_ObjcMethodAccessesImplicitPropertySetterOfAnotherClass 0 = Some (10, 1, 13, 1, $"Method f messages B more than self.")%Z.
Proof. vm_compute. reflexivity. Qed.

Definition FeatureEnvy_ObjcMethodAccessesImplicitPropertyGetterOfAnotherClass : testcase :=
  {| ts_lang := LObjC; ts_path := $"input.m"; ts_code := [];
     ts_comments := []; ts_conf := [];
     ts_tops := [(toplevel 0 (TOther), (Node 0 [] (ObjCContainerDecl {| oc_kind := OKInterface; oc_name := $"B"; oc_lines := (4)%Z; oc_ivars := 0; oc_methods := [($"p", true); ($"setP:", true)]; oc_classes := [$"B"]; oc_superMethods := None |} [(Node 1 [] (ObjCMethodDecl {| om_selector := $"p"; om_class := (Some $"B"); om_overriding := false; om_overridden := []; om_bodyLines := (0)%Z |} [] None)); (Node 2 [] (ObjCMethodDecl {| om_selector := $"setP:"; om_class := (Some $"B"); om_overriding := false; om_overridden := []; om_bodyLines := (0)%Z |} [(Node 3 [] (VarDecl {| v_isParm := true; v_name := $"value"; v_used := false; v_referenced := false; v_local := false; v_staticMember := false; v_private := false; v_unusedAttr := false; v_defaultArg := false; v_canonicalType := $"int"; v_inTemplate := false; v_contexts := [CxObjCMethod true false false false; CxOther] |} None))] None))]))); (toplevel 4 (TOther), (Node 4 [] (ObjCContainerDecl {| oc_kind := OKImplementation; oc_name := $"B"; oc_lines := (2)%Z; oc_ivars := 0; oc_methods := []; oc_classes := [$"B"]; oc_superMethods := None |} []))); (toplevel 5 (TOther), (Node 5 [] (ObjCContainerDecl {| oc_kind := OKInterface; oc_name := $"A"; oc_lines := (2)%Z; oc_ivars := 0; oc_methods := []; oc_classes := [$"A"]; oc_superMethods := None |} []))); (toplevel 6 (TOther), (Node 6 [] (ObjCContainerDecl {| oc_kind := OKImplementation; oc_name := $"A"; oc_lines := (6)%Z; oc_ivars := 0; oc_methods := [($"f", true)]; oc_classes := [$"A"]; oc_superMethods := None |} [(Node 7 [] (ObjCMethodDecl {| om_selector := $"f"; om_class := (Some $"A"); om_overriding := false; om_overridden := []; om_bodyLines := (4)%Z |} [] (Some (Node 8 [] (CompoundStmt [(Node 9 [] (DeclStmt [(Node 10 [] (VarDecl {| v_isParm := false; v_name := $"b"; v_used := true; v_referenced := true; v_local := true; v_staticMember := false; v_private := false; v_unusedAttr := false; v_defaultArg := false; v_canonicalType := $"B *"; v_inTemplate := false; v_contexts := [CxObjCMethod false false false false] |} None))])); (Node 11 [] (ReturnStmt (Some (Node 12 $"int" (OtherExpr [(Node 13 $"int" (ObjCPropertyRefExpr false (Some $"B") (Some $"B") (Some (Node 14 $"B *" (OtherExpr []))))); (Node 15 $"B *" (ImplicitCastExpr CK_LValueToRValue (Node 16 $"B *" (DeclRefExpr 10 $"b" false)))); (Node 17 $"int" (ObjCMessageExpr {| ms_selector := $"p"; ms_receiver := RInstance; ms_implicit := true; ms_interface := (Some $"B"); ms_method := (Some (Decl [] (Some (Method false None (InOther (Some NoCategory)))))); ms_methodClass := (Some $"B") |} (Some (Node 18 $"B *" (OtherExpr []))) []))])))))])))))])))];
     ts_locs := [(1,1,4,2); (2,1,2,9); (3,1,3,24); (3,15,3,19); (5,1,6,1); (7,1,8,2); (9,1,14,1); (10,1,13,1); (10,10,13,1); (11,5,11,9); (11,5,11,8); (12,5,12,14); (12,12,12,14); (12,12,12,14); (12,12,12,12); (12,12,12,12); (12,12,12,12); (12,14,12,14); (12,12,12,12)]%Z;
     ts_evals := []; ts_same := []; ts_decls := []; ts_parents := [] |}.
Example FeatureEnvy_ObjcMethodAccessesImplicitPropertyGetterOfAnotherClass_holds : nth_violation featureEnvyRule FeatureEnvy_ObjcMethodAccessesImplicitPropertyGetterOfAnotherClass 0 = Some (10, 1, 13, 1, $"Method f messages B more than self.")%Z.
Proof. vm_compute. reflexivity. Qed.

Definition FeatureEnvy_ObjcMethodAccessesDynamicPropertyOfAnotherClass : testcase :=
  {| ts_lang := LObjC; ts_path := $"input.m"; ts_code := [];
     ts_comments := []; ts_conf := [];
     ts_tops := [(toplevel 0 (TOther), (Node 0 [] (ObjCContainerDecl {| oc_kind := OKInterface; oc_name := $"B"; oc_lines := (3)%Z; oc_ivars := 0; oc_methods := [($"p", true); ($"setP:", true)]; oc_classes := [$"B"]; oc_superMethods := None |} [(Node 1 [] (OtherDecl []))]))); (toplevel 2 (TOther), (Node 2 [] (ObjCContainerDecl {| oc_kind := OKImplementation; oc_name := $"B"; oc_lines := (2)%Z; oc_ivars := 0; oc_methods := []; oc_classes := [$"B"]; oc_superMethods := None |} [(Node 3 [] (OtherDecl []))]))); (toplevel 4 (TOther), (Node 4 [] (ObjCContainerDecl {| oc_kind := OKInterface; oc_name := $"A"; oc_lines := (2)%Z; oc_ivars := 0; oc_methods := []; oc_classes := [$"A"]; oc_superMethods := None |} []))); (toplevel 5 (TOther), (Node 5 [] (ObjCContainerDecl {| oc_kind := OKImplementation; oc_name := $"A"; oc_lines := (6)%Z; oc_ivars := 0; oc_methods := [($"f", true)]; oc_classes := [$"A"]; oc_superMethods := None |} [(Node 6 [] (ObjCMethodDecl {| om_selector := $"f"; om_class := (Some $"A"); om_overriding := false; om_overridden := []; om_bodyLines := (4)%Z |} [] (Some (Node 7 [] (CompoundStmt [(Node 8 [] (DeclStmt [(Node 9 [] (VarDecl {| v_isParm := false; v_name := $"b"; v_used := true; v_referenced := true; v_local := true; v_staticMember := false; v_private := false; v_unusedAttr := false; v_defaultArg := false; v_canonicalType := $"B *"; v_inTemplate := false; v_contexts := [CxObjCMethod false false false false] |} None))])); (Node 10 $"int" (OtherExpr [(Node 11 $"int" (BinaryOperator BO_Assign (Node 12 $"int" (ObjCPropertyRefExpr true (Some $"B") (Some $"B") (Some (Node 13 $"B *" (OtherExpr []))))) (Node 14 $"int" (OtherExpr [])))); (Node 15 $"B *" (ImplicitCastExpr CK_LValueToRValue (Node 16 $"B *" (DeclRefExpr 9 $"b" false)))); (Node 17 $"int" (IntegerLiteral (5)%Z)); (Node 18 $"void" (ObjCMessageExpr {| ms_selector := $"setP:"; ms_receiver := RInstance; ms_implicit := true; ms_interface := (Some $"B"); ms_method := (Some (Decl [] (Some (Method true (Some []) (InOther (Some NoCategory)))))); ms_methodClass := (Some $"B") |} (Some (Node 19 $"B *" (OtherExpr []))) [(Node 20 $"int" (OtherExpr []))]))]))])))))])))];
     ts_locs := [(1,1,3,2); (2,1,2,15); (4,1,5,12); (5,1,5,10); (6,1,7,2); (8,1,13,1); (9,1,12,1); (9,11,12,1); (10,5,10,9); (10,5,10,8); (11,5,11,11); (11,5,11,11); (11,5,11,7); (11,5,11,5); (11,11,11,11); (11,5,11,5); (11,5,11,5); (11,11,11,11); (11,7,11,7); (11,5,11,5); (11,11,11,11)]%Z;
     ts_evals := []; ts_same := []; ts_decls := []; ts_parents := [] |}.
Example FeatureEnvy_ObjcMethodAccessesDynamicPropertyOfAnotherClass_holds : nth_violation featureEnvyRule FeatureEnvy_ObjcMethodAccessesDynamicPropertyOfAnotherClass 0 = Some (9, 1, 12, 1, $"Method f messages B more than self.")%Z.
Proof. vm_compute. reflexivity. Qed.

Definition FeatureEnvy_ObjcMethodAccessesIvarOfAnotherClass : testcase :=
  {| ts_lang := LObjC; ts_path := $"input.m"; ts_code := [];
     ts_comments := []; ts_conf := [];
     ts_tops := [(toplevel 0 (TOther), (Node 0 [] (ObjCContainerDecl {| oc_kind := OKInterface; oc_name := $"B"; oc_lines := (5)%Z; oc_ivars := 1; oc_methods := []; oc_classes := [$"B"]; oc_superMethods := None |} [(Node 1 [] (OtherDecl []))]))); (toplevel 2 (TOther), (Node 2 [] (ObjCContainerDecl {| oc_kind := OKImplementation; oc_name := $"B"; oc_lines := (2)%Z; oc_ivars := 0; oc_methods := []; oc_classes := [$"B"]; oc_superMethods := None |} []))); (toplevel 3 (TOther), (Node 3 [] (ObjCContainerDecl {| oc_kind := OKInterface; oc_name := $"A"; oc_lines := (2)%Z; oc_ivars := 0; oc_methods := []; oc_classes := [$"A"]; oc_superMethods := None |} []))); (toplevel 4 (TOther), (Node 4 [] (ObjCContainerDecl {| oc_kind := OKImplementation; oc_name := $"A"; oc_lines := (6)%Z; oc_ivars := 0; oc_methods := [($"f", true)]; oc_classes := [$"A"]; oc_superMethods := None |} [(Node 5 [] (ObjCMethodDecl {| om_selector := $"f"; om_class := (Some $"A"); om_overriding := false; om_overridden := []; om_bodyLines := (4)%Z |} [] (Some (Node 6 [] (CompoundStmt [(Node 7 [] (DeclStmt [(Node 8 [] (VarDecl {| v_isParm := false; v_name := $"b"; v_used := true; v_referenced := true; v_local := true; v_staticMember := false; v_private := false; v_unusedAttr := false; v_defaultArg := false; v_canonicalType := $"B *"; v_inTemplate := false; v_contexts := [CxObjCMethod false false false false] |} None))])); (Node 9 $"int" (BinaryOperator BO_Assign (Node 10 $"int" (ObjCIvarRefExpr $"_p" (Some $"B") (Node 11 $"B *" (ImplicitCastExpr CK_LValueToRValue (Node 12 $"B *" (DeclRefExpr 8 $"b" false)))))) (Node 13 $"int" (IntegerLiteral (5)%Z))))])))))])))];
     ts_locs := [(1,1,5,2); (3,5,3,9); (6,1,7,1); (8,1,9,2); (10,1,15,1); (11,1,14,1); (11,11,14,1); (12,5,12,9); (12,5,12,8); (13,5,13,13); (13,5,13,8); (13,5,13,5); (13,5,13,5); (13,13,13,13)]%Z;
     ts_evals := []; ts_same := []; ts_decls := []; ts_parents := [] |}.
Example FeatureEnvy_ObjcMethodAccessesIvarOfAnotherClass_holds : nth_violation featureEnvyRule FeatureEnvy_ObjcMethodAccessesIvarOfAnotherClass 0 = Some (11, 1, 14, 1, $"Method f messages B more than self.")%Z.
Proof. vm_compute. reflexivity. Qed.

Definition FeatureEnvy_MethodDeclaredInProtocol : testcase :=
  {| ts_lang := LObjC; ts_path := $"input.m"; ts_code := [];
     ts_comments := []; ts_conf := [];
     ts_tops := [(toplevel 0 (TOther), (Node 0 [] (ObjCContainerDecl {| oc_kind := OKProtocol; oc_name := $"P"; oc_lines := (3)%Z; oc_ivars := 0; oc_methods := [($"protocolMethod", true)]; oc_classes := []; oc_superMethods := None |} [(Node 1 [] (ObjCMethodDecl {| om_selector := $"protocolMethod"; om_class := None; om_overriding := false; om_overridden := []; om_bodyLines := (0)%Z |} [] None))]))); (toplevel 2 (TOther), (Node 2 [] (ObjCContainerDecl {| oc_kind := OKInterface; oc_name := $"A"; oc_lines := (2)%Z; oc_ivars := 0; oc_methods := []; oc_classes := [$"A"]; oc_superMethods := None |} []))); (toplevel 3 (TOther), (Node 3 [] (ObjCContainerDecl {| oc_kind := OKInterface; oc_name := $"B"; oc_lines := (2)%Z; oc_ivars := 0; oc_methods := []; oc_classes := [$"B"]; oc_superMethods := None |} []))); (toplevel 4 (TOther), (Node 4 [] (ObjCContainerDecl {| oc_kind := OKInterface; oc_name := $"C"; oc_lines := (2)%Z; oc_ivars := 0; oc_methods := []; oc_classes := [$"C"; $"B"]; oc_superMethods := (Some ($"B", [])) |} []))); (toplevel 5 (TOther), (Node 5 [] (ObjCContainerDecl {| oc_kind := OKImplementation; oc_name := $"C"; oc_lines := (6)%Z; oc_ivars := 0; oc_methods := [($"method:", true)]; oc_classes := [$"C"; $"B"]; oc_superMethods := (Some ($"B", [])) |} [(Node 6 [] (ObjCMethodDecl {| om_selector := $"method:"; om_class := (Some $"C"); om_overriding := false; om_overridden := []; om_bodyLines := (3)%Z |} [(Node 7 [] (VarDecl {| v_isParm := true; v_name := $"a"; v_used := true; v_referenced := true; v_local := false; v_staticMember := false; v_private := false; v_unusedAttr := false; v_defaultArg := false; v_canonicalType := $"A *"; v_inTemplate := false; v_contexts := [CxObjCMethod false false false false] |} None))] (Some (Node 8 [] (CompoundStmt [(Node 9 $"void" (ObjCMessageExpr {| ms_selector := $"protocolMethod"; ms_receiver := RInstance; ms_implicit := false; ms_interface := (Some $"A"); ms_method := (Some (Decl [] (Some (Method false None (InProtocol (Some [])))))); ms_methodClass := None |} (Some (Node 10 $"A *" (ImplicitCastExpr CK_LValueToRValue (Node 11 $"A *" (DeclRefExpr 7 $"a" false))))) []))])))))])))];
     ts_locs := [(1,1,3,2); (2,1,2,22); (4,1,5,2); (6,1,7,2); (8,1,9,2); (10,1,15,1); (11,1,14,1); (11,17,11,21); (12,1,14,1); (13,5,13,22); (13,6,13,6); (13,6,13,6)]%Z;
     ts_evals := []; ts_same := []; ts_decls := []; ts_parents := [] |}.
Example FeatureEnvy_MethodDeclaredInProtocol_holds : nth_violation featureEnvyRule FeatureEnvy_MethodDeclaredInProtocol 0 = Some (11, 1, 14, 1, $"Method method: messages A more than self.")%Z.
Proof. vm_compute. reflexivity. Qed.

