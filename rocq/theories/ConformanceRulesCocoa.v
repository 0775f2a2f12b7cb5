(** * OCLint's own unit tests of oclint-rules/test/cocoa, as examples about the model

    Written by tools/conformance/emit.py; do not edit. *)
From Verif Require Import Base ModelConfig ModelSource ModelAST ModelRuleTable ConformanceBase.

(** ** oclint-rules/test/cocoa/ObjCVerifyIsEqualHashRuleTest.cpp *)

Definition ObjCVerifyIsEqualHash_HashEqualMethod : testcase :=
  {| ts_lang := LObjC; ts_path := $"input.m"; ts_code := [];
     ts_comments := []; ts_conf := [];
     ts_tops := [(toplevel 0 (TOther), (Node 0 [] (ObjCContainerDecl {| oc_kind := OKInterface; oc_name := $"NSObject"; oc_lines := (2)%Z; oc_ivars := 0; oc_methods := []; oc_classes := [$"NSObject"]; oc_superMethods := None |} []))); (toplevel 1 (TOther), (Node 1 [] (OtherDecl []))); (toplevel 2 (TOther), (Node 2 [] (VarDecl {| v_isParm := false; v_name := $"YES"; v_used := true; v_referenced := true; v_local := false; v_staticMember := false; v_private := false; v_unusedAttr := false; v_defaultArg := false; v_canonicalType := $"signed char"; v_inTemplate := false; v_contexts := [] |} (Some (Node 3 $"BOOL" (ImplicitCastExpr CK_Other (Node 4 $"int" (IntegerLiteral (1)%Z)))))))); (toplevel 5 (TOther), (Node 5 [] (ObjCContainerDecl {| oc_kind := OKInterface; oc_name := $"BaseObject"; oc_lines := (4)%Z; oc_ivars := 0; oc_methods := []; oc_classes := [$"BaseObject"; $"NSObject"]; oc_superMethods := (Some ($"NSObject", [])) |} []))); (toplevel 6 (TOther), (Node 6 [] (ObjCContainerDecl {| oc_kind := OKImplementation; oc_name := $"BaseObject"; oc_lines := (11)%Z; oc_ivars := 0; oc_methods := [($"hash", true); ($"isEqual:", true)]; oc_classes := [$"BaseObject"; $"NSObject"]; oc_superMethods := (Some ($"NSObject", [])) |} [(Node 7 [] (ObjCMethodDecl {| om_selector := $"hash"; om_class := (Some $"BaseObject"); om_overriding := false; om_overridden := []; om_bodyLines := (3)%Z |} [] (Some (Node 8 [] (CompoundStmt [(Node 9 [] (ReturnStmt (Some (Node 10 $"int" (IntegerLiteral (0)%Z)))))]))))); (Node 11 [] (ObjCMethodDecl {| om_selector := $"isEqual:"; om_class := (Some $"BaseObject"); om_overriding := false; om_overridden := []; om_bodyLines := (3)%Z |} [(Node 12 [] (VarDecl {| v_isParm := true; v_name := $"obj"; v_used := false; v_referenced := false; v_local := false; v_staticMember := false; v_private := false; v_unusedAttr := false; v_defaultArg := false; v_canonicalType := $"struct objc_object *"; v_inTemplate := false; v_contexts := [CxObjCMethod false false false false] |} None))] (Some (Node 13 [] (CompoundStmt [(Node 14 [] (ReturnStmt (Some (Node 15 $"BOOL" (ImplicitCastExpr CK_LValueToRValue (Node 16 $"BOOL" (DeclRefExpr 2 $"YES" false)))))))])))))])))];
     ts_locs := [(1,1,2,2); (3,1,3,21); (4,1,4,12); (4,12,4,12); (4,12,4,12); (6,1,9,2); (11,1,21,1); (13,1,15,1); (13,13,15,1); (14,5,14,12); (14,12,14,12); (17,1,19,1); (17,18,17,21); (17,25,19,1); (18,5,18,12); (18,12,18,12); (18,12,18,12)]%Z;
     ts_evals := []; ts_same := []; ts_decls := []; ts_parents := [] |}.
Example ObjCVerifyIsEqualHash_HashEqualMethod_holds : sorted_violations_of (shippedRule sh_ObjCVerifyIsEqualHash) ObjCVerifyIsEqualHash_HashEqualMethod = Some [].
Proof. vm_compute. reflexivity. Qed.

Definition ObjCVerifyIsEqualHash_HashMethod : testcase :=
  {| ts_lang := LObjC; ts_path := $"input.m"; ts_code := [];
     ts_comments := []; ts_conf := [];
     ts_tops := [(toplevel 0 (TOther), (Node 0 [] (ObjCContainerDecl {| oc_kind := OKInterface; oc_name := $"NSObject"; oc_lines := (2)%Z; oc_ivars := 0; oc_methods := []; oc_classes := [$"NSObject"]; oc_superMethods := None |} []))); (toplevel 1 (TOther), (Node 1 [] (ObjCContainerDecl {| oc_kind := OKInterface; oc_name := $"BaseObject"; oc_lines := (4)%Z; oc_ivars := 0; oc_methods := []; oc_classes := [$"BaseObject"; $"NSObject"]; oc_superMethods := (Some ($"NSObject", [])) |} []))); (toplevel 2 (TOther), (Node 2 [] (ObjCContainerDecl {| oc_kind := OKImplementation; oc_name := $"BaseObject"; oc_lines := (7)%Z; oc_ivars := 0; oc_methods := [($"hash", true)]; oc_classes := [$"BaseObject"; $"NSObject"]; oc_superMethods := (Some ($"NSObject", [])) |} [(Node 3 [] (ObjCMethodDecl {| om_selector := $"hash"; om_class := (Some $"BaseObject"); om_overriding := false; om_overridden := []; om_bodyLines := (3)%Z |} [] (Some (Node 4 [] (CompoundStmt [(Node 5 [] (ReturnStmt (Some (Node 6 $"int" (IntegerLiteral (0)%Z)))))])))))])))];
     ts_locs := [(1,1,2,2); (4,1,7,2); (9,1,15,1); (11,1,13,1); (11,13,13,1); (12,5,12,12); (12,12,12,12)]%Z;
     ts_evals := []; ts_same := []; ts_decls := []; ts_parents := [] |}.
Example ObjCVerifyIsEqualHash_HashMethod_holds : sorted_violations_of (shippedRule sh_ObjCVerifyIsEqualHash) ObjCVerifyIsEqualHash_HashMethod = Some [].
Proof. vm_compute. reflexivity. Qed.

Definition ObjCVerifyIsEqualHash_EqualMethod : testcase :=
  {| ts_lang := LObjC; ts_path := $"input.m"; ts_code := [];
     ts_comments := []; ts_conf := [];
     ts_tops := [(toplevel 0 (TOther), (Node 0 [] (ObjCContainerDecl {| oc_kind := OKInterface; oc_name := $"NSObject"; oc_lines := (2)%Z; oc_ivars := 0; oc_methods := []; oc_classes := [$"NSObject"]; oc_superMethods := None |} []))); (toplevel 1 (TOther), (Node 1 [] (OtherDecl []))); (toplevel 2 (TOther), (Node 2 [] (VarDecl {| v_isParm := false; v_name := $"YES"; v_used := true; v_referenced := true; v_local := false; v_staticMember := false; v_private := false; v_unusedAttr := false; v_defaultArg := false; v_canonicalType := $"signed char"; v_inTemplate := false; v_contexts := [] |} (Some (Node 3 $"BOOL" (ImplicitCastExpr CK_Other (Node 4 $"int" (IntegerLiteral (1)%Z)))))))); (toplevel 5 (TOther), (Node 5 [] (ObjCContainerDecl {| oc_kind := OKInterface; oc_name := $"BaseObject"; oc_lines := (4)%Z; oc_ivars := 0; oc_methods := []; oc_classes := [$"BaseObject"; $"NSObject"]; oc_superMethods := (Some ($"NSObject", [])) |} []))); (toplevel 6 (TOther), (Node 6 [] (ObjCContainerDecl {| oc_kind := OKImplementation; oc_name := $"BaseObject"; oc_lines := (7)%Z; oc_ivars := 0; oc_methods := [($"isEqual:", true)]; oc_classes := [$"BaseObject"; $"NSObject"]; oc_superMethods := (Some ($"NSObject", [])) |} [(Node 7 [] (ObjCMethodDecl {| om_selector := $"isEqual:"; om_class := (Some $"BaseObject"); om_overriding := false; om_overridden := []; om_bodyLines := (3)%Z |} [(Node 8 [] (VarDecl {| v_isParm := true; v_name := $"obj"; v_used := false; v_referenced := false; v_local := false; v_staticMember := false; v_private := false; v_unusedAttr := false; v_defaultArg := false; v_canonicalType := $"struct objc_object *"; v_inTemplate := false; v_contexts := [CxObjCMethod false false false false] |} None))] (Some (Node 9 [] (CompoundStmt [(Node 10 [] (ReturnStmt (Some (Node 11 $"BOOL" (ImplicitCastExpr CK_LValueToRValue (Node 12 $"BOOL" (DeclRefExpr 2 $"YES" false)))))))])))))])))];
     ts_locs := [(1,1,2,2); (3,1,3,21); (4,1,4,12); (4,12,4,12); (4,12,4,12); (6,1,9,2); (11,1,17,1); (13,1,15,1); (13,18,13,21); (13,25,15,1); (14,5,14,12); (14,12,14,12); (14,12,14,12)]%Z;
     ts_evals := []; ts_same := []; ts_decls := []; ts_parents := [] |}.
Example ObjCVerifyIsEqualHash_EqualMethod_holds : nth_violation (shippedRule sh_ObjCVerifyIsEqualHash) ObjCVerifyIsEqualHash_EqualMethod 0 = Some (11, 1, 17, 1, $"If you override isEqual you must override hash too.")%Z.
Proof. vm_compute. reflexivity. Qed.

(** ** oclint-rules/test/cocoa/ObjCVerifyMustCallSuperRuleTest.cpp *)

Definition ObjcVerifyMustCallSuper_AnnotationDoesCall : testcase :=
  {| ts_lang := LObjC; ts_path := $"input.m"; ts_code := [];
     ts_comments := []; ts_conf := [];
     ts_tops := [(toplevel 0 (TOther), (Node 0 [] (OtherDecl []))); (toplevel 1 (TOther), (Node 1 [] (ObjCContainerDecl {| oc_kind := OKInterface; oc_name := $"NSObject"; oc_lines := (2)%Z; oc_ivars := 0; oc_methods := []; oc_classes := [$"NSObject"]; oc_superMethods := None |} []))); (toplevel 2 (TOther), (Node 2 [] (ObjCContainerDecl {| oc_kind := OKInterface; oc_name := $"SomeBaseClass"; oc_lines := (6)%Z; oc_ivars := 0; oc_methods := [($"viewWillAppear:", true)]; oc_classes := [$"SomeBaseClass"; $"NSObject"]; oc_superMethods := (Some ($"NSObject", [])) |} [(Node 3 [] (ObjCMethodDecl {| om_selector := $"viewWillAppear:"; om_class := (Some $"SomeBaseClass"); om_overriding := false; om_overridden := []; om_bodyLines := (0)%Z |} [(Node 4 [] (VarDecl {| v_isParm := true; v_name := $"animated"; v_used := false; v_referenced := false; v_local := false; v_staticMember := false; v_private := false; v_unusedAttr := false; v_defaultArg := false; v_canonicalType := $"unsigned char"; v_inTemplate := false; v_contexts := [CxObjCMethod true false false false; CxOther] |} None))] None))]))); (toplevel 5 (TOther), (Node 5 [] (ObjCContainerDecl {| oc_kind := OKInterface; oc_name := $"ChildViewController"; oc_lines := (3)%Z; oc_ivars := 0; oc_methods := []; oc_classes := [$"ChildViewController"; $"SomeBaseClass"; $"NSObject"]; oc_superMethods := (Some ($"SomeBaseClass", [($"viewWillAppear:", true, (Decl [$"oclint:enforce[base method]"] (Some (Method false None (InOther (Some NoCategory))))))])) |} []))); (toplevel 6 (TOther), (Node 6 [] (ObjCContainerDecl {| oc_kind := OKImplementation; oc_name := $"ChildViewController"; oc_lines := (7)%Z; oc_ivars := 0; oc_methods := [($"viewWillAppear:", true)]; oc_classes := [$"ChildViewController"; $"SomeBaseClass"; $"NSObject"]; oc_superMethods := (Some ($"SomeBaseClass", [($"viewWillAppear:", true, (Decl [$"oclint:enforce[base method]"] (Some (Method false None (InOther (Some NoCategory))))))])) |} [(Node 7 [] (ObjCMethodDecl {| om_selector := $"viewWillAppear:"; om_class := (Some $"ChildViewController"); om_overriding := true; om_overridden := [(Decl [$"oclint:enforce[base method]"] (Some (Method false None (InOther (Some NoCategory)))))]; om_bodyLines := (3)%Z |} [(Node 8 [] (VarDecl {| v_isParm := true; v_name := $"animated"; v_used := true; v_referenced := true; v_local := false; v_staticMember := false; v_private := false; v_unusedAttr := false; v_defaultArg := false; v_canonicalType := $"unsigned char"; v_inTemplate := false; v_contexts := [CxObjCMethod false true false false] |} None))] (Some (Node 9 [] (CompoundStmt [(Node 10 $"void" (ObjCMessageExpr {| ms_selector := $"viewWillAppear:"; ms_receiver := RSuperInstance; ms_implicit := false; ms_interface := (Some $"SomeBaseClass"); ms_method := (Some (Decl [$"oclint:enforce[base method]"] (Some (Method false None (InOther (Some NoCategory)))))); ms_methodClass := (Some $"SomeBaseClass") |} None [(Node 11 $"BOOL" (ImplicitCastExpr CK_LValueToRValue (Node 12 $"BOOL" (DeclRefExpr 8 $"animated" false))))]))])))))])))];
     ts_locs := [(1,1,1,23); (2,1,3,2); (5,1,10,2); (7,1,8,57); (7,25,7,30); (13,1,15,2); (17,1,23,1); (19,1,21,1); (19,25,19,30); (19,39,21,1); (20,5,20,35); (20,27,20,27); (20,27,20,27)]%Z;
     ts_evals := []; ts_same := []; ts_decls := [(3, (Decl [$"oclint:enforce[base method]"] (Some (Method false None (InOther (Some NoCategory)))))); (7, (Decl [] (Some (Method false None (InOther (Some NoCategory))))))]; ts_parents := [(None, true); (None, true); (None, true); ((Some 2), true); ((Some 3), true); (None, true); (None, true); ((Some 6), true); ((Some 7), true); ((Some 7), false); ((Some 9), false); ((Some 10), false); ((Some 11), false)] |}.
Example ObjcVerifyMustCallSuper_AnnotationDoesCall_holds : sorted_violations_of (shippedRule sh_ObjCVerifyMustCallSuper) ObjcVerifyMustCallSuper_AnnotationDoesCall = Some [].
Proof. vm_compute. reflexivity. Qed.

Definition ObjcVerifyMustCallSuper_AnnotationDoesNotCall : testcase :=
  {| ts_lang := LObjC; ts_path := $"input.m"; ts_code := [];
     ts_comments := []; ts_conf := [];
     ts_tops := [(toplevel 0 (TOther), (Node 0 [] (OtherDecl []))); (toplevel 1 (TOther), (Node 1 [] (ObjCContainerDecl {| oc_kind := OKInterface; oc_name := $"NSObject"; oc_lines := (2)%Z; oc_ivars := 0; oc_methods := []; oc_classes := [$"NSObject"]; oc_superMethods := None |} []))); (toplevel 2 (TOther), (Node 2 [] (ObjCContainerDecl {| oc_kind := OKInterface; oc_name := $"SomeBaseClass"; oc_lines := (6)%Z; oc_ivars := 0; oc_methods := [($"viewWillAppear:", true)]; oc_classes := [$"SomeBaseClass"; $"NSObject"]; oc_superMethods := (Some ($"NSObject", [])) |} [(Node 3 [] (ObjCMethodDecl {| om_selector := $"viewWillAppear:"; om_class := (Some $"SomeBaseClass"); om_overriding := false; om_overridden := []; om_bodyLines := (0)%Z |} [(Node 4 [] (VarDecl {| v_isParm := true; v_name := $"animated"; v_used := false; v_referenced := false; v_local := false; v_staticMember := false; v_private := false; v_unusedAttr := false; v_defaultArg := false; v_canonicalType := $"unsigned char"; v_inTemplate := false; v_contexts := [CxObjCMethod true false false false; CxOther] |} None))] None))]))); (toplevel 5 (TOther), (Node 5 [] (ObjCContainerDecl {| oc_kind := OKInterface; oc_name := $"ChildViewController"; oc_lines := (3)%Z; oc_ivars := 0; oc_methods := []; oc_classes := [$"ChildViewController"; $"SomeBaseClass"; $"NSObject"]; oc_superMethods := (Some ($"SomeBaseClass", [($"viewWillAppear:", true, (Decl [$"oclint:enforce[base method]"] (Some (Method false None (InOther (Some NoCategory))))))])) |} []))); (toplevel 6 (TOther), (Node 6 [] (ObjCContainerDecl {| oc_kind := OKImplementation; oc_name := $"ChildViewController"; oc_lines := (6)%Z; oc_ivars := 0; oc_methods := [($"viewWillAppear:", true)]; oc_classes := [$"ChildViewController"; $"SomeBaseClass"; $"NSObject"]; oc_superMethods := (Some ($"SomeBaseClass", [($"viewWillAppear:", true, (Decl [$"oclint:enforce[base method]"] (Some (Method false None (InOther (Some NoCategory))))))])) |} [(Node 7 [] (ObjCMethodDecl {| om_selector := $"viewWillAppear:"; om_class := (Some $"ChildViewController"); om_overriding := true; om_overridden := [(Decl [$"oclint:enforce[base method]"] (Some (Method false None (InOther (Some NoCategory)))))]; om_bodyLines := (2)%Z |} [(Node 8 [] (VarDecl {| v_isParm := true; v_name := $"animated"; v_used := false; v_referenced := false; v_local := false; v_staticMember := false; v_private := false; v_unusedAttr := false; v_defaultArg := false; v_canonicalType := $"unsigned char"; v_inTemplate := false; v_contexts := [CxObjCMethod false true false false] |} None))] (Some (Node 9 [] (CompoundStmt [])))))])))];
     ts_locs := [(1,1,1,23); (2,1,3,2); (5,1,10,2); (7,1,8,57); (7,25,7,30); (13,1,15,2); (17,1,22,1); (19,1,20,1); (19,25,19,30); (19,39,20,1)]%Z;
     ts_evals := []; ts_same := []; ts_decls := [(3, (Decl [$"oclint:enforce[base method]"] (Some (Method false None (InOther (Some NoCategory)))))); (7, (Decl [] (Some (Method false None (InOther (Some NoCategory))))))]; ts_parents := [(None, true); (None, true); (None, true); ((Some 2), true); ((Some 3), true); (None, true); (None, true); ((Some 6), true); ((Some 7), true); ((Some 7), false)] |}.
Example ObjcVerifyMustCallSuper_AnnotationDoesNotCall_holds : nth_violation (shippedRule sh_ObjCVerifyMustCallSuper) ObjcVerifyMustCallSuper_AnnotationDoesNotCall 0 = Some (19, 1, 20, 1, $"overridden method viewWillAppear: must call super")%Z.
Proof. vm_compute. reflexivity. Qed.

Definition ObjcVerifyMustCallSuper_AnnotationSuppression : testcase :=
  {| ts_lang := LObjC; ts_path := $"input.m"; ts_code := [];
     ts_comments := []; ts_conf := [];
     ts_tops := [(toplevel 0 (TOther), (Node 0 [] (OtherDecl []))); (toplevel 1 (TOther), (Node 1 [] (ObjCContainerDecl {| oc_kind := OKInterface; oc_name := $"NSObject"; oc_lines := (2)%Z; oc_ivars := 0; oc_methods := []; oc_classes := [$"NSObject"]; oc_superMethods := None |} []))); (toplevel 2 (TOther), (Node 2 [] (ObjCContainerDecl {| oc_kind := OKInterface; oc_name := $"SomeBaseClass"; oc_lines := (6)%Z; oc_ivars := 0; oc_methods := [($"viewWillAppear:", true)]; oc_classes := [$"SomeBaseClass"; $"NSObject"]; oc_superMethods := (Some ($"NSObject", [])) |} [(Node 3 [] (ObjCMethodDecl {| om_selector := $"viewWillAppear:"; om_class := (Some $"SomeBaseClass"); om_overriding := false; om_overridden := []; om_bodyLines := (0)%Z |} [(Node 4 [] (VarDecl {| v_isParm := true; v_name := $"animated"; v_used := false; v_referenced := false; v_local := false; v_staticMember := false; v_private := false; v_unusedAttr := false; v_defaultArg := false; v_canonicalType := $"unsigned char"; v_inTemplate := false; v_contexts := [CxObjCMethod true false false false; CxOther] |} None))] None))]))); (toplevel 5 (TOther), (Node 5 [] (ObjCContainerDecl {| oc_kind := OKInterface; oc_name := $"ChildViewController"; oc_lines := (3)%Z; oc_ivars := 0; oc_methods := []; oc_classes := [$"ChildViewController"; $"SomeBaseClass"; $"NSObject"]; oc_superMethods := (Some ($"SomeBaseClass", [($"viewWillAppear:", true, (Decl [$"oclint:enforce[base method]"] (Some (Method false None (InOther (Some NoCategory))))))])) |} []))); (toplevel 6 (TOther), (Node 6 [] (ObjCContainerDecl {| oc_kind := OKImplementation; oc_name := $"ChildViewController"; oc_lines := (7)%Z; oc_ivars := 0; oc_methods := [($"viewWillAppear:", true)]; oc_classes := [$"ChildViewController"; $"SomeBaseClass"; $"NSObject"]; oc_superMethods := (Some ($"SomeBaseClass", [($"viewWillAppear:", true, (Decl [$"oclint:enforce[base method]"] (Some (Method false None (InOther (Some NoCategory))))))])) |} [(Node 7 [] (ObjCMethodDecl {| om_selector := $"viewWillAppear:"; om_class := (Some $"ChildViewController"); om_overriding := true; om_overridden := [(Decl [$"oclint:enforce[base method]"] (Some (Method false None (InOther (Some NoCategory)))))]; om_bodyLines := (2)%Z |} [(Node 8 [] (VarDecl {| v_isParm := true; v_name := $"animated"; v_used := false; v_referenced := false; v_local := false; v_staticMember := false; v_private := false; v_unusedAttr := false; v_defaultArg := false; v_canonicalType := $"unsigned char"; v_inTemplate := false; v_contexts := [CxObjCMethod false true false false] |} None))] (Some (Node 9 [] (CompoundStmt [])))))])))];
     ts_locs := [(1,1,1,23); (2,1,3,2); (5,1,10,2); (7,1,8,57); (7,25,7,30); (13,1,15,2); (16,1,22,1); (18,1,20,1); (18,25,18,30); (19,63,20,1)]%Z;
     ts_evals := []; ts_same := []; ts_decls := [(3, (Decl [$"oclint:enforce[base method]"] (Some (Method false None (InOther (Some NoCategory)))))); (7, (Decl [$"oclint:suppress[base method]"] (Some (Method false None (InOther (Some NoCategory))))))]; ts_parents := [(None, true); (None, true); (None, true); ((Some 2), true); ((Some 3), true); (None, true); (None, true); ((Some 6), true); ((Some 7), true); ((Some 7), false)] |}.
Example ObjcVerifyMustCallSuper_AnnotationSuppression_holds : sorted_violations_of (shippedRule sh_ObjCVerifyMustCallSuper) ObjcVerifyMustCallSuper_AnnotationSuppression = Some [].
Proof. vm_compute. reflexivity. Qed.

Definition ObjcVerifyMustCallSuper_NormalMethod : testcase :=
  {| ts_lang := LObjC; ts_path := $"input.m"; ts_code := [];
     ts_comments := []; ts_conf := [];
     ts_tops := [(toplevel 0 (TOther), (Node 0 [] (ObjCContainerDecl {| oc_kind := OKInterface; oc_name := $"NSObject"; oc_lines := (2)%Z; oc_ivars := 0; oc_methods := []; oc_classes := [$"NSObject"]; oc_superMethods := None |} []))); (toplevel 1 (TOther), (Node 1 [] (ObjCContainerDecl {| oc_kind := OKInterface; oc_name := $"ControllerBase"; oc_lines := (5)%Z; oc_ivars := 0; oc_methods := [($"someMethod", true)]; oc_classes := [$"ControllerBase"; $"NSObject"]; oc_superMethods := (Some ($"NSObject", [])) |} [(Node 2 [] (ObjCMethodDecl {| om_selector := $"someMethod"; om_class := (Some $"ControllerBase"); om_overriding := false; om_overridden := []; om_bodyLines := (0)%Z |} [] None))]))); (toplevel 3 (TOther), (Node 3 [] (ObjCContainerDecl {| oc_kind := OKImplementation; oc_name := $"ControllerBase"; oc_lines := (6)%Z; oc_ivars := 0; oc_methods := [($"someMethod", true)]; oc_classes := [$"ControllerBase"; $"NSObject"]; oc_superMethods := (Some ($"NSObject", [])) |} [(Node 4 [] (ObjCMethodDecl {| om_selector := $"someMethod"; om_class := (Some $"ControllerBase"); om_overriding := false; om_overridden := []; om_bodyLines := (2)%Z |} [] (Some (Node 5 [] (CompoundStmt [])))))]))); (toplevel 6 (TOther), (Node 6 [] (ObjCContainerDecl {| oc_kind := OKInterface; oc_name := $"ChildViewController"; oc_lines := (3)%Z; oc_ivars := 0; oc_methods := []; oc_classes := [$"ChildViewController"; $"ControllerBase"; $"NSObject"]; oc_superMethods := (Some ($"ControllerBase", [($"someMethod", true, (Decl [] (Some (Method false None (InOther (Some NoCategory))))))])) |} []))); (toplevel 7 (TOther), (Node 7 [] (ObjCContainerDecl {| oc_kind := OKImplementation; oc_name := $"ChildViewController"; oc_lines := (5)%Z; oc_ivars := 0; oc_methods := [($"anotherMethod", true)]; oc_classes := [$"ChildViewController"; $"ControllerBase"; $"NSObject"]; oc_superMethods := (Some ($"ControllerBase", [($"someMethod", true, (Decl [] (Some (Method false None (InOther (Some NoCategory))))))])) |} [(Node 8 [] (ObjCMethodDecl {| om_selector := $"anotherMethod"; om_class := (Some $"ChildViewController"); om_overriding := false; om_overridden := []; om_bodyLines := (2)%Z |} [] (Some (Node 9 [] (CompoundStmt [])))))])))];
     ts_locs := [(1,1,2,2); (4,1,8,2); (6,1,6,19); (10,1,15,1); (12,1,13,1); (12,20,13,1); (17,1,19,2); (21,1,25,1); (23,1,24,1); (23,23,24,1)]%Z;
     ts_evals := []; ts_same := []; ts_decls := []; ts_parents := [] |}.
Example ObjcVerifyMustCallSuper_NormalMethod_holds : sorted_violations_of (shippedRule sh_ObjCVerifyMustCallSuper) ObjcVerifyMustCallSuper_NormalMethod = Some [].
Proof. vm_compute. reflexivity. Qed.

(** ** oclint-rules/test/cocoa/ObjCVerifyProhibitedCallRuleTest.cpp *)

Definition ObjCVerifyProhibitedCallRule_OutsideCallerTest : testcase :=
  {| ts_lang := LObjC; ts_path := $"input.m"; ts_code := [];
     ts_comments := []; ts_conf := [];
     ts_tops := [(toplevel 0 (TOther), (Node 0 [] (ObjCContainerDecl {| oc_kind := OKInterface; oc_name := $"NSObject"; oc_lines := (3)%Z; oc_ivars := 0; oc_methods := []; oc_classes := [$"NSObject"]; oc_superMethods := None |} []))); (toplevel 1 (TOther), (Node 1 [] (ObjCContainerDecl {| oc_kind := OKInterface; oc_name := $"A"; oc_lines := (3)%Z; oc_ivars := 0; oc_methods := [($"foo", true)]; oc_classes := [$"A"; $"NSObject"]; oc_superMethods := (Some ($"NSObject", [])) |} [(Node 2 [] (ObjCMethodDecl {| om_selector := $"foo"; om_class := (Some $"A"); om_overriding := false; om_overridden := []; om_bodyLines := (0)%Z |} [] None))]))); (toplevel 3 (TOther), (Node 3 [] (ObjCContainerDecl {| oc_kind := OKInterface; oc_name := $"B"; oc_lines := (3)%Z; oc_ivars := 0; oc_methods := [($"a", true); ($"setA:", true)]; oc_classes := [$"B"; $"NSObject"]; oc_superMethods := (Some ($"NSObject", [])) |} [(Node 4 [] (OtherDecl []))]))); (toplevel 5 (TOther), (Node 5 [] (ObjCContainerDecl {| oc_kind := OKImplementation; oc_name := $"B"; oc_lines := (5)%Z; oc_ivars := 0; oc_methods := [($"bar", true)]; oc_classes := [$"B"; $"NSObject"]; oc_superMethods := (Some ($"NSObject", [])) |} [(Node 6 [] (ObjCMethodDecl {| om_selector := $"bar"; om_class := (Some $"B"); om_overriding := false; om_overridden := []; om_bodyLines := (3)%Z |} [] (Some (Node 7 [] (CompoundStmt [(Node 8 $"void" (ObjCMessageExpr {| ms_selector := $"foo"; ms_receiver := RInstance; ms_implicit := false; ms_interface := (Some $"A"); ms_method := (Some (Decl [$"oclint:enforce[prohibited method]"] (Some (Method false None (InOther (Some NoCategory)))))); ms_methodClass := (Some $"A") |} (Some (Node 9 $"A *" (OtherExpr [(Node 10 $"A *" (ObjCPropertyRefExpr false (Some $"B") (Some $"B") (Some (Node 11 $"B *" (OtherExpr []))))); (Node 12 $"B *" (ImplicitCastExpr CK_LValueToRValue (Node 13 $"B *" (DeclRefExpr 1014 $"self" false)))); (Node 14 $"A *" (ObjCMessageExpr {| ms_selector := $"a"; ms_receiver := RInstance; ms_implicit := true; ms_interface := (Some $"B"); ms_method := (Some (Decl [] (Some (Method true (Some []) (InOther (Some NoCategory)))))); ms_methodClass := (Some $"B") |} (Some (Node 15 $"B *" (OtherExpr []))) []))]))) []))])))))])))];
     ts_locs := [(2,1,4,2); (6,1,8,2); (7,1,7,75); (10,1,12,2); (11,1,11,34); (14,5,18,5); (15,5,17,5); (15,17,17,5); (16,9,16,20); (16,10,16,15); (16,10,16,15); (16,10,16,10); (16,10,16,10); (16,10,16,10); (16,15,16,15); (16,10,16,10)]%Z;
     ts_evals := []; ts_same := []; ts_decls := [(2, (Decl [$"oclint:enforce[prohibited method]"] (Some (Method false None (InOther (Some NoCategory)))))); (6, (Decl [] (Some (Method false None (InOther (Some NoCategory))))))]; ts_parents := [(None, true); (None, true); ((Some 1), true); (None, true); ((Some 3), true); (None, true); ((Some 5), true); ((Some 6), false); ((Some 7), false); ((Some 8), false); ((Some 9), false); ((Some 10), false); ((Some 9), false); ((Some 12), false); ((Some 9), false); ((Some 14), false)] |}.
Example ObjCVerifyProhibitedCallRule_OutsideCallerTest_holds : nth_violation (shippedRule sh_ObjCVerifyProhibitedCall) ObjCVerifyProhibitedCallRule_OutsideCallerTest 0 = Some (16, 9, 16, 20, $"calling prohibited method foo")%Z.
Proof. vm_compute. reflexivity. Qed.

Definition ObjCVerifyProhibitedCallRule_InsideClassTest : testcase :=
  {| ts_lang := LObjC; ts_path := $"input.m"; ts_code := [];
     ts_comments := []; ts_conf := [];
     ts_tops := [(toplevel 0 (TOther), (Node 0 [] (ObjCContainerDecl {| oc_kind := OKInterface; oc_name := $"NSObject"; oc_lines := (3)%Z; oc_ivars := 0; oc_methods := []; oc_classes := [$"NSObject"]; oc_superMethods := None |} []))); (toplevel 1 (TOther), (Node 1 [] (ObjCContainerDecl {| oc_kind := OKInterface; oc_name := $"A"; oc_lines := (3)%Z; oc_ivars := 0; oc_methods := [($"foo", true)]; oc_classes := [$"A"; $"NSObject"]; oc_superMethods := (Some ($"NSObject", [])) |} [(Node 2 [] (ObjCMethodDecl {| om_selector := $"foo"; om_class := (Some $"A"); om_overriding := false; om_overridden := []; om_bodyLines := (0)%Z |} [] None))]))); (toplevel 3 (TOther), (Node 3 [] (ObjCContainerDecl {| oc_kind := OKInterface; oc_name := $"B"; oc_lines := (3)%Z; oc_ivars := 0; oc_methods := [($"a", true); ($"setA:", true)]; oc_classes := [$"B"; $"NSObject"]; oc_superMethods := (Some ($"NSObject", [])) |} [(Node 4 [] (OtherDecl []))]))); (toplevel 5 (TOther), (Node 5 [] (ObjCContainerDecl {| oc_kind := OKImplementation; oc_name := $"A"; oc_lines := (7)%Z; oc_ivars := 0; oc_methods := [($"foo", true); ($"bar", true)]; oc_classes := [$"A"; $"NSObject"]; oc_superMethods := (Some ($"NSObject", [])) |} [(Node 6 [] (ObjCMethodDecl {| om_selector := $"foo"; om_class := (Some $"A"); om_overriding := false; om_overridden := []; om_bodyLines := (2)%Z |} [] (Some (Node 7 [] (CompoundStmt []))))); (Node 8 [] (ObjCMethodDecl {| om_selector := $"bar"; om_class := (Some $"A"); om_overriding := false; om_overridden := []; om_bodyLines := (3)%Z |} [] (Some (Node 9 [] (CompoundStmt [(Node 10 $"void" (ObjCMessageExpr {| ms_selector := $"foo"; ms_receiver := RInstance; ms_implicit := false; ms_interface := (Some $"A"); ms_method := (Some (Decl [$"oclint:enforce[prohibited method]"] (Some (Method false None (InOther (Some NoCategory)))))); ms_methodClass := (Some $"A") |} (Some (Node 11 $"A *" (ImplicitCastExpr CK_LValueToRValue (Node 12 $"A *" (DeclRefExpr 1011 $"self" false))))) []))])))))])))];
     ts_locs := [(2,1,4,2); (6,1,8,2); (7,1,7,75); (10,1,12,2); (11,1,11,34); (14,5,20,5); (15,5,16,5); (15,17,16,5); (17,5,19,5); (17,17,19,5); (18,9,18,18); (18,10,18,10); (18,10,18,10)]%Z;
     ts_evals := []; ts_same := []; ts_decls := [(2, (Decl [$"oclint:enforce[prohibited method]"] (Some (Method false None (InOther (Some NoCategory)))))); (6, (Decl [$"oclint:enforce[prohibited method]"] (Some (Method false None (InOther (Some NoCategory)))))); (8, (Decl [] (Some (Method false None (InOther (Some NoCategory))))))]; ts_parents := [(None, true); (None, true); ((Some 1), true); (None, true); ((Some 3), true); (None, true); ((Some 5), true); ((Some 6), false); ((Some 5), true); ((Some 8), false); ((Some 9), false); ((Some 10), false); ((Some 11), false)] |}.
Example ObjCVerifyProhibitedCallRule_InsideClassTest_holds : nth_violation (shippedRule sh_ObjCVerifyProhibitedCall) ObjCVerifyProhibitedCallRule_InsideClassTest 0 = Some (18, 9, 18, 18, $"calling prohibited method foo")%Z.
Proof. vm_compute. reflexivity. Qed.

Definition ObjCVerifyProhibitedCallRule_InsideChildTest : testcase :=
  {| ts_lang := LObjC; ts_path := $"input.m"; ts_code := [];
     ts_comments := []; ts_conf := [];
     ts_tops := [(toplevel 0 (TOther), (Node 0 [] (ObjCContainerDecl {| oc_kind := OKInterface; oc_name := $"NSObject"; oc_lines := (3)%Z; oc_ivars := 0; oc_methods := []; oc_classes := [$"NSObject"]; oc_superMethods := None |} []))); (toplevel 1 (TOther), (Node 1 [] (ObjCContainerDecl {| oc_kind := OKInterface; oc_name := $"A"; oc_lines := (3)%Z; oc_ivars := 0; oc_methods := [($"foo", true)]; oc_classes := [$"A"; $"NSObject"]; oc_superMethods := (Some ($"NSObject", [])) |} [(Node 2 [] (ObjCMethodDecl {| om_selector := $"foo"; om_class := (Some $"A"); om_overriding := false; om_overridden := []; om_bodyLines := (0)%Z |} [] None))]))); (toplevel 3 (TOther), (Node 3 [] (ObjCContainerDecl {| oc_kind := OKInterface; oc_name := $"B"; oc_lines := (3)%Z; oc_ivars := 0; oc_methods := [($"a", true); ($"setA:", true)]; oc_classes := [$"B"; $"NSObject"]; oc_superMethods := (Some ($"NSObject", [])) |} [(Node 4 [] (OtherDecl []))]))); (toplevel 5 (TOther), (Node 5 [] (ObjCContainerDecl {| oc_kind := OKInterface; oc_name := $"C"; oc_lines := (2)%Z; oc_ivars := 0; oc_methods := []; oc_classes := [$"C"; $"A"; $"NSObject"]; oc_superMethods := (Some ($"A", [($"foo", true, (Decl [$"oclint:enforce[prohibited method]"] (Some (Method false None (InOther (Some NoCategory))))))])) |} []))); (toplevel 6 (TOther), (Node 6 [] (ObjCContainerDecl {| oc_kind := OKImplementation; oc_name := $"C"; oc_lines := (7)%Z; oc_ivars := 0; oc_methods := [($"foo", true); ($"bar", true)]; oc_classes := [$"C"; $"A"; $"NSObject"]; oc_superMethods := (Some ($"A", [($"foo", true, (Decl [$"oclint:enforce[prohibited method]"] (Some (Method false None (InOther (Some NoCategory))))))])) |} [(Node 7 [] (ObjCMethodDecl {| om_selector := $"foo"; om_class := (Some $"C"); om_overriding := true; om_overridden := [(Decl [$"oclint:enforce[prohibited method]"] (Some (Method false None (InOther (Some NoCategory)))))]; om_bodyLines := (2)%Z |} [] (Some (Node 8 [] (CompoundStmt []))))); (Node 9 [] (ObjCMethodDecl {| om_selector := $"bar"; om_class := (Some $"C"); om_overriding := false; om_overridden := []; om_bodyLines := (3)%Z |} [] (Some (Node 10 [] (CompoundStmt [(Node 11 $"void" (ObjCMessageExpr {| ms_selector := $"foo"; ms_receiver := RInstance; ms_implicit := false; ms_interface := (Some $"C"); ms_method := (Some (Decl [$"oclint:enforce[prohibited method]"] (Some (Method false None (InOther (Some NoCategory)))))); ms_methodClass := (Some $"A") |} (Some (Node 12 $"C *" (ImplicitCastExpr CK_LValueToRValue (Node 13 $"C *" (DeclRefExpr 1012 $"self" false))))) []))])))))])))];
     ts_locs := [(2,1,4,2); (6,1,8,2); (7,1,7,75); (10,1,12,2); (11,1,11,34); (14,5,15,6); (17,5,23,5); (18,5,19,5); (18,17,19,5); (20,5,22,5); (20,17,22,5); (21,9,21,18); (21,10,21,10); (21,10,21,10)]%Z;
     ts_evals := []; ts_same := []; ts_decls := [(2, (Decl [$"oclint:enforce[prohibited method]"] (Some (Method false None (InOther (Some NoCategory)))))); (7, (Decl [] (Some (Method false None (InOther (Some NoCategory)))))); (9, (Decl [] (Some (Method false None (InOther (Some NoCategory))))))]; ts_parents := [(None, true); (None, true); ((Some 1), true); (None, true); ((Some 3), true); (None, true); (None, true); ((Some 6), true); ((Some 7), false); ((Some 6), true); ((Some 9), false); ((Some 10), false); ((Some 11), false); ((Some 12), false)] |}.
Example ObjCVerifyProhibitedCallRule_InsideChildTest_holds : nth_violation (shippedRule sh_ObjCVerifyProhibitedCall) ObjCVerifyProhibitedCallRule_InsideChildTest 0 = Some (21, 9, 21, 18, $"calling prohibited method foo")%Z.
Proof. vm_compute. reflexivity. Qed.

Definition ObjCVerifyProhibitedCallRule_InheritedMarkerTest : testcase :=
  {| ts_lang := LObjC; ts_path := $"input.m"; ts_code := [];
     ts_comments := []; ts_conf := [];
     ts_tops := [(toplevel 0 (TOther), (Node 0 [] (ObjCContainerDecl {| oc_kind := OKInterface; oc_name := $"NSObject"; oc_lines := (3)%Z; oc_ivars := 0; oc_methods := []; oc_classes := [$"NSObject"]; oc_superMethods := None |} []))); (toplevel 1 (TOther), (Node 1 [] (ObjCContainerDecl {| oc_kind := OKInterface; oc_name := $"A"; oc_lines := (3)%Z; oc_ivars := 0; oc_methods := [($"foo", true)]; oc_classes := [$"A"; $"NSObject"]; oc_superMethods := (Some ($"NSObject", [])) |} [(Node 2 [] (ObjCMethodDecl {| om_selector := $"foo"; om_class := (Some $"A"); om_overriding := false; om_overridden := []; om_bodyLines := (0)%Z |} [] None))]))); (toplevel 3 (TOther), (Node 3 [] (ObjCContainerDecl {| oc_kind := OKInterface; oc_name := $"B"; oc_lines := (3)%Z; oc_ivars := 0; oc_methods := [($"a", true); ($"setA:", true)]; oc_classes := [$"B"; $"NSObject"]; oc_superMethods := (Some ($"NSObject", [])) |} [(Node 4 [] (OtherDecl []))]))); (toplevel 5 (TOther), (Node 5 [] (ObjCContainerDecl {| oc_kind := OKInterface; oc_name := $"C"; oc_lines := (2)%Z; oc_ivars := 0; oc_methods := []; oc_classes := [$"C"; $"A"; $"NSObject"]; oc_superMethods := (Some ($"A", [($"foo", true, (Decl [$"oclint:enforce[prohibited method]"] (Some (Method false None (InOther (Some NoCategory))))))])) |} []))); (toplevel 6 (TOther), (Node 6 [] (ObjCContainerDecl {| oc_kind := OKInterface; oc_name := $"D"; oc_lines := (3)%Z; oc_ivars := 0; oc_methods := [($"c", true); ($"setC:", true)]; oc_classes := [$"D"; $"NSObject"]; oc_superMethods := (Some ($"NSObject", [])) |} [(Node 7 [] (OtherDecl []))]))); (toplevel 8 (TOther), (Node 8 [] (ObjCContainerDecl {| oc_kind := OKImplementation; oc_name := $"D"; oc_lines := (5)%Z; oc_ivars := 0; oc_methods := [($"bar", true)]; oc_classes := [$"D"; $"NSObject"]; oc_superMethods := (Some ($"NSObject", [])) |} [(Node 9 [] (ObjCMethodDecl {| om_selector := $"bar"; om_class := (Some $"D"); om_overriding := false; om_overridden := []; om_bodyLines := (3)%Z |} [] (Some (Node 10 [] (CompoundStmt [(Node 11 $"void" (ObjCMessageExpr {| ms_selector := $"foo"; ms_receiver := RInstance; ms_implicit := false; ms_interface := (Some $"C"); ms_method := (Some (Decl [$"oclint:enforce[prohibited method]"] (Some (Method false None (InOther (Some NoCategory)))))); ms_methodClass := (Some $"A") |} (Some (Node 12 $"C *" (OtherExpr [(Node 13 $"C *" (ObjCPropertyRefExpr false (Some $"D") (Some $"D") (Some (Node 14 $"D *" (OtherExpr []))))); (Node 15 $"D *" (ImplicitCastExpr CK_LValueToRValue (Node 16 $"D *" (DeclRefExpr 1017 $"self" false)))); (Node 17 $"C *" (ObjCMessageExpr {| ms_selector := $"c"; ms_receiver := RInstance; ms_implicit := true; ms_interface := (Some $"D"); ms_method := (Some (Decl [] (Some (Method true (Some []) (InOther (Some NoCategory)))))); ms_methodClass := (Some $"D") |} (Some (Node 18 $"D *" (OtherExpr []))) []))]))) []))])))))])))];
     ts_locs := [(2,1,4,2); (6,1,8,2); (7,1,7,75); (10,1,12,2); (11,1,11,34); (14,5,15,6); (16,5,18,6); (17,5,17,27); (19,5,23,5); (20,5,22,5); (20,17,22,5); (21,9,21,20); (21,10,21,15); (21,10,21,15); (21,10,21,10); (21,10,21,10); (21,10,21,10); (21,15,21,15); (21,10,21,10)]%Z;
     ts_evals := []; ts_same := []; ts_decls := [(2, (Decl [$"oclint:enforce[prohibited method]"] (Some (Method false None (InOther (Some NoCategory)))))); (9, (Decl [] (Some (Method false None (InOther (Some NoCategory))))))]; ts_parents := [(None, true); (None, true); ((Some 1), true); (None, true); ((Some 3), true); (None, true); (None, true); ((Some 6), true); (None, true); ((Some 8), true); ((Some 9), false); ((Some 10), false); ((Some 11), false); ((Some 12), false); ((Some 13), false); ((Some 12), false); ((Some 15), false); ((Some 12), false); ((Some 17), false)] |}.
Example ObjCVerifyProhibitedCallRule_InheritedMarkerTest_holds : nth_violation (shippedRule sh_ObjCVerifyProhibitedCall) ObjCVerifyProhibitedCallRule_InheritedMarkerTest 0 = Some (21, 9, 21, 20, $"calling prohibited method foo")%Z.
Proof. vm_compute. reflexivity. Qed.

Definition ObjCVerifyProhibitedCallRule_ProtectedPropertyGetterOutside : testcase :=
  {| ts_lang := LObjC; ts_path := $"input.m"; ts_code := [];
     ts_comments := []; ts_conf := [];
     ts_tops := [(toplevel 0 (TOther), (Node 0 [] (ObjCContainerDecl {| oc_kind := OKInterface; oc_name := $"NSObject"; oc_lines := (3)%Z; oc_ivars := 0; oc_methods := []; oc_classes := [$"NSObject"]; oc_superMethods := None |} []))); (toplevel 1 (TOther), (Node 1 [] (ObjCContainerDecl {| oc_kind := OKInterface; oc_name := $"A"; oc_lines := (3)%Z; oc_ivars := 0; oc_methods := [($"foo", true)]; oc_classes := [$"A"; $"NSObject"]; oc_superMethods := (Some ($"NSObject", [])) |} [(Node 2 [] (ObjCMethodDecl {| om_selector := $"foo"; om_class := (Some $"A"); om_overriding := false; om_overridden := []; om_bodyLines := (0)%Z |} [] None))]))); (toplevel 3 (TOther), (Node 3 [] (ObjCContainerDecl {| oc_kind := OKInterface; oc_name := $"B"; oc_lines := (3)%Z; oc_ivars := 0; oc_methods := [($"a", true); ($"setA:", true)]; oc_classes := [$"B"; $"NSObject"]; oc_superMethods := (Some ($"NSObject", [])) |} [(Node 4 [] (OtherDecl []))]))); (toplevel 5 (TOther), (Node 5 [] (ObjCContainerDecl {| oc_kind := OKInterface; oc_name := $"C"; oc_lines := (4)%Z; oc_ivars := 0; oc_methods := [($"a", true); ($"setA:", true)]; oc_classes := [$"C"; $"NSObject"]; oc_superMethods := (Some ($"NSObject", [])) |} [(Node 6 [] (OtherDecl []))]))); (toplevel 7 (TOther), (Node 7 [] (ObjCContainerDecl {| oc_kind := OKInterface; oc_name := $"D"; oc_lines := (3)%Z; oc_ivars := 0; oc_methods := [($"c", true); ($"setC:", true)]; oc_classes := [$"D"; $"NSObject"]; oc_superMethods := (Some ($"NSObject", [])) |} [(Node 8 [] (OtherDecl []))]))); (toplevel 9 (TOther), (Node 9 [] (ObjCContainerDecl {| oc_kind := OKImplementation; oc_name := $"D"; oc_lines := (5)%Z; oc_ivars := 0; oc_methods := [($"bar", true)]; oc_classes := [$"D"; $"NSObject"]; oc_superMethods := (Some ($"NSObject", [])) |} [(Node 10 [] (ObjCMethodDecl {| om_selector := $"bar"; om_class := (Some $"D"); om_overriding := false; om_overridden := []; om_bodyLines := (3)%Z |} [] (Some (Node 11 [] (CompoundStmt [(Node 12 [] (DeclStmt [(Node 13 [] (VarDecl {| v_isParm := false; v_name := $"a"; v_used := false; v_referenced := false; v_local := true; v_staticMember := false; v_private := false; v_unusedAttr := false; v_defaultArg := false; v_canonicalType := $"A *"; v_inTemplate := false; v_contexts := [CxObjCMethod false false false false] |} (Some (Node 14 $"A *" (OtherExpr [(Node 15 $"A *" (ObjCPropertyRefExpr false (Some $"C") (Some $"C") (Some (Node 16 $"C *" (OtherExpr []))))); (Node 17 $"C *" (OtherExpr [(Node 18 $"C *" (ObjCPropertyRefExpr false (Some $"D") (Some $"D") (Some (Node 19 $"D *" (OtherExpr []))))); (Node 20 $"D *" (ImplicitCastExpr CK_LValueToRValue (Node 21 $"D *" (DeclRefExpr 1024 $"self" false)))); (Node 22 $"C *" (ObjCMessageExpr {| ms_selector := $"c"; ms_receiver := RInstance; ms_implicit := true; ms_interface := (Some $"D"); ms_method := (Some (Decl [] (Some (Method true (Some []) (InOther (Some NoCategory)))))); ms_methodClass := (Some $"D") |} (Some (Node 23 $"D *" (OtherExpr []))) []))])); (Node 24 $"A *" (ObjCMessageExpr {| ms_selector := $"a"; ms_receiver := RInstance; ms_implicit := true; ms_interface := (Some $"C"); ms_method := (Some (Decl [] (Some (Method true (Some [$"oclint:enforce[prohibited method]"]) (InOther (Some NoCategory)))))); ms_methodClass := (Some $"C") |} (Some (Node 25 $"C *" (OtherExpr []))) []))])))))]))])))))])))];
     ts_locs := [(2,1,4,2); (6,1,8,2); (7,1,7,75); (10,1,12,2); (11,1,11,34); (14,5,17,6); (15,5,15,27); (18,5,20,6); (19,5,19,27); (21,5,25,5); (22,5,24,5); (22,17,24,5); (23,9,23,24); (23,9,23,23); (23,16,23,23); (23,16,23,23); (23,16,23,21); (23,16,23,21); (23,16,23,21); (23,16,23,16); (23,16,23,16); (23,16,23,16); (23,21,23,21); (23,16,23,16); (23,23,23,23); (23,16,23,21)]%Z;
     ts_evals := []; ts_same := []; ts_decls := [(2, (Decl [$"oclint:enforce[prohibited method]"] (Some (Method false None (InOther (Some NoCategory)))))); (6, (Decl [$"oclint:enforce[prohibited method]"] None)); (10, (Decl [] (Some (Method false None (InOther (Some NoCategory))))))]; ts_parents := [(None, true); (None, true); ((Some 1), true); (None, true); ((Some 3), true); (None, true); ((Some 5), true); (None, true); ((Some 7), true); (None, true); ((Some 9), true); ((Some 10), false); ((Some 11), false); ((Some 12), true); ((Some 13), false); ((Some 14), false); ((Some 15), false); ((Some 14), false); ((Some 17), false); ((Some 18), false); ((Some 17), false); ((Some 20), false); ((Some 17), false); ((Some 22), false); ((Some 14), false); ((Some 24), false)] |}.
Example ObjCVerifyProhibitedCallRule_ProtectedPropertyGetterOutside_holds : nth_violation (shippedRule sh_ObjCVerifyProhibitedCall) ObjCVerifyProhibitedCallRule_ProtectedPropertyGetterOutside 0 = Some (23, 23, 23, 23, $"calling prohibited method a")%Z.
Proof. vm_compute. reflexivity. Qed.

Definition ObjCVerifyProhibitedCallRule_ProtectedPropertySetterOutside : testcase :=
  {| ts_lang := LObjC; ts_path := $"input.m"; ts_code := [];
     ts_comments := []; ts_conf := [];
     ts_tops := [(toplevel 0 (TOther), (Node 0 [] (ObjCContainerDecl {| oc_kind := OKInterface; oc_name := $"NSObject"; oc_lines := (3)%Z; oc_ivars := 0; oc_methods := []; oc_classes := [$"NSObject"]; oc_superMethods := None |} []))); (toplevel 1 (TOther), (Node 1 [] (ObjCContainerDecl {| oc_kind := OKInterface; oc_name := $"A"; oc_lines := (3)%Z; oc_ivars := 0; oc_methods := [($"foo", true)]; oc_classes := [$"A"; $"NSObject"]; oc_superMethods := (Some ($"NSObject", [])) |} [(Node 2 [] (ObjCMethodDecl {| om_selector := $"foo"; om_class := (Some $"A"); om_overriding := false; om_overridden := []; om_bodyLines := (0)%Z |} [] None))]))); (toplevel 3 (TOther), (Node 3 [] (ObjCContainerDecl {| oc_kind := OKInterface; oc_name := $"B"; oc_lines := (3)%Z; oc_ivars := 0; oc_methods := [($"a", true); ($"setA:", true)]; oc_classes := [$"B"; $"NSObject"]; oc_superMethods := (Some ($"NSObject", [])) |} [(Node 4 [] (OtherDecl []))]))); (toplevel 5 (TOther), (Node 5 [] (ObjCContainerDecl {| oc_kind := OKInterface; oc_name := $"C"; oc_lines := (4)%Z; oc_ivars := 0; oc_methods := [($"a", true); ($"setA:", true)]; oc_classes := [$"C"; $"NSObject"]; oc_superMethods := (Some ($"NSObject", [])) |} [(Node 6 [] (OtherDecl []))]))); (toplevel 7 (TOther), (Node 7 [] (ObjCContainerDecl {| oc_kind := OKInterface; oc_name := $"D"; oc_lines := (3)%Z; oc_ivars := 0; oc_methods := [($"c", true); ($"setC:", true)]; oc_classes := [$"D"; $"NSObject"]; oc_superMethods := (Some ($"NSObject", [])) |} [(Node 8 [] (OtherDecl []))]))); (toplevel 9 (TOther), (Node 9 [] (ObjCContainerDecl {| oc_kind := OKImplementation; oc_name := $"D"; oc_lines := (5)%Z; oc_ivars := 0; oc_methods := [($"bar", true)]; oc_classes := [$"D"; $"NSObject"]; oc_superMethods := (Some ($"NSObject", [])) |} [(Node 10 [] (ObjCMethodDecl {| om_selector := $"bar"; om_class := (Some $"D"); om_overriding := false; om_overridden := []; om_bodyLines := (3)%Z |} [] (Some (Node 11 [] (CompoundStmt [(Node 12 $"A *" (OtherExpr [(Node 13 $"A *" (BinaryOperator BO_Assign (Node 14 $"A *" (ObjCPropertyRefExpr true (Some $"C") (Some $"C") (Some (Node 15 $"C *" (OtherExpr []))))) (Node 16 $"A *" (OtherExpr [])))); (Node 17 $"C *" (OtherExpr [(Node 18 $"C *" (ObjCPropertyRefExpr false (Some $"D") (Some $"D") (Some (Node 19 $"D *" (OtherExpr []))))); (Node 20 $"D *" (ImplicitCastExpr CK_LValueToRValue (Node 21 $"D *" (DeclRefExpr 1027 $"self" false)))); (Node 22 $"C *" (ObjCMessageExpr {| ms_selector := $"c"; ms_receiver := RInstance; ms_implicit := true; ms_interface := (Some $"D"); ms_method := (Some (Decl [] (Some (Method true (Some []) (InOther (Some NoCategory)))))); ms_methodClass := (Some $"D") |} (Some (Node 23 $"D *" (OtherExpr []))) []))])); (Node 24 $"A *" (ImplicitCastExpr CK_NullToPointer (Node 25 $"int" (IntegerLiteral (0)%Z)))); (Node 26 $"void" (ObjCMessageExpr {| ms_selector := $"setA:"; ms_receiver := RInstance; ms_implicit := true; ms_interface := (Some $"C"); ms_method := (Some (Decl [] (Some (Method true (Some [$"oclint:enforce[prohibited method]"]) (InOther (Some NoCategory)))))); ms_methodClass := (Some $"C") |} (Some (Node 27 $"C *" (OtherExpr []))) [(Node 28 $"A *" (OtherExpr []))]))]))])))))])))];
     ts_locs := [(2,1,4,2); (6,1,8,2); (7,1,7,75); (10,1,12,2); (11,1,11,34); (14,5,17,6); (15,5,15,27); (18,5,20,6); (19,5,19,27); (21,5,25,5); (22,5,24,5); (22,17,24,5); (23,9,23,20); (23,9,23,20); (23,9,23,16); (23,9,23,14); (23,20,23,20); (23,9,23,14); (23,9,23,14); (23,9,23,9); (23,9,23,9); (23,9,23,9); (23,14,23,14); (23,9,23,9); (23,20,23,20); (23,20,23,20); (23,16,23,16); (23,9,23,14); (23,20,23,20)]%Z;
     ts_evals := []; ts_same := []; ts_decls := [(2, (Decl [$"oclint:enforce[prohibited method]"] (Some (Method false None (InOther (Some NoCategory)))))); (6, (Decl [$"oclint:enforce[prohibited method]"] None)); (10, (Decl [] (Some (Method false None (InOther (Some NoCategory))))))]; ts_parents := [(None, true); (None, true); ((Some 1), true); (None, true); ((Some 3), true); (None, true); ((Some 5), true); (None, true); ((Some 7), true); (None, true); ((Some 9), true); ((Some 10), false); ((Some 11), false); ((Some 12), false); ((Some 13), false); ((Some 14), false); ((Some 13), false); ((Some 12), false); ((Some 17), false); ((Some 18), false); ((Some 17), false); ((Some 20), false); ((Some 17), false); ((Some 22), false); ((Some 12), false); ((Some 24), false); ((Some 12), false); ((Some 26), false); ((Some 26), false)] |}.
Example ObjCVerifyProhibitedCallRule_ProtectedPropertySetterOutside_holds : nth_violation (shippedRule sh_ObjCVerifyProhibitedCall) ObjCVerifyProhibitedCallRule_ProtectedPropertySetterOutside 0 = Some (23, 16, 23, 16, $"calling prohibited method setA:")%Z.
Proof. vm_compute. reflexivity. Qed.

Definition ObjCVerifyProhibitedCallRule_ProtectedPropertyGetterInside : testcase :=
  {| ts_lang := LObjC; ts_path := $"input.m"; ts_code := [];
     ts_comments := []; ts_conf := [];
     ts_tops := [(toplevel 0 (TOther), (Node 0 [] (ObjCContainerDecl {| oc_kind := OKInterface; oc_name := $"NSObject"; oc_lines := (3)%Z; oc_ivars := 0; oc_methods := []; oc_classes := [$"NSObject"]; oc_superMethods := None |} []))); (toplevel 1 (TOther), (Node 1 [] (ObjCContainerDecl {| oc_kind := OKInterface; oc_name := $"A"; oc_lines := (3)%Z; oc_ivars := 0; oc_methods := [($"foo", true)]; oc_classes := [$"A"; $"NSObject"]; oc_superMethods := (Some ($"NSObject", [])) |} [(Node 2 [] (ObjCMethodDecl {| om_selector := $"foo"; om_class := (Some $"A"); om_overriding := false; om_overridden := []; om_bodyLines := (0)%Z |} [] None))]))); (toplevel 3 (TOther), (Node 3 [] (ObjCContainerDecl {| oc_kind := OKInterface; oc_name := $"B"; oc_lines := (3)%Z; oc_ivars := 0; oc_methods := [($"a", true); ($"setA:", true)]; oc_classes := [$"B"; $"NSObject"]; oc_superMethods := (Some ($"NSObject", [])) |} [(Node 4 [] (OtherDecl []))]))); (toplevel 5 (TOther), (Node 5 [] (ObjCContainerDecl {| oc_kind := OKInterface; oc_name := $"C"; oc_lines := (4)%Z; oc_ivars := 0; oc_methods := [($"a", true); ($"setA:", true)]; oc_classes := [$"C"; $"NSObject"]; oc_superMethods := (Some ($"NSObject", [])) |} [(Node 6 [] (OtherDecl []))]))); (toplevel 7 (TOther), (Node 7 [] (ObjCContainerDecl {| oc_kind := OKInterface; oc_name := $"D"; oc_lines := (3)%Z; oc_ivars := 0; oc_methods := [($"c", true); ($"setC:", true)]; oc_classes := [$"D"; $"C"; $"NSObject"]; oc_superMethods := (Some ($"C", [($"a", true, (Decl [] (Some (Method true (Some [$"oclint:enforce[prohibited method]"]) (InOther (Some NoCategory)))))); ($"setA:", true, (Decl [] (Some (Method true (Some [$"oclint:enforce[prohibited method]"]) (InOther (Some NoCategory))))))])) |} [(Node 8 [] (OtherDecl []))]))); (toplevel 9 (TOther), (Node 9 [] (ObjCContainerDecl {| oc_kind := OKImplementation; oc_name := $"D"; oc_lines := (5)%Z; oc_ivars := 0; oc_methods := [($"bar", true)]; oc_classes := [$"D"; $"C"; $"NSObject"]; oc_superMethods := (Some ($"C", [($"a", true, (Decl [] (Some (Method true (Some [$"oclint:enforce[prohibited method]"]) (InOther (Some NoCategory)))))); ($"setA:", true, (Decl [] (Some (Method true (Some [$"oclint:enforce[prohibited method]"]) (InOther (Some NoCategory))))))])) |} [(Node 10 [] (ObjCMethodDecl {| om_selector := $"bar"; om_class := (Some $"D"); om_overriding := false; om_overridden := []; om_bodyLines := (3)%Z |} [] (Some (Node 11 [] (CompoundStmt [(Node 12 [] (DeclStmt [(Node 13 [] (VarDecl {| v_isParm := false; v_name := $"a"; v_used := false; v_referenced := false; v_local := true; v_staticMember := false; v_private := false; v_unusedAttr := false; v_defaultArg := false; v_canonicalType := $"A *"; v_inTemplate := false; v_contexts := [CxObjCMethod false false false false] |} (Some (Node 14 $"A *" (OtherExpr [(Node 15 $"A *" (ObjCPropertyRefExpr false (Some $"C") (Some $"C") (Some (Node 16 $"C *" (OtherExpr []))))); (Node 17 $"C *" (OtherExpr [(Node 18 $"C *" (ObjCPropertyRefExpr false (Some $"D") (Some $"D") (Some (Node 19 $"D *" (OtherExpr []))))); (Node 20 $"D *" (ImplicitCastExpr CK_LValueToRValue (Node 21 $"D *" (DeclRefExpr 1024 $"self" false)))); (Node 22 $"C *" (ObjCMessageExpr {| ms_selector := $"c"; ms_receiver := RInstance; ms_implicit := true; ms_interface := (Some $"D"); ms_method := (Some (Decl [] (Some (Method true (Some []) (InOther (Some NoCategory)))))); ms_methodClass := (Some $"D") |} (Some (Node 23 $"D *" (OtherExpr []))) []))])); (Node 24 $"A *" (ObjCMessageExpr {| ms_selector := $"a"; ms_receiver := RInstance; ms_implicit := true; ms_interface := (Some $"C"); ms_method := (Some (Decl [] (Some (Method true (Some [$"oclint:enforce[prohibited method]"]) (InOther (Some NoCategory)))))); ms_methodClass := (Some $"C") |} (Some (Node 25 $"C *" (OtherExpr []))) []))])))))]))])))))])))];
     ts_locs := [(2,1,4,2); (6,1,8,2); (7,1,7,75); (10,1,12,2); (11,1,11,34); (14,5,17,6); (15,5,15,27); (18,5,20,6); (19,5,19,27); (21,5,25,5); (22,5,24,5); (22,17,24,5); (23,9,23,24); (23,9,23,23); (23,16,23,23); (23,16,23,23); (23,16,23,21); (23,16,23,21); (23,16,23,21); (23,16,23,16); (23,16,23,16); (23,16,23,16); (23,21,23,21); (23,16,23,16); (23,23,23,23); (23,16,23,21)]%Z;
     ts_evals := []; ts_same := []; ts_decls := [(2, (Decl [$"oclint:enforce[prohibited method]"] (Some (Method false None (InOther (Some NoCategory)))))); (6, (Decl [$"oclint:enforce[prohibited method]"] None)); (10, (Decl [] (Some (Method false None (InOther (Some NoCategory))))))]; ts_parents := [(None, true); (None, true); ((Some 1), true); (None, true); ((Some 3), true); (None, true); ((Some 5), true); (None, true); ((Some 7), true); (None, true); ((Some 9), true); ((Some 10), false); ((Some 11), false); ((Some 12), true); ((Some 13), false); ((Some 14), false); ((Some 15), false); ((Some 14), false); ((Some 17), false); ((Some 18), false); ((Some 17), false); ((Some 20), false); ((Some 17), false); ((Some 22), false); ((Some 14), false); ((Some 24), false)] |}.
Example ObjCVerifyProhibitedCallRule_ProtectedPropertyGetterInside_holds : nth_violation (shippedRule sh_ObjCVerifyProhibitedCall) ObjCVerifyProhibitedCallRule_ProtectedPropertyGetterInside 0 = Some (23, 23, 23, 23, $"calling prohibited method a")%Z.
Proof. vm_compute. reflexivity. Qed.

Definition ObjCVerifyProhibitedCallRule_ProtectedPropertySetterInside : testcase :=
  {| ts_lang := LObjC; ts_path := $"input.m"; ts_code := [];
     ts_comments := []; ts_conf := [];
     ts_tops := [(toplevel 0 (TOther), (Node 0 [] (ObjCContainerDecl {| oc_kind := OKInterface; oc_name := $"NSObject"; oc_lines := (3)%Z; oc_ivars := 0; oc_methods := []; oc_classes := [$"NSObject"]; oc_superMethods := None |} []))); (toplevel 1 (TOther), (Node 1 [] (ObjCContainerDecl {| oc_kind := OKInterface; oc_name := $"A"; oc_lines := (3)%Z; oc_ivars := 0; oc_methods := [($"foo", true)]; oc_classes := [$"A"; $"NSObject"]; oc_superMethods := (Some ($"NSObject", [])) |} [(Node 2 [] (ObjCMethodDecl {| om_selector := $"foo"; om_class := (Some $"A"); om_overriding := false; om_overridden := []; om_bodyLines := (0)%Z |} [] None))]))); (toplevel 3 (TOther), (Node 3 [] (ObjCContainerDecl {| oc_kind := OKInterface; oc_name := $"B"; oc_lines := (3)%Z; oc_ivars := 0; oc_methods := [($"a", true); ($"setA:", true)]; oc_classes := [$"B"; $"NSObject"]; oc_superMethods := (Some ($"NSObject", [])) |} [(Node 4 [] (OtherDecl []))]))); (toplevel 5 (TOther), (Node 5 [] (ObjCContainerDecl {| oc_kind := OKInterface; oc_name := $"C"; oc_lines := (4)%Z; oc_ivars := 0; oc_methods := [($"a", true); ($"setA:", true)]; oc_classes := [$"C"; $"NSObject"]; oc_superMethods := (Some ($"NSObject", [])) |} [(Node 6 [] (OtherDecl []))]))); (toplevel 7 (TOther), (Node 7 [] (ObjCContainerDecl {| oc_kind := OKInterface; oc_name := $"D"; oc_lines := (3)%Z; oc_ivars := 0; oc_methods := [($"c", true); ($"setC:", true)]; oc_classes := [$"D"; $"C"; $"NSObject"]; oc_superMethods := (Some ($"C", [($"a", true, (Decl [] (Some (Method true (Some [$"oclint:enforce[prohibited method]"]) (InOther (Some NoCategory)))))); ($"setA:", true, (Decl [] (Some (Method true (Some [$"oclint:enforce[prohibited method]"]) (InOther (Some NoCategory))))))])) |} [(Node 8 [] (OtherDecl []))]))); (toplevel 9 (TOther), (Node 9 [] (ObjCContainerDecl {| oc_kind := OKImplementation; oc_name := $"D"; oc_lines := (5)%Z; oc_ivars := 0; oc_methods := [($"bar", true)]; oc_classes := [$"D"; $"C"; $"NSObject"]; oc_superMethods := (Some ($"C", [($"a", true, (Decl [] (Some (Method true (Some [$"oclint:enforce[prohibited method]"]) (InOther (Some NoCategory)))))); ($"setA:", true, (Decl [] (Some (Method true (Some [$"oclint:enforce[prohibited method]"]) (InOther (Some NoCategory))))))])) |} [(Node 10 [] (ObjCMethodDecl {| om_selector := $"bar"; om_class := (Some $"D"); om_overriding := false; om_overridden := []; om_bodyLines := (3)%Z |} [] (Some (Node 11 [] (CompoundStmt [(Node 12 $"A *" (OtherExpr [(Node 13 $"A *" (BinaryOperator BO_Assign (Node 14 $"A *" (ObjCPropertyRefExpr true (Some $"C") (Some $"C") (Some (Node 15 $"C *" (OtherExpr []))))) (Node 16 $"A *" (OtherExpr [])))); (Node 17 $"C *" (OtherExpr [(Node 18 $"C *" (ObjCPropertyRefExpr false (Some $"D") (Some $"D") (Some (Node 19 $"D *" (OtherExpr []))))); (Node 20 $"D *" (ImplicitCastExpr CK_LValueToRValue (Node 21 $"D *" (DeclRefExpr 1027 $"self" false)))); (Node 22 $"C *" (ObjCMessageExpr {| ms_selector := $"c"; ms_receiver := RInstance; ms_implicit := true; ms_interface := (Some $"D"); ms_method := (Some (Decl [] (Some (Method true (Some []) (InOther (Some NoCategory)))))); ms_methodClass := (Some $"D") |} (Some (Node 23 $"D *" (OtherExpr []))) []))])); (Node 24 $"A *" (ImplicitCastExpr CK_NullToPointer (Node 25 $"int" (IntegerLiteral (0)%Z)))); (Node 26 $"void" (ObjCMessageExpr {| ms_selector := $"setA:"; ms_receiver := RInstance; ms_implicit := true; ms_interface := (Some $"C"); ms_method := (Some (Decl [] (Some (Method true (Some [$"oclint:enforce[prohibited method]"]) (InOther (Some NoCategory)))))); ms_methodClass := (Some $"C") |} (Some (Node 27 $"C *" (OtherExpr []))) [(Node 28 $"A *" (OtherExpr []))]))]))])))))])))];
     ts_locs := [(2,1,4,2); (6,1,8,2); (7,1,7,75); (10,1,12,2); (11,1,11,34); (14,5,17,6); (15,5,15,27); (18,5,20,6); (19,5,19,27); (21,5,25,5); (22,5,24,5); (22,17,24,5); (23,9,23,20); (23,9,23,20); (23,9,23,16); (23,9,23,14); (23,20,23,20); (23,9,23,14); (23,9,23,14); (23,9,23,9); (23,9,23,9); (23,9,23,9); (23,14,23,14); (23,9,23,9); (23,20,23,20); (23,20,23,20); (23,16,23,16); (23,9,23,14); (23,20,23,20)]%Z;
     ts_evals := []; ts_same := []; ts_decls := [(2, (Decl [$"oclint:enforce[prohibited method]"] (Some (Method false None (InOther (Some NoCategory)))))); (6, (Decl [$"oclint:enforce[prohibited method]"] None)); (10, (Decl [] (Some (Method false None (InOther (Some NoCategory))))))]; ts_parents := [(None, true); (None, true); ((Some 1), true); (None, true); ((Some 3), true); (None, true); ((Some 5), true); (None, true); ((Some 7), true); (None, true); ((Some 9), true); ((Some 10), false); ((Some 11), false); ((Some 12), false); ((Some 13), false); ((Some 14), false); ((Some 13), false); ((Some 12), false); ((Some 17), false); ((Some 18), false); ((Some 17), false); ((Some 20), false); ((Some 17), false); ((Some 22), false); ((Some 12), false); ((Some 24), false); ((Some 12), false); ((Some 26), false); ((Some 26), false)] |}.
Example ObjCVerifyProhibitedCallRule_ProtectedPropertySetterInside_holds : nth_violation (shippedRule sh_ObjCVerifyProhibitedCall) ObjCVerifyProhibitedCallRule_ProtectedPropertySetterInside 0 = Some (23, 16, 23, 16, $"calling prohibited method setA:")%Z.
Proof. vm_compute. reflexivity. Qed.

Definition ObjCVerifyProhibitedCallRule_UnmarkedSetterTest : testcase :=
  {| ts_lang := LObjC; ts_path := $"input.m"; ts_code := [];
     ts_comments := []; ts_conf := [];
     ts_tops := [(toplevel 0 (TOther), (Node 0 [] (ObjCContainerDecl {| oc_kind := OKInterface; oc_name := $"NSObject"; oc_lines := (3)%Z; oc_ivars := 0; oc_methods := []; oc_classes := [$"NSObject"]; oc_superMethods := None |} []))); (toplevel 1 (TOther), (Node 1 [] (ObjCContainerDecl {| oc_kind := OKInterface; oc_name := $"A"; oc_lines := (3)%Z; oc_ivars := 0; oc_methods := [($"foo", true)]; oc_classes := [$"A"; $"NSObject"]; oc_superMethods := (Some ($"NSObject", [])) |} [(Node 2 [] (ObjCMethodDecl {| om_selector := $"foo"; om_class := (Some $"A"); om_overriding := false; om_overridden := []; om_bodyLines := (0)%Z |} [] None))]))); (toplevel 3 (TOther), (Node 3 [] (ObjCContainerDecl {| oc_kind := OKInterface; oc_name := $"B"; oc_lines := (3)%Z; oc_ivars := 0; oc_methods := [($"a", true); ($"setA:", true)]; oc_classes := [$"B"; $"NSObject"]; oc_superMethods := (Some ($"NSObject", [])) |} [(Node 4 [] (OtherDecl []))]))); (toplevel 5 (TOther), (Node 5 [] (ObjCContainerDecl {| oc_kind := OKInterface; oc_name := $"C"; oc_lines := (3)%Z; oc_ivars := 0; oc_methods := [($"a", true); ($"setA:", true)]; oc_classes := [$"C"; $"NSObject"]; oc_superMethods := (Some ($"NSObject", [])) |} [(Node 6 [] (OtherDecl []))]))); (toplevel 7 (TOther), (Node 7 [] (ObjCContainerDecl {| oc_kind := OKImplementation; oc_name := $"C"; oc_lines := (5)%Z; oc_ivars := 0; oc_methods := [($"bar", true)]; oc_classes := [$"C"; $"NSObject"]; oc_superMethods := (Some ($"NSObject", [])) |} [(Node 8 [] (ObjCMethodDecl {| om_selector := $"bar"; om_class := (Some $"C"); om_overriding := false; om_overridden := []; om_bodyLines := (3)%Z |} [] (Some (Node 9 [] (CompoundStmt [(Node 10 $"A *" (OtherExpr [(Node 11 $"A *" (BinaryOperator BO_Assign (Node 12 $"A *" (ObjCPropertyRefExpr true (Some $"C") (Some $"C") (Some (Node 13 $"C *" (OtherExpr []))))) (Node 14 $"A *" (OtherExpr [])))); (Node 15 $"C *" (ImplicitCastExpr CK_LValueToRValue (Node 16 $"C *" (DeclRefExpr 1020 $"self" false)))); (Node 17 $"A *" (ImplicitCastExpr CK_NullToPointer (Node 18 $"int" (IntegerLiteral (0)%Z)))); (Node 19 $"void" (ObjCMessageExpr {| ms_selector := $"setA:"; ms_receiver := RInstance; ms_implicit := true; ms_interface := (Some $"C"); ms_method := (Some (Decl [] (Some (Method true (Some []) (InOther (Some NoCategory)))))); ms_methodClass := (Some $"C") |} (Some (Node 20 $"C *" (OtherExpr []))) [(Node 21 $"A *" (OtherExpr []))]))]))])))))])))];
     ts_locs := [(2,1,4,2); (6,1,8,2); (7,1,7,75); (10,1,12,2); (11,1,11,34); (14,5,16,6); (15,5,15,27); (17,5,21,5); (18,5,20,5); (18,17,20,5); (19,9,19,18); (19,9,19,18); (19,9,19,14); (19,9,19,9); (19,18,19,18); (19,9,19,9); (19,9,19,9); (19,18,19,18); (19,18,19,18); (19,14,19,14); (19,9,19,9); (19,18,19,18)]%Z;
     ts_evals := []; ts_same := []; ts_decls := [(2, (Decl [$"oclint:enforce[prohibited method]"] (Some (Method false None (InOther (Some NoCategory)))))); (8, (Decl [] (Some (Method false None (InOther (Some NoCategory))))))]; ts_parents := [(None, true); (None, true); ((Some 1), true); (None, true); ((Some 3), true); (None, true); ((Some 5), true); (None, true); ((Some 7), true); ((Some 8), false); ((Some 9), false); ((Some 10), false); ((Some 11), false); ((Some 12), false); ((Some 11), false); ((Some 10), false); ((Some 15), false); ((Some 10), false); ((Some 17), false); ((Some 10), false); ((Some 19), false); ((Some 19), false)] |}.
Example ObjCVerifyProhibitedCallRule_UnmarkedSetterTest_holds : sorted_violations_of (shippedRule sh_ObjCVerifyProhibitedCall) ObjCVerifyProhibitedCallRule_UnmarkedSetterTest = Some [].
Proof. vm_compute. reflexivity. Qed.

Definition ObjCVerifyProhibitedCallRule_UnmarkedGetterTest : testcase :=
  {| ts_lang := LObjC; ts_path := $"input.m"; ts_code := [];
     ts_comments := []; ts_conf := [];
     ts_tops := [(toplevel 0 (TOther), (Node 0 [] (ObjCContainerDecl {| oc_kind := OKInterface; oc_name := $"NSObject"; oc_lines := (3)%Z; oc_ivars := 0; oc_methods := []; oc_classes := [$"NSObject"]; oc_superMethods := None |} []))); (toplevel 1 (TOther), (Node 1 [] (ObjCContainerDecl {| oc_kind := OKInterface; oc_name := $"A"; oc_lines := (3)%Z; oc_ivars := 0; oc_methods := [($"foo", true)]; oc_classes := [$"A"; $"NSObject"]; oc_superMethods := (Some ($"NSObject", [])) |} [(Node 2 [] (ObjCMethodDecl {| om_selector := $"foo"; om_class := (Some $"A"); om_overriding := false; om_overridden := []; om_bodyLines := (0)%Z |} [] None))]))); (toplevel 3 (TOther), (Node 3 [] (ObjCContainerDecl {| oc_kind := OKInterface; oc_name := $"B"; oc_lines := (3)%Z; oc_ivars := 0; oc_methods := [($"a", true); ($"setA:", true)]; oc_classes := [$"B"; $"NSObject"]; oc_superMethods := (Some ($"NSObject", [])) |} [(Node 4 [] (OtherDecl []))]))); (toplevel 5 (TOther), (Node 5 [] (ObjCContainerDecl {| oc_kind := OKInterface; oc_name := $"C"; oc_lines := (3)%Z; oc_ivars := 0; oc_methods := [($"a", true); ($"setA:", true)]; oc_classes := [$"C"; $"NSObject"]; oc_superMethods := (Some ($"NSObject", [])) |} [(Node 6 [] (OtherDecl []))]))); (toplevel 7 (TOther), (Node 7 [] (ObjCContainerDecl {| oc_kind := OKImplementation; oc_name := $"C"; oc_lines := (5)%Z; oc_ivars := 0; oc_methods := [($"bar", true)]; oc_classes := [$"C"; $"NSObject"]; oc_superMethods := (Some ($"NSObject", [])) |} [(Node 8 [] (ObjCMethodDecl {| om_selector := $"bar"; om_class := (Some $"C"); om_overriding := false; om_overridden := []; om_bodyLines := (3)%Z |} [] (Some (Node 9 [] (CompoundStmt [(Node 10 [] (DeclStmt [(Node 11 [] (VarDecl {| v_isParm := false; v_name := $"a"; v_used := false; v_referenced := false; v_local := true; v_staticMember := false; v_private := false; v_unusedAttr := false; v_defaultArg := false; v_canonicalType := $"A *"; v_inTemplate := false; v_contexts := [CxObjCMethod false false false false] |} (Some (Node 12 $"A *" (OtherExpr [(Node 13 $"A *" (ObjCPropertyRefExpr false (Some $"C") (Some $"C") (Some (Node 14 $"C *" (OtherExpr []))))); (Node 15 $"C *" (ImplicitCastExpr CK_LValueToRValue (Node 16 $"C *" (DeclRefExpr 1017 $"self" false)))); (Node 17 $"A *" (ObjCMessageExpr {| ms_selector := $"a"; ms_receiver := RInstance; ms_implicit := true; ms_interface := (Some $"C"); ms_method := (Some (Decl [] (Some (Method true (Some []) (InOther (Some NoCategory)))))); ms_methodClass := (Some $"C") |} (Some (Node 18 $"C *" (OtherExpr []))) []))])))))]))])))))])))];
     ts_locs := [(2,1,4,2); (6,1,8,2); (7,1,7,75); (10,1,12,2); (11,1,11,34); (14,5,16,6); (15,5,15,27); (17,5,21,5); (18,5,20,5); (18,17,20,5); (19,9,19,22); (19,9,19,21); (19,16,19,21); (19,16,19,21); (19,16,19,16); (19,16,19,16); (19,16,19,16); (19,21,19,21); (19,16,19,16)]%Z;
     ts_evals := []; ts_same := []; ts_decls := [(2, (Decl [$"oclint:enforce[prohibited method]"] (Some (Method false None (InOther (Some NoCategory)))))); (8, (Decl [] (Some (Method false None (InOther (Some NoCategory))))))]; ts_parents := [(None, true); (None, true); ((Some 1), true); (None, true); ((Some 3), true); (None, true); ((Some 5), true); (None, true); ((Some 7), true); ((Some 8), false); ((Some 9), false); ((Some 10), true); ((Some 11), false); ((Some 12), false); ((Some 13), false); ((Some 12), false); ((Some 15), false); ((Some 12), false); ((Some 17), false)] |}.
Example ObjCVerifyProhibitedCallRule_UnmarkedGetterTest_holds : sorted_violations_of (shippedRule sh_ObjCVerifyProhibitedCall) ObjCVerifyProhibitedCallRule_UnmarkedGetterTest = Some [].
Proof. vm_compute. reflexivity. Qed.

Definition ObjCVerifyProhibitedCallRule_UnmarkedCallTest : testcase :=
  {| ts_lang := LObjC; ts_path := $"input.m"; ts_code := [];
     ts_comments := []; ts_conf := [];
     ts_tops := [(toplevel 0 (TOther), (Node 0 [] (ObjCContainerDecl {| oc_kind := OKInterface; oc_name := $"NSObject"; oc_lines := (3)%Z; oc_ivars := 0; oc_methods := []; oc_classes := [$"NSObject"]; oc_superMethods := None |} []))); (toplevel 1 (TOther), (Node 1 [] (ObjCContainerDecl {| oc_kind := OKInterface; oc_name := $"A"; oc_lines := (3)%Z; oc_ivars := 0; oc_methods := [($"foo", true)]; oc_classes := [$"A"; $"NSObject"]; oc_superMethods := (Some ($"NSObject", [])) |} [(Node 2 [] (ObjCMethodDecl {| om_selector := $"foo"; om_class := (Some $"A"); om_overriding := false; om_overridden := []; om_bodyLines := (0)%Z |} [] None))]))); (toplevel 3 (TOther), (Node 3 [] (ObjCContainerDecl {| oc_kind := OKInterface; oc_name := $"B"; oc_lines := (3)%Z; oc_ivars := 0; oc_methods := [($"a", true); ($"setA:", true)]; oc_classes := [$"B"; $"NSObject"]; oc_superMethods := (Some ($"NSObject", [])) |} [(Node 4 [] (OtherDecl []))]))); (toplevel 5 (TOther), (Node 5 [] (ObjCContainerDecl {| oc_kind := OKInterface; oc_name := $"C"; oc_lines := (3)%Z; oc_ivars := 0; oc_methods := [($"a", true); ($"setA:", true)]; oc_classes := [$"C"; $"NSObject"]; oc_superMethods := (Some ($"NSObject", [])) |} [(Node 6 [] (OtherDecl []))]))); (toplevel 7 (TOther), (Node 7 [] (ObjCContainerDecl {| oc_kind := OKImplementation; oc_name := $"C"; oc_lines := (5)%Z; oc_ivars := 0; oc_methods := [($"bar", true)]; oc_classes := [$"C"; $"NSObject"]; oc_superMethods := (Some ($"NSObject", [])) |} [(Node 8 [] (ObjCMethodDecl {| om_selector := $"bar"; om_class := (Some $"C"); om_overriding := false; om_overridden := []; om_bodyLines := (3)%Z |} [] (Some (Node 9 [] (CompoundStmt [(Node 10 $"void" (ObjCMessageExpr {| ms_selector := $"setA:"; ms_receiver := RInstance; ms_implicit := false; ms_interface := (Some $"C"); ms_method := (Some (Decl [] (Some (Method true (Some []) (InOther (Some NoCategory)))))); ms_methodClass := (Some $"C") |} (Some (Node 11 $"C *" (ImplicitCastExpr CK_LValueToRValue (Node 12 $"C *" (DeclRefExpr 1013 $"self" false))))) [(Node 13 $"A *" (ImplicitCastExpr CK_NullToPointer (Node 14 $"int" (IntegerLiteral (0)%Z))))]))])))))])))];
     ts_locs := [(2,1,4,2); (6,1,8,2); (7,1,7,75); (10,1,12,2); (11,1,11,34); (14,5,16,6); (15,5,15,27); (17,5,21,5); (18,5,20,5); (18,17,20,5); (19,9,19,21); (19,10,19,10); (19,10,19,10); (19,20,19,20); (19,20,19,20)]%Z;
     ts_evals := []; ts_same := []; ts_decls := [(2, (Decl [$"oclint:enforce[prohibited method]"] (Some (Method false None (InOther (Some NoCategory)))))); (8, (Decl [] (Some (Method false None (InOther (Some NoCategory))))))]; ts_parents := [(None, true); (None, true); ((Some 1), true); (None, true); ((Some 3), true); (None, true); ((Some 5), true); (None, true); ((Some 7), true); ((Some 8), false); ((Some 9), false); ((Some 10), false); ((Some 11), false); ((Some 10), false); ((Some 13), false)] |}.
Example ObjCVerifyProhibitedCallRule_UnmarkedCallTest_holds : sorted_violations_of (shippedRule sh_ObjCVerifyProhibitedCall) ObjCVerifyProhibitedCallRule_UnmarkedCallTest = Some [].
Proof. vm_compute. reflexivity. Qed.

Definition ObjCVerifyProhibitedCallRule_PropertyCategoryOutside : testcase :=
  {| ts_lang := LObjC; ts_path := $"input.m"; ts_code := [];
     ts_comments := []; ts_conf := [];
     ts_tops := [(toplevel 0 (TOther), (Node 0 [] (ObjCContainerDecl {| oc_kind := OKInterface; oc_name := $"NSObject"; oc_lines := (3)%Z; oc_ivars := 0; oc_methods := []; oc_classes := [$"NSObject"]; oc_superMethods := None |} []))); (toplevel 1 (TOther), (Node 1 [] (ObjCContainerDecl {| oc_kind := OKInterface; oc_name := $"A"; oc_lines := (3)%Z; oc_ivars := 0; oc_methods := [($"foo", true)]; oc_classes := [$"A"; $"NSObject"]; oc_superMethods := (Some ($"NSObject", [])) |} [(Node 2 [] (ObjCMethodDecl {| om_selector := $"foo"; om_class := (Some $"A"); om_overriding := false; om_overridden := []; om_bodyLines := (0)%Z |} [] None))]))); (toplevel 3 (TOther), (Node 3 [] (ObjCContainerDecl {| oc_kind := OKInterface; oc_name := $"B"; oc_lines := (3)%Z; oc_ivars := 0; oc_methods := [($"a", true); ($"setA:", true)]; oc_classes := [$"B"; $"NSObject"]; oc_superMethods := (Some ($"NSObject", [])) |} [(Node 4 [] (OtherDecl []))]))); (toplevel 5 (TOther), (Node 5 [] (ObjCContainerDecl {| oc_kind := OKInterface; oc_name := $"C"; oc_lines := (3)%Z; oc_ivars := 0; oc_methods := [($"setA:", true)]; oc_classes := [$"C"; $"NSObject"]; oc_superMethods := (Some ($"NSObject", [])) |} [(Node 6 [] (ObjCMethodDecl {| om_selector := $"setA:"; om_class := (Some $"C"); om_overriding := false; om_overridden := []; om_bodyLines := (0)%Z |} [(Node 7 [] (VarDecl {| v_isParm := true; v_name := $"a"; v_used := false; v_referenced := false; v_local := false; v_staticMember := false; v_private := false; v_unusedAttr := false; v_defaultArg := false; v_canonicalType := $"A *"; v_inTemplate := false; v_contexts := [CxObjCMethod true false false false; CxOther] |} None))] None))]))); (toplevel 8 (TOther), (Node 8 [] (ObjCContainerDecl {| oc_kind := OKCategory; oc_name := $"Additions"; oc_lines := (4)%Z; oc_ivars := 0; oc_methods := [($"setA:", true)]; oc_classes := []; oc_superMethods := None |} [(Node 9 [] (ObjCMethodDecl {| om_selector := $"setA:"; om_class := (Some $"C"); om_overriding := false; om_overridden := []; om_bodyLines := (0)%Z |} [(Node 10 [] (VarDecl {| v_isParm := true; v_name := $"a"; v_used := false; v_referenced := false; v_local := false; v_staticMember := false; v_private := false; v_unusedAttr := false; v_defaultArg := false; v_canonicalType := $"A *"; v_inTemplate := false; v_contexts := [CxObjCMethod true false false false] |} None))] None))]))); (toplevel 11 (TOther), (Node 11 [] (ObjCContainerDecl {| oc_kind := OKInterface; oc_name := $"D"; oc_lines := (3)%Z; oc_ivars := 0; oc_methods := [($"c", true); ($"setC:", true)]; oc_classes := [$"D"; $"NSObject"]; oc_superMethods := (Some ($"NSObject", [])) |} [(Node 12 [] (OtherDecl []))]))); (toplevel 13 (TOther), (Node 13 [] (ObjCContainerDecl {| oc_kind := OKImplementation; oc_name := $"D"; oc_lines := (5)%Z; oc_ivars := 0; oc_methods := [($"bar", true)]; oc_classes := [$"D"; $"NSObject"]; oc_superMethods := (Some ($"NSObject", [])) |} [(Node 14 [] (ObjCMethodDecl {| om_selector := $"bar"; om_class := (Some $"D"); om_overriding := false; om_overridden := []; om_bodyLines := (3)%Z |} [] (Some (Node 15 [] (CompoundStmt [(Node 16 $"void" (ObjCMessageExpr {| ms_selector := $"setA:"; ms_receiver := RInstance; ms_implicit := false; ms_interface := (Some $"C"); ms_method := (Some (Decl [] (Some (Method false None (InOther (Some (Category (Some (Decl [$"oclint:enforce[prohibited method]"] (Some (Method false None InCategory)))) NoCategory))))))); ms_methodClass := (Some $"C") |} (Some (Node 17 $"C *" (OtherExpr [(Node 18 $"C *" (ObjCPropertyRefExpr false (Some $"D") (Some $"D") (Some (Node 19 $"D *" (OtherExpr []))))); (Node 20 $"D *" (ImplicitCastExpr CK_LValueToRValue (Node 21 $"D *" (DeclRefExpr 1024 $"self" false)))); (Node 22 $"C *" (ObjCMessageExpr {| ms_selector := $"c"; ms_receiver := RInstance; ms_implicit := true; ms_interface := (Some $"D"); ms_method := (Some (Decl [] (Some (Method true (Some []) (InOther (Some NoCategory)))))); ms_methodClass := (Some $"D") |} (Some (Node 23 $"D *" (OtherExpr []))) []))]))) [(Node 24 $"A *" (ImplicitCastExpr CK_NullToPointer (Node 25 $"int" (IntegerLiteral (0)%Z))))]))])))))])))];
     ts_locs := [(2,1,4,2); (6,1,8,2); (7,1,7,75); (10,1,12,2); (11,1,11,34); (14,5,16,6); (15,5,15,22); (15,18,15,21); (17,5,20,6); (18,5,19,71); (18,19,18,22); (21,5,23,6); (22,5,22,27); (24,5,28,5); (25,5,27,5); (25,17,27,5); (26,9,26,24); (26,10,26,15); (26,10,26,15); (26,10,26,10); (26,10,26,10); (26,10,26,10); (26,15,26,15); (26,10,26,10); (26,23,26,23); (26,23,26,23)]%Z;
     ts_evals := []; ts_same := []; ts_decls := [(2, (Decl [$"oclint:enforce[prohibited method]"] (Some (Method false None (InOther (Some NoCategory)))))); (6, (Decl [] (Some (Method false None (InOther (Some (Category (Some (Decl [$"oclint:enforce[prohibited method]"] (Some (Method false None InCategory)))) NoCategory))))))); (9, (Decl [$"oclint:enforce[prohibited method]"] (Some (Method false None InCategory)))); (14, (Decl [] (Some (Method false None (InOther (Some NoCategory))))))]; ts_parents := [(None, true); (None, true); ((Some 1), true); (None, true); ((Some 3), true); (None, true); ((Some 5), true); ((Some 6), true); (None, true); ((Some 8), true); ((Some 9), true); (None, true); ((Some 11), true); (None, true); ((Some 13), true); ((Some 14), false); ((Some 15), false); ((Some 16), false); ((Some 17), false); ((Some 18), false); ((Some 17), false); ((Some 20), false); ((Some 17), false); ((Some 22), false); ((Some 16), false); ((Some 24), false)] |}.
Example ObjCVerifyProhibitedCallRule_PropertyCategoryOutside_holds : nth_violation (shippedRule sh_ObjCVerifyProhibitedCall) ObjCVerifyProhibitedCallRule_PropertyCategoryOutside 0 = Some (26, 9, 26, 24, $"calling prohibited method setA:")%Z.
Proof. vm_compute. reflexivity. Qed.

Definition ObjCVerifyProhibitedCallRule_ProhibitedFunctionCall : testcase :=
  {| ts_lang := LObjC; ts_path := $"input.m"; ts_code := [];
     ts_comments := []; ts_conf := [];
     ts_tops := [(toplevel 0 (TFunction false), (Node 0 [] (FunctionDecl {| f_name := $"foo"; f_method := None; f_isDefinition := false; f_bodyLines := (0)%Z |} [(Node 1 [] (VarDecl {| v_isParm := true; v_name := $"x"; v_used := false; v_referenced := false; v_local := false; v_staticMember := false; v_private := false; v_unusedAttr := false; v_defaultArg := false; v_canonicalType := $"int"; v_inTemplate := false; v_contexts := [CxFunction false false false] |} None))] None))); (toplevel 2 (TFunction false), (Node 2 [] (FunctionDecl {| f_name := $"main"; f_method := None; f_isDefinition := true; f_bodyLines := (4)%Z |} [(Node 3 [] (VarDecl {| v_isParm := true; v_name := $"argc"; v_used := false; v_referenced := false; v_local := false; v_staticMember := false; v_private := false; v_unusedAttr := false; v_defaultArg := false; v_canonicalType := $"int"; v_inTemplate := false; v_contexts := [CxFunction true true false] |} None)); (Node 4 [] (VarDecl {| v_isParm := true; v_name := $"argv"; v_used := false; v_referenced := false; v_local := false; v_staticMember := false; v_private := false; v_unusedAttr := false; v_defaultArg := false; v_canonicalType := $"char **"; v_inTemplate := false; v_contexts := [CxFunction true true false] |} None))] (Some (Node 5 [] (CompoundStmt [(Node 6 $"void" (CallExpr (Some ($"foo", (Decl [$"oclint:enforce[prohibited method]"] None))) (Node 7 $"void (int) *" (ImplicitCastExpr CK_Other (Node 8 $"void (int)" (DeclRefExpr 0 $"foo" false)))) [(Node 9 $"int" (IntegerLiteral (3)%Z))])); (Node 10 [] (ReturnStmt (Some (Node 11 $"int" (IntegerLiteral (0)%Z)))))]))))))];
     ts_locs := [(2,5,2,19); (2,14,2,18); (3,5,6,5); (3,14,3,18); (3,24,3,30); (3,38,6,5); (4,9,4,14); (4,9,4,9); (4,9,4,9); (4,13,4,13); (5,9,5,16); (5,16,5,16)]%Z;
     ts_evals := []; ts_same := []; ts_decls := [(0, (Decl [$"oclint:enforce[prohibited method]"] None))]; ts_parents := [(None, true); ((Some 0), true); (None, true); ((Some 2), true); ((Some 2), true); ((Some 2), false); ((Some 5), false); ((Some 6), false); ((Some 7), false); ((Some 6), false); ((Some 5), false); ((Some 10), false)] |}.
Example ObjCVerifyProhibitedCallRule_ProhibitedFunctionCall_holds : nth_violation (shippedRule sh_ObjCVerifyProhibitedCall) ObjCVerifyProhibitedCallRule_ProhibitedFunctionCall 0 = Some (4, 9, 4, 14, $"calling prohibited function foo")%Z.
Proof. vm_compute. reflexivity. Qed.

Definition ObjCVerifyProhibitedCallRule_RedeclareFunctionCallBefore : testcase :=
  {| ts_lang := LObjC; ts_path := $"input.m"; ts_code := [];
     ts_comments := []; ts_conf := [];
     ts_tops := [(toplevel 0 (TFunction false), (Node 0 [] (FunctionDecl {| f_name := $"foo"; f_method := None; f_isDefinition := false; f_bodyLines := (0)%Z |} [(Node 1 [] (VarDecl {| v_isParm := true; v_name := $"x"; v_used := false; v_referenced := false; v_local := false; v_staticMember := false; v_private := false; v_unusedAttr := false; v_defaultArg := false; v_canonicalType := $"int"; v_inTemplate := false; v_contexts := [CxFunction false false false] |} None))] None))); (toplevel 2 (TFunction false), (Node 2 [] (FunctionDecl {| f_name := $"foo"; f_method := None; f_isDefinition := false; f_bodyLines := (0)%Z |} [(Node 3 [] (VarDecl {| v_isParm := true; v_name := $"x"; v_used := false; v_referenced := false; v_local := false; v_staticMember := false; v_private := false; v_unusedAttr := false; v_defaultArg := false; v_canonicalType := $"int"; v_inTemplate := false; v_contexts := [CxFunction false false false] |} None))] None))); (toplevel 4 (TFunction false), (Node 4 [] (FunctionDecl {| f_name := $"main"; f_method := None; f_isDefinition := true; f_bodyLines := (4)%Z |} [(Node 5 [] (VarDecl {| v_isParm := true; v_name := $"argc"; v_used := false; v_referenced := false; v_local := false; v_staticMember := false; v_private := false; v_unusedAttr := false; v_defaultArg := false; v_canonicalType := $"int"; v_inTemplate := false; v_contexts := [CxFunction true true false] |} None)); (Node 6 [] (VarDecl {| v_isParm := true; v_name := $"argv"; v_used := false; v_referenced := false; v_local := false; v_staticMember := false; v_private := false; v_unusedAttr := false; v_defaultArg := false; v_canonicalType := $"char **"; v_inTemplate := false; v_contexts := [CxFunction true true false] |} None))] (Some (Node 7 [] (CompoundStmt [(Node 8 $"void" (CallExpr (Some ($"foo", (Decl [$"oclint:enforce[prohibited method]"] None))) (Node 9 $"void (int) *" (ImplicitCastExpr CK_Other (Node 10 $"void (int)" (DeclRefExpr 0 $"foo" false)))) [(Node 11 $"int" (IntegerLiteral (3)%Z))])); (Node 12 [] (ReturnStmt (Some (Node 13 $"int" (IntegerLiteral (0)%Z)))))]))))))];
     ts_locs := [(2,5,2,19); (2,14,2,18); (3,5,3,19); (3,14,3,18); (4,5,7,5); (4,14,4,18); (4,24,4,30); (4,38,7,5); (5,9,5,14); (5,9,5,9); (5,9,5,9); (5,13,5,13); (6,9,6,16); (6,16,6,16)]%Z;
     ts_evals := []; ts_same := []; ts_decls := [(2, (Decl [$"oclint:enforce[prohibited method]"] None))]; ts_parents := [(None, true); ((Some 0), true); (None, true); ((Some 2), true); (None, true); ((Some 4), true); ((Some 4), true); ((Some 4), false); ((Some 7), false); ((Some 8), false); ((Some 9), false); ((Some 8), false); ((Some 7), false); ((Some 12), false)] |}.
Example ObjCVerifyProhibitedCallRule_RedeclareFunctionCallBefore_holds : nth_violation (shippedRule sh_ObjCVerifyProhibitedCall) ObjCVerifyProhibitedCallRule_RedeclareFunctionCallBefore 0 = Some (5, 9, 5, 14, $"calling prohibited function foo")%Z.
Proof. vm_compute. reflexivity. Qed.

Definition ObjCVerifyProhibitedCallRule_RedeclareFunctionCallAfter : testcase :=
  {| ts_lang := LObjC; ts_path := $"input.m"; ts_code := [];
     ts_comments := []; ts_conf := [];
     ts_tops := [(toplevel 0 (TFunction false), (Node 0 [] (FunctionDecl {| f_name := $"foo"; f_method := None; f_isDefinition := false; f_bodyLines := (0)%Z |} [(Node 1 [] (VarDecl {| v_isParm := true; v_name := $"x"; v_used := false; v_referenced := false; v_local := false; v_staticMember := false; v_private := false; v_unusedAttr := false; v_defaultArg := false; v_canonicalType := $"int"; v_inTemplate := false; v_contexts := [CxFunction false false false] |} None))] None))); (toplevel 2 (TFunction false), (Node 2 [] (FunctionDecl {| f_name := $"foo"; f_method := None; f_isDefinition := false; f_bodyLines := (0)%Z |} [(Node 3 [] (VarDecl {| v_isParm := true; v_name := $"x"; v_used := false; v_referenced := false; v_local := false; v_staticMember := false; v_private := false; v_unusedAttr := false; v_defaultArg := false; v_canonicalType := $"int"; v_inTemplate := false; v_contexts := [CxFunction false false false] |} None))] None))); (toplevel 4 (TFunction false), (Node 4 [] (FunctionDecl {| f_name := $"main"; f_method := None; f_isDefinition := true; f_bodyLines := (4)%Z |} [(Node 5 [] (VarDecl {| v_isParm := true; v_name := $"argc"; v_used := false; v_referenced := false; v_local := false; v_staticMember := false; v_private := false; v_unusedAttr := false; v_defaultArg := false; v_canonicalType := $"int"; v_inTemplate := false; v_contexts := [CxFunction true true false] |} None)); (Node 6 [] (VarDecl {| v_isParm := true; v_name := $"argv"; v_used := false; v_referenced := false; v_local := false; v_staticMember := false; v_private := false; v_unusedAttr := false; v_defaultArg := false; v_canonicalType := $"char **"; v_inTemplate := false; v_contexts := [CxFunction true true false] |} None))] (Some (Node 7 [] (CompoundStmt [(Node 8 $"void" (CallExpr (Some ($"foo", (Decl [$"oclint:enforce[prohibited method]"] None))) (Node 9 $"void (int) *" (ImplicitCastExpr CK_Other (Node 10 $"void (int)" (DeclRefExpr 0 $"foo" false)))) [(Node 11 $"int" (IntegerLiteral (3)%Z))])); (Node 12 [] (ReturnStmt (Some (Node 13 $"int" (IntegerLiteral (0)%Z)))))]))))))];
     ts_locs := [(2,5,2,19); (2,14,2,18); (3,5,3,19); (3,14,3,18); (4,5,7,5); (4,14,4,18); (4,24,4,30); (4,38,7,5); (5,9,5,14); (5,9,5,9); (5,9,5,9); (5,13,5,13); (6,9,6,16); (6,16,6,16)]%Z;
     ts_evals := []; ts_same := []; ts_decls := [(0, (Decl [$"oclint:enforce[prohibited method]"] None)); (2, (Decl [$"oclint:enforce[prohibited method]"] None))]; ts_parents := [(None, true); ((Some 0), true); (None, true); ((Some 2), true); (None, true); ((Some 4), true); ((Some 4), true); ((Some 4), false); ((Some 7), false); ((Some 8), false); ((Some 9), false); ((Some 8), false); ((Some 7), false); ((Some 12), false)] |}.
Example ObjCVerifyProhibitedCallRule_RedeclareFunctionCallAfter_holds : nth_violation (shippedRule sh_ObjCVerifyProhibitedCall) ObjCVerifyProhibitedCallRule_RedeclareFunctionCallAfter 0 = Some (5, 9, 5, 14, $"calling prohibited function foo")%Z.
Proof. vm_compute. reflexivity. Qed.

Definition ObjCVerifyProhibitedCallRule_CommentFunction : testcase :=
  {| ts_lang := LObjC; ts_path := $"input.m"; ts_code := [];
     ts_comments := []; ts_conf := [];
     ts_tops := [(toplevel 0 (TFunction false), (Node 0 [] (FunctionDecl {| f_name := $"foo"; f_method := None; f_isDefinition := false; f_bodyLines := (0)%Z |} [(Node 1 [] (VarDecl {| v_isParm := true; v_name := $"x"; v_used := false; v_referenced := false; v_local := false; v_staticMember := false; v_private := false; v_unusedAttr := false; v_defaultArg := false; v_canonicalType := $"int"; v_inTemplate := false; v_contexts := [CxFunction false false false] |} None))] None))); (toplevel 2 (TFunction false), (Node 2 [] (FunctionDecl {| f_name := $"main"; f_method := None; f_isDefinition := true; f_bodyLines := (4)%Z |} [(Node 3 [] (VarDecl {| v_isParm := true; v_name := $"argc"; v_used := false; v_referenced := false; v_local := false; v_staticMember := false; v_private := false; v_unusedAttr := false; v_defaultArg := false; v_canonicalType := $"int"; v_inTemplate := false; v_contexts := [CxFunction true true false] |} None)); (Node 4 [] (VarDecl {| v_isParm := true; v_name := $"argv"; v_used := false; v_referenced := false; v_local := false; v_staticMember := false; v_private := false; v_unusedAttr := false; v_defaultArg := false; v_canonicalType := $"char **"; v_inTemplate := false; v_contexts := [CxFunction true true false] |} None))] (Some (Node 5 [] (CompoundStmt [(Node 6 $"void" (CallExpr (Some ($"foo", (Decl [$"oclint:enforce[prohibited method][bar]"] None))) (Node 7 $"void (int) *" (ImplicitCastExpr CK_Other (Node 8 $"void (int)" (DeclRefExpr 0 $"foo" false)))) [(Node 9 $"int" (IntegerLiteral (3)%Z))])); (Node 10 [] (ReturnStmt (Some (Node 11 $"int" (IntegerLiteral (0)%Z)))))]))))))];
     ts_locs := [(2,5,2,19); (2,14,2,18); (3,5,6,5); (3,14,3,18); (3,24,3,30); (3,38,6,5); (4,9,4,14); (4,9,4,9); (4,9,4,9); (4,13,4,13); (5,9,5,16); (5,16,5,16)]%Z;
     ts_evals := []; ts_same := []; ts_decls := [(0, (Decl [$"oclint:enforce[prohibited method][bar]"] None))]; ts_parents := [(None, true); ((Some 0), true); (None, true); ((Some 2), true); ((Some 2), true); ((Some 2), false); ((Some 5), false); ((Some 6), false); ((Some 7), false); ((Some 6), false); ((Some 5), false); ((Some 10), false)] |}.
Example ObjCVerifyProhibitedCallRule_CommentFunction_holds : nth_violation (shippedRule sh_ObjCVerifyProhibitedCall) ObjCVerifyProhibitedCallRule_CommentFunction 0 = Some (4, 9, 4, 14, $"calling prohibited function foo instead use bar")%Z.
Proof. vm_compute. reflexivity. Qed.

Definition ObjCVerifyProhibitedCallRule_CommentMethod : testcase :=
  {| ts_lang := LObjC; ts_path := $"input.m"; ts_code := [];
     ts_comments := []; ts_conf := [];
     ts_tops := [(toplevel 0 (TOther), (Node 0 [] (ObjCContainerDecl {| oc_kind := OKInterface; oc_name := $"NSObject"; oc_lines := (3)%Z; oc_ivars := 0; oc_methods := []; oc_classes := [$"NSObject"]; oc_superMethods := None |} []))); (toplevel 1 (TOther), (Node 1 [] (ObjCContainerDecl {| oc_kind := OKInterface; oc_name := $"A"; oc_lines := (5)%Z; oc_ivars := 0; oc_methods := [($"foo", true)]; oc_classes := [$"A"; $"NSObject"]; oc_superMethods := (Some ($"NSObject", [])) |} [(Node 2 [] (ObjCMethodDecl {| om_selector := $"foo"; om_class := (Some $"A"); om_overriding := false; om_overridden := []; om_bodyLines := (0)%Z |} [] None))]))); (toplevel 3 (TOther), (Node 3 [] (ObjCContainerDecl {| oc_kind := OKInterface; oc_name := $"B"; oc_lines := (3)%Z; oc_ivars := 0; oc_methods := [($"a", true); ($"setA:", true)]; oc_classes := [$"B"; $"NSObject"]; oc_superMethods := (Some ($"NSObject", [])) |} [(Node 4 [] (OtherDecl []))]))); (toplevel 5 (TOther), (Node 5 [] (ObjCContainerDecl {| oc_kind := OKImplementation; oc_name := $"B"; oc_lines := (5)%Z; oc_ivars := 0; oc_methods := [($"doSomething", true)]; oc_classes := [$"B"; $"NSObject"]; oc_superMethods := (Some ($"NSObject", [])) |} [(Node 6 [] (ObjCMethodDecl {| om_selector := $"doSomething"; om_class := (Some $"B"); om_overriding := false; om_overridden := []; om_bodyLines := (3)%Z |} [] (Some (Node 7 [] (CompoundStmt [(Node 8 $"void" (ObjCMessageExpr {| ms_selector := $"foo"; ms_receiver := RInstance; ms_implicit := false; ms_interface := (Some $"A"); ms_method := (Some (Decl [$"oclint:enforce[prohibited method][bar]"] (Some (Method false None (InOther (Some NoCategory)))))); ms_methodClass := (Some $"A") |} (Some (Node 9 $"A *" (OtherExpr [(Node 10 $"A *" (ObjCPropertyRefExpr false (Some $"B") (Some $"B") (Some (Node 11 $"B *" (OtherExpr []))))); (Node 12 $"B *" (ImplicitCastExpr CK_LValueToRValue (Node 13 $"B *" (DeclRefExpr 1014 $"self" false)))); (Node 14 $"A *" (ObjCMessageExpr {| ms_selector := $"a"; ms_receiver := RInstance; ms_implicit := true; ms_interface := (Some $"B"); ms_method := (Some (Decl [] (Some (Method true (Some []) (InOther (Some NoCategory)))))); ms_methodClass := (Some $"B") |} (Some (Node 15 $"B *" (OtherExpr []))) []))]))) []))])))))])))];
     ts_locs := [(2,5,4,6); (6,5,10,6); (8,5,8,84); (11,5,13,6); (12,5,12,38); (14,5,18,5); (15,5,17,5); (15,25,17,5); (16,9,16,20); (16,10,16,15); (16,10,16,15); (16,10,16,10); (16,10,16,10); (16,10,16,10); (16,15,16,15); (16,10,16,10)]%Z;
     ts_evals := []; ts_same := []; ts_decls := [(2, (Decl [$"oclint:enforce[prohibited method][bar]"] (Some (Method false None (InOther (Some NoCategory)))))); (6, (Decl [] (Some (Method false None (InOther (Some NoCategory))))))]; ts_parents := [(None, true); (None, true); ((Some 1), true); (None, true); ((Some 3), true); (None, true); ((Some 5), true); ((Some 6), false); ((Some 7), false); ((Some 8), false); ((Some 9), false); ((Some 10), false); ((Some 9), false); ((Some 12), false); ((Some 9), false); ((Some 14), false)] |}.
Example ObjCVerifyProhibitedCallRule_CommentMethod_holds : nth_violation (shippedRule sh_ObjCVerifyProhibitedCall) ObjCVerifyProhibitedCallRule_CommentMethod 0 = Some (16, 9, 16, 20, $"calling prohibited method foo instead use bar")%Z.
Proof. vm_compute. reflexivity. Qed.

Definition ObjCVerifyProhibitedCallRule_ProtocolNoAnnotation : testcase :=
  {| ts_lang := LObjC; ts_path := $"input.m"; ts_code := [];
     ts_comments := []; ts_conf := [];
     ts_tops := [(toplevel 0 (TOther), (Node 0 [] (OtherDecl []))); (toplevel 1 (TOther), (Node 1 [] (ObjCContainerDecl {| oc_kind := OKProtocol; oc_name := $"NSObject"; oc_lines := (3)%Z; oc_ivars := 0; oc_methods := [($"respondsToSelector:", true)]; oc_classes := []; oc_superMethods := None |} [(Node 2 [] (ObjCMethodDecl {| om_selector := $"respondsToSelector:"; om_class := None; om_overriding := false; om_overridden := []; om_bodyLines := (0)%Z |} [(Node 3 [] (VarDecl {| v_isParm := true; v_name := $"selector"; v_used := false; v_referenced := false; v_local := false; v_staticMember := false; v_private := false; v_unusedAttr := false; v_defaultArg := false; v_canonicalType := $"objc_selector *"; v_inTemplate := false; v_contexts := [CxObjCMethod true false true false] |} None))] None))]))); (toplevel 4 (TOther), (Node 4 [] (ObjCContainerDecl {| oc_kind := OKInterface; oc_name := $"NSObject"; oc_lines := (2)%Z; oc_ivars := 0; oc_methods := []; oc_classes := [$"NSObject"]; oc_superMethods := None |} []))); (toplevel 5 (TOther), (Node 5 [] (ObjCContainerDecl {| oc_kind := OKInterface; oc_name := $"A"; oc_lines := (2)%Z; oc_ivars := 0; oc_methods := []; oc_classes := [$"A"; $"NSObject"]; oc_superMethods := (Some ($"NSObject", [])) |} []))); (toplevel 6 (TOther), (Node 6 [] (ObjCContainerDecl {| oc_kind := OKImplementation; oc_name := $"A"; oc_lines := (5)%Z; oc_ivars := 0; oc_methods := [($"foo", true)]; oc_classes := [$"A"; $"NSObject"]; oc_superMethods := (Some ($"NSObject", [])) |} [(Node 7 [] (ObjCMethodDecl {| om_selector := $"foo"; om_class := (Some $"A"); om_overriding := false; om_overridden := []; om_bodyLines := (3)%Z |} [] (Some (Node 8 [] (CompoundStmt [(Node 9 [] (DeclStmt [(Node 10 [] (VarDecl {| v_isParm := false; v_name := $"result"; v_used := false; v_referenced := false; v_local := true; v_staticMember := false; v_private := false; v_unusedAttr := false; v_defaultArg := false; v_canonicalType := $"int"; v_inTemplate := false; v_contexts := [CxObjCMethod false false false false] |} (Some (Node 11 $"int" (ObjCMessageExpr {| ms_selector := $"respondsToSelector:"; ms_receiver := RInstance; ms_implicit := false; ms_interface := (Some $"A"); ms_method := (Some (Decl [] (Some (Method false None (InProtocol (Some [])))))); ms_methodClass := None |} (Some (Node 12 $"A *" (ImplicitCastExpr CK_LValueToRValue (Node 13 $"A *" (DeclRefExpr 1013 $"self" false))))) [(Node 14 $"SEL" (OtherExpr []))])))))]))])))))])))];
     ts_locs := [(2,9,2,21); (3,9,5,10); (4,13,4,52); (4,40,4,44); (6,9,7,10); (8,9,9,10); (10,9,14,9); (11,13,13,13); (11,25,13,13); (12,17,12,70); (12,17,12,69); (12,30,12,69); (12,31,12,31); (12,31,12,31); (12,55,12,68)]%Z;
     ts_evals := []; ts_same := []; ts_decls := []; ts_parents := [] |}.
Example ObjCVerifyProhibitedCallRule_ProtocolNoAnnotation_holds : sorted_violations_of (shippedRule sh_ObjCVerifyProhibitedCall) ObjCVerifyProhibitedCallRule_ProtocolNoAnnotation = Some [].
Proof. vm_compute. reflexivity. Qed.

Definition ObjCVerifyProhibitedCallRule_ProtocolAnnotation : testcase :=
  {| ts_lang := LObjC; ts_path := $"input.m"; ts_code := [];
     ts_comments := []; ts_conf := [];
     ts_tops := [(toplevel 0 (TOther), (Node 0 [] (OtherDecl []))); (toplevel 1 (TOther), (Node 1 [] (ObjCContainerDecl {| oc_kind := OKProtocol; oc_name := $"NSObject"; oc_lines := (4)%Z; oc_ivars := 0; oc_methods := [($"respondsToSelector:", true)]; oc_classes := []; oc_superMethods := None |} [(Node 2 [] (ObjCMethodDecl {| om_selector := $"respondsToSelector:"; om_class := None; om_overriding := false; om_overridden := []; om_bodyLines := (0)%Z |} [(Node 3 [] (VarDecl {| v_isParm := true; v_name := $"selector"; v_used := false; v_referenced := false; v_local := false; v_staticMember := false; v_private := false; v_unusedAttr := false; v_defaultArg := false; v_canonicalType := $"objc_selector *"; v_inTemplate := false; v_contexts := [CxObjCMethod true false true false] |} None))] None))]))); (toplevel 4 (TOther), (Node 4 [] (ObjCContainerDecl {| oc_kind := OKInterface; oc_name := $"NSObject"; oc_lines := (2)%Z; oc_ivars := 0; oc_methods := []; oc_classes := [$"NSObject"]; oc_superMethods := None |} []))); (toplevel 5 (TOther), (Node 5 [] (ObjCContainerDecl {| oc_kind := OKInterface; oc_name := $"A"; oc_lines := (2)%Z; oc_ivars := 0; oc_methods := []; oc_classes := [$"A"; $"NSObject"]; oc_superMethods := (Some ($"NSObject", [])) |} []))); (toplevel 6 (TOther), (Node 6 [] (ObjCContainerDecl {| oc_kind := OKImplementation; oc_name := $"A"; oc_lines := (5)%Z; oc_ivars := 0; oc_methods := [($"foo", true)]; oc_classes := [$"A"; $"NSObject"]; oc_superMethods := (Some ($"NSObject", [])) |} [(Node 7 [] (ObjCMethodDecl {| om_selector := $"foo"; om_class := (Some $"A"); om_overriding := false; om_overridden := []; om_bodyLines := (3)%Z |} [] (Some (Node 8 [] (CompoundStmt [(Node 9 [] (DeclStmt [(Node 10 [] (VarDecl {| v_isParm := false; v_name := $"result"; v_used := false; v_referenced := false; v_local := true; v_staticMember := false; v_private := false; v_unusedAttr := false; v_defaultArg := false; v_canonicalType := $"int"; v_inTemplate := false; v_contexts := [CxObjCMethod false false false false] |} (Some (Node 11 $"int" (ObjCMessageExpr {| ms_selector := $"respondsToSelector:"; ms_receiver := RInstance; ms_implicit := false; ms_interface := (Some $"A"); ms_method := (Some (Decl [$"oclint:enforce[prohibited method]"] (Some (Method false None (InProtocol (Some [$"oclint:enforce[prohibited method]"])))))); ms_methodClass := None |} (Some (Node 12 $"A *" (ImplicitCastExpr CK_LValueToRValue (Node 13 $"A *" (DeclRefExpr 1013 $"self" false))))) [(Node 14 $"SEL" (OtherExpr []))])))))]))])))))])))];
     ts_locs := [(2,9,2,21); (3,9,6,10); (4,13,5,75); (4,40,4,44); (7,9,8,10); (9,9,10,10); (11,9,15,9); (12,13,14,13); (12,25,14,13); (13,17,13,70); (13,17,13,69); (13,30,13,69); (13,31,13,31); (13,31,13,31); (13,55,13,68)]%Z;
     ts_evals := []; ts_same := []; ts_decls := [(2, (Decl [$"oclint:enforce[prohibited method]"] (Some (Method false None (InProtocol (Some [$"oclint:enforce[prohibited method]"])))))); (7, (Decl [] (Some (Method false None (InOther (Some NoCategory))))))]; ts_parents := [(None, true); (None, true); ((Some 1), true); ((Some 2), true); (None, true); (None, true); (None, true); ((Some 6), true); ((Some 7), false); ((Some 8), false); ((Some 9), true); ((Some 10), false); ((Some 11), false); ((Some 12), false); ((Some 11), false)] |}.
Example ObjCVerifyProhibitedCallRule_ProtocolAnnotation_holds : nth_violation (shippedRule sh_ObjCVerifyProhibitedCall) ObjCVerifyProhibitedCallRule_ProtocolAnnotation 0 = Some (13, 30, 13, 69, $"calling prohibited method respondsToSelector:")%Z.
Proof. vm_compute. reflexivity. Qed.

(** ** oclint-rules/test/cocoa/ObjCVerifyProtectedMethodRuleTest.cpp *)

Definition ObjCVerifyProtectedMethodRule_testOutsideCaller : testcase :=
  {| ts_lang := LObjC; ts_path := $"input.m"; ts_code := [];
     ts_comments := []; ts_conf := [];
     ts_tops := [(toplevel 0 (TOther), (Node 0 [] (ObjCContainerDecl {| oc_kind := OKInterface; oc_name := $"NSObject"; oc_lines := (3)%Z; oc_ivars := 0; oc_methods := []; oc_classes := [$"NSObject"]; oc_superMethods := None |} []))); (toplevel 1 (TOther), (Node 1 [] (ObjCContainerDecl {| oc_kind := OKInterface; oc_name := $"A"; oc_lines := (5)%Z; oc_ivars := 0; oc_methods := [($"foo", true)]; oc_classes := [$"A"; $"NSObject"]; oc_superMethods := (Some ($"NSObject", [])) |} [(Node 2 [] (ObjCMethodDecl {| om_selector := $"foo"; om_class := (Some $"A"); om_overriding := false; om_overridden := []; om_bodyLines := (0)%Z |} [] None))]))); (toplevel 3 (TOther), (Node 3 [] (ObjCContainerDecl {| oc_kind := OKInterface; oc_name := $"B"; oc_lines := (3)%Z; oc_ivars := 0; oc_methods := [($"a", true); ($"setA:", true)]; oc_classes := [$"B"; $"NSObject"]; oc_superMethods := (Some ($"NSObject", [])) |} [(Node 4 [] (OtherDecl []))]))); (toplevel 5 (TOther), (Node 5 [] (ObjCContainerDecl {| oc_kind := OKImplementation; oc_name := $"B"; oc_lines := (5)%Z; oc_ivars := 0; oc_methods := [($"bar", true)]; oc_classes := [$"B"; $"NSObject"]; oc_superMethods := (Some ($"NSObject", [])) |} [(Node 6 [] (ObjCMethodDecl {| om_selector := $"bar"; om_class := (Some $"B"); om_overriding := false; om_overridden := []; om_bodyLines := (3)%Z |} [] (Some (Node 7 [] (CompoundStmt [(Node 8 $"void" (ObjCMessageExpr {| ms_selector := $"foo"; ms_receiver := RInstance; ms_implicit := false; ms_interface := (Some $"A"); ms_method := (Some (Decl [$"oclint:enforce[protected method]"] (Some (Method false None (InOther (Some NoCategory)))))); ms_methodClass := (Some $"A") |} (Some (Node 9 $"A *" (OtherExpr [(Node 10 $"A *" (ObjCPropertyRefExpr false (Some $"B") (Some $"B") (Some (Node 11 $"B *" (OtherExpr []))))); (Node 12 $"B *" (ImplicitCastExpr CK_LValueToRValue (Node 13 $"B *" (DeclRefExpr 1014 $"self" false)))); (Node 14 $"A *" (ObjCMessageExpr {| ms_selector := $"a"; ms_receiver := RInstance; ms_implicit := true; ms_interface := (Some $"B"); ms_method := (Some (Decl [] (Some (Method true (Some []) (InOther (Some NoCategory)))))); ms_methodClass := (Some $"B") |} (Some (Node 15 $"B *" (OtherExpr []))) []))]))) []))])))))])))];
     ts_locs := [(1,1,3,2); (5,1,9,2); (7,1,7,74); (11,1,13,2); (12,1,12,34); (14,5,18,5); (15,5,17,5); (15,17,17,5); (16,9,16,20); (16,10,16,15); (16,10,16,15); (16,10,16,10); (16,10,16,10); (16,10,16,10); (16,15,16,15); (16,10,16,10)]%Z;
     ts_evals := []; ts_same := []; ts_decls := [(2, (Decl [$"oclint:enforce[protected method]"] (Some (Method false None (InOther (Some NoCategory)))))); (6, (Decl [] (Some (Method false None (InOther (Some NoCategory))))))]; ts_parents := [(None, true); (None, true); ((Some 1), true); (None, true); ((Some 3), true); (None, true); ((Some 5), true); ((Some 6), false); ((Some 7), false); ((Some 8), false); ((Some 9), false); ((Some 10), false); ((Some 9), false); ((Some 12), false); ((Some 9), false); ((Some 14), false)] |}.
Example ObjCVerifyProtectedMethodRule_testOutsideCaller_holds : nth_violation (shippedRule sh_ObjCVerifyProtectedMethod) ObjCVerifyProtectedMethodRule_testOutsideCaller 0 = Some (16, 9, 16, 20, $"calling protected method foo from outside A and its subclasses")%Z.
Proof. vm_compute. reflexivity. Qed.

Definition ObjCVerifyProtectedMethodRule_InsideClassTest : testcase :=
  {| ts_lang := LObjC; ts_path := $"input.m"; ts_code := [];
     ts_comments := []; ts_conf := [];
     ts_tops := [(toplevel 0 (TOther), (Node 0 [] (ObjCContainerDecl {| oc_kind := OKInterface; oc_name := $"NSObject"; oc_lines := (3)%Z; oc_ivars := 0; oc_methods := []; oc_classes := [$"NSObject"]; oc_superMethods := None |} []))); (toplevel 1 (TOther), (Node 1 [] (ObjCContainerDecl {| oc_kind := OKInterface; oc_name := $"A"; oc_lines := (5)%Z; oc_ivars := 0; oc_methods := [($"foo", true)]; oc_classes := [$"A"; $"NSObject"]; oc_superMethods := (Some ($"NSObject", [])) |} [(Node 2 [] (ObjCMethodDecl {| om_selector := $"foo"; om_class := (Some $"A"); om_overriding := false; om_overridden := []; om_bodyLines := (0)%Z |} [] None))]))); (toplevel 3 (TOther), (Node 3 [] (ObjCContainerDecl {| oc_kind := OKInterface; oc_name := $"B"; oc_lines := (3)%Z; oc_ivars := 0; oc_methods := [($"a", true); ($"setA:", true)]; oc_classes := [$"B"; $"NSObject"]; oc_superMethods := (Some ($"NSObject", [])) |} [(Node 4 [] (OtherDecl []))]))); (toplevel 5 (TOther), (Node 5 [] (ObjCContainerDecl {| oc_kind := OKImplementation; oc_name := $"A"; oc_lines := (7)%Z; oc_ivars := 0; oc_methods := [($"foo", true); ($"bar", true)]; oc_classes := [$"A"; $"NSObject"]; oc_superMethods := (Some ($"NSObject", [])) |} [(Node 6 [] (ObjCMethodDecl {| om_selector := $"foo"; om_class := (Some $"A"); om_overriding := false; om_overridden := []; om_bodyLines := (2)%Z |} [] (Some (Node 7 [] (CompoundStmt []))))); (Node 8 [] (ObjCMethodDecl {| om_selector := $"bar"; om_class := (Some $"A"); om_overriding := false; om_overridden := []; om_bodyLines := (3)%Z |} [] (Some (Node 9 [] (CompoundStmt [(Node 10 $"void" (ObjCMessageExpr {| ms_selector := $"foo"; ms_receiver := RInstance; ms_implicit := false; ms_interface := (Some $"A"); ms_method := (Some (Decl [$"oclint:enforce[protected method]"] (Some (Method false None (InOther (Some NoCategory)))))); ms_methodClass := (Some $"A") |} (Some (Node 11 $"A *" (ImplicitCastExpr CK_LValueToRValue (Node 12 $"A *" (DeclRefExpr 1011 $"self" false))))) []))])))))])))];
     ts_locs := [(1,1,3,2); (5,1,9,2); (7,1,7,74); (11,1,13,2); (12,1,12,34); (14,5,20,5); (15,5,16,5); (15,17,16,5); (17,5,19,5); (17,17,19,5); (18,9,18,18); (18,10,18,10); (18,10,18,10)]%Z;
     ts_evals := []; ts_same := []; ts_decls := [(2, (Decl [$"oclint:enforce[protected method]"] (Some (Method false None (InOther (Some NoCategory)))))); (6, (Decl [$"oclint:enforce[protected method]"] (Some (Method false None (InOther (Some NoCategory)))))); (8, (Decl [] (Some (Method false None (InOther (Some NoCategory))))))]; ts_parents := [(None, true); (None, true); ((Some 1), true); (None, true); ((Some 3), true); (None, true); ((Some 5), true); ((Some 6), false); ((Some 5), true); ((Some 8), false); ((Some 9), false); ((Some 10), false); ((Some 11), false)] |}.
Example ObjCVerifyProtectedMethodRule_InsideClassTest_holds : sorted_violations_of (shippedRule sh_ObjCVerifyProtectedMethod) ObjCVerifyProtectedMethodRule_InsideClassTest = Some [].
Proof. vm_compute. reflexivity. Qed.

Definition ObjCVerifyProtectedMethodRule_InsideChildTest : testcase :=
  {| ts_lang := LObjC; ts_path := $"input.m"; ts_code := [];
     ts_comments := []; ts_conf := [];
     ts_tops := [(toplevel 0 (TOther), (Node 0 [] (ObjCContainerDecl {| oc_kind := OKInterface; oc_name := $"NSObject"; oc_lines := (3)%Z; oc_ivars := 0; oc_methods := []; oc_classes := [$"NSObject"]; oc_superMethods := None |} []))); (toplevel 1 (TOther), (Node 1 [] (ObjCContainerDecl {| oc_kind := OKInterface; oc_name := $"A"; oc_lines := (5)%Z; oc_ivars := 0; oc_methods := [($"foo", true)]; oc_classes := [$"A"; $"NSObject"]; oc_superMethods := (Some ($"NSObject", [])) |} [(Node 2 [] (ObjCMethodDecl {| om_selector := $"foo"; om_class := (Some $"A"); om_overriding := false; om_overridden := []; om_bodyLines := (0)%Z |} [] None))]))); (toplevel 3 (TOther), (Node 3 [] (ObjCContainerDecl {| oc_kind := OKInterface; oc_name := $"B"; oc_lines := (3)%Z; oc_ivars := 0; oc_methods := [($"a", true); ($"setA:", true)]; oc_classes := [$"B"; $"NSObject"]; oc_superMethods := (Some ($"NSObject", [])) |} [(Node 4 [] (OtherDecl []))]))); (toplevel 5 (TOther), (Node 5 [] (ObjCContainerDecl {| oc_kind := OKInterface; oc_name := $"C"; oc_lines := (2)%Z; oc_ivars := 0; oc_methods := []; oc_classes := [$"C"; $"A"; $"NSObject"]; oc_superMethods := (Some ($"A", [($"foo", true, (Decl [$"oclint:enforce[protected method]"] (Some (Method false None (InOther (Some NoCategory))))))])) |} []))); (toplevel 6 (TOther), (Node 6 [] (ObjCContainerDecl {| oc_kind := OKImplementation; oc_name := $"C"; oc_lines := (7)%Z; oc_ivars := 0; oc_methods := [($"foo", true); ($"bar", true)]; oc_classes := [$"C"; $"A"; $"NSObject"]; oc_superMethods := (Some ($"A", [($"foo", true, (Decl [$"oclint:enforce[protected method]"] (Some (Method false None (InOther (Some NoCategory))))))])) |} [(Node 7 [] (ObjCMethodDecl {| om_selector := $"foo"; om_class := (Some $"C"); om_overriding := true; om_overridden := [(Decl [$"oclint:enforce[protected method]"] (Some (Method false None (InOther (Some NoCategory)))))]; om_bodyLines := (2)%Z |} [] (Some (Node 8 [] (CompoundStmt []))))); (Node 9 [] (ObjCMethodDecl {| om_selector := $"bar"; om_class := (Some $"C"); om_overriding := false; om_overridden := []; om_bodyLines := (3)%Z |} [] (Some (Node 10 [] (CompoundStmt [(Node 11 $"void" (ObjCMessageExpr {| ms_selector := $"foo"; ms_receiver := RInstance; ms_implicit := false; ms_interface := (Some $"C"); ms_method := (Some (Decl [$"oclint:enforce[protected method]"] (Some (Method false None (InOther (Some NoCategory)))))); ms_methodClass := (Some $"A") |} (Some (Node 12 $"C *" (ImplicitCastExpr CK_LValueToRValue (Node 13 $"C *" (DeclRefExpr 1012 $"self" false))))) []))])))))])))];
     ts_locs := [(1,1,3,2); (5,1,9,2); (7,1,7,74); (11,1,13,2); (12,1,12,34); (14,5,15,6); (17,5,23,5); (18,5,19,5); (18,17,19,5); (20,5,22,5); (20,17,22,5); (21,9,21,18); (21,10,21,10); (21,10,21,10)]%Z;
     ts_evals := []; ts_same := []; ts_decls := [(2, (Decl [$"oclint:enforce[protected method]"] (Some (Method false None (InOther (Some NoCategory)))))); (7, (Decl [] (Some (Method false None (InOther (Some NoCategory)))))); (9, (Decl [] (Some (Method false None (InOther (Some NoCategory))))))]; ts_parents := [(None, true); (None, true); ((Some 1), true); (None, true); ((Some 3), true); (None, true); (None, true); ((Some 6), true); ((Some 7), false); ((Some 6), true); ((Some 9), false); ((Some 10), false); ((Some 11), false); ((Some 12), false)] |}.
Example ObjCVerifyProtectedMethodRule_InsideChildTest_holds : sorted_violations_of (shippedRule sh_ObjCVerifyProtectedMethod) ObjCVerifyProtectedMethodRule_InsideChildTest = Some [].
Proof. vm_compute. reflexivity. Qed.

Definition ObjCVerifyProtectedMethodRule_InheritedMarkerTest : testcase :=
  {| ts_lang := LObjC; ts_path := $"input.m"; ts_code := [];
     ts_comments := []; ts_conf := [];
     ts_tops := [(toplevel 0 (TOther), (Node 0 [] (ObjCContainerDecl {| oc_kind := OKInterface; oc_name := $"NSObject"; oc_lines := (3)%Z; oc_ivars := 0; oc_methods := []; oc_classes := [$"NSObject"]; oc_superMethods := None |} []))); (toplevel 1 (TOther), (Node 1 [] (ObjCContainerDecl {| oc_kind := OKInterface; oc_name := $"A"; oc_lines := (5)%Z; oc_ivars := 0; oc_methods := [($"foo", true)]; oc_classes := [$"A"; $"NSObject"]; oc_superMethods := (Some ($"NSObject", [])) |} [(Node 2 [] (ObjCMethodDecl {| om_selector := $"foo"; om_class := (Some $"A"); om_overriding := false; om_overridden := []; om_bodyLines := (0)%Z |} [] None))]))); (toplevel 3 (TOther), (Node 3 [] (ObjCContainerDecl {| oc_kind := OKInterface; oc_name := $"B"; oc_lines := (3)%Z; oc_ivars := 0; oc_methods := [($"a", true); ($"setA:", true)]; oc_classes := [$"B"; $"NSObject"]; oc_superMethods := (Some ($"NSObject", [])) |} [(Node 4 [] (OtherDecl []))]))); (toplevel 5 (TOther), (Node 5 [] (ObjCContainerDecl {| oc_kind := OKInterface; oc_name := $"C"; oc_lines := (2)%Z; oc_ivars := 0; oc_methods := []; oc_classes := [$"C"; $"A"; $"NSObject"]; oc_superMethods := (Some ($"A", [($"foo", true, (Decl [$"oclint:enforce[protected method]"] (Some (Method false None (InOther (Some NoCategory))))))])) |} []))); (toplevel 6 (TOther), (Node 6 [] (ObjCContainerDecl {| oc_kind := OKInterface; oc_name := $"D"; oc_lines := (3)%Z; oc_ivars := 0; oc_methods := [($"c", true); ($"setC:", true)]; oc_classes := [$"D"; $"NSObject"]; oc_superMethods := (Some ($"NSObject", [])) |} [(Node 7 [] (OtherDecl []))]))); (toplevel 8 (TOther), (Node 8 [] (ObjCContainerDecl {| oc_kind := OKImplementation; oc_name := $"D"; oc_lines := (5)%Z; oc_ivars := 0; oc_methods := [($"bar", true)]; oc_classes := [$"D"; $"NSObject"]; oc_superMethods := (Some ($"NSObject", [])) |} [(Node 9 [] (ObjCMethodDecl {| om_selector := $"bar"; om_class := (Some $"D"); om_overriding := false; om_overridden := []; om_bodyLines := (3)%Z |} [] (Some (Node 10 [] (CompoundStmt [(Node 11 $"void" (ObjCMessageExpr {| ms_selector := $"foo"; ms_receiver := RInstance; ms_implicit := false; ms_interface := (Some $"C"); ms_method := (Some (Decl [$"oclint:enforce[protected method]"] (Some (Method false None (InOther (Some NoCategory)))))); ms_methodClass := (Some $"A") |} (Some (Node 12 $"C *" (OtherExpr [(Node 13 $"C *" (ObjCPropertyRefExpr false (Some $"D") (Some $"D") (Some (Node 14 $"D *" (OtherExpr []))))); (Node 15 $"D *" (ImplicitCastExpr CK_LValueToRValue (Node 16 $"D *" (DeclRefExpr 1017 $"self" false)))); (Node 17 $"C *" (ObjCMessageExpr {| ms_selector := $"c"; ms_receiver := RInstance; ms_implicit := true; ms_interface := (Some $"D"); ms_method := (Some (Decl [] (Some (Method true (Some []) (InOther (Some NoCategory)))))); ms_methodClass := (Some $"D") |} (Some (Node 18 $"D *" (OtherExpr []))) []))]))) []))])))))])))];
     ts_locs := [(1,1,3,2); (5,1,9,2); (7,1,7,74); (11,1,13,2); (12,1,12,34); (14,5,15,6); (16,5,18,6); (17,5,17,27); (19,5,23,5); (20,5,22,5); (20,17,22,5); (21,9,21,20); (21,10,21,15); (21,10,21,15); (21,10,21,10); (21,10,21,10); (21,10,21,10); (21,15,21,15); (21,10,21,10)]%Z;
     ts_evals := []; ts_same := []; ts_decls := [(2, (Decl [$"oclint:enforce[protected method]"] (Some (Method false None (InOther (Some NoCategory)))))); (9, (Decl [] (Some (Method false None (InOther (Some NoCategory))))))]; ts_parents := [(None, true); (None, true); ((Some 1), true); (None, true); ((Some 3), true); (None, true); (None, true); ((Some 6), true); (None, true); ((Some 8), true); ((Some 9), false); ((Some 10), false); ((Some 11), false); ((Some 12), false); ((Some 13), false); ((Some 12), false); ((Some 15), false); ((Some 12), false); ((Some 17), false)] |}.
Example ObjCVerifyProtectedMethodRule_InheritedMarkerTest_holds : nth_violation (shippedRule sh_ObjCVerifyProtectedMethod) ObjCVerifyProtectedMethodRule_InheritedMarkerTest 0 = Some (21, 9, 21, 20, $"calling protected method foo from outside A and its subclasses")%Z.
Proof. vm_compute. reflexivity. Qed.

Definition ObjCVerifyProtectedMethodRule_ProtectedPropertyGetterOutside : testcase :=
  {| ts_lang := LObjC; ts_path := $"input.m"; ts_code := [];
     ts_comments := []; ts_conf := [];
     ts_tops := [(toplevel 0 (TOther), (Node 0 [] (ObjCContainerDecl {| oc_kind := OKInterface; oc_name := $"NSObject"; oc_lines := (3)%Z; oc_ivars := 0; oc_methods := []; oc_classes := [$"NSObject"]; oc_superMethods := None |} []))); (toplevel 1 (TOther), (Node 1 [] (ObjCContainerDecl {| oc_kind := OKInterface; oc_name := $"A"; oc_lines := (5)%Z; oc_ivars := 0; oc_methods := [($"foo", true)]; oc_classes := [$"A"; $"NSObject"]; oc_superMethods := (Some ($"NSObject", [])) |} [(Node 2 [] (ObjCMethodDecl {| om_selector := $"foo"; om_class := (Some $"A"); om_overriding := false; om_overridden := []; om_bodyLines := (0)%Z |} [] None))]))); (toplevel 3 (TOther), (Node 3 [] (ObjCContainerDecl {| oc_kind := OKInterface; oc_name := $"B"; oc_lines := (3)%Z; oc_ivars := 0; oc_methods := [($"a", true); ($"setA:", true)]; oc_classes := [$"B"; $"NSObject"]; oc_superMethods := (Some ($"NSObject", [])) |} [(Node 4 [] (OtherDecl []))]))); (toplevel 5 (TOther), (Node 5 [] (ObjCContainerDecl {| oc_kind := OKInterface; oc_name := $"C"; oc_lines := (4)%Z; oc_ivars := 0; oc_methods := [($"a", true); ($"setA:", true)]; oc_classes := [$"C"; $"NSObject"]; oc_superMethods := (Some ($"NSObject", [])) |} [(Node 6 [] (OtherDecl []))]))); (toplevel 7 (TOther), (Node 7 [] (ObjCContainerDecl {| oc_kind := OKInterface; oc_name := $"D"; oc_lines := (3)%Z; oc_ivars := 0; oc_methods := [($"c", true); ($"setC:", true)]; oc_classes := [$"D"; $"NSObject"]; oc_superMethods := (Some ($"NSObject", [])) |} [(Node 8 [] (OtherDecl []))]))); (toplevel 9 (TOther), (Node 9 [] (ObjCContainerDecl {| oc_kind := OKImplementation; oc_name := $"D"; oc_lines := (5)%Z; oc_ivars := 0; oc_methods := [($"bar", true)]; oc_classes := [$"D"; $"NSObject"]; oc_superMethods := (Some ($"NSObject", [])) |} [(Node 10 [] (ObjCMethodDecl {| om_selector := $"bar"; om_class := (Some $"D"); om_overriding := false; om_overridden := []; om_bodyLines := (3)%Z |} [] (Some (Node 11 [] (CompoundStmt [(Node 12 [] (DeclStmt [(Node 13 [] (VarDecl {| v_isParm := false; v_name := $"a"; v_used := false; v_referenced := false; v_local := true; v_staticMember := false; v_private := false; v_unusedAttr := false; v_defaultArg := false; v_canonicalType := $"A *"; v_inTemplate := false; v_contexts := [CxObjCMethod false false false false] |} (Some (Node 14 $"A *" (OtherExpr [(Node 15 $"A *" (ObjCPropertyRefExpr false (Some $"C") (Some $"C") (Some (Node 16 $"C *" (OtherExpr []))))); (Node 17 $"C *" (OtherExpr [(Node 18 $"C *" (ObjCPropertyRefExpr false (Some $"D") (Some $"D") (Some (Node 19 $"D *" (OtherExpr []))))); (Node 20 $"D *" (ImplicitCastExpr CK_LValueToRValue (Node 21 $"D *" (DeclRefExpr 1024 $"self" false)))); (Node 22 $"C *" (ObjCMessageExpr {| ms_selector := $"c"; ms_receiver := RInstance; ms_implicit := true; ms_interface := (Some $"D"); ms_method := (Some (Decl [] (Some (Method true (Some []) (InOther (Some NoCategory)))))); ms_methodClass := (Some $"D") |} (Some (Node 23 $"D *" (OtherExpr []))) []))])); (Node 24 $"A *" (ObjCMessageExpr {| ms_selector := $"a"; ms_receiver := RInstance; ms_implicit := true; ms_interface := (Some $"C"); ms_method := (Some (Decl [] (Some (Method true (Some [$"oclint:enforce[protected method]"]) (InOther (Some NoCategory)))))); ms_methodClass := (Some $"C") |} (Some (Node 25 $"C *" (OtherExpr []))) []))])))))]))])))))])))];
     ts_locs := [(1,1,3,2); (5,1,9,2); (7,1,7,74); (11,1,13,2); (12,1,12,34); (14,5,17,6); (15,5,15,27); (18,5,20,6); (19,5,19,27); (21,5,25,5); (22,5,24,5); (22,17,24,5); (23,9,23,24); (23,9,23,23); (23,16,23,23); (23,16,23,23); (23,16,23,21); (23,16,23,21); (23,16,23,21); (23,16,23,16); (23,16,23,16); (23,16,23,16); (23,21,23,21); (23,16,23,16); (23,23,23,23); (23,16,23,21)]%Z;
     ts_evals := []; ts_same := []; ts_decls := [(2, (Decl [$"oclint:enforce[protected method]"] (Some (Method false None (InOther (Some NoCategory)))))); (6, (Decl [$"oclint:enforce[protected method]"] None)); (10, (Decl [] (Some (Method false None (InOther (Some NoCategory))))))]; ts_parents := [(None, true); (None, true); ((Some 1), true); (None, true); ((Some 3), true); (None, true); ((Some 5), true); (None, true); ((Some 7), true); (None, true); ((Some 9), true); ((Some 10), false); ((Some 11), false); ((Some 12), true); ((Some 13), false); ((Some 14), false); ((Some 15), false); ((Some 14), false); ((Some 17), false); ((Some 18), false); ((Some 17), false); ((Some 20), false); ((Some 17), false); ((Some 22), false); ((Some 14), false); ((Some 24), false)] |}.
Example ObjCVerifyProtectedMethodRule_ProtectedPropertyGetterOutside_holds : nth_violation (shippedRule sh_ObjCVerifyProtectedMethod) ObjCVerifyProtectedMethodRule_ProtectedPropertyGetterOutside 0 = Some (23, 23, 23, 23, $"calling protected method a from outside C and its subclasses")%Z.
Proof. vm_compute. reflexivity. Qed.

Definition ObjCVerifyProtectedMethodRule_ProtectedPropertySetterOutside : testcase :=
  {| ts_lang := LObjC; ts_path := $"input.m"; ts_code := [];
     ts_comments := []; ts_conf := [];
     ts_tops := [(toplevel 0 (TOther), (Node 0 [] (ObjCContainerDecl {| oc_kind := OKInterface; oc_name := $"NSObject"; oc_lines := (3)%Z; oc_ivars := 0; oc_methods := []; oc_classes := [$"NSObject"]; oc_superMethods := None |} []))); (toplevel 1 (TOther), (Node 1 [] (ObjCContainerDecl {| oc_kind := OKInterface; oc_name := $"A"; oc_lines := (5)%Z; oc_ivars := 0; oc_methods := [($"foo", true)]; oc_classes := [$"A"; $"NSObject"]; oc_superMethods := (Some ($"NSObject", [])) |} [(Node 2 [] (ObjCMethodDecl {| om_selector := $"foo"; om_class := (Some $"A"); om_overriding := false; om_overridden := []; om_bodyLines := (0)%Z |} [] None))]))); (toplevel 3 (TOther), (Node 3 [] (ObjCContainerDecl {| oc_kind := OKInterface; oc_name := $"B"; oc_lines := (3)%Z; oc_ivars := 0; oc_methods := [($"a", true); ($"setA:", true)]; oc_classes := [$"B"; $"NSObject"]; oc_superMethods := (Some ($"NSObject", [])) |} [(Node 4 [] (OtherDecl []))]))); (toplevel 5 (TOther), (Node 5 [] (ObjCContainerDecl {| oc_kind := OKInterface; oc_name := $"C"; oc_lines := (4)%Z; oc_ivars := 0; oc_methods := [($"a", true); ($"setA:", true)]; oc_classes := [$"C"; $"NSObject"]; oc_superMethods := (Some ($"NSObject", [])) |} [(Node 6 [] (OtherDecl []))]))); (toplevel 7 (TOther), (Node 7 [] (ObjCContainerDecl {| oc_kind := OKInterface; oc_name := $"D"; oc_lines := (3)%Z; oc_ivars := 0; oc_methods := [($"c", true); ($"setC:", true)]; oc_classes := [$"D"; $"NSObject"]; oc_superMethods := (Some ($"NSObject", [])) |} [(Node 8 [] (OtherDecl []))]))); (toplevel 9 (TOther), (Node 9 [] (ObjCContainerDecl {| oc_kind := OKImplementation; oc_name := $"D"; oc_lines := (5)%Z; oc_ivars := 0; oc_methods := [($"bar", true)]; oc_classes := [$"D"; $"NSObject"]; oc_superMethods := (Some ($"NSObject", [])) |} [(Node 10 [] (ObjCMethodDecl {| om_selector := $"bar"; om_class := (Some $"D"); om_overriding := false; om_overridden := []; om_bodyLines := (3)%Z |} [] (Some (Node 11 [] (CompoundStmt [(Node 12 $"A *" (OtherExpr [(Node 13 $"A *" (BinaryOperator BO_Assign (Node 14 $"A *" (ObjCPropertyRefExpr true (Some $"C") (Some $"C") (Some (Node 15 $"C *" (OtherExpr []))))) (Node 16 $"A *" (OtherExpr [])))); (Node 17 $"C *" (OtherExpr [(Node 18 $"C *" (ObjCPropertyRefExpr false (Some $"D") (Some $"D") (Some (Node 19 $"D *" (OtherExpr []))))); (Node 20 $"D *" (ImplicitCastExpr CK_LValueToRValue (Node 21 $"D *" (DeclRefExpr 1027 $"self" false)))); (Node 22 $"C *" (ObjCMessageExpr {| ms_selector := $"c"; ms_receiver := RInstance; ms_implicit := true; ms_interface := (Some $"D"); ms_method := (Some (Decl [] (Some (Method true (Some []) (InOther (Some NoCategory)))))); ms_methodClass := (Some $"D") |} (Some (Node 23 $"D *" (OtherExpr []))) []))])); (Node 24 $"A *" (ImplicitCastExpr CK_NullToPointer (Node 25 $"int" (IntegerLiteral (0)%Z)))); (Node 26 $"void" (ObjCMessageExpr {| ms_selector := $"setA:"; ms_receiver := RInstance; ms_implicit := true; ms_interface := (Some $"C"); ms_method := (Some (Decl [] (Some (Method true (Some [$"oclint:enforce[protected method]"]) (InOther (Some NoCategory)))))); ms_methodClass := (Some $"C") |} (Some (Node 27 $"C *" (OtherExpr []))) [(Node 28 $"A *" (OtherExpr []))]))]))])))))])))];
     ts_locs := [(1,1,3,2); (5,1,9,2); (7,1,7,74); (11,1,13,2); (12,1,12,34); (14,5,17,6); (15,5,15,27); (18,5,20,6); (19,5,19,27); (21,5,25,5); (22,5,24,5); (22,17,24,5); (23,9,23,20); (23,9,23,20); (23,9,23,16); (23,9,23,14); (23,20,23,20); (23,9,23,14); (23,9,23,14); (23,9,23,9); (23,9,23,9); (23,9,23,9); (23,14,23,14); (23,9,23,9); (23,20,23,20); (23,20,23,20); (23,16,23,16); (23,9,23,14); (23,20,23,20)]%Z;
     ts_evals := []; ts_same := []; ts_decls := [(2, (Decl [$"oclint:enforce[protected method]"] (Some (Method false None (InOther (Some NoCategory)))))); (6, (Decl [$"oclint:enforce[protected method]"] None)); (10, (Decl [] (Some (Method false None (InOther (Some NoCategory))))))]; ts_parents := [(None, true); (None, true); ((Some 1), true); (None, true); ((Some 3), true); (None, true); ((Some 5), true); (None, true); ((Some 7), true); (None, true); ((Some 9), true); ((Some 10), false); ((Some 11), false); ((Some 12), false); ((Some 13), false); ((Some 14), false); ((Some 13), false); ((Some 12), false); ((Some 17), false); ((Some 18), false); ((Some 17), false); ((Some 20), false); ((Some 17), false); ((Some 22), false); ((Some 12), false); ((Some 24), false); ((Some 12), false); ((Some 26), false); ((Some 26), false)] |}.
Example ObjCVerifyProtectedMethodRule_ProtectedPropertySetterOutside_holds : nth_violation (shippedRule sh_ObjCVerifyProtectedMethod) ObjCVerifyProtectedMethodRule_ProtectedPropertySetterOutside 0 = Some (23, 16, 23, 16, $"calling protected method setA: from outside C and its subclasses")%Z.
Proof. vm_compute. reflexivity. Qed.

Definition ObjCVerifyProtectedMethodRule_ProtectedPropertyGetterInside : testcase :=
  {| ts_lang := LObjC; ts_path := $"input.m"; ts_code := [];
     ts_comments := []; ts_conf := [];
     ts_tops := [(toplevel 0 (TOther), (Node 0 [] (ObjCContainerDecl {| oc_kind := OKInterface; oc_name := $"NSObject"; oc_lines := (3)%Z; oc_ivars := 0; oc_methods := []; oc_classes := [$"NSObject"]; oc_superMethods := None |} []))); (toplevel 1 (TOther), (Node 1 [] (ObjCContainerDecl {| oc_kind := OKInterface; oc_name := $"A"; oc_lines := (5)%Z; oc_ivars := 0; oc_methods := [($"foo", true)]; oc_classes := [$"A"; $"NSObject"]; oc_superMethods := (Some ($"NSObject", [])) |} [(Node 2 [] (ObjCMethodDecl {| om_selector := $"foo"; om_class := (Some $"A"); om_overriding := false; om_overridden := []; om_bodyLines := (0)%Z |} [] None))]))); (toplevel 3 (TOther), (Node 3 [] (ObjCContainerDecl {| oc_kind := OKInterface; oc_name := $"B"; oc_lines := (3)%Z; oc_ivars := 0; oc_methods := [($"a", true); ($"setA:", true)]; oc_classes := [$"B"; $"NSObject"]; oc_superMethods := (Some ($"NSObject", [])) |} [(Node 4 [] (OtherDecl []))]))); (toplevel 5 (TOther), (Node 5 [] (ObjCContainerDecl {| oc_kind := OKInterface; oc_name := $"C"; oc_lines := (4)%Z; oc_ivars := 0; oc_methods := [($"a", true); ($"setA:", true)]; oc_classes := [$"C"; $"NSObject"]; oc_superMethods := (Some ($"NSObject", [])) |} [(Node 6 [] (OtherDecl []))]))); (toplevel 7 (TOther), (Node 7 [] (ObjCContainerDecl {| oc_kind := OKInterface; oc_name := $"D"; oc_lines := (3)%Z; oc_ivars := 0; oc_methods := [($"c", true); ($"setC:", true)]; oc_classes := [$"D"; $"C"; $"NSObject"]; oc_superMethods := (Some ($"C", [($"a", true, (Decl [] (Some (Method true (Some [$"oclint:enforce[protected method]"]) (InOther (Some NoCategory)))))); ($"setA:", true, (Decl [] (Some (Method true (Some [$"oclint:enforce[protected method]"]) (InOther (Some NoCategory))))))])) |} [(Node 8 [] (OtherDecl []))]))); (toplevel 9 (TOther), (Node 9 [] (ObjCContainerDecl {| oc_kind := OKImplementation; oc_name := $"D"; oc_lines := (5)%Z; oc_ivars := 0; oc_methods := [($"bar", true)]; oc_classes := [$"D"; $"C"; $"NSObject"]; oc_superMethods := (Some ($"C", [($"a", true, (Decl [] (Some (Method true (Some [$"oclint:enforce[protected method]"]) (InOther (Some NoCategory)))))); ($"setA:", true, (Decl [] (Some (Method true (Some [$"oclint:enforce[protected method]"]) (InOther (Some NoCategory))))))])) |} [(Node 10 [] (ObjCMethodDecl {| om_selector := $"bar"; om_class := (Some $"D"); om_overriding := false; om_overridden := []; om_bodyLines := (3)%Z |} [] (Some (Node 11 [] (CompoundStmt [(Node 12 [] (DeclStmt [(Node 13 [] (VarDecl {| v_isParm := false; v_name := $"a"; v_used := false; v_referenced := false; v_local := true; v_staticMember := false; v_private := false; v_unusedAttr := false; v_defaultArg := false; v_canonicalType := $"A *"; v_inTemplate := false; v_contexts := [CxObjCMethod false false false false] |} (Some (Node 14 $"A *" (OtherExpr [(Node 15 $"A *" (ObjCPropertyRefExpr false (Some $"C") (Some $"C") (Some (Node 16 $"C *" (OtherExpr []))))); (Node 17 $"C *" (OtherExpr [(Node 18 $"C *" (ObjCPropertyRefExpr false (Some $"D") (Some $"D") (Some (Node 19 $"D *" (OtherExpr []))))); (Node 20 $"D *" (ImplicitCastExpr CK_LValueToRValue (Node 21 $"D *" (DeclRefExpr 1024 $"self" false)))); (Node 22 $"C *" (ObjCMessageExpr {| ms_selector := $"c"; ms_receiver := RInstance; ms_implicit := true; ms_interface := (Some $"D"); ms_method := (Some (Decl [] (Some (Method true (Some []) (InOther (Some NoCategory)))))); ms_methodClass := (Some $"D") |} (Some (Node 23 $"D *" (OtherExpr []))) []))])); (Node 24 $"A *" (ObjCMessageExpr {| ms_selector := $"a"; ms_receiver := RInstance; ms_implicit := true; ms_interface := (Some $"C"); ms_method := (Some (Decl [] (Some (Method true (Some [$"oclint:enforce[protected method]"]) (InOther (Some NoCategory)))))); ms_methodClass := (Some $"C") |} (Some (Node 25 $"C *" (OtherExpr []))) []))])))))]))])))))])))];
     ts_locs := [(1,1,3,2); (5,1,9,2); (7,1,7,74); (11,1,13,2); (12,1,12,34); (14,5,17,6); (15,5,15,27); (18,5,20,6); (19,5,19,27); (21,5,25,5); (22,5,24,5); (22,17,24,5); (23,9,23,24); (23,9,23,23); (23,16,23,23); (23,16,23,23); (23,16,23,21); (23,16,23,21); (23,16,23,21); (23,16,23,16); (23,16,23,16); (23,16,23,16); (23,21,23,21); (23,16,23,16); (23,23,23,23); (23,16,23,21)]%Z;
     ts_evals := []; ts_same := []; ts_decls := [(2, (Decl [$"oclint:enforce[protected method]"] (Some (Method false None (InOther (Some NoCategory)))))); (6, (Decl [$"oclint:enforce[protected method]"] None)); (10, (Decl [] (Some (Method false None (InOther (Some NoCategory))))))]; ts_parents := [(None, true); (None, true); ((Some 1), true); (None, true); ((Some 3), true); (None, true); ((Some 5), true); (None, true); ((Some 7), true); (None, true); ((Some 9), true); ((Some 10), false); ((Some 11), false); ((Some 12), true); ((Some 13), false); ((Some 14), false); ((Some 15), false); ((Some 14), false); ((Some 17), false); ((Some 18), false); ((Some 17), false); ((Some 20), false); ((Some 17), false); ((Some 22), false); ((Some 14), false); ((Some 24), false)] |}.
Example ObjCVerifyProtectedMethodRule_ProtectedPropertyGetterInside_holds : sorted_violations_of (shippedRule sh_ObjCVerifyProtectedMethod) ObjCVerifyProtectedMethodRule_ProtectedPropertyGetterInside = Some [].
Proof. vm_compute. reflexivity. Qed.

Definition ObjCVerifyProtectedMethodRule_ProtectedPropertySetterInside : testcase :=
  {| ts_lang := LObjC; ts_path := $"input.m"; ts_code := [];
     ts_comments := []; ts_conf := [];
     ts_tops := [(toplevel 0 (TOther), (Node 0 [] (ObjCContainerDecl {| oc_kind := OKInterface; oc_name := $"NSObject"; oc_lines := (3)%Z; oc_ivars := 0; oc_methods := []; oc_classes := [$"NSObject"]; oc_superMethods := None |} []))); (toplevel 1 (TOther), (Node 1 [] (ObjCContainerDecl {| oc_kind := OKInterface; oc_name := $"A"; oc_lines := (5)%Z; oc_ivars := 0; oc_methods := [($"foo", true)]; oc_classes := [$"A"; $"NSObject"]; oc_superMethods := (Some ($"NSObject", [])) |} [(Node 2 [] (ObjCMethodDecl {| om_selector := $"foo"; om_class := (Some $"A"); om_overriding := false; om_overridden := []; om_bodyLines := (0)%Z |} [] None))]))); (toplevel 3 (TOther), (Node 3 [] (ObjCContainerDecl {| oc_kind := OKInterface; oc_name := $"B"; oc_lines := (3)%Z; oc_ivars := 0; oc_methods := [($"a", true); ($"setA:", true)]; oc_classes := [$"B"; $"NSObject"]; oc_superMethods := (Some ($"NSObject", [])) |} [(Node 4 [] (OtherDecl []))]))); (toplevel 5 (TOther), (Node 5 [] (ObjCContainerDecl {| oc_kind := OKInterface; oc_name := $"C"; oc_lines := (4)%Z; oc_ivars := 0; oc_methods := [($"a", true); ($"setA:", true)]; oc_classes := [$"C"; $"NSObject"]; oc_superMethods := (Some ($"NSObject", [])) |} [(Node 6 [] (OtherDecl []))]))); (toplevel 7 (TOther), (Node 7 [] (ObjCContainerDecl {| oc_kind := OKInterface; oc_name := $"D"; oc_lines := (3)%Z; oc_ivars := 0; oc_methods := [($"c", true); ($"setC:", true)]; oc_classes := [$"D"; $"C"; $"NSObject"]; oc_superMethods := (Some ($"C", [($"a", true, (Decl [] (Some (Method true (Some [$"oclint:enforce[protected method]"]) (InOther (Some NoCategory)))))); ($"setA:", true, (Decl [] (Some (Method true (Some [$"oclint:enforce[protected method]"]) (InOther (Some NoCategory))))))])) |} [(Node 8 [] (OtherDecl []))]))); (toplevel 9 (TOther), (Node 9 [] (ObjCContainerDecl {| oc_kind := OKImplementation; oc_name := $"D"; oc_lines := (5)%Z; oc_ivars := 0; oc_methods := [($"bar", true)]; oc_classes := [$"D"; $"C"; $"NSObject"]; oc_superMethods := (Some ($"C", [($"a", true, (Decl [] (Some (Method true (Some [$"oclint:enforce[protected method]"]) (InOther (Some NoCategory)))))); ($"setA:", true, (Decl [] (Some (Method true (Some [$"oclint:enforce[protected method]"]) (InOther (Some NoCategory))))))])) |} [(Node 10 [] (ObjCMethodDecl {| om_selector := $"bar"; om_class := (Some $"D"); om_overriding := false; om_overridden := []; om_bodyLines := (3)%Z |} [] (Some (Node 11 [] (CompoundStmt [(Node 12 $"A *" (OtherExpr [(Node 13 $"A *" (BinaryOperator BO_Assign (Node 14 $"A *" (ObjCPropertyRefExpr true (Some $"C") (Some $"C") (Some (Node 15 $"C *" (OtherExpr []))))) (Node 16 $"A *" (OtherExpr [])))); (Node 17 $"C *" (OtherExpr [(Node 18 $"C *" (ObjCPropertyRefExpr false (Some $"D") (Some $"D") (Some (Node 19 $"D *" (OtherExpr []))))); (Node 20 $"D *" (ImplicitCastExpr CK_LValueToRValue (Node 21 $"D *" (DeclRefExpr 1027 $"self" false)))); (Node 22 $"C *" (ObjCMessageExpr {| ms_selector := $"c"; ms_receiver := RInstance; ms_implicit := true; ms_interface := (Some $"D"); ms_method := (Some (Decl [] (Some (Method true (Some []) (InOther (Some NoCategory)))))); ms_methodClass := (Some $"D") |} (Some (Node 23 $"D *" (OtherExpr []))) []))])); (Node 24 $"A *" (ImplicitCastExpr CK_NullToPointer (Node 25 $"int" (IntegerLiteral (0)%Z)))); (Node 26 $"void" (ObjCMessageExpr {| ms_selector := $"setA:"; ms_receiver := RInstance; ms_implicit := true; ms_interface := (Some $"C"); ms_method := (Some (Decl [] (Some (Method true (Some [$"oclint:enforce[protected method]"]) (InOther (Some NoCategory)))))); ms_methodClass := (Some $"C") |} (Some (Node 27 $"C *" (OtherExpr []))) [(Node 28 $"A *" (OtherExpr []))]))]))])))))])))];
     ts_locs := [(1,1,3,2); (5,1,9,2); (7,1,7,74); (11,1,13,2); (12,1,12,34); (14,5,17,6); (15,5,15,27); (18,5,20,6); (19,5,19,27); (21,5,25,5); (22,5,24,5); (22,17,24,5); (23,9,23,20); (23,9,23,20); (23,9,23,16); (23,9,23,14); (23,20,23,20); (23,9,23,14); (23,9,23,14); (23,9,23,9); (23,9,23,9); (23,9,23,9); (23,14,23,14); (23,9,23,9); (23,20,23,20); (23,20,23,20); (23,16,23,16); (23,9,23,14); (23,20,23,20)]%Z;
     ts_evals := []; ts_same := []; ts_decls := [(2, (Decl [$"oclint:enforce[protected method]"] (Some (Method false None (InOther (Some NoCategory)))))); (6, (Decl [$"oclint:enforce[protected method]"] None)); (10, (Decl [] (Some (Method false None (InOther (Some NoCategory))))))]; ts_parents := [(None, true); (None, true); ((Some 1), true); (None, true); ((Some 3), true); (None, true); ((Some 5), true); (None, true); ((Some 7), true); (None, true); ((Some 9), true); ((Some 10), false); ((Some 11), false); ((Some 12), false); ((Some 13), false); ((Some 14), false); ((Some 13), false); ((Some 12), false); ((Some 17), false); ((Some 18), false); ((Some 17), false); ((Some 20), false); ((Some 17), false); ((Some 22), false); ((Some 12), false); ((Some 24), false); ((Some 12), false); ((Some 26), false); ((Some 26), false)] |}.
Example ObjCVerifyProtectedMethodRule_ProtectedPropertySetterInside_holds : sorted_violations_of (shippedRule sh_ObjCVerifyProtectedMethod) ObjCVerifyProtectedMethodRule_ProtectedPropertySetterInside = Some [].
Proof. vm_compute. reflexivity. Qed.

Definition ObjCVerifyProtectedMethodRule_ProtectedPropertyCategoryOutside : testcase :=
  {| ts_lang := LObjC; ts_path := $"input.m"; ts_code := [];
     ts_comments := []; ts_conf := [];
     ts_tops := [(toplevel 0 (TOther), (Node 0 [] (ObjCContainerDecl {| oc_kind := OKInterface; oc_name := $"NSObject"; oc_lines := (3)%Z; oc_ivars := 0; oc_methods := []; oc_classes := [$"NSObject"]; oc_superMethods := None |} []))); (toplevel 1 (TOther), (Node 1 [] (ObjCContainerDecl {| oc_kind := OKInterface; oc_name := $"A"; oc_lines := (5)%Z; oc_ivars := 0; oc_methods := [($"foo", true)]; oc_classes := [$"A"; $"NSObject"]; oc_superMethods := (Some ($"NSObject", [])) |} [(Node 2 [] (ObjCMethodDecl {| om_selector := $"foo"; om_class := (Some $"A"); om_overriding := false; om_overridden := []; om_bodyLines := (0)%Z |} [] None))]))); (toplevel 3 (TOther), (Node 3 [] (ObjCContainerDecl {| oc_kind := OKInterface; oc_name := $"B"; oc_lines := (3)%Z; oc_ivars := 0; oc_methods := [($"a", true); ($"setA:", true)]; oc_classes := [$"B"; $"NSObject"]; oc_superMethods := (Some ($"NSObject", [])) |} [(Node 4 [] (OtherDecl []))]))); (toplevel 5 (TOther), (Node 5 [] (ObjCContainerDecl {| oc_kind := OKInterface; oc_name := $"C"; oc_lines := (3)%Z; oc_ivars := 0; oc_methods := [($"setA:", true)]; oc_classes := [$"C"; $"NSObject"]; oc_superMethods := (Some ($"NSObject", [])) |} [(Node 6 [] (ObjCMethodDecl {| om_selector := $"setA:"; om_class := (Some $"C"); om_overriding := false; om_overridden := []; om_bodyLines := (0)%Z |} [(Node 7 [] (VarDecl {| v_isParm := true; v_name := $"a"; v_used := false; v_referenced := false; v_local := false; v_staticMember := false; v_private := false; v_unusedAttr := false; v_defaultArg := false; v_canonicalType := $"A *"; v_inTemplate := false; v_contexts := [CxObjCMethod true false false false; CxOther] |} None))] None))]))); (toplevel 8 (TOther), (Node 8 [] (ObjCContainerDecl {| oc_kind := OKCategory; oc_name := $"Additions"; oc_lines := (4)%Z; oc_ivars := 0; oc_methods := [($"setA:", true)]; oc_classes := []; oc_superMethods := None |} [(Node 9 [] (ObjCMethodDecl {| om_selector := $"setA:"; om_class := (Some $"C"); om_overriding := false; om_overridden := []; om_bodyLines := (0)%Z |} [(Node 10 [] (VarDecl {| v_isParm := true; v_name := $"a"; v_used := false; v_referenced := false; v_local := false; v_staticMember := false; v_private := false; v_unusedAttr := false; v_defaultArg := false; v_canonicalType := $"A *"; v_inTemplate := false; v_contexts := [CxObjCMethod true false false false] |} None))] None))]))); (toplevel 11 (TOther), (Node 11 [] (ObjCContainerDecl {| oc_kind := OKInterface; oc_name := $"D"; oc_lines := (3)%Z; oc_ivars := 0; oc_methods := [($"c", true); ($"setC:", true)]; oc_classes := [$"D"; $"NSObject"]; oc_superMethods := (Some ($"NSObject", [])) |} [(Node 12 [] (OtherDecl []))]))); (toplevel 13 (TOther), (Node 13 [] (ObjCContainerDecl {| oc_kind := OKImplementation; oc_name := $"D"; oc_lines := (5)%Z; oc_ivars := 0; oc_methods := [($"bar", true)]; oc_classes := [$"D"; $"NSObject"]; oc_superMethods := (Some ($"NSObject", [])) |} [(Node 14 [] (ObjCMethodDecl {| om_selector := $"bar"; om_class := (Some $"D"); om_overriding := false; om_overridden := []; om_bodyLines := (3)%Z |} [] (Some (Node 15 [] (CompoundStmt [(Node 16 $"void" (ObjCMessageExpr {| ms_selector := $"setA:"; ms_receiver := RInstance; ms_implicit := false; ms_interface := (Some $"C"); ms_method := (Some (Decl [] (Some (Method false None (InOther (Some (Category (Some (Decl [$"oclint:enforce[protected method]"] (Some (Method false None InCategory)))) NoCategory))))))); ms_methodClass := (Some $"C") |} (Some (Node 17 $"C *" (OtherExpr [(Node 18 $"C *" (ObjCPropertyRefExpr false (Some $"D") (Some $"D") (Some (Node 19 $"D *" (OtherExpr []))))); (Node 20 $"D *" (ImplicitCastExpr CK_LValueToRValue (Node 21 $"D *" (DeclRefExpr 1024 $"self" false)))); (Node 22 $"C *" (ObjCMessageExpr {| ms_selector := $"c"; ms_receiver := RInstance; ms_implicit := true; ms_interface := (Some $"D"); ms_method := (Some (Decl [] (Some (Method true (Some []) (InOther (Some NoCategory)))))); ms_methodClass := (Some $"D") |} (Some (Node 23 $"D *" (OtherExpr []))) []))]))) [(Node 24 $"A *" (ImplicitCastExpr CK_NullToPointer (Node 25 $"int" (IntegerLiteral (0)%Z))))]))])))))])))];
     ts_locs := [(1,1,3,2); (5,1,9,2); (7,1,7,74); (11,1,13,2); (12,1,12,34); (14,5,16,6); (15,5,15,22); (15,18,15,21); (17,5,20,6); (18,5,19,70); (18,19,18,22); (21,5,23,6); (22,5,22,27); (24,5,28,5); (25,5,27,5); (25,17,27,5); (26,9,26,24); (26,10,26,15); (26,10,26,15); (26,10,26,10); (26,10,26,10); (26,10,26,10); (26,15,26,15); (26,10,26,10); (26,23,26,23); (26,23,26,23)]%Z;
     ts_evals := []; ts_same := []; ts_decls := [(2, (Decl [$"oclint:enforce[protected method]"] (Some (Method false None (InOther (Some NoCategory)))))); (6, (Decl [] (Some (Method false None (InOther (Some (Category (Some (Decl [$"oclint:enforce[protected method]"] (Some (Method false None InCategory)))) NoCategory))))))); (9, (Decl [$"oclint:enforce[protected method]"] (Some (Method false None InCategory)))); (14, (Decl [] (Some (Method false None (InOther (Some NoCategory))))))]; ts_parents := [(None, true); (None, true); ((Some 1), true); (None, true); ((Some 3), true); (None, true); ((Some 5), true); ((Some 6), true); (None, true); ((Some 8), true); ((Some 9), true); (None, true); ((Some 11), true); (None, true); ((Some 13), true); ((Some 14), false); ((Some 15), false); ((Some 16), false); ((Some 17), false); ((Some 18), false); ((Some 17), false); ((Some 20), false); ((Some 17), false); ((Some 22), false); ((Some 16), false); ((Some 24), false)] |}.
Example ObjCVerifyProtectedMethodRule_ProtectedPropertyCategoryOutside_holds : nth_violation (shippedRule sh_ObjCVerifyProtectedMethod) ObjCVerifyProtectedMethodRule_ProtectedPropertyCategoryOutside 0 = Some (26, 9, 26, 24, $"calling protected method setA: from outside C and its subclasses")%Z.
Proof. vm_compute. reflexivity. Qed.

(** ** oclint-rules/test/cocoa/ObjCVerifySubclassMustImplementRuleTest.cpp *)

Definition ObjcVerifySubclassMustImplement_AnnotationDoesNotImplementation : testcase :=
  {| ts_lang := LObjC; ts_path := $"input.m"; ts_code := [];
     ts_comments := []; ts_conf := [];
     ts_tops := [(toplevel 0 (TOther), (Node 0 [] (ObjCContainerDecl {| oc_kind := OKInterface; oc_name := $"Parent"; oc_lines := (5)%Z; oc_ivars := 0; oc_methods := [($"someAbstractMethod", true)]; oc_classes := [$"Parent"]; oc_superMethods := None |} [(Node 1 [] (ObjCMethodDecl {| om_selector := $"someAbstractMethod"; om_class := (Some $"Parent"); om_overriding := false; om_overridden := []; om_bodyLines := (0)%Z |} [] None))]))); (toplevel 2 (TOther), (Node 2 [] (ObjCContainerDecl {| oc_kind := OKInterface; oc_name := $"Child"; oc_lines := (3)%Z; oc_ivars := 0; oc_methods := []; oc_classes := [$"Child"; $"Parent"]; oc_superMethods := (Some ($"Parent", [($"someAbstractMethod", true, (Decl [$"oclint:enforce[abstract method]"] (Some (Method false None (InOther (Some NoCategory))))))])) |} []))); (toplevel 3 (TOther), (Node 3 [] (ObjCContainerDecl {| oc_kind := OKImplementation; oc_name := $"Child"; oc_lines := (3)%Z; oc_ivars := 0; oc_methods := []; oc_classes := [$"Child"; $"Parent"]; oc_superMethods := (Some ($"Parent", [($"someAbstractMethod", true, (Decl [$"oclint:enforce[abstract method]"] (Some (Method false None (InOther (Some NoCategory))))))])) |} [])))];
     ts_locs := [(2,1,6,2); (4,1,5,65); (8,1,10,2); (12,1,14,1)]%Z;
     ts_evals := []; ts_same := []; ts_decls := [(1, (Decl [$"oclint:enforce[abstract method]"] (Some (Method false None (InOther (Some NoCategory))))))]; ts_parents := [(None, true); ((Some 0), true); (None, true); (None, true)] |}.
Example ObjcVerifySubclassMustImplement_AnnotationDoesNotImplementation_holds : nth_violation (shippedRule sh_ObjCVerifySubclassMustImplement) ObjcVerifySubclassMustImplement_AnnotationDoesNotImplementation 0 = Some (12, 1, 14, 1, $"subclasses of Parent must implement someAbstractMethod")%Z.
Proof. vm_compute. reflexivity. Qed.

Definition ObjcVerifySubclassMustImplement_AnnotationDoesImplement : testcase :=
  {| ts_lang := LObjC; ts_path := $"input.m"; ts_code := [];
     ts_comments := []; ts_conf := [];
     ts_tops := [(toplevel 0 (TOther), (Node 0 [] (ObjCContainerDecl {| oc_kind := OKInterface; oc_name := $"Parent"; oc_lines := (5)%Z; oc_ivars := 0; oc_methods := [($"someAbstractMethod", true)]; oc_classes := [$"Parent"]; oc_superMethods := None |} [(Node 1 [] (ObjCMethodDecl {| om_selector := $"someAbstractMethod"; om_class := (Some $"Parent"); om_overriding := false; om_overridden := []; om_bodyLines := (0)%Z |} [] None))]))); (toplevel 2 (TOther), (Node 2 [] (ObjCContainerDecl {| oc_kind := OKInterface; oc_name := $"Child"; oc_lines := (3)%Z; oc_ivars := 0; oc_methods := []; oc_classes := [$"Child"; $"Parent"]; oc_superMethods := (Some ($"Parent", [($"someAbstractMethod", true, (Decl [$"oclint:enforce[abstract method]"] (Some (Method false None (InOther (Some NoCategory))))))])) |} []))); (toplevel 3 (TOther), (Node 3 [] (ObjCContainerDecl {| oc_kind := OKImplementation; oc_name := $"Child"; oc_lines := (6)%Z; oc_ivars := 0; oc_methods := [($"someAbstractMethod", true)]; oc_classes := [$"Child"; $"Parent"]; oc_superMethods := (Some ($"Parent", [($"someAbstractMethod", true, (Decl [$"oclint:enforce[abstract method]"] (Some (Method false None (InOther (Some NoCategory))))))])) |} [(Node 4 [] (ObjCMethodDecl {| om_selector := $"someAbstractMethod"; om_class := (Some $"Child"); om_overriding := true; om_overridden := [(Decl [$"oclint:enforce[abstract method]"] (Some (Method false None (InOther (Some NoCategory)))))]; om_bodyLines := (2)%Z |} [] (Some (Node 5 [] (CompoundStmt [])))))])))];
     ts_locs := [(2,1,6,2); (4,1,5,65); (8,1,10,2); (12,1,17,1); (14,1,15,1); (14,28,15,1)]%Z;
     ts_evals := []; ts_same := []; ts_decls := [(1, (Decl [$"oclint:enforce[abstract method]"] (Some (Method false None (InOther (Some NoCategory)))))); (4, (Decl [] (Some (Method false None (InOther (Some NoCategory))))))]; ts_parents := [(None, true); ((Some 0), true); (None, true); (None, true); ((Some 3), true); ((Some 4), false)] |}.
Example ObjcVerifySubclassMustImplement_AnnotationDoesImplement_holds : sorted_violations_of (shippedRule sh_ObjCVerifySubclassMustImplement) ObjcVerifySubclassMustImplement_AnnotationDoesImplement = Some [].
Proof. vm_compute. reflexivity. Qed.

Definition ObjcVerifySubclassMustImplement_NormalDoesNotImplement : testcase :=
  {| ts_lang := LObjC; ts_path := $"input.m"; ts_code := [];
     ts_comments := []; ts_conf := [];
     ts_tops := [(toplevel 0 (TOther), (Node 0 [] (ObjCContainerDecl {| oc_kind := OKInterface; oc_name := $"Parent"; oc_lines := (4)%Z; oc_ivars := 0; oc_methods := [($"someAbstractMethod", true)]; oc_classes := [$"Parent"]; oc_superMethods := None |} [(Node 1 [] (ObjCMethodDecl {| om_selector := $"someAbstractMethod"; om_class := (Some $"Parent"); om_overriding := false; om_overridden := []; om_bodyLines := (0)%Z |} [] None))]))); (toplevel 2 (TOther), (Node 2 [] (ObjCContainerDecl {| oc_kind := OKInterface; oc_name := $"Child"; oc_lines := (3)%Z; oc_ivars := 0; oc_methods := []; oc_classes := [$"Child"; $"Parent"]; oc_superMethods := (Some ($"Parent", [($"someAbstractMethod", true, (Decl [] (Some (Method false None (InOther (Some NoCategory))))))])) |} []))); (toplevel 3 (TOther), (Node 3 [] (ObjCContainerDecl {| oc_kind := OKImplementation; oc_name := $"Child"; oc_lines := (3)%Z; oc_ivars := 0; oc_methods := []; oc_classes := [$"Child"; $"Parent"]; oc_superMethods := (Some ($"Parent", [($"someAbstractMethod", true, (Decl [] (Some (Method false None (InOther (Some NoCategory))))))])) |} [])))];
     ts_locs := [(2,1,5,2); (4,1,4,27); (7,1,9,2); (11,1,13,1)]%Z;
     ts_evals := []; ts_same := []; ts_decls := []; ts_parents := [] |}.
Example ObjcVerifySubclassMustImplement_NormalDoesNotImplement_holds : sorted_violations_of (shippedRule sh_ObjCVerifySubclassMustImplement) ObjcVerifySubclassMustImplement_NormalDoesNotImplement = Some [].
Proof. vm_compute. reflexivity. Qed.

Definition ObjcVerifySubclassMustImplement_NormalDoesImplement : testcase :=
  {| ts_lang := LObjC; ts_path := $"input.m"; ts_code := [];
     ts_comments := []; ts_conf := [];
     ts_tops := [(toplevel 0 (TOther), (Node 0 [] (ObjCContainerDecl {| oc_kind := OKInterface; oc_name := $"Parent"; oc_lines := (4)%Z; oc_ivars := 0; oc_methods := [($"someAbstractMethod", true)]; oc_classes := [$"Parent"]; oc_superMethods := None |} [(Node 1 [] (ObjCMethodDecl {| om_selector := $"someAbstractMethod"; om_class := (Some $"Parent"); om_overriding := false; om_overridden := []; om_bodyLines := (0)%Z |} [] None))]))); (toplevel 2 (TOther), (Node 2 [] (ObjCContainerDecl {| oc_kind := OKInterface; oc_name := $"Child"; oc_lines := (3)%Z; oc_ivars := 0; oc_methods := []; oc_classes := [$"Child"; $"Parent"]; oc_superMethods := (Some ($"Parent", [($"someAbstractMethod", true, (Decl [] (Some (Method false None (InOther (Some NoCategory))))))])) |} []))); (toplevel 3 (TOther), (Node 3 [] (ObjCContainerDecl {| oc_kind := OKImplementation; oc_name := $"Child"; oc_lines := (6)%Z; oc_ivars := 0; oc_methods := [($"someAbstractMethod", true)]; oc_classes := [$"Child"; $"Parent"]; oc_superMethods := (Some ($"Parent", [($"someAbstractMethod", true, (Decl [] (Some (Method false None (InOther (Some NoCategory))))))])) |} [(Node 4 [] (ObjCMethodDecl {| om_selector := $"someAbstractMethod"; om_class := (Some $"Child"); om_overriding := true; om_overridden := [(Decl [] (Some (Method false None (InOther (Some NoCategory)))))]; om_bodyLines := (2)%Z |} [] (Some (Node 5 [] (CompoundStmt [])))))])))];
     ts_locs := [(2,1,5,2); (4,1,4,27); (7,1,9,2); (11,1,16,1); (13,1,14,1); (13,28,14,1)]%Z;
     ts_evals := []; ts_same := []; ts_decls := []; ts_parents := [] |}.
Example ObjcVerifySubclassMustImplement_NormalDoesImplement_holds : sorted_violations_of (shippedRule sh_ObjCVerifySubclassMustImplement) ObjcVerifySubclassMustImplement_NormalDoesImplement = Some [].
Proof. vm_compute. reflexivity. Qed.

Definition ObjcVerifySubclassMustImplement_SubChildUnaffected : testcase :=
  {| ts_lang := LObjC; ts_path := $"input.m"; ts_code := [];
     ts_comments := []; ts_conf := [];
     ts_tops := [(toplevel 0 (TOther), (Node 0 [] (ObjCContainerDecl {| oc_kind := OKInterface; oc_name := $"Parent"; oc_lines := (5)%Z; oc_ivars := 0; oc_methods := [($"someAbstractMethod", true)]; oc_classes := [$"Parent"]; oc_superMethods := None |} [(Node 1 [] (ObjCMethodDecl {| om_selector := $"someAbstractMethod"; om_class := (Some $"Parent"); om_overriding := false; om_overridden := []; om_bodyLines := (0)%Z |} [] None))]))); (toplevel 2 (TOther), (Node 2 [] (ObjCContainerDecl {| oc_kind := OKInterface; oc_name := $"Child"; oc_lines := (3)%Z; oc_ivars := 0; oc_methods := []; oc_classes := [$"Child"; $"Parent"]; oc_superMethods := (Some ($"Parent", [($"someAbstractMethod", true, (Decl [$"oclint:enforce[abstract method]"] (Some (Method false None (InOther (Some NoCategory))))))])) |} []))); (toplevel 3 (TOther), (Node 3 [] (ObjCContainerDecl {| oc_kind := OKImplementation; oc_name := $"Child"; oc_lines := (6)%Z; oc_ivars := 0; oc_methods := [($"someAbstractMethod", true)]; oc_classes := [$"Child"; $"Parent"]; oc_superMethods := (Some ($"Parent", [($"someAbstractMethod", true, (Decl [$"oclint:enforce[abstract method]"] (Some (Method false None (InOther (Some NoCategory))))))])) |} [(Node 4 [] (ObjCMethodDecl {| om_selector := $"someAbstractMethod"; om_class := (Some $"Child"); om_overriding := true; om_overridden := [(Decl [$"oclint:enforce[abstract method]"] (Some (Method false None (InOther (Some NoCategory)))))]; om_bodyLines := (2)%Z |} [] (Some (Node 5 [] (CompoundStmt [])))))]))); (toplevel 6 (TOther), (Node 6 [] (ObjCContainerDecl {| oc_kind := OKInterface; oc_name := $"SubChild"; oc_lines := (3)%Z; oc_ivars := 0; oc_methods := []; oc_classes := [$"SubChild"; $"Child"; $"Parent"]; oc_superMethods := (Some ($"Child", [])) |} []))); (toplevel 7 (TOther), (Node 7 [] (ObjCContainerDecl {| oc_kind := OKImplementation; oc_name := $"SubChild"; oc_lines := (3)%Z; oc_ivars := 0; oc_methods := []; oc_classes := [$"SubChild"; $"Child"; $"Parent"]; oc_superMethods := (Some ($"Child", [])) |} [])))];
     ts_locs := [(2,1,6,2); (4,1,5,65); (8,1,10,2); (12,1,17,1); (14,1,15,1); (14,28,15,1); (18,1,20,2); (22,1,24,1)]%Z;
     ts_evals := []; ts_same := []; ts_decls := [(1, (Decl [$"oclint:enforce[abstract method]"] (Some (Method false None (InOther (Some NoCategory)))))); (4, (Decl [] (Some (Method false None (InOther (Some NoCategory))))))]; ts_parents := [(None, true); ((Some 0), true); (None, true); (None, true); ((Some 3), true); ((Some 4), false); (None, true); (None, true)] |}.
Example ObjcVerifySubclassMustImplement_SubChildUnaffected_holds : sorted_violations_of (shippedRule sh_ObjCVerifySubclassMustImplement) ObjcVerifySubclassMustImplement_SubChildUnaffected = Some [].
Proof. vm_compute. reflexivity. Qed.

