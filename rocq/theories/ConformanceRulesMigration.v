(** * OCLint's own unit tests of oclint-rules/test/migration, as examples about the model

    Written by tools/conformance/emit.py; do not edit. *)
From Verif Require Import Base ModelConfig ModelSource ModelAST ModelRuleTable ConformanceBase.

(** ** oclint-rules/test/migration/ObjCBoxedExpressionsRuleTest.cpp *)

Definition ObjCBoxedExpressions_CharacterLiteral : testcase :=
  {| ts_lang := LObjC; ts_path := $"input.m"; ts_code := [];
     ts_comments := []; ts_conf := [];
     ts_tops := [(toplevel 0 (TOther), (Node 0 [] (OtherDecl []))); (toplevel 1 (TOther), (Node 1 [] (ObjCContainerDecl {| oc_kind := OKInterface; oc_name := $"NSObject"; oc_lines := (2)%Z; oc_ivars := 0; oc_methods := []; oc_classes := [$"NSObject"]; oc_superMethods := None |} []))); (toplevel 2 (TOther), (Node 2 [] (ObjCContainerDecl {| oc_kind := OKInterface; oc_name := $"NSNumber"; oc_lines := (13)%Z; oc_ivars := 0; oc_methods := [($"numberWithChar:", false); ($"numberWithInt:", false); ($"numberWithUnsignedInt:", false); ($"numberWithLong:", false); ($"numberWithUnsignedLong:", false); ($"numberWithLongLong:", false); ($"numberWithUnsignedLongLong:", false); ($"numberWithFloat:", false); ($"numberWithDouble:", false); ($"numberWithBool:", false); ($"numberWithUnsignedChar:", false)]; oc_classes := [$"NSNumber"; $"NSObject"]; oc_superMethods := (Some ($"NSObject", [])) |} [(Node 3 [] (ObjCMethodDecl {| om_selector := $"numberWithChar:"; om_class := (Some $"NSNumber"); om_overriding := false; om_overridden := []; om_bodyLines := (0)%Z |} [(Node 4 [] (VarDecl {| v_isParm := true; v_name := $"value"; v_used := false; v_referenced := false; v_local := false; v_staticMember := false; v_private := false; v_unusedAttr := false; v_defaultArg := false; v_canonicalType := $"char"; v_inTemplate := false; v_contexts := [CxObjCMethod true false false false; CxOther] |} None))] None)); (Node 5 [] (ObjCMethodDecl {| om_selector := $"numberWithInt:"; om_class := (Some $"NSNumber"); om_overriding := false; om_overridden := []; om_bodyLines := (0)%Z |} [(Node 6 [] (VarDecl {| v_isParm := true; v_name := $"value"; v_used := false; v_referenced := false; v_local := false; v_staticMember := false; v_private := false; v_unusedAttr := false; v_defaultArg := false; v_canonicalType := $"int"; v_inTemplate := false; v_contexts := [CxObjCMethod true false false false; CxOther] |} None))] None)); (Node 7 [] (ObjCMethodDecl {| om_selector := $"numberWithUnsignedInt:"; om_class := (Some $"NSNumber"); om_overriding := false; om_overridden := []; om_bodyLines := (0)%Z |} [(Node 8 [] (VarDecl {| v_isParm := true; v_name := $"value"; v_used := false; v_referenced := false; v_local := false; v_staticMember := false; v_private := false; v_unusedAttr := false; v_defaultArg := false; v_canonicalType := $"unsigned int"; v_inTemplate := false; v_contexts := [CxObjCMethod true false false false; CxOther] |} None))] None)); (Node 9 [] (ObjCMethodDecl {| om_selector := $"numberWithLong:"; om_class := (Some $"NSNumber"); om_overriding := false; om_overridden := []; om_bodyLines := (0)%Z |} [(Node 10 [] (VarDecl {| v_isParm := true; v_name := $"value"; v_used := false; v_referenced := false; v_local := false; v_staticMember := false; v_private := false; v_unusedAttr := false; v_defaultArg := false; v_canonicalType := $"long"; v_inTemplate := false; v_contexts := [CxObjCMethod true false false false; CxOther] |} None))] None)); (Node 11 [] (ObjCMethodDecl {| om_selector := $"numberWithUnsignedLong:"; om_class := (Some $"NSNumber"); om_overriding := false; om_overridden := []; om_bodyLines := (0)%Z |} [(Node 12 [] (VarDecl {| v_isParm := true; v_name := $"value"; v_used := false; v_referenced := false; v_local := false; v_staticMember := false; v_private := false; v_unusedAttr := false; v_defaultArg := false; v_canonicalType := $"unsigned long"; v_inTemplate := false; v_contexts := [CxObjCMethod true false false false; CxOther] |} None))] None)); (Node 13 [] (ObjCMethodDecl {| om_selector := $"numberWithLongLong:"; om_class := (Some $"NSNumber"); om_overriding := false; om_overridden := []; om_bodyLines := (0)%Z |} [(Node 14 [] (VarDecl {| v_isParm := true; v_name := $"value"; v_used := false; v_referenced := false; v_local := false; v_staticMember := false; v_private := false; v_unusedAttr := false; v_defaultArg := false; v_canonicalType := $"long long"; v_inTemplate := false; v_contexts := [CxObjCMethod true false false false; CxOther] |} None))] None)); (Node 15 [] (ObjCMethodDecl {| om_selector := $"numberWithUnsignedLongLong:"; om_class := (Some $"NSNumber"); om_overriding := false; om_overridden := []; om_bodyLines := (0)%Z |} [(Node 16 [] (VarDecl {| v_isParm := true; v_name := $"value"; v_used := false; v_referenced := false; v_local := false; v_staticMember := false; v_private := false; v_unusedAttr := false; v_defaultArg := false; v_canonicalType := $"unsigned long long"; v_inTemplate := false; v_contexts := [CxObjCMethod true false false false; CxOther] |} None))] None)); (Node 17 [] (ObjCMethodDecl {| om_selector := $"numberWithFloat:"; om_class := (Some $"NSNumber"); om_overriding := false; om_overridden := []; om_bodyLines := (0)%Z |} [(Node 18 [] (VarDecl {| v_isParm := true; v_name := $"value"; v_used := false; v_referenced := false; v_local := false; v_staticMember := false; v_private := false; v_unusedAttr := false; v_defaultArg := false; v_canonicalType := $"float"; v_inTemplate := false; v_contexts := [CxObjCMethod true false false false; CxOther] |} None))] None)); (Node 19 [] (ObjCMethodDecl {| om_selector := $"numberWithDouble:"; om_class := (Some $"NSNumber"); om_overriding := false; om_overridden := []; om_bodyLines := (0)%Z |} [(Node 20 [] (VarDecl {| v_isParm := true; v_name := $"value"; v_used := false; v_referenced := false; v_local := false; v_staticMember := false; v_private := false; v_unusedAttr := false; v_defaultArg := false; v_canonicalType := $"double"; v_inTemplate := false; v_contexts := [CxObjCMethod true false false false; CxOther] |} None))] None)); (Node 21 [] (ObjCMethodDecl {| om_selector := $"numberWithBool:"; om_class := (Some $"NSNumber"); om_overriding := false; om_overridden := []; om_bodyLines := (0)%Z |} [(Node 22 [] (VarDecl {| v_isParm := true; v_name := $"value"; v_used := false; v_referenced := false; v_local := false; v_staticMember := false; v_private := false; v_unusedAttr := false; v_defaultArg := false; v_canonicalType := $"signed char"; v_inTemplate := false; v_contexts := [CxObjCMethod true false false false; CxOther] |} None))] None)); (Node 23 [] (ObjCMethodDecl {| om_selector := $"numberWithUnsignedChar:"; om_class := (Some $"NSNumber"); om_overriding := false; om_overridden := []; om_bodyLines := (0)%Z |} [(Node 24 [] (VarDecl {| v_isParm := true; v_name := $"value"; v_used := false; v_referenced := false; v_local := false; v_staticMember := false; v_private := false; v_unusedAttr := false; v_defaultArg := false; v_canonicalType := $"unsigned char"; v_inTemplate := false; v_contexts := [CxObjCMethod true false false false; CxOther] |} None))] None))]))); (toplevel 25 (TFunction false), (Node 25 [] (FunctionDecl {| f_name := $"m"; f_method := None; f_isDefinition := true; f_bodyLines := (1)%Z |} [] (Some (Node 26 [] (CompoundStmt [(Node 27 [] (DeclStmt [(Node 28 [] (VarDecl {| v_isParm := false; v_name := $"theLetterZ"; v_used := false; v_referenced := false; v_local := true; v_staticMember := false; v_private := false; v_unusedAttr := false; v_defaultArg := false; v_canonicalType := $"NSNumber *"; v_inTemplate := false; v_contexts := [CxFunction true true false] |} (Some (Node 29 $"NSNumber *" (OtherExpr [(Node 30 $"int" (CharacterLiteral 90%Z))])))))]))]))))))];
     ts_locs := [(2,1,2,21); (3,1,4,2); (5,1,17,2); (6,1,6,41); (6,31,6,36); (7,1,7,39); (7,30,7,34); (8,1,8,56); (8,38,8,51); (9,1,9,41); (9,31,9,36); (10,1,10,58); (10,39,10,53); (11,1,11,50); (11,35,11,45); (12,1,12,67); (12,43,12,62); (13,1,13,43); (13,32,13,38); (14,1,14,45); (14,33,14,40); (15,1,15,41); (15,31,15,36); (16,1,16,58); (16,39,16,53); (18,1,18,41); (18,10,18,41); (18,12,18,39); (18,12,18,36); (18,35,18,36); (18,36,18,36)]%Z;
     ts_evals := []; ts_same := []; ts_decls := []; ts_parents := [] |}.
Example ObjCBoxedExpressions_CharacterLiteral_holds : sorted_violations_of (shippedRule sh_ObjCBoxedExpressions) ObjCBoxedExpressions_CharacterLiteral = Some [].
Proof. vm_compute. reflexivity. Qed.

Definition ObjCBoxedExpressions_NumberWithChar : testcase :=
  {| ts_lang := LObjC; ts_path := $"input.m"; ts_code := [];
     ts_comments := []; ts_conf := [];
     ts_tops := [(toplevel 0 (TOther), (Node 0 [] (OtherDecl []))); (toplevel 1 (TOther), (Node 1 [] (ObjCContainerDecl {| oc_kind := OKInterface; oc_name := $"NSObject"; oc_lines := (2)%Z; oc_ivars := 0; oc_methods := []; oc_classes := [$"NSObject"]; oc_superMethods := None |} []))); (toplevel 2 (TOther), (Node 2 [] (ObjCContainerDecl {| oc_kind := OKInterface; oc_name := $"NSNumber"; oc_lines := (13)%Z; oc_ivars := 0; oc_methods := [($"numberWithChar:", false); ($"numberWithInt:", false); ($"numberWithUnsignedInt:", false); ($"numberWithLong:", false); ($"numberWithUnsignedLong:", false); ($"numberWithLongLong:", false); ($"numberWithUnsignedLongLong:", false); ($"numberWithFloat:", false); ($"numberWithDouble:", false); ($"numberWithBool:", false); ($"numberWithUnsignedChar:", false)]; oc_classes := [$"NSNumber"; $"NSObject"]; oc_superMethods := (Some ($"NSObject", [])) |} [(Node 3 [] (ObjCMethodDecl {| om_selector := $"numberWithChar:"; om_class := (Some $"NSNumber"); om_overriding := false; om_overridden := []; om_bodyLines := (0)%Z |} [(Node 4 [] (VarDecl {| v_isParm := true; v_name := $"value"; v_used := false; v_referenced := false; v_local := false; v_staticMember := false; v_private := false; v_unusedAttr := false; v_defaultArg := false; v_canonicalType := $"char"; v_inTemplate := false; v_contexts := [CxObjCMethod true false false false; CxOther] |} None))] None)); (Node 5 [] (ObjCMethodDecl {| om_selector := $"numberWithInt:"; om_class := (Some $"NSNumber"); om_overriding := false; om_overridden := []; om_bodyLines := (0)%Z |} [(Node 6 [] (VarDecl {| v_isParm := true; v_name := $"value"; v_used := false; v_referenced := false; v_local := false; v_staticMember := false; v_private := false; v_unusedAttr := false; v_defaultArg := false; v_canonicalType := $"int"; v_inTemplate := false; v_contexts := [CxObjCMethod true false false false; CxOther] |} None))] None)); (Node 7 [] (ObjCMethodDecl {| om_selector := $"numberWithUnsignedInt:"; om_class := (Some $"NSNumber"); om_overriding := false; om_overridden := []; om_bodyLines := (0)%Z |} [(Node 8 [] (VarDecl {| v_isParm := true; v_name := $"value"; v_used := false; v_referenced := false; v_local := false; v_staticMember := false; v_private := false; v_unusedAttr := false; v_defaultArg := false; v_canonicalType := $"unsigned int"; v_inTemplate := false; v_contexts := [CxObjCMethod true false false false; CxOther] |} None))] None)); (Node 9 [] (ObjCMethodDecl {| om_selector := $"numberWithLong:"; om_class := (Some $"NSNumber"); om_overriding := false; om_overridden := []; om_bodyLines := (0)%Z |} [(Node 10 [] (VarDecl {| v_isParm := true; v_name := $"value"; v_used := false; v_referenced := false; v_local := false; v_staticMember := false; v_private := false; v_unusedAttr := false; v_defaultArg := false; v_canonicalType := $"long"; v_inTemplate := false; v_contexts := [CxObjCMethod true false false false; CxOther] |} None))] None)); (Node 11 [] (ObjCMethodDecl {| om_selector := $"numberWithUnsignedLong:"; om_class := (Some $"NSNumber"); om_overriding := false; om_overridden := []; om_bodyLines := (0)%Z |} [(Node 12 [] (VarDecl {| v_isParm := true; v_name := $"value"; v_used := false; v_referenced := false; v_local := false; v_staticMember := false; v_private := false; v_unusedAttr := false; v_defaultArg := false; v_canonicalType := $"unsigned long"; v_inTemplate := false; v_contexts := [CxObjCMethod true false false false; CxOther] |} None))] None)); (Node 13 [] (ObjCMethodDecl {| om_selector := $"numberWithLongLong:"; om_class := (Some $"NSNumber"); om_overriding := false; om_overridden := []; om_bodyLines := (0)%Z |} [(Node 14 [] (VarDecl {| v_isParm := true; v_name := $"value"; v_used := false; v_referenced := false; v_local := false; v_staticMember := false; v_private := false; v_unusedAttr := false; v_defaultArg := false; v_canonicalType := $"long long"; v_inTemplate := false; v_contexts := [CxObjCMethod true false false false; CxOther] |} None))] None)); (Node 15 [] (ObjCMethodDecl {| om_selector := $"numberWithUnsignedLongLong:"; om_class := (Some $"NSNumber"); om_overriding := false; om_overridden := []; om_bodyLines := (0)%Z |} [(Node 16 [] (VarDecl {| v_isParm := true; v_name := $"value"; v_used := false; v_referenced := false; v_local := false; v_staticMember := false; v_private := false; v_unusedAttr := false; v_defaultArg := false; v_canonicalType := $"unsigned long long"; v_inTemplate := false; v_contexts := [CxObjCMethod true false false false; CxOther] |} None))] None)); (Node 17 [] (ObjCMethodDecl {| om_selector := $"numberWithFloat:"; om_class := (Some $"NSNumber"); om_overriding := false; om_overridden := []; om_bodyLines := (0)%Z |} [(Node 18 [] (VarDecl {| v_isParm := true; v_name := $"value"; v_used := false; v_referenced := false; v_local := false; v_staticMember := false; v_private := false; v_unusedAttr := false; v_defaultArg := false; v_canonicalType := $"float"; v_inTemplate := false; v_contexts := [CxObjCMethod true false false false; CxOther] |} None))] None)); (Node 19 [] (ObjCMethodDecl {| om_selector := $"numberWithDouble:"; om_class := (Some $"NSNumber"); om_overriding := false; om_overridden := []; om_bodyLines := (0)%Z |} [(Node 20 [] (VarDecl {| v_isParm := true; v_name := $"value"; v_used := false; v_referenced := false; v_local := false; v_staticMember := false; v_private := false; v_unusedAttr := false; v_defaultArg := false; v_canonicalType := $"double"; v_inTemplate := false; v_contexts := [CxObjCMethod true false false false; CxOther] |} None))] None)); (Node 21 [] (ObjCMethodDecl {| om_selector := $"numberWithBool:"; om_class := (Some $"NSNumber"); om_overriding := false; om_overridden := []; om_bodyLines := (0)%Z |} [(Node 22 [] (VarDecl {| v_isParm := true; v_name := $"value"; v_used := false; v_referenced := false; v_local := false; v_staticMember := false; v_private := false; v_unusedAttr := false; v_defaultArg := false; v_canonicalType := $"signed char"; v_inTemplate := false; v_contexts := [CxObjCMethod true false false false; CxOther] |} None))] None)); (Node 23 [] (ObjCMethodDecl {| om_selector := $"numberWithUnsignedChar:"; om_class := (Some $"NSNumber"); om_overriding := false; om_overridden := []; om_bodyLines := (0)%Z |} [(Node 24 [] (VarDecl {| v_isParm := true; v_name := $"value"; v_used := false; v_referenced := false; v_local := false; v_staticMember := false; v_private := false; v_unusedAttr := false; v_defaultArg := false; v_canonicalType := $"unsigned char"; v_inTemplate := false; v_contexts := [CxObjCMethod true false false false; CxOther] |} None))] None))]))); (toplevel 25 (TFunction false), (Node 25 [] (FunctionDecl {| f_name := $"m"; f_method := None; f_isDefinition := true; f_bodyLines := (1)%Z |} [] (Some (Node 26 [] (CompoundStmt [(Node 27 [] (DeclStmt [(Node 28 [] (VarDecl {| v_isParm := false; v_name := $"theLetterZ"; v_used := false; v_referenced := false; v_local := true; v_staticMember := false; v_private := false; v_unusedAttr := false; v_defaultArg := false; v_canonicalType := $"NSNumber *"; v_inTemplate := false; v_contexts := [CxFunction true true false] |} (Some (Node 29 $"NSNumber *" (ObjCMessageExpr {| ms_selector := $"numberWithChar:"; ms_receiver := (RClass $"NSNumber"); ms_implicit := false; ms_interface := (Some $"NSNumber"); ms_method := (Some (Decl [] (Some (Method false None (InOther (Some NoCategory)))))); ms_methodClass := (Some $"NSNumber") |} None [(Node 30 $"char" (ImplicitCastExpr CK_Other (Node 31 $"int" (CharacterLiteral 90%Z))))])))))]))]))))))];
     ts_locs := [(2,1,2,21); (3,1,4,2); (5,1,17,2); (6,1,6,41); (6,31,6,36); (7,1,7,39); (7,30,7,34); (8,1,8,56); (8,38,8,51); (9,1,9,41); (9,31,9,36); (10,1,10,58); (10,39,10,53); (11,1,11,50); (11,35,11,45); (12,1,12,67); (12,43,12,62); (13,1,13,43); (13,32,13,38); (14,1,14,45); (14,33,14,40); (15,1,15,41); (15,31,15,36); (16,1,16,58); (16,39,16,53); (18,1,18,66); (18,10,18,66); (18,12,18,64); (18,12,18,63); (18,35,18,63); (18,60,18,60); (18,60,18,60)]%Z;
     ts_evals := []; ts_same := []; ts_decls := []; ts_parents := [] |}.
Example ObjCBoxedExpressions_NumberWithChar_holds : sorted_violations_of (shippedRule sh_ObjCBoxedExpressions) ObjCBoxedExpressions_NumberWithChar = Some [].
Proof. vm_compute. reflexivity. Qed.

Definition ObjCBoxedExpressions_NumberWithCharButInteger : testcase :=
  {| ts_lang := LObjC; ts_path := $"input.m"; ts_code := [];
     ts_comments := []; ts_conf := [];
     ts_tops := [(toplevel 0 (TOther), (Node 0 [] (OtherDecl []))); (toplevel 1 (TOther), (Node 1 [] (ObjCContainerDecl {| oc_kind := OKInterface; oc_name := $"NSObject"; oc_lines := (2)%Z; oc_ivars := 0; oc_methods := []; oc_classes := [$"NSObject"]; oc_superMethods := None |} []))); (toplevel 2 (TOther), (Node 2 [] (ObjCContainerDecl {| oc_kind := OKInterface; oc_name := $"NSNumber"; oc_lines := (13)%Z; oc_ivars := 0; oc_methods := [($"numberWithChar:", false); ($"numberWithInt:", false); ($"numberWithUnsignedInt:", false); ($"numberWithLong:", false); ($"numberWithUnsignedLong:", false); ($"numberWithLongLong:", false); ($"numberWithUnsignedLongLong:", false); ($"numberWithFloat:", false); ($"numberWithDouble:", false); ($"numberWithBool:", false); ($"numberWithUnsignedChar:", false)]; oc_classes := [$"NSNumber"; $"NSObject"]; oc_superMethods := (Some ($"NSObject", [])) |} [(Node 3 [] (ObjCMethodDecl {| om_selector := $"numberWithChar:"; om_class := (Some $"NSNumber"); om_overriding := false; om_overridden := []; om_bodyLines := (0)%Z |} [(Node 4 [] (VarDecl {| v_isParm := true; v_name := $"value"; v_used := false; v_referenced := false; v_local := false; v_staticMember := false; v_private := false; v_unusedAttr := false; v_defaultArg := false; v_canonicalType := $"char"; v_inTemplate := false; v_contexts := [CxObjCMethod true false false false; CxOther] |} None))] None)); (Node 5 [] (ObjCMethodDecl {| om_selector := $"numberWithInt:"; om_class := (Some $"NSNumber"); om_overriding := false; om_overridden := []; om_bodyLines := (0)%Z |} [(Node 6 [] (VarDecl {| v_isParm := true; v_name := $"value"; v_used := false; v_referenced := false; v_local := false; v_staticMember := false; v_private := false; v_unusedAttr := false; v_defaultArg := false; v_canonicalType := $"int"; v_inTemplate := false; v_contexts := [CxObjCMethod true false false false; CxOther] |} None))] None)); (Node 7 [] (ObjCMethodDecl {| om_selector := $"numberWithUnsignedInt:"; om_class := (Some $"NSNumber"); om_overriding := false; om_overridden := []; om_bodyLines := (0)%Z |} [(Node 8 [] (VarDecl {| v_isParm := true; v_name := $"value"; v_used := false; v_referenced := false; v_local := false; v_staticMember := false; v_private := false; v_unusedAttr := false; v_defaultArg := false; v_canonicalType := $"unsigned int"; v_inTemplate := false; v_contexts := [CxObjCMethod true false false false; CxOther] |} None))] None)); (Node 9 [] (ObjCMethodDecl {| om_selector := $"numberWithLong:"; om_class := (Some $"NSNumber"); om_overriding := false; om_overridden := []; om_bodyLines := (0)%Z |} [(Node 10 [] (VarDecl {| v_isParm := true; v_name := $"value"; v_used := false; v_referenced := false; v_local := false; v_staticMember := false; v_private := false; v_unusedAttr := false; v_defaultArg := false; v_canonicalType := $"long"; v_inTemplate := false; v_contexts := [CxObjCMethod true false false false; CxOther] |} None))] None)); (Node 11 [] (ObjCMethodDecl {| om_selector := $"numberWithUnsignedLong:"; om_class := (Some $"NSNumber"); om_overriding := false; om_overridden := []; om_bodyLines := (0)%Z |} [(Node 12 [] (VarDecl {| v_isParm := true; v_name := $"value"; v_used := false; v_referenced := false; v_local := false; v_staticMember := false; v_private := false; v_unusedAttr := false; v_defaultArg := false; v_canonicalType := $"unsigned long"; v_inTemplate := false; v_contexts := [CxObjCMethod true false false false; CxOther] |} None))] None)); (Node 13 [] (ObjCMethodDecl {| om_selector := $"numberWithLongLong:"; om_class := (Some $"NSNumber"); om_overriding := false; om_overridden := []; om_bodyLines := (0)%Z |} [(Node 14 [] (VarDecl {| v_isParm := true; v_name := $"value"; v_used := false; v_referenced := false; v_local := false; v_staticMember := false; v_private := false; v_unusedAttr := false; v_defaultArg := false; v_canonicalType := $"long long"; v_inTemplate := false; v_contexts := [CxObjCMethod true false false false; CxOther] |} None))] None)); (Node 15 [] (ObjCMethodDecl {| om_selector := $"numberWithUnsignedLongLong:"; om_class := (Some $"NSNumber"); om_overriding := false; om_overridden := []; om_bodyLines := (0)%Z |} [(Node 16 [] (VarDecl {| v_isParm := true; v_name := $"value"; v_used := false; v_referenced := false; v_local := false; v_staticMember := false; v_private := false; v_unusedAttr := false; v_defaultArg := false; v_canonicalType := $"unsigned long long"; v_inTemplate := false; v_contexts := [CxObjCMethod true false false false; CxOther] |} None))] None)); (Node 17 [] (ObjCMethodDecl {| om_selector := $"numberWithFloat:"; om_class := (Some $"NSNumber"); om_overriding := false; om_overridden := []; om_bodyLines := (0)%Z |} [(Node 18 [] (VarDecl {| v_isParm := true; v_name := $"value"; v_used := false; v_referenced := false; v_local := false; v_staticMember := false; v_private := false; v_unusedAttr := false; v_defaultArg := false; v_canonicalType := $"float"; v_inTemplate := false; v_contexts := [CxObjCMethod true false false false; CxOther] |} None))] None)); (Node 19 [] (ObjCMethodDecl {| om_selector := $"numberWithDouble:"; om_class := (Some $"NSNumber"); om_overriding := false; om_overridden := []; om_bodyLines := (0)%Z |} [(Node 20 [] (VarDecl {| v_isParm := true; v_name := $"value"; v_used := false; v_referenced := false; v_local := false; v_staticMember := false; v_private := false; v_unusedAttr := false; v_defaultArg := false; v_canonicalType := $"double"; v_inTemplate := false; v_contexts := [CxObjCMethod true false false false; CxOther] |} None))] None)); (Node 21 [] (ObjCMethodDecl {| om_selector := $"numberWithBool:"; om_class := (Some $"NSNumber"); om_overriding := false; om_overridden := []; om_bodyLines := (0)%Z |} [(Node 22 [] (VarDecl {| v_isParm := true; v_name := $"value"; v_used := false; v_referenced := false; v_local := false; v_staticMember := false; v_private := false; v_unusedAttr := false; v_defaultArg := false; v_canonicalType := $"signed char"; v_inTemplate := false; v_contexts := [CxObjCMethod true false false false; CxOther] |} None))] None)); (Node 23 [] (ObjCMethodDecl {| om_selector := $"numberWithUnsignedChar:"; om_class := (Some $"NSNumber"); om_overriding := false; om_overridden := []; om_bodyLines := (0)%Z |} [(Node 24 [] (VarDecl {| v_isParm := true; v_name := $"value"; v_used := false; v_referenced := false; v_local := false; v_staticMember := false; v_private := false; v_unusedAttr := false; v_defaultArg := false; v_canonicalType := $"unsigned char"; v_inTemplate := false; v_contexts := [CxObjCMethod true false false false; CxOther] |} None))] None))]))); (toplevel 25 (TFunction false), (Node 25 [] (FunctionDecl {| f_name := $"m"; f_method := None; f_isDefinition := true; f_bodyLines := (1)%Z |} [] (Some (Node 26 [] (CompoundStmt [(Node 27 [] (DeclStmt [(Node 28 [] (VarDecl {| v_isParm := false; v_name := $"theLetterZ"; v_used := false; v_referenced := false; v_local := true; v_staticMember := false; v_private := false; v_unusedAttr := false; v_defaultArg := false; v_canonicalType := $"NSNumber *"; v_inTemplate := false; v_contexts := [CxFunction true true false] |} (Some (Node 29 $"NSNumber *" (ObjCMessageExpr {| ms_selector := $"numberWithChar:"; ms_receiver := (RClass $"NSNumber"); ms_implicit := false; ms_interface := (Some $"NSNumber"); ms_method := (Some (Decl [] (Some (Method false None (InOther (Some NoCategory)))))); ms_methodClass := (Some $"NSNumber") |} None [(Node 30 $"char" (ImplicitCastExpr CK_Other (Node 31 $"int" (IntegerLiteral (15)%Z))))])))))]))]))))))];
     ts_locs := [(2,1,2,21); (3,1,4,2); (5,1,17,2); (6,1,6,41); (6,31,6,36); (7,1,7,39); (7,30,7,34); (8,1,8,56); (8,38,8,51); (9,1,9,41); (9,31,9,36); (10,1,10,58); (10,39,10,53); (11,1,11,50); (11,35,11,45); (12,1,12,67); (12,43,12,62); (13,1,13,43); (13,32,13,38); (14,1,14,45); (14,33,14,40); (15,1,15,41); (15,31,15,36); (16,1,16,58); (16,39,16,53); (18,1,18,65); (18,10,18,65); (18,12,18,63); (18,12,18,62); (18,35,18,62); (18,60,18,60); (18,60,18,60)]%Z;
     ts_evals := []; ts_same := []; ts_decls := []; ts_parents := [] |}.
Example ObjCBoxedExpressions_NumberWithCharButInteger_holds : sorted_violations_of (shippedRule sh_ObjCBoxedExpressions) ObjCBoxedExpressions_NumberWithCharButInteger = Some [].
Proof. vm_compute. reflexivity. Qed.

Definition ObjCBoxedExpressions_NumberWithBoxedChar : testcase :=
  {| ts_lang := LObjC; ts_path := $"input.m"; ts_code := [];
     ts_comments := []; ts_conf := [];
     ts_tops := [(toplevel 0 (TOther), (Node 0 [] (OtherDecl []))); (toplevel 1 (TOther), (Node 1 [] (ObjCContainerDecl {| oc_kind := OKInterface; oc_name := $"NSObject"; oc_lines := (2)%Z; oc_ivars := 0; oc_methods := []; oc_classes := [$"NSObject"]; oc_superMethods := None |} []))); (toplevel 2 (TOther), (Node 2 [] (ObjCContainerDecl {| oc_kind := OKInterface; oc_name := $"NSNumber"; oc_lines := (13)%Z; oc_ivars := 0; oc_methods := [($"numberWithChar:", false); ($"numberWithInt:", false); ($"numberWithUnsignedInt:", false); ($"numberWithLong:", false); ($"numberWithUnsignedLong:", false); ($"numberWithLongLong:", false); ($"numberWithUnsignedLongLong:", false); ($"numberWithFloat:", false); ($"numberWithDouble:", false); ($"numberWithBool:", false); ($"numberWithUnsignedChar:", false)]; oc_classes := [$"NSNumber"; $"NSObject"]; oc_superMethods := (Some ($"NSObject", [])) |} [(Node 3 [] (ObjCMethodDecl {| om_selector := $"numberWithChar:"; om_class := (Some $"NSNumber"); om_overriding := false; om_overridden := []; om_bodyLines := (0)%Z |} [(Node 4 [] (VarDecl {| v_isParm := true; v_name := $"value"; v_used := false; v_referenced := false; v_local := false; v_staticMember := false; v_private := false; v_unusedAttr := false; v_defaultArg := false; v_canonicalType := $"char"; v_inTemplate := false; v_contexts := [CxObjCMethod true false false false; CxOther] |} None))] None)); (Node 5 [] (ObjCMethodDecl {| om_selector := $"numberWithInt:"; om_class := (Some $"NSNumber"); om_overriding := false; om_overridden := []; om_bodyLines := (0)%Z |} [(Node 6 [] (VarDecl {| v_isParm := true; v_name := $"value"; v_used := false; v_referenced := false; v_local := false; v_staticMember := false; v_private := false; v_unusedAttr := false; v_defaultArg := false; v_canonicalType := $"int"; v_inTemplate := false; v_contexts := [CxObjCMethod true false false false; CxOther] |} None))] None)); (Node 7 [] (ObjCMethodDecl {| om_selector := $"numberWithUnsignedInt:"; om_class := (Some $"NSNumber"); om_overriding := false; om_overridden := []; om_bodyLines := (0)%Z |} [(Node 8 [] (VarDecl {| v_isParm := true; v_name := $"value"; v_used := false; v_referenced := false; v_local := false; v_staticMember := false; v_private := false; v_unusedAttr := false; v_defaultArg := false; v_canonicalType := $"unsigned int"; v_inTemplate := false; v_contexts := [CxObjCMethod true false false false; CxOther] |} None))] None)); (Node 9 [] (ObjCMethodDecl {| om_selector := $"numberWithLong:"; om_class := (Some $"NSNumber"); om_overriding := false; om_overridden := []; om_bodyLines := (0)%Z |} [(Node 10 [] (VarDecl {| v_isParm := true; v_name := $"value"; v_used := false; v_referenced := false; v_local := false; v_staticMember := false; v_private := false; v_unusedAttr := false; v_defaultArg := false; v_canonicalType := $"long"; v_inTemplate := false; v_contexts := [CxObjCMethod true false false false; CxOther] |} None))] None)); (Node 11 [] (ObjCMethodDecl {| om_selector := $"numberWithUnsignedLong:"; om_class := (Some $"NSNumber"); om_overriding := false; om_overridden := []; om_bodyLines := (0)%Z |} [(Node 12 [] (VarDecl {| v_isParm := true; v_name := $"value"; v_used := false; v_referenced := false; v_local := false; v_staticMember := false; v_private := false; v_unusedAttr := false; v_defaultArg := false; v_canonicalType := $"unsigned long"; v_inTemplate := false; v_contexts := [CxObjCMethod true false false false; CxOther] |} None))] None)); (Node 13 [] (ObjCMethodDecl {| om_selector := $"numberWithLongLong:"; om_class := (Some $"NSNumber"); om_overriding := false; om_overridden := []; om_bodyLines := (0)%Z |} [(Node 14 [] (VarDecl {| v_isParm := true; v_name := $"value"; v_used := false; v_referenced := false; v_local := false; v_staticMember := false; v_private := false; v_unusedAttr := false; v_defaultArg := false; v_canonicalType := $"long long"; v_inTemplate := false; v_contexts := [CxObjCMethod true false false false; CxOther] |} None))] None)); (Node 15 [] (ObjCMethodDecl {| om_selector := $"numberWithUnsignedLongLong:"; om_class := (Some $"NSNumber"); om_overriding := false; om_overridden := []; om_bodyLines := (0)%Z |} [(Node 16 [] (VarDecl {| v_isParm := true; v_name := $"value"; v_used := false; v_referenced := false; v_local := false; v_staticMember := false; v_private := false; v_unusedAttr := false; v_defaultArg := false; v_canonicalType := $"unsigned long long"; v_inTemplate := false; v_contexts := [CxObjCMethod true false false false; CxOther] |} None))] None)); (Node 17 [] (ObjCMethodDecl {| om_selector := $"numberWithFloat:"; om_class := (Some $"NSNumber"); om_overriding := false; om_overridden := []; om_bodyLines := (0)%Z |} [(Node 18 [] (VarDecl {| v_isParm := true; v_name := $"value"; v_used := false; v_referenced := false; v_local := false; v_staticMember := false; v_private := false; v_unusedAttr := false; v_defaultArg := false; v_canonicalType := $"float"; v_inTemplate := false; v_contexts := [CxObjCMethod true false false false; CxOther] |} None))] None)); (Node 19 [] (ObjCMethodDecl {| om_selector := $"numberWithDouble:"; om_class := (Some $"NSNumber"); om_overriding := false; om_overridden := []; om_bodyLines := (0)%Z |} [(Node 20 [] (VarDecl {| v_isParm := true; v_name := $"value"; v_used := false; v_referenced := false; v_local := false; v_staticMember := false; v_private := false; v_unusedAttr := false; v_defaultArg := false; v_canonicalType := $"double"; v_inTemplate := false; v_contexts := [CxObjCMethod true false false false; CxOther] |} None))] None)); (Node 21 [] (ObjCMethodDecl {| om_selector := $"numberWithBool:"; om_class := (Some $"NSNumber"); om_overriding := false; om_overridden := []; om_bodyLines := (0)%Z |} [(Node 22 [] (VarDecl {| v_isParm := true; v_name := $"value"; v_used := false; v_referenced := false; v_local := false; v_staticMember := false; v_private := false; v_unusedAttr := false; v_defaultArg := false; v_canonicalType := $"signed char"; v_inTemplate := false; v_contexts := [CxObjCMethod true false false false; CxOther] |} None))] None)); (Node 23 [] (ObjCMethodDecl {| om_selector := $"numberWithUnsignedChar:"; om_class := (Some $"NSNumber"); om_overriding := false; om_overridden := []; om_bodyLines := (0)%Z |} [(Node 24 [] (VarDecl {| v_isParm := true; v_name := $"value"; v_used := false; v_referenced := false; v_local := false; v_staticMember := false; v_private := false; v_unusedAttr := false; v_defaultArg := false; v_canonicalType := $"unsigned char"; v_inTemplate := false; v_contexts := [CxObjCMethod true false false false; CxOther] |} None))] None))]))); (toplevel 25 (TFunction false), (Node 25 [] (FunctionDecl {| f_name := $"getZ"; f_method := None; f_isDefinition := true; f_bodyLines := (1)%Z |} [] (Some (Node 26 [] (CompoundStmt [(Node 27 [] (ReturnStmt (Some (Node 28 $"char" (ImplicitCastExpr CK_Other (Node 29 $"int" (CharacterLiteral 90%Z)))))))])))))); (toplevel 30 (TFunction false), (Node 30 [] (FunctionDecl {| f_name := $"m"; f_method := None; f_isDefinition := true; f_bodyLines := (1)%Z |} [] (Some (Node 31 [] (CompoundStmt [(Node 32 [] (DeclStmt [(Node 33 [] (VarDecl {| v_isParm := false; v_name := $"theLetterZ"; v_used := false; v_referenced := false; v_local := true; v_staticMember := false; v_private := false; v_unusedAttr := false; v_defaultArg := false; v_canonicalType := $"NSNumber *"; v_inTemplate := false; v_contexts := [CxFunction true true false] |} (Some (Node 34 $"NSNumber *" (ObjCMessageExpr {| ms_selector := $"numberWithChar:"; ms_receiver := (RClass $"NSNumber"); ms_implicit := false; ms_interface := (Some $"NSNumber"); ms_method := (Some (Decl [] (Some (Method false None (InOther (Some NoCategory)))))); ms_methodClass := (Some $"NSNumber") |} None [(Node 35 $"char" (ParenExpr (Node 36 $"char" (CallExpr (Some ($"getZ", (Decl [] None))) (Node 37 $"char () *" (ImplicitCastExpr CK_Other (Node 38 $"char ()" (DeclRefExpr 25 $"getZ" false)))) []))))])))))]))]))))))];
     ts_locs := [(2,1,2,21); (3,1,4,2); (5,1,17,2); (6,1,6,41); (6,31,6,36); (7,1,7,39); (7,30,7,34); (8,1,8,56); (8,38,8,51); (9,1,9,41); (9,31,9,36); (10,1,10,58); (10,39,10,53); (11,1,11,50); (11,35,11,45); (12,1,12,67); (12,43,12,62); (13,1,13,43); (13,32,13,38); (14,1,14,45); (14,33,14,40); (15,1,15,41); (15,31,15,36); (16,1,16,58); (16,39,16,53); (18,1,18,27); (18,13,18,27); (18,15,18,22); (18,22,18,22); (18,22,18,22); (18,29,18,99); (18,38,18,99); (18,40,18,97); (18,40,18,96); (18,63,18,96); (18,88,18,95); (18,89,18,94); (18,89,18,89); (18,89,18,89)]%Z;
     ts_evals := []; ts_same := []; ts_decls := []; ts_parents := [] |}.
Example ObjCBoxedExpressions_NumberWithBoxedChar_holds : nth_violation (shippedRule sh_ObjCBoxedExpressions) ObjCBoxedExpressions_NumberWithBoxedChar 0 = Some (18, 63, 18, 96, $"")%Z.
Proof. vm_compute. reflexivity. Qed.

Definition ObjCBoxedExpressions_IntLiteral : testcase :=
  {| ts_lang := LObjC; ts_path := $"input.m"; ts_code := [];
     ts_comments := []; ts_conf := [];
     ts_tops := [(toplevel 0 (TOther), (Node 0 [] (OtherDecl []))); (toplevel 1 (TOther), (Node 1 [] (ObjCContainerDecl {| oc_kind := OKInterface; oc_name := $"NSObject"; oc_lines := (2)%Z; oc_ivars := 0; oc_methods := []; oc_classes := [$"NSObject"]; oc_superMethods := None |} []))); (toplevel 2 (TOther), (Node 2 [] (ObjCContainerDecl {| oc_kind := OKInterface; oc_name := $"NSNumber"; oc_lines := (13)%Z; oc_ivars := 0; oc_methods := [($"numberWithChar:", false); ($"numberWithInt:", false); ($"numberWithUnsignedInt:", false); ($"numberWithLong:", false); ($"numberWithUnsignedLong:", false); ($"numberWithLongLong:", false); ($"numberWithUnsignedLongLong:", false); ($"numberWithFloat:", false); ($"numberWithDouble:", false); ($"numberWithBool:", false); ($"numberWithUnsignedChar:", false)]; oc_classes := [$"NSNumber"; $"NSObject"]; oc_superMethods := (Some ($"NSObject", [])) |} [(Node 3 [] (ObjCMethodDecl {| om_selector := $"numberWithChar:"; om_class := (Some $"NSNumber"); om_overriding := false; om_overridden := []; om_bodyLines := (0)%Z |} [(Node 4 [] (VarDecl {| v_isParm := true; v_name := $"value"; v_used := false; v_referenced := false; v_local := false; v_staticMember := false; v_private := false; v_unusedAttr := false; v_defaultArg := false; v_canonicalType := $"char"; v_inTemplate := false; v_contexts := [CxObjCMethod true false false false; CxOther] |} None))] None)); (Node 5 [] (ObjCMethodDecl {| om_selector := $"numberWithInt:"; om_class := (Some $"NSNumber"); om_overriding := false; om_overridden := []; om_bodyLines := (0)%Z |} [(Node 6 [] (VarDecl {| v_isParm := true; v_name := $"value"; v_used := false; v_referenced := false; v_local := false; v_staticMember := false; v_private := false; v_unusedAttr := false; v_defaultArg := false; v_canonicalType := $"int"; v_inTemplate := false; v_contexts := [CxObjCMethod true false false false; CxOther] |} None))] None)); (Node 7 [] (ObjCMethodDecl {| om_selector := $"numberWithUnsignedInt:"; om_class := (Some $"NSNumber"); om_overriding := false; om_overridden := []; om_bodyLines := (0)%Z |} [(Node 8 [] (VarDecl {| v_isParm := true; v_name := $"value"; v_used := false; v_referenced := false; v_local := false; v_staticMember := false; v_private := false; v_unusedAttr := false; v_defaultArg := false; v_canonicalType := $"unsigned int"; v_inTemplate := false; v_contexts := [CxObjCMethod true false false false; CxOther] |} None))] None)); (Node 9 [] (ObjCMethodDecl {| om_selector := $"numberWithLong:"; om_class := (Some $"NSNumber"); om_overriding := false; om_overridden := []; om_bodyLines := (0)%Z |} [(Node 10 [] (VarDecl {| v_isParm := true; v_name := $"value"; v_used := false; v_referenced := false; v_local := false; v_staticMember := false; v_private := false; v_unusedAttr := false; v_defaultArg := false; v_canonicalType := $"long"; v_inTemplate := false; v_contexts := [CxObjCMethod true false false false; CxOther] |} None))] None)); (Node 11 [] (ObjCMethodDecl {| om_selector := $"numberWithUnsignedLong:"; om_class := (Some $"NSNumber"); om_overriding := false; om_overridden := []; om_bodyLines := (0)%Z |} [(Node 12 [] (VarDecl {| v_isParm := true; v_name := $"value"; v_used := false; v_referenced := false; v_local := false; v_staticMember := false; v_private := false; v_unusedAttr := false; v_defaultArg := false; v_canonicalType := $"unsigned long"; v_inTemplate := false; v_contexts := [CxObjCMethod true false false false; CxOther] |} None))] None)); (Node 13 [] (ObjCMethodDecl {| om_selector := $"numberWithLongLong:"; om_class := (Some $"NSNumber"); om_overriding := false; om_overridden := []; om_bodyLines := (0)%Z |} [(Node 14 [] (VarDecl {| v_isParm := true; v_name := $"value"; v_used := false; v_referenced := false; v_local := false; v_staticMember := false; v_private := false; v_unusedAttr := false; v_defaultArg := false; v_canonicalType := $"long long"; v_inTemplate := false; v_contexts := [CxObjCMethod true false false false; CxOther] |} None))] None)); (Node 15 [] (ObjCMethodDecl {| om_selector := $"numberWithUnsignedLongLong:"; om_class := (Some $"NSNumber"); om_overriding := false; om_overridden := []; om_bodyLines := (0)%Z |} [(Node 16 [] (VarDecl {| v_isParm := true; v_name := $"value"; v_used := false; v_referenced := false; v_local := false; v_staticMember := false; v_private := false; v_unusedAttr := false; v_defaultArg := false; v_canonicalType := $"unsigned long long"; v_inTemplate := false; v_contexts := [CxObjCMethod true false false false; CxOther] |} None))] None)); (Node 17 [] (ObjCMethodDecl {| om_selector := $"numberWithFloat:"; om_class := (Some $"NSNumber"); om_overriding := false; om_overridden := []; om_bodyLines := (0)%Z |} [(Node 18 [] (VarDecl {| v_isParm := true; v_name := $"value"; v_used := false; v_referenced := false; v_local := false; v_staticMember := false; v_private := false; v_unusedAttr := false; v_defaultArg := false; v_canonicalType := $"float"; v_inTemplate := false; v_contexts := [CxObjCMethod true false false false; CxOther] |} None))] None)); (Node 19 [] (ObjCMethodDecl {| om_selector := $"numberWithDouble:"; om_class := (Some $"NSNumber"); om_overriding := false; om_overridden := []; om_bodyLines := (0)%Z |} [(Node 20 [] (VarDecl {| v_isParm := true; v_name := $"value"; v_used := false; v_referenced := false; v_local := false; v_staticMember := false; v_private := false; v_unusedAttr := false; v_defaultArg := false; v_canonicalType := $"double"; v_inTemplate := false; v_contexts := [CxObjCMethod true false false false; CxOther] |} None))] None)); (Node 21 [] (ObjCMethodDecl {| om_selector := $"numberWithBool:"; om_class := (Some $"NSNumber"); om_overriding := false; om_overridden := []; om_bodyLines := (0)%Z |} [(Node 22 [] (VarDecl {| v_isParm := true; v_name := $"value"; v_used := false; v_referenced := false; v_local := false; v_staticMember := false; v_private := false; v_unusedAttr := false; v_defaultArg := false; v_canonicalType := $"signed char"; v_inTemplate := false; v_contexts := [CxObjCMethod true false false false; CxOther] |} None))] None)); (Node 23 [] (ObjCMethodDecl {| om_selector := $"numberWithUnsignedChar:"; om_class := (Some $"NSNumber"); om_overriding := false; om_overridden := []; om_bodyLines := (0)%Z |} [(Node 24 [] (VarDecl {| v_isParm := true; v_name := $"value"; v_used := false; v_referenced := false; v_local := false; v_staticMember := false; v_private := false; v_unusedAttr := false; v_defaultArg := false; v_canonicalType := $"unsigned char"; v_inTemplate := false; v_contexts := [CxObjCMethod true false false false; CxOther] |} None))] None))]))); (toplevel 25 (TFunction false), (Node 25 [] (FunctionDecl {| f_name := $"m"; f_method := None; f_isDefinition := true; f_bodyLines := (1)%Z |} [] (Some (Node 26 [] (CompoundStmt [(Node 27 [] (DeclStmt [(Node 28 [] (VarDecl {| v_isParm := false; v_name := $"fortyTwo"; v_used := false; v_referenced := false; v_local := true; v_staticMember := false; v_private := false; v_unusedAttr := false; v_defaultArg := false; v_canonicalType := $"NSNumber *"; v_inTemplate := false; v_contexts := [CxFunction true true false] |} (Some (Node 29 $"NSNumber *" (OtherExpr [(Node 30 $"int" (IntegerLiteral (42)%Z))])))))]))]))))))];
     ts_locs := [(2,1,2,21); (3,1,4,2); (5,1,17,2); (6,1,6,41); (6,31,6,36); (7,1,7,39); (7,30,7,34); (8,1,8,56); (8,38,8,51); (9,1,9,41); (9,31,9,36); (10,1,10,58); (10,39,10,53); (11,1,11,50); (11,35,11,45); (12,1,12,67); (12,43,12,62); (13,1,13,43); (13,32,13,38); (14,1,14,45); (14,33,14,40); (15,1,15,41); (15,31,15,36); (16,1,16,58); (16,39,16,53); (18,1,18,38); (18,10,18,38); (18,12,18,36); (18,12,18,34); (18,33,18,34); (18,34,18,34)]%Z;
     ts_evals := []; ts_same := []; ts_decls := []; ts_parents := [] |}.
Example ObjCBoxedExpressions_IntLiteral_holds : sorted_violations_of (shippedRule sh_ObjCBoxedExpressions) ObjCBoxedExpressions_IntLiteral = Some [].
Proof. vm_compute. reflexivity. Qed.

Definition ObjCBoxedExpressions_NumberWithInt : testcase :=
  {| ts_lang := LObjC; ts_path := $"input.m"; ts_code := [];
     ts_comments := []; ts_conf := [];
     ts_tops := [(toplevel 0 (TOther), (Node 0 [] (OtherDecl []))); (toplevel 1 (TOther), (Node 1 [] (ObjCContainerDecl {| oc_kind := OKInterface; oc_name := $"NSObject"; oc_lines := (2)%Z; oc_ivars := 0; oc_methods := []; oc_classes := [$"NSObject"]; oc_superMethods := None |} []))); (toplevel 2 (TOther), (Node 2 [] (ObjCContainerDecl {| oc_kind := OKInterface; oc_name := $"NSNumber"; oc_lines := (13)%Z; oc_ivars := 0; oc_methods := [($"numberWithChar:", false); ($"numberWithInt:", false); ($"numberWithUnsignedInt:", false); ($"numberWithLong:", false); ($"numberWithUnsignedLong:", false); ($"numberWithLongLong:", false); ($"numberWithUnsignedLongLong:", false); ($"numberWithFloat:", false); ($"numberWithDouble:", false); ($"numberWithBool:", false); ($"numberWithUnsignedChar:", false)]; oc_classes := [$"NSNumber"; $"NSObject"]; oc_superMethods := (Some ($"NSObject", [])) |} [(Node 3 [] (ObjCMethodDecl {| om_selector := $"numberWithChar:"; om_class := (Some $"NSNumber"); om_overriding := false; om_overridden := []; om_bodyLines := (0)%Z |} [(Node 4 [] (VarDecl {| v_isParm := true; v_name := $"value"; v_used := false; v_referenced := false; v_local := false; v_staticMember := false; v_private := false; v_unusedAttr := false; v_defaultArg := false; v_canonicalType := $"char"; v_inTemplate := false; v_contexts := [CxObjCMethod true false false false; CxOther] |} None))] None)); (Node 5 [] (ObjCMethodDecl {| om_selector := $"numberWithInt:"; om_class := (Some $"NSNumber"); om_overriding := false; om_overridden := []; om_bodyLines := (0)%Z |} [(Node 6 [] (VarDecl {| v_isParm := true; v_name := $"value"; v_used := false; v_referenced := false; v_local := false; v_staticMember := false; v_private := false; v_unusedAttr := false; v_defaultArg := false; v_canonicalType := $"int"; v_inTemplate := false; v_contexts := [CxObjCMethod true false false false; CxOther] |} None))] None)); (Node 7 [] (ObjCMethodDecl {| om_selector := $"numberWithUnsignedInt:"; om_class := (Some $"NSNumber"); om_overriding := false; om_overridden := []; om_bodyLines := (0)%Z |} [(Node 8 [] (VarDecl {| v_isParm := true; v_name := $"value"; v_used := false; v_referenced := false; v_local := false; v_staticMember := false; v_private := false; v_unusedAttr := false; v_defaultArg := false; v_canonicalType := $"unsigned int"; v_inTemplate := false; v_contexts := [CxObjCMethod true false false false; CxOther] |} None))] None)); (Node 9 [] (ObjCMethodDecl {| om_selector := $"numberWithLong:"; om_class := (Some $"NSNumber"); om_overriding := false; om_overridden := []; om_bodyLines := (0)%Z |} [(Node 10 [] (VarDecl {| v_isParm := true; v_name := $"value"; v_used := false; v_referenced := false; v_local := false; v_staticMember := false; v_private := false; v_unusedAttr := false; v_defaultArg := false; v_canonicalType := $"long"; v_inTemplate := false; v_contexts := [CxObjCMethod true false false false; CxOther] |} None))] None)); (Node 11 [] (ObjCMethodDecl {| om_selector := $"numberWithUnsignedLong:"; om_class := (Some $"NSNumber"); om_overriding := false; om_overridden := []; om_bodyLines := (0)%Z |} [(Node 12 [] (VarDecl {| v_isParm := true; v_name := $"value"; v_used := false; v_referenced := false; v_local := false; v_staticMember := false; v_private := false; v_unusedAttr := false; v_defaultArg := false; v_canonicalType := $"unsigned long"; v_inTemplate := false; v_contexts := [CxObjCMethod true false false false; CxOther] |} None))] None)); (Node 13 [] (ObjCMethodDecl {| om_selector := $"numberWithLongLong:"; om_class := (Some $"NSNumber"); om_overriding := false; om_overridden := []; om_bodyLines := (0)%Z |} [(Node 14 [] (VarDecl {| v_isParm := true; v_name := $"value"; v_used := false; v_referenced := false; v_local := false; v_staticMember := false; v_private := false; v_unusedAttr := false; v_defaultArg := false; v_canonicalType := $"long long"; v_inTemplate := false; v_contexts := [CxObjCMethod true false false false; CxOther] |} None))] None)); (Node 15 [] (ObjCMethodDecl {| om_selector := $"numberWithUnsignedLongLong:"; om_class := (Some $"NSNumber"); om_overriding := false; om_overridden := []; om_bodyLines := (0)%Z |} [(Node 16 [] (VarDecl {| v_isParm := true; v_name := $"value"; v_used := false; v_referenced := false; v_local := false; v_staticMember := false; v_private := false; v_unusedAttr := false; v_defaultArg := false; v_canonicalType := $"unsigned long long"; v_inTemplate := false; v_contexts := [CxObjCMethod true false false false; CxOther] |} None))] None)); (Node 17 [] (ObjCMethodDecl {| om_selector := $"numberWithFloat:"; om_class := (Some $"NSNumber"); om_overriding := false; om_overridden := []; om_bodyLines := (0)%Z |} [(Node 18 [] (VarDecl {| v_isParm := true; v_name := $"value"; v_used := false; v_referenced := false; v_local := false; v_staticMember := false; v_private := false; v_unusedAttr := false; v_defaultArg := false; v_canonicalType := $"float"; v_inTemplate := false; v_contexts := [CxObjCMethod true false false false; CxOther] |} None))] None)); (Node 19 [] (ObjCMethodDecl {| om_selector := $"numberWithDouble:"; om_class := (Some $"NSNumber"); om_overriding := false; om_overridden := []; om_bodyLines := (0)%Z |} [(Node 20 [] (VarDecl {| v_isParm := true; v_name := $"value"; v_used := false; v_referenced := false; v_local := false; v_staticMember := false; v_private := false; v_unusedAttr := false; v_defaultArg := false; v_canonicalType := $"double"; v_inTemplate := false; v_contexts := [CxObjCMethod true false false false; CxOther] |} None))] None)); (Node 21 [] (ObjCMethodDecl {| om_selector := $"numberWithBool:"; om_class := (Some $"NSNumber"); om_overriding := false; om_overridden := []; om_bodyLines := (0)%Z |} [(Node 22 [] (VarDecl {| v_isParm := true; v_name := $"value"; v_used := false; v_referenced := false; v_local := false; v_staticMember := false; v_private := false; v_unusedAttr := false; v_defaultArg := false; v_canonicalType := $"signed char"; v_inTemplate := false; v_contexts := [CxObjCMethod true false false false; CxOther] |} None))] None)); (Node 23 [] (ObjCMethodDecl {| om_selector := $"numberWithUnsignedChar:"; om_class := (Some $"NSNumber"); om_overriding := false; om_overridden := []; om_bodyLines := (0)%Z |} [(Node 24 [] (VarDecl {| v_isParm := true; v_name := $"value"; v_used := false; v_referenced := false; v_local := false; v_staticMember := false; v_private := false; v_unusedAttr := false; v_defaultArg := false; v_canonicalType := $"unsigned char"; v_inTemplate := false; v_contexts := [CxObjCMethod true false false false; CxOther] |} None))] None))]))); (toplevel 25 (TFunction false), (Node 25 [] (FunctionDecl {| f_name := $"m"; f_method := None; f_isDefinition := true; f_bodyLines := (1)%Z |} [] (Some (Node 26 [] (CompoundStmt [(Node 27 [] (DeclStmt [(Node 28 [] (VarDecl {| v_isParm := false; v_name := $"fortyTwo"; v_used := false; v_referenced := false; v_local := true; v_staticMember := false; v_private := false; v_unusedAttr := false; v_defaultArg := false; v_canonicalType := $"NSNumber *"; v_inTemplate := false; v_contexts := [CxFunction true true false] |} (Some (Node 29 $"NSNumber *" (ObjCMessageExpr {| ms_selector := $"numberWithInt:"; ms_receiver := (RClass $"NSNumber"); ms_implicit := false; ms_interface := (Some $"NSNumber"); ms_method := (Some (Decl [] (Some (Method false None (InOther (Some NoCategory)))))); ms_methodClass := (Some $"NSNumber") |} None [(Node 30 $"int" (IntegerLiteral (42)%Z))])))))]))]))))))];
     ts_locs := [(2,1,2,21); (3,1,4,2); (5,1,17,2); (6,1,6,41); (6,31,6,36); (7,1,7,39); (7,30,7,34); (8,1,8,56); (8,38,8,51); (9,1,9,41); (9,31,9,36); (10,1,10,58); (10,39,10,53); (11,1,11,50); (11,35,11,45); (12,1,12,67); (12,43,12,62); (13,1,13,43); (13,32,13,38); (14,1,14,45); (14,33,14,40); (15,1,15,41); (15,31,15,36); (16,1,16,58); (16,39,16,53); (18,1,18,62); (18,10,18,62); (18,12,18,60); (18,12,18,59); (18,33,18,59); (18,57,18,57)]%Z;
     ts_evals := []; ts_same := []; ts_decls := []; ts_parents := [] |}.
Example ObjCBoxedExpressions_NumberWithInt_holds : sorted_violations_of (shippedRule sh_ObjCBoxedExpressions) ObjCBoxedExpressions_NumberWithInt = Some [].
Proof. vm_compute. reflexivity. Qed.

Definition ObjCBoxedExpressions_NumberWithBoxedInt : testcase :=
  {| ts_lang := LObjC; ts_path := $"input.m"; ts_code := [];
     ts_comments := []; ts_conf := [];
     ts_tops := [(toplevel 0 (TOther), (Node 0 [] (OtherDecl []))); (toplevel 1 (TOther), (Node 1 [] (ObjCContainerDecl {| oc_kind := OKInterface; oc_name := $"NSObject"; oc_lines := (2)%Z; oc_ivars := 0; oc_methods := []; oc_classes := [$"NSObject"]; oc_superMethods := None |} []))); (toplevel 2 (TOther), (Node 2 [] (ObjCContainerDecl {| oc_kind := OKInterface; oc_name := $"NSNumber"; oc_lines := (13)%Z; oc_ivars := 0; oc_methods := [($"numberWithChar:", false); ($"numberWithInt:", false); ($"numberWithUnsignedInt:", false); ($"numberWithLong:", false); ($"numberWithUnsignedLong:", false); ($"numberWithLongLong:", false); ($"numberWithUnsignedLongLong:", false); ($"numberWithFloat:", false); ($"numberWithDouble:", false); ($"numberWithBool:", false); ($"numberWithUnsignedChar:", false)]; oc_classes := [$"NSNumber"; $"NSObject"]; oc_superMethods := (Some ($"NSObject", [])) |} [(Node 3 [] (ObjCMethodDecl {| om_selector := $"numberWithChar:"; om_class := (Some $"NSNumber"); om_overriding := false; om_overridden := []; om_bodyLines := (0)%Z |} [(Node 4 [] (VarDecl {| v_isParm := true; v_name := $"value"; v_used := false; v_referenced := false; v_local := false; v_staticMember := false; v_private := false; v_unusedAttr := false; v_defaultArg := false; v_canonicalType := $"char"; v_inTemplate := false; v_contexts := [CxObjCMethod true false false false; CxOther] |} None))] None)); (Node 5 [] (ObjCMethodDecl {| om_selector := $"numberWithInt:"; om_class := (Some $"NSNumber"); om_overriding := false; om_overridden := []; om_bodyLines := (0)%Z |} [(Node 6 [] (VarDecl {| v_isParm := true; v_name := $"value"; v_used := false; v_referenced := false; v_local := false; v_staticMember := false; v_private := false; v_unusedAttr := false; v_defaultArg := false; v_canonicalType := $"int"; v_inTemplate := false; v_contexts := [CxObjCMethod true false false false; CxOther] |} None))] None)); (Node 7 [] (ObjCMethodDecl {| om_selector := $"numberWithUnsignedInt:"; om_class := (Some $"NSNumber"); om_overriding := false; om_overridden := []; om_bodyLines := (0)%Z |} [(Node 8 [] (VarDecl {| v_isParm := true; v_name := $"value"; v_used := false; v_referenced := false; v_local := false; v_staticMember := false; v_private := false; v_unusedAttr := false; v_defaultArg := false; v_canonicalType := $"unsigned int"; v_inTemplate := false; v_contexts := [CxObjCMethod true false false false; CxOther] |} None))] None)); (Node 9 [] (ObjCMethodDecl {| om_selector := $"numberWithLong:"; om_class := (Some $"NSNumber"); om_overriding := false; om_overridden := []; om_bodyLines := (0)%Z |} [(Node 10 [] (VarDecl {| v_isParm := true; v_name := $"value"; v_used := false; v_referenced := false; v_local := false; v_staticMember := false; v_private := false; v_unusedAttr := false; v_defaultArg := false; v_canonicalType := $"long"; v_inTemplate := false; v_contexts := [CxObjCMethod true false false false; CxOther] |} None))] None)); (Node 11 [] (ObjCMethodDecl {| om_selector := $"numberWithUnsignedLong:"; om_class := (Some $"NSNumber"); om_overriding := false; om_overridden := []; om_bodyLines := (0)%Z |} [(Node 12 [] (VarDecl {| v_isParm := true; v_name := $"value"; v_used := false; v_referenced := false; v_local := false; v_staticMember := false; v_private := false; v_unusedAttr := false; v_defaultArg := false; v_canonicalType := $"unsigned long"; v_inTemplate := false; v_contexts := [CxObjCMethod true false false false; CxOther] |} None))] None)); (Node 13 [] (ObjCMethodDecl {| om_selector := $"numberWithLongLong:"; om_class := (Some $"NSNumber"); om_overriding := false; om_overridden := []; om_bodyLines := (0)%Z |} [(Node 14 [] (VarDecl {| v_isParm := true; v_name := $"value"; v_used := false; v_referenced := false; v_local := false; v_staticMember := false; v_private := false; v_unusedAttr := false; v_defaultArg := false; v_canonicalType := $"long long"; v_inTemplate := false; v_contexts := [CxObjCMethod true false false false; CxOther] |} None))] None)); (Node 15 [] (ObjCMethodDecl {| om_selector := $"numberWithUnsignedLongLong:"; om_class := (Some $"NSNumber"); om_overriding := false; om_overridden := []; om_bodyLines := (0)%Z |} [(Node 16 [] (VarDecl {| v_isParm := true; v_name := $"value"; v_used := false; v_referenced := false; v_local := false; v_staticMember := false; v_private := false; v_unusedAttr := false; v_defaultArg := false; v_canonicalType := $"unsigned long long"; v_inTemplate := false; v_contexts := [CxObjCMethod true false false false; CxOther] |} None))] None)); (Node 17 [] (ObjCMethodDecl {| om_selector := $"numberWithFloat:"; om_class := (Some $"NSNumber"); om_overriding := false; om_overridden := []; om_bodyLines := (0)%Z |} [(Node 18 [] (VarDecl {| v_isParm := true; v_name := $"value"; v_used := false; v_referenced := false; v_local := false; v_staticMember := false; v_private := false; v_unusedAttr := false; v_defaultArg := false; v_canonicalType := $"float"; v_inTemplate := false; v_contexts := [CxObjCMethod true false false false; CxOther] |} None))] None)); (Node 19 [] (ObjCMethodDecl {| om_selector := $"numberWithDouble:"; om_class := (Some $"NSNumber"); om_overriding := false; om_overridden := []; om_bodyLines := (0)%Z |} [(Node 20 [] (VarDecl {| v_isParm := true; v_name := $"value"; v_used := false; v_referenced := false; v_local := false; v_staticMember := false; v_private := false; v_unusedAttr := false; v_defaultArg := false; v_canonicalType := $"double"; v_inTemplate := false; v_contexts := [CxObjCMethod true false false false; CxOther] |} None))] None)); (Node 21 [] (ObjCMethodDecl {| om_selector := $"numberWithBool:"; om_class := (Some $"NSNumber"); om_overriding := false; om_overridden := []; om_bodyLines := (0)%Z |} [(Node 22 [] (VarDecl {| v_isParm := true; v_name := $"value"; v_used := false; v_referenced := false; v_local := false; v_staticMember := false; v_private := false; v_unusedAttr := false; v_defaultArg := false; v_canonicalType := $"signed char"; v_inTemplate := false; v_contexts := [CxObjCMethod true false false false; CxOther] |} None))] None)); (Node 23 [] (ObjCMethodDecl {| om_selector := $"numberWithUnsignedChar:"; om_class := (Some $"NSNumber"); om_overriding := false; om_overridden := []; om_bodyLines := (0)%Z |} [(Node 24 [] (VarDecl {| v_isParm := true; v_name := $"value"; v_used := false; v_referenced := false; v_local := false; v_staticMember := false; v_private := false; v_unusedAttr := false; v_defaultArg := false; v_canonicalType := $"unsigned char"; v_inTemplate := false; v_contexts := [CxObjCMethod true false false false; CxOther] |} None))] None))]))); (toplevel 25 (TFunction false), (Node 25 [] (FunctionDecl {| f_name := $"m"; f_method := None; f_isDefinition := true; f_bodyLines := (1)%Z |} [] (Some (Node 26 [] (CompoundStmt [(Node 27 [] (DeclStmt [(Node 28 [] (VarDecl {| v_isParm := false; v_name := $"fortyTwo"; v_used := false; v_referenced := false; v_local := true; v_staticMember := false; v_private := false; v_unusedAttr := false; v_defaultArg := false; v_canonicalType := $"NSNumber *"; v_inTemplate := false; v_contexts := [CxFunction true true false] |} (Some (Node 29 $"NSNumber *" (ObjCMessageExpr {| ms_selector := $"numberWithInt:"; ms_receiver := (RClass $"NSNumber"); ms_implicit := false; ms_interface := (Some $"NSNumber"); ms_method := (Some (Decl [] (Some (Method false None (InOther (Some NoCategory)))))); ms_methodClass := (Some $"NSNumber") |} None [(Node 30 $"int" (ParenExpr (Node 31 $"int" (BinaryOperator BO_Other (Node 32 $"int" (IntegerLiteral (43)%Z)) (Node 33 $"int" (IntegerLiteral (1)%Z))))))])))))]))]))))))];
     ts_locs := [(2,1,2,21); (3,1,4,2); (5,1,17,2); (6,1,6,41); (6,31,6,36); (7,1,7,39); (7,30,7,34); (8,1,8,56); (8,38,8,51); (9,1,9,41); (9,31,9,36); (10,1,10,58); (10,39,10,53); (11,1,11,50); (11,35,11,45); (12,1,12,67); (12,43,12,62); (13,1,13,43); (13,32,13,38); (14,1,14,45); (14,33,14,40); (15,1,15,41); (15,31,15,36); (16,1,16,58); (16,39,16,53); (18,1,18,68); (18,10,18,68); (18,12,18,66); (18,12,18,65); (18,33,18,65); (18,57,18,64); (18,58,18,63); (18,58,18,58); (18,63,18,63)]%Z;
     ts_evals := []; ts_same := []; ts_decls := []; ts_parents := [] |}.
Example ObjCBoxedExpressions_NumberWithBoxedInt_holds : nth_violation (shippedRule sh_ObjCBoxedExpressions) ObjCBoxedExpressions_NumberWithBoxedInt 0 = Some (18, 33, 18, 65, $"")%Z.
Proof. vm_compute. reflexivity. Qed.

Definition ObjCBoxedExpressions_UnsignedIntLiteral : testcase :=
  {| ts_lang := LObjC; ts_path := $"input.m"; ts_code := [];
     ts_comments := []; ts_conf := [];
     ts_tops := [(toplevel 0 (TOther), (Node 0 [] (OtherDecl []))); (toplevel 1 (TOther), (Node 1 [] (ObjCContainerDecl {| oc_kind := OKInterface; oc_name := $"NSObject"; oc_lines := (2)%Z; oc_ivars := 0; oc_methods := []; oc_classes := [$"NSObject"]; oc_superMethods := None |} []))); (toplevel 2 (TOther), (Node 2 [] (ObjCContainerDecl {| oc_kind := OKInterface; oc_name := $"NSNumber"; oc_lines := (13)%Z; oc_ivars := 0; oc_methods := [($"numberWithChar:", false); ($"numberWithInt:", false); ($"numberWithUnsignedInt:", false); ($"numberWithLong:", false); ($"numberWithUnsignedLong:", false); ($"numberWithLongLong:", false); ($"numberWithUnsignedLongLong:", false); ($"numberWithFloat:", false); ($"numberWithDouble:", false); ($"numberWithBool:", false); ($"numberWithUnsignedChar:", false)]; oc_classes := [$"NSNumber"; $"NSObject"]; oc_superMethods := (Some ($"NSObject", [])) |} [(Node 3 [] (ObjCMethodDecl {| om_selector := $"numberWithChar:"; om_class := (Some $"NSNumber"); om_overriding := false; om_overridden := []; om_bodyLines := (0)%Z |} [(Node 4 [] (VarDecl {| v_isParm := true; v_name := $"value"; v_used := false; v_referenced := false; v_local := false; v_staticMember := false; v_private := false; v_unusedAttr := false; v_defaultArg := false; v_canonicalType := $"char"; v_inTemplate := false; v_contexts := [CxObjCMethod true false false false; CxOther] |} None))] None)); (Node 5 [] (ObjCMethodDecl {| om_selector := $"numberWithInt:"; om_class := (Some $"NSNumber"); om_overriding := false; om_overridden := []; om_bodyLines := (0)%Z |} [(Node 6 [] (VarDecl {| v_isParm := true; v_name := $"value"; v_used := false; v_referenced := false; v_local := false; v_staticMember := false; v_private := false; v_unusedAttr := false; v_defaultArg := false; v_canonicalType := $"int"; v_inTemplate := false; v_contexts := [CxObjCMethod true false false false; CxOther] |} None))] None)); (Node 7 [] (ObjCMethodDecl {| om_selector := $"numberWithUnsignedInt:"; om_class := (Some $"NSNumber"); om_overriding := false; om_overridden := []; om_bodyLines := (0)%Z |} [(Node 8 [] (VarDecl {| v_isParm := true; v_name := $"value"; v_used := false; v_referenced := false; v_local := false; v_staticMember := false; v_private := false; v_unusedAttr := false; v_defaultArg := false; v_canonicalType := $"unsigned int"; v_inTemplate := false; v_contexts := [CxObjCMethod true false false false; CxOther] |} None))] None)); (Node 9 [] (ObjCMethodDecl {| om_selector := $"numberWithLong:"; om_class := (Some $"NSNumber"); om_overriding := false; om_overridden := []; om_bodyLines := (0)%Z |} [(Node 10 [] (VarDecl {| v_isParm := true; v_name := $"value"; v_used := false; v_referenced := false; v_local := false; v_staticMember := false; v_private := false; v_unusedAttr := false; v_defaultArg := false; v_canonicalType := $"long"; v_inTemplate := false; v_contexts := [CxObjCMethod true false false false; CxOther] |} None))] None)); (Node 11 [] (ObjCMethodDecl {| om_selector := $"numberWithUnsignedLong:"; om_class := (Some $"NSNumber"); om_overriding := false; om_overridden := []; om_bodyLines := (0)%Z |} [(Node 12 [] (VarDecl {| v_isParm := true; v_name := $"value"; v_used := false; v_referenced := false; v_local := false; v_staticMember := false; v_private := false; v_unusedAttr := false; v_defaultArg := false; v_canonicalType := $"unsigned long"; v_inTemplate := false; v_contexts := [CxObjCMethod true false false false; CxOther] |} None))] None)); (Node 13 [] (ObjCMethodDecl {| om_selector := $"numberWithLongLong:"; om_class := (Some $"NSNumber"); om_overriding := false; om_overridden := []; om_bodyLines := (0)%Z |} [(Node 14 [] (VarDecl {| v_isParm := true; v_name := $"value"; v_used := false; v_referenced := false; v_local := false; v_staticMember := false; v_private := false; v_unusedAttr := false; v_defaultArg := false; v_canonicalType := $"long long"; v_inTemplate := false; v_contexts := [CxObjCMethod true false false false; CxOther] |} None))] None)); (Node 15 [] (ObjCMethodDecl {| om_selector := $"numberWithUnsignedLongLong:"; om_class := (Some $"NSNumber"); om_overriding := false; om_overridden := []; om_bodyLines := (0)%Z |} [(Node 16 [] (VarDecl {| v_isParm := true; v_name := $"value"; v_used := false; v_referenced := false; v_local := false; v_staticMember := false; v_private := false; v_unusedAttr := false; v_defaultArg := false; v_canonicalType := $"unsigned long long"; v_inTemplate := false; v_contexts := [CxObjCMethod true false false false; CxOther] |} None))] None)); (Node 17 [] (ObjCMethodDecl {| om_selector := $"numberWithFloat:"; om_class := (Some $"NSNumber"); om_overriding := false; om_overridden := []; om_bodyLines := (0)%Z |} [(Node 18 [] (VarDecl {| v_isParm := true; v_name := $"value"; v_used := false; v_referenced := false; v_local := false; v_staticMember := false; v_private := false; v_unusedAttr := false; v_defaultArg := false; v_canonicalType := $"float"; v_inTemplate := false; v_contexts := [CxObjCMethod true false false false; CxOther] |} None))] None)); (Node 19 [] (ObjCMethodDecl {| om_selector := $"numberWithDouble:"; om_class := (Some $"NSNumber"); om_overriding := false; om_overridden := []; om_bodyLines := (0)%Z |} [(Node 20 [] (VarDecl {| v_isParm := true; v_name := $"value"; v_used := false; v_referenced := false; v_local := false; v_staticMember := false; v_private := false; v_unusedAttr := false; v_defaultArg := false; v_canonicalType := $"double"; v_inTemplate := false; v_contexts := [CxObjCMethod true false false false; CxOther] |} None))] None)); (Node 21 [] (ObjCMethodDecl {| om_selector := $"numberWithBool:"; om_class := (Some $"NSNumber"); om_overriding := false; om_overridden := []; om_bodyLines := (0)%Z |} [(Node 22 [] (VarDecl {| v_isParm := true; v_name := $"value"; v_used := false; v_referenced := false; v_local := false; v_staticMember := false; v_private := false; v_unusedAttr := false; v_defaultArg := false; v_canonicalType := $"signed char"; v_inTemplate := false; v_contexts := [CxObjCMethod true false false false; CxOther] |} None))] None)); (Node 23 [] (ObjCMethodDecl {| om_selector := $"numberWithUnsignedChar:"; om_class := (Some $"NSNumber"); om_overriding := false; om_overridden := []; om_bodyLines := (0)%Z |} [(Node 24 [] (VarDecl {| v_isParm := true; v_name := $"value"; v_used := false; v_referenced := false; v_local := false; v_staticMember := false; v_private := false; v_unusedAttr := false; v_defaultArg := false; v_canonicalType := $"unsigned char"; v_inTemplate := false; v_contexts := [CxObjCMethod true false false false; CxOther] |} None))] None))]))); (toplevel 25 (TFunction false), (Node 25 [] (FunctionDecl {| f_name := $"m"; f_method := None; f_isDefinition := true; f_bodyLines := (1)%Z |} [] (Some (Node 26 [] (CompoundStmt [(Node 27 [] (DeclStmt [(Node 28 [] (VarDecl {| v_isParm := false; v_name := $"fortyTwoUnsigned"; v_used := false; v_referenced := false; v_local := true; v_staticMember := false; v_private := false; v_unusedAttr := false; v_defaultArg := false; v_canonicalType := $"NSNumber *"; v_inTemplate := false; v_contexts := [CxFunction true true false] |} (Some (Node 29 $"NSNumber *" (OtherExpr [(Node 30 $"unsigned int" (IntegerLiteral (42)%Z))])))))]))]))))))];
     ts_locs := [(2,1,2,21); (3,1,4,2); (5,1,17,2); (6,1,6,41); (6,31,6,36); (7,1,7,39); (7,30,7,34); (8,1,8,56); (8,38,8,51); (9,1,9,41); (9,31,9,36); (10,1,10,58); (10,39,10,53); (11,1,11,50); (11,35,11,45); (12,1,12,67); (12,43,12,62); (13,1,13,43); (13,32,13,38); (14,1,14,45); (14,33,14,40); (15,1,15,41); (15,31,15,36); (16,1,16,58); (16,39,16,53); (18,1,18,47); (18,10,18,47); (18,12,18,45); (18,12,18,42); (18,41,18,42); (18,42,18,42)]%Z;
     ts_evals := []; ts_same := []; ts_decls := []; ts_parents := [] |}.
Example ObjCBoxedExpressions_UnsignedIntLiteral_holds : sorted_violations_of (shippedRule sh_ObjCBoxedExpressions) ObjCBoxedExpressions_UnsignedIntLiteral = Some [].
Proof. vm_compute. reflexivity. Qed.

Definition ObjCBoxedExpressions_NumberWithUnsignedInt : testcase :=
  {| ts_lang := LObjC; ts_path := $"input.m"; ts_code := [];
     ts_comments := []; ts_conf := [];
     ts_tops := [(toplevel 0 (TOther), (Node 0 [] (OtherDecl []))); (toplevel 1 (TOther), (Node 1 [] (ObjCContainerDecl {| oc_kind := OKInterface; oc_name := $"NSObject"; oc_lines := (2)%Z; oc_ivars := 0; oc_methods := []; oc_classes := [$"NSObject"]; oc_superMethods := None |} []))); (toplevel 2 (TOther), (Node 2 [] (ObjCContainerDecl {| oc_kind := OKInterface; oc_name := $"NSNumber"; oc_lines := (13)%Z; oc_ivars := 0; oc_methods := [($"numberWithChar:", false); ($"numberWithInt:", false); ($"numberWithUnsignedInt:", false); ($"numberWithLong:", false); ($"numberWithUnsignedLong:", false); ($"numberWithLongLong:", false); ($"numberWithUnsignedLongLong:", false); ($"numberWithFloat:", false); ($"numberWithDouble:", false); ($"numberWithBool:", false); ($"numberWithUnsignedChar:", false)]; oc_classes := [$"NSNumber"; $"NSObject"]; oc_superMethods := (Some ($"NSObject", [])) |} [(Node 3 [] (ObjCMethodDecl {| om_selector := $"numberWithChar:"; om_class := (Some $"NSNumber"); om_overriding := false; om_overridden := []; om_bodyLines := (0)%Z |} [(Node 4 [] (VarDecl {| v_isParm := true; v_name := $"value"; v_used := false; v_referenced := false; v_local := false; v_staticMember := false; v_private := false; v_unusedAttr := false; v_defaultArg := false; v_canonicalType := $"char"; v_inTemplate := false; v_contexts := [CxObjCMethod true false false false; CxOther] |} None))] None)); (Node 5 [] (ObjCMethodDecl {| om_selector := $"numberWithInt:"; om_class := (Some $"NSNumber"); om_overriding := false; om_overridden := []; om_bodyLines := (0)%Z |} [(Node 6 [] (VarDecl {| v_isParm := true; v_name := $"value"; v_used := false; v_referenced := false; v_local := false; v_staticMember := false; v_private := false; v_unusedAttr := false; v_defaultArg := false; v_canonicalType := $"int"; v_inTemplate := false; v_contexts := [CxObjCMethod true false false false; CxOther] |} None))] None)); (Node 7 [] (ObjCMethodDecl {| om_selector := $"numberWithUnsignedInt:"; om_class := (Some $"NSNumber"); om_overriding := false; om_overridden := []; om_bodyLines := (0)%Z |} [(Node 8 [] (VarDecl {| v_isParm := true; v_name := $"value"; v_used := false; v_referenced := false; v_local := false; v_staticMember := false; v_private := false; v_unusedAttr := false; v_defaultArg := false; v_canonicalType := $"unsigned int"; v_inTemplate := false; v_contexts := [CxObjCMethod true false false false; CxOther] |} None))] None)); (Node 9 [] (ObjCMethodDecl {| om_selector := $"numberWithLong:"; om_class := (Some $"NSNumber"); om_overriding := false; om_overridden := []; om_bodyLines := (0)%Z |} [(Node 10 [] (VarDecl {| v_isParm := true; v_name := $"value"; v_used := false; v_referenced := false; v_local := false; v_staticMember := false; v_private := false; v_unusedAttr := false; v_defaultArg := false; v_canonicalType := $"long"; v_inTemplate := false; v_contexts := [CxObjCMethod true false false false; CxOther] |} None))] None)); (Node 11 [] (ObjCMethodDecl {| om_selector := $"numberWithUnsignedLong:"; om_class := (Some $"NSNumber"); om_overriding := false; om_overridden := []; om_bodyLines := (0)%Z |} [(Node 12 [] (VarDecl {| v_isParm := true; v_name := $"value"; v_used := false; v_referenced := false; v_local := false; v_staticMember := false; v_private := false; v_unusedAttr := false; v_defaultArg := false; v_canonicalType := $"unsigned long"; v_inTemplate := false; v_contexts := [CxObjCMethod true false false false; CxOther] |} None))] None)); (Node 13 [] (ObjCMethodDecl {| om_selector := $"numberWithLongLong:"; om_class := (Some $"NSNumber"); om_overriding := false; om_overridden := []; om_bodyLines := (0)%Z |} [(Node 14 [] (VarDecl {| v_isParm := true; v_name := $"value"; v_used := false; v_referenced := false; v_local := false; v_staticMember := false; v_private := false; v_unusedAttr := false; v_defaultArg := false; v_canonicalType := $"long long"; v_inTemplate := false; v_contexts := [CxObjCMethod true false false false; CxOther] |} None))] None)); (Node 15 [] (ObjCMethodDecl {| om_selector := $"numberWithUnsignedLongLong:"; om_class := (Some $"NSNumber"); om_overriding := false; om_overridden := []; om_bodyLines := (0)%Z |} [(Node 16 [] (VarDecl {| v_isParm := true; v_name := $"value"; v_used := false; v_referenced := false; v_local := false; v_staticMember := false; v_private := false; v_unusedAttr := false; v_defaultArg := false; v_canonicalType := $"unsigned long long"; v_inTemplate := false; v_contexts := [CxObjCMethod true false false false; CxOther] |} None))] None)); (Node 17 [] (ObjCMethodDecl {| om_selector := $"numberWithFloat:"; om_class := (Some $"NSNumber"); om_overriding := false; om_overridden := []; om_bodyLines := (0)%Z |} [(Node 18 [] (VarDecl {| v_isParm := true; v_name := $"value"; v_used := false; v_referenced := false; v_local := false; v_staticMember := false; v_private := false; v_unusedAttr := false; v_defaultArg := false; v_canonicalType := $"float"; v_inTemplate := false; v_contexts := [CxObjCMethod true false false false; CxOther] |} None))] None)); (Node 19 [] (ObjCMethodDecl {| om_selector := $"numberWithDouble:"; om_class := (Some $"NSNumber"); om_overriding := false; om_overridden := []; om_bodyLines := (0)%Z |} [(Node 20 [] (VarDecl {| v_isParm := true; v_name := $"value"; v_used := false; v_referenced := false; v_local := false; v_staticMember := false; v_private := false; v_unusedAttr := false; v_defaultArg := false; v_canonicalType := $"double"; v_inTemplate := false; v_contexts := [CxObjCMethod true false false false; CxOther] |} None))] None)); (Node 21 [] (ObjCMethodDecl {| om_selector := $"numberWithBool:"; om_class := (Some $"NSNumber"); om_overriding := false; om_overridden := []; om_bodyLines := (0)%Z |} [(Node 22 [] (VarDecl {| v_isParm := true; v_name := $"value"; v_used := false; v_referenced := false; v_local := false; v_staticMember := false; v_private := false; v_unusedAttr := false; v_defaultArg := false; v_canonicalType := $"signed char"; v_inTemplate := false; v_contexts := [CxObjCMethod true false false false; CxOther] |} None))] None)); (Node 23 [] (ObjCMethodDecl {| om_selector := $"numberWithUnsignedChar:"; om_class := (Some $"NSNumber"); om_overriding := false; om_overridden := []; om_bodyLines := (0)%Z |} [(Node 24 [] (VarDecl {| v_isParm := true; v_name := $"value"; v_used := false; v_referenced := false; v_local := false; v_staticMember := false; v_private := false; v_unusedAttr := false; v_defaultArg := false; v_canonicalType := $"unsigned char"; v_inTemplate := false; v_contexts := [CxObjCMethod true false false false; CxOther] |} None))] None))]))); (toplevel 25 (TFunction false), (Node 25 [] (FunctionDecl {| f_name := $"m"; f_method := None; f_isDefinition := true; f_bodyLines := (1)%Z |} [] (Some (Node 26 [] (CompoundStmt [(Node 27 [] (DeclStmt [(Node 28 [] (VarDecl {| v_isParm := false; v_name := $"fortyTwoUnsigned"; v_used := false; v_referenced := false; v_local := true; v_staticMember := false; v_private := false; v_unusedAttr := false; v_defaultArg := false; v_canonicalType := $"NSNumber *"; v_inTemplate := false; v_contexts := [CxFunction true true false] |} (Some (Node 29 $"NSNumber *" (ObjCMessageExpr {| ms_selector := $"numberWithUnsignedInt:"; ms_receiver := (RClass $"NSNumber"); ms_implicit := false; ms_interface := (Some $"NSNumber"); ms_method := (Some (Decl [] (Some (Method false None (InOther (Some NoCategory)))))); ms_methodClass := (Some $"NSNumber") |} None [(Node 30 $"unsigned int" (IntegerLiteral (42)%Z))])))))]))]))))))];
     ts_locs := [(2,1,2,21); (3,1,4,2); (5,1,17,2); (6,1,6,41); (6,31,6,36); (7,1,7,39); (7,30,7,34); (8,1,8,56); (8,38,8,51); (9,1,9,41); (9,31,9,36); (10,1,10,58); (10,39,10,53); (11,1,11,50); (11,35,11,45); (12,1,12,67); (12,43,12,62); (13,1,13,43); (13,32,13,38); (14,1,14,45); (14,33,14,40); (15,1,15,41); (15,31,15,36); (16,1,16,58); (16,39,16,53); (18,1,18,79); (18,10,18,79); (18,12,18,77); (18,12,18,76); (18,41,18,76); (18,73,18,73)]%Z;
     ts_evals := []; ts_same := []; ts_decls := []; ts_parents := [] |}.
Example ObjCBoxedExpressions_NumberWithUnsignedInt_holds : sorted_violations_of (shippedRule sh_ObjCBoxedExpressions) ObjCBoxedExpressions_NumberWithUnsignedInt = Some [].
Proof. vm_compute. reflexivity. Qed.

Definition ObjCBoxedExpressions_NumberWithBoxedUnsignedIntButInterger : testcase :=
  {| ts_lang := LObjC; ts_path := $"input.m"; ts_code := [];
     ts_comments := []; ts_conf := [];
     ts_tops := [(toplevel 0 (TOther), (Node 0 [] (OtherDecl []))); (toplevel 1 (TOther), (Node 1 [] (ObjCContainerDecl {| oc_kind := OKInterface; oc_name := $"NSObject"; oc_lines := (2)%Z; oc_ivars := 0; oc_methods := []; oc_classes := [$"NSObject"]; oc_superMethods := None |} []))); (toplevel 2 (TOther), (Node 2 [] (ObjCContainerDecl {| oc_kind := OKInterface; oc_name := $"NSNumber"; oc_lines := (13)%Z; oc_ivars := 0; oc_methods := [($"numberWithChar:", false); ($"numberWithInt:", false); ($"numberWithUnsignedInt:", false); ($"numberWithLong:", false); ($"numberWithUnsignedLong:", false); ($"numberWithLongLong:", false); ($"numberWithUnsignedLongLong:", false); ($"numberWithFloat:", false); ($"numberWithDouble:", false); ($"numberWithBool:", false); ($"numberWithUnsignedChar:", false)]; oc_classes := [$"NSNumber"; $"NSObject"]; oc_superMethods := (Some ($"NSObject", [])) |} [(Node 3 [] (ObjCMethodDecl {| om_selector := $"numberWithChar:"; om_class := (Some $"NSNumber"); om_overriding := false; om_overridden := []; om_bodyLines := (0)%Z |} [(Node 4 [] (VarDecl {| v_isParm := true; v_name := $"value"; v_used := false; v_referenced := false; v_local := false; v_staticMember := false; v_private := false; v_unusedAttr := false; v_defaultArg := false; v_canonicalType := $"char"; v_inTemplate := false; v_contexts := [CxObjCMethod true false false false; CxOther] |} None))] None)); (Node 5 [] (ObjCMethodDecl {| om_selector := $"numberWithInt:"; om_class := (Some $"NSNumber"); om_overriding := false; om_overridden := []; om_bodyLines := (0)%Z |} [(Node 6 [] (VarDecl {| v_isParm := true; v_name := $"value"; v_used := false; v_referenced := false; v_local := false; v_staticMember := false; v_private := false; v_unusedAttr := false; v_defaultArg := false; v_canonicalType := $"int"; v_inTemplate := false; v_contexts := [CxObjCMethod true false false false; CxOther] |} None))] None)); (Node 7 [] (ObjCMethodDecl {| om_selector := $"numberWithUnsignedInt:"; om_class := (Some $"NSNumber"); om_overriding := false; om_overridden := []; om_bodyLines := (0)%Z |} [(Node 8 [] (VarDecl {| v_isParm := true; v_name := $"value"; v_used := false; v_referenced := false; v_local := false; v_staticMember := false; v_private := false; v_unusedAttr := false; v_defaultArg := false; v_canonicalType := $"unsigned int"; v_inTemplate := false; v_contexts := [CxObjCMethod true false false false; CxOther] |} None))] None)); (Node 9 [] (ObjCMethodDecl {| om_selector := $"numberWithLong:"; om_class := (Some $"NSNumber"); om_overriding := false; om_overridden := []; om_bodyLines := (0)%Z |} [(Node 10 [] (VarDecl {| v_isParm := true; v_name := $"value"; v_used := false; v_referenced := false; v_local := false; v_staticMember := false; v_private := false; v_unusedAttr := false; v_defaultArg := false; v_canonicalType := $"long"; v_inTemplate := false; v_contexts := [CxObjCMethod true false false false; CxOther] |} None))] None)); (Node 11 [] (ObjCMethodDecl {| om_selector := $"numberWithUnsignedLong:"; om_class := (Some $"NSNumber"); om_overriding := false; om_overridden := []; om_bodyLines := (0)%Z |} [(Node 12 [] (VarDecl {| v_isParm := true; v_name := $"value"; v_used := false; v_referenced := false; v_local := false; v_staticMember := false; v_private := false; v_unusedAttr := false; v_defaultArg := false; v_canonicalType := $"unsigned long"; v_inTemplate := false; v_contexts := [CxObjCMethod true false false false; CxOther] |} None))] None)); (Node 13 [] (ObjCMethodDecl {| om_selector := $"numberWithLongLong:"; om_class := (Some $"NSNumber"); om_overriding := false; om_overridden := []; om_bodyLines := (0)%Z |} [(Node 14 [] (VarDecl {| v_isParm := true; v_name := $"value"; v_used := false; v_referenced := false; v_local := false; v_staticMember := false; v_private := false; v_unusedAttr := false; v_defaultArg := false; v_canonicalType := $"long long"; v_inTemplate := false; v_contexts := [CxObjCMethod true false false false; CxOther] |} None))] None)); (Node 15 [] (ObjCMethodDecl {| om_selector := $"numberWithUnsignedLongLong:"; om_class := (Some $"NSNumber"); om_overriding := false; om_overridden := []; om_bodyLines := (0)%Z |} [(Node 16 [] (VarDecl {| v_isParm := true; v_name := $"value"; v_used := false; v_referenced := false; v_local := false; v_staticMember := false; v_private := false; v_unusedAttr := false; v_defaultArg := false; v_canonicalType := $"unsigned long long"; v_inTemplate := false; v_contexts := [CxObjCMethod true false false false; CxOther] |} None))] None)); (Node 17 [] (ObjCMethodDecl {| om_selector := $"numberWithFloat:"; om_class := (Some $"NSNumber"); om_overriding := false; om_overridden := []; om_bodyLines := (0)%Z |} [(Node 18 [] (VarDecl {| v_isParm := true; v_name := $"value"; v_used := false; v_referenced := false; v_local := false; v_staticMember := false; v_private := false; v_unusedAttr := false; v_defaultArg := false; v_canonicalType := $"float"; v_inTemplate := false; v_contexts := [CxObjCMethod true false false false; CxOther] |} None))] None)); (Node 19 [] (ObjCMethodDecl {| om_selector := $"numberWithDouble:"; om_class := (Some $"NSNumber"); om_overriding := false; om_overridden := []; om_bodyLines := (0)%Z |} [(Node 20 [] (VarDecl {| v_isParm := true; v_name := $"value"; v_used := false; v_referenced := false; v_local := false; v_staticMember := false; v_private := false; v_unusedAttr := false; v_defaultArg := false; v_canonicalType := $"double"; v_inTemplate := false; v_contexts := [CxObjCMethod true false false false; CxOther] |} None))] None)); (Node 21 [] (ObjCMethodDecl {| om_selector := $"numberWithBool:"; om_class := (Some $"NSNumber"); om_overriding := false; om_overridden := []; om_bodyLines := (0)%Z |} [(Node 22 [] (VarDecl {| v_isParm := true; v_name := $"value"; v_used := false; v_referenced := false; v_local := false; v_staticMember := false; v_private := false; v_unusedAttr := false; v_defaultArg := false; v_canonicalType := $"signed char"; v_inTemplate := false; v_contexts := [CxObjCMethod true false false false; CxOther] |} None))] None)); (Node 23 [] (ObjCMethodDecl {| om_selector := $"numberWithUnsignedChar:"; om_class := (Some $"NSNumber"); om_overriding := false; om_overridden := []; om_bodyLines := (0)%Z |} [(Node 24 [] (VarDecl {| v_isParm := true; v_name := $"value"; v_used := false; v_referenced := false; v_local := false; v_staticMember := false; v_private := false; v_unusedAttr := false; v_defaultArg := false; v_canonicalType := $"unsigned char"; v_inTemplate := false; v_contexts := [CxObjCMethod true false false false; CxOther] |} None))] None))]))); (toplevel 25 (TFunction false), (Node 25 [] (FunctionDecl {| f_name := $"m"; f_method := None; f_isDefinition := true; f_bodyLines := (1)%Z |} [] (Some (Node 26 [] (CompoundStmt [(Node 27 [] (DeclStmt [(Node 28 [] (VarDecl {| v_isParm := false; v_name := $"fortyTwoUnsigned"; v_used := false; v_referenced := false; v_local := true; v_staticMember := false; v_private := false; v_unusedAttr := false; v_defaultArg := false; v_canonicalType := $"NSNumber *"; v_inTemplate := false; v_contexts := [CxFunction true true false] |} (Some (Node 29 $"NSNumber *" (ObjCMessageExpr {| ms_selector := $"numberWithUnsignedInt:"; ms_receiver := (RClass $"NSNumber"); ms_implicit := false; ms_interface := (Some $"NSNumber"); ms_method := (Some (Decl [] (Some (Method false None (InOther (Some NoCategory)))))); ms_methodClass := (Some $"NSNumber") |} None [(Node 30 $"unsigned int" (ImplicitCastExpr CK_Other (Node 31 $"int" (IntegerLiteral (42)%Z))))])))))]))]))))))];
     ts_locs := [(2,1,2,21); (3,1,4,2); (5,1,17,2); (6,1,6,41); (6,31,6,36); (7,1,7,39); (7,30,7,34); (8,1,8,56); (8,38,8,51); (9,1,9,41); (9,31,9,36); (10,1,10,58); (10,39,10,53); (11,1,11,50); (11,35,11,45); (12,1,12,67); (12,43,12,62); (13,1,13,43); (13,32,13,38); (14,1,14,45); (14,33,14,40); (15,1,15,41); (15,31,15,36); (16,1,16,58); (16,39,16,53); (18,1,18,78); (18,10,18,78); (18,12,18,76); (18,12,18,75); (18,41,18,75); (18,73,18,73); (18,73,18,73)]%Z;
     ts_evals := []; ts_same := []; ts_decls := []; ts_parents := [] |}.
Example ObjCBoxedExpressions_NumberWithBoxedUnsignedIntButInterger_holds : sorted_violations_of (shippedRule sh_ObjCBoxedExpressions) ObjCBoxedExpressions_NumberWithBoxedUnsignedIntButInterger = Some [].
Proof. vm_compute. reflexivity. Qed.

Definition ObjCBoxedExpressions_NumberWithBoxedUnsignedInt : testcase :=
  {| ts_lang := LObjC; ts_path := $"input.m"; ts_code := [];
     ts_comments := []; ts_conf := [];
     ts_tops := [(toplevel 0 (TOther), (Node 0 [] (OtherDecl []))); (toplevel 1 (TOther), (Node 1 [] (ObjCContainerDecl {| oc_kind := OKInterface; oc_name := $"NSObject"; oc_lines := (2)%Z; oc_ivars := 0; oc_methods := []; oc_classes := [$"NSObject"]; oc_superMethods := None |} []))); (toplevel 2 (TOther), (Node 2 [] (ObjCContainerDecl {| oc_kind := OKInterface; oc_name := $"NSNumber"; oc_lines := (13)%Z; oc_ivars := 0; oc_methods := [($"numberWithChar:", false); ($"numberWithInt:", false); ($"numberWithUnsignedInt:", false); ($"numberWithLong:", false); ($"numberWithUnsignedLong:", false); ($"numberWithLongLong:", false); ($"numberWithUnsignedLongLong:", false); ($"numberWithFloat:", false); ($"numberWithDouble:", false); ($"numberWithBool:", false); ($"numberWithUnsignedChar:", false)]; oc_classes := [$"NSNumber"; $"NSObject"]; oc_superMethods := (Some ($"NSObject", [])) |} [(Node 3 [] (ObjCMethodDecl {| om_selector := $"numberWithChar:"; om_class := (Some $"NSNumber"); om_overriding := false; om_overridden := []; om_bodyLines := (0)%Z |} [(Node 4 [] (VarDecl {| v_isParm := true; v_name := $"value"; v_used := false; v_referenced := false; v_local := false; v_staticMember := false; v_private := false; v_unusedAttr := false; v_defaultArg := false; v_canonicalType := $"char"; v_inTemplate := false; v_contexts := [CxObjCMethod true false false false; CxOther] |} None))] None)); (Node 5 [] (ObjCMethodDecl {| om_selector := $"numberWithInt:"; om_class := (Some $"NSNumber"); om_overriding := false; om_overridden := []; om_bodyLines := (0)%Z |} [(Node 6 [] (VarDecl {| v_isParm := true; v_name := $"value"; v_used := false; v_referenced := false; v_local := false; v_staticMember := false; v_private := false; v_unusedAttr := false; v_defaultArg := false; v_canonicalType := $"int"; v_inTemplate := false; v_contexts := [CxObjCMethod true false false false; CxOther] |} None))] None)); (Node 7 [] (ObjCMethodDecl {| om_selector := $"numberWithUnsignedInt:"; om_class := (Some $"NSNumber"); om_overriding := false; om_overridden := []; om_bodyLines := (0)%Z |} [(Node 8 [] (VarDecl {| v_isParm := true; v_name := $"value"; v_used := false; v_referenced := false; v_local := false; v_staticMember := false; v_private := false; v_unusedAttr := false; v_defaultArg := false; v_canonicalType := $"unsigned int"; v_inTemplate := false; v_contexts := [CxObjCMethod true false false false; CxOther] |} None))] None)); (Node 9 [] (ObjCMethodDecl {| om_selector := $"numberWithLong:"; om_class := (Some $"NSNumber"); om_overriding := false; om_overridden := []; om_bodyLines := (0)%Z |} [(Node 10 [] (VarDecl {| v_isParm := true; v_name := $"value"; v_used := false; v_referenced := false; v_local := false; v_staticMember := false; v_private := false; v_unusedAttr := false; v_defaultArg := false; v_canonicalType := $"long"; v_inTemplate := false; v_contexts := [CxObjCMethod true false false false; CxOther] |} None))] None)); (Node 11 [] (ObjCMethodDecl {| om_selector := $"numberWithUnsignedLong:"; om_class := (Some $"NSNumber"); om_overriding := false; om_overridden := []; om_bodyLines := (0)%Z |} [(Node 12 [] (VarDecl {| v_isParm := true; v_name := $"value"; v_used := false; v_referenced := false; v_local := false; v_staticMember := false; v_private := false; v_unusedAttr := false; v_defaultArg := false; v_canonicalType := $"unsigned long"; v_inTemplate := false; v_contexts := [CxObjCMethod true false false false; CxOther] |} None))] None)); (Node 13 [] (ObjCMethodDecl {| om_selector := $"numberWithLongLong:"; om_class := (Some $"NSNumber"); om_overriding := false; om_overridden := []; om_bodyLines := (0)%Z |} [(Node 14 [] (VarDecl {| v_isParm := true; v_name := $"value"; v_used := false; v_referenced := false; v_local := false; v_staticMember := false; v_private := false; v_unusedAttr := false; v_defaultArg := false; v_canonicalType := $"long long"; v_inTemplate := false; v_contexts := [CxObjCMethod true false false false; CxOther] |} None))] None)); (Node 15 [] (ObjCMethodDecl {| om_selector := $"numberWithUnsignedLongLong:"; om_class := (Some $"NSNumber"); om_overriding := false; om_overridden := []; om_bodyLines := (0)%Z |} [(Node 16 [] (VarDecl {| v_isParm := true; v_name := $"value"; v_used := false; v_referenced := false; v_local := false; v_staticMember := false; v_private := false; v_unusedAttr := false; v_defaultArg := false; v_canonicalType := $"unsigned long long"; v_inTemplate := false; v_contexts := [CxObjCMethod true false false false; CxOther] |} None))] None)); (Node 17 [] (ObjCMethodDecl {| om_selector := $"numberWithFloat:"; om_class := (Some $"NSNumber"); om_overriding := false; om_overridden := []; om_bodyLines := (0)%Z |} [(Node 18 [] (VarDecl {| v_isParm := true; v_name := $"value"; v_used := false; v_referenced := false; v_local := false; v_staticMember := false; v_private := false; v_unusedAttr := false; v_defaultArg := false; v_canonicalType := $"float"; v_inTemplate := false; v_contexts := [CxObjCMethod true false false false; CxOther] |} None))] None)); (Node 19 [] (ObjCMethodDecl {| om_selector := $"numberWithDouble:"; om_class := (Some $"NSNumber"); om_overriding := false; om_overridden := []; om_bodyLines := (0)%Z |} [(Node 20 [] (VarDecl {| v_isParm := true; v_name := $"value"; v_used := false; v_referenced := false; v_local := false; v_staticMember := false; v_private := false; v_unusedAttr := false; v_defaultArg := false; v_canonicalType := $"double"; v_inTemplate := false; v_contexts := [CxObjCMethod true false false false; CxOther] |} None))] None)); (Node 21 [] (ObjCMethodDecl {| om_selector := $"numberWithBool:"; om_class := (Some $"NSNumber"); om_overriding := false; om_overridden := []; om_bodyLines := (0)%Z |} [(Node 22 [] (VarDecl {| v_isParm := true; v_name := $"value"; v_used := false; v_referenced := false; v_local := false; v_staticMember := false; v_private := false; v_unusedAttr := false; v_defaultArg := false; v_canonicalType := $"signed char"; v_inTemplate := false; v_contexts := [CxObjCMethod true false false false; CxOther] |} None))] None)); (Node 23 [] (ObjCMethodDecl {| om_selector := $"numberWithUnsignedChar:"; om_class := (Some $"NSNumber"); om_overriding := false; om_overridden := []; om_bodyLines := (0)%Z |} [(Node 24 [] (VarDecl {| v_isParm := true; v_name := $"value"; v_used := false; v_referenced := false; v_local := false; v_staticMember := false; v_private := false; v_unusedAttr := false; v_defaultArg := false; v_canonicalType := $"unsigned char"; v_inTemplate := false; v_contexts := [CxObjCMethod true false false false; CxOther] |} None))] None))]))); (toplevel 25 (TFunction false), (Node 25 [] (FunctionDecl {| f_name := $"m"; f_method := None; f_isDefinition := true; f_bodyLines := (1)%Z |} [] (Some (Node 26 [] (CompoundStmt [(Node 27 [] (DeclStmt [(Node 28 [] (VarDecl {| v_isParm := false; v_name := $"fortyTwoUnsigned"; v_used := false; v_referenced := false; v_local := true; v_staticMember := false; v_private := false; v_unusedAttr := false; v_defaultArg := false; v_canonicalType := $"NSNumber *"; v_inTemplate := false; v_contexts := [CxFunction true true false] |} (Some (Node 29 $"NSNumber *" (ObjCMessageExpr {| ms_selector := $"numberWithUnsignedInt:"; ms_receiver := (RClass $"NSNumber"); ms_implicit := false; ms_interface := (Some $"NSNumber"); ms_method := (Some (Decl [] (Some (Method false None (InOther (Some NoCategory)))))); ms_methodClass := (Some $"NSNumber") |} None [(Node 30 $"unsigned int" (ParenExpr (Node 31 $"unsigned int" (BinaryOperator BO_Other (Node 32 $"unsigned int" (IntegerLiteral (43)%Z)) (Node 33 $"unsigned int" (IntegerLiteral (1)%Z))))))])))))]))]))))))];
     ts_locs := [(2,1,2,21); (3,1,4,2); (5,1,17,2); (6,1,6,41); (6,31,6,36); (7,1,7,39); (7,30,7,34); (8,1,8,56); (8,38,8,51); (9,1,9,41); (9,31,9,36); (10,1,10,58); (10,39,10,53); (11,1,11,50); (11,35,11,45); (12,1,12,67); (12,43,12,62); (13,1,13,43); (13,32,13,38); (14,1,14,45); (14,33,14,40); (15,1,15,41); (15,31,15,36); (16,1,16,58); (16,39,16,53); (18,1,18,86); (18,10,18,86); (18,12,18,84); (18,12,18,83); (18,41,18,83); (18,73,18,82); (18,74,18,80); (18,74,18,74); (18,80,18,80)]%Z;
     ts_evals := []; ts_same := []; ts_decls := []; ts_parents := [] |}.
Example ObjCBoxedExpressions_NumberWithBoxedUnsignedInt_holds : nth_violation (shippedRule sh_ObjCBoxedExpressions) ObjCBoxedExpressions_NumberWithBoxedUnsignedInt 0 = Some (18, 41, 18, 83, $"")%Z.
Proof. vm_compute. reflexivity. Qed.

Definition ObjCBoxedExpressions_LongLiteral : testcase :=
  {| ts_lang := LObjC; ts_path := $"input.m"; ts_code := [];
     ts_comments := []; ts_conf := [];
     ts_tops := [(toplevel 0 (TOther), (Node 0 [] (OtherDecl []))); (toplevel 1 (TOther), (Node 1 [] (ObjCContainerDecl {| oc_kind := OKInterface; oc_name := $"NSObject"; oc_lines := (2)%Z; oc_ivars := 0; oc_methods := []; oc_classes := [$"NSObject"]; oc_superMethods := None |} []))); (toplevel 2 (TOther), (Node 2 [] (ObjCContainerDecl {| oc_kind := OKInterface; oc_name := $"NSNumber"; oc_lines := (13)%Z; oc_ivars := 0; oc_methods := [($"numberWithChar:", false); ($"numberWithInt:", false); ($"numberWithUnsignedInt:", false); ($"numberWithLong:", false); ($"numberWithUnsignedLong:", false); ($"numberWithLongLong:", false); ($"numberWithUnsignedLongLong:", false); ($"numberWithFloat:", false); ($"numberWithDouble:", false); ($"numberWithBool:", false); ($"numberWithUnsignedChar:", false)]; oc_classes := [$"NSNumber"; $"NSObject"]; oc_superMethods := (Some ($"NSObject", [])) |} [(Node 3 [] (ObjCMethodDecl {| om_selector := $"numberWithChar:"; om_class := (Some $"NSNumber"); om_overriding := false; om_overridden := []; om_bodyLines := (0)%Z |} [(Node 4 [] (VarDecl {| v_isParm := true; v_name := $"value"; v_used := false; v_referenced := false; v_local := false; v_staticMember := false; v_private := false; v_unusedAttr := false; v_defaultArg := false; v_canonicalType := $"char"; v_inTemplate := false; v_contexts := [CxObjCMethod true false false false; CxOther] |} None))] None)); (Node 5 [] (ObjCMethodDecl {| om_selector := $"numberWithInt:"; om_class := (Some $"NSNumber"); om_overriding := false; om_overridden := []; om_bodyLines := (0)%Z |} [(Node 6 [] (VarDecl {| v_isParm := true; v_name := $"value"; v_used := false; v_referenced := false; v_local := false; v_staticMember := false; v_private := false; v_unusedAttr := false; v_defaultArg := false; v_canonicalType := $"int"; v_inTemplate := false; v_contexts := [CxObjCMethod true false false false; CxOther] |} None))] None)); (Node 7 [] (ObjCMethodDecl {| om_selector := $"numberWithUnsignedInt:"; om_class := (Some $"NSNumber"); om_overriding := false; om_overridden := []; om_bodyLines := (0)%Z |} [(Node 8 [] (VarDecl {| v_isParm := true; v_name := $"value"; v_used := false; v_referenced := false; v_local := false; v_staticMember := false; v_private := false; v_unusedAttr := false; v_defaultArg := false; v_canonicalType := $"unsigned int"; v_inTemplate := false; v_contexts := [CxObjCMethod true false false false; CxOther] |} None))] None)); (Node 9 [] (ObjCMethodDecl {| om_selector := $"numberWithLong:"; om_class := (Some $"NSNumber"); om_overriding := false; om_overridden := []; om_bodyLines := (0)%Z |} [(Node 10 [] (VarDecl {| v_isParm := true; v_name := $"value"; v_used := false; v_referenced := false; v_local := false; v_staticMember := false; v_private := false; v_unusedAttr := false; v_defaultArg := false; v_canonicalType := $"long"; v_inTemplate := false; v_contexts := [CxObjCMethod true false false false; CxOther] |} None))] None)); (Node 11 [] (ObjCMethodDecl {| om_selector := $"numberWithUnsignedLong:"; om_class := (Some $"NSNumber"); om_overriding := false; om_overridden := []; om_bodyLines := (0)%Z |} [(Node 12 [] (VarDecl {| v_isParm := true; v_name := $"value"; v_used := false; v_referenced := false; v_local := false; v_staticMember := false; v_private := false; v_unusedAttr := false; v_defaultArg := false; v_canonicalType := $"unsigned long"; v_inTemplate := false; v_contexts := [CxObjCMethod true false false false; CxOther] |} None))] None)); (Node 13 [] (ObjCMethodDecl {| om_selector := $"numberWithLongLong:"; om_class := (Some $"NSNumber"); om_overriding := false; om_overridden := []; om_bodyLines := (0)%Z |} [(Node 14 [] (VarDecl {| v_isParm := true; v_name := $"value"; v_used := false; v_referenced := false; v_local := false; v_staticMember := false; v_private := false; v_unusedAttr := false; v_defaultArg := false; v_canonicalType := $"long long"; v_inTemplate := false; v_contexts := [CxObjCMethod true false false false; CxOther] |} None))] None)); (Node 15 [] (ObjCMethodDecl {| om_selector := $"numberWithUnsignedLongLong:"; om_class := (Some $"NSNumber"); om_overriding := false; om_overridden := []; om_bodyLines := (0)%Z |} [(Node 16 [] (VarDecl {| v_isParm := true; v_name := $"value"; v_used := false; v_referenced := false; v_local := false; v_staticMember := false; v_private := false; v_unusedAttr := false; v_defaultArg := false; v_canonicalType := $"unsigned long long"; v_inTemplate := false; v_contexts := [CxObjCMethod true false false false; CxOther] |} None))] None)); (Node 17 [] (ObjCMethodDecl {| om_selector := $"numberWithFloat:"; om_class := (Some $"NSNumber"); om_overriding := false; om_overridden := []; om_bodyLines := (0)%Z |} [(Node 18 [] (VarDecl {| v_isParm := true; v_name := $"value"; v_used := false; v_referenced := false; v_local := false; v_staticMember := false; v_private := false; v_unusedAttr := false; v_defaultArg := false; v_canonicalType := $"float"; v_inTemplate := false; v_contexts := [CxObjCMethod true false false false; CxOther] |} None))] None)); (Node 19 [] (ObjCMethodDecl {| om_selector := $"numberWithDouble:"; om_class := (Some $"NSNumber"); om_overriding := false; om_overridden := []; om_bodyLines := (0)%Z |} [(Node 20 [] (VarDecl {| v_isParm := true; v_name := $"value"; v_used := false; v_referenced := false; v_local := false; v_staticMember := false; v_private := false; v_unusedAttr := false; v_defaultArg := false; v_canonicalType := $"double"; v_inTemplate := false; v_contexts := [CxObjCMethod true false false false; CxOther] |} None))] None)); (Node 21 [] (ObjCMethodDecl {| om_selector := $"numberWithBool:"; om_class := (Some $"NSNumber"); om_overriding := false; om_overridden := []; om_bodyLines := (0)%Z |} [(Node 22 [] (VarDecl {| v_isParm := true; v_name := $"value"; v_used := false; v_referenced := false; v_local := false; v_staticMember := false; v_private := false; v_unusedAttr := false; v_defaultArg := false; v_canonicalType := $"signed char"; v_inTemplate := false; v_contexts := [CxObjCMethod true false false false; CxOther] |} None))] None)); (Node 23 [] (ObjCMethodDecl {| om_selector := $"numberWithUnsignedChar:"; om_class := (Some $"NSNumber"); om_overriding := false; om_overridden := []; om_bodyLines := (0)%Z |} [(Node 24 [] (VarDecl {| v_isParm := true; v_name := $"value"; v_used := false; v_referenced := false; v_local := false; v_staticMember := false; v_private := false; v_unusedAttr := false; v_defaultArg := false; v_canonicalType := $"unsigned char"; v_inTemplate := false; v_contexts := [CxObjCMethod true false false false; CxOther] |} None))] None))]))); (toplevel 25 (TFunction false), (Node 25 [] (FunctionDecl {| f_name := $"m"; f_method := None; f_isDefinition := true; f_bodyLines := (1)%Z |} [] (Some (Node 26 [] (CompoundStmt [(Node 27 [] (DeclStmt [(Node 28 [] (VarDecl {| v_isParm := false; v_name := $"fortyTwoLong"; v_used := false; v_referenced := false; v_local := true; v_staticMember := false; v_private := false; v_unusedAttr := false; v_defaultArg := false; v_canonicalType := $"NSNumber *"; v_inTemplate := false; v_contexts := [CxFunction true true false] |} (Some (Node 29 $"NSNumber *" (OtherExpr [(Node 30 $"long" (IntegerLiteral (42)%Z))])))))]))]))))))];
     ts_locs := [(2,1,2,21); (3,1,4,2); (5,1,17,2); (6,1,6,41); (6,31,6,36); (7,1,7,39); (7,30,7,34); (8,1,8,56); (8,38,8,51); (9,1,9,41); (9,31,9,36); (10,1,10,58); (10,39,10,53); (11,1,11,50); (11,35,11,45); (12,1,12,67); (12,43,12,62); (13,1,13,43); (13,32,13,38); (14,1,14,45); (14,33,14,40); (15,1,15,41); (15,31,15,36); (16,1,16,58); (16,39,16,53); (18,1,18,43); (18,10,18,43); (18,12,18,41); (18,12,18,38); (18,37,18,38); (18,38,18,38)]%Z;
     ts_evals := []; ts_same := []; ts_decls := []; ts_parents := [] |}.
Example ObjCBoxedExpressions_LongLiteral_holds : sorted_violations_of (shippedRule sh_ObjCBoxedExpressions) ObjCBoxedExpressions_LongLiteral = Some [].
Proof. vm_compute. reflexivity. Qed.

Definition ObjCBoxedExpressions_NumberWithLong : testcase :=
  {| ts_lang := LObjC; ts_path := $"input.m"; ts_code := [];
     ts_comments := []; ts_conf := [];
     ts_tops := [(toplevel 0 (TOther), (Node 0 [] (OtherDecl []))); (toplevel 1 (TOther), (Node 1 [] (ObjCContainerDecl {| oc_kind := OKInterface; oc_name := $"NSObject"; oc_lines := (2)%Z; oc_ivars := 0; oc_methods := []; oc_classes := [$"NSObject"]; oc_superMethods := None |} []))); (toplevel 2 (TOther), (Node 2 [] (ObjCContainerDecl {| oc_kind := OKInterface; oc_name := $"NSNumber"; oc_lines := (13)%Z; oc_ivars := 0; oc_methods := [($"numberWithChar:", false); ($"numberWithInt:", false); ($"numberWithUnsignedInt:", false); ($"numberWithLong:", false); ($"numberWithUnsignedLong:", false); ($"numberWithLongLong:", false); ($"numberWithUnsignedLongLong:", false); ($"numberWithFloat:", false); ($"numberWithDouble:", false); ($"numberWithBool:", false); ($"numberWithUnsignedChar:", false)]; oc_classes := [$"NSNumber"; $"NSObject"]; oc_superMethods := (Some ($"NSObject", [])) |} [(Node 3 [] (ObjCMethodDecl {| om_selector := $"numberWithChar:"; om_class := (Some $"NSNumber"); om_overriding := false; om_overridden := []; om_bodyLines := (0)%Z |} [(Node 4 [] (VarDecl {| v_isParm := true; v_name := $"value"; v_used := false; v_referenced := false; v_local := false; v_staticMember := false; v_private := false; v_unusedAttr := false; v_defaultArg := false; v_canonicalType := $"char"; v_inTemplate := false; v_contexts := [CxObjCMethod true false false false; CxOther] |} None))] None)); (Node 5 [] (ObjCMethodDecl {| om_selector := $"numberWithInt:"; om_class := (Some $"NSNumber"); om_overriding := false; om_overridden := []; om_bodyLines := (0)%Z |} [(Node 6 [] (VarDecl {| v_isParm := true; v_name := $"value"; v_used := false; v_referenced := false; v_local := false; v_staticMember := false; v_private := false; v_unusedAttr := false; v_defaultArg := false; v_canonicalType := $"int"; v_inTemplate := false; v_contexts := [CxObjCMethod true false false false; CxOther] |} None))] None)); (Node 7 [] (ObjCMethodDecl {| om_selector := $"numberWithUnsignedInt:"; om_class := (Some $"NSNumber"); om_overriding := false; om_overridden := []; om_bodyLines := (0)%Z |} [(Node 8 [] (VarDecl {| v_isParm := true; v_name := $"value"; v_used := false; v_referenced := false; v_local := false; v_staticMember := false; v_private := false; v_unusedAttr := false; v_defaultArg := false; v_canonicalType := $"unsigned int"; v_inTemplate := false; v_contexts := [CxObjCMethod true false false false; CxOther] |} None))] None)); (Node 9 [] (ObjCMethodDecl {| om_selector := $"numberWithLong:"; om_class := (Some $"NSNumber"); om_overriding := false; om_overridden := []; om_bodyLines := (0)%Z |} [(Node 10 [] (VarDecl {| v_isParm := true; v_name := $"value"; v_used := false; v_referenced := false; v_local := false; v_staticMember := false; v_private := false; v_unusedAttr := false; v_defaultArg := false; v_canonicalType := $"long"; v_inTemplate := false; v_contexts := [CxObjCMethod true false false false; CxOther] |} None))] None)); (Node 11 [] (ObjCMethodDecl {| om_selector := $"numberWithUnsignedLong:"; om_class := (Some $"NSNumber"); om_overriding := false; om_overridden := []; om_bodyLines := (0)%Z |} [(Node 12 [] (VarDecl {| v_isParm := true; v_name := $"value"; v_used := false; v_referenced := false; v_local := false; v_staticMember := false; v_private := false; v_unusedAttr := false; v_defaultArg := false; v_canonicalType := $"unsigned long"; v_inTemplate := false; v_contexts := [CxObjCMethod true false false false; CxOther] |} None))] None)); (Node 13 [] (ObjCMethodDecl {| om_selector := $"numberWithLongLong:"; om_class := (Some $"NSNumber"); om_overriding := false; om_overridden := []; om_bodyLines := (0)%Z |} [(Node 14 [] (VarDecl {| v_isParm := true; v_name := $"value"; v_used := false; v_referenced := false; v_local := false; v_staticMember := false; v_private := false; v_unusedAttr := false; v_defaultArg := false; v_canonicalType := $"long long"; v_inTemplate := false; v_contexts := [CxObjCMethod true false false false; CxOther] |} None))] None)); (Node 15 [] (ObjCMethodDecl {| om_selector := $"numberWithUnsignedLongLong:"; om_class := (Some $"NSNumber"); om_overriding := false; om_overridden := []; om_bodyLines := (0)%Z |} [(Node 16 [] (VarDecl {| v_isParm := true; v_name := $"value"; v_used := false; v_referenced := false; v_local := false; v_staticMember := false; v_private := false; v_unusedAttr := false; v_defaultArg := false; v_canonicalType := $"unsigned long long"; v_inTemplate := false; v_contexts := [CxObjCMethod true false false false; CxOther] |} None))] None)); (Node 17 [] (ObjCMethodDecl {| om_selector := $"numberWithFloat:"; om_class := (Some $"NSNumber"); om_overriding := false; om_overridden := []; om_bodyLines := (0)%Z |} [(Node 18 [] (VarDecl {| v_isParm := true; v_name := $"value"; v_used := false; v_referenced := false; v_local := false; v_staticMember := false; v_private := false; v_unusedAttr := false; v_defaultArg := false; v_canonicalType := $"float"; v_inTemplate := false; v_contexts := [CxObjCMethod true false false false; CxOther] |} None))] None)); (Node 19 [] (ObjCMethodDecl {| om_selector := $"numberWithDouble:"; om_class := (Some $"NSNumber"); om_overriding := false; om_overridden := []; om_bodyLines := (0)%Z |} [(Node 20 [] (VarDecl {| v_isParm := true; v_name := $"value"; v_used := false; v_referenced := false; v_local := false; v_staticMember := false; v_private := false; v_unusedAttr := false; v_defaultArg := false; v_canonicalType := $"double"; v_inTemplate := false; v_contexts := [CxObjCMethod true false false false; CxOther] |} None))] None)); (Node 21 [] (ObjCMethodDecl {| om_selector := $"numberWithBool:"; om_class := (Some $"NSNumber"); om_overriding := false; om_overridden := []; om_bodyLines := (0)%Z |} [(Node 22 [] (VarDecl {| v_isParm := true; v_name := $"value"; v_used := false; v_referenced := false; v_local := false; v_staticMember := false; v_private := false; v_unusedAttr := false; v_defaultArg := false; v_canonicalType := $"signed char"; v_inTemplate := false; v_contexts := [CxObjCMethod true false false false; CxOther] |} None))] None)); (Node 23 [] (ObjCMethodDecl {| om_selector := $"numberWithUnsignedChar:"; om_class := (Some $"NSNumber"); om_overriding := false; om_overridden := []; om_bodyLines := (0)%Z |} [(Node 24 [] (VarDecl {| v_isParm := true; v_name := $"value"; v_used := false; v_referenced := false; v_local := false; v_staticMember := false; v_private := false; v_unusedAttr := false; v_defaultArg := false; v_canonicalType := $"unsigned char"; v_inTemplate := false; v_contexts := [CxObjCMethod true false false false; CxOther] |} None))] None))]))); (toplevel 25 (TFunction false), (Node 25 [] (FunctionDecl {| f_name := $"m"; f_method := None; f_isDefinition := true; f_bodyLines := (1)%Z |} [] (Some (Node 26 [] (CompoundStmt [(Node 27 [] (DeclStmt [(Node 28 [] (VarDecl {| v_isParm := false; v_name := $"fortyTwoLong"; v_used := false; v_referenced := false; v_local := true; v_staticMember := false; v_private := false; v_unusedAttr := false; v_defaultArg := false; v_canonicalType := $"NSNumber *"; v_inTemplate := false; v_contexts := [CxFunction true true false] |} (Some (Node 29 $"NSNumber *" (ObjCMessageExpr {| ms_selector := $"numberWithLong:"; ms_receiver := (RClass $"NSNumber"); ms_implicit := false; ms_interface := (Some $"NSNumber"); ms_method := (Some (Decl [] (Some (Method false None (InOther (Some NoCategory)))))); ms_methodClass := (Some $"NSNumber") |} None [(Node 30 $"long" (IntegerLiteral (42)%Z))])))))]))]))))))];
     ts_locs := [(2,1,2,21); (3,1,4,2); (5,1,17,2); (6,1,6,41); (6,31,6,36); (7,1,7,39); (7,30,7,34); (8,1,8,56); (8,38,8,51); (9,1,9,41); (9,31,9,36); (10,1,10,58); (10,39,10,53); (11,1,11,50); (11,35,11,45); (12,1,12,67); (12,43,12,62); (13,1,13,43); (13,32,13,38); (14,1,14,45); (14,33,14,40); (15,1,15,41); (15,31,15,36); (16,1,16,58); (16,39,16,53); (18,1,18,68); (18,10,18,68); (18,12,18,66); (18,12,18,65); (18,37,18,65); (18,62,18,62)]%Z;
     ts_evals := []; ts_same := []; ts_decls := []; ts_parents := [] |}.
Example ObjCBoxedExpressions_NumberWithLong_holds : sorted_violations_of (shippedRule sh_ObjCBoxedExpressions) ObjCBoxedExpressions_NumberWithLong = Some [].
Proof. vm_compute. reflexivity. Qed.

Definition ObjCBoxedExpressions_NumberWithBoxedLong : testcase :=
  {| ts_lang := LObjC; ts_path := $"input.m"; ts_code := [];
     ts_comments := []; ts_conf := [];
     ts_tops := [(toplevel 0 (TOther), (Node 0 [] (OtherDecl []))); (toplevel 1 (TOther), (Node 1 [] (ObjCContainerDecl {| oc_kind := OKInterface; oc_name := $"NSObject"; oc_lines := (2)%Z; oc_ivars := 0; oc_methods := []; oc_classes := [$"NSObject"]; oc_superMethods := None |} []))); (toplevel 2 (TOther), (Node 2 [] (ObjCContainerDecl {| oc_kind := OKInterface; oc_name := $"NSNumber"; oc_lines := (13)%Z; oc_ivars := 0; oc_methods := [($"numberWithChar:", false); ($"numberWithInt:", false); ($"numberWithUnsignedInt:", false); ($"numberWithLong:", false); ($"numberWithUnsignedLong:", false); ($"numberWithLongLong:", false); ($"numberWithUnsignedLongLong:", false); ($"numberWithFloat:", false); ($"numberWithDouble:", false); ($"numberWithBool:", false); ($"numberWithUnsignedChar:", false)]; oc_classes := [$"NSNumber"; $"NSObject"]; oc_superMethods := (Some ($"NSObject", [])) |} [(Node 3 [] (ObjCMethodDecl {| om_selector := $"numberWithChar:"; om_class := (Some $"NSNumber"); om_overriding := false; om_overridden := []; om_bodyLines := (0)%Z |} [(Node 4 [] (VarDecl {| v_isParm := true; v_name := $"value"; v_used := false; v_referenced := false; v_local := false; v_staticMember := false; v_private := false; v_unusedAttr := false; v_defaultArg := false; v_canonicalType := $"char"; v_inTemplate := false; v_contexts := [CxObjCMethod true false false false; CxOther] |} None))] None)); (Node 5 [] (ObjCMethodDecl {| om_selector := $"numberWithInt:"; om_class := (Some $"NSNumber"); om_overriding := false; om_overridden := []; om_bodyLines := (0)%Z |} [(Node 6 [] (VarDecl {| v_isParm := true; v_name := $"value"; v_used := false; v_referenced := false; v_local := false; v_staticMember := false; v_private := false; v_unusedAttr := false; v_defaultArg := false; v_canonicalType := $"int"; v_inTemplate := false; v_contexts := [CxObjCMethod true false false false; CxOther] |} None))] None)); (Node 7 [] (ObjCMethodDecl {| om_selector := $"numberWithUnsignedInt:"; om_class := (Some $"NSNumber"); om_overriding := false; om_overridden := []; om_bodyLines := (0)%Z |} [(Node 8 [] (VarDecl {| v_isParm := true; v_name := $"value"; v_used := false; v_referenced := false; v_local := false; v_staticMember := false; v_private := false; v_unusedAttr := false; v_defaultArg := false; v_canonicalType := $"unsigned int"; v_inTemplate := false; v_contexts := [CxObjCMethod true false false false; CxOther] |} None))] None)); (Node 9 [] (ObjCMethodDecl {| om_selector := $"numberWithLong:"; om_class := (Some $"NSNumber"); om_overriding := false; om_overridden := []; om_bodyLines := (0)%Z |} [(Node 10 [] (VarDecl {| v_isParm := true; v_name := $"value"; v_used := false; v_referenced := false; v_local := false; v_staticMember := false; v_private := false; v_unusedAttr := false; v_defaultArg := false; v_canonicalType := $"long"; v_inTemplate := false; v_contexts := [CxObjCMethod true false false false; CxOther] |} None))] None)); (Node 11 [] (ObjCMethodDecl {| om_selector := $"numberWithUnsignedLong:"; om_class := (Some $"NSNumber"); om_overriding := false; om_overridden := []; om_bodyLines := (0)%Z |} [(Node 12 [] (VarDecl {| v_isParm := true; v_name := $"value"; v_used := false; v_referenced := false; v_local := false; v_staticMember := false; v_private := false; v_unusedAttr := false; v_defaultArg := false; v_canonicalType := $"unsigned long"; v_inTemplate := false; v_contexts := [CxObjCMethod true false false false; CxOther] |} None))] None)); (Node 13 [] (ObjCMethodDecl {| om_selector := $"numberWithLongLong:"; om_class := (Some $"NSNumber"); om_overriding := false; om_overridden := []; om_bodyLines := (0)%Z |} [(Node 14 [] (VarDecl {| v_isParm := true; v_name := $"value"; v_used := false; v_referenced := false; v_local := false; v_staticMember := false; v_private := false; v_unusedAttr := false; v_defaultArg := false; v_canonicalType := $"long long"; v_inTemplate := false; v_contexts := [CxObjCMethod true false false false; CxOther] |} None))] None)); (Node 15 [] (ObjCMethodDecl {| om_selector := $"numberWithUnsignedLongLong:"; om_class := (Some $"NSNumber"); om_overriding := false; om_overridden := []; om_bodyLines := (0)%Z |} [(Node 16 [] (VarDecl {| v_isParm := true; v_name := $"value"; v_used := false; v_referenced := false; v_local := false; v_staticMember := false; v_private := false; v_unusedAttr := false; v_defaultArg := false; v_canonicalType := $"unsigned long long"; v_inTemplate := false; v_contexts := [CxObjCMethod true false false false; CxOther] |} None))] None)); (Node 17 [] (ObjCMethodDecl {| om_selector := $"numberWithFloat:"; om_class := (Some $"NSNumber"); om_overriding := false; om_overridden := []; om_bodyLines := (0)%Z |} [(Node 18 [] (VarDecl {| v_isParm := true; v_name := $"value"; v_used := false; v_referenced := false; v_local := false; v_staticMember := false; v_private := false; v_unusedAttr := false; v_defaultArg := false; v_canonicalType := $"float"; v_inTemplate := false; v_contexts := [CxObjCMethod true false false false; CxOther] |} None))] None)); (Node 19 [] (ObjCMethodDecl {| om_selector := $"numberWithDouble:"; om_class := (Some $"NSNumber"); om_overriding := false; om_overridden := []; om_bodyLines := (0)%Z |} [(Node 20 [] (VarDecl {| v_isParm := true; v_name := $"value"; v_used := false; v_referenced := false; v_local := false; v_staticMember := false; v_private := false; v_unusedAttr := false; v_defaultArg := false; v_canonicalType := $"double"; v_inTemplate := false; v_contexts := [CxObjCMethod true false false false; CxOther] |} None))] None)); (Node 21 [] (ObjCMethodDecl {| om_selector := $"numberWithBool:"; om_class := (Some $"NSNumber"); om_overriding := false; om_overridden := []; om_bodyLines := (0)%Z |} [(Node 22 [] (VarDecl {| v_isParm := true; v_name := $"value"; v_used := false; v_referenced := false; v_local := false; v_staticMember := false; v_private := false; v_unusedAttr := false; v_defaultArg := false; v_canonicalType := $"signed char"; v_inTemplate := false; v_contexts := [CxObjCMethod true false false false; CxOther] |} None))] None)); (Node 23 [] (ObjCMethodDecl {| om_selector := $"numberWithUnsignedChar:"; om_class := (Some $"NSNumber"); om_overriding := false; om_overridden := []; om_bodyLines := (0)%Z |} [(Node 24 [] (VarDecl {| v_isParm := true; v_name := $"value"; v_used := false; v_referenced := false; v_local := false; v_staticMember := false; v_private := false; v_unusedAttr := false; v_defaultArg := false; v_canonicalType := $"unsigned char"; v_inTemplate := false; v_contexts := [CxObjCMethod true false false false; CxOther] |} None))] None))]))); (toplevel 25 (TFunction false), (Node 25 [] (FunctionDecl {| f_name := $"m"; f_method := None; f_isDefinition := true; f_bodyLines := (1)%Z |} [] (Some (Node 26 [] (CompoundStmt [(Node 27 [] (DeclStmt [(Node 28 [] (VarDecl {| v_isParm := false; v_name := $"fortyTwoLong"; v_used := false; v_referenced := false; v_local := true; v_staticMember := false; v_private := false; v_unusedAttr := false; v_defaultArg := false; v_canonicalType := $"NSNumber *"; v_inTemplate := false; v_contexts := [CxFunction true true false] |} (Some (Node 29 $"NSNumber *" (ObjCMessageExpr {| ms_selector := $"numberWithLong:"; ms_receiver := (RClass $"NSNumber"); ms_implicit := false; ms_interface := (Some $"NSNumber"); ms_method := (Some (Decl [] (Some (Method false None (InOther (Some NoCategory)))))); ms_methodClass := (Some $"NSNumber") |} None [(Node 30 $"long" (ParenExpr (Node 31 $"long" (BinaryOperator BO_Other (Node 32 $"long" (IntegerLiteral (43)%Z)) (Node 33 $"long" (IntegerLiteral (1)%Z))))))])))))]))]))))))];
     ts_locs := [(2,1,2,21); (3,1,4,2); (5,1,17,2); (6,1,6,41); (6,31,6,36); (7,1,7,39); (7,30,7,34); (8,1,8,56); (8,38,8,51); (9,1,9,41); (9,31,9,36); (10,1,10,58); (10,39,10,53); (11,1,11,50); (11,35,11,45); (12,1,12,67); (12,43,12,62); (13,1,13,43); (13,32,13,38); (14,1,14,45); (14,33,14,40); (15,1,15,41); (15,31,15,36); (16,1,16,58); (16,39,16,53); (18,1,18,75); (18,10,18,75); (18,12,18,73); (18,12,18,72); (18,37,18,72); (18,62,18,71); (18,63,18,69); (18,63,18,63); (18,69,18,69)]%Z;
     ts_evals := []; ts_same := []; ts_decls := []; ts_parents := [] |}.
Example ObjCBoxedExpressions_NumberWithBoxedLong_holds : nth_violation (shippedRule sh_ObjCBoxedExpressions) ObjCBoxedExpressions_NumberWithBoxedLong 0 = Some (18, 37, 18, 72, $"")%Z.
Proof. vm_compute. reflexivity. Qed.

Definition ObjCBoxedExpressions_UnsignedLongLiteral : testcase :=
  {| ts_lang := LObjC; ts_path := $"input.m"; ts_code := [];
     ts_comments := []; ts_conf := [];
     ts_tops := [(toplevel 0 (TOther), (Node 0 [] (OtherDecl []))); (toplevel 1 (TOther), (Node 1 [] (ObjCContainerDecl {| oc_kind := OKInterface; oc_name := $"NSObject"; oc_lines := (2)%Z; oc_ivars := 0; oc_methods := []; oc_classes := [$"NSObject"]; oc_superMethods := None |} []))); (toplevel 2 (TOther), (Node 2 [] (ObjCContainerDecl {| oc_kind := OKInterface; oc_name := $"NSNumber"; oc_lines := (13)%Z; oc_ivars := 0; oc_methods := [($"numberWithChar:", false); ($"numberWithInt:", false); ($"numberWithUnsignedInt:", false); ($"numberWithLong:", false); ($"numberWithUnsignedLong:", false); ($"numberWithLongLong:", false); ($"numberWithUnsignedLongLong:", false); ($"numberWithFloat:", false); ($"numberWithDouble:", false); ($"numberWithBool:", false); ($"numberWithUnsignedChar:", false)]; oc_classes := [$"NSNumber"; $"NSObject"]; oc_superMethods := (Some ($"NSObject", [])) |} [(Node 3 [] (ObjCMethodDecl {| om_selector := $"numberWithChar:"; om_class := (Some $"NSNumber"); om_overriding := false; om_overridden := []; om_bodyLines := (0)%Z |} [(Node 4 [] (VarDecl {| v_isParm := true; v_name := $"value"; v_used := false; v_referenced := false; v_local := false; v_staticMember := false; v_private := false; v_unusedAttr := false; v_defaultArg := false; v_canonicalType := $"char"; v_inTemplate := false; v_contexts := [CxObjCMethod true false false false; CxOther] |} None))] None)); (Node 5 [] (ObjCMethodDecl {| om_selector := $"numberWithInt:"; om_class := (Some $"NSNumber"); om_overriding := false; om_overridden := []; om_bodyLines := (0)%Z |} [(Node 6 [] (VarDecl {| v_isParm := true; v_name := $"value"; v_used := false; v_referenced := false; v_local := false; v_staticMember := false; v_private := false; v_unusedAttr := false; v_defaultArg := false; v_canonicalType := $"int"; v_inTemplate := false; v_contexts := [CxObjCMethod true false false false; CxOther] |} None))] None)); (Node 7 [] (ObjCMethodDecl {| om_selector := $"numberWithUnsignedInt:"; om_class := (Some $"NSNumber"); om_overriding := false; om_overridden := []; om_bodyLines := (0)%Z |} [(Node 8 [] (VarDecl {| v_isParm := true; v_name := $"value"; v_used := false; v_referenced := false; v_local := false; v_staticMember := false; v_private := false; v_unusedAttr := false; v_defaultArg := false; v_canonicalType := $"unsigned int"; v_inTemplate := false; v_contexts := [CxObjCMethod true false false false; CxOther] |} None))] None)); (Node 9 [] (ObjCMethodDecl {| om_selector := $"numberWithLong:"; om_class := (Some $"NSNumber"); om_overriding := false; om_overridden := []; om_bodyLines := (0)%Z |} [(Node 10 [] (VarDecl {| v_isParm := true; v_name := $"value"; v_used := false; v_referenced := false; v_local := false; v_staticMember := false; v_private := false; v_unusedAttr := false; v_defaultArg := false; v_canonicalType := $"long"; v_inTemplate := false; v_contexts := [CxObjCMethod true false false false; CxOther] |} None))] None)); (Node 11 [] (ObjCMethodDecl {| om_selector := $"numberWithUnsignedLong:"; om_class := (Some $"NSNumber"); om_overriding := false; om_overridden := []; om_bodyLines := (0)%Z |} [(Node 12 [] (VarDecl {| v_isParm := true; v_name := $"value"; v_used := false; v_referenced := false; v_local := false; v_staticMember := false; v_private := false; v_unusedAttr := false; v_defaultArg := false; v_canonicalType := $"unsigned long"; v_inTemplate := false; v_contexts := [CxObjCMethod true false false false; CxOther] |} None))] None)); (Node 13 [] (ObjCMethodDecl {| om_selector := $"numberWithLongLong:"; om_class := (Some $"NSNumber"); om_overriding := false; om_overridden := []; om_bodyLines := (0)%Z |} [(Node 14 [] (VarDecl {| v_isParm := true; v_name := $"value"; v_used := false; v_referenced := false; v_local := false; v_staticMember := false; v_private := false; v_unusedAttr := false; v_defaultArg := false; v_canonicalType := $"long long"; v_inTemplate := false; v_contexts := [CxObjCMethod true false false false; CxOther] |} None))] None)); (Node 15 [] (ObjCMethodDecl {| om_selector := $"numberWithUnsignedLongLong:"; om_class := (Some $"NSNumber"); om_overriding := false; om_overridden := []; om_bodyLines := (0)%Z |} [(Node 16 [] (VarDecl {| v_isParm := true; v_name := $"value"; v_used := false; v_referenced := false; v_local := false; v_staticMember := false; v_private := false; v_unusedAttr := false; v_defaultArg := false; v_canonicalType := $"unsigned long long"; v_inTemplate := false; v_contexts := [CxObjCMethod true false false false; CxOther] |} None))] None)); (Node 17 [] (ObjCMethodDecl {| om_selector := $"numberWithFloat:"; om_class := (Some $"NSNumber"); om_overriding := false; om_overridden := []; om_bodyLines := (0)%Z |} [(Node 18 [] (VarDecl {| v_isParm := true; v_name := $"value"; v_used := false; v_referenced := false; v_local := false; v_staticMember := false; v_private := false; v_unusedAttr := false; v_defaultArg := false; v_canonicalType := $"float"; v_inTemplate := false; v_contexts := [CxObjCMethod true false false false; CxOther] |} None))] None)); (Node 19 [] (ObjCMethodDecl {| om_selector := $"numberWithDouble:"; om_class := (Some $"NSNumber"); om_overriding := false; om_overridden := []; om_bodyLines := (0)%Z |} [(Node 20 [] (VarDecl {| v_isParm := true; v_name := $"value"; v_used := false; v_referenced := false; v_local := false; v_staticMember := false; v_private := false; v_unusedAttr := false; v_defaultArg := false; v_canonicalType := $"double"; v_inTemplate := false; v_contexts := [CxObjCMethod true false false false; CxOther] |} None))] None)); (Node 21 [] (ObjCMethodDecl {| om_selector := $"numberWithBool:"; om_class := (Some $"NSNumber"); om_overriding := false; om_overridden := []; om_bodyLines := (0)%Z |} [(Node 22 [] (VarDecl {| v_isParm := true; v_name := $"value"; v_used := false; v_referenced := false; v_local := false; v_staticMember := false; v_private := false; v_unusedAttr := false; v_defaultArg := false; v_canonicalType := $"signed char"; v_inTemplate := false; v_contexts := [CxObjCMethod true false false false; CxOther] |} None))] None)); (Node 23 [] (ObjCMethodDecl {| om_selector := $"numberWithUnsignedChar:"; om_class := (Some $"NSNumber"); om_overriding := false; om_overridden := []; om_bodyLines := (0)%Z |} [(Node 24 [] (VarDecl {| v_isParm := true; v_name := $"value"; v_used := false; v_referenced := false; v_local := false; v_staticMember := false; v_private := false; v_unusedAttr := false; v_defaultArg := false; v_canonicalType := $"unsigned char"; v_inTemplate := false; v_contexts := [CxObjCMethod true false false false; CxOther] |} None))] None))]))); (toplevel 25 (TFunction false), (Node 25 [] (FunctionDecl {| f_name := $"m"; f_method := None; f_isDefinition := true; f_bodyLines := (1)%Z |} [] (Some (Node 26 [] (CompoundStmt [(Node 27 [] (DeclStmt [(Node 28 [] (VarDecl {| v_isParm := false; v_name := $"fortyTwoUnsignedLong"; v_used := false; v_referenced := false; v_local := true; v_staticMember := false; v_private := false; v_unusedAttr := false; v_defaultArg := false; v_canonicalType := $"NSNumber *"; v_inTemplate := false; v_contexts := [CxFunction true true false] |} (Some (Node 29 $"NSNumber *" (OtherExpr [(Node 30 $"unsigned long" (IntegerLiteral (42)%Z))])))))]))]))))))];
     ts_locs := [(2,1,2,21); (3,1,4,2); (5,1,17,2); (6,1,6,41); (6,31,6,36); (7,1,7,39); (7,30,7,34); (8,1,8,56); (8,38,8,51); (9,1,9,41); (9,31,9,36); (10,1,10,58); (10,39,10,53); (11,1,11,50); (11,35,11,45); (12,1,12,67); (12,43,12,62); (13,1,13,43); (13,32,13,38); (14,1,14,45); (14,33,14,40); (15,1,15,41); (15,31,15,36); (16,1,16,58); (16,39,16,53); (18,1,18,52); (18,10,18,52); (18,12,18,50); (18,12,18,46); (18,45,18,46); (18,46,18,46)]%Z;
     ts_evals := []; ts_same := []; ts_decls := []; ts_parents := [] |}.
Example ObjCBoxedExpressions_UnsignedLongLiteral_holds : sorted_violations_of (shippedRule sh_ObjCBoxedExpressions) ObjCBoxedExpressions_UnsignedLongLiteral = Some [].
Proof. vm_compute. reflexivity. Qed.

Definition ObjCBoxedExpressions_NumberWithUnsignedLong : testcase :=
  {| ts_lang := LObjC; ts_path := $"input.m"; ts_code := [];
     ts_comments := []; ts_conf := [];
     ts_tops := [(toplevel 0 (TOther), (Node 0 [] (OtherDecl []))); (toplevel 1 (TOther), (Node 1 [] (ObjCContainerDecl {| oc_kind := OKInterface; oc_name := $"NSObject"; oc_lines := (2)%Z; oc_ivars := 0; oc_methods := []; oc_classes := [$"NSObject"]; oc_superMethods := None |} []))); (toplevel 2 (TOther), (Node 2 [] (ObjCContainerDecl {| oc_kind := OKInterface; oc_name := $"NSNumber"; oc_lines := (13)%Z; oc_ivars := 0; oc_methods := [($"numberWithChar:", false); ($"numberWithInt:", false); ($"numberWithUnsignedInt:", false); ($"numberWithLong:", false); ($"numberWithUnsignedLong:", false); ($"numberWithLongLong:", false); ($"numberWithUnsignedLongLong:", false); ($"numberWithFloat:", false); ($"numberWithDouble:", false); ($"numberWithBool:", false); ($"numberWithUnsignedChar:", false)]; oc_classes := [$"NSNumber"; $"NSObject"]; oc_superMethods := (Some ($"NSObject", [])) |} [(Node 3 [] (ObjCMethodDecl {| om_selector := $"numberWithChar:"; om_class := (Some $"NSNumber"); om_overriding := false; om_overridden := []; om_bodyLines := (0)%Z |} [(Node 4 [] (VarDecl {| v_isParm := true; v_name := $"value"; v_used := false; v_referenced := false; v_local := false; v_staticMember := false; v_private := false; v_unusedAttr := false; v_defaultArg := false; v_canonicalType := $"char"; v_inTemplate := false; v_contexts := [CxObjCMethod true false false false; CxOther] |} None))] None)); (Node 5 [] (ObjCMethodDecl {| om_selector := $"numberWithInt:"; om_class := (Some $"NSNumber"); om_overriding := false; om_overridden := []; om_bodyLines := (0)%Z |} [(Node 6 [] (VarDecl {| v_isParm := true; v_name := $"value"; v_used := false; v_referenced := false; v_local := false; v_staticMember := false; v_private := false; v_unusedAttr := false; v_defaultArg := false; v_canonicalType := $"int"; v_inTemplate := false; v_contexts := [CxObjCMethod true false false false; CxOther] |} None))] None)); (Node 7 [] (ObjCMethodDecl {| om_selector := $"numberWithUnsignedInt:"; om_class := (Some $"NSNumber"); om_overriding := false; om_overridden := []; om_bodyLines := (0)%Z |} [(Node 8 [] (VarDecl {| v_isParm := true; v_name := $"value"; v_used := false; v_referenced := false; v_local := false; v_staticMember := false; v_private := false; v_unusedAttr := false; v_defaultArg := false; v_canonicalType := $"unsigned int"; v_inTemplate := false; v_contexts := [CxObjCMethod true false false false; CxOther] |} None))] None)); (Node 9 [] (ObjCMethodDecl {| om_selector := $"numberWithLong:"; om_class := (Some $"NSNumber"); om_overriding := false; om_overridden := []; om_bodyLines := (0)%Z |} [(Node 10 [] (VarDecl {| v_isParm := true; v_name := $"value"; v_used := false; v_referenced := false; v_local := false; v_staticMember := false; v_private := false; v_unusedAttr := false; v_defaultArg := false; v_canonicalType := $"long"; v_inTemplate := false; v_contexts := [CxObjCMethod true false false false; CxOther] |} None))] None)); (Node 11 [] (ObjCMethodDecl {| om_selector := $"numberWithUnsignedLong:"; om_class := (Some $"NSNumber"); om_overriding := false; om_overridden := []; om_bodyLines := (0)%Z |} [(Node 12 [] (VarDecl {| v_isParm := true; v_name := $"value"; v_used := false; v_referenced := false; v_local := false; v_staticMember := false; v_private := false; v_unusedAttr := false; v_defaultArg := false; v_canonicalType := $"unsigned long"; v_inTemplate := false; v_contexts := [CxObjCMethod true false false false; CxOther] |} None))] None)); (Node 13 [] (ObjCMethodDecl {| om_selector := $"numberWithLongLong:"; om_class := (Some $"NSNumber"); om_overriding := false; om_overridden := []; om_bodyLines := (0)%Z |} [(Node 14 [] (VarDecl {| v_isParm := true; v_name := $"value"; v_used := false; v_referenced := false; v_local := false; v_staticMember := false; v_private := false; v_unusedAttr := false; v_defaultArg := false; v_canonicalType := $"long long"; v_inTemplate := false; v_contexts := [CxObjCMethod true false false false; CxOther] |} None))] None)); (Node 15 [] (ObjCMethodDecl {| om_selector := $"numberWithUnsignedLongLong:"; om_class := (Some $"NSNumber"); om_overriding := false; om_overridden := []; om_bodyLines := (0)%Z |} [(Node 16 [] (VarDecl {| v_isParm := true; v_name := $"value"; v_used := false; v_referenced := false; v_local := false; v_staticMember := false; v_private := false; v_unusedAttr := false; v_defaultArg := false; v_canonicalType := $"unsigned long long"; v_inTemplate := false; v_contexts := [CxObjCMethod true false false false; CxOther] |} None))] None)); (Node 17 [] (ObjCMethodDecl {| om_selector := $"numberWithFloat:"; om_class := (Some $"NSNumber"); om_overriding := false; om_overridden := []; om_bodyLines := (0)%Z |} [(Node 18 [] (VarDecl {| v_isParm := true; v_name := $"value"; v_used := false; v_referenced := false; v_local := false; v_staticMember := false; v_private := false; v_unusedAttr := false; v_defaultArg := false; v_canonicalType := $"float"; v_inTemplate := false; v_contexts := [CxObjCMethod true false false false; CxOther] |} None))] None)); (Node 19 [] (ObjCMethodDecl {| om_selector := $"numberWithDouble:"; om_class := (Some $"NSNumber"); om_overriding := false; om_overridden := []; om_bodyLines := (0)%Z |} [(Node 20 [] (VarDecl {| v_isParm := true; v_name := $"value"; v_used := false; v_referenced := false; v_local := false; v_staticMember := false; v_private := false; v_unusedAttr := false; v_defaultArg := false; v_canonicalType := $"double"; v_inTemplate := false; v_contexts := [CxObjCMethod true false false false; CxOther] |} None))] None)); (Node 21 [] (ObjCMethodDecl {| om_selector := $"numberWithBool:"; om_class := (Some $"NSNumber"); om_overriding := false; om_overridden := []; om_bodyLines := (0)%Z |} [(Node 22 [] (VarDecl {| v_isParm := true; v_name := $"value"; v_used := false; v_referenced := false; v_local := false; v_staticMember := false; v_private := false; v_unusedAttr := false; v_defaultArg := false; v_canonicalType := $"signed char"; v_inTemplate := false; v_contexts := [CxObjCMethod true false false false; CxOther] |} None))] None)); (Node 23 [] (ObjCMethodDecl {| om_selector := $"numberWithUnsignedChar:"; om_class := (Some $"NSNumber"); om_overriding := false; om_overridden := []; om_bodyLines := (0)%Z |} [(Node 24 [] (VarDecl {| v_isParm := true; v_name := $"value"; v_used := false; v_referenced := false; v_local := false; v_staticMember := false; v_private := false; v_unusedAttr := false; v_defaultArg := false; v_canonicalType := $"unsigned char"; v_inTemplate := false; v_contexts := [CxObjCMethod true false false false; CxOther] |} None))] None))]))); (toplevel 25 (TFunction false), (Node 25 [] (FunctionDecl {| f_name := $"m"; f_method := None; f_isDefinition := true; f_bodyLines := (1)%Z |} [] (Some (Node 26 [] (CompoundStmt [(Node 27 [] (DeclStmt [(Node 28 [] (VarDecl {| v_isParm := false; v_name := $"fortyTwoUnsignedLong"; v_used := false; v_referenced := false; v_local := true; v_staticMember := false; v_private := false; v_unusedAttr := false; v_defaultArg := false; v_canonicalType := $"NSNumber *"; v_inTemplate := false; v_contexts := [CxFunction true true false] |} (Some (Node 29 $"NSNumber *" (ObjCMessageExpr {| ms_selector := $"numberWithUnsignedLong:"; ms_receiver := (RClass $"NSNumber"); ms_implicit := false; ms_interface := (Some $"NSNumber"); ms_method := (Some (Decl [] (Some (Method false None (InOther (Some NoCategory)))))); ms_methodClass := (Some $"NSNumber") |} None [(Node 30 $"unsigned long" (IntegerLiteral (42)%Z))])))))]))]))))))];
     ts_locs := [(2,1,2,21); (3,1,4,2); (5,1,17,2); (6,1,6,41); (6,31,6,36); (7,1,7,39); (7,30,7,34); (8,1,8,56); (8,38,8,51); (9,1,9,41); (9,31,9,36); (10,1,10,58); (10,39,10,53); (11,1,11,50); (11,35,11,45); (12,1,12,67); (12,43,12,62); (13,1,13,43); (13,32,13,38); (14,1,14,45); (14,33,14,40); (15,1,15,41); (15,31,15,36); (16,1,16,58); (16,39,16,53); (18,1,18,85); (18,10,18,85); (18,12,18,83); (18,12,18,82); (18,45,18,82); (18,78,18,78)]%Z;
     ts_evals := []; ts_same := []; ts_decls := []; ts_parents := [] |}.
Example ObjCBoxedExpressions_NumberWithUnsignedLong_holds : sorted_violations_of (shippedRule sh_ObjCBoxedExpressions) ObjCBoxedExpressions_NumberWithUnsignedLong = Some [].
Proof. vm_compute. reflexivity. Qed.

Definition ObjCBoxedExpressions_NumberWithBoxedUnsignedLong : testcase :=
  {| ts_lang := LObjC; ts_path := $"input.m"; ts_code := [];
     ts_comments := []; ts_conf := [];
     ts_tops := [(toplevel 0 (TOther), (Node 0 [] (OtherDecl []))); (toplevel 1 (TOther), (Node 1 [] (ObjCContainerDecl {| oc_kind := OKInterface; oc_name := $"NSObject"; oc_lines := (2)%Z; oc_ivars := 0; oc_methods := []; oc_classes := [$"NSObject"]; oc_superMethods := None |} []))); (toplevel 2 (TOther), (Node 2 [] (ObjCContainerDecl {| oc_kind := OKInterface; oc_name := $"NSNumber"; oc_lines := (13)%Z; oc_ivars := 0; oc_methods := [($"numberWithChar:", false); ($"numberWithInt:", false); ($"numberWithUnsignedInt:", false); ($"numberWithLong:", false); ($"numberWithUnsignedLong:", false); ($"numberWithLongLong:", false); ($"numberWithUnsignedLongLong:", false); ($"numberWithFloat:", false); ($"numberWithDouble:", false); ($"numberWithBool:", false); ($"numberWithUnsignedChar:", false)]; oc_classes := [$"NSNumber"; $"NSObject"]; oc_superMethods := (Some ($"NSObject", [])) |} [(Node 3 [] (ObjCMethodDecl {| om_selector := $"numberWithChar:"; om_class := (Some $"NSNumber"); om_overriding := false; om_overridden := []; om_bodyLines := (0)%Z |} [(Node 4 [] (VarDecl {| v_isParm := true; v_name := $"value"; v_used := false; v_referenced := false; v_local := false; v_staticMember := false; v_private := false; v_unusedAttr := false; v_defaultArg := false; v_canonicalType := $"char"; v_inTemplate := false; v_contexts := [CxObjCMethod true false false false; CxOther] |} None))] None)); (Node 5 [] (ObjCMethodDecl {| om_selector := $"numberWithInt:"; om_class := (Some $"NSNumber"); om_overriding := false; om_overridden := []; om_bodyLines := (0)%Z |} [(Node 6 [] (VarDecl {| v_isParm := true; v_name := $"value"; v_used := false; v_referenced := false; v_local := false; v_staticMember := false; v_private := false; v_unusedAttr := false; v_defaultArg := false; v_canonicalType := $"int"; v_inTemplate := false; v_contexts := [CxObjCMethod true false false false; CxOther] |} None))] None)); (Node 7 [] (ObjCMethodDecl {| om_selector := $"numberWithUnsignedInt:"; om_class := (Some $"NSNumber"); om_overriding := false; om_overridden := []; om_bodyLines := (0)%Z |} [(Node 8 [] (VarDecl {| v_isParm := true; v_name := $"value"; v_used := false; v_referenced := false; v_local := false; v_staticMember := false; v_private := false; v_unusedAttr := false; v_defaultArg := false; v_canonicalType := $"unsigned int"; v_inTemplate := false; v_contexts := [CxObjCMethod true false false false; CxOther] |} None))] None)); (Node 9 [] (ObjCMethodDecl {| om_selector := $"numberWithLong:"; om_class := (Some $"NSNumber"); om_overriding := false; om_overridden := []; om_bodyLines := (0)%Z |} [(Node 10 [] (VarDecl {| v_isParm := true; v_name := $"value"; v_used := false; v_referenced := false; v_local := false; v_staticMember := false; v_private := false; v_unusedAttr := false; v_defaultArg := false; v_canonicalType := $"long"; v_inTemplate := false; v_contexts := [CxObjCMethod true false false false; CxOther] |} None))] None)); (Node 11 [] (ObjCMethodDecl {| om_selector := $"numberWithUnsignedLong:"; om_class := (Some $"NSNumber"); om_overriding := false; om_overridden := []; om_bodyLines := (0)%Z |} [(Node 12 [] (VarDecl {| v_isParm := true; v_name := $"value"; v_used := false; v_referenced := false; v_local := false; v_staticMember := false; v_private := false; v_unusedAttr := false; v_defaultArg := false; v_canonicalType := $"unsigned long"; v_inTemplate := false; v_contexts := [CxObjCMethod true false false false; CxOther] |} None))] None)); (Node 13 [] (ObjCMethodDecl {| om_selector := $"numberWithLongLong:"; om_class := (Some $"NSNumber"); om_overriding := false; om_overridden := []; om_bodyLines := (0)%Z |} [(Node 14 [] (VarDecl {| v_isParm := true; v_name := $"value"; v_used := false; v_referenced := false; v_local := false; v_staticMember := false; v_private := false; v_unusedAttr := false; v_defaultArg := false; v_canonicalType := $"long long"; v_inTemplate := false; v_contexts := [CxObjCMethod true false false false; CxOther] |} None))] None)); (Node 15 [] (ObjCMethodDecl {| om_selector := $"numberWithUnsignedLongLong:"; om_class := (Some $"NSNumber"); om_overriding := false; om_overridden := []; om_bodyLines := (0)%Z |} [(Node 16 [] (VarDecl {| v_isParm := true; v_name := $"value"; v_used := false; v_referenced := false; v_local := false; v_staticMember := false; v_private := false; v_unusedAttr := false; v_defaultArg := false; v_canonicalType := $"unsigned long long"; v_inTemplate := false; v_contexts := [CxObjCMethod true false false false; CxOther] |} None))] None)); (Node 17 [] (ObjCMethodDecl {| om_selector := $"numberWithFloat:"; om_class := (Some $"NSNumber"); om_overriding := false; om_overridden := []; om_bodyLines := (0)%Z |} [(Node 18 [] (VarDecl {| v_isParm := true; v_name := $"value"; v_used := false; v_referenced := false; v_local := false; v_staticMember := false; v_private := false; v_unusedAttr := false; v_defaultArg := false; v_canonicalType := $"float"; v_inTemplate := false; v_contexts := [CxObjCMethod true false false false; CxOther] |} None))] None)); (Node 19 [] (ObjCMethodDecl {| om_selector := $"numberWithDouble:"; om_class := (Some $"NSNumber"); om_overriding := false; om_overridden := []; om_bodyLines := (0)%Z |} [(Node 20 [] (VarDecl {| v_isParm := true; v_name := $"value"; v_used := false; v_referenced := false; v_local := false; v_staticMember := false; v_private := false; v_unusedAttr := false; v_defaultArg := false; v_canonicalType := $"double"; v_inTemplate := false; v_contexts := [CxObjCMethod true false false false; CxOther] |} None))] None)); (Node 21 [] (ObjCMethodDecl {| om_selector := $"numberWithBool:"; om_class := (Some $"NSNumber"); om_overriding := false; om_overridden := []; om_bodyLines := (0)%Z |} [(Node 22 [] (VarDecl {| v_isParm := true; v_name := $"value"; v_used := false; v_referenced := false; v_local := false; v_staticMember := false; v_private := false; v_unusedAttr := false; v_defaultArg := false; v_canonicalType := $"signed char"; v_inTemplate := false; v_contexts := [CxObjCMethod true false false false; CxOther] |} None))] None)); (Node 23 [] (ObjCMethodDecl {| om_selector := $"numberWithUnsignedChar:"; om_class := (Some $"NSNumber"); om_overriding := false; om_overridden := []; om_bodyLines := (0)%Z |} [(Node 24 [] (VarDecl {| v_isParm := true; v_name := $"value"; v_used := false; v_referenced := false; v_local := false; v_staticMember := false; v_private := false; v_unusedAttr := false; v_defaultArg := false; v_canonicalType := $"unsigned char"; v_inTemplate := false; v_contexts := [CxObjCMethod true false false false; CxOther] |} None))] None))]))); (toplevel 25 (TFunction false), (Node 25 [] (FunctionDecl {| f_name := $"m"; f_method := None; f_isDefinition := true; f_bodyLines := (1)%Z |} [] (Some (Node 26 [] (CompoundStmt [(Node 27 [] (DeclStmt [(Node 28 [] (VarDecl {| v_isParm := false; v_name := $"fortyTwoUnsignedLong"; v_used := false; v_referenced := false; v_local := true; v_staticMember := false; v_private := false; v_unusedAttr := false; v_defaultArg := false; v_canonicalType := $"NSNumber *"; v_inTemplate := false; v_contexts := [CxFunction true true false] |} (Some (Node 29 $"NSNumber *" (ObjCMessageExpr {| ms_selector := $"numberWithUnsignedLong:"; ms_receiver := (RClass $"NSNumber"); ms_implicit := false; ms_interface := (Some $"NSNumber"); ms_method := (Some (Decl [] (Some (Method false None (InOther (Some NoCategory)))))); ms_methodClass := (Some $"NSNumber") |} None [(Node 30 $"unsigned long" (ParenExpr (Node 31 $"unsigned long" (BinaryOperator BO_Other (Node 32 $"unsigned long" (IntegerLiteral (43)%Z)) (Node 33 $"unsigned long" (IntegerLiteral (1)%Z))))))])))))]))]))))))];
     ts_locs := [(2,1,2,21); (3,1,4,2); (5,1,17,2); (6,1,6,41); (6,31,6,36); (7,1,7,39); (7,30,7,34); (8,1,8,56); (8,38,8,51); (9,1,9,41); (9,31,9,36); (10,1,10,58); (10,39,10,53); (11,1,11,50); (11,35,11,45); (12,1,12,67); (12,43,12,62); (13,1,13,43); (13,32,13,38); (14,1,14,45); (14,33,14,40); (15,1,15,41); (15,31,15,36); (16,1,16,58); (16,39,16,53); (18,1,18,93); (18,10,18,93); (18,12,18,91); (18,12,18,90); (18,45,18,90); (18,78,18,89); (18,79,18,86); (18,79,18,79); (18,86,18,86)]%Z;
     ts_evals := []; ts_same := []; ts_decls := []; ts_parents := [] |}.
Example ObjCBoxedExpressions_NumberWithBoxedUnsignedLong_holds : nth_violation (shippedRule sh_ObjCBoxedExpressions) ObjCBoxedExpressions_NumberWithBoxedUnsignedLong 0 = Some (18, 45, 18, 90, $"")%Z.
Proof. vm_compute. reflexivity. Qed.

Definition ObjCBoxedExpressions_LongLongLiteral : testcase :=
  {| ts_lang := LObjC; ts_path := $"input.m"; ts_code := [];
     ts_comments := []; ts_conf := [];
     ts_tops := [(toplevel 0 (TOther), (Node 0 [] (OtherDecl []))); (toplevel 1 (TOther), (Node 1 [] (ObjCContainerDecl {| oc_kind := OKInterface; oc_name := $"NSObject"; oc_lines := (2)%Z; oc_ivars := 0; oc_methods := []; oc_classes := [$"NSObject"]; oc_superMethods := None |} []))); (toplevel 2 (TOther), (Node 2 [] (ObjCContainerDecl {| oc_kind := OKInterface; oc_name := $"NSNumber"; oc_lines := (13)%Z; oc_ivars := 0; oc_methods := [($"numberWithChar:", false); ($"numberWithInt:", false); ($"numberWithUnsignedInt:", false); ($"numberWithLong:", false); ($"numberWithUnsignedLong:", false); ($"numberWithLongLong:", false); ($"numberWithUnsignedLongLong:", false); ($"numberWithFloat:", false); ($"numberWithDouble:", false); ($"numberWithBool:", false); ($"numberWithUnsignedChar:", false)]; oc_classes := [$"NSNumber"; $"NSObject"]; oc_superMethods := (Some ($"NSObject", [])) |} [(Node 3 [] (ObjCMethodDecl {| om_selector := $"numberWithChar:"; om_class := (Some $"NSNumber"); om_overriding := false; om_overridden := []; om_bodyLines := (0)%Z |} [(Node 4 [] (VarDecl {| v_isParm := true; v_name := $"value"; v_used := false; v_referenced := false; v_local := false; v_staticMember := false; v_private := false; v_unusedAttr := false; v_defaultArg := false; v_canonicalType := $"char"; v_inTemplate := false; v_contexts := [CxObjCMethod true false false false; CxOther] |} None))] None)); (Node 5 [] (ObjCMethodDecl {| om_selector := $"numberWithInt:"; om_class := (Some $"NSNumber"); om_overriding := false; om_overridden := []; om_bodyLines := (0)%Z |} [(Node 6 [] (VarDecl {| v_isParm := true; v_name := $"value"; v_used := false; v_referenced := false; v_local := false; v_staticMember := false; v_private := false; v_unusedAttr := false; v_defaultArg := false; v_canonicalType := $"int"; v_inTemplate := false; v_contexts := [CxObjCMethod true false false false; CxOther] |} None))] None)); (Node 7 [] (ObjCMethodDecl {| om_selector := $"numberWithUnsignedInt:"; om_class := (Some $"NSNumber"); om_overriding := false; om_overridden := []; om_bodyLines := (0)%Z |} [(Node 8 [] (VarDecl {| v_isParm := true; v_name := $"value"; v_used := false; v_referenced := false; v_local := false; v_staticMember := false; v_private := false; v_unusedAttr := false; v_defaultArg := false; v_canonicalType := $"unsigned int"; v_inTemplate := false; v_contexts := [CxObjCMethod true false false false; CxOther] |} None))] None)); (Node 9 [] (ObjCMethodDecl {| om_selector := $"numberWithLong:"; om_class := (Some $"NSNumber"); om_overriding := false; om_overridden := []; om_bodyLines := (0)%Z |} [(Node 10 [] (VarDecl {| v_isParm := true; v_name := $"value"; v_used := false; v_referenced := false; v_local := false; v_staticMember := false; v_private := false; v_unusedAttr := false; v_defaultArg := false; v_canonicalType := $"long"; v_inTemplate := false; v_contexts := [CxObjCMethod true false false false; CxOther] |} None))] None)); (Node 11 [] (ObjCMethodDecl {| om_selector := $"numberWithUnsignedLong:"; om_class := (Some $"NSNumber"); om_overriding := false; om_overridden := []; om_bodyLines := (0)%Z |} [(Node 12 [] (VarDecl {| v_isParm := true; v_name := $"value"; v_used := false; v_referenced := false; v_local := false; v_staticMember := false; v_private := false; v_unusedAttr := false; v_defaultArg := false; v_canonicalType := $"unsigned long"; v_inTemplate := false; v_contexts := [CxObjCMethod true false false false; CxOther] |} None))] None)); (Node 13 [] (ObjCMethodDecl {| om_selector := $"numberWithLongLong:"; om_class := (Some $"NSNumber"); om_overriding := false; om_overridden := []; om_bodyLines := (0)%Z |} [(Node 14 [] (VarDecl {| v_isParm := true; v_name := $"value"; v_used := false; v_referenced := false; v_local := false; v_staticMember := false; v_private := false; v_unusedAttr := false; v_defaultArg := false; v_canonicalType := $"long long"; v_inTemplate := false; v_contexts := [CxObjCMethod true false false false; CxOther] |} None))] None)); (Node 15 [] (ObjCMethodDecl {| om_selector := $"numberWithUnsignedLongLong:"; om_class := (Some $"NSNumber"); om_overriding := false; om_overridden := []; om_bodyLines := (0)%Z |} [(Node 16 [] (VarDecl {| v_isParm := true; v_name := $"value"; v_used := false; v_referenced := false; v_local := false; v_staticMember := false; v_private := false; v_unusedAttr := false; v_defaultArg := false; v_canonicalType := $"unsigned long long"; v_inTemplate := false; v_contexts := [CxObjCMethod true false false false; CxOther] |} None))] None)); (Node 17 [] (ObjCMethodDecl {| om_selector := $"numberWithFloat:"; om_class := (Some $"NSNumber"); om_overriding := false; om_overridden := []; om_bodyLines := (0)%Z |} [(Node 18 [] (VarDecl {| v_isParm := true; v_name := $"value"; v_used := false; v_referenced := false; v_local := false; v_staticMember := false; v_private := false; v_unusedAttr := false; v_defaultArg := false; v_canonicalType := $"float"; v_inTemplate := false; v_contexts := [CxObjCMethod true false false false; CxOther] |} None))] None)); (Node 19 [] (ObjCMethodDecl {| om_selector := $"numberWithDouble:"; om_class := (Some $"NSNumber"); om_overriding := false; om_overridden := []; om_bodyLines := (0)%Z |} [(Node 20 [] (VarDecl {| v_isParm := true; v_name := $"value"; v_used := false; v_referenced := false; v_local := false; v_staticMember := false; v_private := false; v_unusedAttr := false; v_defaultArg := false; v_canonicalType := $"double"; v_inTemplate := false; v_contexts := [CxObjCMethod true false false false; CxOther] |} None))] None)); (Node 21 [] (ObjCMethodDecl {| om_selector := $"numberWithBool:"; om_class := (Some $"NSNumber"); om_overriding := false; om_overridden := []; om_bodyLines := (0)%Z |} [(Node 22 [] (VarDecl {| v_isParm := true; v_name := $"value"; v_used := false; v_referenced := false; v_local := false; v_staticMember := false; v_private := false; v_unusedAttr := false; v_defaultArg := false; v_canonicalType := $"signed char"; v_inTemplate := false; v_contexts := [CxObjCMethod true false false false; CxOther] |} None))] None)); (Node 23 [] (ObjCMethodDecl {| om_selector := $"numberWithUnsignedChar:"; om_class := (Some $"NSNumber"); om_overriding := false; om_overridden := []; om_bodyLines := (0)%Z |} [(Node 24 [] (VarDecl {| v_isParm := true; v_name := $"value"; v_used := false; v_referenced := false; v_local := false; v_staticMember := false; v_private := false; v_unusedAttr := false; v_defaultArg := false; v_canonicalType := $"unsigned char"; v_inTemplate := false; v_contexts := [CxObjCMethod true false false false; CxOther] |} None))] None))]))); (toplevel 25 (TFunction false), (Node 25 [] (FunctionDecl {| f_name := $"m"; f_method := None; f_isDefinition := true; f_bodyLines := (1)%Z |} [] (Some (Node 26 [] (CompoundStmt [(Node 27 [] (DeclStmt [(Node 28 [] (VarDecl {| v_isParm := false; v_name := $"fortyTwoLongLong"; v_used := false; v_referenced := false; v_local := true; v_staticMember := false; v_private := false; v_unusedAttr := false; v_defaultArg := false; v_canonicalType := $"NSNumber *"; v_inTemplate := false; v_contexts := [CxFunction true true false] |} (Some (Node 29 $"NSNumber *" (OtherExpr [(Node 30 $"long long" (IntegerLiteral (42)%Z))])))))]))]))))))];
     ts_locs := [(2,1,2,21); (3,1,4,2); (5,1,17,2); (6,1,6,41); (6,31,6,36); (7,1,7,39); (7,30,7,34); (8,1,8,56); (8,38,8,51); (9,1,9,41); (9,31,9,36); (10,1,10,58); (10,39,10,53); (11,1,11,50); (11,35,11,45); (12,1,12,67); (12,43,12,62); (13,1,13,43); (13,32,13,38); (14,1,14,45); (14,33,14,40); (15,1,15,41); (15,31,15,36); (16,1,16,58); (16,39,16,53); (18,1,18,48); (18,10,18,48); (18,12,18,46); (18,12,18,42); (18,41,18,42); (18,42,18,42)]%Z;
     ts_evals := []; ts_same := []; ts_decls := []; ts_parents := [] |}.
Example ObjCBoxedExpressions_LongLongLiteral_holds : sorted_violations_of (shippedRule sh_ObjCBoxedExpressions) ObjCBoxedExpressions_LongLongLiteral = Some [].
Proof. vm_compute. reflexivity. Qed.

Definition ObjCBoxedExpressions_NumberWithLongLong : testcase :=
  {| ts_lang := LObjC; ts_path := $"input.m"; ts_code := [];
     ts_comments := []; ts_conf := [];
     ts_tops := [(toplevel 0 (TOther), (Node 0 [] (OtherDecl []))); (toplevel 1 (TOther), (Node 1 [] (ObjCContainerDecl {| oc_kind := OKInterface; oc_name := $"NSObject"; oc_lines := (2)%Z; oc_ivars := 0; oc_methods := []; oc_classes := [$"NSObject"]; oc_superMethods := None |} []))); (toplevel 2 (TOther), (Node 2 [] (ObjCContainerDecl {| oc_kind := OKInterface; oc_name := $"NSNumber"; oc_lines := (13)%Z; oc_ivars := 0; oc_methods := [($"numberWithChar:", false); ($"numberWithInt:", false); ($"numberWithUnsignedInt:", false); ($"numberWithLong:", false); ($"numberWithUnsignedLong:", false); ($"numberWithLongLong:", false); ($"numberWithUnsignedLongLong:", false); ($"numberWithFloat:", false); ($"numberWithDouble:", false); ($"numberWithBool:", false); ($"numberWithUnsignedChar:", false)]; oc_classes := [$"NSNumber"; $"NSObject"]; oc_superMethods := (Some ($"NSObject", [])) |} [(Node 3 [] (ObjCMethodDecl {| om_selector := $"numberWithChar:"; om_class := (Some $"NSNumber"); om_overriding := false; om_overridden := []; om_bodyLines := (0)%Z |} [(Node 4 [] (VarDecl {| v_isParm := true; v_name := $"value"; v_used := false; v_referenced := false; v_local := false; v_staticMember := false; v_private := false; v_unusedAttr := false; v_defaultArg := false; v_canonicalType := $"char"; v_inTemplate := false; v_contexts := [CxObjCMethod true false false false; CxOther] |} None))] None)); (Node 5 [] (ObjCMethodDecl {| om_selector := $"numberWithInt:"; om_class := (Some $"NSNumber"); om_overriding := false; om_overridden := []; om_bodyLines := (0)%Z |} [(Node 6 [] (VarDecl {| v_isParm := true; v_name := $"value"; v_used := false; v_referenced := false; v_local := false; v_staticMember := false; v_private := false; v_unusedAttr := false; v_defaultArg := false; v_canonicalType := $"int"; v_inTemplate := false; v_contexts := [CxObjCMethod true false false false; CxOther] |} None))] None)); (Node 7 [] (ObjCMethodDecl {| om_selector := $"numberWithUnsignedInt:"; om_class := (Some $"NSNumber"); om_overriding := false; om_overridden := []; om_bodyLines := (0)%Z |} [(Node 8 [] (VarDecl {| v_isParm := true; v_name := $"value"; v_used := false; v_referenced := false; v_local := false; v_staticMember := false; v_private := false; v_unusedAttr := false; v_defaultArg := false; v_canonicalType := $"unsigned int"; v_inTemplate := false; v_contexts := [CxObjCMethod true false false false; CxOther] |} None))] None)); (Node 9 [] (ObjCMethodDecl {| om_selector := $"numberWithLong:"; om_class := (Some $"NSNumber"); om_overriding := false; om_overridden := []; om_bodyLines := (0)%Z |} [(Node 10 [] (VarDecl {| v_isParm := true; v_name := $"value"; v_used := false; v_referenced := false; v_local := false; v_staticMember := false; v_private := false; v_unusedAttr := false; v_defaultArg := false; v_canonicalType := $"long"; v_inTemplate := false; v_contexts := [CxObjCMethod true false false false; CxOther] |} None))] None)); (Node 11 [] (ObjCMethodDecl {| om_selector := $"numberWithUnsignedLong:"; om_class := (Some $"NSNumber"); om_overriding := false; om_overridden := []; om_bodyLines := (0)%Z |} [(Node 12 [] (VarDecl {| v_isParm := true; v_name := $"value"; v_used := false; v_referenced := false; v_local := false; v_staticMember := false; v_private := false; v_unusedAttr := false; v_defaultArg := false; v_canonicalType := $"unsigned long"; v_inTemplate := false; v_contexts := [CxObjCMethod true false false false; CxOther] |} None))] None)); (Node 13 [] (ObjCMethodDecl {| om_selector := $"numberWithLongLong:"; om_class := (Some $"NSNumber"); om_overriding := false; om_overridden := []; om_bodyLines := (0)%Z |} [(Node 14 [] (VarDecl {| v_isParm := true; v_name := $"value"; v_used := false; v_referenced := false; v_local := false; v_staticMember := false; v_private := false; v_unusedAttr := false; v_defaultArg := false; v_canonicalType := $"long long"; v_inTemplate := false; v_contexts := [CxObjCMethod true false false false; CxOther] |} None))] None)); (Node 15 [] (ObjCMethodDecl {| om_selector := $"numberWithUnsignedLongLong:"; om_class := (Some $"NSNumber"); om_overriding := false; om_overridden := []; om_bodyLines := (0)%Z |} [(Node 16 [] (VarDecl {| v_isParm := true; v_name := $"value"; v_used := false; v_referenced := false; v_local := false; v_staticMember := false; v_private := false; v_unusedAttr := false; v_defaultArg := false; v_canonicalType := $"unsigned long long"; v_inTemplate := false; v_contexts := [CxObjCMethod true false false false; CxOther] |} None))] None)); (Node 17 [] (ObjCMethodDecl {| om_selector := $"numberWithFloat:"; om_class := (Some $"NSNumber"); om_overriding := false; om_overridden := []; om_bodyLines := (0)%Z |} [(Node 18 [] (VarDecl {| v_isParm := true; v_name := $"value"; v_used := false; v_referenced := false; v_local := false; v_staticMember := false; v_private := false; v_unusedAttr := false; v_defaultArg := false; v_canonicalType := $"float"; v_inTemplate := false; v_contexts := [CxObjCMethod true false false false; CxOther] |} None))] None)); (Node 19 [] (ObjCMethodDecl {| om_selector := $"numberWithDouble:"; om_class := (Some $"NSNumber"); om_overriding := false; om_overridden := []; om_bodyLines := (0)%Z |} [(Node 20 [] (VarDecl {| v_isParm := true; v_name := $"value"; v_used := false; v_referenced := false; v_local := false; v_staticMember := false; v_private := false; v_unusedAttr := false; v_defaultArg := false; v_canonicalType := $"double"; v_inTemplate := false; v_contexts := [CxObjCMethod true false false false; CxOther] |} None))] None)); (Node 21 [] (ObjCMethodDecl {| om_selector := $"numberWithBool:"; om_class := (Some $"NSNumber"); om_overriding := false; om_overridden := []; om_bodyLines := (0)%Z |} [(Node 22 [] (VarDecl {| v_isParm := true; v_name := $"value"; v_used := false; v_referenced := false; v_local := false; v_staticMember := false; v_private := false; v_unusedAttr := false; v_defaultArg := false; v_canonicalType := $"signed char"; v_inTemplate := false; v_contexts := [CxObjCMethod true false false false; CxOther] |} None))] None)); (Node 23 [] (ObjCMethodDecl {| om_selector := $"numberWithUnsignedChar:"; om_class := (Some $"NSNumber"); om_overriding := false; om_overridden := []; om_bodyLines := (0)%Z |} [(Node 24 [] (VarDecl {| v_isParm := true; v_name := $"value"; v_used := false; v_referenced := false; v_local := false; v_staticMember := false; v_private := false; v_unusedAttr := false; v_defaultArg := false; v_canonicalType := $"unsigned char"; v_inTemplate := false; v_contexts := [CxObjCMethod true false false false; CxOther] |} None))] None))]))); (toplevel 25 (TFunction false), (Node 25 [] (FunctionDecl {| f_name := $"m"; f_method := None; f_isDefinition := true; f_bodyLines := (1)%Z |} [] (Some (Node 26 [] (CompoundStmt [(Node 27 [] (DeclStmt [(Node 28 [] (VarDecl {| v_isParm := false; v_name := $"fortyTwoLongLong"; v_used := false; v_referenced := false; v_local := true; v_staticMember := false; v_private := false; v_unusedAttr := false; v_defaultArg := false; v_canonicalType := $"NSNumber *"; v_inTemplate := false; v_contexts := [CxFunction true true false] |} (Some (Node 29 $"NSNumber *" (ObjCMessageExpr {| ms_selector := $"numberWithLongLong:"; ms_receiver := (RClass $"NSNumber"); ms_implicit := false; ms_interface := (Some $"NSNumber"); ms_method := (Some (Decl [] (Some (Method false None (InOther (Some NoCategory)))))); ms_methodClass := (Some $"NSNumber") |} None [(Node 30 $"long long" (IntegerLiteral (42)%Z))])))))]))]))))))];
     ts_locs := [(2,1,2,21); (3,1,4,2); (5,1,17,2); (6,1,6,41); (6,31,6,36); (7,1,7,39); (7,30,7,34); (8,1,8,56); (8,38,8,51); (9,1,9,41); (9,31,9,36); (10,1,10,58); (10,39,10,53); (11,1,11,50); (11,35,11,45); (12,1,12,67); (12,43,12,62); (13,1,13,43); (13,32,13,38); (14,1,14,45); (14,33,14,40); (15,1,15,41); (15,31,15,36); (16,1,16,58); (16,39,16,53); (18,1,18,77); (18,10,18,77); (18,12,18,75); (18,12,18,74); (18,41,18,74); (18,70,18,70)]%Z;
     ts_evals := []; ts_same := []; ts_decls := []; ts_parents := [] |}.
Example ObjCBoxedExpressions_NumberWithLongLong_holds : sorted_violations_of (shippedRule sh_ObjCBoxedExpressions) ObjCBoxedExpressions_NumberWithLongLong = Some [].
Proof. vm_compute. reflexivity. Qed.

Definition ObjCBoxedExpressions_NumberWithBoxedLongLong : testcase :=
  {| ts_lang := LObjC; ts_path := $"input.m"; ts_code := [];
     ts_comments := []; ts_conf := [];
     ts_tops := [(toplevel 0 (TOther), (Node 0 [] (OtherDecl []))); (toplevel 1 (TOther), (Node 1 [] (ObjCContainerDecl {| oc_kind := OKInterface; oc_name := $"NSObject"; oc_lines := (2)%Z; oc_ivars := 0; oc_methods := []; oc_classes := [$"NSObject"]; oc_superMethods := None |} []))); (toplevel 2 (TOther), (Node 2 [] (ObjCContainerDecl {| oc_kind := OKInterface; oc_name := $"NSNumber"; oc_lines := (13)%Z; oc_ivars := 0; oc_methods := [($"numberWithChar:", false); ($"numberWithInt:", false); ($"numberWithUnsignedInt:", false); ($"numberWithLong:", false); ($"numberWithUnsignedLong:", false); ($"numberWithLongLong:", false); ($"numberWithUnsignedLongLong:", false); ($"numberWithFloat:", false); ($"numberWithDouble:", false); ($"numberWithBool:", false); ($"numberWithUnsignedChar:", false)]; oc_classes := [$"NSNumber"; $"NSObject"]; oc_superMethods := (Some ($"NSObject", [])) |} [(Node 3 [] (ObjCMethodDecl {| om_selector := $"numberWithChar:"; om_class := (Some $"NSNumber"); om_overriding := false; om_overridden := []; om_bodyLines := (0)%Z |} [(Node 4 [] (VarDecl {| v_isParm := true; v_name := $"value"; v_used := false; v_referenced := false; v_local := false; v_staticMember := false; v_private := false; v_unusedAttr := false; v_defaultArg := false; v_canonicalType := $"char"; v_inTemplate := false; v_contexts := [CxObjCMethod true false false false; CxOther] |} None))] None)); (Node 5 [] (ObjCMethodDecl {| om_selector := $"numberWithInt:"; om_class := (Some $"NSNumber"); om_overriding := false; om_overridden := []; om_bodyLines := (0)%Z |} [(Node 6 [] (VarDecl {| v_isParm := true; v_name := $"value"; v_used := false; v_referenced := false; v_local := false; v_staticMember := false; v_private := false; v_unusedAttr := false; v_defaultArg := false; v_canonicalType := $"int"; v_inTemplate := false; v_contexts := [CxObjCMethod true false false false; CxOther] |} None))] None)); (Node 7 [] (ObjCMethodDecl {| om_selector := $"numberWithUnsignedInt:"; om_class := (Some $"NSNumber"); om_overriding := false; om_overridden := []; om_bodyLines := (0)%Z |} [(Node 8 [] (VarDecl {| v_isParm := true; v_name := $"value"; v_used := false; v_referenced := false; v_local := false; v_staticMember := false; v_private := false; v_unusedAttr := false; v_defaultArg := false; v_canonicalType := $"unsigned int"; v_inTemplate := false; v_contexts := [CxObjCMethod true false false false; CxOther] |} None))] None)); (Node 9 [] (ObjCMethodDecl {| om_selector := $"numberWithLong:"; om_class := (Some $"NSNumber"); om_overriding := false; om_overridden := []; om_bodyLines := (0)%Z |} [(Node 10 [] (VarDecl {| v_isParm := true; v_name := $"value"; v_used := false; v_referenced := false; v_local := false; v_staticMember := false; v_private := false; v_unusedAttr := false; v_defaultArg := false; v_canonicalType := $"long"; v_inTemplate := false; v_contexts := [CxObjCMethod true false false false; CxOther] |} None))] None)); (Node 11 [] (ObjCMethodDecl {| om_selector := $"numberWithUnsignedLong:"; om_class := (Some $"NSNumber"); om_overriding := false; om_overridden := []; om_bodyLines := (0)%Z |} [(Node 12 [] (VarDecl {| v_isParm := true; v_name := $"value"; v_used := false; v_referenced := false; v_local := false; v_staticMember := false; v_private := false; v_unusedAttr := false; v_defaultArg := false; v_canonicalType := $"unsigned long"; v_inTemplate := false; v_contexts := [CxObjCMethod true false false false; CxOther] |} None))] None)); (Node 13 [] (ObjCMethodDecl {| om_selector := $"numberWithLongLong:"; om_class := (Some $"NSNumber"); om_overriding := false; om_overridden := []; om_bodyLines := (0)%Z |} [(Node 14 [] (VarDecl {| v_isParm := true; v_name := $"value"; v_used := false; v_referenced := false; v_local := false; v_staticMember := false; v_private := false; v_unusedAttr := false; v_defaultArg := false; v_canonicalType := $"long long"; v_inTemplate := false; v_contexts := [CxObjCMethod true false false false; CxOther] |} None))] None)); (Node 15 [] (ObjCMethodDecl {| om_selector := $"numberWithUnsignedLongLong:"; om_class := (Some $"NSNumber"); om_overriding := false; om_overridden := []; om_bodyLines := (0)%Z |} [(Node 16 [] (VarDecl {| v_isParm := true; v_name := $"value"; v_used := false; v_referenced := false; v_local := false; v_staticMember := false; v_private := false; v_unusedAttr := false; v_defaultArg := false; v_canonicalType := $"unsigned long long"; v_inTemplate := false; v_contexts := [CxObjCMethod true false false false; CxOther] |} None))] None)); (Node 17 [] (ObjCMethodDecl {| om_selector := $"numberWithFloat:"; om_class := (Some $"NSNumber"); om_overriding := false; om_overridden := []; om_bodyLines := (0)%Z |} [(Node 18 [] (VarDecl {| v_isParm := true; v_name := $"value"; v_used := false; v_referenced := false; v_local := false; v_staticMember := false; v_private := false; v_unusedAttr := false; v_defaultArg := false; v_canonicalType := $"float"; v_inTemplate := false; v_contexts := [CxObjCMethod true false false false; CxOther] |} None))] None)); (Node 19 [] (ObjCMethodDecl {| om_selector := $"numberWithDouble:"; om_class := (Some $"NSNumber"); om_overriding := false; om_overridden := []; om_bodyLines := (0)%Z |} [(Node 20 [] (VarDecl {| v_isParm := true; v_name := $"value"; v_used := false; v_referenced := false; v_local := false; v_staticMember := false; v_private := false; v_unusedAttr := false; v_defaultArg := false; v_canonicalType := $"double"; v_inTemplate := false; v_contexts := [CxObjCMethod true false false false; CxOther] |} None))] None)); (Node 21 [] (ObjCMethodDecl {| om_selector := $"numberWithBool:"; om_class := (Some $"NSNumber"); om_overriding := false; om_overridden := []; om_bodyLines := (0)%Z |} [(Node 22 [] (VarDecl {| v_isParm := true; v_name := $"value"; v_used := false; v_referenced := false; v_local := false; v_staticMember := false; v_private := false; v_unusedAttr := false; v_defaultArg := false; v_canonicalType := $"signed char"; v_inTemplate := false; v_contexts := [CxObjCMethod true false false false; CxOther] |} None))] None)); (Node 23 [] (ObjCMethodDecl {| om_selector := $"numberWithUnsignedChar:"; om_class := (Some $"NSNumber"); om_overriding := false; om_overridden := []; om_bodyLines := (0)%Z |} [(Node 24 [] (VarDecl {| v_isParm := true; v_name := $"value"; v_used := false; v_referenced := false; v_local := false; v_staticMember := false; v_private := false; v_unusedAttr := false; v_defaultArg := false; v_canonicalType := $"unsigned char"; v_inTemplate := false; v_contexts := [CxObjCMethod true false false false; CxOther] |} None))] None))]))); (toplevel 25 (TFunction false), (Node 25 [] (FunctionDecl {| f_name := $"m"; f_method := None; f_isDefinition := true; f_bodyLines := (1)%Z |} [] (Some (Node 26 [] (CompoundStmt [(Node 27 [] (DeclStmt [(Node 28 [] (VarDecl {| v_isParm := false; v_name := $"fortyTwoLongLong"; v_used := false; v_referenced := false; v_local := true; v_staticMember := false; v_private := false; v_unusedAttr := false; v_defaultArg := false; v_canonicalType := $"NSNumber *"; v_inTemplate := false; v_contexts := [CxFunction true true false] |} (Some (Node 29 $"NSNumber *" (ObjCMessageExpr {| ms_selector := $"numberWithLongLong:"; ms_receiver := (RClass $"NSNumber"); ms_implicit := false; ms_interface := (Some $"NSNumber"); ms_method := (Some (Decl [] (Some (Method false None (InOther (Some NoCategory)))))); ms_methodClass := (Some $"NSNumber") |} None [(Node 30 $"long long" (ParenExpr (Node 31 $"long long" (BinaryOperator BO_Other (Node 32 $"long long" (IntegerLiteral (43)%Z)) (Node 33 $"long long" (IntegerLiteral (1)%Z))))))])))))]))]))))))];
     ts_locs := [(2,1,2,21); (3,1,4,2); (5,1,17,2); (6,1,6,41); (6,31,6,36); (7,1,7,39); (7,30,7,34); (8,1,8,56); (8,38,8,51); (9,1,9,41); (9,31,9,36); (10,1,10,58); (10,39,10,53); (11,1,11,50); (11,35,11,45); (12,1,12,67); (12,43,12,62); (13,1,13,43); (13,32,13,38); (14,1,14,45); (14,33,14,40); (15,1,15,41); (15,31,15,36); (16,1,16,58); (16,39,16,53); (18,1,18,85); (18,10,18,85); (18,12,18,83); (18,12,18,82); (18,41,18,82); (18,70,18,81); (18,71,18,78); (18,71,18,71); (18,78,18,78)]%Z;
     ts_evals := []; ts_same := []; ts_decls := []; ts_parents := [] |}.
Example ObjCBoxedExpressions_NumberWithBoxedLongLong_holds : nth_violation (shippedRule sh_ObjCBoxedExpressions) ObjCBoxedExpressions_NumberWithBoxedLongLong 0 = Some (18, 41, 18, 82, $"")%Z.
Proof. vm_compute. reflexivity. Qed.

Definition ObjCBoxedExpressions_UnsignedLongLongLiteral : testcase :=
  {| ts_lang := LObjC; ts_path := $"input.m"; ts_code := [];
     ts_comments := []; ts_conf := [];
     ts_tops := [(toplevel 0 (TOther), (Node 0 [] (OtherDecl []))); (toplevel 1 (TOther), (Node 1 [] (ObjCContainerDecl {| oc_kind := OKInterface; oc_name := $"NSObject"; oc_lines := (2)%Z; oc_ivars := 0; oc_methods := []; oc_classes := [$"NSObject"]; oc_superMethods := None |} []))); (toplevel 2 (TOther), (Node 2 [] (ObjCContainerDecl {| oc_kind := OKInterface; oc_name := $"NSNumber"; oc_lines := (13)%Z; oc_ivars := 0; oc_methods := [($"numberWithChar:", false); ($"numberWithInt:", false); ($"numberWithUnsignedInt:", false); ($"numberWithLong:", false); ($"numberWithUnsignedLong:", false); ($"numberWithLongLong:", false); ($"numberWithUnsignedLongLong:", false); ($"numberWithFloat:", false); ($"numberWithDouble:", false); ($"numberWithBool:", false); ($"numberWithUnsignedChar:", false)]; oc_classes := [$"NSNumber"; $"NSObject"]; oc_superMethods := (Some ($"NSObject", [])) |} [(Node 3 [] (ObjCMethodDecl {| om_selector := $"numberWithChar:"; om_class := (Some $"NSNumber"); om_overriding := false; om_overridden := []; om_bodyLines := (0)%Z |} [(Node 4 [] (VarDecl {| v_isParm := true; v_name := $"value"; v_used := false; v_referenced := false; v_local := false; v_staticMember := false; v_private := false; v_unusedAttr := false; v_defaultArg := false; v_canonicalType := $"char"; v_inTemplate := false; v_contexts := [CxObjCMethod true false false false; CxOther] |} None))] None)); (Node 5 [] (ObjCMethodDecl {| om_selector := $"numberWithInt:"; om_class := (Some $"NSNumber"); om_overriding := false; om_overridden := []; om_bodyLines := (0)%Z |} [(Node 6 [] (VarDecl {| v_isParm := true; v_name := $"value"; v_used := false; v_referenced := false; v_local := false; v_staticMember := false; v_private := false; v_unusedAttr := false; v_defaultArg := false; v_canonicalType := $"int"; v_inTemplate := false; v_contexts := [CxObjCMethod true false false false; CxOther] |} None))] None)); (Node 7 [] (ObjCMethodDecl {| om_selector := $"numberWithUnsignedInt:"; om_class := (Some $"NSNumber"); om_overriding := false; om_overridden := []; om_bodyLines := (0)%Z |} [(Node 8 [] (VarDecl {| v_isParm := true; v_name := $"value"; v_used := false; v_referenced := false; v_local := false; v_staticMember := false; v_private := false; v_unusedAttr := false; v_defaultArg := false; v_canonicalType := $"unsigned int"; v_inTemplate := false; v_contexts := [CxObjCMethod true false false false; CxOther] |} None))] None)); (Node 9 [] (ObjCMethodDecl {| om_selector := $"numberWithLong:"; om_class := (Some $"NSNumber"); om_overriding := false; om_overridden := []; om_bodyLines := (0)%Z |} [(Node 10 [] (VarDecl {| v_isParm := true; v_name := $"value"; v_used := false; v_referenced := false; v_local := false; v_staticMember := false; v_private := false; v_unusedAttr := false; v_defaultArg := false; v_canonicalType := $"long"; v_inTemplate := false; v_contexts := [CxObjCMethod true false false false; CxOther] |} None))] None)); (Node 11 [] (ObjCMethodDecl {| om_selector := $"numberWithUnsignedLong:"; om_class := (Some $"NSNumber"); om_overriding := false; om_overridden := []; om_bodyLines := (0)%Z |} [(Node 12 [] (VarDecl {| v_isParm := true; v_name := $"value"; v_used := false; v_referenced := false; v_local := false; v_staticMember := false; v_private := false; v_unusedAttr := false; v_defaultArg := false; v_canonicalType := $"unsigned long"; v_inTemplate := false; v_contexts := [CxObjCMethod true false false false; CxOther] |} None))] None)); (Node 13 [] (ObjCMethodDecl {| om_selector := $"numberWithLongLong:"; om_class := (Some $"NSNumber"); om_overriding := false; om_overridden := []; om_bodyLines := (0)%Z |} [(Node 14 [] (VarDecl {| v_isParm := true; v_name := $"value"; v_used := false; v_referenced := false; v_local := false; v_staticMember := false; v_private := false; v_unusedAttr := false; v_defaultArg := false; v_canonicalType := $"long long"; v_inTemplate := false; v_contexts := [CxObjCMethod true false false false; CxOther] |} None))] None)); (Node 15 [] (ObjCMethodDecl {| om_selector := $"numberWithUnsignedLongLong:"; om_class := (Some $"NSNumber"); om_overriding := false; om_overridden := []; om_bodyLines := (0)%Z |} [(Node 16 [] (VarDecl {| v_isParm := true; v_name := $"value"; v_used := false; v_referenced := false; v_local := false; v_staticMember := false; v_private := false; v_unusedAttr := false; v_defaultArg := false; v_canonicalType := $"unsigned long long"; v_inTemplate := false; v_contexts := [CxObjCMethod true false false false; CxOther] |} None))] None)); (Node 17 [] (ObjCMethodDecl {| om_selector := $"numberWithFloat:"; om_class := (Some $"NSNumber"); om_overriding := false; om_overridden := []; om_bodyLines := (0)%Z |} [(Node 18 [] (VarDecl {| v_isParm := true; v_name := $"value"; v_used := false; v_referenced := false; v_local := false; v_staticMember := false; v_private := false; v_unusedAttr := false; v_defaultArg := false; v_canonicalType := $"float"; v_inTemplate := false; v_contexts := [CxObjCMethod true false false false; CxOther] |} None))] None)); (Node 19 [] (ObjCMethodDecl {| om_selector := $"numberWithDouble:"; om_class := (Some $"NSNumber"); om_overriding := false; om_overridden := []; om_bodyLines := (0)%Z |} [(Node 20 [] (VarDecl {| v_isParm := true; v_name := $"value"; v_used := false; v_referenced := false; v_local := false; v_staticMember := false; v_private := false; v_unusedAttr := false; v_defaultArg := false; v_canonicalType := $"double"; v_inTemplate := false; v_contexts := [CxObjCMethod true false false false; CxOther] |} None))] None)); (Node 21 [] (ObjCMethodDecl {| om_selector := $"numberWithBool:"; om_class := (Some $"NSNumber"); om_overriding := false; om_overridden := []; om_bodyLines := (0)%Z |} [(Node 22 [] (VarDecl {| v_isParm := true; v_name := $"value"; v_used := false; v_referenced := false; v_local := false; v_staticMember := false; v_private := false; v_unusedAttr := false; v_defaultArg := false; v_canonicalType := $"signed char"; v_inTemplate := false; v_contexts := [CxObjCMethod true false false false; CxOther] |} None))] None)); (Node 23 [] (ObjCMethodDecl {| om_selector := $"numberWithUnsignedChar:"; om_class := (Some $"NSNumber"); om_overriding := false; om_overridden := []; om_bodyLines := (0)%Z |} [(Node 24 [] (VarDecl {| v_isParm := true; v_name := $"value"; v_used := false; v_referenced := false; v_local := false; v_staticMember := false; v_private := false; v_unusedAttr := false; v_defaultArg := false; v_canonicalType := $"unsigned char"; v_inTemplate := false; v_contexts := [CxObjCMethod true false false false; CxOther] |} None))] None))]))); (toplevel 25 (TFunction false), (Node 25 [] (FunctionDecl {| f_name := $"m"; f_method := None; f_isDefinition := true; f_bodyLines := (1)%Z |} [] (Some (Node 26 [] (CompoundStmt [(Node 27 [] (DeclStmt [(Node 28 [] (VarDecl {| v_isParm := false; v_name := $"fortyTwoUnsignedLongLong"; v_used := false; v_referenced := false; v_local := true; v_staticMember := false; v_private := false; v_unusedAttr := false; v_defaultArg := false; v_canonicalType := $"NSNumber *"; v_inTemplate := false; v_contexts := [CxFunction true true false] |} (Some (Node 29 $"NSNumber *" (OtherExpr [(Node 30 $"unsigned long long" (IntegerLiteral (42)%Z))])))))]))]))))))];
     ts_locs := [(2,1,2,21); (3,1,4,2); (5,1,17,2); (6,1,6,41); (6,31,6,36); (7,1,7,39); (7,30,7,34); (8,1,8,56); (8,38,8,51); (9,1,9,41); (9,31,9,36); (10,1,10,58); (10,39,10,53); (11,1,11,50); (11,35,11,45); (12,1,12,67); (12,43,12,62); (13,1,13,43); (13,32,13,38); (14,1,14,45); (14,33,14,40); (15,1,15,41); (15,31,15,36); (16,1,16,58); (16,39,16,53); (18,1,18,57); (18,10,18,57); (18,12,18,55); (18,12,18,50); (18,49,18,50); (18,50,18,50)]%Z;
     ts_evals := []; ts_same := []; ts_decls := []; ts_parents := [] |}.
Example ObjCBoxedExpressions_UnsignedLongLongLiteral_holds : sorted_violations_of (shippedRule sh_ObjCBoxedExpressions) ObjCBoxedExpressions_UnsignedLongLongLiteral = Some [].
Proof. vm_compute. reflexivity. Qed.

Definition ObjCBoxedExpressions_NumberWithUnsignedLongLong : testcase :=
  {| ts_lang := LObjC; ts_path := $"input.m"; ts_code := [];
     ts_comments := []; ts_conf := [];
     ts_tops := [(toplevel 0 (TOther), (Node 0 [] (OtherDecl []))); (toplevel 1 (TOther), (Node 1 [] (ObjCContainerDecl {| oc_kind := OKInterface; oc_name := $"NSObject"; oc_lines := (2)%Z; oc_ivars := 0; oc_methods := []; oc_classes := [$"NSObject"]; oc_superMethods := None |} []))); (toplevel 2 (TOther), (Node 2 [] (ObjCContainerDecl {| oc_kind := OKInterface; oc_name := $"NSNumber"; oc_lines := (13)%Z; oc_ivars := 0; oc_methods := [($"numberWithChar:", false); ($"numberWithInt:", false); ($"numberWithUnsignedInt:", false); ($"numberWithLong:", false); ($"numberWithUnsignedLong:", false); ($"numberWithLongLong:", false); ($"numberWithUnsignedLongLong:", false); ($"numberWithFloat:", false); ($"numberWithDouble:", false); ($"numberWithBool:", false); ($"numberWithUnsignedChar:", false)]; oc_classes := [$"NSNumber"; $"NSObject"]; oc_superMethods := (Some ($"NSObject", [])) |} [(Node 3 [] (ObjCMethodDecl {| om_selector := $"numberWithChar:"; om_class := (Some $"NSNumber"); om_overriding := false; om_overridden := []; om_bodyLines := (0)%Z |} [(Node 4 [] (VarDecl {| v_isParm := true; v_name := $"value"; v_used := false; v_referenced := false; v_local := false; v_staticMember := false; v_private := false; v_unusedAttr := false; v_defaultArg := false; v_canonicalType := $"char"; v_inTemplate := false; v_contexts := [CxObjCMethod true false false false; CxOther] |} None))] None)); (Node 5 [] (ObjCMethodDecl {| om_selector := $"numberWithInt:"; om_class := (Some $"NSNumber"); om_overriding := false; om_overridden := []; om_bodyLines := (0)%Z |} [(Node 6 [] (VarDecl {| v_isParm := true; v_name := $"value"; v_used := false; v_referenced := false; v_local := false; v_staticMember := false; v_private := false; v_unusedAttr := false; v_defaultArg := false; v_canonicalType := $"int"; v_inTemplate := false; v_contexts := [CxObjCMethod true false false false; CxOther] |} None))] None)); (Node 7 [] (ObjCMethodDecl {| om_selector := $"numberWithUnsignedInt:"; om_class := (Some $"NSNumber"); om_overriding := false; om_overridden := []; om_bodyLines := (0)%Z |} [(Node 8 [] (VarDecl {| v_isParm := true; v_name := $"value"; v_used := false; v_referenced := false; v_local := false; v_staticMember := false; v_private := false; v_unusedAttr := false; v_defaultArg := false; v_canonicalType := $"unsigned int"; v_inTemplate := false; v_contexts := [CxObjCMethod true false false false; CxOther] |} None))] None)); (Node 9 [] (ObjCMethodDecl {| om_selector := $"numberWithLong:"; om_class := (Some $"NSNumber"); om_overriding := false; om_overridden := []; om_bodyLines := (0)%Z |} [(Node 10 [] (VarDecl {| v_isParm := true; v_name := $"value"; v_used := false; v_referenced := false; v_local := false; v_staticMember := false; v_private := false; v_unusedAttr := false; v_defaultArg := false; v_canonicalType := $"long"; v_inTemplate := false; v_contexts := [CxObjCMethod true false false false; CxOther] |} None))] None)); (Node 11 [] (ObjCMethodDecl {| om_selector := $"numberWithUnsignedLong:"; om_class := (Some $"NSNumber"); om_overriding := false; om_overridden := []; om_bodyLines := (0)%Z |} [(Node 12 [] (VarDecl {| v_isParm := true; v_name := $"value"; v_used := false; v_referenced := false; v_local := false; v_staticMember := false; v_private := false; v_unusedAttr := false; v_defaultArg := false; v_canonicalType := $"unsigned long"; v_inTemplate := false; v_contexts := [CxObjCMethod true false false false; CxOther] |} None))] None)); (Node 13 [] (ObjCMethodDecl {| om_selector := $"numberWithLongLong:"; om_class := (Some $"NSNumber"); om_overriding := false; om_overridden := []; om_bodyLines := (0)%Z |} [(Node 14 [] (VarDecl {| v_isParm := true; v_name := $"value"; v_used := false; v_referenced := false; v_local := false; v_staticMember := false; v_private := false; v_unusedAttr := false; v_defaultArg := false; v_canonicalType := $"long long"; v_inTemplate := false; v_contexts := [CxObjCMethod true false false false; CxOther] |} None))] None)); (Node 15 [] (ObjCMethodDecl {| om_selector := $"numberWithUnsignedLongLong:"; om_class := (Some $"NSNumber"); om_overriding := false; om_overridden := []; om_bodyLines := (0)%Z |} [(Node 16 [] (VarDecl {| v_isParm := true; v_name := $"value"; v_used := false; v_referenced := false; v_local := false; v_staticMember := false; v_private := false; v_unusedAttr := false; v_defaultArg := false; v_canonicalType := $"unsigned long long"; v_inTemplate := false; v_contexts := [CxObjCMethod true false false false; CxOther] |} None))] None)); (Node 17 [] (ObjCMethodDecl {| om_selector := $"numberWithFloat:"; om_class := (Some $"NSNumber"); om_overriding := false; om_overridden := []; om_bodyLines := (0)%Z |} [(Node 18 [] (VarDecl {| v_isParm := true; v_name := $"value"; v_used := false; v_referenced := false; v_local := false; v_staticMember := false; v_private := false; v_unusedAttr := false; v_defaultArg := false; v_canonicalType := $"float"; v_inTemplate := false; v_contexts := [CxObjCMethod true false false false; CxOther] |} None))] None)); (Node 19 [] (ObjCMethodDecl {| om_selector := $"numberWithDouble:"; om_class := (Some $"NSNumber"); om_overriding := false; om_overridden := []; om_bodyLines := (0)%Z |} [(Node 20 [] (VarDecl {| v_isParm := true; v_name := $"value"; v_used := false; v_referenced := false; v_local := false; v_staticMember := false; v_private := false; v_unusedAttr := false; v_defaultArg := false; v_canonicalType := $"double"; v_inTemplate := false; v_contexts := [CxObjCMethod true false false false; CxOther] |} None))] None)); (Node 21 [] (ObjCMethodDecl {| om_selector := $"numberWithBool:"; om_class := (Some $"NSNumber"); om_overriding := false; om_overridden := []; om_bodyLines := (0)%Z |} [(Node 22 [] (VarDecl {| v_isParm := true; v_name := $"value"; v_used := false; v_referenced := false; v_local := false; v_staticMember := false; v_private := false; v_unusedAttr := false; v_defaultArg := false; v_canonicalType := $"signed char"; v_inTemplate := false; v_contexts := [CxObjCMethod true false false false; CxOther] |} None))] None)); (Node 23 [] (ObjCMethodDecl {| om_selector := $"numberWithUnsignedChar:"; om_class := (Some $"NSNumber"); om_overriding := false; om_overridden := []; om_bodyLines := (0)%Z |} [(Node 24 [] (VarDecl {| v_isParm := true; v_name := $"value"; v_used := false; v_referenced := false; v_local := false; v_staticMember := false; v_private := false; v_unusedAttr := false; v_defaultArg := false; v_canonicalType := $"unsigned char"; v_inTemplate := false; v_contexts := [CxObjCMethod true false false false; CxOther] |} None))] None))]))); (toplevel 25 (TFunction false), (Node 25 [] (FunctionDecl {| f_name := $"m"; f_method := None; f_isDefinition := true; f_bodyLines := (1)%Z |} [] (Some (Node 26 [] (CompoundStmt [(Node 27 [] (DeclStmt [(Node 28 [] (VarDecl {| v_isParm := false; v_name := $"fortyTwoUnsignedLongLong"; v_used := false; v_referenced := false; v_local := true; v_staticMember := false; v_private := false; v_unusedAttr := false; v_defaultArg := false; v_canonicalType := $"NSNumber *"; v_inTemplate := false; v_contexts := [CxFunction true true false] |} (Some (Node 29 $"NSNumber *" (ObjCMessageExpr {| ms_selector := $"numberWithUnsignedLongLong:"; ms_receiver := (RClass $"NSNumber"); ms_implicit := false; ms_interface := (Some $"NSNumber"); ms_method := (Some (Decl [] (Some (Method false None (InOther (Some NoCategory)))))); ms_methodClass := (Some $"NSNumber") |} None [(Node 30 $"unsigned long long" (IntegerLiteral (42)%Z))])))))]))]))))))];
     ts_locs := [(2,1,2,21); (3,1,4,2); (5,1,17,2); (6,1,6,41); (6,31,6,36); (7,1,7,39); (7,30,7,34); (8,1,8,56); (8,38,8,51); (9,1,9,41); (9,31,9,36); (10,1,10,58); (10,39,10,53); (11,1,11,50); (11,35,11,45); (12,1,12,67); (12,43,12,62); (13,1,13,43); (13,32,13,38); (14,1,14,45); (14,33,14,40); (15,1,15,41); (15,31,15,36); (16,1,16,58); (16,39,16,53); (18,1,18,94); (18,10,18,94); (18,12,18,92); (18,12,18,91); (18,49,18,91); (18,86,18,86)]%Z;
     ts_evals := []; ts_same := []; ts_decls := []; ts_parents := [] |}.
Example ObjCBoxedExpressions_NumberWithUnsignedLongLong_holds : sorted_violations_of (shippedRule sh_ObjCBoxedExpressions) ObjCBoxedExpressions_NumberWithUnsignedLongLong = Some [].
Proof. vm_compute. reflexivity. Qed.

Definition ObjCBoxedExpressions_NumberWithBoxedUnsignedLongLong : testcase :=
  {| ts_lang := LObjC; ts_path := $"input.m"; ts_code := [];
     ts_comments := []; ts_conf := [];
     ts_tops := [(toplevel 0 (TOther), (Node 0 [] (OtherDecl []))); (toplevel 1 (TOther), (Node 1 [] (ObjCContainerDecl {| oc_kind := OKInterface; oc_name := $"NSObject"; oc_lines := (2)%Z; oc_ivars := 0; oc_methods := []; oc_classes := [$"NSObject"]; oc_superMethods := None |} []))); (toplevel 2 (TOther), (Node 2 [] (ObjCContainerDecl {| oc_kind := OKInterface; oc_name := $"NSNumber"; oc_lines := (13)%Z; oc_ivars := 0; oc_methods := [($"numberWithChar:", false); ($"numberWithInt:", false); ($"numberWithUnsignedInt:", false); ($"numberWithLong:", false); ($"numberWithUnsignedLong:", false); ($"numberWithLongLong:", false); ($"numberWithUnsignedLongLong:", false); ($"numberWithFloat:", false); ($"numberWithDouble:", false); ($"numberWithBool:", false); ($"numberWithUnsignedChar:", false)]; oc_classes := [$"NSNumber"; $"NSObject"]; oc_superMethods := (Some ($"NSObject", [])) |} [(Node 3 [] (ObjCMethodDecl {| om_selector := $"numberWithChar:"; om_class := (Some $"NSNumber"); om_overriding := false; om_overridden := []; om_bodyLines := (0)%Z |} [(Node 4 [] (VarDecl {| v_isParm := true; v_name := $"value"; v_used := false; v_referenced := false; v_local := false; v_staticMember := false; v_private := false; v_unusedAttr := false; v_defaultArg := false; v_canonicalType := $"char"; v_inTemplate := false; v_contexts := [CxObjCMethod true false false false; CxOther] |} None))] None)); (Node 5 [] (ObjCMethodDecl {| om_selector := $"numberWithInt:"; om_class := (Some $"NSNumber"); om_overriding := false; om_overridden := []; om_bodyLines := (0)%Z |} [(Node 6 [] (VarDecl {| v_isParm := true; v_name := $"value"; v_used := false; v_referenced := false; v_local := false; v_staticMember := false; v_private := false; v_unusedAttr := false; v_defaultArg := false; v_canonicalType := $"int"; v_inTemplate := false; v_contexts := [CxObjCMethod true false false false; CxOther] |} None))] None)); (Node 7 [] (ObjCMethodDecl {| om_selector := $"numberWithUnsignedInt:"; om_class := (Some $"NSNumber"); om_overriding := false; om_overridden := []; om_bodyLines := (0)%Z |} [(Node 8 [] (VarDecl {| v_isParm := true; v_name := $"value"; v_used := false; v_referenced := false; v_local := false; v_staticMember := false; v_private := false; v_unusedAttr := false; v_defaultArg := false; v_canonicalType := $"unsigned int"; v_inTemplate := false; v_contexts := [CxObjCMethod true false false false; CxOther] |} None))] None)); (Node 9 [] (ObjCMethodDecl {| om_selector := $"numberWithLong:"; om_class := (Some $"NSNumber"); om_overriding := false; om_overridden := []; om_bodyLines := (0)%Z |} [(Node 10 [] (VarDecl {| v_isParm := true; v_name := $"value"; v_used := false; v_referenced := false; v_local := false; v_staticMember := false; v_private := false; v_unusedAttr := false; v_defaultArg := false; v_canonicalType := $"long"; v_inTemplate := false; v_contexts := [CxObjCMethod true false false false; CxOther] |} None))] None)); (Node 11 [] (ObjCMethodDecl {| om_selector := $"numberWithUnsignedLong:"; om_class := (Some $"NSNumber"); om_overriding := false; om_overridden := []; om_bodyLines := (0)%Z |} [(Node 12 [] (VarDecl {| v_isParm := true; v_name := $"value"; v_used := false; v_referenced := false; v_local := false; v_staticMember := false; v_private := false; v_unusedAttr := false; v_defaultArg := false; v_canonicalType := $"unsigned long"; v_inTemplate := false; v_contexts := [CxObjCMethod true false false false; CxOther] |} None))] None)); (Node 13 [] (ObjCMethodDecl {| om_selector := $"numberWithLongLong:"; om_class := (Some $"NSNumber"); om_overriding := false; om_overridden := []; om_bodyLines := (0)%Z |} [(Node 14 [] (VarDecl {| v_isParm := true; v_name := $"value"; v_used := false; v_referenced := false; v_local := false; v_staticMember := false; v_private := false; v_unusedAttr := false; v_defaultArg := false; v_canonicalType := $"long long"; v_inTemplate := false; v_contexts := [CxObjCMethod true false false false; CxOther] |} None))] None)); (Node 15 [] (ObjCMethodDecl {| om_selector := $"numberWithUnsignedLongLong:"; om_class := (Some $"NSNumber"); om_overriding := false; om_overridden := []; om_bodyLines := (0)%Z |} [(Node 16 [] (VarDecl {| v_isParm := true; v_name := $"value"; v_used := false; v_referenced := false; v_local := false; v_staticMember := false; v_private := false; v_unusedAttr := false; v_defaultArg := false; v_canonicalType := $"unsigned long long"; v_inTemplate := false; v_contexts := [CxObjCMethod true false false false; CxOther] |} None))] None)); (Node 17 [] (ObjCMethodDecl {| om_selector := $"numberWithFloat:"; om_class := (Some $"NSNumber"); om_overriding := false; om_overridden := []; om_bodyLines := (0)%Z |} [(Node 18 [] (VarDecl {| v_isParm := true; v_name := $"value"; v_used := false; v_referenced := false; v_local := false; v_staticMember := false; v_private := false; v_unusedAttr := false; v_defaultArg := false; v_canonicalType := $"float"; v_inTemplate := false; v_contexts := [CxObjCMethod true false false false; CxOther] |} None))] None)); (Node 19 [] (ObjCMethodDecl {| om_selector := $"numberWithDouble:"; om_class := (Some $"NSNumber"); om_overriding := false; om_overridden := []; om_bodyLines := (0)%Z |} [(Node 20 [] (VarDecl {| v_isParm := true; v_name := $"value"; v_used := false; v_referenced := false; v_local := false; v_staticMember := false; v_private := false; v_unusedAttr := false; v_defaultArg := false; v_canonicalType := $"double"; v_inTemplate := false; v_contexts := [CxObjCMethod true false false false; CxOther] |} None))] None)); (Node 21 [] (ObjCMethodDecl {| om_selector := $"numberWithBool:"; om_class := (Some $"NSNumber"); om_overriding := false; om_overridden := []; om_bodyLines := (0)%Z |} [(Node 22 [] (VarDecl {| v_isParm := true; v_name := $"value"; v_used := false; v_referenced := false; v_local := false; v_staticMember := false; v_private := false; v_unusedAttr := false; v_defaultArg := false; v_canonicalType := $"signed char"; v_inTemplate := false; v_contexts := [CxObjCMethod true false false false; CxOther] |} None))] None)); (Node 23 [] (ObjCMethodDecl {| om_selector := $"numberWithUnsignedChar:"; om_class := (Some $"NSNumber"); om_overriding := false; om_overridden := []; om_bodyLines := (0)%Z |} [(Node 24 [] (VarDecl {| v_isParm := true; v_name := $"value"; v_used := false; v_referenced := false; v_local := false; v_staticMember := false; v_private := false; v_unusedAttr := false; v_defaultArg := false; v_canonicalType := $"unsigned char"; v_inTemplate := false; v_contexts := [CxObjCMethod true false false false; CxOther] |} None))] None))]))); (toplevel 25 (TFunction false), (Node 25 [] (FunctionDecl {| f_name := $"m"; f_method := None; f_isDefinition := true; f_bodyLines := (1)%Z |} [] (Some (Node 26 [] (CompoundStmt [(Node 27 [] (DeclStmt [(Node 28 [] (VarDecl {| v_isParm := false; v_name := $"fortyTwoUnsignedLongLong"; v_used := false; v_referenced := false; v_local := true; v_staticMember := false; v_private := false; v_unusedAttr := false; v_defaultArg := false; v_canonicalType := $"NSNumber *"; v_inTemplate := false; v_contexts := [CxFunction true true false] |} (Some (Node 29 $"NSNumber *" (ObjCMessageExpr {| ms_selector := $"numberWithUnsignedLongLong:"; ms_receiver := (RClass $"NSNumber"); ms_implicit := false; ms_interface := (Some $"NSNumber"); ms_method := (Some (Decl [] (Some (Method false None (InOther (Some NoCategory)))))); ms_methodClass := (Some $"NSNumber") |} None [(Node 30 $"unsigned long long" (ParenExpr (Node 31 $"unsigned long long" (BinaryOperator BO_Other (Node 32 $"unsigned long long" (IntegerLiteral (43)%Z)) (Node 33 $"unsigned long long" (IntegerLiteral (1)%Z))))))])))))]))]))))))];
     ts_locs := [(2,1,2,21); (3,1,4,2); (5,1,17,2); (6,1,6,41); (6,31,6,36); (7,1,7,39); (7,30,7,34); (8,1,8,56); (8,38,8,51); (9,1,9,41); (9,31,9,36); (10,1,10,58); (10,39,10,53); (11,1,11,50); (11,35,11,45); (12,1,12,67); (12,43,12,62); (13,1,13,43); (13,32,13,38); (14,1,14,45); (14,33,14,40); (15,1,15,41); (15,31,15,36); (16,1,16,58); (16,39,16,53); (18,1,18,103); (18,10,18,103); (18,12,18,101); (18,12,18,100); (18,49,18,100); (18,86,18,99); (18,87,18,95); (18,87,18,87); (18,95,18,95)]%Z;
     ts_evals := []; ts_same := []; ts_decls := []; ts_parents := [] |}.
Example ObjCBoxedExpressions_NumberWithBoxedUnsignedLongLong_holds : nth_violation (shippedRule sh_ObjCBoxedExpressions) ObjCBoxedExpressions_NumberWithBoxedUnsignedLongLong 0 = Some (18, 49, 18, 100, $"")%Z.
Proof. vm_compute. reflexivity. Qed.

Definition ObjCBoxedExpressions_FloatLiteral : testcase :=
  {| ts_lang := LObjC; ts_path := $"input.m"; ts_code := [];
     ts_comments := []; ts_conf := [];
     ts_tops := [(toplevel 0 (TOther), (Node 0 [] (OtherDecl []))); (toplevel 1 (TOther), (Node 1 [] (ObjCContainerDecl {| oc_kind := OKInterface; oc_name := $"NSObject"; oc_lines := (2)%Z; oc_ivars := 0; oc_methods := []; oc_classes := [$"NSObject"]; oc_superMethods := None |} []))); (toplevel 2 (TOther), (Node 2 [] (ObjCContainerDecl {| oc_kind := OKInterface; oc_name := $"NSNumber"; oc_lines := (13)%Z; oc_ivars := 0; oc_methods := [($"numberWithChar:", false); ($"numberWithInt:", false); ($"numberWithUnsignedInt:", false); ($"numberWithLong:", false); ($"numberWithUnsignedLong:", false); ($"numberWithLongLong:", false); ($"numberWithUnsignedLongLong:", false); ($"numberWithFloat:", false); ($"numberWithDouble:", false); ($"numberWithBool:", false); ($"numberWithUnsignedChar:", false)]; oc_classes := [$"NSNumber"; $"NSObject"]; oc_superMethods := (Some ($"NSObject", [])) |} [(Node 3 [] (ObjCMethodDecl {| om_selector := $"numberWithChar:"; om_class := (Some $"NSNumber"); om_overriding := false; om_overridden := []; om_bodyLines := (0)%Z |} [(Node 4 [] (VarDecl {| v_isParm := true; v_name := $"value"; v_used := false; v_referenced := false; v_local := false; v_staticMember := false; v_private := false; v_unusedAttr := false; v_defaultArg := false; v_canonicalType := $"char"; v_inTemplate := false; v_contexts := [CxObjCMethod true false false false; CxOther] |} None))] None)); (Node 5 [] (ObjCMethodDecl {| om_selector := $"numberWithInt:"; om_class := (Some $"NSNumber"); om_overriding := false; om_overridden := []; om_bodyLines := (0)%Z |} [(Node 6 [] (VarDecl {| v_isParm := true; v_name := $"value"; v_used := false; v_referenced := false; v_local := false; v_staticMember := false; v_private := false; v_unusedAttr := false; v_defaultArg := false; v_canonicalType := $"int"; v_inTemplate := false; v_contexts := [CxObjCMethod true false false false; CxOther] |} None))] None)); (Node 7 [] (ObjCMethodDecl {| om_selector := $"numberWithUnsignedInt:"; om_class := (Some $"NSNumber"); om_overriding := false; om_overridden := []; om_bodyLines := (0)%Z |} [(Node 8 [] (VarDecl {| v_isParm := true; v_name := $"value"; v_used := false; v_referenced := false; v_local := false; v_staticMember := false; v_private := false; v_unusedAttr := false; v_defaultArg := false; v_canonicalType := $"unsigned int"; v_inTemplate := false; v_contexts := [CxObjCMethod true false false false; CxOther] |} None))] None)); (Node 9 [] (ObjCMethodDecl {| om_selector := $"numberWithLong:"; om_class := (Some $"NSNumber"); om_overriding := false; om_overridden := []; om_bodyLines := (0)%Z |} [(Node 10 [] (VarDecl {| v_isParm := true; v_name := $"value"; v_used := false; v_referenced := false; v_local := false; v_staticMember := false; v_private := false; v_unusedAttr := false; v_defaultArg := false; v_canonicalType := $"long"; v_inTemplate := false; v_contexts := [CxObjCMethod true false false false; CxOther] |} None))] None)); (Node 11 [] (ObjCMethodDecl {| om_selector := $"numberWithUnsignedLong:"; om_class := (Some $"NSNumber"); om_overriding := false; om_overridden := []; om_bodyLines := (0)%Z |} [(Node 12 [] (VarDecl {| v_isParm := true; v_name := $"value"; v_used := false; v_referenced := false; v_local := false; v_staticMember := false; v_private := false; v_unusedAttr := false; v_defaultArg := false; v_canonicalType := $"unsigned long"; v_inTemplate := false; v_contexts := [CxObjCMethod true false false false; CxOther] |} None))] None)); (Node 13 [] (ObjCMethodDecl {| om_selector := $"numberWithLongLong:"; om_class := (Some $"NSNumber"); om_overriding := false; om_overridden := []; om_bodyLines := (0)%Z |} [(Node 14 [] (VarDecl {| v_isParm := true; v_name := $"value"; v_used := false; v_referenced := false; v_local := false; v_staticMember := false; v_private := false; v_unusedAttr := false; v_defaultArg := false; v_canonicalType := $"long long"; v_inTemplate := false; v_contexts := [CxObjCMethod true false false false; CxOther] |} None))] None)); (Node 15 [] (ObjCMethodDecl {| om_selector := $"numberWithUnsignedLongLong:"; om_class := (Some $"NSNumber"); om_overriding := false; om_overridden := []; om_bodyLines := (0)%Z |} [(Node 16 [] (VarDecl {| v_isParm := true; v_name := $"value"; v_used := false; v_referenced := false; v_local := false; v_staticMember := false; v_private := false; v_unusedAttr := false; v_defaultArg := false; v_canonicalType := $"unsigned long long"; v_inTemplate := false; v_contexts := [CxObjCMethod true false false false; CxOther] |} None))] None)); (Node 17 [] (ObjCMethodDecl {| om_selector := $"numberWithFloat:"; om_class := (Some $"NSNumber"); om_overriding := false; om_overridden := []; om_bodyLines := (0)%Z |} [(Node 18 [] (VarDecl {| v_isParm := true; v_name := $"value"; v_used := false; v_referenced := false; v_local := false; v_staticMember := false; v_private := false; v_unusedAttr := false; v_defaultArg := false; v_canonicalType := $"float"; v_inTemplate := false; v_contexts := [CxObjCMethod true false false false; CxOther] |} None))] None)); (Node 19 [] (ObjCMethodDecl {| om_selector := $"numberWithDouble:"; om_class := (Some $"NSNumber"); om_overriding := false; om_overridden := []; om_bodyLines := (0)%Z |} [(Node 20 [] (VarDecl {| v_isParm := true; v_name := $"value"; v_used := false; v_referenced := false; v_local := false; v_staticMember := false; v_private := false; v_unusedAttr := false; v_defaultArg := false; v_canonicalType := $"double"; v_inTemplate := false; v_contexts := [CxObjCMethod true false false false; CxOther] |} None))] None)); (Node 21 [] (ObjCMethodDecl {| om_selector := $"numberWithBool:"; om_class := (Some $"NSNumber"); om_overriding := false; om_overridden := []; om_bodyLines := (0)%Z |} [(Node 22 [] (VarDecl {| v_isParm := true; v_name := $"value"; v_used := false; v_referenced := false; v_local := false; v_staticMember := false; v_private := false; v_unusedAttr := false; v_defaultArg := false; v_canonicalType := $"signed char"; v_inTemplate := false; v_contexts := [CxObjCMethod true false false false; CxOther] |} None))] None)); (Node 23 [] (ObjCMethodDecl {| om_selector := $"numberWithUnsignedChar:"; om_class := (Some $"NSNumber"); om_overriding := false; om_overridden := []; om_bodyLines := (0)%Z |} [(Node 24 [] (VarDecl {| v_isParm := true; v_name := $"value"; v_used := false; v_referenced := false; v_local := false; v_staticMember := false; v_private := false; v_unusedAttr := false; v_defaultArg := false; v_canonicalType := $"unsigned char"; v_inTemplate := false; v_contexts := [CxObjCMethod true false false false; CxOther] |} None))] None))]))); (toplevel 25 (TFunction false), (Node 25 [] (FunctionDecl {| f_name := $"m"; f_method := None; f_isDefinition := true; f_bodyLines := (1)%Z |} [] (Some (Node 26 [] (CompoundStmt [(Node 27 [] (DeclStmt [(Node 28 [] (VarDecl {| v_isParm := false; v_name := $"fortyTwoFloat"; v_used := false; v_referenced := false; v_local := true; v_staticMember := false; v_private := false; v_unusedAttr := false; v_defaultArg := false; v_canonicalType := $"NSNumber *"; v_inTemplate := false; v_contexts := [CxFunction true true false] |} (Some (Node 29 $"NSNumber *" (OtherExpr [(Node 30 $"float" (FloatingLiteral (4614256656748904448)%Z))])))))]))]))))))];
     ts_locs := [(2,1,2,21); (3,1,4,2); (5,1,17,2); (6,1,6,41); (6,31,6,36); (7,1,7,39); (7,30,7,34); (8,1,8,56); (8,38,8,51); (9,1,9,41); (9,31,9,36); (10,1,10,58); (10,39,10,53); (11,1,11,50); (11,35,11,45); (12,1,12,67); (12,43,12,62); (13,1,13,43); (13,32,13,38); (14,1,14,45); (14,33,14,40); (15,1,15,41); (15,31,15,36); (16,1,16,58); (16,39,16,53); (18,1,18,54); (18,10,18,54); (18,12,18,52); (18,12,18,39); (18,38,18,39); (18,39,18,39)]%Z;
     ts_evals := []; ts_same := []; ts_decls := []; ts_parents := [] |}.
Example ObjCBoxedExpressions_FloatLiteral_holds : sorted_violations_of (shippedRule sh_ObjCBoxedExpressions) ObjCBoxedExpressions_FloatLiteral = Some [].
Proof. vm_compute. reflexivity. Qed.

Definition ObjCBoxedExpressions_NumberWithFloat : testcase :=
  {| ts_lang := LObjC; ts_path := $"input.m"; ts_code := [];
     ts_comments := []; ts_conf := [];
     ts_tops := [(toplevel 0 (TOther), (Node 0 [] (OtherDecl []))); (toplevel 1 (TOther), (Node 1 [] (ObjCContainerDecl {| oc_kind := OKInterface; oc_name := $"NSObject"; oc_lines := (2)%Z; oc_ivars := 0; oc_methods := []; oc_classes := [$"NSObject"]; oc_superMethods := None |} []))); (toplevel 2 (TOther), (Node 2 [] (ObjCContainerDecl {| oc_kind := OKInterface; oc_name := $"NSNumber"; oc_lines := (13)%Z; oc_ivars := 0; oc_methods := [($"numberWithChar:", false); ($"numberWithInt:", false); ($"numberWithUnsignedInt:", false); ($"numberWithLong:", false); ($"numberWithUnsignedLong:", false); ($"numberWithLongLong:", false); ($"numberWithUnsignedLongLong:", false); ($"numberWithFloat:", false); ($"numberWithDouble:", false); ($"numberWithBool:", false); ($"numberWithUnsignedChar:", false)]; oc_classes := [$"NSNumber"; $"NSObject"]; oc_superMethods := (Some ($"NSObject", [])) |} [(Node 3 [] (ObjCMethodDecl {| om_selector := $"numberWithChar:"; om_class := (Some $"NSNumber"); om_overriding := false; om_overridden := []; om_bodyLines := (0)%Z |} [(Node 4 [] (VarDecl {| v_isParm := true; v_name := $"value"; v_used := false; v_referenced := false; v_local := false; v_staticMember := false; v_private := false; v_unusedAttr := false; v_defaultArg := false; v_canonicalType := $"char"; v_inTemplate := false; v_contexts := [CxObjCMethod true false false false; CxOther] |} None))] None)); (Node 5 [] (ObjCMethodDecl {| om_selector := $"numberWithInt:"; om_class := (Some $"NSNumber"); om_overriding := false; om_overridden := []; om_bodyLines := (0)%Z |} [(Node 6 [] (VarDecl {| v_isParm := true; v_name := $"value"; v_used := false; v_referenced := false; v_local := false; v_staticMember := false; v_private := false; v_unusedAttr := false; v_defaultArg := false; v_canonicalType := $"int"; v_inTemplate := false; v_contexts := [CxObjCMethod true false false false; CxOther] |} None))] None)); (Node 7 [] (ObjCMethodDecl {| om_selector := $"numberWithUnsignedInt:"; om_class := (Some $"NSNumber"); om_overriding := false; om_overridden := []; om_bodyLines := (0)%Z |} [(Node 8 [] (VarDecl {| v_isParm := true; v_name := $"value"; v_used := false; v_referenced := false; v_local := false; v_staticMember := false; v_private := false; v_unusedAttr := false; v_defaultArg := false; v_canonicalType := $"unsigned int"; v_inTemplate := false; v_contexts := [CxObjCMethod true false false false; CxOther] |} None))] None)); (Node 9 [] (ObjCMethodDecl {| om_selector := $"numberWithLong:"; om_class := (Some $"NSNumber"); om_overriding := false; om_overridden := []; om_bodyLines := (0)%Z |} [(Node 10 [] (VarDecl {| v_isParm := true; v_name := $"value"; v_used := false; v_referenced := false; v_local := false; v_staticMember := false; v_private := false; v_unusedAttr := false; v_defaultArg := false; v_canonicalType := $"long"; v_inTemplate := false; v_contexts := [CxObjCMethod true false false false; CxOther] |} None))] None)); (Node 11 [] (ObjCMethodDecl {| om_selector := $"numberWithUnsignedLong:"; om_class := (Some $"NSNumber"); om_overriding := false; om_overridden := []; om_bodyLines := (0)%Z |} [(Node 12 [] (VarDecl {| v_isParm := true; v_name := $"value"; v_used := false; v_referenced := false; v_local := false; v_staticMember := false; v_private := false; v_unusedAttr := false; v_defaultArg := false; v_canonicalType := $"unsigned long"; v_inTemplate := false; v_contexts := [CxObjCMethod true false false false; CxOther] |} None))] None)); (Node 13 [] (ObjCMethodDecl {| om_selector := $"numberWithLongLong:"; om_class := (Some $"NSNumber"); om_overriding := false; om_overridden := []; om_bodyLines := (0)%Z |} [(Node 14 [] (VarDecl {| v_isParm := true; v_name := $"value"; v_used := false; v_referenced := false; v_local := false; v_staticMember := false; v_private := false; v_unusedAttr := false; v_defaultArg := false; v_canonicalType := $"long long"; v_inTemplate := false; v_contexts := [CxObjCMethod true false false false; CxOther] |} None))] None)); (Node 15 [] (ObjCMethodDecl {| om_selector := $"numberWithUnsignedLongLong:"; om_class := (Some $"NSNumber"); om_overriding := false; om_overridden := []; om_bodyLines := (0)%Z |} [(Node 16 [] (VarDecl {| v_isParm := true; v_name := $"value"; v_used := false; v_referenced := false; v_local := false; v_staticMember := false; v_private := false; v_unusedAttr := false; v_defaultArg := false; v_canonicalType := $"unsigned long long"; v_inTemplate := false; v_contexts := [CxObjCMethod true false false false; CxOther] |} None))] None)); (Node 17 [] (ObjCMethodDecl {| om_selector := $"numberWithFloat:"; om_class := (Some $"NSNumber"); om_overriding := false; om_overridden := []; om_bodyLines := (0)%Z |} [(Node 18 [] (VarDecl {| v_isParm := true; v_name := $"value"; v_used := false; v_referenced := false; v_local := false; v_staticMember := false; v_private := false; v_unusedAttr := false; v_defaultArg := false; v_canonicalType := $"float"; v_inTemplate := false; v_contexts := [CxObjCMethod true false false false; CxOther] |} None))] None)); (Node 19 [] (ObjCMethodDecl {| om_selector := $"numberWithDouble:"; om_class := (Some $"NSNumber"); om_overriding := false; om_overridden := []; om_bodyLines := (0)%Z |} [(Node 20 [] (VarDecl {| v_isParm := true; v_name := $"value"; v_used := false; v_referenced := false; v_local := false; v_staticMember := false; v_private := false; v_unusedAttr := false; v_defaultArg := false; v_canonicalType := $"double"; v_inTemplate := false; v_contexts := [CxObjCMethod true false false false; CxOther] |} None))] None)); (Node 21 [] (ObjCMethodDecl {| om_selector := $"numberWithBool:"; om_class := (Some $"NSNumber"); om_overriding := false; om_overridden := []; om_bodyLines := (0)%Z |} [(Node 22 [] (VarDecl {| v_isParm := true; v_name := $"value"; v_used := false; v_referenced := false; v_local := false; v_staticMember := false; v_private := false; v_unusedAttr := false; v_defaultArg := false; v_canonicalType := $"signed char"; v_inTemplate := false; v_contexts := [CxObjCMethod true false false false; CxOther] |} None))] None)); (Node 23 [] (ObjCMethodDecl {| om_selector := $"numberWithUnsignedChar:"; om_class := (Some $"NSNumber"); om_overriding := false; om_overridden := []; om_bodyLines := (0)%Z |} [(Node 24 [] (VarDecl {| v_isParm := true; v_name := $"value"; v_used := false; v_referenced := false; v_local := false; v_staticMember := false; v_private := false; v_unusedAttr := false; v_defaultArg := false; v_canonicalType := $"unsigned char"; v_inTemplate := false; v_contexts := [CxObjCMethod true false false false; CxOther] |} None))] None))]))); (toplevel 25 (TFunction false), (Node 25 [] (FunctionDecl {| f_name := $"m"; f_method := None; f_isDefinition := true; f_bodyLines := (1)%Z |} [] (Some (Node 26 [] (CompoundStmt [(Node 27 [] (DeclStmt [(Node 28 [] (VarDecl {| v_isParm := false; v_name := $"fortyTwoFloat"; v_used := false; v_referenced := false; v_local := true; v_staticMember := false; v_private := false; v_unusedAttr := false; v_defaultArg := false; v_canonicalType := $"NSNumber *"; v_inTemplate := false; v_contexts := [CxFunction true true false] |} (Some (Node 29 $"NSNumber *" (ObjCMessageExpr {| ms_selector := $"numberWithFloat:"; ms_receiver := (RClass $"NSNumber"); ms_implicit := false; ms_interface := (Some $"NSNumber"); ms_method := (Some (Decl [] (Some (Method false None (InOther (Some NoCategory)))))); ms_methodClass := (Some $"NSNumber") |} None [(Node 30 $"float" (FloatingLiteral (4614256656748904448)%Z))])))))]))]))))))];
     ts_locs := [(2,1,2,21); (3,1,4,2); (5,1,17,2); (6,1,6,41); (6,31,6,36); (7,1,7,39); (7,30,7,34); (8,1,8,56); (8,38,8,51); (9,1,9,41); (9,31,9,36); (10,1,10,58); (10,39,10,53); (11,1,11,50); (11,35,11,45); (12,1,12,67); (12,43,12,62); (13,1,13,43); (13,32,13,38); (14,1,14,45); (14,33,14,40); (15,1,15,41); (15,31,15,36); (16,1,16,58); (16,39,16,53); (18,1,18,80); (18,10,18,80); (18,12,18,78); (18,12,18,77); (18,38,18,77); (18,64,18,64)]%Z;
     ts_evals := []; ts_same := []; ts_decls := []; ts_parents := [] |}.
Example ObjCBoxedExpressions_NumberWithFloat_holds : sorted_violations_of (shippedRule sh_ObjCBoxedExpressions) ObjCBoxedExpressions_NumberWithFloat = Some [].
Proof. vm_compute. reflexivity. Qed.

Definition ObjCBoxedExpressions_NumberWithBoxedFloat : testcase :=
  {| ts_lang := LObjC; ts_path := $"input.m"; ts_code := [];
     ts_comments := []; ts_conf := [];
     ts_tops := [(toplevel 0 (TOther), (Node 0 [] (OtherDecl []))); (toplevel 1 (TOther), (Node 1 [] (ObjCContainerDecl {| oc_kind := OKInterface; oc_name := $"NSObject"; oc_lines := (2)%Z; oc_ivars := 0; oc_methods := []; oc_classes := [$"NSObject"]; oc_superMethods := None |} []))); (toplevel 2 (TOther), (Node 2 [] (ObjCContainerDecl {| oc_kind := OKInterface; oc_name := $"NSNumber"; oc_lines := (13)%Z; oc_ivars := 0; oc_methods := [($"numberWithChar:", false); ($"numberWithInt:", false); ($"numberWithUnsignedInt:", false); ($"numberWithLong:", false); ($"numberWithUnsignedLong:", false); ($"numberWithLongLong:", false); ($"numberWithUnsignedLongLong:", false); ($"numberWithFloat:", false); ($"numberWithDouble:", false); ($"numberWithBool:", false); ($"numberWithUnsignedChar:", false)]; oc_classes := [$"NSNumber"; $"NSObject"]; oc_superMethods := (Some ($"NSObject", [])) |} [(Node 3 [] (ObjCMethodDecl {| om_selector := $"numberWithChar:"; om_class := (Some $"NSNumber"); om_overriding := false; om_overridden := []; om_bodyLines := (0)%Z |} [(Node 4 [] (VarDecl {| v_isParm := true; v_name := $"value"; v_used := false; v_referenced := false; v_local := false; v_staticMember := false; v_private := false; v_unusedAttr := false; v_defaultArg := false; v_canonicalType := $"char"; v_inTemplate := false; v_contexts := [CxObjCMethod true false false false; CxOther] |} None))] None)); (Node 5 [] (ObjCMethodDecl {| om_selector := $"numberWithInt:"; om_class := (Some $"NSNumber"); om_overriding := false; om_overridden := []; om_bodyLines := (0)%Z |} [(Node 6 [] (VarDecl {| v_isParm := true; v_name := $"value"; v_used := false; v_referenced := false; v_local := false; v_staticMember := false; v_private := false; v_unusedAttr := false; v_defaultArg := false; v_canonicalType := $"int"; v_inTemplate := false; v_contexts := [CxObjCMethod true false false false; CxOther] |} None))] None)); (Node 7 [] (ObjCMethodDecl {| om_selector := $"numberWithUnsignedInt:"; om_class := (Some $"NSNumber"); om_overriding := false; om_overridden := []; om_bodyLines := (0)%Z |} [(Node 8 [] (VarDecl {| v_isParm := true; v_name := $"value"; v_used := false; v_referenced := false; v_local := false; v_staticMember := false; v_private := false; v_unusedAttr := false; v_defaultArg := false; v_canonicalType := $"unsigned int"; v_inTemplate := false; v_contexts := [CxObjCMethod true false false false; CxOther] |} None))] None)); (Node 9 [] (ObjCMethodDecl {| om_selector := $"numberWithLong:"; om_class := (Some $"NSNumber"); om_overriding := false; om_overridden := []; om_bodyLines := (0)%Z |} [(Node 10 [] (VarDecl {| v_isParm := true; v_name := $"value"; v_used := false; v_referenced := false; v_local := false; v_staticMember := false; v_private := false; v_unusedAttr := false; v_defaultArg := false; v_canonicalType := $"long"; v_inTemplate := false; v_contexts := [CxObjCMethod true false false false; CxOther] |} None))] None)); (Node 11 [] (ObjCMethodDecl {| om_selector := $"numberWithUnsignedLong:"; om_class := (Some $"NSNumber"); om_overriding := false; om_overridden := []; om_bodyLines := (0)%Z |} [(Node 12 [] (VarDecl {| v_isParm := true; v_name := $"value"; v_used := false; v_referenced := false; v_local := false; v_staticMember := false; v_private := false; v_unusedAttr := false; v_defaultArg := false; v_canonicalType := $"unsigned long"; v_inTemplate := false; v_contexts := [CxObjCMethod true false false false; CxOther] |} None))] None)); (Node 13 [] (ObjCMethodDecl {| om_selector := $"numberWithLongLong:"; om_class := (Some $"NSNumber"); om_overriding := false; om_overridden := []; om_bodyLines := (0)%Z |} [(Node 14 [] (VarDecl {| v_isParm := true; v_name := $"value"; v_used := false; v_referenced := false; v_local := false; v_staticMember := false; v_private := false; v_unusedAttr := false; v_defaultArg := false; v_canonicalType := $"long long"; v_inTemplate := false; v_contexts := [CxObjCMethod true false false false; CxOther] |} None))] None)); (Node 15 [] (ObjCMethodDecl {| om_selector := $"numberWithUnsignedLongLong:"; om_class := (Some $"NSNumber"); om_overriding := false; om_overridden := []; om_bodyLines := (0)%Z |} [(Node 16 [] (VarDecl {| v_isParm := true; v_name := $"value"; v_used := false; v_referenced := false; v_local := false; v_staticMember := false; v_private := false; v_unusedAttr := false; v_defaultArg := false; v_canonicalType := $"unsigned long long"; v_inTemplate := false; v_contexts := [CxObjCMethod true false false false; CxOther] |} None))] None)); (Node 17 [] (ObjCMethodDecl {| om_selector := $"numberWithFloat:"; om_class := (Some $"NSNumber"); om_overriding := false; om_overridden := []; om_bodyLines := (0)%Z |} [(Node 18 [] (VarDecl {| v_isParm := true; v_name := $"value"; v_used := false; v_referenced := false; v_local := false; v_staticMember := false; v_private := false; v_unusedAttr := false; v_defaultArg := false; v_canonicalType := $"float"; v_inTemplate := false; v_contexts := [CxObjCMethod true false false false; CxOther] |} None))] None)); (Node 19 [] (ObjCMethodDecl {| om_selector := $"numberWithDouble:"; om_class := (Some $"NSNumber"); om_overriding := false; om_overridden := []; om_bodyLines := (0)%Z |} [(Node 20 [] (VarDecl {| v_isParm := true; v_name := $"value"; v_used := false; v_referenced := false; v_local := false; v_staticMember := false; v_private := false; v_unusedAttr := false; v_defaultArg := false; v_canonicalType := $"double"; v_inTemplate := false; v_contexts := [CxObjCMethod true false false false; CxOther] |} None))] None)); (Node 21 [] (ObjCMethodDecl {| om_selector := $"numberWithBool:"; om_class := (Some $"NSNumber"); om_overriding := false; om_overridden := []; om_bodyLines := (0)%Z |} [(Node 22 [] (VarDecl {| v_isParm := true; v_name := $"value"; v_used := false; v_referenced := false; v_local := false; v_staticMember := false; v_private := false; v_unusedAttr := false; v_defaultArg := false; v_canonicalType := $"signed char"; v_inTemplate := false; v_contexts := [CxObjCMethod true false false false; CxOther] |} None))] None)); (Node 23 [] (ObjCMethodDecl {| om_selector := $"numberWithUnsignedChar:"; om_class := (Some $"NSNumber"); om_overriding := false; om_overridden := []; om_bodyLines := (0)%Z |} [(Node 24 [] (VarDecl {| v_isParm := true; v_name := $"value"; v_used := false; v_referenced := false; v_local := false; v_staticMember := false; v_private := false; v_unusedAttr := false; v_defaultArg := false; v_canonicalType := $"unsigned char"; v_inTemplate := false; v_contexts := [CxObjCMethod true false false false; CxOther] |} None))] None))]))); (toplevel 25 (TFunction false), (Node 25 [] (FunctionDecl {| f_name := $"m"; f_method := None; f_isDefinition := true; f_bodyLines := (1)%Z |} [] (Some (Node 26 [] (CompoundStmt [(Node 27 [] (DeclStmt [(Node 28 [] (VarDecl {| v_isParm := false; v_name := $"fortyTwoFloat"; v_used := false; v_referenced := false; v_local := true; v_staticMember := false; v_private := false; v_unusedAttr := false; v_defaultArg := false; v_canonicalType := $"NSNumber *"; v_inTemplate := false; v_contexts := [CxFunction true true false] |} (Some (Node 29 $"NSNumber *" (ObjCMessageExpr {| ms_selector := $"numberWithFloat:"; ms_receiver := (RClass $"NSNumber"); ms_implicit := false; ms_interface := (Some $"NSNumber"); ms_method := (Some (Decl [] (Some (Method false None (InOther (Some NoCategory)))))); ms_methodClass := (Some $"NSNumber") |} None [(Node 30 $"float" (ParenExpr (Node 31 $"float" (BinaryOperator BO_Other (Node 32 $"float" (FloatingLiteral (4616349037040238592)%Z)) (Node 33 $"float" (FloatingLiteral (4607182418800017408)%Z))))))])))))]))]))))))];
     ts_locs := [(2,1,2,21); (3,1,4,2); (5,1,17,2); (6,1,6,41); (6,31,6,36); (7,1,7,39); (7,30,7,34); (8,1,8,56); (8,38,8,51); (9,1,9,41); (9,31,9,36); (10,1,10,58); (10,39,10,53); (11,1,11,50); (11,35,11,45); (12,1,12,67); (12,43,12,62); (13,1,13,43); (13,32,13,38); (14,1,14,45); (14,33,14,40); (15,1,15,41); (15,31,15,36); (16,1,16,58); (16,39,16,53); (18,1,18,89); (18,10,18,89); (18,12,18,87); (18,12,18,86); (18,38,18,86); (18,64,18,85); (18,65,18,81); (18,65,18,65); (18,81,18,81)]%Z;
     ts_evals := []; ts_same := []; ts_decls := []; ts_parents := [] |}.
Example ObjCBoxedExpressions_NumberWithBoxedFloat_holds : nth_violation (shippedRule sh_ObjCBoxedExpressions) ObjCBoxedExpressions_NumberWithBoxedFloat 0 = Some (18, 38, 18, 86, $"")%Z.
Proof. vm_compute. reflexivity. Qed.

Definition ObjCBoxedExpressions_DoubleLiteral : testcase :=
  {| ts_lang := LObjC; ts_path := $"input.m"; ts_code := [];
     ts_comments := []; ts_conf := [];
     ts_tops := [(toplevel 0 (TOther), (Node 0 [] (OtherDecl []))); (toplevel 1 (TOther), (Node 1 [] (ObjCContainerDecl {| oc_kind := OKInterface; oc_name := $"NSObject"; oc_lines := (2)%Z; oc_ivars := 0; oc_methods := []; oc_classes := [$"NSObject"]; oc_superMethods := None |} []))); (toplevel 2 (TOther), (Node 2 [] (ObjCContainerDecl {| oc_kind := OKInterface; oc_name := $"NSNumber"; oc_lines := (13)%Z; oc_ivars := 0; oc_methods := [($"numberWithChar:", false); ($"numberWithInt:", false); ($"numberWithUnsignedInt:", false); ($"numberWithLong:", false); ($"numberWithUnsignedLong:", false); ($"numberWithLongLong:", false); ($"numberWithUnsignedLongLong:", false); ($"numberWithFloat:", false); ($"numberWithDouble:", false); ($"numberWithBool:", false); ($"numberWithUnsignedChar:", false)]; oc_classes := [$"NSNumber"; $"NSObject"]; oc_superMethods := (Some ($"NSObject", [])) |} [(Node 3 [] (ObjCMethodDecl {| om_selector := $"numberWithChar:"; om_class := (Some $"NSNumber"); om_overriding := false; om_overridden := []; om_bodyLines := (0)%Z |} [(Node 4 [] (VarDecl {| v_isParm := true; v_name := $"value"; v_used := false; v_referenced := false; v_local := false; v_staticMember := false; v_private := false; v_unusedAttr := false; v_defaultArg := false; v_canonicalType := $"char"; v_inTemplate := false; v_contexts := [CxObjCMethod true false false false; CxOther] |} None))] None)); (Node 5 [] (ObjCMethodDecl {| om_selector := $"numberWithInt:"; om_class := (Some $"NSNumber"); om_overriding := false; om_overridden := []; om_bodyLines := (0)%Z |} [(Node 6 [] (VarDecl {| v_isParm := true; v_name := $"value"; v_used := false; v_referenced := false; v_local := false; v_staticMember := false; v_private := false; v_unusedAttr := false; v_defaultArg := false; v_canonicalType := $"int"; v_inTemplate := false; v_contexts := [CxObjCMethod true false false false; CxOther] |} None))] None)); (Node 7 [] (ObjCMethodDecl {| om_selector := $"numberWithUnsignedInt:"; om_class := (Some $"NSNumber"); om_overriding := false; om_overridden := []; om_bodyLines := (0)%Z |} [(Node 8 [] (VarDecl {| v_isParm := true; v_name := $"value"; v_used := false; v_referenced := false; v_local := false; v_staticMember := false; v_private := false; v_unusedAttr := false; v_defaultArg := false; v_canonicalType := $"unsigned int"; v_inTemplate := false; v_contexts := [CxObjCMethod true false false false; CxOther] |} None))] None)); (Node 9 [] (ObjCMethodDecl {| om_selector := $"numberWithLong:"; om_class := (Some $"NSNumber"); om_overriding := false; om_overridden := []; om_bodyLines := (0)%Z |} [(Node 10 [] (VarDecl {| v_isParm := true; v_name := $"value"; v_used := false; v_referenced := false; v_local := false; v_staticMember := false; v_private := false; v_unusedAttr := false; v_defaultArg := false; v_canonicalType := $"long"; v_inTemplate := false; v_contexts := [CxObjCMethod true false false false; CxOther] |} None))] None)); (Node 11 [] (ObjCMethodDecl {| om_selector := $"numberWithUnsignedLong:"; om_class := (Some $"NSNumber"); om_overriding := false; om_overridden := []; om_bodyLines := (0)%Z |} [(Node 12 [] (VarDecl {| v_isParm := true; v_name := $"value"; v_used := false; v_referenced := false; v_local := false; v_staticMember := false; v_private := false; v_unusedAttr := false; v_defaultArg := false; v_canonicalType := $"unsigned long"; v_inTemplate := false; v_contexts := [CxObjCMethod true false false false; CxOther] |} None))] None)); (Node 13 [] (ObjCMethodDecl {| om_selector := $"numberWithLongLong:"; om_class := (Some $"NSNumber"); om_overriding := false; om_overridden := []; om_bodyLines := (0)%Z |} [(Node 14 [] (VarDecl {| v_isParm := true; v_name := $"value"; v_used := false; v_referenced := false; v_local := false; v_staticMember := false; v_private := false; v_unusedAttr := false; v_defaultArg := false; v_canonicalType := $"long long"; v_inTemplate := false; v_contexts := [CxObjCMethod true false false false; CxOther] |} None))] None)); (Node 15 [] (ObjCMethodDecl {| om_selector := $"numberWithUnsignedLongLong:"; om_class := (Some $"NSNumber"); om_overriding := false; om_overridden := []; om_bodyLines := (0)%Z |} [(Node 16 [] (VarDecl {| v_isParm := true; v_name := $"value"; v_used := false; v_referenced := false; v_local := false; v_staticMember := false; v_private := false; v_unusedAttr := false; v_defaultArg := false; v_canonicalType := $"unsigned long long"; v_inTemplate := false; v_contexts := [CxObjCMethod true false false false; CxOther] |} None))] None)); (Node 17 [] (ObjCMethodDecl {| om_selector := $"numberWithFloat:"; om_class := (Some $"NSNumber"); om_overriding := false; om_overridden := []; om_bodyLines := (0)%Z |} [(Node 18 [] (VarDecl {| v_isParm := true; v_name := $"value"; v_used := false; v_referenced := false; v_local := false; v_staticMember := false; v_private := false; v_unusedAttr := false; v_defaultArg := false; v_canonicalType := $"float"; v_inTemplate := false; v_contexts := [CxObjCMethod true false false false; CxOther] |} None))] None)); (Node 19 [] (ObjCMethodDecl {| om_selector := $"numberWithDouble:"; om_class := (Some $"NSNumber"); om_overriding := false; om_overridden := []; om_bodyLines := (0)%Z |} [(Node 20 [] (VarDecl {| v_isParm := true; v_name := $"value"; v_used := false; v_referenced := false; v_local := false; v_staticMember := false; v_private := false; v_unusedAttr := false; v_defaultArg := false; v_canonicalType := $"double"; v_inTemplate := false; v_contexts := [CxObjCMethod true false false false; CxOther] |} None))] None)); (Node 21 [] (ObjCMethodDecl {| om_selector := $"numberWithBool:"; om_class := (Some $"NSNumber"); om_overriding := false; om_overridden := []; om_bodyLines := (0)%Z |} [(Node 22 [] (VarDecl {| v_isParm := true; v_name := $"value"; v_used := false; v_referenced := false; v_local := false; v_staticMember := false; v_private := false; v_unusedAttr := false; v_defaultArg := false; v_canonicalType := $"signed char"; v_inTemplate := false; v_contexts := [CxObjCMethod true false false false; CxOther] |} None))] None)); (Node 23 [] (ObjCMethodDecl {| om_selector := $"numberWithUnsignedChar:"; om_class := (Some $"NSNumber"); om_overriding := false; om_overridden := []; om_bodyLines := (0)%Z |} [(Node 24 [] (VarDecl {| v_isParm := true; v_name := $"value"; v_used := false; v_referenced := false; v_local := false; v_staticMember := false; v_private := false; v_unusedAttr := false; v_defaultArg := false; v_canonicalType := $"unsigned char"; v_inTemplate := false; v_contexts := [CxObjCMethod true false false false; CxOther] |} None))] None))]))); (toplevel 25 (TFunction false), (Node 25 [] (FunctionDecl {| f_name := $"m"; f_method := None; f_isDefinition := true; f_bodyLines := (1)%Z |} [] (Some (Node 26 [] (CompoundStmt [(Node 27 [] (DeclStmt [(Node 28 [] (VarDecl {| v_isParm := false; v_name := $"fortyTwoDouble"; v_used := false; v_referenced := false; v_local := true; v_staticMember := false; v_private := false; v_unusedAttr := false; v_defaultArg := false; v_canonicalType := $"NSNumber *"; v_inTemplate := false; v_contexts := [CxFunction true true false] |} (Some (Node 29 $"NSNumber *" (OtherExpr [(Node 30 $"double" (FloatingLiteral (4614256656551843652)%Z))])))))]))]))))))];
     ts_locs := [(2,1,2,21); (3,1,4,2); (5,1,17,2); (6,1,6,41); (6,31,6,36); (7,1,7,39); (7,30,7,34); (8,1,8,56); (8,38,8,51); (9,1,9,41); (9,31,9,36); (10,1,10,58); (10,39,10,53); (11,1,11,50); (11,35,11,45); (12,1,12,67); (12,43,12,62); (13,1,13,43); (13,32,13,38); (14,1,14,45); (14,33,14,40); (15,1,15,41); (15,31,15,36); (16,1,16,58); (16,39,16,53); (18,1,18,54); (18,10,18,54); (18,12,18,52); (18,12,18,40); (18,39,18,40); (18,40,18,40)]%Z;
     ts_evals := []; ts_same := []; ts_decls := []; ts_parents := [] |}.
Example ObjCBoxedExpressions_DoubleLiteral_holds : sorted_violations_of (shippedRule sh_ObjCBoxedExpressions) ObjCBoxedExpressions_DoubleLiteral = Some [].
Proof. vm_compute. reflexivity. Qed.

Definition ObjCBoxedExpressions_NumberWithDouble : testcase :=
  {| ts_lang := LObjC; ts_path := $"input.m"; ts_code := [];
     ts_comments := []; ts_conf := [];
     ts_tops := [(toplevel 0 (TOther), (Node 0 [] (OtherDecl []))); (toplevel 1 (TOther), (Node 1 [] (ObjCContainerDecl {| oc_kind := OKInterface; oc_name := $"NSObject"; oc_lines := (2)%Z; oc_ivars := 0; oc_methods := []; oc_classes := [$"NSObject"]; oc_superMethods := None |} []))); (toplevel 2 (TOther), (Node 2 [] (ObjCContainerDecl {| oc_kind := OKInterface; oc_name := $"NSNumber"; oc_lines := (13)%Z; oc_ivars := 0; oc_methods := [($"numberWithChar:", false); ($"numberWithInt:", false); ($"numberWithUnsignedInt:", false); ($"numberWithLong:", false); ($"numberWithUnsignedLong:", false); ($"numberWithLongLong:", false); ($"numberWithUnsignedLongLong:", false); ($"numberWithFloat:", false); ($"numberWithDouble:", false); ($"numberWithBool:", false); ($"numberWithUnsignedChar:", false)]; oc_classes := [$"NSNumber"; $"NSObject"]; oc_superMethods := (Some ($"NSObject", [])) |} [(Node 3 [] (ObjCMethodDecl {| om_selector := $"numberWithChar:"; om_class := (Some $"NSNumber"); om_overriding := false; om_overridden := []; om_bodyLines := (0)%Z |} [(Node 4 [] (VarDecl {| v_isParm := true; v_name := $"value"; v_used := false; v_referenced := false; v_local := false; v_staticMember := false; v_private := false; v_unusedAttr := false; v_defaultArg := false; v_canonicalType := $"char"; v_inTemplate := false; v_contexts := [CxObjCMethod true false false false; CxOther] |} None))] None)); (Node 5 [] (ObjCMethodDecl {| om_selector := $"numberWithInt:"; om_class := (Some $"NSNumber"); om_overriding := false; om_overridden := []; om_bodyLines := (0)%Z |} [(Node 6 [] (VarDecl {| v_isParm := true; v_name := $"value"; v_used := false; v_referenced := false; v_local := false; v_staticMember := false; v_private := false; v_unusedAttr := false; v_defaultArg := false; v_canonicalType := $"int"; v_inTemplate := false; v_contexts := [CxObjCMethod true false false false; CxOther] |} None))] None)); (Node 7 [] (ObjCMethodDecl {| om_selector := $"numberWithUnsignedInt:"; om_class := (Some $"NSNumber"); om_overriding := false; om_overridden := []; om_bodyLines := (0)%Z |} [(Node 8 [] (VarDecl {| v_isParm := true; v_name := $"value"; v_used := false; v_referenced := false; v_local := false; v_staticMember := false; v_private := false; v_unusedAttr := false; v_defaultArg := false; v_canonicalType := $"unsigned int"; v_inTemplate := false; v_contexts := [CxObjCMethod true false false false; CxOther] |} None))] None)); (Node 9 [] (ObjCMethodDecl {| om_selector := $"numberWithLong:"; om_class := (Some $"NSNumber"); om_overriding := false; om_overridden := []; om_bodyLines := (0)%Z |} [(Node 10 [] (VarDecl {| v_isParm := true; v_name := $"value"; v_used := false; v_referenced := false; v_local := false; v_staticMember := false; v_private := false; v_unusedAttr := false; v_defaultArg := false; v_canonicalType := $"long"; v_inTemplate := false; v_contexts := [CxObjCMethod true false false false; CxOther] |} None))] None)); (Node 11 [] (ObjCMethodDecl {| om_selector := $"numberWithUnsignedLong:"; om_class := (Some $"NSNumber"); om_overriding := false; om_overridden := []; om_bodyLines := (0)%Z |} [(Node 12 [] (VarDecl {| v_isParm := true; v_name := $"value"; v_used := false; v_referenced := false; v_local := false; v_staticMember := false; v_private := false; v_unusedAttr := false; v_defaultArg := false; v_canonicalType := $"unsigned long"; v_inTemplate := false; v_contexts := [CxObjCMethod true false false false; CxOther] |} None))] None)); (Node 13 [] (ObjCMethodDecl {| om_selector := $"numberWithLongLong:"; om_class := (Some $"NSNumber"); om_overriding := false; om_overridden := []; om_bodyLines := (0)%Z |} [(Node 14 [] (VarDecl {| v_isParm := true; v_name := $"value"; v_used := false; v_referenced := false; v_local := false; v_staticMember := false; v_private := false; v_unusedAttr := false; v_defaultArg := false; v_canonicalType := $"long long"; v_inTemplate := false; v_contexts := [CxObjCMethod true false false false; CxOther] |} None))] None)); (Node 15 [] (ObjCMethodDecl {| om_selector := $"numberWithUnsignedLongLong:"; om_class := (Some $"NSNumber"); om_overriding := false; om_overridden := []; om_bodyLines := (0)%Z |} [(Node 16 [] (VarDecl {| v_isParm := true; v_name := $"value"; v_used := false; v_referenced := false; v_local := false; v_staticMember := false; v_private := false; v_unusedAttr := false; v_defaultArg := false; v_canonicalType := $"unsigned long long"; v_inTemplate := false; v_contexts := [CxObjCMethod true false false false; CxOther] |} None))] None)); (Node 17 [] (ObjCMethodDecl {| om_selector := $"numberWithFloat:"; om_class := (Some $"NSNumber"); om_overriding := false; om_overridden := []; om_bodyLines := (0)%Z |} [(Node 18 [] (VarDecl {| v_isParm := true; v_name := $"value"; v_used := false; v_referenced := false; v_local := false; v_staticMember := false; v_private := false; v_unusedAttr := false; v_defaultArg := false; v_canonicalType := $"float"; v_inTemplate := false; v_contexts := [CxObjCMethod true false false false; CxOther] |} None))] None)); (Node 19 [] (ObjCMethodDecl {| om_selector := $"numberWithDouble:"; om_class := (Some $"NSNumber"); om_overriding := false; om_overridden := []; om_bodyLines := (0)%Z |} [(Node 20 [] (VarDecl {| v_isParm := true; v_name := $"value"; v_used := false; v_referenced := false; v_local := false; v_staticMember := false; v_private := false; v_unusedAttr := false; v_defaultArg := false; v_canonicalType := $"double"; v_inTemplate := false; v_contexts := [CxObjCMethod true false false false; CxOther] |} None))] None)); (Node 21 [] (ObjCMethodDecl {| om_selector := $"numberWithBool:"; om_class := (Some $"NSNumber"); om_overriding := false; om_overridden := []; om_bodyLines := (0)%Z |} [(Node 22 [] (VarDecl {| v_isParm := true; v_name := $"value"; v_used := false; v_referenced := false; v_local := false; v_staticMember := false; v_private := false; v_unusedAttr := false; v_defaultArg := false; v_canonicalType := $"signed char"; v_inTemplate := false; v_contexts := [CxObjCMethod true false false false; CxOther] |} None))] None)); (Node 23 [] (ObjCMethodDecl {| om_selector := $"numberWithUnsignedChar:"; om_class := (Some $"NSNumber"); om_overriding := false; om_overridden := []; om_bodyLines := (0)%Z |} [(Node 24 [] (VarDecl {| v_isParm := true; v_name := $"value"; v_used := false; v_referenced := false; v_local := false; v_staticMember := false; v_private := false; v_unusedAttr := false; v_defaultArg := false; v_canonicalType := $"unsigned char"; v_inTemplate := false; v_contexts := [CxObjCMethod true false false false; CxOther] |} None))] None))]))); (toplevel 25 (TFunction false), (Node 25 [] (FunctionDecl {| f_name := $"m"; f_method := None; f_isDefinition := true; f_bodyLines := (1)%Z |} [] (Some (Node 26 [] (CompoundStmt [(Node 27 [] (DeclStmt [(Node 28 [] (VarDecl {| v_isParm := false; v_name := $"fortyTwoDouble"; v_used := false; v_referenced := false; v_local := true; v_staticMember := false; v_private := false; v_unusedAttr := false; v_defaultArg := false; v_canonicalType := $"NSNumber *"; v_inTemplate := false; v_contexts := [CxFunction true true false] |} (Some (Node 29 $"NSNumber *" (ObjCMessageExpr {| ms_selector := $"numberWithDouble:"; ms_receiver := (RClass $"NSNumber"); ms_implicit := false; ms_interface := (Some $"NSNumber"); ms_method := (Some (Decl [] (Some (Method false None (InOther (Some NoCategory)))))); ms_methodClass := (Some $"NSNumber") |} None [(Node 30 $"double" (FloatingLiteral (4614256656551843652)%Z))])))))]))]))))))];
     ts_locs := [(2,1,2,21); (3,1,4,2); (5,1,17,2); (6,1,6,41); (6,31,6,36); (7,1,7,39); (7,30,7,34); (8,1,8,56); (8,38,8,51); (9,1,9,41); (9,31,9,36); (10,1,10,58); (10,39,10,53); (11,1,11,50); (11,35,11,45); (12,1,12,67); (12,43,12,62); (13,1,13,43); (13,32,13,38); (14,1,14,45); (14,33,14,40); (15,1,15,41); (15,31,15,36); (16,1,16,58); (16,39,16,53); (18,1,18,81); (18,10,18,81); (18,12,18,79); (18,12,18,78); (18,39,18,78); (18,66,18,66)]%Z;
     ts_evals := []; ts_same := []; ts_decls := []; ts_parents := [] |}.
Example ObjCBoxedExpressions_NumberWithDouble_holds : sorted_violations_of (shippedRule sh_ObjCBoxedExpressions) ObjCBoxedExpressions_NumberWithDouble = Some [].
Proof. vm_compute. reflexivity. Qed.

Definition ObjCBoxedExpressions_NumberWithBoxedDouble : testcase :=
  {| ts_lang := LObjC; ts_path := $"input.m"; ts_code := [];
     ts_comments := []; ts_conf := [];
     ts_tops := [(toplevel 0 (TOther), (Node 0 [] (OtherDecl []))); (toplevel 1 (TOther), (Node 1 [] (ObjCContainerDecl {| oc_kind := OKInterface; oc_name := $"NSObject"; oc_lines := (2)%Z; oc_ivars := 0; oc_methods := []; oc_classes := [$"NSObject"]; oc_superMethods := None |} []))); (toplevel 2 (TOther), (Node 2 [] (ObjCContainerDecl {| oc_kind := OKInterface; oc_name := $"NSNumber"; oc_lines := (13)%Z; oc_ivars := 0; oc_methods := [($"numberWithChar:", false); ($"numberWithInt:", false); ($"numberWithUnsignedInt:", false); ($"numberWithLong:", false); ($"numberWithUnsignedLong:", false); ($"numberWithLongLong:", false); ($"numberWithUnsignedLongLong:", false); ($"numberWithFloat:", false); ($"numberWithDouble:", false); ($"numberWithBool:", false); ($"numberWithUnsignedChar:", false)]; oc_classes := [$"NSNumber"; $"NSObject"]; oc_superMethods := (Some ($"NSObject", [])) |} [(Node 3 [] (ObjCMethodDecl {| om_selector := $"numberWithChar:"; om_class := (Some $"NSNumber"); om_overriding := false; om_overridden := []; om_bodyLines := (0)%Z |} [(Node 4 [] (VarDecl {| v_isParm := true; v_name := $"value"; v_used := false; v_referenced := false; v_local := false; v_staticMember := false; v_private := false; v_unusedAttr := false; v_defaultArg := false; v_canonicalType := $"char"; v_inTemplate := false; v_contexts := [CxObjCMethod true false false false; CxOther] |} None))] None)); (Node 5 [] (ObjCMethodDecl {| om_selector := $"numberWithInt:"; om_class := (Some $"NSNumber"); om_overriding := false; om_overridden := []; om_bodyLines := (0)%Z |} [(Node 6 [] (VarDecl {| v_isParm := true; v_name := $"value"; v_used := false; v_referenced := false; v_local := false; v_staticMember := false; v_private := false; v_unusedAttr := false; v_defaultArg := false; v_canonicalType := $"int"; v_inTemplate := false; v_contexts := [CxObjCMethod true false false false; CxOther] |} None))] None)); (Node 7 [] (ObjCMethodDecl {| om_selector := $"numberWithUnsignedInt:"; om_class := (Some $"NSNumber"); om_overriding := false; om_overridden := []; om_bodyLines := (0)%Z |} [(Node 8 [] (VarDecl {| v_isParm := true; v_name := $"value"; v_used := false; v_referenced := false; v_local := false; v_staticMember := false; v_private := false; v_unusedAttr := false; v_defaultArg := false; v_canonicalType := $"unsigned int"; v_inTemplate := false; v_contexts := [CxObjCMethod true false false false; CxOther] |} None))] None)); (Node 9 [] (ObjCMethodDecl {| om_selector := $"numberWithLong:"; om_class := (Some $"NSNumber"); om_overriding := false; om_overridden := []; om_bodyLines := (0)%Z |} [(Node 10 [] (VarDecl {| v_isParm := true; v_name := $"value"; v_used := false; v_referenced := false; v_local := false; v_staticMember := false; v_private := false; v_unusedAttr := false; v_defaultArg := false; v_canonicalType := $"long"; v_inTemplate := false; v_contexts := [CxObjCMethod true false false false; CxOther] |} None))] None)); (Node 11 [] (ObjCMethodDecl {| om_selector := $"numberWithUnsignedLong:"; om_class := (Some $"NSNumber"); om_overriding := false; om_overridden := []; om_bodyLines := (0)%Z |} [(Node 12 [] (VarDecl {| v_isParm := true; v_name := $"value"; v_used := false; v_referenced := false; v_local := false; v_staticMember := false; v_private := false; v_unusedAttr := false; v_defaultArg := false; v_canonicalType := $"unsigned long"; v_inTemplate := false; v_contexts := [CxObjCMethod true false false false; CxOther] |} None))] None)); (Node 13 [] (ObjCMethodDecl {| om_selector := $"numberWithLongLong:"; om_class := (Some $"NSNumber"); om_overriding := false; om_overridden := []; om_bodyLines := (0)%Z |} [(Node 14 [] (VarDecl {| v_isParm := true; v_name := $"value"; v_used := false; v_referenced := false; v_local := false; v_staticMember := false; v_private := false; v_unusedAttr := false; v_defaultArg := false; v_canonicalType := $"long long"; v_inTemplate := false; v_contexts := [CxObjCMethod true false false false; CxOther] |} None))] None)); (Node 15 [] (ObjCMethodDecl {| om_selector := $"numberWithUnsignedLongLong:"; om_class := (Some $"NSNumber"); om_overriding := false; om_overridden := []; om_bodyLines := (0)%Z |} [(Node 16 [] (VarDecl {| v_isParm := true; v_name := $"value"; v_used := false; v_referenced := false; v_local := false; v_staticMember := false; v_private := false; v_unusedAttr := false; v_defaultArg := false; v_canonicalType := $"unsigned long long"; v_inTemplate := false; v_contexts := [CxObjCMethod true false false false; CxOther] |} None))] None)); (Node 17 [] (ObjCMethodDecl {| om_selector := $"numberWithFloat:"; om_class := (Some $"NSNumber"); om_overriding := false; om_overridden := []; om_bodyLines := (0)%Z |} [(Node 18 [] (VarDecl {| v_isParm := true; v_name := $"value"; v_used := false; v_referenced := false; v_local := false; v_staticMember := false; v_private := false; v_unusedAttr := false; v_defaultArg := false; v_canonicalType := $"float"; v_inTemplate := false; v_contexts := [CxObjCMethod true false false false; CxOther] |} None))] None)); (Node 19 [] (ObjCMethodDecl {| om_selector := $"numberWithDouble:"; om_class := (Some $"NSNumber"); om_overriding := false; om_overridden := []; om_bodyLines := (0)%Z |} [(Node 20 [] (VarDecl {| v_isParm := true; v_name := $"value"; v_used := false; v_referenced := false; v_local := false; v_staticMember := false; v_private := false; v_unusedAttr := false; v_defaultArg := false; v_canonicalType := $"double"; v_inTemplate := false; v_contexts := [CxObjCMethod true false false false; CxOther] |} None))] None)); (Node 21 [] (ObjCMethodDecl {| om_selector := $"numberWithBool:"; om_class := (Some $"NSNumber"); om_overriding := false; om_overridden := []; om_bodyLines := (0)%Z |} [(Node 22 [] (VarDecl {| v_isParm := true; v_name := $"value"; v_used := false; v_referenced := false; v_local := false; v_staticMember := false; v_private := false; v_unusedAttr := false; v_defaultArg := false; v_canonicalType := $"signed char"; v_inTemplate := false; v_contexts := [CxObjCMethod true false false false; CxOther] |} None))] None)); (Node 23 [] (ObjCMethodDecl {| om_selector := $"numberWithUnsignedChar:"; om_class := (Some $"NSNumber"); om_overriding := false; om_overridden := []; om_bodyLines := (0)%Z |} [(Node 24 [] (VarDecl {| v_isParm := true; v_name := $"value"; v_used := false; v_referenced := false; v_local := false; v_staticMember := false; v_private := false; v_unusedAttr := false; v_defaultArg := false; v_canonicalType := $"unsigned char"; v_inTemplate := false; v_contexts := [CxObjCMethod true false false false; CxOther] |} None))] None))]))); (toplevel 25 (TFunction false), (Node 25 [] (FunctionDecl {| f_name := $"m"; f_method := None; f_isDefinition := true; f_bodyLines := (1)%Z |} [] (Some (Node 26 [] (CompoundStmt [(Node 27 [] (DeclStmt [(Node 28 [] (VarDecl {| v_isParm := false; v_name := $"fortyTwoDouble"; v_used := false; v_referenced := false; v_local := true; v_staticMember := false; v_private := false; v_unusedAttr := false; v_defaultArg := false; v_canonicalType := $"NSNumber *"; v_inTemplate := false; v_contexts := [CxFunction true true false] |} (Some (Node 29 $"NSNumber *" (ObjCMessageExpr {| ms_selector := $"numberWithDouble:"; ms_receiver := (RClass $"NSNumber"); ms_implicit := false; ms_interface := (Some $"NSNumber"); ms_method := (Some (Decl [] (Some (Method false None (InOther (Some NoCategory)))))); ms_methodClass := (Some $"NSNumber") |} None [(Node 30 $"double" (ParenExpr (Node 31 $"double" (BinaryOperator BO_Other (Node 32 $"double" (FloatingLiteral (4616349037210143650)%Z)) (Node 33 $"double" (FloatingLiteral (4607182418800017408)%Z))))))])))))]))]))))))];
     ts_locs := [(2,1,2,21); (3,1,4,2); (5,1,17,2); (6,1,6,41); (6,31,6,36); (7,1,7,39); (7,30,7,34); (8,1,8,56); (8,38,8,51); (9,1,9,41); (9,31,9,36); (10,1,10,58); (10,39,10,53); (11,1,11,50); (11,35,11,45); (12,1,12,67); (12,43,12,62); (13,1,13,43); (13,32,13,38); (14,1,14,45); (14,33,14,40); (15,1,15,41); (15,31,15,36); (16,1,16,58); (16,39,16,53); (18,1,18,89); (18,10,18,89); (18,12,18,87); (18,12,18,86); (18,39,18,86); (18,66,18,85); (18,67,18,82); (18,67,18,67); (18,82,18,82)]%Z;
     ts_evals := []; ts_same := []; ts_decls := []; ts_parents := [] |}.
Example ObjCBoxedExpressions_NumberWithBoxedDouble_holds : nth_violation (shippedRule sh_ObjCBoxedExpressions) ObjCBoxedExpressions_NumberWithBoxedDouble 0 = Some (18, 39, 18, 86, $"")%Z.
Proof. vm_compute. reflexivity. Qed.

Definition ObjCBoxedExpressions_BOOLYesLiteral_newBOOLDef : testcase :=
  {| ts_lang := LObjC; ts_path := $"input.m"; ts_code := [];
     ts_comments := []; ts_conf := [];
     ts_tops := [(toplevel 0 (TOther), (Node 0 [] (OtherDecl []))); (toplevel 1 (TOther), (Node 1 [] (ObjCContainerDecl {| oc_kind := OKInterface; oc_name := $"NSObject"; oc_lines := (2)%Z; oc_ivars := 0; oc_methods := []; oc_classes := [$"NSObject"]; oc_superMethods := None |} []))); (toplevel 2 (TOther), (Node 2 [] (ObjCContainerDecl {| oc_kind := OKInterface; oc_name := $"NSNumber"; oc_lines := (13)%Z; oc_ivars := 0; oc_methods := [($"numberWithChar:", false); ($"numberWithInt:", false); ($"numberWithUnsignedInt:", false); ($"numberWithLong:", false); ($"numberWithUnsignedLong:", false); ($"numberWithLongLong:", false); ($"numberWithUnsignedLongLong:", false); ($"numberWithFloat:", false); ($"numberWithDouble:", false); ($"numberWithBool:", false); ($"numberWithUnsignedChar:", false)]; oc_classes := [$"NSNumber"; $"NSObject"]; oc_superMethods := (Some ($"NSObject", [])) |} [(Node 3 [] (ObjCMethodDecl {| om_selector := $"numberWithChar:"; om_class := (Some $"NSNumber"); om_overriding := false; om_overridden := []; om_bodyLines := (0)%Z |} [(Node 4 [] (VarDecl {| v_isParm := true; v_name := $"value"; v_used := false; v_referenced := false; v_local := false; v_staticMember := false; v_private := false; v_unusedAttr := false; v_defaultArg := false; v_canonicalType := $"char"; v_inTemplate := false; v_contexts := [CxObjCMethod true false false false; CxOther] |} None))] None)); (Node 5 [] (ObjCMethodDecl {| om_selector := $"numberWithInt:"; om_class := (Some $"NSNumber"); om_overriding := false; om_overridden := []; om_bodyLines := (0)%Z |} [(Node 6 [] (VarDecl {| v_isParm := true; v_name := $"value"; v_used := false; v_referenced := false; v_local := false; v_staticMember := false; v_private := false; v_unusedAttr := false; v_defaultArg := false; v_canonicalType := $"int"; v_inTemplate := false; v_contexts := [CxObjCMethod true false false false; CxOther] |} None))] None)); (Node 7 [] (ObjCMethodDecl {| om_selector := $"numberWithUnsignedInt:"; om_class := (Some $"NSNumber"); om_overriding := false; om_overridden := []; om_bodyLines := (0)%Z |} [(Node 8 [] (VarDecl {| v_isParm := true; v_name := $"value"; v_used := false; v_referenced := false; v_local := false; v_staticMember := false; v_private := false; v_unusedAttr := false; v_defaultArg := false; v_canonicalType := $"unsigned int"; v_inTemplate := false; v_contexts := [CxObjCMethod true false false false; CxOther] |} None))] None)); (Node 9 [] (ObjCMethodDecl {| om_selector := $"numberWithLong:"; om_class := (Some $"NSNumber"); om_overriding := false; om_overridden := []; om_bodyLines := (0)%Z |} [(Node 10 [] (VarDecl {| v_isParm := true; v_name := $"value"; v_used := false; v_referenced := false; v_local := false; v_staticMember := false; v_private := false; v_unusedAttr := false; v_defaultArg := false; v_canonicalType := $"long"; v_inTemplate := false; v_contexts := [CxObjCMethod true false false false; CxOther] |} None))] None)); (Node 11 [] (ObjCMethodDecl {| om_selector := $"numberWithUnsignedLong:"; om_class := (Some $"NSNumber"); om_overriding := false; om_overridden := []; om_bodyLines := (0)%Z |} [(Node 12 [] (VarDecl {| v_isParm := true; v_name := $"value"; v_used := false; v_referenced := false; v_local := false; v_staticMember := false; v_private := false; v_unusedAttr := false; v_defaultArg := false; v_canonicalType := $"unsigned long"; v_inTemplate := false; v_contexts := [CxObjCMethod true false false false; CxOther] |} None))] None)); (Node 13 [] (ObjCMethodDecl {| om_selector := $"numberWithLongLong:"; om_class := (Some $"NSNumber"); om_overriding := false; om_overridden := []; om_bodyLines := (0)%Z |} [(Node 14 [] (VarDecl {| v_isParm := true; v_name := $"value"; v_used := false; v_referenced := false; v_local := false; v_staticMember := false; v_private := false; v_unusedAttr := false; v_defaultArg := false; v_canonicalType := $"long long"; v_inTemplate := false; v_contexts := [CxObjCMethod true false false false; CxOther] |} None))] None)); (Node 15 [] (ObjCMethodDecl {| om_selector := $"numberWithUnsignedLongLong:"; om_class := (Some $"NSNumber"); om_overriding := false; om_overridden := []; om_bodyLines := (0)%Z |} [(Node 16 [] (VarDecl {| v_isParm := true; v_name := $"value"; v_used := false; v_referenced := false; v_local := false; v_staticMember := false; v_private := false; v_unusedAttr := false; v_defaultArg := false; v_canonicalType := $"unsigned long long"; v_inTemplate := false; v_contexts := [CxObjCMethod true false false false; CxOther] |} None))] None)); (Node 17 [] (ObjCMethodDecl {| om_selector := $"numberWithFloat:"; om_class := (Some $"NSNumber"); om_overriding := false; om_overridden := []; om_bodyLines := (0)%Z |} [(Node 18 [] (VarDecl {| v_isParm := true; v_name := $"value"; v_used := false; v_referenced := false; v_local := false; v_staticMember := false; v_private := false; v_unusedAttr := false; v_defaultArg := false; v_canonicalType := $"float"; v_inTemplate := false; v_contexts := [CxObjCMethod true false false false; CxOther] |} None))] None)); (Node 19 [] (ObjCMethodDecl {| om_selector := $"numberWithDouble:"; om_class := (Some $"NSNumber"); om_overriding := false; om_overridden := []; om_bodyLines := (0)%Z |} [(Node 20 [] (VarDecl {| v_isParm := true; v_name := $"value"; v_used := false; v_referenced := false; v_local := false; v_staticMember := false; v_private := false; v_unusedAttr := false; v_defaultArg := false; v_canonicalType := $"double"; v_inTemplate := false; v_contexts := [CxObjCMethod true false false false; CxOther] |} None))] None)); (Node 21 [] (ObjCMethodDecl {| om_selector := $"numberWithBool:"; om_class := (Some $"NSNumber"); om_overriding := false; om_overridden := []; om_bodyLines := (0)%Z |} [(Node 22 [] (VarDecl {| v_isParm := true; v_name := $"value"; v_used := false; v_referenced := false; v_local := false; v_staticMember := false; v_private := false; v_unusedAttr := false; v_defaultArg := false; v_canonicalType := $"signed char"; v_inTemplate := false; v_contexts := [CxObjCMethod true false false false; CxOther] |} None))] None)); (Node 23 [] (ObjCMethodDecl {| om_selector := $"numberWithUnsignedChar:"; om_class := (Some $"NSNumber"); om_overriding := false; om_overridden := []; om_bodyLines := (0)%Z |} [(Node 24 [] (VarDecl {| v_isParm := true; v_name := $"value"; v_used := false; v_referenced := false; v_local := false; v_staticMember := false; v_private := false; v_unusedAttr := false; v_defaultArg := false; v_canonicalType := $"unsigned char"; v_inTemplate := false; v_contexts := [CxObjCMethod true false false false; CxOther] |} None))] None))]))); (toplevel 25 (TFunction false), (Node 25 [] (FunctionDecl {| f_name := $"m"; f_method := None; f_isDefinition := true; f_bodyLines := (1)%Z |} [] (Some (Node 26 [] (CompoundStmt [(Node 27 [] (DeclStmt [(Node 28 [] (VarDecl {| v_isParm := false; v_name := $"fortyTwoBOOL"; v_used := false; v_referenced := false; v_local := true; v_staticMember := false; v_private := false; v_unusedAttr := false; v_defaultArg := false; v_canonicalType := $"NSNumber *"; v_inTemplate := false; v_contexts := [CxFunction true true false] |} (Some (Node 29 $"NSNumber *" (OtherExpr [(Node 30 $"signed char" (ObjCBoolLiteralExpr true))])))))]))]))))))];
     ts_locs := [(2,1,2,21); (3,1,4,2); (5,1,17,2); (6,1,6,41); (6,31,6,36); (7,1,7,39); (7,30,7,34); (8,1,8,56); (8,38,8,51); (9,1,9,41); (9,31,9,36); (10,1,10,58); (10,39,10,53); (11,1,11,50); (11,35,11,45); (12,1,12,67); (12,43,12,62); (13,1,13,43); (13,32,13,38); (14,1,14,45); (14,33,14,40); (15,1,15,41); (15,31,15,36); (16,1,16,58); (16,39,16,53); (21,1,21,43); (21,10,21,43); (21,12,21,41); (21,12,21,38); (21,37,21,38); (21,38,21,38)]%Z;
     ts_evals := []; ts_same := []; ts_decls := []; ts_parents := [] |}.
Example ObjCBoxedExpressions_BOOLYesLiteral_newBOOLDef_holds : sorted_violations_of (shippedRule sh_ObjCBoxedExpressions) ObjCBoxedExpressions_BOOLYesLiteral_newBOOLDef = Some [].
Proof. vm_compute. reflexivity. Qed.

Definition ObjCBoxedExpressions_NumberWithBoolYes_newBOOLDef : testcase :=
  {| ts_lang := LObjC; ts_path := $"input.m"; ts_code := [];
     ts_comments := []; ts_conf := [];
     ts_tops := [(toplevel 0 (TOther), (Node 0 [] (OtherDecl []))); (toplevel 1 (TOther), (Node 1 [] (ObjCContainerDecl {| oc_kind := OKInterface; oc_name := $"NSObject"; oc_lines := (2)%Z; oc_ivars := 0; oc_methods := []; oc_classes := [$"NSObject"]; oc_superMethods := None |} []))); (toplevel 2 (TOther), (Node 2 [] (ObjCContainerDecl {| oc_kind := OKInterface; oc_name := $"NSNumber"; oc_lines := (13)%Z; oc_ivars := 0; oc_methods := [($"numberWithChar:", false); ($"numberWithInt:", false); ($"numberWithUnsignedInt:", false); ($"numberWithLong:", false); ($"numberWithUnsignedLong:", false); ($"numberWithLongLong:", false); ($"numberWithUnsignedLongLong:", false); ($"numberWithFloat:", false); ($"numberWithDouble:", false); ($"numberWithBool:", false); ($"numberWithUnsignedChar:", false)]; oc_classes := [$"NSNumber"; $"NSObject"]; oc_superMethods := (Some ($"NSObject", [])) |} [(Node 3 [] (ObjCMethodDecl {| om_selector := $"numberWithChar:"; om_class := (Some $"NSNumber"); om_overriding := false; om_overridden := []; om_bodyLines := (0)%Z |} [(Node 4 [] (VarDecl {| v_isParm := true; v_name := $"value"; v_used := false; v_referenced := false; v_local := false; v_staticMember := false; v_private := false; v_unusedAttr := false; v_defaultArg := false; v_canonicalType := $"char"; v_inTemplate := false; v_contexts := [CxObjCMethod true false false false; CxOther] |} None))] None)); (Node 5 [] (ObjCMethodDecl {| om_selector := $"numberWithInt:"; om_class := (Some $"NSNumber"); om_overriding := false; om_overridden := []; om_bodyLines := (0)%Z |} [(Node 6 [] (VarDecl {| v_isParm := true; v_name := $"value"; v_used := false; v_referenced := false; v_local := false; v_staticMember := false; v_private := false; v_unusedAttr := false; v_defaultArg := false; v_canonicalType := $"int"; v_inTemplate := false; v_contexts := [CxObjCMethod true false false false; CxOther] |} None))] None)); (Node 7 [] (ObjCMethodDecl {| om_selector := $"numberWithUnsignedInt:"; om_class := (Some $"NSNumber"); om_overriding := false; om_overridden := []; om_bodyLines := (0)%Z |} [(Node 8 [] (VarDecl {| v_isParm := true; v_name := $"value"; v_used := false; v_referenced := false; v_local := false; v_staticMember := false; v_private := false; v_unusedAttr := false; v_defaultArg := false; v_canonicalType := $"unsigned int"; v_inTemplate := false; v_contexts := [CxObjCMethod true false false false; CxOther] |} None))] None)); (Node 9 [] (ObjCMethodDecl {| om_selector := $"numberWithLong:"; om_class := (Some $"NSNumber"); om_overriding := false; om_overridden := []; om_bodyLines := (0)%Z |} [(Node 10 [] (VarDecl {| v_isParm := true; v_name := $"value"; v_used := false; v_referenced := false; v_local := false; v_staticMember := false; v_private := false; v_unusedAttr := false; v_defaultArg := false; v_canonicalType := $"long"; v_inTemplate := false; v_contexts := [CxObjCMethod true false false false; CxOther] |} None))] None)); (Node 11 [] (ObjCMethodDecl {| om_selector := $"numberWithUnsignedLong:"; om_class := (Some $"NSNumber"); om_overriding := false; om_overridden := []; om_bodyLines := (0)%Z |} [(Node 12 [] (VarDecl {| v_isParm := true; v_name := $"value"; v_used := false; v_referenced := false; v_local := false; v_staticMember := false; v_private := false; v_unusedAttr := false; v_defaultArg := false; v_canonicalType := $"unsigned long"; v_inTemplate := false; v_contexts := [CxObjCMethod true false false false; CxOther] |} None))] None)); (Node 13 [] (ObjCMethodDecl {| om_selector := $"numberWithLongLong:"; om_class := (Some $"NSNumber"); om_overriding := false; om_overridden := []; om_bodyLines := (0)%Z |} [(Node 14 [] (VarDecl {| v_isParm := true; v_name := $"value"; v_used := false; v_referenced := false; v_local := false; v_staticMember := false; v_private := false; v_unusedAttr := false; v_defaultArg := false; v_canonicalType := $"long long"; v_inTemplate := false; v_contexts := [CxObjCMethod true false false false; CxOther] |} None))] None)); (Node 15 [] (ObjCMethodDecl {| om_selector := $"numberWithUnsignedLongLong:"; om_class := (Some $"NSNumber"); om_overriding := false; om_overridden := []; om_bodyLines := (0)%Z |} [(Node 16 [] (VarDecl {| v_isParm := true; v_name := $"value"; v_used := false; v_referenced := false; v_local := false; v_staticMember := false; v_private := false; v_unusedAttr := false; v_defaultArg := false; v_canonicalType := $"unsigned long long"; v_inTemplate := false; v_contexts := [CxObjCMethod true false false false; CxOther] |} None))] None)); (Node 17 [] (ObjCMethodDecl {| om_selector := $"numberWithFloat:"; om_class := (Some $"NSNumber"); om_overriding := false; om_overridden := []; om_bodyLines := (0)%Z |} [(Node 18 [] (VarDecl {| v_isParm := true; v_name := $"value"; v_used := false; v_referenced := false; v_local := false; v_staticMember := false; v_private := false; v_unusedAttr := false; v_defaultArg := false; v_canonicalType := $"float"; v_inTemplate := false; v_contexts := [CxObjCMethod true false false false; CxOther] |} None))] None)); (Node 19 [] (ObjCMethodDecl {| om_selector := $"numberWithDouble:"; om_class := (Some $"NSNumber"); om_overriding := false; om_overridden := []; om_bodyLines := (0)%Z |} [(Node 20 [] (VarDecl {| v_isParm := true; v_name := $"value"; v_used := false; v_referenced := false; v_local := false; v_staticMember := false; v_private := false; v_unusedAttr := false; v_defaultArg := false; v_canonicalType := $"double"; v_inTemplate := false; v_contexts := [CxObjCMethod true false false false; CxOther] |} None))] None)); (Node 21 [] (ObjCMethodDecl {| om_selector := $"numberWithBool:"; om_class := (Some $"NSNumber"); om_overriding := false; om_overridden := []; om_bodyLines := (0)%Z |} [(Node 22 [] (VarDecl {| v_isParm := true; v_name := $"value"; v_used := false; v_referenced := false; v_local := false; v_staticMember := false; v_private := false; v_unusedAttr := false; v_defaultArg := false; v_canonicalType := $"signed char"; v_inTemplate := false; v_contexts := [CxObjCMethod true false false false; CxOther] |} None))] None)); (Node 23 [] (ObjCMethodDecl {| om_selector := $"numberWithUnsignedChar:"; om_class := (Some $"NSNumber"); om_overriding := false; om_overridden := []; om_bodyLines := (0)%Z |} [(Node 24 [] (VarDecl {| v_isParm := true; v_name := $"value"; v_used := false; v_referenced := false; v_local := false; v_staticMember := false; v_private := false; v_unusedAttr := false; v_defaultArg := false; v_canonicalType := $"unsigned char"; v_inTemplate := false; v_contexts := [CxObjCMethod true false false false; CxOther] |} None))] None))]))); (toplevel 25 (TFunction false), (Node 25 [] (FunctionDecl {| f_name := $"m"; f_method := None; f_isDefinition := true; f_bodyLines := (1)%Z |} [] (Some (Node 26 [] (CompoundStmt [(Node 27 [] (DeclStmt [(Node 28 [] (VarDecl {| v_isParm := false; v_name := $"fortyTwoBOOL"; v_used := false; v_referenced := false; v_local := true; v_staticMember := false; v_private := false; v_unusedAttr := false; v_defaultArg := false; v_canonicalType := $"NSNumber *"; v_inTemplate := false; v_contexts := [CxFunction true true false] |} (Some (Node 29 $"NSNumber *" (ObjCMessageExpr {| ms_selector := $"numberWithBool:"; ms_receiver := (RClass $"NSNumber"); ms_implicit := false; ms_interface := (Some $"NSNumber"); ms_method := (Some (Decl [] (Some (Method false None (InOther (Some NoCategory)))))); ms_methodClass := (Some $"NSNumber") |} None [(Node 30 $"signed char" (ObjCBoolLiteralExpr true))])))))]))]))))))];
     ts_locs := [(2,1,2,21); (3,1,4,2); (5,1,17,2); (6,1,6,41); (6,31,6,36); (7,1,7,39); (7,30,7,34); (8,1,8,56); (8,38,8,51); (9,1,9,41); (9,31,9,36); (10,1,10,58); (10,39,10,53); (11,1,11,50); (11,35,11,45); (12,1,12,67); (12,43,12,62); (13,1,13,43); (13,32,13,38); (14,1,14,45); (14,33,14,40); (15,1,15,41); (15,31,15,36); (16,1,16,58); (16,39,16,53); (21,1,21,68); (21,10,21,68); (21,12,21,66); (21,12,21,65); (21,37,21,65); (21,62,21,62)]%Z;
     ts_evals := []; ts_same := []; ts_decls := []; ts_parents := [] |}.
Example ObjCBoxedExpressions_NumberWithBoolYes_newBOOLDef_holds : sorted_violations_of (shippedRule sh_ObjCBoxedExpressions) ObjCBoxedExpressions_NumberWithBoolYes_newBOOLDef = Some [].
Proof. vm_compute. reflexivity. Qed.

Definition ObjCBoxedExpressions_NumberWithBoxedBOOLYes_newBOOLDef : testcase :=
  {| ts_lang := LObjC; ts_path := $"input.m"; ts_code := [];
     ts_comments := []; ts_conf := [];
     ts_tops := [(toplevel 0 (TOther), (Node 0 [] (OtherDecl []))); (toplevel 1 (TOther), (Node 1 [] (ObjCContainerDecl {| oc_kind := OKInterface; oc_name := $"NSObject"; oc_lines := (2)%Z; oc_ivars := 0; oc_methods := []; oc_classes := [$"NSObject"]; oc_superMethods := None |} []))); (toplevel 2 (TOther), (Node 2 [] (ObjCContainerDecl {| oc_kind := OKInterface; oc_name := $"NSNumber"; oc_lines := (13)%Z; oc_ivars := 0; oc_methods := [($"numberWithChar:", false); ($"numberWithInt:", false); ($"numberWithUnsignedInt:", false); ($"numberWithLong:", false); ($"numberWithUnsignedLong:", false); ($"numberWithLongLong:", false); ($"numberWithUnsignedLongLong:", false); ($"numberWithFloat:", false); ($"numberWithDouble:", false); ($"numberWithBool:", false); ($"numberWithUnsignedChar:", false)]; oc_classes := [$"NSNumber"; $"NSObject"]; oc_superMethods := (Some ($"NSObject", [])) |} [(Node 3 [] (ObjCMethodDecl {| om_selector := $"numberWithChar:"; om_class := (Some $"NSNumber"); om_overriding := false; om_overridden := []; om_bodyLines := (0)%Z |} [(Node 4 [] (VarDecl {| v_isParm := true; v_name := $"value"; v_used := false; v_referenced := false; v_local := false; v_staticMember := false; v_private := false; v_unusedAttr := false; v_defaultArg := false; v_canonicalType := $"char"; v_inTemplate := false; v_contexts := [CxObjCMethod true false false false; CxOther] |} None))] None)); (Node 5 [] (ObjCMethodDecl {| om_selector := $"numberWithInt:"; om_class := (Some $"NSNumber"); om_overriding := false; om_overridden := []; om_bodyLines := (0)%Z |} [(Node 6 [] (VarDecl {| v_isParm := true; v_name := $"value"; v_used := false; v_referenced := false; v_local := false; v_staticMember := false; v_private := false; v_unusedAttr := false; v_defaultArg := false; v_canonicalType := $"int"; v_inTemplate := false; v_contexts := [CxObjCMethod true false false false; CxOther] |} None))] None)); (Node 7 [] (ObjCMethodDecl {| om_selector := $"numberWithUnsignedInt:"; om_class := (Some $"NSNumber"); om_overriding := false; om_overridden := []; om_bodyLines := (0)%Z |} [(Node 8 [] (VarDecl {| v_isParm := true; v_name := $"value"; v_used := false; v_referenced := false; v_local := false; v_staticMember := false; v_private := false; v_unusedAttr := false; v_defaultArg := false; v_canonicalType := $"unsigned int"; v_inTemplate := false; v_contexts := [CxObjCMethod true false false false; CxOther] |} None))] None)); (Node 9 [] (ObjCMethodDecl {| om_selector := $"numberWithLong:"; om_class := (Some $"NSNumber"); om_overriding := false; om_overridden := []; om_bodyLines := (0)%Z |} [(Node 10 [] (VarDecl {| v_isParm := true; v_name := $"value"; v_used := false; v_referenced := false; v_local := false; v_staticMember := false; v_private := false; v_unusedAttr := false; v_defaultArg := false; v_canonicalType := $"long"; v_inTemplate := false; v_contexts := [CxObjCMethod true false false false; CxOther] |} None))] None)); (Node 11 [] (ObjCMethodDecl {| om_selector := $"numberWithUnsignedLong:"; om_class := (Some $"NSNumber"); om_overriding := false; om_overridden := []; om_bodyLines := (0)%Z |} [(Node 12 [] (VarDecl {| v_isParm := true; v_name := $"value"; v_used := false; v_referenced := false; v_local := false; v_staticMember := false; v_private := false; v_unusedAttr := false; v_defaultArg := false; v_canonicalType := $"unsigned long"; v_inTemplate := false; v_contexts := [CxObjCMethod true false false false; CxOther] |} None))] None)); (Node 13 [] (ObjCMethodDecl {| om_selector := $"numberWithLongLong:"; om_class := (Some $"NSNumber"); om_overriding := false; om_overridden := []; om_bodyLines := (0)%Z |} [(Node 14 [] (VarDecl {| v_isParm := true; v_name := $"value"; v_used := false; v_referenced := false; v_local := false; v_staticMember := false; v_private := false; v_unusedAttr := false; v_defaultArg := false; v_canonicalType := $"long long"; v_inTemplate := false; v_contexts := [CxObjCMethod true false false false; CxOther] |} None))] None)); (Node 15 [] (ObjCMethodDecl {| om_selector := $"numberWithUnsignedLongLong:"; om_class := (Some $"NSNumber"); om_overriding := false; om_overridden := []; om_bodyLines := (0)%Z |} [(Node 16 [] (VarDecl {| v_isParm := true; v_name := $"value"; v_used := false; v_referenced := false; v_local := false; v_staticMember := false; v_private := false; v_unusedAttr := false; v_defaultArg := false; v_canonicalType := $"unsigned long long"; v_inTemplate := false; v_contexts := [CxObjCMethod true false false false; CxOther] |} None))] None)); (Node 17 [] (ObjCMethodDecl {| om_selector := $"numberWithFloat:"; om_class := (Some $"NSNumber"); om_overriding := false; om_overridden := []; om_bodyLines := (0)%Z |} [(Node 18 [] (VarDecl {| v_isParm := true; v_name := $"value"; v_used := false; v_referenced := false; v_local := false; v_staticMember := false; v_private := false; v_unusedAttr := false; v_defaultArg := false; v_canonicalType := $"float"; v_inTemplate := false; v_contexts := [CxObjCMethod true false false false; CxOther] |} None))] None)); (Node 19 [] (ObjCMethodDecl {| om_selector := $"numberWithDouble:"; om_class := (Some $"NSNumber"); om_overriding := false; om_overridden := []; om_bodyLines := (0)%Z |} [(Node 20 [] (VarDecl {| v_isParm := true; v_name := $"value"; v_used := false; v_referenced := false; v_local := false; v_staticMember := false; v_private := false; v_unusedAttr := false; v_defaultArg := false; v_canonicalType := $"double"; v_inTemplate := false; v_contexts := [CxObjCMethod true false false false; CxOther] |} None))] None)); (Node 21 [] (ObjCMethodDecl {| om_selector := $"numberWithBool:"; om_class := (Some $"NSNumber"); om_overriding := false; om_overridden := []; om_bodyLines := (0)%Z |} [(Node 22 [] (VarDecl {| v_isParm := true; v_name := $"value"; v_used := false; v_referenced := false; v_local := false; v_staticMember := false; v_private := false; v_unusedAttr := false; v_defaultArg := false; v_canonicalType := $"signed char"; v_inTemplate := false; v_contexts := [CxObjCMethod true false false false; CxOther] |} None))] None)); (Node 23 [] (ObjCMethodDecl {| om_selector := $"numberWithUnsignedChar:"; om_class := (Some $"NSNumber"); om_overriding := false; om_overridden := []; om_bodyLines := (0)%Z |} [(Node 24 [] (VarDecl {| v_isParm := true; v_name := $"value"; v_used := false; v_referenced := false; v_local := false; v_staticMember := false; v_private := false; v_unusedAttr := false; v_defaultArg := false; v_canonicalType := $"unsigned char"; v_inTemplate := false; v_contexts := [CxObjCMethod true false false false; CxOther] |} None))] None))]))); (toplevel 25 (TFunction false), (Node 25 [] (FunctionDecl {| f_name := $"m"; f_method := None; f_isDefinition := true; f_bodyLines := (1)%Z |} [] (Some (Node 26 [] (CompoundStmt [(Node 27 [] (DeclStmt [(Node 28 [] (VarDecl {| v_isParm := false; v_name := $"fortyTwoBOOL"; v_used := false; v_referenced := false; v_local := true; v_staticMember := false; v_private := false; v_unusedAttr := false; v_defaultArg := false; v_canonicalType := $"NSNumber *"; v_inTemplate := false; v_contexts := [CxFunction true true false] |} (Some (Node 29 $"NSNumber *" (ObjCMessageExpr {| ms_selector := $"numberWithBool:"; ms_receiver := (RClass $"NSNumber"); ms_implicit := false; ms_interface := (Some $"NSNumber"); ms_method := (Some (Decl [] (Some (Method false None (InOther (Some NoCategory)))))); ms_methodClass := (Some $"NSNumber") |} None [(Node 30 $"BOOL" (ImplicitCastExpr CK_Other (Node 31 $"int" (ParenExpr (Node 32 $"int" (UnaryOperator UO_LNot (Node 33 $"signed char" (ObjCBoolLiteralExpr true))))))))])))))]))]))))))];
     ts_locs := [(2,1,2,21); (3,1,4,2); (5,1,17,2); (6,1,6,41); (6,31,6,36); (7,1,7,39); (7,30,7,34); (8,1,8,56); (8,38,8,51); (9,1,9,41); (9,31,9,36); (10,1,10,58); (10,39,10,53); (11,1,11,50); (11,35,11,45); (12,1,12,67); (12,43,12,62); (13,1,13,43); (13,32,13,38); (14,1,14,45); (14,33,14,40); (15,1,15,41); (15,31,15,36); (16,1,16,58); (16,39,16,53); (21,1,21,71); (21,10,21,71); (21,12,21,69); (21,12,21,68); (21,37,21,68); (21,62,21,67); (21,62,21,67); (21,63,21,64); (21,64,21,64)]%Z;
     ts_evals := []; ts_same := []; ts_decls := []; ts_parents := [] |}.
Example ObjCBoxedExpressions_NumberWithBoxedBOOLYes_newBOOLDef_holds : nth_violation (shippedRule sh_ObjCBoxedExpressions) ObjCBoxedExpressions_NumberWithBoxedBOOLYes_newBOOLDef 0 = Some (21, 37, 21, 68, $"")%Z.
Proof. vm_compute. reflexivity. Qed.

Definition ObjCBoxedExpressions_BOOLNoLiteral_newBOOLDef : testcase :=
  {| ts_lang := LObjC; ts_path := $"input.m"; ts_code := [];
     ts_comments := []; ts_conf := [];
     ts_tops := [(toplevel 0 (TOther), (Node 0 [] (OtherDecl []))); (toplevel 1 (TOther), (Node 1 [] (ObjCContainerDecl {| oc_kind := OKInterface; oc_name := $"NSObject"; oc_lines := (2)%Z; oc_ivars := 0; oc_methods := []; oc_classes := [$"NSObject"]; oc_superMethods := None |} []))); (toplevel 2 (TOther), (Node 2 [] (ObjCContainerDecl {| oc_kind := OKInterface; oc_name := $"NSNumber"; oc_lines := (13)%Z; oc_ivars := 0; oc_methods := [($"numberWithChar:", false); ($"numberWithInt:", false); ($"numberWithUnsignedInt:", false); ($"numberWithLong:", false); ($"numberWithUnsignedLong:", false); ($"numberWithLongLong:", false); ($"numberWithUnsignedLongLong:", false); ($"numberWithFloat:", false); ($"numberWithDouble:", false); ($"numberWithBool:", false); ($"numberWithUnsignedChar:", false)]; oc_classes := [$"NSNumber"; $"NSObject"]; oc_superMethods := (Some ($"NSObject", [])) |} [(Node 3 [] (ObjCMethodDecl {| om_selector := $"numberWithChar:"; om_class := (Some $"NSNumber"); om_overriding := false; om_overridden := []; om_bodyLines := (0)%Z |} [(Node 4 [] (VarDecl {| v_isParm := true; v_name := $"value"; v_used := false; v_referenced := false; v_local := false; v_staticMember := false; v_private := false; v_unusedAttr := false; v_defaultArg := false; v_canonicalType := $"char"; v_inTemplate := false; v_contexts := [CxObjCMethod true false false false; CxOther] |} None))] None)); (Node 5 [] (ObjCMethodDecl {| om_selector := $"numberWithInt:"; om_class := (Some $"NSNumber"); om_overriding := false; om_overridden := []; om_bodyLines := (0)%Z |} [(Node 6 [] (VarDecl {| v_isParm := true; v_name := $"value"; v_used := false; v_referenced := false; v_local := false; v_staticMember := false; v_private := false; v_unusedAttr := false; v_defaultArg := false; v_canonicalType := $"int"; v_inTemplate := false; v_contexts := [CxObjCMethod true false false false; CxOther] |} None))] None)); (Node 7 [] (ObjCMethodDecl {| om_selector := $"numberWithUnsignedInt:"; om_class := (Some $"NSNumber"); om_overriding := false; om_overridden := []; om_bodyLines := (0)%Z |} [(Node 8 [] (VarDecl {| v_isParm := true; v_name := $"value"; v_used := false; v_referenced := false; v_local := false; v_staticMember := false; v_private := false; v_unusedAttr := false; v_defaultArg := false; v_canonicalType := $"unsigned int"; v_inTemplate := false; v_contexts := [CxObjCMethod true false false false; CxOther] |} None))] None)); (Node 9 [] (ObjCMethodDecl {| om_selector := $"numberWithLong:"; om_class := (Some $"NSNumber"); om_overriding := false; om_overridden := []; om_bodyLines := (0)%Z |} [(Node 10 [] (VarDecl {| v_isParm := true; v_name := $"value"; v_used := false; v_referenced := false; v_local := false; v_staticMember := false; v_private := false; v_unusedAttr := false; v_defaultArg := false; v_canonicalType := $"long"; v_inTemplate := false; v_contexts := [CxObjCMethod true false false false; CxOther] |} None))] None)); (Node 11 [] (ObjCMethodDecl {| om_selector := $"numberWithUnsignedLong:"; om_class := (Some $"NSNumber"); om_overriding := false; om_overridden := []; om_bodyLines := (0)%Z |} [(Node 12 [] (VarDecl {| v_isParm := true; v_name := $"value"; v_used := false; v_referenced := false; v_local := false; v_staticMember := false; v_private := false; v_unusedAttr := false; v_defaultArg := false; v_canonicalType := $"unsigned long"; v_inTemplate := false; v_contexts := [CxObjCMethod true false false false; CxOther] |} None))] None)); (Node 13 [] (ObjCMethodDecl {| om_selector := $"numberWithLongLong:"; om_class := (Some $"NSNumber"); om_overriding := false; om_overridden := []; om_bodyLines := (0)%Z |} [(Node 14 [] (VarDecl {| v_isParm := true; v_name := $"value"; v_used := false; v_referenced := false; v_local := false; v_staticMember := false; v_private := false; v_unusedAttr := false; v_defaultArg := false; v_canonicalType := $"long long"; v_inTemplate := false; v_contexts := [CxObjCMethod true false false false; CxOther] |} None))] None)); (Node 15 [] (ObjCMethodDecl {| om_selector := $"numberWithUnsignedLongLong:"; om_class := (Some $"NSNumber"); om_overriding := false; om_overridden := []; om_bodyLines := (0)%Z |} [(Node 16 [] (VarDecl {| v_isParm := true; v_name := $"value"; v_used := false; v_referenced := false; v_local := false; v_staticMember := false; v_private := false; v_unusedAttr := false; v_defaultArg := false; v_canonicalType := $"unsigned long long"; v_inTemplate := false; v_contexts := [CxObjCMethod true false false false; CxOther] |} None))] None)); (Node 17 [] (ObjCMethodDecl {| om_selector := $"numberWithFloat:"; om_class := (Some $"NSNumber"); om_overriding := false; om_overridden := []; om_bodyLines := (0)%Z |} [(Node 18 [] (VarDecl {| v_isParm := true; v_name := $"value"; v_used := false; v_referenced := false; v_local := false; v_staticMember := false; v_private := false; v_unusedAttr := false; v_defaultArg := false; v_canonicalType := $"float"; v_inTemplate := false; v_contexts := [CxObjCMethod true false false false; CxOther] |} None))] None)); (Node 19 [] (ObjCMethodDecl {| om_selector := $"numberWithDouble:"; om_class := (Some $"NSNumber"); om_overriding := false; om_overridden := []; om_bodyLines := (0)%Z |} [(Node 20 [] (VarDecl {| v_isParm := true; v_name := $"value"; v_used := false; v_referenced := false; v_local := false; v_staticMember := false; v_private := false; v_unusedAttr := false; v_defaultArg := false; v_canonicalType := $"double"; v_inTemplate := false; v_contexts := [CxObjCMethod true false false false; CxOther] |} None))] None)); (Node 21 [] (ObjCMethodDecl {| om_selector := $"numberWithBool:"; om_class := (Some $"NSNumber"); om_overriding := false; om_overridden := []; om_bodyLines := (0)%Z |} [(Node 22 [] (VarDecl {| v_isParm := true; v_name := $"value"; v_used := false; v_referenced := false; v_local := false; v_staticMember := false; v_private := false; v_unusedAttr := false; v_defaultArg := false; v_canonicalType := $"signed char"; v_inTemplate := false; v_contexts := [CxObjCMethod true false false false; CxOther] |} None))] None)); (Node 23 [] (ObjCMethodDecl {| om_selector := $"numberWithUnsignedChar:"; om_class := (Some $"NSNumber"); om_overriding := false; om_overridden := []; om_bodyLines := (0)%Z |} [(Node 24 [] (VarDecl {| v_isParm := true; v_name := $"value"; v_used := false; v_referenced := false; v_local := false; v_staticMember := false; v_private := false; v_unusedAttr := false; v_defaultArg := false; v_canonicalType := $"unsigned char"; v_inTemplate := false; v_contexts := [CxObjCMethod true false false false; CxOther] |} None))] None))]))); (toplevel 25 (TFunction false), (Node 25 [] (FunctionDecl {| f_name := $"m"; f_method := None; f_isDefinition := true; f_bodyLines := (1)%Z |} [] (Some (Node 26 [] (CompoundStmt [(Node 27 [] (DeclStmt [(Node 28 [] (VarDecl {| v_isParm := false; v_name := $"fortyTwoBOOL"; v_used := false; v_referenced := false; v_local := true; v_staticMember := false; v_private := false; v_unusedAttr := false; v_defaultArg := false; v_canonicalType := $"NSNumber *"; v_inTemplate := false; v_contexts := [CxFunction true true false] |} (Some (Node 29 $"NSNumber *" (OtherExpr [(Node 30 $"signed char" (ObjCBoolLiteralExpr false))])))))]))]))))))];
     ts_locs := [(2,1,2,21); (3,1,4,2); (5,1,17,2); (6,1,6,41); (6,31,6,36); (7,1,7,39); (7,30,7,34); (8,1,8,56); (8,38,8,51); (9,1,9,41); (9,31,9,36); (10,1,10,58); (10,39,10,53); (11,1,11,50); (11,35,11,45); (12,1,12,67); (12,43,12,62); (13,1,13,43); (13,32,13,38); (14,1,14,45); (14,33,14,40); (15,1,15,41); (15,31,15,36); (16,1,16,58); (16,39,16,53); (21,1,21,42); (21,10,21,42); (21,12,21,40); (21,12,21,38); (21,37,21,38); (21,38,21,38)]%Z;
     ts_evals := []; ts_same := []; ts_decls := []; ts_parents := [] |}.
Example ObjCBoxedExpressions_BOOLNoLiteral_newBOOLDef_holds : sorted_violations_of (shippedRule sh_ObjCBoxedExpressions) ObjCBoxedExpressions_BOOLNoLiteral_newBOOLDef = Some [].
Proof. vm_compute. reflexivity. Qed.

Definition ObjCBoxedExpressions_NumberWithBoolNo_newBOOLDef : testcase :=
  {| ts_lang := LObjC; ts_path := $"input.m"; ts_code := [];
     ts_comments := []; ts_conf := [];
     ts_tops := [(toplevel 0 (TOther), (Node 0 [] (OtherDecl []))); (toplevel 1 (TOther), (Node 1 [] (ObjCContainerDecl {| oc_kind := OKInterface; oc_name := $"NSObject"; oc_lines := (2)%Z; oc_ivars := 0; oc_methods := []; oc_classes := [$"NSObject"]; oc_superMethods := None |} []))); (toplevel 2 (TOther), (Node 2 [] (ObjCContainerDecl {| oc_kind := OKInterface; oc_name := $"NSNumber"; oc_lines := (13)%Z; oc_ivars := 0; oc_methods := [($"numberWithChar:", false); ($"numberWithInt:", false); ($"numberWithUnsignedInt:", false); ($"numberWithLong:", false); ($"numberWithUnsignedLong:", false); ($"numberWithLongLong:", false); ($"numberWithUnsignedLongLong:", false); ($"numberWithFloat:", false); ($"numberWithDouble:", false); ($"numberWithBool:", false); ($"numberWithUnsignedChar:", false)]; oc_classes := [$"NSNumber"; $"NSObject"]; oc_superMethods := (Some ($"NSObject", [])) |} [(Node 3 [] (ObjCMethodDecl {| om_selector := $"numberWithChar:"; om_class := (Some $"NSNumber"); om_overriding := false; om_overridden := []; om_bodyLines := (0)%Z |} [(Node 4 [] (VarDecl {| v_isParm := true; v_name := $"value"; v_used := false; v_referenced := false; v_local := false; v_staticMember := false; v_private := false; v_unusedAttr := false; v_defaultArg := false; v_canonicalType := $"char"; v_inTemplate := false; v_contexts := [CxObjCMethod true false false false; CxOther] |} None))] None)); (Node 5 [] (ObjCMethodDecl {| om_selector := $"numberWithInt:"; om_class := (Some $"NSNumber"); om_overriding := false; om_overridden := []; om_bodyLines := (0)%Z |} [(Node 6 [] (VarDecl {| v_isParm := true; v_name := $"value"; v_used := false; v_referenced := false; v_local := false; v_staticMember := false; v_private := false; v_unusedAttr := false; v_defaultArg := false; v_canonicalType := $"int"; v_inTemplate := false; v_contexts := [CxObjCMethod true false false false; CxOther] |} None))] None)); (Node 7 [] (ObjCMethodDecl {| om_selector := $"numberWithUnsignedInt:"; om_class := (Some $"NSNumber"); om_overriding := false; om_overridden := []; om_bodyLines := (0)%Z |} [(Node 8 [] (VarDecl {| v_isParm := true; v_name := $"value"; v_used := false; v_referenced := false; v_local := false; v_staticMember := false; v_private := false; v_unusedAttr := false; v_defaultArg := false; v_canonicalType := $"unsigned int"; v_inTemplate := false; v_contexts := [CxObjCMethod true false false false; CxOther] |} None))] None)); (Node 9 [] (ObjCMethodDecl {| om_selector := $"numberWithLong:"; om_class := (Some $"NSNumber"); om_overriding := false; om_overridden := []; om_bodyLines := (0)%Z |} [(Node 10 [] (VarDecl {| v_isParm := true; v_name := $"value"; v_used := false; v_referenced := false; v_local := false; v_staticMember := false; v_private := false; v_unusedAttr := false; v_defaultArg := false; v_canonicalType := $"long"; v_inTemplate := false; v_contexts := [CxObjCMethod true false false false; CxOther] |} None))] None)); (Node 11 [] (ObjCMethodDecl {| om_selector := $"numberWithUnsignedLong:"; om_class := (Some $"NSNumber"); om_overriding := false; om_overridden := []; om_bodyLines := (0)%Z |} [(Node 12 [] (VarDecl {| v_isParm := true; v_name := $"value"; v_used := false; v_referenced := false; v_local := false; v_staticMember := false; v_private := false; v_unusedAttr := false; v_defaultArg := false; v_canonicalType := $"unsigned long"; v_inTemplate := false; v_contexts := [CxObjCMethod true false false false; CxOther] |} None))] None)); (Node 13 [] (ObjCMethodDecl {| om_selector := $"numberWithLongLong:"; om_class := (Some $"NSNumber"); om_overriding := false; om_overridden := []; om_bodyLines := (0)%Z |} [(Node 14 [] (VarDecl {| v_isParm := true; v_name := $"value"; v_used := false; v_referenced := false; v_local := false; v_staticMember := false; v_private := false; v_unusedAttr := false; v_defaultArg := false; v_canonicalType := $"long long"; v_inTemplate := false; v_contexts := [CxObjCMethod true false false false; CxOther] |} None))] None)); (Node 15 [] (ObjCMethodDecl {| om_selector := $"numberWithUnsignedLongLong:"; om_class := (Some $"NSNumber"); om_overriding := false; om_overridden := []; om_bodyLines := (0)%Z |} [(Node 16 [] (VarDecl {| v_isParm := true; v_name := $"value"; v_used := false; v_referenced := false; v_local := false; v_staticMember := false; v_private := false; v_unusedAttr := false; v_defaultArg := false; v_canonicalType := $"unsigned long long"; v_inTemplate := false; v_contexts := [CxObjCMethod true false false false; CxOther] |} None))] None)); (Node 17 [] (ObjCMethodDecl {| om_selector := $"numberWithFloat:"; om_class := (Some $"NSNumber"); om_overriding := false; om_overridden := []; om_bodyLines := (0)%Z |} [(Node 18 [] (VarDecl {| v_isParm := true; v_name := $"value"; v_used := false; v_referenced := false; v_local := false; v_staticMember := false; v_private := false; v_unusedAttr := false; v_defaultArg := false; v_canonicalType := $"float"; v_inTemplate := false; v_contexts := [CxObjCMethod true false false false; CxOther] |} None))] None)); (Node 19 [] (ObjCMethodDecl {| om_selector := $"numberWithDouble:"; om_class := (Some $"NSNumber"); om_overriding := false; om_overridden := []; om_bodyLines := (0)%Z |} [(Node 20 [] (VarDecl {| v_isParm := true; v_name := $"value"; v_used := false; v_referenced := false; v_local := false; v_staticMember := false; v_private := false; v_unusedAttr := false; v_defaultArg := false; v_canonicalType := $"double"; v_inTemplate := false; v_contexts := [CxObjCMethod true false false false; CxOther] |} None))] None)); (Node 21 [] (ObjCMethodDecl {| om_selector := $"numberWithBool:"; om_class := (Some $"NSNumber"); om_overriding := false; om_overridden := []; om_bodyLines := (0)%Z |} [(Node 22 [] (VarDecl {| v_isParm := true; v_name := $"value"; v_used := false; v_referenced := false; v_local := false; v_staticMember := false; v_private := false; v_unusedAttr := false; v_defaultArg := false; v_canonicalType := $"signed char"; v_inTemplate := false; v_contexts := [CxObjCMethod true false false false; CxOther] |} None))] None)); (Node 23 [] (ObjCMethodDecl {| om_selector := $"numberWithUnsignedChar:"; om_class := (Some $"NSNumber"); om_overriding := false; om_overridden := []; om_bodyLines := (0)%Z |} [(Node 24 [] (VarDecl {| v_isParm := true; v_name := $"value"; v_used := false; v_referenced := false; v_local := false; v_staticMember := false; v_private := false; v_unusedAttr := false; v_defaultArg := false; v_canonicalType := $"unsigned char"; v_inTemplate := false; v_contexts := [CxObjCMethod true false false false; CxOther] |} None))] None))]))); (toplevel 25 (TFunction false), (Node 25 [] (FunctionDecl {| f_name := $"m"; f_method := None; f_isDefinition := true; f_bodyLines := (1)%Z |} [] (Some (Node 26 [] (CompoundStmt [(Node 27 [] (DeclStmt [(Node 28 [] (VarDecl {| v_isParm := false; v_name := $"fortyTwoBOOL"; v_used := false; v_referenced := false; v_local := true; v_staticMember := false; v_private := false; v_unusedAttr := false; v_defaultArg := false; v_canonicalType := $"NSNumber *"; v_inTemplate := false; v_contexts := [CxFunction true true false] |} (Some (Node 29 $"NSNumber *" (ObjCMessageExpr {| ms_selector := $"numberWithBool:"; ms_receiver := (RClass $"NSNumber"); ms_implicit := false; ms_interface := (Some $"NSNumber"); ms_method := (Some (Decl [] (Some (Method false None (InOther (Some NoCategory)))))); ms_methodClass := (Some $"NSNumber") |} None [(Node 30 $"signed char" (ObjCBoolLiteralExpr false))])))))]))]))))))];
     ts_locs := [(2,1,2,21); (3,1,4,2); (5,1,17,2); (6,1,6,41); (6,31,6,36); (7,1,7,39); (7,30,7,34); (8,1,8,56); (8,38,8,51); (9,1,9,41); (9,31,9,36); (10,1,10,58); (10,39,10,53); (11,1,11,50); (11,35,11,45); (12,1,12,67); (12,43,12,62); (13,1,13,43); (13,32,13,38); (14,1,14,45); (14,33,14,40); (15,1,15,41); (15,31,15,36); (16,1,16,58); (16,39,16,53); (21,1,21,67); (21,10,21,67); (21,12,21,65); (21,12,21,64); (21,37,21,64); (21,62,21,62)]%Z;
     ts_evals := []; ts_same := []; ts_decls := []; ts_parents := [] |}.
Example ObjCBoxedExpressions_NumberWithBoolNo_newBOOLDef_holds : sorted_violations_of (shippedRule sh_ObjCBoxedExpressions) ObjCBoxedExpressions_NumberWithBoolNo_newBOOLDef = Some [].
Proof. vm_compute. reflexivity. Qed.

Definition ObjCBoxedExpressions_NumberWithBoxedBOOLNo_newBOOLDef : testcase :=
  {| ts_lang := LObjC; ts_path := $"input.m"; ts_code := [];
     ts_comments := []; ts_conf := [];
     ts_tops := [(toplevel 0 (TOther), (Node 0 [] (OtherDecl []))); (toplevel 1 (TOther), (Node 1 [] (ObjCContainerDecl {| oc_kind := OKInterface; oc_name := $"NSObject"; oc_lines := (2)%Z; oc_ivars := 0; oc_methods := []; oc_classes := [$"NSObject"]; oc_superMethods := None |} []))); (toplevel 2 (TOther), (Node 2 [] (ObjCContainerDecl {| oc_kind := OKInterface; oc_name := $"NSNumber"; oc_lines := (13)%Z; oc_ivars := 0; oc_methods := [($"numberWithChar:", false); ($"numberWithInt:", false); ($"numberWithUnsignedInt:", false); ($"numberWithLong:", false); ($"numberWithUnsignedLong:", false); ($"numberWithLongLong:", false); ($"numberWithUnsignedLongLong:", false); ($"numberWithFloat:", false); ($"numberWithDouble:", false); ($"numberWithBool:", false); ($"numberWithUnsignedChar:", false)]; oc_classes := [$"NSNumber"; $"NSObject"]; oc_superMethods := (Some ($"NSObject", [])) |} [(Node 3 [] (ObjCMethodDecl {| om_selector := $"numberWithChar:"; om_class := (Some $"NSNumber"); om_overriding := false; om_overridden := []; om_bodyLines := (0)%Z |} [(Node 4 [] (VarDecl {| v_isParm := true; v_name := $"value"; v_used := false; v_referenced := false; v_local := false; v_staticMember := false; v_private := false; v_unusedAttr := false; v_defaultArg := false; v_canonicalType := $"char"; v_inTemplate := false; v_contexts := [CxObjCMethod true false false false; CxOther] |} None))] None)); (Node 5 [] (ObjCMethodDecl {| om_selector := $"numberWithInt:"; om_class := (Some $"NSNumber"); om_overriding := false; om_overridden := []; om_bodyLines := (0)%Z |} [(Node 6 [] (VarDecl {| v_isParm := true; v_name := $"value"; v_used := false; v_referenced := false; v_local := false; v_staticMember := false; v_private := false; v_unusedAttr := false; v_defaultArg := false; v_canonicalType := $"int"; v_inTemplate := false; v_contexts := [CxObjCMethod true false false false; CxOther] |} None))] None)); (Node 7 [] (ObjCMethodDecl {| om_selector := $"numberWithUnsignedInt:"; om_class := (Some $"NSNumber"); om_overriding := false; om_overridden := []; om_bodyLines := (0)%Z |} [(Node 8 [] (VarDecl {| v_isParm := true; v_name := $"value"; v_used := false; v_referenced := false; v_local := false; v_staticMember := false; v_private := false; v_unusedAttr := false; v_defaultArg := false; v_canonicalType := $"unsigned int"; v_inTemplate := false; v_contexts := [CxObjCMethod true false false false; CxOther] |} None))] None)); (Node 9 [] (ObjCMethodDecl {| om_selector := $"numberWithLong:"; om_class := (Some $"NSNumber"); om_overriding := false; om_overridden := []; om_bodyLines := (0)%Z |} [(Node 10 [] (VarDecl {| v_isParm := true; v_name := $"value"; v_used := false; v_referenced := false; v_local := false; v_staticMember := false; v_private := false; v_unusedAttr := false; v_defaultArg := false; v_canonicalType := $"long"; v_inTemplate := false; v_contexts := [CxObjCMethod true false false false; CxOther] |} None))] None)); (Node 11 [] (ObjCMethodDecl {| om_selector := $"numberWithUnsignedLong:"; om_class := (Some $"NSNumber"); om_overriding := false; om_overridden := []; om_bodyLines := (0)%Z |} [(Node 12 [] (VarDecl {| v_isParm := true; v_name := $"value"; v_used := false; v_referenced := false; v_local := false; v_staticMember := false; v_private := false; v_unusedAttr := false; v_defaultArg := false; v_canonicalType := $"unsigned long"; v_inTemplate := false; v_contexts := [CxObjCMethod true false false false; CxOther] |} None))] None)); (Node 13 [] (ObjCMethodDecl {| om_selector := $"numberWithLongLong:"; om_class := (Some $"NSNumber"); om_overriding := false; om_overridden := []; om_bodyLines := (0)%Z |} [(Node 14 [] (VarDecl {| v_isParm := true; v_name := $"value"; v_used := false; v_referenced := false; v_local := false; v_staticMember := false; v_private := false; v_unusedAttr := false; v_defaultArg := false; v_canonicalType := $"long long"; v_inTemplate := false; v_contexts := [CxObjCMethod true false false false; CxOther] |} None))] None)); (Node 15 [] (ObjCMethodDecl {| om_selector := $"numberWithUnsignedLongLong:"; om_class := (Some $"NSNumber"); om_overriding := false; om_overridden := []; om_bodyLines := (0)%Z |} [(Node 16 [] (VarDecl {| v_isParm := true; v_name := $"value"; v_used := false; v_referenced := false; v_local := false; v_staticMember := false; v_private := false; v_unusedAttr := false; v_defaultArg := false; v_canonicalType := $"unsigned long long"; v_inTemplate := false; v_contexts := [CxObjCMethod true false false false; CxOther] |} None))] None)); (Node 17 [] (ObjCMethodDecl {| om_selector := $"numberWithFloat:"; om_class := (Some $"NSNumber"); om_overriding := false; om_overridden := []; om_bodyLines := (0)%Z |} [(Node 18 [] (VarDecl {| v_isParm := true; v_name := $"value"; v_used := false; v_referenced := false; v_local := false; v_staticMember := false; v_private := false; v_unusedAttr := false; v_defaultArg := false; v_canonicalType := $"float"; v_inTemplate := false; v_contexts := [CxObjCMethod true false false false; CxOther] |} None))] None)); (Node 19 [] (ObjCMethodDecl {| om_selector := $"numberWithDouble:"; om_class := (Some $"NSNumber"); om_overriding := false; om_overridden := []; om_bodyLines := (0)%Z |} [(Node 20 [] (VarDecl {| v_isParm := true; v_name := $"value"; v_used := false; v_referenced := false; v_local := false; v_staticMember := false; v_private := false; v_unusedAttr := false; v_defaultArg := false; v_canonicalType := $"double"; v_inTemplate := false; v_contexts := [CxObjCMethod true false false false; CxOther] |} None))] None)); (Node 21 [] (ObjCMethodDecl {| om_selector := $"numberWithBool:"; om_class := (Some $"NSNumber"); om_overriding := false; om_overridden := []; om_bodyLines := (0)%Z |} [(Node 22 [] (VarDecl {| v_isParm := true; v_name := $"value"; v_used := false; v_referenced := false; v_local := false; v_staticMember := false; v_private := false; v_unusedAttr := false; v_defaultArg := false; v_canonicalType := $"signed char"; v_inTemplate := false; v_contexts := [CxObjCMethod true false false false; CxOther] |} None))] None)); (Node 23 [] (ObjCMethodDecl {| om_selector := $"numberWithUnsignedChar:"; om_class := (Some $"NSNumber"); om_overriding := false; om_overridden := []; om_bodyLines := (0)%Z |} [(Node 24 [] (VarDecl {| v_isParm := true; v_name := $"value"; v_used := false; v_referenced := false; v_local := false; v_staticMember := false; v_private := false; v_unusedAttr := false; v_defaultArg := false; v_canonicalType := $"unsigned char"; v_inTemplate := false; v_contexts := [CxObjCMethod true false false false; CxOther] |} None))] None))]))); (toplevel 25 (TFunction false), (Node 25 [] (FunctionDecl {| f_name := $"m"; f_method := None; f_isDefinition := true; f_bodyLines := (1)%Z |} [] (Some (Node 26 [] (CompoundStmt [(Node 27 [] (DeclStmt [(Node 28 [] (VarDecl {| v_isParm := false; v_name := $"fortyTwoBOOL"; v_used := false; v_referenced := false; v_local := true; v_staticMember := false; v_private := false; v_unusedAttr := false; v_defaultArg := false; v_canonicalType := $"NSNumber *"; v_inTemplate := false; v_contexts := [CxFunction true true false] |} (Some (Node 29 $"NSNumber *" (ObjCMessageExpr {| ms_selector := $"numberWithBool:"; ms_receiver := (RClass $"NSNumber"); ms_implicit := false; ms_interface := (Some $"NSNumber"); ms_method := (Some (Decl [] (Some (Method false None (InOther (Some NoCategory)))))); ms_methodClass := (Some $"NSNumber") |} None [(Node 30 $"BOOL" (ImplicitCastExpr CK_Other (Node 31 $"int" (ParenExpr (Node 32 $"int" (UnaryOperator UO_LNot (Node 33 $"signed char" (ObjCBoolLiteralExpr false))))))))])))))]))]))))))];
     ts_locs := [(2,1,2,21); (3,1,4,2); (5,1,17,2); (6,1,6,41); (6,31,6,36); (7,1,7,39); (7,30,7,34); (8,1,8,56); (8,38,8,51); (9,1,9,41); (9,31,9,36); (10,1,10,58); (10,39,10,53); (11,1,11,50); (11,35,11,45); (12,1,12,67); (12,43,12,62); (13,1,13,43); (13,32,13,38); (14,1,14,45); (14,33,14,40); (15,1,15,41); (15,31,15,36); (16,1,16,58); (16,39,16,53); (21,1,21,70); (21,10,21,70); (21,12,21,68); (21,12,21,67); (21,37,21,67); (21,62,21,66); (21,62,21,66); (21,63,21,64); (21,64,21,64)]%Z;
     ts_evals := []; ts_same := []; ts_decls := []; ts_parents := [] |}.
Example ObjCBoxedExpressions_NumberWithBoxedBOOLNo_newBOOLDef_holds : nth_violation (shippedRule sh_ObjCBoxedExpressions) ObjCBoxedExpressions_NumberWithBoxedBOOLNo_newBOOLDef 0 = Some (21, 37, 21, 67, $"")%Z.
Proof. vm_compute. reflexivity. Qed.

Definition ObjCBoxedExpressions_BOOLYesLiteral_oldBOOLDef : testcase :=
  {| ts_lang := LObjC; ts_path := $"input.m"; ts_code := [];
     ts_comments := []; ts_conf := [];
     ts_tops := [(toplevel 0 (TOther), (Node 0 [] (OtherDecl []))); (toplevel 1 (TOther), (Node 1 [] (ObjCContainerDecl {| oc_kind := OKInterface; oc_name := $"NSObject"; oc_lines := (2)%Z; oc_ivars := 0; oc_methods := []; oc_classes := [$"NSObject"]; oc_superMethods := None |} []))); (toplevel 2 (TOther), (Node 2 [] (ObjCContainerDecl {| oc_kind := OKInterface; oc_name := $"NSNumber"; oc_lines := (13)%Z; oc_ivars := 0; oc_methods := [($"numberWithChar:", false); ($"numberWithInt:", false); ($"numberWithUnsignedInt:", false); ($"numberWithLong:", false); ($"numberWithUnsignedLong:", false); ($"numberWithLongLong:", false); ($"numberWithUnsignedLongLong:", false); ($"numberWithFloat:", false); ($"numberWithDouble:", false); ($"numberWithBool:", false); ($"numberWithUnsignedChar:", false)]; oc_classes := [$"NSNumber"; $"NSObject"]; oc_superMethods := (Some ($"NSObject", [])) |} [(Node 3 [] (ObjCMethodDecl {| om_selector := $"numberWithChar:"; om_class := (Some $"NSNumber"); om_overriding := false; om_overridden := []; om_bodyLines := (0)%Z |} [(Node 4 [] (VarDecl {| v_isParm := true; v_name := $"value"; v_used := false; v_referenced := false; v_local := false; v_staticMember := false; v_private := false; v_unusedAttr := false; v_defaultArg := false; v_canonicalType := $"char"; v_inTemplate := false; v_contexts := [CxObjCMethod true false false false; CxOther] |} None))] None)); (Node 5 [] (ObjCMethodDecl {| om_selector := $"numberWithInt:"; om_class := (Some $"NSNumber"); om_overriding := false; om_overridden := []; om_bodyLines := (0)%Z |} [(Node 6 [] (VarDecl {| v_isParm := true; v_name := $"value"; v_used := false; v_referenced := false; v_local := false; v_staticMember := false; v_private := false; v_unusedAttr := false; v_defaultArg := false; v_canonicalType := $"int"; v_inTemplate := false; v_contexts := [CxObjCMethod true false false false; CxOther] |} None))] None)); (Node 7 [] (ObjCMethodDecl {| om_selector := $"numberWithUnsignedInt:"; om_class := (Some $"NSNumber"); om_overriding := false; om_overridden := []; om_bodyLines := (0)%Z |} [(Node 8 [] (VarDecl {| v_isParm := true; v_name := $"value"; v_used := false; v_referenced := false; v_local := false; v_staticMember := false; v_private := false; v_unusedAttr := false; v_defaultArg := false; v_canonicalType := $"unsigned int"; v_inTemplate := false; v_contexts := [CxObjCMethod true false false false; CxOther] |} None))] None)); (Node 9 [] (ObjCMethodDecl {| om_selector := $"numberWithLong:"; om_class := (Some $"NSNumber"); om_overriding := false; om_overridden := []; om_bodyLines := (0)%Z |} [(Node 10 [] (VarDecl {| v_isParm := true; v_name := $"value"; v_used := false; v_referenced := false; v_local := false; v_staticMember := false; v_private := false; v_unusedAttr := false; v_defaultArg := false; v_canonicalType := $"long"; v_inTemplate := false; v_contexts := [CxObjCMethod true false false false; CxOther] |} None))] None)); (Node 11 [] (ObjCMethodDecl {| om_selector := $"numberWithUnsignedLong:"; om_class := (Some $"NSNumber"); om_overriding := false; om_overridden := []; om_bodyLines := (0)%Z |} [(Node 12 [] (VarDecl {| v_isParm := true; v_name := $"value"; v_used := false; v_referenced := false; v_local := false; v_staticMember := false; v_private := false; v_unusedAttr := false; v_defaultArg := false; v_canonicalType := $"unsigned long"; v_inTemplate := false; v_contexts := [CxObjCMethod true false false false; CxOther] |} None))] None)); (Node 13 [] (ObjCMethodDecl {| om_selector := $"numberWithLongLong:"; om_class := (Some $"NSNumber"); om_overriding := false; om_overridden := []; om_bodyLines := (0)%Z |} [(Node 14 [] (VarDecl {| v_isParm := true; v_name := $"value"; v_used := false; v_referenced := false; v_local := false; v_staticMember := false; v_private := false; v_unusedAttr := false; v_defaultArg := false; v_canonicalType := $"long long"; v_inTemplate := false; v_contexts := [CxObjCMethod true false false false; CxOther] |} None))] None)); (Node 15 [] (ObjCMethodDecl {| om_selector := $"numberWithUnsignedLongLong:"; om_class := (Some $"NSNumber"); om_overriding := false; om_overridden := []; om_bodyLines := (0)%Z |} [(Node 16 [] (VarDecl {| v_isParm := true; v_name := $"value"; v_used := false; v_referenced := false; v_local := false; v_staticMember := false; v_private := false; v_unusedAttr := false; v_defaultArg := false; v_canonicalType := $"unsigned long long"; v_inTemplate := false; v_contexts := [CxObjCMethod true false false false; CxOther] |} None))] None)); (Node 17 [] (ObjCMethodDecl {| om_selector := $"numberWithFloat:"; om_class := (Some $"NSNumber"); om_overriding := false; om_overridden := []; om_bodyLines := (0)%Z |} [(Node 18 [] (VarDecl {| v_isParm := true; v_name := $"value"; v_used := false; v_referenced := false; v_local := false; v_staticMember := false; v_private := false; v_unusedAttr := false; v_defaultArg := false; v_canonicalType := $"float"; v_inTemplate := false; v_contexts := [CxObjCMethod true false false false; CxOther] |} None))] None)); (Node 19 [] (ObjCMethodDecl {| om_selector := $"numberWithDouble:"; om_class := (Some $"NSNumber"); om_overriding := false; om_overridden := []; om_bodyLines := (0)%Z |} [(Node 20 [] (VarDecl {| v_isParm := true; v_name := $"value"; v_used := false; v_referenced := false; v_local := false; v_staticMember := false; v_private := false; v_unusedAttr := false; v_defaultArg := false; v_canonicalType := $"double"; v_inTemplate := false; v_contexts := [CxObjCMethod true false false false; CxOther] |} None))] None)); (Node 21 [] (ObjCMethodDecl {| om_selector := $"numberWithBool:"; om_class := (Some $"NSNumber"); om_overriding := false; om_overridden := []; om_bodyLines := (0)%Z |} [(Node 22 [] (VarDecl {| v_isParm := true; v_name := $"value"; v_used := false; v_referenced := false; v_local := false; v_staticMember := false; v_private := false; v_unusedAttr := false; v_defaultArg := false; v_canonicalType := $"signed char"; v_inTemplate := false; v_contexts := [CxObjCMethod true false false false; CxOther] |} None))] None)); (Node 23 [] (ObjCMethodDecl {| om_selector := $"numberWithUnsignedChar:"; om_class := (Some $"NSNumber"); om_overriding := false; om_overridden := []; om_bodyLines := (0)%Z |} [(Node 24 [] (VarDecl {| v_isParm := true; v_name := $"value"; v_used := false; v_referenced := false; v_local := false; v_staticMember := false; v_private := false; v_unusedAttr := false; v_defaultArg := false; v_canonicalType := $"unsigned char"; v_inTemplate := false; v_contexts := [CxObjCMethod true false false false; CxOther] |} None))] None))]))); (toplevel 25 (TFunction false), (Node 25 [] (FunctionDecl {| f_name := $"m"; f_method := None; f_isDefinition := true; f_bodyLines := (1)%Z |} [] (Some (Node 26 [] (CompoundStmt [(Node 27 [] (DeclStmt [(Node 28 [] (VarDecl {| v_isParm := false; v_name := $"fortyTwoBOOL"; v_used := false; v_referenced := false; v_local := true; v_staticMember := false; v_private := false; v_unusedAttr := false; v_defaultArg := false; v_canonicalType := $"NSNumber *"; v_inTemplate := false; v_contexts := [CxFunction true true false] |} (Some (Node 29 $"NSNumber *" (OtherExpr [(Node 30 $"BOOL" (ParenExpr (Node 31 $"BOOL" (CStyleCastExpr CK_Other (Node 32 $"int" (IntegerLiteral (1)%Z))))))])))))]))]))))))];
     ts_locs := [(2,1,2,21); (3,1,4,2); (5,1,17,2); (6,1,6,41); (6,31,6,36); (7,1,7,39); (7,30,7,34); (8,1,8,56); (8,38,8,51); (9,1,9,41); (9,31,9,36); (10,1,10,58); (10,39,10,53); (11,1,11,50); (11,35,11,45); (12,1,12,67); (12,43,12,62); (13,1,13,43); (13,32,13,38); (14,1,14,45); (14,33,14,40); (15,1,15,41); (15,31,15,36); (16,1,16,58); (16,39,16,53); (21,1,21,43); (21,10,21,43); (21,12,21,41); (21,12,21,38); (21,37,21,38); (21,38,21,38); (21,38,21,38); (21,38,21,38)]%Z;
     ts_evals := []; ts_same := []; ts_decls := []; ts_parents := [] |}.
Example ObjCBoxedExpressions_BOOLYesLiteral_oldBOOLDef_holds : sorted_violations_of (shippedRule sh_ObjCBoxedExpressions) ObjCBoxedExpressions_BOOLYesLiteral_oldBOOLDef = Some [].
Proof. vm_compute. reflexivity. Qed.

Definition ObjCBoxedExpressions_NumberWithBoolYes_oldBOOLDef : testcase :=
  {| ts_lang := LObjC; ts_path := $"input.m"; ts_code := [];
     ts_comments := []; ts_conf := [];
     ts_tops := [(toplevel 0 (TOther), (Node 0 [] (OtherDecl []))); (toplevel 1 (TOther), (Node 1 [] (ObjCContainerDecl {| oc_kind := OKInterface; oc_name := $"NSObject"; oc_lines := (2)%Z; oc_ivars := 0; oc_methods := []; oc_classes := [$"NSObject"]; oc_superMethods := None |} []))); (toplevel 2 (TOther), (Node 2 [] (ObjCContainerDecl {| oc_kind := OKInterface; oc_name := $"NSNumber"; oc_lines := (13)%Z; oc_ivars := 0; oc_methods := [($"numberWithChar:", false); ($"numberWithInt:", false); ($"numberWithUnsignedInt:", false); ($"numberWithLong:", false); ($"numberWithUnsignedLong:", false); ($"numberWithLongLong:", false); ($"numberWithUnsignedLongLong:", false); ($"numberWithFloat:", false); ($"numberWithDouble:", false); ($"numberWithBool:", false); ($"numberWithUnsignedChar:", false)]; oc_classes := [$"NSNumber"; $"NSObject"]; oc_superMethods := (Some ($"NSObject", [])) |} [(Node 3 [] (ObjCMethodDecl {| om_selector := $"numberWithChar:"; om_class := (Some $"NSNumber"); om_overriding := false; om_overridden := []; om_bodyLines := (0)%Z |} [(Node 4 [] (VarDecl {| v_isParm := true; v_name := $"value"; v_used := false; v_referenced := false; v_local := false; v_staticMember := false; v_private := false; v_unusedAttr := false; v_defaultArg := false; v_canonicalType := $"char"; v_inTemplate := false; v_contexts := [CxObjCMethod true false false false; CxOther] |} None))] None)); (Node 5 [] (ObjCMethodDecl {| om_selector := $"numberWithInt:"; om_class := (Some $"NSNumber"); om_overriding := false; om_overridden := []; om_bodyLines := (0)%Z |} [(Node 6 [] (VarDecl {| v_isParm := true; v_name := $"value"; v_used := false; v_referenced := false; v_local := false; v_staticMember := false; v_private := false; v_unusedAttr := false; v_defaultArg := false; v_canonicalType := $"int"; v_inTemplate := false; v_contexts := [CxObjCMethod true false false false; CxOther] |} None))] None)); (Node 7 [] (ObjCMethodDecl {| om_selector := $"numberWithUnsignedInt:"; om_class := (Some $"NSNumber"); om_overriding := false; om_overridden := []; om_bodyLines := (0)%Z |} [(Node 8 [] (VarDecl {| v_isParm := true; v_name := $"value"; v_used := false; v_referenced := false; v_local := false; v_staticMember := false; v_private := false; v_unusedAttr := false; v_defaultArg := false; v_canonicalType := $"unsigned int"; v_inTemplate := false; v_contexts := [CxObjCMethod true false false false; CxOther] |} None))] None)); (Node 9 [] (ObjCMethodDecl {| om_selector := $"numberWithLong:"; om_class := (Some $"NSNumber"); om_overriding := false; om_overridden := []; om_bodyLines := (0)%Z |} [(Node 10 [] (VarDecl {| v_isParm := true; v_name := $"value"; v_used := false; v_referenced := false; v_local := false; v_staticMember := false; v_private := false; v_unusedAttr := false; v_defaultArg := false; v_canonicalType := $"long"; v_inTemplate := false; v_contexts := [CxObjCMethod true false false false; CxOther] |} None))] None)); (Node 11 [] (ObjCMethodDecl {| om_selector := $"numberWithUnsignedLong:"; om_class := (Some $"NSNumber"); om_overriding := false; om_overridden := []; om_bodyLines := (0)%Z |} [(Node 12 [] (VarDecl {| v_isParm := true; v_name := $"value"; v_used := false; v_referenced := false; v_local := false; v_staticMember := false; v_private := false; v_unusedAttr := false; v_defaultArg := false; v_canonicalType := $"unsigned long"; v_inTemplate := false; v_contexts := [CxObjCMethod true false false false; CxOther] |} None))] None)); (Node 13 [] (ObjCMethodDecl {| om_selector := $"numberWithLongLong:"; om_class := (Some $"NSNumber"); om_overriding := false; om_overridden := []; om_bodyLines := (0)%Z |} [(Node 14 [] (VarDecl {| v_isParm := true; v_name := $"value"; v_used := false; v_referenced := false; v_local := false; v_staticMember := false; v_private := false; v_unusedAttr := false; v_defaultArg := false; v_canonicalType := $"long long"; v_inTemplate := false; v_contexts := [CxObjCMethod true false false false; CxOther] |} None))] None)); (Node 15 [] (ObjCMethodDecl {| om_selector := $"numberWithUnsignedLongLong:"; om_class := (Some $"NSNumber"); om_overriding := false; om_overridden := []; om_bodyLines := (0)%Z |} [(Node 16 [] (VarDecl {| v_isParm := true; v_name := $"value"; v_used := false; v_referenced := false; v_local := false; v_staticMember := false; v_private := false; v_unusedAttr := false; v_defaultArg := false; v_canonicalType := $"unsigned long long"; v_inTemplate := false; v_contexts := [CxObjCMethod true false false false; CxOther] |} None))] None)); (Node 17 [] (ObjCMethodDecl {| om_selector := $"numberWithFloat:"; om_class := (Some $"NSNumber"); om_overriding := false; om_overridden := []; om_bodyLines := (0)%Z |} [(Node 18 [] (VarDecl {| v_isParm := true; v_name := $"value"; v_used := false; v_referenced := false; v_local := false; v_staticMember := false; v_private := false; v_unusedAttr := false; v_defaultArg := false; v_canonicalType := $"float"; v_inTemplate := false; v_contexts := [CxObjCMethod true false false false; CxOther] |} None))] None)); (Node 19 [] (ObjCMethodDecl {| om_selector := $"numberWithDouble:"; om_class := (Some $"NSNumber"); om_overriding := false; om_overridden := []; om_bodyLines := (0)%Z |} [(Node 20 [] (VarDecl {| v_isParm := true; v_name := $"value"; v_used := false; v_referenced := false; v_local := false; v_staticMember := false; v_private := false; v_unusedAttr := false; v_defaultArg := false; v_canonicalType := $"double"; v_inTemplate := false; v_contexts := [CxObjCMethod true false false false; CxOther] |} None))] None)); (Node 21 [] (ObjCMethodDecl {| om_selector := $"numberWithBool:"; om_class := (Some $"NSNumber"); om_overriding := false; om_overridden := []; om_bodyLines := (0)%Z |} [(Node 22 [] (VarDecl {| v_isParm := true; v_name := $"value"; v_used := false; v_referenced := false; v_local := false; v_staticMember := false; v_private := false; v_unusedAttr := false; v_defaultArg := false; v_canonicalType := $"signed char"; v_inTemplate := false; v_contexts := [CxObjCMethod true false false false; CxOther] |} None))] None)); (Node 23 [] (ObjCMethodDecl {| om_selector := $"numberWithUnsignedChar:"; om_class := (Some $"NSNumber"); om_overriding := false; om_overridden := []; om_bodyLines := (0)%Z |} [(Node 24 [] (VarDecl {| v_isParm := true; v_name := $"value"; v_used := false; v_referenced := false; v_local := false; v_staticMember := false; v_private := false; v_unusedAttr := false; v_defaultArg := false; v_canonicalType := $"unsigned char"; v_inTemplate := false; v_contexts := [CxObjCMethod true false false false; CxOther] |} None))] None))]))); (toplevel 25 (TFunction false), (Node 25 [] (FunctionDecl {| f_name := $"m"; f_method := None; f_isDefinition := true; f_bodyLines := (1)%Z |} [] (Some (Node 26 [] (CompoundStmt [(Node 27 [] (DeclStmt [(Node 28 [] (VarDecl {| v_isParm := false; v_name := $"fortyTwoBOOL"; v_used := false; v_referenced := false; v_local := true; v_staticMember := false; v_private := false; v_unusedAttr := false; v_defaultArg := false; v_canonicalType := $"NSNumber *"; v_inTemplate := false; v_contexts := [CxFunction true true false] |} (Some (Node 29 $"NSNumber *" (ObjCMessageExpr {| ms_selector := $"numberWithBool:"; ms_receiver := (RClass $"NSNumber"); ms_implicit := false; ms_interface := (Some $"NSNumber"); ms_method := (Some (Decl [] (Some (Method false None (InOther (Some NoCategory)))))); ms_methodClass := (Some $"NSNumber") |} None [(Node 30 $"BOOL" (ParenExpr (Node 31 $"BOOL" (CStyleCastExpr CK_Other (Node 32 $"int" (IntegerLiteral (1)%Z))))))])))))]))]))))))];
     ts_locs := [(2,1,2,21); (3,1,4,2); (5,1,17,2); (6,1,6,41); (6,31,6,36); (7,1,7,39); (7,30,7,34); (8,1,8,56); (8,38,8,51); (9,1,9,41); (9,31,9,36); (10,1,10,58); (10,39,10,53); (11,1,11,50); (11,35,11,45); (12,1,12,67); (12,43,12,62); (13,1,13,43); (13,32,13,38); (14,1,14,45); (14,33,14,40); (15,1,15,41); (15,31,15,36); (16,1,16,58); (16,39,16,53); (21,1,21,68); (21,10,21,68); (21,12,21,66); (21,12,21,65); (21,37,21,65); (21,62,21,62); (21,62,21,62); (21,62,21,62)]%Z;
     ts_evals := []; ts_same := []; ts_decls := []; ts_parents := [] |}.
Example ObjCBoxedExpressions_NumberWithBoolYes_oldBOOLDef_holds : sorted_violations_of (shippedRule sh_ObjCBoxedExpressions) ObjCBoxedExpressions_NumberWithBoolYes_oldBOOLDef = Some [].
Proof. vm_compute. reflexivity. Qed.

Definition ObjCBoxedExpressions_NumberWithBoxedBOOLYes_oldBOOLDef : testcase :=
  {| ts_lang := LObjC; ts_path := $"input.m"; ts_code := [];
     ts_comments := []; ts_conf := [];
     ts_tops := [(toplevel 0 (TOther), (Node 0 [] (OtherDecl []))); (toplevel 1 (TOther), (Node 1 [] (ObjCContainerDecl {| oc_kind := OKInterface; oc_name := $"NSObject"; oc_lines := (2)%Z; oc_ivars := 0; oc_methods := []; oc_classes := [$"NSObject"]; oc_superMethods := None |} []))); (toplevel 2 (TOther), (Node 2 [] (ObjCContainerDecl {| oc_kind := OKInterface; oc_name := $"NSNumber"; oc_lines := (13)%Z; oc_ivars := 0; oc_methods := [($"numberWithChar:", false); ($"numberWithInt:", false); ($"numberWithUnsignedInt:", false); ($"numberWithLong:", false); ($"numberWithUnsignedLong:", false); ($"numberWithLongLong:", false); ($"numberWithUnsignedLongLong:", false); ($"numberWithFloat:", false); ($"numberWithDouble:", false); ($"numberWithBool:", false); ($"numberWithUnsignedChar:", false)]; oc_classes := [$"NSNumber"; $"NSObject"]; oc_superMethods := (Some ($"NSObject", [])) |} [(Node 3 [] (ObjCMethodDecl {| om_selector := $"numberWithChar:"; om_class := (Some $"NSNumber"); om_overriding := false; om_overridden := []; om_bodyLines := (0)%Z |} [(Node 4 [] (VarDecl {| v_isParm := true; v_name := $"value"; v_used := false; v_referenced := false; v_local := false; v_staticMember := false; v_private := false; v_unusedAttr := false; v_defaultArg := false; v_canonicalType := $"char"; v_inTemplate := false; v_contexts := [CxObjCMethod true false false false; CxOther] |} None))] None)); (Node 5 [] (ObjCMethodDecl {| om_selector := $"numberWithInt:"; om_class := (Some $"NSNumber"); om_overriding := false; om_overridden := []; om_bodyLines := (0)%Z |} [(Node 6 [] (VarDecl {| v_isParm := true; v_name := $"value"; v_used := false; v_referenced := false; v_local := false; v_staticMember := false; v_private := false; v_unusedAttr := false; v_defaultArg := false; v_canonicalType := $"int"; v_inTemplate := false; v_contexts := [CxObjCMethod true false false false; CxOther] |} None))] None)); (Node 7 [] (ObjCMethodDecl {| om_selector := $"numberWithUnsignedInt:"; om_class := (Some $"NSNumber"); om_overriding := false; om_overridden := []; om_bodyLines := (0)%Z |} [(Node 8 [] (VarDecl {| v_isParm := true; v_name := $"value"; v_used := false; v_referenced := false; v_local := false; v_staticMember := false; v_private := false; v_unusedAttr := false; v_defaultArg := false; v_canonicalType := $"unsigned int"; v_inTemplate := false; v_contexts := [CxObjCMethod true false false false; CxOther] |} None))] None)); (Node 9 [] (ObjCMethodDecl {| om_selector := $"numberWithLong:"; om_class := (Some $"NSNumber"); om_overriding := false; om_overridden := []; om_bodyLines := (0)%Z |} [(Node 10 [] (VarDecl {| v_isParm := true; v_name := $"value"; v_used := false; v_referenced := false; v_local := false; v_staticMember := false; v_private := false; v_unusedAttr := false; v_defaultArg := false; v_canonicalType := $"long"; v_inTemplate := false; v_contexts := [CxObjCMethod true false false false; CxOther] |} None))] None)); (Node 11 [] (ObjCMethodDecl {| om_selector := $"numberWithUnsignedLong:"; om_class := (Some $"NSNumber"); om_overriding := false; om_overridden := []; om_bodyLines := (0)%Z |} [(Node 12 [] (VarDecl {| v_isParm := true; v_name := $"value"; v_used := false; v_referenced := false; v_local := false; v_staticMember := false; v_private := false; v_unusedAttr := false; v_defaultArg := false; v_canonicalType := $"unsigned long"; v_inTemplate := false; v_contexts := [CxObjCMethod true false false false; CxOther] |} None))] None)); (Node 13 [] (ObjCMethodDecl {| om_selector := $"numberWithLongLong:"; om_class := (Some $"NSNumber"); om_overriding := false; om_overridden := []; om_bodyLines := (0)%Z |} [(Node 14 [] (VarDecl {| v_isParm := true; v_name := $"value"; v_used := false; v_referenced := false; v_local := false; v_staticMember := false; v_private := false; v_unusedAttr := false; v_defaultArg := false; v_canonicalType := $"long long"; v_inTemplate := false; v_contexts := [CxObjCMethod true false false false; CxOther] |} None))] None)); (Node 15 [] (ObjCMethodDecl {| om_selector := $"numberWithUnsignedLongLong:"; om_class := (Some $"NSNumber"); om_overriding := false; om_overridden := []; om_bodyLines := (0)%Z |} [(Node 16 [] (VarDecl {| v_isParm := true; v_name := $"value"; v_used := false; v_referenced := false; v_local := false; v_staticMember := false; v_private := false; v_unusedAttr := false; v_defaultArg := false; v_canonicalType := $"unsigned long long"; v_inTemplate := false; v_contexts := [CxObjCMethod true false false false; CxOther] |} None))] None)); (Node 17 [] (ObjCMethodDecl {| om_selector := $"numberWithFloat:"; om_class := (Some $"NSNumber"); om_overriding := false; om_overridden := []; om_bodyLines := (0)%Z |} [(Node 18 [] (VarDecl {| v_isParm := true; v_name := $"value"; v_used := false; v_referenced := false; v_local := false; v_staticMember := false; v_private := false; v_unusedAttr := false; v_defaultArg := false; v_canonicalType := $"float"; v_inTemplate := false; v_contexts := [CxObjCMethod true false false false; CxOther] |} None))] None)); (Node 19 [] (ObjCMethodDecl {| om_selector := $"numberWithDouble:"; om_class := (Some $"NSNumber"); om_overriding := false; om_overridden := []; om_bodyLines := (0)%Z |} [(Node 20 [] (VarDecl {| v_isParm := true; v_name := $"value"; v_used := false; v_referenced := false; v_local := false; v_staticMember := false; v_private := false; v_unusedAttr := false; v_defaultArg := false; v_canonicalType := $"double"; v_inTemplate := false; v_contexts := [CxObjCMethod true false false false; CxOther] |} None))] None)); (Node 21 [] (ObjCMethodDecl {| om_selector := $"numberWithBool:"; om_class := (Some $"NSNumber"); om_overriding := false; om_overridden := []; om_bodyLines := (0)%Z |} [(Node 22 [] (VarDecl {| v_isParm := true; v_name := $"value"; v_used := false; v_referenced := false; v_local := false; v_staticMember := false; v_private := false; v_unusedAttr := false; v_defaultArg := false; v_canonicalType := $"signed char"; v_inTemplate := false; v_contexts := [CxObjCMethod true false false false; CxOther] |} None))] None)); (Node 23 [] (ObjCMethodDecl {| om_selector := $"numberWithUnsignedChar:"; om_class := (Some $"NSNumber"); om_overriding := false; om_overridden := []; om_bodyLines := (0)%Z |} [(Node 24 [] (VarDecl {| v_isParm := true; v_name := $"value"; v_used := false; v_referenced := false; v_local := false; v_staticMember := false; v_private := false; v_unusedAttr := false; v_defaultArg := false; v_canonicalType := $"unsigned char"; v_inTemplate := false; v_contexts := [CxObjCMethod true false false false; CxOther] |} None))] None))]))); (toplevel 25 (TFunction false), (Node 25 [] (FunctionDecl {| f_name := $"m"; f_method := None; f_isDefinition := true; f_bodyLines := (1)%Z |} [] (Some (Node 26 [] (CompoundStmt [(Node 27 [] (DeclStmt [(Node 28 [] (VarDecl {| v_isParm := false; v_name := $"fortyTwoBOOL"; v_used := false; v_referenced := false; v_local := true; v_staticMember := false; v_private := false; v_unusedAttr := false; v_defaultArg := false; v_canonicalType := $"NSNumber *"; v_inTemplate := false; v_contexts := [CxFunction true true false] |} (Some (Node 29 $"NSNumber *" (ObjCMessageExpr {| ms_selector := $"numberWithBool:"; ms_receiver := (RClass $"NSNumber"); ms_implicit := false; ms_interface := (Some $"NSNumber"); ms_method := (Some (Decl [] (Some (Method false None (InOther (Some NoCategory)))))); ms_methodClass := (Some $"NSNumber") |} None [(Node 30 $"BOOL" (ImplicitCastExpr CK_Other (Node 31 $"int" (ParenExpr (Node 32 $"int" (UnaryOperator UO_LNot (Node 33 $"BOOL" (ParenExpr (Node 34 $"BOOL" (CStyleCastExpr CK_Other (Node 35 $"int" (IntegerLiteral (1)%Z))))))))))))])))))]))]))))))];
     ts_locs := [(2,1,2,21); (3,1,4,2); (5,1,17,2); (6,1,6,41); (6,31,6,36); (7,1,7,39); (7,30,7,34); (8,1,8,56); (8,38,8,51); (9,1,9,41); (9,31,9,36); (10,1,10,58); (10,39,10,53); (11,1,11,50); (11,35,11,45); (12,1,12,67); (12,43,12,62); (13,1,13,43); (13,32,13,38); (14,1,14,45); (14,33,14,40); (15,1,15,41); (15,31,15,36); (16,1,16,58); (16,39,16,53); (21,1,21,71); (21,10,21,71); (21,12,21,69); (21,12,21,68); (21,37,21,68); (21,62,21,67); (21,62,21,67); (21,63,21,64); (21,64,21,64); (21,64,21,64); (21,64,21,64)]%Z;
     ts_evals := []; ts_same := []; ts_decls := []; ts_parents := [] |}.
Example ObjCBoxedExpressions_NumberWithBoxedBOOLYes_oldBOOLDef_holds : nth_violation (shippedRule sh_ObjCBoxedExpressions) ObjCBoxedExpressions_NumberWithBoxedBOOLYes_oldBOOLDef 0 = Some (21, 37, 21, 68, $"")%Z.
Proof. vm_compute. reflexivity. Qed.

Definition ObjCBoxedExpressions_BOOLNoLiteral_oldBOOLDef : testcase :=
  {| ts_lang := LObjC; ts_path := $"input.m"; ts_code := [];
     ts_comments := []; ts_conf := [];
     ts_tops := [(toplevel 0 (TOther), (Node 0 [] (OtherDecl []))); (toplevel 1 (TOther), (Node 1 [] (ObjCContainerDecl {| oc_kind := OKInterface; oc_name := $"NSObject"; oc_lines := (2)%Z; oc_ivars := 0; oc_methods := []; oc_classes := [$"NSObject"]; oc_superMethods := None |} []))); (toplevel 2 (TOther), (Node 2 [] (ObjCContainerDecl {| oc_kind := OKInterface; oc_name := $"NSNumber"; oc_lines := (13)%Z; oc_ivars := 0; oc_methods := [($"numberWithChar:", false); ($"numberWithInt:", false); ($"numberWithUnsignedInt:", false); ($"numberWithLong:", false); ($"numberWithUnsignedLong:", false); ($"numberWithLongLong:", false); ($"numberWithUnsignedLongLong:", false); ($"numberWithFloat:", false); ($"numberWithDouble:", false); ($"numberWithBool:", false); ($"numberWithUnsignedChar:", false)]; oc_classes := [$"NSNumber"; $"NSObject"]; oc_superMethods := (Some ($"NSObject", [])) |} [(Node 3 [] (ObjCMethodDecl {| om_selector := $"numberWithChar:"; om_class := (Some $"NSNumber"); om_overriding := false; om_overridden := []; om_bodyLines := (0)%Z |} [(Node 4 [] (VarDecl {| v_isParm := true; v_name := $"value"; v_used := false; v_referenced := false; v_local := false; v_staticMember := false; v_private := false; v_unusedAttr := false; v_defaultArg := false; v_canonicalType := $"char"; v_inTemplate := false; v_contexts := [CxObjCMethod true false false false; CxOther] |} None))] None)); (Node 5 [] (ObjCMethodDecl {| om_selector := $"numberWithInt:"; om_class := (Some $"NSNumber"); om_overriding := false; om_overridden := []; om_bodyLines := (0)%Z |} [(Node 6 [] (VarDecl {| v_isParm := true; v_name := $"value"; v_used := false; v_referenced := false; v_local := false; v_staticMember := false; v_private := false; v_unusedAttr := false; v_defaultArg := false; v_canonicalType := $"int"; v_inTemplate := false; v_contexts := [CxObjCMethod true false false false; CxOther] |} None))] None)); (Node 7 [] (ObjCMethodDecl {| om_selector := $"numberWithUnsignedInt:"; om_class := (Some $"NSNumber"); om_overriding := false; om_overridden := []; om_bodyLines := (0)%Z |} [(Node 8 [] (VarDecl {| v_isParm := true; v_name := $"value"; v_used := false; v_referenced := false; v_local := false; v_staticMember := false; v_private := false; v_unusedAttr := false; v_defaultArg := false; v_canonicalType := $"unsigned int"; v_inTemplate := false; v_contexts := [CxObjCMethod true false false false; CxOther] |} None))] None)); (Node 9 [] (ObjCMethodDecl {| om_selector := $"numberWithLong:"; om_class := (Some $"NSNumber"); om_overriding := false; om_overridden := []; om_bodyLines := (0)%Z |} [(Node 10 [] (VarDecl {| v_isParm := true; v_name := $"value"; v_used := false; v_referenced := false; v_local := false; v_staticMember := false; v_private := false; v_unusedAttr := false; v_defaultArg := false; v_canonicalType := $"long"; v_inTemplate := false; v_contexts := [CxObjCMethod true false false false; CxOther] |} None))] None)); (Node 11 [] (ObjCMethodDecl {| om_selector := $"numberWithUnsignedLong:"; om_class := (Some $"NSNumber"); om_overriding := false; om_overridden := []; om_bodyLines := (0)%Z |} [(Node 12 [] (VarDecl {| v_isParm := true; v_name := $"value"; v_used := false; v_referenced := false; v_local := false; v_staticMember := false; v_private := false; v_unusedAttr := false; v_defaultArg := false; v_canonicalType := $"unsigned long"; v_inTemplate := false; v_contexts := [CxObjCMethod true false false false; CxOther] |} None))] None)); (Node 13 [] (ObjCMethodDecl {| om_selector := $"numberWithLongLong:"; om_class := (Some $"NSNumber"); om_overriding := false; om_overridden := []; om_bodyLines := (0)%Z |} [(Node 14 [] (VarDecl {| v_isParm := true; v_name := $"value"; v_used := false; v_referenced := false; v_local := false; v_staticMember := false; v_private := false; v_unusedAttr := false; v_defaultArg := false; v_canonicalType := $"long long"; v_inTemplate := false; v_contexts := [CxObjCMethod true false false false; CxOther] |} None))] None)); (Node 15 [] (ObjCMethodDecl {| om_selector := $"numberWithUnsignedLongLong:"; om_class := (Some $"NSNumber"); om_overriding := false; om_overridden := []; om_bodyLines := (0)%Z |} [(Node 16 [] (VarDecl {| v_isParm := true; v_name := $"value"; v_used := false; v_referenced := false; v_local := false; v_staticMember := false; v_private := false; v_unusedAttr := false; v_defaultArg := false; v_canonicalType := $"unsigned long long"; v_inTemplate := false; v_contexts := [CxObjCMethod true false false false; CxOther] |} None))] None)); (Node 17 [] (ObjCMethodDecl {| om_selector := $"numberWithFloat:"; om_class := (Some $"NSNumber"); om_overriding := false; om_overridden := []; om_bodyLines := (0)%Z |} [(Node 18 [] (VarDecl {| v_isParm := true; v_name := $"value"; v_used := false; v_referenced := false; v_local := false; v_staticMember := false; v_private := false; v_unusedAttr := false; v_defaultArg := false; v_canonicalType := $"float"; v_inTemplate := false; v_contexts := [CxObjCMethod true false false false; CxOther] |} None))] None)); (Node 19 [] (ObjCMethodDecl {| om_selector := $"numberWithDouble:"; om_class := (Some $"NSNumber"); om_overriding := false; om_overridden := []; om_bodyLines := (0)%Z |} [(Node 20 [] (VarDecl {| v_isParm := true; v_name := $"value"; v_used := false; v_referenced := false; v_local := false; v_staticMember := false; v_private := false; v_unusedAttr := false; v_defaultArg := false; v_canonicalType := $"double"; v_inTemplate := false; v_contexts := [CxObjCMethod true false false false; CxOther] |} None))] None)); (Node 21 [] (ObjCMethodDecl {| om_selector := $"numberWithBool:"; om_class := (Some $"NSNumber"); om_overriding := false; om_overridden := []; om_bodyLines := (0)%Z |} [(Node 22 [] (VarDecl {| v_isParm := true; v_name := $"value"; v_used := false; v_referenced := false; v_local := false; v_staticMember := false; v_private := false; v_unusedAttr := false; v_defaultArg := false; v_canonicalType := $"signed char"; v_inTemplate := false; v_contexts := [CxObjCMethod true false false false; CxOther] |} None))] None)); (Node 23 [] (ObjCMethodDecl {| om_selector := $"numberWithUnsignedChar:"; om_class := (Some $"NSNumber"); om_overriding := false; om_overridden := []; om_bodyLines := (0)%Z |} [(Node 24 [] (VarDecl {| v_isParm := true; v_name := $"value"; v_used := false; v_referenced := false; v_local := false; v_staticMember := false; v_private := false; v_unusedAttr := false; v_defaultArg := false; v_canonicalType := $"unsigned char"; v_inTemplate := false; v_contexts := [CxObjCMethod true false false false; CxOther] |} None))] None))]))); (toplevel 25 (TFunction false), (Node 25 [] (FunctionDecl {| f_name := $"m"; f_method := None; f_isDefinition := true; f_bodyLines := (1)%Z |} [] (Some (Node 26 [] (CompoundStmt [(Node 27 [] (DeclStmt [(Node 28 [] (VarDecl {| v_isParm := false; v_name := $"fortyTwoBOOL"; v_used := false; v_referenced := false; v_local := true; v_staticMember := false; v_private := false; v_unusedAttr := false; v_defaultArg := false; v_canonicalType := $"NSNumber *"; v_inTemplate := false; v_contexts := [CxFunction true true false] |} (Some (Node 29 $"NSNumber *" (OtherExpr [(Node 30 $"BOOL" (ParenExpr (Node 31 $"BOOL" (CStyleCastExpr CK_Other (Node 32 $"int" (IntegerLiteral (0)%Z))))))])))))]))]))))))];
     ts_locs := [(2,1,2,21); (3,1,4,2); (5,1,17,2); (6,1,6,41); (6,31,6,36); (7,1,7,39); (7,30,7,34); (8,1,8,56); (8,38,8,51); (9,1,9,41); (9,31,9,36); (10,1,10,58); (10,39,10,53); (11,1,11,50); (11,35,11,45); (12,1,12,67); (12,43,12,62); (13,1,13,43); (13,32,13,38); (14,1,14,45); (14,33,14,40); (15,1,15,41); (15,31,15,36); (16,1,16,58); (16,39,16,53); (21,1,21,42); (21,10,21,42); (21,12,21,40); (21,12,21,38); (21,37,21,38); (21,38,21,38); (21,38,21,38); (21,38,21,38)]%Z;
     ts_evals := []; ts_same := []; ts_decls := []; ts_parents := [] |}.
Example ObjCBoxedExpressions_BOOLNoLiteral_oldBOOLDef_holds : sorted_violations_of (shippedRule sh_ObjCBoxedExpressions) ObjCBoxedExpressions_BOOLNoLiteral_oldBOOLDef = Some [].
Proof. vm_compute. reflexivity. Qed.

Definition ObjCBoxedExpressions_NumberWithBoolNo_oldBOOLDef : testcase :=
  {| ts_lang := LObjC; ts_path := $"input.m"; ts_code := [];
     ts_comments := []; ts_conf := [];
     ts_tops := [(toplevel 0 (TOther), (Node 0 [] (OtherDecl []))); (toplevel 1 (TOther), (Node 1 [] (ObjCContainerDecl {| oc_kind := OKInterface; oc_name := $"NSObject"; oc_lines := (2)%Z; oc_ivars := 0; oc_methods := []; oc_classes := [$"NSObject"]; oc_superMethods := None |} []))); (toplevel 2 (TOther), (Node 2 [] (ObjCContainerDecl {| oc_kind := OKInterface; oc_name := $"NSNumber"; oc_lines := (13)%Z; oc_ivars := 0; oc_methods := [($"numberWithChar:", false); ($"numberWithInt:", false); ($"numberWithUnsignedInt:", false); ($"numberWithLong:", false); ($"numberWithUnsignedLong:", false); ($"numberWithLongLong:", false); ($"numberWithUnsignedLongLong:", false); ($"numberWithFloat:", false); ($"numberWithDouble:", false); ($"numberWithBool:", false); ($"numberWithUnsignedChar:", false)]; oc_classes := [$"NSNumber"; $"NSObject"]; oc_superMethods := (Some ($"NSObject", [])) |} [(Node 3 [] (ObjCMethodDecl {| om_selector := $"numberWithChar:"; om_class := (Some $"NSNumber"); om_overriding := false; om_overridden := []; om_bodyLines := (0)%Z |} [(Node 4 [] (VarDecl {| v_isParm := true; v_name := $"value"; v_used := false; v_referenced := false; v_local := false; v_staticMember := false; v_private := false; v_unusedAttr := false; v_defaultArg := false; v_canonicalType := $"char"; v_inTemplate := false; v_contexts := [CxObjCMethod true false false false; CxOther] |} None))] None)); (Node 5 [] (ObjCMethodDecl {| om_selector := $"numberWithInt:"; om_class := (Some $"NSNumber"); om_overriding := false; om_overridden := []; om_bodyLines := (0)%Z |} [(Node 6 [] (VarDecl {| v_isParm := true; v_name := $"value"; v_used := false; v_referenced := false; v_local := false; v_staticMember := false; v_private := false; v_unusedAttr := false; v_defaultArg := false; v_canonicalType := $"int"; v_inTemplate := false; v_contexts := [CxObjCMethod true false false false; CxOther] |} None))] None)); (Node 7 [] (ObjCMethodDecl {| om_selector := $"numberWithUnsignedInt:"; om_class := (Some $"NSNumber"); om_overriding := false; om_overridden := []; om_bodyLines := (0)%Z |} [(Node 8 [] (VarDecl {| v_isParm := true; v_name := $"value"; v_used := false; v_referenced := false; v_local := false; v_staticMember := false; v_private := false; v_unusedAttr := false; v_defaultArg := false; v_canonicalType := $"unsigned int"; v_inTemplate := false; v_contexts := [CxObjCMethod true false false false; CxOther] |} None))] None)); (Node 9 [] (ObjCMethodDecl {| om_selector := $"numberWithLong:"; om_class := (Some $"NSNumber"); om_overriding := false; om_overridden := []; om_bodyLines := (0)%Z |} [(Node 10 [] (VarDecl {| v_isParm := true; v_name := $"value"; v_used := false; v_referenced := false; v_local := false; v_staticMember := false; v_private := false; v_unusedAttr := false; v_defaultArg := false; v_canonicalType := $"long"; v_inTemplate := false; v_contexts := [CxObjCMethod true false false false; CxOther] |} None))] None)); (Node 11 [] (ObjCMethodDecl {| om_selector := $"numberWithUnsignedLong:"; om_class := (Some $"NSNumber"); om_overriding := false; om_overridden := []; om_bodyLines := (0)%Z |} [(Node 12 [] (VarDecl {| v_isParm := true; v_name := $"value"; v_used := false; v_referenced := false; v_local := false; v_staticMember := false; v_private := false; v_unusedAttr := false; v_defaultArg := false; v_canonicalType := $"unsigned long"; v_inTemplate := false; v_contexts := [CxObjCMethod true false false false; CxOther] |} None))] None)); (Node 13 [] (ObjCMethodDecl {| om_selector := $"numberWithLongLong:"; om_class := (Some $"NSNumber"); om_overriding := false; om_overridden := []; om_bodyLines := (0)%Z |} [(Node 14 [] (VarDecl {| v_isParm := true; v_name := $"value"; v_used := false; v_referenced := false; v_local := false; v_staticMember := false; v_private := false; v_unusedAttr := false; v_defaultArg := false; v_canonicalType := $"long long"; v_inTemplate := false; v_contexts := [CxObjCMethod true false false false; CxOther] |} None))] None)); (Node 15 [] (ObjCMethodDecl {| om_selector := $"numberWithUnsignedLongLong:"; om_class := (Some $"NSNumber"); om_overriding := false; om_overridden := []; om_bodyLines := (0)%Z |} [(Node 16 [] (VarDecl {| v_isParm := true; v_name := $"value"; v_used := false; v_referenced := false; v_local := false; v_staticMember := false; v_private := false; v_unusedAttr := false; v_defaultArg := false; v_canonicalType := $"unsigned long long"; v_inTemplate := false; v_contexts := [CxObjCMethod true false false false; CxOther] |} None))] None)); (Node 17 [] (ObjCMethodDecl {| om_selector := $"numberWithFloat:"; om_class := (Some $"NSNumber"); om_overriding := false; om_overridden := []; om_bodyLines := (0)%Z |} [(Node 18 [] (VarDecl {| v_isParm := true; v_name := $"value"; v_used := false; v_referenced := false; v_local := false; v_staticMember := false; v_private := false; v_unusedAttr := false; v_defaultArg := false; v_canonicalType := $"float"; v_inTemplate := false; v_contexts := [CxObjCMethod true false false false; CxOther] |} None))] None)); (Node 19 [] (ObjCMethodDecl {| om_selector := $"numberWithDouble:"; om_class := (Some $"NSNumber"); om_overriding := false; om_overridden := []; om_bodyLines := (0)%Z |} [(Node 20 [] (VarDecl {| v_isParm := true; v_name := $"value"; v_used := false; v_referenced := false; v_local := false; v_staticMember := false; v_private := false; v_unusedAttr := false; v_defaultArg := false; v_canonicalType := $"double"; v_inTemplate := false; v_contexts := [CxObjCMethod true false false false; CxOther] |} None))] None)); (Node 21 [] (ObjCMethodDecl {| om_selector := $"numberWithBool:"; om_class := (Some $"NSNumber"); om_overriding := false; om_overridden := []; om_bodyLines := (0)%Z |} [(Node 22 [] (VarDecl {| v_isParm := true; v_name := $"value"; v_used := false; v_referenced := false; v_local := false; v_staticMember := false; v_private := false; v_unusedAttr := false; v_defaultArg := false; v_canonicalType := $"signed char"; v_inTemplate := false; v_contexts := [CxObjCMethod true false false false; CxOther] |} None))] None)); (Node 23 [] (ObjCMethodDecl {| om_selector := $"numberWithUnsignedChar:"; om_class := (Some $"NSNumber"); om_overriding := false; om_overridden := []; om_bodyLines := (0)%Z |} [(Node 24 [] (VarDecl {| v_isParm := true; v_name := $"value"; v_used := false; v_referenced := false; v_local := false; v_staticMember := false; v_private := false; v_unusedAttr := false; v_defaultArg := false; v_canonicalType := $"unsigned char"; v_inTemplate := false; v_contexts := [CxObjCMethod true false false false; CxOther] |} None))] None))]))); (toplevel 25 (TFunction false), (Node 25 [] (FunctionDecl {| f_name := $"m"; f_method := None; f_isDefinition := true; f_bodyLines := (1)%Z |} [] (Some (Node 26 [] (CompoundStmt [(Node 27 [] (DeclStmt [(Node 28 [] (VarDecl {| v_isParm := false; v_name := $"fortyTwoBOOL"; v_used := false; v_referenced := false; v_local := true; v_staticMember := false; v_private := false; v_unusedAttr := false; v_defaultArg := false; v_canonicalType := $"NSNumber *"; v_inTemplate := false; v_contexts := [CxFunction true true false] |} (Some (Node 29 $"NSNumber *" (ObjCMessageExpr {| ms_selector := $"numberWithBool:"; ms_receiver := (RClass $"NSNumber"); ms_implicit := false; ms_interface := (Some $"NSNumber"); ms_method := (Some (Decl [] (Some (Method false None (InOther (Some NoCategory)))))); ms_methodClass := (Some $"NSNumber") |} None [(Node 30 $"BOOL" (ParenExpr (Node 31 $"BOOL" (CStyleCastExpr CK_Other (Node 32 $"int" (IntegerLiteral (0)%Z))))))])))))]))]))))))];
     ts_locs := [(2,1,2,21); (3,1,4,2); (5,1,17,2); (6,1,6,41); (6,31,6,36); (7,1,7,39); (7,30,7,34); (8,1,8,56); (8,38,8,51); (9,1,9,41); (9,31,9,36); (10,1,10,58); (10,39,10,53); (11,1,11,50); (11,35,11,45); (12,1,12,67); (12,43,12,62); (13,1,13,43); (13,32,13,38); (14,1,14,45); (14,33,14,40); (15,1,15,41); (15,31,15,36); (16,1,16,58); (16,39,16,53); (21,1,21,67); (21,10,21,67); (21,12,21,65); (21,12,21,64); (21,37,21,64); (21,62,21,62); (21,62,21,62); (21,62,21,62)]%Z;
     ts_evals := []; ts_same := []; ts_decls := []; ts_parents := [] |}.
Example ObjCBoxedExpressions_NumberWithBoolNo_oldBOOLDef_holds : sorted_violations_of (shippedRule sh_ObjCBoxedExpressions) ObjCBoxedExpressions_NumberWithBoolNo_oldBOOLDef = Some [].
Proof. vm_compute. reflexivity. Qed.

Definition ObjCBoxedExpressions_NumberWithBoxedBOOLNo_oldBOOLDef : testcase :=
  {| ts_lang := LObjC; ts_path := $"input.m"; ts_code := [];
     ts_comments := []; ts_conf := [];
     ts_tops := [(toplevel 0 (TOther), (Node 0 [] (OtherDecl []))); (toplevel 1 (TOther), (Node 1 [] (ObjCContainerDecl {| oc_kind := OKInterface; oc_name := $"NSObject"; oc_lines := (2)%Z; oc_ivars := 0; oc_methods := []; oc_classes := [$"NSObject"]; oc_superMethods := None |} []))); (toplevel 2 (TOther), (Node 2 [] (ObjCContainerDecl {| oc_kind := OKInterface; oc_name := $"NSNumber"; oc_lines := (13)%Z; oc_ivars := 0; oc_methods := [($"numberWithChar:", false); ($"numberWithInt:", false); ($"numberWithUnsignedInt:", false); ($"numberWithLong:", false); ($"numberWithUnsignedLong:", false); ($"numberWithLongLong:", false); ($"numberWithUnsignedLongLong:", false); ($"numberWithFloat:", false); ($"numberWithDouble:", false); ($"numberWithBool:", false); ($"numberWithUnsignedChar:", false)]; oc_classes := [$"NSNumber"; $"NSObject"]; oc_superMethods := (Some ($"NSObject", [])) |} [(Node 3 [] (ObjCMethodDecl {| om_selector := $"numberWithChar:"; om_class := (Some $"NSNumber"); om_overriding := false; om_overridden := []; om_bodyLines := (0)%Z |} [(Node 4 [] (VarDecl {| v_isParm := true; v_name := $"value"; v_used := false; v_referenced := false; v_local := false; v_staticMember := false; v_private := false; v_unusedAttr := false; v_defaultArg := false; v_canonicalType := $"char"; v_inTemplate := false; v_contexts := [CxObjCMethod true false false false; CxOther] |} None))] None)); (Node 5 [] (ObjCMethodDecl {| om_selector := $"numberWithInt:"; om_class := (Some $"NSNumber"); om_overriding := false; om_overridden := []; om_bodyLines := (0)%Z |} [(Node 6 [] (VarDecl {| v_isParm := true; v_name := $"value"; v_used := false; v_referenced := false; v_local := false; v_staticMember := false; v_private := false; v_unusedAttr := false; v_defaultArg := false; v_canonicalType := $"int"; v_inTemplate := false; v_contexts := [CxObjCMethod true false false false; CxOther] |} None))] None)); (Node 7 [] (ObjCMethodDecl {| om_selector := $"numberWithUnsignedInt:"; om_class := (Some $"NSNumber"); om_overriding := false; om_overridden := []; om_bodyLines := (0)%Z |} [(Node 8 [] (VarDecl {| v_isParm := true; v_name := $"value"; v_used := false; v_referenced := false; v_local := false; v_staticMember := false; v_private := false; v_unusedAttr := false; v_defaultArg := false; v_canonicalType := $"unsigned int"; v_inTemplate := false; v_contexts := [CxObjCMethod true false false false; CxOther] |} None))] None)); (Node 9 [] (ObjCMethodDecl {| om_selector := $"numberWithLong:"; om_class := (Some $"NSNumber"); om_overriding := false; om_overridden := []; om_bodyLines := (0)%Z |} [(Node 10 [] (VarDecl {| v_isParm := true; v_name := $"value"; v_used := false; v_referenced := false; v_local := false; v_staticMember := false; v_private := false; v_unusedAttr := false; v_defaultArg := false; v_canonicalType := $"long"; v_inTemplate := false; v_contexts := [CxObjCMethod true false false false; CxOther] |} None))] None)); (Node 11 [] (ObjCMethodDecl {| om_selector := $"numberWithUnsignedLong:"; om_class := (Some $"NSNumber"); om_overriding := false; om_overridden := []; om_bodyLines := (0)%Z |} [(Node 12 [] (VarDecl {| v_isParm := true; v_name := $"value"; v_used := false; v_referenced := false; v_local := false; v_staticMember := false; v_private := false; v_unusedAttr := false; v_defaultArg := false; v_canonicalType := $"unsigned long"; v_inTemplate := false; v_contexts := [CxObjCMethod true false false false; CxOther] |} None))] None)); (Node 13 [] (ObjCMethodDecl {| om_selector := $"numberWithLongLong:"; om_class := (Some $"NSNumber"); om_overriding := false; om_overridden := []; om_bodyLines := (0)%Z |} [(Node 14 [] (VarDecl {| v_isParm := true; v_name := $"value"; v_used := false; v_referenced := false; v_local := false; v_staticMember := false; v_private := false; v_unusedAttr := false; v_defaultArg := false; v_canonicalType := $"long long"; v_inTemplate := false; v_contexts := [CxObjCMethod true false false false; CxOther] |} None))] None)); (Node 15 [] (ObjCMethodDecl {| om_selector := $"numberWithUnsignedLongLong:"; om_class := (Some $"NSNumber"); om_overriding := false; om_overridden := []; om_bodyLines := (0)%Z |} [(Node 16 [] (VarDecl {| v_isParm := true; v_name := $"value"; v_used := false; v_referenced := false; v_local := false; v_staticMember := false; v_private := false; v_unusedAttr := false; v_defaultArg := false; v_canonicalType := $"unsigned long long"; v_inTemplate := false; v_contexts := [CxObjCMethod true false false false; CxOther] |} None))] None)); (Node 17 [] (ObjCMethodDecl {| om_selector := $"numberWithFloat:"; om_class := (Some $"NSNumber"); om_overriding := false; om_overridden := []; om_bodyLines := (0)%Z |} [(Node 18 [] (VarDecl {| v_isParm := true; v_name := $"value"; v_used := false; v_referenced := false; v_local := false; v_staticMember := false; v_private := false; v_unusedAttr := false; v_defaultArg := false; v_canonicalType := $"float"; v_inTemplate := false; v_contexts := [CxObjCMethod true false false false; CxOther] |} None))] None)); (Node 19 [] (ObjCMethodDecl {| om_selector := $"numberWithDouble:"; om_class := (Some $"NSNumber"); om_overriding := false; om_overridden := []; om_bodyLines := (0)%Z |} [(Node 20 [] (VarDecl {| v_isParm := true; v_name := $"value"; v_used := false; v_referenced := false; v_local := false; v_staticMember := false; v_private := false; v_unusedAttr := false; v_defaultArg := false; v_canonicalType := $"double"; v_inTemplate := false; v_contexts := [CxObjCMethod true false false false; CxOther] |} None))] None)); (Node 21 [] (ObjCMethodDecl {| om_selector := $"numberWithBool:"; om_class := (Some $"NSNumber"); om_overriding := false; om_overridden := []; om_bodyLines := (0)%Z |} [(Node 22 [] (VarDecl {| v_isParm := true; v_name := $"value"; v_used := false; v_referenced := false; v_local := false; v_staticMember := false; v_private := false; v_unusedAttr := false; v_defaultArg := false; v_canonicalType := $"signed char"; v_inTemplate := false; v_contexts := [CxObjCMethod true false false false; CxOther] |} None))] None)); (Node 23 [] (ObjCMethodDecl {| om_selector := $"numberWithUnsignedChar:"; om_class := (Some $"NSNumber"); om_overriding := false; om_overridden := []; om_bodyLines := (0)%Z |} [(Node 24 [] (VarDecl {| v_isParm := true; v_name := $"value"; v_used := false; v_referenced := false; v_local := false; v_staticMember := false; v_private := false; v_unusedAttr := false; v_defaultArg := false; v_canonicalType := $"unsigned char"; v_inTemplate := false; v_contexts := [CxObjCMethod true false false false; CxOther] |} None))] None))]))); (toplevel 25 (TFunction false), (Node 25 [] (FunctionDecl {| f_name := $"m"; f_method := None; f_isDefinition := true; f_bodyLines := (1)%Z |} [] (Some (Node 26 [] (CompoundStmt [(Node 27 [] (DeclStmt [(Node 28 [] (VarDecl {| v_isParm := false; v_name := $"fortyTwoBOOL"; v_used := false; v_referenced := false; v_local := true; v_staticMember := false; v_private := false; v_unusedAttr := false; v_defaultArg := false; v_canonicalType := $"NSNumber *"; v_inTemplate := false; v_contexts := [CxFunction true true false] |} (Some (Node 29 $"NSNumber *" (ObjCMessageExpr {| ms_selector := $"numberWithBool:"; ms_receiver := (RClass $"NSNumber"); ms_implicit := false; ms_interface := (Some $"NSNumber"); ms_method := (Some (Decl [] (Some (Method false None (InOther (Some NoCategory)))))); ms_methodClass := (Some $"NSNumber") |} None [(Node 30 $"BOOL" (ImplicitCastExpr CK_Other (Node 31 $"int" (ParenExpr (Node 32 $"int" (UnaryOperator UO_LNot (Node 33 $"BOOL" (ParenExpr (Node 34 $"BOOL" (CStyleCastExpr CK_Other (Node 35 $"int" (IntegerLiteral (0)%Z))))))))))))])))))]))]))))))];
     ts_locs := [(2,1,2,21); (3,1,4,2); (5,1,17,2); (6,1,6,41); (6,31,6,36); (7,1,7,39); (7,30,7,34); (8,1,8,56); (8,38,8,51); (9,1,9,41); (9,31,9,36); (10,1,10,58); (10,39,10,53); (11,1,11,50); (11,35,11,45); (12,1,12,67); (12,43,12,62); (13,1,13,43); (13,32,13,38); (14,1,14,45); (14,33,14,40); (15,1,15,41); (15,31,15,36); (16,1,16,58); (16,39,16,53); (21,1,21,70); (21,10,21,70); (21,12,21,68); (21,12,21,67); (21,37,21,67); (21,62,21,66); (21,62,21,66); (21,63,21,64); (21,64,21,64); (21,64,21,64); (21,64,21,64)]%Z;
     ts_evals := []; ts_same := []; ts_decls := []; ts_parents := [] |}.
Example ObjCBoxedExpressions_NumberWithBoxedBOOLNo_oldBOOLDef_holds : nth_violation (shippedRule sh_ObjCBoxedExpressions) ObjCBoxedExpressions_NumberWithBoxedBOOLNo_oldBOOLDef 0 = Some (21, 37, 21, 67, $"")%Z.
Proof. vm_compute. reflexivity. Qed.

Definition ObjCBoxedExpressions_NumberWithEnumBoxed : testcase :=
  {| ts_lang := LObjC; ts_path := $"input.m"; ts_code := [];
     ts_comments := []; ts_conf := [];
     ts_tops := [(toplevel 0 (TOther), (Node 0 [] (OtherDecl []))); (toplevel 1 (TOther), (Node 1 [] (ObjCContainerDecl {| oc_kind := OKInterface; oc_name := $"NSObject"; oc_lines := (2)%Z; oc_ivars := 0; oc_methods := []; oc_classes := [$"NSObject"]; oc_superMethods := None |} []))); (toplevel 2 (TOther), (Node 2 [] (ObjCContainerDecl {| oc_kind := OKInterface; oc_name := $"NSNumber"; oc_lines := (13)%Z; oc_ivars := 0; oc_methods := [($"numberWithChar:", false); ($"numberWithInt:", false); ($"numberWithUnsignedInt:", false); ($"numberWithLong:", false); ($"numberWithUnsignedLong:", false); ($"numberWithLongLong:", false); ($"numberWithUnsignedLongLong:", false); ($"numberWithFloat:", false); ($"numberWithDouble:", false); ($"numberWithBool:", false); ($"numberWithUnsignedChar:", false)]; oc_classes := [$"NSNumber"; $"NSObject"]; oc_superMethods := (Some ($"NSObject", [])) |} [(Node 3 [] (ObjCMethodDecl {| om_selector := $"numberWithChar:"; om_class := (Some $"NSNumber"); om_overriding := false; om_overridden := []; om_bodyLines := (0)%Z |} [(Node 4 [] (VarDecl {| v_isParm := true; v_name := $"value"; v_used := false; v_referenced := false; v_local := false; v_staticMember := false; v_private := false; v_unusedAttr := false; v_defaultArg := false; v_canonicalType := $"char"; v_inTemplate := false; v_contexts := [CxObjCMethod true false false false; CxOther] |} None))] None)); (Node 5 [] (ObjCMethodDecl {| om_selector := $"numberWithInt:"; om_class := (Some $"NSNumber"); om_overriding := false; om_overridden := []; om_bodyLines := (0)%Z |} [(Node 6 [] (VarDecl {| v_isParm := true; v_name := $"value"; v_used := false; v_referenced := false; v_local := false; v_staticMember := false; v_private := false; v_unusedAttr := false; v_defaultArg := false; v_canonicalType := $"int"; v_inTemplate := false; v_contexts := [CxObjCMethod true false false false; CxOther] |} None))] None)); (Node 7 [] (ObjCMethodDecl {| om_selector := $"numberWithUnsignedInt:"; om_class := (Some $"NSNumber"); om_overriding := false; om_overridden := []; om_bodyLines := (0)%Z |} [(Node 8 [] (VarDecl {| v_isParm := true; v_name := $"value"; v_used := false; v_referenced := false; v_local := false; v_staticMember := false; v_private := false; v_unusedAttr := false; v_defaultArg := false; v_canonicalType := $"unsigned int"; v_inTemplate := false; v_contexts := [CxObjCMethod true false false false; CxOther] |} None))] None)); (Node 9 [] (ObjCMethodDecl {| om_selector := $"numberWithLong:"; om_class := (Some $"NSNumber"); om_overriding := false; om_overridden := []; om_bodyLines := (0)%Z |} [(Node 10 [] (VarDecl {| v_isParm := true; v_name := $"value"; v_used := false; v_referenced := false; v_local := false; v_staticMember := false; v_private := false; v_unusedAttr := false; v_defaultArg := false; v_canonicalType := $"long"; v_inTemplate := false; v_contexts := [CxObjCMethod true false false false; CxOther] |} None))] None)); (Node 11 [] (ObjCMethodDecl {| om_selector := $"numberWithUnsignedLong:"; om_class := (Some $"NSNumber"); om_overriding := false; om_overridden := []; om_bodyLines := (0)%Z |} [(Node 12 [] (VarDecl {| v_isParm := true; v_name := $"value"; v_used := false; v_referenced := false; v_local := false; v_staticMember := false; v_private := false; v_unusedAttr := false; v_defaultArg := false; v_canonicalType := $"unsigned long"; v_inTemplate := false; v_contexts := [CxObjCMethod true false false false; CxOther] |} None))] None)); (Node 13 [] (ObjCMethodDecl {| om_selector := $"numberWithLongLong:"; om_class := (Some $"NSNumber"); om_overriding := false; om_overridden := []; om_bodyLines := (0)%Z |} [(Node 14 [] (VarDecl {| v_isParm := true; v_name := $"value"; v_used := false; v_referenced := false; v_local := false; v_staticMember := false; v_private := false; v_unusedAttr := false; v_defaultArg := false; v_canonicalType := $"long long"; v_inTemplate := false; v_contexts := [CxObjCMethod true false false false; CxOther] |} None))] None)); (Node 15 [] (ObjCMethodDecl {| om_selector := $"numberWithUnsignedLongLong:"; om_class := (Some $"NSNumber"); om_overriding := false; om_overridden := []; om_bodyLines := (0)%Z |} [(Node 16 [] (VarDecl {| v_isParm := true; v_name := $"value"; v_used := false; v_referenced := false; v_local := false; v_staticMember := false; v_private := false; v_unusedAttr := false; v_defaultArg := false; v_canonicalType := $"unsigned long long"; v_inTemplate := false; v_contexts := [CxObjCMethod true false false false; CxOther] |} None))] None)); (Node 17 [] (ObjCMethodDecl {| om_selector := $"numberWithFloat:"; om_class := (Some $"NSNumber"); om_overriding := false; om_overridden := []; om_bodyLines := (0)%Z |} [(Node 18 [] (VarDecl {| v_isParm := true; v_name := $"value"; v_used := false; v_referenced := false; v_local := false; v_staticMember := false; v_private := false; v_unusedAttr := false; v_defaultArg := false; v_canonicalType := $"float"; v_inTemplate := false; v_contexts := [CxObjCMethod true false false false; CxOther] |} None))] None)); (Node 19 [] (ObjCMethodDecl {| om_selector := $"numberWithDouble:"; om_class := (Some $"NSNumber"); om_overriding := false; om_overridden := []; om_bodyLines := (0)%Z |} [(Node 20 [] (VarDecl {| v_isParm := true; v_name := $"value"; v_used := false; v_referenced := false; v_local := false; v_staticMember := false; v_private := false; v_unusedAttr := false; v_defaultArg := false; v_canonicalType := $"double"; v_inTemplate := false; v_contexts := [CxObjCMethod true false false false; CxOther] |} None))] None)); (Node 21 [] (ObjCMethodDecl {| om_selector := $"numberWithBool:"; om_class := (Some $"NSNumber"); om_overriding := false; om_overridden := []; om_bodyLines := (0)%Z |} [(Node 22 [] (VarDecl {| v_isParm := true; v_name := $"value"; v_used := false; v_referenced := false; v_local := false; v_staticMember := false; v_private := false; v_unusedAttr := false; v_defaultArg := false; v_canonicalType := $"signed char"; v_inTemplate := false; v_contexts := [CxObjCMethod true false false false; CxOther] |} None))] None)); (Node 23 [] (ObjCMethodDecl {| om_selector := $"numberWithUnsignedChar:"; om_class := (Some $"NSNumber"); om_overriding := false; om_overridden := []; om_bodyLines := (0)%Z |} [(Node 24 [] (VarDecl {| v_isParm := true; v_name := $"value"; v_used := false; v_referenced := false; v_local := false; v_staticMember := false; v_private := false; v_unusedAttr := false; v_defaultArg := false; v_canonicalType := $"unsigned char"; v_inTemplate := false; v_contexts := [CxObjCMethod true false false false; CxOther] |} None))] None))]))); (toplevel 25 (TOther), (Node 25 [] (OtherDecl [(Node 26 [] (OtherDecl [])); (Node 27 [] (OtherDecl [])); (Node 28 [] (OtherDecl []))]))); (toplevel 29 (TOther), (Node 29 [] (OtherDecl []))); (toplevel 30 (TFunction false), (Node 30 [] (FunctionDecl {| f_name := $"m"; f_method := None; f_isDefinition := true; f_bodyLines := (1)%Z |} [] (Some (Node 31 [] (CompoundStmt [(Node 32 [] (DeclStmt [(Node 33 [] (VarDecl {| v_isParm := false; v_name := $"color"; v_used := false; v_referenced := false; v_local := true; v_staticMember := false; v_private := false; v_unusedAttr := false; v_defaultArg := false; v_canonicalType := $"NSNumber *"; v_inTemplate := false; v_contexts := [CxFunction true true false] |} (Some (Node 34 $"NSNumber *" (OtherExpr [(Node 35 $"int" (ParenExpr (Node 36 $"int" (DeclRefExpr 50 $"Green" true))))])))))]))]))))))];
     ts_locs := [(2,1,2,21); (3,1,4,2); (5,1,17,2); (6,1,6,41); (6,31,6,36); (7,1,7,39); (7,30,7,34); (8,1,8,56); (8,38,8,51); (9,1,9,41); (9,31,9,36); (10,1,10,58); (10,39,10,53); (11,1,11,50); (11,35,11,45); (12,1,12,67); (12,43,12,62); (13,1,13,43); (13,32,13,38); (14,1,14,45); (14,33,14,40); (15,1,15,41); (15,31,15,36); (16,1,16,58); (16,39,16,53); (18,9,18,33); (18,16,18,16); (18,21,18,21); (18,28,18,28); (18,1,18,35); (18,42,18,81); (18,51,18,81); (18,53,18,79); (18,53,18,78); (18,71,18,78); (18,72,18,78); (18,73,18,73)]%Z;
     ts_evals := []; ts_same := []; ts_decls := []; ts_parents := [] |}.
Example ObjCBoxedExpressions_NumberWithEnumBoxed_holds : sorted_violations_of (shippedRule sh_ObjCBoxedExpressions) ObjCBoxedExpressions_NumberWithEnumBoxed = Some [].
Proof. vm_compute. reflexivity. Qed.

Definition ObjCBoxedExpressions_NumberWithEnum : testcase :=
  {| ts_lang := LObjC; ts_path := $"input.m"; ts_code := [];
     ts_comments := []; ts_conf := [];
     ts_tops := [(toplevel 0 (TOther), (Node 0 [] (OtherDecl []))); (toplevel 1 (TOther), (Node 1 [] (ObjCContainerDecl {| oc_kind := OKInterface; oc_name := $"NSObject"; oc_lines := (2)%Z; oc_ivars := 0; oc_methods := []; oc_classes := [$"NSObject"]; oc_superMethods := None |} []))); (toplevel 2 (TOther), (Node 2 [] (ObjCContainerDecl {| oc_kind := OKInterface; oc_name := $"NSNumber"; oc_lines := (13)%Z; oc_ivars := 0; oc_methods := [($"numberWithChar:", false); ($"numberWithInt:", false); ($"numberWithUnsignedInt:", false); ($"numberWithLong:", false); ($"numberWithUnsignedLong:", false); ($"numberWithLongLong:", false); ($"numberWithUnsignedLongLong:", false); ($"numberWithFloat:", false); ($"numberWithDouble:", false); ($"numberWithBool:", false); ($"numberWithUnsignedChar:", false)]; oc_classes := [$"NSNumber"; $"NSObject"]; oc_superMethods := (Some ($"NSObject", [])) |} [(Node 3 [] (ObjCMethodDecl {| om_selector := $"numberWithChar:"; om_class := (Some $"NSNumber"); om_overriding := false; om_overridden := []; om_bodyLines := (0)%Z |} [(Node 4 [] (VarDecl {| v_isParm := true; v_name := $"value"; v_used := false; v_referenced := false; v_local := false; v_staticMember := false; v_private := false; v_unusedAttr := false; v_defaultArg := false; v_canonicalType := $"char"; v_inTemplate := false; v_contexts := [CxObjCMethod true false false false; CxOther] |} None))] None)); (Node 5 [] (ObjCMethodDecl {| om_selector := $"numberWithInt:"; om_class := (Some $"NSNumber"); om_overriding := false; om_overridden := []; om_bodyLines := (0)%Z |} [(Node 6 [] (VarDecl {| v_isParm := true; v_name := $"value"; v_used := false; v_referenced := false; v_local := false; v_staticMember := false; v_private := false; v_unusedAttr := false; v_defaultArg := false; v_canonicalType := $"int"; v_inTemplate := false; v_contexts := [CxObjCMethod true false false false; CxOther] |} None))] None)); (Node 7 [] (ObjCMethodDecl {| om_selector := $"numberWithUnsignedInt:"; om_class := (Some $"NSNumber"); om_overriding := false; om_overridden := []; om_bodyLines := (0)%Z |} [(Node 8 [] (VarDecl {| v_isParm := true; v_name := $"value"; v_used := false; v_referenced := false; v_local := false; v_staticMember := false; v_private := false; v_unusedAttr := false; v_defaultArg := false; v_canonicalType := $"unsigned int"; v_inTemplate := false; v_contexts := [CxObjCMethod true false false false; CxOther] |} None))] None)); (Node 9 [] (ObjCMethodDecl {| om_selector := $"numberWithLong:"; om_class := (Some $"NSNumber"); om_overriding := false; om_overridden := []; om_bodyLines := (0)%Z |} [(Node 10 [] (VarDecl {| v_isParm := true; v_name := $"value"; v_used := false; v_referenced := false; v_local := false; v_staticMember := false; v_private := false; v_unusedAttr := false; v_defaultArg := false; v_canonicalType := $"long"; v_inTemplate := false; v_contexts := [CxObjCMethod true false false false; CxOther] |} None))] None)); (Node 11 [] (ObjCMethodDecl {| om_selector := $"numberWithUnsignedLong:"; om_class := (Some $"NSNumber"); om_overriding := false; om_overridden := []; om_bodyLines := (0)%Z |} [(Node 12 [] (VarDecl {| v_isParm := true; v_name := $"value"; v_used := false; v_referenced := false; v_local := false; v_staticMember := false; v_private := false; v_unusedAttr := false; v_defaultArg := false; v_canonicalType := $"unsigned long"; v_inTemplate := false; v_contexts := [CxObjCMethod true false false false; CxOther] |} None))] None)); (Node 13 [] (ObjCMethodDecl {| om_selector := $"numberWithLongLong:"; om_class := (Some $"NSNumber"); om_overriding := false; om_overridden := []; om_bodyLines := (0)%Z |} [(Node 14 [] (VarDecl {| v_isParm := true; v_name := $"value"; v_used := false; v_referenced := false; v_local := false; v_staticMember := false; v_private := false; v_unusedAttr := false; v_defaultArg := false; v_canonicalType := $"long long"; v_inTemplate := false; v_contexts := [CxObjCMethod true false false false; CxOther] |} None))] None)); (Node 15 [] (ObjCMethodDecl {| om_selector := $"numberWithUnsignedLongLong:"; om_class := (Some $"NSNumber"); om_overriding := false; om_overridden := []; om_bodyLines := (0)%Z |} [(Node 16 [] (VarDecl {| v_isParm := true; v_name := $"value"; v_used := false; v_referenced := false; v_local := false; v_staticMember := false; v_private := false; v_unusedAttr := false; v_defaultArg := false; v_canonicalType := $"unsigned long long"; v_inTemplate := false; v_contexts := [CxObjCMethod true false false false; CxOther] |} None))] None)); (Node 17 [] (ObjCMethodDecl {| om_selector := $"numberWithFloat:"; om_class := (Some $"NSNumber"); om_overriding := false; om_overridden := []; om_bodyLines := (0)%Z |} [(Node 18 [] (VarDecl {| v_isParm := true; v_name := $"value"; v_used := false; v_referenced := false; v_local := false; v_staticMember := false; v_private := false; v_unusedAttr := false; v_defaultArg := false; v_canonicalType := $"float"; v_inTemplate := false; v_contexts := [CxObjCMethod true false false false; CxOther] |} None))] None)); (Node 19 [] (ObjCMethodDecl {| om_selector := $"numberWithDouble:"; om_class := (Some $"NSNumber"); om_overriding := false; om_overridden := []; om_bodyLines := (0)%Z |} [(Node 20 [] (VarDecl {| v_isParm := true; v_name := $"value"; v_used := false; v_referenced := false; v_local := false; v_staticMember := false; v_private := false; v_unusedAttr := false; v_defaultArg := false; v_canonicalType := $"double"; v_inTemplate := false; v_contexts := [CxObjCMethod true false false false; CxOther] |} None))] None)); (Node 21 [] (ObjCMethodDecl {| om_selector := $"numberWithBool:"; om_class := (Some $"NSNumber"); om_overriding := false; om_overridden := []; om_bodyLines := (0)%Z |} [(Node 22 [] (VarDecl {| v_isParm := true; v_name := $"value"; v_used := false; v_referenced := false; v_local := false; v_staticMember := false; v_private := false; v_unusedAttr := false; v_defaultArg := false; v_canonicalType := $"signed char"; v_inTemplate := false; v_contexts := [CxObjCMethod true false false false; CxOther] |} None))] None)); (Node 23 [] (ObjCMethodDecl {| om_selector := $"numberWithUnsignedChar:"; om_class := (Some $"NSNumber"); om_overriding := false; om_overridden := []; om_bodyLines := (0)%Z |} [(Node 24 [] (VarDecl {| v_isParm := true; v_name := $"value"; v_used := false; v_referenced := false; v_local := false; v_staticMember := false; v_private := false; v_unusedAttr := false; v_defaultArg := false; v_canonicalType := $"unsigned char"; v_inTemplate := false; v_contexts := [CxObjCMethod true false false false; CxOther] |} None))] None))]))); (toplevel 25 (TOther), (Node 25 [] (OtherDecl [(Node 26 [] (OtherDecl [])); (Node 27 [] (OtherDecl [])); (Node 28 [] (OtherDecl []))]))); (toplevel 29 (TOther), (Node 29 [] (OtherDecl []))); (toplevel 30 (TFunction false), (Node 30 [] (FunctionDecl {| f_name := $"m"; f_method := None; f_isDefinition := true; f_bodyLines := (1)%Z |} [] (Some (Node 31 [] (CompoundStmt [(Node 32 [] (DeclStmt [(Node 33 [] (VarDecl {| v_isParm := false; v_name := $"color"; v_used := false; v_referenced := false; v_local := true; v_staticMember := false; v_private := false; v_unusedAttr := false; v_defaultArg := false; v_canonicalType := $"NSNumber *"; v_inTemplate := false; v_contexts := [CxFunction true true false] |} (Some (Node 34 $"NSNumber *" (ObjCMessageExpr {| ms_selector := $"numberWithInt:"; ms_receiver := (RClass $"NSNumber"); ms_implicit := false; ms_interface := (Some $"NSNumber"); ms_method := (Some (Decl [] (Some (Method false None (InOther (Some NoCategory)))))); ms_methodClass := (Some $"NSNumber") |} None [(Node 35 $"int" (DeclRefExpr 49 $"Green" true))])))))]))]))))))];
     ts_locs := [(2,1,2,21); (3,1,4,2); (5,1,17,2); (6,1,6,41); (6,31,6,36); (7,1,7,39); (7,30,7,34); (8,1,8,56); (8,38,8,51); (9,1,9,41); (9,31,9,36); (10,1,10,58); (10,39,10,53); (11,1,11,50); (11,35,11,45); (12,1,12,67); (12,43,12,62); (13,1,13,43); (13,32,13,38); (14,1,14,45); (14,33,14,40); (15,1,15,41); (15,31,15,36); (16,1,16,58); (16,39,16,53); (18,9,18,33); (18,16,18,16); (18,21,18,21); (18,28,18,28); (18,1,18,35); (18,42,18,103); (18,51,18,103); (18,53,18,101); (18,53,18,100); (18,71,18,100); (18,95,18,95)]%Z;
     ts_evals := []; ts_same := []; ts_decls := []; ts_parents := [] |}.
Example ObjCBoxedExpressions_NumberWithEnum_holds : nth_violation (shippedRule sh_ObjCBoxedExpressions) ObjCBoxedExpressions_NumberWithEnum 0 = Some (18, 71, 18, 100, $"")%Z.
Proof. vm_compute. reflexivity. Qed.

Definition ObjCBoxedExpressions_NumberWithEnum_2 : testcase :=
  {| ts_lang := LObjC; ts_path := $"input.m"; ts_code := [];
     ts_comments := []; ts_conf := [];
     ts_tops := [(toplevel 0 (TOther), (Node 0 [] (OtherDecl []))); (toplevel 1 (TOther), (Node 1 [] (ObjCContainerDecl {| oc_kind := OKInterface; oc_name := $"NSObject"; oc_lines := (2)%Z; oc_ivars := 0; oc_methods := []; oc_classes := [$"NSObject"]; oc_superMethods := None |} []))); (toplevel 2 (TOther), (Node 2 [] (ObjCContainerDecl {| oc_kind := OKInterface; oc_name := $"NSNumber"; oc_lines := (13)%Z; oc_ivars := 0; oc_methods := [($"numberWithChar:", false); ($"numberWithInt:", false); ($"numberWithUnsignedInt:", false); ($"numberWithLong:", false); ($"numberWithUnsignedLong:", false); ($"numberWithLongLong:", false); ($"numberWithUnsignedLongLong:", false); ($"numberWithFloat:", false); ($"numberWithDouble:", false); ($"numberWithBool:", false); ($"numberWithUnsignedChar:", false)]; oc_classes := [$"NSNumber"; $"NSObject"]; oc_superMethods := (Some ($"NSObject", [])) |} [(Node 3 [] (ObjCMethodDecl {| om_selector := $"numberWithChar:"; om_class := (Some $"NSNumber"); om_overriding := false; om_overridden := []; om_bodyLines := (0)%Z |} [(Node 4 [] (VarDecl {| v_isParm := true; v_name := $"value"; v_used := false; v_referenced := false; v_local := false; v_staticMember := false; v_private := false; v_unusedAttr := false; v_defaultArg := false; v_canonicalType := $"char"; v_inTemplate := false; v_contexts := [CxObjCMethod true false false false; CxOther] |} None))] None)); (Node 5 [] (ObjCMethodDecl {| om_selector := $"numberWithInt:"; om_class := (Some $"NSNumber"); om_overriding := false; om_overridden := []; om_bodyLines := (0)%Z |} [(Node 6 [] (VarDecl {| v_isParm := true; v_name := $"value"; v_used := false; v_referenced := false; v_local := false; v_staticMember := false; v_private := false; v_unusedAttr := false; v_defaultArg := false; v_canonicalType := $"int"; v_inTemplate := false; v_contexts := [CxObjCMethod true false false false; CxOther] |} None))] None)); (Node 7 [] (ObjCMethodDecl {| om_selector := $"numberWithUnsignedInt:"; om_class := (Some $"NSNumber"); om_overriding := false; om_overridden := []; om_bodyLines := (0)%Z |} [(Node 8 [] (VarDecl {| v_isParm := true; v_name := $"value"; v_used := false; v_referenced := false; v_local := false; v_staticMember := false; v_private := false; v_unusedAttr := false; v_defaultArg := false; v_canonicalType := $"unsigned int"; v_inTemplate := false; v_contexts := [CxObjCMethod true false false false; CxOther] |} None))] None)); (Node 9 [] (ObjCMethodDecl {| om_selector := $"numberWithLong:"; om_class := (Some $"NSNumber"); om_overriding := false; om_overridden := []; om_bodyLines := (0)%Z |} [(Node 10 [] (VarDecl {| v_isParm := true; v_name := $"value"; v_used := false; v_referenced := false; v_local := false; v_staticMember := false; v_private := false; v_unusedAttr := false; v_defaultArg := false; v_canonicalType := $"long"; v_inTemplate := false; v_contexts := [CxObjCMethod true false false false; CxOther] |} None))] None)); (Node 11 [] (ObjCMethodDecl {| om_selector := $"numberWithUnsignedLong:"; om_class := (Some $"NSNumber"); om_overriding := false; om_overridden := []; om_bodyLines := (0)%Z |} [(Node 12 [] (VarDecl {| v_isParm := true; v_name := $"value"; v_used := false; v_referenced := false; v_local := false; v_staticMember := false; v_private := false; v_unusedAttr := false; v_defaultArg := false; v_canonicalType := $"unsigned long"; v_inTemplate := false; v_contexts := [CxObjCMethod true false false false; CxOther] |} None))] None)); (Node 13 [] (ObjCMethodDecl {| om_selector := $"numberWithLongLong:"; om_class := (Some $"NSNumber"); om_overriding := false; om_overridden := []; om_bodyLines := (0)%Z |} [(Node 14 [] (VarDecl {| v_isParm := true; v_name := $"value"; v_used := false; v_referenced := false; v_local := false; v_staticMember := false; v_private := false; v_unusedAttr := false; v_defaultArg := false; v_canonicalType := $"long long"; v_inTemplate := false; v_contexts := [CxObjCMethod true false false false; CxOther] |} None))] None)); (Node 15 [] (ObjCMethodDecl {| om_selector := $"numberWithUnsignedLongLong:"; om_class := (Some $"NSNumber"); om_overriding := false; om_overridden := []; om_bodyLines := (0)%Z |} [(Node 16 [] (VarDecl {| v_isParm := true; v_name := $"value"; v_used := false; v_referenced := false; v_local := false; v_staticMember := false; v_private := false; v_unusedAttr := false; v_defaultArg := false; v_canonicalType := $"unsigned long long"; v_inTemplate := false; v_contexts := [CxObjCMethod true false false false; CxOther] |} None))] None)); (Node 17 [] (ObjCMethodDecl {| om_selector := $"numberWithFloat:"; om_class := (Some $"NSNumber"); om_overriding := false; om_overridden := []; om_bodyLines := (0)%Z |} [(Node 18 [] (VarDecl {| v_isParm := true; v_name := $"value"; v_used := false; v_referenced := false; v_local := false; v_staticMember := false; v_private := false; v_unusedAttr := false; v_defaultArg := false; v_canonicalType := $"float"; v_inTemplate := false; v_contexts := [CxObjCMethod true false false false; CxOther] |} None))] None)); (Node 19 [] (ObjCMethodDecl {| om_selector := $"numberWithDouble:"; om_class := (Some $"NSNumber"); om_overriding := false; om_overridden := []; om_bodyLines := (0)%Z |} [(Node 20 [] (VarDecl {| v_isParm := true; v_name := $"value"; v_used := false; v_referenced := false; v_local := false; v_staticMember := false; v_private := false; v_unusedAttr := false; v_defaultArg := false; v_canonicalType := $"double"; v_inTemplate := false; v_contexts := [CxObjCMethod true false false false; CxOther] |} None))] None)); (Node 21 [] (ObjCMethodDecl {| om_selector := $"numberWithBool:"; om_class := (Some $"NSNumber"); om_overriding := false; om_overridden := []; om_bodyLines := (0)%Z |} [(Node 22 [] (VarDecl {| v_isParm := true; v_name := $"value"; v_used := false; v_referenced := false; v_local := false; v_staticMember := false; v_private := false; v_unusedAttr := false; v_defaultArg := false; v_canonicalType := $"signed char"; v_inTemplate := false; v_contexts := [CxObjCMethod true false false false; CxOther] |} None))] None)); (Node 23 [] (ObjCMethodDecl {| om_selector := $"numberWithUnsignedChar:"; om_class := (Some $"NSNumber"); om_overriding := false; om_overridden := []; om_bodyLines := (0)%Z |} [(Node 24 [] (VarDecl {| v_isParm := true; v_name := $"value"; v_used := false; v_referenced := false; v_local := false; v_staticMember := false; v_private := false; v_unusedAttr := false; v_defaultArg := false; v_canonicalType := $"unsigned char"; v_inTemplate := false; v_contexts := [CxObjCMethod true false false false; CxOther] |} None))] None))]))); (toplevel 25 (TOther), (Node 25 [] (OtherDecl [(Node 26 [] (OtherDecl [])); (Node 27 [] (OtherDecl [])); (Node 28 [] (OtherDecl []))]))); (toplevel 29 (TOther), (Node 29 [] (OtherDecl []))); (toplevel 30 (TFunction false), (Node 30 [] (FunctionDecl {| f_name := $"m"; f_method := None; f_isDefinition := true; f_bodyLines := (1)%Z |} [] (Some (Node 31 [] (CompoundStmt [(Node 32 [] (DeclStmt [(Node 33 [] (VarDecl {| v_isParm := false; v_name := $"color"; v_used := false; v_referenced := false; v_local := true; v_staticMember := false; v_private := false; v_unusedAttr := false; v_defaultArg := false; v_canonicalType := $"NSNumber *"; v_inTemplate := false; v_contexts := [CxFunction true true false] |} (Some (Node 34 $"NSNumber *" (ObjCMessageExpr {| ms_selector := $"numberWithInt:"; ms_receiver := (RClass $"NSNumber"); ms_implicit := false; ms_interface := (Some $"NSNumber"); ms_method := (Some (Decl [] (Some (Method false None (InOther (Some NoCategory)))))); ms_methodClass := (Some $"NSNumber") |} None [(Node 35 $"int" (ParenExpr (Node 36 $"int" (DeclRefExpr 50 $"Green" true))))])))))]))]))))))];
     ts_locs := [(2,1,2,21); (3,1,4,2); (5,1,17,2); (6,1,6,41); (6,31,6,36); (7,1,7,39); (7,30,7,34); (8,1,8,56); (8,38,8,51); (9,1,9,41); (9,31,9,36); (10,1,10,58); (10,39,10,53); (11,1,11,50); (11,35,11,45); (12,1,12,67); (12,43,12,62); (13,1,13,43); (13,32,13,38); (14,1,14,45); (14,33,14,40); (15,1,15,41); (15,31,15,36); (16,1,16,58); (16,39,16,53); (18,9,18,33); (18,16,18,16); (18,21,18,21); (18,28,18,28); (18,1,18,35); (18,42,18,105); (18,51,18,105); (18,53,18,103); (18,53,18,102); (18,71,18,102); (18,95,18,101); (18,96,18,96)]%Z;
     ts_evals := []; ts_same := []; ts_decls := []; ts_parents := [] |}.
Example ObjCBoxedExpressions_NumberWithEnum_2_holds : nth_violation (shippedRule sh_ObjCBoxedExpressions) ObjCBoxedExpressions_NumberWithEnum_2 0 = Some (18, 71, 18, 102, $"")%Z.
Proof. vm_compute. reflexivity. Qed.

Definition ObjCBoxedExpressions_NumberWithEnumTypedefBoxed : testcase :=
  {| ts_lang := LObjC; ts_path := $"input.m"; ts_code := [];
     ts_comments := []; ts_conf := [];
     ts_tops := [(toplevel 0 (TOther), (Node 0 [] (OtherDecl []))); (toplevel 1 (TOther), (Node 1 [] (ObjCContainerDecl {| oc_kind := OKInterface; oc_name := $"NSObject"; oc_lines := (2)%Z; oc_ivars := 0; oc_methods := []; oc_classes := [$"NSObject"]; oc_superMethods := None |} []))); (toplevel 2 (TOther), (Node 2 [] (ObjCContainerDecl {| oc_kind := OKInterface; oc_name := $"NSNumber"; oc_lines := (13)%Z; oc_ivars := 0; oc_methods := [($"numberWithChar:", false); ($"numberWithInt:", false); ($"numberWithUnsignedInt:", false); ($"numberWithLong:", false); ($"numberWithUnsignedLong:", false); ($"numberWithLongLong:", false); ($"numberWithUnsignedLongLong:", false); ($"numberWithFloat:", false); ($"numberWithDouble:", false); ($"numberWithBool:", false); ($"numberWithUnsignedChar:", false)]; oc_classes := [$"NSNumber"; $"NSObject"]; oc_superMethods := (Some ($"NSObject", [])) |} [(Node 3 [] (ObjCMethodDecl {| om_selector := $"numberWithChar:"; om_class := (Some $"NSNumber"); om_overriding := false; om_overridden := []; om_bodyLines := (0)%Z |} [(Node 4 [] (VarDecl {| v_isParm := true; v_name := $"value"; v_used := false; v_referenced := false; v_local := false; v_staticMember := false; v_private := false; v_unusedAttr := false; v_defaultArg := false; v_canonicalType := $"char"; v_inTemplate := false; v_contexts := [CxObjCMethod true false false false; CxOther] |} None))] None)); (Node 5 [] (ObjCMethodDecl {| om_selector := $"numberWithInt:"; om_class := (Some $"NSNumber"); om_overriding := false; om_overridden := []; om_bodyLines := (0)%Z |} [(Node 6 [] (VarDecl {| v_isParm := true; v_name := $"value"; v_used := false; v_referenced := false; v_local := false; v_staticMember := false; v_private := false; v_unusedAttr := false; v_defaultArg := false; v_canonicalType := $"int"; v_inTemplate := false; v_contexts := [CxObjCMethod true false false false; CxOther] |} None))] None)); (Node 7 [] (ObjCMethodDecl {| om_selector := $"numberWithUnsignedInt:"; om_class := (Some $"NSNumber"); om_overriding := false; om_overridden := []; om_bodyLines := (0)%Z |} [(Node 8 [] (VarDecl {| v_isParm := true; v_name := $"value"; v_used := false; v_referenced := false; v_local := false; v_staticMember := false; v_private := false; v_unusedAttr := false; v_defaultArg := false; v_canonicalType := $"unsigned int"; v_inTemplate := false; v_contexts := [CxObjCMethod true false false false; CxOther] |} None))] None)); (Node 9 [] (ObjCMethodDecl {| om_selector := $"numberWithLong:"; om_class := (Some $"NSNumber"); om_overriding := false; om_overridden := []; om_bodyLines := (0)%Z |} [(Node 10 [] (VarDecl {| v_isParm := true; v_name := $"value"; v_used := false; v_referenced := false; v_local := false; v_staticMember := false; v_private := false; v_unusedAttr := false; v_defaultArg := false; v_canonicalType := $"long"; v_inTemplate := false; v_contexts := [CxObjCMethod true false false false; CxOther] |} None))] None)); (Node 11 [] (ObjCMethodDecl {| om_selector := $"numberWithUnsignedLong:"; om_class := (Some $"NSNumber"); om_overriding := false; om_overridden := []; om_bodyLines := (0)%Z |} [(Node 12 [] (VarDecl {| v_isParm := true; v_name := $"value"; v_used := false; v_referenced := false; v_local := false; v_staticMember := false; v_private := false; v_unusedAttr := false; v_defaultArg := false; v_canonicalType := $"unsigned long"; v_inTemplate := false; v_contexts := [CxObjCMethod true false false false; CxOther] |} None))] None)); (Node 13 [] (ObjCMethodDecl {| om_selector := $"numberWithLongLong:"; om_class := (Some $"NSNumber"); om_overriding := false; om_overridden := []; om_bodyLines := (0)%Z |} [(Node 14 [] (VarDecl {| v_isParm := true; v_name := $"value"; v_used := false; v_referenced := false; v_local := false; v_staticMember := false; v_private := false; v_unusedAttr := false; v_defaultArg := false; v_canonicalType := $"long long"; v_inTemplate := false; v_contexts := [CxObjCMethod true false false false; CxOther] |} None))] None)); (Node 15 [] (ObjCMethodDecl {| om_selector := $"numberWithUnsignedLongLong:"; om_class := (Some $"NSNumber"); om_overriding := false; om_overridden := []; om_bodyLines := (0)%Z |} [(Node 16 [] (VarDecl {| v_isParm := true; v_name := $"value"; v_used := false; v_referenced := false; v_local := false; v_staticMember := false; v_private := false; v_unusedAttr := false; v_defaultArg := false; v_canonicalType := $"unsigned long long"; v_inTemplate := false; v_contexts := [CxObjCMethod true false false false; CxOther] |} None))] None)); (Node 17 [] (ObjCMethodDecl {| om_selector := $"numberWithFloat:"; om_class := (Some $"NSNumber"); om_overriding := false; om_overridden := []; om_bodyLines := (0)%Z |} [(Node 18 [] (VarDecl {| v_isParm := true; v_name := $"value"; v_used := false; v_referenced := false; v_local := false; v_staticMember := false; v_private := false; v_unusedAttr := false; v_defaultArg := false; v_canonicalType := $"float"; v_inTemplate := false; v_contexts := [CxObjCMethod true false false false; CxOther] |} None))] None)); (Node 19 [] (ObjCMethodDecl {| om_selector := $"numberWithDouble:"; om_class := (Some $"NSNumber"); om_overriding := false; om_overridden := []; om_bodyLines := (0)%Z |} [(Node 20 [] (VarDecl {| v_isParm := true; v_name := $"value"; v_used := false; v_referenced := false; v_local := false; v_staticMember := false; v_private := false; v_unusedAttr := false; v_defaultArg := false; v_canonicalType := $"double"; v_inTemplate := false; v_contexts := [CxObjCMethod true false false false; CxOther] |} None))] None)); (Node 21 [] (ObjCMethodDecl {| om_selector := $"numberWithBool:"; om_class := (Some $"NSNumber"); om_overriding := false; om_overridden := []; om_bodyLines := (0)%Z |} [(Node 22 [] (VarDecl {| v_isParm := true; v_name := $"value"; v_used := false; v_referenced := false; v_local := false; v_staticMember := false; v_private := false; v_unusedAttr := false; v_defaultArg := false; v_canonicalType := $"signed char"; v_inTemplate := false; v_contexts := [CxObjCMethod true false false false; CxOther] |} None))] None)); (Node 23 [] (ObjCMethodDecl {| om_selector := $"numberWithUnsignedChar:"; om_class := (Some $"NSNumber"); om_overriding := false; om_overridden := []; om_bodyLines := (0)%Z |} [(Node 24 [] (VarDecl {| v_isParm := true; v_name := $"value"; v_used := false; v_referenced := false; v_local := false; v_staticMember := false; v_private := false; v_unusedAttr := false; v_defaultArg := false; v_canonicalType := $"unsigned char"; v_inTemplate := false; v_contexts := [CxObjCMethod true false false false; CxOther] |} None))] None))]))); (toplevel 25 (TOther), (Node 25 [] (OtherDecl [(Node 26 [] (OtherDecl [])); (Node 27 [] (OtherDecl [])); (Node 28 [] (OtherDecl []))]))); (toplevel 29 (TFunction false), (Node 29 [] (FunctionDecl {| f_name := $"m"; f_method := None; f_isDefinition := true; f_bodyLines := (1)%Z |} [] (Some (Node 30 [] (CompoundStmt [(Node 31 [] (DeclStmt [(Node 32 [] (VarDecl {| v_isParm := false; v_name := $"color"; v_used := false; v_referenced := false; v_local := true; v_staticMember := false; v_private := false; v_unusedAttr := false; v_defaultArg := false; v_canonicalType := $"NSNumber *"; v_inTemplate := false; v_contexts := [CxFunction true true false] |} (Some (Node 33 $"NSNumber *" (OtherExpr [(Node 34 $"int" (ParenExpr (Node 35 $"int" (DeclRefExpr 48 $"Red" true))))])))))]))]))))))];
     ts_locs := [(2,1,2,21); (3,1,4,2); (5,1,17,2); (6,1,6,41); (6,31,6,36); (7,1,7,39); (7,30,7,34); (8,1,8,56); (8,38,8,51); (9,1,9,41); (9,31,9,36); (10,1,10,58); (10,39,10,53); (11,1,11,50); (11,35,11,45); (12,1,12,67); (12,43,12,62); (13,1,13,43); (13,32,13,38); (14,1,14,45); (14,33,14,40); (15,1,15,41); (15,31,15,36); (16,1,16,58); (16,39,16,53); (18,1,18,25); (18,8,18,8); (18,13,18,13); (18,20,18,20); (18,28,18,65); (18,37,18,65); (18,39,18,63); (18,39,18,62); (18,57,18,62); (18,58,18,62); (18,59,18,59)]%Z;
     ts_evals := []; ts_same := []; ts_decls := []; ts_parents := [] |}.
Example ObjCBoxedExpressions_NumberWithEnumTypedefBoxed_holds : sorted_violations_of (shippedRule sh_ObjCBoxedExpressions) ObjCBoxedExpressions_NumberWithEnumTypedefBoxed = Some [].
Proof. vm_compute. reflexivity. Qed.

Definition ObjCBoxedExpressions_NumberWithEnumTypedef : testcase :=
  {| ts_lang := LObjC; ts_path := $"input.m"; ts_code := [];
     ts_comments := []; ts_conf := [];
     ts_tops := [(toplevel 0 (TOther), (Node 0 [] (OtherDecl []))); (toplevel 1 (TOther), (Node 1 [] (ObjCContainerDecl {| oc_kind := OKInterface; oc_name := $"NSObject"; oc_lines := (2)%Z; oc_ivars := 0; oc_methods := []; oc_classes := [$"NSObject"]; oc_superMethods := None |} []))); (toplevel 2 (TOther), (Node 2 [] (ObjCContainerDecl {| oc_kind := OKInterface; oc_name := $"NSNumber"; oc_lines := (13)%Z; oc_ivars := 0; oc_methods := [($"numberWithChar:", false); ($"numberWithInt:", false); ($"numberWithUnsignedInt:", false); ($"numberWithLong:", false); ($"numberWithUnsignedLong:", false); ($"numberWithLongLong:", false); ($"numberWithUnsignedLongLong:", false); ($"numberWithFloat:", false); ($"numberWithDouble:", false); ($"numberWithBool:", false); ($"numberWithUnsignedChar:", false)]; oc_classes := [$"NSNumber"; $"NSObject"]; oc_superMethods := (Some ($"NSObject", [])) |} [(Node 3 [] (ObjCMethodDecl {| om_selector := $"numberWithChar:"; om_class := (Some $"NSNumber"); om_overriding := false; om_overridden := []; om_bodyLines := (0)%Z |} [(Node 4 [] (VarDecl {| v_isParm := true; v_name := $"value"; v_used := false; v_referenced := false; v_local := false; v_staticMember := false; v_private := false; v_unusedAttr := false; v_defaultArg := false; v_canonicalType := $"char"; v_inTemplate := false; v_contexts := [CxObjCMethod true false false false; CxOther] |} None))] None)); (Node 5 [] (ObjCMethodDecl {| om_selector := $"numberWithInt:"; om_class := (Some $"NSNumber"); om_overriding := false; om_overridden := []; om_bodyLines := (0)%Z |} [(Node 6 [] (VarDecl {| v_isParm := true; v_name := $"value"; v_used := false; v_referenced := false; v_local := false; v_staticMember := false; v_private := false; v_unusedAttr := false; v_defaultArg := false; v_canonicalType := $"int"; v_inTemplate := false; v_contexts := [CxObjCMethod true false false false; CxOther] |} None))] None)); (Node 7 [] (ObjCMethodDecl {| om_selector := $"numberWithUnsignedInt:"; om_class := (Some $"NSNumber"); om_overriding := false; om_overridden := []; om_bodyLines := (0)%Z |} [(Node 8 [] (VarDecl {| v_isParm := true; v_name := $"value"; v_used := false; v_referenced := false; v_local := false; v_staticMember := false; v_private := false; v_unusedAttr := false; v_defaultArg := false; v_canonicalType := $"unsigned int"; v_inTemplate := false; v_contexts := [CxObjCMethod true false false false; CxOther] |} None))] None)); (Node 9 [] (ObjCMethodDecl {| om_selector := $"numberWithLong:"; om_class := (Some $"NSNumber"); om_overriding := false; om_overridden := []; om_bodyLines := (0)%Z |} [(Node 10 [] (VarDecl {| v_isParm := true; v_name := $"value"; v_used := false; v_referenced := false; v_local := false; v_staticMember := false; v_private := false; v_unusedAttr := false; v_defaultArg := false; v_canonicalType := $"long"; v_inTemplate := false; v_contexts := [CxObjCMethod true false false false; CxOther] |} None))] None)); (Node 11 [] (ObjCMethodDecl {| om_selector := $"numberWithUnsignedLong:"; om_class := (Some $"NSNumber"); om_overriding := false; om_overridden := []; om_bodyLines := (0)%Z |} [(Node 12 [] (VarDecl {| v_isParm := true; v_name := $"value"; v_used := false; v_referenced := false; v_local := false; v_staticMember := false; v_private := false; v_unusedAttr := false; v_defaultArg := false; v_canonicalType := $"unsigned long"; v_inTemplate := false; v_contexts := [CxObjCMethod true false false false; CxOther] |} None))] None)); (Node 13 [] (ObjCMethodDecl {| om_selector := $"numberWithLongLong:"; om_class := (Some $"NSNumber"); om_overriding := false; om_overridden := []; om_bodyLines := (0)%Z |} [(Node 14 [] (VarDecl {| v_isParm := true; v_name := $"value"; v_used := false; v_referenced := false; v_local := false; v_staticMember := false; v_private := false; v_unusedAttr := false; v_defaultArg := false; v_canonicalType := $"long long"; v_inTemplate := false; v_contexts := [CxObjCMethod true false false false; CxOther] |} None))] None)); (Node 15 [] (ObjCMethodDecl {| om_selector := $"numberWithUnsignedLongLong:"; om_class := (Some $"NSNumber"); om_overriding := false; om_overridden := []; om_bodyLines := (0)%Z |} [(Node 16 [] (VarDecl {| v_isParm := true; v_name := $"value"; v_used := false; v_referenced := false; v_local := false; v_staticMember := false; v_private := false; v_unusedAttr := false; v_defaultArg := false; v_canonicalType := $"unsigned long long"; v_inTemplate := false; v_contexts := [CxObjCMethod true false false false; CxOther] |} None))] None)); (Node 17 [] (ObjCMethodDecl {| om_selector := $"numberWithFloat:"; om_class := (Some $"NSNumber"); om_overriding := false; om_overridden := []; om_bodyLines := (0)%Z |} [(Node 18 [] (VarDecl {| v_isParm := true; v_name := $"value"; v_used := false; v_referenced := false; v_local := false; v_staticMember := false; v_private := false; v_unusedAttr := false; v_defaultArg := false; v_canonicalType := $"float"; v_inTemplate := false; v_contexts := [CxObjCMethod true false false false; CxOther] |} None))] None)); (Node 19 [] (ObjCMethodDecl {| om_selector := $"numberWithDouble:"; om_class := (Some $"NSNumber"); om_overriding := false; om_overridden := []; om_bodyLines := (0)%Z |} [(Node 20 [] (VarDecl {| v_isParm := true; v_name := $"value"; v_used := false; v_referenced := false; v_local := false; v_staticMember := false; v_private := false; v_unusedAttr := false; v_defaultArg := false; v_canonicalType := $"double"; v_inTemplate := false; v_contexts := [CxObjCMethod true false false false; CxOther] |} None))] None)); (Node 21 [] (ObjCMethodDecl {| om_selector := $"numberWithBool:"; om_class := (Some $"NSNumber"); om_overriding := false; om_overridden := []; om_bodyLines := (0)%Z |} [(Node 22 [] (VarDecl {| v_isParm := true; v_name := $"value"; v_used := false; v_referenced := false; v_local := false; v_staticMember := false; v_private := false; v_unusedAttr := false; v_defaultArg := false; v_canonicalType := $"signed char"; v_inTemplate := false; v_contexts := [CxObjCMethod true false false false; CxOther] |} None))] None)); (Node 23 [] (ObjCMethodDecl {| om_selector := $"numberWithUnsignedChar:"; om_class := (Some $"NSNumber"); om_overriding := false; om_overridden := []; om_bodyLines := (0)%Z |} [(Node 24 [] (VarDecl {| v_isParm := true; v_name := $"value"; v_used := false; v_referenced := false; v_local := false; v_staticMember := false; v_private := false; v_unusedAttr := false; v_defaultArg := false; v_canonicalType := $"unsigned char"; v_inTemplate := false; v_contexts := [CxObjCMethod true false false false; CxOther] |} None))] None))]))); (toplevel 25 (TOther), (Node 25 [] (OtherDecl [(Node 26 [] (OtherDecl [])); (Node 27 [] (OtherDecl [])); (Node 28 [] (OtherDecl []))]))); (toplevel 29 (TFunction false), (Node 29 [] (FunctionDecl {| f_name := $"m"; f_method := None; f_isDefinition := true; f_bodyLines := (1)%Z |} [] (Some (Node 30 [] (CompoundStmt [(Node 31 [] (DeclStmt [(Node 32 [] (VarDecl {| v_isParm := false; v_name := $"color"; v_used := false; v_referenced := false; v_local := true; v_staticMember := false; v_private := false; v_unusedAttr := false; v_defaultArg := false; v_canonicalType := $"NSNumber *"; v_inTemplate := false; v_contexts := [CxFunction true true false] |} (Some (Node 33 $"NSNumber *" (ObjCMessageExpr {| ms_selector := $"numberWithInt:"; ms_receiver := (RClass $"NSNumber"); ms_implicit := false; ms_interface := (Some $"NSNumber"); ms_method := (Some (Decl [] (Some (Method false None (InOther (Some NoCategory)))))); ms_methodClass := (Some $"NSNumber") |} None [(Node 34 $"int" (DeclRefExpr 47 $"Red" true))])))))]))]))))))];
     ts_locs := [(2,1,2,21); (3,1,4,2); (5,1,17,2); (6,1,6,41); (6,31,6,36); (7,1,7,39); (7,30,7,34); (8,1,8,56); (8,38,8,51); (9,1,9,41); (9,31,9,36); (10,1,10,58); (10,39,10,53); (11,1,11,50); (11,35,11,45); (12,1,12,67); (12,43,12,62); (13,1,13,43); (13,32,13,38); (14,1,14,45); (14,33,14,40); (15,1,15,41); (15,31,15,36); (16,1,16,58); (16,39,16,53); (18,1,18,25); (18,8,18,8); (18,13,18,13); (18,20,18,20); (18,28,18,87); (18,37,18,87); (18,39,18,85); (18,39,18,84); (18,57,18,84); (18,81,18,81)]%Z;
     ts_evals := []; ts_same := []; ts_decls := []; ts_parents := [] |}.
Example ObjCBoxedExpressions_NumberWithEnumTypedef_holds : nth_violation (shippedRule sh_ObjCBoxedExpressions) ObjCBoxedExpressions_NumberWithEnumTypedef 0 = Some (18, 57, 18, 84, $"")%Z.
Proof. vm_compute. reflexivity. Qed.

Definition ObjCBoxedExpressions_NumberWithEnumTypedef_2 : testcase :=
  {| ts_lang := LObjC; ts_path := $"input.m"; ts_code := [];
     ts_comments := []; ts_conf := [];
     ts_tops := [(toplevel 0 (TOther), (Node 0 [] (OtherDecl []))); (toplevel 1 (TOther), (Node 1 [] (ObjCContainerDecl {| oc_kind := OKInterface; oc_name := $"NSObject"; oc_lines := (2)%Z; oc_ivars := 0; oc_methods := []; oc_classes := [$"NSObject"]; oc_superMethods := None |} []))); (toplevel 2 (TOther), (Node 2 [] (ObjCContainerDecl {| oc_kind := OKInterface; oc_name := $"NSNumber"; oc_lines := (13)%Z; oc_ivars := 0; oc_methods := [($"numberWithChar:", false); ($"numberWithInt:", false); ($"numberWithUnsignedInt:", false); ($"numberWithLong:", false); ($"numberWithUnsignedLong:", false); ($"numberWithLongLong:", false); ($"numberWithUnsignedLongLong:", false); ($"numberWithFloat:", false); ($"numberWithDouble:", false); ($"numberWithBool:", false); ($"numberWithUnsignedChar:", false)]; oc_classes := [$"NSNumber"; $"NSObject"]; oc_superMethods := (Some ($"NSObject", [])) |} [(Node 3 [] (ObjCMethodDecl {| om_selector := $"numberWithChar:"; om_class := (Some $"NSNumber"); om_overriding := false; om_overridden := []; om_bodyLines := (0)%Z |} [(Node 4 [] (VarDecl {| v_isParm := true; v_name := $"value"; v_used := false; v_referenced := false; v_local := false; v_staticMember := false; v_private := false; v_unusedAttr := false; v_defaultArg := false; v_canonicalType := $"char"; v_inTemplate := false; v_contexts := [CxObjCMethod true false false false; CxOther] |} None))] None)); (Node 5 [] (ObjCMethodDecl {| om_selector := $"numberWithInt:"; om_class := (Some $"NSNumber"); om_overriding := false; om_overridden := []; om_bodyLines := (0)%Z |} [(Node 6 [] (VarDecl {| v_isParm := true; v_name := $"value"; v_used := false; v_referenced := false; v_local := false; v_staticMember := false; v_private := false; v_unusedAttr := false; v_defaultArg := false; v_canonicalType := $"int"; v_inTemplate := false; v_contexts := [CxObjCMethod true false false false; CxOther] |} None))] None)); (Node 7 [] (ObjCMethodDecl {| om_selector := $"numberWithUnsignedInt:"; om_class := (Some $"NSNumber"); om_overriding := false; om_overridden := []; om_bodyLines := (0)%Z |} [(Node 8 [] (VarDecl {| v_isParm := true; v_name := $"value"; v_used := false; v_referenced := false; v_local := false; v_staticMember := false; v_private := false; v_unusedAttr := false; v_defaultArg := false; v_canonicalType := $"unsigned int"; v_inTemplate := false; v_contexts := [CxObjCMethod true false false false; CxOther] |} None))] None)); (Node 9 [] (ObjCMethodDecl {| om_selector := $"numberWithLong:"; om_class := (Some $"NSNumber"); om_overriding := false; om_overridden := []; om_bodyLines := (0)%Z |} [(Node 10 [] (VarDecl {| v_isParm := true; v_name := $"value"; v_used := false; v_referenced := false; v_local := false; v_staticMember := false; v_private := false; v_unusedAttr := false; v_defaultArg := false; v_canonicalType := $"long"; v_inTemplate := false; v_contexts := [CxObjCMethod true false false false; CxOther] |} None))] None)); (Node 11 [] (ObjCMethodDecl {| om_selector := $"numberWithUnsignedLong:"; om_class := (Some $"NSNumber"); om_overriding := false; om_overridden := []; om_bodyLines := (0)%Z |} [(Node 12 [] (VarDecl {| v_isParm := true; v_name := $"value"; v_used := false; v_referenced := false; v_local := false; v_staticMember := false; v_private := false; v_unusedAttr := false; v_defaultArg := false; v_canonicalType := $"unsigned long"; v_inTemplate := false; v_contexts := [CxObjCMethod true false false false; CxOther] |} None))] None)); (Node 13 [] (ObjCMethodDecl {| om_selector := $"numberWithLongLong:"; om_class := (Some $"NSNumber"); om_overriding := false; om_overridden := []; om_bodyLines := (0)%Z |} [(Node 14 [] (VarDecl {| v_isParm := true; v_name := $"value"; v_used := false; v_referenced := false; v_local := false; v_staticMember := false; v_private := false; v_unusedAttr := false; v_defaultArg := false; v_canonicalType := $"long long"; v_inTemplate := false; v_contexts := [CxObjCMethod true false false false; CxOther] |} None))] None)); (Node 15 [] (ObjCMethodDecl {| om_selector := $"numberWithUnsignedLongLong:"; om_class := (Some $"NSNumber"); om_overriding := false; om_overridden := []; om_bodyLines := (0)%Z |} [(Node 16 [] (VarDecl {| v_isParm := true; v_name := $"value"; v_used := false; v_referenced := false; v_local := false; v_staticMember := false; v_private := false; v_unusedAttr := false; v_defaultArg := false; v_canonicalType := $"unsigned long long"; v_inTemplate := false; v_contexts := [CxObjCMethod true false false false; CxOther] |} None))] None)); (Node 17 [] (ObjCMethodDecl {| om_selector := $"numberWithFloat:"; om_class := (Some $"NSNumber"); om_overriding := false; om_overridden := []; om_bodyLines := (0)%Z |} [(Node 18 [] (VarDecl {| v_isParm := true; v_name := $"value"; v_used := false; v_referenced := false; v_local := false; v_staticMember := false; v_private := false; v_unusedAttr := false; v_defaultArg := false; v_canonicalType := $"float"; v_inTemplate := false; v_contexts := [CxObjCMethod true false false false; CxOther] |} None))] None)); (Node 19 [] (ObjCMethodDecl {| om_selector := $"numberWithDouble:"; om_class := (Some $"NSNumber"); om_overriding := false; om_overridden := []; om_bodyLines := (0)%Z |} [(Node 20 [] (VarDecl {| v_isParm := true; v_name := $"value"; v_used := false; v_referenced := false; v_local := false; v_staticMember := false; v_private := false; v_unusedAttr := false; v_defaultArg := false; v_canonicalType := $"double"; v_inTemplate := false; v_contexts := [CxObjCMethod true false false false; CxOther] |} None))] None)); (Node 21 [] (ObjCMethodDecl {| om_selector := $"numberWithBool:"; om_class := (Some $"NSNumber"); om_overriding := false; om_overridden := []; om_bodyLines := (0)%Z |} [(Node 22 [] (VarDecl {| v_isParm := true; v_name := $"value"; v_used := false; v_referenced := false; v_local := false; v_staticMember := false; v_private := false; v_unusedAttr := false; v_defaultArg := false; v_canonicalType := $"signed char"; v_inTemplate := false; v_contexts := [CxObjCMethod true false false false; CxOther] |} None))] None)); (Node 23 [] (ObjCMethodDecl {| om_selector := $"numberWithUnsignedChar:"; om_class := (Some $"NSNumber"); om_overriding := false; om_overridden := []; om_bodyLines := (0)%Z |} [(Node 24 [] (VarDecl {| v_isParm := true; v_name := $"value"; v_used := false; v_referenced := false; v_local := false; v_staticMember := false; v_private := false; v_unusedAttr := false; v_defaultArg := false; v_canonicalType := $"unsigned char"; v_inTemplate := false; v_contexts := [CxObjCMethod true false false false; CxOther] |} None))] None))]))); (toplevel 25 (TOther), (Node 25 [] (OtherDecl [(Node 26 [] (OtherDecl [])); (Node 27 [] (OtherDecl [])); (Node 28 [] (OtherDecl []))]))); (toplevel 29 (TFunction false), (Node 29 [] (FunctionDecl {| f_name := $"m"; f_method := None; f_isDefinition := true; f_bodyLines := (1)%Z |} [] (Some (Node 30 [] (CompoundStmt [(Node 31 [] (DeclStmt [(Node 32 [] (VarDecl {| v_isParm := false; v_name := $"color"; v_used := false; v_referenced := false; v_local := true; v_staticMember := false; v_private := false; v_unusedAttr := false; v_defaultArg := false; v_canonicalType := $"NSNumber *"; v_inTemplate := false; v_contexts := [CxFunction true true false] |} (Some (Node 33 $"NSNumber *" (ObjCMessageExpr {| ms_selector := $"numberWithInt:"; ms_receiver := (RClass $"NSNumber"); ms_implicit := false; ms_interface := (Some $"NSNumber"); ms_method := (Some (Decl [] (Some (Method false None (InOther (Some NoCategory)))))); ms_methodClass := (Some $"NSNumber") |} None [(Node 34 $"int" (ParenExpr (Node 35 $"int" (DeclRefExpr 48 $"Red" true))))])))))]))]))))))];
     ts_locs := [(2,1,2,21); (3,1,4,2); (5,1,17,2); (6,1,6,41); (6,31,6,36); (7,1,7,39); (7,30,7,34); (8,1,8,56); (8,38,8,51); (9,1,9,41); (9,31,9,36); (10,1,10,58); (10,39,10,53); (11,1,11,50); (11,35,11,45); (12,1,12,67); (12,43,12,62); (13,1,13,43); (13,32,13,38); (14,1,14,45); (14,33,14,40); (15,1,15,41); (15,31,15,36); (16,1,16,58); (16,39,16,53); (18,1,18,25); (18,8,18,8); (18,13,18,13); (18,20,18,20); (18,28,18,89); (18,37,18,89); (18,39,18,87); (18,39,18,86); (18,57,18,86); (18,81,18,85); (18,82,18,82)]%Z;
     ts_evals := []; ts_same := []; ts_decls := []; ts_parents := [] |}.
Example ObjCBoxedExpressions_NumberWithEnumTypedef_2_holds : nth_violation (shippedRule sh_ObjCBoxedExpressions) ObjCBoxedExpressions_NumberWithEnumTypedef_2 0 = Some (18, 57, 18, 86, $"")%Z.
Proof. vm_compute. reflexivity. Qed.

Definition ObjCBoxedExpressions_StringWithUTF8StringBoxed : testcase :=
  {| ts_lang := LObjC; ts_path := $"input.m"; ts_code := [];
     ts_comments := []; ts_conf := [];
     ts_tops := [(toplevel 0 (TOther), (Node 0 [] (ObjCContainerDecl {| oc_kind := OKInterface; oc_name := $"NSObject"; oc_lines := (2)%Z; oc_ivars := 0; oc_methods := []; oc_classes := [$"NSObject"]; oc_superMethods := None |} []))); (toplevel 1 (TOther), (Node 1 [] (ObjCContainerDecl {| oc_kind := OKInterface; oc_name := $"NSString"; oc_lines := (3)%Z; oc_ivars := 0; oc_methods := [($"stringWithUTF8String:", false)]; oc_classes := [$"NSString"; $"NSObject"]; oc_superMethods := (Some ($"NSObject", [])) |} [(Node 2 [] (ObjCMethodDecl {| om_selector := $"stringWithUTF8String:"; om_class := (Some $"NSString"); om_overriding := false; om_overridden := []; om_bodyLines := (0)%Z |} [(Node 3 [] (VarDecl {| v_isParm := true; v_name := $"nullTerminatedCString"; v_used := false; v_referenced := false; v_local := false; v_staticMember := false; v_private := false; v_unusedAttr := false; v_defaultArg := false; v_canonicalType := $"const char *"; v_inTemplate := false; v_contexts := [CxObjCMethod true false false false; CxOther] |} None))] None))]))); (toplevel 4 (TFunction false), (Node 4 [] (FunctionDecl {| f_name := $"getenv"; f_method := None; f_isDefinition := false; f_bodyLines := (0)%Z |} [(Node 5 [] (VarDecl {| v_isParm := true; v_name := $"name"; v_used := false; v_referenced := false; v_local := false; v_staticMember := false; v_private := false; v_unusedAttr := false; v_defaultArg := false; v_canonicalType := $"const char *"; v_inTemplate := false; v_contexts := [CxFunction false false false] |} None))] None))); (toplevel 6 (TFunction false), (Node 6 [] (FunctionDecl {| f_name := $"m"; f_method := None; f_isDefinition := true; f_bodyLines := (1)%Z |} [] (Some (Node 7 [] (CompoundStmt [(Node 8 [] (DeclStmt [(Node 9 [] (VarDecl {| v_isParm := false; v_name := $"env"; v_used := false; v_referenced := false; v_local := true; v_staticMember := false; v_private := false; v_unusedAttr := false; v_defaultArg := false; v_canonicalType := $"NSString *"; v_inTemplate := false; v_contexts := [CxFunction true true false] |} (Some (Node 10 $"NSString *" (ImplicitCastExpr CK_BitCast (Node 11 $"NSNumber *" (OtherExpr [(Node 12 $"char *" (ParenExpr (Node 13 $"char *" (CallExpr (Some ($"getenv", (Decl [] None))) (Node 14 $"char * (const char *) *" (ImplicitCastExpr CK_Other (Node 15 $"char * (const char *)" (DeclRefExpr 4 $"getenv" false)))) [(Node 16 $"const char *" (ImplicitCastExpr CK_Other (Node 17 $"char *" (ImplicitCastExpr CK_Other (Node 18 $"char[5]" (StringLiteral $"PATH"))))))]))))])))))))]))]))))))];
     ts_locs := [(2,1,3,2); (4,1,6,2); (5,1,5,63); (5,29,5,42); (7,1,7,31); (7,15,7,27); (7,34,7,80); (7,43,7,80); (7,45,7,78); (7,45,7,77); (7,61,7,77); (7,61,7,77); (7,62,7,77); (7,63,7,76); (7,63,7,63); (7,63,7,63); (7,70,7,70); (7,70,7,70); (7,70,7,70)]%Z;
     ts_evals := []; ts_same := []; ts_decls := []; ts_parents := [] |}.
Example ObjCBoxedExpressions_StringWithUTF8StringBoxed_holds : sorted_violations_of (shippedRule sh_ObjCBoxedExpressions) ObjCBoxedExpressions_StringWithUTF8StringBoxed = Some [].
Proof. vm_compute. reflexivity. Qed.

Definition ObjCBoxedExpressions_StringWithUTF8String : testcase :=
  {| ts_lang := LObjC; ts_path := $"input.m"; ts_code := [];
     ts_comments := []; ts_conf := [];
     ts_tops := [(toplevel 0 (TOther), (Node 0 [] (ObjCContainerDecl {| oc_kind := OKInterface; oc_name := $"NSObject"; oc_lines := (2)%Z; oc_ivars := 0; oc_methods := []; oc_classes := [$"NSObject"]; oc_superMethods := None |} []))); (toplevel 1 (TOther), (Node 1 [] (ObjCContainerDecl {| oc_kind := OKInterface; oc_name := $"NSString"; oc_lines := (3)%Z; oc_ivars := 0; oc_methods := [($"stringWithUTF8String:", false)]; oc_classes := [$"NSString"; $"NSObject"]; oc_superMethods := (Some ($"NSObject", [])) |} [(Node 2 [] (ObjCMethodDecl {| om_selector := $"stringWithUTF8String:"; om_class := (Some $"NSString"); om_overriding := false; om_overridden := []; om_bodyLines := (0)%Z |} [(Node 3 [] (VarDecl {| v_isParm := true; v_name := $"nullTerminatedCString"; v_used := false; v_referenced := false; v_local := false; v_staticMember := false; v_private := false; v_unusedAttr := false; v_defaultArg := false; v_canonicalType := $"const char *"; v_inTemplate := false; v_contexts := [CxObjCMethod true false false false; CxOther] |} None))] None))]))); (toplevel 4 (TFunction false), (Node 4 [] (FunctionDecl {| f_name := $"getenv"; f_method := None; f_isDefinition := false; f_bodyLines := (0)%Z |} [(Node 5 [] (VarDecl {| v_isParm := true; v_name := $"name"; v_used := false; v_referenced := false; v_local := false; v_staticMember := false; v_private := false; v_unusedAttr := false; v_defaultArg := false; v_canonicalType := $"const char *"; v_inTemplate := false; v_contexts := [CxFunction false false false] |} None))] None))); (toplevel 6 (TFunction false), (Node 6 [] (FunctionDecl {| f_name := $"m"; f_method := None; f_isDefinition := true; f_bodyLines := (1)%Z |} [] (Some (Node 7 [] (CompoundStmt [(Node 8 [] (DeclStmt [(Node 9 [] (VarDecl {| v_isParm := false; v_name := $"env"; v_used := false; v_referenced := false; v_local := true; v_staticMember := false; v_private := false; v_unusedAttr := false; v_defaultArg := false; v_canonicalType := $"NSString *"; v_inTemplate := false; v_contexts := [CxFunction true true false] |} (Some (Node 10 $"NSString *" (ImplicitCastExpr CK_BitCast (Node 11 $"id" (ObjCMessageExpr {| ms_selector := $"stringWithUTF8String:"; ms_receiver := (RClass $"NSString"); ms_implicit := false; ms_interface := (Some $"NSString"); ms_method := (Some (Decl [] (Some (Method false None (InOther (Some NoCategory)))))); ms_methodClass := (Some $"NSString") |} None [(Node 12 $"const char *" (ImplicitCastExpr CK_Other (Node 13 $"char *" (CallExpr (Some ($"getenv", (Decl [] None))) (Node 14 $"char * (const char *) *" (ImplicitCastExpr CK_Other (Node 15 $"char * (const char *)" (DeclRefExpr 4 $"getenv" false)))) [(Node 16 $"const char *" (ImplicitCastExpr CK_Other (Node 17 $"char *" (ImplicitCastExpr CK_Other (Node 18 $"char[5]" (StringLiteral $"PATH"))))))]))))])))))))]))]))))))];
     ts_locs := [(2,1,3,2); (4,1,6,2); (5,1,5,63); (5,29,5,42); (7,1,7,31); (7,15,7,27); (7,34,7,109); (7,43,7,109); (7,45,7,107); (7,45,7,106); (7,61,7,106); (7,61,7,106); (7,92,7,105); (7,92,7,105); (7,92,7,92); (7,92,7,92); (7,99,7,99); (7,99,7,99); (7,99,7,99)]%Z;
     ts_evals := []; ts_same := []; ts_decls := []; ts_parents := [] |}.
Example ObjCBoxedExpressions_StringWithUTF8String_holds : nth_violation (shippedRule sh_ObjCBoxedExpressions) ObjCBoxedExpressions_StringWithUTF8String 0 = Some (7, 61, 7, 106, $"")%Z.
Proof. vm_compute. reflexivity. Qed.

Definition ObjCBoxedExpressions_StringWithUTF8String_2 : testcase :=
  {| ts_lang := LObjC; ts_path := $"input.m"; ts_code := [];
     ts_comments := []; ts_conf := [];
     ts_tops := [(toplevel 0 (TOther), (Node 0 [] (ObjCContainerDecl {| oc_kind := OKInterface; oc_name := $"NSObject"; oc_lines := (2)%Z; oc_ivars := 0; oc_methods := []; oc_classes := [$"NSObject"]; oc_superMethods := None |} []))); (toplevel 1 (TOther), (Node 1 [] (ObjCContainerDecl {| oc_kind := OKInterface; oc_name := $"NSString"; oc_lines := (3)%Z; oc_ivars := 0; oc_methods := [($"stringWithUTF8String:", false)]; oc_classes := [$"NSString"; $"NSObject"]; oc_superMethods := (Some ($"NSObject", [])) |} [(Node 2 [] (ObjCMethodDecl {| om_selector := $"stringWithUTF8String:"; om_class := (Some $"NSString"); om_overriding := false; om_overridden := []; om_bodyLines := (0)%Z |} [(Node 3 [] (VarDecl {| v_isParm := true; v_name := $"nullTerminatedCString"; v_used := false; v_referenced := false; v_local := false; v_staticMember := false; v_private := false; v_unusedAttr := false; v_defaultArg := false; v_canonicalType := $"const char *"; v_inTemplate := false; v_contexts := [CxObjCMethod true false false false; CxOther] |} None))] None))]))); (toplevel 4 (TFunction false), (Node 4 [] (FunctionDecl {| f_name := $"getenv"; f_method := None; f_isDefinition := false; f_bodyLines := (0)%Z |} [(Node 5 [] (VarDecl {| v_isParm := true; v_name := $"name"; v_used := false; v_referenced := false; v_local := false; v_staticMember := false; v_private := false; v_unusedAttr := false; v_defaultArg := false; v_canonicalType := $"const char *"; v_inTemplate := false; v_contexts := [CxFunction false false false] |} None))] None))); (toplevel 6 (TFunction false), (Node 6 [] (FunctionDecl {| f_name := $"m"; f_method := None; f_isDefinition := true; f_bodyLines := (1)%Z |} [] (Some (Node 7 [] (CompoundStmt [(Node 8 [] (DeclStmt [(Node 9 [] (VarDecl {| v_isParm := false; v_name := $"env"; v_used := false; v_referenced := false; v_local := true; v_staticMember := false; v_private := false; v_unusedAttr := false; v_defaultArg := false; v_canonicalType := $"NSString *"; v_inTemplate := false; v_contexts := [CxFunction true true false] |} (Some (Node 10 $"NSString *" (ImplicitCastExpr CK_BitCast (Node 11 $"id" (ObjCMessageExpr {| ms_selector := $"stringWithUTF8String:"; ms_receiver := (RClass $"NSString"); ms_implicit := false; ms_interface := (Some $"NSString"); ms_method := (Some (Decl [] (Some (Method false None (InOther (Some NoCategory)))))); ms_methodClass := (Some $"NSString") |} None [(Node 12 $"const char *" (ImplicitCastExpr CK_Other (Node 13 $"char *" (ParenExpr (Node 14 $"char *" (CallExpr (Some ($"getenv", (Decl [] None))) (Node 15 $"char * (const char *) *" (ImplicitCastExpr CK_Other (Node 16 $"char * (const char *)" (DeclRefExpr 4 $"getenv" false)))) [(Node 17 $"const char *" (ImplicitCastExpr CK_Other (Node 18 $"char *" (ImplicitCastExpr CK_Other (Node 19 $"char[5]" (StringLiteral $"PATH"))))))]))))))])))))))]))]))))))];
     ts_locs := [(2,1,3,2); (4,1,6,2); (5,1,5,63); (5,29,5,42); (7,1,7,31); (7,15,7,27); (7,34,7,111); (7,43,7,111); (7,45,7,109); (7,45,7,108); (7,61,7,108); (7,61,7,108); (7,92,7,107); (7,92,7,107); (7,93,7,106); (7,93,7,93); (7,93,7,93); (7,100,7,100); (7,100,7,100); (7,100,7,100)]%Z;
     ts_evals := []; ts_same := []; ts_decls := []; ts_parents := [] |}.
Example ObjCBoxedExpressions_StringWithUTF8String_2_holds : nth_violation (shippedRule sh_ObjCBoxedExpressions) ObjCBoxedExpressions_StringWithUTF8String_2 0 = Some (7, 61, 7, 108, $"")%Z.
Proof. vm_compute. reflexivity. Qed.

(** ** oclint-rules/test/migration/ObjCContainerLiteralsRuleTest.cpp *)

Definition ObjCContainerLiterals_ArrayLiteralWithArray : testcase :=
  {| ts_lang := LObjC; ts_path := $"input.m"; ts_code := [];
     ts_comments := []; ts_conf := [];
     ts_tops := [(toplevel 0 (TOther), (Node 0 [] (OtherDecl []))); (toplevel 1 (TOther), (Node 1 [] (ObjCContainerDecl {| oc_kind := OKInterface; oc_name := $"NSObject"; oc_lines := (2)%Z; oc_ivars := 0; oc_methods := []; oc_classes := [$"NSObject"]; oc_superMethods := None |} []))); (toplevel 2 (TOther), (Node 2 [] (ObjCContainerDecl {| oc_kind := OKInterface; oc_name := $"NSNumber"; oc_lines := (3)%Z; oc_ivars := 0; oc_methods := [($"numberWithInt:", false)]; oc_classes := [$"NSNumber"; $"NSObject"]; oc_superMethods := (Some ($"NSObject", [])) |} [(Node 3 [] (ObjCMethodDecl {| om_selector := $"numberWithInt:"; om_class := (Some $"NSNumber"); om_overriding := false; om_overridden := []; om_bodyLines := (0)%Z |} [(Node 4 [] (VarDecl {| v_isParm := true; v_name := $"value"; v_used := false; v_referenced := false; v_local := false; v_staticMember := false; v_private := false; v_unusedAttr := false; v_defaultArg := false; v_canonicalType := $"int"; v_inTemplate := false; v_contexts := [CxObjCMethod true false false false; CxOther] |} None))] None))]))); (toplevel 5 (TOther), (Node 5 [] (ObjCContainerDecl {| oc_kind := OKInterface; oc_name := $"NSArray"; oc_lines := (6)%Z; oc_ivars := 0; oc_methods := [($"array", false); ($"arrayWithObject:", false); ($"arrayWithObjects:count:", false); ($"arrayWithObjects:", false)]; oc_classes := [$"NSArray"; $"NSObject"]; oc_superMethods := (Some ($"NSObject", [])) |} [(Node 6 [] (ObjCMethodDecl {| om_selector := $"array"; om_class := (Some $"NSArray"); om_overriding := false; om_overridden := []; om_bodyLines := (0)%Z |} [] None)); (Node 7 [] (ObjCMethodDecl {| om_selector := $"arrayWithObject:"; om_class := (Some $"NSArray"); om_overriding := false; om_overridden := []; om_bodyLines := (0)%Z |} [(Node 8 [] (VarDecl {| v_isParm := true; v_name := $"anObject"; v_used := false; v_referenced := false; v_local := false; v_staticMember := false; v_private := false; v_unusedAttr := false; v_defaultArg := false; v_canonicalType := $"struct objc_object *"; v_inTemplate := false; v_contexts := [CxObjCMethod true false false false; CxOther] |} None))] None)); (Node 9 [] (ObjCMethodDecl {| om_selector := $"arrayWithObjects:count:"; om_class := (Some $"NSArray"); om_overriding := false; om_overridden := []; om_bodyLines := (0)%Z |} [(Node 10 [] (VarDecl {| v_isParm := true; v_name := $"objects"; v_used := false; v_referenced := false; v_local := false; v_staticMember := false; v_private := false; v_unusedAttr := false; v_defaultArg := false; v_canonicalType := $"const id *"; v_inTemplate := false; v_contexts := [CxObjCMethod true false false false; CxOther] |} None)); (Node 11 [] (VarDecl {| v_isParm := true; v_name := $"cnt"; v_used := false; v_referenced := false; v_local := false; v_staticMember := false; v_private := false; v_unusedAttr := false; v_defaultArg := false; v_canonicalType := $"unsigned long"; v_inTemplate := false; v_contexts := [CxObjCMethod true false false false; CxOther] |} None))] None)); (Node 12 [] (ObjCMethodDecl {| om_selector := $"arrayWithObjects:"; om_class := (Some $"NSArray"); om_overriding := false; om_overridden := []; om_bodyLines := (0)%Z |} [(Node 13 [] (VarDecl {| v_isParm := true; v_name := $"firstObj"; v_used := false; v_referenced := false; v_local := false; v_staticMember := false; v_private := false; v_unusedAttr := false; v_defaultArg := false; v_canonicalType := $"struct objc_object *"; v_inTemplate := false; v_contexts := [CxObjCMethod true false false false; CxOther] |} None))] None))]))); (toplevel 14 (TFunction false), (Node 14 [] (FunctionDecl {| f_name := $"m"; f_method := None; f_isDefinition := true; f_bodyLines := (1)%Z |} [] (Some (Node 15 [] (CompoundStmt [(Node 16 [] (DeclStmt [(Node 17 [] (VarDecl {| v_isParm := false; v_name := $"a"; v_used := false; v_referenced := false; v_local := true; v_staticMember := false; v_private := false; v_unusedAttr := false; v_defaultArg := false; v_canonicalType := $"NSArray *"; v_inTemplate := false; v_contexts := [CxFunction true true false] |} (Some (Node 18 $"NSArray *" (OtherExpr [])))))]))]))))))];
     ts_locs := [(3,1,3,23); (4,1,5,2); (6,1,8,2); (7,1,7,39); (7,30,7,34); (9,1,14,2); (10,1,10,12); (11,1,11,35); (11,24,11,27); (12,1,12,66); (12,25,12,37); (12,52,12,63); (13,1,13,41); (13,25,13,28); (15,1,15,30); (15,10,15,30); (15,12,15,28); (15,12,15,27); (15,25,15,27)]%Z;
     ts_evals := []; ts_same := []; ts_decls := []; ts_parents := [] |}.
Example ObjCContainerLiterals_ArrayLiteralWithArray_holds : sorted_violations_of (shippedRule sh_ObjCContainerLiterals) ObjCContainerLiterals_ArrayLiteralWithArray = Some [].
Proof. vm_compute. reflexivity. Qed.

Definition ObjCContainerLiterals_ArrayWithArray : testcase :=
  {| ts_lang := LObjC; ts_path := $"input.m"; ts_code := [];
     ts_comments := []; ts_conf := [];
     ts_tops := [(toplevel 0 (TOther), (Node 0 [] (OtherDecl []))); (toplevel 1 (TOther), (Node 1 [] (ObjCContainerDecl {| oc_kind := OKInterface; oc_name := $"NSObject"; oc_lines := (2)%Z; oc_ivars := 0; oc_methods := []; oc_classes := [$"NSObject"]; oc_superMethods := None |} []))); (toplevel 2 (TOther), (Node 2 [] (ObjCContainerDecl {| oc_kind := OKInterface; oc_name := $"NSNumber"; oc_lines := (3)%Z; oc_ivars := 0; oc_methods := [($"numberWithInt:", false)]; oc_classes := [$"NSNumber"; $"NSObject"]; oc_superMethods := (Some ($"NSObject", [])) |} [(Node 3 [] (ObjCMethodDecl {| om_selector := $"numberWithInt:"; om_class := (Some $"NSNumber"); om_overriding := false; om_overridden := []; om_bodyLines := (0)%Z |} [(Node 4 [] (VarDecl {| v_isParm := true; v_name := $"value"; v_used := false; v_referenced := false; v_local := false; v_staticMember := false; v_private := false; v_unusedAttr := false; v_defaultArg := false; v_canonicalType := $"int"; v_inTemplate := false; v_contexts := [CxObjCMethod true false false false; CxOther] |} None))] None))]))); (toplevel 5 (TOther), (Node 5 [] (ObjCContainerDecl {| oc_kind := OKInterface; oc_name := $"NSArray"; oc_lines := (6)%Z; oc_ivars := 0; oc_methods := [($"array", false); ($"arrayWithObject:", false); ($"arrayWithObjects:count:", false); ($"arrayWithObjects:", false)]; oc_classes := [$"NSArray"; $"NSObject"]; oc_superMethods := (Some ($"NSObject", [])) |} [(Node 6 [] (ObjCMethodDecl {| om_selector := $"array"; om_class := (Some $"NSArray"); om_overriding := false; om_overridden := []; om_bodyLines := (0)%Z |} [] None)); (Node 7 [] (ObjCMethodDecl {| om_selector := $"arrayWithObject:"; om_class := (Some $"NSArray"); om_overriding := false; om_overridden := []; om_bodyLines := (0)%Z |} [(Node 8 [] (VarDecl {| v_isParm := true; v_name := $"anObject"; v_used := false; v_referenced := false; v_local := false; v_staticMember := false; v_private := false; v_unusedAttr := false; v_defaultArg := false; v_canonicalType := $"struct objc_object *"; v_inTemplate := false; v_contexts := [CxObjCMethod true false false false; CxOther] |} None))] None)); (Node 9 [] (ObjCMethodDecl {| om_selector := $"arrayWithObjects:count:"; om_class := (Some $"NSArray"); om_overriding := false; om_overridden := []; om_bodyLines := (0)%Z |} [(Node 10 [] (VarDecl {| v_isParm := true; v_name := $"objects"; v_used := false; v_referenced := false; v_local := false; v_staticMember := false; v_private := false; v_unusedAttr := false; v_defaultArg := false; v_canonicalType := $"const id *"; v_inTemplate := false; v_contexts := [CxObjCMethod true false false false; CxOther] |} None)); (Node 11 [] (VarDecl {| v_isParm := true; v_name := $"cnt"; v_used := false; v_referenced := false; v_local := false; v_staticMember := false; v_private := false; v_unusedAttr := false; v_defaultArg := false; v_canonicalType := $"unsigned long"; v_inTemplate := false; v_contexts := [CxObjCMethod true false false false; CxOther] |} None))] None)); (Node 12 [] (ObjCMethodDecl {| om_selector := $"arrayWithObjects:"; om_class := (Some $"NSArray"); om_overriding := false; om_overridden := []; om_bodyLines := (0)%Z |} [(Node 13 [] (VarDecl {| v_isParm := true; v_name := $"firstObj"; v_used := false; v_referenced := false; v_local := false; v_staticMember := false; v_private := false; v_unusedAttr := false; v_defaultArg := false; v_canonicalType := $"struct objc_object *"; v_inTemplate := false; v_contexts := [CxObjCMethod true false false false; CxOther] |} None))] None))]))); (toplevel 14 (TFunction false), (Node 14 [] (FunctionDecl {| f_name := $"m"; f_method := None; f_isDefinition := true; f_bodyLines := (1)%Z |} [] (Some (Node 15 [] (CompoundStmt [(Node 16 [] (DeclStmt [(Node 17 [] (VarDecl {| v_isParm := false; v_name := $"a"; v_used := false; v_referenced := false; v_local := true; v_staticMember := false; v_private := false; v_unusedAttr := false; v_defaultArg := false; v_canonicalType := $"NSArray *"; v_inTemplate := false; v_contexts := [CxFunction true true false] |} (Some (Node 18 $"NSArray *" (ImplicitCastExpr CK_BitCast (Node 19 $"id" (ObjCMessageExpr {| ms_selector := $"array"; ms_receiver := (RClass $"NSArray"); ms_implicit := false; ms_interface := (Some $"NSArray"); ms_method := (Some (Decl [] (Some (Method false None (InOther (Some NoCategory)))))); ms_methodClass := (Some $"NSArray") |} None [])))))))]))]))))))];
     ts_locs := [(3,1,3,23); (4,1,5,2); (6,1,8,2); (7,1,7,39); (7,30,7,34); (9,1,14,2); (10,1,10,12); (11,1,11,35); (11,24,11,27); (12,1,12,66); (12,25,12,37); (12,52,12,63); (13,1,13,41); (13,25,13,28); (15,1,15,42); (15,10,15,42); (15,12,15,40); (15,12,15,39); (15,25,15,39); (15,25,15,39)]%Z;
     ts_evals := []; ts_same := []; ts_decls := []; ts_parents := [] |}.
Example ObjCContainerLiterals_ArrayWithArray_holds : nth_violation (shippedRule sh_ObjCContainerLiterals) ObjCContainerLiterals_ArrayWithArray 0 = Some (15, 25, 15, 39, $"")%Z.
Proof. vm_compute. reflexivity. Qed.

Definition ObjCContainerLiterals_ArrayLiteralWithObject : testcase :=
  {| ts_lang := LObjC; ts_path := $"input.m"; ts_code := [];
     ts_comments := []; ts_conf := [];
     ts_tops := [(toplevel 0 (TOther), (Node 0 [] (OtherDecl []))); (toplevel 1 (TOther), (Node 1 [] (ObjCContainerDecl {| oc_kind := OKInterface; oc_name := $"NSObject"; oc_lines := (2)%Z; oc_ivars := 0; oc_methods := []; oc_classes := [$"NSObject"]; oc_superMethods := None |} []))); (toplevel 2 (TOther), (Node 2 [] (ObjCContainerDecl {| oc_kind := OKInterface; oc_name := $"NSNumber"; oc_lines := (3)%Z; oc_ivars := 0; oc_methods := [($"numberWithInt:", false)]; oc_classes := [$"NSNumber"; $"NSObject"]; oc_superMethods := (Some ($"NSObject", [])) |} [(Node 3 [] (ObjCMethodDecl {| om_selector := $"numberWithInt:"; om_class := (Some $"NSNumber"); om_overriding := false; om_overridden := []; om_bodyLines := (0)%Z |} [(Node 4 [] (VarDecl {| v_isParm := true; v_name := $"value"; v_used := false; v_referenced := false; v_local := false; v_staticMember := false; v_private := false; v_unusedAttr := false; v_defaultArg := false; v_canonicalType := $"int"; v_inTemplate := false; v_contexts := [CxObjCMethod true false false false; CxOther] |} None))] None))]))); (toplevel 5 (TOther), (Node 5 [] (ObjCContainerDecl {| oc_kind := OKInterface; oc_name := $"NSArray"; oc_lines := (6)%Z; oc_ivars := 0; oc_methods := [($"array", false); ($"arrayWithObject:", false); ($"arrayWithObjects:count:", false); ($"arrayWithObjects:", false)]; oc_classes := [$"NSArray"; $"NSObject"]; oc_superMethods := (Some ($"NSObject", [])) |} [(Node 6 [] (ObjCMethodDecl {| om_selector := $"array"; om_class := (Some $"NSArray"); om_overriding := false; om_overridden := []; om_bodyLines := (0)%Z |} [] None)); (Node 7 [] (ObjCMethodDecl {| om_selector := $"arrayWithObject:"; om_class := (Some $"NSArray"); om_overriding := false; om_overridden := []; om_bodyLines := (0)%Z |} [(Node 8 [] (VarDecl {| v_isParm := true; v_name := $"anObject"; v_used := false; v_referenced := false; v_local := false; v_staticMember := false; v_private := false; v_unusedAttr := false; v_defaultArg := false; v_canonicalType := $"struct objc_object *"; v_inTemplate := false; v_contexts := [CxObjCMethod true false false false; CxOther] |} None))] None)); (Node 9 [] (ObjCMethodDecl {| om_selector := $"arrayWithObjects:count:"; om_class := (Some $"NSArray"); om_overriding := false; om_overridden := []; om_bodyLines := (0)%Z |} [(Node 10 [] (VarDecl {| v_isParm := true; v_name := $"objects"; v_used := false; v_referenced := false; v_local := false; v_staticMember := false; v_private := false; v_unusedAttr := false; v_defaultArg := false; v_canonicalType := $"const id *"; v_inTemplate := false; v_contexts := [CxObjCMethod true false false false; CxOther] |} None)); (Node 11 [] (VarDecl {| v_isParm := true; v_name := $"cnt"; v_used := false; v_referenced := false; v_local := false; v_staticMember := false; v_private := false; v_unusedAttr := false; v_defaultArg := false; v_canonicalType := $"unsigned long"; v_inTemplate := false; v_contexts := [CxObjCMethod true false false false; CxOther] |} None))] None)); (Node 12 [] (ObjCMethodDecl {| om_selector := $"arrayWithObjects:"; om_class := (Some $"NSArray"); om_overriding := false; om_overridden := []; om_bodyLines := (0)%Z |} [(Node 13 [] (VarDecl {| v_isParm := true; v_name := $"firstObj"; v_used := false; v_referenced := false; v_local := false; v_staticMember := false; v_private := false; v_unusedAttr := false; v_defaultArg := false; v_canonicalType := $"struct objc_object *"; v_inTemplate := false; v_contexts := [CxObjCMethod true false false false; CxOther] |} None))] None))]))); (toplevel 14 (TFunction false), (Node 14 [] (FunctionDecl {| f_name := $"m"; f_method := None; f_isDefinition := true; f_bodyLines := (1)%Z |} [] (Some (Node 15 [] (CompoundStmt [(Node 16 [] (DeclStmt [(Node 17 [] (VarDecl {| v_isParm := false; v_name := $"a"; v_used := false; v_referenced := false; v_local := true; v_staticMember := false; v_private := false; v_unusedAttr := false; v_defaultArg := false; v_canonicalType := $"NSArray *"; v_inTemplate := false; v_contexts := [CxFunction true true false] |} (Some (Node 18 $"NSArray *" (OtherExpr [(Node 19 $"NSNumber *" (OtherExpr [(Node 20 $"int" (IntegerLiteral (1)%Z))]))])))))]))]))))))];
     ts_locs := [(3,1,3,23); (4,1,5,2); (6,1,8,2); (7,1,7,39); (7,30,7,34); (9,1,14,2); (10,1,10,12); (11,1,11,35); (11,24,11,27); (12,1,12,66); (12,25,12,37); (12,52,12,63); (13,1,13,41); (13,25,13,28); (15,1,15,34); (15,10,15,34); (15,12,15,32); (15,12,15,31); (15,25,15,31); (15,28,15,29); (15,29,15,29)]%Z;
     ts_evals := []; ts_same := []; ts_decls := []; ts_parents := [] |}.
Example ObjCContainerLiterals_ArrayLiteralWithObject_holds : sorted_violations_of (shippedRule sh_ObjCContainerLiterals) ObjCContainerLiterals_ArrayLiteralWithObject = Some [].
Proof. vm_compute. reflexivity. Qed.

Definition ObjCContainerLiterals_ArrayWithObject : testcase :=
  {| ts_lang := LObjC; ts_path := $"input.m"; ts_code := [];
     ts_comments := []; ts_conf := [];
     ts_tops := [(toplevel 0 (TOther), (Node 0 [] (OtherDecl []))); (toplevel 1 (TOther), (Node 1 [] (ObjCContainerDecl {| oc_kind := OKInterface; oc_name := $"NSObject"; oc_lines := (2)%Z; oc_ivars := 0; oc_methods := []; oc_classes := [$"NSObject"]; oc_superMethods := None |} []))); (toplevel 2 (TOther), (Node 2 [] (ObjCContainerDecl {| oc_kind := OKInterface; oc_name := $"NSNumber"; oc_lines := (3)%Z; oc_ivars := 0; oc_methods := [($"numberWithInt:", false)]; oc_classes := [$"NSNumber"; $"NSObject"]; oc_superMethods := (Some ($"NSObject", [])) |} [(Node 3 [] (ObjCMethodDecl {| om_selector := $"numberWithInt:"; om_class := (Some $"NSNumber"); om_overriding := false; om_overridden := []; om_bodyLines := (0)%Z |} [(Node 4 [] (VarDecl {| v_isParm := true; v_name := $"value"; v_used := false; v_referenced := false; v_local := false; v_staticMember := false; v_private := false; v_unusedAttr := false; v_defaultArg := false; v_canonicalType := $"int"; v_inTemplate := false; v_contexts := [CxObjCMethod true false false false; CxOther] |} None))] None))]))); (toplevel 5 (TOther), (Node 5 [] (ObjCContainerDecl {| oc_kind := OKInterface; oc_name := $"NSArray"; oc_lines := (6)%Z; oc_ivars := 0; oc_methods := [($"array", false); ($"arrayWithObject:", false); ($"arrayWithObjects:count:", false); ($"arrayWithObjects:", false)]; oc_classes := [$"NSArray"; $"NSObject"]; oc_superMethods := (Some ($"NSObject", [])) |} [(Node 6 [] (ObjCMethodDecl {| om_selector := $"array"; om_class := (Some $"NSArray"); om_overriding := false; om_overridden := []; om_bodyLines := (0)%Z |} [] None)); (Node 7 [] (ObjCMethodDecl {| om_selector := $"arrayWithObject:"; om_class := (Some $"NSArray"); om_overriding := false; om_overridden := []; om_bodyLines := (0)%Z |} [(Node 8 [] (VarDecl {| v_isParm := true; v_name := $"anObject"; v_used := false; v_referenced := false; v_local := false; v_staticMember := false; v_private := false; v_unusedAttr := false; v_defaultArg := false; v_canonicalType := $"struct objc_object *"; v_inTemplate := false; v_contexts := [CxObjCMethod true false false false; CxOther] |} None))] None)); (Node 9 [] (ObjCMethodDecl {| om_selector := $"arrayWithObjects:count:"; om_class := (Some $"NSArray"); om_overriding := false; om_overridden := []; om_bodyLines := (0)%Z |} [(Node 10 [] (VarDecl {| v_isParm := true; v_name := $"objects"; v_used := false; v_referenced := false; v_local := false; v_staticMember := false; v_private := false; v_unusedAttr := false; v_defaultArg := false; v_canonicalType := $"const id *"; v_inTemplate := false; v_contexts := [CxObjCMethod true false false false; CxOther] |} None)); (Node 11 [] (VarDecl {| v_isParm := true; v_name := $"cnt"; v_used := false; v_referenced := false; v_local := false; v_staticMember := false; v_private := false; v_unusedAttr := false; v_defaultArg := false; v_canonicalType := $"unsigned long"; v_inTemplate := false; v_contexts := [CxObjCMethod true false false false; CxOther] |} None))] None)); (Node 12 [] (ObjCMethodDecl {| om_selector := $"arrayWithObjects:"; om_class := (Some $"NSArray"); om_overriding := false; om_overridden := []; om_bodyLines := (0)%Z |} [(Node 13 [] (VarDecl {| v_isParm := true; v_name := $"firstObj"; v_used := false; v_referenced := false; v_local := false; v_staticMember := false; v_private := false; v_unusedAttr := false; v_defaultArg := false; v_canonicalType := $"struct objc_object *"; v_inTemplate := false; v_contexts := [CxObjCMethod true false false false; CxOther] |} None))] None))]))); (toplevel 14 (TFunction false), (Node 14 [] (FunctionDecl {| f_name := $"m"; f_method := None; f_isDefinition := true; f_bodyLines := (1)%Z |} [] (Some (Node 15 [] (CompoundStmt [(Node 16 [] (DeclStmt [(Node 17 [] (VarDecl {| v_isParm := false; v_name := $"a"; v_used := false; v_referenced := false; v_local := true; v_staticMember := false; v_private := false; v_unusedAttr := false; v_defaultArg := false; v_canonicalType := $"NSArray *"; v_inTemplate := false; v_contexts := [CxFunction true true false] |} (Some (Node 18 $"NSArray *" (ImplicitCastExpr CK_BitCast (Node 19 $"id" (ObjCMessageExpr {| ms_selector := $"arrayWithObject:"; ms_receiver := (RClass $"NSArray"); ms_implicit := false; ms_interface := (Some $"NSArray"); ms_method := (Some (Decl [] (Some (Method false None (InOther (Some NoCategory)))))); ms_methodClass := (Some $"NSArray") |} None [(Node 20 $"id" (ImplicitCastExpr CK_BitCast (Node 21 $"NSNumber *" (OtherExpr [(Node 22 $"int" (IntegerLiteral (1)%Z))]))))])))))))]))]))))))];
     ts_locs := [(3,1,3,23); (4,1,5,2); (6,1,8,2); (7,1,7,39); (7,30,7,34); (9,1,14,2); (10,1,10,12); (11,1,11,35); (11,24,11,27); (12,1,12,66); (12,25,12,37); (12,52,12,63); (13,1,13,41); (13,25,13,28); (15,1,15,55); (15,10,15,55); (15,12,15,53); (15,12,15,52); (15,25,15,52); (15,25,15,52); (15,50,15,51); (15,50,15,51); (15,51,15,51)]%Z;
     ts_evals := []; ts_same := []; ts_decls := []; ts_parents := [] |}.
Example ObjCContainerLiterals_ArrayWithObject_holds : nth_violation (shippedRule sh_ObjCContainerLiterals) ObjCContainerLiterals_ArrayWithObject 0 = Some (15, 25, 15, 52, $"")%Z.
Proof. vm_compute. reflexivity. Qed.

Definition ObjCContainerLiterals_ArrayLiteralWithObjectsCount : testcase :=
  {| ts_lang := LObjC; ts_path := $"input.m"; ts_code := [];
     ts_comments := []; ts_conf := [];
     ts_tops := [(toplevel 0 (TOther), (Node 0 [] (OtherDecl []))); (toplevel 1 (TOther), (Node 1 [] (ObjCContainerDecl {| oc_kind := OKInterface; oc_name := $"NSObject"; oc_lines := (2)%Z; oc_ivars := 0; oc_methods := []; oc_classes := [$"NSObject"]; oc_superMethods := None |} []))); (toplevel 2 (TOther), (Node 2 [] (ObjCContainerDecl {| oc_kind := OKInterface; oc_name := $"NSNumber"; oc_lines := (3)%Z; oc_ivars := 0; oc_methods := [($"numberWithInt:", false)]; oc_classes := [$"NSNumber"; $"NSObject"]; oc_superMethods := (Some ($"NSObject", [])) |} [(Node 3 [] (ObjCMethodDecl {| om_selector := $"numberWithInt:"; om_class := (Some $"NSNumber"); om_overriding := false; om_overridden := []; om_bodyLines := (0)%Z |} [(Node 4 [] (VarDecl {| v_isParm := true; v_name := $"value"; v_used := false; v_referenced := false; v_local := false; v_staticMember := false; v_private := false; v_unusedAttr := false; v_defaultArg := false; v_canonicalType := $"int"; v_inTemplate := false; v_contexts := [CxObjCMethod true false false false; CxOther] |} None))] None))]))); (toplevel 5 (TOther), (Node 5 [] (ObjCContainerDecl {| oc_kind := OKInterface; oc_name := $"NSArray"; oc_lines := (6)%Z; oc_ivars := 0; oc_methods := [($"array", false); ($"arrayWithObject:", false); ($"arrayWithObjects:count:", false); ($"arrayWithObjects:", false)]; oc_classes := [$"NSArray"; $"NSObject"]; oc_superMethods := (Some ($"NSObject", [])) |} [(Node 6 [] (ObjCMethodDecl {| om_selector := $"array"; om_class := (Some $"NSArray"); om_overriding := false; om_overridden := []; om_bodyLines := (0)%Z |} [] None)); (Node 7 [] (ObjCMethodDecl {| om_selector := $"arrayWithObject:"; om_class := (Some $"NSArray"); om_overriding := false; om_overridden := []; om_bodyLines := (0)%Z |} [(Node 8 [] (VarDecl {| v_isParm := true; v_name := $"anObject"; v_used := false; v_referenced := false; v_local := false; v_staticMember := false; v_private := false; v_unusedAttr := false; v_defaultArg := false; v_canonicalType := $"struct objc_object *"; v_inTemplate := false; v_contexts := [CxObjCMethod true false false false; CxOther] |} None))] None)); (Node 9 [] (ObjCMethodDecl {| om_selector := $"arrayWithObjects:count:"; om_class := (Some $"NSArray"); om_overriding := false; om_overridden := []; om_bodyLines := (0)%Z |} [(Node 10 [] (VarDecl {| v_isParm := true; v_name := $"objects"; v_used := false; v_referenced := false; v_local := false; v_staticMember := false; v_private := false; v_unusedAttr := false; v_defaultArg := false; v_canonicalType := $"const id *"; v_inTemplate := false; v_contexts := [CxObjCMethod true false false false; CxOther] |} None)); (Node 11 [] (VarDecl {| v_isParm := true; v_name := $"cnt"; v_used := false; v_referenced := false; v_local := false; v_staticMember := false; v_private := false; v_unusedAttr := false; v_defaultArg := false; v_canonicalType := $"unsigned long"; v_inTemplate := false; v_contexts := [CxObjCMethod true false false false; CxOther] |} None))] None)); (Node 12 [] (ObjCMethodDecl {| om_selector := $"arrayWithObjects:"; om_class := (Some $"NSArray"); om_overriding := false; om_overridden := []; om_bodyLines := (0)%Z |} [(Node 13 [] (VarDecl {| v_isParm := true; v_name := $"firstObj"; v_used := false; v_referenced := false; v_local := false; v_staticMember := false; v_private := false; v_unusedAttr := false; v_defaultArg := false; v_canonicalType := $"struct objc_object *"; v_inTemplate := false; v_contexts := [CxObjCMethod true false false false; CxOther] |} None))] None))]))); (toplevel 14 (TFunction false), (Node 14 [] (FunctionDecl {| f_name := $"m"; f_method := None; f_isDefinition := true; f_bodyLines := (1)%Z |} [] (Some (Node 15 [] (CompoundStmt [(Node 16 [] (DeclStmt [(Node 17 [] (VarDecl {| v_isParm := false; v_name := $"a"; v_used := false; v_referenced := false; v_local := true; v_staticMember := false; v_private := false; v_unusedAttr := false; v_defaultArg := false; v_canonicalType := $"NSArray *"; v_inTemplate := false; v_contexts := [CxFunction true true false] |} (Some (Node 18 $"NSArray *" (OtherExpr [(Node 19 $"NSNumber *" (OtherExpr [(Node 20 $"int" (IntegerLiteral (1)%Z))])); (Node 21 $"NSNumber *" (OtherExpr [(Node 22 $"int" (IntegerLiteral (2)%Z))]))])))))]))]))))))];
     ts_locs := [(3,1,3,23); (4,1,5,2); (6,1,8,2); (7,1,7,39); (7,30,7,34); (9,1,14,2); (10,1,10,12); (11,1,11,35); (11,24,11,27); (12,1,12,66); (12,25,12,37); (12,52,12,63); (13,1,13,41); (13,25,13,28); (15,1,15,38); (15,10,15,38); (15,12,15,36); (15,12,15,35); (15,25,15,35); (15,28,15,29); (15,29,15,29); (15,32,15,33); (15,33,15,33)]%Z;
     ts_evals := []; ts_same := []; ts_decls := []; ts_parents := [] |}.
Example ObjCContainerLiterals_ArrayLiteralWithObjectsCount_holds : sorted_violations_of (shippedRule sh_ObjCContainerLiterals) ObjCContainerLiterals_ArrayLiteralWithObjectsCount = Some [].
Proof. vm_compute. reflexivity. Qed.

Definition ObjCContainerLiterals_ArrayWithObjectsCount : testcase :=
  {| ts_lang := LObjC; ts_path := $"input.m"; ts_code := [];
     ts_comments := []; ts_conf := [];
     ts_tops := [(toplevel 0 (TOther), (Node 0 [] (OtherDecl []))); (toplevel 1 (TOther), (Node 1 [] (ObjCContainerDecl {| oc_kind := OKInterface; oc_name := $"NSObject"; oc_lines := (2)%Z; oc_ivars := 0; oc_methods := []; oc_classes := [$"NSObject"]; oc_superMethods := None |} []))); (toplevel 2 (TOther), (Node 2 [] (ObjCContainerDecl {| oc_kind := OKInterface; oc_name := $"NSNumber"; oc_lines := (3)%Z; oc_ivars := 0; oc_methods := [($"numberWithInt:", false)]; oc_classes := [$"NSNumber"; $"NSObject"]; oc_superMethods := (Some ($"NSObject", [])) |} [(Node 3 [] (ObjCMethodDecl {| om_selector := $"numberWithInt:"; om_class := (Some $"NSNumber"); om_overriding := false; om_overridden := []; om_bodyLines := (0)%Z |} [(Node 4 [] (VarDecl {| v_isParm := true; v_name := $"value"; v_used := false; v_referenced := false; v_local := false; v_staticMember := false; v_private := false; v_unusedAttr := false; v_defaultArg := false; v_canonicalType := $"int"; v_inTemplate := false; v_contexts := [CxObjCMethod true false false false; CxOther] |} None))] None))]))); (toplevel 5 (TOther), (Node 5 [] (ObjCContainerDecl {| oc_kind := OKInterface; oc_name := $"NSArray"; oc_lines := (6)%Z; oc_ivars := 0; oc_methods := [($"array", false); ($"arrayWithObject:", false); ($"arrayWithObjects:count:", false); ($"arrayWithObjects:", false)]; oc_classes := [$"NSArray"; $"NSObject"]; oc_superMethods := (Some ($"NSObject", [])) |} [(Node 6 [] (ObjCMethodDecl {| om_selector := $"array"; om_class := (Some $"NSArray"); om_overriding := false; om_overridden := []; om_bodyLines := (0)%Z |} [] None)); (Node 7 [] (ObjCMethodDecl {| om_selector := $"arrayWithObject:"; om_class := (Some $"NSArray"); om_overriding := false; om_overridden := []; om_bodyLines := (0)%Z |} [(Node 8 [] (VarDecl {| v_isParm := true; v_name := $"anObject"; v_used := false; v_referenced := false; v_local := false; v_staticMember := false; v_private := false; v_unusedAttr := false; v_defaultArg := false; v_canonicalType := $"struct objc_object *"; v_inTemplate := false; v_contexts := [CxObjCMethod true false false false; CxOther] |} None))] None)); (Node 9 [] (ObjCMethodDecl {| om_selector := $"arrayWithObjects:count:"; om_class := (Some $"NSArray"); om_overriding := false; om_overridden := []; om_bodyLines := (0)%Z |} [(Node 10 [] (VarDecl {| v_isParm := true; v_name := $"objects"; v_used := false; v_referenced := false; v_local := false; v_staticMember := false; v_private := false; v_unusedAttr := false; v_defaultArg := false; v_canonicalType := $"const id *"; v_inTemplate := false; v_contexts := [CxObjCMethod true false false false; CxOther] |} None)); (Node 11 [] (VarDecl {| v_isParm := true; v_name := $"cnt"; v_used := false; v_referenced := false; v_local := false; v_staticMember := false; v_private := false; v_unusedAttr := false; v_defaultArg := false; v_canonicalType := $"unsigned long"; v_inTemplate := false; v_contexts := [CxObjCMethod true false false false; CxOther] |} None))] None)); (Node 12 [] (ObjCMethodDecl {| om_selector := $"arrayWithObjects:"; om_class := (Some $"NSArray"); om_overriding := false; om_overridden := []; om_bodyLines := (0)%Z |} [(Node 13 [] (VarDecl {| v_isParm := true; v_name := $"firstObj"; v_used := false; v_referenced := false; v_local := false; v_staticMember := false; v_private := false; v_unusedAttr := false; v_defaultArg := false; v_canonicalType := $"struct objc_object *"; v_inTemplate := false; v_contexts := [CxObjCMethod true false false false; CxOther] |} None))] None))]))); (toplevel 14 (TFunction false), (Node 14 [] (FunctionDecl {| f_name := $"m"; f_method := None; f_isDefinition := true; f_bodyLines := (1)%Z |} [] (Some (Node 15 [] (CompoundStmt [(Node 16 [] (DeclStmt [(Node 17 [] (VarDecl {| v_isParm := false; v_name := $"num"; v_used := true; v_referenced := true; v_local := true; v_staticMember := false; v_private := false; v_unusedAttr := false; v_defaultArg := false; v_canonicalType := $"NSNumber *[3]"; v_inTemplate := false; v_contexts := [CxFunction true true false] |} None))])); (Node 18 $"NSNumber *" (BinaryOperator BO_Assign (Node 19 $"NSNumber *" (OtherExpr [(Node 20 $"NSNumber **" (ImplicitCastExpr CK_Other (Node 21 $"NSNumber *[3]" (DeclRefExpr 17 $"num" false)))); (Node 22 $"int" (IntegerLiteral (0)%Z))])) (Node 23 $"NSNumber *" (OtherExpr [(Node 24 $"int" (IntegerLiteral (1)%Z))])))); (Node 25 $"NSNumber *" (BinaryOperator BO_Assign (Node 26 $"NSNumber *" (OtherExpr [(Node 27 $"NSNumber **" (ImplicitCastExpr CK_Other (Node 28 $"NSNumber *[3]" (DeclRefExpr 17 $"num" false)))); (Node 29 $"int" (IntegerLiteral (1)%Z))])) (Node 30 $"NSNumber *" (OtherExpr [(Node 31 $"int" (IntegerLiteral (2)%Z))])))); (Node 32 $"NSNumber *" (BinaryOperator BO_Assign (Node 33 $"NSNumber *" (OtherExpr [(Node 34 $"NSNumber **" (ImplicitCastExpr CK_Other (Node 35 $"NSNumber *[3]" (DeclRefExpr 17 $"num" false)))); (Node 36 $"int" (IntegerLiteral (2)%Z))])) (Node 37 $"NSNumber *" (OtherExpr [(Node 38 $"int" (IntegerLiteral (3)%Z))])))); (Node 39 [] (DeclStmt [(Node 40 [] (VarDecl {| v_isParm := false; v_name := $"a"; v_used := false; v_referenced := false; v_local := true; v_staticMember := false; v_private := false; v_unusedAttr := false; v_defaultArg := false; v_canonicalType := $"NSArray *"; v_inTemplate := false; v_contexts := [CxFunction true true false] |} (Some (Node 41 $"NSArray *" (ImplicitCastExpr CK_BitCast (Node 42 $"id" (ObjCMessageExpr {| ms_selector := $"arrayWithObjects:count:"; ms_receiver := (RClass $"NSArray"); ms_implicit := false; ms_interface := (Some $"NSArray"); ms_method := (Some (Decl [] (Some (Method false None (InOther (Some NoCategory)))))); ms_methodClass := (Some $"NSArray") |} None [(Node 43 $"const id *" (ImplicitCastExpr CK_BitCast (Node 44 $"NSNumber **" (ImplicitCastExpr CK_Other (Node 45 $"NSNumber *[3]" (DeclRefExpr 17 $"num" false)))))); (Node 46 $"NSUInteger" (ImplicitCastExpr CK_Other (Node 47 $"int" (IntegerLiteral (2)%Z))))])))))))]))]))))))];
     ts_locs := [(3,1,3,23); (4,1,5,2); (6,1,8,2); (7,1,7,39); (7,30,7,34); (9,1,14,2); (10,1,10,12); (11,1,11,35); (11,24,11,27); (12,1,12,66); (12,25,12,37); (12,52,12,63); (13,1,13,41); (13,25,13,28); (15,1,15,122); (15,10,15,122); (15,12,15,28); (15,12,15,27); (15,30,15,40); (15,30,15,35); (15,30,15,30); (15,30,15,30); (15,34,15,34); (15,39,15,40); (15,40,15,40); (15,43,15,53); (15,43,15,48); (15,43,15,43); (15,43,15,43); (15,47,15,47); (15,52,15,53); (15,53,15,53); (15,56,15,66); (15,56,15,61); (15,56,15,56); (15,56,15,56); (15,60,15,60); (15,65,15,66); (15,66,15,66); (15,69,15,120); (15,69,15,119); (15,82,15,119); (15,82,15,119); (15,108,15,108); (15,108,15,108); (15,108,15,108); (15,118,15,118); (15,118,15,118)]%Z;
     ts_evals := []; ts_same := []; ts_decls := []; ts_parents := [] |}.
Example ObjCContainerLiterals_ArrayWithObjectsCount_holds : nth_violation (shippedRule sh_ObjCContainerLiterals) ObjCContainerLiterals_ArrayWithObjectsCount 0 = Some (15, 82, 15, 119, $"")%Z.
Proof. vm_compute. reflexivity. Qed.

Definition ObjCContainerLiterals_ArrayLiteralWithObjects : testcase :=
  {| ts_lang := LObjC; ts_path := $"input.m"; ts_code := [];
     ts_comments := []; ts_conf := [];
     ts_tops := [(toplevel 0 (TOther), (Node 0 [] (OtherDecl []))); (toplevel 1 (TOther), (Node 1 [] (ObjCContainerDecl {| oc_kind := OKInterface; oc_name := $"NSObject"; oc_lines := (2)%Z; oc_ivars := 0; oc_methods := []; oc_classes := [$"NSObject"]; oc_superMethods := None |} []))); (toplevel 2 (TOther), (Node 2 [] (ObjCContainerDecl {| oc_kind := OKInterface; oc_name := $"NSNumber"; oc_lines := (3)%Z; oc_ivars := 0; oc_methods := [($"numberWithInt:", false)]; oc_classes := [$"NSNumber"; $"NSObject"]; oc_superMethods := (Some ($"NSObject", [])) |} [(Node 3 [] (ObjCMethodDecl {| om_selector := $"numberWithInt:"; om_class := (Some $"NSNumber"); om_overriding := false; om_overridden := []; om_bodyLines := (0)%Z |} [(Node 4 [] (VarDecl {| v_isParm := true; v_name := $"value"; v_used := false; v_referenced := false; v_local := false; v_staticMember := false; v_private := false; v_unusedAttr := false; v_defaultArg := false; v_canonicalType := $"int"; v_inTemplate := false; v_contexts := [CxObjCMethod true false false false; CxOther] |} None))] None))]))); (toplevel 5 (TOther), (Node 5 [] (ObjCContainerDecl {| oc_kind := OKInterface; oc_name := $"NSArray"; oc_lines := (6)%Z; oc_ivars := 0; oc_methods := [($"array", false); ($"arrayWithObject:", false); ($"arrayWithObjects:count:", false); ($"arrayWithObjects:", false)]; oc_classes := [$"NSArray"; $"NSObject"]; oc_superMethods := (Some ($"NSObject", [])) |} [(Node 6 [] (ObjCMethodDecl {| om_selector := $"array"; om_class := (Some $"NSArray"); om_overriding := false; om_overridden := []; om_bodyLines := (0)%Z |} [] None)); (Node 7 [] (ObjCMethodDecl {| om_selector := $"arrayWithObject:"; om_class := (Some $"NSArray"); om_overriding := false; om_overridden := []; om_bodyLines := (0)%Z |} [(Node 8 [] (VarDecl {| v_isParm := true; v_name := $"anObject"; v_used := false; v_referenced := false; v_local := false; v_staticMember := false; v_private := false; v_unusedAttr := false; v_defaultArg := false; v_canonicalType := $"struct objc_object *"; v_inTemplate := false; v_contexts := [CxObjCMethod true false false false; CxOther] |} None))] None)); (Node 9 [] (ObjCMethodDecl {| om_selector := $"arrayWithObjects:count:"; om_class := (Some $"NSArray"); om_overriding := false; om_overridden := []; om_bodyLines := (0)%Z |} [(Node 10 [] (VarDecl {| v_isParm := true; v_name := $"objects"; v_used := false; v_referenced := false; v_local := false; v_staticMember := false; v_private := false; v_unusedAttr := false; v_defaultArg := false; v_canonicalType := $"const id *"; v_inTemplate := false; v_contexts := [CxObjCMethod true false false false; CxOther] |} None)); (Node 11 [] (VarDecl {| v_isParm := true; v_name := $"cnt"; v_used := false; v_referenced := false; v_local := false; v_staticMember := false; v_private := false; v_unusedAttr := false; v_defaultArg := false; v_canonicalType := $"unsigned long"; v_inTemplate := false; v_contexts := [CxObjCMethod true false false false; CxOther] |} None))] None)); (Node 12 [] (ObjCMethodDecl {| om_selector := $"arrayWithObjects:"; om_class := (Some $"NSArray"); om_overriding := false; om_overridden := []; om_bodyLines := (0)%Z |} [(Node 13 [] (VarDecl {| v_isParm := true; v_name := $"firstObj"; v_used := false; v_referenced := false; v_local := false; v_staticMember := false; v_private := false; v_unusedAttr := false; v_defaultArg := false; v_canonicalType := $"struct objc_object *"; v_inTemplate := false; v_contexts := [CxObjCMethod true false false false; CxOther] |} None))] None))]))); (toplevel 14 (TFunction false), (Node 14 [] (FunctionDecl {| f_name := $"m"; f_method := None; f_isDefinition := true; f_bodyLines := (1)%Z |} [] (Some (Node 15 [] (CompoundStmt [(Node 16 [] (DeclStmt [(Node 17 [] (VarDecl {| v_isParm := false; v_name := $"a"; v_used := false; v_referenced := false; v_local := true; v_staticMember := false; v_private := false; v_unusedAttr := false; v_defaultArg := false; v_canonicalType := $"NSArray *"; v_inTemplate := false; v_contexts := [CxFunction true true false] |} (Some (Node 18 $"NSArray *" (OtherExpr [(Node 19 $"NSNumber *" (OtherExpr [(Node 20 $"int" (IntegerLiteral (1)%Z))])); (Node 21 $"NSNumber *" (OtherExpr [(Node 22 $"int" (IntegerLiteral (2)%Z))])); (Node 23 $"NSNumber *" (OtherExpr [(Node 24 $"int" (IntegerLiteral (3)%Z))]))])))))]))]))))))];
     ts_locs := [(3,1,3,23); (4,1,5,2); (6,1,8,2); (7,1,7,39); (7,30,7,34); (9,1,14,2); (10,1,10,12); (11,1,11,35); (11,24,11,27); (12,1,12,66); (12,25,12,37); (12,52,12,63); (13,1,13,41); (13,25,13,28); (15,1,15,42); (15,10,15,42); (15,12,15,40); (15,12,15,39); (15,25,15,39); (15,28,15,29); (15,29,15,29); (15,32,15,33); (15,33,15,33); (15,36,15,37); (15,37,15,37)]%Z;
     ts_evals := []; ts_same := []; ts_decls := []; ts_parents := [] |}.
Example ObjCContainerLiterals_ArrayLiteralWithObjects_holds : sorted_violations_of (shippedRule sh_ObjCContainerLiterals) ObjCContainerLiterals_ArrayLiteralWithObjects = Some [].
Proof. vm_compute. reflexivity. Qed.

Definition ObjCContainerLiterals_ArrayWithObjects : testcase :=
  {| ts_lang := LObjC; ts_path := $"input.m"; ts_code := [];
     ts_comments := []; ts_conf := [];
     ts_tops := [(toplevel 0 (TOther), (Node 0 [] (OtherDecl []))); (toplevel 1 (TOther), (Node 1 [] (ObjCContainerDecl {| oc_kind := OKInterface; oc_name := $"NSObject"; oc_lines := (2)%Z; oc_ivars := 0; oc_methods := []; oc_classes := [$"NSObject"]; oc_superMethods := None |} []))); (toplevel 2 (TOther), (Node 2 [] (ObjCContainerDecl {| oc_kind := OKInterface; oc_name := $"NSNumber"; oc_lines := (3)%Z; oc_ivars := 0; oc_methods := [($"numberWithInt:", false)]; oc_classes := [$"NSNumber"; $"NSObject"]; oc_superMethods := (Some ($"NSObject", [])) |} [(Node 3 [] (ObjCMethodDecl {| om_selector := $"numberWithInt:"; om_class := (Some $"NSNumber"); om_overriding := false; om_overridden := []; om_bodyLines := (0)%Z |} [(Node 4 [] (VarDecl {| v_isParm := true; v_name := $"value"; v_used := false; v_referenced := false; v_local := false; v_staticMember := false; v_private := false; v_unusedAttr := false; v_defaultArg := false; v_canonicalType := $"int"; v_inTemplate := false; v_contexts := [CxObjCMethod true false false false; CxOther] |} None))] None))]))); (toplevel 5 (TOther), (Node 5 [] (ObjCContainerDecl {| oc_kind := OKInterface; oc_name := $"NSArray"; oc_lines := (6)%Z; oc_ivars := 0; oc_methods := [($"array", false); ($"arrayWithObject:", false); ($"arrayWithObjects:count:", false); ($"arrayWithObjects:", false)]; oc_classes := [$"NSArray"; $"NSObject"]; oc_superMethods := (Some ($"NSObject", [])) |} [(Node 6 [] (ObjCMethodDecl {| om_selector := $"array"; om_class := (Some $"NSArray"); om_overriding := false; om_overridden := []; om_bodyLines := (0)%Z |} [] None)); (Node 7 [] (ObjCMethodDecl {| om_selector := $"arrayWithObject:"; om_class := (Some $"NSArray"); om_overriding := false; om_overridden := []; om_bodyLines := (0)%Z |} [(Node 8 [] (VarDecl {| v_isParm := true; v_name := $"anObject"; v_used := false; v_referenced := false; v_local := false; v_staticMember := false; v_private := false; v_unusedAttr := false; v_defaultArg := false; v_canonicalType := $"struct objc_object *"; v_inTemplate := false; v_contexts := [CxObjCMethod true false false false; CxOther] |} None))] None)); (Node 9 [] (ObjCMethodDecl {| om_selector := $"arrayWithObjects:count:"; om_class := (Some $"NSArray"); om_overriding := false; om_overridden := []; om_bodyLines := (0)%Z |} [(Node 10 [] (VarDecl {| v_isParm := true; v_name := $"objects"; v_used := false; v_referenced := false; v_local := false; v_staticMember := false; v_private := false; v_unusedAttr := false; v_defaultArg := false; v_canonicalType := $"const id *"; v_inTemplate := false; v_contexts := [CxObjCMethod true false false false; CxOther] |} None)); (Node 11 [] (VarDecl {| v_isParm := true; v_name := $"cnt"; v_used := false; v_referenced := false; v_local := false; v_staticMember := false; v_private := false; v_unusedAttr := false; v_defaultArg := false; v_canonicalType := $"unsigned long"; v_inTemplate := false; v_contexts := [CxObjCMethod true false false false; CxOther] |} None))] None)); (Node 12 [] (ObjCMethodDecl {| om_selector := $"arrayWithObjects:"; om_class := (Some $"NSArray"); om_overriding := false; om_overridden := []; om_bodyLines := (0)%Z |} [(Node 13 [] (VarDecl {| v_isParm := true; v_name := $"firstObj"; v_used := false; v_referenced := false; v_local := false; v_staticMember := false; v_private := false; v_unusedAttr := false; v_defaultArg := false; v_canonicalType := $"struct objc_object *"; v_inTemplate := false; v_contexts := [CxObjCMethod true false false false; CxOther] |} None))] None))]))); (toplevel 14 (TFunction false), (Node 14 [] (FunctionDecl {| f_name := $"m"; f_method := None; f_isDefinition := true; f_bodyLines := (1)%Z |} [] (Some (Node 15 [] (CompoundStmt [(Node 16 [] (DeclStmt [(Node 17 [] (VarDecl {| v_isParm := false; v_name := $"a"; v_used := false; v_referenced := false; v_local := true; v_staticMember := false; v_private := false; v_unusedAttr := false; v_defaultArg := false; v_canonicalType := $"NSArray *"; v_inTemplate := false; v_contexts := [CxFunction true true false] |} (Some (Node 18 $"NSArray *" (ImplicitCastExpr CK_BitCast (Node 19 $"id" (ObjCMessageExpr {| ms_selector := $"arrayWithObjects:"; ms_receiver := (RClass $"NSArray"); ms_implicit := false; ms_interface := (Some $"NSArray"); ms_method := (Some (Decl [] (Some (Method false None (InOther (Some NoCategory)))))); ms_methodClass := (Some $"NSArray") |} None [(Node 20 $"id" (ImplicitCastExpr CK_BitCast (Node 21 $"NSNumber *" (OtherExpr [(Node 22 $"int" (IntegerLiteral (1)%Z))])))); (Node 23 $"NSNumber *" (OtherExpr [(Node 24 $"int" (IntegerLiteral (2)%Z))])); (Node 25 $"NSNumber *" (OtherExpr [(Node 26 $"int" (IntegerLiteral (3)%Z))])); (Node 27 $"id" (CStyleCastExpr CK_NullToPointer (Node 28 $"int" (IntegerLiteral (0)%Z))))])))))))]))]))))))];
     ts_locs := [(3,1,3,23); (4,1,5,2); (6,1,8,2); (7,1,7,39); (7,30,7,34); (9,1,14,2); (10,1,10,12); (11,1,11,35); (11,24,11,27); (12,1,12,66); (12,25,12,37); (12,52,12,63); (13,1,13,41); (13,25,13,28); (15,1,15,69); (15,10,15,69); (15,12,15,67); (15,12,15,66); (15,25,15,66); (15,25,15,66); (15,51,15,52); (15,51,15,52); (15,52,15,52); (15,55,15,56); (15,56,15,56); (15,59,15,60); (15,60,15,60); (15,63,15,63); (15,63,15,63)]%Z;
     ts_evals := []; ts_same := []; ts_decls := []; ts_parents := [] |}.
Example ObjCContainerLiterals_ArrayWithObjects_holds : nth_violation (shippedRule sh_ObjCContainerLiterals) ObjCContainerLiterals_ArrayWithObjects 0 = Some (15, 25, 15, 66, $"")%Z.
Proof. vm_compute. reflexivity. Qed.

Definition ObjCContainerLiterals_DictionaryLiteralWithDictionary : testcase :=
  {| ts_lang := LObjC; ts_path := $"input.m"; ts_code := [];
     ts_comments := []; ts_conf := [];
     ts_tops := [(toplevel 0 (TOther), (Node 0 [] (OtherDecl []))); (toplevel 1 (TOther), (Node 1 [] (ObjCContainerDecl {| oc_kind := OKInterface; oc_name := $"NSObject"; oc_lines := (2)%Z; oc_ivars := 0; oc_methods := []; oc_classes := [$"NSObject"]; oc_superMethods := None |} []))); (toplevel 2 (TOther), (Node 2 [] (ObjCContainerDecl {| oc_kind := OKInterface; oc_name := $"NSNumber"; oc_lines := (3)%Z; oc_ivars := 0; oc_methods := [($"numberWithInt:", false)]; oc_classes := [$"NSNumber"; $"NSObject"]; oc_superMethods := (Some ($"NSObject", [])) |} [(Node 3 [] (ObjCMethodDecl {| om_selector := $"numberWithInt:"; om_class := (Some $"NSNumber"); om_overriding := false; om_overridden := []; om_bodyLines := (0)%Z |} [(Node 4 [] (VarDecl {| v_isParm := true; v_name := $"value"; v_used := false; v_referenced := false; v_local := false; v_staticMember := false; v_private := false; v_unusedAttr := false; v_defaultArg := false; v_canonicalType := $"int"; v_inTemplate := false; v_contexts := [CxObjCMethod true false false false; CxOther] |} None))] None))]))); (toplevel 5 (TOther), (Node 5 [] (ObjCContainerDecl {| oc_kind := OKInterface; oc_name := $"NSArray"; oc_lines := (3)%Z; oc_ivars := 0; oc_methods := [($"arrayWithObjects:count:", false)]; oc_classes := [$"NSArray"; $"NSObject"]; oc_superMethods := (Some ($"NSObject", [])) |} [(Node 6 [] (ObjCMethodDecl {| om_selector := $"arrayWithObjects:count:"; om_class := (Some $"NSArray"); om_overriding := false; om_overridden := []; om_bodyLines := (0)%Z |} [(Node 7 [] (VarDecl {| v_isParm := true; v_name := $"objects"; v_used := false; v_referenced := false; v_local := false; v_staticMember := false; v_private := false; v_unusedAttr := false; v_defaultArg := false; v_canonicalType := $"const id *"; v_inTemplate := false; v_contexts := [CxObjCMethod true false false false; CxOther] |} None)); (Node 8 [] (VarDecl {| v_isParm := true; v_name := $"cnt"; v_used := false; v_referenced := false; v_local := false; v_staticMember := false; v_private := false; v_unusedAttr := false; v_defaultArg := false; v_canonicalType := $"unsigned long"; v_inTemplate := false; v_contexts := [CxObjCMethod true false false false; CxOther] |} None))] None))]))); (toplevel 9 (TOther), (Node 9 [] (ObjCContainerDecl {| oc_kind := OKInterface; oc_name := $"NSDictionary"; oc_lines := (7)%Z; oc_ivars := 0; oc_methods := [($"dictionary", false); ($"dictionaryWithObject:forKey:", false); ($"dictionaryWithObjects:forKeys:count:", false); ($"dictionaryWithObjectsAndKeys:", false); ($"dictionaryWithObjects:forKeys:", false)]; oc_classes := [$"NSDictionary"; $"NSObject"]; oc_superMethods := (Some ($"NSObject", [])) |} [(Node 10 [] (ObjCMethodDecl {| om_selector := $"dictionary"; om_class := (Some $"NSDictionary"); om_overriding := false; om_overridden := []; om_bodyLines := (0)%Z |} [] None)); (Node 11 [] (ObjCMethodDecl {| om_selector := $"dictionaryWithObject:forKey:"; om_class := (Some $"NSDictionary"); om_overriding := false; om_overridden := []; om_bodyLines := (0)%Z |} [(Node 12 [] (VarDecl {| v_isParm := true; v_name := $"object"; v_used := false; v_referenced := false; v_local := false; v_staticMember := false; v_private := false; v_unusedAttr := false; v_defaultArg := false; v_canonicalType := $"struct objc_object *"; v_inTemplate := false; v_contexts := [CxObjCMethod true false false false; CxOther] |} None)); (Node 13 [] (VarDecl {| v_isParm := true; v_name := $"key"; v_used := false; v_referenced := false; v_local := false; v_staticMember := false; v_private := false; v_unusedAttr := false; v_defaultArg := false; v_canonicalType := $"struct objc_object *"; v_inTemplate := false; v_contexts := [CxObjCMethod true false false false; CxOther] |} None))] None)); (Node 14 [] (ObjCMethodDecl {| om_selector := $"dictionaryWithObjects:forKeys:count:"; om_class := (Some $"NSDictionary"); om_overriding := false; om_overridden := []; om_bodyLines := (0)%Z |} [(Node 15 [] (VarDecl {| v_isParm := true; v_name := $"objects"; v_used := false; v_referenced := false; v_local := false; v_staticMember := false; v_private := false; v_unusedAttr := false; v_defaultArg := false; v_canonicalType := $"const id *"; v_inTemplate := false; v_contexts := [CxObjCMethod true false false false; CxOther] |} None)); (Node 16 [] (VarDecl {| v_isParm := true; v_name := $"keys"; v_used := false; v_referenced := false; v_local := false; v_staticMember := false; v_private := false; v_unusedAttr := false; v_defaultArg := false; v_canonicalType := $"const id *"; v_inTemplate := false; v_contexts := [CxObjCMethod true false false false; CxOther] |} None)); (Node 17 [] (VarDecl {| v_isParm := true; v_name := $"cnt"; v_used := false; v_referenced := false; v_local := false; v_staticMember := false; v_private := false; v_unusedAttr := false; v_defaultArg := false; v_canonicalType := $"unsigned long"; v_inTemplate := false; v_contexts := [CxObjCMethod true false false false; CxOther] |} None))] None)); (Node 18 [] (ObjCMethodDecl {| om_selector := $"dictionaryWithObjectsAndKeys:"; om_class := (Some $"NSDictionary"); om_overriding := false; om_overridden := []; om_bodyLines := (0)%Z |} [(Node 19 [] (VarDecl {| v_isParm := true; v_name := $"firstObject"; v_used := false; v_referenced := false; v_local := false; v_staticMember := false; v_private := false; v_unusedAttr := false; v_defaultArg := false; v_canonicalType := $"struct objc_object *"; v_inTemplate := false; v_contexts := [CxObjCMethod true false false false; CxOther] |} None))] None)); (Node 20 [] (ObjCMethodDecl {| om_selector := $"dictionaryWithObjects:forKeys:"; om_class := (Some $"NSDictionary"); om_overriding := false; om_overridden := []; om_bodyLines := (0)%Z |} [(Node 21 [] (VarDecl {| v_isParm := true; v_name := $"objects"; v_used := false; v_referenced := false; v_local := false; v_staticMember := false; v_private := false; v_unusedAttr := false; v_defaultArg := false; v_canonicalType := $"NSArray *"; v_inTemplate := false; v_contexts := [CxObjCMethod true false false false; CxOther] |} None)); (Node 22 [] (VarDecl {| v_isParm := true; v_name := $"keys"; v_used := false; v_referenced := false; v_local := false; v_staticMember := false; v_private := false; v_unusedAttr := false; v_defaultArg := false; v_canonicalType := $"NSArray *"; v_inTemplate := false; v_contexts := [CxObjCMethod true false false false; CxOther] |} None))] None))]))); (toplevel 23 (TFunction false), (Node 23 [] (FunctionDecl {| f_name := $"m"; f_method := None; f_isDefinition := true; f_bodyLines := (1)%Z |} [] (Some (Node 24 [] (CompoundStmt [(Node 25 [] (DeclStmt [(Node 26 [] (VarDecl {| v_isParm := false; v_name := $"d"; v_used := false; v_referenced := false; v_local := true; v_staticMember := false; v_private := false; v_unusedAttr := false; v_defaultArg := false; v_canonicalType := $"NSDictionary *"; v_inTemplate := false; v_contexts := [CxFunction true true false] |} (Some (Node 27 $"NSDictionary *" (OtherExpr [])))))]))]))))))];
     ts_locs := [(3,1,3,23); (4,1,5,2); (6,1,8,2); (7,1,7,39); (7,30,7,34); (9,1,11,2); (10,1,10,66); (10,25,10,37); (10,52,10,63); (12,1,18,2); (13,1,13,17); (14,1,14,53); (14,29,14,32); (14,47,14,50); (15,1,15,97); (15,30,15,42); (15,59,15,71); (15,83,15,94); (16,1,16,56); (16,37,16,40); (17,1,17,71); (17,30,17,40); (17,57,17,67); (19,1,19,35); (19,10,19,35); (19,12,19,33); (19,12,19,32); (19,30,19,32)]%Z;
     ts_evals := []; ts_same := []; ts_decls := []; ts_parents := [] |}.
Example ObjCContainerLiterals_DictionaryLiteralWithDictionary_holds : sorted_violations_of (shippedRule sh_ObjCContainerLiterals) ObjCContainerLiterals_DictionaryLiteralWithDictionary = Some [].
Proof. vm_compute. reflexivity. Qed.

Definition ObjCContainerLiterals_DictionaryWithDictionary : testcase :=
  {| ts_lang := LObjC; ts_path := $"input.m"; ts_code := [];
     ts_comments := []; ts_conf := [];
     ts_tops := [(toplevel 0 (TOther), (Node 0 [] (OtherDecl []))); (toplevel 1 (TOther), (Node 1 [] (ObjCContainerDecl {| oc_kind := OKInterface; oc_name := $"NSObject"; oc_lines := (2)%Z; oc_ivars := 0; oc_methods := []; oc_classes := [$"NSObject"]; oc_superMethods := None |} []))); (toplevel 2 (TOther), (Node 2 [] (ObjCContainerDecl {| oc_kind := OKInterface; oc_name := $"NSNumber"; oc_lines := (3)%Z; oc_ivars := 0; oc_methods := [($"numberWithInt:", false)]; oc_classes := [$"NSNumber"; $"NSObject"]; oc_superMethods := (Some ($"NSObject", [])) |} [(Node 3 [] (ObjCMethodDecl {| om_selector := $"numberWithInt:"; om_class := (Some $"NSNumber"); om_overriding := false; om_overridden := []; om_bodyLines := (0)%Z |} [(Node 4 [] (VarDecl {| v_isParm := true; v_name := $"value"; v_used := false; v_referenced := false; v_local := false; v_staticMember := false; v_private := false; v_unusedAttr := false; v_defaultArg := false; v_canonicalType := $"int"; v_inTemplate := false; v_contexts := [CxObjCMethod true false false false; CxOther] |} None))] None))]))); (toplevel 5 (TOther), (Node 5 [] (ObjCContainerDecl {| oc_kind := OKInterface; oc_name := $"NSArray"; oc_lines := (3)%Z; oc_ivars := 0; oc_methods := [($"arrayWithObjects:count:", false)]; oc_classes := [$"NSArray"; $"NSObject"]; oc_superMethods := (Some ($"NSObject", [])) |} [(Node 6 [] (ObjCMethodDecl {| om_selector := $"arrayWithObjects:count:"; om_class := (Some $"NSArray"); om_overriding := false; om_overridden := []; om_bodyLines := (0)%Z |} [(Node 7 [] (VarDecl {| v_isParm := true; v_name := $"objects"; v_used := false; v_referenced := false; v_local := false; v_staticMember := false; v_private := false; v_unusedAttr := false; v_defaultArg := false; v_canonicalType := $"const id *"; v_inTemplate := false; v_contexts := [CxObjCMethod true false false false; CxOther] |} None)); (Node 8 [] (VarDecl {| v_isParm := true; v_name := $"cnt"; v_used := false; v_referenced := false; v_local := false; v_staticMember := false; v_private := false; v_unusedAttr := false; v_defaultArg := false; v_canonicalType := $"unsigned long"; v_inTemplate := false; v_contexts := [CxObjCMethod true false false false; CxOther] |} None))] None))]))); (toplevel 9 (TOther), (Node 9 [] (ObjCContainerDecl {| oc_kind := OKInterface; oc_name := $"NSDictionary"; oc_lines := (7)%Z; oc_ivars := 0; oc_methods := [($"dictionary", false); ($"dictionaryWithObject:forKey:", false); ($"dictionaryWithObjects:forKeys:count:", false); ($"dictionaryWithObjectsAndKeys:", false); ($"dictionaryWithObjects:forKeys:", false)]; oc_classes := [$"NSDictionary"; $"NSObject"]; oc_superMethods := (Some ($"NSObject", [])) |} [(Node 10 [] (ObjCMethodDecl {| om_selector := $"dictionary"; om_class := (Some $"NSDictionary"); om_overriding := false; om_overridden := []; om_bodyLines := (0)%Z |} [] None)); (Node 11 [] (ObjCMethodDecl {| om_selector := $"dictionaryWithObject:forKey:"; om_class := (Some $"NSDictionary"); om_overriding := false; om_overridden := []; om_bodyLines := (0)%Z |} [(Node 12 [] (VarDecl {| v_isParm := true; v_name := $"object"; v_used := false; v_referenced := false; v_local := false; v_staticMember := false; v_private := false; v_unusedAttr := false; v_defaultArg := false; v_canonicalType := $"struct objc_object *"; v_inTemplate := false; v_contexts := [CxObjCMethod true false false false; CxOther] |} None)); (Node 13 [] (VarDecl {| v_isParm := true; v_name := $"key"; v_used := false; v_referenced := false; v_local := false; v_staticMember := false; v_private := false; v_unusedAttr := false; v_defaultArg := false; v_canonicalType := $"struct objc_object *"; v_inTemplate := false; v_contexts := [CxObjCMethod true false false false; CxOther] |} None))] None)); (Node 14 [] (ObjCMethodDecl {| om_selector := $"dictionaryWithObjects:forKeys:count:"; om_class := (Some $"NSDictionary"); om_overriding := false; om_overridden := []; om_bodyLines := (0)%Z |} [(Node 15 [] (VarDecl {| v_isParm := true; v_name := $"objects"; v_used := false; v_referenced := false; v_local := false; v_staticMember := false; v_private := false; v_unusedAttr := false; v_defaultArg := false; v_canonicalType := $"const id *"; v_inTemplate := false; v_contexts := [CxObjCMethod true false false false; CxOther] |} None)); (Node 16 [] (VarDecl {| v_isParm := true; v_name := $"keys"; v_used := false; v_referenced := false; v_local := false; v_staticMember := false; v_private := false; v_unusedAttr := false; v_defaultArg := false; v_canonicalType := $"const id *"; v_inTemplate := false; v_contexts := [CxObjCMethod true false false false; CxOther] |} None)); (Node 17 [] (VarDecl {| v_isParm := true; v_name := $"cnt"; v_used := false; v_referenced := false; v_local := false; v_staticMember := false; v_private := false; v_unusedAttr := false; v_defaultArg := false; v_canonicalType := $"unsigned long"; v_inTemplate := false; v_contexts := [CxObjCMethod true false false false; CxOther] |} None))] None)); (Node 18 [] (ObjCMethodDecl {| om_selector := $"dictionaryWithObjectsAndKeys:"; om_class := (Some $"NSDictionary"); om_overriding := false; om_overridden := []; om_bodyLines := (0)%Z |} [(Node 19 [] (VarDecl {| v_isParm := true; v_name := $"firstObject"; v_used := false; v_referenced := false; v_local := false; v_staticMember := false; v_private := false; v_unusedAttr := false; v_defaultArg := false; v_canonicalType := $"struct objc_object *"; v_inTemplate := false; v_contexts := [CxObjCMethod true false false false; CxOther] |} None))] None)); (Node 20 [] (ObjCMethodDecl {| om_selector := $"dictionaryWithObjects:forKeys:"; om_class := (Some $"NSDictionary"); om_overriding := false; om_overridden := []; om_bodyLines := (0)%Z |} [(Node 21 [] (VarDecl {| v_isParm := true; v_name := $"objects"; v_used := false; v_referenced := false; v_local := false; v_staticMember := false; v_private := false; v_unusedAttr := false; v_defaultArg := false; v_canonicalType := $"NSArray *"; v_inTemplate := false; v_contexts := [CxObjCMethod true false false false; CxOther] |} None)); (Node 22 [] (VarDecl {| v_isParm := true; v_name := $"keys"; v_used := false; v_referenced := false; v_local := false; v_staticMember := false; v_private := false; v_unusedAttr := false; v_defaultArg := false; v_canonicalType := $"NSArray *"; v_inTemplate := false; v_contexts := [CxObjCMethod true false false false; CxOther] |} None))] None))]))); (toplevel 23 (TFunction false), (Node 23 [] (FunctionDecl {| f_name := $"m"; f_method := None; f_isDefinition := true; f_bodyLines := (1)%Z |} [] (Some (Node 24 [] (CompoundStmt [(Node 25 [] (DeclStmt [(Node 26 [] (VarDecl {| v_isParm := false; v_name := $"d"; v_used := false; v_referenced := false; v_local := true; v_staticMember := false; v_private := false; v_unusedAttr := false; v_defaultArg := false; v_canonicalType := $"NSDictionary *"; v_inTemplate := false; v_contexts := [CxFunction true true false] |} (Some (Node 27 $"NSDictionary *" (ImplicitCastExpr CK_BitCast (Node 28 $"id" (ObjCMessageExpr {| ms_selector := $"dictionary"; ms_receiver := (RClass $"NSDictionary"); ms_implicit := false; ms_interface := (Some $"NSDictionary"); ms_method := (Some (Decl [] (Some (Method false None (InOther (Some NoCategory)))))); ms_methodClass := (Some $"NSDictionary") |} None [])))))))]))]))))))];
     ts_locs := [(3,1,3,23); (4,1,5,2); (6,1,8,2); (7,1,7,39); (7,30,7,34); (9,1,11,2); (10,1,10,66); (10,25,10,37); (10,52,10,63); (12,1,18,2); (13,1,13,17); (14,1,14,53); (14,29,14,32); (14,47,14,50); (15,1,15,97); (15,30,15,42); (15,59,15,71); (15,83,15,94); (16,1,16,56); (16,37,16,40); (17,1,17,71); (17,30,17,40); (17,57,17,67); (19,1,19,57); (19,10,19,57); (19,12,19,55); (19,12,19,54); (19,30,19,54); (19,30,19,54)]%Z;
     ts_evals := []; ts_same := []; ts_decls := []; ts_parents := [] |}.
Example ObjCContainerLiterals_DictionaryWithDictionary_holds : nth_violation (shippedRule sh_ObjCContainerLiterals) ObjCContainerLiterals_DictionaryWithDictionary 0 = Some (19, 30, 19, 54, $"")%Z.
Proof. vm_compute. reflexivity. Qed.

Definition ObjCContainerLiterals_DictionaryLiteralWithObjectForKey : testcase :=
  {| ts_lang := LObjC; ts_path := $"input.m"; ts_code := [];
     ts_comments := []; ts_conf := [];
     ts_tops := [(toplevel 0 (TOther), (Node 0 [] (OtherDecl []))); (toplevel 1 (TOther), (Node 1 [] (ObjCContainerDecl {| oc_kind := OKInterface; oc_name := $"NSObject"; oc_lines := (2)%Z; oc_ivars := 0; oc_methods := []; oc_classes := [$"NSObject"]; oc_superMethods := None |} []))); (toplevel 2 (TOther), (Node 2 [] (ObjCContainerDecl {| oc_kind := OKInterface; oc_name := $"NSNumber"; oc_lines := (3)%Z; oc_ivars := 0; oc_methods := [($"numberWithInt:", false)]; oc_classes := [$"NSNumber"; $"NSObject"]; oc_superMethods := (Some ($"NSObject", [])) |} [(Node 3 [] (ObjCMethodDecl {| om_selector := $"numberWithInt:"; om_class := (Some $"NSNumber"); om_overriding := false; om_overridden := []; om_bodyLines := (0)%Z |} [(Node 4 [] (VarDecl {| v_isParm := true; v_name := $"value"; v_used := false; v_referenced := false; v_local := false; v_staticMember := false; v_private := false; v_unusedAttr := false; v_defaultArg := false; v_canonicalType := $"int"; v_inTemplate := false; v_contexts := [CxObjCMethod true false false false; CxOther] |} None))] None))]))); (toplevel 5 (TOther), (Node 5 [] (ObjCContainerDecl {| oc_kind := OKInterface; oc_name := $"NSArray"; oc_lines := (3)%Z; oc_ivars := 0; oc_methods := [($"arrayWithObjects:count:", false)]; oc_classes := [$"NSArray"; $"NSObject"]; oc_superMethods := (Some ($"NSObject", [])) |} [(Node 6 [] (ObjCMethodDecl {| om_selector := $"arrayWithObjects:count:"; om_class := (Some $"NSArray"); om_overriding := false; om_overridden := []; om_bodyLines := (0)%Z |} [(Node 7 [] (VarDecl {| v_isParm := true; v_name := $"objects"; v_used := false; v_referenced := false; v_local := false; v_staticMember := false; v_private := false; v_unusedAttr := false; v_defaultArg := false; v_canonicalType := $"const id *"; v_inTemplate := false; v_contexts := [CxObjCMethod true false false false; CxOther] |} None)); (Node 8 [] (VarDecl {| v_isParm := true; v_name := $"cnt"; v_used := false; v_referenced := false; v_local := false; v_staticMember := false; v_private := false; v_unusedAttr := false; v_defaultArg := false; v_canonicalType := $"unsigned long"; v_inTemplate := false; v_contexts := [CxObjCMethod true false false false; CxOther] |} None))] None))]))); (toplevel 9 (TOther), (Node 9 [] (ObjCContainerDecl {| oc_kind := OKInterface; oc_name := $"NSDictionary"; oc_lines := (7)%Z; oc_ivars := 0; oc_methods := [($"dictionary", false); ($"dictionaryWithObject:forKey:", false); ($"dictionaryWithObjects:forKeys:count:", false); ($"dictionaryWithObjectsAndKeys:", false); ($"dictionaryWithObjects:forKeys:", false)]; oc_classes := [$"NSDictionary"; $"NSObject"]; oc_superMethods := (Some ($"NSObject", [])) |} [(Node 10 [] (ObjCMethodDecl {| om_selector := $"dictionary"; om_class := (Some $"NSDictionary"); om_overriding := false; om_overridden := []; om_bodyLines := (0)%Z |} [] None)); (Node 11 [] (ObjCMethodDecl {| om_selector := $"dictionaryWithObject:forKey:"; om_class := (Some $"NSDictionary"); om_overriding := false; om_overridden := []; om_bodyLines := (0)%Z |} [(Node 12 [] (VarDecl {| v_isParm := true; v_name := $"object"; v_used := false; v_referenced := false; v_local := false; v_staticMember := false; v_private := false; v_unusedAttr := false; v_defaultArg := false; v_canonicalType := $"struct objc_object *"; v_inTemplate := false; v_contexts := [CxObjCMethod true false false false; CxOther] |} None)); (Node 13 [] (VarDecl {| v_isParm := true; v_name := $"key"; v_used := false; v_referenced := false; v_local := false; v_staticMember := false; v_private := false; v_unusedAttr := false; v_defaultArg := false; v_canonicalType := $"struct objc_object *"; v_inTemplate := false; v_contexts := [CxObjCMethod true false false false; CxOther] |} None))] None)); (Node 14 [] (ObjCMethodDecl {| om_selector := $"dictionaryWithObjects:forKeys:count:"; om_class := (Some $"NSDictionary"); om_overriding := false; om_overridden := []; om_bodyLines := (0)%Z |} [(Node 15 [] (VarDecl {| v_isParm := true; v_name := $"objects"; v_used := false; v_referenced := false; v_local := false; v_staticMember := false; v_private := false; v_unusedAttr := false; v_defaultArg := false; v_canonicalType := $"const id *"; v_inTemplate := false; v_contexts := [CxObjCMethod true false false false; CxOther] |} None)); (Node 16 [] (VarDecl {| v_isParm := true; v_name := $"keys"; v_used := false; v_referenced := false; v_local := false; v_staticMember := false; v_private := false; v_unusedAttr := false; v_defaultArg := false; v_canonicalType := $"const id *"; v_inTemplate := false; v_contexts := [CxObjCMethod true false false false; CxOther] |} None)); (Node 17 [] (VarDecl {| v_isParm := true; v_name := $"cnt"; v_used := false; v_referenced := false; v_local := false; v_staticMember := false; v_private := false; v_unusedAttr := false; v_defaultArg := false; v_canonicalType := $"unsigned long"; v_inTemplate := false; v_contexts := [CxObjCMethod true false false false; CxOther] |} None))] None)); (Node 18 [] (ObjCMethodDecl {| om_selector := $"dictionaryWithObjectsAndKeys:"; om_class := (Some $"NSDictionary"); om_overriding := false; om_overridden := []; om_bodyLines := (0)%Z |} [(Node 19 [] (VarDecl {| v_isParm := true; v_name := $"firstObject"; v_used := false; v_referenced := false; v_local := false; v_staticMember := false; v_private := false; v_unusedAttr := false; v_defaultArg := false; v_canonicalType := $"struct objc_object *"; v_inTemplate := false; v_contexts := [CxObjCMethod true false false false; CxOther] |} None))] None)); (Node 20 [] (ObjCMethodDecl {| om_selector := $"dictionaryWithObjects:forKeys:"; om_class := (Some $"NSDictionary"); om_overriding := false; om_overridden := []; om_bodyLines := (0)%Z |} [(Node 21 [] (VarDecl {| v_isParm := true; v_name := $"objects"; v_used := false; v_referenced := false; v_local := false; v_staticMember := false; v_private := false; v_unusedAttr := false; v_defaultArg := false; v_canonicalType := $"NSArray *"; v_inTemplate := false; v_contexts := [CxObjCMethod true false false false; CxOther] |} None)); (Node 22 [] (VarDecl {| v_isParm := true; v_name := $"keys"; v_used := false; v_referenced := false; v_local := false; v_staticMember := false; v_private := false; v_unusedAttr := false; v_defaultArg := false; v_canonicalType := $"NSArray *"; v_inTemplate := false; v_contexts := [CxObjCMethod true false false false; CxOther] |} None))] None))]))); (toplevel 23 (TFunction false), (Node 23 [] (FunctionDecl {| f_name := $"m"; f_method := None; f_isDefinition := true; f_bodyLines := (1)%Z |} [] (Some (Node 24 [] (CompoundStmt [(Node 25 [] (DeclStmt [(Node 26 [] (VarDecl {| v_isParm := false; v_name := $"d"; v_used := false; v_referenced := false; v_local := true; v_staticMember := false; v_private := false; v_unusedAttr := false; v_defaultArg := false; v_canonicalType := $"NSDictionary *"; v_inTemplate := false; v_contexts := [CxFunction true true false] |} (Some (Node 27 $"NSDictionary *" (OtherExpr [(Node 28 $"NSNumber *" (OtherExpr [(Node 29 $"int" (IntegerLiteral (1)%Z))])); (Node 30 $"NSNumber *" (OtherExpr [(Node 31 $"int" (IntegerLiteral (2)%Z))]))])))))]))]))))))];
     ts_locs := [(3,1,3,23); (4,1,5,2); (6,1,8,2); (7,1,7,39); (7,30,7,34); (9,1,11,2); (10,1,10,66); (10,25,10,37); (10,52,10,63); (12,1,18,2); (13,1,13,17); (14,1,14,53); (14,29,14,32); (14,47,14,50); (15,1,15,97); (15,30,15,42); (15,59,15,71); (15,83,15,94); (16,1,16,56); (16,37,16,40); (17,1,17,71); (17,30,17,40); (17,57,17,67); (19,1,19,44); (19,10,19,44); (19,12,19,42); (19,12,19,41); (19,30,19,41); (19,33,19,34); (19,34,19,34); (19,38,19,39); (19,39,19,39)]%Z;
     ts_evals := []; ts_same := []; ts_decls := []; ts_parents := [] |}.
Example ObjCContainerLiterals_DictionaryLiteralWithObjectForKey_holds : sorted_violations_of (shippedRule sh_ObjCContainerLiterals) ObjCContainerLiterals_DictionaryLiteralWithObjectForKey = Some [].
Proof. vm_compute. reflexivity. Qed.

Definition ObjCContainerLiterals_DictionaryWithObjectForKey : testcase :=
  {| ts_lang := LObjC; ts_path := $"input.m"; ts_code := [];
     ts_comments := []; ts_conf := [];
     ts_tops := [(toplevel 0 (TOther), (Node 0 [] (OtherDecl []))); (toplevel 1 (TOther), (Node 1 [] (ObjCContainerDecl {| oc_kind := OKInterface; oc_name := $"NSObject"; oc_lines := (2)%Z; oc_ivars := 0; oc_methods := []; oc_classes := [$"NSObject"]; oc_superMethods := None |} []))); (toplevel 2 (TOther), (Node 2 [] (ObjCContainerDecl {| oc_kind := OKInterface; oc_name := $"NSNumber"; oc_lines := (3)%Z; oc_ivars := 0; oc_methods := [($"numberWithInt:", false)]; oc_classes := [$"NSNumber"; $"NSObject"]; oc_superMethods := (Some ($"NSObject", [])) |} [(Node 3 [] (ObjCMethodDecl {| om_selector := $"numberWithInt:"; om_class := (Some $"NSNumber"); om_overriding := false; om_overridden := []; om_bodyLines := (0)%Z |} [(Node 4 [] (VarDecl {| v_isParm := true; v_name := $"value"; v_used := false; v_referenced := false; v_local := false; v_staticMember := false; v_private := false; v_unusedAttr := false; v_defaultArg := false; v_canonicalType := $"int"; v_inTemplate := false; v_contexts := [CxObjCMethod true false false false; CxOther] |} None))] None))]))); (toplevel 5 (TOther), (Node 5 [] (ObjCContainerDecl {| oc_kind := OKInterface; oc_name := $"NSArray"; oc_lines := (3)%Z; oc_ivars := 0; oc_methods := [($"arrayWithObjects:count:", false)]; oc_classes := [$"NSArray"; $"NSObject"]; oc_superMethods := (Some ($"NSObject", [])) |} [(Node 6 [] (ObjCMethodDecl {| om_selector := $"arrayWithObjects:count:"; om_class := (Some $"NSArray"); om_overriding := false; om_overridden := []; om_bodyLines := (0)%Z |} [(Node 7 [] (VarDecl {| v_isParm := true; v_name := $"objects"; v_used := false; v_referenced := false; v_local := false; v_staticMember := false; v_private := false; v_unusedAttr := false; v_defaultArg := false; v_canonicalType := $"const id *"; v_inTemplate := false; v_contexts := [CxObjCMethod true false false false; CxOther] |} None)); (Node 8 [] (VarDecl {| v_isParm := true; v_name := $"cnt"; v_used := false; v_referenced := false; v_local := false; v_staticMember := false; v_private := false; v_unusedAttr := false; v_defaultArg := false; v_canonicalType := $"unsigned long"; v_inTemplate := false; v_contexts := [CxObjCMethod true false false false; CxOther] |} None))] None))]))); (toplevel 9 (TOther), (Node 9 [] (ObjCContainerDecl {| oc_kind := OKInterface; oc_name := $"NSDictionary"; oc_lines := (7)%Z; oc_ivars := 0; oc_methods := [($"dictionary", false); ($"dictionaryWithObject:forKey:", false); ($"dictionaryWithObjects:forKeys:count:", false); ($"dictionaryWithObjectsAndKeys:", false); ($"dictionaryWithObjects:forKeys:", false)]; oc_classes := [$"NSDictionary"; $"NSObject"]; oc_superMethods := (Some ($"NSObject", [])) |} [(Node 10 [] (ObjCMethodDecl {| om_selector := $"dictionary"; om_class := (Some $"NSDictionary"); om_overriding := false; om_overridden := []; om_bodyLines := (0)%Z |} [] None)); (Node 11 [] (ObjCMethodDecl {| om_selector := $"dictionaryWithObject:forKey:"; om_class := (Some $"NSDictionary"); om_overriding := false; om_overridden := []; om_bodyLines := (0)%Z |} [(Node 12 [] (VarDecl {| v_isParm := true; v_name := $"object"; v_used := false; v_referenced := false; v_local := false; v_staticMember := false; v_private := false; v_unusedAttr := false; v_defaultArg := false; v_canonicalType := $"struct objc_object *"; v_inTemplate := false; v_contexts := [CxObjCMethod true false false false; CxOther] |} None)); (Node 13 [] (VarDecl {| v_isParm := true; v_name := $"key"; v_used := false; v_referenced := false; v_local := false; v_staticMember := false; v_private := false; v_unusedAttr := false; v_defaultArg := false; v_canonicalType := $"struct objc_object *"; v_inTemplate := false; v_contexts := [CxObjCMethod true false false false; CxOther] |} None))] None)); (Node 14 [] (ObjCMethodDecl {| om_selector := $"dictionaryWithObjects:forKeys:count:"; om_class := (Some $"NSDictionary"); om_overriding := false; om_overridden := []; om_bodyLines := (0)%Z |} [(Node 15 [] (VarDecl {| v_isParm := true; v_name := $"objects"; v_used := false; v_referenced := false; v_local := false; v_staticMember := false; v_private := false; v_unusedAttr := false; v_defaultArg := false; v_canonicalType := $"const id *"; v_inTemplate := false; v_contexts := [CxObjCMethod true false false false; CxOther] |} None)); (Node 16 [] (VarDecl {| v_isParm := true; v_name := $"keys"; v_used := false; v_referenced := false; v_local := false; v_staticMember := false; v_private := false; v_unusedAttr := false; v_defaultArg := false; v_canonicalType := $"const id *"; v_inTemplate := false; v_contexts := [CxObjCMethod true false false false; CxOther] |} None)); (Node 17 [] (VarDecl {| v_isParm := true; v_name := $"cnt"; v_used := false; v_referenced := false; v_local := false; v_staticMember := false; v_private := false; v_unusedAttr := false; v_defaultArg := false; v_canonicalType := $"unsigned long"; v_inTemplate := false; v_contexts := [CxObjCMethod true false false false; CxOther] |} None))] None)); (Node 18 [] (ObjCMethodDecl {| om_selector := $"dictionaryWithObjectsAndKeys:"; om_class := (Some $"NSDictionary"); om_overriding := false; om_overridden := []; om_bodyLines := (0)%Z |} [(Node 19 [] (VarDecl {| v_isParm := true; v_name := $"firstObject"; v_used := false; v_referenced := false; v_local := false; v_staticMember := false; v_private := false; v_unusedAttr := false; v_defaultArg := false; v_canonicalType := $"struct objc_object *"; v_inTemplate := false; v_contexts := [CxObjCMethod true false false false; CxOther] |} None))] None)); (Node 20 [] (ObjCMethodDecl {| om_selector := $"dictionaryWithObjects:forKeys:"; om_class := (Some $"NSDictionary"); om_overriding := false; om_overridden := []; om_bodyLines := (0)%Z |} [(Node 21 [] (VarDecl {| v_isParm := true; v_name := $"objects"; v_used := false; v_referenced := false; v_local := false; v_staticMember := false; v_private := false; v_unusedAttr := false; v_defaultArg := false; v_canonicalType := $"NSArray *"; v_inTemplate := false; v_contexts := [CxObjCMethod true false false false; CxOther] |} None)); (Node 22 [] (VarDecl {| v_isParm := true; v_name := $"keys"; v_used := false; v_referenced := false; v_local := false; v_staticMember := false; v_private := false; v_unusedAttr := false; v_defaultArg := false; v_canonicalType := $"NSArray *"; v_inTemplate := false; v_contexts := [CxObjCMethod true false false false; CxOther] |} None))] None))]))); (toplevel 23 (TFunction false), (Node 23 [] (FunctionDecl {| f_name := $"m"; f_method := None; f_isDefinition := true; f_bodyLines := (1)%Z |} [] (Some (Node 24 [] (CompoundStmt [(Node 25 [] (DeclStmt [(Node 26 [] (VarDecl {| v_isParm := false; v_name := $"d"; v_used := false; v_referenced := false; v_local := true; v_staticMember := false; v_private := false; v_unusedAttr := false; v_defaultArg := false; v_canonicalType := $"NSDictionary *"; v_inTemplate := false; v_contexts := [CxFunction true true false] |} (Some (Node 27 $"NSDictionary *" (ImplicitCastExpr CK_BitCast (Node 28 $"id" (ObjCMessageExpr {| ms_selector := $"dictionaryWithObject:forKey:"; ms_receiver := (RClass $"NSDictionary"); ms_implicit := false; ms_interface := (Some $"NSDictionary"); ms_method := (Some (Decl [] (Some (Method false None (InOther (Some NoCategory)))))); ms_methodClass := (Some $"NSDictionary") |} None [(Node 29 $"id" (ImplicitCastExpr CK_BitCast (Node 30 $"NSNumber *" (OtherExpr [(Node 31 $"int" (IntegerLiteral (2)%Z))])))); (Node 32 $"id" (ImplicitCastExpr CK_BitCast (Node 33 $"NSNumber *" (OtherExpr [(Node 34 $"int" (IntegerLiteral (1)%Z))]))))])))))))]))]))))))];
     ts_locs := [(3,1,3,23); (4,1,5,2); (6,1,8,2); (7,1,7,39); (7,30,7,34); (9,1,11,2); (10,1,10,66); (10,25,10,37); (10,52,10,63); (12,1,18,2); (13,1,13,17); (14,1,14,53); (14,29,14,32); (14,47,14,50); (15,1,15,97); (15,30,15,42); (15,59,15,71); (15,83,15,94); (16,1,16,56); (16,37,16,40); (17,1,17,71); (17,30,17,40); (17,57,17,67); (19,1,19,80); (19,10,19,80); (19,12,19,78); (19,12,19,77); (19,30,19,77); (19,30,19,77); (19,65,19,66); (19,65,19,66); (19,66,19,66); (19,75,19,76); (19,75,19,76); (19,76,19,76)]%Z;
     ts_evals := []; ts_same := []; ts_decls := []; ts_parents := [] |}.
Example ObjCContainerLiterals_DictionaryWithObjectForKey_holds : nth_violation (shippedRule sh_ObjCContainerLiterals) ObjCContainerLiterals_DictionaryWithObjectForKey 0 = Some (19, 30, 19, 77, $"")%Z.
Proof. vm_compute. reflexivity. Qed.

Definition ObjCContainerLiterals_DictionaryLiteralWithObjectsForKeysCount : testcase :=
  {| ts_lang := LObjC; ts_path := $"input.m"; ts_code := [];
     ts_comments := []; ts_conf := [];
     ts_tops := [(toplevel 0 (TOther), (Node 0 [] (OtherDecl []))); (toplevel 1 (TOther), (Node 1 [] (ObjCContainerDecl {| oc_kind := OKInterface; oc_name := $"NSObject"; oc_lines := (2)%Z; oc_ivars := 0; oc_methods := []; oc_classes := [$"NSObject"]; oc_superMethods := None |} []))); (toplevel 2 (TOther), (Node 2 [] (ObjCContainerDecl {| oc_kind := OKInterface; oc_name := $"NSNumber"; oc_lines := (3)%Z; oc_ivars := 0; oc_methods := [($"numberWithInt:", false)]; oc_classes := [$"NSNumber"; $"NSObject"]; oc_superMethods := (Some ($"NSObject", [])) |} [(Node 3 [] (ObjCMethodDecl {| om_selector := $"numberWithInt:"; om_class := (Some $"NSNumber"); om_overriding := false; om_overridden := []; om_bodyLines := (0)%Z |} [(Node 4 [] (VarDecl {| v_isParm := true; v_name := $"value"; v_used := false; v_referenced := false; v_local := false; v_staticMember := false; v_private := false; v_unusedAttr := false; v_defaultArg := false; v_canonicalType := $"int"; v_inTemplate := false; v_contexts := [CxObjCMethod true false false false; CxOther] |} None))] None))]))); (toplevel 5 (TOther), (Node 5 [] (ObjCContainerDecl {| oc_kind := OKInterface; oc_name := $"NSArray"; oc_lines := (3)%Z; oc_ivars := 0; oc_methods := [($"arrayWithObjects:count:", false)]; oc_classes := [$"NSArray"; $"NSObject"]; oc_superMethods := (Some ($"NSObject", [])) |} [(Node 6 [] (ObjCMethodDecl {| om_selector := $"arrayWithObjects:count:"; om_class := (Some $"NSArray"); om_overriding := false; om_overridden := []; om_bodyLines := (0)%Z |} [(Node 7 [] (VarDecl {| v_isParm := true; v_name := $"objects"; v_used := false; v_referenced := false; v_local := false; v_staticMember := false; v_private := false; v_unusedAttr := false; v_defaultArg := false; v_canonicalType := $"const id *"; v_inTemplate := false; v_contexts := [CxObjCMethod true false false false; CxOther] |} None)); (Node 8 [] (VarDecl {| v_isParm := true; v_name := $"cnt"; v_used := false; v_referenced := false; v_local := false; v_staticMember := false; v_private := false; v_unusedAttr := false; v_defaultArg := false; v_canonicalType := $"unsigned long"; v_inTemplate := false; v_contexts := [CxObjCMethod true false false false; CxOther] |} None))] None))]))); (toplevel 9 (TOther), (Node 9 [] (ObjCContainerDecl {| oc_kind := OKInterface; oc_name := $"NSDictionary"; oc_lines := (7)%Z; oc_ivars := 0; oc_methods := [($"dictionary", false); ($"dictionaryWithObject:forKey:", false); ($"dictionaryWithObjects:forKeys:count:", false); ($"dictionaryWithObjectsAndKeys:", false); ($"dictionaryWithObjects:forKeys:", false)]; oc_classes := [$"NSDictionary"; $"NSObject"]; oc_superMethods := (Some ($"NSObject", [])) |} [(Node 10 [] (ObjCMethodDecl {| om_selector := $"dictionary"; om_class := (Some $"NSDictionary"); om_overriding := false; om_overridden := []; om_bodyLines := (0)%Z |} [] None)); (Node 11 [] (ObjCMethodDecl {| om_selector := $"dictionaryWithObject:forKey:"; om_class := (Some $"NSDictionary"); om_overriding := false; om_overridden := []; om_bodyLines := (0)%Z |} [(Node 12 [] (VarDecl {| v_isParm := true; v_name := $"object"; v_used := false; v_referenced := false; v_local := false; v_staticMember := false; v_private := false; v_unusedAttr := false; v_defaultArg := false; v_canonicalType := $"struct objc_object *"; v_inTemplate := false; v_contexts := [CxObjCMethod true false false false; CxOther] |} None)); (Node 13 [] (VarDecl {| v_isParm := true; v_name := $"key"; v_used := false; v_referenced := false; v_local := false; v_staticMember := false; v_private := false; v_unusedAttr := false; v_defaultArg := false; v_canonicalType := $"struct objc_object *"; v_inTemplate := false; v_contexts := [CxObjCMethod true false false false; CxOther] |} None))] None)); (Node 14 [] (ObjCMethodDecl {| om_selector := $"dictionaryWithObjects:forKeys:count:"; om_class := (Some $"NSDictionary"); om_overriding := false; om_overridden := []; om_bodyLines := (0)%Z |} [(Node 15 [] (VarDecl {| v_isParm := true; v_name := $"objects"; v_used := false; v_referenced := false; v_local := false; v_staticMember := false; v_private := false; v_unusedAttr := false; v_defaultArg := false; v_canonicalType := $"const id *"; v_inTemplate := false; v_contexts := [CxObjCMethod true false false false; CxOther] |} None)); (Node 16 [] (VarDecl {| v_isParm := true; v_name := $"keys"; v_used := false; v_referenced := false; v_local := false; v_staticMember := false; v_private := false; v_unusedAttr := false; v_defaultArg := false; v_canonicalType := $"const id *"; v_inTemplate := false; v_contexts := [CxObjCMethod true false false false; CxOther] |} None)); (Node 17 [] (VarDecl {| v_isParm := true; v_name := $"cnt"; v_used := false; v_referenced := false; v_local := false; v_staticMember := false; v_private := false; v_unusedAttr := false; v_defaultArg := false; v_canonicalType := $"unsigned long"; v_inTemplate := false; v_contexts := [CxObjCMethod true false false false; CxOther] |} None))] None)); (Node 18 [] (ObjCMethodDecl {| om_selector := $"dictionaryWithObjectsAndKeys:"; om_class := (Some $"NSDictionary"); om_overriding := false; om_overridden := []; om_bodyLines := (0)%Z |} [(Node 19 [] (VarDecl {| v_isParm := true; v_name := $"firstObject"; v_used := false; v_referenced := false; v_local := false; v_staticMember := false; v_private := false; v_unusedAttr := false; v_defaultArg := false; v_canonicalType := $"struct objc_object *"; v_inTemplate := false; v_contexts := [CxObjCMethod true false false false; CxOther] |} None))] None)); (Node 20 [] (ObjCMethodDecl {| om_selector := $"dictionaryWithObjects:forKeys:"; om_class := (Some $"NSDictionary"); om_overriding := false; om_overridden := []; om_bodyLines := (0)%Z |} [(Node 21 [] (VarDecl {| v_isParm := true; v_name := $"objects"; v_used := false; v_referenced := false; v_local := false; v_staticMember := false; v_private := false; v_unusedAttr := false; v_defaultArg := false; v_canonicalType := $"NSArray *"; v_inTemplate := false; v_contexts := [CxObjCMethod true false false false; CxOther] |} None)); (Node 22 [] (VarDecl {| v_isParm := true; v_name := $"keys"; v_used := false; v_referenced := false; v_local := false; v_staticMember := false; v_private := false; v_unusedAttr := false; v_defaultArg := false; v_canonicalType := $"NSArray *"; v_inTemplate := false; v_contexts := [CxObjCMethod true false false false; CxOther] |} None))] None))]))); (toplevel 23 (TFunction false), (Node 23 [] (FunctionDecl {| f_name := $"m"; f_method := None; f_isDefinition := true; f_bodyLines := (1)%Z |} [] (Some (Node 24 [] (CompoundStmt [(Node 25 [] (DeclStmt [(Node 26 [] (VarDecl {| v_isParm := false; v_name := $"d"; v_used := false; v_referenced := false; v_local := true; v_staticMember := false; v_private := false; v_unusedAttr := false; v_defaultArg := false; v_canonicalType := $"NSDictionary *"; v_inTemplate := false; v_contexts := [CxFunction true true false] |} (Some (Node 27 $"NSDictionary *" (OtherExpr [(Node 28 $"NSNumber *" (OtherExpr [(Node 29 $"int" (IntegerLiteral (1)%Z))])); (Node 30 $"NSNumber *" (OtherExpr [(Node 31 $"int" (IntegerLiteral (2)%Z))])); (Node 32 $"NSNumber *" (OtherExpr [(Node 33 $"int" (IntegerLiteral (3)%Z))])); (Node 34 $"NSNumber *" (OtherExpr [(Node 35 $"int" (IntegerLiteral (4)%Z))]))])))))]))]))))))];
     ts_locs := [(3,1,3,23); (4,1,5,2); (6,1,8,2); (7,1,7,39); (7,30,7,34); (9,1,11,2); (10,1,10,66); (10,25,10,37); (10,52,10,63); (12,1,18,2); (13,1,13,17); (14,1,14,53); (14,29,14,32); (14,47,14,50); (15,1,15,97); (15,30,15,42); (15,59,15,71); (15,83,15,94); (16,1,16,56); (16,37,16,40); (17,1,17,71); (17,30,17,40); (17,57,17,67); (19,1,19,53); (19,10,19,53); (19,12,19,51); (19,12,19,50); (19,30,19,50); (19,33,19,34); (19,34,19,34); (19,38,19,39); (19,39,19,39); (19,42,19,43); (19,43,19,43); (19,47,19,48); (19,48,19,48)]%Z;
     ts_evals := []; ts_same := []; ts_decls := []; ts_parents := [] |}.
Example ObjCContainerLiterals_DictionaryLiteralWithObjectsForKeysCount_holds : sorted_violations_of (shippedRule sh_ObjCContainerLiterals) ObjCContainerLiterals_DictionaryLiteralWithObjectsForKeysCount = Some [].
Proof. vm_compute. reflexivity. Qed.

Definition ObjCContainerLiterals_DictionaryWithObjectsForKeysCount : testcase :=
  {| ts_lang := LObjC; ts_path := $"input.m"; ts_code := [];
     ts_comments := []; ts_conf := [];
     ts_tops := [(toplevel 0 (TOther), (Node 0 [] (OtherDecl []))); (toplevel 1 (TOther), (Node 1 [] (ObjCContainerDecl {| oc_kind := OKInterface; oc_name := $"NSObject"; oc_lines := (2)%Z; oc_ivars := 0; oc_methods := []; oc_classes := [$"NSObject"]; oc_superMethods := None |} []))); (toplevel 2 (TOther), (Node 2 [] (ObjCContainerDecl {| oc_kind := OKInterface; oc_name := $"NSNumber"; oc_lines := (3)%Z; oc_ivars := 0; oc_methods := [($"numberWithInt:", false)]; oc_classes := [$"NSNumber"; $"NSObject"]; oc_superMethods := (Some ($"NSObject", [])) |} [(Node 3 [] (ObjCMethodDecl {| om_selector := $"numberWithInt:"; om_class := (Some $"NSNumber"); om_overriding := false; om_overridden := []; om_bodyLines := (0)%Z |} [(Node 4 [] (VarDecl {| v_isParm := true; v_name := $"value"; v_used := false; v_referenced := false; v_local := false; v_staticMember := false; v_private := false; v_unusedAttr := false; v_defaultArg := false; v_canonicalType := $"int"; v_inTemplate := false; v_contexts := [CxObjCMethod true false false false; CxOther] |} None))] None))]))); (toplevel 5 (TOther), (Node 5 [] (ObjCContainerDecl {| oc_kind := OKInterface; oc_name := $"NSArray"; oc_lines := (3)%Z; oc_ivars := 0; oc_methods := [($"arrayWithObjects:count:", false)]; oc_classes := [$"NSArray"; $"NSObject"]; oc_superMethods := (Some ($"NSObject", [])) |} [(Node 6 [] (ObjCMethodDecl {| om_selector := $"arrayWithObjects:count:"; om_class := (Some $"NSArray"); om_overriding := false; om_overridden := []; om_bodyLines := (0)%Z |} [(Node 7 [] (VarDecl {| v_isParm := true; v_name := $"objects"; v_used := false; v_referenced := false; v_local := false; v_staticMember := false; v_private := false; v_unusedAttr := false; v_defaultArg := false; v_canonicalType := $"const id *"; v_inTemplate := false; v_contexts := [CxObjCMethod true false false false; CxOther] |} None)); (Node 8 [] (VarDecl {| v_isParm := true; v_name := $"cnt"; v_used := false; v_referenced := false; v_local := false; v_staticMember := false; v_private := false; v_unusedAttr := false; v_defaultArg := false; v_canonicalType := $"unsigned long"; v_inTemplate := false; v_contexts := [CxObjCMethod true false false false; CxOther] |} None))] None))]))); (toplevel 9 (TOther), (Node 9 [] (ObjCContainerDecl {| oc_kind := OKInterface; oc_name := $"NSDictionary"; oc_lines := (7)%Z; oc_ivars := 0; oc_methods := [($"dictionary", false); ($"dictionaryWithObject:forKey:", false); ($"dictionaryWithObjects:forKeys:count:", false); ($"dictionaryWithObjectsAndKeys:", false); ($"dictionaryWithObjects:forKeys:", false)]; oc_classes := [$"NSDictionary"; $"NSObject"]; oc_superMethods := (Some ($"NSObject", [])) |} [(Node 10 [] (ObjCMethodDecl {| om_selector := $"dictionary"; om_class := (Some $"NSDictionary"); om_overriding := false; om_overridden := []; om_bodyLines := (0)%Z |} [] None)); (Node 11 [] (ObjCMethodDecl {| om_selector := $"dictionaryWithObject:forKey:"; om_class := (Some $"NSDictionary"); om_overriding := false; om_overridden := []; om_bodyLines := (0)%Z |} [(Node 12 [] (VarDecl {| v_isParm := true; v_name := $"object"; v_used := false; v_referenced := false; v_local := false; v_staticMember := false; v_private := false; v_unusedAttr := false; v_defaultArg := false; v_canonicalType := $"struct objc_object *"; v_inTemplate := false; v_contexts := [CxObjCMethod true false false false; CxOther] |} None)); (Node 13 [] (VarDecl {| v_isParm := true; v_name := $"key"; v_used := false; v_referenced := false; v_local := false; v_staticMember := false; v_private := false; v_unusedAttr := false; v_defaultArg := false; v_canonicalType := $"struct objc_object *"; v_inTemplate := false; v_contexts := [CxObjCMethod true false false false; CxOther] |} None))] None)); (Node 14 [] (ObjCMethodDecl {| om_selector := $"dictionaryWithObjects:forKeys:count:"; om_class := (Some $"NSDictionary"); om_overriding := false; om_overridden := []; om_bodyLines := (0)%Z |} [(Node 15 [] (VarDecl {| v_isParm := true; v_name := $"objects"; v_used := false; v_referenced := false; v_local := false; v_staticMember := false; v_private := false; v_unusedAttr := false; v_defaultArg := false; v_canonicalType := $"const id *"; v_inTemplate := false; v_contexts := [CxObjCMethod true false false false; CxOther] |} None)); (Node 16 [] (VarDecl {| v_isParm := true; v_name := $"keys"; v_used := false; v_referenced := false; v_local := false; v_staticMember := false; v_private := false; v_unusedAttr := false; v_defaultArg := false; v_canonicalType := $"const id *"; v_inTemplate := false; v_contexts := [CxObjCMethod true false false false; CxOther] |} None)); (Node 17 [] (VarDecl {| v_isParm := true; v_name := $"cnt"; v_used := false; v_referenced := false; v_local := false; v_staticMember := false; v_private := false; v_unusedAttr := false; v_defaultArg := false; v_canonicalType := $"unsigned long"; v_inTemplate := false; v_contexts := [CxObjCMethod true false false false; CxOther] |} None))] None)); (Node 18 [] (ObjCMethodDecl {| om_selector := $"dictionaryWithObjectsAndKeys:"; om_class := (Some $"NSDictionary"); om_overriding := false; om_overridden := []; om_bodyLines := (0)%Z |} [(Node 19 [] (VarDecl {| v_isParm := true; v_name := $"firstObject"; v_used := false; v_referenced := false; v_local := false; v_staticMember := false; v_private := false; v_unusedAttr := false; v_defaultArg := false; v_canonicalType := $"struct objc_object *"; v_inTemplate := false; v_contexts := [CxObjCMethod true false false false; CxOther] |} None))] None)); (Node 20 [] (ObjCMethodDecl {| om_selector := $"dictionaryWithObjects:forKeys:"; om_class := (Some $"NSDictionary"); om_overriding := false; om_overridden := []; om_bodyLines := (0)%Z |} [(Node 21 [] (VarDecl {| v_isParm := true; v_name := $"objects"; v_used := false; v_referenced := false; v_local := false; v_staticMember := false; v_private := false; v_unusedAttr := false; v_defaultArg := false; v_canonicalType := $"NSArray *"; v_inTemplate := false; v_contexts := [CxObjCMethod true false false false; CxOther] |} None)); (Node 22 [] (VarDecl {| v_isParm := true; v_name := $"keys"; v_used := false; v_referenced := false; v_local := false; v_staticMember := false; v_private := false; v_unusedAttr := false; v_defaultArg := false; v_canonicalType := $"NSArray *"; v_inTemplate := false; v_contexts := [CxObjCMethod true false false false; CxOther] |} None))] None))]))); (toplevel 23 (TFunction false), (Node 23 [] (FunctionDecl {| f_name := $"m"; f_method := None; f_isDefinition := true; f_bodyLines := (1)%Z |} [] (Some (Node 24 [] (CompoundStmt [(Node 25 [] (DeclStmt [(Node 26 [] (VarDecl {| v_isParm := false; v_name := $"keys"; v_used := true; v_referenced := true; v_local := true; v_staticMember := false; v_private := false; v_unusedAttr := false; v_defaultArg := false; v_canonicalType := $"NSNumber *[2]"; v_inTemplate := false; v_contexts := [CxFunction true true false] |} None))])); (Node 27 $"NSNumber *" (BinaryOperator BO_Assign (Node 28 $"NSNumber *" (OtherExpr [(Node 29 $"NSNumber **" (ImplicitCastExpr CK_Other (Node 30 $"NSNumber *[2]" (DeclRefExpr 26 $"keys" false)))); (Node 31 $"int" (IntegerLiteral (0)%Z))])) (Node 32 $"NSNumber *" (OtherExpr [(Node 33 $"int" (IntegerLiteral (1)%Z))])))); (Node 34 $"NSNumber *" (BinaryOperator BO_Assign (Node 35 $"NSNumber *" (OtherExpr [(Node 36 $"NSNumber **" (ImplicitCastExpr CK_Other (Node 37 $"NSNumber *[2]" (DeclRefExpr 26 $"keys" false)))); (Node 38 $"int" (IntegerLiteral (1)%Z))])) (Node 39 $"NSNumber *" (OtherExpr [(Node 40 $"int" (IntegerLiteral (2)%Z))])))); (Node 41 [] (DeclStmt [(Node 42 [] (VarDecl {| v_isParm := false; v_name := $"values"; v_used := true; v_referenced := true; v_local := true; v_staticMember := false; v_private := false; v_unusedAttr := false; v_defaultArg := false; v_canonicalType := $"NSNumber *[2]"; v_inTemplate := false; v_contexts := [CxFunction true true false] |} None))])); (Node 43 $"NSNumber *" (BinaryOperator BO_Assign (Node 44 $"NSNumber *" (OtherExpr [(Node 45 $"NSNumber **" (ImplicitCastExpr CK_Other (Node 46 $"NSNumber *[2]" (DeclRefExpr 42 $"values" false)))); (Node 47 $"int" (IntegerLiteral (0)%Z))])) (Node 48 $"NSNumber *" (OtherExpr [(Node 49 $"int" (IntegerLiteral (2)%Z))])))); (Node 50 $"NSNumber *" (BinaryOperator BO_Assign (Node 51 $"NSNumber *" (OtherExpr [(Node 52 $"NSNumber **" (ImplicitCastExpr CK_Other (Node 53 $"NSNumber *[2]" (DeclRefExpr 42 $"values" false)))); (Node 54 $"int" (IntegerLiteral (1)%Z))])) (Node 55 $"NSNumber *" (OtherExpr [(Node 56 $"int" (IntegerLiteral (4)%Z))])))); (Node 57 [] (DeclStmt [(Node 58 [] (VarDecl {| v_isParm := false; v_name := $"d"; v_used := false; v_referenced := false; v_local := true; v_staticMember := false; v_private := false; v_unusedAttr := false; v_defaultArg := false; v_canonicalType := $"NSDictionary *"; v_inTemplate := false; v_contexts := [CxFunction true true false] |} (Some (Node 59 $"NSDictionary *" (ImplicitCastExpr CK_BitCast (Node 60 $"id" (ObjCMessageExpr {| ms_selector := $"dictionaryWithObjects:forKeys:count:"; ms_receiver := (RClass $"NSDictionary"); ms_implicit := false; ms_interface := (Some $"NSDictionary"); ms_method := (Some (Decl [] (Some (Method false None (InOther (Some NoCategory)))))); ms_methodClass := (Some $"NSDictionary") |} None [(Node 61 $"const id *" (ImplicitCastExpr CK_BitCast (Node 62 $"NSNumber **" (ImplicitCastExpr CK_Other (Node 63 $"NSNumber *[2]" (DeclRefExpr 42 $"values" false)))))); (Node 64 $"const id *" (ImplicitCastExpr CK_BitCast (Node 65 $"NSNumber **" (ImplicitCastExpr CK_Other (Node 66 $"NSNumber *[2]" (DeclRefExpr 26 $"keys" false)))))); (Node 67 $"NSUInteger" (ImplicitCastExpr CK_Other (Node 68 $"int" (IntegerLiteral (2)%Z))))])))))))]))]))))))];
     ts_locs := [(3,1,3,23); (4,1,5,2); (6,1,8,2); (7,1,7,39); (7,30,7,34); (9,1,11,2); (10,1,10,66); (10,25,10,37); (10,52,10,63); (12,1,18,2); (13,1,13,17); (14,1,14,53); (14,29,14,32); (14,47,14,50); (15,1,15,97); (15,30,15,42); (15,59,15,71); (15,83,15,94); (16,1,16,56); (16,37,16,40); (17,1,17,71); (17,30,17,40); (17,57,17,67); (19,1,19,196); (19,10,19,196); (19,12,19,29); (19,12,19,28); (19,31,19,42); (19,31,19,37); (19,31,19,31); (19,31,19,31); (19,36,19,36); (19,41,19,42); (19,42,19,42); (19,45,19,56); (19,45,19,51); (19,45,19,45); (19,45,19,45); (19,50,19,50); (19,55,19,56); (19,56,19,56); (19,59,19,78); (19,59,19,77); (19,80,19,93); (19,80,19,88); (19,80,19,80); (19,80,19,80); (19,87,19,87); (19,92,19,93); (19,93,19,93); (19,96,19,109); (19,96,19,104); (19,96,19,96); (19,96,19,96); (19,103,19,103); (19,108,19,109); (19,109,19,109); (19,112,19,194); (19,112,19,193); (19,130,19,193); (19,130,19,193); (19,166,19,166); (19,166,19,166); (19,166,19,166); (19,181,19,181); (19,181,19,181); (19,181,19,181); (19,192,19,192); (19,192,19,192)]%Z;
     ts_evals := []; ts_same := []; ts_decls := []; ts_parents := [] |}.
Example ObjCContainerLiterals_DictionaryWithObjectsForKeysCount_holds : nth_violation (shippedRule sh_ObjCContainerLiterals) ObjCContainerLiterals_DictionaryWithObjectsForKeysCount 0 = Some (19, 130, 19, 193, $"")%Z.
Proof. vm_compute. reflexivity. Qed.

Definition ObjCContainerLiterals_DictionaryLiteralWithObjectsAndKeys : testcase :=
  {| ts_lang := LObjC; ts_path := $"input.m"; ts_code := [];
     ts_comments := []; ts_conf := [];
     ts_tops := [(toplevel 0 (TOther), (Node 0 [] (OtherDecl []))); (toplevel 1 (TOther), (Node 1 [] (ObjCContainerDecl {| oc_kind := OKInterface; oc_name := $"NSObject"; oc_lines := (2)%Z; oc_ivars := 0; oc_methods := []; oc_classes := [$"NSObject"]; oc_superMethods := None |} []))); (toplevel 2 (TOther), (Node 2 [] (ObjCContainerDecl {| oc_kind := OKInterface; oc_name := $"NSNumber"; oc_lines := (3)%Z; oc_ivars := 0; oc_methods := [($"numberWithInt:", false)]; oc_classes := [$"NSNumber"; $"NSObject"]; oc_superMethods := (Some ($"NSObject", [])) |} [(Node 3 [] (ObjCMethodDecl {| om_selector := $"numberWithInt:"; om_class := (Some $"NSNumber"); om_overriding := false; om_overridden := []; om_bodyLines := (0)%Z |} [(Node 4 [] (VarDecl {| v_isParm := true; v_name := $"value"; v_used := false; v_referenced := false; v_local := false; v_staticMember := false; v_private := false; v_unusedAttr := false; v_defaultArg := false; v_canonicalType := $"int"; v_inTemplate := false; v_contexts := [CxObjCMethod true false false false; CxOther] |} None))] None))]))); (toplevel 5 (TOther), (Node 5 [] (ObjCContainerDecl {| oc_kind := OKInterface; oc_name := $"NSArray"; oc_lines := (3)%Z; oc_ivars := 0; oc_methods := [($"arrayWithObjects:count:", false)]; oc_classes := [$"NSArray"; $"NSObject"]; oc_superMethods := (Some ($"NSObject", [])) |} [(Node 6 [] (ObjCMethodDecl {| om_selector := $"arrayWithObjects:count:"; om_class := (Some $"NSArray"); om_overriding := false; om_overridden := []; om_bodyLines := (0)%Z |} [(Node 7 [] (VarDecl {| v_isParm := true; v_name := $"objects"; v_used := false; v_referenced := false; v_local := false; v_staticMember := false; v_private := false; v_unusedAttr := false; v_defaultArg := false; v_canonicalType := $"const id *"; v_inTemplate := false; v_contexts := [CxObjCMethod true false false false; CxOther] |} None)); (Node 8 [] (VarDecl {| v_isParm := true; v_name := $"cnt"; v_used := false; v_referenced := false; v_local := false; v_staticMember := false; v_private := false; v_unusedAttr := false; v_defaultArg := false; v_canonicalType := $"unsigned long"; v_inTemplate := false; v_contexts := [CxObjCMethod true false false false; CxOther] |} None))] None))]))); (toplevel 9 (TOther), (Node 9 [] (ObjCContainerDecl {| oc_kind := OKInterface; oc_name := $"NSDictionary"; oc_lines := (7)%Z; oc_ivars := 0; oc_methods := [($"dictionary", false); ($"dictionaryWithObject:forKey:", false); ($"dictionaryWithObjects:forKeys:count:", false); ($"dictionaryWithObjectsAndKeys:", false); ($"dictionaryWithObjects:forKeys:", false)]; oc_classes := [$"NSDictionary"; $"NSObject"]; oc_superMethods := (Some ($"NSObject", [])) |} [(Node 10 [] (ObjCMethodDecl {| om_selector := $"dictionary"; om_class := (Some $"NSDictionary"); om_overriding := false; om_overridden := []; om_bodyLines := (0)%Z |} [] None)); (Node 11 [] (ObjCMethodDecl {| om_selector := $"dictionaryWithObject:forKey:"; om_class := (Some $"NSDictionary"); om_overriding := false; om_overridden := []; om_bodyLines := (0)%Z |} [(Node 12 [] (VarDecl {| v_isParm := true; v_name := $"object"; v_used := false; v_referenced := false; v_local := false; v_staticMember := false; v_private := false; v_unusedAttr := false; v_defaultArg := false; v_canonicalType := $"struct objc_object *"; v_inTemplate := false; v_contexts := [CxObjCMethod true false false false; CxOther] |} None)); (Node 13 [] (VarDecl {| v_isParm := true; v_name := $"key"; v_used := false; v_referenced := false; v_local := false; v_staticMember := false; v_private := false; v_unusedAttr := false; v_defaultArg := false; v_canonicalType := $"struct objc_object *"; v_inTemplate := false; v_contexts := [CxObjCMethod true false false false; CxOther] |} None))] None)); (Node 14 [] (ObjCMethodDecl {| om_selector := $"dictionaryWithObjects:forKeys:count:"; om_class := (Some $"NSDictionary"); om_overriding := false; om_overridden := []; om_bodyLines := (0)%Z |} [(Node 15 [] (VarDecl {| v_isParm := true; v_name := $"objects"; v_used := false; v_referenced := false; v_local := false; v_staticMember := false; v_private := false; v_unusedAttr := false; v_defaultArg := false; v_canonicalType := $"const id *"; v_inTemplate := false; v_contexts := [CxObjCMethod true false false false; CxOther] |} None)); (Node 16 [] (VarDecl {| v_isParm := true; v_name := $"keys"; v_used := false; v_referenced := false; v_local := false; v_staticMember := false; v_private := false; v_unusedAttr := false; v_defaultArg := false; v_canonicalType := $"const id *"; v_inTemplate := false; v_contexts := [CxObjCMethod true false false false; CxOther] |} None)); (Node 17 [] (VarDecl {| v_isParm := true; v_name := $"cnt"; v_used := false; v_referenced := false; v_local := false; v_staticMember := false; v_private := false; v_unusedAttr := false; v_defaultArg := false; v_canonicalType := $"unsigned long"; v_inTemplate := false; v_contexts := [CxObjCMethod true false false false; CxOther] |} None))] None)); (Node 18 [] (ObjCMethodDecl {| om_selector := $"dictionaryWithObjectsAndKeys:"; om_class := (Some $"NSDictionary"); om_overriding := false; om_overridden := []; om_bodyLines := (0)%Z |} [(Node 19 [] (VarDecl {| v_isParm := true; v_name := $"firstObject"; v_used := false; v_referenced := false; v_local := false; v_staticMember := false; v_private := false; v_unusedAttr := false; v_defaultArg := false; v_canonicalType := $"struct objc_object *"; v_inTemplate := false; v_contexts := [CxObjCMethod true false false false; CxOther] |} None))] None)); (Node 20 [] (ObjCMethodDecl {| om_selector := $"dictionaryWithObjects:forKeys:"; om_class := (Some $"NSDictionary"); om_overriding := false; om_overridden := []; om_bodyLines := (0)%Z |} [(Node 21 [] (VarDecl {| v_isParm := true; v_name := $"objects"; v_used := false; v_referenced := false; v_local := false; v_staticMember := false; v_private := false; v_unusedAttr := false; v_defaultArg := false; v_canonicalType := $"NSArray *"; v_inTemplate := false; v_contexts := [CxObjCMethod true false false false; CxOther] |} None)); (Node 22 [] (VarDecl {| v_isParm := true; v_name := $"keys"; v_used := false; v_referenced := false; v_local := false; v_staticMember := false; v_private := false; v_unusedAttr := false; v_defaultArg := false; v_canonicalType := $"NSArray *"; v_inTemplate := false; v_contexts := [CxObjCMethod true false false false; CxOther] |} None))] None))]))); (toplevel 23 (TFunction false), (Node 23 [] (FunctionDecl {| f_name := $"m"; f_method := None; f_isDefinition := true; f_bodyLines := (1)%Z |} [] (Some (Node 24 [] (CompoundStmt [(Node 25 [] (DeclStmt [(Node 26 [] (VarDecl {| v_isParm := false; v_name := $"d"; v_used := false; v_referenced := false; v_local := true; v_staticMember := false; v_private := false; v_unusedAttr := false; v_defaultArg := false; v_canonicalType := $"NSDictionary *"; v_inTemplate := false; v_contexts := [CxFunction true true false] |} (Some (Node 27 $"NSDictionary *" (OtherExpr [(Node 28 $"NSNumber *" (OtherExpr [(Node 29 $"int" (IntegerLiteral (1)%Z))])); (Node 30 $"NSNumber *" (OtherExpr [(Node 31 $"int" (IntegerLiteral (2)%Z))])); (Node 32 $"NSNumber *" (OtherExpr [(Node 33 $"int" (IntegerLiteral (3)%Z))])); (Node 34 $"NSNumber *" (OtherExpr [(Node 35 $"int" (IntegerLiteral (4)%Z))]))])))))]))]))))))];
     ts_locs := [(3,1,3,23); (4,1,5,2); (6,1,8,2); (7,1,7,39); (7,30,7,34); (9,1,11,2); (10,1,10,66); (10,25,10,37); (10,52,10,63); (12,1,18,2); (13,1,13,17); (14,1,14,53); (14,29,14,32); (14,47,14,50); (15,1,15,97); (15,30,15,42); (15,59,15,71); (15,83,15,94); (16,1,16,56); (16,37,16,40); (17,1,17,71); (17,30,17,40); (17,57,17,67); (19,1,19,53); (19,10,19,53); (19,12,19,51); (19,12,19,50); (19,30,19,50); (19,33,19,34); (19,34,19,34); (19,38,19,39); (19,39,19,39); (19,42,19,43); (19,43,19,43); (19,47,19,48); (19,48,19,48)]%Z;
     ts_evals := []; ts_same := []; ts_decls := []; ts_parents := [] |}.
Example ObjCContainerLiterals_DictionaryLiteralWithObjectsAndKeys_holds : sorted_violations_of (shippedRule sh_ObjCContainerLiterals) ObjCContainerLiterals_DictionaryLiteralWithObjectsAndKeys = Some [].
Proof. vm_compute. reflexivity. Qed.

Definition ObjCContainerLiterals_DictionaryWithObjectsAndKeys : testcase :=
  {| ts_lang := LObjC; ts_path := $"input.m"; ts_code := [];
     ts_comments := []; ts_conf := [];
     ts_tops := [(toplevel 0 (TOther), (Node 0 [] (OtherDecl []))); (toplevel 1 (TOther), (Node 1 [] (ObjCContainerDecl {| oc_kind := OKInterface; oc_name := $"NSObject"; oc_lines := (2)%Z; oc_ivars := 0; oc_methods := []; oc_classes := [$"NSObject"]; oc_superMethods := None |} []))); (toplevel 2 (TOther), (Node 2 [] (ObjCContainerDecl {| oc_kind := OKInterface; oc_name := $"NSNumber"; oc_lines := (3)%Z; oc_ivars := 0; oc_methods := [($"numberWithInt:", false)]; oc_classes := [$"NSNumber"; $"NSObject"]; oc_superMethods := (Some ($"NSObject", [])) |} [(Node 3 [] (ObjCMethodDecl {| om_selector := $"numberWithInt:"; om_class := (Some $"NSNumber"); om_overriding := false; om_overridden := []; om_bodyLines := (0)%Z |} [(Node 4 [] (VarDecl {| v_isParm := true; v_name := $"value"; v_used := false; v_referenced := false; v_local := false; v_staticMember := false; v_private := false; v_unusedAttr := false; v_defaultArg := false; v_canonicalType := $"int"; v_inTemplate := false; v_contexts := [CxObjCMethod true false false false; CxOther] |} None))] None))]))); (toplevel 5 (TOther), (Node 5 [] (ObjCContainerDecl {| oc_kind := OKInterface; oc_name := $"NSArray"; oc_lines := (3)%Z; oc_ivars := 0; oc_methods := [($"arrayWithObjects:count:", false)]; oc_classes := [$"NSArray"; $"NSObject"]; oc_superMethods := (Some ($"NSObject", [])) |} [(Node 6 [] (ObjCMethodDecl {| om_selector := $"arrayWithObjects:count:"; om_class := (Some $"NSArray"); om_overriding := false; om_overridden := []; om_bodyLines := (0)%Z |} [(Node 7 [] (VarDecl {| v_isParm := true; v_name := $"objects"; v_used := false; v_referenced := false; v_local := false; v_staticMember := false; v_private := false; v_unusedAttr := false; v_defaultArg := false; v_canonicalType := $"const id *"; v_inTemplate := false; v_contexts := [CxObjCMethod true false false false; CxOther] |} None)); (Node 8 [] (VarDecl {| v_isParm := true; v_name := $"cnt"; v_used := false; v_referenced := false; v_local := false; v_staticMember := false; v_private := false; v_unusedAttr := false; v_defaultArg := false; v_canonicalType := $"unsigned long"; v_inTemplate := false; v_contexts := [CxObjCMethod true false false false; CxOther] |} None))] None))]))); (toplevel 9 (TOther), (Node 9 [] (ObjCContainerDecl {| oc_kind := OKInterface; oc_name := $"NSDictionary"; oc_lines := (7)%Z; oc_ivars := 0; oc_methods := [($"dictionary", false); ($"dictionaryWithObject:forKey:", false); ($"dictionaryWithObjects:forKeys:count:", false); ($"dictionaryWithObjectsAndKeys:", false); ($"dictionaryWithObjects:forKeys:", false)]; oc_classes := [$"NSDictionary"; $"NSObject"]; oc_superMethods := (Some ($"NSObject", [])) |} [(Node 10 [] (ObjCMethodDecl {| om_selector := $"dictionary"; om_class := (Some $"NSDictionary"); om_overriding := false; om_overridden := []; om_bodyLines := (0)%Z |} [] None)); (Node 11 [] (ObjCMethodDecl {| om_selector := $"dictionaryWithObject:forKey:"; om_class := (Some $"NSDictionary"); om_overriding := false; om_overridden := []; om_bodyLines := (0)%Z |} [(Node 12 [] (VarDecl {| v_isParm := true; v_name := $"object"; v_used := false; v_referenced := false; v_local := false; v_staticMember := false; v_private := false; v_unusedAttr := false; v_defaultArg := false; v_canonicalType := $"struct objc_object *"; v_inTemplate := false; v_contexts := [CxObjCMethod true false false false; CxOther] |} None)); (Node 13 [] (VarDecl {| v_isParm := true; v_name := $"key"; v_used := false; v_referenced := false; v_local := false; v_staticMember := false; v_private := false; v_unusedAttr := false; v_defaultArg := false; v_canonicalType := $"struct objc_object *"; v_inTemplate := false; v_contexts := [CxObjCMethod true false false false; CxOther] |} None))] None)); (Node 14 [] (ObjCMethodDecl {| om_selector := $"dictionaryWithObjects:forKeys:count:"; om_class := (Some $"NSDictionary"); om_overriding := false; om_overridden := []; om_bodyLines := (0)%Z |} [(Node 15 [] (VarDecl {| v_isParm := true; v_name := $"objects"; v_used := false; v_referenced := false; v_local := false; v_staticMember := false; v_private := false; v_unusedAttr := false; v_defaultArg := false; v_canonicalType := $"const id *"; v_inTemplate := false; v_contexts := [CxObjCMethod true false false false; CxOther] |} None)); (Node 16 [] (VarDecl {| v_isParm := true; v_name := $"keys"; v_used := false; v_referenced := false; v_local := false; v_staticMember := false; v_private := false; v_unusedAttr := false; v_defaultArg := false; v_canonicalType := $"const id *"; v_inTemplate := false; v_contexts := [CxObjCMethod true false false false; CxOther] |} None)); (Node 17 [] (VarDecl {| v_isParm := true; v_name := $"cnt"; v_used := false; v_referenced := false; v_local := false; v_staticMember := false; v_private := false; v_unusedAttr := false; v_defaultArg := false; v_canonicalType := $"unsigned long"; v_inTemplate := false; v_contexts := [CxObjCMethod true false false false; CxOther] |} None))] None)); (Node 18 [] (ObjCMethodDecl {| om_selector := $"dictionaryWithObjectsAndKeys:"; om_class := (Some $"NSDictionary"); om_overriding := false; om_overridden := []; om_bodyLines := (0)%Z |} [(Node 19 [] (VarDecl {| v_isParm := true; v_name := $"firstObject"; v_used := false; v_referenced := false; v_local := false; v_staticMember := false; v_private := false; v_unusedAttr := false; v_defaultArg := false; v_canonicalType := $"struct objc_object *"; v_inTemplate := false; v_contexts := [CxObjCMethod true false false false; CxOther] |} None))] None)); (Node 20 [] (ObjCMethodDecl {| om_selector := $"dictionaryWithObjects:forKeys:"; om_class := (Some $"NSDictionary"); om_overriding := false; om_overridden := []; om_bodyLines := (0)%Z |} [(Node 21 [] (VarDecl {| v_isParm := true; v_name := $"objects"; v_used := false; v_referenced := false; v_local := false; v_staticMember := false; v_private := false; v_unusedAttr := false; v_defaultArg := false; v_canonicalType := $"NSArray *"; v_inTemplate := false; v_contexts := [CxObjCMethod true false false false; CxOther] |} None)); (Node 22 [] (VarDecl {| v_isParm := true; v_name := $"keys"; v_used := false; v_referenced := false; v_local := false; v_staticMember := false; v_private := false; v_unusedAttr := false; v_defaultArg := false; v_canonicalType := $"NSArray *"; v_inTemplate := false; v_contexts := [CxObjCMethod true false false false; CxOther] |} None))] None))]))); (toplevel 23 (TFunction false), (Node 23 [] (FunctionDecl {| f_name := $"m"; f_method := None; f_isDefinition := true; f_bodyLines := (1)%Z |} [] (Some (Node 24 [] (CompoundStmt [(Node 25 [] (DeclStmt [(Node 26 [] (VarDecl {| v_isParm := false; v_name := $"d"; v_used := false; v_referenced := false; v_local := true; v_staticMember := false; v_private := false; v_unusedAttr := false; v_defaultArg := false; v_canonicalType := $"NSDictionary *"; v_inTemplate := false; v_contexts := [CxFunction true true false] |} (Some (Node 27 $"NSDictionary *" (ImplicitCastExpr CK_BitCast (Node 28 $"id" (ObjCMessageExpr {| ms_selector := $"dictionaryWithObjectsAndKeys:"; ms_receiver := (RClass $"NSDictionary"); ms_implicit := false; ms_interface := (Some $"NSDictionary"); ms_method := (Some (Decl [] (Some (Method false None (InOther (Some NoCategory)))))); ms_methodClass := (Some $"NSDictionary") |} None [(Node 29 $"id" (ImplicitCastExpr CK_BitCast (Node 30 $"NSNumber *" (OtherExpr [(Node 31 $"int" (IntegerLiteral (2)%Z))])))); (Node 32 $"NSNumber *" (OtherExpr [(Node 33 $"int" (IntegerLiteral (1)%Z))])); (Node 34 $"NSNumber *" (OtherExpr [(Node 35 $"int" (IntegerLiteral (4)%Z))])); (Node 36 $"NSNumber *" (OtherExpr [(Node 37 $"int" (IntegerLiteral (3)%Z))])); (Node 38 $"id" (CStyleCastExpr CK_NullToPointer (Node 39 $"int" (IntegerLiteral (0)%Z))))])))))))]))]))))))];
     ts_locs := [(3,1,3,23); (4,1,5,2); (6,1,8,2); (7,1,7,39); (7,30,7,34); (9,1,11,2); (10,1,10,66); (10,25,10,37); (10,52,10,63); (12,1,18,2); (13,1,13,17); (14,1,14,53); (14,29,14,32); (14,47,14,50); (15,1,15,97); (15,30,15,42); (15,59,15,71); (15,83,15,94); (16,1,16,56); (16,37,16,40); (17,1,17,71); (17,30,17,40); (17,57,17,67); (19,1,19,95); (19,10,19,95); (19,12,19,93); (19,12,19,92); (19,30,19,92); (19,30,19,92); (19,73,19,74); (19,73,19,74); (19,74,19,74); (19,77,19,78); (19,78,19,78); (19,81,19,82); (19,82,19,82); (19,85,19,86); (19,86,19,86); (19,89,19,89); (19,89,19,89)]%Z;
     ts_evals := []; ts_same := []; ts_decls := []; ts_parents := [] |}.
Example ObjCContainerLiterals_DictionaryWithObjectsAndKeys_holds : nth_violation (shippedRule sh_ObjCContainerLiterals) ObjCContainerLiterals_DictionaryWithObjectsAndKeys 0 = Some (19, 30, 19, 92, $"")%Z.
Proof. vm_compute. reflexivity. Qed.

Definition ObjCContainerLiterals_DictionaryLiteralWithObjectsForKeys : testcase :=
  {| ts_lang := LObjC; ts_path := $"input.m"; ts_code := [];
     ts_comments := []; ts_conf := [];
     ts_tops := [(toplevel 0 (TOther), (Node 0 [] (OtherDecl []))); (toplevel 1 (TOther), (Node 1 [] (ObjCContainerDecl {| oc_kind := OKInterface; oc_name := $"NSObject"; oc_lines := (2)%Z; oc_ivars := 0; oc_methods := []; oc_classes := [$"NSObject"]; oc_superMethods := None |} []))); (toplevel 2 (TOther), (Node 2 [] (ObjCContainerDecl {| oc_kind := OKInterface; oc_name := $"NSNumber"; oc_lines := (3)%Z; oc_ivars := 0; oc_methods := [($"numberWithInt:", false)]; oc_classes := [$"NSNumber"; $"NSObject"]; oc_superMethods := (Some ($"NSObject", [])) |} [(Node 3 [] (ObjCMethodDecl {| om_selector := $"numberWithInt:"; om_class := (Some $"NSNumber"); om_overriding := false; om_overridden := []; om_bodyLines := (0)%Z |} [(Node 4 [] (VarDecl {| v_isParm := true; v_name := $"value"; v_used := false; v_referenced := false; v_local := false; v_staticMember := false; v_private := false; v_unusedAttr := false; v_defaultArg := false; v_canonicalType := $"int"; v_inTemplate := false; v_contexts := [CxObjCMethod true false false false; CxOther] |} None))] None))]))); (toplevel 5 (TOther), (Node 5 [] (ObjCContainerDecl {| oc_kind := OKInterface; oc_name := $"NSArray"; oc_lines := (3)%Z; oc_ivars := 0; oc_methods := [($"arrayWithObjects:count:", false)]; oc_classes := [$"NSArray"; $"NSObject"]; oc_superMethods := (Some ($"NSObject", [])) |} [(Node 6 [] (ObjCMethodDecl {| om_selector := $"arrayWithObjects:count:"; om_class := (Some $"NSArray"); om_overriding := false; om_overridden := []; om_bodyLines := (0)%Z |} [(Node 7 [] (VarDecl {| v_isParm := true; v_name := $"objects"; v_used := false; v_referenced := false; v_local := false; v_staticMember := false; v_private := false; v_unusedAttr := false; v_defaultArg := false; v_canonicalType := $"const id *"; v_inTemplate := false; v_contexts := [CxObjCMethod true false false false; CxOther] |} None)); (Node 8 [] (VarDecl {| v_isParm := true; v_name := $"cnt"; v_used := false; v_referenced := false; v_local := false; v_staticMember := false; v_private := false; v_unusedAttr := false; v_defaultArg := false; v_canonicalType := $"unsigned long"; v_inTemplate := false; v_contexts := [CxObjCMethod true false false false; CxOther] |} None))] None))]))); (toplevel 9 (TOther), (Node 9 [] (ObjCContainerDecl {| oc_kind := OKInterface; oc_name := $"NSDictionary"; oc_lines := (7)%Z; oc_ivars := 0; oc_methods := [($"dictionary", false); ($"dictionaryWithObject:forKey:", false); ($"dictionaryWithObjects:forKeys:count:", false); ($"dictionaryWithObjectsAndKeys:", false); ($"dictionaryWithObjects:forKeys:", false)]; oc_classes := [$"NSDictionary"; $"NSObject"]; oc_superMethods := (Some ($"NSObject", [])) |} [(Node 10 [] (ObjCMethodDecl {| om_selector := $"dictionary"; om_class := (Some $"NSDictionary"); om_overriding := false; om_overridden := []; om_bodyLines := (0)%Z |} [] None)); (Node 11 [] (ObjCMethodDecl {| om_selector := $"dictionaryWithObject:forKey:"; om_class := (Some $"NSDictionary"); om_overriding := false; om_overridden := []; om_bodyLines := (0)%Z |} [(Node 12 [] (VarDecl {| v_isParm := true; v_name := $"object"; v_used := false; v_referenced := false; v_local := false; v_staticMember := false; v_private := false; v_unusedAttr := false; v_defaultArg := false; v_canonicalType := $"struct objc_object *"; v_inTemplate := false; v_contexts := [CxObjCMethod true false false false; CxOther] |} None)); (Node 13 [] (VarDecl {| v_isParm := true; v_name := $"key"; v_used := false; v_referenced := false; v_local := false; v_staticMember := false; v_private := false; v_unusedAttr := false; v_defaultArg := false; v_canonicalType := $"struct objc_object *"; v_inTemplate := false; v_contexts := [CxObjCMethod true false false false; CxOther] |} None))] None)); (Node 14 [] (ObjCMethodDecl {| om_selector := $"dictionaryWithObjects:forKeys:count:"; om_class := (Some $"NSDictionary"); om_overriding := false; om_overridden := []; om_bodyLines := (0)%Z |} [(Node 15 [] (VarDecl {| v_isParm := true; v_name := $"objects"; v_used := false; v_referenced := false; v_local := false; v_staticMember := false; v_private := false; v_unusedAttr := false; v_defaultArg := false; v_canonicalType := $"const id *"; v_inTemplate := false; v_contexts := [CxObjCMethod true false false false; CxOther] |} None)); (Node 16 [] (VarDecl {| v_isParm := true; v_name := $"keys"; v_used := false; v_referenced := false; v_local := false; v_staticMember := false; v_private := false; v_unusedAttr := false; v_defaultArg := false; v_canonicalType := $"const id *"; v_inTemplate := false; v_contexts := [CxObjCMethod true false false false; CxOther] |} None)); (Node 17 [] (VarDecl {| v_isParm := true; v_name := $"cnt"; v_used := false; v_referenced := false; v_local := false; v_staticMember := false; v_private := false; v_unusedAttr := false; v_defaultArg := false; v_canonicalType := $"unsigned long"; v_inTemplate := false; v_contexts := [CxObjCMethod true false false false; CxOther] |} None))] None)); (Node 18 [] (ObjCMethodDecl {| om_selector := $"dictionaryWithObjectsAndKeys:"; om_class := (Some $"NSDictionary"); om_overriding := false; om_overridden := []; om_bodyLines := (0)%Z |} [(Node 19 [] (VarDecl {| v_isParm := true; v_name := $"firstObject"; v_used := false; v_referenced := false; v_local := false; v_staticMember := false; v_private := false; v_unusedAttr := false; v_defaultArg := false; v_canonicalType := $"struct objc_object *"; v_inTemplate := false; v_contexts := [CxObjCMethod true false false false; CxOther] |} None))] None)); (Node 20 [] (ObjCMethodDecl {| om_selector := $"dictionaryWithObjects:forKeys:"; om_class := (Some $"NSDictionary"); om_overriding := false; om_overridden := []; om_bodyLines := (0)%Z |} [(Node 21 [] (VarDecl {| v_isParm := true; v_name := $"objects"; v_used := false; v_referenced := false; v_local := false; v_staticMember := false; v_private := false; v_unusedAttr := false; v_defaultArg := false; v_canonicalType := $"NSArray *"; v_inTemplate := false; v_contexts := [CxObjCMethod true false false false; CxOther] |} None)); (Node 22 [] (VarDecl {| v_isParm := true; v_name := $"keys"; v_used := false; v_referenced := false; v_local := false; v_staticMember := false; v_private := false; v_unusedAttr := false; v_defaultArg := false; v_canonicalType := $"NSArray *"; v_inTemplate := false; v_contexts := [CxObjCMethod true false false false; CxOther] |} None))] None))]))); (toplevel 23 (TFunction false), (Node 23 [] (FunctionDecl {| f_name := $"m"; f_method := None; f_isDefinition := true; f_bodyLines := (1)%Z |} [] (Some (Node 24 [] (CompoundStmt [(Node 25 [] (DeclStmt [(Node 26 [] (VarDecl {| v_isParm := false; v_name := $"d"; v_used := false; v_referenced := false; v_local := true; v_staticMember := false; v_private := false; v_unusedAttr := false; v_defaultArg := false; v_canonicalType := $"NSDictionary *"; v_inTemplate := false; v_contexts := [CxFunction true true false] |} (Some (Node 27 $"NSDictionary *" (OtherExpr [(Node 28 $"NSNumber *" (OtherExpr [(Node 29 $"int" (IntegerLiteral (1)%Z))])); (Node 30 $"NSNumber *" (OtherExpr [(Node 31 $"int" (IntegerLiteral (2)%Z))])); (Node 32 $"NSNumber *" (OtherExpr [(Node 33 $"int" (IntegerLiteral (3)%Z))])); (Node 34 $"NSNumber *" (OtherExpr [(Node 35 $"int" (IntegerLiteral (4)%Z))]))])))))]))]))))))];
     ts_locs := [(3,1,3,23); (4,1,5,2); (6,1,8,2); (7,1,7,39); (7,30,7,34); (9,1,11,2); (10,1,10,66); (10,25,10,37); (10,52,10,63); (12,1,18,2); (13,1,13,17); (14,1,14,53); (14,29,14,32); (14,47,14,50); (15,1,15,97); (15,30,15,42); (15,59,15,71); (15,83,15,94); (16,1,16,56); (16,37,16,40); (17,1,17,71); (17,30,17,40); (17,57,17,67); (19,1,19,53); (19,10,19,53); (19,12,19,51); (19,12,19,50); (19,30,19,50); (19,33,19,34); (19,34,19,34); (19,38,19,39); (19,39,19,39); (19,42,19,43); (19,43,19,43); (19,47,19,48); (19,48,19,48)]%Z;
     ts_evals := []; ts_same := []; ts_decls := []; ts_parents := [] |}.
Example ObjCContainerLiterals_DictionaryLiteralWithObjectsForKeys_holds : sorted_violations_of (shippedRule sh_ObjCContainerLiterals) ObjCContainerLiterals_DictionaryLiteralWithObjectsForKeys = Some [].
Proof. vm_compute. reflexivity. Qed.

Definition ObjCContainerLiterals_DictionaryWithObjectsForKeys : testcase :=
  {| ts_lang := LObjC; ts_path := $"input.m"; ts_code := [];
     ts_comments := []; ts_conf := [];
     ts_tops := [(toplevel 0 (TOther), (Node 0 [] (OtherDecl []))); (toplevel 1 (TOther), (Node 1 [] (ObjCContainerDecl {| oc_kind := OKInterface; oc_name := $"NSObject"; oc_lines := (2)%Z; oc_ivars := 0; oc_methods := []; oc_classes := [$"NSObject"]; oc_superMethods := None |} []))); (toplevel 2 (TOther), (Node 2 [] (ObjCContainerDecl {| oc_kind := OKInterface; oc_name := $"NSNumber"; oc_lines := (3)%Z; oc_ivars := 0; oc_methods := [($"numberWithInt:", false)]; oc_classes := [$"NSNumber"; $"NSObject"]; oc_superMethods := (Some ($"NSObject", [])) |} [(Node 3 [] (ObjCMethodDecl {| om_selector := $"numberWithInt:"; om_class := (Some $"NSNumber"); om_overriding := false; om_overridden := []; om_bodyLines := (0)%Z |} [(Node 4 [] (VarDecl {| v_isParm := true; v_name := $"value"; v_used := false; v_referenced := false; v_local := false; v_staticMember := false; v_private := false; v_unusedAttr := false; v_defaultArg := false; v_canonicalType := $"int"; v_inTemplate := false; v_contexts := [CxObjCMethod true false false false; CxOther] |} None))] None))]))); (toplevel 5 (TOther), (Node 5 [] (ObjCContainerDecl {| oc_kind := OKInterface; oc_name := $"NSArray"; oc_lines := (3)%Z; oc_ivars := 0; oc_methods := [($"arrayWithObjects:count:", false)]; oc_classes := [$"NSArray"; $"NSObject"]; oc_superMethods := (Some ($"NSObject", [])) |} [(Node 6 [] (ObjCMethodDecl {| om_selector := $"arrayWithObjects:count:"; om_class := (Some $"NSArray"); om_overriding := false; om_overridden := []; om_bodyLines := (0)%Z |} [(Node 7 [] (VarDecl {| v_isParm := true; v_name := $"objects"; v_used := false; v_referenced := false; v_local := false; v_staticMember := false; v_private := false; v_unusedAttr := false; v_defaultArg := false; v_canonicalType := $"const id *"; v_inTemplate := false; v_contexts := [CxObjCMethod true false false false; CxOther] |} None)); (Node 8 [] (VarDecl {| v_isParm := true; v_name := $"cnt"; v_used := false; v_referenced := false; v_local := false; v_staticMember := false; v_private := false; v_unusedAttr := false; v_defaultArg := false; v_canonicalType := $"unsigned long"; v_inTemplate := false; v_contexts := [CxObjCMethod true false false false; CxOther] |} None))] None))]))); (toplevel 9 (TOther), (Node 9 [] (ObjCContainerDecl {| oc_kind := OKInterface; oc_name := $"NSDictionary"; oc_lines := (7)%Z; oc_ivars := 0; oc_methods := [($"dictionary", false); ($"dictionaryWithObject:forKey:", false); ($"dictionaryWithObjects:forKeys:count:", false); ($"dictionaryWithObjectsAndKeys:", false); ($"dictionaryWithObjects:forKeys:", false)]; oc_classes := [$"NSDictionary"; $"NSObject"]; oc_superMethods := (Some ($"NSObject", [])) |} [(Node 10 [] (ObjCMethodDecl {| om_selector := $"dictionary"; om_class := (Some $"NSDictionary"); om_overriding := false; om_overridden := []; om_bodyLines := (0)%Z |} [] None)); (Node 11 [] (ObjCMethodDecl {| om_selector := $"dictionaryWithObject:forKey:"; om_class := (Some $"NSDictionary"); om_overriding := false; om_overridden := []; om_bodyLines := (0)%Z |} [(Node 12 [] (VarDecl {| v_isParm := true; v_name := $"object"; v_used := false; v_referenced := false; v_local := false; v_staticMember := false; v_private := false; v_unusedAttr := false; v_defaultArg := false; v_canonicalType := $"struct objc_object *"; v_inTemplate := false; v_contexts := [CxObjCMethod true false false false; CxOther] |} None)); (Node 13 [] (VarDecl {| v_isParm := true; v_name := $"key"; v_used := false; v_referenced := false; v_local := false; v_staticMember := false; v_private := false; v_unusedAttr := false; v_defaultArg := false; v_canonicalType := $"struct objc_object *"; v_inTemplate := false; v_contexts := [CxObjCMethod true false false false; CxOther] |} None))] None)); (Node 14 [] (ObjCMethodDecl {| om_selector := $"dictionaryWithObjects:forKeys:count:"; om_class := (Some $"NSDictionary"); om_overriding := false; om_overridden := []; om_bodyLines := (0)%Z |} [(Node 15 [] (VarDecl {| v_isParm := true; v_name := $"objects"; v_used := false; v_referenced := false; v_local := false; v_staticMember := false; v_private := false; v_unusedAttr := false; v_defaultArg := false; v_canonicalType := $"const id *"; v_inTemplate := false; v_contexts := [CxObjCMethod true false false false; CxOther] |} None)); (Node 16 [] (VarDecl {| v_isParm := true; v_name := $"keys"; v_used := false; v_referenced := false; v_local := false; v_staticMember := false; v_private := false; v_unusedAttr := false; v_defaultArg := false; v_canonicalType := $"const id *"; v_inTemplate := false; v_contexts := [CxObjCMethod true false false false; CxOther] |} None)); (Node 17 [] (VarDecl {| v_isParm := true; v_name := $"cnt"; v_used := false; v_referenced := false; v_local := false; v_staticMember := false; v_private := false; v_unusedAttr := false; v_defaultArg := false; v_canonicalType := $"unsigned long"; v_inTemplate := false; v_contexts := [CxObjCMethod true false false false; CxOther] |} None))] None)); (Node 18 [] (ObjCMethodDecl {| om_selector := $"dictionaryWithObjectsAndKeys:"; om_class := (Some $"NSDictionary"); om_overriding := false; om_overridden := []; om_bodyLines := (0)%Z |} [(Node 19 [] (VarDecl {| v_isParm := true; v_name := $"firstObject"; v_used := false; v_referenced := false; v_local := false; v_staticMember := false; v_private := false; v_unusedAttr := false; v_defaultArg := false; v_canonicalType := $"struct objc_object *"; v_inTemplate := false; v_contexts := [CxObjCMethod true false false false; CxOther] |} None))] None)); (Node 20 [] (ObjCMethodDecl {| om_selector := $"dictionaryWithObjects:forKeys:"; om_class := (Some $"NSDictionary"); om_overriding := false; om_overridden := []; om_bodyLines := (0)%Z |} [(Node 21 [] (VarDecl {| v_isParm := true; v_name := $"objects"; v_used := false; v_referenced := false; v_local := false; v_staticMember := false; v_private := false; v_unusedAttr := false; v_defaultArg := false; v_canonicalType := $"NSArray *"; v_inTemplate := false; v_contexts := [CxObjCMethod true false false false; CxOther] |} None)); (Node 22 [] (VarDecl {| v_isParm := true; v_name := $"keys"; v_used := false; v_referenced := false; v_local := false; v_staticMember := false; v_private := false; v_unusedAttr := false; v_defaultArg := false; v_canonicalType := $"NSArray *"; v_inTemplate := false; v_contexts := [CxObjCMethod true false false false; CxOther] |} None))] None))]))); (toplevel 23 (TFunction false), (Node 23 [] (FunctionDecl {| f_name := $"m"; f_method := None; f_isDefinition := true; f_bodyLines := (1)%Z |} [] (Some (Node 24 [] (CompoundStmt [(Node 25 [] (DeclStmt [(Node 26 [] (VarDecl {| v_isParm := false; v_name := $"d"; v_used := false; v_referenced := false; v_local := true; v_staticMember := false; v_private := false; v_unusedAttr := false; v_defaultArg := false; v_canonicalType := $"NSDictionary *"; v_inTemplate := false; v_contexts := [CxFunction true true false] |} (Some (Node 27 $"NSDictionary *" (ImplicitCastExpr CK_BitCast (Node 28 $"id" (ObjCMessageExpr {| ms_selector := $"dictionaryWithObjects:forKeys:"; ms_receiver := (RClass $"NSDictionary"); ms_implicit := false; ms_interface := (Some $"NSDictionary"); ms_method := (Some (Decl [] (Some (Method false None (InOther (Some NoCategory)))))); ms_methodClass := (Some $"NSDictionary") |} None [(Node 29 $"NSArray *" (OtherExpr [(Node 30 $"NSNumber *" (OtherExpr [(Node 31 $"int" (IntegerLiteral (2)%Z))])); (Node 32 $"NSNumber *" (OtherExpr [(Node 33 $"int" (IntegerLiteral (4)%Z))]))])); (Node 34 $"NSArray *" (OtherExpr [(Node 35 $"NSNumber *" (OtherExpr [(Node 36 $"int" (IntegerLiteral (1)%Z))])); (Node 37 $"NSNumber *" (OtherExpr [(Node 38 $"int" (IntegerLiteral (3)%Z))]))]))])))))))]))]))))))];
     ts_locs := [(3,1,3,23); (4,1,5,2); (6,1,8,2); (7,1,7,39); (7,30,7,34); (9,1,11,2); (10,1,10,66); (10,25,10,37); (10,52,10,63); (12,1,18,2); (13,1,13,17); (14,1,14,53); (14,29,14,32); (14,47,14,50); (15,1,15,97); (15,30,15,42); (15,59,15,71); (15,83,15,94); (16,1,16,56); (16,37,16,40); (17,1,17,71); (17,30,17,40); (17,57,17,67); (19,1,19,94); (19,10,19,94); (19,12,19,92); (19,12,19,91); (19,30,19,91); (19,30,19,91); (19,66,19,73); (19,68,19,69); (19,69,19,69); (19,71,19,72); (19,72,19,72); (19,83,19,90); (19,85,19,86); (19,86,19,86); (19,88,19,89); (19,89,19,89)]%Z;
     ts_evals := []; ts_same := []; ts_decls := []; ts_parents := [] |}.
Example ObjCContainerLiterals_DictionaryWithObjectsForKeys_holds : nth_violation (shippedRule sh_ObjCContainerLiterals) ObjCContainerLiterals_DictionaryWithObjectsForKeys 0 = Some (19, 30, 19, 91, $"")%Z.
Proof. vm_compute. reflexivity. Qed.

(** ** oclint-rules/test/migration/ObjCNSNumberLiteralsRuleTest.cpp *)

Definition ObjCNSNumberLiterals_CharacterLiteral : testcase :=
  {| ts_lang := LObjC; ts_path := $"input.m"; ts_code := [];
     ts_comments := []; ts_conf := [];
     ts_tops := [(toplevel 0 (TOther), (Node 0 [] (OtherDecl []))); (toplevel 1 (TOther), (Node 1 [] (ObjCContainerDecl {| oc_kind := OKInterface; oc_name := $"NSObject"; oc_lines := (2)%Z; oc_ivars := 0; oc_methods := []; oc_classes := [$"NSObject"]; oc_superMethods := None |} []))); (toplevel 2 (TOther), (Node 2 [] (ObjCContainerDecl {| oc_kind := OKInterface; oc_name := $"NSNumber"; oc_lines := (13)%Z; oc_ivars := 0; oc_methods := [($"numberWithChar:", false); ($"numberWithInt:", false); ($"numberWithUnsignedInt:", false); ($"numberWithLong:", false); ($"numberWithUnsignedLong:", false); ($"numberWithLongLong:", false); ($"numberWithUnsignedLongLong:", false); ($"numberWithFloat:", false); ($"numberWithDouble:", false); ($"numberWithBool:", false); ($"numberWithUnsignedChar:", false)]; oc_classes := [$"NSNumber"; $"NSObject"]; oc_superMethods := (Some ($"NSObject", [])) |} [(Node 3 [] (ObjCMethodDecl {| om_selector := $"numberWithChar:"; om_class := (Some $"NSNumber"); om_overriding := false; om_overridden := []; om_bodyLines := (0)%Z |} [(Node 4 [] (VarDecl {| v_isParm := true; v_name := $"value"; v_used := false; v_referenced := false; v_local := false; v_staticMember := false; v_private := false; v_unusedAttr := false; v_defaultArg := false; v_canonicalType := $"char"; v_inTemplate := false; v_contexts := [CxObjCMethod true false false false; CxOther] |} None))] None)); (Node 5 [] (ObjCMethodDecl {| om_selector := $"numberWithInt:"; om_class := (Some $"NSNumber"); om_overriding := false; om_overridden := []; om_bodyLines := (0)%Z |} [(Node 6 [] (VarDecl {| v_isParm := true; v_name := $"value"; v_used := false; v_referenced := false; v_local := false; v_staticMember := false; v_private := false; v_unusedAttr := false; v_defaultArg := false; v_canonicalType := $"int"; v_inTemplate := false; v_contexts := [CxObjCMethod true false false false; CxOther] |} None))] None)); (Node 7 [] (ObjCMethodDecl {| om_selector := $"numberWithUnsignedInt:"; om_class := (Some $"NSNumber"); om_overriding := false; om_overridden := []; om_bodyLines := (0)%Z |} [(Node 8 [] (VarDecl {| v_isParm := true; v_name := $"value"; v_used := false; v_referenced := false; v_local := false; v_staticMember := false; v_private := false; v_unusedAttr := false; v_defaultArg := false; v_canonicalType := $"unsigned int"; v_inTemplate := false; v_contexts := [CxObjCMethod true false false false; CxOther] |} None))] None)); (Node 9 [] (ObjCMethodDecl {| om_selector := $"numberWithLong:"; om_class := (Some $"NSNumber"); om_overriding := false; om_overridden := []; om_bodyLines := (0)%Z |} [(Node 10 [] (VarDecl {| v_isParm := true; v_name := $"value"; v_used := false; v_referenced := false; v_local := false; v_staticMember := false; v_private := false; v_unusedAttr := false; v_defaultArg := false; v_canonicalType := $"long"; v_inTemplate := false; v_contexts := [CxObjCMethod true false false false; CxOther] |} None))] None)); (Node 11 [] (ObjCMethodDecl {| om_selector := $"numberWithUnsignedLong:"; om_class := (Some $"NSNumber"); om_overriding := false; om_overridden := []; om_bodyLines := (0)%Z |} [(Node 12 [] (VarDecl {| v_isParm := true; v_name := $"value"; v_used := false; v_referenced := false; v_local := false; v_staticMember := false; v_private := false; v_unusedAttr := false; v_defaultArg := false; v_canonicalType := $"unsigned long"; v_inTemplate := false; v_contexts := [CxObjCMethod true false false false; CxOther] |} None))] None)); (Node 13 [] (ObjCMethodDecl {| om_selector := $"numberWithLongLong:"; om_class := (Some $"NSNumber"); om_overriding := false; om_overridden := []; om_bodyLines := (0)%Z |} [(Node 14 [] (VarDecl {| v_isParm := true; v_name := $"value"; v_used := false; v_referenced := false; v_local := false; v_staticMember := false; v_private := false; v_unusedAttr := false; v_defaultArg := false; v_canonicalType := $"long long"; v_inTemplate := false; v_contexts := [CxObjCMethod true false false false; CxOther] |} None))] None)); (Node 15 [] (ObjCMethodDecl {| om_selector := $"numberWithUnsignedLongLong:"; om_class := (Some $"NSNumber"); om_overriding := false; om_overridden := []; om_bodyLines := (0)%Z |} [(Node 16 [] (VarDecl {| v_isParm := true; v_name := $"value"; v_used := false; v_referenced := false; v_local := false; v_staticMember := false; v_private := false; v_unusedAttr := false; v_defaultArg := false; v_canonicalType := $"unsigned long long"; v_inTemplate := false; v_contexts := [CxObjCMethod true false false false; CxOther] |} None))] None)); (Node 17 [] (ObjCMethodDecl {| om_selector := $"numberWithFloat:"; om_class := (Some $"NSNumber"); om_overriding := false; om_overridden := []; om_bodyLines := (0)%Z |} [(Node 18 [] (VarDecl {| v_isParm := true; v_name := $"value"; v_used := false; v_referenced := false; v_local := false; v_staticMember := false; v_private := false; v_unusedAttr := false; v_defaultArg := false; v_canonicalType := $"float"; v_inTemplate := false; v_contexts := [CxObjCMethod true false false false; CxOther] |} None))] None)); (Node 19 [] (ObjCMethodDecl {| om_selector := $"numberWithDouble:"; om_class := (Some $"NSNumber"); om_overriding := false; om_overridden := []; om_bodyLines := (0)%Z |} [(Node 20 [] (VarDecl {| v_isParm := true; v_name := $"value"; v_used := false; v_referenced := false; v_local := false; v_staticMember := false; v_private := false; v_unusedAttr := false; v_defaultArg := false; v_canonicalType := $"double"; v_inTemplate := false; v_contexts := [CxObjCMethod true false false false; CxOther] |} None))] None)); (Node 21 [] (ObjCMethodDecl {| om_selector := $"numberWithBool:"; om_class := (Some $"NSNumber"); om_overriding := false; om_overridden := []; om_bodyLines := (0)%Z |} [(Node 22 [] (VarDecl {| v_isParm := true; v_name := $"value"; v_used := false; v_referenced := false; v_local := false; v_staticMember := false; v_private := false; v_unusedAttr := false; v_defaultArg := false; v_canonicalType := $"signed char"; v_inTemplate := false; v_contexts := [CxObjCMethod true false false false; CxOther] |} None))] None)); (Node 23 [] (ObjCMethodDecl {| om_selector := $"numberWithUnsignedChar:"; om_class := (Some $"NSNumber"); om_overriding := false; om_overridden := []; om_bodyLines := (0)%Z |} [(Node 24 [] (VarDecl {| v_isParm := true; v_name := $"value"; v_used := false; v_referenced := false; v_local := false; v_staticMember := false; v_private := false; v_unusedAttr := false; v_defaultArg := false; v_canonicalType := $"unsigned char"; v_inTemplate := false; v_contexts := [CxObjCMethod true false false false; CxOther] |} None))] None))]))); (toplevel 25 (TFunction false), (Node 25 [] (FunctionDecl {| f_name := $"m"; f_method := None; f_isDefinition := true; f_bodyLines := (1)%Z |} [] (Some (Node 26 [] (CompoundStmt [(Node 27 [] (DeclStmt [(Node 28 [] (VarDecl {| v_isParm := false; v_name := $"theLetterZ"; v_used := false; v_referenced := false; v_local := true; v_staticMember := false; v_private := false; v_unusedAttr := false; v_defaultArg := false; v_canonicalType := $"NSNumber *"; v_inTemplate := false; v_contexts := [CxFunction true true false] |} (Some (Node 29 $"NSNumber *" (OtherExpr [(Node 30 $"int" (CharacterLiteral 90%Z))])))))]))]))))))];
     ts_locs := [(2,1,2,21); (3,1,4,2); (5,1,17,2); (6,1,6,41); (6,31,6,36); (7,1,7,39); (7,30,7,34); (8,1,8,56); (8,38,8,51); (9,1,9,41); (9,31,9,36); (10,1,10,58); (10,39,10,53); (11,1,11,50); (11,35,11,45); (12,1,12,67); (12,43,12,62); (13,1,13,43); (13,32,13,38); (14,1,14,45); (14,33,14,40); (15,1,15,41); (15,31,15,36); (16,1,16,58); (16,39,16,53); (18,1,18,41); (18,10,18,41); (18,12,18,39); (18,12,18,36); (18,35,18,36); (18,36,18,36)]%Z;
     ts_evals := []; ts_same := []; ts_decls := []; ts_parents := [] |}.
Example ObjCNSNumberLiterals_CharacterLiteral_holds : sorted_violations_of (shippedRule sh_ObjCNSNumberLiterals) ObjCNSNumberLiterals_CharacterLiteral = Some [].
Proof. vm_compute. reflexivity. Qed.

Definition ObjCNSNumberLiterals_NumberWithChar : testcase :=
  {| ts_lang := LObjC; ts_path := $"input.m"; ts_code := [];
     ts_comments := []; ts_conf := [];
     ts_tops := [(toplevel 0 (TOther), (Node 0 [] (OtherDecl []))); (toplevel 1 (TOther), (Node 1 [] (ObjCContainerDecl {| oc_kind := OKInterface; oc_name := $"NSObject"; oc_lines := (2)%Z; oc_ivars := 0; oc_methods := []; oc_classes := [$"NSObject"]; oc_superMethods := None |} []))); (toplevel 2 (TOther), (Node 2 [] (ObjCContainerDecl {| oc_kind := OKInterface; oc_name := $"NSNumber"; oc_lines := (13)%Z; oc_ivars := 0; oc_methods := [($"numberWithChar:", false); ($"numberWithInt:", false); ($"numberWithUnsignedInt:", false); ($"numberWithLong:", false); ($"numberWithUnsignedLong:", false); ($"numberWithLongLong:", false); ($"numberWithUnsignedLongLong:", false); ($"numberWithFloat:", false); ($"numberWithDouble:", false); ($"numberWithBool:", false); ($"numberWithUnsignedChar:", false)]; oc_classes := [$"NSNumber"; $"NSObject"]; oc_superMethods := (Some ($"NSObject", [])) |} [(Node 3 [] (ObjCMethodDecl {| om_selector := $"numberWithChar:"; om_class := (Some $"NSNumber"); om_overriding := false; om_overridden := []; om_bodyLines := (0)%Z |} [(Node 4 [] (VarDecl {| v_isParm := true; v_name := $"value"; v_used := false; v_referenced := false; v_local := false; v_staticMember := false; v_private := false; v_unusedAttr := false; v_defaultArg := false; v_canonicalType := $"char"; v_inTemplate := false; v_contexts := [CxObjCMethod true false false false; CxOther] |} None))] None)); (Node 5 [] (ObjCMethodDecl {| om_selector := $"numberWithInt:"; om_class := (Some $"NSNumber"); om_overriding := false; om_overridden := []; om_bodyLines := (0)%Z |} [(Node 6 [] (VarDecl {| v_isParm := true; v_name := $"value"; v_used := false; v_referenced := false; v_local := false; v_staticMember := false; v_private := false; v_unusedAttr := false; v_defaultArg := false; v_canonicalType := $"int"; v_inTemplate := false; v_contexts := [CxObjCMethod true false false false; CxOther] |} None))] None)); (Node 7 [] (ObjCMethodDecl {| om_selector := $"numberWithUnsignedInt:"; om_class := (Some $"NSNumber"); om_overriding := false; om_overridden := []; om_bodyLines := (0)%Z |} [(Node 8 [] (VarDecl {| v_isParm := true; v_name := $"value"; v_used := false; v_referenced := false; v_local := false; v_staticMember := false; v_private := false; v_unusedAttr := false; v_defaultArg := false; v_canonicalType := $"unsigned int"; v_inTemplate := false; v_contexts := [CxObjCMethod true false false false; CxOther] |} None))] None)); (Node 9 [] (ObjCMethodDecl {| om_selector := $"numberWithLong:"; om_class := (Some $"NSNumber"); om_overriding := false; om_overridden := []; om_bodyLines := (0)%Z |} [(Node 10 [] (VarDecl {| v_isParm := true; v_name := $"value"; v_used := false; v_referenced := false; v_local := false; v_staticMember := false; v_private := false; v_unusedAttr := false; v_defaultArg := false; v_canonicalType := $"long"; v_inTemplate := false; v_contexts := [CxObjCMethod true false false false; CxOther] |} None))] None)); (Node 11 [] (ObjCMethodDecl {| om_selector := $"numberWithUnsignedLong:"; om_class := (Some $"NSNumber"); om_overriding := false; om_overridden := []; om_bodyLines := (0)%Z |} [(Node 12 [] (VarDecl {| v_isParm := true; v_name := $"value"; v_used := false; v_referenced := false; v_local := false; v_staticMember := false; v_private := false; v_unusedAttr := false; v_defaultArg := false; v_canonicalType := $"unsigned long"; v_inTemplate := false; v_contexts := [CxObjCMethod true false false false; CxOther] |} None))] None)); (Node 13 [] (ObjCMethodDecl {| om_selector := $"numberWithLongLong:"; om_class := (Some $"NSNumber"); om_overriding := false; om_overridden := []; om_bodyLines := (0)%Z |} [(Node 14 [] (VarDecl {| v_isParm := true; v_name := $"value"; v_used := false; v_referenced := false; v_local := false; v_staticMember := false; v_private := false; v_unusedAttr := false; v_defaultArg := false; v_canonicalType := $"long long"; v_inTemplate := false; v_contexts := [CxObjCMethod true false false false; CxOther] |} None))] None)); (Node 15 [] (ObjCMethodDecl {| om_selector := $"numberWithUnsignedLongLong:"; om_class := (Some $"NSNumber"); om_overriding := false; om_overridden := []; om_bodyLines := (0)%Z |} [(Node 16 [] (VarDecl {| v_isParm := true; v_name := $"value"; v_used := false; v_referenced := false; v_local := false; v_staticMember := false; v_private := false; v_unusedAttr := false; v_defaultArg := false; v_canonicalType := $"unsigned long long"; v_inTemplate := false; v_contexts := [CxObjCMethod true false false false; CxOther] |} None))] None)); (Node 17 [] (ObjCMethodDecl {| om_selector := $"numberWithFloat:"; om_class := (Some $"NSNumber"); om_overriding := false; om_overridden := []; om_bodyLines := (0)%Z |} [(Node 18 [] (VarDecl {| v_isParm := true; v_name := $"value"; v_used := false; v_referenced := false; v_local := false; v_staticMember := false; v_private := false; v_unusedAttr := false; v_defaultArg := false; v_canonicalType := $"float"; v_inTemplate := false; v_contexts := [CxObjCMethod true false false false; CxOther] |} None))] None)); (Node 19 [] (ObjCMethodDecl {| om_selector := $"numberWithDouble:"; om_class := (Some $"NSNumber"); om_overriding := false; om_overridden := []; om_bodyLines := (0)%Z |} [(Node 20 [] (VarDecl {| v_isParm := true; v_name := $"value"; v_used := false; v_referenced := false; v_local := false; v_staticMember := false; v_private := false; v_unusedAttr := false; v_defaultArg := false; v_canonicalType := $"double"; v_inTemplate := false; v_contexts := [CxObjCMethod true false false false; CxOther] |} None))] None)); (Node 21 [] (ObjCMethodDecl {| om_selector := $"numberWithBool:"; om_class := (Some $"NSNumber"); om_overriding := false; om_overridden := []; om_bodyLines := (0)%Z |} [(Node 22 [] (VarDecl {| v_isParm := true; v_name := $"value"; v_used := false; v_referenced := false; v_local := false; v_staticMember := false; v_private := false; v_unusedAttr := false; v_defaultArg := false; v_canonicalType := $"signed char"; v_inTemplate := false; v_contexts := [CxObjCMethod true false false false; CxOther] |} None))] None)); (Node 23 [] (ObjCMethodDecl {| om_selector := $"numberWithUnsignedChar:"; om_class := (Some $"NSNumber"); om_overriding := false; om_overridden := []; om_bodyLines := (0)%Z |} [(Node 24 [] (VarDecl {| v_isParm := true; v_name := $"value"; v_used := false; v_referenced := false; v_local := false; v_staticMember := false; v_private := false; v_unusedAttr := false; v_defaultArg := false; v_canonicalType := $"unsigned char"; v_inTemplate := false; v_contexts := [CxObjCMethod true false false false; CxOther] |} None))] None))]))); (toplevel 25 (TFunction false), (Node 25 [] (FunctionDecl {| f_name := $"m"; f_method := None; f_isDefinition := true; f_bodyLines := (1)%Z |} [] (Some (Node 26 [] (CompoundStmt [(Node 27 [] (DeclStmt [(Node 28 [] (VarDecl {| v_isParm := false; v_name := $"theLetterZ"; v_used := false; v_referenced := false; v_local := true; v_staticMember := false; v_private := false; v_unusedAttr := false; v_defaultArg := false; v_canonicalType := $"NSNumber *"; v_inTemplate := false; v_contexts := [CxFunction true true false] |} (Some (Node 29 $"NSNumber *" (ObjCMessageExpr {| ms_selector := $"numberWithChar:"; ms_receiver := (RClass $"NSNumber"); ms_implicit := false; ms_interface := (Some $"NSNumber"); ms_method := (Some (Decl [] (Some (Method false None (InOther (Some NoCategory)))))); ms_methodClass := (Some $"NSNumber") |} None [(Node 30 $"char" (ImplicitCastExpr CK_Other (Node 31 $"int" (CharacterLiteral 90%Z))))])))))]))]))))))];
     ts_locs := [(2,1,2,21); (3,1,4,2); (5,1,17,2); (6,1,6,41); (6,31,6,36); (7,1,7,39); (7,30,7,34); (8,1,8,56); (8,38,8,51); (9,1,9,41); (9,31,9,36); (10,1,10,58); (10,39,10,53); (11,1,11,50); (11,35,11,45); (12,1,12,67); (12,43,12,62); (13,1,13,43); (13,32,13,38); (14,1,14,45); (14,33,14,40); (15,1,15,41); (15,31,15,36); (16,1,16,58); (16,39,16,53); (18,1,18,66); (18,10,18,66); (18,12,18,64); (18,12,18,63); (18,35,18,63); (18,60,18,60); (18,60,18,60)]%Z;
     ts_evals := []; ts_same := []; ts_decls := []; ts_parents := [] |}.
Example ObjCNSNumberLiterals_NumberWithChar_holds : nth_violation (shippedRule sh_ObjCNSNumberLiterals) ObjCNSNumberLiterals_NumberWithChar 0 = Some (18, 35, 18, 63, $"")%Z.
Proof. vm_compute. reflexivity. Qed.

Definition ObjCNSNumberLiterals_NumberWithCharButInteger : testcase :=
  {| ts_lang := LObjC; ts_path := $"input.m"; ts_code := [];
     ts_comments := []; ts_conf := [];
     ts_tops := [(toplevel 0 (TOther), (Node 0 [] (OtherDecl []))); (toplevel 1 (TOther), (Node 1 [] (ObjCContainerDecl {| oc_kind := OKInterface; oc_name := $"NSObject"; oc_lines := (2)%Z; oc_ivars := 0; oc_methods := []; oc_classes := [$"NSObject"]; oc_superMethods := None |} []))); (toplevel 2 (TOther), (Node 2 [] (ObjCContainerDecl {| oc_kind := OKInterface; oc_name := $"NSNumber"; oc_lines := (13)%Z; oc_ivars := 0; oc_methods := [($"numberWithChar:", false); ($"numberWithInt:", false); ($"numberWithUnsignedInt:", false); ($"numberWithLong:", false); ($"numberWithUnsignedLong:", false); ($"numberWithLongLong:", false); ($"numberWithUnsignedLongLong:", false); ($"numberWithFloat:", false); ($"numberWithDouble:", false); ($"numberWithBool:", false); ($"numberWithUnsignedChar:", false)]; oc_classes := [$"NSNumber"; $"NSObject"]; oc_superMethods := (Some ($"NSObject", [])) |} [(Node 3 [] (ObjCMethodDecl {| om_selector := $"numberWithChar:"; om_class := (Some $"NSNumber"); om_overriding := false; om_overridden := []; om_bodyLines := (0)%Z |} [(Node 4 [] (VarDecl {| v_isParm := true; v_name := $"value"; v_used := false; v_referenced := false; v_local := false; v_staticMember := false; v_private := false; v_unusedAttr := false; v_defaultArg := false; v_canonicalType := $"char"; v_inTemplate := false; v_contexts := [CxObjCMethod true false false false; CxOther] |} None))] None)); (Node 5 [] (ObjCMethodDecl {| om_selector := $"numberWithInt:"; om_class := (Some $"NSNumber"); om_overriding := false; om_overridden := []; om_bodyLines := (0)%Z |} [(Node 6 [] (VarDecl {| v_isParm := true; v_name := $"value"; v_used := false; v_referenced := false; v_local := false; v_staticMember := false; v_private := false; v_unusedAttr := false; v_defaultArg := false; v_canonicalType := $"int"; v_inTemplate := false; v_contexts := [CxObjCMethod true false false false; CxOther] |} None))] None)); (Node 7 [] (ObjCMethodDecl {| om_selector := $"numberWithUnsignedInt:"; om_class := (Some $"NSNumber"); om_overriding := false; om_overridden := []; om_bodyLines := (0)%Z |} [(Node 8 [] (VarDecl {| v_isParm := true; v_name := $"value"; v_used := false; v_referenced := false; v_local := false; v_staticMember := false; v_private := false; v_unusedAttr := false; v_defaultArg := false; v_canonicalType := $"unsigned int"; v_inTemplate := false; v_contexts := [CxObjCMethod true false false false; CxOther] |} None))] None)); (Node 9 [] (ObjCMethodDecl {| om_selector := $"numberWithLong:"; om_class := (Some $"NSNumber"); om_overriding := false; om_overridden := []; om_bodyLines := (0)%Z |} [(Node 10 [] (VarDecl {| v_isParm := true; v_name := $"value"; v_used := false; v_referenced := false; v_local := false; v_staticMember := false; v_private := false; v_unusedAttr := false; v_defaultArg := false; v_canonicalType := $"long"; v_inTemplate := false; v_contexts := [CxObjCMethod true false false false; CxOther] |} None))] None)); (Node 11 [] (ObjCMethodDecl {| om_selector := $"numberWithUnsignedLong:"; om_class := (Some $"NSNumber"); om_overriding := false; om_overridden := []; om_bodyLines := (0)%Z |} [(Node 12 [] (VarDecl {| v_isParm := true; v_name := $"value"; v_used := false; v_referenced := false; v_local := false; v_staticMember := false; v_private := false; v_unusedAttr := false; v_defaultArg := false; v_canonicalType := $"unsigned long"; v_inTemplate := false; v_contexts := [CxObjCMethod true false false false; CxOther] |} None))] None)); (Node 13 [] (ObjCMethodDecl {| om_selector := $"numberWithLongLong:"; om_class := (Some $"NSNumber"); om_overriding := false; om_overridden := []; om_bodyLines := (0)%Z |} [(Node 14 [] (VarDecl {| v_isParm := true; v_name := $"value"; v_used := false; v_referenced := false; v_local := false; v_staticMember := false; v_private := false; v_unusedAttr := false; v_defaultArg := false; v_canonicalType := $"long long"; v_inTemplate := false; v_contexts := [CxObjCMethod true false false false; CxOther] |} None))] None)); (Node 15 [] (ObjCMethodDecl {| om_selector := $"numberWithUnsignedLongLong:"; om_class := (Some $"NSNumber"); om_overriding := false; om_overridden := []; om_bodyLines := (0)%Z |} [(Node 16 [] (VarDecl {| v_isParm := true; v_name := $"value"; v_used := false; v_referenced := false; v_local := false; v_staticMember := false; v_private := false; v_unusedAttr := false; v_defaultArg := false; v_canonicalType := $"unsigned long long"; v_inTemplate := false; v_contexts := [CxObjCMethod true false false false; CxOther] |} None))] None)); (Node 17 [] (ObjCMethodDecl {| om_selector := $"numberWithFloat:"; om_class := (Some $"NSNumber"); om_overriding := false; om_overridden := []; om_bodyLines := (0)%Z |} [(Node 18 [] (VarDecl {| v_isParm := true; v_name := $"value"; v_used := false; v_referenced := false; v_local := false; v_staticMember := false; v_private := false; v_unusedAttr := false; v_defaultArg := false; v_canonicalType := $"float"; v_inTemplate := false; v_contexts := [CxObjCMethod true false false false; CxOther] |} None))] None)); (Node 19 [] (ObjCMethodDecl {| om_selector := $"numberWithDouble:"; om_class := (Some $"NSNumber"); om_overriding := false; om_overridden := []; om_bodyLines := (0)%Z |} [(Node 20 [] (VarDecl {| v_isParm := true; v_name := $"value"; v_used := false; v_referenced := false; v_local := false; v_staticMember := false; v_private := false; v_unusedAttr := false; v_defaultArg := false; v_canonicalType := $"double"; v_inTemplate := false; v_contexts := [CxObjCMethod true false false false; CxOther] |} None))] None)); (Node 21 [] (ObjCMethodDecl {| om_selector := $"numberWithBool:"; om_class := (Some $"NSNumber"); om_overriding := false; om_overridden := []; om_bodyLines := (0)%Z |} [(Node 22 [] (VarDecl {| v_isParm := true; v_name := $"value"; v_used := false; v_referenced := false; v_local := false; v_staticMember := false; v_private := false; v_unusedAttr := false; v_defaultArg := false; v_canonicalType := $"signed char"; v_inTemplate := false; v_contexts := [CxObjCMethod true false false false; CxOther] |} None))] None)); (Node 23 [] (ObjCMethodDecl {| om_selector := $"numberWithUnsignedChar:"; om_class := (Some $"NSNumber"); om_overriding := false; om_overridden := []; om_bodyLines := (0)%Z |} [(Node 24 [] (VarDecl {| v_isParm := true; v_name := $"value"; v_used := false; v_referenced := false; v_local := false; v_staticMember := false; v_private := false; v_unusedAttr := false; v_defaultArg := false; v_canonicalType := $"unsigned char"; v_inTemplate := false; v_contexts := [CxObjCMethod true false false false; CxOther] |} None))] None))]))); (toplevel 25 (TFunction false), (Node 25 [] (FunctionDecl {| f_name := $"m"; f_method := None; f_isDefinition := true; f_bodyLines := (1)%Z |} [] (Some (Node 26 [] (CompoundStmt [(Node 27 [] (DeclStmt [(Node 28 [] (VarDecl {| v_isParm := false; v_name := $"theLetterZ"; v_used := false; v_referenced := false; v_local := true; v_staticMember := false; v_private := false; v_unusedAttr := false; v_defaultArg := false; v_canonicalType := $"NSNumber *"; v_inTemplate := false; v_contexts := [CxFunction true true false] |} (Some (Node 29 $"NSNumber *" (ObjCMessageExpr {| ms_selector := $"numberWithChar:"; ms_receiver := (RClass $"NSNumber"); ms_implicit := false; ms_interface := (Some $"NSNumber"); ms_method := (Some (Decl [] (Some (Method false None (InOther (Some NoCategory)))))); ms_methodClass := (Some $"NSNumber") |} None [(Node 30 $"char" (ImplicitCastExpr CK_Other (Node 31 $"int" (IntegerLiteral (15)%Z))))])))))]))]))))))];
     ts_locs := [(2,1,2,21); (3,1,4,2); (5,1,17,2); (6,1,6,41); (6,31,6,36); (7,1,7,39); (7,30,7,34); (8,1,8,56); (8,38,8,51); (9,1,9,41); (9,31,9,36); (10,1,10,58); (10,39,10,53); (11,1,11,50); (11,35,11,45); (12,1,12,67); (12,43,12,62); (13,1,13,43); (13,32,13,38); (14,1,14,45); (14,33,14,40); (15,1,15,41); (15,31,15,36); (16,1,16,58); (16,39,16,53); (18,1,18,65); (18,10,18,65); (18,12,18,63); (18,12,18,62); (18,35,18,62); (18,60,18,60); (18,60,18,60)]%Z;
     ts_evals := []; ts_same := []; ts_decls := []; ts_parents := [] |}.
Example ObjCNSNumberLiterals_NumberWithCharButInteger_holds : sorted_violations_of (shippedRule sh_ObjCNSNumberLiterals) ObjCNSNumberLiterals_NumberWithCharButInteger = Some [].
Proof. vm_compute. reflexivity. Qed.

Definition ObjCNSNumberLiterals_NumberWithBoxedChar : testcase :=
  {| ts_lang := LObjC; ts_path := $"input.m"; ts_code := [];
     ts_comments := []; ts_conf := [];
     ts_tops := [(toplevel 0 (TOther), (Node 0 [] (OtherDecl []))); (toplevel 1 (TOther), (Node 1 [] (ObjCContainerDecl {| oc_kind := OKInterface; oc_name := $"NSObject"; oc_lines := (2)%Z; oc_ivars := 0; oc_methods := []; oc_classes := [$"NSObject"]; oc_superMethods := None |} []))); (toplevel 2 (TOther), (Node 2 [] (ObjCContainerDecl {| oc_kind := OKInterface; oc_name := $"NSNumber"; oc_lines := (13)%Z; oc_ivars := 0; oc_methods := [($"numberWithChar:", false); ($"numberWithInt:", false); ($"numberWithUnsignedInt:", false); ($"numberWithLong:", false); ($"numberWithUnsignedLong:", false); ($"numberWithLongLong:", false); ($"numberWithUnsignedLongLong:", false); ($"numberWithFloat:", false); ($"numberWithDouble:", false); ($"numberWithBool:", false); ($"numberWithUnsignedChar:", false)]; oc_classes := [$"NSNumber"; $"NSObject"]; oc_superMethods := (Some ($"NSObject", [])) |} [(Node 3 [] (ObjCMethodDecl {| om_selector := $"numberWithChar:"; om_class := (Some $"NSNumber"); om_overriding := false; om_overridden := []; om_bodyLines := (0)%Z |} [(Node 4 [] (VarDecl {| v_isParm := true; v_name := $"value"; v_used := false; v_referenced := false; v_local := false; v_staticMember := false; v_private := false; v_unusedAttr := false; v_defaultArg := false; v_canonicalType := $"char"; v_inTemplate := false; v_contexts := [CxObjCMethod true false false false; CxOther] |} None))] None)); (Node 5 [] (ObjCMethodDecl {| om_selector := $"numberWithInt:"; om_class := (Some $"NSNumber"); om_overriding := false; om_overridden := []; om_bodyLines := (0)%Z |} [(Node 6 [] (VarDecl {| v_isParm := true; v_name := $"value"; v_used := false; v_referenced := false; v_local := false; v_staticMember := false; v_private := false; v_unusedAttr := false; v_defaultArg := false; v_canonicalType := $"int"; v_inTemplate := false; v_contexts := [CxObjCMethod true false false false; CxOther] |} None))] None)); (Node 7 [] (ObjCMethodDecl {| om_selector := $"numberWithUnsignedInt:"; om_class := (Some $"NSNumber"); om_overriding := false; om_overridden := []; om_bodyLines := (0)%Z |} [(Node 8 [] (VarDecl {| v_isParm := true; v_name := $"value"; v_used := false; v_referenced := false; v_local := false; v_staticMember := false; v_private := false; v_unusedAttr := false; v_defaultArg := false; v_canonicalType := $"unsigned int"; v_inTemplate := false; v_contexts := [CxObjCMethod true false false false; CxOther] |} None))] None)); (Node 9 [] (ObjCMethodDecl {| om_selector := $"numberWithLong:"; om_class := (Some $"NSNumber"); om_overriding := false; om_overridden := []; om_bodyLines := (0)%Z |} [(Node 10 [] (VarDecl {| v_isParm := true; v_name := $"value"; v_used := false; v_referenced := false; v_local := false; v_staticMember := false; v_private := false; v_unusedAttr := false; v_defaultArg := false; v_canonicalType := $"long"; v_inTemplate := false; v_contexts := [CxObjCMethod true false false false; CxOther] |} None))] None)); (Node 11 [] (ObjCMethodDecl {| om_selector := $"numberWithUnsignedLong:"; om_class := (Some $"NSNumber"); om_overriding := false; om_overridden := []; om_bodyLines := (0)%Z |} [(Node 12 [] (VarDecl {| v_isParm := true; v_name := $"value"; v_used := false; v_referenced := false; v_local := false; v_staticMember := false; v_private := false; v_unusedAttr := false; v_defaultArg := false; v_canonicalType := $"unsigned long"; v_inTemplate := false; v_contexts := [CxObjCMethod true false false false; CxOther] |} None))] None)); (Node 13 [] (ObjCMethodDecl {| om_selector := $"numberWithLongLong:"; om_class := (Some $"NSNumber"); om_overriding := false; om_overridden := []; om_bodyLines := (0)%Z |} [(Node 14 [] (VarDecl {| v_isParm := true; v_name := $"value"; v_used := false; v_referenced := false; v_local := false; v_staticMember := false; v_private := false; v_unusedAttr := false; v_defaultArg := false; v_canonicalType := $"long long"; v_inTemplate := false; v_contexts := [CxObjCMethod true false false false; CxOther] |} None))] None)); (Node 15 [] (ObjCMethodDecl {| om_selector := $"numberWithUnsignedLongLong:"; om_class := (Some $"NSNumber"); om_overriding := false; om_overridden := []; om_bodyLines := (0)%Z |} [(Node 16 [] (VarDecl {| v_isParm := true; v_name := $"value"; v_used := false; v_referenced := false; v_local := false; v_staticMember := false; v_private := false; v_unusedAttr := false; v_defaultArg := false; v_canonicalType := $"unsigned long long"; v_inTemplate := false; v_contexts := [CxObjCMethod true false false false; CxOther] |} None))] None)); (Node 17 [] (ObjCMethodDecl {| om_selector := $"numberWithFloat:"; om_class := (Some $"NSNumber"); om_overriding := false; om_overridden := []; om_bodyLines := (0)%Z |} [(Node 18 [] (VarDecl {| v_isParm := true; v_name := $"value"; v_used := false; v_referenced := false; v_local := false; v_staticMember := false; v_private := false; v_unusedAttr := false; v_defaultArg := false; v_canonicalType := $"float"; v_inTemplate := false; v_contexts := [CxObjCMethod true false false false; CxOther] |} None))] None)); (Node 19 [] (ObjCMethodDecl {| om_selector := $"numberWithDouble:"; om_class := (Some $"NSNumber"); om_overriding := false; om_overridden := []; om_bodyLines := (0)%Z |} [(Node 20 [] (VarDecl {| v_isParm := true; v_name := $"value"; v_used := false; v_referenced := false; v_local := false; v_staticMember := false; v_private := false; v_unusedAttr := false; v_defaultArg := false; v_canonicalType := $"double"; v_inTemplate := false; v_contexts := [CxObjCMethod true false false false; CxOther] |} None))] None)); (Node 21 [] (ObjCMethodDecl {| om_selector := $"numberWithBool:"; om_class := (Some $"NSNumber"); om_overriding := false; om_overridden := []; om_bodyLines := (0)%Z |} [(Node 22 [] (VarDecl {| v_isParm := true; v_name := $"value"; v_used := false; v_referenced := false; v_local := false; v_staticMember := false; v_private := false; v_unusedAttr := false; v_defaultArg := false; v_canonicalType := $"signed char"; v_inTemplate := false; v_contexts := [CxObjCMethod true false false false; CxOther] |} None))] None)); (Node 23 [] (ObjCMethodDecl {| om_selector := $"numberWithUnsignedChar:"; om_class := (Some $"NSNumber"); om_overriding := false; om_overridden := []; om_bodyLines := (0)%Z |} [(Node 24 [] (VarDecl {| v_isParm := true; v_name := $"value"; v_used := false; v_referenced := false; v_local := false; v_staticMember := false; v_private := false; v_unusedAttr := false; v_defaultArg := false; v_canonicalType := $"unsigned char"; v_inTemplate := false; v_contexts := [CxObjCMethod true false false false; CxOther] |} None))] None))]))); (toplevel 25 (TFunction false), (Node 25 [] (FunctionDecl {| f_name := $"getZ"; f_method := None; f_isDefinition := true; f_bodyLines := (1)%Z |} [] (Some (Node 26 [] (CompoundStmt [(Node 27 [] (ReturnStmt (Some (Node 28 $"char" (ImplicitCastExpr CK_Other (Node 29 $"int" (CharacterLiteral 90%Z)))))))])))))); (toplevel 30 (TFunction false), (Node 30 [] (FunctionDecl {| f_name := $"m"; f_method := None; f_isDefinition := true; f_bodyLines := (1)%Z |} [] (Some (Node 31 [] (CompoundStmt [(Node 32 [] (DeclStmt [(Node 33 [] (VarDecl {| v_isParm := false; v_name := $"theLetterZ"; v_used := false; v_referenced := false; v_local := true; v_staticMember := false; v_private := false; v_unusedAttr := false; v_defaultArg := false; v_canonicalType := $"NSNumber *"; v_inTemplate := false; v_contexts := [CxFunction true true false] |} (Some (Node 34 $"NSNumber *" (ObjCMessageExpr {| ms_selector := $"numberWithChar:"; ms_receiver := (RClass $"NSNumber"); ms_implicit := false; ms_interface := (Some $"NSNumber"); ms_method := (Some (Decl [] (Some (Method false None (InOther (Some NoCategory)))))); ms_methodClass := (Some $"NSNumber") |} None [(Node 35 $"char" (ParenExpr (Node 36 $"char" (CallExpr (Some ($"getZ", (Decl [] None))) (Node 37 $"char () *" (ImplicitCastExpr CK_Other (Node 38 $"char ()" (DeclRefExpr 25 $"getZ" false)))) []))))])))))]))]))))))];
     ts_locs := [(2,1,2,21); (3,1,4,2); (5,1,17,2); (6,1,6,41); (6,31,6,36); (7,1,7,39); (7,30,7,34); (8,1,8,56); (8,38,8,51); (9,1,9,41); (9,31,9,36); (10,1,10,58); (10,39,10,53); (11,1,11,50); (11,35,11,45); (12,1,12,67); (12,43,12,62); (13,1,13,43); (13,32,13,38); (14,1,14,45); (14,33,14,40); (15,1,15,41); (15,31,15,36); (16,1,16,58); (16,39,16,53); (18,1,18,27); (18,13,18,27); (18,15,18,22); (18,22,18,22); (18,22,18,22); (18,29,18,99); (18,38,18,99); (18,40,18,97); (18,40,18,96); (18,63,18,96); (18,88,18,95); (18,89,18,94); (18,89,18,89); (18,89,18,89)]%Z;
     ts_evals := []; ts_same := []; ts_decls := []; ts_parents := [] |}.
Example ObjCNSNumberLiterals_NumberWithBoxedChar_holds : sorted_violations_of (shippedRule sh_ObjCNSNumberLiterals) ObjCNSNumberLiterals_NumberWithBoxedChar = Some [].
Proof. vm_compute. reflexivity. Qed.

Definition ObjCNSNumberLiterals_IntLiteral : testcase :=
  {| ts_lang := LObjC; ts_path := $"input.m"; ts_code := [];
     ts_comments := []; ts_conf := [];
     ts_tops := [(toplevel 0 (TOther), (Node 0 [] (OtherDecl []))); (toplevel 1 (TOther), (Node 1 [] (ObjCContainerDecl {| oc_kind := OKInterface; oc_name := $"NSObject"; oc_lines := (2)%Z; oc_ivars := 0; oc_methods := []; oc_classes := [$"NSObject"]; oc_superMethods := None |} []))); (toplevel 2 (TOther), (Node 2 [] (ObjCContainerDecl {| oc_kind := OKInterface; oc_name := $"NSNumber"; oc_lines := (13)%Z; oc_ivars := 0; oc_methods := [($"numberWithChar:", false); ($"numberWithInt:", false); ($"numberWithUnsignedInt:", false); ($"numberWithLong:", false); ($"numberWithUnsignedLong:", false); ($"numberWithLongLong:", false); ($"numberWithUnsignedLongLong:", false); ($"numberWithFloat:", false); ($"numberWithDouble:", false); ($"numberWithBool:", false); ($"numberWithUnsignedChar:", false)]; oc_classes := [$"NSNumber"; $"NSObject"]; oc_superMethods := (Some ($"NSObject", [])) |} [(Node 3 [] (ObjCMethodDecl {| om_selector := $"numberWithChar:"; om_class := (Some $"NSNumber"); om_overriding := false; om_overridden := []; om_bodyLines := (0)%Z |} [(Node 4 [] (VarDecl {| v_isParm := true; v_name := $"value"; v_used := false; v_referenced := false; v_local := false; v_staticMember := false; v_private := false; v_unusedAttr := false; v_defaultArg := false; v_canonicalType := $"char"; v_inTemplate := false; v_contexts := [CxObjCMethod true false false false; CxOther] |} None))] None)); (Node 5 [] (ObjCMethodDecl {| om_selector := $"numberWithInt:"; om_class := (Some $"NSNumber"); om_overriding := false; om_overridden := []; om_bodyLines := (0)%Z |} [(Node 6 [] (VarDecl {| v_isParm := true; v_name := $"value"; v_used := false; v_referenced := false; v_local := false; v_staticMember := false; v_private := false; v_unusedAttr := false; v_defaultArg := false; v_canonicalType := $"int"; v_inTemplate := false; v_contexts := [CxObjCMethod true false false false; CxOther] |} None))] None)); (Node 7 [] (ObjCMethodDecl {| om_selector := $"numberWithUnsignedInt:"; om_class := (Some $"NSNumber"); om_overriding := false; om_overridden := []; om_bodyLines := (0)%Z |} [(Node 8 [] (VarDecl {| v_isParm := true; v_name := $"value"; v_used := false; v_referenced := false; v_local := false; v_staticMember := false; v_private := false; v_unusedAttr := false; v_defaultArg := false; v_canonicalType := $"unsigned int"; v_inTemplate := false; v_contexts := [CxObjCMethod true false false false; CxOther] |} None))] None)); (Node 9 [] (ObjCMethodDecl {| om_selector := $"numberWithLong:"; om_class := (Some $"NSNumber"); om_overriding := false; om_overridden := []; om_bodyLines := (0)%Z |} [(Node 10 [] (VarDecl {| v_isParm := true; v_name := $"value"; v_used := false; v_referenced := false; v_local := false; v_staticMember := false; v_private := false; v_unusedAttr := false; v_defaultArg := false; v_canonicalType := $"long"; v_inTemplate := false; v_contexts := [CxObjCMethod true false false false; CxOther] |} None))] None)); (Node 11 [] (ObjCMethodDecl {| om_selector := $"numberWithUnsignedLong:"; om_class := (Some $"NSNumber"); om_overriding := false; om_overridden := []; om_bodyLines := (0)%Z |} [(Node 12 [] (VarDecl {| v_isParm := true; v_name := $"value"; v_used := false; v_referenced := false; v_local := false; v_staticMember := false; v_private := false; v_unusedAttr := false; v_defaultArg := false; v_canonicalType := $"unsigned long"; v_inTemplate := false; v_contexts := [CxObjCMethod true false false false; CxOther] |} None))] None)); (Node 13 [] (ObjCMethodDecl {| om_selector := $"numberWithLongLong:"; om_class := (Some $"NSNumber"); om_overriding := false; om_overridden := []; om_bodyLines := (0)%Z |} [(Node 14 [] (VarDecl {| v_isParm := true; v_name := $"value"; v_used := false; v_referenced := false; v_local := false; v_staticMember := false; v_private := false; v_unusedAttr := false; v_defaultArg := false; v_canonicalType := $"long long"; v_inTemplate := false; v_contexts := [CxObjCMethod true false false false; CxOther] |} None))] None)); (Node 15 [] (ObjCMethodDecl {| om_selector := $"numberWithUnsignedLongLong:"; om_class := (Some $"NSNumber"); om_overriding := false; om_overridden := []; om_bodyLines := (0)%Z |} [(Node 16 [] (VarDecl {| v_isParm := true; v_name := $"value"; v_used := false; v_referenced := false; v_local := false; v_staticMember := false; v_private := false; v_unusedAttr := false; v_defaultArg := false; v_canonicalType := $"unsigned long long"; v_inTemplate := false; v_contexts := [CxObjCMethod true false false false; CxOther] |} None))] None)); (Node 17 [] (ObjCMethodDecl {| om_selector := $"numberWithFloat:"; om_class := (Some $"NSNumber"); om_overriding := false; om_overridden := []; om_bodyLines := (0)%Z |} [(Node 18 [] (VarDecl {| v_isParm := true; v_name := $"value"; v_used := false; v_referenced := false; v_local := false; v_staticMember := false; v_private := false; v_unusedAttr := false; v_defaultArg := false; v_canonicalType := $"float"; v_inTemplate := false; v_contexts := [CxObjCMethod true false false false; CxOther] |} None))] None)); (Node 19 [] (ObjCMethodDecl {| om_selector := $"numberWithDouble:"; om_class := (Some $"NSNumber"); om_overriding := false; om_overridden := []; om_bodyLines := (0)%Z |} [(Node 20 [] (VarDecl {| v_isParm := true; v_name := $"value"; v_used := false; v_referenced := false; v_local := false; v_staticMember := false; v_private := false; v_unusedAttr := false; v_defaultArg := false; v_canonicalType := $"double"; v_inTemplate := false; v_contexts := [CxObjCMethod true false false false; CxOther] |} None))] None)); (Node 21 [] (ObjCMethodDecl {| om_selector := $"numberWithBool:"; om_class := (Some $"NSNumber"); om_overriding := false; om_overridden := []; om_bodyLines := (0)%Z |} [(Node 22 [] (VarDecl {| v_isParm := true; v_name := $"value"; v_used := false; v_referenced := false; v_local := false; v_staticMember := false; v_private := false; v_unusedAttr := false; v_defaultArg := false; v_canonicalType := $"signed char"; v_inTemplate := false; v_contexts := [CxObjCMethod true false false false; CxOther] |} None))] None)); (Node 23 [] (ObjCMethodDecl {| om_selector := $"numberWithUnsignedChar:"; om_class := (Some $"NSNumber"); om_overriding := false; om_overridden := []; om_bodyLines := (0)%Z |} [(Node 24 [] (VarDecl {| v_isParm := true; v_name := $"value"; v_used := false; v_referenced := false; v_local := false; v_staticMember := false; v_private := false; v_unusedAttr := false; v_defaultArg := false; v_canonicalType := $"unsigned char"; v_inTemplate := false; v_contexts := [CxObjCMethod true false false false; CxOther] |} None))] None))]))); (toplevel 25 (TFunction false), (Node 25 [] (FunctionDecl {| f_name := $"m"; f_method := None; f_isDefinition := true; f_bodyLines := (1)%Z |} [] (Some (Node 26 [] (CompoundStmt [(Node 27 [] (DeclStmt [(Node 28 [] (VarDecl {| v_isParm := false; v_name := $"fortyTwo"; v_used := false; v_referenced := false; v_local := true; v_staticMember := false; v_private := false; v_unusedAttr := false; v_defaultArg := false; v_canonicalType := $"NSNumber *"; v_inTemplate := false; v_contexts := [CxFunction true true false] |} (Some (Node 29 $"NSNumber *" (OtherExpr [(Node 30 $"int" (IntegerLiteral (42)%Z))])))))]))]))))))];
     ts_locs := [(2,1,2,21); (3,1,4,2); (5,1,17,2); (6,1,6,41); (6,31,6,36); (7,1,7,39); (7,30,7,34); (8,1,8,56); (8,38,8,51); (9,1,9,41); (9,31,9,36); (10,1,10,58); (10,39,10,53); (11,1,11,50); (11,35,11,45); (12,1,12,67); (12,43,12,62); (13,1,13,43); (13,32,13,38); (14,1,14,45); (14,33,14,40); (15,1,15,41); (15,31,15,36); (16,1,16,58); (16,39,16,53); (18,1,18,38); (18,10,18,38); (18,12,18,36); (18,12,18,34); (18,33,18,34); (18,34,18,34)]%Z;
     ts_evals := []; ts_same := []; ts_decls := []; ts_parents := [] |}.
Example ObjCNSNumberLiterals_IntLiteral_holds : sorted_violations_of (shippedRule sh_ObjCNSNumberLiterals) ObjCNSNumberLiterals_IntLiteral = Some [].
Proof. vm_compute. reflexivity. Qed.

Definition ObjCNSNumberLiterals_NumberWithInt : testcase :=
  {| ts_lang := LObjC; ts_path := $"input.m"; ts_code := [];
     ts_comments := []; ts_conf := [];
     ts_tops := [(toplevel 0 (TOther), (Node 0 [] (OtherDecl []))); (toplevel 1 (TOther), (Node 1 [] (ObjCContainerDecl {| oc_kind := OKInterface; oc_name := $"NSObject"; oc_lines := (2)%Z; oc_ivars := 0; oc_methods := []; oc_classes := [$"NSObject"]; oc_superMethods := None |} []))); (toplevel 2 (TOther), (Node 2 [] (ObjCContainerDecl {| oc_kind := OKInterface; oc_name := $"NSNumber"; oc_lines := (13)%Z; oc_ivars := 0; oc_methods := [($"numberWithChar:", false); ($"numberWithInt:", false); ($"numberWithUnsignedInt:", false); ($"numberWithLong:", false); ($"numberWithUnsignedLong:", false); ($"numberWithLongLong:", false); ($"numberWithUnsignedLongLong:", false); ($"numberWithFloat:", false); ($"numberWithDouble:", false); ($"numberWithBool:", false); ($"numberWithUnsignedChar:", false)]; oc_classes := [$"NSNumber"; $"NSObject"]; oc_superMethods := (Some ($"NSObject", [])) |} [(Node 3 [] (ObjCMethodDecl {| om_selector := $"numberWithChar:"; om_class := (Some $"NSNumber"); om_overriding := false; om_overridden := []; om_bodyLines := (0)%Z |} [(Node 4 [] (VarDecl {| v_isParm := true; v_name := $"value"; v_used := false; v_referenced := false; v_local := false; v_staticMember := false; v_private := false; v_unusedAttr := false; v_defaultArg := false; v_canonicalType := $"char"; v_inTemplate := false; v_contexts := [CxObjCMethod true false false false; CxOther] |} None))] None)); (Node 5 [] (ObjCMethodDecl {| om_selector := $"numberWithInt:"; om_class := (Some $"NSNumber"); om_overriding := false; om_overridden := []; om_bodyLines := (0)%Z |} [(Node 6 [] (VarDecl {| v_isParm := true; v_name := $"value"; v_used := false; v_referenced := false; v_local := false; v_staticMember := false; v_private := false; v_unusedAttr := false; v_defaultArg := false; v_canonicalType := $"int"; v_inTemplate := false; v_contexts := [CxObjCMethod true false false false; CxOther] |} None))] None)); (Node 7 [] (ObjCMethodDecl {| om_selector := $"numberWithUnsignedInt:"; om_class := (Some $"NSNumber"); om_overriding := false; om_overridden := []; om_bodyLines := (0)%Z |} [(Node 8 [] (VarDecl {| v_isParm := true; v_name := $"value"; v_used := false; v_referenced := false; v_local := false; v_staticMember := false; v_private := false; v_unusedAttr := false; v_defaultArg := false; v_canonicalType := $"unsigned int"; v_inTemplate := false; v_contexts := [CxObjCMethod true false false false; CxOther] |} None))] None)); (Node 9 [] (ObjCMethodDecl {| om_selector := $"numberWithLong:"; om_class := (Some $"NSNumber"); om_overriding := false; om_overridden := []; om_bodyLines := (0)%Z |} [(Node 10 [] (VarDecl {| v_isParm := true; v_name := $"value"; v_used := false; v_referenced := false; v_local := false; v_staticMember := false; v_private := false; v_unusedAttr := false; v_defaultArg := false; v_canonicalType := $"long"; v_inTemplate := false; v_contexts := [CxObjCMethod true false false false; CxOther] |} None))] None)); (Node 11 [] (ObjCMethodDecl {| om_selector := $"numberWithUnsignedLong:"; om_class := (Some $"NSNumber"); om_overriding := false; om_overridden := []; om_bodyLines := (0)%Z |} [(Node 12 [] (VarDecl {| v_isParm := true; v_name := $"value"; v_used := false; v_referenced := false; v_local := false; v_staticMember := false; v_private := false; v_unusedAttr := false; v_defaultArg := false; v_canonicalType := $"unsigned long"; v_inTemplate := false; v_contexts := [CxObjCMethod true false false false; CxOther] |} None))] None)); (Node 13 [] (ObjCMethodDecl {| om_selector := $"numberWithLongLong:"; om_class := (Some $"NSNumber"); om_overriding := false; om_overridden := []; om_bodyLines := (0)%Z |} [(Node 14 [] (VarDecl {| v_isParm := true; v_name := $"value"; v_used := false; v_referenced := false; v_local := false; v_staticMember := false; v_private := false; v_unusedAttr := false; v_defaultArg := false; v_canonicalType := $"long long"; v_inTemplate := false; v_contexts := [CxObjCMethod true false false false; CxOther] |} None))] None)); (Node 15 [] (ObjCMethodDecl {| om_selector := $"numberWithUnsignedLongLong:"; om_class := (Some $"NSNumber"); om_overriding := false; om_overridden := []; om_bodyLines := (0)%Z |} [(Node 16 [] (VarDecl {| v_isParm := true; v_name := $"value"; v_used := false; v_referenced := false; v_local := false; v_staticMember := false; v_private := false; v_unusedAttr := false; v_defaultArg := false; v_canonicalType := $"unsigned long long"; v_inTemplate := false; v_contexts := [CxObjCMethod true false false false; CxOther] |} None))] None)); (Node 17 [] (ObjCMethodDecl {| om_selector := $"numberWithFloat:"; om_class := (Some $"NSNumber"); om_overriding := false; om_overridden := []; om_bodyLines := (0)%Z |} [(Node 18 [] (VarDecl {| v_isParm := true; v_name := $"value"; v_used := false; v_referenced := false; v_local := false; v_staticMember := false; v_private := false; v_unusedAttr := false; v_defaultArg := false; v_canonicalType := $"float"; v_inTemplate := false; v_contexts := [CxObjCMethod true false false false; CxOther] |} None))] None)); (Node 19 [] (ObjCMethodDecl {| om_selector := $"numberWithDouble:"; om_class := (Some $"NSNumber"); om_overriding := false; om_overridden := []; om_bodyLines := (0)%Z |} [(Node 20 [] (VarDecl {| v_isParm := true; v_name := $"value"; v_used := false; v_referenced := false; v_local := false; v_staticMember := false; v_private := false; v_unusedAttr := false; v_defaultArg := false; v_canonicalType := $"double"; v_inTemplate := false; v_contexts := [CxObjCMethod true false false false; CxOther] |} None))] None)); (Node 21 [] (ObjCMethodDecl {| om_selector := $"numberWithBool:"; om_class := (Some $"NSNumber"); om_overriding := false; om_overridden := []; om_bodyLines := (0)%Z |} [(Node 22 [] (VarDecl {| v_isParm := true; v_name := $"value"; v_used := false; v_referenced := false; v_local := false; v_staticMember := false; v_private := false; v_unusedAttr := false; v_defaultArg := false; v_canonicalType := $"signed char"; v_inTemplate := false; v_contexts := [CxObjCMethod true false false false; CxOther] |} None))] None)); (Node 23 [] (ObjCMethodDecl {| om_selector := $"numberWithUnsignedChar:"; om_class := (Some $"NSNumber"); om_overriding := false; om_overridden := []; om_bodyLines := (0)%Z |} [(Node 24 [] (VarDecl {| v_isParm := true; v_name := $"value"; v_used := false; v_referenced := false; v_local := false; v_staticMember := false; v_private := false; v_unusedAttr := false; v_defaultArg := false; v_canonicalType := $"unsigned char"; v_inTemplate := false; v_contexts := [CxObjCMethod true false false false; CxOther] |} None))] None))]))); (toplevel 25 (TFunction false), (Node 25 [] (FunctionDecl {| f_name := $"m"; f_method := None; f_isDefinition := true; f_bodyLines := (1)%Z |} [] (Some (Node 26 [] (CompoundStmt [(Node 27 [] (DeclStmt [(Node 28 [] (VarDecl {| v_isParm := false; v_name := $"fortyTwo"; v_used := false; v_referenced := false; v_local := true; v_staticMember := false; v_private := false; v_unusedAttr := false; v_defaultArg := false; v_canonicalType := $"NSNumber *"; v_inTemplate := false; v_contexts := [CxFunction true true false] |} (Some (Node 29 $"NSNumber *" (ObjCMessageExpr {| ms_selector := $"numberWithInt:"; ms_receiver := (RClass $"NSNumber"); ms_implicit := false; ms_interface := (Some $"NSNumber"); ms_method := (Some (Decl [] (Some (Method false None (InOther (Some NoCategory)))))); ms_methodClass := (Some $"NSNumber") |} None [(Node 30 $"int" (IntegerLiteral (42)%Z))])))))]))]))))))];
     ts_locs := [(2,1,2,21); (3,1,4,2); (5,1,17,2); (6,1,6,41); (6,31,6,36); (7,1,7,39); (7,30,7,34); (8,1,8,56); (8,38,8,51); (9,1,9,41); (9,31,9,36); (10,1,10,58); (10,39,10,53); (11,1,11,50); (11,35,11,45); (12,1,12,67); (12,43,12,62); (13,1,13,43); (13,32,13,38); (14,1,14,45); (14,33,14,40); (15,1,15,41); (15,31,15,36); (16,1,16,58); (16,39,16,53); (18,1,18,62); (18,10,18,62); (18,12,18,60); (18,12,18,59); (18,33,18,59); (18,57,18,57)]%Z;
     ts_evals := []; ts_same := []; ts_decls := []; ts_parents := [] |}.
Example ObjCNSNumberLiterals_NumberWithInt_holds : nth_violation (shippedRule sh_ObjCNSNumberLiterals) ObjCNSNumberLiterals_NumberWithInt 0 = Some (18, 33, 18, 59, $"")%Z.
Proof. vm_compute. reflexivity. Qed.

Definition ObjCNSNumberLiterals_NumberWithBoxedInt : testcase :=
  {| ts_lang := LObjC; ts_path := $"input.m"; ts_code := [];
     ts_comments := []; ts_conf := [];
     ts_tops := [(toplevel 0 (TOther), (Node 0 [] (OtherDecl []))); (toplevel 1 (TOther), (Node 1 [] (ObjCContainerDecl {| oc_kind := OKInterface; oc_name := $"NSObject"; oc_lines := (2)%Z; oc_ivars := 0; oc_methods := []; oc_classes := [$"NSObject"]; oc_superMethods := None |} []))); (toplevel 2 (TOther), (Node 2 [] (ObjCContainerDecl {| oc_kind := OKInterface; oc_name := $"NSNumber"; oc_lines := (13)%Z; oc_ivars := 0; oc_methods := [($"numberWithChar:", false); ($"numberWithInt:", false); ($"numberWithUnsignedInt:", false); ($"numberWithLong:", false); ($"numberWithUnsignedLong:", false); ($"numberWithLongLong:", false); ($"numberWithUnsignedLongLong:", false); ($"numberWithFloat:", false); ($"numberWithDouble:", false); ($"numberWithBool:", false); ($"numberWithUnsignedChar:", false)]; oc_classes := [$"NSNumber"; $"NSObject"]; oc_superMethods := (Some ($"NSObject", [])) |} [(Node 3 [] (ObjCMethodDecl {| om_selector := $"numberWithChar:"; om_class := (Some $"NSNumber"); om_overriding := false; om_overridden := []; om_bodyLines := (0)%Z |} [(Node 4 [] (VarDecl {| v_isParm := true; v_name := $"value"; v_used := false; v_referenced := false; v_local := false; v_staticMember := false; v_private := false; v_unusedAttr := false; v_defaultArg := false; v_canonicalType := $"char"; v_inTemplate := false; v_contexts := [CxObjCMethod true false false false; CxOther] |} None))] None)); (Node 5 [] (ObjCMethodDecl {| om_selector := $"numberWithInt:"; om_class := (Some $"NSNumber"); om_overriding := false; om_overridden := []; om_bodyLines := (0)%Z |} [(Node 6 [] (VarDecl {| v_isParm := true; v_name := $"value"; v_used := false; v_referenced := false; v_local := false; v_staticMember := false; v_private := false; v_unusedAttr := false; v_defaultArg := false; v_canonicalType := $"int"; v_inTemplate := false; v_contexts := [CxObjCMethod true false false false; CxOther] |} None))] None)); (Node 7 [] (ObjCMethodDecl {| om_selector := $"numberWithUnsignedInt:"; om_class := (Some $"NSNumber"); om_overriding := false; om_overridden := []; om_bodyLines := (0)%Z |} [(Node 8 [] (VarDecl {| v_isParm := true; v_name := $"value"; v_used := false; v_referenced := false; v_local := false; v_staticMember := false; v_private := false; v_unusedAttr := false; v_defaultArg := false; v_canonicalType := $"unsigned int"; v_inTemplate := false; v_contexts := [CxObjCMethod true false false false; CxOther] |} None))] None)); (Node 9 [] (ObjCMethodDecl {| om_selector := $"numberWithLong:"; om_class := (Some $"NSNumber"); om_overriding := false; om_overridden := []; om_bodyLines := (0)%Z |} [(Node 10 [] (VarDecl {| v_isParm := true; v_name := $"value"; v_used := false; v_referenced := false; v_local := false; v_staticMember := false; v_private := false; v_unusedAttr := false; v_defaultArg := false; v_canonicalType := $"long"; v_inTemplate := false; v_contexts := [CxObjCMethod true false false false; CxOther] |} None))] None)); (Node 11 [] (ObjCMethodDecl {| om_selector := $"numberWithUnsignedLong:"; om_class := (Some $"NSNumber"); om_overriding := false; om_overridden := []; om_bodyLines := (0)%Z |} [(Node 12 [] (VarDecl {| v_isParm := true; v_name := $"value"; v_used := false; v_referenced := false; v_local := false; v_staticMember := false; v_private := false; v_unusedAttr := false; v_defaultArg := false; v_canonicalType := $"unsigned long"; v_inTemplate := false; v_contexts := [CxObjCMethod true false false false; CxOther] |} None))] None)); (Node 13 [] (ObjCMethodDecl {| om_selector := $"numberWithLongLong:"; om_class := (Some $"NSNumber"); om_overriding := false; om_overridden := []; om_bodyLines := (0)%Z |} [(Node 14 [] (VarDecl {| v_isParm := true; v_name := $"value"; v_used := false; v_referenced := false; v_local := false; v_staticMember := false; v_private := false; v_unusedAttr := false; v_defaultArg := false; v_canonicalType := $"long long"; v_inTemplate := false; v_contexts := [CxObjCMethod true false false false; CxOther] |} None))] None)); (Node 15 [] (ObjCMethodDecl {| om_selector := $"numberWithUnsignedLongLong:"; om_class := (Some $"NSNumber"); om_overriding := false; om_overridden := []; om_bodyLines := (0)%Z |} [(Node 16 [] (VarDecl {| v_isParm := true; v_name := $"value"; v_used := false; v_referenced := false; v_local := false; v_staticMember := false; v_private := false; v_unusedAttr := false; v_defaultArg := false; v_canonicalType := $"unsigned long long"; v_inTemplate := false; v_contexts := [CxObjCMethod true false false false; CxOther] |} None))] None)); (Node 17 [] (ObjCMethodDecl {| om_selector := $"numberWithFloat:"; om_class := (Some $"NSNumber"); om_overriding := false; om_overridden := []; om_bodyLines := (0)%Z |} [(Node 18 [] (VarDecl {| v_isParm := true; v_name := $"value"; v_used := false; v_referenced := false; v_local := false; v_staticMember := false; v_private := false; v_unusedAttr := false; v_defaultArg := false; v_canonicalType := $"float"; v_inTemplate := false; v_contexts := [CxObjCMethod true false false false; CxOther] |} None))] None)); (Node 19 [] (ObjCMethodDecl {| om_selector := $"numberWithDouble:"; om_class := (Some $"NSNumber"); om_overriding := false; om_overridden := []; om_bodyLines := (0)%Z |} [(Node 20 [] (VarDecl {| v_isParm := true; v_name := $"value"; v_used := false; v_referenced := false; v_local := false; v_staticMember := false; v_private := false; v_unusedAttr := false; v_defaultArg := false; v_canonicalType := $"double"; v_inTemplate := false; v_contexts := [CxObjCMethod true false false false; CxOther] |} None))] None)); (Node 21 [] (ObjCMethodDecl {| om_selector := $"numberWithBool:"; om_class := (Some $"NSNumber"); om_overriding := false; om_overridden := []; om_bodyLines := (0)%Z |} [(Node 22 [] (VarDecl {| v_isParm := true; v_name := $"value"; v_used := false; v_referenced := false; v_local := false; v_staticMember := false; v_private := false; v_unusedAttr := false; v_defaultArg := false; v_canonicalType := $"signed char"; v_inTemplate := false; v_contexts := [CxObjCMethod true false false false; CxOther] |} None))] None)); (Node 23 [] (ObjCMethodDecl {| om_selector := $"numberWithUnsignedChar:"; om_class := (Some $"NSNumber"); om_overriding := false; om_overridden := []; om_bodyLines := (0)%Z |} [(Node 24 [] (VarDecl {| v_isParm := true; v_name := $"value"; v_used := false; v_referenced := false; v_local := false; v_staticMember := false; v_private := false; v_unusedAttr := false; v_defaultArg := false; v_canonicalType := $"unsigned char"; v_inTemplate := false; v_contexts := [CxObjCMethod true false false false; CxOther] |} None))] None))]))); (toplevel 25 (TFunction false), (Node 25 [] (FunctionDecl {| f_name := $"m"; f_method := None; f_isDefinition := true; f_bodyLines := (1)%Z |} [] (Some (Node 26 [] (CompoundStmt [(Node 27 [] (DeclStmt [(Node 28 [] (VarDecl {| v_isParm := false; v_name := $"fortyTwo"; v_used := false; v_referenced := false; v_local := true; v_staticMember := false; v_private := false; v_unusedAttr := false; v_defaultArg := false; v_canonicalType := $"NSNumber *"; v_inTemplate := false; v_contexts := [CxFunction true true false] |} (Some (Node 29 $"NSNumber *" (ObjCMessageExpr {| ms_selector := $"numberWithInt:"; ms_receiver := (RClass $"NSNumber"); ms_implicit := false; ms_interface := (Some $"NSNumber"); ms_method := (Some (Decl [] (Some (Method false None (InOther (Some NoCategory)))))); ms_methodClass := (Some $"NSNumber") |} None [(Node 30 $"int" (ParenExpr (Node 31 $"int" (BinaryOperator BO_Other (Node 32 $"int" (IntegerLiteral (43)%Z)) (Node 33 $"int" (IntegerLiteral (1)%Z))))))])))))]))]))))))];
     ts_locs := [(2,1,2,21); (3,1,4,2); (5,1,17,2); (6,1,6,41); (6,31,6,36); (7,1,7,39); (7,30,7,34); (8,1,8,56); (8,38,8,51); (9,1,9,41); (9,31,9,36); (10,1,10,58); (10,39,10,53); (11,1,11,50); (11,35,11,45); (12,1,12,67); (12,43,12,62); (13,1,13,43); (13,32,13,38); (14,1,14,45); (14,33,14,40); (15,1,15,41); (15,31,15,36); (16,1,16,58); (16,39,16,53); (18,1,18,68); (18,10,18,68); (18,12,18,66); (18,12,18,65); (18,33,18,65); (18,57,18,64); (18,58,18,63); (18,58,18,58); (18,63,18,63)]%Z;
     ts_evals := []; ts_same := []; ts_decls := []; ts_parents := [] |}.
Example ObjCNSNumberLiterals_NumberWithBoxedInt_holds : sorted_violations_of (shippedRule sh_ObjCNSNumberLiterals) ObjCNSNumberLiterals_NumberWithBoxedInt = Some [].
Proof. vm_compute. reflexivity. Qed.

Definition ObjCNSNumberLiterals_UnsignedIntLiteral : testcase :=
  {| ts_lang := LObjC; ts_path := $"input.m"; ts_code := [];
     ts_comments := []; ts_conf := [];
     ts_tops := [(toplevel 0 (TOther), (Node 0 [] (OtherDecl []))); (toplevel 1 (TOther), (Node 1 [] (ObjCContainerDecl {| oc_kind := OKInterface; oc_name := $"NSObject"; oc_lines := (2)%Z; oc_ivars := 0; oc_methods := []; oc_classes := [$"NSObject"]; oc_superMethods := None |} []))); (toplevel 2 (TOther), (Node 2 [] (ObjCContainerDecl {| oc_kind := OKInterface; oc_name := $"NSNumber"; oc_lines := (13)%Z; oc_ivars := 0; oc_methods := [($"numberWithChar:", false); ($"numberWithInt:", false); ($"numberWithUnsignedInt:", false); ($"numberWithLong:", false); ($"numberWithUnsignedLong:", false); ($"numberWithLongLong:", false); ($"numberWithUnsignedLongLong:", false); ($"numberWithFloat:", false); ($"numberWithDouble:", false); ($"numberWithBool:", false); ($"numberWithUnsignedChar:", false)]; oc_classes := [$"NSNumber"; $"NSObject"]; oc_superMethods := (Some ($"NSObject", [])) |} [(Node 3 [] (ObjCMethodDecl {| om_selector := $"numberWithChar:"; om_class := (Some $"NSNumber"); om_overriding := false; om_overridden := []; om_bodyLines := (0)%Z |} [(Node 4 [] (VarDecl {| v_isParm := true; v_name := $"value"; v_used := false; v_referenced := false; v_local := false; v_staticMember := false; v_private := false; v_unusedAttr := false; v_defaultArg := false; v_canonicalType := $"char"; v_inTemplate := false; v_contexts := [CxObjCMethod true false false false; CxOther] |} None))] None)); (Node 5 [] (ObjCMethodDecl {| om_selector := $"numberWithInt:"; om_class := (Some $"NSNumber"); om_overriding := false; om_overridden := []; om_bodyLines := (0)%Z |} [(Node 6 [] (VarDecl {| v_isParm := true; v_name := $"value"; v_used := false; v_referenced := false; v_local := false; v_staticMember := false; v_private := false; v_unusedAttr := false; v_defaultArg := false; v_canonicalType := $"int"; v_inTemplate := false; v_contexts := [CxObjCMethod true false false false; CxOther] |} None))] None)); (Node 7 [] (ObjCMethodDecl {| om_selector := $"numberWithUnsignedInt:"; om_class := (Some $"NSNumber"); om_overriding := false; om_overridden := []; om_bodyLines := (0)%Z |} [(Node 8 [] (VarDecl {| v_isParm := true; v_name := $"value"; v_used := false; v_referenced := false; v_local := false; v_staticMember := false; v_private := false; v_unusedAttr := false; v_defaultArg := false; v_canonicalType := $"unsigned int"; v_inTemplate := false; v_contexts := [CxObjCMethod true false false false; CxOther] |} None))] None)); (Node 9 [] (ObjCMethodDecl {| om_selector := $"numberWithLong:"; om_class := (Some $"NSNumber"); om_overriding := false; om_overridden := []; om_bodyLines := (0)%Z |} [(Node 10 [] (VarDecl {| v_isParm := true; v_name := $"value"; v_used := false; v_referenced := false; v_local := false; v_staticMember := false; v_private := false; v_unusedAttr := false; v_defaultArg := false; v_canonicalType := $"long"; v_inTemplate := false; v_contexts := [CxObjCMethod true false false false; CxOther] |} None))] None)); (Node 11 [] (ObjCMethodDecl {| om_selector := $"numberWithUnsignedLong:"; om_class := (Some $"NSNumber"); om_overriding := false; om_overridden := []; om_bodyLines := (0)%Z |} [(Node 12 [] (VarDecl {| v_isParm := true; v_name := $"value"; v_used := false; v_referenced := false; v_local := false; v_staticMember := false; v_private := false; v_unusedAttr := false; v_defaultArg := false; v_canonicalType := $"unsigned long"; v_inTemplate := false; v_contexts := [CxObjCMethod true false false false; CxOther] |} None))] None)); (Node 13 [] (ObjCMethodDecl {| om_selector := $"numberWithLongLong:"; om_class := (Some $"NSNumber"); om_overriding := false; om_overridden := []; om_bodyLines := (0)%Z |} [(Node 14 [] (VarDecl {| v_isParm := true; v_name := $"value"; v_used := false; v_referenced := false; v_local := false; v_staticMember := false; v_private := false; v_unusedAttr := false; v_defaultArg := false; v_canonicalType := $"long long"; v_inTemplate := false; v_contexts := [CxObjCMethod true false false false; CxOther] |} None))] None)); (Node 15 [] (ObjCMethodDecl {| om_selector := $"numberWithUnsignedLongLong:"; om_class := (Some $"NSNumber"); om_overriding := false; om_overridden := []; om_bodyLines := (0)%Z |} [(Node 16 [] (VarDecl {| v_isParm := true; v_name := $"value"; v_used := false; v_referenced := false; v_local := false; v_staticMember := false; v_private := false; v_unusedAttr := false; v_defaultArg := false; v_canonicalType := $"unsigned long long"; v_inTemplate := false; v_contexts := [CxObjCMethod true false false false; CxOther] |} None))] None)); (Node 17 [] (ObjCMethodDecl {| om_selector := $"numberWithFloat:"; om_class := (Some $"NSNumber"); om_overriding := false; om_overridden := []; om_bodyLines := (0)%Z |} [(Node 18 [] (VarDecl {| v_isParm := true; v_name := $"value"; v_used := false; v_referenced := false; v_local := false; v_staticMember := false; v_private := false; v_unusedAttr := false; v_defaultArg := false; v_canonicalType := $"float"; v_inTemplate := false; v_contexts := [CxObjCMethod true false false false; CxOther] |} None))] None)); (Node 19 [] (ObjCMethodDecl {| om_selector := $"numberWithDouble:"; om_class := (Some $"NSNumber"); om_overriding := false; om_overridden := []; om_bodyLines := (0)%Z |} [(Node 20 [] (VarDecl {| v_isParm := true; v_name := $"value"; v_used := false; v_referenced := false; v_local := false; v_staticMember := false; v_private := false; v_unusedAttr := false; v_defaultArg := false; v_canonicalType := $"double"; v_inTemplate := false; v_contexts := [CxObjCMethod true false false false; CxOther] |} None))] None)); (Node 21 [] (ObjCMethodDecl {| om_selector := $"numberWithBool:"; om_class := (Some $"NSNumber"); om_overriding := false; om_overridden := []; om_bodyLines := (0)%Z |} [(Node 22 [] (VarDecl {| v_isParm := true; v_name := $"value"; v_used := false; v_referenced := false; v_local := false; v_staticMember := false; v_private := false; v_unusedAttr := false; v_defaultArg := false; v_canonicalType := $"signed char"; v_inTemplate := false; v_contexts := [CxObjCMethod true false false false; CxOther] |} None))] None)); (Node 23 [] (ObjCMethodDecl {| om_selector := $"numberWithUnsignedChar:"; om_class := (Some $"NSNumber"); om_overriding := false; om_overridden := []; om_bodyLines := (0)%Z |} [(Node 24 [] (VarDecl {| v_isParm := true; v_name := $"value"; v_used := false; v_referenced := false; v_local := false; v_staticMember := false; v_private := false; v_unusedAttr := false; v_defaultArg := false; v_canonicalType := $"unsigned char"; v_inTemplate := false; v_contexts := [CxObjCMethod true false false false; CxOther] |} None))] None))]))); (toplevel 25 (TFunction false), (Node 25 [] (FunctionDecl {| f_name := $"m"; f_method := None; f_isDefinition := true; f_bodyLines := (1)%Z |} [] (Some (Node 26 [] (CompoundStmt [(Node 27 [] (DeclStmt [(Node 28 [] (VarDecl {| v_isParm := false; v_name := $"fortyTwoUnsigned"; v_used := false; v_referenced := false; v_local := true; v_staticMember := false; v_private := false; v_unusedAttr := false; v_defaultArg := false; v_canonicalType := $"NSNumber *"; v_inTemplate := false; v_contexts := [CxFunction true true false] |} (Some (Node 29 $"NSNumber *" (OtherExpr [(Node 30 $"unsigned int" (IntegerLiteral (42)%Z))])))))]))]))))))];
     ts_locs := [(2,1,2,21); (3,1,4,2); (5,1,17,2); (6,1,6,41); (6,31,6,36); (7,1,7,39); (7,30,7,34); (8,1,8,56); (8,38,8,51); (9,1,9,41); (9,31,9,36); (10,1,10,58); (10,39,10,53); (11,1,11,50); (11,35,11,45); (12,1,12,67); (12,43,12,62); (13,1,13,43); (13,32,13,38); (14,1,14,45); (14,33,14,40); (15,1,15,41); (15,31,15,36); (16,1,16,58); (16,39,16,53); (18,1,18,47); (18,10,18,47); (18,12,18,45); (18,12,18,42); (18,41,18,42); (18,42,18,42)]%Z;
     ts_evals := []; ts_same := []; ts_decls := []; ts_parents := [] |}.
Example ObjCNSNumberLiterals_UnsignedIntLiteral_holds : sorted_violations_of (shippedRule sh_ObjCNSNumberLiterals) ObjCNSNumberLiterals_UnsignedIntLiteral = Some [].
Proof. vm_compute. reflexivity. Qed.

Definition ObjCNSNumberLiterals_NumberWithUnsignedInt : testcase :=
  {| ts_lang := LObjC; ts_path := $"input.m"; ts_code := [];
     ts_comments := []; ts_conf := [];
     ts_tops := [(toplevel 0 (TOther), (Node 0 [] (OtherDecl []))); (toplevel 1 (TOther), (Node 1 [] (ObjCContainerDecl {| oc_kind := OKInterface; oc_name := $"NSObject"; oc_lines := (2)%Z; oc_ivars := 0; oc_methods := []; oc_classes := [$"NSObject"]; oc_superMethods := None |} []))); (toplevel 2 (TOther), (Node 2 [] (ObjCContainerDecl {| oc_kind := OKInterface; oc_name := $"NSNumber"; oc_lines := (13)%Z; oc_ivars := 0; oc_methods := [($"numberWithChar:", false); ($"numberWithInt:", false); ($"numberWithUnsignedInt:", false); ($"numberWithLong:", false); ($"numberWithUnsignedLong:", false); ($"numberWithLongLong:", false); ($"numberWithUnsignedLongLong:", false); ($"numberWithFloat:", false); ($"numberWithDouble:", false); ($"numberWithBool:", false); ($"numberWithUnsignedChar:", false)]; oc_classes := [$"NSNumber"; $"NSObject"]; oc_superMethods := (Some ($"NSObject", [])) |} [(Node 3 [] (ObjCMethodDecl {| om_selector := $"numberWithChar:"; om_class := (Some $"NSNumber"); om_overriding := false; om_overridden := []; om_bodyLines := (0)%Z |} [(Node 4 [] (VarDecl {| v_isParm := true; v_name := $"value"; v_used := false; v_referenced := false; v_local := false; v_staticMember := false; v_private := false; v_unusedAttr := false; v_defaultArg := false; v_canonicalType := $"char"; v_inTemplate := false; v_contexts := [CxObjCMethod true false false false; CxOther] |} None))] None)); (Node 5 [] (ObjCMethodDecl {| om_selector := $"numberWithInt:"; om_class := (Some $"NSNumber"); om_overriding := false; om_overridden := []; om_bodyLines := (0)%Z |} [(Node 6 [] (VarDecl {| v_isParm := true; v_name := $"value"; v_used := false; v_referenced := false; v_local := false; v_staticMember := false; v_private := false; v_unusedAttr := false; v_defaultArg := false; v_canonicalType := $"int"; v_inTemplate := false; v_contexts := [CxObjCMethod true false false false; CxOther] |} None))] None)); (Node 7 [] (ObjCMethodDecl {| om_selector := $"numberWithUnsignedInt:"; om_class := (Some $"NSNumber"); om_overriding := false; om_overridden := []; om_bodyLines := (0)%Z |} [(Node 8 [] (VarDecl {| v_isParm := true; v_name := $"value"; v_used := false; v_referenced := false; v_local := false; v_staticMember := false; v_private := false; v_unusedAttr := false; v_defaultArg := false; v_canonicalType := $"unsigned int"; v_inTemplate := false; v_contexts := [CxObjCMethod true false false false; CxOther] |} None))] None)); (Node 9 [] (ObjCMethodDecl {| om_selector := $"numberWithLong:"; om_class := (Some $"NSNumber"); om_overriding := false; om_overridden := []; om_bodyLines := (0)%Z |} [(Node 10 [] (VarDecl {| v_isParm := true; v_name := $"value"; v_used := false; v_referenced := false; v_local := false; v_staticMember := false; v_private := false; v_unusedAttr := false; v_defaultArg := false; v_canonicalType := $"long"; v_inTemplate := false; v_contexts := [CxObjCMethod true false false false; CxOther] |} None))] None)); (Node 11 [] (ObjCMethodDecl {| om_selector := $"numberWithUnsignedLong:"; om_class := (Some $"NSNumber"); om_overriding := false; om_overridden := []; om_bodyLines := (0)%Z |} [(Node 12 [] (VarDecl {| v_isParm := true; v_name := $"value"; v_used := false; v_referenced := false; v_local := false; v_staticMember := false; v_private := false; v_unusedAttr := false; v_defaultArg := false; v_canonicalType := $"unsigned long"; v_inTemplate := false; v_contexts := [CxObjCMethod true false false false; CxOther] |} None))] None)); (Node 13 [] (ObjCMethodDecl {| om_selector := $"numberWithLongLong:"; om_class := (Some $"NSNumber"); om_overriding := false; om_overridden := []; om_bodyLines := (0)%Z |} [(Node 14 [] (VarDecl {| v_isParm := true; v_name := $"value"; v_used := false; v_referenced := false; v_local := false; v_staticMember := false; v_private := false; v_unusedAttr := false; v_defaultArg := false; v_canonicalType := $"long long"; v_inTemplate := false; v_contexts := [CxObjCMethod true false false false; CxOther] |} None))] None)); (Node 15 [] (ObjCMethodDecl {| om_selector := $"numberWithUnsignedLongLong:"; om_class := (Some $"NSNumber"); om_overriding := false; om_overridden := []; om_bodyLines := (0)%Z |} [(Node 16 [] (VarDecl {| v_isParm := true; v_name := $"value"; v_used := false; v_referenced := false; v_local := false; v_staticMember := false; v_private := false; v_unusedAttr := false; v_defaultArg := false; v_canonicalType := $"unsigned long long"; v_inTemplate := false; v_contexts := [CxObjCMethod true false false false; CxOther] |} None))] None)); (Node 17 [] (ObjCMethodDecl {| om_selector := $"numberWithFloat:"; om_class := (Some $"NSNumber"); om_overriding := false; om_overridden := []; om_bodyLines := (0)%Z |} [(Node 18 [] (VarDecl {| v_isParm := true; v_name := $"value"; v_used := false; v_referenced := false; v_local := false; v_staticMember := false; v_private := false; v_unusedAttr := false; v_defaultArg := false; v_canonicalType := $"float"; v_inTemplate := false; v_contexts := [CxObjCMethod true false false false; CxOther] |} None))] None)); (Node 19 [] (ObjCMethodDecl {| om_selector := $"numberWithDouble:"; om_class := (Some $"NSNumber"); om_overriding := false; om_overridden := []; om_bodyLines := (0)%Z |} [(Node 20 [] (VarDecl {| v_isParm := true; v_name := $"value"; v_used := false; v_referenced := false; v_local := false; v_staticMember := false; v_private := false; v_unusedAttr := false; v_defaultArg := false; v_canonicalType := $"double"; v_inTemplate := false; v_contexts := [CxObjCMethod true false false false; CxOther] |} None))] None)); (Node 21 [] (ObjCMethodDecl {| om_selector := $"numberWithBool:"; om_class := (Some $"NSNumber"); om_overriding := false; om_overridden := []; om_bodyLines := (0)%Z |} [(Node 22 [] (VarDecl {| v_isParm := true; v_name := $"value"; v_used := false; v_referenced := false; v_local := false; v_staticMember := false; v_private := false; v_unusedAttr := false; v_defaultArg := false; v_canonicalType := $"signed char"; v_inTemplate := false; v_contexts := [CxObjCMethod true false false false; CxOther] |} None))] None)); (Node 23 [] (ObjCMethodDecl {| om_selector := $"numberWithUnsignedChar:"; om_class := (Some $"NSNumber"); om_overriding := false; om_overridden := []; om_bodyLines := (0)%Z |} [(Node 24 [] (VarDecl {| v_isParm := true; v_name := $"value"; v_used := false; v_referenced := false; v_local := false; v_staticMember := false; v_private := false; v_unusedAttr := false; v_defaultArg := false; v_canonicalType := $"unsigned char"; v_inTemplate := false; v_contexts := [CxObjCMethod true false false false; CxOther] |} None))] None))]))); (toplevel 25 (TFunction false), (Node 25 [] (FunctionDecl {| f_name := $"m"; f_method := None; f_isDefinition := true; f_bodyLines := (1)%Z |} [] (Some (Node 26 [] (CompoundStmt [(Node 27 [] (DeclStmt [(Node 28 [] (VarDecl {| v_isParm := false; v_name := $"fortyTwoUnsigned"; v_used := false; v_referenced := false; v_local := true; v_staticMember := false; v_private := false; v_unusedAttr := false; v_defaultArg := false; v_canonicalType := $"NSNumber *"; v_inTemplate := false; v_contexts := [CxFunction true true false] |} (Some (Node 29 $"NSNumber *" (ObjCMessageExpr {| ms_selector := $"numberWithUnsignedInt:"; ms_receiver := (RClass $"NSNumber"); ms_implicit := false; ms_interface := (Some $"NSNumber"); ms_method := (Some (Decl [] (Some (Method false None (InOther (Some NoCategory)))))); ms_methodClass := (Some $"NSNumber") |} None [(Node 30 $"unsigned int" (IntegerLiteral (42)%Z))])))))]))]))))))];
     ts_locs := [(2,1,2,21); (3,1,4,2); (5,1,17,2); (6,1,6,41); (6,31,6,36); (7,1,7,39); (7,30,7,34); (8,1,8,56); (8,38,8,51); (9,1,9,41); (9,31,9,36); (10,1,10,58); (10,39,10,53); (11,1,11,50); (11,35,11,45); (12,1,12,67); (12,43,12,62); (13,1,13,43); (13,32,13,38); (14,1,14,45); (14,33,14,40); (15,1,15,41); (15,31,15,36); (16,1,16,58); (16,39,16,53); (18,1,18,79); (18,10,18,79); (18,12,18,77); (18,12,18,76); (18,41,18,76); (18,73,18,73)]%Z;
     ts_evals := []; ts_same := []; ts_decls := []; ts_parents := [] |}.
Example ObjCNSNumberLiterals_NumberWithUnsignedInt_holds : nth_violation (shippedRule sh_ObjCNSNumberLiterals) ObjCNSNumberLiterals_NumberWithUnsignedInt 0 = Some (18, 41, 18, 76, $"")%Z.
Proof. vm_compute. reflexivity. Qed.

Definition ObjCNSNumberLiterals_NumberWithUnsignedInt_2 : testcase :=
  {| ts_lang := LObjC; ts_path := $"input.m"; ts_code := [];
     ts_comments := []; ts_conf := [];
     ts_tops := [(toplevel 0 (TOther), (Node 0 [] (OtherDecl []))); (toplevel 1 (TOther), (Node 1 [] (ObjCContainerDecl {| oc_kind := OKInterface; oc_name := $"NSObject"; oc_lines := (2)%Z; oc_ivars := 0; oc_methods := []; oc_classes := [$"NSObject"]; oc_superMethods := None |} []))); (toplevel 2 (TOther), (Node 2 [] (ObjCContainerDecl {| oc_kind := OKInterface; oc_name := $"NSNumber"; oc_lines := (13)%Z; oc_ivars := 0; oc_methods := [($"numberWithChar:", false); ($"numberWithInt:", false); ($"numberWithUnsignedInt:", false); ($"numberWithLong:", false); ($"numberWithUnsignedLong:", false); ($"numberWithLongLong:", false); ($"numberWithUnsignedLongLong:", false); ($"numberWithFloat:", false); ($"numberWithDouble:", false); ($"numberWithBool:", false); ($"numberWithUnsignedChar:", false)]; oc_classes := [$"NSNumber"; $"NSObject"]; oc_superMethods := (Some ($"NSObject", [])) |} [(Node 3 [] (ObjCMethodDecl {| om_selector := $"numberWithChar:"; om_class := (Some $"NSNumber"); om_overriding := false; om_overridden := []; om_bodyLines := (0)%Z |} [(Node 4 [] (VarDecl {| v_isParm := true; v_name := $"value"; v_used := false; v_referenced := false; v_local := false; v_staticMember := false; v_private := false; v_unusedAttr := false; v_defaultArg := false; v_canonicalType := $"char"; v_inTemplate := false; v_contexts := [CxObjCMethod true false false false; CxOther] |} None))] None)); (Node 5 [] (ObjCMethodDecl {| om_selector := $"numberWithInt:"; om_class := (Some $"NSNumber"); om_overriding := false; om_overridden := []; om_bodyLines := (0)%Z |} [(Node 6 [] (VarDecl {| v_isParm := true; v_name := $"value"; v_used := false; v_referenced := false; v_local := false; v_staticMember := false; v_private := false; v_unusedAttr := false; v_defaultArg := false; v_canonicalType := $"int"; v_inTemplate := false; v_contexts := [CxObjCMethod true false false false; CxOther] |} None))] None)); (Node 7 [] (ObjCMethodDecl {| om_selector := $"numberWithUnsignedInt:"; om_class := (Some $"NSNumber"); om_overriding := false; om_overridden := []; om_bodyLines := (0)%Z |} [(Node 8 [] (VarDecl {| v_isParm := true; v_name := $"value"; v_used := false; v_referenced := false; v_local := false; v_staticMember := false; v_private := false; v_unusedAttr := false; v_defaultArg := false; v_canonicalType := $"unsigned int"; v_inTemplate := false; v_contexts := [CxObjCMethod true false false false; CxOther] |} None))] None)); (Node 9 [] (ObjCMethodDecl {| om_selector := $"numberWithLong:"; om_class := (Some $"NSNumber"); om_overriding := false; om_overridden := []; om_bodyLines := (0)%Z |} [(Node 10 [] (VarDecl {| v_isParm := true; v_name := $"value"; v_used := false; v_referenced := false; v_local := false; v_staticMember := false; v_private := false; v_unusedAttr := false; v_defaultArg := false; v_canonicalType := $"long"; v_inTemplate := false; v_contexts := [CxObjCMethod true false false false; CxOther] |} None))] None)); (Node 11 [] (ObjCMethodDecl {| om_selector := $"numberWithUnsignedLong:"; om_class := (Some $"NSNumber"); om_overriding := false; om_overridden := []; om_bodyLines := (0)%Z |} [(Node 12 [] (VarDecl {| v_isParm := true; v_name := $"value"; v_used := false; v_referenced := false; v_local := false; v_staticMember := false; v_private := false; v_unusedAttr := false; v_defaultArg := false; v_canonicalType := $"unsigned long"; v_inTemplate := false; v_contexts := [CxObjCMethod true false false false; CxOther] |} None))] None)); (Node 13 [] (ObjCMethodDecl {| om_selector := $"numberWithLongLong:"; om_class := (Some $"NSNumber"); om_overriding := false; om_overridden := []; om_bodyLines := (0)%Z |} [(Node 14 [] (VarDecl {| v_isParm := true; v_name := $"value"; v_used := false; v_referenced := false; v_local := false; v_staticMember := false; v_private := false; v_unusedAttr := false; v_defaultArg := false; v_canonicalType := $"long long"; v_inTemplate := false; v_contexts := [CxObjCMethod true false false false; CxOther] |} None))] None)); (Node 15 [] (ObjCMethodDecl {| om_selector := $"numberWithUnsignedLongLong:"; om_class := (Some $"NSNumber"); om_overriding := false; om_overridden := []; om_bodyLines := (0)%Z |} [(Node 16 [] (VarDecl {| v_isParm := true; v_name := $"value"; v_used := false; v_referenced := false; v_local := false; v_staticMember := false; v_private := false; v_unusedAttr := false; v_defaultArg := false; v_canonicalType := $"unsigned long long"; v_inTemplate := false; v_contexts := [CxObjCMethod true false false false; CxOther] |} None))] None)); (Node 17 [] (ObjCMethodDecl {| om_selector := $"numberWithFloat:"; om_class := (Some $"NSNumber"); om_overriding := false; om_overridden := []; om_bodyLines := (0)%Z |} [(Node 18 [] (VarDecl {| v_isParm := true; v_name := $"value"; v_used := false; v_referenced := false; v_local := false; v_staticMember := false; v_private := false; v_unusedAttr := false; v_defaultArg := false; v_canonicalType := $"float"; v_inTemplate := false; v_contexts := [CxObjCMethod true false false false; CxOther] |} None))] None)); (Node 19 [] (ObjCMethodDecl {| om_selector := $"numberWithDouble:"; om_class := (Some $"NSNumber"); om_overriding := false; om_overridden := []; om_bodyLines := (0)%Z |} [(Node 20 [] (VarDecl {| v_isParm := true; v_name := $"value"; v_used := false; v_referenced := false; v_local := false; v_staticMember := false; v_private := false; v_unusedAttr := false; v_defaultArg := false; v_canonicalType := $"double"; v_inTemplate := false; v_contexts := [CxObjCMethod true false false false; CxOther] |} None))] None)); (Node 21 [] (ObjCMethodDecl {| om_selector := $"numberWithBool:"; om_class := (Some $"NSNumber"); om_overriding := false; om_overridden := []; om_bodyLines := (0)%Z |} [(Node 22 [] (VarDecl {| v_isParm := true; v_name := $"value"; v_used := false; v_referenced := false; v_local := false; v_staticMember := false; v_private := false; v_unusedAttr := false; v_defaultArg := false; v_canonicalType := $"signed char"; v_inTemplate := false; v_contexts := [CxObjCMethod true false false false; CxOther] |} None))] None)); (Node 23 [] (ObjCMethodDecl {| om_selector := $"numberWithUnsignedChar:"; om_class := (Some $"NSNumber"); om_overriding := false; om_overridden := []; om_bodyLines := (0)%Z |} [(Node 24 [] (VarDecl {| v_isParm := true; v_name := $"value"; v_used := false; v_referenced := false; v_local := false; v_staticMember := false; v_private := false; v_unusedAttr := false; v_defaultArg := false; v_canonicalType := $"unsigned char"; v_inTemplate := false; v_contexts := [CxObjCMethod true false false false; CxOther] |} None))] None))]))); (toplevel 25 (TFunction false), (Node 25 [] (FunctionDecl {| f_name := $"m"; f_method := None; f_isDefinition := true; f_bodyLines := (1)%Z |} [] (Some (Node 26 [] (CompoundStmt [(Node 27 [] (DeclStmt [(Node 28 [] (VarDecl {| v_isParm := false; v_name := $"fortyTwoUnsigned"; v_used := false; v_referenced := false; v_local := true; v_staticMember := false; v_private := false; v_unusedAttr := false; v_defaultArg := false; v_canonicalType := $"NSNumber *"; v_inTemplate := false; v_contexts := [CxFunction true true false] |} (Some (Node 29 $"NSNumber *" (ObjCMessageExpr {| ms_selector := $"numberWithUnsignedInt:"; ms_receiver := (RClass $"NSNumber"); ms_implicit := false; ms_interface := (Some $"NSNumber"); ms_method := (Some (Decl [] (Some (Method false None (InOther (Some NoCategory)))))); ms_methodClass := (Some $"NSNumber") |} None [(Node 30 $"unsigned int" (IntegerLiteral (42)%Z))])))))]))]))))))];
     ts_locs := [(2,1,2,21); (3,1,4,2); (5,1,17,2); (6,1,6,41); (6,31,6,36); (7,1,7,39); (7,30,7,34); (8,1,8,56); (8,38,8,51); (9,1,9,41); (9,31,9,36); (10,1,10,58); (10,39,10,53); (11,1,11,50); (11,35,11,45); (12,1,12,67); (12,43,12,62); (13,1,13,43); (13,32,13,38); (14,1,14,45); (14,33,14,40); (15,1,15,41); (15,31,15,36); (16,1,16,58); (16,39,16,53); (18,1,18,79); (18,10,18,79); (18,12,18,77); (18,12,18,76); (18,41,18,76); (18,73,18,73)]%Z;
     ts_evals := []; ts_same := []; ts_decls := []; ts_parents := [] |}.
Example ObjCNSNumberLiterals_NumberWithUnsignedInt_2_holds : nth_violation (shippedRule sh_ObjCNSNumberLiterals) ObjCNSNumberLiterals_NumberWithUnsignedInt_2 0 = Some (18, 41, 18, 76, $"")%Z.
Proof. vm_compute. reflexivity. Qed.

Definition ObjCNSNumberLiterals_NumberWithBoxedUnsignedIntButInterger : testcase :=
  {| ts_lang := LObjC; ts_path := $"input.m"; ts_code := [];
     ts_comments := []; ts_conf := [];
     ts_tops := [(toplevel 0 (TOther), (Node 0 [] (OtherDecl []))); (toplevel 1 (TOther), (Node 1 [] (ObjCContainerDecl {| oc_kind := OKInterface; oc_name := $"NSObject"; oc_lines := (2)%Z; oc_ivars := 0; oc_methods := []; oc_classes := [$"NSObject"]; oc_superMethods := None |} []))); (toplevel 2 (TOther), (Node 2 [] (ObjCContainerDecl {| oc_kind := OKInterface; oc_name := $"NSNumber"; oc_lines := (13)%Z; oc_ivars := 0; oc_methods := [($"numberWithChar:", false); ($"numberWithInt:", false); ($"numberWithUnsignedInt:", false); ($"numberWithLong:", false); ($"numberWithUnsignedLong:", false); ($"numberWithLongLong:", false); ($"numberWithUnsignedLongLong:", false); ($"numberWithFloat:", false); ($"numberWithDouble:", false); ($"numberWithBool:", false); ($"numberWithUnsignedChar:", false)]; oc_classes := [$"NSNumber"; $"NSObject"]; oc_superMethods := (Some ($"NSObject", [])) |} [(Node 3 [] (ObjCMethodDecl {| om_selector := $"numberWithChar:"; om_class := (Some $"NSNumber"); om_overriding := false; om_overridden := []; om_bodyLines := (0)%Z |} [(Node 4 [] (VarDecl {| v_isParm := true; v_name := $"value"; v_used := false; v_referenced := false; v_local := false; v_staticMember := false; v_private := false; v_unusedAttr := false; v_defaultArg := false; v_canonicalType := $"char"; v_inTemplate := false; v_contexts := [CxObjCMethod true false false false; CxOther] |} None))] None)); (Node 5 [] (ObjCMethodDecl {| om_selector := $"numberWithInt:"; om_class := (Some $"NSNumber"); om_overriding := false; om_overridden := []; om_bodyLines := (0)%Z |} [(Node 6 [] (VarDecl {| v_isParm := true; v_name := $"value"; v_used := false; v_referenced := false; v_local := false; v_staticMember := false; v_private := false; v_unusedAttr := false; v_defaultArg := false; v_canonicalType := $"int"; v_inTemplate := false; v_contexts := [CxObjCMethod true false false false; CxOther] |} None))] None)); (Node 7 [] (ObjCMethodDecl {| om_selector := $"numberWithUnsignedInt:"; om_class := (Some $"NSNumber"); om_overriding := false; om_overridden := []; om_bodyLines := (0)%Z |} [(Node 8 [] (VarDecl {| v_isParm := true; v_name := $"value"; v_used := false; v_referenced := false; v_local := false; v_staticMember := false; v_private := false; v_unusedAttr := false; v_defaultArg := false; v_canonicalType := $"unsigned int"; v_inTemplate := false; v_contexts := [CxObjCMethod true false false false; CxOther] |} None))] None)); (Node 9 [] (ObjCMethodDecl {| om_selector := $"numberWithLong:"; om_class := (Some $"NSNumber"); om_overriding := false; om_overridden := []; om_bodyLines := (0)%Z |} [(Node 10 [] (VarDecl {| v_isParm := true; v_name := $"value"; v_used := false; v_referenced := false; v_local := false; v_staticMember := false; v_private := false; v_unusedAttr := false; v_defaultArg := false; v_canonicalType := $"long"; v_inTemplate := false; v_contexts := [CxObjCMethod true false false false; CxOther] |} None))] None)); (Node 11 [] (ObjCMethodDecl {| om_selector := $"numberWithUnsignedLong:"; om_class := (Some $"NSNumber"); om_overriding := false; om_overridden := []; om_bodyLines := (0)%Z |} [(Node 12 [] (VarDecl {| v_isParm := true; v_name := $"value"; v_used := false; v_referenced := false; v_local := false; v_staticMember := false; v_private := false; v_unusedAttr := false; v_defaultArg := false; v_canonicalType := $"unsigned long"; v_inTemplate := false; v_contexts := [CxObjCMethod true false false false; CxOther] |} None))] None)); (Node 13 [] (ObjCMethodDecl {| om_selector := $"numberWithLongLong:"; om_class := (Some $"NSNumber"); om_overriding := false; om_overridden := []; om_bodyLines := (0)%Z |} [(Node 14 [] (VarDecl {| v_isParm := true; v_name := $"value"; v_used := false; v_referenced := false; v_local := false; v_staticMember := false; v_private := false; v_unusedAttr := false; v_defaultArg := false; v_canonicalType := $"long long"; v_inTemplate := false; v_contexts := [CxObjCMethod true false false false; CxOther] |} None))] None)); (Node 15 [] (ObjCMethodDecl {| om_selector := $"numberWithUnsignedLongLong:"; om_class := (Some $"NSNumber"); om_overriding := false; om_overridden := []; om_bodyLines := (0)%Z |} [(Node 16 [] (VarDecl {| v_isParm := true; v_name := $"value"; v_used := false; v_referenced := false; v_local := false; v_staticMember := false; v_private := false; v_unusedAttr := false; v_defaultArg := false; v_canonicalType := $"unsigned long long"; v_inTemplate := false; v_contexts := [CxObjCMethod true false false false; CxOther] |} None))] None)); (Node 17 [] (ObjCMethodDecl {| om_selector := $"numberWithFloat:"; om_class := (Some $"NSNumber"); om_overriding := false; om_overridden := []; om_bodyLines := (0)%Z |} [(Node 18 [] (VarDecl {| v_isParm := true; v_name := $"value"; v_used := false; v_referenced := false; v_local := false; v_staticMember := false; v_private := false; v_unusedAttr := false; v_defaultArg := false; v_canonicalType := $"float"; v_inTemplate := false; v_contexts := [CxObjCMethod true false false false; CxOther] |} None))] None)); (Node 19 [] (ObjCMethodDecl {| om_selector := $"numberWithDouble:"; om_class := (Some $"NSNumber"); om_overriding := false; om_overridden := []; om_bodyLines := (0)%Z |} [(Node 20 [] (VarDecl {| v_isParm := true; v_name := $"value"; v_used := false; v_referenced := false; v_local := false; v_staticMember := false; v_private := false; v_unusedAttr := false; v_defaultArg := false; v_canonicalType := $"double"; v_inTemplate := false; v_contexts := [CxObjCMethod true false false false; CxOther] |} None))] None)); (Node 21 [] (ObjCMethodDecl {| om_selector := $"numberWithBool:"; om_class := (Some $"NSNumber"); om_overriding := false; om_overridden := []; om_bodyLines := (0)%Z |} [(Node 22 [] (VarDecl {| v_isParm := true; v_name := $"value"; v_used := false; v_referenced := false; v_local := false; v_staticMember := false; v_private := false; v_unusedAttr := false; v_defaultArg := false; v_canonicalType := $"signed char"; v_inTemplate := false; v_contexts := [CxObjCMethod true false false false; CxOther] |} None))] None)); (Node 23 [] (ObjCMethodDecl {| om_selector := $"numberWithUnsignedChar:"; om_class := (Some $"NSNumber"); om_overriding := false; om_overridden := []; om_bodyLines := (0)%Z |} [(Node 24 [] (VarDecl {| v_isParm := true; v_name := $"value"; v_used := false; v_referenced := false; v_local := false; v_staticMember := false; v_private := false; v_unusedAttr := false; v_defaultArg := false; v_canonicalType := $"unsigned char"; v_inTemplate := false; v_contexts := [CxObjCMethod true false false false; CxOther] |} None))] None))]))); (toplevel 25 (TFunction false), (Node 25 [] (FunctionDecl {| f_name := $"m"; f_method := None; f_isDefinition := true; f_bodyLines := (1)%Z |} [] (Some (Node 26 [] (CompoundStmt [(Node 27 [] (DeclStmt [(Node 28 [] (VarDecl {| v_isParm := false; v_name := $"fortyTwoUnsigned"; v_used := false; v_referenced := false; v_local := true; v_staticMember := false; v_private := false; v_unusedAttr := false; v_defaultArg := false; v_canonicalType := $"NSNumber *"; v_inTemplate := false; v_contexts := [CxFunction true true false] |} (Some (Node 29 $"NSNumber *" (ObjCMessageExpr {| ms_selector := $"numberWithUnsignedInt:"; ms_receiver := (RClass $"NSNumber"); ms_implicit := false; ms_interface := (Some $"NSNumber"); ms_method := (Some (Decl [] (Some (Method false None (InOther (Some NoCategory)))))); ms_methodClass := (Some $"NSNumber") |} None [(Node 30 $"unsigned int" (ImplicitCastExpr CK_Other (Node 31 $"int" (IntegerLiteral (42)%Z))))])))))]))]))))))];
     ts_locs := [(2,1,2,21); (3,1,4,2); (5,1,17,2); (6,1,6,41); (6,31,6,36); (7,1,7,39); (7,30,7,34); (8,1,8,56); (8,38,8,51); (9,1,9,41); (9,31,9,36); (10,1,10,58); (10,39,10,53); (11,1,11,50); (11,35,11,45); (12,1,12,67); (12,43,12,62); (13,1,13,43); (13,32,13,38); (14,1,14,45); (14,33,14,40); (15,1,15,41); (15,31,15,36); (16,1,16,58); (16,39,16,53); (18,1,18,78); (18,10,18,78); (18,12,18,76); (18,12,18,75); (18,41,18,75); (18,73,18,73); (18,73,18,73)]%Z;
     ts_evals := []; ts_same := []; ts_decls := []; ts_parents := [] |}.
Example ObjCNSNumberLiterals_NumberWithBoxedUnsignedIntButInterger_holds : sorted_violations_of (shippedRule sh_ObjCNSNumberLiterals) ObjCNSNumberLiterals_NumberWithBoxedUnsignedIntButInterger = Some [].
Proof. vm_compute. reflexivity. Qed.

Definition ObjCNSNumberLiterals_NumberWithBoxedUnsignedInt : testcase :=
  {| ts_lang := LObjC; ts_path := $"input.m"; ts_code := [];
     ts_comments := []; ts_conf := [];
     ts_tops := [(toplevel 0 (TOther), (Node 0 [] (OtherDecl []))); (toplevel 1 (TOther), (Node 1 [] (ObjCContainerDecl {| oc_kind := OKInterface; oc_name := $"NSObject"; oc_lines := (2)%Z; oc_ivars := 0; oc_methods := []; oc_classes := [$"NSObject"]; oc_superMethods := None |} []))); (toplevel 2 (TOther), (Node 2 [] (ObjCContainerDecl {| oc_kind := OKInterface; oc_name := $"NSNumber"; oc_lines := (13)%Z; oc_ivars := 0; oc_methods := [($"numberWithChar:", false); ($"numberWithInt:", false); ($"numberWithUnsignedInt:", false); ($"numberWithLong:", false); ($"numberWithUnsignedLong:", false); ($"numberWithLongLong:", false); ($"numberWithUnsignedLongLong:", false); ($"numberWithFloat:", false); ($"numberWithDouble:", false); ($"numberWithBool:", false); ($"numberWithUnsignedChar:", false)]; oc_classes := [$"NSNumber"; $"NSObject"]; oc_superMethods := (Some ($"NSObject", [])) |} [(Node 3 [] (ObjCMethodDecl {| om_selector := $"numberWithChar:"; om_class := (Some $"NSNumber"); om_overriding := false; om_overridden := []; om_bodyLines := (0)%Z |} [(Node 4 [] (VarDecl {| v_isParm := true; v_name := $"value"; v_used := false; v_referenced := false; v_local := false; v_staticMember := false; v_private := false; v_unusedAttr := false; v_defaultArg := false; v_canonicalType := $"char"; v_inTemplate := false; v_contexts := [CxObjCMethod true false false false; CxOther] |} None))] None)); (Node 5 [] (ObjCMethodDecl {| om_selector := $"numberWithInt:"; om_class := (Some $"NSNumber"); om_overriding := false; om_overridden := []; om_bodyLines := (0)%Z |} [(Node 6 [] (VarDecl {| v_isParm := true; v_name := $"value"; v_used := false; v_referenced := false; v_local := false; v_staticMember := false; v_private := false; v_unusedAttr := false; v_defaultArg := false; v_canonicalType := $"int"; v_inTemplate := false; v_contexts := [CxObjCMethod true false false false; CxOther] |} None))] None)); (Node 7 [] (ObjCMethodDecl {| om_selector := $"numberWithUnsignedInt:"; om_class := (Some $"NSNumber"); om_overriding := false; om_overridden := []; om_bodyLines := (0)%Z |} [(Node 8 [] (VarDecl {| v_isParm := true; v_name := $"value"; v_used := false; v_referenced := false; v_local := false; v_staticMember := false; v_private := false; v_unusedAttr := false; v_defaultArg := false; v_canonicalType := $"unsigned int"; v_inTemplate := false; v_contexts := [CxObjCMethod true false false false; CxOther] |} None))] None)); (Node 9 [] (ObjCMethodDecl {| om_selector := $"numberWithLong:"; om_class := (Some $"NSNumber"); om_overriding := false; om_overridden := []; om_bodyLines := (0)%Z |} [(Node 10 [] (VarDecl {| v_isParm := true; v_name := $"value"; v_used := false; v_referenced := false; v_local := false; v_staticMember := false; v_private := false; v_unusedAttr := false; v_defaultArg := false; v_canonicalType := $"long"; v_inTemplate := false; v_contexts := [CxObjCMethod true false false false; CxOther] |} None))] None)); (Node 11 [] (ObjCMethodDecl {| om_selector := $"numberWithUnsignedLong:"; om_class := (Some $"NSNumber"); om_overriding := false; om_overridden := []; om_bodyLines := (0)%Z |} [(Node 12 [] (VarDecl {| v_isParm := true; v_name := $"value"; v_used := false; v_referenced := false; v_local := false; v_staticMember := false; v_private := false; v_unusedAttr := false; v_defaultArg := false; v_canonicalType := $"unsigned long"; v_inTemplate := false; v_contexts := [CxObjCMethod true false false false; CxOther] |} None))] None)); (Node 13 [] (ObjCMethodDecl {| om_selector := $"numberWithLongLong:"; om_class := (Some $"NSNumber"); om_overriding := false; om_overridden := []; om_bodyLines := (0)%Z |} [(Node 14 [] (VarDecl {| v_isParm := true; v_name := $"value"; v_used := false; v_referenced := false; v_local := false; v_staticMember := false; v_private := false; v_unusedAttr := false; v_defaultArg := false; v_canonicalType := $"long long"; v_inTemplate := false; v_contexts := [CxObjCMethod true false false false; CxOther] |} None))] None)); (Node 15 [] (ObjCMethodDecl {| om_selector := $"numberWithUnsignedLongLong:"; om_class := (Some $"NSNumber"); om_overriding := false; om_overridden := []; om_bodyLines := (0)%Z |} [(Node 16 [] (VarDecl {| v_isParm := true; v_name := $"value"; v_used := false; v_referenced := false; v_local := false; v_staticMember := false; v_private := false; v_unusedAttr := false; v_defaultArg := false; v_canonicalType := $"unsigned long long"; v_inTemplate := false; v_contexts := [CxObjCMethod true false false false; CxOther] |} None))] None)); (Node 17 [] (ObjCMethodDecl {| om_selector := $"numberWithFloat:"; om_class := (Some $"NSNumber"); om_overriding := false; om_overridden := []; om_bodyLines := (0)%Z |} [(Node 18 [] (VarDecl {| v_isParm := true; v_name := $"value"; v_used := false; v_referenced := false; v_local := false; v_staticMember := false; v_private := false; v_unusedAttr := false; v_defaultArg := false; v_canonicalType := $"float"; v_inTemplate := false; v_contexts := [CxObjCMethod true false false false; CxOther] |} None))] None)); (Node 19 [] (ObjCMethodDecl {| om_selector := $"numberWithDouble:"; om_class := (Some $"NSNumber"); om_overriding := false; om_overridden := []; om_bodyLines := (0)%Z |} [(Node 20 [] (VarDecl {| v_isParm := true; v_name := $"value"; v_used := false; v_referenced := false; v_local := false; v_staticMember := false; v_private := false; v_unusedAttr := false; v_defaultArg := false; v_canonicalType := $"double"; v_inTemplate := false; v_contexts := [CxObjCMethod true false false false; CxOther] |} None))] None)); (Node 21 [] (ObjCMethodDecl {| om_selector := $"numberWithBool:"; om_class := (Some $"NSNumber"); om_overriding := false; om_overridden := []; om_bodyLines := (0)%Z |} [(Node 22 [] (VarDecl {| v_isParm := true; v_name := $"value"; v_used := false; v_referenced := false; v_local := false; v_staticMember := false; v_private := false; v_unusedAttr := false; v_defaultArg := false; v_canonicalType := $"signed char"; v_inTemplate := false; v_contexts := [CxObjCMethod true false false false; CxOther] |} None))] None)); (Node 23 [] (ObjCMethodDecl {| om_selector := $"numberWithUnsignedChar:"; om_class := (Some $"NSNumber"); om_overriding := false; om_overridden := []; om_bodyLines := (0)%Z |} [(Node 24 [] (VarDecl {| v_isParm := true; v_name := $"value"; v_used := false; v_referenced := false; v_local := false; v_staticMember := false; v_private := false; v_unusedAttr := false; v_defaultArg := false; v_canonicalType := $"unsigned char"; v_inTemplate := false; v_contexts := [CxObjCMethod true false false false; CxOther] |} None))] None))]))); (toplevel 25 (TFunction false), (Node 25 [] (FunctionDecl {| f_name := $"m"; f_method := None; f_isDefinition := true; f_bodyLines := (1)%Z |} [] (Some (Node 26 [] (CompoundStmt [(Node 27 [] (DeclStmt [(Node 28 [] (VarDecl {| v_isParm := false; v_name := $"fortyTwoUnsigned"; v_used := false; v_referenced := false; v_local := true; v_staticMember := false; v_private := false; v_unusedAttr := false; v_defaultArg := false; v_canonicalType := $"NSNumber *"; v_inTemplate := false; v_contexts := [CxFunction true true false] |} (Some (Node 29 $"NSNumber *" (ObjCMessageExpr {| ms_selector := $"numberWithUnsignedInt:"; ms_receiver := (RClass $"NSNumber"); ms_implicit := false; ms_interface := (Some $"NSNumber"); ms_method := (Some (Decl [] (Some (Method false None (InOther (Some NoCategory)))))); ms_methodClass := (Some $"NSNumber") |} None [(Node 30 $"unsigned int" (ParenExpr (Node 31 $"unsigned int" (BinaryOperator BO_Other (Node 32 $"unsigned int" (IntegerLiteral (43)%Z)) (Node 33 $"unsigned int" (IntegerLiteral (1)%Z))))))])))))]))]))))))];
     ts_locs := [(2,1,2,21); (3,1,4,2); (5,1,17,2); (6,1,6,41); (6,31,6,36); (7,1,7,39); (7,30,7,34); (8,1,8,56); (8,38,8,51); (9,1,9,41); (9,31,9,36); (10,1,10,58); (10,39,10,53); (11,1,11,50); (11,35,11,45); (12,1,12,67); (12,43,12,62); (13,1,13,43); (13,32,13,38); (14,1,14,45); (14,33,14,40); (15,1,15,41); (15,31,15,36); (16,1,16,58); (16,39,16,53); (18,1,18,86); (18,10,18,86); (18,12,18,84); (18,12,18,83); (18,41,18,83); (18,73,18,82); (18,74,18,80); (18,74,18,74); (18,80,18,80)]%Z;
     ts_evals := []; ts_same := []; ts_decls := []; ts_parents := [] |}.
Example ObjCNSNumberLiterals_NumberWithBoxedUnsignedInt_holds : sorted_violations_of (shippedRule sh_ObjCNSNumberLiterals) ObjCNSNumberLiterals_NumberWithBoxedUnsignedInt = Some [].
Proof. vm_compute. reflexivity. Qed.

Definition ObjCNSNumberLiterals_LongLiteral : testcase :=
  {| ts_lang := LObjC; ts_path := $"input.m"; ts_code := [];
     ts_comments := []; ts_conf := [];
     ts_tops := [(toplevel 0 (TOther), (Node 0 [] (OtherDecl []))); (toplevel 1 (TOther), (Node 1 [] (ObjCContainerDecl {| oc_kind := OKInterface; oc_name := $"NSObject"; oc_lines := (2)%Z; oc_ivars := 0; oc_methods := []; oc_classes := [$"NSObject"]; oc_superMethods := None |} []))); (toplevel 2 (TOther), (Node 2 [] (ObjCContainerDecl {| oc_kind := OKInterface; oc_name := $"NSNumber"; oc_lines := (13)%Z; oc_ivars := 0; oc_methods := [($"numberWithChar:", false); ($"numberWithInt:", false); ($"numberWithUnsignedInt:", false); ($"numberWithLong:", false); ($"numberWithUnsignedLong:", false); ($"numberWithLongLong:", false); ($"numberWithUnsignedLongLong:", false); ($"numberWithFloat:", false); ($"numberWithDouble:", false); ($"numberWithBool:", false); ($"numberWithUnsignedChar:", false)]; oc_classes := [$"NSNumber"; $"NSObject"]; oc_superMethods := (Some ($"NSObject", [])) |} [(Node 3 [] (ObjCMethodDecl {| om_selector := $"numberWithChar:"; om_class := (Some $"NSNumber"); om_overriding := false; om_overridden := []; om_bodyLines := (0)%Z |} [(Node 4 [] (VarDecl {| v_isParm := true; v_name := $"value"; v_used := false; v_referenced := false; v_local := false; v_staticMember := false; v_private := false; v_unusedAttr := false; v_defaultArg := false; v_canonicalType := $"char"; v_inTemplate := false; v_contexts := [CxObjCMethod true false false false; CxOther] |} None))] None)); (Node 5 [] (ObjCMethodDecl {| om_selector := $"numberWithInt:"; om_class := (Some $"NSNumber"); om_overriding := false; om_overridden := []; om_bodyLines := (0)%Z |} [(Node 6 [] (VarDecl {| v_isParm := true; v_name := $"value"; v_used := false; v_referenced := false; v_local := false; v_staticMember := false; v_private := false; v_unusedAttr := false; v_defaultArg := false; v_canonicalType := $"int"; v_inTemplate := false; v_contexts := [CxObjCMethod true false false false; CxOther] |} None))] None)); (Node 7 [] (ObjCMethodDecl {| om_selector := $"numberWithUnsignedInt:"; om_class := (Some $"NSNumber"); om_overriding := false; om_overridden := []; om_bodyLines := (0)%Z |} [(Node 8 [] (VarDecl {| v_isParm := true; v_name := $"value"; v_used := false; v_referenced := false; v_local := false; v_staticMember := false; v_private := false; v_unusedAttr := false; v_defaultArg := false; v_canonicalType := $"unsigned int"; v_inTemplate := false; v_contexts := [CxObjCMethod true false false false; CxOther] |} None))] None)); (Node 9 [] (ObjCMethodDecl {| om_selector := $"numberWithLong:"; om_class := (Some $"NSNumber"); om_overriding := false; om_overridden := []; om_bodyLines := (0)%Z |} [(Node 10 [] (VarDecl {| v_isParm := true; v_name := $"value"; v_used := false; v_referenced := false; v_local := false; v_staticMember := false; v_private := false; v_unusedAttr := false; v_defaultArg := false; v_canonicalType := $"long"; v_inTemplate := false; v_contexts := [CxObjCMethod true false false false; CxOther] |} None))] None)); (Node 11 [] (ObjCMethodDecl {| om_selector := $"numberWithUnsignedLong:"; om_class := (Some $"NSNumber"); om_overriding := false; om_overridden := []; om_bodyLines := (0)%Z |} [(Node 12 [] (VarDecl {| v_isParm := true; v_name := $"value"; v_used := false; v_referenced := false; v_local := false; v_staticMember := false; v_private := false; v_unusedAttr := false; v_defaultArg := false; v_canonicalType := $"unsigned long"; v_inTemplate := false; v_contexts := [CxObjCMethod true false false false; CxOther] |} None))] None)); (Node 13 [] (ObjCMethodDecl {| om_selector := $"numberWithLongLong:"; om_class := (Some $"NSNumber"); om_overriding := false; om_overridden := []; om_bodyLines := (0)%Z |} [(Node 14 [] (VarDecl {| v_isParm := true; v_name := $"value"; v_used := false; v_referenced := false; v_local := false; v_staticMember := false; v_private := false; v_unusedAttr := false; v_defaultArg := false; v_canonicalType := $"long long"; v_inTemplate := false; v_contexts := [CxObjCMethod true false false false; CxOther] |} None))] None)); (Node 15 [] (ObjCMethodDecl {| om_selector := $"numberWithUnsignedLongLong:"; om_class := (Some $"NSNumber"); om_overriding := false; om_overridden := []; om_bodyLines := (0)%Z |} [(Node 16 [] (VarDecl {| v_isParm := true; v_name := $"value"; v_used := false; v_referenced := false; v_local := false; v_staticMember := false; v_private := false; v_unusedAttr := false; v_defaultArg := false; v_canonicalType := $"unsigned long long"; v_inTemplate := false; v_contexts := [CxObjCMethod true false false false; CxOther] |} None))] None)); (Node 17 [] (ObjCMethodDecl {| om_selector := $"numberWithFloat:"; om_class := (Some $"NSNumber"); om_overriding := false; om_overridden := []; om_bodyLines := (0)%Z |} [(Node 18 [] (VarDecl {| v_isParm := true; v_name := $"value"; v_used := false; v_referenced := false; v_local := false; v_staticMember := false; v_private := false; v_unusedAttr := false; v_defaultArg := false; v_canonicalType := $"float"; v_inTemplate := false; v_contexts := [CxObjCMethod true false false false; CxOther] |} None))] None)); (Node 19 [] (ObjCMethodDecl {| om_selector := $"numberWithDouble:"; om_class := (Some $"NSNumber"); om_overriding := false; om_overridden := []; om_bodyLines := (0)%Z |} [(Node 20 [] (VarDecl {| v_isParm := true; v_name := $"value"; v_used := false; v_referenced := false; v_local := false; v_staticMember := false; v_private := false; v_unusedAttr := false; v_defaultArg := false; v_canonicalType := $"double"; v_inTemplate := false; v_contexts := [CxObjCMethod true false false false; CxOther] |} None))] None)); (Node 21 [] (ObjCMethodDecl {| om_selector := $"numberWithBool:"; om_class := (Some $"NSNumber"); om_overriding := false; om_overridden := []; om_bodyLines := (0)%Z |} [(Node 22 [] (VarDecl {| v_isParm := true; v_name := $"value"; v_used := false; v_referenced := false; v_local := false; v_staticMember := false; v_private := false; v_unusedAttr := false; v_defaultArg := false; v_canonicalType := $"signed char"; v_inTemplate := false; v_contexts := [CxObjCMethod true false false false; CxOther] |} None))] None)); (Node 23 [] (ObjCMethodDecl {| om_selector := $"numberWithUnsignedChar:"; om_class := (Some $"NSNumber"); om_overriding := false; om_overridden := []; om_bodyLines := (0)%Z |} [(Node 24 [] (VarDecl {| v_isParm := true; v_name := $"value"; v_used := false; v_referenced := false; v_local := false; v_staticMember := false; v_private := false; v_unusedAttr := false; v_defaultArg := false; v_canonicalType := $"unsigned char"; v_inTemplate := false; v_contexts := [CxObjCMethod true false false false; CxOther] |} None))] None))]))); (toplevel 25 (TFunction false), (Node 25 [] (FunctionDecl {| f_name := $"m"; f_method := None; f_isDefinition := true; f_bodyLines := (1)%Z |} [] (Some (Node 26 [] (CompoundStmt [(Node 27 [] (DeclStmt [(Node 28 [] (VarDecl {| v_isParm := false; v_name := $"fortyTwoLong"; v_used := false; v_referenced := false; v_local := true; v_staticMember := false; v_private := false; v_unusedAttr := false; v_defaultArg := false; v_canonicalType := $"NSNumber *"; v_inTemplate := false; v_contexts := [CxFunction true true false] |} (Some (Node 29 $"NSNumber *" (OtherExpr [(Node 30 $"long" (IntegerLiteral (42)%Z))])))))]))]))))))];
     ts_locs := [(2,1,2,21); (3,1,4,2); (5,1,17,2); (6,1,6,41); (6,31,6,36); (7,1,7,39); (7,30,7,34); (8,1,8,56); (8,38,8,51); (9,1,9,41); (9,31,9,36); (10,1,10,58); (10,39,10,53); (11,1,11,50); (11,35,11,45); (12,1,12,67); (12,43,12,62); (13,1,13,43); (13,32,13,38); (14,1,14,45); (14,33,14,40); (15,1,15,41); (15,31,15,36); (16,1,16,58); (16,39,16,53); (18,1,18,43); (18,10,18,43); (18,12,18,41); (18,12,18,38); (18,37,18,38); (18,38,18,38)]%Z;
     ts_evals := []; ts_same := []; ts_decls := []; ts_parents := [] |}.
Example ObjCNSNumberLiterals_LongLiteral_holds : sorted_violations_of (shippedRule sh_ObjCNSNumberLiterals) ObjCNSNumberLiterals_LongLiteral = Some [].
Proof. vm_compute. reflexivity. Qed.

Definition ObjCNSNumberLiterals_NumberWithLong : testcase :=
  {| ts_lang := LObjC; ts_path := $"input.m"; ts_code := [];
     ts_comments := []; ts_conf := [];
     ts_tops := [(toplevel 0 (TOther), (Node 0 [] (OtherDecl []))); (toplevel 1 (TOther), (Node 1 [] (ObjCContainerDecl {| oc_kind := OKInterface; oc_name := $"NSObject"; oc_lines := (2)%Z; oc_ivars := 0; oc_methods := []; oc_classes := [$"NSObject"]; oc_superMethods := None |} []))); (toplevel 2 (TOther), (Node 2 [] (ObjCContainerDecl {| oc_kind := OKInterface; oc_name := $"NSNumber"; oc_lines := (13)%Z; oc_ivars := 0; oc_methods := [($"numberWithChar:", false); ($"numberWithInt:", false); ($"numberWithUnsignedInt:", false); ($"numberWithLong:", false); ($"numberWithUnsignedLong:", false); ($"numberWithLongLong:", false); ($"numberWithUnsignedLongLong:", false); ($"numberWithFloat:", false); ($"numberWithDouble:", false); ($"numberWithBool:", false); ($"numberWithUnsignedChar:", false)]; oc_classes := [$"NSNumber"; $"NSObject"]; oc_superMethods := (Some ($"NSObject", [])) |} [(Node 3 [] (ObjCMethodDecl {| om_selector := $"numberWithChar:"; om_class := (Some $"NSNumber"); om_overriding := false; om_overridden := []; om_bodyLines := (0)%Z |} [(Node 4 [] (VarDecl {| v_isParm := true; v_name := $"value"; v_used := false; v_referenced := false; v_local := false; v_staticMember := false; v_private := false; v_unusedAttr := false; v_defaultArg := false; v_canonicalType := $"char"; v_inTemplate := false; v_contexts := [CxObjCMethod true false false false; CxOther] |} None))] None)); (Node 5 [] (ObjCMethodDecl {| om_selector := $"numberWithInt:"; om_class := (Some $"NSNumber"); om_overriding := false; om_overridden := []; om_bodyLines := (0)%Z |} [(Node 6 [] (VarDecl {| v_isParm := true; v_name := $"value"; v_used := false; v_referenced := false; v_local := false; v_staticMember := false; v_private := false; v_unusedAttr := false; v_defaultArg := false; v_canonicalType := $"int"; v_inTemplate := false; v_contexts := [CxObjCMethod true false false false; CxOther] |} None))] None)); (Node 7 [] (ObjCMethodDecl {| om_selector := $"numberWithUnsignedInt:"; om_class := (Some $"NSNumber"); om_overriding := false; om_overridden := []; om_bodyLines := (0)%Z |} [(Node 8 [] (VarDecl {| v_isParm := true; v_name := $"value"; v_used := false; v_referenced := false; v_local := false; v_staticMember := false; v_private := false; v_unusedAttr := false; v_defaultArg := false; v_canonicalType := $"unsigned int"; v_inTemplate := false; v_contexts := [CxObjCMethod true false false false; CxOther] |} None))] None)); (Node 9 [] (ObjCMethodDecl {| om_selector := $"numberWithLong:"; om_class := (Some $"NSNumber"); om_overriding := false; om_overridden := []; om_bodyLines := (0)%Z |} [(Node 10 [] (VarDecl {| v_isParm := true; v_name := $"value"; v_used := false; v_referenced := false; v_local := false; v_staticMember := false; v_private := false; v_unusedAttr := false; v_defaultArg := false; v_canonicalType := $"long"; v_inTemplate := false; v_contexts := [CxObjCMethod true false false false; CxOther] |} None))] None)); (Node 11 [] (ObjCMethodDecl {| om_selector := $"numberWithUnsignedLong:"; om_class := (Some $"NSNumber"); om_overriding := false; om_overridden := []; om_bodyLines := (0)%Z |} [(Node 12 [] (VarDecl {| v_isParm := true; v_name := $"value"; v_used := false; v_referenced := false; v_local := false; v_staticMember := false; v_private := false; v_unusedAttr := false; v_defaultArg := false; v_canonicalType := $"unsigned long"; v_inTemplate := false; v_contexts := [CxObjCMethod true false false false; CxOther] |} None))] None)); (Node 13 [] (ObjCMethodDecl {| om_selector := $"numberWithLongLong:"; om_class := (Some $"NSNumber"); om_overriding := false; om_overridden := []; om_bodyLines := (0)%Z |} [(Node 14 [] (VarDecl {| v_isParm := true; v_name := $"value"; v_used := false; v_referenced := false; v_local := false; v_staticMember := false; v_private := false; v_unusedAttr := false; v_defaultArg := false; v_canonicalType := $"long long"; v_inTemplate := false; v_contexts := [CxObjCMethod true false false false; CxOther] |} None))] None)); (Node 15 [] (ObjCMethodDecl {| om_selector := $"numberWithUnsignedLongLong:"; om_class := (Some $"NSNumber"); om_overriding := false; om_overridden := []; om_bodyLines := (0)%Z |} [(Node 16 [] (VarDecl {| v_isParm := true; v_name := $"value"; v_used := false; v_referenced := false; v_local := false; v_staticMember := false; v_private := false; v_unusedAttr := false; v_defaultArg := false; v_canonicalType := $"unsigned long long"; v_inTemplate := false; v_contexts := [CxObjCMethod true false false false; CxOther] |} None))] None)); (Node 17 [] (ObjCMethodDecl {| om_selector := $"numberWithFloat:"; om_class := (Some $"NSNumber"); om_overriding := false; om_overridden := []; om_bodyLines := (0)%Z |} [(Node 18 [] (VarDecl {| v_isParm := true; v_name := $"value"; v_used := false; v_referenced := false; v_local := false; v_staticMember := false; v_private := false; v_unusedAttr := false; v_defaultArg := false; v_canonicalType := $"float"; v_inTemplate := false; v_contexts := [CxObjCMethod true false false false; CxOther] |} None))] None)); (Node 19 [] (ObjCMethodDecl {| om_selector := $"numberWithDouble:"; om_class := (Some $"NSNumber"); om_overriding := false; om_overridden := []; om_bodyLines := (0)%Z |} [(Node 20 [] (VarDecl {| v_isParm := true; v_name := $"value"; v_used := false; v_referenced := false; v_local := false; v_staticMember := false; v_private := false; v_unusedAttr := false; v_defaultArg := false; v_canonicalType := $"double"; v_inTemplate := false; v_contexts := [CxObjCMethod true false false false; CxOther] |} None))] None)); (Node 21 [] (ObjCMethodDecl {| om_selector := $"numberWithBool:"; om_class := (Some $"NSNumber"); om_overriding := false; om_overridden := []; om_bodyLines := (0)%Z |} [(Node 22 [] (VarDecl {| v_isParm := true; v_name := $"value"; v_used := false; v_referenced := false; v_local := false; v_staticMember := false; v_private := false; v_unusedAttr := false; v_defaultArg := false; v_canonicalType := $"signed char"; v_inTemplate := false; v_contexts := [CxObjCMethod true false false false; CxOther] |} None))] None)); (Node 23 [] (ObjCMethodDecl {| om_selector := $"numberWithUnsignedChar:"; om_class := (Some $"NSNumber"); om_overriding := false; om_overridden := []; om_bodyLines := (0)%Z |} [(Node 24 [] (VarDecl {| v_isParm := true; v_name := $"value"; v_used := false; v_referenced := false; v_local := false; v_staticMember := false; v_private := false; v_unusedAttr := false; v_defaultArg := false; v_canonicalType := $"unsigned char"; v_inTemplate := false; v_contexts := [CxObjCMethod true false false false; CxOther] |} None))] None))]))); (toplevel 25 (TFunction false), (Node 25 [] (FunctionDecl {| f_name := $"m"; f_method := None; f_isDefinition := true; f_bodyLines := (1)%Z |} [] (Some (Node 26 [] (CompoundStmt [(Node 27 [] (DeclStmt [(Node 28 [] (VarDecl {| v_isParm := false; v_name := $"fortyTwoLong"; v_used := false; v_referenced := false; v_local := true; v_staticMember := false; v_private := false; v_unusedAttr := false; v_defaultArg := false; v_canonicalType := $"NSNumber *"; v_inTemplate := false; v_contexts := [CxFunction true true false] |} (Some (Node 29 $"NSNumber *" (ObjCMessageExpr {| ms_selector := $"numberWithLong:"; ms_receiver := (RClass $"NSNumber"); ms_implicit := false; ms_interface := (Some $"NSNumber"); ms_method := (Some (Decl [] (Some (Method false None (InOther (Some NoCategory)))))); ms_methodClass := (Some $"NSNumber") |} None [(Node 30 $"long" (IntegerLiteral (42)%Z))])))))]))]))))))];
     ts_locs := [(2,1,2,21); (3,1,4,2); (5,1,17,2); (6,1,6,41); (6,31,6,36); (7,1,7,39); (7,30,7,34); (8,1,8,56); (8,38,8,51); (9,1,9,41); (9,31,9,36); (10,1,10,58); (10,39,10,53); (11,1,11,50); (11,35,11,45); (12,1,12,67); (12,43,12,62); (13,1,13,43); (13,32,13,38); (14,1,14,45); (14,33,14,40); (15,1,15,41); (15,31,15,36); (16,1,16,58); (16,39,16,53); (18,1,18,68); (18,10,18,68); (18,12,18,66); (18,12,18,65); (18,37,18,65); (18,62,18,62)]%Z;
     ts_evals := []; ts_same := []; ts_decls := []; ts_parents := [] |}.
Example ObjCNSNumberLiterals_NumberWithLong_holds : nth_violation (shippedRule sh_ObjCNSNumberLiterals) ObjCNSNumberLiterals_NumberWithLong 0 = Some (18, 37, 18, 65, $"")%Z.
Proof. vm_compute. reflexivity. Qed.

Definition ObjCNSNumberLiterals_NumberWithLong_2 : testcase :=
  {| ts_lang := LObjC; ts_path := $"input.m"; ts_code := [];
     ts_comments := []; ts_conf := [];
     ts_tops := [(toplevel 0 (TOther), (Node 0 [] (OtherDecl []))); (toplevel 1 (TOther), (Node 1 [] (ObjCContainerDecl {| oc_kind := OKInterface; oc_name := $"NSObject"; oc_lines := (2)%Z; oc_ivars := 0; oc_methods := []; oc_classes := [$"NSObject"]; oc_superMethods := None |} []))); (toplevel 2 (TOther), (Node 2 [] (ObjCContainerDecl {| oc_kind := OKInterface; oc_name := $"NSNumber"; oc_lines := (13)%Z; oc_ivars := 0; oc_methods := [($"numberWithChar:", false); ($"numberWithInt:", false); ($"numberWithUnsignedInt:", false); ($"numberWithLong:", false); ($"numberWithUnsignedLong:", false); ($"numberWithLongLong:", false); ($"numberWithUnsignedLongLong:", false); ($"numberWithFloat:", false); ($"numberWithDouble:", false); ($"numberWithBool:", false); ($"numberWithUnsignedChar:", false)]; oc_classes := [$"NSNumber"; $"NSObject"]; oc_superMethods := (Some ($"NSObject", [])) |} [(Node 3 [] (ObjCMethodDecl {| om_selector := $"numberWithChar:"; om_class := (Some $"NSNumber"); om_overriding := false; om_overridden := []; om_bodyLines := (0)%Z |} [(Node 4 [] (VarDecl {| v_isParm := true; v_name := $"value"; v_used := false; v_referenced := false; v_local := false; v_staticMember := false; v_private := false; v_unusedAttr := false; v_defaultArg := false; v_canonicalType := $"char"; v_inTemplate := false; v_contexts := [CxObjCMethod true false false false; CxOther] |} None))] None)); (Node 5 [] (ObjCMethodDecl {| om_selector := $"numberWithInt:"; om_class := (Some $"NSNumber"); om_overriding := false; om_overridden := []; om_bodyLines := (0)%Z |} [(Node 6 [] (VarDecl {| v_isParm := true; v_name := $"value"; v_used := false; v_referenced := false; v_local := false; v_staticMember := false; v_private := false; v_unusedAttr := false; v_defaultArg := false; v_canonicalType := $"int"; v_inTemplate := false; v_contexts := [CxObjCMethod true false false false; CxOther] |} None))] None)); (Node 7 [] (ObjCMethodDecl {| om_selector := $"numberWithUnsignedInt:"; om_class := (Some $"NSNumber"); om_overriding := false; om_overridden := []; om_bodyLines := (0)%Z |} [(Node 8 [] (VarDecl {| v_isParm := true; v_name := $"value"; v_used := false; v_referenced := false; v_local := false; v_staticMember := false; v_private := false; v_unusedAttr := false; v_defaultArg := false; v_canonicalType := $"unsigned int"; v_inTemplate := false; v_contexts := [CxObjCMethod true false false false; CxOther] |} None))] None)); (Node 9 [] (ObjCMethodDecl {| om_selector := $"numberWithLong:"; om_class := (Some $"NSNumber"); om_overriding := false; om_overridden := []; om_bodyLines := (0)%Z |} [(Node 10 [] (VarDecl {| v_isParm := true; v_name := $"value"; v_used := false; v_referenced := false; v_local := false; v_staticMember := false; v_private := false; v_unusedAttr := false; v_defaultArg := false; v_canonicalType := $"long"; v_inTemplate := false; v_contexts := [CxObjCMethod true false false false; CxOther] |} None))] None)); (Node 11 [] (ObjCMethodDecl {| om_selector := $"numberWithUnsignedLong:"; om_class := (Some $"NSNumber"); om_overriding := false; om_overridden := []; om_bodyLines := (0)%Z |} [(Node 12 [] (VarDecl {| v_isParm := true; v_name := $"value"; v_used := false; v_referenced := false; v_local := false; v_staticMember := false; v_private := false; v_unusedAttr := false; v_defaultArg := false; v_canonicalType := $"unsigned long"; v_inTemplate := false; v_contexts := [CxObjCMethod true false false false; CxOther] |} None))] None)); (Node 13 [] (ObjCMethodDecl {| om_selector := $"numberWithLongLong:"; om_class := (Some $"NSNumber"); om_overriding := false; om_overridden := []; om_bodyLines := (0)%Z |} [(Node 14 [] (VarDecl {| v_isParm := true; v_name := $"value"; v_used := false; v_referenced := false; v_local := false; v_staticMember := false; v_private := false; v_unusedAttr := false; v_defaultArg := false; v_canonicalType := $"long long"; v_inTemplate := false; v_contexts := [CxObjCMethod true false false false; CxOther] |} None))] None)); (Node 15 [] (ObjCMethodDecl {| om_selector := $"numberWithUnsignedLongLong:"; om_class := (Some $"NSNumber"); om_overriding := false; om_overridden := []; om_bodyLines := (0)%Z |} [(Node 16 [] (VarDecl {| v_isParm := true; v_name := $"value"; v_used := false; v_referenced := false; v_local := false; v_staticMember := false; v_private := false; v_unusedAttr := false; v_defaultArg := false; v_canonicalType := $"unsigned long long"; v_inTemplate := false; v_contexts := [CxObjCMethod true false false false; CxOther] |} None))] None)); (Node 17 [] (ObjCMethodDecl {| om_selector := $"numberWithFloat:"; om_class := (Some $"NSNumber"); om_overriding := false; om_overridden := []; om_bodyLines := (0)%Z |} [(Node 18 [] (VarDecl {| v_isParm := true; v_name := $"value"; v_used := false; v_referenced := false; v_local := false; v_staticMember := false; v_private := false; v_unusedAttr := false; v_defaultArg := false; v_canonicalType := $"float"; v_inTemplate := false; v_contexts := [CxObjCMethod true false false false; CxOther] |} None))] None)); (Node 19 [] (ObjCMethodDecl {| om_selector := $"numberWithDouble:"; om_class := (Some $"NSNumber"); om_overriding := false; om_overridden := []; om_bodyLines := (0)%Z |} [(Node 20 [] (VarDecl {| v_isParm := true; v_name := $"value"; v_used := false; v_referenced := false; v_local := false; v_staticMember := false; v_private := false; v_unusedAttr := false; v_defaultArg := false; v_canonicalType := $"double"; v_inTemplate := false; v_contexts := [CxObjCMethod true false false false; CxOther] |} None))] None)); (Node 21 [] (ObjCMethodDecl {| om_selector := $"numberWithBool:"; om_class := (Some $"NSNumber"); om_overriding := false; om_overridden := []; om_bodyLines := (0)%Z |} [(Node 22 [] (VarDecl {| v_isParm := true; v_name := $"value"; v_used := false; v_referenced := false; v_local := false; v_staticMember := false; v_private := false; v_unusedAttr := false; v_defaultArg := false; v_canonicalType := $"signed char"; v_inTemplate := false; v_contexts := [CxObjCMethod true false false false; CxOther] |} None))] None)); (Node 23 [] (ObjCMethodDecl {| om_selector := $"numberWithUnsignedChar:"; om_class := (Some $"NSNumber"); om_overriding := false; om_overridden := []; om_bodyLines := (0)%Z |} [(Node 24 [] (VarDecl {| v_isParm := true; v_name := $"value"; v_used := false; v_referenced := false; v_local := false; v_staticMember := false; v_private := false; v_unusedAttr := false; v_defaultArg := false; v_canonicalType := $"unsigned char"; v_inTemplate := false; v_contexts := [CxObjCMethod true false false false; CxOther] |} None))] None))]))); (toplevel 25 (TFunction false), (Node 25 [] (FunctionDecl {| f_name := $"m"; f_method := None; f_isDefinition := true; f_bodyLines := (1)%Z |} [] (Some (Node 26 [] (CompoundStmt [(Node 27 [] (DeclStmt [(Node 28 [] (VarDecl {| v_isParm := false; v_name := $"fortyTwoLong"; v_used := false; v_referenced := false; v_local := true; v_staticMember := false; v_private := false; v_unusedAttr := false; v_defaultArg := false; v_canonicalType := $"NSNumber *"; v_inTemplate := false; v_contexts := [CxFunction true true false] |} (Some (Node 29 $"NSNumber *" (ObjCMessageExpr {| ms_selector := $"numberWithLong:"; ms_receiver := (RClass $"NSNumber"); ms_implicit := false; ms_interface := (Some $"NSNumber"); ms_method := (Some (Decl [] (Some (Method false None (InOther (Some NoCategory)))))); ms_methodClass := (Some $"NSNumber") |} None [(Node 30 $"long" (IntegerLiteral (42)%Z))])))))]))]))))))];
     ts_locs := [(2,1,2,21); (3,1,4,2); (5,1,17,2); (6,1,6,41); (6,31,6,36); (7,1,7,39); (7,30,7,34); (8,1,8,56); (8,38,8,51); (9,1,9,41); (9,31,9,36); (10,1,10,58); (10,39,10,53); (11,1,11,50); (11,35,11,45); (12,1,12,67); (12,43,12,62); (13,1,13,43); (13,32,13,38); (14,1,14,45); (14,33,14,40); (15,1,15,41); (15,31,15,36); (16,1,16,58); (16,39,16,53); (18,1,18,68); (18,10,18,68); (18,12,18,66); (18,12,18,65); (18,37,18,65); (18,62,18,62)]%Z;
     ts_evals := []; ts_same := []; ts_decls := []; ts_parents := [] |}.
Example ObjCNSNumberLiterals_NumberWithLong_2_holds : nth_violation (shippedRule sh_ObjCNSNumberLiterals) ObjCNSNumberLiterals_NumberWithLong_2 0 = Some (18, 37, 18, 65, $"")%Z.
Proof. vm_compute. reflexivity. Qed.

Definition ObjCNSNumberLiterals_NumberWithBoxedLong : testcase :=
  {| ts_lang := LObjC; ts_path := $"input.m"; ts_code := [];
     ts_comments := []; ts_conf := [];
     ts_tops := [(toplevel 0 (TOther), (Node 0 [] (OtherDecl []))); (toplevel 1 (TOther), (Node 1 [] (ObjCContainerDecl {| oc_kind := OKInterface; oc_name := $"NSObject"; oc_lines := (2)%Z; oc_ivars := 0; oc_methods := []; oc_classes := [$"NSObject"]; oc_superMethods := None |} []))); (toplevel 2 (TOther), (Node 2 [] (ObjCContainerDecl {| oc_kind := OKInterface; oc_name := $"NSNumber"; oc_lines := (13)%Z; oc_ivars := 0; oc_methods := [($"numberWithChar:", false); ($"numberWithInt:", false); ($"numberWithUnsignedInt:", false); ($"numberWithLong:", false); ($"numberWithUnsignedLong:", false); ($"numberWithLongLong:", false); ($"numberWithUnsignedLongLong:", false); ($"numberWithFloat:", false); ($"numberWithDouble:", false); ($"numberWithBool:", false); ($"numberWithUnsignedChar:", false)]; oc_classes := [$"NSNumber"; $"NSObject"]; oc_superMethods := (Some ($"NSObject", [])) |} [(Node 3 [] (ObjCMethodDecl {| om_selector := $"numberWithChar:"; om_class := (Some $"NSNumber"); om_overriding := false; om_overridden := []; om_bodyLines := (0)%Z |} [(Node 4 [] (VarDecl {| v_isParm := true; v_name := $"value"; v_used := false; v_referenced := false; v_local := false; v_staticMember := false; v_private := false; v_unusedAttr := false; v_defaultArg := false; v_canonicalType := $"char"; v_inTemplate := false; v_contexts := [CxObjCMethod true false false false; CxOther] |} None))] None)); (Node 5 [] (ObjCMethodDecl {| om_selector := $"numberWithInt:"; om_class := (Some $"NSNumber"); om_overriding := false; om_overridden := []; om_bodyLines := (0)%Z |} [(Node 6 [] (VarDecl {| v_isParm := true; v_name := $"value"; v_used := false; v_referenced := false; v_local := false; v_staticMember := false; v_private := false; v_unusedAttr := false; v_defaultArg := false; v_canonicalType := $"int"; v_inTemplate := false; v_contexts := [CxObjCMethod true false false false; CxOther] |} None))] None)); (Node 7 [] (ObjCMethodDecl {| om_selector := $"numberWithUnsignedInt:"; om_class := (Some $"NSNumber"); om_overriding := false; om_overridden := []; om_bodyLines := (0)%Z |} [(Node 8 [] (VarDecl {| v_isParm := true; v_name := $"value"; v_used := false; v_referenced := false; v_local := false; v_staticMember := false; v_private := false; v_unusedAttr := false; v_defaultArg := false; v_canonicalType := $"unsigned int"; v_inTemplate := false; v_contexts := [CxObjCMethod true false false false; CxOther] |} None))] None)); (Node 9 [] (ObjCMethodDecl {| om_selector := $"numberWithLong:"; om_class := (Some $"NSNumber"); om_overriding := false; om_overridden := []; om_bodyLines := (0)%Z |} [(Node 10 [] (VarDecl {| v_isParm := true; v_name := $"value"; v_used := false; v_referenced := false; v_local := false; v_staticMember := false; v_private := false; v_unusedAttr := false; v_defaultArg := false; v_canonicalType := $"long"; v_inTemplate := false; v_contexts := [CxObjCMethod true false false false; CxOther] |} None))] None)); (Node 11 [] (ObjCMethodDecl {| om_selector := $"numberWithUnsignedLong:"; om_class := (Some $"NSNumber"); om_overriding := false; om_overridden := []; om_bodyLines := (0)%Z |} [(Node 12 [] (VarDecl {| v_isParm := true; v_name := $"value"; v_used := false; v_referenced := false; v_local := false; v_staticMember := false; v_private := false; v_unusedAttr := false; v_defaultArg := false; v_canonicalType := $"unsigned long"; v_inTemplate := false; v_contexts := [CxObjCMethod true false false false; CxOther] |} None))] None)); (Node 13 [] (ObjCMethodDecl {| om_selector := $"numberWithLongLong:"; om_class := (Some $"NSNumber"); om_overriding := false; om_overridden := []; om_bodyLines := (0)%Z |} [(Node 14 [] (VarDecl {| v_isParm := true; v_name := $"value"; v_used := false; v_referenced := false; v_local := false; v_staticMember := false; v_private := false; v_unusedAttr := false; v_defaultArg := false; v_canonicalType := $"long long"; v_inTemplate := false; v_contexts := [CxObjCMethod true false false false; CxOther] |} None))] None)); (Node 15 [] (ObjCMethodDecl {| om_selector := $"numberWithUnsignedLongLong:"; om_class := (Some $"NSNumber"); om_overriding := false; om_overridden := []; om_bodyLines := (0)%Z |} [(Node 16 [] (VarDecl {| v_isParm := true; v_name := $"value"; v_used := false; v_referenced := false; v_local := false; v_staticMember := false; v_private := false; v_unusedAttr := false; v_defaultArg := false; v_canonicalType := $"unsigned long long"; v_inTemplate := false; v_contexts := [CxObjCMethod true false false false; CxOther] |} None))] None)); (Node 17 [] (ObjCMethodDecl {| om_selector := $"numberWithFloat:"; om_class := (Some $"NSNumber"); om_overriding := false; om_overridden := []; om_bodyLines := (0)%Z |} [(Node 18 [] (VarDecl {| v_isParm := true; v_name := $"value"; v_used := false; v_referenced := false; v_local := false; v_staticMember := false; v_private := false; v_unusedAttr := false; v_defaultArg := false; v_canonicalType := $"float"; v_inTemplate := false; v_contexts := [CxObjCMethod true false false false; CxOther] |} None))] None)); (Node 19 [] (ObjCMethodDecl {| om_selector := $"numberWithDouble:"; om_class := (Some $"NSNumber"); om_overriding := false; om_overridden := []; om_bodyLines := (0)%Z |} [(Node 20 [] (VarDecl {| v_isParm := true; v_name := $"value"; v_used := false; v_referenced := false; v_local := false; v_staticMember := false; v_private := false; v_unusedAttr := false; v_defaultArg := false; v_canonicalType := $"double"; v_inTemplate := false; v_contexts := [CxObjCMethod true false false false; CxOther] |} None))] None)); (Node 21 [] (ObjCMethodDecl {| om_selector := $"numberWithBool:"; om_class := (Some $"NSNumber"); om_overriding := false; om_overridden := []; om_bodyLines := (0)%Z |} [(Node 22 [] (VarDecl {| v_isParm := true; v_name := $"value"; v_used := false; v_referenced := false; v_local := false; v_staticMember := false; v_private := false; v_unusedAttr := false; v_defaultArg := false; v_canonicalType := $"signed char"; v_inTemplate := false; v_contexts := [CxObjCMethod true false false false; CxOther] |} None))] None)); (Node 23 [] (ObjCMethodDecl {| om_selector := $"numberWithUnsignedChar:"; om_class := (Some $"NSNumber"); om_overriding := false; om_overridden := []; om_bodyLines := (0)%Z |} [(Node 24 [] (VarDecl {| v_isParm := true; v_name := $"value"; v_used := false; v_referenced := false; v_local := false; v_staticMember := false; v_private := false; v_unusedAttr := false; v_defaultArg := false; v_canonicalType := $"unsigned char"; v_inTemplate := false; v_contexts := [CxObjCMethod true false false false; CxOther] |} None))] None))]))); (toplevel 25 (TFunction false), (Node 25 [] (FunctionDecl {| f_name := $"m"; f_method := None; f_isDefinition := true; f_bodyLines := (1)%Z |} [] (Some (Node 26 [] (CompoundStmt [(Node 27 [] (DeclStmt [(Node 28 [] (VarDecl {| v_isParm := false; v_name := $"fortyTwoLong"; v_used := false; v_referenced := false; v_local := true; v_staticMember := false; v_private := false; v_unusedAttr := false; v_defaultArg := false; v_canonicalType := $"NSNumber *"; v_inTemplate := false; v_contexts := [CxFunction true true false] |} (Some (Node 29 $"NSNumber *" (ObjCMessageExpr {| ms_selector := $"numberWithLong:"; ms_receiver := (RClass $"NSNumber"); ms_implicit := false; ms_interface := (Some $"NSNumber"); ms_method := (Some (Decl [] (Some (Method false None (InOther (Some NoCategory)))))); ms_methodClass := (Some $"NSNumber") |} None [(Node 30 $"long" (ParenExpr (Node 31 $"long" (BinaryOperator BO_Other (Node 32 $"long" (IntegerLiteral (43)%Z)) (Node 33 $"long" (IntegerLiteral (1)%Z))))))])))))]))]))))))];
     ts_locs := [(2,1,2,21); (3,1,4,2); (5,1,17,2); (6,1,6,41); (6,31,6,36); (7,1,7,39); (7,30,7,34); (8,1,8,56); (8,38,8,51); (9,1,9,41); (9,31,9,36); (10,1,10,58); (10,39,10,53); (11,1,11,50); (11,35,11,45); (12,1,12,67); (12,43,12,62); (13,1,13,43); (13,32,13,38); (14,1,14,45); (14,33,14,40); (15,1,15,41); (15,31,15,36); (16,1,16,58); (16,39,16,53); (18,1,18,75); (18,10,18,75); (18,12,18,73); (18,12,18,72); (18,37,18,72); (18,62,18,71); (18,63,18,69); (18,63,18,63); (18,69,18,69)]%Z;
     ts_evals := []; ts_same := []; ts_decls := []; ts_parents := [] |}.
Example ObjCNSNumberLiterals_NumberWithBoxedLong_holds : sorted_violations_of (shippedRule sh_ObjCNSNumberLiterals) ObjCNSNumberLiterals_NumberWithBoxedLong = Some [].
Proof. vm_compute. reflexivity. Qed.

Definition ObjCNSNumberLiterals_UnsignedLongLiteral : testcase :=
  {| ts_lang := LObjC; ts_path := $"input.m"; ts_code := [];
     ts_comments := []; ts_conf := [];
     ts_tops := [(toplevel 0 (TOther), (Node 0 [] (OtherDecl []))); (toplevel 1 (TOther), (Node 1 [] (ObjCContainerDecl {| oc_kind := OKInterface; oc_name := $"NSObject"; oc_lines := (2)%Z; oc_ivars := 0; oc_methods := []; oc_classes := [$"NSObject"]; oc_superMethods := None |} []))); (toplevel 2 (TOther), (Node 2 [] (ObjCContainerDecl {| oc_kind := OKInterface; oc_name := $"NSNumber"; oc_lines := (13)%Z; oc_ivars := 0; oc_methods := [($"numberWithChar:", false); ($"numberWithInt:", false); ($"numberWithUnsignedInt:", false); ($"numberWithLong:", false); ($"numberWithUnsignedLong:", false); ($"numberWithLongLong:", false); ($"numberWithUnsignedLongLong:", false); ($"numberWithFloat:", false); ($"numberWithDouble:", false); ($"numberWithBool:", false); ($"numberWithUnsignedChar:", false)]; oc_classes := [$"NSNumber"; $"NSObject"]; oc_superMethods := (Some ($"NSObject", [])) |} [(Node 3 [] (ObjCMethodDecl {| om_selector := $"numberWithChar:"; om_class := (Some $"NSNumber"); om_overriding := false; om_overridden := []; om_bodyLines := (0)%Z |} [(Node 4 [] (VarDecl {| v_isParm := true; v_name := $"value"; v_used := false; v_referenced := false; v_local := false; v_staticMember := false; v_private := false; v_unusedAttr := false; v_defaultArg := false; v_canonicalType := $"char"; v_inTemplate := false; v_contexts := [CxObjCMethod true false false false; CxOther] |} None))] None)); (Node 5 [] (ObjCMethodDecl {| om_selector := $"numberWithInt:"; om_class := (Some $"NSNumber"); om_overriding := false; om_overridden := []; om_bodyLines := (0)%Z |} [(Node 6 [] (VarDecl {| v_isParm := true; v_name := $"value"; v_used := false; v_referenced := false; v_local := false; v_staticMember := false; v_private := false; v_unusedAttr := false; v_defaultArg := false; v_canonicalType := $"int"; v_inTemplate := false; v_contexts := [CxObjCMethod true false false false; CxOther] |} None))] None)); (Node 7 [] (ObjCMethodDecl {| om_selector := $"numberWithUnsignedInt:"; om_class := (Some $"NSNumber"); om_overriding := false; om_overridden := []; om_bodyLines := (0)%Z |} [(Node 8 [] (VarDecl {| v_isParm := true; v_name := $"value"; v_used := false; v_referenced := false; v_local := false; v_staticMember := false; v_private := false; v_unusedAttr := false; v_defaultArg := false; v_canonicalType := $"unsigned int"; v_inTemplate := false; v_contexts := [CxObjCMethod true false false false; CxOther] |} None))] None)); (Node 9 [] (ObjCMethodDecl {| om_selector := $"numberWithLong:"; om_class := (Some $"NSNumber"); om_overriding := false; om_overridden := []; om_bodyLines := (0)%Z |} [(Node 10 [] (VarDecl {| v_isParm := true; v_name := $"value"; v_used := false; v_referenced := false; v_local := false; v_staticMember := false; v_private := false; v_unusedAttr := false; v_defaultArg := false; v_canonicalType := $"long"; v_inTemplate := false; v_contexts := [CxObjCMethod true false false false; CxOther] |} None))] None)); (Node 11 [] (ObjCMethodDecl {| om_selector := $"numberWithUnsignedLong:"; om_class := (Some $"NSNumber"); om_overriding := false; om_overridden := []; om_bodyLines := (0)%Z |} [(Node 12 [] (VarDecl {| v_isParm := true; v_name := $"value"; v_used := false; v_referenced := false; v_local := false; v_staticMember := false; v_private := false; v_unusedAttr := false; v_defaultArg := false; v_canonicalType := $"unsigned long"; v_inTemplate := false; v_contexts := [CxObjCMethod true false false false; CxOther] |} None))] None)); (Node 13 [] (ObjCMethodDecl {| om_selector := $"numberWithLongLong:"; om_class := (Some $"NSNumber"); om_overriding := false; om_overridden := []; om_bodyLines := (0)%Z |} [(Node 14 [] (VarDecl {| v_isParm := true; v_name := $"value"; v_used := false; v_referenced := false; v_local := false; v_staticMember := false; v_private := false; v_unusedAttr := false; v_defaultArg := false; v_canonicalType := $"long long"; v_inTemplate := false; v_contexts := [CxObjCMethod true false false false; CxOther] |} None))] None)); (Node 15 [] (ObjCMethodDecl {| om_selector := $"numberWithUnsignedLongLong:"; om_class := (Some $"NSNumber"); om_overriding := false; om_overridden := []; om_bodyLines := (0)%Z |} [(Node 16 [] (VarDecl {| v_isParm := true; v_name := $"value"; v_used := false; v_referenced := false; v_local := false; v_staticMember := false; v_private := false; v_unusedAttr := false; v_defaultArg := false; v_canonicalType := $"unsigned long long"; v_inTemplate := false; v_contexts := [CxObjCMethod true false false false; CxOther] |} None))] None)); (Node 17 [] (ObjCMethodDecl {| om_selector := $"numberWithFloat:"; om_class := (Some $"NSNumber"); om_overriding := false; om_overridden := []; om_bodyLines := (0)%Z |} [(Node 18 [] (VarDecl {| v_isParm := true; v_name := $"value"; v_used := false; v_referenced := false; v_local := false; v_staticMember := false; v_private := false; v_unusedAttr := false; v_defaultArg := false; v_canonicalType := $"float"; v_inTemplate := false; v_contexts := [CxObjCMethod true false false false; CxOther] |} None))] None)); (Node 19 [] (ObjCMethodDecl {| om_selector := $"numberWithDouble:"; om_class := (Some $"NSNumber"); om_overriding := false; om_overridden := []; om_bodyLines := (0)%Z |} [(Node 20 [] (VarDecl {| v_isParm := true; v_name := $"value"; v_used := false; v_referenced := false; v_local := false; v_staticMember := false; v_private := false; v_unusedAttr := false; v_defaultArg := false; v_canonicalType := $"double"; v_inTemplate := false; v_contexts := [CxObjCMethod true false false false; CxOther] |} None))] None)); (Node 21 [] (ObjCMethodDecl {| om_selector := $"numberWithBool:"; om_class := (Some $"NSNumber"); om_overriding := false; om_overridden := []; om_bodyLines := (0)%Z |} [(Node 22 [] (VarDecl {| v_isParm := true; v_name := $"value"; v_used := false; v_referenced := false; v_local := false; v_staticMember := false; v_private := false; v_unusedAttr := false; v_defaultArg := false; v_canonicalType := $"signed char"; v_inTemplate := false; v_contexts := [CxObjCMethod true false false false; CxOther] |} None))] None)); (Node 23 [] (ObjCMethodDecl {| om_selector := $"numberWithUnsignedChar:"; om_class := (Some $"NSNumber"); om_overriding := false; om_overridden := []; om_bodyLines := (0)%Z |} [(Node 24 [] (VarDecl {| v_isParm := true; v_name := $"value"; v_used := false; v_referenced := false; v_local := false; v_staticMember := false; v_private := false; v_unusedAttr := false; v_defaultArg := false; v_canonicalType := $"unsigned char"; v_inTemplate := false; v_contexts := [CxObjCMethod true false false false; CxOther] |} None))] None))]))); (toplevel 25 (TFunction false), (Node 25 [] (FunctionDecl {| f_name := $"m"; f_method := None; f_isDefinition := true; f_bodyLines := (1)%Z |} [] (Some (Node 26 [] (CompoundStmt [(Node 27 [] (DeclStmt [(Node 28 [] (VarDecl {| v_isParm := false; v_name := $"fortyTwoUnsignedLong"; v_used := false; v_referenced := false; v_local := true; v_staticMember := false; v_private := false; v_unusedAttr := false; v_defaultArg := false; v_canonicalType := $"NSNumber *"; v_inTemplate := false; v_contexts := [CxFunction true true false] |} (Some (Node 29 $"NSNumber *" (OtherExpr [(Node 30 $"unsigned long" (IntegerLiteral (42)%Z))])))))]))]))))))];
     ts_locs := [(2,1,2,21); (3,1,4,2); (5,1,17,2); (6,1,6,41); (6,31,6,36); (7,1,7,39); (7,30,7,34); (8,1,8,56); (8,38,8,51); (9,1,9,41); (9,31,9,36); (10,1,10,58); (10,39,10,53); (11,1,11,50); (11,35,11,45); (12,1,12,67); (12,43,12,62); (13,1,13,43); (13,32,13,38); (14,1,14,45); (14,33,14,40); (15,1,15,41); (15,31,15,36); (16,1,16,58); (16,39,16,53); (18,1,18,52); (18,10,18,52); (18,12,18,50); (18,12,18,46); (18,45,18,46); (18,46,18,46)]%Z;
     ts_evals := []; ts_same := []; ts_decls := []; ts_parents := [] |}.
Example ObjCNSNumberLiterals_UnsignedLongLiteral_holds : sorted_violations_of (shippedRule sh_ObjCNSNumberLiterals) ObjCNSNumberLiterals_UnsignedLongLiteral = Some [].
Proof. vm_compute. reflexivity. Qed.

Definition ObjCNSNumberLiterals_NumberWithUnsignedLong : testcase :=
  {| ts_lang := LObjC; ts_path := $"input.m"; ts_code := [];
     ts_comments := []; ts_conf := [];
     ts_tops := [(toplevel 0 (TOther), (Node 0 [] (OtherDecl []))); (toplevel 1 (TOther), (Node 1 [] (ObjCContainerDecl {| oc_kind := OKInterface; oc_name := $"NSObject"; oc_lines := (2)%Z; oc_ivars := 0; oc_methods := []; oc_classes := [$"NSObject"]; oc_superMethods := None |} []))); (toplevel 2 (TOther), (Node 2 [] (ObjCContainerDecl {| oc_kind := OKInterface; oc_name := $"NSNumber"; oc_lines := (13)%Z; oc_ivars := 0; oc_methods := [($"numberWithChar:", false); ($"numberWithInt:", false); ($"numberWithUnsignedInt:", false); ($"numberWithLong:", false); ($"numberWithUnsignedLong:", false); ($"numberWithLongLong:", false); ($"numberWithUnsignedLongLong:", false); ($"numberWithFloat:", false); ($"numberWithDouble:", false); ($"numberWithBool:", false); ($"numberWithUnsignedChar:", false)]; oc_classes := [$"NSNumber"; $"NSObject"]; oc_superMethods := (Some ($"NSObject", [])) |} [(Node 3 [] (ObjCMethodDecl {| om_selector := $"numberWithChar:"; om_class := (Some $"NSNumber"); om_overriding := false; om_overridden := []; om_bodyLines := (0)%Z |} [(Node 4 [] (VarDecl {| v_isParm := true; v_name := $"value"; v_used := false; v_referenced := false; v_local := false; v_staticMember := false; v_private := false; v_unusedAttr := false; v_defaultArg := false; v_canonicalType := $"char"; v_inTemplate := false; v_contexts := [CxObjCMethod true false false false; CxOther] |} None))] None)); (Node 5 [] (ObjCMethodDecl {| om_selector := $"numberWithInt:"; om_class := (Some $"NSNumber"); om_overriding := false; om_overridden := []; om_bodyLines := (0)%Z |} [(Node 6 [] (VarDecl {| v_isParm := true; v_name := $"value"; v_used := false; v_referenced := false; v_local := false; v_staticMember := false; v_private := false; v_unusedAttr := false; v_defaultArg := false; v_canonicalType := $"int"; v_inTemplate := false; v_contexts := [CxObjCMethod true false false false; CxOther] |} None))] None)); (Node 7 [] (ObjCMethodDecl {| om_selector := $"numberWithUnsignedInt:"; om_class := (Some $"NSNumber"); om_overriding := false; om_overridden := []; om_bodyLines := (0)%Z |} [(Node 8 [] (VarDecl {| v_isParm := true; v_name := $"value"; v_used := false; v_referenced := false; v_local := false; v_staticMember := false; v_private := false; v_unusedAttr := false; v_defaultArg := false; v_canonicalType := $"unsigned int"; v_inTemplate := false; v_contexts := [CxObjCMethod true false false false; CxOther] |} None))] None)); (Node 9 [] (ObjCMethodDecl {| om_selector := $"numberWithLong:"; om_class := (Some $"NSNumber"); om_overriding := false; om_overridden := []; om_bodyLines := (0)%Z |} [(Node 10 [] (VarDecl {| v_isParm := true; v_name := $"value"; v_used := false; v_referenced := false; v_local := false; v_staticMember := false; v_private := false; v_unusedAttr := false; v_defaultArg := false; v_canonicalType := $"long"; v_inTemplate := false; v_contexts := [CxObjCMethod true false false false; CxOther] |} None))] None)); (Node 11 [] (ObjCMethodDecl {| om_selector := $"numberWithUnsignedLong:"; om_class := (Some $"NSNumber"); om_overriding := false; om_overridden := []; om_bodyLines := (0)%Z |} [(Node 12 [] (VarDecl {| v_isParm := true; v_name := $"value"; v_used := false; v_referenced := false; v_local := false; v_staticMember := false; v_private := false; v_unusedAttr := false; v_defaultArg := false; v_canonicalType := $"unsigned long"; v_inTemplate := false; v_contexts := [CxObjCMethod true false false false; CxOther] |} None))] None)); (Node 13 [] (ObjCMethodDecl {| om_selector := $"numberWithLongLong:"; om_class := (Some $"NSNumber"); om_overriding := false; om_overridden := []; om_bodyLines := (0)%Z |} [(Node 14 [] (VarDecl {| v_isParm := true; v_name := $"value"; v_used := false; v_referenced := false; v_local := false; v_staticMember := false; v_private := false; v_unusedAttr := false; v_defaultArg := false; v_canonicalType := $"long long"; v_inTemplate := false; v_contexts := [CxObjCMethod true false false false; CxOther] |} None))] None)); (Node 15 [] (ObjCMethodDecl {| om_selector := $"numberWithUnsignedLongLong:"; om_class := (Some $"NSNumber"); om_overriding := false; om_overridden := []; om_bodyLines := (0)%Z |} [(Node 16 [] (VarDecl {| v_isParm := true; v_name := $"value"; v_used := false; v_referenced := false; v_local := false; v_staticMember := false; v_private := false; v_unusedAttr := false; v_defaultArg := false; v_canonicalType := $"unsigned long long"; v_inTemplate := false; v_contexts := [CxObjCMethod true false false false; CxOther] |} None))] None)); (Node 17 [] (ObjCMethodDecl {| om_selector := $"numberWithFloat:"; om_class := (Some $"NSNumber"); om_overriding := false; om_overridden := []; om_bodyLines := (0)%Z |} [(Node 18 [] (VarDecl {| v_isParm := true; v_name := $"value"; v_used := false; v_referenced := false; v_local := false; v_staticMember := false; v_private := false; v_unusedAttr := false; v_defaultArg := false; v_canonicalType := $"float"; v_inTemplate := false; v_contexts := [CxObjCMethod true false false false; CxOther] |} None))] None)); (Node 19 [] (ObjCMethodDecl {| om_selector := $"numberWithDouble:"; om_class := (Some $"NSNumber"); om_overriding := false; om_overridden := []; om_bodyLines := (0)%Z |} [(Node 20 [] (VarDecl {| v_isParm := true; v_name := $"value"; v_used := false; v_referenced := false; v_local := false; v_staticMember := false; v_private := false; v_unusedAttr := false; v_defaultArg := false; v_canonicalType := $"double"; v_inTemplate := false; v_contexts := [CxObjCMethod true false false false; CxOther] |} None))] None)); (Node 21 [] (ObjCMethodDecl {| om_selector := $"numberWithBool:"; om_class := (Some $"NSNumber"); om_overriding := false; om_overridden := []; om_bodyLines := (0)%Z |} [(Node 22 [] (VarDecl {| v_isParm := true; v_name := $"value"; v_used := false; v_referenced := false; v_local := false; v_staticMember := false; v_private := false; v_unusedAttr := false; v_defaultArg := false; v_canonicalType := $"signed char"; v_inTemplate := false; v_contexts := [CxObjCMethod true false false false; CxOther] |} None))] None)); (Node 23 [] (ObjCMethodDecl {| om_selector := $"numberWithUnsignedChar:"; om_class := (Some $"NSNumber"); om_overriding := false; om_overridden := []; om_bodyLines := (0)%Z |} [(Node 24 [] (VarDecl {| v_isParm := true; v_name := $"value"; v_used := false; v_referenced := false; v_local := false; v_staticMember := false; v_private := false; v_unusedAttr := false; v_defaultArg := false; v_canonicalType := $"unsigned char"; v_inTemplate := false; v_contexts := [CxObjCMethod true false false false; CxOther] |} None))] None))]))); (toplevel 25 (TFunction false), (Node 25 [] (FunctionDecl {| f_name := $"m"; f_method := None; f_isDefinition := true; f_bodyLines := (1)%Z |} [] (Some (Node 26 [] (CompoundStmt [(Node 27 [] (DeclStmt [(Node 28 [] (VarDecl {| v_isParm := false; v_name := $"fortyTwoUnsignedLong"; v_used := false; v_referenced := false; v_local := true; v_staticMember := false; v_private := false; v_unusedAttr := false; v_defaultArg := false; v_canonicalType := $"NSNumber *"; v_inTemplate := false; v_contexts := [CxFunction true true false] |} (Some (Node 29 $"NSNumber *" (ObjCMessageExpr {| ms_selector := $"numberWithUnsignedLong:"; ms_receiver := (RClass $"NSNumber"); ms_implicit := false; ms_interface := (Some $"NSNumber"); ms_method := (Some (Decl [] (Some (Method false None (InOther (Some NoCategory)))))); ms_methodClass := (Some $"NSNumber") |} None [(Node 30 $"unsigned long" (IntegerLiteral (42)%Z))])))))]))]))))))];
     ts_locs := [(2,1,2,21); (3,1,4,2); (5,1,17,2); (6,1,6,41); (6,31,6,36); (7,1,7,39); (7,30,7,34); (8,1,8,56); (8,38,8,51); (9,1,9,41); (9,31,9,36); (10,1,10,58); (10,39,10,53); (11,1,11,50); (11,35,11,45); (12,1,12,67); (12,43,12,62); (13,1,13,43); (13,32,13,38); (14,1,14,45); (14,33,14,40); (15,1,15,41); (15,31,15,36); (16,1,16,58); (16,39,16,53); (18,1,18,85); (18,10,18,85); (18,12,18,83); (18,12,18,82); (18,45,18,82); (18,78,18,78)]%Z;
     ts_evals := []; ts_same := []; ts_decls := []; ts_parents := [] |}.
Example ObjCNSNumberLiterals_NumberWithUnsignedLong_holds : nth_violation (shippedRule sh_ObjCNSNumberLiterals) ObjCNSNumberLiterals_NumberWithUnsignedLong 0 = Some (18, 45, 18, 82, $"")%Z.
Proof. vm_compute. reflexivity. Qed.

Definition ObjCNSNumberLiterals_NumberWithUnsignedLong_2 : testcase :=
  {| ts_lang := LObjC; ts_path := $"input.m"; ts_code := [];
     ts_comments := []; ts_conf := [];
     ts_tops := [(toplevel 0 (TOther), (Node 0 [] (OtherDecl []))); (toplevel 1 (TOther), (Node 1 [] (ObjCContainerDecl {| oc_kind := OKInterface; oc_name := $"NSObject"; oc_lines := (2)%Z; oc_ivars := 0; oc_methods := []; oc_classes := [$"NSObject"]; oc_superMethods := None |} []))); (toplevel 2 (TOther), (Node 2 [] (ObjCContainerDecl {| oc_kind := OKInterface; oc_name := $"NSNumber"; oc_lines := (13)%Z; oc_ivars := 0; oc_methods := [($"numberWithChar:", false); ($"numberWithInt:", false); ($"numberWithUnsignedInt:", false); ($"numberWithLong:", false); ($"numberWithUnsignedLong:", false); ($"numberWithLongLong:", false); ($"numberWithUnsignedLongLong:", false); ($"numberWithFloat:", false); ($"numberWithDouble:", false); ($"numberWithBool:", false); ($"numberWithUnsignedChar:", false)]; oc_classes := [$"NSNumber"; $"NSObject"]; oc_superMethods := (Some ($"NSObject", [])) |} [(Node 3 [] (ObjCMethodDecl {| om_selector := $"numberWithChar:"; om_class := (Some $"NSNumber"); om_overriding := false; om_overridden := []; om_bodyLines := (0)%Z |} [(Node 4 [] (VarDecl {| v_isParm := true; v_name := $"value"; v_used := false; v_referenced := false; v_local := false; v_staticMember := false; v_private := false; v_unusedAttr := false; v_defaultArg := false; v_canonicalType := $"char"; v_inTemplate := false; v_contexts := [CxObjCMethod true false false false; CxOther] |} None))] None)); (Node 5 [] (ObjCMethodDecl {| om_selector := $"numberWithInt:"; om_class := (Some $"NSNumber"); om_overriding := false; om_overridden := []; om_bodyLines := (0)%Z |} [(Node 6 [] (VarDecl {| v_isParm := true; v_name := $"value"; v_used := false; v_referenced := false; v_local := false; v_staticMember := false; v_private := false; v_unusedAttr := false; v_defaultArg := false; v_canonicalType := $"int"; v_inTemplate := false; v_contexts := [CxObjCMethod true false false false; CxOther] |} None))] None)); (Node 7 [] (ObjCMethodDecl {| om_selector := $"numberWithUnsignedInt:"; om_class := (Some $"NSNumber"); om_overriding := false; om_overridden := []; om_bodyLines := (0)%Z |} [(Node 8 [] (VarDecl {| v_isParm := true; v_name := $"value"; v_used := false; v_referenced := false; v_local := false; v_staticMember := false; v_private := false; v_unusedAttr := false; v_defaultArg := false; v_canonicalType := $"unsigned int"; v_inTemplate := false; v_contexts := [CxObjCMethod true false false false; CxOther] |} None))] None)); (Node 9 [] (ObjCMethodDecl {| om_selector := $"numberWithLong:"; om_class := (Some $"NSNumber"); om_overriding := false; om_overridden := []; om_bodyLines := (0)%Z |} [(Node 10 [] (VarDecl {| v_isParm := true; v_name := $"value"; v_used := false; v_referenced := false; v_local := false; v_staticMember := false; v_private := false; v_unusedAttr := false; v_defaultArg := false; v_canonicalType := $"long"; v_inTemplate := false; v_contexts := [CxObjCMethod true false false false; CxOther] |} None))] None)); (Node 11 [] (ObjCMethodDecl {| om_selector := $"numberWithUnsignedLong:"; om_class := (Some $"NSNumber"); om_overriding := false; om_overridden := []; om_bodyLines := (0)%Z |} [(Node 12 [] (VarDecl {| v_isParm := true; v_name := $"value"; v_used := false; v_referenced := false; v_local := false; v_staticMember := false; v_private := false; v_unusedAttr := false; v_defaultArg := false; v_canonicalType := $"unsigned long"; v_inTemplate := false; v_contexts := [CxObjCMethod true false false false; CxOther] |} None))] None)); (Node 13 [] (ObjCMethodDecl {| om_selector := $"numberWithLongLong:"; om_class := (Some $"NSNumber"); om_overriding := false; om_overridden := []; om_bodyLines := (0)%Z |} [(Node 14 [] (VarDecl {| v_isParm := true; v_name := $"value"; v_used := false; v_referenced := false; v_local := false; v_staticMember := false; v_private := false; v_unusedAttr := false; v_defaultArg := false; v_canonicalType := $"long long"; v_inTemplate := false; v_contexts := [CxObjCMethod true false false false; CxOther] |} None))] None)); (Node 15 [] (ObjCMethodDecl {| om_selector := $"numberWithUnsignedLongLong:"; om_class := (Some $"NSNumber"); om_overriding := false; om_overridden := []; om_bodyLines := (0)%Z |} [(Node 16 [] (VarDecl {| v_isParm := true; v_name := $"value"; v_used := false; v_referenced := false; v_local := false; v_staticMember := false; v_private := false; v_unusedAttr := false; v_defaultArg := false; v_canonicalType := $"unsigned long long"; v_inTemplate := false; v_contexts := [CxObjCMethod true false false false; CxOther] |} None))] None)); (Node 17 [] (ObjCMethodDecl {| om_selector := $"numberWithFloat:"; om_class := (Some $"NSNumber"); om_overriding := false; om_overridden := []; om_bodyLines := (0)%Z |} [(Node 18 [] (VarDecl {| v_isParm := true; v_name := $"value"; v_used := false; v_referenced := false; v_local := false; v_staticMember := false; v_private := false; v_unusedAttr := false; v_defaultArg := false; v_canonicalType := $"float"; v_inTemplate := false; v_contexts := [CxObjCMethod true false false false; CxOther] |} None))] None)); (Node 19 [] (ObjCMethodDecl {| om_selector := $"numberWithDouble:"; om_class := (Some $"NSNumber"); om_overriding := false; om_overridden := []; om_bodyLines := (0)%Z |} [(Node 20 [] (VarDecl {| v_isParm := true; v_name := $"value"; v_used := false; v_referenced := false; v_local := false; v_staticMember := false; v_private := false; v_unusedAttr := false; v_defaultArg := false; v_canonicalType := $"double"; v_inTemplate := false; v_contexts := [CxObjCMethod true false false false; CxOther] |} None))] None)); (Node 21 [] (ObjCMethodDecl {| om_selector := $"numberWithBool:"; om_class := (Some $"NSNumber"); om_overriding := false; om_overridden := []; om_bodyLines := (0)%Z |} [(Node 22 [] (VarDecl {| v_isParm := true; v_name := $"value"; v_used := false; v_referenced := false; v_local := false; v_staticMember := false; v_private := false; v_unusedAttr := false; v_defaultArg := false; v_canonicalType := $"signed char"; v_inTemplate := false; v_contexts := [CxObjCMethod true false false false; CxOther] |} None))] None)); (Node 23 [] (ObjCMethodDecl {| om_selector := $"numberWithUnsignedChar:"; om_class := (Some $"NSNumber"); om_overriding := false; om_overridden := []; om_bodyLines := (0)%Z |} [(Node 24 [] (VarDecl {| v_isParm := true; v_name := $"value"; v_used := false; v_referenced := false; v_local := false; v_staticMember := false; v_private := false; v_unusedAttr := false; v_defaultArg := false; v_canonicalType := $"unsigned char"; v_inTemplate := false; v_contexts := [CxObjCMethod true false false false; CxOther] |} None))] None))]))); (toplevel 25 (TFunction false), (Node 25 [] (FunctionDecl {| f_name := $"m"; f_method := None; f_isDefinition := true; f_bodyLines := (1)%Z |} [] (Some (Node 26 [] (CompoundStmt [(Node 27 [] (DeclStmt [(Node 28 [] (VarDecl {| v_isParm := false; v_name := $"fortyTwoUnsignedLong"; v_used := false; v_referenced := false; v_local := true; v_staticMember := false; v_private := false; v_unusedAttr := false; v_defaultArg := false; v_canonicalType := $"NSNumber *"; v_inTemplate := false; v_contexts := [CxFunction true true false] |} (Some (Node 29 $"NSNumber *" (ObjCMessageExpr {| ms_selector := $"numberWithUnsignedLong:"; ms_receiver := (RClass $"NSNumber"); ms_implicit := false; ms_interface := (Some $"NSNumber"); ms_method := (Some (Decl [] (Some (Method false None (InOther (Some NoCategory)))))); ms_methodClass := (Some $"NSNumber") |} None [(Node 30 $"unsigned long" (IntegerLiteral (42)%Z))])))))]))]))))))];
     ts_locs := [(2,1,2,21); (3,1,4,2); (5,1,17,2); (6,1,6,41); (6,31,6,36); (7,1,7,39); (7,30,7,34); (8,1,8,56); (8,38,8,51); (9,1,9,41); (9,31,9,36); (10,1,10,58); (10,39,10,53); (11,1,11,50); (11,35,11,45); (12,1,12,67); (12,43,12,62); (13,1,13,43); (13,32,13,38); (14,1,14,45); (14,33,14,40); (15,1,15,41); (15,31,15,36); (16,1,16,58); (16,39,16,53); (18,1,18,85); (18,10,18,85); (18,12,18,83); (18,12,18,82); (18,45,18,82); (18,78,18,78)]%Z;
     ts_evals := []; ts_same := []; ts_decls := []; ts_parents := [] |}.
Example ObjCNSNumberLiterals_NumberWithUnsignedLong_2_holds : nth_violation (shippedRule sh_ObjCNSNumberLiterals) ObjCNSNumberLiterals_NumberWithUnsignedLong_2 0 = Some (18, 45, 18, 82, $"")%Z.
Proof. vm_compute. reflexivity. Qed.

Definition ObjCNSNumberLiterals_NumberWithBoxedUnsignedLong : testcase :=
  {| ts_lang := LObjC; ts_path := $"input.m"; ts_code := [];
     ts_comments := []; ts_conf := [];
     ts_tops := [(toplevel 0 (TOther), (Node 0 [] (OtherDecl []))); (toplevel 1 (TOther), (Node 1 [] (ObjCContainerDecl {| oc_kind := OKInterface; oc_name := $"NSObject"; oc_lines := (2)%Z; oc_ivars := 0; oc_methods := []; oc_classes := [$"NSObject"]; oc_superMethods := None |} []))); (toplevel 2 (TOther), (Node 2 [] (ObjCContainerDecl {| oc_kind := OKInterface; oc_name := $"NSNumber"; oc_lines := (13)%Z; oc_ivars := 0; oc_methods := [($"numberWithChar:", false); ($"numberWithInt:", false); ($"numberWithUnsignedInt:", false); ($"numberWithLong:", false); ($"numberWithUnsignedLong:", false); ($"numberWithLongLong:", false); ($"numberWithUnsignedLongLong:", false); ($"numberWithFloat:", false); ($"numberWithDouble:", false); ($"numberWithBool:", false); ($"numberWithUnsignedChar:", false)]; oc_classes := [$"NSNumber"; $"NSObject"]; oc_superMethods := (Some ($"NSObject", [])) |} [(Node 3 [] (ObjCMethodDecl {| om_selector := $"numberWithChar:"; om_class := (Some $"NSNumber"); om_overriding := false; om_overridden := []; om_bodyLines := (0)%Z |} [(Node 4 [] (VarDecl {| v_isParm := true; v_name := $"value"; v_used := false; v_referenced := false; v_local := false; v_staticMember := false; v_private := false; v_unusedAttr := false; v_defaultArg := false; v_canonicalType := $"char"; v_inTemplate := false; v_contexts := [CxObjCMethod true false false false; CxOther] |} None))] None)); (Node 5 [] (ObjCMethodDecl {| om_selector := $"numberWithInt:"; om_class := (Some $"NSNumber"); om_overriding := false; om_overridden := []; om_bodyLines := (0)%Z |} [(Node 6 [] (VarDecl {| v_isParm := true; v_name := $"value"; v_used := false; v_referenced := false; v_local := false; v_staticMember := false; v_private := false; v_unusedAttr := false; v_defaultArg := false; v_canonicalType := $"int"; v_inTemplate := false; v_contexts := [CxObjCMethod true false false false; CxOther] |} None))] None)); (Node 7 [] (ObjCMethodDecl {| om_selector := $"numberWithUnsignedInt:"; om_class := (Some $"NSNumber"); om_overriding := false; om_overridden := []; om_bodyLines := (0)%Z |} [(Node 8 [] (VarDecl {| v_isParm := true; v_name := $"value"; v_used := false; v_referenced := false; v_local := false; v_staticMember := false; v_private := false; v_unusedAttr := false; v_defaultArg := false; v_canonicalType := $"unsigned int"; v_inTemplate := false; v_contexts := [CxObjCMethod true false false false; CxOther] |} None))] None)); (Node 9 [] (ObjCMethodDecl {| om_selector := $"numberWithLong:"; om_class := (Some $"NSNumber"); om_overriding := false; om_overridden := []; om_bodyLines := (0)%Z |} [(Node 10 [] (VarDecl {| v_isParm := true; v_name := $"value"; v_used := false; v_referenced := false; v_local := false; v_staticMember := false; v_private := false; v_unusedAttr := false; v_defaultArg := false; v_canonicalType := $"long"; v_inTemplate := false; v_contexts := [CxObjCMethod true false false false; CxOther] |} None))] None)); (Node 11 [] (ObjCMethodDecl {| om_selector := $"numberWithUnsignedLong:"; om_class := (Some $"NSNumber"); om_overriding := false; om_overridden := []; om_bodyLines := (0)%Z |} [(Node 12 [] (VarDecl {| v_isParm := true; v_name := $"value"; v_used := false; v_referenced := false; v_local := false; v_staticMember := false; v_private := false; v_unusedAttr := false; v_defaultArg := false; v_canonicalType := $"unsigned long"; v_inTemplate := false; v_contexts := [CxObjCMethod true false false false; CxOther] |} None))] None)); (Node 13 [] (ObjCMethodDecl {| om_selector := $"numberWithLongLong:"; om_class := (Some $"NSNumber"); om_overriding := false; om_overridden := []; om_bodyLines := (0)%Z |} [(Node 14 [] (VarDecl {| v_isParm := true; v_name := $"value"; v_used := false; v_referenced := false; v_local := false; v_staticMember := false; v_private := false; v_unusedAttr := false; v_defaultArg := false; v_canonicalType := $"long long"; v_inTemplate := false; v_contexts := [CxObjCMethod true false false false; CxOther] |} None))] None)); (Node 15 [] (ObjCMethodDecl {| om_selector := $"numberWithUnsignedLongLong:"; om_class := (Some $"NSNumber"); om_overriding := false; om_overridden := []; om_bodyLines := (0)%Z |} [(Node 16 [] (VarDecl {| v_isParm := true; v_name := $"value"; v_used := false; v_referenced := false; v_local := false; v_staticMember := false; v_private := false; v_unusedAttr := false; v_defaultArg := false; v_canonicalType := $"unsigned long long"; v_inTemplate := false; v_contexts := [CxObjCMethod true false false false; CxOther] |} None))] None)); (Node 17 [] (ObjCMethodDecl {| om_selector := $"numberWithFloat:"; om_class := (Some $"NSNumber"); om_overriding := false; om_overridden := []; om_bodyLines := (0)%Z |} [(Node 18 [] (VarDecl {| v_isParm := true; v_name := $"value"; v_used := false; v_referenced := false; v_local := false; v_staticMember := false; v_private := false; v_unusedAttr := false; v_defaultArg := false; v_canonicalType := $"float"; v_inTemplate := false; v_contexts := [CxObjCMethod true false false false; CxOther] |} None))] None)); (Node 19 [] (ObjCMethodDecl {| om_selector := $"numberWithDouble:"; om_class := (Some $"NSNumber"); om_overriding := false; om_overridden := []; om_bodyLines := (0)%Z |} [(Node 20 [] (VarDecl {| v_isParm := true; v_name := $"value"; v_used := false; v_referenced := false; v_local := false; v_staticMember := false; v_private := false; v_unusedAttr := false; v_defaultArg := false; v_canonicalType := $"double"; v_inTemplate := false; v_contexts := [CxObjCMethod true false false false; CxOther] |} None))] None)); (Node 21 [] (ObjCMethodDecl {| om_selector := $"numberWithBool:"; om_class := (Some $"NSNumber"); om_overriding := false; om_overridden := []; om_bodyLines := (0)%Z |} [(Node 22 [] (VarDecl {| v_isParm := true; v_name := $"value"; v_used := false; v_referenced := false; v_local := false; v_staticMember := false; v_private := false; v_unusedAttr := false; v_defaultArg := false; v_canonicalType := $"signed char"; v_inTemplate := false; v_contexts := [CxObjCMethod true false false false; CxOther] |} None))] None)); (Node 23 [] (ObjCMethodDecl {| om_selector := $"numberWithUnsignedChar:"; om_class := (Some $"NSNumber"); om_overriding := false; om_overridden := []; om_bodyLines := (0)%Z |} [(Node 24 [] (VarDecl {| v_isParm := true; v_name := $"value"; v_used := false; v_referenced := false; v_local := false; v_staticMember := false; v_private := false; v_unusedAttr := false; v_defaultArg := false; v_canonicalType := $"unsigned char"; v_inTemplate := false; v_contexts := [CxObjCMethod true false false false; CxOther] |} None))] None))]))); (toplevel 25 (TFunction false), (Node 25 [] (FunctionDecl {| f_name := $"m"; f_method := None; f_isDefinition := true; f_bodyLines := (1)%Z |} [] (Some (Node 26 [] (CompoundStmt [(Node 27 [] (DeclStmt [(Node 28 [] (VarDecl {| v_isParm := false; v_name := $"fortyTwoUnsignedLong"; v_used := false; v_referenced := false; v_local := true; v_staticMember := false; v_private := false; v_unusedAttr := false; v_defaultArg := false; v_canonicalType := $"NSNumber *"; v_inTemplate := false; v_contexts := [CxFunction true true false] |} (Some (Node 29 $"NSNumber *" (ObjCMessageExpr {| ms_selector := $"numberWithUnsignedLong:"; ms_receiver := (RClass $"NSNumber"); ms_implicit := false; ms_interface := (Some $"NSNumber"); ms_method := (Some (Decl [] (Some (Method false None (InOther (Some NoCategory)))))); ms_methodClass := (Some $"NSNumber") |} None [(Node 30 $"unsigned long" (ParenExpr (Node 31 $"unsigned long" (BinaryOperator BO_Other (Node 32 $"unsigned long" (IntegerLiteral (43)%Z)) (Node 33 $"unsigned long" (IntegerLiteral (1)%Z))))))])))))]))]))))))];
     ts_locs := [(2,1,2,21); (3,1,4,2); (5,1,17,2); (6,1,6,41); (6,31,6,36); (7,1,7,39); (7,30,7,34); (8,1,8,56); (8,38,8,51); (9,1,9,41); (9,31,9,36); (10,1,10,58); (10,39,10,53); (11,1,11,50); (11,35,11,45); (12,1,12,67); (12,43,12,62); (13,1,13,43); (13,32,13,38); (14,1,14,45); (14,33,14,40); (15,1,15,41); (15,31,15,36); (16,1,16,58); (16,39,16,53); (18,1,18,93); (18,10,18,93); (18,12,18,91); (18,12,18,90); (18,45,18,90); (18,78,18,89); (18,79,18,86); (18,79,18,79); (18,86,18,86)]%Z;
     ts_evals := []; ts_same := []; ts_decls := []; ts_parents := [] |}.
Example ObjCNSNumberLiterals_NumberWithBoxedUnsignedLong_holds : sorted_violations_of (shippedRule sh_ObjCNSNumberLiterals) ObjCNSNumberLiterals_NumberWithBoxedUnsignedLong = Some [].
Proof. vm_compute. reflexivity. Qed.

Definition ObjCNSNumberLiterals_LongLongLiteral : testcase :=
  {| ts_lang := LObjC; ts_path := $"input.m"; ts_code := [];
     ts_comments := []; ts_conf := [];
     ts_tops := [(toplevel 0 (TOther), (Node 0 [] (OtherDecl []))); (toplevel 1 (TOther), (Node 1 [] (ObjCContainerDecl {| oc_kind := OKInterface; oc_name := $"NSObject"; oc_lines := (2)%Z; oc_ivars := 0; oc_methods := []; oc_classes := [$"NSObject"]; oc_superMethods := None |} []))); (toplevel 2 (TOther), (Node 2 [] (ObjCContainerDecl {| oc_kind := OKInterface; oc_name := $"NSNumber"; oc_lines := (13)%Z; oc_ivars := 0; oc_methods := [($"numberWithChar:", false); ($"numberWithInt:", false); ($"numberWithUnsignedInt:", false); ($"numberWithLong:", false); ($"numberWithUnsignedLong:", false); ($"numberWithLongLong:", false); ($"numberWithUnsignedLongLong:", false); ($"numberWithFloat:", false); ($"numberWithDouble:", false); ($"numberWithBool:", false); ($"numberWithUnsignedChar:", false)]; oc_classes := [$"NSNumber"; $"NSObject"]; oc_superMethods := (Some ($"NSObject", [])) |} [(Node 3 [] (ObjCMethodDecl {| om_selector := $"numberWithChar:"; om_class := (Some $"NSNumber"); om_overriding := false; om_overridden := []; om_bodyLines := (0)%Z |} [(Node 4 [] (VarDecl {| v_isParm := true; v_name := $"value"; v_used := false; v_referenced := false; v_local := false; v_staticMember := false; v_private := false; v_unusedAttr := false; v_defaultArg := false; v_canonicalType := $"char"; v_inTemplate := false; v_contexts := [CxObjCMethod true false false false; CxOther] |} None))] None)); (Node 5 [] (ObjCMethodDecl {| om_selector := $"numberWithInt:"; om_class := (Some $"NSNumber"); om_overriding := false; om_overridden := []; om_bodyLines := (0)%Z |} [(Node 6 [] (VarDecl {| v_isParm := true; v_name := $"value"; v_used := false; v_referenced := false; v_local := false; v_staticMember := false; v_private := false; v_unusedAttr := false; v_defaultArg := false; v_canonicalType := $"int"; v_inTemplate := false; v_contexts := [CxObjCMethod true false false false; CxOther] |} None))] None)); (Node 7 [] (ObjCMethodDecl {| om_selector := $"numberWithUnsignedInt:"; om_class := (Some $"NSNumber"); om_overriding := false; om_overridden := []; om_bodyLines := (0)%Z |} [(Node 8 [] (VarDecl {| v_isParm := true; v_name := $"value"; v_used := false; v_referenced := false; v_local := false; v_staticMember := false; v_private := false; v_unusedAttr := false; v_defaultArg := false; v_canonicalType := $"unsigned int"; v_inTemplate := false; v_contexts := [CxObjCMethod true false false false; CxOther] |} None))] None)); (Node 9 [] (ObjCMethodDecl {| om_selector := $"numberWithLong:"; om_class := (Some $"NSNumber"); om_overriding := false; om_overridden := []; om_bodyLines := (0)%Z |} [(Node 10 [] (VarDecl {| v_isParm := true; v_name := $"value"; v_used := false; v_referenced := false; v_local := false; v_staticMember := false; v_private := false; v_unusedAttr := false; v_defaultArg := false; v_canonicalType := $"long"; v_inTemplate := false; v_contexts := [CxObjCMethod true false false false; CxOther] |} None))] None)); (Node 11 [] (ObjCMethodDecl {| om_selector := $"numberWithUnsignedLong:"; om_class := (Some $"NSNumber"); om_overriding := false; om_overridden := []; om_bodyLines := (0)%Z |} [(Node 12 [] (VarDecl {| v_isParm := true; v_name := $"value"; v_used := false; v_referenced := false; v_local := false; v_staticMember := false; v_private := false; v_unusedAttr := false; v_defaultArg := false; v_canonicalType := $"unsigned long"; v_inTemplate := false; v_contexts := [CxObjCMethod true false false false; CxOther] |} None))] None)); (Node 13 [] (ObjCMethodDecl {| om_selector := $"numberWithLongLong:"; om_class := (Some $"NSNumber"); om_overriding := false; om_overridden := []; om_bodyLines := (0)%Z |} [(Node 14 [] (VarDecl {| v_isParm := true; v_name := $"value"; v_used := false; v_referenced := false; v_local := false; v_staticMember := false; v_private := false; v_unusedAttr := false; v_defaultArg := false; v_canonicalType := $"long long"; v_inTemplate := false; v_contexts := [CxObjCMethod true false false false; CxOther] |} None))] None)); (Node 15 [] (ObjCMethodDecl {| om_selector := $"numberWithUnsignedLongLong:"; om_class := (Some $"NSNumber"); om_overriding := false; om_overridden := []; om_bodyLines := (0)%Z |} [(Node 16 [] (VarDecl {| v_isParm := true; v_name := $"value"; v_used := false; v_referenced := false; v_local := false; v_staticMember := false; v_private := false; v_unusedAttr := false; v_defaultArg := false; v_canonicalType := $"unsigned long long"; v_inTemplate := false; v_contexts := [CxObjCMethod true false false false; CxOther] |} None))] None)); (Node 17 [] (ObjCMethodDecl {| om_selector := $"numberWithFloat:"; om_class := (Some $"NSNumber"); om_overriding := false; om_overridden := []; om_bodyLines := (0)%Z |} [(Node 18 [] (VarDecl {| v_isParm := true; v_name := $"value"; v_used := false; v_referenced := false; v_local := false; v_staticMember := false; v_private := false; v_unusedAttr := false; v_defaultArg := false; v_canonicalType := $"float"; v_inTemplate := false; v_contexts := [CxObjCMethod true false false false; CxOther] |} None))] None)); (Node 19 [] (ObjCMethodDecl {| om_selector := $"numberWithDouble:"; om_class := (Some $"NSNumber"); om_overriding := false; om_overridden := []; om_bodyLines := (0)%Z |} [(Node 20 [] (VarDecl {| v_isParm := true; v_name := $"value"; v_used := false; v_referenced := false; v_local := false; v_staticMember := false; v_private := false; v_unusedAttr := false; v_defaultArg := false; v_canonicalType := $"double"; v_inTemplate := false; v_contexts := [CxObjCMethod true false false false; CxOther] |} None))] None)); (Node 21 [] (ObjCMethodDecl {| om_selector := $"numberWithBool:"; om_class := (Some $"NSNumber"); om_overriding := false; om_overridden := []; om_bodyLines := (0)%Z |} [(Node 22 [] (VarDecl {| v_isParm := true; v_name := $"value"; v_used := false; v_referenced := false; v_local := false; v_staticMember := false; v_private := false; v_unusedAttr := false; v_defaultArg := false; v_canonicalType := $"signed char"; v_inTemplate := false; v_contexts := [CxObjCMethod true false false false; CxOther] |} None))] None)); (Node 23 [] (ObjCMethodDecl {| om_selector := $"numberWithUnsignedChar:"; om_class := (Some $"NSNumber"); om_overriding := false; om_overridden := []; om_bodyLines := (0)%Z |} [(Node 24 [] (VarDecl {| v_isParm := true; v_name := $"value"; v_used := false; v_referenced := false; v_local := false; v_staticMember := false; v_private := false; v_unusedAttr := false; v_defaultArg := false; v_canonicalType := $"unsigned char"; v_inTemplate := false; v_contexts := [CxObjCMethod true false false false; CxOther] |} None))] None))]))); (toplevel 25 (TFunction false), (Node 25 [] (FunctionDecl {| f_name := $"m"; f_method := None; f_isDefinition := true; f_bodyLines := (1)%Z |} [] (Some (Node 26 [] (CompoundStmt [(Node 27 [] (DeclStmt [(Node 28 [] (VarDecl {| v_isParm := false; v_name := $"fortyTwoLongLong"; v_used := false; v_referenced := false; v_local := true; v_staticMember := false; v_private := false; v_unusedAttr := false; v_defaultArg := false; v_canonicalType := $"NSNumber *"; v_inTemplate := false; v_contexts := [CxFunction true true false] |} (Some (Node 29 $"NSNumber *" (OtherExpr [(Node 30 $"long long" (IntegerLiteral (42)%Z))])))))]))]))))))];
     ts_locs := [(2,1,2,21); (3,1,4,2); (5,1,17,2); (6,1,6,41); (6,31,6,36); (7,1,7,39); (7,30,7,34); (8,1,8,56); (8,38,8,51); (9,1,9,41); (9,31,9,36); (10,1,10,58); (10,39,10,53); (11,1,11,50); (11,35,11,45); (12,1,12,67); (12,43,12,62); (13,1,13,43); (13,32,13,38); (14,1,14,45); (14,33,14,40); (15,1,15,41); (15,31,15,36); (16,1,16,58); (16,39,16,53); (18,1,18,48); (18,10,18,48); (18,12,18,46); (18,12,18,42); (18,41,18,42); (18,42,18,42)]%Z;
     ts_evals := []; ts_same := []; ts_decls := []; ts_parents := [] |}.
Example ObjCNSNumberLiterals_LongLongLiteral_holds : sorted_violations_of (shippedRule sh_ObjCNSNumberLiterals) ObjCNSNumberLiterals_LongLongLiteral = Some [].
Proof. vm_compute. reflexivity. Qed.

Definition ObjCNSNumberLiterals_NumberWithLongLong : testcase :=
  {| ts_lang := LObjC; ts_path := $"input.m"; ts_code := [];
     ts_comments := []; ts_conf := [];
     ts_tops := [(toplevel 0 (TOther), (Node 0 [] (OtherDecl []))); (toplevel 1 (TOther), (Node 1 [] (ObjCContainerDecl {| oc_kind := OKInterface; oc_name := $"NSObject"; oc_lines := (2)%Z; oc_ivars := 0; oc_methods := []; oc_classes := [$"NSObject"]; oc_superMethods := None |} []))); (toplevel 2 (TOther), (Node 2 [] (ObjCContainerDecl {| oc_kind := OKInterface; oc_name := $"NSNumber"; oc_lines := (13)%Z; oc_ivars := 0; oc_methods := [($"numberWithChar:", false); ($"numberWithInt:", false); ($"numberWithUnsignedInt:", false); ($"numberWithLong:", false); ($"numberWithUnsignedLong:", false); ($"numberWithLongLong:", false); ($"numberWithUnsignedLongLong:", false); ($"numberWithFloat:", false); ($"numberWithDouble:", false); ($"numberWithBool:", false); ($"numberWithUnsignedChar:", false)]; oc_classes := [$"NSNumber"; $"NSObject"]; oc_superMethods := (Some ($"NSObject", [])) |} [(Node 3 [] (ObjCMethodDecl {| om_selector := $"numberWithChar:"; om_class := (Some $"NSNumber"); om_overriding := false; om_overridden := []; om_bodyLines := (0)%Z |} [(Node 4 [] (VarDecl {| v_isParm := true; v_name := $"value"; v_used := false; v_referenced := false; v_local := false; v_staticMember := false; v_private := false; v_unusedAttr := false; v_defaultArg := false; v_canonicalType := $"char"; v_inTemplate := false; v_contexts := [CxObjCMethod true false false false; CxOther] |} None))] None)); (Node 5 [] (ObjCMethodDecl {| om_selector := $"numberWithInt:"; om_class := (Some $"NSNumber"); om_overriding := false; om_overridden := []; om_bodyLines := (0)%Z |} [(Node 6 [] (VarDecl {| v_isParm := true; v_name := $"value"; v_used := false; v_referenced := false; v_local := false; v_staticMember := false; v_private := false; v_unusedAttr := false; v_defaultArg := false; v_canonicalType := $"int"; v_inTemplate := false; v_contexts := [CxObjCMethod true false false false; CxOther] |} None))] None)); (Node 7 [] (ObjCMethodDecl {| om_selector := $"numberWithUnsignedInt:"; om_class := (Some $"NSNumber"); om_overriding := false; om_overridden := []; om_bodyLines := (0)%Z |} [(Node 8 [] (VarDecl {| v_isParm := true; v_name := $"value"; v_used := false; v_referenced := false; v_local := false; v_staticMember := false; v_private := false; v_unusedAttr := false; v_defaultArg := false; v_canonicalType := $"unsigned int"; v_inTemplate := false; v_contexts := [CxObjCMethod true false false false; CxOther] |} None))] None)); (Node 9 [] (ObjCMethodDecl {| om_selector := $"numberWithLong:"; om_class := (Some $"NSNumber"); om_overriding := false; om_overridden := []; om_bodyLines := (0)%Z |} [(Node 10 [] (VarDecl {| v_isParm := true; v_name := $"value"; v_used := false; v_referenced := false; v_local := false; v_staticMember := false; v_private := false; v_unusedAttr := false; v_defaultArg := false; v_canonicalType := $"long"; v_inTemplate := false; v_contexts := [CxObjCMethod true false false false; CxOther] |} None))] None)); (Node 11 [] (ObjCMethodDecl {| om_selector := $"numberWithUnsignedLong:"; om_class := (Some $"NSNumber"); om_overriding := false; om_overridden := []; om_bodyLines := (0)%Z |} [(Node 12 [] (VarDecl {| v_isParm := true; v_name := $"value"; v_used := false; v_referenced := false; v_local := false; v_staticMember := false; v_private := false; v_unusedAttr := false; v_defaultArg := false; v_canonicalType := $"unsigned long"; v_inTemplate := false; v_contexts := [CxObjCMethod true false false false; CxOther] |} None))] None)); (Node 13 [] (ObjCMethodDecl {| om_selector := $"numberWithLongLong:"; om_class := (Some $"NSNumber"); om_overriding := false; om_overridden := []; om_bodyLines := (0)%Z |} [(Node 14 [] (VarDecl {| v_isParm := true; v_name := $"value"; v_used := false; v_referenced := false; v_local := false; v_staticMember := false; v_private := false; v_unusedAttr := false; v_defaultArg := false; v_canonicalType := $"long long"; v_inTemplate := false; v_contexts := [CxObjCMethod true false false false; CxOther] |} None))] None)); (Node 15 [] (ObjCMethodDecl {| om_selector := $"numberWithUnsignedLongLong:"; om_class := (Some $"NSNumber"); om_overriding := false; om_overridden := []; om_bodyLines := (0)%Z |} [(Node 16 [] (VarDecl {| v_isParm := true; v_name := $"value"; v_used := false; v_referenced := false; v_local := false; v_staticMember := false; v_private := false; v_unusedAttr := false; v_defaultArg := false; v_canonicalType := $"unsigned long long"; v_inTemplate := false; v_contexts := [CxObjCMethod true false false false; CxOther] |} None))] None)); (Node 17 [] (ObjCMethodDecl {| om_selector := $"numberWithFloat:"; om_class := (Some $"NSNumber"); om_overriding := false; om_overridden := []; om_bodyLines := (0)%Z |} [(Node 18 [] (VarDecl {| v_isParm := true; v_name := $"value"; v_used := false; v_referenced := false; v_local := false; v_staticMember := false; v_private := false; v_unusedAttr := false; v_defaultArg := false; v_canonicalType := $"float"; v_inTemplate := false; v_contexts := [CxObjCMethod true false false false; CxOther] |} None))] None)); (Node 19 [] (ObjCMethodDecl {| om_selector := $"numberWithDouble:"; om_class := (Some $"NSNumber"); om_overriding := false; om_overridden := []; om_bodyLines := (0)%Z |} [(Node 20 [] (VarDecl {| v_isParm := true; v_name := $"value"; v_used := false; v_referenced := false; v_local := false; v_staticMember := false; v_private := false; v_unusedAttr := false; v_defaultArg := false; v_canonicalType := $"double"; v_inTemplate := false; v_contexts := [CxObjCMethod true false false false; CxOther] |} None))] None)); (Node 21 [] (ObjCMethodDecl {| om_selector := $"numberWithBool:"; om_class := (Some $"NSNumber"); om_overriding := false; om_overridden := []; om_bodyLines := (0)%Z |} [(Node 22 [] (VarDecl {| v_isParm := true; v_name := $"value"; v_used := false; v_referenced := false; v_local := false; v_staticMember := false; v_private := false; v_unusedAttr := false; v_defaultArg := false; v_canonicalType := $"signed char"; v_inTemplate := false; v_contexts := [CxObjCMethod true false false false; CxOther] |} None))] None)); (Node 23 [] (ObjCMethodDecl {| om_selector := $"numberWithUnsignedChar:"; om_class := (Some $"NSNumber"); om_overriding := false; om_overridden := []; om_bodyLines := (0)%Z |} [(Node 24 [] (VarDecl {| v_isParm := true; v_name := $"value"; v_used := false; v_referenced := false; v_local := false; v_staticMember := false; v_private := false; v_unusedAttr := false; v_defaultArg := false; v_canonicalType := $"unsigned char"; v_inTemplate := false; v_contexts := [CxObjCMethod true false false false; CxOther] |} None))] None))]))); (toplevel 25 (TFunction false), (Node 25 [] (FunctionDecl {| f_name := $"m"; f_method := None; f_isDefinition := true; f_bodyLines := (1)%Z |} [] (Some (Node 26 [] (CompoundStmt [(Node 27 [] (DeclStmt [(Node 28 [] (VarDecl {| v_isParm := false; v_name := $"fortyTwoLongLong"; v_used := false; v_referenced := false; v_local := true; v_staticMember := false; v_private := false; v_unusedAttr := false; v_defaultArg := false; v_canonicalType := $"NSNumber *"; v_inTemplate := false; v_contexts := [CxFunction true true false] |} (Some (Node 29 $"NSNumber *" (ObjCMessageExpr {| ms_selector := $"numberWithLongLong:"; ms_receiver := (RClass $"NSNumber"); ms_implicit := false; ms_interface := (Some $"NSNumber"); ms_method := (Some (Decl [] (Some (Method false None (InOther (Some NoCategory)))))); ms_methodClass := (Some $"NSNumber") |} None [(Node 30 $"long long" (IntegerLiteral (42)%Z))])))))]))]))))))];
     ts_locs := [(2,1,2,21); (3,1,4,2); (5,1,17,2); (6,1,6,41); (6,31,6,36); (7,1,7,39); (7,30,7,34); (8,1,8,56); (8,38,8,51); (9,1,9,41); (9,31,9,36); (10,1,10,58); (10,39,10,53); (11,1,11,50); (11,35,11,45); (12,1,12,67); (12,43,12,62); (13,1,13,43); (13,32,13,38); (14,1,14,45); (14,33,14,40); (15,1,15,41); (15,31,15,36); (16,1,16,58); (16,39,16,53); (18,1,18,77); (18,10,18,77); (18,12,18,75); (18,12,18,74); (18,41,18,74); (18,70,18,70)]%Z;
     ts_evals := []; ts_same := []; ts_decls := []; ts_parents := [] |}.
Example ObjCNSNumberLiterals_NumberWithLongLong_holds : nth_violation (shippedRule sh_ObjCNSNumberLiterals) ObjCNSNumberLiterals_NumberWithLongLong 0 = Some (18, 41, 18, 74, $"")%Z.
Proof. vm_compute. reflexivity. Qed.

Definition ObjCNSNumberLiterals_NumberWithLongLong_2 : testcase :=
  {| ts_lang := LObjC; ts_path := $"input.m"; ts_code := [];
     ts_comments := []; ts_conf := [];
     ts_tops := [(toplevel 0 (TOther), (Node 0 [] (OtherDecl []))); (toplevel 1 (TOther), (Node 1 [] (ObjCContainerDecl {| oc_kind := OKInterface; oc_name := $"NSObject"; oc_lines := (2)%Z; oc_ivars := 0; oc_methods := []; oc_classes := [$"NSObject"]; oc_superMethods := None |} []))); (toplevel 2 (TOther), (Node 2 [] (ObjCContainerDecl {| oc_kind := OKInterface; oc_name := $"NSNumber"; oc_lines := (13)%Z; oc_ivars := 0; oc_methods := [($"numberWithChar:", false); ($"numberWithInt:", false); ($"numberWithUnsignedInt:", false); ($"numberWithLong:", false); ($"numberWithUnsignedLong:", false); ($"numberWithLongLong:", false); ($"numberWithUnsignedLongLong:", false); ($"numberWithFloat:", false); ($"numberWithDouble:", false); ($"numberWithBool:", false); ($"numberWithUnsignedChar:", false)]; oc_classes := [$"NSNumber"; $"NSObject"]; oc_superMethods := (Some ($"NSObject", [])) |} [(Node 3 [] (ObjCMethodDecl {| om_selector := $"numberWithChar:"; om_class := (Some $"NSNumber"); om_overriding := false; om_overridden := []; om_bodyLines := (0)%Z |} [(Node 4 [] (VarDecl {| v_isParm := true; v_name := $"value"; v_used := false; v_referenced := false; v_local := false; v_staticMember := false; v_private := false; v_unusedAttr := false; v_defaultArg := false; v_canonicalType := $"char"; v_inTemplate := false; v_contexts := [CxObjCMethod true false false false; CxOther] |} None))] None)); (Node 5 [] (ObjCMethodDecl {| om_selector := $"numberWithInt:"; om_class := (Some $"NSNumber"); om_overriding := false; om_overridden := []; om_bodyLines := (0)%Z |} [(Node 6 [] (VarDecl {| v_isParm := true; v_name := $"value"; v_used := false; v_referenced := false; v_local := false; v_staticMember := false; v_private := false; v_unusedAttr := false; v_defaultArg := false; v_canonicalType := $"int"; v_inTemplate := false; v_contexts := [CxObjCMethod true false false false; CxOther] |} None))] None)); (Node 7 [] (ObjCMethodDecl {| om_selector := $"numberWithUnsignedInt:"; om_class := (Some $"NSNumber"); om_overriding := false; om_overridden := []; om_bodyLines := (0)%Z |} [(Node 8 [] (VarDecl {| v_isParm := true; v_name := $"value"; v_used := false; v_referenced := false; v_local := false; v_staticMember := false; v_private := false; v_unusedAttr := false; v_defaultArg := false; v_canonicalType := $"unsigned int"; v_inTemplate := false; v_contexts := [CxObjCMethod true false false false; CxOther] |} None))] None)); (Node 9 [] (ObjCMethodDecl {| om_selector := $"numberWithLong:"; om_class := (Some $"NSNumber"); om_overriding := false; om_overridden := []; om_bodyLines := (0)%Z |} [(Node 10 [] (VarDecl {| v_isParm := true; v_name := $"value"; v_used := false; v_referenced := false; v_local := false; v_staticMember := false; v_private := false; v_unusedAttr := false; v_defaultArg := false; v_canonicalType := $"long"; v_inTemplate := false; v_contexts := [CxObjCMethod true false false false; CxOther] |} None))] None)); (Node 11 [] (ObjCMethodDecl {| om_selector := $"numberWithUnsignedLong:"; om_class := (Some $"NSNumber"); om_overriding := false; om_overridden := []; om_bodyLines := (0)%Z |} [(Node 12 [] (VarDecl {| v_isParm := true; v_name := $"value"; v_used := false; v_referenced := false; v_local := false; v_staticMember := false; v_private := false; v_unusedAttr := false; v_defaultArg := false; v_canonicalType := $"unsigned long"; v_inTemplate := false; v_contexts := [CxObjCMethod true false false false; CxOther] |} None))] None)); (Node 13 [] (ObjCMethodDecl {| om_selector := $"numberWithLongLong:"; om_class := (Some $"NSNumber"); om_overriding := false; om_overridden := []; om_bodyLines := (0)%Z |} [(Node 14 [] (VarDecl {| v_isParm := true; v_name := $"value"; v_used := false; v_referenced := false; v_local := false; v_staticMember := false; v_private := false; v_unusedAttr := false; v_defaultArg := false; v_canonicalType := $"long long"; v_inTemplate := false; v_contexts := [CxObjCMethod true false false false; CxOther] |} None))] None)); (Node 15 [] (ObjCMethodDecl {| om_selector := $"numberWithUnsignedLongLong:"; om_class := (Some $"NSNumber"); om_overriding := false; om_overridden := []; om_bodyLines := (0)%Z |} [(Node 16 [] (VarDecl {| v_isParm := true; v_name := $"value"; v_used := false; v_referenced := false; v_local := false; v_staticMember := false; v_private := false; v_unusedAttr := false; v_defaultArg := false; v_canonicalType := $"unsigned long long"; v_inTemplate := false; v_contexts := [CxObjCMethod true false false false; CxOther] |} None))] None)); (Node 17 [] (ObjCMethodDecl {| om_selector := $"numberWithFloat:"; om_class := (Some $"NSNumber"); om_overriding := false; om_overridden := []; om_bodyLines := (0)%Z |} [(Node 18 [] (VarDecl {| v_isParm := true; v_name := $"value"; v_used := false; v_referenced := false; v_local := false; v_staticMember := false; v_private := false; v_unusedAttr := false; v_defaultArg := false; v_canonicalType := $"float"; v_inTemplate := false; v_contexts := [CxObjCMethod true false false false; CxOther] |} None))] None)); (Node 19 [] (ObjCMethodDecl {| om_selector := $"numberWithDouble:"; om_class := (Some $"NSNumber"); om_overriding := false; om_overridden := []; om_bodyLines := (0)%Z |} [(Node 20 [] (VarDecl {| v_isParm := true; v_name := $"value"; v_used := false; v_referenced := false; v_local := false; v_staticMember := false; v_private := false; v_unusedAttr := false; v_defaultArg := false; v_canonicalType := $"double"; v_inTemplate := false; v_contexts := [CxObjCMethod true false false false; CxOther] |} None))] None)); (Node 21 [] (ObjCMethodDecl {| om_selector := $"numberWithBool:"; om_class := (Some $"NSNumber"); om_overriding := false; om_overridden := []; om_bodyLines := (0)%Z |} [(Node 22 [] (VarDecl {| v_isParm := true; v_name := $"value"; v_used := false; v_referenced := false; v_local := false; v_staticMember := false; v_private := false; v_unusedAttr := false; v_defaultArg := false; v_canonicalType := $"signed char"; v_inTemplate := false; v_contexts := [CxObjCMethod true false false false; CxOther] |} None))] None)); (Node 23 [] (ObjCMethodDecl {| om_selector := $"numberWithUnsignedChar:"; om_class := (Some $"NSNumber"); om_overriding := false; om_overridden := []; om_bodyLines := (0)%Z |} [(Node 24 [] (VarDecl {| v_isParm := true; v_name := $"value"; v_used := false; v_referenced := false; v_local := false; v_staticMember := false; v_private := false; v_unusedAttr := false; v_defaultArg := false; v_canonicalType := $"unsigned char"; v_inTemplate := false; v_contexts := [CxObjCMethod true false false false; CxOther] |} None))] None))]))); (toplevel 25 (TFunction false), (Node 25 [] (FunctionDecl {| f_name := $"m"; f_method := None; f_isDefinition := true; f_bodyLines := (1)%Z |} [] (Some (Node 26 [] (CompoundStmt [(Node 27 [] (DeclStmt [(Node 28 [] (VarDecl {| v_isParm := false; v_name := $"fortyTwoLongLong"; v_used := false; v_referenced := false; v_local := true; v_staticMember := false; v_private := false; v_unusedAttr := false; v_defaultArg := false; v_canonicalType := $"NSNumber *"; v_inTemplate := false; v_contexts := [CxFunction true true false] |} (Some (Node 29 $"NSNumber *" (ObjCMessageExpr {| ms_selector := $"numberWithLongLong:"; ms_receiver := (RClass $"NSNumber"); ms_implicit := false; ms_interface := (Some $"NSNumber"); ms_method := (Some (Decl [] (Some (Method false None (InOther (Some NoCategory)))))); ms_methodClass := (Some $"NSNumber") |} None [(Node 30 $"long long" (IntegerLiteral (42)%Z))])))))]))]))))))];
     ts_locs := [(2,1,2,21); (3,1,4,2); (5,1,17,2); (6,1,6,41); (6,31,6,36); (7,1,7,39); (7,30,7,34); (8,1,8,56); (8,38,8,51); (9,1,9,41); (9,31,9,36); (10,1,10,58); (10,39,10,53); (11,1,11,50); (11,35,11,45); (12,1,12,67); (12,43,12,62); (13,1,13,43); (13,32,13,38); (14,1,14,45); (14,33,14,40); (15,1,15,41); (15,31,15,36); (16,1,16,58); (16,39,16,53); (18,1,18,77); (18,10,18,77); (18,12,18,75); (18,12,18,74); (18,41,18,74); (18,70,18,70)]%Z;
     ts_evals := []; ts_same := []; ts_decls := []; ts_parents := [] |}.
Example ObjCNSNumberLiterals_NumberWithLongLong_2_holds : nth_violation (shippedRule sh_ObjCNSNumberLiterals) ObjCNSNumberLiterals_NumberWithLongLong_2 0 = Some (18, 41, 18, 74, $"")%Z.
Proof. vm_compute. reflexivity. Qed.

Definition ObjCNSNumberLiterals_NumberWithBoxedLongLong : testcase :=
  {| ts_lang := LObjC; ts_path := $"input.m"; ts_code := [];
     ts_comments := []; ts_conf := [];
     ts_tops := [(toplevel 0 (TOther), (Node 0 [] (OtherDecl []))); (toplevel 1 (TOther), (Node 1 [] (ObjCContainerDecl {| oc_kind := OKInterface; oc_name := $"NSObject"; oc_lines := (2)%Z; oc_ivars := 0; oc_methods := []; oc_classes := [$"NSObject"]; oc_superMethods := None |} []))); (toplevel 2 (TOther), (Node 2 [] (ObjCContainerDecl {| oc_kind := OKInterface; oc_name := $"NSNumber"; oc_lines := (13)%Z; oc_ivars := 0; oc_methods := [($"numberWithChar:", false); ($"numberWithInt:", false); ($"numberWithUnsignedInt:", false); ($"numberWithLong:", false); ($"numberWithUnsignedLong:", false); ($"numberWithLongLong:", false); ($"numberWithUnsignedLongLong:", false); ($"numberWithFloat:", false); ($"numberWithDouble:", false); ($"numberWithBool:", false); ($"numberWithUnsignedChar:", false)]; oc_classes := [$"NSNumber"; $"NSObject"]; oc_superMethods := (Some ($"NSObject", [])) |} [(Node 3 [] (ObjCMethodDecl {| om_selector := $"numberWithChar:"; om_class := (Some $"NSNumber"); om_overriding := false; om_overridden := []; om_bodyLines := (0)%Z |} [(Node 4 [] (VarDecl {| v_isParm := true; v_name := $"value"; v_used := false; v_referenced := false; v_local := false; v_staticMember := false; v_private := false; v_unusedAttr := false; v_defaultArg := false; v_canonicalType := $"char"; v_inTemplate := false; v_contexts := [CxObjCMethod true false false false; CxOther] |} None))] None)); (Node 5 [] (ObjCMethodDecl {| om_selector := $"numberWithInt:"; om_class := (Some $"NSNumber"); om_overriding := false; om_overridden := []; om_bodyLines := (0)%Z |} [(Node 6 [] (VarDecl {| v_isParm := true; v_name := $"value"; v_used := false; v_referenced := false; v_local := false; v_staticMember := false; v_private := false; v_unusedAttr := false; v_defaultArg := false; v_canonicalType := $"int"; v_inTemplate := false; v_contexts := [CxObjCMethod true false false false; CxOther] |} None))] None)); (Node 7 [] (ObjCMethodDecl {| om_selector := $"numberWithUnsignedInt:"; om_class := (Some $"NSNumber"); om_overriding := false; om_overridden := []; om_bodyLines := (0)%Z |} [(Node 8 [] (VarDecl {| v_isParm := true; v_name := $"value"; v_used := false; v_referenced := false; v_local := false; v_staticMember := false; v_private := false; v_unusedAttr := false; v_defaultArg := false; v_canonicalType := $"unsigned int"; v_inTemplate := false; v_contexts := [CxObjCMethod true false false false; CxOther] |} None))] None)); (Node 9 [] (ObjCMethodDecl {| om_selector := $"numberWithLong:"; om_class := (Some $"NSNumber"); om_overriding := false; om_overridden := []; om_bodyLines := (0)%Z |} [(Node 10 [] (VarDecl {| v_isParm := true; v_name := $"value"; v_used := false; v_referenced := false; v_local := false; v_staticMember := false; v_private := false; v_unusedAttr := false; v_defaultArg := false; v_canonicalType := $"long"; v_inTemplate := false; v_contexts := [CxObjCMethod true false false false; CxOther] |} None))] None)); (Node 11 [] (ObjCMethodDecl {| om_selector := $"numberWithUnsignedLong:"; om_class := (Some $"NSNumber"); om_overriding := false; om_overridden := []; om_bodyLines := (0)%Z |} [(Node 12 [] (VarDecl {| v_isParm := true; v_name := $"value"; v_used := false; v_referenced := false; v_local := false; v_staticMember := false; v_private := false; v_unusedAttr := false; v_defaultArg := false; v_canonicalType := $"unsigned long"; v_inTemplate := false; v_contexts := [CxObjCMethod true false false false; CxOther] |} None))] None)); (Node 13 [] (ObjCMethodDecl {| om_selector := $"numberWithLongLong:"; om_class := (Some $"NSNumber"); om_overriding := false; om_overridden := []; om_bodyLines := (0)%Z |} [(Node 14 [] (VarDecl {| v_isParm := true; v_name := $"value"; v_used := false; v_referenced := false; v_local := false; v_staticMember := false; v_private := false; v_unusedAttr := false; v_defaultArg := false; v_canonicalType := $"long long"; v_inTemplate := false; v_contexts := [CxObjCMethod true false false false; CxOther] |} None))] None)); (Node 15 [] (ObjCMethodDecl {| om_selector := $"numberWithUnsignedLongLong:"; om_class := (Some $"NSNumber"); om_overriding := false; om_overridden := []; om_bodyLines := (0)%Z |} [(Node 16 [] (VarDecl {| v_isParm := true; v_name := $"value"; v_used := false; v_referenced := false; v_local := false; v_staticMember := false; v_private := false; v_unusedAttr := false; v_defaultArg := false; v_canonicalType := $"unsigned long long"; v_inTemplate := false; v_contexts := [CxObjCMethod true false false false; CxOther] |} None))] None)); (Node 17 [] (ObjCMethodDecl {| om_selector := $"numberWithFloat:"; om_class := (Some $"NSNumber"); om_overriding := false; om_overridden := []; om_bodyLines := (0)%Z |} [(Node 18 [] (VarDecl {| v_isParm := true; v_name := $"value"; v_used := false; v_referenced := false; v_local := false; v_staticMember := false; v_private := false; v_unusedAttr := false; v_defaultArg := false; v_canonicalType := $"float"; v_inTemplate := false; v_contexts := [CxObjCMethod true false false false; CxOther] |} None))] None)); (Node 19 [] (ObjCMethodDecl {| om_selector := $"numberWithDouble:"; om_class := (Some $"NSNumber"); om_overriding := false; om_overridden := []; om_bodyLines := (0)%Z |} [(Node 20 [] (VarDecl {| v_isParm := true; v_name := $"value"; v_used := false; v_referenced := false; v_local := false; v_staticMember := false; v_private := false; v_unusedAttr := false; v_defaultArg := false; v_canonicalType := $"double"; v_inTemplate := false; v_contexts := [CxObjCMethod true false false false; CxOther] |} None))] None)); (Node 21 [] (ObjCMethodDecl {| om_selector := $"numberWithBool:"; om_class := (Some $"NSNumber"); om_overriding := false; om_overridden := []; om_bodyLines := (0)%Z |} [(Node 22 [] (VarDecl {| v_isParm := true; v_name := $"value"; v_used := false; v_referenced := false; v_local := false; v_staticMember := false; v_private := false; v_unusedAttr := false; v_defaultArg := false; v_canonicalType := $"signed char"; v_inTemplate := false; v_contexts := [CxObjCMethod true false false false; CxOther] |} None))] None)); (Node 23 [] (ObjCMethodDecl {| om_selector := $"numberWithUnsignedChar:"; om_class := (Some $"NSNumber"); om_overriding := false; om_overridden := []; om_bodyLines := (0)%Z |} [(Node 24 [] (VarDecl {| v_isParm := true; v_name := $"value"; v_used := false; v_referenced := false; v_local := false; v_staticMember := false; v_private := false; v_unusedAttr := false; v_defaultArg := false; v_canonicalType := $"unsigned char"; v_inTemplate := false; v_contexts := [CxObjCMethod true false false false; CxOther] |} None))] None))]))); (toplevel 25 (TFunction false), (Node 25 [] (FunctionDecl {| f_name := $"m"; f_method := None; f_isDefinition := true; f_bodyLines := (1)%Z |} [] (Some (Node 26 [] (CompoundStmt [(Node 27 [] (DeclStmt [(Node 28 [] (VarDecl {| v_isParm := false; v_name := $"fortyTwoLongLong"; v_used := false; v_referenced := false; v_local := true; v_staticMember := false; v_private := false; v_unusedAttr := false; v_defaultArg := false; v_canonicalType := $"NSNumber *"; v_inTemplate := false; v_contexts := [CxFunction true true false] |} (Some (Node 29 $"NSNumber *" (ObjCMessageExpr {| ms_selector := $"numberWithLongLong:"; ms_receiver := (RClass $"NSNumber"); ms_implicit := false; ms_interface := (Some $"NSNumber"); ms_method := (Some (Decl [] (Some (Method false None (InOther (Some NoCategory)))))); ms_methodClass := (Some $"NSNumber") |} None [(Node 30 $"long long" (ParenExpr (Node 31 $"long long" (BinaryOperator BO_Other (Node 32 $"long long" (IntegerLiteral (43)%Z)) (Node 33 $"long long" (IntegerLiteral (1)%Z))))))])))))]))]))))))];
     ts_locs := [(2,1,2,21); (3,1,4,2); (5,1,17,2); (6,1,6,41); (6,31,6,36); (7,1,7,39); (7,30,7,34); (8,1,8,56); (8,38,8,51); (9,1,9,41); (9,31,9,36); (10,1,10,58); (10,39,10,53); (11,1,11,50); (11,35,11,45); (12,1,12,67); (12,43,12,62); (13,1,13,43); (13,32,13,38); (14,1,14,45); (14,33,14,40); (15,1,15,41); (15,31,15,36); (16,1,16,58); (16,39,16,53); (18,1,18,85); (18,10,18,85); (18,12,18,83); (18,12,18,82); (18,41,18,82); (18,70,18,81); (18,71,18,78); (18,71,18,71); (18,78,18,78)]%Z;
     ts_evals := []; ts_same := []; ts_decls := []; ts_parents := [] |}.
Example ObjCNSNumberLiterals_NumberWithBoxedLongLong_holds : sorted_violations_of (shippedRule sh_ObjCNSNumberLiterals) ObjCNSNumberLiterals_NumberWithBoxedLongLong = Some [].
Proof. vm_compute. reflexivity. Qed.

Definition ObjCNSNumberLiterals_UnsignedLongLongLiteral : testcase :=
  {| ts_lang := LObjC; ts_path := $"input.m"; ts_code := [];
     ts_comments := []; ts_conf := [];
     ts_tops := [(toplevel 0 (TOther), (Node 0 [] (OtherDecl []))); (toplevel 1 (TOther), (Node 1 [] (ObjCContainerDecl {| oc_kind := OKInterface; oc_name := $"NSObject"; oc_lines := (2)%Z; oc_ivars := 0; oc_methods := []; oc_classes := [$"NSObject"]; oc_superMethods := None |} []))); (toplevel 2 (TOther), (Node 2 [] (ObjCContainerDecl {| oc_kind := OKInterface; oc_name := $"NSNumber"; oc_lines := (13)%Z; oc_ivars := 0; oc_methods := [($"numberWithChar:", false); ($"numberWithInt:", false); ($"numberWithUnsignedInt:", false); ($"numberWithLong:", false); ($"numberWithUnsignedLong:", false); ($"numberWithLongLong:", false); ($"numberWithUnsignedLongLong:", false); ($"numberWithFloat:", false); ($"numberWithDouble:", false); ($"numberWithBool:", false); ($"numberWithUnsignedChar:", false)]; oc_classes := [$"NSNumber"; $"NSObject"]; oc_superMethods := (Some ($"NSObject", [])) |} [(Node 3 [] (ObjCMethodDecl {| om_selector := $"numberWithChar:"; om_class := (Some $"NSNumber"); om_overriding := false; om_overridden := []; om_bodyLines := (0)%Z |} [(Node 4 [] (VarDecl {| v_isParm := true; v_name := $"value"; v_used := false; v_referenced := false; v_local := false; v_staticMember := false; v_private := false; v_unusedAttr := false; v_defaultArg := false; v_canonicalType := $"char"; v_inTemplate := false; v_contexts := [CxObjCMethod true false false false; CxOther] |} None))] None)); (Node 5 [] (ObjCMethodDecl {| om_selector := $"numberWithInt:"; om_class := (Some $"NSNumber"); om_overriding := false; om_overridden := []; om_bodyLines := (0)%Z |} [(Node 6 [] (VarDecl {| v_isParm := true; v_name := $"value"; v_used := false; v_referenced := false; v_local := false; v_staticMember := false; v_private := false; v_unusedAttr := false; v_defaultArg := false; v_canonicalType := $"int"; v_inTemplate := false; v_contexts := [CxObjCMethod true false false false; CxOther] |} None))] None)); (Node 7 [] (ObjCMethodDecl {| om_selector := $"numberWithUnsignedInt:"; om_class := (Some $"NSNumber"); om_overriding := false; om_overridden := []; om_bodyLines := (0)%Z |} [(Node 8 [] (VarDecl {| v_isParm := true; v_name := $"value"; v_used := false; v_referenced := false; v_local := false; v_staticMember := false; v_private := false; v_unusedAttr := false; v_defaultArg := false; v_canonicalType := $"unsigned int"; v_inTemplate := false; v_contexts := [CxObjCMethod true false false false; CxOther] |} None))] None)); (Node 9 [] (ObjCMethodDecl {| om_selector := $"numberWithLong:"; om_class := (Some $"NSNumber"); om_overriding := false; om_overridden := []; om_bodyLines := (0)%Z |} [(Node 10 [] (VarDecl {| v_isParm := true; v_name := $"value"; v_used := false; v_referenced := false; v_local := false; v_staticMember := false; v_private := false; v_unusedAttr := false; v_defaultArg := false; v_canonicalType := $"long"; v_inTemplate := false; v_contexts := [CxObjCMethod true false false false; CxOther] |} None))] None)); (Node 11 [] (ObjCMethodDecl {| om_selector := $"numberWithUnsignedLong:"; om_class := (Some $"NSNumber"); om_overriding := false; om_overridden := []; om_bodyLines := (0)%Z |} [(Node 12 [] (VarDecl {| v_isParm := true; v_name := $"value"; v_used := false; v_referenced := false; v_local := false; v_staticMember := false; v_private := false; v_unusedAttr := false; v_defaultArg := false; v_canonicalType := $"unsigned long"; v_inTemplate := false; v_contexts := [CxObjCMethod true false false false; CxOther] |} None))] None)); (Node 13 [] (ObjCMethodDecl {| om_selector := $"numberWithLongLong:"; om_class := (Some $"NSNumber"); om_overriding := false; om_overridden := []; om_bodyLines := (0)%Z |} [(Node 14 [] (VarDecl {| v_isParm := true; v_name := $"value"; v_used := false; v_referenced := false; v_local := false; v_staticMember := false; v_private := false; v_unusedAttr := false; v_defaultArg := false; v_canonicalType := $"long long"; v_inTemplate := false; v_contexts := [CxObjCMethod true false false false; CxOther] |} None))] None)); (Node 15 [] (ObjCMethodDecl {| om_selector := $"numberWithUnsignedLongLong:"; om_class := (Some $"NSNumber"); om_overriding := false; om_overridden := []; om_bodyLines := (0)%Z |} [(Node 16 [] (VarDecl {| v_isParm := true; v_name := $"value"; v_used := false; v_referenced := false; v_local := false; v_staticMember := false; v_private := false; v_unusedAttr := false; v_defaultArg := false; v_canonicalType := $"unsigned long long"; v_inTemplate := false; v_contexts := [CxObjCMethod true false false false; CxOther] |} None))] None)); (Node 17 [] (ObjCMethodDecl {| om_selector := $"numberWithFloat:"; om_class := (Some $"NSNumber"); om_overriding := false; om_overridden := []; om_bodyLines := (0)%Z |} [(Node 18 [] (VarDecl {| v_isParm := true; v_name := $"value"; v_used := false; v_referenced := false; v_local := false; v_staticMember := false; v_private := false; v_unusedAttr := false; v_defaultArg := false; v_canonicalType := $"float"; v_inTemplate := false; v_contexts := [CxObjCMethod true false false false; CxOther] |} None))] None)); (Node 19 [] (ObjCMethodDecl {| om_selector := $"numberWithDouble:"; om_class := (Some $"NSNumber"); om_overriding := false; om_overridden := []; om_bodyLines := (0)%Z |} [(Node 20 [] (VarDecl {| v_isParm := true; v_name := $"value"; v_used := false; v_referenced := false; v_local := false; v_staticMember := false; v_private := false; v_unusedAttr := false; v_defaultArg := false; v_canonicalType := $"double"; v_inTemplate := false; v_contexts := [CxObjCMethod true false false false; CxOther] |} None))] None)); (Node 21 [] (ObjCMethodDecl {| om_selector := $"numberWithBool:"; om_class := (Some $"NSNumber"); om_overriding := false; om_overridden := []; om_bodyLines := (0)%Z |} [(Node 22 [] (VarDecl {| v_isParm := true; v_name := $"value"; v_used := false; v_referenced := false; v_local := false; v_staticMember := false; v_private := false; v_unusedAttr := false; v_defaultArg := false; v_canonicalType := $"signed char"; v_inTemplate := false; v_contexts := [CxObjCMethod true false false false; CxOther] |} None))] None)); (Node 23 [] (ObjCMethodDecl {| om_selector := $"numberWithUnsignedChar:"; om_class := (Some $"NSNumber"); om_overriding := false; om_overridden := []; om_bodyLines := (0)%Z |} [(Node 24 [] (VarDecl {| v_isParm := true; v_name := $"value"; v_used := false; v_referenced := false; v_local := false; v_staticMember := false; v_private := false; v_unusedAttr := false; v_defaultArg := false; v_canonicalType := $"unsigned char"; v_inTemplate := false; v_contexts := [CxObjCMethod true false false false; CxOther] |} None))] None))]))); (toplevel 25 (TFunction false), (Node 25 [] (FunctionDecl {| f_name := $"m"; f_method := None; f_isDefinition := true; f_bodyLines := (1)%Z |} [] (Some (Node 26 [] (CompoundStmt [(Node 27 [] (DeclStmt [(Node 28 [] (VarDecl {| v_isParm := false; v_name := $"fortyTwoUnsignedLongLong"; v_used := false; v_referenced := false; v_local := true; v_staticMember := false; v_private := false; v_unusedAttr := false; v_defaultArg := false; v_canonicalType := $"NSNumber *"; v_inTemplate := false; v_contexts := [CxFunction true true false] |} (Some (Node 29 $"NSNumber *" (OtherExpr [(Node 30 $"unsigned long long" (IntegerLiteral (42)%Z))])))))]))]))))))];
     ts_locs := [(2,1,2,21); (3,1,4,2); (5,1,17,2); (6,1,6,41); (6,31,6,36); (7,1,7,39); (7,30,7,34); (8,1,8,56); (8,38,8,51); (9,1,9,41); (9,31,9,36); (10,1,10,58); (10,39,10,53); (11,1,11,50); (11,35,11,45); (12,1,12,67); (12,43,12,62); (13,1,13,43); (13,32,13,38); (14,1,14,45); (14,33,14,40); (15,1,15,41); (15,31,15,36); (16,1,16,58); (16,39,16,53); (18,1,18,57); (18,10,18,57); (18,12,18,55); (18,12,18,50); (18,49,18,50); (18,50,18,50)]%Z;
     ts_evals := []; ts_same := []; ts_decls := []; ts_parents := [] |}.
Example ObjCNSNumberLiterals_UnsignedLongLongLiteral_holds : sorted_violations_of (shippedRule sh_ObjCNSNumberLiterals) ObjCNSNumberLiterals_UnsignedLongLongLiteral = Some [].
Proof. vm_compute. reflexivity. Qed.

Definition ObjCNSNumberLiterals_NumberWithUnsignedLongLong : testcase :=
  {| ts_lang := LObjC; ts_path := $"input.m"; ts_code := [];
     ts_comments := []; ts_conf := [];
     ts_tops := [(toplevel 0 (TOther), (Node 0 [] (OtherDecl []))); (toplevel 1 (TOther), (Node 1 [] (ObjCContainerDecl {| oc_kind := OKInterface; oc_name := $"NSObject"; oc_lines := (2)%Z; oc_ivars := 0; oc_methods := []; oc_classes := [$"NSObject"]; oc_superMethods := None |} []))); (toplevel 2 (TOther), (Node 2 [] (ObjCContainerDecl {| oc_kind := OKInterface; oc_name := $"NSNumber"; oc_lines := (13)%Z; oc_ivars := 0; oc_methods := [($"numberWithChar:", false); ($"numberWithInt:", false); ($"numberWithUnsignedInt:", false); ($"numberWithLong:", false); ($"numberWithUnsignedLong:", false); ($"numberWithLongLong:", false); ($"numberWithUnsignedLongLong:", false); ($"numberWithFloat:", false); ($"numberWithDouble:", false); ($"numberWithBool:", false); ($"numberWithUnsignedChar:", false)]; oc_classes := [$"NSNumber"; $"NSObject"]; oc_superMethods := (Some ($"NSObject", [])) |} [(Node 3 [] (ObjCMethodDecl {| om_selector := $"numberWithChar:"; om_class := (Some $"NSNumber"); om_overriding := false; om_overridden := []; om_bodyLines := (0)%Z |} [(Node 4 [] (VarDecl {| v_isParm := true; v_name := $"value"; v_used := false; v_referenced := false; v_local := false; v_staticMember := false; v_private := false; v_unusedAttr := false; v_defaultArg := false; v_canonicalType := $"char"; v_inTemplate := false; v_contexts := [CxObjCMethod true false false false; CxOther] |} None))] None)); (Node 5 [] (ObjCMethodDecl {| om_selector := $"numberWithInt:"; om_class := (Some $"NSNumber"); om_overriding := false; om_overridden := []; om_bodyLines := (0)%Z |} [(Node 6 [] (VarDecl {| v_isParm := true; v_name := $"value"; v_used := false; v_referenced := false; v_local := false; v_staticMember := false; v_private := false; v_unusedAttr := false; v_defaultArg := false; v_canonicalType := $"int"; v_inTemplate := false; v_contexts := [CxObjCMethod true false false false; CxOther] |} None))] None)); (Node 7 [] (ObjCMethodDecl {| om_selector := $"numberWithUnsignedInt:"; om_class := (Some $"NSNumber"); om_overriding := false; om_overridden := []; om_bodyLines := (0)%Z |} [(Node 8 [] (VarDecl {| v_isParm := true; v_name := $"value"; v_used := false; v_referenced := false; v_local := false; v_staticMember := false; v_private := false; v_unusedAttr := false; v_defaultArg := false; v_canonicalType := $"unsigned int"; v_inTemplate := false; v_contexts := [CxObjCMethod true false false false; CxOther] |} None))] None)); (Node 9 [] (ObjCMethodDecl {| om_selector := $"numberWithLong:"; om_class := (Some $"NSNumber"); om_overriding := false; om_overridden := []; om_bodyLines := (0)%Z |} [(Node 10 [] (VarDecl {| v_isParm := true; v_name := $"value"; v_used := false; v_referenced := false; v_local := false; v_staticMember := false; v_private := false; v_unusedAttr := false; v_defaultArg := false; v_canonicalType := $"long"; v_inTemplate := false; v_contexts := [CxObjCMethod true false false false; CxOther] |} None))] None)); (Node 11 [] (ObjCMethodDecl {| om_selector := $"numberWithUnsignedLong:"; om_class := (Some $"NSNumber"); om_overriding := false; om_overridden := []; om_bodyLines := (0)%Z |} [(Node 12 [] (VarDecl {| v_isParm := true; v_name := $"value"; v_used := false; v_referenced := false; v_local := false; v_staticMember := false; v_private := false; v_unusedAttr := false; v_defaultArg := false; v_canonicalType := $"unsigned long"; v_inTemplate := false; v_contexts := [CxObjCMethod true false false false; CxOther] |} None))] None)); (Node 13 [] (ObjCMethodDecl {| om_selector := $"numberWithLongLong:"; om_class := (Some $"NSNumber"); om_overriding := false; om_overridden := []; om_bodyLines := (0)%Z |} [(Node 14 [] (VarDecl {| v_isParm := true; v_name := $"value"; v_used := false; v_referenced := false; v_local := false; v_staticMember := false; v_private := false; v_unusedAttr := false; v_defaultArg := false; v_canonicalType := $"long long"; v_inTemplate := false; v_contexts := [CxObjCMethod true false false false; CxOther] |} None))] None)); (Node 15 [] (ObjCMethodDecl {| om_selector := $"numberWithUnsignedLongLong:"; om_class := (Some $"NSNumber"); om_overriding := false; om_overridden := []; om_bodyLines := (0)%Z |} [(Node 16 [] (VarDecl {| v_isParm := true; v_name := $"value"; v_used := false; v_referenced := false; v_local := false; v_staticMember := false; v_private := false; v_unusedAttr := false; v_defaultArg := false; v_canonicalType := $"unsigned long long"; v_inTemplate := false; v_contexts := [CxObjCMethod true false false false; CxOther] |} None))] None)); (Node 17 [] (ObjCMethodDecl {| om_selector := $"numberWithFloat:"; om_class := (Some $"NSNumber"); om_overriding := false; om_overridden := []; om_bodyLines := (0)%Z |} [(Node 18 [] (VarDecl {| v_isParm := true; v_name := $"value"; v_used := false; v_referenced := false; v_local := false; v_staticMember := false; v_private := false; v_unusedAttr := false; v_defaultArg := false; v_canonicalType := $"float"; v_inTemplate := false; v_contexts := [CxObjCMethod true false false false; CxOther] |} None))] None)); (Node 19 [] (ObjCMethodDecl {| om_selector := $"numberWithDouble:"; om_class := (Some $"NSNumber"); om_overriding := false; om_overridden := []; om_bodyLines := (0)%Z |} [(Node 20 [] (VarDecl {| v_isParm := true; v_name := $"value"; v_used := false; v_referenced := false; v_local := false; v_staticMember := false; v_private := false; v_unusedAttr := false; v_defaultArg := false; v_canonicalType := $"double"; v_inTemplate := false; v_contexts := [CxObjCMethod true false false false; CxOther] |} None))] None)); (Node 21 [] (ObjCMethodDecl {| om_selector := $"numberWithBool:"; om_class := (Some $"NSNumber"); om_overriding := false; om_overridden := []; om_bodyLines := (0)%Z |} [(Node 22 [] (VarDecl {| v_isParm := true; v_name := $"value"; v_used := false; v_referenced := false; v_local := false; v_staticMember := false; v_private := false; v_unusedAttr := false; v_defaultArg := false; v_canonicalType := $"signed char"; v_inTemplate := false; v_contexts := [CxObjCMethod true false false false; CxOther] |} None))] None)); (Node 23 [] (ObjCMethodDecl {| om_selector := $"numberWithUnsignedChar:"; om_class := (Some $"NSNumber"); om_overriding := false; om_overridden := []; om_bodyLines := (0)%Z |} [(Node 24 [] (VarDecl {| v_isParm := true; v_name := $"value"; v_used := false; v_referenced := false; v_local := false; v_staticMember := false; v_private := false; v_unusedAttr := false; v_defaultArg := false; v_canonicalType := $"unsigned char"; v_inTemplate := false; v_contexts := [CxObjCMethod true false false false; CxOther] |} None))] None))]))); (toplevel 25 (TFunction false), (Node 25 [] (FunctionDecl {| f_name := $"m"; f_method := None; f_isDefinition := true; f_bodyLines := (1)%Z |} [] (Some (Node 26 [] (CompoundStmt [(Node 27 [] (DeclStmt [(Node 28 [] (VarDecl {| v_isParm := false; v_name := $"fortyTwoUnsignedLongLong"; v_used := false; v_referenced := false; v_local := true; v_staticMember := false; v_private := false; v_unusedAttr := false; v_defaultArg := false; v_canonicalType := $"NSNumber *"; v_inTemplate := false; v_contexts := [CxFunction true true false] |} (Some (Node 29 $"NSNumber *" (ObjCMessageExpr {| ms_selector := $"numberWithUnsignedLongLong:"; ms_receiver := (RClass $"NSNumber"); ms_implicit := false; ms_interface := (Some $"NSNumber"); ms_method := (Some (Decl [] (Some (Method false None (InOther (Some NoCategory)))))); ms_methodClass := (Some $"NSNumber") |} None [(Node 30 $"unsigned long long" (IntegerLiteral (42)%Z))])))))]))]))))))];
     ts_locs := [(2,1,2,21); (3,1,4,2); (5,1,17,2); (6,1,6,41); (6,31,6,36); (7,1,7,39); (7,30,7,34); (8,1,8,56); (8,38,8,51); (9,1,9,41); (9,31,9,36); (10,1,10,58); (10,39,10,53); (11,1,11,50); (11,35,11,45); (12,1,12,67); (12,43,12,62); (13,1,13,43); (13,32,13,38); (14,1,14,45); (14,33,14,40); (15,1,15,41); (15,31,15,36); (16,1,16,58); (16,39,16,53); (18,1,18,94); (18,10,18,94); (18,12,18,92); (18,12,18,91); (18,49,18,91); (18,86,18,86)]%Z;
     ts_evals := []; ts_same := []; ts_decls := []; ts_parents := [] |}.
Example ObjCNSNumberLiterals_NumberWithUnsignedLongLong_holds : nth_violation (shippedRule sh_ObjCNSNumberLiterals) ObjCNSNumberLiterals_NumberWithUnsignedLongLong 0 = Some (18, 49, 18, 91, $"")%Z.
Proof. vm_compute. reflexivity. Qed.

Definition ObjCNSNumberLiterals_NumberWithUnsignedLongLong_2 : testcase :=
  {| ts_lang := LObjC; ts_path := $"input.m"; ts_code := [];
     ts_comments := []; ts_conf := [];
     ts_tops := [(toplevel 0 (TOther), (Node 0 [] (OtherDecl []))); (toplevel 1 (TOther), (Node 1 [] (ObjCContainerDecl {| oc_kind := OKInterface; oc_name := $"NSObject"; oc_lines := (2)%Z; oc_ivars := 0; oc_methods := []; oc_classes := [$"NSObject"]; oc_superMethods := None |} []))); (toplevel 2 (TOther), (Node 2 [] (ObjCContainerDecl {| oc_kind := OKInterface; oc_name := $"NSNumber"; oc_lines := (13)%Z; oc_ivars := 0; oc_methods := [($"numberWithChar:", false); ($"numberWithInt:", false); ($"numberWithUnsignedInt:", false); ($"numberWithLong:", false); ($"numberWithUnsignedLong:", false); ($"numberWithLongLong:", false); ($"numberWithUnsignedLongLong:", false); ($"numberWithFloat:", false); ($"numberWithDouble:", false); ($"numberWithBool:", false); ($"numberWithUnsignedChar:", false)]; oc_classes := [$"NSNumber"; $"NSObject"]; oc_superMethods := (Some ($"NSObject", [])) |} [(Node 3 [] (ObjCMethodDecl {| om_selector := $"numberWithChar:"; om_class := (Some $"NSNumber"); om_overriding := false; om_overridden := []; om_bodyLines := (0)%Z |} [(Node 4 [] (VarDecl {| v_isParm := true; v_name := $"value"; v_used := false; v_referenced := false; v_local := false; v_staticMember := false; v_private := false; v_unusedAttr := false; v_defaultArg := false; v_canonicalType := $"char"; v_inTemplate := false; v_contexts := [CxObjCMethod true false false false; CxOther] |} None))] None)); (Node 5 [] (ObjCMethodDecl {| om_selector := $"numberWithInt:"; om_class := (Some $"NSNumber"); om_overriding := false; om_overridden := []; om_bodyLines := (0)%Z |} [(Node 6 [] (VarDecl {| v_isParm := true; v_name := $"value"; v_used := false; v_referenced := false; v_local := false; v_staticMember := false; v_private := false; v_unusedAttr := false; v_defaultArg := false; v_canonicalType := $"int"; v_inTemplate := false; v_contexts := [CxObjCMethod true false false false; CxOther] |} None))] None)); (Node 7 [] (ObjCMethodDecl {| om_selector := $"numberWithUnsignedInt:"; om_class := (Some $"NSNumber"); om_overriding := false; om_overridden := []; om_bodyLines := (0)%Z |} [(Node 8 [] (VarDecl {| v_isParm := true; v_name := $"value"; v_used := false; v_referenced := false; v_local := false; v_staticMember := false; v_private := false; v_unusedAttr := false; v_defaultArg := false; v_canonicalType := $"unsigned int"; v_inTemplate := false; v_contexts := [CxObjCMethod true false false false; CxOther] |} None))] None)); (Node 9 [] (ObjCMethodDecl {| om_selector := $"numberWithLong:"; om_class := (Some $"NSNumber"); om_overriding := false; om_overridden := []; om_bodyLines := (0)%Z |} [(Node 10 [] (VarDecl {| v_isParm := true; v_name := $"value"; v_used := false; v_referenced := false; v_local := false; v_staticMember := false; v_private := false; v_unusedAttr := false; v_defaultArg := false; v_canonicalType := $"long"; v_inTemplate := false; v_contexts := [CxObjCMethod true false false false; CxOther] |} None))] None)); (Node 11 [] (ObjCMethodDecl {| om_selector := $"numberWithUnsignedLong:"; om_class := (Some $"NSNumber"); om_overriding := false; om_overridden := []; om_bodyLines := (0)%Z |} [(Node 12 [] (VarDecl {| v_isParm := true; v_name := $"value"; v_used := false; v_referenced := false; v_local := false; v_staticMember := false; v_private := false; v_unusedAttr := false; v_defaultArg := false; v_canonicalType := $"unsigned long"; v_inTemplate := false; v_contexts := [CxObjCMethod true false false false; CxOther] |} None))] None)); (Node 13 [] (ObjCMethodDecl {| om_selector := $"numberWithLongLong:"; om_class := (Some $"NSNumber"); om_overriding := false; om_overridden := []; om_bodyLines := (0)%Z |} [(Node 14 [] (VarDecl {| v_isParm := true; v_name := $"value"; v_used := false; v_referenced := false; v_local := false; v_staticMember := false; v_private := false; v_unusedAttr := false; v_defaultArg := false; v_canonicalType := $"long long"; v_inTemplate := false; v_contexts := [CxObjCMethod true false false false; CxOther] |} None))] None)); (Node 15 [] (ObjCMethodDecl {| om_selector := $"numberWithUnsignedLongLong:"; om_class := (Some $"NSNumber"); om_overriding := false; om_overridden := []; om_bodyLines := (0)%Z |} [(Node 16 [] (VarDecl {| v_isParm := true; v_name := $"value"; v_used := false; v_referenced := false; v_local := false; v_staticMember := false; v_private := false; v_unusedAttr := false; v_defaultArg := false; v_canonicalType := $"unsigned long long"; v_inTemplate := false; v_contexts := [CxObjCMethod true false false false; CxOther] |} None))] None)); (Node 17 [] (ObjCMethodDecl {| om_selector := $"numberWithFloat:"; om_class := (Some $"NSNumber"); om_overriding := false; om_overridden := []; om_bodyLines := (0)%Z |} [(Node 18 [] (VarDecl {| v_isParm := true; v_name := $"value"; v_used := false; v_referenced := false; v_local := false; v_staticMember := false; v_private := false; v_unusedAttr := false; v_defaultArg := false; v_canonicalType := $"float"; v_inTemplate := false; v_contexts := [CxObjCMethod true false false false; CxOther] |} None))] None)); (Node 19 [] (ObjCMethodDecl {| om_selector := $"numberWithDouble:"; om_class := (Some $"NSNumber"); om_overriding := false; om_overridden := []; om_bodyLines := (0)%Z |} [(Node 20 [] (VarDecl {| v_isParm := true; v_name := $"value"; v_used := false; v_referenced := false; v_local := false; v_staticMember := false; v_private := false; v_unusedAttr := false; v_defaultArg := false; v_canonicalType := $"double"; v_inTemplate := false; v_contexts := [CxObjCMethod true false false false; CxOther] |} None))] None)); (Node 21 [] (ObjCMethodDecl {| om_selector := $"numberWithBool:"; om_class := (Some $"NSNumber"); om_overriding := false; om_overridden := []; om_bodyLines := (0)%Z |} [(Node 22 [] (VarDecl {| v_isParm := true; v_name := $"value"; v_used := false; v_referenced := false; v_local := false; v_staticMember := false; v_private := false; v_unusedAttr := false; v_defaultArg := false; v_canonicalType := $"signed char"; v_inTemplate := false; v_contexts := [CxObjCMethod true false false false; CxOther] |} None))] None)); (Node 23 [] (ObjCMethodDecl {| om_selector := $"numberWithUnsignedChar:"; om_class := (Some $"NSNumber"); om_overriding := false; om_overridden := []; om_bodyLines := (0)%Z |} [(Node 24 [] (VarDecl {| v_isParm := true; v_name := $"value"; v_used := false; v_referenced := false; v_local := false; v_staticMember := false; v_private := false; v_unusedAttr := false; v_defaultArg := false; v_canonicalType := $"unsigned char"; v_inTemplate := false; v_contexts := [CxObjCMethod true false false false; CxOther] |} None))] None))]))); (toplevel 25 (TFunction false), (Node 25 [] (FunctionDecl {| f_name := $"m"; f_method := None; f_isDefinition := true; f_bodyLines := (1)%Z |} [] (Some (Node 26 [] (CompoundStmt [(Node 27 [] (DeclStmt [(Node 28 [] (VarDecl {| v_isParm := false; v_name := $"fortyTwoUnsignedLongLong"; v_used := false; v_referenced := false; v_local := true; v_staticMember := false; v_private := false; v_unusedAttr := false; v_defaultArg := false; v_canonicalType := $"NSNumber *"; v_inTemplate := false; v_contexts := [CxFunction true true false] |} (Some (Node 29 $"NSNumber *" (ObjCMessageExpr {| ms_selector := $"numberWithUnsignedLongLong:"; ms_receiver := (RClass $"NSNumber"); ms_implicit := false; ms_interface := (Some $"NSNumber"); ms_method := (Some (Decl [] (Some (Method false None (InOther (Some NoCategory)))))); ms_methodClass := (Some $"NSNumber") |} None [(Node 30 $"unsigned long long" (IntegerLiteral (42)%Z))])))))]))]))))))];
     ts_locs := [(2,1,2,21); (3,1,4,2); (5,1,17,2); (6,1,6,41); (6,31,6,36); (7,1,7,39); (7,30,7,34); (8,1,8,56); (8,38,8,51); (9,1,9,41); (9,31,9,36); (10,1,10,58); (10,39,10,53); (11,1,11,50); (11,35,11,45); (12,1,12,67); (12,43,12,62); (13,1,13,43); (13,32,13,38); (14,1,14,45); (14,33,14,40); (15,1,15,41); (15,31,15,36); (16,1,16,58); (16,39,16,53); (18,1,18,94); (18,10,18,94); (18,12,18,92); (18,12,18,91); (18,49,18,91); (18,86,18,86)]%Z;
     ts_evals := []; ts_same := []; ts_decls := []; ts_parents := [] |}.
Example ObjCNSNumberLiterals_NumberWithUnsignedLongLong_2_holds : nth_violation (shippedRule sh_ObjCNSNumberLiterals) ObjCNSNumberLiterals_NumberWithUnsignedLongLong_2 0 = Some (18, 49, 18, 91, $"")%Z.
Proof. vm_compute. reflexivity. Qed.

Definition ObjCNSNumberLiterals_NumberWithBoxedUnsignedLongLong : testcase :=
  {| ts_lang := LObjC; ts_path := $"input.m"; ts_code := [];
     ts_comments := []; ts_conf := [];
     ts_tops := [(toplevel 0 (TOther), (Node 0 [] (OtherDecl []))); (toplevel 1 (TOther), (Node 1 [] (ObjCContainerDecl {| oc_kind := OKInterface; oc_name := $"NSObject"; oc_lines := (2)%Z; oc_ivars := 0; oc_methods := []; oc_classes := [$"NSObject"]; oc_superMethods := None |} []))); (toplevel 2 (TOther), (Node 2 [] (ObjCContainerDecl {| oc_kind := OKInterface; oc_name := $"NSNumber"; oc_lines := (13)%Z; oc_ivars := 0; oc_methods := [($"numberWithChar:", false); ($"numberWithInt:", false); ($"numberWithUnsignedInt:", false); ($"numberWithLong:", false); ($"numberWithUnsignedLong:", false); ($"numberWithLongLong:", false); ($"numberWithUnsignedLongLong:", false); ($"numberWithFloat:", false); ($"numberWithDouble:", false); ($"numberWithBool:", false); ($"numberWithUnsignedChar:", false)]; oc_classes := [$"NSNumber"; $"NSObject"]; oc_superMethods := (Some ($"NSObject", [])) |} [(Node 3 [] (ObjCMethodDecl {| om_selector := $"numberWithChar:"; om_class := (Some $"NSNumber"); om_overriding := false; om_overridden := []; om_bodyLines := (0)%Z |} [(Node 4 [] (VarDecl {| v_isParm := true; v_name := $"value"; v_used := false; v_referenced := false; v_local := false; v_staticMember := false; v_private := false; v_unusedAttr := false; v_defaultArg := false; v_canonicalType := $"char"; v_inTemplate := false; v_contexts := [CxObjCMethod true false false false; CxOther] |} None))] None)); (Node 5 [] (ObjCMethodDecl {| om_selector := $"numberWithInt:"; om_class := (Some $"NSNumber"); om_overriding := false; om_overridden := []; om_bodyLines := (0)%Z |} [(Node 6 [] (VarDecl {| v_isParm := true; v_name := $"value"; v_used := false; v_referenced := false; v_local := false; v_staticMember := false; v_private := false; v_unusedAttr := false; v_defaultArg := false; v_canonicalType := $"int"; v_inTemplate := false; v_contexts := [CxObjCMethod true false false false; CxOther] |} None))] None)); (Node 7 [] (ObjCMethodDecl {| om_selector := $"numberWithUnsignedInt:"; om_class := (Some $"NSNumber"); om_overriding := false; om_overridden := []; om_bodyLines := (0)%Z |} [(Node 8 [] (VarDecl {| v_isParm := true; v_name := $"value"; v_used := false; v_referenced := false; v_local := false; v_staticMember := false; v_private := false; v_unusedAttr := false; v_defaultArg := false; v_canonicalType := $"unsigned int"; v_inTemplate := false; v_contexts := [CxObjCMethod true false false false; CxOther] |} None))] None)); (Node 9 [] (ObjCMethodDecl {| om_selector := $"numberWithLong:"; om_class := (Some $"NSNumber"); om_overriding := false; om_overridden := []; om_bodyLines := (0)%Z |} [(Node 10 [] (VarDecl {| v_isParm := true; v_name := $"value"; v_used := false; v_referenced := false; v_local := false; v_staticMember := false; v_private := false; v_unusedAttr := false; v_defaultArg := false; v_canonicalType := $"long"; v_inTemplate := false; v_contexts := [CxObjCMethod true false false false; CxOther] |} None))] None)); (Node 11 [] (ObjCMethodDecl {| om_selector := $"numberWithUnsignedLong:"; om_class := (Some $"NSNumber"); om_overriding := false; om_overridden := []; om_bodyLines := (0)%Z |} [(Node 12 [] (VarDecl {| v_isParm := true; v_name := $"value"; v_used := false; v_referenced := false; v_local := false; v_staticMember := false; v_private := false; v_unusedAttr := false; v_defaultArg := false; v_canonicalType := $"unsigned long"; v_inTemplate := false; v_contexts := [CxObjCMethod true false false false; CxOther] |} None))] None)); (Node 13 [] (ObjCMethodDecl {| om_selector := $"numberWithLongLong:"; om_class := (Some $"NSNumber"); om_overriding := false; om_overridden := []; om_bodyLines := (0)%Z |} [(Node 14 [] (VarDecl {| v_isParm := true; v_name := $"value"; v_used := false; v_referenced := false; v_local := false; v_staticMember := false; v_private := false; v_unusedAttr := false; v_defaultArg := false; v_canonicalType := $"long long"; v_inTemplate := false; v_contexts := [CxObjCMethod true false false false; CxOther] |} None))] None)); (Node 15 [] (ObjCMethodDecl {| om_selector := $"numberWithUnsignedLongLong:"; om_class := (Some $"NSNumber"); om_overriding := false; om_overridden := []; om_bodyLines := (0)%Z |} [(Node 16 [] (VarDecl {| v_isParm := true; v_name := $"value"; v_used := false; v_referenced := false; v_local := false; v_staticMember := false; v_private := false; v_unusedAttr := false; v_defaultArg := false; v_canonicalType := $"unsigned long long"; v_inTemplate := false; v_contexts := [CxObjCMethod true false false false; CxOther] |} None))] None)); (Node 17 [] (ObjCMethodDecl {| om_selector := $"numberWithFloat:"; om_class := (Some $"NSNumber"); om_overriding := false; om_overridden := []; om_bodyLines := (0)%Z |} [(Node 18 [] (VarDecl {| v_isParm := true; v_name := $"value"; v_used := false; v_referenced := false; v_local := false; v_staticMember := false; v_private := false; v_unusedAttr := false; v_defaultArg := false; v_canonicalType := $"float"; v_inTemplate := false; v_contexts := [CxObjCMethod true false false false; CxOther] |} None))] None)); (Node 19 [] (ObjCMethodDecl {| om_selector := $"numberWithDouble:"; om_class := (Some $"NSNumber"); om_overriding := false; om_overridden := []; om_bodyLines := (0)%Z |} [(Node 20 [] (VarDecl {| v_isParm := true; v_name := $"value"; v_used := false; v_referenced := false; v_local := false; v_staticMember := false; v_private := false; v_unusedAttr := false; v_defaultArg := false; v_canonicalType := $"double"; v_inTemplate := false; v_contexts := [CxObjCMethod true false false false; CxOther] |} None))] None)); (Node 21 [] (ObjCMethodDecl {| om_selector := $"numberWithBool:"; om_class := (Some $"NSNumber"); om_overriding := false; om_overridden := []; om_bodyLines := (0)%Z |} [(Node 22 [] (VarDecl {| v_isParm := true; v_name := $"value"; v_used := false; v_referenced := false; v_local := false; v_staticMember := false; v_private := false; v_unusedAttr := false; v_defaultArg := false; v_canonicalType := $"signed char"; v_inTemplate := false; v_contexts := [CxObjCMethod true false false false; CxOther] |} None))] None)); (Node 23 [] (ObjCMethodDecl {| om_selector := $"numberWithUnsignedChar:"; om_class := (Some $"NSNumber"); om_overriding := false; om_overridden := []; om_bodyLines := (0)%Z |} [(Node 24 [] (VarDecl {| v_isParm := true; v_name := $"value"; v_used := false; v_referenced := false; v_local := false; v_staticMember := false; v_private := false; v_unusedAttr := false; v_defaultArg := false; v_canonicalType := $"unsigned char"; v_inTemplate := false; v_contexts := [CxObjCMethod true false false false; CxOther] |} None))] None))]))); (toplevel 25 (TFunction false), (Node 25 [] (FunctionDecl {| f_name := $"m"; f_method := None; f_isDefinition := true; f_bodyLines := (1)%Z |} [] (Some (Node 26 [] (CompoundStmt [(Node 27 [] (DeclStmt [(Node 28 [] (VarDecl {| v_isParm := false; v_name := $"fortyTwoUnsignedLongLong"; v_used := false; v_referenced := false; v_local := true; v_staticMember := false; v_private := false; v_unusedAttr := false; v_defaultArg := false; v_canonicalType := $"NSNumber *"; v_inTemplate := false; v_contexts := [CxFunction true true false] |} (Some (Node 29 $"NSNumber *" (ObjCMessageExpr {| ms_selector := $"numberWithUnsignedLongLong:"; ms_receiver := (RClass $"NSNumber"); ms_implicit := false; ms_interface := (Some $"NSNumber"); ms_method := (Some (Decl [] (Some (Method false None (InOther (Some NoCategory)))))); ms_methodClass := (Some $"NSNumber") |} None [(Node 30 $"unsigned long long" (ParenExpr (Node 31 $"unsigned long long" (BinaryOperator BO_Other (Node 32 $"unsigned long long" (IntegerLiteral (43)%Z)) (Node 33 $"unsigned long long" (IntegerLiteral (1)%Z))))))])))))]))]))))))];
     ts_locs := [(2,1,2,21); (3,1,4,2); (5,1,17,2); (6,1,6,41); (6,31,6,36); (7,1,7,39); (7,30,7,34); (8,1,8,56); (8,38,8,51); (9,1,9,41); (9,31,9,36); (10,1,10,58); (10,39,10,53); (11,1,11,50); (11,35,11,45); (12,1,12,67); (12,43,12,62); (13,1,13,43); (13,32,13,38); (14,1,14,45); (14,33,14,40); (15,1,15,41); (15,31,15,36); (16,1,16,58); (16,39,16,53); (18,1,18,103); (18,10,18,103); (18,12,18,101); (18,12,18,100); (18,49,18,100); (18,86,18,99); (18,87,18,95); (18,87,18,87); (18,95,18,95)]%Z;
     ts_evals := []; ts_same := []; ts_decls := []; ts_parents := [] |}.
Example ObjCNSNumberLiterals_NumberWithBoxedUnsignedLongLong_holds : sorted_violations_of (shippedRule sh_ObjCNSNumberLiterals) ObjCNSNumberLiterals_NumberWithBoxedUnsignedLongLong = Some [].
Proof. vm_compute. reflexivity. Qed.

Definition ObjCNSNumberLiterals_FloatLiteral : testcase :=
  {| ts_lang := LObjC; ts_path := $"input.m"; ts_code := [];
     ts_comments := []; ts_conf := [];
     ts_tops := [(toplevel 0 (TOther), (Node 0 [] (OtherDecl []))); (toplevel 1 (TOther), (Node 1 [] (ObjCContainerDecl {| oc_kind := OKInterface; oc_name := $"NSObject"; oc_lines := (2)%Z; oc_ivars := 0; oc_methods := []; oc_classes := [$"NSObject"]; oc_superMethods := None |} []))); (toplevel 2 (TOther), (Node 2 [] (ObjCContainerDecl {| oc_kind := OKInterface; oc_name := $"NSNumber"; oc_lines := (13)%Z; oc_ivars := 0; oc_methods := [($"numberWithChar:", false); ($"numberWithInt:", false); ($"numberWithUnsignedInt:", false); ($"numberWithLong:", false); ($"numberWithUnsignedLong:", false); ($"numberWithLongLong:", false); ($"numberWithUnsignedLongLong:", false); ($"numberWithFloat:", false); ($"numberWithDouble:", false); ($"numberWithBool:", false); ($"numberWithUnsignedChar:", false)]; oc_classes := [$"NSNumber"; $"NSObject"]; oc_superMethods := (Some ($"NSObject", [])) |} [(Node 3 [] (ObjCMethodDecl {| om_selector := $"numberWithChar:"; om_class := (Some $"NSNumber"); om_overriding := false; om_overridden := []; om_bodyLines := (0)%Z |} [(Node 4 [] (VarDecl {| v_isParm := true; v_name := $"value"; v_used := false; v_referenced := false; v_local := false; v_staticMember := false; v_private := false; v_unusedAttr := false; v_defaultArg := false; v_canonicalType := $"char"; v_inTemplate := false; v_contexts := [CxObjCMethod true false false false; CxOther] |} None))] None)); (Node 5 [] (ObjCMethodDecl {| om_selector := $"numberWithInt:"; om_class := (Some $"NSNumber"); om_overriding := false; om_overridden := []; om_bodyLines := (0)%Z |} [(Node 6 [] (VarDecl {| v_isParm := true; v_name := $"value"; v_used := false; v_referenced := false; v_local := false; v_staticMember := false; v_private := false; v_unusedAttr := false; v_defaultArg := false; v_canonicalType := $"int"; v_inTemplate := false; v_contexts := [CxObjCMethod true false false false; CxOther] |} None))] None)); (Node 7 [] (ObjCMethodDecl {| om_selector := $"numberWithUnsignedInt:"; om_class := (Some $"NSNumber"); om_overriding := false; om_overridden := []; om_bodyLines := (0)%Z |} [(Node 8 [] (VarDecl {| v_isParm := true; v_name := $"value"; v_used := false; v_referenced := false; v_local := false; v_staticMember := false; v_private := false; v_unusedAttr := false; v_defaultArg := false; v_canonicalType := $"unsigned int"; v_inTemplate := false; v_contexts := [CxObjCMethod true false false false; CxOther] |} None))] None)); (Node 9 [] (ObjCMethodDecl {| om_selector := $"numberWithLong:"; om_class := (Some $"NSNumber"); om_overriding := false; om_overridden := []; om_bodyLines := (0)%Z |} [(Node 10 [] (VarDecl {| v_isParm := true; v_name := $"value"; v_used := false; v_referenced := false; v_local := false; v_staticMember := false; v_private := false; v_unusedAttr := false; v_defaultArg := false; v_canonicalType := $"long"; v_inTemplate := false; v_contexts := [CxObjCMethod true false false false; CxOther] |} None))] None)); (Node 11 [] (ObjCMethodDecl {| om_selector := $"numberWithUnsignedLong:"; om_class := (Some $"NSNumber"); om_overriding := false; om_overridden := []; om_bodyLines := (0)%Z |} [(Node 12 [] (VarDecl {| v_isParm := true; v_name := $"value"; v_used := false; v_referenced := false; v_local := false; v_staticMember := false; v_private := false; v_unusedAttr := false; v_defaultArg := false; v_canonicalType := $"unsigned long"; v_inTemplate := false; v_contexts := [CxObjCMethod true false false false; CxOther] |} None))] None)); (Node 13 [] (ObjCMethodDecl {| om_selector := $"numberWithLongLong:"; om_class := (Some $"NSNumber"); om_overriding := false; om_overridden := []; om_bodyLines := (0)%Z |} [(Node 14 [] (VarDecl {| v_isParm := true; v_name := $"value"; v_used := false; v_referenced := false; v_local := false; v_staticMember := false; v_private := false; v_unusedAttr := false; v_defaultArg := false; v_canonicalType := $"long long"; v_inTemplate := false; v_contexts := [CxObjCMethod true false false false; CxOther] |} None))] None)); (Node 15 [] (ObjCMethodDecl {| om_selector := $"numberWithUnsignedLongLong:"; om_class := (Some $"NSNumber"); om_overriding := false; om_overridden := []; om_bodyLines := (0)%Z |} [(Node 16 [] (VarDecl {| v_isParm := true; v_name := $"value"; v_used := false; v_referenced := false; v_local := false; v_staticMember := false; v_private := false; v_unusedAttr := false; v_defaultArg := false; v_canonicalType := $"unsigned long long"; v_inTemplate := false; v_contexts := [CxObjCMethod true false false false; CxOther] |} None))] None)); (Node 17 [] (ObjCMethodDecl {| om_selector := $"numberWithFloat:"; om_class := (Some $"NSNumber"); om_overriding := false; om_overridden := []; om_bodyLines := (0)%Z |} [(Node 18 [] (VarDecl {| v_isParm := true; v_name := $"value"; v_used := false; v_referenced := false; v_local := false; v_staticMember := false; v_private := false; v_unusedAttr := false; v_defaultArg := false; v_canonicalType := $"float"; v_inTemplate := false; v_contexts := [CxObjCMethod true false false false; CxOther] |} None))] None)); (Node 19 [] (ObjCMethodDecl {| om_selector := $"numberWithDouble:"; om_class := (Some $"NSNumber"); om_overriding := false; om_overridden := []; om_bodyLines := (0)%Z |} [(Node 20 [] (VarDecl {| v_isParm := true; v_name := $"value"; v_used := false; v_referenced := false; v_local := false; v_staticMember := false; v_private := false; v_unusedAttr := false; v_defaultArg := false; v_canonicalType := $"double"; v_inTemplate := false; v_contexts := [CxObjCMethod true false false false; CxOther] |} None))] None)); (Node 21 [] (ObjCMethodDecl {| om_selector := $"numberWithBool:"; om_class := (Some $"NSNumber"); om_overriding := false; om_overridden := []; om_bodyLines := (0)%Z |} [(Node 22 [] (VarDecl {| v_isParm := true; v_name := $"value"; v_used := false; v_referenced := false; v_local := false; v_staticMember := false; v_private := false; v_unusedAttr := false; v_defaultArg := false; v_canonicalType := $"signed char"; v_inTemplate := false; v_contexts := [CxObjCMethod true false false false; CxOther] |} None))] None)); (Node 23 [] (ObjCMethodDecl {| om_selector := $"numberWithUnsignedChar:"; om_class := (Some $"NSNumber"); om_overriding := false; om_overridden := []; om_bodyLines := (0)%Z |} [(Node 24 [] (VarDecl {| v_isParm := true; v_name := $"value"; v_used := false; v_referenced := false; v_local := false; v_staticMember := false; v_private := false; v_unusedAttr := false; v_defaultArg := false; v_canonicalType := $"unsigned char"; v_inTemplate := false; v_contexts := [CxObjCMethod true false false false; CxOther] |} None))] None))]))); (toplevel 25 (TFunction false), (Node 25 [] (FunctionDecl {| f_name := $"m"; f_method := None; f_isDefinition := true; f_bodyLines := (1)%Z |} [] (Some (Node 26 [] (CompoundStmt [(Node 27 [] (DeclStmt [(Node 28 [] (VarDecl {| v_isParm := false; v_name := $"fortyTwoFloat"; v_used := false; v_referenced := false; v_local := true; v_staticMember := false; v_private := false; v_unusedAttr := false; v_defaultArg := false; v_canonicalType := $"NSNumber *"; v_inTemplate := false; v_contexts := [CxFunction true true false] |} (Some (Node 29 $"NSNumber *" (OtherExpr [(Node 30 $"float" (FloatingLiteral (4614256656748904448)%Z))])))))]))]))))))];
     ts_locs := [(2,1,2,21); (3,1,4,2); (5,1,17,2); (6,1,6,41); (6,31,6,36); (7,1,7,39); (7,30,7,34); (8,1,8,56); (8,38,8,51); (9,1,9,41); (9,31,9,36); (10,1,10,58); (10,39,10,53); (11,1,11,50); (11,35,11,45); (12,1,12,67); (12,43,12,62); (13,1,13,43); (13,32,13,38); (14,1,14,45); (14,33,14,40); (15,1,15,41); (15,31,15,36); (16,1,16,58); (16,39,16,53); (18,1,18,54); (18,10,18,54); (18,12,18,52); (18,12,18,39); (18,38,18,39); (18,39,18,39)]%Z;
     ts_evals := []; ts_same := []; ts_decls := []; ts_parents := [] |}.
Example ObjCNSNumberLiterals_FloatLiteral_holds : sorted_violations_of (shippedRule sh_ObjCNSNumberLiterals) ObjCNSNumberLiterals_FloatLiteral = Some [].
Proof. vm_compute. reflexivity. Qed.

Definition ObjCNSNumberLiterals_NumberWithFloat : testcase :=
  {| ts_lang := LObjC; ts_path := $"input.m"; ts_code := [];
     ts_comments := []; ts_conf := [];
     ts_tops := [(toplevel 0 (TOther), (Node 0 [] (OtherDecl []))); (toplevel 1 (TOther), (Node 1 [] (ObjCContainerDecl {| oc_kind := OKInterface; oc_name := $"NSObject"; oc_lines := (2)%Z; oc_ivars := 0; oc_methods := []; oc_classes := [$"NSObject"]; oc_superMethods := None |} []))); (toplevel 2 (TOther), (Node 2 [] (ObjCContainerDecl {| oc_kind := OKInterface; oc_name := $"NSNumber"; oc_lines := (13)%Z; oc_ivars := 0; oc_methods := [($"numberWithChar:", false); ($"numberWithInt:", false); ($"numberWithUnsignedInt:", false); ($"numberWithLong:", false); ($"numberWithUnsignedLong:", false); ($"numberWithLongLong:", false); ($"numberWithUnsignedLongLong:", false); ($"numberWithFloat:", false); ($"numberWithDouble:", false); ($"numberWithBool:", false); ($"numberWithUnsignedChar:", false)]; oc_classes := [$"NSNumber"; $"NSObject"]; oc_superMethods := (Some ($"NSObject", [])) |} [(Node 3 [] (ObjCMethodDecl {| om_selector := $"numberWithChar:"; om_class := (Some $"NSNumber"); om_overriding := false; om_overridden := []; om_bodyLines := (0)%Z |} [(Node 4 [] (VarDecl {| v_isParm := true; v_name := $"value"; v_used := false; v_referenced := false; v_local := false; v_staticMember := false; v_private := false; v_unusedAttr := false; v_defaultArg := false; v_canonicalType := $"char"; v_inTemplate := false; v_contexts := [CxObjCMethod true false false false; CxOther] |} None))] None)); (Node 5 [] (ObjCMethodDecl {| om_selector := $"numberWithInt:"; om_class := (Some $"NSNumber"); om_overriding := false; om_overridden := []; om_bodyLines := (0)%Z |} [(Node 6 [] (VarDecl {| v_isParm := true; v_name := $"value"; v_used := false; v_referenced := false; v_local := false; v_staticMember := false; v_private := false; v_unusedAttr := false; v_defaultArg := false; v_canonicalType := $"int"; v_inTemplate := false; v_contexts := [CxObjCMethod true false false false; CxOther] |} None))] None)); (Node 7 [] (ObjCMethodDecl {| om_selector := $"numberWithUnsignedInt:"; om_class := (Some $"NSNumber"); om_overriding := false; om_overridden := []; om_bodyLines := (0)%Z |} [(Node 8 [] (VarDecl {| v_isParm := true; v_name := $"value"; v_used := false; v_referenced := false; v_local := false; v_staticMember := false; v_private := false; v_unusedAttr := false; v_defaultArg := false; v_canonicalType := $"unsigned int"; v_inTemplate := false; v_contexts := [CxObjCMethod true false false false; CxOther] |} None))] None)); (Node 9 [] (ObjCMethodDecl {| om_selector := $"numberWithLong:"; om_class := (Some $"NSNumber"); om_overriding := false; om_overridden := []; om_bodyLines := (0)%Z |} [(Node 10 [] (VarDecl {| v_isParm := true; v_name := $"value"; v_used := false; v_referenced := false; v_local := false; v_staticMember := false; v_private := false; v_unusedAttr := false; v_defaultArg := false; v_canonicalType := $"long"; v_inTemplate := false; v_contexts := [CxObjCMethod true false false false; CxOther] |} None))] None)); (Node 11 [] (ObjCMethodDecl {| om_selector := $"numberWithUnsignedLong:"; om_class := (Some $"NSNumber"); om_overriding := false; om_overridden := []; om_bodyLines := (0)%Z |} [(Node 12 [] (VarDecl {| v_isParm := true; v_name := $"value"; v_used := false; v_referenced := false; v_local := false; v_staticMember := false; v_private := false; v_unusedAttr := false; v_defaultArg := false; v_canonicalType := $"unsigned long"; v_inTemplate := false; v_contexts := [CxObjCMethod true false false false; CxOther] |} None))] None)); (Node 13 [] (ObjCMethodDecl {| om_selector := $"numberWithLongLong:"; om_class := (Some $"NSNumber"); om_overriding := false; om_overridden := []; om_bodyLines := (0)%Z |} [(Node 14 [] (VarDecl {| v_isParm := true; v_name := $"value"; v_used := false; v_referenced := false; v_local := false; v_staticMember := false; v_private := false; v_unusedAttr := false; v_defaultArg := false; v_canonicalType := $"long long"; v_inTemplate := false; v_contexts := [CxObjCMethod true false false false; CxOther] |} None))] None)); (Node 15 [] (ObjCMethodDecl {| om_selector := $"numberWithUnsignedLongLong:"; om_class := (Some $"NSNumber"); om_overriding := false; om_overridden := []; om_bodyLines := (0)%Z |} [(Node 16 [] (VarDecl {| v_isParm := true; v_name := $"value"; v_used := false; v_referenced := false; v_local := false; v_staticMember := false; v_private := false; v_unusedAttr := false; v_defaultArg := false; v_canonicalType := $"unsigned long long"; v_inTemplate := false; v_contexts := [CxObjCMethod true false false false; CxOther] |} None))] None)); (Node 17 [] (ObjCMethodDecl {| om_selector := $"numberWithFloat:"; om_class := (Some $"NSNumber"); om_overriding := false; om_overridden := []; om_bodyLines := (0)%Z |} [(Node 18 [] (VarDecl {| v_isParm := true; v_name := $"value"; v_used := false; v_referenced := false; v_local := false; v_staticMember := false; v_private := false; v_unusedAttr := false; v_defaultArg := false; v_canonicalType := $"float"; v_inTemplate := false; v_contexts := [CxObjCMethod true false false false; CxOther] |} None))] None)); (Node 19 [] (ObjCMethodDecl {| om_selector := $"numberWithDouble:"; om_class := (Some $"NSNumber"); om_overriding := false; om_overridden := []; om_bodyLines := (0)%Z |} [(Node 20 [] (VarDecl {| v_isParm := true; v_name := $"value"; v_used := false; v_referenced := false; v_local := false; v_staticMember := false; v_private := false; v_unusedAttr := false; v_defaultArg := false; v_canonicalType := $"double"; v_inTemplate := false; v_contexts := [CxObjCMethod true false false false; CxOther] |} None))] None)); (Node 21 [] (ObjCMethodDecl {| om_selector := $"numberWithBool:"; om_class := (Some $"NSNumber"); om_overriding := false; om_overridden := []; om_bodyLines := (0)%Z |} [(Node 22 [] (VarDecl {| v_isParm := true; v_name := $"value"; v_used := false; v_referenced := false; v_local := false; v_staticMember := false; v_private := false; v_unusedAttr := false; v_defaultArg := false; v_canonicalType := $"signed char"; v_inTemplate := false; v_contexts := [CxObjCMethod true false false false; CxOther] |} None))] None)); (Node 23 [] (ObjCMethodDecl {| om_selector := $"numberWithUnsignedChar:"; om_class := (Some $"NSNumber"); om_overriding := false; om_overridden := []; om_bodyLines := (0)%Z |} [(Node 24 [] (VarDecl {| v_isParm := true; v_name := $"value"; v_used := false; v_referenced := false; v_local := false; v_staticMember := false; v_private := false; v_unusedAttr := false; v_defaultArg := false; v_canonicalType := $"unsigned char"; v_inTemplate := false; v_contexts := [CxObjCMethod true false false false; CxOther] |} None))] None))]))); (toplevel 25 (TFunction false), (Node 25 [] (FunctionDecl {| f_name := $"m"; f_method := None; f_isDefinition := true; f_bodyLines := (1)%Z |} [] (Some (Node 26 [] (CompoundStmt [(Node 27 [] (DeclStmt [(Node 28 [] (VarDecl {| v_isParm := false; v_name := $"fortyTwoFloat"; v_used := false; v_referenced := false; v_local := true; v_staticMember := false; v_private := false; v_unusedAttr := false; v_defaultArg := false; v_canonicalType := $"NSNumber *"; v_inTemplate := false; v_contexts := [CxFunction true true false] |} (Some (Node 29 $"NSNumber *" (ObjCMessageExpr {| ms_selector := $"numberWithFloat:"; ms_receiver := (RClass $"NSNumber"); ms_implicit := false; ms_interface := (Some $"NSNumber"); ms_method := (Some (Decl [] (Some (Method false None (InOther (Some NoCategory)))))); ms_methodClass := (Some $"NSNumber") |} None [(Node 30 $"float" (FloatingLiteral (4614256656748904448)%Z))])))))]))]))))))];
     ts_locs := [(2,1,2,21); (3,1,4,2); (5,1,17,2); (6,1,6,41); (6,31,6,36); (7,1,7,39); (7,30,7,34); (8,1,8,56); (8,38,8,51); (9,1,9,41); (9,31,9,36); (10,1,10,58); (10,39,10,53); (11,1,11,50); (11,35,11,45); (12,1,12,67); (12,43,12,62); (13,1,13,43); (13,32,13,38); (14,1,14,45); (14,33,14,40); (15,1,15,41); (15,31,15,36); (16,1,16,58); (16,39,16,53); (18,1,18,80); (18,10,18,80); (18,12,18,78); (18,12,18,77); (18,38,18,77); (18,64,18,64)]%Z;
     ts_evals := []; ts_same := []; ts_decls := []; ts_parents := [] |}.
Example ObjCNSNumberLiterals_NumberWithFloat_holds : nth_violation (shippedRule sh_ObjCNSNumberLiterals) ObjCNSNumberLiterals_NumberWithFloat 0 = Some (18, 38, 18, 77, $"")%Z.
Proof. vm_compute. reflexivity. Qed.

Definition ObjCNSNumberLiterals_NumberWithFloat_2 : testcase :=
  {| ts_lang := LObjC; ts_path := $"input.m"; ts_code := [];
     ts_comments := []; ts_conf := [];
     ts_tops := [(toplevel 0 (TOther), (Node 0 [] (OtherDecl []))); (toplevel 1 (TOther), (Node 1 [] (ObjCContainerDecl {| oc_kind := OKInterface; oc_name := $"NSObject"; oc_lines := (2)%Z; oc_ivars := 0; oc_methods := []; oc_classes := [$"NSObject"]; oc_superMethods := None |} []))); (toplevel 2 (TOther), (Node 2 [] (ObjCContainerDecl {| oc_kind := OKInterface; oc_name := $"NSNumber"; oc_lines := (13)%Z; oc_ivars := 0; oc_methods := [($"numberWithChar:", false); ($"numberWithInt:", false); ($"numberWithUnsignedInt:", false); ($"numberWithLong:", false); ($"numberWithUnsignedLong:", false); ($"numberWithLongLong:", false); ($"numberWithUnsignedLongLong:", false); ($"numberWithFloat:", false); ($"numberWithDouble:", false); ($"numberWithBool:", false); ($"numberWithUnsignedChar:", false)]; oc_classes := [$"NSNumber"; $"NSObject"]; oc_superMethods := (Some ($"NSObject", [])) |} [(Node 3 [] (ObjCMethodDecl {| om_selector := $"numberWithChar:"; om_class := (Some $"NSNumber"); om_overriding := false; om_overridden := []; om_bodyLines := (0)%Z |} [(Node 4 [] (VarDecl {| v_isParm := true; v_name := $"value"; v_used := false; v_referenced := false; v_local := false; v_staticMember := false; v_private := false; v_unusedAttr := false; v_defaultArg := false; v_canonicalType := $"char"; v_inTemplate := false; v_contexts := [CxObjCMethod true false false false; CxOther] |} None))] None)); (Node 5 [] (ObjCMethodDecl {| om_selector := $"numberWithInt:"; om_class := (Some $"NSNumber"); om_overriding := false; om_overridden := []; om_bodyLines := (0)%Z |} [(Node 6 [] (VarDecl {| v_isParm := true; v_name := $"value"; v_used := false; v_referenced := false; v_local := false; v_staticMember := false; v_private := false; v_unusedAttr := false; v_defaultArg := false; v_canonicalType := $"int"; v_inTemplate := false; v_contexts := [CxObjCMethod true false false false; CxOther] |} None))] None)); (Node 7 [] (ObjCMethodDecl {| om_selector := $"numberWithUnsignedInt:"; om_class := (Some $"NSNumber"); om_overriding := false; om_overridden := []; om_bodyLines := (0)%Z |} [(Node 8 [] (VarDecl {| v_isParm := true; v_name := $"value"; v_used := false; v_referenced := false; v_local := false; v_staticMember := false; v_private := false; v_unusedAttr := false; v_defaultArg := false; v_canonicalType := $"unsigned int"; v_inTemplate := false; v_contexts := [CxObjCMethod true false false false; CxOther] |} None))] None)); (Node 9 [] (ObjCMethodDecl {| om_selector := $"numberWithLong:"; om_class := (Some $"NSNumber"); om_overriding := false; om_overridden := []; om_bodyLines := (0)%Z |} [(Node 10 [] (VarDecl {| v_isParm := true; v_name := $"value"; v_used := false; v_referenced := false; v_local := false; v_staticMember := false; v_private := false; v_unusedAttr := false; v_defaultArg := false; v_canonicalType := $"long"; v_inTemplate := false; v_contexts := [CxObjCMethod true false false false; CxOther] |} None))] None)); (Node 11 [] (ObjCMethodDecl {| om_selector := $"numberWithUnsignedLong:"; om_class := (Some $"NSNumber"); om_overriding := false; om_overridden := []; om_bodyLines := (0)%Z |} [(Node 12 [] (VarDecl {| v_isParm := true; v_name := $"value"; v_used := false; v_referenced := false; v_local := false; v_staticMember := false; v_private := false; v_unusedAttr := false; v_defaultArg := false; v_canonicalType := $"unsigned long"; v_inTemplate := false; v_contexts := [CxObjCMethod true false false false; CxOther] |} None))] None)); (Node 13 [] (ObjCMethodDecl {| om_selector := $"numberWithLongLong:"; om_class := (Some $"NSNumber"); om_overriding := false; om_overridden := []; om_bodyLines := (0)%Z |} [(Node 14 [] (VarDecl {| v_isParm := true; v_name := $"value"; v_used := false; v_referenced := false; v_local := false; v_staticMember := false; v_private := false; v_unusedAttr := false; v_defaultArg := false; v_canonicalType := $"long long"; v_inTemplate := false; v_contexts := [CxObjCMethod true false false false; CxOther] |} None))] None)); (Node 15 [] (ObjCMethodDecl {| om_selector := $"numberWithUnsignedLongLong:"; om_class := (Some $"NSNumber"); om_overriding := false; om_overridden := []; om_bodyLines := (0)%Z |} [(Node 16 [] (VarDecl {| v_isParm := true; v_name := $"value"; v_used := false; v_referenced := false; v_local := false; v_staticMember := false; v_private := false; v_unusedAttr := false; v_defaultArg := false; v_canonicalType := $"unsigned long long"; v_inTemplate := false; v_contexts := [CxObjCMethod true false false false; CxOther] |} None))] None)); (Node 17 [] (ObjCMethodDecl {| om_selector := $"numberWithFloat:"; om_class := (Some $"NSNumber"); om_overriding := false; om_overridden := []; om_bodyLines := (0)%Z |} [(Node 18 [] (VarDecl {| v_isParm := true; v_name := $"value"; v_used := false; v_referenced := false; v_local := false; v_staticMember := false; v_private := false; v_unusedAttr := false; v_defaultArg := false; v_canonicalType := $"float"; v_inTemplate := false; v_contexts := [CxObjCMethod true false false false; CxOther] |} None))] None)); (Node 19 [] (ObjCMethodDecl {| om_selector := $"numberWithDouble:"; om_class := (Some $"NSNumber"); om_overriding := false; om_overridden := []; om_bodyLines := (0)%Z |} [(Node 20 [] (VarDecl {| v_isParm := true; v_name := $"value"; v_used := false; v_referenced := false; v_local := false; v_staticMember := false; v_private := false; v_unusedAttr := false; v_defaultArg := false; v_canonicalType := $"double"; v_inTemplate := false; v_contexts := [CxObjCMethod true false false false; CxOther] |} None))] None)); (Node 21 [] (ObjCMethodDecl {| om_selector := $"numberWithBool:"; om_class := (Some $"NSNumber"); om_overriding := false; om_overridden := []; om_bodyLines := (0)%Z |} [(Node 22 [] (VarDecl {| v_isParm := true; v_name := $"value"; v_used := false; v_referenced := false; v_local := false; v_staticMember := false; v_private := false; v_unusedAttr := false; v_defaultArg := false; v_canonicalType := $"signed char"; v_inTemplate := false; v_contexts := [CxObjCMethod true false false false; CxOther] |} None))] None)); (Node 23 [] (ObjCMethodDecl {| om_selector := $"numberWithUnsignedChar:"; om_class := (Some $"NSNumber"); om_overriding := false; om_overridden := []; om_bodyLines := (0)%Z |} [(Node 24 [] (VarDecl {| v_isParm := true; v_name := $"value"; v_used := false; v_referenced := false; v_local := false; v_staticMember := false; v_private := false; v_unusedAttr := false; v_defaultArg := false; v_canonicalType := $"unsigned char"; v_inTemplate := false; v_contexts := [CxObjCMethod true false false false; CxOther] |} None))] None))]))); (toplevel 25 (TFunction false), (Node 25 [] (FunctionDecl {| f_name := $"m"; f_method := None; f_isDefinition := true; f_bodyLines := (1)%Z |} [] (Some (Node 26 [] (CompoundStmt [(Node 27 [] (DeclStmt [(Node 28 [] (VarDecl {| v_isParm := false; v_name := $"fortyTwoFloat"; v_used := false; v_referenced := false; v_local := true; v_staticMember := false; v_private := false; v_unusedAttr := false; v_defaultArg := false; v_canonicalType := $"NSNumber *"; v_inTemplate := false; v_contexts := [CxFunction true true false] |} (Some (Node 29 $"NSNumber *" (ObjCMessageExpr {| ms_selector := $"numberWithFloat:"; ms_receiver := (RClass $"NSNumber"); ms_implicit := false; ms_interface := (Some $"NSNumber"); ms_method := (Some (Decl [] (Some (Method false None (InOther (Some NoCategory)))))); ms_methodClass := (Some $"NSNumber") |} None [(Node 30 $"float" (FloatingLiteral (4614256656748904448)%Z))])))))]))]))))))];
     ts_locs := [(2,1,2,21); (3,1,4,2); (5,1,17,2); (6,1,6,41); (6,31,6,36); (7,1,7,39); (7,30,7,34); (8,1,8,56); (8,38,8,51); (9,1,9,41); (9,31,9,36); (10,1,10,58); (10,39,10,53); (11,1,11,50); (11,35,11,45); (12,1,12,67); (12,43,12,62); (13,1,13,43); (13,32,13,38); (14,1,14,45); (14,33,14,40); (15,1,15,41); (15,31,15,36); (16,1,16,58); (16,39,16,53); (18,1,18,80); (18,10,18,80); (18,12,18,78); (18,12,18,77); (18,38,18,77); (18,64,18,64)]%Z;
     ts_evals := []; ts_same := []; ts_decls := []; ts_parents := [] |}.
Example ObjCNSNumberLiterals_NumberWithFloat_2_holds : nth_violation (shippedRule sh_ObjCNSNumberLiterals) ObjCNSNumberLiterals_NumberWithFloat_2 0 = Some (18, 38, 18, 77, $"")%Z.
Proof. vm_compute. reflexivity. Qed.

Definition ObjCNSNumberLiterals_NumberWithBoxedFloat : testcase :=
  {| ts_lang := LObjC; ts_path := $"input.m"; ts_code := [];
     ts_comments := []; ts_conf := [];
     ts_tops := [(toplevel 0 (TOther), (Node 0 [] (OtherDecl []))); (toplevel 1 (TOther), (Node 1 [] (ObjCContainerDecl {| oc_kind := OKInterface; oc_name := $"NSObject"; oc_lines := (2)%Z; oc_ivars := 0; oc_methods := []; oc_classes := [$"NSObject"]; oc_superMethods := None |} []))); (toplevel 2 (TOther), (Node 2 [] (ObjCContainerDecl {| oc_kind := OKInterface; oc_name := $"NSNumber"; oc_lines := (13)%Z; oc_ivars := 0; oc_methods := [($"numberWithChar:", false); ($"numberWithInt:", false); ($"numberWithUnsignedInt:", false); ($"numberWithLong:", false); ($"numberWithUnsignedLong:", false); ($"numberWithLongLong:", false); ($"numberWithUnsignedLongLong:", false); ($"numberWithFloat:", false); ($"numberWithDouble:", false); ($"numberWithBool:", false); ($"numberWithUnsignedChar:", false)]; oc_classes := [$"NSNumber"; $"NSObject"]; oc_superMethods := (Some ($"NSObject", [])) |} [(Node 3 [] (ObjCMethodDecl {| om_selector := $"numberWithChar:"; om_class := (Some $"NSNumber"); om_overriding := false; om_overridden := []; om_bodyLines := (0)%Z |} [(Node 4 [] (VarDecl {| v_isParm := true; v_name := $"value"; v_used := false; v_referenced := false; v_local := false; v_staticMember := false; v_private := false; v_unusedAttr := false; v_defaultArg := false; v_canonicalType := $"char"; v_inTemplate := false; v_contexts := [CxObjCMethod true false false false; CxOther] |} None))] None)); (Node 5 [] (ObjCMethodDecl {| om_selector := $"numberWithInt:"; om_class := (Some $"NSNumber"); om_overriding := false; om_overridden := []; om_bodyLines := (0)%Z |} [(Node 6 [] (VarDecl {| v_isParm := true; v_name := $"value"; v_used := false; v_referenced := false; v_local := false; v_staticMember := false; v_private := false; v_unusedAttr := false; v_defaultArg := false; v_canonicalType := $"int"; v_inTemplate := false; v_contexts := [CxObjCMethod true false false false; CxOther] |} None))] None)); (Node 7 [] (ObjCMethodDecl {| om_selector := $"numberWithUnsignedInt:"; om_class := (Some $"NSNumber"); om_overriding := false; om_overridden := []; om_bodyLines := (0)%Z |} [(Node 8 [] (VarDecl {| v_isParm := true; v_name := $"value"; v_used := false; v_referenced := false; v_local := false; v_staticMember := false; v_private := false; v_unusedAttr := false; v_defaultArg := false; v_canonicalType := $"unsigned int"; v_inTemplate := false; v_contexts := [CxObjCMethod true false false false; CxOther] |} None))] None)); (Node 9 [] (ObjCMethodDecl {| om_selector := $"numberWithLong:"; om_class := (Some $"NSNumber"); om_overriding := false; om_overridden := []; om_bodyLines := (0)%Z |} [(Node 10 [] (VarDecl {| v_isParm := true; v_name := $"value"; v_used := false; v_referenced := false; v_local := false; v_staticMember := false; v_private := false; v_unusedAttr := false; v_defaultArg := false; v_canonicalType := $"long"; v_inTemplate := false; v_contexts := [CxObjCMethod true false false false; CxOther] |} None))] None)); (Node 11 [] (ObjCMethodDecl {| om_selector := $"numberWithUnsignedLong:"; om_class := (Some $"NSNumber"); om_overriding := false; om_overridden := []; om_bodyLines := (0)%Z |} [(Node 12 [] (VarDecl {| v_isParm := true; v_name := $"value"; v_used := false; v_referenced := false; v_local := false; v_staticMember := false; v_private := false; v_unusedAttr := false; v_defaultArg := false; v_canonicalType := $"unsigned long"; v_inTemplate := false; v_contexts := [CxObjCMethod true false false false; CxOther] |} None))] None)); (Node 13 [] (ObjCMethodDecl {| om_selector := $"numberWithLongLong:"; om_class := (Some $"NSNumber"); om_overriding := false; om_overridden := []; om_bodyLines := (0)%Z |} [(Node 14 [] (VarDecl {| v_isParm := true; v_name := $"value"; v_used := false; v_referenced := false; v_local := false; v_staticMember := false; v_private := false; v_unusedAttr := false; v_defaultArg := false; v_canonicalType := $"long long"; v_inTemplate := false; v_contexts := [CxObjCMethod true false false false; CxOther] |} None))] None)); (Node 15 [] (ObjCMethodDecl {| om_selector := $"numberWithUnsignedLongLong:"; om_class := (Some $"NSNumber"); om_overriding := false; om_overridden := []; om_bodyLines := (0)%Z |} [(Node 16 [] (VarDecl {| v_isParm := true; v_name := $"value"; v_used := false; v_referenced := false; v_local := false; v_staticMember := false; v_private := false; v_unusedAttr := false; v_defaultArg := false; v_canonicalType := $"unsigned long long"; v_inTemplate := false; v_contexts := [CxObjCMethod true false false false; CxOther] |} None))] None)); (Node 17 [] (ObjCMethodDecl {| om_selector := $"numberWithFloat:"; om_class := (Some $"NSNumber"); om_overriding := false; om_overridden := []; om_bodyLines := (0)%Z |} [(Node 18 [] (VarDecl {| v_isParm := true; v_name := $"value"; v_used := false; v_referenced := false; v_local := false; v_staticMember := false; v_private := false; v_unusedAttr := false; v_defaultArg := false; v_canonicalType := $"float"; v_inTemplate := false; v_contexts := [CxObjCMethod true false false false; CxOther] |} None))] None)); (Node 19 [] (ObjCMethodDecl {| om_selector := $"numberWithDouble:"; om_class := (Some $"NSNumber"); om_overriding := false; om_overridden := []; om_bodyLines := (0)%Z |} [(Node 20 [] (VarDecl {| v_isParm := true; v_name := $"value"; v_used := false; v_referenced := false; v_local := false; v_staticMember := false; v_private := false; v_unusedAttr := false; v_defaultArg := false; v_canonicalType := $"double"; v_inTemplate := false; v_contexts := [CxObjCMethod true false false false; CxOther] |} None))] None)); (Node 21 [] (ObjCMethodDecl {| om_selector := $"numberWithBool:"; om_class := (Some $"NSNumber"); om_overriding := false; om_overridden := []; om_bodyLines := (0)%Z |} [(Node 22 [] (VarDecl {| v_isParm := true; v_name := $"value"; v_used := false; v_referenced := false; v_local := false; v_staticMember := false; v_private := false; v_unusedAttr := false; v_defaultArg := false; v_canonicalType := $"signed char"; v_inTemplate := false; v_contexts := [CxObjCMethod true false false false; CxOther] |} None))] None)); (Node 23 [] (ObjCMethodDecl {| om_selector := $"numberWithUnsignedChar:"; om_class := (Some $"NSNumber"); om_overriding := false; om_overridden := []; om_bodyLines := (0)%Z |} [(Node 24 [] (VarDecl {| v_isParm := true; v_name := $"value"; v_used := false; v_referenced := false; v_local := false; v_staticMember := false; v_private := false; v_unusedAttr := false; v_defaultArg := false; v_canonicalType := $"unsigned char"; v_inTemplate := false; v_contexts := [CxObjCMethod true false false false; CxOther] |} None))] None))]))); (toplevel 25 (TFunction false), (Node 25 [] (FunctionDecl {| f_name := $"m"; f_method := None; f_isDefinition := true; f_bodyLines := (1)%Z |} [] (Some (Node 26 [] (CompoundStmt [(Node 27 [] (DeclStmt [(Node 28 [] (VarDecl {| v_isParm := false; v_name := $"fortyTwoFloat"; v_used := false; v_referenced := false; v_local := true; v_staticMember := false; v_private := false; v_unusedAttr := false; v_defaultArg := false; v_canonicalType := $"NSNumber *"; v_inTemplate := false; v_contexts := [CxFunction true true false] |} (Some (Node 29 $"NSNumber *" (ObjCMessageExpr {| ms_selector := $"numberWithFloat:"; ms_receiver := (RClass $"NSNumber"); ms_implicit := false; ms_interface := (Some $"NSNumber"); ms_method := (Some (Decl [] (Some (Method false None (InOther (Some NoCategory)))))); ms_methodClass := (Some $"NSNumber") |} None [(Node 30 $"float" (ParenExpr (Node 31 $"float" (BinaryOperator BO_Other (Node 32 $"float" (FloatingLiteral (4616349037040238592)%Z)) (Node 33 $"float" (FloatingLiteral (4607182418800017408)%Z))))))])))))]))]))))))];
     ts_locs := [(2,1,2,21); (3,1,4,2); (5,1,17,2); (6,1,6,41); (6,31,6,36); (7,1,7,39); (7,30,7,34); (8,1,8,56); (8,38,8,51); (9,1,9,41); (9,31,9,36); (10,1,10,58); (10,39,10,53); (11,1,11,50); (11,35,11,45); (12,1,12,67); (12,43,12,62); (13,1,13,43); (13,32,13,38); (14,1,14,45); (14,33,14,40); (15,1,15,41); (15,31,15,36); (16,1,16,58); (16,39,16,53); (18,1,18,89); (18,10,18,89); (18,12,18,87); (18,12,18,86); (18,38,18,86); (18,64,18,85); (18,65,18,81); (18,65,18,65); (18,81,18,81)]%Z;
     ts_evals := []; ts_same := []; ts_decls := []; ts_parents := [] |}.
Example ObjCNSNumberLiterals_NumberWithBoxedFloat_holds : sorted_violations_of (shippedRule sh_ObjCNSNumberLiterals) ObjCNSNumberLiterals_NumberWithBoxedFloat = Some [].
Proof. vm_compute. reflexivity. Qed.

Definition ObjCNSNumberLiterals_DoubleLiteral : testcase :=
  {| ts_lang := LObjC; ts_path := $"input.m"; ts_code := [];
     ts_comments := []; ts_conf := [];
     ts_tops := [(toplevel 0 (TOther), (Node 0 [] (OtherDecl []))); (toplevel 1 (TOther), (Node 1 [] (ObjCContainerDecl {| oc_kind := OKInterface; oc_name := $"NSObject"; oc_lines := (2)%Z; oc_ivars := 0; oc_methods := []; oc_classes := [$"NSObject"]; oc_superMethods := None |} []))); (toplevel 2 (TOther), (Node 2 [] (ObjCContainerDecl {| oc_kind := OKInterface; oc_name := $"NSNumber"; oc_lines := (13)%Z; oc_ivars := 0; oc_methods := [($"numberWithChar:", false); ($"numberWithInt:", false); ($"numberWithUnsignedInt:", false); ($"numberWithLong:", false); ($"numberWithUnsignedLong:", false); ($"numberWithLongLong:", false); ($"numberWithUnsignedLongLong:", false); ($"numberWithFloat:", false); ($"numberWithDouble:", false); ($"numberWithBool:", false); ($"numberWithUnsignedChar:", false)]; oc_classes := [$"NSNumber"; $"NSObject"]; oc_superMethods := (Some ($"NSObject", [])) |} [(Node 3 [] (ObjCMethodDecl {| om_selector := $"numberWithChar:"; om_class := (Some $"NSNumber"); om_overriding := false; om_overridden := []; om_bodyLines := (0)%Z |} [(Node 4 [] (VarDecl {| v_isParm := true; v_name := $"value"; v_used := false; v_referenced := false; v_local := false; v_staticMember := false; v_private := false; v_unusedAttr := false; v_defaultArg := false; v_canonicalType := $"char"; v_inTemplate := false; v_contexts := [CxObjCMethod true false false false; CxOther] |} None))] None)); (Node 5 [] (ObjCMethodDecl {| om_selector := $"numberWithInt:"; om_class := (Some $"NSNumber"); om_overriding := false; om_overridden := []; om_bodyLines := (0)%Z |} [(Node 6 [] (VarDecl {| v_isParm := true; v_name := $"value"; v_used := false; v_referenced := false; v_local := false; v_staticMember := false; v_private := false; v_unusedAttr := false; v_defaultArg := false; v_canonicalType := $"int"; v_inTemplate := false; v_contexts := [CxObjCMethod true false false false; CxOther] |} None))] None)); (Node 7 [] (ObjCMethodDecl {| om_selector := $"numberWithUnsignedInt:"; om_class := (Some $"NSNumber"); om_overriding := false; om_overridden := []; om_bodyLines := (0)%Z |} [(Node 8 [] (VarDecl {| v_isParm := true; v_name := $"value"; v_used := false; v_referenced := false; v_local := false; v_staticMember := false; v_private := false; v_unusedAttr := false; v_defaultArg := false; v_canonicalType := $"unsigned int"; v_inTemplate := false; v_contexts := [CxObjCMethod true false false false; CxOther] |} None))] None)); (Node 9 [] (ObjCMethodDecl {| om_selector := $"numberWithLong:"; om_class := (Some $"NSNumber"); om_overriding := false; om_overridden := []; om_bodyLines := (0)%Z |} [(Node 10 [] (VarDecl {| v_isParm := true; v_name := $"value"; v_used := false; v_referenced := false; v_local := false; v_staticMember := false; v_private := false; v_unusedAttr := false; v_defaultArg := false; v_canonicalType := $"long"; v_inTemplate := false; v_contexts := [CxObjCMethod true false false false; CxOther] |} None))] None)); (Node 11 [] (ObjCMethodDecl {| om_selector := $"numberWithUnsignedLong:"; om_class := (Some $"NSNumber"); om_overriding := false; om_overridden := []; om_bodyLines := (0)%Z |} [(Node 12 [] (VarDecl {| v_isParm := true; v_name := $"value"; v_used := false; v_referenced := false; v_local := false; v_staticMember := false; v_private := false; v_unusedAttr := false; v_defaultArg := false; v_canonicalType := $"unsigned long"; v_inTemplate := false; v_contexts := [CxObjCMethod true false false false; CxOther] |} None))] None)); (Node 13 [] (ObjCMethodDecl {| om_selector := $"numberWithLongLong:"; om_class := (Some $"NSNumber"); om_overriding := false; om_overridden := []; om_bodyLines := (0)%Z |} [(Node 14 [] (VarDecl {| v_isParm := true; v_name := $"value"; v_used := false; v_referenced := false; v_local := false; v_staticMember := false; v_private := false; v_unusedAttr := false; v_defaultArg := false; v_canonicalType := $"long long"; v_inTemplate := false; v_contexts := [CxObjCMethod true false false false; CxOther] |} None))] None)); (Node 15 [] (ObjCMethodDecl {| om_selector := $"numberWithUnsignedLongLong:"; om_class := (Some $"NSNumber"); om_overriding := false; om_overridden := []; om_bodyLines := (0)%Z |} [(Node 16 [] (VarDecl {| v_isParm := true; v_name := $"value"; v_used := false; v_referenced := false; v_local := false; v_staticMember := false; v_private := false; v_unusedAttr := false; v_defaultArg := false; v_canonicalType := $"unsigned long long"; v_inTemplate := false; v_contexts := [CxObjCMethod true false false false; CxOther] |} None))] None)); (Node 17 [] (ObjCMethodDecl {| om_selector := $"numberWithFloat:"; om_class := (Some $"NSNumber"); om_overriding := false; om_overridden := []; om_bodyLines := (0)%Z |} [(Node 18 [] (VarDecl {| v_isParm := true; v_name := $"value"; v_used := false; v_referenced := false; v_local := false; v_staticMember := false; v_private := false; v_unusedAttr := false; v_defaultArg := false; v_canonicalType := $"float"; v_inTemplate := false; v_contexts := [CxObjCMethod true false false false; CxOther] |} None))] None)); (Node 19 [] (ObjCMethodDecl {| om_selector := $"numberWithDouble:"; om_class := (Some $"NSNumber"); om_overriding := false; om_overridden := []; om_bodyLines := (0)%Z |} [(Node 20 [] (VarDecl {| v_isParm := true; v_name := $"value"; v_used := false; v_referenced := false; v_local := false; v_staticMember := false; v_private := false; v_unusedAttr := false; v_defaultArg := false; v_canonicalType := $"double"; v_inTemplate := false; v_contexts := [CxObjCMethod true false false false; CxOther] |} None))] None)); (Node 21 [] (ObjCMethodDecl {| om_selector := $"numberWithBool:"; om_class := (Some $"NSNumber"); om_overriding := false; om_overridden := []; om_bodyLines := (0)%Z |} [(Node 22 [] (VarDecl {| v_isParm := true; v_name := $"value"; v_used := false; v_referenced := false; v_local := false; v_staticMember := false; v_private := false; v_unusedAttr := false; v_defaultArg := false; v_canonicalType := $"signed char"; v_inTemplate := false; v_contexts := [CxObjCMethod true false false false; CxOther] |} None))] None)); (Node 23 [] (ObjCMethodDecl {| om_selector := $"numberWithUnsignedChar:"; om_class := (Some $"NSNumber"); om_overriding := false; om_overridden := []; om_bodyLines := (0)%Z |} [(Node 24 [] (VarDecl {| v_isParm := true; v_name := $"value"; v_used := false; v_referenced := false; v_local := false; v_staticMember := false; v_private := false; v_unusedAttr := false; v_defaultArg := false; v_canonicalType := $"unsigned char"; v_inTemplate := false; v_contexts := [CxObjCMethod true false false false; CxOther] |} None))] None))]))); (toplevel 25 (TFunction false), (Node 25 [] (FunctionDecl {| f_name := $"m"; f_method := None; f_isDefinition := true; f_bodyLines := (1)%Z |} [] (Some (Node 26 [] (CompoundStmt [(Node 27 [] (DeclStmt [(Node 28 [] (VarDecl {| v_isParm := false; v_name := $"fortyTwoDouble"; v_used := false; v_referenced := false; v_local := true; v_staticMember := false; v_private := false; v_unusedAttr := false; v_defaultArg := false; v_canonicalType := $"NSNumber *"; v_inTemplate := false; v_contexts := [CxFunction true true false] |} (Some (Node 29 $"NSNumber *" (OtherExpr [(Node 30 $"double" (FloatingLiteral (4614256656551843652)%Z))])))))]))]))))))];
     ts_locs := [(2,1,2,21); (3,1,4,2); (5,1,17,2); (6,1,6,41); (6,31,6,36); (7,1,7,39); (7,30,7,34); (8,1,8,56); (8,38,8,51); (9,1,9,41); (9,31,9,36); (10,1,10,58); (10,39,10,53); (11,1,11,50); (11,35,11,45); (12,1,12,67); (12,43,12,62); (13,1,13,43); (13,32,13,38); (14,1,14,45); (14,33,14,40); (15,1,15,41); (15,31,15,36); (16,1,16,58); (16,39,16,53); (18,1,18,54); (18,10,18,54); (18,12,18,52); (18,12,18,40); (18,39,18,40); (18,40,18,40)]%Z;
     ts_evals := []; ts_same := []; ts_decls := []; ts_parents := [] |}.
Example ObjCNSNumberLiterals_DoubleLiteral_holds : sorted_violations_of (shippedRule sh_ObjCNSNumberLiterals) ObjCNSNumberLiterals_DoubleLiteral = Some [].
Proof. vm_compute. reflexivity. Qed.

Definition ObjCNSNumberLiterals_NumberWithDouble : testcase :=
  {| ts_lang := LObjC; ts_path := $"input.m"; ts_code := [];
     ts_comments := []; ts_conf := [];
     ts_tops := [(toplevel 0 (TOther), (Node 0 [] (OtherDecl []))); (toplevel 1 (TOther), (Node 1 [] (ObjCContainerDecl {| oc_kind := OKInterface; oc_name := $"NSObject"; oc_lines := (2)%Z; oc_ivars := 0; oc_methods := []; oc_classes := [$"NSObject"]; oc_superMethods := None |} []))); (toplevel 2 (TOther), (Node 2 [] (ObjCContainerDecl {| oc_kind := OKInterface; oc_name := $"NSNumber"; oc_lines := (13)%Z; oc_ivars := 0; oc_methods := [($"numberWithChar:", false); ($"numberWithInt:", false); ($"numberWithUnsignedInt:", false); ($"numberWithLong:", false); ($"numberWithUnsignedLong:", false); ($"numberWithLongLong:", false); ($"numberWithUnsignedLongLong:", false); ($"numberWithFloat:", false); ($"numberWithDouble:", false); ($"numberWithBool:", false); ($"numberWithUnsignedChar:", false)]; oc_classes := [$"NSNumber"; $"NSObject"]; oc_superMethods := (Some ($"NSObject", [])) |} [(Node 3 [] (ObjCMethodDecl {| om_selector := $"numberWithChar:"; om_class := (Some $"NSNumber"); om_overriding := false; om_overridden := []; om_bodyLines := (0)%Z |} [(Node 4 [] (VarDecl {| v_isParm := true; v_name := $"value"; v_used := false; v_referenced := false; v_local := false; v_staticMember := false; v_private := false; v_unusedAttr := false; v_defaultArg := false; v_canonicalType := $"char"; v_inTemplate := false; v_contexts := [CxObjCMethod true false false false; CxOther] |} None))] None)); (Node 5 [] (ObjCMethodDecl {| om_selector := $"numberWithInt:"; om_class := (Some $"NSNumber"); om_overriding := false; om_overridden := []; om_bodyLines := (0)%Z |} [(Node 6 [] (VarDecl {| v_isParm := true; v_name := $"value"; v_used := false; v_referenced := false; v_local := false; v_staticMember := false; v_private := false; v_unusedAttr := false; v_defaultArg := false; v_canonicalType := $"int"; v_inTemplate := false; v_contexts := [CxObjCMethod true false false false; CxOther] |} None))] None)); (Node 7 [] (ObjCMethodDecl {| om_selector := $"numberWithUnsignedInt:"; om_class := (Some $"NSNumber"); om_overriding := false; om_overridden := []; om_bodyLines := (0)%Z |} [(Node 8 [] (VarDecl {| v_isParm := true; v_name := $"value"; v_used := false; v_referenced := false; v_local := false; v_staticMember := false; v_private := false; v_unusedAttr := false; v_defaultArg := false; v_canonicalType := $"unsigned int"; v_inTemplate := false; v_contexts := [CxObjCMethod true false false false; CxOther] |} None))] None)); (Node 9 [] (ObjCMethodDecl {| om_selector := $"numberWithLong:"; om_class := (Some $"NSNumber"); om_overriding := false; om_overridden := []; om_bodyLines := (0)%Z |} [(Node 10 [] (VarDecl {| v_isParm := true; v_name := $"value"; v_used := false; v_referenced := false; v_local := false; v_staticMember := false; v_private := false; v_unusedAttr := false; v_defaultArg := false; v_canonicalType := $"long"; v_inTemplate := false; v_contexts := [CxObjCMethod true false false false; CxOther] |} None))] None)); (Node 11 [] (ObjCMethodDecl {| om_selector := $"numberWithUnsignedLong:"; om_class := (Some $"NSNumber"); om_overriding := false; om_overridden := []; om_bodyLines := (0)%Z |} [(Node 12 [] (VarDecl {| v_isParm := true; v_name := $"value"; v_used := false; v_referenced := false; v_local := false; v_staticMember := false; v_private := false; v_unusedAttr := false; v_defaultArg := false; v_canonicalType := $"unsigned long"; v_inTemplate := false; v_contexts := [CxObjCMethod true false false false; CxOther] |} None))] None)); (Node 13 [] (ObjCMethodDecl {| om_selector := $"numberWithLongLong:"; om_class := (Some $"NSNumber"); om_overriding := false; om_overridden := []; om_bodyLines := (0)%Z |} [(Node 14 [] (VarDecl {| v_isParm := true; v_name := $"value"; v_used := false; v_referenced := false; v_local := false; v_staticMember := false; v_private := false; v_unusedAttr := false; v_defaultArg := false; v_canonicalType := $"long long"; v_inTemplate := false; v_contexts := [CxObjCMethod true false false false; CxOther] |} None))] None)); (Node 15 [] (ObjCMethodDecl {| om_selector := $"numberWithUnsignedLongLong:"; om_class := (Some $"NSNumber"); om_overriding := false; om_overridden := []; om_bodyLines := (0)%Z |} [(Node 16 [] (VarDecl {| v_isParm := true; v_name := $"value"; v_used := false; v_referenced := false; v_local := false; v_staticMember := false; v_private := false; v_unusedAttr := false; v_defaultArg := false; v_canonicalType := $"unsigned long long"; v_inTemplate := false; v_contexts := [CxObjCMethod true false false false; CxOther] |} None))] None)); (Node 17 [] (ObjCMethodDecl {| om_selector := $"numberWithFloat:"; om_class := (Some $"NSNumber"); om_overriding := false; om_overridden := []; om_bodyLines := (0)%Z |} [(Node 18 [] (VarDecl {| v_isParm := true; v_name := $"value"; v_used := false; v_referenced := false; v_local := false; v_staticMember := false; v_private := false; v_unusedAttr := false; v_defaultArg := false; v_canonicalType := $"float"; v_inTemplate := false; v_contexts := [CxObjCMethod true false false false; CxOther] |} None))] None)); (Node 19 [] (ObjCMethodDecl {| om_selector := $"numberWithDouble:"; om_class := (Some $"NSNumber"); om_overriding := false; om_overridden := []; om_bodyLines := (0)%Z |} [(Node 20 [] (VarDecl {| v_isParm := true; v_name := $"value"; v_used := false; v_referenced := false; v_local := false; v_staticMember := false; v_private := false; v_unusedAttr := false; v_defaultArg := false; v_canonicalType := $"double"; v_inTemplate := false; v_contexts := [CxObjCMethod true false false false; CxOther] |} None))] None)); (Node 21 [] (ObjCMethodDecl {| om_selector := $"numberWithBool:"; om_class := (Some $"NSNumber"); om_overriding := false; om_overridden := []; om_bodyLines := (0)%Z |} [(Node 22 [] (VarDecl {| v_isParm := true; v_name := $"value"; v_used := false; v_referenced := false; v_local := false; v_staticMember := false; v_private := false; v_unusedAttr := false; v_defaultArg := false; v_canonicalType := $"signed char"; v_inTemplate := false; v_contexts := [CxObjCMethod true false false false; CxOther] |} None))] None)); (Node 23 [] (ObjCMethodDecl {| om_selector := $"numberWithUnsignedChar:"; om_class := (Some $"NSNumber"); om_overriding := false; om_overridden := []; om_bodyLines := (0)%Z |} [(Node 24 [] (VarDecl {| v_isParm := true; v_name := $"value"; v_used := false; v_referenced := false; v_local := false; v_staticMember := false; v_private := false; v_unusedAttr := false; v_defaultArg := false; v_canonicalType := $"unsigned char"; v_inTemplate := false; v_contexts := [CxObjCMethod true false false false; CxOther] |} None))] None))]))); (toplevel 25 (TFunction false), (Node 25 [] (FunctionDecl {| f_name := $"m"; f_method := None; f_isDefinition := true; f_bodyLines := (1)%Z |} [] (Some (Node 26 [] (CompoundStmt [(Node 27 [] (DeclStmt [(Node 28 [] (VarDecl {| v_isParm := false; v_name := $"fortyTwoDouble"; v_used := false; v_referenced := false; v_local := true; v_staticMember := false; v_private := false; v_unusedAttr := false; v_defaultArg := false; v_canonicalType := $"NSNumber *"; v_inTemplate := false; v_contexts := [CxFunction true true false] |} (Some (Node 29 $"NSNumber *" (ObjCMessageExpr {| ms_selector := $"numberWithDouble:"; ms_receiver := (RClass $"NSNumber"); ms_implicit := false; ms_interface := (Some $"NSNumber"); ms_method := (Some (Decl [] (Some (Method false None (InOther (Some NoCategory)))))); ms_methodClass := (Some $"NSNumber") |} None [(Node 30 $"double" (FloatingLiteral (4614256656551843652)%Z))])))))]))]))))))];
     ts_locs := [(2,1,2,21); (3,1,4,2); (5,1,17,2); (6,1,6,41); (6,31,6,36); (7,1,7,39); (7,30,7,34); (8,1,8,56); (8,38,8,51); (9,1,9,41); (9,31,9,36); (10,1,10,58); (10,39,10,53); (11,1,11,50); (11,35,11,45); (12,1,12,67); (12,43,12,62); (13,1,13,43); (13,32,13,38); (14,1,14,45); (14,33,14,40); (15,1,15,41); (15,31,15,36); (16,1,16,58); (16,39,16,53); (18,1,18,81); (18,10,18,81); (18,12,18,79); (18,12,18,78); (18,39,18,78); (18,66,18,66)]%Z;
     ts_evals := []; ts_same := []; ts_decls := []; ts_parents := [] |}.
Example ObjCNSNumberLiterals_NumberWithDouble_holds : nth_violation (shippedRule sh_ObjCNSNumberLiterals) ObjCNSNumberLiterals_NumberWithDouble 0 = Some (18, 39, 18, 78, $"")%Z.
Proof. vm_compute. reflexivity. Qed.

Definition ObjCNSNumberLiterals_NumberWithBoxedDouble : testcase :=
  {| ts_lang := LObjC; ts_path := $"input.m"; ts_code := [];
     ts_comments := []; ts_conf := [];
     ts_tops := [(toplevel 0 (TOther), (Node 0 [] (OtherDecl []))); (toplevel 1 (TOther), (Node 1 [] (ObjCContainerDecl {| oc_kind := OKInterface; oc_name := $"NSObject"; oc_lines := (2)%Z; oc_ivars := 0; oc_methods := []; oc_classes := [$"NSObject"]; oc_superMethods := None |} []))); (toplevel 2 (TOther), (Node 2 [] (ObjCContainerDecl {| oc_kind := OKInterface; oc_name := $"NSNumber"; oc_lines := (13)%Z; oc_ivars := 0; oc_methods := [($"numberWithChar:", false); ($"numberWithInt:", false); ($"numberWithUnsignedInt:", false); ($"numberWithLong:", false); ($"numberWithUnsignedLong:", false); ($"numberWithLongLong:", false); ($"numberWithUnsignedLongLong:", false); ($"numberWithFloat:", false); ($"numberWithDouble:", false); ($"numberWithBool:", false); ($"numberWithUnsignedChar:", false)]; oc_classes := [$"NSNumber"; $"NSObject"]; oc_superMethods := (Some ($"NSObject", [])) |} [(Node 3 [] (ObjCMethodDecl {| om_selector := $"numberWithChar:"; om_class := (Some $"NSNumber"); om_overriding := false; om_overridden := []; om_bodyLines := (0)%Z |} [(Node 4 [] (VarDecl {| v_isParm := true; v_name := $"value"; v_used := false; v_referenced := false; v_local := false; v_staticMember := false; v_private := false; v_unusedAttr := false; v_defaultArg := false; v_canonicalType := $"char"; v_inTemplate := false; v_contexts := [CxObjCMethod true false false false; CxOther] |} None))] None)); (Node 5 [] (ObjCMethodDecl {| om_selector := $"numberWithInt:"; om_class := (Some $"NSNumber"); om_overriding := false; om_overridden := []; om_bodyLines := (0)%Z |} [(Node 6 [] (VarDecl {| v_isParm := true; v_name := $"value"; v_used := false; v_referenced := false; v_local := false; v_staticMember := false; v_private := false; v_unusedAttr := false; v_defaultArg := false; v_canonicalType := $"int"; v_inTemplate := false; v_contexts := [CxObjCMethod true false false false; CxOther] |} None))] None)); (Node 7 [] (ObjCMethodDecl {| om_selector := $"numberWithUnsignedInt:"; om_class := (Some $"NSNumber"); om_overriding := false; om_overridden := []; om_bodyLines := (0)%Z |} [(Node 8 [] (VarDecl {| v_isParm := true; v_name := $"value"; v_used := false; v_referenced := false; v_local := false; v_staticMember := false; v_private := false; v_unusedAttr := false; v_defaultArg := false; v_canonicalType := $"unsigned int"; v_inTemplate := false; v_contexts := [CxObjCMethod true false false false; CxOther] |} None))] None)); (Node 9 [] (ObjCMethodDecl {| om_selector := $"numberWithLong:"; om_class := (Some $"NSNumber"); om_overriding := false; om_overridden := []; om_bodyLines := (0)%Z |} [(Node 10 [] (VarDecl {| v_isParm := true; v_name := $"value"; v_used := false; v_referenced := false; v_local := false; v_staticMember := false; v_private := false; v_unusedAttr := false; v_defaultArg := false; v_canonicalType := $"long"; v_inTemplate := false; v_contexts := [CxObjCMethod true false false false; CxOther] |} None))] None)); (Node 11 [] (ObjCMethodDecl {| om_selector := $"numberWithUnsignedLong:"; om_class := (Some $"NSNumber"); om_overriding := false; om_overridden := []; om_bodyLines := (0)%Z |} [(Node 12 [] (VarDecl {| v_isParm := true; v_name := $"value"; v_used := false; v_referenced := false; v_local := false; v_staticMember := false; v_private := false; v_unusedAttr := false; v_defaultArg := false; v_canonicalType := $"unsigned long"; v_inTemplate := false; v_contexts := [CxObjCMethod true false false false; CxOther] |} None))] None)); (Node 13 [] (ObjCMethodDecl {| om_selector := $"numberWithLongLong:"; om_class := (Some $"NSNumber"); om_overriding := false; om_overridden := []; om_bodyLines := (0)%Z |} [(Node 14 [] (VarDecl {| v_isParm := true; v_name := $"value"; v_used := false; v_referenced := false; v_local := false; v_staticMember := false; v_private := false; v_unusedAttr := false; v_defaultArg := false; v_canonicalType := $"long long"; v_inTemplate := false; v_contexts := [CxObjCMethod true false false false; CxOther] |} None))] None)); (Node 15 [] (ObjCMethodDecl {| om_selector := $"numberWithUnsignedLongLong:"; om_class := (Some $"NSNumber"); om_overriding := false; om_overridden := []; om_bodyLines := (0)%Z |} [(Node 16 [] (VarDecl {| v_isParm := true; v_name := $"value"; v_used := false; v_referenced := false; v_local := false; v_staticMember := false; v_private := false; v_unusedAttr := false; v_defaultArg := false; v_canonicalType := $"unsigned long long"; v_inTemplate := false; v_contexts := [CxObjCMethod true false false false; CxOther] |} None))] None)); (Node 17 [] (ObjCMethodDecl {| om_selector := $"numberWithFloat:"; om_class := (Some $"NSNumber"); om_overriding := false; om_overridden := []; om_bodyLines := (0)%Z |} [(Node 18 [] (VarDecl {| v_isParm := true; v_name := $"value"; v_used := false; v_referenced := false; v_local := false; v_staticMember := false; v_private := false; v_unusedAttr := false; v_defaultArg := false; v_canonicalType := $"float"; v_inTemplate := false; v_contexts := [CxObjCMethod true false false false; CxOther] |} None))] None)); (Node 19 [] (ObjCMethodDecl {| om_selector := $"numberWithDouble:"; om_class := (Some $"NSNumber"); om_overriding := false; om_overridden := []; om_bodyLines := (0)%Z |} [(Node 20 [] (VarDecl {| v_isParm := true; v_name := $"value"; v_used := false; v_referenced := false; v_local := false; v_staticMember := false; v_private := false; v_unusedAttr := false; v_defaultArg := false; v_canonicalType := $"double"; v_inTemplate := false; v_contexts := [CxObjCMethod true false false false; CxOther] |} None))] None)); (Node 21 [] (ObjCMethodDecl {| om_selector := $"numberWithBool:"; om_class := (Some $"NSNumber"); om_overriding := false; om_overridden := []; om_bodyLines := (0)%Z |} [(Node 22 [] (VarDecl {| v_isParm := true; v_name := $"value"; v_used := false; v_referenced := false; v_local := false; v_staticMember := false; v_private := false; v_unusedAttr := false; v_defaultArg := false; v_canonicalType := $"signed char"; v_inTemplate := false; v_contexts := [CxObjCMethod true false false false; CxOther] |} None))] None)); (Node 23 [] (ObjCMethodDecl {| om_selector := $"numberWithUnsignedChar:"; om_class := (Some $"NSNumber"); om_overriding := false; om_overridden := []; om_bodyLines := (0)%Z |} [(Node 24 [] (VarDecl {| v_isParm := true; v_name := $"value"; v_used := false; v_referenced := false; v_local := false; v_staticMember := false; v_private := false; v_unusedAttr := false; v_defaultArg := false; v_canonicalType := $"unsigned char"; v_inTemplate := false; v_contexts := [CxObjCMethod true false false false; CxOther] |} None))] None))]))); (toplevel 25 (TFunction false), (Node 25 [] (FunctionDecl {| f_name := $"m"; f_method := None; f_isDefinition := true; f_bodyLines := (1)%Z |} [] (Some (Node 26 [] (CompoundStmt [(Node 27 [] (DeclStmt [(Node 28 [] (VarDecl {| v_isParm := false; v_name := $"fortyTwoDouble"; v_used := false; v_referenced := false; v_local := true; v_staticMember := false; v_private := false; v_unusedAttr := false; v_defaultArg := false; v_canonicalType := $"NSNumber *"; v_inTemplate := false; v_contexts := [CxFunction true true false] |} (Some (Node 29 $"NSNumber *" (ObjCMessageExpr {| ms_selector := $"numberWithDouble:"; ms_receiver := (RClass $"NSNumber"); ms_implicit := false; ms_interface := (Some $"NSNumber"); ms_method := (Some (Decl [] (Some (Method false None (InOther (Some NoCategory)))))); ms_methodClass := (Some $"NSNumber") |} None [(Node 30 $"double" (ParenExpr (Node 31 $"double" (BinaryOperator BO_Other (Node 32 $"double" (FloatingLiteral (4616349037210143650)%Z)) (Node 33 $"double" (FloatingLiteral (4607182418800017408)%Z))))))])))))]))]))))))];
     ts_locs := [(2,1,2,21); (3,1,4,2); (5,1,17,2); (6,1,6,41); (6,31,6,36); (7,1,7,39); (7,30,7,34); (8,1,8,56); (8,38,8,51); (9,1,9,41); (9,31,9,36); (10,1,10,58); (10,39,10,53); (11,1,11,50); (11,35,11,45); (12,1,12,67); (12,43,12,62); (13,1,13,43); (13,32,13,38); (14,1,14,45); (14,33,14,40); (15,1,15,41); (15,31,15,36); (16,1,16,58); (16,39,16,53); (18,1,18,89); (18,10,18,89); (18,12,18,87); (18,12,18,86); (18,39,18,86); (18,66,18,85); (18,67,18,82); (18,67,18,67); (18,82,18,82)]%Z;
     ts_evals := []; ts_same := []; ts_decls := []; ts_parents := [] |}.
Example ObjCNSNumberLiterals_NumberWithBoxedDouble_holds : sorted_violations_of (shippedRule sh_ObjCNSNumberLiterals) ObjCNSNumberLiterals_NumberWithBoxedDouble = Some [].
Proof. vm_compute. reflexivity. Qed.

Definition ObjCNSNumberLiterals_BOOLYesLiteral_newBOOLDef : testcase :=
  {| ts_lang := LObjC; ts_path := $"input.m"; ts_code := [];
     ts_comments := []; ts_conf := [];
     ts_tops := [(toplevel 0 (TOther), (Node 0 [] (OtherDecl []))); (toplevel 1 (TOther), (Node 1 [] (ObjCContainerDecl {| oc_kind := OKInterface; oc_name := $"NSObject"; oc_lines := (2)%Z; oc_ivars := 0; oc_methods := []; oc_classes := [$"NSObject"]; oc_superMethods := None |} []))); (toplevel 2 (TOther), (Node 2 [] (ObjCContainerDecl {| oc_kind := OKInterface; oc_name := $"NSNumber"; oc_lines := (13)%Z; oc_ivars := 0; oc_methods := [($"numberWithChar:", false); ($"numberWithInt:", false); ($"numberWithUnsignedInt:", false); ($"numberWithLong:", false); ($"numberWithUnsignedLong:", false); ($"numberWithLongLong:", false); ($"numberWithUnsignedLongLong:", false); ($"numberWithFloat:", false); ($"numberWithDouble:", false); ($"numberWithBool:", false); ($"numberWithUnsignedChar:", false)]; oc_classes := [$"NSNumber"; $"NSObject"]; oc_superMethods := (Some ($"NSObject", [])) |} [(Node 3 [] (ObjCMethodDecl {| om_selector := $"numberWithChar:"; om_class := (Some $"NSNumber"); om_overriding := false; om_overridden := []; om_bodyLines := (0)%Z |} [(Node 4 [] (VarDecl {| v_isParm := true; v_name := $"value"; v_used := false; v_referenced := false; v_local := false; v_staticMember := false; v_private := false; v_unusedAttr := false; v_defaultArg := false; v_canonicalType := $"char"; v_inTemplate := false; v_contexts := [CxObjCMethod true false false false; CxOther] |} None))] None)); (Node 5 [] (ObjCMethodDecl {| om_selector := $"numberWithInt:"; om_class := (Some $"NSNumber"); om_overriding := false; om_overridden := []; om_bodyLines := (0)%Z |} [(Node 6 [] (VarDecl {| v_isParm := true; v_name := $"value"; v_used := false; v_referenced := false; v_local := false; v_staticMember := false; v_private := false; v_unusedAttr := false; v_defaultArg := false; v_canonicalType := $"int"; v_inTemplate := false; v_contexts := [CxObjCMethod true false false false; CxOther] |} None))] None)); (Node 7 [] (ObjCMethodDecl {| om_selector := $"numberWithUnsignedInt:"; om_class := (Some $"NSNumber"); om_overriding := false; om_overridden := []; om_bodyLines := (0)%Z |} [(Node 8 [] (VarDecl {| v_isParm := true; v_name := $"value"; v_used := false; v_referenced := false; v_local := false; v_staticMember := false; v_private := false; v_unusedAttr := false; v_defaultArg := false; v_canonicalType := $"unsigned int"; v_inTemplate := false; v_contexts := [CxObjCMethod true false false false; CxOther] |} None))] None)); (Node 9 [] (ObjCMethodDecl {| om_selector := $"numberWithLong:"; om_class := (Some $"NSNumber"); om_overriding := false; om_overridden := []; om_bodyLines := (0)%Z |} [(Node 10 [] (VarDecl {| v_isParm := true; v_name := $"value"; v_used := false; v_referenced := false; v_local := false; v_staticMember := false; v_private := false; v_unusedAttr := false; v_defaultArg := false; v_canonicalType := $"long"; v_inTemplate := false; v_contexts := [CxObjCMethod true false false false; CxOther] |} None))] None)); (Node 11 [] (ObjCMethodDecl {| om_selector := $"numberWithUnsignedLong:"; om_class := (Some $"NSNumber"); om_overriding := false; om_overridden := []; om_bodyLines := (0)%Z |} [(Node 12 [] (VarDecl {| v_isParm := true; v_name := $"value"; v_used := false; v_referenced := false; v_local := false; v_staticMember := false; v_private := false; v_unusedAttr := false; v_defaultArg := false; v_canonicalType := $"unsigned long"; v_inTemplate := false; v_contexts := [CxObjCMethod true false false false; CxOther] |} None))] None)); (Node 13 [] (ObjCMethodDecl {| om_selector := $"numberWithLongLong:"; om_class := (Some $"NSNumber"); om_overriding := false; om_overridden := []; om_bodyLines := (0)%Z |} [(Node 14 [] (VarDecl {| v_isParm := true; v_name := $"value"; v_used := false; v_referenced := false; v_local := false; v_staticMember := false; v_private := false; v_unusedAttr := false; v_defaultArg := false; v_canonicalType := $"long long"; v_inTemplate := false; v_contexts := [CxObjCMethod true false false false; CxOther] |} None))] None)); (Node 15 [] (ObjCMethodDecl {| om_selector := $"numberWithUnsignedLongLong:"; om_class := (Some $"NSNumber"); om_overriding := false; om_overridden := []; om_bodyLines := (0)%Z |} [(Node 16 [] (VarDecl {| v_isParm := true; v_name := $"value"; v_used := false; v_referenced := false; v_local := false; v_staticMember := false; v_private := false; v_unusedAttr := false; v_defaultArg := false; v_canonicalType := $"unsigned long long"; v_inTemplate := false; v_contexts := [CxObjCMethod true false false false; CxOther] |} None))] None)); (Node 17 [] (ObjCMethodDecl {| om_selector := $"numberWithFloat:"; om_class := (Some $"NSNumber"); om_overriding := false; om_overridden := []; om_bodyLines := (0)%Z |} [(Node 18 [] (VarDecl {| v_isParm := true; v_name := $"value"; v_used := false; v_referenced := false; v_local := false; v_staticMember := false; v_private := false; v_unusedAttr := false; v_defaultArg := false; v_canonicalType := $"float"; v_inTemplate := false; v_contexts := [CxObjCMethod true false false false; CxOther] |} None))] None)); (Node 19 [] (ObjCMethodDecl {| om_selector := $"numberWithDouble:"; om_class := (Some $"NSNumber"); om_overriding := false; om_overridden := []; om_bodyLines := (0)%Z |} [(Node 20 [] (VarDecl {| v_isParm := true; v_name := $"value"; v_used := false; v_referenced := false; v_local := false; v_staticMember := false; v_private := false; v_unusedAttr := false; v_defaultArg := false; v_canonicalType := $"double"; v_inTemplate := false; v_contexts := [CxObjCMethod true false false false; CxOther] |} None))] None)); (Node 21 [] (ObjCMethodDecl {| om_selector := $"numberWithBool:"; om_class := (Some $"NSNumber"); om_overriding := false; om_overridden := []; om_bodyLines := (0)%Z |} [(Node 22 [] (VarDecl {| v_isParm := true; v_name := $"value"; v_used := false; v_referenced := false; v_local := false; v_staticMember := false; v_private := false; v_unusedAttr := false; v_defaultArg := false; v_canonicalType := $"signed char"; v_inTemplate := false; v_contexts := [CxObjCMethod true false false false; CxOther] |} None))] None)); (Node 23 [] (ObjCMethodDecl {| om_selector := $"numberWithUnsignedChar:"; om_class := (Some $"NSNumber"); om_overriding := false; om_overridden := []; om_bodyLines := (0)%Z |} [(Node 24 [] (VarDecl {| v_isParm := true; v_name := $"value"; v_used := false; v_referenced := false; v_local := false; v_staticMember := false; v_private := false; v_unusedAttr := false; v_defaultArg := false; v_canonicalType := $"unsigned char"; v_inTemplate := false; v_contexts := [CxObjCMethod true false false false; CxOther] |} None))] None))]))); (toplevel 25 (TFunction false), (Node 25 [] (FunctionDecl {| f_name := $"m"; f_method := None; f_isDefinition := true; f_bodyLines := (1)%Z |} [] (Some (Node 26 [] (CompoundStmt [(Node 27 [] (DeclStmt [(Node 28 [] (VarDecl {| v_isParm := false; v_name := $"fortyTwoBOOL"; v_used := false; v_referenced := false; v_local := true; v_staticMember := false; v_private := false; v_unusedAttr := false; v_defaultArg := false; v_canonicalType := $"NSNumber *"; v_inTemplate := false; v_contexts := [CxFunction true true false] |} (Some (Node 29 $"NSNumber *" (OtherExpr [(Node 30 $"signed char" (ObjCBoolLiteralExpr true))])))))]))]))))))];
     ts_locs := [(2,1,2,21); (3,1,4,2); (5,1,17,2); (6,1,6,41); (6,31,6,36); (7,1,7,39); (7,30,7,34); (8,1,8,56); (8,38,8,51); (9,1,9,41); (9,31,9,36); (10,1,10,58); (10,39,10,53); (11,1,11,50); (11,35,11,45); (12,1,12,67); (12,43,12,62); (13,1,13,43); (13,32,13,38); (14,1,14,45); (14,33,14,40); (15,1,15,41); (15,31,15,36); (16,1,16,58); (16,39,16,53); (21,1,21,43); (21,10,21,43); (21,12,21,41); (21,12,21,38); (21,37,21,38); (21,38,21,38)]%Z;
     ts_evals := []; ts_same := []; ts_decls := []; ts_parents := [] |}.
Example ObjCNSNumberLiterals_BOOLYesLiteral_newBOOLDef_holds : sorted_violations_of (shippedRule sh_ObjCNSNumberLiterals) ObjCNSNumberLiterals_BOOLYesLiteral_newBOOLDef = Some [].
Proof. vm_compute. reflexivity. Qed.

Definition ObjCNSNumberLiterals_NumberWithBoolYes_newBOOLDef : testcase :=
  {| ts_lang := LObjC; ts_path := $"input.m"; ts_code := [];
     ts_comments := []; ts_conf := [];
     ts_tops := [(toplevel 0 (TOther), (Node 0 [] (OtherDecl []))); (toplevel 1 (TOther), (Node 1 [] (ObjCContainerDecl {| oc_kind := OKInterface; oc_name := $"NSObject"; oc_lines := (2)%Z; oc_ivars := 0; oc_methods := []; oc_classes := [$"NSObject"]; oc_superMethods := None |} []))); (toplevel 2 (TOther), (Node 2 [] (ObjCContainerDecl {| oc_kind := OKInterface; oc_name := $"NSNumber"; oc_lines := (13)%Z; oc_ivars := 0; oc_methods := [($"numberWithChar:", false); ($"numberWithInt:", false); ($"numberWithUnsignedInt:", false); ($"numberWithLong:", false); ($"numberWithUnsignedLong:", false); ($"numberWithLongLong:", false); ($"numberWithUnsignedLongLong:", false); ($"numberWithFloat:", false); ($"numberWithDouble:", false); ($"numberWithBool:", false); ($"numberWithUnsignedChar:", false)]; oc_classes := [$"NSNumber"; $"NSObject"]; oc_superMethods := (Some ($"NSObject", [])) |} [(Node 3 [] (ObjCMethodDecl {| om_selector := $"numberWithChar:"; om_class := (Some $"NSNumber"); om_overriding := false; om_overridden := []; om_bodyLines := (0)%Z |} [(Node 4 [] (VarDecl {| v_isParm := true; v_name := $"value"; v_used := false; v_referenced := false; v_local := false; v_staticMember := false; v_private := false; v_unusedAttr := false; v_defaultArg := false; v_canonicalType := $"char"; v_inTemplate := false; v_contexts := [CxObjCMethod true false false false; CxOther] |} None))] None)); (Node 5 [] (ObjCMethodDecl {| om_selector := $"numberWithInt:"; om_class := (Some $"NSNumber"); om_overriding := false; om_overridden := []; om_bodyLines := (0)%Z |} [(Node 6 [] (VarDecl {| v_isParm := true; v_name := $"value"; v_used := false; v_referenced := false; v_local := false; v_staticMember := false; v_private := false; v_unusedAttr := false; v_defaultArg := false; v_canonicalType := $"int"; v_inTemplate := false; v_contexts := [CxObjCMethod true false false false; CxOther] |} None))] None)); (Node 7 [] (ObjCMethodDecl {| om_selector := $"numberWithUnsignedInt:"; om_class := (Some $"NSNumber"); om_overriding := false; om_overridden := []; om_bodyLines := (0)%Z |} [(Node 8 [] (VarDecl {| v_isParm := true; v_name := $"value"; v_used := false; v_referenced := false; v_local := false; v_staticMember := false; v_private := false; v_unusedAttr := false; v_defaultArg := false; v_canonicalType := $"unsigned int"; v_inTemplate := false; v_contexts := [CxObjCMethod true false false false; CxOther] |} None))] None)); (Node 9 [] (ObjCMethodDecl {| om_selector := $"numberWithLong:"; om_class := (Some $"NSNumber"); om_overriding := false; om_overridden := []; om_bodyLines := (0)%Z |} [(Node 10 [] (VarDecl {| v_isParm := true; v_name := $"value"; v_used := false; v_referenced := false; v_local := false; v_staticMember := false; v_private := false; v_unusedAttr := false; v_defaultArg := false; v_canonicalType := $"long"; v_inTemplate := false; v_contexts := [CxObjCMethod true false false false; CxOther] |} None))] None)); (Node 11 [] (ObjCMethodDecl {| om_selector := $"numberWithUnsignedLong:"; om_class := (Some $"NSNumber"); om_overriding := false; om_overridden := []; om_bodyLines := (0)%Z |} [(Node 12 [] (VarDecl {| v_isParm := true; v_name := $"value"; v_used := false; v_referenced := false; v_local := false; v_staticMember := false; v_private := false; v_unusedAttr := false; v_defaultArg := false; v_canonicalType := $"unsigned long"; v_inTemplate := false; v_contexts := [CxObjCMethod true false false false; CxOther] |} None))] None)); (Node 13 [] (ObjCMethodDecl {| om_selector := $"numberWithLongLong:"; om_class := (Some $"NSNumber"); om_overriding := false; om_overridden := []; om_bodyLines := (0)%Z |} [(Node 14 [] (VarDecl {| v_isParm := true; v_name := $"value"; v_used := false; v_referenced := false; v_local := false; v_staticMember := false; v_private := false; v_unusedAttr := false; v_defaultArg := false; v_canonicalType := $"long long"; v_inTemplate := false; v_contexts := [CxObjCMethod true false false false; CxOther] |} None))] None)); (Node 15 [] (ObjCMethodDecl {| om_selector := $"numberWithUnsignedLongLong:"; om_class := (Some $"NSNumber"); om_overriding := false; om_overridden := []; om_bodyLines := (0)%Z |} [(Node 16 [] (VarDecl {| v_isParm := true; v_name := $"value"; v_used := false; v_referenced := false; v_local := false; v_staticMember := false; v_private := false; v_unusedAttr := false; v_defaultArg := false; v_canonicalType := $"unsigned long long"; v_inTemplate := false; v_contexts := [CxObjCMethod true false false false; CxOther] |} None))] None)); (Node 17 [] (ObjCMethodDecl {| om_selector := $"numberWithFloat:"; om_class := (Some $"NSNumber"); om_overriding := false; om_overridden := []; om_bodyLines := (0)%Z |} [(Node 18 [] (VarDecl {| v_isParm := true; v_name := $"value"; v_used := false; v_referenced := false; v_local := false; v_staticMember := false; v_private := false; v_unusedAttr := false; v_defaultArg := false; v_canonicalType := $"float"; v_inTemplate := false; v_contexts := [CxObjCMethod true false false false; CxOther] |} None))] None)); (Node 19 [] (ObjCMethodDecl {| om_selector := $"numberWithDouble:"; om_class := (Some $"NSNumber"); om_overriding := false; om_overridden := []; om_bodyLines := (0)%Z |} [(Node 20 [] (VarDecl {| v_isParm := true; v_name := $"value"; v_used := false; v_referenced := false; v_local := false; v_staticMember := false; v_private := false; v_unusedAttr := false; v_defaultArg := false; v_canonicalType := $"double"; v_inTemplate := false; v_contexts := [CxObjCMethod true false false false; CxOther] |} None))] None)); (Node 21 [] (ObjCMethodDecl {| om_selector := $"numberWithBool:"; om_class := (Some $"NSNumber"); om_overriding := false; om_overridden := []; om_bodyLines := (0)%Z |} [(Node 22 [] (VarDecl {| v_isParm := true; v_name := $"value"; v_used := false; v_referenced := false; v_local := false; v_staticMember := false; v_private := false; v_unusedAttr := false; v_defaultArg := false; v_canonicalType := $"signed char"; v_inTemplate := false; v_contexts := [CxObjCMethod true false false false; CxOther] |} None))] None)); (Node 23 [] (ObjCMethodDecl {| om_selector := $"numberWithUnsignedChar:"; om_class := (Some $"NSNumber"); om_overriding := false; om_overridden := []; om_bodyLines := (0)%Z |} [(Node 24 [] (VarDecl {| v_isParm := true; v_name := $"value"; v_used := false; v_referenced := false; v_local := false; v_staticMember := false; v_private := false; v_unusedAttr := false; v_defaultArg := false; v_canonicalType := $"unsigned char"; v_inTemplate := false; v_contexts := [CxObjCMethod true false false false; CxOther] |} None))] None))]))); (toplevel 25 (TFunction false), (Node 25 [] (FunctionDecl {| f_name := $"m"; f_method := None; f_isDefinition := true; f_bodyLines := (1)%Z |} [] (Some (Node 26 [] (CompoundStmt [(Node 27 [] (DeclStmt [(Node 28 [] (VarDecl {| v_isParm := false; v_name := $"fortyTwoBOOL"; v_used := false; v_referenced := false; v_local := true; v_staticMember := false; v_private := false; v_unusedAttr := false; v_defaultArg := false; v_canonicalType := $"NSNumber *"; v_inTemplate := false; v_contexts := [CxFunction true true false] |} (Some (Node 29 $"NSNumber *" (ObjCMessageExpr {| ms_selector := $"numberWithBool:"; ms_receiver := (RClass $"NSNumber"); ms_implicit := false; ms_interface := (Some $"NSNumber"); ms_method := (Some (Decl [] (Some (Method false None (InOther (Some NoCategory)))))); ms_methodClass := (Some $"NSNumber") |} None [(Node 30 $"signed char" (ObjCBoolLiteralExpr true))])))))]))]))))))];
     ts_locs := [(2,1,2,21); (3,1,4,2); (5,1,17,2); (6,1,6,41); (6,31,6,36); (7,1,7,39); (7,30,7,34); (8,1,8,56); (8,38,8,51); (9,1,9,41); (9,31,9,36); (10,1,10,58); (10,39,10,53); (11,1,11,50); (11,35,11,45); (12,1,12,67); (12,43,12,62); (13,1,13,43); (13,32,13,38); (14,1,14,45); (14,33,14,40); (15,1,15,41); (15,31,15,36); (16,1,16,58); (16,39,16,53); (21,1,21,68); (21,10,21,68); (21,12,21,66); (21,12,21,65); (21,37,21,65); (21,62,21,62)]%Z;
     ts_evals := []; ts_same := []; ts_decls := []; ts_parents := [] |}.
Example ObjCNSNumberLiterals_NumberWithBoolYes_newBOOLDef_holds : nth_violation (shippedRule sh_ObjCNSNumberLiterals) ObjCNSNumberLiterals_NumberWithBoolYes_newBOOLDef 0 = Some (21, 37, 21, 65, $"")%Z.
Proof. vm_compute. reflexivity. Qed.

Definition ObjCNSNumberLiterals_NumberWithBoxedBOOLYes_newBOOLDef : testcase :=
  {| ts_lang := LObjC; ts_path := $"input.m"; ts_code := [];
     ts_comments := []; ts_conf := [];
     ts_tops := [(toplevel 0 (TOther), (Node 0 [] (OtherDecl []))); (toplevel 1 (TOther), (Node 1 [] (ObjCContainerDecl {| oc_kind := OKInterface; oc_name := $"NSObject"; oc_lines := (2)%Z; oc_ivars := 0; oc_methods := []; oc_classes := [$"NSObject"]; oc_superMethods := None |} []))); (toplevel 2 (TOther), (Node 2 [] (ObjCContainerDecl {| oc_kind := OKInterface; oc_name := $"NSNumber"; oc_lines := (13)%Z; oc_ivars := 0; oc_methods := [($"numberWithChar:", false); ($"numberWithInt:", false); ($"numberWithUnsignedInt:", false); ($"numberWithLong:", false); ($"numberWithUnsignedLong:", false); ($"numberWithLongLong:", false); ($"numberWithUnsignedLongLong:", false); ($"numberWithFloat:", false); ($"numberWithDouble:", false); ($"numberWithBool:", false); ($"numberWithUnsignedChar:", false)]; oc_classes := [$"NSNumber"; $"NSObject"]; oc_superMethods := (Some ($"NSObject", [])) |} [(Node 3 [] (ObjCMethodDecl {| om_selector := $"numberWithChar:"; om_class := (Some $"NSNumber"); om_overriding := false; om_overridden := []; om_bodyLines := (0)%Z |} [(Node 4 [] (VarDecl {| v_isParm := true; v_name := $"value"; v_used := false; v_referenced := false; v_local := false; v_staticMember := false; v_private := false; v_unusedAttr := false; v_defaultArg := false; v_canonicalType := $"char"; v_inTemplate := false; v_contexts := [CxObjCMethod true false false false; CxOther] |} None))] None)); (Node 5 [] (ObjCMethodDecl {| om_selector := $"numberWithInt:"; om_class := (Some $"NSNumber"); om_overriding := false; om_overridden := []; om_bodyLines := (0)%Z |} [(Node 6 [] (VarDecl {| v_isParm := true; v_name := $"value"; v_used := false; v_referenced := false; v_local := false; v_staticMember := false; v_private := false; v_unusedAttr := false; v_defaultArg := false; v_canonicalType := $"int"; v_inTemplate := false; v_contexts := [CxObjCMethod true false false false; CxOther] |} None))] None)); (Node 7 [] (ObjCMethodDecl {| om_selector := $"numberWithUnsignedInt:"; om_class := (Some $"NSNumber"); om_overriding := false; om_overridden := []; om_bodyLines := (0)%Z |} [(Node 8 [] (VarDecl {| v_isParm := true; v_name := $"value"; v_used := false; v_referenced := false; v_local := false; v_staticMember := false; v_private := false; v_unusedAttr := false; v_defaultArg := false; v_canonicalType := $"unsigned int"; v_inTemplate := false; v_contexts := [CxObjCMethod true false false false; CxOther] |} None))] None)); (Node 9 [] (ObjCMethodDecl {| om_selector := $"numberWithLong:"; om_class := (Some $"NSNumber"); om_overriding := false; om_overridden := []; om_bodyLines := (0)%Z |} [(Node 10 [] (VarDecl {| v_isParm := true; v_name := $"value"; v_used := false; v_referenced := false; v_local := false; v_staticMember := false; v_private := false; v_unusedAttr := false; v_defaultArg := false; v_canonicalType := $"long"; v_inTemplate := false; v_contexts := [CxObjCMethod true false false false; CxOther] |} None))] None)); (Node 11 [] (ObjCMethodDecl {| om_selector := $"numberWithUnsignedLong:"; om_class := (Some $"NSNumber"); om_overriding := false; om_overridden := []; om_bodyLines := (0)%Z |} [(Node 12 [] (VarDecl {| v_isParm := true; v_name := $"value"; v_used := false; v_referenced := false; v_local := false; v_staticMember := false; v_private := false; v_unusedAttr := false; v_defaultArg := false; v_canonicalType := $"unsigned long"; v_inTemplate := false; v_contexts := [CxObjCMethod true false false false; CxOther] |} None))] None)); (Node 13 [] (ObjCMethodDecl {| om_selector := $"numberWithLongLong:"; om_class := (Some $"NSNumber"); om_overriding := false; om_overridden := []; om_bodyLines := (0)%Z |} [(Node 14 [] (VarDecl {| v_isParm := true; v_name := $"value"; v_used := false; v_referenced := false; v_local := false; v_staticMember := false; v_private := false; v_unusedAttr := false; v_defaultArg := false; v_canonicalType := $"long long"; v_inTemplate := false; v_contexts := [CxObjCMethod true false false false; CxOther] |} None))] None)); (Node 15 [] (ObjCMethodDecl {| om_selector := $"numberWithUnsignedLongLong:"; om_class := (Some $"NSNumber"); om_overriding := false; om_overridden := []; om_bodyLines := (0)%Z |} [(Node 16 [] (VarDecl {| v_isParm := true; v_name := $"value"; v_used := false; v_referenced := false; v_local := false; v_staticMember := false; v_private := false; v_unusedAttr := false; v_defaultArg := false; v_canonicalType := $"unsigned long long"; v_inTemplate := false; v_contexts := [CxObjCMethod true false false false; CxOther] |} None))] None)); (Node 17 [] (ObjCMethodDecl {| om_selector := $"numberWithFloat:"; om_class := (Some $"NSNumber"); om_overriding := false; om_overridden := []; om_bodyLines := (0)%Z |} [(Node 18 [] (VarDecl {| v_isParm := true; v_name := $"value"; v_used := false; v_referenced := false; v_local := false; v_staticMember := false; v_private := false; v_unusedAttr := false; v_defaultArg := false; v_canonicalType := $"float"; v_inTemplate := false; v_contexts := [CxObjCMethod true false false false; CxOther] |} None))] None)); (Node 19 [] (ObjCMethodDecl {| om_selector := $"numberWithDouble:"; om_class := (Some $"NSNumber"); om_overriding := false; om_overridden := []; om_bodyLines := (0)%Z |} [(Node 20 [] (VarDecl {| v_isParm := true; v_name := $"value"; v_used := false; v_referenced := false; v_local := false; v_staticMember := false; v_private := false; v_unusedAttr := false; v_defaultArg := false; v_canonicalType := $"double"; v_inTemplate := false; v_contexts := [CxObjCMethod true false false false; CxOther] |} None))] None)); (Node 21 [] (ObjCMethodDecl {| om_selector := $"numberWithBool:"; om_class := (Some $"NSNumber"); om_overriding := false; om_overridden := []; om_bodyLines := (0)%Z |} [(Node 22 [] (VarDecl {| v_isParm := true; v_name := $"value"; v_used := false; v_referenced := false; v_local := false; v_staticMember := false; v_private := false; v_unusedAttr := false; v_defaultArg := false; v_canonicalType := $"signed char"; v_inTemplate := false; v_contexts := [CxObjCMethod true false false false; CxOther] |} None))] None)); (Node 23 [] (ObjCMethodDecl {| om_selector := $"numberWithUnsignedChar:"; om_class := (Some $"NSNumber"); om_overriding := false; om_overridden := []; om_bodyLines := (0)%Z |} [(Node 24 [] (VarDecl {| v_isParm := true; v_name := $"value"; v_used := false; v_referenced := false; v_local := false; v_staticMember := false; v_private := false; v_unusedAttr := false; v_defaultArg := false; v_canonicalType := $"unsigned char"; v_inTemplate := false; v_contexts := [CxObjCMethod true false false false; CxOther] |} None))] None))]))); (toplevel 25 (TFunction false), (Node 25 [] (FunctionDecl {| f_name := $"m"; f_method := None; f_isDefinition := true; f_bodyLines := (1)%Z |} [] (Some (Node 26 [] (CompoundStmt [(Node 27 [] (DeclStmt [(Node 28 [] (VarDecl {| v_isParm := false; v_name := $"fortyTwoBOOL"; v_used := false; v_referenced := false; v_local := true; v_staticMember := false; v_private := false; v_unusedAttr := false; v_defaultArg := false; v_canonicalType := $"NSNumber *"; v_inTemplate := false; v_contexts := [CxFunction true true false] |} (Some (Node 29 $"NSNumber *" (ObjCMessageExpr {| ms_selector := $"numberWithBool:"; ms_receiver := (RClass $"NSNumber"); ms_implicit := false; ms_interface := (Some $"NSNumber"); ms_method := (Some (Decl [] (Some (Method false None (InOther (Some NoCategory)))))); ms_methodClass := (Some $"NSNumber") |} None [(Node 30 $"BOOL" (ImplicitCastExpr CK_Other (Node 31 $"int" (ParenExpr (Node 32 $"int" (UnaryOperator UO_LNot (Node 33 $"signed char" (ObjCBoolLiteralExpr true))))))))])))))]))]))))))];
     ts_locs := [(2,1,2,21); (3,1,4,2); (5,1,17,2); (6,1,6,41); (6,31,6,36); (7,1,7,39); (7,30,7,34); (8,1,8,56); (8,38,8,51); (9,1,9,41); (9,31,9,36); (10,1,10,58); (10,39,10,53); (11,1,11,50); (11,35,11,45); (12,1,12,67); (12,43,12,62); (13,1,13,43); (13,32,13,38); (14,1,14,45); (14,33,14,40); (15,1,15,41); (15,31,15,36); (16,1,16,58); (16,39,16,53); (21,1,21,71); (21,10,21,71); (21,12,21,69); (21,12,21,68); (21,37,21,68); (21,62,21,67); (21,62,21,67); (21,63,21,64); (21,64,21,64)]%Z;
     ts_evals := []; ts_same := []; ts_decls := []; ts_parents := [] |}.
Example ObjCNSNumberLiterals_NumberWithBoxedBOOLYes_newBOOLDef_holds : sorted_violations_of (shippedRule sh_ObjCNSNumberLiterals) ObjCNSNumberLiterals_NumberWithBoxedBOOLYes_newBOOLDef = Some [].
Proof. vm_compute. reflexivity. Qed.

Definition ObjCNSNumberLiterals_BOOLNoLiteral_newBOOLDef : testcase :=
  {| ts_lang := LObjC; ts_path := $"input.m"; ts_code := [];
     ts_comments := []; ts_conf := [];
     ts_tops := [(toplevel 0 (TOther), (Node 0 [] (OtherDecl []))); (toplevel 1 (TOther), (Node 1 [] (ObjCContainerDecl {| oc_kind := OKInterface; oc_name := $"NSObject"; oc_lines := (2)%Z; oc_ivars := 0; oc_methods := []; oc_classes := [$"NSObject"]; oc_superMethods := None |} []))); (toplevel 2 (TOther), (Node 2 [] (ObjCContainerDecl {| oc_kind := OKInterface; oc_name := $"NSNumber"; oc_lines := (13)%Z; oc_ivars := 0; oc_methods := [($"numberWithChar:", false); ($"numberWithInt:", false); ($"numberWithUnsignedInt:", false); ($"numberWithLong:", false); ($"numberWithUnsignedLong:", false); ($"numberWithLongLong:", false); ($"numberWithUnsignedLongLong:", false); ($"numberWithFloat:", false); ($"numberWithDouble:", false); ($"numberWithBool:", false); ($"numberWithUnsignedChar:", false)]; oc_classes := [$"NSNumber"; $"NSObject"]; oc_superMethods := (Some ($"NSObject", [])) |} [(Node 3 [] (ObjCMethodDecl {| om_selector := $"numberWithChar:"; om_class := (Some $"NSNumber"); om_overriding := false; om_overridden := []; om_bodyLines := (0)%Z |} [(Node 4 [] (VarDecl {| v_isParm := true; v_name := $"value"; v_used := false; v_referenced := false; v_local := false; v_staticMember := false; v_private := false; v_unusedAttr := false; v_defaultArg := false; v_canonicalType := $"char"; v_inTemplate := false; v_contexts := [CxObjCMethod true false false false; CxOther] |} None))] None)); (Node 5 [] (ObjCMethodDecl {| om_selector := $"numberWithInt:"; om_class := (Some $"NSNumber"); om_overriding := false; om_overridden := []; om_bodyLines := (0)%Z |} [(Node 6 [] (VarDecl {| v_isParm := true; v_name := $"value"; v_used := false; v_referenced := false; v_local := false; v_staticMember := false; v_private := false; v_unusedAttr := false; v_defaultArg := false; v_canonicalType := $"int"; v_inTemplate := false; v_contexts := [CxObjCMethod true false false false; CxOther] |} None))] None)); (Node 7 [] (ObjCMethodDecl {| om_selector := $"numberWithUnsignedInt:"; om_class := (Some $"NSNumber"); om_overriding := false; om_overridden := []; om_bodyLines := (0)%Z |} [(Node 8 [] (VarDecl {| v_isParm := true; v_name := $"value"; v_used := false; v_referenced := false; v_local := false; v_staticMember := false; v_private := false; v_unusedAttr := false; v_defaultArg := false; v_canonicalType := $"unsigned int"; v_inTemplate := false; v_contexts := [CxObjCMethod true false false false; CxOther] |} None))] None)); (Node 9 [] (ObjCMethodDecl {| om_selector := $"numberWithLong:"; om_class := (Some $"NSNumber"); om_overriding := false; om_overridden := []; om_bodyLines := (0)%Z |} [(Node 10 [] (VarDecl {| v_isParm := true; v_name := $"value"; v_used := false; v_referenced := false; v_local := false; v_staticMember := false; v_private := false; v_unusedAttr := false; v_defaultArg := false; v_canonicalType := $"long"; v_inTemplate := false; v_contexts := [CxObjCMethod true false false false; CxOther] |} None))] None)); (Node 11 [] (ObjCMethodDecl {| om_selector := $"numberWithUnsignedLong:"; om_class := (Some $"NSNumber"); om_overriding := false; om_overridden := []; om_bodyLines := (0)%Z |} [(Node 12 [] (VarDecl {| v_isParm := true; v_name := $"value"; v_used := false; v_referenced := false; v_local := false; v_staticMember := false; v_private := false; v_unusedAttr := false; v_defaultArg := false; v_canonicalType := $"unsigned long"; v_inTemplate := false; v_contexts := [CxObjCMethod true false false false; CxOther] |} None))] None)); (Node 13 [] (ObjCMethodDecl {| om_selector := $"numberWithLongLong:"; om_class := (Some $"NSNumber"); om_overriding := false; om_overridden := []; om_bodyLines := (0)%Z |} [(Node 14 [] (VarDecl {| v_isParm := true; v_name := $"value"; v_used := false; v_referenced := false; v_local := false; v_staticMember := false; v_private := false; v_unusedAttr := false; v_defaultArg := false; v_canonicalType := $"long long"; v_inTemplate := false; v_contexts := [CxObjCMethod true false false false; CxOther] |} None))] None)); (Node 15 [] (ObjCMethodDecl {| om_selector := $"numberWithUnsignedLongLong:"; om_class := (Some $"NSNumber"); om_overriding := false; om_overridden := []; om_bodyLines := (0)%Z |} [(Node 16 [] (VarDecl {| v_isParm := true; v_name := $"value"; v_used := false; v_referenced := false; v_local := false; v_staticMember := false; v_private := false; v_unusedAttr := false; v_defaultArg := false; v_canonicalType := $"unsigned long long"; v_inTemplate := false; v_contexts := [CxObjCMethod true false false false; CxOther] |} None))] None)); (Node 17 [] (ObjCMethodDecl {| om_selector := $"numberWithFloat:"; om_class := (Some $"NSNumber"); om_overriding := false; om_overridden := []; om_bodyLines := (0)%Z |} [(Node 18 [] (VarDecl {| v_isParm := true; v_name := $"value"; v_used := false; v_referenced := false; v_local := false; v_staticMember := false; v_private := false; v_unusedAttr := false; v_defaultArg := false; v_canonicalType := $"float"; v_inTemplate := false; v_contexts := [CxObjCMethod true false false false; CxOther] |} None))] None)); (Node 19 [] (ObjCMethodDecl {| om_selector := $"numberWithDouble:"; om_class := (Some $"NSNumber"); om_overriding := false; om_overridden := []; om_bodyLines := (0)%Z |} [(Node 20 [] (VarDecl {| v_isParm := true; v_name := $"value"; v_used := false; v_referenced := false; v_local := false; v_staticMember := false; v_private := false; v_unusedAttr := false; v_defaultArg := false; v_canonicalType := $"double"; v_inTemplate := false; v_contexts := [CxObjCMethod true false false false; CxOther] |} None))] None)); (Node 21 [] (ObjCMethodDecl {| om_selector := $"numberWithBool:"; om_class := (Some $"NSNumber"); om_overriding := false; om_overridden := []; om_bodyLines := (0)%Z |} [(Node 22 [] (VarDecl {| v_isParm := true; v_name := $"value"; v_used := false; v_referenced := false; v_local := false; v_staticMember := false; v_private := false; v_unusedAttr := false; v_defaultArg := false; v_canonicalType := $"signed char"; v_inTemplate := false; v_contexts := [CxObjCMethod true false false false; CxOther] |} None))] None)); (Node 23 [] (ObjCMethodDecl {| om_selector := $"numberWithUnsignedChar:"; om_class := (Some $"NSNumber"); om_overriding := false; om_overridden := []; om_bodyLines := (0)%Z |} [(Node 24 [] (VarDecl {| v_isParm := true; v_name := $"value"; v_used := false; v_referenced := false; v_local := false; v_staticMember := false; v_private := false; v_unusedAttr := false; v_defaultArg := false; v_canonicalType := $"unsigned char"; v_inTemplate := false; v_contexts := [CxObjCMethod true false false false; CxOther] |} None))] None))]))); (toplevel 25 (TFunction false), (Node 25 [] (FunctionDecl {| f_name := $"m"; f_method := None; f_isDefinition := true; f_bodyLines := (1)%Z |} [] (Some (Node 26 [] (CompoundStmt [(Node 27 [] (DeclStmt [(Node 28 [] (VarDecl {| v_isParm := false; v_name := $"fortyTwoBOOL"; v_used := false; v_referenced := false; v_local := true; v_staticMember := false; v_private := false; v_unusedAttr := false; v_defaultArg := false; v_canonicalType := $"NSNumber *"; v_inTemplate := false; v_contexts := [CxFunction true true false] |} (Some (Node 29 $"NSNumber *" (OtherExpr [(Node 30 $"signed char" (ObjCBoolLiteralExpr false))])))))]))]))))))];
     ts_locs := [(2,1,2,21); (3,1,4,2); (5,1,17,2); (6,1,6,41); (6,31,6,36); (7,1,7,39); (7,30,7,34); (8,1,8,56); (8,38,8,51); (9,1,9,41); (9,31,9,36); (10,1,10,58); (10,39,10,53); (11,1,11,50); (11,35,11,45); (12,1,12,67); (12,43,12,62); (13,1,13,43); (13,32,13,38); (14,1,14,45); (14,33,14,40); (15,1,15,41); (15,31,15,36); (16,1,16,58); (16,39,16,53); (21,1,21,42); (21,10,21,42); (21,12,21,40); (21,12,21,38); (21,37,21,38); (21,38,21,38)]%Z;
     ts_evals := []; ts_same := []; ts_decls := []; ts_parents := [] |}.
Example ObjCNSNumberLiterals_BOOLNoLiteral_newBOOLDef_holds : sorted_violations_of (shippedRule sh_ObjCNSNumberLiterals) ObjCNSNumberLiterals_BOOLNoLiteral_newBOOLDef = Some [].
Proof. vm_compute. reflexivity. Qed.

Definition ObjCNSNumberLiterals_NumberWithBoolNo_newBOOLDef : testcase :=
  {| ts_lang := LObjC; ts_path := $"input.m"; ts_code := [];
     ts_comments := []; ts_conf := [];
     ts_tops := [(toplevel 0 (TOther), (Node 0 [] (OtherDecl []))); (toplevel 1 (TOther), (Node 1 [] (ObjCContainerDecl {| oc_kind := OKInterface; oc_name := $"NSObject"; oc_lines := (2)%Z; oc_ivars := 0; oc_methods := []; oc_classes := [$"NSObject"]; oc_superMethods := None |} []))); (toplevel 2 (TOther), (Node 2 [] (ObjCContainerDecl {| oc_kind := OKInterface; oc_name := $"NSNumber"; oc_lines := (13)%Z; oc_ivars := 0; oc_methods := [($"numberWithChar:", false); ($"numberWithInt:", false); ($"numberWithUnsignedInt:", false); ($"numberWithLong:", false); ($"numberWithUnsignedLong:", false); ($"numberWithLongLong:", false); ($"numberWithUnsignedLongLong:", false); ($"numberWithFloat:", false); ($"numberWithDouble:", false); ($"numberWithBool:", false); ($"numberWithUnsignedChar:", false)]; oc_classes := [$"NSNumber"; $"NSObject"]; oc_superMethods := (Some ($"NSObject", [])) |} [(Node 3 [] (ObjCMethodDecl {| om_selector := $"numberWithChar:"; om_class := (Some $"NSNumber"); om_overriding := false; om_overridden := []; om_bodyLines := (0)%Z |} [(Node 4 [] (VarDecl {| v_isParm := true; v_name := $"value"; v_used := false; v_referenced := false; v_local := false; v_staticMember := false; v_private := false; v_unusedAttr := false; v_defaultArg := false; v_canonicalType := $"char"; v_inTemplate := false; v_contexts := [CxObjCMethod true false false false; CxOther] |} None))] None)); (Node 5 [] (ObjCMethodDecl {| om_selector := $"numberWithInt:"; om_class := (Some $"NSNumber"); om_overriding := false; om_overridden := []; om_bodyLines := (0)%Z |} [(Node 6 [] (VarDecl {| v_isParm := true; v_name := $"value"; v_used := false; v_referenced := false; v_local := false; v_staticMember := false; v_private := false; v_unusedAttr := false; v_defaultArg := false; v_canonicalType := $"int"; v_inTemplate := false; v_contexts := [CxObjCMethod true false false false; CxOther] |} None))] None)); (Node 7 [] (ObjCMethodDecl {| om_selector := $"numberWithUnsignedInt:"; om_class := (Some $"NSNumber"); om_overriding := false; om_overridden := []; om_bodyLines := (0)%Z |} [(Node 8 [] (VarDecl {| v_isParm := true; v_name := $"value"; v_used := false; v_referenced := false; v_local := false; v_staticMember := false; v_private := false; v_unusedAttr := false; v_defaultArg := false; v_canonicalType := $"unsigned int"; v_inTemplate := false; v_contexts := [CxObjCMethod true false false false; CxOther] |} None))] None)); (Node 9 [] (ObjCMethodDecl {| om_selector := $"numberWithLong:"; om_class := (Some $"NSNumber"); om_overriding := false; om_overridden := []; om_bodyLines := (0)%Z |} [(Node 10 [] (VarDecl {| v_isParm := true; v_name := $"value"; v_used := false; v_referenced := false; v_local := false; v_staticMember := false; v_private := false; v_unusedAttr := false; v_defaultArg := false; v_canonicalType := $"long"; v_inTemplate := false; v_contexts := [CxObjCMethod true false false false; CxOther] |} None))] None)); (Node 11 [] (ObjCMethodDecl {| om_selector := $"numberWithUnsignedLong:"; om_class := (Some $"NSNumber"); om_overriding := false; om_overridden := []; om_bodyLines := (0)%Z |} [(Node 12 [] (VarDecl {| v_isParm := true; v_name := $"value"; v_used := false; v_referenced := false; v_local := false; v_staticMember := false; v_private := false; v_unusedAttr := false; v_defaultArg := false; v_canonicalType := $"unsigned long"; v_inTemplate := false; v_contexts := [CxObjCMethod true false false false; CxOther] |} None))] None)); (Node 13 [] (ObjCMethodDecl {| om_selector := $"numberWithLongLong:"; om_class := (Some $"NSNumber"); om_overriding := false; om_overridden := []; om_bodyLines := (0)%Z |} [(Node 14 [] (VarDecl {| v_isParm := true; v_name := $"value"; v_used := false; v_referenced := false; v_local := false; v_staticMember := false; v_private := false; v_unusedAttr := false; v_defaultArg := false; v_canonicalType := $"long long"; v_inTemplate := false; v_contexts := [CxObjCMethod true false false false; CxOther] |} None))] None)); (Node 15 [] (ObjCMethodDecl {| om_selector := $"numberWithUnsignedLongLong:"; om_class := (Some $"NSNumber"); om_overriding := false; om_overridden := []; om_bodyLines := (0)%Z |} [(Node 16 [] (VarDecl {| v_isParm := true; v_name := $"value"; v_used := false; v_referenced := false; v_local := false; v_staticMember := false; v_private := false; v_unusedAttr := false; v_defaultArg := false; v_canonicalType := $"unsigned long long"; v_inTemplate := false; v_contexts := [CxObjCMethod true false false false; CxOther] |} None))] None)); (Node 17 [] (ObjCMethodDecl {| om_selector := $"numberWithFloat:"; om_class := (Some $"NSNumber"); om_overriding := false; om_overridden := []; om_bodyLines := (0)%Z |} [(Node 18 [] (VarDecl {| v_isParm := true; v_name := $"value"; v_used := false; v_referenced := false; v_local := false; v_staticMember := false; v_private := false; v_unusedAttr := false; v_defaultArg := false; v_canonicalType := $"float"; v_inTemplate := false; v_contexts := [CxObjCMethod true false false false; CxOther] |} None))] None)); (Node 19 [] (ObjCMethodDecl {| om_selector := $"numberWithDouble:"; om_class := (Some $"NSNumber"); om_overriding := false; om_overridden := []; om_bodyLines := (0)%Z |} [(Node 20 [] (VarDecl {| v_isParm := true; v_name := $"value"; v_used := false; v_referenced := false; v_local := false; v_staticMember := false; v_private := false; v_unusedAttr := false; v_defaultArg := false; v_canonicalType := $"double"; v_inTemplate := false; v_contexts := [CxObjCMethod true false false false; CxOther] |} None))] None)); (Node 21 [] (ObjCMethodDecl {| om_selector := $"numberWithBool:"; om_class := (Some $"NSNumber"); om_overriding := false; om_overridden := []; om_bodyLines := (0)%Z |} [(Node 22 [] (VarDecl {| v_isParm := true; v_name := $"value"; v_used := false; v_referenced := false; v_local := false; v_staticMember := false; v_private := false; v_unusedAttr := false; v_defaultArg := false; v_canonicalType := $"signed char"; v_inTemplate := false; v_contexts := [CxObjCMethod true false false false; CxOther] |} None))] None)); (Node 23 [] (ObjCMethodDecl {| om_selector := $"numberWithUnsignedChar:"; om_class := (Some $"NSNumber"); om_overriding := false; om_overridden := []; om_bodyLines := (0)%Z |} [(Node 24 [] (VarDecl {| v_isParm := true; v_name := $"value"; v_used := false; v_referenced := false; v_local := false; v_staticMember := false; v_private := false; v_unusedAttr := false; v_defaultArg := false; v_canonicalType := $"unsigned char"; v_inTemplate := false; v_contexts := [CxObjCMethod true false false false; CxOther] |} None))] None))]))); (toplevel 25 (TFunction false), (Node 25 [] (FunctionDecl {| f_name := $"m"; f_method := None; f_isDefinition := true; f_bodyLines := (1)%Z |} [] (Some (Node 26 [] (CompoundStmt [(Node 27 [] (DeclStmt [(Node 28 [] (VarDecl {| v_isParm := false; v_name := $"fortyTwoBOOL"; v_used := false; v_referenced := false; v_local := true; v_staticMember := false; v_private := false; v_unusedAttr := false; v_defaultArg := false; v_canonicalType := $"NSNumber *"; v_inTemplate := false; v_contexts := [CxFunction true true false] |} (Some (Node 29 $"NSNumber *" (ObjCMessageExpr {| ms_selector := $"numberWithBool:"; ms_receiver := (RClass $"NSNumber"); ms_implicit := false; ms_interface := (Some $"NSNumber"); ms_method := (Some (Decl [] (Some (Method false None (InOther (Some NoCategory)))))); ms_methodClass := (Some $"NSNumber") |} None [(Node 30 $"signed char" (ObjCBoolLiteralExpr false))])))))]))]))))))];
     ts_locs := [(2,1,2,21); (3,1,4,2); (5,1,17,2); (6,1,6,41); (6,31,6,36); (7,1,7,39); (7,30,7,34); (8,1,8,56); (8,38,8,51); (9,1,9,41); (9,31,9,36); (10,1,10,58); (10,39,10,53); (11,1,11,50); (11,35,11,45); (12,1,12,67); (12,43,12,62); (13,1,13,43); (13,32,13,38); (14,1,14,45); (14,33,14,40); (15,1,15,41); (15,31,15,36); (16,1,16,58); (16,39,16,53); (21,1,21,67); (21,10,21,67); (21,12,21,65); (21,12,21,64); (21,37,21,64); (21,62,21,62)]%Z;
     ts_evals := []; ts_same := []; ts_decls := []; ts_parents := [] |}.
Example ObjCNSNumberLiterals_NumberWithBoolNo_newBOOLDef_holds : nth_violation (shippedRule sh_ObjCNSNumberLiterals) ObjCNSNumberLiterals_NumberWithBoolNo_newBOOLDef 0 = Some (21, 37, 21, 64, $"")%Z.
Proof. vm_compute. reflexivity. Qed.

Definition ObjCNSNumberLiterals_NumberWithBoxedBOOLNo_newBOOLDef : testcase :=
  {| ts_lang := LObjC; ts_path := $"input.m"; ts_code := [];
     ts_comments := []; ts_conf := [];
     ts_tops := [(toplevel 0 (TOther), (Node 0 [] (OtherDecl []))); (toplevel 1 (TOther), (Node 1 [] (ObjCContainerDecl {| oc_kind := OKInterface; oc_name := $"NSObject"; oc_lines := (2)%Z; oc_ivars := 0; oc_methods := []; oc_classes := [$"NSObject"]; oc_superMethods := None |} []))); (toplevel 2 (TOther), (Node 2 [] (ObjCContainerDecl {| oc_kind := OKInterface; oc_name := $"NSNumber"; oc_lines := (13)%Z; oc_ivars := 0; oc_methods := [($"numberWithChar:", false); ($"numberWithInt:", false); ($"numberWithUnsignedInt:", false); ($"numberWithLong:", false); ($"numberWithUnsignedLong:", false); ($"numberWithLongLong:", false); ($"numberWithUnsignedLongLong:", false); ($"numberWithFloat:", false); ($"numberWithDouble:", false); ($"numberWithBool:", false); ($"numberWithUnsignedChar:", false)]; oc_classes := [$"NSNumber"; $"NSObject"]; oc_superMethods := (Some ($"NSObject", [])) |} [(Node 3 [] (ObjCMethodDecl {| om_selector := $"numberWithChar:"; om_class := (Some $"NSNumber"); om_overriding := false; om_overridden := []; om_bodyLines := (0)%Z |} [(Node 4 [] (VarDecl {| v_isParm := true; v_name := $"value"; v_used := false; v_referenced := false; v_local := false; v_staticMember := false; v_private := false; v_unusedAttr := false; v_defaultArg := false; v_canonicalType := $"char"; v_inTemplate := false; v_contexts := [CxObjCMethod true false false false; CxOther] |} None))] None)); (Node 5 [] (ObjCMethodDecl {| om_selector := $"numberWithInt:"; om_class := (Some $"NSNumber"); om_overriding := false; om_overridden := []; om_bodyLines := (0)%Z |} [(Node 6 [] (VarDecl {| v_isParm := true; v_name := $"value"; v_used := false; v_referenced := false; v_local := false; v_staticMember := false; v_private := false; v_unusedAttr := false; v_defaultArg := false; v_canonicalType := $"int"; v_inTemplate := false; v_contexts := [CxObjCMethod true false false false; CxOther] |} None))] None)); (Node 7 [] (ObjCMethodDecl {| om_selector := $"numberWithUnsignedInt:"; om_class := (Some $"NSNumber"); om_overriding := false; om_overridden := []; om_bodyLines := (0)%Z |} [(Node 8 [] (VarDecl {| v_isParm := true; v_name := $"value"; v_used := false; v_referenced := false; v_local := false; v_staticMember := false; v_private := false; v_unusedAttr := false; v_defaultArg := false; v_canonicalType := $"unsigned int"; v_inTemplate := false; v_contexts := [CxObjCMethod true false false false; CxOther] |} None))] None)); (Node 9 [] (ObjCMethodDecl {| om_selector := $"numberWithLong:"; om_class := (Some $"NSNumber"); om_overriding := false; om_overridden := []; om_bodyLines := (0)%Z |} [(Node 10 [] (VarDecl {| v_isParm := true; v_name := $"value"; v_used := false; v_referenced := false; v_local := false; v_staticMember := false; v_private := false; v_unusedAttr := false; v_defaultArg := false; v_canonicalType := $"long"; v_inTemplate := false; v_contexts := [CxObjCMethod true false false false; CxOther] |} None))] None)); (Node 11 [] (ObjCMethodDecl {| om_selector := $"numberWithUnsignedLong:"; om_class := (Some $"NSNumber"); om_overriding := false; om_overridden := []; om_bodyLines := (0)%Z |} [(Node 12 [] (VarDecl {| v_isParm := true; v_name := $"value"; v_used := false; v_referenced := false; v_local := false; v_staticMember := false; v_private := false; v_unusedAttr := false; v_defaultArg := false; v_canonicalType := $"unsigned long"; v_inTemplate := false; v_contexts := [CxObjCMethod true false false false; CxOther] |} None))] None)); (Node 13 [] (ObjCMethodDecl {| om_selector := $"numberWithLongLong:"; om_class := (Some $"NSNumber"); om_overriding := false; om_overridden := []; om_bodyLines := (0)%Z |} [(Node 14 [] (VarDecl {| v_isParm := true; v_name := $"value"; v_used := false; v_referenced := false; v_local := false; v_staticMember := false; v_private := false; v_unusedAttr := false; v_defaultArg := false; v_canonicalType := $"long long"; v_inTemplate := false; v_contexts := [CxObjCMethod true false false false; CxOther] |} None))] None)); (Node 15 [] (ObjCMethodDecl {| om_selector := $"numberWithUnsignedLongLong:"; om_class := (Some $"NSNumber"); om_overriding := false; om_overridden := []; om_bodyLines := (0)%Z |} [(Node 16 [] (VarDecl {| v_isParm := true; v_name := $"value"; v_used := false; v_referenced := false; v_local := false; v_staticMember := false; v_private := false; v_unusedAttr := false; v_defaultArg := false; v_canonicalType := $"unsigned long long"; v_inTemplate := false; v_contexts := [CxObjCMethod true false false false; CxOther] |} None))] None)); (Node 17 [] (ObjCMethodDecl {| om_selector := $"numberWithFloat:"; om_class := (Some $"NSNumber"); om_overriding := false; om_overridden := []; om_bodyLines := (0)%Z |} [(Node 18 [] (VarDecl {| v_isParm := true; v_name := $"value"; v_used := false; v_referenced := false; v_local := false; v_staticMember := false; v_private := false; v_unusedAttr := false; v_defaultArg := false; v_canonicalType := $"float"; v_inTemplate := false; v_contexts := [CxObjCMethod true false false false; CxOther] |} None))] None)); (Node 19 [] (ObjCMethodDecl {| om_selector := $"numberWithDouble:"; om_class := (Some $"NSNumber"); om_overriding := false; om_overridden := []; om_bodyLines := (0)%Z |} [(Node 20 [] (VarDecl {| v_isParm := true; v_name := $"value"; v_used := false; v_referenced := false; v_local := false; v_staticMember := false; v_private := false; v_unusedAttr := false; v_defaultArg := false; v_canonicalType := $"double"; v_inTemplate := false; v_contexts := [CxObjCMethod true false false false; CxOther] |} None))] None)); (Node 21 [] (ObjCMethodDecl {| om_selector := $"numberWithBool:"; om_class := (Some $"NSNumber"); om_overriding := false; om_overridden := []; om_bodyLines := (0)%Z |} [(Node 22 [] (VarDecl {| v_isParm := true; v_name := $"value"; v_used := false; v_referenced := false; v_local := false; v_staticMember := false; v_private := false; v_unusedAttr := false; v_defaultArg := false; v_canonicalType := $"signed char"; v_inTemplate := false; v_contexts := [CxObjCMethod true false false false; CxOther] |} None))] None)); (Node 23 [] (ObjCMethodDecl {| om_selector := $"numberWithUnsignedChar:"; om_class := (Some $"NSNumber"); om_overriding := false; om_overridden := []; om_bodyLines := (0)%Z |} [(Node 24 [] (VarDecl {| v_isParm := true; v_name := $"value"; v_used := false; v_referenced := false; v_local := false; v_staticMember := false; v_private := false; v_unusedAttr := false; v_defaultArg := false; v_canonicalType := $"unsigned char"; v_inTemplate := false; v_contexts := [CxObjCMethod true false false false; CxOther] |} None))] None))]))); (toplevel 25 (TFunction false), (Node 25 [] (FunctionDecl {| f_name := $"m"; f_method := None; f_isDefinition := true; f_bodyLines := (1)%Z |} [] (Some (Node 26 [] (CompoundStmt [(Node 27 [] (DeclStmt [(Node 28 [] (VarDecl {| v_isParm := false; v_name := $"fortyTwoBOOL"; v_used := false; v_referenced := false; v_local := true; v_staticMember := false; v_private := false; v_unusedAttr := false; v_defaultArg := false; v_canonicalType := $"NSNumber *"; v_inTemplate := false; v_contexts := [CxFunction true true false] |} (Some (Node 29 $"NSNumber *" (ObjCMessageExpr {| ms_selector := $"numberWithBool:"; ms_receiver := (RClass $"NSNumber"); ms_implicit := false; ms_interface := (Some $"NSNumber"); ms_method := (Some (Decl [] (Some (Method false None (InOther (Some NoCategory)))))); ms_methodClass := (Some $"NSNumber") |} None [(Node 30 $"BOOL" (ImplicitCastExpr CK_Other (Node 31 $"int" (ParenExpr (Node 32 $"int" (UnaryOperator UO_LNot (Node 33 $"signed char" (ObjCBoolLiteralExpr false))))))))])))))]))]))))))];
     ts_locs := [(2,1,2,21); (3,1,4,2); (5,1,17,2); (6,1,6,41); (6,31,6,36); (7,1,7,39); (7,30,7,34); (8,1,8,56); (8,38,8,51); (9,1,9,41); (9,31,9,36); (10,1,10,58); (10,39,10,53); (11,1,11,50); (11,35,11,45); (12,1,12,67); (12,43,12,62); (13,1,13,43); (13,32,13,38); (14,1,14,45); (14,33,14,40); (15,1,15,41); (15,31,15,36); (16,1,16,58); (16,39,16,53); (21,1,21,70); (21,10,21,70); (21,12,21,68); (21,12,21,67); (21,37,21,67); (21,62,21,66); (21,62,21,66); (21,63,21,64); (21,64,21,64)]%Z;
     ts_evals := []; ts_same := []; ts_decls := []; ts_parents := [] |}.
Example ObjCNSNumberLiterals_NumberWithBoxedBOOLNo_newBOOLDef_holds : sorted_violations_of (shippedRule sh_ObjCNSNumberLiterals) ObjCNSNumberLiterals_NumberWithBoxedBOOLNo_newBOOLDef = Some [].
Proof. vm_compute. reflexivity. Qed.

Definition ObjCNSNumberLiterals_BOOLYesLiteral_oldBOOLDef : testcase :=
  {| ts_lang := LObjC; ts_path := $"input.m"; ts_code := [];
     ts_comments := []; ts_conf := [];
     ts_tops := [(toplevel 0 (TOther), (Node 0 [] (OtherDecl []))); (toplevel 1 (TOther), (Node 1 [] (ObjCContainerDecl {| oc_kind := OKInterface; oc_name := $"NSObject"; oc_lines := (2)%Z; oc_ivars := 0; oc_methods := []; oc_classes := [$"NSObject"]; oc_superMethods := None |} []))); (toplevel 2 (TOther), (Node 2 [] (ObjCContainerDecl {| oc_kind := OKInterface; oc_name := $"NSNumber"; oc_lines := (13)%Z; oc_ivars := 0; oc_methods := [($"numberWithChar:", false); ($"numberWithInt:", false); ($"numberWithUnsignedInt:", false); ($"numberWithLong:", false); ($"numberWithUnsignedLong:", false); ($"numberWithLongLong:", false); ($"numberWithUnsignedLongLong:", false); ($"numberWithFloat:", false); ($"numberWithDouble:", false); ($"numberWithBool:", false); ($"numberWithUnsignedChar:", false)]; oc_classes := [$"NSNumber"; $"NSObject"]; oc_superMethods := (Some ($"NSObject", [])) |} [(Node 3 [] (ObjCMethodDecl {| om_selector := $"numberWithChar:"; om_class := (Some $"NSNumber"); om_overriding := false; om_overridden := []; om_bodyLines := (0)%Z |} [(Node 4 [] (VarDecl {| v_isParm := true; v_name := $"value"; v_used := false; v_referenced := false; v_local := false; v_staticMember := false; v_private := false; v_unusedAttr := false; v_defaultArg := false; v_canonicalType := $"char"; v_inTemplate := false; v_contexts := [CxObjCMethod true false false false; CxOther] |} None))] None)); (Node 5 [] (ObjCMethodDecl {| om_selector := $"numberWithInt:"; om_class := (Some $"NSNumber"); om_overriding := false; om_overridden := []; om_bodyLines := (0)%Z |} [(Node 6 [] (VarDecl {| v_isParm := true; v_name := $"value"; v_used := false; v_referenced := false; v_local := false; v_staticMember := false; v_private := false; v_unusedAttr := false; v_defaultArg := false; v_canonicalType := $"int"; v_inTemplate := false; v_contexts := [CxObjCMethod true false false false; CxOther] |} None))] None)); (Node 7 [] (ObjCMethodDecl {| om_selector := $"numberWithUnsignedInt:"; om_class := (Some $"NSNumber"); om_overriding := false; om_overridden := []; om_bodyLines := (0)%Z |} [(Node 8 [] (VarDecl {| v_isParm := true; v_name := $"value"; v_used := false; v_referenced := false; v_local := false; v_staticMember := false; v_private := false; v_unusedAttr := false; v_defaultArg := false; v_canonicalType := $"unsigned int"; v_inTemplate := false; v_contexts := [CxObjCMethod true false false false; CxOther] |} None))] None)); (Node 9 [] (ObjCMethodDecl {| om_selector := $"numberWithLong:"; om_class := (Some $"NSNumber"); om_overriding := false; om_overridden := []; om_bodyLines := (0)%Z |} [(Node 10 [] (VarDecl {| v_isParm := true; v_name := $"value"; v_used := false; v_referenced := false; v_local := false; v_staticMember := false; v_private := false; v_unusedAttr := false; v_defaultArg := false; v_canonicalType := $"long"; v_inTemplate := false; v_contexts := [CxObjCMethod true false false false; CxOther] |} None))] None)); (Node 11 [] (ObjCMethodDecl {| om_selector := $"numberWithUnsignedLong:"; om_class := (Some $"NSNumber"); om_overriding := false; om_overridden := []; om_bodyLines := (0)%Z |} [(Node 12 [] (VarDecl {| v_isParm := true; v_name := $"value"; v_used := false; v_referenced := false; v_local := false; v_staticMember := false; v_private := false; v_unusedAttr := false; v_defaultArg := false; v_canonicalType := $"unsigned long"; v_inTemplate := false; v_contexts := [CxObjCMethod true false false false; CxOther] |} None))] None)); (Node 13 [] (ObjCMethodDecl {| om_selector := $"numberWithLongLong:"; om_class := (Some $"NSNumber"); om_overriding := false; om_overridden := []; om_bodyLines := (0)%Z |} [(Node 14 [] (VarDecl {| v_isParm := true; v_name := $"value"; v_used := false; v_referenced := false; v_local := false; v_staticMember := false; v_private := false; v_unusedAttr := false; v_defaultArg := false; v_canonicalType := $"long long"; v_inTemplate := false; v_contexts := [CxObjCMethod true false false false; CxOther] |} None))] None)); (Node 15 [] (ObjCMethodDecl {| om_selector := $"numberWithUnsignedLongLong:"; om_class := (Some $"NSNumber"); om_overriding := false; om_overridden := []; om_bodyLines := (0)%Z |} [(Node 16 [] (VarDecl {| v_isParm := true; v_name := $"value"; v_used := false; v_referenced := false; v_local := false; v_staticMember := false; v_private := false; v_unusedAttr := false; v_defaultArg := false; v_canonicalType := $"unsigned long long"; v_inTemplate := false; v_contexts := [CxObjCMethod true false false false; CxOther] |} None))] None)); (Node 17 [] (ObjCMethodDecl {| om_selector := $"numberWithFloat:"; om_class := (Some $"NSNumber"); om_overriding := false; om_overridden := []; om_bodyLines := (0)%Z |} [(Node 18 [] (VarDecl {| v_isParm := true; v_name := $"value"; v_used := false; v_referenced := false; v_local := false; v_staticMember := false; v_private := false; v_unusedAttr := false; v_defaultArg := false; v_canonicalType := $"float"; v_inTemplate := false; v_contexts := [CxObjCMethod true false false false; CxOther] |} None))] None)); (Node 19 [] (ObjCMethodDecl {| om_selector := $"numberWithDouble:"; om_class := (Some $"NSNumber"); om_overriding := false; om_overridden := []; om_bodyLines := (0)%Z |} [(Node 20 [] (VarDecl {| v_isParm := true; v_name := $"value"; v_used := false; v_referenced := false; v_local := false; v_staticMember := false; v_private := false; v_unusedAttr := false; v_defaultArg := false; v_canonicalType := $"double"; v_inTemplate := false; v_contexts := [CxObjCMethod true false false false; CxOther] |} None))] None)); (Node 21 [] (ObjCMethodDecl {| om_selector := $"numberWithBool:"; om_class := (Some $"NSNumber"); om_overriding := false; om_overridden := []; om_bodyLines := (0)%Z |} [(Node 22 [] (VarDecl {| v_isParm := true; v_name := $"value"; v_used := false; v_referenced := false; v_local := false; v_staticMember := false; v_private := false; v_unusedAttr := false; v_defaultArg := false; v_canonicalType := $"signed char"; v_inTemplate := false; v_contexts := [CxObjCMethod true false false false; CxOther] |} None))] None)); (Node 23 [] (ObjCMethodDecl {| om_selector := $"numberWithUnsignedChar:"; om_class := (Some $"NSNumber"); om_overriding := false; om_overridden := []; om_bodyLines := (0)%Z |} [(Node 24 [] (VarDecl {| v_isParm := true; v_name := $"value"; v_used := false; v_referenced := false; v_local := false; v_staticMember := false; v_private := false; v_unusedAttr := false; v_defaultArg := false; v_canonicalType := $"unsigned char"; v_inTemplate := false; v_contexts := [CxObjCMethod true false false false; CxOther] |} None))] None))]))); (toplevel 25 (TFunction false), (Node 25 [] (FunctionDecl {| f_name := $"m"; f_method := None; f_isDefinition := true; f_bodyLines := (1)%Z |} [] (Some (Node 26 [] (CompoundStmt [(Node 27 [] (DeclStmt [(Node 28 [] (VarDecl {| v_isParm := false; v_name := $"fortyTwoBOOL"; v_used := false; v_referenced := false; v_local := true; v_staticMember := false; v_private := false; v_unusedAttr := false; v_defaultArg := false; v_canonicalType := $"NSNumber *"; v_inTemplate := false; v_contexts := [CxFunction true true false] |} (Some (Node 29 $"NSNumber *" (OtherExpr [(Node 30 $"BOOL" (ParenExpr (Node 31 $"BOOL" (CStyleCastExpr CK_Other (Node 32 $"int" (IntegerLiteral (1)%Z))))))])))))]))]))))))];
     ts_locs := [(2,1,2,21); (3,1,4,2); (5,1,17,2); (6,1,6,41); (6,31,6,36); (7,1,7,39); (7,30,7,34); (8,1,8,56); (8,38,8,51); (9,1,9,41); (9,31,9,36); (10,1,10,58); (10,39,10,53); (11,1,11,50); (11,35,11,45); (12,1,12,67); (12,43,12,62); (13,1,13,43); (13,32,13,38); (14,1,14,45); (14,33,14,40); (15,1,15,41); (15,31,15,36); (16,1,16,58); (16,39,16,53); (21,1,21,43); (21,10,21,43); (21,12,21,41); (21,12,21,38); (21,37,21,38); (21,38,21,38); (21,38,21,38); (21,38,21,38)]%Z;
     ts_evals := []; ts_same := []; ts_decls := []; ts_parents := [] |}.
Example ObjCNSNumberLiterals_BOOLYesLiteral_oldBOOLDef_holds : sorted_violations_of (shippedRule sh_ObjCNSNumberLiterals) ObjCNSNumberLiterals_BOOLYesLiteral_oldBOOLDef = Some [].
Proof. vm_compute. reflexivity. Qed.

Definition ObjCNSNumberLiterals_NumberWithBoolYes_oldBOOLDef : testcase :=
  {| ts_lang := LObjC; ts_path := $"input.m"; ts_code := [];
     ts_comments := []; ts_conf := [];
     ts_tops := [(toplevel 0 (TOther), (Node 0 [] (OtherDecl []))); (toplevel 1 (TOther), (Node 1 [] (ObjCContainerDecl {| oc_kind := OKInterface; oc_name := $"NSObject"; oc_lines := (2)%Z; oc_ivars := 0; oc_methods := []; oc_classes := [$"NSObject"]; oc_superMethods := None |} []))); (toplevel 2 (TOther), (Node 2 [] (ObjCContainerDecl {| oc_kind := OKInterface; oc_name := $"NSNumber"; oc_lines := (13)%Z; oc_ivars := 0; oc_methods := [($"numberWithChar:", false); ($"numberWithInt:", false); ($"numberWithUnsignedInt:", false); ($"numberWithLong:", false); ($"numberWithUnsignedLong:", false); ($"numberWithLongLong:", false); ($"numberWithUnsignedLongLong:", false); ($"numberWithFloat:", false); ($"numberWithDouble:", false); ($"numberWithBool:", false); ($"numberWithUnsignedChar:", false)]; oc_classes := [$"NSNumber"; $"NSObject"]; oc_superMethods := (Some ($"NSObject", [])) |} [(Node 3 [] (ObjCMethodDecl {| om_selector := $"numberWithChar:"; om_class := (Some $"NSNumber"); om_overriding := false; om_overridden := []; om_bodyLines := (0)%Z |} [(Node 4 [] (VarDecl {| v_isParm := true; v_name := $"value"; v_used := false; v_referenced := false; v_local := false; v_staticMember := false; v_private := false; v_unusedAttr := false; v_defaultArg := false; v_canonicalType := $"char"; v_inTemplate := false; v_contexts := [CxObjCMethod true false false false; CxOther] |} None))] None)); (Node 5 [] (ObjCMethodDecl {| om_selector := $"numberWithInt:"; om_class := (Some $"NSNumber"); om_overriding := false; om_overridden := []; om_bodyLines := (0)%Z |} [(Node 6 [] (VarDecl {| v_isParm := true; v_name := $"value"; v_used := false; v_referenced := false; v_local := false; v_staticMember := false; v_private := false; v_unusedAttr := false; v_defaultArg := false; v_canonicalType := $"int"; v_inTemplate := false; v_contexts := [CxObjCMethod true false false false; CxOther] |} None))] None)); (Node 7 [] (ObjCMethodDecl {| om_selector := $"numberWithUnsignedInt:"; om_class := (Some $"NSNumber"); om_overriding := false; om_overridden := []; om_bodyLines := (0)%Z |} [(Node 8 [] (VarDecl {| v_isParm := true; v_name := $"value"; v_used := false; v_referenced := false; v_local := false; v_staticMember := false; v_private := false; v_unusedAttr := false; v_defaultArg := false; v_canonicalType := $"unsigned int"; v_inTemplate := false; v_contexts := [CxObjCMethod true false false false; CxOther] |} None))] None)); (Node 9 [] (ObjCMethodDecl {| om_selector := $"numberWithLong:"; om_class := (Some $"NSNumber"); om_overriding := false; om_overridden := []; om_bodyLines := (0)%Z |} [(Node 10 [] (VarDecl {| v_isParm := true; v_name := $"value"; v_used := false; v_referenced := false; v_local := false; v_staticMember := false; v_private := false; v_unusedAttr := false; v_defaultArg := false; v_canonicalType := $"long"; v_inTemplate := false; v_contexts := [CxObjCMethod true false false false; CxOther] |} None))] None)); (Node 11 [] (ObjCMethodDecl {| om_selector := $"numberWithUnsignedLong:"; om_class := (Some $"NSNumber"); om_overriding := false; om_overridden := []; om_bodyLines := (0)%Z |} [(Node 12 [] (VarDecl {| v_isParm := true; v_name := $"value"; v_used := false; v_referenced := false; v_local := false; v_staticMember := false; v_private := false; v_unusedAttr := false; v_defaultArg := false; v_canonicalType := $"unsigned long"; v_inTemplate := false; v_contexts := [CxObjCMethod true false false false; CxOther] |} None))] None)); (Node 13 [] (ObjCMethodDecl {| om_selector := $"numberWithLongLong:"; om_class := (Some $"NSNumber"); om_overriding := false; om_overridden := []; om_bodyLines := (0)%Z |} [(Node 14 [] (VarDecl {| v_isParm := true; v_name := $"value"; v_used := false; v_referenced := false; v_local := false; v_staticMember := false; v_private := false; v_unusedAttr := false; v_defaultArg := false; v_canonicalType := $"long long"; v_inTemplate := false; v_contexts := [CxObjCMethod true false false false; CxOther] |} None))] None)); (Node 15 [] (ObjCMethodDecl {| om_selector := $"numberWithUnsignedLongLong:"; om_class := (Some $"NSNumber"); om_overriding := false; om_overridden := []; om_bodyLines := (0)%Z |} [(Node 16 [] (VarDecl {| v_isParm := true; v_name := $"value"; v_used := false; v_referenced := false; v_local := false; v_staticMember := false; v_private := false; v_unusedAttr := false; v_defaultArg := false; v_canonicalType := $"unsigned long long"; v_inTemplate := false; v_contexts := [CxObjCMethod true false false false; CxOther] |} None))] None)); (Node 17 [] (ObjCMethodDecl {| om_selector := $"numberWithFloat:"; om_class := (Some $"NSNumber"); om_overriding := false; om_overridden := []; om_bodyLines := (0)%Z |} [(Node 18 [] (VarDecl {| v_isParm := true; v_name := $"value"; v_used := false; v_referenced := false; v_local := false; v_staticMember := false; v_private := false; v_unusedAttr := false; v_defaultArg := false; v_canonicalType := $"float"; v_inTemplate := false; v_contexts := [CxObjCMethod true false false false; CxOther] |} None))] None)); (Node 19 [] (ObjCMethodDecl {| om_selector := $"numberWithDouble:"; om_class := (Some $"NSNumber"); om_overriding := false; om_overridden := []; om_bodyLines := (0)%Z |} [(Node 20 [] (VarDecl {| v_isParm := true; v_name := $"value"; v_used := false; v_referenced := false; v_local := false; v_staticMember := false; v_private := false; v_unusedAttr := false; v_defaultArg := false; v_canonicalType := $"double"; v_inTemplate := false; v_contexts := [CxObjCMethod true false false false; CxOther] |} None))] None)); (Node 21 [] (ObjCMethodDecl {| om_selector := $"numberWithBool:"; om_class := (Some $"NSNumber"); om_overriding := false; om_overridden := []; om_bodyLines := (0)%Z |} [(Node 22 [] (VarDecl {| v_isParm := true; v_name := $"value"; v_used := false; v_referenced := false; v_local := false; v_staticMember := false; v_private := false; v_unusedAttr := false; v_defaultArg := false; v_canonicalType := $"signed char"; v_inTemplate := false; v_contexts := [CxObjCMethod true false false false; CxOther] |} None))] None)); (Node 23 [] (ObjCMethodDecl {| om_selector := $"numberWithUnsignedChar:"; om_class := (Some $"NSNumber"); om_overriding := false; om_overridden := []; om_bodyLines := (0)%Z |} [(Node 24 [] (VarDecl {| v_isParm := true; v_name := $"value"; v_used := false; v_referenced := false; v_local := false; v_staticMember := false; v_private := false; v_unusedAttr := false; v_defaultArg := false; v_canonicalType := $"unsigned char"; v_inTemplate := false; v_contexts := [CxObjCMethod true false false false; CxOther] |} None))] None))]))); (toplevel 25 (TFunction false), (Node 25 [] (FunctionDecl {| f_name := $"m"; f_method := None; f_isDefinition := true; f_bodyLines := (1)%Z |} [] (Some (Node 26 [] (CompoundStmt [(Node 27 [] (DeclStmt [(Node 28 [] (VarDecl {| v_isParm := false; v_name := $"fortyTwoBOOL"; v_used := false; v_referenced := false; v_local := true; v_staticMember := false; v_private := false; v_unusedAttr := false; v_defaultArg := false; v_canonicalType := $"NSNumber *"; v_inTemplate := false; v_contexts := [CxFunction true true false] |} (Some (Node 29 $"NSNumber *" (ObjCMessageExpr {| ms_selector := $"numberWithBool:"; ms_receiver := (RClass $"NSNumber"); ms_implicit := false; ms_interface := (Some $"NSNumber"); ms_method := (Some (Decl [] (Some (Method false None (InOther (Some NoCategory)))))); ms_methodClass := (Some $"NSNumber") |} None [(Node 30 $"BOOL" (ParenExpr (Node 31 $"BOOL" (CStyleCastExpr CK_Other (Node 32 $"int" (IntegerLiteral (1)%Z))))))])))))]))]))))))];
     ts_locs := [(2,1,2,21); (3,1,4,2); (5,1,17,2); (6,1,6,41); (6,31,6,36); (7,1,7,39); (7,30,7,34); (8,1,8,56); (8,38,8,51); (9,1,9,41); (9,31,9,36); (10,1,10,58); (10,39,10,53); (11,1,11,50); (11,35,11,45); (12,1,12,67); (12,43,12,62); (13,1,13,43); (13,32,13,38); (14,1,14,45); (14,33,14,40); (15,1,15,41); (15,31,15,36); (16,1,16,58); (16,39,16,53); (21,1,21,68); (21,10,21,68); (21,12,21,66); (21,12,21,65); (21,37,21,65); (21,62,21,62); (21,62,21,62); (21,62,21,62)]%Z;
     ts_evals := []; ts_same := []; ts_decls := []; ts_parents := [] |}.
Example ObjCNSNumberLiterals_NumberWithBoolYes_oldBOOLDef_holds : nth_violation (shippedRule sh_ObjCNSNumberLiterals) ObjCNSNumberLiterals_NumberWithBoolYes_oldBOOLDef 0 = Some (21, 37, 21, 65, $"")%Z.
Proof. vm_compute. reflexivity. Qed.

Definition ObjCNSNumberLiterals_NumberWithBoxedBOOLYes_oldBOOLDef : testcase :=
  {| ts_lang := LObjC; ts_path := $"input.m"; ts_code := [];
     ts_comments := []; ts_conf := [];
     ts_tops := [(toplevel 0 (TOther), (Node 0 [] (OtherDecl []))); (toplevel 1 (TOther), (Node 1 [] (ObjCContainerDecl {| oc_kind := OKInterface; oc_name := $"NSObject"; oc_lines := (2)%Z; oc_ivars := 0; oc_methods := []; oc_classes := [$"NSObject"]; oc_superMethods := None |} []))); (toplevel 2 (TOther), (Node 2 [] (ObjCContainerDecl {| oc_kind := OKInterface; oc_name := $"NSNumber"; oc_lines := (13)%Z; oc_ivars := 0; oc_methods := [($"numberWithChar:", false); ($"numberWithInt:", false); ($"numberWithUnsignedInt:", false); ($"numberWithLong:", false); ($"numberWithUnsignedLong:", false); ($"numberWithLongLong:", false); ($"numberWithUnsignedLongLong:", false); ($"numberWithFloat:", false); ($"numberWithDouble:", false); ($"numberWithBool:", false); ($"numberWithUnsignedChar:", false)]; oc_classes := [$"NSNumber"; $"NSObject"]; oc_superMethods := (Some ($"NSObject", [])) |} [(Node 3 [] (ObjCMethodDecl {| om_selector := $"numberWithChar:"; om_class := (Some $"NSNumber"); om_overriding := false; om_overridden := []; om_bodyLines := (0)%Z |} [(Node 4 [] (VarDecl {| v_isParm := true; v_name := $"value"; v_used := false; v_referenced := false; v_local := false; v_staticMember := false; v_private := false; v_unusedAttr := false; v_defaultArg := false; v_canonicalType := $"char"; v_inTemplate := false; v_contexts := [CxObjCMethod true false false false; CxOther] |} None))] None)); (Node 5 [] (ObjCMethodDecl {| om_selector := $"numberWithInt:"; om_class := (Some $"NSNumber"); om_overriding := false; om_overridden := []; om_bodyLines := (0)%Z |} [(Node 6 [] (VarDecl {| v_isParm := true; v_name := $"value"; v_used := false; v_referenced := false; v_local := false; v_staticMember := false; v_private := false; v_unusedAttr := false; v_defaultArg := false; v_canonicalType := $"int"; v_inTemplate := false; v_contexts := [CxObjCMethod true false false false; CxOther] |} None))] None)); (Node 7 [] (ObjCMethodDecl {| om_selector := $"numberWithUnsignedInt:"; om_class := (Some $"NSNumber"); om_overriding := false; om_overridden := []; om_bodyLines := (0)%Z |} [(Node 8 [] (VarDecl {| v_isParm := true; v_name := $"value"; v_used := false; v_referenced := false; v_local := false; v_staticMember := false; v_private := false; v_unusedAttr := false; v_defaultArg := false; v_canonicalType := $"unsigned int"; v_inTemplate := false; v_contexts := [CxObjCMethod true false false false; CxOther] |} None))] None)); (Node 9 [] (ObjCMethodDecl {| om_selector := $"numberWithLong:"; om_class := (Some $"NSNumber"); om_overriding := false; om_overridden := []; om_bodyLines := (0)%Z |} [(Node 10 [] (VarDecl {| v_isParm := true; v_name := $"value"; v_used := false; v_referenced := false; v_local := false; v_staticMember := false; v_private := false; v_unusedAttr := false; v_defaultArg := false; v_canonicalType := $"long"; v_inTemplate := false; v_contexts := [CxObjCMethod true false false false; CxOther] |} None))] None)); (Node 11 [] (ObjCMethodDecl {| om_selector := $"numberWithUnsignedLong:"; om_class := (Some $"NSNumber"); om_overriding := false; om_overridden := []; om_bodyLines := (0)%Z |} [(Node 12 [] (VarDecl {| v_isParm := true; v_name := $"value"; v_used := false; v_referenced := false; v_local := false; v_staticMember := false; v_private := false; v_unusedAttr := false; v_defaultArg := false; v_canonicalType := $"unsigned long"; v_inTemplate := false; v_contexts := [CxObjCMethod true false false false; CxOther] |} None))] None)); (Node 13 [] (ObjCMethodDecl {| om_selector := $"numberWithLongLong:"; om_class := (Some $"NSNumber"); om_overriding := false; om_overridden := []; om_bodyLines := (0)%Z |} [(Node 14 [] (VarDecl {| v_isParm := true; v_name := $"value"; v_used := false; v_referenced := false; v_local := false; v_staticMember := false; v_private := false; v_unusedAttr := false; v_defaultArg := false; v_canonicalType := $"long long"; v_inTemplate := false; v_contexts := [CxObjCMethod true false false false; CxOther] |} None))] None)); (Node 15 [] (ObjCMethodDecl {| om_selector := $"numberWithUnsignedLongLong:"; om_class := (Some $"NSNumber"); om_overriding := false; om_overridden := []; om_bodyLines := (0)%Z |} [(Node 16 [] (VarDecl {| v_isParm := true; v_name := $"value"; v_used := false; v_referenced := false; v_local := false; v_staticMember := false; v_private := false; v_unusedAttr := false; v_defaultArg := false; v_canonicalType := $"unsigned long long"; v_inTemplate := false; v_contexts := [CxObjCMethod true false false false; CxOther] |} None))] None)); (Node 17 [] (ObjCMethodDecl {| om_selector := $"numberWithFloat:"; om_class := (Some $"NSNumber"); om_overriding := false; om_overridden := []; om_bodyLines := (0)%Z |} [(Node 18 [] (VarDecl {| v_isParm := true; v_name := $"value"; v_used := false; v_referenced := false; v_local := false; v_staticMember := false; v_private := false; v_unusedAttr := false; v_defaultArg := false; v_canonicalType := $"float"; v_inTemplate := false; v_contexts := [CxObjCMethod true false false false; CxOther] |} None))] None)); (Node 19 [] (ObjCMethodDecl {| om_selector := $"numberWithDouble:"; om_class := (Some $"NSNumber"); om_overriding := false; om_overridden := []; om_bodyLines := (0)%Z |} [(Node 20 [] (VarDecl {| v_isParm := true; v_name := $"value"; v_used := false; v_referenced := false; v_local := false; v_staticMember := false; v_private := false; v_unusedAttr := false; v_defaultArg := false; v_canonicalType := $"double"; v_inTemplate := false; v_contexts := [CxObjCMethod true false false false; CxOther] |} None))] None)); (Node 21 [] (ObjCMethodDecl {| om_selector := $"numberWithBool:"; om_class := (Some $"NSNumber"); om_overriding := false; om_overridden := []; om_bodyLines := (0)%Z |} [(Node 22 [] (VarDecl {| v_isParm := true; v_name := $"value"; v_used := false; v_referenced := false; v_local := false; v_staticMember := false; v_private := false; v_unusedAttr := false; v_defaultArg := false; v_canonicalType := $"signed char"; v_inTemplate := false; v_contexts := [CxObjCMethod true false false false; CxOther] |} None))] None)); (Node 23 [] (ObjCMethodDecl {| om_selector := $"numberWithUnsignedChar:"; om_class := (Some $"NSNumber"); om_overriding := false; om_overridden := []; om_bodyLines := (0)%Z |} [(Node 24 [] (VarDecl {| v_isParm := true; v_name := $"value"; v_used := false; v_referenced := false; v_local := false; v_staticMember := false; v_private := false; v_unusedAttr := false; v_defaultArg := false; v_canonicalType := $"unsigned char"; v_inTemplate := false; v_contexts := [CxObjCMethod true false false false; CxOther] |} None))] None))]))); (toplevel 25 (TFunction false), (Node 25 [] (FunctionDecl {| f_name := $"m"; f_method := None; f_isDefinition := true; f_bodyLines := (1)%Z |} [] (Some (Node 26 [] (CompoundStmt [(Node 27 [] (DeclStmt [(Node 28 [] (VarDecl {| v_isParm := false; v_name := $"fortyTwoBOOL"; v_used := false; v_referenced := false; v_local := true; v_staticMember := false; v_private := false; v_unusedAttr := false; v_defaultArg := false; v_canonicalType := $"NSNumber *"; v_inTemplate := false; v_contexts := [CxFunction true true false] |} (Some (Node 29 $"NSNumber *" (ObjCMessageExpr {| ms_selector := $"numberWithBool:"; ms_receiver := (RClass $"NSNumber"); ms_implicit := false; ms_interface := (Some $"NSNumber"); ms_method := (Some (Decl [] (Some (Method false None (InOther (Some NoCategory)))))); ms_methodClass := (Some $"NSNumber") |} None [(Node 30 $"BOOL" (ImplicitCastExpr CK_Other (Node 31 $"int" (ParenExpr (Node 32 $"int" (UnaryOperator UO_LNot (Node 33 $"BOOL" (ParenExpr (Node 34 $"BOOL" (CStyleCastExpr CK_Other (Node 35 $"int" (IntegerLiteral (1)%Z))))))))))))])))))]))]))))))];
     ts_locs := [(2,1,2,21); (3,1,4,2); (5,1,17,2); (6,1,6,41); (6,31,6,36); (7,1,7,39); (7,30,7,34); (8,1,8,56); (8,38,8,51); (9,1,9,41); (9,31,9,36); (10,1,10,58); (10,39,10,53); (11,1,11,50); (11,35,11,45); (12,1,12,67); (12,43,12,62); (13,1,13,43); (13,32,13,38); (14,1,14,45); (14,33,14,40); (15,1,15,41); (15,31,15,36); (16,1,16,58); (16,39,16,53); (21,1,21,71); (21,10,21,71); (21,12,21,69); (21,12,21,68); (21,37,21,68); (21,62,21,67); (21,62,21,67); (21,63,21,64); (21,64,21,64); (21,64,21,64); (21,64,21,64)]%Z;
     ts_evals := []; ts_same := []; ts_decls := []; ts_parents := [] |}.
Example ObjCNSNumberLiterals_NumberWithBoxedBOOLYes_oldBOOLDef_holds : sorted_violations_of (shippedRule sh_ObjCNSNumberLiterals) ObjCNSNumberLiterals_NumberWithBoxedBOOLYes_oldBOOLDef = Some [].
Proof. vm_compute. reflexivity. Qed.

Definition ObjCNSNumberLiterals_BOOLNoLiteral_oldBOOLDef : testcase :=
  {| ts_lang := LObjC; ts_path := $"input.m"; ts_code := [];
     ts_comments := []; ts_conf := [];
     ts_tops := [(toplevel 0 (TOther), (Node 0 [] (OtherDecl []))); (toplevel 1 (TOther), (Node 1 [] (ObjCContainerDecl {| oc_kind := OKInterface; oc_name := $"NSObject"; oc_lines := (2)%Z; oc_ivars := 0; oc_methods := []; oc_classes := [$"NSObject"]; oc_superMethods := None |} []))); (toplevel 2 (TOther), (Node 2 [] (ObjCContainerDecl {| oc_kind := OKInterface; oc_name := $"NSNumber"; oc_lines := (13)%Z; oc_ivars := 0; oc_methods := [($"numberWithChar:", false); ($"numberWithInt:", false); ($"numberWithUnsignedInt:", false); ($"numberWithLong:", false); ($"numberWithUnsignedLong:", false); ($"numberWithLongLong:", false); ($"numberWithUnsignedLongLong:", false); ($"numberWithFloat:", false); ($"numberWithDouble:", false); ($"numberWithBool:", false); ($"numberWithUnsignedChar:", false)]; oc_classes := [$"NSNumber"; $"NSObject"]; oc_superMethods := (Some ($"NSObject", [])) |} [(Node 3 [] (ObjCMethodDecl {| om_selector := $"numberWithChar:"; om_class := (Some $"NSNumber"); om_overriding := false; om_overridden := []; om_bodyLines := (0)%Z |} [(Node 4 [] (VarDecl {| v_isParm := true; v_name := $"value"; v_used := false; v_referenced := false; v_local := false; v_staticMember := false; v_private := false; v_unusedAttr := false; v_defaultArg := false; v_canonicalType := $"char"; v_inTemplate := false; v_contexts := [CxObjCMethod true false false false; CxOther] |} None))] None)); (Node 5 [] (ObjCMethodDecl {| om_selector := $"numberWithInt:"; om_class := (Some $"NSNumber"); om_overriding := false; om_overridden := []; om_bodyLines := (0)%Z |} [(Node 6 [] (VarDecl {| v_isParm := true; v_name := $"value"; v_used := false; v_referenced := false; v_local := false; v_staticMember := false; v_private := false; v_unusedAttr := false; v_defaultArg := false; v_canonicalType := $"int"; v_inTemplate := false; v_contexts := [CxObjCMethod true false false false; CxOther] |} None))] None)); (Node 7 [] (ObjCMethodDecl {| om_selector := $"numberWithUnsignedInt:"; om_class := (Some $"NSNumber"); om_overriding := false; om_overridden := []; om_bodyLines := (0)%Z |} [(Node 8 [] (VarDecl {| v_isParm := true; v_name := $"value"; v_used := false; v_referenced := false; v_local := false; v_staticMember := false; v_private := false; v_unusedAttr := false; v_defaultArg := false; v_canonicalType := $"unsigned int"; v_inTemplate := false; v_contexts := [CxObjCMethod true false false false; CxOther] |} None))] None)); (Node 9 [] (ObjCMethodDecl {| om_selector := $"numberWithLong:"; om_class := (Some $"NSNumber"); om_overriding := false; om_overridden := []; om_bodyLines := (0)%Z |} [(Node 10 [] (VarDecl {| v_isParm := true; v_name := $"value"; v_used := false; v_referenced := false; v_local := false; v_staticMember := false; v_private := false; v_unusedAttr := false; v_defaultArg := false; v_canonicalType := $"long"; v_inTemplate := false; v_contexts := [CxObjCMethod true false false false; CxOther] |} None))] None)); (Node 11 [] (ObjCMethodDecl {| om_selector := $"numberWithUnsignedLong:"; om_class := (Some $"NSNumber"); om_overriding := false; om_overridden := []; om_bodyLines := (0)%Z |} [(Node 12 [] (VarDecl {| v_isParm := true; v_name := $"value"; v_used := false; v_referenced := false; v_local := false; v_staticMember := false; v_private := false; v_unusedAttr := false; v_defaultArg := false; v_canonicalType := $"unsigned long"; v_inTemplate := false; v_contexts := [CxObjCMethod true false false false; CxOther] |} None))] None)); (Node 13 [] (ObjCMethodDecl {| om_selector := $"numberWithLongLong:"; om_class := (Some $"NSNumber"); om_overriding := false; om_overridden := []; om_bodyLines := (0)%Z |} [(Node 14 [] (VarDecl {| v_isParm := true; v_name := $"value"; v_used := false; v_referenced := false; v_local := false; v_staticMember := false; v_private := false; v_unusedAttr := false; v_defaultArg := false; v_canonicalType := $"long long"; v_inTemplate := false; v_contexts := [CxObjCMethod true false false false; CxOther] |} None))] None)); (Node 15 [] (ObjCMethodDecl {| om_selector := $"numberWithUnsignedLongLong:"; om_class := (Some $"NSNumber"); om_overriding := false; om_overridden := []; om_bodyLines := (0)%Z |} [(Node 16 [] (VarDecl {| v_isParm := true; v_name := $"value"; v_used := false; v_referenced := false; v_local := false; v_staticMember := false; v_private := false; v_unusedAttr := false; v_defaultArg := false; v_canonicalType := $"unsigned long long"; v_inTemplate := false; v_contexts := [CxObjCMethod true false false false; CxOther] |} None))] None)); (Node 17 [] (ObjCMethodDecl {| om_selector := $"numberWithFloat:"; om_class := (Some $"NSNumber"); om_overriding := false; om_overridden := []; om_bodyLines := (0)%Z |} [(Node 18 [] (VarDecl {| v_isParm := true; v_name := $"value"; v_used := false; v_referenced := false; v_local := false; v_staticMember := false; v_private := false; v_unusedAttr := false; v_defaultArg := false; v_canonicalType := $"float"; v_inTemplate := false; v_contexts := [CxObjCMethod true false false false; CxOther] |} None))] None)); (Node 19 [] (ObjCMethodDecl {| om_selector := $"numberWithDouble:"; om_class := (Some $"NSNumber"); om_overriding := false; om_overridden := []; om_bodyLines := (0)%Z |} [(Node 20 [] (VarDecl {| v_isParm := true; v_name := $"value"; v_used := false; v_referenced := false; v_local := false; v_staticMember := false; v_private := false; v_unusedAttr := false; v_defaultArg := false; v_canonicalType := $"double"; v_inTemplate := false; v_contexts := [CxObjCMethod true false false false; CxOther] |} None))] None)); (Node 21 [] (ObjCMethodDecl {| om_selector := $"numberWithBool:"; om_class := (Some $"NSNumber"); om_overriding := false; om_overridden := []; om_bodyLines := (0)%Z |} [(Node 22 [] (VarDecl {| v_isParm := true; v_name := $"value"; v_used := false; v_referenced := false; v_local := false; v_staticMember := false; v_private := false; v_unusedAttr := false; v_defaultArg := false; v_canonicalType := $"signed char"; v_inTemplate := false; v_contexts := [CxObjCMethod true false false false; CxOther] |} None))] None)); (Node 23 [] (ObjCMethodDecl {| om_selector := $"numberWithUnsignedChar:"; om_class := (Some $"NSNumber"); om_overriding := false; om_overridden := []; om_bodyLines := (0)%Z |} [(Node 24 [] (VarDecl {| v_isParm := true; v_name := $"value"; v_used := false; v_referenced := false; v_local := false; v_staticMember := false; v_private := false; v_unusedAttr := false; v_defaultArg := false; v_canonicalType := $"unsigned char"; v_inTemplate := false; v_contexts := [CxObjCMethod true false false false; CxOther] |} None))] None))]))); (toplevel 25 (TFunction false), (Node 25 [] (FunctionDecl {| f_name := $"m"; f_method := None; f_isDefinition := true; f_bodyLines := (1)%Z |} [] (Some (Node 26 [] (CompoundStmt [(Node 27 [] (DeclStmt [(Node 28 [] (VarDecl {| v_isParm := false; v_name := $"fortyTwoBOOL"; v_used := false; v_referenced := false; v_local := true; v_staticMember := false; v_private := false; v_unusedAttr := false; v_defaultArg := false; v_canonicalType := $"NSNumber *"; v_inTemplate := false; v_contexts := [CxFunction true true false] |} (Some (Node 29 $"NSNumber *" (OtherExpr [(Node 30 $"BOOL" (ParenExpr (Node 31 $"BOOL" (CStyleCastExpr CK_Other (Node 32 $"int" (IntegerLiteral (0)%Z))))))])))))]))]))))))];
     ts_locs := [(2,1,2,21); (3,1,4,2); (5,1,17,2); (6,1,6,41); (6,31,6,36); (7,1,7,39); (7,30,7,34); (8,1,8,56); (8,38,8,51); (9,1,9,41); (9,31,9,36); (10,1,10,58); (10,39,10,53); (11,1,11,50); (11,35,11,45); (12,1,12,67); (12,43,12,62); (13,1,13,43); (13,32,13,38); (14,1,14,45); (14,33,14,40); (15,1,15,41); (15,31,15,36); (16,1,16,58); (16,39,16,53); (21,1,21,42); (21,10,21,42); (21,12,21,40); (21,12,21,38); (21,37,21,38); (21,38,21,38); (21,38,21,38); (21,38,21,38)]%Z;
     ts_evals := []; ts_same := []; ts_decls := []; ts_parents := [] |}.
Example ObjCNSNumberLiterals_BOOLNoLiteral_oldBOOLDef_holds : sorted_violations_of (shippedRule sh_ObjCNSNumberLiterals) ObjCNSNumberLiterals_BOOLNoLiteral_oldBOOLDef = Some [].
Proof. vm_compute. reflexivity. Qed.

Definition ObjCNSNumberLiterals_NumberWithBoolNo_oldBOOLDef : testcase :=
  {| ts_lang := LObjC; ts_path := $"input.m"; ts_code := [];
     ts_comments := []; ts_conf := [];
     ts_tops := [(toplevel 0 (TOther), (Node 0 [] (OtherDecl []))); (toplevel 1 (TOther), (Node 1 [] (ObjCContainerDecl {| oc_kind := OKInterface; oc_name := $"NSObject"; oc_lines := (2)%Z; oc_ivars := 0; oc_methods := []; oc_classes := [$"NSObject"]; oc_superMethods := None |} []))); (toplevel 2 (TOther), (Node 2 [] (ObjCContainerDecl {| oc_kind := OKInterface; oc_name := $"NSNumber"; oc_lines := (13)%Z; oc_ivars := 0; oc_methods := [($"numberWithChar:", false); ($"numberWithInt:", false); ($"numberWithUnsignedInt:", false); ($"numberWithLong:", false); ($"numberWithUnsignedLong:", false); ($"numberWithLongLong:", false); ($"numberWithUnsignedLongLong:", false); ($"numberWithFloat:", false); ($"numberWithDouble:", false); ($"numberWithBool:", false); ($"numberWithUnsignedChar:", false)]; oc_classes := [$"NSNumber"; $"NSObject"]; oc_superMethods := (Some ($"NSObject", [])) |} [(Node 3 [] (ObjCMethodDecl {| om_selector := $"numberWithChar:"; om_class := (Some $"NSNumber"); om_overriding := false; om_overridden := []; om_bodyLines := (0)%Z |} [(Node 4 [] (VarDecl {| v_isParm := true; v_name := $"value"; v_used := false; v_referenced := false; v_local := false; v_staticMember := false; v_private := false; v_unusedAttr := false; v_defaultArg := false; v_canonicalType := $"char"; v_inTemplate := false; v_contexts := [CxObjCMethod true false false false; CxOther] |} None))] None)); (Node 5 [] (ObjCMethodDecl {| om_selector := $"numberWithInt:"; om_class := (Some $"NSNumber"); om_overriding := false; om_overridden := []; om_bodyLines := (0)%Z |} [(Node 6 [] (VarDecl {| v_isParm := true; v_name := $"value"; v_used := false; v_referenced := false; v_local := false; v_staticMember := false; v_private := false; v_unusedAttr := false; v_defaultArg := false; v_canonicalType := $"int"; v_inTemplate := false; v_contexts := [CxObjCMethod true false false false; CxOther] |} None))] None)); (Node 7 [] (ObjCMethodDecl {| om_selector := $"numberWithUnsignedInt:"; om_class := (Some $"NSNumber"); om_overriding := false; om_overridden := []; om_bodyLines := (0)%Z |} [(Node 8 [] (VarDecl {| v_isParm := true; v_name := $"value"; v_used := false; v_referenced := false; v_local := false; v_staticMember := false; v_private := false; v_unusedAttr := false; v_defaultArg := false; v_canonicalType := $"unsigned int"; v_inTemplate := false; v_contexts := [CxObjCMethod true false false false; CxOther] |} None))] None)); (Node 9 [] (ObjCMethodDecl {| om_selector := $"numberWithLong:"; om_class := (Some $"NSNumber"); om_overriding := false; om_overridden := []; om_bodyLines := (0)%Z |} [(Node 10 [] (VarDecl {| v_isParm := true; v_name := $"value"; v_used := false; v_referenced := false; v_local := false; v_staticMember := false; v_private := false; v_unusedAttr := false; v_defaultArg := false; v_canonicalType := $"long"; v_inTemplate := false; v_contexts := [CxObjCMethod true false false false; CxOther] |} None))] None)); (Node 11 [] (ObjCMethodDecl {| om_selector := $"numberWithUnsignedLong:"; om_class := (Some $"NSNumber"); om_overriding := false; om_overridden := []; om_bodyLines := (0)%Z |} [(Node 12 [] (VarDecl {| v_isParm := true; v_name := $"value"; v_used := false; v_referenced := false; v_local := false; v_staticMember := false; v_private := false; v_unusedAttr := false; v_defaultArg := false; v_canonicalType := $"unsigned long"; v_inTemplate := false; v_contexts := [CxObjCMethod true false false false; CxOther] |} None))] None)); (Node 13 [] (ObjCMethodDecl {| om_selector := $"numberWithLongLong:"; om_class := (Some $"NSNumber"); om_overriding := false; om_overridden := []; om_bodyLines := (0)%Z |} [(Node 14 [] (VarDecl {| v_isParm := true; v_name := $"value"; v_used := false; v_referenced := false; v_local := false; v_staticMember := false; v_private := false; v_unusedAttr := false; v_defaultArg := false; v_canonicalType := $"long long"; v_inTemplate := false; v_contexts := [CxObjCMethod true false false false; CxOther] |} None))] None)); (Node 15 [] (ObjCMethodDecl {| om_selector := $"numberWithUnsignedLongLong:"; om_class := (Some $"NSNumber"); om_overriding := false; om_overridden := []; om_bodyLines := (0)%Z |} [(Node 16 [] (VarDecl {| v_isParm := true; v_name := $"value"; v_used := false; v_referenced := false; v_local := false; v_staticMember := false; v_private := false; v_unusedAttr := false; v_defaultArg := false; v_canonicalType := $"unsigned long long"; v_inTemplate := false; v_contexts := [CxObjCMethod true false false false; CxOther] |} None))] None)); (Node 17 [] (ObjCMethodDecl {| om_selector := $"numberWithFloat:"; om_class := (Some $"NSNumber"); om_overriding := false; om_overridden := []; om_bodyLines := (0)%Z |} [(Node 18 [] (VarDecl {| v_isParm := true; v_name := $"value"; v_used := false; v_referenced := false; v_local := false; v_staticMember := false; v_private := false; v_unusedAttr := false; v_defaultArg := false; v_canonicalType := $"float"; v_inTemplate := false; v_contexts := [CxObjCMethod true false false false; CxOther] |} None))] None)); (Node 19 [] (ObjCMethodDecl {| om_selector := $"numberWithDouble:"; om_class := (Some $"NSNumber"); om_overriding := false; om_overridden := []; om_bodyLines := (0)%Z |} [(Node 20 [] (VarDecl {| v_isParm := true; v_name := $"value"; v_used := false; v_referenced := false; v_local := false; v_staticMember := false; v_private := false; v_unusedAttr := false; v_defaultArg := false; v_canonicalType := $"double"; v_inTemplate := false; v_contexts := [CxObjCMethod true false false false; CxOther] |} None))] None)); (Node 21 [] (ObjCMethodDecl {| om_selector := $"numberWithBool:"; om_class := (Some $"NSNumber"); om_overriding := false; om_overridden := []; om_bodyLines := (0)%Z |} [(Node 22 [] (VarDecl {| v_isParm := true; v_name := $"value"; v_used := false; v_referenced := false; v_local := false; v_staticMember := false; v_private := false; v_unusedAttr := false; v_defaultArg := false; v_canonicalType := $"signed char"; v_inTemplate := false; v_contexts := [CxObjCMethod true false false false; CxOther] |} None))] None)); (Node 23 [] (ObjCMethodDecl {| om_selector := $"numberWithUnsignedChar:"; om_class := (Some $"NSNumber"); om_overriding := false; om_overridden := []; om_bodyLines := (0)%Z |} [(Node 24 [] (VarDecl {| v_isParm := true; v_name := $"value"; v_used := false; v_referenced := false; v_local := false; v_staticMember := false; v_private := false; v_unusedAttr := false; v_defaultArg := false; v_canonicalType := $"unsigned char"; v_inTemplate := false; v_contexts := [CxObjCMethod true false false false; CxOther] |} None))] None))]))); (toplevel 25 (TFunction false), (Node 25 [] (FunctionDecl {| f_name := $"m"; f_method := None; f_isDefinition := true; f_bodyLines := (1)%Z |} [] (Some (Node 26 [] (CompoundStmt [(Node 27 [] (DeclStmt [(Node 28 [] (VarDecl {| v_isParm := false; v_name := $"fortyTwoBOOL"; v_used := false; v_referenced := false; v_local := true; v_staticMember := false; v_private := false; v_unusedAttr := false; v_defaultArg := false; v_canonicalType := $"NSNumber *"; v_inTemplate := false; v_contexts := [CxFunction true true false] |} (Some (Node 29 $"NSNumber *" (ObjCMessageExpr {| ms_selector := $"numberWithBool:"; ms_receiver := (RClass $"NSNumber"); ms_implicit := false; ms_interface := (Some $"NSNumber"); ms_method := (Some (Decl [] (Some (Method false None (InOther (Some NoCategory)))))); ms_methodClass := (Some $"NSNumber") |} None [(Node 30 $"BOOL" (ParenExpr (Node 31 $"BOOL" (CStyleCastExpr CK_Other (Node 32 $"int" (IntegerLiteral (0)%Z))))))])))))]))]))))))];
     ts_locs := [(2,1,2,21); (3,1,4,2); (5,1,17,2); (6,1,6,41); (6,31,6,36); (7,1,7,39); (7,30,7,34); (8,1,8,56); (8,38,8,51); (9,1,9,41); (9,31,9,36); (10,1,10,58); (10,39,10,53); (11,1,11,50); (11,35,11,45); (12,1,12,67); (12,43,12,62); (13,1,13,43); (13,32,13,38); (14,1,14,45); (14,33,14,40); (15,1,15,41); (15,31,15,36); (16,1,16,58); (16,39,16,53); (21,1,21,67); (21,10,21,67); (21,12,21,65); (21,12,21,64); (21,37,21,64); (21,62,21,62); (21,62,21,62); (21,62,21,62)]%Z;
     ts_evals := []; ts_same := []; ts_decls := []; ts_parents := [] |}.
Example ObjCNSNumberLiterals_NumberWithBoolNo_oldBOOLDef_holds : nth_violation (shippedRule sh_ObjCNSNumberLiterals) ObjCNSNumberLiterals_NumberWithBoolNo_oldBOOLDef 0 = Some (21, 37, 21, 64, $"")%Z.
Proof. vm_compute. reflexivity. Qed.

Definition ObjCNSNumberLiterals_NumberWithBoxedBOOLNo_oldBOOLDef : testcase :=
  {| ts_lang := LObjC; ts_path := $"input.m"; ts_code := [];
     ts_comments := []; ts_conf := [];
     ts_tops := [(toplevel 0 (TOther), (Node 0 [] (OtherDecl []))); (toplevel 1 (TOther), (Node 1 [] (ObjCContainerDecl {| oc_kind := OKInterface; oc_name := $"NSObject"; oc_lines := (2)%Z; oc_ivars := 0; oc_methods := []; oc_classes := [$"NSObject"]; oc_superMethods := None |} []))); (toplevel 2 (TOther), (Node 2 [] (ObjCContainerDecl {| oc_kind := OKInterface; oc_name := $"NSNumber"; oc_lines := (13)%Z; oc_ivars := 0; oc_methods := [($"numberWithChar:", false); ($"numberWithInt:", false); ($"numberWithUnsignedInt:", false); ($"numberWithLong:", false); ($"numberWithUnsignedLong:", false); ($"numberWithLongLong:", false); ($"numberWithUnsignedLongLong:", false); ($"numberWithFloat:", false); ($"numberWithDouble:", false); ($"numberWithBool:", false); ($"numberWithUnsignedChar:", false)]; oc_classes := [$"NSNumber"; $"NSObject"]; oc_superMethods := (Some ($"NSObject", [])) |} [(Node 3 [] (ObjCMethodDecl {| om_selector := $"numberWithChar:"; om_class := (Some $"NSNumber"); om_overriding := false; om_overridden := []; om_bodyLines := (0)%Z |} [(Node 4 [] (VarDecl {| v_isParm := true; v_name := $"value"; v_used := false; v_referenced := false; v_local := false; v_staticMember := false; v_private := false; v_unusedAttr := false; v_defaultArg := false; v_canonicalType := $"char"; v_inTemplate := false; v_contexts := [CxObjCMethod true false false false; CxOther] |} None))] None)); (Node 5 [] (ObjCMethodDecl {| om_selector := $"numberWithInt:"; om_class := (Some $"NSNumber"); om_overriding := false; om_overridden := []; om_bodyLines := (0)%Z |} [(Node 6 [] (VarDecl {| v_isParm := true; v_name := $"value"; v_used := false; v_referenced := false; v_local := false; v_staticMember := false; v_private := false; v_unusedAttr := false; v_defaultArg := false; v_canonicalType := $"int"; v_inTemplate := false; v_contexts := [CxObjCMethod true false false false; CxOther] |} None))] None)); (Node 7 [] (ObjCMethodDecl {| om_selector := $"numberWithUnsignedInt:"; om_class := (Some $"NSNumber"); om_overriding := false; om_overridden := []; om_bodyLines := (0)%Z |} [(Node 8 [] (VarDecl {| v_isParm := true; v_name := $"value"; v_used := false; v_referenced := false; v_local := false; v_staticMember := false; v_private := false; v_unusedAttr := false; v_defaultArg := false; v_canonicalType := $"unsigned int"; v_inTemplate := false; v_contexts := [CxObjCMethod true false false false; CxOther] |} None))] None)); (Node 9 [] (ObjCMethodDecl {| om_selector := $"numberWithLong:"; om_class := (Some $"NSNumber"); om_overriding := false; om_overridden := []; om_bodyLines := (0)%Z |} [(Node 10 [] (VarDecl {| v_isParm := true; v_name := $"value"; v_used := false; v_referenced := false; v_local := false; v_staticMember := false; v_private := false; v_unusedAttr := false; v_defaultArg := false; v_canonicalType := $"long"; v_inTemplate := false; v_contexts := [CxObjCMethod true false false false; CxOther] |} None))] None)); (Node 11 [] (ObjCMethodDecl {| om_selector := $"numberWithUnsignedLong:"; om_class := (Some $"NSNumber"); om_overriding := false; om_overridden := []; om_bodyLines := (0)%Z |} [(Node 12 [] (VarDecl {| v_isParm := true; v_name := $"value"; v_used := false; v_referenced := false; v_local := false; v_staticMember := false; v_private := false; v_unusedAttr := false; v_defaultArg := false; v_canonicalType := $"unsigned long"; v_inTemplate := false; v_contexts := [CxObjCMethod true false false false; CxOther] |} None))] None)); (Node 13 [] (ObjCMethodDecl {| om_selector := $"numberWithLongLong:"; om_class := (Some $"NSNumber"); om_overriding := false; om_overridden := []; om_bodyLines := (0)%Z |} [(Node 14 [] (VarDecl {| v_isParm := true; v_name := $"value"; v_used := false; v_referenced := false; v_local := false; v_staticMember := false; v_private := false; v_unusedAttr := false; v_defaultArg := false; v_canonicalType := $"long long"; v_inTemplate := false; v_contexts := [CxObjCMethod true false false false; CxOther] |} None))] None)); (Node 15 [] (ObjCMethodDecl {| om_selector := $"numberWithUnsignedLongLong:"; om_class := (Some $"NSNumber"); om_overriding := false; om_overridden := []; om_bodyLines := (0)%Z |} [(Node 16 [] (VarDecl {| v_isParm := true; v_name := $"value"; v_used := false; v_referenced := false; v_local := false; v_staticMember := false; v_private := false; v_unusedAttr := false; v_defaultArg := false; v_canonicalType := $"unsigned long long"; v_inTemplate := false; v_contexts := [CxObjCMethod true false false false; CxOther] |} None))] None)); (Node 17 [] (ObjCMethodDecl {| om_selector := $"numberWithFloat:"; om_class := (Some $"NSNumber"); om_overriding := false; om_overridden := []; om_bodyLines := (0)%Z |} [(Node 18 [] (VarDecl {| v_isParm := true; v_name := $"value"; v_used := false; v_referenced := false; v_local := false; v_staticMember := false; v_private := false; v_unusedAttr := false; v_defaultArg := false; v_canonicalType := $"float"; v_inTemplate := false; v_contexts := [CxObjCMethod true false false false; CxOther] |} None))] None)); (Node 19 [] (ObjCMethodDecl {| om_selector := $"numberWithDouble:"; om_class := (Some $"NSNumber"); om_overriding := false; om_overridden := []; om_bodyLines := (0)%Z |} [(Node 20 [] (VarDecl {| v_isParm := true; v_name := $"value"; v_used := false; v_referenced := false; v_local := false; v_staticMember := false; v_private := false; v_unusedAttr := false; v_defaultArg := false; v_canonicalType := $"double"; v_inTemplate := false; v_contexts := [CxObjCMethod true false false false; CxOther] |} None))] None)); (Node 21 [] (ObjCMethodDecl {| om_selector := $"numberWithBool:"; om_class := (Some $"NSNumber"); om_overriding := false; om_overridden := []; om_bodyLines := (0)%Z |} [(Node 22 [] (VarDecl {| v_isParm := true; v_name := $"value"; v_used := false; v_referenced := false; v_local := false; v_staticMember := false; v_private := false; v_unusedAttr := false; v_defaultArg := false; v_canonicalType := $"signed char"; v_inTemplate := false; v_contexts := [CxObjCMethod true false false false; CxOther] |} None))] None)); (Node 23 [] (ObjCMethodDecl {| om_selector := $"numberWithUnsignedChar:"; om_class := (Some $"NSNumber"); om_overriding := false; om_overridden := []; om_bodyLines := (0)%Z |} [(Node 24 [] (VarDecl {| v_isParm := true; v_name := $"value"; v_used := false; v_referenced := false; v_local := false; v_staticMember := false; v_private := false; v_unusedAttr := false; v_defaultArg := false; v_canonicalType := $"unsigned char"; v_inTemplate := false; v_contexts := [CxObjCMethod true false false false; CxOther] |} None))] None))]))); (toplevel 25 (TFunction false), (Node 25 [] (FunctionDecl {| f_name := $"m"; f_method := None; f_isDefinition := true; f_bodyLines := (1)%Z |} [] (Some (Node 26 [] (CompoundStmt [(Node 27 [] (DeclStmt [(Node 28 [] (VarDecl {| v_isParm := false; v_name := $"fortyTwoBOOL"; v_used := false; v_referenced := false; v_local := true; v_staticMember := false; v_private := false; v_unusedAttr := false; v_defaultArg := false; v_canonicalType := $"NSNumber *"; v_inTemplate := false; v_contexts := [CxFunction true true false] |} (Some (Node 29 $"NSNumber *" (ObjCMessageExpr {| ms_selector := $"numberWithBool:"; ms_receiver := (RClass $"NSNumber"); ms_implicit := false; ms_interface := (Some $"NSNumber"); ms_method := (Some (Decl [] (Some (Method false None (InOther (Some NoCategory)))))); ms_methodClass := (Some $"NSNumber") |} None [(Node 30 $"BOOL" (ImplicitCastExpr CK_Other (Node 31 $"int" (ParenExpr (Node 32 $"int" (UnaryOperator UO_LNot (Node 33 $"BOOL" (ParenExpr (Node 34 $"BOOL" (CStyleCastExpr CK_Other (Node 35 $"int" (IntegerLiteral (0)%Z))))))))))))])))))]))]))))))];
     ts_locs := [(2,1,2,21); (3,1,4,2); (5,1,17,2); (6,1,6,41); (6,31,6,36); (7,1,7,39); (7,30,7,34); (8,1,8,56); (8,38,8,51); (9,1,9,41); (9,31,9,36); (10,1,10,58); (10,39,10,53); (11,1,11,50); (11,35,11,45); (12,1,12,67); (12,43,12,62); (13,1,13,43); (13,32,13,38); (14,1,14,45); (14,33,14,40); (15,1,15,41); (15,31,15,36); (16,1,16,58); (16,39,16,53); (21,1,21,70); (21,10,21,70); (21,12,21,68); (21,12,21,67); (21,37,21,67); (21,62,21,66); (21,62,21,66); (21,63,21,64); (21,64,21,64); (21,64,21,64); (21,64,21,64)]%Z;
     ts_evals := []; ts_same := []; ts_decls := []; ts_parents := [] |}.
Example ObjCNSNumberLiterals_NumberWithBoxedBOOLNo_oldBOOLDef_holds : sorted_violations_of (shippedRule sh_ObjCNSNumberLiterals) ObjCNSNumberLiterals_NumberWithBoxedBOOLNo_oldBOOLDef = Some [].
Proof. vm_compute. reflexivity. Qed.

(** ** oclint-rules/test/migration/ObjCObjectSubscriptingRuleTest.cpp *)

Definition ObjCObjectSubscripting_ArrayObjectAtIndex : testcase :=
  {| ts_lang := LObjC; ts_path := $"input.m"; ts_code := [];
     ts_comments := []; ts_conf := [];
     ts_tops := [(toplevel 0 (TOther), (Node 0 [] (OtherDecl []))); (toplevel 1 (TOther), (Node 1 [] (ObjCContainerDecl {| oc_kind := OKInterface; oc_name := $"NSObject"; oc_lines := (2)%Z; oc_ivars := 0; oc_methods := []; oc_classes := [$"NSObject"]; oc_superMethods := None |} []))); (toplevel 2 (TOther), (Node 2 [] (ObjCContainerDecl {| oc_kind := OKInterface; oc_name := $"NSNumber"; oc_lines := (3)%Z; oc_ivars := 0; oc_methods := [($"numberWithInt:", false)]; oc_classes := [$"NSNumber"; $"NSObject"]; oc_superMethods := (Some ($"NSObject", [])) |} [(Node 3 [] (ObjCMethodDecl {| om_selector := $"numberWithInt:"; om_class := (Some $"NSNumber"); om_overriding := false; om_overridden := []; om_bodyLines := (0)%Z |} [(Node 4 [] (VarDecl {| v_isParm := true; v_name := $"value"; v_used := false; v_referenced := false; v_local := false; v_staticMember := false; v_private := false; v_unusedAttr := false; v_defaultArg := false; v_canonicalType := $"int"; v_inTemplate := false; v_contexts := [CxObjCMethod true false false false; CxOther] |} None))] None))]))); (toplevel 5 (TOther), (Node 5 [] (ObjCContainerDecl {| oc_kind := OKInterface; oc_name := $"NSArray"; oc_lines := (8)%Z; oc_ivars := 0; oc_methods := [($"array", false); ($"arrayWithObject:", false); ($"arrayWithObjects:count:", false); ($"arrayWithObjects:", false); ($"objectAtIndex:", true); ($"objectAtIndexedSubscript:", true)]; oc_classes := [$"NSArray"; $"NSObject"]; oc_superMethods := (Some ($"NSObject", [])) |} [(Node 6 [] (ObjCMethodDecl {| om_selector := $"array"; om_class := (Some $"NSArray"); om_overriding := false; om_overridden := []; om_bodyLines := (0)%Z |} [] None)); (Node 7 [] (ObjCMethodDecl {| om_selector := $"arrayWithObject:"; om_class := (Some $"NSArray"); om_overriding := false; om_overridden := []; om_bodyLines := (0)%Z |} [(Node 8 [] (VarDecl {| v_isParm := true; v_name := $"anObject"; v_used := false; v_referenced := false; v_local := false; v_staticMember := false; v_private := false; v_unusedAttr := false; v_defaultArg := false; v_canonicalType := $"struct objc_object *"; v_inTemplate := false; v_contexts := [CxObjCMethod true false false false; CxOther] |} None))] None)); (Node 9 [] (ObjCMethodDecl {| om_selector := $"arrayWithObjects:count:"; om_class := (Some $"NSArray"); om_overriding := false; om_overridden := []; om_bodyLines := (0)%Z |} [(Node 10 [] (VarDecl {| v_isParm := true; v_name := $"objects"; v_used := false; v_referenced := false; v_local := false; v_staticMember := false; v_private := false; v_unusedAttr := false; v_defaultArg := false; v_canonicalType := $"const id *"; v_inTemplate := false; v_contexts := [CxObjCMethod true false false false; CxOther] |} None)); (Node 11 [] (VarDecl {| v_isParm := true; v_name := $"cnt"; v_used := false; v_referenced := false; v_local := false; v_staticMember := false; v_private := false; v_unusedAttr := false; v_defaultArg := false; v_canonicalType := $"unsigned long"; v_inTemplate := false; v_contexts := [CxObjCMethod true false false false; CxOther] |} None))] None)); (Node 12 [] (ObjCMethodDecl {| om_selector := $"arrayWithObjects:"; om_class := (Some $"NSArray"); om_overriding := false; om_overridden := []; om_bodyLines := (0)%Z |} [(Node 13 [] (VarDecl {| v_isParm := true; v_name := $"firstObj"; v_used := false; v_referenced := false; v_local := false; v_staticMember := false; v_private := false; v_unusedAttr := false; v_defaultArg := false; v_canonicalType := $"struct objc_object *"; v_inTemplate := false; v_contexts := [CxObjCMethod true false false false; CxOther] |} None))] None)); (Node 14 [] (ObjCMethodDecl {| om_selector := $"objectAtIndex:"; om_class := (Some $"NSArray"); om_overriding := false; om_overridden := []; om_bodyLines := (0)%Z |} [(Node 15 [] (VarDecl {| v_isParm := true; v_name := $"index"; v_used := false; v_referenced := false; v_local := false; v_staticMember := false; v_private := false; v_unusedAttr := false; v_defaultArg := false; v_canonicalType := $"unsigned long"; v_inTemplate := false; v_contexts := [CxObjCMethod true false false false; CxOther] |} None))] None)); (Node 16 [] (ObjCMethodDecl {| om_selector := $"objectAtIndexedSubscript:"; om_class := (Some $"NSArray"); om_overriding := false; om_overridden := []; om_bodyLines := (0)%Z |} [(Node 17 [] (VarDecl {| v_isParm := true; v_name := $"idx"; v_used := false; v_referenced := false; v_local := false; v_staticMember := false; v_private := false; v_unusedAttr := false; v_defaultArg := false; v_canonicalType := $"unsigned long"; v_inTemplate := false; v_contexts := [CxObjCMethod true false false false; CxOther] |} None))] None))]))); (toplevel 18 (TOther), (Node 18 [] (ObjCContainerDecl {| oc_kind := OKInterface; oc_name := $"NSMutableArray"; oc_lines := (4)%Z; oc_ivars := 0; oc_methods := [($"replaceObjectAtIndex:withObject:", true); ($"setObject:atIndexedSubscript:", true)]; oc_classes := [$"NSMutableArray"; $"NSArray"; $"NSObject"]; oc_superMethods := (Some ($"NSArray", [($"array", false, (Decl [] (Some (Method false None (InOther (Some NoCategory)))))); ($"arrayWithObject:", false, (Decl [] (Some (Method false None (InOther (Some NoCategory)))))); ($"arrayWithObjects:count:", false, (Decl [] (Some (Method false None (InOther (Some NoCategory)))))); ($"arrayWithObjects:", false, (Decl [] (Some (Method false None (InOther (Some NoCategory)))))); ($"objectAtIndex:", true, (Decl [] (Some (Method false None (InOther (Some NoCategory)))))); ($"objectAtIndexedSubscript:", true, (Decl [] (Some (Method false None (InOther (Some NoCategory))))))])) |} [(Node 19 [] (ObjCMethodDecl {| om_selector := $"replaceObjectAtIndex:withObject:"; om_class := (Some $"NSMutableArray"); om_overriding := false; om_overridden := []; om_bodyLines := (0)%Z |} [(Node 20 [] (VarDecl {| v_isParm := true; v_name := $"index"; v_used := false; v_referenced := false; v_local := false; v_staticMember := false; v_private := false; v_unusedAttr := false; v_defaultArg := false; v_canonicalType := $"unsigned long"; v_inTemplate := false; v_contexts := [CxObjCMethod true false false false; CxOther] |} None)); (Node 21 [] (VarDecl {| v_isParm := true; v_name := $"anObject"; v_used := false; v_referenced := false; v_local := false; v_staticMember := false; v_private := false; v_unusedAttr := false; v_defaultArg := false; v_canonicalType := $"struct objc_object *"; v_inTemplate := false; v_contexts := [CxObjCMethod true false false false; CxOther] |} None))] None)); (Node 22 [] (ObjCMethodDecl {| om_selector := $"setObject:atIndexedSubscript:"; om_class := (Some $"NSMutableArray"); om_overriding := false; om_overridden := []; om_bodyLines := (0)%Z |} [(Node 23 [] (VarDecl {| v_isParm := true; v_name := $"obj"; v_used := false; v_referenced := false; v_local := false; v_staticMember := false; v_private := false; v_unusedAttr := false; v_defaultArg := false; v_canonicalType := $"struct objc_object *"; v_inTemplate := false; v_contexts := [CxObjCMethod true false false false; CxOther] |} None)); (Node 24 [] (VarDecl {| v_isParm := true; v_name := $"idx"; v_used := false; v_referenced := false; v_local := false; v_staticMember := false; v_private := false; v_unusedAttr := false; v_defaultArg := false; v_canonicalType := $"unsigned long"; v_inTemplate := false; v_contexts := [CxObjCMethod true false false false; CxOther] |} None))] None))]))); (toplevel 25 (TFunction false), (Node 25 [] (FunctionDecl {| f_name := $"m"; f_method := None; f_isDefinition := true; f_bodyLines := (1)%Z |} [(Node 26 [] (VarDecl {| v_isParm := true; v_name := $"a"; v_used := true; v_referenced := true; v_local := false; v_staticMember := false; v_private := false; v_unusedAttr := false; v_defaultArg := false; v_canonicalType := $"NSArray *"; v_inTemplate := false; v_contexts := [CxFunction true true false] |} None))] (Some (Node 27 [] (CompoundStmt [(Node 28 [] (DeclStmt [(Node 29 [] (VarDecl {| v_isParm := false; v_name := $"item"; v_used := false; v_referenced := false; v_local := true; v_staticMember := false; v_private := false; v_unusedAttr := false; v_defaultArg := false; v_canonicalType := $"struct objc_object *"; v_inTemplate := false; v_contexts := [CxFunction true true false] |} (Some (Node 30 $"id" (ObjCMessageExpr {| ms_selector := $"objectAtIndex:"; ms_receiver := RInstance; ms_implicit := false; ms_interface := (Some $"NSArray"); ms_method := (Some (Decl [] (Some (Method false None (InOther (Some NoCategory)))))); ms_methodClass := (Some $"NSArray") |} (Some (Node 31 $"NSArray *" (ImplicitCastExpr CK_LValueToRValue (Node 32 $"NSArray *" (DeclRefExpr 26 $"a" false))))) [(Node 33 $"NSUInteger" (ImplicitCastExpr CK_Other (Node 34 $"int" (IntegerLiteral (0)%Z))))])))))]))]))))))];
     ts_locs := [(3,1,3,23); (4,1,5,2); (6,1,8,2); (7,1,7,39); (7,30,7,34); (9,1,16,2); (10,1,10,12); (11,1,11,35); (11,24,11,27); (12,1,12,66); (12,25,12,37); (12,52,12,63); (13,1,13,41); (13,25,13,28); (14,1,14,38); (14,22,14,33); (15,1,15,47); (15,33,15,44); (17,1,20,2); (18,1,18,71); (18,31,18,42); (18,60,18,63); (19,1,19,61); (19,20,19,23); (19,47,19,58); (21,1,21,53); (21,8,21,17); (21,20,21,53); (21,22,21,51); (21,22,21,50); (21,32,21,50); (21,33,21,33); (21,33,21,33); (21,49,21,49); (21,49,21,49)]%Z;
     ts_evals := []; ts_same := []; ts_decls := []; ts_parents := [] |}.
Example ObjCObjectSubscripting_ArrayObjectAtIndex_holds : nth_violation (shippedRule sh_ObjCObjectSubscripting) ObjCObjectSubscripting_ArrayObjectAtIndex 0 = Some (21, 32, 21, 50, $"")%Z.
Proof. vm_compute. reflexivity. Qed.

Definition ObjCObjectSubscripting_ArrayObjectAtIndexedSubscript : testcase :=
  {| ts_lang := LObjC; ts_path := $"input.m"; ts_code := [];
     ts_comments := []; ts_conf := [];
     ts_tops := [(toplevel 0 (TOther), (Node 0 [] (OtherDecl []))); (toplevel 1 (TOther), (Node 1 [] (ObjCContainerDecl {| oc_kind := OKInterface; oc_name := $"NSObject"; oc_lines := (2)%Z; oc_ivars := 0; oc_methods := []; oc_classes := [$"NSObject"]; oc_superMethods := None |} []))); (toplevel 2 (TOther), (Node 2 [] (ObjCContainerDecl {| oc_kind := OKInterface; oc_name := $"NSNumber"; oc_lines := (3)%Z; oc_ivars := 0; oc_methods := [($"numberWithInt:", false)]; oc_classes := [$"NSNumber"; $"NSObject"]; oc_superMethods := (Some ($"NSObject", [])) |} [(Node 3 [] (ObjCMethodDecl {| om_selector := $"numberWithInt:"; om_class := (Some $"NSNumber"); om_overriding := false; om_overridden := []; om_bodyLines := (0)%Z |} [(Node 4 [] (VarDecl {| v_isParm := true; v_name := $"value"; v_used := false; v_referenced := false; v_local := false; v_staticMember := false; v_private := false; v_unusedAttr := false; v_defaultArg := false; v_canonicalType := $"int"; v_inTemplate := false; v_contexts := [CxObjCMethod true false false false; CxOther] |} None))] None))]))); (toplevel 5 (TOther), (Node 5 [] (ObjCContainerDecl {| oc_kind := OKInterface; oc_name := $"NSArray"; oc_lines := (8)%Z; oc_ivars := 0; oc_methods := [($"array", false); ($"arrayWithObject:", false); ($"arrayWithObjects:count:", false); ($"arrayWithObjects:", false); ($"objectAtIndex:", true); ($"objectAtIndexedSubscript:", true)]; oc_classes := [$"NSArray"; $"NSObject"]; oc_superMethods := (Some ($"NSObject", [])) |} [(Node 6 [] (ObjCMethodDecl {| om_selector := $"array"; om_class := (Some $"NSArray"); om_overriding := false; om_overridden := []; om_bodyLines := (0)%Z |} [] None)); (Node 7 [] (ObjCMethodDecl {| om_selector := $"arrayWithObject:"; om_class := (Some $"NSArray"); om_overriding := false; om_overridden := []; om_bodyLines := (0)%Z |} [(Node 8 [] (VarDecl {| v_isParm := true; v_name := $"anObject"; v_used := false; v_referenced := false; v_local := false; v_staticMember := false; v_private := false; v_unusedAttr := false; v_defaultArg := false; v_canonicalType := $"struct objc_object *"; v_inTemplate := false; v_contexts := [CxObjCMethod true false false false; CxOther] |} None))] None)); (Node 9 [] (ObjCMethodDecl {| om_selector := $"arrayWithObjects:count:"; om_class := (Some $"NSArray"); om_overriding := false; om_overridden := []; om_bodyLines := (0)%Z |} [(Node 10 [] (VarDecl {| v_isParm := true; v_name := $"objects"; v_used := false; v_referenced := false; v_local := false; v_staticMember := false; v_private := false; v_unusedAttr := false; v_defaultArg := false; v_canonicalType := $"const id *"; v_inTemplate := false; v_contexts := [CxObjCMethod true false false false; CxOther] |} None)); (Node 11 [] (VarDecl {| v_isParm := true; v_name := $"cnt"; v_used := false; v_referenced := false; v_local := false; v_staticMember := false; v_private := false; v_unusedAttr := false; v_defaultArg := false; v_canonicalType := $"unsigned long"; v_inTemplate := false; v_contexts := [CxObjCMethod true false false false; CxOther] |} None))] None)); (Node 12 [] (ObjCMethodDecl {| om_selector := $"arrayWithObjects:"; om_class := (Some $"NSArray"); om_overriding := false; om_overridden := []; om_bodyLines := (0)%Z |} [(Node 13 [] (VarDecl {| v_isParm := true; v_name := $"firstObj"; v_used := false; v_referenced := false; v_local := false; v_staticMember := false; v_private := false; v_unusedAttr := false; v_defaultArg := false; v_canonicalType := $"struct objc_object *"; v_inTemplate := false; v_contexts := [CxObjCMethod true false false false; CxOther] |} None))] None)); (Node 14 [] (ObjCMethodDecl {| om_selector := $"objectAtIndex:"; om_class := (Some $"NSArray"); om_overriding := false; om_overridden := []; om_bodyLines := (0)%Z |} [(Node 15 [] (VarDecl {| v_isParm := true; v_name := $"index"; v_used := false; v_referenced := false; v_local := false; v_staticMember := false; v_private := false; v_unusedAttr := false; v_defaultArg := false; v_canonicalType := $"unsigned long"; v_inTemplate := false; v_contexts := [CxObjCMethod true false false false; CxOther] |} None))] None)); (Node 16 [] (ObjCMethodDecl {| om_selector := $"objectAtIndexedSubscript:"; om_class := (Some $"NSArray"); om_overriding := false; om_overridden := []; om_bodyLines := (0)%Z |} [(Node 17 [] (VarDecl {| v_isParm := true; v_name := $"idx"; v_used := false; v_referenced := false; v_local := false; v_staticMember := false; v_private := false; v_unusedAttr := false; v_defaultArg := false; v_canonicalType := $"unsigned long"; v_inTemplate := false; v_contexts := [CxObjCMethod true false false false; CxOther] |} None))] None))]))); (toplevel 18 (TOther), (Node 18 [] (ObjCContainerDecl {| oc_kind := OKInterface; oc_name := $"NSMutableArray"; oc_lines := (4)%Z; oc_ivars := 0; oc_methods := [($"replaceObjectAtIndex:withObject:", true); ($"setObject:atIndexedSubscript:", true)]; oc_classes := [$"NSMutableArray"; $"NSArray"; $"NSObject"]; oc_superMethods := (Some ($"NSArray", [($"array", false, (Decl [] (Some (Method false None (InOther (Some NoCategory)))))); ($"arrayWithObject:", false, (Decl [] (Some (Method false None (InOther (Some NoCategory)))))); ($"arrayWithObjects:count:", false, (Decl [] (Some (Method false None (InOther (Some NoCategory)))))); ($"arrayWithObjects:", false, (Decl [] (Some (Method false None (InOther (Some NoCategory)))))); ($"objectAtIndex:", true, (Decl [] (Some (Method false None (InOther (Some NoCategory)))))); ($"objectAtIndexedSubscript:", true, (Decl [] (Some (Method false None (InOther (Some NoCategory))))))])) |} [(Node 19 [] (ObjCMethodDecl {| om_selector := $"replaceObjectAtIndex:withObject:"; om_class := (Some $"NSMutableArray"); om_overriding := false; om_overridden := []; om_bodyLines := (0)%Z |} [(Node 20 [] (VarDecl {| v_isParm := true; v_name := $"index"; v_used := false; v_referenced := false; v_local := false; v_staticMember := false; v_private := false; v_unusedAttr := false; v_defaultArg := false; v_canonicalType := $"unsigned long"; v_inTemplate := false; v_contexts := [CxObjCMethod true false false false; CxOther] |} None)); (Node 21 [] (VarDecl {| v_isParm := true; v_name := $"anObject"; v_used := false; v_referenced := false; v_local := false; v_staticMember := false; v_private := false; v_unusedAttr := false; v_defaultArg := false; v_canonicalType := $"struct objc_object *"; v_inTemplate := false; v_contexts := [CxObjCMethod true false false false; CxOther] |} None))] None)); (Node 22 [] (ObjCMethodDecl {| om_selector := $"setObject:atIndexedSubscript:"; om_class := (Some $"NSMutableArray"); om_overriding := false; om_overridden := []; om_bodyLines := (0)%Z |} [(Node 23 [] (VarDecl {| v_isParm := true; v_name := $"obj"; v_used := false; v_referenced := false; v_local := false; v_staticMember := false; v_private := false; v_unusedAttr := false; v_defaultArg := false; v_canonicalType := $"struct objc_object *"; v_inTemplate := false; v_contexts := [CxObjCMethod true false false false; CxOther] |} None)); (Node 24 [] (VarDecl {| v_isParm := true; v_name := $"idx"; v_used := false; v_referenced := false; v_local := false; v_staticMember := false; v_private := false; v_unusedAttr := false; v_defaultArg := false; v_canonicalType := $"unsigned long"; v_inTemplate := false; v_contexts := [CxObjCMethod true false false false; CxOther] |} None))] None))]))); (toplevel 25 (TFunction false), (Node 25 [] (FunctionDecl {| f_name := $"m"; f_method := None; f_isDefinition := true; f_bodyLines := (1)%Z |} [(Node 26 [] (VarDecl {| v_isParm := true; v_name := $"a"; v_used := true; v_referenced := true; v_local := false; v_staticMember := false; v_private := false; v_unusedAttr := false; v_defaultArg := false; v_canonicalType := $"NSArray *"; v_inTemplate := false; v_contexts := [CxFunction true true false] |} None))] (Some (Node 27 [] (CompoundStmt [(Node 28 [] (DeclStmt [(Node 29 [] (VarDecl {| v_isParm := false; v_name := $"item"; v_used := false; v_referenced := false; v_local := true; v_staticMember := false; v_private := false; v_unusedAttr := false; v_defaultArg := false; v_canonicalType := $"struct objc_object *"; v_inTemplate := false; v_contexts := [CxFunction true true false] |} (Some (Node 30 $"id" (ObjCMessageExpr {| ms_selector := $"objectAtIndexedSubscript:"; ms_receiver := RInstance; ms_implicit := false; ms_interface := (Some $"NSArray"); ms_method := (Some (Decl [] (Some (Method false None (InOther (Some NoCategory)))))); ms_methodClass := (Some $"NSArray") |} (Some (Node 31 $"NSArray *" (ImplicitCastExpr CK_LValueToRValue (Node 32 $"NSArray *" (DeclRefExpr 26 $"a" false))))) [(Node 33 $"NSUInteger" (ImplicitCastExpr CK_Other (Node 34 $"int" (IntegerLiteral (0)%Z))))])))))]))]))))))];
     ts_locs := [(3,1,3,23); (4,1,5,2); (6,1,8,2); (7,1,7,39); (7,30,7,34); (9,1,16,2); (10,1,10,12); (11,1,11,35); (11,24,11,27); (12,1,12,66); (12,25,12,37); (12,52,12,63); (13,1,13,41); (13,25,13,28); (14,1,14,38); (14,22,14,33); (15,1,15,47); (15,33,15,44); (17,1,20,2); (18,1,18,71); (18,31,18,42); (18,60,18,63); (19,1,19,61); (19,20,19,23); (19,47,19,58); (21,1,21,64); (21,8,21,17); (21,20,21,64); (21,22,21,62); (21,22,21,61); (21,32,21,61); (21,33,21,33); (21,33,21,33); (21,60,21,60); (21,60,21,60)]%Z;
     ts_evals := []; ts_same := []; ts_decls := []; ts_parents := [] |}.
Example ObjCObjectSubscripting_ArrayObjectAtIndexedSubscript_holds : nth_violation (shippedRule sh_ObjCObjectSubscripting) ObjCObjectSubscripting_ArrayObjectAtIndexedSubscript 0 = Some (21, 32, 21, 61, $"")%Z.
Proof. vm_compute. reflexivity. Qed.

Definition ObjCObjectSubscripting_ArrayReplaceObjectAtIndexWithObject : testcase :=
  {| ts_lang := LObjC; ts_path := $"input.m"; ts_code := [];
     ts_comments := []; ts_conf := [];
     ts_tops := [(toplevel 0 (TOther), (Node 0 [] (OtherDecl []))); (toplevel 1 (TOther), (Node 1 [] (ObjCContainerDecl {| oc_kind := OKInterface; oc_name := $"NSObject"; oc_lines := (2)%Z; oc_ivars := 0; oc_methods := []; oc_classes := [$"NSObject"]; oc_superMethods := None |} []))); (toplevel 2 (TOther), (Node 2 [] (ObjCContainerDecl {| oc_kind := OKInterface; oc_name := $"NSNumber"; oc_lines := (3)%Z; oc_ivars := 0; oc_methods := [($"numberWithInt:", false)]; oc_classes := [$"NSNumber"; $"NSObject"]; oc_superMethods := (Some ($"NSObject", [])) |} [(Node 3 [] (ObjCMethodDecl {| om_selector := $"numberWithInt:"; om_class := (Some $"NSNumber"); om_overriding := false; om_overridden := []; om_bodyLines := (0)%Z |} [(Node 4 [] (VarDecl {| v_isParm := true; v_name := $"value"; v_used := false; v_referenced := false; v_local := false; v_staticMember := false; v_private := false; v_unusedAttr := false; v_defaultArg := false; v_canonicalType := $"int"; v_inTemplate := false; v_contexts := [CxObjCMethod true false false false; CxOther] |} None))] None))]))); (toplevel 5 (TOther), (Node 5 [] (ObjCContainerDecl {| oc_kind := OKInterface; oc_name := $"NSArray"; oc_lines := (8)%Z; oc_ivars := 0; oc_methods := [($"array", false); ($"arrayWithObject:", false); ($"arrayWithObjects:count:", false); ($"arrayWithObjects:", false); ($"objectAtIndex:", true); ($"objectAtIndexedSubscript:", true)]; oc_classes := [$"NSArray"; $"NSObject"]; oc_superMethods := (Some ($"NSObject", [])) |} [(Node 6 [] (ObjCMethodDecl {| om_selector := $"array"; om_class := (Some $"NSArray"); om_overriding := false; om_overridden := []; om_bodyLines := (0)%Z |} [] None)); (Node 7 [] (ObjCMethodDecl {| om_selector := $"arrayWithObject:"; om_class := (Some $"NSArray"); om_overriding := false; om_overridden := []; om_bodyLines := (0)%Z |} [(Node 8 [] (VarDecl {| v_isParm := true; v_name := $"anObject"; v_used := false; v_referenced := false; v_local := false; v_staticMember := false; v_private := false; v_unusedAttr := false; v_defaultArg := false; v_canonicalType := $"struct objc_object *"; v_inTemplate := false; v_contexts := [CxObjCMethod true false false false; CxOther] |} None))] None)); (Node 9 [] (ObjCMethodDecl {| om_selector := $"arrayWithObjects:count:"; om_class := (Some $"NSArray"); om_overriding := false; om_overridden := []; om_bodyLines := (0)%Z |} [(Node 10 [] (VarDecl {| v_isParm := true; v_name := $"objects"; v_used := false; v_referenced := false; v_local := false; v_staticMember := false; v_private := false; v_unusedAttr := false; v_defaultArg := false; v_canonicalType := $"const id *"; v_inTemplate := false; v_contexts := [CxObjCMethod true false false false; CxOther] |} None)); (Node 11 [] (VarDecl {| v_isParm := true; v_name := $"cnt"; v_used := false; v_referenced := false; v_local := false; v_staticMember := false; v_private := false; v_unusedAttr := false; v_defaultArg := false; v_canonicalType := $"unsigned long"; v_inTemplate := false; v_contexts := [CxObjCMethod true false false false; CxOther] |} None))] None)); (Node 12 [] (ObjCMethodDecl {| om_selector := $"arrayWithObjects:"; om_class := (Some $"NSArray"); om_overriding := false; om_overridden := []; om_bodyLines := (0)%Z |} [(Node 13 [] (VarDecl {| v_isParm := true; v_name := $"firstObj"; v_used := false; v_referenced := false; v_local := false; v_staticMember := false; v_private := false; v_unusedAttr := false; v_defaultArg := false; v_canonicalType := $"struct objc_object *"; v_inTemplate := false; v_contexts := [CxObjCMethod true false false false; CxOther] |} None))] None)); (Node 14 [] (ObjCMethodDecl {| om_selector := $"objectAtIndex:"; om_class := (Some $"NSArray"); om_overriding := false; om_overridden := []; om_bodyLines := (0)%Z |} [(Node 15 [] (VarDecl {| v_isParm := true; v_name := $"index"; v_used := false; v_referenced := false; v_local := false; v_staticMember := false; v_private := false; v_unusedAttr := false; v_defaultArg := false; v_canonicalType := $"unsigned long"; v_inTemplate := false; v_contexts := [CxObjCMethod true false false false; CxOther] |} None))] None)); (Node 16 [] (ObjCMethodDecl {| om_selector := $"objectAtIndexedSubscript:"; om_class := (Some $"NSArray"); om_overriding := false; om_overridden := []; om_bodyLines := (0)%Z |} [(Node 17 [] (VarDecl {| v_isParm := true; v_name := $"idx"; v_used := false; v_referenced := false; v_local := false; v_staticMember := false; v_private := false; v_unusedAttr := false; v_defaultArg := false; v_canonicalType := $"unsigned long"; v_inTemplate := false; v_contexts := [CxObjCMethod true false false false; CxOther] |} None))] None))]))); (toplevel 18 (TOther), (Node 18 [] (ObjCContainerDecl {| oc_kind := OKInterface; oc_name := $"NSMutableArray"; oc_lines := (4)%Z; oc_ivars := 0; oc_methods := [($"replaceObjectAtIndex:withObject:", true); ($"setObject:atIndexedSubscript:", true)]; oc_classes := [$"NSMutableArray"; $"NSArray"; $"NSObject"]; oc_superMethods := (Some ($"NSArray", [($"array", false, (Decl [] (Some (Method false None (InOther (Some NoCategory)))))); ($"arrayWithObject:", false, (Decl [] (Some (Method false None (InOther (Some NoCategory)))))); ($"arrayWithObjects:count:", false, (Decl [] (Some (Method false None (InOther (Some NoCategory)))))); ($"arrayWithObjects:", false, (Decl [] (Some (Method false None (InOther (Some NoCategory)))))); ($"objectAtIndex:", true, (Decl [] (Some (Method false None (InOther (Some NoCategory)))))); ($"objectAtIndexedSubscript:", true, (Decl [] (Some (Method false None (InOther (Some NoCategory))))))])) |} [(Node 19 [] (ObjCMethodDecl {| om_selector := $"replaceObjectAtIndex:withObject:"; om_class := (Some $"NSMutableArray"); om_overriding := false; om_overridden := []; om_bodyLines := (0)%Z |} [(Node 20 [] (VarDecl {| v_isParm := true; v_name := $"index"; v_used := false; v_referenced := false; v_local := false; v_staticMember := false; v_private := false; v_unusedAttr := false; v_defaultArg := false; v_canonicalType := $"unsigned long"; v_inTemplate := false; v_contexts := [CxObjCMethod true false false false; CxOther] |} None)); (Node 21 [] (VarDecl {| v_isParm := true; v_name := $"anObject"; v_used := false; v_referenced := false; v_local := false; v_staticMember := false; v_private := false; v_unusedAttr := false; v_defaultArg := false; v_canonicalType := $"struct objc_object *"; v_inTemplate := false; v_contexts := [CxObjCMethod true false false false; CxOther] |} None))] None)); (Node 22 [] (ObjCMethodDecl {| om_selector := $"setObject:atIndexedSubscript:"; om_class := (Some $"NSMutableArray"); om_overriding := false; om_overridden := []; om_bodyLines := (0)%Z |} [(Node 23 [] (VarDecl {| v_isParm := true; v_name := $"obj"; v_used := false; v_referenced := false; v_local := false; v_staticMember := false; v_private := false; v_unusedAttr := false; v_defaultArg := false; v_canonicalType := $"struct objc_object *"; v_inTemplate := false; v_contexts := [CxObjCMethod true false false false; CxOther] |} None)); (Node 24 [] (VarDecl {| v_isParm := true; v_name := $"idx"; v_used := false; v_referenced := false; v_local := false; v_staticMember := false; v_private := false; v_unusedAttr := false; v_defaultArg := false; v_canonicalType := $"unsigned long"; v_inTemplate := false; v_contexts := [CxObjCMethod true false false false; CxOther] |} None))] None))]))); (toplevel 25 (TFunction false), (Node 25 [] (FunctionDecl {| f_name := $"m"; f_method := None; f_isDefinition := true; f_bodyLines := (1)%Z |} [(Node 26 [] (VarDecl {| v_isParm := true; v_name := $"a"; v_used := true; v_referenced := true; v_local := false; v_staticMember := false; v_private := false; v_unusedAttr := false; v_defaultArg := false; v_canonicalType := $"NSMutableArray *"; v_inTemplate := false; v_contexts := [CxFunction true true false] |} None)); (Node 27 [] (VarDecl {| v_isParm := true; v_name := $"item"; v_used := true; v_referenced := true; v_local := false; v_staticMember := false; v_private := false; v_unusedAttr := false; v_defaultArg := false; v_canonicalType := $"struct objc_object *"; v_inTemplate := false; v_contexts := [CxFunction true true false] |} None))] (Some (Node 28 [] (CompoundStmt [(Node 29 $"void" (ObjCMessageExpr {| ms_selector := $"replaceObjectAtIndex:withObject:"; ms_receiver := RInstance; ms_implicit := false; ms_interface := (Some $"NSMutableArray"); ms_method := (Some (Decl [] (Some (Method false None (InOther (Some NoCategory)))))); ms_methodClass := (Some $"NSMutableArray") |} (Some (Node 30 $"NSMutableArray *" (ImplicitCastExpr CK_LValueToRValue (Node 31 $"NSMutableArray *" (DeclRefExpr 26 $"a" false))))) [(Node 32 $"NSUInteger" (ImplicitCastExpr CK_Other (Node 33 $"int" (IntegerLiteral (0)%Z)))); (Node 34 $"id" (ImplicitCastExpr CK_LValueToRValue (Node 35 $"id" (DeclRefExpr 27 $"item" false))))]))]))))))];
     ts_locs := [(3,1,3,23); (4,1,5,2); (6,1,8,2); (7,1,7,39); (7,30,7,34); (9,1,16,2); (10,1,10,12); (11,1,11,35); (11,24,11,27); (12,1,12,66); (12,25,12,37); (12,52,12,63); (13,1,13,41); (13,25,13,28); (14,1,14,38); (14,22,14,33); (15,1,15,47); (15,33,15,44); (17,1,20,2); (18,1,18,71); (18,31,18,42); (18,60,18,63); (19,1,19,61); (19,20,19,23); (19,47,19,58); (21,1,21,82); (21,8,21,24); (21,27,21,30); (21,36,21,82); (21,38,21,79); (21,39,21,39); (21,39,21,39); (21,62,21,62); (21,62,21,62); (21,75,21,75); (21,75,21,75)]%Z;
     ts_evals := []; ts_same := []; ts_decls := []; ts_parents := [] |}.
Example ObjCObjectSubscripting_ArrayReplaceObjectAtIndexWithObject_holds : nth_violation (shippedRule sh_ObjCObjectSubscripting) ObjCObjectSubscripting_ArrayReplaceObjectAtIndexWithObject 0 = Some (21, 38, 21, 79, $"")%Z.
Proof. vm_compute. reflexivity. Qed.

Definition ObjCObjectSubscripting_ArraySetObjectAtIndexesSubscript : testcase :=
  {| ts_lang := LObjC; ts_path := $"input.m"; ts_code := [];
     ts_comments := []; ts_conf := [];
     ts_tops := [(toplevel 0 (TOther), (Node 0 [] (OtherDecl []))); (toplevel 1 (TOther), (Node 1 [] (ObjCContainerDecl {| oc_kind := OKInterface; oc_name := $"NSObject"; oc_lines := (2)%Z; oc_ivars := 0; oc_methods := []; oc_classes := [$"NSObject"]; oc_superMethods := None |} []))); (toplevel 2 (TOther), (Node 2 [] (ObjCContainerDecl {| oc_kind := OKInterface; oc_name := $"NSNumber"; oc_lines := (3)%Z; oc_ivars := 0; oc_methods := [($"numberWithInt:", false)]; oc_classes := [$"NSNumber"; $"NSObject"]; oc_superMethods := (Some ($"NSObject", [])) |} [(Node 3 [] (ObjCMethodDecl {| om_selector := $"numberWithInt:"; om_class := (Some $"NSNumber"); om_overriding := false; om_overridden := []; om_bodyLines := (0)%Z |} [(Node 4 [] (VarDecl {| v_isParm := true; v_name := $"value"; v_used := false; v_referenced := false; v_local := false; v_staticMember := false; v_private := false; v_unusedAttr := false; v_defaultArg := false; v_canonicalType := $"int"; v_inTemplate := false; v_contexts := [CxObjCMethod true false false false; CxOther] |} None))] None))]))); (toplevel 5 (TOther), (Node 5 [] (ObjCContainerDecl {| oc_kind := OKInterface; oc_name := $"NSArray"; oc_lines := (8)%Z; oc_ivars := 0; oc_methods := [($"array", false); ($"arrayWithObject:", false); ($"arrayWithObjects:count:", false); ($"arrayWithObjects:", false); ($"objectAtIndex:", true); ($"objectAtIndexedSubscript:", true)]; oc_classes := [$"NSArray"; $"NSObject"]; oc_superMethods := (Some ($"NSObject", [])) |} [(Node 6 [] (ObjCMethodDecl {| om_selector := $"array"; om_class := (Some $"NSArray"); om_overriding := false; om_overridden := []; om_bodyLines := (0)%Z |} [] None)); (Node 7 [] (ObjCMethodDecl {| om_selector := $"arrayWithObject:"; om_class := (Some $"NSArray"); om_overriding := false; om_overridden := []; om_bodyLines := (0)%Z |} [(Node 8 [] (VarDecl {| v_isParm := true; v_name := $"anObject"; v_used := false; v_referenced := false; v_local := false; v_staticMember := false; v_private := false; v_unusedAttr := false; v_defaultArg := false; v_canonicalType := $"struct objc_object *"; v_inTemplate := false; v_contexts := [CxObjCMethod true false false false; CxOther] |} None))] None)); (Node 9 [] (ObjCMethodDecl {| om_selector := $"arrayWithObjects:count:"; om_class := (Some $"NSArray"); om_overriding := false; om_overridden := []; om_bodyLines := (0)%Z |} [(Node 10 [] (VarDecl {| v_isParm := true; v_name := $"objects"; v_used := false; v_referenced := false; v_local := false; v_staticMember := false; v_private := false; v_unusedAttr := false; v_defaultArg := false; v_canonicalType := $"const id *"; v_inTemplate := false; v_contexts := [CxObjCMethod true false false false; CxOther] |} None)); (Node 11 [] (VarDecl {| v_isParm := true; v_name := $"cnt"; v_used := false; v_referenced := false; v_local := false; v_staticMember := false; v_private := false; v_unusedAttr := false; v_defaultArg := false; v_canonicalType := $"unsigned long"; v_inTemplate := false; v_contexts := [CxObjCMethod true false false false; CxOther] |} None))] None)); (Node 12 [] (ObjCMethodDecl {| om_selector := $"arrayWithObjects:"; om_class := (Some $"NSArray"); om_overriding := false; om_overridden := []; om_bodyLines := (0)%Z |} [(Node 13 [] (VarDecl {| v_isParm := true; v_name := $"firstObj"; v_used := false; v_referenced := false; v_local := false; v_staticMember := false; v_private := false; v_unusedAttr := false; v_defaultArg := false; v_canonicalType := $"struct objc_object *"; v_inTemplate := false; v_contexts := [CxObjCMethod true false false false; CxOther] |} None))] None)); (Node 14 [] (ObjCMethodDecl {| om_selector := $"objectAtIndex:"; om_class := (Some $"NSArray"); om_overriding := false; om_overridden := []; om_bodyLines := (0)%Z |} [(Node 15 [] (VarDecl {| v_isParm := true; v_name := $"index"; v_used := false; v_referenced := false; v_local := false; v_staticMember := false; v_private := false; v_unusedAttr := false; v_defaultArg := false; v_canonicalType := $"unsigned long"; v_inTemplate := false; v_contexts := [CxObjCMethod true false false false; CxOther] |} None))] None)); (Node 16 [] (ObjCMethodDecl {| om_selector := $"objectAtIndexedSubscript:"; om_class := (Some $"NSArray"); om_overriding := false; om_overridden := []; om_bodyLines := (0)%Z |} [(Node 17 [] (VarDecl {| v_isParm := true; v_name := $"idx"; v_used := false; v_referenced := false; v_local := false; v_staticMember := false; v_private := false; v_unusedAttr := false; v_defaultArg := false; v_canonicalType := $"unsigned long"; v_inTemplate := false; v_contexts := [CxObjCMethod true false false false; CxOther] |} None))] None))]))); (toplevel 18 (TOther), (Node 18 [] (ObjCContainerDecl {| oc_kind := OKInterface; oc_name := $"NSMutableArray"; oc_lines := (4)%Z; oc_ivars := 0; oc_methods := [($"replaceObjectAtIndex:withObject:", true); ($"setObject:atIndexedSubscript:", true)]; oc_classes := [$"NSMutableArray"; $"NSArray"; $"NSObject"]; oc_superMethods := (Some ($"NSArray", [($"array", false, (Decl [] (Some (Method false None (InOther (Some NoCategory)))))); ($"arrayWithObject:", false, (Decl [] (Some (Method false None (InOther (Some NoCategory)))))); ($"arrayWithObjects:count:", false, (Decl [] (Some (Method false None (InOther (Some NoCategory)))))); ($"arrayWithObjects:", false, (Decl [] (Some (Method false None (InOther (Some NoCategory)))))); ($"objectAtIndex:", true, (Decl [] (Some (Method false None (InOther (Some NoCategory)))))); ($"objectAtIndexedSubscript:", true, (Decl [] (Some (Method false None (InOther (Some NoCategory))))))])) |} [(Node 19 [] (ObjCMethodDecl {| om_selector := $"replaceObjectAtIndex:withObject:"; om_class := (Some $"NSMutableArray"); om_overriding := false; om_overridden := []; om_bodyLines := (0)%Z |} [(Node 20 [] (VarDecl {| v_isParm := true; v_name := $"index"; v_used := false; v_referenced := false; v_local := false; v_staticMember := false; v_private := false; v_unusedAttr := false; v_defaultArg := false; v_canonicalType := $"unsigned long"; v_inTemplate := false; v_contexts := [CxObjCMethod true false false false; CxOther] |} None)); (Node 21 [] (VarDecl {| v_isParm := true; v_name := $"anObject"; v_used := false; v_referenced := false; v_local := false; v_staticMember := false; v_private := false; v_unusedAttr := false; v_defaultArg := false; v_canonicalType := $"struct objc_object *"; v_inTemplate := false; v_contexts := [CxObjCMethod true false false false; CxOther] |} None))] None)); (Node 22 [] (ObjCMethodDecl {| om_selector := $"setObject:atIndexedSubscript:"; om_class := (Some $"NSMutableArray"); om_overriding := false; om_overridden := []; om_bodyLines := (0)%Z |} [(Node 23 [] (VarDecl {| v_isParm := true; v_name := $"obj"; v_used := false; v_referenced := false; v_local := false; v_staticMember := false; v_private := false; v_unusedAttr := false; v_defaultArg := false; v_canonicalType := $"struct objc_object *"; v_inTemplate := false; v_contexts := [CxObjCMethod true false false false; CxOther] |} None)); (Node 24 [] (VarDecl {| v_isParm := true; v_name := $"idx"; v_used := false; v_referenced := false; v_local := false; v_staticMember := false; v_private := false; v_unusedAttr := false; v_defaultArg := false; v_canonicalType := $"unsigned long"; v_inTemplate := false; v_contexts := [CxObjCMethod true false false false; CxOther] |} None))] None))]))); (toplevel 25 (TFunction false), (Node 25 [] (FunctionDecl {| f_name := $"m"; f_method := None; f_isDefinition := true; f_bodyLines := (1)%Z |} [(Node 26 [] (VarDecl {| v_isParm := true; v_name := $"a"; v_used := true; v_referenced := true; v_local := false; v_staticMember := false; v_private := false; v_unusedAttr := false; v_defaultArg := false; v_canonicalType := $"NSMutableArray *"; v_inTemplate := false; v_contexts := [CxFunction true true false] |} None)); (Node 27 [] (VarDecl {| v_isParm := true; v_name := $"item"; v_used := true; v_referenced := true; v_local := false; v_staticMember := false; v_private := false; v_unusedAttr := false; v_defaultArg := false; v_canonicalType := $"struct objc_object *"; v_inTemplate := false; v_contexts := [CxFunction true true false] |} None))] (Some (Node 28 [] (CompoundStmt [(Node 29 $"void" (ObjCMessageExpr {| ms_selector := $"setObject:atIndexedSubscript:"; ms_receiver := RInstance; ms_implicit := false; ms_interface := (Some $"NSMutableArray"); ms_method := (Some (Decl [] (Some (Method false None (InOther (Some NoCategory)))))); ms_methodClass := (Some $"NSMutableArray") |} (Some (Node 30 $"NSMutableArray *" (ImplicitCastExpr CK_LValueToRValue (Node 31 $"NSMutableArray *" (DeclRefExpr 26 $"a" false))))) [(Node 32 $"id" (ImplicitCastExpr CK_LValueToRValue (Node 33 $"id" (DeclRefExpr 27 $"item" false)))); (Node 34 $"NSUInteger" (ImplicitCastExpr CK_Other (Node 35 $"int" (IntegerLiteral (0)%Z))))]))]))))))];
     ts_locs := [(3,1,3,23); (4,1,5,2); (6,1,8,2); (7,1,7,39); (7,30,7,34); (9,1,16,2); (10,1,10,12); (11,1,11,35); (11,24,11,27); (12,1,12,66); (12,25,12,37); (12,52,12,63); (13,1,13,41); (13,25,13,28); (14,1,14,38); (14,22,14,33); (15,1,15,47); (15,33,15,44); (17,1,20,2); (18,1,18,71); (18,31,18,42); (18,60,18,63); (19,1,19,61); (19,20,19,23); (19,47,19,58); (21,1,21,79); (21,8,21,24); (21,27,21,30); (21,36,21,79); (21,38,21,76); (21,39,21,39); (21,39,21,39); (21,51,21,51); (21,51,21,51); (21,75,21,75); (21,75,21,75)]%Z;
     ts_evals := []; ts_same := []; ts_decls := []; ts_parents := [] |}.
Example ObjCObjectSubscripting_ArraySetObjectAtIndexesSubscript_holds : nth_violation (shippedRule sh_ObjCObjectSubscripting) ObjCObjectSubscripting_ArraySetObjectAtIndexesSubscript 0 = Some (21, 38, 21, 76, $"")%Z.
Proof. vm_compute. reflexivity. Qed.

Definition ObjCObjectSubscripting_DictionaryObjectForKey : testcase :=
  {| ts_lang := LObjC; ts_path := $"input.m"; ts_code := [];
     ts_comments := []; ts_conf := [];
     ts_tops := [(toplevel 0 (TOther), (Node 0 [] (OtherDecl []))); (toplevel 1 (TOther), (Node 1 [] (ObjCContainerDecl {| oc_kind := OKInterface; oc_name := $"NSObject"; oc_lines := (2)%Z; oc_ivars := 0; oc_methods := []; oc_classes := [$"NSObject"]; oc_superMethods := None |} []))); (toplevel 2 (TOther), (Node 2 [] (ObjCContainerDecl {| oc_kind := OKInterface; oc_name := $"NSNumber"; oc_lines := (3)%Z; oc_ivars := 0; oc_methods := [($"numberWithInt:", false)]; oc_classes := [$"NSNumber"; $"NSObject"]; oc_superMethods := (Some ($"NSObject", [])) |} [(Node 3 [] (ObjCMethodDecl {| om_selector := $"numberWithInt:"; om_class := (Some $"NSNumber"); om_overriding := false; om_overridden := []; om_bodyLines := (0)%Z |} [(Node 4 [] (VarDecl {| v_isParm := true; v_name := $"value"; v_used := false; v_referenced := false; v_local := false; v_staticMember := false; v_private := false; v_unusedAttr := false; v_defaultArg := false; v_canonicalType := $"int"; v_inTemplate := false; v_contexts := [CxObjCMethod true false false false; CxOther] |} None))] None))]))); (toplevel 5 (TOther), (Node 5 [] (ObjCContainerDecl {| oc_kind := OKInterface; oc_name := $"NSArray"; oc_lines := (3)%Z; oc_ivars := 0; oc_methods := [($"arrayWithObjects:count:", false)]; oc_classes := [$"NSArray"; $"NSObject"]; oc_superMethods := (Some ($"NSObject", [])) |} [(Node 6 [] (ObjCMethodDecl {| om_selector := $"arrayWithObjects:count:"; om_class := (Some $"NSArray"); om_overriding := false; om_overridden := []; om_bodyLines := (0)%Z |} [(Node 7 [] (VarDecl {| v_isParm := true; v_name := $"objects"; v_used := false; v_referenced := false; v_local := false; v_staticMember := false; v_private := false; v_unusedAttr := false; v_defaultArg := false; v_canonicalType := $"const id *"; v_inTemplate := false; v_contexts := [CxObjCMethod true false false false; CxOther] |} None)); (Node 8 [] (VarDecl {| v_isParm := true; v_name := $"cnt"; v_used := false; v_referenced := false; v_local := false; v_staticMember := false; v_private := false; v_unusedAttr := false; v_defaultArg := false; v_canonicalType := $"unsigned long"; v_inTemplate := false; v_contexts := [CxObjCMethod true false false false; CxOther] |} None))] None))]))); (toplevel 9 (TOther), (Node 9 [] (ObjCContainerDecl {| oc_kind := OKInterface; oc_name := $"NSDictionary"; oc_lines := (9)%Z; oc_ivars := 0; oc_methods := [($"dictionary", false); ($"dictionaryWithObject:forKey:", false); ($"dictionaryWithObjects:forKeys:count:", false); ($"dictionaryWithObjectsAndKeys:", false); ($"dictionaryWithObjects:forKeys:", false); ($"objectForKey:", true); ($"objectForKeyedSubscript:", true)]; oc_classes := [$"NSDictionary"; $"NSObject"]; oc_superMethods := (Some ($"NSObject", [])) |} [(Node 10 [] (ObjCMethodDecl {| om_selector := $"dictionary"; om_class := (Some $"NSDictionary"); om_overriding := false; om_overridden := []; om_bodyLines := (0)%Z |} [] None)); (Node 11 [] (ObjCMethodDecl {| om_selector := $"dictionaryWithObject:forKey:"; om_class := (Some $"NSDictionary"); om_overriding := false; om_overridden := []; om_bodyLines := (0)%Z |} [(Node 12 [] (VarDecl {| v_isParm := true; v_name := $"object"; v_used := false; v_referenced := false; v_local := false; v_staticMember := false; v_private := false; v_unusedAttr := false; v_defaultArg := false; v_canonicalType := $"struct objc_object *"; v_inTemplate := false; v_contexts := [CxObjCMethod true false false false; CxOther] |} None)); (Node 13 [] (VarDecl {| v_isParm := true; v_name := $"key"; v_used := false; v_referenced := false; v_local := false; v_staticMember := false; v_private := false; v_unusedAttr := false; v_defaultArg := false; v_canonicalType := $"struct objc_object *"; v_inTemplate := false; v_contexts := [CxObjCMethod true false false false; CxOther] |} None))] None)); (Node 14 [] (ObjCMethodDecl {| om_selector := $"dictionaryWithObjects:forKeys:count:"; om_class := (Some $"NSDictionary"); om_overriding := false; om_overridden := []; om_bodyLines := (0)%Z |} [(Node 15 [] (VarDecl {| v_isParm := true; v_name := $"objects"; v_used := false; v_referenced := false; v_local := false; v_staticMember := false; v_private := false; v_unusedAttr := false; v_defaultArg := false; v_canonicalType := $"const id *"; v_inTemplate := false; v_contexts := [CxObjCMethod true false false false; CxOther] |} None)); (Node 16 [] (VarDecl {| v_isParm := true; v_name := $"keys"; v_used := false; v_referenced := false; v_local := false; v_staticMember := false; v_private := false; v_unusedAttr := false; v_defaultArg := false; v_canonicalType := $"const id *"; v_inTemplate := false; v_contexts := [CxObjCMethod true false false false; CxOther] |} None)); (Node 17 [] (VarDecl {| v_isParm := true; v_name := $"cnt"; v_used := false; v_referenced := false; v_local := false; v_staticMember := false; v_private := false; v_unusedAttr := false; v_defaultArg := false; v_canonicalType := $"unsigned long"; v_inTemplate := false; v_contexts := [CxObjCMethod true false false false; CxOther] |} None))] None)); (Node 18 [] (ObjCMethodDecl {| om_selector := $"dictionaryWithObjectsAndKeys:"; om_class := (Some $"NSDictionary"); om_overriding := false; om_overridden := []; om_bodyLines := (0)%Z |} [(Node 19 [] (VarDecl {| v_isParm := true; v_name := $"firstObject"; v_used := false; v_referenced := false; v_local := false; v_staticMember := false; v_private := false; v_unusedAttr := false; v_defaultArg := false; v_canonicalType := $"struct objc_object *"; v_inTemplate := false; v_contexts := [CxObjCMethod true false false false; CxOther] |} None))] None)); (Node 20 [] (ObjCMethodDecl {| om_selector := $"dictionaryWithObjects:forKeys:"; om_class := (Some $"NSDictionary"); om_overriding := false; om_overridden := []; om_bodyLines := (0)%Z |} [(Node 21 [] (VarDecl {| v_isParm := true; v_name := $"objects"; v_used := false; v_referenced := false; v_local := false; v_staticMember := false; v_private := false; v_unusedAttr := false; v_defaultArg := false; v_canonicalType := $"NSArray *"; v_inTemplate := false; v_contexts := [CxObjCMethod true false false false; CxOther] |} None)); (Node 22 [] (VarDecl {| v_isParm := true; v_name := $"keys"; v_used := false; v_referenced := false; v_local := false; v_staticMember := false; v_private := false; v_unusedAttr := false; v_defaultArg := false; v_canonicalType := $"NSArray *"; v_inTemplate := false; v_contexts := [CxObjCMethod true false false false; CxOther] |} None))] None)); (Node 23 [] (ObjCMethodDecl {| om_selector := $"objectForKey:"; om_class := (Some $"NSDictionary"); om_overriding := false; om_overridden := []; om_bodyLines := (0)%Z |} [(Node 24 [] (VarDecl {| v_isParm := true; v_name := $"aKey"; v_used := false; v_referenced := false; v_local := false; v_staticMember := false; v_private := false; v_unusedAttr := false; v_defaultArg := false; v_canonicalType := $"struct objc_object *"; v_inTemplate := false; v_contexts := [CxObjCMethod true false false false; CxOther] |} None))] None)); (Node 25 [] (ObjCMethodDecl {| om_selector := $"objectForKeyedSubscript:"; om_class := (Some $"NSDictionary"); om_overriding := false; om_overridden := []; om_bodyLines := (0)%Z |} [(Node 26 [] (VarDecl {| v_isParm := true; v_name := $"key"; v_used := false; v_referenced := false; v_local := false; v_staticMember := false; v_private := false; v_unusedAttr := false; v_defaultArg := false; v_canonicalType := $"struct objc_object *"; v_inTemplate := false; v_contexts := [CxObjCMethod true false false false; CxOther] |} None))] None))]))); (toplevel 27 (TOther), (Node 27 [] (ObjCContainerDecl {| oc_kind := OKInterface; oc_name := $"NSMutableDictionary"; oc_lines := (4)%Z; oc_ivars := 0; oc_methods := [($"setObject:forKey:", true); ($"setObject:forKeyedSubscript:", true)]; oc_classes := [$"NSMutableDictionary"; $"NSDictionary"; $"NSObject"]; oc_superMethods := (Some ($"NSDictionary", [($"dictionary", false, (Decl [] (Some (Method false None (InOther (Some NoCategory)))))); ($"dictionaryWithObject:forKey:", false, (Decl [] (Some (Method false None (InOther (Some NoCategory)))))); ($"dictionaryWithObjects:forKeys:count:", false, (Decl [] (Some (Method false None (InOther (Some NoCategory)))))); ($"dictionaryWithObjectsAndKeys:", false, (Decl [] (Some (Method false None (InOther (Some NoCategory)))))); ($"dictionaryWithObjects:forKeys:", false, (Decl [] (Some (Method false None (InOther (Some NoCategory)))))); ($"objectForKey:", true, (Decl [] (Some (Method false None (InOther (Some NoCategory)))))); ($"objectForKeyedSubscript:", true, (Decl [] (Some (Method false None (InOther (Some NoCategory))))))])) |} [(Node 28 [] (ObjCMethodDecl {| om_selector := $"setObject:forKey:"; om_class := (Some $"NSMutableDictionary"); om_overriding := false; om_overridden := []; om_bodyLines := (0)%Z |} [(Node 29 [] (VarDecl {| v_isParm := true; v_name := $"anObject"; v_used := false; v_referenced := false; v_local := false; v_staticMember := false; v_private := false; v_unusedAttr := false; v_defaultArg := false; v_canonicalType := $"struct objc_object *"; v_inTemplate := false; v_contexts := [CxObjCMethod true false false false; CxOther] |} None)); (Node 30 [] (VarDecl {| v_isParm := true; v_name := $"aKey"; v_used := false; v_referenced := false; v_local := false; v_staticMember := false; v_private := false; v_unusedAttr := false; v_defaultArg := false; v_canonicalType := $"struct objc_object *"; v_inTemplate := false; v_contexts := [CxObjCMethod true false false false; CxOther] |} None))] None)); (Node 31 [] (ObjCMethodDecl {| om_selector := $"setObject:forKeyedSubscript:"; om_class := (Some $"NSMutableDictionary"); om_overriding := false; om_overridden := []; om_bodyLines := (0)%Z |} [(Node 32 [] (VarDecl {| v_isParm := true; v_name := $"obj"; v_used := false; v_referenced := false; v_local := false; v_staticMember := false; v_private := false; v_unusedAttr := false; v_defaultArg := false; v_canonicalType := $"struct objc_object *"; v_inTemplate := false; v_contexts := [CxObjCMethod true false false false; CxOther] |} None)); (Node 33 [] (VarDecl {| v_isParm := true; v_name := $"key"; v_used := false; v_referenced := false; v_local := false; v_staticMember := false; v_private := false; v_unusedAttr := false; v_defaultArg := false; v_canonicalType := $"struct objc_object *"; v_inTemplate := false; v_contexts := [CxObjCMethod true false false false; CxOther] |} None))] None))]))); (toplevel 34 (TFunction false), (Node 34 [] (FunctionDecl {| f_name := $"m"; f_method := None; f_isDefinition := true; f_bodyLines := (1)%Z |} [(Node 35 [] (VarDecl {| v_isParm := true; v_name := $"d"; v_used := true; v_referenced := true; v_local := false; v_staticMember := false; v_private := false; v_unusedAttr := false; v_defaultArg := false; v_canonicalType := $"NSDictionary *"; v_inTemplate := false; v_contexts := [CxFunction true true false] |} None))] (Some (Node 36 [] (CompoundStmt [(Node 37 [] (DeclStmt [(Node 38 [] (VarDecl {| v_isParm := false; v_name := $"item"; v_used := false; v_referenced := false; v_local := true; v_staticMember := false; v_private := false; v_unusedAttr := false; v_defaultArg := false; v_canonicalType := $"struct objc_object *"; v_inTemplate := false; v_contexts := [CxFunction true true false] |} (Some (Node 39 $"id" (ObjCMessageExpr {| ms_selector := $"objectForKey:"; ms_receiver := RInstance; ms_implicit := false; ms_interface := (Some $"NSDictionary"); ms_method := (Some (Decl [] (Some (Method false None (InOther (Some NoCategory)))))); ms_methodClass := (Some $"NSDictionary") |} (Some (Node 40 $"NSDictionary *" (ImplicitCastExpr CK_LValueToRValue (Node 41 $"NSDictionary *" (DeclRefExpr 35 $"d" false))))) [(Node 42 $"id" (ImplicitCastExpr CK_BitCast (Node 43 $"NSNumber *" (OtherExpr [(Node 44 $"int" (IntegerLiteral (1)%Z))]))))])))))]))]))))))];
     ts_locs := [(3,1,3,23); (4,1,5,2); (6,1,8,2); (7,1,7,39); (7,30,7,34); (9,1,11,2); (10,1,10,66); (10,25,10,37); (10,52,10,63); (12,1,20,2); (13,1,13,17); (14,1,14,53); (14,29,14,32); (14,47,14,50); (15,1,15,97); (15,30,15,42); (15,59,15,71); (15,83,15,94); (16,1,16,56); (16,37,16,40); (17,1,17,71); (17,30,17,40); (17,57,17,67); (18,1,18,28); (18,21,18,24); (19,1,19,38); (19,32,19,35); (21,1,24,2); (22,1,22,47); (22,20,22,23); (22,40,22,43); (23,1,23,52); (23,20,23,23); (23,46,23,49); (25,1,25,58); (25,8,25,22); (25,25,25,58); (25,27,25,56); (25,27,25,55); (25,37,25,55); (25,38,25,38); (25,38,25,38); (25,53,25,54); (25,53,25,54); (25,54,25,54)]%Z;
     ts_evals := []; ts_same := []; ts_decls := []; ts_parents := [] |}.
Example ObjCObjectSubscripting_DictionaryObjectForKey_holds : nth_violation (shippedRule sh_ObjCObjectSubscripting) ObjCObjectSubscripting_DictionaryObjectForKey 0 = Some (25, 37, 25, 55, $"")%Z.
Proof. vm_compute. reflexivity. Qed.

Definition ObjCObjectSubscripting_DictionaryObjectForKeyedSubscript : testcase :=
  {| ts_lang := LObjC; ts_path := $"input.m"; ts_code := [];
     ts_comments := []; ts_conf := [];
     ts_tops := [(toplevel 0 (TOther), (Node 0 [] (OtherDecl []))); (toplevel 1 (TOther), (Node 1 [] (ObjCContainerDecl {| oc_kind := OKInterface; oc_name := $"NSObject"; oc_lines := (2)%Z; oc_ivars := 0; oc_methods := []; oc_classes := [$"NSObject"]; oc_superMethods := None |} []))); (toplevel 2 (TOther), (Node 2 [] (ObjCContainerDecl {| oc_kind := OKInterface; oc_name := $"NSNumber"; oc_lines := (3)%Z; oc_ivars := 0; oc_methods := [($"numberWithInt:", false)]; oc_classes := [$"NSNumber"; $"NSObject"]; oc_superMethods := (Some ($"NSObject", [])) |} [(Node 3 [] (ObjCMethodDecl {| om_selector := $"numberWithInt:"; om_class := (Some $"NSNumber"); om_overriding := false; om_overridden := []; om_bodyLines := (0)%Z |} [(Node 4 [] (VarDecl {| v_isParm := true; v_name := $"value"; v_used := false; v_referenced := false; v_local := false; v_staticMember := false; v_private := false; v_unusedAttr := false; v_defaultArg := false; v_canonicalType := $"int"; v_inTemplate := false; v_contexts := [CxObjCMethod true false false false; CxOther] |} None))] None))]))); (toplevel 5 (TOther), (Node 5 [] (ObjCContainerDecl {| oc_kind := OKInterface; oc_name := $"NSArray"; oc_lines := (3)%Z; oc_ivars := 0; oc_methods := [($"arrayWithObjects:count:", false)]; oc_classes := [$"NSArray"; $"NSObject"]; oc_superMethods := (Some ($"NSObject", [])) |} [(Node 6 [] (ObjCMethodDecl {| om_selector := $"arrayWithObjects:count:"; om_class := (Some $"NSArray"); om_overriding := false; om_overridden := []; om_bodyLines := (0)%Z |} [(Node 7 [] (VarDecl {| v_isParm := true; v_name := $"objects"; v_used := false; v_referenced := false; v_local := false; v_staticMember := false; v_private := false; v_unusedAttr := false; v_defaultArg := false; v_canonicalType := $"const id *"; v_inTemplate := false; v_contexts := [CxObjCMethod true false false false; CxOther] |} None)); (Node 8 [] (VarDecl {| v_isParm := true; v_name := $"cnt"; v_used := false; v_referenced := false; v_local := false; v_staticMember := false; v_private := false; v_unusedAttr := false; v_defaultArg := false; v_canonicalType := $"unsigned long"; v_inTemplate := false; v_contexts := [CxObjCMethod true false false false; CxOther] |} None))] None))]))); (toplevel 9 (TOther), (Node 9 [] (ObjCContainerDecl {| oc_kind := OKInterface; oc_name := $"NSDictionary"; oc_lines := (9)%Z; oc_ivars := 0; oc_methods := [($"dictionary", false); ($"dictionaryWithObject:forKey:", false); ($"dictionaryWithObjects:forKeys:count:", false); ($"dictionaryWithObjectsAndKeys:", false); ($"dictionaryWithObjects:forKeys:", false); ($"objectForKey:", true); ($"objectForKeyedSubscript:", true)]; oc_classes := [$"NSDictionary"; $"NSObject"]; oc_superMethods := (Some ($"NSObject", [])) |} [(Node 10 [] (ObjCMethodDecl {| om_selector := $"dictionary"; om_class := (Some $"NSDictionary"); om_overriding := false; om_overridden := []; om_bodyLines := (0)%Z |} [] None)); (Node 11 [] (ObjCMethodDecl {| om_selector := $"dictionaryWithObject:forKey:"; om_class := (Some $"NSDictionary"); om_overriding := false; om_overridden := []; om_bodyLines := (0)%Z |} [(Node 12 [] (VarDecl {| v_isParm := true; v_name := $"object"; v_used := false; v_referenced := false; v_local := false; v_staticMember := false; v_private := false; v_unusedAttr := false; v_defaultArg := false; v_canonicalType := $"struct objc_object *"; v_inTemplate := false; v_contexts := [CxObjCMethod true false false false; CxOther] |} None)); (Node 13 [] (VarDecl {| v_isParm := true; v_name := $"key"; v_used := false; v_referenced := false; v_local := false; v_staticMember := false; v_private := false; v_unusedAttr := false; v_defaultArg := false; v_canonicalType := $"struct objc_object *"; v_inTemplate := false; v_contexts := [CxObjCMethod true false false false; CxOther] |} None))] None)); (Node 14 [] (ObjCMethodDecl {| om_selector := $"dictionaryWithObjects:forKeys:count:"; om_class := (Some $"NSDictionary"); om_overriding := false; om_overridden := []; om_bodyLines := (0)%Z |} [(Node 15 [] (VarDecl {| v_isParm := true; v_name := $"objects"; v_used := false; v_referenced := false; v_local := false; v_staticMember := false; v_private := false; v_unusedAttr := false; v_defaultArg := false; v_canonicalType := $"const id *"; v_inTemplate := false; v_contexts := [CxObjCMethod true false false false; CxOther] |} None)); (Node 16 [] (VarDecl {| v_isParm := true; v_name := $"keys"; v_used := false; v_referenced := false; v_local := false; v_staticMember := false; v_private := false; v_unusedAttr := false; v_defaultArg := false; v_canonicalType := $"const id *"; v_inTemplate := false; v_contexts := [CxObjCMethod true false false false; CxOther] |} None)); (Node 17 [] (VarDecl {| v_isParm := true; v_name := $"cnt"; v_used := false; v_referenced := false; v_local := false; v_staticMember := false; v_private := false; v_unusedAttr := false; v_defaultArg := false; v_canonicalType := $"unsigned long"; v_inTemplate := false; v_contexts := [CxObjCMethod true false false false; CxOther] |} None))] None)); (Node 18 [] (ObjCMethodDecl {| om_selector := $"dictionaryWithObjectsAndKeys:"; om_class := (Some $"NSDictionary"); om_overriding := false; om_overridden := []; om_bodyLines := (0)%Z |} [(Node 19 [] (VarDecl {| v_isParm := true; v_name := $"firstObject"; v_used := false; v_referenced := false; v_local := false; v_staticMember := false; v_private := false; v_unusedAttr := false; v_defaultArg := false; v_canonicalType := $"struct objc_object *"; v_inTemplate := false; v_contexts := [CxObjCMethod true false false false; CxOther] |} None))] None)); (Node 20 [] (ObjCMethodDecl {| om_selector := $"dictionaryWithObjects:forKeys:"; om_class := (Some $"NSDictionary"); om_overriding := false; om_overridden := []; om_bodyLines := (0)%Z |} [(Node 21 [] (VarDecl {| v_isParm := true; v_name := $"objects"; v_used := false; v_referenced := false; v_local := false; v_staticMember := false; v_private := false; v_unusedAttr := false; v_defaultArg := false; v_canonicalType := $"NSArray *"; v_inTemplate := false; v_contexts := [CxObjCMethod true false false false; CxOther] |} None)); (Node 22 [] (VarDecl {| v_isParm := true; v_name := $"keys"; v_used := false; v_referenced := false; v_local := false; v_staticMember := false; v_private := false; v_unusedAttr := false; v_defaultArg := false; v_canonicalType := $"NSArray *"; v_inTemplate := false; v_contexts := [CxObjCMethod true false false false; CxOther] |} None))] None)); (Node 23 [] (ObjCMethodDecl {| om_selector := $"objectForKey:"; om_class := (Some $"NSDictionary"); om_overriding := false; om_overridden := []; om_bodyLines := (0)%Z |} [(Node 24 [] (VarDecl {| v_isParm := true; v_name := $"aKey"; v_used := false; v_referenced := false; v_local := false; v_staticMember := false; v_private := false; v_unusedAttr := false; v_defaultArg := false; v_canonicalType := $"struct objc_object *"; v_inTemplate := false; v_contexts := [CxObjCMethod true false false false; CxOther] |} None))] None)); (Node 25 [] (ObjCMethodDecl {| om_selector := $"objectForKeyedSubscript:"; om_class := (Some $"NSDictionary"); om_overriding := false; om_overridden := []; om_bodyLines := (0)%Z |} [(Node 26 [] (VarDecl {| v_isParm := true; v_name := $"key"; v_used := false; v_referenced := false; v_local := false; v_staticMember := false; v_private := false; v_unusedAttr := false; v_defaultArg := false; v_canonicalType := $"struct objc_object *"; v_inTemplate := false; v_contexts := [CxObjCMethod true false false false; CxOther] |} None))] None))]))); (toplevel 27 (TOther), (Node 27 [] (ObjCContainerDecl {| oc_kind := OKInterface; oc_name := $"NSMutableDictionary"; oc_lines := (4)%Z; oc_ivars := 0; oc_methods := [($"setObject:forKey:", true); ($"setObject:forKeyedSubscript:", true)]; oc_classes := [$"NSMutableDictionary"; $"NSDictionary"; $"NSObject"]; oc_superMethods := (Some ($"NSDictionary", [($"dictionary", false, (Decl [] (Some (Method false None (InOther (Some NoCategory)))))); ($"dictionaryWithObject:forKey:", false, (Decl [] (Some (Method false None (InOther (Some NoCategory)))))); ($"dictionaryWithObjects:forKeys:count:", false, (Decl [] (Some (Method false None (InOther (Some NoCategory)))))); ($"dictionaryWithObjectsAndKeys:", false, (Decl [] (Some (Method false None (InOther (Some NoCategory)))))); ($"dictionaryWithObjects:forKeys:", false, (Decl [] (Some (Method false None (InOther (Some NoCategory)))))); ($"objectForKey:", true, (Decl [] (Some (Method false None (InOther (Some NoCategory)))))); ($"objectForKeyedSubscript:", true, (Decl [] (Some (Method false None (InOther (Some NoCategory))))))])) |} [(Node 28 [] (ObjCMethodDecl {| om_selector := $"setObject:forKey:"; om_class := (Some $"NSMutableDictionary"); om_overriding := false; om_overridden := []; om_bodyLines := (0)%Z |} [(Node 29 [] (VarDecl {| v_isParm := true; v_name := $"anObject"; v_used := false; v_referenced := false; v_local := false; v_staticMember := false; v_private := false; v_unusedAttr := false; v_defaultArg := false; v_canonicalType := $"struct objc_object *"; v_inTemplate := false; v_contexts := [CxObjCMethod true false false false; CxOther] |} None)); (Node 30 [] (VarDecl {| v_isParm := true; v_name := $"aKey"; v_used := false; v_referenced := false; v_local := false; v_staticMember := false; v_private := false; v_unusedAttr := false; v_defaultArg := false; v_canonicalType := $"struct objc_object *"; v_inTemplate := false; v_contexts := [CxObjCMethod true false false false; CxOther] |} None))] None)); (Node 31 [] (ObjCMethodDecl {| om_selector := $"setObject:forKeyedSubscript:"; om_class := (Some $"NSMutableDictionary"); om_overriding := false; om_overridden := []; om_bodyLines := (0)%Z |} [(Node 32 [] (VarDecl {| v_isParm := true; v_name := $"obj"; v_used := false; v_referenced := false; v_local := false; v_staticMember := false; v_private := false; v_unusedAttr := false; v_defaultArg := false; v_canonicalType := $"struct objc_object *"; v_inTemplate := false; v_contexts := [CxObjCMethod true false false false; CxOther] |} None)); (Node 33 [] (VarDecl {| v_isParm := true; v_name := $"key"; v_used := false; v_referenced := false; v_local := false; v_staticMember := false; v_private := false; v_unusedAttr := false; v_defaultArg := false; v_canonicalType := $"struct objc_object *"; v_inTemplate := false; v_contexts := [CxObjCMethod true false false false; CxOther] |} None))] None))]))); (toplevel 34 (TFunction false), (Node 34 [] (FunctionDecl {| f_name := $"m"; f_method := None; f_isDefinition := true; f_bodyLines := (1)%Z |} [(Node 35 [] (VarDecl {| v_isParm := true; v_name := $"d"; v_used := true; v_referenced := true; v_local := false; v_staticMember := false; v_private := false; v_unusedAttr := false; v_defaultArg := false; v_canonicalType := $"NSDictionary *"; v_inTemplate := false; v_contexts := [CxFunction true true false] |} None))] (Some (Node 36 [] (CompoundStmt [(Node 37 [] (DeclStmt [(Node 38 [] (VarDecl {| v_isParm := false; v_name := $"item"; v_used := false; v_referenced := false; v_local := true; v_staticMember := false; v_private := false; v_unusedAttr := false; v_defaultArg := false; v_canonicalType := $"struct objc_object *"; v_inTemplate := false; v_contexts := [CxFunction true true false] |} (Some (Node 39 $"id" (ObjCMessageExpr {| ms_selector := $"objectForKeyedSubscript:"; ms_receiver := RInstance; ms_implicit := false; ms_interface := (Some $"NSDictionary"); ms_method := (Some (Decl [] (Some (Method false None (InOther (Some NoCategory)))))); ms_methodClass := (Some $"NSDictionary") |} (Some (Node 40 $"NSDictionary *" (ImplicitCastExpr CK_LValueToRValue (Node 41 $"NSDictionary *" (DeclRefExpr 35 $"d" false))))) [(Node 42 $"id" (ImplicitCastExpr CK_BitCast (Node 43 $"NSNumber *" (OtherExpr [(Node 44 $"int" (IntegerLiteral (1)%Z))]))))])))))]))]))))))];
     ts_locs := [(3,1,3,23); (4,1,5,2); (6,1,8,2); (7,1,7,39); (7,30,7,34); (9,1,11,2); (10,1,10,66); (10,25,10,37); (10,52,10,63); (12,1,20,2); (13,1,13,17); (14,1,14,53); (14,29,14,32); (14,47,14,50); (15,1,15,97); (15,30,15,42); (15,59,15,71); (15,83,15,94); (16,1,16,56); (16,37,16,40); (17,1,17,71); (17,30,17,40); (17,57,17,67); (18,1,18,28); (18,21,18,24); (19,1,19,38); (19,32,19,35); (21,1,24,2); (22,1,22,47); (22,20,22,23); (22,40,22,43); (23,1,23,52); (23,20,23,23); (23,46,23,49); (25,1,25,69); (25,8,25,22); (25,25,25,69); (25,27,25,67); (25,27,25,66); (25,37,25,66); (25,38,25,38); (25,38,25,38); (25,64,25,65); (25,64,25,65); (25,65,25,65)]%Z;
     ts_evals := []; ts_same := []; ts_decls := []; ts_parents := [] |}.
Example ObjCObjectSubscripting_DictionaryObjectForKeyedSubscript_holds : nth_violation (shippedRule sh_ObjCObjectSubscripting) ObjCObjectSubscripting_DictionaryObjectForKeyedSubscript 0 = Some (25, 37, 25, 66, $"")%Z.
Proof. vm_compute. reflexivity. Qed.

Definition ObjCObjectSubscripting_DictionarySetObjectForKey : testcase :=
  {| ts_lang := LObjC; ts_path := $"input.m"; ts_code := [];
     ts_comments := []; ts_conf := [];
     ts_tops := [(toplevel 0 (TOther), (Node 0 [] (OtherDecl []))); (toplevel 1 (TOther), (Node 1 [] (ObjCContainerDecl {| oc_kind := OKInterface; oc_name := $"NSObject"; oc_lines := (2)%Z; oc_ivars := 0; oc_methods := []; oc_classes := [$"NSObject"]; oc_superMethods := None |} []))); (toplevel 2 (TOther), (Node 2 [] (ObjCContainerDecl {| oc_kind := OKInterface; oc_name := $"NSNumber"; oc_lines := (3)%Z; oc_ivars := 0; oc_methods := [($"numberWithInt:", false)]; oc_classes := [$"NSNumber"; $"NSObject"]; oc_superMethods := (Some ($"NSObject", [])) |} [(Node 3 [] (ObjCMethodDecl {| om_selector := $"numberWithInt:"; om_class := (Some $"NSNumber"); om_overriding := false; om_overridden := []; om_bodyLines := (0)%Z |} [(Node 4 [] (VarDecl {| v_isParm := true; v_name := $"value"; v_used := false; v_referenced := false; v_local := false; v_staticMember := false; v_private := false; v_unusedAttr := false; v_defaultArg := false; v_canonicalType := $"int"; v_inTemplate := false; v_contexts := [CxObjCMethod true false false false; CxOther] |} None))] None))]))); (toplevel 5 (TOther), (Node 5 [] (ObjCContainerDecl {| oc_kind := OKInterface; oc_name := $"NSArray"; oc_lines := (3)%Z; oc_ivars := 0; oc_methods := [($"arrayWithObjects:count:", false)]; oc_classes := [$"NSArray"; $"NSObject"]; oc_superMethods := (Some ($"NSObject", [])) |} [(Node 6 [] (ObjCMethodDecl {| om_selector := $"arrayWithObjects:count:"; om_class := (Some $"NSArray"); om_overriding := false; om_overridden := []; om_bodyLines := (0)%Z |} [(Node 7 [] (VarDecl {| v_isParm := true; v_name := $"objects"; v_used := false; v_referenced := false; v_local := false; v_staticMember := false; v_private := false; v_unusedAttr := false; v_defaultArg := false; v_canonicalType := $"const id *"; v_inTemplate := false; v_contexts := [CxObjCMethod true false false false; CxOther] |} None)); (Node 8 [] (VarDecl {| v_isParm := true; v_name := $"cnt"; v_used := false; v_referenced := false; v_local := false; v_staticMember := false; v_private := false; v_unusedAttr := false; v_defaultArg := false; v_canonicalType := $"unsigned long"; v_inTemplate := false; v_contexts := [CxObjCMethod true false false false; CxOther] |} None))] None))]))); (toplevel 9 (TOther), (Node 9 [] (ObjCContainerDecl {| oc_kind := OKInterface; oc_name := $"NSDictionary"; oc_lines := (9)%Z; oc_ivars := 0; oc_methods := [($"dictionary", false); ($"dictionaryWithObject:forKey:", false); ($"dictionaryWithObjects:forKeys:count:", false); ($"dictionaryWithObjectsAndKeys:", false); ($"dictionaryWithObjects:forKeys:", false); ($"objectForKey:", true); ($"objectForKeyedSubscript:", true)]; oc_classes := [$"NSDictionary"; $"NSObject"]; oc_superMethods := (Some ($"NSObject", [])) |} [(Node 10 [] (ObjCMethodDecl {| om_selector := $"dictionary"; om_class := (Some $"NSDictionary"); om_overriding := false; om_overridden := []; om_bodyLines := (0)%Z |} [] None)); (Node 11 [] (ObjCMethodDecl {| om_selector := $"dictionaryWithObject:forKey:"; om_class := (Some $"NSDictionary"); om_overriding := false; om_overridden := []; om_bodyLines := (0)%Z |} [(Node 12 [] (VarDecl {| v_isParm := true; v_name := $"object"; v_used := false; v_referenced := false; v_local := false; v_staticMember := false; v_private := false; v_unusedAttr := false; v_defaultArg := false; v_canonicalType := $"struct objc_object *"; v_inTemplate := false; v_contexts := [CxObjCMethod true false false false; CxOther] |} None)); (Node 13 [] (VarDecl {| v_isParm := true; v_name := $"key"; v_used := false; v_referenced := false; v_local := false; v_staticMember := false; v_private := false; v_unusedAttr := false; v_defaultArg := false; v_canonicalType := $"struct objc_object *"; v_inTemplate := false; v_contexts := [CxObjCMethod true false false false; CxOther] |} None))] None)); (Node 14 [] (ObjCMethodDecl {| om_selector := $"dictionaryWithObjects:forKeys:count:"; om_class := (Some $"NSDictionary"); om_overriding := false; om_overridden := []; om_bodyLines := (0)%Z |} [(Node 15 [] (VarDecl {| v_isParm := true; v_name := $"objects"; v_used := false; v_referenced := false; v_local := false; v_staticMember := false; v_private := false; v_unusedAttr := false; v_defaultArg := false; v_canonicalType := $"const id *"; v_inTemplate := false; v_contexts := [CxObjCMethod true false false false; CxOther] |} None)); (Node 16 [] (VarDecl {| v_isParm := true; v_name := $"keys"; v_used := false; v_referenced := false; v_local := false; v_staticMember := false; v_private := false; v_unusedAttr := false; v_defaultArg := false; v_canonicalType := $"const id *"; v_inTemplate := false; v_contexts := [CxObjCMethod true false false false; CxOther] |} None)); (Node 17 [] (VarDecl {| v_isParm := true; v_name := $"cnt"; v_used := false; v_referenced := false; v_local := false; v_staticMember := false; v_private := false; v_unusedAttr := false; v_defaultArg := false; v_canonicalType := $"unsigned long"; v_inTemplate := false; v_contexts := [CxObjCMethod true false false false; CxOther] |} None))] None)); (Node 18 [] (ObjCMethodDecl {| om_selector := $"dictionaryWithObjectsAndKeys:"; om_class := (Some $"NSDictionary"); om_overriding := false; om_overridden := []; om_bodyLines := (0)%Z |} [(Node 19 [] (VarDecl {| v_isParm := true; v_name := $"firstObject"; v_used := false; v_referenced := false; v_local := false; v_staticMember := false; v_private := false; v_unusedAttr := false; v_defaultArg := false; v_canonicalType := $"struct objc_object *"; v_inTemplate := false; v_contexts := [CxObjCMethod true false false false; CxOther] |} None))] None)); (Node 20 [] (ObjCMethodDecl {| om_selector := $"dictionaryWithObjects:forKeys:"; om_class := (Some $"NSDictionary"); om_overriding := false; om_overridden := []; om_bodyLines := (0)%Z |} [(Node 21 [] (VarDecl {| v_isParm := true; v_name := $"objects"; v_used := false; v_referenced := false; v_local := false; v_staticMember := false; v_private := false; v_unusedAttr := false; v_defaultArg := false; v_canonicalType := $"NSArray *"; v_inTemplate := false; v_contexts := [CxObjCMethod true false false false; CxOther] |} None)); (Node 22 [] (VarDecl {| v_isParm := true; v_name := $"keys"; v_used := false; v_referenced := false; v_local := false; v_staticMember := false; v_private := false; v_unusedAttr := false; v_defaultArg := false; v_canonicalType := $"NSArray *"; v_inTemplate := false; v_contexts := [CxObjCMethod true false false false; CxOther] |} None))] None)); (Node 23 [] (ObjCMethodDecl {| om_selector := $"objectForKey:"; om_class := (Some $"NSDictionary"); om_overriding := false; om_overridden := []; om_bodyLines := (0)%Z |} [(Node 24 [] (VarDecl {| v_isParm := true; v_name := $"aKey"; v_used := false; v_referenced := false; v_local := false; v_staticMember := false; v_private := false; v_unusedAttr := false; v_defaultArg := false; v_canonicalType := $"struct objc_object *"; v_inTemplate := false; v_contexts := [CxObjCMethod true false false false; CxOther] |} None))] None)); (Node 25 [] (ObjCMethodDecl {| om_selector := $"objectForKeyedSubscript:"; om_class := (Some $"NSDictionary"); om_overriding := false; om_overridden := []; om_bodyLines := (0)%Z |} [(Node 26 [] (VarDecl {| v_isParm := true; v_name := $"key"; v_used := false; v_referenced := false; v_local := false; v_staticMember := false; v_private := false; v_unusedAttr := false; v_defaultArg := false; v_canonicalType := $"struct objc_object *"; v_inTemplate := false; v_contexts := [CxObjCMethod true false false false; CxOther] |} None))] None))]))); (toplevel 27 (TOther), (Node 27 [] (ObjCContainerDecl {| oc_kind := OKInterface; oc_name := $"NSMutableDictionary"; oc_lines := (4)%Z; oc_ivars := 0; oc_methods := [($"setObject:forKey:", true); ($"setObject:forKeyedSubscript:", true)]; oc_classes := [$"NSMutableDictionary"; $"NSDictionary"; $"NSObject"]; oc_superMethods := (Some ($"NSDictionary", [($"dictionary", false, (Decl [] (Some (Method false None (InOther (Some NoCategory)))))); ($"dictionaryWithObject:forKey:", false, (Decl [] (Some (Method false None (InOther (Some NoCategory)))))); ($"dictionaryWithObjects:forKeys:count:", false, (Decl [] (Some (Method false None (InOther (Some NoCategory)))))); ($"dictionaryWithObjectsAndKeys:", false, (Decl [] (Some (Method false None (InOther (Some NoCategory)))))); ($"dictionaryWithObjects:forKeys:", false, (Decl [] (Some (Method false None (InOther (Some NoCategory)))))); ($"objectForKey:", true, (Decl [] (Some (Method false None (InOther (Some NoCategory)))))); ($"objectForKeyedSubscript:", true, (Decl [] (Some (Method false None (InOther (Some NoCategory))))))])) |} [(Node 28 [] (ObjCMethodDecl {| om_selector := $"setObject:forKey:"; om_class := (Some $"NSMutableDictionary"); om_overriding := false; om_overridden := []; om_bodyLines := (0)%Z |} [(Node 29 [] (VarDecl {| v_isParm := true; v_name := $"anObject"; v_used := false; v_referenced := false; v_local := false; v_staticMember := false; v_private := false; v_unusedAttr := false; v_defaultArg := false; v_canonicalType := $"struct objc_object *"; v_inTemplate := false; v_contexts := [CxObjCMethod true false false false; CxOther] |} None)); (Node 30 [] (VarDecl {| v_isParm := true; v_name := $"aKey"; v_used := false; v_referenced := false; v_local := false; v_staticMember := false; v_private := false; v_unusedAttr := false; v_defaultArg := false; v_canonicalType := $"struct objc_object *"; v_inTemplate := false; v_contexts := [CxObjCMethod true false false false; CxOther] |} None))] None)); (Node 31 [] (ObjCMethodDecl {| om_selector := $"setObject:forKeyedSubscript:"; om_class := (Some $"NSMutableDictionary"); om_overriding := false; om_overridden := []; om_bodyLines := (0)%Z |} [(Node 32 [] (VarDecl {| v_isParm := true; v_name := $"obj"; v_used := false; v_referenced := false; v_local := false; v_staticMember := false; v_private := false; v_unusedAttr := false; v_defaultArg := false; v_canonicalType := $"struct objc_object *"; v_inTemplate := false; v_contexts := [CxObjCMethod true false false false; CxOther] |} None)); (Node 33 [] (VarDecl {| v_isParm := true; v_name := $"key"; v_used := false; v_referenced := false; v_local := false; v_staticMember := false; v_private := false; v_unusedAttr := false; v_defaultArg := false; v_canonicalType := $"struct objc_object *"; v_inTemplate := false; v_contexts := [CxObjCMethod true false false false; CxOther] |} None))] None))]))); (toplevel 34 (TFunction false), (Node 34 [] (FunctionDecl {| f_name := $"m"; f_method := None; f_isDefinition := true; f_bodyLines := (1)%Z |} [(Node 35 [] (VarDecl {| v_isParm := true; v_name := $"d"; v_used := true; v_referenced := true; v_local := false; v_staticMember := false; v_private := false; v_unusedAttr := false; v_defaultArg := false; v_canonicalType := $"NSMutableDictionary *"; v_inTemplate := false; v_contexts := [CxFunction true true false] |} None)); (Node 36 [] (VarDecl {| v_isParm := true; v_name := $"item"; v_used := true; v_referenced := true; v_local := false; v_staticMember := false; v_private := false; v_unusedAttr := false; v_defaultArg := false; v_canonicalType := $"struct objc_object *"; v_inTemplate := false; v_contexts := [CxFunction true true false] |} None))] (Some (Node 37 [] (CompoundStmt [(Node 38 $"void" (ObjCMessageExpr {| ms_selector := $"setObject:forKey:"; ms_receiver := RInstance; ms_implicit := false; ms_interface := (Some $"NSMutableDictionary"); ms_method := (Some (Decl [] (Some (Method false None (InOther (Some NoCategory)))))); ms_methodClass := (Some $"NSMutableDictionary") |} (Some (Node 39 $"NSMutableDictionary *" (ImplicitCastExpr CK_LValueToRValue (Node 40 $"NSMutableDictionary *" (DeclRefExpr 35 $"d" false))))) [(Node 41 $"id" (ImplicitCastExpr CK_LValueToRValue (Node 42 $"id" (DeclRefExpr 36 $"item" false)))); (Node 43 $"id" (ImplicitCastExpr CK_BitCast (Node 44 $"NSNumber *" (OtherExpr [(Node 45 $"int" (IntegerLiteral (1)%Z))]))))]))]))))))];
     ts_locs := [(3,1,3,23); (4,1,5,2); (6,1,8,2); (7,1,7,39); (7,30,7,34); (9,1,11,2); (10,1,10,66); (10,25,10,37); (10,52,10,63); (12,1,20,2); (13,1,13,17); (14,1,14,53); (14,29,14,32); (14,47,14,50); (15,1,15,97); (15,30,15,42); (15,59,15,71); (15,83,15,94); (16,1,16,56); (16,37,16,40); (17,1,17,71); (17,30,17,40); (17,57,17,67); (18,1,18,28); (18,21,18,24); (19,1,19,38); (19,32,19,35); (21,1,24,2); (22,1,22,47); (22,20,22,23); (22,40,22,43); (23,1,23,52); (23,20,23,23); (23,46,23,49); (25,1,25,73); (25,8,25,29); (25,32,25,35); (25,41,25,73); (25,43,25,70); (25,44,25,44); (25,44,25,44); (25,56,25,56); (25,56,25,56); (25,68,25,69); (25,68,25,69); (25,69,25,69)]%Z;
     ts_evals := []; ts_same := []; ts_decls := []; ts_parents := [] |}.
Example ObjCObjectSubscripting_DictionarySetObjectForKey_holds : nth_violation (shippedRule sh_ObjCObjectSubscripting) ObjCObjectSubscripting_DictionarySetObjectForKey 0 = Some (25, 43, 25, 70, $"")%Z.
Proof. vm_compute. reflexivity. Qed.

Definition ObjCObjectSubscripting_DictionarySetObjectForKeyedSubscript : testcase :=
  {| ts_lang := LObjC; ts_path := $"input.m"; ts_code := [];
     ts_comments := []; ts_conf := [];
     ts_tops := [(toplevel 0 (TOther), (Node 0 [] (OtherDecl []))); (toplevel 1 (TOther), (Node 1 [] (ObjCContainerDecl {| oc_kind := OKInterface; oc_name := $"NSObject"; oc_lines := (2)%Z; oc_ivars := 0; oc_methods := []; oc_classes := [$"NSObject"]; oc_superMethods := None |} []))); (toplevel 2 (TOther), (Node 2 [] (ObjCContainerDecl {| oc_kind := OKInterface; oc_name := $"NSNumber"; oc_lines := (3)%Z; oc_ivars := 0; oc_methods := [($"numberWithInt:", false)]; oc_classes := [$"NSNumber"; $"NSObject"]; oc_superMethods := (Some ($"NSObject", [])) |} [(Node 3 [] (ObjCMethodDecl {| om_selector := $"numberWithInt:"; om_class := (Some $"NSNumber"); om_overriding := false; om_overridden := []; om_bodyLines := (0)%Z |} [(Node 4 [] (VarDecl {| v_isParm := true; v_name := $"value"; v_used := false; v_referenced := false; v_local := false; v_staticMember := false; v_private := false; v_unusedAttr := false; v_defaultArg := false; v_canonicalType := $"int"; v_inTemplate := false; v_contexts := [CxObjCMethod true false false false; CxOther] |} None))] None))]))); (toplevel 5 (TOther), (Node 5 [] (ObjCContainerDecl {| oc_kind := OKInterface; oc_name := $"NSArray"; oc_lines := (3)%Z; oc_ivars := 0; oc_methods := [($"arrayWithObjects:count:", false)]; oc_classes := [$"NSArray"; $"NSObject"]; oc_superMethods := (Some ($"NSObject", [])) |} [(Node 6 [] (ObjCMethodDecl {| om_selector := $"arrayWithObjects:count:"; om_class := (Some $"NSArray"); om_overriding := false; om_overridden := []; om_bodyLines := (0)%Z |} [(Node 7 [] (VarDecl {| v_isParm := true; v_name := $"objects"; v_used := false; v_referenced := false; v_local := false; v_staticMember := false; v_private := false; v_unusedAttr := false; v_defaultArg := false; v_canonicalType := $"const id *"; v_inTemplate := false; v_contexts := [CxObjCMethod true false false false; CxOther] |} None)); (Node 8 [] (VarDecl {| v_isParm := true; v_name := $"cnt"; v_used := false; v_referenced := false; v_local := false; v_staticMember := false; v_private := false; v_unusedAttr := false; v_defaultArg := false; v_canonicalType := $"unsigned long"; v_inTemplate := false; v_contexts := [CxObjCMethod true false false false; CxOther] |} None))] None))]))); (toplevel 9 (TOther), (Node 9 [] (ObjCContainerDecl {| oc_kind := OKInterface; oc_name := $"NSDictionary"; oc_lines := (9)%Z; oc_ivars := 0; oc_methods := [($"dictionary", false); ($"dictionaryWithObject:forKey:", false); ($"dictionaryWithObjects:forKeys:count:", false); ($"dictionaryWithObjectsAndKeys:", false); ($"dictionaryWithObjects:forKeys:", false); ($"objectForKey:", true); ($"objectForKeyedSubscript:", true)]; oc_classes := [$"NSDictionary"; $"NSObject"]; oc_superMethods := (Some ($"NSObject", [])) |} [(Node 10 [] (ObjCMethodDecl {| om_selector := $"dictionary"; om_class := (Some $"NSDictionary"); om_overriding := false; om_overridden := []; om_bodyLines := (0)%Z |} [] None)); (Node 11 [] (ObjCMethodDecl {| om_selector := $"dictionaryWithObject:forKey:"; om_class := (Some $"NSDictionary"); om_overriding := false; om_overridden := []; om_bodyLines := (0)%Z |} [(Node 12 [] (VarDecl {| v_isParm := true; v_name := $"object"; v_used := false; v_referenced := false; v_local := false; v_staticMember := false; v_private := false; v_unusedAttr := false; v_defaultArg := false; v_canonicalType := $"struct objc_object *"; v_inTemplate := false; v_contexts := [CxObjCMethod true false false false; CxOther] |} None)); (Node 13 [] (VarDecl {| v_isParm := true; v_name := $"key"; v_used := false; v_referenced := false; v_local := false; v_staticMember := false; v_private := false; v_unusedAttr := false; v_defaultArg := false; v_canonicalType := $"struct objc_object *"; v_inTemplate := false; v_contexts := [CxObjCMethod true false false false; CxOther] |} None))] None)); (Node 14 [] (ObjCMethodDecl {| om_selector := $"dictionaryWithObjects:forKeys:count:"; om_class := (Some $"NSDictionary"); om_overriding := false; om_overridden := []; om_bodyLines := (0)%Z |} [(Node 15 [] (VarDecl {| v_isParm := true; v_name := $"objects"; v_used := false; v_referenced := false; v_local := false; v_staticMember := false; v_private := false; v_unusedAttr := false; v_defaultArg := false; v_canonicalType := $"const id *"; v_inTemplate := false; v_contexts := [CxObjCMethod true false false false; CxOther] |} None)); (Node 16 [] (VarDecl {| v_isParm := true; v_name := $"keys"; v_used := false; v_referenced := false; v_local := false; v_staticMember := false; v_private := false; v_unusedAttr := false; v_defaultArg := false; v_canonicalType := $"const id *"; v_inTemplate := false; v_contexts := [CxObjCMethod true false false false; CxOther] |} None)); (Node 17 [] (VarDecl {| v_isParm := true; v_name := $"cnt"; v_used := false; v_referenced := false; v_local := false; v_staticMember := false; v_private := false; v_unusedAttr := false; v_defaultArg := false; v_canonicalType := $"unsigned long"; v_inTemplate := false; v_contexts := [CxObjCMethod true false false false; CxOther] |} None))] None)); (Node 18 [] (ObjCMethodDecl {| om_selector := $"dictionaryWithObjectsAndKeys:"; om_class := (Some $"NSDictionary"); om_overriding := false; om_overridden := []; om_bodyLines := (0)%Z |} [(Node 19 [] (VarDecl {| v_isParm := true; v_name := $"firstObject"; v_used := false; v_referenced := false; v_local := false; v_staticMember := false; v_private := false; v_unusedAttr := false; v_defaultArg := false; v_canonicalType := $"struct objc_object *"; v_inTemplate := false; v_contexts := [CxObjCMethod true false false false; CxOther] |} None))] None)); (Node 20 [] (ObjCMethodDecl {| om_selector := $"dictionaryWithObjects:forKeys:"; om_class := (Some $"NSDictionary"); om_overriding := false; om_overridden := []; om_bodyLines := (0)%Z |} [(Node 21 [] (VarDecl {| v_isParm := true; v_name := $"objects"; v_used := false; v_referenced := false; v_local := false; v_staticMember := false; v_private := false; v_unusedAttr := false; v_defaultArg := false; v_canonicalType := $"NSArray *"; v_inTemplate := false; v_contexts := [CxObjCMethod true false false false; CxOther] |} None)); (Node 22 [] (VarDecl {| v_isParm := true; v_name := $"keys"; v_used := false; v_referenced := false; v_local := false; v_staticMember := false; v_private := false; v_unusedAttr := false; v_defaultArg := false; v_canonicalType := $"NSArray *"; v_inTemplate := false; v_contexts := [CxObjCMethod true false false false; CxOther] |} None))] None)); (Node 23 [] (ObjCMethodDecl {| om_selector := $"objectForKey:"; om_class := (Some $"NSDictionary"); om_overriding := false; om_overridden := []; om_bodyLines := (0)%Z |} [(Node 24 [] (VarDecl {| v_isParm := true; v_name := $"aKey"; v_used := false; v_referenced := false; v_local := false; v_staticMember := false; v_private := false; v_unusedAttr := false; v_defaultArg := false; v_canonicalType := $"struct objc_object *"; v_inTemplate := false; v_contexts := [CxObjCMethod true false false false; CxOther] |} None))] None)); (Node 25 [] (ObjCMethodDecl {| om_selector := $"objectForKeyedSubscript:"; om_class := (Some $"NSDictionary"); om_overriding := false; om_overridden := []; om_bodyLines := (0)%Z |} [(Node 26 [] (VarDecl {| v_isParm := true; v_name := $"key"; v_used := false; v_referenced := false; v_local := false; v_staticMember := false; v_private := false; v_unusedAttr := false; v_defaultArg := false; v_canonicalType := $"struct objc_object *"; v_inTemplate := false; v_contexts := [CxObjCMethod true false false false; CxOther] |} None))] None))]))); (toplevel 27 (TOther), (Node 27 [] (ObjCContainerDecl {| oc_kind := OKInterface; oc_name := $"NSMutableDictionary"; oc_lines := (4)%Z; oc_ivars := 0; oc_methods := [($"setObject:forKey:", true); ($"setObject:forKeyedSubscript:", true)]; oc_classes := [$"NSMutableDictionary"; $"NSDictionary"; $"NSObject"]; oc_superMethods := (Some ($"NSDictionary", [($"dictionary", false, (Decl [] (Some (Method false None (InOther (Some NoCategory)))))); ($"dictionaryWithObject:forKey:", false, (Decl [] (Some (Method false None (InOther (Some NoCategory)))))); ($"dictionaryWithObjects:forKeys:count:", false, (Decl [] (Some (Method false None (InOther (Some NoCategory)))))); ($"dictionaryWithObjectsAndKeys:", false, (Decl [] (Some (Method false None (InOther (Some NoCategory)))))); ($"dictionaryWithObjects:forKeys:", false, (Decl [] (Some (Method false None (InOther (Some NoCategory)))))); ($"objectForKey:", true, (Decl [] (Some (Method false None (InOther (Some NoCategory)))))); ($"objectForKeyedSubscript:", true, (Decl [] (Some (Method false None (InOther (Some NoCategory))))))])) |} [(Node 28 [] (ObjCMethodDecl {| om_selector := $"setObject:forKey:"; om_class := (Some $"NSMutableDictionary"); om_overriding := false; om_overridden := []; om_bodyLines := (0)%Z |} [(Node 29 [] (VarDecl {| v_isParm := true; v_name := $"anObject"; v_used := false; v_referenced := false; v_local := false; v_staticMember := false; v_private := false; v_unusedAttr := false; v_defaultArg := false; v_canonicalType := $"struct objc_object *"; v_inTemplate := false; v_contexts := [CxObjCMethod true false false false; CxOther] |} None)); (Node 30 [] (VarDecl {| v_isParm := true; v_name := $"aKey"; v_used := false; v_referenced := false; v_local := false; v_staticMember := false; v_private := false; v_unusedAttr := false; v_defaultArg := false; v_canonicalType := $"struct objc_object *"; v_inTemplate := false; v_contexts := [CxObjCMethod true false false false; CxOther] |} None))] None)); (Node 31 [] (ObjCMethodDecl {| om_selector := $"setObject:forKeyedSubscript:"; om_class := (Some $"NSMutableDictionary"); om_overriding := false; om_overridden := []; om_bodyLines := (0)%Z |} [(Node 32 [] (VarDecl {| v_isParm := true; v_name := $"obj"; v_used := false; v_referenced := false; v_local := false; v_staticMember := false; v_private := false; v_unusedAttr := false; v_defaultArg := false; v_canonicalType := $"struct objc_object *"; v_inTemplate := false; v_contexts := [CxObjCMethod true false false false; CxOther] |} None)); (Node 33 [] (VarDecl {| v_isParm := true; v_name := $"key"; v_used := false; v_referenced := false; v_local := false; v_staticMember := false; v_private := false; v_unusedAttr := false; v_defaultArg := false; v_canonicalType := $"struct objc_object *"; v_inTemplate := false; v_contexts := [CxObjCMethod true false false false; CxOther] |} None))] None))]))); (toplevel 34 (TFunction false), (Node 34 [] (FunctionDecl {| f_name := $"m"; f_method := None; f_isDefinition := true; f_bodyLines := (1)%Z |} [(Node 35 [] (VarDecl {| v_isParm := true; v_name := $"d"; v_used := true; v_referenced := true; v_local := false; v_staticMember := false; v_private := false; v_unusedAttr := false; v_defaultArg := false; v_canonicalType := $"NSMutableDictionary *"; v_inTemplate := false; v_contexts := [CxFunction true true false] |} None)); (Node 36 [] (VarDecl {| v_isParm := true; v_name := $"item"; v_used := true; v_referenced := true; v_local := false; v_staticMember := false; v_private := false; v_unusedAttr := false; v_defaultArg := false; v_canonicalType := $"struct objc_object *"; v_inTemplate := false; v_contexts := [CxFunction true true false] |} None))] (Some (Node 37 [] (CompoundStmt [(Node 38 $"void" (ObjCMessageExpr {| ms_selector := $"setObject:forKeyedSubscript:"; ms_receiver := RInstance; ms_implicit := false; ms_interface := (Some $"NSMutableDictionary"); ms_method := (Some (Decl [] (Some (Method false None (InOther (Some NoCategory)))))); ms_methodClass := (Some $"NSMutableDictionary") |} (Some (Node 39 $"NSMutableDictionary *" (ImplicitCastExpr CK_LValueToRValue (Node 40 $"NSMutableDictionary *" (DeclRefExpr 35 $"d" false))))) [(Node 41 $"id" (ImplicitCastExpr CK_LValueToRValue (Node 42 $"id" (DeclRefExpr 36 $"item" false)))); (Node 43 $"id" (ImplicitCastExpr CK_BitCast (Node 44 $"NSNumber *" (OtherExpr [(Node 45 $"int" (IntegerLiteral (1)%Z))]))))]))]))))))];
     ts_locs := [(3,1,3,23); (4,1,5,2); (6,1,8,2); (7,1,7,39); (7,30,7,34); (9,1,11,2); (10,1,10,66); (10,25,10,37); (10,52,10,63); (12,1,20,2); (13,1,13,17); (14,1,14,53); (14,29,14,32); (14,47,14,50); (15,1,15,97); (15,30,15,42); (15,59,15,71); (15,83,15,94); (16,1,16,56); (16,37,16,40); (17,1,17,71); (17,30,17,40); (17,57,17,67); (18,1,18,28); (18,21,18,24); (19,1,19,38); (19,32,19,35); (21,1,24,2); (22,1,22,47); (22,20,22,23); (22,40,22,43); (23,1,23,52); (23,20,23,23); (23,46,23,49); (25,1,25,84); (25,8,25,29); (25,32,25,35); (25,41,25,84); (25,43,25,81); (25,44,25,44); (25,44,25,44); (25,56,25,56); (25,56,25,56); (25,79,25,80); (25,79,25,80); (25,80,25,80)]%Z;
     ts_evals := []; ts_same := []; ts_decls := []; ts_parents := [] |}.
Example ObjCObjectSubscripting_DictionarySetObjectForKeyedSubscript_holds : nth_violation (shippedRule sh_ObjCObjectSubscripting) ObjCObjectSubscripting_DictionarySetObjectForKeyedSubscript 0 = Some (25, 43, 25, 81, $"")%Z.
Proof. vm_compute. reflexivity. Qed.

