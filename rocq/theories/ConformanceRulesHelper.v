(** * OCLint's own unit tests of oclint-rules/test/helper, as examples about the model

    Written by tools/conformance/emit.py; do not edit. *)
From Verif Require Import Base ModelConfig ModelSource ModelAST ModelRuleTable ConformanceBase.

(** ** oclint-rules/test/helper/AttributeHelperTest.cpp *)

Definition AttributeHelperTestCall_NoAttributeFunctionCall : testcase :=
  {| ts_lang := LC; ts_path := $"input.c"; ts_code := [];
     ts_comments := []; ts_conf := [];
     ts_tops := [(toplevel 0 (TFunction false), (Node 0 [] (FunctionDecl {| f_name := $"a"; f_method := None; f_isDefinition := false; f_bodyLines := (0)%Z |} [] None))); (toplevel 1 (TFunction false), (Node 1 [] (FunctionDecl {| f_name := $"b"; f_method := None; f_isDefinition := true; f_bodyLines := (3)%Z |} [] (Some (Node 2 [] (CompoundStmt [(Node 3 [] (CallExpr (Some ($"a", (Decl [] None))) (Node 4 [] (ImplicitCastExpr CK_Other (Node 5 [] (DeclRefExpr 0 $"a" false)))) []))]))))))];
     ts_locs := [(2,13,2,20); (3,13,5,13); (3,22,5,13); (4,17,4,19); (4,17,4,17); (4,17,4,17)]%Z;
     ts_evals := []; ts_same := []; ts_decls := []; ts_parents := [] |}.
Example AttributeHelperTestCall_NoAttributeFunctionCall_holds : sorted_violations_of attributeHelperTestCallRule AttributeHelperTestCall_NoAttributeFunctionCall = Some [].
Proof. vm_compute. reflexivity. Qed.

Definition AttributeHelperTestCall_AttributeFunctionCall : testcase :=
  {| ts_lang := LC; ts_path := $"input.c"; ts_code := [];
     ts_comments := []; ts_conf := [];
     ts_tops := [(toplevel 0 (TFunction false), (Node 0 [] (FunctionDecl {| f_name := $"a"; f_method := None; f_isDefinition := false; f_bodyLines := (0)%Z |} [] None))); (toplevel 1 (TFunction false), (Node 1 [] (FunctionDecl {| f_name := $"b"; f_method := None; f_isDefinition := true; f_bodyLines := (3)%Z |} [] (Some (Node 2 [] (CompoundStmt [(Node 3 [] (CallExpr (Some ($"a", (Decl [$"oclint:enforce[test attribute]"] None))) (Node 4 [] (ImplicitCastExpr CK_Other (Node 5 [] (DeclRefExpr 0 $"a" false)))) []))]))))))];
     ts_locs := [(2,13,2,20); (3,13,5,13); (3,22,5,13); (4,17,4,19); (4,17,4,17); (4,17,4,17)]%Z;
     ts_evals := []; ts_same := []; ts_decls := [(0, (Decl [$"oclint:enforce[test attribute]"] None))]; ts_parents := [(None, true); (None, true); ((Some 1), false); ((Some 2), false); ((Some 3), false); ((Some 4), false)] |}.
Example AttributeHelperTestCall_AttributeFunctionCall_holds : nth_violation attributeHelperTestCallRule AttributeHelperTestCall_AttributeFunctionCall 0 = Some (4, 17, 4, 19, $"")%Z.
Proof. vm_compute. reflexivity. Qed.

Definition AttributeHelperTestCall_IncorrectAction : testcase :=
  {| ts_lang := LC; ts_path := $"input.c"; ts_code := [];
     ts_comments := []; ts_conf := [];
     ts_tops := [(toplevel 0 (TFunction false), (Node 0 [] (FunctionDecl {| f_name := $"a"; f_method := None; f_isDefinition := false; f_bodyLines := (0)%Z |} [] None))); (toplevel 1 (TFunction false), (Node 1 [] (FunctionDecl {| f_name := $"b"; f_method := None; f_isDefinition := true; f_bodyLines := (3)%Z |} [] (Some (Node 2 [] (CompoundStmt [(Node 3 [] (CallExpr (Some ($"a", (Decl [$"oclint:wrong[test attribute]"] None))) (Node 4 [] (ImplicitCastExpr CK_Other (Node 5 [] (DeclRefExpr 0 $"a" false)))) []))]))))))];
     ts_locs := [(2,13,2,20); (3,13,5,13); (3,22,5,13); (4,17,4,19); (4,17,4,17); (4,17,4,17)]%Z;
     ts_evals := []; ts_same := []; ts_decls := [(0, (Decl [$"oclint:wrong[test attribute]"] None))]; ts_parents := [(None, true); (None, true); ((Some 1), false); ((Some 2), false); ((Some 3), false); ((Some 4), false)] |}.
Example AttributeHelperTestCall_IncorrectAction_holds : sorted_violations_of attributeHelperTestCallRule AttributeHelperTestCall_IncorrectAction = Some [].
Proof. vm_compute. reflexivity. Qed.

Definition AttributeHelperTestCall_BadFormat : testcase :=
  {| ts_lang := LC; ts_path := $"input.c"; ts_code := [];
     ts_comments := []; ts_conf := [];
     ts_tops := [(toplevel 0 (TFunction false), (Node 0 [] (FunctionDecl {| f_name := $"a"; f_method := None; f_isDefinition := false; f_bodyLines := (0)%Z |} [] None))); (toplevel 1 (TFunction false), (Node 1 [] (FunctionDecl {| f_name := $"b"; f_method := None; f_isDefinition := true; f_bodyLines := (3)%Z |} [] (Some (Node 2 [] (CompoundStmt [(Node 3 [] (CallExpr (Some ($"a", (Decl [$"oclint-sfdklj]"] None))) (Node 4 [] (ImplicitCastExpr CK_Other (Node 5 [] (DeclRefExpr 0 $"a" false)))) []))]))))))];
     ts_locs := [(2,13,2,20); (3,13,5,13); (3,22,5,13); (4,17,4,19); (4,17,4,17); (4,17,4,17)]%Z;
     ts_evals := []; ts_same := []; ts_decls := [(0, (Decl [$"oclint-sfdklj]"] None))]; ts_parents := [(None, true); (None, true); ((Some 1), false); ((Some 2), false); ((Some 3), false); ((Some 4), false)] |}.
Example AttributeHelperTestCall_BadFormat_holds : sorted_violations_of attributeHelperTestCallRule AttributeHelperTestCall_BadFormat = Some [].
Proof. vm_compute. reflexivity. Qed.

Definition AttributeHelperTestCall_IncorrectAttribute : testcase :=
  {| ts_lang := LC; ts_path := $"input.c"; ts_code := [];
     ts_comments := []; ts_conf := [];
     ts_tops := [(toplevel 0 (TFunction false), (Node 0 [] (FunctionDecl {| f_name := $"a"; f_method := None; f_isDefinition := false; f_bodyLines := (0)%Z |} [] None))); (toplevel 1 (TFunction false), (Node 1 [] (FunctionDecl {| f_name := $"b"; f_method := None; f_isDefinition := true; f_bodyLines := (3)%Z |} [] (Some (Node 2 [] (CompoundStmt [(Node 3 [] (CallExpr (Some ($"a", (Decl [$"oclint:enforce[wrong attribute]"] None))) (Node 4 [] (ImplicitCastExpr CK_Other (Node 5 [] (DeclRefExpr 0 $"a" false)))) []))]))))))];
     ts_locs := [(2,13,2,20); (3,13,5,13); (3,22,5,13); (4,17,4,19); (4,17,4,17); (4,17,4,17)]%Z;
     ts_evals := []; ts_same := []; ts_decls := [(0, (Decl [$"oclint:enforce[wrong attribute]"] None))]; ts_parents := [(None, true); (None, true); ((Some 1), false); ((Some 2), false); ((Some 3), false); ((Some 4), false)] |}.
Example AttributeHelperTestCall_IncorrectAttribute_holds : sorted_violations_of attributeHelperTestCallRule AttributeHelperTestCall_IncorrectAttribute = Some [].
Proof. vm_compute. reflexivity. Qed.

Definition AttributeHelperTestCall_ExtraFunctionDeclBefore : testcase :=
  {| ts_lang := LC; ts_path := $"input.c"; ts_code := [];
     ts_comments := []; ts_conf := [];
     ts_tops := [(toplevel 0 (TFunction false), (Node 0 [] (FunctionDecl {| f_name := $"a"; f_method := None; f_isDefinition := false; f_bodyLines := (0)%Z |} [] None))); (toplevel 1 (TFunction false), (Node 1 [] (FunctionDecl {| f_name := $"a"; f_method := None; f_isDefinition := false; f_bodyLines := (0)%Z |} [] None))); (toplevel 2 (TFunction false), (Node 2 [] (FunctionDecl {| f_name := $"b"; f_method := None; f_isDefinition := true; f_bodyLines := (3)%Z |} [] (Some (Node 3 [] (CompoundStmt [(Node 4 [] (CallExpr (Some ($"a", (Decl [$"oclint:enforce[test attribute]"] None))) (Node 5 [] (ImplicitCastExpr CK_Other (Node 6 [] (DeclRefExpr 0 $"a" false)))) []))]))))))];
     ts_locs := [(2,13,2,20); (3,13,3,20); (4,13,6,13); (4,22,6,13); (5,17,5,19); (5,17,5,17); (5,17,5,17)]%Z;
     ts_evals := []; ts_same := []; ts_decls := [(1, (Decl [$"oclint:enforce[test attribute]"] None))]; ts_parents := [(None, true); (None, true); (None, true); ((Some 2), false); ((Some 3), false); ((Some 4), false); ((Some 5), false)] |}.
Example AttributeHelperTestCall_ExtraFunctionDeclBefore_holds : nth_violation attributeHelperTestCallRule AttributeHelperTestCall_ExtraFunctionDeclBefore 0 = Some (5, 17, 5, 19, $"")%Z.
Proof. vm_compute. reflexivity. Qed.

Definition AttributeHelperTestCall_ExtraFunctionDeclAfter : testcase :=
  {| ts_lang := LC; ts_path := $"input.c"; ts_code := [];
     ts_comments := []; ts_conf := [];
     ts_tops := [(toplevel 0 (TFunction false), (Node 0 [] (FunctionDecl {| f_name := $"a"; f_method := None; f_isDefinition := false; f_bodyLines := (0)%Z |} [] None))); (toplevel 1 (TFunction false), (Node 1 [] (FunctionDecl {| f_name := $"a"; f_method := None; f_isDefinition := false; f_bodyLines := (0)%Z |} [] None))); (toplevel 2 (TFunction false), (Node 2 [] (FunctionDecl {| f_name := $"b"; f_method := None; f_isDefinition := true; f_bodyLines := (3)%Z |} [] (Some (Node 3 [] (CompoundStmt [(Node 4 [] (CallExpr (Some ($"a", (Decl [$"oclint:enforce[test attribute]"] None))) (Node 5 [] (ImplicitCastExpr CK_Other (Node 6 [] (DeclRefExpr 0 $"a" false)))) []))]))))))];
     ts_locs := [(2,13,2,20); (3,13,3,20); (4,13,6,13); (4,22,6,13); (5,17,5,19); (5,17,5,17); (5,17,5,17)]%Z;
     ts_evals := []; ts_same := []; ts_decls := [(0, (Decl [$"oclint:enforce[test attribute]"] None)); (1, (Decl [$"oclint:enforce[test attribute]"] None))]; ts_parents := [(None, true); (None, true); (None, true); ((Some 2), false); ((Some 3), false); ((Some 4), false); ((Some 5), false)] |}.
Example AttributeHelperTestCall_ExtraFunctionDeclAfter_holds : nth_violation attributeHelperTestCallRule AttributeHelperTestCall_ExtraFunctionDeclAfter 0 = Some (5, 17, 5, 19, $"")%Z.
Proof. vm_compute. reflexivity. Qed.

Definition AttributeHelperTestCall_MethodNoAttribute : testcase :=
  {| ts_lang := LObjC; ts_path := $"input.m"; ts_code := [];
     ts_comments := []; ts_conf := [];
     ts_tops := [(toplevel 0 (TOther), (Node 0 [] (ObjCContainerDecl {| oc_kind := OKInterface; oc_name := $"SomeObject"; oc_lines := (2)%Z; oc_ivars := 0; oc_methods := []; oc_classes := [$"SomeObject"]; oc_superMethods := None |} []))); (toplevel 1 (TOther), (Node 1 [] (ObjCContainerDecl {| oc_kind := OKImplementation; oc_name := $"SomeObject"; oc_lines := (5)%Z; oc_ivars := 0; oc_methods := [($"foo", true)]; oc_classes := [$"SomeObject"]; oc_superMethods := None |} [(Node 2 [] (ObjCMethodDecl {| om_selector := $"foo"; om_class := (Some $"SomeObject"); om_overriding := false; om_overridden := []; om_bodyLines := (3)%Z |} [] (Some (Node 3 [] (CompoundStmt [(Node 4 $"id" (ObjCMessageExpr {| ms_selector := $"foo"; ms_receiver := RInstance; ms_implicit := false; ms_interface := (Some $"SomeObject"); ms_method := None; ms_methodClass := None |} (Some (Node 5 $"SomeObject *" (ImplicitCastExpr CK_LValueToRValue (Node 6 $"SomeObject *" (DeclRefExpr 1005 $"self" false))))) []))])))))])))];
     ts_locs := [(3,13,4,14); (6,13,10,13); (7,13,9,13); (7,25,9,13); (8,17,8,26); (8,18,8,18); (8,18,8,18)]%Z;
     ts_evals := []; ts_same := []; ts_decls := []; ts_parents := [] |}.
Example AttributeHelperTestCall_MethodNoAttribute_holds : sorted_violations_of attributeHelperTestCallRule AttributeHelperTestCall_MethodNoAttribute = Some [].
Proof. vm_compute. reflexivity. Qed.

Definition AttributeHelperTestCall_MethodAttribute : testcase :=
  {| ts_lang := LObjC; ts_path := $"input.m"; ts_code := [];
     ts_comments := []; ts_conf := [];
     ts_tops := [(toplevel 0 (TOther), (Node 0 [] (ObjCContainerDecl {| oc_kind := OKInterface; oc_name := $"SomeObject"; oc_lines := (3)%Z; oc_ivars := 0; oc_methods := [($"foo", true)]; oc_classes := [$"SomeObject"]; oc_superMethods := None |} [(Node 1 [] (ObjCMethodDecl {| om_selector := $"foo"; om_class := (Some $"SomeObject"); om_overriding := false; om_overridden := []; om_bodyLines := (0)%Z |} [] None))]))); (toplevel 2 (TOther), (Node 2 [] (ObjCContainerDecl {| oc_kind := OKImplementation; oc_name := $"SomeObject"; oc_lines := (5)%Z; oc_ivars := 0; oc_methods := [($"foo", true)]; oc_classes := [$"SomeObject"]; oc_superMethods := None |} [(Node 3 [] (ObjCMethodDecl {| om_selector := $"foo"; om_class := (Some $"SomeObject"); om_overriding := false; om_overridden := []; om_bodyLines := (3)%Z |} [] (Some (Node 4 [] (CompoundStmt [(Node 5 $"void" (ObjCMessageExpr {| ms_selector := $"foo"; ms_receiver := RInstance; ms_implicit := false; ms_interface := (Some $"SomeObject"); ms_method := (Some (Decl [$"oclint:enforce[test attribute]"] (Some (Method false None (InOther (Some NoCategory)))))); ms_methodClass := (Some $"SomeObject") |} (Some (Node 6 $"SomeObject *" (ImplicitCastExpr CK_LValueToRValue (Node 7 $"SomeObject *" (DeclRefExpr 1006 $"self" false))))) []))])))))])))];
     ts_locs := [(3,13,5,14); (4,13,4,84); (7,13,11,13); (8,13,10,13); (8,25,10,13); (9,17,9,26); (9,18,9,18); (9,18,9,18)]%Z;
     ts_evals := []; ts_same := []; ts_decls := [(1, (Decl [$"oclint:enforce[test attribute]"] (Some (Method false None (InOther (Some NoCategory)))))); (3, (Decl [$"oclint:enforce[test attribute]"] (Some (Method false None (InOther (Some NoCategory))))))]; ts_parents := [(None, true); ((Some 0), true); (None, true); ((Some 2), true); ((Some 3), false); ((Some 4), false); ((Some 5), false); ((Some 6), false)] |}.
Example AttributeHelperTestCall_MethodAttribute_holds : nth_violation attributeHelperTestCallRule AttributeHelperTestCall_MethodAttribute 0 = Some (9, 17, 9, 26, $"")%Z.
Proof. vm_compute. reflexivity. Qed.

Definition AttributeHelperTestCall_CategoryAttribute : testcase :=
  {| ts_lang := LObjC; ts_path := $"input.m"; ts_code := [];
     ts_comments := []; ts_conf := [];
     ts_tops := [(toplevel 0 (TOther), (Node 0 [] (ObjCContainerDecl {| oc_kind := OKInterface; oc_name := $"SomeObject"; oc_lines := (3)%Z; oc_ivars := 0; oc_methods := [($"foo", true)]; oc_classes := [$"SomeObject"]; oc_superMethods := None |} [(Node 1 [] (ObjCMethodDecl {| om_selector := $"foo"; om_class := (Some $"SomeObject"); om_overriding := false; om_overridden := []; om_bodyLines := (0)%Z |} [] None))]))); (toplevel 2 (TOther), (Node 2 [] (ObjCContainerDecl {| oc_kind := OKCategory; oc_name := $"Category"; oc_lines := (3)%Z; oc_ivars := 0; oc_methods := [($"foo", true)]; oc_classes := []; oc_superMethods := None |} [(Node 3 [] (ObjCMethodDecl {| om_selector := $"foo"; om_class := (Some $"SomeObject"); om_overriding := false; om_overridden := []; om_bodyLines := (0)%Z |} [] None))]))); (toplevel 4 (TOther), (Node 4 [] (ObjCContainerDecl {| oc_kind := OKImplementation; oc_name := $"SomeObject"; oc_lines := (5)%Z; oc_ivars := 0; oc_methods := [($"foo", true)]; oc_classes := [$"SomeObject"]; oc_superMethods := None |} [(Node 5 [] (ObjCMethodDecl {| om_selector := $"foo"; om_class := (Some $"SomeObject"); om_overriding := false; om_overridden := []; om_bodyLines := (3)%Z |} [] (Some (Node 6 [] (CompoundStmt [(Node 7 $"void" (ObjCMessageExpr {| ms_selector := $"foo"; ms_receiver := RInstance; ms_implicit := false; ms_interface := (Some $"SomeObject"); ms_method := (Some (Decl [] (Some (Method false None (InOther (Some (Category (Some (Decl [$"oclint:enforce[test attribute]"] (Some (Method false None InCategory)))) NoCategory))))))); ms_methodClass := (Some $"SomeObject") |} (Some (Node 8 $"SomeObject *" (ImplicitCastExpr CK_LValueToRValue (Node 9 $"SomeObject *" (DeclRefExpr 1008 $"self" false))))) []))])))))])))];
     ts_locs := [(3,13,5,14); (4,13,4,24); (7,13,9,14); (8,13,8,84); (11,13,15,13); (12,13,14,13); (12,25,14,13); (13,17,13,26); (13,18,13,18); (13,18,13,18)]%Z;
     ts_evals := []; ts_same := []; ts_decls := [(1, (Decl [] (Some (Method false None (InOther (Some (Category (Some (Decl [$"oclint:enforce[test attribute]"] (Some (Method false None InCategory)))) NoCategory))))))); (3, (Decl [$"oclint:enforce[test attribute]"] (Some (Method false None InCategory)))); (5, (Decl [] (Some (Method false None (InOther (Some (Category (Some (Decl [$"oclint:enforce[test attribute]"] (Some (Method false None InCategory)))) NoCategory)))))))]; ts_parents := [(None, true); ((Some 0), true); (None, true); ((Some 2), true); (None, true); ((Some 4), true); ((Some 5), false); ((Some 6), false); ((Some 7), false); ((Some 8), false)] |}.
Example AttributeHelperTestCall_CategoryAttribute_holds : nth_violation attributeHelperTestCallRule AttributeHelperTestCall_CategoryAttribute 0 = Some (13, 17, 13, 26, $"")%Z.
Proof. vm_compute. reflexivity. Qed.

Definition AttributeHelperTestCall_PropertyAttribute : testcase :=
  {| ts_lang := LObjC; ts_path := $"input.m"; ts_code := [];
     ts_comments := []; ts_conf := [];
     ts_tops := [(toplevel 0 (TOther), (Node 0 [] (ObjCContainerDecl {| oc_kind := OKInterface; oc_name := $"SomeObject"; oc_lines := (3)%Z; oc_ivars := 0; oc_methods := [($"foo", true); ($"setFoo:", true)]; oc_classes := [$"SomeObject"]; oc_superMethods := None |} [(Node 1 [] (OtherDecl []))]))); (toplevel 2 (TOther), (Node 2 [] (ObjCContainerDecl {| oc_kind := OKImplementation; oc_name := $"SomeObject"; oc_lines := (5)%Z; oc_ivars := 0; oc_methods := [($"bar", true)]; oc_classes := [$"SomeObject"]; oc_superMethods := None |} [(Node 3 [] (ObjCMethodDecl {| om_selector := $"bar"; om_class := (Some $"SomeObject"); om_overriding := false; om_overridden := []; om_bodyLines := (3)%Z |} [] (Some (Node 4 [] (CompoundStmt [(Node 5 $"SomeObject *" (OtherExpr [(Node 6 $"SomeObject *" (BinaryOperator BO_Assign (Node 7 $"SomeObject *" (ObjCPropertyRefExpr true (Some $"SomeObject") (Some $"SomeObject") (Some (Node 8 $"SomeObject *" (OtherExpr []))))) (Node 9 $"SomeObject *" (OtherExpr [])))); (Node 10 $"SomeObject *" (ImplicitCastExpr CK_LValueToRValue (Node 11 $"SomeObject *" (DeclRefExpr 1015 $"self" false)))); (Node 12 $"SomeObject *" (ImplicitCastExpr CK_NullToPointer (Node 13 $"int" (IntegerLiteral (0)%Z)))); (Node 14 $"void" (ObjCMessageExpr {| ms_selector := $"setFoo:"; ms_receiver := RInstance; ms_implicit := true; ms_interface := (Some $"SomeObject"); ms_method := (Some (Decl [] (Some (Method true (Some [$"oclint:enforce[test attribute]"]) (InOther (Some NoCategory)))))); ms_methodClass := (Some $"SomeObject") |} (Some (Node 15 $"SomeObject *" (OtherExpr []))) [(Node 16 $"SomeObject *" (OtherExpr []))]))]))])))))])))];
     ts_locs := [(3,13,5,14); (4,13,4,55); (7,13,11,13); (8,13,10,13); (8,25,10,13); (9,17,9,28); (9,17,9,28); (9,17,9,22); (9,17,9,17); (9,28,9,28); (9,17,9,17); (9,17,9,17); (9,28,9,28); (9,28,9,28); (9,22,9,22); (9,17,9,17); (9,28,9,28)]%Z;
     ts_evals := []; ts_same := []; ts_decls := [(1, (Decl [$"oclint:enforce[test attribute]"] None)); (3, (Decl [] (Some (Method false None (InOther (Some NoCategory))))))]; ts_parents := [(None, true); ((Some 0), true); (None, true); ((Some 2), true); ((Some 3), false); ((Some 4), false); ((Some 5), false); ((Some 6), false); ((Some 7), false); ((Some 6), false); ((Some 5), false); ((Some 10), false); ((Some 5), false); ((Some 12), false); ((Some 5), false); ((Some 14), false); ((Some 14), false)] |}.
Example AttributeHelperTestCall_PropertyAttribute_holds : nth_violation attributeHelperTestCallRule AttributeHelperTestCall_PropertyAttribute 0 = Some (9, 22, 9, 22, $"")%Z.
Proof. vm_compute. reflexivity. Qed.

Definition AttributeHelperTestCall_ProtocolAttribute : testcase :=
  {| ts_lang := LObjC; ts_path := $"input.m"; ts_code := [];
     ts_comments := []; ts_conf := [];
     ts_tops := [(toplevel 0 (TOther), (Node 0 [] (ObjCContainerDecl {| oc_kind := OKProtocol; oc_name := $"SomeProtocol"; oc_lines := (3)%Z; oc_ivars := 0; oc_methods := [($"foo", true)]; oc_classes := []; oc_superMethods := None |} [(Node 1 [] (ObjCMethodDecl {| om_selector := $"foo"; om_class := None; om_overriding := false; om_overridden := []; om_bodyLines := (0)%Z |} [] None))]))); (toplevel 2 (TOther), (Node 2 [] (ObjCContainerDecl {| oc_kind := OKInterface; oc_name := $"SomeObject"; oc_lines := (2)%Z; oc_ivars := 0; oc_methods := []; oc_classes := [$"SomeObject"]; oc_superMethods := None |} []))); (toplevel 3 (TOther), (Node 3 [] (ObjCContainerDecl {| oc_kind := OKImplementation; oc_name := $"SomeObject"; oc_lines := (5)%Z; oc_ivars := 0; oc_methods := [($"foo", true)]; oc_classes := [$"SomeObject"]; oc_superMethods := None |} [(Node 4 [] (ObjCMethodDecl {| om_selector := $"foo"; om_class := (Some $"SomeObject"); om_overriding := true; om_overridden := [(Decl [$"oclint:enforce[test attribute]"] (Some (Method false None (InProtocol (Some [$"oclint:enforce[test attribute]"])))))]; om_bodyLines := (3)%Z |} [] (Some (Node 5 [] (CompoundStmt [(Node 6 $"void" (ObjCMessageExpr {| ms_selector := $"foo"; ms_receiver := RInstance; ms_implicit := false; ms_interface := (Some $"SomeObject"); ms_method := (Some (Decl [$"oclint:enforce[test attribute]"] (Some (Method false None (InProtocol (Some [$"oclint:enforce[test attribute]"])))))); ms_methodClass := None |} (Some (Node 7 $"SomeObject *" (ImplicitCastExpr CK_LValueToRValue (Node 8 $"SomeObject *" (DeclRefExpr 1007 $"self" false))))) []))])))))])))];
     ts_locs := [(2,13,4,14); (3,13,3,84); (7,13,8,14); (10,13,14,13); (11,13,13,13); (11,25,13,13); (12,17,12,26); (12,18,12,18); (12,18,12,18)]%Z;
     ts_evals := []; ts_same := []; ts_decls := [(1, (Decl [$"oclint:enforce[test attribute]"] (Some (Method false None (InProtocol (Some [$"oclint:enforce[test attribute]"])))))); (4, (Decl [] (Some (Method false None (InOther (Some NoCategory))))))]; ts_parents := [(None, true); ((Some 0), true); (None, true); (None, true); ((Some 3), true); ((Some 4), false); ((Some 5), false); ((Some 6), false); ((Some 7), false)] |}.
Example AttributeHelperTestCall_ProtocolAttribute_holds : nth_violation attributeHelperTestCallRule AttributeHelperTestCall_ProtocolAttribute 0 = Some (12, 17, 12, 26, $"")%Z.
Proof. vm_compute. reflexivity. Qed.

Definition AttributeHelperTestCall_CategoryPropertyAttribute : testcase :=
  {| ts_lang := LObjC; ts_path := $"input.m"; ts_code := [];
     ts_comments := []; ts_conf := [];
     ts_tops := [(toplevel 0 (TOther), (Node 0 [] (ObjCContainerDecl {| oc_kind := OKInterface; oc_name := $"SomeObject"; oc_lines := (3)%Z; oc_ivars := 0; oc_methods := [($"foo", true); ($"setFoo:", true)]; oc_classes := [$"SomeObject"]; oc_superMethods := None |} [(Node 1 [] (OtherDecl []))]))); (toplevel 2 (TOther), (Node 2 [] (ObjCContainerDecl {| oc_kind := OKCategory; oc_name := $"SomeCategory"; oc_lines := (3)%Z; oc_ivars := 0; oc_methods := [($"foo", true); ($"setFoo:", true)]; oc_classes := []; oc_superMethods := None |} [(Node 3 [] (OtherDecl []))]))); (toplevel 4 (TOther), (Node 4 [] (ObjCContainerDecl {| oc_kind := OKImplementation; oc_name := $"SomeObject"; oc_lines := (5)%Z; oc_ivars := 0; oc_methods := [($"bar", true)]; oc_classes := [$"SomeObject"]; oc_superMethods := None |} [(Node 5 [] (ObjCMethodDecl {| om_selector := $"bar"; om_class := (Some $"SomeObject"); om_overriding := false; om_overridden := []; om_bodyLines := (3)%Z |} [] (Some (Node 6 [] (CompoundStmt [(Node 7 $"SomeObject *" (OtherExpr [(Node 8 $"SomeObject *" (BinaryOperator BO_Assign (Node 9 $"SomeObject *" (ObjCPropertyRefExpr true (Some $"SomeObject") (Some $"SomeObject") (Some (Node 10 $"SomeObject *" (OtherExpr []))))) (Node 11 $"SomeObject *" (OtherExpr [])))); (Node 12 $"SomeObject *" (ImplicitCastExpr CK_LValueToRValue (Node 13 $"SomeObject *" (DeclRefExpr 1017 $"self" false)))); (Node 14 $"SomeObject *" (ImplicitCastExpr CK_NullToPointer (Node 15 $"int" (IntegerLiteral (0)%Z)))); (Node 16 $"void" (ObjCMessageExpr {| ms_selector := $"setFoo:"; ms_receiver := RInstance; ms_implicit := true; ms_interface := (Some $"SomeObject"); ms_method := (Some (Decl [] (Some (Method true (Some []) (InOther (Some (Category (Some (Decl [] (Some (Method true (Some [$"oclint:enforce[test attribute]"]) InCategory)))) NoCategory))))))); ms_methodClass := (Some $"SomeObject") |} (Some (Node 17 $"SomeObject *" (OtherExpr []))) [(Node 18 $"SomeObject *" (OtherExpr []))]))]))])))))])))];
     ts_locs := [(3,13,5,14); (4,13,4,55); (7,13,9,14); (8,13,8,55); (11,13,15,13); (12,13,14,13); (12,25,14,13); (13,17,13,28); (13,17,13,28); (13,17,13,22); (13,17,13,17); (13,28,13,28); (13,17,13,17); (13,17,13,17); (13,28,13,28); (13,28,13,28); (13,22,13,22); (13,17,13,17); (13,28,13,28)]%Z;
     ts_evals := []; ts_same := []; ts_decls := [(3, (Decl [$"oclint:enforce[test attribute]"] None)); (5, (Decl [] (Some (Method false None (InOther (Some (Category None NoCategory)))))))]; ts_parents := [(None, true); ((Some 0), true); (None, true); ((Some 2), true); (None, true); ((Some 4), true); ((Some 5), false); ((Some 6), false); ((Some 7), false); ((Some 8), false); ((Some 9), false); ((Some 8), false); ((Some 7), false); ((Some 12), false); ((Some 7), false); ((Some 14), false); ((Some 7), false); ((Some 16), false); ((Some 16), false)] |}.
Example AttributeHelperTestCall_CategoryPropertyAttribute_holds : nth_violation attributeHelperTestCallRule AttributeHelperTestCall_CategoryPropertyAttribute 0 = Some (13, 22, 13, 22, $"")%Z.
Proof. vm_compute. reflexivity. Qed.

Definition AttributeHelperTestCall_CategoryPropertyRedeclaredAttribute : testcase :=
  {| ts_lang := LObjC; ts_path := $"input.m"; ts_code := [];
     ts_comments := []; ts_conf := [];
     ts_tops := [(toplevel 0 (TOther), (Node 0 [] (ObjCContainerDecl {| oc_kind := OKInterface; oc_name := $"SomeObject"; oc_lines := (3)%Z; oc_ivars := 0; oc_methods := [($"foo", true); ($"setFoo:", true)]; oc_classes := [$"SomeObject"]; oc_superMethods := None |} [(Node 1 [] (OtherDecl []))]))); (toplevel 2 (TOther), (Node 2 [] (ObjCContainerDecl {| oc_kind := OKCategory; oc_name := $"SomeCategory"; oc_lines := (3)%Z; oc_ivars := 0; oc_methods := [($"foo", true); ($"setFoo:", true)]; oc_classes := []; oc_superMethods := None |} [(Node 3 [] (OtherDecl []))]))); (toplevel 4 (TOther), (Node 4 [] (ObjCContainerDecl {| oc_kind := OKImplementation; oc_name := $"SomeObject"; oc_lines := (5)%Z; oc_ivars := 0; oc_methods := [($"bar", true)]; oc_classes := [$"SomeObject"]; oc_superMethods := None |} [(Node 5 [] (ObjCMethodDecl {| om_selector := $"bar"; om_class := (Some $"SomeObject"); om_overriding := false; om_overridden := []; om_bodyLines := (3)%Z |} [] (Some (Node 6 [] (CompoundStmt [(Node 7 $"SomeObject *" (OtherExpr [(Node 8 $"SomeObject *" (BinaryOperator BO_Assign (Node 9 $"SomeObject *" (ObjCPropertyRefExpr true (Some $"SomeObject") (Some $"SomeObject") (Some (Node 10 $"SomeObject *" (OtherExpr []))))) (Node 11 $"SomeObject *" (OtherExpr [])))); (Node 12 $"SomeObject *" (ImplicitCastExpr CK_LValueToRValue (Node 13 $"SomeObject *" (DeclRefExpr 1017 $"self" false)))); (Node 14 $"SomeObject *" (ImplicitCastExpr CK_NullToPointer (Node 15 $"int" (IntegerLiteral (0)%Z)))); (Node 16 $"void" (ObjCMessageExpr {| ms_selector := $"setFoo:"; ms_receiver := RInstance; ms_implicit := true; ms_interface := (Some $"SomeObject"); ms_method := (Some (Decl [] (Some (Method true (Some [$"oclint:enforce[test attribute]"]) (InOther (Some (Category (Some (Decl [] (Some (Method true (Some []) InCategory)))) NoCategory))))))); ms_methodClass := (Some $"SomeObject") |} (Some (Node 17 $"SomeObject *" (OtherExpr []))) [(Node 18 $"SomeObject *" (OtherExpr []))]))]))])))))])))];
     ts_locs := [(3,13,5,14); (4,13,4,55); (7,13,9,14); (8,13,8,55); (11,13,15,13); (12,13,14,13); (12,25,14,13); (13,17,13,28); (13,17,13,28); (13,17,13,22); (13,17,13,17); (13,28,13,28); (13,17,13,17); (13,17,13,17); (13,28,13,28); (13,28,13,28); (13,22,13,22); (13,17,13,17); (13,28,13,28)]%Z;
     ts_evals := []; ts_same := []; ts_decls := [(1, (Decl [$"oclint:enforce[test attribute]"] None)); (5, (Decl [] (Some (Method false None (InOther (Some (Category None NoCategory)))))))]; ts_parents := [(None, true); ((Some 0), true); (None, true); ((Some 2), true); (None, true); ((Some 4), true); ((Some 5), false); ((Some 6), false); ((Some 7), false); ((Some 8), false); ((Some 9), false); ((Some 8), false); ((Some 7), false); ((Some 12), false); ((Some 7), false); ((Some 14), false); ((Some 7), false); ((Some 16), false); ((Some 16), false)] |}.
Example AttributeHelperTestCall_CategoryPropertyRedeclaredAttribute_holds : nth_violation attributeHelperTestCallRule AttributeHelperTestCall_CategoryPropertyRedeclaredAttribute 0 = Some (13, 22, 13, 22, $"")%Z.
Proof. vm_compute. reflexivity. Qed.

Definition AttributeHelperTestCall_CorrectComment : testcase :=
  {| ts_lang := LC; ts_path := $"input.c"; ts_code := [];
     ts_comments := []; ts_conf := [];
     ts_tops := [(toplevel 0 (TFunction false), (Node 0 [] (FunctionDecl {| f_name := $"a"; f_method := None; f_isDefinition := false; f_bodyLines := (0)%Z |} [] None))); (toplevel 1 (TFunction false), (Node 1 [] (FunctionDecl {| f_name := $"b"; f_method := None; f_isDefinition := true; f_bodyLines := (3)%Z |} [] (Some (Node 2 [] (CompoundStmt [(Node 3 [] (CallExpr (Some ($"a", (Decl [$"oclint:enforce[test attribute][foo]"] None))) (Node 4 [] (ImplicitCastExpr CK_Other (Node 5 [] (DeclRefExpr 0 $"a" false)))) []))]))))))];
     ts_locs := [(2,13,2,20); (3,13,5,13); (3,22,5,13); (4,17,4,19); (4,17,4,17); (4,17,4,17)]%Z;
     ts_evals := []; ts_same := []; ts_decls := [(0, (Decl [$"oclint:enforce[test attribute][foo]"] None))]; ts_parents := [(None, true); (None, true); ((Some 1), false); ((Some 2), false); ((Some 3), false); ((Some 4), false)] |}.
Example AttributeHelperTestCall_CorrectComment_holds : nth_violation attributeHelperTestCallCommentRule AttributeHelperTestCall_CorrectComment 0 = Some (4, 17, 4, 19, $"foo")%Z.
Proof. vm_compute. reflexivity. Qed.

Definition AttributeHelperTestCall_MissingClose : testcase :=
  {| ts_lang := LC; ts_path := $"input.c"; ts_code := [];
     ts_comments := []; ts_conf := [];
     ts_tops := [(toplevel 0 (TFunction false), (Node 0 [] (FunctionDecl {| f_name := $"a"; f_method := None; f_isDefinition := false; f_bodyLines := (0)%Z |} [] None))); (toplevel 1 (TFunction false), (Node 1 [] (FunctionDecl {| f_name := $"b"; f_method := None; f_isDefinition := true; f_bodyLines := (3)%Z |} [] (Some (Node 2 [] (CompoundStmt [(Node 3 [] (CallExpr (Some ($"a", (Decl [$"oclint:enforce[test attribute][foo"] None))) (Node 4 [] (ImplicitCastExpr CK_Other (Node 5 [] (DeclRefExpr 0 $"a" false)))) []))]))))))];
     ts_locs := [(2,13,2,20); (3,13,5,13); (3,22,5,13); (4,17,4,19); (4,17,4,17); (4,17,4,17)]%Z;
     ts_evals := []; ts_same := []; ts_decls := [(0, (Decl [$"oclint:enforce[test attribute][foo"] None))]; ts_parents := [(None, true); (None, true); ((Some 1), false); ((Some 2), false); ((Some 3), false); ((Some 4), false)] |}.
Example AttributeHelperTestCall_MissingClose_holds : nth_violation attributeHelperTestCallCommentRule AttributeHelperTestCall_MissingClose 0 = Some (4, 17, 4, 19, $"no comment")%Z.
Proof. vm_compute. reflexivity. Qed.

Definition AttributeHelperTestCall_ExtraClose : testcase :=
  {| ts_lang := LC; ts_path := $"input.c"; ts_code := [];
     ts_comments := []; ts_conf := [];
     ts_tops := [(toplevel 0 (TFunction false), (Node 0 [] (FunctionDecl {| f_name := $"a"; f_method := None; f_isDefinition := false; f_bodyLines := (0)%Z |} [] None))); (toplevel 1 (TFunction false), (Node 1 [] (FunctionDecl {| f_name := $"b"; f_method := None; f_isDefinition := true; f_bodyLines := (3)%Z |} [] (Some (Node 2 [] (CompoundStmt [(Node 3 [] (CallExpr (Some ($"a", (Decl [$"oclint:enforce[test attribute][foo]]"] None))) (Node 4 [] (ImplicitCastExpr CK_Other (Node 5 [] (DeclRefExpr 0 $"a" false)))) []))]))))))];
     ts_locs := [(2,13,2,20); (3,13,5,13); (3,22,5,13); (4,17,4,19); (4,17,4,17); (4,17,4,17)]%Z;
     ts_evals := []; ts_same := []; ts_decls := [(0, (Decl [$"oclint:enforce[test attribute][foo]]"] None))]; ts_parents := [(None, true); (None, true); ((Some 1), false); ((Some 2), false); ((Some 3), false); ((Some 4), false)] |}.
Example AttributeHelperTestCall_ExtraClose_holds : nth_violation attributeHelperTestCallCommentRule AttributeHelperTestCall_ExtraClose 0 = Some (4, 17, 4, 19, $"foo]")%Z.
Proof. vm_compute. reflexivity. Qed.

Definition AttributeHelperTestCall_NoComment : testcase :=
  {| ts_lang := LC; ts_path := $"input.c"; ts_code := [];
     ts_comments := []; ts_conf := [];
     ts_tops := [(toplevel 0 (TFunction false), (Node 0 [] (FunctionDecl {| f_name := $"a"; f_method := None; f_isDefinition := false; f_bodyLines := (0)%Z |} [] None))); (toplevel 1 (TFunction false), (Node 1 [] (FunctionDecl {| f_name := $"b"; f_method := None; f_isDefinition := true; f_bodyLines := (3)%Z |} [] (Some (Node 2 [] (CompoundStmt [(Node 3 [] (CallExpr (Some ($"a", (Decl [$"oclint:enforce[test attribute]"] None))) (Node 4 [] (ImplicitCastExpr CK_Other (Node 5 [] (DeclRefExpr 0 $"a" false)))) []))]))))))];
     ts_locs := [(2,13,2,20); (3,13,5,13); (3,22,5,13); (4,17,4,19); (4,17,4,17); (4,17,4,17)]%Z;
     ts_evals := []; ts_same := []; ts_decls := [(0, (Decl [$"oclint:enforce[test attribute]"] None))]; ts_parents := [(None, true); (None, true); ((Some 1), false); ((Some 2), false); ((Some 3), false); ((Some 4), false)] |}.
Example AttributeHelperTestCall_NoComment_holds : nth_violation attributeHelperTestCallCommentRule AttributeHelperTestCall_NoComment 0 = Some (4, 17, 4, 19, $"no comment")%Z.
Proof. vm_compute. reflexivity. Qed.

Definition AttributeHelperTestCall_ParensComment : testcase :=
  {| ts_lang := LC; ts_path := $"input.c"; ts_code := [];
     ts_comments := []; ts_conf := [];
     ts_tops := [(toplevel 0 (TFunction false), (Node 0 [] (FunctionDecl {| f_name := $"a"; f_method := None; f_isDefinition := false; f_bodyLines := (0)%Z |} [] None))); (toplevel 1 (TFunction false), (Node 1 [] (FunctionDecl {| f_name := $"b"; f_method := None; f_isDefinition := true; f_bodyLines := (3)%Z |} [] (Some (Node 2 [] (CompoundStmt [(Node 3 [] (CallExpr (Some ($"a", (Decl [$"oclint:enforce[test attribute](comment)"] None))) (Node 4 [] (ImplicitCastExpr CK_Other (Node 5 [] (DeclRefExpr 0 $"a" false)))) []))]))))))];
     ts_locs := [(2,13,2,20); (3,13,5,13); (3,22,5,13); (4,17,4,19); (4,17,4,17); (4,17,4,17)]%Z;
     ts_evals := []; ts_same := []; ts_decls := [(0, (Decl [$"oclint:enforce[test attribute](comment)"] None))]; ts_parents := [(None, true); (None, true); ((Some 1), false); ((Some 2), false); ((Some 3), false); ((Some 4), false)] |}.
Example AttributeHelperTestCall_ParensComment_holds : nth_violation attributeHelperTestCallCommentRule AttributeHelperTestCall_ParensComment 0 = Some (4, 17, 4, 19, $"no comment")%Z.
Proof. vm_compute. reflexivity. Qed.

Definition AttributeHelperTestCall_ExtraJunk : testcase :=
  {| ts_lang := LC; ts_path := $"input.c"; ts_code := [];
     ts_comments := []; ts_conf := [];
     ts_tops := [(toplevel 0 (TFunction false), (Node 0 [] (FunctionDecl {| f_name := $"a"; f_method := None; f_isDefinition := false; f_bodyLines := (0)%Z |} [] None))); (toplevel 1 (TFunction false), (Node 1 [] (FunctionDecl {| f_name := $"b"; f_method := None; f_isDefinition := true; f_bodyLines := (3)%Z |} [] (Some (Node 2 [] (CompoundStmt [(Node 3 [] (CallExpr (Some ($"a", (Decl [$"oclint:enforce[test attribute]sdkjfl"] None))) (Node 4 [] (ImplicitCastExpr CK_Other (Node 5 [] (DeclRefExpr 0 $"a" false)))) []))]))))))];
     ts_locs := [(2,13,2,20); (3,13,5,13); (3,22,5,13); (4,17,4,19); (4,17,4,17); (4,17,4,17)]%Z;
     ts_evals := []; ts_same := []; ts_decls := [(0, (Decl [$"oclint:enforce[test attribute]sdkjfl"] None))]; ts_parents := [(None, true); (None, true); ((Some 1), false); ((Some 2), false); ((Some 3), false); ((Some 4), false)] |}.
Example AttributeHelperTestCall_ExtraJunk_holds : nth_violation attributeHelperTestCallCommentRule AttributeHelperTestCall_ExtraJunk 0 = Some (4, 17, 4, 19, $"no comment")%Z.
Proof. vm_compute. reflexivity. Qed.

(** ** oclint-rules/test/helper/SuppressHelperTest.cpp *)

Definition SuppressHelperTestAST_NoSuppress : testcase :=
  {| ts_lang := LC; ts_path := $"input.c"; ts_code := [];
     ts_comments := []; ts_conf := [];
     ts_tops := [(toplevel 0 (TFunction false), (Node 0 [] (FunctionDecl {| f_name := $"a"; f_method := None; f_isDefinition := true; f_bodyLines := (1)%Z |} [] (Some (Node 1 [] (CompoundStmt []))))))];
     ts_locs := [(1,1,1,11); (1,10,1,11)]%Z;
     ts_evals := []; ts_same := []; ts_decls := []; ts_parents := [] |}.
Example SuppressHelperTestAST_NoSuppress_holds : nth_violation suppressHelperTestASTRule SuppressHelperTestAST_NoSuppress 0 = Some (1, 1, 1, 11, $"")%Z.
Proof. vm_compute. reflexivity. Qed.

Definition SuppressHelperTestAST_NoSuppress_2 : testcase :=
  {| ts_lang := LC; ts_path := $"input.c"; ts_code := [];
     ts_comments := []; ts_conf := [];
     ts_tops := [(toplevel 0 (TFunction false), (Node 0 [] (FunctionDecl {| f_name := $"a"; f_method := None; f_isDefinition := true; f_bodyLines := (1)%Z |} [] (Some (Node 1 [] (CompoundStmt []))))))];
     ts_locs := [(1,1,1,11); (1,10,1,11)]%Z;
     ts_evals := []; ts_same := []; ts_decls := []; ts_parents := [] |}.
Example SuppressHelperTestAST_NoSuppress_2_holds : nth_violation suppressHelperTestASTRule SuppressHelperTestAST_NoSuppress_2 1 = Some (1, 10, 1, 11, $"")%Z.
Proof. vm_compute. reflexivity. Qed.

Definition SuppressHelperTestAST_SimpleSuppressEntireMethod : testcase :=
  {| ts_lang := LC; ts_path := $"input.c"; ts_code := [];
     ts_comments := []; ts_conf := [];
     ts_tops := [(toplevel 0 (TFunction false), (Node 0 [] (FunctionDecl {| f_name := $"a"; f_method := None; f_isDefinition := true; f_bodyLines := (1)%Z |} [] (Some (Node 1 [] (CompoundStmt [(Node 2 [] (DeclStmt [(Node 3 [] (VarDecl {| v_isParm := false; v_name := $"i"; v_used := false; v_referenced := false; v_local := true; v_staticMember := false; v_private := false; v_unusedAttr := false; v_defaultArg := false; v_canonicalType := $"int"; v_inTemplate := false; v_contexts := [CxFunction true true false] |} (Some (Node 4 [] (IntegerLiteral (1)%Z)))))]))]))))))];
     ts_locs := [(1,1,1,83); (1,70,1,83); (1,72,1,81); (1,72,1,80); (1,80,1,80)]%Z;
     ts_evals := []; ts_same := []; ts_decls := [(0, (Decl [$"oclint:suppress[test ast rule]"] None))]; ts_parents := [(None, true); ((Some 0), false); ((Some 1), false); ((Some 2), true); ((Some 3), false)] |}.
Example SuppressHelperTestAST_SimpleSuppressEntireMethod_holds : sorted_violations_of suppressHelperTestASTRule SuppressHelperTestAST_SimpleSuppressEntireMethod = Some [].
Proof. vm_compute. reflexivity. Qed.

Definition SuppressHelperTestAST_SimpleSuppressEntireCXXClass : testcase :=
  {| ts_lang := LCXX; ts_path := $"input.cpp"; ts_code := [];
     ts_comments := []; ts_conf := [];
     ts_tops := [(toplevel 0 (TOther), (Node 0 [] (CXXRecordDecl {| r_class := (CxxRecord 0 $"c" true false None []); r_fields := 0; r_methods := 1; r_lines := (1)%Z |} [(Node 1 [] (FunctionDecl {| f_name := $"a"; f_method := (Some {| cm_virtual := false; cm_static := false; cm_private := true; cm_inRecord := true |}); f_isDefinition := true; f_bodyLines := (1)%Z |} [] (Some (Node 2 [] (CompoundStmt [(Node 3 [] (DeclStmt [(Node 4 [] (VarDecl {| v_isParm := false; v_name := $"i"; v_used := false; v_referenced := false; v_local := true; v_staticMember := false; v_private := false; v_unusedAttr := false; v_defaultArg := false; v_canonicalType := $"int"; v_inTemplate := false; v_contexts := [CxFunction true true false; CxRecord] |} (Some (Node 5 [] (IntegerLiteral (1)%Z)))))]))])))))])))];
     ts_locs := [(1,1,1,95); (1,71,1,93); (1,80,1,93); (1,82,1,91); (1,82,1,90); (1,90,1,90)]%Z;
     ts_evals := []; ts_same := []; ts_decls := [(0, (Decl [$"oclint:suppress[test ast rule]"] None))]; ts_parents := [(None, true); ((Some 0), true); ((Some 1), false); ((Some 2), false); ((Some 3), true); ((Some 4), false)] |}.
Example SuppressHelperTestAST_SimpleSuppressEntireCXXClass_holds : sorted_violations_of suppressHelperTestASTRule SuppressHelperTestAST_SimpleSuppressEntireCXXClass = Some [].
Proof. vm_compute. reflexivity. Qed.

Definition SuppressHelperTestAST_CXXClassSuppressOnClass : testcase :=
  {| ts_lang := LCXX; ts_path := $"input.cpp"; ts_code := [];
     ts_comments := []; ts_conf := [];
     ts_tops := [(toplevel 0 (TOther), (Node 0 [] (CXXRecordDecl {| r_class := (CxxRecord 0 $"c" true false None []); r_fields := 0; r_methods := 1; r_lines := (1)%Z |} [(Node 1 [] (FunctionDecl {| f_name := $"a"; f_method := (Some {| cm_virtual := false; cm_static := false; cm_private := true; cm_inRecord := true |}); f_isDefinition := false; f_bodyLines := (1)%Z |} [] None))]))); (toplevel 2 (TFunction false), (Node 2 [] (FunctionDecl {| f_name := $"a"; f_method := (Some {| cm_virtual := false; cm_static := false; cm_private := true; cm_inRecord := false |}); f_isDefinition := true; f_bodyLines := (1)%Z |} [] (Some (Node 3 [] (CompoundStmt []))))))];
     ts_locs := [(1,1,1,66); (1,56,1,63); (2,1,2,14); (2,13,2,14)]%Z;
     ts_evals := []; ts_same := []; ts_decls := [(0, (Decl [$"oclint:suppress"] None))]; ts_parents := [(None, true); ((Some 0), true); (None, true); ((Some 2), false)] |}.
Example SuppressHelperTestAST_CXXClassSuppressOnClass_holds : nth_violation suppressHelperTestASTRule SuppressHelperTestAST_CXXClassSuppressOnClass 1 = Some (2, 13, 2, 14, $"")%Z.
Proof. vm_compute. reflexivity. Qed.

Definition SuppressHelperTestAST_CXXClassSuppressOnMethod : testcase :=
  {| ts_lang := LCXX; ts_path := $"input.cpp"; ts_code := [];
     ts_comments := []; ts_conf := [];
     ts_tops := [(toplevel 0 (TOther), (Node 0 [] (CXXRecordDecl {| r_class := (CxxRecord 0 $"c" true false None []); r_fields := 0; r_methods := 1; r_lines := (1)%Z |} [(Node 1 [] (FunctionDecl {| f_name := $"a"; f_method := (Some {| cm_virtual := false; cm_static := false; cm_private := true; cm_inRecord := true |}); f_isDefinition := false; f_bodyLines := (1)%Z |} [] None))]))); (toplevel 2 (TFunction false), (Node 2 [] (FunctionDecl {| f_name := $"a"; f_method := (Some {| cm_virtual := false; cm_static := false; cm_private := true; cm_inRecord := false |}); f_isDefinition := true; f_bodyLines := (1)%Z |} [] (Some (Node 3 [] (CompoundStmt [(Node 4 [] (DeclStmt [(Node 5 [] (VarDecl {| v_isParm := false; v_name := $"i"; v_used := false; v_referenced := false; v_local := true; v_staticMember := false; v_private := false; v_unusedAttr := false; v_defaultArg := false; v_canonicalType := $"int"; v_inTemplate := false; v_contexts := [CxFunction true true false] |} (Some (Node 6 [] (IntegerLiteral (1)%Z)))))]))]))))))];
     ts_locs := [(1,1,1,21); (1,11,1,18); (2,1,2,71); (2,58,2,71); (2,60,2,69); (2,60,2,68); (2,68,2,68)]%Z;
     ts_evals := []; ts_same := []; ts_decls := [(2, (Decl [$"oclint:suppress"] None))]; ts_parents := [(None, true); ((Some 0), true); (None, true); ((Some 2), false); ((Some 3), false); ((Some 4), true); ((Some 5), false)] |}.
Example SuppressHelperTestAST_CXXClassSuppressOnMethod_holds : nth_violation suppressHelperTestASTRule SuppressHelperTestAST_CXXClassSuppressOnMethod 1 = Some (1, 11, 1, 18, $"")%Z.
Proof. vm_compute. reflexivity. Qed.

Definition SuppressHelperTestAST_ObjCContainerSuppressOnAtInterface : testcase :=
  {| ts_lang := LObjC; ts_path := $"input.m"; ts_code := [];
     ts_comments := []; ts_conf := [];
     ts_tops := [(toplevel 0 (TOther), (Node 0 [] (ObjCContainerDecl {| oc_kind := OKInterface; oc_name := $"a"; oc_lines := (4)%Z; oc_ivars := 1; oc_methods := []; oc_classes := [$"a"]; oc_superMethods := None |} [(Node 1 [] (OtherDecl []))])))];
     ts_locs := [(1,46,4,2); (2,1,2,5)]%Z;
     ts_evals := []; ts_same := []; ts_decls := [(0, (Decl [$"oclint:suppress"] None))]; ts_parents := [(None, true); ((Some 0), true)] |}.
Example SuppressHelperTestAST_ObjCContainerSuppressOnAtInterface_holds : sorted_violations_of suppressHelperTestASTRule SuppressHelperTestAST_ObjCContainerSuppressOnAtInterface = Some [].
Proof. vm_compute. reflexivity. Qed.

Definition SuppressHelperTestAST_ObjCContainerSuppressOnAtProtocol : testcase :=
  {| ts_lang := LObjC; ts_path := $"input.m"; ts_code := [];
     ts_comments := []; ts_conf := [];
     ts_tops := [(toplevel 0 (TOther), (Node 0 [] (ObjCContainerDecl {| oc_kind := OKProtocol; oc_name := $"a"; oc_lines := (3)%Z; oc_ivars := 0; oc_methods := [($"m", true)]; oc_classes := []; oc_superMethods := None |} [(Node 1 [] (ObjCMethodDecl {| om_selector := $"m"; om_class := None; om_overriding := false; om_overridden := []; om_bodyLines := (0)%Z |} [] None))])))];
     ts_locs := [(1,46,3,2); (2,1,2,9)]%Z;
     ts_evals := []; ts_same := []; ts_decls := [(0, (Decl [$"oclint:suppress"] None)); (1, (Decl [] (Some (Method false None (InProtocol (Some []))))))]; ts_parents := [(None, true); ((Some 0), true)] |}.
Example SuppressHelperTestAST_ObjCContainerSuppressOnAtProtocol_holds : sorted_violations_of suppressHelperTestASTRule SuppressHelperTestAST_ObjCContainerSuppressOnAtProtocol = Some [].
Proof. vm_compute. reflexivity. Qed.

Definition SuppressHelperTestAST_ObjCContainerSuppressOnMethod : testcase :=
  {| ts_lang := LObjC; ts_path := $"input.m"; ts_code := [];
     ts_comments := []; ts_conf := [];
     ts_tops := [(toplevel 0 (TOther), (Node 0 [] (ObjCContainerDecl {| oc_kind := OKInterface; oc_name := $"a"; oc_lines := (5)%Z; oc_ivars := 1; oc_methods := [($"m", true)]; oc_classes := [$"a"]; oc_superMethods := None |} [(Node 1 [] (OtherDecl [])); (Node 2 [] (ObjCMethodDecl {| om_selector := $"m"; om_class := (Some $"a"); om_overriding := false; om_overridden := []; om_bodyLines := (0)%Z |} [] None))]))); (toplevel 3 (TOther), (Node 3 [] (ObjCContainerDecl {| oc_kind := OKImplementation; oc_name := $"a"; oc_lines := (3)%Z; oc_ivars := 0; oc_methods := [($"m", true)]; oc_classes := [$"a"]; oc_superMethods := None |} [(Node 4 [] (ObjCMethodDecl {| om_selector := $"m"; om_class := (Some $"a"); om_overriding := false; om_overridden := []; om_bodyLines := (1)%Z |} [] (Some (Node 5 [] (CompoundStmt [])))))])))];
     ts_locs := [(1,46,5,2); (2,1,2,5); (4,1,4,54); (6,52,8,1); (7,1,7,56); (7,55,7,56)]%Z;
     ts_evals := []; ts_same := []; ts_decls := [(0, (Decl [$"oclint:suppress"] None)); (2, (Decl [$"oclint:suppress"] (Some (Method false None (InOther (Some NoCategory)))))); (4, (Decl [$"oclint:suppress"] (Some (Method false None (InOther (Some NoCategory))))))]; ts_parents := [(None, true); ((Some 0), true); ((Some 0), true); (None, true); ((Some 3), true); ((Some 4), false)] |}.
Example SuppressHelperTestAST_ObjCContainerSuppressOnMethod_holds : nth_violation suppressHelperTestASTRule SuppressHelperTestAST_ObjCContainerSuppressOnMethod 0 = Some (6, 52, 8, 1, $"")%Z.
Proof. vm_compute. reflexivity. Qed.

Definition SuppressHelperTestAST_SimpleNOLINT : testcase :=
  {| ts_lang := LC; ts_path := $"input.c"; ts_code := [];
     ts_comments := [($"//!OCLINT", 1%Z)]; ts_conf := [];
     ts_tops := [(toplevel 0 (TFunction false), (Node 0 [] (FunctionDecl {| f_name := $"a"; f_method := None; f_isDefinition := true; f_bodyLines := (1)%Z |} [] (Some (Node 1 [] (CompoundStmt []))))))];
     ts_locs := [(1,1,1,11); (1,10,1,11)]%Z;
     ts_evals := []; ts_same := []; ts_decls := []; ts_parents := [] |}.
Example SuppressHelperTestAST_SimpleNOLINT_holds : sorted_violations_of suppressHelperTestASTRule SuppressHelperTestAST_SimpleNOLINT = Some [].
Proof. vm_compute. reflexivity. Qed.

Definition SuppressHelperTestAST_MultipleLineNOLINT : testcase :=
  {| ts_lang := LC; ts_path := $"input.c"; ts_code := [];
     ts_comments := [($"//!OCLINT", 1%Z); ($"//!OCLINT", 2%Z)]; ts_conf := [];
     ts_tops := [(toplevel 0 (TFunction false), (Node 0 [] (FunctionDecl {| f_name := $"a"; f_method := None; f_isDefinition := true; f_bodyLines := (3)%Z |} [] (Some (Node 1 [] (CompoundStmt [(Node 2 [] (IfStmt [] (Node 3 [] (IntegerLiteral (1)%Z)) (Node 4 [] (CompoundStmt [])) None))]))))))];
     ts_locs := [(1,1,3,2); (1,10,3,2); (2,2,3,1); (2,6,2,6); (2,9,3,1)]%Z;
     ts_evals := [(3, true)]; ts_same := []; ts_decls := []; ts_parents := [] |}.
Example SuppressHelperTestAST_MultipleLineNOLINT_holds : sorted_violations_of suppressHelperTestASTRule SuppressHelperTestAST_MultipleLineNOLINT = Some [].
Proof. vm_compute. reflexivity. Qed.

Definition SuppressHelperTestAST_CommentWithDescriptionNOLINT : testcase :=
  {| ts_lang := LC; ts_path := $"input.c"; ts_code := [];
     ts_comments := [($"//!OCLINT(reason for suppressing this is blahblah)", 1%Z)]; ts_conf := [];
     ts_tops := [(toplevel 0 (TFunction false), (Node 0 [] (FunctionDecl {| f_name := $"a"; f_method := None; f_isDefinition := true; f_bodyLines := (1)%Z |} [] (Some (Node 1 [] (CompoundStmt []))))))];
     ts_locs := [(1,1,1,11); (1,10,1,11)]%Z;
     ts_evals := []; ts_same := []; ts_decls := []; ts_parents := [] |}.
Example SuppressHelperTestAST_CommentWithDescriptionNOLINT_holds : sorted_violations_of suppressHelperTestASTRule SuppressHelperTestAST_CommentWithDescriptionNOLINT = Some [].
Proof. vm_compute. reflexivity. Qed.

Definition SuppressHelperTestAST_CommentWithDescriptionNOLINT_2 : testcase :=
  {| ts_lang := LC; ts_path := $"input.c"; ts_code := [];
     ts_comments := [($"//!OCLINT[reason for suppressing this is blahblah]", 1%Z)]; ts_conf := [];
     ts_tops := [(toplevel 0 (TFunction false), (Node 0 [] (FunctionDecl {| f_name := $"a"; f_method := None; f_isDefinition := true; f_bodyLines := (1)%Z |} [] (Some (Node 1 [] (CompoundStmt []))))))];
     ts_locs := [(1,1,1,11); (1,10,1,11)]%Z;
     ts_evals := []; ts_same := []; ts_decls := []; ts_parents := [] |}.
Example SuppressHelperTestAST_CommentWithDescriptionNOLINT_2_holds : sorted_violations_of suppressHelperTestASTRule SuppressHelperTestAST_CommentWithDescriptionNOLINT_2 = Some [].
Proof. vm_compute. reflexivity. Qed.

Definition SuppressHelperTestAST_CommentWithDescriptionNOLINT_3 : testcase :=
  {| ts_lang := LC; ts_path := $"input.c"; ts_code := [];
     ts_comments := [($"//!OCLINT:reason for suppressing this is blahblah)", 1%Z)]; ts_conf := [];
     ts_tops := [(toplevel 0 (TFunction false), (Node 0 [] (FunctionDecl {| f_name := $"a"; f_method := None; f_isDefinition := true; f_bodyLines := (1)%Z |} [] (Some (Node 1 [] (CompoundStmt []))))))];
     ts_locs := [(1,1,1,11); (1,10,1,11)]%Z;
     ts_evals := []; ts_same := []; ts_decls := []; ts_parents := [] |}.
Example SuppressHelperTestAST_CommentWithDescriptionNOLINT_3_holds : sorted_violations_of suppressHelperTestASTRule SuppressHelperTestAST_CommentWithDescriptionNOLINT_3 = Some [].
Proof. vm_compute. reflexivity. Qed.

Definition SuppressHelperTestAST_CommentWithDescriptionNOLINT_4 : testcase :=
  {| ts_lang := LC; ts_path := $"input.c"; ts_code := [];
     ts_comments := [($"//!OCLINT     ", 1%Z)]; ts_conf := [];
     ts_tops := [(toplevel 0 (TFunction false), (Node 0 [] (FunctionDecl {| f_name := $"a"; f_method := None; f_isDefinition := true; f_bodyLines := (1)%Z |} [] (Some (Node 1 [] (CompoundStmt []))))))];
     ts_locs := [(1,1,1,11); (1,10,1,11)]%Z;
     ts_evals := []; ts_same := []; ts_decls := []; ts_parents := [] |}.
Example SuppressHelperTestAST_CommentWithDescriptionNOLINT_4_holds : sorted_violations_of suppressHelperTestASTRule SuppressHelperTestAST_CommentWithDescriptionNOLINT_4 = Some [].
Proof. vm_compute. reflexivity. Qed.

Definition SuppressHelperTestSourceCodeReader_NoSuppress : testcase :=
  {| ts_lang := LC; ts_path := $"input.c"; ts_code := (source [$"void a() {}"]);
     ts_comments := []; ts_conf := [];
     ts_tops := [(toplevel 0 (TFunction false), (Node 0 [] (FunctionDecl {| f_name := $"a"; f_method := None; f_isDefinition := true; f_bodyLines := (1)%Z |} [] (Some (Node 1 [] (CompoundStmt []))))))];
     ts_locs := [(1,1,1,11); (1,10,1,11)]%Z;
     ts_evals := []; ts_same := []; ts_decls := []; ts_parents := [] |}.
Example SuppressHelperTestSourceCodeReader_NoSuppress_holds : nth_violation suppressHelperTestSourceCodeReaderRule SuppressHelperTestSourceCodeReader_NoSuppress 0 = Some (1, 1, 1, 11, $"")%Z.
Proof. vm_compute. reflexivity. Qed.

Definition SuppressHelperTestSourceCodeReader_SuppressByComment : testcase :=
  {| ts_lang := LC; ts_path := $"input.c"; ts_code := (source [$"void a() {} //!OCLINT"]);
     ts_comments := [($"//!OCLINT", 1%Z)]; ts_conf := [];
     ts_tops := [(toplevel 0 (TFunction false), (Node 0 [] (FunctionDecl {| f_name := $"a"; f_method := None; f_isDefinition := true; f_bodyLines := (1)%Z |} [] (Some (Node 1 [] (CompoundStmt []))))))];
     ts_locs := [(1,1,1,11); (1,10,1,11)]%Z;
     ts_evals := []; ts_same := []; ts_decls := []; ts_parents := [] |}.
Example SuppressHelperTestSourceCodeReader_SuppressByComment_holds : sorted_violations_of suppressHelperTestSourceCodeReaderRule SuppressHelperTestSourceCodeReader_SuppressByComment = Some [].
Proof. vm_compute. reflexivity. Qed.

Definition SuppressHelperTestSourceCodeReader_SuppressEntireMethod : testcase :=
  {| ts_lang := LC; ts_path := $"input.c"; ts_code := (source [$"void __attribute__((annotate(""oclint:suppress[test source code rule]""))) a()"; $"{"; $"int i = 1;"; $"}"; $""]);
     ts_comments := []; ts_conf := [];
     ts_tops := [(toplevel 0 (TFunction false), (Node 0 [] (FunctionDecl {| f_name := $"a"; f_method := None; f_isDefinition := true; f_bodyLines := (3)%Z |} [] (Some (Node 1 [] (CompoundStmt [(Node 2 [] (DeclStmt [(Node 3 [] (VarDecl {| v_isParm := false; v_name := $"i"; v_used := false; v_referenced := false; v_local := true; v_staticMember := false; v_private := false; v_unusedAttr := false; v_defaultArg := false; v_canonicalType := $"int"; v_inTemplate := false; v_contexts := [CxFunction true true false] |} (Some (Node 4 [] (IntegerLiteral (1)%Z)))))]))]))))))];
     ts_locs := [(1,1,4,1); (2,1,4,1); (3,1,3,10); (3,1,3,9); (3,9,3,9)]%Z;
     ts_evals := []; ts_same := []; ts_decls := [(0, (Decl [$"oclint:suppress[test source code rule]"] None))]; ts_parents := [(None, true); ((Some 0), false); ((Some 1), false); ((Some 2), true); ((Some 3), false)] |}.
Example SuppressHelperTestSourceCodeReader_SuppressEntireMethod_holds : sorted_violations_of suppressHelperTestSourceCodeReaderRule SuppressHelperTestSourceCodeReader_SuppressEntireMethod = Some [].
Proof. vm_compute. reflexivity. Qed.

Definition SuppressHelperTestSourceCodeReader_SimpleSuppressEntireCXXClass : testcase :=
  {| ts_lang := LCXX; ts_path := $"input.cpp"; ts_code := (source [$"class __attribute__((annotate(""oclint:suppress[test source code rule]""))) c"; $"{"; $"void a()"; $"{"; $"int i = 1;"; $"}"; $"};"; $""]);
     ts_comments := []; ts_conf := [];
     ts_tops := [(toplevel 0 (TOther), (Node 0 [] (CXXRecordDecl {| r_class := (CxxRecord 0 $"c" true false None []); r_fields := 0; r_methods := 1; r_lines := (7)%Z |} [(Node 1 [] (FunctionDecl {| f_name := $"a"; f_method := (Some {| cm_virtual := false; cm_static := false; cm_private := true; cm_inRecord := true |}); f_isDefinition := true; f_bodyLines := (3)%Z |} [] (Some (Node 2 [] (CompoundStmt [(Node 3 [] (DeclStmt [(Node 4 [] (VarDecl {| v_isParm := false; v_name := $"i"; v_used := false; v_referenced := false; v_local := true; v_staticMember := false; v_private := false; v_unusedAttr := false; v_defaultArg := false; v_canonicalType := $"int"; v_inTemplate := false; v_contexts := [CxFunction true true false; CxRecord] |} (Some (Node 5 [] (IntegerLiteral (1)%Z)))))]))])))))])))];
     ts_locs := [(1,1,7,1); (3,1,6,1); (4,1,6,1); (5,1,5,10); (5,1,5,9); (5,9,5,9)]%Z;
     ts_evals := []; ts_same := []; ts_decls := [(0, (Decl [$"oclint:suppress[test source code rule]"] None))]; ts_parents := [(None, true); ((Some 0), true); ((Some 1), false); ((Some 2), false); ((Some 3), true); ((Some 4), false)] |}.
Example SuppressHelperTestSourceCodeReader_SimpleSuppressEntireCXXClass_holds : sorted_violations_of suppressHelperTestSourceCodeReaderRule SuppressHelperTestSourceCodeReader_SimpleSuppressEntireCXXClass = Some [].
Proof. vm_compute. reflexivity. Qed.

Definition SuppressHelperTestSourceCodeReader_ObjCContainerSuppressOnAtInterface : testcase :=
  {| ts_lang := LObjC; ts_path := $"input.m"; ts_code := (source [$"__attribute__((annotate(""oclint:suppress""))) @interface a {"; $"int i;"; $"}"; $"@end"]);
     ts_comments := []; ts_conf := [];
     ts_tops := [(toplevel 0 (TOther), (Node 0 [] (ObjCContainerDecl {| oc_kind := OKInterface; oc_name := $"a"; oc_lines := (4)%Z; oc_ivars := 1; oc_methods := []; oc_classes := [$"a"]; oc_superMethods := None |} [(Node 1 [] (OtherDecl []))])))];
     ts_locs := [(1,46,4,2); (2,1,2,5)]%Z;
     ts_evals := []; ts_same := []; ts_decls := [(0, (Decl [$"oclint:suppress"] None))]; ts_parents := [(None, true); ((Some 0), true)] |}.
Example SuppressHelperTestSourceCodeReader_ObjCContainerSuppressOnAtInterface_holds : sorted_violations_of suppressHelperTestSourceCodeReaderRule SuppressHelperTestSourceCodeReader_ObjCContainerSuppressOnAtInterface = Some [].
Proof. vm_compute. reflexivity. Qed.

