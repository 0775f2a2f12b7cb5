(** * OCLint's own unit tests of the core library, as examples about the model

    These are tests of the transcription, not proofs of properties (see DESIGN.md).  This file
    holds the tests of the small classes, written out by hand, and the vocabulary in which
    ConformanceResults.v states those of the result views and of the reporters. *)
From Verif Require Import Base ModelResults ModelConfig ModelFilter ModelOptions ModelMain ModelReporters ModelRuleTable.
Local Open Scope Z_scope.

(** ** Vocabulary *)
Definition viol (rule : ruleptr) (path : str) (sl sc el ec : Z) (message : str) : violation :=
  {| v_rule := rule; v_path := path; v_startLine := sl; v_startColumn := sc; v_endLine := el; v_endColumn := ec; v_message := message |}.
(** The mock rules: priority 1 at even, 2 at odd addresses; 201 is the rule of PMDReporterTest.
    A gmock object without expectations answers the empty string and 0 (addresses from 100). *)
Definition mock : ruleenv := fun a =>
  if Nat.eqb a 201 then {| ri_name := $"rule name"; ri_identifier := []; ri_category := $"rule category"; ri_priority := 3 |}
  else {| ri_name := []; ri_identifier := []; ri_category := [];
          ri_priority := if Nat.leb 100 a then 0 else if Nat.even a then 1 else 2 |}.
Definition hash : violation -> Z :=
  violation_hash (fun p => match p with Some a => Z.of_nat a | None => 0 end) (fun s => Z.of_nat (length s)).

(** One statement of a test of a result view. *)
Inductive statement :=
| Do (o : rop)
| Number (q : query) (n : Z)
| Has (q : query) (b : bool)
| Priority (p n : Z)
| Files (n : Z)
| FilesWith (n : Z)
| At (q : query) (i : nat) (v : violation).

Fixpoint agreeing (c : collector) (r : results) (l : list statement) : bool :=
  match l with
  | [] => true
  | Do o :: l' => agreeing (record c o) r l'
  | Number q n :: l' => let '(a, r') := ask hash c r q in Z.eqb (numberOfList a) n && agreeing c r' l'
  | Has q b :: l' => let '(a, r') := ask hash c r q in Bool.eqb (hasList a) b && agreeing c r' l'
  | Priority p n :: l' =>
      let '(a, r') := ask hash c r QViolations in
      match numberOfViolationsWithPriority mock a p with Val m => Z.eqb m n | _ => false end && agreeing c r' l'
  | Files n :: l' => Z.eqb (numberOfFiles c) n && agreeing c r l'
  | FilesWith n :: l' => Z.eqb (numberOfFilesWithViolations c) n && agreeing c r l'
  | At q i v :: l' =>
      let '(a, r') := ask hash c r q in
      match nth_error a i with Some w => violation_eqb w v && str_eqb (v_message w) (v_message v) | None => false end && agreeing c r' l'
  end.
Definition agrees (r : results) (l : list statement) : bool := agreeing c_empty r l.

(** What a reporter writes, and the matchers of gmock. *)
Inductive matcher := StrEq (s : str) | StartsWith (s : str) | EndsWith (s : str) | HasSubstr (s : str) | Lacks (s : str).
Fixpoint starts (s t : str) : bool :=
  match s, t with [], _ => true | a :: s', b :: t' => ascii_eqb a b && starts s' t' | _, [] => false end.
Fixpoint contains (s t : str) : bool := starts s t || match t with [] => false | _ :: t' => contains s t' end.
Definition matches (t : str) (m : matcher) : bool :=
  match m with
  | StrEq s => str_eqb t s | StartsWith s => starts s t | EndsWith s => starts (rev s) (rev t)
  | HasSubstr s => contains s t | Lacks s => negb (contains s t)
  end.
Fixpoint text_of (c : collector) (p : reporting) : outcome str :=
  match p with RDone o => o | RAsk q k => text_of c (k (fst (ask hash c RawR q))) end.
Definition writes (c : collector) (p : reporting) (l : list matcher) : bool :=
  match text_of c p with Val t => forallb (matches t) l | _ => false end.

(** ** oclint-core/test/ViolationSetTest.cpp, RuleCarrierTest.cpp *)
Example ViolationSet_EmptySet : vs_numberOfViolations [] = 0.
Proof. reflexivity. Qed.
Example ViolationSet_AddViolation :
  let s := vs_addViolation [] (viol (Some 7%nat) $"test path" 1 2 3 4 $"test message") in
  vs_numberOfViolations s = 1 /\ nth_error s 0 = Some (viol (Some 7%nat) $"test path" 1 2 3 4 $"test message").
Proof. split; reflexivity. Qed.
Example RuleCarrier_AddViolation :
  let s := carrier_addViolation [] $"test path" 1 2 3 4 (Some 7%nat) $"test message" in
  vs_numberOfViolations s = 1 /\ nth_error s 0 = Some (viol (Some 7%nat) $"test path" 1 2 3 4 $"test message").
Proof. split; reflexivity. Qed.
Example RuleCarrier_AddViolationWithEmptyFilePath :
  vs_numberOfViolations (carrier_addViolation [] [] 1 2 3 4 (Some 7%nat) $"test message") = 0.
Proof. reflexivity. Qed.

(** ** oclint-core/test/ResultCollectorTest.cpp *)
Example ResultCollector_EmptyResults :
  c_collection c_empty = [] /\ length (c_errors c_empty) = 0%nat /\ length (c_warnings c_empty) = 0%nat /\ length (c_bugs c_empty) = 0%nat.
Proof. repeat split. Qed.
Example ResultCollector_NumberOfViolationSets :
  length (c_collection (c_add c_empty [])) = 1%nat /\ length (c_collection (c_add (c_add c_empty []) [])) = 2%nat.
Proof. split; reflexivity. Qed.
Example ResultCollector_ViolationSetsInCollection :
  let one := [viol (Some 2%nat) [] 1 2 3 4 []] in
  let two := [viol (Some 4%nat) [] 1 2 3 4 []; viol (Some 3%nat) [] 1 2 3 4 []] in
  let c1 := c_add c_empty one in let c2 := c_add c1 [] in let c3 := c_add c2 two in
  c_collection c1 = [one] /\ nth_error (c_collection c2) 1 = Some [] /\ length (c_collection c2) = 2%nat
  /\ nth_error (c_collection c3) 2 = Some two /\ length (c_collection c3) = 3%nat.
Proof. repeat split. Qed.

(** ** oclint-core/test/RuleSetTest.cpp *)
Example RuleSet_EmptyRuleSet : numberOfRules None = 0 /\ getRuleAtIndex None 0 = Val None.
Proof. split; reflexivity. Qed.
Example RuleSet_AddRuleToRuleSet :
  let s := rs_register None (Some 7%nat) in numberOfRules s = 1 /\ getRuleAtIndex s 0 = Val (Some 7%nat) /\ getRuleAtIndex s 1 = Val None.
Proof. repeat split. Qed.
Example RuleSet_StaticRuleVector :
  let s := rs_register (rs_register None (Some 7%nat)) (Some 8%nat) in
  numberOfRules s = 2 /\ getRuleAtIndex s 0 <> Val None /\ getRuleAtIndex s 1 = Val (Some 8%nat) /\ getRuleAtIndex s 2 = Val None.
Proof. repeat split; discriminate. Qed.

(** ** oclint-core/test/RuleBaseTest.cpp *)
Example RuleBase_EmptyName : identifier [] = [] /\ attributeName [] = [].
Proof. split; reflexivity. Qed.
Example RuleBase_SingleWordName : identifier $"name" = $"Name" /\ attributeName $"name" = $"name".
Proof. split; reflexivity. Qed.
Example RuleBase_CamelCase : identifier $"some name" = $"SomeName" /\ attributeName $"some name" = $"some name".
Proof. split; reflexivity. Qed.
Example RuleBase_SpecialChars : identifier $"some/name?" = $"SomeName" /\ attributeName $"some/name?" = $"some/name?".
Proof. split; reflexivity. Qed.

(** ** oclint-core/test/RuleConfigurationTest.cpp *)
Definition value {A : Type} (o : outcome (A * cfg)) : option A := match o with Val p => Some (fst p) | _ => None end.
Example RuleConfiguration_AddConfiguration :
  let c := addConfiguration cfg_fresh $"foo" $"bar" in
  hasKey cfg_fresh $"foo" = false /\ hasKey c $"foo" = true /\ value (valueForKey c $"foo") = Some $"bar"
  /\ hasKey (removeAll c) $"foo" = false.
Proof. repeat split. Qed.
Example RuleConfiguration_AddTwoConfigurations :
  let c := addConfiguration cfg_fresh $"foo" $"bar" in let d := addConfiguration c $"bar" $"foo" in
  hasKey c $"foo" = true /\ hasKey c $"bar" = false /\ value (valueForKey c $"foo") = Some $"bar"
  /\ hasKey d $"bar" = true /\ value (valueForKey d $"bar") = Some $"foo"
  /\ hasKey (removeAll d) $"foo" = false /\ hasKey (removeAll d) $"bar" = false.
Proof. repeat split. Qed.
Example RuleConfiguration_StringValueNoDefault : value (stringForKey cfg_fresh $"foo" []) = Some [].
Proof. reflexivity. Qed.
Example RuleConfiguration_StringValueHasDefault : value (stringForKey cfg_fresh $"foo" $"bar") = Some $"bar".
Proof. reflexivity. Qed.
Example RuleConfiguration_StringValueHasKey :
  let c := addConfiguration cfg_fresh $"foo" $"bar" in
  value (stringForKey c $"foo" []) = Some $"bar" /\ value (stringForKey c $"foo" $"rab") = Some $"bar".
Proof. split; reflexivity. Qed.
Example RuleConfiguration_IntValueNoDefault : value (intForKey cfg_fresh $"foo" 0) = Some 0.
Proof. reflexivity. Qed.
Example RuleConfiguration_IntValueHasDefault : value (intForKey cfg_fresh $"foo" 1) = Some 1.
Proof. reflexivity. Qed.
Example RuleConfiguration_IntValueHasKey :
  let c := addConfiguration cfg_fresh $"foo" $"1" in
  value (intForKey c $"foo" 0) = Some 1 /\ value (intForKey c $"foo" (-1)) = Some 1.
Proof. split; reflexivity. Qed.

(** ** oclint-driver/test/RulesetFilterTest.cpp *)
Example RulesetFilter_FilteredRulesTest :
  let env := fun _ => {| ri_name := $"test rule"; ri_identifier := identifier $"test rule"; ri_category := $"test"; ri_priority := 0 |} in
  let set := rs_register None (Some 7%nat) in
  let on := enableRule f_empty $"TestRule" in
  filteredRules env on set = Val [7%nat] /\ filteredRules env (disableRule on $"TestRule") set = Val [].
Proof. split; reflexivity. Qed.
