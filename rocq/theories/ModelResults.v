(** * Model of oclint-core: violations, result collector, result views *)
From Verif Require Import Base.

(** A [RuleBase*] is an address or the null pointer ([None]). *)
Definition ruleptr := option nat.

(** oclint-core/include/oclint/RuleBase.h:16-41 -- what the virtual functions of a rule
    object answer.  The object an address denotes is given by an environment
    [nat -> ruleinfo]. *)
Record ruleinfo := {
  ri_name : str;
  ri_identifier : str;
  ri_category : str;
  ri_priority : Z
}.
Definition ruleenv := nat -> ruleinfo.

(** oclint-core/include/oclint/Violation.h:11-28, lib/Violation.cpp:9-20.
    Line and column numbers are unbounded integers here (32-bit [int] in the code; they
    are only copied and compared). *)
Record violation := {
  v_rule : ruleptr;
  v_path : str;
  v_startLine : Z;
  v_startColumn : Z;
  v_endLine : Z;
  v_endColumn : Z;
  v_message : str
}.

Definition ptr_eqb (a b : ruleptr) : bool :=
  match a, b with
  | None, None => true
  | Some x, Some y => Nat.eqb x y
  | _, _ => false
  end.

(** oclint-core/lib/Violation.cpp:22-31 -- [Violation::operator==]. *)
Definition violation_eqb (l r : violation) : bool :=
  ptr_eqb (v_rule l) (v_rule r)
  && str_eqb (v_path l) (v_path r)
  && Z.eqb (v_startLine l) (v_startLine r)
  && Z.eqb (v_startColumn l) (v_startColumn r)
  && Z.eqb (v_endLine l) (v_endLine r)
  && Z.eqb (v_endColumn l) (v_endColumn r)
  && str_eqb (v_message l) (v_message r).

(** oclint-core/lib/ViolationSet.cpp:5-18 -- a growing vector. *)
Definition violationset := list violation.
Definition vs_addViolation (s : violationset) (v : violation) : violationset := s ++ [v].
Definition vs_numberOfViolations (s : violationset) : Z := Z.of_nat (length s).

(** oclint-core/lib/ResultCollector.cpp:19-68.  The collection is a vector of pointers to
    sets; each set is complete when it is added (RulesetBasedAnalyzer.cpp:27-36), so the
    model stores the sets themselves. *)
Record collector := {
  c_collection : list violationset;
  c_errors : violationset;
  c_warnings : violationset;
  c_bugs : violationset
}.
Definition c_empty : collector :=
  {| c_collection := []; c_errors := []; c_warnings := []; c_bugs := [] |}.
(** ResultCollector.cpp:30-33 *)
Definition c_add (c : collector) (s : violationset) : collector :=
  {| c_collection := c_collection c ++ [s]; c_errors := c_errors c;
     c_warnings := c_warnings c; c_bugs := c_bugs c |}.
(** ResultCollector.cpp:40-43 *)
Definition c_addError (c : collector) (v : violation) : collector :=
  {| c_collection := c_collection c; c_errors := vs_addViolation (c_errors c) v;
     c_warnings := c_warnings c; c_bugs := c_bugs c |}.
(** ResultCollector.cpp:50-53 *)
Definition c_addWarning (c : collector) (v : violation) : collector :=
  {| c_collection := c_collection c; c_errors := c_errors c;
     c_warnings := vs_addViolation (c_warnings c) v; c_bugs := c_bugs c |}.
(** ResultCollector.cpp:60-63 *)
Definition c_addCheckerBug (c : collector) (v : violation) : collector :=
  {| c_collection := c_collection c; c_errors := c_errors c;
     c_warnings := c_warnings c; c_bugs := vs_addViolation (c_bugs c) v |}.

(** ** RawResults.cpp:12-38 *)
Definition push_all (acc : list violation) (s : violationset) : list violation :=
  fold_left (fun a v => a ++ [v]) s acc.
Definition raw_allViolations (c : collector) : list violation :=
  fold_left push_all (c_collection c) [].
Definition raw_allErrors (c : collector) := c_errors c.
Definition raw_allWarnings (c : collector) := c_warnings c.
Definition raw_allCheckerBugs (c : collector) := c_bugs c.

(** ** UniqueResults.cpp *)

(** UniqueResults.cpp:12-26 -- [ViolationHash], over the unspecified [std::hash] of
    pointers and strings; arithmetic on [size_t] (64 bit).  [hash4] is computed on [int]
    in the code and sign-extended; the model uses unbounded shifts before the wrap. *)
Definition wrap64 (z : Z) : Z := (z mod 18446744073709551616)%Z.
Definition violation_hash (hptr : ruleptr -> Z) (hstr : str -> Z) (v : violation) : Z :=
  let hash1 := hptr (v_rule v) in
  let hash2 := hstr (v_path v) in
  let hash3 := hstr (v_message v) in
  let hash4 := Z.lxor (Z.lxor (v_startLine v) (Z.shiftl (v_startColumn v) 2))
                 (Z.lxor (Z.shiftl (v_endLine v) 4) (Z.shiftl (v_endColumn v) 8)) in
  wrap64 (Z.lxor (Z.lxor (Z.lxor (Z.lxor hash1 (Z.shiftl hash2 1)) (Z.shiftl hash2 2))
            (Z.shiftl hash3 3)) (Z.shiftl hash4 4)).

(** [std::unordered_set<Violation, Hash>]: the elements with their hash values.  [insert]
    compares only with elements of the same hash, using [operator==].  Simplification:
    bucket counts and rehashing are not modelled (they do not change membership). *)
Definition hashset := list (Z * violation).
Definition hs_contains (h : violation -> Z) (s : hashset) (v : violation) : bool :=
  existsb (fun e => Z.eqb (fst e) (h v) && violation_eqb (snd e) v) s.
Definition hs_insert (h : violation -> Z) (s : hashset) (v : violation) : hashset * bool :=
  if hs_contains h s v then (s, false) else ((h v, v) :: s, true).

(** UniqueResults.cpp:28-43 -- [removeViolationDuplications]. *)
Fixpoint dedup_loop (h : violation -> Z) (original : list violation)
    (set : hashset) (violations : list violation) : list violation :=
  match original with
  | [] => violations
  | v :: rest =>
      let r := hs_insert h set v in
      dedup_loop h rest (fst r) (if snd r then violations ++ [v] else violations)
  end.
Definition removeViolationDuplications (h : violation -> Z) (original : list violation)
  : list violation := dedup_loop h original [] [].

(** UniqueResults.h:14-17 -- the memoised answers. *)
Record ucache := {
  u_violations : list violation;
  u_errors : list violation;
  u_warnings : list violation;
  u_bugs : list violation
}.
Definition u_fresh : ucache :=
  {| u_violations := []; u_errors := []; u_warnings := []; u_bugs := [] |}.

(** UniqueResults.cpp:56-73 *)
Definition unique_allViolations (h : violation -> Z) (c : collector) (u : ucache)
  : list violation * ucache :=
  if negb (is_nil (u_violations u)) then (u_violations u, u)
  else
    let violations := fold_left push_all (c_collection c) [] in
    let r := removeViolationDuplications h violations in
    (r, {| u_violations := r; u_errors := u_errors u;
           u_warnings := u_warnings u; u_bugs := u_bugs u |}).
(** UniqueResults.cpp:75-85 *)
Definition unique_allErrors (h : violation -> Z) (c : collector) (u : ucache)
  : list violation * ucache :=
  if negb (is_nil (u_errors u)) then (u_errors u, u)
  else
    let r := removeViolationDuplications h (c_errors c) in
    (r, {| u_violations := u_violations u; u_errors := r;
           u_warnings := u_warnings u; u_bugs := u_bugs u |}).
(** UniqueResults.cpp:87-97 *)
Definition unique_allWarnings (h : violation -> Z) (c : collector) (u : ucache)
  : list violation * ucache :=
  if negb (is_nil (u_warnings u)) then (u_warnings u, u)
  else
    let r := removeViolationDuplications h (c_warnings c) in
    (r, {| u_violations := u_violations u; u_errors := u_errors u;
           u_warnings := r; u_bugs := u_bugs u |}).
(** UniqueResults.cpp:99-109 *)
Definition unique_allCheckerBugs (h : violation -> Z) (c : collector) (u : ucache)
  : list violation * ucache :=
  if negb (is_nil (u_bugs u)) then (u_bugs u, u)
  else
    let r := removeViolationDuplications h (c_bugs c) in
    (r, {| u_violations := u_violations u; u_errors := u_errors u;
           u_warnings := u_warnings u; u_bugs := r |}).

(** ** AbstractResults.cpp *)

(** AbstractResults.cpp:14-17 *)
Definition numberOfFiles (c : collector) : Z := Z.of_nat (length (c_collection c)).

(** AbstractResults.cpp:19-31.  [std::map<std::string,int>] as an association list with
    distinct keys; [mapping[path] += n] inserts or adds. *)
Fixpoint map_add (m : list (str * Z)) (k : str) (n : Z) : list (str * Z) :=
  match m with
  | [] => [(k, n)]
  | (k', n') :: m' => if str_eqb k' k then (k', (n' + n)%Z) :: m' else (k', n') :: map_add m' k n
  end.
Definition fwv_step (m : list (str * Z)) (s : violationset) : list (str * Z) :=
  match s with
  | [] => m                                   (* numberOfViolations() > 0 fails *)
  | v :: _ => map_add m (v_path v) (vs_numberOfViolations s)
  end.
Definition numberOfFilesWithViolations (c : collector) : Z :=
  Z.of_nat (length (fold_left fwv_step (c_collection c) [])).

(** AbstractResults.cpp:33-36, 52-80 *)
Definition numberOfList (l : list violation) : Z := Z.of_nat (length l).
Definition hasList (l : list violation) : bool := (0 <? numberOfList l)%Z.

(** AbstractResults.cpp:38-50.  A null rule pointer is dereferenced: undefined. *)
Fixpoint numberWithPriority_loop (env : ruleenv) (p : Z) (l : list violation) (n : Z)
  : outcome Z :=
  match l with
  | [] => Val n
  | v :: l' =>
      match v_rule v with
      | None => UB
      | Some a => numberWithPriority_loop env p l'
                    (if Z.eqb (ri_priority (env a)) p then (n + 1)%Z else n)
      end
  end.
Definition numberOfViolationsWithPriority (env : ruleenv) (l : list violation) (p : Z)
  : outcome Z := numberWithPriority_loop env p l 0%Z.

(** ** The object a client holds: either view over the one collector.
    main.cpp:101-113 [getResults] creates it; afterwards it is only queried. *)
Inductive results :=
| RawR
| UniqueR (u : ucache).

Definition getResults (allowDuplicated : bool) : results :=
  if allowDuplicated then RawR else UniqueR u_fresh.

Inductive query := QViolations | QErrors | QWarnings | QBugs.

Definition ask (h : violation -> Z) (c : collector) (r : results) (q : query)
  : list violation * results :=
  match r with
  | RawR =>
      (match q with
       | QViolations => raw_allViolations c
       | QErrors => raw_allErrors c
       | QWarnings => raw_allWarnings c
       | QBugs => raw_allCheckerBugs c
       end, RawR)
  | UniqueR u =>
      let p := match q with
               | QViolations => unique_allViolations h c u
               | QErrors => unique_allErrors h c u
               | QWarnings => unique_allWarnings h c u
               | QBugs => unique_allCheckerBugs h c u
               end in
      (fst p, UniqueR (snd p))
  end.

(** Recording operations interleaved with queries (history of one process). *)
Inductive rop :=
| RecSet (s : violationset)
| RecError (v : violation)
| RecWarning (v : violation)
| RecBug (v : violation)
| Ask (q : query).

Definition record (c : collector) (o : rop) : collector :=
  match o with
  | RecSet s => c_add c s
  | RecError v => c_addError c v
  | RecWarning v => c_addWarning c v
  | RecBug v => c_addCheckerBug c v
  | Ask _ => c
  end.

(** Runs a history; yields the final state and the answers given, in order. *)
Fixpoint run_hist (h : violation -> Z) (ops : list rop) (c : collector) (r : results)
  : collector * results * list (query * list violation) :=
  match ops with
  | [] => (c, r, [])
  | o :: ops' =>
      match o with
      | Ask q =>
          let a := ask h c r q in
          let '(c', r', ans) := run_hist h ops' c (snd a) in
          (c', r', (q, fst a) :: ans)
      | _ => run_hist h ops' (record c o) r
      end
  end.

(** ** RuleCarrier.cpp:36-45 *)
Definition carrier_addViolation (s : violationset) (path : str) (sl sc el ec : Z)
    (rule : ruleptr) (message : str) : violationset :=
  if negb (str_eqb path []) then
    vs_addViolation s
      {| v_rule := rule; v_path := path; v_startLine := sl; v_startColumn := sc;
         v_endLine := el; v_endColumn := ec; v_message := message |}
  else s.
