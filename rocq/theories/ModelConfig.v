(** * Model of oclint-core: rule configuration, rule identity, rule registry *)
From Verif Require Import Base ModelResults.

(** ** std::map<std::string, std::string> as an association list, one entry per key *)
Definition smap := list (str * str).
Fixpoint smap_find (m : smap) (k : str) : option str :=
  match m with
  | [] => None
  | (k', v) :: m' => if str_eqb k' k then Some v else smap_find m' k
  end.
(** [m[k] = v] *)
Fixpoint smap_set (m : smap) (k v : str) : smap :=
  match m with
  | [] => [(k, v)]
  | (k', v') :: m' => if str_eqb k' k then (k', v) :: m' else (k', v') :: smap_set m' k v
  end.

(** ** oclint-core/lib/RuleConfiguration.cpp *)

(** RuleConfiguration.cpp:8 -- the static pointer; [None] is nullptr. *)
Definition cfg := option smap.
Definition cfg_fresh : cfg := None.

(** RuleConfiguration.cpp:10-18 *)
Definition addConfiguration (c : cfg) (key value : str) : cfg :=
  let m := match c with None => [] | Some m => m end in
  Some (smap_set m key value).

(** RuleConfiguration.cpp:20-24 *)
Definition hasKey (c : cfg) (key : str) : bool :=
  match c with
  | None => false
  | Some m => match smap_find m key with Some _ => true | None => false end
  end.

(** RuleConfiguration.cpp:26-29.  [operator[]] on a null pointer is undefined; on an absent
    key it inserts the empty string.  Answers the value and the new state. *)
Definition valueForKey (c : cfg) (key : str) : outcome (str * cfg) :=
  match c with
  | None => UB
  | Some m =>
      match smap_find m key with
      | Some v => Val (v, Some m)
      | None => Val ([], Some (smap_set m key []))
      end
  end.

(** RuleConfiguration.cpp:31-37 *)
Definition removeAll (c : cfg) : cfg :=
  match c with None => c | Some _ => None end.

(** RuleConfiguration.cpp:39-42 *)
Definition stringForKey (c : cfg) (key default : str) : outcome (str * cfg) :=
  if hasKey c key then valueForKey c key else Val (default, c).

(** C [atoi] in the "C" locale on the bytes up to the first NUL; a value outside [int] is
    undefined (ISO C 7.22.1p1). *)
Fixpoint c_str (s : str) : str :=
  match s with
  | [] => []
  | c :: s' => if code c =? 0 then [] else c :: c_str s'
  end.
Fixpoint skip_spaces (s : str) : str :=
  match s with
  | c :: s' => if isspace c then skip_spaces s' else s
  | [] => []
  end.
Definition digit_val (c : ascii) : Z := (Z.of_nat (code c) - 48)%Z.
Fixpoint read_digits (s : str) (acc : Z) : Z :=
  match s with
  | c :: s' => if isdigit c then read_digits s' (acc * 10 + digit_val c)%Z else acc
  | [] => acc
  end.
Definition atoi (s : str) : outcome Z :=
  let t := skip_spaces (c_str s) in
  let n := match t with
           | "-"%char :: t' => (- read_digits t' 0)%Z
           | "+"%char :: t' => read_digits t' 0
           | _ => read_digits t 0
           end in
  if in_intb n then Val n else UB.

(** RuleConfiguration.cpp:44-47 *)
Definition intForKey (c : cfg) (key : str) (default : Z) : outcome (Z * cfg) :=
  if hasKey c key then
    obind (valueForKey c key) (fun r => obind (atoi (fst r)) (fun n => Val (n, snd r)))
  else Val (default, c).

(** RuleConfiguration.cpp:49-52 [doubleForKey] is not modelled: no rule uses it. *)

(** ** oclint-core/lib/RuleBase.cpp *)

(** RuleBase.cpp:16-35 [identifier], loop 25-31: [prev] is the (possibly already
    capitalised) character before.  Characters are bytes in the "C" locale; the code
    passes plain [char] to <cctype>, undefined for bytes above 127 on signed-char
    targets, where the model follows glibc (in no class). *)
Fixpoint capitalize_loop (prev : ascii) (s : str) : str :=
  match s with
  | [] => []
  | c :: s' =>
      let c' := if negb (isalpha prev) && islower c then toupper c else c in
      c' :: capitalize_loop c' s'
  end.
Definition identifier (name : str) : str :=
  match name with
  | [] => []
  | c :: s =>
      let copy := toupper c :: capitalize_loop (toupper c) s in
      filter isalpha copy                      (* erase(remove_if(not isalpha)) *)
  end.

(** RuleBase.cpp:11-14 *)
Definition attributeName (name : str) : str := name.
(** RuleBase.cpp:38-41 *)
Definition fileName (name : str) : str := identifier name ++ $"Rule.cpp".

(** ** oclint-core/lib/RuleSet.cpp:11-32 *)
Definition ruleset := option (list ruleptr).
Definition rs_register (s : ruleset) (r : ruleptr) : ruleset :=
  Some ((match s with None => [] | Some l => l end) ++ [r]).
Definition numberOfRules (s : ruleset) : Z :=
  match s with None => 0%Z | Some l => Z.of_nat (length l) end.
(** RuleSet.cpp:25-32.  [_rules->at(index)] converts a negative index to a huge one. *)
Definition getRuleAtIndex (s : ruleset) (index : Z) : outcome ruleptr :=
  if (index >=? numberOfRules s)%Z then Val None
  else match s with
       | None => UB
       | Some l => if (index <? 0)%Z then Exc $"out_of_range"
                   else Val (nth (Z.to_nat index) l None)
       end.
