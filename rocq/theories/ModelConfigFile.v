(** * Model of oclint-driver: the keys of a configuration file, and the lifetime of its texts

    The YAML scanner is external: [parse] in [yaml_of] answers the tree LLVM builds for the
    first document that is not empty ([None]: no such document, or its root cannot be
    built).  LLVM's YAMLTraits machinery (class [llvm::yaml::Input], LLVM 21) is modelled from
    its documented behaviour, since ConfigFile.cpp only instantiates it. *)
From Verif Require Import Base ModelResults ModelConfig ModelFilter ModelOptions.

(** A document tree.  [YEmpty]: a key or an item with nothing after it. *)
Inductive ynode :=
| YEmpty
| YScalar (text : str)
| YSeq (items : list ynode)
| YMap (entries : list (str * ynode)).

Fixpoint distinctb (l : list str) : bool :=
  match l with
  | [] => true
  | x :: l' => negb (existsb (fun y => str_eqb y x) l') && distinctb l'
  end.
(** LLVM [Input::createHNodes]: a key that occurs twice in one mapping, at any depth, is an
    error raised before the first key is looked at. *)
Fixpoint createHNodes (n : ynode) : bool :=
  match n with
  | YEmpty | YScalar _ => true
  | YSeq l => (fix go l := match l with [] => true | x :: l' => createHNodes x && go l' end) l
  | YMap kvs => distinctb (map fst kvs)
                && (fix go l := match l with [] => true | kv :: l' => createHNodes (snd kv) && go l' end) kvs
  end.

Fixpoint mapping_value (kvs : list (str * ynode)) (key : str) : option ynode :=
  match kvs with
  | [] => None
  | (k, v) :: kvs' => if str_eqb k key then Some v else mapping_value kvs' key
  end.

(** [io.mapOptional(key, field)]: the second component is LLVM's sticky error code, after
    which nothing is assigned any more. *)
Definition mapOptional {T} (yamlize : ynode -> T -> T * bool) (n : ynode) (key : str) (field : T)
    (err : bool) : T * bool :=
  if err then (field, true)
  else match n with
       | YMap kvs => match mapping_value kvs key with
                     | Some v => yamlize v field
                     | None => (field, false)
                     end
       | YEmpty => (field, false)
       | _ => (field, true)
       end.

(** LLVM [yamlize] for [StringRef]: something that is not a scalar leaves the empty text. *)
Definition yamlize_text (n : ynode) (field : str) : str * bool :=
  match n with YScalar s => (s, false) | _ => ([], true) end.

(** LLVM [StringRef::getAsInteger] with radix 0 (sign, then 0x / 0b / 0o / leading 0 choose the
    radix).  Values are unbounded here: LLVM's own overflow test and the range test of the
    caller both answer an error. *)
Definition digit_value (c : ascii) : option Z :=
  if isdigit c then Some (Z.of_nat (code c) - 48)%Z
  else if islower c then Some (Z.of_nat (code c) - 87)%Z
  else if isupper c then Some (Z.of_nat (code c) - 55)%Z
  else None.
Fixpoint digits_radix (radix : Z) (s : str) (acc : Z) : option Z :=
  match s with
  | [] => Some acc
  | c :: s' => match digit_value c with
               | Some d => if (d <? radix)%Z then digits_radix radix s' (acc * radix + d)%Z else None
               | None => None
               end
  end.
Definition getAutoSenseRadix (s : str) : Z * str :=
  match s with
  | z :: c :: r =>
      if ascii_eqb z "0"%char then
        if ascii_eqb c "x"%char || ascii_eqb c "X"%char then (16%Z, r)
        else if ascii_eqb c "b"%char || ascii_eqb c "B"%char then (2%Z, r)
        else if ascii_eqb c "o"%char then (8%Z, r)
        else if isdigit c then (8%Z, c :: r)
        else (10%Z, s)
      else (10%Z, s)
  | _ => (10%Z, s)
  end.
Definition getAsUnsigned (s : str) : option Z :=
  let (radix, r) := getAutoSenseRadix s in
  match r with [] => None | _ => digits_radix radix r 0 end.
Definition getAsSigned (s : str) : option Z :=
  match s with
  | c :: r => if ascii_eqb c "-"%char then option_map Z.opp (getAsUnsigned r) else getAsUnsigned s
  | [] => None
  end.

(** LLVM [ScalarTraits<int32_t>::input] *)
Definition yamlize_int (n : ynode) (field : Z) : Z * bool :=
  match n with
  | YScalar s => match getAsSigned s with
                 | Some z => if in_intb z then (z, false) else (field, true)
                 | None => (field, true)
                 end
  | _ => (field, true)
  end.

(** ConfigFile.cpp:66-74 *)
Definition yamlize_tristate (n : ynode) (field : tristate) : tristate * bool :=
  match n with
  | YScalar s => if str_eqb s $"true" then (TTrue, false)
                 else if str_eqb s $"false" then (TFalse, false)
                 else (field, true)
  | _ => (field, true)
  end.

(** LLVM [isNull] *)
Definition isNull (s : str) : bool :=
  existsb (str_eqb s) [$"null"; $"Null"; $"NULL"; $"~"].
(** LLVM [yamlize] for a vector: the vector grows item by item; an item in error is still
    appended, the ones after it are not.  The vectors of a [ConfigFile] are empty before. *)
Fixpoint fill {T} (yamlize : ynode -> T -> T * bool) (fresh : T) (l : list ynode) (v : list T)
  : list T * bool :=
  match l with
  | [] => (v, false)
  | n :: l' => let (x, err) := yamlize n fresh in
               if err then (v ++ [x], true) else fill yamlize fresh l' (v ++ [x])
  end.
Definition yamlize_seq {T} (yamlize : ynode -> T -> T * bool) (fresh : T) (n : ynode) (v : list T)
  : list T * bool :=
  match n with
  | YSeq l => fill yamlize fresh l v
  | YEmpty => (v, false)
  | YScalar s => (v, negb (isNull s))
  | YMap _ => (v, true)
  end.

(** LLVM [Input::endMapping]: a key nobody asked for is an error. *)
Definition endMapping (n : ynode) (asked : list str) (err : bool) : bool :=
  if err then true
  else match n with
       | YMap kvs => negb (forallb (fun kv => existsb (str_eqb (fst kv)) asked) kvs)
       | _ => false
       end.

(** ConfigFile.cpp:22-29, 44-48 *)
Definition yamlize_pair (n : ynode) (field : str * str) : (str * str) * bool :=
  let (key, e1) := mapOptional yamlize_text n $"key" (fst field) false in
  let (value, e2) := mapOptional yamlize_text n $"value" (snd field) e1 in
  ((key, value), endMapping n [$"key"; $"value"] e2).

Definition yamlize_texts : ynode -> list str -> list str * bool := yamlize_seq yamlize_text [].
Definition yamlize_pairs : ynode -> list (str * str) -> list (str * str) * bool :=
  yamlize_seq yamlize_pair ([], []).

(** ConfigFile.cpp:199-213, the field table.  The boolean says whether LLVM printed an error
    on standard error. *)
Definition ConfigFile_mapping (n : ynode) (f : configfile) : configfile * bool :=
  let (v1, e1) := mapOptional yamlize_texts n $"rules" (cf_rules f) false in
  let (v2, e2) := mapOptional yamlize_texts n $"disable-rules" (cf_disableRules f) e1 in
  let (v3, e3) := mapOptional yamlize_texts n $"rule-paths" (cf_rulePaths f) e2 in
  let (v4, e4) := mapOptional yamlize_pairs n $"rule-configurations" (cf_ruleConfigurations f) e3 in
  let (v5, e5) := mapOptional yamlize_text n $"output" (cf_output f) e4 in
  let (v6, e6) := mapOptional yamlize_text n $"report-type" (cf_reportType f) e5 in
  let (v7, e7) := mapOptional yamlize_int n $"max-priority-1" (cf_maxP1 f) e6 in
  let (v8, e8) := mapOptional yamlize_int n $"max-priority-2" (cf_maxP2 f) e7 in
  let (v9, e9) := mapOptional yamlize_int n $"max-priority-3" (cf_maxP3 f) e8 in
  let (v10, e10) := mapOptional yamlize_tristate n $"enable-clang-static-analyzer" (cf_clangChecker f) e9 in
  let (v11, e11) := mapOptional yamlize_tristate n $"allow-duplicated-violations"
                      (cf_allowDuplicatedViolations f) e10 in
  let (v12, e12) := mapOptional yamlize_tristate n $"enable-global-analysis"
                      (cf_enableGlobalAnalysis f) e11 in
  ({| cf_rules := v1; cf_disableRules := v2; cf_rulePaths := v3; cf_ruleConfigurations := v4;
      cf_output := v5; cf_reportType := v6; cf_maxP1 := v7; cf_maxP2 := v8; cf_maxP3 := v9;
      cf_clangChecker := v10; cf_allowDuplicatedViolations := v11; cf_enableGlobalAnalysis := v12 |},
   endMapping n [$"rules"; $"disable-rules"; $"rule-paths"; $"rule-configurations"; $"output";
                 $"report-type"; $"max-priority-1"; $"max-priority-2"; $"max-priority-3";
                 $"enable-clang-static-analyzer"; $"allow-duplicated-violations";
                 $"enable-global-analysis"] e12).

(** ConfigFile.cpp:100-101: [yin >> *this]; nobody looks at [yin.error()]. *)
Definition yaml_of (parse : str -> option ynode) (content : str) : configfile :=
  match parse content with
  | None => cf_initial
  | Some n => if createHNodes n then fst (ConfigFile_mapping n cf_initial) else cf_initial
  end.

(** ** Lifetimes

    The members of [ConfigFile] are [llvm::StringRef]s into the file buffer and into the
    [Input] object (ConfigFile.h:33-38).  Both are locals of the constructor
    (ConfigFile.cpp:85, 100), so when it returns they are gone.  [alive]: whether that memory
    still exists. *)
Record sref := { r_text : str; r_fromFile : bool }.
(** [StringRef::str()]: copies [r_text]'s bytes; copying no bytes touches no memory. *)
Definition sref_str (alive : bool) (r : sref) : outcome str :=
  if is_nil (r_text r) then Val []
  else if r_fromFile r && negb alive then UB else Val (r_text r).
Definition from_file (s : str) : sref := {| r_text := s; r_fromFile := true |}.

Fixpoint omap {A B} (f : A -> outcome B) (l : list A) : outcome (list B) :=
  match l with
  | [] => Val []
  | x :: l' => obind (f x) (fun y => obind (omap f l') (fun ys => Val (y :: ys)))
  end.

(** Options.cpp:141-173 again, now on references into the file: every text is copied by
    [str()] in the order of the source.  [alive] is what is left of the constructor's
    locals: [false] in the program. *)
Definition processConfigFile_refs (alive : bool) (s : ostate) (f : configfile) : outcome ostate :=
  let str_of t := sref_str alive (from_file t) in
  obind (omap (fun kv => obind (str_of (fst kv)) (fun k => obind (str_of (snd kv)) (fun v => Val (k, v))))
           (cf_ruleConfigurations f)) (fun configurations =>
  obind (omap str_of (cf_rulePaths f)) (fun rulePaths =>
  obind (omap str_of (cf_rules f)) (fun rules =>
  obind (omap str_of (cf_disableRules f)) (fun disableRules =>
  obind (str_of (cf_output f)) (fun output =>
  obind (str_of (cf_reportType f)) (fun reportType =>
  Val (processConfigFile s
         {| cf_rules := rules; cf_disableRules := disableRules; cf_rulePaths := rulePaths;
            cf_ruleConfigurations := configurations; cf_output := output; cf_reportType := reportType;
            cf_maxP1 := cf_maxP1 f; cf_maxP2 := cf_maxP2 f; cf_maxP3 := cf_maxP3 f;
            cf_clangChecker := cf_clangChecker f;
            cf_allowDuplicatedViolations := cf_allowDuplicatedViolations f;
            cf_enableGlobalAnalysis := cf_enableGlobalAnalysis f |}))))))).

(** Options.cpp:175-179 *)
Fixpoint processConfigFiles_refs (alive : bool) (files : list configfile) (s : ostate) : outcome ostate :=
  match files with
  | [] => Val s
  | f :: files' => obind (processConfigFile_refs alive s f) (processConfigFiles_refs alive files')
  end.
