(** * Specification vocabulary for the keys of a configuration file *)
From Verif Require Import Base ModelOptions ModelConfigFile SpecConfig.
From Coq Require Import Permutation.

(** The document is a mapping [d]: what it has under a key. *)
Definition absent (d : list (str * ynode)) (key : str) : Prop := ~ In key (map fst d).

(** A list of texts: items, or nothing at all. *)
Inductive text_list : ynode -> list str -> Prop :=
| tl_items : forall ts, text_list (YSeq (map YScalar ts)) ts
| tl_nothing : text_list YEmpty []
| tl_null : forall t, In t [$"null"; $"Null"; $"NULL"; $"~"] -> text_list (YScalar t) [].
(** [says d key R default v]: under [key] the document has something meaning [v], or it does
    not have the key and [v] is what stands for "not said". *)
Definition says {T} (d : list (str * ynode)) (key : str) (means : ynode -> T -> Prop) (unsaid v : T) : Prop :=
  (exists n, In (key, n) d /\ means n v) \/ (absent d key /\ v = unsaid).
Inductive one_text : ynode -> str -> Prop := ot : forall t, one_text (YScalar t) t.
(** A list of entries with a "key" and a "value", in either order; what is left out is empty. *)
Definition pair_item (n : ynode) (kv : str * str) : Prop :=
  (n = YEmpty /\ kv = ([], []))
  \/ exists d, n = YMap d /\ NoDup (map fst d) /\ (forall k, In k (map fst d) -> k = $"key" \/ k = $"value")
       /\ says d $"key" one_text [] (fst kv) /\ says d $"value" one_text [] (snd kv).
Inductive pair_list : ynode -> list (str * str) -> Prop :=
| pl_items : forall ns kvs, Forall2 pair_item ns kvs -> pair_list (YSeq ns) kvs
| pl_nothing : pair_list YEmpty []
| pl_null : forall t, In t [$"null"; $"Null"; $"NULL"; $"~"] -> pair_list (YScalar t) [].
(** A plain decimal number: an optional minus and digits, the first not 0 unless alone. *)
Inductive decimal : str -> Z -> Prop :=
| dc_zero : decimal $"0" 0
| dc_pos : forall c ds, isdigit c = true -> c <> "0"%char -> Forall (fun x => isdigit x = true) ds ->
    decimal (c :: ds) (value_of_digits (c :: ds))
| dc_neg : forall t z, decimal t z -> (forall r, t <> "-"%char :: r) -> decimal ("-"%char :: t) (- z).
(** The numbers a file may hold, in general: a digit stands for its place in the row, of either
    case; digits in a base are read from the left; a prefix, or a leading zero, chooses the base. *)
Definition digit (c : ascii) (d : nat) : Prop :=
  nth_error $"0123456789abcdef" d = Some c \/ nth_error $"0123456789ABCDEF" d = Some c.
Inductive in_base (base : nat) : str -> Z -> Prop :=
| ib_one : forall c d, digit c d -> d < base -> in_base base [c] (Z.of_nat d)
| ib_more : forall t z c d, in_base base t z -> digit c d -> d < base ->
    in_base base (t ++ [c]) (z * Z.of_nat base + Z.of_nat d).
Inductive unsigned_numeral : str -> Z -> Prop :=
| un_decimal : forall t z, in_base 10 t z -> (forall r, t = "0"%char :: r -> r = []) -> unsigned_numeral t z
| un_hexadecimal : forall p t z, In p [$"0x"; $"0X"] -> in_base 16 t z -> unsigned_numeral (p ++ t) z
| un_binary : forall p t z, In p [$"0b"; $"0B"] -> in_base 2 t z -> unsigned_numeral (p ++ t) z
| un_octal : forall p t z, In p [$"0o"; $"0"] -> in_base 8 t z -> unsigned_numeral (p ++ t) z.
Inductive numeral : str -> Z -> Prop :=
| nu_plus : forall t z, unsigned_numeral t z -> numeral t z
| nu_minus : forall t z, unsigned_numeral t z -> numeral ("-"%char :: t) (- z).
Inductive one_number : ynode -> Z -> Prop :=
  on : forall t z, numeral t z -> in_int z -> one_number (YScalar t) z.
Inductive one_flag : ynode -> tristate -> Prop :=
| of_true : one_flag (YScalar $"true") TTrue
| of_false : one_flag (YScalar $"false") TFalse.

(** The document has the documented shape under [key]. *)
Definition shaped {T} (d : list (str * ynode)) (key : str) (means : ynode -> T -> Prop) : Prop :=
  forall n, In (key, n) d -> exists v, means n v.

(** The documented shapes of all twelve keys. *)
Definition lists_of_texts : list str := [$"rules"; $"disable-rules"; $"rule-paths"].
Definition lists_of_pairs : list str := [$"rule-configurations"].
Definition texts : list str := [$"output"; $"report-type"].
Definition numbers : list str := [$"max-priority-1"; $"max-priority-2"; $"max-priority-3"].
Definition flags : list str :=
  [$"enable-clang-static-analyzer"; $"allow-duplicated-violations"; $"enable-global-analysis"].
Definition known_keys : list str := lists_of_texts ++ lists_of_pairs ++ texts ++ numbers ++ flags.

(** No mapping anywhere in the tree has a key twice. *)
Inductive no_key_twice : ynode -> Prop :=
| nk_empty : no_key_twice YEmpty
| nk_scalar : forall t, no_key_twice (YScalar t)
| nk_seq : forall l, Forall no_key_twice l -> no_key_twice (YSeq l)
| nk_map : forall d, NoDup (map fst d) -> Forall (fun kv => no_key_twice (snd kv)) d -> no_key_twice (YMap d).

(** The documented shapes, for the keys [ks]. *)
Definition all_shaped (d : list (str * ynode)) (ks : list str) : Prop :=
  (forall k, In k ks -> In k lists_of_texts -> shaped d k text_list)
  /\ (forall k, In k ks -> In k lists_of_pairs -> shaped d k pair_list)
  /\ (forall k, In k ks -> In k texts -> shaped d k one_text)
  /\ (forall k, In k ks -> In k numbers -> shaped d k one_number)
  /\ (forall k, In k ks -> In k flags -> shaped d k one_flag).
(** A well-written document: keys once each and documented shapes.  Other keys may occur. *)
Definition well_written (d : list (str * ynode)) : Prop := no_key_twice (YMap d) /\ all_shaped d known_keys.

(** The texts a configuration file sets. *)
Definition texts_of (f : configfile) : list str :=
  map fst (cf_ruleConfigurations f) ++ map snd (cf_ruleConfigurations f) ++ cf_rulePaths f ++ cf_rules f
  ++ cf_disableRules f ++ [cf_output f; cf_reportType f].

(** [set_by d f key]: the field of [f] that belongs to [key] has the value the document [d]
    gives under [key] (or is unset when the document does not have the key). *)
Inductive set_by (d : list (str * ynode)) (f : configfile) : str -> Prop :=
| sb_rules : says d $"rules" text_list [] (cf_rules f) -> set_by d f $"rules"
| sb_disable : says d $"disable-rules" text_list [] (cf_disableRules f) -> set_by d f $"disable-rules"
| sb_paths : says d $"rule-paths" text_list [] (cf_rulePaths f) -> set_by d f $"rule-paths"
| sb_conf : says d $"rule-configurations" pair_list [] (cf_ruleConfigurations f) ->
    set_by d f $"rule-configurations"
| sb_output : says d $"output" one_text [] (cf_output f) -> set_by d f $"output"
| sb_type : says d $"report-type" one_text [] (cf_reportType f) -> set_by d f $"report-type"
| sb_p1 : says d $"max-priority-1" one_number INT_MIN (cf_maxP1 f) -> set_by d f $"max-priority-1"
| sb_p2 : says d $"max-priority-2" one_number INT_MIN (cf_maxP2 f) -> set_by d f $"max-priority-2"
| sb_p3 : says d $"max-priority-3" one_number INT_MIN (cf_maxP3 f) -> set_by d f $"max-priority-3"
| sb_checker : says d $"enable-clang-static-analyzer" one_flag TUndefined (cf_clangChecker f) ->
    set_by d f $"enable-clang-static-analyzer"
| sb_dup : says d $"allow-duplicated-violations" one_flag TUndefined (cf_allowDuplicatedViolations f) ->
    set_by d f $"allow-duplicated-violations"
| sb_global : says d $"enable-global-analysis" one_flag TUndefined (cf_enableGlobalAnalysis f) ->
    set_by d f $"enable-global-analysis".

(** The field that belongs to [key] is as if the file did not exist: every document without
    that key sets it so. *)
Definition unset (f : configfile) (key : str) : Prop := In key known_keys /\ set_by [] f key.

(** Values that are certainly wrong under a key. *)
Inductive wrong_under : str -> ynode -> Prop :=
| wu_list_map : forall k d, In k (lists_of_texts ++ lists_of_pairs) -> wrong_under k (YMap d)
| wu_list_scalar : forall k t, In k (lists_of_texts ++ lists_of_pairs) ->
    ~ In t [$"null"; $"Null"; $"NULL"; $"~"] -> wrong_under k (YScalar t)
| wu_list_item : forall k l n, In k lists_of_texts -> In n l -> (forall t, n <> YScalar t) ->
    wrong_under k (YSeq l)
| wu_pair_item : forall k l n, In k lists_of_pairs -> In n l -> n <> YEmpty -> (forall d, n <> YMap d) ->
    wrong_under k (YSeq l)
| wu_pair_key : forall k l d name v, In k lists_of_pairs -> In (YMap d) l -> In (name, v) d ->
    name <> $"key" -> name <> $"value" -> wrong_under k (YSeq l)
| wu_pair_value : forall k l d name v, In k lists_of_pairs -> In (YMap d) l -> NoDup (map fst d) ->
    In (name, v) d -> (forall t, v <> YScalar t) -> wrong_under k (YSeq l)
| wu_not_scalar : forall k n, In k (texts ++ numbers ++ flags) -> (forall t, n <> YScalar t) -> wrong_under k n
| wu_no_number : forall k t, In k numbers -> (forall z, ~ numeral t z) -> wrong_under k (YScalar t)
| wu_big_number : forall k t z, In k numbers -> numeral t z -> ~ in_int z -> wrong_under k (YScalar t)
| wu_no_flag : forall k t, In k flags -> t <> $"true" -> t <> $"false" -> wrong_under k (YScalar t).
