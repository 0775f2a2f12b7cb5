(** * Model of oclint-rules: line reader, suppression, annotations, language gating *)
From Verif Require Import Base ModelResults ModelConfig.

(** ** lib/helper/AttributeHelper.cpp *)

(** AttributeHelper.cpp:8-35.  Answers the verdict and the comment variable afterwards. *)
Definition attributeHasAnnotation (annotation attributeName : str) (comment : str) : bool * str :=
  match find_char "["%char attributeName with
  | None => (str_eqb attributeName annotation, comment)
  | Some _ =>
      if (length annotation <? length attributeName) || negb (prefixb attributeName annotation)
      then (false, comment)
      else
        match find_char "["%char (skipn (length attributeName) annotation) with
        | Some k =>
            let commentStart := length attributeName + k in
            if match rev annotation with c :: _ => ascii_eqb c "]"%char | [] => false end
            then (true, substr annotation (commentStart + 1)
                          (length annotation - commentStart - 2))
            else (true, comment)
        | None => (true, comment)
        end
  end.

(** Declarations as far as annotations are concerned: the texts of their AnnotateAttr's and,
    for Objective-C methods, what the look-ups of AttributeHelper.cpp:80-139 consult. *)
Inductive decl :=
| Decl (annotations : list str) (method : option methodinfo)
with methodinfo :=
| Method (isPropertyAccessor : bool) (propertyDecl : option (list str)) (ctx : methodctx)
with methodctx :=
| InCategory
| InProtocol (lookup : option (list str))        (* protocol->lookupMethod *)
| InOther (categories : option categories)        (* visible categories of the class interface *)
with categories :=
| NoCategory
| Category (method : option decl) (rest : categories).   (* category->getMethod *)

Definition annotations_of (d : decl) : list str := match d with Decl a _ => a end.

(** AttributeHelper.cpp:37-62; null declarations have no attribute. *)
Fixpoint annots_loop (annots : list str) (name : str) (comment : str) : bool * str :=
  match annots with
  | [] => (false, comment)
  | a :: rest =>
      match attributeHasAnnotation a name comment with
      | (true, c) => (true, c)
      | (false, c) => annots_loop rest name c
      end
  end.
Definition declHasAttribute (annots : option (list str)) (name comment : str) : bool * str :=
  match annots with None => (false, comment) | Some l => annots_loop l name comment end.
(** AttributeHelper.cpp:64-69 *)
Definition declHasOCLintAttribute (annots : option (list str)) (name comment : str) : bool * str :=
  declHasAttribute annots ($"oclint:" ++ name) comment.
(** AttributeHelper.cpp:71-77 *)
Definition baseAction (annots : option (list str)) (action rule comment : str) : bool * str :=
  declHasOCLintAttribute annots (action ++ $"[" ++ rule ++ $"]") comment.

(** AttributeHelper.cpp:79-151 *)
Fixpoint declHasActionAttribute (d : decl) (action rule comment : str) : bool * str :=
  match d with
  | Decl annots None => baseAction (Some annots) action rule comment
  | Decl annots (Some (Method isAccessor prop ctx)) =>
      match baseAction (Some annots) action rule comment with
      | (true, c) => (true, c)
      | (false, c) =>
          match (if isAccessor then baseAction prop action rule c else (false, c)) with
          | (true, c) => (true, c)
          | (false, c) =>
              match ctx with
              | InProtocol lookup => baseAction lookup action rule c
              | InCategory => (false, c)
              | InOther None => (false, c)
              | InOther (Some cats) => categoriesHave cats action rule c
              end
          end
      end
  end
with categoriesHave (cats : categories) (action rule comment : str) : bool * str :=
  match cats with
  | NoCategory => (false, comment)
  | Category None rest => categoriesHave rest action rule comment
  | Category (Some d) rest =>
      match declHasActionAttribute d action rule comment with
      | (true, c) => (true, c)
      | (false, c) => categoriesHave rest action rule c
      end
  end.

(** ** lib/helper/SuppressHelper.cpp *)

(** SuppressHelper.cpp:16-23; the rule is given by its attribute name, [None] is nullptr. *)
Definition markedAsSuppress (d : decl) (rule : option str) : bool :=
  match rule with
  | None => false
  | Some r => fst (declHasOCLintAttribute (Some (annotations_of d)) $"suppress" [])
              || fst (declHasActionAttribute d $"suppress" r [])
  end.

(** The parents of a node as ASTContext::getParents gives them, transitively. *)
Inductive pnode := PDecl (d : decl) | PStmt | POther.
Inductive parents := NoParent | Parents (first : pnode) (of_first : parents) (others : list pnode).

(** SuppressHelper.cpp:25-51 *)
Fixpoint markedParentsAsSuppress (p : parents) (rule : option str) : bool :=
  match p with
  | NoParent => false
  | Parents (PDecl d) up _ => if markedAsSuppress d rule then true else markedParentsAsSuppress up rule
  | Parents PStmt up _ => markedParentsAsSuppress up rule
  | Parents POther _ _ => false
  end.

(** SuppressHelper.cpp:53-61 *)
Definition shouldSuppress_decl (d : decl) (p : parents) (rule : option str) : bool :=
  markedAsSuppress d rule || markedParentsAsSuppress p rule.
Definition shouldSuppress_stmt (p : parents) (rule : option str) : bool :=
  markedParentsAsSuppress p rule.

(** A translation unit as far as line-based suppression is concerned.  [u_path] is
    RuleCarrier::getMainFilePath (RuleCarrier.cpp:25-30); comments and declarations carry
    presumed line numbers. *)
Record comment := { cm_text : str; cm_line : Z }.
Record vdecl := { vd_decl : decl; vd_startLine : Z; vd_endLine : Z }.
Record topdecl := {
  td_validLoc : bool; td_inMainFile : bool;
  td_visited : list vdecl                 (* what RecursiveASTVisitor::TraverseDecl visits *)
}.
Record tunit := {
  u_path : str;
  u_content : str;
  u_comments : option (list (option comment));   (* getCommentsInFile(main file) *)
  u_top : list topdecl
}.

(** The two static caches, 115-116 and 169-170. *)
Record scache := { sc_lines : list (str * list Z); sc_ranges : list (str * list (Z * Z)) }.
Definition sc_fresh : scache := {| sc_lines := []; sc_ranges := [] |}.
Fixpoint lookup {A} (m : list (str * A)) (k : str) : option A :=
  match m with
  | [] => None
  | (k', v) :: m' => if str_eqb k' k then Some v else lookup m' k
  end.

(** SuppressHelper.cpp:127-160, the branch for non-Apple systems.  std::set<int> as a list:
    only membership is asked. *)
Definition commentLines (u : tunit) : list Z :=
  match u_comments u with
  | None => []
  | Some l =>
      flat_map (fun c => match c with
                         | None => []
                         | Some c => match find_sub $"//!OCLINT" (cm_text c) with
                                     | Some _ => [cm_line c]
                                     | None => []
                                     end
                         end) l
  end.
(** SuppressHelper.cpp:121-167 *)
Definition lineBasedShouldSuppress (line : Z) (u : tunit) (sc : scache) : bool * scache :=
  match lookup (sc_lines sc) (u_path u) with
  | Some ls => (existsb (Z.eqb line) ls, sc)
  | None =>
      let ls := commentLines u in
      (existsb (Z.eqb line) ls,
       {| sc_lines := (u_path u, ls) :: sc_lines sc; sc_ranges := sc_ranges sc |})
  end.

(** SuppressHelper.cpp:65-108 *)
Definition collectRanges (u : tunit) (rule : str) : list (Z * Z) :=
  flat_map (fun t =>
    if td_validLoc t && td_inMainFile t then
      flat_map (fun v => if markedAsSuppress (vd_decl v) (Some rule)
                         then [(vd_startLine v, vd_endLine v)] else []) (td_visited t)
    else []) (u_top u).
(** SuppressHelper.cpp:172-197 *)
Definition inRanges (line : Z) (rs : list (Z * Z)) : bool :=
  existsb (fun r => (fst r <=? line)%Z && (line <=? snd r)%Z) rs.
Definition rangeBasedShouldSuppress (line : Z) (u : tunit) (rule : str) (sc : scache) : bool * scache :=
  match lookup (sc_ranges sc) (u_path u) with
  | Some rs => (inRanges line rs, sc)
  | None =>
      let rs := collectRanges u rule in
      (inRanges line rs,
       {| sc_lines := sc_lines sc; sc_ranges := (u_path u, rs) :: sc_ranges sc |})
  end.
(** SuppressHelper.cpp:199-203 *)
Definition shouldSuppress_line (line : Z) (u : tunit) (rule : option str) (sc : scache) : bool * scache :=
  match lineBasedShouldSuppress line u sc with
  | (true, sc') => (true, sc')
  | (false, sc') =>
      match rule with
      | None => (false, sc')
      | Some r => rangeBasedShouldSuppress line u r sc'
      end
  end.

(** ** lib/AbstractASTRuleBase.cpp *)

(** A source range after getFileLoc and presumed numbering. *)
Record location := { l_path : str; l_line : Z; l_column : Z; l_endLine : Z; l_endColumn : Z }.

(** AbstractASTRuleBase.cpp:10-29: suppression is asked without a rule. *)
Definition addViolation_loc (u : tunit) (l : location) (rule : nat) (message : str)
    (vs : violationset) (sc : scache) : violationset * scache :=
  match shouldSuppress_line (l_line l) u None sc with
  | (true, sc') => (vs, sc')
  | (false, sc') => (carrier_addViolation vs (l_path l) (l_line l) (l_column l) (l_endLine l)
                       (l_endColumn l) (Some rule) message, sc')
  end.
(** AbstractASTRuleBase.cpp:31-47 *)
Definition addViolation_decl (u : tunit) (d : option (decl * parents * location)) (rule : nat)
    (attr message : str) (vs : violationset) (sc : scache) : violationset * scache :=
  match d with
  | None => (vs, sc)
  | Some (d, p, l) => if shouldSuppress_decl d p (Some attr) then (vs, sc)
                      else addViolation_loc u l rule message vs sc
  end.
Definition addViolation_stmt (u : tunit) (s : option (parents * location)) (rule : nat)
    (attr message : str) (vs : violationset) (sc : scache) : violationset * scache :=
  match s with
  | None => (vs, sc)
  | Some (p, l) => if shouldSuppress_stmt p (Some attr) then (vs, sc)
                   else addViolation_loc u l rule message vs sc
  end.

(** Language flags, AbstractASTRuleBase.h:11-22 and .cpp:49-85. *)
Definition LANG_C : N := 1. Definition LANG_CXX : N := 2. Definition LANG_OBJC : N := 4.
Definition CUDA_HOST : N := 1. Definition CUDA_GLOBAL : N := 2.
Record langopts := { lo_objc : bool; lo_cxx : bool; lo_c99 : bool; lo_cuda : bool }.
Definition flag (f set : N) : bool := negb (N.eqb (N.land f set) 0).
Definition isLanguageSupported (lo : langopts) (supported : N) : bool :=
  if lo_objc lo then flag LANG_OBJC supported
  else if lo_cxx lo then flag LANG_CXX supported
  else if lo_c99 lo then flag LANG_C supported
  else false.

(** ** include/oclint/AbstractASTVisitorRule.h *)

(** A top-level declaration with an opaque identity. *)
Inductive topkind := TFunction (isKernel : bool) | TOther.
Record top := { t_id : nat; t_validLoc : bool; t_inMainFile : bool; t_kind : topkind }.
Inductive action := SetUp | Traverse (id : nat) | TearDown.

(** AbstractASTVisitorRule.h:76-81 *)
Definition isValidDecl (t : top) : bool := t_validLoc t && t_inMainFile t.
(** AbstractASTVisitorRule.h:48-63 *)
Definition applyCUDADecl (attrs : N) (t : top) : list action :=
  if negb (isValidDecl t) then []
  else match t_kind t with
       | TFunction isKernel =>
           if isKernel then (if flag CUDA_GLOBAL attrs then [Traverse (t_id t)] else [])
           else if flag CUDA_HOST attrs then [Traverse (t_id t)] else []
       | TOther => [Traverse (t_id t)]
       end.
(** AbstractASTVisitorRule.h:37-46 *)
Definition applyCUDA (attrs : N) (decls : list top) : list action :=
  SetUp :: flat_map (applyCUDADecl attrs) decls ++ [TearDown].
(** AbstractASTVisitorRule.h:22-35 *)
Definition applyC (lo : langopts) (supported attrs : N) (decls : list top) : list action :=
  if negb (isLanguageSupported lo supported) || negb (flag CUDA_HOST attrs) then []
  else SetUp :: flat_map (fun t => if isValidDecl t then [Traverse (t_id t)] else []) decls ++ [TearDown].
(** AbstractASTVisitorRule.h:14-20 *)
Definition applyVisitor (lo : langopts) (supported attrs : N) (decls : list top) : list action :=
  if lo_cuda lo then applyCUDA attrs decls else applyC lo supported attrs decls.

(** ** lib/AbstractSourceCodeReaderRule.cpp *)

(** StringRef::split: up to the first newline, and behind it. *)
Fixpoint split_nl (s : str) : str * str :=
  match s with
  | [] => ([], [])
  | c :: s' => if ascii_eqb c NL then ([], s')
               else let '(a, b) := split_nl s' in (c :: a, b)
  end.
(** AbstractSourceCodeReaderRule.cpp:22-30; [size] iterations suffice (proved).  Line
    numbers are unbounded ([int] in the code). *)
Fixpoint lines_loop (fuel : nat) (remaining : str) (n : Z) : list (Z * str) :=
  match fuel with
  | O => []
  | S f =>
      match remaining with
      | [] => []
      | _ => let '(line, rest) := split_nl remaining in (n, line) :: lines_loop f rest (n + 1)%Z
      end
  end.
Definition source_lines (content : str) : list (Z * str) := lines_loop (length content) content 1.

(** AbstractSourceCodeReaderRule.cpp:33-47 *)
Definition addViolation_line (u : tunit) (startLine startColumn endLine endColumn : Z) (rule : nat)
    (attr message : str) (vs : violationset) (sc : scache) : violationset * scache :=
  match shouldSuppress_line startLine u (Some attr) sc with
  | (true, sc') => (vs, sc')
  | (false, sc') => (carrier_addViolation vs (u_path u) startLine startColumn endLine endColumn
                       (Some rule) message, sc')
  end.

(** ** rules/size/LongLineRule.cpp:58-68.  [rule] is the address of the rule object; the
    line size is an [int] in the code. *)
Definition LongLine_eachLine (c : cfg) (u : tunit) (rule : nat) (n : Z) (line : str)
    (vs : violationset) (sc : scache) : outcome (violationset * scache) :=
  obind (intForKey c $"LONG_LINE" 100) (fun t =>
    let threshold := fst t in
    let size := Z.of_nat (length line) in
    if (threshold <? size)%Z then
      Val (addViolation_line u n 1 n size rule $"long line"
             ($"Line with " ++ show_Z size ++ $" characters exceeds limit of " ++ show_Z threshold)
             vs sc)
    else Val (vs, sc)).
Fixpoint LongLine_loop (c : cfg) (u : tunit) (rule : nat) (lines : list (Z * str))
    (vs : violationset) (sc : scache) : outcome (violationset * scache) :=
  match lines with
  | [] => Val (vs, sc)
  | (n, l) :: rest =>
      obind (LongLine_eachLine c u rule n l vs sc) (fun r => LongLine_loop c u rule rest (fst r) (snd r))
  end.
Definition LongLine_apply (c : cfg) (u : tunit) (rule : nat) (vs : violationset) (sc : scache)
  : outcome (violationset * scache) :=
  LongLine_loop c u rule (source_lines (u_content u)) vs sc.
