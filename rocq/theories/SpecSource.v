(** * Specification vocabulary for source lines, suppression and gating *)
From Verif Require Import Base ModelResults ModelConfig ModelSource SpecFilter.

(** [ls] are the lines of [text]: each followed by a newline they give the text, up to a
    missing final newline; none contains a newline; there is no line after a final newline. *)
Definition newline_free (s : str) : Prop := ~ In NL s.
Definition lines_of (text : str) (ls : list str) : Prop :=
  Forall newline_free ls
  /\ (concat (map (fun l => l ++ [NL]) ls) = text
      \/ (text <> [] /\ (forall a, text <> a ++ [NL])
          /\ concat (map (fun l => l ++ [NL]) ls) = text ++ [NL])).

(** [l] numbered from [n]. *)
Fixpoint numbered {A} (n : Z) (l : list A) : list (Z * A) :=
  match l with [] => [] | x :: l' => (n, x) :: numbered (n + 1)%Z l' end.

(** ** Annotations *)
Definition has_bracket (s : str) : Prop := In "["%char s.

(** The comment that follows a bracketed annotation name. *)
Definition bracket_comment (rest body : str) : Prop :=
  exists a, ~ has_bracket a /\ rest = a ++ $"[" ++ body ++ $"]".

(** The annotations that hide everything, or the rule [r]. *)
Definition hides_all (annots : list str) : Prop := In $"oclint:suppress" annots.
Definition hides_rule (r : str) (annots : list str) : Prop :=
  exists rest, In ($"oclint:suppress[" ++ r ++ $"]" ++ rest) annots.

(** The annotation lists consulted for a rule-specific suppression of a declaration: its own;
    for an Objective-C method also those of the property it implements, and those of the
    protocol's method, or of the methods redeclared in categories of its class. *)
Inductive consulted : decl -> list str -> Prop :=
| co_own : forall a m, consulted (Decl a m) a
| co_property : forall a p ctx, consulted (Decl a (Some (Method true (Some p) ctx))) p
| co_protocol : forall a acc p l, consulted (Decl a (Some (Method acc p (InProtocol (Some l))))) l
| co_category : forall a acc p cats l,
    consulted_in cats l -> consulted (Decl a (Some (Method acc p (InOther (Some cats))))) l
with consulted_in : categories -> list str -> Prop :=
| ci_here : forall d rest l, consulted d l -> consulted_in (Category (Some d) rest) l
| ci_later : forall m rest l, consulted_in rest l -> consulted_in (Category m rest) l.

(** The declaration carries a suppression for the rule [r]. *)
Definition suppresses (d : decl) (r : str) : Prop :=
  hides_all (annotations_of d) \/ exists l, consulted d l /\ hides_rule r l.

(** [d] is reached from below going to first parents through declarations and statements. *)
Inductive on_chain : parents -> decl -> Prop :=
| oc_here : forall d up others, on_chain (Parents (PDecl d) up others) d
| oc_decl : forall d' up others d, on_chain up d -> on_chain (Parents (PDecl d') up others) d
| oc_stmt : forall up others d, on_chain up d -> on_chain (Parents PStmt up others) d.

(** [d] encloses: it is on the chain whatever lies between. *)
Inductive encloses : parents -> decl -> Prop :=
| en_here : forall d up others, encloses (Parents (PDecl d) up others) d
| en_up : forall n up others d, encloses up d -> encloses (Parents n up others) d.

(** ** Lines *)
(** The main file of the unit has a suppressing comment on this line. *)
Definition comment_on (u : tunit) (line : Z) : Prop :=
  exists l c, u_comments u = Some l /\ In (Some c) l /\ cm_line c = line
    /\ exists a b, cm_text c = a ++ $"//!OCLINT" ++ b.

(** The line lies in a declaration of the main file that is suppressed for [r]. *)
Definition in_suppressed_decl (u : tunit) (r : str) (line : Z) : Prop :=
  exists t v, In t (u_top u) /\ td_validLoc t = true /\ td_inMainFile t = true
    /\ In v (td_visited t) /\ suppresses (vd_decl v) r
    /\ (vd_startLine v <= line <= vd_endLine v)%Z.

(** A process' history of questions "is this line of this unit suppressed (for this rule)?" *)
Record question := { q_line : Z; q_unit : tunit; q_rule : option str }.
Fixpoint ask_all (qs : list question) (sc : scache) : scache :=
  match qs with
  | [] => sc
  | q :: rest => ask_all rest (snd (shouldSuppress_line (q_line q) (q_unit q) (q_rule q) sc))
  end.
Definition answer (hist : list question) (q : question) : bool :=
  fst (shouldSuppress_line (q_line q) (q_unit q) (q_rule q) (ask_all hist sc_fresh)).

Definition first_such {A} (P : A -> Prop) (l : list A) (x : A) : Prop :=
  exists a b, l = a ++ x :: b /\ P x /\ forall y, In y a -> ~ P y.
Definition same_file (u : tunit) (q : question) : Prop := u_path (q_unit q) = u_path u.

(** ** Languages *)
Inductive language := ObjC | Cxx | C.
Definition language_of (lo : langopts) (l : language) : Prop :=
  match l with
  | ObjC => lo_objc lo = true
  | Cxx => lo_objc lo = false /\ lo_cxx lo = true
  | C => lo_objc lo = false /\ lo_cxx lo = false /\ lo_c99 lo = true
  end.
(** Bit 0 of the language set is C, bit 1 C++, bit 2 Objective-C; bit 0 of the CUDA set is
    host code, bit 1 kernels. *)
Definition supports (set : N) (l : language) : Prop :=
  N.testbit set (match l with C => 0 | Cxx => 1 | ObjC => 2 end) = true.
Definition supports_host (attrs : N) : Prop := N.testbit attrs 0 = true.
Definition supports_kernels (attrs : N) : Prop := N.testbit attrs 1 = true.

Definition in_main (t : top) : Prop := t_validLoc t = true /\ t_inMainFile t = true.
(** The declarations a rule looks at in a CUDA unit. *)
Definition cuda_relevant (attrs : N) (t : top) : Prop :=
  in_main t /\ match t_kind t with
               | TFunction true => supports_kernels attrs
               | TFunction false => supports_host attrs
               | TOther => True
               end.
(** What happens when a rule inspects exactly the declarations [sel]. *)
Definition inspects (sel : list top) : list action :=
  [SetUp] ++ map (fun t => Traverse (t_id t)) sel ++ [TearDown].
