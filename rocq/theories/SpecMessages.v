(** * Specification vocabulary for the texts of violations *)
From Verif Require Import Base ModelResults ModelSource ModelAST ModelRules ModelProgram SpecAST SpecProgram.

(** ** The names a message may quote *)
(** All annotation texts reachable from a declaration. *)
Fixpoint annotation_texts (d : decl) : list str :=
  match d with
  | Decl l None => l
  | Decl l (Some m) => l ++ annotation_texts_m m
  end
with annotation_texts_m (m : methodinfo) : list str :=
  match m with Method _ p ctx => match p with Some l => l | None => [] end ++ annotation_texts_c ctx end
with annotation_texts_c (ctx : methodctx) : list str :=
  match ctx with
  | InCategory => []
  | InProtocol p => match p with Some l => l | None => [] end
  | InOther None => []
  | InOther (Some cats) => annotation_texts_l cats
  end
with annotation_texts_l (cats : categories) : list str :=
  match cats with
  | NoCategory => []
  | Category None rest => annotation_texts_l rest
  | Category (Some d) rest => annotation_texts d ++ annotation_texts_l rest
  end.
(** The names of a class and of its bases, direct and indirect. *)
Fixpoint class_names (c : cxxrecord) : list str :=
  match c with
  | CxxRecord _ name _ _ _ bases => name :: flat_map (fun b => match snd b with Some c => class_names c | None => [] end) bases
  end.
(** Variables, classes, Objective-C methods and superclasses, called functions and methods with
    their annotations. *)
Definition quotable (n : node) : list str :=
  match n_shape n with
  | VarDecl v _ => [v_name v]
  | CXXRecordDecl r _ => class_names (r_class r)
  | ObjCMethodDecl mi _ _ => [om_selector mi]
  | ObjCContainerDecl i _ =>
      match oc_superMethods i with Some (name, methods) => name :: map (fun m => fst (fst m)) methods | None => [] end
  | CallExpr (Some (name, d)) _ _ => name :: annotation_texts d
  | ObjCMessageExpr i _ _ =>
      ms_selector i :: match ms_methodClass i with Some c => [c] | None => [] end
      ++ match ms_method i with Some d => annotation_texts d | None => [] end
  | _ => []
  end.
Definition unit_quotable (x : tuctx) : list str := flat_map quotable (flat_map nodes (map snd (cx_tops x))).

(** ** The texts of the tool itself *)
(** Printable ASCII without quotation mark, backslash, angle brackets and ampersand. *)
Definition harmless (c : ascii) : Prop :=
  32 <= code c < 127 /\ ~ In c [""""; "\"; "<"; ">"; "&"]%char.
(** Every character is harmless or comes from one of [names]. *)
Definition made_of (names : list str) (m : str) : Prop :=
  Forall (fun c => harmless c \/ exists s, In s names /\ In c s) m.
(** The paths violations can be at. *)
Definition place_path (x : tuctx) (p : str) : Prop :=
  p = u_path (main_unit x) \/ exists i, p = l_path (e_loc (cx_env x) i).

(** ** Plain sources *)
(** All names and annotations of the units consist of characters that satisfy [P], all paths
    of characters that satisfy [Q]. *)
Definition spelt_in (P Q : ascii -> Prop) (xs : list tuctx) : Prop :=
  forall x, In x xs -> Forall (Forall P) (unit_quotable x) /\ forall p, place_path x p -> Forall Q p.
(** Likewise the texts Clang supplies. *)
Definition clang_in (P Q : ascii -> Prop) (l : list violation) : Prop :=
  Forall (fun v => Forall P (v_message v) /\ Forall Q (v_path v)) l.
Definition json_char (c : ascii) : Prop := 32 <= code c /\ c <> """"%char /\ c <> "\"%char.
Definition xml_char (c : ascii) : Prop := 32 <= code c /\ c <> """"%char /\ c <> "<"%char /\ c <> "&"%char.
(** Printing characters, tabulators and line feeds. *)
Definition visible_char (c : ascii) : Prop := 32 <= code c \/ c = "009"%char \/ c = NL.
Definition line_char (c : ascii) : Prop := c <> NL.
Definition pathname_char (c : ascii) : Prop := c <> NL /\ c <> ":"%char.
