(** * Specification vocabulary: suppressing comments on Apple systems *)
From Verif Require Import Base ModelSource ModelApple.

(** Equal up to the case of the letters A-Z. *)
Definition same_letters (a b : str) : Prop := map toupper a = map toupper b.
(** "//!", then any number of spaces, then "OCLINT" in any mixture of cases. *)
Definition apple_marker (text : str) : Prop :=
  exists before n word after,
    text = before ++ $"//!" ++ repeat " "%char n ++ word ++ after /\ same_letters word $"OCLINT".
Definition comment_on_apple (u : tunit) (line : Z) : Prop :=
  exists l c, u_comments u = Some l /\ In (Some c) l /\ cm_line c = line /\ apple_marker (cm_text c).
(** What a pattern of characters and stars stands for. *)
Inductive denotes : list piece -> str -> Prop :=
| de_nil : denotes [] []
| de_one : forall c x ps s, toupper x = toupper c -> denotes ps s -> denotes (One c :: ps) (x :: s)
| de_many : forall c w ps s, (forall x, In x w -> toupper x = toupper c) -> denotes ps s -> denotes (Many c :: ps) (w ++ s).
(** The same unit with every comment that counts on Apple systems written as it has to be
    written elsewhere. *)
Definition rewritten (u u' : tunit) : Prop :=
  u_path u' = u_path u /\ u_content u' = u_content u /\ u_top u' = u_top u
  /\ match u_comments u, u_comments u' with
     | None, None => True
     | Some l, Some l' =>
         Forall2 (fun c c' => match c, c' with
                              | None, None => True
                              | Some c, Some c' => cm_line c' = cm_line c
                                  /\ (apple_marker (cm_text c) <-> exists a b, cm_text c' = a ++ $"//!OCLINT" ++ b)
                              | _, _ => False
                              end) l l'
     | _, _ => False
     end.

