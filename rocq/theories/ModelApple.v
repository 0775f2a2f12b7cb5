(** * Recognising suppressing comments on Apple systems
    (oclint-rules/lib/helper/SuppressHelper.cpp:142-146)

    There the comment is searched with std::regex, grammar "basic", ignoring case.  The engine
    is modelled for patterns of ordinary characters and stars; the pattern of the source uses
    nothing else.  Characters are compared after translate_nocase of the classic locale. *)
From Verif Require Import Base ModelResults ModelConfig ModelSource.

Definition tolower (c : ascii) : ascii := if isupper c then ascii_of_nat (code c + 32) else c.
(** std::regex::icase *)
Definition same_nocase (a b : ascii) : bool := ascii_eqb (tolower a) (tolower b).

(** One character, or any number of them. *)
Inductive piece := One (c : ascii) | Many (c : ascii).
(** Parsing a POSIX basic expression without special characters other than '*'.  A star that
    follows nothing is an ordinary character. *)
Fixpoint bre_parse_rev (p : str) (acc : list piece) : list piece :=
  match p with
  | [] => acc
  | "*"%char :: rest =>
      match acc with
      | One c :: acc' => bre_parse_rev rest (Many c :: acc')
      | Many c :: acc' => bre_parse_rev rest acc
      | [] => bre_parse_rev rest [One "*"%char]
      end
  | c :: rest => bre_parse_rev rest (One c :: acc)
  end.
Definition bre_parse (p : str) : list piece := rev (bre_parse_rev p []).

(** Does a prefix of the text match?  Backtracking over the stars. *)
Fixpoint bre_at (ps : list piece) : str -> bool :=
  match ps with
  | [] => fun _ => true
  | One c :: ps' => fun s => match s with
                             | x :: s' => same_nocase c x && bre_at ps' s'
                             | [] => false
                             end
  | Many c :: ps' =>
      fix star (s : str) : bool :=
        bre_at ps' s || match s with
                        | x :: s' => same_nocase c x && star s'
                        | [] => false
                        end
  end.
(** std::regex_search *)
Fixpoint bre_search (ps : list piece) (s : str) : bool :=
  bre_at ps s || match s with [] => false | _ :: s' => bre_search ps s' end.

(** SuppressHelper.cpp:144-146 *)
Definition oclintRegex : list piece := bre_parse $"//! *OCLINT".
Definition recognised_apple (text : str) : bool := bre_search oclintRegex text.

(** SuppressHelper.cpp:127-160, the branch for Apple systems *)
Definition commentLines_apple (u : tunit) : list Z :=
  match u_comments u with
  | None => []
  | Some l =>
      flat_map (fun c => match c with
                         | None => []
                         | Some c => if recognised_apple (cm_text c) then [cm_line c] else []
                         end) l
  end.
(** SuppressHelper.cpp:121-167 *)
Definition lineBasedShouldSuppress_apple (line : Z) (u : tunit) (sc : scache) : bool * scache :=
  match lookup (sc_lines sc) (u_path u) with
  | Some ls => (existsb (Z.eqb line) ls, sc)
  | None =>
      let ls := commentLines_apple u in
      (existsb (Z.eqb line) ls,
       {| sc_lines := (u_path u, ls) :: sc_lines sc; sc_ranges := sc_ranges sc |})
  end.
(** SuppressHelper.cpp:199-203 *)
Definition shouldSuppress_line_apple (line : Z) (u : tunit) (rule : option str) (sc : scache) : bool * scache :=
  match lineBasedShouldSuppress_apple line u sc with
  | (true, sc') => (true, sc')
  | (false, sc') =>
      match rule with
      | None => (false, sc')
      | Some r => rangeBasedShouldSuppress line u r sc'
      end
  end.
(** AbstractASTRuleBase.cpp:10-29 with that branch *)
Definition addViolation_loc_apple (u : tunit) (l : location) (rule : nat) (message : str)
    (vs : violationset) (sc : scache) : violationset * scache :=
  match shouldSuppress_line_apple (l_line l) u None sc with
  | (true, sc') => (vs, sc')
  | (false, sc') => (carrier_addViolation vs (l_path l) (l_line l) (l_column l) (l_endLine l)
                       (l_endColumn l) (Some rule) message, sc')
  end.
