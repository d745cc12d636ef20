(** * Model of find_closing_paren and of the Guide and EnhancedGuide syntaxes
    /repo/laurelin/ldap/utils.py:17-31, /repo/laurelin/extensions/base_schema.py:1162-1264, 1346-1358.
    Simplifications: the match objects and error messages are not kept; [depth] bounds the nesting
    of calls of _validate_criteria (Python's recursion limit). *)
From Verif Require Import PyBase Model_Prep Model_Uri Model_Regex Model_Parse Model_Syntax.

(** the loop of find_closing_paren: utils.py:20-31; [rest]: the text after index [i] *)
Fixpoint closing_loop (rest : str) (parens i : nat) : res nat :=
  match parens with
  | O => Ok i
  | S p =>
      match rest with
      | [] => Raise ValueError                                       (* IndexError caught: missing closing paren *)
      | c :: rest' =>
          closing_loop rest'
            (if N.eqb c (ch "(") then S parens else if N.eqb c (ch ")") then p else parens) (S i)
      end
  end.
(** find_closing_paren: utils.py:17-31 *)
Definition find_closing_paren (text : str) : res nat :=
  match text with
  | [] => Raise IndexError                                           (* text[0] *)
  | c :: rest => if negb (N.eqb c (ch "(")) then Raise ValueError else closing_loop rest 1 0
  end.

(** EnhancedGuide._term, _object_class: base_schema.py:1216-1220, 1246 *)
Definition match_types : list str := [lit "EQ"; lit "SUBSTR"; lit "GE"; lit "LE"; lit "APPROX"].
Definition rterm : rx :=
  RGroup [] (RAlts [RSeqs [roid; RC "$"; RGroup [] (RAlts (map RLit match_types))]; RW "?true"; RW "?false"]).
Definition robject_class : rx := RSeqs [rWSP; roid; rWSP].

(** the check at the end of a term: base_schema.py:1234-1237, 1242-1245 *)
Definition check_term (term : str) : res unit :=
  match term with
  | [] => Ok tt
  | _ => match match_prefix rterm term with Some _ => Ok tt | None => Raise InvalidSyntaxError end
  end.
(** the loop of _validate_criteria: base_schema.py:1224-1245; [skip]: characters of a group
    already dealt with (i += e+1); [nested]: the recursive call *)
Fixpoint criteria_loop (nested : str -> res unit) (s : str) (skip : nat) (term : str) : res unit :=
  match s with
  | [] => check_term term
  | c :: s' =>
      match skip with
      | S k => criteria_loop nested s' k term
      | O =>
          if N.eqb c (ch "(") then
            let* e := find_closing_paren s in
            let* _ := nested (firstn (e - 1) s') in                  (* criteria[i+1:i+e] *)
            criteria_loop nested s' e term
          else if N.eqb c (ch "|") || N.eqb c (ch "&") then
            let* _ := check_term term in criteria_loop nested s' 0 []
          else if N.eqb c (ch "!") then criteria_loop nested s' 0 term
          else criteria_loop nested s' 0 (term ++ [c])
      end
  end.
(** _validate_criteria: base_schema.py:1222-1245 *)
Fixpoint validate_criteria (depth : nat) (criteria : str) : res unit :=
  match depth with
  | O => Raise RecursionError
  | S d => criteria_loop (validate_criteria d) criteria 0 []
  end.

Definition subsets : list str := [lit "baseobject"; lit "oneLevel"; lit "wholeSubtree"].   (* 1247 *)
(** EnhancedGuide.validate: base_schema.py:1249-1261 *)
Definition enhanced_guide (depth : nat) (v : Model_Syntax.value) : res unit :=
  match v with
  | Bytes _ => Raise TypeError                                       (* s.split('#') *)
  | Text s =>
      match py_split (lit "#") s with
      | [objectclass; criteria; subset] =>
          match match_prefix robject_class objectclass with
          | None => Raise InvalidSyntaxError
          | Some _ =>
              if smem (py_strip subset) subsets then validate_criteria depth (py_strip criteria) else Raise InvalidSyntaxError
          end
      | _ => Raise InvalidSyntaxError                                (* ValueError caught *)
      end
  end.
(** Guide.validate: base_schema.py:1350-1358 *)
Definition guide (depth : nat) (v : Model_Syntax.value) : res unit :=
  match v with
  | Bytes _ => Raise TypeError
  | Text s =>
      match py_split (lit "#") s with
      | [objectclass; criteria] =>
          match match_prefix robject_class objectclass with
          | None => Raise InvalidSyntaxError
          | Some _ => validate_criteria depth (py_strip criteria)
          end
      | _ => Raise InvalidSyntaxError
      end
  end.
