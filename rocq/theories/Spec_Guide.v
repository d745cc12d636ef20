(** * Matching parentheses; Guide and Enhanced Guide values (RFC 4517, 3.3.10, 3.3.14) *)
From Verif Require Import PyBase Model_Prep Spec_Search Spec_Parse Spec_Syntax.

(** ** Parentheses *)
Definition count (c : N) (s : str) : nat := List.length (List.filter (N.eqb c) s).
(** more parentheses were opened than closed *)
Definition still_open (s : str) : Prop := count (ch ")") s < count (ch "(") s.
Definition closed (s : str) : Prop := count (ch ")") s = count (ch "(") s.
(** every opened parenthesis is closed, and no other *)
Definition balanced (s : str) : Prop := closed s /\ forall p q, s = p ++ q -> count (ch ")") p <= count (ch "(") p.

(** ** RFC 4517: criteria *)
Definition match_type : lang := word ["EQ"; "SUBSTR"; "GE"; "LE"; "APPROX"]%string.
Inductive criteria : lang :=
| criteria_one t : and_term t -> criteria t
| criteria_or a t : and_term a -> criteria t -> criteria (a ++ lit "|" ++ t)
with and_term : lang :=
| and_one t : term t -> and_term t
| and_more a t : term a -> and_term t -> and_term (a ++ lit "&" ++ t)
with term : lang :=
| term_not t : term t -> term (lit "!" ++ t)
| term_match a m : oid rfc4512 a -> match_type m -> term (a ++ lit "$" ++ m)
| term_paren t : criteria t -> term (lit "(" ++ t ++ lit ")")
| term_true : term (lit "?true")
| term_false : term (lit "?false").
Definition object_class : lang := spaces ;; oid rfc4512 ;; spaces.
Definition sharp : lang := is (lit "#").
Definition rfc_enhanced_guide : lang :=
  object_class ;; sharp ;; (spaces ;; criteria ;; spaces) ;; sharp ;; spaces ;; word ["baseobject"; "oneLevel"; "wholeSubtree"]%string.
(** the object class is optional in a Guide *)
Definition rfc_guide (with_class : Prop) : lang := fun s =>
  (object_class ;; sharp ;; criteria) s \/ ~ with_class /\ criteria s.

(** ** What the code takes *)
(** criteria as the code sees them: groups, bars and ampersands, exclamation marks, and anything else *)
Inductive item := Group (inner : str) | Separator (c : N) | Exclaim | Plain (c : N).
Definition item_text (i : item) : str :=
  match i with Group inner => lit "(" ++ inner ++ lit ")" | Separator c => [c] | Exclaim => lit "!" | Plain c => [c] end.
Definition text_of (l : list item) : str := List.concat (map item_text l).
(** the plain characters between separators, groups and exclamation marks being passed over *)
Fixpoint words (cur : str) (l : list item) : list str :=
  match l with
  | [] => [cur]
  | Separator _ :: l' => cur :: words [] l'
  | Plain c :: l' => words (cur ++ [c]) l'
  | _ :: l' => words cur l'
  end.
(** a term without parentheses, numbers of an OID being any digits *)
Definition simple_term : lang :=
  either (oid laurelin ;; is (lit "$") ;; match_type) (either (is (lit "?true")) (is (lit "?false"))).
(** nothing, or anything that begins with a term *)
Definition loose_word : lang := fun w => w = [] \/ some_prefix simple_term w.
(** [loose n]: criteria the code takes, with less than n levels of parentheses *)
Fixpoint loose (depth : nat) (s : str) : Prop :=
  match depth with
  | O => False
  | S d => exists l, s = text_of l /\ Forall loose_word (words [] l) /\
      Forall (fun i => match i with
                       | Group inner => balanced inner /\ loose d inner
                       | Separator c => c = ch "|" \/ c = ch "&"
                       | Exclaim => True
                       | Plain c => c <> ch "(" /\ c <> ch "|" /\ c <> ch "&" /\ c <> ch "!"
                       end) l
  end.
Definition no_sharp (a : lang) : lang := fun s => a s /\ ~ In (ch "#") s.
(** white space at either end is dropped *)
Definition stripped (a : lang) : lang := fun s => exists u t v, s = u ++ t ++ v /\
  Forall (fun c => py_isspace c = true) u /\ Forall (fun c => py_isspace c = true) v /\ a t /\
  (forall c r, t = c :: r -> py_isspace c = false) /\ (forall c r, t = r ++ [c] -> py_isspace c = false).
Definition loose_class : lang := some_prefix (spaces ;; oid laurelin).
Definition loose_enhanced_guide (depth : nat) : lang :=
  no_sharp loose_class ;; sharp ;; no_sharp (stripped (loose depth)) ;; sharp ;; stripped (word ["baseobject"; "oneLevel"; "wholeSubtree"]%string).
Definition loose_guide (depth : nat) : lang := no_sharp loose_class ;; sharp ;; no_sharp (stripped (loose depth)).
