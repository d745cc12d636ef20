(** * Model of laurelin.ldap.filter
    /repo/laurelin/ldap/filter.py

    The grammars are parsing expression grammars run by parsimonious: ordered choice,
    greedy repetition, no backtracking into a finished sub-expression, and the whole
    string has to be consumed.  A grammar expression is modelled as a function from the
    remaining text to the matched value and what is left, or [None].
    Simplifications: parsimonious' memoisation (no semantic effect) is not modelled; the
    pyasn1 objects built by the handlers are values of [filter]; failures (ParseError,
    re-raised as LDAPError) all look alike. *)
From Verif Require Import PyBase.

Definition parser (A : Type) := str -> option (A * str).

(** ** Characters (the regexes and literals of the grammar) *)
Definition between (lo hi c : N) : bool := ((lo <=? c) && (c <=? hi))%N.
(** ALPHA, DIGIT, LDIGIT, keychar, HEX: /repo/laurelin/ldap/filter.py:65-66,71-72,78 *)
Definition is_alpha (c : N) : bool := between 65 90 c || between 97 122 c.
Definition is_digit (c : N) : bool := between 48 57 c.
Definition is_ldigit (c : N) : bool := between 49 57 c.
Definition is_keychar (c : N) : bool := is_alpha c || is_digit c || N.eqb c (ch "-").
Definition is_hex (c : N) : bool := is_digit c || between 65 70 c || between 97 102 c.
(** normal: /repo/laurelin/ldap/filter.py:76 *)
Definition is_normal (c : N) : bool :=
  negb (N.eqb c 0 || N.eqb c (ch "(") || N.eqb c (ch ")") || N.eqb c (ch "*") || N.eqb c (ch "\")).
(** SPACE's character class: /repo/laurelin/ldap/filter.py:237 *)
Definition is_space (c : N) : bool := N.eqb c 32 || N.eqb c 9.

(** ** PEG combinators *)
(** a literal *)
Fixpoint plit (w : str) (s : str) : option str :=
  match w, s with
  | [], _ => Some s
  | x :: w', y :: s' => if N.eqb x y then plit w' s' else None
  | _ :: _, [] => None
  end.

(** one character of a class *)
Definition pchar (p : N -> bool) : parser str := fun s =>
  match s with
  | c :: s' => if p c then Some ([c], s') else None
  | [] => None
  end.

(** [class*] *)
Fixpoint pspan (p : N -> bool) (s : str) : str * str :=
  match s with
  | c :: s' => if p c then let (a, r) := pspan p s' in (c :: a, r) else ([], s)
  | [] => ([], [])
  end.

(** e1 / e2 *)
Definition palt {A} (p q : parser A) : parser A := fun s =>
  match p s with Some r => Some r | None => q s end.

(** e* : greedy; stops at the first failure or empty match.  [n] bounds the number of
    iterations; every use below passes the length of the remaining text, which is
    never exceeded as each iteration consumes something. *)
Fixpoint pmany_n {A} (n : nat) (p : parser A) (s : str) : list A * str :=
  match n with
  | 0 => ([], s)
  | S n' =>
      match p s with
      | Some (x, r) =>
          if Nat.ltb (List.length r) (List.length s)
          then let (xs, r') := pmany_n n' p r in (x :: xs, r')
          else ([], s)
      | None => ([], s)
      end
  end.
Definition pmany {A} (p : parser A) (s : str) : list A * str := pmany_n (List.length s) p s.

(** e+ for an expression that never matches the empty text *)
Definition pmany1 {A} (p : parser A) : parser (list A) := fun s =>
  match p s with
  | None => None
  | Some (x, r) => let (xs, r') := pmany p r in Some (x :: xs, r')
  end.

(** ** The AVA grammar: /repo/laurelin/ldap/filter.py:37-90 *)

(** keystring: filter.py:68-71 *)
Definition keystring : parser str := fun s =>
  match pchar is_alpha s with
  | None => None
  | Some (a, r) => let (b, r') := pspan is_keychar r in Some (a ++ b, r')
  end.

(** number: filter.py:64 — ordered choice *)
Definition number : parser str :=
  palt (pchar is_digit)
       (fun s => match pchar is_ldigit s with
                 | None => None
                 | Some (a, r) =>
                     match pspan is_digit r with
                     | ([], _) => None
                     | (b, r') => Some (a ++ b, r')
                     end
                 end).

(** DOT number: filter.py:63 *)
Definition dot_number : parser str := fun s =>
  match plit (lit ".") s with
  | None => None
  | Some r => match number r with
              | None => None
              | Some (n, r') => Some (lit "." ++ n, r')
              end
  end.

(** numericoid: filter.py:63 *)
Definition numericoid : parser str := fun s =>
  match number s with
  | None => None
  | Some (n, r) =>
      match pmany1 dot_number r with
      | None => None
      | Some (l, r') => Some (n ++ List.concat l, r')
      end
  end.

(** oid: filter.py:61 *)
Definition oid : parser str := palt keystring numericoid.

(** SEMI option: filter.py:55-56 *)
Definition semi_option : parser str := fun s =>
  match plit (lit ";") s with
  | None => None
  | Some r => match pspan is_keychar r with
              | ([], _) => None
              | (a, r') => Some (lit ";" ++ a, r')
              end
  end.

(** attributedescription: filter.py:51-56 *)
Definition attr : parser str := fun s =>
  match oid s with
  | None => None
  | Some (o, r) => let (l, r') := pmany semi_option r in Some (o ++ List.concat l, r')
  end.

(** assertionvalue: filter.py:74-77; (normal / escaped)*, so it always succeeds *)
Fixpoint avalue (s : str) : str * str :=
  match s with
  | [] => ([], [])
  | c :: s1 =>
      if is_normal c then let (a, r) := avalue s1 in (c :: a, r)
      else if N.eqb c (ch "\") then
        match s1 with
        | h1 :: s2 =>
            match s2 with
            | h2 :: s3 => if is_hex h1 && is_hex h2
                          then let (a, r) := avalue s3 in (c :: h1 :: h2 :: a, r)
                          else ([], s)
            | [] => ([], s)
            end
        | [] => ([], s)
        end
      else ([], s)
  end.

(** ** Filters: rfc4511.Filter as built by the handlers *)
Inductive subkind := Initial | Any | Final.
Inductive filter :=
| FAnd (l : list filter)
| FOr (l : list filter)
| FNot (f : filter)
| FEq (a v : str)
| FApprox (a v : str)
| FGe (a v : str)
| FLe (a v : str)
| FPresent (a : str)
| FSubs (a : str) (subs : list (subkind * str))
| FExt (a : option str) (dn : bool) (rule : option str) (v : str).

(** substring = attr EQUALS initial? any final?; any = ASTERISK (assertionvalue ASTERISK)*
    filter.py:47-50, handled by filter.py:171-200 *)
Definition av_star : parser str := fun s =>
  let (v, r) := avalue s in
  match plit (lit "*") r with None => None | Some r' => Some (v, r') end.

Definition substring : parser filter := fun s =>
  match attr s with
  | None => None
  | Some (a, r1) =>
      match plit (lit "=") r1 with
      | None => None
      | Some r2 =>
          let (ini, r3) := avalue r2 in
          match plit (lit "*") r3 with
          | None => None
          | Some r4 =>
              let (anys, r5) := pmany av_star r4 in
              let (fin, r6) := avalue r5 in
              Some (match ini, anys, fin with
                    | [], [], [] => FPresent a
                    | _, _, _ =>
                        FSubs a (match ini with [] => [] | _ => [(Initial, ini)] end
                                 ++ map (fun v => (Any, v)) anys
                                 ++ match fin with [] => [] | _ => [(Final, fin)] end)
                    end, r6)
          end
      end
  end.

(** filtertype = approx / greaterorequal / lessorequal / equal: filter.py:40-44 *)
Definition filtertype : parser (str -> str -> filter) := fun s =>
  match plit (lit "~=") s with Some r => Some (FApprox, r) | None =>
  match plit (lit ">=") s with Some r => Some (FGe, r) | None =>
  match plit (lit "<=") s with Some r => Some (FLe, r) | None =>
  match plit (lit "=") s with Some r => Some (FEq, r) | None => None end end end end.

(** simple = attr filtertype assertionvalue: filter.py:39, handled by 150-170 *)
Definition simple : parser filter := fun s =>
  match attr s with
  | None => None
  | Some (a, r1) =>
      match filtertype r1 with
      | None => None
      | Some (mk, r2) => let (v, r3) := avalue r2 in Some (mk a v, r3)
      end
  end.

(** dnattrs? : filter.py:58 *)
Definition opt_dnattrs (s : str) : bool * str :=
  match plit (lit ":dn") s with Some r => (true, r) | None => (false, s) end.
(** matchingrule: filter.py:59 *)
Definition matchingrule : parser str := fun s =>
  match plit (lit ":") s with None => None | Some r => oid r end.
(** matchingrule? : filter.py:45 *)
Definition opt_rule (s : str) : option str * str :=
  match matchingrule s with Some (o, r) => (Some o, r) | None => (None, s) end.

(** extensible: filter.py:45-46, handled by filter.py:201-225 *)
Definition extensible1 : parser filter := fun s =>
  match attr s with
  | None => None
  | Some (a, r1) =>
      let (dn, r2) := opt_dnattrs r1 in
      let (rule, r3) := opt_rule r2 in
      match plit (lit ":=") r3 with
      | None => None
      | Some r4 => let (v, r5) := avalue r4 in Some (FExt (Some a) dn rule v, r5)
      end
  end.
(** the alternative without an attribute: filter.py:46, 210-214 *)
Definition extensible2 : parser filter := fun s =>
  let (dn, r2) := opt_dnattrs s in
  match matchingrule r2 with
  | None => None
  | Some (rule, r3) =>
      match plit (lit ":=") r3 with
      | None => None
      | Some r4 => let (v, r5) := avalue r4 in Some (FExt None dn (Some rule) v, r5)
      end
  end.
Definition extensible : parser filter := palt extensible1 extensible2.

(** rfc4515_ava = substring / simple / extensible: filter.py:38 *)
Definition ava : parser filter := palt substring (palt simple extensible).

(** ** standard_filter: /repo/laurelin/ldap/filter.py:92-105, handled by 120-145.
    [n] bounds the nesting depth. *)
Definition std_step (rec : parser filter) : parser filter := fun s =>
  match plit (lit "(") s with
  | None => None
  | Some s1 =>
      let comp :=
        palt (fun s => match plit (lit "&") s with None => None | Some r =>
                match pmany1 rec r with Some (l, r') => Some (FAnd l, r') | None => None end end)
       (palt (fun s => match plit (lit "|") s with None => None | Some r =>
                match pmany1 rec r with Some (l, r') => Some (FOr l, r') | None => None end end)
       (palt (fun s => match plit (lit "!") s with None => None | Some r =>
                match rec r with Some (f, r') => Some (FNot f, r') | None => None end end)
             ava)) in
      match comp s1 with
      | None => None
      | Some (f, s2) => match plit (lit ")") s2 with None => None | Some s3 => Some (f, s3) end
      end
  end.
Fixpoint std_n (n : nat) : parser filter :=
  match n with
  | 0 => fun _ => None
  | S n' => std_step (std_n n')
  end.
Definition standard_filter : parser filter := fun s => std_n (List.length s) s.

(** Grammar.parse: the whole text must be matched. *)
Definition parse_all (p : parser filter) (s : str) : res filter :=
  match p s with
  | Some (f, []) => Ok f
  | _ => Raise LDAPError
  end.

(** parse_standard_filter: filter.py:110-117 *)
Definition parse_standard_filter : str -> res filter := parse_all standard_filter.

(** ** laurelin_logic_grammar: /repo/laurelin/ldap/filter.py:230-241, handled by 265-326 *)
Definition pspaces (s : str) : str := snd (pspan is_space s).

(** and_exp = SPACE AND SPACE term: filter.py:234 *)
Definition and_exp (term : parser filter) : parser filter := fun s =>
  match plit (lit "AND") (pspaces s) with None => None | Some r => term (pspaces r) end.
(** component = term and_exp*, handled by filter.py:287-304 *)
Definition component (term : parser filter) : parser filter := fun s =>
  match term s with
  | None => None
  | Some (f, r) =>
      match pmany (and_exp term) r with
      | ([], r') => Some (f, r')
      | (fs, r') => Some (FAnd (f :: fs), r')
      end
  end.
(** or_exp = SPACE OR SPACE component: filter.py:233 *)
Definition or_exp (term : parser filter) : parser filter := fun s =>
  match plit (lit "OR") (pspaces s) with None => None | Some r => component term (pspaces r) end.
(** filter = component or_exp*, handled by filter.py:265-284 *)
Definition logic (term : parser filter) : parser filter := fun s =>
  match component term s with
  | None => None
  | Some (f, r) =>
      match pmany (or_exp term) r with
      | ([], r') => Some (f, r')
      | (fs, r') => Some (FOr (f :: fs), r')
      end
  end.
(** term = not_exp / paren_term / leaf, handled by filter.py:307-326 *)
Definition not_exp (term : parser filter) : parser filter := fun s =>
  match plit (lit "NOT") s with
  | None => None
  | Some r => match term (pspaces r) with Some (f, r') => Some (FNot f, r') | None => None end
  end.
(** paren_term: filter.py:236 *)
Definition paren_term (term : parser filter) : parser filter := fun s =>
  match plit (lit "(") s with
  | None => None
  | Some r =>
      match logic term (pspaces r) with
      | None => None
      | Some (f, r') => match plit (lit ")") (pspaces r') with None => None | Some r'' => Some (f, r'') end
      end
  end.
(** term: filter.py:244, 330; [n] bounds the recursion depth *)
Fixpoint term_n (leaf : parser filter) (n : nat) : parser filter :=
  match n with
  | 0 => fun _ => None
  | S n' => let t := term_n leaf n' in palt (not_exp t) (palt (paren_term t) leaf)
  end.
(** filter (the start rule): filter.py:231 *)
Definition logic_filter (leaf : parser filter) : parser filter := fun s =>
  logic (term_n leaf (List.length s)) s.

(** ava = "(" rfc4515_ava ")": filter.py:243-246 *)
Definition paren_ava : parser filter := fun s =>
  match plit (lit "(") s with
  | None => None
  | Some r => match ava r with
              | None => None
              | Some (f, r') => match plit (lit ")") r' with None => None | Some r'' => Some (f, r'') end
              end
  end.

(** parse_simple_filter: filter.py:251-262 *)
Definition parse_simple_filter : str -> res filter := parse_all (logic_filter paren_ava).
(** parse (the unified syntax): filter.py:329-345 *)
Definition parse_unified : str -> res filter := parse_all (logic_filter standard_filter).

(** ** escape: /repo/laurelin/ldap/filter.py:15-33 *)
Definition escape_map : list (N * str) :=
  [(ch "(", lit "\28"); (ch ")", lit "\29"); (ch "&", lit "\26"); (ch "|", lit "\7c");
   (ch "!", lit "\21"); (ch "=", lit "\3d"); (ch "<", lit "\3c"); (ch ">", lit "\3e");
   (ch "~", lit "\7e"); (ch "*", lit "\2a"); (ch "/", lit "\2f")].
(** str.replace of a single character *)
Definition replace1 (c : N) (w : str) (s : str) : str :=
  flat_map (fun x => if N.eqb x c then w else [x]) s.
Definition escape (s : str) : str :=
  fold_left (fun s rep => replace1 (fst rep) (snd rep) s) escape_map s.

(** ** rfc4511_filter_to_rfc4515_string: /repo/laurelin/ldap/filter.py:348-431 *)
Fixpoint join (sep : str) (l : list str) : str :=
  match l with
  | [] => []
  | [x] => x
  | x :: l' => x ++ sep ++ join sep l'
  end.
Definition is_initial (k : subkind) : bool := match k with Initial => true | _ => false end.
Definition is_final (k : subkind) : bool := match k with Final => true | _ => false end.
(** filter.py:369-386; an empty substring list makes getComponentByPosition fail, which
    cannot happen for parsed filters (modelled as no leading part). *)
Definition sub_strs (subs : list (subkind * str)) : list str :=
  let lead := match subs with (k, _) :: _ => if is_initial k then [] else [[]] | [] => [] end in
  let strs := lead ++ map snd subs in
  let lastk := match rev subs with (k, _) :: _ => is_final k | [] => false end in
  let lastempty := match rev strs with [] :: _ => true | _ => false end in
  if negb lastk && negb lastempty then strs ++ [[]] else strs.

Fixpoint print (f : filter) : str :=
  match f with
  | FAnd l => lit "(&" ++ flat_map print l ++ lit ")"
  | FOr l => lit "(|" ++ flat_map print l ++ lit ")"
  | FNot g => lit "(!" ++ print g ++ lit ")"
  | FEq a v => lit "(" ++ a ++ lit "=" ++ v ++ lit ")"
  | FSubs a subs => lit "(" ++ a ++ lit "=" ++ join (lit "*") (sub_strs subs) ++ lit ")"
  | FGe a v => lit "(" ++ a ++ lit ">=" ++ v ++ lit ")"
  | FLe a v => lit "(" ++ a ++ lit "<=" ++ v ++ lit ")"
  | FPresent a => lit "(" ++ a ++ lit "=*)"
  | FApprox a v => lit "(" ++ a ++ lit "~=" ++ v ++ lit ")"
  | FExt a dn rule v =>
      lit "(" ++ match a with Some a => a | None => [] end
              ++ (if dn then lit ":dn" else [])
              ++ match rule with Some r => lit ":" ++ r | None => [] end
              ++ lit ":=" ++ v ++ lit ")"
  end.
