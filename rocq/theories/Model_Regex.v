(** * Model of the part of Python's [re] module the patterns of /repo rely on
    (a library the code uses: rfc4512.py, rfc4514.py, base_schema.py, rules.py:57-82, utils.py:14).
    A pattern is given by its syntax tree.  Matching is the backtracking search of [re]:
    alternatives are tried from left to right, repetition is greedy, the first way of matching
    that lets the remainder match is the one taken, and a group holds the text of its last
    participation in that match (None if it took no part).
    Simplifications: the search is not bounded in time or depth; a repetition of something that
    matched the empty string stops (as in [re]). *)
From Verif Require Import PyBase Model_Prep.

Inductive rx :=
| REps
| RChr (f : N -> bool)              (* a character or a character class *)
| RSeq (a b : rx)
| RAlt (a b : rx)
| RStar (a : rx)
| RGroup (name : str) (a : rx).

Definition ROpt (a : rx) : rx := RAlt a REps.           (* a? *)
Definition RPlus (a : rx) : rx := RSeq a (RStar a).     (* a+ *)
Fixpoint RSeqs (l : list rx) : rx :=
  match l with [] => REps | [a] => a | a :: l' => RSeq a (RSeqs l') end.
Fixpoint RAlts (l : list rx) : rx :=
  match l with [] => REps | [a] => a | a :: l' => RAlt a (RAlts l') end.
Definition RCls (l : list (N * N)) : rx := RChr (in_ranges l).                       (* [...]  *)
Definition RNot (l : list (N * N)) : rx := RChr (fun c => negb (in_ranges l c)).     (* [^...] *)
Definition RC (a : ascii) : rx := RChr (N.eqb (ch a)).
Definition RLit (s : str) : rx := RSeqs (map (fun c => RChr (N.eqb c)) s).
Definition RW (s : string) : rx := RLit (lit s).
Fixpoint RTimes (n : nat) (a : rx) : rx :=                                          (* a{n} *)
  match n with 0 => REps | 1 => a | S n' => RSeq a (RTimes n' a) end.

(** what the groups hold, the latest first *)
Definition caps := list (str * str).

(** [m r s c k]: match [r] at the start of [s]; [k] says whether the remainder matches *)
Fixpoint m {A} (r : rx) (s : str) (c : caps) (k : str -> caps -> option A) {struct r} : option A :=
  match r with
  | REps => k s c
  | RChr f => match s with x :: s' => if f x then k s' c else None | [] => None end
  | RSeq a b => m a s c (fun s' c' => m b s' c' k)
  | RAlt a b => match m a s c k with Some v => Some v | None => m b s c k end
  | RStar a =>
      (fix it (n : nat) (s : str) (c : caps) {struct n} : option A :=
         match n with
         | 0 => k s c
         | S n' =>
             match m a s c (fun s' c' => if List.length s' <? List.length s then it n' s' c' else None) with
             | Some v => Some v
             | None => k s c
             end
         end) (List.length s) s c
  | RGroup g a => m a s c (fun s' c' => k s' ((g, firstn (List.length s - List.length s') s) :: c'))
  end.

(** [$] without re.MULTILINE: at the end or before a final newline *)
Definition at_end (s : str) : bool :=
  match s with [] => true | [c] => N.eqb c 10 | _ => false end.

(** re.compile('^' + r + '$').match(s): utils.py:13-14, rules.py:66, 77 *)
Definition match_anchored (r : rx) (s : str) : option caps :=
  m r s [] (fun s' c => if at_end s' then Some c else None).
(** re.compile(r).match(s): a match need not reach the end *)
Definition match_prefix (r : rx) (s : str) : option caps := m r s [] (fun _ c => Some c).

(** m.group(g) *)
Definition group (c : caps) (g : str) : option str := dget c g.
