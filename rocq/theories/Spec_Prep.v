(** * Specification vocabulary for string preparation and matching (C18, C19, C52) *)
From Verif Require Import PyBase.

Definition all_spaces (s : str) : Prop := Forall (fun c => c = 32%N) s.
Definition no_space (s : str) : Prop := ~ In 32%N s.

(** [Words s ws]: the words of s are ws, in order: s is words separated by one or more
    spaces, with any number of spaces at the beginning and at the end. *)
Inductive Words : str -> list str -> Prop :=
| Words_none s : all_spaces s -> Words s []
| Words_last s w s' : all_spaces s -> no_space w -> w <> [] -> all_spaces s' -> Words (s ++ w ++ s') [w]
| Words_more s w r ws : all_spaces s -> no_space w -> w <> [] -> Words (32%N :: r) ws -> ws <> [] ->
    Words (s ++ w ++ 32%N :: r) (w :: ws).

(** Canonical spelling: one space before and after, two between words; two spaces if
    there are no words (RFC 4518, 2.6.1). *)
Fixpoint two_between (ws : list str) : str :=
  match ws with
  | [] => []
  | [w] => w
  | w :: ws' => w ++ [32%N; 32%N] ++ two_between ws'
  end.
Definition canonical (ws : list str) : str := 32%N :: two_between ws ++ [32%N].

(** membership in one of the inclusive ranges *)
Definition In_table (l : list (N * N)) (c : N) : Prop :=
  exists lo hi, In (lo, hi) l /\ (lo <= c <= hi)%N.

(** RFC 4518 2.2: what a character maps to *)
Definition rfc_space (c : N) : Prop :=
  (9 <= c <= 13 \/ c = 133 \/ c = 32 \/ c = 160 \/ c = 5760 \/ 8192 <= c <= 8202 \/
   8232 <= c <= 8233 \/ c = 8239 \/ c = 8287 \/ c = 12288)%N.
Definition rfc_nothing (c : N) : Prop :=
  (c = 173 \/ c = 6150 \/ c = 847 \/ 6155 <= c <= 6157 \/ 65024 <= c <= 65039 \/ c = 65532 \/
   c <= 8 \/ 14 <= c <= 31 \/ 127 <= c <= 132 \/ 134 <= c <= 159 \/ c = 1757 \/ c = 1807 \/
   c = 6158 \/ 8203 <= c <= 8207 \/ 8234 <= c <= 8238 \/ 8288 <= c <= 8291 \/
   8298 <= c <= 8303 \/ c = 65279 \/ 65529 <= c <= 65531 \/ 119155 <= c <= 119162 \/
   c = 917505 \/ 917536 <= c <= 917631)%N.

(** [Mapped v v']: v' is v with every character mapped as RFC 4518 2.2 says *)
Inductive Mapped : str -> str -> Prop :=
| Mapped_nil : Mapped [] []
| Mapped_nothing c v v' : rfc_nothing c -> Mapped v v' -> Mapped (c :: v) v'
| Mapped_space c v v' : rfc_space c -> Mapped v v' -> Mapped (c :: v) (32%N :: v')
| Mapped_keep c v v' : ~ rfc_nothing c -> ~ rfc_space c -> Mapped v v' -> Mapped (c :: v) (c :: v').

(** subsequence obtained by deleting exactly the characters of a class *)
Inductive Deleted (P : N -> Prop) : str -> str -> Prop :=
| Deleted_nil : Deleted P [] []
| Deleted_drop c v v' : P c -> Deleted P v v' -> Deleted P (c :: v) v'
| Deleted_keep c v v' : ~ P c -> Deleted P v v' -> Deleted P (c :: v) (c :: v').

Definition phone_ignored (c : N) : Prop :=
  (c = 32 \/ c = 45 \/ c = 1418 \/ c = 8208 \/ c = 8209 \/ c = 8722 \/ c = 65123 \/ c = 65293)%N.
