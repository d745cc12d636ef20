(** * What a regular expression matches, without any matching strategy *)
From Verif Require Import PyBase Model_Prep Model_Regex.

(** [M r t c]: the text [t] is an instance of [r]; [c] are the texts of the groups that took
    part, the latest first *)
Inductive M : rx -> str -> caps -> Prop :=
| M_eps : M REps [] []
| M_chr f x : f x = true -> M (RChr f) [x] []
| M_seq a b s t c d : M a s c -> M b t d -> M (RSeq a b) (s ++ t) (d ++ c)
| M_altl a b s c : M a s c -> M (RAlt a b) s c
| M_altr a b s c : M b s c -> M (RAlt a b) s c
| M_star0 a : M (RStar a) [] []
| M_stars a s t c d : M a s c -> s <> [] -> M (RStar a) t d -> M (RStar a) (s ++ t) (d ++ c)
| M_group g a s c : M a s c -> M (RGroup g a) s ((g, s) :: c).

(** the language of a pattern *)
Definition L (r : rx) (t : str) : Prop := exists c, M r t c.
