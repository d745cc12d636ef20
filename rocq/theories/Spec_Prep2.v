(** * DNs as lists of RDNs, for C52: cutting at separators that are not escaped.
    Nothing of the model is used. *)
From Verif Require Import PyBase.

(** in [p] every [x] comes directly after a backslash *)
Definition whole (x : N) (p : str) : Prop := forall a b, p = a ++ x :: b -> exists a', a = a' ++ [92%N].
(** [s] cut at exactly those [x] that do not come directly after a backslash *)
Inductive cut (x : N) : str -> list str -> Prop :=
| cut_one p : whole x p -> cut x p [p]
| cut_more p s parts : whole x p -> (forall a, p <> a ++ [92%N]) -> cut x s parts -> cut x (p ++ x :: s) (p :: parts).

(** the dictionary of an RDN: a later value for the same attribute description takes the place of the earlier *)
Inductive dict_of : list (str * str) -> list (str * str) -> Prop :=
| do_nil : dict_of [] []
| do_snoc l d a v : dict_of l d -> dict_of (l ++ [(a, v)]) (dset d a v).
Definition rdn_of (rdn : str) (d : list (str * str)) : Prop :=
  exists avas l, cut (ch "+") rdn avas /\ Forall2 (fun ava av => cut (ch "=") ava [fst av; snd av]) avas l /\ dict_of l d.
Definition dn_of (v : str) (ds : list (list (str * str))) : Prop :=
  exists rdns, cut (ch ",") v rdns /\ Forall2 rdn_of rdns ds.

(** the white space characters of Unicode and the four separators Python adds (0x1C-0x1F) *)
Definition white_space (c : N) : Prop :=
  (9 <= c <= 13 \/ 0x1C <= c <= 0x20 \/ c = 0x85 \/ c = 0xA0 \/ c = 0x1680 \/ 0x2000 <= c <= 0x200A \/ c = 0x2028 \/ c = 0x2029
   \/ c = 0x202F \/ c = 0x205F \/ c = 0x3000)%N.
