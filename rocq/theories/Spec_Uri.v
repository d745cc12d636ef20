(** * Specification of host URIs and certificate names, independent of the code *)
From Verif Require Import PyBase.
From Coq Require Import DecimalString.

Definition infix (p s : str) : Prop := exists a b, s = a ++ p ++ b.
Definition has_char (c : N) (s : str) : Prop := In c s.

(** A subjectAltName entry (type, value) covers a host: a DNS entry "*.d" covers every
    "<anything>.d" ([lenient]); RFC 6125 / the documentation want exactly one non-empty
    label in place of the star ([strict]). *)
Definition wildcard (typ v d : str) : Prop := typ = lit "DNS" /\ v = lit "*." ++ d.
Definition label (l : str) : Prop := l <> [] /\ ~ has_char (ch ".") l.

Definition covers_lenient (host : str) (san : str * str) : Prop :=
  (exists d l, wildcard (fst san) (snd san) d /\ host = l ++ lit "." ++ d) \/
  ((forall d, ~ wildcard (fst san) (snd san) d) /\ host = snd san).
Definition covers_strict (host : str) (san : str * str) : Prop :=
  (exists d l, wildcard (fst san) (snd san) d /\ label l /\ host = l ++ lit "." ++ d) \/
  ((forall d, ~ wildcard (fst san) (snd san) d) /\
   (fst san = lit "DNS" \/ fst san = lit "IP Address") /\ host = snd san).

Definition named_lenient host cn (sans : list (str * str)) : Prop :=
  host = cn \/ exists san, In san sans /\ covers_lenient host san.
Definition named_strict host cn (sans : list (str * str)) : Prop :=
  host = cn \/ exists san, In san sans /\ covers_strict host san.

(** The usual decimal notation of a number (Coq's own printing function). *)
Definition decimal (n : N) : str := lit (NilEmpty.string_of_uint (N.to_uint n)).
