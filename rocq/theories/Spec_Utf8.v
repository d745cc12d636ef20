(** * UTF-8, from RFC 3629 section 3: the table of octet sequences, by the bits of the character
    number.  Nothing of the model is used. *)
From Verif Require Import PyBase.
Local Open Scope N_scope.

Inductive rfc3629 : N -> list N -> Prop :=
| U1 a : a < 0x80 -> rfc3629 a [a]                                             (* 0xxxxxxx *)
| U2 a b : a < 32 -> b < 64 -> 0x80 <= a * 64 + b ->                            (* 110xxxxx 10xxxxxx *)
    rfc3629 (a * 64 + b) [0xC0 + a; 0x80 + b]
| U3 a b c : a < 16 -> b < 64 -> c < 64 -> 0x800 <= (a * 64 + b) * 64 + c ->    (* 1110xxxx 10xxxxxx 10xxxxxx *)
    ~ (0xD800 <= (a * 64 + b) * 64 + c <= 0xDFFF) ->
    rfc3629 ((a * 64 + b) * 64 + c) [0xE0 + a; 0x80 + b; 0x80 + c]
| U4 a b c d : a < 8 -> b < 64 -> c < 64 -> d < 64 ->                           (* 11110xxx 10xxxxxx 10xxxxxx 10xxxxxx *)
    0x10000 <= ((a * 64 + b) * 64 + c) * 64 + d <= 0x10FFFF ->
    rfc3629 (((a * 64 + b) * 64 + c) * 64 + d) [0xF0 + a; 0x80 + b; 0x80 + c; 0x80 + d].
(** a text and its octets *)
Inductive encoded : str -> list N -> Prop :=
| E_nil : encoded [] []
| E_cons c x s y : rfc3629 c x -> encoded s y -> encoded (c :: s) (x ++ y)%list.

(** Base 64, from RFC 4648 section 4: the octets as a string of bits, most significant first,
    filled up with zero bits to groups of six; each group a character of table 1; "=" fills up to
    a multiple of four characters. *)
Fixpoint bits_of (n : nat) (v : N) : list bool :=
  match n with O => [] | S n' => N.testbit v (N.of_nat n') :: bits_of n' v end.
Definition table1 : str := lit "ABCDEFGHIJKLMNOPQRSTUVWXYZabcdefghijklmnopqrstuvwxyz0123456789+/".
Definition rfc4648 (octets : list N) (text : str) : Prop :=
  exists (groups : list N) (zeros pad : nat),
    Forall (fun g => g < 64) groups
    /\ flat_map (bits_of 6) groups = (flat_map (bits_of 8) octets ++ repeat false zeros)%list
    /\ (zeros < 6)%nat
    /\ text = (map (fun g => nth (N.to_nat g) table1 0) groups ++ repeat 61 pad)%list
    /\ (pad < 4)%nat /\ Nat.modulo (List.length text) 4 = 0%nat.
