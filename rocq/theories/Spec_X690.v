(** * X.690 encodings with definite lengths (the restriction of RFC 4511 section 5.1)
    The encodings of a value are a set of octet strings: the length may be written in the short or
    in any long form. *)
From Verif Require Import PyBase.
Local Open Scope N_scope.

Definition octets := list N -> Prop.
Definition eps : octets := fun b => b = [].
Definition raw (x : list N) : octets := fun b => b = x.
Definition cat (P Q : octets) : octets := fun b => exists b1 b2, P b1 /\ Q b2 /\ b = b1 ++ b2.
Definition cats (l : list octets) : octets := fold_right cat eps l.
Definition either (P Q : octets) : octets := fun b => P b \/ Q b.
Definition nothing : octets := fun _ => False.
(** the set P, if the condition holds *)
Definition given (C : Prop) (P : octets) : octets := fun b => C /\ P b.

Definition octet (x : N) : Prop := x < 256.
Definition big_endian (l : list N) : N := fold_left (fun a b => 256 * a + b) l 0.

(** 8.1.3 *)
Definition length_octets (n : N) : octets := fun l =>
  (n < 128 /\ l = [n]) \/
  (exists ds, (1 <= List.length ds <= 126)%nat /\ Forall octet ds /\ big_endian ds = n /\ l = 128 + N.of_nat (List.length ds) :: ds).
(** identifier octet, length octets, contents octets *)
Definition tlv (id : N) (P : octets) : octets := fun b =>
  exists x l, P x /\ length_octets (N.of_nat (List.length x)) l /\ b = id :: l ++ x.

(** 8.3: two's complement, in as few octets as possible *)
Definition twos (b : list N) : Z :=
  match b with
  | [] => 0%Z
  | x :: _ => (Z.of_N (big_endian b) - (if (x <? 128)%N then 0 else Z.of_N (256 ^ N.of_nat (List.length b))))%Z
  end.
Definition minimal (b : list N) : Prop :=
  match b with
  | x :: y :: _ => ~ (x = 0 /\ y < 128) /\ ~ (x = 255 /\ 128 <= y)
  | _ => True
  end.
Definition int_octets (z : Z) : octets := fun b => b <> [] /\ Forall octet b /\ minimal b /\ twos b = z.
(** 8.2: zero is FALSE, anything else TRUE *)
Definition bool_octets (t : bool) : octets := fun b => exists x, b = [x] /\ octet x /\ (x <> 0 <-> t = true).
