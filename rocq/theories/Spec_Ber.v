(** * BER with definite lengths (X.690, as RFC 4511 section 5.1 restricts it), for integers, octet strings
    and sequences: an instance of what the paged results extension needs *)
From Verif Require Import PyBase.
Local Open Scope N_scope.

(** big-endian base 256 *)
Fixpoint be_aux (fuel : nat) (n : N) (acc : list N) : list N :=
  match fuel with O => acc | S f => if N.eqb n 0 then acc else be_aux f (n / 256) (n mod 256 :: acc) end.
Definition be (n : N) : list N := be_aux (N.size_nat n) n [].
Definition of_be (l : list N) : N := fold_left (fun a b => 256 * a + b) l 0.

(** tag, length, contents *)
Definition enc_len (n : N) : list N := if n <? 128 then [n] else let b := be n in 128 + N.of_nat (List.length b) :: b.
Definition tlv (tag : N) (c : list N) : list N := tag :: enc_len (N.of_nat (List.length c)) ++ c.
Definition take (n : N) (l : list N) : option (list N * list N) :=
  if N.of_nat (List.length l) <? n then None else Some (firstn (N.to_nat n) l, skipn (N.to_nat n) l).
Definition dec_len (l : list N) : option (N * list N) :=
  match l with
  | [] => None
  | b :: r => if b <? 128 then Some (b, r) else match take (b - 128) r with None => None | Some (x, r') => Some (of_be x, r') end
  end.
Definition untlv (tag : N) (l : list N) : option (list N * list N) :=
  match l with
  | [] => None
  | t :: r => if N.eqb t tag then match dec_len r with None => None | Some (n, r') => take n r' end else None
  end.

(** two's complement; here of numbers that are not negative *)
Definition enc_int (z : Z) : list N :=
  match be (Z.to_N z) with [] => [0] | b :: l => if b <? 128 then b :: l else 0 :: b :: l end.
Definition dec_int (l : list N) : option Z :=
  match l with
  | [] => None
  | b :: _ => Some (if b <? 128 then Z.of_N (of_be l) else (Z.of_N (of_be l) - Z.of_N (256 ^ N.of_nat (List.length l)))%Z)
  end.

(** SEQUENCE { INTEGER, OCTET STRING } *)
Definition ber_enc (z : Z) (c : list N) : list N := tlv 48 (tlv 2 (enc_int z) ++ tlv 4 c).
Definition ber_dec (l : list N) : option (Z * list N * list N) :=
  match untlv 48 l with
  | None => None
  | Some (body, over) =>
      match untlv 2 body with
      | None => None
      | Some (i, body') =>
          match dec_int i, untlv 4 body' with
          | Some z, Some (c, []) => Some (z, c, over)
          | _, _ => None
          end
      end
  end.
