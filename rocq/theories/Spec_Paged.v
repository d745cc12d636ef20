(** * What a server that pages results does (RFC 2696), and what the extension needs of the ASN.1 library *)
From Verif Require Import PyBase Model_Controls Model_Search Model_Request Model_Paged.

(** the OID of the control: RFC 2696, section 2 *)
Definition rfc2696_oid : str := lit "1.2.840.113556.1.4.319".

Definition bytes_ok (c : list N) : Prop := Forall (fun b => (b < 256)%N) c.

(** decoding gives back what was encoded; a cookie becomes text and the same cookie again *)
Record library (enc : Z -> list N -> list N) (dec : list N -> res (Z * list N * list N))
    (to_text : list N -> res str) (of_text : str -> res (list N)) : Prop := mk_library {
  li_some : forall n c, enc n c <> [];
  li_empty : to_text [] = Ok [] /\ of_text [] = Ok [];
  li_value : forall n c, (0 <= n <= 2147483647)%Z -> bytes_ok c -> dec (enc n c) = Ok (n, c, []);
  li_cookie : forall c, bytes_ok c -> exists s, to_text c = Ok s /\ of_text s = Ok c /\ (s = [] -> c = []) }.

Section Server.
  Context (enc : Z -> list N -> list N) {E : Type} (server : history (E := E) -> wire_search -> answer (E := E)).

  (** the request carries the control, once, with this size and cookie *)
  Definition asks (w : wire_search) (n : Z) (c : list N) : Prop :=
    exists crit l1 l2, w_ctrls w = l1 ++ mk_wire rfc2696_oid crit (Some (enc n c)) :: l2 /\
      ~ In rfc2696_oid (map wc_oid l1) /\ ~ In rfc2696_oid (map wc_oid l2).

  (** a client that presents the cookie [c] after these exchanges is at position [p] of the results:
      the empty cookie starts over, the cookie of the last answer goes on behind the entries of that answer *)
  Inductive at_position : history (E := E) -> list N -> nat -> Prop :=
  | at_start hist : at_position hist [] 0
  | at_next hist w n c p est c' : at_position hist c p -> asks w n c -> an_ctrls (server hist w) = [(rfc2696_oid, enc est c')] -> c' <> [] ->
      at_position (hist ++ [(w, server hist w)]) c' (p + List.length (an_entries (server hist w))).

  (** the answer: at most as many entries as asked for, those that follow, success, and a cookie that is
      empty only at the end *)
  Definition answers (R : list E) (p : nat) (n : Z) (r : answer (E := E)) : Prop :=
    exists est c', an_ctrls r = [(rfc2696_oid, enc est c')] /\ (0 <= est <= 2147483647)%Z /\ bytes_ok c' /\ an_code r = 0%N /\
      (Z.of_nat (List.length (an_entries r)) <= n)%Z /\
      (exists rest, skipn p R = an_entries r ++ rest) /\
      (c' = [] -> p + List.length (an_entries r) = List.length R).
  Definition serves_pages (R : list E) : Prop :=
    forall hist w n c p, (0 <= n <= 2147483647)%Z -> bytes_ok c -> at_position hist c p -> asks w n c -> p <= List.length R ->
    answers R p n (server hist w).
  (** ... and a page that is not the last has an entry *)
  Definition progresses : Prop :=
    forall hist w n c p, (1 <= n <= 2147483647)%Z -> bytes_ok c -> at_position hist c p -> asks w n c ->
    an_entries (server hist w) <> [] \/
    exists est, (0 <= est <= 2147483647)%Z /\ an_ctrls (server hist w) = [(rfc2696_oid, enc est [])].
End Server.
