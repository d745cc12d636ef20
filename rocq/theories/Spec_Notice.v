(** * Unsolicited messages (C97) *)
From Verif Require Import PyBase Model_Net Spec_Net Model_Wire Spec_X690 Spec_Wire Model_Reply Spec_Reply.

Section S.
  Context {M : Type} (mid : M -> N) (dec : str -> option (M * str)).
  (** the messages kept for readers of an ID *)
  Definition waiting (s : @sock M) (k : N) : list M := match s_queues s k with Some (_, l) => l | None => [] end.
  (** nothing is kept as an empty queue *)
  Definition tidy (s : @sock M) : Prop := forall k d, s_queues s k <> Some (d, []).
  (** calling next on a reader until it raises LDAPUnsolicitedMessage: what it gave before that, the message in the
      exception, and the socket; None: it did something else, or it has not raised it after [n] calls *)
  Fixpoint read_until_notice (n : nat) (g : gen) (s : @sock M) : option (list M * M * @sock M) :=
    match n with
    | 0 => None
    | S n =>
        match gen_next mid dec g s with
        | Yield m g' s' => match read_until_notice n g' s' with Some (l, u, s'') => Some (m :: l, u, s'') | None => None end
        | Unsolicited u s' => Some ([], u, s')
        | _ => None
        end
    end.
End S.

(** ** The text *)
Local Open Scope string_scope.
(** the kind of an unsolicited message, by the name of the response *)
Definition kind (absent : str) (name : option str) : str :=
  match name with
  | Some oid => if str_eqb oid (lit "1.3.6.1.4.1.1466.20036") then lit "Notice of Disconnection" else (lit "Unhandled (" ++ oid ++ lit ")")%list
  | None => (lit "Unhandled (" ++ absent ++ lit ")")%list
  end.
(** what RFC 4511 (4.4.1) says about some result codes in a notice of disconnection *)
Definition advice (code : Z) : str :=
  match code with
  | 2%Z => lit " (This may indicate an incompatability between laurelin-ldap and your server distribution)"
  | 8%Z => lit " (The server has detected that an established security association between the client and server has unexpectedly failed or been compromised)"
  | _ => []
  end.
