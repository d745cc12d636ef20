(** * More of C72: bad pairs, and the cookie as it is shown *)
From Verif Require Import PyBase Model_Controls Spec_Controls Proofs_Controls Model_Search Model_Request Spec_Request
  Model_Paged Spec_Paged Proofs_Paged.

(** A tuple that is not a pair is refused, with a ValueError, before anything is sent. *)
Theorem C72_bad_tuple enc of_text :
  paged_prepare enc of_text (repr PTupleOther) = Raise ValueError.
Proof. reflexivity. Qed.
Print Assumptions C72_bad_tuple.

(** The cookie of an answer that is read completely is the server's, as text; if it cannot be shown as text, it is empty, and
    the program sees the end; any other error is passed on. *)
Theorem C72_cookie_exact dec to_text raw n c : dec raw = Ok (n, c, []) ->
  (forall s, to_text c = Ok s -> paged_handle dec to_text raw = Ok s) /\
  (to_text c = Raise pyasn1_error -> paged_handle dec to_text raw = Ok []) /\
  (forall x, to_text c = Raise x -> x <> pyasn1_error -> paged_handle dec to_text raw = Raise x).
Proof.
  intros D. unfold paged_handle. rewrite D. cbn [bind]. unfold string_component. repeat split.
  - intros s ->. reflexivity.
  - intros ->. reflexivity.
  - intros x -> X. destruct (exn_eqb x pyasn1_error) eqn:E; [|reflexivity]. exfalso. apply X. destruct x; try discriminate E. cbn in E. unfold pyasn1_error. f_equal. now apply Nat.eqb_eq.
Qed.
Print Assumptions C72_cookie_exact.
