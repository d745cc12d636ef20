(** * More of C72: referrals *)
From Verif Require Import PyBase Model_Controls Spec_Controls Proofs_Controls Props_Controls Model_Search Model_Request Spec_Request Proofs_Request
  Props_Request Model_Paged Spec_Paged Proofs_Paged Spec_Ber Proofs_Ber.

(** Refuted: a page that ends in a referral has no page_cookie, even if the message carries the control: looking at it is
    an AttributeError, and the loop of the documentation ends there, its entries lost. *)
Theorem C72_refuted_referral E (server : history (E := E) -> wire_search -> answer (E := E)) e builtin a wrap n sizes hist cookie h w :
  ldap_search e (with_paged a (wrap (repr (PTuple n cookie)))) = (Ok h, [w]) -> an_code (server hist w) = 10%N ->
  page server e builtin a hist (wrap (repr (PTuple n cookie))) = (hist ++ [(w, server hist w)], Raise AttributeError)
  /\ pages server e builtin a wrap (n :: sizes) hist cookie = ([], Error AttributeError).
Proof.
  intros H1 H2.
  assert (P : page server e builtin a hist (wrap (repr (PTuple n cookie))) = (hist ++ [(w, server hist w)], Raise AttributeError)).
  { unfold page. rewrite H1. unfold read_answer. rewrite H2. reflexivity. }
  split; [exact P|]. cbn [pages]. rewrite P. reflexivity.
Qed.
Print Assumptions C72_refuted_referral.
