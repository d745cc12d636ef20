(** * More of C86 and C88: find, and calls that need a connection *)
From Verif Require Import PyBase Model_CIDict Model_Modify Spec_Modify Proofs_Modify Model_Search Model_Dir Model_Filter Model_Request Model_Netgroups Model_Life Spec_Life Proofs_Life Proofs_Life2 Proofs_Life3 Proofs_Life5 Spec_Search Spec_Dir Proofs_Dir Proofs_DirInst Props_Life.

Section Life.
  Context {S : Type} (sv : server S).
  Context (sv_search : S -> str -> scope -> option str -> option (list str) -> N -> option (list (str * list (str * list str)))).
  Context (lower : str -> str) (idx : str -> list str -> str -> res nat).
  Context (strict : bool) (flags : empty_flags) (syn : fsyntax).
  Context (vo : lobj -> res unit) (vm : str -> list mod_ -> option lobj -> res unit).
  Notation perform := (perform sv sv_search lower idx strict flags syn vo vm).
  Notation step := (step sv sv_search lower idx strict flags syn vo vm).
  Notation session_run := (session_run sv sv_search lower idx strict flags syn vo vm).


  (** C88, find of an object without children, and of one whose scope is not known: an error, before anything is sent.
      Below an object whose children are one level down find is get_child. *)
  Theorem C88_find_elsewhere w rdn ats : ob_conn (w_o w) = true ->
    (ob_scope (w_o w) = Some BaseScope -> perform (CFind rdn ats) w = (w, [], Raise LDAPError)) /\
    (ob_scope (w_o w) = None -> perform (CFind rdn ats) w = (w, [], Raise ValueError)) /\
    (ob_scope (w_o w) = Some OneScope -> perform (CFind rdn ats) w = perform (CGetChild rdn ats) w).
  Proof.
    destruct w as [s closed o]. cbn [w_o]. intros Hc. cbn [Model_Life.perform].
    unfold m_find. repeat split; intros Hs.
    - unfold require_ldap, self, lift, ret, raise, bindM. cbn -[lit]. rewrite Hc. cbn -[lit]. rewrite Hs. reflexivity.
    - unfold require_ldap, self, lift, ret, raise, bindM. cbn -[lit]. rewrite Hc. cbn -[lit]. rewrite Hs. reflexivity.
    - unfold require_ldap, self, lift, ret, raise, bindM. cbn -[lit m_get_child]. rewrite Hc. cbn -[lit m_get_child]. rewrite Hs. cbn -[lit m_get_child].
      destruct (m_get_child _ _ _ _ _) as [[w2 t2] r]. reflexivity.
  Qed.
End Life.
Print Assumptions C88_find_elsewhere.
