(** Methods that neither rename nor delete keep name, connection and settings of their object. *)
From Verif Require Import PyBase Model_CIDict Model_Modify Model_Search Model_Dir Model_Filter Model_Request Model_Netgroups Model_Life Spec_Life.

Section P.
  Context {S : Type} (sv : server S).
  Context (sv_search : S -> str -> scope -> option str -> option (list str) -> N -> option (list (str * list (str * list str)))).
  Context (lower : str -> str) (idx : str -> list str -> str -> res nat).
  Context (strict : bool) (flags : empty_flags) (syn : fsyntax).
  Context (vo : lobj -> res unit) (vm : str -> list mod_ -> option lobj -> res unit).
  Notation perform := (perform sv sv_search lower idx strict flags syn vo vm).
  Notation M := (@M S).

  Definition settings (o : obj) := (ob_dn o, ob_conn o, ob_scope o, ob_rdn o).
  Definition keeps {A} (m : M A) : Prop := forall w, settings (w_o (fst (fst (m w)))) = settings (w_o w).
  Lemma k_bind {A B} (m : M A) (k : A -> M B) : keeps m -> (forall a, keeps (k a)) -> keeps (bindM m k).
  Proof.
    intros Hm Hk w. specialize (Hm w). unfold bindM. destruct (m w) as [[w1 t1] [a|e]]; cbn [fst] in *; [|exact Hm].
    specialize (Hk a w1). destruct (k a w1) as [[w2 t2] r]. cbn [fst] in *. congruence.
  Qed.
  Lemma k_same {A} (m : M A) : (forall w, w_o (fst (fst (m w))) = w_o w) -> keeps m.
  Proof. intros H w. now rewrite H. Qed.
  Lemma k_ret {A} (a : A) : keeps (@ret S A a). Proof. now apply k_same. Qed.
  Lemma k_raise {A} e : keeps (@raise S A e). Proof. now apply k_same. Qed.
  Lemma k_lift {A} (r : res A) : keeps (@lift S A r). Proof. now apply k_same. Qed.
  Lemma k_self : keeps (@self S). Proof. now apply k_same. Qed.
  Lemma k_put_attrs d : keeps (@put_attrs S d). Proof. intros w. reflexivity. Qed.
  Lemma k_require : keeps (@require_ldap S). Proof. apply k_same. intros w. cbn. now destruct (ob_conn (w_o w)). Qed.
  Lemma k_need : keeps (@need_conn S). Proof. apply k_same. intros w. cbn. now destruct (ob_conn (w_o w)). Qed.
  Lemma k_check : keeps (@check_open S). Proof. now apply k_same. Qed.
  Lemma k_rdn r : keeps (@m_rdn S r). Proof. now apply k_same. Qed.
  Lemma k_send q : keeps (send sv q). Proof. apply k_same. intros w. unfold send. now destruct (serve sv (w_s w) q). Qed.
  Lemma k_read d ats : keeps (send_read sv d ats). Proof. now apply k_same. Qed.
  Lemma k_searched b sc f ats n : keeps (send_search sv_search b sc f ats n). Proof. now apply k_same. Qed.
  Lemma k_compared d a v : keeps (send_compare sv d a v). Proof. now apply k_same. Qed.
  Ltac k := repeat (first [apply k_ret | apply k_raise | apply k_lift | apply k_self | apply k_put_attrs | apply k_require | apply k_need | apply k_check
    | apply k_rdn | apply k_send | apply k_read | apply k_searched | apply k_compared | match goal with |- keeps (bindM _ _) => apply k_bind; [|intros ?] end
    | match goal with |- keeps (match ?x with _ => _ end) => destruct x end ]).
  Lemma k_get d ats : keeps (l_get sv lower d ats). Proof. unfold l_get. k. Qed.
  Lemma k_l_search b sc f sy ats n : keeps (l_search sv_search lower b sc f sy ats n). Proof. unfold l_search. k. Qed.
  Lemma k_l_compare d a v : keeps (l_compare sv d a v). Proof. unfold l_compare. k. Qed.
  Lemma k_l_add d a : keeps (l_add sv lower vo d a). Proof. unfold l_add. k. Qed.
  Lemma k_l_delete d : keeps (l_delete sv d). Proof. unfold l_delete. k. Qed.
  Lemma k_l_modify d ms cur : keeps (l_modify sv flags vm d ms cur).
  Proof.
    intros w. unfold l_modify. cbv beta. destruct (ldap_modify (w_closed w) flags (vm d ms cur) (Ok tt) (Ok tt) ms) as [[ms' [cs|]] r].
    - exact (k_bind (send sv (QModify d cs)) (fun _ => ret ms') (k_send _) (fun _ => k_ret _) w).
    - exact (k_bind (lift r) (fun _ => ret ms') (k_lift _) (fun _ => k_ret _) w).
  Qed.
  Lemma k_refresh ats : keeps (m_refresh sv lower ats).
  Proof. unfold m_refresh. k; apply k_get. Qed.
  Lemma k_refresh_missing ats : keeps (m_refresh_missing sv lower ats).
  Proof. unfold m_refresh_missing. k; apply k_refresh. Qed.
  Lemma k_has_class oc : keeps (m_has_class sv lower idx oc).
  Proof. unfold m_has_class. k; apply k_refresh_missing. Qed.
  Lemma k_modify ms : keeps (m_modify sv lower idx flags vm ms).
  Proof. unfold m_modify. k; apply k_l_modify. Qed.
  Lemma k_prefetch ats : keeps (m_prefetch sv lower strict ats).
  Proof. unfold m_prefetch. k; apply k_refresh_missing. Qed.
  Lemma k_add_attrs new : keeps (m_add_attrs sv lower idx strict flags vm new).
  Proof. unfold m_add_attrs. k; first [apply k_prefetch|apply k_modify]. Qed.
  Lemma k_delete_attrs new : keeps (m_delete_attrs sv lower idx strict flags vm new).
  Proof. unfold m_delete_attrs. k; first [apply k_prefetch|apply k_modify]. Qed.
  Lemma k_replace_attrs new : keeps (m_replace_attrs sv lower idx flags vm new).
  Proof. unfold m_replace_attrs. k; apply k_modify. Qed.
  Lemma k_get_child r ats : keeps (m_get_child sv lower r ats).
  Proof. unfold m_get_child. k; apply k_get. Qed.
  Lemma k_search_with f sy ats n : keeps (m_search_with sv_search lower f sy ats n).
  Proof. unfold m_search_with. k; apply k_l_search. Qed.
  Lemma k_perform c : ~ renames c -> c <> CDelete -> keeps (perform c).
  Proof.
    intros Hr Hd. destruct c; try (exfalso; apply Hr; exact I); try congruence; cbn [Model_Life.perform]; unfold nothing.
    - unfold m_obj. k.
    - apply k_get_child.
    - unfold m_add_child. k; apply k_l_add.
    - unfold m_delete_child. k; apply k_l_delete.
    - unfold m_search. k; apply k_search_with.
    - unfold m_find. k; first [apply k_get_child|apply k_search_with].
    - unfold m_compare. k; apply k_l_compare.
    - k; apply k_has_class.
    - k; apply k_refresh.
    - unfold m_refresh_all. k; apply k_refresh.
    - k; apply k_refresh_missing.
    - k; apply k_modify.
    - k; apply k_add_attrs.
    - k; apply k_replace_attrs.
    - k; apply k_delete_attrs.
    - unfold m_validate. k.
    - unfold m_validate_modify. k.
    - unfold m_set. k.
    - unfold m_del. k.
    - unfold m_netgroup, m_require_netgroup. k; first [apply k_has_class|apply k_add_attrs|apply k_replace_attrs|apply k_delete_attrs].
  Qed.
End P.
