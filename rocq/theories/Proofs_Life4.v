(** The methods of connected objects do to server and object what Model_Dir says they do. *)
From Verif Require Import PyBase Model_CIDict Model_Modify Model_Search Model_Dir Model_Filter Model_Request Model_Netgroups Model_Life.

Section P.
  Context {S : Type} (sv : server S).
  Context (lower : str -> str) (idx : str -> list str -> str -> res nat).
  Context (strict : bool) (flags : empty_flags).
  Context (vm : str -> list mod_ -> option lobj -> res unit).

  (** the connected object showing [l], with the settings of [o] *)
  Definition conn_obj (o : obj) (l : lobj) : obj := mk_obj (Some (o_dn l)) true (o_attrs l) (ob_scope o) (ob_rdn o).
  (** [m], run on [w], leaves the server at [s'] and the object showing [l'], with result [r] *)
  Definition does {A} (m : @M S A) (s : S) (u : bool) (o : obj) (l : lobj) (s' : S) (l' : lobj) (r : res A) : Prop :=
    exists t, m (mk_world s u (conn_obj o l)) = (mk_world s' u (conn_obj o l'), t, r).
  Lemma does_bind {A B} (m : @M S A) (k : A -> @M S B) s u o l s1 l1 a s2 l2 r :
    does m s u o l s1 l1 (Ok a) -> does (k a) s1 u o l1 s2 l2 r -> does (bindM m k) s u o l s2 l2 r.
  Proof. intros (t1 & E1) (t2 & E2). exists (t1 ++ t2). unfold bindM. now rewrite E1, E2. Qed.
  Lemma does_fail {A B} (m : @M S A) (k : A -> @M S B) s u o l s1 l1 e :
    does m s u o l s1 l1 (Raise e) -> does (bindM m k) s u o l s1 l1 (Raise e).
  Proof. intros (t1 & E1). exists t1. unfold bindM. now rewrite E1. Qed.
  Lemma does_self {B} (k : obj -> @M S B) s u o l s2 l2 r : does (k (conn_obj o l)) s u o l s2 l2 r -> does (bindM (@self S) k) s u o l s2 l2 r.
  Proof. intros (t & E). exists t. unfold bindM, self. cbn [w_o]. now rewrite E. Qed.
  Lemma does_require {B} (k : unit -> @M S B) s u o l s2 l2 r : does (k tt) s u o l s2 l2 r -> does (bindM (@require_ldap S) k) s u o l s2 l2 r.
  Proof. intros (t & E). exists t. unfold bindM, require_ldap, self. cbn. now rewrite E. Qed.
  Lemma does_need {B} (k : unit -> @M S B) s u o l s2 l2 r : does (k tt) s u o l s2 l2 r -> does (bindM (@need_conn S) k) s u o l s2 l2 r.
  Proof. intros (t & E). exists t. unfold bindM, need_conn, self. cbn. now rewrite E. Qed.
  Lemma does_ret {A} (a : A) s u o l : does (ret a) s u o l s l (Ok a).
  Proof. now exists []. Qed.
  Lemma does_raise {A} e s u o l : does (@raise S A e) s u o l s l (Raise e).
  Proof. now exists []. Qed.
  Lemma does_lift {A} (r : res A) s u o l : does (lift r) s u o l s l r.
  Proof. now exists []. Qed.
  Lemma does_put d s u o l : does (@put_attrs S d) s u o l s (mk_lobj (o_dn l) d) (Ok tt).
  Proof. now exists []. Qed.
  Lemma as_lobj_conn o l : as_lobj (conn_obj o l) = l.
  Proof. now destruct l. Qed.
  Lemma attrs_conn o l : ob_attrs (conn_obj o l) = o_attrs l. Proof. reflexivity. Qed.
  Lemma dn_conn o l : dn_text (conn_obj o l) = o_dn l. Proof. reflexivity. Qed.

  Lemma get_does s u o l dn ats : does (l_get sv lower dn ats) s u o l s l (ldap_get_ sv lower u s dn ats).
  Proof.
    unfold l_get, ldap_get_, bindM, check_open, send_read. destruct u; [now exists []|]. cbn. exists [QRead dn ats]. cbn.
    destruct (sv_read sv s dn ats) as [[d' a]|]; reflexivity.
  Qed.
  Lemma refresh_does s u o l ats : let (l', r) := obj_refresh sv lower u s l ats in does (m_refresh sv lower ats) s u o l s l' r.
  Proof.
    unfold obj_refresh. destruct (ldap_get_ sv lower u s (o_dn l) ats) as [got|e] eqn:E.
    - destruct (cid_update_cid lower (o_attrs l) (o_attrs got)) as [d r] eqn:Eu. unfold m_refresh. apply does_require, does_self.
      eapply does_bind; [pose proof (get_does s u o l (o_dn l) ats) as G; rewrite E in G; exact G|]. rewrite attrs_conn, Eu. cbn [fst snd].
      eapply does_bind; [apply does_put|]. apply does_lift.
    - unfold m_refresh. apply does_require, does_self. eapply does_fail. pose proof (get_does s u o l (o_dn l) ats) as G. rewrite E in G. exact G.
  Qed.
  Lemma refresh_missing_does s u o l ats : let (l', r) := obj_refresh_missing sv lower u s l ats in does (m_refresh_missing sv lower ats) s u o l s l' r.
  Proof.
    unfold obj_refresh_missing. pose proof (refresh_does s u o l (Some (missing lower l ats))) as H.
    destruct (missing lower l ats) as [|x xs] eqn:E.
    - unfold m_refresh_missing. apply does_self. rewrite as_lobj_conn, E. apply does_ret.
    - destruct (obj_refresh sv lower u s l (Some (x :: xs))) as [l' r]. unfold m_refresh_missing. apply does_self. rewrite as_lobj_conn, E. exact H.
  Qed.
  Lemma has_class_does s u o l oc : let (l', r) := has_object_class sv lower idx u s l oc in does (m_has_class sv lower idx oc) s u o l s l' r.
  Proof.
    unfold has_object_class. pose proof (refresh_missing_does s u o l [lit "objectClass"]) as H.
    destruct (obj_refresh_missing sv lower u s l [lit "objectClass"]) as [l' [[]|e]].
    - unfold m_has_class. eapply does_bind; [exact H|]. apply does_self. apply does_lift.
    - unfold m_has_class. eapply does_fail; exact H.
  Qed.
  Lemma l_modify_does s u o l dn ms cur : let '(s', ms', r) := ldap_modify_ sv u flags vm s dn ms cur in
    does (l_modify sv flags vm dn ms cur) s u o l s' l (let* _ := r in Ok ms').
  Proof.
    unfold ldap_modify_, l_modify, does. cbn [w_closed]. destruct (ldap_modify u flags (vm dn ms cur) (Ok tt) (Ok tt) ms) as [[ms' [cs|]] r].
    - unfold bindM, send, serve. cbn [w_s w_closed w_o]. destruct (sv_modify sv s dn cs) as [s' ok]. exists [QModify dn cs]. destruct (success ok); reflexivity.
    - exists []. unfold bindM, lift. destruct r; reflexivity.
  Qed.
  Lemma modify_does s u o l ms : let '(s', l', r) := obj_modify_ sv lower idx u flags vm s l ms in does (m_modify sv lower idx flags vm ms) s u o l s' l' r.
  Proof.
    unfold obj_modify_. pose proof (l_modify_does s u o l (o_dn l) ms (Some l)) as H.
    destruct (ldap_modify_ sv u flags vm s (o_dn l) ms (Some l)) as [[s' ms'] [[]|e]]; cbn [bind] in H.
    - destruct (local_modify lower idx (o_attrs l) ms') as [d r] eqn:E. unfold m_modify. apply does_require, does_self. rewrite as_lobj_conn, dn_conn.
      eapply does_bind; [exact H|]. rewrite attrs_conn, E. cbn [fst snd]. eapply does_bind; [apply does_put|]. apply does_lift.
    - unfold m_modify. apply does_require, does_self. rewrite as_lobj_conn, dn_conn. eapply does_fail; exact H.
  Qed.
  Lemma prefetch_does s u o l ats : let (l', r) := obj_prefetch sv lower u strict s l ats in does (m_prefetch sv lower strict ats) s u o l s l' r.
  Proof.
    unfold obj_prefetch. pose proof (refresh_missing_does s u o l ats) as H. destruct strict eqn:Es.
    - unfold m_prefetch. apply does_need. apply does_ret.
    - destruct (obj_refresh_missing sv lower u s l ats) as [l' r]. unfold m_prefetch. apply does_need. exact H.
  Qed.
  Lemma add_attrs_does s u o l new : let '(s', l', r) := obj_add_attrs sv lower idx u strict flags vm s l new in
    does (m_add_attrs sv lower idx strict flags vm new) s u o l s' l' r.
  Proof.
    unfold obj_add_attrs. pose proof (prefetch_does s u o l (map fst new)) as H. destruct (obj_prefetch sv lower u strict s l (map fst new)) as [l1 [[]|e]].
    - destruct (add_modlist lower idx (o_attrs l1) new) as [ms|e] eqn:E.
      + pose proof (modify_does s u o l1 ms) as Hm. destruct (obj_modify_ sv lower idx u flags vm s l1 ms) as [[s' l'] r].
        unfold m_add_attrs. eapply does_bind; [exact H|]. apply does_self. rewrite attrs_conn, E. eapply does_bind; [apply does_lift|exact Hm].
      + unfold m_add_attrs. eapply does_bind; [exact H|]. apply does_self. rewrite attrs_conn, E. eapply does_fail. apply does_lift.
    - unfold m_add_attrs. eapply does_fail. exact H.
  Qed.
  Lemma delete_attrs_does s u o l new : let '(s', l', r) := obj_delete_attrs sv lower idx u strict flags vm s l new in
    does (m_delete_attrs sv lower idx strict flags vm new) s u o l s' l' r.
  Proof.
    unfold obj_delete_attrs. pose proof (prefetch_does s u o l (map fst new)) as H. destruct (obj_prefetch sv lower u strict s l (map fst new)) as [l1 [[]|e]].
    - destruct (delete_modlist lower idx (o_attrs l1) new) as [ms|e] eqn:E.
      + pose proof (modify_does s u o l1 ms) as Hm. destruct (obj_modify_ sv lower idx u flags vm s l1 ms) as [[s' l'] r].
        unfold m_delete_attrs. eapply does_bind; [exact H|]. apply does_self. rewrite attrs_conn, E. eapply does_bind; [apply does_lift|exact Hm].
      + unfold m_delete_attrs. eapply does_bind; [exact H|]. apply does_self. rewrite attrs_conn, E. eapply does_fail. apply does_lift.
    - unfold m_delete_attrs. eapply does_fail. exact H.
  Qed.
  Lemma replace_attrs_does s u o l new : let '(s', l', r) := obj_replace_attrs sv lower idx u flags vm s l new in
    does (m_replace_attrs sv lower idx flags vm new) s u o l s' l' r.
  Proof.
    unfold obj_replace_attrs. destruct (modlist REPLACE new) as [ms|e] eqn:E.
    - pose proof (modify_does s u o l ms) as Hm. destruct (obj_modify_ sv lower idx u flags vm s l ms) as [[s' l'] r].
      unfold m_replace_attrs. rewrite E. eapply does_bind; [apply does_lift|exact Hm].
    - unfold m_replace_attrs. rewrite E. eapply does_fail. apply does_lift.
  Qed.
  Lemma mod_dn_does s u o l r c p : let '(s', l', x) := obj_mod_dn sv lower idx u s l r c p in
    does (m_mod_dn sv lower idx r c p) s u o l s' l' x.
  Proof.
    unfold obj_mod_dn. destruct (split1 (ch ",") (o_dn l)) as [[cr cp]|e] eqn:E.
    - set (parent := match p with None => cp | Some q => q end).
      assert (G : does (l_mod_dn sv (o_dn l) r c (Some parent)) s u o l (fst (ldap_mod_dn sv u s (o_dn l) r c (Some parent))) l (snd (ldap_mod_dn sv u s (o_dn l) r c (Some parent)))).
      { unfold l_mod_dn, ldap_mod_dn, bindM, check_open, send, serve, does. destruct u; [now exists []|]. cbn [w_closed w_s w_o List.app].
        destruct (sv_moddn sv s (o_dn l) r c (Some parent)) as [s' ok]. now exists [QModDn (o_dn l) r c (Some parent)]. }
      destruct (ldap_mod_dn sv u s (o_dn l) r c (Some parent)) as [s' [[]|e]]; cbn [fst snd] in G.
      + destruct (local_rename lower idx (o_attrs l) cr r c) as [d [[]|e]] eqn:El.
        * unfold m_mod_dn. apply does_require, does_self. rewrite dn_conn, E. eapply does_bind; [apply does_lift|]. cbn [fst snd]. fold parent.
          eapply does_bind; [exact G|]. rewrite attrs_conn, El. cbn [fst snd]. eapply does_bind; [apply does_put|]. eapply does_bind; [apply does_lift|].
          now exists [].
        * unfold m_mod_dn. apply does_require, does_self. rewrite dn_conn, E. eapply does_bind; [apply does_lift|]. cbn [fst snd]. fold parent.
          eapply does_bind; [exact G|]. rewrite attrs_conn, El. cbn [fst snd]. eapply does_bind; [apply does_put|]. eapply does_fail. apply does_lift.
      + unfold m_mod_dn. apply does_require, does_self. rewrite dn_conn, E. eapply does_bind; [apply does_lift|]. cbn [fst snd]. fold parent. eapply does_fail. exact G.
    - unfold m_mod_dn. apply does_require, does_self. rewrite dn_conn, E. eapply does_fail. apply does_lift.
  Qed.
End P.
