From Verif Require Import PyBase Model_CIDict Model_Modify Model_Search Model_Dir Model_Filter Model_Request Model_Netgroups Model_Life Spec_Life.

Section P.
  Context {S : Type} (sv : server S).
  Context (sv_search : S -> str -> scope -> option str -> option (list str) -> N -> option (list (str * list (str * list str)))).
  Context (lower : str -> str) (idx : str -> list str -> str -> res nat).
  Context (strict : bool) (flags : empty_flags) (syn : fsyntax).
  Context (vo : lobj -> res unit) (vm : str -> list mod_ -> option lobj -> res unit).
  Notation perform := (perform sv sv_search lower idx strict flags syn vo vm).
  Notation step := (step sv sv_search lower idx strict flags syn vo vm).
  Notation session_run := (session_run sv sv_search lower idx strict flags syn vo vm).
  Notation world := (@world S).
  Notation M := (@M S).

  (** ** without a connection *)
  (** code that, run on an object without connection, sends nothing and leaves it so *)
  Definition offline {A} (Q : A -> Prop) (m : M A) : Prop := forall w, ob_conn (w_o w) = false ->
    match m w with (w', t, r) => t = [] /\ w_s w' = w_s w /\ w_closed w' = w_closed w /\
      ob_conn (w_o w') = false /\ ob_dn (w_o w') = ob_dn (w_o w) /\ match r with Ok a => Q a | Raise _ => True end end.
  Lemma off_bind {A B} (Q : A -> Prop) (R : B -> Prop) (m : M A) (k : A -> M B) :
    offline Q m -> (forall a, Q a -> offline R (k a)) -> offline R (bindM m k).
  Proof.
    intros Hm Hk w Hw. unfold bindM. pose proof (Hm w Hw) as H. destruct (m w) as [[w1 t1] [a|e]].
    - destruct H as (-> & E1 & E2 & Hc & Hd & HQ). pose proof (Hk a HQ w1 Hc) as H. destruct (k a w1) as [[w2 t2] r].
      destruct H as (-> & F1 & F2 & Hc2 & Hd2 & HR). cbn [List.app]. repeat split; try congruence.
    - exact H.
  Qed.
  Lemma off_weak {A} (Q R : A -> Prop) (m : M A) : (forall a, Q a -> R a) -> offline Q m -> offline R m.
  Proof.
    intros HQ Hm w Hw. pose proof (Hm w Hw) as H. destruct (m w) as [[w1 t1] [a|e]]; [|exact H].
    destruct H as (H1 & H2 & H3 & H4 & H5 & H6). auto 8.
  Qed.
  Lemma off_lift {A} (r : res A) : offline (fun _ => True) (lift r).
  Proof. intros w Hw. cbn. repeat split; auto. now destruct r. Qed.
  Lemma off_ret {A} (Q : A -> Prop) (a : A) : Q a -> offline Q (ret a).
  Proof. intros H w Hw. cbn. auto 8. Qed.
  Lemma off_raise {A} (Q : A -> Prop) e : offline Q (@raise S A e).
  Proof. intros w Hw. cbn. auto 8. Qed.
  Lemma off_self : offline (fun o => ob_conn o = false) (@self S).
  Proof. intros w Hw. cbn. auto 8. Qed.
  Lemma off_put_attrs d : offline (fun _ => True) (@put_attrs S d).
  Proof. intros w Hw. cbn. auto 8. Qed.
  Lemma off_require {A} (Q : A -> Prop) (k : unit -> M A) : offline Q (bindM (@require_ldap S) k).
  Proof. intros w Hw. unfold bindM, require_ldap, self. cbn. rewrite Hw. cbn. auto 8. Qed.
  Lemma off_need {A} (Q : A -> Prop) (k : unit -> M A) : offline Q (bindM (@need_conn S) k).
  Proof. intros w Hw. unfold bindM, need_conn, self. cbn. rewrite Hw. cbn. auto 8. Qed.

  Definition fresh_off (v : value) : Prop := match v with VObjs l => Forall (fun o => ob_conn o = false) l | _ => True end.
  Lemma off_nothing m : offline (fun _ => True) m -> offline fresh_off (@nothing S m).
  Proof. intros H. eapply off_bind; [exact H|]. intros a _. apply off_ret. exact I. Qed.

  Lemma off_refresh_missing ats : offline (fun _ => True) (m_refresh_missing sv lower ats).
  Proof.
    unfold m_refresh_missing. eapply off_bind; [apply off_self|]. intros o Ho.
    destruct (missing lower (as_lobj o) ats); [now apply off_ret|]. unfold m_refresh. apply off_require.
  Qed.
  Lemma off_has_class oc : offline (fun _ => True) (m_has_class sv lower idx oc).
  Proof.
    unfold m_has_class. eapply off_bind; [apply off_refresh_missing|]. intros _ _. eapply off_bind; [apply off_self|]. intros o _.
    apply off_lift.
  Qed.
  Lemma off_perform c : offline fresh_off (perform c).
  Proof.
    destruct c; cbn [Model_Life.perform];
      try (apply off_nothing); try (unfold m_get_child, m_add_child, m_delete_child, m_find, m_compare, m_refresh, m_refresh_all, m_modify, m_delete, m_rename, m_mod_dn; apply off_require).
    - unfold m_obj. eapply off_bind; [apply off_self|]. intros o Ho. eapply off_bind with (Q := fun _ => True).
      + destruct (negb (ob_conn o) && tagged); [apply off_raise|now apply off_ret].
      + intros _ _. eapply off_bind with (Q := fun _ => True).
        * unfold m_rdn. eapply off_bind; [apply off_self|]. intros ? _. apply off_lift.
        * intros dn _. apply off_ret. cbn. constructor; [exact Ho|constructor].
    - unfold m_search. eapply off_bind with (Q := fun _ => False); [unfold m_search_with; apply off_require|]. intros a [].
    - eapply off_bind; [apply off_has_class|]. intros b _. now apply off_ret.
    - apply off_refresh_missing.
    - unfold m_add_attrs, m_prefetch. eapply off_bind with (Q := fun _ => False); [apply off_need|]. intros a [].
    - unfold m_replace_attrs. eapply off_bind; [apply off_lift|]. intros ms _. unfold m_modify. apply off_require.
    - unfold m_delete_attrs, m_prefetch. eapply off_bind with (Q := fun _ => False); [apply off_need|]. intros a [].
    - unfold m_move. eapply off_bind; [apply off_lift|]. intros p _. unfold m_mod_dn. apply off_require.
    - unfold m_validate. apply off_need.
    - unfold m_validate_modify. apply off_need.
    - unfold m_set. eapply off_bind; [apply off_self|]. intros o _. apply off_put_attrs.
    - unfold m_del. eapply off_bind; [apply off_self|]. intros o _. eapply off_bind; [apply off_put_attrs|]. intros _ _. apply off_lift.
    - unfold m_netgroup. eapply off_bind with (Q := fun _ => True).
      + unfold m_require_netgroup. eapply off_bind; [apply off_has_class|]. intros b _. destruct b; [now apply off_ret|apply off_raise].
      + intros _ _. eapply off_bind; [apply off_lift|]. intros a _. destruct op.
        * unfold m_add_attrs, m_prefetch. eapply off_bind with (Q := fun _ => False); [apply off_need|]. intros x [].
        * unfold m_replace_attrs. eapply off_bind; [apply off_lift|]. intros ms' _. unfold m_modify. apply off_require.
        * unfold m_delete_attrs, m_prefetch. eapply off_bind with (Q := fun _ => False); [apply off_need|]. intros x [].
  Qed.

  (** the calls that always fail leave the object as it is *)
  Lemma off_error c e w : offline_error c = Some e -> ob_conn (w_o w) = false -> perform c w = (w, [], Raise e).
  Proof.
    intros H Hw. destruct c as [r a [|]| | | | | | | | | | | | | | | | | | | | | | |]; cbn [offline_error] in H; try discriminate H; injection H as <-; cbn [Model_Life.perform];
      unfold nothing, m_obj, m_get_child, m_add_child, m_delete_child, m_search, m_search_with, m_find, m_compare, m_refresh, m_refresh_all, m_modify, m_delete, m_rename, m_mod_dn,
        m_add_attrs, m_delete_attrs, m_replace_attrs, m_prefetch, m_validate, m_validate_modify, require_ldap, need_conn, self, bindM, lift, raise, ret;
      cbn; rewrite ?Hw; cbn; try reflexivity.
    replace (modlist REPLACE new) with (Ok (map (fun av => mkmod REPLACE (fst av) (snd av)) new)).
    - unfold m_modify, require_ldap, self, raise, bindM. cbn. rewrite Hw. reflexivity.
    - induction new as [|[a v] l IH]; [reflexivity|]. cbn [modlist map fst snd]. unfold new_mod. cbn [mop_eqb andb bind]. rewrite <- IH. reflexivity.
  Qed.

  (** ** the objects of a session *)
  Lemma set_nth_length {A} (l : list A) i x : List.length (set_nth l i x) = List.length l.
  Proof. revert i. induction l as [|y l IH]; intros [|i]; cbn; auto. Qed.
  Lemma set_nth_same {A} (l : list A) i x y : nth_error l i = Some y -> nth_error (set_nth l i x) i = Some x.
  Proof. revert i. induction l as [|z l IH]; intros [|i] H; cbn in *; try discriminate; auto. Qed.
  Lemma set_nth_other {A} (l : list A) i j x : i <> j -> nth_error (set_nth l i x) j = nth_error l j.
  Proof. revert i j. induction l as [|z l IH]; intros [|i] [|j] H; cbn; auto; try congruence. Qed.
  Lemma nth_app {A} (l l' : list A) i x : nth_error l i = Some x -> nth_error (l ++ l') i = Some x.
  Proof. intros H. rewrite nth_error_app1; [exact H|]. apply nth_error_Some. congruence. Qed.

  (** a step on one object *)
  Lemma step_do ss i c o : nth_error (ss_objs ss) i = Some o ->
    step ss (Do i c) = match perform c (mk_world (ss_s ss) (ss_closed ss) o) with
      (w, t, r) => (mk_session (w_s w) (w_closed w) (set_nth (ss_objs ss) i (w_o w) ++ new_objs r), t, r) end.
  Proof. intros H. cbn [Model_Life.step]. now rewrite H. Qed.
  Lemma step_keeps ss e ss' t r j o : step ss e = (ss', t, r) -> nth_error (ss_objs ss) j = Some o ->
    (forall c, e <> Do j c) -> nth_error (ss_objs ss') j = Some o.
  Proof.
    intros H Hj Hne. destruct e as [i c| |s]; cbn [Model_Life.step] in H.
    - destruct (nth_error (ss_objs ss) i) as [o1|] eqn:E; [|injection H as <- _ _; exact Hj].
      destruct (perform c _) as [[w t1] r1]. injection H as <- _ _. cbn [ss_objs]. apply nth_app.
      rewrite set_nth_other; [exact Hj|]. intros ->. exact (Hne c eq_refl).
    - injection H as <- _ _. exact Hj.
    - injection H as <- _ _. exact Hj.
  Qed.
  Lemma step_off ss e ss' t r i : step ss e = (ss', t, r) -> unconnected (ss_objs ss) i ->
    unconnected (ss_objs ss') i /\ (forall c, e = Do i c -> t = [] /\ ss_s ss' = ss_s ss).
  Proof.
    intros H (o & Ho & Hc).
    assert (D : (exists c, e = Do i c) \/ forall c, e <> Do i c).
    { destruct e as [j c| |s]; [|right; discriminate|right; discriminate]. destruct (Nat.eq_dec j i) as [->|Hn]; [left; eauto|right; congruence]. }
    destruct D as [[c ->]|Hne].
    - rewrite (step_do ss i c o Ho) in H. pose proof (off_perform c (mk_world (ss_s ss) (ss_closed ss) o) Hc) as P.
      destruct (perform c _) as [[w t1] r1]. injection H as <- <- <-. destruct P as (-> & Es & _ & Hc' & _). split.
      + exists (w_o w). split; [|exact Hc']. cbn [ss_objs]. apply nth_app. eapply set_nth_same; eauto.
      + intros c' _. split; [reflexivity|exact Es].
    - split.
      + exists o. split; [|exact Hc]. eapply step_keeps; eauto.
      + intros c ->. now elim (Hne c).
  Qed.
  Lemma run_off es : forall ss ss' out i, session_run ss es = (ss', out) -> unconnected (ss_objs ss) i ->
    unconnected (ss_objs ss') i /\ silent_on i es out.
  Proof.
    induction es as [|e es IH]; intros ss ss' out i H U; cbn [Model_Life.session_run] in H.
    - injection H as <- <-. split; [exact U|]. intros [|k] c Hk; discriminate Hk.
    - destruct (step ss e) as [[ss1 t] r] eqn:E. destruct (session_run ss1 es) as [ss2 out2] eqn:R. injection H as <- <-.
      destruct (step_off _ _ _ _ _ i E U) as [U1 Ht]. destruct (IH _ _ _ i R U1) as [U2 Hs]. split; [exact U2|].
      intros [|k] c Hk; cbn [nth_error] in *.
      + injection Hk as ->. destruct (Ht c eq_refl) as [-> _]. eauto.
      + exact (Hs k c Hk).
  Qed.
End P.
