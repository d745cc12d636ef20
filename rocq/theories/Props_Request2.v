(** * More of C70 *)
From Verif Require Import PyBase Model_Filter Spec_Filter Proofs_Filter Proofs_Filter2 Props_Filter Model_Controls Spec_Controls Proofs_Controls Props_Controls
  Model_Search Model_Request Spec_Request Proofs_Request Props_Request.

(** An empty attribute description is an IndexError, and nothing is sent (unless an unsupported object class before it in
    the list is the error). *)
Theorem C70_empty_attribute e a l1 l2 : e_unbound e = false -> in_range (a_limit a) ->
  (forall t, given (a_timeout a) (e_timeout e) t -> in_range t) -> (exists f, filter_asked e a f) ->
  attrs_asked a (l1 ++ [] :: l2) -> (forall r, In (ch "@" :: r) l1 -> e_feature e = Ok true) -> ldap_search e a = (Raise IndexError, []).
Proof.
  intros Hu Hs Ht [f Hf] Ha Hn. apply attrs_asked_iff in Ha. unfold ldap_search, build. rewrite Hu. apply asked_filter_iff in Hf.
  destruct (match a_filter a with None => (e_default_filter e, Some STANDARD) | Some f => (f, a_syntax a) end) as [text syn0].
  rewrite (proj2 (int0max_iff _ _) (conj Hs eq_refl)). cbn [bind].
  rewrite (proj2 (int0max_iff _ _) (conj (Ht _ (proj2 (given_iff _ _ _) eq_refl)) eq_refl)). cbn [bind].
  rewrite Hf. cbn [bind]. rewrite <- Ha.
  assert (E : check_attrs (e_feature e) (l1 ++ [] :: l2) = Raise IndexError); [|rewrite E; reflexivity].
  clear - Hn. induction l1 as [|d l1 IH]; [reflexivity|]. cbn [app check_attrs]. destruct d as [|c d]; [reflexivity|].
  assert (E : (if N.eqb c (ch "@") then let* f := e_feature e in if f then Ok tt else Raise LDAPSupportError else Ok tt) = Ok tt).
  { destruct (N.eqb_spec c (ch "@")) as [->|]; [|reflexivity]. rewrite (Hn d); [reflexivity|]. now left. }
  rewrite E. cbn [bind]. rewrite IH; [reflexivity|]. intros r H. apply (Hn r). now right.
Qed.
Print Assumptions C70_empty_attribute.
Definition ex_empty : search_args := mk_args (lit "dc=x") OneScope (Some (lit "(cn=a)")) (Attrs [lit "cn"; lit "@person"; []; lit "sn"]) (Some 5%Z) 10 None true (Some false) None None [].
Example C70_empty_attribute_nonvacuous : ldap_search ex_env ex_empty = (Raise IndexError, []).
Proof.
  apply (C70_empty_attribute _ _ [lit "cn"; lit "@person"] [lit "sn"]); try reflexivity.
  - unfold in_range. cbn. lia.
  - intros t H. apply (given_iff _ _ _) in H. cbn in H. subst t. unfold in_range. lia.
  - exists (FEq (lit "cn") (lit "a")). apply asked_filter_iff. vm_compute. reflexivity.
Qed.

(** * More of C71: when a child can be added *)
Lemma set_defaults_app o k : exists x, set_defaults o k = k ++ x /\ forall key v, In (key, v) x -> key = k_scope \/ key = k_rdn.
Proof.
  assert (A : forall l key v, exists x, setdefault l key v = l ++ x /\ forall k' v', In (k', v') x -> k' = key).
  { intros l key v. unfold setdefault. rewrite dmem_dget. destruct (dget l key) as [w|] eqn:E.
    - exists []. rewrite app_nil_r. split; [reflexivity|]. intros ? ? [].
    - exists [(key, v)]. split; [now apply dset_fresh|]. intros k' v' [H|[]]. now injection H as <- _. }
  unfold set_defaults. destruct (A k k_scope (scope_val (ro_scope o))) as (x & -> & X).
  destruct (A (k ++ x) k_rdn (rdn_val (ro_rdn_attr o))) as (y & -> & Y). exists (x ++ y). split; [now rewrite app_assoc|].
  intros key v H. apply in_app_iff in H as [H|H]; [left; eapply X; eauto|right; eapply Y; eauto].
Qed.
(** A child can be added exactly if the object and its connection are open, the DN of the child is known, every keyword that
    names a control is admissible for an addition, and every other keyword is one of an object; then the controls of the
    request are the controls asked for. *)
Theorem C71_added_child_iff e o r k : coherent reserved_kwds (e_reg e) -> NoDup (map fst k) ->
  ((exists cs n, obj_add_child e o r k = Ok (cs, n)) <->
   ro_conn o = true /\ e_unbound e = false /\ (exists dn, child_dn o r dn) /\
   Forall (admissible (e_reg e) (lit "add") (e_supported e) (e_criticality e)) k /\
   (forall key v, In (key, v) k -> is_control (e_reg e) key \/ key = k_scope \/ key = k_rdn \/ key = lit "tag")) /\
  (forall cs n, obj_add_child e o r k = Ok (cs, n) -> Forall2 (wire_for (e_reg e) (e_criticality e)) (controls_of (e_reg e) k) cs).
Proof.
  intros Hc Hd. pose proof (set_defaults_NoDup o k Hd) as Hd'. destruct (set_defaults_app o k) as (x & Ex & X).
  assert (N : forall key v, In (key, v) x -> ~ is_control (e_reg e) key).
  { intros key v H. apply (reserved_no_control _ _ _ Hc). destruct (X _ _ H) as [->| ->]; vm_compute; auto 40. }
  assert (Xn : forall y, In y x -> dmem (r_kw (e_reg e)) (fst y) = false).
  { intros [key v] H. cbn [fst]. unfold dmem. destruct (dget (r_kw (e_reg e)) key) as [c|] eqn:E; [|reflexivity]. exfalso. apply (N _ _ H). now exists c. }
  assert (Ec : controls_of (e_reg e) (k ++ x) = controls_of (e_reg e) k).
  { unfold controls_of. rewrite filter_app. rewrite <- (app_nil_r (List.filter _ k)) at 2. f_equal.
    clear - Xn. induction x as [|y x IH]; [reflexivity|]. cbn [List.filter]. rewrite (Xn y (or_introl eq_refl)). apply IH. intros z H. apply Xn. now right. }
  assert (Eo : others_of (e_reg e) (k ++ x) = others_of (e_reg e) k ++ x).
  { unfold others_of. rewrite filter_app. f_equal.
    clear - Xn. induction x as [|y x IH]; [reflexivity|]. cbn [List.filter]. rewrite (Xn y (or_introl eq_refl)). cbn [negb]. f_equal. apply IH. intros z H. apply Xn. now right. }
  assert (Ea : Forall (admissible (e_reg e) (lit "add") (e_supported e) (e_criticality e)) (k ++ x) <->
               Forall (admissible (e_reg e) (lit "add") (e_supported e) (e_criticality e)) k).
  { rewrite Forall_app. split; [tauto|]. intros A. split; [exact A|]. apply Forall_forall. intros [key v] H c E. exfalso. apply (N _ _ H). now exists c. }
  assert (R : (exists dn, rdn o r = Ok dn) <-> exists dn, child_dn o r dn).
  { split; intros [dn H]; exists dn; now apply rdn_iff. }
  destruct (C24_controls_exactly (e_reg e) (lit "add") (e_supported e) (e_criticality e) false (set_defaults o k) Hd') as [P1 P2].
  rewrite Ex, ?Ec, ?Eo, ?Ea in P1, P2. rewrite Ex in Hd'.
  assert (T : forall dn, (exists n, ldap_new_obj dn (others_of (e_reg e) k ++ x) = Ok n) <->
    forall key v, In (key, v) k -> is_control (e_reg e) key \/ key = k_scope \/ key = k_rdn \/ key = lit "tag").
  { intros dn. assert (Hn : NoDup (map fst (others_of (e_reg e) k ++ x))).
    { rewrite <- Eo. unfold others_of. clear - Hd'. induction (k ++ x) as [|[a b] l IH]; [constructor|]. cbn [map fst] in Hd'. inversion Hd'; subst.
      cbn [List.filter fst]. destruct (negb _); [|auto]. cbn [map fst]. constructor; [|auto].
      intros Hi. apply in_map_iff in Hi. destruct Hi as ([a' b'] & <- & Hi). apply filter_In in Hi. destruct Hi as [Hi _]. apply H1.
      apply in_map_iff. exists (a', b'). auto. }
    unfold ldap_new_obj, new_robj.
    assert (A : all_in (ddel (others_of (e_reg e) k ++ x) (lit "tag")) [k_scope; k_rdn] = true <->
      forall key v, In (key, v) k -> is_control (e_reg e) key \/ key = k_scope \/ key = k_rdn \/ key = lit "tag").
    { rewrite all_in_iff. split.
      - intros A key v Hi. destruct (dget (r_kw (e_reg e)) key) as [c|] eqn:E; [left; now exists c|right].
        destruct (str_eqb_spec key (lit "tag")) as [->|Nt]; [auto|].
        assert (Hi' : In (key, v) (ddel (others_of (e_reg e) k ++ x) (lit "tag"))).
        { apply dget_In. rewrite dget_ddel_neq by congruence. apply dget_In_NoDup; [exact Hn|]. apply in_app_iff. left. apply filter_In. split; [exact Hi|].
          cbn [fst]. unfold dmem. now rewrite E. }
        specialize (A _ _ Hi'). cbn [In] in A. intuition congruence.
      - intros A key v Hi. assert (Nt : key <> lit "tag").
        { intros ->. apply dget_In_NoDup in Hi; [|now apply ddel_NoDup]. rewrite dget_ddel_eq in Hi by exact Hn. discriminate. }
        apply ddel_In in Hi. apply in_app_iff in Hi as [Hi|Hi].
        + apply filter_In in Hi as [Hi Nc]. destruct (A _ _ Hi) as [[c C]|[->|[->| ->]]]; [|cbn; auto|cbn; auto|congruence].
          cbn [fst] in Nc. unfold dmem in Nc. rewrite C in Nc. discriminate.
        + destruct (X _ _ Hi) as [->| ->]; cbn; auto. }
    destruct (all_in _ _); split; intros H; eauto; [now apply A|destruct H; discriminate|apply A in H; discriminate]. }
  unfold obj_add_child. split.
  - destruct (ro_conn o); cbn [negb]; [|split; [intros (? & ? & ?); discriminate|intros [? _]; discriminate]].
    rewrite <- R. destruct (rdn o r) as [dn|y]; cbn [bind]; [|split; [intros (? & ? & ?); discriminate|intros (_ & _ & [? ?] & _); discriminate]].
    destruct (e_unbound e); [split; [intros (? & ? & ?); discriminate|intros (_ & ? & _); discriminate]|]. rewrite Ex. split.
    + intros (cs & n & H). destruct (process_kwds _ _ (k ++ x) _ _ _) as [[cs' rest]|y]; [|discriminate]. cbn [bind] in H.
      destruct (P1 _ _ eq_refl) as (B1 & B2 & -> & _). destruct (ldap_new_obj dn _) as [n'|y] eqn:En; [|discriminate].
      split; [reflexivity|]. split; [reflexivity|]. split; [eauto|]. split; [now apply Ea|]. apply (proj1 (T dn)). eauto.
    + intros (_ & _ & _ & A & K). destruct P2 as [cs Ep]; [now apply Ea|discriminate|]. rewrite Ep. cbn [bind].
      destruct (proj2 (T dn) K) as [n En]. rewrite En. cbn [bind]. eauto.
  - intros cs n. destruct (ro_conn o); cbn [negb]; [|discriminate]. destruct (rdn o r) as [dn|y]; cbn [bind]; [|discriminate].
    destruct (e_unbound e); [discriminate|]. rewrite Ex. destruct (process_kwds _ _ (k ++ x) _ _ _) as [[cs' rest]|y]; [|discriminate]. cbn [bind].
    destruct (P1 _ _ eq_refl) as (_ & B2 & _). destruct (ldap_new_obj dn _) as [n'|y]; [|discriminate]. cbn [bind]. intros [= <- _]. rewrite <- Ec. exact B2.
Qed.
Print Assumptions C71_added_child_iff.
Example C71_added_child_nonvacuous :
  obj_add_child ex_env (ex_top SubScope) (lit "uid=a") [(k_rdn, Plain (lit "'ou"))] = Ok ([], mk_robj (lit "uid=a,dc=x") true (Some SubScope) (Some (lit "ou"))).
Proof. vm_compute. reflexivity. Qed.
