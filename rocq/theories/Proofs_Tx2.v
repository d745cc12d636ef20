From Verif Require Import PyBase Model_CIDict Spec_CIDict Proofs_CIDict Model_Modify Spec_Modify
  Proofs_Modify Proofs_Modify2 Model_Tx Spec_Tx Proofs_Tx.

Section View.
  Variable lower : str -> str.
  Variable idx : str -> list str -> str -> res nat.
  Implicit Types (d : attrs).
  Notation same := (same_lookups lower).
  Notation ok := (dict_ok lower).

  Definition upd d d' a (r : res (list str)) : Prop :=
    ok d' /\ forall k, cid_get lower d' k = if str_eqb (lower a) (lower k) then r else cid_get lower d k.

  Lemma same_upd d1 d1' d2 d2' a r : same d1 d2 -> upd d1 d1' a r -> upd d2 d2' a r -> same d1' d2'.
  Proof.
    intros Hs [_ H1] [_ H2] k. rewrite H1, H2. destruct (str_eqb _ _); auto.
  Qed.

  Definition eqv_out (o1 o2 : attrs * res unit) : Prop :=
    snd o1 = snd o2 /\ ok (fst o1) /\ ok (fst o2) /\ same (fst o1) (fst o2).

  Lemma del_absent d k e : cid_get lower d k = Raise e -> cid_del lower d k = (d, Raise KeyError).
  Proof.
    unfold cid_get, cid_del. destruct (dget (ckeys d) (lower k)) as [k'|]; auto.
    destruct (dget (cdata d) k'); auto. discriminate.
  Qed.

  Lemma del_equiv d1 d2 a : ok d1 -> ok d2 -> same d1 d2 ->
    eqv_out (cid_del lower d1 a) (cid_del lower d2 a).
  Proof.
    intros H1 H2 Hs. destruct (cid_get lower d1 a) as [v|e] eqn:E1.
    - assert (E2 : cid_get lower d2 a = Ok v) by (rewrite <- (Hs a); auto).
      destruct (del_present lower d1 a v H1 E1) as [d1' [-> [A1 B1]]].
      destruct (del_present lower d2 a v H2 E2) as [d2' [-> [A2 B2]]].
      split; [|split; [|split]]; auto. simpl.
      eapply same_upd; [exact Hs|split; [exact A1|exact B1]|split; [exact A2|exact B2]].
    - assert (E2 : cid_get lower d2 a = Raise e) by (rewrite <- (Hs a); auto).
      rewrite (del_absent _ _ _ E1), (del_absent _ _ _ E2). split; [|split; [|split]]; auto.
  Qed.

  Lemma set_equiv d1 d2 a l : ok d1 -> ok d2 -> same d1 d2 ->
    eqv_out (cid_set lower d1 a l, Ok tt) (cid_set lower d2 a l, Ok tt).
  Proof.
    intros H1 H2 Hs. split; [|split; [|split]]; simpl; auto; try (apply ok_set; auto).
    intros k. rewrite !get_set; auto. destruct (str_eqb _ _); auto.
  Qed.

  Definition inpl d a l : attrs :=
    match dget (ckeys d) (lower a) with
    | Some k => mkcid (ckeys d) (dset (cdata d) k l)
    | None => d
    end.

  Lemma inpl_upd d a v l : ok d -> cid_get lower d a = Ok v -> upd d (inpl d a l) a (Ok l).
  Proof.
    intros Hok Hg. destruct (get_key lower d a v Hg) as [k [Hk Hd]].
    unfold inpl. rewrite Hk. exact (inplace lower d a k l Hok Hk).
  Qed.

  Lemma delete_attr_value_equiv d1 d2 a v : ok d1 -> ok d2 -> same d1 d2 ->
    eqv_out (delete_attr_value lower idx d1 a v) (delete_attr_value lower idx d2 a v).
  Proof.
    intros H1 H2 Hs. unfold delete_attr_value. pose proof (Hs a) as Ha. rewrite <- Ha.
    destruct (cid_get lower d1 a) as [l|e] eqn:E1.
    2:{ split; [|split; [|split]]; auto. }
    destruct (avl_remove (idx a) l v) as [l'|e].
    2:{ split; [|split; [|split]]; auto. }
    fold (inpl d1 a l') (inpl d2 a l').
    pose proof (inpl_upd d1 a l l' H1 E1) as U1.
    pose proof (inpl_upd d2 a l l' H2 (eq_sym Ha)) as U2.
    pose proof (same_upd _ _ _ _ _ _ Hs U1 U2) as Hs'.
    destruct l'.
    - apply del_equiv; auto; [apply U1|apply U2].
    - split; [|split; [|split]]; simpl; auto; [apply U1|apply U2].
  Qed.

  Lemma local_delete_vals_equiv a : forall vs d1 d2, ok d1 -> ok d2 -> same d1 d2 ->
    eqv_out (local_delete_vals lower idx d1 a vs) (local_delete_vals lower idx d2 a vs).
  Proof.
    induction vs as [|v vs IH]; intros d1 d2 H1 H2 Hs; cbn [local_delete_vals].
    - split; [|split; [|split]]; auto.
    - destruct (delete_attr_value_equiv d1 d2 a v H1 H2 Hs) as [A [B [C D]]].
      destruct (delete_attr_value lower idx d1 a v) as [d1' r1].
      destruct (delete_attr_value lower idx d2 a v) as [d2' r2]. simpl in *. subst r2.
      destruct r1 as [u|e]; auto.
      destruct e; try (apply IH; assumption); (split; [|split; [|split]]; auto).
  Qed.

  Lemma ahas_same d1 d2 a : same d1 d2 -> ahas lower d1 a = ahas lower d2 a.
  Proof. intros H. unfold ahas. now rewrite (H a). Qed.

  Lemma extend_upd d a l vs : ok d -> cid_get lower d a = Ok l ->
    upd d (attr_extend lower d a vs) a (Ok (l ++ vs)).
  Proof.
    intros Hok Hg. destruct (get_key lower d a l Hg) as [k [Hk Hd]].
    unfold attr_extend. rewrite Hk, Hd. exact (inplace lower d a k (l ++ vs) Hok Hk).
  Qed.

  Lemma local_mod1_equiv m d1 d2 : ok d1 -> ok d2 -> same d1 d2 ->
    eqv_out (local_mod1 lower idx d1 m) (local_mod1 lower idx d2 m).
  Proof.
    intros H1 H2 Hs. unfold local_mod1. rewrite <- (ahas_same d1 d2 _ Hs).
    assert (Hid : forall r, eqv_out (d1, r) (d2, r)) by (intros; split; [|split; [|split]]; auto).
    destruct (m_op m).
    - destruct (m_vals m) as [l|]; auto.
      destruct (ahas lower d1 (m_attr m)) eqn:Ea; simpl negb; cbv iota.
      + unfold ahas in Ea. destruct (cid_get lower d1 (m_attr m)) as [l1|] eqn:E1; [|discriminate].
        pose proof (extend_upd d1 _ _ l H1 E1) as U1.
        pose proof (extend_upd d2 _ _ l H2 (eq_trans (eq_sym (Hs _)) E1)) as U2.
        split; [|split; [|split]]; simpl; auto; [apply U1|apply U2|eapply same_upd; eauto].
      + apply set_equiv; auto.
    - destruct (m_vals m) as [[|x l]|]; try apply del_equiv; auto. apply set_equiv; auto.
    - destruct (ahas lower d1 (m_attr m)); auto.
      destruct (m_vals m) as [[|x l]|]; try apply del_equiv; auto.
      apply local_delete_vals_equiv; auto.
  Qed.

  Lemma local_modify_equiv : forall ms d1 d2, ok d1 -> ok d2 -> same d1 d2 ->
    eqv_out (local_modify lower idx d1 ms) (local_modify lower idx d2 ms).
  Proof.
    induction ms as [|m ms IH]; intros d1 d2 H1 H2 Hs; cbn [local_modify].
    - split; [|split; [|split]]; auto.
    - destruct (local_mod1_equiv m d1 d2 H1 H2 Hs) as [A [B [C D]]].
      destruct (local_mod1 lower idx d1 m) as [d1' r1].
      destruct (local_mod1 lower idx d2 m) as [d2' r2]. simpl in *. subst r2.
      destruct r1 as [u|e]; auto. split; [|split; [|split]]; auto.
  Qed.

  Lemma local_mod1_mutate d m : (m_op m = ADD -> m_vals m <> VDeleteAll) ->
    local_mod1 lower idx d (mutate m) = local_mod1 lower idx d m.
  Proof.
    intros H. unfold mutate. destruct (m_vals m) as [l|] eqn:E; auto.
    unfold local_mod1; simpl. rewrite E. destruct (m_op m); auto. exfalso; apply H; auto.
  Qed.

  Lemma local_modify_mutate : forall ms d, (forall m, In m ms -> constructed m) ->
    local_modify lower idx d (map mutate ms) = local_modify lower idx d ms.
  Proof.
    induction ms as [|m ms IH]; intros d Hc; cbn [local_modify map]; auto.
    rewrite local_mod1_mutate.
    2:{ intros Ho Hv. destruct (constructed_add m (Hc m (or_introl eq_refl)) Ho) as [x [l He]]. congruence. }
    destruct (local_mod1 lower idx d m) as [d' [u|e]]; auto.
    apply IH. intros; apply Hc; right; auto.
  Qed.

  Lemma local_modify_app : forall ms1 ms2 d d1, local_modify lower idx d ms1 = (d1, Ok tt) ->
    local_modify lower idx d (ms1 ++ ms2) = local_modify lower idx d1 ms2.
  Proof.
    induction ms1 as [|m ms1 IH]; intros ms2 d d1 H; cbn [local_modify app] in *.
    - congruence.
    - destruct (local_mod1 lower idx d m) as [d' [u|e]]; [|discriminate]. apply IH; auto.
  Qed.

  (** A transaction that went through calls [mss], each accepted. *)
  Fixpoint tx_modifies (t : tx) (mss : list (list mod_)) : option tx :=
    match mss with
    | [] => Some t
    | ms :: mss' =>
        match tx_modify lower idx t false (mkout false (Ok tt) (Ok tt)) ms with
        | (t', Ok _) => tx_modifies t' mss'
        | _ => None
        end
    end.

  Lemma tx_modifies_spec : forall mss t t', tx_modifies t mss = Some t' ->
    t_parent t' = t_parent t /\ t_mods t' = t_mods t ++ List.concat mss /\
    local_modify lower idx (t_attrs t) (List.concat mss) = (t_attrs t', Ok tt).
  Proof.
    induction mss as [|ms mss IH]; intros t t' H; cbn [tx_modifies List.concat] in *.
    - injection H as <-. rewrite app_nil_r. auto.
    - unfold tx_modify in H; simpl in H.
      destruct (local_modify lower idx (t_attrs t) ms) as [d1 [[]|e]] eqn:E; [|discriminate].
      apply IH in H as [A [B C]]. simpl in *. rewrite B, A, app_assoc. split; [|split]; auto.
      rewrite (local_modify_app _ _ _ _ E). auto.
  Qed.

  Lemma commit_view f d (mss : list (list mod_)) t t' d' ms' sent :
    error_empty_list f = false ->
    ok d -> ok (t_attrs t) -> same d (t_attrs t) -> t_mods t = [] ->
    (forall m, In m (List.concat mss) -> constructed m) ->
    tx_modifies t mss = Some t' ->
    obj_modify lower idx true false f (Ok tt) (Ok tt) (Ok tt) d (t_mods t') = (d', ms', sent, Ok tt) ->
    match sent with Some cs => [cs] | None => [] end
       = one_request (ignore_empty_list f) (List.concat mss) /\
    same d' (t_attrs t').
  Proof.
    intros He H1 H2 Hs Hm0 Hc Ht Ho.
    apply tx_modifies_spec in Ht as [Hp [Hm Hl]]. rewrite Hm0 in Hm; simpl in Hm.
    rewrite Hm in Ho. split; [eapply obj_modify_sent; eauto|].
    unfold obj_modify in Ho; simpl in Ho.
    rewrite (ldap_modify_ok f (Ok tt) _ Hc (or_introl He)) in Ho.
    assert (Hx : local_modify lower idx d (List.concat mss) = (d', Ok tt)).
    { destruct (wanted _ _); rewrite (local_modify_mutate _ _ Hc) in Ho;
        destruct (local_modify lower idx d (List.concat mss)) as [dd r]; congruence. }
    destruct (local_modify_equiv (List.concat mss) d (t_attrs t) H1 H2 Hs) as [_ [_ [_ Hd]]].
    rewrite Hx, Hl in Hd. exact Hd.
  Qed.

  Lemma commit_view_ok f d (mss : list (list mod_)) t t' :
    error_empty_list f = false ->
    ok d -> ok (t_attrs t) -> same d (t_attrs t) -> t_mods t = [] ->
    (forall m, In m (List.concat mss) -> constructed m) ->
    tx_modifies t mss = Some t' ->
    exists d' ms' sent,
      obj_modify lower idx true false f (Ok tt) (Ok tt) (Ok tt) d (t_mods t') = (d', ms', sent, Ok tt).
  Proof.
    intros He H1 H2 Hs Hm0 Hc Ht.
    apply tx_modifies_spec in Ht as [Hp [Hm Hl]]. rewrite Hm0 in Hm; simpl in Hm. rewrite Hm.
    unfold obj_modify; simpl.
    rewrite (ldap_modify_ok f (Ok tt) _ Hc (or_introl He)).
    destruct (local_modify_equiv (List.concat mss) d (t_attrs t) H1 H2 Hs) as [Hr _].
    rewrite Hl in Hr; simpl in Hr.
    destruct (wanted _ _); rewrite (local_modify_mutate _ _ Hc);
      destruct (local_modify lower idx d (List.concat mss)) as [dd r]; simpl in Hr; subst r; eauto.
  Qed.
End View.
