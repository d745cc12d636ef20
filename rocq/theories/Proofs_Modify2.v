From Verif Require Import PyBase Model_CIDict Spec_CIDict Proofs_CIDict Model_Modify Spec_Modify Proofs_Modify.

(** ** LDAP.modify *)
Lemma constructed_add m : constructed m -> m_op m = ADD ->
  exists x l, m_vals m = VList (x :: l).
Proof.
  unfold constructed, new_mod. intros H Ho; rewrite Ho in H; simpl in H.
  destruct (m_vals m) as [[|x l]|]; simpl in H; try discriminate; eauto.
Qed.

Definition mutate (m : mod_) : mod_ :=
  match m_vals m with
  | VDeleteAll => mkmod (m_op m) (m_attr m) (VList [])
  | _ => m
  end.

Lemma build_ok f ms :
  (forall m, In m ms -> constructed m) ->
  (error_empty_list f = false \/ forall m, In m ms -> empty_rd m = false) ->
  exists w, build_changes f ms = (map mutate ms, w, Ok (wanted (ignore_empty_list f) ms)).
Proof.
  unfold wanted. induction ms as [|m ms IH]; intros Hc He; simpl; [eauto|].
  destruct IH as [w IH].
  { intros; apply Hc; right; auto. }
  { destruct He as [He|He]; [auto|right; intros; apply He; right; auto]. }
  rewrite IH.
  assert (Hm : constructed m) by (apply Hc; left; auto).
  assert (Hem : error_empty_list f = false \/ empty_rd m = false)
    by (destruct He as [He|He]; [auto|right; apply He; left; auto]).
  assert (Hch : change_of m = mkchange (m_op m) (m_attr m)
             (match m_vals m with VList l => l | VDeleteAll => [] end)) by reflexivity.
  assert (Hmu : mutate m = match m_vals m with
     | VDeleteAll => mkmod (m_op m) (m_attr m) (VList []) | _ => m end) by reflexivity.
  assert (Hrd : empty_rd m = match m_op m, m_vals m with
     | REPLACE, VList [] | DELETE, VList [] => true | _, _ => false end) by reflexivity.
  revert Hmu Hrd Hem. generalize (empty_rd m) (mutate m).
  intros b mu -> -> Hem.
  destruct (m_op m) eqn:Eo.
  - destruct (constructed_add m Hm Eo) as [x [l Hv]]. rewrite Hv in *; simpl.
    rewrite ?Hv, ?Eo, ?Hch; eauto.
  - destruct (m_vals m) as [[|x l]|] eqn:Ev; simpl; rewrite ?Ev, ?Hch; eauto.
    destruct Hem as [-> |]; [|discriminate].
    destruct (ignore_empty_list f); simpl; rewrite ?Ev, ?Eo, ?Hch; eauto.
  - destruct (m_vals m) as [[|x l]|] eqn:Ev; simpl; rewrite ?Ev, ?Hch; eauto.
    destruct Hem as [-> |]; [|discriminate].
    destruct (ignore_empty_list f); simpl; rewrite ?Ev, ?Eo, ?Hch; eauto.
Qed.

Lemma build_err f ms :
  (forall m, In m ms -> constructed m) ->
  error_empty_list f = true -> (exists m, In m ms /\ empty_rd m = true) ->
  exists ms' w, build_changes f ms = (ms', w, Raise LDAPError).
Proof.
  intros Hc Hf. induction ms as [|m ms IH]; intros [m0 [Hin Hm0]]; [contradiction|].
  simpl. rewrite Hf.
  assert (Hm : constructed m) by (apply Hc; left; auto).
  destruct (empty_rd m) eqn:Em.
  - unfold empty_rd in Em.
    destruct (m_op m); try discriminate; destruct (m_vals m) as [[|x l]|]; try discriminate;
      simpl; eauto.
  - destruct IH as [ms' [w IH]].
    { intros; apply Hc; right; auto. }
    { destruct Hin as [<-|Hin]; [congruence|]. exists m0; auto. }
    rewrite IH. unfold empty_rd in Em.
    destruct (m_op m) eqn:Eo.
    + destruct (constructed_add m Hm Eo) as [x [l Hv]]. rewrite Hv; simpl. rewrite ?Hv; simpl; eauto.
    + destruct (m_vals m) as [[|x l]|] eqn:Ev; try discriminate; simpl; rewrite ?Ev; simpl; eauto.
    + destruct (m_vals m) as [[|x l]|] eqn:Ev; try discriminate; simpl; rewrite ?Ev; simpl; eauto.
Qed.

Lemma ldap_modify_ok f ans ms :
  (forall m, In m ms -> constructed m) ->
  (error_empty_list f = false \/ forall m, In m ms -> empty_rd m = false) ->
  ldap_modify false f (Ok tt) (Ok tt) ans ms =
  match wanted (ignore_empty_list f) ms with
  | [] => (map mutate ms, None, Ok tt)
  | cs => (map mutate ms, Some cs, ans)
  end.
Proof.
  intros Hc He. unfold ldap_modify. destruct ms as [|m ms]; [reflexivity|].
  destruct (build_ok f (m :: ms) Hc He) as [w ->].
  destruct (wanted _ _); reflexivity.
Qed.

Lemma ldap_modify_err f ans ms :
  (forall m, In m ms -> constructed m) ->
  error_empty_list f = true -> (exists m, In m ms /\ empty_rd m = true) ->
  exists ms', ldap_modify false f (Ok tt) (Ok tt) ans ms = (ms', None, Raise LDAPError).
Proof.
  intros Hc He Hx. unfold ldap_modify. destruct ms as [|m ms]; [destruct Hx as [? [[] _]]|].
  destruct (build_err f (m :: ms) Hc He Hx) as [ms' [w ->]]. eauto.
Qed.

Lemma ldap_modify_guard unbound f v c ans ms :
  ms <> [] ->
  (unbound = true -> ldap_modify unbound f v c ans ms = (ms, None, Raise ConnectionUnbound)) /\
  (forall e, unbound = false -> v = Raise e -> ldap_modify unbound f v c ans ms = (ms, None, Raise e)) /\
  (forall e, c = Raise e -> snd (fst (ldap_modify unbound f v c ans ms)) = None).
Proof.
  intros Hne; unfold ldap_modify; destruct ms as [|m ms]; [congruence|].
  repeat split.
  - intros ->; reflexivity.
  - intros e -> ->; reflexivity.
  - intros e ->. destruct unbound; auto. destruct v; auto.
    destruct (build_changes f (m :: ms)) as [[ms' w] [[|x cs]|e']]; reflexivity.
Qed.

(** ** Mirror *)
Section Mirror.
  Variable lower : str -> str.
  Variable eqv : str -> str -> str -> bool.
  Variable idx : str -> list str -> str -> res nat.
  Hypothesis Hidx : same_rule eqv idx.
  Implicit Types (d : attrs) (e : entry).

  Notation mirrors := (mirrors lower).
  Notation srv_apply1 := (srv_apply1 lower eqv).

  Lemma first_match_shift p : forall l i,
    first_match p l (S i) = option_map S (first_match p l i).
  Proof.
    induction l as [|x l IH]; intros i; simpl; auto.
    destruct (p x); auto.
  Qed.

  Lemma remove1_del a v : forall l,
    srv_remove1 eqv a l v =
    match first_match (fun x => eqv a x v) l 0 with
    | Some i => Some (del_nth l i)
    | None => None
    end.
  Proof.
    induction l as [|x l IH]; simpl; auto.
    destruct (eqv a x v); simpl; auto.
    rewrite first_match_shift, IH. destruct (first_match _ l 0); auto.
  Qed.

  Lemma avl_remove_spec a l v : avl_remove (idx a) l v =
    match srv_remove1 eqv a l v with Some l' => Ok l' | None => Raise ValueError end.
  Proof.
    unfold avl_remove. rewrite Hidx, remove1_del. destruct (first_match _ l 0); auto.
  Qed.

  (** replace the values of [a], seen through get *)
  Definition upd_view d d' a (r : res (list str)) : Prop :=
    forall k2, cid_get lower d' k2 =
      if str_eqb (lower a) (lower k2) then r else cid_get lower d k2.

  Lemma mirrors_upd d d' e a r l :
    mirrors d e -> upd_view d d' a r ->
    l = match r with Ok l => l | Raise _ => [] end ->
    mirrors d' (eput lower e a l).
  Proof.
    intros Hm Hu Hl k. unfold eput. rewrite Hu, str_eqb_sym.
    destruct (str_eqb (lower a) (lower k)); auto.
  Qed.

  Lemma delete_attr_value_spec d a v l l' :
    dict_ok lower d -> cid_get lower d a = Ok l -> srv_remove1 eqv a l v = Some l' ->
    exists d', delete_attr_value lower idx d a v = (d', Ok tt) /\ dict_ok lower d' /\
      upd_view d d' a (match l' with [] => Raise KeyError | _ => Ok l' end).
  Proof.
    intros Hok Hg Hr. unfold delete_attr_value. rewrite Hg, avl_remove_spec, Hr.
    destruct (get_key lower d a l Hg) as [k [Hk Hd]]. rewrite Hk.
    destruct (inplace lower d a k l' Hok Hk) as [Hok1 Hv1].
    destruct l' as [|x l'].
    - destruct (del_present lower _ a [] Hok1) as [d' [Hdel [Hok' Hv']]].
      { rewrite Hv1, str_eqb_refl; auto. }
      exists d'; split; auto; split; auto. intros k2. rewrite Hv', Hv1.
      destruct (str_eqb (lower a) (lower k2)); auto.
    - eexists; split; [reflexivity|]; auto.
  Qed.

  Lemma upd_trans d d1 d2 a r1 r2 : upd_view d d1 a r1 -> upd_view d1 d2 a r2 -> upd_view d d2 a r2.
  Proof. intros H1 H2 k2. rewrite H2, H1. destruct (str_eqb (lower a) (lower k2)); auto. Qed.

  Lemma remove_nil a vs l' : srv_remove eqv a [] vs = Some l' -> vs = [] /\ l' = [].
  Proof. destruct vs; simpl; [intros H; injection H as <-; auto|discriminate]. Qed.

  Lemma local_delete_vals_spec a : forall vs d l l',
    dict_ok lower d -> l <> [] -> cid_get lower d a = Ok l -> srv_remove eqv a l vs = Some l' ->
    exists d', local_delete_vals lower idx d a vs = (d', Ok tt) /\ dict_ok lower d' /\
      upd_view d d' a (match l' with [] => Raise KeyError | _ => Ok l' end).
  Proof.
    induction vs as [|v vs IH]; intros d l l' Hok Hne Hg Hr; cbn [local_delete_vals].
    - simpl in Hr; injection Hr as <-. exists d; split; auto; split; auto.
      intros k2. destruct l as [|x l]; [congruence|].
      destruct (str_eqb_spec (lower a) (lower k2)) as [He|]; auto.
      rewrite <- Hg. unfold cid_get; rewrite He; auto.
    - simpl in Hr. destruct (srv_remove1 eqv a l v) as [l1|] eqn:E1; [|discriminate].
      destruct (delete_attr_value_spec d a v l l1 Hok Hg E1) as [d1 [Hd1 [Hok1 Hv1]]].
      rewrite Hd1. destruct l1 as [|y l1].
      + apply remove_nil in Hr as [-> ->]. simpl. exists d1; auto.
      + destruct (IH d1 (y :: l1) l') as [d2 [Hd2 [Hok2 Hv2]]]; auto.
        * discriminate.
        * rewrite Hv1, str_eqb_refl; auto.
        * exists d2; split; auto; split; auto. eapply upd_trans; eauto.
  Qed.

  Lemma srv_add_app a : forall vs l l', srv_add eqv a l vs = Some l' -> l' = l ++ vs.
  Proof.
    induction vs as [|v vs IH]; simpl; intros l l' H.
    - injection H as <-. now rewrite app_nil_r.
    - destruct (existsb _ l); [discriminate|]. apply IH in H. now rewrite H, <- app_assoc.
  Qed.

  Lemma mirror_get d e a : mirrors d e ->
    ahas lower d a = match e (lower a) with [] => false | _ => true end.
  Proof. intros H; rewrite H. unfold ahas. destruct (cid_get lower d a) as [[|x l]|]; auto. Qed.

  Lemma local_mod1_spec d e e' m :
    dict_ok lower d -> mirrors d e ->
    (m_op m = REPLACE -> vtrue (m_vals m) = false -> e (lower (m_attr m)) <> []) ->
    (m_op m = ADD -> m_vals m <> VDeleteAll) ->
    srv_apply1 e (change_of m) = Some e' ->
    exists d', local_mod1 lower idx d m = (d', Ok tt) /\ dict_ok lower d' /\ mirrors d' e'.
  Proof.
    intros Hok Hm Hsafe Hadd Hs. unfold Spec_Modify.srv_apply1, change_of in Hs; cbn [c_op c_attr c_vals] in Hs.
    cbv zeta in Hs.
    unfold local_mod1. set (a := m_attr m) in *.
    pose proof (Hm a) as Hma.
    destruct (m_op m) eqn:Eo.
    - (* ADD *)
      destruct (m_vals m) as [vs|] eqn:Ev; [|exfalso; apply Hadd; auto].
      destruct vs as [|x vs]; [discriminate|].
      destruct (srv_add eqv a (e (lower a)) (x :: vs)) as [l'|] eqn:Ea; [|discriminate].
      cbn [option_map] in Hs. injection Hs as <-. apply srv_add_app in Ea.
      rewrite (mirror_get d e a Hm).
      destruct (e (lower a)) as [|y ys] eqn:Ee; cbn [negb].
      + eexists; split; [reflexivity|]. split; [now apply ok_set|].
        eapply mirrors_upd; eauto; [intros k2; now apply get_set|]. auto.
      + unfold attr_extend.
        assert (Hg : cid_get lower d a = Ok (y :: ys)).
        { try rewrite Ee in Hma. destruct (cid_get lower d a); congruence. }
        destruct (get_key lower d a _ Hg) as [k [Hk Hd]]. rewrite Hk, Hd.
        destruct (inplace lower d a k ((y :: ys) ++ x :: vs) Hok Hk) as [Hok1 Hv1].
        eexists; split; [reflexivity|]; split; auto.
        eapply mirrors_upd; eauto.
    - (* REPLACE *)
      injection Hs as <-.
      assert (Hnone : vtrue (m_vals m) = false ->
        exists d', cid_del lower d a = (d', Ok tt) /\ dict_ok lower d' /\
                   mirrors d' (eput lower e a [])).
      { intros Hv. specialize (Hsafe eq_refl Hv). rewrite Hma in Hsafe.
        destruct (cid_get lower d a) as [l|] eqn:Hg; [|congruence].
        destruct (del_present lower d a l Hok Hg) as [d' [H1 [H2 H3]]].
        exists d'; split; auto; split; auto. eapply mirrors_upd; eauto. }
      destruct (m_vals m) as [[|x l]|]; try (apply Hnone; reflexivity).
      eexists; split; [reflexivity|]. split; [now apply ok_set|].
      eapply mirrors_upd; eauto; [intros k2; now apply get_set|]. auto.
    - (* DELETE *)
      rewrite (mirror_get d e a Hm).
      destruct (e (lower a)) as [|y ys] eqn:Ee; [discriminate|].
      assert (Hg : cid_get lower d a = Ok (y :: ys)).
      { try rewrite Ee in Hma. destruct (cid_get lower d a); congruence. }
      destruct (m_vals m) as [[|x vs]|].
      + injection Hs as <-. destruct (del_present lower d a _ Hok Hg) as [d' [H1 [H2 H3]]].
        exists d'; split; auto; split; auto. eapply mirrors_upd; eauto.
      + destruct (srv_remove eqv a (y :: ys) (x :: vs)) as [l'|] eqn:Er; [|discriminate].
        cbn [option_map] in Hs. injection Hs as <-.
        destruct (local_delete_vals_spec a (x :: vs) d (y :: ys) l' Hok) as [d' [H1 [H2 H3]]]; auto.
        { discriminate. }
        exists d'; split; auto; split; auto. eapply mirrors_upd; eauto. destruct l'; auto.
      + injection Hs as <-. destruct (del_present lower d a _ Hok Hg) as [d' [H1 [H2 H3]]].
        exists d'; split; auto; split; auto. eapply mirrors_upd; eauto.
  Qed.

  Lemma change_mutate m : change_of (mutate m) = change_of m.
  Proof. unfold change_of, mutate. destruct (m_vals m) eqn:E; simpl; rewrite ?E; auto. Qed.

  Lemma mutate_op m : m_op (mutate m) = m_op m.
  Proof. unfold mutate; destruct (m_vals m); auto. Qed.
  Lemma mutate_attr m : m_attr (mutate m) = m_attr m.
  Proof. unfold mutate; destruct (m_vals m); auto. Qed.
  Lemma mutate_vtrue m : vtrue (m_vals (mutate m)) = vtrue (m_vals m).
  Proof. unfold mutate; destruct (m_vals m) eqn:E; rewrite ?E; auto. Qed.

  Lemma local_modify_spec f : forall ms d e e',
    dict_ok lower d -> mirrors d e ->
    (forall m, In m ms -> constructed m) ->
    safe lower eqv f e ms ->
    srv_apply lower eqv e (map change_of ms) = Some e' ->
    exists d', local_modify lower idx d (map mutate ms) = (d', Ok tt) /\
      dict_ok lower d' /\ mirrors d' e'.
  Proof.
    induction ms as [|m ms IH]; intros d e e' Hok Hm Hc Hsafe Hs; cbn in *.
    - injection Hs as <-; exists d; auto.
    - destruct (srv_apply1 e (change_of m)) as [e1|] eqn:E1; [|discriminate].
      destruct Hsafe as [_ [Hs2 Hs3]].
      destruct (local_mod1_spec d e e1 (mutate m)) as [d1 [H1 [H2 H3]]]; auto.
      + rewrite mutate_op, mutate_attr, mutate_vtrue; auto.
      + rewrite mutate_op; intros Ho. destruct (constructed_add m) as [x [l Hv]]; auto.
        unfold mutate; rewrite Hv, Hv; discriminate.
      + now rewrite change_mutate.
      + rewrite H1. eapply IH; eauto.
  Qed.

  Lemma safe_wanted f : forall ms e e',
    safe lower eqv f e ms -> srv_apply lower eqv e (map change_of ms) = Some e' ->
    wanted (ignore_empty_list f) ms = map change_of ms.
  Proof.
    unfold wanted; induction ms as [|m ms IH]; intros e e' Hs Ha; cbn in *; auto.
    destruct (srv_apply1 e (change_of m)) as [e1|] eqn:E1; [|discriminate].
    destruct Hs as [H1 [_ H3]].
    replace (negb (empty_rd m && ignore_empty_list f)) with true.
    - cbn; f_equal; eapply IH; eauto.
    - symmetry; apply negb_true_iff. unfold empty_rd.
      destruct (m_op m) eqn:Eo; simpl; auto; destruct (m_vals m) as [[|]|] eqn:Ev; simpl; auto;
        apply H1; auto; congruence.
  Qed.

  Lemma obj_modify_mirror f d e ms e' :
    dict_ok lower d -> mirrors d e ->
    (forall m, In m ms -> constructed m) ->
    (error_empty_list f = false \/ forall m, In m ms -> empty_rd m = false) ->
    safe lower eqv f e ms ->
    srv_apply lower eqv e (map change_of ms) = Some e' ->
    exists d' ms',
      obj_modify lower idx true false f (Ok tt) (Ok tt) (Ok tt) d ms =
        (d', ms', match ms with [] => None | _ => Some (map change_of ms) end, Ok tt) /\
      dict_ok lower d' /\ mirrors d' e'.
  Proof.
    intros Hok Hm Hc He Hs Ha.
    destruct (local_modify_spec f ms d e e' Hok Hm Hc Hs Ha) as [d' [H1 [H2 H3]]].
    exists d', (map mutate ms). split; auto.
    unfold obj_modify; simpl negb; cbv iota.
    rewrite (ldap_modify_ok f (Ok tt) ms Hc He), (safe_wanted f ms e e' Hs Ha).
    destruct ms as [|m ms]; simpl in *; [injection H1 as <-; auto|].
    simpl map in H1. rewrite H1; auto.
  Qed.

  (** A rejected modify changes nothing locally. *)
  Lemma obj_modify_fail has_ldap unb f v c ans d ms d' ms' sent err :
    snd (ldap_modify unb f v c ans ms) = Raise err ->
    obj_modify lower idx has_ldap unb f v c ans d ms = (d', ms', sent, Raise err) -> d' = d.
  Proof.
    unfold obj_modify. intros He H. destruct has_ldap; simpl in H; [|congruence].
    destruct (ldap_modify unb f v c ans ms) as [[ms1 s1] r]. simpl in He; subst r. congruence.
  Qed.

  (** ** Idempotence *)
  Notation cur_vals := (cur_vals lower).
  Notation has_value := (has_value lower idx).

  Lemma first_match_exists p : forall l i, match first_match p l i with Some _ => true | None => false end = existsb p l.
  Proof. induction l as [|x l IH]; intros i; simpl; auto. destruct (p x); simpl; auto. Qed.

  Lemma has_value_existsb d a v : has_value d a v = existsb (fun x => eqv a x v) (cur_vals d a).
  Proof.
    unfold Spec_Modify.has_value. rewrite Hidx, <- (first_match_exists _ _ 0).
    destruct (first_match _ _ 0); auto.
  Qed.

  Definition vals_of (m : mod_) : list str := match m_vals m with VList l => l | VDeleteAll => [] end.

  Lemma cur_vals_upd d d' a r : upd_view d d' a r -> forall k,
    cur_vals d' k = if str_eqb (lower a) (lower k) then match r with Ok l => l | _ => [] end else cur_vals d k.
  Proof.
    intros H k. unfold Spec_Modify.cur_vals. rewrite H. destruct (str_eqb _ _); auto.
  Qed.

  Lemma cur_vals_fold d a k : lower a = lower k -> cur_vals d a = cur_vals d k.
  Proof. intros H; unfold Spec_Modify.cur_vals, cid_get; now rewrite H. Qed.

  Lemma local_adds : forall ms d,
    dict_ok lower d ->
    (forall m, In m ms -> m_op m = ADD /\ vtrue (m_vals m) = true) ->
    exists d', local_modify lower idx d ms = (d', Ok tt) /\ dict_ok lower d' /\
      forall k, cur_vals d' k = cur_vals d k ++
        flat_map (fun m => if str_eqb (lower (m_attr m)) (lower k) then vals_of m else []) ms.
  Proof.
    induction ms as [|m ms IH]; intros d Hok Hadd; cbn [local_modify].
    - exists d; split; auto; split; auto. intros; simpl; now rewrite app_nil_r.
    - destruct (Hadd m) as [Ho Hv]; [left; auto|].
      destruct (m_vals m) as [[|x l]|] eqn:Ev; simpl in Hv; try discriminate.
      assert (H1 : exists d1, local_mod1 lower idx d m = (d1, Ok tt) /\ dict_ok lower d1 /\
        forall k, cur_vals d1 k = cur_vals d k ++
          (if str_eqb (lower (m_attr m)) (lower k) then vals_of m else [])).
      { unfold local_mod1, vals_of. rewrite Ho, Ev, ahas_iff.
        destruct (cur_vals d (m_attr m)) as [|y ys] eqn:Ec; cbn [negb].
        - eexists; split; [reflexivity|]; split; [now apply ok_set|].
          intros k. rewrite (cur_vals_upd d _ (m_attr m) (Ok (x :: l))); [|intros k2; now apply get_set].
          destruct (str_eqb_spec (lower (m_attr m)) (lower k)) as [He|]; [|now rewrite app_nil_r].
          now rewrite <- (cur_vals_fold d _ _ He), Ec.
        - unfold attr_extend.
          assert (Hg : cid_get lower d (m_attr m) = Ok (y :: ys)).
          { rewrite <- Ec. apply get_cur_vals. congruence. }
          destruct (get_key lower d _ _ Hg) as [k0 [Hk Hd]]. rewrite Hk, Hd.
          destruct (inplace lower d (m_attr m) k0 ((y :: ys) ++ x :: l) Hok Hk) as [Hok1 Hv1].
          eexists; split; [reflexivity|]; split; auto.
          intros k. rewrite (cur_vals_upd d _ (m_attr m) (Ok ((y :: ys) ++ x :: l)) Hv1).
          destruct (str_eqb_spec (lower (m_attr m)) (lower k)) as [He|]; [|now rewrite app_nil_r].
          now rewrite <- (cur_vals_fold d _ _ He), Ec. }
      destruct H1 as [d1 [H1 [Hok1 Hv1]]]. rewrite H1.
      destruct (IH d1 Hok1) as [d2 [H2 [Hok2 Hv2]]].
      { intros; apply Hadd; right; auto. }
      exists d2; split; auto; split; auto. intros k. rewrite Hv2, Hv1, <- app_assoc. reflexivity.
  Qed.

  Lemma add_twice_nothing d new ms :
    (forall a v, eqv a v v = true) ->
    dict_ok lower d -> NoDup (map fst new) ->
    add_modlist lower idx d new = Ok ms ->
    exists d', local_modify lower idx d ms = (d', Ok tt) /\
      (forall ms2, add_modlist lower idx d' new = Ok ms2 -> ms2 = []).
  Proof.
    intros Hrefl Hok Hn Hms.
    pose proof (add_modlist_values lower idx d new ms Hn Hms) as [Hadd Hvals].
    destruct (local_adds ms d Hok Hadd) as [d' [H1 [H2 H3]]]. exists d'; split; auto.
    intros ms2 H. destruct ms2 as [|m r]; auto. exfalso.
    pose proof (add_modlist_values lower idx d' new _ Hn H) as [Hadd' Hv'].
    destruct (Hadd' m (or_introl eq_refl)) as [Ho Hvt].
    destruct m as [op a vv]; simpl in Ho, Hvt; subst op.
    destruct vv as [[|v l]|]; simpl in Hvt; try discriminate.
    destruct (Hv' a v) as [Hv1 _]. destruct Hv1 as [l0 [Hin0 [Hvl Hmiss]]].
    { exists (v :: l); split; left; auto. }
    assert (Hsent : has_value d' a v = true).
    { rewrite has_value_existsb, H3, existsb_app. apply orb_true_iff.
      destruct (Hvals a v) as [_ Hs].
      destruct (has_value d a v) eqn:Eh.
      - left. now rewrite <- has_value_existsb.
      - right. destruct Hs as [l1 [Hm1 Hv1]]; [exists l0; auto|].
        apply existsb_exists. exists v; split; [|apply Hrefl].
        apply in_flat_map. exists (mkmod ADD a (VList l1)); split; auto.
        simpl. rewrite str_eqb_refl. exact Hv1. }
    destruct Hmiss as [Hc|Hc]; [|congruence].
    rewrite has_value_existsb, Hc in Hsent. discriminate.
  Qed.

  Definition mcount d a v : nat := List.length (filter (fun x => eqv a x v) (cur_vals d a)).

  Lemma remove1_filter_le a v p : forall l l', srv_remove1 eqv a l v = Some l' ->
    List.length (filter p l') <= List.length (filter p l).
  Proof.
    induction l as [|x l IH]; simpl; intros l' H; [discriminate|].
    destruct (eqv a x v).
    - injection H as <-. destruct (p x); simpl; lia.
    - destruct (srv_remove1 eqv a l v) as [r|]; [|discriminate]. injection H as <-.
      specialize (IH r eq_refl). simpl. destruct (p x); simpl; lia.
  Qed.

  Lemma remove1_filter_lt a v : forall l l', srv_remove1 eqv a l v = Some l' ->
    List.length (filter (fun x => eqv a x v) l) = S (List.length (filter (fun x => eqv a x v) l')).
  Proof.
    induction l as [|x l IH]; simpl; intros l' H; [discriminate|].
    destruct (eqv a x v) eqn:E.
    - injection H as <-. reflexivity.
    - destruct (srv_remove1 eqv a l v) as [r|]; [|discriminate]. injection H as <-.
      simpl. rewrite E. auto.
  Qed.

  Lemma remove1_none a v : forall l, srv_remove1 eqv a l v = None ->
    filter (fun x => eqv a x v) l = [].
  Proof.
    induction l as [|x l IH]; simpl; intros H; auto.
    destruct (eqv a x v); [discriminate|].
    destruct (srv_remove1 eqv a l v); [discriminate|auto].
  Qed.

  Definition shrinks d d' : Prop :=
    (forall a v, mcount d' a v <= mcount d a v) /\
    (forall a, cur_vals d a = [] -> cur_vals d' a = []).

  Lemma shrinks_trans d1 d2 d3 : shrinks d1 d2 -> shrinks d2 d3 -> shrinks d1 d3.
  Proof.
    intros [H1 H2] [H3 H4]; split; auto. intros a v. etransitivity; eauto.
  Qed.
  Lemma shrinks_refl d : shrinks d d. Proof. split; auto. Qed.

  Lemma shrinks_upd d d' a l l' r :
    cur_vals d a = l -> upd_view d d' a r -> l' = match r with Ok l => l | _ => [] end ->
    (forall p, List.length (filter p l') <= List.length (filter p l)) -> shrinks d d'.
  Proof.
    intros Hl Hu Hl' Hle. split.
    - intros b v; unfold mcount. rewrite (cur_vals_upd d d' a r Hu b).
      destruct (str_eqb_spec (lower a) (lower b)) as [He|]; auto.
      rewrite <- Hl', <- (cur_vals_fold d a b He), Hl. apply Hle.
    - intros b Hb. rewrite (cur_vals_upd d d' a r Hu b).
      destruct (str_eqb_spec (lower a) (lower b)) as [He|]; auto.
      rewrite <- Hl'. rewrite <- (cur_vals_fold d a b He), Hl in Hb. subst l. rewrite Hb in Hle.
      specialize (Hle (fun _ => true)). destruct l'; simpl in *; auto; lia.
  Qed.

  Lemma delete_attr_value_shrink d a v d' :
    dict_ok lower d -> delete_attr_value lower idx d a v = (d', Ok tt) ->
    dict_ok lower d' /\ shrinks d d' /\ mcount d' a v = mcount d a v - 1.
  Proof.
    intros Hok H. pose proof H as H0. unfold delete_attr_value in H.
    destruct (cid_get lower d a) as [l|] eqn:Hg; [|discriminate].
    rewrite avl_remove_spec in H.
    destruct (srv_remove1 eqv a l v) as [l'|] eqn:Hr; [|discriminate].
    destruct (delete_attr_value_spec d a v l l' Hok Hg Hr) as [d2 [Hd2 [Hok2 Hu]]].
    rewrite Hd2 in H0. injection H0 as <-. split; auto.
    assert (Hl : cur_vals d a = l) by (unfold Spec_Modify.cur_vals; now rewrite Hg).
    split.
    - eapply shrinks_upd; eauto. destruct l'; auto; intros p; now apply (remove1_filter_le a v).
    - unfold mcount. rewrite (cur_vals_upd _ _ _ _ Hu a), str_eqb_refl, Hl.
      rewrite (remove1_filter_lt a v l l' Hr). destruct l'; simpl; lia.
  Qed.

  Lemma delete_attr_value_ve d a v d' :
    delete_attr_value lower idx d a v = (d', Raise ValueError) -> dict_ok lower d ->
    d' = d /\ mcount d a v = 0.
  Proof.
    unfold delete_attr_value. destruct (cid_get lower d a) as [l|e] eqn:Hg.
    - rewrite avl_remove_spec. destruct (srv_remove1 eqv a l v) as [l'|] eqn:Hr.
      + intros H Hok. destruct (delete_attr_value_spec d a v l l' Hok Hg Hr) as [d2 [Hd2 _]].
        unfold delete_attr_value in Hd2. rewrite Hg, avl_remove_spec, Hr in Hd2. congruence.
      + intros H Hok; injection H as <-. split; auto.
        unfold mcount, Spec_Modify.cur_vals. rewrite Hg, (remove1_none a v l Hr). auto.
    - intros H _. apply get_err in Hg. subst; congruence.
  Qed.

  Lemma local_delete_vals_shrink a : forall vs d d',
    dict_ok lower d -> local_delete_vals lower idx d a vs = (d', Ok tt) ->
    dict_ok lower d' /\ shrinks d d' /\ forall v, In v vs -> mcount d' a v <= mcount d a v - 1.
  Proof.
    induction vs as [|v vs IH]; intros d d' Hok H; cbn [local_delete_vals] in H.
    - injection H as <-. split; auto; split; [apply shrinks_refl|intros v []].
    - destruct (delete_attr_value lower idx d a v) as [d1 [[]|err]] eqn:E.
      + apply delete_attr_value_shrink in E as [Hok1 [Hs1 Hc1]]; auto.
        apply IH in H as [Hok2 [Hs2 Hc2]]; auto.
        split; auto; split; [eapply shrinks_trans; eauto|].
        intros w [<-|Hw].
        * destruct Hs2 as [Hs2 _]. specialize (Hs2 a v). lia.
        * specialize (Hc2 w Hw). destruct Hs1 as [Hs1 _]. specialize (Hs1 a w). lia.
      + destruct err; try discriminate.
        destruct (delete_attr_value_ve _ _ _ _ E Hok) as [-> H0].
        apply IH in H as [Hok2 [Hs2 Hc2]]; auto.
        split; auto; split; auto. intros w [<-|Hw]; auto.
        destruct Hs2 as [Hs2 _]. specialize (Hs2 a v). lia.
  Qed.

  Lemma local_deletes : forall ms d d',
    dict_ok lower d ->
    (forall m, In m ms -> m_op m = DELETE) ->
    local_modify lower idx d ms = (d', Ok tt) ->
    dict_ok lower d' /\ shrinks d d' /\
    (forall m, In m ms ->
       (vtrue (m_vals m) = false -> cur_vals d' (m_attr m) = []) /\
       (forall v, In v (vals_of m) -> mcount d' (m_attr m) v <= mcount d (m_attr m) v - 1)).
  Proof.
    induction ms as [|m ms IH]; intros d d' Hok Hdel H; cbn [local_modify] in H.
    - injection H as <-; split; auto; split; [apply shrinks_refl|intros m []].
    - destruct (local_mod1 lower idx d m) as [d1 [[]|err]] eqn:E1; [|discriminate].
      assert (H1 : dict_ok lower d1 /\ shrinks d d1 /\
        (vtrue (m_vals m) = false -> cur_vals d1 (m_attr m) = []) /\
        (forall v, In v (vals_of m) -> mcount d1 (m_attr m) v <= mcount d (m_attr m) v - 1)).
      { unfold local_mod1 in E1. rewrite (Hdel m (or_introl eq_refl)), ahas_iff in E1.
        destruct (cur_vals d (m_attr m)) as [|y ys] eqn:Ec.
        - injection E1 as <-. split; auto; split; [apply shrinks_refl|split; auto].
          intros v _; unfold mcount; rewrite Ec; simpl; lia.
        - assert (Hg : cid_get lower d (m_attr m) = Ok (y :: ys)).
          { rewrite <- Ec. apply get_cur_vals. congruence. }
          assert (Hcase : cid_del lower d (m_attr m) = (d1, Ok tt) ->
             dict_ok lower d1 /\ shrinks d d1 /\ cur_vals d1 (m_attr m) = []).
          { intros Hd. destruct (del_present lower d _ _ Hok Hg) as [d2 [Hd2 [Hok2 Hu]]].
            rewrite Hd2 in Hd; injection Hd as <-. split; auto; split.
            - eapply shrinks_upd; eauto. intros p; simpl; lia.
            - rewrite (cur_vals_upd _ _ _ _ Hu), str_eqb_refl; auto. }
          unfold vals_of. destruct (m_vals m) as [[|x l]|] eqn:Ev.
          + destruct (Hcase E1) as [A [B C]]. split; [exact A|split; [exact B|split; [auto|intros v []]]].
          + apply local_delete_vals_shrink in E1 as [A [B C]]; auto.
            split; [exact A|split; [exact B|split; [discriminate|exact C]]].
          + destruct (Hcase E1) as [A [B C]]. split; [exact A|split; [exact B|split; [auto|intros v []]]]. }
      destruct H1 as [Hok1 [Hs1 [Hall1 Hv1]]].
      apply IH in H as [Hok2 [Hs2 Hm2]]; auto; [|intros; apply Hdel; right; auto].
      split; auto; split; [eapply shrinks_trans; eauto|].
      intros m0 [<-|Hin].
      + split.
        * intros Hv. apply Hs2; auto.
        * intros v Hv. specialize (Hv1 v Hv). destruct Hs2 as [Hs2 _]. specialize (Hs2 (m_attr m) v). lia.
      + destruct (Hm2 m0 Hin) as [A B]. split; auto.
        intros v Hv. specialize (B v Hv). destruct Hs1 as [Hs1 _]. specialize (Hs1 (m_attr m0) v). lia.
  Qed.

  Lemma mcount_has d a v : has_value d a v = true <-> mcount d a v > 0.
  Proof.
    rewrite has_value_existsb. unfold mcount. split.
    - rewrite existsb_exists. intros [x [Hx He]].
      assert (Hf : In x (filter (fun x => eqv a x v) (cur_vals d a))) by (apply filter_In; auto).
      destruct (filter _ _); [contradiction|simpl; lia].
    - intros H. destruct (filter _ _) as [|x r] eqn:E; [simpl in H; lia|].
      assert (Hf : In x (filter (fun x => eqv a x v) (cur_vals d a))) by (rewrite E; left; auto).
      apply filter_In in Hf as [Hx He]. apply existsb_exists; eauto.
  Qed.

  Lemma delete_twice_nothing d req ms d' :
    dict_ok lower d -> NoDup (map fst req) ->
    values_distinct lower eqv d ->
    delete_modlist lower idx d req = Ok ms ->
    local_modify lower idx d ms = (d', Ok tt) ->
    delete_modlist lower idx d' req = Ok [].
  Proof.
    intros Hok Hn Huniq Hms Hloc.
    pose proof (del_modlist_values lower idx d req ms Hn Hms) as [Hop [Hvals Hall]].
    destruct (local_deletes ms d d' Hok (fun m Hm => proj1 (Hop m Hm)) Hloc) as [Hok' [[Hs1 Hs2] Hm]].
    assert (Hclean : lookups_clean lower idx d' req).
    { intros a l v _ _ _. pose proof (Hidx a (cur_vals d' a) v) as Hx.
      destruct (first_match _ _ 0); [left; eexists; exact Hx|right; exact Hx]. }
    rewrite del_modlist_total; auto.
    f_equal. pose proof (del_modlist_exact lower idx d req ms Hn Hms) as He.
    assert (Hgen : forall av, In av req -> deletes_for lower idx d' av = []).
    { intros [a w] Hin. unfold deletes_for; cbn [fst snd].
      destruct (cur_vals d a) as [|c cs] eqn:Ec; [now rewrite (Hs2 a Ec)|].
      assert (Hempty : vtrue w = false -> cur_vals d' a = []).
      { intros Hw. assert (Hmi : In (mkmod DELETE a w) ms).
        { rewrite He. apply in_flat_map; exists (a, w); split; auto.
          unfold deletes_for; cbn [fst snd]. rewrite Ec.
          destruct w as [[|x l]|]; simpl in Hw; try discriminate; left; auto. }
        apply (proj1 (Hm _ Hmi)); auto. }
      destruct w as [[|x l]|]; try (rewrite Hempty; reflexivity).
      destruct (cur_vals d' a) as [|c' cs'] eqn:Ec'; auto.
      replace (filter (has_value d' a) (x :: l)) with (@nil str); auto. symmetry.
      assert (Hf : forall v, In v (x :: l) -> has_value d' a v = false).
      { intros v Hv. destruct (has_value d' a v) eqn:Eh; auto. exfalso.
        apply mcount_has in Eh. specialize (Hs1 a v).
        assert (Hh : has_value d a v = true) by (apply mcount_has; lia).
        destruct (Hvals a v) as [_ Hb]. destruct Hb as [l0 [Hml Hvl]].
        { exists (x :: l); repeat split; auto. congruence. }
        destruct (Hm _ Hml) as [_ Hc]. specialize (Hc v Hvl); simpl in Hc.
        specialize (Huniq a v). unfold mcount in *. lia. }
      clear - Hf. induction (x :: l) as [|v vs IH]; simpl; auto.
      rewrite (Hf v); [|left; auto]. apply IH; intros; apply Hf; right; auto. }
    clear - Hgen. induction req as [|av req IH]; simpl; auto.
    rewrite (Hgen av); [|left; auto]. apply IH; intros; apply Hgen; right; auto.
  Qed.
End Mirror.
