From Verif Require Import PyBase Model_CIDict Spec_CIDict Proofs_CIDict Model_Modify Model_Uri Model_Conn Model_Search Spec_Search.
Local Open Scope N_scope.

Section P.
  Context (lower : str -> str).

  (** dict of an entry with distinct names is the entry itself *)
  Lemma entry_dict_id a : forall d, NoDup (map fst (d ++ a)) ->
    fold_left (fun (d : list (str * list str)) av => dset d (fst av) (snd av)) a d = d ++ a.
  Proof.
    induction a as [|[k v] a IH]; intros d H; cbn [fold_left fst snd]; [now rewrite app_nil_r|].
    assert (E : dset d k v = d ++ [(k, v)]).
    { rewrite map_app in H. cbn [map fst] in H. apply NoDup_remove_2 in H.
      assert (Hn : ~ In k (map fst d)) by (intros X; apply H, in_app_iff; now left). clear H IH.
      induction d as [|[k' v'] d IHd]; [reflexivity|]. cbn [dset]. cbn [map fst In] in Hn.
      destruct (str_eqb_spec k' k) as [->|]; [tauto|]. rewrite IHd by tauto. reflexivity. }
    rewrite E, IH.
    - now rewrite <- app_assoc.
    - now rewrite <- app_assoc.
  Qed.
  Lemma distinct_fst a : names_distinct lower a -> NoDup (map fst a).
  Proof.
    unfold names_distinct. intros H. rewrite <- map_map in H. now apply NoDup_map_inv in H.
  Qed.

  Lemma fold_smap (a : list (str * list str)) : names_distinct lower a ->
    forall m l vs, (forall av, In av a -> m (lower (fst av)) = None) ->
    (fold_left (fun m kv => smap_put lower m (fst kv) (Some (snd kv))) a m l = Some vs <->
     (exists name, In (name, vs) a /\ lower name = l) \/ m l = Some vs).
  Proof.
    unfold names_distinct. induction a as [|[k v] a IH]; cbn [map fold_left fst snd]; intros Hd m l vs Hm.
    - split; [now right|]. intros [(n & [] & _)|H]; exact H.
    - inversion Hd as [|? ? Hn Hd']; subst. rewrite IH.
      + unfold smap_put. destruct (str_eqb_spec l (lower k)) as [->|Hne].
        * split.
          { intros [(n & Hin & E)|E].
            - exfalso. apply Hn. apply in_map_iff. exists (n, vs). auto.
            - injection E as <-. left. exists k. split; [now left|reflexivity]. }
          { intros [(n & [E|Hin] & El)|E].
            - injection E as -> ->. now right.
            - exfalso. apply Hn. apply in_map_iff. exists (n, vs). auto.
            - specialize (Hm (k, v) (or_introl eq_refl)). cbn [fst] in Hm. congruence. }
        * split.
          { intros [(n & Hin & E)|E]; [left; exists n; split; [now right|exact E]|now right]. }
          { intros [(n & [E|Hin] & El)|E]; [injection E as -> ->; congruence|left; eauto|now right]. }
      + exact Hd'.
      + intros av Hin. unfold smap_put. destruct (str_eqb_spec (lower (fst av)) (lower k)) as [E|].
        * exfalso. apply Hn. rewrite <- E. now apply (in_map (fun av => lower (fst av))).
        * apply Hm. now right.
  Qed.

  Lemma entry_shown dn a : names_distinct lower a ->
    shows lower dn a (mk_lobj dn (cid_update lower cid_empty (entry_dict a))).
  Proof.
    intros H. unfold entry_dict. rewrite (entry_dict_id a []) by (cbn [app]; now apply distinct_fst). cbn [app].
    split; [reflexivity|]. intros k vs. cbn [o_attrs].
    pose proof (Rel_update lower a _ _ (Rel_empty lower (V := list str))) as R.
    rewrite (Rel_get lower _ _ k R). unfold spec_get.
    pose proof (fold_smap a H smap_empty (lower k)) as F.
    destruct (fold_left _ a smap_empty (lower k)) as [vs'|] eqn:E.
    - split.
      + intros X. injection X as ->. specialize (F vs (fun _ _ => eq_refl)).
        destruct (proj1 F eq_refl) as [Y|Y]; [exact Y|discriminate].
      + intros X. specialize (F vs (fun _ _ => eq_refl)).
        assert (Y : Some vs' = Some vs) by (apply F; now left). congruence.
    - split; [discriminate|]. intros X. specialize (F vs (fun _ _ => eq_refl)).
      assert (Y : @None (list str) = Some vs) by (apply F; now left). discriminate.
  Qed.
End P.

Section It.
  Context {C : Type} (handle : C -> res unit) (lower : str -> str)
          (urlparse : str -> str * str * str * str) (contact : ldapuri -> res unit).

  Lemma iter_body h tags body rest :
    h_tag h = None -> h_fetch_refs h = false ->
    Forall (result_message handle lower urlparse) body ->
    exists items, Forall2 (item_for lower urlparse) body items /\
      iter_loop handle lower urlparse contact h tags (body ++ rest) =
      let '(more, e, r, h', t') := iter_loop handle lower urlparse contact h tags rest in
      (items ++ more, e, r, h', t').
  Proof.
    intros Ht Hf. induction body as [|m body IH]; intros F.
    - exists []. split; [constructor|]. cbn [app].
      now destruct (iter_loop handle lower urlparse contact h tags rest) as [[[[? ?] ?] ?] ?].
    - inversion F as [|? ? Hm F']; subst. destruct (IH F') as (items & Fi & E).
      destruct m as [dn a c|uris c|code ref c|]; cbn [result_message] in Hm; try contradiction.
      + destruct Hm as [Hd Hc]. eexists (IObj _ :: items). split.
        * constructor; [|exact Fi]. apply entry_shown, Hd.
        * cbn [app iter_loop]. unfold ldap_obj. rewrite Ht, Hc, E.
          now destruct (iter_loop handle lower urlparse contact h tags rest) as [[[[? ?] ?] ?] ?].
      + destruct Hm as [[us Hu] Hc]. exists (IRef us :: items). split.
        * constructor; [exact Hu|exact Fi].
        * cbn [app iter_loop]. rewrite Hu, Hf, Hc, E.
          now destruct (iter_loop handle lower urlparse contact h tags rest) as [[[[? ?] ?] ?] ?].
  Qed.

  (** streaming: more messages only add to what has been yielded *)
  Lemma iter_stream m1 m2 : forall h tags i1 r1 h1 t1,
    iter_loop handle lower urlparse contact h tags m1 = (i1, Waiting, r1, h1, t1) ->
    iter_loop handle lower urlparse contact h tags (m1 ++ m2) =
    let '(i2, e, r, h', t') := iter_loop handle lower urlparse contact h1 t1 m2 in (i1 ++ i2, e, r, h', t').
  Proof.
    assert (NW : forall us i, fetch contact us <> Ok (i, Waiting)).
    { induction us as [|u us IH]; intros i; cbn [fetch]; [discriminate|]. unfold uri_search.
      destruct (u_starttls u); [|discriminate]. destruct (contact u) as [|e]; cbn [bind]; [discriminate|].
      destruct e; try discriminate. apply IH. }
    induction m1 as [|m m1 IH]; intros h tags i1 r1 h1 t1 E.
    - cbn [iter_loop] in E. injection E as <- <- <- <-. cbn [app].
      now destruct (iter_loop handle lower urlparse contact h tags m2) as [[[[? ?] ?] ?] ?].
    - cbn [app]. destruct m as [dn a c|uris c|code ref c|]; cbn [iter_loop] in E |- *.
      + destruct (ldap_obj lower tags dn (entry_dict a) (h_tag h)) as [tags' [o|e]]; [|discriminate].
        destruct (handle c); [|discriminate].
        destruct (iter_loop handle lower urlparse contact h tags' m1) as [[[[i' e'] r'] h'] t'] eqn:E1.
        injection E as <- -> -> -> ->. rewrite (IH _ _ _ _ _ _ E1).
        now destruct (iter_loop handle lower urlparse contact h1 t1 m2) as [[[[? ?] ?] ?] ?].
      + destruct (parse_uris lower urlparse uris) as [us|]; [|discriminate].
        destruct (h_fetch_refs h).
        * destruct (fetch contact us) as [[f e]|] eqn:Ef; [|discriminate].
          destruct e; [|discriminate|].
          -- destruct (iter_loop handle lower urlparse contact h tags m1) as [[[[i' e'] r'] h'] t'] eqn:E1.
             injection E as <- -> -> -> ->. rewrite (IH _ _ _ _ _ _ E1).
             destruct (iter_loop handle lower urlparse contact h1 t1 m2) as [[[[? ?] ?] ?] ?].
             now rewrite app_assoc.
          -- now apply NW in Ef.
        * destruct (handle c); [|discriminate].
          destruct (iter_loop handle lower urlparse contact h tags m1) as [[[[i' e'] r'] h'] t'] eqn:E1.
          injection E as <- -> -> -> ->. rewrite (IH _ _ _ _ _ _ E1).
          now destruct (iter_loop handle lower urlparse contact h1 t1 m2) as [[[[? ?] ?] ?] ?].
      + destruct (N.eqb code rc_success || N.eqb code rc_noSuchObject).
        * destruct (handle c); discriminate.
        * destruct (N.eqb code rc_referral); [|discriminate].
          destruct (h_follow h); [|discriminate].
          destruct (parse_uris lower urlparse ref) as [us|]; cbn [bind] in E |- *; [|discriminate].
          destruct (fetch contact us) as [[f e]|] eqn:Ef; [|discriminate].
          destruct e; [|discriminate|].
          -- destruct (iter_loop handle lower urlparse contact (set_done h) tags m1) as [[[[i' e'] r'] h'] t'] eqn:E1.
             injection E as <- -> -> -> ->. rewrite (IH _ _ _ _ _ _ E1).
             destruct (iter_loop handle lower urlparse contact h1 t1 m2) as [[[[? ?] ?] ?] ?].
             now rewrite app_assoc.
          -- now apply NW in Ef.
      + discriminate.
  Qed.

  Lemma iter_done h tags code ref c rest :
    handle c = Ok tt -> h_follow h = false ->
    iter_loop handle lower urlparse contact h tags (RDone code ref c :: rest) =
    ([], end_of code, rest, set_done h, tags).
  Proof.
    intros Hc Hf. cbn [iter_loop]. rewrite Hc, Hf. unfold end_of, rc_success, rc_noSuchObject, rc_referral.
    destruct (N.eqb code 0), (N.eqb code 32), (N.eqb code 10); reflexivity.
  Qed.

  (** a search answered by a directory server *)
  Lemma answered (noctl : C) (found : request -> option (list (str * list (str * list str)))) fr fo tags q :
    handle noctl = Ok tt ->
    fr = false -> fo = false ->
    (forall l, found q = Some l -> Forall (fun e => names_distinct lower (snd e)) l) ->
    match found q with
    | None => search_list handle lower urlparse contact (answers noctl found) fr fo tags None q = Some (Ok [])
    | Some l =>
        exists items, Forall2 (fun e i => exists o, i = IObj o /\ shows lower (fst e) (snd e) o) l items /\
        search_list handle lower urlparse contact (answers noctl found) fr fo tags None q =
        if (0 <? q_limit q) && (q_limit q <? N.of_nat (List.length l)) then Some (Raise LDAPError) else Some (Ok items)
    end.
  Proof.
    intros Hc -> -> Hd. unfold search_list, list_of, iterate. cbn [h_abandoned]. unfold answers.
    destruct (found q) as [l|].
    - specialize (Hd l eq_refl).
      assert (R : forall l', Forall (fun e => names_distinct lower (snd e)) l' ->
                Forall (result_message handle lower urlparse) (map (fun e => REntry (fst e) (snd e) noctl) l')).
      { intros l' F. apply Forall_map. eapply Forall_impl; [|exact F]. intros e He. split; [exact He|exact Hc]. }
      set (h := mk_handle false false false false None).
      destruct (iter_body h tags (map (fun e => REntry (fst e) (snd e) noctl) l) [RDone 0 [] noctl] eq_refl eq_refl (R l Hd))
        as (items & Fi & E).
      exists items. split.
      + clear - Fi. remember (map (fun e => REntry (fst e) (snd e) noctl) l) as ml eqn:Em.
        revert l Em. induction Fi as [|m i ml items Hi Fi IH]; intros [|e l] Em; try discriminate; constructor.
        * injection Em as -> ->. destruct i; cbn [item_for] in Hi; [|contradiction]. eauto.
        * injection Em as -> ->. now apply IH.
      + destruct ((0 <? q_limit q) && (q_limit q <? N.of_nat (List.length l)))%bool.
        * assert (Fn : Forall (fun e => names_distinct lower (snd e)) (firstn (N.to_nat (q_limit q)) l)).
          { clear - Hd. rewrite Forall_forall in *. intros x Hx. apply Hd.
            rewrite <- (firstn_skipn (N.to_nat (q_limit q)) l). apply in_app_iff. now left. }
          destruct (iter_body h tags (map (fun e => REntry (fst e) (snd e) noctl) (firstn (N.to_nat (q_limit q)) l)) [RDone 4 [] noctl]
                      eq_refl eq_refl (R _ Fn)) as (items' & _ & E').
          rewrite E', iter_done by auto. reflexivity.
        * rewrite E, iter_done by auto. cbn [end_of N.eqb orb]. now rewrite app_nil_r.
    - rewrite iter_done by auto. reflexivity.
  Qed.

  Lemma fetch_never us : exists e, fetch contact us = Raise e \/ fetch contact us = Ok ([], Failed e).
  Proof.
    induction us as [|u us IH]; cbn [fetch]; [eexists; left; reflexivity|].
    unfold uri_search. destruct (u_starttls u) as [b|]; [|eexists; left; reflexivity].
    destruct (contact u) as [[]|e]; cbn [bind]; [eexists; right; reflexivity|].
    destruct e; try (eexists; left; reflexivity). exact IH.
  Qed.
  Lemma fetch_fails us e : FetchFails contact us e -> fetch contact us = Raise e \/ fetch contact us = Ok ([], Failed e).
  Proof.
    induction 1 as [|u us b e Hu Hc _ IH|u us Hu|u us b e Hu Hc Hn|u us b Hu Hc]; cbn [fetch]; unfold uri_search; rewrite ?Hu, ?Hc; cbn [bind].
    - now left.
    - exact IH.
    - now left.
    - left. destruct e; congruence.
    - now right.
  Qed.
End It.

Lemma tag_run_spec lower os : forall tags, Forall add_completes os -> forall t,
  dget (fst (tag_run lower tags os)) t =
  match dget tags t with Some o => Some o | None => first_with lower t os end.
Proof.
  induction os as [|o os IH]; intros tags F t; cbn [tag_run first_with].
  - cbn [fst]. now destruct (dget tags t).
  - inversion F as [|? ? Ho F']; subst.
    assert (Step : forall dn a tg, dget (fst (ldap_obj lower tags dn a tg)) t =
      match dget tags t with Some x => Some x | None =>
        match tg with Some t' => if str_eqb t' t then Some (mk_lobj dn (cid_update lower cid_empty a)) else None | None => None end end).
    { intros dn a [t'|]; cbn [ldap_obj fst]; [|now destruct (dget tags t)]. unfold ldap_obj, dmem.
      destruct (dget tags t') eqn:E; cbn [fst].
      - destruct (dget tags t) eqn:E2; [reflexivity|]. destruct (str_eqb_spec t' t); congruence.
      - rewrite dget_dset. destruct (str_eqb_spec t' t) as [->|]; [now rewrite E|]. now destruct (dget tags t). }
    destruct o as [dn a tg|ub dn a tg ct va an|t0]; cbn [tag_step].
    + specialize (Step dn a tg). destruct (ldap_obj lower tags dn a tg) as [t1 r].
      specialize (IH t1 F' t). destruct (tag_run lower t1 os) as [t2 rs]. cbn [fst] in *. rewrite IH, Step.
      destruct (dget tags t); [reflexivity|]. destruct tg as [t'|]; cbn [created]; [|reflexivity]. now destruct (str_eqb t' t).
    + cbn [add_completes] in Ho. destruct Ho as (-> & -> & -> & ->).
      specialize (Step dn a tg). destruct (ldap_obj lower tags dn a tg) as [t1 r].
      specialize (IH t1 F' t). destruct (tag_run lower t1 os) as [t2 rs]. cbn [fst] in *. rewrite IH, Step.
      destruct (dget tags t); [reflexivity|]. destruct tg as [t'|]; cbn [created]; [|reflexivity]. now destruct (str_eqb t' t).
    + specialize (IH tags F' t). destruct (tag_run lower tags os) as [t2 rs]. cbn [fst created] in *. exact IH.
Qed.
