From Verif Require Import PyBase Model_CIDict Spec_CIDict Proofs_CIDict Model_Modify Spec_Modify
  Proofs_Modify Proofs_Modify2 Model_Tx Spec_Tx Proofs_Tx Proofs_Tx2.

Section V.
  Variable lower : str -> str.
  Variable idx : str -> list str -> str -> res nat.
  Variable f : empty_flags.
  Notation run := (tx_run lower idx f).
  Definition fine := mkout false (Ok tt) (Ok tt).

  Lemma copy_ok d : dict_ok lower (tx_copy lower d).
  Proof. exact (dict_ok_reachable lower [OpUpdate (cid_items d)]). Qed.

  Lemma run_modifies i : forall mss w t, nth_error (w_txs w) i = Some t ->
    (forall ev, In ev (snd (run w (map (TModify i false fine) mss))) -> snd ev = Ok tt) ->
    exists t', tx_modifies lower idx t mss = Some t' /\
      fst (run w (map (TModify i false fine) mss)) = put_tx w i t'.
  Proof.
    induction mss as [|ms mss IH]; intros w t Ht Hok; cbn [map tx_run tx_modifies] in *.
    - exists t; split; auto. unfold put_tx. rewrite (set_nth_same _ _ _ Ht). destruct w; auto.
    - cbn [tx_step] in *. rewrite Ht in *.
      unfold fine in *. destruct (tx_modify lower idx t false _ ms) as [t1 r] eqn:E.
      destruct (tx_run lower idx f (put_tx w i t1) _) as [w2 tr] eqn:E2. cbn [fst snd] in *.
      assert (Hr : r = Ok tt) by exact (Hok _ (or_introl eq_refl)). subst r.
      destruct (IH (put_tx w i t1) t1) as [t' [A B]].
      + simpl. eapply nth_set_nth_eq; eauto.
      + rewrite E2. intros ev Hev. apply Hok; right; auto.
      + exists t'; split; auto. rewrite E2 in B; simpl in B. rewrite B.
        unfold put_tx; simpl. now rewrite set_nth_twice.
  Qed.

  Lemma commit_orig_view w i t t' mss :
    error_empty_list f = false -> dict_ok lower (w_orig w) ->
    nth_error (w_txs w) i = Some t -> t_parent t = Orig -> t_mods t = [] ->
    dict_ok lower (t_attrs t) -> same_lookups lower (w_orig w) (t_attrs t) ->
    (forall m, In m (List.concat mss) -> constructed m) ->
    tx_modifies lower idx t mss = Some t' ->
    exists w', tx_step lower idx f (put_tx w i t') (TCommit i fine) = (w', Ok tt) /\
      w_sent w' = w_sent w ++ one_request (ignore_empty_list f) (List.concat mss) /\
      same_lookups lower (w_orig w') (t_attrs t') /\
      nth_error (w_txs w') i = Some (mktx Orig (t_attrs t') []).
  Proof.
    intros He Hok Ht Hp Hm Hokt Hs Hc Hmod.
    destruct (tx_modifies_spec lower idx _ _ _ Hmod) as [Hp' [Hm' _]].
    destruct (commit_view_ok lower idx f (w_orig w) mss t t' He Hok Hokt Hs Hm Hc Hmod) as [d' [ms' [sent Ho]]].
    destruct (commit_view lower idx f (w_orig w) mss t t' d' ms' sent He Hok Hokt Hs Hm Hc Hmod Ho) as [A B].
    cbn [tx_step]. unfold tx_commit. cbn [put_tx w_txs].
    rewrite (nth_set_nth_eq _ _ _ _ Ht). rewrite Hp', Hp. cbn [any_modify]. cbn [put_tx w_orig fine o_unbound o_valid o_answer].
    rewrite Ho. eexists; split; [reflexivity|]. cbn [put_tx w_sent w_orig w_txs].
    rewrite A. split; [reflexivity|]. split; [exact B|].
    erewrite nth_set_nth_eq; [reflexivity|]. cbn [put_tx w_txs]. eapply nth_set_nth_eq; eauto.
  Qed.

  Lemma commit_checkpoint_view w i t t' j s mss :
    dict_ok lower (t_attrs s) ->
    nth_error (w_txs w) i = Some t -> t_parent t = Tx j -> j <> i ->
    nth_error (w_txs w) j = Some s -> t_mods t = [] ->
    dict_ok lower (t_attrs t) -> same_lookups lower (t_attrs s) (t_attrs t) ->
    tx_modifies lower idx t mss = Some t' ->
    exists w' s', tx_step lower idx f (put_tx w i t') (TCommit i fine) = (w', Ok tt) /\
      w_sent w' = w_sent w /\ w_orig w' = w_orig w /\
      nth_error (w_txs w') j = Some s' /\ t_mods s' = t_mods s ++ List.concat mss /\
      same_lookups lower (t_attrs s') (t_attrs t').
  Proof.
    intros Hok Ht Hp Hij Hsj Hm Hokt Hs Hmod.
    destruct (tx_modifies_spec lower idx _ _ _ Hmod) as [Hp' [Hm' Hl]].
    rewrite Hm in Hm'; simpl in Hm'.
    destruct (local_modify_equiv lower idx (List.concat mss) (t_attrs s) (t_attrs t) Hok Hokt Hs)
      as [A [B [C D]]].
    rewrite Hl in A, D; simpl in A, D.
    destruct (local_modify lower idx (t_attrs s) (List.concat mss)) as [ds r] eqn:E. simpl in A, D. subst r.
    cbn [tx_step]. unfold tx_commit. cbn [put_tx w_txs].
    rewrite (nth_set_nth_eq _ _ _ _ Ht). rewrite Hp', Hp. cbn [any_modify]. cbn [put_tx w_txs].
    rewrite nth_set_nth_neq by auto. rewrite Hsj. unfold tx_modify. cbn [fine o_valid]. rewrite Hm', E.
    eexists; eexists. split; [reflexivity|]. cbn [put_tx w_sent w_orig w_txs].
    split; auto. split; auto. split.
    - rewrite nth_set_nth_neq by auto.
      eapply nth_set_nth_eq. rewrite nth_set_nth_neq by auto. exact Hsj.
    - simpl. split; auto.
  Qed.
End V.
