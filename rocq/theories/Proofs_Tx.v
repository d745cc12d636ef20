From Verif Require Import PyBase Model_CIDict Spec_CIDict Proofs_CIDict Model_Modify Spec_Modify
  Proofs_Modify Proofs_Modify2 Model_Tx Spec_Tx.

Lemma nth_set_nth {A} : forall (l : list A) i j x,
  nth_error (set_nth l i x) j =
  if Nat.eqb i j then match nth_error l j with Some _ => Some x | None => None end
  else nth_error l j.
Proof.
  induction l as [|y l IH]; intros [|i] [|j] x; simpl; auto.
  destruct (Nat.eqb i j); auto.
Qed.

Lemma nth_set_nth_eq {A} (l : list A) i x y : nth_error l i = Some y ->
  nth_error (set_nth l i x) i = Some x.
Proof. intros H. now rewrite nth_set_nth, Nat.eqb_refl, H. Qed.

Lemma nth_set_nth_neq {A} (l : list A) i j x : i <> j -> nth_error (set_nth l i x) j = nth_error l j.
Proof. intros H. rewrite nth_set_nth. apply Nat.eqb_neq in H. now rewrite H. Qed.

Lemma set_nth_length {A} : forall (l : list A) i x, List.length (set_nth l i x) = List.length l.
Proof. induction l as [|y l IH]; intros [|i] x; simpl; auto. Qed.

Section Tx.
  Variable lower : str -> str.
  Variable idx : str -> list str -> str -> res nat.
  Variable f : empty_flags.
  Notation step := (tx_step lower idx f).

  Lemma put_other w i t p : p <> Tx i -> obj_state (put_tx w i t) p = obj_state w p.
  Proof.
    intros H; destruct p as [|j]; simpl; auto.
    rewrite nth_set_nth_neq by congruence. reflexivity.
  Qed.
  Lemma put_sent w i t : w_sent (put_tx w i t) = w_sent w.
  Proof. reflexivity. Qed.

  Lemma any_modify_other w q o ms p : p <> q ->
    (p = Orig \/ exists i, p = Tx i) ->
    obj_state (fst (fst (any_modify lower idx f w q o ms))) p = obj_state w p.
  Proof.
    intros Hn _. destruct q as [|j]; cbn [any_modify].
    - destruct (obj_modify _ _ _ _ _ _ _ _ _ _) as [[[d' ms'] s] r]. simpl.
      destruct p; simpl; auto; congruence.
    - destruct (nth_error (w_txs w) j) as [t|]; auto.
      destruct (tx_modify lower idx t false o ms) as [t' r]. simpl. now apply put_other.
  Qed.
  Lemma any_modify_sent w q o ms : q <> Orig ->
    w_sent (fst (fst (any_modify lower idx f w q o ms))) = w_sent w.
  Proof.
    intros Hn. destruct q as [|j]; cbn [any_modify]; [congruence|].
    destruct (nth_error (w_txs w) j) as [t|]; auto.
    destruct (tx_modify lower idx t false o ms) as [t' r]. reflexivity.
  Qed.

  Lemma oref_cases p : p = Orig \/ exists i, p = Tx i.
  Proof. destruct p; eauto. Qed.

  Definition live w p : Prop := obj_state w p <> None.

  Lemma step_untouched w p op : live w p -> ~ touches w p op ->
    obj_state (fst (step w op)) p = obj_state w p /\
    (p = Orig -> w_sent (fst (step w op)) = w_sent w).
  Proof.
    intros Hl Hn. destruct op as [q|i kwds o ms|i o|i exc|i me|i kvs|o ms]; cbn [tx_step touches] in *.
    - destruct (obj_attrs w q); simpl; auto. split; auto.
      unfold live in Hl. destruct p as [|j]; simpl in *; auto.
      destruct (nth_error (w_txs w) j) eqn:E; [|simpl in Hl; congruence].
      rewrite nth_error_app1, E; auto. apply nth_error_Some. congruence.
    - destruct (nth_error (w_txs w) i) as [t|]; simpl; auto.
      destruct (tx_modify lower idx t kwds o ms) as [t' r]; simpl. split; auto. now apply put_other.
    - unfold tx_commit. destruct (nth_error (w_txs w) i) as [t|] eqn:E; simpl; auto.
      destruct (any_modify lower idx f w (t_parent t) o (t_mods t)) as [[w' ms'] r] eqn:Em. simpl.
      assert (Hp : p <> t_parent t) by (intros ->; apply Hn; right; reflexivity).
      assert (Hi : p <> Tx i) by (intros ->; apply Hn; auto).
      pose proof (any_modify_other w (t_parent t) o (t_mods t) p Hp (oref_cases p)) as H1.
      rewrite Em in H1; simpl in H1. split.
      + rewrite put_other; auto.
      + intros ->. pose proof (any_modify_sent w (t_parent t) o (t_mods t)) as H2.
        rewrite Em in H2; simpl in H2. apply H2; congruence.
    - unfold tx_exit. destruct (nth_error (w_txs w) i) as [t|]; simpl; auto.
      split; auto. now apply put_other.
    - auto.
    - destruct (nth_error (w_txs w) i) as [t|]; simpl; auto.
      split; auto. now apply put_other.
    - pose proof (any_modify_other w Orig o ms p Hn (oref_cases p)) as H1.
      destruct (any_modify lower idx f w Orig o ms) as [[w' ms'] r]. simpl in *.
      split; auto. congruence.
  Qed.

  Lemma run_untouched p : forall ops w, live w p -> untouched lower idx f w p ops ->
    obj_state (fst (tx_run lower idx f w ops)) p = obj_state w p /\
    (p = Orig -> w_sent (fst (tx_run lower idx f w ops)) = w_sent w).
  Proof.
    induction ops as [|op ops IH]; intros w Hl Hu; simpl; auto.
    destruct Hu as [Hn Hu]. destruct (step_untouched w p op Hl Hn) as [H1 H2].
    destruct (step w op) as [w1 r] eqn:E. simpl in *.
    destruct (IH w1) as [H3 H4]; auto.
    { unfold live in *. congruence. }
    destruct (tx_run lower idx f w1 ops) as [w2 tr]. simpl in *.
    split; [congruence|]. intros Hp; rewrite H4; auto.
  Qed.

  (** ** Ledger *)
  Definition wf w : Prop :=
    forall i t j, nth_error (w_txs w) i = Some t -> t_parent t = Tx j -> j < i.
  Definition cons_w w : Prop :=
    forall i t m, nth_error (w_txs w) i = Some t -> In m (t_mods t) -> constructed m.
  Definition agrees (w : world) (L : ledger) : Prop :=
    map (fun t => (t_parent t, t_mods t)) (w_txs w) = l_open L /\ w_sent w = l_sent L.

  Lemma map_set_nth {A B} (g : A -> B) : forall l i x,
    map g (set_nth l i x) = set_nth (map g l) i (g x).
  Proof. induction l as [|y l IH]; intros [|i] x; simpl; auto. now rewrite IH. Qed.

  Lemma set_nth_same {A} : forall (l : list A) i x, nth_error l i = Some x -> set_nth l i x = l.
  Proof.
    induction l as [|y l IH]; intros [|i] x H; simpl in *; try discriminate; auto.
    - congruence.
    - now rewrite IH.
  Qed.
  Lemma set_nth_twice {A} : forall (l : list A) i x y, set_nth (set_nth l i x) i y = set_nth l i y.
  Proof. induction l as [|z l IH]; intros [|i] x y; simpl; auto. now rewrite IH. Qed.

  Lemma nth_map {A B} (g : A -> B) l i : nth_error (map g l) i = option_map g (nth_error l i).
  Proof. apply nth_error_map. Qed.

  Lemma wf_put w i t t' : wf w -> nth_error (w_txs w) i = Some t -> t_parent t' = t_parent t ->
    wf (put_tx w i t').
  Proof.
    intros Hw Ht Hp k s j. simpl. rewrite nth_set_nth.
    destruct (Nat.eqb_spec i k) as [<-|Hn].
    - rewrite Ht. intros H; injection H as <-. rewrite Hp. eauto.
    - eauto.
  Qed.
  Lemma cons_put w i t t' : cons_w w -> nth_error (w_txs w) i = Some t ->
    (forall m, In m (t_mods t') -> constructed m) -> cons_w (put_tx w i t').
  Proof.
    intros Hw Ht Hp k s m. simpl. rewrite nth_set_nth.
    destruct (Nat.eqb_spec i k) as [<-|Hn].
    - rewrite Ht. intros H; injection H as <-. auto.
    - eauto.
  Qed.

  Lemma tx_modify_cases t kwds o ms :
    (tx_modify lower idx t kwds o ms = (t, Raise TypeError) /\ kwds = true) \/
    (exists e, tx_modify lower idx t kwds o ms = (t, Raise e) /\ kwds = false /\ o_valid o = Raise e) \/
    (exists d' r, tx_modify lower idx t kwds o ms = (mktx (t_parent t) d' (t_mods t ++ ms), r)
        /\ kwds = false /\ (exists u, o_valid o = Ok u) /\ local_modify lower idx (t_attrs t) ms = (d', r)).
  Proof.
    unfold tx_modify. destruct kwds; [left; auto|right].
    destruct (o_valid o) as [u|e]; [right|left; eauto].
    destruct (local_modify lower idx (t_attrs t) ms) as [d' r]. eauto 10.
  Qed.

  Lemma new_wf w p d : wf w -> (match p with Orig => True | Tx j => j < List.length (w_txs w) end) ->
    wf (mkworld (w_orig w) (w_sent w) (w_txs w ++ [mktx p d []])).
  Proof.
    intros Hw Hp i t j. simpl. intros H Ht.
    destruct (Nat.lt_ge_cases i (List.length (w_txs w))) as [Hi|Hi].
    - rewrite nth_error_app1 in H; eauto.
    - rewrite nth_error_app2 in H; auto.
      destruct (i - List.length (w_txs w)) as [|k] eqn:E; simpl in H.
      + injection H as <-. simpl in Ht. subst p. lia.
      + destruct k; discriminate.
  Qed.
  Lemma new_cons w p d : cons_w w ->
    cons_w (mkworld (w_orig w) (w_sent w) (w_txs w ++ [mktx p d []])).
  Proof.
    intros Hw i t m. simpl. intros H Hm.
    destruct (Nat.lt_ge_cases i (List.length (w_txs w))) as [Hi|Hi].
    - rewrite nth_error_app1 in H; eauto.
    - rewrite nth_error_app2 in H; auto.
      destruct (i - List.length (w_txs w)) as [|k] eqn:E; simpl in H.
      + injection H as <-. simpl in Hm. contradiction.
      + destruct k; discriminate.
  Qed.

  Lemma used_mutate m : used m = mutate m. Proof. reflexivity. Qed.

  Lemma obj_modify_ledger o d ms d' ms' sent r :
    error_empty_list f = false -> (forall m, In m ms -> constructed m) ->
    obj_modify lower idx true (o_unbound o) f (o_valid o) (Ok tt) (o_answer o) d ms = (d', ms', sent, r) ->
    match sent with Some cs => [cs] | None => [] end =
      (if passes o then one_request (ignore_empty_list f) ms else []) /\
    (is_ok r = false -> ms' = if passes o then map used ms else ms).
  Proof.
    intros He Hc. unfold obj_modify, passes. simpl negb; cbv iota.
    destruct ms as [|m0 mr] eqn:Ems.
    { simpl. intros H; injection H as <- <- <- <-.
      split; [destruct (negb (o_unbound o) && is_ok (o_valid o)); reflexivity|discriminate]. }
    rewrite <- Ems in *. assert (Hne : ms <> []) by congruence.
    destruct (o_unbound o); cbn [negb andb].
    { unfold ldap_modify. destruct ms; [congruence|]. intros H; injection H as <- <- <- <-. auto. }
    destruct (o_valid o) as [[]|e]; cbn [is_ok].
    2:{ unfold ldap_modify. destruct ms; [congruence|]. intros H; injection H as <- <- <- <-. auto. }
    rewrite (ldap_modify_ok f (o_answer o) ms Hc (or_introl He)). unfold one_request.
    assert (Hu : map mutate ms = map used ms) by reflexivity.
    destruct (wanted _ ms) as [|c cs].
    - destruct (local_modify lower idx d (map mutate ms)). intros H; injection H as <- <- <- _. auto.
    - destruct (o_answer o) as [|e].
      + destruct (local_modify lower idx d (map mutate ms)). intros H; injection H as <- <- <- _. auto.
      + intros H; injection H as <- <- <- <-. auto.
  Qed.

  Lemma used_constructed m : constructed m -> constructed (used m).
  Proof.
    unfold used. destruct (m_vals m) eqn:E; auto. unfold constructed. rewrite E. unfold new_mod; simpl.
    destruct (m_op m); simpl; auto; discriminate.
  Qed.

  Lemma obj_modify_sent ans d ms d' ms' sent :
    error_empty_list f = false -> (forall m, In m ms -> constructed m) ->
    obj_modify lower idx true false f (Ok tt) (Ok tt) ans d ms = (d', ms', sent, Ok tt) ->
    match sent with Some cs => [cs] | None => [] end = one_request (ignore_empty_list f) ms.
  Proof.
    intros He Hc H. exact (proj1 (obj_modify_ledger (mkout false (Ok tt) ans) d ms d' ms' sent _ He Hc H)).
  Qed.

  Lemma step_ledger w L op :
    error_empty_list f = false -> wf w -> cons_w w -> agrees w L -> op_constructed op ->
    wf (fst (step w op)) /\ cons_w (fst (step w op)) /\
    agrees (fst (step w op)) (ledger_step (ignore_empty_list f) L (op, snd (step w op))).
  Proof.
    intros He Hw Hc [Ha Hs] Ho.
    assert (Hnth : forall i, nth_error (l_open L) i =
      option_map (fun t => (t_parent t, t_mods t)) (nth_error (w_txs w) i)).
    { intros i. now rewrite <- Ha, nth_map. }
    destruct op as [q|i kwds o ms|i o|i exc|i me|i kvs|o ms]; cbn [tx_step op_constructed] in *.
    - destruct (obj_attrs w q) eqn:Eq; simpl; [|split; [|split]; auto; split; auto].
      split; [|split].
      + apply new_wf; auto. destruct q as [|j]; auto. simpl in Eq.
        destruct (nth_error (w_txs w) j) eqn:E; [|discriminate]. apply nth_error_Some. congruence.
      + now apply new_cons.
      + split; simpl; auto. now rewrite map_app, Ha.
    - destruct (nth_error (w_txs w) i) as [t|] eqn:Et.
      2:{ cbn [fst snd ledger_step]. unfold l_append. rewrite Hnth, Et; cbn [option_map].
          split; [|split]; auto. destruct (negb kwds && is_ok (o_valid o)); split; auto. }
      destruct (tx_modify_cases t kwds o ms) as [[H1 H2]|[[e [H1 [H2 H3]]]|[d' [r [H1 [H2 [[u Hu] H3]]]]]]];
        rewrite H1; cbn [fst snd ledger_step].
      + subst kwds. cbn [negb andb]. unfold put_tx; rewrite (set_nth_same _ _ _ Et). destruct w; simpl in *. split; [|split]; auto; split; auto.
      + rewrite H3. cbn [is_ok]. rewrite andb_false_r.
        unfold put_tx; rewrite (set_nth_same _ _ _ Et). destruct w; simpl in *. split; [|split]; auto; split; auto.
      + subst kwds. rewrite Hu. cbn [negb andb is_ok].
        split; [|split].
        * eapply wf_put; eauto.
        * eapply cons_put; eauto. simpl. intros m Hm. apply in_app_iff in Hm as [Hm|Hm]; eauto.
        * split; simpl; auto. unfold l_append. rewrite Hnth, Et; simpl.
          rewrite map_set_nth, Ha. reflexivity.
    - unfold tx_commit in *. destruct (nth_error (w_txs w) i) as [t|] eqn:Et.
      2:{ cbn [fst snd ledger_step]. rewrite Hnth, Et; cbn [option_map]. split; [|split]; auto. split; auto. }
      destruct (t_parent t) as [|j] eqn:Ep; cbn [any_modify] in *.
      + destruct (obj_modify lower idx true (o_unbound o) f (o_valid o) (Ok tt) (o_answer o) (w_orig w) (t_mods t))
          as [[[d' ms'] sent] r] eqn:Em. cbn [fst snd ledger_step] in *.
        destruct (obj_modify_ledger o _ _ _ _ _ _ He (fun m Hm => Hc i t m Et Hm) Em) as [Hsent Hms].
        rewrite Hnth, Et; cbn [option_map]; rewrite Ep.
        assert (Hcm : forall m, In m (match r with Ok _ => [] | Raise _ => ms' end) -> constructed m).
        { destruct r as [[]|e]; [intros m []|]. rewrite (Hms eq_refl).
          destruct (passes o); [|eauto]. intros m Hm. apply in_map_iff in Hm as [m' [<- Hm]].
          apply used_constructed; eauto. }
        split; [|split].
        * eapply (wf_put (mkworld _ _ _)); simpl; eauto.
        * eapply (cons_put (mkworld _ _ _)); simpl; eauto.
        * split; simpl; [|now rewrite Hs, Hsent].
          rewrite map_set_nth, Ha; simpl. destruct r as [[]|e]; cbn [is_ok].
          -- unfold l_clear. rewrite Hnth, Et; simpl. now rewrite Ep.
          -- rewrite (Hms eq_refl). destruct (passes o); auto.
             apply set_nth_same. rewrite Hnth, Et; simpl. now rewrite Ep.
      + assert (Hj : j < i) by (eapply Hw; eauto).
        destruct (nth_error (w_txs w) j) as [s|] eqn:Es.
        2:{ exfalso. apply nth_error_None in Es.
            assert (i < List.length (w_txs w)) by (apply nth_error_Some; congruence). lia. }
        destruct (tx_modify_cases s false o (t_mods t)) as [[_ H2]|[[e [H1 [H2 H3]]]|[d' [r [H1 [H2 [[u Hu] H3]]]]]]];
          [discriminate| |]; rewrite H1; cbn [fst snd ledger_step];
          rewrite Hnth, Et; cbn [option_map]; rewrite Ep.
        * rewrite H3; cbn [is_ok]. unfold put_tx; simpl. rewrite (set_nth_same _ _ _ Es).
          destruct t as [tp ta tm]; simpl in *; subst tp. rewrite (set_nth_same _ _ _ Et). destruct w; simpl in *.
          split; [|split]; auto; split; auto.
        * rewrite Hu; cbn [is_ok].
          assert (W1 : wf (put_tx w j (mktx (t_parent s) d' (t_mods s ++ t_mods t)))) by (eapply wf_put; eauto).
          assert (W2 : cons_w (put_tx w j (mktx (t_parent s) d' (t_mods s ++ t_mods t)))).
          { eapply cons_put; eauto. simpl; intros m Hm. apply in_app_iff in Hm as [Hm|Hm]; eauto. }
          assert (Et' : nth_error (w_txs (put_tx w j (mktx (t_parent s) d' (t_mods s ++ t_mods t)))) i = Some t).
          { simpl; rewrite nth_set_nth_neq by lia; exact Et. }
          assert (Hap : map (fun t => (t_parent t, t_mods t))
              (set_nth (w_txs w) j (mktx (t_parent s) d' (t_mods s ++ t_mods t)))
              = l_append (l_open L) j (t_mods t)).
          { unfold l_append. rewrite Hnth, Es; simpl. rewrite map_set_nth, Ha. reflexivity. }
          split; [|split].
          -- eapply wf_put; [exact W1|exact Et'|simpl; auto].
          -- eapply cons_put; [exact W2|exact Et'|]. simpl.
             destruct r; [intros m []|eauto].
          -- split; simpl; auto. rewrite map_set_nth, Hap. simpl.
             assert (Hnt : nth_error (l_append (l_open L) j (t_mods t)) i = Some (Tx j, t_mods t)).
             { rewrite <- Hap, nth_map, nth_set_nth_neq, Et by lia. simpl. now rewrite Ep. }
             destruct r as [[]|e]; cbn [is_ok].
             ++ unfold l_clear. rewrite Hnt. reflexivity.
             ++ apply set_nth_same; auto.
    - unfold tx_exit. destruct (nth_error (w_txs w) i) as [t|] eqn:Et.
      + cbn [fst snd ledger_step]. split; [|split].
        * eapply wf_put; eauto.
        * eapply cons_put; eauto. intros m [].
        * split; simpl; auto. unfold l_clear. rewrite Hnth, Et; simpl. rewrite map_set_nth, Ha. reflexivity.
      + simpl. split; [|split]; auto. split; simpl; auto. unfold l_clear. rewrite Hnth, Et; simpl. auto.
    - simpl. split; [|split]; auto. split; auto.
    - destruct (nth_error (w_txs w) i) as [t|] eqn:Et; simpl.
      + split; [|split].
        * eapply wf_put; eauto.
        * eapply cons_put; eauto.
        * split; simpl; auto. rewrite map_set_nth; simpl.
          rewrite set_nth_same; auto. rewrite nth_map, Et. reflexivity.
      + split; [|split]; auto. split; auto.
    - cbn [any_modify] in *. destruct (obj_modify lower idx true (o_unbound o) f (o_valid o) (Ok tt) (o_answer o) (w_orig w) ms)
          as [[[d' ms'] sent] r] eqn:Em. cbn [fst snd ledger_step] in *.
      destruct (obj_modify_ledger o _ _ _ _ _ _ He Ho Em) as [Hsent _].
      split; [|split]; auto. split; simpl; auto. now rewrite Hs, Hsent.
  Qed.

  Lemma run_ledger : forall ops w L,
    error_empty_list f = false -> wf w -> cons_w w -> agrees w L ->
    (forall op, In op ops -> op_constructed op) ->
    agrees (fst (tx_run lower idx f w ops))
      (fold_left (ledger_step (ignore_empty_list f)) (snd (tx_run lower idx f w ops)) L).
  Proof.
    induction ops as [|op ops IH]; intros w L He Hw Hc Ha Ho; simpl; auto.
    pose proof (step_ledger w L op He Hw Hc Ha (Ho op (or_introl eq_refl))) as Hst.
    destruct (step w op) as [w1 r] eqn:E. cbn [fst snd] in Hst.
    destruct (tx_run lower idx f w1 ops) as [w2 tr] eqn:E2. cbn [fst snd In] in *.
    destruct Hst as [H1 [H2 H3]].
    specialize (IH w1 _ He H1 H2 H3). rewrite E2 in IH; cbn [fst snd] in IH. apply IH; auto.
  Qed.

  Lemma ledger_initial ops d :
    error_empty_list f = false ->
    (forall op, In op ops -> op_constructed op) ->
    let w := fst (tx_run lower idx f (mkworld d [] []) ops) in
    let L := ledger_of (ignore_empty_list f) (snd (tx_run lower idx f (mkworld d [] []) ops)) in
    (forall i, nth_error (l_open L) i =
       option_map (fun t => (t_parent t, t_mods t)) (nth_error (w_txs w) i)) /\
    w_sent w = l_sent L.
  Proof.
    intros He Ho. cbn zeta.
    destruct (run_ledger ops (mkworld d [] []) (mkledger [] []) He) as [H1 H2]; auto.
    - intros i t j; simpl. destruct i; discriminate.
    - intros i t j; simpl. destruct i; discriminate.
    - split; auto.
    - split; auto. intros i. unfold ledger_of. now rewrite <- H1, nth_map.
  Qed.
End Tx.
