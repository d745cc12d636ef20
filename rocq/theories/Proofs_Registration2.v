From Coq Require Import Permutation.
From Verif Require Import PyBase Model_Uri Proofs_Uri Model_Registration Spec_Registration Proofs_Registration.

Lemma successes_app a b : successes (a ++ b) = successes a ++ successes b.
Proof. induction a as [|[e [u|x]] a IH]; cbn [successes app]; [reflexivity|now rewrite IH|exact IH]. Qed.

Section R.
  Context (lower : str -> str) (reserved : list str).
  Notation register := (register lower reserved).
  Notation register_elems := (register_elems lower reserved).
  Notation require_loop := (require_loop lower reserved).
  Notation require := (require lower reserved).
  Notation step := (step lower reserved).
  Notation run := (run lower reserved).
  Notation ids := (identifiers lower).

  (** ** Unconditional invariant *)
  Definition sound (w : world) : Prop :=
    (forall e, In e (successes (w_log w)) -> bound e (ids e) (w_reg w))
    /\ (forall e l1 l2 l3, ids e <> [] -> successes (w_log w) = l1 ++ e :: l2 ++ e :: l3 -> False).

  (** what any step may do to the state *)
  Definition le (w w' : world) : Prop :=
    mono (w_reg w) (w_reg w') /\ incl (w_done w) (w_done w') /\ (exists l, w_log w' = w_log w ++ l) /\ (sound w -> sound w').

  Lemma le_refl w : le w w.
  Proof. split; [apply mono_refl|]. split; [intros x H; exact H|]. split; [exists []; now rewrite app_nil_r|auto]. Qed.
  Lemma le_trans a b c : le a b -> le b c -> le a c.
  Proof.
    intros (M1 & I1 & (l1 & L1) & S1) (M2 & I2 & (l2 & L2) & S2).
    split; [eapply mono_trans; eauto|]. split; [eapply incl_tran; eauto|].
    split; [exists (l1 ++ l2); rewrite L2, L1; now rewrite app_assoc|auto].
  Qed.

  Lemma twice_snoc {A} (e x : A) l l1 l2 l3 :
    l ++ [x] = l1 ++ e :: l2 ++ e :: l3 -> (exists l3', l = l1 ++ e :: l2 ++ e :: l3') \/ (x = e /\ In e l).
  Proof.
    intros H. destruct (exists_last (l := e :: l3)) as [l3' [z Hz]]; [discriminate|].
    assert (H' : l ++ [x] = (l1 ++ e :: l2 ++ l3') ++ [z]).
    { rewrite H. rewrite Hz. rewrite <- app_assoc. cbn [app]. now rewrite <- app_assoc. }
    apply app_inj_tail in H'. destruct H' as [-> ->].
    destruct l3' as [|y l3'].
    - right. cbn [app] in Hz. injection Hz as <- _. split; [reflexivity|].
      apply in_or_app. right. left. reflexivity.
    - left. cbn [app] in Hz. injection Hz as <- _. exists l3'. reflexivity.
  Qed.

  Lemma register_elems_le es : forall w, le w (snd (register_elems es w)).
  Proof.
    induction es as [|e es IH]; intros w; cbn [Model_Registration.register_elems]; [apply le_refl|].
    pose proof (register_spec lower reserved e (w_reg w)) as HS.
    destruct (register e (w_reg w)) as [r g']. destruct HS as ((M & _) & HO & _).
    set (w1 := mk_world (w_pre w) (w_done w) g' (w_log w ++ [(e, r)])).
    assert (H1 : le w w1).
    { split; [exact M|]. split; [intros x H; exact H|]. split; [exists [(e, r)]; reflexivity|].
      intros [S1 S2]. unfold w1. unfold sound. cbn [w_log w_reg]. rewrite successes_app.
      destruct r as [[]|x]; cbn [successes].
      - destruct (HO eq_refl) as (F & ND & B). split.
        + intros e' Hi. apply in_app_or in Hi. destruct Hi as [Hi|[<-|[]]]; [|exact B].
          intros t k Htk. apply M. now apply S1.
        + intros e' l1 l2 l3 Hne Heq. apply twice_snoc in Heq. destruct Heq as [[l3' Heq]|[<- Hi]].
          * exact (S2 _ _ _ _ Hne Heq).
          * destruct (ids e) as [|[t k] rest] eqn:Ei; [congruence|].
            assert (Hb : rget (w_reg w) t k = Some e) by (apply (S1 e Hi); rewrite Ei; left; reflexivity).
            specialize (F t k (or_introl eq_refl)). congruence.
      - rewrite app_nil_r. split; [|exact S2]. intros e' Hi t k Htk. apply M. now apply S1. }
    destruct r as [u|x]; cbn [snd]; [|exact H1]. eapply le_trans; [exact H1|apply IH].
  Qed.

  Lemma require_loop_le m items : forall w, le w (snd (require_loop m items w)).
  Proof.
    induction items as [|[key es] items IH]; intros w; cbn [Model_Registration.require_loop]; [apply le_refl|].
    destruct (smem key (w_done w)); [apply IH|].
    destruct (str_eqb key m || starts_with (m ++ lit ".") key); [|apply IH].
    pose proof (register_elems_le es w) as H. destruct (register_elems es w) as [[u|x] w'] eqn:E; cbn [snd] in *; [|exact H].
    eapply le_trans; [exact H|]. eapply le_trans; [|apply IH].
    split; [apply mono_refl|]. split; [intros x Hx; cbn [w_done]; apply in_or_app; left; exact Hx|].
    split; [exists []; cbn [w_log]; now rewrite app_nil_r|]. intros HS; exact HS.
  Qed.

  Lemma step_le ev w : le w (snd (step w ev)).
  Proof.
    destruct ev as [m b|m]; cbn [Model_Registration.step snd].
    - unfold define. split; [apply mono_refl|]. split; [intros x H; exact H|]. split; [exists []; cbn [w_log]; now rewrite app_nil_r|]. auto.
    - unfold Model_Registration.require. destruct (smem m (w_done w)); [apply le_refl|apply require_loop_le].
  Qed.

  Lemma run_app a b w : run (a ++ b) w =
    (fst (run a w) ++ fst (run b (snd (run a w))), snd (run b (snd (run a w)))).
  Proof.
    revert w; induction a as [|ev a IH]; intros w; cbn [app Model_Registration.run fst snd].
    - now destruct (run b w).
    - destruct (step w ev) as [r w1]. rewrite IH. destruct (run a w1) as [rs w2]. cbn [fst snd app]. reflexivity.
  Qed.
  Lemma run_le evs : forall w, le w (snd (run evs w)).
  Proof.
    induction evs as [|ev evs IH]; intros w; cbn [Model_Registration.run]; [apply le_refl|].
    pose proof (step_le ev w) as H. destruct (step w ev) as [r w1]. cbn [snd] in H.
    specialize (IH w1). destruct (run evs w1) as [rs w2]. cbn [snd] in *. eapply le_trans; eauto.
  Qed.

  Lemma sound_empty : sound empty_world.
  Proof.
    split; cbn; [intros e []|]. intros e l1 l2 l3 _ H. destruct l1; discriminate.
  Qed.

  (** ** When is the requiring module marked *)
  Lemma require_loop_marks m items : forall w w',
    require_loop m items w = (Ok tt, w') ->
    (In m (w_done w) \/ exists k es, In (k, es) items /\ ~ In k (w_done w) /\ (str_eqb k m || starts_with (m ++ lit ".") k = true)) ->
    In m (w_done w').
  Proof.
    induction items as [|[key es] items IH]; intros w w' H; cbn [Model_Registration.require_loop] in H.
    - injection H as <-. intros [Hd|(k & es & [] & _)]. exact Hd.
    - destruct (smem key (w_done w)) eqn:Es.
      + intros Hd. apply (IH _ _ H). destruct Hd as [Hd|(k & es' & [E|Hi] & Hn & Hm)]; [left; exact Hd| |right; eauto].
        injection E as <- <-. apply smem_In in Es. contradiction.
      + destruct (str_eqb key m || starts_with (m ++ lit ".") key) eqn:Em.
        * pose proof (register_elems_le es w) as Hle.
          destruct (register_elems es w) as [[u|x] w1]; [|discriminate]. intros _. apply (IH _ _ H).
          left. cbn [w_done]. apply in_or_app. right. left. reflexivity.
        * intros Hd. apply (IH _ _ H). destruct Hd as [Hd|(k & es' & [E|Hi] & Hn & Hm)]; [left; exact Hd| |right; eauto].
          injection E as <- <-. congruence.
  Qed.
End R.
