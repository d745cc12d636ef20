(** * Lemmas about the SASL bind *)
From Verif Require Import PyBase Model_Sasl Spec_Sasl.

Lemma same_set_spec a b : same_set a b = true <-> same_members a b.
Proof.
  unfold same_set, same_members. rewrite andb_true_iff, !forallb_forall. split.
  - intros [H1 H2] m. split; intro H; apply smem_In; auto.
  - intro H. split; intros x Hx; apply smem_In; apply H; exact Hx.
Qed.
Lemma same_set_false a b : same_set a b = false <-> ~ same_members a b.
Proof. rewrite <- same_set_spec. destruct (same_set a b); split; intro H; congruence. Qed.

Section Sasl.
  Context (E : env).
  Lemma recheck_spec c first : unbound c = false -> mechs c = Some first ->
    exists r new kept, checked E (fatal c) (log c) first r new kept /\
      recheck_sasl_mechs E c =
        (r, mk_conn false (bound c) kept (default_mech c) (fatal c) (client c) (log c ++ new)).
  Proof.
    intros Hu Hm. destruct c as [u b m d f k l]. cbn in Hu, Hm. subst u m.
    unfold recheck_sasl_mechs, get_sasl_mechs, set_mechs, emit. cbn [mechs unbound bound default_mech fatal client log].
    destruct (e_mechs E (l ++ [ReadMechs])) as [now|x] eqn:Hq.
    - destruct (same_set first now) eqn:Hs; cbn [negb].
      + exists (Ok tt), [ReadMechs], (Some now). split; [|reflexivity].
        apply unchanged; [exact Hq|]. apply same_set_spec, Hs.
      + apply same_set_false in Hs. destruct f.
        * exists (Raise LDAPError), [ReadMechs], (Some now). split; [|reflexivity]. apply refused; auto.
        * exists (Ok tt), [ReadMechs; Warning], (Some now). split; [apply warned; auto|].
          cbn [mechs unbound bound default_mech fatal client log]. rewrite <- app_assoc. reflexivity.
    - exists (Raise x), [ReadMechs], None. split; [|reflexivity]. apply unreadable, Hq.
  Qed.

  (** the loop from any point *)
  Inductive rest (is_fatal : bool) (m : str) (before : list event) (seen0 : list str) (creds : option str) (first : list str) :
    res unit -> list event -> bool -> option (list str) -> Prop :=
  | r_no_answer reqs seen x :
      dialogue E m before seen0 creds reqs seen -> e_reply E (before ++ reqs) = Raise x ->
      rest is_fatal m before seen0 creds first (Raise x) reqs false (Some first)
  | r_rejected reqs seen :
      dialogue E m before seen0 creds reqs seen -> e_reply E (before ++ reqs) = Ok Failure ->
      rest is_fatal m before seen0 creds first (Raise LDAPError) reqs false (Some first)
  | r_unanswerable reqs seen ch x :
      dialogue E m before seen0 creds reqs seen -> e_reply E (before ++ reqs) = Ok (InProgress ch) ->
      e_process E m (seen ++ [ch]) = Raise x ->
      rest is_fatal m before seen0 creds first (Raise x) reqs false (Some first)
  | r_accepted reqs seen new r kept :
      dialogue E m before seen0 creds reqs seen -> e_reply E (before ++ reqs) = Ok Success ->
      checked E is_fatal (before ++ reqs) first r new kept ->
      rest is_fatal m before seen0 creds first
        (match r with Raise x => Raise x | Ok _ => e_ctrl_response E end) (reqs ++ new) true kept.

  Lemma rest_step f m before seen creds first ch next r new b kept :
    e_reply E (before ++ [BindRequest m creds]) = Ok (InProgress ch) ->
    e_process E m (seen ++ [ch]) = Ok next ->
    rest f m (before ++ [BindRequest m creds]) (seen ++ [ch]) next first r new b kept ->
    rest f m before seen creds first r (BindRequest m creds :: new) b kept.
  Proof.
    intros H1 H2 H.
    destruct H as [reqs s x D R|reqs s D R|reqs s ch' x D R P|reqs s new r kept D R C];
      rewrite <- app_assoc in R; cbn [app] in R.
    - eapply r_no_answer; [eapply challenged; eauto|exact R].
    - eapply r_rejected; [eapply challenged; eauto|exact R].
    - eapply r_unanswerable; [eapply challenged; eauto|exact R|exact P].
    - rewrite app_comm_cons. eapply r_accepted; [eapply challenged; eauto|exact R|].
      rewrite <- app_assoc in C. exact C.
  Qed.

  Lemma exchange_spec fuel : forall c seen creds m first r c',
    unbound c = false -> bound c = false -> mechs c = Some first -> client c = Some (Some m) ->
    exchange E fuel c seen creds = Some (r, c') ->
    exists new b kept, rest (fatal c) m (log c) seen creds first r new b kept /\
      c' = mk_conn false b kept (default_mech c) (fatal c) (client c) (log c ++ new).
  Proof.
    induction fuel as [|fuel IH]; intros c seen creds m first r c' Hu Hb Hm Hk H; [discriminate|].
    cbn [exchange] in H. unfold sasl_mech in H. rewrite Hk in H.
    destruct c as [u b ms d f k l]. cbn in Hu, Hb, Hm, Hk. subst u b ms k.
    cbn [emit set_bound mechs unbound bound default_mech fatal client log] in H.
    destruct (e_reply E (l ++ [BindRequest m creds])) as [[ch| |]|x] eqn:Hr.
    - destruct (e_process E m (seen ++ [ch])) as [next|x] eqn:Hp.
      + apply IH with (m := m) (first := first) in H; try reflexivity.
        destruct H as (new & b & kept & HR & Hc).
        cbn [mechs unbound bound default_mech fatal client log] in HR, Hc.
        exists (BindRequest m creds :: new), b, kept. split.
        * cbn [fatal log]. eapply rest_step; eauto.
        * cbn [default_mech fatal client log]. rewrite Hc. cbn [emit default_mech fatal client log].
          rewrite <- app_assoc. reflexivity.
      + injection H as <- <-. exists [BindRequest m creds], false, (Some first). split; [|reflexivity].
        eapply r_unanswerable; [constructor|exact Hr|exact Hp].
    - unfold set_bound in H. cbn [mechs unbound bound default_mech fatal client log] in H.
      set (c2 := mk_conn false true (Some first) d f (Some (Some m)) (l ++ [BindRequest m creds])) in H.
      destruct (recheck_spec c2 first eq_refl eq_refl) as (r2 & new & kept & HC & Hrc).
      unfold emit in H. cbn [mechs unbound bound default_mech fatal client log] in H.
      change (mk_conn false true (Some first) d f (Some (Some m)) (l ++ [BindRequest m creds])) with c2 in H.
      rewrite Hrc in H. cbn [c2 mechs unbound bound default_mech fatal client log] in HC, H.
      exists ([BindRequest m creds] ++ new), true, kept. split.
      + assert (r = match r2 with Raise x => Raise x | Ok _ => e_ctrl_response E end) as ->
          by (destruct r2; injection H as <- <-; reflexivity).
        eapply r_accepted; [constructor|exact Hr|exact HC].
      + assert (c' = mk_conn false true kept d f (Some (Some m)) ((l ++ [BindRequest m creds]) ++ new)) as ->
          by (destruct r2; injection H as <- <-; reflexivity).
        cbn [default_mech fatal client log]. rewrite <- app_assoc. reflexivity.
    - injection H as <- <-. exists [BindRequest m creds], false, (Some first). split; [|reflexivity].
      eapply r_rejected; [constructor|exact Hr].
    - injection H as <- <-. exists [BindRequest m creds], false, (Some first). split; [|reflexivity].
      eapply r_no_answer; [constructor|exact Hr].
  Qed.
  Lemma rest_exchanged f m before first r new b kept :
    rest f m before [] None first r new b kept -> exchanged E f m before first r new b kept.
  Proof.
    intro H. destruct H as [reqs s x D R|reqs s D R|reqs s ch' x D R P|reqs s new r kept D R C].
    - eapply no_answer; eauto.
    - eapply rejected; eauto.
    - eapply unanswerable; eauto.
    - eapply accepted; eauto.
  Qed.
  (** a run that needs more than [fuel] requests has received [fuel] challenges *)
  Lemma exchange_unfinished fuel : forall c seen creds m,
    client c = Some (Some m) -> unbound c = false -> exchange E fuel c seen creds = None ->
    exists reqs, List.length reqs = fuel /\
      forall k, k < fuel -> exists ch, e_reply E (log c ++ firstn (S k) reqs) = Ok (InProgress ch).
  Proof.
    induction fuel as [|fuel IH]; intros c seen creds m Hk Hu H.
    - exists []. split; [reflexivity|lia].
    - cbn [exchange] in H. unfold sasl_mech in H. rewrite Hk in H.
      destruct (e_reply E (log (emit c (BindRequest m creds)))) as [[ch| |]|x] eqn:Hr; try discriminate.
      + destruct (e_process E m (seen ++ [ch])) as [next|x]; [|discriminate].
        apply IH with (m := m) in H; [|exact Hk|exact Hu].
        destruct H as (reqs & Hl & HR). exists (BindRequest m creds :: reqs). split; [cbn; lia|].
        intros [|k] Hlt.
        * exists ch. exact Hr.
        * destruct (HR k) as (ch' & Hc); [lia|]. exists ch'.
          cbn [emit log] in Hc. rewrite <- app_assoc in Hc. exact Hc.
      + destruct (recheck_sasl_mechs _ _) as [[?|?] ?]; discriminate.
  Qed.
  (** more fuel does not change a finished run *)
  Lemma exchange_more fuel : forall c seen creds o, exchange E fuel c seen creds = Some o ->
    forall k, exchange E (fuel + k) c seen creds = Some o.
  Proof.
    induction fuel as [|fuel IH]; intros c seen creds o H k; [discriminate|].
    cbn [exchange Nat.add] in *. destruct (sasl_mech c); [|exact H].
    destruct (e_reply E _) as [[ch| |]|]; try exact H.
    destruct (e_process E _ _); [|exact H]. apply IH, H.
  Qed.
  Lemma get_spec c : unbound c = false -> forall r c1, get_sasl_mechs E c = (r, c1) ->
    (exists l, mechs c = Some l /\ r = Ok l /\ c1 = c) \/
    (mechs c = None /\ r = e_mechs E (log c ++ [ReadMechs]) /\
     c1 = mk_conn false (bound c) (match r with Ok l => Some l | Raise _ => None end) (default_mech c) (fatal c)
            (client c) (log c ++ [ReadMechs])).
  Proof.
    intros Hu r c1 H. unfold get_sasl_mechs in H. destruct (mechs c) as [l|] eqn:Hm.
    - injection H as <- <-. left. exists l. auto.
    - rewrite Hu in H. right. cbn [emit log] in H. split; [reflexivity|].
      destruct c as [u b ms d f k lg]. cbn in Hu, Hm. subst u ms. cbn [log bound default_mech fatal client] in *.
      destruct (e_mechs E (lg ++ [ReadMechs])); injection H as <- <-; split; reflexivity.
  Qed.
End Sasl.
