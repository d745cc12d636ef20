(** * Proofs about the exchange of a SASL bind on the wire *)
From Verif Require Import PyBase Model_Uri Model_Ldif Model_Controls Model_CIDict Model_Modify Model_Filter Model_Net Model_Search Model_Request
  Model_Wire Spec_X690 Spec_Wire Spec_Wire2 Proofs_X690 Proofs_Wire Proofs_Wire2 Proofs_Wire3 Proofs_Wire4 Proofs_Wire5 Proofs_Wire6 Model_Reply Spec_Reply Proofs_Reply Props_Reply
  Model_Stream Spec_Stream Proofs_Stream Model_Session Spec_Session Proofs_Session Props_Wire Model_SaslWire Spec_SaslWire.
Local Open Scope string_scope.

(** the message of a request *)
Definition sasl_message (n : Z) (mech : str) (response : option val) (ctrls : list ctrl_args) : res obj :=
  message n "bindRequest" (sasl_bind_request mech response) ctrls.
Lemma send_message n mech response cs : fst (sasl_send n mech response cs) = sasl_message n mech response cs /\
  ((exists lm, sasl_message n mech response cs = Ok lm) -> snd (sasl_send n mech response cs) = (n + 1)%Z).
Proof.
  unfold sasl_send, sasl_message, message. destruct (sasl_bind_request mech response) as [x|e]; cbn [bind fst snd]; [|split; [reflexivity|intros [lm E]; discriminate]].
  destruct (controls_obj cs) as [o|e]; cbn [bind fst snd]; split; auto. intros [lm E]; discriminate.
Qed.
Lemma send_ok n mech response cs lm n' : sasl_send n mech response cs = (Ok lm, n') <-> sasl_message n mech response cs = Ok lm /\ n' = (n + 1)%Z.
Proof.
  destruct (send_message n mech response cs) as [E1 E2]. split.
  - intros H. rewrite H in E1, E2. cbn [fst snd] in *. rewrite <- E1 in *. split; [reflexivity|]. apply E2. eauto.
  - intros [H ->]. rewrite (surjective_pairing (sasl_send n mech response cs)), E1, H, E2; eauto.
Qed.
Lemma send_raise n mech response cs e : (exists n', sasl_send n mech response cs = (Raise e, n')) <-> sasl_message n mech response cs = Raise e.
Proof.
  destruct (send_message n mech response cs) as [E1 _]. rewrite <- E1. split.
  - intros [n' ->]. reflexivity.
  - intros H. exists (snd (sasl_send n mech response cs)). rewrite <- H. apply surjective_pairing.
Qed.

Lemma sasl_exactly n mech response cs :
  exactly_if (can_ask n mech response cs) (sasl_message n mech response cs) (sasl_request n mech response cs).
Proof.
  pose proof (C79_sasl_bind n mech response cs) as [E1 E2]. split; [exact E1|exact E2].
Qed.
Lemma sasl_can n mech response cs lm : sasl_message n mech response cs = Ok lm -> can_ask n mech response cs.
Proof.
  intros H. destruct (message_only _ _ _ _ _ H) as ((x & X) & Hn & Hc). split; [exact Hn|]. split; [|exact Hc].
  unfold sasl_bind_request in X. destruct response as [v|]; unb; (split; [oly|]); [oly|exact I].
Qed.
(** the octets of a request are those of the one message *)
Lemma sasl_sent n mech response cs lm b m : sasl_message n mech response cs = Ok lm -> ber (o_val lm) (o_class lm) b -> e_message m b ->
  can_ask n mech response cs /\ m = sasl_request n mech response cs.
Proof.
  intros H Hb Hm. pose proof (sasl_can _ _ _ _ _ H) as A. split; [exact A|].
  destruct (proj1 (sasl_exactly n mech response cs) A) as (lm' & E & Hiff). rewrite H in E. injection E as <-. apply Hiff in Hb.
  assert (E2 : (b ++ [])%list = (b ++ [])%list) by reflexivity. destruct (message_uniq _ _ _ _ _ _ Hm Hb E2) as (-> & _ & _). reflexivity.
Qed.
Lemma sasl_not n mech response cs e : sasl_message n mech response cs = Raise e -> ~ can_ask n mech response cs.
Proof. intros H A. destruct (proj1 (sasl_exactly n mech response cs) A) as (lm & E & _). congruence. Qed.

Section S.
  Context (decode : list N -> option str) (absent : str) (reg : registry) (builtin : str -> bool).
  Context {C : Type} (process : C -> option (list N) -> res (option val) * C).
  Notation says := (says absent reg builtin process).
  Notation sasl_round := (sasl_round decode absent reg builtin process).

  (** what a round comes to, as the specification has it *)
  Definition meant (r : round) : res (list (str * str)) + option val :=
    match r with Failed_with e => inl (Raise e) | Bound l => inl (Ok l) | Continue x => inr x end.
  Lemma says_inj c a x1 c1 x2 c2 : says c a x1 c1 -> says c a x2 c2 -> x1 = x2 /\ c1 = c2.
  Proof.
    intros H1 H2. inversion H1; inversion H2; subst; try congruence;
      repeat match goal with
      | A : rm_op a = _, B : rm_op a = _ |- _ => rewrite A in B; injection B; clear B; intros; subst
      | A : rm_op a = RBindResponse ?r ?k, B : forall r k, rm_op a <> RBindResponse r k |- _ => exfalso; exact (B r k A)
      | A : rr_code ?r = _, B : rr_code ?r = _ |- _ => rewrite A in B; discriminate
      | A : process ?x ?y = _, B : process ?x ?y = _ |- _ => rewrite A in B; first [discriminate|injection B; clear B; intros; subst]
      end; try congruence; auto.
  Qed.
  Lemma rounds enc a objs dec f chunks n c : server_sends enc [a] objs -> rm_id a = n -> oids_ascii a -> frames enc objs dec ->
    List.concat chunks = List.concat (map enc objs) -> Forall (fun x => x <> []) chunks ->
    exists r c', sasl_round dec (Z.to_N n) c (feed (idle f) chunks) = Some (r, c', idle f) /\ says c a (meant r) c'.
  Proof.
    intros Hs Ha Ho Hf E Hn. destruct (one_answer enc a objs dec f chunks n Hs Ha Hf E Hn) as (o & g' & A & B & R).
    unfold Model_SaslWire.sasl_round, feed, idle. cbn [s_queues s_fresh s_pending s_abandoned List.app].
    unfold none_queued in R. rewrite R, (C81_sasl decode absent reg builtin a (enc o) o A B Ho).
    destruct (rm_op a) as [| r creds | | | | | | | | | | | | | | | | | | | ] eqn:Eo;
      try (eexists _, c; split; [reflexivity|]; cbn [meant]; apply SaysNonsense; rewrite Eo; discriminate).
    destruct (Z.eqb_spec (rr_code r) 14) as [E14|E14].
    - destruct (process c creds) as [[next|e] c'] eqn:Ep; eexists _, c'; (split; [reflexivity|]); cbn [meant]; econstructor; eassumption.
    - destruct (Z.eqb_spec (rr_code r) 0) as [E0|E0].
      + assert (Hs' : says c a (inl (controls_result absent reg builtin a)) c) by (econstructor; eassumption). unfold controls_result in Hs'.
        destruct (handle_response reg builtin [] (controls_in absent a)) as [[u|e] attrs]; cbn [bind] in *; eexists _, c; (split; [reflexivity|exact Hs']).
      + eexists _, c. split; [reflexivity|]. cbn [meant]. eapply SaysFailure; eassumption.
  Qed.
End S.
