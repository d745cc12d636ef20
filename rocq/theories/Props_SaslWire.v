(** * C99: the exchange of a SASL bind, over the wire *)
From Verif Require Import PyBase Model_Uri Model_Ldif Model_Controls Model_CIDict Model_Modify Model_Filter Model_Net Model_Search Model_Request
  Model_Wire Spec_X690 Spec_Wire Spec_Wire2 Proofs_Wire Proofs_Wire2 Proofs_Wire3 Proofs_Wire4 Proofs_Wire5 Proofs_Wire6 Proofs_Utf8 Model_Reply Spec_Reply Proofs_Reply Props_Reply
  Model_Stream Spec_Stream Proofs_Stream Props_Stream Model_Session Spec_Session Proofs_Session Props_Session Model_SaslWire Spec_SaslWire Proofs_SaslWire.
Local Open Scope string_scope.

Section C99.
  Context (decode : list N -> option str) (absent : str) (reg : registry) (builtin : str -> bool).
  Context {C : Type} (process : C -> option (list N) -> res (option val) * C) (mech : str) (cs : list ctrl_args).
  Notation exchange := (exchange absent reg builtin process mech cs).
  Notation on_wire := (on_wire decode absent reg builtin process mech cs).

  (** Whatever the server does and however it writes its answers and they arrive: the bind is an exchange in which each
      request that can be encoded reaches the server as the bind request with the mechanism and the response of the
      client to the challenge before, with the next ID, and it returns or raises as the answers say; it never waits for
      an answer it has got, and leaves nothing in the connection. *)
  Theorem C99_exchange {S} (server : S -> rmessage -> rmessage * S) f n c s response o seen w' c' s' : answers server ->
    on_wire server n (idle f) c s response o seen w' c' s' ->
    exists r, o = Some r /\ exchange server n c s response r seen c' s' /\ w' = idle f.
  Proof.
    intros Hserver H. remember (idle f) as w eqn:Ew.
    induction H as [n n1 w c s response e H|n n1 w c s response lm b m enc objs dec chunks e c' w' H Hb Hm Hs Hf Hch Hne Hr
                   |n n1 w c s response lm b m enc objs dec chunks attrs c' w' H Hb Hm Hs Hf Hch Hne Hr
                   |n n1 w c s response lm b m enc objs dec chunks next c1 w1 o seen w' c' s' H Hb Hm Hs Hf Hch Hne Hr _ IH
                   |n n1 w c s response lm b m enc objs dec chunks H Hb Hm Hs Hf Hch Hne Hr]; subst w.
    - exists (Raise e). split; [reflexivity|]. split; [|reflexivity]. apply Refused. apply sasl_not with e. apply send_raise. eauto.
    - apply send_ok in H as [H ->]. destruct (sasl_sent _ _ _ _ _ _ _ H Hb Hm) as [A ->]. destruct (Hserver s (sasl_request n mech response cs)) as [Hi Ho].
      destruct (rounds decode absent reg builtin process enc _ objs dec f chunks n c Hs Hi Ho Hf Hch Hne) as (r & c2 & E & Sy).
      rewrite E in Hr. injection Hr as -> -> <-. eexists. split; [reflexivity|]. split; [|reflexivity]. now apply Ends.
    - apply send_ok in H as [H ->]. destruct (sasl_sent _ _ _ _ _ _ _ H Hb Hm) as [A ->]. destruct (Hserver s (sasl_request n mech response cs)) as [Hi Ho].
      destruct (rounds decode absent reg builtin process enc _ objs dec f chunks n c Hs Hi Ho Hf Hch Hne) as (r & c2 & E & Sy).
      rewrite E in Hr. injection Hr as -> -> <-. eexists. split; [reflexivity|]. split; [|reflexivity]. now apply Ends.
    - apply send_ok in H as [H ->]. destruct (sasl_sent _ _ _ _ _ _ _ H Hb Hm) as [A ->]. destruct (Hserver s (sasl_request n mech response cs)) as [Hi Ho].
      destruct (rounds decode absent reg builtin process enc _ objs dec f chunks n c Hs Hi Ho Hf Hch Hne) as (r & c2 & E & Sy).
      rewrite E in Hr. injection Hr as -> -> <-. destruct (IH eq_refl) as (r & -> & I & ->). exists r. split; [reflexivity|]. split; [|reflexivity].
      eapply GoesOn; eassumption.
    - exfalso. apply send_ok in H as [H ->]. destruct (sasl_sent _ _ _ _ _ _ _ H Hb Hm) as [A ->]. destruct (Hserver s (sasl_request n mech response cs)) as [Hi Ho].
      destruct (rounds decode absent reg builtin process enc _ objs dec f chunks n c Hs Hi Ho Hf Hch Hne) as (r & c2 & E & Sy). congruence.
  Qed.

  (** Every such exchange can take place over the wire, for messages within the sizes and ranges of the RFC. *)
  Definition small (m : rmessage) : Prop := in_range (rm_op m) (rm_controls m).
  Theorem C99_possible {S} (server : S -> rmessage -> rmessage * S) f n c s response r seen c' s' : answers server -> (0 < n)%Z ->
    exchange server n c s response r seen c' s' -> Forall (fun p => small (fst p) /\ small (snd p)) seen ->
    exists r', on_wire server n (idle f) c s response (Some r') seen (idle f) c' s' /\ (r' = r \/ exists e e', r = Raise e /\ r' = Raise e').
  Proof.
    intros Hserver Hn H. induction H as [n c s response e H|n c s response result c' A m Sy|n c s response next c1 result seen c' s' A m Sy _ IH]; intros Hall.
    - destruct (proj2 (sasl_exactly n mech response cs) H) as (e' & E). apply send_raise in E as [n' E]. exists (Raise e'). split; [now apply WireRefused with n'|]. right. eauto.
    - inversion Hall as [|? ? [S1 S2] _]; subst. cbn [fst snd] in *. destruct (Hserver s m) as [Hi Ho].
      destruct (writable m (proj1 A) S1) as (b & Hb). destruct (proj1 (sasl_exactly n mech response cs) A) as (lm & E & Hiff).
      destruct (writable (fst (server s m))) as (ba & Hba); [rewrite Hi; exact (proj1 A)|exact S2|].
      destruct (can_send [fst (server s m)]) as (enc & Hs); [constructor; [|constructor]; split; [eauto|rewrite Hi; cbn [m sasl_request rm_id]; lia]|].
      set (objs := map msg_obj [fst (server s m)]) in *. pose proof (lookup_dec_frames enc _ objs Hs) as Hf.
      destruct (octet_chunks (List.concat (map enc objs))) as [Hch Hne].
      destruct (rounds decode absent reg builtin process enc _ objs _ f _ n c Hs Hi Ho Hf Hch Hne) as (r & c2 & Er & Sy2).
      destruct (says_inj absent reg builtin process _ _ _ _ _ _ Sy Sy2) as [Em ->].
      destruct r as [e|l|x]; cbn [meant] in Em; try discriminate; injection Em as ->.
      + exists (Raise e). split; [|now left]. eapply WireFails; [apply send_ok; split; [exact E|reflexivity]|apply Hiff, Hb|exact Hb|exact Hs|exact Hf|exact Hch|exact Hne|exact Er].
      + exists (Ok l). split; [|now left]. eapply WireBound; [apply send_ok; split; [exact E|reflexivity]|apply Hiff, Hb|exact Hb|exact Hs|exact Hf|exact Hch|exact Hne|exact Er].
    - inversion Hall as [|? ? [S1 S2] Hall']; subst. cbn [fst snd] in *. destruct (Hserver s m) as [Hi Ho].
      destruct (writable m (proj1 A) S1) as (b & Hb). destruct (proj1 (sasl_exactly n mech response cs) A) as (lm & E & Hiff).
      destruct (writable (fst (server s m))) as (ba & Hba); [rewrite Hi; exact (proj1 A)|exact S2|].
      destruct (can_send [fst (server s m)]) as (enc & Hs); [constructor; [|constructor]; split; [eauto|rewrite Hi; cbn [m sasl_request rm_id]; lia]|].
      set (objs := map msg_obj [fst (server s m)]) in *. pose proof (lookup_dec_frames enc _ objs Hs) as Hf.
      destruct (octet_chunks (List.concat (map enc objs))) as [Hch Hne].
      destruct (rounds decode absent reg builtin process enc _ objs _ f _ n c Hs Hi Ho Hf Hch Hne) as (r & c2 & Er & Sy2).
      destruct (says_inj absent reg builtin process _ _ _ _ _ _ Sy Sy2) as [Em ->].
      destruct r as [e|l|x]; cbn [meant] in Em; try discriminate; injection Em as ->.
      destruct (IH ltac:(lia) Hall') as (r' & W & D). exists r'. split; [|exact D].
      eapply WireGoesOn; [apply send_ok; split; [exact E|reflexivity]|apply Hiff, Hb|exact Hb|exact Hs|exact Hf|exact Hch|exact Hne|exact Er|exact W].
  Qed.

  (** How answers are written and arrive makes no difference to what is sent, or to whether the bind succeeds. *)
  Lemma exchange_one {S} (server : S -> rmessage -> rmessage * S) n c s response r1 seen1 c1 s1 : exchange server n c s response r1 seen1 c1 s1 ->
    forall r2 seen2 c2 s2, exchange server n c s response r2 seen2 c2 s2 ->
    seen1 = seen2 /\ c1 = c2 /\ s1 = s2 /\ (r1 = r2 \/ exists e e', r1 = Raise e /\ r2 = Raise e').
  Proof.
    intros H1. induction H1 as [n c s response e H|n c s response result c' A m Sy|n c s response next cx result seen c' s' A m Sy _ IH]; intros r2 seen2 c2 s2 H2;
      inversion H2 as [? ? ? ? ? H'|? ? ? ? ? ? A' m' Sy'|? ? ? ? ? cy ? ? ? ? A' m' Sy' H2']; subst; try contradiction.
    - split; [reflexivity|]. split; [reflexivity|]. split; [reflexivity|]. right. eauto.
    - destruct (says_inj absent reg builtin process _ _ _ _ _ _ Sy Sy') as [E ->]. injection E as ->. auto.
    - destruct (says_inj absent reg builtin process _ _ _ _ _ _ Sy Sy') as [E _]. discriminate.
    - destruct (says_inj absent reg builtin process _ _ _ _ _ _ Sy Sy') as [E _]. discriminate.
    - destruct (says_inj absent reg builtin process _ _ _ _ _ _ Sy Sy') as [E ->]. injection E as ->.
      destruct (IH _ _ _ _ H2') as (-> & -> & -> & D). split; [reflexivity|]. auto.
  Qed.
  Theorem C99_one_outcome {S} (server : S -> rmessage -> rmessage * S) f1 f2 n c s response o1 seen1 w1 c1 s1 o2 seen2 w2 c2 s2 : answers server ->
    on_wire server n (idle f1) c s response o1 seen1 w1 c1 s1 -> on_wire server n (idle f2) c s response o2 seen2 w2 c2 s2 ->
    seen1 = seen2 /\ c1 = c2 /\ s1 = s2 /\ (o1 = o2 \/ exists e e', o1 = Some (Raise e) /\ o2 = Some (Raise e')).
  Proof.
    intros Hserver H1 H2. destruct (C99_exchange _ _ _ _ _ _ _ _ _ _ _ Hserver H1) as (r1 & -> & I1 & _).
    destruct (C99_exchange _ _ _ _ _ _ _ _ _ _ _ Hserver H2) as (r2 & -> & I2 & _).
    destruct (exchange_one _ _ _ _ _ _ _ _ _ I1 _ _ _ _ I2) as (-> & -> & -> & D). repeat (split; [reflexivity|]).
    destruct D as [->|(e & e' & -> & ->)]; [now left|right; eauto].
  Qed.

  (** Each request is the bind request of the mechanism with the next ID, and answers the challenge before it. *)
  Lemma first_seen {S} (server : S -> rmessage -> rmessage * S) n c s response r m a rest c' s' :
    exchange server n c s response r ((m, a) :: rest) c' s' -> m = sasl_request n mech response cs.
  Proof. intros H. inversion H; subst; reflexivity. Qed.
  Theorem C99_in_turn {S} (server : S -> rmessage -> rmessage * S) f n c s response o seen w' c' s' : answers server ->
    on_wire server n (idle f) c s response o seen w' c' s' -> in_turn process mech cs n c response seen.
  Proof.
    intros Hserver H. destruct (C99_exchange _ _ _ _ _ _ _ _ _ _ _ Hserver H) as (r & _ & I & _). clear - I.
    induction I as [n c s response e H|n c s response result c' A m Sy|n c s response next cx result seen c' s' A m Sy I IH]; cbn [in_turn]; auto.
    split; [reflexivity|]. destruct seen as [|p seen]; [exact Logic.I|]. inversion Sy as [|rr creds ? ? E1 E2 E3| | |]; subst.
    exists creds, next, cx. split; [exists rr; auto|]. auto.
  Qed.
  (** The bind returns only if the last answer is a success and all before it are challenges; and a success as the last
      answer makes it return, unless its controls cannot be handled. *)
  Theorem C99_bound {S} (server : S -> rmessage -> rmessage * S) f n c s response attrs seen w' c' s' : answers server ->
    on_wire server n (idle f) c s response (Some (Ok attrs)) seen w' c' s' ->
    exists before m a, seen = (before ++ [(m, a)])%list /\ succeeded a /\ controls_result absent reg builtin a = Ok attrs /\
      Forall (fun p => exists creds, challenges (snd p) creds) before.
  Proof.
    intros Hserver H. destruct (C99_exchange _ _ _ _ _ _ _ _ _ _ _ Hserver H) as (r & E & I & _). injection E as <-. clear - I.
    remember (Ok attrs) as r eqn:Er. induction I as [n c s response e H|n c s response result c' A m Sy|n c s response next cx result seen c' s' A m Sy I IH]; try discriminate.
    - subst result. exists [], m, (fst (server s m)). inversion Sy as [rr creds E1 E2| | | |]; subst. split; [reflexivity|]. split; [exists rr, creds; auto|]. auto.
    - destruct (IH Er) as (before & m1 & a & -> & S1 & S2 & F). inversion Sy as [|rr creds ? ? E1 E2 E3| | |]; subst.
      eexists ((_, _) :: before), m1, a. split; [reflexivity|]. split; [exact S1|]. split; [exact S2|]. constructor; [|exact F]. cbn [snd]. exists creds, rr. auto.
  Qed.
  Theorem C99_success {S} (server : S -> rmessage -> rmessage * S) f n c s response o seen m a w' c' s' : answers server ->
    on_wire server n (idle f) c s response o (seen ++ [(m, a)]) w' c' s' -> succeeded a -> o = Some (controls_result absent reg builtin a).
  Proof.
    intros Hserver H Hs. destruct (C99_exchange _ _ _ _ _ _ _ _ _ _ _ Hserver H) as (r & -> & I & _). clear - I Hs. f_equal.
    remember (seen ++ [(m, a)])%list as l eqn:El. revert seen El.
    induction I as [n c s response e H|n c s response result c' A m0 Sy|n c s response next cx result l c' s' A m0 Sy I IH]; intros seen El.
    - destruct seen; discriminate.
    - destruct seen as [|p seen]; [|destruct seen; discriminate]. injection El as _ Ea. rewrite Ea in Sy. destruct Hs as (r & creds & E1 & E2).
      inversion Sy as [|rr k ? ? F1 F2 F3|rr k e ? F1 F2 F3|rr k F1 F2 F3|F]; subst; [reflexivity| | |]; try (rewrite E1 in F1; injection F1 as <- <-; congruence).
      exfalso. exact (F _ _ E1).
    - destruct seen as [|p seen]; cbn [List.app] in El.
      + injection El as _ Ea _. rewrite Ea in Sy. destruct Hs as (r & creds & E1 & E2). inversion Sy as [|rr k ? ? F1 F2 F3| | |]; subst.
        rewrite E1 in F1. injection F1 as <- <-. congruence.
      + injection El as _ El. now apply IH with seen.
  Qed.
  (** nothing can be sent: nobody is asked, and the bind raises; with what can be, the server is asked *)
  Theorem C99_refused {S} (server : S -> rmessage -> rmessage * S) f n c s response o seen w' c' s' : answers server ->
    on_wire server n (idle f) c s response o seen w' c' s' ->
    (seen = [] <-> ~ can_ask n mech response cs) /\ (seen = [] -> exists e, o = Some (Raise e)).
  Proof.
    intros Hserver H. destruct (C99_exchange _ _ _ _ _ _ _ _ _ _ _ Hserver H) as (r & -> & I & _). clear - I.
    inversion I as [? ? ? ? e Hn|? ? ? ? ? ? A m Sy|? ? ? ? ? ? ? ? ? ? A m Sy I']; subst; (split; [split|]); intros; try discriminate; try contradiction; eauto.
  Qed.

  (** The IDs are consecutive. *)
  Theorem C99_ids {S} (server : S -> rmessage -> rmessage * S) f n c s response o seen w' c' s' : answers server ->
    on_wire server n (idle f) c s response o seen w' c' s' ->
    map (fun p => rm_id (fst p)) seen = map (fun i => (n + Z.of_nat i)%Z) (seq 0 (List.length seen)) /\
    Forall (fun p => rm_id (snd p) = rm_id (fst p)) seen.
  Proof.
    intros Hserver H. destruct (C99_exchange _ _ _ _ _ _ _ _ _ _ _ Hserver H) as (r & _ & I & _). clear - I Hserver.
    induction I as [n c s response e H|n c s response result c' A m Sy|n c s response next cx result seen c' s' A m Sy I IH].
    - split; [reflexivity|constructor].
    - split; [cbn [map List.length seq fst]; f_equal; unfold m, sasl_request; cbn [rm_id]; lia|]. constructor; [apply Hserver|constructor].
    - destruct IH as [IH1 IH2]. split; [|constructor; [apply Hserver|exact IH2]]. cbn [map List.length seq fst]. rewrite IH1, <- seq_shift, map_map. f_equal; [unfold m, sasl_request; cbn [rm_id]; lia|].
      apply map_ext. intros i. lia.
  Qed.
  (** After a bind that returned, or raised because of an answer, the operations on the connection go as on a new one
      (C93), with the IDs after those of the bind. *)
  Theorem C99_then_operations {S} (server : S -> rmessage -> rmessage * S) (after : S -> rmessage -> list rmessage * S) lower urlparse contact
      f n c s response o seen w' c' s' calls outs seen2 s2 :
    answers server -> (forall s m, answers_properly decode absent reg builtin lower urlparse m (fst (after s m))) ->
    (0 <= n)%Z -> on_wire server n (idle f) c s response o seen w' c' s' -> Forall (fun p => proper_call (fst p)) calls ->
    session decode absent reg builtin lower urlparse contact after (n + Z.of_nat (List.length seen)) w' s' calls outs seen2 s2 ->
    exists outs', outs = map Some outs' /\
      ideal decode absent reg builtin lower urlparse after (n + Z.of_nat (List.length seen)) s' calls outs' seen2 s2 /\
      map rm_id (map fst seen ++ seen2)%list = map (fun i => (n + Z.of_nat i)%Z) (seq 0 (List.length seen + List.length seen2)).
  Proof.
    intros Hserver Hafter Hn H Hp Hsess. destruct (C99_exchange _ _ _ _ _ _ _ _ _ _ _ Hserver H) as (r & _ & _ & ->).
    destruct (session_from decode absent reg builtin lower urlparse contact after _ f _ _ _ _ _ Hafter Hp Hsess) as (outs' & E & I). exists outs'. split; [exact E|]. split; [exact I|].
    destruct (C99_ids _ _ _ _ _ _ _ _ _ _ _ Hserver H) as [I1 _]. assert (Hn2 : (0 <= n + Z.of_nat (List.length seen))%Z) by lia.
    destruct (ids_from decode absent reg builtin lower urlparse after _ _ _ _ _ _ Hn2 I) as [I2 _].
    rewrite map_app, map_map, I1, I2, seq_app, map_app. f_equal. rewrite Nat.add_0_l.
    assert (G : forall k L j, map (fun i => (n + Z.of_nat L + Z.of_nat i)%Z) (seq j k) = map (fun i => (n + Z.of_nat i)%Z) (seq (L + j) k)).
    { intros k L. induction k as [|k IH]; intros j; [reflexivity|]. cbn [seq map]. f_equal; [lia|]. rewrite IH, Nat.add_succ_r. reflexivity. }
    rewrite G, Nat.add_0_r. reflexivity.
  Qed.
End C99.

(** ** A concrete case: the server sends a nonce, the client answers with the nonce and its key, and is let in *)
Definition ex_process (key : list N) (challenge : option (list N)) : res (option val) * list N :=
  match challenge with Some x => (Ok (Some (Bytes (x ++ key)%list)), key) | None => (Raise LDAPError, key) end.
Definition ex_reply (n : Z) (code : Z) (creds : option (list N)) : rmessage := mk_rm n (RBindResponse (mk_rr code [] [] None) creds) None.
Definition ex_sasl_server (s : bool) (m : rmessage) : rmessage * bool :=
  (match rm_op m with
   | RBindRequest _ _ (RSasl _ None) => ex_reply (rm_id m) 14 (Some [1; 2]%N)
   | RBindRequest _ _ (RSasl _ (Some l)) => ex_reply (rm_id m) (if str_eqb l [1; 2; 7]%N then 0 else 49) None
   | _ => ex_reply (rm_id m) 2 None
   end, s).
Notation ex_asks n resp := (sasl_request n (lit "X") resp []).
Example C99_nonvacuous :
  answers ex_sasl_server /\
  on_wire utf8_dec [] empty_registry (fun _ => false) ex_process (lit "X") [] ex_sasl_server 3 (idle 1) [7]%N true None (Some (Ok []))
    [(ex_asks 3 None, ex_reply 3 14 (Some [1; 2]%N)); (ex_asks 4 (Some (Bytes [1; 2; 7]%N)), ex_reply 4 0 None)] (idle 1) [7]%N true /\
  exists e, on_wire utf8_dec [] empty_registry (fun _ => false) ex_process (lit "X") [] ex_sasl_server 3 (idle 1) [8]%N true None (Some (Raise e))
    [(ex_asks 3 None, ex_reply 3 14 (Some [1; 2]%N)); (ex_asks 4 (Some (Bytes [1; 2; 8]%N)), ex_reply 4 49 None)] (idle 1) [8]%N true.
Proof.
  assert (Ha : answers ex_sasl_server).
  { intros s m. unfold ex_sasl_server. cbn [fst]. destruct (rm_op m) as [v nm [p|me [l|]]| | | | | | | | | | | | | | | | | | | |]; split; try exact I; reflexivity. }
  assert (E1 : encodable (Text (lit "X"))) by (change (lit "X") with [88]%N; repeat (apply Forall_cons; [lia|]); apply Forall_nil).
  assert (K : forall n r, (0 <= n <= 10)%Z -> match r with Some v => encodable v | None => True end -> can_ask n (lit "X") r []).
  { intros n r Hn Hr. split; [unfold Spec_Wire.int0max, maxInt; lia|]. split; [split; assumption|constructor]. }
  assert (Sm : forall n c k, in_range (RBindResponse (mk_rr c [] [] None) k) None -> small (ex_reply n c k)) by (intros n c k H; exact H).
  split; [exact Ha|]. split.
  - assert (X : exchange [] empty_registry (fun _ => false) ex_process (lit "X") [] ex_sasl_server 3 [7]%N true None (Ok [])
      [(ex_asks 3 None, ex_reply 3 14 (Some [1; 2]%N)); (ex_asks 4 (Some (Bytes [1; 2; 7]%N)), ex_reply 4 0 None)] [7]%N true).
    { eapply (GoesOn _ _ _ _ _ _ ex_sasl_server 3 [7]%N true None); [apply K; [lia|exact I]|eapply SaysChallenge; reflexivity|].
      eapply (Ends _ _ _ _ _ _ ex_sasl_server 4 [7]%N true); [apply K; [lia|]|eapply (SaysSuccess _ _ _ _ _ (ex_reply 4 0 None)); reflexivity].
      cbn. repeat constructor. }
    destruct (C99_possible utf8_dec [] empty_registry (fun _ => false) ex_process (lit "X") [] ex_sasl_server 1 3 _ true _ _ _ _ _ Ha ltac:(lia) X) as (r' & W & [->|(e & e' & E & _)]).
    + repeat (apply Forall_cons; [split; (split; [repeat split; discriminate|reflexivity])|]). apply Forall_nil.
    + exact W.
    + discriminate.
  - assert (X : exchange [] empty_registry (fun _ => false) ex_process (lit "X") [] ex_sasl_server 3 [8]%N true None (Raise LDAPError)
      [(ex_asks 3 None, ex_reply 3 14 (Some [1; 2]%N)); (ex_asks 4 (Some (Bytes [1; 2; 8]%N)), ex_reply 4 49 None)] [8]%N true).
    { eapply (GoesOn _ _ _ _ _ _ ex_sasl_server 3 [8]%N true None); [apply K; [lia|exact I]|eapply SaysChallenge; reflexivity|].
      eapply (Ends _ _ _ _ _ _ ex_sasl_server 4 [8]%N true); [apply K; [lia|]|eapply (SaysFailure _ _ _ _ _ (ex_reply 4 49 None)); [reflexivity|discriminate|discriminate]].
      cbn. repeat constructor. }
    destruct (C99_possible utf8_dec [] empty_registry (fun _ => false) ex_process (lit "X") [] ex_sasl_server 1 3 _ true _ _ _ _ _ Ha ltac:(lia) X) as (r' & W & D).
    + repeat (apply Forall_cons; [split; (split; [repeat split; discriminate|reflexivity])|]). apply Forall_nil.
    + destruct D as [->|(e & e' & _ & ->)]; eauto.
Qed.

(** after the bind of the first case, the operations of the concrete case of C93, with the IDs from 5 on *)
Example C99_nonvacuous_operations : exists outs seen b,
  Spec_Session.session utf8_dec [] empty_registry (fun _ => false) ascii_lower (fun _ => ([], [], [], [])) (fun _ => Raise LDAPConnectionError)
    ex_server 5 (idle 1) true [(CDelete (Text [0xD800]%N), []); (CDelete (Text (lit "o=x")), [])] outs seen b /\
  map rm_id seen = [5]%Z.
Proof.
  assert (Hserver : forall s m, answers_properly utf8_dec [] empty_registry (fun _ => false) ascii_lower (fun _ => ([], [], [], [])) m (fst (ex_server s m))).
  { intros s m. assert (F : controls_fine [] empty_registry (fun _ => false) (ex_done (rm_id m))) by (split; [exact I|reflexivity]).
    assert (R : readable utf8_dec [] empty_registry (fun _ => false) ascii_lower (fun _ => ([], [], [], [])) (ex_found (rm_id m))).
    { split; [split; [exact I | reflexivity]|]. cbn [rm_op ex_entry ex_found]. split; [vm_compute; discriminate|].
      exists (map lit ["cn"; "jpegPhoto"; "sn"]). split; [vm_compute; reflexivity|]. repeat constructor; cbn; intuition discriminate. }
    unfold ex_server, answers_properly. destruct (rm_op m) eqn:E; cbn [fst];
      try (split; [constructor; [reflexivity|constructor]|]; exists (ex_deleted (rm_id m)); split; [reflexivity|exact I]).
    split; [destruct s; repeat (constructor; [reflexivity|]); constructor|].
    exists (if s then [ex_found (rm_id m)] else []), (ex_done (rm_id m)), (mk_rr 0 [] [] None). split; [reflexivity|]. split; [|split; [reflexivity|exact F]].
    destruct s; [constructor; [exact R|constructor]|constructor]. }
  assert (R1 : forall n, in_range (rm_op (ex_found n)) None) by (intros n; split; [exact I|reflexivity]).
  assert (R2 : forall n, in_range (rm_op (ex_done n)) None) by (intros n; split; [split; [split|]; discriminate|reflexivity]).
  assert (R3 : forall n, in_range (rm_op (ex_deleted n)) None) by (intros n; split; [split; [split|]; discriminate|reflexivity]).
  set (calls := [(CDelete (Text [0xD800]%N), []); (CDelete (Text (lit "o=x")), [])] : list (call * list ctrl_args)).
  destruct (sessions_exist_from utf8_dec [] empty_registry (fun _ => false) ascii_lower (fun _ => ([], [], [], [])) (fun _ => Raise LDAPConnectionError)
              ex_server 1 true calls Hserver) with (n := 5%Z) as (outs & seen & s' & H).
  - intros s m. unfold ex_server. destruct (rm_op m); cbn [fst]; try (constructor; [apply R3|constructor]).
    destruct s; [constructor; [apply R1|]|]; (constructor; [apply R2|constructor]).
  - repeat (apply Forall_cons; [split; [exact I|]; split; [exact I|reflexivity]|]). apply Forall_nil.
  - lia.
  - exists outs, seen, s'. split; [exact H|].
    assert (Hp : Forall (fun p : call * list ctrl_args => proper_call (fst p)) calls) by (repeat (apply Forall_cons; [exact I|]); apply Forall_nil).
    destruct (session_from _ _ _ _ _ _ _ ex_server 5 1 true calls outs seen s' Hserver Hp H) as (outs' & -> & Id). clear H.
    assert (K1 : Spec_Wire.int0max 5) by (unfold Spec_Wire.int0max, maxInt; lia).
    assert (E1 : encodable (Text (lit "o=x"))) by (change (lit "o=x") with [111; 61; 120]%N; repeat (apply Forall_cons; [lia|]); apply Forall_nil).
    assert (E4 : ~ encodable (Text [0xD800]%N)) by (intros C; inversion C as [|? ? C1 _]; apply C1; lia).
    unfold calls in Id.
    inversion Id as [|? ? ? ? ? ? e ? ? ? Hno Hnn Id2|? ? ? ? ? r2 ? ? ? B1 B2 B3 m2 Hr2 Id2]; subst; clear Id; [|exfalso; exact (E4 B1)].
    destruct Hnn as [->|[_ Hbad]]; [|contradiction].
    inversion Id2 as [|? ? ? ? ? ? ? ? ? ? Hno' Hnn Id3|? ? ? ? ? r3 ? ? ? C1 C2 C3 m3 Hr3 Id3]; subst; clear Id2; [exfalso; apply Hno'; split; [exact E1|]; split; [apply Forall_nil|exact K1]|].
    inversion Id3; subst. reflexivity.
Qed.

Print Assumptions C99_exchange.
Print Assumptions C99_possible.
Print Assumptions C99_one_outcome.
Print Assumptions C99_in_turn.
Print Assumptions C99_bound.
Print Assumptions C99_success.
Print Assumptions C99_refused.
Print Assumptions C99_ids.
Print Assumptions C99_then_operations.
