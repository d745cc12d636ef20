(** * More of C74 and C75: which calls wait, and what is an error *)
From Verif Require Import PyBase Model_Uri Spec_Uri Model_Conn Model_Controls Spec_Controls Proofs_Controls Props_Controls Model_Search Model_Request Model_Tls Spec_Tls Proofs_Tls Props_Tls.

(** the messages waiting for a call *)
Definition arrived (o : top) : list xreply :=
  match o with OpStartTls _ _ _ _ _ _ ms _ | OpWho _ _ ms => ms | _ => [] end.
Definition reads (o : top) : bool := match o with OpStartTls _ _ _ _ _ _ _ _ | OpWho _ _ _ => true | _ => false end.

(** A call waits only if it has sent its request, over what the connection was before, and nothing has arrived; anything
    else is decided at once. *)
Theorem C75_waits_only_for_an_answer encode host t o t' : tstep encode host t o = (t', None) ->
  reads o = true /\ arrived o = [] /\ ts_dead t = false /\
  exists oid cs, t' = mk_ts (ts_layers t) (ts_started t) false (ts_sent t ++ [(ts_layers t, MExt oid None cs)]).
Proof.
  destruct o as [s v f p d|s k v f p d ms rf|k oid v kw|k kw ms|n|]; cbn [tstep reads arrived].
  - destruct (sock_start_tls s host t v f p d); discriminate.
  - unfold ldap_start_tls. destruct (ts_started t) eqn:Es; [discriminate|].
    pose proof (ext_cases encode k t oid_starttls XNone [(lit "require_success", Plain (lit "True"))]) as X.
    destruct (send_extended_request encode k t oid_starttls XNone [(lit "require_success", Plain (lit "True"))]) as [t1 [rs|x]]; [|discriminate].
    destruct ms as [|m ms]; cbn [recv_response].
    + intros E. injection E as <-. destruct X as [(_ & x & X & _)|(b & cs & rest & _ & X1 & X2 & _ & -> & _)]; [discriminate|].
      cbn in X1; subst b. split; [reflexivity|]. split; [reflexivity|]. split; [exact X2|]. exists oid_starttls, cs. rewrite Es. reflexivity.
    + destruct (handle_xmsg rs m) as [[[v0 ?]|x] ?]; [|discriminate]. destruct (sock_start_tls s host t1 _ _ _ _) as [t2 [[]|x]]; [|discriminate].
      destruct (tsend t2 (MOther 0)) as [t3 [[]|x]]; discriminate.
  - destruct (send_extended_request encode k t oid v kw); discriminate.
  - unfold who_am_i. destruct (dmem kw (lit "require_success")); [discriminate|].
    pose proof (ext_cases encode k t oid_whoami XNone ((lit "require_success", Plain (lit "True")) :: kw)) as X.
    destruct (send_extended_request encode k t oid_whoami XNone ((lit "require_success", Plain (lit "True")) :: kw)) as [t1 [rs|x]]; [|discriminate].
    destruct ms as [|m ms]; cbn [recv_response]; [|discriminate].
    intros E. injection E as <-. destruct X as [(_ & x & X & _)|(b & cs & rest & _ & X1 & X2 & _ & -> & _)]; [discriminate|].
    cbn in X1; subst b. split; [reflexivity|]. split; [reflexivity|]. split; [exact X2|]. exists oid_whoami, cs. reflexivity.
  - destruct (tsend t (MOther n)); discriminate.
  - discriminate.
Qed.
(** Any other request is sent, over what the connection is then, unless the socket is closed: then it is an error. *)
Theorem C74_other_requests encode host t n :
  tstep encode host t (OpOther n) =
    if ts_dead t then (t, Some (Raise os_error))
    else (mk_ts (ts_layers t) (ts_started t) false (ts_sent t ++ [(ts_layers t, MOther n)]), Some (Ok tt)).
Proof. cbn [tstep]. unfold tsend. now destruct (ts_dead t). Qed.
Print Assumptions C75_waits_only_for_an_answer.
Print Assumptions C74_other_requests.
