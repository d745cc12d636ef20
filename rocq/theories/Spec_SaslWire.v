(** * The exchange of a SASL bind, as messages and on the wire (C99) *)
From Verif Require Import PyBase Model_Uri Model_Ldif Model_Controls Model_CIDict Model_Modify Model_Filter Model_Net Model_Search Model_Request
  Model_Wire Spec_X690 Spec_Wire Spec_Wire2 Model_Reply Spec_Reply Model_Stream Spec_Stream Model_Session Spec_Session Model_SaslWire.
Local Open Scope string_scope.

(** the mechanism and the response can be encoded, and so can the controls and the message ID *)
Definition can_ask (n : Z) (mech : str) (response : option val) (cs : list ctrl_args) : Prop :=
  Spec_Wire.int0max n /\ (encodable (Text mech) /\ match response with Some v => encodable v | None => True end) /\ Forall ctrl_ok cs.
(** the bind request of RFC 4511 with SASL credentials *)
Definition sasl_request (n : Z) (mech : str) (response : option val) (cs : list ctrl_args) : rmessage :=
  mk_rm n (RBindRequest 3 [] (RSasl (utf8 mech) (option_map as_octets response))) (controls_of cs).

Section S.
  Context (decode : list N -> option str) (absent : str) (reg : registry) (builtin : str -> bool).
  Context {C : Type} (process : C -> option (list N) -> res (option val) * C) (mech : str) (cs : list ctrl_args).
  (** what an answer says to do, for a client in state [c]: end with a result, or go on with a response *)
  Inductive says (c : C) (a : rmessage) : res (list (str * str)) + option val -> C -> Prop :=
  | SaysSuccess r creds : rm_op a = RBindResponse r creds -> rr_code r = 0%Z -> says c a (inl (controls_result absent reg builtin a)) c
  | SaysChallenge r creds response c' : rm_op a = RBindResponse r creds -> rr_code r = 14%Z ->
      process c creds = (Ok response, c') -> says c a (inr response) c'
  | SaysUnanswerable r creds e c' : rm_op a = RBindResponse r creds -> rr_code r = 14%Z ->
      process c creds = (Raise e, c') -> says c a (inl (Raise e)) c'
  | SaysFailure r creds : rm_op a = RBindResponse r creds -> rr_code r <> 0%Z -> rr_code r <> 14%Z -> says c a (inl (Raise LDAPError)) c
  | SaysNonsense : (forall r creds, rm_op a <> RBindResponse r creds) -> says c a (inl (Raise UnexpectedResponseType)) c.

  (** ** The exchange as messages: [n] the next ID, [c] the state of the client, [response] what to send next; then the
      outcome, the messages the server got with its answers, and the states at the end *)
  Inductive exchange {S} (server : S -> rmessage -> rmessage * S) :
      Z -> C -> S -> option val -> res (list (str * str)) -> list (rmessage * rmessage) -> C -> S -> Prop :=
  | Refused n c s response e : ~ can_ask n mech response cs -> exchange server n c s response (Raise e) [] c s
  | Ends n c s response result c' : can_ask n mech response cs ->
      let m := sasl_request n mech response cs in
      says c (fst (server s m)) (inl result) c' -> exchange server n c s response result [(m, fst (server s m))] c' (snd (server s m))
  | GoesOn n c s response next c1 result seen c' s' : can_ask n mech response cs ->
      let m := sasl_request n mech response cs in
      says c (fst (server s m)) (inr next) c1 ->
      exchange server (n + 1) c1 (snd (server s m)) next result seen c' s' ->
      exchange server n c s response result ((m, fst (server s m)) :: seen) c' s'.

  (** ** The same on the wire: the request is encoded somehow, the server reads the one message the octets encode, its
      answer is encoded somehow and arrives in pieces; [sasl_round] of Model_SaslWire does the rest.  None: it hangs *)
  Inductive on_wire {S} (server : S -> rmessage -> rmessage * S) :
      Z -> @sock obj -> C -> S -> option val -> option (res (list (str * str))) -> list (rmessage * rmessage) -> @sock obj -> C -> S -> Prop :=
  | WireRefused n n' w c s response e : sasl_send n mech response cs = (Raise e, n') -> on_wire server n w c s response (Some (Raise e)) [] w c s
  | WireFails n n' w c s response lm b m enc objs dec chunks e c' w' :
      sasl_send n mech response cs = (Ok lm, n') -> ber (o_val lm) (o_class lm) b -> e_message m b ->
      server_sends enc [fst (server s m)] objs -> frames enc objs dec ->
      List.concat chunks = List.concat (map enc objs) -> Forall (fun x => x <> []) chunks ->
      sasl_round decode absent reg builtin process dec (Z.to_N n) c (feed w chunks) = Some (Failed_with e, c', w') ->
      on_wire server n w c s response (Some (Raise e)) [(m, fst (server s m))] w' c' (snd (server s m))
  | WireBound n n' w c s response lm b m enc objs dec chunks attrs c' w' :
      sasl_send n mech response cs = (Ok lm, n') -> ber (o_val lm) (o_class lm) b -> e_message m b ->
      server_sends enc [fst (server s m)] objs -> frames enc objs dec ->
      List.concat chunks = List.concat (map enc objs) -> Forall (fun x => x <> []) chunks ->
      sasl_round decode absent reg builtin process dec (Z.to_N n) c (feed w chunks) = Some (Bound attrs, c', w') ->
      on_wire server n w c s response (Some (Ok attrs)) [(m, fst (server s m))] w' c' (snd (server s m))
  | WireGoesOn n n' w c s response lm b m enc objs dec chunks next c1 w1 o seen w' c' s' :
      sasl_send n mech response cs = (Ok lm, n') -> ber (o_val lm) (o_class lm) b -> e_message m b ->
      server_sends enc [fst (server s m)] objs -> frames enc objs dec ->
      List.concat chunks = List.concat (map enc objs) -> Forall (fun x => x <> []) chunks ->
      sasl_round decode absent reg builtin process dec (Z.to_N n) c (feed w chunks) = Some (Continue next, c1, w1) ->
      on_wire server n' w1 c1 (snd (server s m)) next o seen w' c' s' ->
      on_wire server n w c s response o ((m, fst (server s m)) :: seen) w' c' s'
  | WireHangs n n' w c s response lm b m enc objs dec chunks :
      sasl_send n mech response cs = (Ok lm, n') -> ber (o_val lm) (o_class lm) b -> e_message m b ->
      server_sends enc [fst (server s m)] objs -> frames enc objs dec ->
      List.concat chunks = List.concat (map enc objs) -> Forall (fun x => x <> []) chunks ->
      sasl_round decode absent reg builtin process dec (Z.to_N n) c (feed w chunks) = None ->
      on_wire server n w c s response None [(m, fst (server s m))] (feed w chunks) c (snd (server s m)).
  (** the server answers with the ID of the request *)
  Definition answers {S} (server : S -> rmessage -> rmessage * S) : Prop :=
    forall s m, rm_id (fst (server s m)) = rm_id m /\ oids_ascii (fst (server s m)).
  (** a connection with nothing in it, after [f] readers *)
  Definition idle (f : nat) : @sock obj := mk_sock (fun _ => None) f [] [].

  (** ** What the list of messages looks like: rounds of a client that begins in state [c] *)
  Definition succeeded (a : rmessage) : Prop := exists r creds, rm_op a = RBindResponse r creds /\ rr_code r = 0%Z.
  Definition challenges (a : rmessage) (creds : option (list N)) : Prop := exists r, rm_op a = RBindResponse r creds /\ rr_code r = 14%Z.
  (** each request but the first answers the challenge before it *)
  Fixpoint in_turn (n : Z) (c : C) (response : option val) (l : list (rmessage * rmessage)) : Prop :=
    match l with
    | [] => True
    | (m, a) :: rest =>
        m = sasl_request n mech response cs /\
        match rest with
        | [] => True
        | _ => exists creds next c', challenges a creds /\ process c creds = (Ok next, c') /\ in_turn (n + 1) c' next rest
        end
    end.
End S.
