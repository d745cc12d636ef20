(** * Model of the exchange of a SASL bind on the wire: base.py (sasl_bind 485-526), net.py (sasl_process_auth_challenge
    271-274, send_message and _prep_message 276-303, recv_one 305-312).
    Request objects and messages are those of Model_Wire, the socket reader that of Model_Net, the reading of an answer
    that of Model_Reply (sasl_result).  The SASL client is any function of its state and the challenge, and may raise.
    Simplifications: the mechanism is chosen (Model_Sasl: the checks before and the recheck of the list of mechanisms after
    a successful exchange); while the bind goes on wrap and unwrap of the client leave octets as they are, as those of
    pure-sasl do until a layer is negotiated (layers: Model_Layer); what the returned object holds besides the response
    controls is left out; a challenge that is not there is None. *)
From Verif Require Import PyBase Model_Uri Model_Ldif Model_Controls Model_CIDict Model_Modify Model_Net Model_Search Model_Filter Model_Request Model_Wire Model_Reply Model_Stream.
Local Open Scope string_scope.

(** BindRequest with the mechanism and, if there is one, the response: base.py:486-498; the ID is taken before the message
    is packed: net.py:278-280; the controls are made before the first round: base.py:471; the next ID is returned too *)
Definition sasl_send (n : Z) (mech : str) (response : option val) (ctrls : list ctrl_args) : res obj * Z :=
  match sasl_bind_request mech response with
  | Raise e => (Raise e, n)
  | Ok br => match controls_obj ctrls with
             | Raise e => (Raise e, n)
             | Ok cs => (pack n (lit "bindRequest") br cs, (n + 1)%Z)
             end
  end.

Section SaslWire.
  Context (decode : list N -> option str) (absent : str) (reg : registry) (builtin : str -> bool).
  Context {C : Type} (process : C -> option (list N) -> res (option val) * C).
  (** what a round comes to: the bind raises, it returns, or it goes on with a response *)
  Inductive round := Failed_with (e : exn) | Bound (attrs : list (str * str)) | Continue (response : option val).
  (** one answer: base.py:503-526; recv_one gives the message with the ID of the request, None: still waiting *)
  Definition sasl_round (dec : str -> option (obj * str)) (k : N) (c : C) (s : @sock obj) : option (round * C * @sock obj) :=
    match recv_one message_id dec k s with
    | Yield m _ s' =>
        match sasl_result decode absent reg builtin m with
        | Raise e => Some (Failed_with e, c, s')
        | Ok (inr attrs) => Some (Bound attrs, c, s')
        | Ok (inl challenge) =>
            match process c challenge with
            | (Raise e, c') => Some (Failed_with e, c', s')
            | (Ok response, c') => Some (Continue response, c', s')
            end
        end
    | _ => None
    end.
End SaslWire.
