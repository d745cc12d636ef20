(** * Model of operations one after the other on a connection with a SASL security layer: net.py 276-301, 303-374
    As Model_Session, with the socket of Model_Layer: messages are wrapped before they are sent (net.py:282-283), and what a
    read returns is unwrapped (337-338); both by the one SASL client of the socket (net.py:71, 248-263), whose state is
    [l_sasl].  Simplifications as in Model_Session; what a search has yielded before unwrap raises is left out. *)
From Verif Require Import PyBase Model_Uri Model_Ldif Model_Controls Model_CIDict Model_Modify Model_Net Model_Search Model_Filter Model_Request Model_Wire Model_Reply Model_Stream
  Model_Layer Model_Session.
Local Open Scope string_scope.

Section LSession.
  Context (decode : list N -> option str) (absent : str) (reg : registry) (builtin : str -> bool)
          (lower : str -> str) (urlparse : str -> str * str * str * str) (contact : ldapuri -> res unit).
  Context {L : Type} (wrap unwrap : L -> list N -> res (list N) * L).
  Notation lsock := (@lsock obj L).

  (** [take_until_done] of Model_Session: base.py:1572-1621, net.py:320-374 *)
  Fixpoint ltake_until_done (dec : str -> option (obj * str)) (fuel : nat) (g : gen) (s : lsock) : option (res (list obj) * lsock) :=
    match fuel with
    | 0 => None
    | S n =>
        match lgen_next message_id dec unwrap g s with
        | LYield m g' s' =>
            match as_reply decode absent m with
            | REntry _ _ _ | RRef _ _ =>
                match ltake_until_done dec n g' s' with
                | Some (r, s'') => Some (let* l := r in Ok (m :: l), s'')
                | None => None
                end
            | _ => Some (Ok [m], s')
            end
        | LRaise e s' => Some (Raise e, s')
        | _ => None
        end
    end.
  (** [receive] of Model_Session: base.py:365-383, 760-779, 825-839, 1572-1621; net.py:303-310 *)
  Definition lreceive (dec : str -> option (obj * str)) (fuel : nat) (c : call) (k : N) (s : lsock) : option (res returned * lsock) :=
    match c with
    | CSearch _ =>
        match ltake_until_done dec fuel (recv_messages k) s with
        | Some (Ok msgs, s') =>
            let '(items, e, _, _, _) := iterate (handle_controls reg builtin) lower urlparse contact plain_handle [] (map (as_reply decode absent) msgs) in
            Some (Ok (RetItems items e), s')
        | Some (Raise e, s') => Some (Raise e, s')
        | None => None
        end
    | _ =>
        match lgen_next message_id dec unwrap (recv_messages k) s with
        | LYield m _ s' =>
            Some (match c with
                  | CCompare _ _ _ => let* p := compare_result decode absent reg builtin m in Ok (RetCompare (fst p) (snd p))
                  | CAdd _ _ => let* a := add_result decode absent reg builtin m in Ok (RetControls a)
                  | _ => let* a := success_result decode absent reg builtin (response_name c) m in Ok (RetControls a)
                  end, s')
        | LRaise e s' => Some (Raise e, s')
        | _ => None
        end
    end.
  (** _prep_message and send_message for a packed and encoded message: net.py:281-301; what sendall is given, if wrap does not raise *)
  Definition lput (s : lsock) (raw : list N) : res (list N) * lsock :=
    let (r, sasl) := wrapped wrap (l_sasl s) raw in (r, mk_lsock (l_queues s) (l_fresh s) (l_pending s) (l_abandoned s) sasl).
End LSession.
