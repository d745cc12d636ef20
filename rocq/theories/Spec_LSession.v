(** * Sessions on a connection with a security layer (C95) *)
From Verif Require Import PyBase Model_Uri Model_Ldif Model_Controls Model_CIDict Model_Modify Model_Filter Model_Net Model_Search Model_Request
  Model_Wire Spec_X690 Spec_Wire Spec_Wire2 Model_Reply Spec_Reply Model_Stream Spec_Stream Model_Session Spec_Session Model_Layer Model_LSession.
Local Open Scope string_scope.

(** ** The two ends of a layer.  [agree l p]: the states here ([l]) and at the server ([p]) belong together.  Then the server
    opens what is wrapped here, and what it seals is unwrapped here, and the states belong together again. *)
Record tunnel {L P} (wrap unwrap : L -> list N -> res (list N) * L) (open : P -> list N -> option (list N * P))
    (seal : P -> list N -> list N * P) (agree : L -> P -> Prop) : Prop := mk_tunnel {
  to_server : forall l p raw, agree l p ->
    exists out l' p', wrap l raw = (Ok out, l') /\ open p out = Some (raw, p') /\ agree l' p';
  to_client : forall l p raw, agree l p ->
    exists l', unwrap l (fst (seal p raw)) = (Ok raw, l') /\ agree l' (snd (seal p raw)) }.
(** the buffers the server makes of these pieces of its octets *)
Fixpoint sealed {P} (seal : P -> list N -> list N * P) (p : P) (pieces : list (list N)) : list (list N) * P :=
  match pieces with
  | [] => ([], p)
  | x :: r => let (b, p1) := seal p x in let (bs, p2) := sealed seal p1 r in (b :: bs, p2)
  end.

Section S.
  Context (decode : list N -> option str) (absent : str) (reg : registry) (builtin : str -> bool)
          (lower : str -> str) (urlparse : str -> str * str * str * str) (contact : ldapuri -> res unit).
  Context {L P : Type} (wrap unwrap : L -> list N -> res (list N) * L) (open : P -> list N -> option (list N * P)) (seal : P -> list N -> list N * P).
  Definition lfeed (s : @lsock obj L) (bufs : list (list N)) : @lsock obj L :=
    mk_lsock (l_queues s) (l_fresh s) (l_pending s ++ bufs)%list (l_abandoned s) (l_sasl s).
  (** As [session] of Spec_Session, but the server gets what it opens, and seals its octets, cut as it likes; every read of
      the socket returns one of its buffers. *)
  Inductive lsession {S} (server : S -> rmessage -> list rmessage * S) :
      Z -> @lsock obj L -> P -> S -> list (call * list ctrl_args) -> list (option (res returned)) -> list rmessage -> S -> Prop :=
  | LSessionEnd n w p s : lsession server n w p s [] [] [] s
  | LSessionRefused n n' w p s c cs rest e outs seen s' :
      prepare n c cs = (Raise e, n') ->
      lsession server n' w p s rest outs seen s' ->
      lsession server n w p s ((c, cs) :: rest) (Some (Raise e) :: outs) seen s'
  | LSessionNotWrapped n n' w w1 p s c cs rest lm b e outs seen s' :
      prepare n c cs = (Ok lm, n') -> ber (o_val lm) (o_class lm) b -> lput wrap w b = (Raise e, w1) ->
      lsession server n' w1 p s rest outs seen s' ->
      lsession server n w p s ((c, cs) :: rest) (Some (Raise e) :: outs) seen s'
  | LSessionSent n n' w w1 p p1 p2 s c cs rest lm b out raw m enc objs dec pieces bufs fuel r w' outs seen s' :
      prepare n c cs = (Ok lm, n') -> ber (o_val lm) (o_class lm) b -> lput wrap w b = (Ok out, w1) ->
      open p out = Some (raw, p1) -> e_message m raw ->
      server_sends enc (fst (server s m)) objs -> frames enc objs dec ->
      List.concat pieces = List.concat (map enc objs) -> Forall (fun c => c <> []) pieces -> sealed seal p1 pieces = (bufs, p2) ->
      List.length objs <= fuel ->
      lreceive decode absent reg builtin lower urlparse contact unwrap dec fuel c (Z.to_N n) (lfeed w1 bufs) = Some (r, w') ->
      lsession server n' w' p2 (snd (server s m)) rest outs seen s' ->
      lsession server n w p s ((c, cs) :: rest) (Some r :: outs) (m :: seen) s'
  | LSessionHangs n n' w w1 p p1 p2 s c cs rest lm b out raw m enc objs dec pieces bufs fuel :
      prepare n c cs = (Ok lm, n') -> ber (o_val lm) (o_class lm) b -> lput wrap w b = (Ok out, w1) ->
      open p out = Some (raw, p1) -> e_message m raw ->
      server_sends enc (fst (server s m)) objs -> frames enc objs dec ->
      List.concat pieces = List.concat (map enc objs) -> Forall (fun c => c <> []) pieces -> sealed seal p1 pieces = (bufs, p2) ->
      List.length objs <= fuel ->
      lreceive decode absent reg builtin lower urlparse contact unwrap dec fuel c (Z.to_N n) (lfeed w1 bufs) = None ->
      lsession server n w p s ((c, cs) :: rest) [None] [m] (snd (server s m)).
  (** a connection on which the layer has just been established: no message has been read, the message ID is the next one *)
  Definition secured (l : L) : @lsock obj L := mk_lsock (fun _ => None) 0 [] [] (Some l).
End S.
