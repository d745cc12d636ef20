(** * Operations one after the other, seen as messages (C93) *)
From Verif Require Import PyBase Model_Uri Model_Ldif Model_Controls Model_CIDict Model_Modify Model_Filter Model_Net Model_Search Model_Request
  Model_Wire Spec_X690 Spec_Wire Spec_Wire2 Model_Reply Spec_Reply Model_Stream Spec_Stream Model_Session.
Local Open Scope string_scope.

(** ** What each operation is to ask for *)
(** the arguments can be encoded *)
Definition args_ok (c : call) : Prop :=
  match c with
  | CBind u p => encodable u /\ encodable p
  | CDelete dn => encodable dn
  | CModDN dn rdn _ sup => encodable dn /\ encodable rdn /\ match sup with Some v => encodable v | None => True end
  | CModify dn l => encodable dn /\ Forall (fun m => attr_encodable (snd (fst m), snd m)) l
  | CAdd dn l => encodable dn /\ Forall attr_encodable l
  | CCompare dn a v => encodable (Text dn) /\ encodable (Text a) /\ encodable (Text v)
  | CSearch w => search_ok w
  end.
(** the operation of RFC 4511 *)
Definition asked (c : call) : rop :=
  match c with
  | CBind u p => RBindRequest 3 (as_octets u) (RSimple (as_octets p))
  | CDelete dn => RDelRequest (as_octets dn)
  | CModDN dn rdn clean sup => RModifyDNRequest (as_octets dn) (as_octets rdn) clean (option_map as_octets sup)
  | CModify dn l => RModifyRequest (as_octets dn) (map change_of l)
  | CAdd dn l => RAddRequest (as_octets dn) (map attr_octets l)
  | CCompare dn a v => RCompareRequest (utf8 dn) (utf8 a) (utf8 v)
  | CSearch w => search_of w
  end.
(** every attribute to add has a value (add without is never encoded: C79_refuted_add_empty) *)
Definition proper_call (c : call) : Prop := match c with CAdd _ l => Forall (fun kv => snd kv <> []) l | _ => True end.

Section S.
  Context (decode : list N -> option str) (absent : str) (reg : registry) (builtin : str -> bool)
          (lower : str -> str) (urlparse : str -> str * str * str * str).

  (** ** Servers: one answers a message with messages of the same ID: a search with entries and references that can be
      read and then the end, all others with one message *)
  Definition answers_properly (m : rmessage) (reply : list rmessage) : Prop :=
    Forall (fun a => rm_id a = rm_id m) reply /\
    match rm_op m with
    | RSearchRequest _ _ _ _ _ _ _ _ =>
        exists body last r, reply = (body ++ [last])%list /\ Forall (readable decode absent reg builtin lower urlparse) body /\
          rm_op last = RSearchResultDone r /\ controls_fine absent reg builtin last
    | _ => exists a, reply = [a] /\ oids_ascii a
    end.

  (** ** What an operation is to return for an answer *)
  Definition controls_result (a : rmessage) : res (list (str * str)) :=
    let (o, attrs) := handle_response reg builtin [] (controls_in absent a) in let* _ := o in Ok attrs.
  Definition result_by_code (r : option rresult) (a : rmessage) : res returned :=
    match r with
    | None => Raise UnexpectedResponseType
    | Some r => if (rr_code r =? 0)%Z then let* cs := controls_result a in Ok (RetControls cs) else Raise LDAPError
    end.
  Definition returns (c : call) (reply : list rmessage) (r : res returned) : Prop :=
    match c with
    | CSearch _ =>
        exists body last d items, reply = (body ++ [last])%list /\ rm_op last = RSearchResultDone d /\
          r = Ok (RetItems items (end_for (rr_code d))) /\ Forall2 (stands_for decode lower urlparse) body items
    | _ => exists a, reply = [a] /\
        r = match c with
            | CBind _ _ => result_by_code (answer "bindResponse" (rm_op a)) a
            | CDelete _ => result_by_code (answer "delResponse" (rm_op a)) a
            | CModDN _ _ _ _ => result_by_code (answer "modDNResponse" (rm_op a)) a
            | CModify _ _ => result_by_code (answer "modifyResponse" (rm_op a)) a
            | CAdd _ _ => result_by_code (answer "addResponse" (rm_op a)) a
            | _ => match rm_op a with
                   | RCompareResponse d =>
                       if (rr_code d =? 6)%Z || (rr_code d =? 5)%Z
                       then let* cs := controls_result a in Ok (RetCompare (rr_code d =? 6)%Z cs) else Raise LDAPError
                   | _ => Raise UnexpectedResponseType
                   end
            end
    end.

  (** ** A session as messages: calls that cannot be encoded raise and reach nobody; all others reach the server, in
      order, each as the message of its arguments with the next ID, and return what the answer to that message says *)
  Inductive ideal {S} (server : S -> rmessage -> list rmessage * S) :
      Z -> S -> list (call * list ctrl_args) -> list (res returned) -> list rmessage -> S -> Prop :=
  | IdealEnd n s : ideal server n s [] [] [] s
  | IdealRefused n n' s c cs rest e outs seen s' :
      ~ (args_ok c /\ Forall ctrl_ok cs /\ Spec_Wire.int0max n) ->
      n' = n \/ (n' = (n + 1)%Z /\ ~ Spec_Wire.int0max n) ->
      ideal server n' s rest outs seen s' ->
      ideal server n s ((c, cs) :: rest) (Raise e :: outs) seen s'
  | IdealDone n s c cs rest r outs seen s' :
      args_ok c -> Forall ctrl_ok cs -> Spec_Wire.int0max n ->
      let m := mk_rm n (asked c) (controls_of cs) in
      returns c (fst (server s m)) r ->
      ideal server (n + 1) (snd (server s m)) rest outs seen s' ->
      ideal server n s ((c, cs) :: rest) (r :: outs) (m :: seen) s'.

  (** ** The same on the wire.  Request objects are encoded somehow, the server reads the one message that the octets
      encode, its answers are encoded somehow and arrive in pieces; [receive] of Model_Session does the rest. *)
  Context (contact : ldapuri -> res unit).
  Definition feed (s : @sock obj) (chunks : list str) : @sock obj :=
    mk_sock (s_queues s) (s_fresh s) (s_pending s ++ chunks)%list (s_abandoned s).
  Inductive session {S} (server : S -> rmessage -> list rmessage * S) :
      Z -> @sock obj -> S -> list (call * list ctrl_args) -> list (option (res returned)) -> list rmessage -> S -> Prop :=
  | SessionEnd n w s : session server n w s [] [] [] s
  | SessionRefused n n' w s c cs rest e outs seen s' :
      prepare n c cs = (Raise e, n') ->
      session server n' w s rest outs seen s' ->
      session server n w s ((c, cs) :: rest) (Some (Raise e) :: outs) seen s'
  | SessionSent n n' w s c cs rest lm b m enc objs dec chunks fuel r w' outs seen s' :
      prepare n c cs = (Ok lm, n') -> ber (o_val lm) (o_class lm) b -> e_message m b ->
      server_sends enc (fst (server s m)) objs -> frames enc objs dec ->
      List.concat chunks = List.concat (map enc objs) -> Forall (fun c => c <> []) chunks ->
      List.length objs <= fuel ->
      receive decode absent reg builtin lower urlparse contact dec fuel c (Z.to_N n) (feed w chunks) = Some (r, w') ->
      session server n' w' (snd (server s m)) rest outs seen s' ->
      session server n w s ((c, cs) :: rest) (Some r :: outs) (m :: seen) s'
  | SessionHangs n n' w s c cs rest lm b m enc objs dec chunks fuel :
      prepare n c cs = (Ok lm, n') -> ber (o_val lm) (o_class lm) b -> e_message m b ->
      server_sends enc (fst (server s m)) objs -> frames enc objs dec ->
      List.concat chunks = List.concat (map enc objs) -> Forall (fun c => c <> []) chunks ->
      List.length objs <= fuel ->
      receive decode absent reg builtin lower urlparse contact dec fuel c (Z.to_N n) (feed w chunks) = None ->
      session server n w s ((c, cs) :: rest) [None] [m] (snd (server s m)).
  (** a connection just made *)
  Definition fresh_sock : @sock obj := mk_sock (fun _ => None) 0 [] [].
End S.
