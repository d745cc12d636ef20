(** * Model of operations one after the other on one connection, down to the octets: base.py (bind 406-432, search 600-738,
    compare 751-779, add 781-839, delete 904-925, mod_dn 927-988, modify 990-1055, _success_result 365-383,
    SearchResultHandle.__iter__ 1572-1621), net.py (276-374).
    Request objects and their messages are those of Model_Wire, socket readers those of Model_Net, replies those of
    Model_Reply.  Simplifications: the connection is bound and stays open, without SASL wrapping; validation and the making of
    modlists come before what is modelled here; results of a search are taken to the end before the next operation; what the
    returned object holds besides the response controls is left out. *)
From Verif Require Import PyBase Model_Uri Model_Ldif Model_Controls Model_CIDict Model_Modify Model_Net Model_Search Model_Filter Model_Request Model_Wire Model_Reply Model_Stream.
Local Open Scope string_scope.

Inductive call :=
| CBind (user password : val)
| CDelete (dn : val)
| CModDN (dn new_rdn : val) (clean_attr : bool) (new_parent : option val)
| CModify (dn : val) (mods : list (mod_op * val * list val))
| CAdd (dn : val) (attrs : list (val * list val))
| CCompare (dn attr value : str)
| CSearch (w : wire_search).
(** name of the request and of the answer *)
Definition request_name (c : call) : string :=
  match c with
  | CBind _ _ => "bindRequest" | CDelete _ => "delRequest" | CModDN _ _ _ _ => "modDNRequest" | CModify _ _ => "modifyRequest"
  | CAdd _ _ => "addRequest" | CCompare _ _ _ => "compareRequest" | CSearch _ => "searchRequest"
  end.
Definition response_name (c : call) : string :=
  match c with
  | CBind _ _ => "bindResponse" | CDelete _ => "delResponse" | CModDN _ _ _ _ => "modDNResponse" | _ => "modifyResponse"
  end.
Definition request (c : call) : res obj :=
  match c with
  | CBind u p => simple_bind_request u p
  | CDelete dn => delete_request dn
  | CModDN dn rdn clean sup => mod_dn_request dn rdn clean sup
  | CModify dn mods => modify_request dn mods
  | CAdd dn attrs => add_request dn attrs
  | CCompare dn a v => compare_request (Text dn) (Text a) (Text v)
  | CSearch w => search_request w
  end.
(** the request object and the controls are made first; the message ID is taken before the message is packed: net.py:276-279 *)
Definition prepare (next_id : Z) (c : call) (ctrls : list ctrl_args) : res obj * Z :=
  match request c with
  | Raise e => (Raise e, next_id)
  | Ok x => match controls_obj ctrls with
            | Raise e => (Raise e, next_id)
            | Ok cs => (pack next_id (lit (request_name c)) x cs, (next_id + 1)%Z)
            end
  end.

(** what an operation returns: response control attributes; with the result of compare; or items and how the iteration ended *)
Inductive returned :=
| RetControls (attrs : list (str * str))
| RetCompare (b : bool) (attrs : list (str * str))
| RetItems (items : list item) (e : ending).

Section Session.
  Context (decode : list N -> option str) (absent : str) (reg : registry) (builtin : str -> bool)
          (lower : str -> str) (urlparse : str -> str * str * str * str) (contact : ldapuri -> res unit).
  Notation sock := (@sock obj).
  (** messages of a search up to the last one, at most [fuel] of them *)
  Fixpoint take_until_done (dec : str -> option (obj * str)) (fuel : nat) (g : gen) (s : sock) : option (list obj * sock) :=
    match fuel with
    | 0 => None
    | S n =>
        match gen_next message_id dec g s with
        | Yield m g' s' =>
            match as_reply decode absent m with
            | REntry _ _ _ | RRef _ _ => match take_until_done dec n g' s' with Some (l, s'') => Some (m :: l, s'') | None => None end
            | _ => Some ([m], s')
            end
        | _ => None
        end
    end.
  (** a search handle without tag that neither fetches references nor follows referrals *)
  Definition plain_handle : shandle := mk_handle false false false false None.
  (** reading the answer to [c] with the given ID; None: still waiting *)
  Definition receive (dec : str -> option (obj * str)) (fuel : nat) (c : call) (k : N) (s : sock) : option (res returned * sock) :=
    match c with
    | CSearch _ =>
        match take_until_done dec fuel (recv_messages k) s with
        | Some (msgs, s') =>
            let '(items, e, _, _, _) := iterate (handle_controls reg builtin) lower urlparse contact plain_handle [] (map (as_reply decode absent) msgs) in
            Some (Ok (RetItems items e), s')
        | None => None
        end
    | _ =>
        match recv_one message_id dec k s with
        | Yield m _ s' =>
            Some (match c with
                  | CCompare _ _ _ => let* p := compare_result decode absent reg builtin m in Ok (RetCompare (fst p) (snd p))
                  | CAdd _ _ => let* a := add_result decode absent reg builtin m in Ok (RetControls a)
                  | _ => let* a := success_result decode absent reg builtin (response_name c) m in Ok (RetControls a)
                  end, s')
        | _ => None
        end
    end.
End Session.
