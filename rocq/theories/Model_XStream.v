(** * Model of extended operations from the socket to the caller: ExtendedResponseHandle (base.py:1624-1658) over readers of
    the socket (Model_Net) and protocol objects (Model_Reply).
    Simplifications: as in those models; log messages, for which the name of a response is read as text, are left out. *)
From Verif Require Import PyBase Model_Ldif Model_Controls Model_Net Model_Search Model_Wire Model_Reply Model_Stream.
Local Open Scope string_scope.

(** self._recvr, self.done, self.require_success: base.py:1629-1632 *)
Record xhandle := mk_xh { xh_gen : gen; xh_done : bool; xh_need : bool }.
Definition extended_handle (k : N) (need : bool) : xhandle := mk_xh (recv_messages k) false need.
(** an object and the controls of its message *)
Definition xresponse := (obj * option obj)%type.
(** _handle_msg: base.py:1634-1650; with whether it sets self.done *)
Definition handle_message (need : bool) (lm : obj) : res xresponse * bool :=
  match unpack "intermediateResponse" lm with
  | Ok (ir, res_ctrls) => (Ok (ir, res_ctrls), false)
  | Raise UnexpectedResponseType =>
      match unpack "extendedResp" lm with
      | Ok (xr, res_ctrls) =>
          ((if need && negb (Z.eqb (code_of xr) RESULT_success) then Raise LDAPError else Ok (xr, res_ctrls)), true)
      | Raise e => (Raise e, false)
      end
  | Raise e => (Raise e, false)
  end.
Notation sock := (@Model_Net.sock obj).
(** recv_response: base.py:1657-1658; None: next() does not return *)
Definition recv_response (dec : str -> option (obj * str)) (h : xhandle) (s : sock) : option (res xresponse * xhandle * sock) :=
  match gen_next message_id dec (xh_gen h) s with
  | Yield m g' s' => let (r, d) := handle_message (xh_need h) m in Some (r, mk_xh g' (xh_done h || d) (xh_need h), s')
  | Stop s' => Some (Raise StopIteration, h, s')
  | Unsolicited _ s' => Some (Raise LDAPUnsolicitedMessage, h, s')
  | Blocked _ _ | NoFuel => None
  end.
(** __iter__: base.py:1651-1655, at most [n] messages; None: it has not ended *)
Fixpoint responses (dec : str -> option (obj * str)) (n : nat) (h : xhandle) (s : sock) : option (list xresponse * ending) :=
  match n with
  | 0 => None
  | S n =>
      match gen_next message_id dec (xh_gen h) s with
      | Yield m g' s' =>
          let (r, d) := handle_message (xh_need h) m in
          match r with
          | Raise e => Some ([], Failed e)
          | Ok x => if xh_done h || d then Some ([x], Finished)
                    else match responses dec n (mk_xh g' (xh_done h || d) (xh_need h)) s' with
                         | Some (l, e) => Some (x :: l, e)
                         | None => None
                         end
          end
      | Stop _ => Some ([], Finished)
      | Unsolicited _ _ => Some ([], Failed LDAPUnsolicitedMessage)
      | Blocked _ _ => Some ([], Waiting)
      | NoFuel => None
      end
  end.
(** who_am_i, once its request has been sent: base.py:1168-1170 *)
Definition who_am_i_answer (decode : list N -> option str) (absent : str) (dec : str -> option (obj * str)) (k : N) (s : sock) : option (res str) :=
  match recv_response dec (extended_handle k true) s with
  | Some (Ok (xr, _), _, _) => Some (Ok (get_string_component decode absent xr "responseValue"))
  | Some (Raise e, _, _) => Some (Raise e)
  | None => None
  end.
