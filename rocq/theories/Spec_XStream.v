(** * From octets to the responses of an extended operation (C98) *)
From Verif Require Import PyBase Model_Ldif Model_Controls Model_Net Model_Search Model_Wire Spec_X690 Spec_Wire Model_Reply Spec_Reply Model_Stream Spec_Stream Model_XStream.
Local Open Scope string_scope.

(** an object shows what RFC 4511 has in a response to an extended operation: name and value, and the result if it is the
    last; with its controls *)
Definition shows (absent : str) (decode : list N -> option str) (m : rmessage) (x : xresponse) : Prop :=
  response_controls decode absent (snd x) = Ok (controls_in absent m) /\
  match rm_op m with
  | RIntermediateResponse name v =>
      option_map octets_of (component (fst x) "responseName") = name /\ option_map octets_of (component (fst x) "responseValue") = v /\
      component (fst x) "resultCode" = None
  | RExtendedResponse r name v =>
      option_map octets_of (component (fst x) "responseName") = name /\ option_map octets_of (component (fst x) "responseValue") = v /\
      code_of (fst x) = rr_code r /\ option_map octets_of (component (fst x) "matchedDN") = Some (rr_matched r) /\
      option_map octets_of (component (fst x) "diagnosticMessage") = Some (rr_diag r)
  | _ => False
  end.
(** what is to be made of one message *)
Definition made_of (absent : str) (decode : list N -> option str) (need : bool) (m : rmessage) (r : res xresponse) : Prop :=
  match rm_op m with
  | RIntermediateResponse _ _ => exists x, r = Ok x /\ shows absent decode m x
  | RExtendedResponse rr _ _ =>
      if need && negb (rr_code rr =? 0)%Z then r = Raise LDAPError else exists x, r = Ok x /\ shows absent decode m x
  | _ => r = Raise UnexpectedResponseType
  end.
Definition is_intermediate (m : rmessage) : Prop := exists name v, rm_op m = RIntermediateResponse name v.
(** the messages of an ID *)
Definition for_id (k : Z) (ms : list rmessage) : list rmessage := List.filter (fun m => (rm_id m =? k)%Z) ms.
(** calling recv_response [n] times *)
Fixpoint recv_times (dec : str -> option (obj * str)) (n : nat) (h : xhandle) (s : sock) : option (list (res xresponse)) :=
  match n with
  | 0 => Some []
  | S n =>
      match recv_response dec h s with
      | Some (r, h', s') => match recv_times dec n h' s' with Some l => Some (r :: l) | None => None end
      | None => None
      end
  end.
Definition arriving (chunks : list str) : sock := mk_sock (fun _ => None) 0 chunks [].
