(** * What the methods are to send (C79-C81), in terms of their arguments *)
From Verif Require Import PyBase Model_Ldif Model_Filter Model_Search Model_Request Spec_X690 Model_Wire Spec_Wire.

(** a control is sent without a value if its value is empty *)
Definition control_of (a : ctrl_args) : rcontrol :=
  mk_rc (as_octets (ca_oid a)) (ca_crit a) (match as_octets (ca_value a) with [] => None | x => Some x end).
Definition controls_of (l : list ctrl_args) : option (list rcontrol) :=
  match l with [] => None | _ => Some (map control_of l) end.
Definition ctrl_ok (a : ctrl_args) : Prop := ascii (ca_oid a) /\ encodable (ca_value a).
Definition attr_octets (kv : val * list val) : list N * list (list N) := (as_octets (fst kv), map as_octets (snd kv)).
Definition attr_encodable (kv : val * list val) : Prop := encodable (fst kv) /\ Forall encodable (snd kv).
Definition texts_ok (f : filter) : Prop := Forall (fun s => encodable (Text s)) (filter_texts f).
(** RFC 4511 4.6 *)
Definition change_number (o : mod_op) : Z := match o with ModAdd => 0 | ModDelete => 1 | ModReplace => 2 end.
Definition change_of (m : mod_op * val * list val) : Z * (list N * list (list N)) :=
  let '(op, a, l) := m in (change_number op, attr_octets (a, l)).

(** the octet strings that the codec may produce for the object are the encodings of the message *)
Definition sends (r : res obj) (m : rmessage) : Prop :=
  exists lm, r = Ok lm /\ forall b, ber (o_val lm) (o_class lm) b <-> e_message m b.
(** the message is sent if the condition holds, and nothing otherwise *)
Definition exactly_if (ok : Prop) (r : res obj) (m : rmessage) : Prop :=
  (ok -> sends r m) /\ (~ ok -> exists e, r = Raise e).

(** what a search asks for (RFC 4511 4.5.1), and when it can be encoded *)
Definition search_of (w : wire_search) : rop :=
  RSearchRequest (utf8 (w_base w)) (match w_scope w with BaseScope => 0 | OneScope => 1 | SubScope => 2 end) (Z.of_N (w_deref w))
    (w_size w) (w_time w) (w_types_only w) (filter_of (w_filter w)) (map utf8 (w_attrs w)).
Definition search_ok (w : wire_search) : Prop :=
  encodable (Text (w_base w)) /\ Spec_Wire.int0max (w_size w) /\ Spec_Wire.int0max (w_time w) /\ texts_ok (w_filter w) /\
  Forall (fun a => encodable (Text a)) (w_attrs w).

(** ** How long the encodings may get: every message that this puts under 256^126 octets has one *)
Local Open Scope N_scope.
Definition sum (l : list N) : N := fold_right N.add 0 l.
Definition len_oct (x : list N) : N := 128 + N.of_nat (List.length x).
Definition len_opt (o : option (list N)) : N := match o with Some x => len_oct x | None => 0 end.
Definition len_octs (l : list (list N)) : N := 128 + sum (map len_oct l).
Definition len_attr (a : list N * list (list N)) : N := 128 + (len_oct (fst a) + len_octs (snd a)).
Definition len_int : N := 133.
Definition len_sub (s : rsub) : N := match s with RInitial v | RAny v | RFinal v => len_oct v end.
Fixpoint len_filter (f : rfilter) : N :=
  match f with
  | RAnd l | ROr l => 128 + sum (map len_filter l)
  | RNot g => 128 + len_filter g
  | REqual a v | RGreater a v | RLess a v | RApprox a v => 128 + (len_oct a + len_oct v)
  | RSubs a l => 128 + (len_oct a + (128 + sum (map len_sub l)))
  | RPresent a => len_oct a
  | RExt r t v _ => 128 + (len_opt r + (len_opt t + (len_oct v + len_int)))
  end.
Definition len_result (r : rresult) : N :=
  len_int + (len_oct (rr_matched r) + (len_oct (rr_diag r) + match rr_referral r with Some l => len_octs l | None => 0 end)).
Definition len_auth (a : rauth) : N := match a with RSimple p => len_oct p | RSasl m c => 128 + (len_oct m + len_opt c) end.
Definition len_op (o : rop) : N :=
  match o with
  | RBindRequest _ n a => 128 + (len_int + (len_oct n + len_auth a))
  | RBindResponse r c => 128 + (len_result r + len_opt c)
  | RUnbindRequest => 128
  | RSearchRequest b _ _ _ _ _ f l => 128 + (len_oct b + (5 * len_int + (len_filter f + len_octs l)))
  | RSearchResultEntry dn l | RAddRequest dn l => 128 + (len_oct dn + (128 + sum (map len_attr l)))
  | RSearchResultDone r | RModifyResponse r | RAddResponse r | RDelResponse r | RModifyDNResponse r | RCompareResponse r => 128 + len_result r
  | RSearchResultReference l => len_octs l
  | RModifyRequest dn l => 128 + (len_oct dn + (128 + sum (map (fun c => 128 + (len_int + len_attr (snd c))) l)))
  | RDelRequest dn => len_oct dn
  | RModifyDNRequest dn n _ s => 128 + (len_oct dn + (len_oct n + (len_int + len_opt s)))
  | RCompareRequest dn a v => 128 + (len_oct dn + (128 + (len_oct a + len_oct v)))
  | RAbandonRequest _ => len_int
  | RExtendedRequest n v => 128 + (len_oct n + len_opt v)
  | RExtendedResponse r n v => 128 + (len_result r + (len_opt n + len_opt v))
  | RIntermediateResponse n v => 128 + (len_opt n + len_opt v)
  end.
Definition len_message (m : rmessage) : N :=
  128 + (len_int + (len_op (rm_op m) +
    match rm_controls m with
    | Some l => 128 + sum (map (fun c => 128 + (len_oct (rc_type c) + (len_int + len_opt (rc_value c)))) l)
    | None => 0
    end)).

(** the sizes and ranges of RFC 4511; numbers up to maxInt *)
Fixpoint filter_sizes (f : rfilter) : Prop :=
  match f with
  | RAnd l | ROr l => l <> [] /\ (fix all l := match l with [] => True | g :: l' => filter_sizes g /\ all l' end) l
  | RNot g => filter_sizes g
  | RSubs _ l => l <> []
  | _ => True
  end.
Definition result_valid (r : rresult) : Prop := Spec_Wire.int0max (rr_code r) /\ rr_referral r <> Some [].
Definition op_valid (o : rop) : Prop :=
  match o with
  | RBindRequest v _ _ => (1 <= v <= 127)%Z
  | RSearchRequest _ s d n t _ f _ =>
      Spec_Wire.int0max s /\ Spec_Wire.int0max d /\ Spec_Wire.int0max n /\ Spec_Wire.int0max t /\ filter_sizes f
  | RBindResponse r _ | RSearchResultDone r | RModifyResponse r | RAddResponse r | RDelResponse r | RModifyDNResponse r
  | RCompareResponse r | RExtendedResponse r _ _ => result_valid r
  | RModifyRequest _ l => Forall (fun c => Spec_Wire.int0max (fst c)) l
  | RAddRequest _ l => Forall (fun a => snd a <> []) l
  | RAbandonRequest i => Spec_Wire.int0max i
  | RSearchResultReference l => l <> []
  | _ => True
  end.
Definition valid_message (m : rmessage) : Prop := Spec_Wire.int0max (rm_id m) /\ op_valid (rm_op m).
