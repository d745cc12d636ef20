(** * LDAP messages and their encodings, from RFC 4511 (sections 4 and 5.1, appendix B) and X.690
    Written from the RFC, without the tables of the model. *)
From Verif Require Import PyBase Model_Ldif Model_Filter Spec_X690.
Local Open Scope N_scope.

Record rcontrol := mk_rc { rc_type : list N; rc_critical : bool; rc_value : option (list N) }.
Inductive rauth := RSimple (password : list N) | RSasl (mechanism : list N) (credentials : option (list N)).
Inductive rsub := RInitial (v : list N) | RAny (v : list N) | RFinal (v : list N).
Inductive rfilter :=
| RAnd (l : list rfilter) | ROr (l : list rfilter) | RNot (f : rfilter)
| REqual (a v : list N) | RSubs (a : list N) (l : list rsub) | RGreater (a v : list N) | RLess (a v : list N)
| RPresent (a : list N) | RApprox (a v : list N)
| RExt (rule type : option (list N)) (v : list N) (dn : bool).
Record rresult := mk_rr { rr_code : Z; rr_matched : list N; rr_diag : list N; rr_referral : option (list (list N)) }.
Inductive rop :=
| RBindRequest (version : Z) (name : list N) (auth : rauth)
| RBindResponse (r : rresult) (creds : option (list N))
| RUnbindRequest
| RSearchRequest (base : list N) (scope deref size time : Z) (types_only : bool) (f : rfilter) (attrs : list (list N))
| RSearchResultEntry (dn : list N) (attrs : list (list N * list (list N)))
| RSearchResultDone (r : rresult)
| RSearchResultReference (uris : list (list N))
| RModifyRequest (dn : list N) (changes : list (Z * (list N * list (list N))))
| RModifyResponse (r : rresult)
| RAddRequest (dn : list N) (attrs : list (list N * list (list N)))
| RAddResponse (r : rresult)
| RDelRequest (dn : list N)
| RDelResponse (r : rresult)
| RModifyDNRequest (dn newrdn : list N) (deleteold : bool) (superior : option (list N))
| RModifyDNResponse (r : rresult)
| RCompareRequest (dn attr v : list N)
| RCompareResponse (r : rresult)
| RAbandonRequest (mid : Z)
| RExtendedRequest (name : list N) (v : option (list N))
| RExtendedResponse (r : rresult) (name v : option (list N))
| RIntermediateResponse (name v : option (list N)).
Record rmessage := mk_rm { rm_id : Z; rm_op : rop; rm_controls : option (list rcontrol) }.

(** ** Encodings *)
(** universal tags *)
Definition e_bool (b : bool) : octets := tlv 0x01 (bool_octets b).
Definition e_int (z : Z) : octets := tlv 0x02 (int_octets z).
Definition e_oct (v : list N) : octets := tlv 0x04 (raw v).
Definition e_enum (z : Z) : octets := tlv 0x0A (int_octets z).
Definition e_seq (l : list octets) : octets := tlv 0x30 (cats l).
Definition e_set (l : list octets) : octets := tlv 0x31 (cats l).
(** [n] of a simple type, IMPLICIT; [n] of a constructed one; [APPLICATION n] likewise *)
Definition ctx (n : N) (P : octets) : octets := tlv (0x80 + n) P.
Definition ctxc (n : N) (l : list octets) : octets := tlv (0xA0 + n) (cats l).
Definition app (n : N) (P : octets) : octets := tlv (0x40 + n) P.
Definition appc (n : N) (l : list octets) : octets := tlv (0x60 + n) (cats l).
(** OPTIONAL, and BOOLEAN DEFAULT FALSE *)
Definition e_opt {A} (e : A -> octets) (o : option A) : octets := match o with Some x => e x | None => eps end.
Definition e_default_false (e : bool -> octets) (b : bool) : octets := either (given (b = false) eps) (e b).
Definition maxInt : Z := 2147483647.
Definition int0max (z : Z) : Prop := (0 <= z <= maxInt)%Z.
Definition atleast1 {A} (l : list A) : Prop := l <> [].

(** 4.1.7: PartialAttribute; Attribute has at least one value *)
Definition e_partial (a : list N * list (list N)) : octets := e_seq [e_oct (fst a); e_set (map e_oct (snd a))].
Definition e_attribute (a : list N * list (list N)) : octets := given (atleast1 (snd a)) (e_partial a).
(** 4.1.9, 4.1.10 *)
Definition e_referral (l : list (list N)) : octets := given (atleast1 l) (ctxc 3 (map e_oct l)).
Definition result_components (r : rresult) : list octets :=
  [e_enum (rr_code r); e_oct (rr_matched r); e_oct (rr_diag r); e_opt e_referral (rr_referral r)].
(** 4.1.11 *)
Definition e_control (c : rcontrol) : octets :=
  e_seq [e_oct (rc_type c); e_default_false e_bool (rc_critical c); e_opt e_oct (rc_value c)].
(** 4.2 *)
Definition e_auth (a : rauth) : octets :=
  match a with
  | RSimple p => ctx 0 (raw p)
  | RSasl m c => ctxc 3 [e_oct m; e_opt e_oct c]
  end.
(** 4.5.1.7 *)
Definition e_ava (n : N) (a v : list N) : octets := ctxc n [e_oct a; e_oct v].
Definition e_sub (s : rsub) : octets :=
  match s with RInitial v => ctx 0 (raw v) | RAny v => ctx 1 (raw v) | RFinal v => ctx 2 (raw v) end.
Fixpoint e_filter (f : rfilter) : octets :=
  match f with
  | RAnd l => given (atleast1 l) (ctxc 0 (map e_filter l))
  | ROr l => given (atleast1 l) (ctxc 1 (map e_filter l))
  | RNot g => ctxc 2 [e_filter g]
  | REqual a v => e_ava 3 a v
  | RSubs a l => given (atleast1 l) (ctxc 4 [e_oct a; e_seq (map e_sub l)])
  | RGreater a v => e_ava 5 a v
  | RLess a v => e_ava 6 a v
  | RPresent a => ctx 7 (raw a)
  | RApprox a v => e_ava 8 a v
  | RExt rule type v dn =>
      ctxc 9 [e_opt (fun r => ctx 1 (raw r)) rule; e_opt (fun t => ctx 2 (raw t)) type; ctx 3 (raw v);
              e_default_false (fun b => ctx 4 (bool_octets b)) dn]
  end.
(** 4.6 *)
Definition e_change (c : Z * (list N * list (list N))) : octets := e_seq [e_enum (fst c); e_partial (snd c)].

Definition e_op (o : rop) : octets :=
  match o with
  | RBindRequest v n a => given (1 <= v <= 127)%Z (appc 0 [e_int v; e_oct n; e_auth a])
  | RBindResponse r c => appc 1 (result_components r ++ [e_opt (fun x => ctx 7 (raw x)) c])
  | RUnbindRequest => app 2 eps
  | RSearchRequest b s d size time t f l =>
      given (int0max size /\ int0max time)
        (appc 3 [e_oct b; e_enum s; e_enum d; e_int size; e_int time; e_bool t; e_filter f; e_seq (map e_oct l)])
  | RSearchResultEntry dn l => appc 4 [e_oct dn; e_seq (map e_partial l)]
  | RSearchResultDone r => appc 5 (result_components r)
  | RModifyRequest dn l => appc 6 [e_oct dn; e_seq (map e_change l)]
  | RModifyResponse r => appc 7 (result_components r)
  | RAddRequest dn l => appc 8 [e_oct dn; e_seq (map e_attribute l)]
  | RAddResponse r => appc 9 (result_components r)
  | RDelRequest dn => app 10 (raw dn)
  | RDelResponse r => appc 11 (result_components r)
  | RModifyDNRequest dn n b s => appc 12 [e_oct dn; e_oct n; e_bool b; e_opt (fun x => ctx 0 (raw x)) s]
  | RModifyDNResponse r => appc 13 (result_components r)
  | RCompareRequest dn a v => appc 14 [e_oct dn; e_seq [e_oct a; e_oct v]]
  | RCompareResponse r => appc 15 (result_components r)
  | RAbandonRequest i => given (int0max i) (app 16 (int_octets i))
  | RSearchResultReference l => given (atleast1 l) (appc 19 (map e_oct l))
  | RExtendedRequest n v => appc 23 [ctx 0 (raw n); e_opt (fun x => ctx 1 (raw x)) v]
  | RExtendedResponse r n v =>
      appc 24 (result_components r ++ [e_opt (fun x => ctx 10 (raw x)) n; e_opt (fun x => ctx 11 (raw x)) v])
  | RIntermediateResponse n v => appc 25 [e_opt (fun x => ctx 0 (raw x)) n; e_opt (fun x => ctx 1 (raw x)) v]
  end.
(** 4.1.1 *)
Definition e_message (m : rmessage) : octets :=
  given (int0max (rm_id m))
    (e_seq [e_int (rm_id m); e_op (rm_op m); e_opt (fun l => ctxc 0 (map e_control l)) (rm_controls m)]).

(** ** What a caller means *)
(** text is sent in UTF-8 (4.1.2), bytes as they are *)
Definition as_octets (v : val) : list N := match v with Text s => utf8 s | Bytes b => b end.
(** text UTF-8 can encode: no lone surrogates *)
Definition encodable (v : val) : Prop :=
  match v with Text s => Forall (fun c => ~ (0xD800 <= c <= 0xDFFF)) s | Bytes _ => True end.
Definition ascii (v : val) : Prop := match v with Text s => Forall (fun c => c < 128) s | Bytes _ => True end.

(** ** Filters and controls *)
(** The filter of the RFC for a parsed one.  (Values are sent as written, with their escapes: C51.) *)
Definition sub_of (s : subkind * str) : rsub :=
  match fst s with Initial => RInitial (utf8 (snd s)) | Any => RAny (utf8 (snd s)) | Final => RFinal (utf8 (snd s)) end.
Fixpoint filter_of (f : filter) : rfilter :=
  match f with
  | FAnd l => RAnd (map filter_of l)
  | FOr l => ROr (map filter_of l)
  | FNot g => RNot (filter_of g)
  | FEq a v => REqual (utf8 a) (utf8 v)
  | FApprox a v => RApprox (utf8 a) (utf8 v)
  | FGe a v => RGreater (utf8 a) (utf8 v)
  | FLe a v => RLess (utf8 a) (utf8 v)
  | FPresent a => RPresent (utf8 a)
  | FSubs a l => RSubs (utf8 a) (map sub_of l)
  | FExt a dn rule v => RExt (option_map utf8 rule) (option_map utf8 a) (utf8 v) dn
  end.
(** its texts *)
Fixpoint filter_texts (f : filter) : list str :=
  match f with
  | FAnd l | FOr l => flat_map filter_texts l
  | FNot g => filter_texts g
  | FEq a v | FApprox a v | FGe a v | FLe a v => [a; v]
  | FPresent a => [a]
  | FSubs a l => a :: map snd l
  | FExt a _ rule v => v :: (match a with Some a => [a] | None => [] end) ++ match rule with Some r => [r] | None => [] end
  end.
(** RFC 4511 4.5.1.7: what the ASN.1 says in comments about substrings and extensible matches *)
Fixpoint rfilter_ok (f : rfilter) : Prop :=
  match f with
  | RAnd l | ROr l => (fix all l := match l with [] => True | g :: l' => rfilter_ok g /\ all l' end) l
  | RNot g => rfilter_ok g
  | RSubs _ l => exists ini anys fin, l = ini ++ map RAny anys ++ fin /\ (ini = [] \/ exists v, ini = [RInitial v]) /\ (fin = [] \/ exists v, fin = [RFinal v])
  | RExt rule type _ _ => rule <> None \/ type <> None
  | _ => True
  end.
