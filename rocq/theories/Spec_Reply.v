(** * What replies mean (C81) *)
From Verif Require Import PyBase Model_Ldif Model_Controls Model_Wire Spec_X690 Spec_Wire Model_Reply.
Local Open Scope string_scope.

(** Unicode scalar values; bytes.decode('utf-8') accepts exactly the encodings of texts made of them *)
Definition scalar (c : N) : Prop := (c < 0x110000 /\ ~ (0xD800 <= c <= 0xDFFF))%N.
Definition decodes (decode : list N -> option str) : Prop :=
  forall b s, decode b = Some s <-> utf8 s = b /\ Forall scalar s.

(** the result in a reply to an operation, if it is one *)
Definition answer (op : string) (o : rop) : option rresult :=
  match o with
  | RBindResponse r _ => if String.eqb op "bindResponse" then Some r else None
  | RSearchResultDone r => if String.eqb op "searchResDone" then Some r else None
  | RModifyResponse r => if String.eqb op "modifyResponse" then Some r else None
  | RAddResponse r => if String.eqb op "addResponse" then Some r else None
  | RDelResponse r => if String.eqb op "delResponse" then Some r else None
  | RModifyDNResponse r => if String.eqb op "modDNResponse" then Some r else None
  | RCompareResponse r => if String.eqb op "compareResponse" then Some r else None
  | RExtendedResponse r _ _ => if String.eqb op "extendedResp" then Some r else None
  | _ => None
  end.
(** the controls of a message as (OID, value) *)
Definition controls_in (absent : str) (m : rmessage) : list (str * str) :=
  match rm_controls m with
  | Some l => map (fun c => (rc_type c, match rc_value c with Some v => v | None => absent end)) l
  | None => []
  end.
Definition oids_ascii (m : rmessage) : Prop :=
  match rm_controls m with Some l => Forall (fun c => Forall (fun x => (x < 128)%N) (rc_type c)) l | None => True end.
(** a value is given as text if it is UTF-8, and as bytes otherwise *)
Definition value_of (decode : list N -> option str) (b : list N) : val :=
  match decode b with Some s => Text s | None => Bytes b end.
(** the object the decoder makes of the octets *)
Definition received (b : list N) (lm : obj) : Prop := o_class lm = cLDAPMessage /\ ber (o_val lm) cLDAPMessage b.
