(** * Model of the protocol messages: /repo/laurelin/ldap/rfc4511.py (whole), protoutils.py (10-41) and
    the places of base.py, filter.py, net.py and controls.py that build protocol objects.
    pyasn1 is not in the repository; of it this uses: a class has a tag set, which tagImplicitly and
    tagExplicitly change; a Sequence has named components; objects are filled by setComponentByName /
    setComponentByPosition, which refuse an object of another type (here: of other tags or another kind);
    and the encoder and decoder relate an object to the octet strings that X.690 gives for it.
    Simplifications: named numbers are their values; constraints on text (TODO in rfc4511.py) do not
    exist there; the not-RFC alternatives sicily* are in the table but nothing builds them. *)
From Verif Require Import PyBase Model_Ldif Model_Filter Model_Controls Model_Search Model_Request Model_Paged Spec_X690.

(** ** pyasn1.type.tag *)
Inductive tclass := Universal | Application | ContextSpecific.
Record tag := mk_tag { t_class : tclass; t_constructed : bool; t_num : N }.
Definition simple_ (c : tclass) (n : N) := mk_tag c false n.
Definition constructed_ (c : tclass) (n : N) := mk_tag c true n.
(** a TagSet: innermost tag first *)
Definition tagset := list tag.
(** TagSet.tagImplicitly: the outermost tag is replaced, its format (simple/constructed) stays *)
Definition tag_implicitly (ts : tagset) (t : tag) : tagset :=
  match rev ts with
  | [] => [t]
  | last :: r => rev r ++ [mk_tag (t_class t) (t_constructed last) (t_num t)]
  end.
(** TagSet.tagExplicitly: a constructed tag around *)
Definition tag_explicitly (ts : tagset) (t : tag) : tagset := ts ++ [mk_tag (t_class t) true (t_num t)].

(** ** Values *)
Inductive asn :=
| VInt (z : Z)                       (* Integer, Enumerated *)
| VBool (b : bool)
| VNull
| VOct (l : list N)
| VSeq (l : list (option asn))       (* Sequence: its components in declared order *)
| VList (l : list asn)               (* SequenceOf, SetOf *)
| VAlt (name : str) (v : asn)        (* Choice *)
| VUnset.                            (* a Choice nothing was chosen for *)

(** ** The classes of rfc4511.py *)
Inductive cid :=
| cInteger0ToMax | cLDAPString | cMessageID | cLDAPOID | cLDAPDN | cRelativeLDAPDN | cAttributeDescription
| cAttributeValue | cAssertionValue | cAttributeValueAssertion | cMatchingRuleId | cVals | cPartialAttribute | cAttribute
| cAttributeList | cSimple | cCredentials | cSaslCredentials | cSicilyPackageDiscovery | cSicilyNegotiate
| cSicilyResponse | cAuthenticationChoice | cVersion | cResultCode | cURI | cReferral | cServerSaslCreds | cLDAPResult
| cCriticality | cControlValue | cControl | cControls | cScope | cDerefAliases | cTypesOnly | cSelector
| cAttributeSelection | cMatchingRule | cType | cMatchValue | cDnAttributes | cMatchingRuleAssertion | cInitial | cAny
| cFinal | cSubstring | cSubstrings | cSubstringFilter | cAnd | cOr | cNot | cEqualityMatch | cGreaterOrEqual
| cLessOrEqual | cPresent | cApproxMatch | cExtensibleMatch | cFilter | cPartialAttributeList | cOperation | cChange
| cChanges | cDeleteOldRDN | cNewSuperior | cRequestName | cRequestValue | cResponseName | cResponseValue
| cIntermediateResponseName | cIntermediateResponseValue | cBindRequest | cBindResponse | cUnbindRequest
| cSearchRequest | cSearchResultReference | cSearchResultEntry | cSearchResultDone | cModifyRequest | cModifyResponse
| cAddRequest | cAddResponse | cDelRequest | cDelResponse | cModifyDNRequest | cModifyDNResponse | cCompareRequest
| cCompareResponse | cAbandonRequest | cExtendedRequest | cExtendedResponse | cIntermediateResponse | cProtocolOp
| cLDAPMessage.

Inductive encoding := Utf8 | Ascii.
(** NamedType, OptionalNamedType, DefaultedNamedType *)
Inductive presence := Req | Opt | Def (d : asn).
Inductive shape :=
| SInt (range : option (Z * Z))
| SBool
| SNull
| SOct (e : encoding)
| SSeq (fields : list (str * presence * cid))
| SOf (min1 : bool) (elt : cid)          (* SequenceOf and SetOf; size1ToMaxConstraint *)
| SChoice (alts : list (str * cid)).
Record cls := mk_cls { c_tags : tagset; c_shape : shape }.

(** pyasn1.type.univ *)
Definition univ_Integer := mk_cls [simple_ Universal 2] (SInt None).
Definition univ_Enumerated := mk_cls [simple_ Universal 10] (SInt None).
Definition univ_Boolean := mk_cls [simple_ Universal 1] SBool.
Definition univ_Null := mk_cls [simple_ Universal 5] SNull.
Definition univ_OctetString := mk_cls [simple_ Universal 4] (SOct Ascii).
Definition univ_Sequence := mk_cls [constructed_ Universal 16] (SSeq []).
Definition univ_SequenceOf (e : cid) := mk_cls [constructed_ Universal 16] (SOf false e).
Definition univ_SetOf (e : cid) := mk_cls [constructed_ Universal 17] (SOf false e).
Definition univ_Choice := mk_cls [] (SChoice []).
(** class X(base): one class attribute each *)
Definition implicit (c : cls) (t : tag) := mk_cls (tag_implicitly (c_tags c) t) (c_shape c).
Definition explicit (c : cls) (t : tag) := mk_cls (tag_explicitly (c_tags c) t) (c_shape c).
Definition encoded (c : cls) (e : encoding) := mk_cls (c_tags c) (SOct e).
Definition ranged (c : cls) (lo hi : Z) := mk_cls (c_tags c) (SInt (Some (lo, hi))).
Definition fields (c : cls) (f : list (str * presence * cid)) := mk_cls (c_tags c) (SSeq f).
Definition alternatives (c : cls) (f : list (str * cid)) := mk_cls (c_tags c) (SChoice f).
Definition size1 (c : cls) := mk_cls (c_tags c) (match c_shape c with SOf _ e => SOf true e | s => s end).

Local Open Scope string_scope.
Definition req (n : string) (c : cid) : str * presence * cid := (lit n, Req, c).
Definition opt (n : string) (c : cid) : str * presence * cid := (lit n, Opt, c).
Definition dflt (n : string) (c : cid) (d : asn) : str * presence * cid := (lit n, Def d, c).
Definition alt (n : string) (c : cid) : str * cid := (lit n, c).

Definition Integer0ToMax := ranged univ_Integer 0 2147483647.                                    (* 77-78 *)
Definition LDAPString := encoded univ_OctetString Utf8.                                          (* 81-83 *)
Definition MessageID := Integer0ToMax.                                                           (* 86-88 *)
Definition LDAPOID := univ_OctetString.                                                          (* 91-96 *)
Definition LDAPDN := LDAPString.                                                                 (* 99-104 *)
Definition RelativeLDAPDN := LDAPString.                                                         (* 107-112 *)
Definition AttributeDescription := LDAPString.                                                   (* 115-120 *)
Definition AttributeValue := encoded univ_OctetString Utf8.                                      (* 123-125 *)
Definition AssertionValue := encoded univ_OctetString Utf8.                                      (* 128-130 *)
Definition AttributeValueAssertion := fields univ_Sequence                                       (* 133-138 *)
  [req "attributeDesc" cAttributeDescription; req "assertionValue" cAssertionValue].
Definition MatchingRuleId := LDAPString.                                                         (* 141-143 *)
Definition Vals := univ_SetOf cAttributeValue.                                                   (* 146-148 *)
Definition PartialAttribute := fields univ_Sequence                                              (* 157-162 *)
  [req "type" cAttributeDescription; req "vals" cVals].
Definition Attribute := fields univ_Sequence                                                     (* 165-171 *)
  [req "type" cAttributeDescription; req "vals" cVals].
Definition AttributeList := univ_SequenceOf cAttribute.                                          (* 174-176 *)
Definition Simple := encoded (implicit univ_OctetString (simple_ ContextSpecific 0)) Utf8.       (* 179-182 *)
Definition Credentials := encoded univ_OctetString Utf8.                                         (* 185-187 *)
Definition SaslCredentials := fields (implicit univ_Sequence (constructed_ ContextSpecific 3))   (* 190-196 *)
  [req "mechanism" cLDAPString; opt "credentials" cCredentials].
Definition SicilyPackageDiscovery := encoded (implicit univ_OctetString (simple_ ContextSpecific 9)) Utf8.  (* 200-203 *)
Definition SicilyNegotiate := encoded (implicit univ_OctetString (simple_ ContextSpecific 10)) Utf8.        (* 207-210 *)
Definition SicilyResponse := encoded (implicit univ_OctetString (simple_ ContextSpecific 11)) Utf8.         (* 214-217 *)
Definition AuthenticationChoice := alternatives univ_Choice                                      (* 220-237 *)
  [alt "simple" cSimple; alt "sasl" cSaslCredentials; alt "sicilyPackageDiscovery" cSicilyPackageDiscovery;
   alt "sicilyNegotiate" cSicilyNegotiate; alt "sicilyResponse" cSicilyResponse].
Definition Version := ranged univ_Integer 1 127.                                                 (* 240-242 *)
(** its subTypeSpec is misspelt, so it is not a constraint: 245-355 *)
Definition ResultCode := univ_Enumerated.
Definition URI := LDAPString.                                                                    (* 358-363 *)
(** without the SIZE (1..MAX): 366-369 *)
Definition Referral := implicit (univ_SequenceOf cURI) (constructed_ ContextSpecific 3).
Definition ServerSaslCreds := implicit univ_OctetString (simple_ ContextSpecific 7).             (* 372-375 *)
Definition result_fields :=
  [req "resultCode" cResultCode; req "matchedDN" cLDAPDN; req "diagnosticMessage" cLDAPString; opt "referral" cReferral].
Definition LDAPResult := fields univ_Sequence result_fields.                                     (* 378-427 *)
Definition Criticality := univ_Boolean.                                                          (* 430-432 *)
Definition ControlValue := encoded univ_OctetString Utf8.                                        (* 435-437 *)
Definition Control := fields univ_Sequence                                                       (* 440-447 *)
  [req "controlType" cLDAPOID; dflt "criticality" cCriticality (VBool false); opt "controlValue" cControlValue].
Definition Controls := implicit (univ_SequenceOf cControl) (constructed_ ContextSpecific 0).     (* 450-453 *)
Definition Scope := univ_Enumerated.                                                             (* 456-461 *)
Definition DerefAliases := univ_Enumerated.                                                      (* 464-473 *)
Definition TypesOnly := univ_Boolean.                                                            (* 476-478 *)
Definition Selector := LDAPString.                                                               (* 481-486 *)
Definition AttributeSelection := univ_SequenceOf cSelector.                                      (* 489-493 *)
Definition MatchingRule := implicit MatchingRuleId (simple_ ContextSpecific 1).                  (* 496-498 *)
Definition Type_ := implicit AttributeDescription (simple_ ContextSpecific 2).                   (* 501-503 *)
Definition MatchValue := implicit AssertionValue (simple_ ContextSpecific 3).                    (* 506-508 *)
Definition DnAttributes := implicit univ_Boolean (simple_ ContextSpecific 4).                    (* 511-514 *)
Definition MatchingRuleAssertion := fields univ_Sequence                                         (* 517-526 *)
  [opt "matchingRule" cMatchingRule; opt "type" cType; req "matchValue" cMatchValue;
   dflt "dnAttributes" cDnAttributes (VBool false)].
Definition Initial_ := implicit AssertionValue (simple_ ContextSpecific 0).                      (* 529-531 *)
Definition Any_ := implicit AssertionValue (simple_ ContextSpecific 1).                          (* 534-536 *)
Definition Final_ := implicit AssertionValue (simple_ ContextSpecific 2).                        (* 539-541 *)
Definition Substring := alternatives univ_Choice [alt "initial" cInitial; alt "any" cAny; alt "final" cFinal].  (* 544-552 *)
Definition Substrings := size1 (univ_SequenceOf cSubstring).                                     (* 555-560 *)
Definition SubstringFilter := fields (implicit univ_Sequence (constructed_ ContextSpecific 4))   (* 563-573 *)
  [req "type" cAttributeDescription; req "substrings" cSubstrings].
Definition And := size1 (implicit (univ_SetOf cFilter) (constructed_ ContextSpecific 0)).        (* 576-579, 659 *)
Definition Or := size1 (implicit (univ_SetOf cFilter) (constructed_ ContextSpecific 1)).         (* 582-585, 660 *)
Definition Not := alternatives (explicit univ_Choice (constructed_ ContextSpecific 2))           (* 588-590, 661-662 *)
  [alt "innerNotFilter" cFilter].
Definition EqualityMatch := implicit AttributeValueAssertion (constructed_ ContextSpecific 3).   (* 593-595 *)
Definition GreaterOrEqual := implicit AttributeValueAssertion (constructed_ ContextSpecific 5).  (* 598-600 *)
Definition LessOrEqual := implicit AttributeValueAssertion (constructed_ ContextSpecific 6).     (* 603-605 *)
(** asks for a constructed tag, which tagImplicitly does not take over: 620-622 *)
Definition Present := implicit AttributeDescription (constructed_ ContextSpecific 7).
Definition ApproxMatch := implicit AttributeValueAssertion (constructed_ ContextSpecific 8).     (* 625-627 *)
Definition ExtensibleMatch := implicit MatchingRuleAssertion (constructed_ ContextSpecific 9).   (* 630-632 *)
Definition Filter := alternatives univ_Choice                                                    (* 635-656 *)
  [alt "and" cAnd; alt "or" cOr; alt "not" cNot; alt "equalityMatch" cEqualityMatch; alt "substrings" cSubstringFilter;
   alt "greaterOrEqual" cGreaterOrEqual; alt "lessOrEqual" cLessOrEqual; alt "present" cPresent;
   alt "approxMatch" cApproxMatch; alt "extensibleMatch" cExtensibleMatch].
Definition PartialAttributeList := univ_SequenceOf cPartialAttribute.                            (* 665-668 *)
Definition Operation := univ_Enumerated.                                                         (* 671-677 *)
Definition Change := fields univ_Sequence [req "operation" cOperation; req "modification" cPartialAttribute].  (* 680-689 *)
Definition Changes := univ_SequenceOf cChange.                                                   (* 692-694 *)
Definition DeleteOldRDN := univ_Boolean.                                                         (* 697-699 *)
Definition NewSuperior := implicit LDAPDN (simple_ ContextSpecific 0).                           (* 702-704 *)
Definition RequestName := implicit LDAPOID (simple_ ContextSpecific 0).                          (* 707-709 *)
Definition RequestValue := encoded (implicit univ_OctetString (simple_ ContextSpecific 1)) Utf8. (* 712-715 *)
Definition ResponseName := implicit LDAPOID (simple_ ContextSpecific 10).                        (* 718-720 *)
Definition ResponseValue := encoded (implicit univ_OctetString (simple_ ContextSpecific 11)) Utf8.  (* 723-726 *)
Definition IntermediateResponseName := implicit LDAPOID (simple_ ContextSpecific 0).             (* 729-731 *)
Definition IntermediateResponseValue := encoded (implicit univ_OctetString (simple_ ContextSpecific 1)) Utf8.  (* 734-737 *)
Definition BindRequest := fields (implicit univ_Sequence (constructed_ Application 0))           (* 741-749 *)
  [req "version" cVersion; req "name" cLDAPDN; req "authentication" cAuthenticationChoice].
Definition BindResponse := fields (implicit univ_Sequence (constructed_ Application 1))          (* 752-761 *)
  (result_fields ++ [opt "serverSaslCreds" cServerSaslCreds]).
Definition UnbindRequest := implicit univ_Null (simple_ Application 2).                          (* 764-766 *)
Definition SearchRequest := fields (implicit univ_Sequence (constructed_ Application 3))         (* 769-796 *)
  [req "baseObject" cLDAPDN; req "scope" cScope; req "derefAliases" cDerefAliases; req "sizeLimit" cInteger0ToMax;
   req "timeLimit" cInteger0ToMax; req "typesOnly" cTypesOnly; req "filter" cFilter; req "attributes" cAttributeSelection].
Definition SearchResultReference := size1 (implicit (univ_SequenceOf cURI) (constructed_ Application 19)).  (* 799-804 *)
Definition SearchResultEntry := fields (implicit univ_Sequence (constructed_ Application 4))     (* 807-813 *)
  [req "objectName" cLDAPDN; req "attributes" cPartialAttributeList].
Definition SearchResultDone := implicit LDAPResult (constructed_ Application 5).                 (* 816-818 *)
Definition ModifyRequest := fields (implicit univ_Sequence (constructed_ Application 6))         (* 821-832 *)
  [req "object" cLDAPDN; req "changes" cChanges].
Definition ModifyResponse := implicit LDAPResult (constructed_ Application 7).                   (* 835-837 *)
Definition AddRequest := fields (implicit univ_Sequence (constructed_ Application 8))            (* 840-846 *)
  [req "entry" cLDAPDN; req "attributes" cAttributeList].
Definition AddResponse := implicit LDAPResult (constructed_ Application 9).                      (* 849-851 *)
Definition DelRequest := implicit LDAPDN (simple_ Application 10).                               (* 854-856 *)
Definition DelResponse := implicit LDAPResult (constructed_ Application 11).                     (* 859-861 *)
Definition ModifyDNRequest := fields (implicit univ_Sequence (constructed_ Application 12))      (* 864-874 *)
  [req "entry" cLDAPDN; req "newrdn" cRelativeLDAPDN; req "deleteoldrdn" cDeleteOldRDN; opt "newSuperior" cNewSuperior].
Definition ModifyDNResponse := implicit LDAPResult (constructed_ Application 13).                (* 877-879 *)
Definition CompareRequest := fields (implicit univ_Sequence (constructed_ Application 14))       (* 882-888 *)
  [req "entry" cLDAPDN; req "ava" cAttributeValueAssertion].
Definition CompareResponse := implicit LDAPResult (constructed_ Application 15).                 (* 891-893 *)
Definition AbandonRequest := implicit MessageID (simple_ Application 16).                        (* 896-898 *)
Definition ExtendedRequest := fields (implicit univ_Sequence (constructed_ Application 23))      (* 901-907 *)
  [req "requestName" cRequestName; opt "requestValue" cRequestValue].
Definition ExtendedResponse := fields (implicit univ_Sequence (constructed_ Application 24))     (* 910-921 *)
  (result_fields ++ [opt "responseName" cResponseName; opt "responseValue" cResponseValue]).
Definition IntermediateResponse := fields (implicit univ_Sequence (constructed_ Application 25)) (* 924-930 *)
  [opt "responseName" cIntermediateResponseName; opt "responseValue" cIntermediateResponseValue].
Definition ProtocolOp := alternatives univ_Choice                                                (* 933-977 *)
  [alt "bindRequest" cBindRequest; alt "bindResponse" cBindResponse; alt "unbindRequest" cUnbindRequest;
   alt "searchRequest" cSearchRequest; alt "searchResEntry" cSearchResultEntry; alt "searchResDone" cSearchResultDone;
   alt "searchResRef" cSearchResultReference; alt "modifyRequest" cModifyRequest; alt "modifyResponse" cModifyResponse;
   alt "addRequest" cAddRequest; alt "addResponse" cAddResponse; alt "delRequest" cDelRequest; alt "delResponse" cDelResponse;
   alt "modDNRequest" cModifyDNRequest; alt "modDNResponse" cModifyDNResponse; alt "compareRequest" cCompareRequest;
   alt "compareResponse" cCompareResponse; alt "abandonRequest" cAbandonRequest; alt "extendedReq" cExtendedRequest;
   alt "extendedResp" cExtendedResponse; alt "intermediateResponse" cIntermediateResponse].
Definition LDAPMessage := fields univ_Sequence                                                   (* 980-1010 *)
  [req "messageID" cMessageID; req "protocolOp" cProtocolOp; opt "controls" cControls].
Local Close Scope string_scope.

Definition the_class (c : cid) : cls :=
  match c with
  | cInteger0ToMax => Integer0ToMax | cLDAPString => LDAPString | cMessageID => MessageID | cLDAPOID => LDAPOID
  | cLDAPDN => LDAPDN | cRelativeLDAPDN => RelativeLDAPDN | cAttributeDescription => AttributeDescription
  | cAttributeValue => AttributeValue | cAssertionValue => AssertionValue
  | cAttributeValueAssertion => AttributeValueAssertion | cMatchingRuleId => MatchingRuleId | cVals => Vals
  | cPartialAttribute => PartialAttribute | cAttribute => Attribute | cAttributeList => AttributeList | cSimple => Simple
  | cCredentials => Credentials | cSaslCredentials => SaslCredentials | cSicilyPackageDiscovery => SicilyPackageDiscovery
  | cSicilyNegotiate => SicilyNegotiate | cSicilyResponse => SicilyResponse
  | cAuthenticationChoice => AuthenticationChoice | cVersion => Version | cResultCode => ResultCode | cURI => URI
  | cReferral => Referral | cServerSaslCreds => ServerSaslCreds | cLDAPResult => LDAPResult | cCriticality => Criticality
  | cControlValue => ControlValue | cControl => Control | cControls => Controls | cScope => Scope
  | cDerefAliases => DerefAliases | cTypesOnly => TypesOnly | cSelector => Selector
  | cAttributeSelection => AttributeSelection | cMatchingRule => MatchingRule | cType => Type_ | cMatchValue => MatchValue
  | cDnAttributes => DnAttributes | cMatchingRuleAssertion => MatchingRuleAssertion | cInitial => Initial_ | cAny => Any_
  | cFinal => Final_ | cSubstring => Substring | cSubstrings => Substrings | cSubstringFilter => SubstringFilter
  | cAnd => And | cOr => Or | cNot => Not | cEqualityMatch => EqualityMatch | cGreaterOrEqual => GreaterOrEqual
  | cLessOrEqual => LessOrEqual | cPresent => Present | cApproxMatch => ApproxMatch | cExtensibleMatch => ExtensibleMatch
  | cFilter => Filter | cPartialAttributeList => PartialAttributeList | cOperation => Operation | cChange => Change
  | cChanges => Changes | cDeleteOldRDN => DeleteOldRDN | cNewSuperior => NewSuperior | cRequestName => RequestName
  | cRequestValue => RequestValue | cResponseName => ResponseName | cResponseValue => ResponseValue
  | cIntermediateResponseName => IntermediateResponseName | cIntermediateResponseValue => IntermediateResponseValue
  | cBindRequest => BindRequest | cBindResponse => BindResponse | cUnbindRequest => UnbindRequest
  | cSearchRequest => SearchRequest | cSearchResultReference => SearchResultReference
  | cSearchResultEntry => SearchResultEntry | cSearchResultDone => SearchResultDone | cModifyRequest => ModifyRequest
  | cModifyResponse => ModifyResponse | cAddRequest => AddRequest | cAddResponse => AddResponse | cDelRequest => DelRequest
  | cDelResponse => DelResponse | cModifyDNRequest => ModifyDNRequest | cModifyDNResponse => ModifyDNResponse
  | cCompareRequest => CompareRequest | cCompareResponse => CompareResponse | cAbandonRequest => AbandonRequest
  | cExtendedRequest => ExtendedRequest | cExtendedResponse => ExtendedResponse
  | cIntermediateResponse => IntermediateResponse | cProtocolOp => ProtocolOp | cLDAPMessage => LDAPMessage
  end.
Definition tags (c : cid) : tagset := c_tags (the_class c).
Definition shape_of (c : cid) : shape := c_shape (the_class c).

(** ** The codec: pyasn1.codec.ber, which is trusted to relate exactly these *)
(** the identifier octet (X.690 8.1.2); all numbers in rfc4511.py are below 31 *)
Definition identifier (t : tag) : N :=
  ((match t_class t with Universal => 0 | Application => 64 | ContextSpecific => 128 end)
   + (if t_constructed t then 32 else 0) + t_num t)%N.
Fixpoint wrap (ts : tagset) (P : octets) : octets :=
  match ts with [] => P | t :: ts' => wrap ts' (tlv (identifier t) P) end.
Definition in_range (r : option (Z * Z)) (z : Z) : Prop :=
  match r with None => True | Some (lo, hi) => (lo <= z <= hi)%Z end.
(** the octet strings that encode value [v] of class [c] *)
Fixpoint ber (v : asn) (c : cid) {struct v} : octets :=
  wrap (tags c)
    match v, shape_of c with
    | VInt z, SInt r => given (in_range r z) (int_octets z)
    | VBool b, SBool => bool_octets b
    | VNull, SNull => eps
    | VOct l, SOct _ => raw l
    | VSeq l, SSeq fs =>
        (fix go (l : list (option asn)) (fs : list (str * presence * cid)) {struct l} : octets :=
           match l, fs with
           | [], [] => eps
           | Some v :: l', (_, Def d, c') :: fs' => either (given (v = d) (go l' fs')) (cat (ber v c') (go l' fs'))
           | Some v :: l', (_, _, c') :: fs' => cat (ber v c') (go l' fs')
           | None :: l', (_, Opt, _) :: fs' => go l' fs'
           | _, _ => nothing
           end) l fs
    | VList l, SOf m e => given (m = true -> l <> []) (cats (map (fun v => ber v e) l))
    | VAlt n v, SChoice alts => match dget alts n with Some c' => ber v c' | None => nothing end
    | _, _ => nothing
    end.

(** ** Objects under construction *)
Record obj := mk_obj { o_class : cid; o_val : asn }.
(** rfc4511.X() *)
Definition new (c : cid) : obj :=
  mk_obj c match shape_of c with
           | SSeq fs => VSeq (map (fun f => match snd (fst f) with Def d => Some d | _ => None end) fs)
           | SOf _ _ => VList []
           | SNull => VNull
           | _ => VUnset
           end.
(** text to octets: class attribute encoding; Python refuses lone surrogates, and non-ASCII for us-ascii *)
Definition surrogate (c : N) : bool := ((55296 <=? c) && (c <? 57344))%N.
Definition encode_text (e : encoding) (v : val) : res (list N) :=
  match v with
  | Bytes b => Ok b
  | Text s =>
      match e with
      | Utf8 => if forallb (fun c => negb (surrogate c)) s then Ok (utf8 s) else Raise pyasn1_error
      | Ascii => if forallb (fun c => N.ltb c 128) s then Ok s else Raise pyasn1_error
      end
  end.
(** rfc4511.X(value) *)
Definition new_oct (c : cid) (v : val) : res obj :=
  match shape_of c with
  | SOct e => let* b := encode_text e v in Ok (mk_obj c (VOct b))
  | _ => Raise pyasn1_error
  end.
Definition new_int (c : cid) (z : Z) : res obj :=
  match shape_of c with
  | SInt None => Ok (mk_obj c (VInt z))
  | SInt (Some (lo, hi)) => if ((lo <=? z) && (z <=? hi))%Z then Ok (mk_obj c (VInt z)) else Raise constraint_error
  | _ => Raise pyasn1_error
  end.
Definition new_bool (c : cid) (b : bool) : res obj :=
  match shape_of c with SBool => Ok (mk_obj c (VBool b)) | _ => Raise pyasn1_error end.

Definition tclass_eqb (a b : tclass) : bool :=
  match a, b with Universal, Universal | Application, Application | ContextSpecific, ContextSpecific => true | _, _ => false end.
Definition tag_eqb (a b : tag) : bool :=
  tclass_eqb (t_class a) (t_class b) && Bool.eqb (t_constructed a) (t_constructed b) && N.eqb (t_num a) (t_num b).
Fixpoint tagset_eqb (a b : tagset) : bool :=
  match a, b with [], [] => true | x :: a', y :: b' => tag_eqb x y && tagset_eqb a' b' | _, _ => false end.
Definition kind (s : shape) : N :=
  match s with SInt _ => 0 | SBool => 1 | SNull => 2 | SOct _ => 3 | SSeq _ => 4 | SOf _ _ => 5 | SChoice _ => 6 end%N.
(** an object of class [c] may be a component declared as [want] *)
Definition same_type (want c : cid) : bool :=
  tagset_eqb (tags want) (tags c) && N.eqb (kind (shape_of want)) (kind (shape_of c)).

Fixpoint set_field (fs : list (str * presence * cid)) (l : list (option asn)) (n : str) (x : obj) : res (list (option asn)) :=
  match fs, l with
  | (n', _, c') :: fs', o :: l' =>
      if str_eqb n' n then if same_type c' (o_class x) then Ok (Some (o_val x) :: l') else Raise pyasn1_error
      else let* r := set_field fs' l' n x in Ok (o :: r)
  | _, _ => Raise pyasn1_error
  end.
(** setComponentByName with an object *)
Definition set_by_name (o : obj) (n : str) (x : obj) : res obj :=
  match shape_of (o_class o), o_val o with
  | SSeq fs, VSeq l => let* l' := set_field fs l n x in Ok (mk_obj (o_class o) (VSeq l'))
  | SChoice alts, _ =>
      match dget alts n with
      | Some c' => if same_type c' (o_class x) then Ok (mk_obj (o_class o) (VAlt n (o_val x))) else Raise pyasn1_error
      | None => Raise pyasn1_error
      end
  | _, _ => Raise pyasn1_error
  end.
(** setComponentByPosition: [i] is a position in the list or just past its end *)
Definition set_by_position (o : obj) (i : nat) (x : obj) : res obj :=
  match shape_of (o_class o), o_val o with
  | SOf _ e, VList l =>
      if negb (same_type e (o_class x)) then Raise pyasn1_error
      else if (i <=? List.length l)%nat
      then Ok (mk_obj (o_class o) (VList (firstn i l ++ o_val x :: skipn (S i) l)))
      else Raise pyasn1_error
  | _, _ => Raise pyasn1_error
  end.
(** for i, x in enumerate(...): o.setComponentByPosition(i, make x) *)
Fixpoint fill {A} (make : A -> res obj) (o : obj) (i : nat) (l : list A) : res obj :=
  match l with
  | [] => Ok o
  | x :: l' => let* y := make x in let* o := set_by_position o i y in fill make o (S i) l'
  end.
Definition setn (o : obj) (n : string) (x : obj) : res obj := set_by_name o (lit n) x.
Definition set_oct (o : obj) (n : string) (c : cid) (v : val) : res obj := let* x := new_oct c v in setn o n x.
Definition set_int (o : obj) (n : string) (c : cid) (z : Z) : res obj := let* x := new_int c z in setn o n x.
Definition set_bool (o : obj) (n : string) (c : cid) (b : bool) : res obj := let* x := new_bool c b in setn o n x.

(** ** Building requests *)
Local Open Scope string_scope.
(** LDAP.simple_bind: base.py:404-409; protoutils.V3 *)
Definition simple_bind_request (username password : val) : res obj :=
  let br := new cBindRequest in
  let* br := set_int br "version" cVersion 3 in
  let* br := set_oct br "name" cLDAPDN username in
  let ac := new cAuthenticationChoice in
  let* ac := set_oct ac "simple" cSimple password in
  setn br "authentication" ac.
(** LDAP.sasl_bind: base.py:488-499; EMPTY_DN *)
Definition sasl_bind_request (mech : str) (challenge_response : option val) : res obj :=
  let br := new cBindRequest in
  let* br := set_int br "version" cVersion 3 in
  let* br := set_oct br "name" cLDAPDN (Text []) in
  let ac := new cAuthenticationChoice in
  let sasl := new cSaslCredentials in
  let* sasl := set_oct sasl "mechanism" cLDAPString (Text mech) in
  let* sasl := match challenge_response with
               | Some r => set_oct sasl "credentials" cCredentials r
               | None => Ok sasl
               end in
  let* ac := setn ac "sasl" sasl in
  setn br "authentication" ac.
(** LDAP.unbind: base.py:533; abandon: base.py:1553 *)
Definition unbind_request : res obj := Ok (new cUnbindRequest).
Definition abandon_request (mid : Z) : res obj := new_int cAbandonRequest mid.

(** repr(bytes) and six.text_type of str or bytes (Python 3) *)
Definition hex_digit (n : N) : N := if N.ltb n 10 then (48 + n)%N else (87 + n)%N.
Definition repr_byte (quote c : N) : str :=
  if N.eqb c 92 || N.eqb c quote then [92%N; c]
  else if N.eqb c 10 then lit "\n" else if N.eqb c 13 then lit "\r" else if N.eqb c 9 then lit "\t"
  else if N.ltb c 32 || negb (N.ltb c 127) then (lit "\x" ++ [hex_digit (c / 16); hex_digit (c mod 16)])%list
  else [c].
Definition bytes_repr (b : list N) : str :=
  let quote := if existsb (N.eqb 39) b && negb (existsb (N.eqb 34) b) then 34%N else 39%N in
  ([98%N; quote] ++ flat_map (repr_byte quote) b ++ [quote])%list.
Definition text_type (v : val) : val := Text (match v with Text s => s | Bytes b => bytes_repr b end).

(** LDAP.compare: base.py:755-760 *)
Definition compare_request (dn attr value : val) : res obj :=
  let cr := new cCompareRequest in
  let* cr := set_oct cr "entry" cLDAPDN (text_type dn) in
  let ava := new cAttributeValueAssertion in
  let* ava := set_oct ava "attributeDesc" cAttributeDescription (text_type attr) in
  let* ava := set_oct ava "assertionValue" cAssertionValue (text_type value) in
  setn cr "ava" ava.

(** the inner loops of add and modify: base.py:814-818, 1024-1028 *)
Definition vals_obj (l : list val) : res obj := fill (new_oct cAttributeValue) (new cVals) 0 l.
(** LDAP.add: base.py:807-824 *)
Definition add_attr (kv : val * list val) : res obj :=
  let attr := new cAttribute in
  let* attr := set_oct attr "type" cAttributeDescription (fst kv) in
  let* vals := vals_obj (snd kv) in
  setn attr "vals" vals.
Definition add_request (dn : val) (attrs_dict : list (val * list val)) : res obj :=
  let ar := new cAddRequest in
  let* ar := set_oct ar "entry" cLDAPDN dn in
  let* al := fill add_attr (new cAttributeList) 0 attrs_dict in
  setn ar "attributes" al.
(** LDAP.delete: base.py:919 *)
Definition delete_request (dn : val) : res obj := new_oct cDelRequest dn.
(** LDAP.mod_dn: base.py:942-948 *)
Definition mod_dn_request (dn new_rdn : val) (clean_attr : bool) (new_parent : option val) : res obj :=
  let mdr := new cModifyDNRequest in
  let* mdr := set_oct mdr "entry" cLDAPDN dn in
  let* mdr := set_oct mdr "newrdn" cRelativeLDAPDN new_rdn in
  let* mdr := set_bool mdr "deleteoldrdn" cDeleteOldRDN clean_attr in
  match new_parent with
  | Some p => set_oct mdr "newSuperior" cNewSuperior p
  | None => Ok mdr
  end.
(** Mod.ADD, REPLACE, DELETE: modify.py:12-14, rfc4511.py:677 *)
Inductive mod_op := ModAdd | ModReplace | ModDelete.
Definition operation_of (o : mod_op) : Z := match o with ModAdd => 0 | ModDelete => 1 | ModReplace => 2 end.
(** LDAP.modify, for the modifications that are not skipped: base.py:1004-1034, 1038 *)
Definition change_obj (m : mod_op * val * list val) : res obj :=
  let '(op, attr, vals) := m in
  let c := new cChange in
  let* c := set_int c "operation" cOperation (operation_of op) in
  let pa := new cPartialAttribute in
  let* pa := set_oct pa "type" cAttributeDescription attr in
  let* vs := vals_obj vals in
  let* pa := setn pa "vals" vs in
  setn c "modification" pa.
Definition modify_request (dn : val) (mods : list (mod_op * val * list val)) : res obj :=
  let mr := new cModifyRequest in
  let* mr := set_oct mr "object" cLDAPDN dn in
  let* cl := fill change_obj (new cChanges) 0 mods in
  setn mr "changes" cl.
(** LDAP.send_extended_request: base.py:1148-1153 *)
Definition extended_request (oid : val) (value : option val) : res obj :=
  let xr := new cExtendedRequest in
  let* xr := set_oct xr "requestName" cRequestName oid in
  match value with
  | Some v => set_oct xr "requestValue" cRequestValue v
  | None => Ok xr
  end.

(** _handle_rfc4515_ava: filter.py:143-233 *)
Definition ava_obj (c : cid) (a v : str) : res obj :=
  let ava := new c in
  let* ava := set_oct ava "attributeDesc" cAttributeDescription (Text a) in
  set_oct ava "assertionValue" cAssertionValue (Text v).
Definition sub_obj (s : subkind * str) : res obj :=
  let c := new cSubstring in
  match fst s with
  | Initial => set_oct c "initial" cInitial (Text (snd s))
  | Any => set_oct c "any" cAny (Text (snd s))
  | Final => set_oct c "final" cFinal (Text (snd s))
  end.
Definition subf_obj (a : str) (l : list (subkind * str)) : res obj :=
  let subf := new cSubstringFilter in
  let* subf := set_oct subf "type" cAttributeDescription (Text a) in
  let* subs := fill sub_obj (new cSubstrings) 0 l in
  setn subf "substrings" subs.
Definition ext_obj (a : option str) (dn : bool) (rule : option str) (v : str) : res obj :=
  let xm := new cExtensibleMatch in
  let* xm := set_oct xm "matchValue" cMatchValue (Text v) in
  let* xm := set_bool xm "dnAttributes" cDnAttributes dn in
  let* xm := match a with Some a => set_oct xm "type" cType (Text a) | None => Ok xm end in
  match rule with Some r => set_oct xm "matchingRule" cMatchingRule (Text r) | None => Ok xm end.
(** _handle_standard_filter, _handle_simple_filter, _handle_component, _handle_term: filter.py:111-141, 279-343:
    the objects they make, for the filters of Model_Filter *)
Fixpoint filter_obj (f : filter) : res obj :=
  let fil := new cFilter in
  match f with
  | FAnd l =>
      let* and_set := (fix go (o : obj) (i : nat) (l : list filter) : res obj :=
                         match l with
                         | [] => Ok o
                         | x :: l' => let* y := filter_obj x in let* o := set_by_position o i y in go o (S i) l'
                         end) (new cAnd) 0 l in
      setn fil "and" and_set
  | FOr l =>
      let* or_set := (fix go (o : obj) (i : nat) (l : list filter) : res obj :=
                        match l with
                        | [] => Ok o
                        | x :: l' => let* y := filter_obj x in let* o := set_by_position o i y in go o (S i) l'
                        end) (new cOr) 0 l in
      setn fil "or" or_set
  | FNot g =>
      let* inner := filter_obj g in
      let* not_filter := setn (new cNot) "innerNotFilter" inner in
      setn fil "not" not_filter
  | FEq a v => let* ava := ava_obj cEqualityMatch a v in setn fil "equalityMatch" ava
  | FApprox a v => let* ava := ava_obj cApproxMatch a v in setn fil "approxMatch" ava
  | FGe a v => let* ava := ava_obj cGreaterOrEqual a v in setn fil "greaterOrEqual" ava
  | FLe a v => let* ava := ava_obj cLessOrEqual a v in setn fil "lessOrEqual" ava
  | FPresent a => set_oct fil "present" cPresent (Text a)
  | FSubs a l => let* subf := subf_obj a l in setn fil "substrings" subf
  | FExt a dn rule v => let* xm := ext_obj a dn rule v in setn fil "extensibleMatch" xm
  end.

(** constants.py: Scope, DerefAliases; rfc4511.py:456-473 *)
Definition scope_number (s : scope) : Z := match s with BaseScope => 0 | OneScope => 1 | SubScope => 2 end.
(** LDAP.search: base.py:692-721 *)
Definition search_request (w : wire_search) : res obj :=
  let r := new cSearchRequest in
  let* r := set_oct r "baseObject" cLDAPDN (Text (w_base w)) in
  let* r := set_int r "scope" cScope (scope_number (w_scope w)) in
  let* r := set_int r "derefAliases" cDerefAliases (Z.of_N (w_deref w)) in
  let* r := set_int r "sizeLimit" cInteger0ToMax (w_size w) in
  let* r := set_int r "timeLimit" cInteger0ToMax (w_time w) in
  let* r := set_bool r "typesOnly" cTypesOnly (w_types_only w) in
  let* f := filter_obj (w_filter w) in
  let* r := setn r "filter" f in
  let* attrs := fill (fun desc => new_oct cLDAPString (Text desc)) (new cAttributeSelection) 0 (w_attrs w) in
  setn r "attributes" attrs.

(** Control.prepare: controls.py:127-133 *)
Definition truthy (v : val) : bool := match v with Text [] | Bytes [] => false | _ => true end.
Record ctrl_args := mk_ca { ca_oid : val; ca_crit : bool; ca_value : val }.
Definition control_obj (a : ctrl_args) : res obj :=
  let c := new cControl in
  let* c := set_oct c "controlType" cLDAPOID (ca_oid a) in
  let* c := set_bool c "criticality" cCriticality (ca_crit a) in
  if truthy (ca_value a) then set_oct c "controlValue" cControlValue (ca_value a) else Ok c.
(** process_kwds: controls.py:28, 44-57: None when there are none *)
Definition controls_obj (l : list ctrl_args) : res (option obj) :=
  match l with
  | [] => Ok None
  | _ => let* cs := fill control_obj (new cControls) 0 l in Ok (Some cs)
  end.
(** len(controls) of an rfc4511.Controls; truth value *)
Definition nonempty (o : obj) : bool := match o_val o with VList [] => false | _ => true end.
(** protoutils.pack: 22-31 *)
Definition pack (mid : Z) (op : str) (x : obj) (controls : option obj) : res obj :=
  let lm := new cLDAPMessage in
  let* lm := set_int lm "messageID" cMessageID mid in
  let* po := set_by_name (new cProtocolOp) op x in
  let* lm := setn lm "protocolOp" po in
  match controls with
  | Some cs => if nonempty cs then setn lm "controls" cs else Ok lm
  | None => Ok lm
  end.
(** what a method sends: its request object, the controls, LDAPSocket.send_message (net.py:276-303) *)
Definition message (mid : Z) (op : string) (request : res obj) (ctrls : list ctrl_args) : res obj :=
  let* x := request in
  let* cs := controls_obj ctrls in
  pack mid (lit op) x cs.
Local Close Scope string_scope.
