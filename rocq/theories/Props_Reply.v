(** * C81: what the methods make of the replies *)
From Verif Require Import PyBase Model_Ldif Model_Controls Spec_X690 Model_Wire Spec_Wire Spec_Wire2 Proofs_X690 Proofs_Wire Proofs_Wire3 Proofs_Wire4 Proofs_Wire6
  Model_Reply Spec_Reply Proofs_Reply Proofs_Utf8.
Local Open Scope string_scope.

Section C81.
  Context (decode : list N -> option str) (absent : str) (reg : registry) (builtin : str -> bool).

  (** Every encoding of an RFC 4511 message can be read, and in one way. *)
  Theorem C81_readable m b : e_message m b -> exists lm, received b lm /\ forall lm', received b lm' -> lm' = lm.
  Proof.
    intro H. exists (mk_obj cLDAPMessage (v_message m)). split.
    - split; [reflexivity|]. apply message_ber in H. apply H.
    - intros lm' R. exact (received_value _ _ _ H R).
  Qed.

  (** bind, modify, delete and mod_dn: a reply of another kind is refused; success (code 0) ends the call with the
      response controls; any other code raises LDAPError. *)
  Theorem C81_result op m b lm : In op ["bindResponse"; "modifyResponse"; "delResponse"; "modDNResponse"] ->
    e_message m b -> received b lm -> oids_ascii m ->
    success_result decode absent reg builtin op lm =
    match answer op (rm_op m) with
    | None => Raise UnexpectedResponseType
    | Some r => if (rr_code r =? 0)%Z
                then let (o, attrs) := handle_response reg builtin [] (controls_in absent m) in let* _ := o in Ok attrs
                else Raise LDAPError
    end.
  Proof.
    intros Hop H R A. rewrite (received_value _ _ _ H R). unfold success_result. rewrite unpack_message.
    destruct (answer op (rm_op m)) as [r|] eqn:E.
    - destruct (code_value _ _ _ E) as [C N]. rewrite (proj2 (String.eqb_eq _ _) N). cbn [bind]. rewrite C, handled_ok by exact A. reflexivity.
    - rewrite answer_none; [reflexivity | exact E|]. unfold result_ops. cbn [In] in *. tauto.
  Qed.
  Theorem C81_add m b lm : e_message m b -> received b lm -> oids_ascii m ->
    add_result decode absent reg builtin lm =
    match answer "addResponse" (rm_op m) with
    | None => Raise UnexpectedResponseType
    | Some r => if (rr_code r =? 0)%Z
                then let (o, attrs) := handle_response reg builtin [] (controls_in absent m) in let* _ := o in Ok attrs
                else Raise LDAPError
    end.
  Proof.
    intros H R A. rewrite (received_value _ _ _ H R). unfold add_result. rewrite unpack_message.
    destruct (answer "addResponse" (rm_op m)) as [r|] eqn:E.
    - destruct (code_value _ _ _ E) as [C N]. rewrite (proj2 (String.eqb_eq _ _) N). cbn [bind]. rewrite C, handled_ok by exact A. reflexivity.
    - rewrite answer_none; [reflexivity | exact E | unfold result_ops; cbn [In]; tauto].
  Qed.
  (** compare is true on compareTrue (6), false on compareFalse (5), and an error otherwise. *)
  Theorem C81_compare m b lm : e_message m b -> received b lm -> oids_ascii m ->
    compare_result decode absent reg builtin lm =
    match rm_op m with
    | RCompareResponse r =>
        if (rr_code r =? 6)%Z || (rr_code r =? 5)%Z
        then let (o, attrs) := handle_response reg builtin [] (controls_in absent m) in let* _ := o in Ok ((rr_code r =? 6)%Z, attrs)
        else Raise LDAPError
    | _ => Raise UnexpectedResponseType
    end.
  Proof.
    intros H R A. rewrite (received_value _ _ _ H R). unfold compare_result. rewrite unpack_message.
    destruct (rm_op m) eqn:E; try reflexivity. cbn [op_name String.eqb Ascii.eqb Bool.eqb bind].
    assert (C : code_of (mk_obj (op_class (RCompareResponse r)) (op_value (RCompareResponse r))) = rr_code r) by reflexivity. rewrite C.
    rewrite handled_ok by exact A. unfold RESULT_compareTrue, RESULT_compareFalse. destruct (handle_response _ _ _ _) as [o attrs].
    destruct (rr_code r =? 6)%Z; cbn [orb bind]; [destruct o; reflexivity|]. destruct (rr_code r =? 5)%Z; cbn [bind]; [destruct o; reflexivity | reflexivity].
  Qed.
  (** a SASL bind goes on with the server's challenge on saslBindInProgress (14), and ends on success *)
  Theorem C81_sasl m b lm : e_message m b -> received b lm -> oids_ascii m ->
    sasl_result decode absent reg builtin lm =
    match rm_op m with
    | RBindResponse r creds =>
        if (rr_code r =? 14)%Z then Ok (inl creds)
        else if (rr_code r =? 0)%Z
        then let (o, attrs) := handle_response reg builtin [] (controls_in absent m) in let* _ := o in Ok (inr attrs)
        else Raise LDAPError
    | _ => Raise UnexpectedResponseType
    end.
  Proof.
    intros H R A. rewrite (received_value _ _ _ H R). unfold sasl_result. rewrite unpack_message.
    destruct (rm_op m) eqn:E; try reflexivity. cbn [op_name String.eqb Ascii.eqb Bool.eqb bind].
    assert (C : code_of (mk_obj (op_class (RBindResponse r creds)) (op_value (RBindResponse r creds))) = rr_code r) by reflexivity. rewrite C.
    assert (D : option_map octets_of (component (mk_obj (op_class (RBindResponse r creds)) (op_value (RBindResponse r creds))) "serverSaslCreds") = creds) by (destruct creds; reflexivity).
    rewrite D, handled_ok by exact A. unfold RESULT_saslBindInProgress, RESULT_success.
    destruct (rr_code r =? 14)%Z; [reflexivity|]. destruct (rr_code r =? 0)%Z; [|reflexivity]. destruct (handle_response _ _ _ _) as [[u|e] attrs]; reflexivity.
  Qed.

  (** A search result entry has the DN and the attributes that were sent, in their order, with all values. *)
  Theorem C81_entry m b lm dn attrs dn_text names : e_message m b -> received b lm -> oids_ascii m ->
    rm_op m = RSearchResultEntry dn attrs -> decode dn = Some dn_text ->
    map (fun a => decode (fst a)) attrs = map Some names -> NoDup names ->
    search_message decode absent lm =
    Ok (FEntry dn_text (combine names (map (fun a => map (value_of decode) (snd a)) attrs)), Ok (controls_in absent m)).
  Proof.
    intros H R A E D N U. rewrite (received_value _ _ _ H R). unfold search_message. rewrite !unpack_message, E.
    cbn [op_name String.eqb Ascii.eqb Bool.eqb]. rewrite response_controls_ok by exact A.
    change (match component (mk_obj (op_class (RSearchResultEntry dn attrs)) (op_value (RSearchResultEntry dn attrs))) "attributes" with
            | Some a => elements a | None => [] end) with (map (mk_obj cPartialAttribute) (map v_attr attrs)).
    rewrite (entry_attrs_ok decode absent attrs names []) by assumption.
    cbn [bind List.app]. unfold get_string_component.
    change (component (mk_obj (op_class (RSearchResultEntry dn attrs)) (op_value (RSearchResultEntry dn attrs))) "objectName") with (Some (mk_obj cLDAPDN (VOct dn))).
    cbn [text_or_absent]. rewrite text_utf8 by reflexivity. rewrite D. reflexivity.
  Qed.
  (** No value is changed: its octets are those sent, and it is text whenever they are UTF-8. *)
  Theorem C81_value_octets : decodes decode -> forall b, as_octets (value_of decode b) = b /\
    (forall s, utf8 s = b -> Forall scalar s -> value_of decode b = Text s).
  Proof.
    intros HD b. unfold value_of. split.
    - destruct (decode b) as [s|] eqn:E; [|reflexivity]. apply HD in E. apply E.
    - intros s E S. rewrite (proj2 (HD b s) (conj E S)). reflexivity.
  Qed.
  (** The end of the results gives the code and the referral; a reference gives its URIs. *)
  Theorem C81_done_and_references m b lm : e_message m b -> received b lm -> oids_ascii m ->
    match rm_op m with
    | RSearchResultEntry _ _ => True
    | RSearchResultDone r =>
        search_message decode absent lm =
        Ok (FDone (rr_code r) (map (value_of decode) (match rr_referral r with Some l => l | None => [] end)), Ok (controls_in absent m))
    | RSearchResultReference uris => search_message decode absent lm = Ok (FRef (map (value_of decode) uris), Ok (controls_in absent m))
    | _ => search_message decode absent lm = Raise UnexpectedResponseType
    end.
  Proof.
    intros H R A. rewrite (received_value _ _ _ H R). unfold search_message. rewrite !unpack_message.
    destruct (rm_op m) eqn:E; try reflexivity; try exact I; cbn [op_name String.eqb Ascii.eqb Bool.eqb bind]; rewrite response_controls_ok by exact A.
    - assert (C : code_of (mk_obj (op_class (RSearchResultDone r)) (op_value (RSearchResultDone r))) = rr_code r) by reflexivity. rewrite C.
      destruct (rr_referral r) as [l|] eqn:F.
      + assert (G : component (mk_obj (op_class (RSearchResultDone r)) (op_value (RSearchResultDone r))) "referral" = Some (mk_obj cReferral (v_octs l))).
        { destruct r as [c x y z]. cbn [rr_referral] in F. subst z. reflexivity. }
        rewrite G. rewrite (seq_octs decode absent _ false cURI) by reflexivity. reflexivity.
      + assert (G : component (mk_obj (op_class (RSearchResultDone r)) (op_value (RSearchResultDone r))) "referral" = None).
        { destruct r as [c x y z]. cbn [rr_referral] in F. subst z. reflexivity. }
        rewrite G. reflexivity.
    - assert (G : seq_to_list decode absent (mk_obj (op_class (RSearchResultReference uris)) (op_value (RSearchResultReference uris))) = map (value_of decode) uris).
      { exact (seq_octs decode absent cSearchResultReference true cURI uris eq_refl eq_refl). }
      rewrite G. reflexivity.
  Qed.
  (** who_am_i: the value of a successful extended response; a response of another kind or code is an error. *)
  Theorem C81_who_am_i m b lm : e_message m b -> received b lm ->
    match rm_op m with
    | RExtendedResponse r _ v =>
        if (rr_code r =? 0)%Z
        then forall x s, v = Some x -> decode x = Some s -> who_am_i_result decode absent lm = Ok s
        else who_am_i_result decode absent lm = Raise LDAPError
    | RIntermediateResponse _ _ => True
    | _ => who_am_i_result decode absent lm = Raise UnexpectedResponseType
    end.
  Proof.
    intros H R. rewrite (received_value _ _ _ H R). unfold who_am_i_result, handle_msg. rewrite !unpack_message.
    destruct (rm_op m) eqn:E; try reflexivity; try exact I; cbn [op_name String.eqb Ascii.eqb Bool.eqb bind].
    assert (C : code_of (mk_obj (op_class (RExtendedResponse r name v)) (op_value (RExtendedResponse r name v))) = rr_code r) by reflexivity.
    rewrite C. unfold RESULT_success. destruct (rr_code r =? 0)%Z; [|reflexivity]. intros x s -> D. cbn [andb negb bind].
    unfold get_string_component.
    change (component (mk_obj (op_class (RExtendedResponse r name (Some x))) (op_value (RExtendedResponse r name (Some x)))) "responseValue") with (Some (mk_obj cResponseValue (VOct x))).
    cbn [text_or_absent]. rewrite text_utf8 by reflexivity. rewrite D. reflexivity.
  Qed.
  (** Extended operations: intermediate responses go on, the extended response ends, others are refused. *)
  Theorem C81_extended need m b lm : e_message m b -> received b lm ->
    match rm_op m with
    | RIntermediateResponse _ _ => exists o, handle_msg need lm = Ok (o, false)
    | RExtendedResponse r _ _ => if need && negb (rr_code r =? 0)%Z then handle_msg need lm = Raise LDAPError else exists o, handle_msg need lm = Ok (o, true)
    | _ => handle_msg need lm = Raise UnexpectedResponseType
    end.
  Proof.
    intros H R. rewrite (received_value _ _ _ H R). unfold handle_msg. rewrite !unpack_message.
    destruct (rm_op m) eqn:E; try reflexivity; cbn [op_name String.eqb Ascii.eqb Bool.eqb bind].
    - assert (C : code_of (mk_obj (op_class (RExtendedResponse r name v)) (op_value (RExtendedResponse r name v))) = rr_code r) by reflexivity.
      rewrite C. unfold RESULT_success. destruct (need && negb (rr_code r =? 0)%Z); [reflexivity | eauto].
    - eauto.
  Qed.
End C81.

(** A UTF-8 decoder as assumed exists. *)
Theorem C81_decoder_exists : exists decode, decodes decode.
Proof. exists utf8_dec. exact utf8_decodes. Qed.

(** ** A concrete reply: an entry dn "o=é" with attributes of text, of bytes, and without values *)
Definition ex_entry : rmessage :=
  mk_rm 7 (RSearchResultEntry (utf8 [111; 61; 233]%N) [(lit "cn", [lit "x"; utf8 [8364]%N]); (lit "jpegPhoto", [[255; 216]%N]); (lit "sn", [])]) None.
Example C81_nonvacuous : exists b lm, e_message ex_entry b /\ received b lm /\
  search_message utf8_dec [] lm = Ok (FEntry [111; 61; 233]%N [(lit "cn", [Text (lit "x"); Text [8364]%N]); (lit "jpegPhoto", [Bytes [255; 216]%N]); (lit "sn", [])], Ok []).
Proof.
  assert (V : valid_message ex_entry) by (split; [split; discriminate | exact I]).
  destruct (some_message _ V) as (b & Hb & _); [reflexivity|]. destruct (C81_readable _ _ Hb) as (lm & R & _).
  exists b, lm. split; [exact Hb|]. split; [exact R|].
  rewrite (C81_entry utf8_dec [] ex_entry b lm _ _ [111; 61; 233]%N (map lit ["cn"; "jpegPhoto"; "sn"]) Hb R I eq_refl); [vm_compute; reflexivity | vm_compute; reflexivity | vm_compute; reflexivity |].
  repeat constructor; cbn; intuition discriminate.
Qed.

Print Assumptions C81_readable.
Print Assumptions C81_result.
Print Assumptions C81_add.
Print Assumptions C81_compare.
Print Assumptions C81_sasl.
Print Assumptions C81_entry.
Print Assumptions C81_value_octets.
Print Assumptions C81_done_and_references.
Print Assumptions C81_who_am_i.
Print Assumptions C81_extended.
Print Assumptions C81_decoder_exists.
