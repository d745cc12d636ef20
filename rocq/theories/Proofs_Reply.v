(** Reading replies *)
From Verif Require Import PyBase Model_Ldif Model_Controls Spec_X690 Model_Wire Spec_Wire Proofs_X690 Proofs_Wire Proofs_Wire3 Proofs_Wire4
  Model_Reply Spec_Reply.
Local Open Scope string_scope.

Lemma received_value m b lm : e_message m b -> received b lm -> lm = mk_obj cLDAPMessage (v_message m).
Proof. intros A [C B]. destruct lm as [c v]. cbn [o_class o_val] in *. subst c. rewrite (message_value _ _ _ A B). reflexivity. Qed.

Definition ctrls_obj (m : rmessage) : option obj := option_map (fun l => mk_obj cControls (VList (map v_control l))) (rm_controls m).
(** the name and object of an operation *)
Definition op_name (o : rop) : string :=
  match o with
  | RBindRequest _ _ _ => "bindRequest" | RBindResponse _ _ => "bindResponse" | RUnbindRequest => "unbindRequest"
  | RSearchRequest _ _ _ _ _ _ _ _ => "searchRequest" | RSearchResultEntry _ _ => "searchResEntry" | RSearchResultDone _ => "searchResDone"
  | RSearchResultReference _ => "searchResRef" | RModifyRequest _ _ => "modifyRequest" | RModifyResponse _ => "modifyResponse"
  | RAddRequest _ _ => "addRequest" | RAddResponse _ => "addResponse" | RDelRequest _ => "delRequest" | RDelResponse _ => "delResponse"
  | RModifyDNRequest _ _ _ _ => "modDNRequest" | RModifyDNResponse _ => "modDNResponse" | RCompareRequest _ _ _ => "compareRequest"
  | RCompareResponse _ => "compareResponse" | RAbandonRequest _ => "abandonRequest" | RExtendedRequest _ _ => "extendedReq"
  | RExtendedResponse _ _ _ => "extendedResp" | RIntermediateResponse _ _ => "intermediateResponse"
  end.
Definition op_class (o : rop) : cid :=
  match o with
  | RBindRequest _ _ _ => cBindRequest | RBindResponse _ _ => cBindResponse | RUnbindRequest => cUnbindRequest
  | RSearchRequest _ _ _ _ _ _ _ _ => cSearchRequest | RSearchResultEntry _ _ => cSearchResultEntry | RSearchResultDone _ => cSearchResultDone
  | RSearchResultReference _ => cSearchResultReference | RModifyRequest _ _ => cModifyRequest | RModifyResponse _ => cModifyResponse
  | RAddRequest _ _ => cAddRequest | RAddResponse _ => cAddResponse | RDelRequest _ => cDelRequest | RDelResponse _ => cDelResponse
  | RModifyDNRequest _ _ _ _ => cModifyDNRequest | RModifyDNResponse _ => cModifyDNResponse | RCompareRequest _ _ _ => cCompareRequest
  | RCompareResponse _ => cCompareResponse | RAbandonRequest _ => cAbandonRequest | RExtendedRequest _ _ => cExtendedRequest
  | RExtendedResponse _ _ _ => cExtendedResponse | RIntermediateResponse _ _ => cIntermediateResponse
  end.
Definition op_value (o : rop) : asn := match v_op o with VAlt _ v => v | v => v end.
Lemma v_op_parts o : v_op o = VAlt (lit (op_name o)) (op_value o).
Proof. destruct o; reflexivity. Qed.
Lemma lit_eqb a b : str_eqb (lit a) (lit b) = String.eqb a b.
Proof.
  revert b. induction a as [|x a IH]; destruct b as [|y b]; try reflexivity.
  change (lit (String x a)) with (N_of_ascii x :: lit a). change (lit (String y b)) with (N_of_ascii y :: lit b).
  cbn [str_eqb String.eqb]. rewrite IH. destruct (Ascii.eqb_spec x y) as [->|N].
  - rewrite N.eqb_refl. reflexivity.
  - destruct (N.eqb_spec (N_of_ascii x) (N_of_ascii y)) as [E|_]; [|reflexivity].
    exfalso. apply N. rewrite <- (ascii_N_embedding x), <- (ascii_N_embedding y), E. reflexivity.
Qed.
Lemma unpack_message op m : unpack op (mk_obj cLDAPMessage (v_message m)) =
  if String.eqb (op_name (rm_op m)) op then Ok (mk_obj (op_class (rm_op m)) (op_value (rm_op m)), ctrls_obj m) else Raise UnexpectedResponseType.
Proof.
  unfold unpack, v_message.
  change (component (mk_obj cLDAPMessage (VSeq [Some (VInt (rm_id m)); Some (v_op (rm_op m)); option_map (fun l => VList (map v_control l)) (rm_controls m)])) "protocolOp")
    with (Some (mk_obj cProtocolOp (v_op (rm_op m)))). cbn [bind].
  rewrite v_op_parts.
  assert (E : chosen (mk_obj cProtocolOp (VAlt (lit (op_name (rm_op m))) (op_value (rm_op m)))) = Some (lit (op_name (rm_op m)), mk_obj (op_class (rm_op m)) (op_value (rm_op m)))).
  { destruct (rm_op m); reflexivity. }
  rewrite E, lit_eqb. destruct (String.eqb (op_name (rm_op m)) op); [|reflexivity]. f_equal. f_equal. unfold ctrls_obj.
  destruct (rm_controls m); reflexivity.
Qed.
Lemma code_value o r op : answer op o = Some r -> code_of (mk_obj (op_class o) (op_value o)) = rr_code r /\ op_name o = op.
Proof.
  destruct o; cbn [answer]; intro H; try discriminate H;
  match type of H with (if ?t then _ else _) = _ => destruct t eqn:E; [|discriminate H] end;
  apply String.eqb_eq in E; injection H as <-; (split; [reflexivity | symmetry; exact E]).
Qed.
Definition result_ops : list string :=
  ["bindResponse"; "searchResDone"; "modifyResponse"; "addResponse"; "delResponse"; "modDNResponse"; "compareResponse"; "extendedResp"].
Lemma answer_none o op : answer op o = None -> In op result_ops -> String.eqb (op_name o) op = false.
Proof.
  intros H I. destruct (String.eqb_spec (op_name o) op) as [E|]; [|reflexivity]. exfalso. subst op.
  destruct o; cbn [op_name] in I; try (cbn [answer op_name] in H; rewrite String.eqb_refl in H; discriminate H);
  unfold result_ops in I; cbn [In] in I; repeat destruct I as [I|I]; try discriminate I; exact I.
Qed.

Section R.
  Context (decode : list N -> option str) (absent : str).
  Lemma control_pairs_ok l : Forall (fun c => Forall (fun x => (x < 128)%N) (rc_type c)) l ->
    control_pairs decode absent (map (mk_obj cControl) (map v_control l)) =
    Ok (map (fun c => (rc_type c, match rc_value c with Some v => v | None => absent end)) l).
  Proof.
    induction 1 as [|c l Hc _ IH]; [reflexivity|]. destruct c as [t k v]. cbn [rc_type] in Hc.
    cbn [map control_pairs]. unfold v_control. cbn [rc_type rc_critical rc_value].
    match goal with |- context [component (mk_obj cControl ?x) "controlType"] => change (component (mk_obj cControl x) "controlType") with (Some (mk_obj cLDAPOID (VOct t))) end.
    match goal with |- context [component (mk_obj cControl ?x) "controlValue"] => change (component (mk_obj cControl x) "controlValue") with (match option_map VOct v with Some v => Some (mk_obj cControlValue v) | None => None end) end.
    assert (E : text_of decode absent (mk_obj cLDAPOID (VOct t)) = Ok t).
    { change (text_of decode absent (mk_obj cLDAPOID (VOct t))) with (if forallb (fun c => N.ltb c 128) t then Ok t else Raise unicode_error).
      replace (forallb (fun c => N.ltb c 128) t) with true; [reflexivity|]. symmetry. apply forallb_forall. intros x Hx. rewrite Forall_forall in Hc. apply N.ltb_lt, Hc, Hx. }
    cbn [text_or_absent]. rewrite E. cbn [bind]. unfold v_control in IH. rewrite IH. cbn [bind]. destruct v; reflexivity.
  Qed.
  Lemma response_controls_ok m : oids_ascii m -> response_controls decode absent (ctrls_obj m) = Ok (controls_in absent m).
  Proof.
    unfold oids_ascii, ctrls_obj, controls_in. destruct (rm_controls m) as [l|]; [|reflexivity]. intro H. cbn [option_map response_controls].
    change (elements (mk_obj cControls (VList (map v_control l)))) with (map (mk_obj cControl) (map v_control l)). apply control_pairs_ok, H.
  Qed.
  Context (reg : registry) (builtin : str -> bool).
  Lemma handled_ok m : oids_ascii m -> handled decode absent reg builtin [] (ctrls_obj m) =
    let (r, attrs) := handle_response reg builtin [] (controls_in absent m) in let* _ := r in Ok attrs.
  Proof. intro H. unfold handled. rewrite response_controls_ok by exact H. reflexivity. Qed.
  Lemma text_utf8 c b : shape_of c = SOct Utf8 -> text_of decode absent (mk_obj c (VOct b)) = match decode b with Some s => Ok s | None => Raise unicode_error end.
  Proof. intro S. unfold text_of. cbn [o_class o_val]. rewrite S. reflexivity. Qed.
  Lemma seq_octs c m e l : shape_of c = SOf m e -> shape_of e = SOct Utf8 -> seq_to_list decode absent (mk_obj c (v_octs l)) = map (value_of decode) l.
  Proof.
    intros S T. unfold seq_to_list, elements, v_octs. cbn [o_class o_val]. rewrite S, !map_map. apply map_ext. intro b.
    rewrite text_utf8 by exact T. unfold value_of. destruct (decode b); reflexivity.
  Qed.
  Lemma dset_new {A} (d : list (str * A)) k v : ~ In k (map fst d) -> dset d k v = (d ++ [(k, v)])%list.
  Proof.
    induction d as [|[k' v'] d IH]; intro H; [reflexivity|]. cbn [dset map fst List.app] in *.
    destruct (str_eqb k' k) eqn:E; [apply str_eqb_eq in E; subst; exfalso; apply H; left; reflexivity|].
    f_equal. apply IH. intro K. apply H. right. exact K.
  Qed.
  Lemma entry_attrs_ok l : forall names acc, map (fun a => decode (fst a)) l = map Some names -> NoDup (map fst acc ++ names)%list ->
    entry_attrs decode absent (map (mk_obj cPartialAttribute) (map v_attr l)) acc =
    Ok (acc ++ combine names (map (fun a => map (value_of decode) (snd a)) l))%list.
  Proof.
    induction l as [|[t vs] l IH]; intros [|n names] acc E D; try discriminate E; cbn [map entry_attrs combine]; [rewrite app_nil_r; reflexivity|].
    cbn [map fst] in E. assert (E1 : decode t = Some n) by (injection E; auto). assert (E2 : map (fun a => decode (fst a)) l = map Some names) by (injection E; auto).
        match goal with |- context [component (mk_obj cPartialAttribute ?x) "type"] => change (component (mk_obj cPartialAttribute x) "type") with (Some (mk_obj cAttributeDescription (VOct t))) end.
    match goal with |- context [component (mk_obj cPartialAttribute ?x) "vals"] => change (component (mk_obj cPartialAttribute x) "vals") with (Some (mk_obj cVals (v_octs vs))) end.
    cbn [text_or_absent]. rewrite text_utf8 by reflexivity. rewrite E1. cbn [bind]. rewrite (seq_octs _ false cAttributeValue) by reflexivity.
    rewrite dset_new.
    - rewrite (IH names); [|exact E2|].
      + rewrite <- app_assoc. reflexivity.
      + rewrite map_app. cbn [map fst]. rewrite <- app_assoc. exact D.
    - intro K. apply NoDup_remove_2 in D. apply D. apply in_or_app. left. exact K.
  Qed.
End R.
