(** * Model of reading replies: protoutils.py (34-53, 63-70), base.py (365-383, 504-527, 766-778, 829-839,
    1170, 1572-1621, 1634-1650) and controls.py (60-81), on decoded protocol objects (Model_Wire).
    [decode] is bytes.decode('utf-8'); [absent] is what str() gives for an object without a value, which
    differs between versions of pyasn1.  A decoded object always is a value (isValue in unpack).
    Not modelled here: the objects made of the replies, logging, and that get_string_component
    turns a PyAsn1Error into an empty text (it does so here for octets that are not text). *)
From Verif Require Import PyBase Model_Ldif Model_Controls Model_Search Model_Wire.
Local Open Scope string_scope.

(** getComponentByName on a Sequence; None: an optional component that is not there *)
Fixpoint find_field (fs : list (str * presence * cid)) (l : list (option asn)) (n : str) : option obj :=
  match fs, l with
  | (n', _, c) :: fs', o :: l' =>
      if str_eqb n' n then match o with Some v => Some (mk_obj c v) | None => None end else find_field fs' l' n
  | _, _ => None
  end.
Definition component (o : obj) (n : string) : option obj :=
  match shape_of (o_class o), o_val o with
  | SSeq fs, VSeq l => find_field fs l (lit n)
  | _, _ => None
  end.
(** Choice: getName() and getComponent() *)
Definition chosen (o : obj) : option (str * obj) :=
  match shape_of (o_class o), o_val o with
  | SChoice alts, VAlt n v => match dget alts n with Some c => Some (n, mk_obj c v) | None => None end
  | _, _ => None
  end.
(** SequenceOf, SetOf: getComponentByPosition(0), ... *)
Definition elements (o : obj) : list obj :=
  match shape_of (o_class o), o_val o with
  | SOf _ c, VList l => map (mk_obj c) l
  | _, _ => []
  end.
Definition unicode_error : exn := OtherExn 33.

Section Reply.
  Context (decode : list N -> option str) (absent : str).

  (** six.text_type of an OctetString: its class's encoding *)
  Definition text_of (o : obj) : res str :=
    match shape_of (o_class o), o_val o with
    | SOct Utf8, VOct b => match decode b with Some s => Ok s | None => Raise unicode_error end
    | SOct Ascii, VOct b => if forallb (fun c => N.ltb c 128) b then Ok b else Raise unicode_error
    | _, _ => Ok absent
    end.
  (** six.binary_type *)
  Definition octets_of (o : obj) : list N := match o_val o with VOct b => b | _ => [] end.
  Definition text_or_absent (o : option obj) : res str := match o with Some x => text_of x | None => Ok absent end.
  (** get_string_component: protoutils.py:63-70 *)
  Definition get_string_component (o : obj) (n : string) : str :=
    match text_or_absent (component o n) with Ok s => s | Raise _ => [] end.
  (** seq_to_list: protoutils.py:46-54 *)
  Definition seq_to_list (o : obj) : list val :=
    map (fun x => match text_of x with Ok s => Text s | Raise _ => Bytes (octets_of x) end) (elements o).

  (** unpack: protoutils.py:34-44 *)
  Definition unpack (op : string) (lm : obj) : res (obj * option obj) :=
    match component lm "protocolOp" with
    | Some po =>
        match chosen po with
        | Some (got_op, ret) => if str_eqb got_op (lit op) then Ok (ret, component lm "controls") else Raise UnexpectedResponseType
        | None => Raise UnexpectedResponseType
        end
    | None => Raise UnexpectedResponseType
    end.
  Definition code_of (o : obj) : Z := match component o "resultCode" with Some x => match o_val x with VInt z => z | _ => -1 end | None => -1 end.
  (** protoutils.py:12-16; rfc4511.py:307-350 *)
  Definition RESULT_success : Z := 0.
  Definition RESULT_compareFalse : Z := 5.
  Definition RESULT_compareTrue : Z := 6.
  Definition RESULT_referral : Z := 10.
  Definition RESULT_saslBindInProgress : Z := 14.
  Definition RESULT_noSuchObject : Z := 32.

  (** the loop of handle_response (controls.py:67-81) over the decoded controls, up to what Model_Controls has *)
  Fixpoint control_pairs (l : list obj) : res (list (str * str)) :=
    match l with
    | [] => Ok []
    | c :: l' =>
        let* oid := text_or_absent (component c "controlType") in
        let value := match component c "controlValue" with Some v => octets_of v | None => absent end in
        let* r := control_pairs l' in
        Ok ((oid, value) :: r)
    end.
  Definition response_controls (o : option obj) : res (list (str * str)) :=
    match o with Some cs => control_pairs (elements cs) | None => Ok [] end.

  Context (reg : registry) (builtin : str -> bool).
  (** the attributes that handle_response sets *)
  Definition handled (attrs : list (str * str)) (cs : option obj) : res (list (str * str)) :=
    let* pairs := response_controls cs in
    let (r, attrs') := handle_response reg builtin attrs pairs in
    let* _ := r in Ok attrs'.

  (** LDAP._success_result: base.py:365-383: the attributes of the LDAPResponse *)
  Definition success_result (operation : string) (lm : obj) : res (list (str * str)) :=
    let* (o, res_ctrls) := unpack operation lm in
    if Z.eqb (code_of o) RESULT_success then handled [] res_ctrls else Raise LDAPError.
  (** the end of LDAP.add: base.py:830-839 *)
  Definition add_result (lm : obj) : res (list (str * str)) :=
    let* (o, res_ctrls) := unpack "addResponse" lm in
    if Z.eqb (code_of o) RESULT_success then handled [] res_ctrls else Raise LDAPError.
  (** the end of LDAP.compare: base.py:766-779 *)
  Definition compare_result (lm : obj) : res (bool * list (str * str)) :=
    let* (o, res_ctrls) := unpack "compareResponse" lm in
    let* b := (if Z.eqb (code_of o) RESULT_compareTrue then Ok true
               else if Z.eqb (code_of o) RESULT_compareFalse then Ok false else Raise LDAPError) in
    let* attrs := handled [] res_ctrls in Ok (b, attrs).
  (** one round of LDAP.sasl_bind: base.py:504-526: the challenge, or success with the attributes *)
  Definition sasl_result (lm : obj) : res (option (list N) + list (str * str)) :=
    let* (o, res_ctrls) := unpack "bindResponse" lm in
    if Z.eqb (code_of o) RESULT_saslBindInProgress then Ok (inl (option_map octets_of (component o "serverSaslCreds")))
    else if Z.eqb (code_of o) RESULT_success then let* attrs := handled [] res_ctrls in Ok (inr attrs)
    else Raise LDAPError.

  (** SearchResultHandle.__iter__: base.py:1573-1613: what is read off each message *)
  Inductive found :=
  | FEntry (dn : str) (attrs : list (str * list val))
  | FDone (code : Z) (uris : list val)
  | FRef (uris : list val).
  Fixpoint entry_attrs (l : list obj) (attrs : list (str * list val)) : res (list (str * list val)) :=
    match l with
    | [] => Ok attrs
    | a :: l' =>
        let* attr_type := text_or_absent (component a "type") in
        let vals := match component a "vals" with Some v => seq_to_list v | None => [] end in
        entry_attrs l' (dset attrs attr_type vals)
    end.
  Definition search_message (lm : obj) : res (found * res (list (str * str))) :=
    match unpack "searchResEntry" lm with
    | Ok (entry, cs) =>
        let dn := get_string_component entry "objectName" in
        let* attrs := entry_attrs (match component entry "attributes" with Some a => elements a | None => [] end) [] in
        Ok (FEntry dn attrs, response_controls cs)
    | Raise _ =>
        match unpack "searchResDone" lm with
        | Ok (resobj, cs) =>
            Ok (FDone (code_of resobj) (match component resobj "referral" with Some r => seq_to_list r | None => [] end), response_controls cs)
        | Raise _ =>
            let* (resref, cs) := unpack "searchResRef" lm in
            Ok (FRef (seq_to_list resref), response_controls cs)
        end
    end.

  (** ExtendedResponseHandle._handle_msg: base.py:1634-1650: the object and whether it was the last *)
  Definition handle_msg (require_success : bool) (lm : obj) : res (obj * bool) :=
    match unpack "intermediateResponse" lm with
    | Ok (ir, _) => Ok (ir, false)
    | Raise _ =>
        let* (xr, _) := unpack "extendedResp" lm in
        if require_success && negb (Z.eqb (code_of xr) RESULT_success) then Raise LDAPError else Ok (xr, true)
    end.
  (** LDAP.who_am_i: base.py:1168-1170 *)
  Definition who_am_i_result (lm : obj) : res str :=
    let* (xr, _) := handle_msg true lm in Ok (get_string_component xr "responseValue").
End Reply.
