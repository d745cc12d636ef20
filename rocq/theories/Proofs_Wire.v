(** * Proofs about protocol messages *)
From Coq Require Import Setoid Morphisms.
From Verif Require Import PyBase Model_Ldif Model_Filter Model_Controls Model_Search Model_Request Model_Paged Spec_X690 Proofs_X690 Model_Wire Spec_Wire.

(** ** The value of the table for a message of the RFC *)
Definition v_oct (l : list N) : asn := VOct l.
Definition v_opt (o : option (list N)) : option asn := option_map VOct o.
Definition v_octs (l : list (list N)) : asn := VList (map VOct l).
Definition v_attr (a : list N * list (list N)) : asn := VSeq [Some (VOct (fst a)); Some (v_octs (snd a))].
Definition v_result (r : rresult) : list (option asn) :=
  [Some (VInt (rr_code r)); Some (VOct (rr_matched r)); Some (VOct (rr_diag r)); option_map v_octs (rr_referral r)].
Definition v_control (c : rcontrol) : asn := VSeq [Some (VOct (rc_type c)); Some (VBool (rc_critical c)); v_opt (rc_value c)].
Definition v_auth (a : rauth) : asn :=
  match a with
  | RSimple p => VAlt (lit "simple") (VOct p)
  | RSasl m c => VAlt (lit "sasl") (VSeq [Some (VOct m); v_opt c])
  end.
Definition v_ava (a v : list N) : asn := VSeq [Some (VOct a); Some (VOct v)].
Definition v_sub (s : rsub) : asn :=
  match s with
  | RInitial v => VAlt (lit "initial") (VOct v) | RAny v => VAlt (lit "any") (VOct v) | RFinal v => VAlt (lit "final") (VOct v)
  end.
Fixpoint v_filter (f : rfilter) : asn :=
  match f with
  | RAnd l => VAlt (lit "and") (VList (map v_filter l))
  | ROr l => VAlt (lit "or") (VList (map v_filter l))
  | RNot g => VAlt (lit "not") (VAlt (lit "innerNotFilter") (v_filter g))
  | REqual a v => VAlt (lit "equalityMatch") (v_ava a v)
  | RSubs a l => VAlt (lit "substrings") (VSeq [Some (VOct a); Some (VList (map v_sub l))])
  | RGreater a v => VAlt (lit "greaterOrEqual") (v_ava a v)
  | RLess a v => VAlt (lit "lessOrEqual") (v_ava a v)
  | RPresent a => VAlt (lit "present") (VOct a)
  | RApprox a v => VAlt (lit "approxMatch") (v_ava a v)
  | RExt rule type v dn => VAlt (lit "extensibleMatch") (VSeq [v_opt rule; v_opt type; Some (VOct v); Some (VBool dn)])
  end.
Definition v_change (c : Z * (list N * list (list N))) : asn := VSeq [Some (VInt (fst c)); Some (v_attr (snd c))].
Definition v_op (o : rop) : asn :=
  match o with
  | RBindRequest v n a => VAlt (lit "bindRequest") (VSeq [Some (VInt v); Some (VOct n); Some (v_auth a)])
  | RBindResponse r c => VAlt (lit "bindResponse") (VSeq (v_result r ++ [v_opt c]))
  | RUnbindRequest => VAlt (lit "unbindRequest") VNull
  | RSearchRequest b s d size time t f l =>
      VAlt (lit "searchRequest")
        (VSeq [Some (VOct b); Some (VInt s); Some (VInt d); Some (VInt size); Some (VInt time); Some (VBool t);
               Some (v_filter f); Some (v_octs l)])
  | RSearchResultEntry dn l => VAlt (lit "searchResEntry") (VSeq [Some (VOct dn); Some (VList (map v_attr l))])
  | RSearchResultDone r => VAlt (lit "searchResDone") (VSeq (v_result r))
  | RSearchResultReference l => VAlt (lit "searchResRef") (v_octs l)
  | RModifyRequest dn l => VAlt (lit "modifyRequest") (VSeq [Some (VOct dn); Some (VList (map v_change l))])
  | RModifyResponse r => VAlt (lit "modifyResponse") (VSeq (v_result r))
  | RAddRequest dn l => VAlt (lit "addRequest") (VSeq [Some (VOct dn); Some (VList (map v_attr l))])
  | RAddResponse r => VAlt (lit "addResponse") (VSeq (v_result r))
  | RDelRequest dn => VAlt (lit "delRequest") (VOct dn)
  | RDelResponse r => VAlt (lit "delResponse") (VSeq (v_result r))
  | RModifyDNRequest dn n b s => VAlt (lit "modDNRequest") (VSeq [Some (VOct dn); Some (VOct n); Some (VBool b); v_opt s])
  | RModifyDNResponse r => VAlt (lit "modDNResponse") (VSeq (v_result r))
  | RCompareRequest dn a v => VAlt (lit "compareRequest") (VSeq [Some (VOct dn); Some (v_ava a v)])
  | RCompareResponse r => VAlt (lit "compareResponse") (VSeq (v_result r))
  | RAbandonRequest i => VAlt (lit "abandonRequest") (VInt i)
  | RExtendedRequest n v => VAlt (lit "extendedReq") (VSeq [Some (VOct n); v_opt v])
  | RExtendedResponse r n v => VAlt (lit "extendedResp") (VSeq (v_result r ++ [v_opt n; v_opt v]))
  | RIntermediateResponse n v => VAlt (lit "intermediateResponse") (VSeq [v_opt n; v_opt v])
  end.
Definition v_message (m : rmessage) : asn :=
  VSeq [Some (VInt (rm_id m)); Some (v_op (rm_op m)); option_map (fun l => VList (map v_control l)) (rm_controls m)].

(** what the table of the library does not ask for: values in an added attribute, URIs in a referral *)
Definition result_strict (r : rresult) : Prop := match rr_referral r with Some l => l <> [] | None => True end.
Definition strict (o : rop) : Prop :=
  match o with
  | RBindResponse r _ | RSearchResultDone r | RModifyResponse r | RAddResponse r | RDelResponse r | RModifyDNResponse r
  | RCompareResponse r | RExtendedResponse r _ _ => result_strict r
  | RAddRequest _ l => Forall (fun a => snd a <> []) l
  | _ => True
  end.

(** ** ber, component by component *)
Fixpoint ber_fields (l : list (option asn)) (fs : list (str * presence * cid)) : octets :=
  match l, fs with
  | [], [] => eps
  | Some v :: l', (_, Def d, c') :: fs' => either (given (v = d) (ber_fields l' fs')) (cat (ber v c') (ber_fields l' fs'))
  | Some v :: l', (_, _, c') :: fs' => cat (ber v c') (ber_fields l' fs')
  | None :: l', (_, Opt, _) :: fs' => ber_fields l' fs'
  | _, _ => nothing
  end.
Lemma ber_seq l c : ber (VSeq l) c = wrap (tags c) match shape_of c with SSeq fs => ber_fields l fs | _ => nothing end.
Proof. reflexivity. Qed.
Lemma ber_list l c : ber (VList l) c =
  wrap (tags c) match shape_of c with SOf m e => given (m = true -> l <> []) (cats (map (fun v => ber v e) l)) | _ => nothing end.
Proof. reflexivity. Qed.
Lemma ber_alt n v c : ber (VAlt n v) c =
  wrap (tags c) match shape_of c with SChoice alts => match dget alts n with Some c' => ber v c' | None => nothing end | _ => nothing end.
Proof. reflexivity. Qed.

Lemma field_opt (o : option asn) n c fs l : ber_fields (o :: l) ((n, Opt, c) :: fs) == cat (e_opt (fun v => ber v c) o) (ber_fields l fs).
Proof. destruct o as [v|]; cbn [ber_fields e_opt]; [reflexivity | symmetry; apply cat_eps_l]. Qed.
Lemma field_default_false b n c (e : bool -> octets) fs l : ber (VBool b) c == e b ->
  ber_fields (Some (VBool b) :: l) ((n, Def (VBool false), c) :: fs) == cat (e_default_false e b) (ber_fields l fs).
Proof.
  intro H. cbn [ber_fields]. unfold e_default_false. rewrite either_cat, cat_given_l, cat_eps_l.
  assert (E : VBool b = VBool false <-> b = false) by (split; [intro A; injection A; auto | intros ->; reflexivity]).
  rewrite H. apply either_proper; [|reflexivity]. apply given_proper; [exact E | reflexivity].
Qed.
#[global] Instance wrap_proper ts : Proper (eqo ==> eqo) (wrap ts).
Proof. induction ts as [|u us IH]; intros A B AB; cbn [wrap]; [exact AB | apply IH; rewrite AB; reflexivity]. Qed.
Lemma wrap_given ts C P : wrap ts (given C P) == given C (wrap ts P).
Proof.
  revert P. induction ts as [|t ts IH]; intros P; cbn [wrap]; [reflexivity|].
  rewrite tlv_given. apply IH.
Qed.
Lemma e_opt_ext {A} (f g : A -> octets) o : (forall x, f x == g x) -> e_opt f o == e_opt g o.
Proof. intro H. destruct o; cbn [e_opt]; [apply H | reflexivity]. Qed.
Lemma e_opt_v c (e : list N -> octets) o : (forall x, ber (VOct x) c == e x) -> e_opt (fun v => ber v c) (v_opt o) == e_opt e o.
Proof. intro H. destruct o; cbn [e_opt v_opt option_map]; [apply H | reflexivity]. Qed.

Definition min1_ok (m : bool) {A} (l : list A) : Prop := m = true -> l <> [].
(** lists of values of one class *)
Lemma ber_of {A} (f : A -> asn) (e : A -> octets) l c m elt : shape_of c = SOf m elt ->
  (forall x, In x l -> ber (f x) elt == e x) ->
  ber (VList (map f l)) c == given (min1_ok m l) (wrap (tags c) (cats (map e l))).
Proof.
  intros Hs He. rewrite ber_list, Hs, map_map, wrap_given.
  apply given_proper.
  - unfold min1_ok. destruct l; cbn; split; intros H E; specialize (H E); congruence.
  - apply wrap_proper. apply cats_map_ext. exact He.
Qed.
Lemma given_min0 {A} (l : list A) P : given (min1_ok false l) P == P.
Proof. apply given_True. intro H; discriminate. Qed.
Lemma given_min1 {A} (l : list A) P : given (min1_ok true l) P == given (atleast1 l) P.
Proof. apply given_proper; [|reflexivity]. unfold min1_ok, atleast1. split; intros H; [apply H; reflexivity | intros _; exact H]. Qed.

Lemma ber_vals l : ber (v_octs l) cVals == e_set (map e_oct l).
Proof. unfold v_octs. rewrite (ber_of VOct e_oct l cVals false cAttributeValue eq_refl) by (intros; reflexivity). apply given_min0. Qed.
Lemma ber_partial a : ber (v_attr a) cPartialAttribute == e_partial a.
Proof. unfold v_attr. change (ber (VSeq [Some (VOct (fst a)); Some (v_octs (snd a))]) cPartialAttribute) with (tlv 0x30 (cat (e_oct (fst a)) (cat (ber (v_octs (snd a)) cVals) eps))). rewrite ber_vals. reflexivity. Qed.
Lemma ber_attribute a : ber (v_attr a) cAttribute == e_partial a.
Proof. apply ber_partial. Qed.
Lemma ber_ava c i a v : ber (v_ava a v) c = tlv i (cat (e_oct a) (cat (e_oct v) eps)) -> ber (v_ava a v) c == tlv i (cats [e_oct a; e_oct v]).
Proof. intros ->. reflexivity. Qed.
Lemma ber_sub s : ber (v_sub s) cSubstring == e_sub s.
Proof. destruct s; reflexivity. Qed.

Lemma rfilter_ind2 (P : rfilter -> Prop) :
  (forall l, Forall P l -> P (RAnd l)) -> (forall l, Forall P l -> P (ROr l)) -> (forall g, P g -> P (RNot g)) ->
  (forall a v, P (REqual a v)) -> (forall a l, P (RSubs a l)) -> (forall a v, P (RGreater a v)) -> (forall a v, P (RLess a v)) ->
  (forall a, P (RPresent a)) -> (forall a v, P (RApprox a v)) -> (forall r t v d, P (RExt r t v d)) -> forall f, P f.
Proof.
  intros HA HO HN H3 H4 H5 H6 H7 H8 H9. fix IH 1. intros [l|l|g|a v|a l|a v|a v|a|a v|r t v d]; [| |apply HN, IH|apply H3|apply H4|apply H5|apply H6|apply H7|apply H8|apply H9].
  - apply HA. induction l as [|x l IHl]; constructor; [apply IH | exact IHl].
  - apply HO. induction l as [|x l IHl]; constructor; [apply IH | exact IHl].
Qed.
Lemma ber_filter f : ber (v_filter f) cFilter == e_filter f.
Proof.
  induction f as [l Hl|l Hl|g IH|a v|a l|a v|a v|a|a v|r t v d] using rfilter_ind2; cbn [v_filter e_filter].
  - change (ber (VAlt (lit "and") (VList (map v_filter l))) cFilter) with (ber (VList (map v_filter l)) cAnd).
    rewrite (ber_of v_filter e_filter l cAnd true cFilter eq_refl); [apply given_min1 | rewrite Forall_forall in Hl; exact Hl].
  - change (ber (VAlt (lit "or") (VList (map v_filter l))) cFilter) with (ber (VList (map v_filter l)) cOr).
    rewrite (ber_of v_filter e_filter l cOr true cFilter eq_refl); [apply given_min1 | rewrite Forall_forall in Hl; exact Hl].
  - change (ber (VAlt (lit "not") (VAlt (lit "innerNotFilter") (v_filter g))) cFilter) with (tlv 0xA2 (ber (v_filter g) cFilter)).
    rewrite IH. unfold ctxc. cbn [cats fold_right]. rewrite cat_eps_r. reflexivity.
  - reflexivity.
  - change (ber (VAlt (lit "substrings") (VSeq [Some (VOct a); Some (VList (map v_sub l))])) cFilter)
      with (tlv 0xA4 (cat (e_oct a) (cat (ber (VList (map v_sub l)) cSubstrings) eps))).
    rewrite (ber_of v_sub e_sub l cSubstrings true cSubstring eq_refl) by (intros; apply ber_sub).
    rewrite given_min1, cat_given_l, cat_given_r, tlv_given. reflexivity.
  - reflexivity.
  - reflexivity.
  - reflexivity.
  - reflexivity.
  - rewrite ber_alt. change (shape_of cFilter) with (c_shape Filter). cbn [tags the_class c_tags].
    change (wrap (c_tags Filter) (ber (VSeq [v_opt r; v_opt t; Some (VOct v); Some (VBool d)]) cExtensibleMatch) == 
      ctxc 9 [e_opt (fun r => ctx 1 (raw r)) r; e_opt (fun t => ctx 2 (raw t)) t; ctx 3 (raw v); e_default_false (fun b => ctx 4 (bool_octets b)) d]).
    cbn [wrap c_tags Filter alternatives univ_Choice]. rewrite ber_seq.
    change (tags cExtensibleMatch) with [mk_tag ContextSpecific true 9]. cbn [wrap].
    change (shape_of cExtensibleMatch) with (SSeq [opt "matchingRule" cMatchingRule; opt "type" cType; req "matchValue" cMatchValue; dflt "dnAttributes" cDnAttributes (VBool false)]).
    unfold opt, req, dflt. rewrite !field_opt. unfold ctxc. apply tlv_proper. cbn [cats fold_right].
    rewrite (e_opt_v cMatchingRule (fun r => ctx 1 (raw r))) by (intros; reflexivity).
    rewrite (e_opt_v cType (fun r => ctx 2 (raw r))) by (intros; reflexivity).
    do 2 (apply cat_proper; [reflexivity|]).
    apply (cat_proper _ _ (reflexivity _)).
    exact (field_default_false d (lit "dnAttributes") cDnAttributes (fun b => ctx 4 (bool_octets b)) [] [] (reflexivity _)).
Qed.

(** ** Results, controls, operations, messages *)
Definition result_lax (r : rresult) : list octets :=
  [e_enum (rr_code r); e_oct (rr_matched r); e_oct (rr_diag r); e_opt (fun l => ctxc 3 (map e_oct l)) (rr_referral r)].
Lemma cats_cons P l : cats (P :: l) = cat P (cats l).
Proof. reflexivity. Qed.
Lemma ber_enum z : ber (VInt z) cResultCode == e_enum z.
Proof. change (ber (VInt z) cResultCode) with (tlv 0x0A (given True (int_octets z))). rewrite given_True by exact I. reflexivity. Qed.
Lemma ber_operation z : ber (VInt z) cOperation == e_enum z.
Proof. apply ber_enum. Qed.
Lemma ber_referral l : ber (v_octs l) cReferral == ctxc 3 (map e_oct l).
Proof. unfold v_octs. rewrite (ber_of VOct e_oct l cReferral false cURI eq_refl) by (intros; reflexivity). apply given_min0. Qed.
Lemma result_fields_ber r l fs : ber_fields (v_result r ++ l) (result_fields ++ fs) == cat (cats (result_lax r)) (ber_fields l fs).
Proof.
  assert (AS : forall P Q R, cat (cat P Q) R == cat P (cat Q R)).
  { intros P Q R b. unfold cat. split.
    - intros (b1 & b2 & (b3 & b4 & A & B & ->) & C & ->). exists b3, (b4 ++ b2). split; [exact A|]. split; [exists b4, b2; auto | symmetry; apply app_assoc].
    - intros (b1 & b2 & A & (b3 & b4 & B & C & ->) & ->). exists (b1 ++ b3), b4. split; [exists b1, b3; auto|]. split; [exact C | apply app_assoc]. }
  unfold v_result, result_fields, req, opt. cbn [List.app].
  change (cat (ber (VInt (rr_code r)) cResultCode) (cat (ber (VOct (rr_matched r)) cLDAPDN) (cat (ber (VOct (rr_diag r)) cLDAPString)
    (ber_fields (option_map v_octs (rr_referral r) :: l) ((lit "referral", Opt, cReferral) :: fs)))) == cat (cats (result_lax r)) (ber_fields l fs)).
  rewrite field_opt, ber_enum. unfold result_lax. rewrite !cats_cons, !AS.
  change (ber (VOct (rr_matched r)) cLDAPDN) with (e_oct (rr_matched r)). change (ber (VOct (rr_diag r)) cLDAPString) with (e_oct (rr_diag r)).
  do 3 (apply cat_proper; [reflexivity|]). change (cats []) with eps. rewrite cat_eps_l. apply cat_proper; [|reflexivity].
  destruct (rr_referral r) as [x|]; cbn [option_map e_opt]; [apply ber_referral | reflexivity].
Qed.
Lemma result_strict_iff r l : cats (result_components r ++ l) == given (result_strict r) (cats (result_lax r ++ l)).
Proof.
  unfold result_components, result_lax, result_strict. cbn [List.app]. rewrite !cats_cons. destruct (rr_referral r) as [x|]; cbn [e_opt].
  - unfold e_referral, atleast1. rewrite cat_given_l, !cat_given_r. reflexivity.
  - symmetry. apply given_True. exact I.
Qed.
Lemma cats_app l m : cats (l ++ m) == cat (cats l) (cats m).
Proof.
  induction l as [|P l IH]; cbn [List.app cats fold_right]; [symmetry; apply cat_eps_l|].
  fold (cats (l ++ m)) (cats l). rewrite IH. intro b. unfold cat. split.
  - intros (b1 & b2 & A & (b3 & b4 & B & C & ->) & ->). exists (b1 ++ b3), b4. split; [exists b1, b3; auto|]. split; [exact C | apply app_assoc].
  - intros (b1 & b2 & (b3 & b4 & A & B & ->) & C & ->). exists b3, (b4 ++ b2). split; [exact A|]. split; [exists b4, b2; auto | symmetry; apply app_assoc].
Qed.
Lemma ber_control c : ber (v_control c) cControl == e_control c.
Proof.
  unfold v_control. rewrite ber_seq. change (tags cControl) with [mk_tag Universal true 16]. cbn [wrap].
  change (shape_of cControl) with (SSeq [req "controlType" cLDAPOID; dflt "criticality" cCriticality (VBool false); opt "controlValue" cControlValue]).
  unfold e_control, e_seq. apply tlv_proper. rewrite !cats_cons.
  change (cat (e_oct (rc_type c)) (ber_fields [Some (VBool (rc_critical c)); v_opt (rc_value c)]
            [(lit "criticality", Def (VBool false), cCriticality); (lit "controlValue", Opt, cControlValue)])
          == cat (e_oct (rc_type c)) (cat (e_default_false e_bool (rc_critical c)) (cat (e_opt e_oct (rc_value c)) (cats [])))).
  rewrite (field_default_false _ _ _ e_bool) by reflexivity.
  rewrite field_opt, (e_opt_v _ e_oct) by reflexivity. reflexivity.
Qed.
Lemma ber_auth a : ber (v_auth a) cAuthenticationChoice == e_auth a.
Proof.
  destruct a as [p|m c]; [reflexivity|]. cbn [v_auth e_auth].
  change (ber (VAlt (lit "sasl") (VSeq [Some (VOct m); v_opt c])) cAuthenticationChoice)
    with (tlv 0xA3 (cat (e_oct m) (ber_fields [v_opt c] [opt "credentials" cCredentials]))).
  unfold opt. rewrite field_opt. unfold ctxc. rewrite !cats_cons. apply tlv_proper. apply cat_proper; [reflexivity|].
  apply cat_proper; [apply e_opt_v; reflexivity | reflexivity].
Qed.
Lemma ber_change c : ber (v_change c) cChange == e_change c.
Proof.
  unfold v_change. change (ber (VSeq [Some (VInt (fst c)); Some (v_attr (snd c))]) cChange)
    with (tlv 0x30 (cat (ber (VInt (fst c)) cOperation) (cat (ber (v_attr (snd c)) cPartialAttribute) eps))).
  rewrite ber_operation, ber_partial. reflexivity.
Qed.
Lemma ber_result c i r : tags c = [i] -> shape_of c = SSeq result_fields ->
  ber (VSeq (v_result r)) c == tlv (identifier i) (cats (result_lax r)).
Proof.
  intros T S. rewrite ber_seq, T, S. cbn [wrap]. apply tlv_proper.
  rewrite <- (app_nil_r (v_result r)), <- (app_nil_r result_fields), result_fields_ber. cbn [ber_fields]. apply cat_eps_r.
Qed.
Lemma tlv_result i r : tlv i (cats (result_components r)) == given (result_strict r) (tlv i (cats (result_lax r))).
Proof. rewrite <- tlv_given. apply tlv_proper. rewrite <- (app_nil_r (result_components r)), result_strict_iff, app_nil_r. reflexivity. Qed.
Lemma ber_seqof_attrs l : ber (VList (map v_attr l)) cPartialAttributeList == e_seq (map e_partial l).
Proof. rewrite (ber_of v_attr e_partial l cPartialAttributeList false cPartialAttribute eq_refl) by (intros; apply ber_partial). apply given_min0. Qed.
Lemma given_r (C : Prop) P Q : (C -> P == Q) -> given C P == given C Q.
Proof. intros H b. unfold given. split; intros [A B]; (split; [exact A | apply (H A), B]). Qed.

Lemma ber_op o : e_op o == given (strict o) (ber (v_op o) cProtocolOp).
Proof.
  destruct o as [v n a|r c| |b s d size time t f l|dn l|r|l|dn l|r|dn l|r|dn|r|dn n b s|r|dn a v|r|i|n v|r n v|n v]; cbn [e_op v_op strict];
    try (rewrite (given_True True) by exact I);
    try (unfold appc; rewrite tlv_result; apply given_proper; [reflexivity|]; symmetry;
         first [exact (ber_result cSearchResultDone _ r eq_refl eq_refl) | exact (ber_result cModifyResponse _ r eq_refl eq_refl)
               | exact (ber_result cAddResponse _ r eq_refl eq_refl) | exact (ber_result cDelResponse _ r eq_refl eq_refl)
               | exact (ber_result cModifyDNResponse _ r eq_refl eq_refl) | exact (ber_result cCompareResponse _ r eq_refl eq_refl)]).
  - change (ber (VAlt (lit "bindRequest") (VSeq [Some (VInt v); Some (VOct n); Some (v_auth a)])) cProtocolOp)
      with (tlv 0x60 (cat (tlv 2 (given (1 <= v <= 127)%Z (int_octets v))) (cat (e_oct n) (cat (ber (v_auth a) cAuthenticationChoice) eps)))).
    rewrite ber_auth, tlv_given, cat_given_l, tlv_given. reflexivity.
  - change (ber (VAlt (lit "bindResponse") (VSeq (v_result r ++ [v_opt c]))) cProtocolOp)
      with (tlv 0x61 (ber_fields (v_result r ++ [v_opt c]) (result_fields ++ [opt "serverSaslCreds" cServerSaslCreds]))).
    rewrite result_fields_ber. unfold opt. rewrite field_opt, (e_opt_v _ (fun x => ctx 7 (raw x))) by reflexivity.
    unfold appc. rewrite <- tlv_given. apply tlv_proper. rewrite result_strict_iff. apply given_r. intros _. apply cats_app.
  - reflexivity.
  - change (ber (VAlt (lit "searchRequest") (VSeq [Some (VOct b); Some (VInt s); Some (VInt d); Some (VInt size); Some (VInt time); Some (VBool t);
               Some (v_filter f); Some (v_octs l)])) cProtocolOp)
      with (tlv 0x63 (cat (e_oct b) (cat (ber (VInt s) cResultCode) (cat (ber (VInt d) cResultCode)
             (cat (tlv 2 (given (int0max size) (int_octets size))) (cat (tlv 2 (given (int0max time) (int_octets time)))
             (cat (e_bool t) (cat (ber (v_filter f) cFilter) (cat (ber (v_octs l) cAttributeSelection) eps))))))))).
    rewrite !ber_enum, ber_filter, !tlv_given. unfold v_octs.
    rewrite (ber_of VOct e_oct l cAttributeSelection false cSelector eq_refl) by (intros; reflexivity). rewrite given_min0.
    repeat first [rewrite cat_given_l | rewrite cat_given_r | rewrite given_and | rewrite tlv_given].
    apply given_proper; [tauto | reflexivity].
  - change (ber (VAlt (lit "searchResEntry") (VSeq [Some (VOct dn); Some (VList (map v_attr l))])) cProtocolOp)
      with (tlv 0x64 (cat (e_oct dn) (cat (ber (VList (map v_attr l)) cPartialAttributeList) eps))).
    rewrite ber_seqof_attrs. reflexivity.
  - change (ber (VAlt (lit "searchResRef") (v_octs l)) cProtocolOp) with (ber (v_octs l) cSearchResultReference). unfold v_octs.
    rewrite (ber_of VOct e_oct l cSearchResultReference true cURI eq_refl) by (intros; reflexivity). rewrite given_min1. reflexivity.
  - change (ber (VAlt (lit "modifyRequest") (VSeq [Some (VOct dn); Some (VList (map v_change l))])) cProtocolOp)
      with (tlv 0x66 (cat (e_oct dn) (cat (ber (VList (map v_change l)) cChanges) eps))).
    rewrite (ber_of v_change e_change l cChanges false cChange eq_refl) by (intros; apply ber_change). rewrite given_min0. reflexivity.
  - change (ber (VAlt (lit "addRequest") (VSeq [Some (VOct dn); Some (VList (map v_attr l))])) cProtocolOp)
      with (tlv 0x68 (cat (e_oct dn) (cat (ber (VList (map v_attr l)) cAttributeList) eps))).
    rewrite (ber_of v_attr e_partial l cAttributeList false cAttribute eq_refl) by (intros; apply ber_attribute). rewrite given_min0.
    unfold appc, e_seq. rewrite !cats_cons. unfold e_attribute. rewrite cats_given, tlv_given, cat_given_l, cat_given_r, tlv_given.
    unfold atleast1. reflexivity.
  - reflexivity.
  - change (ber (VAlt (lit "modDNRequest") (VSeq [Some (VOct dn); Some (VOct n); Some (VBool b); v_opt s])) cProtocolOp)
      with (tlv 0x6C (cat (e_oct dn) (cat (e_oct n) (cat (e_bool b) (ber_fields [v_opt s] [opt "newSuperior" cNewSuperior]))))).
    unfold opt. rewrite field_opt, (e_opt_v _ (fun x => ctx 0 (raw x))) by reflexivity. reflexivity.
  - reflexivity.
  - change (ber (VAlt (lit "abandonRequest") (VInt i)) cProtocolOp) with (tlv 0x50 (given (int0max i) (int_octets i))). rewrite tlv_given. reflexivity.
  - change (ber (VAlt (lit "extendedReq") (VSeq [Some (VOct n); v_opt v])) cProtocolOp)
      with (tlv 0x77 (cat (ctx 0 (raw n)) (ber_fields [v_opt v] [opt "requestValue" cRequestValue]))).
    unfold opt. rewrite field_opt, (e_opt_v _ (fun x => ctx 1 (raw x))) by reflexivity. reflexivity.
  - change (ber (VAlt (lit "extendedResp") (VSeq (v_result r ++ [v_opt n; v_opt v]))) cProtocolOp)
      with (tlv 0x78 (ber_fields (v_result r ++ [v_opt n; v_opt v]) (result_fields ++ [opt "responseName" cResponseName; opt "responseValue" cResponseValue]))).
    rewrite result_fields_ber. unfold opt. rewrite !field_opt, (e_opt_v cResponseName (fun x => ctx 10 (raw x))) by reflexivity.
    rewrite (e_opt_v cResponseValue (fun x => ctx 11 (raw x))) by reflexivity.
    unfold appc. rewrite <- tlv_given. apply tlv_proper. rewrite result_strict_iff. apply given_r. intros _. apply cats_app.
  - change (ber (VAlt (lit "intermediateResponse") (VSeq [v_opt n; v_opt v])) cProtocolOp)
      with (tlv 0x79 (ber_fields [v_opt n; v_opt v] [opt "responseName" cIntermediateResponseName; opt "responseValue" cIntermediateResponseValue])).
    unfold opt. rewrite !field_opt, (e_opt_v _ (fun x => ctx 0 (raw x))) by reflexivity. rewrite (e_opt_v _ (fun x => ctx 1 (raw x))) by reflexivity. reflexivity.
Qed.

Theorem ber_message m : e_message m == given (strict (rm_op m)) (ber (v_message m) cLDAPMessage).
Proof.
  destruct m as [i o cs]. unfold e_message, v_message. cbn [rm_id rm_op rm_controls].
  change (ber (VSeq [Some (VInt i); Some (v_op o); option_map (fun l => VList (map v_control l)) cs]) cLDAPMessage)
    with (tlv 0x30 (cat (tlv 2 (given (int0max i) (int_octets i))) (cat (ber (v_op o) cProtocolOp)
           (ber_fields [option_map (fun l => VList (map v_control l)) cs] [opt "controls" cControls])))).
  unfold opt. rewrite field_opt, tlv_given, cat_given_l, tlv_given, given_and.
  unfold e_seq. rewrite !cats_cons, ber_op, cat_given_l, cat_given_r, tlv_given, given_and.
  apply given_proper; [tauto|]. apply tlv_proper. apply cat_proper; [reflexivity|]. apply cat_proper; [reflexivity|]. apply cat_proper; [|reflexivity].
  destruct cs as [l|]; cbn [option_map e_opt]; [|reflexivity].
  rewrite (ber_of v_control e_control l cControls false cControl eq_refl) by (intros; apply ber_control). rewrite given_min0. reflexivity.
Qed.
