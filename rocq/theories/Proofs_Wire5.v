(** The methods send exactly the messages of the RFC *)
From Verif Require Import PyBase Model_Ldif Model_Filter Model_Controls Model_Search Model_Request Model_Paged Spec_X690 Model_Wire Spec_Wire Spec_Wire2
  Proofs_X690 Proofs_Wire Proofs_Wire2 Proofs_Wire3 Proofs_Wire4.

Lemma ok_sends m : strict (rm_op m) -> sends (Ok (mk_obj cLDAPMessage (v_message m))) m.
Proof. intro S. exists (mk_obj cLDAPMessage (v_message m)). split; [reflexivity|]. intro b. cbn [o_val o_class]. rewrite message_ber. tauto. Qed.

Lemma exact_ok (P : Prop) mid op r cs c v o :
  (P -> r = Ok (mk_obj c v)) -> (forall x, r = Ok x -> P) ->
  dget op_alts (lit op) = Some c -> v_op o = VAlt (lit op) v -> strict o ->
  exactly_if (Spec_Wire.int0max mid /\ P /\ Forall ctrl_ok cs) (message mid op r cs) (mk_rm mid o (controls_of cs)).
Proof.
  intros HP HR Ha Ho S. split.
  - intros (Hm & Hp & Hc). rewrite (HP Hp). rewrite (message_ok _ _ _ _ _ o) by assumption. apply ok_sends. exact S.
  - intro N. destruct (message mid op r cs) as [lm|e] eqn:E; [|eauto]. exfalso. apply N.
    destruct (message_only _ _ _ _ _ E) as ((x & X) & Hm & Hc). split; [exact Hm|]. split; [eapply HR, X | exact Hc].
Qed.

Ltac ok := repeat (first [rewrite new_oct_ok by (try reflexivity; assumption) | rewrite new_oid_ok by (try reflexivity; assumption)
  | rewrite new_int0_ok by (try reflexivity; assumption)]; cbn [bind]).
Ltac oly := repeat split; try (eapply new_oct_only; [|eassumption]; reflexivity); try (eapply new_oid_only; [|eassumption]; reflexivity);
  try (eapply new_int0_only; [|eassumption]; reflexivity); try exact I.

Lemma bind_exact mid u p cs :
  exactly_if (Spec_Wire.int0max mid /\ (encodable u /\ encodable p) /\ Forall ctrl_ok cs)
    (message mid "bindRequest" (simple_bind_request u p) cs)
    (mk_rm mid (RBindRequest 3 (as_octets u) (RSimple (as_octets p))) (controls_of cs)).
Proof.
  eapply exact_ok; try reflexivity; try exact I.
  - intros [A B]. unfold simple_bind_request, set_oct. ok. reflexivity.
  - intros x H. unfold simple_bind_request in H. unb. oly.
Qed.
Lemma sasl_exact mid mech r cs :
  exactly_if (Spec_Wire.int0max mid /\ (encodable (Text mech) /\ match r with Some v => encodable v | None => True end) /\ Forall ctrl_ok cs)
    (message mid "bindRequest" (sasl_bind_request mech r) cs)
    (mk_rm mid (RBindRequest 3 [] (RSasl (utf8 mech) (option_map as_octets r))) (controls_of cs)).
Proof.
  eapply exact_ok; try reflexivity; try exact I.
  - intros [A B]. unfold sasl_bind_request, set_oct. destruct r as [v|].
    + rewrite (new_oct_ok cLDAPString) by (try reflexivity; assumption). rewrite (new_oct_ok cCredentials) by (try reflexivity; assumption). reflexivity.
    + rewrite (new_oct_ok cLDAPString) by (try reflexivity; assumption). reflexivity.
  - intros x H. unfold sasl_bind_request in H. unb. split; [oly|]. destruct r; [unb; oly | exact I].
Qed.
Lemma unbind_exact mid cs :
  exactly_if (Spec_Wire.int0max mid /\ True /\ Forall ctrl_ok cs)
    (message mid "unbindRequest" unbind_request cs) (mk_rm mid RUnbindRequest (controls_of cs)).
Proof. eapply exact_ok; try reflexivity; auto. Qed.
Lemma abandon_exact mid i cs :
  exactly_if (Spec_Wire.int0max mid /\ Spec_Wire.int0max i /\ Forall ctrl_ok cs)
    (message mid "abandonRequest" (abandon_request i) cs) (mk_rm mid (RAbandonRequest i) (controls_of cs)).
Proof.
  eapply exact_ok; try reflexivity; try exact I.
  - intro H. unfold abandon_request. ok. reflexivity.
  - intros x H. unfold abandon_request in H. eapply new_int0_only; [|exact H]. reflexivity.
Qed.
Lemma compare_exact mid dn a v cs :
  exactly_if (Spec_Wire.int0max mid /\ (encodable (Text dn) /\ encodable (Text a) /\ encodable (Text v)) /\ Forall ctrl_ok cs)
    (message mid "compareRequest" (compare_request (Text dn) (Text a) (Text v)) cs)
    (mk_rm mid (RCompareRequest (utf8 dn) (utf8 a) (utf8 v)) (controls_of cs)).
Proof.
  eapply exact_ok; try reflexivity; try exact I.
  - intros (A & B & C). unfold compare_request, set_oct, text_type. rewrite !new_text by (try reflexivity; assumption). reflexivity.
  - intros x H. unfold compare_request, text_type in H. unb. oly.
Qed.
Lemma delete_exact mid dn cs :
  exactly_if (Spec_Wire.int0max mid /\ encodable dn /\ Forall ctrl_ok cs)
    (message mid "delRequest" (delete_request dn) cs) (mk_rm mid (RDelRequest (as_octets dn)) (controls_of cs)).
Proof.
  eapply exact_ok; try reflexivity; try exact I.
  - intro H. unfold delete_request. ok. reflexivity.
  - intros x H. unfold delete_request in H. oly.
Qed.
Lemma mod_dn_exact mid dn rdn clean sup cs :
  exactly_if (Spec_Wire.int0max mid /\ (encodable dn /\ encodable rdn /\ match sup with Some v => encodable v | None => True end) /\ Forall ctrl_ok cs)
    (message mid "modDNRequest" (mod_dn_request dn rdn clean sup) cs)
    (mk_rm mid (RModifyDNRequest (as_octets dn) (as_octets rdn) clean (option_map as_octets sup)) (controls_of cs)).
Proof.
  eapply exact_ok; try reflexivity; try exact I.
  - intros (A & B & C). unfold mod_dn_request, set_oct. rewrite (new_oct_ok cLDAPDN), (new_oct_ok cRelativeLDAPDN) by (try reflexivity; assumption).
    destruct sup as [v|]; [rewrite (new_oct_ok cNewSuperior) by (try reflexivity; assumption)|]; reflexivity.
  - intros x H. unfold mod_dn_request in H. unb. split; [oly|]. split; [oly|]. destruct sup; [unb; oly | exact I].
Qed.
Lemma extended_exact mid oid v cs :
  exactly_if (Spec_Wire.int0max mid /\ (ascii oid /\ match v with Some v => encodable v | None => True end) /\ Forall ctrl_ok cs)
    (message mid "extendedReq" (extended_request oid v) cs)
    (mk_rm mid (RExtendedRequest (as_octets oid) (option_map as_octets v)) (controls_of cs)).
Proof.
  eapply exact_ok; try reflexivity; try exact I.
  - intros (A & B). unfold extended_request, set_oct. rewrite (new_oid_ok cRequestName) by (try reflexivity; assumption).
    destruct v as [v|]; [rewrite (new_oct_ok cRequestValue) by (try reflexivity; assumption)|]; reflexivity.
  - intros x H. unfold extended_request in H. unb. split; [oly|]. destruct v; [unb; oly | exact I].
Qed.
Lemma add_request_ok dn l : encodable dn -> Forall attr_encodable l ->
  add_request dn l = Ok (mk_obj cAddRequest (VSeq [Some (VOct (as_octets dn)); Some (VList (map v_attr (map attr_octets l)))])).
Proof.
  intros A B. unfold add_request, set_oct. rewrite (new_oct_ok cLDAPDN) by (try reflexivity; assumption).
  pose proof (fill_ok add_attr cAttributeList cAttribute (fun kv => v_attr (attr_octets kv)) false cAttribute l eq_refl eq_refl
    (fun x Hx => add_attr_ok x (proj1 (Forall_forall _ _) B x Hx)) []) as F. cbn [List.length List.app] in F.
  rewrite map_map. cbn [bind]. change (new cAttributeList) with (mk_obj cAttributeList (VList [])). rewrite F. reflexivity.
Qed.
Lemma add_request_only dn l x : add_request dn l = Ok x -> encodable dn /\ Forall attr_encodable l.
Proof.
  intro H. unfold add_request in H. unb. split; [oly|]. rewrite Forall_forall. intros kv Hkv.
  match goal with K : fill _ _ _ _ = Ok _ |- _ => destruct (fill_only _ _ _ _ _ K kv Hkv) as (y & Ey) end.
  unfold add_attr in Ey. unb. split; [oly|]. eapply vals_only; eassumption.
Qed.
Lemma add_exact mid dn l cs : Forall (fun kv => snd kv <> []) l ->
  exactly_if (Spec_Wire.int0max mid /\ (encodable dn /\ Forall attr_encodable l) /\ Forall ctrl_ok cs)
    (message mid "addRequest" (add_request dn l) cs)
    (mk_rm mid (RAddRequest (as_octets dn) (map attr_octets l)) (controls_of cs)).
Proof.
  intro NE. eapply exact_ok; try reflexivity.
  - intros [A B]. apply add_request_ok; assumption.
  - intros x H. eapply add_request_only, H.
  - cbn [strict]. rewrite Forall_forall in *. intros a Ha. apply in_map_iff in Ha. destruct Ha as (kv & <- & Hk).
    specialize (NE kv Hk). destruct kv as [k [|v l']]; cbn [attr_octets snd map] in *; [congruence | discriminate].
Qed.
Lemma add_empty mid dn l cs : Spec_Wire.int0max mid -> encodable dn -> Forall attr_encodable l -> Forall ctrl_ok cs ->
  Exists (fun kv => snd kv = []) l ->
  exists lm, message mid "addRequest" (add_request dn l) cs = Ok lm /\
    forall m b, ber (o_val lm) (o_class lm) b -> ~ e_message m b.
Proof.
  intros Hm A B C N. exists (mk_obj cLDAPMessage (v_message (mk_rm mid (RAddRequest (as_octets dn) (map attr_octets l)) (controls_of cs)))).
  split.
  - rewrite add_request_ok by assumption. apply message_ok; try assumption; reflexivity.
  - cbn [o_val o_class]. intros m b Hb Hm'. pose proof (message_value _ _ _ Hm' Hb) as V. apply v_message_inj in V. subst m.
    apply message_ber in Hm'. destruct Hm' as [S _]. cbn [rm_op strict] in S. apply Exists_exists in N. destruct N as (kv & Hk & E).
    rewrite Forall_forall in S. apply (S (attr_octets kv)); [apply in_map, Hk|]. destruct kv as [k v]. cbn [snd] in E. subst v. reflexivity.
Qed.
Lemma modify_exact mid dn l cs :
  exactly_if (Spec_Wire.int0max mid /\ (encodable dn /\ Forall (fun m => attr_encodable (snd (fst m), snd m)) l) /\ Forall ctrl_ok cs)
    (message mid "modifyRequest" (modify_request dn l) cs)
    (mk_rm mid (RModifyRequest (as_octets dn) (map change_of l)) (controls_of cs)).
Proof.
  eapply exact_ok; try reflexivity; try exact I.
  - intros [A B]. unfold modify_request, set_oct. rewrite (new_oct_ok cLDAPDN) by (try reflexivity; assumption).
    pose proof (fill_ok change_obj cChanges cChange (fun kv => v_change (change_of kv)) false cChange l eq_refl eq_refl) as F.
    specialize (F (fun x Hx => ltac:(destruct x as [[op a] vs]; destruct (proj1 (Forall_forall _ _) B _ Hx) as [P Q];
      cbn [fst snd] in P, Q; refine (eq_trans (change_ok op a vs P Q) _); destruct op; reflexivity)) []). cbn [List.length List.app] in F.
    cbn [bind]. change (new cChanges) with (mk_obj cChanges (VList [])). rewrite F. rewrite map_map. reflexivity.
  - intros x H. unfold modify_request in H. unb. split; [oly|]. rewrite Forall_forall. intros [[op a] vs] Hk.
    match goal with K : fill _ _ _ _ = Ok _ |- _ => destruct (fill_only _ _ _ _ _ K _ Hk) as (y & Ey) end.
    unfold change_obj in Ey. unb. cbn [fst snd]. split; cbn [fst snd]; [oly|]. eapply vals_only; eassumption.
Qed.
Lemma search_exact mid w cs :
  exactly_if (Spec_Wire.int0max mid /\ search_ok w /\ Forall ctrl_ok cs)
    (message mid "searchRequest" (search_request w) cs) (mk_rm mid (search_of w) (controls_of cs)).
Proof.
  eapply exact_ok; try reflexivity; try exact I.
  - intros (A & B & C & D & E). unfold search_request, set_oct, set_int. rewrite (new_oct_ok cLDAPDN) by (try reflexivity; assumption). cbn [bind].
    rewrite (new_int0_ok cInteger0ToMax (w_size w)) by (try reflexivity; assumption).
    rewrite (new_int0_ok cInteger0ToMax (w_time w)) by (try reflexivity; assumption).
    rewrite filter_ok by exact D.
    pose proof (fill_ok (fun desc => new_oct cLDAPString (Text desc)) cAttributeSelection cLDAPString (fun a => VOct (utf8 a)) false cSelector (w_attrs w) eq_refl eq_refl) as F.
    specialize (F (fun x Hx => new_text cLDAPString x eq_refl (proj1 (Forall_forall _ _) E x Hx)) []). cbn [List.length List.app] in F.
    change (new cAttributeSelection) with (mk_obj cAttributeSelection (VList [])). rewrite F. unfold v_octs. rewrite ?map_map. destruct (w_scope w); reflexivity.
  - intros x H. unfold search_request in H. unb. split; [oly|]. split; [oly|]. split; [oly|]. split; [eapply filter_only; eassumption|].
    rewrite Forall_forall. intros a Ha. match goal with K : fill _ _ _ _ = Ok _ |- _ => destruct (fill_only _ _ _ _ _ K _ Ha) as (y & Ey) end.
    eapply new_oct_only; [|exact Ey]. reflexivity.
Qed.
