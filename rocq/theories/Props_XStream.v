(** * C98: the responses of an extended operation, from the octets the server sends *)
From Verif Require Import PyBase Model_Ldif Model_Controls Model_Net Spec_Net Proofs_Net Model_Search Model_Wire Spec_X690 Spec_Wire Proofs_X690 Proofs_Wire Proofs_Wire3 Proofs_Wire4 Spec_Wire2 Proofs_Wire6 Proofs_Utf8
  Model_Reply Spec_Reply Proofs_Reply Props_Reply Model_Stream Spec_Stream Proofs_Stream Props_Stream Model_Session Spec_Session Proofs_Session Spec_Notice Props_Notice Model_XStream Spec_XStream Proofs_XStream.
Local Open Scope string_scope.

Section C98.
  Context (decode : list N -> option str) (absent : str).
  Notation shows := (shows absent decode).

  (** A server sends messages, of any IDs, in any encoding RFC 4511 allows, and the octets arrive in any pieces.  Those with the
      ID of the operation are intermediate responses, then the extended response, then maybe more.  Iteration over the handle
      yields an object for each of them in order, that shows just what the message has, and ends with the extended response; if
      success is required and it does not say success, LDAPError is raised in its place. *)
  Theorem C98_responses dec enc ms objs chunks k need body fin rest r name v n :
    frames enc objs dec -> server_sends enc ms objs -> List.concat chunks = List.concat (map enc objs) ->
    for_id k ms = (body ++ fin :: rest)%list -> Forall is_intermediate body -> rm_op fin = RExtendedResponse r name v ->
    Forall oids_ascii (fin :: body) -> List.length body < n ->
    exists xs, if need && negb (rr_code r =? 0)%Z
               then Forall2 shows body xs /\ responses dec n (extended_handle (Z.to_N k) need) (arriving chunks) = Some (xs, Failed LDAPError)
               else Forall2 shows (body ++ [fin]) xs /\ responses dec n (extended_handle (Z.to_N k) need) (arriving chunks) = Some (xs, Finished).
  Proof.
    intros Hdec Hs Hch Hf Hb Hfin Ha Hn. inversion Ha as [|? ? Af Ab]; subst.
    destruct (all_pulled dec enc ms objs chunks k _ Hdec Hs Hch Hf) as (os & g' & s' & Ho & P); [destruct body; discriminate|].
    apply Forall2_app_inv_l in Ho as (ob & orest & Hob & Hor & ->). inversion Hor as [|? o ? orest' [H1 H2] _]; subst.
    destruct (pulls_app _ _ _ _ _ _ _ P) as (g1 & s1 & P1 & P2). inversion P2 as [|? ? ? g2 s2 ? ? ? E _]; subst.
    destruct (through decode absent dec enc need body ob _ _ g1 s1 Hob Hb Ab P1) as (xs & X & Y).
    destruct (made decode absent need fin (enc o) o H1 H2 Af) as (M1 & _ & M3). specialize (M3 _ _ _ Hfin).
    destruct (handle_message need o) as [x d] eqn:Eh. cbn [fst snd] in *. subst d. unfold made_of in M1. rewrite Hfin in M1.
    assert (En : n = List.length body + S (n - S (List.length body))) by lia.
    destruct (need && negb (rr_code r =? 0)%Z).
    - subst x. exists xs. split; [exact X|]. rewrite En. unfold extended_handle. rewrite (Y _ (Failed LDAPError) []); [now rewrite app_nil_r|].
      cbn [responses xh_gen xh_need xh_done]. rewrite E, Eh. reflexivity.
    - destruct M1 as (x' & -> & Sx). exists (xs ++ [x'])%list. split; [apply Forall2_app; [exact X|constructor; [exact Sx|constructor]]|].
      rewrite En. unfold extended_handle. apply Y. cbn [responses xh_gen xh_need xh_done]. rewrite E, Eh. reflexivity.
  Qed.

  (** Anything else in between ends the iteration with UnexpectedResponseType, after what came before it. *)
  Theorem C98_unexpected dec enc ms objs chunks k need body m rest n :
    frames enc objs dec -> server_sends enc ms objs -> List.concat chunks = List.concat (map enc objs) ->
    for_id k ms = (body ++ m :: rest)%list -> Forall is_intermediate body -> Forall oids_ascii (m :: body) ->
    (forall name v, rm_op m <> RIntermediateResponse name v) -> (forall r name v, rm_op m <> RExtendedResponse r name v) ->
    List.length body < n ->
    exists xs, Forall2 shows body xs /\
      responses dec n (extended_handle (Z.to_N k) need) (arriving chunks) = Some (xs, Failed UnexpectedResponseType).
  Proof.
    intros Hdec Hs Hch Hf Hb Ha N1 N2 Hn. inversion Ha as [|? ? Af Ab]; subst.
    destruct (all_pulled dec enc ms objs chunks k _ Hdec Hs Hch Hf) as (os & g' & s' & Ho & P); [destruct body; discriminate|].
    apply Forall2_app_inv_l in Ho as (ob & orest & Hob & Hor & ->). inversion Hor as [|? o ? orest' [H1 H2] _]; subst.
    destruct (pulls_app _ _ _ _ _ _ _ P) as (g1 & s1 & P1 & P2). inversion P2 as [|? ? ? g2 s2 ? ? ? E _]; subst.
    destruct (through decode absent dec enc need body ob _ _ g1 s1 Hob Hb Ab P1) as (xs & X & Y).
    destruct (made decode absent need m (enc o) o H1 H2 Af) as (M1 & _).
    assert (En : n = List.length body + S (n - S (List.length body))) by lia.
    assert (Er : fst (handle_message need o) = Raise UnexpectedResponseType).
    { unfold made_of in M1. destruct (rm_op m) eqn:Em; try exact M1; [now destruct (N2 _ _ _ eq_refl)|now destruct (N1 _ _ eq_refl)]. }
    exists xs. split; [exact X|]. rewrite En. unfold extended_handle. rewrite (Y _ (Failed UnexpectedResponseType) []); [now rewrite app_nil_r|].
    cbn [responses xh_gen xh_need xh_done]. rewrite E. destruct (handle_message need o) as [x d]. cbn [fst] in Er. subst x. reflexivity.
  Qed.

  (** recv_response, called again and again, gives one response after the other; an error spoils only its own call. *)
  Theorem C98_recv_response dec enc ms objs chunks k need l rest :
    frames enc objs dec -> server_sends enc ms objs -> List.concat chunks = List.concat (map enc objs) ->
    for_id k ms = (l ++ rest)%list -> Forall oids_ascii l ->
    exists rs, recv_times dec (List.length l) (extended_handle (Z.to_N k) need) (arriving chunks) = Some rs /\ Forall2 (made_of absent decode need) l rs.
  Proof.
    intros Hdec Hs Hch Hf Ha. destruct l as [|m l]; [exists []; split; [reflexivity|constructor]|].
    destruct (all_pulled dec enc ms objs chunks k _ Hdec Hs Hch Hf) as (os & g' & s' & Ho & P); [discriminate|].
    apply Forall2_app_inv_l in Ho as (ob & orest & Hob & _ & ->). destruct (pulls_app _ _ _ _ _ _ _ P) as (g1 & s1 & P1 & _).
    exact (each decode absent dec enc need _ _ _ _ _ false g1 s1 Hob Ha P1 eq_refl).
  Qed.

  (** Who Am I?: the text of the value of a successful response; of another kind or code it is an error. *)
  Theorem C98_who_am_i dec enc ms objs chunks k m rest :
    frames enc objs dec -> server_sends enc ms objs -> List.concat chunks = List.concat (map enc objs) ->
    for_id k ms = m :: rest -> oids_ascii m ->
    exists a, who_am_i_answer decode absent dec (Z.to_N k) (arriving chunks) = Some a /\
    match rm_op m with
    | RExtendedResponse r _ v => if (rr_code r =? 0)%Z then forall x s, v = Some x -> decode x = Some s -> a = Ok s else a = Raise LDAPError
    | RIntermediateResponse _ _ => True
    | _ => a = Raise UnexpectedResponseType
    end.
  Proof.
    intros Hdec Hs Hch Hf Ha. destruct (all_pulled dec enc ms objs chunks k _ Hdec Hs Hch Hf) as (os & g' & s' & Ho & P); [discriminate|].
    inversion Ho as [|? o ? os' [H1 H2] _]; subst. inversion P as [|? ? ? g1 s1 ? ? ? E _]; subst.
    pose proof (C81_who_am_i decode absent m (enc o) o H1 H2) as W.
    unfold who_am_i_answer, recv_response, extended_handle. cbn [xh_gen xh_need xh_done]. rewrite E.
    assert (G : match fst (handle_message true o) with Ok (xr, _) => Ok (get_string_component decode absent xr "responseValue") | Raise e => Raise e end
                = who_am_i_result decode absent o).
    { unfold who_am_i_result, handle_msg, handle_message. rewrite (received_value _ _ _ H1 H2), !unpack_message.
      destruct (String.eqb (op_name (rm_op m)) "intermediateResponse"); [reflexivity|]. destruct (String.eqb (op_name (rm_op m)) "extendedResp"); [|reflexivity].
      cbn [bind fst]. destruct (true && _); reflexivity. }
    destruct (handle_message true o) as [r d]. cbn [fst] in G. exists (who_am_i_result decode absent o).
    split; [rewrite <- G; destruct r as [[xr c]|e]; reflexivity|]. destruct (rm_op m) eqn:Em; try exact W; try exact I.
  Qed.

  (** The server says goodbye in the middle: LDAPUnsolicitedMessage, after the responses that came before. *)
  Theorem C98_notice dec enc ms objs u uo chunks x k need n :
    frames enc (objs ++ [uo]) dec -> server_sends enc ms objs -> e_message u (enc uo) -> received (enc uo) uo -> rm_id u = 0%Z ->
    List.concat chunks = (List.concat (map enc (objs ++ [uo])) ++ x)%list ->
    (0 < k)%Z -> Forall is_intermediate (for_id k ms) -> Forall oids_ascii (for_id k ms) -> List.length (for_id k ms) < n ->
    exists xs, Forall2 shows (for_id k ms) xs /\
      responses dec n (extended_handle (Z.to_N k) need) (arriving chunks) = Some (xs, Failed LDAPUnsolicitedMessage).
  Proof.
    intros Hdec Hs H1 H2 Hu Hch Hk Hi Ha Hn.
    assert (Hg : forall o, In o objs -> message_id o <> 0%N /\ good_obj enc (objs ++ [uo]) o).
    { intros o I. destruct (sent_ok _ _ _ Hs o I) as [I1 [_ I2]]. split; [exact I1|]. split; [apply in_or_app; now left|exact I2]. }
    assert (Hne : enc uo <> []) by (now apply message_nonempty in H1).
    assert (Hid : message_id uo = 0%N) by (rewrite (id_of _ _ _ H1 H2), Hu; reflexivity).
    assert (Hgu : good_obj enc (objs ++ [uo]) uo) by (split; [apply in_or_app; right; now left|exact Hne]).
    assert (Ht : tidy (arriving chunks)) by (intros j d; discriminate).
    assert (Hk' : Z.to_N k <> 0%N) by lia.
    pose proof (C97_read_until_notice message_id enc dec (good_obj enc (objs ++ [uo])) (Z.to_N k) objs uo x (arriving chunks)
                  (S (List.length (of_id message_id (Z.to_N k) objs))) (frames_codec enc _ dec Hdec) Hg Hid Hgu
                  Hch Ht Hk' (fun C => C) (le_n _)) as (s' & R & _).
    destruct (until_pulls _ _ _ _ _ _ _ R) as (g1 & s1 & P & E). cbn [waiting arriving s_queues List.app] in P. change (waiting (arriving chunks) (Z.to_N k)) with (@nil obj) in P. cbn [List.app] in P.
    pose proof (sent_filter _ _ _ k ltac:(lia) Hs) as Hs'. change (of_msg k ms) with (for_id k ms) in Hs'.
    destruct (through decode absent dec enc need _ _ _ _ g1 s1 (sent_of _ _ _ Hs') Hi Ha P) as (xs & X & Y).
    exists xs. split; [exact X|]. replace n with (List.length (for_id k ms) + S (n - S (List.length (for_id k ms)))) by lia. unfold extended_handle.
    rewrite (Y _ (Failed LDAPUnsolicitedMessage) []); [now rewrite app_nil_r|]. cbn [responses xh_gen]. now rewrite E.
  Qed.
End C98.

(** ** A concrete case: two intermediate responses and the extended response of operation 7, and an answer to operation 8 in
    between, arriving octet by octet *)
Definition ex_step (n : N) : rmessage := mk_rm 7 (RIntermediateResponse (Some (lit "1.2")) (Some [n])) None.
Definition ex_last : rmessage := mk_rm 7 (RExtendedResponse (mk_rr 0 [] (lit "ok") None) None (Some (lit "u:x"))) None.
Definition ex_ext : list rmessage := [ex_step 1; ex_answer8; ex_step 2; ex_last].
Example C98_nonvacuous : exists enc objs dec xs,
  server_sends enc ex_ext objs /\ frames enc objs dec /\
  let chunks := map (fun x => [x]) (List.concat (map enc objs)) in
  responses dec 3 (extended_handle 7 true) (arriving chunks) = Some (xs, Finished) /\
  Forall2 (shows [] utf8_dec) [ex_step 1; ex_step 2; ex_last] xs /\
  List.length xs = 3 /\ who_am_i_answer utf8_dec [] dec 8 (arriving chunks) = Some (Raise UnexpectedResponseType).
Proof.
  assert (V1 : forall n, valid_message (ex_step n)) by (intros n; split; [split; discriminate | exact I]).
  assert (V2 : valid_message ex_answer8) by (split; [split; discriminate | cbn; repeat split; discriminate]).
  assert (V3 : valid_message ex_last) by (split; [split; discriminate | cbn; repeat split; discriminate]).
  destruct (can_send ex_ext) as (enc & Hs).
  { unfold ex_ext. assert (W : forall m, valid_message m -> (len_message m < 256 ^ 126)%N -> rm_id m <> 0%Z -> (exists b, e_message m b) /\ rm_id m <> 0%Z).
    { intros m V L Z. destruct (some_message m V L) as (b & Hb & _). eauto. }
    apply Forall_cons; [apply W; [apply V1|reflexivity|discriminate]|]. apply Forall_cons; [apply W; [apply V2|reflexivity|discriminate]|].
    apply Forall_cons; [apply W; [apply V1|reflexivity|discriminate]|]. apply Forall_cons; [apply W; [apply V3|reflexivity|discriminate]|]. apply Forall_nil. }
  destruct (C91_decoder_exists _ _ _ Hs) as (dec & Hdec). destruct (octet_chunks (List.concat (map enc (map msg_obj ex_ext)))) as [Hch _].
  destruct (C98_responses utf8_dec [] dec enc ex_ext _ _ 7 true [ex_step 1; ex_step 2] ex_last [] (mk_rr 0 [] (lit "ok") None) None (Some (lit "u:x")) 3 Hdec Hs Hch eq_refl) as (xs & X).
  - repeat (apply Forall_cons; [eexists; eexists; reflexivity|]). apply Forall_nil.
  - reflexivity.
  - repeat (apply Forall_cons; [exact I|]). apply Forall_nil.
  - auto.
  - cbn [rr_code Z.eqb andb negb List.app] in X. destruct X as [X1 X2]. exists enc, (map msg_obj ex_ext), dec, xs. split; [exact Hs|]. split; [exact Hdec|]. split; [exact X2|]. split; [exact X1|].
    split; [now rewrite <- (Forall2_len _ _ _ X1)|].
    destruct (C98_who_am_i utf8_dec [] dec enc ex_ext _ _ 8 ex_answer8 [] Hdec Hs Hch eq_refl I) as (a & Ea & ->). exact Ea.
Qed.

(** The notice of disconnection of C97 after one intermediate response, with an octet after it. *)
Example C98_nonvacuous_notice : exists enc objs uo dec xs,
  server_sends enc [ex_step 1] objs /\ e_message ex_notice (enc uo) /\ received (enc uo) uo /\ frames enc (objs ++ [uo]) dec /\
  responses dec 2 (extended_handle 7 true) (arriving [List.concat (map enc (objs ++ [uo])); [48%N]]) = Some (xs, Failed LDAPUnsolicitedMessage) /\
  Forall2 (shows [] utf8_dec) [ex_step 1] xs.
Proof.
  assert (V1 : valid_message (ex_step 1)) by (split; [split; discriminate | exact I]).
  assert (V2 : valid_message ex_notice) by (split; [split; discriminate | split; [split|]; discriminate]).
  destruct (some_message _ V1) as (b1 & H1 & _); [reflexivity|]. destruct (some_message _ V2) as (b2 & H2 & _); [reflexivity|].
  set (o1 := msg_obj (ex_step 1)). set (o2 := msg_obj ex_notice). set (enc := fun o => if N.eqb (message_id o) 0 then b2 else b1).
  assert (E1 : enc o1 = b1) by (vm_compute; reflexivity). assert (E2 : enc o2 = b2) by (vm_compute; reflexivity).
  assert (R1 : received b1 o1) by now apply msg_received. assert (R2 : received b2 o2) by now apply msg_received.
  assert (Hs : server_sends enc [ex_step 1] [o1]).
  { apply Forall2_cons; [rewrite E1; split; [exact H1|split; [exact R1|discriminate]]|apply Forall2_nil]. }
  assert (Hf : frames enc ([o1] ++ [o2]) (lookup_dec enc ([o1] ++ [o2]))).
  { apply each_frames. intros o [<-|[<-|[]]]; [exists (ex_step 1); rewrite E1|exists ex_notice; rewrite E2]; auto. }
  rewrite <- E2 in H2, R2.
  destruct (C98_notice utf8_dec [] _ enc [ex_step 1] [o1] ex_notice o2 [List.concat (map enc ([o1] ++ [o2])); [48%N]] [48%N] 7 true 2 Hf Hs H2 R2 eq_refl) as (xs & X1 & X2).
  - cbn [List.concat]. reflexivity.
  - reflexivity.
  - apply Forall_cons; [eexists; eexists; reflexivity|apply Forall_nil].
  - apply Forall_cons; [exact I|apply Forall_nil].
  - auto.
  - exists enc, [o1], o2, (lookup_dec enc ([o1] ++ [o2])), xs. auto 10.
Qed.

Print Assumptions C98_responses.
Print Assumptions C98_unexpected.
Print Assumptions C98_recv_response.
Print Assumptions C98_who_am_i.
Print Assumptions C98_notice.
