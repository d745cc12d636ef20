(** * C91: from the octets the server sends to what a search yields and an operation returns *)
From Verif Require Import PyBase Model_Uri Model_Ldif Model_Controls Model_CIDict Model_Modify Model_Net Spec_Net Proofs_Net Props_Net Model_Search Spec_Search Props_Search
  Model_Wire Spec_X690 Spec_Wire Proofs_Wire4 Spec_Wire2 Proofs_X690 Proofs_Wire Proofs_Wire3 Proofs_Wire6 Proofs_Utf8 Model_Reply Spec_Reply Proofs_Reply Props_Reply Model_Stream Spec_Stream Proofs_Stream.
Local Open Scope string_scope.

(** ** Searching *)
Section C91.
  Context (decode : list N -> option str) (absent : str) (reg : registry) (builtin : str -> bool)
          (lower : str -> str) (urlparse : str -> str * str * str * str) (contact : ldapuri -> res unit).
  Notation readable := (readable decode absent reg builtin lower urlparse).
  Notation stands_for := (stands_for decode lower urlparse).

  (** A server sends messages, of any IDs, in any encoding RFC 4511 allows, and the octets arrive in any pieces.  Those
      with the ID of the search are [body], then the searchResDone [done], then maybe more; [extra] of these are read
      too.  Iteration over the results yields, for each of [body] in order, what stands for it: nothing is lost,
      repeated, mixed up or altered; and it ends as the result code says. *)
  Theorem C91_search_results dec enc ms objs chunks k body done rest extra r h tags :
    frames enc objs dec -> server_sends enc ms objs -> List.concat chunks = List.concat (map enc objs) ->
    List.filter (fun m => (rm_id m =? k)%Z) ms = (body ++ done :: rest)%list ->
    Forall readable body -> rm_op done = RSearchResultDone r -> controls_fine absent reg builtin done ->
    h_abandoned h = false -> h_tag h = None -> h_fetch_refs h = false -> h_follow h = false ->
    extra <= List.length rest ->
    exists items unread,
      search_from decode absent reg builtin lower urlparse contact dec (S (List.length body + extra)) (Z.to_N k) chunks h tags
        = Some (items, end_for (rr_code r), unread, set_done h, tags) /\
      List.length unread = extra /\
      Forall2 stands_for body items.
  Proof.
    intros Hdec Hs Hch Hf Hb Hd Hcd Ha Ht Hr Hfo Hex.
    assert (Hk : (0 <= k)%Z).
    { assert (Hin : In done (List.filter (fun m => (rm_id m =? k)%Z) ms)) by (rewrite Hf; apply in_or_app; right; left; reflexivity).
      apply filter_In in Hin. destruct Hin as [Hin Hid]. apply Z.eqb_eq in Hid. subst k.
      clear - Hs Hin. induction Hs as [|m o ms objs (A & _) _ IH]; [destruct Hin|]. destruct Hin as [->|Hin]; [exact (id_range _ _ A)|auto]. }
    pose proof (sent_filter _ _ _ k Hk Hs) as Hs'. unfold of_msg in Hs'. rewrite Hf in Hs'.
    set (mine := of_id message_id (Z.to_N k) objs) in *.
    assert (Hlen : S (List.length body + extra) <= List.length mine).
    { rewrite <- (Forall2_len _ _ _ Hs'), app_length. cbn [List.length]. lia. }
    pose proof (C20_single_reader_any_chunking message_id (good_obj enc objs) enc dec objs chunks (Z.to_N k) (S (List.length body + extra))
                  (frames_codec enc objs dec Hdec) (sent_ok _ _ _ Hs) Hch Hlen) as Hread.
    unfold search_from.
    match goal with |- context [option_map ?f ?t] => change (option_map f t) with (option_map f (reads message_id dec (S (List.length body + extra)) (recv_messages (Z.to_N k)) (mk_sock (fun _ => None) 0 chunks []))) end.
    rewrite Hread. cbn [option_map]. fold mine.
    unfold server_sends in Hs'. apply Forall2_app_inv_l in Hs' as (ob & orest & Hob & Hor & Em). rewrite Em.
    inversion Hor as [|? od ? orest' (A & B & _) Hrest]; subst.
    assert (El : List.length body = List.length ob) by (exact (Forall2_len _ _ _ Hob)).
    assert (Efirst : firstn (S (List.length body + extra)) (ob ++ od :: orest') = (ob ++ od :: firstn extra orest')%list).
    { rewrite firstn_app, El. rewrite firstn_all2 by lia. replace (S (List.length ob + extra) - List.length ob) with (S extra) by lia. reflexivity. }
    rewrite Efirst, map_app. cbn [map].
    destruct (reply_done decode absent reg builtin done (enc od) od r A B Hd Hcd) as (uris & c & -> & Hc & Hend).
    assert (Hbody : Forall (result_message (handle_controls reg builtin) lower urlparse) (map (as_reply decode absent) ob) /\
              forall items, Forall2 (item_for lower urlparse) (map (as_reply decode absent) ob) items -> Forall2 stands_for body items).
    { clear - Hob Hb. induction Hob as [|m o body ob (A & B & _) _ IH]; [split; [constructor|]; intros items H; inversion H; constructor|].
      inversion Hb as [|? ? R Rs]; subst. destruct (IH Rs) as [I1 I2]. destruct (reply_of decode absent reg builtin lower urlparse m (enc o) o A B R) as [R1 R2].
      split; [constructor; auto|]. intros items H. cbn [map] in H. inversion H; subst. constructor; auto. }
    destruct Hbody as [Hb1 Hb2].
    destruct (C45_all_results_in_order_partial _ (handle_controls reg builtin) lower urlparse contact h tags _ (code_number (rr_code r)) uris c
                (map (as_reply decode absent) (firstn extra orest')) Ha Ht Hr Hfo Hb1 Hc) as (items & Hi & E).
    exists items, (map (as_reply decode absent) (firstn extra orest')). rewrite E, Hend. split; [reflexivity|]. split; [|apply Hb2, Hi].
    rewrite map_length, firstn_length. rewrite (Forall2_len _ _ _ Hrest) in Hex. lia.
  Qed.

End C91.
Section C91b.
  Context (decode : list N -> option str) (absent : str) (reg : registry) (builtin : str -> bool).
  (** ** Operations: bind, modify, delete and mod_dn take the first message with their ID, and do as it says. *)
  Theorem C91_operation dec enc ms objs chunks k m rest op :
    frames enc objs dec -> server_sends enc ms objs -> List.concat chunks = List.concat (map enc objs) ->
    List.filter (fun m => (rm_id m =? k)%Z) ms = m :: rest -> oids_ascii m ->
    In op ["bindResponse"; "modifyResponse"; "delResponse"; "modDNResponse"] ->
    operation_from decode absent reg builtin dec (Z.to_N k) chunks op =
    Some match answer op (rm_op m) with
         | None => Raise UnexpectedResponseType
         | Some r => if (rr_code r =? 0)%Z
                     then let (o, attrs) := handle_response reg builtin [] (controls_in absent m) in let* _ := o in Ok attrs
                     else Raise LDAPError
         end.
  Proof.
    intros Hdec Hs Hch Hf Ho Hop.
    assert (Hk : (0 <= k)%Z).
    { assert (Hin : In m (List.filter (fun m => (rm_id m =? k)%Z) ms)) by (rewrite Hf; left; reflexivity).
      apply filter_In in Hin. destruct Hin as [Hin Hid]. apply Z.eqb_eq in Hid. subst k.
      clear - Hs Hin. induction Hs as [|m' o ms objs (A & _) _ IH]; [destruct Hin|]. destruct Hin as [->|Hin]; [exact (id_range _ _ A)|auto]. }
    pose proof (sent_filter _ _ _ k Hk Hs) as Hs'. unfold of_msg in Hs'. rewrite Hf in Hs'.
    inversion Hs' as [|? o ? os (A & B & _) Hrest Em Eo]; subst.
    assert (Hlen : 1 <= List.length (of_id message_id (Z.to_N k) objs)) by (rewrite <- Eo; cbn [List.length]; lia).
    pose proof (C20_single_reader_any_chunking message_id (good_obj enc objs) enc dec objs chunks (Z.to_N k) 1
                  (frames_codec enc objs dec Hdec) (sent_ok _ _ _ Hs) Hch Hlen) as Hread.
    rewrite <- Eo in Hread. cbn [firstn reads] in Hread. unfold operation_from, recv_one.
    destruct (gen_next message_id dec (recv_messages (Z.to_N k)) (mk_sock (fun _ => None) 0 chunks [])) as [m' g' s'| | | |]; try discriminate.
    injection Hread as ->. f_equal. now apply (C81_result decode absent reg builtin op m (enc o) o).
  Qed.
End C91b.

(** For all that a server may send there is a decoder that frames it. *)
Theorem C91_decoder_exists enc ms objs : server_sends enc ms objs -> exists dec, frames enc objs dec.
Proof. intros H. exists (lookup_dec enc objs). exact (lookup_dec_frames enc ms objs H). Qed.

(** ** A concrete case: two entries and the end of search 7, and in between an answer to operation 8, arriving octet by
    octet *)
Definition ex_answer8 : rmessage := mk_rm 8 (RDelResponse (mk_rr 0 [] [] None)) None.
Definition ex_end : rmessage := mk_rm 7 (RSearchResultDone (mk_rr 0 [] [] None)) None.
Definition ex_sent : list rmessage := [ex_entry; ex_answer8; ex_entry; ex_end].

Definition ex_handle : shandle := mk_handle false false false false None.
Example C91_nonvacuous : exists enc objs dec items,
  server_sends enc ex_sent objs /\ frames enc objs dec /\
  search_from utf8_dec [] empty_registry (fun _ => false) ascii_lower (fun _ => ([], [], [], [])) (fun _ => Raise LDAPConnectionError) dec 3 7
    (map (fun x => [x]) (List.concat (map enc objs))) ex_handle []
  = Some (items, Finished, [], set_done ex_handle, []) /\
  Forall2 (stands_for utf8_dec ascii_lower (fun _ => ([], [], [], []))) [ex_entry; ex_entry] items /\
  operation_from utf8_dec [] empty_registry (fun _ => false) dec 8 (map (fun x => [x]) (List.concat (map enc objs))) "delResponse" = Some (Ok []).
Proof.
  assert (V1 : valid_message ex_entry) by (split; [split; discriminate | exact I]).
  assert (V2 : valid_message ex_answer8) by (split; [split; discriminate | cbn; repeat split; discriminate]).
  assert (V3 : valid_message ex_end) by (split; [split; discriminate | cbn; repeat split; discriminate]).
  destruct (some_message _ V1) as (b1 & H1 & _); [reflexivity|]. destruct (some_message _ V2) as (b2 & H2 & _); [reflexivity|].
  destruct (some_message _ V3) as (b3 & H3 & _); [reflexivity|].
  set (o1 := mk_obj cLDAPMessage (v_message ex_entry)). set (o2 := mk_obj cLDAPMessage (v_message ex_answer8)). set (o3 := mk_obj cLDAPMessage (v_message ex_end)).
  set (enc := fun o => if N.eqb (message_id o) 8 then b2 else match search_message utf8_dec [] o with Ok (FEntry _ _, _) => b1 | _ => b3 end).
  assert (E1 : enc o1 = b1) by (vm_compute; reflexivity). assert (E2 : enc o2 = b2) by (vm_compute; reflexivity).
  assert (E3 : enc o3 = b3) by (vm_compute; reflexivity).
  assert (R1 : received b1 o1) by (split; [reflexivity | apply message_ber in H1; apply H1]).
  assert (R2 : received b2 o2) by (split; [reflexivity | apply message_ber in H2; apply H2]).
  assert (R3 : received b3 o3) by (split; [reflexivity | apply message_ber in H3; apply H3]).
  assert (Hs : server_sends enc ex_sent [o1; o2; o1; o3]).
  { unfold ex_sent, server_sends. assert (Z1 : rm_id ex_entry <> 0%Z) by discriminate. assert (Z2 : rm_id ex_answer8 <> 0%Z) by discriminate.
    assert (Z3 : rm_id ex_end <> 0%Z) by discriminate.
    apply Forall2_cons; [rewrite E1; split; [exact H1 | split; [exact R1 | exact Z1]]|].
    apply Forall2_cons; [rewrite E2; split; [exact H2 | split; [exact R2 | exact Z2]]|].
    apply Forall2_cons; [rewrite E1; split; [exact H1 | split; [exact R1 | exact Z1]]|].
    apply Forall2_cons; [rewrite E3; split; [exact H3 | split; [exact R3 | exact Z3]]|]. apply Forall2_nil. }
  destruct (C91_decoder_exists _ _ _ Hs) as (dec & Hdec).
  assert (Hch : List.concat (map (fun x : N => [x]) (List.concat (map enc [o1; o2; o1; o3]))) = List.concat (map enc [o1; o2; o1; o3])).
  { generalize (List.concat (map enc [o1; o2; o1; o3])). induction l as [|x l IH]; [reflexivity|]. cbn [map List.concat app]. now rewrite IH. }
  destruct (C91_search_results utf8_dec [] empty_registry (fun _ => false) ascii_lower (fun _ => ([], [], [], [])) (fun _ => Raise LDAPConnectionError)
     dec enc ex_sent [o1; o2; o1; o3] _ 7 [ex_entry; ex_entry] ex_end [] 0 (mk_rr 0 [] [] None) ex_handle [] Hdec Hs Hch eq_refl)
    as (items & unread & E & Hu & F); try reflexivity.
  - assert (R : readable utf8_dec [] empty_registry (fun _ => false) ascii_lower (fun _ => ([], [], [], [])) ex_entry).
    { split; [split; [exact I | reflexivity]|]. cbn [rm_op ex_entry]. split; [vm_compute; discriminate|].
      exists (map lit ["cn"; "jpegPhoto"; "sn"]). split; [vm_compute; reflexivity|]. repeat constructor; cbn; intuition discriminate. }
    constructor; [exact R|]. constructor; [exact R|constructor].
  - split; [exact I | reflexivity].
  - destruct unread; [|discriminate]. exists enc, [o1; o2; o1; o3], dec, items. split; [exact Hs|]. split; [exact Hdec|]. split; [exact E|]. split; [exact F|].
    refine (C91_operation utf8_dec [] empty_registry (fun _ => false) dec enc ex_sent [o1; o2; o1; o3] _ 8 ex_answer8 [] "delResponse" Hdec Hs Hch eq_refl I _).
    cbn; tauto.
Qed.

Print Assumptions C91_search_results.
Print Assumptions C91_operation.
Print Assumptions C91_decoder_exists.
