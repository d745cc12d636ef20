(** * C97: unsolicited messages *)
From Verif Require Import PyBase Model_Ldif Model_Net Spec_Net Proofs_Net Model_Wire Spec_X690 Spec_Wire Spec_Wire2 Proofs_X690 Proofs_Wire Proofs_Wire3 Proofs_Wire4 Proofs_Wire6
  Model_Reply Spec_Reply Proofs_Reply Proofs_Utf8 Props_Reply Model_Notice Spec_Notice Proofs_Notice.

(** ** Reading *)

(** The server sends messages [pre] and then the unsolicited [u], and [u] has arrived, in whatever pieces; whatever [x] comes
    after it.  A reader of any other ID that is not abandoned gives what was kept for it and then its messages of [pre], in
    order, and then raises LDAPUnsolicitedMessage with [u] - the next call does, not a later one; nothing of its ID is kept;
    the messages of all other IDs are kept for their readers; what is lost is part of what came after [u]. *)
Theorem C97_read_until_notice {M} (mid : M -> N) (enc : M -> str) (dec : str -> option (M * str)) (good : M -> Prop) k pre u x s n :
  codec_ok_on good enc dec -> (forall m, In m pre -> mid m <> 0%N /\ good m) -> mid u = 0%N -> good u ->
  List.concat (s_pending s) = stream enc (pre ++ [u]) ++ x -> tidy s -> k <> 0%N -> ~ In k (s_abandoned s) ->
  List.length (waiting s k ++ of_id mid k pre) < n ->
  exists s', read_until_notice mid dec n (recv_messages k) s = Some (waiting s k ++ of_id mid k pre, u, s') /\
    waiting s' k = [] /\ (forall j, j <> k -> waiting s' j = waiting s j ++ of_id mid j pre) /\
    tidy s' /\ s_abandoned s' = s_abandoned s /\ exists lost, lost ++ List.concat (s_pending s') = x.
Proof.
  intros Hc Hp Hu Hg E Ht Hk Hab Hn. destruct s as [q f pend ab]. cbn [s_pending s_abandoned s_queues] in *.
  assert (Hb : Forall (fine mid good) pre) by (apply Forall_forall; exact Hp).
  assert (Hab' : existsb (N.eqb k) ab = false).
  { apply Bool.not_true_is_false. intros C. apply existsb_exists in C as (y & I & Ey). apply N.eqb_eq in Ey. subst y. contradiction. }
  assert (E' : g_raw (recv_messages k) ++ List.concat pend = rest enc u x pre).
  { cbn [recv_messages g_raw List.app]. rewrite E. unfold rest, stream. rewrite map_app, concat_app. cbn [map List.concat]. now rewrite app_nil_r, <- app_assoc. }
  destruct (until mid enc dec good Hc k Hk u Hu Hg x ab n Hab' (recv_messages k) q f pend pre (Logic.conj eq_refl eq_refl) E' Hb Ht Hn) as (s' & R & H1 & H2 & H3 & H4 & H5).
  exists s'. split; [exact R|]. split; [unfold waiting; now rewrite H3|]. split; [exact H4|]. split; [exact H2|]. split; [exact H1|exact H5].
Qed.

(** One message only (recv_one, which every operation but search and extended operations uses): the first for the ID; if there
    is none, the notice is raised: no operation waits for an answer with an unread notice in front of it. *)
Theorem C97_recv_one {M} (mid : M -> N) (enc : M -> str) (dec : str -> option (M * str)) (good : M -> Prop) k pre u x s :
  codec_ok_on good enc dec -> (forall m, In m pre -> mid m <> 0%N /\ good m) -> mid u = 0%N -> good u ->
  List.concat (s_pending s) = stream enc (pre ++ [u]) ++ x -> tidy s -> k <> 0%N -> ~ In k (s_abandoned s) ->
  match waiting s k ++ of_id mid k pre with
  | m :: _ => exists g s', recv_one mid dec k s = Yield m g s'
  | [] => exists s', recv_one mid dec k s = Unsolicited u s' /\ forall j, waiting s' j = waiting s j ++ of_id mid j pre
  end.
Proof.
  intros Hc Hp Hu Hg E Ht Hk Hab.
  destruct (C97_read_until_notice mid enc dec good k pre u x s (1 + List.length (waiting s k ++ of_id mid k pre)) Hc Hp Hu Hg E Ht Hk Hab ltac:(lia))
    as (s' & R & H1 & H2 & _). unfold recv_one. cbn [Nat.add read_until_notice] in R.
  destruct (gen_next mid dec (recv_messages k) s) as [m g' s1|s1|m s1|r s1|]; try discriminate.
  - destruct (read_until_notice mid dec (List.length (waiting s k ++ of_id mid k pre)) g' s1) as [[[l v] s2]|]; [|discriminate].
    injection R as E1 _ _. rewrite <- E1. eauto.
  - injection R as E1 -> ->. rewrite <- E1. exists s'. split; [reflexivity|]. intros j. destruct (N.eq_dec j k) as [->|Hj]; [now rewrite H1, <- E1|now apply H2].
Qed.

(** What is kept for an ID is given without touching the connection. *)
Theorem C97_kept_for_later {M} (mid : M -> N) (dec : str -> option (M * str)) k s m l : waiting s k = m :: l ->
  exists g s', recv_one mid dec k s = Yield m g s' /\ waiting s' k = l /\ (forall j, j <> k -> waiting s' j = waiting s j) /\ s_pending s' = s_pending s.
Proof.
  destruct s as [q f pend ab]. unfold waiting, recv_one, recv_messages, gen_next. cbn [s_queues s_pending g_pc g_want g_raw].
  intros E. destruct (q k) as [[d l0]|] eqn:Eq; [|discriminate]. subst l0.
  assert (T : top mid dec pend ab k true q f [] = match flush_one q k with Some (m, d, q') => Yield m (mk_gen k (InFlush d) []) (mk_sock q' f pend ab) | None => top mid dec pend ab k true q f [] end).
  { unfold flush_one. rewrite Eq. destruct pend, l; cbn [top]; unfold flush_one; now rewrite Eq. }
  rewrite T. unfold flush_one. rewrite Eq. destruct l as [|m1 l]; do 2 eexists; (split; [reflexivity|]); cbn [s_queues s_pending]; unfold qset.
  - split; [now rewrite N.eqb_refl|]. split; [|reflexivity]. intros j Hj. now destruct (N.eqb_spec j k).
  - split; [now rewrite N.eqb_refl|]. split; [|reflexivity]. intros j Hj. now destruct (N.eqb_spec j k).
Qed.

(** A reader of an abandoned ID does not meet the notice: it ends once nothing is kept for it. *)
Theorem C97_abandoned {M} (mid : M -> N) (dec : str -> option (M * str)) k s :
  In k (s_abandoned s) -> s_queues s k = None -> recv_one mid dec k s = Stop s.
Proof.
  destruct s as [q f pend ab]. unfold recv_one, recv_messages, gen_next. cbn [s_abandoned s_queues g_pc g_want g_raw].
  intros I E. assert (H : existsb (N.eqb k) ab = true) by (apply existsb_exists; exists k; split; [exact I|apply N.eqb_refl]).
  destruct pend; cbn [top]; unfold flush_one; now rewrite E, H.
Qed.

(** ** The text of the exception *)
Local Open Scope string_scope.
Section Text.
  Context (decode : list N -> option str) (absent : str) (code_text : Z -> str).
  Notation text := (notice_text decode absent code_text).
  (** An extended response, the only kind RFC 4511 has: what kind of notice it is, its code and its diagnostic message, and an
      explanation for some codes, with the text of a missing value for a missing name; unless they cannot be read as text.  Other kinds of messages have a text of their own. *)
  Theorem C97_text m b lm : absent <> lit "1.3.6.1.4.1.1466.20036" -> e_message m b -> received b lm ->
    match rm_op m with
    | RExtendedResponse r name _ =>
        let readable := match name with Some oid => Forall (fun c => (c < 128)%N) oid | None => True end in
        match decode (rr_diag r) with
        | Some diag =>
            readable ->
            text lm = (lit "Got unsolicited message: " ++ kind absent name ++ lit ": " ++ code_text (rr_code r) ++ lit ": " ++ diag ++ advice (rr_code r))%list
        | None => text lm = lit "Received unsolicited message (default message - should never be seen)"
        end /\ (~ readable -> text lm = lit "Received unsolicited message (default message - should never be seen)")
    | _ => text lm = lit "Unhandled unsolicited message from server"
    end.
  Proof.
    intros Habs H R. rewrite (received_value _ _ _ H R). unfold notice_text, notice_parts. rewrite !unpack_message.
    destruct (rm_op m) eqn:E; try reflexivity. cbn [op_name String.eqb Ascii.eqb Bool.eqb bind]. clear - Habs.
    assert (C : code_of (mk_obj (op_class (RExtendedResponse r name v)) (op_value (RExtendedResponse r name v))) = rr_code r) by reflexivity.
    assert (D : component (mk_obj (op_class (RExtendedResponse r name v)) (op_value (RExtendedResponse r name v))) "diagnosticMessage" = Some (mk_obj cLDAPString (VOct (rr_diag r)))) by reflexivity.
    assert (Nm : component (mk_obj (op_class (RExtendedResponse r name v)) (op_value (RExtendedResponse r name v))) "responseName"
                 = match name with Some oid => Some (mk_obj cResponseName (VOct oid)) | None => None end) by (destruct name; reflexivity).
    rewrite C, D, Nm. cbn [text_or_absent]. rewrite (text_utf8 decode absent cLDAPString) by reflexivity.
    assert (T : text_or_absent decode absent match name with Some oid => Some (mk_obj cResponseName (VOct oid)) | None => None end
                = match name with Some oid => if forallb (fun c => N.ltb c 128) oid then Ok oid else Raise unicode_error | None => Ok absent end) by (destruct name; reflexivity).
    rewrite T. clear T Nm C D.
    assert (A : forall oid, forallb (fun c => N.ltb c 128) oid = true <-> Forall (fun c => (c < 128)%N) oid).
    { intros oid. rewrite forallb_forall, Forall_forall. split; intros G y I; specialize (G y I); apply N.ltb_lt; exact G. }
    assert (Ad : forall t : str, (if (rr_code r =? RESULT_protocolError)%Z
        then t ++ lit " (This may indicate an incompatability between laurelin-ldap and your server distribution)"
        else if (rr_code r =? RESULT_strongerAuthRequired)%Z
        then t ++ lit " (The server has detected that an established security association between the client and server has unexpectedly failed or been compromised)"
        else t)%list = (t ++ advice (rr_code r))%list).
    { intros t. unfold advice, RESULT_protocolError, RESULT_strongerAuthRequired. destruct (rr_code r) as [|[[?|?|]|[?|[?|[?|?|]|]|]|]|?]; cbn -[lit]; rewrite ?app_nil_r; reflexivity. }
    assert (Ka : (if str_eqb absent OID_DISCONNECTION_NOTICE then lit "Notice of Disconnection" else (lit "Unhandled (" ++ absent ++ lit ")")%list) = (lit "Unhandled (" ++ absent ++ lit ")")%list).
    { destruct (str_eqb_spec absent OID_DISCONNECTION_NOTICE) as [G|_]; [contradiction|reflexivity]. }
    assert (Kd : forall oid, kind absent (Some oid) = (if str_eqb oid OID_DISCONNECTION_NOTICE then lit "Notice of Disconnection" else (lit "Unhandled (" ++ oid ++ lit ")")%list)) by reflexivity.
    cbv zeta. split.
    - destruct (decode (rr_diag r)) as [diag|].
      + intros Hr. destruct name as [oid|].
        * rewrite (proj2 (A oid) Hr). cbn [bind]. rewrite Ad, Kd. now rewrite <- !app_assoc.
        * cbn [bind]. rewrite Ka, Ad. change (kind absent (@None (list N))) with (lit "Unhandled (" ++ absent ++ lit ")")%list. now rewrite <- !app_assoc.
      + destruct name as [oid|]; [destruct (forallb (fun c => N.ltb c 128) oid)|]; reflexivity.
    - intros Hr. destruct name as [oid|]; [|now destruct Hr]. destruct (forallb (fun c => N.ltb c 128) oid) eqn:F; [exfalso; apply Hr, A, F|reflexivity].
  Qed.
End Text.

(** ** Concrete cases: a reader of 1 whose messages, another one's, and a notice arrive in three pieces, with more after it;
    and the text of a notice of disconnection *)
Example C97_nonvacuous :
  let all := [(3%N, [9%N]); (1%N, [5%N]); (3%N, [8%N]); (1%N, []); (0%N, [7%N])] in
  let bytes := (stream toy_enc all ++ [3%N; 0%N; 1%N])%list in
  let s := mk_sock (fun k => if N.eqb k 1 then Some (0, [(1%N, [4%N])]) else None) 1 [firstn 4 bytes; firstn 5 (skipn 4 bytes); skipn 9 bytes] [2%N] in
  tidy s /\ exists s', read_until_notice fst toy_dec 9 (recv_messages 1) s = Some ([(1%N, [4%N]); (1%N, [5%N]); (1%N, [])], (0%N, [7%N]), s') /\
    waiting s' 3 = [(3%N, [9%N]); (3%N, [8%N])] /\ waiting s' 1 = [] /\ s_pending s' = [].
Proof.
  cbv zeta. split.
  - intros k d. cbn [s_queues]. destruct (N.eqb k 1); discriminate.
  - eexists. split; [vm_compute; reflexivity|]. split; [reflexivity|]. split; reflexivity.
Qed.
Definition ex_notice : rmessage := mk_rm 0 (RExtendedResponse (mk_rr 2 [] (utf8 [104; 233]%N) None) (Some (lit "1.3.6.1.4.1.1466.20036")) None) None.
Example C97_nonvacuous_text : exists b lm, e_message ex_notice b /\ received b lm /\
  notice_text utf8_dec [] (fun _ => lit "protocolError") lm =
    (lit "Got unsolicited message: Notice of Disconnection: protocolError: h" ++ [233%N] ++
     lit " (This may indicate an incompatability between laurelin-ldap and your server distribution)")%list.
Proof.
  assert (V : valid_message ex_notice) by (split; [split; discriminate | split; [split|]; discriminate]).
  destruct (some_message _ V) as (b & Hb & _); [reflexivity|]. destruct (C81_readable _ _ Hb) as (lm & R & _).
  exists b, lm. split; [exact Hb|]. split; [exact R|].
  pose proof (C97_text utf8_dec [] (fun _ => lit "protocolError") ex_notice b lm ltac:(discriminate) Hb R) as T.
  cbn [rm_op ex_notice rr_diag rr_code] in T. change (utf8_dec (utf8 [104; 233]%N)) with (Some [104; 233]%N) in T. destruct T as [T _].
  rewrite T; [reflexivity|]. change (lit "1.3.6.1.4.1.1466.20036") with [49; 46; 51; 46; 54; 46; 49; 46; 52; 46; 49; 46; 49; 52; 54; 54; 46; 50; 48; 48; 51; 54]%N.
  repeat (apply Forall_cons; [lia|]). apply Forall_nil.
Qed.

Print Assumptions C97_read_until_notice.
Print Assumptions C97_recv_one.
Print Assumptions C97_kept_for_later.
Print Assumptions C97_abandoned.
Print Assumptions C97_text.
