(** * Proofs about the way from octets to results *)
From Verif Require Import PyBase Model_Uri Model_Ldif Model_Controls Model_CIDict Model_Modify Model_Net Spec_Net Proofs_Net Model_Search Spec_Search Proofs_Search
  Model_Wire Spec_X690 Spec_Wire Spec_Wire2 Proofs_X690 Proofs_Wire Proofs_Wire3 Proofs_Wire4 Proofs_Wire6 Model_Reply Spec_Reply Proofs_Reply Props_Reply
  Model_Stream Spec_Stream.
Local Open Scope string_scope.

Lemma Forall2_len {A B} (R : A -> B -> Prop) l l' : Forall2 R l l' -> List.length l = List.length l'.
Proof. induction 1; cbn [List.length]; congruence. Qed.
Definition good_obj (enc : obj -> list N) (objs : list obj) (o : obj) : Prop := In o objs /\ enc o <> [].
Lemma frames_codec enc objs dec : frames enc objs dec -> codec_ok_on (good_obj enc objs) enc dec.
Proof.
  intros H. split; [|split].
  - intros o [_ A]. exact A.
  - intros o r [I _]. now apply H.
  - intros o a c [I _] E Hc. now apply (proj2 (H o I) a c).
Qed.
Lemma id_of m b lm : e_message m b -> received b lm -> message_id lm = Z.to_N (rm_id m).
Proof. intros A B. rewrite (received_value _ _ _ A B). reflexivity. Qed.
Lemma id_range m b : e_message m b -> (0 <= rm_id m)%Z.
Proof. intros [[H _] _]. exact H. Qed.

Lemma sent_ok enc ms objs : server_sends enc ms objs -> forall o, In o objs -> message_id o <> 0%N /\ good_obj enc objs o.
Proof.
  intros H.
  assert (G : forall o, In o objs -> message_id o <> 0%N /\ enc o <> []).
  { induction H as [|m o ms objs (A & B & Z) _ IH]; intros x [].
    - subst x. split; [|now apply message_nonempty in A]. rewrite (id_of _ _ _ A B). pose proof (id_range _ _ A). lia.
    - now apply IH. }
  intros o I. destruct (G o I). split; [|split]; auto.
Qed.
(** of messages sent, the one whose octets a text starts with *)
Fixpoint drop_prefix (p s : str) : option str :=
  match p, s with
  | [], _ => Some s
  | x :: p', y :: s' => if N.eqb x y then drop_prefix p' s' else None
  | _, [] => None
  end.
Lemma drop_prefix_spec p s r : drop_prefix p s = Some r <-> s = (p ++ r)%list.
Proof.
  revert s. induction p as [|x p IH]; intros s; cbn [drop_prefix app].
  - split; intros H; [injection H as ->|subst]; reflexivity.
  - destruct s as [|y s]; [split; discriminate|]. destruct (N.eqb_spec x y) as [->|Hne].
    + rewrite IH. split; [intros ->; reflexivity|intros H; injection H; auto].
    + split; [discriminate|intros H; injection H; intros; congruence].
Qed.
Fixpoint lookup_dec (enc : obj -> list N) (objs : list obj) (s : str) : option (obj * str) :=
  match objs with
  | [] => None
  | o :: os => match drop_prefix (enc o) s with Some r => Some (o, r) | None => lookup_dec enc os s end
  end.
Lemma lookup_dec_sound enc objs s o r : lookup_dec enc objs s = Some (o, r) -> In o objs /\ s = (enc o ++ r)%list.
Proof.
  induction objs as [|o' os IH]; [discriminate|]. cbn [lookup_dec In]. destruct (drop_prefix (enc o') s) as [r'|] eqn:E; intros H.
  - injection H as <- <-. apply drop_prefix_spec in E. auto.
  - destruct (IH H). auto.
Qed.
Lemma lookup_dec_some enc objs o r : In o objs -> lookup_dec enc objs (enc o ++ r)%list <> None.
Proof.
  induction objs as [|o' os IH]; [intros []|]. cbn [lookup_dec In]. intros I. destruct (drop_prefix (enc o') (enc o ++ r)%list) eqn:E; [discriminate|].
  destruct I as [->|I]; [|now apply IH]. assert (X : drop_prefix (enc o) (enc o ++ r)%list = Some r) by now apply drop_prefix_spec. congruence.
Qed.
Lemma sent_each enc ms objs o : server_sends enc ms objs -> In o objs -> exists m, e_message m (enc o) /\ received (enc o) o.
Proof. intros H. induction H as [|m o' ms objs (A & B & Z) _ IH]; [intros []|]. intros [->|I]; [exists m; auto|auto]. Qed.
Lemma lookup_dec_frames enc ms objs : server_sends enc ms objs -> frames enc objs (lookup_dec enc objs).
Proof.
  intros H o I. destruct (sent_each _ _ _ _ H I) as (m & A & B). split.
  - intros r. destruct (lookup_dec enc objs (enc o ++ r)%list) as [[o' r']|] eqn:E; [|now apply lookup_dec_some in E].
    apply lookup_dec_sound in E as [I' E]. destruct (sent_each _ _ _ _ H I') as (m' & A' & B').
    destruct (message_uniq _ _ _ _ _ _ A A' E) as (<- & _ & <-). rewrite (received_value _ _ _ A B), (received_value _ _ _ A' B'). reflexivity.
  - intros a c Ea Hc. destruct (lookup_dec enc objs a) as [[o' r']|] eqn:E; [|reflexivity]. exfalso.
    apply lookup_dec_sound in E as [I' ->]. destruct (sent_each _ _ _ _ H I') as (m' & A' & B').
    rewrite <- app_assoc in Ea. assert (E : (enc o ++ [])%list = (enc o' ++ (r' ++ c))%list) by (rewrite app_nil_r; exact Ea).
    destruct (message_uniq _ _ _ _ _ _ A A' E) as (_ & _ & E3). symmetry in E3. apply app_eq_nil in E3. destruct E3. contradiction.
Qed.
Definition of_msg (k : Z) (ms : list rmessage) : list rmessage := List.filter (fun m => (rm_id m =? k)%Z) ms.
Lemma sent_filter enc ms objs k : (0 <= k)%Z -> server_sends enc ms objs -> server_sends enc (of_msg k ms) (of_id message_id (Z.to_N k) objs).
Proof.
  intros Hk H. induction H as [|m o ms objs (A & B & Z) _ IH]; [constructor|]. unfold of_msg, of_id in *. cbn [List.filter].
  pose proof (id_of _ _ _ A B) as E. pose proof (id_range _ _ A). rewrite E.
  destruct (Z.eqb_spec (rm_id m) k) as [Ek|Ek].
  - subst k. rewrite N.eqb_refl. constructor; auto.
  - destruct (N.eqb_spec (Z.to_N (rm_id m)) (Z.to_N k)); [lia|exact IH].
Qed.

Section S.
  Context (decode : list N -> option str) (absent : str) (reg : registry) (builtin : str -> bool).
  Context (lower : str -> str) (urlparse : str -> str * str * str * str) (contact : ldapuri -> res unit).
  Notation as_reply := (as_reply decode absent).
  Notation handle := (handle_controls reg builtin).
  Notation given_value := (given_value decode).
  Lemma plain_value b : plain (value_of decode b) = given_value b.
  Proof. unfold plain, value_of, Spec_Stream.given_value. now destruct (decode b). Qed.
  Lemma plain_values l : map plain (map (value_of decode) l) = map given_value l.
  Proof. rewrite map_map. apply map_ext, plain_value. Qed.

  Lemma reply_of m b o : e_message m b -> received b o -> readable decode absent reg builtin lower urlparse m ->
    result_message handle lower urlparse (as_reply o) /\
    (forall i, item_for lower urlparse (as_reply o) i -> stands_for decode lower urlparse m i).
  Proof.
    intros A B [[Ho Hh] R]. unfold Model_Stream.as_reply, stands_for. destruct (rm_op m) as [| | | |dn attrs|r|uris| | | | | | | | | | | | | | ] eqn:E; try contradiction.
    - destruct R as (Hd & names & Hn & Hu). destruct (decode dn) as [dnt|] eqn:Ed; [|contradiction].
      assert (Hu' : NoDup names).
      { clear - Hu. induction names as [|x l IH]; [constructor|]. cbn [map] in Hu. inversion Hu as [|? ? Hx Hl]; subst. constructor; auto. intros Hin. now apply Hx, in_map. }
      rewrite (C81_entry decode absent m b o dn attrs dnt names A B Ho E Ed Hn Hu').
      set (avs := map _ (combine names _)).
      assert (Ea : avs = combine names (map (fun a => map given_value (snd a)) attrs)).
      { subst avs. clear - Hn. revert attrs Hn. induction names as [|x l IH]; intros attrs Hn; [reflexivity|]. destruct attrs as [|a attrs]; [discriminate|].
        cbn [map] in Hn. injection Hn as Hx Hn. cbn [map combine fst snd]. rewrite plain_values. f_equal. now apply IH. }
      rewrite Ea. clear avs Ea. split.
      + split; [|cbn [handle_controls bind]; exact Hh]. unfold names_distinct.
        assert (Ef : map (fun av : str * list str => lower (fst av)) (combine names (map (fun a => map given_value (snd a)) attrs)) = map lower names).
        { clear - Hn. revert attrs Hn. induction names as [|x l IH]; intros attrs Hn; [reflexivity|]. destruct attrs as [|a attrs]; [discriminate|].
          cbn [map] in Hn. injection Hn as Hx Hn. cbn [map combine fst snd]. f_equal. now apply IH. }
        rewrite Ef. exact Hu.
      + intros [ob|us] Hi; [|contradiction]. destruct Hi as [H1 H2]. split; [now rewrite H1|]. intros k vs. rewrite H2.
        assert (Hin : forall name, In (name, vs) (combine names (map (fun a => map given_value (snd a)) attrs)) <->
                 exists a, In a attrs /\ decode (fst a) = Some name /\ vs = map given_value (snd a)).
        { clear - Hn. revert attrs Hn. induction names as [|x l IH]; intros attrs Hn name.
          - destruct attrs as [|a attrs]; [|discriminate]. split; [intros []|intros (a & [] & _)].
          - destruct attrs as [|a attrs]; [discriminate|]. cbn [map] in Hn. injection Hn as Hx Hn. cbn [map combine In]. rewrite (IH attrs Hn). split.
            + intros [H|(a' & H & H')]; [injection H as -> <-; exists a; auto|exists a'; auto].
            + intros (a' & [->|H] & H3 & H4); [left; rewrite Hx in H3; injection H3 as ->; now rewrite H4|right; eauto]. }
        split.
        * intros (name & Hm & Hl). apply Hin in Hm as (a & Hm1 & Hm2 & Hm3). exists a, name. auto.
        * intros (a & name & Hm1 & Hm2 & Hl & Hm3). exists name. split; [apply Hin; exists a; auto|exact Hl].
    - pose proof (C81_done_and_references decode absent m b o A B Ho) as D. rewrite E in D. rewrite D. rewrite plain_values. split.
      + split; [exact R|]. cbn [handle_controls bind]. exact Hh.
      + intros [ob|us] Hi; [contradiction|exact Hi].
  Qed.
End S.
Section S2.
  Context (decode : list N -> option str) (absent : str) (reg : registry) (builtin : str -> bool).
  Lemma reply_done m b o r : e_message m b -> received b o -> rm_op m = RSearchResultDone r -> controls_fine absent reg builtin m ->
    exists uris c, as_reply decode absent o = RDone (code_number (rr_code r)) uris c /\ handle_controls reg builtin c = Ok tt /\ end_of (code_number (rr_code r)) = end_for (rr_code r).
  Proof.
    intros A B E [Ho Hh]. pose proof (C81_done_and_references decode absent m b o A B Ho) as D. rewrite E in D.
    unfold Model_Stream.as_reply. rewrite D. eexists. eexists. split; [reflexivity|]. split; [exact Hh|].
    unfold end_of, end_for, code_number. destruct (Z.ltb_spec (rr_code r) 0).
    - destruct (Z.eqb_spec (rr_code r) 0), (Z.eqb_spec (rr_code r) 10), (Z.eqb_spec (rr_code r) 32); try lia. reflexivity.
    - destruct (Z.eqb_spec (rr_code r) 0), (Z.eqb_spec (rr_code r) 10), (Z.eqb_spec (rr_code r) 32);
        destruct (N.eqb_spec (Z.to_N (rr_code r)) 0), (N.eqb_spec (Z.to_N (rr_code r)) 10), (N.eqb_spec (Z.to_N (rr_code r)) 32); try lia; reflexivity.
  Qed.
End S2.
