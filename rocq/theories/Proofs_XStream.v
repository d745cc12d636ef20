(** * Proofs about the responses of extended operations *)
From Verif Require Import PyBase Model_Ldif Model_Controls Model_Net Spec_Net Proofs_Net Props_Net Model_Search Model_Wire Spec_X690 Spec_Wire Proofs_X690 Proofs_Wire Proofs_Wire3 Proofs_Wire4 Spec_Wire2 Proofs_Wire6
  Model_Reply Spec_Reply Proofs_Reply Model_Stream Spec_Stream Proofs_Stream Model_XStream Spec_XStream Spec_Notice.
Local Open Scope string_scope.

Section P.
  Context (decode : list N -> option str) (absent : str).
  Lemma made need m b o : e_message m b -> received b o -> oids_ascii m ->
    made_of absent decode need m (fst (handle_message need o)) /\
    (is_intermediate m -> snd (handle_message need o) = false) /\
    (forall r n v, rm_op m = RExtendedResponse r n v -> snd (handle_message need o) = true).
  Proof.
    intros H R A. rewrite (received_value _ _ _ H R). unfold handle_message, made_of, is_intermediate. rewrite !unpack_message.
    pose proof (response_controls_ok decode absent m A) as C.
    destruct (rm_op m) as [| | | | | | | | | | | | | | | | | |oid v|r name v|name v] eqn:E;
      cbn [op_name String.eqb Ascii.eqb Bool.eqb fst snd]; try (split; [reflexivity|]; split; [intros (x & y & Z); discriminate|intros x y z Z; discriminate]).
    - assert (K : code_of (mk_obj (op_class (RExtendedResponse r name v)) (op_value (RExtendedResponse r name v))) = rr_code r) by reflexivity.
      rewrite K. unfold RESULT_success. split; [|split; [intros (x & y & Z); discriminate|reflexivity]].
      destruct (need && negb (rr_code r =? 0)%Z); [reflexivity|]. eexists. split; [reflexivity|]. unfold shows. rewrite E. cbn [fst snd].
      split; [exact C|]. split; [destruct name; reflexivity|]. split; [destruct v; reflexivity|]. split; [exact K|]. split; reflexivity.
    - split; [|split; [reflexivity|intros x y z Z; discriminate]]. eexists. split; [reflexivity|]. unfold shows. rewrite E. cbn [fst snd].
      split; [exact C|]. split; [destruct name; reflexivity|]. split; [destruct v; reflexivity|]. reflexivity.
  Qed.

  (** [pulls]: some next() calls *)
  Inductive pulls (dec : str -> option (obj * str)) : gen -> sock -> list obj -> gen -> sock -> Prop :=
  | PullsNone g s : pulls dec g s [] g s
  | PullsOne g s m g1 s1 l g2 s2 : gen_next message_id dec g s = Yield m g1 s1 -> pulls dec g1 s1 l g2 s2 -> pulls dec g s (m :: l) g2 s2.
  Lemma reads_pulls dec n : forall g s l, reads message_id dec n g s = Some l -> exists g' s', pulls dec g s l g' s'.
  Proof.
    induction n as [|n IH]; intros g s l H; cbn [reads] in H; [injection H as <-; do 2 eexists; constructor|].
    destruct (gen_next message_id dec g s) as [m g1 s1| | | |] eqn:E; try discriminate. destruct (reads message_id dec n g1 s1) as [l'|] eqn:E2; [|discriminate].
    injection H as <-. destruct (IH _ _ _ E2) as (g' & s' & I). do 2 eexists. econstructor; eassumption.
  Qed.
  Lemma until_pulls dec n : forall g s l u s', read_until_notice message_id dec n g s = Some (l, u, s') ->
    exists g1 s1, pulls dec g s l g1 s1 /\ gen_next message_id dec g1 s1 = Unsolicited u s'.
  Proof.
    induction n as [|n IH]; intros g s l u s' H; cbn [read_until_notice] in H; [discriminate|].
    destruct (gen_next message_id dec g s) as [m g1 s1| |m s1| |] eqn:E; try discriminate.
    - destruct (read_until_notice message_id dec n g1 s1) as [[[l' u'] s'']|] eqn:E2; [|discriminate]. injection H as <- <- <-.
      destruct (IH _ _ _ _ _ E2) as (g2 & s2 & I & J). exists g2, s2. split; [econstructor; eassumption|exact J].
    - injection H as <- <- <-. exists g, s. split; [constructor|exact E].
  Qed.
  Lemma pulls_app dec a : forall b g s g2 s2, pulls dec g s (a ++ b)%list g2 s2 -> exists g1 s1, pulls dec g s a g1 s1 /\ pulls dec g1 s1 b g2 s2.
  Proof.
    induction a as [|m a IH]; intros b g s g2 s2 H; [exists g, s; split; [constructor|exact H]|].
    inversion H as [|? ? ? g1 s1 ? ? ? E P]; subst. destruct (IH _ _ _ _ _ P) as (g3 & s3 & A & B). exists g3, s3. split; [econstructor; eassumption|exact B].
  Qed.

  Definition sent (enc : obj -> list N) (m : rmessage) (o : obj) : Prop := e_message m (enc o) /\ received (enc o) o.
  Lemma through dec enc need l os g s g' s' : Forall2 (sent enc) l os -> Forall is_intermediate l -> Forall oids_ascii l -> pulls dec g s os g' s' ->
    exists xs, Forall2 (shows absent decode) l xs /\ forall n e ys, responses dec n (mk_xh g' false need) s' = Some (ys, e) ->
      responses dec (List.length l + n) (mk_xh g false need) s = Some ((xs ++ ys)%list, e).
  Proof.
    intros H. revert g s. induction H as [|m o l os [H1 H2] _ IH]; intros g s Hi Ha P.
    - inversion P; subst. exists []. split; [constructor|]. intros n e ys E. exact E.
    - inversion Hi as [|? ? I1 I2]; subst. inversion Ha as [|? ? A1 A2]; subst. inversion P as [|? ? ? g1 s1 ? ? ? E P']; subst.
      destruct (IH g1 s1 I2 A2 P') as (xs & X & Y). destruct (made need m (enc o) o H1 H2 A1) as (M1 & M2 & _). specialize (M2 I1).
      destruct (handle_message need o) as [r d] eqn:Eh. cbn [fst snd] in *. subst d. destruct I1 as (nm & v & Eop).
      unfold made_of in M1. rewrite Eop in M1. destruct M1 as (x & -> & Sx). exists (x :: xs). split; [constructor; assumption|].
      intros n e ys R. cbn [List.length Nat.add responses xh_gen xh_need xh_done]. rewrite E, Eh. cbn [orb]. rewrite (Y n e ys R). reflexivity.
  Qed.
  Lemma each dec enc need n : forall l os g s done g' s', Forall2 (sent enc) l os -> Forall oids_ascii l -> pulls dec g s os g' s' -> n = List.length l ->
    exists rs, recv_times dec n (mk_xh g done need) s = Some rs /\ Forall2 (made_of absent decode need) l rs.
  Proof.
    induction n as [|n IH]; intros l os g s done g' s' H Ha P En.
    - destruct l; [|discriminate]. inversion H; subst. exists []. split; [reflexivity|constructor].
    - inversion H as [|m o l' os' [H1 H2] H3]; subst; [discriminate|]. inversion Ha as [|? ? A1 A2]; subst. inversion P as [|? ? ? g1 s1 ? ? ? E P']; subst. injection En as En.
      destruct (made need m (enc o) o H1 H2 A1) as (M1 & _). destruct (handle_message need o) as [r d] eqn:Eh. cbn [fst] in M1.
      destruct (IH l' os' g1 s1 (done || d) g' s' H3 A2 P' En) as (rs & R & F). exists (r :: rs).
      cbn [recv_times]. unfold recv_response. cbn [xh_gen xh_need xh_done]. rewrite E, Eh, R. split; [reflexivity|constructor; assumption].
  Qed.
  Lemma sent_of enc ms objs : server_sends enc ms objs -> Forall2 (sent enc) ms objs.
  Proof. intros H. induction H as [|m o ms objs (A & B & _) _ IH]; constructor; [split; assumption|exact IH]. Qed.
  Lemma for_id_range enc ms objs k l : server_sends enc ms objs -> for_id k ms = l -> l <> [] -> (0 <= k)%Z.
  Proof.
    intros Hs <- Hne. destruct (for_id k ms) as [|m l] eqn:E; [contradiction|]. assert (Hin : In m (for_id k ms)) by (rewrite E; left; reflexivity).
    unfold for_id in Hin. apply filter_In in Hin as [Hin Hid]. apply Z.eqb_eq in Hid. subst k.
    clear - Hs Hin. induction Hs as [|m' o ms objs (A & _) _ IH]; [destruct Hin|]. destruct Hin as [->|Hin]; [exact (id_range _ _ A)|auto].
  Qed.
  (** all messages of the ID, read by one reader *)
  Lemma all_pulled dec enc ms objs chunks k l : frames enc objs dec -> server_sends enc ms objs -> List.concat chunks = List.concat (map enc objs) ->
    for_id k ms = l -> l <> [] ->
    exists os g' s', Forall2 (sent enc) l os /\ pulls dec (recv_messages (Z.to_N k)) (arriving chunks) os g' s'.
  Proof.
    intros Hdec Hs Hch Hf Hne. pose proof (for_id_range _ _ _ _ _ Hs Hf Hne) as Hk.
    pose proof (sent_filter _ _ _ k Hk Hs) as Hs'. unfold of_msg in Hs'. unfold for_id in Hf. rewrite Hf in Hs'.
    pose proof (C20_single_reader_any_chunking message_id (good_obj enc objs) enc dec objs chunks (Z.to_N k) _
                  (frames_codec enc objs dec Hdec) (sent_ok _ _ _ Hs) Hch (le_n _)) as Hread.
    rewrite firstn_all in Hread. destruct (reads_pulls _ _ _ _ _ Hread) as (g' & s' & P). exists (of_id message_id (Z.to_N k) objs), g', s'.
    split; [now apply sent_of|exact P].
  Qed.
End P.

(** a decoder for a connection that also carries messages with ID 0 *)
Lemma each_frames enc objs : (forall o, In o objs -> exists m, e_message m (enc o) /\ received (enc o) o) -> frames enc objs (lookup_dec enc objs).
Proof.
  intros H o I. destruct (H _ I) as (m & A & B). split.
  - intros r. destruct (lookup_dec enc objs (enc o ++ r)%list) as [[o' r']|] eqn:E; [|now apply lookup_dec_some in E].
    apply lookup_dec_sound in E as [I' E]. destruct (H _ I') as (m' & A' & B').
    destruct (message_uniq _ _ _ _ _ _ A A' E) as (<- & _ & <-). rewrite (received_value _ _ _ A B), (received_value _ _ _ A' B'). reflexivity.
  - intros a c Ea Hc. destruct (lookup_dec enc objs a) as [[o' r']|] eqn:E; [|reflexivity]. exfalso.
    apply lookup_dec_sound in E as [I' ->]. destruct (H _ I') as (m' & A' & B').
    rewrite <- app_assoc in Ea. assert (E : (enc o ++ [])%list = (enc o' ++ (r' ++ c))%list) by (rewrite app_nil_r; exact Ea).
    destruct (message_uniq _ _ _ _ _ _ A A' E) as (_ & _ & E3). symmetry in E3. apply app_eq_nil in E3. destruct E3. contradiction.
Qed.
