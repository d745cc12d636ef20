(** * C95: operations one after the other on a connection with a security layer *)
From Verif Require Import PyBase Model_Uri Model_Ldif Model_Controls Model_CIDict Model_Modify Model_Filter Model_Net Spec_Net Model_Search Model_Request
  Model_Wire Spec_X690 Spec_Wire Spec_Wire2 Model_Reply Spec_Reply Model_Stream Spec_Stream Proofs_Stream Proofs_Utf8 Proofs_Wire Proofs_Wire2 Proofs_Wire3 Proofs_Wire4 Proofs_Wire5 Proofs_Wire6 Proofs_Reply Props_Reply Props_Stream Model_Session Spec_Session Proofs_Session Props_Session
  Model_Layer Spec_Layer Model_LSession Spec_LSession Proofs_LSession.
Local Open Scope string_scope.

Section C95.
  Context (decode : list N -> option str) (absent : str) (reg : registry) (builtin : str -> bool)
          (lower : str -> str) (urlparse : str -> str * str * str * str) (contact : ldapuri -> res unit).
  Context {L P : Type} (wrap unwrap : L -> list N -> res (list N) * L) (open : P -> list N -> option (list N * P))
          (seal : P -> list N -> list N * P) (agree : L -> P -> Prop).
  Notation session := (session decode absent reg builtin lower urlparse contact).
  Notation lsession := (lsession decode absent reg builtin lower urlparse contact wrap unwrap open seal).
  Notation ideal := (ideal decode absent reg builtin lower urlparse).
  Notation answers_properly := (answers_properly decode absent reg builtin lower urlparse).

  (** Whatever operations are called, whatever the server knows, however it writes its answers, cuts and seals them: the
      session is the one of C93: every call that can be encoded reaches the server as the message of its arguments, with the
      next ID, exactly once and in order, and returns what the answer to that message says; all other calls raise and
      nothing reaches the server; no call waits for ever. *)
  Theorem C95_session {S} (server : S -> rmessage -> list rmessage * S) n l p s calls outs seen s' :
    tunnel wrap unwrap open seal agree -> agree l p ->
    (forall s m, answers_properly m (fst (server s m))) -> Forall (fun c => proper_call (fst c)) calls ->
    lsession server n (secured l) p s calls outs seen s' ->
    exists outs', outs = map Some outs' /\ ideal server n s calls outs' seen s'.
  Proof.
    intros T A Hserver Hp H. remember (secured l) as w eqn:Ew. revert l A Ew.
    induction H as [n w p s|n n' w p s c cs rest e outs seen s' Hprep _ IH|n n' w w1 p s c cs rest lm b e outs seen s' Hprep Hb Hput _ IH
                   |n n' w w1 p p1 p2 s c cs rest lm b out raw m enc objs dec pieces bufs fuel r w' outs seen s' Hprep Hb Hput Ho Hm Hs Hf Hch Hne Hse Hl Hr _ IH
                   |n n' w w1 p p1 p2 s c cs rest lm b out raw m enc objs dec pieces bufs fuel Hprep Hb Hput Ho Hm Hs Hf Hch Hne Hse Hl Hr]; intros l A ->.
    - exists []. split; [reflexivity|constructor].
    - inversion Hp as [|? ? Hp1 Hp2]; subst. destruct (IH Hp2 l A eq_refl) as (outs' & -> & I). destruct (refused n c cs e n' Hp1 Hprep) as [R1 R2].
      exists (Raise e :: outs'). split; [reflexivity|]. now apply IdealRefused with n'.
    - exfalso. destruct (to_server _ _ _ _ _ T l p b A) as (out & l' & p' & Ew & _). unfold lput, secured in Hput. cbn [wrapped l_sasl] in Hput. rewrite Ew in Hput. discriminate.
    - inversion Hp as [|? ? Hp1 Hp2]; subst. destruct (to_server _ _ _ _ _ T l p b A) as (out' & l' & p' & Ew & Eo & A').
      unfold lput, secured in Hput. cbn [wrapped l_sasl l_queues l_fresh l_pending l_abandoned] in Hput. rewrite Ew in Hput. injection Hput as <- <-.
      rewrite Ho in Eo. injection Eo as -> ->. destruct (sent_one n c cs lm n' b m Hp1 Hprep Hb Hm) as (A1 & A2 & A3 & -> & ->).
      destruct (answered decode absent reg builtin lower urlparse contact n c cs _ enc objs dec 0%nat pieces fuel (Hserver s _) Hs Hf Hch Hne Hl) as (r' & E & Hret).
      destruct (exchange decode absent reg builtin lower urlparse contact wrap unwrap open seal agree T l' p' pieces bufs p2 dec fuel c _ 0%nat r' A' Hse E) as (l2 & A2' & E').
      unfold lfeed in Hr. cbn [l_queues l_fresh l_pending l_abandoned l_sasl List.app] in Hr. unfold none_queued in E'. rewrite E' in Hr. injection Hr as -> <-.
      destruct (IH Hp2 l2 A2' eq_refl) as (outs' & -> & I). exists (r :: outs'). split; [reflexivity|]. now apply IdealDone.
    - exfalso. inversion Hp as [|? ? Hp1 Hp2]; subst. destruct (to_server _ _ _ _ _ T l p b A) as (out' & l' & p' & Ew & Eo & A').
      unfold lput, secured in Hput. cbn [wrapped l_sasl l_queues l_fresh l_pending l_abandoned] in Hput. rewrite Ew in Hput. injection Hput as <- <-.
      rewrite Ho in Eo. injection Eo as -> ->. destruct (sent_one n c cs lm n' b m Hp1 Hprep Hb Hm) as (A1 & A2 & A3 & -> & ->).
      destruct (answered decode absent reg builtin lower urlparse contact n c cs _ enc objs dec 0%nat pieces fuel (Hserver s _) Hs Hf Hch Hne Hl) as (r' & E & Hret).
      destruct (exchange decode absent reg builtin lower urlparse contact wrap unwrap open seal agree T l' p' pieces bufs p2 dec fuel c _ 0%nat r' A' Hse E) as (l2 & A2' & E').
      unfold lfeed in Hr. cbn [l_queues l_fresh l_pending l_abandoned l_sasl List.app] in Hr. unfold none_queued in E'. rewrite E' in Hr. discriminate.
  Qed.

  (** And it is no other than in clear text: every session that can take place without a layer takes place with one, with
      the same results, messages and end. *)
  Theorem C95_as_in_clear_text {S} (server : S -> rmessage -> list rmessage * S) n l p s calls outs seen s' :
    tunnel wrap unwrap open seal agree -> agree l p ->
    (forall s m, answers_properly m (fst (server s m))) -> Forall (fun c => proper_call (fst c)) calls ->
    session server n fresh_sock s calls outs seen s' ->
    lsession server n (secured l) p s calls outs seen s'.
  Proof.
    intros T A Hserver Hp H. remember fresh_sock as w eqn:Ew. revert l p A Ew.
    induction H as [n w s|n n' w s c cs rest e outs seen s' Hprep _ IH|n n' w s c cs rest lm b m enc objs dec chunks fuel r w' outs seen s' Hprep Hb Hm Hs Hf Hch Hne Hl Hr _ IH
                   |n n' w s c cs rest lm b m enc objs dec chunks fuel Hprep Hb Hm Hs Hf Hch Hne Hl Hr]; intros l p A ->.
    - constructor.
    - inversion Hp as [|? ? Hp1 Hp2]; subst. eapply LSessionRefused; [exact Hprep|]. now apply IH.
    - inversion Hp as [|? ? Hp1 Hp2]; subst. pose proof Hm as Hm'. destruct (sent_one n c cs lm n' b m Hp1 Hprep Hb Hm) as (A1 & A2 & A3 & E1 & E2). subst m n'.
      destruct (answered decode absent reg builtin lower urlparse contact n c cs _ enc objs dec 0%nat chunks fuel (Hserver s _) Hs Hf Hch Hne Hl) as (r' & E & Hret).
      unfold feed, fresh_sock in Hr. cbn [s_queues s_fresh s_pending s_abandoned List.app] in Hr. unfold none_queued in E. rewrite E in Hr. injection Hr as -> <-.
      destruct (to_server _ _ _ _ _ T l p b A) as (out & l' & p' & Ew & Eo & A'). destruct (sealed seal p' chunks) as [bufs p2] eqn:Hse.
      destruct (exchange decode absent reg builtin lower urlparse contact wrap unwrap open seal agree T l' p' chunks bufs p2 dec fuel c _ 0%nat r A' Hse E) as (l2 & A2' & E').
      eapply LSessionSent with (w1 := secured l') (w' := secured l2); [exact Hprep|exact Hb| |exact Eo|exact Hm'|exact Hs|exact Hf|exact Hch|exact Hne|exact Hse|exact Hl|exact E'|].
      + unfold lput, secured. cbn [wrapped l_sasl]. rewrite Ew. reflexivity.
      + apply (IH Hp2 l2 p2 A2' eq_refl).
    - exfalso. inversion Hp as [|? ? Hp1 Hp2]; subst. destruct (sent_one n c cs lm n' b m Hp1 Hprep Hb Hm) as (A1 & A2 & A3 & -> & ->).
      destruct (answered decode absent reg builtin lower urlparse contact n c cs _ enc objs dec 0%nat chunks fuel (Hserver s _) Hs Hf Hch Hne Hl) as (r' & E & _).
      unfold feed, fresh_sock in Hr. cbn [s_queues s_fresh s_pending s_abandoned List.app] in Hr. unfold none_queued in E. rewrite E in Hr. discriminate.
  Qed.
End C95.

(** ** A tunnel: buffers are numbered in each direction *)
Definition ex_wrap (l : N * N) (raw : list N) : res (list N) * (N * N) := (Ok (fst l :: raw), (fst l + 1, snd l)%N).
Definition ex_unwrap (l : N * N) (c : list N) : res (list N) * (N * N) :=
  match c with x :: r => if N.eqb x (snd l) then (Ok r, (fst l, snd l + 1)%N) else (Raise ValueError, l) | [] => (Raise ValueError, l) end.
Definition ex_open (p : N * N) (c : list N) : option (list N * (N * N)) :=
  match c with x :: r => if N.eqb x (fst p) then Some (r, (fst p + 1, snd p)%N) else None | [] => None end.
Definition ex_seal (p : N * N) (raw : list N) : list N * (N * N) := (snd p :: raw, (fst p, snd p + 1)%N).
Lemma ex_tunnel : tunnel ex_wrap ex_unwrap ex_open ex_seal eq.
Proof.
  split; intros l p raw <-; unfold ex_wrap, ex_unwrap, ex_open, ex_seal.
  - do 3 eexists. split; [reflexivity|]. cbn [fst snd]. rewrite N.eqb_refl. auto.
  - eexists. cbn [fst snd]. rewrite N.eqb_refl. auto.
Qed.
Lemma ex_server_answers : forall s m, Spec_Session.answers_properly utf8_dec [] empty_registry (fun _ => false) ascii_lower (fun _ => ([], [], [], [])) m (fst (ex_server s m)).
Proof.
  intros s m. assert (F : controls_fine [] empty_registry (fun _ => false) (ex_done (rm_id m))) by (split; [exact I|reflexivity]).
    assert (R : readable utf8_dec [] empty_registry (fun _ => false) ascii_lower (fun _ => ([], [], [], [])) (ex_found (rm_id m))).
    { split; [split; [exact I | reflexivity]|]. cbn [rm_op ex_entry ex_found]. split; [vm_compute; discriminate|].
      exists (map lit ["cn"; "jpegPhoto"; "sn"]). split; [vm_compute; reflexivity|]. repeat constructor; cbn; intuition discriminate. }
    unfold ex_server, answers_properly. destruct (rm_op m) eqn:E; cbn [fst];
      try (split; [constructor; [reflexivity|constructor]|]; exists (ex_deleted (rm_id m)); split; [reflexivity|exact I]).
    split; [destruct s; repeat (constructor; [reflexivity|]); constructor|].
    exists (if s then [ex_found (rm_id m)] else []), (ex_done (rm_id m)), (mk_rr 0 [] [] None). split; [reflexivity|]. split; [|split; [reflexivity|exact F]].
    destruct s; [constructor; [exact R|constructor]|constructor].
Qed.
Example C95_nonvacuous : exists outs seen s',
  Spec_LSession.lsession utf8_dec [] empty_registry (fun _ => false) ascii_lower (fun _ => ([], [], [], [])) (fun _ => Raise LDAPConnectionError) ex_wrap ex_unwrap ex_open ex_seal
    ex_server 1 (secured (5, 7)%N) (5, 7)%N true ex_calls outs seen s' /\
  map rm_op seen = [search_of ex_w; RDelRequest (lit "o=x"); search_of ex_w; RCompareRequest (lit "o=x") (lit "cn") (lit "a")] /\ List.length outs = 5 /\ s' = false.
Proof.
  destruct C93_nonvacuous as (i & r & H & _). do 3 eexists. split; [|split; [|split; [|reflexivity]]].
  - eapply C95_as_in_clear_text; [exact ex_tunnel|reflexivity| | |exact H].
    + exact ex_server_answers.
    + repeat (apply Forall_cons; [exact I|]); apply Forall_nil.
  - reflexivity.
  - reflexivity.
Qed.

Print Assumptions C95_session.
Print Assumptions C95_as_in_clear_text.
