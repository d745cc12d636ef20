(** * Proofs about sessions on a connection with a security layer *)
From Verif Require Import PyBase Model_Uri Model_Ldif Model_Controls Model_CIDict Model_Modify Model_Filter Model_Net Spec_Net Model_Search Model_Request
  Model_Wire Spec_X690 Spec_Wire Spec_Wire2 Model_Reply Spec_Reply Model_Stream Spec_Stream Proofs_Stream Model_Session Spec_Session Proofs_Session Model_Layer Spec_Layer Proofs_Layer Model_LSession Spec_LSession.

Section Same.
  Context {M L : Type} (mid : M -> N) (dec : str -> option (M * str)) (unwrap : L -> list N -> res (list N) * L) (lf : L).
  (** as [opens], with the state at the end *)
  Inductive opens_to : L -> list (list N) -> list (list N) -> Prop :=
  | OpensToEnd : opens_to lf [] []
  | OpensToSome l c p l' cs ps : unwrap l c = (Ok p, l') -> opens_to l' cs ps -> opens_to l (c :: cs) (p :: ps).
  Definition sock_to (s : @sock M) (t : @lsock M L) : Prop :=
    s_queues s = l_queues t /\ s_fresh s = l_fresh t /\ s_abandoned s = l_abandoned t /\
    exists l, l_sasl t = Some l /\ opens_to l (l_pending t) (s_pending s).
  Definition outcome_to (o : @outcome M) (p : @loutcome M L) : Prop :=
    match o, p with
    | Yield m g s, LYield m' g' t => m = m' /\ g = g' /\ sock_to s t
    | Stop s, LStop t => sock_to s t
    | Unsolicited m s, LUnsolicited m' t => m = m' /\ sock_to s t
    | Blocked raw s, LBlocked raw' t => raw = raw' /\ sock_to s t
    | NoFuel, LNoFuel => True
    | _, _ => False
    end.
  Lemma sock_to_mk q f chunks ps ab l : opens_to l chunks ps -> sock_to (mk_sock q f ps ab) (mk_lsock q f chunks ab (Some l)).
  Proof. intros H. split; [reflexivity|]. split; [reflexivity|]. split; [reflexivity|]. exists l. split; [reflexivity|exact H]. Qed.
  Lemma top_to chunks ps l : opens_to l chunks ps -> forall ab want flush q f raw,
    outcome_to (top mid dec ps ab want flush q f raw) (ltop mid dec unwrap chunks ab want flush q f raw (Some l)).
  Proof.
    induction 1 as [|l c p l' cs ps E H IH]; intros ab want flush q f raw; cbn [top ltop].
    - destruct (if flush then flush_one q want else None) as [[[m d] q']|].
      + split; [reflexivity|]. split; [reflexivity|]. apply sock_to_mk. constructor.
      + destruct (existsb (N.eqb want) ab); [apply sock_to_mk; constructor|]. split; [reflexivity|]. apply sock_to_mk. constructor.
    - assert (H' : opens_to l (c :: cs) (p :: ps)) by (eapply OpensToSome; eassumption).
      destruct (if flush then flush_one q want else None) as [[[m d] q']|].
      + split; [reflexivity|]. split; [reflexivity|]. now apply sock_to_mk.
      + destruct (existsb (N.eqb want) ab); [now apply sock_to_mk|]. cbn [unwrapped]. rewrite E.
        destruct (decode_loop mid dec _ want q f (raw ++ p)) as [m q' f' raw'|m q' f'|q' f'|q' f' raw'|]; try apply IH.
        * split; [reflexivity|]. split; [reflexivity|]. now apply sock_to_mk.
        * split; [reflexivity|]. now apply sock_to_mk.
        * exact I.
  Qed.
  Lemma next_to g s t : sock_to s t -> outcome_to (gen_next mid dec g s) (lgen_next mid dec unwrap g t).
  Proof.
    destruct s as [q f ps ab], t as [q' f' chunks ab' sasl]. intros (H1 & H2 & H3 & l & Hl & H4). cbn in H1, H2, H3, H4, Hl. subst q' f' ab' sasl.
    unfold gen_next, lgen_next. destruct (g_pc g) as [|d|].
    - now apply top_to.
    - destruct (q (g_want g)) as [[d' x]|]; [destruct (Nat.eqb d d')|]; now apply top_to.
    - destruct (decode_loop mid dec _ (g_want g) q f (g_raw g)) as [m q' f' raw'|m q' f'|q' f'|q' f' raw'|]; try (now apply top_to).
      + split; [reflexivity|]. split; [reflexivity|]. now apply sock_to_mk.
      + split; [reflexivity|]. now apply sock_to_mk.
      + exact I.
  Qed.
End Same.

Section S.
  Context (decode : list N -> option str) (absent : str) (reg : registry) (builtin : str -> bool)
          (lower : str -> str) (urlparse : str -> str * str * str * str) (contact : ldapuri -> res unit).
  Context {L P : Type} (wrap unwrap : L -> list N -> res (list N) * L) (open : P -> list N -> option (list N * P))
          (seal : P -> list N -> list N * P) (agree : L -> P -> Prop).

  Lemma take_to lf dec fuel : forall g s t, sock_to unwrap lf s t ->
    match take_until_done decode absent dec fuel g s, ltake_until_done decode absent unwrap dec fuel g t with
    | Some (l, s'), Some (Ok l', t') => l = l' /\ sock_to unwrap lf s' t'
    | None, None => True
    | _, _ => False
    end.
  Proof.
    induction fuel as [|fuel IH]; intros g s t H; [exact I|]. cbn [take_until_done ltake_until_done].
    pose proof (next_to message_id dec unwrap lf g s t H) as N.
    destruct (gen_next message_id dec g s) as [m g' s'|s'|m s'|raw s'|], (lgen_next message_id dec unwrap g t) as [m1 g1 t'|t'|m1 t'|e t'|raw' t'|]; try contradiction; try exact I.
    destruct N as (<- & <- & N). specialize (IH g' s' t' N).
    destruct (as_reply decode absent m); try (split; [reflexivity|exact N]);
      (destruct (take_until_done decode absent dec fuel g' s') as [[l s'']|], (ltake_until_done decode absent unwrap dec fuel g' t') as [[[l'|e] t'']|]; try contradiction; [|exact I];
       destruct IH as [-> IH]; split; [reflexivity|exact IH]).
  Qed.
  Lemma receive_to lf dec fuel c k s t : sock_to unwrap lf s t ->
    match receive decode absent reg builtin lower urlparse contact dec fuel c k s, lreceive decode absent reg builtin lower urlparse contact unwrap dec fuel c k t with
    | Some (r, s'), Some (r', t') => r = r' /\ sock_to unwrap lf s' t'
    | None, None => True
    | _, _ => False
    end.
  Proof.
    intros H. pose proof (next_to message_id dec unwrap lf (recv_messages k) s t H) as N. pose proof (take_to lf dec fuel (recv_messages k) s t H) as T.
    unfold receive, lreceive, recv_one. destruct c;
      try (destruct (gen_next message_id dec (recv_messages k) s) as [m g' s'|s'|m s'|raw s'|], (lgen_next message_id dec unwrap (recv_messages k) t) as [m1 g1 t'|t'|m1 t'|e t'|raw' t'|]; try contradiction; try exact I;
           destruct N as (<- & _ & N); split; [reflexivity|exact N]).
    destruct (take_until_done decode absent dec fuel (recv_messages k) s) as [[l s'']|], (ltake_until_done decode absent unwrap dec fuel (recv_messages k) t) as [[[l'|e] t'']|]; try contradiction; [|exact I].
    destruct T as [<- T]. destruct (iterate _ _ _ _ _ _ _) as [[[[items e] x1] x2] x3]. split; [reflexivity|exact T].
  Qed.

  Context (T : tunnel wrap unwrap open seal agree).
  Lemma sealed_opens l p pieces bufs p2 : agree l p -> sealed seal p pieces = (bufs, p2) ->
    exists l2, opens_to unwrap l2 l bufs pieces /\ agree l2 p2.
  Proof.
    revert l p bufs p2. induction pieces as [|x r IH]; intros l p bufs p2 A E; cbn [sealed] in E.
    - injection E as <- <-. exists l. split; [constructor|exact A].
    - destruct (to_client _ _ _ _ _ T l p x A) as (l' & Eu & A'). destruct (seal p x) as [b p1]. cbn [fst snd] in Eu, A'.
      destruct (sealed seal p1 r) as [bs p3] eqn:Er. injection E as <- <-. destruct (IH l' p1 bs p3 A' Er) as (l2 & O & A2).
      exists l2. split; [|exact A2]. eapply OpensToSome; eassumption.
  Qed.
  (** one exchange *)
  Lemma exchange l p pieces bufs p2 dec fuel c k f r : agree l p -> sealed seal p pieces = (bufs, p2) ->
    receive decode absent reg builtin lower urlparse contact dec fuel c k (mk_sock (@none_queued obj) f pieces []) = Some (r, mk_sock (@none_queued obj) f [] []) ->
    exists l2, agree l2 p2 /\
      lreceive decode absent reg builtin lower urlparse contact unwrap dec fuel c k (mk_lsock (@none_queued obj) f bufs [] (Some l)) =
      Some (r, mk_lsock (@none_queued obj) f [] [] (Some l2)).
  Proof.
    intros A E R. destruct (sealed_opens _ _ _ _ _ A E) as (l2 & O & A2). exists l2. split; [exact A2|].
    pose proof (receive_to l2 dec fuel c k _ _ (sock_to_mk unwrap l2 (@none_queued obj) f bufs pieces [] l O)) as H. rewrite R in H.
    destruct (lreceive _ _ _ _ _ _ _ _ _ _ _ _ _) as [[r' t']|]; [|contradiction]. destruct H as (<- & H1 & H2 & H3 & l' & H4 & H5).
    destruct t' as [q f' pend ab sasl]. cbn in H1, H2, H3, H4, H5. subst q f' ab sasl. inversion H5; subst. reflexivity.
  Qed.
End S.
