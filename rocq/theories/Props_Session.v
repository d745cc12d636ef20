(** * C93: operations one after the other on one connection, over the wire *)
From Verif Require Import PyBase Model_Uri Model_Ldif Model_Controls Model_CIDict Model_Modify Model_Filter Model_Net Model_Search Model_Request
  Model_Wire Spec_X690 Spec_Wire Spec_Wire2 Proofs_Wire Proofs_Wire2 Proofs_Wire3 Proofs_Wire4 Proofs_Wire5 Proofs_Wire6 Proofs_Utf8 Model_Reply Spec_Reply Proofs_Reply Props_Reply
  Model_Stream Spec_Stream Proofs_Stream Props_Stream Model_Session Spec_Session Proofs_Session.
Local Open Scope string_scope.

Section C93.
  Context (decode : list N -> option str) (absent : str) (reg : registry) (builtin : str -> bool)
          (lower : str -> str) (urlparse : str -> str * str * str * str) (contact : ldapuri -> res unit).
  Notation session := (session decode absent reg builtin lower urlparse contact).
  Notation ideal := (ideal decode absent reg builtin lower urlparse).
  Notation answers_properly := (answers_properly decode absent reg builtin lower urlparse).

  Lemma session_from {S} (server : S -> rmessage -> list rmessage * S) n f s calls outs seen s' :
    (forall s m, answers_properly m (fst (server s m))) -> Forall (fun p => proper_call (fst p)) calls ->
    session server n (mk_sock (@none_queued obj) f [] []) s calls outs seen s' ->
    exists outs', outs = map Some outs' /\ ideal server n s calls outs' seen s'.
  Proof.
    intros Hserver Hp H. remember (mk_sock (@none_queued obj) f [] []) as w eqn:Ew.
    induction H as [n w s|n n' w s c cs rest e outs seen s' Hprep _ IH|n n' w s c cs rest lm b m enc objs dec chunks fuel r w' outs seen s' Hprep Hb Hm Hs Hf Hch Hne Hl Hr _ IH
                   |n n' w s c cs rest lm b m enc objs dec chunks fuel Hprep Hb Hm Hs Hf Hch Hne Hl Hr]; subst w.
    - exists []. split; [reflexivity|constructor].
    - inversion Hp as [|? ? Hp1 Hp2]; subst. destruct (IH Hp2 eq_refl) as (outs' & -> & I). destruct (refused n c cs e n' Hp1 Hprep) as [R1 R2].
      exists (Raise e :: outs'). split; [reflexivity|]. now apply IdealRefused with n'.
    - inversion Hp as [|? ? Hp1 Hp2]; subst. destruct (sent_one n c cs lm n' b m Hp1 Hprep Hb Hm) as (A1 & A2 & A3 & -> & ->).
      destruct (answered decode absent reg builtin lower urlparse contact n c cs _ enc objs dec f chunks fuel (Hserver s _) Hs Hf Hch Hne Hl) as (r' & E & Hret).
      unfold feed in Hr. cbn [s_queues s_fresh s_pending s_abandoned List.app] in Hr. rewrite E in Hr. injection Hr as -> <-.
      destruct (IH Hp2 eq_refl) as (outs' & -> & I). exists (r :: outs'). split; [reflexivity|]. now apply IdealDone.
    - exfalso. inversion Hp as [|? ? Hp1 Hp2]; subst. destruct (sent_one n c cs lm n' b m Hp1 Hprep Hb Hm) as (A1 & A2 & A3 & -> & ->).
      destruct (answered decode absent reg builtin lower urlparse contact n c cs _ enc objs dec f chunks fuel (Hserver s _) Hs Hf Hch Hne Hl) as (r' & E & _).
      unfold feed in Hr. cbn [s_queues s_fresh s_pending s_abandoned List.app] in Hr. rewrite E in Hr. discriminate.
  Qed.

  (** Whatever operations are called, whatever the server knows and however it writes its answers and they arrive: the
      session is one in which every call that can be encoded reaches the server as the message of its arguments, with
      the next ID, exactly once and in order, and returns what the answer to that message says; all other calls raise
      and nothing reaches the server; and no call waits for ever. *)
  Theorem C93_session {S} (server : S -> rmessage -> list rmessage * S) s calls outs seen s' :
    (forall s m, answers_properly m (fst (server s m))) -> Forall (fun p => proper_call (fst p)) calls ->
    session server 1 fresh_sock s calls outs seen s' ->
    exists outs', outs = map Some outs' /\ ideal server 1 s calls outs' seen s'.
  Proof. intros Hserver Hp H. now apply session_from with (f := 0%nat). Qed.

  (** Messages have the IDs 1, 2, 3 and so on. *)
  Lemma ids_from {S} (server : S -> rmessage -> list rmessage * S) n s calls outs seen s' : (0 <= n)%Z ->
    ideal server n s calls outs seen s' -> map rm_id seen = map (fun i => (n + Z.of_nat i)%Z) (seq 0 (List.length seen)) /\ (seen <> [] -> Spec_Wire.int0max n).
  Proof.
    intros Hn H. induction H as [n s|n n' s c cs rest e outs seen s' Hno Hnn H IH|n s c cs rest r outs seen s' A1 A2 A3 m Hr H IH].
    - split; [reflexivity|contradiction].
    - destruct Hnn as [->|[-> Hm]]; [auto|]. destruct (IH ltac:(lia)) as [I1 I2]. destruct seen as [|m seen]; [split; [reflexivity|contradiction]|].
      exfalso. apply Hm. assert (K : Spec_Wire.int0max (n + 1)) by (apply I2; discriminate). unfold Spec_Wire.int0max in *. lia.
    - destruct (IH ltac:(lia)) as [I1 I2]. split; [|intros _; exact A3]. cbn [map List.length seq]. rewrite I1, <- seq_shift, map_map. f_equal; [cbn [m rm_id]; lia|].
      apply map_ext. intros i. lia.
  Qed.
  Theorem C93_ids {S} (server : S -> rmessage -> list rmessage * S) s calls outs seen s' :
    (forall s m, answers_properly m (fst (server s m))) -> Forall (fun p => proper_call (fst p)) calls ->
    session server 1 fresh_sock s calls outs seen s' ->
    map rm_id seen = map Z.of_nat (seq 1 (List.length seen)).
  Proof.
    intros Hserver Hp H. destruct (C93_session server s calls outs seen s' Hserver Hp H) as (outs' & _ & I).
    destruct (ids_from server 1 s calls outs' seen s' ltac:(lia) I) as [E _]. rewrite E, <- seq_shift, map_map. apply map_ext. intros i. lia.
  Qed.

  (** Sessions do take place: for all calls whose messages, and answers, are within the sizes and ranges of the RFC. *)
  Definition in_range (o : rop) (cs : option (list rcontrol)) : Prop := op_valid o /\ (len_message (mk_rm 0 o cs) < 256 ^ 126)%N.
  Lemma writable m : Spec_Wire.int0max (rm_id m) -> in_range (rm_op m) (rm_controls m) -> exists b, e_message m b.
  Proof. intros Hi [Hv Hl]. destruct (some_message m (Logic.conj Hi Hv) Hl) as (b & Hb & _). eauto. Qed.
  Lemma sessions_exist_from {S} (server : S -> rmessage -> list rmessage * S) (f : nat) s calls :
    (forall s m, answers_properly m (fst (server s m))) -> (forall s m, Forall (fun a => in_range (rm_op a) (rm_controls a)) (fst (server s m))) ->
    Forall (fun p => proper_call (fst p) /\ in_range (asked (fst p)) (controls_of (snd p))) calls ->
    forall n, (1 <= n)%Z -> exists outs seen s', session server n (mk_sock (@none_queued obj) f [] []) s calls outs seen s'.
  Proof.
    intros Hserver Hval Hc.
    assert (G : forall n s, (1 <= n)%Z -> exists outs seen s', session server n (mk_sock (@none_queued obj) f [] []) s calls outs seen s').
    { clear s. induction Hc as [|[c cs] calls [Hp Hr] _ IH]; intros n s Hn; [do 3 eexists; apply SessionEnd|]. cbn [fst snd] in Hp, Hr.
      destruct (prepare n c cs) as [[lm|e] n'] eqn:Eprep.
      - destruct (request_exact n c cs Hp) as [E1 E2].
        assert (El : message n (request_name c) (request c) cs = Ok lm) by (rewrite <- (proj1 (prepared n c cs)), Eprep; reflexivity).
        destruct (message_only _ _ _ _ _ El) as ((x & X) & Hm & Hcs). apply request_only in X. destruct E1 as (lm' & E & Hiff); [auto|]. rewrite El in E. injection E as <-.
        set (m := mk_rm n (asked c) (controls_of cs)) in *. destruct (writable m Hm Hr) as (b & Hb). pose proof (Hserver s m) as [Hids Hans].
        assert (Hw : Forall (fun a => (exists b, e_message a b) /\ rm_id a <> 0%Z) (fst (server s m))).
        { pose proof (Hval s m) as V. rewrite Forall_forall in *. intros a I. pose proof (Hids a I) as Ea. cbn [m rm_id] in Ea. split; [|lia].
          apply writable; [rewrite Ea; exact Hm|now apply V]. }
        destruct (can_send _ Hw) as (enc & Hs). set (objs := map msg_obj (fst (server s m))) in *.
        pose proof (lookup_dec_frames enc _ objs Hs) as Hf. destruct (octet_chunks (List.concat (map enc objs))) as [Hch Hne].
        destruct (answered decode absent reg builtin lower urlparse contact n c cs _ enc objs _ f _ (List.length objs) (Hserver s m) Hs Hf Hch Hne (le_n _)) as (r & Er & _).
        apply prepared_ok in Eprep as En. subst n'. destruct (IH (n + 1)%Z (snd (server s m)) ltac:(lia)) as (outs & seen & s' & I).
        do 3 eexists. eapply SessionSent; [exact Eprep|apply Hiff, Hb|exact Hb|exact Hs|exact Hf|exact Hch|exact Hne|apply le_n|exact Er|exact I].
      - destruct (refused n c cs e n' Hp Eprep) as [_ En]. destruct (IH n' s ltac:(lia)) as (outs & seen & s' & I). do 3 eexists. eapply SessionRefused; eassumption. }
    intros n. apply G.
  Qed.
  Theorem C93_sessions_exist {S} (server : S -> rmessage -> list rmessage * S) s calls :
    (forall s m, answers_properly m (fst (server s m))) -> (forall s m, Forall (fun a => in_range (rm_op a) (rm_controls a)) (fst (server s m))) ->
    Forall (fun p => proper_call (fst p) /\ in_range (asked (fst p)) (controls_of (snd p))) calls ->
    exists outs seen s', session server 1 fresh_sock s calls outs seen s'.
  Proof. intros Hserver Hval Hc. apply (sessions_exist_from server 0 s calls Hserver Hval Hc 1). lia. Qed.
End C93.

(** ** A concrete case: a server that has one entry, deletes it on request, and knows nothing else; deleting it, deleting
    what cannot be written, and searching before and after *)
Definition ex_found (n : Z) : rmessage := mk_rm n (rm_op ex_entry) None.
Definition ex_done (n : Z) : rmessage := mk_rm n (RSearchResultDone (mk_rr 0 [] [] None)) None.
Definition ex_deleted (n : Z) : rmessage := mk_rm n (RDelResponse (mk_rr 0 [] [] None)) None.
Definition ex_server (there : bool) (m : rmessage) : list rmessage * bool :=
  match rm_op m with
  | RSearchRequest _ _ _ _ _ _ _ _ => ((if there then [ex_found (rm_id m)] else []) ++ [ex_done (rm_id m)], there)%list
  | _ => ([ex_deleted (rm_id m)], false)
  end.
Definition ex_w : wire_search := mk_ws (lit "o=x") SubScope 0 0 0 false (FPresent (lit "cn")) [] [].
Definition ex_calls : list (call * list ctrl_args) :=
  [(CSearch ex_w, []); (CDelete (Text [0xD800]%N), []); (CDelete (Text (lit "o=x")), []); (CSearch ex_w, []); (CCompare (lit "o=x") (lit "cn") (lit "a"), [])].
Example C93_nonvacuous : exists i r,
  Spec_Session.session utf8_dec [] empty_registry (fun _ => false) ascii_lower (fun _ => ([], [], [], [])) (fun _ => Raise LDAPConnectionError)
    ex_server 1 fresh_sock true ex_calls
    [Some (Ok (RetItems [i] Finished)); Some r; Some (Ok (RetControls [])); Some (Ok (RetItems [] Finished)); Some (Raise UnexpectedResponseType)]
    [mk_rm 1 (search_of ex_w) None; mk_rm 2 (RDelRequest (lit "o=x")) None; mk_rm 3 (search_of ex_w) None; mk_rm 4 (RCompareRequest (lit "o=x") (lit "cn") (lit "a")) None] false /\
  stands_for utf8_dec ascii_lower (fun _ => ([], [], [], [])) ex_entry i /\ exists e, r = Raise e.
Proof.
  assert (Hserver : forall s m, answers_properly utf8_dec [] empty_registry (fun _ => false) ascii_lower (fun _ => ([], [], [], [])) m (fst (ex_server s m))).
  { intros s m. assert (F : controls_fine [] empty_registry (fun _ => false) (ex_done (rm_id m))) by (split; [exact I|reflexivity]).
    assert (R : readable utf8_dec [] empty_registry (fun _ => false) ascii_lower (fun _ => ([], [], [], [])) (ex_found (rm_id m))).
    { split; [split; [exact I | reflexivity]|]. cbn [rm_op ex_entry ex_found]. split; [vm_compute; discriminate|].
      exists (map lit ["cn"; "jpegPhoto"; "sn"]). split; [vm_compute; reflexivity|]. repeat constructor; cbn; intuition discriminate. }
    unfold ex_server, answers_properly. destruct (rm_op m) eqn:E; cbn [fst];
      try (split; [constructor; [reflexivity|constructor]|]; exists (ex_deleted (rm_id m)); split; [reflexivity|exact I]).
    split; [destruct s; repeat (constructor; [reflexivity|]); constructor|].
    exists (if s then [ex_found (rm_id m)] else []), (ex_done (rm_id m)), (mk_rr 0 [] [] None). split; [reflexivity|]. split; [|split; [reflexivity|exact F]].
    destruct s; [constructor; [exact R|constructor]|constructor]. }
  assert (R1 : forall n, in_range (rm_op (ex_found n)) None) by (intros n; split; [exact I|reflexivity]).
  assert (R2 : forall n, in_range (rm_op (ex_done n)) None) by (intros n; split; [split; [split|]; discriminate|reflexivity]).
  assert (R3 : forall n, in_range (rm_op (ex_deleted n)) None) by (intros n; split; [split; [split|]; discriminate|reflexivity]).
  assert (R4 : in_range (search_of ex_w) None) by (split; [repeat split; discriminate|reflexivity]).
  destruct (C93_sessions_exist utf8_dec [] empty_registry (fun _ => false) ascii_lower (fun _ => ([], [], [], [])) (fun _ => Raise LDAPConnectionError)
              ex_server true ex_calls Hserver) as (outs & seen & s' & H).
  - intros s m. unfold ex_server. destruct (rm_op m); cbn [fst]; try (constructor; [apply R3|constructor]).
    destruct s; [constructor; [apply R1|]|]; (constructor; [apply R2|constructor]).
  - repeat (apply Forall_cons; [split; [exact I|]; first [exact R4 | split; [exact I|reflexivity]]|]). apply Forall_nil.
  - assert (Hp : Forall (fun p : call * list ctrl_args => proper_call (fst p)) ex_calls) by (repeat (apply Forall_cons; [exact I|]); apply Forall_nil).
    destruct (C93_session _ _ _ _ _ _ _ ex_server true ex_calls outs seen s' Hserver Hp H) as (outs' & -> & Id).
    assert (K1 : forall n, (0 <= n <= 10)%Z -> Spec_Wire.int0max n) by (intros n Hn; unfold Spec_Wire.int0max, maxInt; lia).
    assert (E1 : encodable (Text (lit "o=x"))) by (change (lit "o=x") with [111; 61; 120]%N; repeat (apply Forall_cons; [lia|]); apply Forall_nil).
    assert (E2 : encodable (Text (lit "cn"))) by (change (lit "cn") with [99; 110]%N; repeat (apply Forall_cons; [lia|]); apply Forall_nil).
    assert (E3 : encodable (Text (lit "a"))) by (change (lit "a") with [97]%N; repeat (apply Forall_cons; [lia|]); apply Forall_nil).
    assert (E4 : ~ encodable (Text [0xD800]%N)) by (intros C; inversion C as [|? ? C1 _]; apply C1; lia).
    assert (E5 : args_ok (CSearch ex_w)).
    { cbn [args_ok]. split; [exact E1|]. split; [apply K1; cbn; lia|]. split; [apply K1; cbn; lia|]. split; [|apply Forall_nil]. apply Forall_cons; [exact E2|apply Forall_nil]. }
    unfold ex_calls in Id.
    inversion Id as [|? ? ? ? ? ? ? ? ? ? Hno Hnn Id1|? ? ? ? ? r1 ? ? ? A1 A2 A3 m1 Hr1 Id1]; subst; clear Id; [exfalso; apply Hno; split; [exact E5|]; split; [apply Forall_nil|apply K1; lia]|].
    inversion Id1 as [|? ? ? ? ? ? e ? ? ? Hno Hnn Id2|? ? ? ? ? r2 ? ? ? B1 B2 B3 m2 Hr2 Id2]; subst; clear Id1; [|exfalso; exact (E4 B1)].
    destruct Hnn as [->|[_ Hbad]]; [|exfalso; apply Hbad, K1; lia].
    inversion Id2 as [|? ? ? ? ? ? ? ? ? ? Hno' Hnn Id3|? ? ? ? ? r3 ? ? ? C1 C2 C3 m3 Hr3 Id3]; subst; clear Id2; [exfalso; apply Hno'; split; [exact E1|]; split; [apply Forall_nil|apply K1; lia]|].
    inversion Id3 as [|? ? ? ? ? ? ? ? ? ? Hno' Hnn Id4|? ? ? ? ? r4 ? ? ? D1 D2 D3 m4 Hr4 Id4]; subst; clear Id3; [exfalso; apply Hno'; split; [exact E5|]; split; [apply Forall_nil|apply K1; lia]|].
    inversion Id4 as [|? ? ? ? ? ? ? ? ? ? Hno' Hnn Id5|? ? ? ? ? r5 ? ? ? F1 F2 F3 m5 Hr5 Id5]; subst; clear Id4; [exfalso; apply Hno'; split; [split; [exact E1|split; [exact E2|exact E3]]|]; split; [apply Forall_nil|apply K1; lia]|].
    inversion Id5; subst; clear Id5.
    destruct Hr1 as (body & last & d & items & Eb & Hd & -> & Hi). change (fst (ex_server true m1)) with ([ex_found 1] ++ [ex_done 1])%list in Eb.
    apply app_inj_tail in Eb as [<- <-]. cbn [rm_op ex_done] in Hd. injection Hd as <-. inversion Hi as [|? i ? ? Hi1 Hi2]; subst. inversion Hi2; subst.
    destruct Hr4 as (body & last & d & items & Eb & Hd & -> & Hi'). change (fst (ex_server (snd (ex_server (snd (ex_server true m1)) m3)) m4)) with ([] ++ [ex_done 3])%list in Eb.
    apply app_inj_tail in Eb as [<- <-]. cbn [rm_op ex_done] in Hd. injection Hd as <-. inversion Hi'; subst.
    destruct Hr3 as (a & Ea & ->). change (fst (ex_server (snd (ex_server true m1)) m3)) with [ex_deleted 2] in Ea. injection Ea as <-.
    destruct Hr5 as (a & Ea & ->). match type of Ea with ?x = _ => change x with [ex_deleted 4] in Ea end. injection Ea as <-.
    exists i, (Raise e). split; [exact H|]. split; [exact Hi1|eauto].
Qed.

Print Assumptions C93_session.
Print Assumptions C93_ids.
Print Assumptions C93_sessions_exist.
