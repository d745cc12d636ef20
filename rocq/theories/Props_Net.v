(** * C20, C21: the message layer *)
From Verif Require Import PyBase Model_Net Spec_Net Proofs_Net.

(** ** C20 *)

(** Any number of readers, opened, resumed and dropped in any order that keeps to the
    discipline [safe]; any chunking; any sequence of messages with non-zero IDs that the codec
    frames; bytes may
    still be missing at the end ([fut]).  What was handed out for each ID is, in order and
    without repetition, an initial part of what the server sent with that ID; and
    everything handed out carries the ID asked for. *)
Theorem C20_no_loss_duplication_or_reordering_partial {M} (mid : M -> N) (good : M -> Prop) enc dec all chunks fut w :
  codec_ok_on good enc dec -> (forall m, In m all -> mid m <> 0%N /\ good m) ->
  List.concat chunks ++ fut = stream enc all ->
  reach mid dec (connected chunks) w ->
  (forall k, exists later, of_id mid k all = delivered k w ++ later) /\
  (forall k m, In (k, m) (w_log w) -> mid m = k).
Proof.
  intros Hc Hz He Hr.
  assert (Hi : inv mid enc all fut w).
  { eapply reach_inv; eauto. apply inv_init. exact He. }
  destruct Hi as (_ & _ & _ & Hl & i & ms & _ & _ & _ & Hk). split; [|exact Hl].
  intros k. exists (outstanding mid (s_queues (w_sock w)) ms k). symmetry. apply Hk.
Qed.

(** In such a history every permitted read hands over precisely the first message of its
    ID that has not been handed over yet; it blocks only if there is none. *)
Theorem C20_next_is_the_next_one_partial {M} (mid : M -> N) (good : M -> Prop) enc dec all chunks w i g :
  codec_ok_on good enc dec -> (forall m, In m all -> mid m <> 0%N /\ good m) ->
  List.concat chunks = stream enc all ->
  reach mid dec (connected chunks) w -> safe w (Next i) -> w_gens w i = Some g ->
  match nth_error (of_id mid (g_want g) all) (List.length (delivered (g_want g) w)) with
  | Some m => exists g' s', gen_next mid dec g (w_sock w) = Yield m g' s'
  | None => exists raw s', gen_next mid dec g (w_sock w) = Blocked raw s'
  end.
Proof. intros Hc Hz He Hr Hs Eg. eapply next_delivers; eauto. Qed.

(** With a single reader no discipline is needed: for every chunking, reading n times
    gives the first n messages of that ID. *)
Theorem C20_single_reader_any_chunking {M} (mid : M -> N) (good : M -> Prop) enc dec all chunks k n :
  codec_ok_on good enc dec -> (forall m, In m all -> mid m <> 0%N /\ good m) ->
  List.concat chunks = stream enc all -> n <= List.length (of_id mid k all) ->
  reads mid dec n (recv_messages k) (mk_sock (fun _ => None) 0 chunks []) =
    Some (firstn n (of_id mid k all)).
Proof.
  intros Hc Hz He Hn.
  set (w := mk_world (mk_sock (fun _ => None) 0 chunks []) (gset (fun _ => None) 0 (Some (recv_messages k))) []
            : @world M).
  assert (Hr : reach mid dec (connected chunks) w).
  { apply (reach_step mid dec _ (connected chunks) (Open 0 k)); [constructor| |reflexivity].
    intros g H; discriminate H. }
  destruct (reads_spec mid enc dec good Hc all chunks k Hz He n w (recv_messages k) Hr) as [l [H1 H2]]; auto.
  - split; [|reflexivity]. intros j g. cbn [w_gens w]. unfold gset. destruct (Nat.eqb_spec j 0) as [->|]; [|discriminate].
    intros H; injection H as <-. repeat split. discriminate.
  - cbn [w_sock w] in H1. rewrite H1. f_equal. exact H2.
Qed.

(** If every read of the socket returns one whole message, successive recv_one calls
    (each discarding its reader) for any IDs in any order get, per ID, that ID's messages
    in order. *)
Theorem C20_recv_one_with_whole_messages {M} (mid : M -> N) (good : M -> Prop) enc dec all ks :
  codec_ok_on good enc dec -> (forall m, In m all -> mid m <> 0%N /\ good m) ->
  (forall k, wanted k ks <= List.length (of_id mid k all)) ->
  exists l, recv_ones mid dec ks (mk_sock (fun _ => None) 0 (map enc all) []) = Some l /\ map fst l = ks /\
    forall k, map snd (List.filter (fun e => N.eqb (fst e) k) l) = firstn (wanted k ks) (of_id mid k all).
Proof.
  intros Hc Hz Hn.
  destruct (recv_ones_spec mid enc dec good Hc all Hz ks (connected (map enc all)) all) as [l [H1 [H2 H3]]]; auto.
  - constructor.
  - intros i g H; discriminate H.
  - exists []; reflexivity.
  - exists l. split; [exact H1|]. split; [exact H2|]. exact H3.
Qed.

Lemma toy_codec : codec_ok toy_enc toy_dec.
Proof.
  split; [|split].
  - discriminate.
  - intros [k b] r. unfold toy_enc, toy_dec; cbn [fst snd app]. rewrite Nat2N.id.
    replace (List.length b <=? List.length (b ++ r)) with true
      by (symmetry; apply Nat.leb_le; rewrite app_length; lia).
    rewrite firstn_app, Nat.sub_diag, firstn_O, app_nil_r, firstn_all.
    now rewrite skipn_app, skipn_all, Nat.sub_diag, skipn_O.
  - intros [k b] x y E Hy. unfold toy_enc in E; cbn [fst snd] in E.
    destruct x as [|x0 [|x1 x]]; [reflexivity|reflexivity|].
    cbn [app] in E. injection E as <- <- E. unfold toy_dec. rewrite Nat2N.id.
    destruct (Nat.leb_spec (List.length b) (List.length x)) as [H|H]; [|reflexivity].
    exfalso. apply (f_equal (@List.length N)) in E. rewrite app_length in E.
    destruct y; [congruence|]. cbn [List.length] in E. lia.
Qed.

(** Without the discipline the property fails.  1: recv_one throws away what it read beyond
    its message; the second operation's reply is lost although it arrived. *)
Definition reply (k : N) (b : string) : toy := (k, lit b).
Theorem C20_refuted_recv_one_drops_bytes :
  exists all chunks, List.concat chunks = stream toy_enc all /\
    (forall m, In m all -> fst m <> 0%N) /\
    (exists g s, recv_one fst toy_dec 1 (mk_sock (fun _ => None) 0 chunks []) = Yield (reply 1 "a") g s /\
       In (reply 2 "b") all /\ exists s', recv_one fst toy_dec 2 s = Blocked [] s').
Proof.
  exists [reply 1 "a"; reply 2 "b"], [stream toy_enc [reply 1 "a"; reply 2 "b"]].
  split; [reflexivity|]. split; [intros m [<-|[<-|[]]]; discriminate|].
  eexists; eexists. split; [vm_compute; reflexivity|]. split; [right; left; reflexivity|].
  eexists. vm_compute. reflexivity.
Qed.

(** 2: two suspended readers: the second starts in the middle of a message the first one
    holds the beginning of, and is handed something the server never sent. *)
Theorem C20_refuted_interleaved_readers_corrupt :
  exists all chunks m g s g2 s2, List.concat chunks = stream toy_enc all /\
    (forall m, In m all -> fst m <> 0%N) /\
    gen_next fst toy_dec (recv_messages 1) (mk_sock (fun _ => None) 0 chunks []) = Yield (reply 1 "a") g s /\
    gen_next fst toy_dec (recv_messages 2) s = Yield m g2 s2 /\ ~ In m all.
Proof.
  (* the second message's first bytes end up in the first reader *)
  exists [reply 1 "a"; (2%N, [2%N; 1%N; 7%N])],
         [toy_enc (reply 1 "a") ++ [2%N; 3%N]; [2%N; 1%N; 7%N]], (2%N, [7%N]).
  eexists; eexists; eexists; eexists.
  split; [reflexivity|]. split; [intros m [<-|[<-|[]]]; discriminate|].
  split; [vm_compute; reflexivity|]. split; [vm_compute; reflexivity|].
  intros [H|[H|[]]]; discriminate H.
Qed.

(** 3: a reader that drained its queue and is resumed after another reader queued a new
    message for it skips that message: here it is handed "c" before "b" although each read
    returned exactly one whole message. *)
Theorem C20_refuted_stale_queue_reorders :
  exists all chunks w, chunks = map toy_enc all /\ (forall m, In m all -> fst m <> 0%N) /\
    fold_left (fun ow e => match ow with Some w => wstep fst toy_dec w e | None => None end)
      [Open 1 2; Next 1;           (* reader of 2 queues "a" for 1 *)
       Open 0 1; Next 0;           (* reader of 1 gets "a" from the queue *)
       Next 1;                     (* reader of 2 queues "b" for 1 *)
       Next 0]%N                   (* reader of 1 gets "c" *)
      (Some (connected chunks)) = Some w /\
    delivered 1 w = [reply 1 "a"; reply 1 "c"] /\
    of_id fst 1 all = [reply 1 "a"; reply 1 "b"; reply 1 "c"].
Proof.
  exists [reply 1 "a"; reply 2 "x"; reply 1 "b"; reply 2 "y"; reply 1 "c"].
  eexists; eexists. split; [reflexivity|].
  split; [intros m H; cbn in H; repeat (destruct H as [<-|H]; [discriminate|]); destruct H|].
  split; [vm_compute; reflexivity|]. split; vm_compute; reflexivity.
Qed.

(** 4: at end of file recv returns no bytes, for ever; however many times, the call neither
    returns nor raises. *)
Theorem C20_refuted_eof_never_ends {M} (mid : M -> N) dec k n :
  exists raw s, gen_next mid dec (recv_messages k) (mk_sock (fun _ => None) 0 (repeat [] n) []) = Blocked raw s.
Proof.
  unfold gen_next, recv_messages; cbn [g_pc g_want g_raw].
  induction n as [|n IH]; cbn [repeat top existsb flush_one]; [eauto|]. exact IH.
Qed.

(** 5: what follows an unsolicited notice in the same read is lost too. *)
Theorem C20_refuted_unsolicited_drops_bytes :
  exists all s s', (exists m, recv_one fst toy_dec 1
     (mk_sock (fun _ => None) 0 [stream toy_enc all] []) = Unsolicited m s) /\
    In (reply 1 "a") all /\ recv_one fst toy_dec 1 s = Blocked [] s'.
Proof.
  exists [reply 0 "bye"; reply 1 "a"]. eexists; eexists.
  split; [eexists; vm_compute; reflexivity|]. split; [right; left; reflexivity|]. vm_compute. reflexivity.
Qed.

Example C20_nonvacuous :
  let all := [reply 3 "x"; reply 1 "hello"; reply 3 "y"; reply 1 "world"] in
  let chunks := [[3%N]; [1%N; 120%N; 1%N]; []; skipn 4 (stream toy_enc all)] in
  codec_ok toy_enc toy_dec /\ (forall m, In m all -> fst m <> 0%N) /\
  List.concat chunks = stream toy_enc all /\
  reads fst toy_dec 2 (recv_messages 1) (mk_sock (fun _ => None) 0 chunks []) =
    Some [reply 1 "hello"; reply 1 "world"] /\
  (exists w, reach fst toy_dec (connected chunks) w /\ safe w (Next 1) /\ w_gens w 1 <> None /\
     delivered 1 w = [reply 1 "hello"; reply 1 "world"] /\ delivered 3 w = []).
Proof.
  cbv zeta. split; [exact toy_codec|].
  split; [intros m H; cbn in H; repeat (destruct H as [<-|H]; [discriminate|]); destruct H|].
  split; [reflexivity|]. split; [vm_compute; reflexivity|].
  set (chunks := [_; _; _; _]).
  set (st := fun w e => match wstep fst toy_dec w e with Some w' => w' | None => w end).
  set (w1 := st (connected chunks) (Open 0 1%N)).
  set (w2 := st w1 (Next 0)). set (w3 := st w2 (Next 0)). set (w4 := st w3 (Open 1 3%N)).
  assert (R1 : reach fst toy_dec (connected chunks) w1).
  { apply (reach_step _ _ _ (connected chunks) (Open 0 1%N)); [constructor|intros g H; discriminate H|reflexivity]. }
  assert (R2 : reach fst toy_dec (connected chunks) w2).
  { apply (reach_step _ _ _ w1 (Next 0)); [exact R1| |vm_compute; reflexivity]. split.
    - intros j Hj g Hg; destruct j; [congruence|vm_compute in Hg; discriminate Hg].
    - intros g Hg d d' l Hpc. vm_compute in Hg. injection Hg as <-. discriminate Hpc. }
  assert (R3 : reach fst toy_dec (connected chunks) w3).
  { apply (reach_step _ _ _ w2 (Next 0)); [exact R2| |vm_compute; reflexivity]. split.
    - intros j Hj g Hg; destruct j; [congruence|vm_compute in Hg; discriminate Hg].
    - intros g Hg d d' l Hpc. vm_compute in Hg. injection Hg as <-. discriminate Hpc. }
  assert (R4 : reach fst toy_dec (connected chunks) w4).
  { apply (reach_step _ _ _ w3 (Open 1 3%N)); [exact R3| |vm_compute; reflexivity].
    intros g Hg. vm_compute in Hg. discriminate Hg. }
  exists w4. split; [exact R4|]. split; [|split; [|split]].
  - split.
    + intros j Hj g Hg. destruct j as [|[|j]]; [|congruence|vm_compute in Hg; discriminate Hg].
      vm_compute in Hg. injection Hg as <-. reflexivity.
    + intros g Hg d d' l Hpc. vm_compute in Hg. injection Hg as <-. discriminate Hpc.
  - vm_compute. discriminate.
  - vm_compute. reflexivity.
  - vm_compute. reflexivity.
Qed.

(** ** C21 *)

(** For every history of send attempts on a new socket (some of which may fail to encode):
    the j-th attempt uses ID 1+j, whether or not it succeeds; everything on the wire has an
    ID of its own, never 0 (which is reserved for unsolicited messages). *)
Theorem C21_message_ids packable ops s rs : send_all packable sender_init ops = (s, rs) ->
  (forall j o, nth_error ops j = Some o ->
     nth_error rs j = Some (if packable (1 + N.of_nat j)%N o then Ok (1 + N.of_nat j)%N else Raise ValueError)) /\
  (forall i o, In (i, o) (wire s) <->
     exists j, nth_error ops j = Some o /\ i = (1 + N.of_nat j)%N /\ packable i o = true) /\
  NoDup (map fst (wire s)) /\ ~ In 0%N (map fst (wire s)).
Proof.
  intros H. apply send_all_spec in H as [_ [H2 [w [H3 [H4 [H5 H6]]]]]].
  cbn [next_id wire sender_init app] in *. rewrite H3.
  split; [exact H2|]. split; [exact H4|]. split; [exact H5|].
  intros Hc. specialize (H6 _ Hc). lia.
Qed.

(** If every request can be encoded the IDs are 1, 2, 3, ... *)
Theorem C21_ids_are_consecutive packable ops s rs :
  (forall i o, packable i o = true) -> send_all packable sender_init ops = (s, rs) ->
  rs = map (fun j => Ok (1 + N.of_nat j)%N) (seq 0 (List.length ops)).
Proof.
  intros Hp H.
  assert (Hl : List.length rs = List.length ops).
  { revert H. generalize sender_init. revert s rs. induction ops as [|o ops IH]; intros s rs s0 H; cbn [send_all] in H.
    - injection H as <- <-. reflexivity.
    - destruct (send_message packable s0 o) as [s1 r]. destruct (send_all packable s1 ops) as [s2 rs2] eqn:E.
      injection H as <- <-. cbn. f_equal. eapply IH; eauto. }
  apply C21_message_ids in H as [H _].
  apply nth_ext with (d := Raise ValueError) (d' := Raise ValueError).
  { now rewrite map_length, seq_length. }
  intros j Hj. rewrite Hl in Hj.
  destruct (nth_error ops j) as [o|] eqn:E; [|apply nth_error_None in E; lia].
  specialize (H j o E). rewrite Hp in H.
  apply nth_error_nth with (d := Raise ValueError) in H. rewrite H.
  symmetry. apply nth_error_nth. rewrite nth_error_map.
  assert (Es : nth_error (seq 0 (List.length ops)) j = Some j).
  { rewrite nth_error_nth' with (d := 0) by (rewrite seq_length; exact Hj). rewrite seq_nth by exact Hj. reflexivity. }
  rewrite Es. reflexivity.
Qed.

Example C21_nonvacuous :
  let packable := fun (i : N) (o : nat) => negb (Nat.eqb o 9) in
  send_all packable sender_init [5; 9; 7] =
    (mk_sender 4 [(1%N, 5); (3%N, 7)], [Ok 1%N; Raise ValueError; Ok 3%N]).
Proof. vm_compute. reflexivity. Qed.

Print Assumptions C20_no_loss_duplication_or_reordering_partial.
Print Assumptions C20_next_is_the_next_one_partial.
Print Assumptions C20_single_reader_any_chunking.
Print Assumptions C20_recv_one_with_whole_messages.
Print Assumptions C20_refuted_recv_one_drops_bytes.
Print Assumptions C20_refuted_interleaved_readers_corrupt.
Print Assumptions C20_refuted_stale_queue_reorders.
Print Assumptions C20_refuted_eof_never_ends.
Print Assumptions C20_refuted_unsolicited_drops_bytes.
Print Assumptions C21_message_ids.
Print Assumptions C21_ids_are_consecutive.
