(** * C94: security layers *)
From Verif Require Import PyBase Model_Net Spec_Net Proofs_Net Props_Net Model_Layer Spec_Layer Proofs_Layer.

(** ** Receiving *)
(** As long as the layer opens what each read of the socket returns, every history of readers goes as it does without a
    layer on what was opened: the same messages are delivered, the same calls wait, everything that holds of readers
    without a layer (C20, C91, C93) holds of these. *)
Theorem C94_as_without_a_layer {M L} (mid : M -> N) dec (unwrap : L -> list N -> res (list N) * L) l chunks pieces es :
  opens unwrap l chunks pieces ->
  match run mid dec (connected pieces) es, lrun mid dec unwrap (lconnected l chunks) es with
  | Some w, Some v => w_log w = lw_log v /\ w_gens w = lw_gens v
  | None, None => True
  | _, _ => False
  end.
Proof.
  intros H. assert (S : same_world (M := M) unwrap (connected pieces) (lconnected l chunks)) by (split; [repeat split; exact H|split; reflexivity]).
  pose proof (run_same mid dec unwrap es _ _ S) as R. destruct (run mid dec (connected pieces) es), (lrun mid dec unwrap (lconnected l chunks) es); try exact R.
  destruct R as (_ & R1 & R2). auto.
Qed.
(** So if each read returns just one buffer, a reader gets the messages with its ID. *)
Theorem C94_whole_buffers {M L} (mid : M -> N) (good : M -> Prop) enc dec (unwrap : L -> list N -> res (list N) * L) l chunks bufs k n :
  codec_ok_on good enc dec -> (forall m, In m (List.concat bufs) -> mid m <> 0%N /\ good m) ->
  opens unwrap l chunks (map (stream enc) bufs) -> n <= List.length (of_id mid k (List.concat bufs)) ->
  lreads mid dec unwrap n k (recv_messages k) (lfresh l chunks) = firstn n (of_id mid k (List.concat bufs)).
Proof.
  intros HC Hf Ho Hn.
  assert (Ec : List.concat (map (stream enc) bufs) = stream enc (List.concat bufs)).
  { clear. induction bufs as [|b bufs IH]; [reflexivity|]. cbn [map List.concat]. rewrite IH. unfold stream. now rewrite map_app, concat_app. }
  pose proof (C20_single_reader_any_chunking mid good enc dec (List.concat bufs) _ k n HC Hf Ec Hn) as R.
  assert (S : same_sock (M := M) unwrap (mk_sock (fun _ => None) 0 (map (stream enc) bufs) []) (lfresh l chunks)) by (repeat split; exact Ho).
  revert R S. generalize (recv_messages k) at 1 2. generalize (firstn n (of_id mid k (List.concat bufs))). generalize (lfresh l chunks : @lsock M L).
  generalize (mk_sock (fun _ => None) 0 (map (stream enc) bufs) [] : @sock M). clear. induction n as [|n IH]; intros s t ms g R S; cbn [reads lreads] in *; [injection R as <-; reflexivity|].
  pose proof (next_same mid dec unwrap g s t S) as N. destruct (gen_next mid dec g s) as [m g' s'| | | |]; try discriminate.
  destruct (reads mid dec n g' s') as [ms'|] eqn:E; [|discriminate]. injection R as <-.
  destruct (lgen_next mid dec unwrap g t) as [m1 g1 t1| | | | |]; try contradiction. destruct N as (<- & <- & N). f_equal. now apply (IH s' t1).
Qed.

(** Whatever arrives: forged, altered, repeated, reordered or cut; whatever readers there are, in any history, whichever
    of them fail: if the layer protects integrity, all that is ever delivered are messages the server sent, to readers of
    their ID, none of them twice. *)
Theorem C94_nothing_forged_or_replayed {M L} (mid : M -> N) (good : M -> Prop) enc dec (unwrap : L -> list N -> res (list N) * L) guards l bufs chunks es w :
  codec_ok_on good enc dec -> protects unwrap enc guards -> guards l bufs ->
  (forall m, In m (List.concat bufs) -> good m) -> NoDup (List.concat bufs) ->
  lrun mid dec unwrap (lconnected (Some l) chunks) es = Some w ->
  NoDup (map snd (lw_log w)) /\ forall k m, In (k, m) (lw_log w) -> In m (List.concat bufs) /\ mid m = k.
Proof.
  intros HC HP Hg Hgood Hnd E.
  pose proof (run_held mid dec enc good unwrap guards HC HP (List.concat bufs) Hgood Hnd es _ w (init_held mid enc guards (List.concat bufs) l chunks bufs Hg eq_refl) E) as (own & acc & (l' & bufs' & _ & _ & Es) & _ & H & Hn & Hid).
  split; [exact Hn|]. intros k m I. split; [|now apply Hid]. destruct (H 0) as (_ & _ & _ & D). rewrite Es. apply in_app_iff. left. apply D. left.
  change m with (snd (k, m)). now apply in_map.
Qed.
(** One reader, which starts again whenever the layer refuses something, gets the messages with its ID in order, from the
    first on: what an attacker can do is to have it miss the last ones. *)
Theorem C94_in_order {M L} (mid : M -> N) (good : M -> Prop) enc dec (unwrap : L -> list N -> res (list N) * L) guards l bufs chunks k n :
  codec_ok_on good enc dec -> protects unwrap enc guards -> guards l bufs ->
  (forall m, In m (List.concat bufs) -> mid m <> 0%N /\ good m) ->
  exists missed, of_id mid k (List.concat bufs) = lreads mid dec unwrap n k (recv_messages k) (lfresh (Some l) chunks) ++ missed.
Proof.
  intros HC HP Hg Hf. apply (reads_order mid dec enc good unwrap guards HC HP). exists [], l, bufs.
  split; [reflexivity|]. split; [reflexivity|]. split; [exact Hg|]. split; [reflexivity|]. split; [discriminate|]. split; [reflexivity|]. split; [reflexivity|].
  split; [exact Hf|]. split; [reflexivity|]. left. split; reflexivity.
Qed.

(** ** Sending *)
(** Everything that is sent goes through the layer, one buffer for each message: the other side opens what arrives to
    the encodings of just the operations whose sending returned, in order, with the message IDs that were returned. *)
Theorem C94_sent {L P Op} (wrap : L -> list N -> res (list N) * L) open agree (packed : N -> Op -> res (list N)) (l : L) (p : P) ops s rs :
  in_step wrap open agree -> agree l p -> lsend_all wrap packed (mk_lsender 1 (Some l) []) ops = (s, rs) ->
  opened open p (ls_wire s) = Some (octets_sent packed ops rs) /\ List.length rs = List.length ops /\
  forall j o i, nth_error ops j = Some o -> nth_error rs j = Some (Ok i) -> i = (1 + N.of_nat j)%N /\ exists raw, packed i o = Ok raw.
Proof. intros HS Ha E. destruct (send_all_opened wrap packed open agree HS ops _ _ _ _ _ _ Ha E) as (outs & -> & H). exact H. Qed.

(** ** Refuted: what the server sends through the layer is received.  Buffers (RFC 4422, 3.7) are not put together from
    what several reads return.  A layer that opens nothing but whole buffers therefore never opens one that is longer
    than what one read of the socket returns, however often one tries, whatever is in it. *)
Definition whole_only {L} (unwrap : L -> list N -> res (list N) * L) (awaits : L -> list N -> Prop) : Prop :=
  forall l buf c, awaits l buf -> c <> buf -> exists e l', unwrap l c = (Raise e, l') /\ awaits l' buf.
Lemma no_part_opened {M L} (mid : M -> N) dec (unwrap : L -> list N -> res (list N) * L) awaits buf k n : whole_only unwrap awaits ->
  forall chunks l, awaits l buf -> Forall (fun c => c <> buf) chunks -> lreads mid dec unwrap n k (recv_messages k) (lfresh (Some l) chunks) = [].
Proof.
  intros HW. induction n as [|n IH]; intros chunks l Ha Hc; [reflexivity|]. cbn [lreads]. unfold lgen_next, lfresh, recv_messages. cbn [g_pc g_want g_raw].
  destruct chunks as [|c chunks]; [reflexivity|]. inversion Hc as [|? ? Hc1 Hc2]; subst. cbn [ltop flush_one existsb unwrapped].
  destruct (HW l buf c Ha Hc1) as (e & l' & E & Ha'). rewrite E. now apply IH.
Qed.
Theorem C94_refuted_long_buffers {M L} (mid : M -> N) dec (unwrap : L -> list N -> res (list N) * L) awaits l buf chunks k n :
  whole_only unwrap awaits -> awaits l buf -> RECV_BUFFER < List.length buf ->
  List.concat chunks = buf -> Forall (fun c => List.length c <= RECV_BUFFER) chunks ->
  lreads mid dec unwrap n k (recv_messages k) (lfresh (Some l) chunks) = [].
Proof.
  intros HW Ha Hl _ Hc. apply (no_part_opened mid dec unwrap awaits buf k n HW chunks l Ha). rewrite Forall_forall in *. intros c I ->. specialize (Hc buf I). lia.
Qed.

(** ** A layer: buffers are numbered and only the ones of the server are accepted *)
Definition ideal_unwrap (l : list (list toy)) (c : list N) : res (list N) * list (list toy) :=
  match l with
  | b :: l' => if str_eqb c (7%N :: stream toy_enc b) then (Ok (stream toy_enc b), l') else (Raise ValueError, l)
  | [] => (Raise ValueError, l)
  end.
Lemma ideal_protects : protects ideal_unwrap toy_enc eq.
Proof.
  intros l bufs c <-. unfold ideal_unwrap. destruct l as [|b l]; [reflexivity|]. destruct (str_eqb c (7%N :: stream toy_enc b)); [|reflexivity].
  right. exists b, l. auto.
Qed.
(** three messages of the server; the attacker repeats the first buffer, alters the second, and then lets it through *)
Definition ex_bufs : list (list toy) := [[(1%N, lit "a"); (2%N, lit "b")]; [(1%N, lit "c")]].
Definition ex_arriving : list (list N) :=
  let b1 := 7%N :: stream toy_enc [(1%N, lit "a"); (2%N, lit "b")] in let b2 := 7%N :: stream toy_enc [(1%N, lit "c")] in
  [b1; b1; 7%N :: stream toy_enc [(1%N, lit "x")]; b2].
Example C94_nonvacuous :
  NoDup (List.concat ex_bufs) /\ opens ideal_unwrap (Some ex_bufs) (map (fun b => 7%N :: stream toy_enc b) ex_bufs) (map (stream toy_enc) ex_bufs) /\
  lreads fst toy_dec ideal_unwrap 5 1 (recv_messages 1) (lfresh (Some ex_bufs) ex_arriving) = [(1%N, lit "a"); (1%N, lit "c")] /\
  (exists w, lrun fst toy_dec ideal_unwrap (lconnected (Some ex_bufs) ex_arriving) [Open 0 2; Next 0; Open 1 1; Next 1; Open 1 1; Next 1] = Some w /\ lw_log w = [(2%N, (2%N, lit "b")); (1%N, (1%N, lit "a"))]) /\
  in_step (fun (n : N) raw => if N.eqb n 3 then (Raise ValueError, n) else (Ok (n :: raw), (n + 1)%N)) (fun (n : N) c => match c with x :: r => if N.eqb x n then Some (r, (n + 1)%N) else None | [] => None end) eq /\
  (let wrap := fun (n : N) raw => if N.eqb n 9 then (Raise ValueError, n) else (Ok (n :: raw), (n + 1)%N) in
   lsend_all wrap (fun i op => if N.eqb op 5 then Raise TypeError else Ok [i; op]) (mk_lsender 1 (Some 8%N) []) [4%N; 5%N; 6%N] =
   (mk_lsender 4 (Some 9%N) [[8; 1; 4]%N], [Ok 1%N; Raise TypeError; Raise ValueError])) /\
  (let big := [7%N :: repeat 0%N 5000] in
   whole_only (fun (l : unit) c => if str_eqb c (hd [] big) then (Ok (tl c), l) else (Raise ValueError, l)) (fun _ b => b = hd [] big) /\ RECV_BUFFER < List.length (hd [] big)).
Proof.
  split; [repeat constructor; cbn; intuition discriminate|]. split; [apply OpensSome with (tl ex_bufs); [reflexivity|]; apply OpensSome with []; [reflexivity|constructor]|].
  split; [reflexivity|]. split; [eexists; split; reflexivity|]. split; [|split; [reflexivity|split]].
  - intros n p raw <-. destruct (N.eqb_spec n 3); [reflexivity|]. exists (n + 1)%N. rewrite N.eqb_refl. auto.
  - intros l buf c -> Hc. destruct (str_eqb_spec c (hd [] [7%N :: repeat 0%N 5000])); [contradiction|]. exists ValueError, l. auto.
  - cbn [hd List.length]. rewrite repeat_length. unfold RECV_BUFFER. lia.
Qed.

Print Assumptions C94_as_without_a_layer.
Print Assumptions C94_whole_buffers.
Print Assumptions C94_nothing_forged_or_replayed.
Print Assumptions C94_in_order.
Print Assumptions C94_sent.
Print Assumptions C94_refuted_long_buffers.
