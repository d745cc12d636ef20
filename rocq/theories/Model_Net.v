(** * Model of LDAPSocket's message layer
    /repo/laurelin/ldap/net.py:276-374
    Simplifications: a message is an abstract value with a message ID; [ber_decode] is a
    parameter [dec] ([None] = SubstrateUnderrunError); the bytes the server will ever send
    are fixed in advance, cut into the chunks that successive [recv] calls return; a
    [recv] after the last chunk blocks; the SASL wrapping (282-283, 337-338) is left out;
    dict order of the queues is not observable and not modelled. *)
From Verif Require Import PyBase.

Section Net.
  Context {M : Type} (mid : M -> N) (dec : str -> option (M * str)).

  (** self._message_queues: per ID, a deque.  The number identifies the deque object:
      a generator that is inside its flush loop holds a reference to one deque. *)
  Definition queues := N -> option (nat * list M).
  Definition qset (q : queues) (k : N) (v : option (nat * list M)) : queues :=
    fun k' => if N.eqb k' k then v else q k'.

  (** The socket's state that the message layer uses. net.py:69-77 *)
  Record sock := mk_sock {
    s_queues : queues;
    s_fresh : nat;           (* next deque identity *)
    s_pending : list str;    (* chunks future recv() calls return *)
    s_abandoned : list N }.  (* self.abandoned_mids *)

  (** Where a suspended generator is: not started, at the [yield obj] of the flush loop
      (net.py:330) holding that deque, or at the [yield response] of the decode loop
      (net.py:344). [g_raw] is its local variable [raw]. *)
  Inductive pc := AtStart | InFlush (deque : nat) | InDecode.
  Record gen := mk_gen { g_want : N; g_pc : pc; g_raw : str }.

  (** the else branch: append to the ID's deque, creating it if need be.
      net.py:368-371 *)
  Definition enqueue (q : queues) (fresh : nat) (m : M) : queues * nat :=
    match q (mid m) with
    | Some (d, l) => (qset q (mid m) (Some (d, l ++ [m])), fresh)
    | None => (qset q (mid m) (Some (fresh, [m])), S fresh)
    end.

  (** [while len(raw) > 0]: net.py:340-371.  [n] bounds the iterations; every call passes
      the length of [raw], and [ber_decode] consumes at least one byte ([DFuel] is proved
      unreachable for such decoders). *)
  Inductive dres :=
  | DYield (m : M) (q : queues) (fresh : nat) (raw : str)   (* 343-344 *)
  | DUnsolicited (m : M) (q : queues) (fresh : nat)          (* 345-367 *)
  | DDone (q : queues) (fresh : nat)                         (* raw exhausted *)
  | DUnder (q : queues) (fresh : nat) (raw : str)            (* SubstrateUnderrunError *)
  | DFuel.
  Fixpoint decode_loop (n : nat) (want : N) (q : queues) (fresh : nat) (raw : str) : dres :=
    match raw with
    | [] => DDone q fresh
    | _ :: _ =>
        match n with
        | 0 => DFuel
        | S n' =>
            match dec raw with
            | None => DUnder q fresh raw
            | Some (m, raw') =>
                if N.eqb want (mid m) then DYield m q fresh raw'
                else if N.eqb (mid m) 0 then DUnsolicited m q fresh
                else let (q', fresh') := enqueue q fresh m in decode_loop n' want q' fresh' raw'
            end
        end
    end.

  (** What one [next(generator)] does. *)
  Inductive outcome :=
  | Yield (m : M) (g : gen) (s : sock)
  | Stop (s : sock)                   (* StopIteration *)
  | Unsolicited (m : M) (s : sock)    (* raises LDAPUnsolicitedMessage; the generator is finished *)
  | Blocked (raw : str) (s : sock)    (* still inside recv *)
  | NoFuel.

  (** popleft on the deque at [want]; delete the dict entry if that empties it.
      net.py:322-330 *)
  Definition flush_one (q : queues) (want : N) : option (M * nat * queues) :=
    match q want with
    | Some (d, m :: []) => Some (m, d, qset q want None)
    | Some (d, m :: l) => Some (m, d, qset q want (Some (d, l)))
    | _ => None
    end.

  (** The outer [while True], from its top; one chunk per iteration. net.py:320-374 *)
  Fixpoint top (pend : list str) (ab : list N) (want : N) (flush : bool)
      (q : queues) (fresh : nat) (raw : str) : outcome :=
    match (if flush then flush_one q want else None) with
    | Some (m, d, q') => Yield m (mk_gen want (InFlush d) raw) (mk_sock q' fresh pend ab)
    | None =>
        if existsb (N.eqb want) ab then Stop (mk_sock q fresh pend ab)
        else
          match pend with
          | [] => Blocked raw (mk_sock q fresh [] ab)
          | c :: pend' =>
              let raw1 := raw ++ c in
              match decode_loop (List.length raw1) want q fresh raw1 with
              | DYield m q' f' raw' =>
                  Yield m (mk_gen want InDecode raw') (mk_sock q' f' pend' ab)
              | DUnsolicited m q' f' => Unsolicited m (mk_sock q' f' pend' ab)
              | DDone q' f' => top pend' ab want true q' f' []
              | DUnder q' f' raw' => top pend' ab want false q' f' raw'
              | DFuel => NoFuel
              end
          end
    end.

  (** Resuming a generator. In the flush loop it looks at the deque it holds: a deque that
      is no longer in the dict is empty (entries are removed only when they become empty).
      net.py:324-330; in the decode loop it carries on with [raw]: net.py:340. *)
  Definition gen_next (g : gen) (s : sock) : outcome :=
    let '(mk_sock q fresh pend ab) := s in
    match g_pc g with
    | AtStart => top pend ab (g_want g) true q fresh (g_raw g)
    | InFlush d =>
        match q (g_want g) with
        | Some (d', _) => if Nat.eqb d d' then top pend ab (g_want g) true q fresh (g_raw g)
                          else top pend ab (g_want g) false q fresh (g_raw g)
        | None => top pend ab (g_want g) false q fresh (g_raw g)
        end
    | InDecode =>
        match decode_loop (List.length (g_raw g)) (g_want g) q fresh (g_raw g) with
        | DYield m q' f' raw' => Yield m (mk_gen (g_want g) InDecode raw') (mk_sock q' f' pend ab)
        | DUnsolicited m q' f' => Unsolicited m (mk_sock q' f' pend ab)
        | DDone q' f' => top pend ab (g_want g) true q' f' []
        | DUnder q' f' raw' => top pend ab (g_want g) false q' f' raw'
        | DFuel => NoFuel
        end
    end.

  (** recv_messages(want): a fresh generator. net.py:312-319 *)
  Definition recv_messages (want : N) : gen := mk_gen want AtStart [].

  (** recv_one(want): next of a fresh generator, which is then discarded with its [raw].
      net.py:303-310 *)
  Definition recv_one (want : N) (s : sock) : outcome := gen_next (recv_messages want) s.

  (** Histories: any number of generators, opened, resumed and dropped in any order. *)
  Inductive event := Open (i : nat) (want : N) | Next (i : nat) | Drop (i : nat).
  Record world := mk_world {
    w_sock : sock;
    w_gens : nat -> option gen;
    w_log : list (N * M) }.   (* what the caller was handed, with the ID it asked for *)
  Definition gset (gs : nat -> option gen) (i : nat) (v : option gen) : nat -> option gen :=
    fun j => if Nat.eqb j i then v else gs j.
  (** [None]: the event is impossible (no such generator) or the call never returned. *)
  Definition wstep (w : world) (e : event) : option world :=
    match e with
    | Open i want => Some (mk_world (w_sock w) (gset (w_gens w) i (Some (recv_messages want))) (w_log w))
    | Drop i => Some (mk_world (w_sock w) (gset (w_gens w) i None) (w_log w))
    | Next i =>
        match w_gens w i with
        | None => None
        | Some g =>
            match gen_next g (w_sock w) with
            | Yield m g' s' => Some (mk_world s' (gset (w_gens w) i (Some g')) (w_log w ++ [(g_want g, m)]))
            | Stop s' | Unsolicited _ s' => Some (mk_world s' (gset (w_gens w) i None) (w_log w))
            | Blocked _ _ | NoFuel => None
            end
        end
    end.
End Net.

(** ** Sending: _prep_message and send_message. net.py:276-301
    [packable mid op] says whether pack/ber_encode succeed for this ID and operation (they
    can raise, e.g. for IDs above maxInt); the counter is incremented before that. *)
Record sender := mk_sender { next_id : N; wire : list (N * nat) }.
Definition sender_init : sender := mk_sender 1 [].
Definition send_message (packable : N -> nat -> bool) (s : sender) (op : nat) : sender * res N :=
  let i := next_id s in
  if packable i op then (mk_sender (i + 1) (wire s ++ [(i, op)]), Ok i)
  else (mk_sender (i + 1) (wire s), Raise ValueError).
Fixpoint send_all (packable : N -> nat -> bool) (s : sender) (ops : list nat) : sender * list (res N) :=
  match ops with
  | [] => (s, [])
  | o :: ops' =>
      let (s1, r) := send_message packable s o in
      let (s2, rs) := send_all packable s1 ops' in (s2, r :: rs)
  end.
