(** * Model of LDAPSocket's message layer with a SASL client: net.py:276-374
    As Model_Net, with what that leaves out: octets go through wrap before they are sent (282-283) and what each recv
    returns goes through unwrap (337-338).  [wrap] and [unwrap] are those of puresasl's SASLClient: any functions of its
    state and octets; they may raise, but not SubstrateUnderrunError.  [dec], the chunks and generators are as in Model_Net. *)
From Verif Require Import PyBase Model_Net.

(** LDAPSocket.RECV_BUFFER: net.py:46: recv returns at most so many octets *)
Definition RECV_BUFFER : nat := 4096.

Section Layer.
  Context {M L : Type} (mid : M -> N) (dec : str -> option (M * str)).
  Context (unwrap : L -> list N -> res (list N) * L).

  (** The socket's state; [l_sasl]: self._sasl_client, None if there is none (net.py:71, 248-249) *)
  Record lsock := mk_lsock { l_queues : @queues M; l_fresh : nat; l_pending : list (list N); l_abandoned : list N; l_sasl : option L }.
  (** if self._has_sasl_client(): newraw = self._sasl_client.unwrap(newraw): net.py:337-338 *)
  Definition unwrapped (sasl : option L) (newraw : list N) : res (list N) * option L :=
    match sasl with
    | Some l => let (r, l') := unwrap l newraw in (r, Some l')
    | None => (Ok newraw, None)
    end.
  Inductive loutcome :=
  | LYield (m : M) (g : gen) (s : lsock)
  | LStop (s : lsock)
  | LUnsolicited (m : M) (s : lsock)
  | LRaise (e : exn) (s : lsock)      (* unwrap raised; the generator is finished *)
  | LBlocked (raw : str) (s : lsock)
  | LNoFuel.
  (** [top] of Model_Net with unwrap: net.py:320-374 *)
  Fixpoint ltop (pend : list str) (ab : list N) (want : N) (flush : bool) (q : queues) (fresh : nat) (raw : str) (sasl : option L) : loutcome :=
    match (if flush then flush_one q want else None) with
    | Some (m, d, q') => LYield m (mk_gen want (InFlush d) raw) (mk_lsock q' fresh pend ab sasl)
    | None =>
        if existsb (N.eqb want) ab then LStop (mk_lsock q fresh pend ab sasl)
        else
          match pend with
          | [] => LBlocked raw (mk_lsock q fresh [] ab sasl)
          | c :: pend' =>
              let (newraw, sasl') := unwrapped sasl c in
              match newraw with
              | Raise e => LRaise e (mk_lsock q fresh pend' ab sasl')
              | Ok newraw =>
                  let raw1 := raw ++ newraw in
                  match decode_loop mid dec (List.length raw1) want q fresh raw1 with
                  | DYield m q' f' raw' => LYield m (mk_gen want InDecode raw') (mk_lsock q' f' pend' ab sasl')
                  | DUnsolicited m q' f' => LUnsolicited m (mk_lsock q' f' pend' ab sasl')
                  | DDone q' f' => ltop pend' ab want true q' f' [] sasl'
                  | DUnder q' f' raw' => ltop pend' ab want false q' f' raw' sasl'
                  | DFuel => LNoFuel
                  end
              end
          end
    end.
  (** [gen_next] of Model_Net on it *)
  Definition lgen_next (g : gen) (s : lsock) : loutcome :=
    let '(mk_lsock q fresh pend ab sasl) := s in
    match g_pc g with
    | AtStart => ltop pend ab (g_want g) true q fresh (g_raw g) sasl
    | InFlush d =>
        match q (g_want g) with
        | Some (d', _) => if Nat.eqb d d' then ltop pend ab (g_want g) true q fresh (g_raw g) sasl
                          else ltop pend ab (g_want g) false q fresh (g_raw g) sasl
        | None => ltop pend ab (g_want g) false q fresh (g_raw g) sasl
        end
    | InDecode =>
        match decode_loop mid dec (List.length (g_raw g)) (g_want g) q fresh (g_raw g) with
        | DYield m q' f' raw' => LYield m (mk_gen (g_want g) InDecode raw') (mk_lsock q' f' pend ab sasl)
        | DUnsolicited m q' f' => LUnsolicited m (mk_lsock q' f' pend ab sasl)
        | DDone q' f' => ltop pend ab (g_want g) true q' f' [] sasl
        | DUnder q' f' raw' => ltop pend ab (g_want g) false q' f' raw' sasl
        | DFuel => LNoFuel
        end
    end.

  (** Histories, as in Model_Net; a reader whose unwrap raised is finished *)
  Record lworld := mk_lworld { lw_sock : lsock; lw_gens : nat -> option gen; lw_log : list (N * M) }.
  Definition lwstep (w : lworld) (e : event) : option lworld :=
    match e with
    | Open i want => Some (mk_lworld (lw_sock w) (gset (lw_gens w) i (Some (recv_messages want))) (lw_log w))
    | Drop i => Some (mk_lworld (lw_sock w) (gset (lw_gens w) i None) (lw_log w))
    | Next i =>
        match lw_gens w i with
        | None => None
        | Some g =>
            match lgen_next g (lw_sock w) with
            | LYield m g' s' => Some (mk_lworld s' (gset (lw_gens w) i (Some g')) (lw_log w ++ [(g_want g, m)]))
            | LStop s' | LUnsolicited _ s' | LRaise _ s' => Some (mk_lworld s' (gset (lw_gens w) i None) (lw_log w))
            | LBlocked _ _ | LNoFuel => None
            end
        end
    end.
End Layer.

(** ** Sending: _prep_message and send_message: net.py:276-301.  [packed] is pack and ber_encode for a message ID and an
    operation; the counter is incremented before that. *)
Section Send.
  Context {L Op : Type} (wrap : L -> list N -> res (list N) * L) (packed : N -> Op -> res (list N)).
  Record lsender := mk_lsender { ls_next_id : N; ls_sasl : option L; ls_wire : list (list N) }.
  Definition wrapped (sasl : option L) (raw : list N) : res (list N) * option L :=
    match sasl with
    | Some l => let (r, l') := wrap l raw in (r, Some l')
    | None => (Ok raw, None)
    end.
  Definition lsend (s : lsender) (op : Op) : lsender * res N :=
    let i := ls_next_id s in
    match packed i op with
    | Raise e => (mk_lsender (i + 1) (ls_sasl s) (ls_wire s), Raise e)
    | Ok raw =>
        let (r, sasl') := wrapped (ls_sasl s) raw in
        match r with
        | Raise e => (mk_lsender (i + 1) sasl' (ls_wire s), Raise e)
        | Ok out => (mk_lsender (i + 1) sasl' (ls_wire s ++ [out]), Ok i)
        end
    end.
  Fixpoint lsend_all (s : lsender) (ops : list Op) : lsender * list (res N) :=
    match ops with
    | [] => (s, [])
    | o :: ops' => let (s1, r) := lsend s o in let (s2, rs) := lsend_all s1 ops' in (s2, r :: rs)
    end.
End Send.
