(** * Security layers (C94) *)
From Verif Require Import PyBase Model_Net Spec_Net Model_Layer.

Section S.
  Context {M L : Type}.

  (** ** Receiving *)
  Section Unwrap.
    Context (unwrap : L -> list N -> res (list N) * L).
    (** the layer opens these pieces, one after the other, to those *)
    Inductive opens : option L -> list (list N) -> list (list N) -> Prop :=
    | OpensEnd s : opens s [] []
    | OpensNone c cs ps : opens None cs ps -> opens None (c :: cs) (c :: ps)
    | OpensSome l c p l' cs ps : unwrap l c = (Ok p, l') -> opens (Some l') cs ps -> opens (Some l) (c :: cs) (p :: ps).

    (** A layer that protects integrity, seen from the receiver.  [guards l bufs]: in state [l] it goes on to accept
        nothing but the given buffers of the server, in this order, and each once; anything else that arrives is
        refused, or means nothing (as no octets do). *)
    Definition protects (enc : M -> list N) (guards : L -> list (list M) -> Prop) : Prop :=
      forall l bufs c, guards l bufs ->
        match unwrap l c with
        | (Ok p, l') => (p = [] /\ guards l' bufs) \/ (exists b bufs', bufs = b :: bufs' /\ p = stream enc b /\ guards l' bufs')
        | (Raise _, l') => guards l' bufs
        end.
  End Unwrap.

  (** a connection with a layer in state [l] on which these pieces arrive, and nothing has been read yet *)
  Definition lfresh (l : option L) (chunks : list (list N)) : @lsock M L := mk_lsock (fun _ => None) 0 chunks [] l.
  Definition lconnected (l : option L) (chunks : list (list N)) : @lworld M L := mk_lworld (lfresh l chunks) (fun _ => None) [].
  Definition lrun mid dec unwrap (w : @lworld M L) (es : list event) : option (@lworld M L) :=
    fold_left (fun ow e => match ow with Some w => lwstep mid dec unwrap w e | None => None end) es (Some w).
  Definition run mid dec (w : @world M) (es : list event) : option (@world M) :=
    fold_left (fun ow e => match ow with Some w => wstep mid dec w e | None => None end) es (Some w).

  (** one who wants the messages with ID [k], and starts again whenever reading fails, at most [n] times *)
  Fixpoint lreads (mid : M -> N) dec (unwrap : L -> list N -> res (list N) * L) (n : nat) (k : N) (g : gen) (s : @lsock M L) : list M :=
    match n with
    | 0 => []
    | S n' =>
        match lgen_next mid dec unwrap g s with
        | LYield m g' s' => m :: lreads mid dec unwrap n' k g' s'
        | LRaise _ s' => lreads mid dec unwrap n' k (recv_messages k) s'
        | _ => []
        end
    end.
End S.

(** ** Sending: [agree l p]: the state of the layer here and at the other side belong together *)
Definition in_step {L P} (wrap : L -> list N -> res (list N) * L) (open : P -> list N -> option (list N * P)) (agree : L -> P -> Prop) : Prop :=
  forall l p raw, agree l p ->
    match wrap l raw with
    | (Ok out, l') => exists p', open p out = Some (raw, p') /\ agree l' p'
    | (Raise _, l') => agree l' p
    end.
Fixpoint opened {P} (open : P -> list N -> option (list N * P)) (p : P) (outs : list (list N)) : option (list (list N)) :=
  match outs with
  | [] => Some []
  | o :: outs' => match open p o with Some (raw, p') => option_map (cons raw) (opened open p' outs') | None => None end
  end.
(** the encodings of the operations whose sending returned *)
Definition octets_sent {Op} (packed : N -> Op -> res (list N)) (ops : list Op) (rs : list (res N)) : list (list N) :=
  flat_map (fun x => match snd x with Ok i => match packed i (fst x) with Ok raw => [raw] | Raise _ => [] end | Raise _ => [] end) (combine ops rs).
