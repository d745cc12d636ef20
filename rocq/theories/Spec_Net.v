(** * Specification vocabulary for the message layer (C20, C21) *)
From Verif Require Import PyBase Model_Net.

Section S.
  Context {M : Type} (mid : M -> N).

  (** the messages of a sequence that carry a given ID *)
  Definition of_id (k : N) (ms : list M) : list M := List.filter (fun m => N.eqb (mid m) k) ms.

  (** [dec] decodes the self-delimiting encoding [enc]: it reads one whole message off the
      front of any input that starts with one, and reports "not enough" on every proper
      initial part of a message.  (The ASN.1 BER codec is one.)  [good]: the messages for
      which it does. *)
  Definition codec_ok_on (good : M -> Prop) (enc : M -> str) (dec : str -> option (M * str)) : Prop :=
    (forall m, good m -> enc m <> []) /\
    (forall m r, good m -> dec (enc m ++ r) = Some (m, r)) /\
    (forall m a b, good m -> enc m = a ++ b -> b <> [] -> dec a = None).
  Definition codec_ok (enc : M -> str) (dec : str -> option (M * str)) : Prop :=
    (forall m, enc m <> []) /\
    (forall m r, dec (enc m ++ r) = Some (m, r)) /\
    (forall m a b, enc m = a ++ b -> b <> [] -> dec a = None).

  (** what the server sends: the encodings of its messages one after the other *)
  Definition stream (enc : M -> str) (ms : list M) : str := List.concat (map enc ms).

  (** what the reader of ID k has been handed so far *)
  Definition delivered (k : N) (w : @world M) : list M :=
    map snd (List.filter (fun e => N.eqb (fst e) k) (w_log w)).

  (** A fresh connection with the given chunks on their way. *)
  Definition connected (chunks : list str) : @world M :=
    mk_world (mk_sock (fun _ => None) 0 chunks []) (fun _ => None) [].

  (** The discipline under which the message layer is correct:
      - nobody else reads the socket while a suspended reader still holds bytes it has
        received but not decoded, and such a reader is not thrown away;
      - a reader that was last handed a message out of its queue, and whose queue was then
        empty, is not resumed if a new queue has been started for its ID meanwhile. *)
  Definition holds_nothing (w : @world M) (i : nat) : Prop :=
    forall g, w_gens w i = Some g -> g_raw g = [].
  Definition not_stale (w : @world M) (g : gen) : Prop :=
    forall d d' l, g_pc g = InFlush d -> s_queues (w_sock w) (g_want g) = Some (d', l) -> d = d'.
  Definition safe (w : @world M) (e : event) : Prop :=
    match e with
    | Open i want => holds_nothing w i
    | Drop i => holds_nothing w i
    | Next i => (forall j, j <> i -> holds_nothing w j) /\
                (forall g, w_gens w i = Some g -> not_stale w g)
    end.

  (** histories that keep to the discipline and whose calls all returned *)
  Inductive reach (dec : str -> option (M * str)) (w0 : @world M) : @world M -> Prop :=
  | reach_init : reach dec w0 w0
  | reach_step w e w' : reach dec w0 w -> safe w e -> wstep mid dec w e = Some w' -> reach dec w0 w'.
End S.

(** A concrete codec for the examples: ID, length, body. *)
Definition toy := (N * str)%type.
Definition toy_enc (m : toy) : str := fst m :: N.of_nat (List.length (snd m)) :: snd m.
Definition toy_dec (s : str) : option (toy * str) :=
  match s with
  | k :: n :: b =>
      if (N.to_nat n <=? List.length b)%nat
      then Some ((k, firstn (N.to_nat n) b), skipn (N.to_nat n) b) else None
  | _ => None
  end.
