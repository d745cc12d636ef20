(** * Specification: traces of a connection, users of a socket *)
From Verif Require Import PyBase Model_Conn.

(** A well-behaved conversation: nothing follows an unbind request, and no bind request
    follows a successful bind. *)
Definition nothing_after_unbind (t : list wire) : Prop :=
  forall pre post, t = pre ++ WUnbind :: post -> post = [].
Definition at_most_one_bind (t : list wire) : Prop :=
  forall pre post, t = pre ++ WBind true :: post -> forall b, ~ In (WBind b) post.

(** Who uses which socket, as the application sees it: [live] says for each LDAP object
    whether the application has not called unbind on it yet. *)
Fixpoint users (conns : list nat) (live : list bool) (id : nat) : nat :=
  match conns, live with
  | i :: conns', l :: live' => (if Nat.eqb i id && l then 1 else 0) + users conns' live' id
  | _, _ => 0
  end.

Definition live_after (live : list bool) (e : event) (r : res unit) : list bool :=
  match e with
  | Connect _ _ _ _ | Attach _ _ => if is_ok r then live ++ [true] else live
  | Unbind c _ _ => upd live c (fun _ => false)
  | _ => live
  end.
Definition forced_after (w : world) (forced : list nat) (e : event) : list nat :=
  match e with
  | Unbind c true _ => match nth_error (w_conns w) c with Some id => id :: forced | None => forced end
  | _ => forced
  end.

(** The discipline under which sharing works: shared URIs are given in the form the socket
    itself reports; constructors do not fail after connecting; sockets passed to a
    constructor are open; each object is unbound once; the unbind request can be sent. *)
Definition safe (norm : str -> str) (w : world) (live : list bool) (e : event) : Prop :=
  match e with
  | Connect u reuse _ dse => (reuse = true -> norm u = u) /\ dse = true
  | Attach id dse => dse = true /\ exists k, nth_error (w_socks w) id = Some k /\ k_unbound k = false
  | Unbind c _ sent => nth_error live c = Some true /\ sent = true
  | _ => True
  end.

Inductive history (norm : str -> str) : world -> list bool -> list nat -> Prop :=
| H_start : history norm start [] []
| H_step w live forced e : history norm w live forced -> safe norm w live e ->
    history norm (snd (step norm w e)) (live_after live e (fst (step norm w e))) (forced_after w forced e).

(** The same, with every connection by URI asking for sharing. *)
Inductive shared_history (norm : str -> str) : world -> list bool -> list nat -> Prop :=
| SH_start : shared_history norm start [] []
| SH_step w live forced e : shared_history norm w live forced -> safe norm w live e ->
    (forall u reuse tcp dse, e = Connect u reuse tcp dse -> reuse = true) ->
    shared_history norm (snd (step norm w e)) (live_after live e (fst (step norm w e))) (forced_after w forced e).
