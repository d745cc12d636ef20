(** * C22, C23: binding, unbinding, sharing sockets *)
From Verif Require Import PyBase Model_Conn Spec_Conn Proofs_Conn Model_Uri.

(** ** C22 *)

(** Binding again, or binding or operating after unbind, raises and changes nothing. *)
Theorem C22_refusals norm w c id k :
  nth_error (w_conns w) c = Some id -> nth_error (w_socks w) id = Some k ->
  (k_unbound k = true ->
     (forall s, step norm w (SimpleBind c s) = (Raise ConnectionUnbound, w)) /\
     (forall m n s sm f, step norm w (SaslBind c m n s sm f) = (Raise ConnectionUnbound, w)) /\
     (forall f s, step norm w (Unbind c f s) = (Raise ConnectionUnbound, w)) /\
     (forall s, step norm w (GuardedOp c s) = (Raise ConnectionUnbound, w)) /\
     (forall s, step norm w (UnguardedOp c s) = (Raise os_error, w))) /\
  (k_unbound k = false -> k_bound k = true ->
     (forall s, step norm w (SimpleBind c s) = (Raise ConnectionAlreadyBound, w)) /\
     (forall m n s sm f, step norm w (SaslBind c m n s sm f) = (Raise ConnectionAlreadyBound, w))).
Proof.
  intros Ec Ek. split.
  - intros Eu. cbn [step]. unfold with_conn. rewrite Ec.
    unfold simple_bind, sasl_bind, unbind, guarded_op, unguarded_op, send. rewrite Ek, Eu. repeat split.
  - intros Eu Eb. cbn [step]. unfold with_conn. rewrite Ec.
    unfold simple_bind, sasl_bind. rewrite Ek, Eu, Eb. split; reflexivity.
Qed.

(** In every history whatsoever, on every socket: nothing is sent after the unbind request,
    no bind request is sent after a successful bind, and the socket is marked bound
    (unbound) exactly if a bind succeeded (the unbind request was sent). *)
Theorem C22_every_history norm es id k :
  nth_error (w_socks (run norm es start)) id = Some k ->
  nothing_after_unbind (k_trace k) /\ at_most_one_bind (k_trace k) /\
  (k_bound k = true <-> In (WBind true) (k_trace k)) /\
  (k_unbound k = true <-> In WUnbind (k_trace k)).
Proof.
  intros E. assert (H : winv (run norm es start)) by (apply winv_run; constructor).
  unfold winv in H. rewrite Forall_forall in H. apply (H k). eapply nth_error_In; eauto.
Qed.

(** Exact outcome of a bind on a fresh connection: success exactly if the server says so. *)
Theorem C22_bind_outcome norm w c id k s :
  nth_error (w_conns w) c = Some id -> nth_error (w_socks w) id = Some k ->
  k_unbound k = false -> k_bound k = false ->
  fst (step norm w (SimpleBind c s)) = (if s then Ok tt else Raise LDAPError) /\
  (exists k', nth_error (w_socks (snd (step norm w (SimpleBind c s)))) id = Some k' /\
     k_bound k' = s /\ k_trace k' = k_trace k ++ [WBind s]).
Proof.
  intros Ec Ek Eu Eb. cbn [step]. unfold with_conn. rewrite Ec. unfold simple_bind. rewrite Ek, Eu, Eb.
  rewrite (send_spec w id _ k Ek), Eu. destruct s; cbn [fst snd].
  - split; [reflexivity|]. rewrite on_on, nth_on, Nat.eqb_refl, Ek. cbn. eexists; repeat split.
  - split; [reflexivity|]. rewrite nth_on, Nat.eqb_refl, Ek. cbn. eexists; repeat split. exact Eb.
Qed.

(** Exact outcome of an operation on an open connection, bound or not: one request is sent, and the call succeeds exactly
    if the server says so. *)
Theorem C22_operation_outcome norm w c id k s :
  nth_error (w_conns w) c = Some id -> nth_error (w_socks w) id = Some k -> k_unbound k = false ->
  forall e, e = GuardedOp c s \/ e = UnguardedOp c s ->
  fst (step norm w e) = (if s then Ok tt else Raise LDAPError) /\
  (exists k', nth_error (w_socks (snd (step norm w e))) id = Some k' /\
     k_bound k' = k_bound k /\ k_unbound k' = false /\ k_trace k' = k_trace k ++ [WOp]).
Proof.
  intros Ec Ek Eu e [-> | ->]; cbn [step]; unfold with_conn; rewrite Ec; unfold guarded_op, unguarded_op; rewrite ?Ek, ?Eu;
  rewrite (send_spec w id _ k Ek), Eu; destruct s; cbn [fst snd]; (split; [reflexivity|]);
  rewrite nth_on, Nat.eqb_refl, Ek; cbn; eexists; repeat split; exact Eu.
Qed.
(** Exact outcome of a SASL bind on an open unbound connection that was not bound: without a mechanism nothing is sent;
    otherwise one bind request for each round is sent; the connection is bound exactly if the last answer is success, and
    only a changed list of mechanisms with the downgrade check on makes a successful one raise. *)
Theorem C22_sasl_outcome norm w c id k mech rounds s same fatal :
  nth_error (w_conns w) c = Some id -> nth_error (w_socks w) id = Some k ->
  k_unbound k = false -> k_bound k = false ->
  let e := SaslBind c mech rounds s same fatal in
  (mech = false -> step norm w e = (Raise LDAPSupportError, w)) /\
  (mech = true ->
     fst (step norm w e) = (if s then if same then Ok tt else if fatal then Raise LDAPError else Ok tt else Raise LDAPError) /\
     exists k', nth_error (w_socks (snd (step norm w e))) id = Some k' /\ k_bound k' = s /\ k_unbound k' = false /\
       k_trace k' = k_trace k ++ repeat (WBind false) rounds ++ [WBind s] ++ (if s then [WOp] else [])).
Proof.
  intros Ec Ek Eu Eb e. unfold e. cbn [step]. unfold with_conn. rewrite Ec. unfold sasl_bind. rewrite Ek, Eu, Eb. split; [now intros ->|].
  intros ->. cbn [negb]. rewrite (send_spec w id _ k Ek), Eu. destruct s; cbn [fst snd].
  - unfold get_entry. rewrite !on_on, nth_on, Nat.eqb_refl, Ek. cbn [option_map k_unbound add_trace set_bound]. rewrite Eu.
    assert (E1 : nth_error (w_socks (on_sock w id (fun x => set_bound (add_trace (repeat (WBind false) rounds ++ [WBind true]) x)))) id
                 = Some (set_bound (add_trace (repeat (WBind false) rounds ++ [WBind true]) k))).
    { rewrite nth_on, Nat.eqb_refl, Ek. reflexivity. }
    rewrite (send_spec _ id _ _ E1). cbn [k_unbound set_bound add_trace]. rewrite Eu. cbn [fst snd].
    split; [destruct same, fatal; reflexivity|]. rewrite on_on, nth_on, Nat.eqb_refl, Ek. cbn. eexists. split; [reflexivity|]. cbn.
    split; [reflexivity|]. split; [exact Eu|]. now rewrite <- !app_assoc.
  - split; [reflexivity|]. rewrite nth_on, Nat.eqb_refl, Ek. cbn. eexists. split; [reflexivity|]. cbn. split; [exact Eb|]. split; [exact Eu|].
    reflexivity.
Qed.
(** When the connection cannot be made the constructor raises LDAPConnectionError and nothing is left of it: no socket, no
    registration, no connection. A registered socket is used without connecting. *)
Theorem C22_failed_connect norm w u reuse dse :
  reuse = false \/ dget (w_reg w) u = None -> step norm w (Connect u reuse false dse) = (Raise LDAPConnectionError, w).
Proof. intros [-> | H]; cbn [step]; unfold connect; [reflexivity|]. rewrite H. now destruct reuse. Qed.

(** A SASL bind can raise although it took effect: the check of the mechanisms comes after. *)
Theorem C22_sasl_raises_but_bound :
  exists w, w = snd (step (fun u => u) (run (fun u => u) [Connect (lit "ldap://h") true true true] start)
                       (SaslBind 0 true 1 true false true)) /\
  fst (step (fun u => u) (run (fun u => u) [Connect (lit "ldap://h") true true true] start)
         (SaslBind 0 true 1 true false true)) = Raise LDAPError /\
  option_map k_bound (nth_error (w_socks w) 0) = Some true /\
  fst (step (fun u => u) w (SimpleBind 0 true)) = Raise ConnectionAlreadyBound.
Proof. eexists. split; [reflexivity|]. vm_compute. repeat split; reflexivity. Qed.

(** Not every operation raises ConnectionUnbound after unbind. *)
Theorem C22_refuted_unguarded :
  let w := run (fun u => u) [Connect (lit "ldap://h") true true true; Unbind 0 false true] start in
  fst (step (fun u => u) w (GuardedOp 0 true)) = Raise ConnectionUnbound /\
  fst (step (fun u => u) w (UnguardedOp 0 true)) = Raise os_error /\
  fst (step (fun u => u) w (EmptyModify 0)) = Ok tt.
Proof. vm_compute. repeat split; reflexivity. Qed.

Example C22_nonvacuous :
  let w := run (fun u => u) [Connect (lit "ldap://h") true true true; SimpleBind 0 false;
              SaslBind 0 true 2 true true true; SimpleBind 0 true; GuardedOp 0 true; Unbind 0 false true;
              GuardedOp 0 true] start in
  option_map k_trace (nth_error (w_socks w) 0) =
    Some [WOp; WBind false; WBind false; WBind false; WBind true; WOp; WOp; WUnbind].
Proof. vm_compute. reflexivity. Qed.

(** ** C23 *)

(** In every history that keeps to the discipline, a socket is closed exactly if it has no
    user left or one of its users forced the unbind. *)
Theorem C23_closed_iff_unused_partial norm w live forced id k :
  history norm w live forced -> nth_error (w_socks w) id = Some k ->
  (k_unbound k = true <-> users (w_conns w) live id = 0 \/ In id forced).
Proof.
  intros Hh E. destruct (history_J _ _ _ _ Hh) as (J1 & J2 & J3 & J4 & J5 & J6 & J7). split.
  - intros Eu. now apply (J6 id k).
  - intros [Hz|Hf].
    + destruct (k_unbound k) eqn:Eu; [reflexivity|]. destruct (J5 id k E Eu). lia.
    + destruct (J7 id Hf) as [k' [A B]]. congruence.
Qed.

(** A closed socket is never handed to a new connection: connecting again succeeds and the
    new object's socket is open. *)
Theorem C23_new_connection_is_open_partial norm w live forced u reuse :
  history norm w live forced -> (reuse = true -> norm u = u) ->
  fst (step norm w (Connect u reuse true true)) = Ok tt /\
  exists id k, nth_error (w_conns (snd (step norm w (Connect u reuse true true)))) (List.length (w_conns w)) = Some id /\
    nth_error (w_socks (snd (step norm w (Connect u reuse true true)))) id = Some k /\ k_unbound k = false.
Proof.
  intros Hh Hn. pose proof (history_J _ _ _ _ Hh) as HJ.
  set (e := Connect u reuse true true).
  assert (Hok : fst (step norm w e) = Ok tt /\ exists id, w_conns (snd (step norm w e)) = w_conns w ++ [id]).
  { assert (F : forall w id dse r w', finish_init w id dse = (r, w') -> is_ok r = true -> w_conns w' = w_conns w ++ [id]).
    { intros w0 id dse r w' E Hr. unfold finish_init in E.
      pose proof (same_get (on_sock w0 id (add_ref 1)) id dse) as (_ & Hc & _).
      destruct (get_entry _ id dse) as [[|] w2]; injection E as <- <-; [|discriminate Hr].
      cbn [w_conns snd] in *. now rewrite Hc. }
    unfold e. cbn [step]. unfold connect. destruct reuse.
    - destruct (dget (w_reg w) u) as [id|] eqn:Ed.
      + pose proof HJ as (_ & _ & _ & J4 & _). destruct (J4 u id Ed) as [k (A & B & _)].
        destruct (J_attach norm w live forced id k HJ A B) as [Ho _]. split; [exact Ho|]. exists id.
        destruct (finish_init w id true) as [r w'] eqn:Ef. cbn [fst snd] in *. subst r. now apply (F _ _ _ _ _ Ef).
      + destruct (J_fresh norm w live forced u (dset (w_reg w) u (List.length (w_socks w))) HJ) as [Ho _]; [right; auto|].
        split; [exact Ho|]. exists (List.length (w_socks w)).
        destruct (finish_init _ _ true) as [r w'] eqn:Ef. cbn [fst snd] in *. subst r. rewrite (F _ _ _ _ _ Ef); reflexivity.
    - destruct (J_fresh norm w live forced u (w_reg w) HJ) as [Ho _]; [now left|].
      split; [exact Ho|]. exists (List.length (w_socks w)).
      destruct (finish_init _ _ true) as [r w'] eqn:Ef. cbn [fst snd] in *. subst r. rewrite (F _ _ _ _ _ Ef); reflexivity. }
  destruct Hok as [Ho [id Hc]]. split; [exact Ho|].
  assert (Hs : safe norm w live e) by (split; auto).
  pose proof (H_step norm w live forced e Hh Hs) as Hh2.
  unfold live_after in Hh2. cbn [e] in Hh2. rewrite Ho in Hh2. cbn [is_ok] in Hh2.
  assert (Hf0 : forced_after w forced e = forced) by reflexivity. fold e in Hh2. rewrite Hf0 in Hh2.
  destruct (history_J _ _ _ _ Hh2) as (J1 & J2 & _ & _ & _ & J6 & J7).
  assert (Hi : id < List.length (w_socks (snd (step norm w e)))).
  { rewrite Forall_forall in J2. apply J2. rewrite Hc, in_app_iff. right; now left. }
  destruct (nth_error (w_socks (snd (step norm w e))) id) as [k|] eqn:Ek; [|apply nth_error_None in Ek; lia].
  exists id, k. split; [rewrite Hc, nth_error_app2 by lia; now rewrite Nat.sub_diag|]. split; [exact Ek|].
  destruct (k_unbound k) eqn:Eu; [exfalso|reflexivity].
  assert (Hl : List.length live = List.length (w_conns w)) by apply HJ.
  destruct (J6 id k Ek Eu) as [Hz|Hin].
  - rewrite Hc, users_app in Hz by exact Hl. rewrite Nat.eqb_refl in Hz. cbn in Hz. lia.
  - (* the socket was closed already before: then it was not handed out *)
    revert Hc Ek. unfold e. cbn [step]. unfold connect.
    assert (G : forall w0 id0 r w', finish_init w0 id0 true = (r, w') -> w_conns w' = w_conns w0 ++ [id] ->
              id0 = id /\ r = Ok tt).
    { intros w0 id0 r w' E Hw. unfold finish_init in E.
      pose proof (same_get (on_sock w0 id0 (add_ref 1)) id0 true) as (_ & Hcc & _).
      destruct (get_entry _ id0 true) as [[[]|] w2]; injection E as <- <-; cbn [w_conns snd] in *.
      - rewrite Hcc in Hw. cbn [on_sock w_conns] in Hw. apply app_inj_tail in Hw as [_ ->]. auto.
      - rewrite Hcc in Hw. cbn [on_sock w_conns] in Hw. exfalso. clear -Hw.
        assert (H : List.length (w_conns w0) = List.length (w_conns w0 ++ [id])) by congruence.
        rewrite app_length in H. cbn in H. lia. }
    pose proof HJ as (_ & _ & _ & J4 & _ & _ & J7').
    destruct (J7' id Hin) as [k0 [A0 B0]].
    assert (Hlt : id < List.length (w_socks w)) by (apply nth_error_Some; congruence).
    destruct reuse.
    + destruct (dget (w_reg w) u) as [id'|] eqn:Ed.
      * destruct (finish_init w id' true) as [r w'] eqn:Ef. cbn [snd]. intros Hc' _.
        destruct (G _ _ _ _ Ef Hc') as [-> _]. destruct (J4 u id Ed) as [k1 (A & B & _)]. congruence.
      * destruct (finish_init _ _ true) as [r w'] eqn:Ef. cbn [snd]. intros Hc' _.
        destruct (G _ _ _ _ Ef Hc') as [<- _]. lia.
    + destruct (finish_init _ _ true) as [r w'] eqn:Ef. cbn [snd]. intros Hc' _.
      destruct (G _ _ _ _ Ef Hc') as [<- _]. lia.
Qed.

(** If every connection asks for sharing, open sockets with the same URI are one socket. *)
Theorem C23_one_socket_per_uri_partial norm w live forced i1 i2 k1 k2 :
  shared_history norm w live forced ->
  nth_error (w_socks w) i1 = Some k1 -> nth_error (w_socks w) i2 = Some k2 ->
  k_unbound k1 = false -> k_unbound k2 = false -> k_uri k1 = k_uri k2 -> i1 = i2.
Proof.
  intros Hh E1 E2 U1 U2 Eu. pose proof (shared_S _ _ _ _ Hh) as HS.
  pose proof (HS i1 k1 E1 U1) as D1. pose proof (HS i2 k2 E2 U2) as D2. congruence.
Qed.

(** The URI a socket reports, as computed by the URI model with nothing percent-encoded. *)
Definition reported (u : str) : str :=
  match parse_uri (fun s => s) u with Ok sn => sock_uri sn | Raise _ => u end.

(** A bare host name: the registry entry survives the unbind, and the next connection to
    the same host fails on the closed socket, forever. *)
Theorem C23_refuted_bare_host :
  let w := run reported [Connect (lit "localhost") true true true; Unbind 0 false true] start in
  fst (step reported w (Connect (lit "localhost") true true true)) = Raise ConnectionUnbound.
Proof. vm_compute. reflexivity. Qed.

(** Unbinding the same object twice takes the socket away from its other user. *)
Theorem C23_refuted_double_unbind :
  let w := run reported [Connect (lit "ldap://h") true true true; Connect (lit "ldap://h") true true true;
                         Unbind 0 false true; Unbind 0 false true] start in
  w_conns w = [0; 0] /\ fst (step reported w (GuardedOp 1 true)) = Raise ConnectionUnbound.
Proof. vm_compute. split; reflexivity. Qed.

(** A constructor that fails after connecting leaks a reference: the last user's unbind
    does not close the socket. *)
Theorem C23_refuted_failed_constructor :
  let w := run reported [Connect (lit "ldap://h") true true false; Connect (lit "ldap://h") true true true;
                         Unbind 0 false true] start in
  w_conns w = [0] /\ option_map k_unbound (nth_error (w_socks w) 0) = Some false.
Proof. vm_compute. split; reflexivity. Qed.

(** Closing a private connection unregisters the shared socket with the same URI. *)
Theorem C23_refuted_private_unregisters :
  let w := run reported [Connect (lit "ldap://h") true true true; Connect (lit "ldap://h") false true true;
                         Unbind 1 false true; Connect (lit "ldap://h") true true true] start in
  w_conns w = [0; 1; 2] /\
  map k_unbound (w_socks w) = [false; true; false].
Proof. vm_compute. split; reflexivity. Qed.

(** Two users of one socket, then a third after it was closed: a history of the kind the
    theorems speak about. *)
Example C23_nonvacuous :
  exists w live forced, shared_history reported w live forced /\
    w_conns w = [0; 0; 1] /\ live = [false; false; true] /\ forced = [] /\
    map k_unbound (w_socks w) = [true; false].
Proof.
  assert (E : reported (lit "ldap://h") = lit "ldap://h") by (vm_compute; reflexivity).
  do 3 eexists. split.
  { eapply (SH_step reported _ _ _ (Connect (lit "ldap://h") true true true)).
    - eapply (SH_step reported _ _ _ (Unbind 1 false true)).
      + eapply (SH_step reported _ _ _ (Unbind 0 false true)).
        * eapply (SH_step reported _ _ _ (Connect (lit "ldap://h") true true true)).
          -- eapply (SH_step reported _ _ _ (Connect (lit "ldap://h") true true true)); [constructor| |].
             ++ split; auto.
             ++ intros; congruence.
          -- split; auto.
          -- intros; congruence.
        * split; [vm_compute; reflexivity|reflexivity].
        * intros; congruence.
      + split; [vm_compute; reflexivity|reflexivity].
      + intros; congruence.
    - split; auto.
    - intros; congruence. }
  vm_compute. repeat split; reflexivity.
Qed.

Print Assumptions C22_refusals.
Print Assumptions C22_every_history.
Print Assumptions C22_bind_outcome.
Print Assumptions C22_sasl_raises_but_bound.
Print Assumptions C22_refuted_unguarded.
Print Assumptions C23_closed_iff_unused_partial.
Print Assumptions C23_new_connection_is_open_partial.
Print Assumptions C23_one_socket_per_uri_partial.
Print Assumptions C23_refuted_bare_host.
Print Assumptions C23_refuted_double_unbind.
Print Assumptions C23_refuted_failed_constructor.
Print Assumptions C23_refuted_private_unregisters.
Print Assumptions C22_operation_outcome.
Print Assumptions C22_sasl_outcome.
Print Assumptions C22_failed_connect.
