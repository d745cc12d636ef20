(** * Model of connections, shared sockets and the bind state
    /repo/laurelin/ldap/base.py:67 (the registry _sockets), 220-351 (constructor),
    385-545 (binding, unbinding), 584-1157 (which operations look at the unbound flag);
    /repo/laurelin/ldap/net.py:62-78, 281-303, 375-378.
    Simplifications: what the network and the server do is chosen by the event (arbitrary);
    request contents, controls and validation are not part of this model (they can only make an
    operation fail before sending); using a closed socket raises the operating system's
    error, written [os_error]; only what concerns the socket is kept of an LDAP object. *)
From Verif Require Import PyBase.

Definition os_error : exn := OtherExn 9.

(** What was put on the wire, with the server's verdict for binds. *)
Inductive wire := WBind (success : bool) | WUnbind | WOp.

(** LDAPSocket: /repo/laurelin/ldap/net.py:62-78 *)
Record sock := mk_sock { k_uri : str; k_ref : Z; k_bound : bool; k_unbound : bool; k_trace : list wire }.

(** The process: every socket ever opened (by ID), the global registry, and for each LDAP
    object the ID of the socket it uses. *)
Record world := mk_world { w_socks : list sock; w_reg : list (str * nat); w_conns : list nat }.
Definition start : world := mk_world [] [] [].

Definition upd {A} (l : list A) (i : nat) (f : A -> A) : list A :=
  match nth_error l i with Some x => firstn i l ++ f x :: skipn (S i) l | None => l end.
Definition on_sock (w : world) (id : nat) (f : sock -> sock) : world :=
  mk_world (upd (w_socks w) id f) (w_reg w) (w_conns w).
Definition add_trace (ws : list wire) (k : sock) : sock :=
  mk_sock (k_uri k) (k_ref k) (k_bound k) (k_unbound k) (k_trace k ++ ws).
Definition set_bound (k : sock) : sock := mk_sock (k_uri k) (k_ref k) true (k_unbound k) (k_trace k).
Definition set_unbound (k : sock) : sock := mk_sock (k_uri k) (k_ref k) (k_bound k) true (k_trace k).
Definition add_ref (z : Z) (k : sock) : sock :=
  mk_sock (k_uri k) (k_ref k + z)%Z (k_bound k) (k_unbound k) (k_trace k).

(** Sending: /repo/laurelin/ldap/net.py:281-303 *)
Definition send (w : world) (id : nat) (ws : list wire) : res unit * world :=
  match nth_error (w_socks w) id with
  | None => (Raise AttributeError, w)
  | Some k => if k_unbound k then (Raise os_error, w) else (Ok tt, on_sock w id (add_trace ws))
  end.

(** get(''): guarded by the flag, then a search: base.py:600-603, 676-677; [ok]: the server
    returned exactly one entry *)
Definition get_entry (w : world) (id : nat) (ok : bool) : res unit * world :=
  match nth_error (w_socks w) id with
  | None => (Raise AttributeError, w)
  | Some k =>
      if k_unbound k then (Raise ConnectionUnbound, w)
      else let (r, w1) := send w id [WOp] in
           match r with
           | Raise e => (Raise e, w1)
           | Ok _ => (if ok then Ok tt else Raise NoSearchResults, w1)
           end
  end.

(** The rest of the constructor once the socket is chosen: base.py:315-351; [dse]: the root
    DSE can be read and a base DN determined *)
Definition finish_init (w : world) (id : nat) (dse : bool) : res unit * world :=
  let w1 := on_sock w id (add_ref 1) in
  let (r, w2) := get_entry w1 id dse in
  match r with
  | Raise e => (Raise e, w2)
  | Ok _ => (Ok tt, mk_world (w_socks w2) (w_reg w2) (w_conns w2 ++ [id]))
  end.

(** LDAP(uri, reuse_connection=reuse): base.py:298-315; [norm] is the URI the socket keeps
    for itself (net.py:94); [tcp]: connecting succeeds *)
Definition new_sock (norm : str -> str) (u : str) : sock := mk_sock (norm u) 0 false false [].
Definition connect (norm : str -> str) (w : world) (u : str) (reuse tcp dse : bool) : res unit * world :=
  if reuse then
    match dget (w_reg w) u with
    | Some id => finish_init w id dse
    | None =>
        if tcp then
          let id := List.length (w_socks w) in
          finish_init (mk_world (w_socks w ++ [new_sock norm u]) (dset (w_reg w) u id) (w_conns w)) id dse
        else (Raise LDAPConnectionError, w)
    end
  else if tcp then
    let id := List.length (w_socks w) in
    finish_init (mk_world (w_socks w ++ [new_sock norm u]) (w_reg w) (w_conns w)) id dse
  else (Raise LDAPConnectionError, w).

(** simple_bind: base.py:399-418 *)
Definition simple_bind (w : world) (id : nat) (success : bool) : res unit * world :=
  match nth_error (w_socks w) id with
  | None => (Raise AttributeError, w)
  | Some k =>
      if k_unbound k then (Raise ConnectionUnbound, w)
      else if k_bound k then (Raise ConnectionAlreadyBound, w)
      else let (r, w1) := send w id [WBind success] in
           match r with
           | Raise e => (Raise e, w1)
           | Ok _ => if success then (Ok tt, on_sock w1 id set_bound) else (Raise LDAPError, w1)
           end
  end.

(** sasl_bind: base.py:469-521; [mech]: a mechanism could be chosen; [rounds] answers
    saslBindInProgress come before the final verdict; [same]: the mechanisms read again
    afterwards are the same, [fatal]: sasl_fatal_downgrade_check *)
Definition sasl_bind (w : world) (id : nat) (mech : bool) (rounds : nat) (success same fatal : bool)
    : res unit * world :=
  match nth_error (w_socks w) id with
  | None => (Raise AttributeError, w)
  | Some k =>
      if k_unbound k then (Raise ConnectionUnbound, w)
      else if k_bound k then (Raise ConnectionAlreadyBound, w)
      else if negb mech then (Raise LDAPSupportError, w)
      else let (r, w1) := send w id (repeat (WBind false) rounds ++ [WBind success]) in
           match r with
           | Raise e => (Raise e, w1)
           | Ok _ =>
               if success then
                 let w2 := on_sock w1 id set_bound in
                 let (r2, w3) := get_entry w2 id true in
                 match r2 with
                 | Raise e => (Raise e, w3)
                 | Ok _ => (if negb same && fatal then Raise LDAPError else Ok tt, w3)
                 end
               else (Raise LDAPError, w1)
           end
  end.

(** unbind (and close, __exit__): base.py:529-545; [sent]: the unbind request could be sent *)
Definition unbind (w : world) (id : nat) (force sent : bool) : res unit * world :=
  match nth_error (w_socks w) id with
  | None => (Raise AttributeError, w)
  | Some k =>
      if k_unbound k then (Raise ConnectionUnbound, w)
      else
        let w1 := on_sock w id (add_ref (-1)) in
        if force || Z.eqb (k_ref k - 1) 0 then
          if sent then
            let (r, w2) := send w1 id [WUnbind] in
            match r with
            | Raise e => (Raise e, w2)
            | Ok _ => let w3 := on_sock w2 id set_unbound in
                      (Ok tt, mk_world (w_socks w3) (ddel (w_reg w3) (k_uri k)) (w_conns w3))
            end
          else (Raise os_error, w1)
        else (Ok tt, w1)
  end.

(** The operations that test the unbound flag first: get, exists, search, compare, add,
    delete, mod_dn, and modify with a non-empty modlist: base.py:600, 612, 676, 752, 796,
    917, 941, 1000 *)
Definition guarded_op (w : world) (id : nat) (success : bool) : res unit * world :=
  match nth_error (w_socks w) id with
  | None => (Raise AttributeError, w)
  | Some k =>
      if k_unbound k then (Raise ConnectionUnbound, w)
      else let (r, w1) := send w id [WOp] in
           match r with Raise e => (Raise e, w1) | Ok _ => (if success then Ok tt else Raise LDAPError, w1) end
  end.
(** modify with an empty modlist: base.py:999, 1048-1050 *)
Definition empty_modify (w : world) (id : nat) : res unit * world := (Ok tt, w).
(** Extended requests (who_am_i, start_tls, ...) and abandon do not: base.py:1146-1157, 1549-1555 *)
Definition unguarded_op (w : world) (id : nat) (success : bool) : res unit * world :=
  let (r, w1) := send w id [WOp] in
  match r with Raise e => (Raise e, w1) | Ok _ => (if success then Ok tt else Raise LDAPError, w1) end.

(** What the application does; LDAP objects are named by the order of their creation. *)
Inductive event :=
| Connect (u : str) (reuse tcp dse : bool)
| Attach (id : nat) (dse : bool)             (* LDAP(server=<LDAPSocket id>) *)
| SimpleBind (c : nat) (success : bool)
| SaslBind (c : nat) (mech : bool) (rounds : nat) (success same fatal : bool)
| Unbind (c : nat) (force sent : bool)
| GuardedOp (c : nat) (success : bool)
| EmptyModify (c : nat)
| UnguardedOp (c : nat) (success : bool).

Definition with_conn (w : world) (c : nat) (f : nat -> res unit * world) : res unit * world :=
  match nth_error (w_conns w) c with Some id => f id | None => (Raise AttributeError, w) end.

Definition step (norm : str -> str) (w : world) (e : event) : res unit * world :=
  match e with
  | Connect u reuse tcp dse => connect norm w u reuse tcp dse
  | Attach id dse =>
      match nth_error (w_socks w) id with Some _ => finish_init w id dse | None => (Raise TypeError, w) end
  | SimpleBind c s => with_conn w c (fun id => simple_bind w id s)
  | SaslBind c m n s sm f => with_conn w c (fun id => sasl_bind w id m n s sm f)
  | Unbind c f s => with_conn w c (fun id => unbind w id f s)
  | GuardedOp c s => with_conn w c (fun id => guarded_op w id s)
  | EmptyModify c => with_conn w c (fun id => empty_modify w id)
  | UnguardedOp c s => with_conn w c (fun id => unguarded_op w id s)
  end.

Definition run (norm : str -> str) (es : list event) (w : world) : world :=
  fold_left (fun w e => snd (step norm w e)) es w.
