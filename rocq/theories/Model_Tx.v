(** * Model of ModTransactionObject (mod_transaction, checkpoints)
    /repo/laurelin/ldap/ldapobject.py:513-673 *)
From Verif Require Import PyBase Model_CIDict Model_Modify.

(** An object a transaction can be opened on: the original LDAPObject, or the
    n-th transaction object created so far. *)
Inductive oref := Orig | Tx (i : nat).

(** A ModTransactionObject: [_orig_obj], its own attributes, [_modlist].
    /repo/laurelin/ldap/ldapobject.py:596-601.
    Simplification: Mod objects are values, so one and the same Mod object being
    put into several modlists (and mutated through one of them) is not modelled. *)
Record tx := mktx { t_parent : oref; t_attrs : attrs; t_mods : list mod_ }.

(** The original object's attributes, the ModifyRequests put on the wire so far
    (in order), and all transaction objects created so far. *)
Record world := mkworld { w_orig : attrs; w_sent : list (list change); w_txs : list tx }.

Fixpoint set_nth {A} (l : list A) (i : nat) (x : A) : list A :=
  match l, i with
  | [], _ => []
  | _ :: l', 0 => x :: l'
  | y :: l', S i' => y :: set_nth l' i' x
  end.

Definition put_tx (w : world) (i : nat) (t : tx) : world :=
  mkworld (w_orig w) (w_sent w) (set_nth (w_txs w) i t).

(** What the outside world decides during one call that may validate and send:
    the validators' verdict, the bound state, and the server's answer. *)
Record outside := mkout { o_unbound : bool; o_valid : res unit; o_answer : res unit }.

(** The writing methods of LDAPObject other than the modify family.
    /repo/laurelin/ldap/ldapobject.py:152-177,432-500 *)
Inductive wmeth :=
| MAddChild | MDelete | MDeleteChild | MModDn
| MRename                      (* calls self.mod_dn, ldapobject.py:477-486 *)
| MMove (new_dn : str).        (* splits the DN, then self.mod_dn, ldapobject.py:488-500 *)

(** Calling them on a transaction object: the first four are overridden, the last two
    are inherited and dispatch to the overridden mod_dn.
    /repo/laurelin/ldap/ldapobject.py:647-673 *)
Definition tx_refuse (m : wmeth) : exn :=
  match m with
  | MAddChild | MDelete | MDeleteChild | MModDn | MRename => LDAPTransactionError
  | MMove dn => if existsb (N.eqb (ch ",")) dn then LDAPTransactionError
                else ValueError  (* not enough values to unpack *)
  end.

(** One call on the original object or on a transaction object. *)
Inductive tx_op :=
| TBegin (p : oref)                              (* p.mod_transaction() *)
| TModify (i : nat) (kwds : bool) (o : outside) (ms : list mod_)   (* t.modify(ms, **kwds) *)
| TCommit (i : nat) (o : outside)                (* t.commit() *)
| TExit (i : nat) (exc : option exn)             (* leaving the with block *)
| TForbidden (i : nat) (m : wmeth)               (* t.m(...) *)
| TRefresh (i : nat) (kvs : list (str * list str))   (* refresh from the server *)
| OModify (o : outside) (ms : list mod_).        (* orig.modify(ms) *)

Section Tx.
  Variable lower : str -> str.
  Variable idx : str -> list str -> str -> res nat.
  Variable f : empty_flags.

  (** deepcopy() of an object into a fresh one.
      /repo/laurelin/ldap/ldapobject.py:600-601, attrsdict.py:28-35 *)
  Definition tx_copy (d : attrs) : attrs := cid_update lower cid_empty (cid_items d).

  Definition obj_attrs (w : world) (p : oref) : option attrs :=
    match p with
    | Orig => Some (w_orig w)
    | Tx i => option_map t_attrs (nth_error (w_txs w) i)
    end.

  (** ModTransactionObject.modify: /repo/laurelin/ldap/ldapobject.py:619-631.
      Simplification: an object without a connection is not modelled here
      (validate_modify would raise AttributeError). *)
  Definition tx_modify (t : tx) (kwds : bool) (o : outside) (ms : list mod_) : tx * res unit :=
    if kwds then (t, Raise TypeError)
    else match o_valid o with
         | Raise e => (t, Raise e)
         | Ok _ =>
             let (d', r) := local_modify lower idx (t_attrs t) ms in
             (mktx (t_parent t) d' (t_mods t ++ ms), r)
         end.

  (** obj.modify(ms) dispatched on the class of the object: returns the world, the
      (possibly mutated) Mods and the outcome. *)
  Definition any_modify (w : world) (p : oref) (o : outside) (ms : list mod_)
    : world * list mod_ * res unit :=
    match p with
    | Orig =>
        let '(d', ms', sent, r) :=
          obj_modify lower idx true (o_unbound o) f (o_valid o) (Ok tt) (o_answer o) (w_orig w) ms in
        (mkworld d' (w_sent w ++ match sent with Some cs => [cs] | None => [] end) (w_txs w),
         ms', r)
    | Tx i =>
        match nth_error (w_txs w) i with
        | None => (w, ms, Raise IndexError)
        | Some t => let (t', r) := tx_modify t false o ms in (put_tx w i t', ms, r)
        end
    end.

  (** commit: /repo/laurelin/ldap/ldapobject.py:611-617 (the pending list is reset
      only if modify did not raise). *)
  Definition tx_commit (w : world) (i : nat) (o : outside) : world * res unit :=
    match nth_error (w_txs w) i with
    | None => (w, Raise IndexError)
    | Some t =>
        let '(w', ms', r) := any_modify w (t_parent t) o (t_mods t) in
        (put_tx w' i (mktx (t_parent t) (t_attrs t)
                        (match r with Ok _ => [] | Raise _ => ms' end)), r)
    end.

  (** __exit__: /repo/laurelin/ldap/ldapobject.py:606-609; the outcome is the
      exception that continues to propagate, if any. *)
  Definition tx_exit (w : world) (i : nat) (exc : option exn) : world * res unit :=
    match nth_error (w_txs w) i with
    | None => (w, Raise IndexError)
    | Some t =>
        (put_tx w i (mktx (t_parent t) (t_attrs t) []),
         match exc with
         | None => Ok tt
         | Some e => if exn_eqb e Abandon then Ok tt else Raise e
         end)
    end.

  Definition tx_step (w : world) (op : tx_op) : world * res unit :=
    match op with
    | TBegin p =>
        match obj_attrs w p with
        | None => (w, Raise IndexError)
        | Some d => (mkworld (w_orig w) (w_sent w) (w_txs w ++ [mktx p (tx_copy d) []]), Ok tt)
        end
    | TModify i kwds o ms =>
        match nth_error (w_txs w) i with
        | None => (w, Raise IndexError)
        | Some t => let (t', r) := tx_modify t kwds o ms in (put_tx w i t', r)
        end
    | TCommit i o => tx_commit w i o
    | TExit i exc => tx_exit w i exc
    | TForbidden i m => (w, Raise (tx_refuse m))
    | TRefresh i kvs =>
        match nth_error (w_txs w) i with
        | None => (w, Raise IndexError)
        | Some t => (put_tx w i (mktx (t_parent t) (cid_update lower (t_attrs t) kvs) (t_mods t)), Ok tt)
        end
    | OModify o ms => let '(w', _, r) := any_modify w Orig o ms in (w', r)
    end.

  (** A sequence of calls; each call's outcome is recorded (the program may catch). *)
  Fixpoint tx_run (w : world) (ops : list tx_op) : world * list (tx_op * res unit) :=
    match ops with
    | [] => (w, [])
    | op :: ops' =>
        let (w1, r) := tx_step w op in
        let (w2, tr) := tx_run w1 ops' in
        (w2, (op, r) :: tr)
    end.

  (** refresh_missing + AddModlist + modify on a transaction object with
      strict_modify off: [server] is what the connection returns for the attributes
      asked for.  /repo/laurelin/ldap/ldapobject.py:326-339,357-369,619-631 *)
  Definition tx_add_attrs (t : tx) (o : outside) (server : list str -> list (str * list str))
    (new : list (str * vals)) : tx * res unit :=
    let missing := filter (fun a => negb (ahas lower (t_attrs t) a)) (map fst new) in
    let d1 := match missing with [] => t_attrs t
              | _ => cid_update lower (t_attrs t) (server missing) end in
    match add_modlist lower idx d1 new with
    | Raise e => (mktx (t_parent t) d1 (t_mods t), Raise e)
    | Ok ms => tx_modify (mktx (t_parent t) d1 (t_mods t)) false o ms
    end.
End Tx.
