(** * Specification of modify transactions *)
From Verif Require Import PyBase Model_CIDict Model_Modify Spec_Modify Model_Tx.

(** The call acts on object [p]: it is made on [p] itself, or it commits a
    transaction that was opened on [p]. *)
Definition touches (w : world) (p : oref) (op : tx_op) : Prop :=
  match op with
  | TBegin _ | TForbidden _ _ => False
  | OModify _ _ => p = Orig
  | TModify i _ _ _ | TExit i _ | TRefresh i _ => p = Tx i
  | TCommit i _ => p = Tx i \/ option_map t_parent (nth_error (w_txs w) i) = Some p
  end.

(** None of a sequence of calls acts on [p]. *)
Fixpoint untouched lower idx f (w : world) (p : oref) (ops : list tx_op) : Prop :=
  match ops with
  | [] => True
  | op :: ops' => ~ touches w p op /\ untouched lower idx f (fst (tx_step lower idx f w op)) p ops'
  end.

(** Everything an object holds: its attributes and (for a transaction) its pending changes. *)
Definition obj_state (w : world) (p : oref) : option (attrs * list mod_) :=
  match p with
  | Orig => Some (w_orig w, [])
  | Tx i => option_map (fun t => (t_attrs t, t_mods t)) (nth_error (w_txs w) i)
  end.

(** ** The ledger: what each transaction has accumulated, read off the calls and
    their outcomes only; and the requests that should be on the wire. *)
Record ledger := mkledger { l_open : list (oref * list mod_); l_sent : list (list change) }.

Definition l_append (L : list (oref * list mod_)) (i : nat) (ms : list mod_) :=
  match nth_error L i with
  | Some (p, old) => set_nth L i (p, old ++ ms)
  | None => L
  end.
Definition l_clear (L : list (oref * list mod_)) (i : nat) :=
  match nth_error L i with
  | Some (p, _) => set_nth L i (p, [])
  | None => L
  end.
Definition one_request (ignore_empty : bool) (ms : list mod_) : list (list change) :=
  match wanted ignore_empty ms with [] => [] | cs => [cs] end.

(** Neither the validators nor the connection state stop the call. *)
Definition passes (o : outside) : bool :=
  negb (o_unbound o) && is_ok (o_valid o).

(** What is left of a pending list whose commit was refused by the server: sending
    overwrites DELETE_ALL by an empty list in the Mod objects themselves. *)
Definition used (m : mod_) : mod_ :=
  match m_vals m with VDeleteAll => mkmod (m_op m) (m_attr m) (VList []) | _ => m end.

Definition ledger_step (ignore_empty : bool) (L : ledger) (ev : tx_op * res unit) : ledger :=
  let '(op, r) := ev in
  match op with
  | TBegin p => if is_ok r then mkledger (l_open L ++ [(p, [])]) (l_sent L) else L
  | TModify i kwds o ms =>      (* recorded as soon as it is valid *)
      if negb kwds && is_ok (o_valid o)
      then mkledger (l_append (l_open L) i ms) (l_sent L) else L
  | TCommit i o =>
      match nth_error (l_open L) i with
      | Some (Orig, ms) =>
          mkledger (if is_ok r then l_clear (l_open L) i
                    else if passes o then set_nth (l_open L) i (Orig, map used ms)
                    else l_open L)
                   (l_sent L ++ if passes o then one_request ignore_empty ms else [])
      | Some (Tx j, ms) =>
          let L1 := if is_ok (o_valid o) then l_append (l_open L) j ms else l_open L in
          mkledger (if is_ok r then l_clear L1 i else L1) (l_sent L)
      | None => L
      end
  | TExit i _ => mkledger (l_clear (l_open L) i) (l_sent L)
  | OModify o ms =>
      mkledger (l_open L) (l_sent L ++ if passes o then one_request ignore_empty ms else [])
  | TForbidden _ _ | TRefresh _ _ => L
  end.

Definition ledger_of (ignore_empty : bool) (tr : list (tx_op * res unit)) : ledger :=
  fold_left (ledger_step ignore_empty) tr (mkledger [] []).

(** Every Mod passed in was made by the Mod constructor. *)
Definition op_constructed (op : tx_op) : Prop :=
  match op with
  | TModify _ _ _ ms | OModify _ ms => forall m, In m ms -> constructed m
  | _ => True
  end.

(** Two objects show the same attributes. *)
Definition same_lookups (lower : str -> str) (d1 d2 : attrs) : Prop :=
  forall k, cid_get lower d1 k = cid_get lower d2 k.
