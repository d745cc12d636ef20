(** * Properties C10 - C12: modify transactions *)
From Verif Require Import PyBase Model_CIDict Spec_CIDict Proofs_CIDict Model_Modify Spec_Modify
  Proofs_Modify Proofs_Modify2 Model_Tx Spec_Tx Proofs_Tx Proofs_Tx2 Proofs_Tx3.

(** ** C10 *)

(** Whatever is done with transactions opened (directly or indirectly) on the
    original object, as long as no transaction opened on it is committed and it is not
    itself modified: nothing is sent and the original object is unchanged. *)
Theorem C10_nothing_sent_without_commit lower idx f w ops :
  untouched lower idx f w Orig ops ->
  w_sent (fst (tx_run lower idx f w ops)) = w_sent w /\
  w_orig (fst (tx_run lower idx f w ops)) = w_orig w.
Proof.
  intros H. destruct (run_untouched lower idx f Orig ops w) as [A B]; auto.
  - unfold live; simpl; discriminate.
  - split; [auto|]. simpl in A. congruence.
Qed.

(** For every history of calls: the pending changes of every transaction and the requests
    on the wire are those of the ledger: valid modlists are appended in order, a
    successful commit hands the whole pending list over once and empties it, leaving the
    block empties it; a failing commit keeps it. *)
Theorem C10_pending_and_sent_follow_ledger lower idx f ops d :
  error_empty_list f = false ->
  (forall op, In op ops -> op_constructed op) ->
  let w := fst (tx_run lower idx f (mkworld d [] []) ops) in
  let L := ledger_of (ignore_empty_list f) (snd (tx_run lower idx f (mkworld d [] []) ops)) in
  (forall i, nth_error (l_open L) i =
     option_map (fun t => (t_parent t, t_mods t)) (nth_error (w_txs w) i)) /\
  w_sent w = l_sent L.
Proof. exact (ledger_initial lower idx f ops d). Qed.

(** A fresh transaction on the original object, a series of accepted modify calls, then
    commit with the server accepting: one request with all changes in order is sent
    and the original object then shows what the transaction showed. *)
Theorem C10_commit_publishes_the_view lower idx f w mss :
  error_empty_list f = false ->
  dict_ok lower (w_orig w) ->
  same_lookups lower (w_orig w) (tx_copy lower (w_orig w)) ->
  (forall m, In m (List.concat mss) -> constructed m) ->
  let i := List.length (w_txs w) in
  let ok := mkout false (Ok tt) (Ok tt) in
  let body := TBegin Orig :: map (TModify i false ok) mss in
  (forall ev, In ev (snd (tx_run lower idx f w body)) -> snd ev = Ok tt) ->
  let w1 := fst (tx_run lower idx f w body) in
  exists w2 t, tx_step lower idx f w1 (TCommit i ok) = (w2, Ok tt) /\
    w_sent w2 = w_sent w ++ one_request (ignore_empty_list f) (List.concat mss) /\
    nth_error (w_txs w1) i = Some t /\
    same_lookups lower (w_orig w2) (t_attrs t) /\
    nth_error (w_txs w2) i = Some (mktx Orig (t_attrs t) []).
Proof.
  intros He Hok Hs Hc. cbn zeta. cbn [tx_run tx_step obj_attrs].
  set (w0 := mkworld (w_orig w) (w_sent w) (w_txs w ++ [mktx Orig (tx_copy lower (w_orig w)) []])).
  assert (Hn : nth_error (w_txs w0) (List.length (w_txs w)) = Some (mktx Orig (tx_copy lower (w_orig w)) [])).
  { unfold w0; simpl. rewrite nth_error_app2, Nat.sub_diag by lia. reflexivity. }
  pose proof (run_modifies lower idx f (List.length (w_txs w)) mss w0 _ Hn) as Hrun.
  unfold fine in Hrun. destruct (tx_run lower idx f w0 _) as [w1 tr]. cbn [fst snd] in *.
  intros Hall. destruct Hrun as [t' [Hm Hw1]].
  { intros ev Hev. apply Hall; right; auto. }
  subst w1.
  destruct (commit_orig_view lower idx f w0 _ _ t' mss He Hok Hn eq_refl eq_refl
             (copy_ok lower (w_orig w)) Hs Hc Hm) as [w2 [A [B [C D]]]].
  exists w2, t'. split; [exact A|]. split; [exact B|]. split; [|split; [exact C|exact D]].
  simpl. eapply nth_set_nth_eq; eauto.
Qed.

(** Leaving the block: pending changes are dropped, and exactly the Abandon exception
    is swallowed. *)
Theorem C10_exit_drops_pending lower idx f w i exc t :
  nth_error (w_txs w) i = Some t ->
  exists w', tx_step lower idx f w (TExit i exc) =
      (w', match exc with
           | None => Ok tt
           | Some Abandon => Ok tt
           | Some e => Raise e
           end) /\
    w_sent w' = w_sent w /\ w_orig w' = w_orig w /\
    nth_error (w_txs w') i = Some (mktx (t_parent t) (t_attrs t) []).
Proof.
  intros H. cbn [tx_step]. unfold tx_exit. rewrite H. eexists. split.
  - destruct exc as [e|]; [destruct e|]; reflexivity.
  - split; auto. split; auto. simpl. eapply nth_set_nth_eq; eauto.
Qed.

(** If the server rejects the commit, the original object is unchanged. *)
Theorem C10_rejected_commit_changes_nothing lower idx f w i o t e :
  nth_error (w_txs w) i = Some t -> t_parent t = Orig ->
  o_answer o = Raise e ->
  wanted (ignore_empty_list f) (t_mods t) <> [] ->
  error_empty_list f = false ->
  (forall m, In m (t_mods t) -> constructed m) ->
  exists w' e', tx_step lower idx f w (TCommit i o) = (w', Raise e') /\ w_orig w' = w_orig w.
Proof.
  intros Ht Hp Ha Hw He Hc. cbn [tx_step]. unfold tx_commit. rewrite Ht, Hp. cbn [any_modify].
  unfold obj_modify. cbn [negb].
  destruct (t_mods t) as [|m0 mr] eqn:Em; [now elim Hw|].
  assert (Hne : t_mods t <> []) by congruence. rewrite <- Em in *.
  destruct (o_unbound o).
  { unfold ldap_modify. destruct (t_mods t); [congruence|]. eexists; eexists; split; reflexivity. }
  destruct (o_valid o) as [[]|e1].
  2:{ unfold ldap_modify. destruct (t_mods t); [congruence|]. eexists; eexists; split; reflexivity. }
  rewrite (ldap_modify_ok f (o_answer o) _ Hc (or_introl He)), Ha.
  destruct (wanted _ _); [congruence|]. eexists; eexists; split; reflexivity.
Qed.

(** *** Counterexamples to stronger readings *)
Definition ci_eqv (a x v : str) : bool := str_eqb (ascii_lower x) (ascii_lower v).
Definition ci_idx (a : str) (l : list str) (v : str) : res nat :=
  match first_match (fun x => ci_eqv a x v) l 0 with Some i => Ok i | None => Raise ValueError end.
Definition dflags := mkflags false true false.
Definition good := mkout false (Ok tt) (Ok tt).
Definition rejecting := mkout false (Ok tt) (Raise LDAPError).
Definition obj0 : attrs := cid_set ascii_lower cid_empty (lit "uid") [lit "foo"].
Definition w0 := mkworld obj0 [] [].
Definition trun := tx_run ascii_lower ci_idx dflags.

(** A commit the server rejects spoils the pending changes: committing again does not
    send the DELETE_ALL any more. *)
Theorem C10_commit_retry_refuted :
  exists cs, 
    w_sent (fst (trun w0 [TBegin Orig; TModify 0 false good [mkmod DELETE (lit "uid") VDeleteAll];
                          TCommit 0 rejecting; TCommit 0 good])) = [cs] /\
    w_sent (fst (trun w0 [TBegin Orig; TModify 0 false good [mkmod DELETE (lit "uid") VDeleteAll];
                          TCommit 0 rejecting])) = [cs].
Proof. eexists; split; vm_compute; reflexivity. Qed.

(** A modify call that raises may still leave its changes pending, and a later commit
    sends them. *)
Theorem C10_failed_modify_stays_pending_refuted :
  let bad := [mkmod REPLACE (lit "mail") VDeleteAll] in
  let r := trun w0 [TBegin Orig; TModify 0 false good bad] in
  map snd (snd r) = [Ok tt; Raise KeyError] /\
  option_map t_mods (nth_error (w_txs (fst r)) 0) = Some bad.
Proof. split; vm_compute; reflexivity. Qed.

(** With strict_modify off, deleting the last value and adding it again inside a
    transaction: the attribute is re-read from the server, the add is taken for
    redundant, and the commit deletes the value. *)
Theorem C10_readd_after_delete_refuted :
  let srv := fun _ : list str => [(lit "uid", [lit "foo"])] in
  let t0 := mktx Orig (tx_copy ascii_lower obj0) [] in
  exists t1 t2 e,
    tx_modify ascii_lower ci_idx t0 false good [mkmod DELETE (lit "uid") (VList [lit "foo"])]
      = (t1, Ok tt) /\
    tx_add_attrs ascii_lower ci_idx t1 good srv [(lit "uid", VList [lit "foo"])] = (t2, Ok tt) /\
    cid_get ascii_lower (t_attrs t2) (lit "uid") = Ok [lit "foo"] /\
    srv_apply ascii_lower ci_eqv (fun n => if str_eqb n (lit "uid") then [lit "foo"] else [])
      (wanted true (t_mods t2)) = Some e /\
    e (lit "uid") = [].
Proof.
  cbn zeta. do 3 eexists. split; [vm_compute; reflexivity|].
  split; [vm_compute; reflexivity|]. split; [vm_compute; reflexivity|].
  split; [vm_compute; reflexivity|vm_compute; reflexivity].
Qed.

(** A transaction on an object written under two spellings starts from stale values. *)
Theorem C10_initial_view_refuted :
  exists d, dict_ok ascii_lower d /\ ~ same_lookups ascii_lower d (tx_copy ascii_lower d).
Proof.
  exists (fst (cid_run ascii_lower cid_empty
    [OpSet (lit "cn") [lit "1"]; OpSet (lit "CN") [lit "2"]; OpSet (lit "cn") [lit "3"]])).
  split; [apply dict_ok_reachable|].
  intros H. specialize (H (lit "cn")). vm_compute in H. discriminate H.
Qed.

Example C10_nonvacuous :
  let mss := [[mkmod ADD (lit "UID") (VList [lit "bar"])];
              [mkmod DELETE (lit "uid") (VList [lit "FOO"]); mkmod REPLACE (lit "sn") (VList [lit "x"])]] in
  let body := TBegin Orig :: map (TModify 0 false good) mss in
  dict_ok ascii_lower obj0 /\
  same_lookups ascii_lower obj0 (tx_copy ascii_lower obj0) /\
  (forall ev, In ev (snd (trun w0 body)) -> snd ev = Ok tt) /\
  w_sent (fst (trun w0 (body ++ [TCommit 0 good]))) =
    [[mkchange ADD (lit "UID") [lit "bar"]; mkchange DELETE (lit "uid") [lit "FOO"];
      mkchange REPLACE (lit "sn") [lit "x"]]] /\
  untouched ascii_lower ci_idx dflags w0 Orig (body ++ [TBegin (Tx 0); TCommit 1 good; TExit 0 (Some Abandon)]).
Proof.
  cbn zeta. split; [apply (dict_ok_reachable ascii_lower [OpSet (lit "uid") [lit "foo"]])|].
  split; [intros k; reflexivity|]. split.
  - intros ev Hev. vm_compute in Hev. destruct Hev as [<-|[<-|[<-|[]]]]; reflexivity.
  - split; [vm_compute; reflexivity|].
    repeat (split; [vm_compute; intuition discriminate|]). exact I.
Qed.

(** ** C11: checkpoints *)

(** Calls that neither act on transaction [j] itself nor commit a checkpoint opened on
    it leave its attributes and pending changes exactly as they were. *)
Theorem C11_uncommitted_checkpoint_changes_nothing lower idx f w j ops :
  j < List.length (w_txs w) ->
  untouched lower idx f w (Tx j) ops ->
  obj_state (fst (tx_run lower idx f w ops)) (Tx j) = obj_state w (Tx j).
Proof.
  intros Hj H. apply run_untouched; auto.
  unfold live; simpl. apply nth_error_Some in Hj. destruct (nth_error (w_txs w) j); simpl; congruence.
Qed.

(** A committed checkpoint: its changes join the end of the enclosing transaction's
    pending changes, nothing is sent, and the enclosing transaction shows what the
    checkpoint showed. *)
Theorem C11_committed_checkpoint_joins lower idx f w j s mss :
  nth_error (w_txs w) j = Some s ->
  dict_ok lower (t_attrs s) ->
  same_lookups lower (t_attrs s) (tx_copy lower (t_attrs s)) ->
  let i := List.length (w_txs w) in
  let ok := mkout false (Ok tt) (Ok tt) in
  let body := TBegin (Tx j) :: map (TModify i false ok) mss in
  (forall ev, In ev (snd (tx_run lower idx f w body)) -> snd ev = Ok tt) ->
  let w1 := fst (tx_run lower idx f w body) in
  exists w2 s' t, tx_step lower idx f w1 (TCommit i ok) = (w2, Ok tt) /\
    w_sent w2 = w_sent w /\ w_orig w2 = w_orig w /\
    nth_error (w_txs w1) i = Some t /\
    nth_error (w_txs w2) j = Some s' /\
    t_mods s' = t_mods s ++ List.concat mss /\
    same_lookups lower (t_attrs s') (t_attrs t).
Proof.
  intros Hj Hok Hs. cbn zeta. cbn [tx_run tx_step obj_attrs]. rewrite Hj. cbn [option_map].
  set (w0' := mkworld (w_orig w) (w_sent w) (w_txs w ++ [mktx (Tx j) (tx_copy lower (t_attrs s)) []])).
  assert (Hlt : j < List.length (w_txs w)) by (apply nth_error_Some; congruence).
  assert (Hn : nth_error (w_txs w0') (List.length (w_txs w)) = Some (mktx (Tx j) (tx_copy lower (t_attrs s)) [])).
  { unfold w0'; simpl. rewrite nth_error_app2, Nat.sub_diag by lia. reflexivity. }
  assert (Hj' : nth_error (w_txs w0') j = Some s).
  { unfold w0'; simpl. rewrite nth_error_app1; auto. }
  pose proof (run_modifies lower idx f (List.length (w_txs w)) mss w0' _ Hn) as Hrun.
  unfold fine in Hrun. destruct (tx_run lower idx f w0' _) as [w1 tr]. cbn [fst snd] in *.
  intros Hall. destruct Hrun as [t' [Hm Hw1]].
  { intros ev Hev. apply Hall; right; auto. }
  subst w1.
  destruct (commit_checkpoint_view lower idx f w0' (List.length (w_txs w)) _ t' j s mss Hok Hn eq_refl
             ltac:(lia) Hj' eq_refl (copy_ok lower (t_attrs s)) Hs Hm) as [w2 [s' [A [B [C [D [E F]]]]]]].
  exists w2, s', t'. split; [exact A|]. split; [exact B|]. split; [exact C|]. split; [|auto].
  simpl. eapply nth_set_nth_eq; eauto.
Qed.

(** A checkpoint whose commit fails while being applied has nevertheless been joined,
    and stays pending as well: committing again doubles its changes. *)
Theorem C11_failed_checkpoint_commit_refuted :
  let bad := [mkmod REPLACE (lit "uid") VDeleteAll] in
  let r := trun w0 [TBegin Orig; TBegin (Tx 0); TModify 1 false good bad;
                    TModify 0 false good [mkmod DELETE (lit "uid") VDeleteAll]; TCommit 1 good] in
  map snd (snd r) = [Ok tt; Ok tt; Ok tt; Ok tt; Raise KeyError] /\
  option_map t_mods (nth_error (w_txs (fst r)) 0) =
    Some [mkmod DELETE (lit "uid") VDeleteAll; mkmod REPLACE (lit "uid") VDeleteAll] /\
  option_map t_mods (nth_error (w_txs (fst r)) 1) = Some bad.
Proof. repeat split; vm_compute; reflexivity. Qed.

Example C11_nonvacuous :
  let ms1 := [mkmod ADD (lit "uid") (VList [lit "bar"])] in
  let ms2 := [mkmod DELETE (lit "uid") (VList [lit "foo"])] in
  let w1 := fst (trun w0 [TBegin Orig; TModify 0 false good ms1]) in
  untouched ascii_lower ci_idx dflags w1 (Tx 0) [TBegin (Tx 0); TModify 1 false good ms2; TExit 1 (Some LDAPError)] /\
  option_map t_mods (nth_error (w_txs (fst (trun w1
    [TBegin (Tx 0); TModify 1 false good ms2; TCommit 1 good; TExit 1 None]))) 0) = Some (ms1 ++ ms2).
Proof.
  cbn zeta. split; [|vm_compute; reflexivity].
  repeat (split; [vm_compute; intuition discriminate|]). exact I.
Qed.

(** ** C12: refused operations *)
Theorem C12_refused_operations lower idx f w i o ms :
  (forall m, exists e, tx_step lower idx f w (TForbidden i m) = (w, Raise e) /\
     ((forall dn, m = MMove dn -> In (ch ",") dn) -> e = LDAPTransactionError)) /\
  (forall t, nth_error (w_txs w) i = Some t ->
     tx_step lower idx f w (TModify i true o ms) = (w, Raise TypeError)).
Proof.
  split.
  - intros m. eexists; split; [reflexivity|]. intros Hm.
    destruct m as [| | | | |dn]; auto. unfold tx_refuse.
    assert (He : existsb (N.eqb (ch ",")) dn = true).
    { apply existsb_exists. exists (ch ","); split; [apply Hm|apply N.eqb_refl]; auto. }
    now rewrite He.
  - intros t Ht. cbn [tx_step]. rewrite Ht. cbn [tx_modify].
  unfold put_tx. rewrite (set_nth_same _ _ _ Ht). destruct w; reflexivity.
Qed.

(** A modify call refused by the validators changes nothing either. *)
Theorem C12_invalid_modify_changes_nothing lower idx f w i o ms t e :
  nth_error (w_txs w) i = Some t -> o_valid o = Raise e ->
  tx_step lower idx f w (TModify i false o ms) = (w, Raise e).
Proof.
  intros Ht He. cbn [tx_step]. rewrite Ht. unfold tx_modify. rewrite He.
  unfold put_tx. rewrite (set_nth_same _ _ _ Ht). destruct w; reflexivity.
Qed.

Example C12_nonvacuous :
  exists w t, nth_error (w_txs w) 0 = Some t /\ t_mods t <> [] /\
   w = fst (trun w0 [TBegin Orig; TModify 0 false good [mkmod ADD (lit "uid") (VList [lit "bar"])]]).
Proof. do 2 eexists; split; [|split; [|reflexivity]]; [vm_compute; reflexivity|discriminate]. Qed.

Print Assumptions C10_nothing_sent_without_commit.
Print Assumptions C10_pending_and_sent_follow_ledger.
Print Assumptions C10_commit_publishes_the_view.
Print Assumptions C10_exit_drops_pending.
Print Assumptions C10_rejected_commit_changes_nothing.
Print Assumptions C10_commit_retry_refuted.
Print Assumptions C10_failed_modify_stays_pending_refuted.
Print Assumptions C10_readd_after_delete_refuted.
Print Assumptions C10_initial_view_refuted.
Print Assumptions C11_uncommitted_checkpoint_changes_nothing.
Print Assumptions C11_committed_checkpoint_joins.
Print Assumptions C11_failed_checkpoint_commit_refuted.
Print Assumptions C12_refused_operations.
Print Assumptions C12_invalid_modify_changes_nothing.
