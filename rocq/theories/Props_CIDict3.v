(** * More of C02: pop *)
From Verif Require Import PyBase Model_CIDict Spec_CIDict Proofs_CIDict Model_Modify Spec_Modify Proofs_Modify Props_Modify.

(** pop with the spelling that is stored gives the value that was there; afterwards the name is not there, in any
    spelling, and every other name is as it was.  The dictionary is any that setting, deleting, updating and clearing can give
    (C08_dict_ok_reachable); what is missing from the full property is other spellings
    (C02_pop_not_case_insensitive_refuted). *)
Theorem C02_pop_stored_spelling_partial lower {V} (d : cid V) k k' v :
  dict_ok lower d -> cid_get lower d k = Ok v -> dget (ckeys d) (lower k) = Some k' ->
  exists d', cid_pop d k' = (d', Ok v) /\
    (forall a, lower a = lower k -> cid_get lower d' a = Raise KeyError /\ cid_contains lower d' a = Ok false) /\
    (forall a, lower a <> lower k -> cid_get lower d' a = cid_get lower d a) /\
    ~ In k' (cid_keys d') /\ (forall a, a <> k' -> In a (cid_keys d) -> In a (cid_keys d')).
Proof.
  intros (H1 & H2 & H3) G K. unfold cid_get in G. rewrite K in G. destruct (dget (cdata d) k') as [v'|] eqn:D; [|discriminate]. injection G as ->.
  unfold cid_pop. rewrite D. eexists. split; [reflexivity|].
  assert (X : dget (ddel (cdata d) k') k' = None) by now apply dget_ddel_eq.
  assert (Y : forall a, lower a = lower k -> cid_get lower (mkcid (ckeys d) (ddel (cdata d) k')) a = Raise KeyError).
  { intros a A. unfold cid_get. cbn [ckeys cdata]. rewrite A, K, X. reflexivity. }
  split; [|split; [|split]].
  - intros a A. split; [now apply Y|]. unfold cid_contains. now rewrite Y.
  - intros a A. unfold cid_get. cbn [ckeys cdata]. destruct (dget (ckeys d) (lower a)) as [q|] eqn:Q; [|reflexivity].
    destruct (H3 _ _ Q) as [L _]. destruct (H3 _ _ K) as [L' _]. rewrite dget_ddel_neq; [reflexivity|]. intros <-. congruence.
  - unfold cid_keys. cbn [cdata]. now apply dget_None.
  - intros a A I. unfold cid_keys in *. cbn [cdata]. destruct (dget (ddel (cdata d) k') a) as [w|] eqn:W.
    + apply dget_In in W. apply in_map_iff. exists (a, w). auto.
    + rewrite dget_ddel_neq in W by congruence. apply dget_None in W. contradiction.
Qed.
Print Assumptions C02_pop_stored_spelling_partial.
(** Any spelling that is not in the dictionary is a KeyError, and nothing changes. *)
Theorem C02_pop_unknown {V} (d : cid V) k : dget (cdata d) k = None -> cid_pop d k = (d, Raise KeyError).
Proof. unfold cid_pop. intros ->. reflexivity. Qed.
Print Assumptions C02_pop_unknown.
Example C02_pop_nonvacuous :
  let d := cid_set ascii_lower (cid_set ascii_lower cid_empty (lit "cn") 1) (lit "SN") 2 in
  dict_ok ascii_lower d /\ cid_get ascii_lower d (lit "sn") = Ok 2 /\ dget (ckeys d) (ascii_lower (lit "sn")) = Some (lit "SN")
  /\ fst (cid_pop d (lit "SN")) = mkcid [(lit "cn", lit "cn"); (lit "sn", lit "SN")] [(lit "cn", 1)].
Proof.
  split; [exact (C08_dict_ok_reachable ascii_lower [OpSet (lit "cn") 1; OpSet (lit "SN") 2])|]. repeat split; reflexivity.
Qed.
