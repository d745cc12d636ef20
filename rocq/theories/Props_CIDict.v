(** * Property theorems C01-C03 (attribute dictionaries) *)
From Verif Require Import PyBase Model_CIDict Spec_CIDict Proofs_CIDict.

(** C01. For every history of calls, every observable result of a
    CaseIgnoreDict is the result of an ideal map keyed by the folded name. *)
Theorem C01_dict_refines_folded_map :
  forall (lower : str -> str) (V : Type) (os : list (cid_op V)),
    snd (cid_run lower cid_empty os) = snd (spec_run lower smap_empty os).
Proof. intros lower V os. exact (cid_refines_map lower os). Qed.
Print Assumptions C01_dict_refines_folded_map.

(** Non-vacuity and concreteness: a history in which the casing changes. *)
Example C01_example :
  snd (cid_run ascii_lower cid_empty
        [OpSet (lit "cn") 1; OpSet (lit "CN") 2; OpSet (lit "sn") 3;
         OpGet (lit "Cn"); OpDel (lit "cN"); OpGet (lit "cn"); OpGet (lit "SN")])
  = [OutUnit (Ok tt); OutUnit (Ok tt); OutUnit (Ok tt);
     OutVal (Ok 2); OutUnit (Ok tt); OutVal (Raise KeyError); OutVal (Ok 3)].
Proof. vm_compute. reflexivity. Qed.

(** C02 (full statement refuted by the code): "iteration shows each name once,
    with its current value".  What does hold for every history: *)
Theorem C02_enumeration_covers_current_partial :
  forall (lower : str -> str) (V : Type) (os : list (cid_op V)) k v,
    let d := fst (cid_run lower cid_empty os) in
    let m := fst (spec_run lower smap_empty os) in
    m (lower k) = Some v ->
    exists k', lower k' = lower k /\ In (k', v) (cid_items d).
Proof. intros lower V. exact (cid_enum_complete lower). Qed.
Print Assumptions C02_enumeration_covers_current_partial.

(** and, when every name is always written in one spelling, enumeration is
    exactly the map: one entry per name, current values only. *)
Theorem C02_enumeration_exact_partial :
  forall (lower : str -> str) (V : Type) (os : list (cid_op V)),
    consistent_spelling lower os ->
    let d := fst (cid_run lower cid_empty os) in
    let m := fst (spec_run lower smap_empty os) in
    NoDup (map lower (cid_keys d)) /\
    (forall k v, In (k, v) (cid_items d) -> m (lower k) = Some v) /\
    (forall k v, m (lower k) = Some v ->
       exists k', lower k' = lower k /\ In (k', v) (cid_items d)) /\
    cid_len d = List.length (cid_keys d).
Proof. intros lower V. exact (cid_enum_consistent lower). Qed.
Print Assumptions C02_enumeration_exact_partial.

Example C02_consistent_example :
  consistent_spelling ascii_lower
    [OpSet (lit "cn") 1; OpSet (lit "SN") 2; OpDel (lit "CN"); OpUpdate [(lit "cn", 4)]].
Proof.
  intros k1 k2 H1 H2; simpl in H1, H2.
  repeat match goal with
         | H : _ \/ _ |- _ => destruct H
         | H : False |- _ => contradiction
         end; subst; vm_compute; congruence.
Qed.

(** Re-inserting the enumerated items into a new dict (deepcopy + constructor,
    as mod_transaction does) preserves every lookup under consistent spelling. *)
Theorem C02_copy_preserves_lookups_partial :
  forall (lower : str -> str) (V : Type) (os : list (cid_op V)) k,
    consistent_spelling lower os ->
    let d := fst (cid_run lower cid_empty os) in
    cid_get lower (cid_update lower cid_empty (cid_items d)) k = cid_get lower d k.
Proof. intros lower V. exact (cid_copy_consistent lower). Qed.
Print Assumptions C02_copy_preserves_lookups_partial.

(** The unrestricted statements are false: *)
Theorem C02_enumeration_refuted :
  exists (os : list (cid_op nat)) k v,
    let d := fst (cid_run ascii_lower cid_empty os) in
    let m := fst (spec_run ascii_lower smap_empty os) in
    In (k, v) (cid_items d) /\ m (ascii_lower k) = None /\
    ~ In (ascii_lower k) (map fst (ckeys d)).
Proof.
  exists [OpSet (lit "CN") 1; OpSet (lit "cn") 2; OpDel (lit "cn")], (lit "CN"), 1.
  vm_compute. intuition congruence.
Qed.
Print Assumptions C02_enumeration_refuted.

Theorem C02_duplicate_entries_refuted :
  exists (os : list (cid_op nat)),
    ~ NoDup (map ascii_lower (cid_keys (fst (cid_run ascii_lower cid_empty os)))).
Proof.
  exists [OpSet (lit "CN") 1; OpSet (lit "cn") 2].
  vm_compute. intros H; inversion H as [|x l Hni Hnd]. apply Hni; left; reflexivity.
Qed.
Print Assumptions C02_duplicate_entries_refuted.

(** A copy can resurrect a stale value, *)
Theorem C02_copy_stale_refuted :
  exists (os : list (cid_op nat)) k,
    let d := fst (cid_run ascii_lower cid_empty os) in
    cid_get ascii_lower d k = Ok 3 /\
    cid_get ascii_lower (cid_update ascii_lower cid_empty (cid_items d)) k = Ok 2.
Proof.
  exists [OpSet (lit "cn") 1; OpSet (lit "CN") 2; OpSet (lit "cn") 3], (lit "cn").
  vm_compute; auto.
Qed.
Print Assumptions C02_copy_stale_refuted.

(** and update() from such a dict raises KeyError half way. *)
Theorem C02_update_from_raises_refuted :
  exists (os : list (cid_op nat)),
    let d := fst (cid_run ascii_lower cid_empty os) in
    snd (cid_update_cid ascii_lower cid_empty d) = Raise KeyError.
Proof.
  exists [OpSet (lit "sn") 0; OpSet (lit "CN") 1; OpSet (lit "cn") 2; OpDel (lit "cn")].
  vm_compute; auto.
Qed.
Print Assumptions C02_update_from_raises_refuted.

(** dict.pop is inherited: it is case-sensitive and leaves the key index stale. *)
Theorem C02_pop_not_case_insensitive_refuted :
  exists (d : cid nat) k k',
    d = cid_set ascii_lower cid_empty k 1 /\ ascii_lower k = ascii_lower k' /\
    cid_get ascii_lower d k' = Ok 1 /\ snd (cid_pop d k') = Raise KeyError.
Proof. exists (cid_set ascii_lower cid_empty (lit "cn") 1), (lit "cn"), (lit "CN"). vm_compute; auto. Qed.
Print Assumptions C02_pop_not_case_insensitive_refuted.

(** C03. Only str names and lists of str/bytes (or DELETE_ALL) are admitted. *)
Theorem C03_validate_values_exact :
  forall v, validate_values v = Ok tt <->
    v = PyDeleteAll \/ exists l, v = PyList l /\
      forall x, In x l -> (exists s, x = PyStr s) \/ (exists b, x = PyBytes b).
Proof. exact validate_values_ok. Qed.
Print Assumptions C03_validate_values_exact.

Theorem C03_rejected_write_changes_nothing :
  forall lower (d : cid pyval) a v e,
    snd (ad_set lower d a v) = Raise e ->
    e = TypeError /\ fst (ad_set lower d a v) = d.
Proof. exact ad_set_err. Qed.
Print Assumptions C03_rejected_write_changes_nothing.

Theorem C03_valid_write_accepted :
  forall lower (d : cid pyval) k v,
    validate_values v = Ok tt ->
    ad_set lower d (PyStr k) v = (cid_set lower d k v, Ok tt).
Proof. exact ad_set_ok. Qed.
Print Assumptions C03_valid_write_accepted.

Theorem C03_update_all_or_nothing :
  forall lower (d : cid pyval) kvs,
    (snd (ad_update lower d kvs) = Ok tt /\ validate_dict kvs = Ok tt /\
     fst (ad_update lower d kvs) = cid_update lower d (unpy kvs)) \/
    (snd (ad_update lower d kvs) = Raise TypeError /\ validate_dict kvs <> Ok tt /\
     fst (ad_update lower d kvs) = d).
Proof. exact ad_update_atomic. Qed.
Print Assumptions C03_update_all_or_nothing.

Theorem C03_dict_validated_iff_every_entry_is :
  forall kvs, validate_dict kvs = Ok tt <->
    forall a v, In (a, v) kvs -> (exists k, a = PyStr k) /\ validate_values v = Ok tt.
Proof. exact validate_dict_ok. Qed.
Print Assumptions C03_dict_validated_iff_every_entry_is.

Theorem C03_contents_always_typed :
  forall lower (d : cid pyval),
    (forall k v, In (k, v) (cid_items d) -> validate_values v = Ok tt) ->
    (forall a v k' v', In (k', v') (cid_items (fst (ad_set lower d a v))) -> validate_values v' = Ok tt) /\
    (forall a dv k' v', In (k', v') (cid_items (fst (ad_setdefault lower d a dv))) -> validate_values v' = Ok tt) /\
    (forall kvs k' v', In (k', v') (cid_items (fst (ad_set_all lower d kvs))) -> validate_values v' = Ok tt).
Proof.
  intros lower d H. exact (conj (fun a v => ad_set_typed lower d a v H)
    (conj (fun a dv => ad_setdefault_typed lower d a dv H)
          (fun kvs => ad_set_all_typed lower kvs d H))).
Qed.
Print Assumptions C03_contents_always_typed.

Theorem C03_contains_means_nonempty :
  forall lower (d : cid pyval) k,
    (forall k v, In (k, v) (cid_items d) -> validate_values v = Ok tt) ->
    ad_contains lower d k =
      Ok (match cid_get lower d k with Ok (PyList (_ :: _)) => true | _ => false end).
Proof. exact ad_contains_spec. Qed.
Print Assumptions C03_contains_means_nonempty.

Example C03_example :
  let bad := [(PyStr (lit "cn"), PyList [PyStr (lit "a")]); (PyStr (lit "sn"), PyStr (lit "b"))] in
  let good := [(PyStr (lit "cn"), PyList [PyStr (lit "a")]); (PyStr (lit "sn"), PyList [])] in
  snd (ad_update ascii_lower cid_empty bad) = Raise TypeError /\
  fst (ad_update ascii_lower cid_empty bad) = cid_empty /\
  snd (ad_update ascii_lower cid_empty good) = Ok tt /\
  ad_contains ascii_lower (fst (ad_update ascii_lower cid_empty good)) (lit "CN") = Ok true /\
  ad_contains ascii_lower (fst (ad_update ascii_lower cid_empty good)) (lit "SN") = Ok false.
Proof. vm_compute; intuition. Qed.
