(** * C03, continued: setdefault, iterattrs and copies of an attribute dictionary *)
From Verif Require Import PyBase Model_CIDict Spec_CIDict Proofs_CIDict Props_CIDict.

(** A bad name or a bad default is refused, whether or not the attribute is there. *)
Theorem C03_setdefault_refused lower (d : cid pyval) a dv :
  (forall k, a <> PyStr k) \/ (exists v, dv = Some v /\ validate_values v <> Ok tt) ->
  ad_setdefault lower d a dv = (d, Raise TypeError).
Proof.
  intros H. unfold ad_setdefault. destruct a as [k| | | | ]; cbn [validate_attr]; try reflexivity.
  destruct H as [H|(v & -> & H)]; [exfalso; eapply H; reflexivity|].
  destruct (validate_values v) as [[]|e] eqn:E; [congruence|].
  assert (e = TypeError) by (destruct v; cbn [validate_values] in E; try congruence; destruct (forallb _ _); congruence). congruence.
Qed.
Print Assumptions C03_setdefault_refused.

(** An attribute that is there keeps its values, and they are the result; one that is not gets the default, or no
    values, and that is the result. *)
Theorem C03_setdefault_present lower (d : cid pyval) k dv v :
  (forall v, dv = Some v -> validate_values v = Ok tt) -> cid_get lower d k = Ok v ->
  ad_setdefault lower d (PyStr k) dv = (d, Ok v).
Proof.
  intros H G. unfold ad_setdefault. cbn [validate_attr].
  assert (V : validate_values (match dv with None => PyList [] | Some v => v end) = Ok tt) by (destruct dv; [apply H; reflexivity|reflexivity]).
  rewrite V, G. reflexivity.
Qed.
Print Assumptions C03_setdefault_present.
Theorem C03_setdefault_absent lower (d : cid pyval) k dv :
  (forall v, dv = Some v -> validate_values v = Ok tt) -> cid_get lower d k = Raise KeyError ->
  let v := match dv with None => PyList [] | Some v => v end in
  ad_setdefault lower d (PyStr k) dv = (cid_set lower d k v, Ok v).
Proof.
  intros H G. unfold ad_setdefault. cbn [validate_attr].
  assert (V : validate_values (match dv with None => PyList [] | Some v => v end) = Ok tt) by (destruct dv; [apply H; reflexivity|reflexivity]).
  cbv zeta. rewrite V, G. rewrite ad_set_ok by exact V. reflexivity.
Qed.
Print Assumptions C03_setdefault_absent.

(** What iterattrs goes through: every value of every attribute, in order; TypeError exactly if some attribute
    holds the DELETE_ALL marker. A deep copy has the same entries, under the same condition. *)
Definition all_lists (items : list (str * pyval)) : Prop := forall a v, In (a, v) items -> exists l, v = PyList l.
Definition values_of (v : pyval) : list pyval := match v with PyList l => l | _ => [] end.
Theorem C03_iterattrs items : all_lists items ->
  ad_iterattrs items = Ok (flat_map (fun av => map (fun v => (fst av, v)) (values_of (snd av))) items).
Proof.
  induction items as [|[a v] items IH]; intro H; [reflexivity|].
  destruct (H a v) as [l ->]; [left; reflexivity|]. cbn [ad_iterattrs flat_map fst snd values_of].
  rewrite IH; [reflexivity|]. intros b u I. eapply H. right. exact I.
Qed.
Print Assumptions C03_iterattrs.
Theorem C03_deepcopy items : all_lists items -> ad_deepcopy items = Ok items.
Proof.
  induction items as [|[a v] items IH]; intro H; [reflexivity|].
  destruct (H a v) as [l ->]; [left; reflexivity|]. cbn [ad_deepcopy].
  rewrite IH; [reflexivity|]. intros b u I. eapply H. right. exact I.
Qed.
Print Assumptions C03_deepcopy.
Theorem C03_marker_not_iterable items a : In (a, PyDeleteAll) items ->
  ad_iterattrs items = Raise TypeError /\ ad_deepcopy items = Raise TypeError.
Proof.
  induction items as [|[b v] items IH]; intros I; [destruct I|]. destruct I as [I|I].
  - injection I as -> ->. split; reflexivity.
  - destruct (IH I) as [A B]. destruct v; cbn [ad_iterattrs ad_deepcopy]; rewrite ?A, ?B; split; reflexivity.
Qed.
Print Assumptions C03_marker_not_iterable.

Example C03_setdefault_nonvacuous :
  let d := cid_set ascii_lower cid_empty (lit "cn") (PyList [PyStr (lit "x")]) in
  ad_setdefault ascii_lower d (PyStr (lit "CN")) None = (d, Ok (PyList [PyStr (lit "x")])) /\
  snd (ad_setdefault ascii_lower d (PyStr (lit "sn")) None) = Ok (PyList []) /\
  snd (ad_setdefault ascii_lower d (PyStr (lit "cn")) (Some (PyStr (lit "y")))) = Raise TypeError.
Proof. vm_compute. auto. Qed.
