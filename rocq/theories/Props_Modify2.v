(** * More of C05 and C07: DELETE_ALL in an addition, and the warnings *)
From Verif Require Import PyBase Model_CIDict Spec_CIDict Proofs_CIDict
  Model_Modify Spec_Modify Proofs_Modify Proofs_Modify2 Props_Modify.

(** Adding DELETE_ALL to an attribute the object has is a TypeError if everything before it could be added, whatever follows. *)
Theorem C05_delete_all_refused lower idx cur a before after :
  cur_vals lower cur a <> [] -> (exists ms, add_attrs_dict lower idx cur before [] = Ok ms) ->
  add_modlist lower idx cur (before ++ (a, VDeleteAll) :: after) = Raise TypeError.
Proof.
  intros Ha [ms Hb]. unfold add_modlist.
  assert (E : add_attrs_dict lower idx cur (before ++ (a, VDeleteAll) :: after) [] = Raise TypeError); [|rewrite E; reflexivity].
  revert Hb. generalize (@nil (str * vals)) as acc. induction before as [|[b v] before IH]; intros acc Hb.
  - cbn [app add_attrs_dict]. assert (A : ahas lower cur a = true); [|now rewrite A].
    unfold ahas. unfold cur_vals in Ha. destruct (cid_get lower cur a) as [[|x l]|x]; try congruence; reflexivity.
  - cbn [app add_attrs_dict] in *. destruct (ahas lower cur b).
    + destruct v as [l|]; [|discriminate]. destruct (add_vals lower idx cur b l acc) as [acc'|x]; [|discriminate]. cbn [bind] in *. apply IH. exact Hb.
    + apply IH. exact Hb.
Qed.

(** The warnings: one for each replace or delete with an empty list if they are asked for and such lists are neither
    ignored nor an error - and none for anything else. *)
Theorem C07_warnings f ms : (forall m, In m ms -> constructed m) ->
  snd (fst (build_changes f ms)) =
  if warn_empty_list f && negb (ignore_empty_list f) && negb (error_empty_list f) then List.length (List.filter empty_rd ms) else 0.
Proof.
  induction ms as [|m ms IH]; intros C; cbn [build_changes]; [now destruct (_ && _)|].
  assert (Cm : constructed m) by (apply C; now left). specialize (IH (fun m H => C m (or_intror H))).
  destruct m as [op at_ v]. unfold constructed, new_mod in Cm. cbn [m_op m_attr m_vals] in *.
  destruct (build_changes f ms) as [[r w] c]. cbn [fst snd] in IH. subst w.
  destruct f as [e i w]. cbn [error_empty_list ignore_empty_list warn_empty_list].
  destruct op, v as [[|x l]|]; try discriminate Cm; cbn [mop_eqb negb andb empty_rd m_op m_vals List.filter List.length fst snd];
    destruct w, i, e; cbn [andb negb fst snd]; reflexivity.
Qed.

Example C07_warnings_nonvacuous :
  snd (fst (build_changes (mkflags false false true) [mkmod REPLACE (lit "a") (VList []); mkmod REPLACE (lit "b") (VList [lit "x"]); mkmod DELETE (lit "c") VDeleteAll; mkmod DELETE (lit "d") (VList [])])) = 2.
Proof. vm_compute. reflexivity. Qed.
Example C05_delete_all_refused_nonvacuous :
  add_modlist ascii_lower ci_idx obj1 ([(lit "CN", VList [lit "bob"]); (lit "mail", VDeleteAll)] ++ (lit "cn", VDeleteAll) :: [(lit "sn", VList [])]) = Raise TypeError /\
  add_modlist ascii_lower ci_idx obj1 [(lit "mail", VDeleteAll)] <> Raise TypeError.
Proof.
  split; [|vm_compute; discriminate].
  apply C05_delete_all_refused; [vm_compute; discriminate|]. eexists. vm_compute. reflexivity.
Qed.
Print Assumptions C05_delete_all_refused.
Print Assumptions C07_warnings.
