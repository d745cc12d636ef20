(** * C89, C90: an object that has only some of the values, in either mode *)
From Coq Require Import Permutation.
From Verif Require Import PyBase Model_CIDict Proofs_CIDict Model_Modify Spec_Modify Proofs_Modify Proofs_Modify2 Model_Search Spec_Search Model_Dir Spec_Dir Proofs_Dir Proofs_Dir2 Proofs_Dir3 Proofs_Dir4 Proofs_DirInst Props_Dir Model_Filter Model_Request Model_Netgroups Spec_Netgroups Proofs_Netgroups Props_Netgroups Model_Life Spec_Life Proofs_Life Proofs_Life2 Proofs_Life3 Proofs_Life4 Proofs_Life5 Props_Life Spec_Coherent Spec_Coherent2 Proofs_Coherent Proofs_Coherent2 Proofs_Coherent3 Proofs_Coherent4 Props_Coherent.

Section Part.
  Context {S : Type} (sv : server S) (view : S -> str -> option entry).
  Context (sv_search : S -> str -> scope -> option str -> option (list str) -> N -> option (list (str * list (str * list str)))).
  Context (lower norm : str -> str) (eqv : str -> str -> str -> bool) (idx : str -> list str -> str -> res nat).
  Context (strict : bool) (flags : empty_flags) (syn : fsyntax).
  Context (vo : lobj -> res unit) (vm : str -> list mod_ -> option lobj -> res unit).
  (** a directory server; values are compared by the same rules at both ends *)
  Context (Hidx : same_rule eqv idx) (Hlaw : lawful lower norm eqv sv view).
  (** no entry is its own child; the two attributes of netgroups have two names *)
  Context (Hchild : forall r d, norm (r ++ lit "," ++ d) <> norm d).
  Context (Hlow : lower (lit "nisNetgroupTriple") <> lower (lit "memberNisNetgroup")).
  Notation perform := (perform sv sv_search lower idx strict flags syn vo vm).
  Notation step := (step sv sv_search lower idx strict flags syn vo vm).
  Notation session_run := (session_run sv sv_search lower idx strict flags syn vo vm).
  Notation mild_history dn i ss es := (mildly lower eqv view dn i (fun ss ev => fst (fst (step ss ev))) ss es).

  (** C89: in either mode, whatever has been loaded: an object that shows no value that is not in its entry
      shows none after any history of additions, replacements, removals of values that match one value at
      most, and calls that only look. *)
  Theorem C89_never_false_partial dn i ss es :
    mild_history dn i ss es -> never_false lower view dn i ss -> never_false lower view dn i (fst (session_run ss es)).
  Proof. intros U C. exact (run_part sv view sv_search lower norm eqv idx strict flags syn vo vm Hidx Hlaw Hchild Hlow dn i ss es U C). Qed.
  (** Every value the program reads then is in the directory. *)
  Theorem C89_shown_is_there_partial dn i ss es o k vs v :
    mild_history dn i ss es -> never_false lower view dn i ss ->
    nth_error (ss_objs (fst (session_run ss es))) i = Some o -> cid_get lower (ob_attrs o) k = Ok vs -> In v vs ->
    exists e, view (ss_s (fst (session_run ss es))) dn = Some e /\ In v (e (lower k)).
  Proof.
    intros U C Ho Hg Hv. destruct (C89_never_false_partial dn i ss es U C) as (o' & e & Ho' & _ & _ & V & _ & Ht).
    rewrite Ho in Ho'. injection Ho' as <-. exists e. split; [exact V|]. apply (part_incl lower _ _ k Ht). unfold cur_vals. now rewrite Hg.
  Qed.
  (** has_object_class says yes only of classes the entry has. *)
  Theorem C89_class_is_there_partial dn i ss es oc :
    mild_history dn i ss es -> never_false lower view dn i ss ->
    let ss1 := fst (session_run ss es) in
    snd (step ss1 (Do i (CHasClass oc))) = Ok (VBool true) ->
    exists e x, view (ss_s ss1) dn = Some e /\ In x (e (lower (lit "objectClass"))) /\ eqv (lit "objectClass") x oc = true.
  Proof.
    intros U C. destruct (C89_never_false_partial dn i ss es U C) as (o & e & Ho & Hc & Hd & V & Hok & Ht). cbv zeta.
    set (ss1 := fst (session_run ss es)) in *.
    rewrite (step_do sv sv_search lower idx strict flags syn vo vm ss1 i (CHasClass oc) o Ho). cbn [Model_Life.perform].
    pose (l := mk_lobj dn (ob_attrs o)).
    assert (Eo : o = conn_obj o l) by (destruct o; unfold conn_obj, l; cbn in *; congruence).
    pose proof (has_class_part sv view lower norm eqv idx vm Hidx Hlaw (ss_closed ss1) (ss_s ss1) l e oc V Hok Ht) as HS.
    pose proof (has_class_does sv lower idx (ss_s ss1) (ss_closed ss1) o l oc) as HD.
    destruct (has_object_class sv lower idx (ss_closed ss1) (ss_s ss1) l oc) as [l' x]. destruct HD as (t1 & HD). rewrite <- Eo in HD. unfold bindM. rewrite HD.
    destruct HS as (_ & H1). destruct x as [b|]; cbn; intros E; [|discriminate]. injection E as ->.
    specialize (H1 eq_refl). apply existsb_exists in H1. destruct H1 as (x & Hx & Ex). exists e, x. auto.
  Qed.
  (** Objects that show nothing but whole attributes of their entry are of this kind. *)
  Theorem C89_coherent_never_false dn i ss : coherent lower view dn i ss -> never_false lower view dn i ss.
  Proof. intros (o & e & Ho & Hc & Hd & V & Hok & Ht). exists o, e. split; [exact Ho|]. split; [exact Hc|]. split; [exact Hd|]. split; [exact V|]. split; [exact Hok|]. now apply truth_part. Qed.

  (** C90: add_users and add_hosts in either mode, on an object that has only some of the values of its
      entry, or none: they return only if the entry is a netgroup, and exactly the members asked for that
      were not there have then been added; if they raise the directory is as it was. *)
  Theorem C90_adds (Hrefl : forall a v, eqv a v v = true) s u o dn e users ms dom es w' t r :
    ob_conn o = true -> ob_dn o = Some dn -> view s dn = Some e -> dict_ok lower (ob_attrs o) -> shows_part lower (ob_attrs o) e ->
    Forall2 (means users dom) (listed ms) es -> Forall writable es ->
    perform (CNetgroup NgAdd users ms dom) (mk_world s u o) = (w', t, r) ->
    match r with
    | Ok _ => is_netgroup lower eqv e = true /\ added view lower norm eqv s (w_s w') dn e es
    | Raise _ => forall d, view (w_s w') d = view s d
    end /\
    ob_conn (w_o w') = true /\ ob_dn (w_o w') = Some dn /\ exists e', view (w_s w') dn = Some e' /\ shows_part lower (ob_attrs (w_o w')) e'.
  Proof.
    intros Hc Hd V Hok Ht Hm Hw H. pose (l := mk_lobj dn (ob_attrs o)).
    assert (Eo : o = conn_obj o l) by (destruct o; unfold conn_obj, l; cbn in *; congruence). rewrite Eo in H. cbn [Model_Life.perform] in H.
    destruct (netgroup_part sv view lower norm eqv idx strict flags vm Hidx Hlaw Hlow u o s l e NgAdd users ms dom V Hok Ht) as (s' & l' & x & D & ST & HO & HR); [discriminate|].
    destruct D as (t1 & D). unfold nothing, bindM in H. rewrite D in H. destruct (ng_says users ms dom es Hm Hw) as (a & ts & Ea & Hsay).
    destruct ST as (S1 & S2 & S3 & S4). cbn [o_dn l] in S1, S3, S4.
    destruct x as [[]|x]; cbn in H; injection H as <- <- <-; cbn [w_s w_o].
    - split; [|split; [reflexivity|]; split; [cbn; now rewrite S1|exact S3]].
      destruct (HO tt eq_refl) as (HC & HX). destruct (HX eq_refl) as (a' & l1 & Ea' & HP & E1). assert (a' = a) by congruence. subst a'. split; [exact HC|].
      pose proof (add_members_some sv view lower norm eqv idx strict flags vm Hidx Hlaw Hlow Hrefl u es a ts s dn e l1 Hsay V (fun k => part_incl lower _ _ k HP)) as Z. cbn [o_dn l] in E1. rewrite E1 in Z. exact Z.
    - split; [exact (HR (or_introl eq_refl) x eq_refl)|]. split; [reflexivity|]. split; [cbn; now rewrite S1|exact S3].
  Qed.
  (** C90: delete_users and delete_hosts in either mode: they return only if the entry is a netgroup; if
      they raise the directory is as it was. *)
  Theorem C90_deletes_partial s u o dn e users ms dom w' t r :
    ob_conn o = true -> ob_dn o = Some dn -> view s dn = Some e -> dict_ok lower (ob_attrs o) -> shows_part lower (ob_attrs o) e ->
    Props_Coherent.single lower eqv e ->
    perform (CNetgroup NgDelete users ms dom) (mk_world s u o) = (w', t, r) ->
    match r with
    | Ok _ => is_netgroup lower eqv e = true
    | Raise _ => forall d, view (w_s w') d = view s d
    end /\
    ob_conn (w_o w') = true /\ ob_dn (w_o w') = Some dn /\ exists e', view (w_s w') dn = Some e' /\ shows_part lower (ob_attrs (w_o w')) e'.
  Proof.
    intros Hc Hd V Hok Ht H1 H. pose (l := mk_lobj dn (ob_attrs o)).
    assert (Eo : o = conn_obj o l) by (destruct o; unfold conn_obj, l; cbn in *; congruence). rewrite Eo in H. cbn [Model_Life.perform] in H.
    destruct (netgroup_part sv view lower norm eqv idx strict flags vm Hidx Hlaw Hlow u o s l e NgDelete users ms dom V Hok Ht (fun _ => H1)) as (s' & l' & x & D & ST & HO & HR).
    destruct D as (t1 & D). unfold nothing, bindM in H. rewrite D in H.
    destruct ST as (S1 & S2 & S3 & S4). cbn [o_dn l] in S1, S3, S4.
    destruct x as [[]|x]; cbn in H; injection H as <- <- <-; cbn [w_s w_o]; (split; [|split; [reflexivity|]; split; [cbn; now rewrite S1|exact S3]]).
    - apply (HO tt eq_refl).
    - exact (HR (or_intror eq_refl) x eq_refl).
  Qed.
End Part.

(** ** Under strict_modify, with objects that have nothing loaded *)
Definition y_mild : list (@event store) :=
  [ Do 0%nat (CModify [mkmod ADD (lit "MAIL") (VList [lit "new"])]); Do 0%nat (CAddAttrs [(lit "mail", VList [lit "newer"; lit "new"])]);
    Do 0%nat (CDeleteAttrs [(lit "mail", VList [lit "old"; lit "new"])]); Do 1%nat (CNetgroup NgAdd true (MList [MStr (lit "bo")]) (Some []));
    Do 0%nat (CReplaceAttrs [(lit "cn", VList [lit "bob"; lit "rob"])]) ].
Definition y_end := fst (y_run true y_ss y_mild).
Lemma aeq_one a l : NoDup l -> at_most_one aeq a l.
Proof.
  intros H w. induction H as [|x l Hx _ IH]; [cbn; lia|]. cbn [List.filter]. destruct (aeq a x w) eqn:E; [|exact IH]. cbn [List.length].
  assert (F : List.filter (fun x0 => aeq a x0 w) l = []); [|rewrite F; cbn; lia].
  assert (Ew : x = w) by (unfold aeq in E; now destruct (str_eqb_spec x w)). subst w.
  destruct (List.filter (fun x0 => aeq a x0 x) l) as [|y ys] eqn:F; [reflexivity|]. exfalso.
  assert (Hy : In y (List.filter (fun x0 => aeq a x0 x) l)) by (rewrite F; now left). apply filter_In in Hy. destruct Hy as [Hy Ey].
  unfold aeq in Ey. destruct (str_eqb_spec y x); [subst; contradiction|discriminate].
Qed.
(** the object has added what it did not know of; it knows only a part: an old value it has not loaded is
    not removed though asked for, and not shown *)
Example C89_never_false_nonvacuous :
  never_false x_lower (sview x_lower) y_bob 0 y_ss /\
  mildly x_lower aeq (sview x_lower) y_bob 0 (fun ss ev => fst (fst (y_step true ss ev))) y_ss y_mild /\
  map snd (snd (y_run true y_ss y_mild)) = [Ok VNone; Ok VNone; Ok VNone; Ok VNone; Ok VNone] /\
  option_map (fun o => cid_get x_lower (ob_attrs o) (lit "Mail")) (nth_error (ss_objs y_end) 0) = Some (Ok [lit "newer"]) /\
  at_dir (ss_s y_end) y_bob (lit "mail") = [lit "old"; lit "newer"].
Proof.
  split; [apply (C89_coherent_never_false (S := store)); apply y_ok; [reflexivity|vm_compute; discriminate]|]. split.
  { unfold y_mild. repeat first [apply W_end | (apply W_own; [intros e V|]) | (apply W_other; [discriminate|vm_compute; reflexivity|])].
    - intros m [<-|[]]. split; [reflexivity|exact I].
    - split; [repeat constructor; easy|]. intros n [<-|[]] X. repeat (destruct X as [X|X]; try discriminate). exact X.
    - split; [repeat constructor; easy|]. split.
      + intros n [<-|[]] X. repeat (destruct X as [X|X]; try discriminate). exact X.
      + intros k v [E|[]]. injection E as <- <-. split; [discriminate|]. vm_compute in V. injection V as <-. apply aeq_one. vm_compute. repeat constructor; cbn; intuition discriminate.
    - intros k v [E|[]]. injection E as _ <-. eexists. split; [reflexivity|discriminate]. }
  repeat split; vm_compute; reflexivity.
Qed.
Example C90_adds_nonvacuous :
  let r := y_step true y_ss (Do 1%nat (CNetgroup NgAdd true (MList [MTuple [Some []; Some (lit "bo")]; MStr (lit "+other")]) (Some []))) in
  snd r = Ok VNone /\
  at_dir (ss_s (fst (fst r))) y_ops (x_lower (lit "nisNetgroupTriple")) = [lit "(,al,)"; lit "(,bo,)"] /\
  (* the object shows what it has added *)
  option_map (fun o => cid_get x_lower (ob_attrs o) (lit "nisNetgroupTriple")) (nth_error (ss_objs (fst (fst r))) 1) = Some (Ok [lit "(,bo,)"]) /\
  (* adding a member it does not know of, already there: refused by the server, nothing done *)
  snd (y_step true y_ss (Do 1%nat (CNetgroup NgAdd true (MList [MStr (lit "al")]) (Some [])))) <> Ok VNone.
Proof. repeat split; vm_compute; try reflexivity; discriminate. Qed.

Print Assumptions C89_never_false_partial.
Print Assumptions C89_shown_is_there_partial.
Print Assumptions C89_class_is_there_partial.
Print Assumptions C89_coherent_never_false.
Print Assumptions C90_adds.
Print Assumptions C90_deletes_partial.
