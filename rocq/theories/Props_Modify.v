(** * Properties C04 - C09 *)
From Verif Require Import PyBase Model_CIDict Spec_CIDict Proofs_CIDict
  Model_Modify Spec_Modify Proofs_Modify Proofs_Modify2.

(** ** C04: value lookup *)

(** index returns i exactly when v is a valid assertion value, the i-th value
    matches it, and every earlier one does not. *)
Theorem C04_index_finds_first_match t l v i :
  at_index t l v = Ok i <->
  at_validate t v = Ok tt /\
  exists a, at_prepare t v = Ok a /\
    (exists x p, nth_error l i = Some x /\ at_prepare t x = Ok p /\ at_do_match t p a = Ok true) /\
    (forall j y, j < i -> nth_error l j = Some y ->
       exists p, at_prepare t y = Ok p /\ at_do_match t p a = Ok false).
Proof. exact (at_index_ok_iff t l v i). Qed.

(** index raises ValueError ("no such value") exactly when the list is empty or v is
    valid and matches none of the values. *)
Theorem C04_index_not_found t l v : never_value_error t ->
  at_index t l v = Raise ValueError <->
  l = [] \/
  (at_validate t v = Ok tt /\ exists a, at_prepare t v = Ok a /\
     forall y, In y l -> exists p, at_prepare t y = Ok p /\ at_do_match t p a = Ok false).
Proof. exact (at_index_ve_iff t l v). Qed.

(** Attributes without a registered type compare values exactly. *)
Theorem C04_unknown_attribute_index l v i :
  (list_index l v = Ok i <-> first_at (eq v) l i) /\
  (list_index l v = Raise ValueError <-> ~ In v l).
Proof.
  split; [exact (list_index_ok_iff l v i)|].
  destruct (list_index_total v l) as [[j [Hj Hin]]|[Hj Hn]].
  - split; intros H; [congruence|contradiction].
  - split; auto.
Qed.

(** in / count / remove agree with index; remove deletes exactly the element
    index reports.  For any lookup that returns valid positions. *)
Theorem C04_value_list_operations_agree (t : attr_type) l v :
  (forall i, at_index t l v = Ok i ->
     avl_contains (at_index t) l v = Ok true /\ avl_count (at_index t) l v = Ok 1 /\
     exists pre x post, l = pre ++ x :: post /\ List.length pre = i /\
       avl_remove (at_index t) l v = Ok (pre ++ post)) /\
  (at_index t l v = Raise ValueError ->
     avl_contains (at_index t) l v = Ok false /\ avl_count (at_index t) l v = Ok 0 /\
     avl_remove (at_index t) l v = Raise ValueError) /\
  (forall e, e <> ValueError -> at_index t l v = Raise e ->
     avl_contains (at_index t) l v = Raise e /\ avl_count (at_index t) l v = Raise e /\
     avl_remove (at_index t) l v = Raise e).
Proof.
  apply avl_consistent. intros i H. apply at_index_ok_iff in H as [_ [a [_ [[x [p [Hx _]]] _]]]].
  eauto.
Qed.

(** An invalid assertion value raises the validation error, not ValueError, so
    [in], [count] and [remove] raise instead of answering "not there". *)
Definition ci_type : attr_type :=
  mk_attr_type (fun v => match v with [] => Raise InvalidSyntaxError | _ => Ok tt end)
               (fun v => Ok (ascii_lower v)) eq_do_match.

Theorem C04_invalid_assertion_refuted :
  ~ (forall t l v, at_validate t v <> Ok tt -> avl_contains (at_index t) l v = Ok false).
Proof. intros H. specialize (H ci_type [lit "x"] []). discriminate H. discriminate. Qed.

Example C04_nonvacuous :
  at_index ci_type [lit "Alice"; lit "BOB"; lit "bob"] (lit "bob") = Ok 1 /\
  avl_remove (at_index ci_type) [lit "Alice"; lit "BOB"; lit "bob"] (lit "Bob")
    = Ok [lit "Alice"; lit "bob"] /\
  avl_contains (at_index ci_type) [lit "Alice"] (lit "carol") = Ok false /\
  never_value_error ci_type.
Proof.
  repeat split; try (vm_compute; reflexivity).
  - intros v; destruct v; simpl; discriminate.
  - intros v; simpl; discriminate.
  - intros p a; simpl; discriminate.
Qed.

(** ** C05: smart add *)

(** The modlist is: per requested attribute, in order, one ADD of the values that
    have no match in the current object (none if there are no such values). *)
Theorem C05_add_sends_exactly_the_missing lower idx cur new ms :
  NoDup (map fst new) -> add_modlist lower idx cur new = Ok ms ->
  ms = flat_map (adds_for lower idx cur) new /\
  (forall m, In m ms -> m_op m = ADD /\ vtrue (m_vals m) = true) /\
  (forall a v, (exists l, In (mkmod ADD a (VList l)) ms /\ In v l) <->
     (exists l, In (a, VList l) new /\ In v l /\
        (cur_vals lower cur a = [] \/ has_value lower idx cur a v = false))).
Proof.
  intros Hn H. split; [exact (add_modlist_exact lower idx cur new ms Hn H)|].
  exact (add_modlist_values lower idx cur new ms Hn H).
Qed.

(** It succeeds whenever the lookups do and no absent attribute is given with an
    empty list. *)
Theorem C05_add_succeeds lower idx cur new :
  NoDup (map fst new) -> lookups_clean lower idx cur new ->
  (forall a v, In (a, v) new -> exists l, v = VList l /\ (cur_vals lower cur a = [] -> l <> [])) ->
  exists ms, add_modlist lower idx cur new = Ok ms.
Proof. intros A B C. eexists. exact (add_modlist_total lower idx cur new A B C). Qed.

Definition ci_idx (a : str) : list str -> str -> res nat := at_index ci_type.
Definition obj1 : attrs :=
  cid_set ascii_lower (cid_set ascii_lower cid_empty (lit "cn") [lit "Bob"; lit "Al"])
          (lit "sn") [lit "x"].

(** A value repeated in the request is sent twice (the server will refuse it). *)
Theorem C05_repeated_request_value_refuted :
  ~ (forall lower idx cur new ms a l,
       add_modlist lower idx cur new = Ok ms -> In (mkmod ADD a (VList l)) ms -> NoDup l).
Proof.
  intros H.
  assert (Hn : NoDup [lit "z"; lit "z"]).
  { eapply (H ascii_lower ci_idx obj1 [(lit "cn", VList [lit "z"; lit "z"])] _ (lit "cn")).
    - vm_compute; reflexivity.
    - left; reflexivity. }
  inversion Hn as [|? ? Hx]; subst. apply Hx; left; auto.
Qed.

Example C05_nonvacuous :
  add_modlist ascii_lower ci_idx obj1
    [(lit "CN", VList [lit "bob"; lit "Carl"; lit "AL"]); (lit "sn", VList [lit "X"]);
     (lit "mail", VList [lit "b@x"])]
  = Ok [mkmod ADD (lit "CN") (VList [lit "Carl"]); mkmod ADD (lit "mail") (VList [lit "b@x"])].
Proof. vm_compute; reflexivity. Qed.

(** ** C06: smart delete *)
Theorem C06_delete_sends_exactly_the_present lower idx cur req ms :
  NoDup (map fst req) -> delete_modlist lower idx cur req = Ok ms ->
  ms = flat_map (deletes_for lower idx cur) req /\
  (forall m, In m ms -> m_op m = DELETE /\ cur_vals lower cur (m_attr m) <> []) /\
  (forall a v, (exists l, In (mkmod DELETE a (VList l)) ms /\ In v l) <->
     (exists l, In (a, VList l) req /\ In v l /\ cur_vals lower cur a <> [] /\
        has_value lower idx cur a v = true)) /\
  (forall a, In (mkmod DELETE a VDeleteAll) ms <->
     In (a, VDeleteAll) req /\ cur_vals lower cur a <> []).
Proof.
  intros Hn H. split; [exact (del_modlist_exact lower idx cur req ms Hn H)|].
  exact (del_modlist_values lower idx cur req ms Hn H).
Qed.

Theorem C06_delete_succeeds lower idx cur req :
  NoDup (map fst req) -> lookups_clean lower idx cur req ->
  exists ms, delete_modlist lower idx cur req = Ok ms.
Proof. intros A B. eexists. exact (del_modlist_total lower idx cur req A B). Qed.

Example C06_nonvacuous :
  delete_modlist ascii_lower ci_idx obj1
    [(lit "CN", VList [lit "bob"; lit "Carl"]); (lit "SN", VDeleteAll); (lit "mail", VDeleteAll)]
  = Ok [mkmod DELETE (lit "CN") (VList [lit "bob"]); mkmod DELETE (lit "SN") VDeleteAll].
Proof. vm_compute; reflexivity. Qed.

(** ** C07: LDAP.modify *)

(** Everything wanted is sent, in order, in one request; an empty or entirely
    skipped modlist sends nothing and succeeds. *)
Theorem C07_modify_sends_exactly_the_wanted f ans ms :
  (forall m, In m ms -> constructed m) ->
  (error_empty_list f = false \/ forall m, In m ms -> empty_rd m = false) ->
  exists ms',
  ldap_modify false f (Ok tt) (Ok tt) ans ms =
  match wanted (ignore_empty_list f) ms with
  | [] => (ms', None, Ok tt)
  | cs => (ms', Some cs, ans)
  end.
Proof.
  intros A B. exists (map mutate ms). exact (ldap_modify_ok f ans ms A B).
Qed.

(** When empty lists are configured to be errors nothing is sent. *)
Theorem C07_empty_list_rejected_before_sending f ans ms :
  (forall m, In m ms -> constructed m) ->
  error_empty_list f = true -> (exists m, In m ms /\ empty_rd m = true) ->
  exists ms', ldap_modify false f (Ok tt) (Ok tt) ans ms = (ms', None, Raise LDAPError).
Proof. exact (ldap_modify_err f ans ms). Qed.

(** On an unbound connection, after failed validation, or with bad control keywords
    nothing is sent. *)
Theorem C07_guards unbound f v c ans ms :
  ms <> [] ->
  (unbound = true -> ldap_modify unbound f v c ans ms = (ms, None, Raise ConnectionUnbound)) /\
  (forall e, unbound = false -> v = Raise e -> ldap_modify unbound f v c ans ms = (ms, None, Raise e)) /\
  (forall e, c = Raise e -> snd (fst (ldap_modify unbound f v c ans ms)) = None).
Proof. exact (ldap_modify_guard unbound f v c ans ms). Qed.

Definition default_flags := mkflags false true false.

(** The same Mod objects sent a second time: DELETE_ALL has been overwritten by an
    empty list, which the default settings silently skip. *)
Theorem C07_resend_refuted :
  ~ (forall f ms ms' cs, ldap_modify false f (Ok tt) (Ok tt) (Ok tt) ms = (ms', Some cs, Ok tt) ->
       snd (fst (ldap_modify false f (Ok tt) (Ok tt) (Ok tt) ms')) = Some cs).
Proof.
  intros H. specialize (H default_flags [mkmod DELETE (lit "cn") VDeleteAll] _ _ eq_refl).
  discriminate H.
Qed.

(** When every change is skipped, invalid control keywords go unnoticed. *)
Theorem C07_bad_keyword_always_raises_refuted :
  ~ (forall f e ms, ms <> [] -> exists e',
       snd (ldap_modify false f (Ok tt) (Raise e) (Ok tt) ms) = Raise e').
Proof.
  intros H. destruct (H default_flags TypeError [mkmod REPLACE (lit "cn") (VList [])]) as [e He];
    [discriminate|]. discriminate He.
Qed.

Example C07_nonvacuous :
  let ms := [mkmod REPLACE (lit "a") (VList []); mkmod DELETE (lit "b") VDeleteAll;
             mkmod ADD (lit "c") (VList [lit "1"])] in
  (forall m, In m ms -> constructed m) /\
  wanted true ms = [mkchange DELETE (lit "b") []; mkchange ADD (lit "c") [lit "1"]] /\
  wanted false ms = [mkchange REPLACE (lit "a") []; mkchange DELETE (lit "b") [];
                     mkchange ADD (lit "c") [lit "1"]].
Proof.
  cbn zeta. split; [|split; reflexivity].
  intros m [<-|[<-|[<-|[]]]]; reflexivity.
Qed.

(** ** C08: the local object mirrors the server *)
Theorem C08_local_mirrors_server_partial lower eqv idx f d e ms e' :
  same_rule eqv idx -> dict_ok lower d -> mirrors lower d e ->
  (forall m, In m ms -> constructed m) ->
  (error_empty_list f = false \/ forall m, In m ms -> empty_rd m = false) ->
  safe lower eqv f e ms ->
  srv_apply lower eqv e (map change_of ms) = Some e' ->
  exists d' ms',
    obj_modify lower idx true false f (Ok tt) (Ok tt) (Ok tt) d ms =
      (d', ms', match ms with [] => None | _ => Some (map change_of ms) end, Ok tt) /\
    dict_ok lower d' /\ mirrors lower d' e'.
Proof. intros Hr. exact (obj_modify_mirror lower eqv idx Hr f d e ms e'). Qed.

(** The dict invariant used above holds for every dict built by its operations. *)
Theorem C08_dict_ok_reachable lower {V} (os : list (cid_op V)) :
  dict_ok lower (fst (cid_run lower cid_empty os)).
Proof. exact (dict_ok_reachable lower os). Qed.

(** When the server (or the connection) refuses, the local object is unchanged. *)
Theorem C08_refused_modify_changes_nothing lower idx has_ldap unb f v c ans d ms d' ms' sent err :
  snd (ldap_modify unb f v c ans ms) = Raise err ->
  obj_modify lower idx has_ldap unb f v c ans d ms = (d', ms', sent, Raise err) -> d' = d.
Proof. exact (obj_modify_fail lower idx has_ldap unb f v c ans d ms d' ms' sent err). Qed.

(** The conditions in [safe] cannot be dropped. *)
Definition ci_eqv (a x v : str) : bool := str_eqb (ascii_lower x) (ascii_lower v).
Definition entry1 : entry := fun n =>
  if str_eqb n (lit "cn") then [lit "Bob"; lit "Al"]
  else if str_eqb n (lit "sn") then [lit "x"] else [].

(** replace/delete with an empty list: not sent (default settings), but removed locally. *)
Theorem C08_skipped_empty_list_refuted :
  exists ms d', 
    obj_modify ascii_lower ci_idx true false default_flags (Ok tt) (Ok tt) (Ok tt) obj1 ms
      = (d', ms, None, Ok tt) /\
    cid_get ascii_lower obj1 (lit "cn") = Ok [lit "Bob"; lit "Al"] /\
    cid_get ascii_lower d' (lit "cn") = Raise KeyError.
Proof.
  exists [mkmod REPLACE (lit "cn") (VList [])]. eexists.
  split; [vm_compute; reflexivity|split; vm_compute; reflexivity].
Qed.

(** Clearing an attribute the object does not have: the server accepts, then the
    local update raises KeyError (and later changes are not applied locally). *)
Theorem C08_replace_absent_refuted :
  exists ms d' ms' sent e',
    obj_modify ascii_lower ci_idx true false default_flags (Ok tt) (Ok tt) (Ok tt) obj1 ms
      = (d', ms', Some sent, Raise KeyError) /\
    srv_apply ascii_lower ci_eqv entry1 sent = Some e' /\
    e' (lit "cn") = [lit "new"] /\ cid_get ascii_lower d' (lit "cn") = Ok [lit "Bob"; lit "Al"].
Proof.
  exists [mkmod REPLACE (lit "mail") VDeleteAll; mkmod REPLACE (lit "cn") (VList [lit "new"])].
  do 4 eexists. repeat split; vm_compute; reflexivity.
Qed.

(** Deleting the last value twice over in one Mod: KeyError escapes, although only
    ValueError means "not there". *)
Theorem C08_delete_value_after_last_refuted :
  exists d' ms' sent,
    obj_modify ascii_lower ci_idx true false default_flags (Ok tt) (Ok tt) (Ok tt) obj1
      [mkmod DELETE (lit "sn") (VList [lit "x"; lit "X"])]
      = (d', ms', Some sent, Raise KeyError).
Proof. do 3 eexists. vm_compute; reflexivity. Qed.

Lemma ci_same_rule : same_rule ci_eqv (fun a l v =>
  match first_match (fun x => ci_eqv a x v) l 0 with Some i => Ok i | None => Raise ValueError end).
Proof. intros a l v. reflexivity. Qed.

Example C08_nonvacuous :
  let ms := [mkmod ADD (lit "CN") (VList [lit "Carl"]); mkmod DELETE (lit "SN") (VList [lit "X"]);
             mkmod REPLACE (lit "cn") VDeleteAll; mkmod ADD (lit "mail") (VList [lit "m"])] in
  dict_ok ascii_lower obj1 /\
  (forall m, In m ms -> constructed m) /\
  (exists e', srv_apply ascii_lower ci_eqv entry1 (map change_of ms) = Some e' /\
     e' (lit "mail") = [lit "m"] /\ e' (lit "cn") = []) /\
  safe ascii_lower ci_eqv default_flags entry1 ms.
Proof.
  cbn zeta. split; [|split; [|split]].
  - apply (dict_ok_reachable ascii_lower
      [OpSet (lit "cn") [lit "Bob"; lit "Al"]; OpSet (lit "sn") [lit "x"]]).
  - intros m [<-|[<-|[<-|[<-|[]]]]]; reflexivity.
  - eexists; split; [vm_compute; reflexivity|split; vm_compute; reflexivity].
  - repeat (cbn [safe]; split; [vm_compute; first [discriminate|intros; discriminate]|];
            split; [vm_compute; first [discriminate|intros; discriminate]|];
            let e' := fresh in let He := fresh in
            intros e' He; vm_compute in He; injection He as <-).
    exact I.
Qed.

(** ** C09: repeating a smart add or delete *)
Theorem C09_add_twice_sends_nothing lower eqv idx d new ms :
  same_rule eqv idx -> (forall a v, eqv a v v = true) ->
  dict_ok lower d -> NoDup (map fst new) ->
  add_modlist lower idx d new = Ok ms ->
  exists d', local_modify lower idx d ms = (d', Ok tt) /\
    (forall ms2, add_modlist lower idx d' new = Ok ms2 -> ms2 = []).
Proof. intros Hr. exact (add_twice_nothing lower eqv idx Hr d new ms). Qed.

Theorem C09_delete_twice_sends_nothing lower eqv idx d req ms d' :
  same_rule eqv idx ->
  dict_ok lower d -> NoDup (map fst req) -> values_distinct lower eqv d ->
  delete_modlist lower idx d req = Ok ms ->
  local_modify lower idx d ms = (d', Ok tt) ->
  delete_modlist lower idx d' req = Ok [].
Proof. intros Hr. exact (delete_twice_nothing lower eqv idx Hr d req ms d'). Qed.

Example C09_nonvacuous :
  let new := [(lit "CN", VList [lit "bob"; lit "Carl"]); (lit "mail", VList [lit "m"])] in
  exists ms d', add_modlist ascii_lower ci_idx obj1 new = Ok ms /\ ms <> [] /\
    local_modify ascii_lower ci_idx obj1 ms = (d', Ok tt) /\
    add_modlist ascii_lower ci_idx d' new = Ok [] /\
    cid_get ascii_lower d' (lit "cn") = Ok [lit "Bob"; lit "Al"; lit "Carl"].
Proof.
  cbn zeta. do 2 eexists. split; [vm_compute; reflexivity|].
  split; [discriminate|]. repeat split; vm_compute; reflexivity.
Qed.

Print Assumptions C04_index_finds_first_match.
Print Assumptions C04_index_not_found.
Print Assumptions C04_unknown_attribute_index.
Print Assumptions C04_value_list_operations_agree.
Print Assumptions C04_invalid_assertion_refuted.
Print Assumptions C05_add_sends_exactly_the_missing.
Print Assumptions C05_add_succeeds.
Print Assumptions C05_repeated_request_value_refuted.
Print Assumptions C06_delete_sends_exactly_the_present.
Print Assumptions C06_delete_succeeds.
Print Assumptions C07_modify_sends_exactly_the_wanted.
Print Assumptions C07_empty_list_rejected_before_sending.
Print Assumptions C07_guards.
Print Assumptions C07_resend_refuted.
Print Assumptions C07_bad_keyword_always_raises_refuted.
Print Assumptions C08_local_mirrors_server_partial.
Print Assumptions C08_dict_ok_reachable.
Print Assumptions C08_refused_modify_changes_nothing.
Print Assumptions C08_skipped_empty_list_refuted.
Print Assumptions C08_replace_absent_refuted.
Print Assumptions C08_delete_value_after_last_refuted.
Print Assumptions C09_add_twice_sends_nothing.
Print Assumptions C09_delete_twice_sends_nothing.
