(** * C24, C25, C26: controls *)
From Verif Require Import PyBase Model_Controls Spec_Controls Proofs_Controls.

(** ** C24 *)

(** Keyword processing succeeds exactly if every argument that names a control is
    admissible and (where no further keywords are taken) there is no other argument; then
    it yields one control per such argument, in order, with the criticality asked for, and
    hands on all other arguments untouched. *)
Theorem C24_controls_exactly reg method supported dflt final kwds :
  NoDup (map fst kwds) ->
  (forall cs rest, process_kwds reg method kwds supported dflt final = Ok (cs, rest) ->
     Forall (admissible reg method supported dflt) kwds /\
     Forall2 (wire_for reg dflt) (controls_of reg kwds) cs /\
     rest = others_of reg kwds /\ (final = true -> others_of reg kwds = [])) /\
  (Forall (admissible reg method supported dflt) kwds -> (final = true -> others_of reg kwds = []) ->
     exists cs, process_kwds reg method kwds supported dflt final = Ok (cs, others_of reg kwds)).
Proof.
  intros Hnd. pose proof (process_kwds_spec reg method supported dflt final kwds Hnd) as H. split.
  - intros cs rest E. rewrite E in H. destruct H as (A & B & C & D). subst rest. auto.
  - intros Ha Ho. destruct (process_kwds reg method kwds supported dflt final) as [[cs rest]|e].
    + destruct H as (A & B & C & D). subst rest. eauto.
    + exfalso. destruct H as [[a [kv [b (E & _ & Hoff)]]]|(_ & Hf & _ & Hne)].
      * apply offending_not_admissible in Hoff. apply Hoff. rewrite Forall_forall in Ha. apply Ha.
        rewrite E, in_app_iff. right; now left.
      * apply Hne, Ho, Hf.
Qed.

(** What is raised: the first inadmissible control decides - LDAPError for the wrong method,
    LDAPSupportError for a critical control the server does not list, otherwise whatever
    encoding the value raised; TypeError only for left-over keywords. *)
Theorem C24_errors reg method supported dflt final kwds e :
  NoDup (map fst kwds) -> process_kwds reg method kwds supported dflt final = Raise e ->
  (exists a k v b c, kwds = a ++ (k, v) :: b /\ Forall (admissible reg method supported dflt) a /\
     dget (r_kw reg) k = Some c /\
     ((c_allows c method = false /\ e = LDAPError) \/
      (criticality dflt v = true /\ ~ In (c_request_oid c) supported /\ e = LDAPSupportError) \/
      c_prepare c (value_of v) = Raise e)) \/
  (e = TypeError /\ final = true /\ exists k v, In (k, v) kwds /\ ~ is_control reg k).
Proof.
  intros Hnd E. pose proof (process_kwds_spec reg method supported dflt final kwds Hnd) as H. rewrite E in H.
  destruct H as [[a [[k v] [b (A & B & c & C & D)]]]|(He & Hf & _ & Hne)].
  - left. exists a, k, v, b, c. repeat split; auto. cbn [fst snd] in *. destruct D as [D|[(_ & D)|(_ & _ & D)]]; auto.
  - right. repeat split; auto. destruct (others_of reg kwds) as [|[k v] l] eqn:Eo; [contradiction|].
    assert (Hi : In (k, v) (others_of reg kwds)) by (rewrite Eo; now left).
    unfold others_of in Hi. apply filter_In in Hi as [Hi Hd]. cbn [fst] in Hd.
    exists k, v. split; auto. intros [c Hc]. unfold dmem in Hd. rewrite Hc in Hd. discriminate.
Qed.

(** The methods as a whole: a successful call sends one request with exactly the controls
    asked for, and every other keyword is one the method takes; a failing call sends
    nothing, and an unknown keyword always makes it fail.  Extended requests and
    modifications without changes are excluded. *)
Theorem C24_calls_partial reg supported dflt a kwds :
  NoDup (map fst kwds) -> a <> Extended_ -> a <> Modify_ 0 ->
  (fst (call reg supported dflt a kwds) = Ok tt ->
     exists cs, snd (call reg supported dflt a kwds) = [cs] /\
       Forall (admissible reg (method_name a) supported dflt) kwds /\
       Forall2 (wire_for reg dflt) (controls_of reg kwds) cs /\
       forall k v, In (k, v) kwds -> is_control reg k \/ ((a = Search_ \/ a = Add_) /\ In k obj_kwds)) /\
  (forall e, fst (call reg supported dflt a kwds) = Raise e -> snd (call reg supported dflt a kwds) = []) /\
  (forall k v, In (k, v) kwds -> ~ is_control reg k -> ~ In k obj_kwds ->
     fst (call reg supported dflt a kwds) <> Ok tt).
Proof.
  intros Hnd Hx Hm.
  assert (Oth : forall k v ok, In (k, v) kwds -> all_in (others_of reg kwds) ok = true -> is_control reg k \/ In k ok).
  { intros k v ok Hi Ha. destruct (dget (r_kw reg) k) as [c|] eqn:E; [left; now exists c|right].
    unfold all_in in Ha. rewrite forallb_forall in Ha. apply smem_In. apply (Ha (k, v)).
    unfold others_of. apply filter_In. split; auto. cbn [fst]. unfold dmem. now rewrite E. }
  assert (Main :
    (fst (call reg supported dflt a kwds) = Ok tt ->
     exists cs, snd (call reg supported dflt a kwds) = [cs] /\
       Forall (admissible reg (method_name a) supported dflt) kwds /\
       Forall2 (wire_for reg dflt) (controls_of reg kwds) cs /\
       forall k v, In (k, v) kwds -> is_control reg k \/ ((a = Search_ \/ a = Add_) /\ In k obj_kwds)) /\
    (forall e, fst (call reg supported dflt a kwds) = Raise e -> snd (call reg supported dflt a kwds) = [])).
  { assert (Fin : forall m, (forall b, a <> Modify_ b -> True) ->
        call reg supported dflt a kwds =
          match process_kwds reg m kwds supported dflt true with
          | Raise e => (Raise e, []) | Ok (cs, _) => (Ok tt, [cs]) end -> m = method_name a ->
        (fst (call reg supported dflt a kwds) = Ok tt ->
         exists cs, snd (call reg supported dflt a kwds) = [cs] /\
           Forall (admissible reg (method_name a) supported dflt) kwds /\
           Forall2 (wire_for reg dflt) (controls_of reg kwds) cs /\
           forall k v, In (k, v) kwds -> is_control reg k \/ ((a = Search_ \/ a = Add_) /\ In k obj_kwds)) /\
        (forall e, fst (call reg supported dflt a kwds) = Raise e -> snd (call reg supported dflt a kwds) = [])).
    { intros m _ E Em. rewrite E. subst m.
      pose proof (process_kwds_spec reg (method_name a) supported dflt true kwds Hnd) as H.
      destruct (process_kwds reg (method_name a) kwds supported dflt true) as [[cs rest]|e]; cbn [fst snd].
      - destruct H as (A & B & C & D). split; [|discriminate]. intros _. exists cs. repeat split; auto.
        intros k v Hi. left. destruct (Oth k v [] Hi) as [Hc|[]]; auto.
        rewrite <- B, (C eq_refl). reflexivity.
      - split; [discriminate|reflexivity]. }
    assert (Par : forall ok, (a = Search_ \/ a = Add_) -> (forall k, In k ok -> In k obj_kwds) ->
        call reg supported dflt a kwds =
          match process_kwds reg (method_name a) kwds supported dflt false with
          | Raise e => (Raise e, [])
          | Ok (cs, rest) => if all_in rest ok then (Ok tt, [cs]) else (Raise TypeError, []) end ->
        (fst (call reg supported dflt a kwds) = Ok tt ->
         exists cs, snd (call reg supported dflt a kwds) = [cs] /\
           Forall (admissible reg (method_name a) supported dflt) kwds /\
           Forall2 (wire_for reg dflt) (controls_of reg kwds) cs /\
           forall k v, In (k, v) kwds -> is_control reg k \/ ((a = Search_ \/ a = Add_) /\ In k obj_kwds)) /\
        (forall e, fst (call reg supported dflt a kwds) = Raise e -> snd (call reg supported dflt a kwds) = [])).
    { intros ok Ha Hok E. rewrite E.
      pose proof (process_kwds_spec reg (method_name a) supported dflt false kwds Hnd) as H.
      destruct (process_kwds reg (method_name a) kwds supported dflt false) as [[cs rest]|e]; cbn [fst snd];
        [|split; [discriminate|reflexivity]].
      destruct H as (A & B & C & D). subst rest. destruct (all_in (others_of reg kwds) ok) eqn:Eall; cbn [fst snd];
        [|split; [discriminate|reflexivity]].
      split; [|discriminate]. intros _. exists cs. repeat split; auto.
      intros k v Hi. destruct (Oth k v ok Hi Eall); auto. }
    destruct a as [| | | |[|n]| | |]; try contradiction.
    - apply (Fin (lit "bind")); auto.
    - apply (Fin (lit "compare")); auto.
    - apply (Fin (lit "delete")); auto.
    - apply (Fin (lit "mod_dn")); auto.
    - apply (Fin (lit "modify")); auto.
    - apply (Par obj_kwds); auto. cbn [call]. destruct kwds; reflexivity.
    - apply (Par real_obj_kwds); auto. intros k Hk.
      vm_compute in Hk. destruct Hk as [<-|[<-|[<-|[]]]]; apply smem_In; vm_compute; reflexivity. }
  destruct Main as [M1 M2]. split; [exact M1|]. split; [exact M2|].
  intros k v Hi Hc Ho E. destruct (M1 E) as [cs (_ & _ & _ & Hall)].
  destruct (Hall k v Hi) as [H|[_ H]]; contradiction.
Qed.

(** The two exceptions: an extended request goes out before its unknown keywords are
    noticed; a modification without changes drops them silently. *)
Theorem C24_refuted_extended_and_empty_modify reg supported dflt k v :
  ~ is_control reg k -> k <> lit "require_success" ->
  call reg supported dflt Extended_ [(k, v)] = (Raise TypeError, [[]]) /\
  call reg supported dflt (Modify_ 0) [(k, v)] = (Ok tt, []).
Proof.
  intros Hc Hk. split; [|reflexivity]. unfold call, process_kwds. cbn [process_loop].
  destruct (dget (r_kw reg) k) as [c|] eqn:E; [exfalso; apply Hc; now exists c|]. cbn [bind andb all_in forallb fst].
  apply str_eqb_neq in Hk.
  assert (Es : smem k [lit "require_success"] = false) by (unfold smem; cbn [existsb]; now rewrite Hk).
  now rewrite Es.
Qed.

Definition demo_ctrl : ctrl :=
  mk_ctrl true (fun m => str_eqb m (lit "search")) (lit "paged") (lit "page_cookie") (lit "1.2") (lit "1.2")
    (fun v => Ok v) (fun v => Ok v).
Definition demo_reg : registry := snd (register [lit "dn"] empty_registry demo_ctrl).

Example C24_nonvacuous :
  call demo_reg [lit "1.2"] false Search_ [(lit "tag", Plain (lit "t")); (lit "paged", Critical (lit "10"))] =
    (Ok tt, [[mk_wire (lit "1.2") true (Some (lit "10"))]]) /\
  call demo_reg [] false Search_ [(lit "paged", Critical (lit "10"))] = (Raise LDAPSupportError, []) /\
  call demo_reg [] true Search_ [(lit "paged", Optional [])] = (Ok tt, [[mk_wire (lit "1.2") false None]]) /\
  call demo_reg [lit "1.2"] true Delete_ [(lit "paged", Plain (lit "1"))] = (Raise LDAPError, []) /\
  call demo_reg [lit "1.2"] true Delete_ [(lit "bogus", Plain (lit "1"))] = (Raise TypeError, []).
Proof. vm_compute. repeat split; reflexivity. Qed.

(** ** C25 *)

(** After any sequence of registrations, accepted or not: every keyword, request OID and
    response OID denotes at most one control, which is the one that declares it; keyword
    and request OID tables agree; no keyword is reserved or empty. *)
Theorem C25_unambiguous reserved cs : coherent reserved (register_all reserved cs empty_registry).
Proof. apply register_all_coherent, empty_coherent. Qed.

(** No registration, accepted or not, changes what is already registered. *)
Theorem C25_existing_entries_kept reserved reg c :
  (forall k x, dget (r_kw reg) k = Some x -> dget (r_kw (snd (register reserved reg c))) k = Some x) /\
  (forall k x, dget (r_oid reg) k = Some x -> dget (r_oid (snd (register reserved reg c))) k = Some x) /\
  (forall k x, dget (r_resp reg) k = Some x -> dget (r_resp (snd (register reserved reg c))) k = Some x).
Proof.
  assert (K : forall d k k' (x : ctrl), dmem d k' = false -> dget d k = Some x -> dget (dset d k' c) k = Some x).
  { intros d k k' x Hm Hd. apply dmem_false in Hm. rewrite dget_dset_neq; auto. congruence. }
  unfold register.
  destruct (falsy (c_request_oid c)).
  - destruct (falsy (c_response_oid c)); [auto|]. destruct (falsy (c_response_attr c)); [auto|].
    destruct (dmem (r_resp reg) (c_response_oid c)) eqn:E; cbn [snd r_kw r_oid r_resp]; auto.
  - destruct (c_has_method c); cbn [negb]; auto. destruct (falsy (c_keyword c)); auto.
    destruct (smem (c_keyword c) reserved); auto.
    destruct (dmem (r_kw reg) (c_keyword c)) eqn:E1; auto.
    destruct (dmem (r_oid reg) (c_request_oid c)) eqn:E2; auto.
    destruct (falsy (c_response_oid c)); cbn [snd r_kw r_oid r_resp]; [auto|].
    destruct (falsy (c_response_attr c)); cbn [snd r_kw r_oid r_resp]; [auto|].
    destruct (dmem (r_resp reg) (c_response_oid c)) eqn:E3; cbn [snd r_kw r_oid r_resp]; auto.
Qed.

(** An accepted registration makes the control reachable by its keyword, request OID and
    response OID. *)
Theorem C25_accepted_is_registered reserved reg c :
  fst (register reserved reg c) = Ok tt ->
  (c_request_oid c <> [] ->
     dget (r_kw (snd (register reserved reg c))) (c_keyword c) = Some c /\
     dget (r_oid (snd (register reserved reg c))) (c_request_oid c) = Some c) /\
  (c_response_oid c <> [] -> dget (r_resp (snd (register reserved reg c))) (c_response_oid c) = Some c).
Proof.
  unfold register.
  destruct (falsy (c_request_oid c)) eqn:E0.
  - assert (Hq : c_request_oid c = []) by (destruct (c_request_oid c); [reflexivity|discriminate E0]).
    destruct (falsy (c_response_oid c)) eqn:E1.
    + intros _. split; [contradiction|]. intros H. destruct (c_response_oid c); [contradiction|discriminate E1].
    + destruct (falsy (c_response_attr c)); [discriminate|].
      destruct (dmem (r_resp reg) (c_response_oid c)); [discriminate|]. intros _.
      split; [contradiction|]. intros _. apply dget_dset_eq.
  - destruct (c_has_method c); cbn [negb]; [|discriminate]. destruct (falsy (c_keyword c)); [discriminate|].
    destruct (smem (c_keyword c) reserved); [discriminate|].
    destruct (dmem (r_kw reg) (c_keyword c)); [discriminate|].
    destruct (dmem (r_oid reg) (c_request_oid c)); [discriminate|].
    destruct (falsy (c_response_oid c)) eqn:E1.
    + intros _. cbn [snd r_kw r_oid r_resp]. split; [intros _; split; apply dget_dset_eq|].
      intros H. destruct (c_response_oid c); [contradiction|discriminate E1].
    + destruct (falsy (c_response_attr c)); [discriminate|].
      destruct (dmem (r_resp _) (c_response_oid c)); [discriminate|]. intros _. cbn [snd r_kw r_oid r_resp].
      split; [intros _; split; apply dget_dset_eq|]. intros _. apply dget_dset_eq.
Qed.

(** A rejected registration changes nothing if the control has no request OID or no
    response OID ... *)
Theorem C25_rejected_changes_nothing_partial reserved reg c e :
  fst (register reserved reg c) = Raise e -> c_request_oid c = [] \/ c_response_oid c = [] ->
  snd (register reserved reg c) = reg.
Proof.
  unfold register. intros H [E|E]; revert H.
  - rewrite E. cbn [falsy]. destruct (falsy (c_response_oid c)); [discriminate|].
    destruct (falsy (c_response_attr c)); [reflexivity|]. destruct (dmem (r_resp reg) (c_response_oid c)); [reflexivity|discriminate].
  - rewrite E. cbn [falsy]. destruct (falsy (c_request_oid c)); [discriminate|].
    destruct (c_has_method c); cbn [negb]; [|reflexivity]. destruct (falsy (c_keyword c)); [reflexivity|].
    destruct (smem (c_keyword c) reserved); [reflexivity|].
    destruct (dmem (r_kw reg) (c_keyword c)); [reflexivity|].
    destruct (dmem (r_oid reg) (c_request_oid c)); [reflexivity|discriminate].
Qed.

(** ... but one rejected for its response OID stays usable as a request control. *)
Theorem C25_refuted_half_registered :
  let c2 := mk_ctrl true (fun _ => true) (lit "other") (lit "x") (lit "1.3") (lit "1.2") (fun v => Ok v) (fun v => Ok v) in
  fst (register [] demo_reg c2) = Raise LDAPExtensionError /\
  dget (r_kw (snd (register [] demo_reg c2))) (lit "other") = Some c2 /\ dget (r_kw demo_reg) (lit "other") = None.
Proof. cbv zeta. split; [vm_compute; reflexivity|]. split; reflexivity. Qed.

Example C25_nonvacuous :
  fst (register [lit "dn"] empty_registry demo_ctrl) = Ok tt /\
  dget (r_kw demo_reg) (lit "paged") = Some demo_ctrl /\
  fst (register [lit "dn"] demo_reg demo_ctrl) = Raise LDAPExtensionError /\
  fst (register [lit "paged"] empty_registry demo_ctrl) = Raise LDAPExtensionError.
Proof. repeat split; reflexivity. Qed.

(** ** C26 *)

(** Handling a response succeeds exactly if every control in it is registered and decodes,
    and the attributes they define are pairwise different and new; then exactly these
    attributes are added, each with the value its control decoded. *)
Theorem C26_exactly reg builtin attrs controls :
  NoDup (map fst attrs) ->
  (fst (handle_response reg builtin attrs controls) = Ok tt ->
     exists new, Forall2 (attr_for reg) controls new /\
       snd (handle_response reg builtin attrs controls) = attrs ++ new /\
       NoDup (map fst (attrs ++ new)) /\ Forall (fun av => builtin (fst av) = false) new) /\
  (forall new, Forall2 (attr_for reg) controls new -> NoDup (map fst (attrs ++ new)) ->
     Forall (fun av => builtin (fst av) = false) new ->
     handle_response reg builtin attrs controls = (Ok tt, attrs ++ new)).
Proof. apply handle_spec. Qed.

(** Existing attributes are never overwritten, even when handling fails half-way. *)
Theorem C26_never_overwrites reg builtin attrs controls k v :
  dget attrs k = Some v -> dget (snd (handle_response reg builtin attrs controls)) k = Some v.
Proof. apply handle_never_overwrites. Qed.

(** An unregistered control is an error wherever it stands. *)
Theorem C26_unregistered_is_an_error reg builtin attrs controls oid raw :
  In (oid, raw) controls -> dget (r_resp reg) oid = None -> fst (handle_response reg builtin attrs controls) <> Ok tt.
Proof.
  revert attrs; induction controls as [|[o r] controls IH]; intros attrs Hi Hd; [destruct Hi|].
  cbn [handle_response]. destruct Hi as [Ei|Hi].
  - injection Ei as -> ->. rewrite Hd. discriminate.
  - destruct (dget (r_resp reg) o) as [c|]; [|discriminate]. destruct (c_handle c r); [|discriminate].
    destruct (builtin (c_response_attr c) || dmem attrs (c_response_attr c)); [discriminate|]. now apply IH.
Qed.

Example C26_nonvacuous :
  handle_response demo_reg (fun a => str_eqb a (lit "dn")) [(lit "x", lit "y")] [(lit "1.2", lit "cookie")] =
    (Ok tt, [(lit "x", lit "y"); (lit "page_cookie", lit "cookie")]) /\
  handle_response demo_reg (fun _ => false) [] [(lit "1.2", lit "a"); (lit "1.2", lit "b")] =
    (Raise LDAPExtensionError, [(lit "page_cookie", lit "a")]) /\
  handle_response demo_reg (fun _ => false) [] [(lit "9.9", lit "a")] = (Raise LDAPExtensionError, []).
Proof. vm_compute. repeat split; reflexivity. Qed.

Print Assumptions C24_controls_exactly.
Print Assumptions C24_errors.
Print Assumptions C24_calls_partial.
Print Assumptions C24_refuted_extended_and_empty_modify.
Print Assumptions C25_unambiguous.
Print Assumptions C25_existing_entries_kept.
Print Assumptions C25_accepted_is_registered.
Print Assumptions C25_rejected_changes_nothing_partial.
Print Assumptions C25_refuted_half_registered.
Print Assumptions C26_exactly.
Print Assumptions C26_never_overwrites.
Print Assumptions C26_unregistered_is_an_error.
