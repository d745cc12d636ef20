(** * C27-C31, C53: schema elements and validation *)
From Verif Require Import PyBase Model_Schema Spec_Schema Proofs_Schema.
From Coq Require Import Relations.

(** ** C28 *)

(** In a schema without inheritance cycles, whatever [must]s (or [may]s) have been asked for
    before, every answer is exactly the attributes of the class and of all its ancestors. *)
Theorem C28_inherited_from_all_superclasses lower isdigit g classes own fuel is :
  acyclic lower isdigit g classes -> resolvable lower isdigit g classes ->
  List.length classes < fuel -> Forall (fun i => i < List.length classes) is ->
  Forall2 (fun i r => exists l, r = Ok l /\ forall a, In a l <-> inherits lower isdigit g classes own i a)
    is (fst (accesses lower isdigit g classes fuel (map (fun c => (own c, false)) classes) is)).
Proof.
  intros [rank Hr] Hres Hf Hi.
  pose proof (accesses_ok lower isdigit g classes own rank fuel Hr Hres is _ (fresh_ok lower isdigit g classes own) Hi) as H.
  destruct (accesses lower isdigit g classes fuel (map (fun c => (own c, false)) classes) is) as [rs m'].
  apply H. eapply Nat.le_lt_trans; [apply pending_le|]. now rewrite map_length.
Qed.

(** Asking again gives the very same list, and asking for other classes in between does not
    change what it contains. *)
Theorem C28_same_answer_again lower isdigit g classes own fuel is i :
  acyclic lower isdigit g classes -> resolvable lower isdigit g classes ->
  List.length classes < fuel -> Forall (fun i => i < List.length classes) is -> i < List.length classes ->
  let m := snd (accesses lower isdigit g classes fuel (map (fun c => (own c, false)) classes) is) in
  let (r1, m1) := inherited lower isdigit g classes fuel m i in
  inherited lower isdigit g classes fuel m1 i = (r1, m1).
Proof.
  intros [rank Hr] Hres Hf His Hi.
  pose proof (accesses_ok lower isdigit g classes own rank fuel Hr Hres is _ (fresh_ok lower isdigit g classes own) His) as H.
  destruct (accesses lower isdigit g classes fuel (map (fun c => (own c, false)) classes) is) as [rs m]. cbn [snd].
  assert (Hp0 : pending (map (fun c => (own c, false)) classes) < fuel)
    by (eapply Nat.le_lt_trans; [apply pending_le|]; now rewrite map_length).
  destruct (H Hp0) as (_ & Hm & Hp).
  destruct (inherited_memo_ok lower isdigit g classes own rank Hr Hres fuel m i Hm Hi) as (l & m1 & E & _ & _ & _ & E2 & _); [lia|].
  rewrite E. destruct fuel as [|fuel]; [lia|]. cbn [inherited]. now rewrite E2.
Qed.

(** Even with cyclic superclasses an access ends within as many nested calls as there are
    classes whose lists have not been computed. *)
Theorem C28_always_ends lower isdigit g classes m fuel i :
  List.length m < fuel -> fst (inherited lower isdigit g classes fuel m i) <> Raise RecursionError.
Proof. intros H. apply inherited_ends. eapply Nat.le_lt_trans; [apply pending_le|auto]. Qed.

(** A toy alphabet for examples: lower case only; digits are 0-9 *)
Definition ex_lower (s : str) : str := map (fun c => if ((65 <=? c) && (c <=? 90))%N then (c + 32)%N else c) s.
Definition ex_digit (c : N) : bool := ((48 <=? c) && (c <=? 57))%N.

Definition ex_classes : list oclass :=
  [ mk_oclass [] [lit "objectClass"] [];
    mk_oclass [lit "top"] [lit "cn"; lit "sn"] [lit "mail"];
    mk_oclass [lit "2.5.6.6"; lit "Top"] [] [lit "uid"] ].
Definition ex_registry : registry :=
  mk_registry [(lit "2.5.6.0", 0); (lit "2.5.6.6", 1); (lit "2.16.840", 2)]
              [(lit "top", 0); (lit "person", 1); (lit "inetorgperson", 2)].

Lemma ex_superclass i j : superclass ex_lower ex_digit ex_registry ex_classes i j -> j < i.
Proof.
  intros (c & s & Hc & Hs & Hd). apply lookup_Some in Hd.
  destruct i as [|[|[|i]]]; cbn in Hc; [| | |destruct i; discriminate]; injection Hc as <-; cbn in Hs.
  - contradiction.
  - destruct Hs as [<-|[]]. vm_compute in Hd. injection Hd as <-. lia.
  - destruct Hs as [<-|[<-|[]]]; vm_compute in Hd; injection Hd as <-; lia.
Qed.
Lemma ex_resolvable : resolvable ex_lower ex_digit ex_registry ex_classes.
Proof.
  intros i c s Hc Hs. left.
  destruct i as [|[|[|i]]]; cbn in Hc; [| | |destruct i; discriminate]; injection Hc as <-; cbn in Hs.
  - contradiction.
  - destruct Hs as [<-|[]]. exists 0. split; [apply lookup_Some; reflexivity|cbn; lia].
  - destruct Hs as [<-|[<-|[]]]; [exists 1|exists 0]; (split; [apply lookup_Some; reflexivity|cbn; lia]).
Qed.

Example C28_nonvacuous :
  acyclic ex_lower ex_digit ex_registry ex_classes /\ resolvable ex_lower ex_digit ex_registry ex_classes /\
  fst (accesses ex_lower ex_digit ex_registry ex_classes 4 (map (fun c => (oc_must c, false)) ex_classes) [2; 1; 2]) =
  [Ok [lit "cn"; lit "sn"; lit "objectClass"; lit "objectClass"]; Ok [lit "cn"; lit "sn"; lit "objectClass"];
   Ok [lit "cn"; lit "sn"; lit "objectClass"; lit "objectClass"]].
Proof. split; [exists (fun n => n); apply ex_superclass|split; [apply ex_resolvable|reflexivity]]. Qed.

(** Beyond that: a superclass registered after the first access is never taken into account. *)
Theorem C28_refuted_late_registration :
  exists lower isdigit g1 g2 classes fuel a,
    List.length classes < fuel /\ acyclic lower isdigit g2 classes /\ resolvable lower isdigit g2 classes /\
    (forall n i, denotes lower isdigit g1 n i -> denotes lower isdigit g2 n i) /\
    inherits lower isdigit g2 classes oc_must 1 a /\
    let m1 := snd (inherited lower isdigit g1 classes fuel (fresh_must classes) 1) in
    exists l, fst (inherited lower isdigit g2 classes fuel m1 1) = Ok l /\ ~ In a l.
Proof.
  set (cl := [mk_oclass [] [lit "cn"] []; mk_oclass [lit "base"] [] []]).
  set (g2 := mk_registry [] [(lit "base", 0); (lit "sub", 1)]).
  assert (Hsup : forall i j, superclass ex_lower ex_digit g2 cl i j -> j < i).
  { intros i j (c & s & Hc & Hs & Hd). apply lookup_Some in Hd.
    destruct i as [|[|i]]; cbn in Hc; [| |destruct i; discriminate]; injection Hc as <-; cbn in Hs.
    - contradiction.
    - destruct Hs as [<-|[]]. vm_compute in Hd. injection Hd as <-. lia. }
  exists ex_lower, ex_digit, (mk_registry [] [(lit "sub", 1)]), g2, cl, 3, (lit "cn").
  split; [cbn; lia|]. split; [exists (fun n => n); auto|]. split.
  - intros i c s Hc Hs. left.
    destruct i as [|[|i]]; cbn in Hc; [| |destruct i; discriminate]; injection Hc as <-; cbn in Hs; [contradiction|].
    destruct Hs as [<-|[]]. exists 0. split; [apply lookup_Some; reflexivity|cbn; lia].
  - split; [|split].
    + intros n i (c & r & -> & H). exists c, r. split; auto. destruct (ex_digit c); [discriminate|].
      cbn [g_names dget] in *. unfold g2. cbn [g_names dget].
      destruct (str_eqb_spec (lit "base") (ex_lower (c :: r))) as [E|_]; [|exact H].
      rewrite <- E in H. discriminate.
    + exists 0, (mk_oclass [] [lit "cn"] []). split; [|split]; [|reflexivity|now left].
      apply rt_step. exists (mk_oclass [lit "base"] [] []), (lit "base"). split; [reflexivity|]. split; [now left|].
      apply lookup_Some. reflexivity.
    + exists []. split; [reflexivity|auto].
Qed.

(** An unregistered superclass OID makes the first access raise KeyError; later accesses
    silently return an incomplete list. *)
Theorem C28_refuted_unknown_oid :
  exists lower isdigit g classes fuel,
    List.length classes < fuel /\
    let (r1, m1) := inherited lower isdigit g classes fuel (fresh_must classes) 1 in
    r1 = Raise KeyError /\ exists l, fst (inherited lower isdigit g classes fuel m1 1) = Ok l /\
      exists a, inherits lower isdigit g classes oc_must 1 a /\ ~ In a l.
Proof.
  exists ex_lower, ex_digit, (mk_registry [] [(lit "base", 0); (lit "sub", 1)]),
    [mk_oclass [] [lit "cn"] []; mk_oclass [lit "9.9"; lit "base"] [] []], 3.
  split; [cbn; lia|]. cbn. split; auto. exists []. split; auto. exists (lit "cn"). split; auto.
  exists 0, (mk_oclass [] [lit "cn"] []). split; [|split]; [|reflexivity|now left].
  apply rt_step. exists (mk_oclass [lit "9.9"; lit "base"] [] []), (lit "base"). split; [reflexivity|]. split; [right; now left|].
  apply lookup_Some. reflexivity.
Qed.

(** With a superclass cycle the answer can be incomplete, depending on who asked first. *)
Theorem C28_refuted_cycle :
  exists lower isdigit g classes fuel l1 l2 a,
    List.length classes < fuel /\ resolvable lower isdigit g classes /\
    fst (accesses lower isdigit g classes fuel (fresh_may classes) [0; 1]) = [Ok l1; Ok l2] /\
    inherits lower isdigit g classes oc_may 1 a /\ ~ In a l2.
Proof.
  set (g := mk_registry [] [(lit "a", 0); (lit "b", 1); (lit "c", 2)]).
  set (cl := [mk_oclass [lit "b"; lit "c"] [] []; mk_oclass [lit "a"] [] []; mk_oclass [] [] [lit "x"]]).
  exists ex_lower, ex_digit, g, cl, 4, [lit "x"], [], (lit "x").
  split; [cbn; lia|]. split; [|split; [reflexivity|split; [|auto]]].
  - intros i c s Hc Hs. left.
    destruct i as [|[|[|i]]]; cbn in Hc; [| | |destruct i; discriminate]; injection Hc as <-; cbn in Hs.
    + destruct Hs as [<-|[<-|[]]]; [exists 1|exists 2]; (split; [apply lookup_Some; reflexivity|cbn; lia]).
    + destruct Hs as [<-|[]]. exists 0. split; [apply lookup_Some; reflexivity|cbn; lia].
    + contradiction.
  - exists 2, (mk_oclass [] [] [lit "x"]). split; [|split]; [|reflexivity|now left].
    eapply rt_trans; apply rt_step.
    + exists (mk_oclass [lit "a"] [] []), (lit "a"). split; [reflexivity|]. split; [now left|]. apply lookup_Some; reflexivity.
    + exists (mk_oclass [lit "b"; lit "c"] [] []), (lit "c"). split; [reflexivity|]. split; [right; now left|]. apply lookup_Some; reflexivity.
Qed.

(** ** C29 *)

(** A feature of an attribute type is what the type states, else what the nearest supertype
    states, else the default - at any depth - and nothing else. *)
Theorem C29_nearest_supertype lower isdigit g types rank fuel t f v :
  types_ranked lower isdigit g types rank -> In t types -> rank t < fuel ->
  (getfield lower isdigit g types fuel t f = Ok v <-> feature lower isdigit g types f t v).
Proof.
  intros Hr Hin Hf. split; [apply getfield_sound|]. intros H. eapply getfield_complete; eauto.
Qed.

(** If all supertypes are registered every feature has exactly one value. *)
Theorem C29_always_defined lower isdigit g types rank fuel t f :
  types_ranked lower isdigit g types rank -> supertypes_registered lower isdigit g types ->
  In t types -> rank t < fuel ->
  exists v, getfield lower isdigit g types fuel t f = Ok v /\ forall w, feature lower isdigit g types f t w -> w = v.
Proof.
  intros Hr Hreg Hin Hf. destruct (feature_total lower isdigit g types rank f Hr Hreg _ t Hf Hin) as [v Hv].
  exists v. split; [eapply getfield_complete; eauto|]. intros w Hw. symmetry. eapply feature_fun; eauto.
Qed.

(** What is stated by the type itself always wins, whatever the supertypes say. *)
Theorem C29_own_wins lower isdigit g types fuel t f v :
  0 < fuel -> at_own t f = Some v -> getfield lower isdigit g types fuel t f = Ok v.
Proof. intros Hf H. destruct fuel; [lia|]. cbn [getfield]. unfold instance_attr. now rewrite H. Qed.

Definition ex_own (l : list (field * fval)) (f : field) : option fval :=
  option_map snd (find (fun kv => match fst kv, f with
    | FEquality, FEquality | FSyntax, FSyntax | FLength, FLength | FObsolete, FObsolete | FSingle, FSingle
    | FCollective, FCollective | FNoUserMod, FNoUserMod | FUsage, FUsage => true | _, _ => false end) l).
Definition ex_types : list atype :=
  [ mk_atype None (ex_own [(FEquality, VOid (Some (lit "caseIgnoreMatch"))); (FSyntax, VOid (Some (lit "1.1"))); (FLength, VNum 5)]);
    mk_atype (Some (lit "name")) (ex_own []);
    mk_atype (Some (lit "CN")) (ex_own [(FSingle, VFlag true)]);
    mk_atype None (ex_own [(FSyntax, VOid (Some (lit "1.1"))); (FLength, VNum (-1)); (FNoUserMod, VFlag true)]) ].
Definition ex_tregistry : registry :=
  mk_registry [] [(lit "name", 0); (lit "cn", 1); (lit "c", 2); (lit "createtimestamp", 3)].
Definition ex_trank (t : atype) : nat :=
  match at_super t with None => 0 | Some s => if str_eqb s (lit "name") then 1 else 2 end.


Lemma ex_types_ranked : types_ranked ex_lower ex_digit ex_tregistry ex_types ex_trank.
Proof.
  intros t s j t' Hin Hs Hd Ht. apply lookup_Some in Hd.
  cbn in Hin. destruct Hin as [<-|[<-|[<-|[<-|[]]]]]; cbn in Hs; try discriminate; injection Hs as <-;
    vm_compute in Hd; injection Hd as <-; injection Ht as <-; vm_compute; lia.
Qed.
Lemma ex_registered : supertypes_registered ex_lower ex_digit ex_tregistry ex_types.
Proof.
  intros t s Hin Hs. cbn in Hin. destruct Hin as [<-|[<-|[<-|[<-|[]]]]]; cbn in Hs; try discriminate; injection Hs as <-.
  - exists 0. eexists. split; [apply lookup_Some; reflexivity|reflexivity].
  - exists 1. eexists. split; [apply lookup_Some; reflexivity|reflexivity].
Qed.
Lemma ex_well_typed t : In t ex_types -> well_typed t.
Proof.
  intros Hin. cbn in Hin. destruct Hin as [<-|[<-|[<-|[<-|[]]]]]; unfold well_typed; cbn; (split; [|split]);
    repeat first [intros [= <-]; (eexists; split; [reflexivity|first [lia|discriminate]]) | discriminate
                 | intros f v [->|[->|[->| ->]]]; cbn; congruence | intros v].
Qed.

Example C29_nonvacuous :
  types_ranked ex_lower ex_digit ex_tregistry ex_types ex_trank /\
  supertypes_registered ex_lower ex_digit ex_tregistry ex_types /\
  map (fun f => getfield ex_lower ex_digit ex_tregistry ex_types 3 (nth 2 ex_types (mk_atype None (fun _ => None))) f)
    [FSingle; FLength; FEquality; FCollective] =
  [Ok (VFlag true); Ok (VNum 5); Ok (VOid (Some (lit "caseIgnoreMatch"))); Ok (VFlag false)].
Proof. split; [apply ex_types_ranked|split; [apply ex_registered|reflexivity]]. Qed.

(** A supertype nobody registered: the type has no equality rule, syntax or length at all -
    not the defaults, but AttributeError. *)
Theorem C29_refuted_unregistered_supertype :
  exists lower isdigit g types t, In t types /\
    forall fuel, 0 < fuel ->
      getfield lower isdigit g types fuel t FSingle = Ok (VFlag false) /\
      getfield lower isdigit g types fuel t FSyntax = Raise AttributeError /\
      getfield lower isdigit g types fuel t FLength = Raise AttributeError.
Proof.
  exists ex_lower, ex_digit, no_elements, [mk_atype (Some (lit "name")) (fun _ => None)], (mk_atype (Some (lit "name")) (fun _ => None)).
  split; [now left|]. intros [|fuel] H; [lia|]. auto.
Qed.

(** A supertype cycle exhausts the stack. *)
Theorem C29_refuted_cycle :
  exists lower isdigit g types t, In t types /\ forall fuel f, getfield lower isdigit g types fuel t f = Raise RecursionError.
Proof.
  exists ex_lower, ex_digit, (mk_registry [] [(lit "a", 0)]), [mk_atype (Some (lit "a")) (fun _ => None)], (mk_atype (Some (lit "a")) (fun _ => None)).
  split; [now left|]. induction fuel as [|fuel IH]; intros f; auto. cbn. apply IH.
Qed.

(** ** C30 *)

(** Values of a registered attribute are accepted iff there is at most one for a SINGLE-VALUE
    type, the type may be modified by users (when writing), and each obeys the length limit
    and the syntax (own or inherited). *)
Theorem C30_attribute_partial lower isdigit g types syntax_rule rank fuel name i t values write :
  types_ranked lower isdigit g types rank -> supertypes_registered lower isdigit g types ->
  (forall t, In t types -> well_typed t) ->
  denotes lower isdigit g name i -> nth_error types i = Some t -> rank t < fuel ->
  (validate_attribute lower isdigit g types syntax_rule fuel name values write = Ok tt <->
   valid_attribute lower isdigit g types syntax_rule t values write).
Proof. intros. eapply validate_attribute_iff; eauto. Qed.

(** What a rejected value raises: InvalidSyntaxError if too long, else whatever its syntax
    rule raises; KeyError/LDAPSchemaError only if the schema itself lacks the syntax. *)
Theorem C30_value_errors lower isdigit g types syntax_rule rank fuel t v e :
  types_ranked lower isdigit g types rank -> supertypes_registered lower isdigit g types ->
  (forall t, In t types -> well_typed t) -> In t types -> rank t < fuel ->
  type_validate lower isdigit g types syntax_rule fuel t v = Raise e ->
  (exists n, feature lower isdigit g types FLength t (VNum n) /\ (0 <= n < Z.of_nat (List.length v))%Z /\ e = InvalidSyntaxError) \/
  (exists o rule, feature lower isdigit g types FSyntax t (VOid (Some o)) /\ syntax_rule o = Some rule /\ rule v = Raise e) \/
  (exists o, feature lower isdigit g types FSyntax t (VOid (Some o)) /\ syntax_rule o = None /\ e = KeyError) \/
  (feature lower isdigit g types FSyntax t (VOid None) /\ e = LDAPSchemaError).
Proof. intros Hr Hreg Hw Hin Hf. apply (type_validate_error lower isdigit g types syntax_rule rank); auto. Qed.

(** A modification is accepted iff every change that names values is valid for its
    (registered) attribute; changes without values are not looked at. *)
Theorem C30_modify_partial lower isdigit g types syntax_rule rank fuel mods :
  types_ranked lower isdigit g types rank -> supertypes_registered lower isdigit g types ->
  (forall t, In t types -> well_typed t) ->
  (forall t, In t types -> rank t < fuel) ->
  (forall a vs, In (a, vs) mods -> vs <> [] -> exists i t, denotes lower isdigit g a i /\ nth_error types i = Some t) ->
  (validate_modify lower isdigit g types syntax_rule fuel mods = Ok tt <->
   forall a vs i t, In (a, vs) mods -> vs <> [] -> denotes lower isdigit g a i -> nth_error types i = Some t ->
     valid_attribute lower isdigit g types syntax_rule t vs true).
Proof.
  intros Hr Hreg Hw Hf. induction mods as [|[a vs] mods IH]; intros Hk; cbn [validate_modify].
  - split; [intros _ a vs i t []|auto].
  - assert (IH' := IH (fun a' vs' H => Hk a' vs' (or_intror H))). clear IH.
    destruct vs as [|v vs].
    + cbn [bind]. rewrite IH'. split.
      * intros H a' vs' i t [E|Hin]; [injection E as <- <-; contradiction|eauto].
      * intros H a' vs' i t Hin. apply H. now right.
    + destruct (Hk a (v :: vs) (or_introl eq_refl) ltac:(discriminate)) as (i & t & Hd & Ht).
      pose proof (validate_attribute_iff lower isdigit g types syntax_rule rank Hr Hw fuel a i t (v :: vs) true Hd Ht
                    (Hf t (nth_error_In _ _ Ht)) Hreg) as Hv.
      unfold bind. split.
      * destruct (validate_attribute lower isdigit g types syntax_rule fuel a (v :: vs) true) as [[]|e] eqn:E; [|discriminate].
        intros H a' vs' i' t' [Eq|Hin] Hne Hd' Ht'.
        -- injection Eq as <- <-. assert (i' = i) by (eapply denotes_fun; eauto). subst i'.
           replace t' with t by congruence. now apply Hv.
        -- revert a' vs' i' t' Hin Hne Hd' Ht'. now apply IH'.
      * intros H. rewrite (proj2 Hv). 2:{ eapply H; eauto; [now left|discriminate]. }
        apply IH'. intros a' vs' i' t' Hin. apply H. now right.
Qed.

Definition ex_rule (o : str) : option (str -> res unit) :=
  if str_eqb o (lit "1.1") then Some (fun v => match v with [] => Raise InvalidSyntaxError | _ => Ok tt end) else None.

Example C30_nonvacuous :
  (forall t, In t ex_types -> ex_trank t < 3) /\
  map (fun vs => validate_attribute ex_lower ex_digit ex_tregistry ex_types ex_rule 3 (lit "C") vs true)
    [[lit "US"]; [lit "US"; lit "DE"]; [lit "toolong"]; [[]]] =
  [Ok tt; Raise LDAPValidationError; Raise InvalidSyntaxError; Raise InvalidSyntaxError] /\
  validate_attribute ex_lower ex_digit ex_tregistry ex_types ex_rule 3 (lit "createTimestamp") [lit "x"] true = Raise LDAPValidationError /\
  validate_attribute ex_lower ex_digit ex_tregistry ex_types ex_rule 3 (lit "createTimestamp") [lit "x"] false = Ok tt.
Proof.
  split; [|split; [reflexivity|split; reflexivity]].
  intros t Hin. cbn in Hin. destruct Hin as [<-|[<-|[<-|[<-|[]]]]]; vm_compute; lia.
Qed.

(** Deleting all values of a NO-USER-MODIFICATION attribute is accepted. *)
Theorem C30_refuted_delete_all :
  exists lower isdigit g types syntax_rule name i t,
    denotes lower isdigit g name i /\ nth_error types i = Some t /\
    feature lower isdigit g types FNoUserMod t (VFlag true) /\
    forall fuel, validate_modify lower isdigit g types syntax_rule fuel [(name, [])] = Ok tt.
Proof.
  exists ex_lower, ex_digit, ex_tregistry, ex_types, ex_rule, (lit "createTimestamp"), 3. eexists.
  split; [apply lookup_Some; reflexivity|]. split; [reflexivity|]. split; [now apply feature_own|reflexivity].
Qed.

(** A change to an attribute without a registered type stops the checks: the schema validator
    raises AttributeError, the connection takes that to mean that the validator has no such
    method, and invalid changes after it are accepted. *)
Theorem C30_refuted_undefined_attribute :
  exists lower isdigit g types syntax_rule fuel m1 m2,
    validate_modify lower isdigit g types syntax_rule fuel [m2] = Raise LDAPValidationError /\
    validate_modify lower isdigit g types syntax_rule fuel [m1] = Raise AttributeError /\
    run_validation [fun _ => validate_modify lower isdigit g types syntax_rule fuel [m2]] = Raise LDAPValidationError /\
    run_validation [fun _ => validate_modify lower isdigit g types syntax_rule fuel [m1; m2]] = Ok tt.
Proof.
  exists ex_lower, ex_digit, ex_tregistry, ex_types, ex_rule, 3, (lit "undefined", [lit "x"]), (lit "createTimestamp", [lit "x"]).
  repeat split.
Qed.

(** ** C27 *)

(** An object with objectClass values that name classes (unknown names are allowed, unknown
    OIDs are not), whatever lists have been computed before: it is accepted iff it has every
    attribute required by its classes and their ancestors, only attributes some of them
    require or allow, and only valid values; what does not fit the classes raises
    LDAPValidationError.  Attribute names are compared exactly. *)
Theorem C27_validate_object_partial lower isdigit gc classes gt types syntax_rule rank fuel is1 is2 obj write ocs :
  acyclic lower isdigit gc classes -> resolvable lower isdigit gc classes -> List.length classes < fuel ->
  Forall (fun i => i < List.length classes) is1 -> Forall (fun i => i < List.length classes) is2 ->
  types_ranked lower isdigit gt types rank -> supertypes_registered lower isdigit gt types ->
  (forall t, In t types -> well_typed t) -> (forall t, In t types -> rank t < fuel) ->
  NoDup (map fst obj) -> object_classes lower obj = Some ocs ->
  (forall n, In n ocs -> (exists i, denotes lower isdigit gc n i /\ i < List.length classes) \/ unknown_name lower isdigit gc n) ->
  (forall a, In a (map fst obj) -> exists i t, denotes lower isdigit gt a i /\ nth_error types i = Some t) ->
  let mm := (snd (accesses lower isdigit gc classes fuel (fresh_must classes) is1),
             snd (accesses lower isdigit gc classes fuel (fresh_may classes) is2)) in
  let r := fst (schema_validate_object lower isdigit gc classes fuel
                  (validate_attributes lower isdigit gt types syntax_rule fuel) mm obj write) in
  (r = Ok tt <->
     fits_classes lower isdigit gc classes ocs (map fst obj) /\
     forall a vs i t, In (a, vs) obj -> denotes lower isdigit gt a i -> nth_error types i = Some t ->
       valid_attribute lower isdigit gt types syntax_rule t vs write) /\
  (~ fits_classes lower isdigit gc classes ocs (map fst obj) -> r = Raise LDAPValidationError).
Proof.
  intros [crank Hcr] Hres Hfc H1 H2 Hr Hreg Hw Hft Hnd Ho Hocs Hk mm.
  assert (Hpm : forall own, pending (map (fun c => (own c, false)) classes) < fuel)
    by (intros own; eapply Nat.le_lt_trans; [apply pending_le|]; now rewrite map_length).
  assert (Hmm : memos_ok lower isdigit gc classes mm).
  { split; cbn [fst snd mm].
    - pose proof (accesses_ok lower isdigit gc classes oc_must crank fuel Hcr Hres is1 _ (fresh_ok lower isdigit gc classes oc_must) H1 (Hpm oc_must)) as A.
      unfold fresh_must. destruct (accesses _ _ _ _ _ _ is1). apply A.
    - pose proof (accesses_ok lower isdigit gc classes oc_may crank fuel Hcr Hres is2 _ (fresh_ok lower isdigit gc classes oc_may) H2 (Hpm oc_may)) as A.
      unfold fresh_may. destruct (accesses _ _ _ _ _ _ is2). apply A. }
  pose proof (validate_object_spec lower isdigit gc classes crank Hcr Hres fuel
                (validate_attributes lower isdigit gt types syntax_rule fuel) mm obj write ocs Hfc Hmm Hnd Ho Hocs) as [_ V].
  assert (HA : forall o, (forall a, In a (map fst o) -> exists i t, denotes lower isdigit gt a i /\ nth_error types i = Some t) ->
     (validate_attributes lower isdigit gt types syntax_rule fuel o write = Ok tt <->
      forall a vs i t, In (a, vs) o -> denotes lower isdigit gt a i -> nth_error types i = Some t ->
       valid_attribute lower isdigit gt types syntax_rule t vs write)).
  { clear - Hr Hreg Hw Hft. induction o as [|[a vs] o IH]; intros Hk; cbn [validate_attributes].
    - split; [intros _ a vs i t []|auto].
    - specialize (IH (fun x H => Hk x (or_intror H))).
      destruct (Hk a (or_introl eq_refl)) as (i & t & Hd & Ht).
      pose proof (validate_attribute_iff lower isdigit gt types syntax_rule rank Hr Hw fuel a i t vs write Hd Ht
                    (Hft t (nth_error_In _ _ Ht)) Hreg) as Hv.
      unfold bind. split.
      + destruct (validate_attribute lower isdigit gt types syntax_rule fuel a vs write) as [[]|e] eqn:E; [|discriminate].
        intros H a' vs' i' t' [Eq|Hin] Hd' Ht'.
        * injection Eq as <- <-. assert (i' = i) by (eapply denotes_fun; eauto). subst i'.
          replace t' with t by congruence. now apply Hv.
        * revert a' vs' i' t' Hin Hd' Ht'. now apply IH.
      + intros H. rewrite (proj2 Hv). 2:{ eapply H; eauto. now left. }
        apply IH. intros a' vs' i' t' Hin. apply H. now right. }
  cbn zeta. destruct V as [[Hfit E]|[Hfit E]]; rewrite E.
  - split; [|contradiction]. rewrite HA by auto. tauto.
  - split; auto. split; [discriminate|]. intros [? _]. contradiction.
Qed.

(** Without objectClass an object is rejected. *)
Theorem C27_needs_objectclass lower isdigit g classes fuel attrs_ok mm obj write :
  (forall a vs, In (a, vs) obj -> lower a <> lower (lit "objectClass")) ->
  fst (schema_validate_object lower isdigit g classes fuel attrs_ok mm obj write) = Raise LDAPValidationError.
Proof.
  intros H. unfold schema_validate_object, object_classes.
  destruct (find _ obj) as [[a vs]|] eqn:E; [|reflexivity]. exfalso.
  apply find_some in E as [Hin E]. apply str_eqb_eq in E. eapply H; eauto.
Qed.

Definition ex_types2 : list atype :=
  map (fun _ => mk_atype None (ex_own [(FSyntax, VOid (Some (lit "1.1"))); (FLength, VNum (-1))])) (seq 0 5).
Definition ex_tregistry2 : registry :=
  mk_registry [] [(lit "objectclass", 0); (lit "cn", 1); (lit "sn", 2); (lit "mail", 3); (lit "uid", 4)].
Definition ex_validate (obj : list (str * list str)) : res unit :=
  fst (schema_validate_object ex_lower ex_digit ex_registry ex_classes 4
         (validate_attributes ex_lower ex_digit ex_tregistry2 ex_types2 ex_rule 4)
         (fresh_must ex_classes, fresh_may ex_classes) obj true).

Example C27_nonvacuous :
  types_ranked ex_lower ex_digit ex_tregistry2 ex_types2 (fun _ => 0) /\
  ex_validate [(lit "objectClass", [lit "inetOrgPerson"]); (lit "cn", [lit "a"]); (lit "sn", [lit "b"]); (lit "uid", [lit "c"])] = Ok tt /\
  ex_validate [(lit "objectClass", [lit "inetOrgPerson"]); (lit "cn", [lit "a"]); (lit "uid", [lit "c"])] = Raise LDAPValidationError /\
  ex_validate [(lit "objectClass", [lit "person"]); (lit "cn", [lit "a"]); (lit "sn", [lit "b"]); (lit "uid", [lit "c"])] = Raise LDAPValidationError /\
  ex_validate [(lit "objectClass", [lit "person"]); (lit "cn", [[]]); (lit "sn", [lit "b"])] = Raise InvalidSyntaxError.
Proof.
  split; [|repeat split]. intros t s j t' Hin Hs. apply in_map_iff in Hin as (x & <- & _). discriminate.
Qed.

(** Attribute names are case-insensitive in LDAP, but not here. *)
Theorem C27_refuted_case : exists obj obj',
  map snd obj = map snd obj' /\ map (fun kv => ex_lower (fst kv)) obj = map (fun kv => ex_lower (fst kv)) obj' /\
  ex_validate obj = Ok tt /\ ex_validate obj' = Raise LDAPValidationError.
Proof.
  exists [(lit "objectClass", [lit "person"]); (lit "cn", [lit "a"]); (lit "sn", [lit "b"])],
         [(lit "objectClass", [lit "person"]); (lit "CN", [lit "a"]); (lit "sn", [lit "b"])].
  repeat split.
Qed.

(** An unknown object class OID raises KeyError, not LDAPValidationError. *)
Theorem C27_refuted_unknown_oid : exists obj, ex_validate obj = Raise KeyError.
Proof. exists [(lit "objectClass", [lit "1.2.3"])]. reflexivity. Qed.

(** extensibleObject does not admit other attributes: base_schema.py:204-207 *)
Theorem C27_refuted_extensible_object :
  exists g classes obj,
    nth_error classes 1 = Some (mk_oclass [lit "top"] [] []) /\ denotes ex_lower ex_digit g (lit "extensibleObject") 1 /\
    In (lit "objectClass", [lit "extensibleObject"]) obj /\
    fst (schema_validate_object ex_lower ex_digit g classes 3
           (validate_attributes ex_lower ex_digit ex_tregistry2 ex_types2 ex_rule 4)
           (fresh_must classes, fresh_may classes) obj true) = Raise LDAPValidationError.
Proof.
  exists (mk_registry [] [(lit "top", 0); (lit "extensibleobject", 1)]),
    [mk_oclass [] [lit "objectClass"] []; mk_oclass [lit "top"] [] []],
    [(lit "objectClass", [lit "extensibleObject"]); (lit "cn", [lit "x"])].
  split; [reflexivity|]. split; [apply lookup_Some; reflexivity|]. split; [now left|reflexivity].
Qed.

(** An attribute without a registered type ends validation by the connection: later
    attributes go unchecked. *)
Theorem C27_refuted_undefined_attribute :
  exists classes g obj good_part bad,
    obj = good_part ++ [bad] /\
    (forall write, validate_attributes ex_lower ex_digit ex_tregistry ex_types ex_rule 4 [bad] write = Raise LDAPValidationError) /\
    run_validation [fun _ => fst (schema_validate_object ex_lower ex_digit g classes 3
           (validate_attributes ex_lower ex_digit ex_tregistry ex_types ex_rule 4)
           (fresh_must classes, fresh_may classes) obj true)] = Ok tt.
Proof.
  exists [mk_oclass [] [lit "objectClass"] [lit "c"]], (mk_registry [] [(lit "top", 0)]),
    [(lit "objectClass", [lit "top"]); (lit "c", [lit "US"; lit "DE"])], [(lit "objectClass", [lit "top"])], (lit "c", [lit "US"; lit "DE"]).
  split; [reflexivity|]. split; [intros []; reflexivity|reflexivity].
Qed.

(** ** C31 *)

(** Leaving a disable_validation block - normally or by an exception, whatever the code inside
    did to the list - leaves exactly the validators there were before; inside, exactly the
    validators of the named classes (all of them if none is named) are off. *)
Theorem C31_restored names body vs : snd (run (With names body) vs) = vs.
Proof.
  cbn [run]. pose proof (fun r => enter_exit names vs r) as H.
  destruct (ctx_enter (new_ctx names) vs) as [d vs1].
  destruct ((fix go (ps : list prog) (vs : list vld) :=
             match ps with
             | [] => ([], vs)
             | p :: rest => let (l1, v1) := run p vs in let (l2, v2) := go rest v1 in (l1 ++ l2, v2)
             end) body vs1) as [log vs2]. cbn [snd]. apply (H vs2).
Qed.

Theorem C31_exactly_named_off names vs v :
  In v (snd (ctx_enter (new_ctx names) vs)) <-> In v vs /\ names <> [] /\ ~ In (fst v) names.
Proof. pose proof (enter_exit names vs []) as H. destruct (ctx_enter (new_ctx names) vs) as [d vs1]. apply H. Qed.

(** In nested blocks a validator is active iff no enclosing block switches it off. *)
Fixpoint nest (blocks : list (list str)) (p : prog) : prog :=
  match blocks with [] => p | names :: rest => With names [nest rest p] end.
Theorem C31_nested blocks f : forall vs, exists active,
  fst (run (nest blocks (Act f)) vs) = [active] /\
  forall v, In v active <-> In v vs /\ Forall (fun names => names <> [] /\ ~ In (fst v) names) blocks.
Proof.
  induction blocks as [|names blocks IH]; intros vs; cbn [nest].
  - exists vs. split; [reflexivity|]. intros v. split; [auto|tauto].
  - cbn [run]. pose proof (enter_exit names vs []) as H. destruct (ctx_enter (new_ctx names) vs) as [d vs1]. destruct H as [_ H].
    destruct (IH vs1) as (active & E & A). destruct (run (nest blocks (Act f)) vs1) as [log vs2]. cbn [fst] in *.
    exists active. split; [now rewrite E, app_nil_r|]. intros v. rewrite A, H. split.
    + intros [[? ?] ?]. split; auto.
    + intros [? F]. inversion F; subst. auto.
Qed.

Example C31_nonvacuous :
  run (With [lit "A"] [Act (fun vs => vs ++ [(lit "C", 9)]); With [] [Act (fun _ => [])]]) [(lit "A", 0); (lit "B", 1); (lit "A", 2)]
  = ([[(lit "B", 1)]; []], [(lit "A", 0); (lit "B", 1); (lit "A", 2)]).
Proof. reflexivity. Qed.

(** Entering the same context object a second time does not restore the list: the validators
    of both rounds are put back. *)
Theorem C31_refuted_reuse : exists names vs,
  let (d1, inside1) := ctx_enter (new_ctx names) vs in
  let after1 := ctx_exit d1 inside1 in
  let (d2, inside2) := ctx_enter d1 after1 in
  after1 = vs /\ ctx_exit d2 inside2 <> vs.
Proof. exists [], [(lit "A", 0)]. cbn. split; [reflexivity|discriminate]. Qed.

(** ** C55: every validator has its say *)

(** A change passes validation iff every configured validator that has the method accepts it
    (AttributeError counts as "has no such method"); otherwise the error of the first one that
    refuses reaches the caller. *)
Theorem C55_all_validators_must_accept vs :
  run_validation vs = Ok tt <-> Forall (fun v => v tt = Ok tt \/ v tt = Raise AttributeError) vs.
Proof.
  induction vs as [|v vs IH]; cbn [run_validation]; [split; [constructor|reflexivity]|].
  rewrite Forall_cons_iff, <- IH. destruct (v tt) as [[]|[]] eqn:E; split; intros H;
    first [discriminate H|exact (Logic.conj (or_introl eq_refl) H)|exact (Logic.conj (or_intror eq_refl) H)|exact (proj2 H)|exfalso; destruct H as [H0 _]; destruct H0; discriminate].
Qed.
Theorem C55_first_refusal_is_raised vs e :
  run_validation vs = Raise e <->
  exists before v after, vs = before ++ v :: after /\ run_validation before = Ok tt /\ v tt = Raise e /\ e <> AttributeError.
Proof.
  induction vs as [|v vs IH]; cbn [run_validation].
  - split; [discriminate|]. intros (b & w & a & E & _). now destruct b.
  - assert (Skip : (v tt = Ok tt \/ v tt = Raise AttributeError) ->
      ((exists before w after, vs = before ++ w :: after /\ run_validation before = Ok tt /\ w tt = Raise e /\ e <> AttributeError) <->
       (exists before w after, v :: vs = before ++ w :: after /\ run_validation before = Ok tt /\ w tt = Raise e /\ e <> AttributeError))).
    { intros Hv. split.
      - intros (b & w & a & -> & Hb & Hw & Hn). exists (v :: b), w, a.
        split; [reflexivity|]. split; [|now split]. cbn [run_validation]. destruct Hv as [-> | ->]; exact Hb.
      - intros ([|v' b] & w & a & E & Hb & Hw & Hn).
        + injection E as -> ->. destruct Hv as [Hv|Hv]; rewrite Hv in Hw; [discriminate|congruence].
        + injection E as <- ->. exists b, w, a. split; [reflexivity|]. split; [|now split].
          cbn [run_validation] in Hb. destruct Hv as [Hv|Hv]; rewrite Hv in Hb; exact Hb. }
    assert (Stop : forall x, v tt = Raise x -> x <> AttributeError ->
      (Raise x = @Raise unit e <->
       (exists before w after, v :: vs = before ++ w :: after /\ run_validation before = Ok tt /\ w tt = Raise e /\ e <> AttributeError))).
    { intros x Hv Hx. split.
      - intros E. injection E as <-. exists [], v, vs. split; [reflexivity|]. split; [reflexivity|]. now split.
      - intros ([|v' b] & w & a & E & Hb & Hw & Hn).
        + injection E as -> ->. congruence.
        + injection E as <- ->. cbn [run_validation] in Hb. rewrite Hv in Hb. destruct x; congruence. }
    destruct (v tt) as [[]|x] eqn:E.
    + rewrite IH. apply Skip. now left.
    + destruct x; try (apply (Stop _ eq_refl); congruence). rewrite IH. apply Skip. now right.
Qed.
Example C55_nonvacuous :
  run_validation [fun _ => Ok tt; fun _ => Raise AttributeError; fun _ => Raise LDAPValidationError; fun _ => Raise KeyError]
    = Raise LDAPValidationError /\
  run_validation [fun _ => Ok tt; fun _ => Raise AttributeError] = Ok tt.
Proof. now split. Qed.

(** ** C53 *)

(** Registration succeeds iff the OID and all names are new and different up to case; then
    the OID and the names, in any case, stand for the new element and everything else stands
    for what it did before. *)
Theorem C53_registration_partial lower isdigit oid names i g :
  let (r, g') := register lower oid names i g in
  (r = Ok tt <-> dget (g_oids g) oid = None /\ NoDup (map lower names) /\ forall n, In n names -> dget (g_names g) (lower n) = None) /\
  (r <> Ok tt -> r = Raise LDAPSchemaError) /\
  (r = Ok tt -> forall n j, denotes lower isdigit g' n j <->
     denotes lower isdigit g n j \/
     (j = i /\ exists c rest, n = c :: rest /\ if isdigit c then n = oid else In (lower n) (map lower names))).
Proof.
  unfold register, dmem. destruct (dget (g_oids g) oid) as [j0|] eqn:Eo.
  - split; [|split]; [split; [discriminate|intros [? _]; discriminate]|auto|discriminate].
  - pose proof (register_names_spec lower names i (mk_registry (dset (g_oids g) oid i) (g_names g))) as H.
    destruct (register_names lower names i (mk_registry (dset (g_oids g) oid i) (g_names g))) as [r g'].
    cbn [g_oids g_names] in H. destruct H as (A & B & [(-> & Hnd & Hno & Hg)|(-> & Hbad)]).
    + split; [|split]; [tauto|congruence|]. intros _ n j. split.
      * intros (c & rest & -> & H). destruct (isdigit c) eqn:Ec.
        -- rewrite A, dget_dset in H. destruct (str_eqb_spec oid (c :: rest)) as [Heq|Hn].
           ++ right. injection H as <-. split; auto. exists c, rest. now rewrite Ec.
           ++ left. exists c, rest. now rewrite Ec.
        -- rewrite Hg in H. destruct (smem (lower (c :: rest)) (map lower names)) eqn:Em.
           ++ right. injection H as <-. split; auto. exists c, rest. rewrite Ec. split; auto. now apply smem_In.
           ++ left. exists c, rest. now rewrite Ec.
      * intros [(c & rest & -> & H)|(-> & c & rest & -> & H)]; exists c, rest; split; auto; destruct (isdigit c).
        -- rewrite A, dget_dset_neq; auto. congruence.
        -- apply B. exact H.
        -- rewrite A, <- H. apply dget_dset_eq.
        -- apply smem_In in H. now rewrite Hg, H.
    + split; [|split]; [|auto|discriminate]. split; [discriminate|]. intros (_ & H1 & H2). exfalso. apply Hbad. auto.
Qed.

(** Even a failing registration leaves everything registered before as it was. *)
Theorem C53_nothing_overwritten lower isdigit oid names i g n j :
  denotes lower isdigit g n j -> denotes lower isdigit (snd (register lower oid names i g)) n j.
Proof.
  unfold register, dmem. destruct (dget (g_oids g) oid) as [j0|] eqn:Eo; [auto|].
  pose proof (register_names_spec lower names i (mk_registry (dset (g_oids g) oid i) (g_names g))) as H.
  destruct (register_names lower names i (mk_registry (dset (g_oids g) oid i) (g_names g))) as [r g'].
  cbn [g_oids g_names snd] in *. destruct H as (A & B & _).
  intros (c & rest & -> & H). exists c, rest. split; auto. destruct (isdigit c); auto.
  rewrite A, dget_dset_neq; auto. congruence.
Qed.

Example C53_nonvacuous :
  fst (register ex_lower (lit "9.9") [lit "Foo"; lit "bar"] 7 ex_registry) = Ok tt /\
  denotes ex_lower ex_digit (snd (register ex_lower (lit "9.9") [lit "Foo"; lit "bar"] 7 ex_registry)) (lit "foo") 7 /\
  fst (register ex_lower (lit "9.9") [lit "TOP"] 7 ex_registry) = Raise LDAPSchemaError.
Proof. repeat split. apply lookup_Some. reflexivity. Qed.

(** A registration that fails over a name leaves the OID and earlier names registered. *)
Theorem C53_refuted_atomic : exists lower isdigit oid names i g n,
  fst (register lower oid names i g) = Raise LDAPSchemaError /\
  ~ denotes lower isdigit g n i /\ denotes lower isdigit (snd (register lower oid names i g)) n i.
Proof.
  exists ex_lower, ex_digit, (lit "9.9"), [lit "foo"; lit "top"], 7, ex_registry, (lit "foo").
  split; [reflexivity|]. split; [rewrite <- lookup_Some; discriminate|apply lookup_Some; reflexivity].
Qed.

Print Assumptions C27_validate_object_partial.
Print Assumptions C27_needs_objectclass.
Print Assumptions C27_refuted_case.
Print Assumptions C27_refuted_unknown_oid.
Print Assumptions C27_refuted_extensible_object.
Print Assumptions C27_refuted_undefined_attribute.
Print Assumptions C28_inherited_from_all_superclasses.
Print Assumptions C28_same_answer_again.
Print Assumptions C28_always_ends.
Print Assumptions C28_refuted_late_registration.
Print Assumptions C28_refuted_unknown_oid.
Print Assumptions C28_refuted_cycle.
Print Assumptions C29_nearest_supertype.
Print Assumptions C29_always_defined.
Print Assumptions C29_own_wins.
Print Assumptions C29_refuted_unregistered_supertype.
Print Assumptions C29_refuted_cycle.
Print Assumptions C30_attribute_partial.
Print Assumptions C30_value_errors.
Print Assumptions C30_modify_partial.
Print Assumptions C30_refuted_delete_all.
Print Assumptions C30_refuted_undefined_attribute.
Print Assumptions C31_restored.
Print Assumptions C31_exactly_named_off.
Print Assumptions C31_nested.
Print Assumptions C31_refuted_reuse.
Print Assumptions C53_registration_partial.
Print Assumptions C53_nothing_overwritten.
Print Assumptions C53_refuted_atomic.
Print Assumptions C55_all_validators_must_accept.
Print Assumptions C55_first_refusal_is_raised.
