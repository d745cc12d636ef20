(** * C82-C85: the shipped schema *)
From Verif Require Import PyBase Model_CIDict Model_Modify Model_Schema Model_Registration Model_Regex Model_Parse Model_Prep Model_Uri Model_Syntax
  Model_DescSyntax Model_Guide Model_StdText Model_Std Spec_Modify Spec_Schema Spec_Registration Spec_StdTable Spec_Std Proofs_Schema Proofs_Std
  Proofs_StdUse Proofs_StdAll Props_Modify Props_Schema Props_Registration Props_Prep.
From Coq Require Import Relations String.
#[local] Opaque base0 ng0 defs0 reg0 run0 cview tview types0 classes0 class_rows type_rows crank trank.

(** ** C82: it loads, and says what the rows say *)

(** Importing and requiring both modules succeeds, whatever str.lower and str.isdigit do beyond
    ASCII, whatever is registered already as far as reading the texts goes. *)
Theorem C82_loads lower reserved isdigit names1 names2 : python_text lower isdigit ->
  exists base ng, class_body isdigit names1 base_schema_text = Ok base /\ class_body isdigit names2 netgroups_text = Ok ng /\
    fst (Model_Registration.run lower reserved (load_both base ng) empty_world) = [Ok tt; Ok tt; Ok tt; Ok tt].
Proof.
  intros HP. exists base0, ng0. split; [exact (base_body lower isdigit names1 HP)|]. split; [exact (ng_body lower isdigit names2 HP)|].
  rewrite (run_same lower isdigit reserved HP). exact run0_ok.
Qed.
Print Assumptions C82_loads.

(** A name in any case or an OID yields exactly the class of its row; a name no row has yields the
    default class, an OID no row has is a KeyError. *)
Theorem C82_class_names lower reserved isdigit names1 names2 defs g n :
  python_text lower isdigit -> loaded lower reserved isdigit names1 names2 defs g ->
  (forall i, lookup lower isdigit (class_view g) n = Ok (Some i) <->
     exists r, nth_error class_rows i = Some r /\ called lower isdigit (c_oid r) (c_names r) n) /\
  (forall c rest, n = c :: rest -> (forall r, In r class_rows -> ~ called lower isdigit (c_oid r) (c_names r) n) ->
     lookup lower isdigit (class_view g) n = if isdigit c then Raise KeyError else Ok None).
Proof.
  intros HP HL. destruct (loaded_is _ _ _ _ _ _ _ HP HL) as [-> ->]. rewrite cview_eq. split.
  - intros i. rewrite lookup_Some. exact (class_denotes lower isdigit HP n i).
  - intros c rest -> H. destruct (lookup lower isdigit cview (c :: rest)) as [[i|]|e] eqn:E.
    + exfalso. apply lookup_Some in E. destruct (proj1 (class_denotes lower isdigit HP _ i) E) as (r & Hr & Hc).
      exact (H r (nth_error_In _ _ Hr) Hc).
    + cbn [lookup] in E. destruct (isdigit c); [|reflexivity]. destruct (dget (g_oids cview) (c :: rest)); discriminate E.
    + cbn [lookup] in E. destruct (isdigit c); [|discriminate E]. destruct (dget (g_oids cview) (c :: rest)); [discriminate E|].
      symmetry. exact E.
Qed.
Print Assumptions C82_class_names.
Theorem C82_type_names lower reserved isdigit names1 names2 defs g n :
  python_text lower isdigit -> loaded lower reserved isdigit names1 names2 defs g ->
  (forall i, lookup lower isdigit (type_view g) n = Ok (Some i) <->
     exists r, nth_error type_rows i = Some r /\ called lower isdigit (t_oid r) (t_names r) n) /\
  (forall c rest, n = c :: rest -> (forall r, In r type_rows -> ~ called lower isdigit (t_oid r) (t_names r) n) ->
     lookup lower isdigit (type_view g) n = if isdigit c then Raise KeyError else Ok None).
Proof.
  intros HP HL. destruct (loaded_is _ _ _ _ _ _ _ HP HL) as [-> ->]. rewrite tview_eq. split.
  - intros i. rewrite lookup_Some. exact (type_denotes lower isdigit HP n i).
  - intros c rest -> H. destruct (lookup lower isdigit tview (c :: rest)) as [[i|]|e] eqn:E.
    + exfalso. apply lookup_Some in E. destruct (proj1 (type_denotes lower isdigit HP _ i) E) as (r & Hr & Hc).
      exact (H r (nth_error_In _ _ Hr) Hc).
    + cbn [lookup] in E. destruct (isdigit c); [|reflexivity]. destruct (dget (g_oids tview) (c :: rest)); discriminate E.
    + cbn [lookup] in E. destruct (isdigit c); [|discriminate E]. destruct (dget (g_oids tview) (c :: rest)); [discriminate E|].
      symmetry. exact E.
Qed.
Print Assumptions C82_type_names.

(** must and may of every class contain exactly what the row lists, in every access of any
    sequence of accesses. *)
Lemma accesses_rows lower isdigit depth own rows_of is : python_text lower isdigit -> 30 <= depth -> classes is ->
  (forall i r a, nth_error class_rows i = Some r -> inherits lower isdigit cview classes0 own i a <-> lists (rows_of r) a) ->
  Forall2 (fun i res => exists l r, res = Ok l /\ nth_error class_rows i = Some r /\ forall a, In a l <-> lists (rows_of r) a)
    is (fst (accesses lower isdigit cview classes0 depth (map (fun c => (own c, false)) classes0) is)).
Proof.
  intros HP Hd His Hrows. unfold classes in His.
  assert (His' : Forall (fun i => i < List.length classes0) is).
  { eapply Forall_impl; [|exact His]. intros i Hi. rewrite (proj1 lengths). exact Hi. }
  pose proof (C28_inherited_from_all_superclasses lower isdigit cview classes0 own depth is (std_acyclic lower isdigit HP)
                (std_resolvable lower isdigit HP) (class_depth_all depth Hd) His') as F.
  revert F. generalize (fst (accesses lower isdigit cview classes0 depth (map (fun c => (own c, false)) classes0) is)).
  clear His'. induction His as [|i is Hi His IH]; intros rs F; inversion F; subst; constructor; [|apply IH; assumption].
  match goal with A : exists l, _ = Ok l /\ _ |- _ => destruct A as (l & -> & HA) end.
  destruct (nth_error class_rows i) as [r|] eqn:Er; [|exfalso; apply nth_error_None in Er; exact (Nat.lt_irrefl _ (Nat.lt_le_trans _ _ _ Hi Er))].
  exists l, r. split; [reflexivity|]. split; [reflexivity|]. intros a. rewrite HA. exact (Hrows i r a Er).
Qed.
Theorem C82_class_lists lower reserved isdigit names1 names2 defs g depth is :
  python_text lower isdigit -> loaded lower reserved isdigit names1 names2 defs g -> 30 <= depth -> classes is ->
  Forall2 (fun i res => exists l r, res = Ok l /\ nth_error class_rows i = Some r /\ forall a, In a l <-> lists (c_must r) a)
    is (fst (accesses lower isdigit (class_view g) (std_classes defs) depth (fresh_must (std_classes defs)) is)) /\
  Forall2 (fun i res => exists l r, res = Ok l /\ nth_error class_rows i = Some r /\ forall a, In a l <-> lists (c_may r) a)
    is (fst (accesses lower isdigit (class_view g) (std_classes defs) depth (fresh_may (std_classes defs)) is)).
Proof.
  intros HP HL Hd His. destruct (loaded_is _ _ _ _ _ _ _ HP HL) as [-> ->]. rewrite cview_eq, classes_eq. split.
  - exact (accesses_rows lower isdigit depth oc_must c_must is HP Hd His (fun i r a => must_rows lower isdigit i r a HP)).
  - exact (accesses_rows lower isdigit depth oc_may c_may is HP Hd His (fun i r a => may_rows lower isdigit i r a HP)).
Qed.
Print Assumptions C82_class_lists.

(** Syntax, length limit, equality rule and flags of every type are those of its row. *)
Theorem C82_type_features lower reserved isdigit names1 names2 defs g depth i r :
  python_text lower isdigit -> loaded lower reserved isdigit names1 names2 defs g -> 30 <= depth -> nth_error type_rows i = Some r ->
  exists t, nth_error (std_types defs) i = Some t /\
    let get := getfield lower isdigit (type_view g) (std_types defs) depth t in
    get FSyntax = Ok (VOid (Some (lit (t_syntax r)))) /\
    get FLength = Ok (VNum (match t_limit r with Some n => Z.of_N n | None => -1 end)) /\
    get FEquality = Ok (VOid (match t_equality r with Some s => Some (lit s) | None => None end)) /\
    get FSingle = Ok (VFlag (t_single r)) /\
    get FNoUserMod = Ok (VFlag (t_no_user_mod r)).
Proof.
  intros HP HL Hd Hr. destruct (loaded_is _ _ _ _ _ _ _ HP HL) as [-> ->]. rewrite tview_eq, types_eq. cbv zeta.
  destruct (row_features lower isdigit i r HP Hr) as (t & Ht & Hin & F). exists t. split; [exact Ht|].
  assert (G : forall f v, row_field r f = Some v -> getfield lower isdigit tview types0 depth t f = Ok v).
  { intros f v H. exact (proj2 (getfield_feature lower isdigit HP depth t f v Hin Hd) (F f v H)). }
  split; [exact (G FSyntax _ eq_refl)|]. split; [exact (G FLength _ eq_refl)|]. split; [exact (G FEquality _ eq_refl)|].
  split; [exact (G FSingle _ eq_refl)|exact (G FNoUserMod _ eq_refl)].
Qed.
Print Assumptions C82_type_features.

(** Nothing is left dangling: attributes of classes are registered types, syntaxes and equality
    rules of types are registered rules. *)
Theorem C82_mentions_resolve lower reserved isdigit names1 names2 defs g :
  python_text lower isdigit -> loaded lower reserved isdigit names1 names2 defs g ->
  (forall r a, In r class_rows -> lists (c_must r) a \/ lists (c_may r) a -> exists r', type_called lower isdigit r' a) /\
  (forall r depth order, In r type_rows -> exists f, text_rule depth order g defs (lit (t_syntax r)) = Some f /\
     forall v, f v = Ok tt <-> obeys depth order (t_syntax r) v) /\
  (forall r name depth order nfkc casefold, In r type_rows -> t_equality r = Some name ->
     (exists m, In (name, m) manners) /\ exists rule, matching_rule lower isdigit depth order nfkc casefold g defs (lit name) = Ok rule).
Proof.
  intros HP HL. destruct (loaded_is _ _ _ _ _ _ _ HP HL) as [-> ->]. split; [|split].
  - intros r a Hr Ha. destruct (mention_known lower isdigit r a HP Hr Ha) as [i Hi].
    destruct (proj1 (type_denotes lower isdigit HP a i) Hi) as (r' & Hr' & Hc). exists r'. exact (conj (nth_error_In _ _ Hr') Hc).
  - intros r depth order Hr. exact (row_rule depth order r Hr).
  - intros r name depth order nfkc casefold Hr En. destruct (row_manner r name Hr En) as [m Hm]. split; [exists m; exact Hm|].
    eexists. exact (matching_at lower isdigit HP depth order nfkc casefold name m Hm).
Qed.
Print Assumptions C82_mentions_resolve.

(** The equality rules are found by OID as well. *)
Theorem C82_rule_oids lower reserved isdigit names1 names2 defs g depth order nfkc casefold oid name :
  python_text lower isdigit -> loaded lower reserved isdigit names1 names2 defs g -> In (oid, name) rule_oids ->
  (exists rule, matching_rule lower isdigit depth order nfkc casefold g defs (lit name) = Ok rule) /\
  matching_rule lower isdigit depth order nfkc casefold g defs (lit oid) = matching_rule lower isdigit depth order nfkc casefold g defs (lit name).
Proof.
  intros HP HL H. destruct (loaded_is _ _ _ _ _ _ _ HP HL) as [-> ->].
  split; [|exact (matching_oid lower isdigit depth order nfkc casefold oid name HP H)].
  assert (C : forallb (fun x => existsb (fun nm => String.eqb (fst nm) (snd x)) manners) rule_oids = true) by (vm_compute; reflexivity).
  rewrite forallb_forall in C. specialize (C _ H). apply existsb_exists in C as ([n m] & Hin & E). cbn [fst snd] in E. apply String.eqb_eq in E. subst n.
  eexists. exact (matching_at lower isdigit HP depth order nfkc casefold name m Hin).
Qed.
Print Assumptions C82_rule_oids.

(** Whatever is defined and required afterwards, names and OIDs of the shipped schema keep their
    meaning. *)
Lemma dget_entries t k : forall g, dget (entries t g) k = match rget g t k with Some e => Some (e_id e) | None => None end.
Proof.
  unfold entries. induction g as [|[[t' k'] e] g IH]; [reflexivity|]. cbn [flat_map rget]. destruct (table_eqb t' t) eqn:Et.
  - cbn [List.app dget andb]. destruct (str_eqb k' k); [reflexivity|exact IH].
  - cbn [List.app andb]. exact IH.
Qed.
Lemma lookup_stays lower isdigit oids names g g' n i :
  (forall t k x, rget g t k = Some x -> rget g' t k = Some x) ->
  lookup lower isdigit (view oids names g) n = Ok (Some i) -> lookup lower isdigit (view oids names g') n = Ok (Some i).
Proof.
  intros H. unfold lookup, view. destruct n as [|c n]; [discriminate|]. cbn [g_oids g_names]. rewrite !dget_entries. destruct (isdigit c).
  - destruct (rget g oids (c :: n)) as [e|] eqn:E; [|discriminate]. now rewrite (H _ _ _ E).
  - destruct (rget g names (lower (c :: n))) as [e|] eqn:E; [|discriminate]. now rewrite (H _ _ _ E).
Qed.
Theorem C82_stays lower reserved isdigit base ng q n i :
  let g := w_reg (after lower reserved (load_both base ng)) in
  let g' := w_reg (after lower reserved (load_both base ng ++ q)) in
  (lookup lower isdigit (class_view g) n = Ok (Some i) -> lookup lower isdigit (class_view g') n = Ok (Some i)) /\
  (lookup lower isdigit (type_view g) n = Ok (Some i) -> lookup lower isdigit (type_view g') n = Ok (Some i)) /\
  (forall t k x, rget g t k = Some x -> rget g' t k = Some x).
Proof.
  cbv zeta. assert (H := C41_bindings_never_replaced lower reserved (load_both base ng) q).
  split; [|split; [|exact H]]; apply lookup_stays; exact H.
Qed.
Print Assumptions C82_stays.

(** ** C83: validation with the shipped schema *)

(** Whatever lists have been computed before: an object is accepted exactly if it has an objectClass
    attribute, the class OIDs among its values are known, it has every attribute its classes
    require and none but those they list (spelled as listed), and every value obeys length limit
    and syntax of its attribute. *)
Theorem C83_objects lower reserved isdigit names1 names2 defs g depth order is1 is2 obj write :
  python_text lower isdigit -> loaded lower reserved isdigit names1 names2 defs g -> 30 <= depth -> classes is1 -> classes is2 ->
  NoDup (map (fun kv => lower (fst kv)) obj) ->
  (fst (std_validate_object lower isdigit depth order g defs (asked lower isdigit depth g defs is1 is2) obj write) = Ok tt <->
   acceptable_object lower isdigit depth order obj write).
Proof.
  intros HP HL Hd H1 H2 Hn. destruct (loaded_is _ _ _ _ _ _ _ HP HL) as [-> ->]. unfold std_validate_object, asked.
  rewrite cview_eq, classes_eq, tview_eq, types_eq. unfold classes in H1, H2. rewrite <- (proj1 lengths) in H1, H2.
  exact (std_object lower isdigit HP depth order Hd _ obj write (memos_std lower isdigit HP depth Hd is1 is2 H1 H2) Hn).
Qed.
Print Assumptions C83_objects.

(** What does not fit its classes raises LDAPValidationError. *)
Theorem C83_misfits lower reserved isdigit names1 names2 defs g depth order is1 is2 obj write k ocs :
  python_text lower isdigit -> loaded lower reserved isdigit names1 names2 defs g -> 30 <= depth -> classes is1 -> classes is2 ->
  NoDup (map (fun kv => lower (fst kv)) obj) ->
  In (k, ocs) obj -> lower k = lower (lit "objectClass") -> named_classes lower isdigit ocs -> ~ fitting lower isdigit ocs (map fst obj) ->
  fst (std_validate_object lower isdigit depth order g defs (asked lower isdigit depth g defs is1 is2) obj write) = Raise LDAPValidationError.
Proof.
  intros HP HL Hd H1 H2 Hn. destruct (loaded_is _ _ _ _ _ _ _ HP HL) as [-> ->]. unfold std_validate_object, asked.
  rewrite cview_eq, classes_eq, tview_eq, types_eq. unfold classes in H1, H2. rewrite <- (proj1 lengths) in H1, H2.
  exact (std_misfit lower isdigit HP depth order Hd _ obj write k ocs (memos_std lower isdigit HP depth Hd is1 is2 H1 H2) Hn).
Qed.
Print Assumptions C83_misfits.

(** Modifications: every change that names values names a known attribute users may write, and
    gives it good values. *)
Theorem C83_modifications lower reserved isdigit names1 names2 defs g depth order mods :
  python_text lower isdigit -> loaded lower reserved isdigit names1 names2 defs g -> 30 <= depth ->
  (std_validate_modify lower isdigit depth order g defs mods = Ok tt <->
   forall a vs, In (a, vs) mods -> vs <> [] -> exists r, type_called lower isdigit r a /\ good_values depth order r vs true).
Proof.
  intros HP HL Hd. destruct (loaded_is _ _ _ _ _ _ _ HP HL) as [-> ->]. unfold std_validate_modify. rewrite tview_eq, types_eq.
  exact (std_modify lower isdigit HP depth order Hd mods).
Qed.
Print Assumptions C83_modifications.

(** Refuted: attribute names are case-insensitive and have synonyms.  An object with an attribute
    not spelled as some class lists it is never accepted, even if the name belongs to a listed
    attribute. *)
Theorem C83_refuted_spelling lower reserved isdigit names1 names2 defs g depth order is1 is2 obj write a :
  python_text lower isdigit -> loaded lower reserved isdigit names1 names2 defs g -> 30 <= depth -> classes is1 -> classes is2 ->
  NoDup (map (fun kv => lower (fst kv)) obj) ->
  (forall r, In r class_rows -> ~ lists (c_must r) a /\ ~ lists (c_may r) a) -> In a (map fst obj) ->
  fst (std_validate_object lower isdigit depth order g defs (asked lower isdigit depth g defs is1 is2) obj write) <> Ok tt.
Proof.
  intros HP HL Hd H1 H2 Hn Ha Hin E. apply (C83_objects lower reserved isdigit names1 names2 defs g depth order is1 is2 obj write HP HL Hd H1 H2 Hn) in E.
  destruct E as (k & ocs & _ & _ & _ & [_ F] & _). destruct (F a Hin) as (n & r & _ & [Hr _] & Hl). destruct (Ha r Hr) as [A B].
  destruct Hl as [Hl|Hl]; [exact (A Hl)|exact (B Hl)].
Qed.
Print Assumptions C83_refuted_spelling.

Definition unlisted (a : string) : bool :=
  forallb (fun r => negb (existsb (String.eqb a) (c_must r)) && negb (existsb (String.eqb a) (c_may r))) class_rows.
Lemma unlisted_ok a : unlisted a = true -> forall r, In r class_rows -> ~ lists (c_must r) (lit a) /\ ~ lists (c_may r) (lit a).
Proof.
  unfold unlisted. rewrite forallb_forall. intros H r Hr. specialize (H r Hr). apply andb_prop in H as [A B].
  assert (G : forall l, negb (existsb (String.eqb a) l) = true -> ~ lists l (lit a)).
  { intros l N (m & Hm & E). apply lit_inj in E. subst m. apply negb_true_iff in N.
    assert (T : existsb (String.eqb a) l = true) by (apply existsb_exists; exists a; split; [exact Hm|apply String.eqb_refl]). congruence. }
  split; apply G; assumption.
Qed.
(** ... among them the names under which x500UniqueIdentifier and dITContentRules are registered
    (the classes list them in other cases), and the operational attributes a server sends. *)
Definition never_listed : list string :=
  ["x500UniqueIdentifier"; "dITContentRules"; "creatorsName"; "createTimestamp"; "modifiersName"; "modifyTimestamp";
   "subschemaSubentry"; "structuralObjectClass"]%string.
Theorem C83_refuted_names : Forall (fun a => (forall r, In r class_rows -> ~ lists (c_must r) (lit a) /\ ~ lists (c_may r) (lit a)) /\
    exists r, In r type_rows /\ In a (t_names r)) never_listed.
Proof.
  assert (C : forallb (fun a => unlisted a && existsb (fun r => existsb (String.eqb a) (t_names r)) type_rows) never_listed = true)
    by (vm_compute; reflexivity).
  apply Forall_forall. rewrite forallb_forall in C. intros a Ha. specialize (C a Ha). apply andb_prop in C as [C1 C2].
  split; [exact (unlisted_ok a C1)|]. apply existsb_exists in C2 as (r & Hr & E). exists r. split; [exact Hr|].
  apply existsb_exists in E as (m & Hm & E). apply String.eqb_eq in E. now subst m.
Qed.
Print Assumptions C83_refuted_names.

(** The synonyms of RFC 4519 and 4524 are not registered at all. *)
Definition synonyms : list string :=
  ["commonName"; "surname"; "userid"; "rfc822Mailbox"; "localityName"; "organizationName"; "organizationalUnitName"; "countryName";
   "stateOrProvinceName"; "streetAddress"; "domainComponent"; "fax"; "gn"]%string.
Theorem C83_refuted_synonyms lower reserved isdigit names1 names2 defs g a vs depth order :
  python_text lower isdigit -> loaded lower reserved isdigit names1 names2 defs g -> 30 <= depth -> In a synonyms -> vs <> [] ->
  (forall r, ~ type_called lower isdigit r (lit a)) /\
  std_validate_modify lower isdigit depth order g defs [(lit a, vs)] <> Ok tt.
Proof.
  intros HP HL Hd Ha Hv.
  assert (N : forall r, ~ type_called lower isdigit r (lit a)).
  { intros r [Hr Hc].
    assert (C : forallb (fun a => asciib (lit a) && forallb (fun r => alpha_head (lit a) &&
                  negb (existsb (fun m => str_eqb (ascii_lower (lit a)) (ascii_lower (lit m))) (t_names r))) type_rows) synonyms = true)
      by (vm_compute; reflexivity).
    rewrite forallb_forall in C. specialize (C a Ha). apply andb_prop in C as [C0 C]. apply asciib_ok in C0.
    rewrite forallb_forall in C. specialize (C r Hr).
    destruct Hc as (c & rest & E1 & Hc). apply andb_prop in C as [C1 C2]. apply negb_true_iff in C2.
    pose proof C1 as C1'. rewrite E1 in C1'. cbn [alpha_head] in C1'. rewrite (isdigit_alpha lower isdigit c HP C1') in Hc.
    destruct Hc as (m & Hm & E2). rewrite (proj1 HP _ C0), (proj1 HP _ (type_name_ascii r m Hr Hm)) in E2.
    assert (T : existsb (fun m => str_eqb (ascii_lower (lit a)) (ascii_lower (lit m))) (t_names r) = true).
    { apply existsb_exists. exists m. split; [exact Hm|]. apply str_eqb_eq. exact E2. }
    rewrite T in C2. discriminate C2. }
  split; [exact N|]. intros E.
  pose proof (proj1 (C83_modifications lower reserved isdigit names1 names2 defs g depth order [(lit a, vs)] HP HL Hd) E) as M.
  destruct (M (lit a) vs (or_introl eq_refl) Hv) as (r & Hr & _). exact (N r Hr).
Qed.
Print Assumptions C83_refuted_synonyms.

(** Refuted: an extensibleObject may have any attribute.  Validation refuses every attribute but
    objectClass. *)
Theorem C83_refuted_extensible lower reserved isdigit names1 names2 defs g depth order is1 is2 obj write k ocs a :
  python_text lower isdigit -> loaded lower reserved isdigit names1 names2 defs g -> 30 <= depth -> classes is1 -> classes is2 ->
  NoDup (map (fun kv => lower (fst kv)) obj) ->
  In (k, ocs) obj -> lower k = lower (lit "objectClass") -> Forall (fun n => In n [lit "top"; lit "extensibleObject"]) ocs ->
  In a (map fst obj) -> a <> lit "objectClass" ->
  fst (std_validate_object lower isdigit depth order g defs (asked lower isdigit depth g defs is1 is2) obj write) = Raise LDAPValidationError.
Proof.
  intros HP HL Hd H1 H2 Hn Hk Hlow Hocs Ha Hne.
  assert (CN : forall n, In n [lit "top"; lit "extensibleObject"] -> alpha_head n = true /\ asciib n = true).
  { intros n [<-|[<-|[]]]; split; vm_compute; reflexivity. }
  apply (C83_misfits lower reserved isdigit names1 names2 defs g depth order is1 is2 obj write k ocs HP HL Hd H1 H2 Hn Hk Hlow).
  - intros n Hin. rewrite Forall_forall in Hocs. destruct (CN n (Hocs n Hin)) as [C _]. destruct n as [|c rest]; [discriminate C|].
    exists c, rest. split; [reflexivity|]. intros D. cbn [alpha_head] in C. rewrite (isdigit_alpha lower isdigit c HP C) in D. discriminate D.
  - intros [_ F]. destruct (F a Ha) as (n & r & Hin & [Hr Hc] & Hl). rewrite Forall_forall in Hocs. specialize (Hocs n Hin).
    destruct (CN n Hocs) as [C1 C2]. apply asciib_ok in C2. destruct Hc as (c & rest & E & Hc). rewrite E in C1. cbn [alpha_head] in C1.
    rewrite (isdigit_alpha lower isdigit c HP C1) in Hc. destruct Hc as (m & Hm & E2).
    assert (Am : is_ascii (lit m)) by (apply (class_name_ascii r m Hr); apply in_or_app; now left).
    rewrite (proj1 HP _ C2), (proj1 HP _ Am) in E2.
    assert (C : forallb (fun r => forallb (fun n => forallb (fun m => implb (str_eqb (ascii_lower n) (ascii_lower (lit m)))
              (forallb (String.eqb "objectClass") (c_must r ++ c_may r))) (c_names r)) [lit "top"; lit "extensibleObject"]) class_rows = true)
      by (vm_compute; reflexivity).
    rewrite forallb_forall in C. specialize (C r Hr). rewrite forallb_forall in C. specialize (C n Hocs). rewrite forallb_forall in C.
    specialize (C m Hm). rewrite (proj2 (str_eqb_eq _ _) E2) in C. cbn [implb] in C. rewrite forallb_forall in C.
    assert (T : exists x, In x (c_must r ++ c_may r)%list /\ a = lit x).
    { destruct Hl as [(x & Hx & ->)|(x & Hx & ->)]; exists x; (split; [apply in_or_app; auto|reflexivity]). }
    destruct T as (x & Hx & ->). specialize (C x Hx). apply String.eqb_eq in C. subst x. now apply Hne.
Qed.
Print Assumptions C83_refuted_extensible.

(** A concrete person, three objects *)
Definition std_ok (obj : list (str * list str)) (write : bool) : res unit :=
  fst (std_validate_object ascii_lower dig0 30 (fun s => s) reg0 defs0 (asked ascii_lower dig0 30 reg0 defs0 [] []) obj write).
Definition person : list (str * list str) :=
  [(lit "OBJECTCLASS", [lit "top"; lit "Person"]); (lit "cn", [lit "Bob"]); (lit "sn", [lit "X"; lit "Y"]); (lit "telephoneNumber", [lit "+1 512 315 0280"])].
Lemma std_loaded : loaded ascii_lower [] dig0 no_names no_names defs0 reg0.
Proof.
  exists base0, ng0. split; [exact (base_body ascii_lower dig0 no_names python_ascii)|].
  split; [exact (ng_body ascii_lower dig0 no_names python_ascii)|]. split; reflexivity.
Qed.
Example C83_nonvacuous :
  python_text ascii_lower dig0 /\ loaded ascii_lower [] dig0 no_names no_names defs0 reg0 /\
  std_ok [(lit "objectClass", [lit "top"; lit "Person"]); (lit "cn", [lit "Bob"]); (lit "sn", [lit "X"; lit "Y"])] true = Ok tt /\
  std_ok person true = Raise LDAPValidationError /\
  std_ok [(lit "objectClass", [lit "person"; lit "noSuchClass"]); (lit "cn", [lit "Bob"]); (lit "sn", [lit "X"])] true = Ok tt /\
  std_ok [(lit "objectClass", [lit "person"]); (lit "cn", [lit "Bob"])] true = Raise LDAPValidationError /\
  std_ok [(lit "objectClass", [lit "person"]); (lit "cn", [lit "Bob"]); (lit "sn", [[]])] true = Raise InvalidSyntaxError /\
  std_validate_modify ascii_lower dig0 30 (fun s => s) reg0 defs0 [(lit "SN", [lit "Z"]); (lit "c", [lit "US"])] = Ok tt /\
  std_validate_modify ascii_lower dig0 30 (fun s => s) reg0 defs0 [(lit "c", [lit "USA"])] = Raise InvalidSyntaxError /\
  std_validate_modify ascii_lower dig0 30 (fun s => s) reg0 defs0 [(lit "creatorsName", [lit "cn=a"])] = Raise LDAPValidationError.
Proof.
  split; [exact python_ascii|]. split; [exact std_loaded|]. split; [vm_compute; reflexivity|].
  split; [vm_compute; reflexivity|]. split; [vm_compute; reflexivity|]. split; [vm_compute; reflexivity|]. split; [vm_compute; reflexivity|].
  split; [vm_compute; reflexivity|]. split; [vm_compute; reflexivity|vm_compute; reflexivity].
Qed.

(** ** C84: values are compared by the equality rule of the attribute *)

(** Where the rule compares prepared values (case-exact, case-ignore, digits, or literally): the
    position found is that of the first value alike; the assertion must be valid, and it is an
    error if a value before it cannot be prepared. *)
Theorem C84_found lower reserved isdigit names1 names2 defs g depth order nfkc casefold r a m l v i :
  python_text lower isdigit -> loaded lower reserved isdigit names1 names2 defs g -> 30 <= depth ->
  type_called lower isdigit r a -> compared r m -> m <> Dn -> m <> Time ->
  (std_index lower isdigit depth order nfkc casefold g defs a l v = Ok i <->
   good_value depth order r v /\ first_at (fun x => alike nfkc casefold m x v) l i /\
   forall j y, j < i -> nth_error l j = Some y -> exists p, prepared nfkc casefold m y = Ok p).
Proof.
  intros HP HL Hd Hc Hm ND NT. destruct (loaded_is _ _ _ _ _ _ _ HP HL) as [-> ->].
  destruct (compared_index lower isdigit HP depth order nfkc casefold Hd r a m l v Hc Hm) as (valid & HV & ->).
  rewrite C04_index_finds_first_match. cbn [at_validate at_prepare at_do_match type_with_rule]. rewrite HV.
  assert (P : forall x, rule_prepare (mr_prep (rule_for depth order nfkc casefold reg0 defs0 m)) x = prepared nfkc casefold m x)
    by (intros x; destruct m; try reflexivity).
  assert (D : forall p q, mr_do_match (rule_for depth order nfkc casefold reg0 defs0 m) p q = Ok (str_eqb p q))
    by (intros p q; destruct m; try reflexivity; contradiction).
  split.
  - intros (Hg & p & Ep & (x & q & Hx & Eq & Em) & Hb). rewrite P in Ep, Eq. rewrite D in Em. apply Ok_inj, str_eqb_eq in Em. subst q.
    split; [exact Hg|]. split.
    + split; [exists x; split; [exact Hx|]; exists p; auto|]. intros j y Hj Hy (q & E1 & E2). destruct (Hb j y Hj Hy) as (q' & E3 & E4).
      rewrite P in E3. rewrite D in E4. apply Ok_inj in E4. rewrite Ep in E2. apply Ok_inj in E2. subst q. rewrite E1 in E3. apply Ok_inj in E3.
      subst q'. rewrite str_eqb_refl in E4. discriminate.
    + intros j y Hj Hy. destruct (Hb j y Hj Hy) as (q' & E3 & _). rewrite P in E3. now exists q'.
  - intros (Hg & ((x & Hx & p & E1 & E2) & Hf) & Hpre). split; [exact Hg|]. exists p. rewrite P. split; [exact E2|]. split.
    + exists x, p. rewrite P, D, str_eqb_refl. auto.
    + intros j y Hj Hy. destruct (Hpre j y Hj Hy) as (q & Eq). exists q. rewrite P, D. split; [exact Eq|].
      destruct (str_eqb_spec q p) as [->|N]; [|reflexivity]. exfalso. apply (Hf j y Hj Hy). exists p. auto.
Qed.
Print Assumptions C84_found.

(** Literally: exactly the list position, objectClass and the like included. *)
Theorem C84_literal lower reserved isdigit names1 names2 defs g depth order nfkc casefold r a l v :
  python_text lower isdigit -> loaded lower reserved isdigit names1 names2 defs g -> 30 <= depth ->
  type_called lower isdigit r a -> compared r Literally -> good_value depth order r v ->
  std_index lower isdigit depth order nfkc casefold g defs a l v = list_index l v.
Proof.
  intros HP HL Hd Hc Hm Hg. destruct (loaded_is _ _ _ _ _ _ _ HP HL) as [-> ->].
  destruct (compared_index lower isdigit HP depth order nfkc casefold Hd r a Literally l v Hc Hm) as (valid & HV & ->).
  unfold at_index, list_index. destruct l as [|x l]; [reflexivity|]. cbn [at_validate type_with_rule]. rewrite (proj2 (HV v) Hg). cbn [bind].
  cbn [at_prepare type_with_rule rule_for octetStringMatch eq_rule mr_prep rule_prepare fold_left bind].
  generalize (x :: l) 0. induction l0 as [|y l0 IH]; intros n; [reflexivity|]. cbn [index_loop list_index_from].
  cbn [at_prepare at_do_match type_with_rule rule_for octetStringMatch eq_rule mr_prep mr_do_match rule_prepare fold_left bind eq_do_match].
  destruct (str_eqb y v); [reflexivity|apply IH].
Qed.
Print Assumptions C84_literal.

(** An attribute name nobody registered: list.index. *)
Theorem C84_unregistered lower reserved isdigit names1 names2 defs g depth order nfkc casefold c rest l v :
  python_text lower isdigit -> loaded lower reserved isdigit names1 names2 defs g ->
  (forall r, In r type_rows -> ~ called lower isdigit (t_oid r) (t_names r) (c :: rest)) ->
  std_index lower isdigit depth order nfkc casefold g defs (c :: rest) l v = if isdigit c then Raise KeyError else list_index l v.
Proof.
  intros HP HL H. unfold std_index.
  rewrite (proj2 (C82_type_names lower reserved isdigit names1 names2 defs g (c :: rest) HP HL) c rest eq_refl H).
  destruct (isdigit c); reflexivity.
Qed.
Print Assumptions C84_unregistered.

(** Nothing is found in an empty list, and nothing by an invalid assertion. *)
Theorem C84_not_found lower reserved isdigit names1 names2 defs g depth order nfkc casefold r a :
  python_text lower isdigit -> loaded lower reserved isdigit names1 names2 defs g -> 30 <= depth -> type_called lower isdigit r a ->
  (forall v, std_index lower isdigit depth order nfkc casefold g defs a [] v = Raise ValueError) /\
  (forall l v i, ~ good_value depth order r v -> std_index lower isdigit depth order nfkc casefold g defs a l v <> Ok i).
Proof.
  intros HP HL Hd Hc. destruct (loaded_is _ _ _ _ _ _ _ HP HL) as [-> ->]. split.
  - intros v. destruct (index_called lower isdigit HP depth order nfkc casefold r a Hc) as (i & t & _ & _ & E). rewrite E. reflexivity.
  - intros l v i Hg. exact (invalid_index lower isdigit HP depth order nfkc casefold Hd r a l v i Hc Hg).
Qed.
Print Assumptions C84_not_found.

(** Refuted: attributes without equality rule (facsimileTelephoneNumber, preferredDeliveryMethod, ...) cannot be looked
    into: any valid assertion about a non-empty list raises LDAPSchemaError. *)
Theorem C84_refuted_no_rule lower reserved isdigit names1 names2 defs g depth order nfkc casefold r a l v :
  python_text lower isdigit -> loaded lower reserved isdigit names1 names2 defs g -> 30 <= depth ->
  type_called lower isdigit r a -> t_equality r = None -> l <> [] -> good_value depth order r v ->
  std_index lower isdigit depth order nfkc casefold g defs a l v = Raise LDAPSchemaError.
Proof.
  intros HP HL Hd Hc Hm Hl Hg. destruct (loaded_is _ _ _ _ _ _ _ HP HL) as [-> ->].
  exact (no_rule_index lower isdigit HP depth order nfkc casefold Hd r a l v Hc Hm Hl Hg).
Qed.
Print Assumptions C84_refuted_no_rule.

(** Refuted: DN-valued attributes (member, owner, seeAlso, manager, ...): no value is ever found,
    not even by itself. *)
Theorem C84_refuted_dn lower reserved isdigit names1 names2 defs g depth order nfkc casefold r a l v i :
  python_text lower isdigit -> loaded lower reserved isdigit names1 names2 defs g -> 30 <= depth ->
  type_called lower isdigit r a -> compared r Dn ->
  std_index lower isdigit depth order nfkc casefold g defs a l v <> Ok i.
Proof.
  intros HP HL Hd Hc Hm. destruct (loaded_is _ _ _ _ _ _ _ HP HL) as [-> ->].
  destruct (compared_index lower isdigit HP depth order nfkc casefold Hd r a Dn l v Hc Hm) as (valid & _ & ->).
  exact (C52_refuted_dn_values_never_found valid l v i).
Qed.
Print Assumptions C84_refuted_dn.

(** Refuted: times: every valid time is found at the first position of every non-empty list. *)
Lemma time_rows r : In r type_rows -> compared r Time -> lit (t_syntax r) = time_syntax.
Proof.
  intros Hr (name & En & Hm).
  assert (C : forallb (fun r => match t_equality r with
      | Some n => implb (existsb (fun x => String.eqb (fst x) n && match snd x with Time => true | _ => false end) manners) (str_eqb (lit (t_syntax r)) time_syntax)
      | None => true end) type_rows = true) by (vm_compute; reflexivity).
  rewrite forallb_forall in C. specialize (C r Hr). rewrite En in C.
  assert (T : existsb (fun x => String.eqb (fst x) name && match snd x with Time => true | _ => false end) manners = true).
  { apply existsb_exists. exists (name, Time). split; [exact Hm|]. cbn [fst snd]. now rewrite String.eqb_refl. }
  rewrite T in C. now apply str_eqb_eq.
Qed.
Theorem C84_refuted_times lower reserved isdigit names1 names2 defs g depth order nfkc casefold r a x l v :
  python_text lower isdigit -> loaded lower reserved isdigit names1 names2 defs g -> 30 <= depth ->
  type_called lower isdigit r a -> compared r Time -> good_value depth order r v ->
  std_index lower isdigit depth order nfkc casefold g defs a (x :: l) v = Ok 0.
Proof.
  intros HP HL Hd Hc Hm Hg. destruct (loaded_is _ _ _ _ _ _ _ HP HL) as [-> ->].
  destruct (compared_index lower isdigit HP depth order nfkc casefold Hd r a Time (x :: l) v Hc Hm) as (valid & HV & ->).
  unfold at_index. cbn [at_validate type_with_rule]. rewrite (proj2 (HV v) Hg). cbn [bind].
  cbn [at_prepare at_do_match type_with_rule rule_for generalizedTimeMatch mr_prep mr_do_match rule_prepare fold_left bind index_loop].
  destruct Hc as [Hr _]. destruct (row_rule depth order r Hr) as (f & Ef & Hf). rewrite (time_rows r Hr Hm) in Ef. rewrite Ef.
  destruct Hg as [_ Ho]. rewrite (proj2 (Hf v) Ho). reflexivity.
Qed.
Print Assumptions C84_refuted_times.

(** So deleting or adding values of DN-valued attributes: delete_attrs never sends a value of one,
    whether the object has it or not; add_attrs sends every value again. *)
Theorem C84_refuted_dn_modifications lower reserved isdigit names1 names2 defs g depth order nfkc casefold r a cur req ms :
  python_text lower isdigit -> loaded lower reserved isdigit names1 names2 defs g -> 30 <= depth ->
  type_called lower isdigit r a -> compared r Dn -> NoDup (map fst req) ->
  (delete_modlist lower (std_index lower isdigit depth order nfkc casefold g defs) cur req = Ok ms ->
     forall l v, In (mkmod DELETE a (VList l)) ms -> ~ In v l) /\
  (add_modlist lower (std_index lower isdigit depth order nfkc casefold g defs) cur req = Ok ms ->
     forall l v, In (a, VList l) req -> In v l -> exists l', In (mkmod ADD a (VList l')) ms /\ In v l').
Proof.
  intros HP HL Hd Hc Hm Hn.
  assert (Hv : forall v, has_value lower (std_index lower isdigit depth order nfkc casefold g defs) cur a v = false).
  { intros v. unfold has_value. destruct (std_index lower isdigit depth order nfkc casefold g defs a (cur_vals lower cur a) v) as [i|e] eqn:E; [|reflexivity].
    exfalso. exact (C84_refuted_dn lower reserved isdigit names1 names2 defs g depth order nfkc casefold r a _ v i HP HL Hd Hc Hm E). }
  split.
  - intros H l v Hl Hin. destruct (C06_delete_sends_exactly_the_present _ _ _ _ _ Hn H) as (_ & _ & H3 & _).
    destruct (proj1 (H3 a v) (ex_intro _ l (conj Hl Hin))) as (l' & _ & _ & _ & T). rewrite Hv in T. discriminate T.
  - intros H l v Hl Hin. destruct (C05_add_sends_exactly_the_missing _ _ _ _ _ Hn H) as (_ & _ & H3).
    apply (H3 a v). exists l. split; [exact Hl|]. split; [exact Hin|]. right. exact (Hv v).
Qed.
Print Assumptions C84_refuted_dn_modifications.

Definition ix (a : string) (l : list string) (v : string) : res nat :=
  std_index ascii_lower dig0 30 (fun s => s) (fun s => s) ascii_lower reg0 defs0 (lit a) (map lit l) (lit v).
Local Open Scope string_scope.
Example C84_nonvacuous :
  ix "CN" ["Al"; "  BOB  x"; "bob X"] "Bob X" = Ok 1 /\ ix "cn" ["Al"] "Bob" = Raise ValueError /\
  ix "objectClass" ["TOP"; "top"] "top" = Ok 1 /\ ix "telephoneNumber" ["+1-512-315-0280"] "+1 512 315 0280" = Ok 0 /\
  ix "member" ["cn=a,dc=b"] "cn=a,dc=b" = Raise ValueError /\ ix "createTimestamp" ["20200101000000Z"] "19990101000000Z" = Ok 0 /\
  ix "preferredDeliveryMethod" ["any"] "any" = Raise LDAPSchemaError /\ ix "cn" ["Al"] "" = Raise InvalidSyntaxError /\ ix "nosuch" ["Al"; "al"] "al" = Ok 1 /\
  ix "2.5.4.3" ["Al"] "AL" = Ok 0 /\ ix "9.9" ["Al"] "AL" = Raise KeyError.
Proof.
  split; [vm_compute; reflexivity|]. split; [vm_compute; reflexivity|]. split; [vm_compute; reflexivity|]. split; [vm_compute; reflexivity|].
  split; [vm_compute; reflexivity|]. split; [vm_compute; reflexivity|]. split; [vm_compute; reflexivity|]. split; [vm_compute; reflexivity|].
  split; [vm_compute; reflexivity|]. split; [vm_compute; reflexivity|vm_compute; reflexivity].
Qed.
Local Close Scope string_scope.

(** ** C85: required_attr and allowed_attr *)

(** For every schema without cycles whose superclasses are known, whatever lists have been
    computed: required_attr tells whether the class or an ancestor requires the attribute,
    allowed_attr whether one of them requires or allows it or the class is extensible. *)
Theorem C85_any_schema lower isdigit depth g defs mm oc i attr :
  acyclic lower isdigit (class_view g) (std_classes defs) -> resolvable lower isdigit (class_view g) (std_classes defs) ->
  List.length (std_classes defs) < depth -> memos_ok lower isdigit (class_view g) (std_classes defs) mm ->
  denotes lower isdigit (class_view g) oc i -> i < List.length (std_classes defs) ->
  (exists b mm', required_attr lower isdigit depth g defs mm oc attr = (Ok b, mm') /\
     memos_ok lower isdigit (class_view g) (std_classes defs) mm' /\
     (b = true <-> inherits lower isdigit (class_view g) (std_classes defs) oc_must i attr)) /\
  (exists b mm', allowed_attr lower isdigit depth g defs mm oc attr = (Ok b, mm') /\
     memos_ok lower isdigit (class_view g) (std_classes defs) mm' /\
     (b = true <-> is_extensible defs i = true \/ inherits lower isdigit (class_view g) (std_classes defs) oc_may i attr \/
                   inherits lower isdigit (class_view g) (std_classes defs) oc_must i attr)).
Proof.
  intros [rank Hr] Hres Hd Hm Hden Hi. split.
  - exact (required_spec lower isdigit depth g defs rank Hd Hr Hres mm oc i attr Hm Hden Hi).
  - exact (allowed_spec lower isdigit depth g defs rank Hd Hr Hres mm oc i attr Hm Hden Hi).
Qed.
Print Assumptions C85_any_schema.

(** For the shipped classes: what the row lists; extensibleObject allows everything. *)
Definition extensible_row (r : class_row) : bool := existsb (String.eqb "extensibleObject") (c_names r).
Lemma extensible_rows i r : nth_error class_rows i = Some r -> is_extensible defs0 i = extensible_row r.
Proof.
  assert (C : forallb (fun ir => Bool.eqb (is_extensible defs0 (fst ir)) (extensible_row (snd ir))) (numbered class_rows) = true)
    by (vm_compute; reflexivity).
  rewrite forallb_forall in C. intros H. specialize (C _ (numbered_In _ _ _ H)). cbn [fst snd] in C. now apply Bool.eqb_prop.
Qed.
Theorem C85_shipped lower reserved isdigit names1 names2 defs g depth is1 is2 r oc attr :
  python_text lower isdigit -> loaded lower reserved isdigit names1 names2 defs g -> 30 <= depth -> classes is1 -> classes is2 ->
  class_called lower isdigit r oc ->
  (exists b, fst (required_attr lower isdigit depth g defs (asked lower isdigit depth g defs is1 is2) oc attr) = Ok b /\
     (b = true <-> lists (c_must r) attr)) /\
  (exists b, fst (allowed_attr lower isdigit depth g defs (asked lower isdigit depth g defs is1 is2) oc attr) = Ok b /\
     (b = true <-> In "extensibleObject"%string (c_names r) \/ lists (c_may r) attr \/ lists (c_must r) attr)).
Proof.
  intros HP HL Hd H1 H2 Hc. destruct (loaded_is _ _ _ _ _ _ _ HP HL) as [-> ->]. unfold asked.
  pose proof (proj1 (std_class_called lower isdigit HP r oc) Hc) as (i & Hi & Hden).
  assert (Hlt : i < List.length classes0). { rewrite (proj1 lengths). apply nth_error_Some. rewrite Hi. discriminate. }
  unfold classes in H1, H2. rewrite <- (proj1 lengths) in H1, H2.
  pose proof (memos_std lower isdigit HP depth Hd is1 is2 H1 H2) as Hm.
  pose proof (fun A B C D => C85_any_schema lower isdigit depth reg0 defs0 
     (snd (accesses lower isdigit cview classes0 depth (fresh_must classes0) is1), snd (accesses lower isdigit cview classes0 depth (fresh_may classes0) is2))
     oc i attr A B C D) as G.
  rewrite cview_eq, classes_eq in G |- *.
  destruct (G (std_acyclic lower isdigit HP) (std_resolvable lower isdigit HP) (class_depth_all depth Hd) Hm Hden Hlt)
    as [(b & mm' & E & _ & Hb) (b2 & mm2 & E2 & _ & Hb2)].
  split.
  - exists b. rewrite E. split; [reflexivity|]. rewrite Hb. exact (must_rows lower isdigit i r attr HP Hi).
  - exists b2. rewrite E2. split; [reflexivity|]. rewrite Hb2, (extensible_rows i r Hi).
    rewrite (must_rows lower isdigit i r attr HP Hi), (may_rows lower isdigit i r attr HP Hi). unfold extensible_row.
    rewrite existsb_exists. split; (intros [A|A]; [left|right; exact A]).
    + destruct A as (x & Hx & E3). apply String.eqb_eq in E3. now subst x.
    + exists "extensibleObject"%string. split; [exact A|apply String.eqb_refl].
Qed.
Print Assumptions C85_shipped.

(** Names without a class: neither required nor allowed; OIDs without a class: KeyError. *)
Theorem C85_unregistered lower reserved isdigit names1 names2 defs g depth mm c rest attr :
  python_text lower isdigit -> loaded lower reserved isdigit names1 names2 defs g ->
  (forall r, In r class_rows -> ~ called lower isdigit (c_oid r) (c_names r) (c :: rest)) ->
  required_attr lower isdigit depth g defs mm (c :: rest) attr = (if isdigit c then Raise KeyError else Ok false, mm) /\
  allowed_attr lower isdigit depth g defs mm (c :: rest) attr = (if isdigit c then Raise KeyError else Ok false, mm).
Proof.
  intros HP HL H. unfold required_attr, allowed_attr.
  rewrite (proj2 (C82_class_names lower reserved isdigit names1 names2 defs g (c :: rest) HP HL) c rest eq_refl H).
  destruct (isdigit c); split; reflexivity.
Qed.
Print Assumptions C85_unregistered.

(** Refuted: what allowed_attr allows can be in a valid object: extensibleObject allows every
    attribute, and validation refuses all of them (C83_refuted_extensible). *)
Theorem C85_refuted_validation_agrees lower reserved isdigit names1 names2 defs g depth order is1 is2 attr vs write :
  python_text lower isdigit -> loaded lower reserved isdigit names1 names2 defs g -> 30 <= depth -> classes is1 -> classes is2 ->
  lower attr <> lower (lit "objectClass") ->
  let mm := asked lower isdigit depth g defs is1 is2 in
  fst (allowed_attr lower isdigit depth g defs mm (lit "extensibleObject") attr) = Ok true /\
  fst (std_validate_object lower isdigit depth order g defs mm
         [(lit "objectClass", [lit "top"; lit "extensibleObject"]); (attr, vs)] write) = Raise LDAPValidationError.
Proof.
  intros HP HL Hd H1 H2 Hne. cbv zeta. split.
  - assert (T : exists r, In r class_rows /\ In "extensibleObject"%string (c_names r)).
    { assert (C : existsb (fun r => existsb (String.eqb "extensibleObject") (c_names r)) class_rows = true) by (vm_compute; reflexivity).
      apply existsb_exists in C as (r & Hr & E). exists r. split; [exact Hr|]. apply existsb_exists in E as (m & Hm & E).
      apply String.eqb_eq in E. now subst m. }
    destruct T as (r & Hr & Hin).
    assert (Hc : class_called lower isdigit r (lit "extensibleObject")).
    { split; [exact Hr|]. assert (A : alpha_head (lit "extensibleObject") = true) by (vm_compute; reflexivity).
      destruct (lit "extensibleObject") as [|c rest] eqn:El; [discriminate A|]. exists c, rest. split; [reflexivity|]. cbn [alpha_head] in A.
      rewrite (isdigit_alpha lower isdigit c HP A). exists "extensibleObject"%string. rewrite El. split; [exact Hin|reflexivity]. }
    destruct (proj2 (C85_shipped lower reserved isdigit names1 names2 defs g depth is1 is2 r (lit "extensibleObject") attr HP HL Hd H1 H2 Hc)) as (b & E & Hb).
    rewrite E. f_equal. apply Hb. now left.
  - assert (Hne' : attr <> lit "objectClass") by (intros ->; now apply Hne).
    apply (C83_refuted_extensible lower reserved isdigit names1 names2 defs g depth order is1 is2 _ write (lit "objectClass")
             [lit "top"; lit "extensibleObject"] attr HP HL Hd H1 H2).
    + cbn [map fst]. constructor; [intros [E|[]]; apply Hne; exact E|]. constructor; [intros []|constructor].
    + now left.
    + reflexivity.
    + constructor; [now left|]. constructor; [right; now left|constructor].
    + cbn [map fst]. right. now left.
    + exact Hne'.
Qed.
Print Assumptions C85_refuted_validation_agrees.

Example C85_nonvacuous :
  let mm := asked ascii_lower dig0 30 reg0 defs0 [3; 0] [12] in
  fst (required_attr ascii_lower dig0 30 reg0 defs0 mm (lit "INETORGPERSON") (lit "sn")) = Ok true /\
  fst (required_attr ascii_lower dig0 30 reg0 defs0 mm (lit "inetOrgPerson") (lit "mail")) = Ok false /\
  fst (allowed_attr ascii_lower dig0 30 reg0 defs0 mm (lit "inetOrgPerson") (lit "mail")) = Ok true /\
  fst (allowed_attr ascii_lower dig0 30 reg0 defs0 mm (lit "person") (lit "mail")) = Ok false /\
  fst (allowed_attr ascii_lower dig0 30 reg0 defs0 mm (lit "extensibleObject") (lit "whatever")) = Ok true /\
  fst (allowed_attr ascii_lower dig0 30 reg0 defs0 mm (lit "2.5.6.6") (lit "seeAlso")) = Ok true /\
  fst (allowed_attr ascii_lower dig0 30 reg0 defs0 mm (lit "9.9") (lit "seeAlso")) = Raise KeyError.
Proof.
  cbv zeta. split; [vm_compute; reflexivity|]. split; [vm_compute; reflexivity|]. split; [vm_compute; reflexivity|]. split; [vm_compute; reflexivity|].
  split; [vm_compute; reflexivity|]. split; [vm_compute; reflexivity|vm_compute; reflexivity].
Qed.
Example C82_nonvacuous :
  lookup ascii_lower dig0 (class_view reg0) (lit "ORGANIZATIONALunit") <> Ok None /\
  lookup ascii_lower dig0 (class_view reg0) (lit "organizationalUnits") = Ok None /\
  fst (accesses ascii_lower dig0 (class_view reg0) (std_classes defs0) 30 (fresh_must (std_classes defs0)) [0]) = [Ok [lit "objectClass"]] /\
  classes [0; 28] /\ List.length class_rows = 29 /\ List.length type_rows = 107.
Proof.
  split; [vm_compute; discriminate|]. split; [vm_compute; reflexivity|]. split; [vm_compute; reflexivity|].
  split; [unfold classes; constructor; [apply Nat.ltb_lt; vm_compute; reflexivity|constructor; [apply Nat.ltb_lt; vm_compute; reflexivity|constructor]]|].
  split; vm_compute; reflexivity.
Qed.
