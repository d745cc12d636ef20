(** * C18, C19, C52: string preparation and equality matching *)
From Verif Require Import PyBase Model_Modify Model_PrepTable Model_Prep Spec_PrepTable Spec_Prep Proofs_Prep.

(** ** C18 *)

(** Character mapping is exactly RFC 4518's, for every string, and idempotent. *)
Theorem C18_character_mapping v v' : Mapped v v' <-> v' = map_characters v.
Proof.
  split; [intros H; eapply Mapped_fun; [exact H|apply map_characters_spec]|intros ->; apply map_characters_spec].
Qed.
Theorem C18_character_mapping_idempotent v : map_characters (map_characters v) = map_characters v.
Proof. exact (map_characters_idem v). Qed.

(** Insignificant space handling is idempotent on every string whatsoever. *)
Theorem C18_space_idempotent v : insig_space (insig_space v) = insig_space v.
Proof. exact (insig_space_idem v). Qed.

(** Every string has words, and after character mapping the result of the space
    step is their canonical spelling. *)
Theorem C18_space_canonical v : exists ws, Words (map_characters v) ws /\
  insig_space (map_characters v) = canonical ws.
Proof.
  destruct (Words_total (map_characters v)) as [ws Hw]. exists ws. split; auto.
  apply insig_space_words; auto. eapply Mapped_plain, map_characters_spec.
Qed.

(** Two values prepare equal exactly when their words are equal. *)
Theorem C18_equal_iff_same_words v1 v2 m1 m2 ws1 ws2 :
  Mapped v1 m1 -> Mapped v2 m2 -> Words m1 ws1 -> Words m2 ws2 ->
  (insig_space (map_characters v1) = insig_space (map_characters v2) <-> ws1 = ws2).
Proof.
  intros H1 H2 W1 W2. apply C18_character_mapping in H1 as E1. apply C18_character_mapping in H2 as E2.
  rewrite <- E1, <- E2.
  rewrite (insig_space_words m1 ws1), (insig_space_words m2 ws2); auto;
    try (eapply Mapped_plain; eassumption).
  split; [|intros ->; reflexivity].
  apply canonical_inj; eapply Words_good; eassumption.
Qed.

(** Whole rule: with any NFKC implementation that introduces no white space other than
    plain spaces, caseExactMatch answers True exactly when the words of the mapped and
    normalised values are the same. *)
Theorem C18_caseExactMatch_compares_words (nfkc : str -> str) a b r wa wb :
  (forall s, only_plain_space s -> only_plain_space (nfkc s)) ->
  mr_match (caseExactMatch nfkc) a b = Ok r ->
  Words (nfkc (map_characters a)) wa -> Words (nfkc (map_characters b)) wb ->
  (r = true <-> wa = wb).
Proof.
  intros Hn Hm Wa Wb. apply eq_rule_match_ok in Hm as [pa [pb [Ea [Eb Hr]]]].
  rewrite Hr. clear Hr.
  assert (P : forall v w p, Words (nfkc (map_characters v)) w ->
            rule_prepare (prep_case_exact nfkc) v = Ok p -> p = canonical w).
  { intros v w p Hw Hp. unfold rule_prepare, prep_case_exact in Hp. cbn [fold_left bind] in Hp.
    assert (Hpr : forall x y, prohibit x = Ok y -> y = x).
    { intros x y. unfold prohibit. destruct x as [|c x]; [congruence|].
      destruct (in_ranges prohibited_ranges c); [discriminate|congruence]. }
    destruct (prohibit (nfkc (map_characters v))) as [y|] eqn:E; cbn [bind] in Hp; [|discriminate].
    injection Hp as <-. rewrite (Hpr _ _ E). apply insig_space_words; auto.
    apply Hn. eapply Mapped_plain, map_characters_spec. }
  rewrite (P a wa pa Wa Ea), (P b wb pb Wb Eb).
  split; [|intros ->; reflexivity].
  apply canonical_inj; eapply Words_good; eassumption.
Qed.

(** numericStringMatch removes exactly the spaces; telephoneNumberMatch exactly spaces
    and hyphens; so two values prepare equal iff they differ only in those. *)
Theorem C18_numeric_removes_exactly_spaces v v' :
  Deleted (fun c => c = 32%N) v v' <-> v' = insig_numeric v.
Proof.
  split; [intros H; eapply Deleted_fun; [exact H|apply insig_numeric_gen]|intros ->; apply insig_numeric_gen].
Qed.
Theorem C18_phone_removes_exactly_spaces_and_hyphens v v' :
  Deleted phone_ignored v v' <-> v' = insig_phone v.
Proof.
  split; [intros H; eapply Deleted_fun; [exact H|apply insig_phone_spec]|intros ->; apply insig_phone_spec].
Qed.
Theorem C18_numeric_phone_idempotent v :
  insig_numeric (insig_numeric v) = insig_numeric v /\ insig_phone (insig_phone v) = insig_phone v.
Proof.
  split; symmetry.
  - apply C18_numeric_removes_exactly_spaces, Deleted_none.
    eapply Deleted_result, insig_numeric_gen.
  - apply C18_phone_removes_exactly_spaces_and_hyphens, Deleted_none.
    eapply Deleted_result, insig_phone_spec.
Qed.

(** The same for caseIgnoreMatch, where case is folded after the mapping and before the normalisation; and for
    numericStringMatch and telephoneNumberMatch, which compare what is left when exactly the spaces, and exactly the spaces
    and hyphens, are taken out. *)
Lemma prepared_rule (nfkc f g : str -> str) (ms : list (str -> res str)) v p :
  ms = [(fun v => Ok (f v)); (fun v => Ok (nfkc v)); prohibit; (fun v => Ok (g v))] ->
  rule_prepare ms v = Ok p -> p = g (nfkc (f v)).
Proof.
  intros -> Hp. unfold rule_prepare in Hp. cbn [fold_left bind] in Hp.
  assert (Hpr : forall x y, prohibit x = Ok y -> y = x).
  { intros x y. unfold prohibit. destruct x as [|c x]; [congruence|].
    destruct (in_ranges prohibited_ranges c); [discriminate|congruence]. }
  destruct (prohibit (nfkc (f v))) as [y|] eqn:E; cbn [bind] in Hp; [|discriminate]. injection Hp as <-. now rewrite (Hpr _ _ E).
Qed.
Theorem C18_caseIgnoreMatch_compares_words (nfkc fold : str -> str) a b r ma mb wa wb :
  (forall s, only_plain_space s -> only_plain_space (nfkc (fold s))) ->
  mr_match (caseIgnoreMatch nfkc fold) a b = Ok r ->
  Mapped a ma -> Mapped b mb -> Words (nfkc (fold ma)) wa -> Words (nfkc (fold mb)) wb ->
  (r = true <-> wa = wb).
Proof.
  intros Hn Hm Ma Mb Wa Wb. apply eq_rule_match_ok in Hm as [pa [pb [Ea [Eb Hr]]]]. rewrite Hr. clear Hr.
  apply (prepared_rule nfkc (map_all fold) insig_space) in Ea, Eb; try reflexivity. subst pa pb. unfold map_all.
  apply C18_character_mapping in Ma as Xa. apply C18_character_mapping in Mb as Xb. rewrite <- Xa, <- Xb.
  rewrite (insig_space_words (nfkc (fold ma)) wa (Hn _ (Mapped_plain _ _ Ma)) Wa), (insig_space_words (nfkc (fold mb)) wb (Hn _ (Mapped_plain _ _ Mb)) Wb).
  split; [|intros ->; reflexivity]. apply canonical_inj; eapply Words_good; eassumption.
Qed.
Theorem C18_numericStringMatch_ignores_spaces (nfkc : str -> str) a b r ma mb da db :
  mr_match (numericStringMatch nfkc) a b = Ok r ->
  Mapped a ma -> Mapped b mb -> Deleted (fun c => c = 32%N) (nfkc ma) da -> Deleted (fun c => c = 32%N) (nfkc mb) db ->
  (r = true <-> da = db).
Proof.
  intros Hm Ma Mb Da Db. apply eq_rule_match_ok in Hm as [pa [pb [Ea [Eb Hr]]]]. rewrite Hr. clear Hr.
  apply (prepared_rule nfkc map_characters insig_numeric) in Ea, Eb; try reflexivity. subst pa pb.
  apply C18_character_mapping in Ma as Xa. apply C18_character_mapping in Mb as Xb. rewrite <- Xa, <- Xb.
  apply C18_numeric_removes_exactly_spaces in Da, Db. subst da db. reflexivity.
Qed.
Theorem C18_telephoneNumberMatch_ignores_spaces_and_hyphens (nfkc fold : str -> str) a b r ma mb da db :
  mr_match (telephoneNumberMatch nfkc fold) a b = Ok r ->
  Mapped a ma -> Mapped b mb -> Deleted phone_ignored (nfkc (fold ma)) da -> Deleted phone_ignored (nfkc (fold mb)) db ->
  (r = true <-> da = db).
Proof.
  intros Hm Ma Mb Da Db. apply eq_rule_match_ok in Hm as [pa [pb [Ea [Eb Hr]]]]. rewrite Hr. clear Hr.
  apply (prepared_rule nfkc (map_all fold) insig_phone) in Ea, Eb; try reflexivity. subst pa pb. unfold map_all.
  apply C18_character_mapping in Ma as Xa. apply C18_character_mapping in Mb as Xb. rewrite <- Xa, <- Xb.
  apply C18_phone_removes_exactly_spaces_and_hyphens in Da, Db. subst da db. reflexivity.
Qed.

Example C18_nonvacuous :
  Words (map_characters (lit "  John   Q Doe ")) [lit "John"; lit "Q"; lit "Doe"] /\
  insig_space (map_characters (lit "  John   Q Doe ")) = lit " John  Q  Doe " /\
  insig_space (map_characters []) = lit "  " /\
  mr_match (caseExactMatch (fun s => s)) (lit "John   Doe") (lit " John Doe") = Ok true /\
  mr_match (caseIgnoreMatch (fun s => s) ascii_lower) (lit "Fred X") (lit "fred  x") = Ok true /\
  mr_match (numericStringMatch (fun s => s)) (lit "12 34") (lit "1 234") = Ok true /\
  mr_match (telephoneNumberMatch (fun s => s) ascii_lower) (lit "+1 512-555") (lit "+1512 555") = Ok true /\
  insig_phone (lit "+1 512-555 0100") = lit "+15125550100" /\
  (forall s, only_plain_space s -> only_plain_space ((fun x => x) s)).
Proof.
  split; [|repeat split; try (vm_compute; reflexivity); auto].
  change (map_characters (lit "  John   Q Doe ")) with
    (lit "  " ++ lit "John" ++ 32%N :: (lit "  " ++ lit "Q" ++ 32%N :: ([] ++ lit "Doe" ++ lit " "))).
  assert (N1 : no_space (lit "John")) by (intros H; cbn in H; intuition discriminate).
  assert (N2 : no_space (lit "Q")) by (intros H; cbn in H; intuition discriminate).
  assert (N3 : no_space (lit "Doe")) by (intros H; cbn in H; intuition discriminate).
  apply Words_more; auto; try discriminate; [repeat constructor|].
  change (32%N :: lit "  " ++ lit "Q" ++ 32%N :: ([] ++ lit "Doe" ++ lit " "))
    with (lit "   " ++ lit "Q" ++ 32%N :: ([] ++ lit "Doe" ++ lit " ")).
  apply Words_more; auto; try discriminate; [repeat constructor|].
  change (32%N :: [] ++ lit "Doe" ++ lit " ") with (lit " " ++ lit "Doe" ++ lit " ").
  apply Words_last; auto; try discriminate; repeat constructor.
Qed.

(** ** C19 *)

(** What the step does for every string: it looks at the first character only, and its
    table is RFC 4518's except that it omits U+0350-U+035F and contains the letter F. *)
Theorem C19_prohibit_exactly_partial v :
  (prohibit v = Raise ProhibitedCharacterError <->
   exists c t, v = c :: t /\
     ((In_table rfc4518_prohibited c /\ ~ (848 <= c <= 863)%N) \/ c = ch "F")) /\
  (prohibit v <> Raise ProhibitedCharacterError -> prohibit v = Ok v).
Proof.
  split.
  - split.
    + destruct v as [|c t]; cbn [prohibit]; [discriminate|].
      destruct (in_ranges prohibited_ranges c) eqn:E; [|discriminate]. intros _.
      exists c, t. split; auto. apply code_table_exact, in_ranges_In. exact E.
    + intros [c [t [-> H]]]. cbn [prohibit]. apply code_table_exact, in_ranges_In in H. now rewrite H.
  - destruct v as [|c t]; cbn [prohibit]; [auto|].
    destruct (in_ranges prohibited_ranges c); [congruence|auto].
Qed.

(** The property itself fails in all three ways. *)
Theorem C19_refuted_later_characters :
  ~ (forall v c, In c v -> In_table rfc4518_prohibited c -> prohibit v = Raise ProhibitedCharacterError).
Proof.
  intros H. specialize (H [97%N; 65533%N] 65533%N).
  assert (P : In_table rfc4518_prohibited 65533%N).
  { apply in_ranges_In. vm_compute. reflexivity. }
  specialize (H (or_intror (or_introl eq_refl)) P). discriminate H.
Qed.
Theorem C19_refuted_missing_range :
  ~ (forall c t, In_table rfc4518_prohibited c -> prohibit (c :: t) = Raise ProhibitedCharacterError).
Proof.
  intros H. specialize (H 848%N [] (missing_range_is_prohibited 848%N ltac:(lia))).
  vm_compute in H. discriminate H.
Qed.
(** Case-exact matching of any value beginning with a capital F raises. *)
Theorem C19_refuted_letter_F nfkc v u a :
  nfkc (map_characters v) = ch "F" :: u ->
  mr_match (caseExactMatch nfkc) v a = Raise ProhibitedCharacterError.
Proof.
  intros H. unfold mr_match, caseExactMatch, eq_rule.
  cbn [mr_prep]. unfold rule_prepare, prep_case_exact. cbn [fold_left bind].
  rewrite H. reflexivity.
Qed.

Example C19_nonvacuous :
  prohibit (lit "Fred") = Raise ProhibitedCharacterError /\ prohibit (lit "alice") = Ok (lit "alice") /\
  prohibit [65533%N] = Raise ProhibitedCharacterError /\
  (fun s => s) (map_characters (lit "Fred")) = ch "F" :: lit "red".
Proof. repeat split; vm_compute; reflexivity. Qed.

(** ** C52: equality matching is an equivalence relation on the values it accepts *)

(** For every rule that compares prepared values: reflexive on values that can be
    prepared, symmetric, transitive; and it never answers for values it cannot prepare. *)
Theorem C52_equality_rules_are_equivalences_partial ms :
  (forall a r, mr_match (eq_rule ms) a a = Ok r -> r = true) /\
  (forall a b r, mr_match (eq_rule ms) a b = Ok r -> mr_match (eq_rule ms) b a = Ok r) /\
  (forall a b c, mr_match (eq_rule ms) a b = Ok true -> mr_match (eq_rule ms) b c = Ok true ->
     mr_match (eq_rule ms) a c = Ok true) /\
  (forall a b, (exists r, mr_match (eq_rule ms) a b = Ok r) <->
     (exists p, rule_prepare ms a = Ok p) /\ (exists q, rule_prepare ms b = Ok q)).
Proof.
  assert (B : forall a b pa pb, rule_prepare ms a = Ok pa -> rule_prepare ms b = Ok pb ->
              mr_match (eq_rule ms) a b = Ok (str_eqb pa pb)).
  { intros a b pa pb Ha Hb. unfold mr_match, eq_rule; cbn [mr_prep mr_do_match]. now rewrite Ha, Hb. }
  split; [|split; [|split]].
  - intros a r H. apply eq_rule_match_ok in H as [pa [pb [Ea [Eb Hr]]]]. apply Hr. congruence.
  - intros a b r H. destruct (eq_rule_match_ok _ _ _ _ H) as [pa [pb [Ea [Eb Hr]]]].
    rewrite (B b a pb pa Eb Ea). rewrite (B a b pa pb Ea Eb) in H. rewrite str_eqb_sym. exact H.
  - intros a b c H1 H2. apply eq_rule_match_ok in H1 as [pa [pb [Ea [Eb H1]]]].
    apply eq_rule_match_ok in H2 as [pb' [pc [Eb' [Ec H2]]]].
    rewrite (B a c pa pc Ea Ec). f_equal. apply str_eqb_eq.
    transitivity pb; [now apply H1|]. replace pb with pb' by congruence. now apply H2.
  - intros a b. split.
    + intros [r H]. apply eq_rule_match_ok in H as [pa [pb [Ea [Eb _]]]]. eauto.
    + intros [[p Hp] [q Hq]]. eexists. apply B; eauto.
Qed.

(** distinguishedNameMatch never answers True, not even for identical DNs ... *)
Theorem C52_refuted_distinguishedName a b : mr_match distinguishedNameMatch a b <> Ok true.
Proof. exact (dn_never_true a b). Qed.
(** ... so a value of a DN-valued attribute is never found in the object, whatever the
    object holds; ([delete_attrs] then sends nothing for it, by C06). *)
Theorem C52_refuted_dn_values_never_found valid l v i :
  at_index (type_with_rule valid distinguishedNameMatch) l v <> Ok i.
Proof.
  unfold at_index. destruct l as [|x l]; [discriminate|]. cbn [type_with_rule at_validate].
  destruct (valid v); cbn [bind]; [|discriminate].
  cbn [bind at_prepare type_with_rule mr_prep distinguishedNameMatch rule_prepare fold_left].
  generalize 0. generalize (x :: l). clear x l.
  induction l as [|y l IH]; intros n; cbn [index_loop]; [discriminate|].
  cbn [bind at_prepare type_with_rule mr_prep distinguishedNameMatch rule_prepare fold_left at_do_match mr_do_match].
  pose proof (dn_never_true y v) as H.
  unfold mr_match in H. cbn [mr_prep mr_do_match distinguishedNameMatch rule_prepare fold_left bind] in H.
  destruct (dn_do_match_with code_type_match y v) as [[]|]; cbn [bind]; try congruence; apply IH.
Qed.
(** generalizedTimeMatch answers True for any two valid values. *)
Theorem C52_refuted_generalizedTime valid a b :
  valid b = Ok tt -> mr_match (generalizedTimeMatch valid) a b = Ok true.
Proof.
  intros H. unfold mr_match, generalizedTimeMatch. cbn [mr_prep mr_do_match rule_prepare fold_left bind].
  now rewrite H.
Qed.

(** The DN comparison itself would be right if attribute types did offer [match]: with a
    [match] that is reflexive, every parseable DN matches itself. *)
Theorem C52_dn_reflexive_if_types_had_match tm a ds :
  parse_dn a = Ok ds -> Forall (fun d => NoDup (map fst d)) ds ->
  (forall attr v, tm attr v v = Ok true) -> dn_do_match_with tm a a = Ok true.
Proof.
  intros Hp Hd Ht. unfold dn_do_match_with. rewrite Hp. cbn [bind]. rewrite Nat.eqb_refl.
  assert (A : forall d d0, NoDup (map fst d) -> (exists pre, d = pre ++ d0) -> dn_avas_match tm d0 d = Ok true).
  { intros d d0 Hnd. induction d0 as [|[k v] d0 IH]; intros [pre E]; [reflexivity|].
    cbn [dn_avas_match]. rewrite (dget_In_NoDup d k v); auto.
    - rewrite Ht. cbn [bind]. apply IH. exists (pre ++ [(k, v)]). rewrite <- app_assoc. exact E.
    - rewrite E. apply in_app_iff; right; left; auto. }
  replace (dn_rdns_match tm ds ds) with (@Ok bool true); [reflexivity|]. clear Hp.
  induction Hd as [|d ds H1 H2 IH]; [reflexivity|]. cbn [dn_rdns_match].
  rewrite (A d d H1 (ex_intro _ [] eq_refl)). cbn [bind]. exact IH.
Qed.

(** More exactly, for any [match] the attribute types might offer: two DNs match iff they have
    equally many RDNs and, in order, every attribute of the first DN's RDN occurs in the second
    DN's with a matching value. *)
Theorem C52_dn_match_exactly tm a b :
  dn_do_match_with tm a b = Ok true <->
  exists da db, parse_dn a = Ok da /\ parse_dn b = Ok db /\
    Forall2 (fun ra rb => forall attr v, In (attr, v) ra ->
               exists v', dget rb attr = Some v' /\ tm attr v v' = Ok true) da db.
Proof.
  assert (A : forall rb ra, dn_avas_match tm ra rb = Ok true <->
            forall attr v, In (attr, v) ra -> exists v', dget rb attr = Some v' /\ tm attr v v' = Ok true).
  { intros rb. induction ra as [|[k v] ra IH]; cbn [dn_avas_match].
    - split; [intros _ attr v []|reflexivity].
    - split.
      + destruct (dget rb k) as [v'|] eqn:D; [|discriminate].
        destruct (tm k v v') as [[]|] eqn:T; cbn [bind]; try discriminate.
        intros H attr w [E|Hin]; [injection E as <- <-; eauto|]. now apply (proj1 IH H).
      + intros H. destruct (H k v (or_introl eq_refl)) as (v' & -> & ->). cbn [bind].
        apply IH. intros attr w Hin. apply H. now right. }
  assert (B : forall da db, List.length da = List.length db ->
            (dn_rdns_match tm da db = Ok true <->
             Forall2 (fun ra rb => forall attr v, In (attr, v) ra ->
               exists v', dget rb attr = Some v' /\ tm attr v v' = Ok true) da db)).
  { induction da as [|ra da IH]; intros [|rb db] L; cbn [List.length] in L; try discriminate; cbn [dn_rdns_match].
    - split; [constructor|reflexivity].
    - injection L as L. split.
      + intros H. destruct (dn_avas_match tm ra rb) as [[]|] eqn:M; cbn [bind] in H; try discriminate.
        constructor; [now apply A|now apply IH].
      + intros H. inversion H; subst. rewrite (proj2 (A rb ra)) by assumption. cbn [bind]. now apply IH. }
  unfold dn_do_match_with. split.
  - intros H. destruct (parse_dn a) as [da|]; cbn [bind] in H; [|discriminate].
    destruct (parse_dn b) as [db|]; cbn [bind] in H; [|discriminate].
    destruct (Nat.eqb (List.length da) (List.length db)) eqn:L; [|discriminate]. apply Nat.eqb_eq in L.
    exists da, db. split; [reflexivity|]. split; [reflexivity|]. apply B; [exact L|].
    destruct (dn_rdns_match tm da db) as [[]|]; congruence.
  - intros (da & db & -> & -> & F). cbn [bind]. assert (L : List.length da = List.length db) by (clear A B; induction F; cbn [List.length]; congruence).
    rewrite (proj2 (Nat.eqb_eq _ _) L). apply (B da db L) in F. now rewrite F.
Qed.
(** So even then matching would not be symmetric: extra attributes in the second DN are ignored. *)
Theorem C52_refuted_dn_symmetry_even_then : exists a b,
  dn_do_match_with (fun _ v w => Ok (str_eqb v w)) a b = Ok true /\
  dn_do_match_with (fun _ v w => Ok (str_eqb v w)) b a = Ok false.
Proof. exists (lit "cn=a,dc=b"), (lit "cn=a+sn=x,dc=b"). split; vm_compute; reflexivity. Qed.

Example C52_nonvacuous :
  mr_match (eq_rule (prep_case_ignore (fun s => s) ascii_lower)) (lit "Bob  X") (lit "bob x") = Ok true /\
  mr_match (eq_rule (prep_case_ignore (fun s => s) ascii_lower)) (lit "Bob") (lit "bobx") = Ok false /\
  mr_match distinguishedNameMatch (lit "cn=a,dc=b") (lit "cn=a,dc=b") = Ok false /\
  parse_dn (lit "cn=a+sn=b,dc=c") =
    Ok [[(lit "cn", lit "a"); (lit "sn", lit "b")]; [(lit "dc", lit "c")]] /\
  mr_match (generalizedTimeMatch (fun _ => Ok tt)) (lit "20200101000000Z") (lit "19990101000000Z") = Ok true.
Proof. repeat split; vm_compute; reflexivity. Qed.

Print Assumptions C18_character_mapping.
Print Assumptions C18_character_mapping_idempotent.
Print Assumptions C18_space_idempotent.
Print Assumptions C18_space_canonical.
Print Assumptions C18_equal_iff_same_words.
Print Assumptions C18_caseExactMatch_compares_words.
Print Assumptions C18_caseIgnoreMatch_compares_words.
Print Assumptions C18_numericStringMatch_ignores_spaces.
Print Assumptions C18_telephoneNumberMatch_ignores_spaces_and_hyphens.
Print Assumptions C18_numeric_removes_exactly_spaces.
Print Assumptions C18_phone_removes_exactly_spaces_and_hyphens.
Print Assumptions C18_numeric_phone_idempotent.
Print Assumptions C19_prohibit_exactly_partial.
Print Assumptions C19_refuted_later_characters.
Print Assumptions C19_refuted_missing_range.
Print Assumptions C19_refuted_letter_F.
Print Assumptions C52_equality_rules_are_equivalences_partial.
Print Assumptions C52_refuted_distinguishedName.
Print Assumptions C52_refuted_dn_values_never_found.
Print Assumptions C52_refuted_generalizedTime.
Print Assumptions C52_dn_reflexive_if_types_had_match.
Print Assumptions C52_dn_match_exactly.
Print Assumptions C52_refuted_dn_symmetry_even_then.
