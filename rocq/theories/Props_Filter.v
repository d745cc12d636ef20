(** * Properties C13-C17: search filters *)
From Verif Require Import PyBase Model_Filter Spec_Filter Proofs_Filter Proofs_Filter2.

(** ** C13 Escaped user input cannot change the structure of a filter *)

(** the text of an equality test on attribute [a] for the user input [s] *)
Definition user_test (a s : str) : str := lit "(" ++ a ++ lit "=" ++ escape s ++ lit ")".
Definition user_tests (l : list (str * str)) : str :=
  List.concat (map (fun p => user_test (fst p) (snd p)) l).

Theorem C13_no_special_characters : forall s c,
  In c (escape s) -> ~ In c (lit "()&|!=<>~*/").
Proof. intros s c H. apply escape_safe in H. exact H. Qed.

(** whatever the input (even one with backslashes or NULs): never anything but that test *)
Theorem C13_single_equality_test : forall a s F,
  attr_text a -> parse_unified (user_test a s) = Ok F -> F = FEq a (escape s).
Proof. intros a s F Ha H. exact (escape_equality a s F Ha H). Qed.

(** ... also when several tests are combined *)
Theorem C13_conjunction : forall l F,
  Forall (fun p => attr_text (fst p)) l ->
  parse_unified (lit "(&" ++ user_tests l ++ lit ")") = Ok F ->
  F = FAnd (map (fun p => FEq (fst p) (escape (snd p))) l).
Proof. intros l F Hl H. apply (escape_list FAnd (ch "&") l F); auto. Qed.
Theorem C13_disjunction : forall l F,
  Forall (fun p => attr_text (fst p)) l ->
  parse_unified (lit "(|" ++ user_tests l ++ lit ")") = Ok F ->
  F = FOr (map (fun p => FEq (fst p) (escape (snd p))) l).
Proof. intros l F Hl H. apply (escape_list FOr (ch "|") l F); auto. Qed.

(** accepted when s has no backslash and no NUL *)
Theorem C13_accepted : forall a s,
  attr_text a -> ~ In 0%N s -> ~ In (ch "\") s ->
  parse_unified (user_test a s) = Ok (FEq a (escape s)).
Proof.
  intros a s Ha H0 Hb. apply standard_unified, standard_iff.
  apply (cmp_print _ (a ++ lit "=" ++ escape s)).
  - constructor; auto using escape_value.
  - unfold user_test. now rewrite <- !app_assoc.
Qed.
(** ** C51 Escaping a filter value is faithful *)
(** Missing from the full statement: inputs with a backslash or NUL, and that what is sent
    is [s] rather than [escape s]; both fail, see the refutations. *)
Theorem C51_stands_for_the_input_partial : forall s,
  ~ In (ch "\") s -> unescape (escape s) = s.
Proof. exact unescape_escape. Qed.
Theorem C51_injective_partial : forall s t,
  ~ In (ch "\") s -> ~ In (ch "\") t -> escape s = escape t -> s = t.
Proof.
  intros s t Hs Ht H. rewrite <- (unescape_escape s Hs), <- (unescape_escape t Ht). now rewrite H.
Qed.

(** What fails: backslash and NUL are not escaped, and the parsed value is sent undecoded. *)
Theorem C51_refuted_backslash :
  escape (lit "(") = escape (lit "\28")
  /\ parse_unified (user_test (lit "cn") (lit "a\b")) = Raise LDAPError.
Proof. split; reflexivity. Qed.
Theorem C51_refuted_nul :
  In 0%N (escape [0%N]) /\ parse_unified (user_test (lit "cn") [0%N]) = Raise LDAPError.
Proof. split; [now left|reflexivity]. Qed.
Theorem C51_refuted_value_not_decoded : exists s,
  parse_unified (user_test (lit "cn") s) = Ok (FEq (lit "cn") (escape s)) /\ escape s <> s.
Proof. exists (lit "a*b"). split; [reflexivity|discriminate]. Qed.

Example C13_nonvacuous :
  attr_text (lit "cn") /\ ~ In (ch "\") (lit "*)(objectClass=*") /\ ~ In 0%N (lit "*)(objectClass=*")
  /\ parse_unified (user_test (lit "cn") (lit "*)(objectClass=*"))
     = Ok (FEq (lit "cn") (lit "\2a\29\28objectClass\3d\2a")).
Proof.
  split; [|split; [|split]]; [| | |reflexivity].
  - exists (lit "cn"), []. split; [reflexivity|]. split; [|constructor]. left.
    exists (ch "c"), (lit "n"). split; [reflexivity|]. split; [reflexivity|repeat constructor].
  - intros H; cbn in H; intuition discriminate.
  - intros H; cbn in H; intuition discriminate.
Qed.

(** ** C14 Printing and re-parsing a filter gives back the same filter *)

(** the standard parser accepts exactly the RFC 4515 texts, unambiguously *)
Theorem C14_standard_parser_exact : forall s f, parse_standard_filter s = Ok f <-> std_text f s.
Proof. exact standard_iff. Qed.

(** every filter with a string form (so every parsed filter) re-parses to itself, up to
    a final empty "any" part *)
Theorem C14_reparse_valid_partial : forall f, valid f ->
  parse_standard_filter (print f) = Ok (norm f) /\ parse_unified (print f) = Ok (norm f).
Proof.
  intros f H. assert (Hs : parse_standard_filter (print f) = Ok (norm f))
    by (now apply standard_iff, print_std).
  split; [exact Hs|now apply standard_unified].
Qed.
Theorem C14_reparse_valid_exact_partial : forall f, valid f -> no_trailing_any f ->
  parse_standard_filter (print f) = Ok f /\ parse_unified (print f) = Ok f.
Proof.
  intros f H Hn. rewrite <- (norm_id f Hn) at 2 4. now apply C14_reparse_valid_partial.
Qed.
Theorem C14_reparse_parsed_partial : forall s f, parse_unified s = Ok f ->
  valid f /\ parse_standard_filter (print f) = Ok (norm f)
  /\ (no_trailing_any f -> parse_standard_filter (print f) = Ok f).
Proof.
  intros s f H. pose proof (unified_valid s f H) as Hv. split; [assumption|].
  split; [now apply C14_reparse_valid_partial|]. intros Hn. now apply C14_reparse_valid_exact_partial.
Qed.

Theorem C14_refuted_trailing_star :
  parse_unified (lit "(cn=x**)") = Ok (FSubs (lit "cn") [(Initial, lit "x"); (Any, [])])
  /\ print (FSubs (lit "cn") [(Initial, lit "x"); (Any, [])]) = lit "(cn=x*)"
  /\ parse_unified (lit "(cn=**)") = Ok (FSubs (lit "cn") [(Any, [])])
  /\ parse_unified (print (FSubs (lit "cn") [(Any, [])])) = Ok (FPresent (lit "cn")).
Proof. repeat split; reflexivity. Qed.

Example C14_nonvacuous :
  let f := FAnd [FSubs (lit "cn") [(Initial, lit "a"); (Any, lit "b"); (Final, lit "c")];
                 FNot (FOr [FPresent (lit "sn"); FExt None true (Some (lit "rule")) (lit "v")])] in
  parse_unified (lit "(&(cn=a*b*c)(!(|(sn=*)(:dn:rule:=v))))") = Ok f
  /\ no_trailing_any f /\ print f = lit "(&(cn=a*b*c)(!(|(sn=*)(:dn:rule:=v))))".
Proof.
  cbv zeta. split; [vm_compute; reflexivity|]. split; [|vm_compute; reflexivity].
  cbn. repeat split. intros [l H]. destruct l as [|x1 [|x2 [|x3 [|x4 l]]]]; discriminate.
Qed.

(** ** C15 The unified syntax accepts every standard filter with the same meaning *)
Theorem C15_standard_in_unified : forall s F,
  parse_standard_filter s = Ok F -> parse_unified s = Ok F.
Proof. exact standard_unified. Qed.
Theorem C15_simple_in_unified : forall s F,
  parse_simple_filter s = Ok F -> parse_unified s = Ok F.
Proof. exact simple_unified. Qed.
Example C15_nonvacuous :
  parse_standard_filter (lit "(&(NOT=x)(a=*))") = Ok (FAnd [FEq (lit "NOT") (lit "x"); FPresent (lit "a")])
  /\ parse_simple_filter (lit "NOT(a=b)OR (c>=d)") = Ok (FOr [FNot (FEq (lit "a") (lit "b")); FGe (lit "c") (lit "d")]).
Proof. split; vm_compute; reflexivity. Qed.

(** ** C16 Simple filter operators have the documented precedence *)

(** the simple (unified) syntax is exactly the written logic expressions over comparisons
    (standard filters), with any spacing, and the result is the expression's meaning *)
Theorem C16_simple_exact : forall s f,
  parse_simple_filter s = Ok f <-> exists e, ok_e cmp_leaf e /\ render_e e = s /\ sem e = f.
Proof. exact simple_iff. Qed.
Theorem C16_unified_exact : forall s f,
  parse_unified s = Ok f <-> exists e, ok_e std_leaf e /\ render_e e = s /\ sem e = f.
Proof. exact unified_iff. Qed.
(** one text never has two meanings *)
Theorem C16_unambiguous : forall e1 e2,
  ok_e std_leaf e1 -> ok_e std_leaf e2 -> render_e e1 = render_e e2 -> sem e1 = sem e2.
Proof.
  intros e1 e2 H1 H2 Hr.
  assert (E : parse_unified (render_e e1) = Ok (sem e1)) by (apply unified_iff; eauto).
  rewrite Hr in E. assert (E2 : parse_unified (render_e e2) = Ok (sem e2)) by (apply unified_iff; eauto).
  rewrite E2 in E. now injection E.
Qed.
(** precedence spelled out, for any three comparisons and any spacing *)
Theorem C16_precedence : forall wa fa wb fb wc fc sp1 sp2 sp3 sp4 sp5,
  cmp_leaf wa fa -> cmp_leaf wb fb -> cmp_leaf wc fc ->
  blank sp1 -> blank sp2 -> blank sp3 -> blank sp4 -> blank sp5 ->
  parse_simple_filter (wa ++ sp1 ++ lit "OR" ++ sp2 ++ wb ++ sp3 ++ lit "AND" ++ sp4
                          ++ lit "NOT" ++ sp5 ++ wc)
    = Ok (FOr [fa; FAnd [fb; FNot fc]])
  /\ parse_simple_filter (wa ++ sp1 ++ lit "AND" ++ sp2 ++ wb ++ sp3 ++ lit "OR" ++ sp4 ++ wc)
    = Ok (FOr [FAnd [fa; fb]; fc])
  /\ parse_simple_filter (wa ++ sp1 ++ lit "AND" ++ sp2 ++ wb ++ sp3 ++ lit "AND" ++ sp4 ++ wc)
    = Ok (FAnd [fa; fb; fc])
  /\ parse_simple_filter (wa ++ sp1 ++ lit "OR" ++ sp2 ++ wb ++ sp3 ++ lit "OR" ++ sp4 ++ wc)
    = Ok (FOr [fa; fb; fc])
  /\ parse_simple_filter (wa ++ sp1 ++ lit "AND" ++ sp2 ++ lit "(" ++ wb ++ sp3 ++ lit "OR" ++ sp4
                          ++ wc ++ sp5 ++ lit ")")
    = Ok (FAnd [fa; FOr [fb; fc]]).
Proof.
  intros wa fa wb fb wc fc sp1 sp2 sp3 sp4 sp5 Ha Hb Hc H1 H2 H3 H4 H5.
  repeat split; apply simple_iff.
  - exists (EOr (C1 (TLeaf wa fa)) sp1 sp2 (E1 (CAnd (TLeaf wb fb) sp3 sp4 (C1 (TNot sp5 (TLeaf wc fc)))))).
    cbn. repeat split; auto.
  - exists (EOr (CAnd (TLeaf wa fa) sp1 sp2 (C1 (TLeaf wb fb))) sp3 sp4 (E1 (C1 (TLeaf wc fc)))).
    cbn [ok_e ok_c ok_t render_e render_c render_t sem sem_e sem_c sem_t conn].
    repeat split; auto; now rewrite <- ?app_assoc.
  - exists (E1 (CAnd (TLeaf wa fa) sp1 sp2 (CAnd (TLeaf wb fb) sp3 sp4 (C1 (TLeaf wc fc))))).
    cbn. repeat split; auto.
  - exists (EOr (C1 (TLeaf wa fa)) sp1 sp2 (EOr (C1 (TLeaf wb fb)) sp3 sp4 (E1 (C1 (TLeaf wc fc))))).
    cbn. repeat split; auto.
  - exists (E1 (CAnd (TLeaf wa fa) sp1 sp2 (C1 (TParen [] (EOr (C1 (TLeaf wb fb)) sp3 sp4 (E1 (C1 (TLeaf wc fc)))) sp5)))).
    cbn [ok_e ok_c ok_t render_e render_c render_t sem sem_e sem_c sem_t conn app].
    repeat split; auto; try constructor. now rewrite <- ?app_assoc.
Qed.
Example C16_nonvacuous :
  cmp_leaf (lit "(a=b)") (FEq (lit "a") (lit "b")) /\ blank (lit "  ") /\ blank []
  /\ parse_simple_filter (lit "(a=b)OR  (a=b) AND NOT(a=b)")
     = Ok (FOr [FEq (lit "a") (lit "b"); FAnd [FEq (lit "a") (lit "b"); FNot (FEq (lit "a") (lit "b"))]]).
Proof.
  split; [|split; [|split]]; [| repeat constructor | constructor | vm_compute; reflexivity].
  exists (lit "a=b"). split; [reflexivity|].
  apply (ct_eq (lit "a") (lit "b")); [|repeat constructor].
  exists (lit "a"), []. split; [reflexivity|]. split; [|constructor]. left.
  exists (ch "a"), []. repeat split; constructor.
Qed.

(** ** C17 Every RFC 4512 attribute description is accepted in filters *)

(** short names with any options: always, in every comparison *)
Theorem C17_short_names_accepted_partial : forall a opts v,
  keystring_text a -> Forall option_text opts -> value_text v ->
  let ad := with_options a opts in
  parse_unified (lit "(" ++ ad ++ lit "=" ++ v ++ lit ")") = Ok (FEq ad v)
  /\ parse_unified (lit "(" ++ ad ++ lit ">=" ++ v ++ lit ")") = Ok (FGe ad v)
  /\ parse_unified (lit "(" ++ ad ++ lit "<=" ++ v ++ lit ")") = Ok (FLe ad v)
  /\ parse_unified (lit "(" ++ ad ++ lit "~=" ++ v ++ lit ")") = Ok (FApprox ad v)
  /\ parse_unified (lit "(" ++ ad ++ lit "=*)") = Ok (FPresent ad)
  /\ parse_unified (lit "(" ++ ad ++ lit ":=" ++ v ++ lit ")") = Ok (FExt (Some ad) false None v).
Proof.
  intros a opts v Ha Ho Hv ad.
  assert (Had : attr_text ad) by (exists a, opts; repeat split; auto; now left).
  assert (Hgo : forall f, valid f -> norm f = f -> parse_unified (print f) = Ok f).
  { intros f Hf Hn. rewrite <- Hn at 2. now apply C14_reparse_valid_partial. }
  repeat split.
  - exact (Hgo (FEq ad v) (va_eq _ _ Had Hv) eq_refl).
  - exact (Hgo (FGe ad v) (va_ge _ _ Had Hv) eq_refl).
  - exact (Hgo (FLe ad v) (va_le _ _ Had Hv) eq_refl).
  - exact (Hgo (FApprox ad v) (va_approx _ _ Had Hv) eq_refl).
  - exact (Hgo (FPresent ad) (va_present _ Had) eq_refl).
  - exact (Hgo (FExt (Some ad) false None v) (va_ext (Some ad) false None v Had I Hv) eq_refl).
Qed.
(** numeric OIDs: those whose arcs are all single digits *)
Theorem C17_small_oids_accepted_partial : forall a v,
  smalloid_text a -> value_text v ->
  parse_unified (lit "(" ++ a ++ lit "=" ++ v ++ lit ")") = Ok (FEq a v).
Proof.
  intros a v Ha Hv.
  assert (Had : attr_text a) by (exists a, []; repeat split; auto; [unfold with_options; cbn; now rewrite app_nil_r|now right]).
  apply (proj2 (C14_reparse_valid_partial (FEq a v) (va_eq _ _ Had Hv))).
Qed.
(** the other numeric OIDs are never accepted: an accepted attribute is a short name or has
    single-digit arcs only *)
Theorem C17_accepted_attributes : forall s a v,
  parse_standard_filter s = Ok (FEq a v) -> attr_text a.
Proof.
  intros s a v H. apply standard_iff in H.
  assert (Hv : valid (FEq a v)) by (now apply (proj1 std_text_valid_mut) in H).
  now inversion Hv.
Qed.
Theorem C17_refuted_multidigit_arc :
  numericoid_text (lit "2.5.4.10")
  /\ parse_unified (lit "(2.5.4.10=x)") = Raise LDAPError
  /\ parse_standard_filter (lit "(2.5.4.10=x)") = Raise LDAPError
  /\ parse_unified (lit "(cn:2.5.13.2:=x)") = Raise LDAPError.
Proof.
  split; [|repeat split; vm_compute; reflexivity].
  exists (lit "2"), [lit "5"; lit "4"; lit "10"]. split; [reflexivity|].
  split; [left; eexists; split; reflexivity|]. split; [discriminate|].
  constructor; [left; eexists; split; reflexivity|].
  constructor; [left; eexists; split; reflexivity|].
  constructor; [|constructor].
  right. eexists _, _. split; [reflexivity|]. split; [reflexivity|]. split; [discriminate|repeat constructor].
Qed.
Theorem C17_refuted_rule_dn_prefix :
  keystring_text (lit "dnFoo") /\ parse_unified (lit "(cn:dnFoo:=x)") = Raise LDAPError.
Proof.
  split; [|vm_compute; reflexivity]. eexists _, _. split; [reflexivity|].
  split; [reflexivity|repeat constructor].
Qed.
Example C17_nonvacuous :
  keystring_text (lit "user-Cert2") /\ Forall option_text [lit "binary"; lit "lang-en"]
  /\ value_text (lit "a\2ab") /\ smalloid_text (lit "2.5.4.3").
Proof.
  split; [eexists _, _; split; [reflexivity|]; split; [reflexivity|repeat constructor]|].
  split; [repeat constructor; discriminate|].
  split; [apply vt_normal; [reflexivity|]; apply vt_esc; [reflexivity|reflexivity|]; repeat constructor|].
  exists (lit "2"), [lit "5"; lit "4"; lit "3"]. split; [reflexivity|].
  split; [eexists; split; reflexivity|]. split; [discriminate|].
  repeat constructor; eexists; (split; reflexivity).
Qed.

Print Assumptions C13_no_special_characters.
Print Assumptions C13_single_equality_test.
Print Assumptions C13_conjunction.
Print Assumptions C13_disjunction.
Print Assumptions C13_accepted.
Print Assumptions C51_stands_for_the_input_partial.
Print Assumptions C51_injective_partial.
Print Assumptions C51_refuted_backslash.
Print Assumptions C51_refuted_nul.
Print Assumptions C51_refuted_value_not_decoded.
Print Assumptions C14_standard_parser_exact.
Print Assumptions C14_reparse_valid_partial.
Print Assumptions C14_reparse_valid_exact_partial.
Print Assumptions C14_reparse_parsed_partial.
Print Assumptions C14_refuted_trailing_star.
Print Assumptions C15_standard_in_unified.
Print Assumptions C15_simple_in_unified.
Print Assumptions C16_simple_exact.
Print Assumptions C16_unified_exact.
Print Assumptions C16_unambiguous.
Print Assumptions C16_precedence.
Print Assumptions C17_short_names_accepted_partial.
Print Assumptions C17_small_oids_accepted_partial.
Print Assumptions C17_accepted_attributes.
Print Assumptions C17_refuted_multidigit_arc.
Print Assumptions C17_refuted_rule_dn_prefix.
