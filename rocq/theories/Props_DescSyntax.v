(** * C69: validating schema descriptions *)
From Verif Require Import PyBase Model_Prep Model_Uri Model_Schema Model_Regex Spec_Search Model_Parse Spec_Parse Model_Syntax Spec_Syntax
  Proofs_Syntax Model_DescSyntax Spec_DescSyntax Proofs_DescSyntax Proofs_DescSyntax2.

(** The claim, for each of the eight description syntaxes: a text is valid exactly if it is a text of
    RFC 4512, 4.1.  Refuted below in both directions. *)
Definition C69_claim (d : drule) : Prop := forall s, validate_description d (Text s) = Ok tt <-> text rfc_style d s.

(** What holds of every text: it is valid exactly if it is a text of the code's own style, perhaps
    with a final newline; every other text raises InvalidSyntaxError. *)
Theorem C69_exact_partial d s :
  (or_newline (text code_style d) s /\ validate_description d (Text s) = Ok tt) \/
  (~ or_newline (text code_style d) s /\ validate_description d (Text s) = Raise InvalidSyntaxError).
Proof.
  pose proof (description_decides d s) as (H1 & H2 & H3). cbn beta in *. destruct (validate_description d (Text s)) as [[]|e] eqn:E.
  - left. auto.
  - right. assert (N : ~ or_newline (text code_style d) s) by (intro H; apply H1 in H; discriminate). split; [exact N|now apply H2].
Qed.
(** Texts that are both: upper case keywords, no empty list, at most one extension after a single
    space, no OBSOLETE in DIT rules, no MAY in content rules *)
Theorem C69_rfc_partial d s : text both_style d s -> text rfc_style d s /\ validate_description d (Text s) = Ok tt.
Proof.
  intros H. split; [exact (wider_text _ _ both_rfc d s H)|].
  destruct (C69_exact_partial d s) as [[_ E]|[N _]]; [exact E|]. destruct N. left. exact (wider_text _ _ both_code d s H).
Qed.
(** Bytes are never text. *)
Theorem C69_bytes d b : exists e, validate_description d (Bytes b) = Raise e.
Proof. eexists. reflexivity. Qed.

(** ** Texts of RFC 4512 that are refused *)
Definition wrongly_refused (d : drule) (s : str) : Prop := text rfc_style d s /\ validate_description d (Text s) = Raise InvalidSyntaxError.
Definition wrongly_accepted (d : drule) (s : str) : Prop := ~ text rfc_style d s /\ validate_description d (Text s) = Ok tt.
Ltac refused := split; [apply is_rfc_text; vm_compute; reflexivity|vm_compute; reflexivity].
Ltac accepted := split; [apply no_rfc_text; vm_compute; reflexivity|vm_compute; reflexivity].

Theorem C69_refuted_content_rule_may : wrongly_refused DITContentRuleDescription (lit "( 1.2 MAY cn )").
Proof. refused. Qed.
Theorem C69_refuted_dit_obsolete :
  wrongly_refused DITContentRuleDescription (lit "( 1.2 OBSOLETE AUX a )") /\
  wrongly_refused DITStructureRuleDescription (lit "( 1 OBSOLETE FORM a )").
Proof. split; refused. Qed.
(** a short description of each kind, without its end *)
Definition start (d : drule) : str :=
  match d with
  | DITStructureRuleDescription => lit "( 1 FORM a" | MatchingRuleDescription => lit "( 1.2 SYNTAX 1.3"
  | MatchingRuleUseDescription => lit "( 1.2 APPLIES a" | NameFormDescription => lit "( 1.2 OC a MUST b"
  | _ => lit "( 1.2" end.
Theorem C69_refuted_two_extensions d :
  validate_description d (Text (start d ++ lit " X-A 'b' )")) = Ok tt /\ wrongly_refused d (start d ++ lit " X-A 'b' X-C 'd' )").
Proof. split; [destruct d; vm_compute; reflexivity|destruct d; refused]. Qed.
Theorem C69_refuted_extension_spaces d : wrongly_refused d (start d ++ lit "  X-A 'b' )") /\ wrongly_refused d (start d ++ lit " X-A  'b' )").
Proof. split; destruct d; refused. Qed.
Theorem C69_refuted_extension_case d : wrongly_refused d (start d ++ lit " x-A 'b' )").
Proof. destruct d; refused. Qed.
Theorem C69_refuted_empty_list d : wrongly_refused d (start d ++ lit " X-A () )").
Proof. destruct d; refused. Qed.
Theorem C69_refuted_keyword_case d : exists s, wrongly_refused d s.
Proof.
  exists (match d with
    | DITStructureRuleDescription => lit "( 1 form a )" | MatchingRuleDescription => lit "( 1.2 syntax 1.3 )"
    | MatchingRuleUseDescription => lit "( 1.2 applies a )" | NameFormDescription => lit "( 1.2 oc a MUST b )"
    | _ => lit "( 1.2 desc 'b' )" end).
  destruct d; refused.
Qed.
(** ** Texts that are accepted though not of RFC 4512 *)
Theorem C69_refuted_matching_rule_syntax :
  wrongly_accepted MatchingRuleDescription (lit "( 1.2 SYNTAX name )") /\ wrongly_accepted MatchingRuleDescription (lit "( 1.2 SYNTAX ( 1.3 $ 1.4 ) )").
Proof. split; accepted. Qed.
Theorem C69_refuted_final_newline d : wrongly_accepted d (start d ++ lit " )" ++ [10%N]).
Proof. destruct d; accepted. Qed.
Theorem C69_refuted_leading_zero d : exists s, wrongly_accepted d s.
Proof.
  exists (match d with
    | DITStructureRuleDescription => lit "( 01 FORM a )" | MatchingRuleDescription => lit "( 1.02 SYNTAX 1.3 )"
    | MatchingRuleUseDescription => lit "( 1.02 APPLIES a )" | NameFormDescription => lit "( 1.02 OC a MUST b )"
    | _ => lit "( 1.02 )" end).
  destruct d; accepted.
Qed.
(** so the claim fails of every description syntax *)
Theorem C69_refuted d : ~ C69_claim d.
Proof. intros H. destruct (C69_refuted_keyword_case d) as (s & Hs & E). apply H in Hs. congruence. Qed.

(** ** Cases *)
Example C69_nonvacuous_content : validate_description DITContentRuleDescription (Text (lit "( 2.5.6.4 NAME 'org' DESC 'x' OBSOLETE   AUX ( a $ 1.2 ) MUST cn NOT ( sn ) X-ORIGIN ( 'a' 'b' ) )")) = Ok tt.
Proof. vm_compute. reflexivity. Qed.
Example C69_nonvacuous_refused : validate_description NameFormDescription (Text (lit "( 1.2 OC a )")) = Raise InvalidSyntaxError.
Proof. vm_compute. reflexivity. Qed.
Ltac piece x := exists x; eexists; split; [reflexivity|]; split.
(** [both_style] has texts: a structure rule with names, a description, a form, superior rules and an extension *)
Example C69_nonvacuous_both : text both_style DITStructureRuleDescription (lit "( 2 NAME 'uddiContact' FORM form SUP ( 1 10 ) X-ORIGIN 'r' )").
Proof.
  assert (D : forall s, match s with c :: r => forallb (fun c => (48 <=? c) && (c <=? 57))%N s && (match r with [] => true | _ => negb (N.eqb c 48) end) | [] => false end = true -> rfc_number s).
  { intros [|c r] H; [discriminate|]. apply andb_prop in H as [H1 H2]. exists c, r. split; [reflexivity|]. split.
    - apply Forall_forall. intros x Hx. rewrite forallb_forall in H1. apply H1 in Hx. unfold DIGIT. lia.
    - intros Hr. destruct r; [congruence|]. intros ->. discriminate. }
  assert (A : forall s, forallb (fun c => (65 <=? c) && (c <=? 90) || (97 <=? c) && (c <=? 122))%N s = true -> Forall ALPHA s).
  { intros s H. apply Forall_forall. intros c Hc. rewrite forallb_forall in H. specialize (H c Hc). unfold ALPHA. lia. }
  assert (K : forall s, s <> [] -> Forall ALPHA s -> descr s).
  { intros [|c r] Hn H; [congruence|]. inversion H as [|c' r' Hc Hr]; subst. exists c, r. split; [reflexivity|]. split; [exact Hc|]. revert Hr. apply Forall_impl. auto. }
  assert (S1 : sp common (lit " ")) by (split; [discriminate|constructor; [reflexivity|constructor]]).
  assert (W1 : wsp common (lit " ")) by (constructor; [reflexivity|constructor]).
  piece (lit "("); [reflexivity|]. piece (lit " "); [exact W1|]. piece (lit "2"); [apply D; reflexivity|].
  piece (lit " NAME 'uddiContact'").
  { right. piece (lit " NAME"); [piece (lit " "); [exact S1|reflexivity]|]. piece (lit " "); [exact S1|]. left. exists [lit "uddiContact"]. left. exists (lit "uddiContact"). split; [reflexivity|].
    piece (lit "'"); [reflexivity|]. piece (lit "uddiContact"); [split; [reflexivity|apply K; [discriminate|apply A; reflexivity]]|reflexivity]. }
  piece (@nil N); [left; reflexivity|]. piece (@nil N); [reflexivity|].
  piece (lit " FORM form").
  { piece (lit " FORM"); [piece (lit " "); [exact S1|reflexivity]|]. piece (lit " "); [exact S1|]. left. apply K; [discriminate|apply A; reflexivity]. }
  piece (lit " SUP ( 1 10 )").
  { right. piece (lit " SUP"); [piece (lit " "); [exact S1|reflexivity]|]. piece (lit " "); [exact S1|]. exists [lit "1"; lit "10"]. right.
    piece (lit "("); [reflexivity|]. piece (lit " "); [exact W1|]. piece (lit "1 10"); [|piece (lit " "); [exact W1|reflexivity]].
    piece (lit "1"); [split; [reflexivity|apply D; reflexivity]|]. piece (lit " "); [exact S1|]. split; [reflexivity|apply D; reflexivity]. }
  piece (lit " X-ORIGIN 'r'").
  { right. piece (lit " X-"); [reflexivity|]. piece (lit "ORIGIN").
    { split; [discriminate|]. assert (H : Forall ALPHA (lit "ORIGIN")) by (apply A; reflexivity). revert H. apply Forall_impl. intros c H. left. exact H. }
    piece (lit " "); [reflexivity|]. left. piece (lit "'"); [reflexivity|]. piece (lit "r"); [|reflexivity].
    exists [lit "r"]. split; [discriminate|]. split; [|reflexivity]. constructor; [right; right; right; eexists; split; [reflexivity|split; discriminate]|constructor]. }
  piece (lit " "); [exact W1|reflexivity].
Qed.

Print Assumptions C69_exact_partial.
Print Assumptions C69_rfc_partial.
Print Assumptions C69_refuted.
Print Assumptions C69_refuted_two_extensions.
Print Assumptions C69_refuted_matching_rule_syntax.
