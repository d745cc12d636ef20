(** * The values of the description syntaxes (RFC 4517, 3.3.1 ... 3.3.24; RFC 4512, 4.1) *)
From Verif Require Import PyBase Model_Prep Model_Schema Spec_Search Spec_Parse Spec_Syntax Model_DescSyntax.
Local Open Scope N_scope.

(** A style: the dialect of the common parts, and the places where the code is not a dialect of the
    RFC: extensions, OBSOLETE in DIT rules, the syntax of a matching rule, MAY of a content rule. *)
Record style := mk_style { dia : dialect; exts : lang; dit_obsolete : lang; rule_syntax : lang; content_may : lang }.

Section Texts.
  Context (S : style).
  Let D := dia S.
  Definition names : lang := other_part D "NAME" (either (fun s => exists l, qdescrs D l s) (fun s => empty_list D /\ paren D (is []) s)).
  Definition desc : lang := other_part D "DESC" qdstring.
  Definition obsolete : lang := either (is []) (kw D "OBSOLETE").
  Definition some_oids : lang := fun s => exists l, oids D l s.
  Definition need (k : string) (P : lang) : lang := kw D k ;; sp D ;; P.
  Definition ruleids : lang := fun s => exists l, one_or_list D (fun x => such x (number D)) (sp D) l s.
  Definition flag (k : string) : lang := either (is []) (kw D k).
  Definition description (id : lang) (body : lang) : lang :=
    is (lit "(") ;; wsp D ;; id ;; body.
  Definition ending : lang := exts S ;; wsp D ;; is (lit ")").
  Definition text (d : drule) : lang :=
    match d with
    | AttributeTypeDescription => description (numericoid D) (names ;; desc ;; obsolete ;;
        other_part D "SUP" (oid D) ;; other_part D "EQUALITY" (oid D) ;; other_part D "ORDERING" (oid D) ;; other_part D "SUBSTR" (oid D) ;;
        other_part D "SYNTAX" (fun s => exists o len, noidlen D o len s) ;;
        flag "SINGLE-VALUE" ;; flag "COLLECTIVE" ;; flag "NO-USER-MODIFICATION" ;;
        other_part D "USAGE" (fun s => exists u, keyword D (lit (usage_word u)) s) ;; ending)
    | DITContentRuleDescription => description (numericoid D) (names ;; desc ;; dit_obsolete S ;;
        other_part D "AUX" some_oids ;; other_part D "MUST" some_oids ;; content_may S ;; other_part D "NOT" some_oids ;; ending)
    | DITStructureRuleDescription => description (number D) (names ;; desc ;; dit_obsolete S ;;
        need "FORM" (oid D) ;; other_part D "SUP" ruleids ;; ending)
    | LDAPSyntaxDescription => description (numericoid D) (desc ;; ending)
    | MatchingRuleDescription => description (numericoid D) (names ;; desc ;; obsolete ;; need "SYNTAX" (rule_syntax S) ;; ending)
    | MatchingRuleUseDescription => description (numericoid D) (names ;; desc ;; obsolete ;; need "APPLIES" some_oids ;; ending)
    | NameFormDescription => description (numericoid D) (names ;; desc ;; obsolete ;;
        need "OC" (oid D) ;; need "MUST" some_oids ;; other_part D "MAY" some_oids ;; ending)
    | ObjectClassDescription => description (numericoid D) (names ;; desc ;; obsolete ;;
        other_part D "SUP" some_oids ;; (fun s => exists k, kind_part D k s) ;;
        other_part D "MUST" some_oids ;; other_part D "MAY" some_oids ;; ending)
    end.
End Texts.

(** RFC 4512 *)
Definition rfc_style : style :=
  mk_style rfc4512 (extensions rfc4512) (either (is []) (kw rfc4512 "OBSOLETE")) (numericoid rfc4512)
    (other_part rfc4512 "MAY" (fun s => exists l, oids rfc4512 l s)).
(** one extension at most, with single spaces before and inside *)
Definition one_extension (D : dialect) : lang :=
  optional (is (lit " X-") ;; some xchar ;; is (lit " ") ;; qdstrings D).
(** what the code accepts: spaces only (no other white space), upper case keywords, leading zeros, no
    empty list; OBSOLETE of DIT rules needs spaces after it; any names for the syntax of a matching
    rule; no MAY in content rules *)
Definition bare : dialect := mk_dialect (fun c => c = 32) (fun k s => s = k) digits False (fun n => (n <= 1)%nat).
Definition code_style : style :=
  mk_style bare (one_extension bare) (either (is []) (kw bare "OBSOLETE" ;; sp bare)) (fun s => exists l, oids bare l s) (is []).
(** in both *)
Definition both_style : style :=
  mk_style common (one_extension common) (is []) (numericoid common) (is []).
