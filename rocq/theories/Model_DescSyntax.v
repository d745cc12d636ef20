(** * Model of the syntax rules for schema descriptions
    /repo/laurelin/ldap/rfc4512.py:75-138, /repo/laurelin/extensions/base_schema.py:1110-1113, 1147-1155,
    1382-1395, 1402-1405, 1412-1415 (RegexSyntaxRule: rules.py:58-82; re_anchor: utils.py:13-14).
    Simplification: the match object returned is not kept. *)
From Verif Require Import PyBase Model_Prep Model_Uri Model_Schema Model_Regex Model_Parse Model_Syntax.

(** '(?:' + SP + kw + SP + a + ')?' and the same without the question mark *)
Definition rneed (kw : string) (a : rx) : rx := RSeqs [rSP; RW kw; rSP; a].
Definition rmaybe (kw : string) (a : rx) : rx := ROpt (rneed kw a).
(** '(?:' + SP + kw + ')?' *)
Definition rword (kw : string) : rx := ROpt (RSeq rSP (RW kw)).
(** '(?:' + SP + r'OBSOLETE' + SP + r')?': rfc4512.py:109, 126 *)
Definition robsolete_sp : rx := ROpt (RSeqs [rSP; RW "OBSOLETE"; rSP]).

(** MatchingRuleDescription: rfc4512.py:75-83 *)
Definition rMatchingRuleDescription : rx := RSeqs [
  RC "("; rWSP; RGroup (lit "oid") rnumericoid;
  rmaybe "NAME" rqdescrs; rmaybe "DESC" rqdstring; rword "OBSOLETE";
  rneed "SYNTAX" roids;
  rextensions; rWSP; RC ")"].
(** MatchingRuleUseDescription: rfc4512.py:85-93 *)
Definition rMatchingRuleUseDescription : rx := RSeqs [
  RC "("; rWSP; RGroup (lit "oid") rnumericoid;
  rmaybe "NAME" rqdescrs; rmaybe "DESC" rqdstring; rword "OBSOLETE";
  rneed "APPLIES" roids;
  rextensions; rWSP; RC ")"].
(** SyntaxDescription: rfc4512.py:95-100 *)
Definition rSyntaxDescription : rx := RSeqs [
  RC "("; rWSP; RGroup (lit "oid") rnumericoid;
  rmaybe "DESC" rqdstring;
  rextensions; rWSP; RC ")"].
(** DITContentRuleDescription: rfc4512.py:102-112 *)
Definition rDITContentRuleDescription : rx := RSeqs [
  RC "("; rWSP; RGroup (lit "oid") rnumericoid;
  rmaybe "NAME" rqdescrs; rmaybe "DESC" rqdstring; robsolete_sp;
  rmaybe "AUX" roids; rmaybe "MUST" roids; rmaybe "NOT" roids;
  rextensions; rWSP; RC ")"].
(** ruleid, ruleidlist, ruleids: rfc4512.py:114-116 *)
Definition rruleid : rx := RPlus rDIGIT.
Definition rruleidlist : rx := RSeq rruleid (RStar (RSeq rSP rruleid)).
Definition rruleids : rx := RAlt rruleid (rparen rruleidlist).
(** DITStructureRuleDescription: rfc4512.py:118-127 *)
Definition rDITStructureRuleDescription : rx := RSeqs [
  RC "("; rWSP; rruleid;
  rmaybe "NAME" rqdescrs; rmaybe "DESC" rqdstring; robsolete_sp;
  rneed "FORM" roid; rmaybe "SUP" rruleids;
  rextensions; rWSP; RC ")"].
(** NameFormDescription: rfc4512.py:129-138 *)
Definition rNameFormDescription : rx := RSeqs [
  RC "("; rWSP; rnumericoid;
  rmaybe "NAME" rqdescrs; rmaybe "DESC" rqdstring; rword "OBSOLETE";
  rneed "OC" roid; rneed "MUST" roids; rmaybe "MAY" roids;
  rextensions; rWSP; RC ")"].

Inductive drule :=
| AttributeTypeDescription | DITContentRuleDescription | DITStructureRuleDescription | LDAPSyntaxDescription
| MatchingRuleDescription | MatchingRuleUseDescription | NameFormDescription | ObjectClassDescription.
Definition pattern (d : drule) : rx :=
  match d with
  | AttributeTypeDescription => rAttributeTypeDescription        (* base_schema.py:1110-1113 *)
  | DITContentRuleDescription => rDITContentRuleDescription      (* 1147-1150 *)
  | DITStructureRuleDescription => rDITStructureRuleDescription  (* 1152-1155 *)
  | LDAPSyntaxDescription => rSyntaxDescription                  (* 1382-1385 *)
  | MatchingRuleDescription => rMatchingRuleDescription          (* 1387-1390 *)
  | MatchingRuleUseDescription => rMatchingRuleUseDescription    (* 1392-1395 *)
  | NameFormDescription => rNameFormDescription                  (* 1402-1405 *)
  | ObjectClassDescription => rObjectClassDescription            (* 1412-1415 *)
  end.
Definition validate_description (d : drule) (v : value) : res unit := regex_rule (match_anchored (pattern d)) v.
