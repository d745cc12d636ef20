(** * What users may rely on with the shipped schema
    Stated over the rows of Spec_StdTable. *)
From Verif Require Import PyBase Model_Modify Model_Schema Model_Registration Model_Prep Model_Syntax Model_DescSyntax Model_Guide Model_StdText Model_Std
  Spec_Schema Spec_StdTable.
From Coq Require Import String.
Local Open Scope N_scope.

(** str.lower() and str.isdigit() on ASCII; elsewhere they may do anything *)
Definition is_ascii (s : str) : Prop := Forall (fun c => c < 128) s.
Definition python_text (lower : str -> str) (isdigit : N -> bool) : Prop :=
  (forall s, is_ascii s -> lower s = ascii_lower s) /\
  (forall c, c < 128 -> isdigit c = true <-> 48 <= c <= 57).

(** both modules imported and required, and nothing else *)
Definition loaded (lower : str -> str) (reserved : list str) (isdigit : N -> bool)
    (names1 names2 : str -> option (list str)) (defs : list (str * built)) (g : Model_Registration.registry) : Prop :=
  exists base ng,
    class_body isdigit names1 base_schema_text = Ok base /\ class_body isdigit names2 netgroups_text = Ok ng /\
    defs = (base ++ ng)%list /\ g = w_reg (snd (Model_Registration.run lower reserved (load_both base ng) empty_world)).

(** [n] is the numeric OID or, in any case, one of the names *)
Definition called (lower : str -> str) (isdigit : N -> bool) (oid : string) (names : list string) (n : str) : Prop :=
  exists c r, n = c :: r /\
    if isdigit c then n = lit oid else exists m, In m names /\ lower n = lower (lit m).
Definition class_called lower isdigit (r : class_row) (n : str) : Prop :=
  In r class_rows /\ called lower isdigit (c_oid r) (c_names r) n.
Definition type_called lower isdigit (r : type_row) (n : str) : Prop :=
  In r type_rows /\ called lower isdigit (t_oid r) (t_names r) n.
Definition lists (l : list string) (a : str) : Prop := exists m, In m l /\ a = lit m.

(** values.  A netgroup triple, possibly followed by a newline; the other syntaxes are the
    subjects of C13-C17, C60, C62 (Model_Syntax, Model_DescSyntax, Model_Guide) *)
Definition triple (s : str) : Prop :=
  exists h u d e, s = (lit "(" ++ h ++ lit "," ++ u ++ lit "," ++ d ++ lit ")" ++ e)%list /\
    ~ In (ch ",") h /\ ~ In (ch ",") u /\ ~ In (ch ")") d /\ (e = [] \/ e = [10]).
Definition meets (depth : nat) (order : str -> str) (i : impl) (v : str) : Prop :=
  match i with
  | ISyntax r => Model_Syntax.validate order r (Text v) = Ok tt
  | IDescription d => validate_description d (Text v) = Ok tt
  | IEnhancedGuide => enhanced_guide depth (Text v) = Ok tt
  | IGuide => guide depth (Text v) = Ok tt
  | ITriple => triple v
  end.
Definition obeys (depth : nat) (order : str -> str) (oid : string) (v : str) : Prop :=
  exists attr i, In (attr, RSyntax oid i) (base_schema_text ++ netgroups_text) /\ meets depth order i v.
Definition good_value (depth : nat) (order : str -> str) (r : type_row) (v : str) : Prop :=
  (forall n, t_limit r = Some n -> N.of_nat (List.length v) <= n) /\ obeys depth order (t_syntax r) v.
Definition good_values (depth : nat) (order : str -> str) (r : type_row) (vs : list str) (write : bool) : Prop :=
  (t_single r = true -> (List.length vs <= 1)%nat) /\
  (write = true -> t_no_user_mod r = false) /\
  Forall (good_value depth order r) vs.

(** objects: [ocs] the values of objectClass *)
Definition named_classes (lower : str -> str) (isdigit : N -> bool) (ocs : list str) : Prop :=
  forall n, In n ocs -> exists c rest, n = c :: rest /\ (isdigit c = true -> exists r, In r class_rows /\ n = lit (c_oid r)).
Definition fitting (lower : str -> str) (isdigit : N -> bool) (ocs keys : list str) : Prop :=
  (forall n r a, In n ocs -> class_called lower isdigit r n -> lists (c_must r) a -> In a keys) /\
  (forall a, In a keys -> exists n r, In n ocs /\ class_called lower isdigit r n /\ (lists (c_must r) a \/ lists (c_may r) a)).
Definition acceptable_object lower isdigit depth order (obj : list (str * list str)) (write : bool) : Prop :=
  exists k ocs, In (k, ocs) obj /\ lower k = lower (lit "objectClass") /\
    named_classes lower isdigit ocs /\ fitting lower isdigit ocs (map fst obj) /\
    forall a vs, In (a, vs) obj -> exists r, type_called lower isdigit r a /\ good_values depth order r vs write.

(** How the shipped equality rules compare *)
Inductive manner := Spelling | IgnoringCase | Literally | Digits | PhoneDigits | Dn | Time.
Definition manners : list (string * manner) := [
  ("caseExactMatch", Spelling); ("caseExactIA5Match", Spelling);
  ("caseIgnoreMatch", IgnoringCase); ("caseIgnoreIA5Match", IgnoringCase); ("caseIgnoreListMatch", IgnoringCase);
  ("numericStringMatch", Digits); ("telephoneNumberMatch", PhoneDigits);
  ("distinguishedNameMatch", Dn); ("generalizedTimeMatch", Time);
  ("bitStringMatch", Literally); ("booleanMatch", Literally); ("directoryStringFirstComponentMatch", Literally);
  ("integerFirstComponentMatch", Literally); ("integerMatch", Literally); ("objectIdentifierFirstComponentMatch", Literally);
  ("objectIdentifierMatch", Literally); ("octetStringMatch", Literally); ("uniqueMemberMatch", Literally)]%string.

(** their OIDs: RFC 4517 section 4.2 *)
Definition rule_oids : list (string * string) := [
  ("2.5.13.16", "bitStringMatch"); ("2.5.13.13", "booleanMatch"); ("1.3.6.1.4.1.1466.109.114.1", "caseExactIA5Match");
  ("2.5.13.5", "caseExactMatch"); ("1.3.6.1.4.1.1466.109.114.2", "caseIgnoreIA5Match"); ("2.5.13.11", "caseIgnoreListMatch");
  ("2.5.13.2", "caseIgnoreMatch"); ("2.5.13.31", "directoryStringFirstComponentMatch"); ("2.5.13.1", "distinguishedNameMatch");
  ("2.5.13.27", "generalizedTimeMatch"); ("2.5.13.29", "integerFirstComponentMatch"); ("2.5.13.14", "integerMatch");
  ("2.5.13.8", "numericStringMatch"); ("2.5.13.30", "objectIdentifierFirstComponentMatch"); ("2.5.13.0", "objectIdentifierMatch");
  ("2.5.13.17", "octetStringMatch"); ("2.5.13.20", "telephoneNumberMatch"); ("2.5.13.23", "uniqueMemberMatch")]%string.

(** what is compared (Model_Prep, C18, C19): the prepared values *)
Definition prepared (nfkc casefold : str -> str) (m : manner) (v : str) : res str :=
  match m with
  | Spelling => rule_prepare (prep_case_exact nfkc) v
  | IgnoringCase => rule_prepare (prep_case_ignore nfkc casefold) v
  | Digits => rule_prepare (prep_numeric nfkc) v
  | PhoneDigits => rule_prepare (prep_phone nfkc casefold) v
  | Literally | Dn | Time => Ok v
  end.
Definition alike (nfkc casefold : str -> str) (m : manner) (x v : str) : Prop :=
  exists p, prepared nfkc casefold m x = Ok p /\ prepared nfkc casefold m v = Ok p.
Definition compared (r : type_row) (m : manner) : Prop := exists name, t_equality r = Some name /\ In (name, m) manners.

(** the lists of classes as computed after asking for [must] of the classes numbered [is1] and for
    [may] of those numbered [is2], in that order; nothing else can have been asked for *)
Definition asked (lower : str -> str) (isdigit : N -> bool) (depth : nat) (g : Model_Registration.registry) (defs : list (str * built))
    (is1 is2 : list nat) : memo * memo :=
  (snd (accesses lower isdigit (class_view g) (std_classes defs) depth (fresh_must (std_classes defs)) is1),
   snd (accesses lower isdigit (class_view g) (std_classes defs) depth (fresh_may (std_classes defs)) is2)).
Definition classes (is : list nat) : Prop := Forall (fun i => (i < List.length class_rows)%nat) is.
