(** * Text forms of domains and constants (C92) *)
From Verif Require Import PyBase Model_CIDict Model_Modify Model_Search Spec_Search Model_Const.
Local Open Scope string_scope.

(** a DNS domain name: labels between dots *)
Definition domain_of (labels : list str) (d : str) : Prop :=
  labels <> [] /\ Forall (fun l => ~ In (ch ".") l) labels /\ d = joined (ch ".") labels.
(** the DN of domain components of it *)
Definition dn_of (labels : list str) (dn : str) : Prop := dn = joined (ch ",") (map (fun l => lit "dc=" ++ l)%list labels).
(** labels that need no escaping *)
Definition plain_text (s : str) : Prop := ~ In (ch ",") s /\ ~ In (ch "=") s.

(** what one writes in a program, and what it denotes *)
Definition scope_words : list (string * enum) := [("base", Scope_BASE); ("one", Scope_ONE); ("sub", Scope_SUB)].
Definition syntax_words : list (string * fsyntax) := [("STANDARD", STANDARD); ("SIMPLE", SIMPLE); ("UNIFIED", UNIFIED)].
Definition mod_words : list (string * string * enum) := [("add", "ADD", Mod_ADD); ("replace", "REPLACE", Mod_REPLACE); ("delete", "DELETE", Mod_DELETE)].
Definition scope_expressions : list (string * enum) := [("Scope.BASE", Scope_BASE); ("Scope.ONE", Scope_ONE); ("Scope.SUB", Scope_SUB)].
Definition deref_expressions : list (string * enum) :=
  [("DerefAliases.NEVER", Deref_NEVER); ("DerefAliases.SEARCH", Deref_SEARCH); ("DerefAliases.BASE", Deref_BASE); ("DerefAliases.ALWAYS", Deref_ALWAYS)].
Definition mod_expressions : list (string * enum) := [("Mod.ADD", Mod_ADD); ("Mod.REPLACE", Mod_REPLACE); ("Mod.DELETE", Mod_DELETE)].
(** the numbers of RFC 4511, 4.5.1 and 4.6 *)
Definition numbered (e : enum) (z : Z) : Prop := e_value e = Some z.
