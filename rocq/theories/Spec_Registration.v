(** * Vocabulary for C41, independent of how registration works *)
From Verif Require Import PyBase Model_Registration.

(** The identifiers under which an element is to be found: dictionary and key *)
Definition identifiers (lower : str -> str) (e : elem) : list (table * str) :=
  match e_kind e with
  | KSyntax oid => [(TSyntax, oid)]
  | KMatching oid name =>
      (if empty_str oid then [] else [(TMatchOid, oid)]) ++ (if empty_str name then [] else [(TMatchName, lower name)])
  | KAttr oid names => (TAttrOid, oid) :: map (fun n => (TAttrName, lower n)) names
  | KClass oid names => (TClassOid, oid) :: map (fun n => (TClassName, lower n)) names
  | KControl _ keyword req _ resp =>
      (if empty_str req then [] else [(TCtlKeyword, keyword); (TCtlRequest, req)])
      ++ (if empty_str resp then [] else [(TCtlResponse, resp)])
  end.

(** A control declares everything it needs (docs: creating_extensions.rst) *)
Definition complete (reserved : list str) (e : elem) : Prop :=
  match e_kind e with
  | KControl has_method keyword req attr resp =>
      (req <> [] -> has_method = true /\ keyword <> [] /\ ~ In keyword reserved) /\ (resp <> [] -> attr <> [])
  | _ => True
  end.

(** The elements a class body declares: its public attributes that are elements, in order *)
Fixpoint declared (b : body) : list elem :=
  match b with
  | [] => []
  | (attr, Some e) :: b' =>
      match attr with
      | c :: _ => if N.eqb c (ch "_") then declared b' else e :: declared b'
      | [] => e :: declared b'
      end
  | (_, None) :: b' => declared b'
  end.

(** The elements a history declares for a module *)
Fixpoint declares (m : str) (evs : list event) : list elem :=
  match evs with
  | [] => []
  | Define m' b :: rest => (if str_eqb m' m then declared b else []) ++ declares m rest
  | Require _ :: rest => declares m rest
  end.

(** All elements a history declares *)
Fixpoint declares_all (evs : list event) : list elem :=
  match evs with
  | [] => []
  | Define _ b :: rest => declared b ++ declares_all rest
  | Require _ :: rest => declares_all rest
  end.

(** [k] is the module [m] or one of its submodules *)
Definition within (m k : str) : Prop := k = m \/ exists s, k = m ++ lit "." ++ s.

(** Successful registrations in a history of register() calls *)
Fixpoint successes (log : list (elem * res unit)) : list elem :=
  match log with
  | [] => []
  | (e, Ok _) :: rest => e :: successes rest
  | (_, Raise _) :: rest => successes rest
  end.

(** ** Well-behaved histories *)
(** Elements are complete and no identifier is declared twice *)
Definition consistent (lower : str -> str) (reserved : list str) (evs : list event) : Prop :=
  NoDup (flat_map (identifiers lower) (declares_all evs)) /\ Forall (complete reserved) (declares_all evs).
(** require() is never called for both a package and one of its submodules *)
Definition independent (evs : list event) : Prop :=
  forall m m', In (Require m) evs -> In (Require m') evs -> within m m' -> m' = m.
(** modules are completely imported when they are required *)
Definition imported_first (evs : list event) : Prop :=
  forall p m q k, evs = p ++ Require m :: q -> within m k -> declares k q = [].
(** a package that is required declares its own elements, if any, before importing submodules
    with elements *)
Definition package_first (evs : list event) : Prop :=
  forall m k p b q, evs = p ++ Define k b :: q -> In (Require m) evs -> within m k -> k <> m ->
    declared b <> [] -> declares m evs <> [] -> declares m p <> [].
