(** * Specification for C27-C31 and C53: schema elements and validation *)
From Verif Require Import PyBase Model_Schema.
From Coq Require Import Relations.

(** [Denotes g n i]: the name (in any case) or OID [n] stands for element [i] *)
Definition denotes (lower : str -> str) (isdigit : N -> bool) (g : registry) (n : str) (i : nat) : Prop :=
  exists c r, n = c :: r /\
    if isdigit c then dget (g_oids g) n = Some i else dget (g_names g) (lower n) = Some i.

(** a name, not an OID, that nothing is registered under *)
Definition unknown_name (lower : str -> str) (isdigit : N -> bool) (g : registry) (n : str) : Prop :=
  exists c r, n = c :: r /\ isdigit c = false /\ dget (g_names g) (lower n) = None.

Section S.
  Context (lower : str -> str) (isdigit : N -> bool).

  (** ** Object classes *)
  Section Classes.
    Context (g : registry) (classes : list oclass).

    Definition superclass (i j : nat) : Prop :=
      exists c s, nth_error classes i = Some c /\ In s (oc_sups c) /\ denotes lower isdigit g s j.
    (** the class itself or a superclass of it, at any distance *)
    Definition ancestor : nat -> nat -> Prop := clos_refl_trans nat superclass.

    (** attribute [a] is among the [own] attributes (MUST or MAY) of [i] or of an ancestor *)
    Definition inherits (own : oclass -> list str) (i : nat) (a : str) : Prop :=
      exists j c, ancestor i j /\ nth_error classes j = Some c /\ In a (own c).

    (** every superclass mentioned is a registered class or an unknown name *)
    Definition resolvable : Prop :=
      forall i c s, nth_error classes i = Some c -> In s (oc_sups c) ->
        (exists j, denotes lower isdigit g s j /\ j < List.length classes) \/ unknown_name lower isdigit g s.
    (** no class is its own ancestor: superclasses have a lower rank *)
    Definition acyclic : Prop :=
      exists rank : nat -> nat, forall i j, superclass i j -> rank j < rank i.
  End Classes.

  (** A history of accesses to [must] (or [may]) of classes, with all results *)
  Fixpoint accesses (g : registry) (classes : list oclass) (fuel : nat) (m : memo) (is : list nat)
      : list (res (list str)) * memo :=
    match is with
    | [] => ([], m)
    | i :: rest =>
        let (r, m1) := inherited lower isdigit g classes fuel m i in
        let (rs, m2) := accesses g classes fuel m1 rest in (r :: rs, m2)
    end.

  (** ** Attribute types *)
  Section Types.
    Context (g : registry) (types : list atype).

    (** the value of a feature: stated by the type itself; otherwise the supertype's; the
        general default if there is no supertype.  A supertype nobody registered provides
        only the flags and the usage. *)
    Inductive feature (f : field) : atype -> fval -> Prop :=
    | feature_own t v : at_own t f = Some v -> feature f t v
    | feature_root t : at_own t f = None -> super_of t = None -> feature f t (root_default f)
    | feature_super t s j t' v :
        at_own t f = None -> super_of t = Some s -> denotes lower isdigit g s j ->
        nth_error types j = Some t' -> feature f t' v -> feature f t v
    | feature_unknown t s v :
        at_own t f = None -> super_of t = Some s -> unknown_name lower isdigit g s ->
        default_attr f = Some v -> feature f t v.

    (** supertypes decrease in rank *)
    Definition types_ranked (rank : atype -> nat) : Prop :=
      forall t s j t', In t types -> super_of t = Some s -> denotes lower isdigit g s j -> nth_error types j = Some t' ->
        rank t' < rank t.

    Context (syntax_rule : str -> option (str -> res unit)).

    (** [v] satisfies the length limit and the syntax of the type *)
    Definition valid_value (t : atype) (v : str) : Prop :=
      (exists n, feature FLength t (VNum n) /\ (n < 0 \/ Z.of_nat (List.length v) <= n)%Z) /\
      (exists o rule, feature FSyntax t (VOid (Some o)) /\ o <> [] /\ syntax_rule o = Some rule /\ rule v = Ok tt).

    Definition valid_attribute (t : atype) (values : list str) (write : bool) : Prop :=
      (feature FSingle t (VFlag true) -> List.length values <= 1) /\
      (write = true -> ~ feature FNoUserMod t (VFlag true)) /\
      Forall (valid_value t) values.
  End Types.

  (** parsed specifications: each keyword yields the right kind of value *)
  Definition well_typed (t : atype) : Prop :=
    (forall v, at_own t FLength = Some v -> exists n, v = VNum n /\ (-1 <= n)%Z) /\
    (forall v, at_own t FSyntax = Some v -> exists o, v = VOid (Some o) /\ o <> []) /\
    (forall f v, (f = FObsolete \/ f = FSingle \/ f = FCollective \/ f = FNoUserMod) -> at_own t f = Some v -> v = VFlag true).

  (** ** Objects *)
  (** all attributes required by the object classes are there, and every attribute present is
      required or allowed by one of them *)
  Definition fits_classes (g : registry) (classes : list oclass) (ocs keys : list str) : Prop :=
    (forall n i a, In n ocs -> denotes lower isdigit g n i -> inherits g classes oc_must i a -> In a keys) /\
    (forall a, In a keys -> exists n i, In n ocs /\ denotes lower isdigit g n i /\
       (inherits g classes oc_must i a \/ inherits g classes oc_may i a)).
End S.

(** ** Disabled validators *)
(** code run with validators switched off; the body may do anything to the list, and
    may raise or not *)
Inductive prog :=
| Act (f : list vld -> list vld)
| With (names : list str) (body : list prog).

Section Run.
  (** what code inside sees: the log of the validator lists in force at each action *)
  Fixpoint run (p : prog) (vs : list vld) : list (list vld) * list vld :=
    match p with
    | Act f => ([vs], f vs)
    | With names body =>
        let (d, vs1) := ctx_enter (new_ctx names) vs in
        let '(log, vs2) :=
          (fix go (ps : list prog) (vs : list vld) :=
             match ps with
             | [] => ([], vs)
             | p :: rest => let (l1, v1) := run p vs in let (l2, v2) := go rest v1 in (l1 ++ l2, v2)
             end) body vs1 in
        (log, ctx_exit d vs2)
    end.
End Run.
