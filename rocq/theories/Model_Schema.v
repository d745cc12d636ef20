(** * Model of schema elements and schema validation
    /repo/laurelin/ldap/objectclass.py, attributetype.py, schema.py, validation.py,
    rules.py (registries), base.py:1212-1240.
    Simplifications: specifications are given in parsed form (parsing is a separate topic);
    [lower] (str.lower) and [isdigit] (str.isdigit of one character) are arbitrary;
    CaseIgnoreDict registries are association lists keyed by the folded name (C01); warnings
    are not modelled; Python's recursion limit appears as fuel ending in RecursionError. *)
From Verif Require Import PyBase.

Section Schema.
  Context (lower : str -> str) (isdigit : N -> bool).

  (** ** Registries of schema elements (elements are numbered) *)
  Record registry := mk_registry { g_oids : list (str * nat); g_names : list (str * nat) }.
  Definition no_elements := mk_registry [] [].

  (** get_object_class / get_attribute_type, None standing for the Default... object:
      objectclass.py:21-33, attributetype.py:20-33 *)
  Definition lookup (g : registry) (ident : str) : res (option nat) :=
    match ident with
    | [] => Raise IndexError
    | c :: _ =>
        if isdigit c then match dget (g_oids g) ident with Some i => Ok (Some i) | None => Raise KeyError end
        else Ok (dget (g_names g) (lower ident))
    end.

  (** register(): objectclass.py:113-124, attributetype.py:134-145 *)
  Fixpoint register_names (names : list str) (i : nat) (g : registry) : res unit * registry :=
    match names with
    | [] => (Ok tt, g)
    | n :: rest =>
        if dmem (g_names g) (lower n) then (Raise LDAPSchemaError, g)
        else register_names rest i (mk_registry (g_oids g) (dset (g_names g) (lower n) i))
    end.
  Definition register (oid : str) (names : list str) (i : nat) (g : registry) : res unit * registry :=
    if dmem (g_oids g) oid then (Raise LDAPSchemaError, g)
    else register_names names i (mk_registry (dset (g_oids g) oid i) (g_names g)).

  (** ** Object classes *)
  Record oclass := mk_oclass { oc_sups : list str; oc_must : list str; oc_may : list str }.

  (** For each class the list object that is both my_must and (once computed) _must, and
      whether _must has been set: objectclass.py:103-107, 127-138 ([self._must = self.my_must]
      aliases the list, [+=] extends it in place).  [must] and [may] are the same code on
      different lists; this is one of them. *)
  Definition memo := list (list str * bool).
  Definition set_nth {A} (l : list A) (i : nat) (x : A) : list A := firstn i l ++ x :: skipn (S i) l.

  Section Eval.
    Context (g : registry) (classes : list oclass).

    (** the loop [for oc in self.superclasses: self._must += get_object_class(oc).must]:
        objectclass.py:132-133 (146-147); [rec] evaluates the property of another class.  The
        list extended is the one the class holds when the right-hand side has been evaluated. *)
    Fixpoint add_supers (rec : memo -> nat -> res (list str) * memo) (i : nat) (ss : list str) (m : memo)
        : res unit * memo :=
      match ss with
      | [] => (Ok tt, m)
      | s :: rest =>
          match lookup g s with
          | Raise e => (Raise e, m)
          | Ok None => add_supers rec i rest m                     (* DefaultObjectClass: [] *)
          | Ok (Some j) =>
              let (r, m1) := rec m j in
              match r with
              | Raise e => (Raise e, m1)
              | Ok lj =>
                  match nth_error m1 i with
                  | Some (li, _) => add_supers rec i rest (set_nth m1 i (li ++ lj, true))
                  | None => (Raise AttributeError, m1)
                  end
              end
          end
      end.

    (** the property must (or may): objectclass.py:126-138 (140-152) *)
    Fixpoint inherited (fuel : nat) (m : memo) (i : nat) : res (list str) * memo :=
      match fuel with
      | 0 => (Raise RecursionError, m)
      | S fuel' =>
          match nth_error m i, nth_error classes i with
          | Some (l, true), _ => (Ok l, m)
          | Some (l, false), Some c =>
              let (r, m1) := add_supers (inherited fuel') i (oc_sups c) (set_nth m i (l, true)) in
              match r with
              | Raise e => (Raise e, m1)
              | Ok _ => match nth_error m1 i with Some (li, _) => (Ok li, m1) | None => (Raise AttributeError, m1) end
              end
          | _, _ => (Raise AttributeError, m)
          end
      end.

    Definition fresh_must : memo := map (fun c => (oc_must c, false)) classes.
    Definition fresh_may : memo := map (fun c => (oc_may c, false)) classes.
  End Eval.

  (** ** Attribute types *)
  Inductive field := FEquality | FSyntax | FLength | FObsolete | FSingle | FCollective | FNoUserMod | FUsage.
  Inductive fval := VOid (o : option str) | VNum (z : Z) | VFlag (b : bool) | VText (s : str).

  (** A parsed specification: supertype and what it states explicitly *)
  Record atype := mk_atype { at_super : option str; at_own : field -> option fval }.

  (** what __init__ sets when nothing is given and there is no supertype: attributetype.py:84-132 *)
  Definition root_default (f : field) : fval :=
    match f with
    | FEquality | FSyntax => VOid None
    | FLength => VNum (-1)
    | FObsolete | FSingle | FCollective | FNoUserMod => VFlag false
    | FUsage => VText (lit "userApplications")
    end.
  (** instance attributes after __init__: attributetype.py:72-132 (supertype is only a
      supertype if non-empty) *)
  Definition super_of (t : atype) : option str :=
    match at_super t with Some [] => None | o => o end.
  Definition instance_attr (t : atype) (f : field) : option fval :=
    match at_own t f with
    | Some v => Some v
    | None => match super_of t with None => Some (root_default f) | Some _ => None end
    end.
  (** instance attributes of DefaultAttributeType: attributetype.py:251-262 *)
  Definition default_attr (f : field) : option fval :=
    match f with
    | FEquality | FSyntax | FLength => None
    | FUsage => Some (VText (lit "userApplications"))
    | _ => Some (VFlag false)
    end.

  Section Types.
    Context (g : registry) (types : list atype).

    (** attribute access with __getattr__: attributetype.py:161-166 *)
    Fixpoint getfield (fuel : nat) (t : atype) (f : field) : res fval :=
      match fuel with
      | 0 => Raise RecursionError
      | S fuel' =>
          match instance_attr t f with
          | Some v => Ok v
          | None =>
              match super_of t with
              | None => Raise AttributeError
              | Some s =>
                  match lookup g s with
                  | Raise e => Raise e
                  | Ok None => match default_attr f with Some v => Ok v | None => Raise AttributeError end
                  | Ok (Some j) => match nth_error types j with Some t' => getfield fuel' t' f | None => Raise AttributeError end
                  end
              end
          end
      end.

    (** rules.get_syntax_rule(oid).validate: rules.py:14-18; None: not registered *)
    Context (syntax_rule : str -> option (str -> res unit)).

    (** AttributeType.validate: attributetype.py:168-179 with the property syntax 147-152 *)
    Definition type_validate (fuel : nat) (t : atype) (v : str) : res unit :=
      let* n := getfield fuel t FLength in
      let* _ := match n with
                | VNum z => if ((-1 <? z) && (z <? Z.of_nat (List.length v)))%Z then Raise InvalidSyntaxError else Ok tt
                | _ => Raise TypeError end in
      let* o := getfield fuel t FSyntax in
      match o with
      | VOid (Some (c :: r)) => match syntax_rule (c :: r) with Some rule => rule v | None => Raise KeyError end
      | _ => Raise LDAPSchemaError
      end.
    (** DefaultAttributeType.validate is inherited and reads syntax_length, which the class
        does not have: attributetype.py:168-175, 251-262 *)
    Definition default_validate (v : str) : res unit := Raise AttributeError.

    Fixpoint validate_all (val : str -> res unit) (vs : list str) : res unit :=
      match vs with [] => Ok tt | v :: rest => let* _ := val v in validate_all val rest end.

    Definition flag (r : res fval) : res bool :=
      let* v := r in Ok (match v with VFlag b => b | VOid (Some _) => true | VText (_ :: _) => true | VNum z => negb (Z.eqb z 0) | _ => false end).

    (** SchemaValidator._validate_attribute: schema.py:59-68 *)
    Definition validate_attribute (fuel : nat) (name : str) (values : list str) (write : bool) : res unit :=
      let* o := lookup g name in
      match o with
      | None => validate_all default_validate values
      | Some i =>
          match nth_error types i with
          | None => Raise AttributeError
          | Some t =>
              let* _ := flag (getfield fuel t FObsolete) in
              let* single := flag (getfield fuel t FSingle) in
              if single && (1 <? List.length values) then Raise LDAPValidationError
              else let* nomod := (if write then flag (getfield fuel t FNoUserMod) else Ok false) in
                   if nomod then Raise LDAPValidationError
                   else validate_all (type_validate fuel t) values
          end
      end.

    (** Validator.validate_modify: validation.py:25-38; a change is (attribute, values or
        DELETE_ALL); [if mod.vals] skips empty lists and DELETE_ALL (falsy) *)
    Fixpoint validate_modify (fuel : nat) (mods : list (str * list str)) : res unit :=
      match mods with
      | [] => Ok tt
      | (a, vs) :: rest =>
          let* _ := match vs with [] => Ok tt | _ => validate_attribute fuel a vs true end in
          validate_modify fuel rest
      end.

    (** Validator.validate_object: validation.py:12-23 *)
    Fixpoint validate_attributes (fuel : nat) (obj : list (str * list str)) (write : bool) : res unit :=
      match obj with
      | [] => Ok tt
      | (a, vs) :: rest => let* _ := validate_attribute fuel a vs write in validate_attributes fuel rest write
      end.
  End Types.

  (** ** SchemaValidator.validate_object: schema.py:21-57 *)
  (** collecting must and may of all classes: schema.py:33-38 *)
  Fixpoint collect (g : registry) (classes : list oclass) (fuel : nat) (ocs : list str) (mm : memo * memo)
      (req allow : list str) : res (list str * list str) * (memo * memo) :=
    match ocs with
    | [] => (Ok (req, allow), mm)
    | n :: rest =>
        match lookup g n with
        | Raise e => (Raise e, mm)
        | Ok None => collect g classes fuel rest mm req allow
        | Ok (Some i) =>
            let (r1, m1) := inherited g classes fuel (fst mm) i in
            match r1 with
            | Raise e => (Raise e, (m1, snd mm))
            | Ok must =>
                let (r2, m2) := inherited g classes fuel (snd mm) i in
                match r2 with
                | Raise e => (Raise e, (m1, m2))
                | Ok may => collect g classes fuel rest (m1, m2) (req ++ must) (allow ++ may)
                end
            end
        end
    end.

  Definition sremove (x : str) (l : list str) : list str := filter (fun y => negb (str_eqb y x)) l.

  (** the loop over the keys: schema.py:39-46 *)
  Fixpoint check_keys (keys req allow dis : list str) : list str * list str :=
    match keys with
    | [] => (req, dis)
    | k :: rest =>
        if smem k req then check_keys rest (sremove k req) allow dis
        else if smem k allow then check_keys rest req allow dis
        else check_keys rest req allow (dis ++ [k])
    end.

  (** obj['objectClass'] on a case-insensitive dictionary *)
  Definition object_classes (obj : list (str * list str)) : option (list str) :=
    match find (fun kv => str_eqb (lower (fst kv)) (lower (lit "objectClass"))) obj with
    | Some kv => Some (snd kv) | None => None end.

  Definition schema_validate_object (g : registry) (classes : list oclass) (fuel : nat)
      (attrs_ok : list (str * list str) -> bool -> res unit)
      (mm : memo * memo) (obj : list (str * list str)) (write : bool) : res unit * (memo * memo) :=
    match object_classes obj with
    | None => (Raise LDAPValidationError, mm)
    | Some ocs =>
        let (r, mm') := collect g classes fuel ocs mm [] [] in
        match r with
        | Raise e => (Raise e, mm')
        | Ok (req, allow) =>
            let (missing, dis) := check_keys (map fst obj) req allow [] in
            match missing, dis with
            | _ :: _, _ | [], _ :: _ => (Raise LDAPValidationError, mm')
            | [], [] => (attrs_ok obj write, mm')
            end
        end
    end.

  (** LDAP._run_validation: base.py:1212-1217: AttributeError from a validator is taken to
      mean that the validator lacks the method *)
  Fixpoint run_validation (validators : list (unit -> res unit)) : res unit :=
    match validators with
    | [] => Ok tt
    | v :: rest =>
        match v tt with
        | Ok _ | Raise AttributeError => run_validation rest
        | Raise e => Raise e
        end
    end.
End Schema.

(** ** DisabledValidationContext: validation.py:53-80 *)
(** A validator is its class name and an identity. *)
Definition vld := (str * nat)%type.
(** The context object: names to disable and the saved validators *)
Record dctx := mk_dctx { d_names : list str; d_orig : list vld }.
Definition new_ctx (names : list str) : dctx := mk_dctx names [].
Definition ctx_enter (d : dctx) (validators : list vld) : dctx * list vld :=
  (mk_dctx (d_names d) (d_orig d ++ validators),
   match d_names d with
   | [] => []
   | _ => filter (fun v => negb (smem (fst v) (d_names d))) validators
   end).
Definition ctx_exit (d : dctx) (validators : list vld) : list vld := d_orig d.
