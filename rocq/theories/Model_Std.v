(** * Loading the shipped schema and using it
    /repo/laurelin/extensions/base_schema.py, netgroups.py:83-121 (texts in Model_StdText),
    attributetype.py:147-202, objectclass.py:153-169, 197-200, rules.py:14-18, 86-101.
    The parts are the models of other topics: construction of elements from their text
    (Model_Parse), registration (Model_Registration), features, inheritance and validation
    (Model_Schema), validate() of the syntax rules (Model_Syntax, Model_DescSyntax, Model_Guide),
    equality rules (Model_Prep), index (Model_Modify).  Simplifications: attribute values are
    text (what the rules say about bytes is Model_Syntax); elements of one kind are numbered in
    definition order, and the number stands for the identity of the element; rule classes are
    used directly instead of their single instances (C73). *)
From Verif Require Import PyBase Model_CIDict Model_Modify Model_Schema Model_Registration Model_Regex Model_Parse
  Model_Prep Model_Uri Model_Syntax Model_DescSyntax Model_Guide Model_StdText.

(** ** Importing a module: the class body is executed, elements are constructed *)
Inductive built :=
| BClass (extensible : bool) (c : pclass)
| BType (t : ptype)
| BSyntax (oid : str) (i : impl)
| BMatching (oid name syntax : str) (c : compare).

Section Import.
  Context (isdigit : N -> bool) (names_of : str -> option (list str)).
  (** ObjectClass(...), ExtensibleObjectClass(...): objectclass.py:81-108; AttributeType(...):
      attributetype.py:67-132; class statements *)
  Definition construct (r : raw) : res built :=
    match r with
    | RClass ext spec => let* c := object_class isdigit names_of (lit spec) in Ok (BClass ext c)
    | RType spec => let* t := attribute_type (lit spec) in Ok (BType t)
    | RSyntax oid i => Ok (BSyntax (lit oid) i)
    | RMatching oid name syntax c => Ok (BMatching (lit oid) (lit name) (lit syntax) c)
    end.
  (** the body of class LaurelinSchema, in order: base_schema.py:50-1623, netgroups.py:97-121 *)
  Fixpoint class_body (l : list (string * raw)) : res (list (str * built)) :=
    match l with
    | [] => Ok []
    | (attr, r) :: rest => let* b := construct r in let* bs := class_body rest in Ok ((lit attr, b) :: bs)
    end.
End Import.

(** ** What register() looks at, with elements of each kind numbered *)
Definition count (p : built -> bool) (l : list (str * built)) : nat := List.length (List.filter (fun x => p (snd x)) l).
Definition is_class (b : built) : bool := match b with BClass _ _ => true | _ => false end.
Definition is_type (b : built) : bool := match b with BType _ => true | _ => false end.
Definition is_syntax (b : built) : bool := match b with BSyntax _ _ => true | _ => false end.
Definition is_matching (b : built) : bool := match b with BMatching _ _ _ _ => true | _ => false end.
Definition element (before : list (str * built)) (b : built) : elem :=
  match b with
  | BClass _ c => mk_elem (count is_class before) (KClass (pc_oid c) (pc_names c))
  | BType t => mk_elem (count is_type before) (KAttr (pt_oid t) (pt_names t))
  | BSyntax oid _ => mk_elem (count is_syntax before) (KSyntax oid)
  | BMatching oid name _ _ => mk_elem (count is_matching before) (KMatching oid name)
  end.
Fixpoint elements (before rest : list (str * built)) : body :=
  match rest with
  | [] => []
  | (attr, b) :: rest' => (attr, Some (element before b)) :: elements (before ++ [(attr, b)]) rest'
  end.

(** import of the two modules and require() on each: extensible/base.py, registration.py;
    netgroups.py:83 requires base_schema before its own classes are defined *)
Definition base_module : str := lit "laurelin.extensions.base_schema".
Definition netgroups_module : str := lit "laurelin.extensions.netgroups".
Definition load_base (base : list (str * built)) : list event :=
  [Define base_module (elements [] base); Require base_module].
Definition load_both (base ng : list (str * built)) : list event :=
  load_base base ++ [Define netgroups_module (elements base ng); Require netgroups_module].

(** ** The dictionaries as Model_Schema sees them *)
Definition entries (t : table) (g : Model_Registration.registry) : list (str * nat) :=
  flat_map (fun x => let '(t', k, e) := x in if table_eqb t' t then [(k, e_id e)] else []) g.
Definition view (oids names : table) (g : Model_Registration.registry) : Model_Schema.registry :=
  mk_registry (entries oids g) (entries names g).
Definition class_view := view TClassOid TClassName.
Definition type_view := view TAttrOid TAttrName.

Definition classes_of (l : list (str * built)) : list (bool * pclass) :=
  flat_map (fun x => match snd x with BClass e c => [(e, c)] | _ => [] end) l.
Definition types_of (l : list (str * built)) : list ptype :=
  flat_map (fun x => match snd x with BType t => [t] | _ => [] end) l.
Definition syntaxes_of (l : list (str * built)) : list (str * impl) :=
  flat_map (fun x => match snd x with BSyntax o i => [(o, i)] | _ => [] end) l.
Definition matchings_of (l : list (str * built)) : list (str * str * str * compare) :=
  flat_map (fun x => match snd x with BMatching o n s c => [(o, n, s, c)] | _ => [] end) l.
Definition oclass_of (c : pclass) : oclass := mk_oclass (pc_sups c) (pc_must c) (pc_may c).

(** ** Syntax rules *)
(** _TRIPLE_RE: netgroups.py:89; the anchors are match_anchored *)
Definition rtriple : rx := RSeqs [
  RC "("; RGroup (lit "1") (RStar (RNot [(44, 44)]%N)); RC ","; RGroup (lit "2") (RStar (RNot [(44, 44)]%N)); RC ",";
  RGroup (lit "3") (RStar (RNot [(41, 41)]%N)); RC ")"].
Definition impl_validate (depth : nat) (order : str -> str) (i : impl) (v : value) : res unit :=
  match i with
  | ISyntax r => Model_Syntax.validate order r v
  | IDescription d => validate_description d v
  | IEnhancedGuide => enhanced_guide depth v
  | IGuide => guide depth v
  | ITriple => regex_rule (match_anchored rtriple) v
  end.

Section Use.
  Context (lower : str -> str) (isdigit : N -> bool).
  (** recursion depth, order of sets, unicodedata.normalize, str.casefold *)
  Context (depth : nat) (order : str -> str) (nfkc casefold : str -> str).
  Context (g : Model_Registration.registry) (defs : list (str * built)).

  (** get_syntax_rule(oid).validate: rules.py:14-18; None: KeyError *)
  Definition rule_validate (oid : str) : option (value -> res unit) :=
    match rget g TSyntax oid with
    | None => None
    | Some e => match nth_error (syntaxes_of defs) (e_id e) with
                | Some (_, i) => Some (impl_validate depth order i)
                | None => None end
    end.
  Definition text_rule (oid : str) : option (str -> res unit) :=
    match rule_validate oid with Some f => Some (fun s => f (Text s)) | None => None end.

  (** the rule a class describes; the time rule validates by its own SYNTAX: rules.py:143-145,
      base_schema.py:1566-1569 *)
  Definition rule_of (syntax : str) (c : compare) : mrule :=
    match c with
    | CPlain => octetStringMatch
    | CExact => caseExactMatch nfkc
    | CIgnore => caseIgnoreMatch nfkc casefold
    | CNumeric => numericStringMatch nfkc
    | CPhone => telephoneNumberMatch nfkc casefold
    | CDn => distinguishedNameMatch
    | CTime => generalizedTimeMatch (fun v => match text_rule syntax with Some f => f v | None => Raise KeyError end)
    end.
  (** get_matching_rule(ident): rules.py:86-101 *)
  Definition matching_rule (ident : str) : res mrule :=
    match ident with
    | [] => Raise IndexError
    | c :: _ =>
        match (if isdigit c then rget g TMatchOid ident else rget g TMatchName (lower ident)) with
        | None => Raise KeyError
        | Some e => match nth_error (matchings_of defs) (e_id e) with
                    | Some (_, _, syntax, k) => Ok (rule_of syntax k)
                    | None => Raise KeyError end
        end
    end.

  Definition std_types : list atype := map pt_type (types_of defs).
  (** AttributeType.equality: attributetype.py:154-159 *)
  Definition equality (t : atype) : res mrule :=
    let* v := getfield lower isdigit (type_view g) std_types depth t FEquality in
    match v with
    | VOid (Some (c :: r)) => matching_rule (c :: r)
    | _ => Raise LDAPSchemaError
    end.
  (** what AttributeType.index uses: attributetype.py:168-202 *)
  Definition usable (t : atype) : attr_type :=
    mk_attr_type (type_validate lower isdigit (type_view g) std_types text_rule depth t)
      (fun v => let* r := equality t in rule_prepare (mr_prep r) v)
      (fun p a => let* r := equality t in mr_do_match r p a).
  (** get_attribute_type(attr).index: attributetype.py:20-33, 182-202, 271-272 *)
  Definition std_index (attr : str) (l : list str) (v : str) : res nat :=
    let* o := lookup lower isdigit (type_view g) attr in
    match o with
    | None => list_index l v
    | Some i => match nth_error std_types i with
                | Some t => at_index (usable t) l v
                | None => Raise AttributeError end
    end.

  Definition std_classes : list oclass := map (fun ec => oclass_of (snd ec)) (classes_of defs).
  (** SchemaValidator.validate_object and validate_modify on this schema: schema.py:21-68 *)
  Definition std_validate_object (mm : memo * memo) (obj : list (str * list str)) (write : bool) : res unit * (memo * memo) :=
    schema_validate_object lower isdigit (class_view g) std_classes depth
      (validate_attributes lower isdigit (type_view g) std_types text_rule depth) mm obj write.
  Definition std_validate_modify (mods : list (str * list str)) : res unit :=
    validate_modify lower isdigit (type_view g) std_types text_rule depth mods.

  (** get_object_class(name).allowed_attr(attr) and required_attr(attr): objectclass.py:153-169,
      ExtensibleObjectClass.allowed_attr: 199-200; a DefaultObjectClass (175-191) has empty lists.
      [mm] holds the lists computed so far (must, may). *)
  Definition required_attr (mm : memo * memo) (oc attr : str) : res bool * (memo * memo) :=
    match lookup lower isdigit (class_view g) oc with
    | Raise e => (Raise e, mm)
    | Ok None => (Ok false, mm)
    | Ok (Some i) =>
        let (r, m1) := inherited lower isdigit (class_view g) std_classes depth (fst mm) i in
        (let* must := r in Ok (smem attr must), (m1, snd mm))
    end.
  Definition allowed_attr (mm : memo * memo) (oc attr : str) : res bool * (memo * memo) :=
    match lookup lower isdigit (class_view g) oc with
    | Raise e => (Raise e, mm)
    | Ok None => (Ok false, mm)
    | Ok (Some i) =>
        if match nth_error (classes_of defs) i with Some (ext, _) => ext | None => false end then (Ok true, mm)
        else
          let (r2, m2) := inherited lower isdigit (class_view g) std_classes depth (snd mm) i in
          match r2 with
          | Raise e => (Raise e, (fst mm, m2))
          | Ok may =>
              if smem attr may then (Ok true, (fst mm, m2))
              else let (r1, m1) := inherited lower isdigit (class_view g) std_classes depth (fst mm) i in
                   (let* must := r1 in Ok (smem attr must), (m1, m2))
          end
    end.
End Use.
