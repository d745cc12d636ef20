(** * Model of the two-step registration of schema elements and controls
    /repo/laurelin/ldap/extensible/registration.py, the register() methods of rules.py,
    attributetype.py, objectclass.py and controls.py.
    Simplifications: an element is what its register() looks at, plus a number standing for its
    identity; the ten module-level dictionaries are one association list keyed by (dictionary,
    key); [lower] (str.lower) is arbitrary and CaseIgnoreDict keys are the folded names (C01);
    logging is not modelled. *)
From Verif Require Import PyBase Model_Uri.

(** The module-level dictionaries: rules.py:10, 81-82; attributetype.py:12-13;
    objectclass.py:12-13; controls.py:13-15 *)
Inductive table :=
| TSyntax | TMatchOid | TMatchName | TAttrOid | TAttrName | TClassOid | TClassName
| TCtlKeyword | TCtlRequest | TCtlResponse.

Definition table_eqb (a b : table) : bool :=
  match a, b with
  | TSyntax, TSyntax | TMatchOid, TMatchOid | TMatchName, TMatchName | TAttrOid, TAttrOid
  | TAttrName, TAttrName | TClassOid, TClassOid | TClassName, TClassName
  | TCtlKeyword, TCtlKeyword | TCtlRequest, TCtlRequest | TCtlResponse, TCtlResponse => true
  | _, _ => false
  end.

(** What register() reads of a schema element or control: rules.py:26, 93-98;
    attributetype.py:64-75; objectclass.py:56-64; controls.py:98-115 *)
Inductive kind :=
| KSyntax (oid : str)
| KMatching (oid name : str)
| KAttr (oid : str) (names : list str)
| KClass (oid : str) (names : list str)
| KControl (has_method : bool) (keyword request_oid response_attr response_oid : str).
Record elem := mk_elem { e_id : nat; e_kind : kind }.

Definition registry := list (table * str * elem).
Fixpoint rget (g : registry) (t : table) (k : str) : option elem :=
  match g with
  | [] => None
  | (t', k', e) :: g' => if table_eqb t' t && str_eqb k' k then Some e else rget g' t k
  end.
Definition rmem (g : registry) (t : table) (k : str) : bool :=
  match rget g t k with Some _ => true | None => false end.
(** d[k] = e; only used on absent keys *)
Definition rset (g : registry) (t : table) (k : str) (e : elem) : registry := (t, k, e) :: g.

Definition empty_str (s : str) : bool := match s with [] => true | _ => false end.

Section Registration.
  Context (lower : str -> str).
  (** _reserved_kwds: controls.py:18 *)
  Context (reserved : list str).

  Fixpoint register_names (t : table) (names : list str) (e : elem) (g : registry) : res unit * registry :=
    match names with
    | [] => (Ok tt, g)
    | n :: rest =>
        if rmem g t (lower n) then (Raise LDAPSchemaError, g)
        else register_names t rest e (rset g t (lower n) e)
    end.

  (** The register() methods.  SyntaxRule: rules.py:38-47 (for a duplicate, get_obj_module is
      given the class's name, a str, which has neither __module__ nor __name__: utils.py:196-202
      raises AttributeError).  MatchingRule: rules.py:127-136.  AttributeType:
      attributetype.py:136-146.  ObjectClass: objectclass.py:113-123.  Control:
      controls.py:146-168. *)
  Definition register (e : elem) (g : registry) : res unit * registry :=
    match e_kind e with
    | KSyntax oid => if rmem g TSyntax oid then (Raise AttributeError, g) else (Ok tt, rset g TSyntax oid e)
    | KMatching oid name =>
        let second (g : registry) :=
          if empty_str name then (Ok tt, g)
          else if rmem g TMatchName (lower name) then (Raise LDAPSchemaError, g)
          else (Ok tt, rset g TMatchName (lower name) e) in
        if empty_str oid then second g
        else if rmem g TMatchOid oid then (Raise LDAPSchemaError, g)
        else second (rset g TMatchOid oid e)
    | KAttr oid names =>
        if rmem g TAttrOid oid then (Raise LDAPSchemaError, g)
        else register_names TAttrName names e (rset g TAttrOid oid e)
    | KClass oid names =>
        if rmem g TClassOid oid then (Raise LDAPSchemaError, g)
        else register_names TClassName names e (rset g TClassOid oid e)
    | KControl has_method keyword request_oid response_attr response_oid =>
        let second (g : registry) :=
          if empty_str response_oid then (Ok tt, g)
          else if empty_str response_attr then (Raise ValueError, g)
          else if rmem g TCtlResponse response_oid then (Raise LDAPExtensionError, g)
          else (Ok tt, rset g TCtlResponse response_oid e) in
        if empty_str request_oid then second g
        else if negb has_method then (Raise ValueError, g)
        else if empty_str keyword then (Raise ValueError, g)
        else if smem keyword reserved then (Raise LDAPExtensionError, g)
        else if rmem g TCtlKeyword keyword then (Raise LDAPExtensionError, g)
        else if rmem g TCtlRequest request_oid then (Raise LDAPExtensionError, g)
        else second (rset (rset g TCtlKeyword keyword e) TCtlRequest request_oid e)
    end.

  (** The state of the interpreter: _preregistered_elements and _registered_mods
      (registration.py:12-13), the dictionaries above, and (ghost) the history of register()
      calls with their outcomes *)
  Record world := mk_world {
    w_pre : list (str * list elem);
    w_done : list str;
    w_reg : registry;
    w_log : list (elem * res unit)
  }.
  Definition empty_world := mk_world [] [] [] [].

  (** A class body: attribute names and values in definition order; None is any value that is
      neither a SyntaxRule, MatchingRule or Control subclass nor an ObjectClass or
      AttributeType instance *)
  Definition body := list (str * option elem).

  (** One round of the metaclass loop: registration.py:25-39 *)
  Definition prereg (m : str) (pre : list (str * list elem)) (av : str * option elem) : list (str * list elem) :=
    let '(attr, value) := av in
    if starts_with (lit "_") attr then pre
    else match value with
         | None => pre
         | Some e =>
             let pre1 := if dmem pre m then pre else dset pre m [] in
             match dget pre1 m with
             | Some l => dset pre1 m (l ++ [e])
             | None => pre1
             end
         end.
  (** MetaLaurelinTransiter.__new__ for a class of module [m]: registration.py:21-41 *)
  Definition define (m : str) (b : body) (w : world) : world :=
    mk_world (fold_left (prereg m) b (w_pre w)) (w_done w) (w_reg w) (w_log w).

  (** for obj in elements: obj.register(): registration.py:85-86 *)
  Fixpoint register_elems (es : list elem) (w : world) : res unit * world :=
    match es with
    | [] => (Ok tt, w)
    | e :: rest =>
        let '(r, g') := register e (w_reg w) in
        let w' := mk_world (w_pre w) (w_done w) g' (w_log w ++ [(e, r)]) in
        match r with Ok _ => register_elems rest w' | Raise x => (Raise x, w') end
    end.

  (** the loop over _preregistered_elements.items(): registration.py:79-87; note that the name
      added is that of the requiring module *)
  Fixpoint require_loop (m : str) (items : list (str * list elem)) (w : world) : res unit * world :=
    match items with
    | [] => (Ok tt, w)
    | (key, elements) :: rest =>
        if smem key (w_done w) then require_loop m rest w
        else if str_eqb key m || starts_with (m ++ lit ".") key then
          match register_elems elements w with
          | (Raise x, w') => (Raise x, w')
          | (Ok _, w') => require_loop m rest (mk_world (w_pre w') (w_done w' ++ [m]) (w_reg w') (w_log w'))
          end
        else require_loop m rest w
    end.

  (** LaurelinRegistrar.require: registration.py:70-87 *)
  Definition require (m : str) (w : world) : res unit * world :=
    if smem m (w_done w) then (Ok tt, w) else require_loop m (w_pre w) w.

  (** Histories: classes being defined and require() being called *)
  Inductive event := Define (m : str) (b : body) | Require (m : str).
  Definition step (w : world) (ev : event) : res unit * world :=
    match ev with Define m b => (Ok tt, define m b w) | Require m => require m w end.
  Fixpoint run (evs : list event) (w : world) : list (res unit) * world :=
    match evs with
    | [] => ([], w)
    | ev :: rest => let '(r, w1) := step w ev in let '(rs, w2) := run rest w1 in (r :: rs, w2)
    end.
End Registration.
