(** * Model of value lookup, modlists, LDAP.modify and the local update
    /repo/laurelin/ldap/attributetype.py, attrvaluelist.py, modify.py,
    base.py (modify), ldapobject.py (modify, _local_modify) *)
From Verif Require Import PyBase Model_CIDict.

(** ** Value lookup *)

(** The parts of an attribute type that [index] consults: the type's own
    [validate] and its equality rule's [prepare] and [do_match].  All three may
    raise.  /repo/laurelin/ldap/attributetype.py:155-202, rules.py:143-163,171-176
    (line numbers of rules.py within that file). *)
Record attr_type := mk_attr_type {
  at_validate : str -> res unit;
  at_prepare : str -> res str;
  at_do_match : str -> str -> res bool }.

(** The [for i, val in enumerate(value_list)] loop:
    /repo/laurelin/ldap/attributetype.py:198-202 *)
Fixpoint index_loop (t : attr_type) (l : list str) (a : str) (i : nat) : res nat :=
  match l with
  | [] => Raise ValueError
  | v :: l' =>
      let* p := at_prepare t v in
      let* m := at_do_match t p a in
      if m then Ok i else index_loop t l' a (S i)
  end.

(** AttributeType.index: /repo/laurelin/ldap/attributetype.py:182-202 *)
Definition at_index (t : attr_type) (l : list str) (v : str) : res nat :=
  match l with
  | [] => Raise ValueError
  | _ =>
      let* _ := at_validate t v in
      let* a := at_prepare t v in
      index_loop t l a 0
  end.

(** EqualityMatchingRule.do_match: /repo/laurelin/ldap/rules.py:171-176 *)
Definition eq_do_match (p a : str) : res bool := Ok (str_eqb p a).

(** MatchingRule.prepare: a chain of methods, each may raise.
    /repo/laurelin/ldap/rules.py:147-151 *)
Definition rule_prepare (methods : list (str -> res str)) (v : str) : res str :=
  fold_left (fun r m => let* x := r in m x) methods (Ok v).

(** list.index with default arguments (used by DefaultAttributeType.index):
    /repo/laurelin/ldap/attributetype.py:271-272 *)
Fixpoint list_index_from (l : list str) (v : str) (i : nat) : res nat :=
  match l with
  | [] => Raise ValueError
  | x :: l' => if str_eqb x v then Ok i else list_index_from l' v (S i)
  end.
Definition list_index (l : list str) (v : str) : res nat := list_index_from l v 0.

(** get_attribute_type(attr).index, as a function of the attribute name.
    [defined attr] is the registered type if any (the lookup by OID/name of
    attributetype.py:20-33 is modelled in Model_Schema). *)
Definition type_index (defined : str -> option attr_type)
  (attr : str) (l : list str) (v : str) : res nat :=
  match defined attr with
  | Some t => at_index t l v
  | None => list_index l v
  end.

(** *** AttrValueList; [idx] is [get_attribute_type(self.attr).index]. *)
Section AttrValueList.
  Variable idx : list str -> str -> res nat.

  (** __contains__: /repo/laurelin/ldap/attrvaluelist.py:17-22 *)
  Definition avl_contains (l : list str) (v : str) : res bool :=
    match idx l v with
    | Ok _ => Ok true
    | Raise ValueError => Ok false
    | Raise e => Raise e
    end.

  (** count: /repo/laurelin/ldap/attrvaluelist.py:38-51 *)
  Definition avl_count (l : list str) (v : str) : res nat :=
    match idx l v with
    | Ok _ => Ok 1
    | Raise ValueError => Ok 0
    | Raise e => Raise e
    end.

  (** del self[i] *)
  Fixpoint del_nth {A} (l : list A) (i : nat) : list A :=
    match l, i with
    | [], _ => []
    | _ :: l', 0 => l'
    | x :: l', S i' => x :: del_nth l' i'
    end.

  (** remove: /repo/laurelin/ldap/attrvaluelist.py:53-61 *)
  Definition avl_remove (l : list str) (v : str) : res (list str) :=
    let* i := idx l v in Ok (del_nth l i).
End AttrValueList.

(** ** Mod *)
Inductive mop := ADD | REPLACE | DELETE.
Definition mop_eqb (a b : mop) : bool :=
  match a, b with
  | ADD, ADD | REPLACE, REPLACE | DELETE, DELETE => true
  | _, _ => false
  end.

(** [mod.vals]: a list of values or the DELETE_ALL sentinel.
    Simplification: values are strings (str and bytes are not distinguished). *)
Inductive vals := VList (l : list str) | VDeleteAll.

(** bool(vals) *)
Definition vtrue (v : vals) : bool :=
  match v with VList (_ :: _) => true | _ => false end.
(** len(vals) *)
Definition vlen (v : vals) : nat :=
  match v with VList l => List.length l | VDeleteAll => 0 end.

Record mod_ := mkmod { m_op : mop; m_attr : str; m_vals : vals }.

(** Mod.__init__ for list or DELETE_ALL values:
    /repo/laurelin/ldap/modify.py:40-49.  Simplification: an invalid [op] (ValueError)
    is not representable; a bare non-list value is wrapped by [new_mod1]. *)
Definition new_mod (op : mop) (attr : str) (v : vals) : res mod_ :=
  if mop_eqb op ADD && Nat.eqb (vlen v) 0 then Raise ValueError
  else Ok (mkmod op attr v).
Definition new_mod1 (op : mop) (attr : str) (v : str) : res mod_ :=
  new_mod op attr (VList [v]).

(** Modlist: /repo/laurelin/ldap/modify.py:78-86 *)
Fixpoint modlist (op : mop) (d : list (str * vals)) : res (list mod_) :=
  match d with
  | [] => Ok []
  | (a, v) :: d' =>
      let* m := new_mod op a v in
      let* r := modlist op d' in
      Ok (m :: r)
  end.

(** An LDAPObject's attributes: a case-insensitive dict of value lists. *)
Definition attrs := cid (list str).

Section WithServerSchema.
  Variable lower : str -> str.
  (** [idx attr values v] is [get_attribute_type(attr).index(values, v)]. *)
  Variable idx : str -> list str -> str -> res nat.

  (** [attr in cur]: AttrsDict.__contains__, /repo/laurelin/ldap/attrsdict.py:42-46 *)
  Definition ahas (d : attrs) (a : str) : bool :=
    match cid_get lower d a with
    | Ok (_ :: _) => true
    | _ => false
    end.

  (** Inner loop of AddModlist over the values of one attribute present in
      [cur]; [acc] is the dict add_attrs.  The sentinel is not iterable.
      /repo/laurelin/ldap/modify.py:103-111 *)
  Fixpoint add_vals (cur : attrs) (a : str) (vs : list str)
    (acc : list (str * vals)) : res (list (str * vals)) :=
    match vs with
    | [] => Ok acc
    | v :: vs' =>
        match (let* l := cid_get lower cur a in idx a l v) with
        | Ok _ => add_vals cur a vs' acc
        | Raise ValueError =>
            let acc1 := if dmem acc a then acc else dset acc a (VList []) in
            let acc2 := match dget acc1 a with
                        | Some (VList l) => dset acc1 a (VList (l ++ [v]))
                        | _ => acc1
                        end in
            add_vals cur a vs' acc2
        | Raise e => Raise e
        end
    end.

  (** AddModlist's outer loop: /repo/laurelin/ldap/modify.py:99-113 *)
  Fixpoint add_attrs_dict (cur : attrs) (new : list (str * vals))
    (acc : list (str * vals)) : res (list (str * vals)) :=
    match new with
    | [] => Ok acc
    | (a, v) :: new' =>
        if ahas cur a then
          match v with
          | VDeleteAll => Raise TypeError
          | VList l =>
              let* acc' := add_vals cur a l acc in
              add_attrs_dict cur new' acc'
          end
        else add_attrs_dict cur new' (dset acc a v)
    end.

  (** AddModlist: /repo/laurelin/ldap/modify.py:92-114 *)
  Definition add_modlist (cur : attrs) (new : list (str * vals)) : res (list mod_) :=
    let* d := add_attrs_dict cur new [] in modlist ADD d.

  (** Inner loop of DeleteModlist: /repo/laurelin/ldap/modify.py:131-140 *)
  Fixpoint del_vals (cur : attrs) (a : str) (vs : list str)
    (acc : list (str * vals)) : res (list (str * vals)) :=
    match vs with
    | [] => Ok acc
    | v :: vs' =>
        match (let* l := cid_get lower cur a in idx a l v) with
        | Ok _ =>
            let acc1 := if dmem acc a then acc else dset acc a (VList []) in
            let acc2 := match dget acc1 a with
                        | Some (VList l) => dset acc1 a (VList (l ++ [v]))
                        | _ => acc1
                        end in
            del_vals cur a vs' acc2
        | Raise ValueError => del_vals cur a vs' acc
        | Raise e => Raise e
        end
    end.

  (** /repo/laurelin/ldap/modify.py:124-140 *)
  Fixpoint del_attrs_dict (cur : attrs) (del : list (str * vals))
    (acc : list (str * vals)) : res (list (str * vals)) :=
    match del with
    | [] => Ok acc
    | (a, v) :: del' =>
        if ahas cur a then
          match v with
          | VList (x :: l) =>
              let* acc' := del_vals cur a (x :: l) acc in
              del_attrs_dict cur del' acc'
          | _ => del_attrs_dict cur del' (dset acc a v)
          end
        else del_attrs_dict cur del' acc
    end.

  (** DeleteModlist: /repo/laurelin/ldap/modify.py:117-141 *)
  Definition delete_modlist (cur : attrs) (del : list (str * vals)) : res (list mod_) :=
    let* d := del_attrs_dict cur del [] in modlist DELETE d.

  (** ** LDAPObject._local_modify *)

  (** _delete_attr_value: /repo/laurelin/ldap/ldapobject.py:424-428 *)
  Definition delete_attr_value (d : attrs) (a v : str) : attrs * res unit :=
    match cid_get lower d a with
    | Raise e => (d, Raise e)
    | Ok l =>
        match avl_remove (idx a) l v with
        | Raise e => (d, Raise e)
        | Ok l' =>
            (* in-place removal from the stored list *)
            let d1 := match dget (ckeys d) (lower a) with
                      | Some k => mkcid (ckeys d) (dset (cdata d) k l')
                      | None => d
                      end in
            match l' with
            | [] => cid_del lower d1 a
            | _ => (d1, Ok tt)
            end
        end
    end.

  (** The DELETE loop: /repo/laurelin/ldap/ldapobject.py:414-418 *)
  Fixpoint local_delete_vals (d : attrs) (a : str) (vs : list str) : attrs * res unit :=
    match vs with
    | [] => (d, Ok tt)
    | v :: vs' =>
        match delete_attr_value d a v with
        | (d', Ok _) => local_delete_vals d' a vs'
        | (d', Raise ValueError) => local_delete_vals d' a vs'
        | (d', Raise e) => (d', Raise e)
        end
    end.

  (** [self[attr].extend(vals)]: in place, the key spelling is unchanged. *)
  Definition attr_extend (d : attrs) (a : str) (vs : list str) : attrs :=
    match dget (ckeys d) (lower a) with
    | Some k =>
        match dget (cdata d) k with
        | Some l => mkcid (ckeys d) (dset (cdata d) k (l ++ vs))
        | None => d
        end
    | None => d
    end.

  (** One iteration of _local_modify: /repo/laurelin/ldap/ldapobject.py:400-422 *)
  Definition local_mod1 (d : attrs) (m : mod_) : attrs * res unit :=
    match m_op m with
    | ADD =>
        match m_vals m with
        | VDeleteAll => (d, Raise TypeError)
        | VList l =>
            if negb (ahas d (m_attr m)) then (cid_set lower d (m_attr m) l, Ok tt)
            else (attr_extend d (m_attr m) l, Ok tt)
        end
    | REPLACE =>
        match m_vals m with
        | VList (x :: l) => (cid_set lower d (m_attr m) (x :: l), Ok tt)
        | _ => cid_del lower d (m_attr m)
        end
    | DELETE =>
        if ahas d (m_attr m) then
          match m_vals m with
          | VList (x :: l) => local_delete_vals d (m_attr m) (x :: l)
          | _ => cid_del lower d (m_attr m)
          end
        else (d, Ok tt)
    end.

  (** _local_modify: /repo/laurelin/ldap/ldapobject.py:398-422 *)
  Fixpoint local_modify (d : attrs) (ms : list mod_) : attrs * res unit :=
    match ms with
    | [] => (d, Ok tt)
    | m :: ms' =>
        match local_mod1 d m with
        | (d', Ok _) => local_modify d' ms'
        | (d', Raise e) => (d', Raise e)
        end
    end.
End WithServerSchema.

(** ** LDAP.modify *)

(** The connection's empty-list settings: /repo/laurelin/ldap/base.py:1013-1018 *)
Record empty_flags := mkflags { error_empty_list : bool; ignore_empty_list : bool;
                                warn_empty_list : bool }.

(** A Change of the ModifyRequest. *)
Record change := mkchange { c_op : mop; c_attr : str; c_vals : list str }.

(** The loop over the modlist: returns the (mutated) Mod objects, the number of
    warnings, and the changes or the exception.
    /repo/laurelin/ldap/base.py:1010-1038 *)
Fixpoint build_changes (f : empty_flags) (ms : list mod_)
  : list mod_ * nat * res (list change) :=
  match ms with
  | [] => ([], 0, Ok [])
  | m :: ms' =>
      let is_rd := negb (mop_eqb (m_op m) ADD) in
      let empty_list := match m_vals m with VList [] => true | _ => false end in
      if is_rd && empty_list && error_empty_list f then (ms, 0, Raise LDAPError)
      else if is_rd && empty_list && ignore_empty_list f then
        let '(r, w, c) := build_changes f ms' in (m :: r, w, c)
      else
        let w0 := if is_rd && empty_list && warn_empty_list f then 1 else 0 in
        let m' := match m_vals m with
                  | VDeleteAll => if is_rd then mkmod (m_op m) (m_attr m) (VList []) else m
                  | _ => m
                  end in
        match m_vals m' with
        | VDeleteAll => (ms, w0, Raise TypeError)   (* sentinel not iterable *)
        | VList l =>
            let '(r, w, c) := build_changes f ms' in
            (m' :: r, w0 + w,
             let* cs := c in Ok (mkchange (m_op m) (m_attr m) l :: cs))
        end
  end.

(** LDAP.modify: /repo/laurelin/ldap/base.py:984-1050.
    [validated] is the outcome of self.validate_modify, [ctrls] of
    self._process_ctrl_kwds, [answer] the outcome of self._success_result.
    Returns the mutated Mods, the request sent (if any) and the outcome. *)
Definition ldap_modify (unbound : bool) (f : empty_flags)
  (validated ctrls answer : res unit) (ms : list mod_)
  : list mod_ * option (list change) * res unit :=
  match ms with
  | [] => (ms, None, Ok tt)
  | _ =>
      if unbound then (ms, None, Raise ConnectionUnbound)
      else
        match validated with
        | Raise e => (ms, None, Raise e)
        | Ok _ =>
            match build_changes f ms with
            | (ms', _, Raise e) => (ms', None, Raise e)
            | (ms', _, Ok []) => (ms', None, Ok tt)
            | (ms', _, Ok cs) =>
                match ctrls with
                | Raise e => (ms', None, Raise e)
                | Ok _ => (ms', Some cs, answer)
                end
            end
        end
  end.

(** LDAPObject.modify: /repo/laurelin/ldap/ldapobject.py:343-355 *)
Definition obj_modify (lower : str -> str) (idx : str -> list str -> str -> res nat)
  (has_ldap unbound : bool) (f : empty_flags) (validated ctrls answer : res unit)
  (d : attrs) (ms : list mod_)
  : attrs * list mod_ * option (list change) * res unit :=
  if negb has_ldap then (d, ms, None, Raise RuntimeError)
  else
    match ldap_modify unbound f validated ctrls answer ms with
    | (ms', sent, Raise e) => (d, ms', sent, Raise e)
    | (ms', sent, Ok _) =>
        let (d', r) := local_modify lower idx d ms' in (d', ms', sent, r)
    end.
