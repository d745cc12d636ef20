(** * Model of the instances of syntax and matching rules: /repo/laurelin/ldap/rules.py:1-47, 79-139
    Simplifications: a rule class is its identity (a number), OID and NAME; an instance is its identity
    and its class; [lower] (str.lower) and [isdigit] (str.isdigit of one character) are arbitrary, and the
    keys of the two CaseIgnoreDicts are the folded names (C01).  What the rules do is in Model_Prep,
    Model_Syntax and Model_Guide. *)
From Verif Require Import PyBase.

Record rclass := mk_class { rc_id : nat; rc_oid : str; rc_name : str }.
Record rinst := mk_inst { ri_id : nat; ri_class : rclass }.

(** the six module-level dictionaries: rules.py:10-11, 82-85; [rs_next]: identity of the next object *)
Record rstate := mk_rs {
  rs_syn_cls : list (str * rclass); rs_syn_obj : list (str * rinst);
  rs_oid_cls : list (str * rclass); rs_name_cls : list (str * rclass);
  rs_oid_obj : list (str * rinst); rs_name_obj : list (str * rinst);
  rs_next : nat }.
Definition rs_empty : rstate := mk_rs [] [] [] [] [] [] 0.

Definition empty (s : str) : bool := match s with [] => true | _ => false end.

Section Rules.
  Context (lower : str -> str) (isdigit : N -> bool).

  (** SyntaxRule.register: rules.py:38-47; for a duplicate get_obj_module is given a
      string, which has neither __module__ nor __name__ (utils.py:188-201) *)
  Definition syn_register (st : rstate) (c : rclass) : rstate * res unit :=
    if dmem (rs_syn_cls st) (rc_oid c) then (st, Raise AttributeError)
    else (mk_rs (dset (rs_syn_cls st) (rc_oid c) c) (rs_syn_obj st) (rs_oid_cls st) (rs_name_cls st) (rs_oid_obj st) (rs_name_obj st) (rs_next st), Ok tt).
  (** SyntaxRule.__init__: rules.py:32-36 *)
  Definition syn_new (st : rstate) (c : rclass) : rstate * res rinst :=
    let i := mk_inst (rs_next st) c in
    let objs o := mk_rs (rs_syn_cls st) o (rs_oid_cls st) (rs_name_cls st) (rs_oid_obj st) (rs_name_obj st) (S (rs_next st)) in
    if empty (rc_oid c) then (objs (rs_syn_obj st), Ok i)
    else if dmem (rs_syn_obj st) (rc_oid c) then (objs (rs_syn_obj st), Raise LDAPSchemaError)
    else (objs (dset (rs_syn_obj st) (rc_oid c) i), Ok i).
  (** get_syntax_rule: rules.py:14-18 *)
  Definition get_syntax_rule (st : rstate) (oid : str) : rstate * res rinst :=
    match dget (rs_syn_obj st) oid with
    | Some i => (st, Ok i)
    | None => match dget (rs_syn_cls st) oid with Some c => syn_new st c | None => (st, Raise KeyError) end
    end.

  (** MatchingRule.register: rules.py:130-139 *)
  Definition mat_register (st : rstate) (c : rclass) : rstate * res unit :=
    let step2 (st : rstate) : rstate * res unit :=
      if empty (rc_name c) then (st, Ok tt)
      else if dmem (rs_name_cls st) (lower (rc_name c)) then (st, Raise LDAPSchemaError)
      else (mk_rs (rs_syn_cls st) (rs_syn_obj st) (rs_oid_cls st) (dset (rs_name_cls st) (lower (rc_name c)) c) (rs_oid_obj st) (rs_name_obj st) (rs_next st), Ok tt) in
    if empty (rc_oid c) then step2 st
    else if dmem (rs_oid_cls st) (rc_oid c) then (st, Raise LDAPSchemaError)
    else step2 (mk_rs (rs_syn_cls st) (rs_syn_obj st) (dset (rs_oid_cls st) (rc_oid c) c) (rs_name_cls st) (rs_oid_obj st) (rs_name_obj st) (rs_next st)).
  (** MatchingRule.__init__: rules.py:119-127 *)
  Definition mat_new (st : rstate) (c : rclass) : rstate * res rinst :=
    let i := mk_inst (rs_next st) c in
    let objs o n := mk_rs (rs_syn_cls st) (rs_syn_obj st) (rs_oid_cls st) (rs_name_cls st) o n (S (rs_next st)) in
    let step2 (o : list (str * rinst)) : rstate * res rinst :=
      if empty (rc_name c) then (objs o (rs_name_obj st), Ok i)
      else if dmem (rs_name_obj st) (lower (rc_name c)) then (objs o (rs_name_obj st), Raise LDAPSchemaError)
      else (objs o (dset (rs_name_obj st) (lower (rc_name c)) i), Ok i) in
    if empty (rc_oid c) then step2 (rs_oid_obj st)
    else if dmem (rs_oid_obj st) (rc_oid c) then (objs (rs_oid_obj st) (rs_name_obj st), Raise LDAPSchemaError)
    else step2 (dset (rs_oid_obj st) (rc_oid c) i).
  (** get_matching_rule: rules.py:88-100 *)
  Definition get_matching_rule (st : rstate) (ident : str) : rstate * res rinst :=
    match ident with
    | [] => (st, Raise IndexError)
    | ch :: _ =>
        let '(cls, obj, key) := if isdigit ch then (rs_oid_cls st, rs_oid_obj st, ident) else (rs_name_cls st, rs_name_obj st, lower ident) in
        match dget obj key with
        | Some i => (st, Ok i)
        | None => match dget cls key with Some c => mat_new st c | None => (st, Raise KeyError) end
        end
    end.

  (** what a program does with rules, in any order *)
  Inductive rop := RegSyn (c : rclass) | RegMat (c : rclass) | NewSyn (c : rclass) | NewMat (c : rclass) | GetSyn (oid : str) | GetMat (ident : str).
  (** the instance an operation returns, None for registrations *)
  Definition rstep (st : rstate) (o : rop) : rstate * res (option rinst) :=
    match o with
    | RegSyn c => let '(s, r) := syn_register st c in (s, match r with Ok _ => Ok None | Raise x => Raise x end)
    | RegMat c => let '(s, r) := mat_register st c in (s, match r with Ok _ => Ok None | Raise x => Raise x end)
    | NewSyn c => let '(s, r) := syn_new st c in (s, match r with Ok i => Ok (Some i) | Raise x => Raise x end)
    | NewMat c => let '(s, r) := mat_new st c in (s, match r with Ok i => Ok (Some i) | Raise x => Raise x end)
    | GetSyn o => let '(s, r) := get_syntax_rule st o in (s, match r with Ok i => Ok (Some i) | Raise x => Raise x end)
    | GetMat n => let '(s, r) := get_matching_rule st n in (s, match r with Ok i => Ok (Some i) | Raise x => Raise x end)
    end.
  Fixpoint rrun (st : rstate) (ops : list rop) : rstate * list (rop * res (option rinst)) :=
    match ops with
    | [] => (st, [])
    | o :: ops' => let '(st1, r) := rstep st o in let '(st2, rs) := rrun st1 ops' in (st2, (o, r) :: rs)
    end.
End Rules.
