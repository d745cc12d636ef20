(** * Model of the directory-changing operations and what they leave behind
    /repo/laurelin/ldap/base.py: compare (738-779), add (781-838), add_or_mod_add_if_exists,
    add_or_mod_replace_if_exists, add_if_not_exists (842-904), delete, mod_dn, rename, move
    (908-982), modify (986-1050, Model_Modify), add_attrs, delete_attrs, replace_attrs (1052-1125);
    /repo/laurelin/ldap/ldapobject.py: has_object_class, refresh, refresh_missing (294-338),
    modify, add_attrs, replace_attrs, delete_attrs (343-396), delete, mod_dn, rename, move (431-500).
    Simplifications: the server is a state machine answering requests one at a time (Model_Net:
    answers are matched to requests); controls are left out (Model_Controls); values are strings;
    every answer is success or an error (which becomes LDAPError), search answers are as in
    Model_Search, where C47_get derives [ldap_get_] below; logging is omitted. *)
From Verif Require Import PyBase Model_CIDict Model_Modify Model_Search.
Local Open Scope N_scope.

(** The requests a server answers: a base-scope read of the named (None: all user) attributes, and
    the four changes. The bool is whether the result code is success. *)
Record server (S : Type) := mk_server {
  sv_read : S -> str -> option (list str) -> option (str * list (str * list str));
  sv_add : S -> str -> list (str * list str) -> S * bool;
  sv_modify : S -> str -> list change -> S * bool;
  sv_delete : S -> str -> S * bool;
  sv_moddn : S -> str -> str -> bool -> option str -> S * bool;
  sv_compare : S -> str -> str -> str -> N }.
Arguments sv_read {S}. Arguments sv_add {S}. Arguments sv_modify {S}. Arguments sv_delete {S}.
Arguments sv_moddn {S}. Arguments sv_compare {S}.

(** s.split(x, 1), unpacked into two names *)
Fixpoint split1 (x : N) (s : str) : res (str * str) :=
  match s with
  | [] => Raise ValueError
  | c :: r =>
      if N.eqb c x then Ok ([], r)
      else match split1 x r with Ok (a, b) => Ok (c :: a, b) | Raise e => Raise e end
  end.

(** re.split(r'(?<!\\),', s, 1), unpacked into two names; [prev]: the character before *)
Fixpoint resplit1 (prev : N) (s : str) : res (str * str) :=
  match s with
  | [] => Raise ValueError
  | c :: r =>
      if N.eqb c (ch ",") && negb (N.eqb prev 92) then Ok ([], r)
      else match resplit1 c r with Ok (a, b) => Ok (c :: a, b) | Raise e => Raise e end
  end.

(** _success_result without controls: base.py:365-383 *)
Definition success (ok : bool) : res unit := if ok then Ok tt else Raise LDAPError.

Definition as_vals (a : list (str * list str)) : list (str * vals) :=
  map (fun av => (fst av, VList (snd av))) a.

Section Client.
  Context {S : Type} (sv : server S) (lower : str -> str)
          (idx : str -> list str -> str -> res nat).
  (** connection settings: base.py:199-232 *)
  Context (unbound strict_modify have_validators : bool) (flags : empty_flags).
  (** LDAP.validate_object and LDAP.validate_modify (Model_Schema) *)
  Context (validate_object : lobj -> res unit)
          (validate_mod : str -> list mod_ -> option lobj -> res unit).

  (** LDAP.get: base.py:584-603 *)
  Definition ldap_get_ (s : S) (dn : str) (ats : option (list str)) : res lobj :=
    if unbound then Raise ConnectionUnbound
    else
      match sv_read sv s dn ats with
      | None => Raise NoSearchResults
      | Some (dn', a) => Ok (mk_lobj dn' (cid_update lower cid_empty (entry_dict a)))
      end.

  (** LDAP.compare: base.py:738-779; result codes compareTrue = 6, compareFalse = 5 *)
  Definition ldap_compare (s : S) (dn attr value : str) : res bool :=
    if unbound then Raise ConnectionUnbound
    else
      let code := sv_compare sv s dn attr value in
      if N.eqb code 6 then Ok true
      else if N.eqb code 5 then Ok false
      else Raise LDAPError.

  (** LDAP.add, untagged, arguments of the right types: base.py:781-838 *)
  Definition ldap_add (s : S) (dn : str) (a : list (str * list str)) : S * res lobj :=
    if unbound then (s, Raise ConnectionUnbound)
    else
      let obj := mk_lobj dn (cid_update lower cid_empty a) in
      match validate_object obj with
      | Raise e => (s, Raise e)
      | Ok _ =>
          let (s', ok) := sv_add sv s dn a in
          (s', match success ok with Ok _ => Ok obj | Raise e => Raise e end)
      end.

  (** LDAP.delete: base.py:908-924 *)
  Definition ldap_delete (s : S) (dn : str) : S * res unit :=
    if unbound then (s, Raise ConnectionUnbound)
    else let (s', ok) := sv_delete sv s dn in (s', success ok).

  (** LDAP.mod_dn: base.py:928-955 *)
  Definition ldap_mod_dn (s : S) (dn new_rdn : str) (clean : bool) (new_parent : option str) : S * res unit :=
    if unbound then (s, Raise ConnectionUnbound)
    else let (s', ok) := sv_moddn sv s dn new_rdn clean new_parent in (s', success ok).
  (** LDAP.rename: base.py:957-966 *)
  Definition ldap_rename (s : S) (dn new_rdn : str) (clean : bool) : S * res unit :=
    ldap_mod_dn s dn new_rdn clean None.
  (** LDAP.move: base.py:968-982 *)
  Definition ldap_move (s : S) (dn new_dn : str) (clean : bool) : S * res unit :=
    match resplit1 0 new_dn with
    | Raise e => (s, Raise e)
    | Ok (rdn, parent) => ldap_mod_dn s dn rdn clean (Some parent)
    end.

  (** LDAP.modify: base.py:986-1050 (Model_Modify.ldap_modify up to the request) *)
  Definition ldap_modify_ (s : S) (dn : str) (ms : list mod_) (cur : option lobj) : S * list mod_ * res unit :=
    match ldap_modify unbound flags (validate_mod dn ms cur) (Ok tt) (Ok tt) ms with
    | (ms', Some cs, _) => let (s', ok) := sv_modify sv s dn cs in (s', ms', success ok)
    | (ms', None, r) => (s, ms', r)
    end.

  (** LDAP.add_attrs: base.py:1052-1074 *)
  Definition ldap_add_attrs (s : S) (dn : str) (new : list (str * vals)) (cur : option lobj) : S * res unit :=
    let go cur' ml :=
      match ml with
      | Raise e => (s, Raise e)
      | Ok ms => let '(s', _, r) := ldap_modify_ s dn ms cur' in (s', r)
      end in
    match cur with
    | Some c => go cur (add_modlist lower idx (o_attrs c) new)
    | None =>
        if strict_modify then go None (modlist ADD new)
        else
          match ldap_get_ s dn (Some (map fst new)) with
          | Raise e => (s, Raise e)
          | Ok c => go (Some c) (add_modlist lower idx (o_attrs c) new)
          end
    end.
  (** LDAP.delete_attrs: base.py:1076-1101 *)
  Definition ldap_delete_attrs (s : S) (dn : str) (del : list (str * vals)) (cur : option lobj) : S * res unit :=
    let go cur' ml :=
      match ml with
      | Raise e => (s, Raise e)
      | Ok ms => let '(s', _, r) := ldap_modify_ s dn ms cur' in (s', r)
      end in
    match cur with
    | Some c => go cur (delete_modlist lower idx (o_attrs c) del)
    | None =>
        if strict_modify then go None (modlist DELETE del)
        else
          match ldap_get_ s dn (Some (map fst del)) with
          | Raise e => (s, Raise e)
          | Ok c => go (Some c) (delete_modlist lower idx (o_attrs c) del)
          end
    end.
  (** LDAP.replace_attrs: base.py:1103-1125 *)
  Definition ldap_replace_attrs (s : S) (dn : str) (new : list (str * vals)) (cur : option lobj) : S * res unit :=
    let go cur' :=
      match modlist REPLACE new with
      | Raise e => (s, Raise e)
      | Ok ms => let '(s', _, r) := ldap_modify_ s dn ms cur' in (s', r)
      end in
    match cur with
    | Some _ => go cur
    | None =>
        if have_validators && negb strict_modify then
          match ldap_get_ s dn (Some (map fst new)) with
          | Raise e => (s, Raise e)
          | Ok c => go (Some c)
          end
        else go None
    end.

  (** ** LDAPObject, with a connection *)

  (** refresh: ldapobject.py:305-315.  self.update(object) enumerates the object's items. *)
  Definition obj_refresh (s : S) (o : lobj) (ats : option (list str)) : lobj * res unit :=
    match ldap_get_ s (o_dn o) ats with
    | Raise e => (o, Raise e)
    | Ok got =>
        let (d, r) := cid_update_cid lower (o_attrs o) (o_attrs got) in
        (mk_lobj (o_dn o) d, r)
    end.
  (** refresh_missing: ldapobject.py:325-338 *)
  Definition missing (o : lobj) (ats : list str) : list str :=
    List.filter (fun a => negb (ahas lower (o_attrs o) a)) ats.
  Definition obj_refresh_missing (s : S) (o : lobj) (ats : list str) : lobj * res unit :=
    match missing o ats with
    | [] => (o, Ok tt)
    | l => obj_refresh s o (Some l)
    end.
  (** has_object_class: ldapobject.py:294-303 *)
  Definition has_object_class (s : S) (o : lobj) (oc : str) : lobj * res bool :=
    match obj_refresh_missing s o [lit "objectClass"] with
    | (o', Raise e) => (o', Raise e)
    | (o', Ok _) =>
        (o', let* l := cid_get lower (o_attrs o') (lit "objectClass") in
             avl_contains (idx (lit "objectClass")) l oc)
    end.

  (** modify: ldapobject.py:343-355 *)
  Definition obj_modify_ (s : S) (o : lobj) (ms : list mod_) : S * lobj * res unit :=
    match ldap_modify_ s (o_dn o) ms (Some o) with
    | (s', _, Raise e) => (s', o, Raise e)
    | (s', ms', Ok _) =>
        let (d, r) := local_modify lower idx (o_attrs o) ms' in (s', mk_lobj (o_dn o) d, r)
    end.
  (** the refresh before add_attrs and delete_attrs *)
  Definition obj_prefetch (s : S) (o : lobj) (ats : list str) : lobj * res unit :=
    if strict_modify then (o, Ok tt) else obj_refresh_missing s o ats.
  (** add_attrs: ldapobject.py:357-369 *)
  Definition obj_add_attrs (s : S) (o : lobj) (new : list (str * vals)) : S * lobj * res unit :=
    match obj_prefetch s o (map fst new) with
    | (o1, Raise e) => (s, o1, Raise e)
    | (o1, Ok _) =>
        match add_modlist lower idx (o_attrs o1) new with
        | Raise e => (s, o1, Raise e)
        | Ok ms => obj_modify_ s o1 ms
        end
    end.
  (** replace_attrs: ldapobject.py:371-381 *)
  Definition obj_replace_attrs (s : S) (o : lobj) (new : list (str * vals)) : S * lobj * res unit :=
    match modlist REPLACE new with
    | Raise e => (s, o, Raise e)
    | Ok ms => obj_modify_ s o ms
    end.
  (** delete_attrs: ldapobject.py:383-396 *)
  Definition obj_delete_attrs (s : S) (o : lobj) (del : list (str * vals)) : S * lobj * res unit :=
    match obj_prefetch s o (map fst del) with
    | (o1, Raise e) => (s, o1, Raise e)
    | (o1, Ok _) =>
        match delete_modlist lower idx (o_attrs o1) del with
        | Raise e => (s, o1, Raise e)
        | Ok ms => obj_modify_ s o1 ms
        end
    end.

  (** delete: ldapobject.py:431-443; None: dn and ldap_conn are None, all attributes cleared *)
  Definition obj_delete (s : S) (o : lobj) : S * option lobj * res unit :=
    match ldap_delete s (o_dn o) with
    | (s', Raise e) => (s', Some o, Raise e)
    | (s', Ok _) => (s', None, Ok tt)
    end.

  (** the changes to the local attributes in mod_dn: ldapobject.py:464-475 *)
  Definition local_rename (d : attrs) (cur_rdn new_rdn : str) (clean : bool) : attrs * res unit :=
    let cleaned :=
      if clean then
        match split1 (ch "=") cur_rdn with
        | Raise e => Raise e
        | Ok (a, v) => Ok (fst (delete_attr_value lower idx d a v))   (* any exception is ignored *)
        end
      else Ok d in
    match cleaned with
    | Raise e => (d, Raise e)
    | Ok d1 =>
        match split1 (ch "=") new_rdn with
        | Raise e => (d1, Raise e)
        | Ok (a, v) =>
            if negb (ahas lower d1 a) then (cid_set lower d1 a [v], Ok tt)
            else
              match (let* l := cid_get lower d1 a in avl_contains (idx a) l v) with
              | Raise e => (d1, Raise e)
              | Ok true => (d1, Ok tt)
              | Ok false => (attr_extend lower d1 a [v], Ok tt)
              end
        end
    end.
  (** mod_dn: ldapobject.py:446-476 *)
  Definition obj_mod_dn (s : S) (o : lobj) (new_rdn : str) (clean : bool) (new_parent : option str)
      : S * lobj * res unit :=
    match split1 (ch ",") (o_dn o) with
    | Raise e => (s, o, Raise e)
    | Ok (cur_rdn, cur_parent) =>
        let parent := match new_parent with None => cur_parent | Some p => p end in
        match ldap_mod_dn s (o_dn o) new_rdn clean (Some parent) with
        | (s', Raise e) => (s', o, Raise e)
        | (s', Ok _) =>
            match local_rename (o_attrs o) cur_rdn new_rdn clean with
            | (d, Raise e) => (s', mk_lobj (o_dn o) d, Raise e)
            | (d, Ok _) => (s', mk_lobj (new_rdn ++ lit "," ++ parent) d, Ok tt)
            end
        end
    end.
  (** rename: ldapobject.py:478-487 *)
  Definition obj_rename (s : S) (o : lobj) (new_rdn : str) (clean : bool) := obj_mod_dn s o new_rdn clean None.
  (** move: ldapobject.py:489-500 *)
  Definition obj_move (s : S) (o : lobj) (new_dn : str) (clean : bool) : S * lobj * res unit :=
    match split1 (ch ",") new_dn with
    | Raise e => (s, o, Raise e)
    | Ok (new_rdn, new_parent) => obj_mod_dn s o new_rdn clean (Some new_parent)
    end.

  (** ** search+add patterns *)
  Definition or_add (dn : str) (a : list (str * list str)) (r : S * lobj * res unit) : S * res lobj :=
    match r with
    | (s', o, Ok _) => (s', Ok o)
    | (s', _, Raise NoSearchResults) => ldap_add s' dn a
    | (s', _, Raise e) => (s', Raise e)
    end.
  (** add_or_mod_add_if_exists: base.py:842-862 *)
  Definition add_or_mod_add (s : S) (dn : str) (a : list (str * list str)) : S * res lobj :=
    match ldap_get_ s dn None with
    | Raise NoSearchResults => ldap_add s dn a
    | Raise e => (s, Raise e)
    | Ok cur => or_add dn a (obj_add_attrs s cur (as_vals a))
    end.
  (** add_or_mod_replace_if_exists: base.py:864-884 *)
  Definition add_or_mod_replace (s : S) (dn : str) (a : list (str * list str)) : S * res lobj :=
    match ldap_get_ s dn None with
    | Raise NoSearchResults => ldap_add s dn a
    | Raise e => (s, Raise e)
    | Ok cur => or_add dn a (obj_replace_attrs s cur (as_vals a))
    end.
  (** add_if_not_exists: base.py:886-904 *)
  Definition add_if_not_exists (s : S) (dn : str) (a : list (str * list str)) : S * res lobj :=
    match ldap_get_ s dn None with
    | Raise NoSearchResults => ldap_add s dn a
    | Raise e => (s, Raise e)
    | Ok cur => (s, Ok cur)
    end.
End Client.
