(** * Model of controls: /repo/laurelin/ldap/controls.py and their use in base.py *)
From Verif Require Import PyBase.

(** A Control subclass (controls.py:84-146).  [c_allows m] is [m in ctrl.method]; it is an
    arbitrary predicate because method may be a tuple or a string.  [c_prepare] is prepare()
    restricted to the value sent (it may raise, as overriding implementations do);
    [c_handle] is handle().  Keyword values are strings; empty ones are the falsy ones. *)
Record ctrl := mk_ctrl {
  c_has_method : bool;                (* truth value of [method] *)
  c_allows : str -> bool;
  c_keyword : str;
  c_response_attr : str;
  c_request_oid : str;
  c_response_oid : str;
  c_prepare : str -> res str;
  c_handle : str -> res str
}.

(** The value given for a control keyword: controls.py:170-181 *)
Inductive kwval := Critical (v : str) | Optional (v : str) | Plain (v : str).

(** rfc4511.Control as prepare() builds it: controls.py:117-133 *)
Record wire_ctrl := mk_wire { wc_oid : str; wc_crit : bool; wc_value : option str }.

(** The three module-level dictionaries: controls.py:13-15 *)
Record registry := mk_reg {
  r_kw : list (str * ctrl);
  r_oid : list (str * ctrl);
  r_resp : list (str * ctrl)
}.
Definition empty_registry := mk_reg [] [] [].

Definition falsy (s : str) : bool := match s with [] => true | _ => false end.

(** Control.prepare: controls.py:127-133 *)
Definition prepare (c : ctrl) (v : str) (crit : bool) : res wire_ctrl :=
  let* p := c_prepare c v in
  Ok (mk_wire (c_request_oid c) crit (if falsy p then None else Some p)).

Definition criticality (d : bool) (v : kwval) : bool :=
  match v with Critical _ => true | Optional _ => false | Plain _ => d end.
Definition value_of (v : kwval) : str :=
  match v with Critical x | Optional x | Plain x => x end.

(** The loop of process_kwds over [list(kwds.keys())]: controls.py:33-51.  Returns the
    controls and what is left in the dictionary. *)
Fixpoint process_loop (reg : registry) (method : str) (supported : list str) (dflt : bool)
    (todo kwds : list (str * kwval)) (acc : list wire_ctrl) : res (list wire_ctrl * list (str * kwval)) :=
  match todo with
  | [] => Ok (acc, kwds)
  | (kwd, v) :: todo' =>
      match dget (r_kw reg) kwd with
      | None => process_loop reg method supported dflt todo' kwds acc
      | Some c =>
          if negb (c_allows c method) then Raise LDAPError
          else
            let kwds' := ddel kwds kwd in
            let crit := criticality dflt v in
            if crit && negb (smem (c_request_oid c) supported) then Raise LDAPSupportError
            else let* w := prepare c (value_of v) crit in
                 process_loop reg method supported dflt todo' kwds' (acc ++ [w])
      end
  end.

(** process_kwds: controls.py:25-57; the result is None when there is no control, which is
    represented by the empty list (pack() treats both alike, protoutils.py:29). *)
Definition process_kwds (reg : registry) (method : str) (kwds : list (str * kwval)) (supported : list str)
    (dflt final : bool) : res (list wire_ctrl * list (str * kwval)) :=
  let* (cs, rest) := process_loop reg method supported dflt kwds kwds [] in
  if final && match rest with [] => false | _ => true end then Raise TypeError else Ok (cs, rest).

(** Control.register: controls.py:146-168, with [reserved] the generated set _reserved_kwds
    (controls.py:18); the final registry is returned also when it raises. *)
Definition register (reserved : list str) (reg : registry) (c : ctrl) : res unit * registry :=
  let respond (reg : registry) :=
    if falsy (c_response_oid c) then (Ok tt, reg)
    else if falsy (c_response_attr c) then (Raise ValueError, reg)
    else if dmem (r_resp reg) (c_response_oid c) then (Raise LDAPExtensionError, reg)
    else (Ok tt, mk_reg (r_kw reg) (r_oid reg) (dset (r_resp reg) (c_response_oid c) c)) in
  if falsy (c_request_oid c) then respond reg
  else if negb (c_has_method c) then (Raise ValueError, reg)
  else if falsy (c_keyword c) then (Raise ValueError, reg)
  else if smem (c_keyword c) reserved then (Raise LDAPExtensionError, reg)
  else if dmem (r_kw reg) (c_keyword c) then (Raise LDAPExtensionError, reg)
  else if dmem (r_oid reg) (c_request_oid c) then (Raise LDAPExtensionError, reg)
  else respond (mk_reg (dset (r_kw reg) (c_keyword c) c) (dset (r_oid reg) (c_request_oid c) c) (r_resp reg)).

Definition register_all (reserved : list str) (cs : list ctrl) (reg : registry) : registry :=
  fold_left (fun r c => snd (register reserved r c)) cs reg.

(** handle_response: controls.py:60-81.  The object is its attributes set so far; [builtin]
    are the attributes it has anyway (hasattr also sees class attributes and methods). *)
Fixpoint handle_response (reg : registry) (builtin : str -> bool) (attrs : list (str * str))
    (controls : list (str * str)) : res unit * list (str * str) :=
  match controls with
  | [] => (Ok tt, attrs)
  | (oid, raw) :: rest =>
      match dget (r_resp reg) oid with
      | None => (Raise LDAPExtensionError, attrs)
      | Some c =>
          match c_handle c raw with
          | Raise e => (Raise e, attrs)
          | Ok v =>
              if builtin (c_response_attr c) || dmem attrs (c_response_attr c)
              then (Raise LDAPExtensionError, attrs)
              else handle_response reg builtin (dset attrs (c_response_attr c) v) rest
          end
      end
  end.

(** How the public methods use process_kwds; the list is what was sent (controls of each
    request), before any answer is read. *)
Inductive api :=
| SimpleBind_ | Compare_ | Delete_ | ModDN_                      (* base.py:411, 762, 918, 949 *)
| Modify_ (changes : nat)                                       (* base.py:999-1050 *)
| Search_                                                       (* base.py:724-733 *)
| Add_                                                          (* base.py:804-826 *)
| Extended_.                                                    (* base.py:1154-1157 *)

Definition method_name (a : api) : str :=
  match a with
  | SimpleBind_ => lit "bind" | Compare_ => lit "compare" | Delete_ => lit "delete" | ModDN_ => lit "mod_dn"
  | Modify_ _ => lit "modify" | Search_ => lit "search" | Add_ => lit "add" | Extended_ => lit "ext"
  end.

(** _obj_kwds: base.py:70, and the keywords LDAP.obj and LDAPObject really take beyond
    those already bound (base.py:560, ldapobject.py:48) *)
Definition obj_kwds : list str :=
  map lit ["attrs_dict"; "dn"; "ldap_conn"; "rdn_attr"; "relative_search_scope"; "self"; "tag"]%string.
Definition real_obj_kwds : list str := map lit ["rdn_attr"; "relative_search_scope"; "tag"]%string.

Definition all_in (kwds : list (str * kwval)) (ok : list str) : bool :=
  forallb (fun kv => smem (fst kv) ok) kwds.

Definition call (reg : registry) (supported : list str) (dflt : bool) (a : api) (kwds : list (str * kwval))
    : res unit * list (list wire_ctrl) :=
  let final cont :=
    match process_kwds reg (method_name a) kwds supported dflt true with
    | Raise e => (Raise e, []) | Ok (cs, _) => cont cs end in
  let partial_ cont :=
    match process_kwds reg (method_name a) kwds supported dflt false with
    | Raise e => (Raise e, []) | Ok (cs, rest) => cont cs rest end in
  match a with
  | SimpleBind_ | Compare_ | Delete_ | ModDN_ => final (fun cs => (Ok tt, [cs]))
  | Modify_ 0 => (Ok tt, [])                     (* nothing to change: keywords not looked at *)
  | Modify_ (S _) => final (fun cs => (Ok tt, [cs]))
  | Search_ =>
      match kwds with
      | [] => (Ok tt, [[]])
      | _ => partial_ (fun cs rest => if all_in rest obj_kwds then (Ok tt, [cs]) else (Raise TypeError, []))
      end
  | Add_ => partial_ (fun cs rest => if all_in rest real_obj_kwds then (Ok tt, [cs]) else (Raise TypeError, []))
  | Extended_ => partial_ (fun cs rest =>
      (if all_in rest [lit "require_success"] then Ok tt else Raise TypeError, [cs]))
  end.
