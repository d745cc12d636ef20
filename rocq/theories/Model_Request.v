(** * Model of search requests and of the methods relative to an object
    /repo/laurelin/ldap/base.py: LDAP.obj (560-582), get (584-603), search (622-736), add's object
    (801-805); ldapobject.py: __init__ (50-60), _rdn_attr ... find (88-232).
    Simplifications: sending does not fail; text arguments are strings and numbers are integers
    (rfc4511.Integer0ToMax refuses those outside 0..2147483647, LDAPString takes any text); tags are
    in Model_Search; results are in Model_Search; what a keyword argument holds is a string: a
    Scope constant is its name, text is written with a quote in front of it, None is None. *)
From Verif Require Import PyBase Model_Filter Model_Controls Model_Search.

(** constants.py:30-33; anything else that was given as filter_syntax *)
Inductive fsyntax := STANDARD | SIMPLE | UNIFIED | OtherSyntax.
(** pyasn1's ValueConstraintError, pyparsing's errors come out as LDAPError (Model_Filter) *)
Definition constraint_error : exn := OtherExn 31.

(** the connection: default_* attributes set by the constructor, base.py:283-299, and what the root
    DSE says; [e_feature]: LDAP.OID_OBJ_CLASS_ATTR in root_dse.get_attr('supportedFeatures') *)
Record env := mk_env {
  e_unbound : bool; e_reg : registry; e_supported : list str; e_criticality : bool; e_feature : res bool;
  e_default_filter : str;
  e_timeout : Z; e_deref : N; e_refs : bool; e_follow : bool; e_syntax : fsyntax }.

Inductive attr_arg := NoAttrs | OneAttr (a : str) | Attrs (l : list str).
(** _reserved_kwds: controls.py:18 *)
Definition reserved_kwds : list str := map lit
  ["attr"; "attrs"; "attrs_dict"; "attrs_only"; "base_dn"; "clean_attr"; "current"; "deref_aliases"; "dn"; "fetch_result_refs";
   "filter"; "filter_syntax"; "follow_referrals"; "ldap_conn"; "limit"; "mech"; "mid"; "modlist"; "new_parent"; "new_rdn"; "oid";
   "password"; "rdn_attr"; "relative_search_scope"; "require_success"; "scope"; "search_timeout"; "self"; "tag"; "username"; "value"]%string.

Definition kwds_t := list (str * kwval).
Record search_args := mk_args {
  a_base : str; a_scope : scope; a_filter : option str; a_attrs : attr_arg; a_timeout : option Z; a_limit : Z;
  a_deref : option N; a_attrs_only : bool; a_refs : option bool; a_follow : option bool;
  a_syntax : option fsyntax; a_kwds : kwds_t }.

(** SearchRequest with its controls; rfc4511.py:775-796 *)
Record wire_search := mk_ws {
  w_base : str; w_scope : scope; w_deref : N; w_size : Z; w_time : Z; w_types_only : bool;
  w_filter : filter; w_attrs : list str; w_ctrls : list wire_ctrl }.
(** SearchResultHandle: base.py:1560-1565 *)
Record handle := mk_h { h_refs : bool; h_follow : bool; h_obj_kwds : kwds_t }.

(** rfc4511.Integer0ToMax(n): rfc4511.py:59-78 *)
Definition int0max (z : Z) : res Z :=
  if ((0 <=? z) && (z <=? 2147483647))%Z then Ok z else Raise constraint_error.
Definition or_default {A} (x : option A) (d : A) : A := match x with Some v => v | None => d end.

(** the loop over attrs: base.py:715-720 *)
Fixpoint check_attrs (feature : res bool) (l : list str) : res (list str) :=
  match l with
  | [] => Ok []
  | desc :: l' =>
      match desc with
      | [] => Raise IndexError
      | c :: _ =>
          let* _ := (if N.eqb c (ch "@") then let* f := feature in if f then Ok tt else Raise LDAPSupportError else Ok tt) in
          let* r := check_attrs feature l' in Ok (desc :: r)
      end
  end.
Definition attr_list (a : attr_arg) : list str :=         (* base.py:711-714 *)
  match a with NoAttrs => [lit "*"] | OneAttr x => [x] | Attrs l => l end.
(** base.py:699-706 *)
Definition parse_filter (syn : fsyntax) (text : str) : res filter :=
  match syn with
  | UNIFIED => parse_unified text
  | STANDARD => parse_standard_filter text
  | SIMPLE => parse_simple_filter text
  | OtherSyntax => Raise LDAPError
  end.
(** _check_obj_kwds: base.py:73-79 *)
Definition check_obj_kwds (k : kwds_t) : res unit := if all_in k obj_kwds then Ok tt else Raise TypeError.

(** LDAP.search: base.py:676-736; the request built, if no error occurs before sending *)
Definition build (e : env) (a : search_args) : res (wire_search * handle) :=
  if e_unbound e then Raise ConnectionUnbound
  else
    let '(text, syn0) := match a_filter a with None => (e_default_filter e, Some STANDARD) | Some f => (f, a_syntax a) end in
    let timeout := or_default (a_timeout a) (e_timeout e) in
    let deref := or_default (a_deref a) (e_deref e) in
    let refs := or_default (a_refs a) (e_refs e) in
    let follow := or_default (a_follow a) (e_follow e) in
    let syn := or_default syn0 (e_syntax e) in
    let* size := int0max (a_limit a) in
    let* time := int0max timeout in
    let* f := parse_filter syn text in
    let* ats := check_attrs (e_feature e) (attr_list (a_attrs a)) in
    let* (cs, rest) := (match a_kwds a with
                        | [] => Ok ([], [])
                        | k => process_kwds (e_reg e) (lit "search") k (e_supported e) (e_criticality e) false
                        end) in
    let* _ := check_obj_kwds rest in
    Ok (mk_ws (a_base a) (a_scope a) deref size time (a_attrs_only a) f ats cs, mk_h refs follow rest).
Definition ldap_search (e : env) (a : search_args) : res handle * list wire_search :=
  match build e a with Raise x => (Raise x, []) | Ok (w, h) => (Ok h, [w]) end.

(** LDAP.get: base.py:601-602, up to the request *)
Definition get_args (dn : str) (ats : attr_arg) (k : kwds_t) : search_args :=
  mk_args dn BaseScope None ats None 2 None false None None None k.
Definition ldap_get_request (e : env) (dn : str) (ats : attr_arg) (k : kwds_t) : res handle * list wire_search :=
  if e_unbound e then (Raise ConnectionUnbound, []) else ldap_search e (get_args dn ats k).

(** ** Objects *)
(** LDAPObject: ldapobject.py:50-60; the attributes are in Model_Modify.  [ro_scope]: None when it is
    not one of the constants *)
Record robj := mk_robj { ro_dn : str; ro_conn : bool; ro_scope : option scope; ro_rdn_attr : option str }.
Definition scope_val (s : option scope) : kwval :=
  Plain (match s with Some BaseScope => lit "Scope.BASE" | Some OneScope => lit "Scope.ONE" | Some SubScope => lit "Scope.SUB" | None => lit "other" end).
Definition rdn_val (r : option str) : kwval := Plain (match r with None => lit "None" | Some a => lit "'" ++ a end).
Definition scope_of (v : kwval) : option scope :=
  match v with
  | Plain s => if str_eqb s (lit "Scope.BASE") then Some BaseScope else if str_eqb s (lit "Scope.ONE") then Some OneScope
               else if str_eqb s (lit "Scope.SUB") then Some SubScope else None
  | _ => None
  end.
Definition rdn_of (v : kwval) : option str :=
  match v with Plain (c :: s) => if N.eqb c (ch "'") then Some s else None | _ => None end.

Definition k_scope : str := lit "relative_search_scope".
Definition k_rdn : str := lit "rdn_attr".
(** _set_obj_kwd_defaults: ldapobject.py:109-112 *)
Definition setdefault (k : kwds_t) (key : str) (v : kwval) : kwds_t := if dmem k key then k else dset k key v.
Definition set_defaults (o : robj) (k : kwds_t) : kwds_t :=
  setdefault (setdefault k k_scope (scope_val (ro_scope o))) k_rdn (rdn_val (ro_rdn_attr o)).

(** LDAPObject(dn, attrs_dict=..., ldap_conn=..., **kwds): ldapobject.py:50-60, with the arguments
    attrs_dict and ldap_conn already given; an unknown or repeated keyword is a TypeError *)
Definition new_robj (conn : bool) (dn : str) (k : kwds_t) : res robj :=
  if all_in k [k_scope; k_rdn]
  then Ok (mk_robj dn conn (match dget k k_scope with Some v => scope_of v | None => Some SubScope end)
             (match dget k k_rdn with Some v => rdn_of v | None => None end))
  else Raise TypeError.
(** LDAP.obj: base.py:576-582; the tag is Model_Search's *)
Definition ldap_new_obj (dn : str) (k : kwds_t) : res robj := new_robj true dn (ddel k (lit "tag")).

(** rdn: ldapobject.py:90-107 *)
Definition rdn (o : robj) (r : str) : res str := obj_rdn (ro_dn o) (ro_rdn_attr o) r.

(** LDAPObject.obj: ldapobject.py:114-134; [k] may hold a tag *)
Definition obj_obj (o : robj) (r : str) (k : kwds_t) : res robj :=
  let k := set_defaults o k in
  if ro_conn o then let* dn := rdn o r in ldap_new_obj dn k
  else if dmem k (lit "tag") then Raise LDAPError
  else let* dn := rdn o r in new_robj false dn k.
(** LDAPObject.get_child, search, find: ldapobject.py:136-232, up to the request *)
Definition obj_get_child (e : env) (o : robj) (r : str) (ats : attr_arg) (k : kwds_t) : res handle * list wire_search :=
  if negb (ro_conn o) then (Raise RuntimeError, [])
  else match rdn o r with
       | Raise x => (Raise x, [])
       | Ok dn => ldap_get_request e dn ats (set_defaults o k)
       end.
(** the named arguments of LDAP.search that may be given to the relative methods *)
Record more_args := mk_more {
  m_timeout : option Z; m_limit : Z; m_deref : option N; m_attrs_only : bool; m_refs : option bool;
  m_follow : option bool; m_syntax : option fsyntax }.
Definition no_more : more_args := mk_more None 0 None false None None None.
Definition obj_search (e : env) (o : robj) (f : option str) (ats : attr_arg) (m : more_args) (k : kwds_t) : res handle * list wire_search :=
  if negb (ro_conn o) then (Raise RuntimeError, [])
  else match ro_scope o with
       | None => (Raise (if e_unbound e then ConnectionUnbound else constraint_error), [])  (* setComponentByName('scope', not a Scope) *)
       | Some sc => ldap_search e (mk_args (ro_dn o) sc f ats (m_timeout m) (m_limit m) (m_deref m) (m_attrs_only m)
                                     (m_refs m) (m_follow m) (m_syntax m) (set_defaults o k))
       end.
Definition obj_find (e : env) (o : robj) (r : str) (ats : attr_arg) (k : kwds_t) : res handle * list wire_search :=
  if negb (ro_conn o) then (Raise RuntimeError, [])
  else
    let k := set_defaults o k in
    match ro_scope o with
    | Some BaseScope => (Raise LDAPError, [])
    | Some OneScope => obj_get_child e o r ats k
    | Some SubScope =>
        match rdn_attr_ (ro_rdn_attr o) r with
        | Raise x => (Raise x, [])
        | Ok av => obj_search e o (Some (lit "(" ++ av ++ lit ")")) ats (mk_more None 2 None false None None (Some STANDARD)) k
        end
    | None => (Raise ValueError, [])
    end.
(** The object made of an entry found: base.py:1584 *)
Definition found_obj (h : handle) (dn : str) : res robj := ldap_new_obj dn (h_obj_kwds h).
(** LDAPObject.add_child up to the new object: ldapobject.py:154-167, base.py:795-805 *)
Definition obj_add_child (e : env) (o : robj) (r : str) (k : kwds_t) : res (list wire_ctrl * robj) :=
  if negb (ro_conn o) then Raise RuntimeError
  else
    let k := set_defaults o k in
    let* dn := rdn o r in
    if e_unbound e then Raise ConnectionUnbound
    else
      let* (cs, rest) := process_kwds (e_reg e) (lit "add") k (e_supported e) (e_criticality e) false in
      let* n := ldap_new_obj dn rest in
      Ok (cs, n).
