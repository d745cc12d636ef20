(** * Model of the life of objects: every method of LDAPObject, over whole sessions
    /repo/laurelin/ldap/ldapobject.py: __init__ (50-60), __setitem__, _has_ldap, _require_ldap (75-86),
    relative methods (90-241), has_object_class, refresh, refresh_all, refresh_missing (294-338),
    modify ... delete_attrs (343-396), delete, mod_dn, rename, move (431-500), validate, validate_modify
    (504-514); base.py: get, search, compare, add, delete, mod_dn, modify up to their requests;
    extensions/netgroups.py: the methods on objects (298-399).
    What is sent is recorded by the same step that lets the server answer it.
    Simplifications: as in Model_Dir (controls left out, values are strings, arguments have the right
    types, answers are success or an error); tags are only told apart from no tag; referrals are not
    returned; keywords of the relative methods are left out (Model_Request has them); a connected
    object has a DN (only delete takes it away, and it takes the connection too). *)
From Verif Require Import PyBase Model_CIDict Model_Modify Model_Search Model_Dir Model_Filter Model_Request Model_Netgroups.

(** ldapobject.py:50-60: dn (None once deleted), ldap_conn is set, the attributes, relative_search_scope
    (None: not one of the constants), rdn_attr *)
Record obj := mk_obj { ob_dn : option str; ob_conn : bool; ob_attrs : attrs; ob_scope : option scope; ob_rdn : option str }.

(** what is sent *)
Inductive request :=
| QRead (dn : str) (ats : option (list str))
| QSearch (base : str) (sc : scope) (f : option str) (ats : option (list str)) (limit : N)
| QCompare (dn a v : str)
| QAdd (dn : str) (a : list (str * list str))
| QModify (dn : str) (cs : list change)
| QDelete (dn : str)
| QModDn (dn new_rdn : str) (clean : bool) (parent : option str).

(** the methods; one call of one object *)
Inductive ng_op := NgAdd | NgReplace | NgDelete.
Inductive call :=
| CObj (rdn : str) (a : list (str * list str)) (tagged : bool)
| CGetChild (rdn : str) (ats : option (list str))
| CAddChild (rdn : str) (a : list (str * list str))
| CDeleteChild (rdn : str)
| CSearch (f : option str) (ats : option (list str))
| CFind (rdn : str) (ats : option (list str))
| CCompare (a v : str)
| CHasClass (oc : str)
| CRefresh (ats : option (list str))
| CRefreshAll
| CRefreshMissing (ats : list str)
| CModify (ms : list mod_)
| CAddAttrs (new : list (str * vals))
| CReplaceAttrs (new : list (str * vals))
| CDeleteAttrs (del : list (str * vals))
| CDelete
| CModDn (new_rdn : str) (clean : bool) (new_parent : option str)
| CRename (new_rdn : str) (clean : bool)
| CMove (new_dn : str) (clean : bool)
| CValidate
| CValidateModify (ms : list mod_)
| CSet (a : str) (vs : list str)              (* obj[a] = vs *)
| CDel (a : str)                              (* del obj[a] *)
| CNetgroup (op : ng_op) (users : bool) (ms : members) (domain : field).

Inductive value := VNone | VBool (b : bool) | VObjs (l : list obj).

Section Life.
  Context {S : Type} (sv : server S).
  (** the entries a search finds, or an error *)
  Context (sv_search : S -> str -> scope -> option str -> option (list str) -> N -> option (list (str * list (str * list str)))).
  Context (lower : str -> str) (idx : str -> list str -> str -> res nat).
  Context (strict_modify : bool) (flags : empty_flags) (syn : fsyntax).
  Context (validate_object : lobj -> res unit) (validate_mod : str -> list mod_ -> option lobj -> res unit).

  (** the server, whether the connection has been unbound, and the object whose method runs *)
  Record world := mk_world { w_s : S; w_closed : bool; w_o : obj }.
  (** Python code that may send requests, change the object and raise *)
  Definition M (A : Type) := world -> world * list request * res A.
  Definition ret {A} (a : A) : M A := fun w => (w, [], Ok a).
  Definition raise {A} (e : exn) : M A := fun w => (w, [], Raise e).
  Definition lift {A} (r : res A) : M A := fun w => (w, [], r).
  Definition bindM {A B} (m : M A) (k : A -> M B) : M B := fun w =>
    match m w with
    | (w1, t1, Raise e) => (w1, t1, Raise e)
    | (w1, t1, Ok a) => match k a w1 with (w2, t2, r) => (w2, t1 ++ t2, r) end
    end.
  Notation "'do' x <- m ; k" := (bindM m (fun x => k)) (at level 200, x name, m at level 100, k at level 200).
  Notation "'run' m ; k" := (bindM m (fun _ => k)) (at level 200, m at level 100, k at level 200).

  Definition self : M obj := fun w => (w, [], Ok (w_o w)).
  Definition put (o : obj) : M unit := fun w => (mk_world (w_s w) (w_closed w) o, [], Ok tt).
  Definition put_attrs (d : attrs) : M unit :=
    do o <- self; put (mk_obj (ob_dn o) (ob_conn o) d (ob_scope o) (ob_rdn o)).
  Definition put_dn (dn : str) : M unit :=
    do o <- self; put (mk_obj (Some dn) (ob_conn o) (ob_attrs o) (ob_scope o) (ob_rdn o)).
  (** str(self.dn) *)
  Definition dn_text (o : obj) : str := match ob_dn o with Some d => d | None => lit "None" end.
  Definition as_lobj (o : obj) : lobj := mk_lobj (dn_text o) (ob_attrs o).

  (** sending a request: the answer *)
  Definition send_read (dn : str) (ats : option (list str)) : M (option (str * list (str * list str))) :=
    fun w => (w, [QRead dn ats], Ok (sv_read sv (w_s w) dn ats)).
  Definition send_search (b : str) (sc : scope) (f : option str) (ats : option (list str)) (n : N) : M (option (list (str * list (str * list str)))) :=
    fun w => (w, [QSearch b sc f ats n], Ok (sv_search (w_s w) b sc f ats n)).
  Definition send_compare (dn a v : str) : M N :=
    fun w => (w, [QCompare dn a v], Ok (sv_compare sv (w_s w) dn a v)).
  (** what a request does to the server: its new state and whether it reports success *)
  Definition serve (s : S) (q : request) : S * bool :=
    match q with
    | QAdd dn a => sv_add sv s dn a
    | QModify dn cs => sv_modify sv s dn cs
    | QDelete dn => sv_delete sv s dn
    | QModDn dn r c p => sv_moddn sv s dn r c p
    | _ => (s, true)
    end.
  Definition send (q : request) : M unit :=
    fun w => let (s', ok) := serve (w_s w) q in (mk_world s' (w_closed w) (w_o w), [q], success ok).
  (** if self.sock.unbound: raise ConnectionUnbound() *)
  Definition check_open : M unit := fun w => (w, [], if w_closed w then Raise ConnectionUnbound else Ok tt).

  (** *** methods of the connection *)
  (** get: base.py:584-603 *)
  Definition l_get (dn : str) (ats : option (list str)) : M lobj :=
    run check_open;
    do r <- send_read dn ats;
    match r with
    | None => raise NoSearchResults
    | Some (dn', a) => ret (mk_lobj dn' (cid_update lower cid_empty (entry_dict a)))
    end.
  (** search: base.py:676-736, to the last result *)
  Definition l_search (b : str) (sc : scope) (f : option str) (sy : fsyntax) (ats : option (list str)) (n : N) : M (list lobj) :=
    run check_open;
    run lift (match f with None => Ok tt | Some t => let* _ := parse_filter sy t in Ok tt end);
    do r <- send_search b sc f ats n;
    match r with
    | None => raise LDAPError
    | Some l => ret (map (fun da => mk_lobj (fst da) (cid_update lower cid_empty (entry_dict (snd da)))) l)
    end.
  (** compare: base.py:738-779 *)
  Definition l_compare (dn a v : str) : M bool :=
    run check_open;
    do code <- send_compare dn a v;
    if N.eqb code 6 then ret true else if N.eqb code 5 then ret false else raise LDAPError.
  (** add: base.py:781-838 *)
  Definition l_add (dn : str) (a : list (str * list str)) : M lobj :=
    run check_open;
    run lift (validate_object (mk_lobj dn (cid_update lower cid_empty a)));
    run send (QAdd dn a);
    ret (mk_lobj dn (cid_update lower cid_empty a)).
  (** delete: base.py:907-924 *)
  Definition l_delete (dn : str) : M unit := run check_open; send (QDelete dn).
  (** mod_dn: base.py:926-955 *)
  Definition l_mod_dn (dn new_rdn : str) (clean : bool) (parent : option str) : M unit :=
    run check_open; send (QModDn dn new_rdn clean parent).
  (** modify: base.py:984-1050; the list as it is afterwards *)
  Definition l_modify (dn : str) (ms : list mod_) (cur : option lobj) : M (list mod_) :=
    fun w =>
      match ldap_modify (w_closed w) flags (validate_mod dn ms cur) (Ok tt) (Ok tt) ms with
      | (ms', Some cs, _) => bindM (send (QModify dn cs)) (fun _ => ret ms') w
      | (ms', None, r) => bindM (lift r) (fun _ => ret ms') w
      end.

  (** *** methods of the object *)
  (** _require_ldap: ldapobject.py:84-86 *)
  Definition require_ldap : M unit := do o <- self; if ob_conn o then ret tt else raise RuntimeError.
  (** self.ldap_conn.name *)
  Definition need_conn : M unit := do o <- self; if ob_conn o then ret tt else raise AttributeError.
  (** rdn: ldapobject.py:90-107 *)
  Definition m_rdn (r : str) : M str := do o <- self; lift (obj_rdn (dn_text o) (ob_rdn o) r).
  (** LDAPObject(...) with the settings of this object: ldapobject.py:50-60, 109-112 *)
  Definition child (o : obj) (n : lobj) : obj := mk_obj (Some (o_dn n)) (ob_conn o) (o_attrs n) (ob_scope o) (ob_rdn o).

  (** obj: ldapobject.py:114-134 *)
  Definition m_obj (r : str) (a : list (str * list str)) (tagged : bool) : M value :=
    do o <- self;
    run (if negb (ob_conn o) && tagged then raise LDAPError else ret tt);
    do dn <- m_rdn r;
    ret (VObjs [child o (mk_lobj dn (cid_update lower cid_empty a))]).
  (** get_child: ldapobject.py:136-150 *)
  Definition m_get_child (r : str) (ats : option (list str)) : M value :=
    run require_ldap;
    do dn <- m_rdn r;
    do got <- l_get dn ats;
    do o <- self; ret (VObjs [child o got]).
  (** add_child: ldapobject.py:152-165 *)
  Definition m_add_child (r : str) (a : list (str * list str)) : M value :=
    run require_ldap;
    do dn <- m_rdn r;
    do n <- l_add dn a;
    do o <- self; ret (VObjs [child o n]).
  (** delete_child: ldapobject.py:167-177 *)
  Definition m_delete_child (r : str) : M value :=
    run require_ldap;
    do dn <- m_rdn r;
    run l_delete dn; ret VNone.
  (** search: ldapobject.py:179-192 *)
  Definition m_search_with (f : option str) (sy : fsyntax) (ats : option (list str)) (n : N) : M (list obj) :=
    run require_ldap;
    do o <- self;
    match ob_scope o with
    | None => run check_open; raise constraint_error
    | Some sc =>
        do l <- l_search (dn_text o) sc f sy ats n;
        ret (map (child o) l)
    end.
  Definition m_search (f : option str) (ats : option (list str)) : M value :=
    do l <- m_search_with f syn ats 0; ret (VObjs l).
  (** find: ldapobject.py:194-228; get_one_result: utils.py:174-181 *)
  Definition m_find (r : str) (ats : option (list str)) : M value :=
    run require_ldap;
    do o <- self;
    match ob_scope o with
    | Some BaseScope => raise LDAPError
    | Some OneScope => m_get_child r ats
    | Some SubScope =>
        do av <- lift (rdn_attr_ (ob_rdn o) r);
        do l <- m_search_with (Some (lit "(" ++ av ++ lit ")")) STANDARD ats 2;
        match l with
        | [] => raise NoSearchResults
        | [x] => ret (VObjs [x])
        | _ => raise MultipleSearchResults
        end
    | None => raise ValueError
    end.
  (** compare: ldapobject.py:230-241 *)
  Definition m_compare (a v : str) : M value :=
    run require_ldap;
    do o <- self; do b <- l_compare (dn_text o) a v; ret (VBool b).

  (** refresh: ldapobject.py:306-315 *)
  Definition m_refresh (ats : option (list str)) : M unit :=
    run require_ldap;
    do o <- self;
    do got <- l_get (dn_text o) ats;
    let dr := cid_update_cid lower (ob_attrs o) (o_attrs got) in
    run put_attrs (fst dr); lift (snd dr).
  (** refresh_all: ldapobject.py:317-323 *)
  Definition m_refresh_all : M unit := run require_ldap; m_refresh (Some [lit "*"; lit "+"]).
  (** refresh_missing: ldapobject.py:326-338 *)
  Definition m_refresh_missing (ats : list str) : M unit :=
    do o <- self;
    match missing lower (as_lobj o) ats with
    | [] => ret tt
    | l => m_refresh (Some l)
    end.
  (** has_object_class: ldapobject.py:295-304 *)
  Definition m_has_class (oc : str) : M bool :=
    run m_refresh_missing [lit "objectClass"];
    do o <- self;
    lift (let* l := cid_get lower (ob_attrs o) (lit "objectClass") in avl_contains (idx (lit "objectClass")) l oc).

  (** modify: ldapobject.py:343-355 *)
  Definition m_modify (ms : list mod_) : M unit :=
    run require_ldap;
    do o <- self;
    do ms' <- l_modify (dn_text o) ms (Some (as_lobj o));
    let dr := local_modify lower idx (ob_attrs o) ms' in
    run put_attrs (fst dr); lift (snd dr).
  (** the first lines of add_attrs and delete_attrs: ldapobject.py:366-367, 393-394 *)
  Definition m_prefetch (ats : list str) : M unit :=
    run need_conn; if strict_modify then ret tt else m_refresh_missing ats.
  (** add_attrs: ldapobject.py:357-369 *)
  Definition m_add_attrs (new : list (str * vals)) : M unit :=
    run m_prefetch (map fst new);
    do o <- self;
    do ms <- lift (add_modlist lower idx (ob_attrs o) new);
    m_modify ms.
  (** replace_attrs: ldapobject.py:371-381 *)
  Definition m_replace_attrs (new : list (str * vals)) : M unit :=
    do ms <- lift (modlist REPLACE new); m_modify ms.
  (** delete_attrs: ldapobject.py:383-396 *)
  Definition m_delete_attrs (del : list (str * vals)) : M unit :=
    run m_prefetch (map fst del);
    do o <- self;
    do ms <- lift (delete_modlist lower idx (ob_attrs o) del);
    m_modify ms.

  (** delete: ldapobject.py:432-444 *)
  Definition m_delete : M unit :=
    run require_ldap;
    do o <- self;
    run l_delete (dn_text o);
    put (mk_obj None false (cid_clear (ob_attrs o)) (ob_scope o) (ob_rdn o)).
  (** mod_dn: ldapobject.py:446-475 *)
  Definition m_mod_dn (new_rdn : str) (clean : bool) (new_parent : option str) : M unit :=
    run require_ldap;
    do o <- self;
    do cur <- lift (split1 (ch ",") (dn_text o));
    let parent := match new_parent with None => snd cur | Some p => p end in
    run l_mod_dn (dn_text o) new_rdn clean (Some parent);
    let dr := local_rename lower idx (ob_attrs o) (fst cur) new_rdn clean in
    run put_attrs (fst dr); run lift (snd dr);
    put_dn (new_rdn ++ lit "," ++ parent).
  (** rename: ldapobject.py:477-486 *)
  Definition m_rename (new_rdn : str) (clean : bool) : M unit := m_mod_dn new_rdn clean None.
  (** move: ldapobject.py:488-498 *)
  Definition m_move (new_dn : str) (clean : bool) : M unit :=
    do p <- lift (split1 (ch ",") new_dn); m_mod_dn (fst p) clean (Some (snd p)).

  (** validate: ldapobject.py:502-504; validate_modify: 506-511 *)
  Definition m_validate : M unit := run need_conn; do o <- self; lift (validate_object (as_lobj o)).
  Definition m_validate_modify (ms : list mod_) : M unit :=
    run need_conn; do o <- self; lift (validate_mod (dn_text o) ms (Some (as_lobj o))).

  (** obj[a] = vs: ldapobject.py:75-79; del obj[a]: utils.py:163-167 *)
  Definition m_set (a : str) (vs : list str) : M unit := do o <- self; put_attrs (cid_set lower (ob_attrs o) a vs).
  Definition m_del (a : str) : M unit :=
    do o <- self; let dr := cid_del lower (ob_attrs o) a in run put_attrs (fst dr); lift (snd dr).

  (** _require_netgroup: netgroups.py:299-305; add_users ... delete_hosts: 329-399 *)
  Definition m_require_netgroup : M unit :=
    do b <- m_has_class (lit "nisNetgroup"); if b then ret tt else raise RuntimeError.
  Definition m_netgroup (op : ng_op) (users : bool) (ms : members) (domain : field) : M unit :=
    run m_require_netgroup;
    do a <- lift (if users then user_list_to_attrs ms domain else host_list_to_attrs ms domain);
    match op with
    | NgAdd => m_add_attrs (as_vals a)
    | NgReplace => m_replace_attrs (as_vals a)
    | NgDelete => m_delete_attrs (as_vals a)
    end.

  Definition nothing (m : M unit) : M value := run m; ret VNone.
  Definition perform (c : call) : M value :=
    match c with
    | CObj r a t => m_obj r a t
    | CGetChild r ats => m_get_child r ats
    | CAddChild r a => m_add_child r a
    | CDeleteChild r => m_delete_child r
    | CSearch f ats => m_search f ats
    | CFind r ats => m_find r ats
    | CCompare a v => m_compare a v
    | CHasClass oc => do b <- m_has_class oc; ret (VBool b)
    | CRefresh ats => nothing (m_refresh ats)
    | CRefreshAll => nothing m_refresh_all
    | CRefreshMissing ats => nothing (m_refresh_missing ats)
    | CModify ms => nothing (m_modify ms)
    | CAddAttrs new => nothing (m_add_attrs new)
    | CReplaceAttrs new => nothing (m_replace_attrs new)
    | CDeleteAttrs del => nothing (m_delete_attrs del)
    | CDelete => nothing m_delete
    | CModDn r c p => nothing (m_mod_dn r c p)
    | CRename r c => nothing (m_rename r c)
    | CMove d c => nothing (m_move d c)
    | CValidate => nothing m_validate
    | CValidateModify ms => nothing (m_validate_modify ms)
    | CSet a vs => nothing (m_set a vs)
    | CDel a => nothing (m_del a)
    | CNetgroup op u ms d => nothing (m_netgroup op u ms d)
    end.

  (** ** Sessions: one connection, any number of objects *)
  Record session := mk_session { ss_s : S; ss_closed : bool; ss_objs : list obj }.
  (** a method of object number i; LDAP.unbind; something else happens at the server *)
  Inductive event := Do (i : nat) (c : call) | Unbind | Outside (s : S).
  Fixpoint set_nth {A} (l : list A) (i : nat) (x : A) : list A :=
    match l, i with
    | [], _ => []
    | _ :: l', 0 => x :: l'
    | y :: l', Datatypes.S i' => y :: set_nth l' i' x
    end.
  Definition new_objs (r : res value) : list obj := match r with Ok (VObjs l) => l | _ => [] end.
  (** objects that are returned get the next numbers *)
  Definition step (ss : session) (e : event) : session * list request * res value :=
    match e with
    | Unbind => (mk_session (ss_s ss) true (ss_objs ss), [], Ok VNone)
    | Outside s => (mk_session s (ss_closed ss) (ss_objs ss), [], Ok VNone)
    | Do i c =>
        match nth_error (ss_objs ss) i with
        | None => (ss, [], Raise IndexError)
        | Some o =>
            match perform c (mk_world (ss_s ss) (ss_closed ss) o) with
            | (w, t, r) => (mk_session (w_s w) (w_closed w) (set_nth (ss_objs ss) i (w_o w) ++ new_objs r), t, r)
            end
        end
    end.
  (** the state after some events, and for each event what was sent and what came back *)
  Fixpoint session_run (ss : session) (es : list event) : session * list (list request * res value) :=
    match es with
    | [] => (ss, [])
    | e :: es' =>
        match step ss e with
        | (ss1, t, r) => let (ss2, out) := session_run ss1 es' in (ss2, (t, r) :: out)
        end
    end.
End Life.
