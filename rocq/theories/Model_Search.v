(** * Model of search results, single-object lookups, tags and LDAP URIs
    /repo/laurelin/ldap/base.py: LDAP.tag, obj, get, exists (547-620), ResponseHandle,
    SearchResultHandle, ExtendedResponseHandle (1532-1658), LDAPURI (1661-1742),
    SearchReferenceHandle (1744-1763); ldapobject.py: find (194-232), get_child, rdn (90-107,
    136-152); utils.py: get_one_result (174-181); constants.py: Scope.string (74-84).
    Simplifications: attribute values are strings (bytes are not distinguished); the messages the
    server sends for the request's ID are a list in order (Model_Net shows when the socket
    delivers them so); after the last one a read waits; [handle] is
    controls.handle_response (Model_Controls) as far as its exceptions go; [urlparse] is the
    library function: scheme, netloc, path, query. *)
From Verif Require Import PyBase Model_CIDict Model_Modify Model_Uri Model_Conn.
Local Open Scope N_scope.

(** Result codes used: rfc4511.py ResultCode; protoutils.py:14-20 *)
Definition rc_success : N := 0.
Definition rc_sizeLimitExceeded : N := 4.
Definition rc_referral : N := 10.
Definition rc_noSuchObject : N := 32.

Inductive scope := BaseScope | OneScope | SubScope.

(** ** LDAPURI *)
(** [u_starttls] is None when the instance has no such attribute. base.py:1661-1720 *)
Record ldapuri := mk_uri {
  u_host_uri : str; u_dn : str; u_attrs : list str; u_scope : scope; u_filter : str;
  u_starttls : option bool }.

(** Scope.string: constants.py:74-84 *)
Definition scope_string (lower : str -> str) (s : str) : res scope :=
  let s := lower s in
  if str_eqb s (lit "base") then Ok BaseScope
  else if str_eqb s (lit "one") then Ok OneScope
  else if str_eqb s (lit "sub") then Ok SubScope
  else Raise ValueError.

(** LDAP.DEFAULT_FILTER: base.py:151 *)
Definition default_filter : str := lit "(objectClass=*)".

(** the loop over the URI extensions: base.py:1704-1718; the warning for an unknown uncritical
    one is not modelled. [acc]: self.starttls, unset at first *)
Fixpoint uri_extensions (exts : list str) (acc : option bool) : res (option bool) :=
  match exts with
  | [] => Ok acc
  | e :: rest =>
      let critical := starts_with (lit "!") e in
      let name := if critical then tl e else e in
      if str_eqb name (lit "StartTLS") then uri_extensions rest (Some true)
      else if critical then Raise LDAPError
      else uri_extensions rest acc
  end.

(** (nparams > i) and (len(params[i]) > 0) *)
Definition param (params : list str) (i : nat) : option str :=
  match nth_error params i with Some (c :: s) => Some (c :: s) | _ => None end.

(** LDAPURI.__init__: base.py:1683-1720 *)
Definition parse_ldapuri (lower : str -> str) (urlparse : str -> str * str * str * str) (uri : str)
    : res ldapuri :=
  let '(sch, netloc, path, query) := urlparse uri in
  let params := py_split (lit "?") query in
  let ats := match param params 0 with Some p => py_split (lit ",") p | None => [lit "*"] end in
  let* sc := match param params 1 with Some p => scope_string lower p | None => Ok BaseScope end in
  let fil := match param params 2 with Some p => p | None => default_filter end in
  let* tls := match param params 3 with
              | Some p => uri_extensions (py_split (lit ",") p) None
              | None => Ok (Some false)
              end in
  Ok (mk_uri (sch ++ lit "://" ++ netloc) (tl path) ats sc fil tls).

(** SearchReferenceHandle.__init__: base.py:1746-1750 *)
Fixpoint parse_uris (lower : str -> str) (urlparse : str -> str * str * str * str) (uris : list str)
    : res (list ldapuri) :=
  match uris with
  | [] => Ok []
  | u :: rest =>
      let* p := parse_ldapuri lower urlparse u in
      let* ps := parse_uris lower urlparse rest in Ok (p :: ps)
  end.

(** ** Objects and tags *)
Record lobj := mk_lobj { o_dn : str; o_attrs : attrs }.
Definition tagtab := list (str * lobj).

(** LDAP.obj, for attributes of the right types: base.py:560-582 *)
Definition ldap_obj (lower : str -> str) (tags : tagtab) (dn : str) (a : list (str * list str))
    (tag : option str) : tagtab * res lobj :=
  let o := mk_lobj dn (cid_update lower cid_empty a) in
  match tag with
  | None => (tags, Ok o)
  | Some t => if dmem tags t then (tags, Raise TagError) else (dset tags t o, Ok o)
  end.

(** LDAP.tag: base.py:547-558 *)
Definition ldap_tag (tags : tagtab) (t : str) : res lobj :=
  match dget tags t with Some o => Ok o | None => Raise TagError end.

(** ** Search results *)

(** What the server can send for the search's message ID. *)
Inductive reply (C : Type) :=
| REntry (dn : str) (a : list (str * list str)) (c : C)     (* searchResEntry *)
| RRef (uris : list str) (c : C)                             (* searchResRef *)
| RDone (code : N) (referral : list str) (c : C)             (* searchResDone *)
| ROther.                                                    (* any other message type *)
Arguments REntry {C}. Arguments RRef {C}. Arguments RDone {C}. Arguments ROther {C}.

(** What iteration yields: an LDAPObject or a SearchReferenceHandle. *)
Inductive item := IObj (o : lobj) | IRef (uris : list ldapuri).

(** How an iteration ends: the generator returns, raises, or waits for the server. *)
Inductive ending := Finished | Failed (e : exn) | Waiting.

(** attrs[attr_type] = seq_to_list(vals), for each attribute of the entry: base.py:1576-1582 *)
Definition entry_dict (a : list (str * list str)) : list (str * list str) :=
  fold_left (fun d av => dset d (fst av) (snd av)) a [].

(** SearchResultHandle: base.py:1532-1565 *)
Record shandle := mk_handle {
  h_abandoned : bool; h_done : bool; h_fetch_refs : bool; h_follow : bool; h_tag : option str }.
Definition set_done (h : shandle) : shandle :=
  mk_handle (h_abandoned h) true (h_fetch_refs h) (h_follow h) (h_tag h).
Definition set_abandoned (h : shandle) : shandle :=
  mk_handle true (h_done h) (h_fetch_refs h) (h_follow h) (h_tag h).

Section Iterate.
  Context {C : Type} (handle : C -> res unit) (lower : str -> str)
          (urlparse : str -> str * str * str * str).
  (** connecting to the URI's server, StartTLS if requested, sending the search and unbinding
      again: base.py:1730-1734 *)
  Context (contact : ldapuri -> res unit).

  (** LDAPURI.search: base.py:1722-1735.  The handle it returns belongs to a connection that has
      just been unbound, so that reading its results is reading from a closed socket: OSError
      (net.py:336). *)
  Definition uri_search (u : ldapuri) : res (list item * ending) :=
    match u_starttls u with
    | None => Raise AttributeError
    | Some _ => let* _ := contact u in Ok ([], Failed os_error)
    end.

  (** SearchReferenceHandle.fetch: base.py:1752-1763 *)
  Fixpoint fetch (us : list ldapuri) : res (list item * ending) :=
    match us with
    | [] => Raise LDAPError
    | u :: rest =>
        match uri_search u with
        | Raise LDAPConnectionError => fetch rest
        | r => r
        end
    end.

  (** the loop of SearchResultHandle.__iter__: base.py:1571-1621.  Returns what it yields, how it
      ends, the messages not read, the handle and the tags. *)
  Fixpoint iter_loop (h : shandle) (tags : tagtab) (msgs : list (reply C))
      : list item * ending * list (reply C) * shandle * tagtab :=
    match msgs with
    | [] => ([], Waiting, [], h, tags)
    | REntry dn a c :: rest =>
        match ldap_obj lower tags dn (entry_dict a) (h_tag h) with
        | (tags', Raise e) => ([], Failed e, rest, h, tags')
        | (tags', Ok o) =>
            match handle c with
            | Raise e => ([], Failed e, rest, h, tags')
            | Ok _ =>
                let '(items, e, r, h', t') := iter_loop h tags' rest in
                (IObj o :: items, e, r, h', t')
            end
        end
    | RDone code referral c :: rest =>
        let h1 := set_done h in
        if N.eqb code rc_success || N.eqb code rc_noSuchObject then
          match handle c with
          | Raise e => ([], Failed e, rest, h1, tags)
          | Ok _ => ([], Finished, rest, h1, tags)
          end
        else if N.eqb code rc_referral then
          if h_follow h then
            match (let* us := parse_uris lower urlparse referral in fetch us) with
            | Raise e => ([], Failed e, rest, h1, tags)
            | Ok (fetched, Finished) =>
                let '(items, e, r, h', t') := iter_loop h1 tags rest in
                (fetched ++ items, e, r, h', t')
            | Ok (fetched, e) => (fetched, e, rest, h1, tags)
            end
          else ([], Finished, rest, h1, tags)
        else ([], Failed LDAPError, rest, h1, tags)
    | RRef uris c :: rest =>
        match parse_uris lower urlparse uris with
        | Raise e => ([], Failed e, rest, h, tags)
        | Ok us =>
            if h_fetch_refs h then
              match fetch us with
              | Raise e => ([], Failed e, rest, h, tags)
              | Ok (fetched, Finished) =>
                  let '(items, e, r, h', t') := iter_loop h tags rest in
                  (fetched ++ items, e, r, h', t')
              | Ok (fetched, e) => (fetched, e, rest, h, tags)
              end
            else
              match handle c with
              | Raise e => ([], Failed e, rest, h, tags)
              | Ok _ =>
                  let '(items, e, r, h', t') := iter_loop h tags rest in
                  (IRef us :: items, e, r, h', t')
              end
        end
    | ROther :: rest => ([], Failed UnexpectedResponseType, rest, h, tags)
    end.

  (** SearchResultHandle.__iter__: base.py:1567-1571 *)
  Definition iterate (h : shandle) (tags : tagtab) (msgs : list (reply C)) :=
    if h_abandoned h then ([], Finished, msgs, h, tags) else iter_loop h tags msgs.

  (** ResponseHandle.abandon: base.py:1549-1557.  The socket has no attribute abandonedMIDs
      (it is called abandoned_mids, net.py:76), so the last statement raises.  The number counts
      abandon requests sent. *)
  Definition abandon (h : shandle) (sent : nat) : res unit * shandle * nat :=
    if h_abandoned h then (Ok tt, h, sent)
    else (Raise AttributeError, set_abandoned h, S sent).

  (** ResponseHandle.__exit__: base.py:1543-1547; [exc] is the exception leaving the block.
      The result is what the with statement raises. *)
  Definition handle_exit (h : shandle) (sent : nat) (exc : option exn) : res unit * shandle * nat :=
    let leave := match exc with
                 | None => Ok tt
                 | Some e => if exn_eqb e Abandon then Ok tt else Raise e
                 end in
    if h_done h then (leave, h, sent)
    else
      let '(r, h', sent') := abandon h sent in
      match r with Raise e => (Raise e, h', sent') | Ok _ => (leave, h', sent') end.

  (** list(handle) *)
  Definition list_of (h : shandle) (tags : tagtab) (msgs : list (reply C)) : option (res (list item)) :=
    let '(items, e, _, _, _) := iterate h tags msgs in
    match e with
    | Finished => Some (Ok items)
    | Failed x => Some (Raise x)
    | Waiting => None
    end.

  (** utils.get_one_result: utils.py:174-181 *)
  Definition get_one_result (results : list item) : res item :=
    match results with
    | [] => Raise NoSearchResults
    | [x] => Ok x
    | _ => Raise MultipleSearchResults
    end.

  (** A search request as the server sees it. *)
  Record request := mk_request {
    q_base : str; q_scope : scope; q_filter : str; q_attrs : option (list str); q_limit : N }.

  (** The server's replies to a request; connection settings of the lookup *)
  Context (server : request -> list (reply C)) (fetch_refs follow : bool).

  (** one search and list() of its results; None: waits for ever *)
  Definition search_list (tags : tagtab) (tag : option str) (q : request) : option (res (list item)) :=
    list_of (mk_handle false false fetch_refs follow tag) tags (server q).

  Definition one_of (r : option (res (list item))) : option (res item) :=
    match r with
    | None => None
    | Some (Raise e) => Some (Raise e)
    | Some (Ok l) => Some (get_one_result l)
    end.

  (** LDAP.get: base.py:584-603 *)
  Definition ldap_get (tags : tagtab) (unbound : bool) (dn : str) (ats : option (list str)) (tag : option str)
      : option (res item) :=
    if unbound then Some (Raise ConnectionUnbound)
    else one_of (search_list tags tag (mk_request dn BaseScope default_filter ats 2)).

  (** LDAP.exists: base.py:605-620 *)
  Definition ldap_exists (tags : tagtab) (unbound : bool) (dn : str) : option (res bool) :=
    if unbound then Some (Raise ConnectionUnbound)
    else
      match ldap_get tags unbound dn (Some [lit "1.1"]) None with
      | None => None
      | Some (Ok _) => Some (Ok true)
      | Some (Raise NoSearchResults) => Some (Ok false)
      | Some (Raise MultipleSearchResults) => Some (Ok true)
      | Some (Raise e) => Some (Raise e)
      end.

  (** LDAPObject._rdn_attr: ldapobject.py:90-97 *)
  Definition rdn_attr_ (rdn_attr : option str) (rdn : str) : res str :=
    if existsb (N.eqb (ch "=")) rdn then Ok rdn
    else match rdn_attr with
         | Some a => Ok (a ++ lit "=" ++ rdn)
         | None => Raise ValueError
         end.
  (** LDAPObject.rdn: ldapobject.py:99-107 *)
  Definition obj_rdn (dn : str) (rdn_attr : option str) (rdn : str) : res str :=
    let* r := rdn_attr_ rdn_attr rdn in Ok (r ++ lit "," ++ dn).

  (** LDAPObject.get_child: ldapobject.py:136-152 *)
  Definition get_child (tags : tagtab) (unbound : bool) (dn : str) (rdn_attr : option str) (rdn : str)
      (ats : option (list str)) (tag : option str) : option (res item) :=
    match obj_rdn dn rdn_attr rdn with
    | Raise e => Some (Raise e)
    | Ok d => ldap_get tags unbound d ats tag
    end.

  (** LDAPObject.find: ldapobject.py:194-232, for an object with a connection.  [parse_ok f]: the
      standard filter parser accepts f (Model_Filter); the invalid-scope branch cannot occur. *)
  Definition find (parse_ok : str -> res unit) (tags : tagtab) (unbound : bool) (dn : str)
      (sc : scope) (rdn_attr : option str) (rdn : str) (ats : option (list str)) (tag : option str)
      : option (res item) :=
    match sc with
    | BaseScope => Some (Raise LDAPError)
    | OneScope => get_child tags unbound dn rdn_attr rdn ats tag
    | SubScope =>
        match rdn_attr_ rdn_attr rdn with
        | Raise e => Some (Raise e)
        | Ok r =>
            let f := lit "(" ++ r ++ lit ")" in
            if unbound then Some (Raise ConnectionUnbound)
            else
              match parse_ok f with
              | Raise e => Some (Raise e)
              | Ok _ => one_of (search_list tags tag (mk_request dn SubScope f ats 2))
              end
        end
    end.
End Iterate.

(** ** ExtendedResponseHandle: base.py:1624-1658 *)
(** Messages for an extended request: an intermediate response, the final one with its result
    code, or something else. *)
Inductive xreply := XIntermediate (v : str) | XFinal (code : N) (v : str) | XOther.
(** _handle_msg: base.py:1634-1648; returns the message's payload and whether it was the last *)
Definition handle_xmsg (require_success : bool) (m : xreply) : res (str * bool) * bool :=
  match m with
  | XIntermediate v => (Ok (v, false), false)
  | XFinal code v =>
      if require_success && negb (N.eqb code rc_success) then (Raise LDAPError, true) else (Ok (v, true), true)
  | XOther => (Raise UnexpectedResponseType, false)
  end.
(** __iter__: base.py:1651-1655; [done] may be set by an earlier recv_response: it is only looked at
    after a message *)
Fixpoint xiterate (require_success done : bool) (msgs : list xreply) : list str * ending * list xreply * bool :=
  match msgs with
  | [] => ([], Waiting, [], done)
  | m :: rest =>
      match handle_xmsg require_success m with
      | (Raise e, d) => ([], Failed e, rest, done || d)
      | (Ok (v, _), d) =>
          if done || d then ([v], Finished, rest, true)
          else let '(vs, e, r, d') := xiterate require_success done rest in (v :: vs, e, r, d')
      end
  end.

(** ** Histories of tags *)
(** obj(dn, attrs, tag); [add] with a tag: base.py:781-838 - controls, then the object with its tag,
    then validation, then the request, then the response. *)
Inductive tag_op :=
| TObj (dn : str) (a : list (str * list str)) (tag : option str)
| TAdd (unbound : bool) (dn : str) (a : list (str * list str)) (tag : option str) (ctrls validated answer : res unit)
| TTag (t : str).
Definition tag_step (lower : str -> str) (tags : tagtab) (o : tag_op) : tagtab * res lobj :=
  match o with
  | TObj dn a t => ldap_obj lower tags dn a t
  | TAdd unbound dn a t ctrls validated answer =>
      if unbound then (tags, Raise ConnectionUnbound)
      else
        match ctrls with
        | Raise e => (tags, Raise e)
        | Ok _ =>
            let (tags', r) := ldap_obj lower tags dn a t in
            (tags', let* o := r in let* _ := validated in let* _ := answer in Ok o)
        end
  | TTag t => (tags, ldap_tag tags t)
  end.
Fixpoint tag_run (lower : str -> str) (tags : tagtab) (os : list tag_op) : tagtab * list (res lobj) :=
  match os with
  | [] => (tags, [])
  | o :: rest =>
      let (t1, r) := tag_step lower tags o in
      let (t2, rs) := tag_run lower t1 rest in (t2, r :: rs)
  end.
