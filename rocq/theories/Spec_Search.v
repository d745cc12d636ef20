(** * Specifications for search results, lookups, tags and LDAP URIs *)
From Verif Require Import PyBase Model_CIDict Model_Modify Model_Search.
Local Open Scope N_scope.

(** An object shows an entry: same DN, and looking up a name in any letter case gives exactly the
    values the server sent under it. *)
Definition shows (lower : str -> str) (dn : str) (a : list (str * list str)) (o : lobj) : Prop :=
  o_dn o = dn /\
  forall k vs, cid_get lower (o_attrs o) k = Ok vs <-> exists name, In (name, vs) a /\ lower name = lower k.

(** No two attributes of an entry have the same name up to case (RFC 4511, 4.5.2). *)
Definition names_distinct (lower : str -> str) (a : list (str * list str)) : Prop :=
  NoDup (map (fun av => lower (fst av)) a).

(** What is to be yielded for a message *)
Definition item_for {C} (lower : str -> str) (urlparse : str -> str * str * str * str) (m : reply C) (i : item) : Prop :=
  match m, i with
  | REntry dn a _, IObj o => shows lower dn a o
  | RRef uris _, IRef us => parse_uris lower urlparse uris = Ok us
  | _, _ => False
  end.

(** A message with a result: an entry, or a reference with URIs that can be parsed, and controls
    that can be handled *)
Definition result_message {C} (handle : C -> res unit) (lower : str -> str)
    (urlparse : str -> str * str * str * str) (m : reply C) : Prop :=
  match m with
  | REntry _ a c => names_distinct lower a /\ handle c = Ok tt
  | RRef uris c => (exists us, parse_uris lower urlparse uris = Ok us) /\ handle c = Ok tt
  | _ => False
  end.

(** How a search that is not to follow referrals ends *)
Definition end_of (code : N) : ending :=
  if N.eqb code 0 || N.eqb code 32 || N.eqb code 10 then Finished else Failed LDAPError.

(** How fetching a reference fails: its URIs are tried in order; only one whose server cannot be
    connected to lets the next be tried, and with none left it is LDAPError; a URI with an extension
    other than StartTLS cannot be used at all; any other failure is passed on; and where the search is
    made its results are read from a connection that is already closed (an OSError). *)
Inductive FetchFails (contact : ldapuri -> res unit) : list ldapuri -> exn -> Prop :=
| FF_none : FetchFails contact [] LDAPError
| FF_next u us b e : u_starttls u = Some b -> contact u = Raise LDAPConnectionError ->
    FetchFails contact us e -> FetchFails contact (u :: us) e
| FF_extension u us : u_starttls u = None -> FetchFails contact (u :: us) AttributeError
| FF_error u us b e : u_starttls u = Some b -> contact u = Raise e -> e <> LDAPConnectionError ->
    FetchFails contact (u :: us) e
| FF_closed u us b : u_starttls u = Some b -> contact u = Ok tt -> FetchFails contact (u :: us) (OtherExn 9).

(** ** A directory server (RFC 4511, 4.5): [found q] is None if the base object does not exist and
    otherwise all entries in scope that match the filter *)
Definition answers {C} (noctl : C) (found : request -> option (list (str * list (str * list str)))) (q : request)
    : list (reply C) :=
  let entries l := map (fun e => REntry (fst e) (snd e) noctl) l in
  match found q with
  | None => [RDone 32 [] noctl]
  | Some l =>
      if (0 <? q_limit q) && (q_limit q <? N.of_nat (List.length l))
      then entries (firstn (N.to_nat (q_limit q)) l) ++ [RDone 4 [] noctl]
      else entries l ++ [RDone 0 [] noctl]
  end.

(** ** Tags: the object created by the first call with that tag *)
Definition created (lower : str -> str) (o : tag_op) : option (str * lobj) :=
  match o with
  | TObj dn a (Some t) => Some (t, mk_lobj dn (cid_update lower cid_empty a))
  | TAdd _ dn a (Some t) _ _ _ => Some (t, mk_lobj dn (cid_update lower cid_empty a))
  | _ => None
  end.
Fixpoint first_with (lower : str -> str) (t : str) (os : list tag_op) : option lobj :=
  match os with
  | [] => None
  | o :: rest =>
      match created lower o with
      | Some (t', x) => if str_eqb t' t then Some x else first_with lower t rest
      | None => first_with lower t rest
      end
  end.
(** every add goes through (or fails before anything happens, by an unbound connection or its controls) *)
Definition add_completes (o : tag_op) : Prop :=
  match o with
  | TAdd unbound _ _ _ ctrls validated answer => unbound = false /\ ctrls = Ok tt /\ validated = Ok tt /\ answer = Ok tt
  | _ => True
  end.

(** ** LDAP URIs (RFC 4516): attributes ? scope ? filter ? extensions *)
Fixpoint joined (sep : N) (l : list str) : str :=
  match l with
  | [] => []
  | [x] => x
  | x :: rest => x ++ sep :: joined sep rest
  end.
(** a component: not empty, without separators *)
Definition component_ok (s : str) : Prop := s <> [] /\ ~ In (ch ",") s /\ ~ In (ch "?") s.
Definition scope_word (lower : str -> str) (w : str) (sc : scope) : Prop :=
  (w = [] /\ sc = BaseScope) \/
  (w <> [] /\ ~ In (ch "?") w /\
   ((lower w = lit "base" /\ sc = BaseScope) \/ (lower w = lit "one" /\ sc = OneScope) \/ (lower w = lit "sub" /\ sc = SubScope))).
Definition starttls_ext (e : str) : Prop := e = lit "StartTLS" \/ e = lit "!StartTLS".
Definition critical_ext (e : str) : Prop := exists n, e = lit "!" ++ n.
