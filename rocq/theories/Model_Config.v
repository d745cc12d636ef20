(** * Model of configuration and of the LDAP constructor
    /repo/laurelin/ldap/config.py (whole file), /repo/laurelin/ldap/base.py:149-173 (the class
    defaults) and 219-351 (constructor), 547-582 (tags, obj),
    /repo/laurelin/ldap/constants.py:28-39, 74-90, /repo/laurelin/ldap/ldapobject.py:50-59, 90-134.
    Simplifications: a decoded configuration has its four sections as a record (other
    top-level keys are never looked at); the network and the server are a record of outcomes
    ([env]) which is arbitrary; of a socket only its URI and the parameters it was opened with
    are kept; the order of the two connection mappers is that of the source text. *)
From Verif Require Import PyBase Model_Uri.

(** FilterSyntax members, Scope members: constants.py:28-33, 60-72 *)
Inductive fsyntax := Standard | Simple | Unified.
Inductive scope := ScBase | ScOne | ScSub.

(** Values found in configurations and settings. [VValidator]: a Validator instance,
    [VVClass]: a Validator class, [VSock]: an LDAPSocket, [VOther]: any other object. *)
Inductive cval :=
| VNone | VBool (b : bool) | VInt (z : Z) | VStr (s : str) | VSyntax (x : fsyntax) | VScope (x : scope)
| VList (l : list cval) | VDict (d : list (str * cval)) | VValidator (n : N) | VVClass (n : N)
| VSock (uri : str) (params : list cval) | VOther (n : N).

Definition cdict := list (str * cval).

(** bool(v) *)
Definition truthy (v : cval) : bool :=
  match v with
  | VNone => false
  | VBool b => b
  | VInt z => negb (Z.eqb z 0)
  | VStr s => match s with [] => false | _ => true end
  | VList l => match l with [] => false | _ => true end
  | VDict d => match d with [] => false | _ => true end
  | _ => true
  end.

(** iter(v) *)
Definition iter_val (v : cval) : res (list cval) :=
  match v with
  | VList l => Ok l
  | VStr s => Ok (map (fun c => VStr [c]) s)
  | VDict d => Ok (map (fun kv => VStr (fst kv)) d)
  | _ => Raise TypeError
  end.

(** LDAP.DEFAULT_*: base.py:149-173. [VOther 3]: DerefAliases.ALWAYS *)
Definition initial_defaults : cdict :=
  [ (lit "DEFAULT_SERVER", VStr (lit "ldap://localhost"));
    (lit "DEFAULT_BASE_DN", VNone);
    (lit "DEFAULT_FILTER", VStr (lit "(objectClass=*)"));
    (lit "DEFAULT_DEREF_ALIASES", VOther 3);
    (lit "DEFAULT_SEARCH_TIMEOUT", VInt 0);
    (lit "DEFAULT_CONNECT_TIMEOUT", VInt 5);
    (lit "DEFAULT_STRICT_MODIFY", VBool false);
    (lit "DEFAULT_REUSE_CONNECTION", VBool true);
    (lit "DEFAULT_SSL_VERIFY", VBool true);
    (lit "DEFAULT_SSL_CA_FILE", VNone);
    (lit "DEFAULT_SSL_CA_PATH", VNone);
    (lit "DEFAULT_SSL_CA_DATA", VNone);
    (lit "DEFAULT_FETCH_RESULT_REFS", VBool true);
    (lit "DEFAULT_FOLLOW_REFERRALS", VBool true);
    (lit "DEFAULT_SASL_MECH", VNone);
    (lit "DEFAULT_SASL_FATAL_DOWNGRADE_CHECK", VBool true);
    (lit "DEFAULT_CRITICALITY", VBool false);
    (lit "DEFAULT_VALIDATORS", VNone);
    (lit "DEFAULT_WARN_EMPTY_LIST", VBool false);
    (lit "DEFAULT_ERROR_EMPTY_LIST", VBool false);
    (lit "DEFAULT_IGNORE_EMPTY_LIST", VBool true);
    (lit "DEFAULT_FILTER_SYNTAX", VSyntax Unified);
    (lit "DEFAULT_BUILT_IN_EXTENSIONS_ONLY", VBool false) ].

(** The constructor's keyword arguments and the class default each falls back to:
    base.py:220-272 *)
Definition ctor_params : list (str * str) :=
  [ (lit "server", lit "DEFAULT_SERVER");
    (lit "base_dn", lit "DEFAULT_BASE_DN");
    (lit "reuse_connection", lit "DEFAULT_REUSE_CONNECTION");
    (lit "connect_timeout", lit "DEFAULT_CONNECT_TIMEOUT");
    (lit "search_timeout", lit "DEFAULT_SEARCH_TIMEOUT");
    (lit "deref_aliases", lit "DEFAULT_DEREF_ALIASES");
    (lit "strict_modify", lit "DEFAULT_STRICT_MODIFY");
    (lit "ssl_verify", lit "DEFAULT_SSL_VERIFY");
    (lit "ssl_ca_file", lit "DEFAULT_SSL_CA_FILE");
    (lit "ssl_ca_path", lit "DEFAULT_SSL_CA_PATH");
    (lit "ssl_ca_data", lit "DEFAULT_SSL_CA_DATA");
    (lit "fetch_result_refs", lit "DEFAULT_FETCH_RESULT_REFS");
    (lit "default_sasl_mech", lit "DEFAULT_SASL_MECH");
    (lit "sasl_fatal_downgrade_check", lit "DEFAULT_SASL_FATAL_DOWNGRADE_CHECK");
    (lit "default_criticality", lit "DEFAULT_CRITICALITY");
    (lit "follow_referrals", lit "DEFAULT_FOLLOW_REFERRALS");
    (lit "validators", lit "DEFAULT_VALIDATORS");
    (lit "warn_empty_list", lit "DEFAULT_WARN_EMPTY_LIST");
    (lit "error_empty_list", lit "DEFAULT_ERROR_EMPTY_LIST");
    (lit "ignore_empty_list", lit "DEFAULT_IGNORE_EMPTY_LIST");
    (lit "filter_syntax", lit "DEFAULT_FILTER_SYNTAX");
    (lit "built_in_extensions_only", lit "DEFAULT_BUILT_IN_EXTENSIONS_ONLY") ].

(** What is observed of the outside world: a socket opened with (timeout, verify, CA file, CA
    path, CA data), the root DSE read over it, StartTLS, bind requests with their arguments. *)
Inductive cevent :=
| EOpen (uri : str) (params : list cval)
| EDse (uri : str)
| EStartTls
| ESimpleBind (kw : cdict)
| ESaslBind (kw : cdict).

(** What the root DSE says about naming contexts *)
Record dse := mk_dse { dse_default_nc : option (list str); dse_ncs : list str }.

(** Outcomes of everything external during one call; [e_import m o]: the validator class
    [o] imported from module [m]; [e_attrs]: is the value acceptable as an attrs_dict *)
Record env := mk_env {
  e_open : str -> list cval -> res unit;
  e_dse : res dse;
  e_tls : res unit;
  e_simple : cdict -> res unit;
  e_sasl : cdict -> res unit;
  e_import : str -> str -> res N;
  e_attrs : cval -> res unit }.

(** Process-wide state: class defaults, the socket registry (URI -> parameters the socket was
    opened with; base.py:67), and the trace of events. *)
Record cworld := mk_cworld { cw_defs : cdict; cw_reg : list (str * list cval); cw_trace : list cevent }.

Definition log_ev (w : cworld) (e : cevent) : cworld :=
  mk_cworld (cw_defs w) (cw_reg w) (cw_trace w ++ [e]).
Definition set_defs (w : cworld) (d : cdict) : cworld := mk_cworld d (cw_reg w) (cw_trace w).

(** Hashable tag values as dictionary keys (True == 1 in Python); None: unhashable *)
Inductive tkey := KStr (s : str) | KInt (z : Z) | KObj (n : N).
Definition tag_key (v : cval) : option tkey :=
  match v with
  | VStr s => Some (KStr s)
  | VInt z => Some (KInt z)
  | VBool b => Some (KInt (if b then 1 else 0)%Z)
  | VOther n => Some (KObj (4 * n))
  | VValidator n => Some (KObj (4 * n + 1))
  | VVClass n => Some (KObj (4 * n + 2))
  | VNone => Some (KObj 3)
  | VSyntax Standard => Some (KObj 7) | VSyntax Simple => Some (KObj 11) | VSyntax Unified => Some (KObj 15)
  | VScope ScBase => Some (KInt 0) | VScope ScOne => Some (KInt 1) | VScope ScSub => Some (KInt 2)
  | VSock _ _ => Some (KObj 19)
  | VList _ | VDict _ => None
  end.
Definition tkey_eqb (a b : tkey) : bool :=
  match a, b with
  | KStr x, KStr y => str_eqb x y
  | KInt x, KInt y => Z.eqb x y
  | KObj x, KObj y => N.eqb x y
  | _, _ => false
  end.

(** LDAPObject: ldapobject.py:50-59 *)
Record cobj := mk_cobj { co_dn : cval; co_attrs : cval; co_scope : cval; co_rdn_attr : cval }.

(** LDAP instance: base.py:274-299, 345-351 *)
Record conn := mk_conn {
  cn_settings : cdict;                 (* effective value of every constructor parameter *)
  cn_uri : str;
  cn_params : list cval;               (* parameters the socket in use was opened with *)
  cn_validators : list cval;
  cn_base : cval;
  cn_sasl_mech : cval;
  cn_tags : list (tkey * cobj) }.

Fixpoint tget (l : list (tkey * cobj)) (k : tkey) : option cobj :=
  match l with [] => None | (k', o) :: l' => if tkey_eqb k' k then Some o else tget l' k end.

Section Config.
  (** [str.upper], [str.lower]: external Unicode tables, arbitrary here *)
  Context (upper lower : str -> str).

  (** FilterSyntax.string: constants.py:35-39; a value without .upper() raises AttributeError *)
  Definition syntax_string (v : cval) : res cval :=
    match v with
    | VStr s =>
        let u := upper s in
        if str_eqb u (lit "STANDARD") then Ok (VSyntax Standard)
        else if str_eqb u (lit "SIMPLE") then Ok (VSyntax Simple)
        else if str_eqb u (lit "UNIFIED") then Ok (VSyntax Unified)
        else Raise AttributeError
    | _ => Raise AttributeError
    end.

  (** Scope.string: constants.py:74-85 *)
  Definition scope_string (v : cval) : res cval :=
    match v with
    | VStr s =>
        let u := lower s in
        if str_eqb u (lit "base") then Ok (VScope ScBase)
        else if str_eqb u (lit "one") then Ok (VScope ScOne)
        else if str_eqb u (lit "sub") then Ok (VScope ScSub)
        else Raise ValueError
    | _ => Raise AttributeError
    end.

  (** normalize_global_config_param: config.py:43-54 *)
  Definition normalize (key : str) : str :=
    let key := upper key in
    if starts_with (lit "DEFAULT_") key then key else lit "DEFAULT_" ++ key.

  (** _global_mappers: config.py:38-40, 74 *)
  Definition global_map (key : str) (v : cval) : res cval :=
    if str_eqb key (lit "DEFAULT_FILTER_SYNTAX") then syntax_string v else Ok v.

  (** The loop of set_global_config: config.py:69-77; [bad]: some unknown key was seen *)
  Fixpoint set_global_go (defs : cdict) (bad : bool) (d : cdict) : cdict * res unit :=
    match d with
    | [] => (defs, if bad then Raise KeyError else Ok tt)
    | (key, val) :: d' =>
        let key := normalize key in
        if dmem defs key then
          match global_map key val with
          | Ok v => set_global_go (dset defs key v) bad d'
          | Raise e => (defs, Raise e)
          end
        else set_global_go defs true d'
    end.

  (** set_global_config: config.py:57-79; [None]: no 'global' key *)
  Definition set_global_config (defs : cdict) (g : option cdict) : cdict * res unit :=
    match g with
    | None => (defs, Raise KeyError)
    | Some d => set_global_go defs false d
    end.

  (** activate_extensions: config.py:82-96; class LDAP has no attribute activate_extension
      (base.py:79-1230, extensible/base.py), so the first entry raises AttributeError *)
  Definition activate_extensions (exts : list str) : res unit :=
    match exts with [] => Ok tt | _ :: _ => Raise AttributeError end.

  (** _validator_mapper: config.py:17-31 *)
  Fixpoint rsplit_dot (s : str) : option (str * str) :=  (* v.rsplit('.', 1); None: no dot *)
    match s with
    | [] => None
    | c :: s' => match rsplit_dot s' with
                 | Some (m, o) => Some (c :: m, o)
                 | None => if N.eqb c (ch ".") then Some ([], s') else None
                 end
    end.
  Definition validator_one (e : env) (v : cval) : res cval :=
    match v with
    | VStr s =>
        match rsplit_dot s with
        | Some (m, o) => let* n := e_import e m o in Ok (VValidator n)
        | None => Raise ValueError
        end
    | VValidator n => Ok (VValidator n)
    | _ => Raise TypeError
    end.
  Fixpoint validator_list (e : env) (l : list cval) : res (list cval) :=
    match l with
    | [] => Ok []
    | v :: l' => let* x := validator_one e v in let* r := validator_list e l' in Ok (x :: r)
    end.
  Definition validator_mapper (e : env) (v : cval) : res cval :=
    let* l := iter_val v in let* r := validator_list e l in Ok (VList r).

  (** Fallback to the class defaults: base.py:228-272 *)
  Definition setting (defs kw : cdict) (p : str * str) : cval :=
    match dget kw (fst p) with
    | Some v => match v with VNone => match dget defs (snd p) with Some x => x | None => VNone end | _ => v end
    | None => match dget defs (snd p) with Some x => x | None => VNone end
    end.
  Definition settings (defs kw : cdict) : cdict :=
    map (fun p => (fst p, setting defs kw p)) ctor_params.
  Definition sget (st : cdict) (k : str) : cval := match dget st k with Some v => v | None => VNone end.

  (** sock_params: base.py:293 *)
  Definition sock_params (st : cdict) : list cval :=
    [sget st (lit "connect_timeout"); sget st (lit "ssl_verify"); sget st (lit "ssl_ca_file");
     sget st (lit "ssl_ca_path"); sget st (lit "ssl_ca_data")].

  (** Choosing the socket: base.py:299-314; the result is its URI and the parameters it was opened
      with *)
  Definition choose_socket (w : cworld) (e : env) (st : cdict) : res (str * list cval) * cworld :=
    match sget st (lit "server") with
    | VStr uri =>
        let ps := sock_params st in
        if truthy (sget st (lit "reuse_connection")) then
          match dget (cw_reg w) uri with
          | Some ps0 => (Ok (uri, ps0), w)
          | None =>
              match e_open e uri ps with
              | Ok _ => (Ok (uri, ps), log_ev (mk_cworld (cw_defs w) (dset (cw_reg w) uri ps) (cw_trace w)) (EOpen uri ps))
              | Raise x => (Raise x, w)
              end
          end
        else
          match e_open e uri ps with
          | Ok _ => (Ok (uri, ps), log_ev w (EOpen uri ps))
          | Raise x => (Raise x, w)
          end
    | VSock uri ps => (Ok (uri, ps), w)
    | _ => (Raise TypeError, w)
    end.

  (** Validation setup: base.py:317-328 *)
  Fixpoint init_validators (l : list cval) : res (list cval) :=
    match l with
    | [] => Ok []
    | v :: l' =>
        match v with
        | VValidator n | VVClass n => let* r := init_validators l' in Ok (VValidator n :: r)
        | _ => Raise TypeError
        end
    end.

  (** Base DN: base.py:331-345; [in] is true of an attribute with a value only: attrsdict.py:42-46 *)
  Definition find_base (given : cval) (d : dse) : res cval :=
    match given with
    | VNone =>
        match dse_default_nc d with
        | Some (x :: _) => Ok (VStr x)
        | _ => match dse_ncs d with
                  | [] => Raise LDAPError
                  | [x] => Ok (VStr x)
                  | _ => Raise LDAPError
                  end
        end
    | _ => Ok given
    end.

  (** LDAP.__init__: base.py:219-351 *)
  Definition ldap_init (w : cworld) (e : env) (kw : cdict) : res conn * cworld :=
    if negb (forallb (fun kv => dmem ctor_params (fst kv)) kw) then (Raise TypeError, w)
    else
      let st := settings (cw_defs w) kw in
      match choose_socket w e st with
      | (Raise x, w1) => (Raise x, w1)
      | (Ok (uri, ps), w1) =>
          let vs := match sget st (lit "validators") with VNone => Ok [] | v => iter_val v end in
          match (let* l := vs in init_validators l) with
          | Raise x => (Raise x, w1)
          | Ok vals =>
              let w2 := log_ev w1 (EDse uri) in
              match e_dse e with
              | Raise x => (Raise x, w2)
              | Ok d =>
                  match find_base (sget st (lit "base_dn")) d with
                  | Raise x => (Raise x, w2)
                  | Ok b =>
                      let mech := match sget st (lit "default_sasl_mech") with
                                  | VNone => if starts_with (lit "ldapi:") uri then VStr (lit "EXTERNAL") else VNone
                                  | m => m
                                  end in
                      (Ok (mk_conn st uri ps vals b mech []), w2)
                  end
              end
          end
      end.

  (** LDAP.obj: base.py:560-582, with LDAPObject.__init__: ldapobject.py:50-59. [kw]: the
      remaining keywords *)
  Definition kw_default (kw : cdict) (k : str) (d : cval) : cval :=
    match dget kw k with Some v => v | None => d end.
  Definition obj_kwds : list str :=
    [lit "attrs_dict"; lit "tag"; lit "relative_search_scope"; lit "rdn_attr"].
  Definition new_obj (e : env) (c : conn) (dn : cval) (kw : cdict) : res conn :=
    if negb (forallb (fun kv => smem (fst kv) obj_kwds) kw) then Raise TypeError
    else
      let attrs := kw_default kw (lit "attrs_dict") VNone in
      let* _ := e_attrs e attrs in
      let o := mk_cobj dn attrs (kw_default kw (lit "relative_search_scope") (VScope ScSub))
                       (kw_default kw (lit "rdn_attr") VNone) in
      match kw_default kw (lit "tag") VNone with
      | VNone => Ok c
      | t => match tag_key t with
             | None => Raise TypeError
             | Some k =>
                 match tget (cn_tags c) k with
                 | Some _ => Raise TagError
                 | None => Ok (mk_conn (cn_settings c) (cn_uri c) (cn_params c) (cn_validators c)
                                       (cn_base c) (cn_sasl_mech c) (cn_tags c ++ [(k, o)]))
                 end
             end
      end.

  (** str(v) in the DN built from an RDN; only strings are given a meaning *)
  Definition dn_text (v : cval) : str := match v with VStr s => s | _ => [] end.

  (** LDAPObject.rdn on the base object, whose rdn_attr is None: ldapobject.py:90-107 *)
  Definition base_rdn (c : conn) (rdn : cval) : res cval :=
    match rdn with
    | VStr s => if existsb (N.eqb (ch "=")) s then Ok (VStr (s ++ lit "," ++ dn_text (cn_base c)))
                else Raise ValueError
    | _ => Raise TypeError
    end.

  (** _create_single_object: config.py:99-115; the result includes the caller's dict afterwards.
      For an rdn the keywords relative_search_scope and rdn_attr default to those of the
      base object (ldapobject.py:109-112, base.py:351), which are also [new_obj]'s. *)
  (* config.py:112-115 *)
  Definition object_step (e : env) (c : conn) (base : bool) (first : str) (d1 : cdict) : res conn * cdict :=
    if negb (dmem d1 (lit "tag")) then (Raise TypeError, d1)
    else
      match dget d1 first with
      | None => (Raise TypeError, d1)
      | Some v =>
          if base then
            match base_rdn c v with
            | Raise x => (Raise x, d1)
            | Ok dn => (new_obj e c dn (ddel d1 first), d1)
            end
          else (new_obj e c v (ddel d1 first), d1)
      end.
  (* config.py:109-111 *)
  Definition object_scope (e : env) (c : conn) (base : bool) (first : str) (d : cdict) : res conn * cdict :=
    match dget d (lit "relative_search_scope") with
    | None => object_step e c base first d
    | Some s => match scope_string s with
                | Raise x => (Raise x, d)
                | Ok s' => object_step e c base first (dset d (lit "relative_search_scope") s')
                end
    end.
  (* config.py:100-108 *)
  Definition create_single_object (e : env) (c : conn) (d : cdict) : res conn * cdict :=
    match dget d (lit "rdn"), dget d (lit "dn") with
    | Some _, Some _ => (Raise TypeError, d)
    | Some _, None => object_scope e c true (lit "rdn") d
    | None, Some _ => object_scope e c false (lit "dn") d
    | None, None => (Raise TypeError, d)
    end.

  Fixpoint create_objects (e : env) (c : conn) (l : list cdict) : res conn * list cdict :=
    match l with
    | [] => (Ok c, [])
    | d :: l' =>
        match create_single_object e c d with
        | (Raise x, d1) => (Raise x, d1 :: l')
        | (Ok c1, d1) => let (r, l1) := create_objects e c1 l' in (r, d1 :: l1)
        end
    end.

  (** dict.pop(key, False) *)
  Definition pop (d : cdict) (k : str) : cval * cdict :=
    match dget d k with Some v => (v, ddel d k) | None => (VBool false, d) end.

  (** One iteration of the mapper loop: config.py:170-173 *)
  Definition map_key (d : cdict) (k : str) (f : cval -> res cval) : res unit * cdict :=
    match dget d k with
    | None => (Ok tt, d)
    | Some v => match f v with Ok v' => (Ok tt, dset d k v') | Raise x => (Raise x, d) end
    end.

  (** ldap.start_tls() and the binds: config.py:175-180; keyword expansion of a non-mapping
      raises TypeError *)
  Definition do_tls (w : cworld) (e : env) (v : cval) : res unit * cworld :=
    if truthy v then (e_tls e, log_ev w EStartTls) else (Ok tt, w).
  Definition do_simple (w : cworld) (e : env) (v : cval) : res unit * cworld :=
    if truthy v then
      match v with VDict d => (e_simple e d, log_ev w (ESimpleBind d)) | _ => (Raise TypeError, w) end
    else (Ok tt, w).
  Definition do_sasl (w : cworld) (e : env) (v : cval) : res unit * cworld :=
    if truthy v then
      match v with VDict d => (e_sasl e d, log_ev w (ESaslBind d)) | _ => (Raise TypeError, w) end
    else (Ok tt, w).

  (** create_connection: config.py:118-183; the caller's dicts are changed in place, so the
      result contains them *)
  Definition create_connection (w : cworld) (e : env) (d : cdict) (objs : list cdict)
    : res conn * cworld * (cdict * list cdict) :=
    let (tls, d1) := pop d (lit "start_tls") in
    let (simple, d2) := pop d1 (lit "simple_bind") in
    let (sasl, d3) := pop d2 (lit "sasl_bind") in
    if truthy simple && truthy sasl then (Raise TypeError, w, (d3, objs))
    else
      match map_key d3 (lit "validators") (validator_mapper e) with
      | (Raise x, d4) => (Raise x, w, (d4, objs))
      | (Ok _, d4) =>
          match map_key d4 (lit "default_filter_syntax") syntax_string with
          | (Raise x, d5) => (Raise x, w, (d5, objs))
          | (Ok _, d5) =>
              match ldap_init w e d5 with
              | (Raise x, w1) => (Raise x, w1, (d5, objs))
              | (Ok c, w1) =>
                  match do_tls w1 e tls with
                  | (Raise x, w2) => (Raise x, w2, (d5, objs))
                  | (Ok _, w2) =>
                      match do_simple w2 e simple with
                      | (Raise x, w3) => (Raise x, w3, (d5, objs))
                      | (Ok _, w3) =>
                          match do_sasl w3 e sasl with
                          | (Raise x, w4) => (Raise x, w4, (d5, objs))
                          | (Ok _, w4) =>
                              let (r, objs1) := create_objects e c objs in (r, w4, (d5, objs1))
                          end
                      end
                  end
              end
          end
      end.

  (** A decoded configuration *)
  Record config := mk_config {
    cf_global : option cdict; cf_ext : option (list str); cf_conn : option cdict; cf_objs : list cdict }.

  (** load_config_dict: config.py:233-246 *)
  Definition load_config_dict (w : cworld) (e : env) (cf : config) : res (option conn) * cworld * config :=
    let (defs, r) := match cf_global cf with
                     | Some g => set_global_config (cw_defs w) (Some g)
                     | None => (cw_defs w, Ok tt)
                     end in
    let w := set_defs w defs in
    match r with
    | Raise x => (Raise x, w, cf)
    | Ok _ =>
        match (match cf_ext cf with Some l => activate_extensions l | None => Ok tt end) with
        | Raise x => (Raise x, w, cf)
        | Ok _ =>
            match cf_conn cf with
            | None => (Ok None, w, cf)
            | Some d =>
                match create_connection w e d (cf_objs cf) with
                | (r, w1, (d1, o1)) =>
                    ((let* c := r in Ok (Some c)), w1, mk_config (cf_global cf) (cf_ext cf) (Some d1) o1)
                end
            end
        end
    end.

  (** load_file: config.py:218-230; [decode_yaml], [decode_json], a user decoder: what decoding the
      file's contents gives *)
  Definition load_file (w : cworld) (e : env) (path : str) (user : option (res config))
                       (yaml json : res config) : res (option conn) * cworld :=
    let dec := match user with
               | Some r => r
               | None => if ends_with (lit ".yml") path || ends_with (lit ".yaml") path then yaml
                         else if ends_with (lit ".json") path then json
                         else Raise RuntimeError
               end in
    match dec with
    | Raise x => (Raise x, w)
    | Ok cf => match load_config_dict w e cf with (r, w1, _) => (r, w1) end
    end.
End Config.
