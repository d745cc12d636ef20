(** * What a user expects of configuration (independent of the model's functions) *)
From Verif Require Import PyBase Model_Config.

(** The documented global parameters (docs and base.py:149-173) *)
Definition global_names : list str := map lit
  ["DEFAULT_SERVER"; "DEFAULT_BASE_DN"; "DEFAULT_FILTER"; "DEFAULT_DEREF_ALIASES"; "DEFAULT_SEARCH_TIMEOUT";
   "DEFAULT_CONNECT_TIMEOUT"; "DEFAULT_STRICT_MODIFY"; "DEFAULT_REUSE_CONNECTION"; "DEFAULT_SSL_VERIFY";
   "DEFAULT_SSL_CA_FILE"; "DEFAULT_SSL_CA_PATH"; "DEFAULT_SSL_CA_DATA"; "DEFAULT_FETCH_RESULT_REFS";
   "DEFAULT_FOLLOW_REFERRALS"; "DEFAULT_SASL_MECH"; "DEFAULT_SASL_FATAL_DOWNGRADE_CHECK";
   "DEFAULT_CRITICALITY"; "DEFAULT_VALIDATORS"; "DEFAULT_WARN_EMPTY_LIST"; "DEFAULT_ERROR_EMPTY_LIST";
   "DEFAULT_IGNORE_EMPTY_LIST"; "DEFAULT_FILTER_SYNTAX"; "DEFAULT_BUILT_IN_EXTENSIONS_ONLY"]%string.

(** The class attributes are exactly these (they may have been assigned other values) *)
Definition defaults_ok (defs : cdict) : Prop :=
  NoDup (map fst defs) /\ forall n, In n (map fst defs) <-> In n global_names.

(** A user's key [k] means the parameter [n]: same letters up to case, prefix optional *)
Definition means (upper : str -> str) (k n : str) : Prop :=
  upper k = n \/ lit "DEFAULT_" ++ upper k = n.

(** The value stored for parameter [n] when the user writes [v] *)
Definition stored (upper : str -> str) (n : str) (v v' : cval) : Prop :=
  (n <> lit "DEFAULT_FILTER_SYNTAX" /\ v' = v) \/
  (n = lit "DEFAULT_FILTER_SYNTAX" /\ exists s, v = VStr s /\
    ((upper s = lit "STANDARD" /\ v' = VSyntax Standard) \/
     (upper s = lit "SIMPLE" /\ v' = VSyntax Simple) \/
     (upper s = lit "UNIFIED" /\ v' = VSyntax Unified))).

(** [v] is what the dict says last about parameter [n] *)
Definition last_word (upper : str -> str) (d : cdict) (n : str) (v : cval) : Prop :=
  exists pre k post, d = pre ++ (k, v) :: post /\ means upper k n /\
    forall k' v', In (k', v') post -> ~ means upper k' n.
Definition silent (upper : str -> str) (d : cdict) (n : str) : Prop :=
  forall k v, In (k, v) d -> ~ means upper k n.

(** Every filter syntax given is one of the three *)
Definition syntaxes_ok (upper : str -> str) (d : cdict) : Prop :=
  forall k v, In (k, v) d -> means upper k (lit "DEFAULT_FILTER_SYNTAX") ->
    exists v', stored upper (lit "DEFAULT_FILTER_SYNTAX") v v'.

Definition known_key (upper : str -> str) (k : str) : Prop := exists n, In n global_names /\ means upper k n.

(** [str.upper] keeps what it produced, works character by character, and ASCII capitals and
    the underscore are their own upper case *)
Definition upper_ok (upper : str -> str) : Prop :=
  (forall s, upper (upper s) = upper s) /\ (forall a b, upper (a ++ b) = upper a ++ upper b) /\
  upper (lit "DEFAULT_") = lit "DEFAULT_".

Definition ascii_upper (s : str) : str :=
  map (fun c => if ((97 <=? c) && (c <=? 122))%N then (c - 32)%N else c) s.

(** Constructor keyword -> global parameter it falls back to (docs of class LDAP) *)
Definition fallback : list (str * str) := map (fun p => (lit (fst p), lit (snd p)))
  [("server", "DEFAULT_SERVER"); ("base_dn", "DEFAULT_BASE_DN"); ("reuse_connection", "DEFAULT_REUSE_CONNECTION");
   ("connect_timeout", "DEFAULT_CONNECT_TIMEOUT"); ("search_timeout", "DEFAULT_SEARCH_TIMEOUT");
   ("deref_aliases", "DEFAULT_DEREF_ALIASES"); ("strict_modify", "DEFAULT_STRICT_MODIFY");
   ("ssl_verify", "DEFAULT_SSL_VERIFY"); ("ssl_ca_file", "DEFAULT_SSL_CA_FILE");
   ("ssl_ca_path", "DEFAULT_SSL_CA_PATH"); ("ssl_ca_data", "DEFAULT_SSL_CA_DATA");
   ("fetch_result_refs", "DEFAULT_FETCH_RESULT_REFS"); ("default_sasl_mech", "DEFAULT_SASL_MECH");
   ("sasl_fatal_downgrade_check", "DEFAULT_SASL_FATAL_DOWNGRADE_CHECK");
   ("default_criticality", "DEFAULT_CRITICALITY"); ("follow_referrals", "DEFAULT_FOLLOW_REFERRALS");
   ("validators", "DEFAULT_VALIDATORS"); ("warn_empty_list", "DEFAULT_WARN_EMPTY_LIST");
   ("error_empty_list", "DEFAULT_ERROR_EMPTY_LIST"); ("ignore_empty_list", "DEFAULT_IGNORE_EMPTY_LIST");
   ("filter_syntax", "DEFAULT_FILTER_SYNTAX");
   ("built_in_extensions_only", "DEFAULT_BUILT_IN_EXTENSIONS_ONLY")]%string.

(** [v] is the effective value of keyword [p] (global [n]) for arguments [kw] *)
Definition effective (defs kw : cdict) (p n : str) (v : cval) : Prop :=
  (dget kw p = Some v /\ v <> VNone) \/
  ((dget kw p = None \/ dget kw p = Some VNone) /\ dget defs n = Some v).

(** What the user asked for in a connection section *)
Definition asked (d : cdict) (k : str) (v : cval) : Prop := dget d k = Some v /\ truthy v = true.
Definition not_asked (d : cdict) (k : str) : Prop := forall v, dget d k = Some v -> truthy v = false.

Definition is_bind (e : cevent) : Prop :=
  match e with ESimpleBind _ | ESaslBind _ => True | _ => False end.

(** The object a configuration entry describes: DN, search scope, attributes, rdn_attr *)
Definition scope_word (lower : str -> str) (v v' : cval) : Prop :=
  exists s, v = VStr s /\
    ((lower s = lit "base" /\ v' = VScope ScBase) \/ (lower s = lit "one" /\ v' = VScope ScOne) \/
     (lower s = lit "sub" /\ v' = VScope ScSub)).
Definition given_or (d : cdict) (k : str) (dflt v : cval) : Prop :=
  dget d k = Some v \/ (dget d k = None /\ v = dflt).
Definition describes (lower : str -> str) (base : str) (d : cdict) (o : cobj) : Prop :=
  ((dget d (lit "dn") = Some (co_dn o) /\ dget d (lit "rdn") = None) \/
   (dget d (lit "dn") = None /\ exists r, dget d (lit "rdn") = Some (VStr r) /\
      In (ch "=") r /\ co_dn o = VStr (r ++ lit "," ++ base))) /\
  ((dget d (lit "relative_search_scope") = None /\ co_scope o = VScope ScSub) \/
   (exists v, dget d (lit "relative_search_scope") = Some v /\ scope_word lower v (co_scope o))) /\
  given_or d (lit "attrs_dict") VNone (co_attrs o) /\ given_or d (lit "rdn_attr") VNone (co_rdn_attr o).

(** An entry that can be carried out on a connection without clashing tags *)
Definition entry_ok (lower : str -> str) (e : env) (d : cdict) : Prop :=
  (forall k, In k (map fst d) ->
     In k [lit "dn"; lit "rdn"; lit "tag"; lit "attrs_dict"; lit "relative_search_scope"; lit "rdn_attr"]) /\
  NoDup (map fst d) /\
  ((exists v, dget d (lit "dn") = Some v) /\ dget d (lit "rdn") = None \/
   dget d (lit "dn") = None /\ exists r, dget d (lit "rdn") = Some (VStr r) /\ In (ch "=") r) /\
  (exists t, dget d (lit "tag") = Some (VStr t)) /\
  (forall v, dget d (lit "relative_search_scope") = Some v -> exists v', scope_word lower v v') /\
  (forall v, given_or d (lit "attrs_dict") VNone v -> e_attrs e v = Ok tt).

(** A configured validator: a dotted path naming a class, or an instance *)
Definition validator_of (e : env) (x y : cval) : Prop :=
  (exists m o n, x = VStr (m ++ lit "." ++ o) /\ ~ In (ch ".") o /\ e_import e m o = Ok n /\ y = VValidator n) \/
  (exists n, x = VValidator n /\ y = x).
(** A validator given to the constructor: an instance, or a class to instantiate *)
Definition validator_arg (x y : cval) : Prop :=
  exists n, (x = VValidator n \/ x = VVClass n) /\ y = VValidator n.

(** The root DSE names no default naming context: no such attribute, or no value of it *)
Definition no_default_nc (d : dse) : Prop := dse_default_nc d = None \/ dse_default_nc d = Some [].

(** What the class attributes are when the module is loaded (docs of class LDAP) *)
Definition shipped : list (str * cval) :=
  [ (lit "DEFAULT_SERVER", VStr (lit "ldap://localhost")); (lit "DEFAULT_BASE_DN", VNone);
    (lit "DEFAULT_FILTER", VStr (lit "(objectClass=*)")); (lit "DEFAULT_FILTER_SYNTAX", VSyntax Unified);
    (lit "DEFAULT_SEARCH_TIMEOUT", VInt 0); (lit "DEFAULT_CONNECT_TIMEOUT", VInt 5);
    (lit "DEFAULT_STRICT_MODIFY", VBool false); (lit "DEFAULT_REUSE_CONNECTION", VBool true);
    (lit "DEFAULT_SSL_VERIFY", VBool true); (lit "DEFAULT_SSL_CA_FILE", VNone); (lit "DEFAULT_SSL_CA_PATH", VNone);
    (lit "DEFAULT_SSL_CA_DATA", VNone); (lit "DEFAULT_FETCH_RESULT_REFS", VBool true);
    (lit "DEFAULT_FOLLOW_REFERRALS", VBool true); (lit "DEFAULT_SASL_MECH", VNone);
    (lit "DEFAULT_SASL_FATAL_DOWNGRADE_CHECK", VBool true); (lit "DEFAULT_CRITICALITY", VBool false);
    (lit "DEFAULT_VALIDATORS", VNone); (lit "DEFAULT_WARN_EMPTY_LIST", VBool false);
    (lit "DEFAULT_ERROR_EMPTY_LIST", VBool false); (lit "DEFAULT_IGNORE_EMPTY_LIST", VBool true);
    (lit "DEFAULT_BUILT_IN_EXTENSIONS_ONLY", VBool false) ].

(** Python's truth of a value: everything but these is true *)
Definition false_values : list cval := [VNone; VBool false; VInt 0; VStr []; VList []; VDict []].

(** Tags that Python's dictionaries do not tell apart: equal values, and numbers with the same value (a scope is
    its number, False and True are 0 and 1); which socket objects are the same is left open *)
Inductive number : cval -> Z -> Prop :=
| num_int z : number (VInt z) z
| num_false : number (VBool false) 0
| num_true : number (VBool true) 1
| num_base : number (VScope ScBase) 0
| num_one : number (VScope ScOne) 1
| num_sub : number (VScope ScSub) 2.
Definition same_tag (a b : cval) : Prop :=
  a = b \/ (exists z, number a z /\ number b z) \/
  (exists u1 p1 u2 p2, a = VSock u1 p1 /\ b = VSock u2 p2).

(** What becomes of the caller's entry: the word for the scope is replaced by the scope, if it is one *)
Definition entry_after (lower : str -> str) (d d' : cdict) : Prop :=
  d' = d \/ exists v v', dget d (lit "relative_search_scope") = Some v /\ scope_word lower v v' /\
    dget d' (lit "relative_search_scope") = Some v' /\ map fst d' = map fst d /\
    forall k, k <> lit "relative_search_scope" -> dget d' k = dget d k.
