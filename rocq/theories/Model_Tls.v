(** * Model of StartTLS and extended requests
    /repo/laurelin/ldap/net.py: LDAPSocket.start_tls (165-213), the ldaps branch of _uri_connect
    (103-106); base.py: send_extended_request (1146-1157), who_am_i (1168-1170), start_tls (1194-1209),
    refresh_root_dse (353-358).
    Simplifications: message IDs are left out (C21); the messages that come for a request are a list
    (Model_Net); what the ssl module and pyasn1 do is an argument ([ssl_env], [encode]); the search that reads the
    root DSE is one message and an outcome; None, the empty string and the empty path are distinguished
    as Python does. *)
From Verif Require Import PyBase Model_Uri Model_Conn Model_Controls Model_Search.

(** getpeercert(): the parts looked at, net.py:206-208 *)
Record cert := mk_cert { ct_subject : list (list (str * str)); ct_sans : list (str * str) }.
(** what the certificate is checked against: the default CAs and those of load_verify_locations, or
    those of the old ssl.wrap_socket *)
Inductive trust :=
| Ctx (defaults : bool) (locations : option (option str * option str * option str))
| Legacy (ca_certs : option str).
(** a TLS layer on the socket: ssl.CERT_REQUIRED or not, the CAs, the peer's certificate *)
Record layer := mk_layer { ly_verify : bool; ly_trust : trust; ly_cert : cert }.

(** The ssl module during one call.  [s_context]: ssl.SSLContext is there; [s_detach]: a wrap_socket that
    fails takes the connection down with it (Python 3 does, Python 2.7 does not) *)
Record ssl_env := mk_ssl {
  s_context : bool; s_defaults : res unit; s_locations : option str * option str * option str -> res unit;
  s_wrap : bool -> trust -> res cert; s_detach : bool }.

(** what goes out: an extended request with its controls, or another message *)
Inductive tmsg := MExt (oid : str) (value : option (list N)) (ctrls : list wire_ctrl) | MOther (n : N).
(** LDAPSocket: the layers on it, newest first; started_tls; [ts_dead]: closed; and what was sent, each message
    with the layers it went through *)
Record tsock := mk_ts { ts_layers : list layer; ts_started : bool; ts_dead : bool; ts_sent : list (list layer * tmsg) }.
Definition ts_fresh : tsock := mk_ts [] false false [].

Definition filled (a : option str) : bool := match a with Some (_ :: _) => true | _ => false end.
Definition or_else (a d : option str) : option str := match a with Some _ => a | None => d end.

(** self._sock.sendall *)
Definition tsend (t : tsock) (m : tmsg) : tsock * res unit :=
  if ts_dead t then (t, Raise os_error) else (mk_ts (ts_layers t) (ts_started t) false (ts_sent t ++ [(ts_layers t, m)]), Ok tt).

(** ctx.wrap_socket(self._sock), ssl.wrap_socket(self._sock, ...): net.py:197, 203 *)
Definition wrap_layer (s : ssl_env) (t : tsock) (verify : bool) (tr : trust) : tsock * res cert :=
  match s_wrap s verify tr with
  | Ok c => (mk_ts (mk_layer verify tr c :: ts_layers t) (ts_started t) (ts_dead t) (ts_sent t), Ok c)
  | Raise x => (mk_ts (ts_layers t) (ts_started t) (ts_dead t || s_detach s) (ts_sent t), Raise x)
  end.
(** the except branch: net.py:198-203 *)
Definition wrap_legacy (s : ssl_env) (t : tsock) (verify : bool) (file path data : option str) : tsock * res cert :=
  if filled path || filled data then (t, Raise RuntimeError) else wrap_layer s t verify (Legacy file).
(** the try branch: net.py:190-197 *)
Definition wrap_context (s : ssl_env) (t : tsock) (verify : bool) (file path data : option str) : tsock * res cert :=
  if s_context s then
    match (if verify then s_defaults s else Ok tt) with
    | Raise x => (t, Raise x)
    | Ok _ =>
        let given := filled file || filled path || filled data in
        match (if given then s_locations s (file, path, data) else Ok tt) with
        | Raise x => (t, Raise x)
        | Ok _ => wrap_layer s t verify (Ctx verify (if given then Some (file, path, data) else None))
        end
    end
  else (t, Raise AttributeError).
Definition is_attribute_error {A} (r : res A) : bool := match r with Raise AttributeError => true | _ => false end.
(** LDAPSocket.start_tls: net.py:177-213 *)
Definition sock_start_tls (s : ssl_env) (host : str) (t : tsock) (verify : bool) (file path data : option str) : tsock * res unit :=
  if ts_started t then (t, Raise LDAPError)
  else
    let '(t1, r1) := wrap_context s t verify file path data in
    let '(t2, r2) := if is_attribute_error r1 then wrap_legacy s t1 verify file path data else (t1, r1) in
    match r2 with
    | Raise x => (t2, Raise x)
    | Ok c =>
        match verify_peer verify host (ct_subject c) (ct_sans c) with
        | Raise x => (t2, Raise x)
        | Ok _ => (mk_ts (ts_layers t2) true (ts_dead t2) (ts_sent t2), Ok tt)
        end
    end.

(** ** Extended requests *)
(** the value argument *)
Inductive xval := XNone | XText (s : str) | XBytes (b : list N) | XOtherVal.
(** LDAP: the ssl_* attributes (base.py:283-299), what the root DSE supports ([c_supports oid] is
    oid in root_dse.get_attr('supportedExtension'), C04), the controls *)
Record tconn := mk_tconn {
  c_verify : bool; c_file : option str; c_path : option str; c_data : option str;
  c_supports : str -> res bool; c_reg : registry; c_controls : list str; c_crit : bool }.
Definition oid_whoami : str := lit "1.3.6.1.4.1.4203.1.11.3".       (* base.py:181 *)
Definition oid_starttls : str := lit "1.3.6.1.4.1.1466.20037".      (* base.py:182 *)

Definition truthy_kw (v : kwval) : bool := match v with Plain s => negb (falsy s) | _ => true end.

Section Ext.
  Context (encode : str -> res (list N)).            (* rfc4511.RequestValue(text) *)

  (** send_extended_request: base.py:1146-1157; the handle is its require_success.  An unknown
      keyword is noticed by the constructor of the handle (base.py:1629), after sending. *)
  Definition send_extended_request (k : tconn) (t : tsock) (oid : str) (value : xval) (kwds : list (str * kwval)) : tsock * res bool :=
    match c_supports k oid with
    | Raise x => (t, Raise x)
    | Ok false => (t, Raise LDAPSupportError)
    | Ok true =>
        match (match value with
               | XNone => Ok None
               | XText s => let* b := encode s in Ok (Some b)
               | XBytes b => Ok (Some b)
               | XOtherVal => Raise TypeError
               end) with
        | Raise x => (t, Raise x)
        | Ok v =>
            match process_kwds (c_reg k) (lit "ext") kwds (c_controls k) (c_crit k) false with
            | Raise x => (t, Raise x)
            | Ok (cs, rest) =>
                match tsend t (MExt oid v cs) with
                | (t1, Raise x) => (t1, Raise x)
                | (t1, Ok _) =>
                    if all_in rest [lit "require_success"]
                    then (t1, Ok (match dget rest (lit "require_success") with Some v => truthy_kw v | None => false end))
                    else (t1, Raise TypeError)
                end
            end
        end
    end.

  (** recv_response: base.py:1657-1658; None: it waits *)
  Definition recv_response (require_success : bool) (msgs : list xreply) : option (res str) :=
    match msgs with
    | [] => None
    | m :: _ => Some (match handle_xmsg require_success m with (Ok (v, _), _) => Ok v | (Raise x, _) => Raise x end)
    end.

  (** who_am_i: base.py:1168-1170; the keyword require_success given twice is a TypeError *)
  Definition who_am_i (k : tconn) (t : tsock) (kwds : list (str * kwval)) (msgs : list xreply) : tsock * option (res str) :=
    if dmem kwds (lit "require_success") then (t, Some (Raise TypeError))
    else match send_extended_request k t oid_whoami XNone ((lit "require_success", Plain (lit "True")) :: kwds) with
         | (t1, Raise x) => (t1, Some (Raise x))
         | (t1, Ok rs) => (t1, recv_response rs msgs)
         end.

  (** LDAP.start_tls: base.py:1194-1209; None: it waits.  [refresh]: outcome of reading the root DSE *)
  Definition ldap_start_tls (s : ssl_env) (host : str) (k : tconn) (t : tsock) (verify : option bool) (file path data : option str)
      (msgs : list xreply) (refresh : res unit) : tsock * option (res unit) :=
    if ts_started t then (t, Some (Raise LDAPError))
    else
      let verify := match verify with Some b => b | None => c_verify k end in
      let file := or_else file (c_file k) in
      let path := or_else path (c_path k) in
      let data := or_else data (c_data k) in
      match send_extended_request k t oid_starttls XNone [(lit "require_success", Plain (lit "True"))] with
      | (t1, Raise x) => (t1, Some (Raise x))
      | (t1, Ok rs) =>
          match recv_response rs msgs with
          | None => (t1, None)
          | Some (Raise x) => (t1, Some (Raise x))
          | Some (Ok _) =>
              match sock_start_tls s host t1 verify file path data with
              | (t2, Raise x) => (t2, Some (Raise x))
              | (t2, Ok _) =>
                  match tsend t2 (MOther 0) with
                  | (t3, Raise x) => (t3, Some (Raise x))
                  | (t3, Ok _) => (t3, Some refresh)
                  end
              end
          end
      end.

  (** what the connections sharing a socket do, in any order; the socket may have been opened by an
      ldaps URI (net.py:104-106), which is [OpTls] first *)
  Inductive top :=
  | OpTls (s : ssl_env) (verify : bool) (file path data : option str)
  | OpStartTls (s : ssl_env) (k : tconn) (verify : option bool) (file path data : option str) (msgs : list xreply) (refresh : res unit)
  | OpExt (k : tconn) (oid : str) (value : xval) (kwds : list (str * kwval))
  | OpWho (k : tconn) (kwds : list (str * kwval)) (msgs : list xreply)
  | OpOther (n : N)                       (* binds, searches, changes: one message *)
  | OpClose.
  Definition tstep (host : str) (t : tsock) (o : top) : tsock * option (res unit) :=
    let unit_of {A} (r : res A) : res unit := match r with Ok _ => Ok tt | Raise x => Raise x end in
    match o with
    | OpTls s v f p d => let '(t', r) := sock_start_tls s host t v f p d in (t', Some r)
    | OpStartTls s k v f p d ms rf => ldap_start_tls s host k t v f p d ms rf
    | OpExt k oid v kw => let '(t', r) := send_extended_request k t oid v kw in (t', Some (unit_of r))
    | OpWho k kw ms => let '(t', r) := who_am_i k t kw ms in (t', match r with Some r => Some (unit_of r) | None => None end)
    | OpOther n => let '(t', r) := tsend t (MOther n) in (t', Some r)
    | OpClose => (mk_ts (ts_layers t) (ts_started t) true (ts_sent t), Some (Ok tt))
    end.
  Fixpoint trun (host : str) (t : tsock) (ops : list top) : tsock :=
    match ops with [] => t | o :: ops' => trun host (fst (tstep host t o)) ops' end.
End Ext.
