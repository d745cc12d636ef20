(** * Model of opening a socket
    /repo/laurelin/ldap/net.py: LDAPSocket.__init__ (56-60), _parse_uri (80-95, Model_Uri), _uri_connect (97-142), _connect (144-147),
    _inet_connect (149-161), LDAPI_SOCKET_PATHS (50).
    Simplifications: the file system and the network are an argument ([around]), different at every pattern looked at; a
    connection attempt is accepted, refused with a socket.error, or ends in another exception (a port that is too
    large, a NUL in a path); int() is Model_Uri's; the number of the socket and the log are left out; TLS is Model_Tls's. *)
From Verif Require Import PyBase Model_Uri Model_Conn Model_Controls Model_Search Model_Tls.

Inductive addr := ANet (host : str) (port : N) | AUnix (path : str).
Inductive verdict := Accepted | Refused | Broken (x : exn).
(** [a_unix]: the platform has Unix sockets; [a_glob i], [a_connect i]: the file system and the listeners when pattern
    number i is looked at (0 if there are no patterns) *)
Record around := mk_around { a_unix : bool; a_glob : nat -> str -> list str; a_connect : nat -> addr -> verdict; a_ssl : ssl_env }.
(** the socket: uri (net.py:94), host (151, 112), sock_path (111, 126, 136; None: not set), what it is connected to, its timeout
    (None: it blocks), and TLS *)
Record osock := mk_os { os_uri : str; os_host : str; os_path : option str; os_peer : addr; os_timeout : option N; os_tls : tsock }.

(** LDAPI_SOCKET_PATHS: net.py:50 *)
Definition socket_paths : list str := [lit "/var/run/ldapi"; lit "/var/run/slapd/ldapi"; lit "/var/run/slapd-*.socket"].

(** the loop over the patterns: net.py:116-129, with what it tries to connect to *)
Fixpoint find_local (a : around) (i : nat) (pats : list str) : list addr * res (option str) :=
  match pats with
  | [] => ([], Ok None)
  | p :: pats' =>
      match a_glob a i p with
      | [f] =>
          match a_connect a i (AUnix f) with
          | Accepted => ([AUnix f], Ok (Some f))
          | Refused => let (l, r) := find_local a (S i) pats' in (AUnix f :: l, r)
          | Broken x => ([AUnix f], Raise x)
          end
      | _ => find_local a (S i) pats'                        (* none, or several *)
      end
  end.

(** _inet_connect: net.py:149-161; socket.create_connection leaves its timeout on the socket *)
Definition inet_connect (a : around) (uri netloc : str) (default_port : N) (timeout : option N) : list addr * res osock :=
  let (host, port) := match rsplit_colon netloc with None => (netloc, Ok default_port) | Some (h, p) => (h, py_int p) end in
  match port with
  | Raise x => ([], Raise x)
  | Ok n =>
      ([ANet host n],
       match a_connect a 0 (ANet host n) with
       | Accepted => Ok (mk_os uri host None (ANet host n) timeout ts_fresh)
       | Refused => Raise LDAPConnectionError
       | Broken x => Raise x
       end)
  end.

(** LDAPSocket(host_uri, connect_timeout, ssl_verify, ssl_ca_file, ssl_ca_path, ssl_ca_data): what it tries to connect to, and the
    socket.  net.py:56-60, 97-142; _connect: 144-147 *)
Definition open_socket (unquote : str -> str) (a : around) (host_uri : str) (timeout : option N)
    (verify : bool) (file path data : option str) : list addr * res osock :=
  match parse_uri unquote host_uri with
  | Raise x => ([], Raise x)
  | Ok (scheme, netloc) =>
      let uri := sock_uri (scheme, netloc) in
      if str_eqb scheme (lit "ldap") then inet_connect a uri netloc 389 timeout
      else if str_eqb scheme (lit "ldaps") then
        match inet_connect a uri netloc 636 timeout with
        | (l, Ok s) =>
            (l, match sock_start_tls (a_ssl a) (os_host s) (os_tls s) verify file path data with
                | (t, Ok _) => Ok (mk_os (os_uri s) (os_host s) (os_path s) (os_peer s) (os_timeout s) t)
                | (_, Raise x) => Raise x
                end)
        | r => r
        end
      else if str_eqb scheme (lit "ldapi") then
        if negb (a_unix a) then ([], Raise LDAPError)
        else
          let opened f := mk_os uri (lit "localhost") (Some f) (AUnix f) None ts_fresh in
          if str_eqb netloc (lit "/") then
            match find_local a 0 socket_paths with
            | (l, Raise x) => (l, Raise x)
            | (l, Ok None) => (l, Raise LDAPConnectionError)
            | (l, Ok (Some f)) => (l, Ok (opened f))
            end
          else
            ([AUnix netloc],
             match a_connect a 0 (AUnix netloc) with
             | Accepted => Ok (opened netloc)
             | Refused => Raise LDAPConnectionError
             | Broken x => Raise x
             end)
      else ([], Raise LDAPError)
  end.

(** ** LDAP(server, reuse_connection, connect_timeout, ssl_...): base.py:293-313.  [_sockets] (base.py:67) as the
    constructors use it; that the last unbind takes a socket out of it is Model_Conn's.  What the sockets in it are
    used for meanwhile is left out. *)
Record opening := mk_opening {
  op_around : around; op_uri : str; op_reuse : bool; op_timeout : option N; op_verify : bool;
  op_file : option str; op_path : option str; op_data : option str }.
Definition opening_socket (unquote : str -> str) (o : opening) : list addr * res osock :=
  open_socket unquote (op_around o) (op_uri o) (op_timeout o) (op_verify o) (op_file o) (op_path o) (op_data o).
Definition ldap_socket (unquote : str -> str) (socks : list (str * osock)) (o : opening) : list (str * osock) * (list addr * res osock) :=
  if op_reuse o then
    match dget socks (op_uri o) with
    | Some s => (socks, ([], Ok s))
    | None =>
        match opening_socket unquote o with
        | (l, Ok s) => (dset socks (op_uri o) s, (l, Ok s))
        | r => (socks, r)
        end
    end
  else (socks, opening_socket unquote o).
Fixpoint ldap_sockets (unquote : str -> str) (socks : list (str * osock)) (os : list opening) : list (str * osock) * list (res osock) :=
  match os with
  | [] => (socks, [])
  | o :: os' =>
      let '(socks1, (_, r)) := ldap_socket unquote socks o in
      let (socks2, rs) := ldap_sockets unquote socks1 os' in (socks2, r :: rs)
  end.
