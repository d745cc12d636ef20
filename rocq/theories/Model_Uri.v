(** * Model of host URI parsing, connection targets and certificate checking
    /repo/laurelin/ldap/net.py:80-159, 203-241
    Simplifications: [unquote] (percent decoding) is a parameter; the actual connecting,
    TLS handshake and glob search for sockets are replaced by their target; [int()] is
    modelled on plain decimal strings only (other spellings Python accepts, such as signs,
    spaces and underscores, are treated as ValueError). *)
From Verif Require Import PyBase.

(** does s start with p; if so what follows *)
Fixpoint strip_prefix (p s : str) : option str :=
  match p, s with
  | [], _ => Some s
  | x :: p', y :: s' => if N.eqb x y then strip_prefix p' s' else None
  | _ :: _, [] => None
  end.
Definition starts_with (p s : str) : bool := match strip_prefix p s with Some _ => true | None => false end.
Definition ends_with (p s : str) : bool := starts_with (rev p) (rev s).

(** [s.split(sep)] for a non-empty separator: leftmost non-overlapping occurrences.
    [skip] counts the characters of a just-found separator still to be passed over. *)
Fixpoint split_go (sep : str) (skip : nat) (acc s : str) : list str :=
  match s with
  | [] => [rev acc]
  | c :: s' =>
      match skip with
      | S k => split_go sep k acc s'
      | 0 => if starts_with sep s then rev acc :: split_go sep (List.length sep - 1) [] s'
             else split_go sep 0 (c :: acc) s'
      end
  end.
Definition py_split (sep s : str) : list str := split_go sep 0 [] s.

(** LDAPSocket._parse_uri: /repo/laurelin/ldap/net.py:80-95 *)
Definition parse_uri (unquote : str -> str) (host_uri : str) : res (str * str) :=
  match py_split (lit "://") host_uri with
  | [a] =>
      let netloc := unquote a in
      match netloc with
      | [] => Raise IndexError                       (* netloc[0] *)
      | c :: _ => if N.eqb c (ch "/") then Ok (lit "ldapi", netloc) else Ok (lit "ldap", netloc)
      end
  | [a; b] => Ok (a, unquote b)
  | _ => Raise LDAPError
  end.

(** self.uri: /repo/laurelin/ldap/net.py:94 *)
Definition sock_uri (sn : str * str) : str := fst sn ++ lit "://" ++ snd sn.

(** [int()] on a decimal string *)
Definition digit_val (c : N) : option N :=
  if ((48 <=? c) && (c <=? 57))%N then Some (c - 48)%N else None.
Fixpoint dec_digits (acc : N) (s : str) : option N :=
  match s with
  | [] => Some acc
  | c :: s' => match digit_val c with Some d => dec_digits (acc * 10 + d)%N s' | None => None end
  end.
Definition py_int (s : str) : res N :=
  match s with
  | [] => Raise ValueError
  | _ => match dec_digits 0 s with Some n => Ok n | None => Raise ValueError end
  end.

(** [netloc.rsplit(':', 1)]: split at the last colon, if any *)
Fixpoint rsplit_colon (s : str) : option (str * str) :=
  match s with
  | [] => None
  | c :: s' =>
      match rsplit_colon s' with
      | Some (a, b) => Some (c :: a, b)
      | None => if N.eqb c (ch ":") then Some ([], s') else None
      end
  end.

(** Where the socket connects to. *)
Inductive target :=
| Inet (host : str) (port : N) (tls : bool)
| UnixSearch                                   (* ldapi:/// : the list of well-known paths *)
| UnixPath (path : str).

(** _inet_connect's address: /repo/laurelin/ldap/net.py:148-154 *)
Definition inet_target (netloc : str) (default_port : N) (tls : bool) : res target :=
  match rsplit_colon netloc with
  | None => Ok (Inet netloc default_port tls)
  | Some (h, p) => let* n := py_int p in Ok (Inet h n tls)
  end.

(** _uri_connect's dispatch: /repo/laurelin/ldap/net.py:97-142 (on a platform with unix
    sockets) *)
Definition uri_connect (unquote : str -> str) (host_uri : str) : res target :=
  let* sn := parse_uri unquote host_uri in
  let (scheme, netloc) := sn in
  if str_eqb scheme (lit "ldap") then inet_target netloc 389 false
  else if str_eqb scheme (lit "ldaps") then inet_target netloc 636 true
  else if str_eqb scheme (lit "ldapi") then
    if str_eqb netloc (lit "/") then Ok UnixSearch else Ok (UnixPath netloc)
  else Raise LDAPError.

(** check_hostname: /repo/laurelin/ldap/net.py:215-241; [sans] is
    cert.get('subjectAltName', []), a list of (type, value). *)
Definition san_valid (host : str) (san : str * str) : bool :=
  if str_eqb (fst san) (lit "DNS") && starts_with (lit "*.") (snd san)
  then ends_with (tl (snd san)) host
  else str_eqb host (snd san).
Fixpoint sans_valid (host : str) (sans : list (str * str)) : bool :=
  match sans with
  | [] => false
  | san :: r => if san_valid host san then true else sans_valid host r
  end.
Definition check_hostname (host cn : str) (sans : list (str * str)) : res unit :=
  if str_eqb host cn then Ok tt
  else if sans_valid host sans then Ok tt else Raise LDAPConnectionError.

(** start_tls's verification part: /repo/laurelin/ldap/net.py:206-211.  The subject is a
    list of RDNs, each a list of (name, value); [dict] keeps the last commonName of the first
    AVA of each RDN; a missing commonName is a KeyError. *)
Definition subject_cn (subject : list (list (str * str))) : res str :=
  let firsts := map (fun rdn => match rdn with ava :: _ => Ok ava | [] => Raise IndexError end) subject in
  let* d := fold_left (fun r x => let* d := r in let* kv := x in Ok (dset d (fst kv) (snd kv))) firsts (Ok []) in
  match dget d (lit "commonName") with Some v => Ok v | None => Raise KeyError end.
Definition verify_peer (verify : bool) (host : str) (subject : list (list (str * str)))
    (sans : list (str * str)) : res unit :=
  if verify then let* cn := subject_cn subject in check_hostname host cn sans else Ok tt.
