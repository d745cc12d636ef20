(** * C96: opening a connection *)
From Verif Require Import PyBase Model_Uri Spec_Uri Model_Conn Model_Controls Spec_Controls Model_Search Model_Tls Spec_Tls Proofs_Tls Props_Tls Model_Open Spec_Open Proofs_Open.

Section Open.
  Context (unquote : str -> str) (a : around) (timeout : option N) (verify : bool) (file path data : option str).
  Notation opens uri := (open_socket unquote a uri timeout verify file path data).

  (** What the URI names (uri_connect: C39). *)
  Lemma open_eq uri : a_unix a = true -> opens uri =
    match uri_connect unquote uri with
    | Raise x => ([], Raise x)
    | Ok (Inet h p tls) =>
        ([ANet h p],
         match a_connect a 0 (ANet h p) with
         | Accepted =>
             let s := mk_os (match parse_uri unquote uri with Ok sn => sock_uri sn | _ => [] end) h None (ANet h p) timeout ts_fresh in
             if tls then match sock_start_tls (a_ssl a) h ts_fresh verify file path data with
                         | (t, Ok _) => Ok (mk_os (os_uri s) h None (ANet h p) timeout t)
                         | (_, Raise x) => Raise x
                         end
             else Ok s
         | Refused => Raise LDAPConnectionError
         | Broken x => Raise x
         end)
    | Ok (UnixPath f) =>
        ([AUnix f],
         match a_connect a 0 (AUnix f) with
         | Accepted => Ok (mk_os (match parse_uri unquote uri with Ok sn => sock_uri sn | _ => [] end) (lit "localhost") (Some f) (AUnix f) None ts_fresh)
         | Refused => Raise LDAPConnectionError
         | Broken x => Raise x
         end)
    | Ok UnixSearch =>
        match find_local a 0 socket_paths with
        | (l, Raise x) => (l, Raise x)
        | (l, Ok None) => (l, Raise LDAPConnectionError)
        | (l, Ok (Some f)) => (l, Ok (mk_os (match parse_uri unquote uri with Ok sn => sock_uri sn | _ => [] end) (lit "localhost") (Some f) (AUnix f) None ts_fresh))
        end
    end.
  Proof.
    intros U. unfold open_socket, uri_connect. destruct (parse_uri unquote uri) as [[sc nl]|x]; cbn [bind]; [|reflexivity].
    destruct (str_eqb sc (lit "ldap")).
    { unfold inet_connect, inet_target. destruct (rsplit_colon nl) as [[h p]|]; [destruct (py_int p); cbn [bind]; [|reflexivity]|]; destruct (a_connect a 0 _); reflexivity. }
    destruct (str_eqb sc (lit "ldaps")).
    { unfold inet_connect, inet_target. destruct (rsplit_colon nl) as [[h p]|]; [destruct (py_int p); cbn [bind]; [|reflexivity]|]; destruct (a_connect a 0 _); cbn [os_host os_tls os_uri os_path os_peer os_timeout]; try reflexivity;
        destruct (sock_start_tls _ _ _ _ _ _ _) as [t [[]|y]]; reflexivity. }
    destruct (str_eqb sc (lit "ldapi")); [|reflexivity]. rewrite U. cbn [negb]. destruct (str_eqb nl (lit "/")); reflexivity.
  Qed.

  (** C96: a socket that is returned is connected to what the URI names, and nothing else was tried; for ldapi:/// it is the
      first of the well-known places that can be used when its turn comes.  TLS is on exactly for ldaps; nothing has been sent. *)
  Theorem C96_connected uri l s : a_unix a = true -> opens uri = (l, Ok s) ->
    ts_sent (os_tls s) = [] /\
    match uri_connect unquote uri with
    | Ok (Inet h p tls) => l = [ANet h p] /\ a_connect a 0 (ANet h p) = Accepted /\ os_peer s = ANet h p /\ os_host s = h /\ ts_started (os_tls s) = tls
    | Ok (UnixPath f) => l = [AUnix f] /\ a_connect a 0 (AUnix f) = Accepted /\ os_peer s = AUnix f /\ os_path s = Some f /\ ts_started (os_tls s) = false
    | Ok UnixSearch => exists i f, first_usable a i f /\ (forall x, In x l -> single_match a x) /\ os_peer s = AUnix f /\ os_path s = Some f /\ ts_started (os_tls s) = false
    | Raise _ => False
    end.
  Proof.
    intros U. rewrite (open_eq _ U). destruct (uri_connect unquote uri) as [[h p tls| |f]|x]; [| | |discriminate].
    - destruct (a_connect a 0 (ANet h p)) eqn:C; [|discriminate|discriminate]. cbv zeta. destruct tls.
      + destruct (sock_start_tls (a_ssl a) h ts_fresh verify file path data) as [t [[]|y]] eqn:E; intros [= <- <-]. cbn [os_tls os_peer os_host].
        apply sock_start_tls_ok in E as (ly & _ & _ & H1 & H2 & _). cbn in H2. auto 10.
      + intros [= <- <-]. cbn [os_tls os_peer os_host ts_fresh ts_sent ts_started]. auto 10.
    - pose proof (find_cases a socket_paths 0) as F. destruct (find_local a 0 socket_paths) as [l' [[f|]|x]]; [|discriminate|discriminate].
      intros [= <- <-]. cbn [os_tls os_peer os_path ts_fresh ts_sent ts_started]. split; [reflexivity|]. destruct F as [F1 (k & F2 & F3)].
      exists k, f. split; [split; [exact F2|exact F3]|]. split; [|auto]. intros x Hx. destruct (F1 x Hx) as (k' & p & g & H1 & H2 & H3).
      rewrite Nat.add_0_l in H2. exists k', p, g. auto.
    - destruct (a_connect a 0 (AUnix f)) eqn:C; [|discriminate|discriminate]. intros [= <- <-]. cbn [os_tls os_peer os_path ts_fresh ts_sent ts_started]. auto 10.
  Qed.

  (** When it can be opened it is. *)
  Theorem C96_opens uri : a_unix a = true ->
    match uri_connect unquote uri with
    | Ok (Inet h p false) => a_connect a 0 (ANet h p) = Accepted
    | Ok (Inet h p true) => a_connect a 0 (ANet h p) = Accepted /\ snd (sock_start_tls (a_ssl a) h ts_fresh verify file path data) = Ok tt
    | Ok (UnixPath f) => a_connect a 0 (AUnix f) = Accepted
    | Ok UnixSearch => exists i f, first_usable a i f
    | Raise _ => False
    end -> exists l s, opens uri = (l, Ok s).
  Proof.
    intros U. rewrite (open_eq _ U). destruct (uri_connect unquote uri) as [[h p [|]| |f]|x].
    - intros [-> H]. destruct (sock_start_tls _ _ _ _ _ _ _) as [t r]. cbn in H. subst r. cbv zeta. eauto.
    - intros ->. cbv zeta. eauto.
    - intros (i & f & F). pose proof (find_cases a socket_paths 0) as G. destruct (find_local a 0 socket_paths) as [l' [[g|]|x]]; [eauto| |].
      + destruct G as [_ G]. destruct F as [(p & F1 & F2 & F3) _]. specialize (G i p f F1 F2). rewrite Nat.add_0_l in G. congruence.
      + exfalso. destruct G as [_ (k & p & g & G1 & G2 & G3 & G4)]. rewrite Nat.add_0_l in *. destruct F as [(q & F1 & F2 & F3) F4].
        destruct (Nat.lt_trichotomy i k) as [H|[->|H]].
        * specialize (G4 i H q f F1 F2). rewrite Nat.add_0_l in G4. congruence.
        * assert (p = q) as -> by (change socket_paths with well_known in G1; congruence). congruence.
        * specialize (F4 k H p g G1 G2). congruence.
    - intros ->. eauto.
    - contradiction.
  Qed.

  (** Otherwise the error says why: LDAPConnectionError if nothing accepts connections there - for ldapi:/// , if no place is of
      use -, and for a bad URI the error of C39, with nothing tried. *)
  Theorem C96_refused uri : a_unix a = true ->
    match uri_connect unquote uri with
    | Ok (Inet h p _) => a_connect a 0 (ANet h p) = Refused -> opens uri = ([ANet h p], Raise LDAPConnectionError)
    | Ok (UnixPath f) => a_connect a 0 (AUnix f) = Refused -> opens uri = ([AUnix f], Raise LDAPConnectionError)
    | Ok UnixSearch => (forall i, of_no_use a i) -> snd (opens uri) = Raise LDAPConnectionError
    | Raise x => opens uri = ([], Raise x)
    end.
  Proof.
    intros U. rewrite (open_eq _ U). destruct (uri_connect unquote uri) as [[h p tls| |f]|x].
    - intros ->. reflexivity.
    - intros N. pose proof (find_cases a socket_paths 0) as G. destruct (find_local a 0 socket_paths) as [l' [[g|]|x]]; [|reflexivity|]; destruct G as [_ G].
      + destruct G as (k & (p & G1 & G2 & G3) & _). rewrite Nat.add_0_l in *. specialize (N k p g G1 G2). congruence.
      + destruct G as (k & p & g & G1 & G2 & G3 & _). rewrite Nat.add_0_l in *. specialize (N k p g G1 G2). congruence.
    - intros ->. reflexivity.
    - reflexivity.
  Qed.
  (** A handshake or certificate that fails is an error too, and there is no socket. *)
  Theorem C96_handshake_fails uri h p x : a_unix a = true -> uri_connect unquote uri = Ok (Inet h p true) -> a_connect a 0 (ANet h p) = Accepted ->
    snd (sock_start_tls (a_ssl a) h ts_fresh verify file path data) = Raise x -> opens uri = ([ANet h p], Raise x).
  Proof.
    intros U E C. rewrite (open_eq _ U), E, C. cbv zeta. destruct (sock_start_tls _ _ _ _ _ _ _) as [t r]. cbn. intros ->. reflexivity.
  Qed.
  (** Without Unix sockets, ldapi is an error. *)
  Theorem C96_no_unix_sockets uri netloc : a_unix a = false -> parse_uri unquote uri = Ok (lit "ldapi", netloc) -> opens uri = ([], Raise LDAPError).
  Proof. intros U E. unfold open_socket. rewrite E, U. reflexivity. Qed.

  (** C96, ldaps: whatever the connections sharing the socket do, everything they ever send goes through one TLS layer;
      with verification, that of a holder of a certificate for the host in the URI. *)
  Theorem C96_ldaps_protected encode chain uri l s h p ops : a_unix a = true -> opens uri = (l, Ok s) -> uri_connect unquote uri = Ok (Inet h p true) ->
    exists ly, (forall ls m, In (ls, m) (ts_sent (trun encode h (os_tls s) ops)) -> ls = [ly]) /\
      ly_verify ly = verify /\
      (verify = true -> honest chain (a_ssl a) -> certified chain h ly /\ as_wanted file path data (ly_trust ly)).
  Proof.
    intros U. rewrite (open_eq _ U). intros H E. rewrite E in H. destruct (a_connect a 0 (ANet h p)); [|discriminate|discriminate]. cbv zeta in H.
    destruct (sock_start_tls (a_ssl a) h ts_fresh verify file path data) as [t [[]|y]] eqn:T; [|discriminate]. injection H as _ <-. cbn [os_tls].
    pose proof (sock_start_tls_ok _ _ _ _ _ _ _ _ T) as (ly & _ & T1 & T2 & T3 & T4 & _). cbn [ts_fresh ts_layers ts_sent] in T1, T3.
    exists ly. split; [|split; [exact T4|]].
    - destruct (C74_everything_protected encode h t ops T2) as (_ & _ & more & M1 & M2). unfold sent_since in M1. rewrite M1, T3. cbn [List.app].
      intros ls m Hi. rewrite (M2 _ _ Hi). exact T1.
    - intros V Hh. rewrite V in T. destruct (C74_verified chain h _ _ _ _ _ _ Hh T) as (ly' & L1 & _ & L3 & L4). rewrite T1 in L1. injection L1 as <-. auto.
  Qed.

  (** C96, ldapi: the connection then waits for the server as long as it takes. *)
  Theorem C96_waits_partial uri l s f : opens uri = (l, Ok s) -> os_peer s = AUnix f -> os_timeout s = None.
  Proof.
    unfold open_socket. destruct (parse_uri unquote uri) as [[sc nl]|x]; [|discriminate]. unfold inet_connect.
    destruct (str_eqb sc (lit "ldap")); [|destruct (str_eqb sc (lit "ldaps"))].
    - destruct (match rsplit_colon nl with None => _ | Some _ => _ end) as [hh [n|x]]; [|discriminate]. destruct (a_connect a 0 _); intros [= _ <-]; discriminate.
    - destruct (match rsplit_colon nl with None => _ | Some _ => _ end) as [hh [n|x]]; [|discriminate]. destruct (a_connect a 0 _); try discriminate.
      destruct (sock_start_tls _ _ _ _ _ _ _) as [t [[]|y]]; intros [= _ <-]; discriminate.
    - destruct (str_eqb sc (lit "ldapi")); [|discriminate]. destruct (a_unix a); [|discriminate]. cbn [negb]. destruct (str_eqb nl (lit "/")).
      + destruct (find_local a 0 socket_paths) as [l' [[g|]|x]]; intros [= _ <-]. reflexivity.
      + destruct (a_connect a 0 _); intros [= _ <-]. reflexivity.
  Qed.
  (** Refuted for ldap and ldaps: the time allowed for connecting stays as a limit on every later wait for the server. *)
  Theorem C96_refuted_timeout_stays uri l s h p : opens uri = (l, Ok s) -> os_peer s = ANet h p -> os_timeout s = timeout.
  Proof.
    unfold open_socket. destruct (parse_uri unquote uri) as [[sc nl]|x]; [|discriminate]. unfold inet_connect.
    destruct (str_eqb sc (lit "ldap")); [|destruct (str_eqb sc (lit "ldaps"))].
    - destruct (match rsplit_colon nl with None => _ | Some _ => _ end) as [hh [n|x]]; [|discriminate]. destruct (a_connect a 0 _); intros [= _ <-]; reflexivity.
    - destruct (match rsplit_colon nl with None => _ | Some _ => _ end) as [hh [n|x]]; [|discriminate]. destruct (a_connect a 0 _); try discriminate.
      destruct (sock_start_tls _ _ _ _ _ _ _) as [t [[]|y]]; intros [= _ <-]; reflexivity.
    - destruct (str_eqb sc (lit "ldapi")); [|discriminate]. destruct (a_unix a); [|discriminate]. cbn [negb]. destruct (str_eqb nl (lit "/")).
      + destruct (find_local a 0 socket_paths) as [l' [[g|]|x]]; intros [= _ <-]. discriminate.
      + destruct (a_connect a 0 _); intros [= _ <-]. discriminate.
  Qed.
End Open.

(** ** Connections in one program *)
Section Many.
  Context (unquote : str -> str).
  (** the socket of an opening that returned, and whether it is a TLS socket that was verified *)
  Definition verified (chain : trust -> cert -> Prop) (h : str) (s : osock) : Prop :=
    exists ly, ts_layers (os_tls s) = [ly] /\ ts_started (os_tls s) = true /\ certified chain h ly.
  Lemma ldaps_layer chain o l s h p : a_unix (op_around o) = true -> honest chain (a_ssl (op_around o)) -> op_verify o = true ->
    opening_socket unquote o = (l, Ok s) -> uri_connect unquote (op_uri o) = Ok (Inet h p true) -> verified chain h s.
  Proof.
    intros U Hh V. unfold opening_socket. rewrite (open_eq _ _ _ _ _ _ _ _ U). intros H E. rewrite E in H.
    destruct (a_connect (op_around o) 0 (ANet h p)); [|discriminate|discriminate]. cbv zeta in H. rewrite V in H.
    destruct (sock_start_tls (a_ssl (op_around o)) h ts_fresh true (op_file o) (op_path o) (op_data o)) as [t [[]|y]] eqn:T; [|discriminate]. injection H as _ <-.
    destruct (C74_verified chain h _ _ _ _ _ _ Hh T) as (ly & L1 & L2 & L3 & _). exists ly. auto.
  Qed.

  (** C96: a connection with a socket of its own gets one opened as it asked. *)
  Theorem C96_own_socket socks o : op_reuse o = false -> ldap_socket unquote socks o = (socks, opening_socket unquote o).
  Proof. intros R. unfold ldap_socket. now rewrite R. Qed.
  (** If every connection of a program asks for verification, every ldaps socket they get, shared or not, is verified. *)
  Theorem C96_all_verified_partial chain os : (forall o, In o os -> a_unix (op_around o) = true /\ honest chain (a_ssl (op_around o)) /\ op_verify o = true) ->
    forall i o s h p, nth_error os i = Some o -> nth_error (snd (ldap_sockets unquote [] os)) i = Some (Ok s) ->
      uri_connect unquote (op_uri o) = Ok (Inet h p true) -> verified chain h s.
  Proof.
    assert (G : forall os socks, (forall o, In o os -> a_unix (op_around o) = true /\ honest chain (a_ssl (op_around o)) /\ op_verify o = true) ->
      (forall u s h p, dget socks u = Some s -> uri_connect unquote u = Ok (Inet h p true) -> verified chain h s) ->
      forall i o s h p, nth_error os i = Some o -> nth_error (snd (ldap_sockets unquote socks os)) i = Some (Ok s) ->
        uri_connect unquote (op_uri o) = Ok (Inet h p true) -> verified chain h s).
    2: { intros H. apply (G os []); [exact H|]. discriminate. }
    clear os. induction os as [|o os IH]; intros socks H Hs i o' s h p Ho Hr E; [destruct i; discriminate|].
    cbn [ldap_sockets] in Hr. destruct (ldap_socket unquote socks o) as [socks1 [l r]] eqn:L. specialize (IH socks1 (fun o' Hi => H o' (or_intror Hi))).
    destruct (H o (or_introl eq_refl)) as (U & Hh & V).
    assert (X : (forall u s h p, dget socks1 u = Some s -> uri_connect unquote u = Ok (Inet h p true) -> verified chain h s) /\
                (forall s h p, r = Ok s -> uri_connect unquote (op_uri o) = Ok (Inet h p true) -> verified chain h s)).
    { unfold ldap_socket in L. destruct (op_reuse o).
      - destruct (dget socks (op_uri o)) as [s0|] eqn:D.
        + injection L as <- <- <-. split; [exact Hs|]. intros s1 h1 p1 [= <-]. now apply Hs.
        + destruct (opening_socket unquote o) as [l0 [s0|x]] eqn:O; injection L as <- <- <-.
          * assert (Y : forall h1 p1, uri_connect unquote (op_uri o) = Ok (Inet h1 p1 true) -> verified chain h1 s0) by (intros h1 p1; exact (ldaps_layer chain o l0 s0 h1 p1 U Hh V O)).
            split; [|intros s1 h1 p1 [= <-]; apply Y].
            intros u s1 h1 p1 Hu Eu. rewrite dget_dset in Hu. destruct (str_eqb_spec (op_uri o) u) as [<-|N]; [injection Hu as <-; exact (Y _ _ Eu)|exact (Hs _ _ _ _ Hu Eu)].
          * split; [exact Hs|discriminate].
      - destruct (opening_socket unquote o) as [l0 r0] eqn:O. injection L as <- <- <-. split; [exact Hs|]. intros s1 h1 p1 -> E1. exact (ldaps_layer chain o l0 s1 h1 p1 U Hh V O E1). }
    destruct X as [X1 X2]. destruct (ldap_sockets unquote socks1 os) as [socks2 rs] eqn:R. destruct i as [|i].
    - injection Ho as <-. injection Hr as ->. exact (X2 s h p eq_refl E).
    - exact (IH X1 i o' s h p Ho Hr E).
  Qed.
End Many.

(** Refuted: several servers that listen in the usual place are none - ldapi:/// fails, nothing tried. *)
Definition ex_ssl : ssl_env := mk_ssl true (Ok tt) (fun _ => Ok tt)
  (fun _ _ => Ok (mk_cert [[(lit "commonName", lit "h.example.org")]] [])) true.
Definition two_servers : around := mk_around true
  (fun _ p => if str_eqb p (lit "/var/run/slapd-*.socket") then [lit "/var/run/slapd-a.socket"; lit "/var/run/slapd-b.socket"] else [])
  (fun _ _ => Accepted) ex_ssl.
Theorem C96_refuted_several_servers timeout v f p d :
  (forall x, a_connect two_servers 2 x = Accepted) /\
  open_socket (fun s => s) two_servers (lit "ldapi:///") timeout v f p d = ([], Raise LDAPConnectionError).
Proof. split; [reflexivity|]. reflexivity. Qed.

(** Refuted: a connection that asks for verification gets the socket another one of the same URI opened without, whoever the server is. *)
Definition any_cert : ssl_env := mk_ssl true (Ok tt) (fun _ => Ok tt)
  (fun verify _ => if verify then Raise (OtherExn 34) else Ok (mk_cert [[(lit "commonName", lit "evil.example.net")]] [])) true.
Definition impostor : around := mk_around true (fun _ _ => []) (fun _ _ => Accepted) any_cert.
Definition asks (v : bool) : opening := mk_opening impostor (lit "ldaps://h.example.org") true (Some 5%N) v None None None.
Theorem C96_refuted_shared_socket :
  (exists x, snd (ldap_sockets (fun s => s) [] [asks true]) = [Raise x]) /\
  exists s ly, snd (ldap_sockets (fun s => s) [] [asks false; asks true]) = [Ok s; Ok s] /\ ts_layers (os_tls s) = [ly] /\ ly_verify ly = false /\
    ly_cert ly = mk_cert [[(lit "commonName", lit "evil.example.net")]] [].
Proof. split; [eexists; reflexivity|]. do 2 eexists. split; [reflexivity|]. split; [reflexivity|]. split; reflexivity. Qed.

Definition one_server : around := mk_around true
  (fun _ p => if str_eqb p (lit "/var/run/slapd-*.socket") then [lit "/var/run/slapd-a.socket"] else if str_eqb p (lit "/var/run/ldapi") then [p] else [])
  (fun i _ => if Nat.eqb i 0 then Refused else Accepted) ex_ssl.
Example C96_nonvacuous_local :
  first_usable one_server 2 (lit "/var/run/slapd-a.socket") /\
  open_socket (fun s => s) one_server (lit "ldapi:///") (Some 5%N) true None None None =
    ([AUnix (lit "/var/run/ldapi"); AUnix (lit "/var/run/slapd-a.socket")],
     Ok (mk_os (lit "ldapi:///") (lit "localhost") (Some (lit "/var/run/slapd-a.socket")) (AUnix (lit "/var/run/slapd-a.socket")) None ts_fresh)).
Proof.
  split; [|reflexivity]. split.
  - exists (lit "/var/run/slapd-*.socket"). repeat split; reflexivity.
  - intros [|[|j]] Hj p f Hp Hg; [reflexivity| |lia]. injection Hp as <-. discriminate Hg.
Qed.
Definition tls_server : around := mk_around true (fun _ _ => []) (fun _ _ => Accepted) ex_ssl.
Example C96_nonvacuous_ldaps :
  exists t, open_socket (fun s => s) tls_server (lit "ldaps://h.example.org:1636") (Some 5%N) true None None None =
    ([ANet (lit "h.example.org") 1636], Ok (mk_os (lit "ldaps://h.example.org:1636") (lit "h.example.org") None (ANet (lit "h.example.org") 1636) (Some 5%N) t))
  /\ ts_started t = true.
Proof. eexists. split; reflexivity. Qed.
Print Assumptions C96_connected.
Print Assumptions C96_opens.
Print Assumptions C96_refused.
Print Assumptions C96_handshake_fails.
Print Assumptions C96_no_unix_sockets.
Print Assumptions C96_ldaps_protected.
Print Assumptions C96_waits_partial.
Print Assumptions C96_refuted_timeout_stays.
Print Assumptions C96_refuted_several_servers.
Print Assumptions C96_own_socket.
Print Assumptions C96_all_verified_partial.
Print Assumptions C96_refuted_shared_socket.
Definition good_opening : opening := mk_opening tls_server (lit "ldaps://h.example.org") true (Some 5%N) true None None None.
Example C96_nonvacuous_verified :
  let chain := fun (_ : trust) c => c = mk_cert [[(lit "commonName", lit "h.example.org")]] [] in
  (forall o, In o [good_opening; good_opening] -> a_unix (op_around o) = true /\ honest chain (a_ssl (op_around o)) /\ op_verify o = true) /\
  uri_connect (fun s => s) (lit "ldaps://h.example.org") = Ok (Inet (lit "h.example.org") 636 true) /\
  exists s, snd (ldap_sockets (fun s => s) [] [good_opening; good_opening]) = [Ok s; Ok s].
Proof.
  split; [|split; [reflexivity|eexists; reflexivity]].
  intros o Ho. assert (o = good_opening) as -> by (destruct Ho as [<-|[<-|[]]]; reflexivity). split; [reflexivity|]. split; [|reflexivity].
  intros tr c H. cbn in H. injection H as <-. reflexivity.
Qed.
