(** * C38, C39: certificate host names, host URIs *)
From Verif Require Import PyBase Model_Uri Spec_Uri Proofs_Uri.

(** ** C38 *)

(** The check passes exactly when the common name is the host, or some alternative name is
    the host, or is a DNS wildcard "*.d" and the host ends in ".d"; every other certificate
    is refused with LDAPConnectionError.  In particular "*.d" never covers "xd" or "d". *)
Theorem C38_accepts_exactly_partial host cn sans :
  (check_hostname host cn sans = Ok tt <-> named_lenient host cn sans) /\
  (~ named_lenient host cn sans -> check_hostname host cn sans = Raise LDAPConnectionError).
Proof.
  split; [apply check_hostname_spec|]. intros H.
  destruct (check_hostname_exn host cn sans) as [E|E]; auto.
  apply check_hostname_spec in E. contradiction.
Qed.

(** No certificate that names the host properly is refused. *)
Theorem C38_never_refuses_a_proper_certificate host cn sans :
  named_strict host cn sans -> check_hostname host cn sans = Ok tt.
Proof. intros H. apply check_hostname_spec, strict_lenient, H. Qed.

(** Without wildcard or exotic entries the check is exactly the strict one. *)
Theorem C38_strict_without_wildcards_partial host cn sans :
  (forall t v, In (t, v) sans -> (t = lit "DNS" \/ t = lit "IP Address") /\
     forall d l, v = lit "*." ++ d -> host = l ++ lit "." ++ d -> label l) ->
  (check_hostname host cn sans = Ok tt <-> named_strict host cn sans).
Proof.
  intros H. split; [|apply C38_never_refuses_a_proper_certificate].
  intros E. apply check_hostname_spec in E. destruct E as [E|[[t v] [Hi Hc]]]; [now left|right].
  exists (t, v). split; auto. destruct (H t v Hi) as [Ht Hl].
  destruct Hc as [[d [l [Hw Eh]]]|[Hn Eh]].
  - left. exists d, l. repeat split; auto; try apply Hw; apply (Hl d l); auto; apply Hw.
  - right. auto.
Qed.

(** When verification is on, start_tls goes on only if the peer's certificate has a common
    name and names the host; a certificate without a common name is refused even if its
    alternative names match. *)
Theorem C38_tls_verified host subject sans :
  (verify_peer true host subject sans = Ok tt <->
    exists cn, subject_cn subject = Ok cn /\ named_lenient host cn sans) /\
  ((forall rdn t v, In rdn subject -> In (t, v) rdn -> t <> lit "commonName") ->
    verify_peer true host subject sans <> Ok tt).
Proof.
  assert (A : verify_peer true host subject sans = Ok tt <->
    exists cn, subject_cn subject = Ok cn /\ named_lenient host cn sans).
  { unfold verify_peer. destruct (subject_cn subject) as [cn|e]; cbn [bind].
    - rewrite check_hostname_spec. split; [intros H; eauto|intros [c [E H]]; injection E as ->; auto].
    - split; [discriminate|intros [c [E _]]; discriminate]. }
  split; [exact A|]. intros Hn E. apply A in E as [cn [E _]]. revert E. unfold subject_cn.
  assert (G : forall l (d : list (str * str)), dget d (lit "commonName") = None ->
            (forall rdn t v, In rdn l -> In (t, v) rdn -> t <> lit "commonName") ->
            match fold_left (fun r x => let* d := r in let* kv := x in Ok (dset d (fst kv) (snd kv)))
               (map (fun rdn => match rdn with ava :: _ => Ok ava | [] => Raise IndexError end) l) (Ok d) with
            | Ok d' => dget d' (lit "commonName") = None | Raise _ => True end).
  { assert (Gr : forall l e, exists e', fold_left (fun r x => let* d := r in let* kv := x in Ok (dset d (fst kv) (snd kv)))
               (map (fun rdn : list (str * str) => match rdn with ava :: _ => Ok ava | [] => Raise IndexError end) l)
               (Raise e : res (list (str * str))) = Raise e').
    { induction l as [|x l IH]; intros e; cbn [map fold_left]; [now exists e|apply IH]. }
    induction l as [|rdn l IH]; intros d Hd Hl; cbn [map fold_left]; [exact Hd|].
    destruct rdn as [|[t v] rdn]; cbn [bind fst snd].
    - destruct (Gr l IndexError) as [e' ->]. exact I.
    - apply IH; [|intros; eapply Hl; [right; eassumption|eassumption]].
      rewrite dget_dset_neq; auto. apply (Hl ((t, v) :: rdn) t v); now left. }
  specialize (G subject [] eq_refl Hn).
  destruct (fold_left _ _ _) as [d|e]; cbn [bind]; [|discriminate].
  now rewrite G.
Qed.

(** A wildcard is accepted for any number of labels, and for none. *)
Theorem C38_refuted_wildcard_spans_labels a b d cn :
  check_hostname (a ++ lit "." ++ b ++ lit "." ++ d) cn [(lit "DNS", lit "*." ++ d)] = Ok tt.
Proof.
  apply check_hostname_spec. right. eexists; split; [now left|]. left.
  exists d, (a ++ lit "." ++ b). split; [split; reflexivity|]. now rewrite <- !app_assoc.
Qed.
(** Alternative names of a type that does not identify hosts are compared with the host. *)
Theorem C38_refuted_other_name_types host cn t :
  t <> lit "DNS" -> check_hostname host cn [(t, host)] = Ok tt.
Proof.
  intros H. apply check_hostname_spec. right. eexists; split; [now left|]. right.
  split; [|reflexivity]. intros d [E _]. apply H, E.
Qed.

Example C38_nonvacuous :
  check_hostname (lit "ldap.example.org") (lit "x") [(lit "DNS", lit "*.example.org")] = Ok tt /\
  named_strict (lit "ldap.example.org") (lit "x") [(lit "DNS", lit "*.example.org")] /\
  check_hostname (lit "evil-example.org") (lit "x") [(lit "DNS", lit "*.example.org")] = Raise LDAPConnectionError /\
  check_hostname (lit "example.org") (lit "x") [(lit "DNS", lit "*.example.org")] = Raise LDAPConnectionError /\
  check_hostname (lit "a.b.example.org") (lit "x") [(lit "DNS", lit "*.example.org")] = Ok tt /\
  check_hostname (lit "10.0.0.1") (lit "x") [(lit "DNS", lit "a"); (lit "IP Address", lit "10.0.0.1")] = Ok tt /\
  verify_peer true (lit "h") [[(lit "organizationName", lit "o")]; [(lit "commonName", lit "h")]] [] = Ok tt /\
  verify_peer true (lit "h") [[(lit "organizationName", lit "o")]] [(lit "DNS", lit "h")] = Raise KeyError.
Proof.
  split; [vm_compute; reflexivity|]. split.
  { right. eexists; split; [now left|]. left. exists (lit "example.org"), (lit "ldap").
    split; [split; reflexivity|]. split; [|reflexivity]. split; [discriminate|].
    intros H. vm_compute in H. repeat (destruct H as [H|H]; [discriminate H|]). exact H. }
  vm_compute. repeat split; reflexivity.
Qed.

(** ** C39 *)

(** [unquote] stands for percent decoding and is arbitrary here. *)
Section C39.
  Context (unquote : str -> str).

  Lemma split_two s r : ~ In (ch ":") s -> ~ infix (lit "://") r ->
    py_split (lit "://") (s ++ lit "://" ++ r) = [s; r].
  Proof.
    intros Hs Hr. rewrite sep_shape at 2. rewrite sep_shape at 1.
    rewrite py_split_first by assumption. f_equal. apply py_split_none; [discriminate|exact Hr].
  Qed.

  (** scheme://host for the three schemes; the default ports are 389 and 636 and TLS is
      used for ldaps only. *)
  Theorem C39_default_port host loc :
    ~ infix (lit "://") host -> unquote host = loc -> ~ In (ch ":") loc ->
    uri_connect unquote (lit "ldap" ++ lit "://" ++ host) = Ok (Inet loc 389 false) /\
    uri_connect unquote (lit "ldaps" ++ lit "://" ++ host) = Ok (Inet loc 636 true).
  Proof.
    intros Hi Hu Hc. unfold uri_connect, parse_uri.
    rewrite !split_two; try assumption;
      try (intros H; vm_compute in H; repeat (destruct H as [H|H]; [discriminate H|]); exact H).
    cbn [bind]. rewrite Hu. unfold inet_target. rewrite (rsplit_none loc Hc).
    split; reflexivity.
  Qed.

  Theorem C39_explicit_port netloc host n :
    ~ infix (lit "://") netloc -> unquote netloc = host ++ lit ":" ++ decimal n ->
    uri_connect unquote (lit "ldap" ++ lit "://" ++ netloc) = Ok (Inet host n false) /\
    uri_connect unquote (lit "ldaps" ++ lit "://" ++ netloc) = Ok (Inet host n true).
  Proof.
    intros Hi Hu. unfold uri_connect, parse_uri.
    rewrite !split_two; try assumption;
      try (intros H; vm_compute in H; repeat (destruct H as [H|H]; [discriminate H|]); exact H).
    cbn [bind]. rewrite Hu. unfold inet_target. change (lit ":" ++ decimal n) with (ch ":" :: decimal n).
    rewrite (rsplit_some host (decimal n) (decimal_no_colon n)), py_int_decimal.
    split; reflexivity.
  Qed.

  (** ldapi: the decoded rest is the path of the socket; "/" asks for the well-known ones. *)
  Theorem C39_ldapi path :
    ~ infix (lit "://") path ->
    uri_connect unquote (lit "ldapi" ++ lit "://" ++ path) =
      Ok (if str_eqb (unquote path) (lit "/") then UnixSearch else UnixPath (unquote path)).
  Proof.
    intros Hi. unfold uri_connect, parse_uri.
    rewrite split_two; try assumption;
      try (intros H; vm_compute in H; repeat (destruct H as [H|H]; [discriminate H|]); exact H).
    cbn [bind].
    change (str_eqb (lit "ldapi") (lit "ldap")) with false.
    change (str_eqb (lit "ldapi") (lit "ldaps")) with false.
    change (str_eqb (lit "ldapi") (lit "ldapi")) with true. cbv iota.
    destruct (str_eqb (unquote path) (lit "/")); reflexivity.
  Qed.

  (** A bare name means ldap, a bare absolute path ldapi; exactly as if spelled out. *)
  Theorem C39_bare s :
    ~ infix (lit "://") s -> unquote s <> [] ->
    uri_connect unquote s =
      uri_connect unquote (match unquote s with
                           | c :: _ => if N.eqb c (ch "/") then lit "ldapi" ++ lit "://" ++ s
                                       else lit "ldap" ++ lit "://" ++ s
                           | [] => s end).
  Proof.
    intros Hi Hn. unfold uri_connect at 1, parse_uri at 1.
    rewrite py_split_none; [|discriminate|assumption].
    destruct (unquote s) as [|c u] eqn:Eu; [contradiction|].
    destruct (N.eqb c (ch "/")); unfold uri_connect, parse_uri;
      (rewrite split_two; [| intros H; vm_compute in H; repeat (destruct H as [H|H]; [discriminate H|]); exact H|assumption]);
      cbn [bind]; rewrite Eu; reflexivity.
  Qed.

  (** Any other scheme, and any URI with more than one "://", is an LDAPError. *)
  Theorem C39_unsupported scheme rest :
    ~ In (ch ":") scheme -> ~ infix (lit "://") rest ->
    scheme <> lit "ldap" -> scheme <> lit "ldaps" -> scheme <> lit "ldapi" ->
    uri_connect unquote (scheme ++ lit "://" ++ rest) = Raise LDAPError.
  Proof.
    intros Hs Hr H1 H2 H3. unfold uri_connect, parse_uri. rewrite split_two by assumption. cbn [bind].
    apply str_eqb_neq in H1, H2, H3. now rewrite H1, H2, H3.
  Qed.

  Theorem C39_two_separators a b c :
    ~ In (ch ":") a -> ~ In (ch ":") b ->
    uri_connect unquote (a ++ lit "://" ++ b ++ lit "://" ++ c) = Raise LDAPError.
  Proof.
    intros Ha Hb. unfold uri_connect, parse_uri. rewrite sep_shape.
    rewrite py_split_first, py_split_first by assumption.
    destruct (py_split _ c) eqn:E; [exfalso; eapply py_split_nonempty; exact E|reflexivity].
  Qed.

  (** The address the socket reports about itself ("uri") leads to the same place, provided
      percent decoding leaves the already decoded part alone. *)
  Theorem C39_reported_uri_is_equivalent s scheme netloc :
    parse_uri unquote s = Ok (scheme, netloc) -> ~ In (ch ":") scheme ->
    ~ infix (lit "://") netloc -> unquote netloc = netloc ->
    parse_uri unquote (sock_uri (scheme, netloc)) = Ok (scheme, netloc) /\
    uri_connect unquote (sock_uri (scheme, netloc)) = uri_connect unquote s.
  Proof.
    intros Hp Hs Hi Hu.
    assert (E : parse_uri unquote (sock_uri (scheme, netloc)) = Ok (scheme, netloc)).
    { unfold parse_uri, sock_uri. cbn [fst snd]. rewrite split_two by assumption. now rewrite Hu. }
    split; [exact E|]. unfold uri_connect. now rewrite E, Hp.
  Qed.

  (** Not every string gives a documented outcome. *)
  Theorem C39_refuted_empty : unquote [] = [] -> uri_connect unquote [] = Raise IndexError.
  Proof. intros H. unfold uri_connect, parse_uri. change (py_split (lit "://") []) with [@nil N]. cbv iota. now rewrite H. Qed.
End C39.

(** IPv6 literals without a port are cut at their last colon; a trailing slash stays in the
    port or the host; scheme names are case-sensitive. *)
Theorem C39_refuted_ipv6_slash_case :
  uri_connect (fun s => s) (lit "ldap://[::1]") = Raise ValueError /\
  uri_connect (fun s => s) (lit "ldap://::1") = Ok (Inet (lit ":") 1 false) /\
  uri_connect (fun s => s) (lit "ldap://h:389/") = Raise ValueError /\
  uri_connect (fun s => s) (lit "ldap://h/") = Ok (Inet (lit "h/") 389 false) /\
  uri_connect (fun s => s) (lit "LDAP://h") = Raise LDAPError.
Proof. vm_compute. repeat split; reflexivity. Qed.

Example C39_nonvacuous :
  uri_connect (fun s => s) (lit "ldaps://h.example.org:1636") = Ok (Inet (lit "h.example.org") 1636 true) /\
  uri_connect (fun s => s) (lit "h") = Ok (Inet (lit "h") 389 false) /\
  uri_connect (fun s => s) (lit "/var/run/ldapi") = Ok (UnixPath (lit "/var/run/ldapi")) /\
  uri_connect (fun s => s) (lit "ldapi:///") = Ok UnixSearch /\
  decimal 1636 = lit "1636" /\ ~ infix (lit "://") (lit "h:1636").
Proof.
  repeat split; try (vm_compute; reflexivity).
  intros [a [b E]]. assert (E' : py_split (lit "://") (lit "h:1636") = [lit "h:1636"]) by reflexivity.
  assert (H : In (ch "/") (lit "h:1636")). { rewrite E. rewrite !in_app_iff. right. left. vm_compute. auto. }
  vm_compute in H. repeat (destruct H as [H|H]; [discriminate H|]). exact H.
Qed.

Print Assumptions C38_accepts_exactly_partial.
Print Assumptions C38_never_refuses_a_proper_certificate.
Print Assumptions C38_strict_without_wildcards_partial.
Print Assumptions C38_tls_verified.
Print Assumptions C38_refuted_wildcard_spans_labels.
Print Assumptions C38_refuted_other_name_types.
Print Assumptions C39_default_port.
Print Assumptions C39_explicit_port.
Print Assumptions C39_ldapi.
Print Assumptions C39_bare.
Print Assumptions C39_unsupported.
Print Assumptions C39_two_separators.
Print Assumptions C39_reported_uri_is_equivalent.
Print Assumptions C39_refuted_empty.
Print Assumptions C39_refuted_ipv6_slash_case.
