(** * C74, C75: TLS, extended requests *)
From Verif Require Import PyBase Model_Uri Spec_Uri Model_Conn Model_Controls Spec_Controls Proofs_Controls Props_Controls Model_Search Model_Request Model_Tls Spec_Tls Proofs_Tls.

(** The controls are those registered (C25 shows that they are always like this). *)
Definition controls_registered (k : tconn) : Prop := coherent reserved_kwds (c_reg k).
Lemma require_success_free k : controls_registered k -> dget (r_kw (c_reg k)) (lit "require_success") = None.
Proof.
  intros (_ & _ & _ & H & _). destruct (dget (r_kw (c_reg k)) (lit "require_success")) as [c|] eqn:E; [|reflexivity].
  exfalso. destruct (H _ _ E) as (_ & _ & Hr & _). apply Hr. vm_compute. tauto.
Qed.

(** ** C74 *)
Section C74.
  Context (chain : trust -> cert -> Prop) (encode : str -> res (list N)) (host : str).

  Lemma wanted f p d tr : (tr = Ctx true (if filled f || filled p || filled d then Some (f, p, d) else None) \/ ((filled p || filled d)%bool = false /\ tr = Legacy f)) -> as_wanted f p d tr.
  Proof.
    unfold as_wanted. rewrite <- !filled3. intros [->|[H ->]].
    - destruct (filled f || filled p || filled d)%bool; [left|right; left]; split; auto; discriminate.
    - right. right. split; [|reflexivity]. cbn [filled orb]. rewrite H. discriminate.
  Qed.

  (** Installing TLS with verification (also for ldaps URIs) succeeds only if the ssl module accepted the certificate for
      the CAs wanted and the certificate names the host. *)
  Theorem C74_verified s t f p d t' : honest chain s -> sock_start_tls s host t true f p d = (t', Ok tt) ->
    exists ly, ts_layers t' = ly :: ts_layers t /\ ts_started t' = true /\ certified chain host ly /\ as_wanted f p d (ly_trust ly).
  Proof.
    intros Hh H. apply sock_start_tls_ok in H as (ly & _ & H1 & H2 & _ & H3 & H4 & H5 & H6). exists ly. split; [exact H1|]. split; [exact H2|].
    split; [|apply wanted, H5]. split; [exact H3|]. split; [exact (Hh _ _ H4)|]. exact (verify_peer_host _ _ H6).
  Qed.

  Lemma starttls_request k t t1 r : controls_registered k -> send_extended_request encode k t oid_starttls XNone [(lit "require_success", Plain (lit "True"))] = (t1, r) ->
    (t1 = t /\ exists x, r = Raise x /\ (c_supports k oid_starttls = Raise x \/ (c_supports k oid_starttls = Ok false /\ x = LDAPSupportError) \/ (c_supports k oid_starttls = Ok true /\ ts_dead t = true /\ x = os_error))) \/
    (r = Ok true /\ c_supports k oid_starttls = Ok true /\ ts_dead t = false /\ t1 = mk_ts (ts_layers t) (ts_started t) false (ts_sent t ++ [(ts_layers t, MExt oid_starttls None [])])).
  Proof.
    intros Hk E. pose proof (ext_cases encode k t oid_starttls XNone [(lit "require_success", Plain (lit "True"))]) as X. rewrite E in X.
    assert (P : process_kwds (c_reg k) (lit "ext") [(lit "require_success", Plain (lit "True"))] (c_controls k) (c_crit k) false = Ok ([], [(lit "require_success", Plain (lit "True"))])).
    { unfold process_kwds. cbn [process_loop]. rewrite (require_success_free _ Hk). reflexivity. }
    rewrite P in X. destruct X as [(-> & x & -> & X)|(b & cs & rest & X1 & X2 & X3 & [= <- <-] & -> & X5)].
    - left. split; [reflexivity|]. exists x. split; [reflexivity|]. destruct X as [X|[X|(X1 & [(X2 & _)|[(s' & X2 & _)|(_ & _ & [X2|(_ & X2)])]])]]; auto; discriminate.
    - right. cbn [value_sent] in X2. subst b. destruct X5 as [[_ ->]|[X5 _]]; [auto|discriminate].
  Qed.

  (** start_tls that returns: TLS was not on, the request went out alone, without TLS, and the server's first message for it
      was not a refusal; then the layer was installed with the arguments given, or else the connection's settings, and the
      root DSE was read again through it. *)
  Theorem C74_start_tls s k t v f p d msgs refresh t' : controls_registered k ->
    ldap_start_tls encode s host k t v f p d msgs refresh = (t', Some (Ok tt)) ->
    exists ly m rest, ts_started t = false /\ c_supports k rfc4511_starttls = Ok true /\
      msgs = m :: rest /\ (exists x, m = XFinal rc_success x \/ m = XIntermediate x) /\
      ts_layers t' = ly :: ts_layers t /\ ts_started t' = true /\ ly_verify ly = given_or v (c_verify k) /\
      sent_since t t' [(ts_layers t, MExt rfc4511_starttls None []); (ly :: ts_layers t, MOther 0)] /\
      (given_or v (c_verify k) = true -> honest chain s -> certified chain host ly /\
         as_wanted (arg_or f (c_file k)) (arg_or p (c_path k)) (arg_or d (c_data k)) (ly_trust ly)).
  Proof.
    change rfc4511_starttls with oid_starttls. change rfc4532_whoami with oid_whoami.
    intros Hk. unfold ldap_start_tls. destruct (ts_started t) eqn:S0; [discriminate|].
    destruct (send_extended_request encode k t oid_starttls XNone _) as [t1 r1] eqn:E.
    apply (starttls_request _ _ _ _ Hk) in E as [(_ & x & -> & _)|(-> & Hs & Hd & ->)]; [discriminate|].
    destruct msgs as [|m rest]; [discriminate|]. cbn [recv_response].
    destruct (handle_xmsg true m) as [[[x fin]|x] dn] eqn:Em; [|discriminate].
    set (t1 := mk_ts _ _ _ _). destruct (sock_start_tls s host t1 _ _ _ _) as [t2 r2] eqn:Es. destruct r2 as [[]|x2]; [|discriminate].
    change (match v with Some b => b | None => c_verify k end) with (given_or v (c_verify k)) in Es.
    pose proof Es as Es'. apply sock_start_tls_ok in Es as (ly & _ & H1 & H2 & H3 & H4 & H5 & H6 & H7).
    destruct (tsend_spec t2 (MOther 0)) as [[_ ->]|[_ ->]]; [discriminate|]. intros [= <- ->].
    exists ly, m, rest. split; [reflexivity|]. split; [exact Hs|]. split; [reflexivity|]. split.
    { destruct m as [w|code w|]; cbn [handle_xmsg andb] in Em; [eauto| |discriminate]. destruct (N.eqb_spec code rc_success) as [->|N]; [eauto|discriminate]. }
    cbn [ts_layers ts_started ts_sent]. split; [rewrite H1; reflexivity|]. split; [exact H2|]. split; [exact H4|].
    split; [unfold sent_since; cbn [ts_sent]; rewrite H1, H3; unfold t1; cbn [ts_sent ts_layers]; rewrite <- app_assoc; reflexivity|].
    intros Hv Hh. rewrite Hv in *. split; [|apply wanted, H6]. split; [exact H4|]. split; [exact (Hh _ _ H5)|]. exact (verify_peer_host _ _ H7).
  Qed.
  (** A server that does not list StartTLS is not asked; a refusal leaves everything but the request as it was. *)
  Theorem C74_refused s k t v f p d msgs refresh : controls_registered k -> ts_started t = false ->
    (c_supports k rfc4511_starttls = Ok false -> ldap_start_tls encode s host k t v f p d msgs refresh = (t, Some (Raise LDAPSupportError))) /\
    (forall code x rest, c_supports k rfc4511_starttls = Ok true -> ts_dead t = false -> msgs = XFinal code x :: rest -> code <> rc_success ->
       exists t', ldap_start_tls encode s host k t v f p d msgs refresh = (t', Some (Raise LDAPError)) /\
         ts_layers t' = ts_layers t /\ ts_started t' = false /\ sent_since t t' [(ts_layers t, MExt rfc4511_starttls None [])]).
  Proof.
    change rfc4511_starttls with oid_starttls. change rfc4532_whoami with oid_whoami.
    intros Hk S0. unfold ldap_start_tls. rewrite S0. destruct (send_extended_request encode k t oid_starttls XNone _) as [t1 r1] eqn:E.
    apply (starttls_request _ _ _ _ Hk) in E as [(-> & x & -> & E)|(-> & Hs & Hd & ->)]; split.
    - intros Hf. rewrite Hf in E. destruct E as [E|[[_ ->]|[E _]]]; [discriminate|reflexivity|discriminate].
    - intros code y rest Hs Hd. rewrite Hs, Hd in E. destruct E as [E|[[E _]|[_ [E _]]]]; discriminate.
    - congruence.
    - intros code y rest _ _ -> Hc. cbn [recv_response handle_xmsg andb]. apply N.eqb_neq in Hc. rewrite Hc. cbn [negb]. eexists. split; [reflexivity|].
      cbn [ts_layers ts_started]. split; [reflexivity|]. split; [exact S0|reflexivity].
  Qed.
  (** TLS is never installed twice. *)
  Theorem C74_once s k t v f p d msgs refresh b : ts_started t = true ->
    ldap_start_tls encode s host k t v f p d msgs refresh = (t, Some (Raise LDAPError)) /\ sock_start_tls s host t b f p d = (t, Raise LDAPError).
  Proof. intros S0. unfold ldap_start_tls, sock_start_tls. rewrite S0. auto. Qed.

  (** Where the ssl module has no contexts only a CA file can be named - anything else raises RuntimeError and leaves the
      connection as it was - and the certificate is checked against that file. *)
  Theorem C74_without_contexts s t v f p d : ts_started t = false -> s_context s = false ->
    (named_cas None p d -> sock_start_tls s host t v f p d = (t, Raise RuntimeError)) /\
    (~ named_cas None p d -> forall c, s_wrap s v (Legacy f) = Ok c -> verify_peer v host (ct_subject c) (ct_sans c) = Ok tt ->
       sock_start_tls s host t v f p d = (mk_ts (mk_layer v (Legacy f) c :: ts_layers t) true (ts_dead t) (ts_sent t), Ok tt)).
  Proof.
    intros S0 C. unfold sock_start_tls, wrap_context. rewrite S0, C. cbn [is_attribute_error]. unfold wrap_legacy. split.
    - intros (x & c & [H|[H|H]]); [discriminate| |]; subst; cbn [filled]; rewrite ?orb_true_r; reflexivity.
    - intros N c W V. assert (F : (filled p || filled d)%bool = false).
      { destruct p as [[|a x]|], d as [[|b y]|]; try reflexivity; exfalso; apply N; unfold named_cas; eauto 10. }
      rewrite F. unfold wrap_layer. rewrite W, V. reflexivity.
  Qed.

  (** Once TLS is on, every message of every connection sharing the socket goes through exactly these layers, whatever
      is called. *)
  Theorem C74_everything_protected t ops : ts_started t = true -> let t' := trun encode host t ops in
    ts_started t' = true /\ ts_layers t' = ts_layers t /\ exists more, sent_since t t' more /\ forall ls m, In (ls, m) more -> ls = ts_layers t.
  Proof.
    intros S0. destruct (trun_keeps encode host ops t S0) as (H1 & H2 & more & H3 & H4 & _). split; [congruence|]. split; [exact H1|]. exists more. split; [exact H3|].
    intros ls m Hi. rewrite Forall_forall in H4. exact (H4 _ Hi).
  Qed.
  (** So after start_tls with verification nothing is sent to anyone but a holder of a certificate for the host. *)
  Theorem C74_verified_from_then_on s k t v f p d msgs refresh t1 ops : controls_registered k -> honest chain s -> given_or v (c_verify k) = true ->
    ldap_start_tls encode s host k t v f p d msgs refresh = (t1, Some (Ok tt)) ->
    exists more, sent_since t1 (trun encode host t1 ops) more /\
      forall ls m, In (ls, m) more -> exists ly rest, ls = ly :: rest /\ certified chain host ly.
  Proof.
    intros Hk Hh Hv H. destruct (C74_start_tls _ _ _ _ _ _ _ _ _ _ Hk H) as (ly & m & rest & _ & _ & _ & _ & H1 & H2 & _ & _ & H3).
    destruct (H3 Hv Hh) as [Hc _]. destruct (C74_everything_protected t1 ops H2) as (_ & _ & more & M1 & M2). exists more. split; [exact M1|].
    intros ls m' Hi. rewrite (M2 _ _ Hi), H1. eauto.
  Qed.
  (** Where a failing handshake takes the connection down (Python 3), nothing is sent after it. *)
  Theorem C74_failed_handshake_partial s t v f p d ops : ts_started t = false -> s_context s = true -> s_detach s = true ->
    (v = true -> s_defaults s = Ok tt) -> (forall l, s_locations s l = Ok tt) -> (forall tr, exists x, s_wrap s v tr = Raise x) ->
    let '(t1, r) := sock_start_tls s host t v f p d in r <> Ok tt /\ sent_since t (trun encode host t1 ops) [].
  Proof.
    intros S0 C D E1 E2 W. pose proof (handshake_fails s host t v f p d S0 C D E1 E2 W) as H. pose proof (sock_start_tls_any s host t v f p d) as A.
    destruct (sock_start_tls s host t v f p d) as [t1 r]. destruct H as [H1 H2], A as (A & _). split; [exact H1|].
    destruct (trun_closed encode host ops t1 H2) as [_ E]. unfold sent_since. rewrite app_nil_r. congruence.
  Qed.
End C74.

(** ** what may happen after a failed start_tls *)
Definition ex_conn : tconn := mk_tconn true None None None (fun _ => Ok true) empty_registry [] false.
Definition ex_cert (cn : str) : cert := mk_cert [[(lit "commonName", cn)]] [].
(** The ssl module accepts the peer's certificate, which is for another host. *)
Definition ex_other_host : ssl_env := mk_ssl true (Ok tt) (fun _ => Ok tt) (fun _ _ => Ok (ex_cert (lit "evil.example"))) true.
(** start_tls raises, but the next bind request goes to that peer all the same, although verification is on. *)
Theorem C74_refuted_goes_on_after_wrong_host n : exists ly,
  ly_cert ly = ex_cert (lit "evil.example") /\
  let '(t1, r) := ldap_start_tls Ok ex_other_host (lit "ldap.example.org") ex_conn ts_fresh None None None None [XFinal rc_success []] (Ok tt) in
  r = Some (Raise LDAPConnectionError) /\ tsend t1 (MOther n) = (mk_ts (ts_layers t1) false false (ts_sent t1 ++ [([ly], MOther n)]), Ok tt).
Proof. eexists (mk_layer true (Ctx true None) (ex_cert (lit "evil.example"))). split; [reflexivity|]. vm_compute. split; reflexivity. Qed.
(** The CA file cannot be read: the server has already agreed to TLS, start_tls raises, and the next request goes out in
    clear text. *)
Definition ex_no_file : ssl_env := mk_ssl true (Ok tt) (fun _ => Raise os_error) (fun _ _ => Ok (ex_cert (lit "ldap.example.org"))) true.
Theorem C74_refuted_clear_text n :
  let '(t1, r) := ldap_start_tls Ok ex_no_file (lit "ldap.example.org") ex_conn ts_fresh None (Some (lit "missing.pem")) None None [XFinal rc_success []] (Ok tt) in
  r = Some (Raise os_error) /\ tsend t1 (MOther n) = (mk_ts [] false false (ts_sent t1 ++ [([], MOther n)]), Ok tt).
Proof. vm_compute. split; reflexivity. Qed.
(** An intermediate response is taken for the server's consent, whatever follows. *)
Definition ex_good : ssl_env := mk_ssl true (Ok tt) (fun _ => Ok tt) (fun _ _ => Ok (ex_cert (lit "ldap.example.org"))) true.
Theorem C74_refuted_intermediate : exists t1,
  ldap_start_tls Ok ex_good (lit "ldap.example.org") ex_conn ts_fresh None None None None [XIntermediate []; XFinal 2 []] (Ok tt) = (t1, Some (Ok tt)) /\ ts_started t1 = true.
Proof. eexists. vm_compute. split; reflexivity. Qed.

Lemma ex_registered : controls_registered ex_conn.
Proof. exact (C25_unambiguous reserved_kwds []). Qed.
Example C74_nonvacuous :
  controls_registered ex_conn /\ honest (fun _ c => c = ex_cert (lit "ldap.example.org")) ex_good /\
  let '(t1, r) := ldap_start_tls Ok ex_good (lit "ldap.example.org") ex_conn ts_fresh None (Some (lit "ca.pem")) None None [XFinal rc_success []] (Ok tt) in
  r = Some (Ok tt) /\ map (fun x => (List.length (fst x), snd x)) (ts_sent (trun Ok (lit "ldap.example.org") t1 [OpOther 5; OpStartTls ex_good ex_conn (Some false) None None None [] (Ok tt); OpOther 6])) =
    [(0, MExt rfc4511_starttls None []); (1, MOther 0); (1, MOther 5); (1, MOther 6)]%nat.
Proof.
  split; [apply ex_registered|]. split; [intros tr c [= <-]; reflexivity|]. vm_compute. split; reflexivity.
Qed.

(** ** C75 *)
Section C75.
  Context (encode : str -> res (list N)).

  (** An extended request that is accepted sends one request with the OID, the value and the controls asked for ... *)
  Theorem C75_one_request k t oid v kw t' rs : NoDup (map fst kw) -> send_extended_request encode k t oid v kw = (t', Ok rs) ->
    exists b cs, value_sent encode v b /\ sent_since t t' [(ts_layers t, MExt oid b cs)] /\ c_supports k oid = Ok true /\
      Forall2 (wire_for (c_reg k) (c_crit k)) (controls_of (c_reg k) kw) cs /\
      Forall (admissible (c_reg k) (lit "ext") (c_controls k) (c_crit k)) kw /\
      (forall x y, In (x, y) kw -> known_keyword (c_reg k) x).
  Proof.
    intros Hn E. pose proof (ext_cases encode k t oid v kw) as X. rewrite E in X.
    destruct X as [(_ & x & X & _)|(b & cs & rest & X1 & X2 & X3 & X4 & -> & X5)]; [discriminate|]. exists b, cs. split; [exact X2|]. split; [reflexivity|]. split; [exact X1|].
    destruct (C24_controls_exactly (c_reg k) (lit "ext") (c_controls k) (c_crit k) false kw Hn) as [C _]. destruct (C _ _ X4) as (C1 & C2 & C3 & _).
    split; [exact C2|]. split; [exact C1|]. destruct X5 as [[Ha _]|[_ X5]]; [|discriminate]. intros x y Hi. unfold known_keyword, is_control.
    destruct (dget (r_kw (c_reg k)) x) as [c|] eqn:Ex; [left; eauto|right]. subst rest. unfold all_in in Ha. rewrite forallb_forall in Ha.
    assert (Hr : In (x, y) (others_of (c_reg k) kw)) by (apply filter_In; split; [exact Hi|]; cbn [fst]; unfold dmem; now rewrite Ex).
    specialize (Ha _ Hr). cbn [fst] in Ha. apply smem_In in Ha as [Ha|[]]. now symmetry.
  Qed.
  (** ... and one that raises has sent nothing, unless a keyword is neither a control nor require_success. *)
  Theorem C75_or_nothing_partial k t oid v kw t' x : NoDup (map fst kw) -> (forall a y, In (a, y) kw -> known_keyword (c_reg k) a) ->
    send_extended_request encode k t oid v kw = (t', Raise x) -> t' = t.
  Proof.
    intros Hn Hk E. pose proof (ext_cases encode k t oid v kw) as X. rewrite E in X.
    destruct X as [(-> & _)|(b & cs & rest & X1 & X2 & X3 & X4 & -> & X5)]; [reflexivity|]. exfalso. destruct X5 as [[_ X5]|[Ha _]]; [discriminate|].
    destruct (C24_controls_exactly (c_reg k) (lit "ext") (c_controls k) (c_crit k) false kw Hn) as [C _]. destruct (C _ _ X4) as (_ & _ & -> & _).
    assert (Ht : all_in (others_of (c_reg k) kw) [lit "require_success"] = true); [|congruence].
    unfold all_in. apply forallb_forall. intros [a y] Hi. cbn [fst]. apply filter_In in Hi as [Hi Hd]. cbn [fst] in Hd. apply smem_In. left.
    destruct (Hk a y Hi) as [[c Hc]|Ha']; [unfold dmem in Hd; rewrite Hc in Hd; discriminate|now symmetry].
  Qed.
  (** A request is accepted exactly if the server lists the OID, the value is text (that can be encoded), bytes or nothing, the
      controls are admissible, the keywords known and the connection open; the first two are refused with the
      documented errors. *)
  Theorem C75_accepted_iff k t oid v kw : NoDup (map fst kw) ->
    ((exists t' rs, send_extended_request encode k t oid v kw = (t', Ok rs)) <->
     (c_supports k oid = Ok true /\ (exists b, value_sent encode v b) /\ Forall (admissible (c_reg k) (lit "ext") (c_controls k) (c_crit k)) kw /\
      (forall a y, In (a, y) kw -> known_keyword (c_reg k) a) /\ ts_dead t = false)) /\
    (c_supports k oid = Ok false -> send_extended_request encode k t oid v kw = (t, Raise LDAPSupportError)) /\
    (c_supports k oid = Ok true -> v = XOtherVal -> send_extended_request encode k t oid v kw = (t, Raise TypeError)).
  Proof.
    intros Hn. split; [split|split].
    - intros (t' & rs & E). destruct (C75_one_request _ _ _ _ _ _ _ Hn E) as (b & cs & H1 & H2 & H3 & H4 & H5 & H6). split; [exact H3|]. split; [eauto|]. split; [exact H5|]. split; [exact H6|].
      pose proof (ext_cases encode k t oid v kw) as X. rewrite E in X. destruct X as [(_ & x & X & _)|(b' & cs' & rest & _ & _ & X & _)]; [discriminate|exact X].
    - intros (H1 & [b Hb] & H3 & H4 & H5). pose proof (ext_cases encode k t oid v kw) as X. destruct (send_extended_request encode k t oid v kw) as [t' [rs|x]] eqn:E; [eauto|]. exfalso.
      pose proof (C75_or_nothing_partial _ _ _ _ _ _ _ Hn H4 E) as ->.
      destruct (C24_controls_exactly (c_reg k) (lit "ext") (c_controls k) (c_crit k) false kw Hn) as [_ C]. destruct (C H3) as [cs Hcs]; [discriminate|].
      destruct X as [(_ & y & [= <-] & X)|(b' & cs' & rest & _ & _ & _ & _ & X & _)].
      + rewrite H1, H5, Hcs in X. destruct X as [X|[[X _]|(_ & [(X & _)|[(s & X & X')|(_ & _ & [X|(_ & X & _)])]])]]; try discriminate.
        * subst v. exact Hb.
        * subst v. destruct Hb as (z & Hz & _). congruence.
      + apply (f_equal ts_sent) in X. cbn [ts_sent] in X. apply (f_equal (@List.length _)) in X. rewrite app_length in X. cbn [List.length] in X. lia.
    - intros H. unfold send_extended_request. now rewrite H.
    - intros H ->. unfold send_extended_request. now rewrite H.
  Qed.
  (** who_am_i returns what the server's final response says, and raises LDAPError if that is a refusal. *)
  Theorem C75_who_am_i_twice k t kw msgs : In (lit "require_success") (map fst kw) ->
    who_am_i encode k t kw msgs = (t, Some (Raise TypeError)).
  Proof.
    intros H. unfold who_am_i. assert (E : dmem kw (lit "require_success") = true); [|now rewrite E].
    unfold dmem. destruct (dget kw (lit "require_success")) eqn:E; [reflexivity|]. exfalso. apply dget_None in E. exact (E H).
  Qed.
  Theorem C75_who_am_i_partial k t kw code v rest : controls_registered k -> NoDup (map fst kw) -> ~ In (lit "require_success") (map fst kw) ->
    (exists t' rs, send_extended_request encode k t rfc4532_whoami XNone kw = (t', Ok rs)) ->
    exists t' cs, who_am_i encode k t kw (XFinal code v :: rest) = (t', Some (if N.eqb code rc_success then Ok v else Raise LDAPError)) /\
      sent_since t t' [(ts_layers t, MExt rfc4532_whoami None cs)] /\ Forall2 (wire_for (c_reg k) (c_crit k)) (controls_of (c_reg k) kw) cs.
  Proof.
    change rfc4511_starttls with oid_starttls. change rfc4532_whoami with oid_whoami.
    intros Hk Hn Hq H. assert (Hm : dmem kw (lit "require_success") = false).
    { unfold dmem. destruct (dget kw (lit "require_success")) eqn:E; [|reflexivity]. exfalso. apply Hq. apply dget_In in E. apply in_map_iff. exists (lit "require_success", k0). auto. }
    unfold who_am_i. rewrite Hm. set (kw' := (lit "require_success", Plain (lit "True")) :: kw).
    assert (Hn' : NoDup (map fst kw')) by (constructor; assumption).
    apply (C75_accepted_iff k t oid_whoami XNone kw Hn) in H as (H1 & H2 & H3 & H4 & H5).
    assert (A : exists t' rs, send_extended_request encode k t oid_whoami XNone kw' = (t', Ok rs)).
    { apply (C75_accepted_iff k t oid_whoami XNone kw' Hn'). split; [exact H1|]. split; [exact H2|]. split; [|split; [|exact H5]].
      - constructor; [|exact H3]. intros c Hc. cbn [fst] in Hc. rewrite (require_success_free _ Hk) in Hc. discriminate.
      - intros a y [Ha|Ha]; [injection Ha as <- _; now right|exact (H4 a y Ha)]. }
    destruct A as (t' & rs & E). pose proof E as E'. apply (C75_one_request _ _ _ _ _ _ _ Hn') in E as (b & cs & B1 & B2 & B3 & B4 & B5 & B6). cbn [value_sent] in B1. subst b.
    pose proof (ext_cases encode k t oid_whoami XNone kw') as X. rewrite E' in X.
    destruct X as [(_ & x & X & _)|(b' & cs' & rst & _ & _ & _ & X4 & _ & X5)]; [discriminate|].
    destruct (C24_controls_exactly (c_reg k) (lit "ext") (c_controls k) (c_crit k) false kw' Hn') as [C _]. destruct (C _ _ X4) as (_ & _ & Hr & _).
    assert (Eo : others_of (c_reg k) kw' = (lit "require_success", Plain (lit "True")) :: others_of (c_reg k) kw).
    { unfold others_of, kw'. cbn [List.filter fst]. unfold dmem at 1. rewrite (require_success_free _ Hk). reflexivity. }
    assert (Ers : rs = true).
    { destruct X5 as [[_ X5]|[_ X5]]; [|discriminate]. injection X5 as ->. rewrite Hr, Eo. reflexivity. }
    subst rs. rewrite E'. exists t', cs. split; [|split; [exact B2|]].
    - cbn [recv_response handle_xmsg andb]. destruct (N.eqb code rc_success); reflexivity.
    - assert (Ec : controls_of (c_reg k) kw' = controls_of (c_reg k) kw); [|rewrite <- Ec; exact B4].
      unfold controls_of, kw'. cbn [List.filter fst]. unfold dmem at 1. rewrite (require_success_free _ Hk). reflexivity.
  Qed.
End C75.
(** A misspelt keyword is an error after the request was sent. *)
Theorem C75_refuted_sent_all_the_same oid : exists t1,
  send_extended_request Ok ex_conn ts_fresh oid XNone [(lit "crticial", Plain [])] = (t1, Raise TypeError) /\ ts_sent t1 = [([], MExt oid None [])].
Proof. eexists. split; [cbv -[lit]; vm_compute; reflexivity|reflexivity]. Qed.
(** who_am_i takes the first intermediate response for the answer. *)
Theorem C75_refuted_intermediate v w : snd (who_am_i Ok ex_conn ts_fresh [] [XIntermediate v; XFinal rc_success w]) = Some (Ok v).
Proof. vm_compute. reflexivity. Qed.
Example C75_nonvacuous :
  (exists t1, send_extended_request Ok ex_conn ts_fresh (lit "1.2.3") (XText (lit "abc")) [(lit "require_success", Plain (lit "x"))] = (t1, Ok true) /\ ts_sent t1 = [([], MExt (lit "1.2.3") (Some (lit "abc")) [])]) /\
  snd (who_am_i Ok ex_conn ts_fresh [] [XFinal rc_success (lit "dn:cn=x")]) = Some (Ok (lit "dn:cn=x")) /\
  snd (who_am_i Ok ex_conn ts_fresh [] [XFinal 2 []]) = Some (Raise LDAPError).
Proof. split; [eexists; vm_compute; split; reflexivity|]. split; vm_compute; reflexivity. Qed.

Print Assumptions C74_verified.
Print Assumptions C74_start_tls.
Print Assumptions C74_refused.
Print Assumptions C74_once.
Print Assumptions C74_everything_protected.
Print Assumptions C74_verified_from_then_on.
Print Assumptions C74_failed_handshake_partial.
Print Assumptions C74_refuted_goes_on_after_wrong_host.
Print Assumptions C74_refuted_clear_text.
Print Assumptions C74_refuted_intermediate.
Print Assumptions C75_one_request.
Print Assumptions C75_or_nothing_partial.
Print Assumptions C75_accepted_iff.
Print Assumptions C75_who_am_i_partial.
Print Assumptions C75_refuted_sent_all_the_same.
Print Assumptions C75_refuted_intermediate.
Print Assumptions C74_without_contexts.
Print Assumptions C75_who_am_i_twice.
