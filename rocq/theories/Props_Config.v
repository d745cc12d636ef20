(** * Properties of configuration and of new connections: C43, C62, C63, C64, C65 *)
From Verif Require Import PyBase Model_Uri Proofs_Uri Model_Config Spec_Config Proofs_Config Proofs_Config2 Proofs_Config3.

(** ** C43: global configuration *)

(** Normalising a normalised key changes nothing. *)
Theorem C43_normalize_idempotent upper k : upper_ok upper ->
  normalize upper (normalize upper k) = normalize upper k.
Proof.
  intros (U1 & U2 & U3). unfold normalize at 2 3.
  destruct (starts_with (lit "DEFAULT_") (upper k)) eqn:E.
  - unfold normalize. now rewrite U1, E.
  - unfold normalize. rewrite U2, U3, U1.
    assert (S : starts_with (lit "DEFAULT_") (lit "DEFAULT_" ++ upper k) = true)
      by (apply starts_with_spec; now exists (upper k)).
    now rewrite S.
Qed.

(** A key selects a parameter exactly when it spells its name, in any case, with or without
    the prefix; no key selects two. *)
Theorem C43_key_meaning upper k n : In n global_names ->
  (normalize upper k = n <-> means upper k n).
Proof. apply normalize_means. Qed.

(** set_global_config stores, for every parameter, the last value the dict gives for it and
    leaves every other parameter alone, never creates a parameter, and raises (KeyError) exactly when
    some key is not a parameter — in which case the other keys have still been applied. *)
Theorem C43_set_global upper defs d defs' r :
  defaults_ok defs -> syntaxes_ok upper d ->
  set_global_config upper defs (Some d) = (defs', r) ->
  defaults_ok defs' /\
  (forall n v v', In n global_names -> last_word upper d n v -> stored upper n v v' -> dget defs' n = Some v') /\
  (forall n, In n global_names -> silent upper d n -> dget defs' n = dget defs n) /\
  ((forall k v, In (k, v) d -> known_key upper k) -> r = Ok tt) /\
  (forall k v, In (k, v) d -> ~ known_key upper k -> r = Raise KeyError).
Proof.
  intros K V H. destruct (set_global_go_spec upper d _ _ _ _ K V H) as (A & B & C & D).
  split; [exact A|]. split; [exact B|]. split; [auto|]. cbn in D. split.
  - intros Hk. rewrite D. assert (E : forallb (fun kv => dmem defs (normalize upper (fst kv))) d = true); [|now rewrite E].
    apply forallb_forall. intros [k v] I. cbn [fst]. apply (defaults_mem defs); [exact K|].
    apply normalize_known, (Hk k v I).
  - intros k v I Nk. rewrite D. destruct (forallb _ d) eqn:E; [|reflexivity].
    rewrite forallb_forall in E. apply E in I. cbn [fst] in I. apply (defaults_mem defs) in I; [|exact K].
    now apply normalize_known in I.
Qed.

(** An unknown filter syntax stops the loop: AttributeError, what precedes it has been
    applied, what follows has not. *)
Theorem C43_invalid_syntax upper defs pre k v post :
  defaults_ok defs -> syntaxes_ok upper pre -> means upper k (lit "DEFAULT_FILTER_SYNTAX") ->
  (forall v', ~ stored upper (lit "DEFAULT_FILTER_SYNTAX") v v') ->
  set_global_config upper defs (Some (pre ++ (k, v) :: post)) =
    (fst (set_global_config upper defs (Some pre)), Raise AttributeError).
Proof. intros. now apply set_global_go_invalid. Qed.

Theorem C43_missing_section upper defs : set_global_config upper defs None = (defs, Raise KeyError).
Proof. reflexivity. Qed.

Example C43_nonvacuous :
  let d := [(lit "ssl_ca_path", VStr (lit "/etc/ldap")); (lit "Default_Filter_Syntax", VStr (lit "simple"));
            (lit "colour", VInt 3); (lit "SSL_CA_PATH", VStr (lit "/srv"))] in
  upper_ok ascii_upper /\ defaults_ok initial_defaults /\ syntaxes_ok ascii_upper d /\
  exists defs', set_global_config ascii_upper initial_defaults (Some d) = (defs', Raise KeyError) /\
    dget defs' (lit "DEFAULT_SSL_CA_PATH") = Some (VStr (lit "/srv")) /\
    dget defs' (lit "DEFAULT_FILTER_SYNTAX") = Some (VSyntax Simple) /\
    dget defs' (lit "DEFAULT_COLOUR") = None.
Proof.
  cbv zeta. split; [apply ascii_upper_ok|]. split; [apply initial_defaults_ok|]. split.
  - intros k v I M. cbn [In] in I. destruct I as [I|[I|[I|[I|[]]]]]; inv I;
      try (exfalso; destruct M as [M|M]; discriminate M).
    exists (VSyntax Simple). right. split; [reflexivity|]. exists (lit "simple"). auto.
  - eexists. split; [reflexivity|]. auto.
Qed.

(** ** C62: loading a configuration *)

(** The sections are carried out in the order global, extensions, connection; a failing
    section stops everything after it; without a connection section nothing is sent. *)
Theorem C62_global_first upper lower w e cf r w' cf' g :
  load_config_dict upper lower w e cf = (r, w', cf') -> cf_global cf = Some g ->
  cw_defs w' = fst (set_global_config upper (cw_defs w) (Some g)) /\
  forall x, snd (set_global_config upper (cw_defs w) (Some g)) = Raise x ->
    r = Raise x /\ cw_trace w' = cw_trace w /\ cf' = cf.
Proof.
  unfold load_config_dict. intros H Eg. rewrite Eg in H.
  destruct (set_global_config upper (cw_defs w) (Some g)) as [defs q] eqn:S. cbn [fst snd].
  destruct q as [[]|x]; [|inv H; cbn; split; [reflexivity|]; intros y Hy; inv Hy; auto].
  split; [|discriminate].
  destruct (match cf_ext cf with Some l => activate_extensions l | None => Ok tt end) as [u|x]; [|inv H; reflexivity].
  destruct (cf_conn cf) as [d|]; [|inv H; reflexivity].
  destruct (create_connection upper lower (set_defs w defs) e d (cf_objs cf)) as [[r1 w1] [d1 o1]] eqn:C.
  inv H. apply cc_spec in C as (_ & C).
  assert (L : forall kw q w1, ldap_init (set_defs w defs) e kw = (q, w1) -> cw_defs w1 = defs).
  { intros kw q w1 L. apply ldap_init_spec in L as (L & _). exact L. }
  destruct C as [(_ & _ & _ & ->)|(_ & [(x & _ & -> & _)|(kw & _ & _ & C)])]; try reflexivity.
  destruct C as [(x & C & _)|(c & w1 & Li & C)]; [eapply L, C|]. apply L in Li.
  assert (T : forall q w2, do_tls w1 e (conf d (lit "start_tls")) = (q, w2) -> cw_defs w2 = defs).
  { intros q w2 T. apply do_tls_spec in T as [(_ & _ & ->)|(_ & _ & _ & E)]; congruence. }
  destruct C as [(x & w2 & C & _ & ->)|(w2 & C & D)]; [eapply T, C|]. apply T in C.
  assert (S1 : forall q w3, do_simple w2 e (conf d (lit "simple_bind")) = (q, w3) -> cw_defs w3 = defs).
  { intros q w3 T1. apply do_simple_spec in T1 as [(_ & _ & ->)|[(_ & _ & _ & ->)|(dd & _ & _ & _ & _ & E)]]; congruence. }
  destruct D as [(x & w3 & D & _ & ->)|(w3 & D & F)]; [eapply S1, D|]. apply S1 in D.
  assert (S2 : forall q w4, do_sasl w3 e (conf d (lit "sasl_bind")) = (q, w4) -> cw_defs w4 = defs).
  { intros q w4 T1. apply do_sasl_spec in T1 as [(_ & _ & ->)|[(_ & _ & _ & ->)|(dd & _ & _ & _ & _ & E)]]; congruence. }
  destruct F as [(x & w4 & F & _ & ->)|(F & _)]; eapply S2, F.
Qed.

Theorem C62_no_connection_section upper lower w e cf r w' cf' :
  load_config_dict upper lower w e cf = (r, w', cf') -> cf_conn cf = None ->
  cw_trace w' = cw_trace w /\ (forall c, r <> Ok (Some c)) /\
  (cf_ext cf = None \/ cf_ext cf = Some [] ->
   cf_global cf = None \/ (exists g, cf_global cf = Some g /\ snd (set_global_config upper (cw_defs w) (Some g)) = Ok tt) ->
   r = Ok None).
Proof.
  unfold load_config_dict. intros H Ec. rewrite Ec in H.
  destruct (match cf_global cf with Some g => set_global_config upper (cw_defs w) (Some g) | None => (cw_defs w, Ok tt) end)
    as [defs q] eqn:S.
  destruct q as [[]|x].
  - destruct (cf_ext cf) as [[|y l]|] eqn:Ex; cbn [activate_extensions] in H; inv H; cbn [set_defs cw_trace].
    + split; [reflexivity|]. split; [discriminate|auto].
    + split; [reflexivity|]. split; [discriminate|]. intros [Q|Q]; discriminate Q.
    + split; [reflexivity|]. split; [discriminate|auto].
  - inv H. cbn [set_defs cw_trace]. split; [reflexivity|]. split; [discriminate|]. intros _ [Q|(g & Q & R)].
    + rewrite Q in S. discriminate S.
    + rewrite Q in S. rewrite S in R. discriminate R.
Qed.

(** With a connection section and no extensions, the connection is the one create_connection
    makes under the new global defaults. *)
Theorem C62_connection_section_partial upper lower w e cf defs g d rc w1 d1 o1 :
  cf_global cf = Some g -> set_global_config upper (cw_defs w) (Some g) = (defs, Ok tt) ->
  cf_ext cf = None \/ cf_ext cf = Some [] -> cf_conn cf = Some d ->
  create_connection upper lower (set_defs w defs) e d (cf_objs cf) = (rc, w1, (d1, o1)) ->
  exists r, load_config_dict upper lower w e cf = (r, w1, mk_config (cf_global cf) (cf_ext cf) (Some d1) o1) /\
    (forall c, r = Ok (Some c) <-> rc = Ok c) /\ (forall x, r = Raise x <-> rc = Raise x) /\ r <> Ok None.
Proof.
  intros Eg Es Ex Ed Ec. unfold load_config_dict. rewrite Eg, Es, Ed.
  assert (A : (match cf_ext cf with Some l => activate_extensions l | None => Ok tt end) = Ok tt)
    by (destruct Ex as [-> | ->]; reflexivity).
  rewrite A, Ec. eexists. split; [reflexivity|].
  destruct rc as [c|x]; cbn [bind]; (split; [intros; split; congruence|split; [intros; split; congruence|discriminate]]).
Qed.

(** Refuted: a configuration that activates any extension, as in the documented example, can
    never be loaded; the global section has been applied by then. *)
Theorem C62_refuted_extensions upper lower w e cf m l r w' cf' :
  cf_ext cf = Some (m :: l) -> load_config_dict upper lower w e cf = (r, w', cf') ->
  (exists x, r = Raise x) /\ cw_trace w' = cw_trace w /\
  (cf_global cf = None -> r = Raise AttributeError) /\
  (forall g, cf_global cf = Some g -> cw_defs w' = fst (set_global_config upper (cw_defs w) (Some g))).
Proof.
  intros Ex H. pose proof H as H0. unfold load_config_dict in H. rewrite Ex in H. cbn [activate_extensions] in H.
  split; [|split; [|split]].
  - destruct (cf_global cf) as [g|]; [destruct (set_global_config upper (cw_defs w) (Some g)) as [defs [[]|x]]|]; inv H; eauto.
  - destruct (cf_global cf) as [g|]; [destruct (set_global_config upper (cw_defs w) (Some g)) as [defs [[]|x]]|]; inv H; reflexivity.
  - intros Eg. rewrite Eg in H. now inv H.
  - intros g Eg. exact (proj1 (C62_global_first _ _ _ _ _ _ _ _ _ H0 Eg)).
Qed.

(** load_file chooses the decoder by the file's extension unless one is given. *)
Theorem C62_file_type upper lower w e path user yaml json :
  let go dec := match dec with
                | Raise x => (Raise x, w)
                | Ok cf => fst (load_config_dict upper lower w e cf)
                end in
  (forall u, user = Some u -> load_file upper lower w e path user yaml json = go u) /\
  (user = None -> (exists p, path = p ++ lit ".yml" \/ path = p ++ lit ".yaml") ->
     load_file upper lower w e path user yaml json = go yaml) /\
  (user = None -> (exists p, path = p ++ lit ".json") ->
     load_file upper lower w e path user yaml json = go json) /\
  (user = None -> (forall p, path <> p ++ lit ".yml" /\ path <> p ++ lit ".yaml" /\ path <> p ++ lit ".json") ->
     load_file upper lower w e path user yaml json = (Raise RuntimeError, w)).
Proof.
  cbv zeta. unfold load_file.
  assert (G : forall dec : res config, (match dec with Raise x => (Raise x, w)
            | Ok cf => match load_config_dict upper lower w e cf with (r, w1, _) => (r, w1) end end) =
            match dec with Raise x => (Raise x, w) | Ok cf => fst (load_config_dict upper lower w e cf) end).
  { intros [cf|x]; [|reflexivity]. destruct (load_config_dict upper lower w e cf) as [[r w1] c1]. reflexivity. }
  assert (Sp : forall suf, ends_with suf path = true <-> exists p, path = p ++ suf).
  { intros suf. unfold ends_with. rewrite starts_with_spec. split; intros [p Hp].
    - exists (List.rev p). rewrite <- (rev_involutive path), Hp, rev_app_distr, rev_involutive. reflexivity.
    - exists (List.rev p). now rewrite Hp, rev_app_distr. }
  split; [intros u ->; apply G|]. split; [|split]; intros ->.
  - intros [p Hp]. assert (E : ends_with (lit ".yml") path || ends_with (lit ".yaml") path = true).
    { apply orb_true_iff. rewrite !Sp. destruct Hp; eauto. }
    rewrite E. apply G.
  - intros [p Hp]. assert (E : ends_with (lit ".yml") path || ends_with (lit ".yaml") path = false).
    { subst path. unfold ends_with. rewrite rev_app_distr. reflexivity. }
    assert (E2 : ends_with (lit ".json") path = true) by (apply Sp; eauto).
    rewrite E, E2. apply G.
  - intros N. assert (Nn : forall suf, (forall p, path <> p ++ suf) -> ends_with suf path = false).
    { intros suf Hn. destruct (ends_with suf path) eqn:E; [|reflexivity]. apply Sp in E as [p E]. now elim (Hn p). }
    rewrite !Nn by (intros p; apply N). reflexivity.
Qed.

(** ** C63: a configured connection *)

Definition ex_env : env :=
  mk_env (fun _ _ => Ok tt) (Ok (mk_dse None [lit "dc=org"])) (Ok tt) (fun _ => Ok tt) (fun _ => Ok tt)
         (fun _ _ => Ok 1%N) (fun _ => Ok tt).
Definition ex_world : cworld := mk_cworld initial_defaults [] [].

(** Asking for both kinds of bind is refused before anything is opened or sent. *)
Theorem C63_both_binds upper lower w e d objs v1 v2 :
  asked d (lit "simple_bind") v1 -> asked d (lit "sasl_bind") v2 ->
  exists x, create_connection upper lower w e d objs = (Raise TypeError, w, x).
Proof.
  intros [G1 T1] [G2 T2]. destruct (create_connection upper lower w e d objs) as [[r w'] [d' o']] eqn:C.
  apply cc_spec in C as (_ & C). unfold conf in C. rewrite G1, G2, T1, T2 in C.
  destruct C as [(_ & _ & -> & ->)|(Q & _)]; [eauto|discriminate Q].
Qed.

(** Success means: the socket was opened (or an existing one reused), the root DSE read, StartTLS
    performed and accepted iff asked for, then the bind asked for (and no other) sent with the
    configured arguments and accepted — and nothing else was sent. *)
Theorem C63_success upper lower w e d objs c w' x :
  create_connection upper lower w e d objs = (Ok c, w', x) ->
  exists t tls binds, cw_trace w' = cw_trace w ++ t ++ [EDse (cn_uri c)] ++ tls ++ binds /\
    (t = [] \/ t = [EOpen (cn_uri c) (cn_params c)]) /\
    ((exists v, asked d (lit "start_tls") v /\ tls = [EStartTls] /\ e_tls e = Ok tt) \/
     (not_asked d (lit "start_tls") /\ tls = [])) /\
    ((exists kw, asked d (lit "simple_bind") (VDict kw) /\ not_asked d (lit "sasl_bind") /\
                 binds = [ESimpleBind kw] /\ e_simple e kw = Ok tt) \/
     (exists kw, asked d (lit "sasl_bind") (VDict kw) /\ not_asked d (lit "simple_bind") /\
                 binds = [ESaslBind kw] /\ e_sasl e kw = Ok tt) \/
     (not_asked d (lit "simple_bind") /\ not_asked d (lit "sasl_bind") /\ binds = [])).
Proof.
  intros H. destruct x as [d' o']. apply cc_spec in H as (_ & H).
  destruct H as [(_ & _ & Q & _)|(Bo & [(x & Q & _)|(kw & _ & _ & H)])]; [discriminate Q|discriminate Q|].
  destruct H as [(x & _ & Q)|(c0 & w1 & Li & H)]; [discriminate Q|].
  destruct H as [(x & w2 & _ & Q & _)|(w2 & Tl & H)]; [discriminate Q|].
  destruct H as [(x & w3 & _ & Q & _)|(w3 & S1 & H)]; [discriminate Q|].
  destruct H as [(x & w4 & _ & Q & _)|(S2 & O)]; [discriminate Q|].
  apply objects_ok in O as ((new & -> & _) & _). cbn [with_tags cn_uri cn_params].
  apply ldap_init_spec in Li as (_ & _ & _ & Li).
  destruct (Li c0 eq_refl) as (_ & _ & _ & _ & _ & w0 & Cs & E1). clear Li.
  apply choose_socket_spec in Cs as (_ & (t & Et & Ht) & Cs).
  assert (Ho : t = [] \/ t = [EOpen (cn_uri c0) (cn_params c0)]).
  { destruct (Cs _ _ eq_refl) as [(_ & _ & Tr & _)|[(_ & _ & _ & ->)|(_ & ->)]].
    - right. rewrite Et in Tr. now apply app_inv_head in Tr.
    - left. rewrite <- (app_nil_r (cw_trace w)) in Et at 1. apply app_inv_head in Et. congruence.
    - left. rewrite <- (app_nil_r (cw_trace w)) in Et at 1. apply app_inv_head in Et. congruence. }
  assert (T1 : cw_trace w1 = cw_trace w ++ t ++ [EDse (cn_uri c0)]) by (rewrite E1; cbn; now rewrite Et, <- app_assoc).
  assert (NA : forall k, truthy (conf d k) = false -> not_asked d k).
  { intros k Hk v Hv. unfold conf in Hk. now rewrite Hv in Hk. }
  assert (AS : forall k, truthy (conf d k) = true -> asked d k (conf d k)).
  { intros k Hk. unfold asked, conf in *. destruct (dget d k); [auto|discriminate Hk]. }
  exists t.
  assert (Tls : exists tls, cw_trace w2 = cw_trace w1 ++ tls /\
     ((exists v, asked d (lit "start_tls") v /\ tls = [EStartTls] /\ e_tls e = Ok tt) \/
      (not_asked d (lit "start_tls") /\ tls = []))).
  { apply do_tls_spec in Tl as [(F & _ & ->)|(F & R & Tr & _)].
    - exists []. rewrite app_nil_r. split; [reflexivity|]. right. auto.
    - exists [EStartTls]. split; [exact Tr|]. left. eauto 6. }
  destruct Tls as (tls & T2 & Ht2). exists tls.
  apply do_simple_spec in S1 as [(F1 & _ & ->)|[(_ & _ & Q & _)|(kw1 & Ev & F1 & R & Tr & _)]]; [|discriminate Q|];
  apply do_sasl_spec in S2 as [(F2 & _ & ->)|[(_ & _ & Q & _)|(kw2 & Ev2 & F2 & R2 & Tr2 & _)]]; try discriminate Q.
  - exists []. rewrite app_nil_r. split; [rewrite T2, T1, <- !app_assoc; reflexivity|]. split; [exact Ho|]. split; [exact Ht2|].
    right; right. auto.
  - exists [ESaslBind kw2]. split; [rewrite Tr2, T2, T1, <- !app_assoc; reflexivity|]. split; [exact Ho|]. split; [exact Ht2|].
    right; left. exists kw2. rewrite <- Ev2. auto 6.
  - exists [ESimpleBind kw1]. split; [rewrite Tr, T2, T1, <- !app_assoc; reflexivity|]. split; [exact Ho|]. split; [exact Ht2|].
    left. exists kw1. rewrite <- Ev. auto 6.
  - rewrite F1, F2 in Bo. discriminate Bo.
Qed.

(** Whatever happens, credentials go out only if asked for, exactly as configured, at most once,
    and — when start_tls is asked for — only after StartTLS has been accepted. *)
Theorem C63_credentials upper lower w e d objs r w' x :
  create_connection upper lower w e d objs = (r, w', x) ->
  exists t, cw_trace w' = cw_trace w ++ t /\
    forall a b ev, t = a ++ ev :: b -> is_bind ev ->
      b = [] /\ (forall ev', In ev' a -> ~ is_bind ev') /\
      ((exists kw, ev = ESimpleBind kw /\ asked d (lit "simple_bind") (VDict kw)) \/
       (exists kw, ev = ESaslBind kw /\ asked d (lit "sasl_bind") (VDict kw))) /\
      (forall v, asked d (lit "start_tls") v -> e_tls e = Ok tt /\ In EStartTls a).
Proof.
  intros H. destruct x as [d' o']. apply cc_spec in H as (_ & H).
  assert (None_ : forall w0 t, cw_trace w0 = cw_trace w ++ t -> (forall ev, In ev t -> ~ is_bind ev) ->
     exists t, cw_trace w0 = cw_trace w ++ t /\
      forall a b ev, t = a ++ ev :: b -> is_bind ev ->
      b = [] /\ (forall ev', In ev' a -> ~ is_bind ev') /\
      ((exists kw, ev = ESimpleBind kw /\ asked d (lit "simple_bind") (VDict kw)) \/
       (exists kw, ev = ESaslBind kw /\ asked d (lit "sasl_bind") (VDict kw))) /\
      (forall v, asked d (lit "start_tls") v -> e_tls e = Ok tt /\ In EStartTls a)).
  { intros w0 t E F. exists t. split; [exact E|]. intros a b ev -> B. exfalso. apply (F ev); [apply in_app_iff; right; now left|exact B]. }
  assert (Op : forall t, Forall opening t -> forall ev, In ev t -> ~ is_bind ev).
  { intros t F ev I. rewrite Forall_forall in F. apply F in I. destruct ev; cbn in *; tauto. }
  destruct H as [(_ & _ & _ & ->)|(Bo & [(x & _ & -> & _)|(kw & _ & _ & H)])];
    try (apply (None_ w []); [now rewrite app_nil_r|intros ev []]).
  assert (AS : forall k, truthy (conf d k) = true -> asked d k (conf d k)).
  { intros k Hk. unfold asked, conf in *. destruct (dget d k); [auto|discriminate Hk]. }
  destruct H as [(x & Li & ->)|(c0 & w1 & Li & H)].
  { apply ldap_init_spec in Li as (_ & (t & Et & Ft) & _). apply (None_ w' t Et). now apply Op. }
  apply ldap_init_spec in Li as (_ & (t0 & Et & Ft) & _).
  assert (Tls : forall q w2, do_tls w1 e (conf d (lit "start_tls")) = (q, w2) ->
     exists tls, cw_trace w2 = cw_trace w ++ t0 ++ tls /\ (forall ev, In ev (t0 ++ tls) -> ~ is_bind ev) /\
       (forall v, asked d (lit "start_tls") v -> In EStartTls (t0 ++ tls) /\ e_tls e = q)).
  { intros q w2 T. apply do_tls_spec in T as [(F & _ & ->)|(F & R & Tr & _)].
    - exists []. rewrite !app_nil_r. split; [exact Et|]. split; [now apply Op|].
      intros v [Ev Tv]. unfold conf in F. rewrite Ev in F. congruence.
    - exists [EStartTls]. rewrite Tr, Et, <- app_assoc. split; [reflexivity|]. split.
      + intros ev I. apply in_app_iff in I as [I|[<-|[]]]; [now apply (Op t0)|auto].
      + intros v _. split; [apply in_app_iff; right; now left|auto]. }
  destruct H as [(x & w2 & Tl & _ & ->)|(w2 & Tl & H)].
  { destruct (Tls _ _ Tl) as (tls & E & F & _). exact (None_ w2 _ E F). }
  destruct (Tls _ _ Tl) as (tls & E & F & G). clear Tls.
  assert (One : forall w3 ev, cw_trace w3 = cw_trace w2 ++ [ev] -> is_bind ev ->
     ((exists kw, ev = ESimpleBind kw /\ asked d (lit "simple_bind") (VDict kw)) \/
       (exists kw, ev = ESaslBind kw /\ asked d (lit "sasl_bind") (VDict kw))) ->
     exists t, cw_trace w3 = cw_trace w ++ t /\
      forall a b ev, t = a ++ ev :: b -> is_bind ev ->
      b = [] /\ (forall ev', In ev' a -> ~ is_bind ev') /\
      ((exists kw, ev = ESimpleBind kw /\ asked d (lit "simple_bind") (VDict kw)) \/
       (exists kw, ev = ESaslBind kw /\ asked d (lit "sasl_bind") (VDict kw))) /\
      (forall v, asked d (lit "start_tls") v -> e_tls e = Ok tt /\ In EStartTls a)).
  { intros w3 ev E3 B3 W3. exists ((t0 ++ tls) ++ [ev]). split; [rewrite E3, E, !app_assoc; reflexivity|].
    intros a b ev1 Eq B1. destruct (list_eq_dec str_eq_dec [] []) as [_|N]; [|congruence].
    assert (Ab : b = []).
    { destruct b as [|y b]; [reflexivity|]. exfalso.
      destruct (exists_last (l := y :: b)) as (b0 & z & Eb); [discriminate|]. rewrite Eb in Eq.
      replace (a ++ ev1 :: b0 ++ [z]) with ((a ++ ev1 :: b0) ++ [z]) in Eq by (rewrite <- app_assoc; reflexivity).
      apply app_inj_tail in Eq as [Eq _]. apply (F ev1); [rewrite Eq; apply in_app_iff; right; now left|exact B1]. }
    subst b. apply app_inj_tail in Eq as [Ea Ee]. subst a ev1.
    split; [reflexivity|]. split; [exact F|]. split; [exact W3|].
    intros v Av. destruct (G v Av) as [G1 G2]. split; [exact G2|exact G1]. }
  assert (S1 : forall q w3, do_simple w2 e (conf d (lit "simple_bind")) = (q, w3) ->
     (w3 = w2) \/ (exists kw, cw_trace w3 = cw_trace w2 ++ [ESimpleBind kw] /\ asked d (lit "simple_bind") (VDict kw) /\ truthy (conf d (lit "simple_bind")) = true)).
  { intros q w3 S. apply do_simple_spec in S as [(_ & _ & ->)|[(_ & _ & _ & ->)|(kw1 & Ev & F1 & _ & Tr & _)]]; auto.
    right. exists kw1. rewrite <- Ev. auto. }
  destruct H as [(x & w3 & S & _ & ->)|(w3 & S & H)].
  { destruct (S1 _ _ S) as [->|(kw1 & Tr & A & _)]; [exact (None_ w2 _ E F)|]. apply (One w3 (ESimpleBind kw1) Tr I). eauto. }
  assert (Fin : w3 = w2 -> forall q w4, do_sasl w3 e (conf d (lit "sasl_bind")) = (q, w4) ->
     w4 = w2 \/ exists kw, cw_trace w4 = cw_trace w2 ++ [ESaslBind kw] /\ asked d (lit "sasl_bind") (VDict kw)).
  { intros -> q w4 Q. apply do_sasl_spec in Q as [(_ & _ & ->)|[(_ & _ & _ & ->)|(kw1 & Ev & F1 & _ & Tr & _)]]; auto.
    right. exists kw1. rewrite <- Ev. auto. }
  assert (Sasl : exists q, do_sasl w3 e (conf d (lit "sasl_bind")) = (q, w')).
  { destruct H as [(x & w4 & Q & _ & ->)|(Q & _)]; eauto. }
  destruct Sasl as [q Q].
  destruct (S1 _ _ S) as [Ew|(kw1 & Tr & A & T1)].
  - destruct (Fin Ew _ _ Q) as [->|(kw1 & Tr & A)]; [exact (None_ w2 _ E F)|]. apply (One w' (ESaslBind kw1) Tr I). eauto.
  - apply do_sasl_spec in Q as [(_ & _ & ->)|[(T2 & _)|(kw2 & Ev & T2 & _)]].
    + apply (One w3 (ESimpleBind kw1) Tr I). eauto.
    + rewrite T1, T2 in Bo. discriminate Bo.
    + rewrite T1, T2 in Bo. discriminate Bo.
Qed.

(** Every configured object with a tag can be retrieved by that tag and is the object described. *)
Theorem C63_objects upper lower w e d objs c w' x :
  create_connection upper lower w e d objs = (Ok c, w', x) ->
  (forall od t, In od objs -> dget od (lit "tag") = Some t -> t <> VNone ->
     exists k o, tag_key t = Some k /\ tget (cn_tags c) k = Some o /\ describes lower (dn_text (cn_base c)) od o) /\
  List.length (cn_tags c) <= List.length objs.
Proof.
  intros H. destruct x as [d' o']. apply cc_spec in H as (_ & H).
  destruct H as [(_ & _ & Q & _)|(Bo & [(x & Q & _)|(kw & _ & _ & H)])]; [discriminate Q|discriminate Q|].
  destruct H as [(x & _ & Q)|(c0 & w1 & Li & H)]; [discriminate Q|].
  destruct H as [(x & w2 & _ & Q & _)|(w2 & Tl & H)]; [discriminate Q|].
  destruct H as [(x & w3 & _ & Q & _)|(w3 & S1 & H)]; [discriminate Q|].
  destruct H as [(x & w4 & _ & Q & _)|(S2 & O)]; [discriminate Q|].
  apply ldap_init_spec in Li as (_ & _ & _ & Li). destruct (Li c0 eq_refl) as (_ & _ & Tg & _).
  apply objects_ok in O as ((new & -> & Ln) & Hd). split.
  - intros od t I Ht Nt. destruct (Hd od t I Ht Nt) as (k & o & Ek & _ & Eg & De). exists k, o.
    split; [exact Ek|]. split; [exact Eg|]. exact De.
  - cbn. now rewrite Tg.
Qed.

(** The configured validators — dotted paths or instances — are the connection's validators. *)
Lemma rsplit_dot_spec s : match rsplit_dot s with
  | Some (m, o) => s = m ++ lit "." ++ o /\ ~ In (ch ".") o
  | None => ~ In (ch ".") s
  end.
Proof.
  induction s as [|c s IH]; [intros []|]. cbn [rsplit_dot]. destruct (rsplit_dot s) as [[m o]|].
  - destruct IH as [-> N]. split; [reflexivity|exact N].
  - destruct (N.eqb_spec c (ch ".")) as [->|N]; [split; [reflexivity|exact IH]|]. intros [H|H]; [congruence|auto].
Qed.
Theorem C63_validators upper lower w e d objs c w' x l :
  create_connection upper lower w e d objs = (Ok c, w', x) -> dget d (lit "validators") = Some (VList l) ->
  Forall2 (validator_of e) l (cn_validators c).
Proof.
  intros H Gv. destruct x as [d' o']. apply cc_spec in H as (_ & H).
  destruct H as [(_ & _ & Q & _)|(Bo & [(x & Q & _)|(kw & Ha & _ & H)])]; [discriminate Q|discriminate Q|].
  destruct H as [(x & _ & Q)|(c0 & w1 & Li & H)]; [discriminate Q|].
  destruct H as [(x & w2 & _ & Q & _)|(w2 & Tl & H)]; [discriminate Q|].
  destruct H as [(x & w3 & _ & Q & _)|(w3 & S1 & H)]; [discriminate Q|].
  destruct H as [(x & w4 & _ & Q & _)|(S2 & O)]; [discriminate Q|].
  apply objects_ok in O as ((new & -> & Ln) & _). cbn [with_tags cn_validators].
  destruct Ha as (_ & _ & _ & _ & Hv & _). destruct (Hv _ Gv) as (v' & M & Gk).
  unfold validator_mapper in M. cbn [iter_val bind] in M. destruct (validator_list e l) as [r|] eqn:Vl; [|discriminate M]. inv M.
  apply ldap_init_spec in Li as (_ & _ & _ & Li). destruct (Li c0 eq_refl) as (_ & _ & _ & _ & (l0 & Il & Vi) & _).
  assert (Gs : sget (settings (cw_defs w) kw) (lit "validators") = VList r).
  { unfold sget. assert (Q : dget (settings (cw_defs w) kw) (lit "validators") =
      Some (setting (cw_defs w) kw (lit "validators", lit "DEFAULT_VALIDATORS"))) by reflexivity.
    rewrite Q. unfold setting. cbn [fst snd]. now rewrite Gk. }
  rewrite Gs in Il. inv Il.
  assert (F : Forall2 (validator_of e) l l0 /\ Forall (fun y => exists n, y = VValidator n) l0).
  { clear - Vl. revert l0 Vl. induction l as [|v l IH]; intros r H; cbn [validator_list] in H; [inv H; split; constructor|].
    destruct (validator_one e v) as [y|] eqn:V1; cbn [bind] in H; [|discriminate H].
    destruct (validator_list e l) as [r0|]; cbn [bind] in H; [|discriminate H]. inv H.
    destruct (IH r0 eq_refl) as [IH1 IH2].
    assert (Q : validator_of e v y /\ exists n, y = VValidator n).
    { destruct v as [| | |s| | | | |n0| | |]; cbn [validator_one] in V1; try discriminate V1.
      - pose proof (rsplit_dot_spec s) as R. destruct (rsplit_dot s) as [[m o]|]; [|discriminate V1]. destruct R as [-> N].
        destruct (e_import e m o) as [n|] eqn:Im; cbn [bind] in V1; [|discriminate V1]. inv V1.
        split; [left; exists m, o, n; auto|eauto].
      - inv V1. split; [right; eauto|eauto]. }
    destruct Q. split; constructor; auto. }
  destruct F as [F1 F2]. enough (cn_validators c0 = l0) as -> by exact F1.
  clear - Vi F2. revert Vi. generalize (cn_validators c0) as vs. induction F2 as [|y l0 (n & ->) F2 IH]; intros vs H; cbn [init_validators] in H; [now inv H|].
  destruct (init_validators l0) as [r|]; [|discriminate H]. inv H. now rewrite (IH r eq_refl).
Qed.

(** Entries that are wrong are refused: both or neither of dn and rdn, or no tag. *)
Theorem C63_bad_entries lower e c d :
  ((exists v1 v2, dget d (lit "dn") = Some v1 /\ dget d (lit "rdn") = Some v2) \/
   (dget d (lit "dn") = None /\ dget d (lit "rdn") = None) \/
   (dget d (lit "tag") = None /\ forall v, dget d (lit "relative_search_scope") = Some v -> exists v', scope_word lower v v')) ->
  exists d', create_single_object lower e c d = (Raise TypeError, d').
Proof.
  unfold create_single_object. intros [(v1 & v2 & -> & ->)|[[-> ->]|[Nt Sc]]]; [eauto|eauto|].
  assert (St : forall b f, exists d', object_scope lower e c b f d = (Raise TypeError, d')).
  { intros b f. unfold object_scope. destruct (dget d (lit "relative_search_scope")) as [s|] eqn:Es.
    - destruct (Sc s eq_refl) as [s' W]. apply scope_string_spec in W. rewrite W. unfold object_step, dmem.
      rewrite dget_dset_other by discriminate. rewrite Nt. cbn [negb]. eauto.
    - unfold object_step, dmem. rewrite Nt. cbn [negb]. eauto. }
  destruct (dget d (lit "rdn")); destruct (dget d (lit "dn")); eauto.
Qed.

(** A well-formed section is carried out: if every key is a constructor keyword, the server
    accepts everything and there are no objects to create, a connection is returned. *)
Theorem C63_live_partial upper lower w e d u :
  defaults_ok (cw_defs w) -> NoDup (map fst d) ->
  (forall k, In k (map fst d) -> In k (map fst fallback) \/ In k [lit "start_tls"; lit "simple_bind"; lit "sasl_bind"]) ->
  dget d (lit "validators") = None -> dget (cw_defs w) (lit "DEFAULT_VALIDATORS") = Some VNone ->
  dget d (lit "server") = Some (VStr u) ->
  (exists b, dget d (lit "base_dn") = Some (VStr b)) ->
  (not_asked d (lit "simple_bind") \/ exists kw, asked d (lit "simple_bind") (VDict kw)) ->
  (not_asked d (lit "sasl_bind") \/ exists kw, asked d (lit "sasl_bind") (VDict kw)) ->
  (not_asked d (lit "simple_bind") \/ not_asked d (lit "sasl_bind")) ->
  (forall u ps, e_open e u ps = Ok tt) -> (exists ds, e_dse e = Ok ds) -> e_tls e = Ok tt ->
  (forall kw, e_simple e kw = Ok tt) -> (forall kw, e_sasl e kw = Ok tt) ->
  exists c w' x, create_connection upper lower w e d [] = (Ok c, w', x).
Proof.
  intros K Nd Ks Nv Dv Sv (b & Bs) Hs Ha Nb Eo (ds & Ed) Et Es Ea.
  destruct (create_connection upper lower w e d []) as [[r w'] [d' o']] eqn:C.
  destruct r as [c|x]; [eauto|]. exfalso. apply cc_spec in C as (_ & C).
  assert (NA : forall k, not_asked d k -> truthy (conf d k) = false).
  { intros k Hk. unfold conf. destruct (dget d k) eqn:E; [now apply Hk|reflexivity]. }
  assert (AS : forall k v, asked d k v -> conf d k = v /\ truthy v = true).
  { intros k v [Hk Hv]. unfold conf. rewrite Hk. auto. }
  destruct C as [(T1 & T2 & _ & _)|(_ & [(y & _ & _ & Q)|(kw & Ha1 & _ & C)])].
  { destruct Nb as [N|N]; apply NA in N; congruence. }
  { destruct Q as [(v & Q & _)|(v & Q & _)]; [congruence|].
    assert (I : In (lit "default_filter_syntax") (map fst d)) by (apply dmem_In; unfold dmem; now rewrite Q).
    apply Ks in I. assert (F : ~ (In (lit "default_filter_syntax") (map fst fallback) \/
       In (lit "default_filter_syntax") [lit "start_tls"; lit "simple_bind"; lit "sasl_bind"])).
    { rewrite <- !smem_In. vm_compute. intuition discriminate. }
    contradiction. }
  assert (L : exists c w1, ldap_init w e kw = (Ok c, w1)).
  { destruct Ha1 as (H1 & H2 & H3 & H4 & H5 & H6). destruct (H1 Nd) as (P1 & P2 & P3 & _). unfold ldap_init.
    assert (F : forallb (fun kv => dmem ctor_params (fst kv)) kw = true).
    { apply forallb_forall. intros [k v] I. cbn [fst].
      assert (Ik : In k (map fst kw)) by (apply in_map_iff; exists (k, v); auto).
      assert (No : forall z, dget kw z = None -> k <> z).
      { intros z Gz ->. apply dmem_In in Ik. unfold dmem in Ik. now rewrite Gz in Ik. }
      pose proof (No _ P1). pose proof (No _ P2). pose proof (No _ P3).
      destruct (Ks k (H2 k Ik)) as [J|J]; [|cbn [In] in J; intuition congruence].
      apply dmem_In. assert (Ef : map fst ctor_params = map fst fallback) by (vm_compute; reflexivity). now rewrite Ef. }
    rewrite F. cbn [negb]. cbv zeta.
    assert (Ss : sget (settings (cw_defs w) kw) (lit "server") = VStr u).
    { unfold sget. cbn [settings map ctor_params fst dget]. replace (str_eqb (lit "server") (lit "server")) with true by reflexivity.
      unfold setting. cbn [fst snd]. rewrite H3, Sv by (rewrite <- smem_In; vm_compute; discriminate). reflexivity. }
    assert (Sb : sget (settings (cw_defs w) kw) (lit "base_dn") = VStr b).
    { unfold sget. cbn [settings map ctor_params fst dget].
      replace (str_eqb (lit "server") (lit "base_dn")) with false by reflexivity.
      replace (str_eqb (lit "base_dn") (lit "base_dn")) with true by reflexivity.
      unfold setting. cbn [fst snd]. rewrite H3, Bs by (rewrite <- smem_In; vm_compute; discriminate). reflexivity. }
    assert (Svd : sget (settings (cw_defs w) kw) (lit "validators") = VNone).
    { unfold sget. assert (G : dget (settings (cw_defs w) kw) (lit "validators") =
         Some (setting (cw_defs w) kw (lit "validators", lit "DEFAULT_VALIDATORS"))) by reflexivity.
      rewrite G. unfold setting. cbn [fst snd]. rewrite H4 by exact Nv. now rewrite Dv. }
    assert (Cs : exists ps w0, choose_socket w e (settings (cw_defs w) kw) = (Ok (u, ps), w0)).
    { unfold choose_socket. rewrite Ss. destruct (truthy _); [destruct (dget (cw_reg w) u); eauto|]; rewrite Eo; eauto. }
    destruct Cs as (ps & w0 & ->). rewrite Svd. cbn [bind init_validators]. rewrite Ed, Sb. cbn [find_base]. eauto. }
  destruct L as (c0 & w0 & L). destruct C as [(y & Q & _)|(c1 & w1 & L1 & C)]; [congruence|].
  destruct C as [(y & w2 & T & _)|(w2 & _ & C)].
  { apply do_tls_spec in T as [(_ & Q & _)|(_ & Q & _)]; [discriminate|congruence]. }
  destruct C as [(y & w3 & S & _)|(w3 & _ & C)].
  { apply do_simple_spec in S as [(_ & Q & _)|[(T & Q & _)|(kw1 & _ & _ & Q & _)]]; [discriminate| |congruence].
    destruct Hs as [N|(kw1 & A)]; [apply NA in N; congruence|]. apply AS in A as [A _]. now elim (Q kw1). }
  destruct C as [(y & w4 & S & _)|(_ & O)].
  { apply do_sasl_spec in S as [(_ & Q & _)|[(T & Q & _)|(kw1 & _ & _ & Q & _)]]; [discriminate| |congruence].
    destruct Ha as [N|(kw1 & A)]; [apply NA in N; congruence|]. apply AS in A as [A _]. now elim (Q kw1). }
  cbn [create_objects] in O. discriminate O.
Qed.

(** ... and a well-formed object entry with a fresh tag is created. *)
Theorem C63_object_live_partial lower e c d t : entry_ok lower e d -> dget d (lit "tag") = Some (VStr t) ->
  tget (cn_tags c) (KStr t) = None ->
  exists c' d', create_single_object lower e c d = (Ok c', d').
Proof. apply single_live. Qed.

(** Refuted: using a configuration twice. The dict loses start_tls and the bind section the
    first time, so whatever connection it yields the second time is neither encrypted nor bound. *)
Theorem C63_refuted_second_use upper lower w e d objs r w1 d1 o1 w2 e2 objs2 r2 w3 x3 :
  NoDup (map fst d) ->
  create_connection upper lower w e d objs = (r, w1, (d1, o1)) ->
  create_connection upper lower w2 e2 d1 objs2 = (r2, w3, x3) ->
  exists t, cw_trace w3 = cw_trace w2 ++ t /\ ~ In EStartTls t /\ forall ev, In ev t -> ~ is_bind ev.
Proof.
  intros Nd C1 C2. apply cc_spec in C1 as (K & _). destruct (K Nd) as (G1 & G2 & G3 & _).
  destruct x3 as [d3 o3]. apply cc_spec in C2 as (_ & C). unfold conf in C. rewrite G1, G2, G3 in C.
  assert (Z : exists t, cw_trace w2 = cw_trace w2 ++ t /\ ~ In EStartTls t /\ forall ev, In ev t -> ~ is_bind ev).
  { exists []. rewrite app_nil_r. cbn. auto. }
  destruct C as [(Q & _)|(_ & [(x & _ & -> & _)|(kw & _ & _ & C)])]; [discriminate Q|exact Z|].
  assert (L : forall q w4, ldap_init w2 e2 kw = (q, w4) ->
    exists t, cw_trace w4 = cw_trace w2 ++ t /\ ~ In EStartTls t /\ forall ev, In ev t -> ~ is_bind ev).
  { intros q w4 L. apply ldap_init_spec in L as (_ & (t & Et & F) & _). exists t. split; [exact Et|].
    rewrite Forall_forall in F. split.
    - intros I. exact (F _ I).
    - intros ev I B. apply F in I. destruct ev; auto. }
  destruct C as [(x & C & _)|(c & w4 & Li & C)]; [eapply L, C|].
  cbn [do_tls do_simple do_sasl truthy] in C.
  destruct C as [(x & w5 & C & _)|(w5 & C & D)]; [discriminate C|]. inv C.
  destruct D as [(x & w6 & C & _)|(w6 & C & D)]; [discriminate C|]. inv C.
  destruct D as [(x & w7 & C & _)|(C & _)]; [discriminate C|]. inv C. eapply L, Li.
Qed.

(** Refuted: the documented key default_filter_syntax can never be used — the constructor has
    no such keyword. *)
Theorem C63_refuted_filter_syntax upper lower w e d objs r w1 x v :
  dget d (lit "default_filter_syntax") = Some v -> create_connection upper lower w e d objs = (r, w1, x) ->
  (exists y, r = Raise y) /\ w1 = w.
Proof.
  intros Gv C. destruct x as [d' o']. apply cc_spec in C as (_ & C).
  destruct C as [(_ & _ & -> & ->)|(_ & [(y & -> & -> & _)|(kw & Ha & _ & C)])]; [eauto|eauto|].
  destruct Ha as (_ & _ & _ & _ & _ & H6). destruct (H6 v Gv) as [v' G].
  assert (I : In (lit "default_filter_syntax") (map fst kw)) by (apply dmem_In; unfold dmem; now rewrite G).
  destruct (ldap_init w e kw) as [q w0] eqn:L. apply ldap_init_spec in L as (_ & _ & U & _).
  destruct (U _ I eq_refl) as [-> ->].
  destruct C as [(y & C & ->)|(c & w2 & C & _)]; [|discriminate C]. inv C. eauto.
Qed.

Example C63_nonvacuous :
  let simple := [(lit "username", VStr (lit "u")); (lit "password", VStr (lit "p"))] in
  let d := [(lit "server", VStr (lit "ldap://h")); (lit "start_tls", VBool true); (lit "simple_bind", VDict simple);
            (lit "connect_timeout", VInt 30)] in
  let objs := [[(lit "rdn", VStr (lit "ou=people")); (lit "tag", VStr (lit "people"))];
               [(lit "dn", VStr (lit "o=x")); (lit "tag", VStr (lit "x")); (lit "relative_search_scope", VStr (lit "ONE"))]] in
  let ps := [VInt 30; VBool true; VNone; VNone; VNone] in
  NoDup (map fst d) /\
  exists c w1 d1 o1, create_connection ascii_upper ascii_lower ex_world ex_env d objs = (Ok c, w1, (d1, o1)) /\
    cw_trace w1 = [EOpen (lit "ldap://h") ps; EDse (lit "ldap://h"); EStartTls; ESimpleBind simple] /\
    tget (cn_tags c) (KStr (lit "people")) = Some (mk_cobj (VStr (lit "ou=people,dc=org")) VNone (VScope ScSub) VNone) /\
    tget (cn_tags c) (KStr (lit "x")) = Some (mk_cobj (VStr (lit "o=x")) VNone (VScope ScOne) VNone) /\
    exists c2 w2 x2, create_connection ascii_upper ascii_lower w1 ex_env d1 [] = (Ok c2, w2, x2) /\
      cw_trace w2 = cw_trace w1 ++ [EDse (lit "ldap://h")].
Proof.
  cbv zeta. split.
  - repeat constructor; rewrite <- smem_In; vm_compute; discriminate.
  - eexists _, _, _, _. split; [vm_compute; reflexivity|]. split; [reflexivity|]. split; [reflexivity|]. split; [reflexivity|].
    eexists _, _, _. split; [vm_compute; reflexivity|]. reflexivity.
Qed.

(** ** C64: the settings of a new connection *)

Lemma settings_get defs kw p n : In (p, n) fallback ->
  dget (settings defs kw) p = Some (setting defs kw (p, n)).
Proof.
  intros I. unfold settings.
  assert (E : fallback = ctor_params) by (vm_compute; reflexivity). rewrite E in I.
  cbn [ctor_params In] in I. repeat (destruct I as [I|I]; [inv I; reflexivity|]). destruct I.
Qed.

(** Every setting is the argument given, or else the current global default. *)
Theorem C64_settings w e kw c w' p n :
  defaults_ok (cw_defs w) -> ldap_init w e kw = (Ok c, w') -> In (p, n) fallback ->
  exists v, dget (cn_settings c) p = Some v /\ effective (cw_defs w) kw p n v.
Proof.
  intros [_ K] L I. apply ldap_init_spec in L as (_ & _ & _ & L). destruct (L c eq_refl) as (_ & -> & _).
  rewrite (settings_get _ _ _ _ I). eexists. split; [reflexivity|]. unfold setting, effective. cbn [fst snd].
  assert (Hn : exists v, dget (cw_defs w) n = Some v).
  { assert (M : In n (map fst (cw_defs w))).
    { apply K. assert (F : forallb (fun pn => smem (snd pn) global_names) fallback = true) by (vm_compute; reflexivity).
      rewrite forallb_forall in F. apply F in I. now apply smem_In. }
    apply dmem_In in M. unfold dmem in M. destruct (dget (cw_defs w) n); [eauto|discriminate]. }
  destruct Hn as [v0 Hv]. rewrite Hv. destruct (dget kw p) as [v|]; [|right; auto].
  destruct v; [right; auto|..]; left; (split; [reflexivity|discriminate]).
Qed.

(** A value set globally reaches every connection created afterwards that does not override it. *)
Theorem C64_global_reaches_connection upper w e g kw defs r c w' p n v v' :
  defaults_ok (cw_defs w) -> syntaxes_ok upper g ->
  set_global_config upper (cw_defs w) (Some g) = (defs, r) ->
  In (p, n) fallback -> last_word upper g n v -> stored upper n v v' ->
  ldap_init (set_defs w defs) e kw = (Ok c, w') -> dget kw p = None ->
  dget (cn_settings c) p = Some v'.
Proof.
  intros K V G I Lw St L Np.
  assert (Hn : In n global_names).
  { assert (F : forallb (fun pn => smem (snd pn) global_names) fallback = true) by (vm_compute; reflexivity).
    rewrite forallb_forall in F. apply F in I. now apply smem_In. }
  destruct (C43_set_global _ _ _ _ _ K V G) as (K' & A & _). specialize (A n v v' Hn Lw St).
  destruct (C64_settings (set_defs w defs) e kw c w' p n K' L I) as (x & Hx & [(Q & _)|(_ & Q)]); [congruence|].
  cbn in Q. congruence.
Qed.

(** An unknown keyword is refused before anything happens. *)
Theorem C64_unknown_keyword w e kw k :
  In k (map fst kw) -> ~ In k (map fst fallback) -> ldap_init w e kw = (Raise TypeError, w).
Proof.
  intros I N. destruct (ldap_init w e kw) as [r w'] eqn:L. apply ldap_init_spec in L as (_ & _ & U & _).
  destruct (U k I) as [-> ->]; [|reflexivity]. destruct (dmem ctor_params k) eqn:E; [|reflexivity].
  exfalso. apply N. apply dmem_In in E.
  assert (Ef : map fst ctor_params = map fst fallback) by (vm_compute; reflexivity). now rewrite <- Ef.
Qed.

(** The socket a connection uses was opened with the connection's own timeout and TLS settings,
    provided it does not share one that is already open. *)
Definition transport (st : cdict) : list (option cval) :=
  map (fun k => dget st (lit k)) ["connect_timeout"; "ssl_verify"; "ssl_ca_file"; "ssl_ca_path"; "ssl_ca_data"]%string.
Theorem C64_transport_partial w e kw c w' u :
  ldap_init w e kw = (Ok c, w') -> dget (cn_settings c) (lit "server") = Some (VStr u) ->
  (exists v, dget (cn_settings c) (lit "reuse_connection") = Some v /\ truthy v = false) \/ dget (cw_reg w) u = None ->
  cn_uri c = u /\ map Some (cn_params c) = transport (cn_settings c) /\
  cw_trace w' = cw_trace w ++ [EOpen u (cn_params c); EDse u].
Proof.
  intros L Sv Hr. apply ldap_init_spec in L as (_ & _ & _ & L). destruct (L c eq_refl) as (_ & Est & _ & _ & _ & w0 & Cs & Ew).
  rewrite Est in *. clear L. apply choose_socket_spec in Cs as (_ & _ & Cs).
  assert (Es : sget (settings (cw_defs w) kw) (lit "server") = VStr u) by (unfold sget; now rewrite Sv).
  destruct (Cs _ _ eq_refl) as [(S1 & Ps & Tr & _)|[(S1 & Rr & Gg & _)|(S1 & _)]]; rewrite Es in S1; inv S1.
  - split; [reflexivity|]. split; [rewrite Ps; reflexivity|]. cbn. rewrite Tr, <- app_assoc. reflexivity.
  - exfalso. destruct Hr as [(v & Gv & Tv)|Hn]; [|congruence].
    unfold sget in Rr. rewrite Gv in Rr. congruence.
Qed.

(** Refuted: a connection that shares a socket silently gets the transport settings of whoever
    opened it; a connection that demands certificate verification runs on one opened
    without it. *)
Theorem C64_refuted_shared_transport w e kw c w' u ps0 :
  ldap_init w e kw = (Ok c, w') -> dget (cn_settings c) (lit "server") = Some (VStr u) ->
  (exists v, dget (cn_settings c) (lit "reuse_connection") = Some v /\ truthy v = true) ->
  dget (cw_reg w) u = Some ps0 -> cn_params c = ps0 /\ cw_trace w' = cw_trace w ++ [EDse u].
Proof.
  intros L Sv (v & Gv & Tv) Gp. apply ldap_init_spec in L as (_ & _ & _ & L). destruct (L c eq_refl) as (_ & Est & _ & _ & _ & w0 & Cs & Ew).
  rewrite Est in *. clear L. apply choose_socket_spec in Cs as (_ & _ & Cs).
  assert (Es : sget (settings (cw_defs w) kw) (lit "server") = VStr u) by (unfold sget; now rewrite Sv).
  assert (Er : truthy (sget (settings (cw_defs w) kw) (lit "reuse_connection")) = true) by (unfold sget; now rewrite Gv).
  destruct (Cs _ _ eq_refl) as [(S1 & Ps & Tr & _ & Rr & _)|[(S1 & _ & Gg & E0)|(S1 & _)]]; rewrite Es in S1; inv S1.
  - destruct (Rr Er). congruence.
  - split; [congruence|reflexivity].
Qed.

(** Sharing: connections to the same URI that allow it use one socket. *)
Theorem C64_shared_socket w e kw1 kw2 e2 c1 c2 w1 w2 u :
  ldap_init w e kw1 = (Ok c1, w1) -> ldap_init w1 e2 kw2 = (Ok c2, w2) ->
  dget (cn_settings c1) (lit "server") = Some (VStr u) -> dget (cn_settings c2) (lit "server") = Some (VStr u) ->
  (exists v, dget (cn_settings c1) (lit "reuse_connection") = Some v /\ truthy v = true) ->
  (exists v, dget (cn_settings c2) (lit "reuse_connection") = Some v /\ truthy v = true) ->
  cn_params c2 = cn_params c1 /\ cw_trace w2 = cw_trace w1 ++ [EDse u].
Proof.
  intros L1 L2 S1 S2 R1 R2.
  assert (G : dget (cw_reg w1) u = Some (cn_params c1)); [|exact (C64_refuted_shared_transport _ _ _ _ _ _ _ L2 S2 R2 G)].
  apply ldap_init_spec in L1 as (_ & _ & _ & L). destruct (L c1 eq_refl) as (_ & Est & _ & _ & _ & w0 & Cs & Ew).
  rewrite Est in *. clear L. apply choose_socket_spec in Cs as (_ & _ & Cs). destruct R1 as (v & Gv & Tv).
  assert (Es : sget (settings (cw_defs w) kw1) (lit "server") = VStr u) by (unfold sget; now rewrite S1).
  assert (Er : truthy (sget (settings (cw_defs w) kw1) (lit "reuse_connection")) = true) by (unfold sget; now rewrite Gv).
  destruct (Cs _ _ eq_refl) as [(Sx & Ps & Tr & _ & Rr & _)|[(Sx & _ & Gg & E0)|(Sx & _)]]; rewrite Es in Sx; inv Sx.
  - destruct (Rr Er) as [_ Q]. cbn. rewrite Q.
    assert (D : forall (d : list (str * list cval)) k x, dget (dset d k x) k = Some x).
    { clear. induction d as [|[k' v'] d IH]; intros k x; cbn [dset dget]; [now rewrite str_eqb_refl|].
      destruct (str_eqb k' k) eqn:E; cbn [dget]; rewrite E; auto. }
    apply D.
  - exact Gg.
Qed.

(** The connection's validators are those given, in order, classes being instantiated; anything
    else in the list is refused. *)
Theorem C64_validators w e kw c w' v :
  defaults_ok (cw_defs w) -> ldap_init w e kw = (Ok c, w') ->
  effective (cw_defs w) kw (lit "validators") (lit "DEFAULT_VALIDATORS") v ->
  (v = VNone -> cn_validators c = []) /\ (forall l, v = VList l -> Forall2 validator_arg l (cn_validators c)).
Proof.
  intros K L Ef.
  destruct (C64_settings w e kw c w' (lit "validators") (lit "DEFAULT_VALIDATORS") K L) as (v0 & Gv & Ef0).
  { rewrite <- (firstn_skipn 16). apply in_app_iff. right. left. reflexivity. }
  assert (v0 = v).
  { destruct Ef as [[A B]|[[A|A] B]]; destruct Ef0 as [[C D]|[[C|C] D]]; congruence. }
  subst v0. apply ldap_init_spec in L as (_ & _ & _ & L). destruct (L c eq_refl) as (_ & Est & _ & _ & (l & Il & Vl) & _).
  rewrite Est in Gv. unfold sget in Il. rewrite Gv in Il. split.
  - intros ->. inv Il. now inv Vl.
  - intros l0 ->. inv Il. clear - Vl. revert Vl. generalize (cn_validators c) as vs. induction l as [|x l IH]; intros vs H; cbn [init_validators] in H.
    + inv H. constructor.
    + destruct x; try discriminate H; (destruct (init_validators l) as [r|]; [|discriminate H]); inv H;
        (constructor; [exists n; auto|auto]).
Qed.
Theorem C64_bad_validator w e kw l x r w' :
  ldap_init w e kw = (r, w') -> dget kw (lit "validators") = Some (VList l) -> In x l ->
  (forall y, ~ validator_arg x y) -> exists ex, r = Raise ex.
Proof.
  intros L G I N. destruct r as [c|ex]; [|eauto]. exfalso.
  apply ldap_init_spec in L as (_ & _ & _ & L). destruct (L c eq_refl) as (_ & Est & _ & _ & (l0 & Il & Vl) & _).
  assert (Gs : sget (settings (cw_defs w) kw) (lit "validators") = VList l).
  { unfold sget. assert (Q : dget (settings (cw_defs w) kw) (lit "validators") =
      Some (setting (cw_defs w) kw (lit "validators", lit "DEFAULT_VALIDATORS"))) by reflexivity.
    rewrite Q. unfold setting. cbn [fst snd]. now rewrite G. }
  rewrite Gs in Il. inv Il. revert Vl. generalize (cn_validators c) as vs. clear - I N. induction l0 as [|y l IH]; intros vs H; [destruct I|].
  cbn [init_validators] in H. destruct I as [->|I].
  - destruct x; try discriminate H; (eapply N; exists n; eauto).
  - destruct y; try discriminate H; (destruct (init_validators l) as [r|]; [|discriminate H]); exact (IH I r eq_refl).
Qed.

(** The default SASL mechanism: as set, else EXTERNAL on a local socket. *)
Theorem C64_sasl_mech w e kw c w' v :
  defaults_ok (cw_defs w) -> ldap_init w e kw = (Ok c, w') ->
  effective (cw_defs w) kw (lit "default_sasl_mech") (lit "DEFAULT_SASL_MECH") v ->
  (v <> VNone -> cn_sasl_mech c = v) /\
  (v = VNone -> (exists p, cn_uri c = lit "ldapi:" ++ p) -> cn_sasl_mech c = VStr (lit "EXTERNAL")) /\
  (v = VNone -> (forall p, cn_uri c <> lit "ldapi:" ++ p) -> cn_sasl_mech c = VNone).
Proof.
  intros K L Ef.
  destruct (C64_settings w e kw c w' (lit "default_sasl_mech") (lit "DEFAULT_SASL_MECH") K L) as (v0 & Gv & Ef0).
  { rewrite <- (firstn_skipn 12). apply in_app_iff. right. left. reflexivity. }
  assert (v0 = v).
  { destruct Ef as [[A B]|[[A|A] B]]; destruct Ef0 as [[C D]|[[C|C] D]]; congruence. }
  subst v0. pose proof L as L0. apply ldap_init_spec in L0 as (_ & _ & _ & L0). destruct (L0 c eq_refl) as (_ & Est & _).
  rewrite Est in Gv. clear L0.
  assert (Em : cn_sasl_mech c = match v with VNone => if starts_with (lit "ldapi:") (cn_uri c) then VStr (lit "EXTERNAL") else VNone | m => m end).
  { unfold ldap_init in L. destruct (forallb _ kw); cbn [negb] in L; [|discriminate L].
    destruct (choose_socket w e (settings (cw_defs w) kw)) as [[[uri ps]|x] w0]; [|discriminate L]. cbv zeta in L.
    destruct (let* l := _ in init_validators l) as [vals|x]; [|discriminate L].
    destruct (e_dse e) as [d|x]; [|discriminate L]. destruct (find_base _ d) as [b|x]; [|discriminate L].
    assert (Eg : sget (settings (cw_defs w) kw) (lit "default_sasl_mech") = v) by (unfold sget; now rewrite Gv).
    rewrite Eg in L. injection L as <- _. destruct v; reflexivity. }
  rewrite Em. split; [intros N; destruct v; congruence|]. split; intros ->.
  - intros Hp. apply starts_with_spec in Hp. now rewrite Hp.
  - intros Hp. destruct (starts_with (lit "ldapi:") (cn_uri c)) eqn:E; [|reflexivity].
    apply starts_with_spec in E as [p E]. now elim (Hp p).
Qed.

(** A constructor call that makes sense succeeds: known keywords, a server that can be reached and
    read, validators, and a base DN that can be determined. *)
Lemma effective_setting defs kw p n v : effective defs kw p n v -> setting defs kw (p, n) = v.
Proof.
  unfold effective, setting. cbn [fst snd]. intros [[-> N]|[[->| ->] ->]]; [destruct v; congruence|reflexivity|reflexivity].
Qed.
Theorem C64_live w e kw sv bv vv d :
  (forall k, In k (map fst kw) -> In k (map fst fallback)) ->
  effective (cw_defs w) kw (lit "server") (lit "DEFAULT_SERVER") sv ->
  (exists u, sv = VStr u /\ forall ps, e_open e u ps = Ok tt) \/ (exists u ps, sv = VSock u ps) ->
  effective (cw_defs w) kw (lit "validators") (lit "DEFAULT_VALIDATORS") vv ->
  vv = VNone \/ (exists l, vv = VList l /\ forall x, In x l -> exists y, validator_arg x y) ->
  e_dse e = Ok d ->
  effective (cw_defs w) kw (lit "base_dn") (lit "DEFAULT_BASE_DN") bv ->
  bv <> VNone \/ (exists b l, dse_default_nc d = Some (b :: l)) \/ (no_default_nc d /\ exists b, dse_ncs d = [b]) ->
  exists c w', ldap_init w e kw = (Ok c, w').
Proof.
  intros Ks Es Hs Ev Hv Ed Eb Hb. unfold ldap_init.
  assert (F : forallb (fun kv => dmem ctor_params (fst kv)) kw = true).
  { apply forallb_forall. intros [k v] I. cbn [fst]. apply dmem_In.
    assert (Ef : map fst ctor_params = map fst fallback) by (vm_compute; reflexivity). rewrite Ef. apply Ks.
    apply in_map_iff. exists (k, v). auto. }
  rewrite F. cbn [negb]. cbv zeta.
  assert (S1 : sget (settings (cw_defs w) kw) (lit "server") = sv).
  { unfold sget. assert (Q : dget (settings (cw_defs w) kw) (lit "server") =
      Some (setting (cw_defs w) kw (lit "server", lit "DEFAULT_SERVER"))) by reflexivity. rewrite Q. now apply effective_setting. }
  assert (S2 : sget (settings (cw_defs w) kw) (lit "validators") = vv).
  { unfold sget. assert (Q : dget (settings (cw_defs w) kw) (lit "validators") =
      Some (setting (cw_defs w) kw (lit "validators", lit "DEFAULT_VALIDATORS"))) by reflexivity. rewrite Q. now apply effective_setting. }
  assert (S3 : sget (settings (cw_defs w) kw) (lit "base_dn") = bv).
  { unfold sget. assert (Q : dget (settings (cw_defs w) kw) (lit "base_dn") =
      Some (setting (cw_defs w) kw (lit "base_dn", lit "DEFAULT_BASE_DN"))) by reflexivity. rewrite Q. now apply effective_setting. }
  assert (Cs : exists u ps w0, choose_socket w e (settings (cw_defs w) kw) = (Ok (u, ps), w0)).
  { unfold choose_socket. rewrite S1. destruct Hs as [(u & -> & Op)|(u & ps & ->)]; [|eauto].
    destruct (truthy _); [destruct (dget (cw_reg w) u); [eauto|]|]; rewrite Op; eauto. }
  destruct Cs as (u & ps & w0 & ->). rewrite S2, Ed, S3.
  assert (Fb : exists b, find_base bv d = Ok b).
  { unfold find_base. destruct bv; eauto. destruct Hb as [N|[(b & l & ->)|([->| ->] & b & ->)]]; [congruence|eauto|eauto|eauto]. }
  destruct Fb as [b Fb]. destruct Hv as [->|(l & -> & Hl)].
  { cbn [bind init_validators]. rewrite Fb. eauto. }
  cbn [iter_val bind].
  assert (Vs : exists vals, init_validators l = Ok vals).
  { clear Ev S2. induction l as [|x l IH]; [exists []; reflexivity|]. destruct IH as [r Hr].
    - intros y I. apply Hl. now right.
    - destruct (Hl x (or_introl eq_refl)) as (y & n & [->| ->] & _); cbn [init_validators]; rewrite Hr; cbn [bind]; eauto. }
  destruct Vs as [vals ->]. rewrite Fb. eauto.
Qed.

Example C64_nonvacuous :
  let off := [(lit "server", VStr (lit "ldaps://h")); (lit "ssl_verify", VBool false)] in
  let on := [(lit "server", VStr (lit "ldaps://h")); (lit "ssl_verify", VBool true)] in
  defaults_ok (cw_defs ex_world) /\
  exists c1 w1 c2 w2, ldap_init ex_world ex_env off = (Ok c1, w1) /\ ldap_init w1 ex_env on = (Ok c2, w2) /\
    cn_params c1 = [VInt 5; VBool false; VNone; VNone; VNone] /\
    dget (cn_settings c2) (lit "ssl_verify") = Some (VBool true) /\
    cn_params c2 = [VInt 5; VBool false; VNone; VNone; VNone].
Proof.
  cbv zeta. split; [apply initial_defaults_ok|]. eexists _, _, _, _.
  split; [vm_compute; reflexivity|]. split; [vm_compute; reflexivity|]. auto.
Qed.

(** ** C65: the base DN of a new connection *)

(** The base DN is the one given (or configured globally); otherwise the server's default
    naming context, otherwise its only naming context. *)
Theorem C65_base_dn w e kw c w' :
  defaults_ok (cw_defs w) -> ldap_init w e kw = (Ok c, w') ->
  exists v d, effective (cw_defs w) kw (lit "base_dn") (lit "DEFAULT_BASE_DN") v /\ e_dse e = Ok d /\
    ((v <> VNone /\ cn_base c = v) \/
     (v = VNone /\ ((exists b l, dse_default_nc d = Some (b :: l) /\ cn_base c = VStr b) \/
                    (no_default_nc d /\ exists b, dse_ncs d = [b] /\ cn_base c = VStr b)))).
Proof.
  intros K L.
  destruct (C64_settings w e kw c w' (lit "base_dn") (lit "DEFAULT_BASE_DN") K L) as (v & Gv & Ef).
  { cbn. auto. }
  apply ldap_init_spec in L as (_ & _ & _ & L). destruct (L c eq_refl) as (_ & Est & _ & (d & Ed & Fb) & _).
  rewrite Est in Gv. unfold sget in Fb. rewrite Gv in Fb. exists v, d. split; [exact Ef|]. split; [exact Ed|].
  destruct v; cbn [find_base] in Fb; [right; split; [reflexivity|]|left; split; [discriminate|congruence]..].
  destruct (dse_default_nc d) as [[|b l]|] eqn:Dn; [right|left; inv Fb; eauto|right].
  - split; [right; exact Dn|]. destruct (dse_ncs d) as [|b [|b2 l]]; inv Fb. eauto.
  - split; [left; exact Dn|]. destruct (dse_ncs d) as [|b [|b2 l]]; inv Fb. eauto.
Qed.

(** When it cannot be determined — none given, no default naming context, and no or several
    naming contexts — no connection is returned: LDAPError once the server has answered. *)
Theorem C65_undetermined w e kw r w' d :
  ldap_init w e kw = (r, w') -> e_dse e = Ok d ->
  effective (cw_defs w) kw (lit "base_dn") (lit "DEFAULT_BASE_DN") VNone ->
  no_default_nc d -> List.length (dse_ncs d) <> 1 ->
  (exists x, r = Raise x) /\
  forall u t, cw_trace w' = cw_trace w ++ t ++ [EDse u] -> r = Raise LDAPError.
Proof.
  intros L Ed Ef Dn Ln.
  assert (G : sget (settings (cw_defs w) kw) (lit "base_dn") = VNone).
  { unfold sget. rewrite (settings_get _ _ (lit "base_dn") (lit "DEFAULT_BASE_DN")) by (cbn; auto).
    unfold setting. cbn [fst snd]. destruct Ef as [[_ Q]|[[->| ->] ->]]; [congruence|reflexivity|reflexivity]. }
  unfold ldap_init in L. destruct (forallb _ kw); cbn [negb] in L.
  2:{ inv L. split; [eauto|]. intros u t E. exfalso. rewrite <- (app_nil_r (cw_trace w')) in E at 1.
      apply app_inv_head in E. destruct t; discriminate E. }
  destruct (choose_socket w e (settings (cw_defs w) kw)) as [q w0] eqn:C.
  destruct (choose_socket_spec _ _ _ _ _ C) as (_ & (t0 & T & Ht) & _).
  assert (No : w' = w0 -> forall u t, cw_trace w' = cw_trace w ++ t ++ [EDse u] -> False).
  { intros -> u t E. rewrite T in E. apply app_inv_head in E. destruct Ht as [->|(u0 & -> & _)].
    - destruct t; discriminate E.
    - change [EOpen u0 (sock_params (settings (cw_defs w) kw))] with ([] ++ [EOpen u0 (sock_params (settings (cw_defs w) kw))]) in E.
      apply app_inj_tail in E as [_ E]. discriminate E. }
  destruct q as [[uri ps]|x]; [|inv L; split; [eauto|]; intros u t E; exfalso; exact (No eq_refl u t E)].
  cbv zeta in L. destruct (let* l := match sget (settings (cw_defs w) kw) (lit "validators") with
                        | VNone => Ok [] | v => iter_val v end in init_validators l) as [vals|x];
    [|inv L; split; [eauto|]; intros u t E; exfalso; exact (No eq_refl u t E)].
  rewrite Ed, G in L. cbn [find_base] in L.
  destruct Dn as [Dn|Dn]; rewrite Dn in L; (destruct (dse_ncs d) as [|b [|b2 l]]; [inv L; eauto|now elim Ln|inv L; eauto]).
Qed.

Example C65_nonvacuous :
  effective initial_defaults [] (lit "base_dn") (lit "DEFAULT_BASE_DN") VNone /\
  exists c w', ldap_init ex_world ex_env [] = (Ok c, w') /\ cn_base c = VStr (lit "dc=org").
Proof. split; [right; auto|]. eexists _, _. split; [vm_compute; reflexivity|reflexivity]. Qed.

Print Assumptions C43_normalize_idempotent.
Print Assumptions C43_key_meaning.
Print Assumptions C43_set_global.
Print Assumptions C43_invalid_syntax.
Print Assumptions C43_missing_section.
Print Assumptions C62_global_first.
Print Assumptions C62_no_connection_section.
Print Assumptions C62_connection_section_partial.
Print Assumptions C62_refuted_extensions.
Print Assumptions C62_file_type.
Print Assumptions C63_both_binds.
Print Assumptions C63_success.
Print Assumptions C63_credentials.
Print Assumptions C63_objects.
Print Assumptions C63_bad_entries.
Print Assumptions C63_live_partial.
Print Assumptions C63_object_live_partial.
Print Assumptions C63_refuted_second_use.
Print Assumptions C63_refuted_filter_syntax.
Print Assumptions C64_settings.
Print Assumptions C64_global_reaches_connection.
Print Assumptions C64_unknown_keyword.
Print Assumptions C64_transport_partial.
Print Assumptions C64_refuted_shared_transport.
Print Assumptions C63_validators.
Print Assumptions C64_shared_socket.
Print Assumptions C64_validators.
Print Assumptions C64_bad_validator.
Print Assumptions C64_sasl_mech.
Print Assumptions C64_live.
Print Assumptions C65_base_dn.
Print Assumptions C65_undetermined.
