From Verif Require Import PyBase Model_Uri Proofs_Uri Model_Config Spec_Config Proofs_Config.

Definition conf (d : cdict) (k : str) : cval := match dget d k with Some v => v | None => VBool false end.

Lemma dget_ddel_other (d : cdict) k k2 : k <> k2 -> dget (ddel d k) k2 = dget d k2.
Proof.
  intros N. induction d as [|[k' v] d IH]; [reflexivity|]. cbn [ddel dget].
  destruct (str_eqb_spec k' k) as [->|Nk]; [now rewrite (proj2 (str_eqb_neq k k2) N)|].
  cbn [dget]. now rewrite IH.
Qed.
Lemma dget_notin (d : cdict) k : ~ In k (map fst d) -> dget d k = None.
Proof.
  intros H. destruct (dget d k) eqn:E; [|reflexivity]. exfalso. apply H. apply dmem_In. unfold dmem. now rewrite E.
Qed.
Lemma dget_ddel_same (d : cdict) k : NoDup (map fst d) -> dget (ddel d k) k = None.
Proof.
  induction d as [|[k' v] d IH]; [reflexivity|]. cbn [map fst]. intros H. inv H. cbn [ddel].
  destruct (str_eqb_spec k' k) as [->|N]; [now apply dget_notin|]. cbn [dget].
  rewrite (proj2 (str_eqb_neq k' k) N). auto.
Qed.
Lemma ddel_incl (d : cdict) k : incl (map fst (ddel d k)) (map fst d).
Proof.
  induction d as [|[k' v] d IH]; intros x; [auto|]. cbn [ddel]. destruct (str_eqb k' k).
  - cbn. auto.
  - cbn [map fst In]. intros [->|H]; [now left|right; apply IH, H].
Qed.
Lemma ddel_nodup (d : cdict) k : NoDup (map fst d) -> NoDup (map fst (ddel d k)).
Proof.
  induction d as [|[k' v] d IH]; [auto|]. cbn [map fst ddel]. intros H. inv H. destruct (str_eqb k' k); [assumption|].
  cbn [map fst]. constructor; auto. intros I. apply (ddel_incl d k) in I. auto.
Qed.
Lemma dset_keys_in (d : cdict) k v : dget d k <> None -> map fst (dset d k v) = map fst d.
Proof.
  induction d as [|[k' v'] d IH]; cbn [dget dset map fst]; [congruence|].
  destruct (str_eqb_spec k' k) as [->|N]; [reflexivity|]. intros H. cbn [map fst]. now rewrite IH.
Qed.

Definition opening (ev : cevent) : Prop := match ev with EOpen _ _ | EDse _ => True | _ => False end.

Lemma pop_spec d k v d' : pop d k = (v, d') ->
  v = conf d k /\ (forall k2, k <> k2 -> dget d' k2 = dget d k2) /\ incl (map fst d') (map fst d) /\
  (NoDup (map fst d) -> NoDup (map fst d') /\ dget d' k = None).
Proof.
  unfold pop, conf. destruct (dget d k) as [x|] eqn:E; intros H; inv H.
  - split; [reflexivity|]. split; [intros; now apply dget_ddel_other|]. split; [apply ddel_incl|].
    intros N. split; [now apply ddel_nodup|now apply dget_ddel_same].
  - split; [reflexivity|]. split; [reflexivity|]. split; [apply incl_refl|]. auto.
Qed.

Section S.
  Context (upper lower : str -> str).

  Lemma choose_socket_spec w e st r w1 : choose_socket w e st = (r, w1) ->
    cw_defs w1 = cw_defs w /\
    (exists t, cw_trace w1 = cw_trace w ++ t /\
      (t = [] \/ exists u, t = [EOpen u (sock_params st)] /\ sget st (lit "server") = VStr u)) /\
    (forall u ps, r = Ok (u, ps) ->
      (sget st (lit "server") = VStr u /\ ps = sock_params st /\ cw_trace w1 = cw_trace w ++ [EOpen u ps] /\
        e_open e u ps = Ok tt /\
        (truthy (sget st (lit "reuse_connection")) = true -> dget (cw_reg w) u = None /\ cw_reg w1 = dset (cw_reg w) u ps) /\
        (truthy (sget st (lit "reuse_connection")) = false -> cw_reg w1 = cw_reg w)) \/
      (sget st (lit "server") = VStr u /\ truthy (sget st (lit "reuse_connection")) = true /\
        dget (cw_reg w) u = Some ps /\ w1 = w) \/
      (sget st (lit "server") = VSock u ps /\ w1 = w)).
  Proof.
    clear upper lower.
    unfold choose_socket. intros H.
    destruct (sget st (lit "server")) as [| | |u| | | | | | |u ps0|] eqn:Es;
      try (inv H; split; [reflexivity|split; [exists []; split; [now rewrite app_nil_r|auto]|discriminate]]).
    - destruct (truthy (sget st (lit "reuse_connection"))) eqn:R.
      + destruct (dget (cw_reg w) u) as [ps0|] eqn:G.
        * inv H. split; [reflexivity|]. split; [exists []; split; [now rewrite app_nil_r|auto]|].
          intros u0 ps H. inv H. right; left. auto.
        * destruct (e_open e u (sock_params st)) as [x|x] eqn:O; inv H.
          -- cbn. split; [reflexivity|]. split; [exists [EOpen u (sock_params st)]; split; eauto|].
             intros u0 ps H. inv H. left. destruct x. repeat split; auto; discriminate.
          -- split; [reflexivity|]. split; [exists []; split; [now rewrite app_nil_r|auto]|discriminate].
      + destruct (e_open e u (sock_params st)) as [x|x] eqn:O; inv H.
        * cbn. split; [reflexivity|]. split; [exists [EOpen u (sock_params st)]; split; eauto|].
          intros u0 ps H. inv H. left. destruct x. repeat split; auto; discriminate.
        * split; [reflexivity|]. split; [exists []; split; [now rewrite app_nil_r|auto]|discriminate].
    - inv H. split; [reflexivity|]. split; [exists []; split; [now rewrite app_nil_r|auto]|].
      intros u0 ps H. inv H. auto.
  Qed.

  Lemma ldap_init_spec w e kw r w1 : ldap_init w e kw = (r, w1) ->
    cw_defs w1 = cw_defs w /\
    (exists t, cw_trace w1 = cw_trace w ++ t /\ Forall opening t) /\
    (forall k, In k (map fst kw) -> dmem ctor_params k = false -> r = Raise TypeError /\ w1 = w) /\
    (forall c, r = Ok c ->
      let st := settings (cw_defs w) kw in
      (forall k, In k (map fst kw) -> dmem ctor_params k = true) /\
      cn_settings c = st /\ cn_tags c = [] /\
      (exists d, e_dse e = Ok d /\ find_base (sget st (lit "base_dn")) d = Ok (cn_base c)) /\
      (exists l, (match sget st (lit "validators") with VNone => Ok [] | v => iter_val v end) = Ok l /\
                 init_validators l = Ok (cn_validators c)) /\
      exists w0, choose_socket w e st = (Ok (cn_uri c, cn_params c), w0) /\ w1 = log_ev w0 (EDse (cn_uri c))).
  Proof.
    unfold ldap_init. intros H.
    destruct (forallb (fun kv => dmem ctor_params (fst kv)) kw) eqn:F; cbn [negb] in H.
    2:{ inv H. split; [reflexivity|]. split; [exists []; split; [now rewrite app_nil_r|constructor]|].
        split; [auto|discriminate]. }
    rewrite forallb_forall in F.
    assert (F' : forall k, In k (map fst kw) -> dmem ctor_params k = true).
    { intros k I. apply in_map_iff in I as ((k', v) & E & I). cbn in E; subst k'. exact (F _ I). }
    destruct (choose_socket w e (settings (cw_defs w) kw)) as [q w0] eqn:C.
    destruct (choose_socket_spec _ _ _ _ _ C) as (D0 & (t & T & Ht) & _).
    assert (Fo : Forall opening t) by (destruct Ht as [->|(u & -> & _)]; repeat constructor).
    assert (Unk : forall (rr : res conn) ww, forall k, In k (map fst kw) -> dmem ctor_params k = false ->
                  rr = Raise TypeError /\ ww = w).
    { intros rr ww k I M. rewrite (F' k I) in M. discriminate. }
    destruct q as [[uri ps]|x].
    2:{ inv H. split; [exact D0|]. split; [eauto|]. split; [apply Unk|discriminate]. }
    cbv zeta in H.
    destruct (let* l := match sget (settings (cw_defs w) kw) (lit "validators") with
                        | VNone => Ok [] | v => iter_val v end in init_validators l) as [vals|x] eqn:V.
    2:{ inv H. split; [exact D0|]. split; [eauto|]. split; [apply Unk|discriminate]. }
    assert (T2 : exists t, cw_trace (log_ev w0 (EDse uri)) = cw_trace w ++ t /\ Forall opening t).
    { exists (t ++ [EDse uri]). cbn. rewrite T, app_assoc. split; [reflexivity|].
      apply Forall_app; split; [exact Fo|repeat constructor]. }
    destruct (e_dse e) as [d|x] eqn:De.
    2:{ inv H. split; [exact D0|]. split; [eauto|]. split; [apply Unk|discriminate]. }
    destruct (find_base (sget (settings (cw_defs w) kw) (lit "base_dn")) d) as [b|x] eqn:B.
    2:{ inv H. split; [exact D0|]. split; [eauto|]. split; [apply Unk|discriminate]. }
    inv H. split; [exact D0|]. split; [eauto|]. split; [apply Unk|].
    intros c H. inv H. cbn [cn_settings cn_tags cn_base cn_validators cn_uri cn_params]. cbv zeta. split; [exact F'|]. split; [reflexivity|]. split; [reflexivity|].
    split; [eauto|]. split.
    - unfold bind in V. destruct (match sget (settings (cw_defs w) kw) (lit "validators") with
                        | VNone => Ok [] | v => iter_val v end) as [l|]; [eauto|discriminate].
    - eauto.
  Qed.

  Lemma map_key_spec d k f r d' : map_key d k f = (r, d') ->
    map fst d' = map fst d /\ (forall k2, k <> k2 -> dget d' k2 = dget d k2) /\
    (forall x, r = Raise x -> exists v, dget d k = Some v /\ f v = Raise x) /\
    (r = Ok tt -> forall v, dget d k = Some v -> exists v', f v = Ok v' /\ dget d' k = Some v') /\
    (dget d k = None -> d' = d /\ r = Ok tt).
  Proof.
    clear upper lower.
    unfold map_key. intros H. destruct (dget d k) as [v|] eqn:E.
    - destruct (f v) as [v'|x] eqn:F; inv H.
      + split; [apply dset_keys_in; congruence|]. split; [intros; now apply dget_dset_other|].
        split; [discriminate|]. split; [|discriminate]. intros _ v0 H. inv H. exists v'. split; [exact F|apply dget_dset_here].
      + split; [reflexivity|]. split; [reflexivity|]. split; [intros y H; inv H; eauto|].
        split; [discriminate|discriminate].
    - inv H. split; [reflexivity|]. split; [reflexivity|]. split; [discriminate|]. split; [discriminate|auto].
  Qed.

  (** The dict handed to the constructor: the section without the three popped keys, mapped *)
  Definition handed (e : env) (d kw : cdict) : Prop :=
    (NoDup (map fst d) -> dget kw (lit "start_tls") = None /\ dget kw (lit "simple_bind") = None /\ dget kw (lit "sasl_bind") = None /\
      NoDup (map fst kw)) /\
    incl (map fst kw) (map fst d) /\
    (forall k, ~ In k [lit "start_tls"; lit "simple_bind"; lit "sasl_bind"; lit "validators"; lit "default_filter_syntax"] ->
       dget kw k = dget d k) /\
    (dget d (lit "validators") = None -> dget kw (lit "validators") = None) /\
    (forall v, dget d (lit "validators") = Some v -> exists v', validator_mapper e v = Ok v' /\ dget kw (lit "validators") = Some v') /\
    (forall v, dget d (lit "default_filter_syntax") = Some v -> exists v', dget kw (lit "default_filter_syntax") = Some v').

  Lemma cc_spec w e d objs r w' d' objs' :
    create_connection upper lower w e d objs = (r, w', (d', objs')) ->
    (NoDup (map fst d) -> dget d' (lit "start_tls") = None /\ dget d' (lit "simple_bind") = None /\ dget d' (lit "sasl_bind") = None /\ NoDup (map fst d')) /\
    ((truthy (conf d (lit "simple_bind")) = true /\ truthy (conf d (lit "sasl_bind")) = true /\
      r = Raise TypeError /\ w' = w) \/
     (truthy (conf d (lit "simple_bind")) && truthy (conf d (lit "sasl_bind")) = false /\
      ((exists x, r = Raise x /\ w' = w /\ (* a mapper refused *)
         ((exists v, dget d (lit "validators") = Some v /\ validator_mapper e v = Raise x) \/
          (exists v, dget d (lit "default_filter_syntax") = Some v /\ syntax_string upper v = Raise x))) \/
       exists kw, handed e d kw /\ d' = kw /\
        ((exists x, ldap_init w e kw = (Raise x, w') /\ r = Raise x) \/
         exists c w1, ldap_init w e kw = (Ok c, w1) /\
          ((exists x w2, do_tls w1 e (conf d (lit "start_tls")) = (Raise x, w2) /\ r = Raise x /\ w' = w2) \/
           exists w2, do_tls w1 e (conf d (lit "start_tls")) = (Ok tt, w2) /\
            ((exists x w3, do_simple w2 e (conf d (lit "simple_bind")) = (Raise x, w3) /\ r = Raise x /\ w' = w3) \/
             exists w3, do_simple w2 e (conf d (lit "simple_bind")) = (Ok tt, w3) /\
              ((exists x w4, do_sasl w3 e (conf d (lit "sasl_bind")) = (Raise x, w4) /\ r = Raise x /\ w' = w4) \/
               (do_sasl w3 e (conf d (lit "sasl_bind")) = (Ok tt, w') /\
                create_objects lower e c objs = (r, objs'))))))))).
  Proof.
    unfold create_connection. intros H.
    destruct (pop d (lit "start_tls")) as [tls d1] eqn:P1.
    destruct (pop d1 (lit "simple_bind")) as [simple d2] eqn:P2.
    destruct (pop d2 (lit "sasl_bind")) as [sasl d3] eqn:P3.
    apply pop_spec in P1 as (-> & G1 & I1 & N1). apply pop_spec in P2 as (-> & G2 & I2 & N2).
    apply pop_spec in P3 as (-> & G3 & I3 & N3).
    assert (E2 : conf d1 (lit "simple_bind") = conf d (lit "simple_bind"))
      by (unfold conf; rewrite G1; [reflexivity|discriminate]).
    assert (E3 : conf d2 (lit "sasl_bind") = conf d (lit "sasl_bind"))
      by (unfold conf; rewrite G2, G1; [reflexivity|discriminate|discriminate]).
    rewrite E2, E3 in H. clear E2 E3.
    assert (K3 : NoDup (map fst d) -> dget d3 (lit "start_tls") = None /\ dget d3 (lit "simple_bind") = None /\
                 dget d3 (lit "sasl_bind") = None /\ NoDup (map fst d3)).
    { intros N. destruct (N1 N) as [Na A]. destruct (N2 Na) as [Nb B]. destruct (N3 Nb) as [Nc C].
      rewrite (G3 (lit "start_tls")), (G2 (lit "start_tls")), (G3 (lit "simple_bind")) by discriminate. auto. }
    assert (G : forall k, ~ In k [lit "start_tls"; lit "simple_bind"; lit "sasl_bind"] -> dget d3 k = dget d k).
    { intros k Hk. rewrite G3, G2, G1; [reflexivity| | |]; intros <-; apply Hk; cbn [In]; auto. }
    destruct (truthy (conf d (lit "simple_bind")) && truthy (conf d (lit "sasl_bind"))) eqn:B.
    { inv H. split; [exact K3|]. left. apply andb_true_iff in B as [B1 B2]. auto. }
    destruct (map_key d3 (lit "validators") (validator_mapper e)) as [q d4] eqn:M1.
    apply map_key_spec in M1 as (Km1 & Gm1 & Em1 & Om1 & Nm1).
    assert (K4 : NoDup (map fst d) -> dget d4 (lit "start_tls") = None /\ dget d4 (lit "simple_bind") = None /\
                 dget d4 (lit "sasl_bind") = None /\ NoDup (map fst d4)).
    { intros N. rewrite !Gm1 by discriminate. rewrite Km1. auto. }
    destruct q as [[]|x].
    2:{ inv H. split; [exact K4|]. right. split; [reflexivity|]. left. exists x. split; [reflexivity|].
        split; [reflexivity|]. left. destruct (Em1 x eq_refl) as (v & Ev & Ef). rewrite G in Ev by (cbn [In]; intuition discriminate). eauto. }
    destruct (map_key d4 (lit "default_filter_syntax") (syntax_string upper)) as [q d5] eqn:M2.
    apply map_key_spec in M2 as (Km2 & Gm2 & Em2 & Om2 & Nm2).
    assert (K5 : NoDup (map fst d) -> dget d5 (lit "start_tls") = None /\ dget d5 (lit "simple_bind") = None /\
                 dget d5 (lit "sasl_bind") = None /\ NoDup (map fst d5)).
    { intros N. rewrite !Gm2 by discriminate. rewrite Km2. auto. }
    destruct q as [[]|x].
    2:{ inv H. split; [exact K5|]. right. split; [reflexivity|]. left. exists x. split; [reflexivity|].
        split; [reflexivity|]. right. destruct (Em2 x eq_refl) as (v & Ev & Ef).
        rewrite Gm1, G in Ev by (try discriminate; cbn [In]; intuition discriminate). eauto. }
    assert (Ha : handed e d d5).
    { split; [exact K5|]. split; [|split; [|split; [|split]]].
      - rewrite Km2, Km1. intros z Hz. apply I1, I2, I3, Hz.
      - intros k Hk. rewrite Gm2, Gm1, G; [reflexivity| | |].
        + intros Hi. apply Hk. cbn [In] in *. tauto.
        + intros <-. apply Hk. cbn [In]. auto 10.
        + intros <-. apply Hk. cbn [In]. auto 10.
      - intros Hn. rewrite Gm2 by discriminate. assert (En : dget d3 (lit "validators") = None) by
          (rewrite G by (cbn [In]; intuition discriminate); exact Hn).
        destruct (Nm1 En) as [-> _]. exact En.
      - intros v Hv. rewrite Gm2 by discriminate. apply (Om1 eq_refl).
        rewrite G by (cbn [In]; intuition discriminate). exact Hv.
      - intros v Hv. destruct (Om2 eq_refl v) as (v' & _ & E).
        + rewrite Gm1, G by (try discriminate; cbn [In]; intuition discriminate). exact Hv.
        + eauto. }
    destruct (ldap_init w e d5) as [[c|x] w1] eqn:L.
    2:{ inv H. split; [exact K5|]. right. split; [reflexivity|]. right. exists d'. split; [exact Ha|]. split; [reflexivity|].
        left. eauto. }
    destruct (do_tls w1 e (conf d (lit "start_tls"))) as [[[]|x] w2] eqn:T.
    2:{ inv H. split; [exact K5|]. right. split; [reflexivity|]. right. exists d'. split; [exact Ha|]. split; [reflexivity|].
        right. exists c, w1. split; [exact L|]. left. eauto. }
    destruct (do_simple w2 e (conf d (lit "simple_bind"))) as [[[]|x] w3] eqn:S1.
    2:{ inv H. split; [exact K5|]. right. split; [reflexivity|]. right. exists d'. split; [exact Ha|]. split; [reflexivity|].
        right. exists c, w1. split; [exact L|]. right. exists w2. split; [exact T|]. left. eauto. }
    destruct (do_sasl w3 e (conf d (lit "sasl_bind"))) as [[[]|x] w4] eqn:S2.
    2:{ inv H. split; [exact K5|]. right. split; [reflexivity|]. right. exists d'. split; [exact Ha|]. split; [reflexivity|].
        right. exists c, w1. split; [exact L|]. right. exists w2. split; [exact T|]. right. exists w3. split; [exact S1|]. left. eauto. }
    destruct (create_objects lower e c objs) as [q o1] eqn:O. inv H.
    split; [exact K5|]. right. split; [reflexivity|]. right. exists d'. split; [exact Ha|]. split; [reflexivity|].
    right. exists c, w1. split; [exact L|]. right. exists w2. split; [exact T|]. right. exists w3. split; [exact S1|]. auto.
  Qed.

  Lemma do_tls_spec w e v r w' : do_tls w e v = (r, w') ->
    (truthy v = false /\ r = Ok tt /\ w' = w) \/
    (truthy v = true /\ r = e_tls e /\ cw_trace w' = cw_trace w ++ [EStartTls] /\ cw_defs w' = cw_defs w).
  Proof.
    clear upper lower. unfold do_tls. destruct (truthy v) eqn:E; intros H; inv H; auto.
  Qed.
  Lemma do_simple_spec w e v r w' : do_simple w e v = (r, w') ->
    (truthy v = false /\ r = Ok tt /\ w' = w) \/
    (truthy v = true /\ (forall d, v <> VDict d) /\ r = Raise TypeError /\ w' = w) \/
    (exists d, v = VDict d /\ truthy v = true /\ r = e_simple e d /\ cw_trace w' = cw_trace w ++ [ESimpleBind d] /\ cw_defs w' = cw_defs w).
  Proof.
    clear upper lower. unfold do_simple. destruct (truthy v) eqn:E; intros H; [|inv H; auto].
    destruct v; inv H; right; try (left; repeat split; auto; discriminate). right. eauto 6.
  Qed.
  Lemma do_sasl_spec w e v r w' : do_sasl w e v = (r, w') ->
    (truthy v = false /\ r = Ok tt /\ w' = w) \/
    (truthy v = true /\ (forall d, v <> VDict d) /\ r = Raise TypeError /\ w' = w) \/
    (exists d, v = VDict d /\ truthy v = true /\ r = e_sasl e d /\ cw_trace w' = cw_trace w ++ [ESaslBind d] /\ cw_defs w' = cw_defs w).
  Proof.
    clear upper lower. unfold do_sasl. destruct (truthy v) eqn:E; intros H; [|inv H; auto].
    destruct v; inv H; right; try (left; repeat split; auto; discriminate). right. eauto 6.
  Qed.
End S.
