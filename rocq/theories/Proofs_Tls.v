(** * Proofs about TLS and extended requests *)
From Verif Require Import PyBase Model_Uri Spec_Uri Proofs_Uri Props_Uri Model_Conn Model_Controls Spec_Controls Proofs_Controls Props_Controls Model_Search Model_Tls Spec_Tls.

Lemma filled_iff a : filled a = true <-> exists c x, a = Some (c :: x).
Proof. destruct a as [[|c x]|]; cbn; split; try discriminate; eauto; intros (c' & x' & E); discriminate. Qed.
Lemma filled3 f p d : (filled f || filled p || filled d)%bool = true <-> named_cas f p d.
Proof.
  rewrite !orb_true_iff, !filled_iff. unfold named_cas. split.
  - intros [[(c & x & ->)|(c & x & ->)]|(c & x & ->)]; exists x, c; auto.
  - intros (x & c & [->|[->| ->]]); eauto 6.
Qed.
Lemma filled2 p d : (filled p || filled d)%bool = true <-> named_cas None p d.
Proof. rewrite <- filled3. reflexivity. Qed.

(** subject_cn finds a common name of the subject *)
Lemma subject_cn_In subject cn : subject_cn subject = Ok cn -> exists rdn, In ((lit "commonName", cn) :: rdn) subject.
Proof.
  unfold subject_cn.
  assert (G : forall l (d : list (str * str)), (forall v, dget d (lit "commonName") = Some v -> exists rdn, In ((lit "commonName", v) :: rdn) subject) ->
    (forall r, In r l -> In r subject) ->
    forall d', fold_left (fun r x => let* d := r in let* kv := x in Ok (dset d (fst kv) (snd kv)))
      (map (fun rdn : list (str * str) => match rdn with ava :: _ => Ok ava | [] => Raise IndexError end) l) (Ok d) = Ok d' ->
    forall v, dget d' (lit "commonName") = Some v -> exists rdn, In ((lit "commonName", v) :: rdn) subject).
  { assert (F : forall l x d', fold_left (fun r x => let* d := r in let* kv := x in Ok (dset d (fst kv) (snd kv))) l (@Raise (list (str * str)) x) <> Ok d').
    { induction l as [|a l IH]; intros x d'; cbn [fold_left bind]; [discriminate|apply IH]. }
    induction l as [|r l IH]; intros d Hd Hl d'; cbn [map fold_left].
    - intros [= <-]. exact Hd.
    - destruct r as [|[k v0] rest]; cbn [bind fst snd].
      + intros E. destruct (F _ _ _ E).
      + apply IH; [|intros r' Hr; apply Hl; now right]. intros v. rewrite dget_dset. destruct (str_eqb_spec k (lit "commonName")) as [E|E]; [|apply Hd].
        intros [= <-]. exists rest. apply Hl. left. now rewrite E. }
  destruct (fold_left _ _ _) as [d|x] eqn:E; [|discriminate]. cbn [bind]. destruct (dget d (lit "commonName")) as [v|] eqn:Ed; [|discriminate].
  intros [= <-]. eapply G; [| |exact E|exact Ed]; [discriminate|auto].
Qed.
Lemma verify_peer_host host c : verify_peer true host (ct_subject c) (ct_sans c) = Ok tt -> of_host host c.
Proof.
  intros H. apply C38_tls_verified in H as (cn & E & N). destruct (subject_cn_In _ _ E) as [rdn Hi]. exists cn, rdn. auto.
Qed.

(** ** the socket's start_tls *)
Lemma wrap_layer_spec s t v tr : let '(t', r) := wrap_layer s t v tr in
  r = s_wrap s v tr /\ ts_started t' = ts_started t /\ ts_sent t' = ts_sent t /\ (ts_dead t = true -> ts_dead t' = true) /\
  match r with Ok c => t' = mk_ts (mk_layer v tr c :: ts_layers t) (ts_started t) (ts_dead t) (ts_sent t)
             | Raise _ => ts_layers t' = ts_layers t /\ (s_detach s = true -> ts_dead t' = true) end.
Proof.
  unfold wrap_layer. destruct (s_wrap s v tr) as [c|x]; cbn; [auto 10|]. repeat (split; [reflexivity|]). split; [now intros ->|].
  split; [reflexivity|]. intros ->. apply orb_true_r.
Qed.
(** the wrapping, whichever way *)
Definition wrapped s t v f p d : tsock * res cert :=
  let '(t1, r1) := wrap_context s t v f p d in if is_attribute_error r1 then wrap_legacy s t1 v f p d else (t1, r1).
Lemma sock_start_tls_eq s host t v f p d : sock_start_tls s host t v f p d =
  if ts_started t then (t, Raise LDAPError)
  else let '(t2, r2) := wrapped s t v f p d in
       match r2 with
       | Raise x => (t2, Raise x)
       | Ok c => match verify_peer v host (ct_subject c) (ct_sans c) with
                 | Raise x => (t2, Raise x)
                 | Ok _ => (mk_ts (ts_layers t2) true (ts_dead t2) (ts_sent t2), Ok tt)
                 end
       end.
Proof. unfold sock_start_tls, wrapped. destruct (wrap_context s t v f p d) as [t1 r1]. reflexivity. Qed.
Lemma wrapped_spec s t v f p d : let '(t', r) := wrapped s t v f p d in
  ts_started t' = ts_started t /\ ts_sent t' = ts_sent t /\ (ts_dead t = true -> ts_dead t' = true) /\
  match r with
  | Ok c => exists tr l0 dd, s_wrap s v tr = Ok c /\ t' = mk_ts (mk_layer v tr c :: l0) (ts_started t) dd (ts_sent t) /\ l0 = ts_layers t /\
      (tr = Ctx v (if filled f || filled p || filled d then Some (f, p, d) else None) \/ ((filled p || filled d)%bool = false /\ tr = Legacy f))
  | Raise _ => ts_layers t' = ts_layers t
  end.
Proof.
  unfold wrapped.
  assert (C : let '(t1, r1) := wrap_context s t v f p d in ts_started t1 = ts_started t /\ ts_sent t1 = ts_sent t /\ (ts_dead t = true -> ts_dead t1 = true) /\
    match r1 with
    | Ok c => exists tr, s_wrap s v tr = Ok c /\ t1 = mk_ts (mk_layer v tr c :: ts_layers t) (ts_started t) (ts_dead t) (ts_sent t) /\ tr = Ctx v (if filled f || filled p || filled d then Some (f, p, d) else None)
    | Raise _ => ts_layers t1 = ts_layers t
    end).
  { unfold wrap_context. destruct (s_context s); [|auto]. destruct (if v then s_defaults s else Ok tt); [|auto].
    destruct (if (filled f || filled p || filled d)%bool then s_locations s (f, p, d) else Ok tt); [|auto].
    set (tr := Ctx v _). pose proof (wrap_layer_spec s t v tr) as H. destruct (wrap_layer s t v tr) as [t1 r1]. destruct H as (H1 & H2 & H3 & H4 & H5).
    split; [exact H2|]. split; [exact H3|]. split; [exact H4|]. destruct r1 as [c|x]; [|apply H5]. exists tr. auto. }
  destruct (wrap_context s t v f p d) as [t1 r1]. destruct C as (C1 & C2 & C3 & C4). destruct (is_attribute_error r1) eqn:A.
  - destruct r1 as [c|x]; [discriminate|]. unfold wrap_legacy. destruct (filled p || filled d)%bool eqn:Fp; [auto|].
    pose proof (wrap_layer_spec s t1 v (Legacy f)) as H. destruct (wrap_layer s t1 v (Legacy f)) as [t2 r2]. destruct H as (H1 & H2 & H3 & H4 & H5).
    split; [congruence|]. split; [congruence|]. split; [auto|]. destruct r2 as [c|y]; [|destruct H5 as [H5 _]; congruence].
    exists (Legacy f), (ts_layers t1), (ts_dead t1). split; [congruence|]. split; [rewrite H5; congruence|]. auto.
  - split; [exact C1|]. split; [exact C2|]. split; [exact C3|]. destruct r1 as [c|x]; [|exact C4]. destruct C4 as (tr & D1 & D2 & D3).
    exists tr, (ts_layers t), (ts_dead t). auto.
Qed.
Lemma sock_start_tls_ok s host t verify f p d t' : sock_start_tls s host t verify f p d = (t', Ok tt) ->
  exists ly, ts_started t = false /\ ts_layers t' = ly :: ts_layers t /\ ts_started t' = true /\ ts_sent t' = ts_sent t /\ ly_verify ly = verify /\
    s_wrap s verify (ly_trust ly) = Ok (ly_cert ly) /\
    (ly_trust ly = Ctx verify (if filled f || filled p || filled d then Some (f, p, d) else None) \/ ((filled p || filled d)%bool = false /\ ly_trust ly = Legacy f)) /\
    verify_peer verify host (ct_subject (ly_cert ly)) (ct_sans (ly_cert ly)) = Ok tt.
Proof.
  rewrite sock_start_tls_eq. destruct (ts_started t) eqn:S0; [discriminate|]. pose proof (wrapped_spec s t verify f p d) as H.
  destruct (wrapped s t verify f p d) as [t2 [c|x]]; [|discriminate]. destruct H as (_ & _ & _ & tr & l0 & dd & Hw & -> & -> & Ht).
  destruct (verify_peer verify host (ct_subject c) (ct_sans c)) as [[]|x] eqn:V; [|discriminate]. intros [= <-].
  exists (mk_layer verify tr c). cbn [ly_verify ly_trust ly_cert ts_layers ts_started ts_sent]. auto 10.
Qed.
(** in general: nothing is sent, at most one layer is added, and started_tls is only set on success *)
Lemma sock_start_tls_any s host t verify f p d : let '(t', r) := sock_start_tls s host t verify f p d in
  ts_sent t' = ts_sent t /\ (ts_dead t = true -> ts_dead t' = true) /\ (ts_started t = true -> t' = t /\ r = Raise LDAPError) /\
  (r <> Ok tt -> ts_started t' = ts_started t) /\
  (r <> Ok tt -> ts_layers t' = ts_layers t \/ exists ly, ts_layers t' = ly :: ts_layers t /\ ly_verify ly = verify /\ s_wrap s verify (ly_trust ly) = Ok (ly_cert ly) /\
     verify_peer verify host (ct_subject (ly_cert ly)) (ct_sans (ly_cert ly)) <> Ok tt).
Proof.
  rewrite sock_start_tls_eq. destruct (ts_started t) eqn:S0; [auto 10|]. pose proof (wrapped_spec s t verify f p d) as H.
  destruct (wrapped s t verify f p d) as [t2 [c|x]]; destruct H as (H1 & H2 & H3 & H4).
  - destruct H4 as (tr & l0 & dd & Hw & -> & -> & Ht). destruct (verify_peer verify host (ct_subject c) (ct_sans c)) as [[]|x] eqn:V.
    + split; [exact H2|]. split; [exact H3|]. split; [discriminate|]. split; contradiction.
    + split; [exact H2|]. split; [exact H3|]. split; [discriminate|]. split; [intros _; congruence|]. intros _. right. exists (mk_layer verify tr c).
      cbn [ly_verify ly_trust ly_cert ts_layers]. repeat (split; [solve [auto]|]). congruence.
  - split; [exact H2|]. split; [exact H3|]. split; [discriminate|]. split; [intros _; congruence|]. auto.
Qed.
(** a handshake that fails is the end of the connection, where the ssl module takes it down *)
Lemma handshake_fails s host t verify f p d : ts_started t = false -> s_context s = true -> s_detach s = true ->
  (verify = true -> s_defaults s = Ok tt) -> (forall l, s_locations s l = Ok tt) -> (forall tr, exists x, s_wrap s verify tr = Raise x) ->
  let '(t', r) := sock_start_tls s host t verify f p d in r <> Ok tt /\ ts_dead t' = true.
Proof.
  intros S0 C D E1 E2 W. rewrite sock_start_tls_eq, S0. unfold wrapped, wrap_context. rewrite C.
  replace (if verify then s_defaults s else Ok tt) with (Ok tt) by (destruct verify; [now rewrite E1|reflexivity]). rewrite E2.
  replace (if (filled f || filled p || filled d)%bool then Ok tt else Ok tt) with (Ok tt) by (destruct (filled f || filled p || filled d)%bool; reflexivity).
  set (tr := Ctx verify _). destruct (W tr) as [x Hx]. pose proof (wrap_layer_spec s t verify tr) as H. destruct (wrap_layer s t verify tr) as [t1 r1].
  destruct H as (H1 & _ & _ & _ & H5). rewrite Hx in H1. subst r1. destruct H5 as [_ H5]. specialize (H5 D).
  destruct (is_attribute_error (Raise x)); [|split; [discriminate|exact H5]].
  unfold wrap_legacy. destruct (filled p || filled d)%bool; [split; [discriminate|exact H5]|].
  destruct (W (Legacy f)) as [y Hy]. pose proof (wrap_layer_spec s t1 verify (Legacy f)) as H. destruct (wrap_layer s t1 verify (Legacy f)) as [t2 r2].
  destruct H as (H1 & _ & _ & _ & H6). rewrite Hy in H1. subst r2. destruct H6 as [_ H6]. split; [discriminate|]. exact (H6 D).
Qed.

Section P.
  Context (encode : str -> res (list N)).

  Lemma tsend_spec t m : (ts_dead t = true /\ tsend t m = (t, Raise os_error)) \/
    (ts_dead t = false /\ tsend t m = (mk_ts (ts_layers t) (ts_started t) false (ts_sent t ++ [(ts_layers t, m)]), Ok tt)).
  Proof. unfold tsend. destruct (ts_dead t); auto. Qed.

  (** what send_extended_request does, in one statement *)
  Lemma ext_cases k t oid v kw : let '(t', r) := send_extended_request encode k t oid v kw in
    (t' = t /\ exists x, r = Raise x /\
       (c_supports k oid = Raise x \/ (c_supports k oid = Ok false /\ x = LDAPSupportError) \/
        (c_supports k oid = Ok true /\
          ((v = XOtherVal /\ x = TypeError) \/ (exists s, v = XText s /\ encode s = Raise x) \/
           (v <> XOtherVal /\ (exists b, value_sent encode v b) /\
             (process_kwds (c_reg k) (lit "ext") kw (c_controls k) (c_crit k) false = Raise x \/
              ((exists q, process_kwds (c_reg k) (lit "ext") kw (c_controls k) (c_crit k) false = Ok q) /\ ts_dead t = true /\ x = os_error))))))) \/
    (exists b cs rest, c_supports k oid = Ok true /\ value_sent encode v b /\ ts_dead t = false /\
       process_kwds (c_reg k) (lit "ext") kw (c_controls k) (c_crit k) false = Ok (cs, rest) /\
       t' = mk_ts (ts_layers t) (ts_started t) false (ts_sent t ++ [(ts_layers t, MExt oid b cs)]) /\
       ((all_in rest [lit "require_success"] = true /\ r = Ok (match dget rest (lit "require_success") with Some v => truthy_kw v | None => false end)) \/
        (all_in rest [lit "require_success"] = false /\ r = Raise TypeError))).
  Proof.
    unfold send_extended_request. destruct (c_supports k oid) as [[]|x] eqn:Es; [|left; split; [reflexivity|eauto 8]|left; split; [reflexivity|eauto 8]].
    set (vv := match v with XNone => Ok None | _ => _ end).
    assert (V : (exists b, vv = Ok b /\ value_sent encode v b /\ v <> XOtherVal) \/ (exists x, vv = Raise x /\ ((v = XOtherVal /\ x = TypeError) \/ (exists s, v = XText s /\ encode s = Raise x)))).
    { unfold vv, value_sent. destruct v as [|s|b|]; [left; eexists; repeat split; discriminate| |left; eexists; repeat split; discriminate|right; eauto].
      destruct (encode s) as [b|x] eqn:Ee; cbn [bind]; [left; eexists; split; [reflexivity|]; split; [eauto|discriminate]|right; eauto 6]. }
    destruct V as [(b & -> & Vs & Vn)|(x & -> & Hx)].
    - destruct (process_kwds _ _ _ _ _ _) as [[cs rest]|x] eqn:Ep.
      + destruct (tsend_spec t (MExt oid b cs)) as [[Hd ->]|[Hd ->]].
        * left. split; [reflexivity|]. exists os_error. split; [reflexivity|]. right. right. split; [reflexivity|]. right. right. split; [exact Vn|]. split; [eauto|]. right. eauto.
        * destruct (all_in rest [lit "require_success"]) eqn:Ea; right; exists b, cs, rest; repeat (split; [solve [auto]|]); auto.
      + left. split; [reflexivity|]. exists x. split; [reflexivity|]. right. right. split; [reflexivity|]. right. right. eauto.
    - left. split; [reflexivity|]. exists x. split; [reflexivity|]. right. right. split; [reflexivity|]. destruct Hx as [Hx|Hx]; auto.
  Qed.
  (** everything keeps the layers, once TLS is on; a closed socket sends nothing; what is sent is only added *)
  Definition keeps (t t' : tsock) : Prop := ts_layers t' = ts_layers t /\ ts_started t' = ts_started t /\
    exists more, ts_sent t' = ts_sent t ++ more /\ Forall (fun x => fst x = ts_layers t) more /\ (ts_dead t = true -> more = [] /\ ts_dead t' = true).
  Lemma keeps_refl t : keeps t t.
  Proof. split; [reflexivity|]. split; [reflexivity|]. exists []. rewrite app_nil_r. repeat split; auto. Qed.
  Lemma keeps_trans a b c : keeps a b -> keeps b c -> keeps a c.
  Proof.
    intros (A1 & A2 & m1 & A3 & A4 & A5) (B1 & B2 & m2 & B3 & B4 & B5). split; [congruence|]. split; [congruence|]. exists (m1 ++ m2).
    rewrite B3, A3, app_assoc. split; [reflexivity|]. split.
    - apply Forall_app. split; [exact A4|]. rewrite <- A1. exact B4.
    - intros D. destruct (A5 D) as [-> D1]. destruct (B5 D1) as [-> D2]. auto.
  Qed.
  Lemma tsend_keeps t m : keeps t (fst (tsend t m)).
  Proof.
    destruct (tsend_spec t m) as [[Hd ->]|[Hd ->]]; cbn [fst]; [apply keeps_refl|]. split; [reflexivity|]. split; [reflexivity|]. eexists. split; [reflexivity|].
    split; [constructor; [reflexivity|constructor]|]. rewrite Hd. discriminate.
  Qed.
  Lemma ext_keeps k t oid v kw : keeps t (fst (send_extended_request encode k t oid v kw)).
  Proof.
    pose proof (ext_cases k t oid v kw) as H. destruct (send_extended_request encode k t oid v kw) as [t' r]. cbn [fst].
    destruct H as [[-> _]|(b & cs & rest & _ & _ & Hd & _ & -> & _)]; [apply keeps_refl|]. split; [reflexivity|]. split; [reflexivity|]. eexists. split; [reflexivity|].
    split; [constructor; [reflexivity|constructor]|]. rewrite Hd. discriminate.
  Qed.
  Lemma tstep_keeps host t o : ts_started t = true -> keeps t (fst (tstep encode host t o)).
  Proof.
    intros S0. destruct o as [s v f p d|s k v f p d ms rf|k oid v kw|k kw ms|n|]; cbn [tstep].
    - pose proof (sock_start_tls_any s host t v f p d) as H. destruct (sock_start_tls s host t v f p d) as [t' r]. destruct H as (_ & _ & H & _).
      destruct (H S0) as [-> _]. apply keeps_refl.
    - unfold ldap_start_tls. rewrite S0. apply keeps_refl.
    - pose proof (ext_keeps k t oid v kw) as H. destruct (send_extended_request encode k t oid v kw) as [t' r]. exact H.
    - unfold who_am_i. destruct (dmem kw (lit "require_success")); [apply keeps_refl|].
      match goal with |- context [send_extended_request encode k t oid_whoami XNone ?kw'] => pose proof (ext_keeps k t oid_whoami XNone kw') as H end.
      destruct (send_extended_request encode k t oid_whoami XNone _) as [t' [rs|x]]; exact H.
    - pose proof (tsend_keeps t (MOther n)) as H. destruct (tsend t (MOther n)) as [t' r]. exact H.
    - split; [reflexivity|]. split; [reflexivity|]. exists []. rewrite app_nil_r. split; [reflexivity|]. split; [constructor|]. intros D. cbn [fst ts_dead]. auto.
  Qed.
  Lemma trun_keeps host ops : forall t, ts_started t = true -> keeps t (trun encode host t ops).
  Proof.
    induction ops as [|o ops IH]; intros t S0; cbn [trun]; [apply keeps_refl|].
    pose proof (tstep_keeps host t o S0) as H. apply (keeps_trans _ (fst (tstep encode host t o))); [exact H|]. apply IH. destruct H as (_ & H & _). congruence.
  Qed.
  (** a closed socket sends nothing, TLS or not *)
  Definition closed_same (t t' : tsock) : Prop := ts_dead t = true -> ts_dead t' = true /\ ts_sent t' = ts_sent t.
  Lemma keeps_closed t t' : keeps t t' -> closed_same t t'.
  Proof. intros (_ & _ & m & H1 & _ & H2) D. destruct (H2 D) as [-> D']. rewrite app_nil_r in H1. auto. Qed.
  Lemma tstep_closed host t o : closed_same t (fst (tstep encode host t o)).
  Proof.
    intros D. destruct o as [s v f p d|s k v f p d ms rf|k oid v kw|k kw ms|n|]; cbn [tstep].
    - pose proof (sock_start_tls_any s host t v f p d) as H. destruct (sock_start_tls s host t v f p d) as [t' r]. destruct H as (H1 & H2 & _). auto.
    - unfold ldap_start_tls. destruct (ts_started t); [auto|].
      match goal with |- context [send_extended_request encode k t oid_starttls XNone ?kw'] => pose proof (ext_keeps k t oid_starttls XNone kw') as H end. apply keeps_closed in H.
      destruct (send_extended_request encode k t oid_starttls XNone _) as [t1 [rs|x]]; [|exact (H D)]. destruct (H D) as [D1 E1]. cbn [fst] in D1, E1.
      destruct (recv_response rs ms) as [[?|x]|]; [|auto|auto].
      match goal with |- context [sock_start_tls s host t1 ?v' ?f' ?p' ?d'] => pose proof (sock_start_tls_any s host t1 v' f' p' d') as Q end.
      destruct (sock_start_tls s host t1 _ _ _ _) as [t2 [u|x]]; destruct Q as (Q1 & Q2 & _); (assert (ts_dead t2 = true /\ ts_sent t2 = ts_sent t) as [D2 E2] by (split; [auto|congruence])).
      + destruct (tsend_spec t2 (MOther 0)) as [[_ ->]|[X _]]; [auto|congruence].
      + auto.
    - pose proof (ext_keeps k t oid v kw) as H. apply keeps_closed in H. destruct (send_extended_request encode k t oid v kw) as [t' r]. exact (H D).
    - unfold who_am_i. destruct (dmem kw (lit "require_success")); [auto|].
      match goal with |- context [send_extended_request encode k t oid_whoami XNone ?kw'] => pose proof (ext_keeps k t oid_whoami XNone kw') as H end. apply keeps_closed in H.
      destruct (send_extended_request encode k t oid_whoami XNone _) as [t' [rs|x]]; exact (H D).
    - destruct (tsend_spec t (MOther n)) as [[_ ->]|[X _]]; [auto|congruence].
    - auto.
  Qed.
  Lemma trun_closed host ops : forall t, closed_same t (trun encode host t ops).
  Proof.
    induction ops as [|o ops IH]; intros t D; cbn [trun]; [auto|]. destruct (tstep_closed host t o D) as [D1 E1]. destruct (IH _ D1) as [D2 E2]. split; [exact D2|congruence].
  Qed.
End P.
