From Verif Require Import PyBase Model_CIDict Model_Modify Model_Search Model_Dir Model_Filter Model_Request Model_Netgroups Model_Life Spec_Life Proofs_Life.

Section P.
  Context {S : Type} (sv : server S).
  Context (sv_search : S -> str -> scope -> option str -> option (list str) -> N -> option (list (str * list (str * list str)))).
  Context (lower : str -> str) (idx : str -> list str -> str -> res nat).
  Context (strict : bool) (flags : empty_flags) (syn : fsyntax).
  Context (vo : lobj -> res unit) (vm : str -> list mod_ -> option lobj -> res unit).
  Notation perform := (perform sv sv_search lower idx strict flags syn vo vm).
  Notation M := (@M S).

  (** which DNs may be asked about, and which a server may answer with *)
  Context (U R : str -> str -> Prop).
  Context (Urefl : forall d, U d d) (Uchild : forall d r, U d (r ++ lit "," ++ d)).
  Context (Hread : forall s d ats d' a, sv_read sv s d ats = Some (d', a) -> R d d').
  Context (Hsearch : forall s b sc f ats n l d' a, sv_search s b sc f ats n = Some l -> In (d', a) l -> R b d').

  Notation replay := (answered sv).

  Section D.
  Context (dn : str) (P : request -> Prop).
  (** code run on an object named [dn]: what it sends; [keep]: the object keeps name and connection *)
  Definition conf (keep : bool) {A} (Q : obj -> A -> Prop) (m : M A) : Prop := forall w, dn_text (w_o w) = dn ->
    match m w with (w', t, r) =>
      Forall P t /\ w_closed w' = w_closed w /\ (w_closed w = true -> t = []) /\ w_s w' = replay (w_s w) t /\
      (keep = true -> dn_text (w_o w') = dn /\ ob_conn (w_o w') = ob_conn (w_o w)) /\
      match r with Ok a => Q (w_o w) a | Raise _ => True end end.
  Notation any := (fun _ _ => True).
  (** [Q] talks about the connection of the object only *)
  Definition conn_only {A} (Q : obj -> A -> Prop) : Prop := forall o o' a, ob_conn o = ob_conn o' -> Q o a -> Q o' a.

  Lemma conf_bind b {A B} (Q : obj -> A -> Prop) (Q' : obj -> B -> Prop) (m : M A) (k : A -> M B) : conn_only Q' ->
    conf true Q m -> (forall o a, dn_text o = dn -> Q o a -> conf b (fun o' x => ob_conn o' = ob_conn o -> Q' o' x) (k a)) -> conf b Q' (bindM m k).
  Proof.
    intros HC Hm Hk w Hw. unfold bindM. pose proof (Hm w Hw) as H. destruct (m w) as [[w1 t1] [a|e]].
    - destruct H as (F1 & C1 & N1 & S1 & K1 & HQ). destruct (K1 eq_refl) as [D1 Cn1].
      pose proof (Hk (w_o w) a Hw HQ w1 D1) as H. destruct (k a w1) as [[w2 t2] r].
      destruct H as (F2 & C2 & N2 & S2 & K2 & HR). split; [now apply Forall_app|]. split; [congruence|]. split; [|split; [|split]].
      + intros Hc. rewrite (N1 Hc), N2; [reflexivity|congruence].
      + rewrite S2, S1. unfold answered. now rewrite fold_left_app.
      + intros Hb. destruct (K2 Hb) as [E1 E2]. split; congruence.
      + destruct r as [x|e]; [|exact I]. apply (HC (w_o w1)); [exact Cn1|]. apply HR. exact Cn1.
    - destruct H as (F1 & C1 & N1 & S1 & K1 & HQ). split; [exact F1|]. split; [exact C1|]. split; [exact N1|]. split; [exact S1|]. split; [|exact I]. intros _. now apply K1.
  Qed.
  Lemma conf_weak b {A} (Q Q' : obj -> A -> Prop) (m : M A) : (forall o a, Q o a -> Q' o a) -> conf b Q m -> conf b Q' m.
  Proof.
    intros HQ Hm w Hw. pose proof (Hm w Hw) as H. destruct (m w) as [[w1 t1] [a|e]]; [|exact H].
    destruct H as (H1 & H2 & H3 & H4 & H5 & H6). auto 8.
  Qed.
  Lemma conf_drop {A} (Q : obj -> A -> Prop) (m : M A) : conf true Q m -> conf false Q m.
  Proof.
    intros Hm w Hw. pose proof (Hm w Hw) as H. destruct (m w) as [[w1 t1] r].
    destruct H as (H1 & H2 & H3 & H4 & H5 & H6). split; [exact H1|]. split; [exact H2|]. split; [exact H3|]. split; [exact H4|]. split; [discriminate|exact H6].
  Qed.
  Lemma conn_any {A} : conn_only (fun (_ : obj) (_ : A) => True).
  Proof. intros o o' a _ _. exact I. Qed.
  (** sequencing when nothing is to be remembered *)
  Lemma conf_seq b {A B} (m : M A) (k : A -> M B) : conf true any m -> (forall a, conf b any (k a)) -> conf b any (bindM m k).
  Proof.
    intros Hm Hk. eapply conf_bind; [apply conn_any|exact Hm|]. intros o a Ho _. eapply conf_weak; [|apply Hk]. auto.
  Qed.
  (** ... or when the result is known only at the end *)
  Lemma conf_after b {A B} (Q' : obj -> B -> Prop) (m : M A) (k : A -> M B) : conn_only Q' -> conf true any m -> (forall a, conf b Q' (k a)) -> conf b Q' (bindM m k).
  Proof.
    intros HC Hm Hk. eapply conf_bind; [exact HC|exact Hm|]. intros o a Ho _. eapply conf_weak; [|apply Hk]. auto.
  Qed.
  Lemma conf_lift b {A} (r : res A) : conf b any (lift r).
  Proof. intros w Hw. cbn. repeat split; auto. now destruct r. Qed.
  Lemma conf_ret b {A} (Q : obj -> A -> Prop) (a : A) : (forall o, Q o a) -> conf b Q (ret a).
  Proof. intros H w Hw. cbn. repeat split; auto. Qed.
  Lemma conf_raise b {A} (Q : obj -> A -> Prop) e : conf b Q (@raise S A e).
  Proof. intros w Hw. cbn. repeat split; auto. Qed.
  Lemma conf_self_with b {A} (Q : obj -> A -> Prop) (k : obj -> M A) :
    (forall o, dn_text o = dn -> conf b (fun o' x => ob_conn o' = ob_conn o -> Q o' x) (k o)) -> conf b Q (bindM (@self S) k).
  Proof.
    intros H w Hw. unfold bindM, self. cbn. pose proof (H (w_o w) Hw w Hw) as X. destruct (k (w_o w) w) as [[w2 t2] r].
    destruct X as (H1 & H2 & H3 & H4 & H5 & H6). cbn [List.app]. split; [exact H1|]. split; [exact H2|]. split; [exact H3|]. split; [exact H4|]. split; [exact H5|].
    destruct r; auto.
  Qed.
  Lemma conf_self b {A} (k : obj -> M A) : (forall o, dn_text o = dn -> conf b any (k o)) -> conf b any (bindM (@self S) k).
  Proof. intros H. apply conf_self_with. intros o Ho. eapply conf_weak; [|exact (H o Ho)]. auto. Qed.
  Lemma conf_put_attrs b d : conf b any (@put_attrs S d).
  Proof. intros w Hw. cbn. repeat split; auto. Qed.
  Lemma conf_require b : conf b any (@require_ldap S).
  Proof. unfold require_ldap. apply conf_self. intros o _. destruct (ob_conn o); [now apply conf_ret|apply conf_raise]. Qed.
  Lemma conf_need b : conf b any (@need_conn S).
  Proof. unfold need_conn. apply conf_self. intros o _. destruct (ob_conn o); [now apply conf_ret|apply conf_raise]. Qed.
  Lemma conf_check b : conf b any (@check_open S).
  Proof. intros w Hw. cbn. repeat split; auto. now destruct (w_closed w). Qed.
  (** sending comes after the check *)
  Lemma conf_send_checked b {A B} (Q : obj -> B -> Prop) (m : M A) (k : A -> M B) (q : request) :
    P q ->
    (forall w, exists s1, s1 = fst (serve sv (w_s w) q) /\ match m w with (w', t, r) => w' = mk_world s1 (w_closed w) (w_o w) /\ t = [q] end) ->
    (forall a, (exists w, snd (m w) = Ok a) -> conf b Q (k a)) -> conn_only Q ->
    conf b Q (bindM (@check_open S) (fun _ => bindM m k)).
  Proof.
    intros HP Hm Hk HC w Hw. unfold bindM at 1, check_open. destruct (w_closed w) eqn:Hcl.
    - cbn. repeat split; auto.
    - cbn [List.app]. unfold bindM. destruct (Hm w) as (s1 & Es & E). destruct (m w) as [[w1 t1] [a|e]] eqn:Em.
      + destruct E as [-> ->]. pose proof (Hk a (ex_intro _ w (f_equal snd Em)) (mk_world s1 (w_closed w) (w_o w)) Hw) as X. destruct (k a _) as [[w2 t2] r].
        destruct X as (H1 & H2 & H3 & H4 & H5 & H6). cbn [w_closed w_o w_s] in *. split; [now constructor|]. split; [congruence|]. split; [congruence|].
        split; [rewrite H4, Es; reflexivity|]. split; [exact H5|exact H6].
      + destruct E as [-> ->]. cbn [w_closed w_o w_s]. split; [now constructor|]. split; [exact Hcl|]. split; [discriminate|]. split; [exact Es|]. split; auto.
  Qed.
  Lemma conf_send_checked1 b q : P q -> conf b any (bindM (@check_open S) (fun _ => send sv q)).
  Proof.
    intros HP w Hw. unfold bindM, check_open. destruct (w_closed w) eqn:Hcl.
    - cbn. repeat split; auto.
    - cbn [List.app]. unfold send. destruct (serve sv (w_s w) q) as [s' ok] eqn:E. cbn [w_closed w_o w_s].
      split; [now constructor|]. split; [auto|]. split; [discriminate|]. split; [unfold answered; cbn [fold_left]; now rewrite E|]. split; [auto|]. now destruct (success ok).
  Qed.

  (** *** looking *)
  Context (HPr : forall q, ~ changes q -> U dn (about q) -> P q).
  Lemma conf_get b d ats : U dn d -> conf b (fun _ l => R d (o_dn l)) (l_get sv lower d ats).
  Proof.
    intros HU. unfold l_get. eapply conf_send_checked with (q := QRead d ats).
    - apply HPr; [discriminate|exact HU].
    - intros w. exists (w_s w). split; [reflexivity|]. cbn. destruct w; auto.
    - intros a [w Ha]. cbn in Ha. injection Ha as Ha. destruct a as [[d' at']|]; [|apply conf_raise]. apply conf_ret. intros _. cbn. eapply Hread; eauto.
    - intros o o' a _ H. exact H.
  Qed.
  Lemma conf_search b base sc f sy ats n : U dn base -> conf b (fun _ l => Forall (fun x => R base (o_dn x)) l) (l_search sv_search lower base sc f sy ats n).
  Proof.
    intros HU w Hw. unfold l_search, bindM, check_open, lift. destruct (w_closed w) eqn:Hcl; [cbn; repeat split; auto|].
    destruct (match f with None => _ | Some _ => _ end) as [[]|e]; [|cbn; repeat split; auto].
    cbn [List.app]. destruct (sv_search (w_s w) base sc f ats n) as [l|] eqn:E.
    - cbn. rewrite E. cbn. split; [constructor; [|constructor]; apply HPr; [discriminate|exact HU]|]. repeat split; auto; try discriminate.
      apply Forall_forall. intros x Hx. apply in_map_iff in Hx. destruct Hx as ([d' a] & <- & Hin). cbn. eapply Hsearch; eauto.
    - cbn. rewrite E. cbn. split; [constructor; [|constructor]; apply HPr; [discriminate|exact HU]|]. repeat split; auto; discriminate.
  Qed.
  Lemma conf_compare b d a v : U dn d -> conf b any (l_compare sv d a v).
  Proof.
    intros HU. unfold l_compare. eapply conf_send_checked with (q := QCompare d a v).
    - apply HPr; [discriminate|exact HU].
    - intros w. exists (w_s w). split; [reflexivity|]. cbn. destruct w; auto.
    - intros c _. destruct (N.eqb c 6); [now apply conf_ret|]. destruct (N.eqb c 5); [now apply conf_ret|apply conf_raise].
    - apply conn_any.
  Qed.
  Lemma conf_rdn b r : conf b (fun _ d => U dn d) (@m_rdn S r).
  Proof.
    unfold m_rdn. apply conf_self_with. intros o Ho w Hw. cbn. repeat split; auto. unfold obj_rdn.
    destruct (rdn_attr_ (ob_rdn o) r) as [x|e]; [|exact I]. cbn [bind]. intros _. rewrite Ho. apply Uchild.
  Qed.
  Lemma conf_refresh b ats : conf b any (m_refresh sv lower ats).
  Proof.
    unfold m_refresh. apply conf_seq; [apply conf_require|]. intros _. apply conf_self. intros o Ho. apply conf_seq.
    - eapply conf_weak; [|apply conf_get]; [auto|rewrite Ho; apply Urefl].
    - intros got. apply conf_seq; [apply conf_put_attrs|]. intros _. apply conf_lift.
  Qed.
  Lemma conf_refresh_missing b ats : conf b any (m_refresh_missing sv lower ats).
  Proof. unfold m_refresh_missing. apply conf_self. intros o _. destruct (missing lower (as_lobj o) ats); [now apply conf_ret|apply conf_refresh]. Qed.
  Lemma conf_has_class b oc : conf b any (m_has_class sv lower idx oc).
  Proof. unfold m_has_class. apply conf_seq; [apply conf_refresh_missing|]. intros _. apply conf_self. intros o _. apply conf_lift. Qed.

  (** the objects returned: connected as this one, named below it or by the server's answer *)
  Definition okobj (conn : bool) (o : obj) : Prop := ob_conn o = conn /\ exists d d', ob_dn o = Some d' /\ U dn d /\ (d' = d \/ R d d').
  Definition okval (o : obj) (v : value) : Prop := match v with VObjs l => Forall (okobj (ob_conn o)) l | _ => True end.
  Lemma okval_conn : conn_only okval.
  Proof. intros o o' v E H. unfold okval in *. destruct v; auto. now rewrite <- E. Qed.
  Lemma conf_nothing m b : conf b any m -> conf b okval (@nothing S m).
  Proof.
    intros H w Hw. unfold nothing, bindM. pose proof (H w Hw) as X. destruct (m w) as [[w1 t1] [a|e]]; destruct X as (H1 & H2 & H3 & H4 & H5 & H6); cbn.
    - rewrite app_nil_r. split; [exact H1|]. split; [exact H2|]. split; [exact H3|]. split; [exact H4|]. split; [exact H5|exact I].
    - split; [exact H1|]. split; [exact H2|]. split; [exact H3|]. split; [exact H4|]. split; [exact H5|exact I].
  Qed.
  Lemma conf_get_child b r ats : conf b okval (m_get_child sv lower r ats).
  Proof.
    unfold m_get_child. apply conf_after; [apply okval_conn|apply conf_require|]. intros _.
    eapply conf_bind; [apply okval_conn|apply conf_rdn|]. intros o0 d _ Hd.
    eapply conf_bind; [|apply conf_get; exact Hd|].
    { intros o o' v E H E'. apply (okval_conn o); [exact E|]. apply H. congruence. }
    intros o1 got _ Hg. cbn beta in Hg. apply conf_self_with. intros o Ho. apply conf_ret. intros o' E _ _. constructor; [|constructor].
    split; [now rewrite E|]. exists d, (o_dn got). split; [reflexivity|]. split; [exact Hd|now right].
  Qed.
  Lemma conf_search_with b f sy ats n : conf b (fun o l => Forall (okobj (ob_conn o)) l) (m_search_with sv_search lower f sy ats n).
  Proof.
    assert (HC : conn_only (fun (o : obj) l => Forall (okobj (ob_conn o)) l)) by (intros o o' l E H; now rewrite <- E).
    unfold m_search_with. apply conf_after; [exact HC|apply conf_require|]. intros _. apply conf_self_with. intros o Ho.
    destruct (ob_scope o).
    - eapply conf_bind; [|apply conf_search; rewrite Ho; apply Urefl|].
      { intros o1 o2 l E H E'. rewrite <- E. apply H. congruence. }
      intros o1 l _ Hl. apply conf_ret. intros o2 E2 E. rewrite E. apply Forall_forall. intros x Hx. apply in_map_iff in Hx. destruct Hx as (y & <- & Hy).
      rewrite Forall_forall in Hl. pose proof (Hl y Hy) as HR. split; [reflexivity|]. exists dn, (o_dn y). rewrite Ho in HR. split; [reflexivity|]. split; [apply Urefl|now right].
    - apply conf_after; [|apply conf_check|].
      { intros o1 o2 l E H E'. rewrite <- E. apply H. congruence. }
      intros _. apply conf_raise.
  Qed.
  Lemma conf_find b r ats : conf b okval (m_find sv sv_search lower r ats).
  Proof.
    unfold m_find. apply conf_after; [apply okval_conn|apply conf_require|]. intros _. apply conf_self_with. intros o Ho.
    assert (HC : conn_only (fun (o' : obj) v => ob_conn o' = ob_conn o -> okval o' v)).
    { intros o1 o2 v E H E'. apply (okval_conn o1); [exact E|]. apply H. congruence. }
    destruct (ob_scope o) as [[| |]|].
    - apply conf_raise.
    - eapply conf_weak; [|apply conf_get_child]. auto.
    - apply conf_after; [exact HC|apply conf_lift|]. intros av.
      eapply conf_bind; [exact HC|apply conf_search_with|]. intros o1 l _ Hl. cbn beta in Hl. destruct l as [|x [|y l]]; [apply conf_raise| |apply conf_raise].
      apply conf_ret. intros o2 E2 E. inversion Hl as [|? ? Hx _]; subst. constructor; [|constructor]. now rewrite E2.
    - apply conf_raise.
  Qed.
  Lemma conf_looks b c : looks c -> conf b okval (perform c).
  Proof.
    intros Hc. destruct c; try destruct Hc; cbn [Model_Life.perform]; try (apply conf_nothing).
    - unfold m_obj. apply conf_self_with. intros o Ho.
      assert (HC : conn_only (fun (o' : obj) v => ob_conn o' = ob_conn o -> okval o' v)).
      { intros o1 o2 v E H E'. apply (okval_conn o1); [exact E|]. apply H. congruence. }
      apply conf_after; [exact HC| |].
      { destruct (negb (ob_conn o) && tagged); [apply conf_raise|now apply conf_ret]. }
      intros _. eapply conf_bind; [exact HC|apply conf_rdn|]. intros o0 d _ Hd. cbn beta in Hd. apply conf_ret. intros o' _ E. constructor; [|constructor].
      split; [cbn; congruence|]. exists d, d. split; [reflexivity|]. split; [exact Hd|now left].
    - apply conf_get_child.
    - unfold m_search. eapply conf_bind; [apply okval_conn|apply conf_search_with|]. intros o l _ Hl. cbn beta in Hl. apply conf_ret. intros o' E. unfold okval. now rewrite E.
    - apply conf_find.
    - unfold m_compare. apply conf_after; [apply okval_conn|apply conf_require|]. intros _. apply conf_self_with. intros o Ho.
      eapply conf_weak with (Q := okval); [auto|]. apply conf_after; [apply okval_conn|apply conf_compare; rewrite Ho; apply Urefl|]. intros x. apply conf_ret. intros; exact I.
    - apply conf_after; [apply okval_conn|apply conf_has_class|]. intros x. apply conf_ret. intros; exact I.
    - apply conf_refresh.
    - unfold m_refresh_all. apply conf_seq; [apply conf_require|]. intros _. apply conf_refresh.
    - apply conf_refresh_missing.
    - unfold m_validate. apply conf_seq; [apply conf_need|]. intros _. apply conf_self. intros o _. apply conf_lift.
    - unfold m_validate_modify. apply conf_seq; [apply conf_need|]. intros _. apply conf_self. intros o _. apply conf_lift.
    - unfold m_set. apply conf_self. intros o _. apply conf_put_attrs.
    - unfold m_del. apply conf_self. intros o _. apply conf_seq; [apply conf_put_attrs|]. intros _. apply conf_lift.
  Qed.

  (** *** changing *)
  Context (HPw : forall q, U dn (about q) -> P q).
  Lemma conf_l_modify b d ms cur : U dn d -> conf b any (l_modify sv flags vm d ms cur).
  Proof.
    intros HU w Hw. unfold l_modify.
    assert (HC : w_closed w = true -> snd (fst (ldap_modify (w_closed w) flags (vm d ms cur) (Ok tt) (Ok tt) ms)) = None).
    { intros ->. unfold ldap_modify. now destruct ms. }
    destruct (ldap_modify _ _ _ _ _ _) as [[ms' [cs|]] r].
    - destruct (w_closed w) eqn:Hcl; [specialize (HC eq_refl); discriminate|]. unfold bindM, send. destruct (serve sv (w_s w) (QModify d cs)) as [s' ok] eqn:E.
      assert (Rp : s' = replay (w_s w) [QModify d cs]) by (unfold answered; cbn [fold_left]; now rewrite E).
      destruct (success ok); cbn [ret List.app w_closed w_s w_o]; (split; [constructor; [apply HPw; exact HU|constructor]|]); repeat split; auto; congruence.
    - unfold bindM, lift. destruct r; cbn; repeat split; auto.
  Qed.
  Lemma conf_modify b ms : conf b any (m_modify sv lower idx flags vm ms).
  Proof.
    unfold m_modify. apply conf_seq; [apply conf_require|]. intros _. apply conf_self. intros o Ho. apply conf_seq.
    - apply conf_l_modify. rewrite Ho. apply Urefl.
    - intros ms'. apply conf_seq; [apply conf_put_attrs|]. intros _. apply conf_lift.
  Qed.
  Lemma conf_prefetch b ats : conf b any (m_prefetch sv lower strict ats).
  Proof. unfold m_prefetch. apply conf_seq; [apply conf_need|]. intros _. destruct strict; [now apply conf_ret|apply conf_refresh_missing]. Qed.
  Lemma conf_add_attrs b new : conf b any (m_add_attrs sv lower idx strict flags vm new).
  Proof.
    unfold m_add_attrs. apply conf_seq; [apply conf_prefetch|]. intros _. apply conf_self. intros o _. apply conf_seq; [apply conf_lift|]. intros ms. apply conf_modify.
  Qed.
  Lemma conf_delete_attrs b del : conf b any (m_delete_attrs sv lower idx strict flags vm del).
  Proof.
    unfold m_delete_attrs. apply conf_seq; [apply conf_prefetch|]. intros _. apply conf_self. intros o _. apply conf_seq; [apply conf_lift|]. intros ms. apply conf_modify.
  Qed.
  Lemma conf_replace_attrs b new : conf b any (m_replace_attrs sv lower idx flags vm new).
  Proof. unfold m_replace_attrs. apply conf_seq; [apply conf_lift|]. intros ms. apply conf_modify. Qed.
  Lemma conf_netgroup b op u ms d : conf b any (m_netgroup sv lower idx strict flags vm op u ms d).
  Proof.
    unfold m_netgroup. apply conf_seq.
    - unfold m_require_netgroup. apply conf_seq; [apply conf_has_class|]. intros x. destruct x; [now apply conf_ret|apply conf_raise].
    - intros _. apply conf_seq; [apply conf_lift|]. intros a. destruct op; [apply conf_add_attrs|apply conf_replace_attrs|apply conf_delete_attrs].
  Qed.
  Lemma conf_mod_dn r c p : conf false any (m_mod_dn sv lower idx r c p).
  Proof.
    unfold m_mod_dn. apply conf_seq; [apply conf_require|]. intros _. apply conf_self. intros o Ho. apply conf_seq; [apply conf_lift|]. intros cur.
    apply conf_seq; [unfold l_mod_dn; apply conf_send_checked1, HPw; rewrite Ho; apply Urefl|]. intros _.
    apply conf_seq; [apply conf_put_attrs|]. intros _. apply conf_seq; [apply conf_lift|]. intros _ w Hw. cbn. repeat split; auto; discriminate.
  Qed.
  Lemma conf_l_add b d a : U dn d -> conf b (fun _ l => o_dn l = d) (l_add sv lower vo d a).
  Proof.
    intros HU w Hw. unfold l_add, bindM, check_open, lift. destruct (w_closed w) eqn:Hcl; [cbn; repeat split; auto|].
    destruct (vo _) as [[]|e]; [|cbn; repeat split; auto]. cbn [List.app]. unfold send. destruct (serve sv (w_s w) (QAdd d a)) as [s' ok] eqn:E.
    assert (Rp : s' = replay (w_s w) [QAdd d a]) by (unfold answered; cbn [fold_left]; now rewrite E).
    destruct (success ok); cbn [ret List.app w_closed w_s w_o]; (split; [constructor; [apply HPw; exact HU|constructor]|]); repeat split; auto; congruence.
  Qed.
  Lemma conf_changes c : ~ looks c -> conf false okval (perform c).
  Proof.
    intros Hc. destruct c; try (exfalso; apply Hc; exact I); cbn [Model_Life.perform]; try (apply conf_nothing).
    - unfold m_add_child. apply conf_after; [apply okval_conn|apply conf_require|]. intros _.
      eapply conf_bind; [apply okval_conn|apply conf_rdn|]. intros o0 d _ Hd.
      eapply conf_bind; [|apply conf_l_add; exact Hd|].
      { intros o o' v E H E'. apply (okval_conn o); [exact E|]. apply H. congruence. }
      intros o1 got _ Hg. cbn beta in Hg. apply conf_self_with. intros o Ho. apply conf_ret. intros o' E _ _. constructor; [|constructor].
      split; [now rewrite E|]. exists d, (o_dn got). split; [reflexivity|]. split; [exact Hd|now left].
    - unfold m_delete_child. apply conf_after; [apply okval_conn|apply conf_require|]. intros _.
      eapply conf_bind; [apply okval_conn|apply conf_rdn|]. intros o0 d _ Hd. cbn beta in Hd. apply conf_after.
      { intros o o' v E H E'. apply (okval_conn o); [exact E|]. apply H. congruence. }
      { unfold l_delete. apply conf_send_checked1, HPw. exact Hd. }
      intros _. apply conf_ret. intros; exact I.
    - apply conf_modify.
    - apply conf_add_attrs.
    - apply conf_replace_attrs.
    - apply conf_delete_attrs.
    - unfold m_delete. apply conf_seq; [apply conf_require|]. intros _. apply conf_self. intros o Ho.
      apply conf_seq; [unfold l_delete; apply conf_send_checked1, HPw; rewrite Ho; apply Urefl|]. intros _ w Hw. cbn. repeat split; auto; discriminate.
    - apply conf_mod_dn.
    - apply conf_mod_dn.
    - unfold m_move. apply conf_seq; [apply conf_lift|]. intros q. apply conf_mod_dn.
    - apply conf_netgroup.
  Qed.
  (** calls that rename nothing and delete nothing keep the name and the connection *)
  Lemma conf_keeps c : ~ renames c -> c <> CDelete -> conf true okval (perform c).
  Proof.
    intros Hr Hd. assert (D : looks c \/ ~ looks c) by (destruct c; cbn; auto). destruct D as [Hl|Hl]; [now apply conf_looks|].
    destruct c; try (exfalso; apply Hl; exact I); try (exfalso; apply Hr; exact I); try congruence; cbn [Model_Life.perform]; try (apply conf_nothing).
    - unfold m_add_child. apply conf_after; [apply okval_conn|apply conf_require|]. intros _.
      eapply conf_bind; [apply okval_conn|apply conf_rdn|]. intros o0 d _ Hdd.
      eapply conf_bind; [|apply conf_l_add; exact Hdd|].
      { intros o o' v E H E'. apply (okval_conn o); [exact E|]. apply H. congruence. }
      intros o1 got _ Hg. cbn beta in Hg. apply conf_self_with. intros o Ho. apply conf_ret. intros o' E _ _. constructor; [|constructor].
      split; [now rewrite E|]. exists d, (o_dn got). split; [reflexivity|]. split; [exact Hdd|now left].
    - unfold m_delete_child. apply conf_after; [apply okval_conn|apply conf_require|]. intros _.
      eapply conf_bind; [apply okval_conn|apply conf_rdn|]. intros o0 d _ Hdd. cbn beta in Hdd. apply conf_after.
      { intros o o' v E H E'. apply (okval_conn o); [exact E|]. apply H. congruence. }
      { unfold l_delete. apply conf_send_checked1, HPw. exact Hdd. }
      intros _. apply conf_ret. intros; exact I.
    - apply conf_modify.
    - apply conf_add_attrs.
    - apply conf_replace_attrs.
    - apply conf_delete_attrs.
    - apply conf_netgroup.
  Qed.
  End D.
End P.
