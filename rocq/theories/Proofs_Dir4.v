From Verif Require Import PyBase Model_CIDict Spec_CIDict Proofs_CIDict Model_Modify Spec_Modify Proofs_Modify Proofs_Modify2
  Model_Search Spec_Search Proofs_Search Model_Dir Spec_Dir Proofs_Dir Proofs_Dir2 Proofs_Dir3.
Local Open Scope N_scope.

Lemma FOP_filter {A} (R : A -> A -> Prop) p (l : list A) : ForallOrdPairs R l -> ForallOrdPairs R (List.filter p l).
Proof.
  induction 1 as [|x l Hx Hl IH]; cbn [List.filter]; [constructor|]. destruct (p x); [|exact IH]. constructor; [|exact IH].
  rewrite Forall_forall in *. intros y Hy. apply filter_In in Hy. now apply Hx.
Qed.

Section A.
  Context (lower : str -> str) (eqv : str -> str -> str -> bool) (idx : str -> list str -> str -> res nat).
  Context (Hidx : same_rule eqv idx).

  Lemma srv_add_ok a vs : ForallOrdPairs (fun v w => eqv a v w = false) vs -> forall l,
    (forall v, In v vs -> existsb (fun x => eqv a x v) l = false) -> exists l', srv_add eqv a l vs = Some l'.
  Proof.
    induction 1 as [|v vs Hv Hvs IH]; intros l H; cbn [srv_add]; [eauto|].
    rewrite (H v (or_introl eq_refl)). apply IH. intros w Hw. rewrite existsb_app, (H w (or_intror Hw)). cbn [existsb].
    rewrite Forall_forall in Hv. now rewrite (Hv w Hw).
  Qed.
  Lemma apply_adds_ok cs : (forall c, In c cs -> c_op c = ADD /\ c_vals c <> [] /\ ForallOrdPairs (fun v w => eqv (c_attr c) v w = false) (c_vals c)) ->
    NoDup (map (fun c => lower (c_attr c)) cs) -> forall e,
    (forall c v, In c cs -> In v (c_vals c) -> existsb (fun x => eqv (c_attr c) x v) (e (lower (c_attr c))) = false) ->
    exists e1, srv_apply lower eqv e cs = Some e1.
  Proof.
    induction cs as [|c cs IH]; intros Hc Hd e H; cbn [srv_apply]; [eauto|]. cbn [map] in Hd. inversion Hd as [|? ? Hni Hd']; subst.
    destruct (Hc c (or_introl eq_refl)) as (Ho & Hne & Hf).
    destruct (srv_add_ok (c_attr c) (c_vals c) Hf (e (lower (c_attr c)))) as [l El]; [intros v Hv; apply H; [now left|exact Hv]|].
    unfold srv_apply1. rewrite Ho. destruct (c_vals c) as [|v0 vs0] eqn:Ev; [now elim Hne|]. rewrite El. cbn [option_map].
    apply IH; [intros c' Hc'; apply Hc; now right|exact Hd'|]. intros c' v Hc' Hv. rewrite eput_other; [apply H; [now right|exact Hv]|].
    intros X. apply Hni. rewrite <- X. now apply (in_map (fun c => lower (c_attr c))).
  Qed.

  Lemma clean d (req : list (str * vals)) : lookups_clean lower idx d req.
  Proof.
    intros a l v _ _ _. pose proof (Hidx a (cur_vals lower d a) v) as H. destruct (first_match _ _ _); [left; eauto|right; exact H].
  Qed.

  Lemma adds_nodup d a : NoDup (map (fun av => lower (fst av)) a) ->
    NoDup (map (fun m => lower (m_attr m)) (flat_map (adds_for lower idx d) (as_vals a))) /\
    (forall m, In m (flat_map (adds_for lower idx d) (as_vals a)) -> In (lower (m_attr m)) (map (fun av => lower (fst av)) a)).
  Proof.
    unfold as_vals. induction a as [|[k vs] a IH]; cbn [flat_map map fst snd]; intros H; [split; [constructor|intros m []]|].
    inversion H as [|? ? Hni Hd]; subst. destruct (IH Hd) as [I1 I2].
    assert (D : adds_for lower idx d (k, VList vs) = [] \/ exists w, adds_for lower idx d (k, VList vs) = [mkmod ADD k w]).
    { unfold adds_for. cbn [fst snd]. destruct (cur_vals lower d k) as [|c0 cs0]; [right; eauto|].
      destruct (filter _ vs); [now left|right; eauto]. }
    split.
    - rewrite map_app. destruct D as [->|[w ->]]; cbn [map app]; [exact I1|]. constructor; [|exact I1].
      intros X. apply in_map_iff in X. destruct X as (m & E & Hm). apply Hni. cbn [m_attr] in E. rewrite <- E. now apply I2.
    - intros m Hm. apply in_app_iff in Hm. destruct Hm as [Hm|Hm]; [|right; now apply I2].
      left. destruct D as [D|[w D]]; rewrite D in Hm; [destruct Hm|]. destruct Hm as [<-|[]]. reflexivity.
  Qed.

  (** a smart add is accepted *)
  Lemma smart_add_ok d a e : request_ok lower a -> no_twins eqv a -> (forall k, In k (map fst a) -> cur_vals lower d k = e (lower k)) ->
    exists ms e1, add_modlist lower idx d (as_vals a) = Ok ms /\ srv_apply lower eqv e (map change_of ms) = Some e1.
  Proof.
    intros (Hd & Hne & _) Ht Hcv.
    assert (Hnd : NoDup (map fst (as_vals a))) by (rewrite as_vals_fst; eapply distinct_fst; exact Hd).
    exists (flat_map (adds_for lower idx d) (as_vals a)).
    assert (T : add_modlist lower idx d (as_vals a) = Ok (flat_map (adds_for lower idx d) (as_vals a))).
    { apply add_modlist_total; [exact Hnd|apply clean|]. intros k v Hin. unfold as_vals in Hin. apply in_map_iff in Hin. destruct Hin as ([k' vs] & E & Hin).
      cbn [fst snd] in E. injection E as <- <-. exists vs. split; [reflexivity|]. intros _. exact (Hne _ Hin). }
    assert (Hm : forall m, In m (flat_map (adds_for lower idx d) (as_vals a)) ->
       exists k vs l, In (k, vs) a /\ m = mkmod ADD k (VList l) /\ l <> [] /\ ForallOrdPairs (fun v w => eqv k v w = false) l /\
          forall v, In v l -> existsb (fun x => eqv k x v) (e (lower k)) = false).
    { intros m Hm. apply in_flat_map in Hm. destruct Hm as ([k v] & Hin & Hm). unfold as_vals in Hin. apply in_map_iff in Hin. destruct Hin as ([k' vs] & E & Hin).
      cbn [fst snd] in E. injection E as <- <-. unfold adds_for in Hm. cbn [fst snd] in Hm.
      assert (Ck : cur_vals lower d k' = e (lower k')) by (apply Hcv; now apply (in_map fst) in Hin).
      destruct (cur_vals lower d k') as [|c0 cs0] eqn:Ec.
      - destruct Hm as [<-|[]]. exists k', vs, vs. split; [exact Hin|]. split; [reflexivity|]. split; [exact (Hne _ Hin)|]. split; [exact (Ht _ _ Hin)|].
        intros v _. rewrite <- Ck. reflexivity.
      - destruct (filter (fun v => negb (has_value lower idx d k' v)) vs) as [|z zs] eqn:F; [destruct Hm|]. destruct Hm as [<-|[]].
        exists k', vs, (z :: zs). split; [exact Hin|]. split; [reflexivity|]. split; [discriminate|]. split; [rewrite <- F; apply FOP_filter; exact (Ht _ _ Hin)|].
        intros v Hv. rewrite <- F in Hv. apply filter_In in Hv. destruct Hv as [_ Hv]. apply negb_true_iff in Hv.
        rewrite (has_value_existsb lower eqv idx Hidx), Ec, Ck in Hv. exact Hv. }
    destruct (apply_adds_ok (map change_of (flat_map (adds_for lower idx d) (as_vals a)))) with (e := e) as [e1 E1].
    - intros c Hc. apply in_map_iff in Hc. destruct Hc as (m & <- & Hin). destruct (Hm m Hin) as (k & vs & l & _ & -> & H1 & H2 & _). auto.
    - rewrite map_map. unfold change_of; cbn [c_attr]. now apply adds_nodup.
    - intros c v Hc Hv. apply in_map_iff in Hc. destruct Hc as (m & <- & Hin). destruct (Hm m Hin) as (k & vs & l & _ & -> & _ & _ & H). now apply H.
    - exists e1. split; [exact T|exact E1].
  Qed.

  Lemma remove1_keeps a v : forall l l', srv_remove1 eqv a l v = Some l' -> forall x, In x l -> eqv a x v = false -> In x l'.
  Proof.
    induction l as [|y l IH]; intros l' H x Hx Hf; [destruct Hx|]. cbn [srv_remove1] in H. destruct (eqv a y v) eqn:E.
    - injection H as <-. destruct Hx as [->|Hx]; [congruence|exact Hx].
    - destruct (srv_remove1 eqv a l v) as [l1|] eqn:R; [|discriminate]. injection H as <-. destruct Hx as [->|Hx]; [now left|right]. eapply IH; eauto.
  Qed.
  Lemma remove1_incl a v : forall l l', srv_remove1 eqv a l v = Some l' -> forall x, In x l' -> In x l.
  Proof.
    induction l as [|y l IH]; intros l' H x Hx; cbn [srv_remove1] in H; [discriminate|]. destruct (eqv a y v) eqn:E.
    - injection H as <-. now right.
    - destruct (srv_remove1 eqv a l v) as [l1|] eqn:R; [|discriminate]. injection H as <-. destruct Hx as [->|Hx]; [now left|right]. eapply IH; eauto.
  Qed.
  Lemma remove1_found a v : forall l, existsb (fun x => eqv a x v) l = true -> exists l', srv_remove1 eqv a l v = Some l'.
  Proof.
    induction l as [|y l IH]; cbn [existsb srv_remove1]; [discriminate|]. destruct (eqv a y v); [eauto|]. cbn [orb]. intros H. destruct (IH H) as [l' ->]. cbn [option_map]. eauto.
  Qed.
  Lemma remove_ok a vs : forall l, (forall v, In v vs -> existsb (fun x => eqv a x v) l = true) ->
    (forall x, In x l -> ForallOrdPairs (fun v w => eqv a x v = true -> eqv a x w = false) vs) ->
    exists l', srv_remove eqv a l vs = Some l'.
  Proof.
    induction vs as [|v vs IH]; intros l H1 H2; cbn [srv_remove]; [eauto|].
    destruct (remove1_found a v l (H1 v (or_introl eq_refl))) as [l1 E]. rewrite E. apply IH.
    - intros w Hw. pose proof (H1 w (or_intror Hw)) as X. apply existsb_exists in X. destruct X as (x & Hx & Hxw). apply existsb_exists. exists x. split; [|exact Hxw].
      apply (remove1_keeps a v l l1 E x Hx). destruct (eqv a x v) eqn:Exv; [|reflexivity]. specialize (H2 x Hx). inversion H2 as [|? ? F _]; subst.
      rewrite Forall_forall in F. rewrite (F w Hw Exv) in Hxw. discriminate.
    - intros x Hx. specialize (H2 x (remove1_incl _ _ _ _ E x Hx)). now inversion H2.
  Qed.

  Lemma apply_deletes_ok cs : NoDup (map (fun c => lower (c_attr c)) cs) -> forall e,
    (forall c, In c cs -> c_op c = DELETE /\ e (lower (c_attr c)) <> [] /\
       (forall v, In v (c_vals c) -> existsb (fun x => eqv (c_attr c) x v) (e (lower (c_attr c))) = true) /\
       (forall x, In x (e (lower (c_attr c))) -> ForallOrdPairs (fun v w => eqv (c_attr c) x v = true -> eqv (c_attr c) x w = false) (c_vals c))) ->
    exists e1, srv_apply lower eqv e cs = Some e1.
  Proof.
    induction cs as [|c cs IH]; intros Hd e Hc; cbn [srv_apply]; [eauto|]. cbn [map] in Hd. inversion Hd as [|? ? Hni Hd']; subst.
    destruct (Hc c (or_introl eq_refl)) as (Ho & Hne & H1 & H2). destruct (remove_ok _ _ _ H1 H2) as [l El].
    assert (X : exists l', srv_apply1 lower eqv e c = Some (eput lower e (c_attr c) l')).
    { unfold srv_apply1. rewrite Ho. destruct (e (lower (c_attr c))) as [|y ys]; [now elim Hne|]. destruct (c_vals c) as [|w ws]; [eauto|]. rewrite El. cbn [option_map]. eauto. }
    destruct X as [l' ->]. apply IH; [exact Hd'|]. intros c' Hc'. rewrite eput_other; [apply Hc; now right|].
    intros X. apply Hni. rewrite <- X. now apply (in_map (fun c => lower (c_attr c))).
  Qed.

  Lemma smart_delete_ok d del e : del_ok lower del -> no_twice lower eqv e del -> (forall k, In k (map fst del) -> cur_vals lower d k = e (lower k)) ->
    exists ms e1, delete_modlist lower idx d del = Ok ms /\ srv_apply lower eqv e (map change_of ms) = Some e1 /\
      (forall m, In m ms -> m_op m = DELETE /\ m_vals m <> VList []).
  Proof.
    intros (Hd & Hne & _) Ht Hcv. exists (flat_map (deletes_for lower idx d) del).
    assert (T : delete_modlist lower idx d del = Ok (flat_map (deletes_for lower idx d) del)).
    { apply del_modlist_total; [now apply (fst_nodup lower)|apply clean]. }
    assert (Hm : forall m, In m (flat_map (deletes_for lower idx d) del) -> exists k w, m = mkmod DELETE k w /\ w <> VList [] /\ e (lower k) <> [] /\
       match w with VDeleteAll => True | VList l =>
         (forall v, In v l -> existsb (fun x => eqv k x v) (e (lower k)) = true) /\
         (forall x, In x (e (lower k)) -> ForallOrdPairs (fun v w => eqv k x v = true -> eqv k x w = false) l) end).
    { intros m Hm. apply in_flat_map in Hm. destruct Hm as ([k v] & Hin & Hm). unfold deletes_for in Hm. cbn [fst snd] in Hm.
      assert (Ck : cur_vals lower d k = e (lower k)) by (apply Hcv; now apply (in_map fst) in Hin).
      destruct (cur_vals lower d k) as [|c0 cs0] eqn:Ec; [destruct Hm|].
      assert (Hek : e (lower k) <> []) by (rewrite <- Ck; discriminate).
      destruct v as [[|y l]|].
      - now elim (Hne _ Hin).
      - destruct (filter (has_value lower idx d k) (y :: l)) as [|z zs] eqn:F; [destruct Hm|]. destruct Hm as [<-|[]].
        exists k, (VList (z :: zs)). split; [reflexivity|]. split; [discriminate|]. split; [exact Hek|]. split.
        + intros v Hv. rewrite <- F in Hv. apply filter_In in Hv. destruct Hv as [_ Hv]. now rewrite (has_value_existsb lower eqv idx Hidx), Ec, Ck in Hv.
        + intros x Hx. rewrite <- F. apply FOP_filter. exact (Ht _ _ x Hin Hx).
      - destruct Hm as [<-|[]]. exists k, VDeleteAll. split; [reflexivity|]. split; [discriminate|]. split; [exact Hek|exact I]. }
    destruct (apply_deletes_ok (map change_of (flat_map (deletes_for lower idx d) del))) with (e := e) as [e1 E1].
    - rewrite map_map. unfold change_of; cbn [c_attr]. now apply flat_nodup.
    - intros c Hc. apply in_map_iff in Hc. destruct Hc as (m & <- & Hin). destruct (Hm m Hin) as (k & w & -> & _ & H1 & H2). cbn [change_of c_op c_attr c_vals m_op m_attr m_vals].
      split; [reflexivity|]. split; [exact H1|]. destruct w as [l|]; [exact H2|]. split; [intros v []|intros; constructor].
    - exists e1. split; [exact T|]. split; [exact E1|]. intros m Hin. destruct (Hm m Hin) as (k & w & -> & H & _). now split.
  Qed.
End A.

Section W.
  Context {S : Type} (sv : server S) (view : S -> str -> option entry).
  Context (lower norm : str -> str) (eqv : str -> str -> str -> bool) (idx : str -> list str -> str -> res nat).
  Context (Hidx : same_rule eqv idx) (Hlaw : lawful lower norm eqv sv view) (Hwill : willing lower eqv sv view).
  Context (flags : empty_flags) (validate_mod : str -> list mod_ -> option lobj -> res unit).
  Context (Hval : forall dn ms c, validate_mod dn ms c = Ok tt).

  Lemma lmod_ok s dn ms cur e e1 : view s dn = Some e -> srv_apply lower eqv e (map change_of ms) = Some e1 ->
    (forall m, In m ms -> constructed m) -> (forall m, In m ms -> empty_rd m = false) ->
    exists s', ldap_modify_ sv false flags validate_mod s dn ms cur = (s', map mutate ms, Ok tt).
  Proof.
    intros V A Hc He. unfold ldap_modify_. destruct ms as [|m ms]; [cbn; eauto|].
    rewrite Hval, (ldap_modify_ok flags (Ok tt) (m :: ms) Hc (or_intror He)), (wanted_all _ _ He). cbn [map].
    pose proof (will_modify _ _ _ _ Hwill s dn e (map change_of (m :: ms)) e1 V A) as W. cbn [map] in W.
    destruct (sv_modify sv s dn (change_of m :: map change_of ms)) as [s' ok]. cbn [snd] in W. subst ok. cbn [success]. eauto.
  Qed.
  Lemma omod_ok s o ms e e1 : view s (o_dn o) = Some e -> dict_ok lower (o_attrs o) -> mirrors lower (o_attrs o) e ->
    srv_apply lower eqv e (map change_of ms) = Some e1 ->
    (forall m, In m ms -> constructed m) -> (forall m, In m ms -> empty_rd m = false) -> safe lower eqv flags e ms ->
    exists s' o', obj_modify_ sv lower idx false flags validate_mod s o ms = (s', o', Ok tt).
  Proof.
    intros V Hok Hm A Hc He Hs. unfold obj_modify_. destruct (lmod_ok s (o_dn o) ms (Some o) e e1 V A Hc He) as [s' ->].
    destruct (local_modify_spec lower eqv idx Hidx flags ms (o_attrs o) e e1 Hok Hm Hc Hs A) as (d' & E & _). rewrite E. eauto.
  Qed.
End W.
