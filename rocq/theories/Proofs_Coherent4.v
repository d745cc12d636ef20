(** Adding by an object that has some of the values; histories. *)
From Coq Require Import Permutation.
From Verif Require Import PyBase Model_CIDict Proofs_CIDict Model_Modify Spec_Modify Proofs_Modify Proofs_Modify2 Model_Search Spec_Search Proofs_Search Model_Dir Spec_Dir Proofs_Dir Proofs_Dir2 Proofs_Dir3 Proofs_Dir4 Props_Dir Model_Filter Model_Request Model_Netgroups Spec_Netgroups Proofs_Netgroups Props_Netgroups Model_Life Spec_Life Proofs_Life Proofs_Life2 Proofs_Life3 Proofs_Life4 Proofs_Life5 Props_Life Spec_Coherent Spec_Coherent2 Proofs_Coherent Proofs_Coherent2 Proofs_Coherent3.

Section A.
  Context (lower : str -> str) (eqv : str -> str -> str -> bool) (idx : str -> list str -> str -> res nat).
  Context (Hidx : same_rule eqv idx).
  Lemma add_effect_some d a ms e e1 : NoDup (map (fun av => lower (fst av)) a) -> (forall k, In k (map fst a) -> incl (cur_vals lower d k) (e (lower k))) ->
    add_modlist lower idx d (as_vals a) = Ok ms -> srv_apply lower eqv e (map change_of ms) = Some e1 ->
    forall n v, In v (e1 n) <-> In v (e n) \/
      exists k vs, In (k, vs) a /\ lower k = n /\ In v vs /\ existsb (fun x => eqv k x v) (e n) = false.
  Proof.
    intros Hnd Cv Em Ha n v. assert (Hnd' : NoDup (map fst (as_vals a))) by (rewrite as_vals_fst; eapply distinct_fst; exact Hnd).
    destruct (add_modlist_values lower idx d (as_vals a) ms Hnd' Em) as [Hadd Hval].
    assert (Ho : forall c, In c (map change_of ms) -> c_op c = ADD).
    { intros c Hin. apply in_map_iff in Hin. destruct Hin as (m & <- & Hin). now apply Hadd. }
    assert (Hd2 : NoDup (map (fun c => lower (c_attr c)) (map change_of ms))).
    { rewrite map_map. unfold change_of; cbn [c_attr]. rewrite (add_modlist_exact lower idx d _ ms Hnd' Em). now apply adds_nodup. }
    pose proof (apply_adds_new lower eqv _ Ho Hd2 e e1 Ha) as New.
    rewrite (apply_adds lower eqv (map change_of ms) Ho e e1 Ha).
    assert (Ex : (exists c, In c (map change_of ms) /\ n = lower (c_attr c) /\ In v (c_vals c)) <->
                 exists k vs, In (k, vs) a /\ lower k = n /\ In v vs /\ existsb (fun x => eqv k x v) (e n) = false); [|now rewrite Ex].
    split.
    - intros (c & Hin & -> & Hv). pose proof (New c v Hin Hv) as Hn. apply in_map_iff in Hin. destruct Hin as (m & <- & Hin).
      destruct (Hadd m Hin) as [Hop Hvt]. unfold change_of in *. cbn [c_attr c_vals] in *.
      destruct (m_vals m) as [l|] eqn:Ev; [|destruct Hv].
      destruct (proj1 (Hval (m_attr m) v)) as (l' & Hl' & Hv' & _).
      { exists l. split; [|exact Hv]. replace (mkmod ADD (m_attr m) (VList l)) with m; [exact Hin|]. destruct m; cbn in *; congruence. }
      apply as_vals_In in Hl'. exists (m_attr m), l'. auto.
    - intros (k & vs & Hin & <- & Hv & Hx). destruct (proj2 (Hval k v)) as (l & Hl & Hvl).
      { exists vs. split; [now apply as_vals_In|]. split; [exact Hv|]. right.
        rewrite (has_value_existsb lower eqv idx Hidx). destruct (existsb (fun x => eqv k x v) (cur_vals lower d k)) eqn:E; [|reflexivity].
        apply existsb_exists in E. destruct E as (x & Hx1 & Hx2). apply (Cv k) in Hx1; [|now apply (in_map fst) in Hin].
        assert (X : existsb (fun x => eqv k x v) (e (lower k)) = true) by (apply existsb_exists; eauto). congruence. }
      exists (change_of (mkmod ADD k (VList l))). split; [now apply in_map|]. split; [reflexivity|exact Hvl].
  Qed.
End A.

Section P.
  Context {S : Type} (sv : server S) (view : S -> str -> option entry).
  Context (sv_search : S -> str -> scope -> option str -> option (list str) -> N -> option (list (str * list (str * list str)))).
  Context (lower norm : str -> str) (eqv : str -> str -> str -> bool) (idx : str -> list str -> str -> res nat).
  Context (strict : bool) (flags : empty_flags) (syn : fsyntax).
  Context (vo : lobj -> res unit) (vm : str -> list mod_ -> option lobj -> res unit).
  Context (Hidx : same_rule eqv idx) (Hlaw : lawful lower norm eqv sv view).
  Context (Hchild : forall r d, norm (r ++ lit "," ++ d) <> norm d).
  Context (Hlow : lower (lit "nisNetgroupTriple") <> lower (lit "memberNisNetgroup")).
  Notation perform := (perform sv sv_search lower idx strict flags syn vo vm).
  Notation step := (step sv sv_search lower idx strict flags syn vo vm).
  Notation session_run := (session_run sv sv_search lower idx strict flags syn vo vm).
  Notation part := (shows_part lower).
  Notation pstill := (pstill view lower norm).

  Lemma add_some (Hrefl : forall a v, eqv a v v = true) u s dn a c e :
    request_ok lower a -> view s dn = Some e -> (forall k, In k (map fst a) -> incl (cur_vals lower (o_attrs c) k) (e (lower k))) ->
    match ldap_add_attrs sv lower idx u strict flags vm s dn (as_vals a) (Some c) with
    | (s', Ok _) => exists e', view s' dn = Some e' /\
        (forall k vs v, In (k, vs) a -> In v vs -> exists x, In x (e' (lower k)) /\ eqv k x v = true) /\
        (forall n v, In v (e' n) <-> In v (e n) \/
            exists k vs, In (k, vs) a /\ lower k = n /\ In v vs /\ existsb (fun x => eqv k x v) (e n) = false) /\
        (forall d, norm d <> norm dn -> view s' d = view s d)
    | (s', Raise _) => forall d, view s' d = view s d
    end.
  Proof.
    intros (Hd & Hne & Hsp) V Hc. unfold ldap_add_attrs.
    destruct (add_modlist lower idx (o_attrs c) (as_vals a)) as [ms|x] eqn:Em; [|intros d; reflexivity].
    assert (Hnd : NoDup (map fst (as_vals a))) by (rewrite as_vals_fst; eapply distinct_fst; exact Hd).
    destruct (add_mods_ok lower eqv idx (o_attrs c) (as_vals a) ms Hnd Em) as (H1 & H2 & _).
    pose proof (lmod_dir sv view lower norm eqv Hlaw u flags vm s dn ms (Some c) H1 H2) as L.
    destruct (ldap_modify_ sv u flags vm s dn ms (Some c)) as [[s' ms'] [[]|x]]; [|exact L].
    destruct L as (_ & L).
    assert (A : exists e1 e', srv_apply lower eqv e (map change_of ms) = Some e1 /\ view s' dn = Some e' /\ (forall n, e' n = e1 n) /\ only_at view norm s s' dn).
    { destruct L as [(-> & ->)|((e0 & e1 & e' & V0 & A & V' & P) & On)].
      - exists e, e. repeat split; auto.
      - exists e1, e'. assert (e0 = e) by congruence. subst. auto. }
    destruct A as (e1 & e' & A & V' & P & On). pose proof (add_effect_some lower eqv idx Hidx (o_attrs c) a ms e e1 Hd Hc Em A) as Heff.
    exists e'. split; [exact V'|]. split; [|split].
    - intros k vs v Hin Hv. rewrite P. destruct (existsb (fun x => eqv k x v) (e (lower k))) eqn:X.
      + apply existsb_exists in X. destruct X as (x & Hx & Hxe). exists x. split; [|exact Hxe]. apply Heff. now left.
      + exists v. split; [|apply Hrefl]. apply Heff. right. exists k, vs. auto.
    - intros n v. rewrite P. apply Heff.
    - exact On.
  Qed.
  Lemma add_members_some (Hrefl : forall a v, eqv a v v = true) u es a ts s dn e c : says es a ts -> view s dn = Some e -> (forall k, incl (cur_vals lower (o_attrs c) k) (e (lower k))) ->
    match ldap_add_attrs sv lower idx u strict flags vm s dn (as_vals a) (Some c) with
    | (s', Ok _) => added view lower norm eqv s s' dn e es
    | (s', Raise _) => forall d, view s' d = view s d
    end.
  Proof.
    intros Ha V Hcur. pose proof (add_some Hrefl u s dn a c e (says_request lower Hlow es a ts Ha) V (fun k _ => Hcur k)) as H.
    destruct (ldap_add_attrs sv lower idx u strict flags vm s dn (as_vals a) (Some c)) as [s' [[]|x]]; [|exact H].
    destruct H as (e' & V' & H1 & H2 & H3). exists ts, e'. split; [exact (proj1 Ha)|]. split; [exact V'|]. split; [|split; [|exact H3]].
    - intros k v Hw. apply (says_wanted es a ts k v Ha) in Hw. destruct Hw as (vs & Hin & Hv). eapply H1; eauto.
    - intros n v. rewrite H2. split; (intros [Hv|Hx]; [auto|right]).
      + destruct Hx as (k & vs & Hin & Hk & Hv & Hn). exists k. split; [|auto]. apply (says_wanted es a ts k v Ha). eauto.
      + destruct Hx as (k & Hw & Hk & Hn). apply (says_wanted es a ts k v Ha) in Hw. destruct Hw as (vs & Hin & Hv). exists k, vs. auto.
  Qed.

  Definition single (e : entry) : Prop :=
    at_most_one eqv (lit "nisNetgroupTriple") (e (lower (lit "nisNetgroupTriple"))) /\ at_most_one eqv (lit "memberNisNetgroup") (e (lower (lit "memberNisNetgroup"))).
  Lemma tidy_lower a : tidy a -> NoDup (map (fun av => lower (fst av)) (as_vals a)).
  Proof.
    intros [Hnd H]. unfold as_vals. rewrite map_map. cbn [fst].
    assert (X : forall k, In k (map fst a) -> k = TRIPLE \/ k = MEMBER) by (intros k Hk; apply in_map_iff in Hk; destruct Hk as ([k' l] & <- & Hin); now destruct (H k' l Hin)).
    rewrite <- (map_map fst lower). clear H. revert Hnd X. generalize (map fst a). intros l. induction l as [|k l IH]; intros Hnd X; cbn [map]; [constructor|].
    inversion Hnd; subst. constructor; [|apply IH; [assumption|intros; apply X; now right]].
    intros Hin. apply in_map_iff in Hin. destruct Hin as (k' & E & Hk'). pose proof (X k (or_introl eq_refl)) as X1. pose proof (X k' (or_intror Hk')) as X2.
    destruct X1 as [->| ->], X2 as [->| ->]; auto.
  Qed.
  Lemma netgroup_part u o s l e op us ms dom : view s (o_dn l) = Some e -> dict_ok lower (o_attrs l) -> part (o_attrs l) e ->
    (op = NgDelete -> single e) ->
    exists s' l' r, does (m_netgroup sv lower idx strict flags vm op us ms dom) s u o l s' l' r /\ pstill s l s' l' /\
      (forall x, r = Ok x -> existsb (fun y => eqv (lit "objectClass") y (lit "nisNetgroup")) (e (lower (lit "objectClass"))) = true /\
         (op = NgAdd -> exists a l1, ng_attrs us ms dom = Ok a /\ part (o_attrs l1) e /\
               ldap_add_attrs sv lower idx u strict flags vm s (o_dn l) (as_vals a) (Some l1) = (s', Ok x))) /\
      (op = NgAdd \/ op = NgDelete -> forall x, r = Raise x -> forall d, view s' d = view s d).
  Proof.
    intros V Hok Ht Hs. unfold m_netgroup, m_require_netgroup.
    pose proof (has_class_part sv view lower norm eqv idx vm Hidx Hlaw u s l e (lit "nisNetgroup") V Hok Ht) as HC.
    pose proof (has_class_does sv lower idx s u o l (lit "nisNetgroup")) as HD.
    destruct (has_object_class sv lower idx u s l (lit "nisNetgroup")) as [l1 [b|x]].
    2: { destruct HC as (HS & _). exists s, l1, (Raise x). split; [apply does_fail, does_fail; exact HD|]. split; [exact HS|]. split; [discriminate|auto]. }
    destruct HC as (HS & HB). destruct b.
    2: { exists s, l1, (Raise RuntimeError). split; [apply does_fail; eapply does_bind; [exact HD|apply does_raise]|]. split; [exact HS|]. split; [discriminate|auto]. }
    specialize (HB eq_refl).
    assert (REQ : forall (k : @M S unit) s' l' r, does k s u o l1 s' l' r ->
      does (bindM (bindM (m_has_class sv lower idx (lit "nisNetgroup")) (fun b0 : bool => if b0 then ret tt else raise RuntimeError)) (fun _ : unit => k)) s u o l s' l' r).
    { intros kk s' l' r Hk. eapply does_bind; [|exact Hk]. eapply does_bind; [exact HD|apply does_ret]. }
    change (if us then user_list_to_attrs ms dom else host_list_to_attrs ms dom) with (ng_attrs us ms dom).
    destruct (ng_attrs us ms dom) as [a|x] eqn:Ea.
    2: { exists s, l1, (Raise x). split; [apply REQ; apply does_fail, does_lift|]. split; [exact HS|]. split; [discriminate|auto]. }
    pose proof (ng_tidy us ms dom a Ea) as Hti. destruct (pstill_view view lower norm s l l1 e V HS) as (V1 & Hok1 & Ht1).
    assert (D1 : o_dn l1 = o_dn l) by apply HS.
    destruct op.
    - pose proof (add_attrs_part sv view lower norm eqv idx strict flags vm Hidx Hlaw u s l1 e (as_vals a) V1 Hok1 Ht1) as AS.
      pose proof (add_attrs_does sv lower idx strict flags vm s u o l1 (as_vals a)) as AD.
      destruct (obj_add_attrs sv lower idx u strict flags vm s l1 (as_vals a)) as [[s' l'] r]. destruct AS as (A1 & A2 & A3).
      { rewrite as_vals_fst. apply Hti. } { now apply tidy_plain. }
      exists s', l', r. split; [apply REQ; eapply does_bind; [apply does_lift|exact AD]|]. split; [eapply pstill_trans; eauto|]. split; [|intros _; exact A3].
      intros x Hx. split; [exact HB|]. intros _. destruct (A2 x Hx) as (l2 & D2 & C2 & E2). exists a, l2. rewrite D1 in E2. auto.
    - pose proof (replace_attrs_part sv view lower norm eqv idx flags vm Hidx Hlaw u s l1 e (as_vals a) V1 Hok1 Ht1 (tidy_vals a Hti)) as RS.
      pose proof (replace_attrs_does sv lower idx flags vm s u o l1 (as_vals a)) as RD.
      destruct (obj_replace_attrs sv lower idx u flags vm s l1 (as_vals a)) as [[s' l'] r].
      exists s', l', r. split; [apply REQ; eapply does_bind; [apply does_lift|exact RD]|]. split; [eapply pstill_trans; eauto|]. split; [|intros [?|?]; discriminate].
      intros x Hx. split; [exact HB|discriminate].
    - destruct (Hs eq_refl) as [ST SM].
      pose proof (delete_attrs_part sv view lower norm eqv idx strict flags vm Hidx Hlaw u s l1 e (as_vals a) V1 Hok1 Ht1 (tidy_lower a Hti) (tidy_plain a Hti)) as AS.
      pose proof (delete_attrs_does sv lower idx strict flags vm s u o l1 (as_vals a)) as AD.
      destruct (obj_delete_attrs sv lower idx u strict flags vm s l1 (as_vals a)) as [[s' l'] r]. destruct AS as (A1 & A3).
      { intros k v Hin. destruct (tidy_vals a Hti k v Hin) as (y & -> & Hy). split; [congruence|].
        unfold as_vals in Hin. apply in_map_iff in Hin. destruct Hin as ([k' l0] & E & Hin). injection E as <- <-. destruct Hti as [_ Hti]. destruct (Hti k' l0 Hin) as [[->| ->] _]; [exact ST|exact SM]. }
      exists s', l', r. split; [apply REQ; eapply does_bind; [apply does_lift|exact AD]|]. split; [eapply pstill_trans; eauto|]. split; [|intros _; exact A3].
      intros x Hx. split; [exact HB|discriminate].
  Qed.

  Definition pgood_end (s : S) (dn : str) (o : obj) : Prop :=
    ob_conn o = true /\ ob_dn o = Some dn /\ dict_ok lower (ob_attrs o) /\ exists e, view s dn = Some e /\ part (ob_attrs o) e.
  Lemma pstill_end s l s' l' o : pstill s l s' l' -> pgood_end s' (o_dn l) (conn_obj o l').
  Proof. intros (D & K & E & _). split; [reflexivity|]. split; [cbn; now rewrite D|]. split; [exact K|exact E]. Qed.
  Lemma perform_mild c s u o dn e w' t r : ob_conn o = true -> ob_dn o = Some dn -> view s dn = Some e ->
    dict_ok lower (ob_attrs o) -> part (ob_attrs o) e -> mild lower eqv e c ->
    perform c (mk_world s u o) = (w', t, r) -> pgood_end (w_s w') dn (w_o w').
  Proof.
    intros Hc Hd V Hok Ht Hg H.
    assert (A : aloof c \/ ~ aloof c) by (destruct c; (left; exact I) || (right; exact (fun x => x))). destruct A as [A|A].
    - pose proof (s_perform sv sv_search lower idx strict flags syn vo vm c A (mk_world s u o)) as Eo. rewrite H in Eo. cbn [fst w_o] in Eo. rewrite Eo.
      assert (V' : view (w_s w') dn = Some e).
      { destruct (C88_call sv sv_search lower idx strict flags syn vo vm _ _ _ _ _ _ _ _ Hd H) as (_ & Hl & _ & _ & Es & _).
        destruct c; try (exfalso; exact A); try (rewrite Es, answered_looks; [exact V|apply Hl; exact I]); [eapply add_child_view; eauto|eapply delete_child_view; eauto]. }
      split; [exact Hc|]. split; [exact Hd|]. split; [exact Hok|eauto].
    - pose (l := mk_lobj dn (ob_attrs o)).
      assert (Eo : o = conn_obj o l) by (destruct o; unfold conn_obj, l; cbn in *; congruence). rewrite Eo in H at 1.
      assert (FIN : forall (m : @M S unit) s' l' x, does m s u o l s' l' x -> pstill s l s' l' -> nothing m (mk_world s u (conn_obj o l)) = (w', t, r) -> pgood_end (w_s w') dn (w_o w')).
      { intros m s' l' x D ST E. destruct (does_nothing _ _ _ _ _ _ _ _ D) as (t1 & x1 & E1). rewrite E1 in E. injection E as <- <- <-. exact (pstill_end s l s' l' o ST). }
      destruct c; try (exfalso; apply A; exact I); try (exfalso; exact Hg); cbn [Model_Life.perform] in H.
      + pose proof (has_class_part sv view lower norm eqv idx vm Hidx Hlaw u s l e oc V Hok Ht) as HS. pose proof (has_class_does sv lower idx s u o l oc) as HD.
        destruct (has_object_class sv lower idx u s l oc) as [l' x]. destruct HD as (t1 & HD). unfold bindM in H. rewrite HD in H.
        destruct x; cbn in H; injection H as <- <- <-; exact (pstill_end s l s l' o (proj1 HS)).
      + pose proof (refresh_part sv view lower norm eqv Hlaw u s l e ats V Hok Ht) as HS. pose proof (refresh_does sv lower s u o l ats) as HD.
        destruct (obj_refresh sv lower u s l ats) as [l' x]. eapply FIN; [exact HD| |exact H]. apply HS. now destruct ats.
      + pose proof (missing_part sv view lower norm eqv vm Hlaw u s l e ats V Hok Ht Hg) as HS. pose proof (refresh_missing_does sv lower s u o l ats) as HD.
        destruct (obj_refresh_missing sv lower u s l ats) as [l' x]. eapply FIN; [exact HD|exact HS|exact H].
      + pose proof (raw_modify_part sv view lower norm eqv idx flags vm Hidx Hlaw u s l e ms V Hok Ht Hg) as HS. pose proof (modify_does sv lower idx flags vm s u o l ms) as HD.
        destruct (obj_modify_ sv lower idx u flags vm s l ms) as [[s' l'] x]. eapply FIN; [exact HD|exact HS|exact H].
      + destruct Hg as (G1 & G2).
        pose proof (add_attrs_part sv view lower norm eqv idx strict flags vm Hidx Hlaw u s l e new V Hok Ht G1 G2) as HS. pose proof (add_attrs_does sv lower idx strict flags vm s u o l new) as HD.
        destruct (obj_add_attrs sv lower idx u strict flags vm s l new) as [[s' l'] x]. eapply FIN; [exact HD|exact (proj1 HS)|exact H].
      + pose proof (replace_attrs_part sv view lower norm eqv idx flags vm Hidx Hlaw u s l e new V Hok Ht Hg) as HS. pose proof (replace_attrs_does sv lower idx flags vm s u o l new) as HD.
        destruct (obj_replace_attrs sv lower idx u flags vm s l new) as [[s' l'] x]. eapply FIN; [exact HD|exact HS|exact H].
      + destruct Hg as (G1 & G2 & G3).
        pose proof (delete_attrs_part sv view lower norm eqv idx strict flags vm Hidx Hlaw u s l e del V Hok Ht G1 G2 G3) as HS. pose proof (delete_attrs_does sv lower idx strict flags vm s u o l del) as HD.
        destruct (obj_delete_attrs sv lower idx u strict flags vm s l del) as [[s' l'] x]. eapply FIN; [exact HD|exact (proj1 HS)|exact H].
      + assert (D : does (m_del lower a) s u o l s (mk_lobj dn (fst (cid_del lower (ob_attrs o) a))) (snd (cid_del lower (ob_attrs o) a))).
        { unfold m_del. apply does_self. eapply does_bind; [apply does_put|]. apply does_lift. }
        eapply FIN; [exact D| |exact H]. split; [reflexivity|]. cbn [o_attrs o_dn].
        destruct (cid_get lower (ob_attrs o) a) as [v|x] eqn:Eg.
        * destruct (del_present lower (ob_attrs o) a v Hok Eg) as (d' & E & Hok' & Hg'). rewrite E. cbn [fst]. split; [exact Hok'|]. split; [|auto].
          exists e. split; [exact V|]. intros k. pose proof (Ht k) as Hk. unfold cur_vals in *. rewrite Hg' in *. destruct (str_eqb (lower a) (lower k)); [exact (sub_nil _)|exact Hk].
        * assert (E : fst (cid_del lower (ob_attrs o) a) = ob_attrs o).
          { unfold cid_get in Eg. unfold cid_del. destruct (dget (ckeys (ob_attrs o)) (lower a)); [|reflexivity]. destruct (dget (cdata (ob_attrs o)) s0); [discriminate|reflexivity]. }
          rewrite E. split; [exact Hok|]. split; [eauto|auto].
      + destruct (netgroup_part u o s l e op users ms domain V Hok Ht) as (s' & l' & x & D & ST & _).
        { intros ->. exact Hg. }
        eapply FIN; [exact D|exact ST|exact H].
  Qed.

  (** *** histories *)
  Definition pnext (ss : @session S) (ev : @event S) : @session S := fst (fst (step ss ev)).
  Lemma step_part dn i ss c : never_false lower view dn i ss -> (forall e, view (ss_s ss) dn = Some e -> mild lower eqv e c) ->
    never_false lower view dn i (pnext ss (Do i c)).
  Proof.
    intros (o & e & Ho & Hc & Hd & V & Hok & Ht) Hg. unfold pnext. rewrite (step_do sv sv_search lower idx strict flags syn vo vm ss i c o Ho).
    destruct (perform c (mk_world (ss_s ss) (ss_closed ss) o)) as [[w t] r] eqn:E. cbn [fst].
    destruct (perform_mild c _ _ _ dn e _ _ _ Hc Hd V Hok Ht (Hg e V) E) as (Hc' & Hd' & Hok' & e' & V' & Ht').
    exists (w_o w), e'. cbn [ss_objs ss_s]. split; [|auto 6]. apply nth_app. eapply set_nth_same; eauto.
  Qed.
  Lemma other_part dn i ss ev : never_false lower view dn i ss -> (forall c, ev <> Do i c) -> view (ss_s (pnext ss ev)) dn = view (ss_s ss) dn ->
    never_false lower view dn i (pnext ss ev).
  Proof.
    intros (o & e & Ho & Hc & Hd & V & Hok & Ht) Hne Hv. exists o, e. split; [|rewrite Hv; auto 6].
    unfold pnext. destruct (step ss ev) as [[ss' t] r] eqn:E. cbn [fst]. eapply step_keeps; eauto.
  Qed.
  Lemma run_part dn i ss es : mildly lower eqv view dn i pnext ss es -> never_false lower view dn i ss ->
    never_false lower view dn i (fst (session_run ss es)).
  Proof.
    induction 1 as [ss|ss c es Hg _ IH|ss ev es Hne Hv _ IH]; intros C; [exact C| |].
    - pose proof (step_part dn i ss c C Hg) as C'. specialize (IH C'). revert IH. unfold pnext. cbn [Model_Life.session_run].
      destruct (step ss (Do i c)) as [[ss1 t] r]. cbn [fst]. destruct (session_run ss1 es). auto.
    - pose proof (other_part dn i ss ev C Hne Hv) as C'. specialize (IH C'). revert IH. unfold pnext. cbn [Model_Life.session_run].
      destruct (step ss ev) as [[ss1 t] r]. cbn [fst]. destruct (session_run ss1 es). auto.
  Qed.
End P.
