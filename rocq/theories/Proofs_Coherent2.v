(** Every gentle call keeps the object trustworthy; histories. *)
From Verif Require Import PyBase Model_CIDict Proofs_CIDict Model_Modify Spec_Modify Proofs_Modify Proofs_Modify2 Model_Search Spec_Search Model_Dir Spec_Dir Proofs_Dir Proofs_Dir2 Proofs_Dir3 Proofs_Dir4 Model_Filter Model_Request Model_Netgroups Proofs_Netgroups Model_Life Spec_Life Proofs_Life Proofs_Life2 Proofs_Life3 Proofs_Life4 Proofs_Life5 Props_Life Spec_Coherent Proofs_Coherent.

(** the attributes of a member list *)
Lemma loop_tidy one ms : (forall m a v, one m = Ok (a, v) -> a = TRIPLE \/ a = MEMBER) ->
  forall d a, tidy d -> members_loop one ms d = Ok a -> tidy a.
Proof.
  intros H. induction ms as [|m ms IH]; intros d a Hd E; cbn [members_loop] in E; [now injection E as <-|].
  destruct (one m) as [[k v]|] eqn:Eo; [|discriminate]. eapply IH; [|exact E]. apply append_tidy; [|exact Hd]. eapply H; eauto.
Qed.
Lemma user_member_name dom m a v : user_member dom m = Ok (a, v) -> a = TRIPLE \/ a = MEMBER.
Proof.
  unfold user_member. destruct m as [[|x s]|l|]; try discriminate.
  - destruct (N.eqb x (ch "+")); [intros H; injection H as <- _; auto|]. destruct (negb _); intros H; injection H as <- _; auto.
  - destruct l as [|h [|u [|d [|]]]]; try discriminate; intros H; injection H as <- _; auto.
Qed.
Lemma host_member_name dom m a v : host_member dom m = Ok (a, v) -> a = TRIPLE \/ a = MEMBER.
Proof.
  unfold host_member. destruct m as [[|x s]|l|]; try discriminate.
  - destruct (N.eqb x (ch "+")); [intros H; injection H as <- _; auto|]. destruct (negb _); intros H; injection H as <- _; auto.
  - destruct l as [|h [|u [|d [|]]]]; try discriminate; intros H; injection H as <- _; auto.
Qed.
Definition ng_attrs (users : bool) (ms : members) (dom : field) : res (list (str * list str)) :=
  if users then user_list_to_attrs ms dom else host_list_to_attrs ms dom.
Lemma ng_tidy users ms dom a : ng_attrs users ms dom = Ok a -> tidy a.
Proof.
  assert (T0 : tidy []) by (split; [constructor|intros ? ? []]).
  destruct users; cbn [ng_attrs]; intros H; eapply loop_tidy; eauto; [apply user_member_name|apply host_member_name].
Qed.
Lemma as_vals_fst a : map fst (as_vals a) = map fst a.
Proof. unfold as_vals. rewrite map_map. reflexivity. Qed.
Lemma tidy_plain a : tidy a -> plain (map fst (as_vals a)).
Proof.
  intros [_ H]. rewrite as_vals_fst. intros n Hn. apply in_map_iff in Hn. destruct Hn as ([k l] & <- & Hin). destruct (H k l Hin) as [[->| ->] _];
    intros X; repeat (destruct X as [X|X]; try discriminate); exact X.
Qed.
Lemma tidy_vals a : tidy a -> forall k v, In (k, v) (as_vals a) -> exists l, v = VList l /\ l <> [].
Proof.
  intros [_ H] k v Hin. unfold as_vals in Hin. apply in_map_iff in Hin. destruct Hin as ([k' l] & E & Hin). cbn [fst snd] in E. injection E as <- <-.
  exists l. split; [reflexivity|]. now apply (H k' l).
Qed.

Section P.
  Context {S : Type} (sv : server S) (view : S -> str -> option entry).
  Context (sv_search : S -> str -> scope -> option str -> option (list str) -> N -> option (list (str * list (str * list str)))).
  Context (lower norm : str -> str) (eqv : str -> str -> str -> bool) (idx : str -> list str -> str -> res nat).
  Context (strict : bool) (flags : empty_flags) (syn : fsyntax).
  Context (vo : lobj -> res unit) (vm : str -> list mod_ -> option lobj -> res unit).
  Context (Hidx : same_rule eqv idx) (Hlaw : lawful lower norm eqv sv view).
  Context (Hchild : forall r d, norm (r ++ lit "," ++ d) <> norm d).
  Notation perform := (perform sv sv_search lower idx strict flags syn vo vm).
  Notation step := (step sv sv_search lower idx strict flags syn vo vm).
  Notation session_run := (session_run sv sv_search lower idx strict flags syn vo vm).
  Notation truth := (shows_truth lower).
  Notation still := (still view lower norm).

  (** *** looking changes nothing *)
  Definition same {A} (m : @M S A) : Prop := forall w, w_o (fst (fst (m w))) = w_o w.
  Lemma s_bind {A B} (m : @M S A) (k : A -> @M S B) : same m -> (forall a, same (k a)) -> same (bindM m k).
  Proof.
    intros Hm Hk w. specialize (Hm w). unfold bindM. destruct (m w) as [[w1 t1] [a|e]]; cbn [fst] in *; [|exact Hm].
    specialize (Hk a w1). destruct (k a w1) as [[w2 t2] r]. cbn [fst] in *. congruence.
  Qed.
  Lemma s_ret {A} (a : A) : same (@ret S A a). Proof. easy. Qed.
  Lemma s_raise {A} e : same (@raise S A e). Proof. easy. Qed.
  Lemma s_lift {A} (r : res A) : same (@lift S A r). Proof. easy. Qed.
  Lemma s_self : same (@self S). Proof. easy. Qed.
  Lemma s_require : same (@require_ldap S). Proof. intros w. cbn. now destruct (ob_conn (w_o w)). Qed.
  Lemma s_need : same (@need_conn S). Proof. intros w. cbn. now destruct (ob_conn (w_o w)). Qed.
  Lemma s_check : same (@check_open S). Proof. easy. Qed.
  Lemma s_rdn r : same (@m_rdn S r). Proof. easy. Qed.
  Lemma s_send q : same (send sv q). Proof. intros w. unfold send. now destruct (serve sv (w_s w) q). Qed.
  Lemma s_read d ats : same (send_read sv d ats). Proof. easy. Qed.
  Lemma s_searched b sc f ats n : same (send_search sv_search b sc f ats n). Proof. easy. Qed.
  Lemma s_compared d a v : same (send_compare sv d a v). Proof. easy. Qed.
  Ltac k := repeat (first [apply s_ret | apply s_raise | apply s_lift | apply s_self | apply s_require | apply s_need | apply s_check
    | apply s_rdn | apply s_send | apply s_read | apply s_searched | apply s_compared | match goal with |- same (bindM _ _) => apply s_bind; [|intros ?] end
    | match goal with |- same (match ?x with _ => _ end) => destruct x end ]).
  Lemma s_get d ats : same (l_get sv lower d ats). Proof. unfold l_get. k. Qed.
  Lemma s_l_search b sc f sy ats n : same (l_search sv_search lower b sc f sy ats n). Proof. unfold l_search. k. Qed.
  Lemma s_l_compare d a v : same (l_compare sv d a v). Proof. unfold l_compare. k. Qed.
  Lemma s_l_add d a : same (l_add sv lower vo d a). Proof. unfold l_add. k. Qed.
  Lemma s_l_delete d : same (l_delete sv d). Proof. unfold l_delete. k. Qed.
  Lemma s_get_child r ats : same (m_get_child sv lower r ats). Proof. unfold m_get_child. k; apply s_get. Qed.
  Lemma s_search_with f sy ats n : same (m_search_with sv_search lower f sy ats n). Proof. unfold m_search_with. k; apply s_l_search. Qed.
  (** calls that leave the object alone *)
  Definition aloof (c : call) : Prop :=
    match c with
    | CObj _ _ _ | CGetChild _ _ | CAddChild _ _ | CDeleteChild _ | CSearch _ _ | CFind _ _ | CCompare _ _ | CValidate | CValidateModify _ => True
    | _ => False
    end.
  Lemma s_perform c : aloof c -> same (perform c).
  Proof.
    intros H. destruct c; try (exfalso; exact H); cbn [Model_Life.perform]; unfold nothing.
    - unfold m_obj. k.
    - apply s_get_child.
    - unfold m_add_child. k; apply s_l_add.
    - unfold m_delete_child. k; apply s_l_delete.
    - unfold m_search. k; apply s_search_with.
    - unfold m_find. k; first [apply s_get_child|apply s_search_with].
    - unfold m_compare. k; apply s_l_compare.
    - unfold m_validate. k.
    - unfold m_validate_modify. k.
  Qed.
  Lemma answered_looks s t : Forall (fun q => ~ changes q) t -> answered sv s t = s.
  Proof.
    unfold answered. revert s. induction t as [|q t IH]; intros s H; [reflexivity|]. inversion H; subst. cbn [fold_left].
    assert (E : fst (serve sv s q) = s) by (destruct q; try reflexivity; exfalso; match goal with X : ~ _ |- _ => apply X; reflexivity end).
    rewrite E. now apply IH.
  Qed.
  Ltac fin := cbn -[lit]; intros H; injection H as <- <- <-; eauto.
  (** adding or deleting a child leaves the parent alone *)
  Lemma add_child_view s u o r a w' t x dn e : ob_dn o = Some dn -> view s dn = Some e ->
    perform (CAddChild r a) (mk_world s u o) = (w', t, x) -> view (w_s w') dn = Some e.
  Proof.
    intros Hd V H. destruct (C88_call sv sv_search lower idx strict flags syn vo vm _ _ _ _ _ _ _ _ Hd H) as (Hb & _ & _ & _ & Es & _).
    assert (F : t = [] \/ exists d, t = [QAdd d a]).
    { revert H. cbn [Model_Life.perform]. unfold m_add_child, l_add, bindM, require_ldap, self, m_rdn, check_open, lift, send, ret, raise.
      cbn -[lit]. destruct (ob_conn o); [|fin]. cbn -[lit]. destruct (obj_rdn (dn_text o) (ob_rdn o) r) as [d|]; [|fin]. cbn -[lit].
      destruct u; [fin|]. cbn -[lit]. match goal with |- context [vo ?y] => destruct (vo y) as [|] end; [|fin]. cbn -[lit].
      cbn [serve]. destruct (sv_add sv s d a) as [s' ok]. destruct ok; cbn [success]; fin. }
    rewrite Es. destruct F as [->|(d & ->)]; [exact V|]. cbn [answered fold_left serve].
    pose proof (law_add _ _ _ _ _ Hlaw s d a) as L. destruct (sv_add sv s d a) as [s' ok]. cbn [fst]. specialize (L s' ok eq_refl).
    destruct ok; [|now rewrite L]. destruct L as (Vn & _ & On). rewrite On; [exact V|]. intros En.
    rewrite (law_dn _ _ _ _ _ Hlaw s _ _ En) in V. congruence.
  Qed.
  Lemma delete_child_view s u o r w' t x dn e : ob_dn o = Some dn -> view s dn = Some e ->
    perform (CDeleteChild r) (mk_world s u o) = (w', t, x) -> view (w_s w') dn = Some e.
  Proof.
    intros Hd V H. destruct (C88_call sv sv_search lower idx strict flags syn vo vm _ _ _ _ _ _ _ _ Hd H) as (_ & _ & _ & _ & Es & _).
    assert (F : t = [] \/ exists q, t = [QDelete (q ++ lit "," ++ dn)]).
    { revert H. cbn [Model_Life.perform]. unfold m_delete_child, l_delete, bindM, require_ldap, self, m_rdn, check_open, lift, send, ret, raise.
      cbn -[lit]. destruct (ob_conn o); [|fin]. cbn -[lit].
      unfold dn_text. rewrite Hd. unfold obj_rdn. destruct (rdn_attr_ (ob_rdn o) r) as [q|]; [|fin]. cbn [bind].
      destruct u; [fin|]. cbn -[lit].
      cbn [serve]. match goal with |- context [sv_delete sv s ?y] => destruct (sv_delete sv s y) as [s' ok] end. destruct ok; cbn [success]; fin. }
    rewrite Es. destruct F as [->|(q & ->)]; [exact V|]. cbn [answered fold_left serve].
    pose proof (law_delete _ _ _ _ _ Hlaw s (q ++ lit "," ++ dn)) as L. destruct (sv_delete sv s (q ++ lit "," ++ dn)) as [s' ok]. cbn [fst]. specialize (L s' ok eq_refl).
    destruct ok; [|now rewrite L]. destruct L as (_ & On). rewrite On; [exact V|]. apply not_eq_sym, Hchild.
  Qed.

  (** *** from the methods of Model_Dir to those of the object *)
  Lemma does_nothing (m : @M S unit) s u o l s' l' r : does m s u o l s' l' r -> exists t x, nothing m (mk_world s u (conn_obj o l)) = (mk_world s' u (conn_obj o l'), t, x).
  Proof. intros (t & E). unfold nothing, bindM. rewrite E. destruct r; cbn; eexists _, _; reflexivity. Qed.
  Definition good_end (s : S) (dn : str) (o : obj) : Prop :=
    ob_conn o = true /\ ob_dn o = Some dn /\ dict_ok lower (ob_attrs o) /\ exists e, view s dn = Some e /\ truth (ob_attrs o) e.
  Lemma still_end s l s' l' o : still s l s' l' -> good_end s' (o_dn l) (conn_obj o l').
  Proof. intros (D & K & E & _). split; [reflexivity|]. split; [cbn; now rewrite D|]. split; [exact K|exact E]. Qed.

  (** the methods of netgroups on objects *)
  Lemma netgroup_still u o s l e op us ms dom : view s (o_dn l) = Some e -> dict_ok lower (o_attrs l) -> truth (o_attrs l) e ->
    (op = NgReplace \/ strict = false) ->
    exists s' l' r, does (m_netgroup sv lower idx strict flags vm op us ms dom) s u o l s' l' r /\ still s l s' l' /\
      (forall x, r = Ok x -> existsb (fun y => eqv (lit "objectClass") y (lit "nisNetgroup")) (e (lower (lit "objectClass"))) = true /\
         exists a l1, ng_attrs us ms dom = Ok a /\ o_dn l1 = o_dn l /\
           match op with
           | NgAdd => (forall k, In k (map fst (as_vals a)) -> cur_vals lower (o_attrs l1) k = e (lower k)) /\
               ldap_add_attrs sv lower idx u strict flags vm s (o_dn l) (as_vals a) (Some l1) = (s', Ok x)
           | NgReplace => ldap_replace_attrs sv lower u strict true flags vm s (o_dn l) (as_vals a) (Some l1) = (s', Ok x)
           | NgDelete => (forall k, In k (map fst (as_vals a)) -> cur_vals lower (o_attrs l1) k = e (lower k)) /\
               ldap_delete_attrs sv lower idx u strict flags vm s (o_dn l) (as_vals a) (Some l1) = (s', Ok x)
           end) /\
      (forall x, r = Raise x -> forall d, view s' d = view s d) /\
      (existsb (fun y => eqv (lit "objectClass") y (lit "nisNetgroup")) (e (lower (lit "objectClass"))) = false -> s' = s /\ exists x, r = Raise x).
  Proof.
    intros V Hok Ht Hs. unfold m_netgroup, m_require_netgroup.
    pose proof (has_class_still sv view lower norm eqv idx vm Hidx Hlaw u s l e (lit "nisNetgroup") V Hok Ht) as HC.
    pose proof (has_class_does sv lower idx s u o l (lit "nisNetgroup")) as HD.
    destruct (has_object_class sv lower idx u s l (lit "nisNetgroup")) as [l1 [b|x]].
    2: { destruct HC as (HS & _). exists s, l1, (Raise x). split; [apply does_fail, does_fail; exact HD|]. split; [exact HS|]. split; [discriminate|]. split; [auto|]. intros _. eauto. }
    destruct HC as (HS & _ & HB). specialize (HB b eq_refl). destruct b.
    2: { exists s, l1, (Raise RuntimeError). split; [apply does_fail; eapply does_bind; [exact HD|apply does_raise]|]. split; [exact HS|]. split; [discriminate|]. split; [auto|]. intros _. eauto. }
    rewrite <- HB.
    assert (REQ : forall (k : @M S unit) s' l' r, does k s u o l1 s' l' r ->
      does (bindM (bindM (m_has_class sv lower idx (lit "nisNetgroup")) (fun b0 : bool => if b0 then ret tt else raise RuntimeError)) (fun _ : unit => k)) s u o l s' l' r).
    { intros kk s' l' r Hk. eapply does_bind; [|exact Hk]. eapply does_bind; [exact HD|apply does_ret]. }
    change (if us then user_list_to_attrs ms dom else host_list_to_attrs ms dom) with (ng_attrs us ms dom).
    destruct (ng_attrs us ms dom) as [a|x] eqn:Ea.
    2: { exists s, l1, (Raise x). split; [apply REQ; apply does_fail, does_lift|]. split; [exact HS|]. split; [discriminate|]. split; [auto|discriminate]. }
    pose proof (ng_tidy us ms dom a Ea) as Hti. destruct (still_view view lower norm s l l1 e V HS) as (V1 & Hok1 & Ht1).
    assert (D1 : o_dn l1 = o_dn l) by apply HS.
    destruct op.
    - destruct Hs as [Hs|Hs]; [discriminate|].
      pose proof (add_attrs_still sv view lower norm eqv idx strict flags vm Hidx Hlaw u s l1 e (as_vals a) V1 Hok1 Ht1) as AS.
      pose proof (add_attrs_does sv lower idx strict flags vm s u o l1 (as_vals a)) as AD.
      destruct (obj_add_attrs sv lower idx u strict flags vm s l1 (as_vals a)) as [[s' l'] r]. destruct AS as (A1 & A2 & A3).
      { rewrite as_vals_fst. apply Hti. } { now apply tidy_plain. } { now left. }
      exists s', l', r. split; [apply REQ; eapply does_bind; [apply does_lift|exact AD]|]. split; [eapply still_trans; eauto|]. split; [|split; [exact A3|discriminate]].
      intros x Hx. split; [reflexivity|]. destruct (A2 x Hx) as (l2 & D2 & C2 & E2). exists a, l2. rewrite D1 in D2, E2. auto.
    - pose proof (replace_attrs_still sv view lower norm eqv idx strict flags vm Hidx Hlaw u true s l1 e (as_vals a) V1 Hok1 Ht1 (tidy_vals a Hti)) as RS.
      pose proof (replace_attrs_does sv lower idx flags vm s u o l1 (as_vals a)) as RD.
      destruct (obj_replace_attrs sv lower idx u flags vm s l1 (as_vals a)) as [[s' l'] r]. destruct RS as (R1 & R2).
      exists s', l', r. split; [apply REQ; eapply does_bind; [apply does_lift|exact RD]|]. split; [eapply still_trans; eauto|]. split; [|split; [|discriminate]].
      + intros x ->. split; [reflexivity|]. exists a, l1. rewrite D1 in R2. auto.
      + intros x ->. unfold ldap_replace_attrs in R2. rewrite replace_modlist in R2.
        set (ml := map (fun av : str * vals => mkmod REPLACE (fst av) (snd av)) (as_vals a)) in R2.
        assert (G : forall m, In m ml -> constructed m /\ empty_rd m = false).
        { intros m Hm. apply in_map_iff in Hm. destruct Hm as ([k v] & <- & Hin). destruct (tidy_vals a Hti k v Hin) as ([|y ys] & -> & Hy); [now elim Hy|]. split; reflexivity. }
        pose proof (lmod_dir sv view lower norm eqv Hlaw u flags vm s (o_dn l1) ml (Some l1) (fun m Hm => proj1 (G m Hm)) (fun m Hm => proj2 (G m Hm))) as L.
        destruct (ldap_modify_ sv u flags vm s (o_dn l1) ml (Some l1)) as [[s2 ms2] r2]. injection R2 as -> <-. exact L.
    - destruct Hs as [Hs|Hs]; [discriminate|].
      pose proof (delete_attrs_still sv view lower norm eqv idx strict flags vm Hidx Hlaw u s l1 e (as_vals a) V1 Hok1 Ht1) as AS.
      pose proof (delete_attrs_does sv lower idx strict flags vm s u o l1 (as_vals a)) as AD.
      destruct (obj_delete_attrs sv lower idx u strict flags vm s l1 (as_vals a)) as [[s' l'] r]. destruct AS as (A1 & A2 & A3).
      { rewrite as_vals_fst. apply Hti. } { now apply tidy_plain. } { now left. }
      { intros k v Hin. destruct (tidy_vals a Hti k v Hin) as (y & -> & Hy). congruence. }
      exists s', l', r. split; [apply REQ; eapply does_bind; [apply does_lift|exact AD]|]. split; [eapply still_trans; eauto|]. split; [|split; [exact A3|discriminate]].
      intros x Hx. split; [reflexivity|]. destruct (A2 x Hx) as (l2 & D2 & C2 & E2). exists a, l2. rewrite D1 in D2, E2. auto.
  Qed.

  Lemma perform_gentle c s u o dn e w' t r : ob_conn o = true -> ob_dn o = Some dn -> view s dn = Some e ->
    dict_ok lower (ob_attrs o) -> truth (ob_attrs o) e -> gentle lower strict (ob_attrs o) c ->
    perform c (mk_world s u o) = (w', t, r) -> good_end (w_s w') dn (w_o w').
  Proof.
    intros Hc Hd V Hok Ht Hg H.
    assert (A : aloof c \/ ~ aloof c) by (destruct c; (left; exact I) || (right; exact (fun x => x))). destruct A as [A|A].
    - pose proof (s_perform c A (mk_world s u o)) as Eo. rewrite H in Eo. cbn [fst w_o] in Eo. rewrite Eo.
      assert (V' : view (w_s w') dn = Some e).
      { destruct (C88_call sv sv_search lower idx strict flags syn vo vm _ _ _ _ _ _ _ _ Hd H) as (_ & Hl & _ & _ & Es & _).
        destruct c; try (exfalso; exact A); try (rewrite Es, answered_looks; [exact V|apply Hl; exact I]); [eapply add_child_view; eauto|eapply delete_child_view; eauto]. }
      split; [exact Hc|]. split; [exact Hd|]. split; [exact Hok|eauto].
    - pose (l := mk_lobj dn (ob_attrs o)).
      assert (Eo : o = conn_obj o l) by (destruct o; unfold conn_obj, l; cbn in *; congruence). rewrite Eo in H at 1.
      assert (FIN : forall (m : @M S unit) s' l' x, does m s u o l s' l' x -> still s l s' l' -> nothing m (mk_world s u (conn_obj o l)) = (w', t, r) -> good_end (w_s w') dn (w_o w')).
      { intros m s' l' x D ST E. destruct (does_nothing _ _ _ _ _ _ _ _ D) as (t1 & x1 & E1). rewrite E1 in E. injection E as <- <- <-. exact (still_end s l s' l' o ST). }
      destruct c; try (exfalso; apply A; exact I); try (exfalso; exact Hg); cbn [Model_Life.perform] in H.
      + pose proof (has_class_still sv view lower norm eqv idx vm Hidx Hlaw u s l e oc V Hok Ht) as HS. pose proof (has_class_does sv lower idx s u o l oc) as HD.
        destruct (has_object_class sv lower idx u s l oc) as [l' x]. destruct HD as (t1 & HD). unfold bindM in H. rewrite HD in H.
        destruct x; cbn in H; injection H as <- <- <-; exact (still_end s l s l' o (proj1 HS)).
      + pose proof (refresh_still sv view lower norm eqv Hlaw u s l e ats V Hok Ht) as HS. pose proof (refresh_does sv lower s u o l ats) as HD.
        destruct (obj_refresh sv lower u s l ats) as [l' x]. eapply FIN; [exact HD| |exact H]. apply HS. now destruct ats.
      + pose proof (missing_still sv view lower norm eqv vm Hlaw u s l e ats V Hok Ht Hg) as HS. pose proof (refresh_missing_does sv lower s u o l ats) as HD.
        destruct (obj_refresh_missing sv lower u s l ats) as [l' x]. eapply FIN; [exact HD| |exact H]. apply HS.
      + pose proof (raw_modify_still sv view lower norm eqv idx strict flags vm Hidx Hlaw u s l e ms V Hok Ht Hg) as HS. pose proof (modify_does sv lower idx flags vm s u o l ms) as HD.
        destruct (obj_modify_ sv lower idx u flags vm s l ms) as [[s' l'] x]. eapply FIN; [exact HD|exact HS|exact H].
      + destruct Hg as (G1 & G2 & G3).
        pose proof (add_attrs_still sv view lower norm eqv idx strict flags vm Hidx Hlaw u s l e new V Hok Ht G1 G2 G3) as HS. pose proof (add_attrs_does sv lower idx strict flags vm s u o l new) as HD.
        destruct (obj_add_attrs sv lower idx u strict flags vm s l new) as [[s' l'] x]. eapply FIN; [exact HD|exact (proj1 HS)|exact H].
      + pose proof (replace_attrs_still sv view lower norm eqv idx strict flags vm Hidx Hlaw u true s l e new V Hok Ht Hg) as HS. pose proof (replace_attrs_does sv lower idx flags vm s u o l new) as HD.
        destruct (obj_replace_attrs sv lower idx u flags vm s l new) as [[s' l'] x]. eapply FIN; [exact HD|exact (proj1 HS)|exact H].
      + destruct Hg as (G1 & G2 & G3 & G4).
        pose proof (delete_attrs_still sv view lower norm eqv idx strict flags vm Hidx Hlaw u s l e del V Hok Ht G1 G2 G3 G4) as HS. pose proof (delete_attrs_does sv lower idx strict flags vm s u o l del) as HD.
        destruct (obj_delete_attrs sv lower idx u strict flags vm s l del) as [[s' l'] x]. eapply FIN; [exact HD|exact (proj1 HS)|exact H].
      + assert (D : does (m_del lower a) s u o l s (mk_lobj dn (fst (cid_del lower (ob_attrs o) a))) (snd (cid_del lower (ob_attrs o) a))).
        { unfold m_del. apply does_self. eapply does_bind; [apply does_put|]. apply does_lift. }
        eapply FIN; [exact D| |exact H]. split; [reflexivity|]. cbn [o_attrs o_dn].
        destruct (cid_get lower (ob_attrs o) a) as [v|x] eqn:Eg.
        * destruct (del_present lower (ob_attrs o) a v Hok Eg) as (d' & E & Hok' & Hg'). rewrite E. cbn [fst]. split; [exact Hok'|]. split; [|auto].
          exists e. split; [exact V|]. intros k Hk. unfold ahas, cur_vals in *. rewrite Hg' in *. destruct (str_eqb (lower a) (lower k)); [discriminate|]. now apply Ht.
        * assert (E : fst (cid_del lower (ob_attrs o) a) = ob_attrs o).
          { unfold cid_get in Eg. unfold cid_del. destruct (dget (ckeys (ob_attrs o)) (lower a)); [|reflexivity]. destruct (dget (cdata (ob_attrs o)) s0); [discriminate|reflexivity]. }
          rewrite E. split; [exact Hok|]. split; [eauto|auto].
      + destruct (netgroup_still u o s l e op users ms domain V Hok Ht) as (s' & l' & x & D & ST & _).
        { destruct op; auto. }
        eapply FIN; [exact D|exact ST|exact H].
  Qed.

  (** *** histories *)
  Definition next (ss : @session S) (ev : @event S) : @session S := fst (fst (step ss ev)).
  Lemma step_coherent dn i ss c : coherent lower view dn i ss -> (forall o, nth_error (ss_objs ss) i = Some o -> gentle lower strict (ob_attrs o) c) ->
    coherent lower view dn i (next ss (Do i c)).
  Proof.
    intros (o & e & Ho & Hc & Hd & V & Hok & Ht) Hg. unfold next. rewrite (step_do sv sv_search lower idx strict flags syn vo vm ss i c o Ho).
    destruct (perform c (mk_world (ss_s ss) (ss_closed ss) o)) as [[w t] r] eqn:E. cbn [fst].
    destruct (perform_gentle c _ _ _ dn e _ _ _ Hc Hd V Hok Ht (Hg o Ho) E) as (Hc' & Hd' & Hok' & e' & V' & Ht').
    exists (w_o w), e'. cbn [ss_objs ss_s]. split; [|auto 6]. apply nth_app. eapply set_nth_same; eauto.
  Qed.
  Lemma other_coherent dn i ss ev : coherent lower view dn i ss -> (forall c, ev <> Do i c) -> view (ss_s (next ss ev)) dn = view (ss_s ss) dn ->
    coherent lower view dn i (next ss ev).
  Proof.
    intros (o & e & Ho & Hc & Hd & V & Hok & Ht) Hne Hv. exists o, e. split; [|rewrite Hv; auto 6].
    unfold next. destruct (step ss ev) as [[ss' t] r] eqn:E. cbn [fst]. eapply step_keeps; eauto.
  Qed.
  Lemma run_coherent dn i ss es : undisturbed lower strict view dn i next ss es -> coherent lower view dn i ss ->
    coherent lower view dn i (fst (session_run ss es)).
  Proof.
    induction 1 as [ss|ss c es Hg _ IH|ss ev es Hne Hv _ IH]; intros C; [exact C| |].
    - pose proof (step_coherent dn i ss c C Hg) as C'. specialize (IH C'). revert IH. unfold next. cbn [Model_Life.session_run].
      destruct (step ss (Do i c)) as [[ss1 t] r]. cbn [fst]. destruct (session_run ss1 es). auto.
    - pose proof (other_coherent dn i ss ev C Hne Hv) as C'. specialize (IH C'). revert IH. unfold next. cbn [Model_Life.session_run].
      destruct (step ss ev) as [[ss1 t] r]. cbn [fst]. destruct (session_run ss1 es). auto.
  Qed.
End P.
