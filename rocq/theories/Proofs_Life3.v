From Verif Require Import PyBase Model_CIDict Model_Modify Model_Search Model_Dir Model_Filter Model_Request Model_Netgroups Model_Life Spec_Life Proofs_Life Proofs_Life2.

Definition n_changes (t : list request) : nat := List.length (List.filter changing t).

Section P.
  Context {S : Type} (sv : server S).
  Context (sv_search : S -> str -> scope -> option str -> option (list str) -> N -> option (list (str * list (str * list str)))).
  Context (lower : str -> str) (idx : str -> list str -> str -> res nat).
  Context (strict : bool) (flags : empty_flags) (syn : fsyntax).
  Context (vo : lobj -> res unit) (vm : str -> list mod_ -> option lobj -> res unit).
  Notation perform := (perform sv sv_search lower idx strict flags syn vo vm).
  Notation step := (step sv sv_search lower idx strict flags syn vo vm).
  Notation session_run := (session_run sv sv_search lower idx strict flags syn vo vm).
  Notation M := (@M S).

  (** ** at most [n] changing requests *)
  Definition atmost (n : nat) {A} (m : M A) : Prop := forall w, n_changes (snd (fst (m w))) <= n.
  Lemma am_bind n1 n2 {A B} (m : M A) (k : A -> M B) : atmost n1 m -> (forall a, atmost n2 (k a)) -> atmost (n1 + n2) (bindM m k).
  Proof.
    intros Hm Hk w. unfold bindM. pose proof (Hm w) as H. destruct (m w) as [[w1 t1] [a|e]]; cbn [fst snd] in *.
    - pose proof (Hk a w1) as H'. destruct (k a w1) as [[w2 t2] r]. cbn [fst snd] in *. unfold n_changes in *. rewrite filter_app, app_length. lia.
    - lia.
  Qed.
  Lemma am_bind0 n {A B} (m : M A) (k : A -> M B) : atmost 0 m -> (forall a, atmost n (k a)) -> atmost n (bindM m k).
  Proof. exact (am_bind 0 n m k). Qed.
  Lemma am_bind1 {A B} (m : M A) (k : A -> M B) : atmost 1 m -> (forall a, atmost 0 (k a)) -> atmost 1 (bindM m k).
  Proof. exact (am_bind 1 0 m k). Qed.
  Lemma am_weak {A} (m : M A) : atmost 0 m -> atmost 1 m.
  Proof. intros H w. specialize (H w). lia. Qed.
  Lemma am_looks {A} (m : M A) b Q :
    (forall dn, conf sv dn (fun q => ~ changes q) b Q m) -> atmost 0 m.
  Proof.
    intros H w. specialize (H (dn_text (w_o w)) w eq_refl). destruct (m w) as [[w' t] r]. destruct H as (F & _). cbn [fst snd].
    unfold n_changes. replace (List.filter changing t) with (@nil request); [cbn; lia|]. induction F as [|q t Hq F IH]; [reflexivity|].
    cbn [List.filter]. unfold changes in Hq. destruct (changing q); [now elim Hq|exact IH].
  Qed.
  Lemma am_prim {A} (m : M A) : (forall w, snd (fst (m w)) = []) -> atmost 0 m.
  Proof. intros H w. rewrite H. cbn. lia. Qed.
  Lemma am_send q : atmost 1 (send sv q).
  Proof. intros w. unfold send. destruct (serve sv (w_s w) q). cbn [fst snd]. unfold n_changes. cbn [List.filter]. destruct (changing q); cbn; lia. Qed.
  Lemma am_self : atmost 0 (@self S). Proof. now apply am_prim. Qed.
  Lemma am_ret {A} n (a : A) : atmost n (@ret S A a). Proof. intros w. cbn. lia. Qed.
  Lemma am_raise {A} n e : atmost n (@raise S A e). Proof. intros w. cbn. lia. Qed.
  Lemma am_lift {A} n (r : res A) : atmost n (@lift S A r). Proof. intros w. cbn. lia. Qed.
  Lemma am_put_attrs n d : atmost n (@put_attrs S d). Proof. intros w. cbn. lia. Qed.
  Lemma am_require : atmost 0 (@require_ldap S). Proof. apply am_prim. intros w. cbn. now destruct (ob_conn (w_o w)). Qed.
  Lemma am_need : atmost 0 (@need_conn S). Proof. apply am_prim. intros w. cbn. now destruct (ob_conn (w_o w)). Qed.
  Lemma am_check : atmost 0 (@check_open S). Proof. now apply am_prim. Qed.
  Lemma am_rdn r : atmost 0 (@m_rdn S r). Proof. now apply am_prim. Qed.
  Lemma am_get d ats : atmost 0 (l_get sv lower d ats).
  Proof.
    intros w. unfold l_get, bindM, check_open, send_read. destruct (w_closed w); cbn; [lia|]. destruct (sv_read sv (w_s w) d ats) as [[? ?]|]; cbn; lia.
  Qed.
  Lemma am_refresh ats : atmost 0 (m_refresh sv lower ats).
  Proof.
    unfold m_refresh. apply am_bind0; [apply am_require|]. intros _. apply am_bind0; [apply am_self|]. intros o. apply am_bind0; [apply am_get|]. intros got.
    apply am_bind0; [apply am_put_attrs|]. intros _. apply am_lift.
  Qed.
  Lemma am_refresh_missing ats : atmost 0 (m_refresh_missing sv lower ats).
  Proof. unfold m_refresh_missing. apply am_bind0; [apply am_self|]. intros o. destruct (missing lower (as_lobj o) ats); [apply am_ret|apply am_refresh]. Qed.
  Lemma am_has_class oc : atmost 0 (m_has_class sv lower idx oc).
  Proof. unfold m_has_class. apply am_bind0; [apply am_refresh_missing|]. intros _. apply am_bind0; [apply am_self|]. intros o. apply am_lift. Qed.
  Lemma am_modify ms : atmost 1 (m_modify sv lower idx flags vm ms).
  Proof.
    unfold m_modify. apply am_bind0; [apply am_require|]. intros _. apply am_bind0; [apply am_self|]. intros o. apply am_bind1.
    - intros w. unfold l_modify. destruct (ldap_modify _ _ _ _ _ _) as [[ms' [cs|]] r].
      + apply (am_bind1 (send sv (QModify (dn_text o) cs)) (fun _ => ret ms')); [apply am_send|intros; apply am_ret].
      + apply am_weak. apply (am_bind0 0 (lift r) (fun _ => ret ms')); [apply am_lift|intros; apply am_ret].
    - intros ms'. apply am_bind0; [apply am_put_attrs|]. intros _. apply am_lift.
  Qed.
  Lemma am_prefetch ats : atmost 0 (m_prefetch sv lower strict ats).
  Proof. unfold m_prefetch. apply am_bind0; [apply am_need|]. intros _. destruct strict; [apply am_ret|apply am_refresh_missing]. Qed.
  Lemma am_add_attrs new : atmost 1 (m_add_attrs sv lower idx strict flags vm new).
  Proof. unfold m_add_attrs. apply am_bind0; [apply am_prefetch|]. intros _. apply am_bind0; [apply am_self|]. intros o. apply am_bind0; [apply am_lift|]. intros ms. apply am_modify. Qed.
  Lemma am_delete_attrs new : atmost 1 (m_delete_attrs sv lower idx strict flags vm new).
  Proof. unfold m_delete_attrs. apply am_bind0; [apply am_prefetch|]. intros _. apply am_bind0; [apply am_self|]. intros o. apply am_bind0; [apply am_lift|]. intros ms. apply am_modify. Qed.
  Lemma am_replace_attrs new : atmost 1 (m_replace_attrs sv lower idx flags vm new).
  Proof. unfold m_replace_attrs. apply am_bind0; [apply am_lift|]. intros ms. apply am_modify. Qed.
  Lemma am_mod_dn r c p : atmost 1 (m_mod_dn sv lower idx r c p).
  Proof.
    unfold m_mod_dn. apply am_bind0; [apply am_require|]. intros _. apply am_bind0; [apply am_self|]. intros o. apply am_bind0; [apply am_lift|]. intros cur.
    apply am_bind1; [unfold l_mod_dn; apply am_bind0; [apply am_check|]; intros _; apply am_send|]. intros _. apply am_bind0; [apply am_put_attrs|]. intros _.
    apply am_bind0; [apply am_lift|]. intros _. now apply am_prim.
  Qed.
  Lemma looks_dec c : looks c \/ ~ looks c.
  Proof. destruct c; cbn; auto. Qed.
  Lemma am_perform c : atmost 1 (perform c).
  Proof.
    destruct (looks_dec c) as [Hl|Hl].
    - apply am_weak. apply am_looks with (b := false) (Q := okval (fun _ _ => True) (fun _ _ => True) []). intros dn.
      eapply conf_weak; [|apply (conf_looks sv sv_search lower idx strict flags syn vo vm (fun _ _ => True) (fun _ _ => True)); auto].
      intros o a. unfold okval. destruct a; auto.
    - destruct c; try (exfalso; apply Hl; exact I); cbn [Model_Life.perform]; unfold nothing; try (apply am_bind1; [|intros; apply am_ret]).
      + unfold m_add_child. apply am_bind0; [apply am_require|]. intros _. apply am_bind0; [apply am_rdn|]. intros d. apply am_bind1.
        * unfold l_add. apply am_bind0; [apply am_check|]. intros _. apply am_bind0; [apply am_lift|]. intros _. apply am_bind1; [apply am_send|]. intros; apply am_ret.
        * intros n. apply am_bind0; [apply am_self|]. intros; apply am_ret.
      + unfold m_delete_child. apply am_bind0; [apply am_require|]. intros _. apply am_bind0; [apply am_rdn|]. intros d. apply am_bind1.
        * unfold l_delete. apply am_bind0; [apply am_check|]. intros _. apply am_send.
        * intros; apply am_ret.
      + apply am_modify.
      + apply am_add_attrs.
      + apply am_replace_attrs.
      + apply am_delete_attrs.
      + unfold m_delete. apply am_bind0; [apply am_require|]. intros _. apply am_bind0; [apply am_self|]. intros o. apply am_bind1.
        * unfold l_delete. apply am_bind0; [apply am_check|]. intros _. apply am_send.
        * intros _. now apply am_prim.
      + apply am_mod_dn.
      + apply am_mod_dn.
      + unfold m_move. apply am_bind0; [apply am_lift|]. intros p. apply am_mod_dn.
      + unfold m_netgroup. apply am_bind0.
        * unfold m_require_netgroup. apply am_bind0; [apply am_has_class|]. intros b. destruct b; [apply am_ret|apply am_raise].
        * intros _. apply am_bind0; [apply am_lift|]. intros a. destruct op; [apply am_add_attrs|apply am_replace_attrs|apply am_delete_attrs].
  Qed.

  (** ** exactly which request *)
  Lemma one_request_sent c q w : one_request (dn_text (w_o w)) c = Some q -> ob_conn (w_o w) = true -> w_closed w = false ->
    snd (fst (perform c w)) = [q].
  Proof.
    intros H Hc Hcl. destruct w as [s cl o]. cbn [w_o w_closed] in *. subst cl.
    destruct c; cbn [one_request] in H; try discriminate H; injection H as <-; cbn [Model_Life.perform].
    - unfold m_compare, require_ldap, self, l_compare, check_open, send_compare, bindM. cbn. rewrite Hc. cbn.
      destruct (N.eqb _ 6); cbn; [reflexivity|]. destruct (N.eqb _ 5); reflexivity.
    - unfold nothing, m_refresh, require_ldap, self, l_get, check_open, send_read, bindM. cbn. rewrite Hc. cbn.
      destruct (sv_read _ _ _ _) as [[d a]|]; cbn; [|reflexivity]. now destruct (snd (cid_update_cid _ _ _)).
    - unfold nothing, m_refresh_all, m_refresh, require_ldap, self, l_get, check_open, send_read, bindM. cbn. rewrite Hc. cbn.
      rewrite Hc. cbn. destruct (sv_read _ _ _ _) as [[d a]|]; cbn; [|reflexivity]. now destruct (snd (cid_update_cid _ _ _)).
    - unfold nothing, m_delete, require_ldap, self, l_delete, check_open, bindM. cbn. rewrite Hc. cbn. unfold send. cbn.
      destruct (sv_delete sv s (dn_text o)) as [s' ok]. cbn. destruct ok; reflexivity.
  Qed.
  Lemma rdn_full o r : In (ch "=") r -> rdn_attr_ (ob_rdn o) r = Ok r.
  Proof.
    intros H. unfold rdn_attr_. replace (existsb (N.eqb (ch "=")) r) with true; [reflexivity|]. symmetry. apply existsb_exists. exists (ch "="). split; [exact H|apply N.eqb_refl].
  Qed.
  Lemma child_request_sent c r q w : rdn_of_call c = Some r -> In (ch "=") r -> child_request (dn_text (w_o w)) r c = Some q ->
    ob_conn (w_o w) = true -> w_closed w = false -> snd (fst (perform c w)) = [q].
  Proof.
    intros Hr Hin H Hc Hcl. destruct w as [s cl o]. cbn [w_o w_closed] in *. subst cl.
    destruct c; cbn [child_request] in H; try discriminate H; injection H as <-; cbn [rdn_of_call] in Hr; injection Hr as ->; cbn [Model_Life.perform].
    - unfold m_get_child, require_ldap, self, m_rdn, l_get, check_open, send_read, bindM. cbn. rewrite Hc. cbn. unfold obj_rdn. rewrite (rdn_full o r Hin). cbn.
      match goal with |- context [sv_read sv s ?d ats] => destruct (sv_read sv s d ats) as [[d' a]|] end; reflexivity.
    - unfold m_delete_child, require_ldap, self, m_rdn, l_delete, check_open, bindM. cbn. rewrite Hc. cbn. unfold obj_rdn. rewrite (rdn_full o r Hin). cbn.
      unfold send, serve. match goal with |- context [sv_delete sv ?x ?d] => destruct (sv_delete sv x d) as [s' ok] end. destruct ok; reflexivity.
  Qed.

  (** ** sessions *)
  Lemma run_nth es : forall ss ss' out k e, session_run ss es = (ss', out) -> nth_error es k = Some e ->
    exists ss1 ss2 t r, session_run ss (firstn k es) = (ss1, firstn k out) /\ step ss1 e = (ss2, t, r) /\ nth_error out k = Some (t, r).
  Proof.
    induction es as [|e0 es IH]; intros ss ss' out k e H Hk; [destruct k; discriminate|]. cbn [Model_Life.session_run] in H.
    destruct (step ss e0) as [[ss1 t] r] eqn:E. destruct (session_run ss1 es) as [ss2 out2] eqn:R. injection H as <- <-. destruct k as [|k]; cbn [nth_error firstn] in *.
    - injection Hk as ->. exists ss, ss1, t, r. cbn. auto.
    - destruct (IH _ _ _ _ _ R Hk) as (a & b & t' & r' & H1 & H2 & H3). exists a, b, t', r'. cbn [Model_Life.session_run]. rewrite E, H1. auto.
  Qed.
  (** after the connection is unbound *)
  Lemma perform_closed c w : w_closed w = true -> snd (fst (perform c w)) = [] /\ w_closed (fst (fst (perform c w))) = true /\ w_s (fst (fst (perform c w))) = w_s w.
  Proof.
    intros Hcl.
    assert (H : conf sv (dn_text (w_o w)) (fun _ => True) false (fun _ _ => True) (perform c)).
    { destruct (looks_dec c) as [Hl|Hl].
      - eapply conf_weak; [|apply (conf_looks sv sv_search lower idx strict flags syn vo vm (fun _ _ => True) (fun _ _ => True)); auto]. auto.
      - eapply conf_weak; [|apply (conf_changes sv sv_search lower idx strict flags syn vo vm (fun _ _ => True) (fun _ _ => True)); auto]. auto. }
    specialize (H w eq_refl). destruct (perform c w) as [[w' t] r]. destruct H as (_ & H1 & H2 & H3 & _). cbn [fst snd]. rewrite (H2 Hcl) in *. cbn in H3. split; [reflexivity|]. split; congruence.
  Qed.
  Lemma step_closed ss e ss' t r : step ss e = (ss', t, r) -> ss_closed ss = true -> t = [] /\ ss_closed ss' = true.
  Proof.
    intros H Hc. destruct e as [i c| |s]; cbn [Model_Life.step] in H.
    - destruct (nth_error (ss_objs ss) i) as [o|]; [|injection H as <- <- _; auto].
      destruct (perform_closed c (mk_world (ss_s ss) (ss_closed ss) o) Hc) as (H1 & H2 & _). destruct (perform c _) as [[w t1] r1]. cbn [fst snd] in *. injection H as <- <- _. auto.
    - injection H as <- <- _. auto.
    - injection H as <- <- _. auto.
  Qed.
  Lemma run_closed es : forall ss ss' out, session_run ss es = (ss', out) -> ss_closed ss = true -> Forall (fun tr => fst tr = []) out /\ ss_closed ss' = true.
  Proof.
    induction es as [|e es IH]; intros ss ss' out H Hc; cbn [Model_Life.session_run] in H.
    - injection H as <- <-. auto.
    - destruct (step ss e) as [[ss1 t] r] eqn:E. destruct (session_run ss1 es) as [ss2 out2] eqn:R. injection H as <- <-.
      destruct (step_closed _ _ _ _ _ E Hc) as [-> Hc1]. destruct (IH _ _ _ R Hc1). split; [constructor; auto|auto].
  Qed.

  (** everything stays within a subtree *)
  Section Within.
    Context (under : str -> str -> Prop) (base : str).
    Context (Urefl : forall d, under d d) (Utrans : forall a b c, under a b -> under b c -> under a c) (Uchild : forall d r, under d (r ++ lit "," ++ d)).
    Context (Hread : forall s d ats d' a, sv_read sv s d ats = Some (d', a) -> under d d').
    Context (Hsearch : forall s b sc f ats n l d' a, sv_search s b sc f ats n = Some l -> In (d', a) l -> under b d').
    Definition inside (o : obj) : Prop := ob_conn o = true -> under base (dn_text o).
    Lemma Forall_set_nth {A} (P : A -> Prop) l i x : Forall P l -> P x -> Forall P (set_nth l i x).
    Proof. intros H Hx. revert i. induction H; intros [|i]; cbn; auto. Qed.
    (** the object after a call that does not rename: same name if it is still connected *)
    Lemma delete_result w : match perform CDelete w with (w', t, r) => match r with Ok _ => ob_conn (w_o w') = false | Raise _ => w_o w' = w_o w end end.
    Proof.
      cbn [Model_Life.perform]. unfold nothing, m_delete, require_ldap, self, l_delete, check_open, bindM. cbn. destruct (ob_conn (w_o w)); cbn; [|reflexivity].
      destruct (w_closed w); cbn; [reflexivity|]. unfold send. cbn. destruct (sv_delete sv (w_s w) (dn_text (w_o w))) as [s' ok]. cbn. destruct ok; reflexivity.
    Qed.
    Lemma step_inside ss e ss' t r : (forall i c, e = Do i c -> ~ renames c) -> step ss e = (ss', t, r) -> Forall inside (ss_objs ss) ->
      Forall inside (ss_objs ss') /\ Forall (fun q => under base (about q)) t.
    Proof.
      intros Hn H Hi. destruct e as [i c| |s]; cbn [Model_Life.step] in H; try (injection H as <- <- _; auto; fail).
      destruct (nth_error (ss_objs ss) i) as [o|] eqn:E; [|injection H as <- <- _; auto].
      specialize (Hn i c eq_refl). assert (Ho : inside o) by (rewrite Forall_forall in Hi; apply Hi; eapply nth_error_In; eauto).
      set (w := mk_world (ss_s ss) (ss_closed ss) o) in *.
      destruct (ob_conn o) eqn:Hc.
      - pose proof (Ho Hc) as Hd. set (d := dn_text o) in *.
        assert (HP : forall q, under d (about q) -> under base (about q)) by (intros q Hq; eapply Utrans; eauto).
        assert (Hobj : forall o1, okobj under under d true o1 -> inside o1).
        { intros o1 (_ & x & y & Ey & Hx & Hy) _. unfold dn_text. rewrite Ey. apply (Utrans _ d); [exact Hd|]. destruct Hy as [->|Hy]; [exact Hx|]. apply (Utrans _ x); assumption. }
        assert (Hnew : forall r', match r' with Ok a => okval under under d (w_o w) a | Raise _ => True end -> Forall inside (new_objs r')).
        { intros [[| |l]|x] Q; cbn [new_objs]; try constructor. unfold okval in Q. cbn [w w_o] in Q. rewrite Hc in Q. eapply Forall_impl; [|exact Q]. exact Hobj. }
        assert (D : c = CDelete \/ c <> CDelete) by (destruct c; auto; right; discriminate). destruct D as [->|Hnd].
        + pose proof (conf_changes sv sv_search lower idx strict flags syn vo vm under under Urefl Uchild Hread d (fun q => under base (about q)) (fun q _ => HP q) HP CDelete (fun x => x) w eq_refl) as C.
          pose proof (delete_result w) as D. destruct (perform CDelete w) as [[w' t'] r']. injection H as <- <- <-. destruct C as (F & _ & _ & _ & _ & Q). split; [|exact F]. cbn [ss_objs].
          apply Forall_app. split; [|now apply Hnew].
          apply Forall_set_nth; [exact Hi|]. destruct r' as [v|x]; [intros X; congruence|]. now rewrite D.
        + pose proof (conf_keeps sv sv_search lower idx strict flags syn vo vm under under Urefl Uchild Hread Hsearch d (fun q => under base (about q)) (fun q _ => HP q) HP c Hn Hnd w eq_refl) as C.
          destruct (perform c w) as [[w' t'] r'] eqn:Ep. injection H as <- <- <-. destruct C as (F & _ & _ & _ & K & Q). destruct (K eq_refl) as [K1 K2]. split; [|exact F]. cbn [ss_objs].
          apply Forall_app. split; [|now apply Hnew].
          apply Forall_set_nth; [exact Hi|]. intros _. rewrite K1. exact Hd.
      - pose proof (off_perform sv sv_search lower idx strict flags syn vo vm c w Hc) as C. destruct (perform c w) as [[w' t'] r']. injection H as <- <- <-.
        destruct C as (-> & _ & _ & Hc' & _ & Q). split; [|constructor]. cbn [ss_objs]. apply Forall_app. split.
        + apply Forall_set_nth; [exact Hi|]. intros X. congruence.
        + destruct r' as [[| |l]|x]; cbn [new_objs]; try constructor. eapply Forall_impl; [|exact Q]. intros o1 H1 X. congruence.
    Qed.
    Lemma run_inside es : (forall i c, In (Do i c) es -> ~ renames c) -> forall ss ss' out, session_run ss es = (ss', out) -> Forall inside (ss_objs ss) ->
      Forall inside (ss_objs ss') /\ Forall (fun tr => Forall (fun q => under base (about q)) (fst tr)) out.
    Proof.
      induction es as [|e es IH]; intros Hn ss ss' out H Hi; cbn [Model_Life.session_run] in H.
      - injection H as <- <-. auto.
      - destruct (step ss e) as [[ss1 t] r] eqn:E. destruct (session_run ss1 es) as [ss2 out2] eqn:R. injection H as <- <-.
        destruct (step_inside ss e ss1 t r) as [Hi1 Ht]; [|exact E|exact Hi|].
        { intros i c ->. apply (Hn i c). now left. }
        destruct (IH (fun i c Hin => Hn i c (or_intror Hin)) _ _ _ R Hi1). split; [assumption|]. constructor; [exact Ht|assumption].
    Qed.
  End Within.
End P.
