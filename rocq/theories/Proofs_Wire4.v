(** Different messages have different values, and so different encodings *)
From Verif Require Import PyBase Model_Ldif Spec_X690 Model_Wire Spec_Wire Proofs_X690 Proofs_Wire Proofs_Wire3.
Lemma map_inj {A B} (f : A -> B) l l' : (forall x y, f x = f y -> x = y) -> map f l = map f l' -> l = l'.
Proof. intro H. revert l'. induction l as [|x l IH]; intros [|y l'] E; try discriminate; [reflexivity|]. injection E as E1 E2. f_equal; auto. Qed.
Lemma v_octs_inj l l' : v_octs l = v_octs l' -> l = l'.
Proof. intro H. injection H as H. apply map_inj in H; [exact H|]. intros x y E. injection E; auto. Qed.
Lemma v_opt_inj o o' : v_opt o = v_opt o' -> o = o'.
Proof. destruct o, o'; cbn; intro H; try discriminate; [injection H as ->; reflexivity | reflexivity]. Qed.
Lemma v_attr_inj a a' : v_attr a = v_attr a' -> a = a'.
Proof. destruct a as [n l], a' as [n' l']. unfold v_attr. cbn [fst snd]. intro H. injection H as -> H. apply map_inj in H; [subst; reflexivity|]. intros x y E. injection E; auto. Qed.
Lemma v_sub_inj s s' : v_sub s = v_sub s' -> s = s'.
Proof. destruct s, s'; cbn [v_sub]; intro H; try discriminate H; injection H as ->; reflexivity. Qed.
Lemma v_ava_inj a v a' v' : v_ava a v = v_ava a' v' -> a = a' /\ v = v'.
Proof. intro H. injection H as -> ->. auto. Qed.
Lemma v_filter_inj f : forall f', v_filter f = v_filter f' -> f = f'.
Proof.
  assert (ML : forall l, Forall (fun f => forall f', v_filter f = v_filter f' -> f = f') l -> forall l', map v_filter l = map v_filter l' -> l = l').
  { induction 1 as [|x l Hx _ IH]; intros [|y l'] E; try discriminate; [reflexivity|]. injection E as E1 E2. f_equal; auto. }
  induction f as [l Hl|l Hl|g IH|a v|a l|a v|a v|a|a v|r t v d] using rfilter_ind2; intros f' H; destruct f'; cbn [v_filter] in H; try discriminate H.
  - injection H as H. f_equal. auto.
  - injection H as H. f_equal. auto.
  - injection H as H. f_equal. auto.
  - injection H as -> ->. reflexivity.
  - injection H as -> H. f_equal. apply map_inj in H; [exact H | exact v_sub_inj].
  - injection H as -> ->. reflexivity.
  - injection H as -> ->. reflexivity.
  - injection H as ->. reflexivity.
  - injection H as -> ->. reflexivity.
  - injection H as H1 H2 -> ->. apply v_opt_inj in H1, H2. subst. reflexivity.
Qed.
Lemma v_auth_inj a a' : v_auth a = v_auth a' -> a = a'.
Proof. destruct a, a'; cbn [v_auth]; intro H; try discriminate H; [injection H as ->; reflexivity|]. injection H as -> H. apply v_opt_inj in H. subst. reflexivity. Qed.
Lemma v_change_inj c c' : v_change c = v_change c' -> c = c'.
Proof. destruct c as [z [n l]], c' as [z' [n' l']]. unfold v_change. intro H. injection H as -> -> H. apply map_inj in H; [subst; reflexivity|]. intros x y E. injection E; auto. Qed.
Lemma v_control_inj c c' : v_control c = v_control c' -> c = c'.
Proof. destruct c as [a b d], c' as [a' b' d']. unfold v_control. cbn [rc_type rc_critical rc_value]. intro H. injection H as -> -> H. apply v_opt_inj in H. subst. reflexivity. Qed.
Lemma v_result_inj r r' : v_result r = v_result r' -> r = r'.
Proof.
  destruct r as [c m d o], r' as [c' m' d' o']. unfold v_result. cbn [rr_code rr_matched rr_diag rr_referral]. intro H. injection H as -> -> -> H. f_equal.
  destruct o, o'; cbn [option_map] in H; try discriminate; [|reflexivity]. injection H as H. f_equal. apply v_octs_inj. unfold v_octs. congruence.
Qed.
Lemma v_result_app_inj r r' l l' : v_result r ++ l = v_result r' ++ l' -> r = r' /\ l = l'.
Proof.
  intro H. assert (v_result r = v_result r' /\ l = l') as [A B].
  { assert (L : List.length (v_result r) = List.length (v_result r')) by reflexivity. revert L H. generalize (v_result r), (v_result r').
    induction l0 as [|x a IH]; intros [|y b] L E; try discriminate; [auto|]. cbn in *. injection E as -> E. destruct (IH b) as [-> ->]; auto. }
  split; [apply v_result_inj, A | exact B].
Qed.
Lemma v_result_inj4 r r' : rr_code r = rr_code r' -> rr_matched r = rr_matched r' -> rr_diag r = rr_diag r' ->
  option_map v_octs (rr_referral r) = option_map v_octs (rr_referral r') -> r = r'.
Proof. intros A B C D. apply v_result_inj. unfold v_result. rewrite A, B, C, D. reflexivity. Qed.
Lemma v_op_inj o o' : v_op o = v_op o' -> o = o'.
Proof.
  destruct o, o'; intro H; try discriminate H; unfold v_op in H.
  all: try reflexivity.
  all: injection H; clear H; intros.
  all: repeat match goal with
       | H : v_opt _ = v_opt _ |- _ => apply v_opt_inj in H
       | H : v_auth _ = v_auth _ |- _ => apply v_auth_inj in H
       | H : v_filter _ = v_filter _ |- _ => apply v_filter_inj in H
       | H : map v_attr _ = map v_attr _ |- _ => apply (map_inj _ _ _ v_attr_inj) in H
       | H : map v_change _ = map v_change _ |- _ => apply (map_inj _ _ _ v_change_inj) in H
       | H : map VOct _ = map VOct _ |- _ => apply map_inj in H; [|intros ? ? E; injection E; auto]
       | A : rr_code _ = _, B : rr_matched _ = _, C : rr_diag _ = _, D : option_map v_octs _ = _ |- _ =>
           pose proof (v_result_inj4 _ _ A B C D); clear A B C D
       end; subst; reflexivity.
Qed.
Lemma v_message_inj m m' : v_message m = v_message m' -> m = m'.
Proof.
  destruct m as [i o c], m' as [i' o' c']. unfold v_message. cbn [rm_id rm_op rm_controls]. intro H.
  assert (H1 : i = i') by (injection H; auto). assert (H2 : v_op o = v_op o') by (injection H; auto).
  assert (H3 : option_map (fun l => VList (map v_control l)) c = option_map (fun l => VList (map v_control l)) c') by (injection H; auto).
  apply v_op_inj in H2. subst. f_equal. destruct c, c'; cbn [option_map] in H3; try discriminate; [|reflexivity].
  injection H3 as H3. apply (map_inj _ _ _ v_control_inj) in H3. subst. reflexivity.
Qed.
Lemma message_ber m b : e_message m b <-> strict (rm_op m) /\ ber (v_message m) cLDAPMessage b.
Proof. exact (ber_message m b). Qed.
Lemma message_uniq m m' b b' r r' : e_message m b -> e_message m' b' -> b ++ r = b' ++ r' -> m = m' /\ b = b' /\ r = r'.
Proof.
  intros A B E. apply message_ber in A, B. destruct A as [_ A], B as [_ B]. destruct (ber_uniq _ _ _ _ _ _ _ A B E) as [V Eb].
  apply v_message_inj in V. subst. apply app_inv_head in E. auto.
Qed.
Lemma message_nonempty m b : e_message m b -> b <> [].
Proof. intros [_ (l & c & _ & _ & ->)]. discriminate. Qed.
Lemma message_value m b v : e_message m b -> ber v cLDAPMessage b -> v = v_message m.
Proof.
  intros A B. apply message_ber in A. destruct A as [_ A]. destruct (ber_uniq _ _ _ _ _ [] [] B A eq_refl) as [V _]. exact V.
Qed.
