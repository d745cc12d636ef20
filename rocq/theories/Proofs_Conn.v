(** * Proofs about connections *)
From Verif Require Import PyBase Model_Conn Spec_Conn.

(** ** updating *)
Lemma upd_None {A} (l : list A) i f : nth_error l i = None -> upd l i f = l.
Proof. unfold upd. now intros ->. Qed.

Lemma upd_length {A} (l : list A) i f : List.length (upd l i f) = List.length l.
Proof.
  unfold upd. destruct (nth_error l i) as [x|] eqn:E; [|reflexivity].
  assert (Hi : i < List.length l) by (apply nth_error_Some; congruence).
  rewrite app_length, firstn_length. cbn [List.length]. rewrite skipn_length. lia.
Qed.

Lemma nth_upd {A} (l : list A) i f j :
  nth_error (upd l i f) j = if Nat.eqb j i then option_map f (nth_error l i) else nth_error l j.
Proof.
  unfold upd. destruct (nth_error l i) as [x|] eqn:E.
  - assert (Hi : i < List.length l) by (apply nth_error_Some; congruence).
    destruct (Nat.eqb_spec j i) as [->|Hn].
    + rewrite nth_error_app2; rewrite firstn_length_le by lia; [|lia]. now rewrite Nat.sub_diag.
    + destruct (Nat.lt_ge_cases j i) as [Hlt|Hge].
      * rewrite nth_error_app1 by (rewrite firstn_length_le; lia). 
        clear -Hlt. revert l i Hlt; induction j; intros [|a l] [|i] H; try lia; cbn; auto.
        apply IHj; lia.
      * rewrite nth_error_app2; rewrite firstn_length_le by lia; [|lia].
        destruct (j - i) as [|m] eqn:Em; [lia|]. cbn [nth_error].
        replace j with (S i + m) by lia. generalize (S i) as q. clear.
        intros q; revert l; induction q; intros [|a l]; cbn; auto; now destruct m.
  - destruct (Nat.eqb_spec j i) as [->|Hn]; [now rewrite E|reflexivity].
Qed.

Lemma upd_upd {A} (l : list A) i f g : upd (upd l i f) i g = upd l i (fun x => g (f x)).
Proof.
  assert (H : forall j, nth_error (upd (upd l i f) i g) j = nth_error (upd l i (fun x => g (f x))) j).
  { intros j. rewrite !nth_upd. destruct (Nat.eqb j i) eqn:E; [|reflexivity].
    rewrite Nat.eqb_refl. now destruct (nth_error l i). }
  revert H. generalize (upd (upd l i f) i g) as a, (upd l i (fun x => g (f x))) as b.
  induction a as [|x a IH]; intros [|y b] H; auto.
  - specialize (H 0); discriminate H.
  - specialize (H 0); discriminate H.
  - f_equal; [specialize (H 0); now injection H|]. apply IH. intros j. apply (H (S j)).
Qed.

Lemma Forall_upd {A} (P : A -> Prop) l i f :
  Forall P l -> (forall x, nth_error l i = Some x -> P x -> P (f x)) -> Forall P (upd l i f).
Proof.
  intros Hl Hf. apply Forall_forall. intros x Hx. apply In_nth_error in Hx as [j Hj].
  rewrite nth_upd in Hj. rewrite Forall_forall in Hl.
  destruct (Nat.eqb j i).
  - destruct (nth_error l i) as [y|] eqn:E; [|discriminate]. cbn in Hj. injection Hj as <-.
    apply Hf; auto. apply Hl. eapply nth_error_In; eauto.
  - apply Hl. eapply nth_error_In; eauto.
Qed.

(** ** C22: the invariant of one socket *)
Definition sock_inv (k : sock) : Prop :=
  nothing_after_unbind (k_trace k) /\ at_most_one_bind (k_trace k) /\
  (k_bound k = true <-> In (WBind true) (k_trace k)) /\
  (k_unbound k = true <-> In WUnbind (k_trace k)).

Lemma split_app_last {A} (t : list A) x pre y post :
  t ++ [x] = pre ++ y :: post -> (pre = t /\ x = y /\ post = []) \/ exists post', post = post' ++ [x] /\ t = pre ++ y :: post'.
Proof.
  revert pre; induction t as [|a t IH]; intros pre H.
  - destruct pre as [|b pre].
    + injection H as -> ->. left; auto.
    + injection H as _ H. destruct pre; discriminate H.
  - destruct pre as [|b pre].
    + injection H as -> <-. right. exists t. auto.
    + injection H as -> H. apply IH in H as [(-> & -> & ->)|[post' [-> ->]]]; [left; auto|right; eauto].
Qed.

Lemma inv_app1 k x :
  sock_inv k -> k_unbound k = false ->
  (forall b, x = WBind b -> k_bound k = false) ->
  nothing_after_unbind (k_trace k ++ [x]) /\ at_most_one_bind (k_trace k ++ [x]).
Proof.
  intros (H1 & H2 & H3 & H4) Hu Hb. split.
  - intros pre post E. apply split_app_last in E as [(_ & _ & E)|[post' [-> E]]]; auto.
    exfalso. assert (In WUnbind (k_trace k)) by (rewrite E, in_app_iff; right; now left).
    apply H4 in H. congruence.
  - intros pre post E b Hin. apply split_app_last in E as [(_ & _ & ->)|[post' [-> E]]]; [destruct Hin|].
    apply in_app_iff in Hin as [Hin|[Hin|[]]]; [eapply H2; eauto|].
    assert (In (WBind true) (k_trace k)) by (rewrite E, in_app_iff; right; now left).
    apply H3 in H. rewrite (Hb b Hin) in H. discriminate.
Qed.

Lemma in_app1 {A} (y : A) t x : In y (t ++ [x]) <-> In y t \/ x = y.
Proof. rewrite in_app_iff. cbn. tauto. Qed.

Lemma inv_op k : sock_inv k -> k_unbound k = false -> sock_inv (add_trace [WOp] k).
Proof.
  intros Hk Hu. destruct (inv_app1 k WOp Hk Hu) as [A B]; [discriminate|].
  destruct Hk as (_ & _ & H3 & H4). split; [exact A|]. split; [exact B|]. cbn [add_trace k_bound k_unbound k_trace].
  rewrite !in_app1, <- H3, <- H4. split; split; auto; intros [?|?]; auto; discriminate.
Qed.
Lemma inv_bind_fail k : sock_inv k -> k_unbound k = false -> k_bound k = false -> sock_inv (add_trace [WBind false] k).
Proof.
  intros Hk Hu Hb. destruct (inv_app1 k (WBind false) Hk Hu) as [A B]; [auto|].
  destruct Hk as (_ & _ & H3 & H4). split; [exact A|]. split; [exact B|]. cbn [add_trace k_bound k_unbound k_trace].
  rewrite !in_app1, <- H3, <- H4. split; split; auto; intros [?|?]; auto; discriminate.
Qed.
Lemma inv_bind_ok k : sock_inv k -> k_unbound k = false -> k_bound k = false -> sock_inv (set_bound (add_trace [WBind true] k)).
Proof.
  intros Hk Hu Hb. destruct (inv_app1 k (WBind true) Hk Hu) as [A B]; [auto|].
  destruct Hk as (_ & _ & H3 & H4). split; [exact A|]. split; [exact B|].
  cbn [add_trace set_bound k_bound k_unbound k_trace].
  rewrite !in_app1, <- H4. split; split; auto. intros [?|?]; auto; discriminate.
Qed.
Lemma inv_unbind k : sock_inv k -> k_unbound k = false -> sock_inv (set_unbound (add_trace [WUnbind] k)).
Proof.
  intros Hk Hu. destruct (inv_app1 k WUnbind Hk Hu) as [A B]; [discriminate|].
  destruct Hk as (_ & _ & H3 & H4). split; [exact A|]. split; [exact B|].
  cbn [add_trace set_unbound k_bound k_unbound k_trace].
  rewrite !in_app1, <- H3. split; split; auto. intros [?|?]; auto; discriminate.
Qed.
Lemma inv_ref k z : sock_inv k -> sock_inv (add_ref z k).
Proof. intros H; exact H. Qed.
Lemma add_trace_app a b k : add_trace (a ++ b) k = add_trace b (add_trace a k).
Proof. unfold add_trace. cbn. now rewrite app_assoc. Qed.
Lemma inv_bind_rounds k n : sock_inv k -> k_unbound k = false -> k_bound k = false ->
  sock_inv (add_trace (repeat (WBind false) n) k).
Proof.
  intros Hk Hu Hb. induction n as [|n IH].
  - unfold add_trace. cbn [repeat]. rewrite app_nil_r. destruct k; exact Hk.
  - assert (E : repeat (WBind false) (S n) = repeat (WBind false) n ++ [WBind false]).
    { clear. induction n as [|n IH]; [reflexivity|]. cbn [repeat app]. now rewrite <- IH. }
    rewrite E, add_trace_app. apply inv_bind_fail; auto.
Qed.

Definition winv (w : world) : Prop := Forall sock_inv (w_socks w).

Lemma winv_on_sock w id f :
  winv w -> (forall k, nth_error (w_socks w) id = Some k -> sock_inv k -> sock_inv (f k)) -> winv (on_sock w id f).
Proof. intros H Hf. unfold winv, on_sock. cbn [w_socks]. now apply Forall_upd. Qed.

Lemma on_on w id f g : on_sock (on_sock w id f) id g = on_sock w id (fun k => g (f k)).
Proof. unfold on_sock. cbn [w_socks w_reg w_conns]. now rewrite upd_upd. Qed.

Lemma nth_on w id f j :
  nth_error (w_socks (on_sock w id f)) j =
  if Nat.eqb j id then option_map f (nth_error (w_socks w) id) else nth_error (w_socks w) j.
Proof. unfold on_sock. cbn [w_socks]. apply nth_upd. Qed.

Lemma send_spec w id ws k : nth_error (w_socks w) id = Some k ->
  send w id ws = if k_unbound k then (Raise os_error, w) else (Ok tt, on_sock w id (add_trace ws)).
Proof. unfold send. now intros ->. Qed.

Lemma winv_send_op w id : winv w -> winv (snd (send w id [WOp])).
Proof.
  intros H. unfold send. destruct (nth_error (w_socks w) id) as [k|] eqn:E; [|exact H].
  destruct (k_unbound k) eqn:Eu; [exact H|]. cbn [snd]. apply winv_on_sock; auto.
  intros k' E' Hk. rewrite E in E'. injection E' as <-. now apply inv_op.
Qed.

Lemma winv_get w id ok : winv w -> winv (snd (get_entry w id ok)).
Proof.
  intros H. unfold get_entry. destruct (nth_error (w_socks w) id) as [k|] eqn:E; [|exact H].
  destruct (k_unbound k) eqn:Eu; [exact H|].
  pose proof (winv_send_op w id H) as Hs. destruct (send w id [WOp]) as [[|]]; exact Hs.
Qed.

Lemma winv_finish w id dse : winv w -> winv (snd (finish_init w id dse)).
Proof.
  intros H. unfold finish_init.
  assert (H1 : winv (on_sock w id (add_ref 1))) by (apply winv_on_sock; auto).
  pose proof (winv_get _ id dse H1) as H2.
  destruct (get_entry (on_sock w id (add_ref 1)) id dse) as [[|] w2]; exact H2.
Qed.

Lemma winv_new norm w u reg conns : winv w -> winv (mk_world (w_socks w ++ [new_sock norm u]) reg conns).
Proof.
  intros H. unfold winv. cbn [w_socks]. apply Forall_app. split; [exact H|]. constructor; [|constructor].
  split; [|split]; cbn.
  - intros pre post E. destruct pre; discriminate E.
  - intros pre post E. destruct pre; discriminate E.
  - split; split; (discriminate || contradiction).
Qed.

Lemma winv_step norm w e : winv w -> winv (snd (step norm w e)).
Proof.
  intros H.
  destruct e as [u reuse tcp dse|id dse|c s|c m n s sm f|c f s|c s|c|c s]; cbn [step].
  - unfold connect. destruct reuse.
    + destruct (dget (w_reg w) u); [now apply winv_finish|]. destruct tcp; [|exact H].
      apply winv_finish. now apply winv_new.
    + destruct tcp; [|exact H]. apply winv_finish. now apply winv_new.
  - destruct (nth_error (w_socks w) id); [|exact H]. now apply winv_finish.
  - unfold with_conn. destruct (nth_error (w_conns w) c) as [id|]; [|exact H].
    unfold simple_bind. destruct (nth_error (w_socks w) id) as [k|] eqn:E; [|exact H].
    destruct (k_unbound k) eqn:Eu; [exact H|]. destruct (k_bound k) eqn:Eb; [exact H|].
    rewrite (send_spec w id _ k E), Eu.
    destruct s; cbn [snd].
    + rewrite on_on. apply winv_on_sock; auto. intros k' E' Hk. rewrite E in E'. injection E' as <-.
      now apply inv_bind_ok.
    + apply winv_on_sock; auto. intros k' E' Hk. rewrite E in E'. injection E' as <-.
      now apply inv_bind_fail.
  - unfold with_conn. destruct (nth_error (w_conns w) c) as [id|]; [|exact H].
    unfold sasl_bind. destruct (nth_error (w_socks w) id) as [k|] eqn:E; [|exact H].
    destruct (k_unbound k) eqn:Eu; [exact H|]. destruct (k_bound k) eqn:Eb; [exact H|].
    destruct m; cbn [negb]; [|exact H].
    rewrite (send_spec w id _ k E), Eu.
    destruct s; cbn [snd].
    + assert (H2 : winv (on_sock (on_sock w id (add_trace (repeat (WBind false) n ++ [WBind true]))) id set_bound)).
      { rewrite on_on. apply winv_on_sock; auto. intros k' E' Hk. rewrite E in E'. injection E' as <-.
        rewrite add_trace_app. apply inv_bind_ok; auto. now apply inv_bind_rounds. }
      pose proof (winv_get _ id true H2) as H3.
      destruct (get_entry _ id true) as [[|] w3]; exact H3.
    + apply winv_on_sock; auto. intros k' E' Hk. rewrite E in E'. injection E' as <-.
      rewrite add_trace_app. apply inv_bind_fail; auto. now apply inv_bind_rounds.
  - unfold with_conn. destruct (nth_error (w_conns w) c) as [id|]; [|exact H].
    unfold unbind. destruct (nth_error (w_socks w) id) as [k|] eqn:E; [|exact H].
    destruct (k_unbound k) eqn:Eu; [exact H|].
    assert (H1 : winv (on_sock w id (add_ref (-1)))) by (apply winv_on_sock; auto).
    destruct (f || Z.eqb (k_ref k - 1) 0); [|exact H1].
    destruct s; [|exact H1].
    rewrite (send_spec _ id _ (add_ref (-1) k)) by (rewrite nth_on, Nat.eqb_refl, E; reflexivity).
    cbn [add_ref k_unbound]. rewrite Eu.
    cbn [snd w_socks]. rewrite on_on, on_on. unfold winv. cbn [w_socks].
    apply (winv_on_sock w id); auto. intros k' E' Hk. rewrite E in E'. injection E' as <-.
    apply inv_unbind; auto.
  - unfold with_conn. destruct (nth_error (w_conns w) c) as [id|]; [|exact H].
    unfold guarded_op. destruct (nth_error (w_socks w) id) as [k|] eqn:E; [|exact H].
    destruct (k_unbound k) eqn:Eu; [exact H|].
    pose proof (winv_send_op w id H) as Hs. destruct (send w id [WOp]) as [[|]]; exact Hs.
  - unfold with_conn, empty_modify. destruct (nth_error (w_conns w) c); exact H.
  - unfold with_conn. destruct (nth_error (w_conns w) c) as [id|]; [|exact H].
    unfold unguarded_op. pose proof (winv_send_op w id H) as Hs. destruct (send w id [WOp]) as [[|]]; exact Hs.
Qed.

Lemma winv_run norm es w : winv w -> winv (run norm es w).
Proof. revert w; induction es as [|e es IH]; intros w H; [exact H|]. apply IH. now apply winv_step. Qed.

(** ** C23 *)
Lemma users_app conns live id l i : List.length live = List.length conns ->
  users (conns ++ [i]) (live ++ [l]) id = users conns live id + (if Nat.eqb i id && l then 1 else 0).
Proof.
  revert live; induction conns as [|a conns IH]; intros [|b live] H; try discriminate H; cbn [app users]; [lia|].
  rewrite IH by (now injection H). lia.
Qed.

Lemma upd_cons_S {A} (a : A) l i f : upd (a :: l) (S i) f = a :: upd l i f.
Proof. unfold upd. cbn [nth_error]. destruct (nth_error l i); reflexivity. Qed.

Lemma users_upd conns live c id0 id : List.length live = List.length conns ->
  nth_error conns c = Some id0 -> nth_error live c = Some true ->
  users conns (upd live c (fun _ => false)) id + (if Nat.eqb id0 id then 1 else 0) = users conns live id.
Proof.
  revert live c; induction conns as [|a conns IH]; intros [|b live] [|c] H Hc Hl; try discriminate.
  - cbn in Hc, Hl. injection Hc as ->. injection Hl as ->. cbn. destruct (Nat.eqb id0 id); cbn; lia.
  - rewrite upd_cons_S. cbn [users]. cbn [nth_error] in Hc, Hl. injection H as H.
    rewrite <- (IH live c H Hc Hl). lia.
Qed.

Lemma users_range conns live id n : Forall (fun i => i < n) conns -> n <= id -> users conns live id = 0.
Proof.
  intros H; revert live; induction H as [|a conns Ha _ IH]; intros [|b live] Hn; try reflexivity.
  cbn [users]. rewrite IH by assumption. destruct (Nat.eqb_spec a id); cbn; lia.
Qed.

Definition J (norm : str -> str) (w : world) (live : list bool) (forced : list nat) : Prop :=
  List.length live = List.length (w_conns w) /\
  Forall (fun i => i < List.length (w_socks w)) (w_conns w) /\
  NoDup (map fst (w_reg w)) /\
  (forall u id, dget (w_reg w) u = Some id ->
     exists k, nth_error (w_socks w) id = Some k /\ k_unbound k = false /\ k_uri k = u) /\
  (forall id k, nth_error (w_socks w) id = Some k -> k_unbound k = false ->
     k_ref k = Z.of_nat (users (w_conns w) live id) /\ users (w_conns w) live id > 0) /\
  (forall id k, nth_error (w_socks w) id = Some k -> k_unbound k = true ->
     users (w_conns w) live id = 0 \/ In id forced) /\
  (forall id, In id forced -> exists k, nth_error (w_socks w) id = Some k /\ k_unbound k = true).

(** Steps that keep flags, counts and URIs of all sockets keep J. *)
Definition same_core (a b : sock) : Prop := k_uri a = k_uri b /\ k_ref a = k_ref b /\ k_unbound a = k_unbound b.

Definition same_world (w w' : world) : Prop :=
  w_reg w' = w_reg w /\ w_conns w' = w_conns w /\ List.length (w_socks w') = List.length (w_socks w) /\
  forall id, match nth_error (w_socks w) id, nth_error (w_socks w') id with
             | Some a, Some b => same_core a b | None, None => True | _, _ => False end.

Lemma same_refl w : same_world w w.
Proof. repeat split. intros id. destruct (nth_error (w_socks w) id); repeat split. Qed.

Lemma same_trans a b c : same_world a b -> same_world b c -> same_world a c.
Proof.
  intros (A1 & A2 & A3 & A4) (B1 & B2 & B3 & B4). repeat split; try congruence.
  intros id. specialize (A4 id). specialize (B4 id).
  destruct (nth_error (w_socks a) id), (nth_error (w_socks b) id), (nth_error (w_socks c) id); try tauto.
  destruct A4 as (? & ? & ?), B4 as (? & ? & ?). repeat split; congruence.
Qed.

Lemma same_on w id f : (forall k, same_core k (f k)) -> same_world w (on_sock w id f).
Proof.
  intros Hf. repeat split; [unfold on_sock; cbn [w_socks]; apply upd_length|].
  intros j. rewrite nth_on. destruct (Nat.eqb_spec j id) as [->|Hn].
  - destruct (nth_error (w_socks w) id); cbn [option_map]; auto.
  - destruct (nth_error (w_socks w) j); repeat split.
Qed.

Lemma same_J norm w w' live forced : same_world w w' -> J norm w live forced -> J norm w' live forced.
Proof.
  intros (E1 & E2 & E3 & E4) (J1 & J2 & J3 & J4 & J5 & J6 & J7).
  assert (F : forall id k', nth_error (w_socks w') id = Some k' -> exists k, nth_error (w_socks w) id = Some k /\ same_core k k').
  { intros id k' E. specialize (E4 id). rewrite E in E4. destruct (nth_error (w_socks w) id); [eauto|contradiction]. }
  assert (G : forall id k, nth_error (w_socks w) id = Some k -> exists k', nth_error (w_socks w') id = Some k' /\ same_core k k').
  { intros id k E. specialize (E4 id). rewrite E in E4. destruct (nth_error (w_socks w') id); [eauto|contradiction]. }
  unfold J. rewrite E1, E2, E3. repeat split; auto.
  - intros u id Hd. destruct (J4 u id Hd) as [k (A & B & C)]. destruct (G id k A) as [k' (A' & ? & ? & ?)].
    exists k'. repeat split; congruence.
  - destruct (F id k H) as [k0 (A & ? & ? & ?)]. destruct (J5 id k0 A); congruence.
  - destruct (F id k H) as [k0 (A & ? & ? & ?)]. destruct (J5 id k0 A); [congruence|assumption].
  - intros id k H Hu. destruct (F id k H) as [k0 (A & ? & ? & ?)]. apply (J6 id k0 A). congruence.
  - intros id H. destruct (J7 id H) as [k [A B]]. destruct (G id k A) as [k' (A' & ? & ? & ?)].
    exists k'. split; congruence.
Qed.

Lemma same_send w id ws : same_world w (snd (send w id ws)).
Proof.
  unfold send. destruct (nth_error (w_socks w) id) as [k|]; [|apply same_refl].
  destruct (k_unbound k); [apply same_refl|]. cbn [snd]. apply same_on. repeat split.
Qed.
Lemma same_get w id ok : same_world w (snd (get_entry w id ok)).
Proof.
  unfold get_entry. destruct (nth_error (w_socks w) id) as [k|]; [|apply same_refl].
  destruct (k_unbound k); [apply same_refl|].
  pose proof (same_send w id [WOp]) as H. destruct (send w id [WOp]) as [[|] w1]; exact H.
Qed.
Lemma get_ok w id k : nth_error (w_socks w) id = Some k -> k_unbound k = false ->
  fst (get_entry w id true) = Ok tt.
Proof.
  intros E Eu. unfold get_entry. rewrite E, Eu. rewrite (send_spec w id _ k E), Eu. reflexivity.
Qed.

(** A constructor on an open socket, in a state where [J] holds except that a fresh socket
    may still have no user. *)
Lemma finish_J norm w live forced id k :
  nth_error (w_socks w) id = Some k -> k_unbound k = false ->
  k_ref k = Z.of_nat (users (w_conns w) live id) ->
  List.length live = List.length (w_conns w) ->
  Forall (fun i => i < List.length (w_socks w)) (w_conns w) ->
  NoDup (map fst (w_reg w)) ->
  (forall u i, dget (w_reg w) u = Some i ->
     exists k, nth_error (w_socks w) i = Some k /\ k_unbound k = false /\ k_uri k = u) ->
  (forall i k, i <> id -> nth_error (w_socks w) i = Some k -> k_unbound k = false ->
     k_ref k = Z.of_nat (users (w_conns w) live i) /\ users (w_conns w) live i > 0) ->
  (forall i k, nth_error (w_socks w) i = Some k -> k_unbound k = true ->
     users (w_conns w) live i = 0 \/ In i forced) ->
  (forall i, In i forced -> exists k, nth_error (w_socks w) i = Some k /\ k_unbound k = true) ->
  fst (finish_init w id true) = Ok tt /\ J norm (snd (finish_init w id true)) (live ++ [true]) forced.
Proof.
  intros Ek Eu Er Hl Hc Hn Hr Ho Hu Hf.
  unfold finish_init. set (w1 := on_sock w id (add_ref 1)).
  assert (E1 : nth_error (w_socks w1) id = Some (add_ref 1 k)).
  { unfold w1. now rewrite nth_on, Nat.eqb_refl, Ek. }
  pose proof (same_get w1 id true) as Hs. pose proof (get_ok w1 id _ E1 Eu) as Hok.
  destruct (get_entry w1 id true) as [r w2]. cbn [fst snd] in Hok, Hs. subst r. split; [reflexivity|]. cbn [snd].
  assert (Hid : id < List.length (w_socks w)) by (apply nth_error_Some; congruence).
  assert (W1 : J norm (mk_world (w_socks w1) (w_reg w1) (w_conns w1 ++ [id])) (live ++ [true]) forced).
  { unfold J, w1, on_sock. cbn [w_socks w_reg w_conns]. rewrite !app_length, Hl, upd_length.
    assert (Unth : forall i k', nth_error (upd (w_socks w) id (add_ref 1)) i = Some k' ->
              (i = id /\ k' = add_ref 1 k) \/ (i <> id /\ nth_error (w_socks w) i = Some k')).
    { intros i k' E. rewrite nth_upd in E. destruct (Nat.eqb_spec i id) as [->|Hne]; auto.
      rewrite Ek in E. cbn in E. injection E as <-. auto. }
    assert (Unth2 : forall i k', nth_error (w_socks w) i = Some k' ->
              exists k'', nth_error (upd (w_socks w) id (add_ref 1)) i = Some k'' /\
                k_unbound k'' = k_unbound k' /\ k_uri k'' = k_uri k').
    { intros i k' E. rewrite nth_upd. destruct (Nat.eqb_spec i id) as [->|Hne]; eauto.
      rewrite E. cbn. eexists; split; [reflexivity|]. auto. }
    repeat split; auto.
    - apply Forall_app; split; auto.
    - intros u i E. destruct (Hr u i E) as [k0 (A & B & C)]. destruct (Unth2 i k0 A) as [k1 (A1 & B1 & C1)].
      exists k1. repeat split; congruence.
    - rewrite users_app by assumption. destruct (Unth _ _ H) as [[-> ->]|[Hne E]].
      + rewrite Nat.eqb_refl. cbn [add_ref k_ref]. cbn. lia.
      + destruct (Nat.eqb_spec id id0); [congruence|]. cbn. rewrite Nat.add_0_r. now apply (Ho id0 k0 Hne E).
    - rewrite users_app by assumption. destruct (Unth _ _ H) as [[-> ->]|[Hne E]].
      + rewrite Nat.eqb_refl. cbn. lia.
      + destruct (Ho id0 k0 Hne E H0). lia.
    - intros i k0 H H0. rewrite users_app by assumption. destruct (Unth _ _ H) as [[-> ->]|[Hne E]].
      + cbn in H0. congruence.
      + destruct (Hu i k0 E H0) as [Hz|Hz]; [|now right]. left.
        destruct (Nat.eqb_spec id i); [congruence|]. cbn. lia.
    - intros i Hi. destruct (Hf i Hi) as [k0 [A B]]. destruct (Unth2 i k0 A) as [k1 (A1 & B1 & C1)].
      exists k1. split; congruence. }
  eapply same_J; [|exact W1].
  destruct Hs as (S1 & S2 & S3 & S4). repeat split; cbn [w_reg w_conns w_socks]; auto. congruence.
Qed.

Lemma J_attach norm w live forced id k :
  J norm w live forced -> nth_error (w_socks w) id = Some k -> k_unbound k = false ->
  fst (finish_init w id true) = Ok tt /\ J norm (snd (finish_init w id true)) (live ++ [true]) forced.
Proof.
  intros (J1 & J2 & J3 & J4 & J5 & J6 & J7) Ek Eu. eapply finish_J; eauto.
  apply (J5 id k Ek Eu).
Qed.

Lemma J_fresh norm w live forced u reg :
  J norm w live forced ->
  (reg = w_reg w \/ (norm u = u /\ dget (w_reg w) u = None /\ reg = dset (w_reg w) u (List.length (w_socks w)))) ->
  let id := List.length (w_socks w) in
  let w0 := mk_world (w_socks w ++ [new_sock norm u]) reg (w_conns w) in
  fst (finish_init w0 id true) = Ok tt /\ J norm (snd (finish_init w0 id true)) (live ++ [true]) forced.
Proof.
  intros (J1 & J2 & J3 & J4 & J5 & J6 & J7) Hreg id w0.
  assert (Ek : nth_error (w_socks w0) id = Some (new_sock norm u)).
  { unfold w0, id. cbn [w_socks]. rewrite nth_error_app2 by lia. now rewrite Nat.sub_diag. }
  assert (Old : forall i k, nth_error (w_socks w) i = Some k -> nth_error (w_socks w0) i = Some k).
  { intros i k E. unfold w0. cbn [w_socks]. rewrite nth_error_app1; auto. apply nth_error_Some. congruence. }
  assert (New : forall i k, i <> id -> nth_error (w_socks w0) i = Some k -> nth_error (w_socks w) i = Some k).
  { intros i k Hne E. unfold w0 in E. cbn [w_socks] in E.
    destruct (Nat.lt_ge_cases i (List.length (w_socks w))) as [Hlt|Hge].
    - now rewrite nth_error_app1 in E.
    - exfalso. assert (i < List.length (w_socks w ++ [new_sock norm u])) by (apply nth_error_Some; congruence).
      rewrite app_length in H. cbn in H. unfold id in Hne. lia. }
  assert (Z0 : users (w_conns w) live id = 0) by (eapply users_range; [exact J2|unfold id; lia]).
  eapply (finish_J norm w0 live forced id _ Ek); auto.
  - cbn [w0 w_conns]. now rewrite Z0.
  - cbn [w0 w_conns w_socks]. eapply Forall_impl; [|exact J2]. intros a Ha. cbn in Ha. rewrite app_length. lia.
  - cbn [w0 w_reg]. destruct Hreg as [->|(_ & _ & ->)]; auto. now apply dset_NoDup.
  - cbn [w0 w_reg]. intros v i E. destruct Hreg as [->|(Hnu & Hd & ->)].
    + destruct (J4 v i E) as [k (A & B & C)]. exists k. auto.
    + rewrite dget_dset in E. destruct (str_eqb_spec u v) as [<-|Hne].
      * injection E as <-. exists (new_sock norm u). auto.
      * destruct (J4 v i E) as [k (A & B & C)]. exists k. auto.
  - cbn [w0 w_conns]. intros i k E Eu. destruct (Nat.eq_dec i id) as [->|Hne]; [left; exact Z0|]. eauto.
  - intros i Hi. destruct (J7 i Hi) as [k [A B]]. eauto.
Qed.

Lemma J_step norm w live forced e : J norm w live forced -> safe norm w live e ->
  J norm (snd (step norm w e)) (live_after live e (fst (step norm w e))) (forced_after w forced e).
Proof.
  intros HJ Hs.
  destruct e as [u reuse tcp dse|id dse|c s|c m n s sm f|c f s|c s|c|c s]; cbn [step safe live_after forced_after] in *.
  - destruct Hs as [Hn ->]. unfold connect. destruct reuse.
    + destruct (dget (w_reg w) u) as [id|] eqn:Ed.
      * pose proof HJ as HJ'. destruct HJ' as (_ & _ & _ & J4 & _). destruct (J4 u id Ed) as [k (A & B & _)].
        destruct (J_attach norm w live forced id k HJ A B) as [Ho HJ2]. rewrite Ho. exact HJ2.
      * destruct tcp; [|exact HJ].
        destruct (J_fresh norm w live forced u (dset (w_reg w) u (List.length (w_socks w))) HJ) as [Ho HJ2]; [right; auto|].
        rewrite Ho. exact HJ2.
    + destruct tcp; [|exact HJ].
      destruct (J_fresh norm w live forced u (w_reg w) HJ) as [Ho HJ2]; [now left|]. rewrite Ho. exact HJ2.
  - destruct Hs as [-> [k [E Eu]]]. rewrite E.
    destruct (J_attach norm w live forced id k HJ E Eu) as [Ho HJ2]. rewrite Ho. exact HJ2.
  - eapply same_J; [|exact HJ]. unfold with_conn. destruct (nth_error (w_conns w) c) as [id|]; [|apply same_refl].
    unfold simple_bind. destruct (nth_error (w_socks w) id) as [k|] eqn:E; [|apply same_refl].
    destruct (k_unbound k) eqn:Eu; [apply same_refl|]. destruct (k_bound k); [apply same_refl|].
    rewrite (send_spec w id _ k E), Eu. destruct s; cbn [snd]; [rewrite on_on|]; apply same_on; repeat split.
  - eapply same_J; [|exact HJ]. unfold with_conn. destruct (nth_error (w_conns w) c) as [id|]; [|apply same_refl].
    unfold sasl_bind. destruct (nth_error (w_socks w) id) as [k|] eqn:E; [|apply same_refl].
    destruct (k_unbound k) eqn:Eu; [apply same_refl|]. destruct (k_bound k); [apply same_refl|].
    destruct m; [|apply same_refl]. cbn [negb].
    rewrite (send_spec w id _ k E), Eu. destruct s; [|apply same_on; repeat split].
    assert (S1 : same_world w (on_sock (on_sock w id (add_trace (repeat (WBind false) n ++ [WBind true]))) id set_bound)).
    { rewrite on_on. apply same_on. repeat split. }
    pose proof (same_get (on_sock (on_sock w id (add_trace (repeat (WBind false) n ++ [WBind true]))) id set_bound) id true) as S2.
    destruct (get_entry _ id true) as [[|] w3]; cbn [snd] in *; eapply same_trans; eassumption.
  - destruct Hs as [Hl ->]. pose proof HJ as (J1 & J2 & J3 & J4 & J5 & J6 & J7).
    assert (Hc : exists id, nth_error (w_conns w) c = Some id).
    { assert (c < List.length (w_conns w)). { rewrite <- J1. apply nth_error_Some. congruence. }
      destruct (nth_error (w_conns w) c) eqn:E; eauto. exfalso. apply nth_error_None in E. lia. }
    destruct Hc as [id Ec]. unfold with_conn. rewrite Ec.
    pose proof (users_upd (w_conns w) live c id) as HU.
    assert (Hk : exists k, nth_error (w_socks w) id = Some k).
    { rewrite Forall_forall in J2. pose proof (J2 id (nth_error_In _ _ Ec)) as Hlt. cbn in Hlt.
      destruct (nth_error (w_socks w) id) eqn:E; eauto. exfalso. apply nth_error_None in E. lia. }
    destruct Hk as [k Ek]. unfold unbind. rewrite Ek.
    assert (Hlen : List.length (upd live c (fun _ => false)) = List.length (w_conns w)) by (now rewrite upd_length).
    destruct (k_unbound k) eqn:Eu.
    { cbn [snd fst]. unfold J. repeat split; auto.
      - intros. destruct (J5 id0 k0 H H0) as [A B]. pose proof (HU id0 J1 Ec Hl) as Hx.
        destruct (Nat.eqb_spec id id0) as [<-|]; [congruence|]. lia.
      - destruct (J5 id0 k0 H H0) as [A B]. pose proof (HU id0 J1 Ec Hl) as Hx.
        destruct (Nat.eqb_spec id id0) as [<-|]; [congruence|]. lia.
      - intros i k0 H H0. destruct (J6 i k0 H H0) as [A|A].
        + left. pose proof (HU i J1 Ec Hl). lia.
        + right. destruct f; [now right|assumption].
      - intros i Hi. destruct f; [|auto]. destruct Hi as [<-|Hi]; eauto. }
    destruct (J5 id k Ek Eu) as [Er Eg].
    set (w1 := on_sock w id (add_ref (-1))).
    destruct (f || Z.eqb (k_ref k - 1) 0) eqn:Ef.
    + rewrite (send_spec w1 id _ (add_ref (-1) k)) by (unfold w1; rewrite nth_on, Nat.eqb_refl, Ek; reflexivity).
      cbn [add_ref k_unbound]. rewrite Eu. unfold w1. rewrite on_on, on_on.
      set (g := fun k => set_unbound (add_trace [WUnbind] (add_ref (-1) k))).
      cbn [snd fst]. unfold J, on_sock. cbn [w_socks w_reg w_conns].
      assert (Unth : forall i k', nth_error (upd (w_socks w) id g) i = Some k' ->
                (i = id /\ k' = g k) \/ (i <> id /\ nth_error (w_socks w) i = Some k')).
      { intros i k' E. rewrite nth_upd in E. destruct (Nat.eqb_spec i id) as [->|Hne]; auto.
        rewrite Ek in E. cbn in E. injection E as <-. auto. }
      assert (Unth2 : forall i k', i <> id -> nth_error (w_socks w) i = Some k' ->
                nth_error (upd (w_socks w) id g) i = Some k').
      { intros i k' Hne E. rewrite nth_upd. destruct (Nat.eqb_spec i id); congruence. }
      assert (Unth3 : nth_error (upd (w_socks w) id g) id = Some (g k)).
      { now rewrite nth_upd, Nat.eqb_refl, Ek. }
      rewrite !upd_length. repeat split; auto.
      * now apply ddel_NoDup.
      * intros u i E. rewrite (dget_ddel _ _ _ J3) in E. destruct (str_eqb_spec (k_uri k) u); [discriminate|].
        destruct (J4 u i E) as [k0 (A & B & C)]. exists k0. repeat split; auto. apply Unth2; auto.
        intros ->. rewrite Ek in A. injection A as <-. contradiction.
      * destruct (Unth _ _ H) as [[-> ->]|[Hne E]]; [discriminate H0|].
        pose proof (HU id0 J1 Ec Hl) as Hx. destruct (Nat.eqb_spec id id0); [congruence|].
        destruct (J5 id0 k0 E H0). lia.
      * destruct (Unth _ _ H) as [[-> ->]|[Hne E]]; [discriminate H0|].
        pose proof (HU id0 J1 Ec Hl) as Hx. destruct (Nat.eqb_spec id id0); [congruence|].
        destruct (J5 id0 k0 E H0). lia.
      * intros i k0 H H0. destruct (Unth _ _ H) as [[-> ->]|[Hne E]].
        -- destruct f; [right; now left|]. left. cbn [orb] in Ef. apply Z.eqb_eq in Ef.
           pose proof (HU id J1 Ec Hl) as Hx. rewrite Nat.eqb_refl in Hx. lia.
        -- destruct (J6 i k0 E H0) as [A|A]; [left|right; destruct f; [now right|assumption]].
           pose proof (HU i J1 Ec Hl). lia.
      * intros i Hi. destruct (Nat.eq_dec i id) as [->|Hne]; [eauto|].
        assert (Hi' : In i forced). { destruct f; [destruct Hi as [->|Hi]; [congruence|]|]; assumption. }
        destruct (J7 i Hi') as [k0 [A B]]. eauto.
    + apply orb_false_iff in Ef as [-> Ef]. apply Z.eqb_neq in Ef.
      cbn [snd fst]. unfold w1, J, on_sock. cbn [w_socks w_reg w_conns].
      assert (Unth : forall i k', nth_error (upd (w_socks w) id (add_ref (-1))) i = Some k' ->
                (i = id /\ k' = add_ref (-1) k) \/ (i <> id /\ nth_error (w_socks w) i = Some k')).
      { intros i k' E. rewrite nth_upd in E. destruct (Nat.eqb_spec i id) as [->|Hne]; auto.
        rewrite Ek in E. cbn in E. injection E as <-. auto. }
      assert (Unth2 : forall i k', nth_error (w_socks w) i = Some k' ->
                exists k'', nth_error (upd (w_socks w) id (add_ref (-1))) i = Some k'' /\
                  k_unbound k'' = k_unbound k' /\ k_uri k'' = k_uri k').
      { intros i k' E. rewrite nth_upd. destruct (Nat.eqb_spec i id) as [->|Hne]; eauto.
        rewrite E. cbn. eexists; split; [reflexivity|]. auto. }
      rewrite !upd_length. repeat split; auto.
      * intros u i E. destruct (J4 u i E) as [k0 (A & B & C)]. destruct (Unth2 i k0 A) as [k1 (A1 & B1 & C1)].
        exists k1. repeat split; congruence.
      * pose proof (HU id0 J1 Ec Hl) as Hx. destruct (Unth _ _ H) as [[-> ->]|[Hne E]].
        -- rewrite Nat.eqb_refl in Hx. cbn [add_ref k_ref]. lia.
        -- destruct (Nat.eqb_spec id id0); [congruence|]. destruct (J5 id0 k0 E H0). lia.
      * pose proof (HU id0 J1 Ec Hl) as Hx. destruct (Unth _ _ H) as [[-> ->]|[Hne E]].
        -- rewrite Nat.eqb_refl in Hx. lia.
        -- destruct (Nat.eqb_spec id id0); [congruence|]. destruct (J5 id0 k0 E H0). lia.
      * intros i k0 H H0. pose proof (HU i J1 Ec Hl) as Hx. destruct (Unth _ _ H) as [[-> ->]|[Hne E]].
        -- cbn in H0. congruence.
        -- destruct (J6 i k0 E H0) as [A|A]; [left; lia|now right].
      * intros i Hi. destruct (J7 i Hi) as [k0 [A B]]. destruct (Unth2 i k0 A) as [k1 (A1 & B1 & C1)].
        exists k1. split; congruence.
  - eapply same_J; [|exact HJ]. unfold with_conn. destruct (nth_error (w_conns w) c) as [id|]; [|apply same_refl].
    unfold guarded_op. destruct (nth_error (w_socks w) id) as [k|]; [|apply same_refl].
    destruct (k_unbound k); [apply same_refl|].
    pose proof (same_send w id [WOp]) as H. destruct (send w id [WOp]) as [[|] w1]; exact H.
  - unfold with_conn, empty_modify. destruct (nth_error (w_conns w) c); exact HJ.
  - eapply same_J; [|exact HJ]. unfold with_conn. destruct (nth_error (w_conns w) c) as [id|]; [|apply same_refl].
    unfold unguarded_op. pose proof (same_send w id [WOp]) as H. destruct (send w id [WOp]) as [[|] w1]; exact H.
Qed.

Lemma history_J norm w live forced : history norm w live forced -> J norm w live forced.
Proof.
  induction 1 as [|w live forced e _ IH Hs]; [|now apply J_step].
  unfold J, start. cbn. repeat split; auto; try constructor; try discriminate;
    try (intros id k H; destruct id; discriminate H); try contradiction;
    try (destruct id; discriminate).
Qed.

Lemma shared_is_history norm w live forced : shared_history norm w live forced -> history norm w live forced.
Proof. induction 1; [constructor|now constructor]. Qed.

(** Every open socket is the registered one for its URI. *)
Definition S_inv (w : world) : Prop :=
  forall id k, nth_error (w_socks w) id = Some k -> k_unbound k = false -> dget (w_reg w) (k_uri k) = Some id.

Lemma same_S w w' : same_world w w' -> S_inv w -> S_inv w'.
Proof.
  intros (E1 & E2 & E3 & E4) H id k E Eu. specialize (E4 id). rewrite E in E4.
  destruct (nth_error (w_socks w) id) as [k0|] eqn:E0; [|contradiction]. destruct E4 as (A & B & C).
  rewrite E1, <- A. apply H; congruence.
Qed.

Lemma on_sock_S w id f : (forall k, k_uri (f k) = k_uri k /\ k_unbound (f k) = k_unbound k) -> S_inv w -> S_inv (on_sock w id f).
Proof.
  intros Hf H i k E Eu. rewrite nth_on in E. cbn [on_sock w_reg].
  destruct (Nat.eqb_spec i id) as [->|Hn]; [|now apply H].
  destruct (nth_error (w_socks w) id) as [k0|] eqn:E0; [|discriminate]. cbn in E. injection E as <-.
  destruct (Hf k0) as [A B]. rewrite A. apply H; congruence.
Qed.

Lemma finish_S w id dse : S_inv w -> S_inv (snd (finish_init w id dse)).
Proof.
  intros H. unfold finish_init.
  assert (H1 : S_inv (on_sock w id (add_ref 1))) by (apply on_sock_S; auto).
  pose proof (same_S _ _ (same_get (on_sock w id (add_ref 1)) id dse) H1) as H2.
  destruct (get_entry _ id dse) as [[|] w2]; exact H2.
Qed.

Lemma S_step norm w live forced e : J norm w live forced -> S_inv w -> safe norm w live e ->
  (forall u reuse tcp dse, e = Connect u reuse tcp dse -> reuse = true) -> S_inv (snd (step norm w e)).
Proof.
  intros HJ H Hs Hr.
  destruct e as [u reuse tcp dse|id dse|c s|c m n s sm f|c f s|c s|c|c s]; cbn [step safe] in *.
  - rewrite (Hr u reuse tcp dse eq_refl) in *. destruct Hs as [Hn ->]. specialize (Hn eq_refl). unfold connect.
    destruct (dget (w_reg w) u) as [id|] eqn:Ed; [now apply finish_S|].
    destruct tcp; [|exact H]. apply finish_S. intros i k E Eu. cbn [w_socks w_reg] in *.
    destruct (Nat.lt_ge_cases i (List.length (w_socks w))) as [Hlt|Hge].
    + rewrite nth_error_app1 in E by assumption. pose proof (H i k E Eu) as Hd. rewrite dget_dset.
      destruct (str_eqb_spec u (k_uri k)); [congruence|assumption].
    + rewrite nth_error_app2 in E by assumption. destruct (i - List.length (w_socks w)) as [|m] eqn:Em; [|destruct m; discriminate E].
      cbn in E. injection E as <-. cbn [new_sock k_uri]. rewrite Hn, dget_dset_eq. f_equal. lia.
  - destruct (nth_error (w_socks w) id); [|exact H]. now apply finish_S.
  - unfold with_conn. destruct (nth_error (w_conns w) c) as [id|]; [|exact H].
    unfold simple_bind. destruct (nth_error (w_socks w) id) as [k|] eqn:E; [|exact H].
    destruct (k_unbound k) eqn:Eu; [exact H|]. destruct (k_bound k); [exact H|].
    rewrite (send_spec w id _ k E), Eu. destruct s; cbn [snd]; [rewrite on_on|]; apply on_sock_S; auto.
  - unfold with_conn. destruct (nth_error (w_conns w) c) as [id|]; [|exact H].
    unfold sasl_bind. destruct (nth_error (w_socks w) id) as [k|] eqn:E; [|exact H].
    destruct (k_unbound k) eqn:Eu; [exact H|]. destruct (k_bound k); [exact H|].
    destruct m; [|exact H]. cbn [negb].
    rewrite (send_spec w id _ k E), Eu. destruct s; [|apply on_sock_S; auto].
    assert (S1 : S_inv (on_sock (on_sock w id (add_trace (repeat (WBind false) n ++ [WBind true]))) id set_bound)).
    { rewrite on_on. apply on_sock_S; auto. }
    pose proof (same_S _ _ (same_get (on_sock (on_sock w id (add_trace (repeat (WBind false) n ++ [WBind true]))) id set_bound) id true) S1) as S2.
    destruct (get_entry _ id true) as [[|] w3]; exact S2.
  - unfold with_conn. destruct (nth_error (w_conns w) c) as [id|] eqn:Ec; [|exact H].
    unfold unbind. destruct (nth_error (w_socks w) id) as [k|] eqn:Ek; [|exact H].
    destruct (k_unbound k) eqn:Eu; [exact H|].
    assert (H1 : S_inv (on_sock w id (add_ref (-1)))) by (apply on_sock_S; auto).
    destruct (f || Z.eqb (k_ref k - 1) 0); [|exact H1]. destruct s; [|exact H1].
    rewrite (send_spec _ id _ (add_ref (-1) k)) by (rewrite nth_on, Nat.eqb_refl, Ek; reflexivity).
    cbn [add_ref k_unbound]. rewrite Eu. rewrite on_on, on_on. cbn [snd].
    intros i k' E' Eu'. cbn [w_socks w_reg on_sock] in *. rewrite nth_upd in E'.
    destruct (Nat.eqb_spec i id) as [->|Hn].
    + rewrite Ek in E'. cbn in E'. injection E' as <-. discriminate Eu'.
    + pose proof (H i k' E' Eu') as Hd. pose proof (H id k Ek Eu) as Hd2.
      rewrite dget_ddel_neq; [assumption|]. intros Ex. congruence.
  - unfold with_conn. destruct (nth_error (w_conns w) c) as [id|]; [|exact H].
    unfold guarded_op. destruct (nth_error (w_socks w) id) as [k|]; [|exact H].
    destruct (k_unbound k); [exact H|].
    pose proof (same_S _ _ (same_send w id [WOp]) H) as H1. destruct (send w id [WOp]) as [[|] w1]; exact H1.
  - unfold with_conn, empty_modify. destruct (nth_error (w_conns w) c); exact H.
  - unfold with_conn. destruct (nth_error (w_conns w) c) as [id|]; [|exact H].
    unfold unguarded_op. pose proof (same_S _ _ (same_send w id [WOp]) H) as H1. destruct (send w id [WOp]) as [[|] w1]; exact H1.
Qed.

Lemma shared_S norm w live forced : shared_history norm w live forced -> S_inv w.
Proof.
  induction 1 as [|w live forced e Hh IH Hs Hr].
  - intros id k E. destruct id; discriminate E.
  - eapply S_step; eauto. apply history_J, shared_is_history; exact Hh.
Qed.
