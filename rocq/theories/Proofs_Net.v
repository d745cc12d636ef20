(** * Proofs about the message layer *)
From Verif Require Import PyBase Model_Net Spec_Net.

Section P.
  Context {M : Type} (mid : M -> N) (enc : M -> str) (dec : str -> option (M * str)).
  Context (good : M -> Prop).
  Hypothesis Hc : codec_ok_on good enc dec.
  Definition okm (x : M) : Prop := mid x <> 0%N /\ good x.

  Definition qlist (q : @queues M) (k : N) : list M :=
    match q k with Some (_, l) => l | None => [] end.
  Definition wfq (q : @queues M) : Prop := forall k d l, q k = Some (d, l) -> l <> [] /\ (forall x, In x l -> mid x = k).

  Lemma of_id_app k a b : of_id mid k (a ++ b) = of_id mid k a ++ of_id mid k b.
  Proof. apply filter_app. Qed.
  Lemma of_id_none k a : (forall x, In x a -> mid x <> k) -> of_id mid k a = [].
  Proof.
    intros H; induction a as [|x a IH]; [reflexivity|]. unfold of_id; cbn [List.filter].
    destruct (N.eqb_spec (mid x) k) as [E|_]; [exfalso; apply (H x); [now left|exact E]|].
    apply IH. intros y Hy; apply H; now right.
  Qed.

  Lemma stream_cons m ms : stream enc (m :: ms) = enc m ++ stream enc ms.
  Proof. reflexivity. Qed.

  (** decoding at the front of a stream *)
  Lemma dec_front raw tail ms : (forall x, In x ms -> okm x) -> raw <> [] -> raw ++ tail = stream enc ms ->
    (exists m ms' raw', ms = m :: ms' /\ dec raw = Some (m, raw') /\ raw' ++ tail = stream enc ms' /\
       List.length raw' < List.length raw) \/
    dec raw = None /\ tail <> [].
  Proof.
    destruct Hc as [Hne [Hd Hp]]. intros Hz Hr E.
    destruct ms as [|m ms].
    - cbn in E. apply app_eq_nil in E. tauto.
    - assert (Hg : good m) by (apply Hz; now left). specialize (Hne m Hg). specialize (Hd m). rewrite stream_cons in E.
      apply app_eq_app in E as [l [[E1 E2]|[E1 E2]]].
      + (* raw = enc m ++ l *)
        left. exists m, ms, l. subst raw. split; auto. split; [now apply Hd|]. split; [symmetry; exact E2|].
        rewrite app_length. destruct (enc m); [congruence|cbn; lia].
      + (* enc m = raw ++ l *)
        destruct l as [|c l].
        * left. rewrite app_nil_r in E1. cbn in E2.
          exists m, ms, []. split; auto. split; [rewrite <- E1, <- (app_nil_r (enc m)); now apply Hd|].
          split; [exact E2|]. destruct raw; [congruence|cbn; lia].
        * right. split; [apply (Hp m raw (c :: l)); [exact Hg|exact E1|discriminate]|].
          rewrite E2. discriminate.
  Qed.

  Lemma enqueue_spec q f m q' f' : wfq q -> enqueue mid q f m = (q', f') ->
    wfq q' /\ (forall k, qlist q' k = qlist q k ++ of_id mid k [m]) /\
    (forall k, k <> mid m -> q' k = q k).
  Proof.
    intros Hw. unfold enqueue, of_id; cbn [List.filter].
    destruct (q (mid m)) as [[d l]|] eqn:E; intros H; injection H as <- <-.
    - split; [|split].
      + intros k d' l'. unfold qset. destruct (N.eqb_spec k (mid m)) as [->|Hk]; [|apply Hw].
        intros H; injection H as <- <-. destruct (Hw _ _ _ E) as [_ Hi]. split; [destruct l; discriminate|].
        intros x Hx; apply in_app_iff in Hx as [Hx|[<-|[]]]; auto.
      + intros k. unfold qlist, qset. rewrite (N.eqb_sym (mid m) k).
        destruct (N.eqb_spec k (mid m)) as [->|Hk]; [now rewrite E|now rewrite app_nil_r].
      + intros k Hk. unfold qset. destruct (N.eqb_spec k (mid m)); [contradiction|reflexivity].
    - split; [|split].
      + intros k d' l'. unfold qset. destruct (N.eqb_spec k (mid m)) as [->|Hk0]; [|apply Hw].
        intros H; injection H as <- <-. split; [discriminate|]. intros x [<-|[]]; reflexivity.
      + intros k. unfold qlist, qset. rewrite (N.eqb_sym (mid m) k).
        destruct (N.eqb_spec k (mid m)) as [->|Hk]; [now rewrite E|now rewrite app_nil_r].
      + intros k Hk. unfold qset. destruct (N.eqb_spec k (mid m)); [contradiction|reflexivity].
  Qed.

  Definition queues_grow (q q' : @queues M) (pre : list M) : Prop :=
    wfq q' /\ forall k, qlist q' k = qlist q k ++ of_id mid k pre.

  Lemma grow_nil q : wfq q -> queues_grow q q [].
  Proof. intros H; split; auto. intros k; now rewrite app_nil_r. Qed.
  Ltac fin G := repeat match goal with |- _ /\ _ => split | |- queues_grow _ _ _ => exact G end;
    auto; try (intros ? []).

  Lemma decode_loop_spec n want q f raw tail ms :
    List.length raw <= n -> raw ++ tail = stream enc ms -> wfq q ->
    (forall x, In x ms -> okm x) ->
    match decode_loop mid dec n want q f raw with
    | DYield m q' f' raw' => exists pre ms', ms = pre ++ m :: ms' /\ mid m = want /\
        (forall x, In x pre -> mid x <> want) /\ raw' ++ tail = stream enc ms' /\
        queues_grow q q' pre /\ q' want = q want
    | DDone q' f' => exists pre ms', ms = pre ++ ms' /\
        (forall x, In x pre -> mid x <> want) /\ tail = stream enc ms' /\
        queues_grow q q' pre /\ q' want = q want
    | DUnder q' f' raw' => exists pre ms', ms = pre ++ ms' /\
        (forall x, In x pre -> mid x <> want) /\ raw' ++ tail = stream enc ms' /\ tail <> [] /\
        queues_grow q q' pre /\ q' want = q want
    | DUnsolicited _ _ _ | DFuel => False
    end.
  Proof.
    revert q f raw ms; induction n as [|n IH]; intros q f raw ms Hl E Hw Hz.
    - destruct raw; [|cbn in Hl; lia]. cbn [decode_loop]. exists [], ms.
      fin (grow_nil q Hw).
    - cbn [decode_loop]. destruct raw as [|b raw].
      { exists [], ms. fin (grow_nil q Hw). }
      destruct (dec_front (b :: raw) tail ms) as [[m [ms' [raw' [-> [Ed [Es Hlt]]]]]]|[Ed Ht]];
        [exact Hz|discriminate|exact E| |].
      + rewrite Ed. destruct (N.eqb_spec want (mid m)) as [->|Hwant].
        { exists [], ms'. fin (grow_nil q Hw). }
        destruct (N.eqb_spec (mid m) 0) as [H0|H0]; [apply (proj1 (Hz m (or_introl eq_refl)) H0)|].
        destruct (enqueue mid q f m) as [q1 f1] eqn:Eq.
        destruct (enqueue_spec _ _ _ _ _ Hw Eq) as [Hw1 [Hq1 Hk1]].
        assert (Hwq : q1 want = q want) by (apply Hk1; congruence).
        assert (Hl' : List.length raw' <= n) by (cbn [List.length] in *; lia).
        assert (Hz' : forall x, In x ms' -> okm x) by (intros x Hx; apply Hz; now right).
        assert (Hgrow : forall q' pre, queues_grow q1 q' pre -> queues_grow q q' (m :: pre)).
        { intros q' pre [Hw' Hg]. split; auto. intros k. rewrite Hg, Hq1, <- app_assoc.
          change (m :: pre) with ([m] ++ pre). now rewrite of_id_app. }
        specialize (IH q1 f1 raw' ms' Hl' Es Hw1 Hz').
        destruct (decode_loop mid dec n want q1 f1 raw') as [m2 q2 f2 raw2|m2 q2 f2|q2 f2|q2 f2 raw2|].
        * destruct IH as [pre [ms2 [-> [Hm [Hpre [Es2 [Hg Hq2]]]]]]].
          exists (m :: pre), ms2. split; [reflexivity|]. split; [exact Hm|].
          split; [intros x [<-|Hx]; [congruence|now apply Hpre]|]. split; [exact Es2|].
          split; [now apply Hgrow|congruence].
        * exact IH.
        * destruct IH as [pre [ms2 [-> [Hpre [Es2 [Hg Hq2]]]]]].
          exists (m :: pre), ms2. split; [reflexivity|].
          split; [intros x [<-|Hx]; [congruence|now apply Hpre]|]. split; [exact Es2|].
          split; [now apply Hgrow|congruence].
        * destruct IH as [pre [ms2 [-> [Hpre [Es2 [Ht2 [Hg Hq2]]]]]]].
          exists (m :: pre), ms2. split; [reflexivity|].
          split; [intros x [<-|Hx]; [congruence|now apply Hpre]|]. split; [exact Es2|].
          split; [exact Ht2|]. split; [now apply Hgrow|congruence].
        * exact IH.
      + rewrite Ed. exists [], ms. fin (grow_nil q Hw).
  Qed.

  (** conservation between two points: what was outstanding for every ID *)
  Definition outstanding (q : @queues M) (ms : list M) (k : N) : list M := qlist q k ++ of_id mid k ms.

  Lemma grow_outstanding q q' pre ms' k : queues_grow q q' pre ->
    outstanding q (pre ++ ms') k = outstanding q' ms' k.
  Proof. intros [_ H]. unfold outstanding. rewrite H, of_id_app, app_assoc. reflexivity. Qed.

  Lemma flush_one_spec q want m d q' : wfq q -> flush_one q want = Some (m, d, q') ->
    wfq q' /\ mid m = want /\ qlist q want = m :: qlist q' want /\ (forall k, k <> want -> qlist q' k = qlist q k).
  Proof.
    intros Hw. unfold flush_one. destruct (q want) as [[d0 [|m0 [|m1 l]]]|] eqn:E; try discriminate;
      intros H; injection H as <- <- <-; destruct (Hw _ _ _ E) as [_ Hi].
    - split; [|split; [|split]].
      + intros k d l. unfold qset. destruct (N.eqb k want); [discriminate|apply Hw].
      + apply Hi; now left.
      + unfold qlist, qset. rewrite E, N.eqb_refl. reflexivity.
      + intros k Hk. unfold qlist, qset. destruct (N.eqb_spec k want); [contradiction|reflexivity].
    - split; [|split; [|split]].
      + intros k d l'. unfold qset. destruct (N.eqb_spec k want) as [->|Hk]; [|apply Hw].
        intros H; injection H as <- <-. split; [discriminate|]. intros x Hx; apply Hi; now right.
      + apply Hi; now left.
      + unfold qlist, qset. rewrite E, N.eqb_refl. reflexivity.
      + intros k Hk. unfold qlist, qset. destruct (N.eqb_spec k want); [contradiction|reflexivity].
  Qed.
  Lemma flush_none q want : wfq q -> flush_one q want = None -> q want = None.
  Proof.
    intros Hw. unfold flush_one. destruct (q want) as [[d0 [|m0 [|m1 l]]]|] eqn:E; try discriminate; auto.
    exfalso. apply (proj1 (Hw _ _ _ E)). reflexivity.
  Qed.

  Definition next_ok (want : N) (q : @queues M) (ms : list M) (fut : str) (o : @outcome M) : Prop :=
    match o with
    | Yield m g' s' => g_want g' = want /\ mid m = want /\ s_abandoned s' = [] /\ wfq (s_queues s') /\
        (g_pc g' <> InDecode -> g_raw g' = []) /\
        (g_pc g' = InDecode -> qlist (s_queues s') want = []) /\
        (qlist q want = [] -> qlist (s_queues s') want = []) /\
        exists ms', g_raw g' ++ List.concat (s_pending s') ++ fut = stream enc ms' /\
          (exists pre, ms = pre ++ ms') /\
          outstanding q ms want = m :: outstanding (s_queues s') ms' want /\
          (forall k, k <> want -> outstanding q ms k = outstanding (s_queues s') ms' k)
    | Blocked raw' s' => s_pending s' = [] /\ s_abandoned s' = [] /\
        exists ms', raw' ++ fut = stream enc ms' /\ (raw' <> [] -> fut <> []) /\
          (forall k, outstanding q ms k = outstanding (s_queues s') ms' k) /\
          qlist (s_queues s') want = []
    | _ => False
    end.

  Lemma next_ok_shift want q q1 ms pre ms1 fut o :
    ms = pre ++ ms1 -> queues_grow q q1 pre -> q1 want = q want -> next_ok want q1 ms1 fut o -> next_ok want q ms fut o.
  Proof.
    intros -> Hg Hqq. destruct o as [m g' s'|s'|m s'|raw' s'|]; cbn [next_ok]; auto.
    - intros (H1 & H2 & H3 & H4 & H4a & H4b & H4c & ms' & H5 & [pre' H6] & H7 & H8).
      split; [exact H1|]. split; [exact H2|]. split; [exact H3|]. split; [exact H4|].
      split; [exact H4a|]. split; [exact H4b|].
      split; [intros Hq0; apply H4c; unfold qlist in *; now rewrite Hqq|].
      exists ms'. split; [exact H5|].
      split; [exists (pre ++ pre'); now rewrite H6, app_assoc|].
      split; [now rewrite (grow_outstanding _ _ _ _ _ Hg)|].
      intros k Hk. rewrite (grow_outstanding _ _ _ _ _ Hg). now apply H8.
    - intros (H1 & H2 & ms' & H3 & H4 & H5 & H6). split; [exact H1|]. split; [exact H2|].
      exists ms'. split; [exact H3|]. split; [exact H4|]. split; [|exact H6].
      intros k. rewrite (grow_outstanding _ _ _ _ _ Hg). apply H5.
  Qed.

  (** the result of a decode loop, continued *)
  Lemma after_decode (cont_done : @queues M -> nat -> @outcome M) (cont_under : @queues M -> nat -> str -> @outcome M)
      n want q f raw pend ms fut :
    List.length raw <= n -> raw ++ List.concat pend ++ fut = stream enc ms -> wfq q ->
    (forall x, In x ms -> okm x) ->
    (forall q' f' ms', wfq q' -> List.concat pend ++ fut = stream enc ms' ->
       (forall x, In x ms' -> okm x) -> q' want = q want ->
       next_ok want q' ms' fut (cont_done q' f')) ->
    (forall q' f' raw' ms', wfq q' -> raw' ++ List.concat pend ++ fut = stream enc ms' ->
       (forall x, In x ms' -> okm x) -> q' want = q want -> List.concat pend ++ fut <> [] ->
       next_ok want q' ms' fut (cont_under q' f' raw')) ->
    qlist q want = [] ->
    next_ok want q ms fut
      match decode_loop mid dec n want q f raw with
      | DYield m q' f' raw' => Yield m (mk_gen want InDecode raw') (mk_sock q' f' pend [])
      | DUnsolicited m q' f' => Unsolicited m (mk_sock q' f' pend [])
      | DDone q' f' => cont_done q' f'
      | DUnder q' f' raw' => cont_under q' f' raw'
      | DFuel => NoFuel
      end.
  Proof.
    intros Hl E Hw Hz Hd Hu Hq.
    pose proof (decode_loop_spec n want q f raw (List.concat pend ++ fut) ms Hl E Hw Hz) as H.
    destruct (decode_loop mid dec n want q f raw) as [m q' f' raw'|m q' f'|q' f'|q' f' raw'|];
      try contradiction.
    - destruct H as [pre [ms' [-> [Hm [Hpre [Es [Hg Hqw]]]]]]].
      cbn [next_ok g_want g_raw s_queues s_pending s_abandoned].
      assert (Hq' : qlist q' want = []) by (unfold qlist in *; rewrite Hqw; exact Hq).
      split; [reflexivity|]. split; [exact Hm|]. split; [reflexivity|]. split; [apply Hg|].
      split; [intros Hx; exfalso; now apply Hx|]. split; [intros _; exact Hq'|]. split; [intros _; exact Hq'|].
      exists ms'. split; [exact Es|]. split; [exists (pre ++ [m]); now rewrite <- app_assoc|]. split.
      + rewrite (grow_outstanding _ _ _ _ _ Hg).
        unfold outstanding. rewrite Hq'. unfold of_id; cbn [List.filter app].
        rewrite Hm, N.eqb_refl. reflexivity.
      + intros k Hk. rewrite (grow_outstanding _ _ _ _ _ Hg). unfold outstanding.
        unfold of_id; cbn [List.filter]. rewrite Hm. destruct (N.eqb_spec want k); [congruence|reflexivity].
    - destruct H as [pre [ms' [-> [Hpre [Es [Hg Hqw]]]]]].
      eapply next_ok_shift; [reflexivity|exact Hg|exact Hqw|]. apply Hd; auto; [apply Hg|].
      intros x Hx; apply Hz, in_app_iff; auto.
    - destruct H as [pre [ms' [-> [Hpre [Es [Ht [Hg Hqw]]]]]]].
      eapply next_ok_shift; [reflexivity|exact Hg|exact Hqw|]. apply Hu; auto; [apply Hg|].
      intros x Hx; apply Hz, in_app_iff; auto.
  Qed.

  Lemma qlist_none q k : q k = None -> qlist q k = [].
  Proof. unfold qlist; now intros ->. Qed.

  Lemma top_spec pend : forall want flush q f raw ms fut,
    raw ++ List.concat pend ++ fut = stream enc ms -> wfq q ->
    (forall x, In x ms -> okm x) -> (flush = false -> q want = None) -> (flush = true -> raw = []) ->
    (raw <> [] -> List.concat pend ++ fut <> []) ->
    next_ok want q ms fut (top mid dec pend [] want flush q f raw).
  Proof.
    assert (FL : forall pend want flush q f raw ms fut m d q',
      raw ++ List.concat pend ++ fut = stream enc ms -> wfq q -> (flush = true -> raw = []) ->
      (if flush : bool then flush_one q want else None) = Some (m, d, q') ->
      next_ok want q ms fut (Yield m (mk_gen want (InFlush d) raw) (mk_sock q' f pend []))).
    { intros pend0 want flush q f raw ms fut m d q' E Hw Hfr Ef.
      destruct flush; [|discriminate].
      destruct (flush_one_spec _ _ _ _ _ Hw Ef) as [Hw' [Hm [Hq Hk]]].
      cbn [next_ok g_want g_raw s_queues s_pending s_abandoned].
      split; [reflexivity|]. split; [exact Hm|]. split; [reflexivity|]. split; [exact Hw'|].
      split; [intros _; now apply Hfr|]. split; [discriminate|]. split; [intros Hq0; rewrite Hq in Hq0; discriminate|].
      exists ms. split; [exact E|]. split; [exists []; reflexivity|].
      unfold outstanding. split; [now rewrite Hq|]. intros k Hk'. now rewrite Hk. }
    induction pend as [|c pend IH]; intros want flush q f raw ms fut E Hw Hz Hf Hfr Hun.
    - cbn [top]. destruct (if flush then flush_one q want else None) as [[[m d] q']|] eqn:Ef.
      + eapply FL; eauto.
      + assert (Hn : q want = None).
        { destruct flush; [now apply flush_none|now apply Hf]. }
        cbn [existsb next_ok s_queues s_pending s_abandoned]. split; [reflexivity|]. split; [reflexivity|].
        exists ms. split; [exact E|]. split; [exact Hun|]. split; [reflexivity|]. now apply qlist_none.
    - cbn [top]. destruct (if flush then flush_one q want else None) as [[[m d] q']|] eqn:Ef.
      + eapply FL; eauto.
      + assert (Hn : q want = None).
        { destruct flush; [now apply flush_none|now apply Hf]. }
        cbn [existsb].
        assert (E' : (raw ++ c) ++ List.concat pend ++ fut = stream enc ms).
        { rewrite <- E. cbn [List.concat]. now rewrite <- !app_assoc. }
        apply (after_decode (fun q' f' => top mid dec pend [] want true q' f' [])
                 (fun q' f' raw' => top mid dec pend [] want false q' f' raw')); auto.
        * intros q' f' ms' Hw' Es Hz' Hq'. apply IH; auto; congruence.
        * intros q' f' raw' ms' Hw' Es Hz' Hq' Ht. apply IH; auto; congruence.
        * now apply qlist_none.
  Qed.

  (** one call, on a generator that is not stale *)
  Definition wfg (g : gen) (q : @queues M) : Prop :=
    (g_pc g <> InDecode -> g_raw g = []) /\
    (g_pc g = InDecode -> g_raw g <> [] -> qlist q (g_want g) = []).

  Lemma gen_next_spec g q f pend ms fut :
    g_raw g ++ List.concat pend ++ fut = stream enc ms -> wfq q ->
    (forall x, In x ms -> okm x) ->
    (forall d d' l, g_pc g = InFlush d -> q (g_want g) = Some (d', l) -> d = d') ->
    wfg g q ->
    next_ok (g_want g) q ms fut (gen_next mid dec g (mk_sock q f pend [])).
  Proof.
    intros E Hw Hz Hst [Hun Hdq]. unfold gen_next. destruct (g_pc g) as [|d|] eqn:Epc.
    - rewrite Hun in * by discriminate. apply top_spec; auto; congruence.
    - rewrite Hun in * by discriminate. destruct (q (g_want g)) as [[d' l]|] eqn:Eq.
      + rewrite (Hst d d' l eq_refl eq_refl), Nat.eqb_refl. apply top_spec; auto; congruence.
      + apply top_spec; auto; congruence.
    - destruct (g_raw g) as [|b raw] eqn:Er.
      + cbn [List.length decode_loop]. apply top_spec; auto; congruence.
      + apply (after_decode (fun q' f' => top mid dec pend [] (g_want g) true q' f' [])
                 (fun q' f' raw' => top mid dec pend [] (g_want g) false q' f' raw')); auto.
        * intros q' f' ms' Hw' Es Hz' Hq'. apply top_spec; auto; congruence.
        * intros q' f' raw' ms' Hw' Es Hz' Hq' Ht. apply top_spec; auto; [|discriminate].
          intros _. rewrite Hq'. specialize (Hdq eq_refl). unfold qlist in Hdq.
          destruct (q (g_want g)) as [[d l]|] eqn:Eq; [|reflexivity].
          exfalso. apply (proj1 (Hw _ _ _ Eq)). apply Hdq. discriminate.
        * apply Hdq; auto. discriminate.
  Qed.

  (** ** Histories *)
  Definition raw_at (w : @world M) (i : nat) : str :=
    match w_gens w i with Some g => g_raw g | None => [] end.

  Definition inv (all : list M) (fut : str) (w : @world M) : Prop :=
    s_abandoned (w_sock w) = [] /\ wfq (s_queues (w_sock w)) /\
    (forall i g, w_gens w i = Some g -> wfg g (s_queues (w_sock w))) /\
    (forall k m, In (k, m) (w_log w) -> mid m = k) /\
    exists i ms, (forall j, j <> i -> holds_nothing w j) /\
      raw_at w i ++ List.concat (s_pending (w_sock w)) ++ fut = stream enc ms /\
      (exists pre, all = pre ++ ms) /\
      forall k, delivered k w ++ outstanding (s_queues (w_sock w)) ms k = of_id mid k all.

  Lemma inv_init all fut chunks : List.concat chunks ++ fut = stream enc all -> inv all fut (connected chunks).
  Proof.
    intros E. split; [reflexivity|]. split; [intros k d l H; discriminate H|].
    split; [intros i g H; discriminate H|]. split; [intros k m []|].
    exists 0, all. split; [intros j Hj g H; discriminate H|]. split; [exact E|].
    split; [exists []; reflexivity|]. reflexivity.
  Qed.

  Lemma holds_raw w i : holds_nothing w i -> raw_at w i = [].
  Proof. intros H. unfold raw_at. destruct (w_gens w i) eqn:E; [now apply H|reflexivity]. Qed.

  (** with only reader i possibly holding bytes, the carrier can be taken to be i *)
  Lemma carrier all fut w i : inv all fut w -> (forall j, j <> i -> holds_nothing w j) ->
    exists ms, raw_at w i ++ List.concat (s_pending (w_sock w)) ++ fut = stream enc ms /\
      (exists pre, all = pre ++ ms) /\
      forall k, delivered k w ++ outstanding (s_queues (w_sock w)) ms k = of_id mid k all.
  Proof.
    intros (_ & _ & _ & _ & i0 & ms & H0 & E & Hp & Hk) H. exists ms. split; [|split; assumption].
    destruct (Nat.eq_dec i0 i) as [->|Hn]; [exact E|].
    rewrite (holds_raw w i) by (apply H0; congruence).
    rewrite (holds_raw w i0) in E by (apply H; congruence). exact E.
  Qed.

  Lemma nonzero_suffix (all pre ms : list M) :
    (forall x, In x all -> okm x) -> all = pre ++ ms -> forall x, In x ms -> okm x.
  Proof. intros H -> x Hx. apply H, in_app_iff; auto. Qed.

  (** what one permitted call does, in terms of what has been delivered *)
  Lemma next_spec all fut w i g : (forall x, In x all -> okm x) ->
    inv all fut w -> safe w (Next i) -> w_gens w i = Some g ->
    exists ms, (exists pre, all = pre ++ ms) /\
      (forall k, delivered k w ++ outstanding (s_queues (w_sock w)) ms k = of_id mid k all) /\
      next_ok (g_want g) (s_queues (w_sock w)) ms fut (gen_next mid dec g (w_sock w)).
  Proof.
    intros Hz Hi [Hq Hst] Eg.
    destruct (carrier all fut w i Hi Hq) as [ms [E [[pre Hp] Hk]]].
    exists ms. split; [eauto|]. split; [exact Hk|].
    destruct Hi as (Hab & Hw & Hg & _).
    destruct w as [[q f pend ab] gs log]; cbn [w_sock w_gens s_queues s_pending s_abandoned] in *.
    subst ab. unfold raw_at in E; cbn [w_gens] in E. rewrite Eg in E.
    apply gen_next_spec; auto.
    - eapply nonzero_suffix; eauto.
    - intros d d' l Hpc Hql. eapply (Hst g Eg); eauto.
    - eapply Hg; eauto.
  Qed.

  Lemma delivered_snoc k s gs (log : list (N * M)) want (m : M) s0 gs0 :
    delivered k (mk_world s gs (log ++ [(want, m)])) =
    delivered k (mk_world s0 gs0 log) ++ (if N.eqb want k then [m] else []).
  Proof.
    unfold delivered; cbn [w_log]. rewrite filter_app, map_app. cbn [List.filter fst].
    destruct (N.eqb want k); reflexivity.
  Qed.

  Lemma inv_step all fut w e w' : (forall x, In x all -> okm x) ->
    inv all fut w -> safe w e -> wstep mid dec w e = Some w' -> inv all fut w'.
  Proof.
    intros Hz Hi Hs Hstep. destruct e as [i want|i|i].
    - cbn [wstep] in Hstep. injection Hstep as <-. cbn [safe] in Hs.
      destruct Hi as (Hab & Hw & Hg & Hl & i0 & ms & H0 & E & Hp & Hk).
      split; [exact Hab|]. split; [exact Hw|]. cbn [w_gens w_sock w_log].
      split.
      { intros j g. unfold gset. destruct (Nat.eqb j i); [|apply Hg].
        intros H; injection H as <-. split; [reflexivity|discriminate]. }
      split; [exact Hl|]. exists i0, ms.
      split; [|split; [|split; [exact Hp|exact Hk]]].
      + intros j Hj g. cbn [w_gens]. unfold gset. destruct (Nat.eqb j i).
        * intros H; injection H as <-; reflexivity.
        * now apply H0.
      + unfold raw_at in *. cbn [w_gens]. unfold gset. destruct (Nat.eqb_spec i0 i) as [->|Hn]; [|exact E].
        pose proof (holds_raw w i Hs) as Hr. unfold raw_at in Hr. rewrite Hr in E. exact E.
    - cbn [wstep] in Hstep. destruct (w_gens w i) as [g|] eqn:Eg; [|discriminate].
      destruct (next_spec all fut w i g Hz Hi Hs Eg) as [ms [[pre Hp] [Hk Hn]]].
      destruct (gen_next mid dec g (w_sock w)) as [m g' s'|s'|m s'|raw' s'|]; try contradiction;
        try discriminate.
      injection Hstep as <-.
      destruct Hn as (Hgw & Hm & Hab' & Hw' & Hr1 & Hr2 & _ & ms' & Es & [pre' Hp'] & Ho & Ho').
      destruct Hi as (Hab & Hw & Hg & Hl & _). destruct Hs as [Hq _].
      split; [exact Hab'|]. split; [exact Hw'|]. cbn [w_gens w_sock w_log]. split; [|split].
      + intros j gj. unfold gset. destruct (Nat.eqb_spec j i) as [->|Hj].
        * intros H; injection H as <-. split; [exact Hr1|]. intros Hpc _. rewrite Hgw. now apply Hr2.
        * intros Hj2. pose proof (Hq j Hj gj Hj2) as Hrj. split; [intros _; exact Hrj|].
          intros _ Hne. congruence.
      + intros k m' Hin. apply in_app_iff in Hin as [Hin|[Hin|[]]]; [eapply Hl; eauto|].
        injection Hin as <- <-. exact Hm.
      + exists i, ms'. split; [|split; [|split]].
        * intros j Hj gj. cbn [w_gens]. unfold gset. destruct (Nat.eqb_spec j i); [contradiction|].
          apply Hq; exact Hj.
        * unfold raw_at; cbn [w_gens]. unfold gset. rewrite Nat.eqb_refl. exact Es.
        * exists (pre ++ pre'). now rewrite Hp, Hp', app_assoc.
        * intros k. destruct w as [s0 gs0 log]; cbn [w_log w_sock] in *.
          rewrite (delivered_snoc k _ _ log (g_want g) m s0 gs0).
          rewrite <- (Hk k), <- app_assoc. f_equal.
          destruct (N.eqb_spec (g_want g) k) as [<-|Hne].
          -- symmetry; exact Ho.
          -- symmetry; apply Ho'. congruence.
    - cbn [wstep] in Hstep. injection Hstep as <-. cbn [safe] in Hs.
      destruct Hi as (Hab & Hw & Hg & Hl & i0 & ms & H0 & E & Hp & Hk).
      split; [exact Hab|]. split; [exact Hw|]. cbn [w_gens w_sock w_log].
      split.
      { intros j g. unfold gset. destruct (Nat.eqb j i); [discriminate|apply Hg]. }
      split; [exact Hl|]. exists i0, ms.
      split; [|split; [|split; [exact Hp|exact Hk]]].
      + intros j Hj g. cbn [w_gens]. unfold gset. destruct (Nat.eqb j i); [discriminate|]. now apply H0.
      + unfold raw_at in *. cbn [w_gens]. unfold gset. destruct (Nat.eqb_spec i0 i) as [->|Hn]; [|exact E].
        pose proof (holds_raw w i Hs) as Hr. unfold raw_at in Hr. rewrite Hr in E. exact E.
  Qed.

  Lemma reach_inv all fut w0 w : (forall x, In x all -> okm x) ->
    inv all fut w0 -> reach mid dec w0 w -> inv all fut w.
  Proof. intros Hz Hi. induction 1; auto. eapply inv_step; eauto. Qed.

  (** the call-level theorem, all bytes available *)
  Lemma nth_after (l a b : list M) : l = a ++ b ->
    nth_error l (List.length a) = match b with [] => None | m :: _ => Some m end.
  Proof.
    intros ->. rewrite nth_error_app2, Nat.sub_diag by lia. destruct b; reflexivity.
  Qed.

  Lemma next_delivers all chunks w i g : (forall x, In x all -> okm x) ->
    List.concat chunks = stream enc all -> reach mid dec (connected chunks) w ->
    safe w (Next i) -> w_gens w i = Some g ->
    match nth_error (of_id mid (g_want g) all) (List.length (delivered (g_want g) w)) with
    | Some m => exists g' s', gen_next mid dec g (w_sock w) = Yield m g' s'
    | None => exists raw s', gen_next mid dec g (w_sock w) = Blocked raw s'
    end.
  Proof.
    intros Hz Hch Hr Hs Eg.
    assert (Hi : inv all [] w).
    { eapply reach_inv; eauto. apply inv_init. now rewrite app_nil_r. }
    destruct (next_spec all [] w i g Hz Hi Hs Eg) as [ms [_ [Hk Hn]]].
    rewrite (nth_after _ _ _ (eq_sym (Hk (g_want g)))).
    destruct (gen_next mid dec g (w_sock w)) as [m g' s'|s'|m s'|raw' s'|]; try contradiction.
    - destruct Hn as (_ & _ & _ & _ & _ & _ & _ & ms' & _ & _ & Ho & _). rewrite Ho. eauto.
    - destruct Hn as (_ & _ & ms' & Es & Hne & Ho & Hq). rewrite Ho. unfold outstanding. rewrite Hq.
      assert (Em : ms' = []).
      { destruct raw' as [|b raw']; [|exfalso; now apply Hne].
        destruct ms' as [|m ms']; [reflexivity|]. exfalso. rewrite stream_cons in Es.
        destruct Hc as [Hne' _].
        assert (Hm : In m all).
        { assert (Hin : In m (of_id mid (mid m) all)).
          { rewrite <- (Hk (mid m)), Ho. unfold outstanding. rewrite !in_app_iff. right. right. apply filter_In.
            split; [now left|apply N.eqb_refl]. }
          apply filter_In in Hin. apply Hin. }
        specialize (Hne' m (proj2 (Hz m Hm))). destruct (enc m); [congruence|discriminate]. }
      rewrite Em. cbn. eauto.
  Qed.

  (** ** One reader only: any chunking *)
  Definition single (k : N) (w : @world M) : Prop :=
    (forall j g, w_gens w j = Some g -> j = 0 /\ g_want g = k /\ (forall d, g_pc g <> InFlush d)) /\
    s_queues (w_sock w) k = None.

  Lemma single_safe k w : single k w -> safe w (Next 0).
  Proof.
    intros [H1 H2]. split.
    - intros j Hj g Hg. destruct (H1 j g Hg) as [-> _]. congruence.
    - intros g Hg d d' l Hpc Hq. destruct (H1 0 g Hg) as [_ [_ H3]]. exfalso; eapply H3; eauto.
  Qed.

  Lemma dec_none n : forall want q f raw, q want = None ->
    match decode_loop mid dec n want q f raw with
    | DYield _ q' _ _ | DDone q' _ | DUnder q' _ _ => q' want = None
    | _ => True
    end.
  Proof.
    induction n as [|n IH]; intros want q f raw Hq; cbn [decode_loop]; destruct raw as [|b raw]; auto.
    destruct (dec (b :: raw)) as [[m raw']|]; auto.
    destruct (N.eqb_spec want (mid m)) as [->|Hne]; auto.
    destruct (N.eqb (mid m) 0); auto.
    destruct (enqueue mid q f m) as [q1 f1] eqn:E. apply IH.
    unfold enqueue in E. destruct (q (mid m)) as [[d l]|]; injection E as <- <-;
      unfold qset; destruct (N.eqb_spec want (mid m)); congruence.
  Qed.

  Lemma top_pc_none pend : forall want flush q f raw, q want = None ->
    match top mid dec pend [] want flush q f raw with
    | Yield m g' s' => g_pc g' = InDecode /\ s_queues s' want = None
    | _ => True
    end.
  Proof.
    induction pend as [|c pend IH]; intros want flush q f raw Hq; cbn [top].
    + unfold flush_one. rewrite Hq. destruct flush; cbn; auto.
    + unfold flush_one. rewrite Hq.
      replace (if flush then None else None) with (@None (M * nat * @queues M)) by (destruct flush; reflexivity).
      cbn [existsb]. pose proof (dec_none (List.length (raw ++ c)) want q f (raw ++ c) Hq) as Hd.
      destruct (decode_loop mid dec (List.length (raw ++ c)) want q f (raw ++ c)); auto.
      * now apply IH.
      * now apply IH.
  Qed.

  Lemma gen_next_none g q f pend : q (g_want g) = None -> (forall d, g_pc g <> InFlush d) ->
    match gen_next mid dec g (mk_sock q f pend []) with
    | Yield m g' s' => g_pc g' = InDecode /\ s_queues s' (g_want g) = None
    | _ => True
    end.
  Proof.
    intros Hq Hpc. unfold gen_next. destruct (g_pc g) as [|d|] eqn:E.
    - now apply top_pc_none.
    - exfalso; now apply (Hpc d).
    - pose proof (dec_none (List.length (g_raw g)) (g_want g) q f (g_raw g) Hq) as Hd.
      destruct (decode_loop mid dec (List.length (g_raw g)) (g_want g) q f (g_raw g)); auto;
        now apply top_pc_none.
  Qed.

  (** [n] calls of next on one generator *)
  Fixpoint reads (n : nat) (g : gen) (s : @sock M) : option (list M) :=
    match n with
    | 0 => Some []
    | S n' => match gen_next mid dec g s with
              | Yield m g' s' => match reads n' g' s' with Some l => Some (m :: l) | None => None end
              | _ => None
              end
    end.

  Lemma reads_spec all chunks k : (forall x, In x all -> okm x) ->
    List.concat chunks = stream enc all ->
    forall n w g, reach mid dec (connected chunks) w -> single k w -> w_gens w 0 = Some g ->
    List.length (delivered k w) + n <= List.length (of_id mid k all) ->
    exists l, reads n g (w_sock w) = Some l /\
      delivered k w ++ l = firstn (List.length (delivered k w) + n) (of_id mid k all).
  Proof.
    intros Hz Hch. induction n as [|n IH]; intros w g Hr Hs Eg Hl.
    - exists []. split; [reflexivity|]. rewrite Nat.add_0_r, app_nil_r.
      assert (Hi : inv all [] w).
      { eapply reach_inv; eauto. apply inv_init. now rewrite app_nil_r. }
      destruct Hi as (_ & _ & _ & _ & i & ms & _ & _ & _ & Hk).
      rewrite <- (Hk k). rewrite firstn_app, Nat.sub_diag, firstn_O, app_nil_r.
      symmetry; apply firstn_all.
    - pose proof (single_safe k w Hs) as Hsafe.
      destruct Hs as [H1 H2]. destruct (H1 0 g Eg) as [_ [Hw Hpc]].
      pose proof (next_delivers all chunks w 0 g Hz Hch Hr Hsafe Eg) as Hn.
      rewrite Hw in Hn.
      destruct (nth_error (of_id mid k all) (List.length (delivered k w))) as [m|] eqn:En.
      2:{ exfalso. apply nth_error_None in En. lia. }
      destruct Hn as [g' [s' Hn]]. cbn [reads]. rewrite Hn.
      set (w' := mk_world s' (gset (w_gens w) 0 (Some g')) (w_log w ++ [(k, m)])).
      assert (Hst : wstep mid dec w (Next 0) = Some w').
      { cbn [wstep]. rewrite Eg, Hn, Hw. reflexivity. }
      assert (Hr' : reach mid dec (connected chunks) w') by (eapply reach_step; eauto).
      assert (Hab : s_abandoned (w_sock w) = []).
      { assert (Hi : inv all [] w).
        { eapply reach_inv; eauto. apply inv_init. now rewrite app_nil_r. }
        apply Hi. }
      assert (Hgn : g_pc g' = InDecode /\ s_queues s' k = None).
      { destruct w as [[q f pend ab] gs log]; cbn [w_sock s_abandoned s_queues w_gens] in *. subst ab.
        pose proof (gen_next_none g q f pend) as G. rewrite Hn, Hw in G. apply G; auto. }
      assert (Hgw : g_want g' = k).
      { assert (Hi : inv all [] w).
        { eapply reach_inv; eauto. apply inv_init. now rewrite app_nil_r. }
        destruct (next_spec all [] w 0 g Hz Hi Hsafe Eg) as [ms [_ [_ Hnx]]]. rewrite Hn in Hnx.
        destruct Hnx as [Hx _]. congruence. }
      assert (Hs' : single k w').
      { split; [|apply Hgn]. intros j gj. cbn [w_gens w']. unfold gset.
        destruct (Nat.eqb_spec j 0) as [->|Hj].
        - intros H; injection H as <-. split; auto. split; auto. intros d. destruct Hgn as [-> _]. discriminate.
        - apply H1. }
      assert (Hd : delivered k w' = delivered k w ++ [m]).
      { destruct w as [s0 gs0 log]. unfold w'. cbn [w_log].
        rewrite (delivered_snoc k s' _ log k m s0 gs0), N.eqb_refl. reflexivity. }
      destruct (IH w' g' Hr' Hs') as [l [Hl1 Hl2]].
      + cbn [w_gens w']. reflexivity.
      + rewrite Hd, app_length. cbn [List.length]. lia.
      + cbn [w_sock w'] in Hl1. rewrite Hl1. exists (m :: l). split; [reflexivity|].
        rewrite Hd in Hl2. rewrite <- app_assoc in Hl2. cbn [app] in Hl2.
        rewrite Hl2, app_length. cbn [List.length]. f_equal. lia.
  Qed.

  (** ** One message per read: successive recv_one calls *)
  Lemma top_whole : forall ms want flush q f, (forall x, In x ms -> okm x) ->
    match top mid dec (map enc ms) [] want flush q f [] with
    | Yield _ g' s' => g_raw g' = [] /\ exists ms', s_pending s' = map enc ms' /\ exists pre, ms = pre ++ ms'
    | _ => True
    end.
  Proof.
    destruct Hc as [Hne [Hd _]].
    induction ms as [|m ms IH]; intros want flush q f Hz; cbn [map top].
    - destruct (if flush then flush_one q want else None) as [[[m d] q']|]; cbn [existsb].
      + split; [reflexivity|]. exists []. split; [reflexivity|]. exists []; reflexivity.
      + exact I.
    - destruct (if flush then flush_one q want else None) as [[[m' d] q']|]; cbn [existsb].
      { split; [reflexivity|]. exists (m :: ms). split; [reflexivity|]. exists []; reflexivity. }
      cbn [app].
      assert (Hgm : good m) by (apply Hz; now left).
      pose proof (Hd m [] Hgm) as Hdm. rewrite app_nil_r in Hdm.
      specialize (Hne m Hgm). destruct (enc m) as [|b e] eqn:Ee; [congruence|].
      cbn [List.length decode_loop]. rewrite Hdm.
      destruct (N.eqb_spec want (mid m)) as [->|Hw].
      + split; [reflexivity|]. exists ms. split; [reflexivity|]. exists [m]; reflexivity.
      + destruct (N.eqb (mid m) 0); [exact I|].
        destruct (enqueue mid q f m) as [q1 f1].
        replace (decode_loop mid dec (List.length e) want q1 f1 []) with (DDone q1 f1)
          by (destruct e; reflexivity).
        specialize (IH want true q1 f1). destruct (top mid dec (map enc ms) [] want true q1 f1 []); auto.
        destruct IH as [H1 [ms' [H2 [pre H3]]]]; [intros x Hx; apply Hz; now right|].
        split; auto. exists ms'. split; auto. exists (m :: pre). now rewrite H3.
  Qed.

  Fixpoint recv_ones (ks : list N) (s : @sock M) : option (list (N * M)) :=
    match ks with
    | [] => Some []
    | k :: ks' => match recv_one mid dec k s with
                  | Yield m _ s' => match recv_ones ks' s' with Some l => Some ((k, m) :: l) | None => None end
                  | _ => None
                  end
    end.

  Definition wanted (k : N) (ks : list N) : nat := List.length (List.filter (N.eqb k) ks).

  Lemma recv_ones_spec all : (forall x, In x all -> okm x) ->
    forall ks w ms, reach mid dec (connected (map enc all)) w -> (forall i, holds_nothing w i) ->
    (forall i, i <> 0 -> w_gens w i = None) -> s_pending (w_sock w) = map enc ms ->
    (exists pre, all = pre ++ ms) ->
    (forall k, List.length (delivered k w) + wanted k ks <= List.length (of_id mid k all)) ->
    exists l, recv_ones ks (w_sock w) = Some l /\ map fst l = ks /\
      forall k, delivered k w ++ map snd (List.filter (fun e => N.eqb (fst e) k) l) =
                firstn (List.length (delivered k w) + wanted k ks) (of_id mid k all).
  Proof.
    intros Hz.
    assert (Hall : List.concat (map enc all) = stream enc all) by reflexivity.
    induction ks as [|k ks IH]; intros w ms Hr Hh Hone Hp Hsuf Hl.
    - exists []. split; [reflexivity|]. split; [reflexivity|]. intros k. cbn. rewrite Nat.add_0_r, app_nil_r.
      assert (Hi : inv all [] w).
      { eapply reach_inv; eauto. apply inv_init. now rewrite app_nil_r. }
      destruct Hi as (_ & _ & _ & _ & i & ms0 & _ & _ & _ & Hk).
      rewrite <- (Hk k). rewrite firstn_app, Nat.sub_diag, firstn_O, app_nil_r.
      symmetry; apply firstn_all.
    - set (w1 := mk_world (w_sock w) (gset (w_gens w) 0 (Some (recv_messages k))) (w_log w)).
      assert (Hr1 : reach mid dec (connected (map enc all)) w1).
      { apply (reach_step mid dec _ w (Open 0 k)); [exact Hr|apply Hh|reflexivity]. }
      assert (Eg : w_gens w1 0 = Some (recv_messages k)) by reflexivity.
      assert (Hs1 : safe w1 (Next 0)).
      { split.
        - intros j Hj g. cbn [w_gens w1]. unfold gset. destruct (Nat.eqb_spec j 0); [contradiction|].
          rewrite Hone by exact Hj. discriminate.
        - intros g Hg d d' l Hpc. rewrite Eg in Hg. injection Hg as <-. discriminate. }
      pose proof (next_delivers all _ w1 0 _ Hz Hall Hr1 Hs1 Eg) as Hn.
      change (g_want (recv_messages k)) with k in Hn.
      change (delivered k w1) with (delivered k w) in Hn. change (w_sock w1) with (w_sock w) in Hn.
      assert (Hwk : wanted k (k :: ks) = S (wanted k ks)).
      { unfold wanted. cbn [List.filter]. now rewrite N.eqb_refl. }
      destruct (nth_error (of_id mid k all) (List.length (delivered k w))) as [m|] eqn:En.
      2:{ exfalso. apply nth_error_None in En. specialize (Hl k). lia. }
      destruct Hn as [g' [s' Hn]].
      set (w2 := mk_world s' (gset (w_gens w1) 0 (Some g')) (w_log w ++ [(k, m)])).
      assert (Hr2 : reach mid dec (connected (map enc all)) w2).
      { apply (reach_step mid dec _ w1 (Next 0)); [exact Hr1|exact Hs1|]. cbn [wstep]. rewrite Eg.
        change (w_sock w1) with (w_sock w). rewrite Hn. reflexivity. }
      assert (Hab : s_abandoned (w_sock w) = []).
      { assert (Hi : inv all [] w).
        { eapply reach_inv; eauto. apply inv_init. now rewrite app_nil_r. }
        apply Hi. }
      assert (Hwhole : g_raw g' = [] /\ exists ms', s_pending s' = map enc ms' /\ exists pre, ms = pre ++ ms').
      { destruct Hsuf as [pre Hsuf].
        pose proof (top_whole ms k true (s_queues (w_sock w)) (s_fresh (w_sock w))) as T.
        destruct w as [[q f pend ab] gs log]; cbn [w_sock s_abandoned s_queues s_pending s_fresh] in *.
        subst ab pend. unfold gen_next, recv_messages in Hn; cbn [g_pc g_want g_raw] in Hn.
        rewrite Hn in T. apply T. intros x Hx; apply Hz. rewrite Hsuf. apply in_app_iff; auto. }
      destruct Hwhole as [Hraw [ms' [Hp' [pre' Hms]]]].
      assert (Hd : forall k', delivered k' w2 = delivered k' w ++ (if N.eqb k k' then [m] else [])).
      { intros k'. destruct w as [s0 gs0 log]. apply delivered_snoc. }
      destruct (IH w2 ms') as [l [Hl1 [Hl2 Hl3]]]; auto.
      + intros i g. cbn [w_gens w2]. unfold gset. destruct (Nat.eqb_spec i 0) as [->|Hi].
        * intros H; injection H as <-. exact Hraw.
        * cbn [w_gens w1]. unfold gset. destruct (Nat.eqb_spec i 0); [contradiction|].
          rewrite Hone by exact Hi. discriminate.
      + intros i Hi. cbn [w_gens w2 w1]. unfold gset. destruct (Nat.eqb_spec i 0); [contradiction|]. now apply Hone.
      + destruct Hsuf as [pre Hsuf]. exists (pre ++ pre'). now rewrite <- app_assoc, <- Hms.
      + intros k'. rewrite Hd. specialize (Hl k'). unfold wanted in *. cbn [List.filter] in Hl.
        rewrite app_length. rewrite (N.eqb_sym k' k) in Hl.
        destruct (N.eqb k k'); cbn [List.length] in *; lia.
      + cbn [recv_ones]. unfold recv_one. rewrite Hn.
        cbn [w_sock w2] in Hl1. rewrite Hl1. exists ((k, m) :: l). split; [reflexivity|].
        split; [cbn [map fst]; now rewrite Hl2|]. intros k'. specialize (Hl3 k'). rewrite Hd in Hl3.
        unfold wanted in *. cbn [List.filter fst]. rewrite (N.eqb_sym k' k).
        destruct (N.eqb k k'); cbn [map snd List.length] in *.
        * rewrite <- app_assoc in Hl3. cbn [app] in Hl3. rewrite Hl3, app_length. cbn [List.length]. f_equal; lia.
        * rewrite app_nil_r in Hl3. exact Hl3.
  Qed.
End P.

(** ** Sending *)
Lemma send_all_spec packable ops : forall s s' rs, send_all packable s ops = (s', rs) ->
  next_id s' = (next_id s + N.of_nat (List.length ops))%N /\
  (forall j o, nth_error ops j = Some o ->
     nth_error rs j = Some (let i := (next_id s + N.of_nat j)%N in
                            if packable i o then Ok i else Raise ValueError)) /\
  exists w, wire s' = wire s ++ w /\
    (forall i o, In (i, o) w <-> exists j, nth_error ops j = Some o /\ i = (next_id s + N.of_nat j)%N /\
                                  packable i o = true) /\
    NoDup (map fst w) /\ (forall i, In i (map fst w) -> (next_id s <= i)%N).
Proof.
  induction ops as [|o ops IH]; intros s s' rs H; cbn [send_all] in H.
  - injection H as <- <-. split; [cbn; lia|]. split; [intros [|j] o H; discriminate H|].
    exists []. rewrite app_nil_r. split; auto. split; [|split; [constructor|intros i []]].
    intros i o; split; [intros []|]. intros [j [Hj _]]. destruct j; discriminate Hj.
  - destruct (send_message packable s o) as [s1 r] eqn:E1.
    destruct (send_all packable s1 ops) as [s2 rs2] eqn:E2. injection H as <- <-.
    destruct (IH _ _ _ E2) as [Hn [Hr [w [Hw [Hin [Hnd Hge]]]]]]. clear IH.
    assert (En : next_id s1 = (next_id s + 1)%N /\ r = (if packable (next_id s) o then Ok (next_id s) else Raise ValueError)
            /\ wire s1 = wire s ++ (if packable (next_id s) o then [(next_id s, o)] else [])).
    { unfold send_message in E1. destruct (packable (next_id s) o); injection E1 as <- <-; cbn;
        rewrite ?app_nil_r; auto. }
    destruct En as [En [Er Ew]].
    split; [cbn [List.length]; lia|]. split.
    { intros [|j] o' Hj; cbn [nth_error] in *.
      - injection Hj as <-. rewrite N.add_0_r. cbv zeta. now rewrite Er.
      - rewrite (Hr j o' Hj), En. cbv zeta.
        replace (next_id s + 1 + N.of_nat j)%N with (next_id s + N.of_nat (S j))%N by lia. reflexivity. }
    exists ((if packable (next_id s) o then [(next_id s, o)] else []) ++ w).
    split; [rewrite Hw, Ew, app_assoc; reflexivity|].
    split; [|split].
    + intros i o'. rewrite in_app_iff, Hin. split.
      * intros [H|[j [Hj [Hi Hp]]]].
        -- destruct (packable (next_id s) o) eqn:Ep; [|destruct H]. destruct H as [H|[]].
           injection H as <- <-. exists 0. cbn [nth_error]. rewrite N.add_0_r. auto.
        -- exists (S j). cbn [nth_error]. split; auto. split; auto. lia.
      * intros [[|j] [Hj [Hi Hp]]]; cbn [nth_error] in Hj.
        -- left. injection Hj as <-. rewrite N.add_0_r in Hi. subst i. rewrite Hp. left; reflexivity.
        -- right. exists j. split; auto. split; auto. lia.
    + rewrite map_app. destruct (packable (next_id s) o); cbn [map fst app]; [|exact Hnd].
      constructor; auto. intros Hc. specialize (Hge _ Hc). lia.
    + intros i. rewrite map_app, in_app_iff. intros [H|H].
      * destruct (packable (next_id s) o); [|destruct H]. destruct H as [<-|[]]. cbn. lia.
      * specialize (Hge _ H). lia.
Qed.
