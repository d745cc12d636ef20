(** * Proofs about unsolicited messages *)
From Verif Require Import PyBase Model_Net Spec_Net Spec_Notice.

Section P.
  Context {M : Type} (mid : M -> N) (enc : M -> str) (dec : str -> option (M * str)) (good : M -> Prop).
  Context (Hc : codec_ok_on good enc dec).
  Context (k : N) (Hk : k <> 0%N) (u : M) (Hu : mid u = 0%N) (Hg : good u) (x : str).
  Definition fine (m : M) : Prop := mid m <> 0%N /\ good m.
  Definition qw (q : @queues M) (j : N) : list M := match q j with Some (_, l) => l | None => [] end.
  Definition qtidy (q : @queues M) : Prop := forall j d, q j <> Some (d, []).
  (** what is still to come *)
  Definition rest (b : list M) : str := stream enc b ++ enc u ++ x.
  Lemma rest_cons m b : rest (m :: b) = enc m ++ rest b.
  Proof. unfold rest, stream. cbn [map List.concat]. now rewrite <- !app_assoc. Qed.
  Lemma of_id_cons_same m b j : mid m = j -> of_id mid j (m :: b) = m :: of_id mid j b.
  Proof. intros <-. unfold of_id. cbn [List.filter]. now rewrite N.eqb_refl. Qed.
  Lemma of_id_cons_other m b j : mid m <> j -> of_id mid j (m :: b) = of_id mid j b.
  Proof. intros H. unfold of_id. cbn [List.filter]. now destruct (N.eqb_spec (mid m) j). Qed.

  Lemma split_front2 (a t e r : str) : a ++ t = e ++ r -> (exists z, a = e ++ z /\ z ++ t = r) \/ (exists z, z <> [] /\ e = a ++ z).
  Proof.
    intros E. apply app_eq_app in E as [l [[E1 E2]|[E1 E2]]]; [left; exists l; now rewrite <- E2|].
    destruct l as [|c l]; [left; exists []; rewrite app_nil_r in *; now rewrite E2|right; exists (c :: l); split; [discriminate|exact E1]].
  Qed.
  Lemma front b raw t : Forall fine b -> raw ++ t = rest b ->
    (dec raw = None /\ t <> []) \/
    (exists m b' raw', b = m :: b' /\ dec raw = Some (m, raw') /\ raw' ++ t = rest b' /\ List.length raw' < List.length raw) \/
    (b = [] /\ exists raw', dec raw = Some (u, raw') /\ raw' ++ t = x).
  Proof.
    destruct Hc as (Hne & Hd & Hp). intros Hb E. destruct b as [|m b].
    - unfold rest in E. cbn [stream map List.concat List.app] in E. destruct (split_front2 _ _ _ _ E) as [(z & -> & <-)|(z & Hz & Ez)].
      + right. right. split; [reflexivity|]. exists z. split; [now apply Hd|reflexivity].
      + left. split; [now apply (Hp u raw z)|]. rewrite Ez, <- app_assoc in E. apply app_inv_head in E. intros ->. destruct z; [contradiction|discriminate].
    - inversion Hb as [|? ? [_ Hgm] _]; subst. rewrite rest_cons in E. destruct (split_front2 _ _ _ _ E) as [(z & -> & Ez)|(z & Hz & Ez)].
      + right. left. exists m, b, z. split; [reflexivity|]. split; [now apply Hd|]. split; [exact Ez|]. rewrite app_length.
        pose proof (Hne m Hgm). destruct (enc m); [contradiction|cbn [List.length]; lia].
      + left. split; [now apply (Hp m raw z)|]. rewrite Ez, <- app_assoc in E. apply app_inv_head in E. intros ->. destruct z; [contradiction|discriminate].
  Qed.

  Lemma enqueue_fine q f m q' f' : qtidy q -> enqueue mid q f m = (q', f') ->
    qtidy q' /\ (forall j, qw q' j = qw q j ++ of_id mid j [m]) /\ (mid m <> k -> q' k = q k).
  Proof.
    intros Ht. unfold enqueue. destruct (q (mid m)) as [[d l]|] eqn:E; intros H; injection H as <- <-; (split; [|split]).
    - intros j d'. unfold qset. destruct (N.eqb_spec j (mid m)); [|apply Ht]. intros H. injection H as _ H. destruct l; discriminate.
    - intros j. unfold qw, qset, of_id. cbn [List.filter]. rewrite (N.eqb_sym (mid m) j). destruct (N.eqb_spec j (mid m)) as [->|]; [now rewrite E|now rewrite app_nil_r].
    - intros Hm. unfold qset. destruct (N.eqb_spec k (mid m)); [now symmetry in e|reflexivity].
    - intros j d'. unfold qset. destruct (N.eqb_spec j (mid m)); [discriminate|apply Ht].
    - intros j. unfold qw, qset, of_id. cbn [List.filter]. rewrite (N.eqb_sym (mid m) j). destruct (N.eqb_spec j (mid m)) as [->|]; [now rewrite E|now rewrite app_nil_r].
    - intros Hm. unfold qset. destruct (N.eqb_spec k (mid m)); [now symmetry in e|reflexivity].
  Qed.

  (** queues after [b1] has been decoded, none of it for the reader *)
  Definition grown (q q' : @queues M) (b1 : list M) : Prop :=
    qtidy q' /\ q' k = None /\ of_id mid k b1 = [] /\ forall j, qw q' j = qw q j ++ of_id mid j b1.
  Lemma grown_nil q : qtidy q -> q k = None -> grown q q [].
  Proof. intros H1 H2. split; [exact H1|]. split; [exact H2|]. split; [reflexivity|]. intros j. now rewrite app_nil_r. Qed.
  Lemma grown_cons q q1 q' m b1 : mid m <> k -> (forall j, qw q1 j = qw q j ++ of_id mid j [m]) -> grown q1 q' b1 -> grown q q' (m :: b1).
  Proof.
    intros Hm H1 (G1 & G2 & G3 & G4). split; [exact G1|]. split; [exact G2|]. split; [now rewrite of_id_cons_other|]. intros j. rewrite G4, H1, <- app_assoc. f_equal.
    unfold of_id. cbn [List.filter]. now destruct (N.eqb (mid m) j).
  Qed.

  Lemma loop_says n : forall q f raw t b, List.length raw <= n -> raw ++ t = rest b -> Forall fine b -> qtidy q -> q k = None ->
    match decode_loop mid dec n k q f raw with
    | DYield m q' _ raw' => exists b1 b2, b = b1 ++ m :: b2 /\ mid m = k /\ grown q q' b1 /\ raw' ++ t = rest b2
    | DUnsolicited m q' _ => m = u /\ grown q q' b /\ exists lost, lost ++ t = x
    | DDone q' _ => exists b1 b2, b = b1 ++ b2 /\ grown q q' b1 /\ t = rest b2
    | DUnder q' _ raw' => exists b1 b2, b = b1 ++ b2 /\ grown q q' b1 /\ raw' ++ t = rest b2 /\ t <> []
    | DFuel => False
    end.
  Proof.
    induction n as [|n IH]; intros q f raw t b Hl E Hb Ht Hq.
    - destruct raw; [|cbn [List.length] in Hl; lia]. cbn [decode_loop]. exists [], b. split; [reflexivity|]. split; [now apply grown_nil|exact E].
    - destruct raw as [|c raw0] eqn:Er; cbn [decode_loop]; [exists [], b; split; [reflexivity|]; split; [now apply grown_nil|exact E]|].
      rewrite <- Er in *. destruct (front b raw t Hb E) as [(D & Hne)|[(m & b' & raw' & -> & D & E' & Hlt)|(-> & raw' & D & E')]]; rewrite D.
      + exists [], b. split; [reflexivity|]. split; [now apply grown_nil|]. split; [exact E|exact Hne].
      + inversion Hb as [|? ? [Hm0 _] Hb']; subst b' m. destruct (N.eqb_spec k (mid x0)) as [Ek|Ek].
        * exists [], l. split; [reflexivity|]. split; [now symmetry|]. split; [now apply grown_nil|exact E'].
        * destruct (N.eqb_spec (mid x0) 0) as [Z|_]; [contradiction|]. destruct (enqueue mid q f x0) as [q1 f1] eqn:En.
          destruct (enqueue_fine q f x0 q1 f1 Ht En) as (T1 & T2 & T3). assert (Hm : mid x0 <> k) by congruence. specialize (T3 Hm).
          assert (Hl' : List.length raw' <= n) by lia.
          specialize (IH q1 f1 raw' t l Hl' E' Hb' T1 ltac:(congruence)). destruct (decode_loop mid dec n k q1 f1 raw') as [m q' f' r'|m q' f'|q' f'|q' f' r'|].
          -- destruct IH as (b1 & b2 & -> & I1 & I2 & I3). exists (x0 :: b1), b2. split; [reflexivity|]. split; [exact I1|]. split; [now apply grown_cons with q1|exact I3].
          -- destruct IH as (-> & I2 & I3). split; [reflexivity|]. split; [now apply grown_cons with q1|exact I3].
          -- destruct IH as (b1 & b2 & -> & I2 & I3). exists (x0 :: b1), b2. split; [reflexivity|]. split; [now apply grown_cons with q1|exact I3].
          -- destruct IH as (b1 & b2 & -> & I2 & I3). exists (x0 :: b1), b2. split; [reflexivity|]. split; [now apply grown_cons with q1|exact I3].
          -- exact IH.
      + rewrite Hu. destruct (N.eqb_spec k 0); [contradiction|]. cbn [N.eqb]. split; [reflexivity|]. split; [now apply grown_nil|]. now exists raw'.
  Qed.

  Definition ready (g : gen) (q : @queues M) : Prop :=
    g_want g = k /\
    match g_pc g with
    | AtStart => g_raw g = []
    | InFlush d => g_raw g = [] /\ (q k = None \/ exists l, q k = Some (d, l))
    | InDecode => q k = None
    end.
  Definition step_ok (ab : list N) (q : @queues M) (b : list M) (o : @outcome M) : Prop :=
    match o with
    | Yield m g' s' => s_abandoned s' = ab /\ qtidy (s_queues s') /\ ready g' (s_queues s') /\
        exists b1 b2, b = b1 ++ b2 /\ m :: qw (s_queues s') k ++ of_id mid k b2 = qw q k ++ of_id mid k b /\
          (forall j, j <> k -> qw (s_queues s') j = qw q j ++ of_id mid j b1) /\ g_raw g' ++ List.concat (s_pending s') = rest b2
    | Unsolicited m s' => m = u /\ s_abandoned s' = ab /\ qtidy (s_queues s') /\ s_queues s' k = None /\ qw q k ++ of_id mid k b = [] /\
        (forall j, j <> k -> qw (s_queues s') j = qw q j ++ of_id mid j b) /\ exists lost, lost ++ List.concat (s_pending s') = x
    | _ => False
    end.
  (** decoding [b1] first, none of it for the reader *)
  Lemma step_after ab q q' b1 b2 o : q k = None -> grown q q' b1 -> step_ok ab q' b2 o -> step_ok ab q (b1 ++ b2) o.
  Proof.
    intros Hq (G1 & G2 & G3 & G4). assert (Eq : qw q k = []) by (unfold qw; now rewrite Hq). assert (Eq' : qw q' k = []) by (unfold qw; now rewrite G2).
    assert (Eo : forall j, of_id mid j (b1 ++ b2) = of_id mid j b1 ++ of_id mid j b2) by (intros j; apply filter_app).
    destruct o as [m g' s'|s'|m s'|r s'|]; cbn [step_ok]; auto.
    - intros (H1 & H2 & H3 & c1 & c2 & -> & H4 & H5 & H6). split; [exact H1|]. split; [exact H2|]. split; [exact H3|]. exists (b1 ++ c1), c2. split; [now rewrite app_assoc|].
      split; [rewrite H4, Eo, Eq, Eq', G3; reflexivity|]. split; [|exact H6]. intros j Hj. rewrite H5, G4 by exact Hj. unfold of_id. now rewrite filter_app, <- app_assoc.
    - intros (H1 & H2 & H3 & H4 & H5 & H6 & H7). split; [exact H1|]. split; [exact H2|]. split; [exact H3|]. split; [exact H4|]. split; [rewrite Eo, Eq, G3; rewrite Eq' in H5; exact H5|].
      split; [|exact H7]. intros j Hj. rewrite H6, G4, Eo by exact Hj. now rewrite <- app_assoc.
  Qed.

  Lemma decoded ab pend q f raw b cd cu : existsb (N.eqb k) ab = false ->
    raw ++ List.concat pend = rest b -> Forall fine b -> qtidy q -> q k = None ->
    (forall q' f' b2, (exists b1, b = b1 ++ b2) -> List.concat pend = rest b2 -> qtidy q' -> q' k = None -> step_ok ab q' b2 (cd q' f')) ->
    (forall q' f' raw' b2, (exists b1, b = b1 ++ b2) -> raw' ++ List.concat pend = rest b2 -> List.concat pend <> [] -> qtidy q' -> q' k = None -> step_ok ab q' b2 (cu q' f' raw')) ->
    step_ok ab q b
      (match decode_loop mid dec (List.length raw) k q f raw with
       | DYield m q' f' raw' => Yield m (mk_gen k InDecode raw') (mk_sock q' f' pend ab)
       | DUnsolicited m q' f' => Unsolicited m (mk_sock q' f' pend ab)
       | DDone q' f' => cd q' f'
       | DUnder q' f' raw' => cu q' f' raw'
       | DFuel => NoFuel
       end).
  Proof.
    intros Hab E Hb Ht Hq Hd Hu'. pose proof (loop_says (List.length raw) q f raw (List.concat pend) b (le_n _) E Hb Ht Hq) as L.
    assert (Eq : qw q k = []) by (unfold qw; now rewrite Hq).
    destruct (decode_loop mid dec (List.length raw) k q f raw) as [m q' f' r'|m q' f'|q' f'|q' f' r'|].
    - destruct L as (b1 & b2 & -> & Hm & (G1 & G2 & G3 & G4) & E2). cbn [step_ok s_abandoned s_queues s_pending g_raw].
      split; [reflexivity|]. split; [exact G1|]. split; [split; [reflexivity|exact G2]|]. exists (b1 ++ [m]), b2. split; [now rewrite <- app_assoc|].
      assert (E3 : qw q' k = []) by (unfold qw; now rewrite G2).
      split; [rewrite Eq, E3; replace (of_id mid k (b1 ++ m :: b2)) with (of_id mid k b1 ++ of_id mid k (m :: b2)) by (symmetry; apply filter_app); rewrite G3, (of_id_cons_same m b2 k Hm); reflexivity|].
      split; [|exact E2]. intros j Hj. rewrite G4. f_equal. unfold of_id. rewrite filter_app. cbn [List.filter]. destruct (N.eqb_spec (mid m) j); [congruence|now rewrite app_nil_r].
    - destruct L as (-> & (G1 & G2 & G3 & G4) & L). cbn [step_ok s_abandoned s_queues s_pending]. split; [reflexivity|]. split; [reflexivity|]. split; [exact G1|]. split; [exact G2|].
      split; [now rewrite Eq, G3|]. split; [intros j _; apply G4|exact L].
    - destruct L as (b1 & b2 & -> & G & E2). apply step_after with q'; [exact Hq|exact G|]. apply Hd; [eauto|exact E2|apply G|apply G].
    - destruct L as (b1 & b2 & -> & G & E2 & Hne). apply step_after with q'; [exact Hq|exact G|]. apply Hu'; [eauto|exact E2|exact Hne|apply G|apply G].
    - contradiction.
  Qed.
  Lemma rest_nonempty b : Forall fine b -> rest b <> [].
  Proof.
    destruct Hc as (Hne & _). intros Hb. unfold rest. intros E. apply app_eq_nil in E as [_ E]. apply app_eq_nil in E as [E _]. exact (Hne u Hg E).
  Qed.
  Lemma Forall_suffix (b b1 b2 : list M) : b = b1 ++ b2 -> Forall fine b -> Forall fine b2.
  Proof. intros -> H. now apply Forall_app in H. Qed.
  Lemma top_says ab : existsb (N.eqb k) ab = false -> forall pend flush q f raw b,
    raw ++ List.concat pend = rest b -> Forall fine b -> qtidy q ->
    (flush = true -> raw = []) -> (flush = false -> q k = None) -> List.concat pend <> [] ->
    step_ok ab q b (top mid dec pend ab k flush q f raw).
  Proof.
    intros Hab. induction pend as [|c pend IH]; intros flush q f raw b E Hb Ht H1 H2 Hne; [contradiction|].
    cbn [top]. destruct (if flush then flush_one q k else None) as [[[m d] q']|] eqn:Ef.
    - destruct flush; [|discriminate]. specialize (H1 eq_refl). subst raw. unfold flush_one in Ef.
      destruct (q k) as [[d0 [|m0 l]]|] eqn:Eq; [discriminate| |discriminate].
      assert (T : m0 = m /\ d0 = d /\ qtidy q' /\ qw q' k = l /\ (q' k = None \/ exists l', q' k = Some (d, l')) /\ forall j, j <> k -> q' j = q j).
      { destruct l as [|m1 l]; injection Ef as <- <- <-; (split; [reflexivity|]; split; [reflexivity|]; split; [|split; [unfold qw, qset; now rewrite N.eqb_refl|split]]).
        - intros j d'. unfold qset. destruct (N.eqb_spec j k); [discriminate|apply Ht].
        - left. unfold qset. now rewrite N.eqb_refl.
        - intros j Hj. unfold qset. now destruct (N.eqb_spec j k).
        - intros j d'. unfold qset. destruct (N.eqb_spec j k); [discriminate|apply Ht].
        - right. exists (m1 :: l). unfold qset. now rewrite N.eqb_refl.
        - intros j Hj. unfold qset. now destruct (N.eqb_spec j k). }
      destruct T as (-> & -> & T1 & T2 & T3 & T4). cbn [step_ok s_abandoned s_queues s_pending].
      split; [reflexivity|]. split; [exact T1|]. split; [split; [reflexivity|split; [reflexivity|exact T3]]|].
      exists [], b. split; [reflexivity|]. split; [rewrite T2; unfold qw; now rewrite Eq|]. split; [|exact E].
      intros j Hj. unfold qw. rewrite T4 by exact Hj. now rewrite app_nil_r.
    - assert (Eq : q k = None).
      { destruct flush; [|now apply H2]. unfold flush_one in Ef. destruct (q k) as [[d [|m [|m1 l]]]|] eqn:Eq; [now apply Ht in Eq|discriminate|discriminate|reflexivity]. }
      rewrite Hab. apply decoded; auto; [cbn [List.concat] in E; now rewrite <- app_assoc| |].
      + intros q' f' b2 (b1 & ->) E2 T' Q'. assert (Hb2 : Forall fine b2) by (apply Forall_app in Hb; tauto). apply IH; auto. rewrite E2. now apply rest_nonempty.
      + intros q' f' raw' b2 (b1 & ->) E2 Hne' T' Q'. assert (Hb2 : Forall fine b2) by (apply Forall_app in Hb; tauto). apply IH; auto. discriminate.
  Qed.
  Lemma next_says ab g q f pend b : existsb (N.eqb k) ab = false -> ready g q ->
    g_raw g ++ List.concat pend = rest b -> Forall fine b -> qtidy q -> step_ok ab q b (gen_next mid dec g (mk_sock q f pend ab)).
  Proof.
    intros Hab [Hw Hr] E Hb Ht. unfold gen_next. rewrite Hw. destruct (g_pc g) as [|d|].
    - rewrite Hr in *. apply top_says; auto; [discriminate|]. intros C. rewrite C in E. now apply (rest_nonempty b Hb).
    - destruct Hr as [Hraw Hq]. rewrite Hraw in *. assert (Hne : List.concat pend <> []) by (intros C; rewrite C in E; now apply (rest_nonempty b Hb)).
      destruct Hq as [Hq|[l Hq]]; rewrite Hq; [|rewrite Nat.eqb_refl]; apply top_says; auto; discriminate.
    - apply decoded; auto.
      + intros q' f' b2 (b1 & ->) E2 T' Q'. assert (Hb2 : Forall fine b2) by (apply Forall_app in Hb; tauto). apply top_says; auto. rewrite E2. now apply rest_nonempty.
      + intros q' f' raw' b2 (b1 & ->) E2 Hne' T' Q'. assert (Hb2 : Forall fine b2) by (apply Forall_app in Hb; tauto). apply top_says; auto. discriminate.
  Qed.

  Lemma until ab n : existsb (N.eqb k) ab = false -> forall g q f pend b, ready g q -> g_raw g ++ List.concat pend = rest b -> Forall fine b -> qtidy q ->
    List.length (qw q k ++ of_id mid k b) < n ->
    exists s', read_until_notice mid dec n g (mk_sock q f pend ab) = Some (qw q k ++ of_id mid k b, u, s') /\
      s_abandoned s' = ab /\ qtidy (s_queues s') /\ s_queues s' k = None /\ (forall j, j <> k -> qw (s_queues s') j = qw q j ++ of_id mid j b) /\
      exists lost, lost ++ List.concat (s_pending s') = x.
  Proof.
    intros Hab. induction n as [|n IH]; intros g q f pend b Hr E Hb Ht Hn; [lia|]. cbn [read_until_notice].
    pose proof (next_says ab g q f pend b Hab Hr E Hb Ht) as N. destruct (gen_next mid dec g (mk_sock q f pend ab)) as [m g' [q' f' pend' ab']|s'|m s'|r s'|]; cbn [step_ok s_abandoned s_queues s_pending] in N; try contradiction.
    - destruct N as (-> & T' & R' & b1 & b2 & -> & E1 & E2 & E3). apply Forall_app in Hb as [Hb1 Hb2]. rewrite <- E1 in Hn |- *. cbn [List.length] in Hn.
      destruct (IH g' q' f' pend' b2 R' E3 Hb2 T' ltac:(lia)) as (s'' & -> & I1 & I2 & I3 & I4 & I5). exists s''. split; [reflexivity|]. split; [exact I1|]. split; [exact I2|]. split; [exact I3|].
      split; [|exact I5]. intros j Hj. rewrite I4, E2 by exact Hj. unfold of_id. now rewrite filter_app, <- app_assoc.
    - destruct N as (-> & N1 & N2 & N3 & N4 & N5 & N6). rewrite N4. exists s'. auto 10.
  Qed.
End P.
