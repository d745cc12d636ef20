(** * Proofs about security layers *)
From Verif Require Import PyBase Model_Net Spec_Net Proofs_Net Model_Layer Spec_Layer.

(** ** With a layer that opens all that arrives it is as without *)
Section Same.
  Context {M L : Type} (mid : M -> N) (dec : str -> option (M * str)) (unwrap : L -> list N -> res (list N) * L).
  Definition same_sock (s : @sock M) (t : @lsock M L) : Prop :=
    s_queues s = l_queues t /\ s_fresh s = l_fresh t /\ s_abandoned s = l_abandoned t /\ opens unwrap (l_sasl t) (l_pending t) (s_pending s).
  Definition same_outcome (o : @outcome M) (p : @loutcome M L) : Prop :=
    match o, p with
    | Yield m g s, LYield m' g' t => m = m' /\ g = g' /\ same_sock s t
    | Stop s, LStop t => same_sock s t
    | Unsolicited m s, LUnsolicited m' t => m = m' /\ same_sock s t
    | Blocked raw s, LBlocked raw' t => raw = raw' /\ same_sock s t
    | NoFuel, LNoFuel => True
    | _, _ => False
    end.
  Lemma top_same chunks ps sasl : opens unwrap sasl chunks ps -> forall ab want flush q f raw,
    same_outcome (top mid dec ps ab want flush q f raw) (ltop mid dec unwrap chunks ab want flush q f raw sasl).
  Proof.
    induction 1 as [sasl|c cs ps H IH|l c p l' cs ps E H IH]; intros ab want flush q f raw; cbn [top ltop].
    - destruct (if flush then flush_one q want else None) as [[[m d] q']|]; [repeat split; constructor|].
      destruct (existsb (N.eqb want) ab); repeat split; constructor.
    - destruct (if flush then flush_one q want else None) as [[[m d] q']|]; [repeat split; now constructor|].
      destruct (existsb (N.eqb want) ab); [repeat split; now constructor|]. cbn [unwrapped].
      destruct (decode_loop mid dec _ want q f (raw ++ c)) as [m q' f' raw'|m q' f'|q' f'|q' f' raw'|]; try apply IH; repeat split; auto.
    - destruct (if flush then flush_one q want else None) as [[[m d] q']|]; [repeat split; now apply OpensSome with l'|].
      destruct (existsb (N.eqb want) ab); [repeat split; now apply OpensSome with l'|]. cbn [unwrapped]. rewrite E.
      destruct (decode_loop mid dec _ want q f (raw ++ p)) as [m q' f' raw'|m q' f'|q' f'|q' f' raw'|]; try apply IH; repeat split; auto.
  Qed.
  Lemma next_same g s t : same_sock s t -> same_outcome (gen_next mid dec g s) (lgen_next mid dec unwrap g t).
  Proof.
    destruct s as [q f ps ab], t as [q' f' chunks ab' sasl]. intros (H1 & H2 & H3 & H4). cbn in H1, H2, H3, H4. subst q' f' ab'.
    unfold gen_next, lgen_next. destruct (g_pc g) as [|d|].
    - now apply top_same.
    - destruct (q (g_want g)) as [[d' l]|]; [destruct (Nat.eqb d d')|]; now apply top_same.
    - destruct (decode_loop mid dec _ (g_want g) q f (g_raw g)) as [m q' f' raw'|m q' f'|q' f'|q' f' raw'|]; try (now apply top_same); repeat split; auto.
  Qed.
  Definition same_world (w : @world M) (v : @lworld M L) : Prop := same_sock (w_sock w) (lw_sock v) /\ w_gens w = lw_gens v /\ w_log w = lw_log v.
  Definition same_option (a : option (@world M)) (b : option (@lworld M L)) : Prop :=
    match a, b with Some w, Some v => same_world w v | None, None => True | _, _ => False end.
  Lemma step_same w v e : same_world w v -> same_option (wstep mid dec w e) (lwstep mid dec unwrap v e).
  Proof.
    destruct w as [ws wg wl], v as [vs vg vl]. intros (H1 & H2 & H3). cbn in H1, H2, H3. subst vg vl.
    destruct e as [i want|i|i]; cbn [wstep lwstep w_gens lw_gens w_sock lw_sock w_log lw_log].
    - split; [exact H1|split; reflexivity].
    - destruct (wg i) as [g|]; [|exact I]. pose proof (next_same g _ _ H1) as N.
      destruct (gen_next mid dec g ws), (lgen_next mid dec unwrap g vs); try contradiction; cbn in N |- *; try exact I.
      + destruct N as (-> & -> & N). split; [exact N|split; reflexivity].
      + split; [exact N|split; reflexivity].
      + destruct N as (-> & N). split; [exact N|split; reflexivity].
    - split; [exact H1|split; reflexivity].
  Qed.
  Lemma fold_none {A B} (f : A -> B -> option A) es : fold_left (fun ow e => match ow with Some w => f w e | None => None end) es None = None.
  Proof. induction es as [|e es IH]; [reflexivity|exact IH]. Qed.
  Lemma run_same es : forall w v, same_world w v -> same_option (run mid dec w es) (lrun mid dec unwrap v es).
  Proof.
    induction es as [|e es IH]; intros w v H; [exact H|]. unfold run, lrun in *. cbn [fold_left]. pose proof (step_same w v e H) as St.
    destruct (wstep mid dec w e) as [w'|], (lwstep mid dec unwrap v e) as [v'|]; try contradiction; [now apply IH|]. rewrite !fold_none. exact I.
  Qed.
End Same.

(** ** Layers that protect integrity *)
Lemma nodup_app {A} (a b : list A) : NoDup a -> NoDup b -> (forall x, In x a -> ~ In x b) -> NoDup (a ++ b).
Proof.
  induction a as [|x a IH]; intros Ha Hb H; [exact Hb|]. inversion Ha as [|? ? A1 A2]; subst. cbn [app]. constructor.
  - intros I. apply in_app_iff in I as [I|I]; [contradiction|]. exact (H x (or_introl eq_refl) I).
  - apply IH; auto. intros y I. apply H. now right.
Qed.
Lemma nodup_app_inv {A} (a b : list A) : NoDup (a ++ b) -> NoDup a /\ NoDup b /\ forall x, In x a -> ~ In x b.
Proof.
  induction a as [|x a IH]; cbn [app]; intros H; [split; [constructor|]; split; [exact H|intros x []]|]. inversion H as [|? ? H1 H2]; subst. destruct (IH H2) as (I1 & I2 & I3).
  split; [constructor; [intros J; apply H1, in_app_iff; now left|exact I1]|]. split; [exact I2|]. intros y [<-|J]; [|now apply I3]. intros K. apply H1, in_app_iff. now right.
Qed.
Section Protect.
  Context {M L : Type} (mid : M -> N) (dec : str -> option (M * str)) (enc : M -> list N) (good : M -> Prop).
  Context (unwrap : L -> list N -> res (list N) * L) (guards : L -> list (list M) -> Prop).
  Context (HC : codec_ok_on good enc dec) (HP : protects unwrap enc guards).
  Context (sent : list M) (Hgood : forall m, In m sent -> good m) (Hnd : NoDup sent).

  (** where messages are: [ms] in the raw octets of a reader, [X]: elsewhere outside the queues, [acc]: accepted at all *)
  Definition held (q : @queues M) (ms : list M) (X : M -> Prop) (acc : list M) : Prop :=
    NoDup ms /\ (forall m, In m ms -> ~ X m /\ In m acc) /\
    (forall k d l, q k = Some (d, l) -> NoDup l /\ forall m, In m l -> mid m = k /\ ~ X m /\ ~ In m ms /\ In m acc) /\
    (forall m, X m -> In m acc).
  Definition plus (X : M -> Prop) (m : M) : M -> Prop := fun y => X y \/ y = m.

  Lemma held_none q ms X acc : held q ms X acc -> held q [] X acc.
  Proof.
    intros (A & B & C & D). split; [constructor|]. split; [intros m []|]. split; [|exact D]. intros k d l E. destruct (C k d l E) as [C1 C2]. split; [exact C1|].
    intros m I. destruct (C2 m I) as (C3 & C4 & _ & C5). repeat split; auto.
  Qed.
  Lemma held_enqueue q f m ms X acc q' f' : held q (m :: ms) X acc -> enqueue mid q f m = (q', f') -> held q' ms X acc.
  Proof.
    intros (A & B & C & D) E. inversion A as [|? ? A1 A2]; subst. split; [exact A2|]. split; [intros y I; apply B; now right|]. split; [|exact D].
    assert (Hl : forall k d l, q k = Some (d, l) -> NoDup l /\ forall y, In y l -> mid y = k /\ ~ X y /\ ~ In y (m :: ms) /\ In y acc) by exact C.
    unfold enqueue in E. destruct (q (mid m)) as [[d0 l0]|] eqn:Eq; injection E as <- <-; intros k d l E; unfold qset in E; destruct (N.eqb_spec k (mid m)) as [->|Hk].
    - injection E as <- <-. destruct (C _ _ _ Eq) as [C1 C2]. split.
      + apply nodup_app; [exact C1|constructor; [intros []|constructor]|]. intros y I [<-|[]]. destruct (C2 m I) as (_ & _ & C3 & _). apply C3. now left.
      + intros y I. apply in_app_iff in I as [I|[<- |[]]].
        * destruct (C2 y I) as (C3 & C4 & C5 & C6). repeat split; auto. intros J. apply C5. now right.
        * destruct (B m (or_introl eq_refl)). repeat split; auto.
    - destruct (C k d l E) as [C1 C2]. split; [exact C1|]. intros y I. destruct (C2 y I) as (C3 & C4 & C5 & C6). repeat split; auto. intros J. apply C5. now right.
    - injection E as <- <-. split; [constructor; [intros []|constructor]|]. intros y [<-|[]]. destruct (B m (or_introl eq_refl)). repeat split; auto.
    - destruct (C k d l E) as [C1 C2]. split; [exact C1|]. intros y I. destruct (C2 y I) as (C3 & C4 & C5 & C6). repeat split; auto. intros J. apply C5. now right.
  Qed.
  Lemma held_deliver q m ms X acc : held q (m :: ms) X acc -> In m acc /\ ~ X m /\ held q ms (plus X m) acc.
  Proof.
    intros (A & B & C & D). inversion A as [|? ? A1 A2]; subst. destruct (B m (or_introl eq_refl)) as [B1 B2]. split; [exact B2|]. split; [exact B1|].
    split; [exact A2|]. split; [|split].
    - intros y I. destruct (B y (or_intror I)) as [B3 B4]. split; [|exact B4]. intros [J| ->]; contradiction.
    - intros k d l E. destruct (C k d l E) as [C1 C2]. split; [exact C1|]. intros y I. destruct (C2 y I) as (C3 & C4 & C5 & C6). repeat split; auto.
      + intros [J| ->]; [contradiction|]. apply C5. now left.
      + intros J. apply C5. now right.
    - intros y [J| ->]; auto.
  Qed.
  Lemma held_flush q want m d q' ms X acc : held q ms X acc -> flush_one q want = Some (m, d, q') ->
    mid m = want /\ In m acc /\ ~ X m /\ held q' ms (plus X m) acc.
  Proof.
    intros (A & B & C & D) E.
    assert (K : exists l', q want = Some (d, m :: l') /\ q' = qset q want (match l' with [] => None | _ => Some (d, l') end)).
    { unfold flush_one in E. destruct (q want) as [[d0 [|m0 [|m1 l]]]|] eqn:Eq; try discriminate; injection E as <- <- <-; eexists; split; reflexivity. }
    destruct K as (l' & Eq & Eq'). destruct (C _ _ _ Eq) as [C1 C2]. destruct (C2 m (or_introl eq_refl)) as (C3 & C4 & C5 & C6). inversion C1 as [|? ? N1 N2]; subst.
    split; [reflexivity|]. split; [exact C6|]. split; [exact C4|]. split; [exact A|]. split; [|split].
    - intros y I. destruct (B y I) as [B1 B2]. split; [|exact B2]. intros [J| ->]; contradiction.
    - intros k d1 l1 E1. unfold qset in E1. destruct (N.eqb_spec k (mid m)) as [->|Hk].
      + destruct l' as [|y0 l']; [discriminate|]. injection E1 as <- <-. split; [exact N2|]. intros y I. destruct (C2 y (or_intror I)) as (F1 & F2 & F3 & F4).
        repeat split; auto. intros [J| ->]; [contradiction|]. contradiction.
      + destruct (C k d1 l1 E1) as [F0 F1]. split; [exact F0|]. intros y I. destruct (F1 y I) as (F2 & F3 & F4 & F5). repeat split; auto. intros [J| ->]; congruence.
    - intros y [J| ->]; auto.
  Qed.

  Lemma decode_held ms : forall n want q f X acc, (forall m, In m ms -> good m) -> List.length (stream enc ms) <= n -> held q ms X acc ->
    match decode_loop mid dec n want q f (stream enc ms) with
    | DYield m q' _ raw' => mid m = want /\ In m acc /\ ~ X m /\ exists ms', raw' = stream enc ms' /\ held q' ms' (plus X m) acc
    | DUnsolicited _ q' _ | DDone q' _ => held q' [] X acc
    | _ => False
    end.
  Proof.
    destruct HC as (HC1 & HC2 & _). induction ms as [|m ms IH]; intros n want q f X acc Hg Hn H; [destruct n; exact H|].
    assert (Gm : good m) by (apply Hg; now left).
    assert (Es : stream enc (m :: ms) = enc m ++ stream enc ms) by reflexivity. rewrite Es in *.
    destruct (enc m ++ stream enc ms) as [|x r] eqn:E; [apply app_eq_nil in E as [E _]; exfalso; exact (HC1 m Gm E)|].
    destruct n as [|n]; [cbn [List.length] in Hn; lia|]. cbn [decode_loop]. rewrite <- E, HC2 by exact Gm.
    assert (Hl : List.length (stream enc ms) <= n).
    { pose proof (HC1 m Gm) as Hne. apply (f_equal (@List.length N)) in E. rewrite app_length in E. cbn [List.length] in E, Hn. destruct (enc m); [contradiction|]. cbn [List.length] in E. lia. }
    destruct (N.eqb_spec want (mid m)) as [->|Hw].
    - destruct (held_deliver _ _ _ _ _ H) as (D1 & D2 & D3). split; [reflexivity|]. split; [exact D1|]. split; [exact D2|]. exists ms. auto.
    - destruct (N.eqb (mid m) 0); [now apply held_none in H|]. destruct (enqueue mid q f m) as [q' f'] eqn:Eq. apply IH; [intros y I; apply Hg; now right|exact Hl|].
      exact (held_enqueue _ _ _ _ _ _ _ _ H Eq).
  Qed.

  Definition layer_ok (sasl : option L) (acc : list M) : Prop := exists l bufs, sasl = Some l /\ guards l bufs /\ sent = acc ++ List.concat bufs.
  Definition next_held (want : N) (X : M -> Prop) (o : @loutcome M L) : Prop :=
    match o with
    | LYield m g' s' => mid m = want /\ g_want g' = want /\ ~ X m /\
        exists acc ms, layer_ok (l_sasl s') acc /\ In m acc /\ g_raw g' = stream enc ms /\ held (l_queues s') ms (plus X m) acc
    | LStop s' | LUnsolicited _ s' | LRaise _ s' => exists acc, layer_ok (l_sasl s') acc /\ held (l_queues s') [] X acc
    | _ => True
    end.
  Lemma stream_app a b : stream enc (a ++ b) = stream enc a ++ stream enc b.
  Proof. unfold stream. rewrite map_app. apply concat_app. Qed.
  Lemma held_good q ms X acc sasl : held q ms X acc -> layer_ok sasl acc -> forall m, In m ms -> good m.
  Proof. intros (_ & B & _) (l & bufs & _ & _ & E) m I. apply Hgood. rewrite E. apply in_app_iff. left. now apply B. Qed.
  Lemma held_more q ms X acc b bufs : held q ms X acc -> sent = acc ++ List.concat (b :: bufs) -> held q (ms ++ b) X (acc ++ b).
  Proof.
    intros (A & B & C & D) E. cbn [List.concat] in E. rewrite app_assoc in E.
    assert (Nd : NoDup ((acc ++ b) ++ List.concat bufs)) by (rewrite <- E; exact Hnd).
    apply nodup_app_inv in Nd as (Nd & _). apply nodup_app_inv in Nd as (_ & Nb & Dis).
    split; [|split; [|split]].
    - apply nodup_app; auto. intros y I J. now apply (Dis y); [apply B|].
    - intros y I. apply in_app_iff in I as [I|I].
      + destruct (B y I). split; [auto|apply in_app_iff; now left].
      + split; [|apply in_app_iff; now right]. intros J. exact (Dis y (D y J) I).
    - intros k d l Eq. destruct (C k d l Eq) as [C1 C2]. split; [exact C1|]. intros y I. destruct (C2 y I) as (C3 & C4 & C5 & C6). split; [exact C3|]. split; [exact C4|]. split.
      + intros J. apply in_app_iff in J as [J|J]; [contradiction|exact (Dis y C6 J)].
      + apply in_app_iff. now left.
    - intros y J. apply in_app_iff. left. auto.
  Qed.

  Lemma top_held pend : forall ab want flush q f ms X acc sasl, layer_ok sasl acc -> held q ms X acc ->
    next_held want X (ltop mid dec unwrap pend ab want flush q f (stream enc ms) sasl).
  Proof.
    induction pend as [|c pend IH]; intros ab want flush q f ms X acc sasl Hl H; cbn [ltop].
    - destruct (if flush then flush_one q want else None) as [[[m d] q']|] eqn:Ef.
      + destruct flush; [|discriminate]. destruct (held_flush _ _ _ _ _ _ _ _ H Ef) as (F1 & F2 & F3 & F4). cbn. repeat split; auto. exists acc, ms. auto.
      + destruct (existsb (N.eqb want) ab); [|exact I]. cbn. exists acc. split; [exact Hl|]. exact (held_none _ _ _ _ H).
    - destruct (if flush then flush_one q want else None) as [[[m d] q']|] eqn:Ef.
      + destruct flush; [|discriminate]. destruct (held_flush _ _ _ _ _ _ _ _ H Ef) as (F1 & F2 & F3 & F4). cbn. repeat split; auto. exists acc, ms. auto.
      + destruct (existsb (N.eqb want) ab); [cbn; exists acc; split; [exact Hl|exact (held_none _ _ _ _ H)]|].
        destruct Hl as (l & bufs & -> & Hg & Es). cbn [unwrapped]. pose proof (HP l bufs c Hg) as P. destruct (unwrap l c) as [[p|e] l'].
        * assert (K : exists acc' ms', p = stream enc ms' /\ layer_ok (Some l') acc' /\ held q (ms ++ ms') X acc').
          { destruct P as [[-> P]|(b & bufs' & -> & -> & P)].
            - exists acc, []. rewrite app_nil_r. split; [reflexivity|]. split; [|exact H]. exists l', bufs. auto.
            - exists (acc ++ b), b. split; [reflexivity|]. split; [|now apply held_more with bufs']. exists l', bufs'. split; [reflexivity|]. split; [exact P|].
              rewrite Es. cbn [List.concat]. apply app_assoc. }
          destruct K as (acc' & ms' & -> & Hl' & H'). rewrite <- stream_app.
          pose proof (decode_held (ms ++ ms') (List.length (stream enc (ms ++ ms'))) want q f X acc' (held_good _ _ _ _ _ H' Hl') (le_n _) H') as D.
          destruct (decode_loop mid dec _ want q f (stream enc (ms ++ ms'))) as [m q' f' raw'|m q' f'|q' f'|q' f' raw'|]; try contradiction.
          -- destruct D as (D1 & D2 & D3 & ms1 & -> & D4). cbn. repeat split; auto. exists acc', ms1. auto.
          -- cbn. exists acc'. auto.
          -- apply (IH ab want true q' f' [] X acc' (Some l') Hl' D).
        * cbn. exists acc. split; [exists l', bufs; auto|exact (held_none _ _ _ _ H)].
  Qed.
  Lemma next_held_ok g s ms X acc : layer_ok (l_sasl s) acc -> g_raw g = stream enc ms -> held (l_queues s) ms X acc ->
    next_held (g_want g) X (lgen_next mid dec unwrap g s).
  Proof.
    destruct s as [q f pend ab sasl]. cbn [l_sasl l_queues]. intros Hl Er H. unfold lgen_next. rewrite !Er. destruct (g_pc g) as [|d|].
    - now apply top_held with acc.
    - destruct (q (g_want g)) as [[d' l]|]; [destruct (Nat.eqb d d')|]; now apply top_held with acc.
    - pose proof (decode_held ms (List.length (stream enc ms)) (g_want g) q f X acc (held_good _ _ _ _ _ H Hl) (le_n _) H) as D.
      destruct (decode_loop mid dec _ (g_want g) q f (stream enc ms)) as [m q' f' raw'|m q' f'|q' f'|q' f' raw'|]; try contradiction.
      + destruct D as (D1 & D2 & D3 & ms1 & -> & D4). cbn. repeat split; auto. exists acc, ms1. auto.
      + cbn. exists acc. auto.
      + apply (top_held pend ab (g_want g) true q' f' [] X acc sasl Hl D).
  Qed.

  (** ** Histories *)
  Definition elsewhere (log : list (N * M)) (own : nat -> list M) (i : nat) : M -> Prop :=
    fun m => In m (map snd log) \/ exists j, j <> i /\ In m (own j).
  Definition wheld (w : @lworld M L) : Prop :=
    exists own acc, layer_ok (l_sasl (lw_sock w)) acc /\
      (forall i g, lw_gens w i = Some g -> g_raw g = stream enc (own i)) /\
      (forall i, held (l_queues (lw_sock w)) (own i) (elsewhere (lw_log w) own i) acc) /\
      NoDup (map snd (lw_log w)) /\ (forall k m, In (k, m) (lw_log w) -> mid m = k).
  Definition oset (own : nat -> list M) (i : nat) (ms : list M) : nat -> list M := fun j => if Nat.eqb j i then ms else own j.


  Lemma held_iff q ms X Y acc : (forall m, X m <-> Y m) -> held q ms X acc -> held q ms Y acc.
  Proof.
    intros E (A & B & C & D). split; [exact A|]. split; [intros m I; destruct (B m I); split; [rewrite <- E|]; assumption|]. split; [|intros m; rewrite <- E; auto].
    intros k d l H. destruct (C k d l H) as [C1 C2]. split; [exact C1|]. intros m I. destruct (C2 m I) as (C3 & C4 & C5 & C6). rewrite <- E. auto.
  Qed.
  Lemma oset_same own i ms : oset own i ms i = ms.
  Proof. unfold oset. now rewrite Nat.eqb_refl. Qed.
  Lemma oset_other own i ms j : j <> i -> oset own i ms j = own j.
  Proof. intros H. unfold oset. now rewrite (proj2 (Nat.eqb_neq _ _) H). Qed.
  Lemma elsewhere_set log own i ms m : elsewhere log (oset own i ms) i m <-> elsewhere log own i m.
  Proof. unfold elsewhere. split; intros [H|(j & Hj & H)]; auto; right; exists j; (split; [exact Hj|]); [rewrite oset_other in H|rewrite oset_other]; auto. Qed.
  Lemma held_other q q' acc acc' own i ms' log log' j : j <> i ->
    held q (own j) (elsewhere log own j) acc -> held q' ms' (elsewhere log' own i) acc' ->
    (forall y, In y (map snd log') -> In y (map snd log) \/ ~ elsewhere log own i y) ->
    held q' (own j) (elsewhere log' (oset own i ms') j) acc'.
  Proof.
    intros Hj (A & B & _ & _) (A' & B' & C' & D') Hlog.
    assert (Hown : forall y, In y (own j) -> elsewhere log' own i y) by (intros y I; right; exists j; auto).
    split; [exact A|]. split; [|split].
    - intros m I. split; [|apply D'; auto]. intros [J|(j' & Hj' & J)].
      + destruct (Hlog m J) as [K|K]; [apply (B m I); now left|apply K; right; exists j; auto].
      + destruct (Nat.eq_dec j' i) as [->|Hi].
        * rewrite oset_same in J. apply (B' m J). auto.
        * rewrite oset_other in J by exact Hi. apply (B m I). right. exists j'. auto.
    - intros k d l E. destruct (C' k d l E) as [C1 C2]. split; [exact C1|]. intros y I. destruct (C2 y I) as (C3 & C4 & C5 & C6). split; [exact C3|]. split; [|split; [|exact C6]].
      + intros [J|(j' & Hj' & J)]; [apply C4; now left|]. destruct (Nat.eq_dec j' i) as [->|Hi].
        * rewrite oset_same in J. contradiction.
        * rewrite oset_other in J by exact Hi. apply C4. right. exists j'. auto.
      + intros J. apply C4, Hown, J.
    - intros y [J|(j' & Hj' & J)]; [apply D'; now left|]. destruct (Nat.eq_dec j' i) as [->|Hi].
      + rewrite oset_same in J. now apply B'.
      + rewrite oset_other in J by exact Hi. apply D'. right. exists j'. auto.
  Qed.

  (** all readers, when reader i has got on to hold [ms'] *)
  Lemma held_all q q' acc acc' own i ms' log log' :
    (forall j, held q (own j) (elsewhere log own j) acc) -> held q' ms' (elsewhere log' own i) acc' ->
    (forall y, In y (map snd log') -> In y (map snd log) \/ ~ elsewhere log own i y) ->
    forall j, held q' (oset own i ms' j) (elsewhere log' (oset own i ms') j) acc'.
  Proof.
    intros H H' Hlog j. destruct (Nat.eq_dec j i) as [->|Hj].
    - rewrite oset_same. apply (held_iff _ _ (elsewhere log' own i)); [|exact H']. intros m. symmetry. apply elsewhere_set.
    - rewrite oset_other by exact Hj. now apply held_other with q acc log.
  Qed.
  Lemma gens_set (gens : nat -> option gen) own i v ms' :
    (forall j g, gens j = Some g -> g_raw g = stream enc (own j)) -> (forall g, v = Some g -> g_raw g = stream enc ms') ->
    forall j g, gset gens i v j = Some g -> g_raw g = stream enc (oset own i ms' j).
  Proof. intros H Hv j g E. unfold gset, oset in *. destruct (Nat.eqb j i); auto. Qed.

  Lemma step_held w e w' : wheld w -> lwstep mid dec unwrap w e = Some w' -> wheld w'.
  Proof.
    destruct w as [s gens log]. intros (own & acc & Hl & Hg & Hh & Hn & Hid). cbn [lw_sock lw_gens lw_log] in *.
    assert (Hsame : forall y, In y (map snd log) -> In y (map snd log) \/ ~ elsewhere log own 0 y) by auto.
    destruct e as [i want|i|i]; cbn [lwstep lw_sock lw_gens lw_log].
    - intros E. injection E as <-. exists (oset own i []), acc. cbn [lw_sock lw_gens lw_log]. split; [exact Hl|]. split; [|split; [|auto]].
      + apply gens_set; [exact Hg|]. intros g E. injection E as <-. reflexivity.
      + apply held_all with (l_queues s) acc log; [exact Hh| |auto]. exact (held_none _ _ _ _ (Hh i)).
    - destruct (gens i) as [g|] eqn:Ei; [|discriminate]. pose proof (next_held_ok g s (own i) (elsewhere log own i) acc Hl (Hg i g Ei) (Hh i)) as N.
      assert (Fin : forall s', (exists acc', layer_ok (l_sasl s') acc' /\ held (l_queues s') [] (elsewhere log own i) acc') -> wheld (mk_lworld s' (gset gens i None) log)).
      { intros s' (acc' & Hl' & Hh'). exists (oset own i []), acc'. cbn [lw_sock lw_gens lw_log]. split; [exact Hl'|]. split; [|split; [|auto]].
        - apply gens_set; [exact Hg|discriminate].
        - apply held_all with (l_queues s) acc log; auto. }
      destruct (lgen_next mid dec unwrap g s) as [m g' s'|s'|m s'|x s'|raw s'|]; intros E; try discriminate; injection E as <-; try (apply Fin; exact N).
      cbn in N. destruct N as (N1 & N2 & N3 & acc' & ms' & Hl' & Hm & Er & Hh').
      exists (oset own i ms'), acc'. cbn [lw_sock lw_gens lw_log].
      assert (Elog : map snd (log ++ [(g_want g, m)]) = map snd log ++ [m]) by (rewrite map_app; reflexivity).
      split; [exact Hl'|]. split; [|split; [|split]].
      + apply gens_set; [exact Hg|]. intros g1 E1. injection E1 as <-. exact Er.
      + apply held_all with (l_queues s) acc log; [exact Hh| |].
        * apply (held_iff _ _ (plus (elsewhere log own i) m)); [|exact Hh']. intros y. unfold plus, elsewhere. rewrite Elog, in_app_iff. cbn [In]. intuition.
        * intros y. rewrite Elog, in_app_iff. cbn [In]. intros [J|[<-|[]]]; auto.
      + rewrite Elog. apply nodup_app; [exact Hn|constructor; [intros []|constructor]|]. intros y J [<-|[]]. apply N3. now left.
      + intros k y J. apply in_app_iff in J as [J|[J|[]]]; [now apply Hid|]. injection J as <- <-. exact N1.
    - intros E. injection E as <-. exists (oset own i []), acc. cbn [lw_sock lw_gens lw_log]. split; [exact Hl|]. split; [|split; [|auto]].
      + apply gens_set; [exact Hg|discriminate].
      + apply held_all with (l_queues s) acc log; [exact Hh| |auto]. exact (held_none _ _ _ _ (Hh i)).
  Qed.
  Lemma run_held es : forall w w', wheld w -> lrun mid dec unwrap w es = Some w' -> wheld w'.
  Proof.
    induction es as [|e es IH]; intros w w' H E; [injection E as <-; exact H|]. unfold lrun in *. cbn [fold_left] in E.
    destruct (lwstep mid dec unwrap w e) as [w1|] eqn:E1; [|rewrite fold_none in E; discriminate]. apply (IH w1 w'); [|exact E]. now apply step_held with w e.
  Qed.
  Lemma init_held l chunks bufs : guards l bufs -> sent = List.concat bufs -> wheld (lconnected (Some l) chunks).
  Proof.
    intros Hg E. exists (fun _ => []), []. split; [exists l, bufs; auto|]. split; [discriminate|]. split; [|split; [constructor|intros k m []]].
    intros i. split; [constructor|]. split; [intros m []|]. split; [discriminate|]. intros m [[]|(j & _ & [])].
  Qed.
End Protect.

(** ** One reader, restarted whenever the layer refuses something, gets the messages in order *)
Section Order.
  Context {M L : Type} (mid : M -> N) (dec : str -> option (M * str)) (enc : M -> list N) (good : M -> Prop).
  Context (unwrap : L -> list N -> res (list N) * L) (guards : L -> list (list M) -> Prop).
  Context (HC : codec_ok_on good enc dec) (HP : protects unwrap enc guards).
  Definition fine (m : M) : Prop := mid m <> 0%N /\ good m.
  (** [left]: what is still to come for [want] *)
  Definition reader_at (want : N) (left : list M) (g : gen) (s : @lsock M L) : Prop :=
    exists ms l bufs, g_want g = want /\ l_sasl s = Some l /\ guards l bufs /\ l_abandoned s = [] /\ wfq mid (l_queues s) /\ l_queues s want = None /\
      g_raw g = stream enc ms /\ (forall m, In m (ms ++ List.concat bufs) -> fine m) /\ left = of_id mid want (ms ++ List.concat bufs) /\
      ((g_pc g = AtStart /\ ms = []) \/ g_pc g = InDecode).
  Definition order_ok (want : N) (left : list M) (o : @loutcome M L) : Prop :=
    match o with
    | LYield m g' s' => exists left', left = m :: left' /\ reader_at want left' g' s'
    | LRaise _ s' => reader_at want left (recv_messages want) s'
    | LBlocked _ _ => True
    | _ => False
    end.
  Lemma decode_order want q f raw ms bufs l (pend : list str) : raw = stream enc ms -> wfq mid q -> q want = None -> guards l bufs ->
    (forall m, In m (ms ++ List.concat bufs) -> fine m) ->
    match decode_loop mid dec (List.length raw) want q f raw with
    | DYield m q' f' raw' => order_ok want (of_id mid want (ms ++ List.concat bufs)) (LYield m (mk_gen want InDecode raw') (mk_lsock q' f' pend [] (Some l)))
    | DDone q' _ => wfq mid q' /\ q' want = None /\ of_id mid want (ms ++ List.concat bufs) = of_id mid want (List.concat bufs)
    | _ => False
    end.
  Proof.
    intros Er Hw Hq Hg Hf.
    assert (Hz : forall x, In x ms -> okm mid good x) by (intros x I; apply Hf, in_app_iff; now left).
    assert (E0 : raw ++ [] = stream enc ms) by (rewrite app_nil_r; exact Er).
    pose proof (decode_loop_spec mid enc dec good HC (List.length raw) want q f raw [] ms (le_n _) E0 Hw Hz) as D.
    destruct (decode_loop mid dec (List.length raw) want q f raw) as [m q' f' raw'|m q' f'|q' f'|q' f' raw'|]; try contradiction.
    - destruct D as (pre & ms' & -> & Hm & Hpre & Er' & [Hw' _] & Hq'). rewrite app_nil_r in Er'. exists (of_id mid want (ms' ++ List.concat bufs)). split.
      + rewrite <- app_assoc. unfold of_id. rewrite filter_app. rewrite (of_id_none mid want pre Hpre : List.filter _ pre = []). cbn [List.filter app]. rewrite Hm, N.eqb_refl. reflexivity.
      + exists ms', l, bufs. split; [reflexivity|]. split; [reflexivity|]. split; [exact Hg|]. split; [reflexivity|]. split; [exact Hw'|]. split; [cbn; congruence|].
        split; [exact Er'|]. split; [|split; [reflexivity|now right]]. intros y J. apply Hf. rewrite <- app_assoc. apply in_app_iff. right. now right.
    - destruct D as (pre & ms' & -> & Hpre & Es & [Hw' _] & Hq'). split; [exact Hw'|]. split; [congruence|].
      assert (ms' = []) as ->.
      { destruct ms' as [|x ms']; [reflexivity|]. exfalso. destruct HC as (HC1 & _). assert (G : good x) by (apply Hf; rewrite <- app_assoc; apply in_app_iff; right; now left).
        apply (HC1 x G). rewrite stream_cons in Es. symmetry in Es. apply app_eq_nil in Es. apply Es. }
      rewrite app_nil_r, of_id_app, (of_id_none mid want pre Hpre). reflexivity.
    - destruct D as (_ & _ & _ & _ & _ & C & _). contradiction.
  Qed.
  Lemma top_order pend : forall want flush q f l bufs, wfq mid q -> q want = None -> guards l bufs -> (forall m, In m (List.concat bufs) -> fine m) ->
    order_ok want (of_id mid want (List.concat bufs)) (ltop mid dec unwrap pend [] want flush q f [] (Some l)).
  Proof.
    induction pend as [|c pend IH]; intros want flush q f l bufs Hw Hq Hg Hf; cbn [ltop];
      assert (Ef : (if flush then flush_one q want else None) = None) by (destruct flush; [unfold flush_one; now rewrite Hq|reflexivity]); rewrite Ef; cbn [existsb]; [exact I|].
    cbn [unwrapped]. pose proof (HP l bufs c Hg) as P. destruct (unwrap l c) as [[p|e] l'].
    - assert (K : exists b bufs', p = stream enc b /\ guards l' bufs' /\ List.concat bufs = b ++ List.concat bufs').
      { destruct P as [[-> P]|(b & bufs' & -> & -> & P)]; [exists [], bufs; auto|exists b, bufs'; auto]. }
      destruct K as (b & bufs' & -> & Hg' & Ec). cbn [app].
      assert (Hf' : forall m, In m (b ++ List.concat bufs') -> fine m) by (rewrite <- Ec; exact Hf).
      pose proof (decode_order want q f _ b bufs' l' pend eq_refl Hw Hq Hg' Hf') as D. rewrite Ec.
      destruct (decode_loop mid dec _ want q f (stream enc b)) as [m q' f' raw'|m q' f'|q' f'|q' f' raw'|]; try contradiction.
      + exact D.
      + destruct D as (D1 & D2 & ->). apply IH; auto. intros m J. apply Hf', in_app_iff. now right.
    - exists [], l', bufs. split; [reflexivity|]. split; [reflexivity|]. split; [exact P|]. split; [reflexivity|]. split; [exact Hw|]. split; [exact Hq|].
      split; [reflexivity|]. split; [exact Hf|]. split; [reflexivity|]. left. split; reflexivity.
  Qed.
  Lemma next_order want left g s : reader_at want left g s -> order_ok want left (lgen_next mid dec unwrap g s).
  Proof.
    destruct s as [q f pend ab sasl]. intros (ms & l & bufs & Hwant & Hs & Hg & Ha & Hw & Hq & Er & Hf & -> & Hpc). cbn in Hs, Ha, Hw, Hq. subst.
    unfold lgen_next. destruct Hpc as [[-> ->]| ->].
    - rewrite Er. apply top_order; auto.
    - pose proof (decode_order (g_want g) q f (g_raw g) ms bufs l pend Er Hw Hq Hg Hf) as D.
      destruct (decode_loop mid dec _ (g_want g) q f (g_raw g)) as [m q' f' raw'|m q' f'|q' f'|q' f' raw'|]; try contradiction; [exact D|].
      destruct D as (D1 & D2 & ->). apply top_order; auto. intros m J. apply Hf, in_app_iff. now right.
  Qed.
  Lemma reads_order n : forall want left g s, reader_at want left g s -> exists later, left = lreads mid dec unwrap n want g s ++ later.
  Proof.
    induction n as [|n IH]; intros want left g s H; cbn [lreads]; [exists left; reflexivity|]. pose proof (next_order want left g s H) as O.
    destruct (lgen_next mid dec unwrap g s) as [m g' s'|s'|m s'|e s'|raw s'|]; try contradiction; try (exists left; reflexivity).
    - destruct O as (left' & -> & O). destruct (IH want left' g' s' O) as (later & ->). exists later. reflexivity.
    - apply (IH want left _ s' O).
  Qed.
End Order.

(** ** Sending *)
Section Send.
  Context {L P Op : Type} (wrap : L -> list N -> res (list N) * L) (packed : N -> Op -> res (list N)).
  Context (open : P -> list N -> option (list N * P)) (agree : L -> P -> Prop) (HS : in_step wrap open agree).
  Lemma send_all_opened ops : forall n l p w s rs, agree l p -> lsend_all wrap packed (mk_lsender n (Some l) w) ops = (s, rs) ->
    exists outs, ls_wire s = w ++ outs /\ opened open p outs = Some (octets_sent packed ops rs) /\ List.length rs = List.length ops /\
      forall j o i, nth_error ops j = Some o -> nth_error rs j = Some (Ok i) -> i = (n + N.of_nat j)%N /\ exists raw, packed i o = Ok raw.
  Proof.
    induction ops as [|op ops IH]; intros n l p w s rs Ha E; cbn [lsend_all] in E.
    - injection E as <- <-. exists []. cbn. rewrite app_nil_r. repeat split. all: destruct j; discriminate.
    - unfold lsend in E. cbn [ls_next_id ls_sasl ls_wire] in E.
      assert (Fin : forall l' p' w' r outs0 raws0, agree l' p' -> (let (s2, rs) := lsend_all wrap packed (mk_lsender (n + 1) (Some l') w') ops in (s2, r :: rs)) = (s, rs) ->
                w' = w ++ outs0 -> (forall outs raws, opened open p' outs = Some raws -> opened open p (outs0 ++ outs) = Some (raws0 ++ raws)) ->
                octets_sent packed [op] [r] = raws0 -> (forall i, r = Ok i -> i = n /\ exists raw, packed i op = Ok raw) ->
                exists outs, ls_wire s = w ++ outs /\ opened open p outs = Some (octets_sent packed (op :: ops) rs) /\ List.length rs = List.length (op :: ops) /\
                  forall j o i, nth_error (op :: ops) j = Some o -> nth_error rs j = Some (Ok i) -> i = (n + N.of_nat j)%N /\ exists raw, packed i o = Ok raw).
      { intros l' p' w' r outs0 raws0 Ha' E' -> Ho Hr Hi. destruct (lsend_all wrap packed (mk_lsender (n + 1) (Some l') (w ++ outs0)) ops) as [s2 rs2] eqn:E2.
        injection E' as <- <-. destruct (IH _ _ _ _ _ _ Ha' E2) as (outs & F1 & F2 & F3 & F4). exists (outs0 ++ outs). split; [rewrite F1; symmetry; apply app_assoc|].
        split; [rewrite (Ho _ _ F2); f_equal; subst raws0; unfold octets_sent; cbn [combine flat_map]; now rewrite app_nil_r|].
        split; [cbn [List.length]; now rewrite F3|]. intros [|j] o i H1 H2.
        - cbn in H1, H2. injection H1 as <-. injection H2 as ->. destruct (Hi i eq_refl) as [-> Hp]. split; [cbn; lia|exact Hp].
        - cbn [nth_error] in H1, H2. destruct (F4 j o i H1 H2) as [-> Hp]. split; [lia|exact Hp]. }
      destruct (packed n op) as [raw|e] eqn:Ep.
      + cbn [wrapped] in E. pose proof (HS l p raw Ha) as St. destruct (wrap l raw) as [[out|e] l'].
        * destruct St as (p' & Eo & Ha'). apply (Fin l' p' (w ++ [out]) (Ok n) [out] [raw]); auto.
          -- intros outs raws H. cbn [app opened]. rewrite Eo, H. reflexivity.
          -- unfold octets_sent. cbn. rewrite Ep. reflexivity.
          -- intros i Hi. injection Hi as <-. eauto.
        * apply (Fin l' p w (Raise e) [] []); auto; [now rewrite app_nil_r|discriminate].
      + apply (Fin l p w (Raise e) [] []); auto; [now rewrite app_nil_r|discriminate].
  Qed.
End Send.
