(** * Proofs about schema elements and validation *)
From Verif Require Import PyBase Model_Schema Spec_Schema.
From Coq Require Import Relations.

Lemma set_nth_length {A} (l : list A) i x : i < List.length l -> List.length (set_nth l i x) = List.length l.
Proof. intros H. unfold set_nth. rewrite app_length. cbn [List.length]. rewrite firstn_length, skipn_length. lia. Qed.

Lemma nth_set_nth {A} (l : list A) i x k : i < List.length l ->
  nth_error (set_nth l i x) k = if k =? i then Some x else nth_error l k.
Proof.
  intros H. unfold set_nth. destruct (Nat.eqb_spec k i) as [->|Hn].
  - rewrite nth_error_app2; rewrite firstn_length; [|lia]. replace (i - Nat.min i (List.length l)) with 0 by lia. reflexivity.
  - destruct (Nat.lt_ge_cases k i).
    + rewrite nth_error_app1 by (rewrite firstn_length; lia).
      rewrite <- (firstn_skipn i l) at 2. rewrite nth_error_app1; auto. rewrite firstn_length; lia.
    + rewrite nth_error_app2 by (rewrite firstn_length; lia). rewrite firstn_length.
      replace (k - Nat.min i (List.length l)) with (S (k - S i)) by lia. cbn [nth_error].
      rewrite <- (firstn_skipn (S i) l) at 2. rewrite nth_error_app2 by (rewrite firstn_length; lia).
      rewrite firstn_length. f_equal. lia.
Qed.

Definition pending (m : memo) : nat := List.length (List.filter (fun e => negb (snd e)) m).

Lemma pending_set m i l b l' : nth_error m i = Some (l, b) ->
  pending (set_nth m i (l', true)) + (if b then 0 else 1) = pending m.
Proof.
  intros H. apply nth_error_split in H as (m1 & m2 & -> & <-). unfold set_nth, pending.
  rewrite firstn_app, firstn_all, Nat.sub_diag. cbn [firstn]. rewrite app_nil_r.
  rewrite skipn_app. rewrite skipn_all2 by lia. replace (S (List.length m1) - List.length m1) with 1 by lia.
  cbn [skipn app]. rewrite !filter_app, !app_length. cbn [List.filter snd negb]. destruct b; cbn [negb List.length]; lia.
Qed.

Section P.
  Context (lower : str -> str) (isdigit : N -> bool).
  Notation lookup := (lookup lower isdigit).
  Notation denotes := (denotes lower isdigit).
  Notation unknown_name := (unknown_name lower isdigit).

  (** ** Lookup *)
  Lemma lookup_Some g n i : lookup g n = Ok (Some i) <-> denotes g n i.
  Proof.
    unfold Model_Schema.lookup, Spec_Schema.denotes. destruct n as [|c r].
    - split; [discriminate|]. intros (c & r & E & _); discriminate.
    - split.
      + intros H. exists c, r. split; auto. destruct (isdigit c).
        * destruct (dget (g_oids g) (c :: r)); congruence.
        * congruence.
      + intros (c' & r' & E & H). injection E as <- <-. destruct (isdigit c); rewrite H; reflexivity.
  Qed.
  Lemma lookup_None g n : lookup g n = Ok None <-> unknown_name g n.
  Proof.
    unfold Model_Schema.lookup, Spec_Schema.unknown_name. destruct n as [|c r].
    - split; [discriminate|]. intros (c & r & E & _); discriminate.
    - split.
      + intros H. exists c, r. split; auto. destruct (isdigit c).
        * destruct (dget (g_oids g) (c :: r)); discriminate.
        * split; congruence.
      + intros (c' & r' & E & Hd & H). injection E as <- <-. now rewrite Hd, H.
  Qed.
  Lemma denotes_fun g n i j : denotes g n i -> denotes g n j -> i = j.
  Proof. rewrite <- !lookup_Some. congruence. Qed.
  Lemma denotes_unknown g n i : denotes g n i -> unknown_name g n -> False.
  Proof. rewrite <- lookup_Some, <- lookup_None. congruence. Qed.

  (** ** Inherited attributes *)
  Section Inh.
    Context (g : registry) (classes : list oclass).
    Notation inherited := (inherited lower isdigit g classes).
    Notation add_supers := (add_supers lower isdigit g).
    Notation superclass := (superclass lower isdigit g classes).
    Notation ancestor := (ancestor lower isdigit g classes).
    Notation inherits := (inherits lower isdigit g classes).

    (** *** evaluation always ends *)
    (** [kept m m']: evaluated entries stay evaluated, nothing else is added or removed *)
    Definition kept (m m' : memo) : Prop :=
      List.length m' = List.length m /\ pending m' <= pending m /\
      (forall k l, nth_error m k = Some (l, true) -> exists l', nth_error m' k = Some (l', true)).

    Lemma kept_refl m : kept m m. Proof. split; [|split]; auto. intros k l H; eauto. Qed.
    Lemma kept_trans a b c : kept a b -> kept b c -> kept a c.
    Proof.
      intros (A1 & A2 & A3) (B1 & B2 & B3). split; [|split]; try lia.
      intros k l H. destruct (A3 _ _ H) as [l' H']. eauto.
    Qed.
    Lemma kept_set m i l b l' : nth_error m i = Some (l, b) -> kept m (set_nth m i (l', true)).
    Proof.
      intros H. assert (Hi : i < List.length m) by (apply nth_error_Some; congruence).
      split; [apply set_nth_length; auto|split].
      - pose proof (pending_set m i l b l' H); lia.
      - intros k lk Hk. rewrite nth_set_nth; auto. destruct (k =? i); eauto.
    Qed.

    Lemma add_supers_kept rec i : (forall m j, kept m (snd (rec m j))) ->
      forall ss m, (exists l, nth_error m i = Some (l, true)) -> kept m (snd (add_supers rec i ss m)).
    Proof.
      intros Hrec. induction ss as [|s ss IH]; intros m [l Hl]; cbn [Model_Schema.add_supers]; [apply kept_refl|].
      destruct (lookup g s) as [[j|]|e].
      - specialize (Hrec m j). destruct (rec m j) as [[lj|e] m1]; cbn [snd] in *; auto.
        destruct Hrec as (H1 & H2 & H3). destruct (H3 _ _ Hl) as [li Hli]. rewrite Hli.
        eapply kept_trans; [|apply IH].
        + eapply kept_trans; [split; [|split]; eauto|]. eapply kept_set; eauto.
        + exists (li ++ lj). rewrite nth_set_nth, Nat.eqb_refl; auto. apply nth_error_Some; congruence.
      - apply IH; eauto.
      - apply kept_refl.
    Qed.

    Lemma inherited_kept fuel : forall m i, kept m (snd (inherited fuel m i)).
    Proof.
      induction fuel as [|fuel IH]; intros m i; cbn [Model_Schema.inherited]; [apply kept_refl|].
      destruct (nth_error m i) as [[l [|]]|] eqn:Ei; try apply kept_refl.
      destruct (nth_error classes i) as [c|]; [|apply kept_refl].
      assert (Hi : i < List.length m) by (apply nth_error_Some; congruence).
      pose proof (add_supers_kept (inherited fuel) i IH (oc_sups c) (set_nth m i (l, true))) as H.
      destruct (add_supers (inherited fuel) i (oc_sups c) (set_nth m i (l, true))) as [[u|e] m1]; cbn [snd] in *.
      - assert (kept m m1) as Hk.
        { eapply kept_trans; [eapply kept_set; eauto|]. apply H. exists l. rewrite nth_set_nth, Nat.eqb_refl; auto. }
        destruct (nth_error m1 i) as [[li b]|]; auto.
      - eapply kept_trans; [eapply kept_set; eauto|]. apply H. exists l. rewrite nth_set_nth, Nat.eqb_refl; auto.
    Qed.

    Lemma add_supers_ends rec i n :
      (forall m j, kept m (snd (rec m j))) ->
      (forall m j, pending m < n -> fst (rec m j) <> Raise RecursionError) ->
      forall ss m, (exists l, nth_error m i = Some (l, true)) -> pending m < n ->
      fst (add_supers rec i ss m) <> Raise RecursionError.
    Proof.
      intros Hk Hrec. induction ss as [|s ss IH]; intros m [l Hl] Hp; cbn [Model_Schema.add_supers]; [discriminate|].
      destruct (lookup g s) as [[j|]|e] eqn:El.
      - specialize (Hk m j). specialize (Hrec m j Hp). destruct (rec m j) as [[lj|e] m1]; cbn [fst snd] in *; [|congruence].
        destruct Hk as (H1 & H2 & H3). destruct (H3 _ _ Hl) as [li Hli]. rewrite Hli.
        assert (Hi : i < List.length m1) by (apply nth_error_Some; congruence).
        apply IH.
        + exists (li ++ lj). rewrite nth_set_nth, Nat.eqb_refl; auto.
        + pose proof (pending_set m1 i li true (li ++ lj) Hli) as Hq. cbn iota in Hq. lia.
      - apply IH; eauto.
      - cbn [fst]. intros E. injection E as ->. unfold Model_Schema.lookup in El.
        destruct s as [|c r]; [discriminate|]. destruct (isdigit c); [|discriminate].
        destruct (dget (g_oids g) (c :: r)); discriminate.
    Qed.

    Lemma inherited_ends fuel : forall m i, pending m < fuel -> fst (inherited fuel m i) <> Raise RecursionError.
    Proof.
      induction fuel as [|fuel IH]; intros m i Hp; [lia|]. cbn [Model_Schema.inherited].
      destruct (nth_error m i) as [[l [|]]|] eqn:Ei; try discriminate.
      destruct (nth_error classes i) as [c|]; [|discriminate].
      assert (Hi : i < List.length m) by (apply nth_error_Some; congruence).
      pose proof (pending_set m i l false l Ei) as Hs. cbn in Hs.
      assert (Hx : exists l0, nth_error (set_nth m i (l, true)) i = Some (l0, true))
        by (exists l; rewrite nth_set_nth, Nat.eqb_refl; auto).
      pose proof (add_supers_ends (inherited fuel) i fuel (inherited_kept fuel) IH (oc_sups c) (set_nth m i (l, true)) Hx) as H.
      destruct (add_supers (inherited fuel) i (oc_sups c) (set_nth m i (l, true))) as [[u|e] m1]; cbn [fst] in *.
      - destruct (nth_error m1 i) as [[li b]|]; discriminate.
      - intros E. apply H; [lia|]. congruence.
    Qed.

    (** *** and is right *)
    Context (own : oclass -> list str).
    Context (rank : nat -> nat) (Hrank : forall i j, superclass i j -> rank j < rank i).
    Context (Hres : resolvable lower isdigit g classes).

    Lemma inherits_step i c a : nth_error classes i = Some c ->
      (inherits own i a <-> In a (own c) \/ exists j, superclass i j /\ inherits own j a).
    Proof.
      intros Hc. split.
      - intros (j & cj & Ha & Hj & Hin). apply clos_rt_rt1n in Ha. destruct Ha as [|k j' Hs Ha].
        + left. congruence.
        + right. exists k. split; auto. exists j', cj. repeat split; auto. now apply clos_rt1n_rt.
      - intros [Hin|(j & Hs & (k & ck & Ha & Hk & Hin))].
        + exists i, c. repeat split; auto. apply rt_refl.
        + exists k, ck. repeat split; auto. eapply rt_trans; [apply rt_step; eauto|auto].
    Qed.

    (** an entry holds its own attributes before evaluation and the inherited ones after *)
    Definition entry_ok (k : nat) (e : list str * bool) : Prop :=
      if snd e then forall a, In a (fst e) <-> inherits own k a
      else exists c, nth_error classes k = Some c /\ fst e = own c.
    Definition below_ok (r : nat) (m : memo) : Prop :=
      forall k e, rank k < r -> nth_error m k = Some e -> entry_ok k e.
    Definition same_above (i : nat) (m m' : memo) : Prop :=
      forall k, rank i <= rank k -> k <> i -> nth_error m' k = nth_error m k.

    Definition good (fuel : nat) : Prop := forall m i,
      List.length m = List.length classes -> i < List.length classes ->
      below_ok (rank i) m -> (forall e, nth_error m i = Some e -> entry_ok i e) ->
      let (r, m') := inherited fuel m i in
      r = Raise RecursionError \/
      exists l, r = Ok l /\ (forall a, In a l <-> inherits own i a) /\ nth_error m' i = Some (l, true) /\
                below_ok (rank i) m' /\ same_above i m m' /\ List.length m' = List.length m.

    Lemma add_supers_good fuel i c : good fuel -> nth_error classes i = Some c ->
      forall ss m li, (forall s, In s ss -> In s (oc_sups c)) ->
      List.length m = List.length classes -> nth_error m i = Some (li, true) -> below_ok (rank i) m ->
      let (r, m') := add_supers (inherited fuel) i ss m in
      r = Raise RecursionError \/
      exists l', r = Ok tt /\ nth_error m' i = Some (l', true) /\
        (forall a, In a l' <-> In a li \/ exists s j, In s ss /\ denotes g s j /\ inherits own j a) /\
        below_ok (rank i) m' /\ same_above i m m' /\ List.length m' = List.length m.
    Proof.
      intros Hgood Hc. induction ss as [|s ss IH]; intros m li Hss Hlen Hi Hb; cbn [Model_Schema.add_supers].
      - right. exists li. split; [|split; [|split; [|split; [|split]]]]; auto.
        + intros a. split; auto. intros [?|(s & j & [] & _)]; auto.
        + intros k _ _. reflexivity.
      - assert (Hsc : In s (oc_sups c)) by (apply Hss; now left).
        destruct (Hres i c s Hc Hsc) as [(j & Hd & Hj)|Hu].
        + rewrite (proj2 (lookup_Some g s j) Hd).
          assert (Hsup : superclass i j) by (exists c, s; auto).
          pose proof (Hrank _ _ Hsup) as Hr.
          assert (Hbj : below_ok (rank j) m) by (intros k e Hk; apply Hb; lia).
          pose proof (Hgood m j Hlen Hj Hbj (fun e He => Hb j e Hr He)) as G.
          destruct (inherited fuel m j) as [r m1]. destruct G as [->|(lj & -> & Hlj & Hj1 & Hb1 & Hs1 & Hl1)]; [now left|].
          assert (Hi1 : nth_error m1 i = Some (li, true)).
          { rewrite <- Hi. apply Hs1; [lia|]. intros ->; lia. }
          rewrite Hi1.
          assert (Him : i < List.length m1) by (apply nth_error_Some; congruence).
          assert (Hb1' : below_ok (rank i) m1).
          { intros k e Hk He. destruct (Nat.lt_ge_cases (rank k) (rank j)) as [Hlt|Hge]; [eapply Hb1; eauto|].
            destruct (Nat.eq_dec k j) as [->|Hn].
            - rewrite Hj1 in He. injection He as <-. exact Hlj.
            - rewrite Hs1 in He by auto. eapply Hb; eauto. }
          specialize (IH (set_nth m1 i (li ++ lj, true)) (li ++ lj)).
          assert (Hss' : forall s0, In s0 ss -> In s0 (oc_sups c)) by (intros; apply Hss; now right).
          specialize (IH Hss'). rewrite set_nth_length in IH by auto. specialize (IH ltac:(lia)).
          rewrite nth_set_nth, Nat.eqb_refl in IH by auto. specialize (IH eq_refl).
          assert (Hb2 : below_ok (rank i) (set_nth m1 i (li ++ lj, true))).
          { intros k e Hk He. rewrite nth_set_nth in He by auto. destruct (Nat.eqb_spec k i) as [->|_]; [lia|]. eapply Hb1'; eauto. }
          specialize (IH Hb2).
          destruct (add_supers (inherited fuel) i ss (set_nth m1 i (li ++ lj, true))) as [r m2].
          destruct IH as [->|(l' & -> & A & B & C & D & E)]; [now left|]. right. exists l'.
          split; [|split; [|split; [|split; [|split]]]]; auto.
          * intros a. rewrite B, in_app_iff, Hlj. split.
            -- intros [[?|?]|(s' & j' & ? & ? & ?)]; auto.
               ++ right. exists s, j. repeat split; auto. now left.
               ++ right. exists s', j'. repeat split; auto. now right.
            -- intros [?|(s' & j' & [<-|?] & Hd' & ?)]; auto.
               ++ left; right. now rewrite (denotes_fun g _ _ _ Hd Hd').
               ++ right. exists s', j'. auto.
          * intros k Hk Hn. rewrite D by auto. rewrite nth_set_nth by auto.
            destruct (Nat.eqb_spec k i); [contradiction|]. apply Hs1; [lia|]. intros ->; lia.
          * lia.
        + rewrite (proj2 (lookup_None g s) Hu).
          specialize (IH m li (fun s0 H0 => Hss s0 (or_intror H0)) Hlen Hi Hb).
          destruct (add_supers (inherited fuel) i ss m) as [r m2].
          destruct IH as [->|(l' & -> & A & B & C & D & E)]; [now left|]. right. exists l'.
          split; [|split; [|split; [|split; [|split]]]]; auto.
          intros a. rewrite B. split.
          * intros [?|(s' & j' & ? & ? & ?)]; auto. right; exists s', j'; repeat split; auto; now right.
          * intros [?|(s' & j' & [<-|?] & Hd' & ?)]; auto.
            -- exfalso. eapply denotes_unknown; eauto.
            -- right. exists s', j'. auto.
    Qed.

    Lemma inherited_good fuel : good fuel.
    Proof.
      induction fuel as [|fuel IH]; intros m i Hlen Hi Hb He; cbn [Model_Schema.inherited]; [now left|].
      destruct (nth_error m i) as [[l [|]]|] eqn:Ei.
      - right. exists l. specialize (He _ eq_refl). cbn in He.
        split; [|split; [|split; [|split; [|split]]]]; auto. intros k _ _; auto.
      - destruct (nth_error classes i) as [c|] eqn:Ec; [|apply nth_error_None in Ec; lia].
        assert (Him : i < List.length m) by lia.
        destruct (He _ eq_refl) as (c' & Ec' & Hl). cbn [fst] in Hl. rewrite Ec in Ec'. injection Ec' as <-. subst l.
        assert (Hb' : below_ok (rank i) (set_nth m i (own c, true))).
        { intros k e Hk H. rewrite nth_set_nth in H by auto. destruct (Nat.eqb_spec k i) as [->|_]; [lia|]. eapply Hb; eauto. }
        pose proof (add_supers_good fuel i c IH Ec (oc_sups c) (set_nth m i (own c, true)) (own c) (fun s H => H)) as G.
        rewrite set_nth_length in G by auto. specialize (G Hlen). rewrite nth_set_nth, Nat.eqb_refl in G by auto.
        specialize (G eq_refl Hb').
        destruct (add_supers (inherited fuel) i (oc_sups c) (set_nth m i (own c, true))) as [r m1].
        destruct G as [->|(l' & -> & A & B & C & D & E)]; [now left|]. rewrite A. right. exists l'.
        split; [|split; [|split; [|split; [|split]]]]; auto.
        + intros a. rewrite B, (inherits_step i c a Ec). split.
          * intros [?|(s & j & ? & ? & ?)]; auto. right. exists j. split; auto. exists c, s; auto.
          * intros [?|(j & (c' & s & Hc' & ? & ?) & ?)]; auto. rewrite Ec in Hc'. injection Hc' as <-. right. exists s, j; auto.
        + intros k Hk Hn. rewrite D by auto. rewrite nth_set_nth by auto. destruct (Nat.eqb_spec k i); [contradiction|auto].
      - apply nth_error_None in Ei. lia.
    Qed.

    (** the memo between accesses *)
    Definition memo_ok (m : memo) : Prop :=
      List.length m = List.length classes /\ forall k e, nth_error m k = Some e -> entry_ok k e.

    Lemma pending_le m : pending m <= List.length m.
    Proof. unfold pending. induction m as [|[l b] m IH]; cbn [List.filter List.length snd]; [lia|]. destruct (negb b); cbn [List.length]; lia. Qed.

    Lemma inherited_memo_ok fuel m i : memo_ok m -> i < List.length classes -> pending m < fuel ->
      exists l m', inherited fuel m i = (Ok l, m') /\ (forall a, In a l <-> inherits own i a) /\
        memo_ok m' /\ pending m' <= pending m /\ nth_error m' i = Some (l, true) /\
        (forall k lk, nth_error m k = Some (lk, true) -> exists lk', nth_error m' k = Some (lk', true)).
    Proof.
      intros [Hlen Hok] Hi Hf.
      pose proof (inherited_good fuel m i Hlen Hi (fun k e _ H => Hok k e H) (fun e H => Hok i e H)) as G.
      pose proof (inherited_ends fuel m i Hf) as He.
      pose proof (inherited_kept fuel m i) as (K1 & K2 & K3).
      destruct (inherited fuel m i) as [r m']. cbn [fst snd] in *. destruct G as [->|(l & -> & Hl & Hm & Hb & Hs & Hle)]; [contradiction|].
      exists l, m'. repeat split; auto; try apply Hl; try lia.
      intros k e H. destruct (Nat.lt_ge_cases (rank k) (rank i)) as [|Hge]; [eapply Hb; eauto|].
      destruct (Nat.eq_dec k i) as [->|Hn].
      - rewrite Hm in H. injection H as <-. exact Hl.
      - rewrite Hs in H by auto. apply Hok; auto.
    Qed.
  End Inh.

  Lemma fresh_ok g classes own :
    memo_ok g classes own (map (fun c => (own c, false)) classes).
  Proof.
    split; [apply map_length|]. intros k e H. rewrite nth_error_map in H.
    destruct (nth_error classes k) as [c|] eqn:E; [|discriminate]. injection H as <-. exists c. auto.
  Qed.

  Lemma accesses_ok g classes own rank fuel :
    (forall i j, superclass lower isdigit g classes i j -> rank j < rank i) ->
    resolvable lower isdigit g classes ->
    forall is m, memo_ok g classes own m -> Forall (fun i => i < List.length classes) is -> pending m < fuel ->
    let (rs, m') := accesses lower isdigit g classes fuel m is in
    Forall2 (fun i r => exists l, r = Ok l /\ forall a, In a l <-> inherits lower isdigit g classes own i a) is rs /\
    memo_ok g classes own m' /\ pending m' <= pending m.
  Proof.
    intros Hrank Hres. induction is as [|i is IH]; intros m Hm Hi Hp; cbn [accesses]; [auto|].
    inversion Hi; subst. destruct (inherited_memo_ok g classes own rank Hrank Hres fuel m i Hm H1 Hp) as (l & m1 & E & Hl & Hm1 & Hp1 & _).
    rewrite E. specialize (IH m1 Hm1 H2 ltac:(lia)). destruct (accesses lower isdigit g classes fuel m1 is) as [rs m2].
    destruct IH as (A & B & C). split; [|split]; auto; [|lia]. constructor; auto. exists l; auto.
  Qed.


  (** ** Attribute types *)
  Section Ty.
    Context (g : registry) (types : list atype).
    Notation getfield := (getfield lower isdigit g types).
    Notation feature := (feature lower isdigit g types).

    Lemma getfield_sound fuel : forall t f v, getfield fuel t f = Ok v -> feature f t v.
    Proof.
      induction fuel as [|fuel IH]; intros t f v; cbn [Model_Schema.getfield]; [discriminate|].
      unfold instance_attr. destruct (at_own t f) as [w|] eqn:Eo.
      - intros E; injection E as <-. now apply feature_own.
      - destruct (super_of t) as [s|] eqn:Es.
        + destruct (lookup g s) as [[j|]|e] eqn:El; [| |discriminate].
          * destruct (nth_error types j) as [t'|] eqn:Et; [|discriminate]. intros E.
            apply lookup_Some in El. eapply feature_super; eauto.
          * apply lookup_None in El. destruct (default_attr f) as [w|] eqn:Ed; [|discriminate].
            intros E; injection E as <-. eapply feature_unknown; eauto.
        + intros E; injection E as <-. now apply feature_root.
    Qed.

    Lemma getfield_complete rank : types_ranked lower isdigit g types rank ->
      forall t f v, feature f t v -> In t types -> forall fuel, rank t < fuel -> getfield fuel t f = Ok v.
    Proof.
      intros Hr t f v H. induction H as [t v Ho|t Ho Hs|t s j t' v Ho Hs Hd Ht Hf IH|t s v Ho Hs Hu Hd];
        intros Hin [|fuel] Hlt; try lia; cbn [Model_Schema.getfield]; unfold instance_attr; rewrite Ho; auto; rewrite Hs; auto.
      - rewrite (proj2 (lookup_Some g s j) Hd), Ht. apply IH; [eapply nth_error_In; eauto|]. pose proof (Hr _ _ _ _ Hin Hs Hd Ht). lia.
      - now rewrite (proj2 (lookup_None g s) Hu), Hd.
    Qed.

    Lemma feature_fun f t v w : feature f t v -> feature f t w -> v = w.
    Proof.
      intros H. revert w. induction H as [t v Ho|t Ho Hs|t s j t' v Ho Hs Hd Ht Hf IH|t s v Ho Hs Hu Hd]; intros w Hw;
        inversion Hw; subst; try congruence.
      - match goal with H1 : super_of t = Some ?s0, H2 : Spec_Schema.denotes _ _ _ ?s0 ?j0 |- _ =>
          rewrite Hs in H1; injection H1 as <-; assert (j = j0) by (eapply denotes_fun; eauto); subst end.
        apply IH. congruence.
      - exfalso. match goal with H1 : super_of t = Some ?s0 |- _ => rewrite Hs in H1; injection H1 as <- end.
        eapply denotes_unknown; eauto.
      - exfalso. match goal with H1 : super_of t = Some ?s0 |- _ => rewrite Hs in H1; injection H1 as <- end.
        eapply denotes_unknown; eauto.
    Qed.

    (** chains ending properly: every supertype named is registered *)
    Definition supertypes_registered : Prop :=
      (forall t s, In t types -> super_of t = Some s -> exists j t', denotes g s j /\ nth_error types j = Some t').

    Lemma feature_total rank f : types_ranked lower isdigit g types rank -> supertypes_registered ->
      forall n t, rank t < n -> In t types -> exists v, feature f t v.
    Proof.
      intros Hr Hreg. induction n as [|n IH]; intros t Hn Hin; [lia|].
      destruct (at_own t f) as [v|] eqn:Eo; [exists v; now apply feature_own|].
      destruct (super_of t) as [s|] eqn:Es; [|exists (root_default f); now apply feature_root].
      destruct (Hreg t s Hin Es) as (j & t' & Hd & Ht). pose proof (Hr _ _ _ _ Hin Es Hd Ht).
      destruct (IH t' ltac:(lia) (nth_error_In _ _ Ht)) as [v Hv]. exists v. eapply feature_super; eauto.
    Qed.

    Lemma feature_kind rank : types_ranked lower isdigit g types rank ->
      (forall t, In t types -> well_typed t) ->
      forall t, well_typed t ->
      (forall v, feature FLength t v -> exists n, v = VNum n /\ (-1 <= n)%Z) /\
      (forall f v, (f = FObsolete \/ f = FSingle \/ f = FCollective \/ f = FNoUserMod) -> feature f t v -> exists b, v = VFlag b).
    Proof.
      intros Hr Hw. split.
      - intros v Hf. remember FLength as f eqn:Ef.
        induction Hf as [t v Ho|t Ho Hs|t s j t' v Ho Hs Hd Ht Hf IH|t s v Ho Hs Hu Hd]; subst.
        + destruct H as (A & _ & _). eauto.
        + exists (-1)%Z. split; [reflexivity|lia].
        + apply IH; auto. apply Hw. eapply nth_error_In; eauto.
        + discriminate.
      - intros f v Ef Hf.
        induction Hf as [t v Ho|t Ho Hs|t s j t' v Ho Hs Hd Ht Hf IH|t s v Ho Hs Hu Hd].
        + destruct H as (_ & _ & A). exists true. eauto.
        + destruct Ef as [->|[->|[->| ->]]]; exists false; reflexivity.
        + apply IH; auto. apply Hw. eapply nth_error_In; eauto.
        + destruct Ef as [->|[->|[->| ->]]]; injection Hd as <-; exists false; reflexivity.
    Qed.
  End Ty.

  (** ** Values *)
  Section Val.
    Context (g : registry) (types : list atype) (syntax_rule : str -> option (str -> res unit)).
    Context (rank : atype -> nat) (Hr : types_ranked lower isdigit g types rank).
    Context (Hw : forall t, In t types -> well_typed t).
    Context (fuel : nat).
    Notation feature := (feature lower isdigit g types).

    Lemma type_validate_iff t v : In t types -> rank t < fuel ->
      type_validate lower isdigit g types syntax_rule fuel t v = Ok tt <-> valid_value lower isdigit g types syntax_rule t v.
    Proof.
      intros Hin Hf. unfold type_validate, valid_value, bind. split.
      - destruct (getfield lower isdigit g types fuel t FLength) as [l|e] eqn:El; [|discriminate].
        apply getfield_sound in El. destruct l as [o|z|b|s]; try discriminate.
        destruct ((-1 <? z) && (z <? Z.of_nat (List.length v)))%Z eqn:Ez; [discriminate|].
        destruct (getfield lower isdigit g types fuel t FSyntax) as [y|e] eqn:Ey; [|discriminate].
        apply getfield_sound in Ey. destruct y as [[[|c r]|]|z'|b|s]; try discriminate.
        destruct (syntax_rule (c :: r)) as [rule|] eqn:Er; [|discriminate]. intros Hv. split.
        + exists z. split; auto. apply andb_false_iff in Ez as [Ez|Ez]; lia.
        + exists (c :: r), rule. repeat split; auto. discriminate.
      - intros [(n & Hl & Hn) (o & rule & Hs & Hne & Hru & Hv)].
        rewrite (getfield_complete g types rank Hr _ _ _ Hl Hin fuel Hf).
        assert (((-1 <? n) && (n <? Z.of_nat (List.length v)))%Z = false) as -> by (apply andb_false_iff; lia).
        rewrite (getfield_complete g types rank Hr _ _ _ Hs Hin fuel Hf).
        destruct o as [|c r]; [contradiction|]. now rewrite Hru.
    Qed.

    (** what a rejected value raises *)
    Lemma type_validate_error t v e : In t types -> rank t < fuel -> supertypes_registered g types ->
      type_validate lower isdigit g types syntax_rule fuel t v = Raise e ->
      (exists n, feature FLength t (VNum n) /\ (0 <= n < Z.of_nat (List.length v))%Z /\ e = InvalidSyntaxError) \/
      (exists o rule, feature FSyntax t (VOid (Some o)) /\ syntax_rule o = Some rule /\ rule v = Raise e) \/
      (exists o, feature FSyntax t (VOid (Some o)) /\ syntax_rule o = None /\ e = KeyError) \/
      (feature FSyntax t (VOid None) /\ e = LDAPSchemaError).
    Proof.
      intros Hin Hf Hreg. unfold type_validate, bind.
      destruct (feature_total g types rank FLength Hr Hreg fuel t Hf Hin) as [l Hl].
      destruct (feature_total g types rank FSyntax Hr Hreg fuel t Hf Hin) as [y Hy].
      destruct (feature_kind g types rank Hr Hw t (Hw t Hin)) as [Hk _].
      destruct (Hk _ Hl) as (n & -> & Hn).
      rewrite (getfield_complete g types rank Hr _ _ _ Hl Hin fuel Hf), (getfield_complete g types rank Hr _ _ _ Hy Hin fuel Hf).
      destruct ((-1 <? n) && (n <? Z.of_nat (List.length v)))%Z eqn:Ez.
      - intros E; injection E as <-. left. exists n. repeat split; auto; lia.
      - assert (Hyk : y = VOid None \/ exists o, y = VOid (Some o) /\ o <> []).
        { clear - Hy Hw Hin. remember FSyntax as f eqn:Ef.
          assert (Hwt := Hw t Hin). clear Hin.
          induction Hy as [t v Ho|t Ho Hs|t s j t' v Ho Hs Hd Ht Hf IH|t s v Ho Hs Hu Hd]; subst.
          - right. destruct Hwt as (_ & A & _). eauto.
          - now left.
          - apply IH; auto. apply Hw. eapply nth_error_In; eauto.
          - discriminate. }
        destruct Hyk as [->|(o & -> & Ho)].
        + intros E; injection E as <-. auto.
        + destruct o as [|c r]; [contradiction|]. destruct (syntax_rule (c :: r)) as [rule|] eqn:Er.
          * intros E. right; left. exists (c :: r), rule. auto.
          * intros E; injection E as <-. right; right; left. exists (c :: r). auto.
    Qed.

    Lemma validate_all_iff val vs : validate_all val vs = Ok tt <-> Forall (fun v => val v = Ok tt) vs.
    Proof.
      induction vs as [|v vs IH]; cbn [validate_all]; [split; auto|]. unfold bind. split.
      - destruct (val v) as [[]|e] eqn:E; [|discriminate]. intros H. constructor; auto. now apply IH.
      - intros H. inversion H; subst. rewrite H2. now apply IH.
    Qed.
    Lemma validate_all_error val vs e : validate_all val vs = Raise e -> exists v, In v vs /\ val v = Raise e.
    Proof.
      induction vs as [|v vs IH]; cbn [validate_all]; [discriminate|]. unfold bind.
      destruct (val v) as [[]|e'] eqn:E.
      - intros H. destruct (IH H) as (w & ? & ?). exists w; split; auto; now right.
      - intros H; injection H as <-. exists v. split; auto; now left.
    Qed.

    Lemma flag_feature t f : In t types -> rank t < fuel -> supertypes_registered g types ->
      (f = FObsolete \/ f = FSingle \/ f = FCollective \/ f = FNoUserMod) ->
      exists b, flag (getfield lower isdigit g types fuel t f) = Ok b /\ feature f t (VFlag b).
    Proof.
      intros Hin Hf Hreg Ef.
      destruct (feature_total g types rank f Hr Hreg fuel t Hf Hin) as [v Hv].
      destruct (feature_kind g types rank Hr Hw t (Hw t Hin)) as [_ Hk].
      destruct (Hk _ _ Ef Hv) as [b ->]. exists b. split; auto.
      rewrite (getfield_complete g types rank Hr _ _ _ Hv Hin fuel Hf). reflexivity.
    Qed.

    Lemma validate_attribute_iff name i t values write :
      denotes g name i -> nth_error types i = Some t -> rank t < fuel -> supertypes_registered g types ->
      (validate_attribute lower isdigit g types syntax_rule fuel name values write = Ok tt <->
       valid_attribute lower isdigit g types syntax_rule t values write).
    Proof.
      intros Hd Ht Hf Hreg. pose proof (nth_error_In _ _ Ht) as Hin. unfold validate_attribute, bind at 1.
      rewrite (proj2 (lookup_Some g name i) Hd), Ht.
      destruct (flag_feature t FObsolete Hin Hf Hreg ltac:(auto)) as (b0 & -> & _).
      destruct (flag_feature t FSingle Hin Hf Hreg ltac:(auto)) as (b1 & -> & H1).
      destruct (flag_feature t FNoUserMod Hin Hf Hreg ltac:(auto)) as (b2 & E2 & H2). cbn [bind].
      unfold valid_attribute. split.
      - destruct (b1 && (1 <? List.length values)) eqn:Es; [discriminate|].
        assert (Hfa : forall w, validate_all (type_validate lower isdigit g types syntax_rule fuel t) values = Ok w ->
                  Forall (valid_value lower isdigit g types syntax_rule t) values).
        { intros [] H. apply validate_all_iff in H. eapply Forall_impl; [|exact H]. intros a Ha. now apply type_validate_iff. }
        assert (Hsg : feature FSingle t (VFlag true) -> List.length values <= 1).
        { intros Hx. pose proof (feature_fun g types _ _ _ _ H1 Hx) as Hb. injection Hb as ->. cbn [andb] in Es.
          apply Nat.ltb_ge in Es. exact Es. }
        destruct write.
        + rewrite E2. cbn [bind]. destruct b2; [discriminate|]. intros H. split; [auto|split; eauto].
          intros _ Hx. pose proof (feature_fun g types _ _ _ _ H2 Hx). discriminate.
        + cbn [bind]. intros H. split; [auto|split; eauto]. discriminate.
      - intros (A & B & C).
        assert (b1 && (1 <? List.length values) = false) as ->.
        { destruct b1; [|reflexivity]. cbn [andb]. apply Nat.ltb_ge. auto. }
        assert ((if write then flag (getfield lower isdigit g types fuel t FNoUserMod) else Ok false) = Ok false) as ->.
        { destruct write; auto. rewrite E2. destruct b2; auto. exfalso. now apply B. }
        cbn [bind]. apply validate_all_iff. eapply Forall_impl; [|exact C]. intros a Ha. now apply type_validate_iff.
    Qed.
  End Val.

  (** ** Objects *)
  Section Obj.
    Context (g : registry) (classes : list oclass).
    Context (rank : nat -> nat) (Hrank : forall i j, superclass lower isdigit g classes i j -> rank j < rank i).
    Context (Hres : resolvable lower isdigit g classes).
    Notation inherits := (inherits lower isdigit g classes).

    Definition memos_ok (mm : memo * memo) : Prop :=
      memo_ok g classes oc_must (fst mm) /\ memo_ok g classes oc_may (snd mm).

    Lemma collect_ok fuel ocs : List.length classes < fuel ->
      (forall n, In n ocs -> (exists i, denotes g n i /\ i < List.length classes) \/ unknown_name g n) ->
      forall mm req allow, memos_ok mm ->
      exists req' allow' mm',
        collect lower isdigit g classes fuel ocs mm req allow = (Ok (req', allow'), mm') /\ memos_ok mm' /\
        (forall a, In a req' <-> In a req \/ exists n i, In n ocs /\ denotes g n i /\ inherits oc_must i a) /\
        (forall a, In a allow' <-> In a allow \/ exists n i, In n ocs /\ denotes g n i /\ inherits oc_may i a).
    Proof.
      intros Hf. induction ocs as [|n ocs IH]; intros Hn [m1 m2] req allow [H1 H2]; cbn [collect].
      - exists req, allow, (m1, m2). split; [|split; [split|]]; auto.
        split; intros a; split; auto; intros [?|(n & i & [] & _)]; auto.
      - cbn [fst snd] in *.
        destruct (Hn n (or_introl eq_refl)) as [(i & Hd & Hi)|Hu].
        + rewrite (proj2 (lookup_Some g n i) Hd).
          destruct (inherited_memo_ok g classes oc_must rank Hrank Hres fuel m1 i H1 Hi) as (l1 & m1' & E1 & L1 & M1 & _).
          { pose proof (pending_le m1). destruct H1; lia. }
          destruct (inherited_memo_ok g classes oc_may rank Hrank Hres fuel m2 i H2 Hi) as (l2 & m2' & E2 & L2 & M2 & _).
          { pose proof (pending_le m2). destruct H2; lia. }
          rewrite E1, E2.
          destruct (IH (fun x Hx => Hn x (or_intror Hx)) (m1', m2') (req ++ l1) (allow ++ l2) ltac:(split; auto))
            as (r' & a' & mm' & E & Hm & A & B).
          exists r', a', mm'. split; [|split; [|split]]; auto.
          * intros a. rewrite A, in_app_iff, L1. split.
            -- intros [[?|?]|(n' & i' & ? & ? & ?)]; auto; right.
               ++ exists n, i. repeat split; auto. now left.
               ++ exists n', i'. repeat split; auto. now right.
            -- intros [?|(n' & i' & [<-|?] & Hd' & ?)]; auto.
               ++ left; right. now rewrite (denotes_fun g _ _ _ Hd Hd').
               ++ right. exists n', i'. auto.
          * intros a. rewrite B, in_app_iff, L2. split.
            -- intros [[?|?]|(n' & i' & ? & ? & ?)]; auto; right.
               ++ exists n, i. repeat split; auto. now left.
               ++ exists n', i'. repeat split; auto. now right.
            -- intros [?|(n' & i' & [<-|?] & Hd' & ?)]; auto.
               ++ left; right. now rewrite (denotes_fun g _ _ _ Hd Hd').
               ++ right. exists n', i'. auto.
        + rewrite (proj2 (lookup_None g n) Hu).
          destruct (IH (fun x Hx => Hn x (or_intror Hx)) (m1, m2) req allow ltac:(split; auto))
            as (r' & a' & mm' & E & Hm & A & B).
          exists r', a', mm'. split; [|split; [|split]]; auto.
          * intros a. rewrite A. split.
            -- intros [?|(n' & i' & ? & ? & ?)]; auto. right. exists n', i'. repeat split; auto. now right.
            -- intros [?|(n' & i' & [<-|?] & Hd' & ?)]; auto; [exfalso; eapply denotes_unknown; eauto|].
               right. exists n', i'. auto.
          * intros a. rewrite B. split.
            -- intros [?|(n' & i' & ? & ? & ?)]; auto. right. exists n', i'. repeat split; auto. now right.
            -- intros [?|(n' & i' & [<-|?] & Hd' & ?)]; auto; [exfalso; eapply denotes_unknown; eauto|].
               right. exists n', i'. auto.
    Qed.

    Lemma in_sremove x y l : In x (sremove y l) <-> In x l /\ x <> y.
    Proof.
      unfold sremove. rewrite filter_In. split; intros [A B]; split; auto.
      - intros ->. rewrite str_eqb_refl in B. discriminate.
      - apply str_eqb_neq in B. now rewrite B.
    Qed.

    Lemma check_keys_spec keys : NoDup keys -> forall req allow dis,
      let (missing, dis') := check_keys keys req allow dis in
      (forall a, In a missing <-> In a req /\ ~ In a keys) /\
      (forall a, In a dis' <-> In a dis \/ (In a keys /\ ~ In a req /\ ~ In a allow)).
    Proof.
      induction keys as [|k keys IH]; intros Hnd req allow dis; cbn [check_keys].
      - split; intros a; split; try tauto. cbn [In]. tauto.
      - inversion Hnd as [|? ? Hk Hnd']; subst.
        destruct (smem k req) eqn:Er.
        + apply smem_In in Er. specialize (IH Hnd' (sremove k req) allow dis).
          destruct (check_keys keys (sremove k req) allow dis) as [mi di]. destruct IH as [A B]. split.
          * intros a. rewrite A, in_sremove. cbn [In]. intuition congruence.
          * intros a. rewrite B, in_sremove. cbn [In]. split.
            -- intros [?|(H1 & H2 & H3)]; auto. right. repeat split; auto.
               intros H. apply H2. split; auto. intros ->. contradiction.
            -- intros [?|([<-|?] & H2 & H3)]; auto; [contradiction|]. right. tauto.
        + apply smem_nIn in Er. destruct (smem k allow) eqn:Ea.
          * apply smem_In in Ea. specialize (IH Hnd' req allow dis).
            destruct (check_keys keys req allow dis) as [mi di]. destruct IH as [A B]. split.
            -- intros a. rewrite A. cbn [In]. intuition congruence.
            -- intros a. rewrite B. cbn [In]. intuition congruence.
          * apply smem_nIn in Ea. specialize (IH Hnd' req allow (dis ++ [k])).
            destruct (check_keys keys req allow (dis ++ [k])) as [mi di]. destruct IH as [A B]. split.
            -- intros a. rewrite A. cbn [In]. intuition congruence.
            -- intros a. rewrite B, in_app_iff. cbn [In]. intuition (subst; auto).
    Qed.

    Lemma validate_object_spec fuel attrs_ok mm obj write ocs :
      List.length classes < fuel -> memos_ok mm -> NoDup (map fst obj) ->
      object_classes lower obj = Some ocs ->
      (forall n, In n ocs -> (exists i, denotes g n i /\ i < List.length classes) \/ unknown_name g n) ->
      let r := schema_validate_object lower isdigit g classes fuel attrs_ok mm obj write in
      memos_ok (snd r) /\
      ((fits_classes lower isdigit g classes ocs (map fst obj) /\ fst r = attrs_ok obj write) \/
       (~ fits_classes lower isdigit g classes ocs (map fst obj) /\ fst r = Raise LDAPValidationError)).
    Proof.
      intros Hf Hm Hnd Ho Hn. unfold schema_validate_object. rewrite Ho.
      destruct (collect_ok fuel ocs Hf Hn mm [] [] Hm) as (req & allow & mm' & E & Hm' & A & B). rewrite E.
      pose proof (check_keys_spec (map fst obj) Hnd req allow []) as K.
      destruct (check_keys (map fst obj) req allow []) as [mi di]. destruct K as [K1 K2].
      assert (Hfit : fits_classes lower isdigit g classes ocs (map fst obj) <-> mi = [] /\ di = []).
      { unfold fits_classes. split.
        - intros [F1 F2]. split.
          + destruct mi as [|a mi]; auto. exfalso. destruct (proj1 (K1 a) (or_introl eq_refl)) as [Hr Hk].
            apply A in Hr as [[]|(n & i & ? & ? & ?)]. apply Hk. eapply F1; eauto.
          + destruct di as [|a di]; auto. exfalso. destruct (proj1 (K2 a) (or_introl eq_refl)) as [[]|(Hk & Hr & Ha)].
            destruct (F2 a Hk) as (n & i & ? & ? & [?|?]); [apply Hr, A|apply Ha, B]; right; exists n, i; auto.
        - intros [-> ->]. split.
          + intros n i a Hin Hd Hi. destruct (in_dec str_eq_dec a (map fst obj)); auto.
            exfalso. apply (proj2 (K1 a)). split; auto. apply A. right. exists n, i; auto.
          + intros a Ha. destruct (in_dec str_eq_dec a req) as [Hr|Hr].
            * apply A in Hr as [[]|(n & i & ? & ? & ?)]. exists n, i. auto.
            * destruct (in_dec str_eq_dec a allow) as [Hal|Hal].
              -- apply B in Hal as [[]|(n & i & ? & ? & ?)]. exists n, i. auto.
              -- exfalso. apply (proj2 (K2 a)). right. auto. }
      destruct mi as [|x mi].
      - destruct di as [|y di]; cbn [fst snd].
        + split; auto. left. split; auto. now apply Hfit.
        + split; auto. right. split; auto. rewrite Hfit. intros [_ ?]; discriminate.
      - cbn [fst snd]. split; auto. right. split; auto. rewrite Hfit. intros [? _]; discriminate.
    Qed.
  End Obj.
End P.

(** ** Contexts *)
Lemma enter_exit names vs body_result :
  let (d, vs1) := ctx_enter (new_ctx names) vs in
  ctx_exit d body_result = vs /\
  forall v, In v vs1 <-> In v vs /\ names <> [] /\ ~ In (fst v) names.
Proof.
  unfold ctx_enter, ctx_exit, new_ctx. cbn [d_names d_orig app]. split; auto. intros v. destruct names as [|n ns].
  - split; [intros []|intros (_ & H & _); contradiction].
  - rewrite filter_In. split.
    + intros [A B]. repeat split; auto; [discriminate|]. apply smem_nIn. now destruct (smem (fst v) (n :: ns)).
    + intros (A & _ & B). split; auto. apply smem_nIn in B. now rewrite B.
Qed.

(** ** Registration *)
Lemma register_names_spec lower names i : forall g,
  let (r, g') := register_names lower names i g in
  g_oids g' = g_oids g /\
  (forall k j, dget (g_names g) k = Some j -> dget (g_names g') k = Some j) /\
  ((r = Ok tt /\ NoDup (map lower names) /\ (forall n, In n names -> dget (g_names g) (lower n) = None) /\
    forall k, dget (g_names g') k = if smem k (map lower names) then Some i else dget (g_names g) k) \/
   (r = Raise LDAPSchemaError /\ ~ (NoDup (map lower names) /\ forall n, In n names -> dget (g_names g) (lower n) = None))).
Proof.
  induction names as [|n names IH]; intros g; cbn [register_names].
  - split; [|split]; auto. left. repeat split; auto; [constructor|intros n []].
  - unfold dmem. destruct (dget (g_names g) (lower n)) as [j|] eqn:E.
    + split; [|split]; auto. right. split; auto. intros [_ H]. specialize (H n (or_introl eq_refl)). congruence.
    + specialize (IH (mk_registry (g_oids g) (dset (g_names g) (lower n) i))).
      destruct (register_names lower names i (mk_registry (g_oids g) (dset (g_names g) (lower n) i))) as [r g'].
      cbn [g_oids g_names] in IH. destruct IH as (A & B & C). split; [|split]; auto.
      * intros k j Hk. apply B. rewrite dget_dset. destruct (str_eqb_spec (lower n) k) as [<-|Hn]; [congruence|auto].
      * destruct C as [(-> & Hnd & Hno & Hg)|(-> & Hbad)]; [left|right].
        -- split; auto. assert (Hnew : ~ In (lower n) (map lower names)).
           { intros H. apply in_map_iff in H as (m & Hm & Hin). specialize (Hno m Hin). rewrite Hm, dget_dset_eq in Hno. discriminate. }
           split; [|split].
           ++ cbn [map]. now constructor.
           ++ intros m [<-|Hin]; auto. specialize (Hno m Hin). rewrite dget_dset in Hno.
              destruct (str_eqb_spec (lower n) (lower m)) as [Heq|Hn]; [discriminate|auto].
           ++ intros k. rewrite Hg, dget_dset. unfold smem. cbn [map existsb]. rewrite (str_eqb_sym k (lower n)).
              destruct (existsb (str_eqb k) (map lower names)); destruct (str_eqb (lower n) k); reflexivity.
        -- split; auto. intros [Hnd Hno]. apply Hbad. cbn [map] in Hnd. inversion Hnd; subst. split; auto.
           intros m Hin. rewrite dget_dset_neq; [apply Hno; now right|]. intros Heq. apply H1. rewrite Heq. now apply in_map.
Qed.
