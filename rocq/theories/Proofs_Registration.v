From Coq Require Import Permutation.
From Verif Require Import PyBase Model_Uri Model_Registration Spec_Registration.

Lemma table_eqb_spec a b : reflect (a = b) (table_eqb a b).
Proof. destruct a, b; simpl; constructor; congruence. Qed.

Lemma rget_set g t k e t2 k2 :
  rget (rset g t k e) t2 k2 = if table_eqb t t2 && str_eqb k k2 then Some e else rget g t2 k2.
Proof. reflexivity. Qed.
Lemma rget_set_eq g t k e : rget (rset g t k e) t k = Some e.
Proof. rewrite rget_set. destruct (table_eqb_spec t t); [|congruence]. now rewrite str_eqb_refl. Qed.
Lemma rget_set_neq g t k e t2 k2 : (t, k) <> (t2, k2) -> rget (rset g t k e) t2 k2 = rget g t2 k2.
Proof.
  intros H. rewrite rget_set. destruct (table_eqb_spec t t2) as [->|]; [|reflexivity].
  destruct (str_eqb_spec k k2) as [->|]; [congruence|reflexivity].
Qed.
Lemma rmem_false g t k : rmem g t k = false <-> rget g t k = None.
Proof. unfold rmem. destruct (rget g t k); split; congruence. Qed.
Lemma rget_set_mono g t k e t2 k2 x :
  rget g t k = None -> rget g t2 k2 = Some x -> rget (rset g t k e) t2 k2 = Some x.
Proof.
  intros H H2. rewrite rget_set_neq; [exact H2|]. intros E; injection E as -> ->; congruence.
Qed.
Lemma id_dec (a b : table * str) : {a = b} + {a <> b}.
Proof.
  destruct a as [t k], b as [t2 k2].
  destruct (table_eqb_spec t t2) as [->|]; [|right; congruence].
  destruct (str_eqb_spec k k2) as [->|]; [left; reflexivity|right; congruence].
Qed.

Lemma empty_str_true s : empty_str s = true <-> s = [].
Proof. destruct s; simpl; split; congruence. Qed.
Lemma empty_str_false s : empty_str s = false <-> s <> [].
Proof. destruct s; simpl; split; congruence. Qed.

Definition mono (g g' : registry) : Prop := forall t k x, rget g t k = Some x -> rget g' t k = Some x.
Lemma mono_refl g : mono g g. Proof. intros t k x H; exact H. Qed.
Lemma mono_trans a b c : mono a b -> mono b c -> mono a c.
Proof. intros H1 H2 t k x H. auto. Qed.
Lemma mono_set g t k e : rget g t k = None -> mono g (rset g t k e).
Proof. intros H t2 k2 x H2. now apply rget_set_mono. Qed.

Section R.
  Context (lower : str -> str) (reserved : list str).
  Notation register := (register lower reserved).
  Notation ids := (identifiers lower).

  (** What registering does, whatever the outcome: bindings stay, and new ones are of [e] *)
  Definition grows (e : elem) (l : list (table * str)) (g g' : registry) : Prop :=
    mono g g' /\ forall t k x, rget g' t k = Some x -> rget g t k = Some x \/ (x = e /\ In (t, k) l /\ rget g t k = None).

  Lemma grows_refl e l g : grows e l g g.
  Proof. split; [apply mono_refl|auto]. Qed.
  Lemma grows_set e l g t k : In (t, k) l -> rget g t k = None -> grows e l g (rset g t k e).
  Proof.
    intros Hl H. split; [now apply mono_set|]. intros t2 k2 x H2.
    destruct (id_dec (t, k) (t2, k2)) as [E|E].
    - injection E as -> ->. rewrite rget_set_eq in H2. injection H2 as <-. auto.
    - rewrite rget_set_neq in H2 by exact E. auto.
  Qed.
  Lemma grows_trans e l a b c : grows e l a b -> grows e l b c -> grows e l a c.
  Proof.
    intros [M1 G1] [M2 G2]. split; [eapply mono_trans; eauto|]. intros t k x H.
    destruct (G2 t k x H) as [H2|(E & Hl & Hn)]; [auto|].
    right. split; [exact E|split; [exact Hl|]]. destruct (rget a t k) as [y|] eqn:Ea; [|reflexivity].
    apply M1 in Ea. congruence.
  Qed.
  Lemma grows_incl e l l' a b : incl l l' -> grows e l a b -> grows e l' a b.
  Proof. intros Hi [M G]. split; [exact M|]. intros t k x H. destruct (G t k x H) as [|(E & Hl & Hn)]; auto. Qed.

  Definition fresh (l : list (table * str)) (g : registry) : Prop := forall t k, In (t, k) l -> rget g t k = None.
  Definition bound (e : elem) (l : list (table * str)) (g : registry) : Prop := forall t k, In (t, k) l -> rget g t k = Some e.

  Lemma names_spec t e names : forall g,
    let l := map (fun n => (t, lower n)) names in
    let '(r, g') := register_names lower t names e g in
    grows e l g g' /\ (r = Ok tt -> fresh l g /\ NoDup l /\ bound e l g')
    /\ (fresh l g -> NoDup l -> r = Ok tt).
  Proof.
    induction names as [|n names IH]; intros g; cbn [map register_names].
    - split; [apply grows_refl|]. split; [|auto]. intros _. split; [intros ? ? []|]. split; [constructor|intros ? ? []].
    - destruct (rmem g t (lower n)) eqn:Em.
      + split; [apply grows_refl|]. split; [discriminate|]. intros Hf _.
        exfalso. apply (f_equal negb) in Em. assert (rmem g t (lower n) = false); [|destruct (rmem g t (lower n)); discriminate].
        apply rmem_false. apply Hf. left; reflexivity.
      + apply rmem_false in Em. specialize (IH (rset g t (lower n) e)). cbv zeta in IH.
        destruct (register_names lower t names e (rset g t (lower n) e)) as [r g'].
        destruct IH as (G & HO & HS). split; [|split].
        * eapply grows_trans; [apply (grows_set e _ g t (lower n)); [left; reflexivity|exact Em]|].
          eapply grows_incl; [|exact G]. intros x Hx; right; exact Hx.
        * intros Hr. destruct (HO Hr) as (F & ND & B).
          assert (Hni : ~ In (t, lower n) (map (fun n => (t, lower n)) names)).
          { intros Hi. apply F in Hi. rewrite rget_set_eq in Hi. discriminate. }
          split; [|split].
          -- intros t2 k2 [E|Hi]; [injection E as <- <-; exact Em|].
             specialize (F t2 k2 Hi). rewrite rget_set_neq in F; [exact F|]. intros E. rewrite E in Hni. contradiction.
          -- constructor; assumption.
          -- intros t2 k2 [E|Hi]; [|auto]. injection E as <- <-. apply (proj1 G). apply rget_set_eq.
        * intros F ND. inversion ND as [|? ? Hni ND']; subst. apply HS; [|exact ND'].
          intros t2 k2 Hi. rewrite rget_set_neq; [apply F; right; exact Hi|]. intros E. rewrite E in Hni. contradiction.
  Qed.

  (** optional single key followed by nothing *)
  Lemma register_spec e g :
    let '(r, g') := register e g in
    grows e (ids e) g g'
    /\ (r = Ok tt -> fresh (ids e) g /\ NoDup (ids e) /\ bound e (ids e) g')
    /\ (fresh (ids e) g -> NoDup (ids e) -> complete reserved e -> r = Ok tt).
  Proof.
    unfold Model_Registration.register, identifiers, complete. destruct (e_kind e) as [oid|oid name|oid names|oid names|hm kw req attr resp].
    - destruct (rmem g TSyntax oid) eqn:Em.
      + split; [apply grows_refl|]. split; [discriminate|]. intros F _ _.
        specialize (F TSyntax oid (or_introl eq_refl)). apply rmem_false in F. congruence.
      + apply rmem_false in Em. split; [apply grows_set; [left; reflexivity|exact Em]|]. split; [|auto].
        intros _. split; [|split].
        * intros t k [E|[]]. injection E as <- <-. exact Em.
        * constructor; [intros []|constructor].
        * intros t k [E|[]]. injection E as <- <-. apply rget_set_eq.
    - (* matching rule *)
      set (l2 := if empty_str name then [] else [(TMatchName, lower name)]).
      assert (S2 : forall g0, 
        let '(r, g') := (if empty_str name then (Ok tt, g0) else if rmem g0 TMatchName (lower name) then (Raise LDAPSchemaError, g0)
             else (Ok tt, rset g0 TMatchName (lower name) e)) : res unit * registry in
        grows e l2 g0 g' /\ (r = Ok tt -> fresh l2 g0 /\ NoDup l2 /\ bound e l2 g') /\ (fresh l2 g0 -> r = Ok tt)).
      { intros g0. unfold l2. destruct (empty_str name) eqn:En.
        - split; [apply grows_refl|]. split; [|auto]. intros _. split; [intros ? ? []|split; [constructor|intros ? ? []]].
        - destruct (rmem g0 TMatchName (lower name)) eqn:Em.
          + split; [apply grows_refl|]. split; [discriminate|]. intros F.
            specialize (F _ _ (or_introl eq_refl)). apply rmem_false in F. congruence.
          + apply rmem_false in Em. split; [apply grows_set; [left; reflexivity|exact Em]|]. split; [|auto].
            intros _. split; [|split].
            * intros t k [E|[]]. injection E as <- <-. exact Em.
            * constructor; [intros []|constructor].
            * intros t k [E|[]]. injection E as <- <-. apply rget_set_eq. }
      destruct (empty_str oid) eqn:Eo; cbn [app].
      + specialize (S2 g).
        destruct (if empty_str name then (Ok tt, g) else if rmem g TMatchName (lower name) then (Raise LDAPSchemaError, g)
             else (Ok tt, rset g TMatchName (lower name) e)) as [r g']. destruct S2 as (A & B & C). auto.
      + destruct (rmem g TMatchOid oid) eqn:Em.
        * split; [apply grows_refl|]. split; [discriminate|]. intros F _ _.
          specialize (F _ _ (or_introl eq_refl)). apply rmem_false in F. congruence.
        * apply rmem_false in Em. specialize (S2 (rset g TMatchOid oid e)).
          destruct (if empty_str name then (Ok tt, rset g TMatchOid oid e) else if rmem (rset g TMatchOid oid e) TMatchName (lower name) then (Raise LDAPSchemaError, rset g TMatchOid oid e)
             else (Ok tt, rset (rset g TMatchOid oid e) TMatchName (lower name) e)) as [r g'].
          destruct S2 as (A & B & C).
          assert (Hd : ~ In (TMatchOid, oid) l2).
          { unfold l2. destruct (empty_str name); [intros []|intros [E|[]]; discriminate]. }
          split; [|split].
          -- eapply grows_trans; [apply (grows_set e _ g TMatchOid oid); [left; reflexivity|exact Em]|].
             eapply grows_incl; [|exact A]. intros x Hx; right; exact Hx.
          -- intros Hr. destruct (B Hr) as (F & ND & Bd). split; [|split].
             ++ intros t k [E|Hi]; [injection E as <- <-; exact Em|].
                specialize (F t k Hi). rewrite rget_set_neq in F; [exact F|]. intros E; rewrite E in Hd; contradiction.
             ++ constructor; assumption.
             ++ intros t k [E|Hi]; [|auto]. injection E as <- <-. apply (proj1 A). apply rget_set_eq.
          -- intros F _ _. apply C. intros t k Hi. rewrite rget_set_neq; [apply F; right; exact Hi|].
             intros E; rewrite E in Hd; contradiction.
    - (* attribute type *)
      set (l2 := map (fun n => (TAttrName, lower n)) names).
      destruct (rmem g TAttrOid oid) eqn:Em.
      + split; [apply grows_refl|]. split; [discriminate|]. intros F _ _.
        specialize (F _ _ (or_introl eq_refl)). apply rmem_false in F. congruence.
      + apply rmem_false in Em. pose proof (names_spec TAttrName e names (rset g TAttrOid oid e)) as S2. cbv zeta in S2. fold l2 in S2.
        destruct (register_names lower TAttrName names e (rset g TAttrOid oid e)) as [r g']. destruct S2 as (A & B & C).
        assert (Hd : ~ In (TAttrOid, oid) l2).
        { unfold l2. intros Hi. apply in_map_iff in Hi. destruct Hi as (n & E & _). discriminate. }
        split; [|split].
        * eapply grows_trans; [apply (grows_set e _ g TAttrOid oid); [left; reflexivity|exact Em]|].
          eapply grows_incl; [|exact A]. intros x Hx; right; exact Hx.
        * intros Hr. destruct (B Hr) as (F & ND & Bd). split; [|split].
          -- intros t k [E|Hi]; [injection E as <- <-; exact Em|].
             specialize (F t k Hi). rewrite rget_set_neq in F; [exact F|]. intros E; rewrite E in Hd; contradiction.
          -- constructor; assumption.
          -- intros t k [E|Hi]; [|auto]. injection E as <- <-. apply (proj1 A). apply rget_set_eq.
        * intros F ND _. inversion ND as [|? ? Hni ND']; subst. apply C; [|exact ND']. intros t k Hi.
          rewrite rget_set_neq; [apply F; right; exact Hi|]. intros E; rewrite E in Hd; contradiction.
    - (* object class *)
      set (l2 := map (fun n => (TClassName, lower n)) names).
      destruct (rmem g TClassOid oid) eqn:Em.
      + split; [apply grows_refl|]. split; [discriminate|]. intros F _ _.
        specialize (F _ _ (or_introl eq_refl)). apply rmem_false in F. congruence.
      + apply rmem_false in Em. pose proof (names_spec TClassName e names (rset g TClassOid oid e)) as S2. cbv zeta in S2. fold l2 in S2.
        destruct (register_names lower TClassName names e (rset g TClassOid oid e)) as [r g']. destruct S2 as (A & B & C).
        assert (Hd : ~ In (TClassOid, oid) l2).
        { unfold l2. intros Hi. apply in_map_iff in Hi. destruct Hi as (n & E & _). discriminate. }
        split; [|split].
        * eapply grows_trans; [apply (grows_set e _ g TClassOid oid); [left; reflexivity|exact Em]|].
          eapply grows_incl; [|exact A]. intros x Hx; right; exact Hx.
        * intros Hr. destruct (B Hr) as (F & ND & Bd). split; [|split].
          -- intros t k [E|Hi]; [injection E as <- <-; exact Em|].
             specialize (F t k Hi). rewrite rget_set_neq in F; [exact F|]. intros E; rewrite E in Hd; contradiction.
          -- constructor; assumption.
          -- intros t k [E|Hi]; [|auto]. injection E as <- <-. apply (proj1 A). apply rget_set_eq.
        * intros F ND _. inversion ND as [|? ? Hni ND']; subst. apply C; [|exact ND']. intros t k Hi.
          rewrite rget_set_neq; [apply F; right; exact Hi|]. intros E; rewrite E in Hd; contradiction.
    - (* control *)
      cbv zeta.
      set (l2 := if empty_str resp then [] else [(TCtlResponse, resp)]).
      pose (second := fun g0 : registry =>
          if empty_str resp then (Ok tt, g0)
          else if empty_str attr then (Raise ValueError, g0)
          else if rmem g0 TCtlResponse resp then (Raise LDAPExtensionError, g0)
          else (Ok tt, rset g0 TCtlResponse resp e)).
      assert (S2 : forall g0, let '(r, g') := second g0 in
        grows e l2 g0 g' /\ (r = Ok tt -> fresh l2 g0 /\ NoDup l2 /\ bound e l2 g')
        /\ (fresh l2 g0 -> (resp <> [] -> attr <> []) -> r = Ok tt)).
      { intros g0. unfold second, l2. destruct (empty_str resp) eqn:En.
        - split; [apply grows_refl|]. split; [|auto]. intros _. split; [intros ? ? []|split; [constructor|intros ? ? []]].
        - apply empty_str_false in En. destruct (empty_str attr) eqn:Ea.
          { apply empty_str_true in Ea. split; [apply grows_refl|]. split; [discriminate|]. intros _ H. exfalso. apply (H En). exact Ea. }
          destruct (rmem g0 TCtlResponse resp) eqn:Em.
          + split; [apply grows_refl|]. split; [discriminate|]. intros F _.
            specialize (F _ _ (or_introl eq_refl)). apply rmem_false in F. congruence.
          + apply rmem_false in Em. split; [apply grows_set; [left; reflexivity|exact Em]|]. split; [|auto].
            intros _. split; [|split].
            * intros t k [E|[]]. injection E as <- <-. exact Em.
            * constructor; [intros []|constructor].
            * intros t k [E|[]]. injection E as <- <-. apply rget_set_eq. }
      destruct (empty_str req) eqn:Eo; cbn [app].
      + fold (second g). specialize (S2 g). destruct (second g) as [r g']. destruct S2 as (A & B & C). split; [exact A|split; [exact B|]].
        intros F _ [_ H]. apply C; assumption.
      + apply empty_str_false in Eo.
        destruct hm; cbn [negb].
        2:{ split; [apply grows_refl|]. split; [discriminate|]. intros _ _ [H _]. destruct (H Eo); discriminate. }
        destruct (empty_str kw) eqn:Ek.
        { apply empty_str_true in Ek. split; [apply grows_refl|]. split; [discriminate|]. intros _ _ [H _].
          destruct (H Eo) as (_ & H2 & _). congruence. }
        destruct (smem kw reserved) eqn:Er.
        { apply smem_In in Er. split; [apply grows_refl|]. split; [discriminate|]. intros _ _ [H _].
          destruct (H Eo) as (_ & _ & H2). contradiction. }
        destruct (rmem g TCtlKeyword kw) eqn:Emk.
        { split; [apply grows_refl|]. split; [discriminate|]. intros F _ _.
          specialize (F _ _ (or_introl eq_refl)). apply rmem_false in F. congruence. }
        destruct (rmem g TCtlRequest req) eqn:Emr.
        { split; [apply grows_refl|]. split; [discriminate|]. intros F _ _.
          specialize (F _ _ (or_intror (or_introl eq_refl))). apply rmem_false in F. congruence. }
        apply rmem_false in Emk. apply rmem_false in Emr.
        set (g1 := rset g TCtlKeyword kw e) in *.
        assert (Er1 : rget g1 TCtlRequest req = None) by (unfold g1; rewrite rget_set_neq by discriminate; exact Emr).
        set (g2 := rset g1 TCtlRequest req e) in *. specialize (S2 g2). fold (second g2).
        destruct (second g2) as [r g']. destruct S2 as (A & B & C).
        assert (Hd1 : ~ In (TCtlKeyword, kw) l2) by (unfold l2; destruct (empty_str resp); [intros []|intros [E|[]]; discriminate]).
        assert (Hd2 : ~ In (TCtlRequest, req) l2) by (unfold l2; destruct (empty_str resp); [intros []|intros [E|[]]; discriminate]).
        assert (Hsame : forall t k, In (t, k) l2 -> rget g2 t k = rget g t k).
        { intros t k Hi. unfold g2, g1. rewrite rget_set_neq by (intros E; rewrite E in Hd2; contradiction).
          apply rget_set_neq. intros E; rewrite E in Hd1; contradiction. }
        split; [|split].
        * eapply grows_trans; [apply (grows_set e _ g TCtlKeyword kw); [left; reflexivity|exact Emk]|].
          eapply grows_trans; [apply (grows_set e _ g1 TCtlRequest req); [right; left; reflexivity|exact Er1]|].
          eapply grows_incl; [|exact A]. intros x Hx; right; right; exact Hx.
        * intros Hr. destruct (B Hr) as (F & ND & Bd). split; [|split].
          -- intros t k [E|[E|Hi]]; [injection E as <- <-; exact Emk|injection E as <- <-; exact Emr|].
             rewrite <- Hsame by exact Hi. auto.
          -- constructor; [intros [E|Hi]; [discriminate|contradiction]|]. constructor; assumption.
          -- intros t k [E|[E|Hi]]; [| |auto]; injection E as <- <-; apply (proj1 A); unfold g2.
             ++ rewrite rget_set_neq by discriminate. apply rget_set_eq.
             ++ apply rget_set_eq.
        * intros F _ [_ H]. apply C; [|exact H]. intros t k Hi. rewrite Hsame by exact Hi. apply F. right; right; exact Hi.
  Qed.
End R.
