(** * Proofs about rule instances *)
From Verif Require Import PyBase Model_Rules Spec_Rules.

Lemma empty_spec s : empty s = true <-> s = [].
Proof. destruct s; split; try reflexivity; discriminate. Qed.
Lemma empty_false s : empty s = false <-> s <> [].
Proof. destruct s; cbn; split; congruence. Qed.
Lemma dmem_false {V} (d : list (str * V)) k : dmem d k = false <-> dget d k = None.
Proof. unfold dmem. destruct (dget d k); split; congruence. Qed.
Lemma dget_dset_absent {V} (d : list (str * V)) k v k2 x : dget d k = None -> dget d k2 = Some x -> dget (dset d k v) k2 = Some x.
Proof. intros H1 H2. rewrite dget_dset_neq; [exact H2|congruence]. Qed.

Section P.
  Context (lower : str -> str) (isdigit : N -> bool).
  Notation rstep := (rstep lower isdigit). Notation rrun := (rrun lower isdigit).

  (** ** every history *)
  Record inv (st : rstate) : Prop := mk_inv {
    v_syn_cls : forall o c, dget (rs_syn_cls st) o = Some c -> rc_oid c = o;
    v_oid_cls : forall o c, dget (rs_oid_cls st) o = Some c -> rc_oid c = o /\ o <> [];
    v_name_cls : forall n c, dget (rs_name_cls st) n = Some c -> lower (rc_name c) = n /\ rc_name c <> [];
    v_syn_obj : forall o i, dget (rs_syn_obj st) o = Some i -> rc_oid (ri_class i) = o /\ o <> [];
    v_oid_obj : forall o i, dget (rs_oid_obj st) o = Some i -> rc_oid (ri_class i) = o /\ o <> [];
    v_name_obj : forall n i, dget (rs_name_obj st) n = Some i -> lower (rc_name (ri_class i)) = n /\ rc_name (ri_class i) <> [] /\
      (rc_oid (ri_class i) <> [] -> dget (rs_oid_obj st) (rc_oid (ri_class i)) = Some i) }.
  (** nothing that is there is replaced *)
  Record grows (a b : rstate) : Prop := mk_grows {
    g_syn_cls : forall o c, dget (rs_syn_cls a) o = Some c -> dget (rs_syn_cls b) o = Some c;
    g_oid_cls : forall o c, dget (rs_oid_cls a) o = Some c -> dget (rs_oid_cls b) o = Some c;
    g_name_cls : forall o c, dget (rs_name_cls a) o = Some c -> dget (rs_name_cls b) o = Some c;
    g_syn_obj : forall o c, dget (rs_syn_obj a) o = Some c -> dget (rs_syn_obj b) o = Some c;
    g_oid_obj : forall o c, dget (rs_oid_obj a) o = Some c -> dget (rs_oid_obj b) o = Some c;
    g_name_obj : forall o c, dget (rs_name_obj a) o = Some c -> dget (rs_name_obj b) o = Some c }.
  Lemma grows_refl a : grows a a.
  Proof. split; auto. Qed.
  Lemma grows_trans a b c : grows a b -> grows b c -> grows a c.
  Proof. intros [A1 A2 A3 A4 A5 A6] [B1 B2 B3 B4 B5 B6]. split; auto. Qed.
  Lemma inv_empty : inv rs_empty.
  Proof. split; discriminate. Qed.

  Lemma syn_register_ok st c : inv st -> let '(st', _) := syn_register st c in inv st' /\ grows st st'.
  Proof.
    intros [V1 V2 V3 V4 V5 V6]. unfold syn_register. destruct (dmem _ _) eqn:D; [split; [split; assumption|apply grows_refl]|].
    apply dmem_false in D. split; split; cbn [rs_syn_cls rs_syn_obj rs_oid_cls rs_name_cls rs_oid_obj rs_name_obj]; auto.
    - intros o c'. rewrite dget_dset. destruct (str_eqb_spec (rc_oid c) o) as [E|E]; [intros [= <-]; exact E|apply V1].
    - intros o c' H. now apply dget_dset_absent.
  Qed.
  Lemma mat_register_ok st c : inv st -> let '(st', _) := mat_register lower st c in inv st' /\ grows st st'.
  Proof.
    intros V. unfold mat_register.
    assert (S2 : forall st, inv st -> let '(st', _) :=
       (if empty (rc_name c) then (st, Ok tt)
        else if dmem (rs_name_cls st) (lower (rc_name c)) then (st, Raise LDAPSchemaError)
        else (mk_rs (rs_syn_cls st) (rs_syn_obj st) (rs_oid_cls st) (dset (rs_name_cls st) (lower (rc_name c)) c) (rs_oid_obj st) (rs_name_obj st) (rs_next st), Ok tt))
       in inv st' /\ grows st st').
    { clear st V. intros st V. destruct (empty (rc_name c)) eqn:Ee; [split; [exact V|apply grows_refl]|]. apply empty_false in Ee.
      destruct (dmem _ _) eqn:D; [split; [exact V|apply grows_refl]|]. apply dmem_false in D. destruct V as [V1 V2 V3 V4 V5 V6].
      split; split; cbn [rs_syn_cls rs_syn_obj rs_oid_cls rs_name_cls rs_oid_obj rs_name_obj]; auto.
      - intros o c'. rewrite dget_dset. destruct (str_eqb_spec (lower (rc_name c)) o) as [E|E]; [intros [= <-]; auto|apply V3].
      - intros o c' H. now apply dget_dset_absent. }
    destruct (empty (rc_oid c)) eqn:Eo; [apply S2, V|]. apply empty_false in Eo.
    destruct (dmem (rs_oid_cls st) (rc_oid c)) eqn:D; [split; [exact V|apply grows_refl]|]. apply dmem_false in D.
    set (st1 := mk_rs _ _ _ _ _ _ _).
    assert (V' : inv st1 /\ grows st st1).
    { destruct V as [V1 V2 V3 V4 V5 V6]. unfold st1. split; split; cbn [rs_syn_cls rs_syn_obj rs_oid_cls rs_name_cls rs_oid_obj rs_name_obj]; auto.
      - intros o c'. rewrite dget_dset. destruct (str_eqb_spec (rc_oid c) o) as [E|E]; [intros [= <-]; subst; auto|apply V2].
      - intros o c' H. now apply dget_dset_absent. }
    destruct V' as [V' G]. specialize (S2 st1 V'). destruct (if empty (rc_name c) then _ else _) as [st' r]. destruct S2 as [V'' G']. split; [exact V''|].
    exact (grows_trans _ _ _ G G').
  Qed.
  Definition stored_syn (st : rstate) (i : rinst) : Prop := rc_oid (ri_class i) <> [] -> dget (rs_syn_obj st) (rc_oid (ri_class i)) = Some i.
  Definition stored_oid (st : rstate) (i : rinst) : Prop := rc_oid (ri_class i) <> [] -> dget (rs_oid_obj st) (rc_oid (ri_class i)) = Some i.
  Definition stored_name (st : rstate) (i : rinst) : Prop := rc_name (ri_class i) <> [] -> dget (rs_name_obj st) (lower (rc_name (ri_class i))) = Some i.

  Lemma syn_new_ok st c : inv st -> let '(st', r) := syn_new st c in inv st' /\ grows st st' /\
    (forall i, r = Ok i -> ri_class i = c /\ stored_syn st' i) /\
    (dget (rs_syn_obj st) (rc_oid c) = None -> exists i, r = Ok i).
  Proof.
    intros [V1 V2 V3 V4 V5 V6]. unfold syn_new. destruct (empty (rc_oid c)) eqn:Eo.
    - apply empty_spec in Eo. split; [split; assumption|]. split; [split; auto|]. split; [|eauto]. intros i [= <-]. split; [reflexivity|]. intros X. cbn [ri_class] in X. contradiction.
    - apply empty_false in Eo. destruct (dmem _ _) eqn:D.
      + split; [split; assumption|]. split; [split; auto|]. split; [discriminate|]. unfold dmem in D. intros H. rewrite H in D. discriminate.
      + apply dmem_false in D. split; [|split; [|split; [|eauto]]].
        * split; cbn [rs_syn_cls rs_syn_obj rs_oid_cls rs_name_cls rs_oid_obj rs_name_obj]; auto.
          intros o i. rewrite dget_dset. destruct (str_eqb_spec (rc_oid c) o) as [E|E]; [intros [= <-]; cbn [ri_class]; subst; auto|apply V4].
        * split; cbn [rs_syn_cls rs_syn_obj rs_oid_cls rs_name_cls rs_oid_obj rs_name_obj]; auto. intros o i H. now apply dget_dset_absent.
        * intros i [= <-]. split; [reflexivity|]. intros _. cbn [ri_class rs_syn_obj]. apply dget_dset_eq.
  Qed.
  Lemma mat_new_ok st c : inv st -> let '(st', r) := mat_new lower st c in inv st' /\ grows st st' /\
    (forall i, r = Ok i -> ri_class i = c /\ stored_oid st' i /\ stored_name st' i).
  Proof.
    intros V. unfold mat_new. set (i0 := mk_inst (rs_next st) c). destruct V as [V1 V2 V3 V4 V5 V6].
    assert (S2 : forall O, (forall o i, dget O o = Some i -> rc_oid (ri_class i) = o /\ o <> []) -> (forall o i, dget (rs_oid_obj st) o = Some i -> dget O o = Some i) ->
      (rc_oid c <> [] -> dget O (rc_oid c) = Some i0) ->
      let '(st', r) :=
      (if empty (rc_name c) then (mk_rs (rs_syn_cls st) (rs_syn_obj st) (rs_oid_cls st) (rs_name_cls st) O (rs_name_obj st) (S (rs_next st)), Ok i0)
       else if dmem (rs_name_obj st) (lower (rc_name c)) then (mk_rs (rs_syn_cls st) (rs_syn_obj st) (rs_oid_cls st) (rs_name_cls st) O (rs_name_obj st) (S (rs_next st)), Raise LDAPSchemaError)
       else (mk_rs (rs_syn_cls st) (rs_syn_obj st) (rs_oid_cls st) (rs_name_cls st) O (dset (rs_name_obj st) (lower (rc_name c)) i0) (S (rs_next st)), Ok i0)) in
      inv st' /\ grows st st' /\ (forall i, r = Ok i -> ri_class i = c /\ stored_oid st' i /\ stored_name st' i)).
    { intros O HO HG Hi. assert (V6' : forall n i, dget (rs_name_obj st) n = Some i -> lower (rc_name (ri_class i)) = n /\ rc_name (ri_class i) <> [] /\
        (rc_oid (ri_class i) <> [] -> dget O (rc_oid (ri_class i)) = Some i)).
      { intros n i H. destruct (V6 n i H) as (A & B & C). auto. }
      destruct (empty (rc_name c)) eqn:En.
      - apply empty_spec in En. split; [split; assumption|]. split; [split; auto|]. intros i [= <-]. split; [reflexivity|]. split; [exact Hi|]. intros X. cbn [ri_class] in X. contradiction.
      - apply empty_false in En. destruct (dmem _ _) eqn:D.
        + split; [split; assumption|]. split; [split; auto|discriminate].
        + apply dmem_false in D. split; [|split].
          * split; cbn [rs_syn_cls rs_syn_obj rs_oid_cls rs_name_cls rs_oid_obj rs_name_obj]; auto.
            intros n i. rewrite dget_dset. destruct (str_eqb_spec (lower (rc_name c)) n) as [E|E]; [|apply V6']. intros [= <-]. cbn [ri_class]. auto.
          * split; cbn [rs_syn_cls rs_syn_obj rs_oid_cls rs_name_cls rs_oid_obj rs_name_obj]; auto. intros n i H. now apply dget_dset_absent.
          * intros i [= <-]. split; [reflexivity|]. split; [exact Hi|]. intros _. cbn [ri_class rs_name_obj]. apply dget_dset_eq. }
    destruct (empty (rc_oid c)) eqn:Eo.
    - apply empty_spec in Eo. apply S2; auto. congruence.
    - apply empty_false in Eo. destruct (dmem (rs_oid_obj st) (rc_oid c)) eqn:D.
      + split; [split; assumption|]. split; [split; auto|discriminate].
      + apply dmem_false in D. apply S2.
        * intros o i. rewrite dget_dset. destruct (str_eqb_spec (rc_oid c) o) as [E|E]; [intros [= <-]; cbn [ri_class]; subst; auto|apply V5].
        * intros o i H. now apply dget_dset_absent.
        * intros _. apply dget_dset_eq.
  Qed.
  Lemma get_syn_ok st oid : inv st -> let '(st', r) := get_syntax_rule st oid in inv st' /\ grows st st' /\
    (forall i, r = Ok i -> rc_oid (ri_class i) = oid /\ stored_syn st' i) /\
    (r = Raise KeyError \/ exists i, r = Ok i) /\ ((exists c, dget (rs_syn_cls st) oid = Some c) -> exists i, r = Ok i).
  Proof.
    intros V. unfold get_syntax_rule. destruct (dget (rs_syn_obj st) oid) as [i|] eqn:D.
    - split; [exact V|]. split; [apply grows_refl|]. split; [|eauto]. intros i' [= <-]. destruct (v_syn_obj _ V _ _ D) as [E N]. split; [exact E|]. intros _. now rewrite E.
    - destruct (dget (rs_syn_cls st) oid) as [c|] eqn:C.
      + pose proof (syn_new_ok st c V) as H. pose proof (v_syn_cls _ V _ _ C) as Ec. destruct (syn_new st c) as [st' r]. destruct H as (H1 & H2 & H3 & H4).
        split; [exact H1|]. split; [exact H2|]. rewrite Ec in H4. destruct (H4 D) as [i Hi]. split; [|split; [right; eauto|eauto]]. intros j Hj. destruct (H3 j Hj) as [E S]. split; [congruence|exact S].
      + split; [exact V|]. split; [apply grows_refl|]. split; [discriminate|]. split; [now left|]. intros [c' X]. discriminate.
  Qed.
  Lemma get_mat_ok st ident : inv st -> let '(st', r) := get_matching_rule lower isdigit st ident in inv st' /\ grows st st' /\
    (forall i, r = Ok i -> names_class lower isdigit ident (ri_class i) /\ stored_oid st' i).
  Proof.
    intros V. unfold get_matching_rule. destruct ident as [|ch rest]; [split; [exact V|]; split; [apply grows_refl|discriminate]|].
    set (ident := ch :: rest). destruct (isdigit ch) eqn:Ed.
    - destruct (dget (rs_oid_obj st) ident) as [i|] eqn:D.
      + split; [exact V|]. split; [apply grows_refl|]. intros i' [= <-]. destruct (v_oid_obj _ V _ _ D) as [E N]. split; [|intros _; now rewrite E].
        exists ch, rest. split; [reflexivity|]. rewrite Ed. now symmetry.
      + destruct (dget (rs_oid_cls st) ident) as [c|] eqn:C; [|split; [exact V|]; split; [apply grows_refl|discriminate]].
        pose proof (mat_new_ok st c V) as H. destruct (v_oid_cls _ V _ _ C) as [Ec Nc]. destruct (mat_new lower st c) as [st' r]. destruct H as (H1 & H2 & H3).
        split; [exact H1|]. split; [exact H2|]. intros i Hi. destruct (H3 i Hi) as (E & S1 & S2). split; [|exact S1]. exists ch, rest. split; [reflexivity|]. rewrite Ed. congruence.
    - destruct (dget (rs_name_obj st) (lower ident)) as [i|] eqn:D.
      + split; [exact V|]. split; [apply grows_refl|]. intros i' [= <-]. destruct (v_name_obj _ V _ _ D) as (E & N & S). split; [|exact S].
        exists ch, rest. split; [reflexivity|]. rewrite Ed. now split.
      + destruct (dget (rs_name_cls st) (lower ident)) as [c|] eqn:C; [|split; [exact V|]; split; [apply grows_refl|discriminate]].
        pose proof (mat_new_ok st c V) as H. destruct (v_name_cls _ V _ _ C) as [Ec Nc]. destruct (mat_new lower st c) as [st' r]. destruct H as (H1 & H2 & H3).
        split; [exact H1|]. split; [exact H2|]. intros i Hi. destruct (H3 i Hi) as (E & S1 & S2). split; [|exact S1]. exists ch, rest. split; [reflexivity|]. rewrite Ed, E. now split.
  Qed.
  Lemma step_ok st o : inv st -> let '(st', r) := rstep st o in inv st' /\ grows st st' /\
    (forall i, r = Ok (Some i) -> (syntax_op o -> stored_syn st' i) /\ (matching_op o -> stored_oid st' i)).
  Proof.
    intros V. destruct o as [c|c|c|c|s|s]; cbn [Model_Rules.rstep].
    - pose proof (syn_register_ok st c V) as H. destruct (syn_register st c) as [st' r]. destruct H as [H1 H2]. split; [exact H1|]. split; [exact H2|]. destruct r; discriminate.
    - pose proof (mat_register_ok st c V) as H. destruct (mat_register lower st c) as [st' r]. destruct H as [H1 H2]. split; [exact H1|]. split; [exact H2|]. destruct r; discriminate.
    - pose proof (syn_new_ok st c V) as H. destruct (syn_new st c) as [st' r]. destruct H as (H1 & H2 & H3 & _). split; [exact H1|]. split; [exact H2|].
      destruct r as [j|x]; [|discriminate]. intros i [= <-]. split; [intros _; now apply H3|]. intros [[c' X]|[s X]]; discriminate.
    - pose proof (mat_new_ok st c V) as H. destruct (mat_new lower st c) as [st' r]. destruct H as (H1 & H2 & H3). split; [exact H1|]. split; [exact H2|].
      destruct r as [j|x]; [|discriminate]. intros i [= <-]. split; [intros [[c' X]|[s X]]; discriminate|]. intros _. now apply H3.
    - pose proof (get_syn_ok st s V) as H. destruct (get_syntax_rule st s) as [st' r]. destruct H as (H1 & H2 & H3 & _). split; [exact H1|]. split; [exact H2|].
      destruct r as [j|x]; [|discriminate]. intros i [= <-]. split; [intros _; now apply H3|]. intros [[c' X]|[s' X]]; discriminate.
    - pose proof (get_mat_ok st s V) as H. destruct (get_matching_rule lower isdigit st s) as [st' r]. destruct H as (H1 & H2 & H3). split; [exact H1|]. split; [exact H2|].
      destruct r as [j|x]; [|discriminate]. intros i [= <-]. split; [intros [[c' X]|[s' X]]; discriminate|]. intros _. now apply H3.
  Qed.
  Lemma run_ok ops : forall st st' es, inv st -> rrun st ops = (st', es) -> inv st' /\ grows st st' /\
    (forall o i, In (o, Ok (Some i)) es -> (syntax_op o -> stored_syn st' i) /\ (matching_op o -> stored_oid st' i)).
  Proof.
    induction ops as [|o ops IH]; intros st st' es V; cbn [Model_Rules.rrun].
    - intros [= <- <-]. split; [exact V|]. split; [apply grows_refl|intros ? ? []].
    - pose proof (step_ok st o V) as H. destruct (rstep st o) as [st1 r]. destruct H as (V1 & G1 & H1).
      destruct (rrun st1 ops) as [st2 rs] eqn:E. intros [= <- <-]. destruct (IH _ _ _ V1 E) as (V2 & G2 & H2).
      split; [exact V2|]. split; [exact (grows_trans _ _ _ G1 G2)|]. intros o' i [Q|Q]; [|now apply H2].
      injection Q as <- ->. destruct (H1 i eq_refl) as [A B]. split.
      + intros Ho Hne. apply (g_syn_obj _ _ G2), A; assumption.
      + intros Ho Hne. apply (g_oid_obj _ _ G2), B; assumption.
  Qed.

  (** ** orderly histories *)
  Record ordinv (st : rstate) : Prop := mk_ord {
    d_oid : forall o c, dget (rs_oid_cls st) o = Some c -> rc_name c <> [] -> dget (rs_name_cls st) (lower (rc_name c)) = Some c;
    d_name : forall n c, dget (rs_name_cls st) n = Some c -> rc_oid c <> [] -> dget (rs_oid_cls st) (rc_oid c) = Some c;
    d_oid_obj : forall o i, dget (rs_oid_obj st) o = Some i -> dget (rs_oid_cls st) o = Some (ri_class i) /\ stored_name st i;
    d_name_obj : forall n i, dget (rs_name_obj st) n = Some i -> dget (rs_name_cls st) n = Some (ri_class i) }.
  Definition good_class (st : rstate) (c : rclass) : Prop :=
    (rc_oid c <> [] -> dget (rs_oid_cls st) (rc_oid c) = Some c) /\ (rc_name c <> [] -> dget (rs_name_cls st) (lower (rc_name c)) = Some c).
  Lemma good_grows a b c : grows a b -> good_class a c -> good_class b c.
  Proof. intros G [H1 H2]. split; intros H; [apply (g_oid_cls _ _ G); auto|apply (g_name_cls _ _ G); auto]. Qed.
  Lemma good_oid st o c : inv st -> ordinv st -> dget (rs_oid_cls st) o = Some c -> good_class st c.
  Proof. intros V D H. destruct (v_oid_cls _ V _ _ H) as [E N]. split; [intros _; now rewrite E|]. exact (d_oid _ D _ _ H). Qed.
  Lemma good_name st n c : inv st -> ordinv st -> dget (rs_name_cls st) n = Some c -> good_class st c.
  Proof. intros V D H. destruct (v_name_cls _ V _ _ H) as [E N]. split; [exact (d_name _ D _ _ H)|]. intros _. now rewrite E. Qed.
  Lemma ord_same st st' : rs_oid_cls st' = rs_oid_cls st -> rs_name_cls st' = rs_name_cls st -> rs_oid_obj st' = rs_oid_obj st -> rs_name_obj st' = rs_name_obj st ->
    ordinv st -> ordinv st'.
  Proof. intros E1 E2 E3 E4 [D1 D2 D3 D4]. split; unfold stored_name in *; rewrite ?E1, ?E2, ?E3, ?E4; assumption. Qed.

  Lemma mat_register_ord st c st' : inv st -> ordinv st -> mat_register lower st c = (st', Ok tt) ->
    ordinv st' /\ good_class st' c /\
    (forall o k, dget (rs_oid_cls st') o = Some k -> k = c \/ dget (rs_oid_cls st) o = Some k) /\
    (forall n k, dget (rs_name_cls st') n = Some k -> k = c \/ dget (rs_name_cls st) n = Some k).
  Proof.
    intros V D. unfold mat_register.
    destruct (empty (rc_oid c)) eqn:Eo; [apply empty_spec in Eo|apply empty_false in Eo; destruct (dmem (rs_oid_cls st) (rc_oid c)) eqn:M; [discriminate|]; apply dmem_false in M];
    (destruct (empty (rc_name c)) eqn:En; [apply empty_spec in En|apply empty_false in En]);
    cbn [rs_syn_cls rs_syn_obj rs_oid_cls rs_name_cls rs_oid_obj rs_name_obj rs_next].
    - intros [= <-]. split; [exact D|]. split; [split; intros; contradiction|]. auto.
    - destruct (dmem (rs_name_cls st) (lower (rc_name c))) eqn:M; [discriminate|]. apply dmem_false in M. intros [= <-].
      destruct D as [D1 D2 D3 D4]. split; [|split; [|split]]; [split| | |]; unfold good_class, stored_name in *; cbn [rs_syn_cls rs_syn_obj rs_oid_cls rs_name_cls rs_oid_obj rs_name_obj]; auto.
      + intros o k H Hn. apply dget_dset_absent; [exact M|]. eauto.
      + intros n k. rewrite dget_dset. destruct (str_eqb_spec (lower (rc_name c)) n) as [E|E]; [intros [= <-]; contradiction|]. apply D2.
      + intros n i H. apply dget_dset_absent; [exact M|]. auto.
      + split; [contradiction|]. intros _. apply dget_dset_eq.
      + intros n k. rewrite dget_dset. destruct (str_eqb_spec (lower (rc_name c)) n) as [E|E]; [intros [= <-]; auto|auto].
    - intros [= <-]. destruct D as [D1 D2 D3 D4].
      split; [|split; [|split]]; [split| | |]; unfold good_class, stored_name in *; cbn [rs_syn_cls rs_syn_obj rs_oid_cls rs_name_cls rs_oid_obj rs_name_obj]; auto.
      + intros o k. rewrite dget_dset. destruct (str_eqb_spec (rc_oid c) o) as [E|E]; [intros [= <-]; contradiction|]. apply D1.
      + intros n k H Hn. apply dget_dset_absent; [exact M|]. eauto.
      + intros o i H. destruct (D3 o i H) as [H1 H2]. split; [apply dget_dset_absent; auto|exact H2].
      + split; [|contradiction]. intros _. apply dget_dset_eq.
      + intros o k. rewrite dget_dset. destruct (str_eqb_spec (rc_oid c) o) as [E|E]; [intros [= <-]; auto|auto].
    - destruct (dmem (rs_name_cls st) (lower (rc_name c))) eqn:M'; [discriminate|]. apply dmem_false in M'. intros [= <-].
      destruct D as [D1 D2 D3 D4].
      split; [|split; [|split]]; [split| | |]; unfold good_class, stored_name in *; cbn [rs_syn_cls rs_syn_obj rs_oid_cls rs_name_cls rs_oid_obj rs_name_obj]; auto.
      + intros o k. rewrite dget_dset. destruct (str_eqb_spec (rc_oid c) o) as [E|E]; [intros [= <-] _; apply dget_dset_eq|].
        intros H Hn. apply dget_dset_absent; [exact M'|]. eauto.
      + intros n k. rewrite dget_dset. destruct (str_eqb_spec (lower (rc_name c)) n) as [E|E]; [intros [= <-] _; apply dget_dset_eq|].
        intros H Hn. apply dget_dset_absent; [exact M|]. eauto.
      + intros o i H. destruct (D3 o i H) as [H1 H2]. split; [apply dget_dset_absent; auto|exact H2].
      + intros n i H. apply dget_dset_absent; auto.
      + split; intros _; apply dget_dset_eq.
      + intros o k. rewrite dget_dset. destruct (str_eqb_spec (rc_oid c) o) as [E|E]; [intros [= <-]; auto|auto].
      + intros n k. rewrite dget_dset. destruct (str_eqb_spec (lower (rc_name c)) n) as [E|E]; [intros [= <-]; auto|auto].
  Qed.
  Lemma mat_new_cls st c : let '(st', _) := mat_new lower st c in rs_oid_cls st' = rs_oid_cls st /\ rs_name_cls st' = rs_name_cls st.
  Proof. unfold mat_new. destruct (empty (rc_oid c)), (dmem (rs_oid_obj st) (rc_oid c)), (empty (rc_name c)), (dmem (rs_name_obj st) (lower (rc_name c))); split; reflexivity. Qed.
  Lemma mat_new_ord st c : inv st -> ordinv st -> good_class st c -> let '(st', r) := mat_new lower st c in ordinv st' /\
    ((rc_oid c <> [] /\ dget (rs_oid_obj st) (rc_oid c) = None) \/ (rc_name c <> [] /\ dget (rs_name_obj st) (lower (rc_name c)) = None) -> exists i, r = Ok i).
  Proof.
    intros V D [G1 G2]. unfold mat_new.
    destruct (empty (rc_oid c)) eqn:Eo; [apply empty_spec in Eo|apply empty_false in Eo; destruct (dmem (rs_oid_obj st) (rc_oid c)) eqn:M; [|apply dmem_false in M]].
    - destruct (empty (rc_name c)) eqn:En; [apply empty_spec in En|apply empty_false in En].
      + split; [apply (ord_same st); [reflexivity|reflexivity|reflexivity|reflexivity|exact D]|eauto].
      + destruct (dmem (rs_name_obj st) (lower (rc_name c))) eqn:M'.
        * split; [apply (ord_same st); [reflexivity|reflexivity|reflexivity|reflexivity|exact D]|]. intros [[X _]|[_ X]]; [contradiction|]. unfold dmem in M'. rewrite X in M'. discriminate.
        * apply dmem_false in M'. split; [|eauto]. destruct D as [D1 D2 D3 D4].
          split; unfold stored_name in *; cbn [rs_syn_cls rs_syn_obj rs_oid_cls rs_name_cls rs_oid_obj rs_name_obj]; auto.
          -- intros o i H. destruct (D3 o i H) as [H1 H2]. split; [exact H1|]. intros Hn. apply dget_dset_absent; auto.
          -- intros n i. rewrite dget_dset. destruct (str_eqb_spec (lower (rc_name c)) n) as [E|E]; [intros [= <-]; cbn [ri_class]; rewrite <- E; auto|apply D4].
    - split; [apply (ord_same st); [reflexivity|reflexivity|reflexivity|reflexivity|exact D]|]. unfold dmem in M. intros [[_ X]|[N X]]; [rewrite X in M; discriminate|].
      exfalso. destruct (dget (rs_oid_obj st) (rc_oid c)) as [i|] eqn:Q; [|discriminate]. destruct (d_oid_obj _ D _ _ Q) as [Q1 Q2].
      rewrite (G1 Eo) in Q1. injection Q1 as Q1. unfold stored_name in Q2. rewrite <- Q1 in Q2. rewrite (Q2 N) in X. discriminate.
    - destruct (empty (rc_name c)) eqn:En; [apply empty_spec in En|apply empty_false in En].
      + split; [|eauto]. destruct D as [D1 D2 D3 D4]. split; unfold stored_name in *; cbn [rs_syn_cls rs_syn_obj rs_oid_cls rs_name_cls rs_oid_obj rs_name_obj]; auto.
        intros o i. rewrite dget_dset. destruct (str_eqb_spec (rc_oid c) o) as [E|E]; [|apply D3]. intros [= <-]. cbn [ri_class]. rewrite <- E. split; [auto|contradiction].
      + destruct (dmem (rs_name_obj st) (lower (rc_name c))) eqn:M'.
        * exfalso. unfold dmem in M'. destruct (dget (rs_name_obj st) (lower (rc_name c))) as [i|] eqn:Q; [|discriminate].
          pose proof (d_name_obj _ D _ _ Q) as Q1. rewrite (G2 En) in Q1. injection Q1 as Q1. destruct (v_name_obj _ V _ _ Q) as (_ & _ & Q2).
          rewrite <- Q1 in Q2. rewrite (Q2 Eo) in M. discriminate.
        * apply dmem_false in M'. split; [|eauto]. destruct D as [D1 D2 D3 D4].
          split; unfold stored_name in *; cbn [rs_syn_cls rs_syn_obj rs_oid_cls rs_name_cls rs_oid_obj rs_name_obj]; auto.
          -- intros o i. rewrite dget_dset. destruct (str_eqb_spec (rc_oid c) o) as [E|E].
             ++ intros [= <-]. cbn [ri_class]. rewrite <- E. split; [auto|]. intros _. apply dget_dset_eq.
             ++ intros H. destruct (D3 o i H) as [H1 H2]. split; [exact H1|]. intros Hn. apply dget_dset_absent; auto.
          -- intros n i. rewrite dget_dset. destruct (str_eqb_spec (lower (rc_name c)) n) as [E|E]; [intros [= <-]; cbn [ri_class]; rewrite <- E; auto|apply D4].
  Qed.
  (** what asking for a rule gives in an orderly state *)
  Lemma get_mat_ord st ident : inv st -> ordinv st -> let '(st', r) := get_matching_rule lower isdigit st ident in
    ordinv st' /\ rs_oid_cls st' = rs_oid_cls st /\ rs_name_cls st' = rs_name_cls st /\
    (forall i, r = Ok i -> stored_name st' i) /\
    (forall c, good_class st c -> names_class lower isdigit ident c -> exists i, r = Ok i /\ ri_class i = c) /\
    (forall i, r = Ok i -> exists o, dget (rs_oid_cls st) o = Some (ri_class i) \/ dget (rs_name_cls st) o = Some (ri_class i)) /\
    (r = Raise KeyError \/ r = Raise IndexError \/ exists i, r = Ok i).
  Proof.
    intros V D. unfold get_matching_rule. destruct ident as [|ch rest].
    { split; [exact D|]. split; [reflexivity|]. split; [reflexivity|]. split; [discriminate|]. split; [intros c _ (ch & r & X & _); discriminate|]. split; [discriminate|auto]. }
    set (ident := ch :: rest). destruct (isdigit ch) eqn:Ed.
    - assert (NC : forall c, good_class st c -> names_class lower isdigit ident c -> dget (rs_oid_cls st) ident = Some c).
      { intros c [G _] (ch' & r' & X & Y). injection X as <- <-. rewrite Ed in Y. rewrite Y. apply G. rewrite <- Y. discriminate. }
      destruct (dget (rs_oid_obj st) ident) as [i|] eqn:Q.
      + destruct (d_oid_obj _ D _ _ Q) as [Q1 Q2]. split; [exact D|]. split; [reflexivity|]. split; [reflexivity|]. split; [intros j [= <-]; exact Q2|].
        split; [|split; [intros j [= <-]; eauto|eauto]]. intros c G NM. exists i. split; [reflexivity|]. rewrite (NC c G NM) in Q1. congruence.
      + destruct (dget (rs_oid_cls st) ident) as [c0|] eqn:C.
        * destruct (v_oid_cls _ V _ _ C) as [E0 N0]. pose proof (mat_new_ord st c0 V D (good_oid _ _ _ V D C)) as H. pose proof (mat_new_cls st c0) as K.
          pose proof (mat_new_ok st c0 V) as W.
          destruct (mat_new lower st c0) as [st' r]. destruct H as [H1 H2], K as [K1 K2], W as (_ & _ & W). destruct H2 as [i ->]; [left; rewrite E0; auto|].
          destruct (W i eq_refl) as (W1 & W2 & W3). split; [exact H1|]. split; [exact K1|]. split; [exact K2|]. split; [intros j [= <-]; exact W3|].
          split; [|split; [intros j [= <-]; rewrite W1; eauto|eauto]]. intros c G NM. exists i. split; [reflexivity|]. specialize (NC c G NM). congruence.
        * split; [exact D|]. split; [reflexivity|]. split; [reflexivity|]. split; [discriminate|]. split; [|split; [discriminate|auto]].
          intros c G NM. specialize (NC c G NM). discriminate.
    - assert (NC : forall c, good_class st c -> names_class lower isdigit ident c -> dget (rs_name_cls st) (lower ident) = Some c).
      { intros c [_ G] (ch' & r' & X & Y). injection X as <- <-. rewrite Ed in Y. destruct Y as [Y1 Y2]. rewrite Y2. auto. }
      destruct (dget (rs_name_obj st) (lower ident)) as [i|] eqn:Q.
      + pose proof (d_name_obj _ D _ _ Q) as Q1. destruct (v_name_obj _ V _ _ Q) as (Q2 & _). split; [exact D|]. split; [reflexivity|]. split; [reflexivity|].
        split; [intros j [= <-] _; now rewrite Q2|]. split; [|split; [intros j [= <-]; eauto|eauto]]. intros c G NM. exists i. split; [reflexivity|]. rewrite (NC c G NM) in Q1. congruence.
      + destruct (dget (rs_name_cls st) (lower ident)) as [c0|] eqn:C.
        * destruct (v_name_cls _ V _ _ C) as [E0 N0]. pose proof (mat_new_ord st c0 V D (good_name _ _ _ V D C)) as H. pose proof (mat_new_cls st c0) as K.
          pose proof (mat_new_ok st c0 V) as W.
          destruct (mat_new lower st c0) as [st' r]. destruct H as [H1 H2], K as [K1 K2], W as (_ & _ & W). destruct H2 as [i ->]; [right; rewrite E0; auto|].
          destruct (W i eq_refl) as (W1 & W2 & W3). split; [exact H1|]. split; [exact K1|]. split; [exact K2|]. split; [intros j [= <-]; exact W3|].
          split; [|split; [intros j [= <-]; rewrite W1; eauto|eauto]]. intros c G NM. exists i. split; [reflexivity|]. specialize (NC c G NM). congruence.
        * split; [exact D|]. split; [reflexivity|]. split; [reflexivity|]. split; [discriminate|]. split; [|split; [discriminate|auto]].
          intros c G NM. specialize (NC c G NM). discriminate.
  Qed.

  (** the state after the events [es] *)
  Record ordered (st : rstate) (es : list event) : Prop := mk_ordered {
    o_inv : inv st; o_ord : ordinv st;
    o_good : forall c, reg_mat es c -> good_class st c;
    o_reg1 : forall o c, dget (rs_oid_cls st) o = Some c -> reg_mat es c;
    o_reg2 : forall o c, dget (rs_name_cls st) o = Some c -> reg_mat es c;
    o_syn : forall c, reg_syn es c -> dget (rs_syn_cls st) (rc_oid c) = Some c }.
  Lemma reg_mat_app es x c : reg_mat (es ++ [x]) c <-> reg_mat es c \/ x = (RegMat c, Ok None).
  Proof. unfold reg_mat. rewrite in_app_iff. cbn [In]. intuition. Qed.
  Lemma step_ordered st es o st' r : ordered st es -> rstep st o = (st', r) ->
    (forall c, o = RegMat c -> r = Ok None) -> (forall c, o = NewMat c -> reg_mat es c) ->
    ordered st' (es ++ [(o, r)]) /\ (forall i, r = Ok (Some i) -> matching_op o -> stored_name st' i).
  Proof.
    intros [V D G R1 R2 RS] E HR HN. pose proof (step_ok st o V) as Q. rewrite E in Q. destruct Q as (V' & Gr & _).
    assert (S' : forall c, reg_syn (es ++ [(o, r)]) c -> (o = RegSyn c -> r = Ok None -> dget (rs_syn_cls st') (rc_oid c) = Some c) -> dget (rs_syn_cls st') (rc_oid c) = Some c).
    { intros c H X. apply in_app_or in H as [H|[H|[]]]; [apply (g_syn_cls _ _ Gr), RS, H|]. injection H as -> ->. auto. }
    assert (SameCase : forall (HD : ordinv st') (E1 : rs_oid_cls st' = rs_oid_cls st) (E2 : rs_name_cls st' = rs_name_cls st), (forall c, o <> RegMat c) -> (forall c, o = RegSyn c -> r = Ok None -> dget (rs_syn_cls st') (rc_oid c) = Some c) -> ordered st' (es ++ [(o, r)])).
    { intros HD E1 E2 NR NS. split; [exact V'|exact HD| | | |].
      - intros c H. apply reg_mat_app in H as [H|H]; [exact (good_grows _ _ _ Gr (G c H))|]. injection H as H _. destruct (NR _ H).
      - intros o' c H. rewrite E1 in H. apply reg_mat_app. left. eauto.
      - intros o' c H. rewrite E2 in H. apply reg_mat_app. left. eauto.
      - intros c H. apply (S' c H). apply NS. }
    destruct o as [c|c|c|c|s|s]; cbn [Model_Rules.rstep] in E.
    - split; [|intros i _ [[c' X]|[s X]]; discriminate]. unfold syn_register in E. destruct (dmem _ _) in E; injection E as <- <-.
      + apply SameCase; [exact D|reflexivity|reflexivity|discriminate|discriminate].
      + apply SameCase; [apply (ord_same st); [reflexivity|reflexivity|reflexivity|reflexivity|exact D]|reflexivity|reflexivity|discriminate|]. intros c' [= <-] _. cbn [rs_syn_cls]. apply dget_dset_eq.
    - split; [|intros i _ [[c' X]|[s X]]; discriminate]. destruct (mat_register lower st c) as [st1 r1] eqn:E1. injection E as <- <-. specialize (HR c eq_refl).
      destruct r1 as [[]|x]; [|discriminate]. destruct (mat_register_ord st c st1 V D E1) as (D' & G' & T1 & T2). split; [exact V'|exact D'| | | |].
      + intros c' H. apply reg_mat_app in H as [H|H]; [exact (good_grows _ _ _ Gr (G c' H))|]. injection H as <-. exact G'.
      + intros o' c' H. apply reg_mat_app. destruct (T1 o' c' H) as [->|H']; [now right|left; eauto].
      + intros o' c' H. apply reg_mat_app. destruct (T2 o' c' H) as [->|H']; [now right|left; eauto].
      + intros c' H. apply (S' c' H). discriminate.
    - split; [|intros i _ [[c' X]|[s X]]; discriminate]. destruct (syn_new st c) as [st1 r1] eqn:E1. injection E as <- <-.
      assert (Z : rs_oid_cls st1 = rs_oid_cls st /\ rs_name_cls st1 = rs_name_cls st /\ rs_oid_obj st1 = rs_oid_obj st /\ rs_name_obj st1 = rs_name_obj st).
      { unfold syn_new in E1. destruct (empty _) in E1; [injection E1 as <- _; auto|]. destruct (dmem _ _) in E1; injection E1 as <- _; auto. }
      destruct Z as (Z1 & Z2 & Z3 & Z4). apply SameCase; [exact (ord_same st _ Z1 Z2 Z3 Z4 D)|exact Z1|exact Z2|discriminate|discriminate].
    - pose proof (mat_new_ord st c V D (G c (HN c eq_refl))) as H. pose proof (mat_new_cls st c) as K. pose proof (mat_new_ok st c V) as W.
      destruct (mat_new lower st c) as [st1 r1] eqn:E1. injection E as <- <-. destruct H as [H1 _], K as [K1 K2], W as (_ & _ & W). split.
      + apply SameCase; [exact H1|exact K1|exact K2|discriminate|discriminate].
      + destruct r1 as [j|x]; [|discriminate]. intros i [= <-] _. now apply W.
    - split; [|intros i _ [[c' X]|[s' X]]; discriminate]. destruct (get_syntax_rule st s) as [st1 r1] eqn:E1. injection E as <- <-.
      assert (Z : rs_oid_cls st1 = rs_oid_cls st /\ rs_name_cls st1 = rs_name_cls st /\ rs_oid_obj st1 = rs_oid_obj st /\ rs_name_obj st1 = rs_name_obj st).
      { unfold get_syntax_rule in E1. destruct (dget (rs_syn_obj st) s); [injection E1 as <- _; auto|]. destruct (dget (rs_syn_cls st) s) as [c|]; [|injection E1 as <- _; auto].
        unfold syn_new in E1. destruct (empty _) in E1; [injection E1 as <- _; auto|]. destruct (dmem _ _) in E1; injection E1 as <- _; auto. }
      destruct Z as (Z1 & Z2 & Z3 & Z4). apply SameCase; [exact (ord_same st _ Z1 Z2 Z3 Z4 D)|exact Z1|exact Z2|discriminate|discriminate].
    - pose proof (get_mat_ord st s V D) as H. destruct (get_matching_rule lower isdigit st s) as [st1 r1]. injection E as <- <-. destruct H as (H1 & K1 & K2 & H2 & _). split.
      + apply SameCase; [exact H1|exact K1|exact K2|discriminate|discriminate].
      + destruct r1 as [j|x]; [|discriminate]. intros i [= <-] _. auto.
  Qed.
  Lemma run_ordered ops : forall st es0 st' es, ordered st es0 -> rrun st ops = (st', es) -> orderly (es0 ++ es) ->
    ordered st' (es0 ++ es) /\ grows st st' /\ (forall o i, In (o, Ok (Some i)) es -> matching_op o -> stored_name st' i).
  Proof.
    induction ops as [|o ops IH]; intros st es0 st' es O; cbn [Model_Rules.rrun].
    - intros [= <- <-] _. rewrite app_nil_r. split; [exact O|]. split; [apply grows_refl|intros ? ? []].
    - destruct (rstep st o) as [st1 r] eqn:E1. destruct (rrun st1 ops) as [st2 rs] eqn:E2. intros [= <- <-] [Q1 Q2].
      pose proof (step_ok st o (o_inv _ _ O)) as SO. rewrite E1 in SO. destruct SO as (_ & G1 & _).
      destruct (step_ordered st es0 o st1 r O E1) as [O1 N1].
      { intros c ->. apply (Q1 c). apply in_or_app. right. now left. }
      { intros c ->. apply (Q2 es0 c r rs). reflexivity. }
      replace (es0 ++ (o, r) :: rs) with ((es0 ++ [(o, r)]) ++ rs) in * by (now rewrite <- app_assoc).
      destruct (IH st1 _ st2 rs O1 E2 (conj Q1 Q2)) as (O2 & G2 & N2). split; [exact O2|]. split; [exact (grows_trans _ _ _ G1 G2)|].
      intros o' i [X|X] Hm; [|now apply (N2 o')]. injection X as <- ->. intros Hn. apply (g_name_obj _ _ G2). now apply (N1 i).
  Qed.
  Lemma ordered_empty : ordered rs_empty [].
  Proof. split; [apply inv_empty|split; discriminate|intros c []|discriminate|discriminate|intros c []]. Qed.
  Lemma run_split ops : forall st st' es1 o r es2, rrun st ops = (st', es1 ++ (o, r) :: es2) ->
    exists ops1 st1 st2, rrun st ops1 = (st1, es1) /\ rstep st1 o = (st2, r).
  Proof.
    induction ops as [|o0 ops IH]; intros st st' es1 o r es2; cbn [Model_Rules.rrun].
    - intros H. destruct es1; discriminate.
    - destruct (rstep st o0) as [st1 r0] eqn:E1. destruct (rrun st1 ops) as [st2 rs] eqn:E2. destruct es1 as [|x es1]; cbn [app]; intros [= -> X].
      + subst. exists [], st, st1. auto.
      + subst. destruct (IH st1 st' es1 o r es2 E2) as (ops1 & st3 & st4 & A & B). exists (o0 :: ops1), st3, st4. split; [|exact B].
        cbn [Model_Rules.rrun]. rewrite E1, A. reflexivity.
  Qed.
  Lemma orderly_prefix es1 es2 : orderly (es1 ++ es2) -> orderly es1.
  Proof.
    intros [H1 H2]. split.
    - intros c r H. apply (H1 c). apply in_or_app. now left.
    - intros e1 c r e2 ->. rewrite <- app_assoc in H2. exact (H2 e1 c r (e2 ++ es2) eq_refl).
  Qed.
  (** ** what was registered stays registered, in every history *)
  Lemma run_reg ops : forall st st' es, inv st -> rrun st ops = (st', es) ->
    (forall c, reg_syn es c -> dget (rs_syn_cls st') (rc_oid c) = Some c) /\ (forall c, reg_mat es c -> good_class st' c).
  Proof.
    induction ops as [|o ops IH]; intros st st' es V; cbn [Model_Rules.rrun].
    - intros [= <- <-]. split; intros c [].
    - pose proof (step_ok st o V) as SO. destruct (rstep st o) as [st1 r] eqn:E1. destruct SO as (V1 & _ & _). destruct (rrun st1 ops) as [st2 rs] eqn:E2.
      intros [= <- <-]. destruct (IH _ _ _ V1 E2) as [R1 R2]. destruct (run_ok ops _ _ _ V1 E2) as (_ & G & _). split.
      + intros c [H|H]; [|now apply R1]. injection H as -> ->. cbn [Model_Rules.rstep] in E1. apply (g_syn_cls _ _ G).
        unfold syn_register in E1. destruct (dmem _ _) in E1; [discriminate|]. injection E1 as <-. cbn [rs_syn_cls]. apply dget_dset_eq.
      + intros c [H|H]; [|now apply R2]. injection H as -> ->. cbn [Model_Rules.rstep] in E1. apply (good_grows _ _ _ G).
        destruct (mat_register lower st c) as [st3 r3] eqn:E3. injection E1 as <- E1. destruct r3 as [[]|x]; [|discriminate]. clear - E3.
        unfold mat_register in E3. unfold good_class.
        destruct (empty (rc_oid c)) eqn:Eo; [apply empty_spec in Eo|apply empty_false in Eo; destruct (dmem (rs_oid_cls st) (rc_oid c)); [discriminate|]];
        (destruct (empty (rc_name c)) eqn:En; [apply empty_spec in En|apply empty_false in En; destruct (dmem _ (lower (rc_name c))); [discriminate|]]);
        injection E3 as <-; cbn [rs_oid_cls rs_name_cls]; split; intros; try contradiction; apply dget_dset_eq.
  Qed.
  Lemma run_reg_syn ops st st' es : inv st -> rrun st ops = (st', es) -> forall c, reg_syn es c -> dget (rs_syn_cls st') (rc_oid c) = Some c.
  Proof. intros V E. exact (proj1 (run_reg ops _ _ _ V E)). Qed.
  Lemma run_reg_mat ops st st' es : inv st -> rrun st ops = (st', es) -> forall c, reg_mat es c -> good_class st' c.
  Proof. intros V E. exact (proj2 (run_reg ops _ _ _ V E)). Qed.
End P.
