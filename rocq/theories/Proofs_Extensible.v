From Verif Require Import PyBase Model_Registration Model_Extensible.

Lemma upd_nth {A} (l : list A) n x k : nth_error (upd l n x) k = if Nat.eqb n k then (match nth_error l n with Some _ => Some x | None => None end) else nth_error l k.
Proof.
  revert n k; induction l as [|y l IH]; intros n k; cbn [upd].
  - destruct (Nat.eqb_spec n k) as [->|]; [|reflexivity]. destruct k; reflexivity.
  - destruct n as [|n], k as [|k]; cbn [nth_error Nat.eqb]; try reflexivity. apply IH.
Qed.

Section E.
  Context (lower : str -> str) (reserved : list str) (modules : str -> option pymod)
    (available : list (str * (str * bool))) (prop own : host -> str -> bool).
  Notation import_module := (import_module lower reserved modules).
  Notation import_extension := (import_extension lower reserved modules).
  Notation add_extension := (add_extension lower reserved modules available).
  Notation create_instance := (create_instance).
  Notation get_extension_instance := (get_extension_instance lower reserved modules available).
  Notation getattr_ := (getattr_ modules).
  Notation access := (access lower reserved modules available prop own).
  Notation exec := (exec lower reserved modules available prop own).
  Notation execs := (execs lower reserved modules available prop own).

  (** What stays as it is in the future *)
  Record later (s s' : state) : Prop := mk_later {
    l_mods : incl (s_mods s) (s_mods s');
    l_setup : incl (s_setup s) (s_setup s');
    l_inst : forall m i, dget (s_inst s) m = Some i -> dget (s_inst s') m = Some i;
    l_added : forall name m, dget (s_added s) name = Some m -> dget (s_added s') name = Some m;
    l_objs : forall n o, nth_error (s_objs s) n = Some o ->
      exists o', nth_error (s_objs s') n = Some o' /\ o_host o' = o_host o /\ o_only o' = o_only o
        /\ forall name i, dget (o_insts o) name = Some i -> dget (o_insts o') name = Some i
  }.
  Lemma later_refl s : later s s.
  Proof. constructor; auto; try (intros x H; exact H). intros n o H. exists o. auto. Qed.
  Lemma later_trans a b c : later a b -> later b c -> later a c.
  Proof.
    intros [] []. constructor; auto; try (eapply incl_tran; eauto).
    intros n o H. destruct (l_objs0 n o H) as (o1 & H1 & E1 & F1 & G1).
    destruct (l_objs1 n o1 H1) as (o2 & H2 & E2 & F2 & G2). exists o2. split; [exact H2|]. split; [congruence|]. split; [congruence|auto].
  Qed.
  Lemma later_same s s' : s_mods s' = s_mods s -> s_setup s' = s_setup s -> s_inst s' = s_inst s -> s_added s' = s_added s -> s_objs s' = s_objs s -> later s s'.
  Proof.
    intros E1 E2 E3 E4 E5. constructor; rewrite ?E1, ?E2, ?E3, ?E4, ?E5; auto; try (intros x H; exact H).
    intros n o H. exists o. auto.
  Qed.

  (** The instances in existence *)
  Definition exists_inst (s : state) (i : inst) : Prop :=
    (exists m, dget (s_inst s) m = Some i)
    \/ (exists n o name, nth_error (s_objs s) n = Some o /\ dget (o_insts o) name = Some i).

  Record inv (s : state) : Prop := mk_inv {
    v_added : forall name m, dget (s_added s) name = Some m ->
      dget available name = None /\ In m (s_setup s) /\ In m (s_mods s)
      /\ exists pm c, modules m = Some pm /\ p_ext pm = Some c /\ x_name c = name;
    v_setup : forall m, In m (s_setup s) -> In m (s_mods s) /\ exists i, dget (s_inst s) m = Some i;
    v_setup_cls : forall m, In m (s_setup s) -> exists pm c, modules m = Some pm /\ p_ext pm = Some c
      /\ x_sub c = true /\ x_name c <> lit "__undefined__";
    v_inst : forall m i, dget (s_inst s) m = Some i -> in_mod i = m /\ in_parent i = None /\ In m (s_setup s);
    v_objs : forall n o name i, nth_error (s_objs s) n = Some o -> dget (o_insts o) name = Some i ->
      (exists third, (dget available name = Some (in_mod i, third)
                      \/ (dget available name = None /\ third = true /\ dget (s_added s) name = Some (in_mod i)))
                     /\ (o_only o = true -> third = false))
      /\ (o_host o = HExts -> dget (s_inst s) (in_mod i) = Some i)
      /\ (o_host o <> HExts -> in_parent i = Some n);
    v_id : forall i, exists_inst s i -> in_id i < s_next s;
    v_uniq : forall i j, exists_inst s i -> exists_inst s j -> in_id i = in_id j -> i = j
  }.

  Lemma inv_start : inv start.
  Proof.
    assert (Hno : forall i, ~ exists_inst start i).
    { intros i [(m & H)|(n & o & name & H & _)]; [discriminate|]. destruct n; discriminate. }
    constructor; cbn; try discriminate.
    - intros m [].
    - intros m [].
    - intros n o name i H. destruct n; discriminate.
    - intros i H. destruct (Hno i H).
    - intros i j H. destruct (Hno i H).
  Qed.

  (** changes that concern neither names nor objects *)
  Lemma inv_same s s' : inv s -> incl (s_mods s) (s_mods s') -> s_setup s' = s_setup s -> s_inst s' = s_inst s ->
    s_added s' = s_added s -> s_objs s' = s_objs s -> s_next s' = s_next s -> inv s'.
  Proof. clear lower reserved prop own.
    intros I E1 E2 E3 E4 E5 E6. destruct I. constructor; unfold exists_inst in *; rewrite ?E2, ?E3, ?E4, ?E5, ?E6 in *; auto.
    - intros name m H. destruct (v_added0 name m H) as (A & B & C & D). auto.
    - intros m H. destruct (v_setup0 m H). auto.
  Qed.

  Lemma import_module_ok m s : inv s ->
    let '(r, s1) := import_module m s in
    inv s1 /\ later s s1 /\ s_added s1 = s_added s /\ s_objs s1 = s_objs s /\ s_setup s1 = s_setup s /\ s_inst s1 = s_inst s /\ s_next s1 = s_next s
    /\ (forall pm, r = Ok pm -> modules m = Some pm /\ In m (s_mods s1))
    /\ (In m (s_mods s) -> modules m <> None -> s1 = s /\ is_ok r = true).
  Proof. clear prop own.
    intros I. unfold Model_Extensible.import_module. destruct (modules m) as [pm|] eqn:Em.
    2:{ split; [exact I|]. split; [apply later_refl|]. repeat (split; [reflexivity|]). split; [discriminate|congruence]. }
    destruct (smem m (s_mods s)) eqn:Es.
    - apply smem_In in Es. split; [exact I|]. split; [apply later_refl|]. repeat (split; [reflexivity|]).
      split; [|auto]. intros pm' H; injection H as <-. auto.
    - apply smem_nIn in Es. destruct (run_body lower reserved (p_body pm) (s_world s)) as [[u|x] w].
      + split; [|split; [|repeat (split; [reflexivity|]); split; [|contradiction]]].
        * eapply inv_same; [exact I| | | | | |]; try reflexivity. cbn [s_mods]. intros y Hy; right; exact Hy.
        * constructor; cbn [s_mods s_setup s_inst s_added s_objs]; auto.
          -- intros y Hy; right; exact Hy.
          -- intros y Hy; exact Hy.
          -- intros n o H. exists o. auto.
        * intros pm' H; injection H as <-. split; [reflexivity|left; reflexivity].
      + split; [|split; [|repeat (split; [reflexivity|]); split; [discriminate|contradiction]]].
        * eapply inv_same; [exact I| | | | | |]; try reflexivity. intros y Hy; exact Hy.
        * apply later_same; reflexivity.
  Qed.

  Lemma import_extension_ok m s : inv s ->
    let '(r, s1) := import_extension m s in
    inv s1 /\ later s s1 /\ s_added s1 = s_added s /\ s_objs s1 = s_objs s
    /\ (forall pm, r = Ok pm -> modules m = Some pm /\ In m (s_mods s1) /\ In m (s_setup s1) /\ exists c, p_ext pm = Some c)
    /\ (In m (s_setup s) -> s1 = s /\ is_ok r = true).
  Proof. clear prop own.
    intros I. unfold Model_Extensible.import_extension.
    pose proof (import_module_ok m s I) as H. destruct (import_module m s) as [r s1].
    destruct H as (I1 & L1 & Ea & Eo & Es & Ei & En & Hok & Hre).
    assert (Hre' : In m (s_setup s) -> s1 = s /\ is_ok r = true).
    { intros Hs. apply Hre; [apply (v_setup s I m Hs)|]. destruct (v_setup_cls s I m Hs) as (pm & c & E & _). congruence. }
    destruct r as [pm|x].
    2:{ split; [exact I1|]. split; [exact L1|]. split; [exact Ea|]. split; [exact Eo|]. split; [discriminate|exact Hre']. }
    destruct (Hok pm eq_refl) as [Hm Hin].
    destruct (smem m (s_setup s1)) eqn:Esm.
    { apply smem_In in Esm. split; [exact I1|]. split; [exact L1|]. split; [exact Ea|]. split; [exact Eo|]. split; [|exact Hre'].
      intros pm' H; injection H as <-. split; [exact Hm|]. split; [exact Hin|]. split; [exact Esm|].
      destruct (v_setup_cls s1 I1 m Esm) as (pm' & c & E & Ec & _). rewrite Hm in E. injection E as <-. eauto. }
    apply smem_nIn in Esm.
    assert (Hfail : forall x, inv s1 /\ later s s1 /\ s_added s1 = s_added s /\ s_objs s1 = s_objs s
       /\ (forall pm', @Raise pymod x = Ok pm' -> modules m = Some pm' /\ In m (s_mods s1) /\ In m (s_setup s1) /\ exists c, p_ext pm' = Some c)
       /\ (In m (s_setup s) -> s1 = s /\ is_ok (@Raise pymod x) = true)).
    { intros x. split; [exact I1|]. split; [exact L1|]. split; [exact Ea|]. split; [exact Eo|]. split; [discriminate|].
      intros Hs. exfalso. apply Esm. rewrite Es. exact Hs. }
    destruct (p_ext pm) as [c|] eqn:Ec; [|apply Hfail].
    destruct (x_sub c) eqn:Exs; cbn [negb]; [|apply Hfail].
    destruct (str_eqb_spec (x_name c) (lit "__undefined__")) as [|Exn]; [apply Hfail|].
    destruct (require lower reserved m (s_world s1)) as [[u|x] w].
    - (* set up now *)
      assert (Hni : dget (s_inst s1) m = None).
      { destruct (dget (s_inst s1) m) as [i|] eqn:E; [|reflexivity]. exfalso. apply Esm. apply (v_inst s1 I1 m i E). }
      set (s2 := mk_state w (s_mods s1) (m :: s_setup s1) (dset (s_inst s1) m (mk_inst (s_next s1) m None)) (s_added s1) (s_objs s1) (S (s_next s1))).
      assert (L2 : later s1 s2).
      { constructor; unfold s2; cbn [s_mods s_setup s_inst s_added s_objs]; auto.
        - intros y Hy; exact Hy.
        - intros y Hy; right; exact Hy.
        - intros m' i Hi. rewrite dget_dset. destruct (str_eqb_spec m m') as [->|]; [congruence|exact Hi].
        - intros n o H. exists o. auto. }
      split; [|split; [|split; [|split; [|split]]]].
      + destruct I1.
        assert (Hex : forall i, exists_inst s2 i -> exists_inst s1 i \/ i = mk_inst (s_next s1) m None).
        { intros i [(m' & Hi)|Hi]; [|left; right; exact Hi]. unfold s2 in Hi. cbn [s_inst] in Hi. rewrite dget_dset in Hi.
          destruct (str_eqb m m'); [injection Hi as <-; auto|left; left; eauto]. }
        constructor; unfold s2 in *; cbn [s_mods s_setup s_inst s_added s_objs s_next] in *.
        * intros name m' H. destruct (v_added0 name m' H) as (A & B & C & D). split; [exact A|]. split; [right; exact B|auto].
        * intros m' [<-|H].
          -- split; [exact Hin|]. rewrite dget_dset_eq. eexists; reflexivity.
          -- destruct (v_setup0 m' H) as [A [i B]]. split; [exact A|]. rewrite dget_dset. destruct (str_eqb m m'); [eexists; reflexivity|exists i; exact B].
        * intros m' [<-|H]; [exists pm, c; auto|auto].
        * intros m' i Hi. rewrite dget_dset in Hi. destruct (str_eqb_spec m m') as [->|].
          -- injection Hi as <-. cbn. auto.
          -- destruct (v_inst0 m' i Hi) as (A & B & C). split; [exact A|]. split; [exact B|right; exact C].
        * intros n o name i Ho Hi. destruct (v_objs0 n o name i Ho Hi) as (A & B & C). split; [exact A|]. split; [|exact C].
          intros Hh. specialize (B Hh). rewrite dget_dset. destruct (str_eqb_spec m (in_mod i)) as [E|]; [|exact B]. rewrite <- E in B. congruence.
        * intros i Hi. apply Hex in Hi. destruct Hi as [Hi| ->]; [|cbn; lia]. specialize (v_id0 i Hi). lia.
        * intros i j Hi Hj Hij. apply Hex in Hi. apply Hex in Hj. destruct Hi as [Hi| ->], Hj as [Hj| ->]; auto.
          -- specialize (v_id0 i Hi). cbn in Hij. lia.
          -- specialize (v_id0 j Hj). cbn in Hij. lia.
      + eapply later_trans; eauto.
      + exact Ea.
      + exact Eo.
      + intros pm' H; injection H as <-. split; [exact Hm|]. split; [exact Hin|]. split; [left; reflexivity|eauto].
      + intros Hs. exfalso. apply Esm. rewrite Es. exact Hs.
    - (* require failed *)
      assert (X : inv (with_world s1 w) /\ later s (with_world s1 w) /\ s_added (with_world s1 w) = s_added s /\ s_objs (with_world s1 w) = s_objs s).
      { split; [eapply inv_same; [exact I1| | | | | |]; try reflexivity; intros y Hy; exact Hy|].
        split; [eapply later_trans; [exact L1|apply later_same; reflexivity]|]. split; [exact Ea|exact Eo]. }
      destruct X as (X1 & X2 & X3 & X4).
      destruct x; cbv iota; (split; [exact X1|]; split; [exact X2|]; split; [exact X3|]; split; [exact X4|]; split; [discriminate|];
        intros Hs; exfalso; apply Esm; rewrite Es; exact Hs).
  Qed.

  Lemma add_extension_ok m s : inv s ->
    let '(r, s1) := add_extension m s in
    inv s1 /\ later s s1 /\ s_objs s1 = s_objs s
    /\ (forall name m', dget (s_added s1) name = Some m' -> dget (s_added s) name = Some m' \/ m' = m)
    /\ (r = Ok tt -> In m (s_setup s1) /\ exists pm c, modules m = Some pm /\ p_ext pm = Some c
          /\ (dget (s_added s1) (x_name c) = Some m \/ exists t, dget available (x_name c) = Some (m, t)))
    /\ (r <> Ok tt -> s_added s1 = s_added s).
  Proof. clear prop own.
    intros I. unfold Model_Extensible.add_extension.
    pose proof (import_extension_ok m s I) as H. destruct (import_extension m s) as [r s1].
    destruct H as (I1 & L1 & Ea & Eo & Hok & _).
    destruct r as [pm|x].
    2:{ split; [exact I1|]. split; [exact L1|]. split; [exact Eo|]. split; [rewrite Ea; auto|]. split; [discriminate|auto]. }
    destruct (Hok pm eq_refl) as (Hm & Hin & Hs & c & Ec). rewrite Ec.
    assert (Hold : forall name m', dget (s_added s1) name = Some m' -> dget (s_added s) name = Some m' \/ m' = m) by (rewrite Ea; auto).
    destruct (dget (s_added s1) (x_name c)) as [m'|] eqn:E.
    - destruct (str_eqb_spec m' m) as [->|]; (split; [exact I1|]; split; [exact L1|]; split; [exact Eo|]; split; [exact Hold|]; split; [|auto]); [|discriminate].
      intros _. split; [exact Hs|]. exists pm, c. auto.
    - destruct (dget available (x_name c)) as [[m' t]|] eqn:Ev.
      + destruct (str_eqb_spec m' m) as [->|]; (split; [exact I1|]; split; [exact L1|]; split; [exact Eo|]; split; [exact Hold|]; split; [|auto]); [|discriminate].
        intros _. split; [exact Hs|]. exists pm, c. eauto.
      + set (s2 := mk_state (s_world s1) (s_mods s1) (s_setup s1) (s_inst s1) (dset (s_added s1) (x_name c) m) (s_objs s1) (s_next s1)).
        assert (Hadd : forall name m', dget (s_added s1) name = Some m' -> dget (dset (s_added s1) (x_name c) m) name = Some m').
        { intros name m' H. rewrite dget_dset. destruct (str_eqb_spec (x_name c) name) as [<-|]; [congruence|exact H]. }
        split; [|split; [|split; [exact Eo|split; [|split]]]].
        * destruct I1. constructor; unfold s2, exists_inst in *; cbn [s_mods s_setup s_inst s_added s_objs s_next] in *; auto.
          -- intros name m' H. rewrite dget_dset in H. destruct (str_eqb_spec (x_name c) name) as [<-|]; [|auto].
             injection H as <-. split; [exact Ev|]. split; [exact Hs|]. split; [exact Hin|]. eauto.
          -- intros n o name i Ho Hi. destruct (v_objs0 n o name i Ho Hi) as ((t & [A|(A & B & C)] & D) & F). 
             ++ split; [|exact F]. exists t. auto.
             ++ split; [|exact F]. exists t. split; [right; auto|exact D].
        * eapply later_trans; [exact L1|]. constructor; unfold s2; cbn [s_mods s_setup s_inst s_added s_objs]; auto; try (intros y Hy; exact Hy).
          intros n o H. exists o. auto.
        * unfold s2. cbn [s_added]. intros name m' H. rewrite dget_dset in H. destruct (str_eqb (x_name c) name); [injection H as <-; auto|auto].
        * intros _. split; [exact Hs|]. exists pm, c. split; [exact Hm|]. split; [exact Ec|]. left. unfold s2. cbn [s_added]. apply dget_dset_eq.
        * congruence.
  Qed.

  Lemma create_instance_ok n o name m pm s :
    inv s -> nth_error (s_objs s) n = Some o -> dget (o_insts o) name = None ->
    (exists third, (dget available name = Some (m, third)
                      \/ (dget available name = None /\ third = true /\ dget (s_added s) name = Some m))
                     /\ (o_only o = true -> third = false)) ->
    let '(r, s1) := create_instance n o name m pm s in
    inv s1 /\ later s s1 /\ s_added s1 = s_added s /\ s_setup s1 = s_setup s
    /\ (forall v, r = Ok v -> exists i o', v = Ext i /\ in_mod i = m /\ nth_error (s_objs s1) n = Some o'
          /\ o_host o' = o_host o /\ o_only o' = o_only o /\ dget (o_insts o') name = Some i)
    /\ (r = Ok Own -> False).
  Proof. clear lower reserved prop own.
    intros I Ho Hn Hb. unfold Model_Extensible.create_instance.
    assert (Hfail : forall x, inv s /\ later s s /\ s_added s = s_added s /\ s_setup s = s_setup s
      /\ (forall v, @Raise seen x = Ok v -> exists i o', v = Ext i /\ in_mod i = m /\ nth_error (s_objs s) n = Some o'
          /\ o_host o' = o_host o /\ o_only o' = o_only o /\ dget (o_insts o') name = Some i)
      /\ (@Raise seen x = Ok Own -> False)).
    { intros x. split; [exact I|]. split; [apply later_refl|]. repeat (split; [reflexivity|]). split; discriminate. }
    assert (Hgo : forall i next, in_mod i = m -> s_next s <= next -> in_id i < next ->
        (o_host o = HExts -> dget (s_inst s) (in_mod i) = Some i) -> (o_host o <> HExts -> in_parent i = Some n) ->
        (exists_inst s i \/ in_id i = s_next s) ->
        let s1 := cache s n o name i next in
        inv s1 /\ later s s1 /\ s_added s1 = s_added s /\ s_setup s1 = s_setup s
        /\ (forall v, Ok (Ext i) = Ok v -> exists i o', v = Ext i /\ in_mod i = m /\ nth_error (s_objs s1) n = Some o'
          /\ o_host o' = o_host o /\ o_only o' = o_only o /\ dget (o_insts o') name = Some i)
        /\ (Ok (Ext i) = Ok Own -> False)).
    { intros i next Hmod Hnext Hid Hexts Hpar Hfresh. cbv zeta.
      set (o1 := mk_eobj (o_host o) (o_only o) (dset (o_insts o) name i)).
      assert (Hnth : forall k o', nth_error (upd (s_objs s) n o1) k = Some o' -> (k = n /\ o' = o1) \/ (k <> n /\ nth_error (s_objs s) k = Some o')).
      { intros k o' H. rewrite upd_nth in H. destruct (Nat.eqb_spec n k) as [<-|Hne]; [|auto]. rewrite Ho in H. injection H as <-. auto. }
      assert (Hme : nth_error (upd (s_objs s) n o1) n = Some o1) by (rewrite upd_nth, Nat.eqb_refl, Ho; reflexivity).
      assert (Hex : forall j, exists_inst (cache s n o name i next) j -> exists_inst s j \/ j = i).
      { intros j [H|(k & o' & name' & Hk & Hj)]; [left; left; exact H|]. unfold cache in Hk. cbn [s_objs] in Hk. fold o1 in Hk.
        apply Hnth in Hk. destruct Hk as [[-> ->]|[_ Hk]]; [|left; right; exists k, o', name'; auto].
        unfold o1 in Hj. cbn [o_insts] in Hj. rewrite dget_dset in Hj. destruct (str_eqb name name'); [injection Hj as <-; auto|].
        left. right. exists n, o, name'. auto. }
      split; [|split; [|split; [reflexivity|split; [reflexivity|split; [|discriminate]]]]].
      - destruct I. constructor; unfold cache in *; cbn [s_mods s_setup s_inst s_added s_objs s_next] in *; fold o1 in Hex |- *; auto.
        + intros k o' name' j Hk Hj. apply Hnth in Hk. destruct Hk as [[-> ->]|[_ Hk]]; [|eauto].
          unfold o1 in *. cbn [o_insts o_host o_only] in *. rewrite dget_dset in Hj. destruct (str_eqb_spec name name') as [<-|].
          * injection Hj as <-. rewrite Hmod in *. split; [exact Hb|]. split; assumption.
          * eauto.
        + intros j Hj. apply Hex in Hj. destruct Hj as [Hj| ->]; [|exact Hid]. specialize (v_id0 j Hj). lia.
        + intros j k Hj Hk Hjk. apply Hex in Hj. apply Hex in Hk. destruct Hj as [Hj| ->], Hk as [Hk| ->]; auto.
          * destruct Hfresh as [Hf|Hf]; [auto|]. specialize (v_id0 j Hj). lia.
          * destruct Hfresh as [Hf|Hf]; [auto|]. specialize (v_id0 k Hk). lia.
      - constructor; unfold cache; cbn [s_mods s_setup s_inst s_added s_objs]; auto; try (intros y Hy; exact Hy).
        fold o1. intros k o' Hk. destruct (Nat.eq_dec k n) as [->|Hne].
        + rewrite Ho in Hk. injection Hk as <-. exists o1. split; [exact Hme|]. unfold o1. cbn. split; [reflexivity|]. split; [reflexivity|].
          intros name' j Hj. rewrite dget_dset. destruct (str_eqb_spec name name') as [<-|]; [congruence|exact Hj].
        + exists o'. rewrite upd_nth. destruct (Nat.eqb_spec n k); [congruence|]. auto.
      - intros v Hv. injection Hv as <-. exists i, o1. split; [reflexivity|]. split; [exact Hmod|]. split; [exact Hme|]. unfold o1. cbn.
        rewrite dget_dset_eq. auto. }
    destruct (o_host o) eqn:Eh.
    - destruct (p_ldap pm) as [[|]|]; [|apply Hfail|apply Hfail].
      apply (Hgo (mk_inst (s_next s) m (Some n)) (S (s_next s))); cbn; auto; try lia; discriminate.
    - destruct (p_obj pm) as [[|]|]; [|apply Hfail|apply Hfail].
      apply (Hgo (mk_inst (s_next s) m (Some n)) (S (s_next s))); cbn; auto; try lia; discriminate.
    - destruct (dget (s_inst s) m) as [i|] eqn:Ei; [|apply Hfail].
      destruct (v_inst s I m i Ei) as (A & B & C).
      apply (Hgo i (s_next s)); auto.
      + apply (v_id s I). left. eauto.
      + intros _. rewrite A. exact Ei.
      + congruence.
      + left. left. eauto.
  Qed.

  Lemma access_cached n o name i s :
    inv s -> nth_error (s_objs s) n = Some o -> dget (o_insts o) name = Some i ->
    (prop (o_host o) name = true -> dget available name <> None) ->
    (prop (o_host o) name = false -> own (o_host o) name = false) ->
    access n name s = (Ok (Ext i), s).
  Proof.
    intros I Ho Hi Hp Hw. unfold Model_Extensible.access. rewrite Ho.
    destruct (prop (o_host o) name) eqn:Ep.
    - unfold Model_Extensible.get_extension_instance. specialize (Hp eq_refl).
      destruct (v_objs s I n o name i Ho Hi) as ((t & Hb & Honly) & _).
      destruct (dget available name) as [[m t']|] eqn:Ea; [|congruence].
      destruct Hb as [Hb|(Hb & _)]; [|discriminate]. injection Hb as -> ->.
      rewrite Hi. destruct (o_only o); cbn [andb]; [|reflexivity]. rewrite (Honly eq_refl). reflexivity.
    - rewrite Hw by reflexivity. unfold Model_Extensible.getattr_. rewrite Hi. reflexivity.
  Qed.

  Lemma access_ok n name s : inv s ->
    let '(r, s1) := access n name s in
    inv s1 /\ later s s1 /\ s_added s1 = s_added s
    /\ (forall i, r = Ok (Ext i) -> exists o', nth_error (s_objs s1) n = Some o' /\ dget (o_insts o') name = Some i
          /\ (prop (o_host o') name = true -> dget available name <> None)
          /\ (prop (o_host o') name = false -> own (o_host o') name = false)).
  Proof.
    intros I. unfold Model_Extensible.access.
    destruct (nth_error (s_objs s) n) as [o|] eqn:Ho.
    2:{ split; [exact I|]. split; [apply later_refl|]. split; [reflexivity|discriminate]. }
    destruct (prop (o_host o) name) eqn:Ep.
    - unfold Model_Extensible.get_extension_instance.
      destruct (dget available name) as [[m t]|] eqn:Ea.
      2:{ split; [exact I|]. split; [apply later_refl|]. split; [reflexivity|discriminate]. }
      destruct (o_only o && t) eqn:Eot.
      { split; [exact I|]. split; [apply later_refl|]. split; [reflexivity|discriminate]. }
      destruct (dget (o_insts o) name) as [i|] eqn:Ei.
      { split; [exact I|]. split; [apply later_refl|]. split; [reflexivity|]. intros j H; injection H as <-. exists o.
        split; [exact Ho|]. split; [exact Ei|]. split; [congruence|rewrite Ep; discriminate]. }
      pose proof (import_extension_ok m s I) as H. destruct (import_extension m s) as [r s1].
      destruct H as (I1 & L1 & Ead & Eo & Hok & _). destruct r as [pm|x].
      2:{ split; [exact I1|]. split; [exact L1|]. split; [exact Ead|]. destruct (exn_eqb x ImportError); discriminate. }
      rewrite <- Eo in Ho.
      assert (Hb : exists third, (dget available name = Some (m, third) \/ (dget available name = None /\ third = true /\ dget (s_added s1) name = Some m)) /\ (o_only o = true -> third = false)).
      { exists t. split; [left; exact Ea|]. intros E. rewrite E in Eot. exact Eot. }
      pose proof (create_instance_ok n o name m pm s1 I1 Ho Ei Hb) as H.
      destruct (create_instance n o name m pm s1) as [r s2]. destruct H as (I2 & L2 & Ead2 & _ & Hv & _).
      split; [exact I2|]. split; [eapply later_trans; eauto|]. split; [congruence|].
      intros i Hr. destruct (Hv _ Hr) as (i' & o' & E & _ & Ho' & Hh & _ & Hi'). injection E as <-. exists o'. rewrite Hh, Ep.
      split; [exact Ho'|]. split; [exact Hi'|]. split; [congruence|discriminate].
    - destruct (own (o_host o) name) eqn:Ew.
      { split; [exact I|]. split; [apply later_refl|]. split; [reflexivity|discriminate]. }
      unfold Model_Extensible.getattr_. destruct (dget (o_insts o) name) as [i|] eqn:Ei.
      { split; [exact I|]. split; [apply later_refl|]. split; [reflexivity|]. intros j H; injection H as <-. exists o.
        split; [exact Ho|]. split; [exact Ei|]. split; [rewrite Ep; discriminate|auto]. }
      destruct (dget (s_added s) name) as [m|] eqn:Ead.
      2:{ split; [exact I|]. split; [apply later_refl|]. split; [reflexivity|discriminate]. }
      destruct (o_only o) eqn:Eon.
      { split; [exact I|]. split; [apply later_refl|]. split; [reflexivity|discriminate]. }
      destruct (modules m) as [pm|] eqn:Em.
      2:{ split; [exact I|]. split; [apply later_refl|]. split; [reflexivity|discriminate]. }
      assert (Hb : exists third, (dget available name = Some (m, third) \/ (dget available name = None /\ third = true /\ dget (s_added s) name = Some m)) /\ (o_only o = true -> third = false)).
      { exists true. split; [right; split; [apply (v_added s I name m Ead)|auto]|congruence]. }
      pose proof (create_instance_ok n o name m pm s I Ho Ei Hb) as H.
      destruct (create_instance n o name m pm s) as [r s2]. destruct H as (I2 & L2 & Ead2 & _ & Hv & _).
      split; [exact I2|]. split; [exact L2|]. split; [exact Ead2|].
      intros i Hr. destruct (Hv _ Hr) as (i' & o' & E & _ & Ho' & Hh & _ & Hi'). injection E as <-. exists o'. rewrite Hh, Ep, Ew.
      split; [exact Ho'|]. split; [exact Hi'|]. split; [discriminate|auto].
  Qed.

  Lemma exec_ok c s : inv s -> inv (snd (exec s c)) /\ later s (snd (exec s c)).
  Proof.
    intros I. destruct c as [h b|m|n name|ev]; cbn [Model_Extensible.exec].
    - cbn [snd]. split.
      + destruct I.
        assert (Hnth : forall n o, nth_error (s_objs s ++ [mk_eobj h b []]) n = Some o -> nth_error (s_objs s) n = Some o \/ o_insts o = []).
        { intros n o H. destruct (Nat.lt_ge_cases n (List.length (s_objs s))) as [Hl|Hg].
          - rewrite nth_error_app1 in H by exact Hl. auto.
          - rewrite nth_error_app2 in H by exact Hg. destruct (n - List.length (s_objs s)) as [|k]; [injection H as <-; auto|destruct k; discriminate]. }
        constructor; unfold exists_inst in *; cbn [s_mods s_setup s_inst s_added s_objs s_next] in *; auto.
        * intros n o name i H Hi. apply Hnth in H. destruct H as [H|H]; [eauto|rewrite H in Hi; discriminate].
        * intros i [Hi|(n & o & name & H & Hi)]; [auto|]. apply Hnth in H. destruct H as [H|H]; [|rewrite H in Hi; discriminate].
          apply v_id0. right. exists n, o, name. auto.
        * assert (X : forall i, (exists m, dget (s_inst s) m = Some i) \/ (exists n o name, nth_error (s_objs s ++ [mk_eobj h b []]) n = Some o /\ dget (o_insts o) name = Some i)
                    -> (exists m, dget (s_inst s) m = Some i) \/ (exists n o name, nth_error (s_objs s) n = Some o /\ dget (o_insts o) name = Some i)).
          { intros i [Hi|(n & o & name & H & Hi)]; [auto|]. apply Hnth in H. destruct H as [H|H]; [|rewrite H in Hi; discriminate].
            right. exists n, o, name. auto. }
          intros i j Hi Hj. apply v_uniq0; auto.
      + constructor; cbn [s_mods s_setup s_inst s_added s_objs]; auto; try (intros y Hy; exact Hy).
        intros n o H. exists o. split; [|auto]. rewrite nth_error_app1; [exact H|]. apply nth_error_Some. congruence.
    - pose proof (add_extension_ok m s I) as H. destruct (add_extension m s) as [r s1]. cbn [snd]. destruct H as (A & B & _). auto.
    - pose proof (access_ok n name s I) as H. destruct (access n name s) as [r s1]. cbn [snd]. destruct H as (A & B & _). auto.
    - destruct (step lower reserved (s_world s) ev) as [r w]. cbn [snd]. split.
      + eapply inv_same; [exact I| | | | | |]; try reflexivity. intros y Hy; exact Hy.
      + apply later_same; reflexivity.
  Qed.
  Lemma execs_ok cs : forall s, inv s -> inv (execs cs s) /\ later s (execs cs s).
  Proof.
    induction cs as [|c cs IH]; intros s I; cbn [Model_Extensible.execs]; [split; [exact I|apply later_refl]|].
    destruct (exec_ok c s I) as [I1 L1]. destruct (IH _ I1) as [I2 L2]. split; [exact I2|eapply later_trans; eauto].
  Qed.
  Lemma execs_app a b s : execs (a ++ b) s = execs b (execs a s).
  Proof. revert s; induction a as [|c a IH]; intros s; cbn [app Model_Extensible.execs]; [reflexivity|apply IH]. Qed.
  Lemma execs_inv cs : inv (execs cs start).
  Proof. apply execs_ok. apply inv_start. Qed.

  (** names are only bound by add_extension *)
  Lemma added_history cs name m : dget (s_added (execs cs start)) name = Some m -> In (Add m) cs.
  Proof.
    induction cs as [|c cs IH] using rev_ind; [discriminate|]. rewrite execs_app. cbn [Model_Extensible.execs]. intros H.
    apply in_or_app. pose proof (execs_inv cs) as I. set (s := execs cs start) in *.
    destruct c as [h b|m'|n nm|ev]; cbn [Model_Extensible.exec] in H.
    - left. apply IH. exact H.
    - pose proof (add_extension_ok m' s I) as X. destruct (add_extension m' s) as [r s1]. cbn [snd] in H.
      destruct X as (_ & _ & _ & X & _). apply X in H. destruct H as [H| ->]; [left; auto|right; left; reflexivity].
    - pose proof (access_ok n nm s I) as X. destruct (access n nm s) as [r s1]. cbn [snd] in H. destruct X as (_ & _ & X & _).
      rewrite X in H. left. auto.
    - destruct (step lower reserved (s_world s) ev) as [r w]. cbn [snd] in H. left. apply IH. exact H.
  Qed.
End E.
