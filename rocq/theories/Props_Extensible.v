(** * C42: activating extensions binds names safely *)
From Verif Require Import PyBase Model_Registration Model_Extensible Proofs_Extensible.

Section C42.
  Context (lower : str -> str) (reserved : list str).
  Context (modules : str -> option pymod)            (* what can be imported *)
    (available : list (str * (str * bool)))          (* AVAILABLE_EXTENSIONS *)
    (prop own : host -> str -> bool).                (* generated properties; all other attributes *)

  (** The state after a history of calls, and what reading an attribute gives then *)
  Definition after (cs : list call) : state := execs lower reserved modules available prop own cs start.
  Definition reads (cs : list call) (n : nat) (name : str) : res seen :=
    fst (access lower reserved modules available prop own n name (after cs)).
  Definition adds (cs : list call) (m : str) : res unit :=
    fst (add_extension lower reserved modules available m (after cs)).

  Lemma after_snoc cs c : after (cs ++ [c]) = snd (exec lower reserved modules available prop own (after cs) c).
  Proof. unfold after. rewrite execs_app. reflexivity. Qed.
  Lemma after_later cs cs' : later (after cs) (after (cs ++ cs')).
  Proof. unfold after. rewrite execs_app. apply execs_ok. apply execs_inv. Qed.
  Lemma after_inv cs : inv modules available (after cs).
  Proof. apply execs_inv. Qed.

  Lemma read_cached cs n name i : reads cs n name = Ok (Ext i) ->
    exists o, nth_error (s_objs (after (cs ++ [Access n name]))) n = Some o /\ dget (o_insts o) name = Some i
      /\ (prop (o_host o) name = true -> dget available name <> None)
      /\ (prop (o_host o) name = false -> own (o_host o) name = false).
  Proof.
    intros H. rewrite after_snoc. cbn [exec]. unfold reads in H.
    pose proof (access_ok lower reserved modules available prop own n name (after cs) (after_inv cs)) as X.
    destruct (access lower reserved modules available prop own n name (after cs)) as [r s1]. cbn [fst snd] in *.
    destruct X as (_ & _ & _ & X). auto.
  Qed.
  Lemma host_before cs c n o : nth_error (s_objs (after cs)) n = Some o ->
    exists o', nth_error (s_objs (after (cs ++ [c]))) n = Some o' /\ o_host o' = o_host o /\ o_only o' = o_only o.
  Proof. intros H. destruct (l_objs _ _ (after_later cs [c]) n o H) as (o' & A & B & C & _). eauto. Qed.

  (** Attributes the class has itself are never shadowed, whatever was added. *)
  Theorem C42_own_attributes_never_overridden cs n o name :
    nth_error (s_objs (after cs)) n = Some o -> own (o_host o) name = true -> prop (o_host o) name = false ->
    reads cs n name = Ok Own.
  Proof. intros Ho Hw Hp. unfold reads, access. rewrite Ho, Hp, Hw. reflexivity. Qed.

  (** An extension found under a name is the predefined one for that name or, if the name is not
      predefined, one that declares this NAME and was passed to add_extension. *)
  Theorem C42_names_lead_to_their_extension cs n name i :
    reads cs n name = Ok (Ext i) ->
    (exists third, dget available name = Some (in_mod i, third))
    \/ (dget available name = None /\ In (Add (in_mod i)) cs
        /\ exists pm c, modules (in_mod i) = Some pm /\ p_ext pm = Some c /\ x_name c = name).
  Proof.
    intros H. destruct (read_cached cs n name i H) as (o & Ho & Hi & _).
    destruct (v_objs _ _ _ (after_inv _) n o name i Ho Hi) as ((t & [Hb|(Hb & _ & Ha)] & _) & _); [left; eauto|].
    right. split; [exact Hb|]. split.
    - apply (added_history lower reserved modules available prop own) in Ha. apply in_app_or in Ha. destruct Ha as [Ha|[Ha|[]]]; [exact Ha|discriminate].
    - destruct (v_added _ _ _ (after_inv _) name _ Ha) as (_ & _ & _ & pm & c & A & B & C). eauto.
  Qed.

  (** Once any object has shown an extension under a name, that name never leads to a different
      extension, on this or any other object, whatever is added. *)
  Theorem C42_name_never_rebound cs n n' name i i' cs' :
    reads cs n name = Ok (Ext i) -> reads (cs ++ Access n name :: cs') n' name = Ok (Ext i') ->
    in_mod i' = in_mod i.
  Proof.
    intros H H'. change (cs ++ Access n name :: cs') with (cs ++ [Access n name] ++ cs') in H'. rewrite app_assoc in H'.
    destruct (read_cached _ _ _ _ H) as (o & Ho & Hi & _). destruct (read_cached _ _ _ _ H') as (o' & Ho' & Hi' & _).
    destruct (v_objs _ _ _ (after_inv _) n o name i Ho Hi) as ((t & Hb & _) & _).
    destruct (v_objs _ _ _ (after_inv _) n' o' name i' Ho' Hi') as ((t' & Hb' & _) & _).
    destruct Hb as [Hb|(Hb & _ & Ha)], Hb' as [Hb'|(Hb' & _ & Ha')]; try congruence.
    rewrite <- app_assoc in Ha'.
    pose proof (l_added _ _ (after_later (cs ++ [Access n name]) (cs' ++ [Access n' name])) name _ Ha) as X. congruence.
  Qed.

  (** The same object shows the same instance again, and looking changes nothing. *)
  Theorem C42_one_instance_per_object cs n name i cs' :
    reads cs n name = Ok (Ext i) ->
    let s := after (cs ++ Access n name :: cs') in
    access lower reserved modules available prop own n name s = (Ok (Ext i), s).
  Proof.
    intros H. cbv zeta. change (cs ++ Access n name :: cs') with (cs ++ [Access n name] ++ cs'). rewrite app_assoc.
    destruct (read_cached _ _ _ _ H) as (o & Ho & Hi & Hp & Hw).
    destruct (l_objs _ _ (after_later (cs ++ [Access n name]) cs') n o Ho) as (o' & Ho' & Eh & _ & Hk).
    apply access_cached with (o := o'); auto; [apply after_inv| |]; rewrite Eh; assumption.
  Qed.

  (** Different objects have different instances, each attached to its object. *)
  Theorem C42_instances_not_shared cs n n' name name' i i' o o' cs' :
    reads cs n name = Ok (Ext i) -> reads (cs ++ Access n name :: cs') n' name' = Ok (Ext i') ->
    nth_error (s_objs (after cs)) n = Some o -> o_host o <> HExts ->
    nth_error (s_objs (after (cs ++ Access n name :: cs'))) n' = Some o' -> o_host o' <> HExts ->
    in_parent i = Some n /\ in_parent i' = Some n' /\ (n <> n' -> in_id i <> in_id i').
  Proof.
    intros H H' Hn Hh Hn' Hh'.
    assert (E : cs ++ Access n name :: cs' = (cs ++ [Access n name]) ++ cs') by (rewrite <- app_assoc; reflexivity).
    destruct (read_cached _ _ _ _ H) as (o1 & Ho & Hi & _). destruct (read_cached _ _ _ _ H') as (o1' & Ho' & Hi' & _).
    destruct (host_before cs (Access n name) n o Hn) as (o2 & A & B & _). rewrite Ho in A. injection A as <-.
    destruct (host_before _ (Access n' name') n' o' Hn') as (o2 & A' & B' & _). rewrite Ho' in A'. injection A' as <-.
    assert (P : in_parent i = Some n) by (eapply (v_objs _ _ _ (after_inv _)); [exact Ho|exact Hi|congruence]).
    assert (P' : in_parent i' = Some n') by (eapply (v_objs _ _ _ (after_inv _)); [exact Ho'|exact Hi'|congruence]).
    split; [exact P|]. split; [exact P'|]. intros Hne Hid.
    assert (i = i'); [|congruence].
    apply (v_uniq _ _ _ (after_inv ((cs ++ Access n name :: cs') ++ [Access n' name']))); [| |exact Hid].
    - right. rewrite E, <- app_assoc.
      destruct (l_objs _ _ (after_later (cs ++ [Access n name]) (cs' ++ [Access n' name'])) n o1 Ho) as (o3 & Ho3 & _ & _ & Hk).
      exists n, o3, name. auto.
    - right. exists n', o1', name'. auto.
  Qed.

  (** laurelin.ldap.extensions shows one instance per extension, ever. *)
  Theorem C42_one_global_instance cs n n' name name' i i' o o' cs' :
    reads cs n name = Ok (Ext i) -> reads (cs ++ Access n name :: cs') n' name' = Ok (Ext i') ->
    nth_error (s_objs (after cs)) n = Some o -> o_host o = HExts ->
    nth_error (s_objs (after (cs ++ Access n name :: cs'))) n' = Some o' -> o_host o' = HExts ->
    in_mod i = in_mod i' -> i = i'.
  Proof.
    intros H H' Hn Hh Hn' Hh' Hm.
    assert (E : cs ++ Access n name :: cs' = (cs ++ [Access n name]) ++ cs') by (rewrite <- app_assoc; reflexivity).
    destruct (read_cached _ _ _ _ H) as (o1 & Ho & Hi & _). destruct (read_cached _ _ _ _ H') as (o1' & Ho' & Hi' & _).
    destruct (host_before cs (Access n name) n o Hn) as (o2 & A & B & _). rewrite Ho in A. injection A as <-.
    destruct (host_before _ (Access n' name') n' o' Hn') as (o2 & A' & B' & _). rewrite Ho' in A'. injection A' as <-.
    destruct (v_objs _ _ _ (after_inv _) n o1 name i Ho Hi) as (_ & P & _).
    destruct (v_objs _ _ _ (after_inv _) n' o1' name' i' Ho' Hi') as (_ & P' & _).
    specialize (P (eq_trans B Hh)). specialize (P' (eq_trans B' Hh')).
    rewrite E, <- app_assoc in P'.
    apply (l_inst _ _ (after_later (cs ++ [Access n name]) (cs' ++ [Access n' name']))) in P. congruence.
  Qed.

  (** Adding an extension again succeeds and has no effect at all. *)
  Theorem C42_adding_again_no_effect cs m cs' :
    adds cs m = Ok tt ->
    let s := after (cs ++ Add m :: cs') in add_extension lower reserved modules available m s = (Ok tt, s).
  Proof.
    intros H. cbv zeta. change (cs ++ Add m :: cs') with (cs ++ [Add m] ++ cs'). rewrite app_assoc.
    assert (X : In m (s_setup (after (cs ++ [Add m]))) /\ exists pm c, modules m = Some pm /\ p_ext pm = Some c
          /\ (dget (s_added (after (cs ++ [Add m]))) (x_name c) = Some m \/ exists t, dget available (x_name c) = Some (m, t))).
    { rewrite after_snoc. cbn [exec]. unfold adds in H.
      pose proof (add_extension_ok lower reserved modules available m (after cs) (after_inv cs)) as X.
      destruct (add_extension lower reserved modules available m (after cs)) as [r s1]. cbn [fst snd] in *. subst r.
      destruct X as (_ & _ & _ & _ & X & _). auto. }
    destruct X as (Hs & pm & c & Hm & Hc & Hb). pose proof (after_later (cs ++ [Add m]) cs') as L.
    set (s := after ((cs ++ [Add m]) ++ cs')) in *.
    unfold add_extension.
    pose proof (import_extension_ok lower reserved modules available m s (after_inv _)) as X.
    destruct (import_extension lower reserved modules m s) as [r s1]. destruct X as (_ & _ & _ & _ & Hok & Hre).
    destruct (Hre (l_setup _ _ L _ Hs)) as [-> Hr]. destruct r as [pm'|x]; [|discriminate].
    destruct (Hok pm' eq_refl) as (Hm' & _). rewrite Hm in Hm'. injection Hm' as <-. rewrite Hc.
    destruct Hb as [Hb|[t Hb]].
    - apply (l_added _ _ L) in Hb. rewrite Hb, str_eqb_refl. reflexivity.
    - destruct (dget (s_added s) (x_name c)) as [m'|] eqn:Ea.
      + destruct (v_added _ _ _ (after_inv _) _ _ Ea) as (A & _). congruence.
      + rewrite Hb, str_eqb_refl. reflexivity.
  Qed.

  (** An extension whose NAME belongs to a different one, predefined or added, is refused and
      neither names nor objects change. *)
  Theorem C42_conflicting_name_refused cs m m' pm c :
    modules m = Some pm -> p_ext pm = Some c -> m' <> m ->
    ((exists t, dget available (x_name c) = Some (m', t))
     \/ exists p q pm' c', cs = p ++ Add m' :: q /\ adds p m' = Ok tt
          /\ modules m' = Some pm' /\ p_ext pm' = Some c' /\ x_name c' = x_name c) ->
    (exists e, adds cs m = Raise e)
    /\ s_added (after (cs ++ [Add m])) = s_added (after cs) /\ s_objs (after (cs ++ [Add m])) = s_objs (after cs).
  Proof.
    intros Hm Hc Hne Hb. rewrite after_snoc. cbn [exec]. unfold adds.
    pose proof (add_extension_ok lower reserved modules available m (after cs) (after_inv cs)) as X.
    destruct (add_extension lower reserved modules available m (after cs)) as [r s1] eqn:Ead. cbn [fst snd].
    destruct X as (I1 & L1 & Eo & _ & Hok & Hbad).
    assert (Hr : r <> Ok tt).
    { intros ->. destruct (Hok eq_refl) as (_ & pm1 & c1 & Hm1 & Hc1 & Hb1). rewrite Hm in Hm1. injection Hm1 as <-.
      rewrite Hc in Hc1. injection Hc1 as <-.
      destruct Hb as [[t Hb]|(p & q & pm' & c' & -> & Hadd & Hm' & Hc' & En)].
      - destruct Hb1 as [Hb1|[t' Hb1]]; [|congruence]. destruct (v_added _ _ _ I1 _ _ Hb1) as (A & _). congruence.
      - pose proof (C42_adding_again_no_effect p m' q Hadd) as Hagain. cbv zeta in Hagain.
        pose proof (add_extension_ok lower reserved modules available m' _ (after_inv (p ++ Add m' :: q))) as Y.
        rewrite Hagain in Y. destruct Y as (_ & _ & _ & _ & Y & _). destruct (Y eq_refl) as (_ & pm2 & c2 & Hm2 & Hc2 & Hb2).
        rewrite Hm' in Hm2. injection Hm2 as <-. rewrite Hc' in Hc2. injection Hc2 as <-. rewrite En in Hb2.
        destruct Hb2 as [Hb2|[t Hb2]].
        + apply (l_added _ _ L1) in Hb2. destruct Hb1 as [Hb1|[t' Hb1]]; [congruence|].
          destruct (v_added _ _ _ I1 _ _ Hb2) as (A & _). congruence.
        + destruct Hb1 as [Hb1|[t' Hb1]]; [|congruence]. destruct (v_added _ _ _ I1 _ _ Hb1) as (A & _). congruence. }
    split; [|split; [auto|exact Eo]]. destruct r as [[]|e]; [congruence|eauto].
  Qed.

  (** An added extension can be used: on every LDAP or LDAPObject that does not restrict
      extensions, if the extension has a class for it and the name is not one of the class's own
      attributes. *)
  Theorem C42_added_extension_reachable cs m cs' n o pm c :
    adds cs m = Ok tt -> modules m = Some pm -> p_ext pm = Some c ->
    nth_error (s_objs (after (cs ++ Add m :: cs'))) n = Some o -> o_only o = false ->
    (match o_host o with HLdap => p_ldap pm = Some true | HObj => p_obj pm = Some true | HExts => True end) ->
    (if prop (o_host o) (x_name c) then dget available (x_name c) <> None
     else own (o_host o) (x_name c) = false /\ dget available (x_name c) = None) ->
    exists i, reads (cs ++ Add m :: cs') n (x_name c) = Ok (Ext i) /\ in_mod i = m.
  Proof.
    intros Hadd Hm Hc Ho Honly Hcls Hname.
    pose proof (C42_adding_again_no_effect cs m cs' Hadd) as Hagain. cbv zeta in Hagain.
    pose proof (add_extension_ok lower reserved modules available m _ (after_inv (cs ++ Add m :: cs'))) as Y.
    rewrite Hagain in Y. destruct Y as (_ & _ & _ & _ & Y & _). destruct (Y eq_refl) as (Hs & pm2 & c2 & Hm2 & Hc2 & Hb).
    rewrite Hm in Hm2. injection Hm2 as <-. rewrite Hc in Hc2. injection Hc2 as <-. clear Y Hagain.
    unfold reads. set (s := after (cs ++ Add m :: cs')) in *. pose proof (after_inv (cs ++ Add m :: cs')) as I. fold s in I.
    assert (Hcached : forall i, dget (o_insts o) (x_name c) = Some i -> in_mod i = m).
    { intros i Hi. destruct (v_objs _ _ _ I n o _ i Ho Hi) as ((t & [Hx|(Hx & _ & Hy)] & _) & _).
      - destruct Hb as [Hb|[t' Hb]]; [|congruence]. destruct (v_added _ _ _ I _ _ Hb) as (A & _). congruence.
      - destruct Hb as [Hb|[t' Hb]]; congruence. }
    assert (Hcreate : forall s', s_inst s' = s_inst s -> s_setup s' = s_setup s -> exists i, fst (create_instance n o (x_name c) m pm s') = Ok (Ext i) /\ in_mod i = m).
    { intros s' Ei _. unfold create_instance. destruct (o_host o).
      - rewrite Hcls. cbn. eexists. split; reflexivity.
      - rewrite Hcls. cbn. eexists. split; reflexivity.
      - destruct (v_setup _ _ _ I m Hs) as (_ & i & Hi). rewrite Ei, Hi. exists i. split; [reflexivity|]. apply (v_inst _ _ _ I m i Hi). }
    unfold access. rewrite Ho. destruct (prop (o_host o) (x_name c)).
    - unfold get_extension_instance. destruct (dget available (x_name c)) as [[m' t]|] eqn:Ea; [|congruence].
      assert (m' = m).
      { destruct Hb as [Hb|[t' Hb]]; [|congruence]. destruct (v_added _ _ _ I _ _ Hb) as (A & _). congruence. }
      subst m'. rewrite Honly. cbn [andb].
      destruct (dget (o_insts o) (x_name c)) as [i|] eqn:Ei; [exists i; split; [reflexivity|auto]|].
      pose proof (import_extension_ok lower reserved modules available m s I) as X.
      destruct (import_extension lower reserved modules m s) as [r s1]. destruct X as (_ & _ & _ & _ & Hok & Hre).
      destruct (Hre Hs) as [-> Hr]. destruct r as [pm'|x]; [|discriminate].
      destruct (Hok pm' eq_refl) as (Hm' & _). rewrite Hm in Hm'. injection Hm' as <-. apply Hcreate; reflexivity.
    - destruct Hname as [Hw Hav]. rewrite Hw. unfold getattr_.
      destruct (dget (o_insts o) (x_name c)) as [i|] eqn:Ei; [exists i; split; [reflexivity|auto]|].
      destruct Hb as [Hb|[t' Hb]]; [|congruence]. rewrite Hb, Honly, Hm. apply Hcreate; reflexivity.
  Qed.

  (** A module without a proper LaurelinExtension class is refused, every time, and nothing is
      bound. *)
  Theorem C42_invalid_extension_refused cs m :
    (forall pm c, modules m = Some pm -> p_ext pm = Some c -> x_sub c = false \/ x_name c = lit "__undefined__") ->
    (exists e, adds cs m = Raise e)
    /\ s_added (after (cs ++ [Add m])) = s_added (after cs) /\ s_objs (after (cs ++ [Add m])) = s_objs (after cs).
  Proof.
    intros Hbad. rewrite after_snoc. cbn [exec]. unfold adds.
    pose proof (add_extension_ok lower reserved modules available m (after cs) (after_inv cs)) as X.
    destruct (add_extension lower reserved modules available m (after cs)) as [r s1]. cbn [fst snd].
    destruct X as (I1 & _ & Eo & _ & Hok & Hn).
    assert (Hr : r <> Ok tt).
    { intros ->. destruct (Hok eq_refl) as (Hs & _). destruct (v_setup_cls _ _ _ I1 m Hs) as (pm & c & A & B & C & D).
      destruct (Hbad pm c A B); congruence. }
    split; [|split; [auto|exact Eo]]. destruct r as [[]|e]; [congruence|eauto].
  Qed.

  (** A predefined extension can be used through its property whenever it can be imported and
      set up. *)
  Theorem C42_predefined_extension_usable cs n o name m third pm :
    nth_error (s_objs (after cs)) n = Some o -> prop (o_host o) name = true ->
    dget available name = Some (m, third) -> (o_only o = true -> third = false) ->
    modules m = Some pm -> adds cs m = Ok tt ->
    (match o_host o with HLdap => p_ldap pm = Some true | HObj => p_obj pm = Some true | HExts => True end) ->
    exists i, reads cs n name = Ok (Ext i) /\ in_mod i = m.
  Proof.
    intros Ho Hp Hav Honly Hm Hadd Hcls. unfold reads, access. rewrite Ho, Hp. unfold get_extension_instance. rewrite Hav.
    assert (E : o_only o && third = false) by (destruct (o_only o); [now rewrite Honly|reflexivity]). rewrite E.
    destruct (dget (o_insts o) name) as [i|] eqn:Ei.
    { exists i. split; [reflexivity|]. destruct (v_objs _ _ _ (after_inv cs) n o name i Ho Ei) as ((t & [Hb|(Hb & _)] & _) & _); congruence. }
    unfold adds, add_extension in Hadd.
    pose proof (import_extension_ok lower reserved modules available m (after cs) (after_inv cs)) as X.
    destruct (import_extension lower reserved modules m (after cs)) as [r s1]. destruct X as (I1 & _ & _ & Eo & Hok & _).
    destruct r as [pm'|x]; [|discriminate]. destruct (Hok pm' eq_refl) as (Hm' & _ & Hs & _). rewrite Hm in Hm'. injection Hm' as <-.
    unfold create_instance. destruct (o_host o).
    - rewrite Hcls. cbn. eexists. split; reflexivity.
    - rewrite Hcls. cbn. eexists. split; reflexivity.
    - destruct (v_setup _ _ _ I1 m Hs) as (_ & i & Hi). rewrite Hi. exists i. split; [reflexivity|]. apply (v_inst _ _ _ I1 m i Hi).
  Qed.

  (** Objects created with built_in_extensions_only never show a third-party extension. *)
  Theorem C42_built_in_only_respected cs n o name i :
    nth_error (s_objs (after cs)) n = Some o -> o_only o = true ->
    reads cs n name = Ok (Ext i) -> dget available name = Some (in_mod i, false).
  Proof.
    intros Hn Hon H. destruct (read_cached _ _ _ _ H) as (o1 & Ho & Hi & _).
    destruct (host_before cs (Access n name) n o Hn) as (o2 & A & _ & C). rewrite Ho in A. injection A as <-.
    destruct (v_objs _ _ _ (after_inv _) n o1 name i Ho Hi) as ((t & [Hb|(_ & Ht & _)] & Hx) & _).
    - rewrite (Hx (eq_trans C Hon)) in Hb. exact Hb.
    - rewrite (Hx (eq_trans C Hon)) in Ht. discriminate.
  Qed.

  (** A name that is neither predefined nor that of an added extension is not found. *)
  Theorem C42_unknown_name_is_attribute_error cs n o name :
    nth_error (s_objs (after cs)) n = Some o -> own (o_host o) name = false -> prop (o_host o) name = false ->
    (forall m pm c, In (Add m) cs -> modules m = Some pm -> p_ext pm = Some c -> x_name c <> name) ->
    dget available name = None -> reads cs n name = Raise AttributeError.
  Proof.
    intros Ho Hw Hp Hno Hav. unfold reads, access. rewrite Ho, Hp, Hw. unfold getattr_.
    assert (Ha : dget (s_added (after cs)) name = None).
    { destruct (dget (s_added (after cs)) name) as [m|] eqn:E; [|reflexivity]. exfalso.
      destruct (v_added _ _ _ (after_inv cs) name m E) as (_ & _ & _ & pm & c & A & B & C).
      apply (Hno m pm c); auto. eapply (added_history lower reserved modules available prop own). exact E. }
    destruct (dget (o_insts o) name) as [i|] eqn:Ei.
    - exfalso. destruct (v_objs _ _ _ (after_inv cs) n o name i Ho Ei) as ((t & [Hb|(_ & _ & Hb)] & _) & _); congruence.
    - rewrite Ha. reflexivity.
  Qed.
End C42.
Print Assumptions C42_own_attributes_never_overridden.
Print Assumptions C42_names_lead_to_their_extension.
Print Assumptions C42_name_never_rebound.
Print Assumptions C42_one_instance_per_object.
Print Assumptions C42_instances_not_shared.
Print Assumptions C42_one_global_instance.
Print Assumptions C42_adding_again_no_effect.
Print Assumptions C42_conflicting_name_refused.
Print Assumptions C42_added_extension_reachable.
Print Assumptions C42_invalid_extension_refused.
Print Assumptions C42_predefined_extension_usable.
Print Assumptions C42_built_in_only_respected.
Print Assumptions C42_unknown_name_is_attribute_error.

(** ** The tables of the pinned commit: extensible/base.py:101-122 and the generated properties of
    laurelin_extensions.py, ldap_extensions.py, ldapobject_extensions.py *)
Definition builtin_available : list (str * (str * bool)) :=
  [(lit "base_schema", (lit "laurelin.extensions.base_schema", false));
   (lit "descattrs", (lit "laurelin.extensions.descattrs", false));
   (lit "netgroups", (lit "laurelin.extensions.netgroups", false));
   (lit "paged_results", (lit "laurelin.extensions.pagedresults", false))].
Definition builtin_prop (h : host) (name : str) : bool :=
  smem name (map lit match h with
             | HLdap => ["netgroups"]
             | HObj => ["descattrs"; "netgroups"]
             | HExts => ["base_schema"; "descattrs"; "netgroups"; "paged_results"]
             end%string).

(** Every property is a predefined extension (so reading it never raises KeyError) *)
Theorem C42_properties_are_predefined h name :
  builtin_prop h name = true -> dget builtin_available name <> None.
Proof.
  unfold builtin_prop. intros H. apply smem_In in H. destruct h; cbn in H;
    repeat (destruct H as [<-|H]; [discriminate|]); destruct H.
Qed.
Print Assumptions C42_properties_are_predefined.

(** ** Examples and limits *)
Definition at1 := mk_elem 1 (KAttr (lit "1.1") []).
Definition mods (m : str) : option pymod :=
  if str_eqb m (lit "a") then
    Some (mk_pymod [Define (lit "a") [(lit "x", Some at1)]] (Some (mk_extcls true (lit "ext"))) (Some true) (Some true))
  else if str_eqb m (lit "b") then
    Some (mk_pymod [Define (lit "b") [(lit "y", Some (mk_elem 2 (KAttr (lit "1.2") [])))]]
            (Some (mk_extcls true (lit "ext"))) (Some true) None)
  else if str_eqb m (lit "c") then
    Some (mk_pymod [] (Some (mk_extcls true (lit "search"))) (Some true) None)
  else if str_eqb m (lit "d") then
    Some (mk_pymod [Define (lit "d") [(lit "s", Some (mk_elem 3 (KSyntax (lit "1.1")))); (lit "s2", Some (mk_elem 4 (KSyntax (lit "1.1"))))]]
            (Some (mk_extcls true (lit "dup"))) (Some true) None)
  else None.
Definition ex_own (h : host) (name : str) : bool := match h with HExts => false | _ => str_eqb name (lit "search") end.
Notation ex_after := (after (fun s => s) [] mods builtin_available builtin_prop ex_own).
Notation ex_reads := (reads (fun s => s) [] mods builtin_available builtin_prop ex_own).
Notation ex_adds := (adds (fun s => s) [] mods builtin_available builtin_prop ex_own).

Example C42_nonvacuous :
  let cs := [New HLdap false; New HLdap true; New HObj false; New HExts false; Add (lit "a")] in
  ex_adds (firstn 4 cs) (lit "a") = Ok tt
  /\ ex_reads cs 0 (lit "ext") = Ok (Ext (mk_inst 1 (lit "a") (Some 0)))
  /\ ex_reads (cs ++ [Access 0 (lit "ext")]) 2 (lit "ext") = Ok (Ext (mk_inst 2 (lit "a") (Some 2)))
  /\ ex_reads (cs ++ [Access 0 (lit "ext")]) 3 (lit "ext") = Ok (Ext (mk_inst 0 (lit "a") None))
  /\ ex_reads cs 1 (lit "ext") = Raise RuntimeError
  /\ ex_adds cs (lit "b") = Raise LDAPExtensionError
  /\ ex_reads cs 0 (lit "other") = Raise AttributeError.
Proof. vm_compute. repeat split. Qed.

(** Limit 1: a refused extension has already registered its schema elements. *)
Theorem C42_refuted_refused_extension_keeps_schema :
  exists cs m e, ex_adds cs m = Raise LDAPExtensionError
    /\ ~ In e (map fst (w_log (s_world (ex_after cs)))) /\ In (e, Ok tt) (w_log (s_world (ex_after (cs ++ [Add m])))).
Proof.
  exists [Add (lit "a")], (lit "b"), (mk_elem 2 (KAttr (lit "1.2") [])). vm_compute. split; [reflexivity|]. split.
  - intros [E|[]]. discriminate.
  - right. left. reflexivity.
Qed.
Print Assumptions C42_refuted_refused_extension_keeps_schema.

(** Limit 2: an extension named like a method is accepted, but can never be reached on that class. *)
Theorem C42_refuted_clash_with_method_not_reported :
  exists m name, ex_adds [] m = Ok tt
    /\ forall cs n o, nth_error (s_objs (ex_after (Add m :: cs))) n = Some o -> o_host o = HLdap ->
         ex_reads (Add m :: cs) n name = Ok Own.
Proof.
  exists (lit "c"), (lit "search"). split; [vm_compute; reflexivity|]. intros cs n o Ho Hh.
  eapply C42_own_attributes_never_overridden; [exact Ho| |]; rewrite Hh; reflexivity.
Qed.
Print Assumptions C42_refuted_clash_with_method_not_reported.

(** Limit 3: an extension whose set-up failed fails every time, the second time for another reason
    (its first element counts as a duplicate); here a clash of two syntax rules is reported as a
    missing LaurelinExtension class (LDAPExtensionError instead of LDAPSchemaError). *)
Theorem C42_refuted_failed_setup_misreported :
  exists m, ex_adds [] m = Raise LDAPExtensionError /\ ex_adds [Add m] m = Raise LDAPExtensionError
    /\ (exists pm c, mods m = Some pm /\ p_ext pm = Some c /\ x_sub c = true /\ x_name c <> lit "__undefined__").
Proof.
  exists (lit "d"). split; [vm_compute; reflexivity|]. split; [vm_compute; reflexivity|].
  eexists. eexists. split; [reflexivity|]. split; [reflexivity|]. split; [reflexivity|discriminate].
Qed.
Print Assumptions C42_refuted_failed_setup_misreported.
