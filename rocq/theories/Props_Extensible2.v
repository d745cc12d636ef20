(** * C42, the refusals: which exception, when *)
From Verif Require Import PyBase Model_Registration Model_Extensible Proofs_Extensible Props_Extensible.

Section C42.
  Context (lower : str -> str) (reserved : list str).
  Context (modules : str -> option pymod) (available : list (str * (str * bool))) (prop own : host -> str -> bool).
  Notation after := (after lower reserved modules available prop own).
  Notation reads := (reads lower reserved modules available prop own).
  Notation adds := (adds lower reserved modules available prop own).

  (** The module has a proper class for this kind of object: LaurelinLDAPExtension for LDAP,
      LaurelinLDAPObjectExtension for LDAPObject; for the Extensions object nothing more is
      needed than the LaurelinExtension class. *)
  Definition has_class (h : host) (pm : pymod) : Prop :=
    match h with HLdap => p_ldap pm = Some true | HObj => p_obj pm = Some true | HExts => True end.

  (** instances are only ever made of modules with a proper class *)
  Definition cls_ok (s : state) : Prop := forall n o name i,
    nth_error (s_objs s) n = Some o -> dget (o_insts o) name = Some i ->
    exists pm, modules (in_mod i) = Some pm /\ has_class (o_host o) pm.

  Lemma import_objs m s : inv modules available s -> s_objs (snd (import_extension lower reserved modules m s)) = s_objs s.
  Proof.
    intros I. pose proof (import_extension_ok lower reserved modules available m s I) as H.
    destruct (import_extension lower reserved modules m s) as [r s1]. apply H.
  Qed.
  Lemma create_cls n o name m pm s : inv modules available s -> cls_ok s -> nth_error (s_objs s) n = Some o -> modules m = Some pm ->
    cls_ok (snd (create_instance n o name m pm s)).
  Proof.
    intros I C Ho Hm.
    assert (Hup : forall i next, in_mod i = m -> has_class (o_host o) pm -> cls_ok (cache s n o name i next)).
    { intros i next Hi Hc k o' nm j Hk Hj. unfold cache in Hk. cbn [s_objs] in Hk. rewrite upd_nth in Hk.
      destruct (Nat.eqb_spec n k) as [<-|]; [|eapply C; eauto].
      rewrite Ho in Hk. injection Hk as <-. cbn [o_insts o_host] in *. rewrite dget_dset in Hj.
      destruct (str_eqb name nm); [|eapply C; eauto]. injection Hj as <-. exists pm. rewrite Hi. auto. }
    unfold create_instance. destruct (o_host o) eqn:Eh; unfold has_class in Hup.
    - destruct (p_ldap pm) as [[|]|] eqn:E; cbn [snd]; [|exact C|exact C]. apply Hup; [reflexivity|rewrite ?E; reflexivity].
    - destruct (p_obj pm) as [[|]|] eqn:E; cbn [snd]; [|exact C|exact C]. apply Hup; [reflexivity|rewrite ?E; reflexivity].
    - destruct (dget (s_inst s) m) as [i|] eqn:E; cbn [snd]; [|exact C]. apply Hup; [|exact Logic.I]. apply (v_inst _ _ _ I m i E).
  Qed.
  Lemma access_cls n name s : inv modules available s -> cls_ok s ->
    cls_ok (snd (access lower reserved modules available prop own n name s)).
  Proof.
    intros I C. unfold access. destruct (nth_error (s_objs s) n) as [o|] eqn:Ho; [|exact C].
    destruct (prop (o_host o) name).
    - unfold get_extension_instance. destruct (dget available name) as [[m t]|]; [|exact C].
      destruct (o_only o && t); [exact C|]. destruct (dget (o_insts o) name); [exact C|].
      pose proof (import_extension_ok lower reserved modules available m s I) as H.
      destruct (import_extension lower reserved modules m s) as [r s1]. destruct H as (I1 & _ & _ & Eo & Hok & _).
      assert (C1 : cls_ok s1) by (unfold cls_ok; rewrite Eo; exact C).
      destruct r as [pm|x]; [|exact C1]. destruct (Hok pm eq_refl) as (Hm & _).
      apply create_cls; auto. rewrite Eo. exact Ho.
    - destruct (own (o_host o) name); [exact C|]. unfold getattr_. destruct (dget (o_insts o) name); [exact C|].
      destruct (dget (s_added s) name) as [m|]; [|exact C]. destruct (o_only o); [exact C|].
      destruct (modules m) as [pm|] eqn:Em; [|exact C]. apply create_cls; auto.
  Qed.
  Lemma after_cls cs : cls_ok (after cs).
  Proof.
    induction cs as [|c cs IH] using rev_ind.
    - intros n o name i H. destruct n; discriminate.
    - rewrite after_snoc. pose proof (after_inv lower reserved modules available prop own cs) as I.
      destruct c as [h b|m|n name|ev]; cbn [exec].
      + cbn [snd]. intros n o name i H Hi. cbn [s_objs] in H.
        destruct (Nat.lt_ge_cases n (List.length (s_objs (after cs)))) as [Hl|Hg].
        * rewrite nth_error_app1 in H by exact Hl. eapply IH; eauto.
        * rewrite nth_error_app2 in H by exact Hg. destruct (n - List.length (s_objs (after cs))) as [|k]; [injection H as <-; discriminate|destruct k; discriminate].
      + pose proof (add_extension_ok lower reserved modules available m _ I) as H.
        destruct (add_extension lower reserved modules available m (after cs)) as [r s1]. cbn [snd]. destruct H as (_ & _ & Eo & _).
        unfold cls_ok. rewrite Eo. exact IH.
      + pose proof (access_cls n name _ I IH) as H. destruct (access lower reserved modules available prop own n name (after cs)). exact H.
      + destruct (step lower reserved (s_world (after cs)) ev) as [r w]. exact IH.
  Qed.

  (** what a successful add_extension leaves, for good *)
  Lemma added_later cs m cs' pm c :
    adds cs m = Ok tt -> modules m = Some pm -> p_ext pm = Some c ->
    In m (s_setup (after (cs ++ Add m :: cs')))
    /\ (dget available (x_name c) = None -> dget (s_added (after (cs ++ Add m :: cs'))) (x_name c) = Some m)
    /\ (forall m' t, dget available (x_name c) = Some (m', t) -> m' = m).
  Proof.
    intros Hadd Hm Hc.
    pose proof (C42_adding_again_no_effect lower reserved modules available prop own cs m cs' Hadd) as Hagain. cbv zeta in Hagain.
    pose proof (after_inv lower reserved modules available prop own (cs ++ Add m :: cs')) as I.
    pose proof (add_extension_ok lower reserved modules available m _ I) as Y.
    rewrite Hagain in Y. destruct Y as (_ & _ & _ & _ & Y & _). destruct (Y eq_refl) as (Hs & pm2 & c2 & Hm2 & Hc2 & Hb).
    rewrite Hm in Hm2. injection Hm2 as <-. rewrite Hc in Hc2. injection Hc2 as <-.
    split; [exact Hs|]. split.
    - intros Ha. destruct Hb as [Hb|[t Hb]]; [exact Hb|congruence].
    - intros m' t Ha. destruct Hb as [Hb|[t' Hb]]; [|congruence]. destruct (v_added _ _ _ I _ _ Hb) as (A & _). congruence.
  Qed.

  (** An extension that was added, but has no proper class for this kind of object, is reported
      with LDAPExtensionError at every attempt, whatever happened in between. *)
  Theorem C42_missing_class_reported cs m cs' n o pm c :
    adds cs m = Ok tt -> modules m = Some pm -> p_ext pm = Some c ->
    nth_error (s_objs (after (cs ++ Add m :: cs'))) n = Some o -> o_only o = false -> ~ has_class (o_host o) pm ->
    (if prop (o_host o) (x_name c) then dget available (x_name c) <> None
     else own (o_host o) (x_name c) = false /\ dget available (x_name c) = None) ->
    reads (cs ++ Add m :: cs') n (x_name c) = Raise LDAPExtensionError.
  Proof.
    intros Hadd Hm Hc Ho Honly Hcls Hname.
    destruct (added_later cs m cs' pm c Hadd Hm Hc) as (Hs & Hb1 & Hb2).
    unfold Props_Extensible.reads. set (s := after (cs ++ Add m :: cs')) in *.
    pose proof (after_inv lower reserved modules available prop own (cs ++ Add m :: cs')) as I. fold s in I.
    pose proof (after_cls (cs ++ Add m :: cs')) as C. fold s in C.
    assert (Hnone : dget (o_insts o) (x_name c) = None).
    { destruct (dget (o_insts o) (x_name c)) as [i|] eqn:Ei; [|reflexivity]. exfalso.
      destruct (C n o _ i Ho Ei) as (pm' & Hpm & Hc').
      assert (in_mod i = m).
      { destruct (v_objs _ _ _ I n o _ i Ho Ei) as ((t & [Hx|(Hx & _ & Hy)] & _) & _); [eapply Hb2; eauto|].
        rewrite (Hb1 Hx) in Hy. congruence. }
      subst m. rewrite Hm in Hpm. injection Hpm as <-. exact (Hcls Hc'). }
    assert (Hcreate : forall s', fst (create_instance n o (x_name c) m pm s') = Raise LDAPExtensionError).
    { intros s'. unfold create_instance, has_class in *. destruct (o_host o).
      - destruct (p_ldap pm) as [[|]|]; [congruence|reflexivity|reflexivity].
      - destruct (p_obj pm) as [[|]|]; [congruence|reflexivity|reflexivity].
      - destruct (Hcls Logic.I). }
    unfold access. rewrite Ho. destruct (prop (o_host o) (x_name c)).
    - unfold get_extension_instance. destruct (dget available (x_name c)) as [[m' t]|] eqn:Ea; [|congruence].
      rewrite (Hb2 m' t eq_refl) in *. rewrite Honly, Hnone. cbn [andb].
      pose proof (import_extension_ok lower reserved modules available m s I) as X.
      destruct (import_extension lower reserved modules m s) as [r s1]. destruct X as (_ & _ & _ & _ & Hok & Hre).
      destruct (Hre Hs) as [-> Hr]. destruct r as [pm'|x]; [|discriminate].
      destruct (Hok pm' eq_refl) as (Hm' & _). rewrite Hm in Hm'. injection Hm' as <-. apply Hcreate.
    - destruct Hname as [Hw Hav]. rewrite Hw. unfold getattr_. rewrite Hnone, (Hb1 Hav), Honly, Hm. apply Hcreate.
  Qed.

  (** On an object restricted to built-in extensions, a third-party extension is refused with
      RuntimeError, whether it is predefined ... *)
  Theorem C42_built_in_only_refuses_predefined cs n o name m :
    nth_error (s_objs (after cs)) n = Some o -> o_only o = true -> prop (o_host o) name = true ->
    dget available name = Some (m, true) -> reads cs n name = Raise RuntimeError.
  Proof.
    intros Ho Honly Hp Ha. unfold Props_Extensible.reads, access. rewrite Ho, Hp. unfold get_extension_instance.
    rewrite Ha, Honly. reflexivity.
  Qed.
  (** ... or was added by the user. *)
  Theorem C42_built_in_only_refuses_added cs m cs' n o pm c :
    adds cs m = Ok tt -> modules m = Some pm -> p_ext pm = Some c -> dget available (x_name c) = None ->
    nth_error (s_objs (after (cs ++ Add m :: cs'))) n = Some o -> o_only o = true ->
    prop (o_host o) (x_name c) = false -> own (o_host o) (x_name c) = false ->
    reads (cs ++ Add m :: cs') n (x_name c) = Raise RuntimeError.
  Proof.
    intros Hadd Hm Hc Hav Ho Honly Hp Hw.
    destruct (added_later cs m cs' pm c Hadd Hm Hc) as (Hs & Hb1 & Hb2). specialize (Hb1 Hav).
    unfold Props_Extensible.reads, access. rewrite Ho, Hp, Hw. unfold getattr_.
    destruct (dget (o_insts o) (x_name c)) as [i|] eqn:Ei.
    - exfalso. destruct (v_objs _ _ _ (after_inv lower reserved modules available prop own _) n o _ i Ho Ei) as ((t & [Hx|(_ & Ht & _)] & Hy) & _).
      + congruence.
      + rewrite (Hy Honly) in Ht. discriminate.
    - rewrite Hb1, Honly. reflexivity.
  Qed.

  (** A module that cannot be found: add_extension lets ImportError through ... *)
  Theorem C42_no_such_module_added cs m : modules m = None -> adds cs m = Raise (OtherExn 1).
  Proof. intros Hm. unfold Props_Extensible.adds, add_extension, import_extension, import_module. rewrite Hm. reflexivity. Qed.
  (** ... and the property of a predefined extension reports LDAPExtensionError. *)
  Theorem C42_no_such_module_predefined cs n o name m third :
    nth_error (s_objs (after cs)) n = Some o -> prop (o_host o) name = true ->
    dget available name = Some (m, third) -> (o_only o = true -> third = false) -> modules m = None ->
    reads cs n name = Raise LDAPExtensionError.
  Proof.
    intros Ho Hp Ha Honly Hm. unfold Props_Extensible.reads, access. rewrite Ho, Hp. unfold get_extension_instance. rewrite Ha.
    replace (o_only o && third)%bool with false by (destruct (o_only o); [now rewrite Honly|reflexivity]).
    destruct (dget (o_insts o) name) as [i|] eqn:Ei.
    - exfalso. destruct (after_cls cs n o name i Ho Ei) as (pm & Hpm & _).
      destruct (v_objs _ _ _ (after_inv lower reserved modules available prop own cs) n o name i Ho Ei) as ((t & [Hb|(Hb & _)] & _) & _); congruence.
    - unfold import_extension, import_module. rewrite Hm. reflexivity.
  Qed.

  (** A module whose body defines nothing and that has no proper LaurelinExtension class - none at
      all, one that is not a subclass, or one that leaves NAME undefined - is refused with exactly
      LDAPExtensionError. *)
  Theorem C42_invalid_extension_exception cs m pm :
    modules m = Some pm -> p_body pm = [] ->
    match p_ext pm with None => True | Some c => x_sub c = false \/ x_name c = lit "__undefined__" end ->
    adds cs m = Raise LDAPExtensionError.
  Proof.
    intros Hm Hb Hbad.
    pose proof (after_inv lower reserved modules available prop own cs) as I.
    assert (Hns : forall s1, inv modules available s1 -> ~ In m (s_setup s1)).
    { intros s1 I1 Hin. destruct (v_setup_cls _ _ _ I1 m Hin) as (pm' & c & A & B & C & D). rewrite Hm in A. injection A as <-.
      rewrite B in Hbad. destruct Hbad; congruence. }
    unfold Props_Extensible.adds, add_extension, import_extension.
    pose proof (import_module_ok lower reserved modules available m (after cs) I) as H.
    assert (Hok : is_ok (fst (import_module lower reserved modules m (after cs))) = true).
    { unfold import_module. rewrite Hm. destruct (smem m (s_mods (after cs))); [reflexivity|]. rewrite Hb. reflexivity. }
    destruct (import_module lower reserved modules m (after cs)) as [r s1]. cbn [fst] in Hok.
    destruct H as (I1 & _ & _ & _ & _ & _ & _ & Hr & _). destruct r as [pm'|x]; [|discriminate].
    destruct (Hr pm' eq_refl) as [A _]. rewrite Hm in A. injection A as <-.
    destruct (smem m (s_setup s1)) eqn:Es; [apply smem_In in Es; destruct (Hns s1 I1 Es)|].
    destruct (p_ext pm) as [c|]; [|reflexivity]. destruct (x_sub c); cbn [negb]; [|reflexivity].
    destruct Hbad as [Hbad|Hbad]; [discriminate|]. rewrite Hbad. reflexivity.
  Qed.
End C42.
Print Assumptions C42_missing_class_reported.
Print Assumptions C42_built_in_only_refuses_predefined.
Print Assumptions C42_built_in_only_refuses_added.
Print Assumptions C42_no_such_module_added.
Print Assumptions C42_no_such_module_predefined.
Print Assumptions C42_invalid_extension_exception.

(** Examples: module "b" of Props_Extensible has no class for LDAPObject; "zz" does not exist; a
    third-party predefined extension on a restricted object *)
Definition ex_bad : str -> option pymod := fun m =>
  if str_eqb m (lit "nocls") then Some (mk_pymod [] None None None)
  else if str_eqb m (lit "noname") then Some (mk_pymod [] (Some (mk_extcls true (lit "__undefined__"))) None None)
  else if str_eqb m (lit "nosub") then Some (mk_pymod [] (Some (mk_extcls false (lit "fine"))) None None)
  else mods m.
Definition ex_avail : list (str * (str * bool)) := [(lit "gone", (lit "zz", false)); (lit "third", (lit "zz", true))].
Definition ex_prop (_ : host) (name : str) : bool := smem name (map lit ["gone"; "third"]%string).
Notation ex_reads2 := (reads (fun s => s) [] ex_bad ex_avail ex_prop ex_own).
Notation ex_adds2 := (adds (fun s => s) [] ex_bad ex_avail ex_prop ex_own).
Example C42_refusals_nonvacuous :
  let cs := [New HObj false; New HLdap true; Add (lit "b")] in
  ex_adds2 [New HObj false; New HLdap true] (lit "b") = Ok tt
  /\ ex_reads2 cs 0 (lit "ext") = Raise LDAPExtensionError
  /\ ex_reads2 cs 1 (lit "ext") = Raise RuntimeError
  /\ ex_reads2 cs 1 (lit "third") = Raise RuntimeError
  /\ ex_reads2 cs 0 (lit "gone") = Raise LDAPExtensionError
  /\ ex_adds2 cs (lit "zz") = Raise (OtherExn 1)
  /\ ex_adds2 cs (lit "nocls") = Raise LDAPExtensionError
  /\ ex_adds2 cs (lit "noname") = Raise LDAPExtensionError
  /\ ex_adds2 cs (lit "nosub") = Raise LDAPExtensionError.
Proof. vm_compute. repeat split. Qed.
