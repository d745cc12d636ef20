From Verif Require Import PyBase Model_CIDict Spec_CIDict.

Section P.
  Variable lower : str -> str.
  Context {V : Type}.
  Implicit Types (d : cid V) (m : smap V) (os : list (cid_op V)) (o : cid_op V).
  Implicit Types (kvs : list (str * V)) (v : V) (k : str).

  Definition Inv d : Prop :=
    NoDup (map fst (ckeys d)) /\ NoDup (map fst (cdata d)) /\
    (forall l k, dget (ckeys d) l = Some k ->
       lower k = l /\ exists v, dget (cdata d) k = Some v).

  Definition Rel d m : Prop :=
    Inv d /\
    forall l, m l = match dget (ckeys d) l with
                    | None => None | Some k => dget (cdata d) k end.

  Lemma Rel_get d m k : Rel d m -> cid_get lower d k = spec_get lower m k.
  Proof.
    intros [_ HR]; unfold cid_get, spec_get; rewrite HR.
    destruct (dget (ckeys d) (lower k)) as [k'|]; auto.
  Qed.

  Lemma Rel_empty : Rel cid_empty smap_empty.
  Proof.
    split; [split; [|split]|]; simpl; try constructor; intros; discriminate.
  Qed.

  Lemma Rel_set d m k v : Rel d m -> Rel (cid_set lower d k v) (smap_put lower m k (Some v)).
  Proof.
    intros [[H1 [H2 H3]] HR]; split; [split; [|split]|]; simpl.
    - now apply dset_NoDup.
    - now apply dset_NoDup.
    - intros l k' H. rewrite dget_dset in H.
      destruct (str_eqb_spec (lower k) l) as [<-|Hn].
      + injection H as <-; split; auto. exists v; apply dget_dset_eq.
      + destruct (H3 _ _ H) as [Hl [v' Hv]]; split; auto.
        rewrite dget_dset. destruct (str_eqb k k'); eauto.
    - intros l; unfold smap_put; rewrite dget_dset, (str_eqb_sym l).
      destruct (str_eqb_spec (lower k) l) as [<-|Hn].
      + now rewrite dget_dset_eq.
      + rewrite HR. destruct (dget (ckeys d) l) as [k'|] eqn:E; auto.
        destruct (H3 _ _ E) as [Hl _].
        rewrite dget_dset_neq; auto. congruence.
  Qed.

  Lemma Rel_ext d m m' : (forall l, m l = m' l) -> Rel d m -> Rel d m'.
  Proof. intros He [H1 H2]; split; auto. intros; rewrite <- He; auto. Qed.

  Lemma Rel_del d m k : Rel d m ->
    let (d', r) := cid_del lower d k in
    let (m', o) := spec_step lower m (OpDel k) in
    Rel d' m' /\ OutUnit r = o.
  Proof.
    intros HRel; pose proof HRel as [[H1 [H2 H3]] HR].
    unfold cid_del; simpl.
    pose proof (HR (lower k)) as Hk.
    destruct (dget (ckeys d) (lower k)) as [k'|] eqn:E.
    - destruct (H3 _ _ E) as [Hl [v Hv]]. rewrite Hv in Hk |- *. rewrite Hk.
      split; [|reflexivity]. split; [split; [|split]|]; simpl.
      + now apply ddel_NoDup.
      + now apply ddel_NoDup.
      + intros l k2 H. rewrite dget_ddel in H by auto.
        destruct (str_eqb_spec (lower k) l) as [|Hn]; [discriminate|].
        destruct (H3 _ _ H) as [Hl2 [v2 Hv2]]; split; auto.
        exists v2. rewrite dget_ddel_neq; auto. congruence.
      + intros l; unfold smap_put. rewrite dget_ddel, (str_eqb_sym l) by auto.
        destruct (str_eqb_spec (lower k) l) as [|Hn]; auto.
        rewrite HR. destruct (dget (ckeys d) l) as [k2|] eqn:E2; auto.
        destruct (H3 _ _ E2) as [Hl2 _].
        rewrite dget_ddel_neq; auto. congruence.
    - rewrite Hk; split; auto.
  Qed.

  Lemma Rel_update kvs : forall d m, Rel d m ->
    Rel (cid_update lower d kvs)
        (fold_left (fun m kv => smap_put lower m (fst kv) (Some (snd kv))) kvs m).
  Proof.
    induction kvs as [|[k v] kvs IH]; simpl; intros d m H; auto.
    apply IH; now apply Rel_set.
  Qed.

  Lemma Rel_step d m o : Rel d m ->
    Rel (fst (cid_step lower d o)) (fst (spec_step lower m o)) /\
    snd (cid_step lower d o) = snd (spec_step lower m o).
  Proof.
    intros H; destruct o as [k v|k|k v|kvs| |k|k v|k].
    - split; [now apply Rel_set|reflexivity].
    - pose proof (Rel_del d m k H) as Hd.
      unfold cid_step. destruct (cid_del lower d k) as [d' r].
      destruct (spec_step lower m (OpDel k)) as [m' o]. exact Hd.
    - simpl; unfold cid_setdefault; rewrite (Rel_get d m k H); unfold spec_get.
      destruct (m (lower k)); simpl; split; auto. now apply Rel_set.
    - split; [now apply Rel_update|reflexivity].
    - split; [apply Rel_empty|reflexivity].
    - simpl; split; auto. now rewrite (Rel_get d m k H).
    - simpl; split; auto. unfold cid_get_default; rewrite (Rel_get d m k H); unfold spec_get.
      destruct (m (lower k)); auto.
    - simpl; split; auto. unfold cid_contains; rewrite (Rel_get d m k H); unfold spec_get.
      destruct (m (lower k)); auto.
  Qed.

  Lemma Rel_run os : forall d m, Rel d m ->
    Rel (fst (cid_run lower d os)) (fst (spec_run lower m os)) /\
    snd (cid_run lower d os) = snd (spec_run lower m os).
  Proof.
    induction os as [|o os IH]; intros d m H; simpl; auto.
    pose proof (Rel_step d m o H) as [Hs Ho].
    destruct (cid_step lower d o) as [d1 r1], (spec_step lower m o) as [m1 r2]; simpl in *.
    specialize (IH d1 m1 Hs) as [Hr Hos].
    destruct (cid_run lower d1 os) as [d2 rs], (spec_run lower m1 os) as [m2 rs2]; simpl in *.
    split; congruence.
  Qed.

  Lemma cid_refines_map os :
    snd (cid_run lower cid_empty os) = snd (spec_run lower smap_empty os).
  Proof. apply Rel_run, Rel_empty. Qed.

  (** Enumeration *)
  Lemma cid_enum_complete os k v :
    let d := fst (cid_run lower cid_empty os) in
    let m := fst (spec_run lower smap_empty os) in
    m (lower k) = Some v ->
    exists k', lower k' = lower k /\ In (k', v) (cid_items d).
  Proof.
    cbv zeta; intros Hm.
    destruct (proj1 (Rel_run os cid_empty smap_empty Rel_empty)) as [[H1 [H2 H3]] HR].
    rewrite HR in Hm.
    destruct (dget (ckeys _) (lower k)) as [k'|] eqn:E; [|discriminate].
    exists k'; split; [apply (H3 _ _ E)|]. now apply dget_In.
  Qed.

  (** Under consistent spelling, stale entries never arise. *)
  Definition InvC (W : list str) d : Prop :=
    Inv d /\
    (forall k, In k (map fst (cdata d)) -> In k W /\ dget (ckeys d) (lower k) = Some k).

  Definition cons (W : list str) : Prop :=
    forall k1 k2, In k1 W -> In k2 W -> lower k1 = lower k2 -> k1 = k2.

  Lemma InvC_set W d k v : cons W -> In k W -> InvC W d -> InvC W (cid_set lower d k v).
  Proof.
    intros HW Hk [HI HC]; split.
    - assert (Hr : Rel d (fun l => match dget (ckeys d) l with
                    | None => None | Some k => dget (cdata d) k end)) by (split; auto).
      apply (Rel_set _ _ k v) in Hr. apply Hr.
    - simpl; intros k' Hin. rewrite dset_keys in Hin.
      assert (Hk' : In k' (map fst (cdata d)) \/ k' = k).
      { apply in_app_iff in Hin as [Hin|Hin]; auto.
        destruct (dmem (cdata d) k); simpl in Hin; intuition. }
      rewrite dget_dset. destruct (str_eqb_spec (lower k) (lower k')) as [He|Hn].
      + destruct Hk' as [Hi| ->]; auto.
        destruct (HC _ Hi) as [HkW _]. assert (k = k') as -> by (apply HW; auto). auto.
      + destruct Hk' as [Hi| ->]; [auto|congruence].
  Qed.

  Lemma InvC_update W kvs : forall d, cons W -> incl (map fst kvs) W -> InvC W d ->
    InvC W (cid_update lower d kvs).
  Proof.
    induction kvs as [|[k v] kvs IH]; simpl; intros d HW Hi H; auto.
    apply IH; auto. { intros x Hx; apply Hi; right; auto. }
    apply InvC_set; auto. apply Hi; left; auto.
  Qed.

  Lemma InvC_step W d o : cons W -> incl (written o) W -> InvC W d ->
    InvC W (fst (cid_step lower d o)).
  Proof.
    intros HW Hi H; destruct o as [k v|k|k v|kvs| |k|k v|k]; simpl in *; auto.
    - apply InvC_set; auto. apply Hi; left; auto.
    - destruct H as [[H1 [H2 H3]] HC].
      assert (Hr : Rel d (fun l => match dget (ckeys d) l with
                    | None => None | Some k => dget (cdata d) k end)) by (split; [split|]; auto).
      pose proof (Rel_del d _ k Hr) as Hd.
      unfold cid_del in *; destruct (dget (ckeys d) (lower k)) as [k'|] eqn:E; simpl;
        [|split; [split|]; auto].
      destruct (H3 _ _ E) as [Hl [v Hv]]. rewrite Hv in *. simpl.
      split; [split; [|split]|].
      + simpl; now apply ddel_NoDup.
      + simpl; now apply ddel_NoDup.
      + simpl. intros l k2 Hg. rewrite dget_ddel in Hg by auto.
        destruct (str_eqb_spec (lower k) l) as [|Hn]; [discriminate|].
        destruct (H3 _ _ Hg) as [Hl2 [v2 Hv2]]; split; auto.
        exists v2. rewrite dget_ddel_neq; auto. congruence.
      + simpl. intros k2 Hin.
        assert (Hk2 : In k2 (map fst (cdata d))).
        { apply in_map_iff in Hin as [[a b] [Ha Hb]]; simpl in Ha; subst.
          apply ddel_In in Hb. apply in_map_iff; eexists; split; eauto; auto. }
        destruct (HC _ Hk2) as [HkW Hg]; split; auto.
        rewrite dget_ddel by auto.
        destruct (str_eqb_spec (lower k) (lower k2)) as [He|Hn]; auto.
        exfalso. rewrite <- He, E in Hg. injection Hg as ->.
        assert (Hnone : dget (ddel (cdata d) k2) k2 = None) by (apply dget_ddel_eq; auto).
        apply dget_None in Hnone; auto.
    - unfold cid_setdefault. destruct (cid_get lower d k) as [v'|[]]; simpl; auto.
      apply InvC_set; auto. apply Hi; left; auto.
    - apply InvC_update; auto.
    - split; [split; [constructor|split; [constructor|intros; discriminate]]|intros k []].
  Qed.

  Lemma InvC_run W os : forall d, cons W -> incl (flat_map written os) W -> InvC W d ->
    InvC W (fst (cid_run lower d os)).
  Proof.
    induction os as [|o os IH]; intros d HW Hi H; simpl; auto.
    pose proof (InvC_step W d o HW) as Hs.
    destruct (cid_step lower d o) as [d1 r1]; simpl in *.
    assert (InvC W d1) by (apply Hs; auto; intros x Hx; apply Hi, in_app_iff; auto).
    specialize (IH d1 HW). destruct (cid_run lower d1 os) as [d2 rs]; simpl in *.
    apply IH; auto. intros x Hx; apply Hi, in_app_iff; auto.
  Qed.

  Lemma NoDup_map_in {A B} (f : A -> B) (l : list A) :
    (forall x y, In x l -> In y l -> f x = f y -> x = y) -> NoDup l -> NoDup (map f l).
  Proof.
    intros Hf Hn; induction Hn as [|x l Hni Hn IH]; simpl; constructor.
    - intros Hc; apply in_map_iff in Hc as [y [Hy Hyl]].
      assert (y = x) by (apply Hf; simpl; auto). subst; auto.
    - apply IH; intros; apply Hf; simpl; auto.
  Qed.

  Lemma cid_enum_consistent os :
    consistent_spelling lower os ->
    let d := fst (cid_run lower cid_empty os) in
    let m := fst (spec_run lower smap_empty os) in
    NoDup (map lower (cid_keys d)) /\
    (forall k v, In (k, v) (cid_items d) -> m (lower k) = Some v) /\
    (forall k v, m (lower k) = Some v ->
       exists k', lower k' = lower k /\ In (k', v) (cid_items d)) /\
    cid_len d = List.length (cid_keys d).
  Proof.
    cbv zeta; intros Hc.
    destruct (proj1 (Rel_run os cid_empty smap_empty Rel_empty)) as [[H1 [H2 H3]] HR].
    assert (HC : InvC (flat_map written os) (fst (cid_run lower cid_empty os))).
    { apply InvC_run; [exact Hc|apply incl_refl|].
      split; [split; [constructor|split; [constructor|intros; discriminate]]|intros k []]. }
    destruct HC as [_ HC].
    split; [|split; [|split]].
    - apply NoDup_map_in; auto. intros x y Hx Hy.
      apply Hc; [apply (HC x Hx)|apply (HC y Hy)].
    - intros k v Hin.
      assert (Hk : In k (map fst (cdata (fst (cid_run lower cid_empty os)))))
        by (apply in_map_iff; eexists; split; eauto; auto).
      destruct (HC _ Hk) as [_ Hg]. rewrite HR, Hg. now apply dget_In_NoDup.
    - intros k v. apply cid_enum_complete.
    - unfold cid_len, cid_keys; now rewrite map_length.
  Qed.

  (** update from another case-insensitive dict *)
  Lemma cid_update_from_ok other ks : forall d,
    (forall k, In k ks -> exists v, cid_get lower other k = Ok v) ->
    snd (cid_update_from lower d other ks) = Ok tt.
  Proof.
    induction ks as [|k ks IH]; simpl; intros d H; auto.
    destruct (H k) as [v Hv]; [auto|]. rewrite Hv. apply IH; auto.
  Qed.
End P.

(** ** AttrsDict *)
Lemma validate_values_ok v :
  validate_values v = Ok tt <->
  v = PyDeleteAll \/ exists l, v = PyList l /\
     forall x, In x l -> (exists s, x = PyStr s) \/ (exists b, x = PyBytes b).
Proof.
  destruct v as [s|b|l| |n]; simpl; split; intros H; try discriminate; auto;
    try (destruct H as [H|[l' [H _]]]; discriminate).
  - right; exists l; split; auto. destruct (forallb _ l) eqn:E; [|discriminate].
    rewrite forallb_forall in E. intros x Hx; apply E in Hx.
    destruct x; simpl in Hx; try discriminate; eauto.
  - destruct H as [H|[l' [H Hl]]]; [discriminate|]. injection H as <-.
    replace (forallb is_str_or_bytes l) with true; auto. symmetry; apply forallb_forall.
    intros x Hx; destruct (Hl x Hx) as [[s ->]|[b ->]]; reflexivity.
Qed.

Lemma validate_values_err v e : validate_values v = Raise e -> e = TypeError.
Proof.
  destruct v as [s|b|l| |n]; simpl; try congruence.
  destruct (forallb _ l); congruence.
Qed.

Section AP.
  Variable lower : str -> str.
  Implicit Types d : cid pyval.

  Lemma ad_set_err d a v e : snd (ad_set lower d a v) = Raise e ->
    e = TypeError /\ fst (ad_set lower d a v) = d.
  Proof.
    unfold ad_set; destruct a; simpl; try (intros H; injection H as <-; auto).
    destruct (validate_values v) eqn:E; simpl; intros H; [discriminate|].
    injection H as <-. split; auto. eapply validate_values_err; eauto.
  Qed.

  Lemma ad_set_ok d k v : validate_values v = Ok tt ->
    ad_set lower d (PyStr k) v = (cid_set lower d k v, Ok tt).
  Proof. intros H; unfold ad_set; simpl; now rewrite H. Qed.

  Definition well_typed d : Prop :=
    forall k v, In (k, v) (cdata d) -> validate_values v = Ok tt.

  Lemma dset_In {V} (dd : list (str * V)) k v k' v' :
    In (k', v') (dset dd k v) -> (k' = k /\ v' = v) \/ In (k', v') dd.
  Proof.
    induction dd as [|[a b] dd IH]; simpl.
    - intros [H|[]]; injection H as <- <-; auto.
    - destruct (str_eqb_spec a k) as [->|Hn]; simpl; intros [H|H]; auto.
      + injection H as <- <-; auto.
      + destruct (IH H); auto.
  Qed.

  Lemma ad_set_typed d a v : well_typed d -> well_typed (fst (ad_set lower d a v)).
  Proof.
    intros H; unfold ad_set. destruct a; simpl; auto.
    destruct (validate_values v) eqn:E; simpl; auto.
    intros k' v' Hin. simpl in Hin. apply dset_In in Hin as [[-> ->]|Hin]; eauto.
    now destruct a.
  Qed.

  Lemma ad_set_all_typed kvs : forall d, well_typed d -> well_typed (fst (ad_set_all lower d kvs)).
  Proof.
    induction kvs as [|[a v] kvs IH]; simpl; intros d H; auto.
    pose proof (ad_set_typed d a v H) as Ht.
    destruct (ad_set lower d a v) as [d' [u|e]]; simpl in *; auto.
  Qed.

  Lemma ad_setdefault_typed d a dv : well_typed d -> well_typed (fst (ad_setdefault lower d a dv)).
  Proof.
    intros H; unfold ad_setdefault. destruct (validate_attr a); simpl; auto.
    destruct (validate_values _); simpl; auto.
    destruct (cid_get lower d a0) as [v|[]]; simpl; auto.
    pose proof (ad_set_typed d a (match dv with None => PyList [] | Some v => v end) H) as Ht.
    destruct (ad_set lower d a _) as [d' r]; simpl in *; auto.
  Qed.

  Lemma validate_dict_ok kvs :
    validate_dict kvs = Ok tt <->
    forall a v, In (a, v) kvs -> (exists k, a = PyStr k) /\ validate_values v = Ok tt.
  Proof.
    induction kvs as [|[a v] kvs IH]; simpl.
    - split; auto. intros _ a v [].
    - destruct a; simpl; try (split; [discriminate|]; intros H;
        destruct (H _ _ (or_introl eq_refl)) as [[k Hk] _]; discriminate).
      destruct (validate_values v) as [[]|e] eqn:E; simpl.
      + rewrite IH; split; intros H; intros.
        * destruct H0 as [H0|H0]; [injection H0 as <- <-; eauto|apply H; auto].
        * apply H; auto.
      + split; [discriminate|]. intros H.
        destruct (H _ _ (or_introl eq_refl)) as [_ Hv]. congruence.
  Qed.

  Lemma validate_dict_err kvs e : validate_dict kvs = Raise e -> e = TypeError.
  Proof.
    induction kvs as [|[a v] kvs IH]; simpl; [discriminate|].
    destruct a; simpl; try congruence.
    destruct (validate_values v) as [[]|e'] eqn:E; simpl; auto.
    intros H; injection H as <-; eapply validate_values_err; eauto.
  Qed.

  Definition unpy (kvs : list (pyval * pyval)) : list (str * pyval) :=
    flat_map (fun kv => match fst kv with PyStr s => [(s, snd kv)] | _ => [] end) kvs.

  Lemma ad_set_all_ok kvs : forall d, validate_dict kvs = Ok tt ->
    ad_set_all lower d kvs = (cid_update lower d (unpy kvs), Ok tt).
  Proof.
    induction kvs as [|[a v] kvs IH]; simpl; intros d H; auto.
    destruct a; simpl in H; try discriminate.
    destruct (validate_values v) as [[]|e] eqn:E; simpl in H; [|discriminate].
    rewrite ad_set_ok by auto. rewrite IH; auto.
  Qed.

  Lemma ad_update_atomic d kvs :
    (snd (ad_update lower d kvs) = Ok tt /\ validate_dict kvs = Ok tt /\
     fst (ad_update lower d kvs) = cid_update lower d (unpy kvs)) \/
    (snd (ad_update lower d kvs) = Raise TypeError /\ validate_dict kvs <> Ok tt /\
     fst (ad_update lower d kvs) = d).
  Proof.
    unfold ad_update. destruct (validate_dict kvs) as [[]|e] eqn:E.
    - left. rewrite ad_set_all_ok by auto; auto.
    - right. apply validate_dict_err in E as He; subst; simpl; repeat split; congruence.
  Qed.

  Lemma ad_contains_spec d k : well_typed d ->
    ad_contains lower d k =
      Ok (match cid_get lower d k with
          | Ok (PyList (_ :: _)) => true | _ => false end).
  Proof.
    intros H; unfold ad_contains, cid_get.
    destruct (dget (ckeys d) (lower k)) as [k'|]; auto.
    destruct (dget (cdata d) k') as [v|] eqn:E; auto.
    apply dget_In, H in E. destruct v as [s|b|[|x l]| |n]; simpl in *; try discriminate; auto.
  Qed.
End AP.

(** Copying a dict by re-inserting what it enumerates *)
Section Copy.
  Variable lower : str -> str.
  Context {V : Type}.
  Implicit Types (kvs : list (str * V)) (m : smap V).

  Lemma fold_put_other kvs : forall m l,
    ~ In l (map (fun kv => lower (fst kv)) kvs) ->
    fold_left (fun m kv => smap_put lower m (fst kv) (Some (snd kv))) kvs m l = m l.
  Proof.
    induction kvs as [|[k v] kvs IH]; simpl; intros m l H; auto.
    rewrite IH by tauto. unfold smap_put.
    destruct (str_eqb_spec l (lower k)); auto. subst; tauto.
  Qed.

  Lemma fold_put_in kvs : forall m k v,
    NoDup (map (fun kv => lower (fst kv)) kvs) -> In (k, v) kvs ->
    fold_left (fun m kv => smap_put lower m (fst kv) (Some (snd kv))) kvs m (lower k) = Some v.
  Proof.
    induction kvs as [|[k' v'] kvs IH]; simpl; intros m k v Hn Hin; [contradiction|].
    inversion Hn as [|? ? Hni Hn']; subst. destruct Hin as [He|Hin].
    - injection He as -> ->. rewrite fold_put_other by auto.
      unfold smap_put. now rewrite str_eqb_refl.
    - auto.
  Qed.

  Lemma cid_copy_consistent (os : list (cid_op V)) k :
    consistent_spelling lower os ->
    let d := fst (cid_run lower cid_empty os) in
    cid_get lower (cid_update lower cid_empty (cid_items d)) k = cid_get lower d k.
  Proof.
    cbv zeta; intros Hc.
    pose proof (cid_enum_consistent lower os Hc) as He; cbv zeta in He.
    destruct He as [Hnd [Hval [Hcomp _]]].
    pose proof (proj1 (Rel_run lower os cid_empty smap_empty (Rel_empty lower))) as HR.
    rewrite (Rel_get lower _ _ k HR).
    rewrite (Rel_get lower _ _ k (Rel_update lower _ _ _ (Rel_empty lower))).
    unfold spec_get. set (m := fst (spec_run lower smap_empty os)) in *.
    set (d := fst (cid_run lower cid_empty os)) in *.
    assert (Hnd' : NoDup (map (fun kv => lower (fst kv)) (cid_items d))).
    { unfold cid_keys in Hnd. rewrite map_map in Hnd. exact Hnd. }
    destruct (m (lower k)) as [v|] eqn:Em.
    - destruct (Hcomp _ _ Em) as [k' [Hk' Hin]].
      rewrite <- Hk'. now rewrite (fold_put_in _ _ k' v).
    - rewrite fold_put_other; auto.
      intros Hin; apply in_map_iff in Hin as [[a b] [Ha Hb]]; simpl in Ha.
      apply Hval in Hb. congruence.
  Qed.
End Copy.
