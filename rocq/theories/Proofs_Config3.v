From Verif Require Import PyBase Model_Uri Proofs_Uri Model_Config Spec_Config Proofs_Config Proofs_Config2.

Definition with_tags (c : conn) (l : list (tkey * cobj)) : conn :=
  mk_conn (cn_settings c) (cn_uri c) (cn_params c) (cn_validators c) (cn_base c) (cn_sasl_mech c) l.

Lemma tkey_eqb_eq a b : tkey_eqb a b = true <-> a = b.
Proof.
  destruct a, b; cbn [tkey_eqb]; try (split; [discriminate|congruence]).
  - rewrite str_eqb_eq. split; congruence.
  - rewrite Z.eqb_eq. split; congruence.
  - rewrite N.eqb_eq. split; congruence.
Qed.
Lemma tkey_eqb_refl a : tkey_eqb a a = true.
Proof. now apply tkey_eqb_eq. Qed.
Lemma tget_app l l2 k o : tget l k = Some o -> tget (l ++ l2) k = Some o.
Proof.
  induction l as [|[k' o'] l IH]; [discriminate|]. cbn [tget app]. destruct (tkey_eqb k' k); auto.
Qed.
Lemma tget_app_new l k o : tget l k = None -> tget (l ++ [(k, o)]) k = Some o.
Proof.
  induction l as [|[k' o'] l IH]; cbn [tget app].
  - now rewrite tkey_eqb_refl.
  - destruct (tkey_eqb k' k); [discriminate|auto].
Qed.
Lemma tget_app_none l l2 k : tget l k = None -> tget (l ++ l2) k = tget l2 k.
Proof.
  induction l as [|[k' o'] l IH]; [reflexivity|]. cbn [tget app]. destruct (tkey_eqb k' k); [discriminate|auto].
Qed.

Section S.
  Context (lower : str -> str).

  Lemma scope_string_spec v v' : scope_string lower v = Ok v' <-> scope_word lower v v'.
  Proof.
    unfold scope_word. split.
    - intros H. destruct v; cbn [scope_string] in H; try discriminate H. exists s. split; [reflexivity|].
      destruct (str_eqb_spec (lower s) (lit "base")); [inv H; auto|].
      destruct (str_eqb_spec (lower s) (lit "one")); [inv H; auto|].
      destruct (str_eqb_spec (lower s) (lit "sub")); [inv H; auto|discriminate].
    - intros (s & -> & H). cbn [scope_string].
      destruct H as [[-> ->]|[[-> ->]|[-> ->]]]; reflexivity.
  Qed.

  Lemma kw_default_given d k k0 dflt : k <> k0 -> given_or d k dflt (kw_default (ddel d k0) k dflt).
  Proof.
    clear lower. intros N. unfold given_or, kw_default. rewrite dget_ddel_other by congruence.
    destruct (dget d k); auto.
  Qed.

  Lemma new_obj_ok e c dn kw c' : new_obj e c dn kw = Ok c' ->
    let o := mk_cobj dn (kw_default kw (lit "attrs_dict") VNone)
               (kw_default kw (lit "relative_search_scope") (VScope ScSub)) (kw_default kw (lit "rdn_attr") VNone) in
    let t := kw_default kw (lit "tag") VNone in
    (t = VNone /\ c' = c) \/
    (t <> VNone /\ exists k, tag_key t = Some k /\ tget (cn_tags c) k = None /\ c' = with_tags c (cn_tags c ++ [(k, o)])).
  Proof.
    clear lower. unfold new_obj. intros H. cbv zeta.
    destruct (forallb _ kw); [cbn [negb] in H|discriminate H].
    destruct (e_attrs e _) as [[]|]; cbn [bind] in H; [|discriminate H].
    destruct (kw_default kw (lit "tag") VNone) as [|b|z|s|x|x|l|d|n|n|u ps|n] eqn:T;
      [left; split; [reflexivity|congruence]|..];
      (right; split; [discriminate|]);
      (destruct (tag_key _) as [k|] eqn:K in H; [|discriminate H]);
      (destruct (tget (cn_tags c) k) eqn:G; [discriminate H|]); (exists k; inv H; auto).
  Qed.

  Lemma single_ok e c d c' d' : create_single_object lower e c d = (Ok c', d') ->
    exists o t, describes lower (dn_text (cn_base c)) d o /\ dget d (lit "tag") = Some t /\
     ((t = VNone /\ c' = c) \/
      (t <> VNone /\ exists k, tag_key t = Some k /\ tget (cn_tags c) k = None /\
                               c' = with_tags c (cn_tags c ++ [(k, o)]))).
  Proof.
    unfold create_single_object. intros H.
    (* the dictionary after the scope has been translated *)
    assert (Step : exists d1 sc, (dget d1 (lit "relative_search_scope") = sc) /\
              ((dget d (lit "relative_search_scope") = None /\ sc = None) \/
               (exists v v', dget d (lit "relative_search_scope") = Some v /\ scope_word lower v v' /\ sc = Some v')) /\
              (forall k, k <> lit "relative_search_scope" -> dget d1 k = dget d k) /\
              ((exists v, dget d (lit "rdn") = Some v /\ dget d (lit "dn") = None /\ dget d1 (lit "tag") <> None /\
                 exists dn, base_rdn c v = Ok dn /\ new_obj e c dn (ddel d1 (lit "rdn")) = Ok c') \/
               (exists v, dget d (lit "dn") = Some v /\ dget d (lit "rdn") = None /\ dget d1 (lit "tag") <> None /\
                 new_obj e c v (ddel d1 (lit "dn")) = Ok c'))).
    { assert (St : forall d1 base first c'' d'', object_step e c base first d1 = (Ok c'', d'') ->
        dget d1 (lit "tag") <> None /\ exists v, dget d1 first = Some v /\
          (if base then exists dn, base_rdn c v = Ok dn /\ new_obj e c dn (ddel d1 first) = Ok c''
           else new_obj e c v (ddel d1 first) = Ok c'')).
      { intros d1 base first c'' d''. unfold object_step, dmem. destruct (dget d1 (lit "tag")); cbn [negb]; [|discriminate].
        intros Q. split; [discriminate|]. destruct (dget d1 first) as [v|]; [|discriminate]. exists v. split; [reflexivity|].
        destruct base; [destruct (base_rdn c v) as [dn|]; [|discriminate]; inv Q; eauto|now inv Q]. }
      assert (G : forall base first, first <> lit "relative_search_scope" ->
         object_scope lower e c base first d = (Ok c', d') ->
         exists d1 sc, dget d1 (lit "relative_search_scope") = sc /\
              ((dget d (lit "relative_search_scope") = None /\ sc = None) \/
               (exists v v', dget d (lit "relative_search_scope") = Some v /\ scope_word lower v v' /\ sc = Some v')) /\
              (forall k, k <> lit "relative_search_scope" -> dget d1 k = dget d k) /\
              dget d1 (lit "tag") <> None /\ exists v, dget d first = Some v /\
              (if base then exists dn, base_rdn c v = Ok dn /\ new_obj e c dn (ddel d1 first) = Ok c'
               else new_obj e c v (ddel d1 first) = Ok c')).
      { intros base first Nf Q. unfold object_scope in Q. destruct (dget d (lit "relative_search_scope")) as [s|] eqn:Es.
        - destruct (scope_string lower s) as [s'|] eqn:Sc; [|discriminate].
          apply St in Q as (Q1 & v & Q2 & Q3).
          exists (dset d (lit "relative_search_scope") s'), (Some s'). split; [apply dget_dset_here|].
          split; [right; exists s, s'; split; [reflexivity|split; [now apply scope_string_spec|reflexivity]]|].
          split; [intros k Hk; apply dget_dset_other; congruence|]. split; [exact Q1|].
          exists v. split; [|exact Q3]. rewrite <- Q2. symmetry. apply dget_dset_other. congruence.
        - apply St in Q as (Q1 & v & Q2 & Q3). exists d, None. split; [exact Es|]. split; [auto|]. split; [auto|].
          split; [exact Q1|]. eauto. }
      destruct (dget d (lit "rdn")) as [v1|] eqn:E1; destruct (dget d (lit "dn")) as [v2|] eqn:E2; try discriminate H.
      - destruct (G true (lit "rdn") ltac:(discriminate) H) as (d1 & sc & A & B & C & D & v & F & dn & Gn & Hn).
        exists d1, sc. split; [exact A|]. split; [exact B|]. split; [exact C|]. left. exists v1.
        assert (v = v1) by congruence. subst v. eauto 10.
      - destruct (G false (lit "dn") ltac:(discriminate) H) as (d1 & sc & A & B & C & D & v & F & Gn).
        exists d1, sc. split; [exact A|]. split; [exact B|]. split; [exact C|]. right. exists v2.
        assert (v = v2) by congruence. subst v. eauto 10. }
    clear H. destruct Step as (d1 & sc & A & B & C & D).
    assert (Dd : forall o, given_or d (lit "attrs_dict") VNone (co_attrs o) = given_or d1 (lit "attrs_dict") VNone (co_attrs o))
      by (intros o; unfold given_or; rewrite C by discriminate; reflexivity).
    assert (Dr : forall o, given_or d (lit "rdn_attr") VNone (co_rdn_attr o) = given_or d1 (lit "rdn_attr") VNone (co_rdn_attr o))
      by (intros o; unfold given_or; rewrite C by discriminate; reflexivity).
    assert (Sc : forall first, first <> lit "relative_search_scope" ->
       (dget d (lit "relative_search_scope") = None /\ kw_default (ddel d1 first) (lit "relative_search_scope") (VScope ScSub) = VScope ScSub) \/
       (exists v, dget d (lit "relative_search_scope") = Some v /\
          scope_word lower v (kw_default (ddel d1 first) (lit "relative_search_scope") (VScope ScSub)))).
    { intros first Nf. unfold kw_default. rewrite dget_ddel_other by exact Nf. rewrite A.
      destruct B as [[B ->]|(v & v' & B & W & ->)]; [left; auto|right; eauto]. }
    destruct D as [(v & E1 & E2 & Nt & dn & Br & Nw)|(v & E1 & E2 & Nt & Nw)].
    - apply new_obj_ok in Nw. cbv zeta in Nw.
      destruct (dget d1 (lit "tag")) as [t|] eqn:Et; [|congruence].
      assert (Tg : kw_default (ddel d1 (lit "rdn")) (lit "tag") VNone = t)
        by (unfold kw_default; rewrite dget_ddel_other by discriminate; now rewrite Et).
      rewrite Tg in Nw. eexists. exists t. split; [|split; [rewrite <- C by discriminate; exact Et|exact Nw]].
      unfold describes. rewrite Dd, Dr. cbn [co_dn co_scope co_attrs co_rdn_attr].
      split; [|split; [apply Sc; discriminate|split; apply kw_default_given; discriminate]].
      right. split; [exact E2|]. destruct v; try discriminate Br. cbn [base_rdn] in Br.
      destruct (existsb (N.eqb (ch "=")) s) eqn:Eq; [|discriminate Br]. inv Br.
      exists s. split; [exact E1|]. split; [|reflexivity].
      apply existsb_exists in Eq as (x & I & Hx). apply N.eqb_eq in Hx. now subst x.
    - apply new_obj_ok in Nw. cbv zeta in Nw.
      destruct (dget d1 (lit "tag")) as [t|] eqn:Et; [|congruence].
      assert (Tg : kw_default (ddel d1 (lit "dn")) (lit "tag") VNone = t)
        by (unfold kw_default; rewrite dget_ddel_other by discriminate; now rewrite Et).
      rewrite Tg in Nw. eexists. exists t. split; [|split; [rewrite <- C by discriminate; exact Et|exact Nw]].
      unfold describes. rewrite Dd, Dr. cbn [co_dn co_scope co_attrs co_rdn_attr].
      split; [|split; [apply Sc; discriminate|split; apply kw_default_given; discriminate]].
      left. auto.
  Qed.

  Lemma objects_ok e l : forall c c' l', create_objects lower e c l = (Ok c', l') ->
    (exists new, c' = with_tags c (cn_tags c ++ new) /\ List.length new <= List.length l) /\
    forall d t, In d l -> dget d (lit "tag") = Some t -> t <> VNone ->
      exists k o, tag_key t = Some k /\ tget (cn_tags c) k = None /\ tget (cn_tags c') k = Some o /\
                  describes lower (dn_text (cn_base c)) d o.
  Proof.
    induction l as [|d l IH]; intros c c' l' H; cbn [create_objects] in H.
    - inv H. split; [exists []; rewrite app_nil_r; destruct c'; auto|]. intros d t [].
    - destruct (create_single_object lower e c d) as [[c1|x] d1] eqn:S; [|discriminate H].
      destruct (create_objects lower e c1 l) as [r l1] eqn:O. inv H.
      destruct (IH _ _ _ O) as ((new & En & Ln) & Hd).
      destruct (single_ok _ _ _ _ _ S) as (o & t & De & Et & Q).
      assert (B : cn_base c1 = cn_base c /\ exists nn, cn_tags c1 = cn_tags c ++ nn /\ List.length nn <= 1 /\ c1 = with_tags c (cn_tags c ++ nn)).
      { destruct Q as [[_ ->]|(_ & k & _ & _ & ->)].
        - split; [reflexivity|]. exists []. rewrite app_nil_r. destruct c; cbn; auto.
        - split; [reflexivity|]. exists [(k, o)]. cbn. auto. }
      destruct B as (Eb & nn & Tn & Lnn & Ec1). split.
      + exists (nn ++ new). rewrite app_assoc, <- Tn. split; [rewrite En, Ec1; reflexivity|].
        rewrite app_length. cbn [List.length]. lia.
      + intros d0 t0 [<-|I] Ht Nt.
        * rewrite Et in Ht. injection Ht as Ht. subst t0. destruct Q as [[-> _]|(_ & k & Ek & Ef & Ec)]; [congruence|].
          exists k, o. split; [exact Ek|]. split; [exact Ef|]. split; [|exact De].
          rewrite En. cbn. apply tget_app. rewrite Ec. cbn. now apply tget_app_new.
        * destruct (Hd d0 t0 I Ht Nt) as (k & o0 & Ek & Ef & Eg & De0).
          exists k, o0. split; [exact Ek|]. split.
          { destruct (tget (cn_tags c) k) eqn:Gc; [|reflexivity]. rewrite Tn in Ef.
            rewrite (tget_app _ _ _ _ Gc) in Ef. discriminate. }
          split; [exact Eg|]. rewrite <- Eb. exact De0.
  Qed.

  (** Liveness of one entry *)
  Lemma single_live e c d t : entry_ok lower e d -> dget d (lit "tag") = Some (VStr t) ->
    tget (cn_tags c) (KStr t) = None ->
    exists c' d', create_single_object lower e c d = (Ok c', d').
  Proof.
    intros (Ks & Nd & Dn & _ & Sc & At) Tg Fr.
    assert (New : forall d1 first v, (forall k, k <> lit "relative_search_scope" -> dget d1 k = dget d k) ->
      map fst d1 = map fst d -> (first = lit "dn" /\ dget d (lit "rdn") = None \/ first = lit "rdn" /\ dget d (lit "dn") = None) ->
      exists c', new_obj e c v (ddel d1 first) = Ok c').
    { intros d1 first v Eq Km Hf. unfold new_obj.
      assert (F : forallb (fun kv => smem (fst kv) obj_kwds) (ddel d1 first) = true).
      { apply forallb_forall. intros [k0 v0] I. cbn [fst]. apply smem_In.
        assert (Ik : In k0 (map fst (ddel d1 first))) by (apply in_map_iff; exists (k0, v0); auto).
        assert (Nf : k0 <> first).
        { intros ->. assert (G : dget (ddel d1 first) first = None) by (apply dget_ddel_same; rewrite Km; exact Nd).
          apply dmem_In in Ik. unfold dmem in Ik. rewrite G in Ik. discriminate. }
        apply ddel_incl in Ik. rewrite Km in Ik. pose proof (Ks _ Ik) as Ik2.
        assert (No : forall x, dget d x = None -> k0 <> x).
        { intros x Gx ->. apply dmem_In in Ik. unfold dmem in Ik. rewrite Gx in Ik. discriminate. }
        unfold obj_kwds. destruct Hf as [[-> Hn]|[-> Hn]]; pose proof (No _ Hn); cbn [In] in Ik2 |- *; intuition congruence. }
      rewrite F. cbn [negb].
      assert (Nd0 : first <> lit "attrs_dict" /\ first <> lit "tag") by (destruct Hf as [[-> _]|[-> _]]; split; discriminate).
      assert (A1 : e_attrs e (kw_default (ddel d1 first) (lit "attrs_dict") VNone) = Ok tt).
      { apply At. unfold given_or, kw_default. rewrite dget_ddel_other by apply Nd0. rewrite Eq by discriminate.
        destruct (dget d (lit "attrs_dict")); auto. }
      rewrite A1. cbn [bind].
      assert (A2 : kw_default (ddel d1 first) (lit "tag") VNone = VStr t).
      { unfold kw_default. rewrite dget_ddel_other by apply Nd0. rewrite Eq by discriminate. now rewrite Tg. }
      rewrite A2. cbn [tag_key]. rewrite Fr. eauto. }
    unfold create_single_object.
    assert (Main : forall base first v0, dget d first = Some v0 ->
       (first = lit "dn" /\ dget d (lit "rdn") = None /\ base = false \/
        first = lit "rdn" /\ dget d (lit "dn") = None /\ base = true /\ exists dn, base_rdn c v0 = Ok dn) ->
       forall d1, (forall k, k <> lit "relative_search_scope" -> dget d1 k = dget d k) -> map fst d1 = map fst d ->
       exists c', object_step e c base first d1 = (Ok c', d1)).
    { intros base first v0 G Hf d1 Eq Km. unfold object_step, dmem. rewrite (Eq (lit "tag")) by discriminate. rewrite Tg. cbn [negb].
      rewrite Eq by (destruct Hf as [[-> _]|[-> _]]; discriminate). rewrite G.
      destruct Hf as [(-> & Hn & ->)|(-> & Hn & -> & dn & Hdn)].
      - destruct (New d1 (lit "dn") v0 Eq Km (or_introl (conj eq_refl Hn))) as [c' E]. rewrite E. eauto.
      - rewrite Hdn. destruct (New d1 (lit "rdn") dn Eq Km (or_intror (conj eq_refl Hn))) as [c' E]. rewrite E. eauto. }
    assert (Both : forall base first v0, dget d first = Some v0 ->
       (first = lit "dn" /\ dget d (lit "rdn") = None /\ base = false \/
        first = lit "rdn" /\ dget d (lit "dn") = None /\ base = true /\ exists dn, base_rdn c v0 = Ok dn) ->
       exists c' d1, object_scope lower e c base first d = (Ok c', d1)).
    { intros base first v0 G Hf. unfold object_scope. destruct (dget d (lit "relative_search_scope")) as [s|] eqn:Es.
      - destruct (Sc s eq_refl) as [s' W]. apply scope_string_spec in W. rewrite W.
        destruct (Main base first v0 G Hf (dset d (lit "relative_search_scope") s')) as [c' E].
        + intros k Hk. apply dget_dset_other. congruence.
        + apply dset_keys_in. congruence.
        + eauto.
      - destruct (Main base first v0 G Hf d) as [c' E]; eauto. }
    destruct Dn as [[[v Ev] En]|[En (r & Er & Hr)]].
    - rewrite En, Ev. destruct (Both false (lit "dn") v Ev) as (c' & d1 & E); [left; auto|]. cbv zeta in *. eauto.
    - rewrite Er, En. destruct (Both true (lit "rdn") (VStr r) Er) as (c' & d1 & E); [|cbv zeta in *; eauto].
      right. split; [reflexivity|]. split; [exact En|]. split; [reflexivity|].
      cbn [base_rdn]. assert (Q : existsb (N.eqb (ch "=")) r = true).
      { apply existsb_exists. exists (ch "="). split; [exact Hr|apply N.eqb_refl]. }
      rewrite Q. eauto.
  Qed.
End S.
