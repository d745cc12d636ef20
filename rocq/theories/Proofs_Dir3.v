From Verif Require Import PyBase Model_CIDict Spec_CIDict Proofs_CIDict Model_Modify Spec_Modify Proofs_Modify Proofs_Modify2
  Model_Search Spec_Search Proofs_Search Model_Dir Spec_Dir Proofs_Dir Proofs_Dir2.
Local Open Scope N_scope.

Section U.
  Context (lower : str -> str).
  Notation get := (@cid_get lower (list str)).

  Lemma get_lower (d : attrs) k k' : lower k = lower k' -> get d k = get d k'.
  Proof. intros H. unfold cid_get. now rewrite H. Qed.

  Lemma update_from_spec (other : attrs) ks : (forall k, In k ks -> exists v, get other k = Ok v) -> forall d, dict_ok lower d ->
    exists d', cid_update_from lower d other ks = (d', Ok tt) /\ dict_ok lower d' /\
      forall k, get d' k = if smem (lower k) (map lower ks) then get other k else get d k.
  Proof.
    induction ks as [|k0 ks IH]; intros Hk d Hok; cbn [cid_update_from map].
    - exists d. auto.
    - destruct (Hk k0 (or_introl eq_refl)) as [v Hv]. rewrite Hv.
      destruct (IH (fun k H => Hk k (or_intror H)) (cid_set lower d k0 v) (ok_set lower d k0 v Hok)) as (d' & E & Hok' & Hg).
      exists d'. split; [exact E|]. split; [exact Hok'|]. intros k. rewrite Hg, (get_set lower d k0 v k Hok).
      unfold smem. cbn [existsb]. rewrite (str_eqb_sym (lower k) (lower k0)).
      destruct (existsb (str_eqb (lower k)) (map lower ks)) eqn:M; [now rewrite orb_true_r|]. rewrite orb_false_r.
      destruct (str_eqb_spec (lower k0) (lower k)) as [E0|]; [|reflexivity]. rewrite <- Hv. now apply get_lower.
  Qed.

  Lemma fresh_complete (a : list (str * list str)) : names_distinct lower a ->
    forall k, In k (map fst (cdata (cid_update lower cid_empty a))) -> exists v, get (cid_update lower cid_empty a) k = Ok v.
  Proof.
    intros Hd k Hin.
    assert (C : InvC lower (map fst a) (cid_update lower cid_empty a)).
    { apply InvC_update; [|apply incl_refl|].
      - intros k1 k2 H1 H2 E. apply in_map_iff in H1. apply in_map_iff in H2. destruct H1 as ([x1 v1] & <- & H1). destruct H2 as ([x2 v2] & <- & H2). cbn [fst] in *.
        clear Hin. unfold names_distinct in Hd. induction a as [|[y w] a IH]; [destruct H1|]. cbn [map fst] in Hd. inversion Hd as [|? ? Hni Hd']; subst.
        destruct H1 as [X1|H1], H2 as [X2|H2]; [congruence| | |now apply IH].
        + injection X1 as -> ->. elim Hni. rewrite E. now apply (in_map (fun av => lower (fst av))) in H2.
        + injection X2 as -> ->. elim Hni. rewrite <- E. now apply (in_map (fun av => lower (fst av))) in H1.
      - split; [split; [constructor|split; [constructor|intros; discriminate]]|intros x []]. }
    destruct C as [_ C]. destruct (C k Hin) as [_ Hk]. unfold cid_get. rewrite Hk.
    destruct (dget (cdata (cid_update lower cid_empty a)) k) as [v|] eqn:E; [eauto|]. apply dget_None in E. contradiction.
  Qed.

  Lemma update_fresh (a : list (str * list str)) d : names_distinct lower a -> dict_ok lower d ->
    exists d', cid_update_cid lower d (cid_update lower cid_empty a) = (d', Ok tt) /\ dict_ok lower d' /\
      forall k, get d' k = match get (cid_update lower cid_empty a) k with Ok v => Ok v | Raise _ => get d k end.
  Proof.
    intros Hd Hok. unfold cid_update_cid. set (f := cid_update lower cid_empty a) in *.
    destruct (update_from_spec f (map fst (cdata f)) (fresh_complete a Hd) d Hok) as (d' & E & Hok' & Hg).
    exists d'. split; [exact E|]. split; [exact Hok'|]. intros k. rewrite Hg.
    destruct (smem (lower k) (map lower (map fst (cdata f)))) eqn:M.
    - apply smem_In in M. apply in_map_iff in M. destruct M as (k' & Ek & Hin). destruct (fresh_complete a Hd k' Hin) as [v Hv].
      rewrite (get_lower f k k' (eq_sym Ek)). fold f in Hv. now rewrite Hv.
    - destruct (get f k) as [v|x] eqn:G; [|reflexivity]. exfalso. apply smem_nIn in M. apply M.
      destruct (get_key lower f k v G) as (k' & Hk & Hv). 
      assert (Hf : dict_ok lower f) by (apply update_ok, empty_ok). destruct Hf as (_ & _ & Hf). destruct (Hf _ _ Hk) as [El _].
      rewrite <- El. apply in_map. apply dget_In in Hv. now apply (in_map fst) in Hv.
  Qed.
End U.

Section R.
  Context {S : Type} (sv : server S) (view : S -> str -> option entry).
  Context (lower norm : str -> str) (eqv : str -> str -> str -> bool).
  Context (Hlaw : lawful lower norm eqv sv view).

  (** what refresh leaves in the object *)
  Lemma refresh_spec s o e ats :
    view s (o_dn o) = Some e -> dict_ok lower (o_attrs o) ->
    match ats with Some l => forall n, In n l -> ~ In n [lit "*"; lit "+"; lit "1.1"] | None => True end ->
    exists o', obj_refresh sv lower false s o ats = (o', Ok tt) /\ o_dn o' = o_dn o /\ dict_ok lower (o_attrs o') /\
      forall k, cid_get lower (o_attrs o') k =
        if match ats with Some (n :: l) => smem (lower k) (map lower (n :: l)) | _ => true end
        then match e (lower k) with [] => cid_get lower (o_attrs o) k | vs => Ok vs end
        else cid_get lower (o_attrs o) k.
  Proof.
    intros V Hok Hs.
    assert (R : exists dn' a, sv_read sv s (o_dn o) ats = Some (dn', a) /\
               lists lower a (match ats with Some (n :: l) => only lower (n :: l) e | _ => e end)).
    { destruct ats as [[|n l]|].
      - rewrite (law_read_empty _ _ _ _ _ Hlaw). destruct (law_read_all _ _ _ _ _ Hlaw s _ e V) as (dn' & a & H & _ & Hl). eauto.
      - destruct (law_read_some _ _ _ _ _ Hlaw s _ e (n :: l) V ltac:(discriminate) Hs) as (dn' & a & H & _ & Hl). eauto.
      - destruct (law_read_all _ _ _ _ _ Hlaw s _ e V) as (dn' & a & H & _ & Hl). eauto. }
    destruct R as (dn' & a & R & Hl). unfold obj_refresh, ldap_get_. rewrite R. cbn [o_attrs].
    rewrite (dict_id lower a (proj1 Hl)).
    destruct (update_fresh lower a (o_attrs o) (proj1 Hl) Hok) as (d' & E & Hok' & Hg). rewrite E.
    eexists. split; [reflexivity|]. cbn [o_dn o_attrs]. split; [reflexivity|]. split; [exact Hok'|].
    intros k. rewrite Hg. destruct (add_mirrors lower a _ Hl) as [_ Hm]. specialize (Hm k).
    assert (G : match cid_get lower (cid_update lower cid_empty a) k with Ok v => v <> [] | Raise _ => True end).
    { destruct (cid_get lower (cid_update lower cid_empty a) k) as [v|x] eqn:G; [|exact I].
      pose proof (entry_shown lower [] a (proj1 Hl)) as (_ & Hsh). rewrite (dict_id lower a (proj1 Hl)) in Hsh. cbn [o_attrs] in Hsh.
      apply Hsh in G. destruct G as (name & Hin & _). destruct Hl as (_ & Hne & _). exact (Hne _ Hin). }
    assert (X : match cid_get lower (cid_update lower cid_empty a) k with Ok v => Ok v | Raise _ => cid_get lower (o_attrs o) k end =
                match (match ats with Some (n :: l) => only lower (n :: l) e | _ => e end) (lower k) with [] => cid_get lower (o_attrs o) k | vs => Ok vs end).
    { rewrite Hm. destruct (cid_get lower (cid_update lower cid_empty a) k) as [[|v vs]|x]; [now elim G|reflexivity|reflexivity]. }
    rewrite X. clear. destruct ats as [[|n l]|]; try reflexivity. unfold only.
    destruct (smem (lower k) (map lower (n :: l))); reflexivity.
  Qed.
End R.

Section Del.
  Context (lower : str -> str) (eqv : str -> str -> str -> bool) (idx : str -> list str -> str -> res nat).
  Context (Hidx : same_rule eqv idx).

  Lemma fst_nodup {B} (l : list (str * B)) : NoDup (map (fun av => lower (fst av)) l) -> NoDup (map fst l).
  Proof. intros H. rewrite <- (map_map fst lower) in H. now apply NoDup_map_inv in H. Qed.

  Lemma del_strict_ok del : del_ok lower del -> modlist DELETE del = Ok (map (fun av => mkmod DELETE (fst av) (snd av)) del).
  Proof. intros _. induction del as [|[k v] del IH]; [reflexivity|]. cbn [modlist map fst snd new_mod mop_eqb andb bind]. now rewrite IH. Qed.

  Lemma flat_nodup d del : NoDup (map (fun av => lower (fst av)) del) ->
    NoDup (map (fun m => lower (m_attr m)) (flat_map (deletes_for lower idx d) del)) /\
    (forall m, In m (flat_map (deletes_for lower idx d) del) -> In (lower (m_attr m)) (map (fun av => lower (fst av)) del)).
  Proof.
    induction del as [|[k v] del IH]; cbn [flat_map map fst]; intros H; [split; [constructor|intros m []]|].
    inversion H as [|? ? Hni Hd]; subst. destruct (IH Hd) as [I1 I2].
    assert (D : deletes_for lower idx d (k, v) = [] \/ exists w, deletes_for lower idx d (k, v) = [mkmod DELETE k w]).
    { unfold deletes_for. cbn [fst snd]. destruct (cur_vals lower d k) as [|c0 cs0]; [now left|]. destruct v as [[|y l]|]; [right; eauto| |right; eauto].
      destruct (filter _ (y :: l)); [now left|right; eauto]. }
    split.
    - rewrite map_app. destruct D as [->|[w ->]]; cbn [map app]; [exact I1|]. constructor; [|exact I1].
      intros X. apply in_map_iff in X. destruct X as (m & E & Hm). apply Hni. cbn [m_attr] in E. rewrite <- E. now apply I2.
    - intros m Hm. apply in_app_iff in Hm. destruct Hm as [Hm|Hm]; [|right; now apply I2].
      left. destruct D as [D|[w D]]; rewrite D in Hm; [destruct Hm|]. destruct Hm as [<-|[]]. reflexivity.
  Qed.

  (** the effect of a list of DELETE mods for this request *)
  Lemma del_effect del ms e e1 :
    del_ok lower del -> (forall k v, In (k, v) del -> at_most_one eqv k (e (lower k))) ->
    (ms = map (fun av => mkmod DELETE (fst av) (snd av)) del \/
     exists d, (forall k v, In (k, v) del -> cur_vals lower d k = e (lower k)) /\ delete_modlist lower idx d del = Ok ms) ->
    srv_apply lower eqv e (map change_of ms) = Some e1 ->
    forall n x, In x (e1 n) <-> In x (e n) /\ ~ doomed lower eqv del n x.
  Proof.
    intros (Hd & Hne & _) H1 Hms Ha n x.
    assert (Hop : forall m, In m ms -> m_op m = DELETE /\ exists k v, In (k, v) del /\ m_attr m = k).
    { destruct Hms as [->|(d & _ & Em)].
      - intros m Hm. apply in_map_iff in Hm. destruct Hm as ([k v] & <- & Hin). cbn. split; [reflexivity|eauto].
      - rewrite (del_modlist_exact lower idx d del ms (fst_nodup _ Hd) Em). intros m Hm. apply in_flat_map in Hm. destruct Hm as ([k v] & Hin & Hm).
        unfold deletes_for in Hm. cbn [fst snd] in Hm. destruct (cur_vals lower d k) as [|c0 cs0]; [destruct Hm|].
        assert (X : exists w, m = mkmod DELETE k w).
        { destruct v as [[|y l]|]; [destruct Hm as [<-|[]]; eauto| |destruct Hm as [<-|[]]; eauto].
          destruct (filter _ (y :: l)); [destruct Hm|destruct Hm as [<-|[]]; eauto]. }
        destruct X as [w ->]. cbn. split; [reflexivity|eauto]. }
    assert (Hnd : NoDup (map (fun c => lower (c_attr c)) (map change_of ms))).
    { rewrite map_map. unfold change_of; cbn [c_attr]. destruct Hms as [->|(d & _ & Em)].
      - rewrite map_map. exact Hd.
      - rewrite (del_modlist_exact lower idx d del ms (fst_nodup _ Hd) Em). now apply flat_nodup. }
    rewrite (apply_deletes lower eqv (map change_of ms)) with (e := e); [| |exact Hnd| |exact Ha].
    2: { intros c Hc. apply in_map_iff in Hc. destruct Hc as (m & <- & Hm). now apply Hop. }
    2: { intros c Hc. apply in_map_iff in Hc. destruct Hc as (m & <- & Hm). destruct (Hop m Hm) as [_ (k & v & Hin & E)].
         unfold change_of; cbn [c_attr]. rewrite E. now apply (H1 k v). }
    assert (X : In x (e n) -> ((forall c, In c (map change_of ms) -> lower (c_attr c) = n ->
                  c_vals c <> [] /\ (forall v, In v (c_vals c) -> eqv (c_attr c) x v = false)) <-> ~ doomed lower eqv del n x)); [|tauto].
    intros Hx.
    assert (Y : forall k v, In (k, v) del -> lower k = n ->
       ((exists m, In m ms /\ lower (m_attr m) = n /\ ~ (c_vals (change_of m) <> [] /\ (forall v, In v (c_vals (change_of m)) -> eqv (m_attr m) x v = false)))
         <-> match v with VDeleteAll => True | VList l => exists w, In w l /\ eqv k x w = true end)).
    { intros k v Hin En.
      assert (Huniq : forall k' v', In (k', v') del -> lower k' = n -> k' = k /\ v' = v).
      { intros k' v' Hin' En'. clear - Hd Hin Hin' En En'. induction del as [|[y w] del IH]; [destruct Hin|].
        cbn [map fst] in Hd. inversion Hd as [|? ? Hni Hd']; subst. destruct Hin as [E|Hin], Hin' as [E'|Hin'].
        - rewrite E in E'. now injection E' as -> ->.
        - injection E as -> ->. elim Hni. rewrite <- En'. now apply (in_map (fun av => lower (fst av))) in Hin'.
        - injection E' as -> ->. elim Hni. rewrite En'. now apply (in_map (fun av => lower (fst av))) in Hin.
        - now apply IH. }
      destruct Hms as [->|(d & Cv & Em)].
      - split.
        + intros (m & Hm & Em & Hno). apply in_map_iff in Hm. destruct Hm as ([k' v'] & <- & Hin'). cbn [fst snd m_attr] in *.
          destruct (Huniq k' v' Hin' Em) as [-> ->]. unfold change_of in Hno. cbn [c_vals m_vals] in Hno.
          destruct v as [l|]; [|exact I].
          destruct (existsb (fun w => eqv k x w) l) eqn:Ex; [apply existsb_exists in Ex; exact Ex|]. exfalso. apply Hno. split.
          * intros ->. now apply (Hne (k, VList [])).
          * intros w Hw. destruct (eqv k x w) eqn:E; [|reflexivity]. rewrite <- Ex. symmetry. apply existsb_exists. eauto.
        + intros Hv. exists (mkmod DELETE k v). split; [apply in_map_iff; exists (k, v); auto|]. split; [exact En|].
          unfold change_of. cbn [c_vals m_vals m_attr]. destruct v as [l|]; [|now intros [X _]].
          destruct Hv as (w & Hw & E). intros [_ X]. rewrite (X w Hw) in E. discriminate.
      - rewrite (del_modlist_exact lower idx d del ms (fst_nodup _ Hd) Em) in *.
        assert (Cvk : cur_vals lower d k = e n) by (rewrite (Cv k v Hin), En; reflexivity).
        split.
        + intros (m & Hm & Emn & Hno). apply in_flat_map in Hm. destruct Hm as ([k' v'] & Hin' & Hm).
          unfold deletes_for in Hm. cbn [fst snd] in Hm. destruct (cur_vals lower d k') as [|c0 cs0]; [destruct Hm|].
          destruct v' as [[|y l]|].
          * elim (Hne _ Hin'). reflexivity.
          * destruct (filter (has_value lower idx d k') (y :: l)) as [|z zs] eqn:F; [destruct Hm|]. destruct Hm as [<-|[]].
            cbn [m_attr change_of c_vals m_vals] in *. destruct (Huniq k' _ Hin' Emn) as [-> <-].
            destruct (existsb (fun w => eqv k x w) (z :: zs)) eqn:Ex.
            -- apply existsb_exists in Ex. destruct Ex as (w & Hw & E). exists w. split; [|exact E]. rewrite <- F in Hw. now apply filter_In in Hw.
            -- exfalso. apply Hno. split; [discriminate|]. intros w Hw. destruct (eqv k x w) eqn:E; [|reflexivity]. rewrite <- Ex. symmetry. apply existsb_exists. eauto.
          * destruct Hm as [<-|[]]. cbn [m_attr] in *. destruct (Huniq k' _ Hin' Emn) as [-> <-]. exact I.
        + intros Hv. assert (Hcv : cur_vals lower d k <> []) by (rewrite Cvk; destruct (e n); [destruct Hx|discriminate]).
          destruct (cur_vals lower d k) as [|c0 cs0] eqn:Ec; [now elim Hcv|].
          destruct v as [l|].
          * destruct Hv as (w & Hw & E).
            assert (Hf : In w (filter (has_value lower idx d k) l)).
            { apply filter_In. split; [exact Hw|]. rewrite (has_value_existsb lower eqv idx Hidx), Ec, Cvk. apply existsb_exists. eauto. }
            exists (mkmod DELETE k (VList (filter (has_value lower idx d k) l))). split; [|split; [exact En|]].
            -- apply in_flat_map. exists (k, VList l). split; [exact Hin|]. unfold deletes_for. cbn [fst snd]. rewrite Ec. destruct l as [|y l]; [destruct Hw|].
               destruct (filter (has_value lower idx d k) (y :: l)); [destruct Hf|now left].
            -- cbn [change_of c_vals m_vals m_attr]. intros [_ X]. rewrite (X w Hf) in E. discriminate.
          * exists (mkmod DELETE k VDeleteAll). split; [|split; [exact En|]].
            -- apply in_flat_map. exists (k, VDeleteAll). split; [exact Hin|]. unfold deletes_for. cbn [fst snd]. rewrite Ec. now left.
            -- cbn. now intros [X _]. }
    split.
    - intros Hc (k & v & Hin & En & Hv). apply (Y k v Hin En) in Hv. destruct Hv as (m & Hm & Emn & Hno). apply Hno.
      apply (Hc (change_of m)); [now apply in_map|exact Emn].
    - intros Hnd' c Hc En. apply in_map_iff in Hc. destruct Hc as (m & <- & Hm). destruct (Hop m Hm) as [_ (k & v & Hin & E)].
      change (c_attr (change_of m)) with (m_attr m) in *.
      assert (Z : ~ ~ (c_vals (change_of m) <> [] /\ (forall v, In v (c_vals (change_of m)) -> eqv (m_attr m) x v = false))).
      { intros Z. apply Hnd'. exists k, v. split; [exact Hin|]. split; [congruence|]. apply (Y k v Hin ltac:(congruence)). exists m. auto. }
      destruct (c_vals (change_of m)) as [|w ws] eqn:Ecv.
      + exfalso. apply Z. now intros [X _].
      + split; [discriminate|]. intros u Hu. destruct (eqv (m_attr m) x u) eqn:Eu; [|reflexivity].
        exfalso. apply Z. intros [_ X]. rewrite (X u Hu) in Eu. discriminate.
  Qed.
End Del.

Section Adds.
  Context (lower : str -> str) (eqv : str -> str -> str -> bool).
  Lemma srv_add_new a vs : forall l l', srv_add eqv a l vs = Some l' -> forall v, In v vs -> existsb (fun x => eqv a x v) l = false.
  Proof.
    induction vs as [|w vs IH]; intros l l' H v Hv; [destruct Hv|]. cbn [srv_add] in H.
    destruct (existsb (fun x => eqv a x w) l) eqn:E; [discriminate|]. destruct Hv as [<-|Hv]; [exact E|].
    specialize (IH _ _ H v Hv). rewrite existsb_app in IH. now apply orb_false_iff in IH.
  Qed.
  Lemma apply_adds_new cs : (forall c, In c cs -> c_op c = ADD) -> NoDup (map (fun c => lower (c_attr c)) cs) ->
    forall e e', srv_apply lower eqv e cs = Some e' ->
    forall c v, In c cs -> In v (c_vals c) -> existsb (fun x => eqv (c_attr c) x v) (e (lower (c_attr c))) = false.
  Proof.
    induction cs as [|c0 cs IH]; intros Ho Hd e e' H c v Hc Hv; [destruct Hc|]. cbn [srv_apply] in H. cbn [map] in Hd. inversion Hd as [|? ? Hni Hd']; subst.
    destruct (srv_apply1 lower eqv e c0) as [e1|] eqn:E1; [|discriminate]. unfold srv_apply1 in E1. rewrite (Ho c0 (or_introl eq_refl)) in E1.
    destruct (c_vals c0) as [|w ws] eqn:Ev; [discriminate|].
    destruct (srv_add eqv (c_attr c0) (e (lower (c_attr c0))) (w :: ws)) as [l|] eqn:Es; [|discriminate]. injection E1 as <-.
    destruct Hc as [<-|Hc].
    - rewrite Ev in Hv. exact (srv_add_new _ _ _ _ Es v Hv).
    - specialize (IH (fun c Hc => Ho c (or_intror Hc)) Hd' _ _ H c v Hc Hv). rewrite eput_other in IH; [exact IH|].
      intros X. apply Hni. rewrite <- X. now apply (in_map (fun c => lower (c_attr c))).
  Qed.
  (** a strict add *)
  Lemma strict_add a e e1 : NoDup (map (fun av => lower (fst av)) a) ->
    srv_apply lower eqv e (map change_of (map (fun av => mkmod ADD (fst av) (VList (snd av))) a)) = Some e1 ->
    forall n v, In v (e1 n) <-> In v (e n) \/
      exists k vs, In (k, vs) a /\ lower k = n /\ In v vs /\ existsb (fun x => eqv k x v) (e n) = false.
  Proof.
    intros Hd H n v.
    assert (Ho : forall c, In c (map change_of (map (fun av : str * list str => mkmod ADD (fst av) (VList (snd av))) a)) -> c_op c = ADD).
    { intros c Hc. apply in_map_iff in Hc. destruct Hc as (m & <- & Hm). apply in_map_iff in Hm. destruct Hm as ([k vs] & <- & _). reflexivity. }
    assert (Hd' : NoDup (map (fun c => lower (c_attr c)) (map change_of (map (fun av : str * list str => mkmod ADD (fst av) (VList (snd av))) a)))) by (rewrite !map_map; exact Hd).
    rewrite (apply_adds lower eqv _ Ho e e1 H). pose proof (apply_adds_new _ Ho Hd' e e1 H) as N. split; (intros [X|X]; [now left|right]).
    - destruct X as (c & Hc & -> & Hv). pose proof (N c v Hc Hv) as Hn.
      apply in_map_iff in Hc. destruct Hc as (m & <- & Hm). apply in_map_iff in Hm. destruct Hm as ([k vs] & <- & Hin).
      exists k, vs. auto.
    - destruct X as (k & vs & Hin & <- & Hv & _). exists (mkchange ADD k vs). split; [|auto]. rewrite map_map. apply in_map_iff. exists (k, vs). auto.
  Qed.
  Lemma modlist_add (a : list (str * list str)) : (forall av, In av a -> snd av <> []) ->
    modlist ADD (as_vals a) = Ok (map (fun av => mkmod ADD (fst av) (VList (snd av))) a).
  Proof.
    unfold as_vals. induction a as [|[k vs] a IH]; intros H; [reflexivity|]. cbn [map modlist fst snd].
    destruct vs as [|w ws]; [now elim (H _ (or_introl eq_refl))|]. cbn [new_mod mop_eqb andb vlen List.length Nat.eqb bind].
    rewrite IH by (intros av Hin; apply H; now right). reflexivity.
  Qed.
End Adds.
