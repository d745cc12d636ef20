From Verif Require Import PyBase Model_CIDict Spec_CIDict Proofs_CIDict Model_Modify Spec_Modify Proofs_Modify Proofs_Modify2
  Model_Search Spec_Search Proofs_Search Model_Dir Spec_Dir Proofs_Dir.
Local Open Scope N_scope.

Lemma wanted_all b ms : (forall m, In m ms -> empty_rd m = false) -> wanted b ms = map change_of ms.
Proof.
  unfold wanted. induction ms as [|m ms IH]; intros H; [reflexivity|]. cbn [filter map].
  rewrite (H m (or_introl eq_refl)). cbn [andb negb map]. f_equal. apply IH. intros x Hx. apply H. now right.
Qed.

Section L.
  Context {S : Type} (sv : server S) (view : S -> str -> option entry).
  Context (lower norm : str -> str) (eqv : str -> str -> str -> bool) (idx : str -> list str -> str -> res nat).
  Context (Hidx : same_rule eqv idx) (Hlaw : lawful lower norm eqv sv view).
  Context (unbound strict have_validators : bool) (flags : empty_flags).
  Context (validate_object : lobj -> res unit) (validate_mod : str -> list mod_ -> option lobj -> res unit).
  Notation mirrors := (mirrors lower).
  Notation get := (ldap_get_ sv lower unbound).
  Notation omod := (obj_modify_ sv lower idx unbound flags validate_mod).
  Notation lmod := (ldap_modify_ sv unbound flags validate_mod).
  Notation ladd := (ldap_add sv lower unbound validate_object).

  Definition unchanged (s s' : S) : Prop := forall d, view s' d = view s d.
  Definition only_at (s s' : S) (dn : str) : Prop := forall d, norm d <> norm dn -> view s' d = view s d.

  Lemma get_all s dn :
    match view s dn with
    | None => unbound = false -> get s dn None = Raise NoSearchResults
    | Some e => unbound = false -> exists o, get s dn None = Ok o /\ norm (o_dn o) = norm dn /\ dict_ok lower (o_attrs o) /\ mirrors (o_attrs o) e
    end.
  Proof.
    destruct (view s dn) as [e|] eqn:V; intros Hu; unfold ldap_get_; rewrite Hu.
    - destruct (law_read_all _ _ _ _ _ Hlaw s dn e V) as (dn' & a & -> & Hn & Hl).
      destruct (read_mirrors lower a e Hl) as [H1 H2]. eexists. split; [reflexivity|]. cbn [o_dn o_attrs]. auto.
    - now rewrite (law_read_none _ _ _ _ _ Hlaw s dn None V).
  Qed.
  Lemma get_some s dn e names : unbound = false -> view s dn = Some e -> (forall n, In n names -> ~ In n [lit "*"; lit "+"; lit "1.1"]) ->
    exists o, get s dn (Some names) = Ok o /\ norm (o_dn o) = norm dn /\ dict_ok lower (o_attrs o) /\
      (forall k, In k names -> cur_vals lower (o_attrs o) k = e (lower k)).
  Proof.
    intros Hu V Hs. unfold ldap_get_. rewrite Hu. destruct names as [|n0 names].
    - rewrite (law_read_empty _ _ _ _ _ Hlaw).
      destruct (law_read_all _ _ _ _ _ Hlaw s dn e V) as (dn' & a & -> & Hn & Hl).
      destruct (read_mirrors lower a e Hl) as [H1 H2]. eexists. split; [reflexivity|]. cbn [o_dn o_attrs]. split; [exact Hn|]. split; [exact H1|]. intros k [].
    - destruct (law_read_some _ _ _ _ _ Hlaw s dn e (n0 :: names) V ltac:(discriminate) Hs) as (dn' & a & -> & Hn & Hl).
      destruct (read_mirrors lower a _ Hl) as [H1 H2]. eexists. split; [reflexivity|]. cbn [o_dn o_attrs]. split; [exact Hn|]. split; [exact H1|].
      intros k Hk. unfold cur_vals. rewrite <- (H2 k). unfold only. apply (in_map lower) in Hk. apply smem_In in Hk. now rewrite Hk.
  Qed.

  (** modify, against the directory *)
  Lemma lmod_dir s dn ms cur :
    (forall m, In m ms -> constructed m) -> (forall m, In m ms -> empty_rd m = false) ->
    match lmod s dn ms cur with
    | (s', ms', Ok _) =>
        ms' = map mutate ms /\
        ((ms = [] /\ s' = s) \/
         (exists e e1 e', view s dn = Some e /\ srv_apply lower eqv e (map change_of ms) = Some e1 /\
            view s' dn = Some e' /\ (forall n, e' n = e1 n)) /\ only_at s s' dn)
    | (s', _, Raise _) => unchanged s s'
    end.
  Proof.
    intros Hc He. unfold ldap_modify_.
    destruct ms as [|m ms]; [cbn; split; [reflexivity|left; auto]|].
    destruct unbound; [cbn; intros d; reflexivity|].
    destruct (validate_mod dn (m :: ms) cur) as [[]|x]; [|cbn; intros d; reflexivity].
    rewrite (ldap_modify_ok flags (Ok tt) (m :: ms) Hc (or_intror He)), (wanted_all _ _ He). cbn [map].
    destruct (sv_modify sv s dn (change_of m :: map change_of ms)) as [s' ok] eqn:E.
    pose proof (law_modify _ _ _ _ _ Hlaw _ _ _ _ _ E) as L. destruct ok; cbn [success].
    - split; [reflexivity|]. right. exact L.
    - exact L.
  Qed.

  Lemma omod_dir s o e ms :
    view s (o_dn o) = Some e -> dict_ok lower (o_attrs o) -> mirrors (o_attrs o) e ->
    (forall m, In m ms -> constructed m) -> (forall m, In m ms -> empty_rd m = false) ->
    (forall e1, srv_apply lower eqv e (map change_of ms) = Some e1 -> safe lower eqv flags e ms) ->
    match omod s o ms with
    | (s', o', Ok _) => exists e1 e', srv_apply lower eqv e (map change_of ms) = Some e1 /\ view s' (o_dn o) = Some e' /\
         (forall n, e' n = e1 n) /\ o_dn o' = o_dn o /\ dict_ok lower (o_attrs o') /\ mirrors (o_attrs o') e' /\ only_at s s' (o_dn o) /\
         local_modify lower idx (o_attrs o) (map mutate ms) = (o_attrs o', Ok tt)
    | (s', o', Raise _) => o' = o /\ unchanged s s'
    end.
  Proof.
    intros V Hok Hm Hc He Hs. unfold obj_modify_. pose proof (lmod_dir s (o_dn o) ms (Some o) Hc He) as L.
    destruct (lmod s (o_dn o) ms (Some o)) as [[s' ms'] [[]|x]]; [|now split].
    destruct L as (-> & L).
    assert (A : exists e1 e', srv_apply lower eqv e (map change_of ms) = Some e1 /\ view s' (o_dn o) = Some e' /\ (forall n, e' n = e1 n) /\ only_at s s' (o_dn o)).
    { destruct L as [(-> & ->)|((e0 & e1 & e' & V0 & A & V' & P) & On)].
      - exists e, e. repeat split; auto.
      - exists e1, e'. assert (e0 = e) by congruence. subst. auto. }
    destruct A as (e1 & e' & A & V' & P & On).
    destruct (local_modify_spec lower eqv idx Hidx flags ms (o_attrs o) e e1 Hok Hm Hc (Hs e1 A) A) as (d' & E & Hok' & Hm').
    rewrite E. exists e1, e'. cbn [o_dn o_attrs]. repeat (split; [assumption|]). split; [reflexivity|].
    split; [exact Hok'|]. split; [|split; [exact On|reflexivity]]. eapply mirrors_pt; eauto.
  Qed.

  (** refreshing when nothing is missing *)
  Lemma prefetch_nothing s o e names : view s (o_dn o) = Some e -> mirrors (o_attrs o) e ->
    (forall n, In n names -> ~ In n [lit "*"; lit "+"; lit "1.1"]) ->
    unbound = false ->
    obj_prefetch sv lower unbound strict s o names = (o, Ok tt).
  Proof.
    intros V Hm Hs Hu. unfold obj_prefetch. destruct strict; [reflexivity|]. unfold obj_refresh_missing.
    assert (Hmis : forall n, In n (missing lower o names) -> In n names /\ e (lower n) = []).
    { intros n Hin. apply filter_In in Hin. destruct Hin as [Hin Ha]. split; [exact Hin|].
      rewrite (mirror_get lower _ e n Hm) in Ha. now destruct (e (lower n)). }
    destruct (missing lower o names) as [|n l] eqn:E; [reflexivity|].
    unfold obj_refresh, ldap_get_. rewrite Hu.
    destruct (law_read_some _ _ _ _ _ Hlaw s (o_dn o) e (n :: l) V ltac:(discriminate)) as (dn' & a & -> & _ & Hl).
    { intros x Hx. apply Hs. now apply Hmis. }
    assert (a = []).
    { eapply lists_empty; [exact Hl|]. intros k. unfold only.
      destruct (smem (lower k) (map lower (n :: l))) eqn:M; [|reflexivity]. apply smem_In in M. apply in_map_iff in M.
      destruct M as (x & Ex & Hx). rewrite <- Ex. now apply Hmis. }
    subst a. cbn. now destruct o.
  Qed.

  Lemma add_cases s dn a :
    match ladd s dn a with
    | (s', Ok o) => view s dn = None /\ (exists e, view s' dn = Some e /\ lists lower a e /\ mirrors (o_attrs o) e) /\
                    o_dn o = dn /\ dict_ok lower (o_attrs o) /\ only_at s s' dn
    | (s', Raise _) => unchanged s s'
    end.
  Proof.
    unfold ldap_add. destruct unbound; [intros d; reflexivity|].
    destruct (validate_object _); [|intros d; reflexivity].
    destruct (sv_add sv s dn a) as [s' ok] eqn:E. pose proof (law_add _ _ _ _ _ Hlaw _ _ _ _ _ E) as L.
    destruct ok; cbn [success]; [|exact L]. destruct L as (V & (e & V' & Hl) & On).
    destruct (add_mirrors lower a e Hl) as [H1 H2]. split; [exact V|]. split; [exists e; auto|]. cbn [o_dn o_attrs]. auto.
  Qed.
End L.

(** modlists made from dicts *)
Lemma modlist_replace a : modlist REPLACE (as_vals a) = Ok (map (fun av => mkmod REPLACE (fst av) (VList (snd av))) a).
Proof.
  unfold as_vals. induction a as [|[k vs] a IH]; [reflexivity|]. cbn [map modlist fst snd new_mod mop_eqb andb bind].
  now rewrite IH.
Qed.

Lemma safe_plain lower eqv f ms : (forall m, In m ms -> empty_rd m = false) ->
  (forall m, In m ms -> m_op m = REPLACE -> vtrue (m_vals m) = true) -> forall e, safe lower eqv f e ms.
Proof.
  induction ms as [|m ms IH]; intros He Hr e; cbn [safe]; [exact I|]. split; [|split].
  - intros Ho Hv. specialize (He m (or_introl eq_refl)). unfold empty_rd in He. rewrite Hv in He. destruct (m_op m); congruence.
  - intros Ho Hv. rewrite (Hr m (or_introl eq_refl) Ho) in Hv. discriminate.
  - intros e' _. apply IH; intros x Hx; [apply He|apply Hr]; now right.
Qed.

(** ** The effect of smart adds and deletes on the entry *)
Lemma as_vals_In a k l : In (k, VList l) (as_vals a) <-> In (k, l) a.
Proof.
  unfold as_vals. rewrite in_map_iff. split.
  - intros ([k' l'] & E & H). cbn [fst snd] in E. injection E as -> ->. exact H.
  - intros H. exists (k, l). auto.
Qed.
Lemma as_vals_fst a : map fst (as_vals a) = map fst a.
Proof. unfold as_vals. rewrite map_map. reflexivity. Qed.

Section Effects.
  Context (lower : str -> str) (eqv : str -> str -> str -> bool) (idx : str -> list str -> str -> res nat).
  Context (Hidx : same_rule eqv idx).

  Lemma add_mods_ok d new ms : NoDup (map fst new) -> add_modlist lower idx d new = Ok ms ->
    (forall m, In m ms -> constructed m) /\ (forall m, In m ms -> empty_rd m = false) /\
    forall f e, safe lower eqv f e ms.
  Proof.
    intros Hnd Em. destruct (add_modlist_values lower idx d new ms Hnd Em) as [Hadd _].
    assert (He : forall m, In m ms -> empty_rd m = false).
    { intros m Hin. destruct (Hadd m Hin) as [Ho _]. unfold empty_rd. now rewrite Ho. }
    split; [|split; [exact He|]].
    - intros m Hin. destruct (Hadd m Hin) as [Ho Hv]. unfold constructed, new_mod. rewrite Ho. cbn [mop_eqb andb].
      destruct (m_vals m) as [[|y l]|] eqn:Emv; try discriminate. cbn. rewrite <- Emv, <- Ho. now destruct m.
    - intros f e. apply safe_plain; [exact He|]. intros m Hin Ho. destruct (Hadd m Hin). congruence.
  Qed.

  Lemma add_effect d a ms e e1 : NoDup (map fst a) -> (forall k, In k (map fst a) -> cur_vals lower d k = e (lower k)) ->
    add_modlist lower idx d (as_vals a) = Ok ms -> srv_apply lower eqv e (map change_of ms) = Some e1 ->
    forall n v, In v (e1 n) <-> In v (e n) \/
      exists k vs, In (k, vs) a /\ lower k = n /\ In v vs /\ existsb (fun x => eqv k x v) (e n) = false.
  Proof.
    intros Hnd Cv Em Ha n v. assert (Hnd' : NoDup (map fst (as_vals a))) by now rewrite as_vals_fst.
    destruct (add_modlist_values lower idx d (as_vals a) ms Hnd' Em) as [Hadd Hval].
    rewrite (apply_adds lower eqv (map change_of ms)) with (e := e); [|intros c Hin; apply in_map_iff in Hin; destruct Hin as (m & <- & Hin); now apply Hadd|exact Ha].
    assert (Ex : (exists c, In c (map change_of ms) /\ n = lower (c_attr c) /\ In v (c_vals c)) <->
                 exists k vs, In (k, vs) a /\ lower k = n /\ In v vs /\ existsb (fun x => eqv k x v) (e n) = false); [|now rewrite Ex].
    split.
    - intros (c & Hin & -> & Hv). apply in_map_iff in Hin. destruct Hin as (m & <- & Hin).
      destruct (Hadd m Hin) as [Ho Hvt]. unfold change_of in *. cbn [c_attr c_vals] in *.
      destruct (m_vals m) as [l|] eqn:Ev; [|destruct Hv].
      destruct (proj1 (Hval (m_attr m) v)) as (l' & Hl' & Hv' & Hh).
      { exists l. split; [|exact Hv]. replace (mkmod ADD (m_attr m) (VList l)) with m; [exact Hin|]. destruct m; cbn in *; congruence. }
      apply as_vals_In in Hl'. exists (m_attr m), l'. split; [exact Hl'|]. split; [reflexivity|]. split; [exact Hv'|].
      rewrite <- Cv by (now apply (in_map fst) in Hl').
      destruct Hh as [Hh|Hh]; [now rewrite Hh|]. rewrite (has_value_existsb lower eqv idx Hidx) in Hh. exact Hh.
    - intros (k & vs & Hin & <- & Hv & Hx). destruct (proj2 (Hval k v)) as (l & Hl & Hvl).
      { exists vs. split; [now apply as_vals_In|]. split; [exact Hv|]. right.
        rewrite (has_value_existsb lower eqv idx Hidx), Cv by (now apply (in_map fst) in Hin). exact Hx. }
      exists (change_of (mkmod ADD k (VList l))). split; [now apply in_map|]. split; [reflexivity|exact Hvl].
  Qed.

  (** removal of values from a list in which at most one value matches *)
  Lemma remove1_In a v : forall l l', (List.length (List.filter (fun x => eqv a x v) l) <= 1)%nat -> srv_remove1 eqv a l v = Some l' ->
    forall x, In x l' <-> In x l /\ eqv a x v = false.
  Proof.
    induction l as [|y l IH]; intros l' H1 H x; cbn [srv_remove1] in H; [discriminate|]. cbn [List.filter] in H1.
    destruct (eqv a y v) eqn:E.
    - injection H as <-. cbn [List.length] in H1.
      assert (Hno : forall z, In z l -> eqv a z v = false).
      { intros z Hz. destruct (eqv a z v) eqn:Ez; [|reflexivity]. exfalso.
        assert (Hf : In z (List.filter (fun x => eqv a x v) l)) by (apply filter_In; auto).
        destruct (List.filter (fun x => eqv a x v) l); [destruct Hf|cbn [List.length] in H1; lia]. }
      split.
      + intros Hx. split; [now right|auto].
      + intros [[->|Hx] Hf]; [congruence|exact Hx].
    - destruct (srv_remove1 eqv a l v) as [l1|] eqn:R; [|discriminate]. cbn [option_map] in H. injection H as <-.
      cbn [In]. rewrite (IH l1 H1 eq_refl x). split.
      + intros [->|[Hx Hf]]; auto.
      + intros [[->|Hx] Hf]; auto.
  Qed.
  Lemma remove1_amo a v w : forall l l', srv_remove1 eqv a l v = Some l' ->
    (List.length (List.filter (fun x => eqv a x w) l') <= List.length (List.filter (fun x => eqv a x w) l))%nat.
  Proof.
    induction l as [|y l IH]; intros l' H; cbn [srv_remove1] in H; [discriminate|]. cbn [List.filter].
    destruct (eqv a y v) eqn:E.
    - injection H as <-. destruct (eqv a y w); cbn [List.length]; lia.
    - destruct (srv_remove1 eqv a l v) as [l1|] eqn:R; [|discriminate]. cbn [option_map] in H. injection H as <-.
      cbn [List.filter]. specialize (IH l1 eq_refl). destruct (eqv a y w); cbn [List.length]; lia.
  Qed.
  Lemma remove_In a vs : forall l l', at_most_one eqv a l -> srv_remove eqv a l vs = Some l' ->
    forall x, In x l' <-> In x l /\ forall v, In v vs -> eqv a x v = false.
  Proof.
    induction vs as [|v vs IH]; intros l l' H1 H x; cbn [srv_remove] in H.
    - injection H as ->. split; [intros Hx; split; [exact Hx|intros v []]|tauto].
    - destruct (srv_remove1 eqv a l v) as [l1|] eqn:R; [|discriminate].
      rewrite (IH l1 l') with (x := x); [|intros w; pose proof (remove1_amo a v w l l1 R); specialize (H1 w); lia|exact H].
      rewrite (remove1_In a v l l1 (H1 v) R x). split.
      + intros [[Hx Hf] Hv]. split; [exact Hx|]. intros w [<-|Hw]; auto.
      + intros [Hx Hv]. split; [split; [exact Hx|]|]; intros; apply Hv; [now left|now right].
  Qed.

  Lemma apply_deletes cs : (forall c, In c cs -> c_op c = DELETE) -> NoDup (map (fun c => lower (c_attr c)) cs) ->
    forall e e', (forall c, In c cs -> at_most_one eqv (c_attr c) (e (lower (c_attr c)))) -> srv_apply lower eqv e cs = Some e' ->
    forall n x, In x (e' n) <-> In x (e n) /\ forall c, In c cs -> lower (c_attr c) = n -> c_vals c <> [] /\ forall v, In v (c_vals c) -> eqv (c_attr c) x v = false.
  Proof.
    induction cs as [|c cs IH]; intros Ho Hd e e' H1 H n x; cbn [srv_apply] in H.
    - injection H as ->. split; [intros Hx; split; [exact Hx|intros c []]|tauto].
    - destruct (srv_apply1 lower eqv e c) as [e1|] eqn:E1; [|discriminate]. cbn [map] in Hd. inversion Hd as [|? ? Hn Hd']; subst.
      assert (Oth : forall m, m <> lower (c_attr c) -> e1 m = e m).
      { intros m Hm. assert (Hx : srv_apply lower eqv e [c] = Some e1) by (cbn [srv_apply]; now rewrite E1).
        apply (apply_other lower eqv _ _ _ Hx). cbn. intros [X|[]]; congruence. }
      rewrite (IH (fun c Hc => Ho c (or_intror Hc)) Hd' e1 e') with (n := n) (x := x); [| |exact H].
      2: { intros c' Hc'. rewrite Oth; [apply H1; now right|]. intros X. apply Hn. rewrite <- X. now apply (in_map (fun c => lower (c_attr c))). }
      assert (X : In x (e1 n) <-> In x (e n) /\ (lower (c_attr c) = n -> c_vals c <> [] /\ forall v, In v (c_vals c) -> eqv (c_attr c) x v = false)).
      { destruct (str_eq_dec n (lower (c_attr c))) as [->|Hne].
        - unfold srv_apply1 in E1. rewrite (Ho c (or_introl eq_refl)) in E1. specialize (H1 c (or_introl eq_refl)).
          destruct (e (lower (c_attr c))) as [|y ys] eqn:Ee; [discriminate|]. destruct (c_vals c) as [|w ws] eqn:Ev.
          + injection E1 as <-. rewrite eput_same by reflexivity. split; [intros []|]. intros [_ X]. now destruct (X eq_refl).
          + destruct (srv_remove eqv (c_attr c) (y :: ys) (w :: ws)) as [l|] eqn:R; [|discriminate]. cbn [option_map] in E1. injection E1 as <-.
            rewrite eput_same by reflexivity. rewrite (remove_In _ _ _ _ H1 R x). split.
            * intros [Hx Hv]. split; [exact Hx|]. intros _. split; [discriminate|exact Hv].
            * intros [Hx Hv]. split; [exact Hx|]. now apply Hv.
        - rewrite Oth by exact Hne. split; [intros Hx; split; [exact Hx|congruence]|tauto]. }
      rewrite X. split.
      + intros [[Hx Hc] Hcs]. split; [exact Hx|]. intros c' [<-|Hc']; auto.
      + intros [Hx Hc]. split; [split; [exact Hx|]|]; intros; apply Hc; auto; [now left|now right].
  Qed.
End Effects.
