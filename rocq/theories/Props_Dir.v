(** * C40, C48, C58, C59: operations on the directory and the local objects *)
From Verif Require Import PyBase Model_CIDict Model_Modify Spec_Modify Proofs_Modify Proofs_Modify2 Model_Search Spec_Search Proofs_Search Model_Dir Spec_Dir Proofs_Dir Proofs_Dir2 Proofs_Dir3 Proofs_Dir4 Proofs_DirInst.
Local Open Scope N_scope.

Section Dir.
  Context {S : Type} (sv : server S) (view : S -> str -> option entry).
  Context (lower norm : str -> str) (eqv : str -> str -> str -> bool) (idx : str -> list str -> str -> res nat).
  Context (unbound strict have_validators : bool) (flags : empty_flags).
  Context (validate_object : lobj -> res unit) (validate_mod : str -> list mod_ -> option lobj -> res unit).

  (** the local lookup implements the server's matching, which is reflexive *)
  Context (Hidx : same_rule eqv idx) (Hrefl : forall a v, eqv a v v = true).
  Context (Hlaw : lawful lower norm eqv sv view).

  (** the common end of both helpers *)
  Lemma or_add_cases unb s dn a r (P : S -> lobj -> Prop) e :
    view s dn = Some e ->
    (match r with
     | (s', o', Ok _) => P s' o'
     | (s', _, Raise _) => unchanged view s s'
     end) ->
    match or_add sv lower unb validate_object dn a r with
    | (s', Ok o') => P s' o'
    | (s', Raise _) => unchanged view s s'
    end.
  Proof.
    intros V H. destruct r as [[s' o'] [[]|x]]; cbn [or_add]; [exact H|].
    destruct x; try exact H.
    pose proof (add_cases sv view lower norm eqv Hlaw unb validate_object s' dn a) as A.
    destruct (ldap_add sv lower unb validate_object s' dn a) as [s2 [o2|x2]].
    - destruct A as (A & _). rewrite H in A. congruence.
    - intros d. now rewrite A.
  Qed.

  (** C48, add_or_mod_add_if_exists, for every directory and every request: if it returns, the entry
      exists, has a match for every requested value, has lost nothing and gained nothing but the
      requested values that had no match, the returned object shows exactly the entry, and no other
      entry has changed. If it raises nothing has changed at all. *)
  Theorem C48_add_or_mod_add s dn a :
    request_ok lower a ->
    match add_or_mod_add sv lower idx unbound strict flags validate_object validate_mod s dn a with
    | (s', Ok o) => exists e', view s' dn = Some e' /\ mirrors lower (o_attrs o) e' /\ norm (o_dn o) = norm dn /\
        (forall k vs v, In (k, vs) a -> In v vs -> exists x, In x (e' (lower k)) /\ eqv k x v = true) /\
        match view s dn with
        | None => lists lower a e'
        | Some e => forall n v, In v (e' n) <-> In v (e n) \/
            exists k vs, In (k, vs) a /\ lower k = n /\ In v vs /\ existsb (fun x => eqv k x v) (e n) = false
        end /\
        (forall d, norm d <> norm dn -> view s' d = view s d)
    | (s', Raise _) => forall d, view s' d = view s d
    end.
  Proof.
    intros (Hd & Hne & Hsp). unfold add_or_mod_add.
    destruct unbound eqn:Hu; [unfold ldap_get_; intros d; reflexivity|].
    pose proof (get_all sv view lower norm eqv Hlaw false s dn) as G.
    destruct (view s dn) as [e|] eqn:V.
    - destruct (G eq_refl) as (o & Eg & Hn & Hok & Hm). rewrite Eg.
      assert (Vo : view s (o_dn o) = Some e) by (rewrite <- V; now apply (law_dn _ _ _ _ _ Hlaw)).
      apply (or_add_cases false s dn a (obj_add_attrs sv lower idx false strict flags validate_mod s o (as_vals a)) (fun s' o' =>
         exists e', view s' dn = Some e' /\ mirrors lower (o_attrs o') e' /\ norm (o_dn o') = norm dn /\
        (forall k vs v, In (k, vs) a -> In v vs -> exists x, In x (e' (lower k)) /\ eqv k x v = true) /\
        (forall n v, In v (e' n) <-> In v (e n) \/
            exists k vs, In (k, vs) a /\ lower k = n /\ In v vs /\ existsb (fun x => eqv k x v) (e n) = false) /\
        (forall d, norm d <> norm dn -> view s' d = view s d)) e V).
      unfold obj_add_attrs.
      rewrite (prefetch_nothing sv view lower norm eqv Hlaw false strict s o e) ; [|exact Vo|exact Hm| |reflexivity].
      2: { rewrite as_vals_fst. intros n Hin. apply in_map_iff in Hin. destruct Hin as (av & <- & Hin). now apply Hsp. }
      assert (Hnd : NoDup (map fst (as_vals a))) by (rewrite as_vals_fst; eapply distinct_fst; exact Hd).
      destruct (add_modlist lower idx (o_attrs o) (as_vals a)) as [ms|x] eqn:Em; [|intros d; reflexivity].
      destruct (add_mods_ok lower eqv idx (o_attrs o) (as_vals a) ms Hnd Em) as (Hc & He & Hsafe).
      pose proof (omod_dir sv view lower norm eqv idx Hidx Hlaw false flags validate_mod s o e ms Vo Hok Hm Hc He (fun _ _ => Hsafe flags e)) as M.
      destruct (obj_modify_ sv lower idx false flags validate_mod s o ms) as [[s' o'] [[]|x]]; [|exact (proj2 M)].
      destruct M as (e1 & e' & Ha & V' & P & Hdn & Hok' & Hm' & On & _).
      rewrite as_vals_fst in Hnd.
      pose proof (add_effect lower eqv idx Hidx (o_attrs o) a ms e e1 Hnd (fun k _ => eq_sym (Hm k)) Em Ha) as AA.
      exists e'. split; [rewrite <- V'; now apply (law_dn _ _ _ _ _ Hlaw)|]. split; [exact Hm'|]. split; [now rewrite Hdn|]. split; [|split].
      + intros k vs v Hin Hv. rewrite P. destruct (existsb (fun x => eqv k x v) (e (lower k))) eqn:X.
        * apply existsb_exists in X. destruct X as (x & Hx & Hxe). exists x. split; [|exact Hxe]. apply AA. now left.
        * exists v. split; [|apply Hrefl]. apply AA. right. exists k, vs. auto.
      + intros n v. rewrite P. apply AA.
      + intros d Hdn'. apply On. now rewrite Hn.
    - rewrite (G eq_refl). pose proof (add_cases sv view lower norm eqv Hlaw false validate_object s dn a) as A.
      destruct (ldap_add sv lower false validate_object s dn a) as [s' [o|x]]; [|exact A].
      destruct A as (_ & (e & V' & Hl & Hm) & Hdn & _ & On). exists e. split; [exact V'|]. split; [exact Hm|]. split; [now rewrite Hdn|].
      split; [|split; [exact Hl|exact On]].
      intros k vs v Hin Hv. exists v. split; [|apply Hrefl].
      destruct Hl as (_ & _ & Hl). rewrite (proj2 (Hl k vs (Hne _ Hin))); [exact Hv|]. now exists k.
  Qed.

  (** C48, add_or_mod_replace_if_exists: the mentioned attributes have exactly the requested values,
      the others are unchanged (absent if the entry is new). *)
  Theorem C48_add_or_mod_replace_partial s dn a :
    request_ok lower a ->
    match add_or_mod_replace sv lower idx unbound flags validate_object validate_mod s dn a with
    | (s', Ok o) => exists e', view s' dn = Some e' /\ mirrors lower (o_attrs o) e' /\ norm (o_dn o) = norm dn /\
        (forall k vs, In (k, vs) a -> e' (lower k) = vs) /\
        match view s dn with
        | None => lists lower a e'
        | Some e => forall n, ~ In n (map (fun av => lower (fst av)) a) -> e' n = e n
        end /\
        (forall d, norm d <> norm dn -> view s' d = view s d)
    | (s', Raise _) => forall d, view s' d = view s d
    end.
  Proof.
    intros (Hd & Hne & Hsp). unfold add_or_mod_replace.
    destruct unbound eqn:Hu; [unfold ldap_get_; intros d; reflexivity|].
    pose proof (get_all sv view lower norm eqv Hlaw false s dn) as G.
    destruct (view s dn) as [e|] eqn:V.
    - destruct (G eq_refl) as (o & Eg & Hn & Hok & Hm). rewrite Eg.
      assert (Vo : view s (o_dn o) = Some e) by (rewrite <- V; now apply (law_dn _ _ _ _ _ Hlaw)).
      apply (or_add_cases false s dn a (obj_replace_attrs sv lower idx false flags validate_mod s o (as_vals a)) (fun s' o' =>
         exists e', view s' dn = Some e' /\ mirrors lower (o_attrs o') e' /\ norm (o_dn o') = norm dn /\
        (forall k vs, In (k, vs) a -> e' (lower k) = vs) /\
        (forall n, ~ In n (map (fun av => lower (fst av)) a) -> e' n = e n) /\
        (forall d, norm d <> norm dn -> view s' d = view s d)) e V).
      unfold obj_replace_attrs. rewrite modlist_replace.
      set (ms := map (fun av => mkmod REPLACE (fst av) (VList (snd av))) a).
      assert (Hms : forall m, In m ms -> exists k vs, In (k, vs) a /\ m = mkmod REPLACE k (VList vs) /\ vs <> []).
      { intros m Hin. apply in_map_iff in Hin. destruct Hin as ([k vs] & <- & Hin). exists k, vs. split; [exact Hin|]. split; [reflexivity|]. exact (Hne _ Hin). }
      assert (Hc : forall m, In m ms -> constructed m) by (intros m Hin; destruct (Hms m Hin) as (k & vs & _ & -> & _); reflexivity).
      assert (He : forall m, In m ms -> empty_rd m = false).
      { intros m Hin. destruct (Hms m Hin) as (k & vs & _ & -> & Hv). unfold empty_rd. cbn. now destruct vs. }
      assert (Hsafe : forall e1, srv_apply lower eqv e (map change_of ms) = Some e1 -> safe lower eqv flags e ms).
      { intros _ _. apply safe_plain; [exact He|]. intros m Hin _. destruct (Hms m Hin) as (k & vs & _ & -> & Hv). now destruct vs. }
      pose proof (omod_dir sv view lower norm eqv idx Hidx Hlaw false flags validate_mod s o e ms Vo Hok Hm Hc He Hsafe) as M.
      destruct (obj_modify_ sv lower idx false flags validate_mod s o ms) as [[s' o'] [[]|x]]; [|exact (proj2 M)].
      destruct M as (e1 & e' & Ha & V' & P & Hdn & Hok' & Hm' & On & _).
      assert (Hat : map (fun c => lower (c_attr c)) (map change_of ms) = map (fun av => lower (fst av)) a).
      { unfold ms. rewrite !map_map. reflexivity. }
      destruct (apply_replaces lower eqv (map change_of ms)) with (e := e) as (e2 & E2 & R).
      { intros c Hin. apply in_map_iff in Hin. destruct Hin as (m & <- & Hin). destruct (Hms m Hin) as (k & vs & _ & -> & _). reflexivity. }
      { rewrite Hat. exact Hd. }
      assert (e2 = e1) by congruence. subst e2.
      exists e'. split; [rewrite <- V'; now apply (law_dn _ _ _ _ _ Hlaw)|]. split; [exact Hm'|]. split; [now rewrite Hdn|]. split; [|split].
      + intros k vs Hin. rewrite P. apply (R (mkchange REPLACE k vs)). apply in_map_iff. exists (mkmod REPLACE k (VList vs)). split; [reflexivity|].
        apply in_map_iff. exists (k, vs). auto.
      + intros n Hnin. rewrite P. apply (apply_other lower eqv _ _ _ Ha). now rewrite Hat.
      + intros d Hdn'. apply On. now rewrite Hn.
    - rewrite (G eq_refl). pose proof (add_cases sv view lower norm eqv Hlaw false validate_object s dn a) as A.
      destruct (ldap_add sv lower false validate_object s dn a) as [s' [o|x]]; [|exact A].
      destruct A as (_ & (e & V' & Hl & Hm) & Hdn & _ & On). exists e. split; [exact V'|]. split; [exact Hm|]. split; [now rewrite Hdn|].
      split; [|split; [exact Hl|exact On]].
      intros k vs Hin. destruct Hl as (_ & _ & Hl). apply Hl; [exact (Hne _ Hin)|]. now exists k.
  Qed.

  (** C48, add_if_not_exists *)
  Theorem C48_add_if_not_exists s dn a :
    match add_if_not_exists sv lower unbound validate_object s dn a with
    | (s', Ok o) => exists e', view s' dn = Some e' /\ mirrors lower (o_attrs o) e' /\ norm (o_dn o) = norm dn /\
        match view s dn with
        | None => lists lower a e' /\ (forall d, norm d <> norm dn -> view s' d = view s d)
        | Some e => s' = s /\ e' = e
        end
    | (s', Raise _) => forall d, view s' d = view s d
    end.
  Proof.
    unfold add_if_not_exists. destruct unbound eqn:Hu; [unfold ldap_get_; intros d; reflexivity|].
    pose proof (get_all sv view lower norm eqv Hlaw false s dn) as G. destruct (view s dn) as [e|] eqn:V.
    - destruct (G eq_refl) as (o & -> & Hn & Hok & Hm). exists e. auto.
    - rewrite (G eq_refl). pose proof (add_cases sv view lower norm eqv Hlaw false validate_object s dn a) as A.
      destruct (ldap_add sv lower false validate_object s dn a) as [s' [o|x]]; [|exact A].
      destruct A as (_ & (e & V' & Hl & Hm) & Hdn & _ & On). exists e. split; [exact V'|]. split; [exact Hm|]. split; [now rewrite Hdn|]. now split.
  Qed.

  (** ** C58: add_attrs, delete_attrs and replace_attrs by DN *)
  (** the object passed as [current], if any, is up to date on the requested attributes *)
  Definition current_ok (cur : option lobj) (names : list str) (e : entry) : Prop :=
    match cur with Some c => forall k, In k names -> cur_vals lower (o_attrs c) k = e (lower k) | None => True end.

  (** C58, add_attrs, in both modes and with or without [current]: when it returns, every requested value
      has a match in the entry, nothing is lost and nothing but the requested values without a match is
      new; other entries are as before. If it raises nothing has changed. *)
  Theorem C58_add_attrs s dn a cur e :
    request_ok lower a -> view s dn = Some e -> current_ok cur (map fst a) e ->
    match ldap_add_attrs sv lower idx unbound strict flags validate_mod s dn (as_vals a) cur with
    | (s', Ok _) => exists e', view s' dn = Some e' /\
        (forall k vs v, In (k, vs) a -> In v vs -> exists x, In x (e' (lower k)) /\ eqv k x v = true) /\
        (forall n v, In v (e' n) <-> In v (e n) \/
            exists k vs, In (k, vs) a /\ lower k = n /\ In v vs /\ existsb (fun x => eqv k x v) (e n) = false) /\
        (forall d, norm d <> norm dn -> view s' d = view s d)
    | (s', Raise _) => forall d, view s' d = view s d
    end.
  Proof.
    intros (Hd & Hne & Hsp) V Hcur.
    (* what any of the three modlists does *)
    assert (G : forall ms cur',
      (forall m, In m ms -> constructed m) -> (forall m, In m ms -> empty_rd m = false) ->
      (forall e1, srv_apply lower eqv e (map change_of ms) = Some e1 -> forall n v, In v (e1 n) <-> In v (e n) \/
            exists k vs, In (k, vs) a /\ lower k = n /\ In v vs /\ existsb (fun x => eqv k x v) (e n) = false) ->
      match (let '(s', _, r) := ldap_modify_ sv unbound flags validate_mod s dn ms cur' in (s', r)) with
      | (s', Ok _) => exists e', view s' dn = Some e' /\
        (forall k vs v, In (k, vs) a -> In v vs -> exists x, In x (e' (lower k)) /\ eqv k x v = true) /\
        (forall n v, In v (e' n) <-> In v (e n) \/
            exists k vs, In (k, vs) a /\ lower k = n /\ In v vs /\ existsb (fun x => eqv k x v) (e n) = false) /\
        (forall d, norm d <> norm dn -> view s' d = view s d)
      | (s', Raise _) => forall d, view s' d = view s d
      end).
    { intros ms cur' Hc He Heff. pose proof (lmod_dir sv view lower norm eqv Hlaw unbound flags validate_mod s dn ms cur' Hc He) as L.
      destruct (ldap_modify_ sv unbound flags validate_mod s dn ms cur') as [[s' ms'] [[]|x]]; [|exact L].
      destruct L as (_ & L).
      assert (A : exists e1 e', srv_apply lower eqv e (map change_of ms) = Some e1 /\ view s' dn = Some e' /\ (forall n, e' n = e1 n) /\ only_at view norm s s' dn).
      { destruct L as [(-> & ->)|((e0 & e1 & e' & V0 & A & V' & P) & On)].
        - exists e, e. repeat split; auto.
        - exists e1, e'. assert (e0 = e) by congruence. subst. auto. }
      destruct A as (e1 & e' & A & V' & P & On). specialize (Heff e1 A). exists e'. split; [exact V'|]. split; [|split].
      - intros k vs v Hin Hv. rewrite P. destruct (existsb (fun x => eqv k x v) (e (lower k))) eqn:X.
        + apply existsb_exists in X. destruct X as (x & Hx & Hxe). exists x. split; [|exact Hxe]. apply Heff. now left.
        + exists v. split; [|apply Hrefl]. apply Heff. right. exists k, vs. auto.
      - intros n v. rewrite P. apply Heff.
      - exact On. }
    assert (Hnd : NoDup (map fst (as_vals a))) by (rewrite as_vals_fst; eapply distinct_fst; exact Hd).
    assert (Hnd' : NoDup (map fst a)) by now rewrite as_vals_fst in Hnd.
    (* the smart modlist *)
    assert (Sm : forall c, (forall k, In k (map fst a) -> cur_vals lower (o_attrs c) k = e (lower k)) ->
      match (match add_modlist lower idx (o_attrs c) (as_vals a) with
             | Raise x => (s, Raise x)
             | Ok ms => let '(s', _, r) := ldap_modify_ sv unbound flags validate_mod s dn ms (Some c) in (s', r) end) with
      | (s', Ok _) => exists e', view s' dn = Some e' /\
        (forall k vs v, In (k, vs) a -> In v vs -> exists x, In x (e' (lower k)) /\ eqv k x v = true) /\
        (forall n v, In v (e' n) <-> In v (e n) \/
            exists k vs, In (k, vs) a /\ lower k = n /\ In v vs /\ existsb (fun x => eqv k x v) (e n) = false) /\
        (forall d, norm d <> norm dn -> view s' d = view s d)
      | (s', Raise _) => forall d, view s' d = view s d
      end).
    { intros c Hc. destruct (add_modlist lower idx (o_attrs c) (as_vals a)) as [ms|x] eqn:Em; [|intros d; reflexivity].
      destruct (add_mods_ok lower eqv idx (o_attrs c) (as_vals a) ms Hnd Em) as (H1 & H2 & _). apply G; auto.
      intros e1 A. exact (add_effect lower eqv idx Hidx (o_attrs c) a ms e e1 Hnd' Hc Em A). }
    unfold ldap_add_attrs. destruct cur as [c|]; [exact (Sm c Hcur)|].
    destruct strict.
    - rewrite modlist_add by exact Hne. apply G.
      + intros m Hm. apply in_map_iff in Hm. destruct Hm as ([k vs] & <- & Hin). unfold constructed, new_mod. cbn.
        specialize (Hne _ Hin). cbn [snd] in Hne. now destruct vs.
      + intros m Hm. apply in_map_iff in Hm. destruct Hm as ([k vs] & <- & Hin). reflexivity.
      + intros e1 A. exact (strict_add lower eqv a e e1 Hd A).
    - rewrite as_vals_fst. destruct unbound eqn:Hu; [unfold ldap_get_; intros d; reflexivity|].
      destruct (get_some sv view lower norm eqv Hlaw false s dn e (map fst a) eq_refl V) as (o & -> & _ & _ & Hcv).
      { intros n Hin. apply in_map_iff in Hin. destruct Hin as (av & <- & Hin). now apply Hsp. }
      exact (Sm o Hcv).
  Qed.

  (** C58, delete_attrs: exactly the doomed values are gone. *)
  Theorem C58_delete_attrs_partial s dn del cur e :
    del_ok lower del -> view s dn = Some e -> current_ok cur (map fst del) e ->
    (forall k v, In (k, v) del -> at_most_one eqv k (e (lower k))) ->
    match ldap_delete_attrs sv lower idx unbound strict flags validate_mod s dn del cur with
    | (s', Ok _) => exists e', view s' dn = Some e' /\
        (forall n x, In x (e' n) <-> In x (e n) /\ ~ doomed lower eqv del n x) /\
        (forall d, norm d <> norm dn -> view s' d = view s d)
    | (s', Raise _) => forall d, view s' d = view s d
    end.
  Proof.
    intros Hok V Hcur H1. pose proof Hok as (Hd & Hne & Hsp).
    assert (G : forall ms cur',
      (forall m, In m ms -> constructed m) -> (forall m, In m ms -> empty_rd m = false) ->
      (forall e1, srv_apply lower eqv e (map change_of ms) = Some e1 -> forall n x, In x (e1 n) <-> In x (e n) /\ ~ doomed lower eqv del n x) ->
      match (let '(s', _, r) := ldap_modify_ sv unbound flags validate_mod s dn ms cur' in (s', r)) with
      | (s', Ok _) => exists e', view s' dn = Some e' /\
        (forall n x, In x (e' n) <-> In x (e n) /\ ~ doomed lower eqv del n x) /\
        (forall d, norm d <> norm dn -> view s' d = view s d)
      | (s', Raise _) => forall d, view s' d = view s d
      end).
    { intros ms cur' Hc He Heff. pose proof (lmod_dir sv view lower norm eqv Hlaw unbound flags validate_mod s dn ms cur' Hc He) as L.
      destruct (ldap_modify_ sv unbound flags validate_mod s dn ms cur') as [[s' ms'] [[]|x]]; [|exact L].
      destruct L as (_ & [(-> & ->)|((e0 & e1 & e' & V0 & A & V' & P) & On)]).
      - exists e. split; [exact V|]. split; [exact (Heff e eq_refl)|auto].
      - assert (e0 = e) by congruence. subst e0. exists e'. split; [exact V'|]. split; [|exact On]. intros n x. rewrite P. now apply Heff. }
    assert (Sm : forall c, (forall k, In k (map fst del) -> cur_vals lower (o_attrs c) k = e (lower k)) ->
      match (match delete_modlist lower idx (o_attrs c) del with
             | Raise x => (s, Raise x)
             | Ok ms => let '(s', _, r) := ldap_modify_ sv unbound flags validate_mod s dn ms (Some c) in (s', r) end) with
      | (s', Ok _) => exists e', view s' dn = Some e' /\
        (forall n x, In x (e' n) <-> In x (e n) /\ ~ doomed lower eqv del n x) /\
        (forall d, norm d <> norm dn -> view s' d = view s d)
      | (s', Raise _) => forall d, view s' d = view s d
      end).
    { intros c Hc. destruct (delete_modlist lower idx (o_attrs c) del) as [ms|x] eqn:Em; [|intros d; reflexivity].
      assert (Hm : forall m, In m ms -> m_op m = DELETE /\ m_vals m <> VList []).
      { rewrite (del_modlist_exact lower idx (o_attrs c) del ms (fst_nodup lower _ Hd) Em). intros m Hm. apply in_flat_map in Hm. destruct Hm as ([k v] & Hin & Hm).
        specialize (Hne _ Hin). cbn [snd] in Hne.
        unfold deletes_for in Hm. cbn [fst snd] in Hm. destruct (cur_vals lower (o_attrs c) k) as [|c0 cs0]; [destruct Hm|].
        destruct v as [[|y l]|]; [now elim Hne| |destruct Hm as [<-|[]]; split; [reflexivity|discriminate]].
        destruct (filter _ (y :: l)); [destruct Hm|destruct Hm as [<-|[]]; split; [reflexivity|discriminate]]. }
      apply G.
      - intros m Hin. destruct (Hm m Hin) as [Ho _]. unfold constructed, new_mod. rewrite Ho. cbn. rewrite <- Ho. now destruct m.
      - intros m Hin. destruct (Hm m Hin) as [Ho Hv]. unfold empty_rd. rewrite Ho. now destruct (m_vals m) as [[|]|].
      - intros e1 A. apply (del_effect lower eqv idx Hidx del ms e e1 Hok H1); [|exact A]. right. exists (o_attrs c). split; [|exact Em].
        intros k v Hin. apply Hc. now apply (in_map fst) in Hin. }
    unfold ldap_delete_attrs. destruct cur as [c|]; [exact (Sm c Hcur)|].
    destruct strict.
    - rewrite (del_strict_ok lower del Hok). apply G.
      + intros m Hm. apply in_map_iff in Hm. destruct Hm as ([k v] & <- & Hin). reflexivity.
      + intros m Hm. apply in_map_iff in Hm. destruct Hm as ([k v] & <- & Hin). specialize (Hne _ Hin). unfold empty_rd. cbn in *. now destruct v as [[|]|].
      + intros e1 A. refine (del_effect lower eqv idx Hidx del _ e e1 Hok H1 (or_introl eq_refl) A).
    - destruct unbound eqn:Hu; [unfold ldap_get_; intros d; reflexivity|].
      destruct (get_some sv view lower norm eqv Hlaw false s dn e (map fst del) eq_refl V) as (o & -> & _ & _ & Hcv).
      { intros n Hin. apply in_map_iff in Hin. destruct Hin as (av & <- & Hin). now apply Hsp. }
      exact (Sm o Hcv).
  Qed.

  (** C58, replace_attrs: the named attributes have exactly the given values (none for DELETE_ALL), the
      others keep theirs. *)
  Theorem C58_replace_attrs_partial s dn new cur e :
    del_ok lower new -> view s dn = Some e ->
    match ldap_replace_attrs sv lower unbound strict have_validators flags validate_mod s dn new cur with
    | (s', Ok _) => exists e', view s' dn = Some e' /\
        (forall k v, In (k, v) new -> e' (lower k) = match v with VList l => l | VDeleteAll => [] end) /\
        (forall n, ~ In n (map (fun av => lower (fst av)) new) -> e' n = e n) /\
        (forall d, norm d <> norm dn -> view s' d = view s d)
    | (s', Raise _) => forall d, view s' d = view s d
    end.
  Proof.
    intros (Hd & Hne & Hsp) V.
    assert (Em : modlist REPLACE new = Ok (map (fun av => mkmod REPLACE (fst av) (snd av)) new)).
    { clear. induction new as [|[k v] new IH]; [reflexivity|]. cbn [modlist map fst snd new_mod mop_eqb andb bind]. now rewrite IH. }
    assert (G : forall cur',
      match (match modlist REPLACE new with
             | Raise x => (s, Raise x)
             | Ok ms => let '(s', _, r) := ldap_modify_ sv unbound flags validate_mod s dn ms cur' in (s', r) end) with
      | (s', Ok _) => exists e', view s' dn = Some e' /\
        (forall k v, In (k, v) new -> e' (lower k) = match v with VList l => l | VDeleteAll => [] end) /\
        (forall n, ~ In n (map (fun av => lower (fst av)) new) -> e' n = e n) /\
        (forall d, norm d <> norm dn -> view s' d = view s d)
      | (s', Raise _) => forall d, view s' d = view s d
      end).
    { intros cur'. rewrite Em. set (ms := map (fun av => mkmod REPLACE (fst av) (snd av)) new).
      pose proof (lmod_dir sv view lower norm eqv Hlaw unbound flags validate_mod s dn ms cur') as L.
      assert (Hc : forall m, In m ms -> constructed m) by (intros m Hm; apply in_map_iff in Hm; destruct Hm as ([k v] & <- & Hin); reflexivity).
      assert (He : forall m, In m ms -> empty_rd m = false).
      { intros m Hm; apply in_map_iff in Hm; destruct Hm as ([k v] & <- & Hin). specialize (Hne _ Hin). unfold empty_rd. cbn in *. now destruct v as [[|]|]. }
      specialize (L Hc He). destruct (ldap_modify_ sv unbound flags validate_mod s dn ms cur') as [[s' ms'] [[]|x]]; [|exact L].
      assert (Hat : map (fun c => lower (c_attr c)) (map change_of ms) = map (fun av => lower (fst av)) new) by (unfold ms; now rewrite !map_map).
      destruct (apply_replaces lower eqv (map change_of ms)) with (e := e) as (e2 & E2 & R).
      { intros c Hin. apply in_map_iff in Hin. destruct Hin as (m & <- & Hin). apply in_map_iff in Hin. destruct Hin as ([k v] & <- & _). reflexivity. }
      { rewrite Hat. exact Hd. }
      destruct L as (_ & L).
      assert (A : exists e', view s' dn = Some e' /\ (forall n, e' n = e2 n) /\ only_at view norm s s' dn).
      { destruct L as [(E & ->)|((e0 & e1 & e' & V0 & A & V' & P) & On)].
        - rewrite E in E2. injection E2 as <-. exists e. repeat split; auto.
        - exists e'. assert (e0 = e) by congruence. subst. assert (e2 = e1) by congruence. subst. auto. }
      destruct A as (e' & V' & P & On). exists e'. split; [exact V'|]. split; [|split; [|exact On]].
      - intros k v Hin. rewrite P. apply (R (change_of (mkmod REPLACE k v))). apply in_map. apply in_map_iff. exists (k, v). auto.
      - intros n Hn. rewrite P. apply (apply_other lower eqv _ _ _ E2). now rewrite Hat. }
    unfold ldap_replace_attrs. destruct cur as [c|]; [exact (G (Some c))|].
    destruct (have_validators && negb strict); [|exact (G None)].
    destruct unbound eqn:Hu; [unfold ldap_get_; intros d; reflexivity|].
    destruct (get_some sv view lower norm eqv Hlaw false s dn e (map fst new) eq_refl V) as (o & -> & _).
    { intros n Hin. apply in_map_iff in Hin. destruct Hin as (av & <- & Hin). now apply Hsp. }
    exact (G (Some o)).
  Qed.

  (** ** C59: refresh, refresh_missing, has_object_class *)
  Definition plain_names (ats : list str) : Prop := forall n, In n ats -> ~ In n [lit "*"; lit "+"; lit "1.1"].
  (** the object shows the directory's values of attribute [k] *)
  Definition current (o : lobj) (e : entry) (k : str) : Prop := cur_vals lower (o_attrs o) k = e (lower k).

  (** C59, refresh: every requested attribute the entry has is as on the server afterwards; attributes
      not asked for, and those the entry does not have, are untouched; so is the directory. *)
  Theorem C59_refresh_partial s o e ats :
    view s (o_dn o) = Some e -> dict_ok lower (o_attrs o) -> unbound = false ->
    match ats with Some l => plain_names l | None => True end ->
    exists o', obj_refresh sv lower unbound s o ats = (o', Ok tt) /\ o_dn o' = o_dn o /\ dict_ok lower (o_attrs o') /\
      forall k,
        (match ats with Some (n :: l) => In (lower k) (map lower (n :: l)) | _ => True end -> e (lower k) <> [] -> current o' e k) /\
        (match ats with Some (n :: l) => ~ In (lower k) (map lower (n :: l)) | _ => False end \/ e (lower k) = [] ->
         cid_get lower (o_attrs o') k = cid_get lower (o_attrs o) k).
  Proof.
    intros V Hok -> Hs. destruct (refresh_spec sv view lower norm eqv Hlaw s o e ats V Hok) as (o' & E & Hdn & Hok' & Hg).
    { destruct ats; [exact Hs|exact I]. }
    exists o'. split; [exact E|]. split; [exact Hdn|]. split; [exact Hok'|]. intros k. specialize (Hg k). split.
    - intros Hin Hne. unfold current, cur_vals. rewrite Hg.
      replace (match ats with Some (n :: l) => smem (lower k) (map lower (n :: l)) | _ => true end) with true.
      2: { destruct ats as [[|n l]|]; try reflexivity. symmetry. now apply smem_In. }
      destruct (e (lower k)); [now elim Hne|reflexivity].
    - intros [Hni|Hem].
      + destruct ats as [[|n l]|]; try (now elim Hni). rewrite Hg. apply smem_nIn in Hni. now rewrite Hni.
      + rewrite Hem in Hg. rewrite Hg. now destruct (match ats with Some (n :: l) => smem (lower k) (map lower (n :: l)) | _ => true end).
  Qed.

  (** C59, refresh_missing: if every attribute the object already has is up to date, then afterwards every
      requested one is; what the object had is untouched; if nothing is missing nothing is asked. *)
  Theorem C59_refresh_missing s o e ats :
    view s (o_dn o) = Some e -> dict_ok lower (o_attrs o) -> unbound = false -> plain_names ats ->
    (forall k, ahas lower (o_attrs o) k = true -> current o e k) ->
    exists o', obj_refresh_missing sv lower unbound s o ats = (o', Ok tt) /\ o_dn o' = o_dn o /\ dict_ok lower (o_attrs o') /\
      (forall k, In k ats -> current o' e k) /\
      (forall k, ahas lower (o_attrs o) k = true -> cid_get lower (o_attrs o') k = cid_get lower (o_attrs o) k).
  Proof.
    intros V Hok Hu Hs Hcur. unfold obj_refresh_missing.
    assert (Hmis : forall k, In k (missing lower o ats) <-> In k ats /\ ahas lower (o_attrs o) k = false).
    { intros k. unfold missing. rewrite filter_In. now rewrite negb_true_iff. }
    destruct (missing lower o ats) as [|n l] eqn:Em.
    - exists o. split; [reflexivity|]. split; [reflexivity|]. split; [exact Hok|]. split; [|reflexivity].
      intros k Hk. apply Hcur. destruct (ahas lower (o_attrs o) k) eqn:A; [reflexivity|]. destruct (proj2 (Hmis k) (Logic.conj Hk A)).
    - destruct (C59_refresh_partial s o e (Some (n :: l)) V Hok Hu) as (o' & E & Hdn & Hok' & Hg).
      { intros x Hx. apply Hs. now apply Hmis. }
      exists o'. split; [exact E|]. split; [exact Hdn|]. split; [exact Hok'|].
      assert (Hkeep : forall k, ahas lower (o_attrs o) k = true -> cid_get lower (o_attrs o') k = cid_get lower (o_attrs o) k).
      { intros k Hk. apply (Hg k). left. intros Hin. apply in_map_iff in Hin. destruct Hin as (x & Ex & Hx). apply Hmis in Hx. destruct Hx as [_ Hx].
        unfold ahas in *. rewrite (get_lower lower _ x k Ex) in Hx. rewrite Hx in Hk. discriminate. }
      split; [|exact Hkeep]. intros k Hk. destruct (ahas lower (o_attrs o) k) eqn:A.
      + unfold current, cur_vals. rewrite (Hkeep k A). exact (Hcur k A).
      + destruct (e (lower k)) as [|v vs] eqn:Ee.
        * unfold current, cur_vals. rewrite (proj2 (Hg k) (or_intror Ee)), Ee. unfold ahas in A. destruct (cid_get lower (o_attrs o) k) as [[|]|]; congruence.
        * apply (Hg k); [|congruence]. apply in_map. apply Hmis. auto.
  Qed.
  (** nothing missing: no request, whatever the state of the connection *)
  Theorem C59_refresh_missing_silent u s o ats :
    (forall k, In k ats -> ahas lower (o_attrs o) k = true) ->
    forall sv' : server S, obj_refresh_missing sv' lower u s o ats = (o, Ok tt).
  Proof.
    intros H sv'. unfold obj_refresh_missing. replace (missing lower o ats) with (@nil str); [reflexivity|].
    symmetry. unfold missing. induction ats as [|k ats IH]; [reflexivity|]. cbn [List.filter]. rewrite (H k (or_introl eq_refl)). cbn [negb].
    apply IH. intros x Hx. apply H. now right.
  Qed.
  (** only the missing attributes are asked for *)
  Theorem C59_refresh_missing_query u s o ats :
    forall sv' : server S, (forall k, In k ats -> ahas lower (o_attrs o) k = false) -> ats <> [] ->
    obj_refresh_missing sv' lower u s o ats = obj_refresh sv' lower u s o (Some ats).
  Proof.
    intros sv' H Hne. unfold obj_refresh_missing. replace (missing lower o ats) with ats; [destruct ats; [now elim Hne|reflexivity]|].
    unfold missing. clear Hne. induction ats as [|k ats IH]; [reflexivity|]. cbn [List.filter]. rewrite (H k (or_introl eq_refl)). cbn [negb].
    f_equal. apply IH. intros x Hx. apply H. now right.
  Qed.

  (** C59, has_object_class: True iff the entry has a matching objectClass value *)
  Theorem C59_has_object_class s o e oc :
    view s (o_dn o) = Some e -> dict_ok lower (o_attrs o) -> unbound = false ->
    (forall k, ahas lower (o_attrs o) k = true -> current o e k) -> e (lower (lit "objectClass")) <> [] ->
    exists o', has_object_class sv lower idx unbound s o oc =
      (o', Ok (existsb (fun x => eqv (lit "objectClass") x oc) (e (lower (lit "objectClass"))))).
  Proof.
    intros V Hok Hu Hcur Hne. unfold has_object_class.
    destruct (C59_refresh_missing s o e [lit "objectClass"] V Hok Hu) as (o' & E & _ & _ & Hc & _); [|exact Hcur|].
    { intros n [<-|[]]. cbn. intros [X|[X|[X|[]]]]; discriminate. }
    rewrite E. exists o'. specialize (Hc _ (or_introl eq_refl)). unfold current, cur_vals in Hc.
    destruct (cid_get lower (o_attrs o') (lit "objectClass")) as [l|x] eqn:G; [|now elim Hne; rewrite <- Hc].
    cbn [bind]. unfold avl_contains. rewrite Hidx. rewrite <- Hc.
    pose proof (first_match_exists (fun x => eqv (lit "objectClass") x oc) l 0) as F.
    destruct (first_match (fun x => eqv (lit "objectClass") x oc) l 0); now rewrite <- F.
  Qed.

  (** ** C40: renaming and moving *)
  (** C40, LDAP.move asks for exactly the first RDN and the rest, commas in escape pairs not counting *)
  Theorem C40_move_request_partial s dn new_dn rdn parent clean :
    dn_parts new_dn rdn parent -> last rdn 0 <> 92 ->
    ldap_move sv unbound s dn new_dn clean = ldap_mod_dn sv unbound s dn rdn clean (Some parent).
  Proof.
    intros (-> & Ht) Hl. unfold ldap_move. change (rdn ++ lit "," ++ parent) with (rdn ++ ch "," :: parent).
    rewrite resplit1_first; [reflexivity|exact Ht| |intros _; discriminate].
    destruct rdn; [discriminate|exact Hl].
  Qed.

  (** C40, an object that shows its entry and has a plain RDN: after a successful mod_dn to a plain RDN it
      has the new DN, the directory has an entry there and no longer at the old place, and the object
      shows it. When refused, object and directory are as before. *)
  Theorem C40_object_mod_dn_partial s o e rdn parent a0 v0 new_rdn a1 v1 clean new_parent :
    view s (o_dn o) = Some e -> dict_ok lower (o_attrs o) -> mirrors lower (o_attrs o) e ->
    dn_parts (o_dn o) rdn parent -> plain_rdn rdn a0 v0 -> plain_rdn new_rdn a1 v1 ->
    match obj_mod_dn sv lower idx unbound s o new_rdn clean new_parent with
    | (s', o', Ok _) => exists e',
        dn_parts (o_dn o') new_rdn (match new_parent with Some p => p | None => parent end) /\
        view s' (o_dn o') = Some e' /\ dict_ok lower (o_attrs o') /\ mirrors lower (o_attrs o') e' /\
        (forall n, e' n = srv_rename lower eqv e a0 v0 a1 v1 clean n) /\
        (norm (o_dn o') <> norm (o_dn o) -> view s' (o_dn o) = None)
    | (s', o', Raise _) => o' = o /\ forall d, view s' d = view s d
    end.
  Proof.
    intros V Hok Hm Hp P0 P1. destruct (plain_split _ _ _ P0) as (Q0 & R0 & _). destruct (plain_split _ _ _ P1) as (Q1 & _ & T1).
    assert (Es : split1 (ch ",") (o_dn o) = Ok (rdn, parent)).
    { destruct Hp as [-> _]. now apply split1_first. }
    unfold obj_mod_dn. rewrite Es. cbv zeta.
    set (p := match new_parent with None => parent | Some p => p end).
    unfold ldap_mod_dn. destruct unbound; [split; [reflexivity|intros d; reflexivity]|].
    destruct (sv_moddn sv s (o_dn o) new_rdn clean (Some p)) as [s' ok] eqn:E.
    pose proof (law_moddn _ _ _ _ _ Hlaw _ _ _ _ _ _ _ E) as L. destruct ok; cbn [success]; [|now split].
    destruct (L rdn parent a0 v0 a1 v1 Hp P0 P1) as (e0 & e' & V0 & V' & P & Hold). assert (e0 = e) by congruence. subst e0.
    destruct (rename_mirrors lower eqv idx Hidx (o_attrs o) e rdn new_rdn a0 v0 a1 v1 clean Hok Hm Q0 Q1) as (d' & Er & Hok' & Hm').
    rewrite Er. exists e'. cbn [o_dn o_attrs]. split; [split; [|exact T1]; unfold p; now destruct new_parent|].
    split; [exact V'|]. split; [exact Hok'|]. split; [eapply mirrors_pt; eauto|]. split; [exact P|exact Hold].
  Qed.

  (** C40, the same for move, given the whole new DN *)
  Theorem C40_object_move_partial s o e rdn parent a0 v0 new_dn new_rdn new_parent a1 v1 clean :
    view s (o_dn o) = Some e -> dict_ok lower (o_attrs o) -> mirrors lower (o_attrs o) e ->
    dn_parts (o_dn o) rdn parent -> plain_rdn rdn a0 v0 -> dn_parts new_dn new_rdn new_parent -> plain_rdn new_rdn a1 v1 ->
    match obj_move sv lower idx unbound s o new_dn clean with
    | (s', o', Ok _) => exists e', o_dn o' = new_dn /\
        view s' new_dn = Some e' /\ dict_ok lower (o_attrs o') /\ mirrors lower (o_attrs o') e' /\
        (forall n, e' n = srv_rename lower eqv e a0 v0 a1 v1 clean n) /\
        (norm new_dn <> norm (o_dn o) -> view s' (o_dn o) = None)
    | (s', o', Raise _) => o' = o /\ forall d, view s' d = view s d
    end.
  Proof.
    intros V Hok Hm Hp P0 Hp1 P1. destruct (plain_split _ _ _ P1) as (_ & R1 & _).
    assert (Es : split1 (ch ",") new_dn = Ok (new_rdn, new_parent)) by (destruct Hp1 as [-> _]; now apply split1_first).
    unfold obj_move. rewrite Es.
    pose proof (C40_object_mod_dn_partial s o e rdn parent a0 v0 new_rdn a1 v1 clean (Some new_parent) V Hok Hm Hp P0 P1) as M.
    destruct (obj_mod_dn sv lower idx unbound s o new_rdn clean (Some new_parent)) as [[s' o'] [[]|x]]; [|exact M].
    destruct M as (e' & (Hdn & _) & V' & Hok' & Hm' & P & Hold). exists e'.
    assert (E : o_dn o' = new_dn) by (rewrite Hdn; symmetry; apply Hp1). rewrite <- E. auto 10.
  Qed.

  (** ** C60: compare and delete *)
  Theorem C60_compare s dn a v b :
    ldap_compare sv unbound s dn a v = Ok b ->
    exists e, view s dn = Some e /\ b = existsb (fun x => eqv a x v) (e (lower a)).
  Proof.
    unfold ldap_compare. destruct unbound; [discriminate|]. cbv zeta. destruct (law_compare _ _ _ _ _ Hlaw s dn a v) as [H6 H5].
    destruct (N.eqb_spec (sv_compare sv s dn a v) 6) as [E|_].
    - intros H. injection H as <-. destruct (H6 E) as (e & V & X). eauto.
    - destruct (N.eqb_spec (sv_compare sv s dn a v) 5) as [E|_]; [|discriminate].
      intros H. injection H as <-. destruct (H5 E) as (e & V & X). eauto.
  Qed.

  (** C60, delete: after success the entry is gone, no other has changed, and the object is empty and
      detached (None); after an error nothing has changed on either side. *)
  Theorem C60_delete s o :
    match obj_delete sv unbound s o with
    | (s', o', Ok _) => o' = None /\ view s' (o_dn o) = None /\ (forall d, norm d <> norm (o_dn o) -> view s' d = view s d)
    | (s', o', Raise _) => o' = Some o /\ forall d, view s' d = view s d
    end.
  Proof.
    unfold obj_delete, ldap_delete. destruct unbound; [split; [reflexivity|intros d; reflexivity]|].
    destruct (sv_delete sv s (o_dn o)) as [s' ok] eqn:E. pose proof (law_delete _ _ _ _ _ Hlaw _ _ _ _ E) as L.
    destruct ok; cbn [success]; [destruct L; auto|auto].
  Qed.
  (** an unbound connection sends nothing *)
  Theorem C60_unbound sv' s dn a v :
    @ldap_compare S sv' true s dn a v = Raise ConnectionUnbound /\
    @ldap_delete S sv' true s dn = (s, Raise ConnectionUnbound) /\
    (forall rdn c p, @ldap_mod_dn S sv' true s dn rdn c p = (s, Raise ConnectionUnbound)) /\
    (forall l, @ldap_add S sv' lower true validate_object s dn l = (s, Raise ConnectionUnbound)) /\
    (forall ats, @ldap_get_ S sv' lower true s dn ats = Raise ConnectionUnbound).
  Proof. repeat split. Qed.
End Dir.

(** ** Against a server that refuses nothing without a reason, the operations succeed *)
Section Live.
  Context {S : Type} (sv : server S) (view : S -> str -> option entry).
  Context (lower norm : str -> str) (eqv : str -> str -> str -> bool) (idx : str -> list str -> str -> res nat).
  Context (strict have_validators : bool) (flags : empty_flags).
  Context (validate_object : lobj -> res unit) (validate_mod : str -> list mod_ -> option lobj -> res unit).
  Context (Hidx : same_rule eqv idx) (Hlaw : lawful lower norm eqv sv view) (Hwill : willing lower eqv sv view).
  (** the validators accept *)
  Context (Hvo : forall o, validate_object o = Ok tt) (Hvm : forall dn ms c, validate_mod dn ms c = Ok tt).

  (** C58: a non-strict add_attrs, or one with an up-to-date [current], succeeds whatever values exist *)
  Theorem C58_add_attrs_succeeds s dn a cur e :
    request_ok lower a -> no_twins eqv a -> view s dn = Some e -> current_ok lower cur (map fst a) e -> (cur = None -> strict = false) ->
    exists s', ldap_add_attrs sv lower idx false strict flags validate_mod s dn (as_vals a) cur = (s', Ok tt).
  Proof.
    intros Hr Ht V Hcur Hstr. pose proof Hr as (Hd & Hne & Hsp).
    assert (Sm : forall c, (forall k, In k (map fst a) -> cur_vals lower (o_attrs c) k = e (lower k)) ->
      exists s', (match add_modlist lower idx (o_attrs c) (as_vals a) with
             | Raise x => (s, Raise x)
             | Ok ms => let '(s', _, r) := ldap_modify_ sv false flags validate_mod s dn ms (Some c) in (s', r) end) = (s', Ok tt)).
    { intros c Hc. destruct (smart_add_ok lower eqv idx Hidx (o_attrs c) a e Hr Ht Hc) as (ms & e1 & Em & A). rewrite Em.
      assert (Hnd : NoDup (map fst (as_vals a))) by (rewrite as_vals_fst; eapply distinct_fst; exact Hd).
      destruct (add_mods_ok lower eqv idx (o_attrs c) (as_vals a) ms Hnd Em) as (H1 & H2 & _).
      destruct (lmod_ok sv view lower eqv Hwill flags validate_mod Hvm s dn ms (Some c) e e1 V A H1 H2) as [s' ->]. eauto. }
    unfold ldap_add_attrs. destruct cur as [c|]; [exact (Sm c Hcur)|]. rewrite (Hstr eq_refl), as_vals_fst.
    destruct (get_some sv view lower norm eqv Hlaw false s dn e (map fst a) eq_refl V) as (o & -> & _ & _ & Hcv).
    { intros n Hin. apply in_map_iff in Hin. destruct Hin as (av & <- & Hin). now apply Hsp. }
    exact (Sm o Hcv).
  Qed.

  (** C58: likewise delete_attrs, whether or not the values exist *)
  Theorem C58_delete_attrs_succeeds s dn del cur e :
    del_ok lower del -> no_twice lower eqv e del -> view s dn = Some e -> current_ok lower cur (map fst del) e -> (cur = None -> strict = false) ->
    exists s', ldap_delete_attrs sv lower idx false strict flags validate_mod s dn del cur = (s', Ok tt).
  Proof.
    intros Hr Ht V Hcur Hstr. pose proof Hr as (Hd & Hne & Hsp).
    assert (Sm : forall c, (forall k, In k (map fst del) -> cur_vals lower (o_attrs c) k = e (lower k)) ->
      exists s', (match delete_modlist lower idx (o_attrs c) del with
             | Raise x => (s, Raise x)
             | Ok ms => let '(s', _, r) := ldap_modify_ sv false flags validate_mod s dn ms (Some c) in (s', r) end) = (s', Ok tt)).
    { intros c Hc. destruct (smart_delete_ok lower eqv idx Hidx (o_attrs c) del e Hr Ht Hc) as (ms & e1 & Em & A & Hm). rewrite Em.
      destruct (lmod_ok sv view lower eqv Hwill flags validate_mod Hvm s dn ms (Some c) e e1 V A) as [s' ->]; [| |eauto].
      - intros m Hin. destruct (Hm m Hin) as [Ho _]. unfold constructed, new_mod. rewrite Ho. cbn. rewrite <- Ho. now destruct m.
      - intros m Hin. destruct (Hm m Hin) as [Ho Hv]. unfold empty_rd. rewrite Ho. now destruct (m_vals m) as [[|]|]. }
    unfold ldap_delete_attrs. destruct cur as [c|]; [exact (Sm c Hcur)|]. rewrite (Hstr eq_refl).
    destruct (get_some sv view lower norm eqv Hlaw false s dn e (map fst del) eq_refl V) as (o & -> & _ & _ & Hcv).
    { intros n Hin. apply in_map_iff in Hin. destruct Hin as (av & <- & Hin). now apply Hsp. }
    exact (Sm o Hcv).
  Qed.

  (** C58: replace_attrs always succeeds on an existing entry *)
  Theorem C58_replace_attrs_succeeds s dn new cur e :
    del_ok lower new -> view s dn = Some e ->
    exists s', ldap_replace_attrs sv lower false strict have_validators flags validate_mod s dn new cur = (s', Ok tt).
  Proof.
    intros (Hd & Hne & Hsp) V.
    assert (G : forall cur', exists s', (match modlist REPLACE new with
             | Raise x => (s, Raise x)
             | Ok ms => let '(s', _, r) := ldap_modify_ sv false flags validate_mod s dn ms cur' in (s', r) end) = (s', Ok tt)).
    { intros cur'. rewrite modlist_ok by discriminate. set (ms := map (fun av => mkmod REPLACE (fst av) (snd av)) new).
      destruct (apply_replaces lower eqv (map change_of ms)) with (e := e) as (e2 & E2 & R).
      { intros c Hin. apply in_map_iff in Hin. destruct Hin as (m & <- & Hin). apply in_map_iff in Hin. destruct Hin as ([k v] & <- & _). reflexivity. }
      { unfold ms. rewrite !map_map. exact Hd. }
      destruct (lmod_ok sv view lower eqv Hwill flags validate_mod Hvm s dn ms cur' e e2 V E2) as [s' ->]; [| |eauto].
      - intros m Hm; apply in_map_iff in Hm; destruct Hm as ([k v] & <- & Hin); reflexivity.
      - intros m Hm; apply in_map_iff in Hm; destruct Hm as ([k v] & <- & Hin). specialize (Hne _ Hin). unfold empty_rd. cbn in *. now destruct v as [[|]|]. }
    unfold ldap_replace_attrs. destruct cur as [c|]; [exact (G (Some c))|].
    destruct (have_validators && negb strict); [|exact (G None)].
    destruct (get_some sv view lower norm eqv Hlaw false s dn e (map fst new) eq_refl V) as (o & -> & _).
    { intros n Hin. apply in_map_iff in Hin. destruct Hin as (av & <- & Hin). now apply Hsp. }
    exact (G (Some o)).
  Qed.

  (** C48: the helpers succeed, on an absent and on an existing entry *)
  Lemma add_succeeds s dn a : request_ok lower a -> view s dn = None ->
    exists s' o, ldap_add sv lower false validate_object s dn a = (s', Ok o).
  Proof.
    intros Hr V. unfold ldap_add. cbv zeta. rewrite Hvo. pose proof (will_add _ _ _ _ Hwill s dn a V Hr) as W.
    destruct (sv_add sv s dn a) as [s' ok]. cbn [snd] in W. subst ok. cbn [success]. eauto.
  Qed.
  Theorem C48_add_or_mod_add_succeeds s dn a :
    request_ok lower a -> no_twins eqv a ->
    exists s' o, add_or_mod_add sv lower idx false strict flags validate_object validate_mod s dn a = (s', Ok o).
  Proof.
    intros Hr Ht. pose proof Hr as (Hd & Hne & Hsp). unfold add_or_mod_add.
    pose proof (get_all sv view lower norm eqv Hlaw false s dn) as G.
    destruct (view s dn) as [e|] eqn:V; [|rewrite (G eq_refl); now apply add_succeeds].
    destruct (G eq_refl) as (o & Eg & Hn & Hok & Hm). rewrite Eg.
    assert (Vo : view s (o_dn o) = Some e) by (rewrite <- V; now apply (law_dn _ _ _ _ _ Hlaw)).
    unfold obj_add_attrs. rewrite (prefetch_nothing sv view lower norm eqv Hlaw false strict s o e) ; [|exact Vo|exact Hm| |reflexivity].
    2: { rewrite as_vals_fst. intros n Hin. apply in_map_iff in Hin. destruct Hin as (av & <- & Hin). now apply Hsp. }
    destruct (smart_add_ok lower eqv idx Hidx (o_attrs o) a e Hr Ht) as (ms & e1 & Em & A); [intros k _; symmetry; apply Hm|]. rewrite Em.
    assert (Hnd : NoDup (map fst (as_vals a))) by (rewrite as_vals_fst; eapply distinct_fst; exact Hd).
    destruct (add_mods_ok lower eqv idx (o_attrs o) (as_vals a) ms Hnd Em) as (H1 & H2 & H3).
    destruct (omod_ok sv view lower eqv idx Hidx Hwill flags validate_mod Hvm s o ms e e1 Vo Hok Hm A H1 H2 (H3 flags e)) as (s' & o' & ->).
    cbn [or_add]. eauto.
  Qed.
  Theorem C48_add_or_mod_replace_succeeds s dn a :
    request_ok lower a ->
    exists s' o, add_or_mod_replace sv lower idx false flags validate_object validate_mod s dn a = (s', Ok o).
  Proof.
    intros Hr. pose proof Hr as (Hd & Hne & Hsp). unfold add_or_mod_replace.
    pose proof (get_all sv view lower norm eqv Hlaw false s dn) as G.
    destruct (view s dn) as [e|] eqn:V; [|rewrite (G eq_refl); now apply add_succeeds].
    destruct (G eq_refl) as (o & Eg & Hn & Hok & Hm). rewrite Eg.
    assert (Vo : view s (o_dn o) = Some e) by (rewrite <- V; now apply (law_dn _ _ _ _ _ Hlaw)).
    unfold obj_replace_attrs. rewrite modlist_replace. set (ms := map (fun av => mkmod REPLACE (fst av) (VList (snd av))) a).
    assert (Hms : forall m, In m ms -> exists k vs, m = mkmod REPLACE k (VList vs) /\ vs <> []).
    { intros m Hin. apply in_map_iff in Hin. destruct Hin as ([k vs] & <- & Hin). exists k, vs. split; [reflexivity|]. exact (Hne _ Hin). }
    assert (Hc : forall m, In m ms -> constructed m) by (intros m Hin; destruct (Hms m Hin) as (k & vs & -> & _); reflexivity).
    assert (He : forall m, In m ms -> empty_rd m = false).
    { intros m Hin. destruct (Hms m Hin) as (k & vs & -> & Hv). unfold empty_rd. cbn. now destruct vs. }
    destruct (apply_replaces lower eqv (map change_of ms)) with (e := e) as (e2 & E2 & R).
    { intros c Hin. apply in_map_iff in Hin. destruct Hin as (m & <- & Hin). destruct (Hms m Hin) as (k & vs & -> & _). reflexivity. }
    { unfold ms. rewrite !map_map. exact Hd. }
    destruct (omod_ok sv view lower eqv idx Hidx Hwill flags validate_mod Hvm s o ms e e2 Vo Hok Hm E2 Hc He) as (s' & o' & ->); [|cbn [or_add]; eauto].
    apply safe_plain; [exact He|]. intros m Hin _. destruct (Hms m Hin) as (k & vs & -> & Hv). now destruct vs.
  Qed.
  Theorem C48_add_if_not_exists_succeeds s dn a :
    request_ok lower a ->
    exists s' o, add_if_not_exists sv lower false validate_object s dn a = (s', Ok o).
  Proof.
    intros Hr. unfold add_if_not_exists. pose proof (get_all sv view lower norm eqv Hlaw false s dn) as G.
    destruct (view s dn) as [e|] eqn:V; [|rewrite (G eq_refl); now apply add_succeeds].
    destruct (G eq_refl) as (o & -> & _). eauto.
  Qed.

  (** C40: when the server accepts the request, so does the object *)
  Theorem C40_object_mod_dn_succeeds_partial s o e rdn parent a0 v0 new_rdn a1 v1 clean new_parent :
    view s (o_dn o) = Some e -> dict_ok lower (o_attrs o) -> mirrors lower (o_attrs o) e ->
    dn_parts (o_dn o) rdn parent -> plain_rdn rdn a0 v0 -> plain_rdn new_rdn a1 v1 ->
    snd (sv_moddn sv s (o_dn o) new_rdn clean (Some (match new_parent with Some p => p | None => parent end))) = true ->
    exists s' o', obj_mod_dn sv lower idx false s o new_rdn clean new_parent = (s', o', Ok tt).
  Proof.
    intros V Hok Hm Hp P0 P1 Hyes. destruct (plain_split _ _ _ P0) as (Q0 & R0 & _). destruct (plain_split _ _ _ P1) as (Q1 & _ & T1).
    assert (Es : split1 (ch ",") (o_dn o) = Ok (rdn, parent)) by (destruct Hp as [-> _]; now apply split1_first).
    unfold obj_mod_dn. rewrite Es. cbv zeta. unfold ldap_mod_dn.
    replace (match new_parent with Some p => p | None => parent end) with (match new_parent with None => parent | Some p => p end) in Hyes by now destruct new_parent.
    destruct (sv_moddn sv s (o_dn o) new_rdn clean _) as [s' ok]. cbn [snd] in Hyes. subst ok. cbn [success].
    destruct (rename_mirrors lower eqv idx Hidx (o_attrs o) e rdn new_rdn a0 v0 a1 v1 clean Hok Hm Q0 Q1) as (d' & -> & _). eauto.
  Qed.

  (** C60: compare on an existing entry answers, delete deletes *)
  Theorem C60_compare_answers s dn a v e : view s dn = Some e ->
    ldap_compare sv false s dn a v = Ok (existsb (fun x => eqv a x v) (e (lower a))).
  Proof.
    intros V. unfold ldap_compare. cbv zeta. destruct (law_compare _ _ _ _ _ Hlaw s dn a v) as [H6 H5].
    destruct (will_compare _ _ _ _ Hwill s dn a v e V) as [E|E]; rewrite E; cbn [N.eqb Pos.eqb].
    - destruct (H5 E) as (e' & V' & X). rewrite V in V'. injection V' as ->. now rewrite X.
    - destruct (H6 E) as (e' & V' & X). rewrite V in V'. injection V' as ->. now rewrite X.
  Qed.
  Theorem C60_delete_succeeds s o e : view s (o_dn o) = Some e -> exists s', obj_delete sv false s o = (s', None, Ok tt).
  Proof.
    intros V. unfold obj_delete, ldap_delete. pose proof (will_delete _ _ _ _ Hwill s _ e V) as W.
    destruct (sv_delete sv s (o_dn o)) as [s' ok]. cbn [snd] in W. subst ok. cbn [success]. eauto.
  Qed.
End Live.
Print Assumptions C58_add_attrs_succeeds.
Print Assumptions C58_delete_attrs_succeeds.
Print Assumptions C58_replace_attrs_succeeds.
Print Assumptions C48_add_or_mod_add_succeeds.
Print Assumptions C48_add_or_mod_replace_succeeds.
Print Assumptions C48_add_if_not_exists_succeeds.
Print Assumptions C40_object_mod_dn_succeeds_partial.
Print Assumptions C60_compare_answers.
Print Assumptions C60_delete_succeeds.

Print Assumptions C48_add_or_mod_add.
Print Assumptions C48_add_or_mod_replace_partial.
Print Assumptions C48_add_if_not_exists.
Print Assumptions C58_add_attrs.
Print Assumptions C58_delete_attrs_partial.
Print Assumptions C58_replace_attrs_partial.
Print Assumptions C59_refresh_partial.
Print Assumptions C59_refresh_missing.
Print Assumptions C59_refresh_missing_silent.
Print Assumptions C59_refresh_missing_query.
Print Assumptions C59_has_object_class.
Print Assumptions C40_move_request_partial.
Print Assumptions C40_object_mod_dn_partial.
Print Assumptions C40_object_move_partial.
Print Assumptions C60_compare.
Print Assumptions C60_delete.
Print Assumptions C60_unbound.

(** ** A lawful server exists, and non-trivial requests satisfy the hypotheses *)
Definition dlower (s : str) : str := map (fun c => if (65 <=? c) && (c <=? 90) then c + 32 else c) s.
Definition dsv := ex_server dlower.
Definition ex_dir : store :=
  [ (lit "cn=bob,ou=people,dc=x", [ (lit "objectClass", [lit "person"]); (lit "cn", [lit "bob"; lit "robert"]); (lit "SN", [lit "smith"]) ]);
    (lit "ou=staff,dc=x", [ (lit "ou", [lit "staff"]) ]) ].
Definition ok_obj (o : lobj) : res unit := Ok tt.
Definition ok_mod (dn : str) (ms : list mod_) (o : option lobj) : res unit := Ok tt.
Definition dflags := mkflags false true false.
Definition bob := lit "cn=bob,ou=people,dc=x".
Definition got (r : res lobj) (k : str) : res (list str) := let* o := r in cid_get dlower (o_attrs o) k.
Definition at_dir (s : store) (dn n : str) : list str := match sview dlower s dn with Some e => e n | None => [] end.

Example C48_nonvacuous :
  lawful dlower (fun d => d) aeq dsv (sview dlower) /\ willing dlower aeq dsv (sview dlower) /\
  no_twins aeq [(lit "sn", [lit "smith"; lit "jones"]); (lit "mail", [lit "b@x"])] /\ same_rule aeq ex_idx /\ (forall a v, aeq a v v = true) /\
  request_ok dlower [(lit "sn", [lit "smith"; lit "jones"]); (lit "mail", [lit "b@x"])] /\
  (let '(s', r) := add_or_mod_add dsv dlower ex_idx false false dflags ok_obj ok_mod ex_dir bob [(lit "sn", [lit "smith"; lit "jones"]); (lit "mail", [lit "b@x"])] in
   got r (lit "sn") = Ok [lit "smith"; lit "jones"] /\ at_dir s' bob (lit "sn") = [lit "smith"; lit "jones"] /\ at_dir s' bob (lit "mail") = [lit "b@x"]) /\
  (let '(s', r) := add_or_mod_add dsv dlower ex_idx false false dflags ok_obj ok_mod ex_dir (lit "cn=al,dc=x") [(lit "cn", [lit "al"])] in
   at_dir ex_dir (lit "cn=al,dc=x") (lit "cn") = [] /\ at_dir s' (lit "cn=al,dc=x") (lit "cn") = [lit "al"]).
Proof.
  split; [apply ex_lawful|]. split; [apply ex_willing|]. split.
  { intros k vs [E|[E|[]]]; injection E as <- <-; repeat constructor. }
  split; [apply ex_same_rule|]. split; [intros a v; apply str_eqb_refl|]. split.
  - split; [|split].
    + repeat constructor; cbn; intros X; repeat (destruct X as [X|X]; try discriminate); exact X.
    + intros av [<-|[<-|[]]]; discriminate.
    + intros av [<-|[<-|[]]]; cbn; intros X; repeat (destruct X as [X|X]; try discriminate); exact X.
  - split; vm_compute; repeat split.
Qed.

(** C48, refuted for a request that empties an attribute: with the default settings nothing is sent, the
    entry keeps the values, and the returned object shows none; without an existing value KeyError is
    raised. *)
Theorem C48_replace_refuted_empty :
  (let '(s', r) := add_or_mod_replace dsv dlower ex_idx false dflags ok_obj ok_mod ex_dir bob [(lit "sn", [])] in
   at_dir s' bob (lit "sn") = [lit "smith"] /\ got r (lit "sn") = Raise KeyError /\ got r (lit "cn") = Ok [lit "bob"; lit "robert"]) /\
  (let '(s', r) := add_or_mod_replace dsv dlower ex_idx false (mkflags false false false) ok_obj ok_mod ex_dir bob [(lit "mail", []); (lit "sn", [lit "new"])] in
   at_dir s' bob (lit "sn") = [lit "new"] /\ r = Raise KeyError).
Proof. vm_compute. repeat split. Qed.
Print Assumptions C48_replace_refuted_empty.

Example C58_nonvacuous :
  (forall e, sview dlower ex_dir bob = Some e -> no_twice dlower aeq e [(lit "cn", VList [lit "bob"; lit "nobody"]); (lit "SN", VDeleteAll)]) /\
  del_ok dlower [(lit "cn", VList [lit "bob"; lit "nobody"]); (lit "SN", VDeleteAll)] /\
  (forall k v, In (k, v) [(lit "cn", VList [lit "bob"; lit "nobody"]); (lit "SN", VDeleteAll)] ->
     forall e, sview dlower ex_dir bob = Some e -> at_most_one aeq k (e (dlower k))) /\
  (let '(s', r) := ldap_delete_attrs dsv dlower ex_idx false false dflags ok_mod ex_dir bob [(lit "cn", VList [lit "bob"; lit "nobody"]); (lit "SN", VDeleteAll)] None in
   r = Ok tt /\ at_dir s' bob (lit "cn") = [lit "robert"] /\ at_dir s' bob (lit "sn") = []) /\
  (let '(s', r) := ldap_delete_attrs dsv dlower ex_idx false true dflags ok_mod ex_dir bob [(lit "cn", VList [lit "bob"; lit "nobody"])] None in
   r = Raise LDAPError /\ s' = ex_dir) /\
  (let '(s', r) := ldap_replace_attrs dsv dlower false false true dflags ok_mod ex_dir bob [(lit "cn", VList [lit "rob"]); (lit "SN", VDeleteAll)] None in
   r = Ok tt /\ at_dir s' bob (lit "cn") = [lit "rob"] /\ at_dir s' bob (lit "sn") = [] /\ at_dir s' bob (lit "objectclass") = [lit "person"]) /\
  (let '(s', r) := ldap_add_attrs dsv dlower ex_idx false false dflags ok_mod ex_dir bob (as_vals [(lit "cn", [lit "bob"; lit "bobby"])]) None in
   r = Ok tt /\ at_dir s' bob (lit "cn") = [lit "bob"; lit "robert"; lit "bobby"]) /\
  (let '(s', r) := ldap_add_attrs dsv dlower ex_idx false true dflags ok_mod ex_dir bob (as_vals [(lit "cn", [lit "bobby"; lit "bob"])]) None in
   r = Raise LDAPError /\ s' = ex_dir).
Proof.
  split.
  { intros e He k vs x [E|[E|[]]] Hx; [|discriminate]. injection E as <- <-. vm_compute in He. injection He as <-. vm_compute in Hx.
    destruct Hx as [<-|[<-|[]]]; repeat constructor; discriminate. }
  split; [|split].
  - split; [|split].
    + repeat constructor; cbn; intros X; repeat (destruct X as [X|X]; try discriminate); exact X.
    + intros av [<-|[<-|[]]]; discriminate.
    + intros av [<-|[<-|[]]]; cbn; intros X; repeat (destruct X as [X|X]; try discriminate); exact X.
  - intros k v Hin e He. vm_compute in He. injection He as <-. unfold at_most_one, aeq.
    assert (D : forall l : list str, NoDup l -> forall v, (List.length (List.filter (fun x => str_eqb x v) l) <= 1)%nat).
    { clear. induction 1 as [|x l Hni Hd IH]; intros v; cbn [List.filter List.length]; [lia|].
      destruct (str_eqb_spec x v) as [->|]; [|apply IH]. cbn [List.length].
      replace (List.filter (fun x => str_eqb x v) l) with (@nil str); [cbn; lia|]. symmetry.
      clear IH Hd. induction l as [|y l IH]; [reflexivity|]. cbn [List.filter]. destruct (str_eqb_spec y v) as [->|]; [elim Hni; now left|].
      apply IH. intros X. apply Hni. now right. }
    apply D. destruct Hin as [E|[E|[]]]; injection E as <- <-; vm_compute; repeat constructor; cbn; intros X; repeat (destruct X as [X|X]; try discriminate); exact X.
  - vm_compute. repeat split.
Qed.
(** C58, refuted for the documented empty list: "Specifying a 0-length entry will delete all values", but
    with the default settings nothing is sent and success is reported. *)
Theorem C58_refuted_empty_list :
  (let '(s', r) := ldap_delete_attrs dsv dlower ex_idx false false dflags ok_mod ex_dir bob [(lit "sn", VList [])] None in
   r = Ok tt /\ at_dir s' bob (lit "sn") = [lit "smith"]) /\
  (let '(s', r) := ldap_replace_attrs dsv dlower false false false dflags ok_mod ex_dir bob [(lit "sn", VList [])] None in
   r = Ok tt /\ at_dir s' bob (lit "sn") = [lit "smith"]).
Proof. vm_compute. repeat split. Qed.
Print Assumptions C58_refuted_empty_list.

Definition bob_part : lobj := mk_lobj bob (cid_update dlower cid_empty [(lit "sn", [lit "smith"])]).
Example C59_nonvacuous :
  (exists e, sview dlower ex_dir bob = Some e /\ (forall k, ahas dlower (o_attrs bob_part) k = true -> current dlower bob_part e k)) /\
  dict_ok dlower (o_attrs bob_part) /\
  (let (o', r) := obj_refresh_missing dsv dlower false ex_dir bob_part [lit "CN"; lit "sn"; lit "mail"] in
   r = Ok tt /\ cid_get dlower (o_attrs o') (lit "cn") = Ok [lit "bob"; lit "robert"] /\ cid_get dlower (o_attrs o') (lit "objectClass") = Raise KeyError) /\
  snd (has_object_class dsv dlower ex_idx false ex_dir bob_part (lit "person")) = Ok true /\
  snd (has_object_class dsv dlower ex_idx false ex_dir bob_part (lit "dog")) = Ok false.
Proof.
  split; [|split; [apply update_ok, empty_ok|vm_compute; repeat split]].
  eexists. split; [reflexivity|]. intros k Hk. unfold current, cur_vals, ahas in *. unfold cid_get in *.
  change (ckeys (o_attrs bob_part)) with [(lit "sn", lit "sn")] in *. change (cdata (o_attrs bob_part)) with [(lit "sn", [lit "smith"])] in *.
  cbn [dget] in *. destruct (str_eqb_spec (lit "sn") (dlower k)) as [<-|]; [reflexivity|discriminate].
Qed.
(** C59, refuted for attributes that were removed on the server: the object still shows them after
    refresh() *)
Theorem C59_refresh_refuted_removed :
  exists o, sview dlower ex_dir (o_dn o) <> None /\ dict_ok dlower (o_attrs o) /\ at_dir ex_dir (o_dn o) (lit "mail") = [] /\
    (let (o', r) := obj_refresh dsv dlower false ex_dir o None in
     r = Ok tt /\ cid_get dlower (o_attrs o') (lit "mail") = Ok [lit "old"]).
Proof.
  exists (mk_lobj bob (cid_update dlower cid_empty [(lit "mail", [lit "old"])])). split; [discriminate|]. split; [apply update_ok, empty_ok|].
  vm_compute. repeat split.
Qed.
Print Assumptions C59_refresh_refuted_removed.

Definition bob_full : lobj := mk_lobj bob (cid_update dlower cid_empty [(lit "objectClass", [lit "person"]); (lit "cn", [lit "bob"; lit "robert"]); (lit "SN", [lit "smith"])]).
Example C40_nonvacuous :
  dn_parts (o_dn bob_full) (lit "cn=bob") (lit "ou=people,dc=x") /\ plain_rdn (lit "cn=bob") (lit "cn") (lit "bob") /\
  plain_rdn (lit "cn=bobby") (lit "cn") (lit "bobby") /\ dict_ok dlower (o_attrs bob_full) /\
  (exists e, sview dlower ex_dir bob = Some e /\ mirrors dlower (o_attrs bob_full) e) /\
  (let '(s', o', r) := obj_move dsv dlower ex_idx false ex_dir bob_full (lit "cn=bobby,ou=staff,dc=x") true in
   r = Ok tt /\ o_dn o' = lit "cn=bobby,ou=staff,dc=x" /\ cid_get dlower (o_attrs o') (lit "CN") = Ok [lit "robert"; lit "bobby"] /\
   at_dir s' (lit "cn=bobby,ou=staff,dc=x") (lit "cn") = [lit "robert"; lit "bobby"] /\ sview dlower s' bob = None) /\
  (let '(s', o', r) := obj_rename dsv dlower ex_idx false ex_dir bob_full (lit "sn=smith") false in
   r = Ok tt /\ o_dn o' = lit "sn=smith,ou=people,dc=x" /\ at_dir s' (lit "sn=smith,ou=people,dc=x") (lit "cn") = [lit "bob"; lit "robert"]) /\
  dn_parts (lit "cn=a\,b,dc=x") (lit "cn=a\,b") (lit "dc=x") /\
  (let '(s', r) := ldap_move dsv false ex_dir bob (lit "cn=a\,b,dc=x") false in
   r = Ok tt /\ at_dir s' (lit "cn=a\,b,dc=x") (lit "sn") = [lit "smith"]).
Proof.
  assert (Pl : forall s a v, s = a ++ lit "=" ++ v -> (if in_dec N.eq_dec (ch "=") a then false else true) = true ->
     forallb (fun c => negb (existsb (N.eqb c) (lit ",+""\;<>"))) s = true -> plain_rdn s a v).
  { intros s a v E1 E2 E3. split; [exact E1|]. split; [destruct (in_dec N.eq_dec (ch "=") a); [discriminate|assumption]|].
    intros c Hc Hin. rewrite forallb_forall in E3. specialize (E3 c Hc). apply negb_true_iff in E3. rewrite <- not_true_iff_false in E3. apply E3.
    apply existsb_exists. exists c. split; [exact Hin|apply N.eqb_refl]. }
  split; [split; [reflexivity|repeat (apply rdn_char; [discriminate|discriminate|]); apply rdn_nil]|].
  split; [apply Pl; reflexivity|]. split; [apply Pl; reflexivity|]. split; [apply update_ok, empty_ok|]. split.
  - eexists. split; [reflexivity|]. intros k. unfold cid_get.
    change (ckeys (o_attrs bob_full)) with [(lit "objectclass", lit "objectClass"); (lit "cn", lit "cn"); (lit "sn", lit "SN")].
    change (cdata (o_attrs bob_full)) with [(lit "objectClass", [lit "person"]); (lit "cn", [lit "bob"; lit "robert"]); (lit "SN", [lit "smith"])].
    cbn [eview dget].
    change (dlower (lit "objectClass")) with (lit "objectclass"). change (dlower (lit "cn")) with (lit "cn"). change (dlower (lit "SN")) with (lit "sn").
    destruct (str_eqb (lit "objectclass") (dlower k)); [reflexivity|]. destruct (str_eqb (lit "cn") (dlower k)); [reflexivity|].
    destruct (str_eqb (lit "sn") (dlower k)); reflexivity.
  - split; [vm_compute; repeat split|]. split; [vm_compute; repeat split|]. split; [|vm_compute; repeat split].
    split; [reflexivity|]. repeat (first [apply rdn_nil | apply rdn_pair | apply rdn_char; [discriminate|discriminate|]]).
Qed.

(** C40, refuted: an RDN whose value ends in an escaped backslash is not split off by LDAP.move; here
    ValueError (with a longer parent, part of it would be taken for the RDN). *)
Theorem C40_move_refuted_backslash :
  dn_parts (lit "cn=a\\,dc=x") (lit "cn=a\\") (lit "dc=x") /\
  ldap_move dsv false ex_dir bob (lit "cn=a\\,dc=x") true = (ex_dir, Raise ValueError) /\
  (forall (S : Type) (sv : server S) s dn, ldap_move sv false s dn (lit "cn=a\\,ou=y,dc=x") true =
                       ldap_mod_dn sv false s dn (lit "cn=a\\,ou=y") true (Some (lit "dc=x"))).
Proof.
  split; [split; [reflexivity|repeat (first [apply rdn_nil | apply rdn_pair | apply rdn_char; [discriminate|discriminate|]])]|].
  split; reflexivity.
Qed.
Print Assumptions C40_move_refuted_backslash.

(** C40, refuted: on an object whose RDN contains an escaped comma, rename() (which is to keep the parent)
    asks every server to move the entry below "b,dc=x", and on success takes that for its new DN. *)
Theorem C40_rename_refuted_escaped_comma (S : Type) (sv : server S) (s s' : S) (d : attrs) :
  dn_parts (lit "cn=a\,b,dc=x") (lit "cn=a\,b") (lit "dc=x") /\
  (sv_moddn sv s (lit "cn=a\,b,dc=x") (lit "cn=c") false (Some (lit "b,dc=x")) = (s', true) ->
   exists d' r, obj_rename sv dlower ex_idx false s (mk_lobj (lit "cn=a\,b,dc=x") d) (lit "cn=c") false =
     (s', mk_lobj (match r with Ok _ => lit "cn=c,b,dc=x" | Raise _ => lit "cn=a\,b,dc=x" end) d', r)) /\
  (sv_moddn sv s (lit "cn=a\,b,dc=x") (lit "cn=c") false (Some (lit "b,dc=x")) = (s', false) ->
   obj_rename sv dlower ex_idx false s (mk_lobj (lit "cn=a\,b,dc=x") d) (lit "cn=c") false =
     (s', mk_lobj (lit "cn=a\,b,dc=x") d, Raise LDAPError)).
Proof.
  split; [split; [reflexivity|repeat (first [apply rdn_nil | apply rdn_pair | apply rdn_char; [discriminate|discriminate|]])]|].
  unfold obj_rename, obj_mod_dn. cbn [o_dn o_attrs].
  change (split1 (ch ",") (lit "cn=a\,b,dc=x")) with (Ok (lit "cn=a\", lit "b,dc=x")). cbv zeta. unfold ldap_mod_dn.
  split; intros ->; cbn [success]; [|reflexivity].
  destruct (local_rename dlower ex_idx d (lit "cn=a\") (lit "cn=c") false) as [d' [[]|x]].
  - exists d', (Ok tt). reflexivity.
  - exists d', (Raise x). reflexivity.
Qed.
Print Assumptions C40_rename_refuted_escaped_comma.

(** C40, refuted: after a rename to a multi-valued RDN the object shows a value no entry has (the server
    would have cn=a and sn=b); after a rename of an object fetched without its naming attribute the object
    shows one value where the entry has two, and will not fetch the rest (the attribute is not missing);
    a one-component DN cannot be renamed at all. *)
Theorem C40_rename_refuted_local (S : Type) (sv : server S) (s s' : S) :
  (sv_moddn sv s bob (lit "cn=a+sn=b") true (Some (lit "ou=people,dc=x")) = (s', true) ->
   let '(_, o', r) := obj_rename sv dlower ex_idx false s bob_part (lit "cn=a+sn=b") true in
   r = Ok tt /\ cid_get dlower (o_attrs o') (lit "cn") = Ok [lit "a+sn=b"] /\ cid_get dlower (o_attrs o') (lit "sn") = Ok [lit "smith"]) /\
  (let '(d', o', r) := obj_rename dsv dlower ex_idx false ex_dir bob_part (lit "cn=bobby") true in
   r = Ok tt /\ cid_get dlower (o_attrs o') (lit "cn") = Ok [lit "bobby"] /\ at_dir d' (o_dn o') (lit "cn") = [lit "robert"; lit "bobby"] /\
   obj_refresh_missing dsv dlower false d' o' [lit "cn"] = (o', Ok tt)) /\
  obj_rename sv dlower ex_idx false s (mk_lobj (lit "dc=x") (o_attrs bob_part)) (lit "dc=y") true =
    (s, mk_lobj (lit "dc=x") (o_attrs bob_part), Raise ValueError).
Proof.
  split; [|split; [vm_compute; repeat split|reflexivity]].
  intros H. unfold obj_rename, obj_mod_dn. change (split1 (ch ",") (o_dn bob_part)) with (Ok (lit "cn=bob", lit "ou=people,dc=x")).
  cbv zeta. unfold ldap_mod_dn. change (o_dn bob_part) with bob. rewrite H. cbn [success]. vm_compute. repeat split.
Qed.
Print Assumptions C40_rename_refuted_local.

Example C60_nonvacuous :
  ldap_compare dsv false ex_dir bob (lit "cn") (lit "robert") = Ok true /\
  ldap_compare dsv false ex_dir bob (lit "cn") (lit "rob") = Ok false /\
  ldap_compare dsv false ex_dir (lit "cn=nobody") (lit "cn") (lit "rob") = Raise LDAPError /\
  (let '(s', o', r) := obj_delete dsv false ex_dir bob_full in r = Ok tt /\ o' = None /\ sview dlower s' bob = None /\ sview dlower s' (lit "ou=staff,dc=x") <> None) /\
  obj_delete dsv false ex_dir (mk_lobj (lit "cn=nobody") cid_empty) = (ex_dir, Some (mk_lobj (lit "cn=nobody") cid_empty), Raise LDAPError).
Proof. vm_compute. repeat split; discriminate. Qed.
