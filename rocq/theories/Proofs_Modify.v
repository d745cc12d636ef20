From Verif Require Import PyBase Model_CIDict Spec_CIDict Proofs_CIDict Model_Modify Spec_Modify.

(** ** Value lookup *)
Lemma index_loop_ok t a : forall l k i,
  index_loop t l a k = Ok i ->
  k <= i /\
  (exists x p, nth_error l (i - k) = Some x /\ at_prepare t x = Ok p /\ at_do_match t p a = Ok true) /\
  (forall j y, j < i - k -> nth_error l j = Some y ->
     exists p, at_prepare t y = Ok p /\ at_do_match t p a = Ok false).
Proof.
  induction l as [|x l IH]; simpl; intros k i H; [discriminate|].
  destruct (at_prepare t x) as [p|e] eqn:Ep; simpl in H; [|discriminate].
  destruct (at_do_match t p a) as [[|]|e] eqn:Em; simpl in H; try discriminate.
  - injection H as <-. split; [lia|]. rewrite Nat.sub_diag. split.
    + exists x, p; auto.
    + intros j y Hj; lia.
  - apply IH in H as [Hle [Hx Hbefore]]. split; [lia|].
    replace (i - k) with (S (i - S k)) by lia. split; [exact Hx|].
    intros [|j] y Hj Hy; simpl in Hy.
    + injection Hy as <-; eauto.
    + apply (Hbefore j); auto; lia.
Qed.

Lemma index_loop_complete t a : forall l k i,
  (exists x p, nth_error l i = Some x /\ at_prepare t x = Ok p /\ at_do_match t p a = Ok true) ->
  (forall j y, j < i -> nth_error l j = Some y ->
     exists p, at_prepare t y = Ok p /\ at_do_match t p a = Ok false) ->
  index_loop t l a k = Ok (k + i).
Proof.
  induction l as [|x l IH]; simpl; intros k i [x' [p' [Hn [Hp Hm]]]] Hb.
  - destruct i; discriminate.
  - destruct i as [|i]; simpl in Hn.
    + injection Hn as <-. rewrite Hp; simpl; rewrite Hm; simpl. f_equal; lia.
    + destruct (Hb 0 x) as [p [Hpx Hmx]]; [lia|reflexivity|].
      rewrite Hpx; simpl; rewrite Hmx; simpl.
      rewrite (IH (S k) i); [f_equal; lia|eauto|].
      intros j y Hj Hy; apply (Hb (S j)); auto; lia.
Qed.

Lemma at_index_ok_iff t l v i :
  at_index t l v = Ok i <->
  at_validate t v = Ok tt /\
  exists a, at_prepare t v = Ok a /\
    (exists x p, nth_error l i = Some x /\ at_prepare t x = Ok p /\ at_do_match t p a = Ok true) /\
    (forall j y, j < i -> nth_error l j = Some y ->
       exists p, at_prepare t y = Ok p /\ at_do_match t p a = Ok false).
Proof.
  unfold at_index. split.
  - destruct l as [|x l]; [discriminate|].
    destruct (at_validate t v) as [[]|e] eqn:Ev; [|discriminate].
    cbn [bind]. destruct (at_prepare t v) as [a|e] eqn:Ep; [|discriminate].
    cbn [bind]. intros H. apply index_loop_ok in H as [_ H]. rewrite Nat.sub_0_r in H.
    split; auto. exists a; split; auto.
  - intros [Hv [a [Ha [Hx Hb]]]].
    destruct l as [|x l]; [destruct Hx as [? [? [Hn _]]]; destruct i; discriminate|].
    rewrite Hv; cbn [bind]. rewrite Ha; cbn [bind].
    apply (index_loop_complete t a (x :: l) 0 i); auto.
Qed.

Lemma index_loop_notfound t a : forall l k,
  (forall y, In y l -> exists p, at_prepare t y = Ok p /\ at_do_match t p a = Ok false) ->
  index_loop t l a k = Raise ValueError.
Proof.
  induction l as [|x l IH]; simpl; intros k H; auto.
  destruct (H x) as [p [Hp Hm]]; auto. rewrite Hp; simpl; rewrite Hm; simpl; auto.
Qed.

Lemma index_loop_ve t a : never_value_error t -> forall l k,
  index_loop t l a k = Raise ValueError ->
  (forall y, In y l -> exists p, at_prepare t y = Ok p /\ at_do_match t p a = Ok false).
Proof.
  intros [Hv [Hp Hm]]; induction l as [|x l IH]; simpl; intros k H y Hy; [contradiction|].
  destruct (at_prepare t x) as [p|e] eqn:Ep; simpl in H.
  - destruct (at_do_match t p a) as [[|]|e] eqn:Em; simpl in H; try discriminate.
    + destruct Hy as [<-|Hy]; eauto.
    + exfalso. injection H as ->. eapply Hm; eauto.
  - exfalso. injection H as ->. eapply Hp; eauto.
Qed.

Lemma at_index_ve_iff t l v : never_value_error t ->
  at_index t l v = Raise ValueError <->
  l = [] \/
  (at_validate t v = Ok tt /\ exists a, at_prepare t v = Ok a /\
     forall y, In y l -> exists p, at_prepare t y = Ok p /\ at_do_match t p a = Ok false).
Proof.
  intros Ht; unfold at_index; split.
  - destruct l as [|x l]; auto. intros H; right.
    destruct (at_validate t v) as [[]|e] eqn:Ev.
    2:{ exfalso; injection H as ->. destruct Ht as [Hv _]; eapply Hv; eauto. }
    cbn [bind] in H. destruct (at_prepare t v) as [a|e] eqn:Ep.
    2:{ exfalso; injection H as ->. destruct Ht as [_ [Hp _]]; eapply Hp; eauto. }
    cbn [bind] in H. split; auto; exists a; split; auto.
    eapply index_loop_ve; eauto.
  - intros [->|[Hv [a [Ha Hn]]]]; auto.
    destruct l; auto. rewrite Hv; cbn [bind]; rewrite Ha; cbn [bind].
    now apply index_loop_notfound.
Qed.

Lemma list_index_from_ok v : forall l k i,
  list_index_from l v k = Ok i <-> k <= i /\ first_at (eq v) l (i - k).
Proof.
  induction l as [|x l IH]; intros k i; simpl.
  - split; [discriminate|]. intros [_ [[x [Hx _]] _]]. destruct (i - k); discriminate.
  - destruct (str_eqb_spec x v) as [->|Hn].
    + split.
      * intros H; injection H as <-; split; [lia|]. rewrite Nat.sub_diag. split.
        -- exists v; auto.
        -- intros j y Hj; lia.
      * intros [Hle [_ Hb]]. destruct (i - k) as [|n] eqn:E; [f_equal; lia|].
        exfalso; apply (Hb 0 v); auto; lia.
    + rewrite IH. split.
      * intros [Hle [[y [Hy Hv]] Hb]]. split; [lia|].
        replace (i - k) with (S (i - S k)) by lia. split; [exists y; auto|].
        intros [|j] z Hj Hz; simpl in Hz; [injection Hz as <-; auto|].
        apply (Hb j); auto; lia.
      * intros [Hle [[y [Hy Hv]] Hb]].
        destruct (i - k) as [|n] eqn:E; simpl in Hy; [congruence|].
        split; [lia|]. replace (i - S k) with n by lia. split; [exists y; auto|].
        intros j z Hj Hz. apply (Hb (S j)); auto; lia.
Qed.

Lemma list_index_ok_iff l v i : list_index l v = Ok i <-> first_at (eq v) l i.
Proof.
  unfold list_index; rewrite list_index_from_ok, Nat.sub_0_r.
  split; [tauto|]. split; auto; lia.
Qed.

Lemma list_index_from_err v : forall l k, ~ In v l ->
  list_index_from l v k = Raise ValueError.
Proof.
  induction l as [|x l IH]; simpl; intros k H; auto.
  destruct (str_eqb_spec x v); [tauto|auto].
Qed.

Lemma list_index_total v l : (exists i, list_index l v = Ok i /\ In v l) \/
  (list_index l v = Raise ValueError /\ ~ In v l).
Proof.
  unfold list_index. generalize 0. induction l as [|x l IH]; simpl; intros k; auto.
  destruct (str_eqb_spec x v) as [->|Hn]; [left; exists k; auto|].
  destruct (IH (S k)) as [[i [Hi Hin]]|[He Hni]]; [left; exists i; auto|right; tauto].
Qed.

(** AttrValueList *)
Lemma del_nth_split {A} : forall (l : list A) i x,
  nth_error l i = Some x ->
  exists pre post, l = pre ++ x :: post /\ List.length pre = i /\ del_nth l i = pre ++ post.
Proof.
  induction l as [|y l IH]; intros [|i] x H; simpl in H; try discriminate.
  - injection H as <-; exists [], l; auto.
  - destruct (IH i x H) as [pre [post [-> [Hl Hd]]]].
    exists (y :: pre), post; simpl; rewrite Hd, Hl; auto.
Qed.

Lemma avl_consistent (idx : list str -> str -> res nat) l v :
  (forall i, idx l v = Ok i -> exists x, nth_error l i = Some x) ->
  (forall i, idx l v = Ok i ->
     avl_contains idx l v = Ok true /\ avl_count idx l v = Ok 1 /\
     exists pre x post, l = pre ++ x :: post /\ List.length pre = i /\
       avl_remove idx l v = Ok (pre ++ post)) /\
  (idx l v = Raise ValueError ->
     avl_contains idx l v = Ok false /\ avl_count idx l v = Ok 0 /\
     avl_remove idx l v = Raise ValueError) /\
  (forall e, e <> ValueError -> idx l v = Raise e ->
     avl_contains idx l v = Raise e /\ avl_count idx l v = Raise e /\
     avl_remove idx l v = Raise e).
Proof.
  intros Hb; unfold avl_contains, avl_count, avl_remove; repeat split.
  - rewrite H; auto.
  - rewrite H; auto.
  - destruct (Hb i H) as [x Hx]. destruct (del_nth_split l i x Hx) as [pre [post [H1 [H2 H3]]]].
    exists pre, x, post. rewrite H; simpl; rewrite H3; auto.
  - rewrite H; auto.
  - rewrite H; auto.
  - rewrite H; auto.
  - rewrite H0; destruct e; congruence.
  - rewrite H0; destruct e; congruence.
  - rewrite H0; reflexivity.
Qed.

(** ** dict_ok and lookups after each primitive *)
Section D.
  Variable lower : str -> str.
  Context {V : Type}.
  Implicit Types (d : cid V) (k : str) (v : V).

  Definition view d : smap V := fun l => match dget (ckeys d) l with
                    | None => None | Some k => dget (cdata d) k end.

  Lemma ok_Rel d : dict_ok lower d -> Rel lower d (view d).
  Proof. intros H; split; auto. Qed.

  Lemma dict_ok_reachable (os : list (cid_op V)) :
    dict_ok lower (fst (cid_run lower cid_empty os)).
  Proof. exact (proj1 (proj1 (Rel_run lower os cid_empty smap_empty (Rel_empty lower)))). Qed.

  Lemma get_set d k v k2 : dict_ok lower d ->
    cid_get lower (cid_set lower d k v) k2 =
    if str_eqb (lower k) (lower k2) then Ok v else cid_get lower d k2.
  Proof.
    intros H. pose proof (ok_Rel d H) as HR.
    rewrite (Rel_get lower _ _ k2 (Rel_set lower d _ k v HR)).
    unfold spec_get, smap_put. rewrite str_eqb_sym.
    destruct (str_eqb (lower k) (lower k2)); auto.
    symmetry; apply (Rel_get lower d _ k2 HR).
  Qed.

  Lemma ok_set d k v : dict_ok lower d -> dict_ok lower (cid_set lower d k v).
  Proof. intros H. apply (Rel_set lower d _ k v (ok_Rel d H)). Qed.

  Lemma del_present d k v : dict_ok lower d -> cid_get lower d k = Ok v ->
    exists d', cid_del lower d k = (d', Ok tt) /\ dict_ok lower d' /\
      forall k2, cid_get lower d' k2 =
        if str_eqb (lower k) (lower k2) then Raise KeyError else cid_get lower d k2.
  Proof.
    intros H Hg. pose proof (ok_Rel d H) as HR.
    pose proof (Rel_del lower d _ k HR) as Hd.
    destruct (cid_del lower d k) as [d' r]. simpl in Hd.
    rewrite (Rel_get lower d _ k HR) in Hg. unfold spec_get in Hg.
    destruct (view d (lower k)) as [v'|] eqn:Ev; [|discriminate].
    destruct Hd as [HR' Hr]. exists d'. injection Hr as ->. split; auto. split; [apply HR'|].
    intros k2. rewrite (Rel_get lower d' _ k2 HR'), (Rel_get lower d _ k2 HR).
    unfold spec_get, smap_put. rewrite str_eqb_sym.
    destruct (str_eqb (lower k) (lower k2)); auto.
  Qed.

  Lemma inplace d a k v : dict_ok lower d -> dget (ckeys d) (lower a) = Some k ->
    dict_ok lower (mkcid (ckeys d) (dset (cdata d) k v)) /\
    forall k2, cid_get lower (mkcid (ckeys d) (dset (cdata d) k v)) k2 =
      if str_eqb (lower a) (lower k2) then Ok v else cid_get lower d k2.
  Proof.
    intros [H1 [H2 H3]] Hk. split.
    - split; [|split]; simpl; auto.
      + now apply dset_NoDup.
      + intros l k2 Hl. destruct (H3 _ _ Hl) as [He [v' Hv]]; split; auto.
        rewrite dget_dset. destruct (str_eqb k k2); eauto.
    - intros k2; unfold cid_get; simpl.
      destruct (str_eqb_spec (lower a) (lower k2)) as [He|Hn].
      + rewrite <- He, Hk, dget_dset_eq; auto.
      + destruct (dget (ckeys d) (lower k2)) as [k'|] eqn:E; auto.
        destruct (H3 _ _ Hk), (H3 _ _ E). rewrite dget_dset_neq; auto. congruence.
  Qed.

  Lemma get_key d a v : cid_get lower d a = Ok v ->
    exists k, dget (ckeys d) (lower a) = Some k /\ dget (cdata d) k = Some v.
  Proof.
    unfold cid_get. destruct (dget (ckeys d) (lower a)) as [k|]; [|discriminate].
    destruct (dget (cdata d) k) eqn:E; [|discriminate]. intros H; injection H as <-; eauto.
  Qed.

  Lemma get_err d a e : cid_get lower d a = Raise e -> e = KeyError.
  Proof.
    unfold cid_get. destruct (dget (ckeys d) (lower a)) as [k|]; [|congruence].
    destruct (dget (cdata d) k); congruence.
  Qed.
End D.

(** ** AddModlist / DeleteModlist *)
Section M.
  Variable lower : str -> str.
  Variable idx : str -> list str -> str -> res nat.
  Implicit Types (cur : attrs).

  Notation cur_vals := (cur_vals lower).
  Notation has_value := (has_value lower idx).
  Notation adds_for := (adds_for lower idx).
  Notation deletes_for := (deletes_for lower idx).

  Lemma ahas_iff cur a : ahas lower cur a = match cur_vals cur a with [] => false | _ => true end.
  Proof.
    unfold ahas, Spec_Modify.cur_vals. destruct (cid_get lower cur a) as [[|x l]|e]; auto.
  Qed.

  Lemma get_cur_vals cur a : cur_vals cur a <> [] -> cid_get lower cur a = Ok (cur_vals cur a).
  Proof. unfold Spec_Modify.cur_vals. destruct (cid_get lower cur a); congruence. Qed.

  Definition entries (f : str * vals -> list (str * vals)) := flat_map f.

  (* what one attribute contributes to the dict add_attrs *)
  Definition add_entry cur (av : str * vals) : list (str * vals) :=
    match cur_vals cur (fst av), snd av with
    | [], v => [(fst av, v)]
    | _, VList l => match filter (fun v => negb (has_value cur (fst av) v)) l with
                    | [] => [] | l' => [(fst av, VList l')] end
    | _, VDeleteAll => []
    end.

  Definition put_opt (acc : list (str * vals)) (a : str) (l : list str) : list (str * vals) :=
    match l with [] => acc | _ => acc ++ [(a, VList l)] end.

  Lemma dget_app_new {V} (acc : list (str * V)) a v :
    ~ In a (map fst acc) -> dget (acc ++ [(a, v)]) a = Some v.
  Proof.
    induction acc as [|[k w] acc IH]; simpl; intros H.
    - now rewrite str_eqb_refl.
    - destruct (str_eqb_spec k a); [tauto|auto].
  Qed.

  Lemma dset_app_new {V} (acc : list (str * V)) a v w :
    ~ In a (map fst acc) -> dset (acc ++ [(a, v)]) a w = acc ++ [(a, w)].
  Proof.
    induction acc as [|[k u] acc IH]; simpl; intros H.
    - now rewrite str_eqb_refl.
    - destruct (str_eqb_spec k a); [tauto|]. rewrite IH; auto.
  Qed.

  Lemma dset_new {V} (acc : list (str * V)) a v :
    ~ In a (map fst acc) -> dset acc a v = acc ++ [(a, v)].
  Proof.
    induction acc as [|[k u] acc IH]; simpl; intros H; auto.
    destruct (str_eqb_spec k a); [tauto|]. rewrite IH; auto.
  Qed.

  Lemma append_step acc a l v : ~ In a (map fst acc) ->
    let acc0 := put_opt acc a l in
    let acc1 := if dmem acc0 a then acc0 else dset acc0 a (VList []) in
    match dget acc1 a with
    | Some (VList l) => dset acc1 a (VList (l ++ [v]))
    | _ => acc1
    end = put_opt acc a (l ++ [v]).
  Proof.
    intros Hn; cbv zeta. unfold dmem. destruct l as [|x l]; simpl put_opt.
    - pose proof Hn as Hn'. apply dget_None in Hn. rewrite Hn.
      rewrite dset_new by auto. rewrite dget_app_new by auto. simpl.
      now rewrite dset_app_new.
    - rewrite dget_app_new by auto. rewrite dget_app_new by auto.
      now rewrite dset_app_new.
  Qed.

  Lemma add_vals_spec cur a : cur_vals cur a <> [] -> forall vs acc l r,
    ~ In a (map fst acc) ->
    add_vals lower idx cur a vs (put_opt acc a l) = Ok r ->
    r = put_opt acc a (l ++ filter (fun v => negb (has_value cur a v)) vs).
  Proof.
    intros Hc; induction vs as [|v vs IH]; intros acc l r Hn H.
    - simpl in *. rewrite app_nil_r. congruence.
    - cbn [add_vals] in H. rewrite (get_cur_vals cur a Hc) in H. cbn [bind] in H.
      cbn [filter]. unfold Spec_Modify.has_value at 1.
      destruct (idx a (cur_vals cur a) v) as [i|e] eqn:Ei.
      + cbn [negb]. eapply IH; eauto.
      + destruct e; try discriminate.
        rewrite (append_step acc a l v Hn) in H.
        apply IH in H; auto. cbn [negb]. rewrite H, <- app_assoc. reflexivity.
  Qed.

  Lemma put_opt_nil acc a : put_opt acc a [] = acc. Proof. reflexivity. Qed.

  Lemma add_dict_spec cur : forall new acc r,
    NoDup (map fst new) -> (forall k, In k (map fst new) -> ~ In k (map fst acc)) ->
    add_attrs_dict lower idx cur new acc = Ok r ->
    r = acc ++ flat_map (add_entry cur) new.
  Proof.
    induction new as [|[a v] new IH]; intros acc r Hnd Hdis H.
    - simpl in *. rewrite app_nil_r; congruence.
    - cbn [add_attrs_dict] in H. rewrite ahas_iff in H. cbn [flat_map].
      inversion Hnd as [|? ? Hni Hnd']; subst.
      assert (Ha : ~ In a (map fst acc)) by (apply Hdis; left; auto).
      unfold add_entry at 1; cbn [fst snd].
      destruct (cur_vals cur a) as [|c cs] eqn:Ec.
      + rewrite dset_new in H by auto. apply IH in H; auto.
        * rewrite H, <- app_assoc; reflexivity.
        * intros k Hk; rewrite map_app, in_app_iff; intros [Hc|[Hc|[]]].
          -- apply (Hdis k); auto; right; auto.
          -- simpl in Hc; subst; auto.
      + assert (Hc : cur_vals cur a <> []) by (rewrite Ec; discriminate).
        destruct v as [l|]; [|discriminate].
        destruct (add_vals lower idx cur a l acc) as [acc'|e] eqn:Ev; [|discriminate].
        cbn [bind] in H. rewrite <- (put_opt_nil acc a) in Ev.
        apply add_vals_spec in Ev; auto. simpl app in Ev.
        apply IH in H; auto.
        * rewrite H, Ev. destruct (filter _ l) as [|x xs]; simpl; auto.
          rewrite <- app_assoc; reflexivity.
        * intros k Hk. assert (Hk1 : ~ In k (map fst acc)) by (apply Hdis; right; auto).
          rewrite Ev. destruct (filter _ l); simpl; auto.
          rewrite map_app, in_app_iff; intros [Hi|[Hi|[]]]; auto.
          simpl in Hi; subst; auto.
  Qed.

  Lemma modlist_map op : forall d r, modlist op d = Ok r ->
    r = map (fun av => mkmod op (fst av) (snd av)) d /\
    (op = ADD -> forall a v, In (a, v) d -> vlen v <> 0).
  Proof.
    induction d as [|[a v] d IH]; simpl; intros r H.
    - injection H as <-; split; [reflexivity|intros _ a v []].
    - unfold new_mod in H.
      destruct (mop_eqb op ADD && Nat.eqb (vlen v) 0) eqn:E; [discriminate|]; cbn [bind] in H.
      destruct (modlist op d) as [r'|e] eqn:Em; [|discriminate]. cbn [bind] in H.
      injection H as <-. destruct (IH r' eq_refl) as [-> Hne]. split; auto.
      intros -> a' v' [He|Hi]; [|eauto]. injection He as <- <-.
      simpl in E. now apply Nat.eqb_neq in E.
  Qed.

  Lemma modlist_ok op d : (op = ADD -> forall a v, In (a, v) d -> vlen v <> 0) ->
    modlist op d = Ok (map (fun av => mkmod op (fst av) (snd av)) d).
  Proof.
    induction d as [|[a v] d IH]; simpl; intros H; auto.
    unfold new_mod. replace (mop_eqb op ADD && Nat.eqb (vlen v) 0) with false.
    - cbn [bind]. rewrite IH; auto. intros Ho a' v' Hi; eapply H; eauto.
    - symmetry. destruct op; auto. simpl. apply Nat.eqb_neq. eapply H; eauto.
  Qed.

  Lemma adds_entry_mods cur new :
    map (fun av => mkmod ADD (fst av) (snd av)) (flat_map (add_entry cur) new) =
    flat_map (adds_for cur) new.
  Proof.
    induction new as [|[a v] new IH]; simpl; auto.
    rewrite map_app, IH. f_equal.
    unfold add_entry, Spec_Modify.adds_for; simpl.
    destruct (cur_vals cur a); simpl; auto.
    destruct v; simpl; auto. destruct (filter _ l0); auto.
  Qed.

  Lemma add_modlist_exact cur new ms :
    NoDup (map fst new) -> add_modlist lower idx cur new = Ok ms ->
    ms = flat_map (adds_for cur) new.
  Proof.
    unfold add_modlist; intros Hn H.
    destruct (add_attrs_dict lower idx cur new []) as [d|e] eqn:E; [|discriminate].
    cbn [bind] in H. apply add_dict_spec in E; auto. subst d.
    apply modlist_map in H as [-> _]. apply adds_entry_mods.
  Qed.

  Lemma add_vals_ok cur a : cur_vals cur a <> [] -> forall vs acc,
    (forall v, In v vs -> (exists i, idx a (cur_vals cur a) v = Ok i) \/
                          idx a (cur_vals cur a) v = Raise ValueError) ->
    exists r, add_vals lower idx cur a vs acc = Ok r.
  Proof.
    intros Hc; induction vs as [|v vs IH]; intros acc H; [simpl; eauto|].
    cbn [add_vals]. rewrite (get_cur_vals cur a Hc). cbn [bind].
    destruct (H v) as [[i Hi]|Hi]; [left; auto| |]; rewrite Hi;
      (apply IH; intros w Hw; apply H; right; exact Hw).
  Qed.

  Lemma add_dict_ok cur : forall new acc,
    lookups_clean lower idx cur new ->
    (forall a, In (a, VDeleteAll) new -> cur_vals cur a = []) ->
    exists r, add_attrs_dict lower idx cur new acc = Ok r.
  Proof.
    induction new as [|[a v] new IH]; intros acc Hcl Hda; [simpl; eauto|].
    cbn [add_attrs_dict]; rewrite ahas_iff.
    assert (Hcl' : lookups_clean lower idx cur new)
      by (intros a' l v' Hi; apply Hcl; right; auto).
    assert (Hda' : forall a, In (a, VDeleteAll) new -> cur_vals cur a = [])
      by (intros; apply Hda; right; auto).
    destruct (cur_vals cur a) as [|c cs] eqn:Ec; [apply IH; auto|].
    destruct v as [l|].
    - destruct (add_vals_ok cur a) with (vs := l) (acc := acc) as [acc' Ha].
      + rewrite Ec; discriminate.
      + intros v Hv; apply (Hcl a l v); [left; auto|rewrite Ec; discriminate|exact Hv].
      + rewrite Ha; cbn [bind]. apply IH; auto.
    - exfalso. rewrite (Hda a) in Ec; [discriminate|left; auto].
  Qed.

  Lemma add_modlist_total cur new :
    NoDup (map fst new) -> lookups_clean lower idx cur new ->
    (forall a v, In (a, v) new -> exists l, v = VList l /\ (cur_vals cur a = [] -> l <> [])) ->
    add_modlist lower idx cur new = Ok (flat_map (adds_for cur) new).
  Proof.
    intros Hn Hcl Hne. unfold add_modlist.
    destruct (add_dict_ok cur new [] Hcl) as [d Hd].
    { intros a Hi; destruct (Hne _ _ Hi) as [l [Hl _]]; discriminate. }
    rewrite Hd; cbn [bind]. apply add_dict_spec in Hd; auto. subst d. simpl app.
    rewrite modlist_ok; [f_equal; apply adds_entry_mods|].
    intros _ a v Hi. apply in_flat_map in Hi as [[a' v'] [Hin Hi]].
    destruct (Hne _ _ Hin) as [l [-> Hl]]. unfold add_entry in Hi; simpl in Hi.
    destruct (cur_vals cur a') eqn:Ec.
    - destruct Hi as [Hi|[]]. injection Hi as <- <-. specialize (Hl eq_refl).
      destruct l; simpl; congruence.
    - destruct (filter _ l); [contradiction|]. destruct Hi as [Hi|[]].
      injection Hi as <- <-; simpl; discriminate.
  Qed.

  (** Declarative corollary: exactly the missing values are sent. *)
  Lemma add_modlist_values cur new ms :
    NoDup (map fst new) -> add_modlist lower idx cur new = Ok ms ->
    (forall m, In m ms -> m_op m = ADD /\ vtrue (m_vals m) = true) /\
    (forall a v, (exists l, In (mkmod ADD a (VList l)) ms /\ In v l) <->
       (exists l, In (a, VList l) new /\ In v l /\ (cur_vals cur a = [] \/ has_value cur a v = false))).
  Proof.
    intros Hn H. assert (Hx : exists d, modlist ADD d = Ok ms).
    { unfold add_modlist in H. destruct (add_attrs_dict _ _ _ _ _); [eauto|discriminate]. }
    pose proof (add_modlist_exact _ _ _ Hn H) as He. split.
    - intros m Hm. destruct Hx as [d Hd]. apply modlist_map in Hd as [-> Hne].
      apply in_map_iff in Hm as [[a v] [<- Hi]]. simpl; split; auto.
      specialize (Hne eq_refl _ _ Hi). destruct v as [[|x l]|]; simpl in *; congruence.
    - intros a v; rewrite He; split.
      + intros [l [Hi Hv]]. apply in_flat_map in Hi as [[a' w] [Hin Hi]].
        unfold Spec_Modify.adds_for in Hi; simpl in Hi.
        destruct (cur_vals cur a') as [|c cs] eqn:Ec.
        * destruct Hi as [Hi|[]]. injection Hi as -> ->. exists l; auto.
        * destruct w as [lw|]; [|contradiction].
          destruct (filter _ lw) as [|x xs] eqn:Ef; [contradiction|].
          destruct Hi as [Hi|[]]. injection Hi as <- <-.
          rewrite <- Ef in Hv. apply filter_In in Hv as [Hv1 Hv2].
          exists lw; repeat split; auto. right. now apply negb_true_iff in Hv2.
      + intros [l [Hin [Hv Hc]]].
        destruct (cur_vals cur a) as [|c cs] eqn:Ec.
        * exists l; split; auto. apply in_flat_map; exists (a, VList l); split; auto.
          unfold Spec_Modify.adds_for; simpl; rewrite Ec; left; auto.
        * destruct Hc as [Hc|Hc]; [discriminate|].
          exists (filter (fun v => negb (has_value cur a v)) l).
          assert (Hf : In v (filter (fun v => negb (has_value cur a v)) l))
            by (apply filter_In; rewrite Hc; auto).
          split; auto. apply in_flat_map; exists (a, VList l); split; auto.
          unfold Spec_Modify.adds_for; simpl; rewrite Ec.
          destruct (filter _ l); [contradiction|left; auto].
  Qed.

  (** *** Delete *)
  Definition del_entry cur (av : str * vals) : list (str * vals) :=
    match cur_vals cur (fst av), snd av with
    | [], _ => []
    | _, VDeleteAll => [(fst av, VDeleteAll)]
    | _, VList [] => [(fst av, VList [])]
    | _, VList l => match filter (has_value cur (fst av)) l with
                    | [] => [] | l' => [(fst av, VList l')] end
    end.

  Lemma del_vals_spec cur a : cur_vals cur a <> [] -> forall vs acc l r,
    ~ In a (map fst acc) ->
    del_vals lower idx cur a vs (put_opt acc a l) = Ok r ->
    r = put_opt acc a (l ++ filter (has_value cur a) vs).
  Proof.
    intros Hc; induction vs as [|v vs IH]; intros acc l r Hn H.
    - simpl in *. rewrite app_nil_r. congruence.
    - cbn [del_vals] in H. rewrite (get_cur_vals cur a Hc) in H. cbn [bind] in H.
      cbn [filter]. unfold Spec_Modify.has_value at 1.
      destruct (idx a (cur_vals cur a) v) as [i|e] eqn:Ei.
      + rewrite (append_step acc a l v Hn) in H.
        apply IH in H; auto. rewrite H, <- app_assoc. reflexivity.
      + destruct e; try discriminate. eapply IH; eauto.
  Qed.

  Lemma del_dict_spec cur : forall new acc r,
    NoDup (map fst new) -> (forall k, In k (map fst new) -> ~ In k (map fst acc)) ->
    del_attrs_dict lower idx cur new acc = Ok r ->
    r = acc ++ flat_map (del_entry cur) new.
  Proof.
    induction new as [|[a v] new IH]; intros acc r Hnd Hdis H.
    - simpl in *. rewrite app_nil_r; congruence.
    - cbn [del_attrs_dict] in H. rewrite ahas_iff in H. cbn [flat_map].
      inversion Hnd as [|? ? Hni Hnd']; subst.
      assert (Ha : ~ In a (map fst acc)) by (apply Hdis; left; auto).
      assert (Hdis' : forall k, In k (map fst new) -> ~ In k (map fst acc))
        by (intros; apply Hdis; right; auto).
      unfold del_entry at 1; cbn [fst snd].
      destruct (cur_vals cur a) as [|c cs] eqn:Ec.
      + apply IH in H; auto.
      + assert (Hc : cur_vals cur a <> []) by (rewrite Ec; discriminate).
        assert (Hset : forall w, del_attrs_dict lower idx cur new (dset acc a w) = Ok r ->
                  r = acc ++ [(a, w)] ++ flat_map (del_entry cur) new).
        { intros w Hw. rewrite dset_new in Hw by auto. apply IH in Hw; auto.
          - rewrite Hw, <- app_assoc; reflexivity.
          - intros k Hk; rewrite map_app, in_app_iff; intros [Hi|[Hi|[]]].
            + apply (Hdis' k); auto.
            + simpl in Hi; subst; auto. }
        destruct v as [[|x l]|].
        * apply Hset in H. exact H.
        * destruct (del_vals lower idx cur a (x :: l) acc) as [acc'|e] eqn:Ev; [|discriminate].
          cbn [bind] in H. rewrite <- (put_opt_nil acc a) in Ev.
          apply del_vals_spec in Ev; auto. rewrite app_nil_l in Ev.
          apply IH in H; auto.
          -- rewrite H, Ev. destruct (filter _ (x :: l)) as [|y ys]; simpl; auto.
             rewrite <- app_assoc; reflexivity.
          -- intros k Hk. rewrite Ev. destruct (filter _ (x :: l)); simpl; auto.
             rewrite map_app, in_app_iff; intros [Hi|[Hi|[]]].
             ++ apply (Hdis' k); auto.
             ++ simpl in Hi; subst; auto.
        * apply Hset in H. exact H.
  Qed.

  Lemma dels_entry_mods cur new :
    map (fun av => mkmod DELETE (fst av) (snd av)) (flat_map (del_entry cur) new) =
    flat_map (deletes_for cur) new.
  Proof.
    induction new as [|[a v] new IH]; simpl; auto.
    rewrite map_app, IH. f_equal.
    unfold del_entry, Spec_Modify.deletes_for; simpl.
    destruct (cur_vals cur a); simpl; auto.
    destruct v as [[|x l']|]; auto. destruct (filter _ (x :: l')); auto.
  Qed.

  Lemma del_modlist_exact cur new ms :
    NoDup (map fst new) -> delete_modlist lower idx cur new = Ok ms ->
    ms = flat_map (deletes_for cur) new.
  Proof.
    unfold delete_modlist; intros Hn H.
    destruct (del_attrs_dict lower idx cur new []) as [d|e] eqn:E; [|discriminate].
    cbn [bind] in H. apply del_dict_spec in E; auto. subst d.
    apply modlist_map in H as [-> _]. apply dels_entry_mods.
  Qed.

  Lemma del_vals_ok cur a : cur_vals cur a <> [] -> forall vs acc,
    (forall v, In v vs -> (exists i, idx a (cur_vals cur a) v = Ok i) \/
                          idx a (cur_vals cur a) v = Raise ValueError) ->
    exists r, del_vals lower idx cur a vs acc = Ok r.
  Proof.
    intros Hc; induction vs as [|v vs IH]; intros acc H; [simpl; eauto|].
    cbn [del_vals]. rewrite (get_cur_vals cur a Hc). cbn [bind].
    destruct (H v) as [[i Hi]|Hi]; [left; auto| |]; rewrite Hi;
      (apply IH; intros w Hw; apply H; right; exact Hw).
  Qed.

  Lemma del_dict_ok cur : forall new acc,
    lookups_clean lower idx cur new ->
    exists r, del_attrs_dict lower idx cur new acc = Ok r.
  Proof.
    induction new as [|[a v] new IH]; intros acc Hcl; [simpl; eauto|].
    cbn [del_attrs_dict]; rewrite ahas_iff.
    assert (Hcl' : lookups_clean lower idx cur new)
      by (intros a' l v' Hi; apply Hcl; right; auto).
    destruct (cur_vals cur a) as [|c cs] eqn:Ec; [apply IH; auto|].
    destruct v as [[|x l]|]; try (apply IH; auto; fail).
    destruct (del_vals_ok cur a) with (vs := x :: l) (acc := acc) as [acc' Ha].
    - rewrite Ec; discriminate.
    - intros v Hv; apply (Hcl a (x :: l) v); [left; auto|rewrite Ec; discriminate|exact Hv].
    - rewrite Ha; cbn [bind]. apply IH; auto.
  Qed.

  Lemma del_modlist_total cur new :
    NoDup (map fst new) -> lookups_clean lower idx cur new ->
    delete_modlist lower idx cur new = Ok (flat_map (deletes_for cur) new).
  Proof.
    intros Hn Hcl. unfold delete_modlist.
    destruct (del_dict_ok cur new [] Hcl) as [d Hd].
    rewrite Hd; cbn [bind]. apply del_dict_spec in Hd; auto. subst d. simpl app.
    rewrite modlist_ok; [f_equal; apply dels_entry_mods|discriminate].
  Qed.

  Lemma del_modlist_values cur new ms :
    NoDup (map fst new) -> delete_modlist lower idx cur new = Ok ms ->
    (forall m, In m ms -> m_op m = DELETE /\ cur_vals cur (m_attr m) <> []) /\
    (forall a v, (exists l, In (mkmod DELETE a (VList l)) ms /\ In v l) <->
       (exists l, In (a, VList l) new /\ In v l /\ cur_vals cur a <> [] /\ has_value cur a v = true)) /\
    (forall a, In (mkmod DELETE a VDeleteAll) ms <->
       In (a, VDeleteAll) new /\ cur_vals cur a <> []).
  Proof.
    intros Hn H. pose proof (del_modlist_exact _ _ _ Hn H) as ->. split; [|split].
    - intros m Hm. apply in_flat_map in Hm as [[a w] [Hin Hi]].
      unfold Spec_Modify.deletes_for in Hi; simpl in Hi.
      destruct (cur_vals cur a) as [|c cs] eqn:Ec; [contradiction|].
      assert (m = mkmod DELETE a (m_vals m)) as ->.
      { destruct w as [[|x l]|].
        - destruct Hi as [<-|[]]; auto.
        - destruct (filter _ (x :: l)); [contradiction|]. destruct Hi as [<-|[]]; auto.
        - destruct Hi as [<-|[]]; auto. }
      simpl; rewrite Ec; split; auto; discriminate.
    - intros a v; split.
      + intros [l [Hi Hv]]. apply in_flat_map in Hi as [[a' w] [Hin Hi]].
        unfold Spec_Modify.deletes_for in Hi; simpl in Hi.
        destruct (cur_vals cur a') as [|c cs] eqn:Ec; [contradiction|].
        destruct w as [[|x lw]|].
        * destruct Hi as [Hi|[]]. injection Hi as <- <-; contradiction.
        * destruct (filter _ (x :: lw)) as [|y ys] eqn:Ef; [contradiction|].
          destruct Hi as [Hi|[]]. injection Hi as <- <-.
          rewrite <- Ef in Hv. apply filter_In in Hv as [Hv1 Hv2].
          exists (x :: lw); repeat split; auto. congruence.
        * destruct Hi as [Hi|[]]; discriminate.
      + intros [l [Hin [Hv [Hc Hh]]]].
        exists (filter (has_value cur a) l).
        assert (Hf : In v (filter (has_value cur a) l)) by (apply filter_In; auto).
        split; auto. apply in_flat_map; exists (a, VList l); split; auto.
        unfold Spec_Modify.deletes_for; cbn [fst snd].
        destruct (cur_vals cur a) as [|c cs]; [congruence|].
        destruct l as [|x l]; [contradiction|].
        destruct (filter _ (x :: l)); [contradiction|left; auto].
    - intros a; split.
      + intros Hi. apply in_flat_map in Hi as [[a' w] [Hin Hi]].
        unfold Spec_Modify.deletes_for in Hi; simpl in Hi.
        destruct (cur_vals cur a') as [|c cs] eqn:Ec; [contradiction|].
        destruct w as [[|x lw]|].
        * destruct Hi as [Hi|[]]; discriminate.
        * destruct (filter _ (x :: lw)); [contradiction|]. destruct Hi as [Hi|[]]; discriminate.
        * destruct Hi as [Hi|[]]. injection Hi as <-. split; auto; congruence.
      + intros [Hin Hc]. apply in_flat_map; exists (a, VDeleteAll); split; auto.
        unfold Spec_Modify.deletes_for; simpl.
        destruct (cur_vals cur a); [congruence|left; auto].
  Qed.
End M.
