From Verif Require Import PyBase Model_CIDict Spec_CIDict Proofs_CIDict Model_Modify Spec_Modify Proofs_Modify Model_Search Model_Dir Proofs_Dir Model_Desc Spec_Desc Proofs_Desc.
From Coq Require Import Permutation.
Local Open Scope nat_scope.

Definition cof (m : method) : call := match m with MAdd => Add | MReplace => Replace | MDelete => Delete end.

Section M.
  Context (lower : str -> str).
  Notation cur := cur.
  Notation rep := (rep lower).

  Definition step1 (m : method) (h : heap) (d : cid loc) (a : str) (l : loc) : heap * cid loc :=
    match m with
    | MAdd => if negb (d_contains lower h d a) then (h, cid_set lower d a l) else (add_vals lower h d a (hget h l), d)
    | MReplace => (h, cid_set lower d a l)
    | MDelete => if d_contains lower h d a then
                   match hget h l with
                   | [] => (h, fst (cid_del lower d a))
                   | vs => (del_vals lower (List.length vs) 0 h d a l, d)
                   end
                 else (h, d)
    end.
  Lemma run_cons m h d a l req :
    run_method lower m h d ((a, l) :: req) = (let (h1, d1) := step1 m h d a l in run_method lower m h1 d1 req).
  Proof.
    destruct m; cbn [run_method mod_add mod_replace mod_delete step1].
    - now destruct (negb (d_contains lower h d a)).
    - reflexivity.
    - destruct (d_contains lower h d a); [|reflexivity]. now destruct (hget h l).
  Qed.

  Record head_ok (c : call) (h : heap) (d : cid loc) (a : str) (l : loc) (h1 : heap) (d1 : cid loc) : Prop := mk_head {
    hd_rep : rep h1 d1;
    hd_len : List.length h1 = List.length h;
    hd_other : forall l' : loc, ~ In l' (map snd (cdata d)) -> hget h1 l' = hget h l';
    hd_locs : forall x : loc, In x (map snd (cdata d1)) -> x = l \/ In x (map snd (cdata d));
    hd_keys : forall x : str, In x (map fst (cdata d1)) -> (x = a /\ c <> Delete) \/ In x (map fst (cdata d));
    hd_names : forall n, n <> lower a -> dget (ckeys d1) n = dget (ckeys d) n;
    hd_eff : effect c (hget h l) (cur h d (lower a)) (cur h1 d1 (lower a));
    hd_cur : forall n, n <> lower a -> cur h1 d1 n = cur h d n }.

  Lemma cur_cases h (d : cid loc) a :
    (exists v, d_contains lower h d a = true /\ cid_get lower d a = Ok v /\ cur h d (lower a) <> []) \/
    (d_contains lower h d a = false /\ cur h d (lower a) = []).
  Proof.
    unfold d_contains, cur, cid_get. destruct (dget (ckeys d) (lower a)) as [k|]; [|now right].
    destruct (dget (cdata d) k) as [v|]; [|now right]. destruct (hget h v) as [|x w] eqn:E; [now right|].
    left. exists v. repeat split; congruence.
  Qed.

  Lemma step1_head m h d a (l : loc) : rep h d -> ~ In l (map snd (cdata d)) -> l < List.length h -> (m <> MDelete -> ~ In (ch "=") a) ->
    (m = MReplace -> cur h d (lower a) = [] \/ dget (ckeys d) (lower a) = Some a) ->
    let (h1, d1) := step1 m h d a l in head_ok (cof m) h d a l h1 d1.
  Proof.
    intros R Hn Hlt Hne Hsp.
    assert (Set_ : forall c, (m <> MDelete -> c <> Delete) -> m <> MDelete -> (cur h d (lower a) = [] \/ dget (ckeys d) (lower a) = Some a) ->
       effect c (hget h l) (cur h d (lower a)) (hget h l) -> head_ok c h d a l h (cid_set lower d a l)).
    { intros c Hcd Hmd H He. destruct (rep_set lower h d a l R Hn Hlt (Hne Hmd) H) as [R' C']. constructor; auto.
      - intros x Hx. apply dset_snd_incl in Hx. exact Hx.
      - intros x Hx. apply dset_fst_incl in Hx. destruct Hx as [->|Hx]; [left; split; [reflexivity|exact (Hcd Hmd)]|now right].
      - intros n Hn'. cbn [cid_set ckeys]. rewrite dget_dset. destruct (str_eqb_spec (lower a) n); congruence.
      - rewrite C'. now rewrite str_eqb_refl.
      - intros n Hn'. rewrite C'. apply str_eqb_neq in Hn'. now rewrite Hn'. }
    assert (Put : forall c v l0, cid_get lower d a = Ok l0 -> effect c (hget h l) (cur h d (lower a)) v -> head_ok c h d a l (hset h l0 v) d).
    { intros c v l0 Hg He. destruct (rep_put lower h d a l0 v R Hg) as [R' C']. pose proof (get_In lower d a l0 Hg) as Hi.
      pose proof (rep_alloc _ _ _ R l0 Hi) as Hl0. constructor; auto.
      - apply hset_length.
      - intros l' Hl'. rewrite hget_hset by exact Hl0. destruct (Nat.eqb_spec l' l0) as [->|]; [contradiction|reflexivity].
      - rewrite C'. now rewrite str_eqb_refl.
      - intros n Hn'. rewrite C'. apply str_eqb_neq in Hn'. now rewrite Hn'. }
    destruct (cur_cases h d a) as [(l0 & Ec & Hg & Hcur)|(Ec & Hcur)]; destruct m; cbn [step1 cof].
    - rewrite Ec. cbn [negb]. rewrite (add_vals_eq lower d a l0 _ Hg) by (apply (rep_alloc _ _ _ R); eapply get_In; eauto).
      apply Put; [exact Hg|]. cbn [effect]. rewrite (get_cur lower h d a l0 Hg) in *. split; [contradiction|]. intros _. apply addnew_spec.
    - apply Set_; [discriminate|discriminate|now apply Hsp|reflexivity].
    - rewrite Ec. destruct (hget h l) as [|v vs] eqn:Ev.
      + destruct (rep_del lower h d a l0 R Hg) as (R' & C' & Hd & Hk). constructor; auto.
        * intros x Hx. rewrite Hd in Hx. right. apply in_map_iff in Hx. destruct Hx as (y & E & Hy). apply ddel_In in Hy. apply in_map_iff. eauto.
        * intros x Hx. rewrite Hd in Hx. right. apply in_map_iff in Hx. destruct Hx as (y & E & Hy). apply ddel_In in Hy. apply in_map_iff. eauto.
        * rewrite C', str_eqb_refl, Ev. reflexivity.
        * intros n Hn'. rewrite C'. apply str_eqb_neq in Hn'. now rewrite Hn'.
      + rewrite (del_vals_eq lower d a l0 l Hg) by (first [apply (rep_alloc _ _ _ R); eapply get_In; eauto | intros ->; apply Hn; eapply get_In; eauto]).
        cbn [skipn]. rewrite Ev, firstn_all. apply Put; [exact Hg|]. cbn [effect removed]. rewrite (get_cur lower h d a l0 Hg).
        split; [apply removes_subseq|intros x; apply removes_count].
    - rewrite Ec. cbn [negb]. apply Set_; [discriminate|discriminate|now left|]. cbn [effect]. rewrite Hcur. split; [reflexivity|]. intros X. now elim X.
    - apply Set_; [discriminate|discriminate|now apply Hsp|reflexivity].
    - rewrite Ec. constructor; auto. rewrite Hcur. cbn [effect]. unfold removed. destruct (hget h l); [reflexivity|]. split; [constructor|reflexivity].
  Qed.

  (** the state abstracts to these values *)
  Definition pending (h : heap) (d : cid loc) (req : list (str * loc)) : Prop :=
    NoDup (map snd req) /\ (forall l, In l (map snd req) -> ~ In l (map snd (cdata d)) /\ l < List.length h).

  Lemma run_spec m req : forall h d, rep h d -> pending h d req ->
    (m <> MDelete -> forall k, In k (map fst req) -> ~ In (ch "=") k) -> NoDup (map (fun kv => lower (fst kv)) req) ->
    (m = MReplace -> forall k, In k (map fst req) -> cur h d (lower k) = [] \/ dget (ckeys d) (lower k) = Some k) ->
    let (h', d') := run_method lower m h d req in
    rep h' d' /\ List.length h' = List.length h /\
    (forall x : str, In x (map fst (cdata d')) -> (In x (map fst req) /\ cof m <> Delete) \/ In x (map fst (cdata d))) /\
    (forall k l, In (k, l) req -> effect (cof m) (hget h l) (cur h d (lower k)) (cur h' d' (lower k))) /\
    (forall n, ~ In n (map (fun kv => lower (fst kv)) req) -> cur h' d' n = cur h d n).
  Proof.
    induction req as [|[a l] req IH]; intros h d R [P1 P2] He Hd Hs.
    - assert (E : run_method lower m h d [] = (h, d)) by now destruct m.
      rewrite E. split; [exact R|]. split; [reflexivity|]. split; [intros x Hx; now right|]. split; [intros k l []|reflexivity].
    - rewrite run_cons. cbn [map fst snd] in *. inversion P1 as [|? ? Hnl P1']; subst. inversion Hd as [|? ? Hna Hd']; subst.
      destruct (P2 l (or_introl eq_refl)) as [Hl Hlt].
      pose proof (step1_head m h d a l R Hl Hlt (fun H => He H a (or_introl eq_refl)) (fun H => Hs H a (or_introl eq_refl))) as H.
      destruct (step1 m h d a l) as [h1 d1]. destruct H as [R1 Len Oth Locs Keys Nam Eff Cu].
      assert (Hfold : forall k, In k (map fst req) -> lower k <> lower a).
      { intros k Hk E. apply Hna. rewrite <- E. apply in_map_iff in Hk. destruct Hk as (kv & <- & Hk). now apply (in_map (fun kv => lower (fst kv))) in Hk. }
      specialize (IH h1 d1 R1). destruct (run_method lower m h1 d1 req) as [h' d'].
      destruct IH as (R' & Len' & Keys' & Eff' & Cu').
      + split; [exact P1'|]. intros x Hx. split; [|rewrite Len; apply P2; now right]. intros Y. apply Locs in Y.
        destruct Y as [->|Y]; [contradiction|]. now apply (P2 x (or_intror Hx)).
      + intros Hm k Hk. apply (He Hm). now right.
      + exact Hd'.
      + intros Hm k Hk. rewrite (Cu _ (Hfold k Hk)), (Nam _ (Hfold k Hk)). apply (Hs Hm). now right.
      + split; [exact R'|]. split; [congruence|]. split; [|split].
        * intros x Hx. apply Keys' in Hx. cbn [In]. destruct Hx as [[Hx Hc]|Hx]; [left; split; [now right|exact Hc]|].
          apply Keys in Hx. destruct Hx as [[-> Hc]|Hx]; [left; split; [now left|exact Hc]|now right].
        * intros k l0 [E|Hin].
          -- injection E as <- <-. rewrite Cu'; [exact Eff|exact Hna].
          -- assert (Hk : In k (map fst req)) by now apply (in_map fst) in Hin.
             rewrite <- (Cu _ (Hfold k Hk)). rewrite <- Oth; [now apply Eff'|]. apply (P2 l0). right. now apply (in_map snd) in Hin.
        * intros n Hn. cbn [In] in Hn. rewrite Cu' by tauto. apply Cu. intros ->. apply Hn. now left.
  Qed.

  (** ** Fresh lists for the request *)
  Lemma combine_map_fst {A B} : forall (l : list A) (l' : list B), List.length l = List.length l' -> map fst (combine l l') = l.
  Proof. induction l as [|x l IH]; intros [|y l'] H; cbn in *; try discriminate; f_equal; auto. Qed.
  Lemma combine_map_snd {A B} : forall (l : list A) (l' : list B), List.length l = List.length l' -> map snd (combine l l') = l'.
  Proof. induction l as [|x l IH]; intros [|y l'] H; cbn in *; try discriminate; f_equal; auto. Qed.
  Lemma rep_grow h d more : rep h d -> rep (h ++ more) d /\ forall n, cur (h ++ more) d n = cur h d n.
  Proof.
    intros R. assert (Hg : forall l, In l (map snd (cdata d)) -> hget (h ++ more) l = hget h l).
    { intros l Hl. apply hget_app. now apply (rep_alloc _ _ _ R). }
    destruct R as [Hok Hl Ha Hk Hc]. split.
    - constructor; auto.
      + intros l H. rewrite app_length. specialize (Ha l H). lia.
      + intros k l H. rewrite Hg by (now apply (in_map snd) in H). auto.
    - intros n. unfold cur. destruct (dget (ckeys d) n) as [k|]; [|reflexivity]. destruct (dget (cdata d) k) as [l|] eqn:E; [|reflexivity].
      apply Hg. apply dget_In in E. now apply (in_map snd) in E.
  Qed.
  Lemma combine_seq_nth (req : list (str * list str)) : forall n k l,
    In (k, l) (combine (map fst req) (seq n (List.length req))) -> exists vs, In (k, vs) req /\ n <= l /\ nth_error (map snd req) (l - n) = Some vs.
  Proof.
    induction req as [|[a vs] req IH]; intros n k l H; [destruct H|]. cbn [map fst List.length seq combine] in H. destruct H as [E|H].
    - injection E as <- <-. exists vs. rewrite Nat.sub_diag. cbn. auto.
    - destruct (IH _ _ _ H) as (w & Hw & Hle & Hnth). exists w. split; [now right|]. split; [lia|]. replace (l - n) with (S (l - S n)) by lia. exact Hnth.
  Qed.
  Lemma combine_seq_in (req : list (str * list str)) : forall n k vs,
    In (k, vs) req -> exists l, In (k, l) (combine (map fst req) (seq n (List.length req))) /\ n <= l /\ nth_error (map snd req) (l - n) = Some vs.
  Proof.
    induction req as [|[a ws] req IH]; intros n k vs H; [destruct H|]. cbn [map fst List.length seq combine]. destruct H as [E|H].
    - injection E as <- <-. exists n. rewrite Nat.sub_diag. cbn. auto.
    - destruct (IH (S n) _ _ H) as (w & Hw & Hle & Hnth). exists w. split; [now right|]. split; [lia|]. replace (w - n) with (S (w - S n)) by lia. exact Hnth.
  Qed.

  Lemma call_spec m h d req : rep h d -> req_ok lower req ->
    (m = MReplace -> forall k vs, In (k, vs) req -> cur h d (lower k) = [] \/ dget (ckeys d) (lower k) = Some k) ->
    let (h1, req1) := alloc_req h req in
    let (h', d') := run_method lower m h1 d req1 in
    rep h' d' /\
    (forall x : str, In x (map fst (cdata d')) -> (In x (map fst req) /\ cof m <> Delete) \/ In x (map fst (cdata d))) /\
    step lower (cof m) req (cur h d) (cur h' d').
  Proof.
    intros R [He Hd] Hs. unfold alloc_req. set (req1 := @combine str loc (map fst req) (seq (List.length h) (List.length req))).
    match goal with |- context [run_method lower m ?x d ?r] => change (run_method lower m x d r) with (run_method lower m x d req1) end.
    assert (Hlen : List.length (map fst req) = List.length (seq (List.length h) (List.length req))) by now rewrite map_length, seq_length.
    destruct (rep_grow h d (map snd req) R) as [R1 C1].
    assert (F1 : @map (str * loc) str fst req1 = map fst req) by now apply combine_map_fst.
    assert (F2 : map (fun kv : str * loc => lower (fst kv)) req1 = map (fun kv => lower (fst kv)) req).
    { transitivity (map lower (@map (str * loc) str fst req1)); [now rewrite map_map|]. rewrite F1. now rewrite map_map. }
    pose proof (run_spec m req1 (h ++ map snd req) d R1) as H.
    destruct (run_method lower m (h ++ map snd req) d req1) as [h' d']. destruct H as (R' & _ & K' & E' & C').
    - assert (F3 : @map (str * loc) loc snd req1 = seq (List.length h) (List.length req)) by now apply combine_map_snd.
      unfold pending. rewrite F3. split; [apply seq_NoDup|]. intros l Hl. apply in_seq in Hl. split.
      + intros X. apply (rep_alloc _ _ _ R) in X. lia.
      + rewrite app_length, map_length. lia.
    - intros _ k Hk. rewrite F1 in Hk. apply in_map_iff in Hk. destruct Hk as ([k1 vs] & <- & Hk). now apply (He _ vs).
    - now rewrite F2.
    - intros Hm k Hk. rewrite F1 in Hk. apply in_map_iff in Hk. destruct Hk as ([k1 vs] & <- & Hk). rewrite C1. now apply (Hs Hm k1 vs).
    - split; [exact R'|]. split.
      + intros x Hx. apply K' in Hx. now rewrite F1 in Hx.
      + intros n. split.
        * intros k vs Hin <-. destruct (combine_seq_in req (List.length h) k vs Hin) as (l & Hl & Hle & Hnth).
          specialize (E' k l Hl). rewrite C1 in E'. replace (hget (h ++ map snd req) l) with vs in E'; [exact E'|].
          unfold hget. rewrite app_nth2 by lia. symmetry. now apply nth_error_nth.
        * intros Hn. rewrite C'; [apply C1|]. now rewrite F2.
  Qed.

  (** ** What is written *)
  Lemma dvals_keys n k l : ~ In (ch "=") k -> dvals lower n (map (fun v => k ++ [ch "="] ++ v) l) = if str_eqb (lower k) n then l else [].
  Proof.
    intros Hk. induction l as [|v l IH]; [now destruct (str_eqb _ _)|]. unfold dvals in *. cbn [map flat_map]. unfold dval at 1. change (k ++ [ch "="] ++ v) with (k ++ ch "=" :: v).
    rewrite (split1_first (ch "=") k v Hk). rewrite IH. now destruct (str_eqb (lower k) n).
  Qed.
  Lemma dvals_ordinary n U : (forall s, In s U -> ordinary s) -> dvals lower n U = [].
  Proof.
    induction U as [|s U IH]; intros H; [reflexivity|]. unfold dvals in *. cbn [flat_map]. unfold dval at 1.
    rewrite split1_none by (apply H; now left). apply IH. intros x Hx. apply H. now right.
  Qed.
  Lemma dvals_none h n items : (forall k l, In (k, l) items -> ~ In (ch "=") k) ->
    (forall k l, In (k, l) items -> lower k = n -> hget h l = []) ->
    dvals lower n (flat_map (fun kl => map (fun v => fst kl ++ [ch "="] ++ v) (hget h (snd kl))) items) = [].
  Proof.
    induction items as [|[k l] items IH]; intros He H; [reflexivity|]. cbn [flat_map fst snd]. rewrite dvals_app, dvals_keys by (apply (He k l); now left).
    rewrite IH; [|intros a b X; apply (He a b); now right|intros a b X; apply (H a b); now right].
    rewrite app_nil_r. destruct (str_eqb_spec (lower k) n) as [E|]; [|reflexivity]. apply (H k l); [now left|exact E].
  Qed.
  Lemma desc_strings_vals h d n : rep h d -> dvals lower n (desc_strings h d) = cur h d n.
  Proof.
    intros R. unfold desc_strings, cid_items.
    assert (He : forall k l, In (k, l) (cdata d) -> ~ In (ch "=") k).
    { intros k l H. apply (rep_keys _ _ _ R). now apply (in_map fst) in H. }
    unfold cur. destruct (dget (ckeys d) n) as [k0|] eqn:G.
    - destruct (proj2 (proj2 (rep_ok _ _ _ R)) n k0 G) as [E0 [l0 G0]]. rewrite G0. pose proof (dget_In _ _ _ G0) as Hin.
      apply in_split in Hin. destruct Hin as (i1 & i2 & Hi). rewrite Hi in *. rewrite flat_map_app. cbn [flat_map fst snd].
      assert (No : forall k l, In (k, l) (i1 ++ i2) -> lower k = n -> hget h l = []).
      { intros k l Hkl E. assert (Hkl' : In (k, l) (cdata d)) by (rewrite Hi; apply in_app_iff in Hkl; apply in_or_app; cbn [In]; tauto).
        destruct (rep_cur _ _ _ R k l Hkl') as [X|X]; [|exact X]. rewrite E, G in X. injection X as <-.
        pose proof (proj1 (proj2 (rep_ok _ _ _ R))) as N2. rewrite Hi, map_app in N2. cbn [map fst] in N2. apply NoDup_remove_2 in N2.
        elim N2. rewrite <- map_app. now apply (in_map fst) in Hkl. }
      rewrite !dvals_app, dvals_keys by (apply (He k0 l0); apply in_or_app; right; now left). rewrite E0, str_eqb_refl.
      rewrite !dvals_none; [now rewrite app_nil_r| | | |];
        try (intros a b X; apply (He a b); apply in_or_app; cbn [In]; tauto); intros a b X; apply (No a b); apply in_or_app; tauto.
    - apply dvals_none; [exact He|]. intros k l H E. destruct (rep_cur _ _ _ R k l H) as [X|X]; [rewrite E in X; congruence|exact X].
  Qed.
  Lemma desc_strings_kv h d s : In s (desc_strings h d) -> In (ch "=") s.
  Proof.
    unfold desc_strings. intros H. apply in_flat_map in H. destruct H as ([k l] & _ & H). apply in_map_iff in H.
    destruct H as (v & <- & _). apply in_or_app. right. now left.
  Qed.

  Lemma written_says order h d W0 D : (forall u, Permutation (order u) u) -> rep h (dd d) ->
    (forall s, In s (du d) -> ordinary s) -> (forall s, ordinary s -> (In s (du d) <-> In s W0)) -> (forall n, D n = cur h (dd d) n) ->
    says lower (written order h d) W0 D.
  Proof.
    intros Hp R Hu HW HD. unfold written. split.
    - intros n. replace (D n) with (dvals lower n (desc_strings h (dd d) ++ order (du d))); [apply described_dvals|].
      rewrite dvals_app, desc_strings_vals by exact R. rewrite (dvals_ordinary n (order (du d))); [now rewrite app_nil_r, HD|].
      intros s Hs. apply Hu. now apply (Permutation_in _ (Hp (du d))).
    - intros s Hs. rewrite <- (HW s Hs), in_app_iff. split.
      + intros [X|X]; [elim Hs; now apply desc_strings_kv in X|]. now apply (Permutation_in _ (Hp (du d))).
      + intros X. right. now apply (Permutation_in _ (Permutation_sym (Hp (du d)))).
  Qed.

  (** ** Reading at the start *)
  Lemma init1_spec h d s : rep h (dd d) ->
    let (h', d') := init1 lower (h, d) s in
    rep h' (dd d') /\ (forall n, cur h' (dd d') n = cur h (dd d) n ++ dval lower n s) /\
    (forall x, In x (map fst (cdata (dd d'))) -> In x (map fst (cdata (dd d))) \/ exists v, key_value s x v) /\
    (forall x, In x (du d') <-> In x (du d) \/ (x = s /\ ordinary s)).
  Proof.
    intros R. unfold init1, dval. destruct (split1 (ch "=") s) as [[key value]|e] eqn:E.
    - unfold hnew. destruct (rep_grow h (dd d) [[]] R) as [R1 C1]. pose proof (split1_Ok _ _ _ _ E) as [Es Hk].
      assert (Hns : ~ ordinary s) by (intros X; apply X; rewrite Es; apply in_or_app; right; now left).
      unfold cid_setdefault. destruct (cid_get lower (dd d) key) as [l|e] eqn:G.
      + destruct (rep_put lower _ _ _ _ (hget (h ++ [[]]) l ++ [value]) R1 G) as [R2 C2]. split; [exact R2|]. split; [|split].
        * intros n. cbn [dd]. rewrite C2, C1, (str_eqb_sym n). destruct (str_eqb_spec (lower key) n) as [<-|]; [|now rewrite app_nil_r].
          now rewrite <- (C1 (lower key)), (get_cur lower _ _ _ _ G).
        * cbn [dd]. auto.
        * cbn [du]. intros x. tauto.
      + assert (e = KeyError) by (eapply get_err; eauto). subst e.
        assert (Hcur : cur (h ++ [[]]) (dd d) (lower key) = []).
        { unfold cur. unfold cid_get in G. destruct (dget (ckeys (dd d)) (lower key)) as [k|]; [|reflexivity]. now destruct (dget (cdata (dd d)) k). }
        assert (Hlt : List.length h < List.length (h ++ [[]])) by (rewrite app_length; cbn; lia).
        destruct (rep_set lower _ _ key (List.length h) R1) as [R2 C2]; [|exact Hlt|exact Hk|now left|].
        { intros X. apply (rep_alloc _ _ _ R) in X. lia. }
        assert (G2 : cid_get lower (cid_set lower (dd d) key (List.length h)) key = Ok (List.length h)).
        { unfold cid_get. cbn [cid_set ckeys cdata]. now rewrite !dget_dset_eq. }
        destruct (rep_put lower _ _ _ _ (hget (h ++ [[]]) (List.length h) ++ [value]) R2 G2) as [R3 C3]. split; [exact R3|]. split; [|split].
        * intros n. cbn [dd]. rewrite C3, C2, C1, (str_eqb_sym n). destruct (str_eqb_spec (lower key) n) as [<-|]; [|now rewrite app_nil_r].
          rewrite <- (C1 (lower key)), Hcur. unfold hget. rewrite app_nth2 by lia. rewrite Nat.sub_diag. reflexivity.
        * cbn [dd cid_set cdata]. intros x Hx. apply dset_fst_incl in Hx. destruct Hx as [->|Hx]; [right; exists value; now split|now left].
        * cbn [du]. intros x. tauto.
    - split; [exact R|]. split; [intros n; cbn [dd]; now rewrite app_nil_r|]. split; [auto|]. intros x. cbn [du]. pose proof (split1_Raise _ _ _ E) as Ho.
      unfold set_add. destruct (smem s (du d)) eqn:M.
      + apply smem_In in M. split; [tauto|]. intros [X|[-> _]]; assumption.
      + rewrite in_app_iff. cbn [In]. split; [intros [X|[X|[]]]; auto|]. intros [X|[-> _]]; auto.
  Qed.
  Lemma init_spec W : forall h d, rep h (dd d) ->
    let (h', d') := fold_left (init1 lower) W (h, d) in
    rep h' (dd d') /\ (forall n, cur h' (dd d') n = cur h (dd d) n ++ dvals lower n W) /\
    (forall x, In x (map fst (cdata (dd d'))) -> In x (map fst (cdata (dd d))) \/ exists s v, In s W /\ key_value s x v) /\
    (forall x, In x (du d') <-> In x (du d) \/ (In x W /\ ordinary x)).
  Proof.
    induction W as [|s W IH]; intros h d R; cbn [fold_left].
    - split; [exact R|]. split; [intros n; cbn; now rewrite app_nil_r|]. split; [auto|]. intros x. cbn [In]. tauto.
    - pose proof (init1_spec h d s R) as H. destruct (init1 lower (h, d) s) as [h1 d1]. destruct H as (R1 & C1 & K1 & U1).
      specialize (IH h1 d1 R1). destruct (fold_left (init1 lower) W (h1, d1)) as [h' d']. destruct IH as (R' & C' & K' & U').
      split; [exact R'|]. split; [|split].
      + intros n. rewrite C', C1. unfold dvals. cbn [flat_map]. now rewrite app_assoc.
      + intros x Hx. apply K' in Hx. destruct Hx as [Hx|(t & v & Ht & Hv)]; [|right; exists t, v; split; [now right|exact Hv]].
        apply K1 in Hx. destruct Hx as [Hx|[v Hv]]; [now left|]. right. exists s, v. split; [now left|exact Hv].
      + intros x. rewrite U', U1. cbn [In]. split; [intros [[X|[-> X]]|X]; tauto|]. intros [X|[[->|X] Y]]; tauto.
  Qed.
End M.

(** ** The request *)
From Verif Require Import Spec_Search Spec_Dir Proofs_Modify2 Proofs_Search Proofs_Dir2 Proofs_Dir3 Proofs_Dir4.
Section Q.
  Context {S : Type} (sv : server S) (view : S -> str -> option entry).
  Context (lower norm : str -> str) (eqv : str -> str -> str -> bool) (idx : str -> list str -> str -> res nat).
  Context (Hlaw : lawful lower norm eqv sv view).
  Context (flags : empty_flags) (validate_mod : str -> list mod_ -> option lobj -> res unit).

  Lemma replace_one s o e a W : view s (o_dn o) = Some e -> dict_ok lower (o_attrs o) -> W <> [] ->
    match obj_replace_attrs sv lower idx false flags validate_mod s o [(a, VList W)] with
    | (s', o', Ok _) => exists e', view s' (o_dn o) = Some e' /\ e' (lower a) = W /\ (forall n, n <> lower a -> e' n = e n) /\
         only_at view norm s s' (o_dn o) /\ o' = mk_lobj (o_dn o) (cid_set lower (o_attrs o) a W)
    | (s', o', Raise _) => o' = o /\ unchanged view s s'
    end.
  Proof.
    intros V Hok HW. unfold obj_replace_attrs. change [(a, VList W)] with (as_vals [(a, W)]). rewrite modlist_replace. cbn [map fst snd].
    unfold obj_modify_. set (ms := [mkmod REPLACE a (VList W)]).
    assert (Hc : forall m, In m ms -> constructed m) by (intros m [<-|[]]; reflexivity).
    assert (He : forall m, In m ms -> empty_rd m = false) by (intros m [<-|[]]; destruct W; [now elim HW|reflexivity]).
    pose proof (lmod_dir sv view lower norm eqv Hlaw false flags validate_mod s (o_dn o) ms (Some o) Hc He) as L.
    destruct (ldap_modify_ sv false flags validate_mod s (o_dn o) ms (Some o)) as [[s' ms'] [[]|x]]; [|now split].
    destruct L as [-> [[X _]|[(e0 & e1 & e' & V0 & A & V' & P) On]]]; [discriminate|]. rewrite V in V0. injection V0 as <-.
    assert (Em : map mutate ms = ms) by (destruct W; [now elim HW|reflexivity]). rewrite Em. subst ms. cbn [map change_of srv_apply] in A. unfold srv_apply1 in A. cbn in A.
    injection A as <-. destruct W as [|w W]; [now elim HW|]. cbn.
    exists e'. split; [exact V'|]. rewrite P. unfold eput. rewrite str_eqb_refl. split; [reflexivity|]. split; [|split; [exact On|reflexivity]].
    intros n Hn. rewrite P. apply str_eqb_neq in Hn. unfold eput. now rewrite Hn.
  Qed.
  Context (Hwill : willing lower eqv sv view) (Hvm : forall dn ms cur, validate_mod dn ms cur = Ok tt).
  Lemma replace_one_ok s o e a W : view s (o_dn o) = Some e -> W <> [] ->
    exists s' o', obj_replace_attrs sv lower idx false flags validate_mod s o [(a, VList W)] = (s', o', Ok tt).
  Proof.
    intros V HW. unfold obj_replace_attrs. change [(a, VList W)] with (as_vals [(a, W)]). rewrite modlist_replace. cbn [map fst snd].
    unfold obj_modify_. set (ms := [mkmod REPLACE a (VList W)]).
    assert (Hc : forall m, In m ms -> constructed m) by (intros m [<-|[]]; reflexivity).
    assert (He : forall m, In m ms -> empty_rd m = false) by (intros m [<-|[]]; destruct W; [now elim HW|reflexivity]).
    destruct (lmod_ok sv view lower eqv Hwill flags validate_mod Hvm s (o_dn o) ms (Some o) e (eput lower e a W) V) as [s' ->]; [reflexivity|exact Hc|exact He|].
    destruct W as [|w W]; [now elim HW|]. cbn. eauto.
  Qed.
End Q.

Lemma init_nonempty lower W : forall h d, rep lower h (dd d) ->
  (forall k l, In (k, l) (cdata (dd d)) -> hget h l <> []) ->
  let (h', d') := fold_left (init1 lower) W (h, d) in forall k l, In (k, l) (cdata (dd d')) -> hget h' l <> [].
Proof.
  induction W as [|s W IH]; intros h d R H; cbn [fold_left]; [exact H|].
  pose proof (init1_spec lower h d s R) as I1. destruct (init1 lower (h, d) s) as [h1 d1] eqn:E. apply IH; [apply I1|].
  unfold init1 in E. destruct (split1 (ch "=") s) as [[key value]|e]; [|injection E as <- <-; exact H].
  unfold hnew in E. unfold cid_setdefault in E. destruct (cid_get lower (dd d) key) as [l0|e0] eqn:G.
  - injection E as <- <-. cbn [dd]. intros k l Hin. pose proof (rep_alloc _ _ _ R l0 (get_In _ _ _ _ G)) as Hl0.
    rewrite hget_hset by (rewrite app_length; lia). destruct (Nat.eqb l l0); [now destruct (hget _ _)|].
    rewrite hget_app; [now apply H in Hin|]. apply (rep_alloc _ _ _ R). now apply (in_map snd) in Hin.
  - assert (e0 = KeyError) by (eapply get_err; eauto). subst e0. injection E as <- <-. cbn [dd cid_set cdata]. intros k l Hin.
    rewrite hget_hset by (rewrite app_length; cbn; lia). destruct (Nat.eqb_spec l (List.length h)) as [->|Hn]; [now destruct (hget _ _)|].
    apply dset_In_inv in Hin; [|apply (rep_ok _ _ _ R)]. destruct Hin as [[_ ->]|[_ Hin]]; [congruence|].
    rewrite hget_app; [now apply H in Hin|]. apply (rep_alloc _ _ _ R). now apply (in_map snd) in Hin.
Qed.
