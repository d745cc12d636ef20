From Verif Require Import PyBase Model_CIDict Spec_CIDict Proofs_CIDict Model_Modify Spec_Modify Proofs_Modify Model_Search Model_Dir Proofs_Dir Model_Desc Spec_Desc.
Local Open Scope nat_scope.

(** ** Heap *)
Lemma hset_length h : forall l v, List.length (hset h l v) = List.length h.
Proof. induction h as [|x h IH]; intros [|l] v; cbn [hset List.length]; auto. Qed.
Lemma hget_hset h : forall l v l', l < List.length h -> hget (hset h l v) l' = if Nat.eqb l' l then v else hget h l'.
Proof.
  unfold hget. induction h as [|x h IH]; intros l v l' H; cbn [List.length] in H; [lia|].
  destruct l as [|l]; destruct l' as [|l']; cbn [hset nth Nat.eqb]; auto. apply IH. lia.
Qed.
Lemma hset_hset h : forall l v w, hset (hset h l v) l w = hset h l w.
Proof. induction h as [|x h IH]; intros [|l] v w; cbn [hset]; auto. now rewrite IH. Qed.
Lemma hset_same h : forall l, hset h l (hget h l) = h.
Proof. unfold hget. induction h as [|x h IH]; intros [|l]; cbn [hset nth]; auto. now rewrite IH. Qed.
Lemma hget_app h h2 l : l < List.length h -> hget (h ++ h2) l = hget h l.
Proof. intros H. unfold hget. now apply app_nth1. Qed.

(** ** Lists *)
Lemma subseq_refl l : subseq l l.
Proof. induction l; constructor; auto. Qed.
Lemma subseq_nil l : subseq [] l.
Proof. induction l; constructor; auto. Qed.
Lemma subseq_trans l1 l2 : subseq l1 l2 -> forall l3, subseq l2 l3 -> subseq l1 l3.
Proof.
  intros H l3 H3. revert l1 H. induction H3 as [|x l2 l3 H3 IH|x l2 l3 H3 IH]; intros l1 H; [exact H| |constructor; auto].
  inversion H; subst; constructor; auto.
Qed.
Lemma remove1_subseq v l : subseq (remove1 v l) l.
Proof. induction l as [|x l IH]; cbn [remove1]; [constructor|]. destruct (str_eqb x v); constructor; auto using subseq_refl. Qed.
Lemma remove1_count v l x : count_occ str_eq_dec (remove1 v l) x = count_occ str_eq_dec l x - (if str_eq_dec v x then 1 else 0).
Proof.
  induction l as [|y l IH]; cbn [remove1 count_occ]; [reflexivity|].
  destruct (str_eqb_spec y v) as [->|Hn].
  - destruct (str_eq_dec v x); lia.
  - cbn [count_occ]. rewrite IH. destruct (str_eq_dec y x) as [->|]; destruct (str_eq_dec v x) as [->|]; try congruence; try lia.
Qed.
Definition removes (vs old : list str) : list str := fold_left (fun l v => remove1 v l) vs old.
Lemma removes_subseq vs : forall old, subseq (removes vs old) old.
Proof.
  induction vs as [|v vs IH]; intros old; unfold removes; cbn [fold_left]; [apply subseq_refl|].
  eapply subseq_trans; [apply IH|apply remove1_subseq].
Qed.
Lemma removes_count vs : forall old x, count_occ str_eq_dec (removes vs old) x = count_occ str_eq_dec old x - count_occ str_eq_dec vs x.
Proof.
  induction vs as [|v vs IH]; intros old x; unfold removes; cbn [fold_left count_occ]; [lia|].
  change (fold_left (fun l v => remove1 v l) vs (remove1 v old)) with (removes vs (remove1 v old)).
  rewrite IH, remove1_count. destruct (str_eq_dec v x); lia.
Qed.

Fixpoint addnew (l vs : list str) : list str :=
  match vs with [] => l | v :: vs' => addnew (if smem v l then l else l ++ [v]) vs' end.
Lemma addnew_spec vs : forall l, exists more, addnew l vs = l ++ more /\ NoDup more /\ subseq more vs /\
  forall v, In v more <-> In v vs /\ ~ In v l.
Proof.
  induction vs as [|v vs IH]; intros l; cbn [addnew].
  - exists []. rewrite app_nil_r. split; [reflexivity|]. split; [constructor|]. split; [constructor|]. intros v. cbn [In]. tauto.
  - destruct (smem v l) eqn:M.
    + apply smem_In in M. destruct (IH l) as (more & E & Nd & Ss & Hm). exists more. split; [exact E|]. split; [exact Nd|]. split; [now constructor|].
      intros x. rewrite Hm. cbn [In]. split; [tauto|]. intros [[<-|Hx] Hn]; [contradiction|tauto].
    + apply smem_nIn in M. destruct (IH (l ++ [v])) as (more & E & Nd & Ss & Hm). exists (v :: more).
      split; [rewrite E, <- app_assoc; reflexivity|]. split.
      { constructor; [|exact Nd]. intros Hx. apply Hm in Hx. destruct Hx as [_ Hx]. apply Hx. apply in_or_app. right. now left. }
      split; [now constructor|]. intros x. cbn [In]. rewrite Hm, in_app_iff. cbn [In]. destruct (str_eq_dec v x) as [<-|Hn]; [tauto|]. intuition congruence.
Qed.

(** ** Reading descriptions, as a function *)
Lemma split1_Ok x s a b : split1 x s = Ok (a, b) -> s = a ++ x :: b /\ ~ In x a.
Proof.
  revert a b. induction s as [|c s IH]; intros a b H; cbn [split1] in H; [discriminate|].
  destruct (N.eqb_spec c x) as [->|Hn].
  - injection H as <- <-. split; [reflexivity|intros []].
  - destruct (split1 x s) as [[a' b']|] eqn:E; [|discriminate]. injection H as <- <-. destruct (IH _ _ eq_refl) as [-> Hi].
    split; [reflexivity|]. intros [X|X]; [congruence|contradiction].
Qed.
Lemma split1_Raise x s e : split1 x s = Raise e -> ~ In x s.
Proof.
  revert e. induction s as [|c s IH]; intros e H; cbn [split1] in H; [intros []|].
  destruct (N.eqb_spec c x) as [->|Hn]; [discriminate|].
  destruct (split1 x s) as [[a' b']|e'] eqn:E; [discriminate|]. intros [X|X]; [congruence|]. exact (IH e' eq_refl X).
Qed.
Lemma key_value_split s k v : key_value s k v <-> split1 (ch "=") s = Ok (k, v).
Proof.
  split.
  - intros [-> Hn]. exact (split1_first _ _ _ Hn).
  - intros H. apply split1_Ok in H. exact H.
Qed.

Section R.
  Context (lower : str -> str).
  Definition dval (n s : str) : list str :=
    match split1 (ch "=") s with Ok (k, v) => if str_eqb (lower k) n then [v] else [] | Raise _ => [] end.
  Definition dvals (n : str) (W : list str) : list str := flat_map (dval n) W.
  Lemma described_dvals n W : described lower n W (dvals n W).
  Proof.
    induction W as [|s W IH]; [constructor|]. unfold dvals. cbn [flat_map]. unfold dval at 1.
    destruct (split1 (ch "=") s) as [[k v]|e] eqn:E.
    - destruct (str_eqb_spec (lower k) n) as [H|H]; cbn [app].
      + eapply described_this; [exact (proj2 (key_value_split _ _ _) E)|exact H|exact IH].
      + apply described_other; [|exact IH]. intros k' v' Hk. apply key_value_split in Hk. rewrite E in Hk. injection Hk as <- <-. exact H.
    - apply described_other; [|exact IH]. intros k' v' Hk. apply key_value_split in Hk. rewrite E in Hk. discriminate.
  Qed.
  Lemma described_fun n W vs : described lower n W vs -> vs = dvals n W.
  Proof.
    induction 1 as [|s k v W vs Hk Hl H IH|s W vs Hk H IH]; [reflexivity| |]; unfold dvals; cbn [flat_map]; unfold dval at 1.
    - apply key_value_split in Hk. rewrite Hk. subst n. rewrite str_eqb_refl. cbn [app]. now rewrite IH.
    - destruct (split1 (ch "=") s) as [[k v]|e] eqn:E; [|exact IH]. apply key_value_split in E. specialize (Hk k v E).
      apply str_eqb_neq in Hk. rewrite Hk. exact IH.
  Qed.
  Lemma dvals_app n W1 W2 : dvals n (W1 ++ W2) = dvals n W1 ++ dvals n W2.
  Proof. apply flat_map_app. Qed.

  (** ** The representation invariant *)
  Definition cur (h : heap) (d : cid loc) (n : str) : list str :=
    match dget (ckeys d) n with
    | Some k => match dget (cdata d) k with Some l => hget h l | None => [] end
    | None => []
    end.
  Record rep (h : heap) (d : cid loc) : Prop := mk_rep {
    rep_ok : dict_ok lower d;
    rep_locs : NoDup (map (@snd str loc) (cdata d));
    rep_alloc : forall l : loc, In l (map snd (cdata d)) -> l < List.length h;
    rep_keys : forall k : str, In k (map fst (cdata d)) -> ~ In (ch "=") k;
    rep_cur : forall (k : str) (l : loc), In (k, l) (cdata d) -> dget (ckeys d) (lower k) = Some k \/ hget h l = [] }.

  Lemma rep_empty h : rep h cid_empty.
  Proof. constructor; cbn; try (constructor; fail); try tauto. split; [constructor|]. split; [constructor|]. discriminate. Qed.

  Lemma get_cur h (d : cid loc) a l : cid_get lower d a = Ok l -> cur h d (lower a) = hget h l.
  Proof.
    unfold cid_get, cur. destruct (dget (ckeys d) (lower a)) as [k|]; [|discriminate]. destruct (dget (cdata d) k); [|discriminate]. now intros [= ->].
  Qed.
  Lemma get_In (d : cid loc) a l : cid_get lower d a = Ok l -> In l (map snd (cdata d)).
  Proof.
    intros H. destruct (get_key lower d a l H) as (k & Hk & Hd). apply dget_In in Hd. now apply (in_map snd) in Hd.
  Qed.

  Lemma dset_In_inv {V} (dl : list (str * V)) a v k w : NoDup (map fst dl) -> In (k, w) (dset dl a v) -> (k = a /\ w = v) \/ (k <> a /\ In (k, w) dl).
  Proof.
    intros Nd H. assert (Nd' : NoDup (map fst (dset dl a v))) by now apply dset_NoDup.
    apply (dget_In_NoDup _ _ _ Nd') in H. rewrite dget_dset in H. destruct (str_eqb_spec a k) as [->|Hn].
    - injection H as <-. now left.
    - right. split; [congruence|now apply dget_In].
  Qed.
  Lemma dset_snd_NoDup (dl : list (str * loc)) a l : NoDup (map snd dl) -> ~ In l (map snd dl) -> NoDup (map snd (dset dl a l)).
  Proof.
    induction dl as [|[k v] dl IH]; cbn [dset map snd]; intros Nd Hn; [repeat constructor; intros []|].
    inversion Nd as [|? ? Hni Nd']; subst. destruct (str_eqb k a); cbn [map snd].
    - constructor; [|exact Nd']. intros X. apply Hn. now right.
    - constructor; [|apply IH; [exact Nd'|intros X; apply Hn; now right]].
      intros X. apply in_map_iff in X. destruct X as ((k1, l1) & E & X). cbn [snd] in E. subst l1.
      apply dset_In in X. destruct X as [[_ ->]|X]; [apply Hn; now left|]. apply Hni. apply in_map_iff. now exists (k1, v).
  Qed.
  Lemma dset_snd_incl (dl : list (str * loc)) a l x : In x (map snd (dset dl a l)) -> x = l \/ In x (map snd dl).
  Proof.
    intros X. apply in_map_iff in X. destruct X as ((k1, l1) & E & X). cbn [snd] in E. subst l1.
    apply dset_In in X. destruct X as [[_ ->]|X]; [now left|]. right. now apply (in_map snd) in X.
  Qed.
  Lemma dset_fst_incl {V} (dl : list (str * V)) a l x : In x (map fst (dset dl a l)) -> x = a \/ In x (map fst dl).
  Proof. rewrite dset_keys, in_app_iff. destruct (dmem dl a); cbn [In]; intros [H|H]; [now right|destruct H|now right|]. destruct H as [->|[]]. now left. Qed.
  Lemma snd_inj (dl : list (str * loc)) k k' l : NoDup (map snd dl) -> In (k, l) dl -> In (k', l) dl -> k = k'.
  Proof.
    induction dl as [|[a b] dl IH]; cbn [map snd]; intros Nd H1 H2; [destruct H1|]. inversion Nd as [|? ? Hn Nd']; subst.
    destruct H1 as [E1|H1]; destruct H2 as [E2|H2].
    - congruence.
    - injection E1 as -> ->. elim Hn. now apply (in_map snd) in H2.
    - injection E2 as -> ->. elim Hn. now apply (in_map snd) in H1.
    - auto.
  Qed.

  Lemma rep_set h d a l : rep h d -> ~ In l (map snd (cdata d)) -> l < List.length h -> ~ In (ch "=") a ->
    (cur h d (lower a) = [] \/ dget (ckeys d) (lower a) = Some a) ->
    rep h (cid_set lower d a l) /\
    (forall n, cur h (cid_set lower d a l) n = if str_eqb n (lower a) then hget h l else cur h d n).
  Proof.
    intros [Hok Hl Ha Hk Hc] Hn Hlt Hne Hsp. split.
    - constructor; cbn [cid_set ckeys cdata].
      + now apply ok_set.
      + now apply dset_snd_NoDup.
      + intros x Hx. apply dset_snd_incl in Hx. destruct Hx as [->|Hx]; auto.
      + intros x Hx. apply dset_fst_incl in Hx. destruct Hx as [->|Hx]; auto.
      + intros k1 l1 H1. apply dset_In_inv in H1; [|apply Hok]. rewrite dget_dset. destruct H1 as [[-> ->]|[Hna H1]].
        * left. now rewrite str_eqb_refl.
        * destruct (str_eqb_spec (lower a) (lower k1)) as [E|E]; [|exact (Hc k1 l1 H1)].
          right. destruct (Hc k1 l1 H1) as [X|X]; [|exact X]. rewrite <- E in X.
          destruct Hsp as [Y|Y]; [|congruence]. unfold cur in Y. rewrite X in Y.
          rewrite (dget_In_NoDup _ _ _ (proj1 (proj2 Hok)) H1) in Y. exact Y.
    - intros n. unfold cur. cbn [cid_set ckeys cdata]. rewrite dget_dset, (str_eqb_sym n).
      destruct (str_eqb_spec (lower a) n) as [E|E]; [now rewrite dget_dset_eq|].
      destruct (dget (ckeys d) n) as [k|] eqn:G; [|reflexivity]. rewrite dget_dset. destruct (str_eqb_spec a k) as [->|]; [|reflexivity].
      elim E. now apply (proj2 (proj2 Hok)) in G.
  Qed.

  Lemma rep_put h d a l v : rep h d -> cid_get lower d a = Ok l ->
    rep (hset h l v) d /\ forall n, cur (hset h l v) d n = if str_eqb n (lower a) then v else cur h d n.
  Proof.
    intros [Hok Hl Ha Hk Hc] Hg. destruct (get_key lower d a l Hg) as (k0 & Hk0 & Hd0).
    assert (Hlt : l < List.length h) by (apply Ha; now apply get_In in Hg).
    pose proof (dget_In _ _ _ Hd0) as Hin0. split.
    - constructor; auto.
      + intros x Hx. rewrite hset_length. auto.
      + intros k1 l1 H1. rewrite hget_hset by exact Hlt. destruct (Nat.eqb_spec l1 l) as [->|Hn]; [|auto].
        left. assert (k1 = k0) by (eapply snd_inj; eauto). subst k1. assert (E : lower k0 = lower a) by (apply (proj2 (proj2 Hok)); exact Hk0).
        now rewrite E.
    - intros n. unfold cur. destruct (str_eqb_spec n (lower a)) as [->|Hn].
      + rewrite Hk0, Hd0. rewrite hget_hset by exact Hlt. now rewrite Nat.eqb_refl.
      + destruct (dget (ckeys d) n) as [k|] eqn:G; [|reflexivity]. destruct (dget (cdata d) k) as [l1|] eqn:G1; [|reflexivity].
        rewrite hget_hset by exact Hlt. destruct (Nat.eqb_spec l1 l) as [->|]; [|reflexivity].
        assert (k = k0) by (eapply snd_inj; [exact Hl|apply dget_In; exact G1|exact Hin0]). subst k.
        apply (proj2 (proj2 Hok)) in G. apply (proj2 (proj2 Hok)) in Hk0. elim Hn. now rewrite <- (proj1 G), <- (proj1 Hk0).
  Qed.

  Lemma ddel_snd_NoDup (dl : list (str * loc)) k : NoDup (map snd dl) -> NoDup (map snd (ddel dl k)).
  Proof.
    induction dl as [|[a b] dl IH]; cbn [ddel map snd]; intros H; [constructor|]. inversion H as [|? ? Hn Nd]; subst.
    destruct (str_eqb a k); [exact Nd|]. cbn [map snd]. constructor; [|auto]. intros X. apply in_map_iff in X.
    destruct X as (y & E & X). apply ddel_In in X. apply Hn. apply in_map_iff. eauto.
  Qed.
  Lemma rep_del h d a l : rep h d -> cid_get lower d a = Ok l ->
    rep h (fst (cid_del lower d a)) /\ (forall n, cur h (fst (cid_del lower d a)) n = if str_eqb n (lower a) then [] else cur h d n) /\
    cdata (fst (cid_del lower d a)) = ddel (cdata d) (match dget (ckeys d) (lower a) with Some k => k | None => [] end) /\
    (forall n, n <> lower a -> dget (ckeys (fst (cid_del lower d a))) n = dget (ckeys d) n).
  Proof.
    intros [Hok Hl Ha Hk Hc] Hg. destruct (get_key lower d a l Hg) as (k0 & Hk0 & Hd0). unfold cid_del. rewrite Hk0, Hd0. cbn [fst].
    destruct Hok as (N1 & N2 & Hok). assert (Hl0 : lower k0 = lower a) by now apply Hok.
    assert (G0 : forall n k, dget (ddel (ckeys d) (lower a)) n = Some k -> n <> lower a /\ dget (ckeys d) n = Some k).
    { intros n k G. destruct (str_eq_dec n (lower a)) as [->|Hn]; [rewrite dget_ddel_eq in G by exact N1; discriminate|].
      split; [exact Hn|]. rewrite dget_ddel_neq in G; congruence. }
    split; [|split; [|split]].
    - constructor; cbn [ckeys cdata].
      + split; [now apply ddel_NoDup|]. split; [now apply ddel_NoDup|]. intros n k G. destruct (G0 n k G) as [Hn Hg2].
        destruct (Hok n k Hg2) as [E1 [v E2]]. split; [exact E1|]. exists v. cbn [cdata]. rewrite dget_ddel_neq; [exact E2|]. congruence.
      + now apply ddel_snd_NoDup.
      + intros x Hx. apply Ha. apply in_map_iff in Hx. destruct Hx as (y & E & Hy). apply ddel_In in Hy. apply in_map_iff. eauto.
      + intros x Hx. apply Hk. apply in_map_iff in Hx. destruct Hx as (y & E & Hy). apply ddel_In in Hy. apply in_map_iff. eauto.
      + intros k1 l1 H1. pose proof (ddel_In _ _ _ H1) as H1'.
        assert (k1 <> k0). { intros ->. assert (X : dget (ddel (cdata d) k0) k0 = Some l1) by (apply dget_In_NoDup; [now apply ddel_NoDup|exact H1]).
          rewrite dget_ddel_eq in X by exact N2. discriminate. }
        destruct (Hc k1 l1 H1') as [X|X]; [|now right]. left. rewrite dget_ddel_neq; [exact X|]. intros E. rewrite <- E in X. congruence.
    - intros n. unfold cur. cbn [ckeys cdata]. destruct (str_eqb_spec n (lower a)) as [->|Hn]; [now rewrite dget_ddel_eq|].
      rewrite dget_ddel_neq by congruence. destruct (dget (ckeys d) n) as [k|] eqn:G; [|reflexivity].
      rewrite dget_ddel_neq; [reflexivity|]. intros <-. apply Hok in G. destruct G as [G _]. congruence.
    - reflexivity.
    - intros n Hn. cbn [ckeys]. rewrite dget_ddel_neq; congruence.
  Qed.

  (** ** Loops inside one call *)
  Lemma add_vals_eq (d : cid loc) a (l : loc) vs : cid_get lower d a = Ok l -> forall h, l < List.length h ->
    add_vals lower h d a vs = hset h l (addnew (hget h l) vs).
  Proof.
    intros Hg. induction vs as [|v vs IH]; intros h Hlt; cbn [add_vals addnew]; [now rewrite hset_same|].
    rewrite Hg. destruct (smem v (hget h l)) eqn:M; [now apply IH|].
    rewrite IH by (now rewrite hset_length). rewrite hset_hset, hget_hset by exact Hlt. now rewrite Nat.eqb_refl.
  Qed.
  Lemma nth_skipn {A} (L : list A) : forall i, match nth_error L i with Some v => skipn i L = v :: skipn (S i) L | None => skipn i L = [] end.
  Proof. induction L as [|x L IH]; intros [|i]; cbn [nth_error skipn]; auto. apply IH. Qed.
  Lemma del_vals_eq (d : cid loc) a (l dl : loc) : cid_get lower d a = Ok l -> dl <> l -> forall fuel i h, l < List.length h ->
    del_vals lower fuel i h d a dl = hset h l (removes (firstn fuel (skipn i (hget h dl))) (hget h l)).
  Proof.
    intros Hg Hne. induction fuel as [|f IH]; intros i h Hlt; cbn [del_vals]; [cbn; now rewrite hset_same|].
    pose proof (nth_skipn (hget h dl) i) as E. destruct (nth_error (hget h dl) i) as [v|].
    - rewrite E, Hg. cbn [firstn]. rewrite IH by (now rewrite hset_length). rewrite hset_hset, !hget_hset by exact Hlt.
      rewrite Nat.eqb_refl. apply Nat.eqb_neq in Hne. now rewrite Hne.
    - rewrite E, firstn_nil. cbn. now rewrite hset_same.
  Qed.
End R.
