From Verif Require Import PyBase Model_Uri Proofs_Uri Model_Config Spec_Config.
Ltac inv H := inversion H; subst; clear H.

Lemma dmem_In {V} (d : list (str * V)) k : dmem d k = true <-> In k (map fst d).
Proof.
  unfold dmem. induction d as [|[k' v] d IH]; cbn [dget map fst In].
  - split; [discriminate|tauto].
  - destruct (str_eqb_spec k' k) as [->|N]; [tauto|]. rewrite IH. split; [tauto|]. intros [->|H]; [congruence|auto].
Qed.

Lemma global_prefix n : In n global_names -> starts_with (lit "DEFAULT_") n = true /\
  starts_with (lit "DEFAULT_DEFAULT_") n = false.
Proof.
  intros H. assert (A : forallb (fun n => starts_with (lit "DEFAULT_") n && negb (starts_with (lit "DEFAULT_DEFAULT_") n)) global_names = true)
    by (vm_compute; reflexivity).
  rewrite forallb_forall in A. apply A in H. apply andb_true_iff in H as [H1 H2].
  apply negb_true_iff in H2. auto.
Qed.

Section S.
  Context (upper lower : str -> str).

  Lemma normalize_means k n : In n global_names -> (normalize upper k = n <-> means upper k n).
  Proof.
    intros Hn. destruct (global_prefix n Hn) as [P1 P2]. unfold normalize, means.
    destruct (starts_with (lit "DEFAULT_") (upper k)) eqn:E.
    - split; [auto|]. intros [H|H]; [exact H|]. exfalso. subst n.
      apply starts_with_spec in E as [r E]. rewrite E in P2.
      assert (starts_with (lit "DEFAULT_DEFAULT_") (lit "DEFAULT_" ++ lit "DEFAULT_" ++ r) = true)
        by (apply starts_with_spec; exists r; reflexivity). congruence.
    - split; [auto|]. intros [H|H]; [|exact H]. exfalso. subst n. congruence.
  Qed.

  Lemma normalize_known k : In (normalize upper k) global_names <-> known_key upper k.
  Proof.
    unfold known_key. split.
    - intros H. exists (normalize upper k). split; [exact H|]. now apply normalize_means.
    - intros (n & Hn & Hm). apply normalize_means in Hm; [|exact Hn]. now rewrite Hm.
  Qed.

  Lemma syntax_stored v v' : syntax_string upper v = Ok v' <-> stored upper (lit "DEFAULT_FILTER_SYNTAX") v v'.
  Proof.
    unfold stored. split.
    - intros H. right. split; [reflexivity|]. destruct v; cbn [syntax_string] in H; try discriminate H.
      exists s. split; [reflexivity|].
      destruct (str_eqb_spec (upper s) (lit "STANDARD")); [inv H; auto|].
      destruct (str_eqb_spec (upper s) (lit "SIMPLE")); [inv H; auto|].
      destruct (str_eqb_spec (upper s) (lit "UNIFIED")); [inv H; auto|discriminate].
    - intros [[H _]|(_ & s & -> & H)]; [now elim H|]. cbn [syntax_string].
      destruct H as [[-> ->]|[[-> ->]|[-> ->]]]; reflexivity.
  Qed.

  Lemma global_map_stored n v v' : global_map upper n v = Ok v' <-> stored upper n v v'.
  Proof.
    unfold global_map. destruct (str_eqb_spec n (lit "DEFAULT_FILTER_SYNTAX")) as [->|N].
    - apply syntax_stored.
    - unfold stored. split; [intros H; inv H; auto|]. intros [[_ ->]|[H _]]; [reflexivity|congruence].
  Qed.
  Lemma global_map_err n v e : global_map upper n v = Raise e ->
    n = lit "DEFAULT_FILTER_SYNTAX" /\ e = AttributeError.
  Proof.
    unfold global_map. destruct (str_eqb_spec n (lit "DEFAULT_FILTER_SYNTAX")) as [->|N]; [|discriminate].
    intros H; split; [reflexivity|]. destruct v; cbn [syntax_string] in H; try (inv H; reflexivity).
    destruct (str_eqb (upper s) (lit "STANDARD")); [discriminate|].
    destruct (str_eqb (upper s) (lit "SIMPLE")); [discriminate|].
    destruct (str_eqb (upper s) (lit "UNIFIED")); [discriminate|]. now inv H.
  Qed.

  Lemma defaults_dset defs k v : defaults_ok defs -> dmem defs k = true -> defaults_ok (dset defs k v).
  Proof.
    clear. intros [N K] M. assert (E : map fst (dset defs k v) = map fst defs).
    { clear N K. revert M. unfold dmem. induction defs as [|[k' v'] d IH]; cbn [dget dset map fst]; [discriminate|].
      destruct (str_eqb_spec k' k) as [->|Nk]; [reflexivity|]. intros M. cbn [map fst]. now rewrite IH. }
    split; rewrite E; auto.
  Qed.
  Lemma defaults_mem defs k : defaults_ok defs -> (dmem defs k = true <-> In k global_names).
  Proof. intros [_ K]. rewrite dmem_In. apply K. Qed.

  Lemma dget_dset_here (d : cdict) k v : dget (dset d k v) k = Some v.
  Proof.
    clear. induction d as [|[k' v'] d IH]; cbn [dset dget]; [now rewrite str_eqb_refl|].
    destruct (str_eqb k' k) eqn:E; cbn [dget]; rewrite E; auto.
  Qed.
  Lemma dget_dset_other (d : cdict) k v k2 : k <> k2 -> dget (dset d k v) k2 = dget d k2.
  Proof.
    clear. intros N. induction d as [|[k' v'] d IH]; cbn [dset dget].
    - rewrite (proj2 (str_eqb_neq k k2) N). reflexivity.
    - destruct (str_eqb_spec k' k) as [->|Nk]; cbn [dget].
      + rewrite (proj2 (str_eqb_neq k k2) N). reflexivity.
      + now rewrite IH.
  Qed.

  (** The loop, when every syntax is valid *)
  Lemma set_global_go_spec d : forall defs bad defs' r,
    defaults_ok defs -> syntaxes_ok upper d ->
    set_global_go upper defs bad d = (defs', r) ->
    defaults_ok defs' /\
    (forall n v v', In n global_names -> last_word upper d n v -> stored upper n v v' -> dget defs' n = Some v') /\
    (forall n, silent upper d n -> In n global_names -> dget defs' n = dget defs n) /\
    r = (if bad then Raise KeyError
         else if forallb (fun kv => dmem defs (normalize upper (fst kv))) d then Ok tt else Raise KeyError).
  Proof.
    induction d as [|[k v] d IH]; intros defs bad defs' r K V H; cbn [set_global_go] in H.
    - inv H. split; [exact K|]. split; [|split].
      + intros n v v' _ (pre & k & post & E & _). destruct pre; discriminate E.
      + reflexivity.
      + cbn. destruct bad; reflexivity.
    - assert (V' : syntaxes_ok upper d) by (intros k0 v0 I; apply (V k0 v0); now right).
      destruct (dmem defs (normalize upper k)) eqn:M.
      + set (n := normalize upper k) in *.
        assert (Hn : In n global_names) by now apply (defaults_mem defs).
        assert (Hm : means upper k n) by now apply normalize_means.
        destruct (global_map upper n v) as [v1|x] eqn:G.
        2:{ exfalso. destruct (global_map_err _ _ _ G) as [En _].
            destruct (V k v (or_introl eq_refl)) as [v1 S]; [rewrite <- En; exact Hm|].
            rewrite <- En in S. apply global_map_stored in S. congruence. }
        pose proof (defaults_dset defs n v1 K M) as K1.
        destruct (IH _ _ _ _ K1 V' H) as (A & B & C & D). split; [exact A|]. split; [|split].
        * intros m v0 v' Hg (pre & k0 & post & E & Hm0 & Hl) St.
          destruct pre as [|p pre]; cbn [app] in E.
          -- injection E as Ek Ev Ep. subst k0 v0 post.
             assert (En : n = m) by (apply normalize_means in Hm0; [subst n; exact Hm0|exact Hg]).
             subst m. rewrite C; [|exact Hl|exact Hg]. rewrite dget_dset_here.
             apply global_map_stored in St. congruence.
          -- injection E as _ E. apply (B m v0 v' Hg); [|exact St]. now exists pre, k0, post.
        * intros m Sm Hg. rewrite C; [|intros k0 v0 I; apply (Sm k0 v0); now right|exact Hg].
          apply dget_dset_other. intros <-. exact (Sm k v (or_introl eq_refl) Hm).
        * rewrite D. destruct bad; [reflexivity|]. cbn [forallb fst]. fold n. rewrite M. cbn [andb].
          assert (E : forallb (fun kv => dmem (dset defs n v1) (normalize upper (fst kv))) d =
                      forallb (fun kv => dmem defs (normalize upper (fst kv))) d).
          { clear - K K1. induction d as [|[k0 v0] d IH]; [reflexivity|]. cbn [forallb fst]. rewrite IH. f_equal.
            apply eq_true_iff_eq. rewrite !defaults_mem by assumption. tauto. }
          rewrite E. reflexivity.
      + destruct (IH _ _ _ _ K V' H) as (A & B & C & D). split; [exact A|].
        assert (Nm : forall m, In m global_names -> ~ means upper k m).
        { intros m Hg Hm. apply normalize_means in Hm; [|exact Hg]. rewrite <- Hm in Hg.
          apply (defaults_mem defs) in Hg; [congruence|exact K]. }
        split; [|split].
        * intros m v0 v' Hg (pre & k0 & post & E & Hm0 & Hl) St.
          destruct pre as [|p pre]; cbn [app] in E.
          -- injection E as Ek Ev Ep. subst k0 v0 post. now elim (Nm m).
          -- injection E as _ E. apply (B m v0 v' Hg); [|exact St]. now exists pre, k0, post.
        * intros m Sm Hg. apply C; [intros k0 v0 I; apply (Sm k0 v0); now right|exact Hg].
        * rewrite D. cbn [forallb fst]. rewrite M. cbn [andb]. destruct bad; reflexivity.
  Qed.

  (** The loop up to the first invalid syntax *)
  Lemma set_global_go_invalid pre k v post : forall defs bad,
    defaults_ok defs -> syntaxes_ok upper pre -> means upper k (lit "DEFAULT_FILTER_SYNTAX") ->
    (forall v', ~ stored upper (lit "DEFAULT_FILTER_SYNTAX") v v') ->
    set_global_go upper defs bad (pre ++ (k, v) :: post) =
      (fst (set_global_go upper defs bad pre), Raise AttributeError).
  Proof.
    induction pre as [|[k0 v0] pre IH]; intros defs bad K V M S; cbn [app set_global_go].
    - assert (Hn : In (lit "DEFAULT_FILTER_SYNTAX") global_names) by (do 21 right; left; reflexivity).
      apply normalize_means in M; [|exact Hn]. rewrite M.
      assert (E : dmem defs (lit "DEFAULT_FILTER_SYNTAX") = true) by now apply (defaults_mem defs).
      rewrite E. destruct (global_map upper (lit "DEFAULT_FILTER_SYNTAX") v) as [v1|x] eqn:G.
      + apply global_map_stored in G. now elim (S v1).
      + apply global_map_err in G as [_ ->]. reflexivity.
    - assert (V' : syntaxes_ok upper pre) by (intros k1 v1 I; apply (V k1 v1); now right).
      destruct (dmem defs (normalize upper k0)) eqn:E.
      + destruct (global_map upper (normalize upper k0) v0) as [v1|x] eqn:G.
        * apply IH; auto. now apply defaults_dset.
        * exfalso. destruct (global_map_err _ _ _ G) as [En _].
          destruct (V k0 v0 (or_introl eq_refl)) as [v1 St].
          { rewrite <- En. apply normalize_means; [|reflexivity]. now apply (defaults_mem defs). }
          rewrite <- En in St. apply global_map_stored in St. congruence.
      + now apply IH.
  Qed.
End S.

Lemma ascii_upper_ok : upper_ok ascii_upper.
Proof.
  split; [|split].
  - intros s. unfold ascii_upper. rewrite map_map. apply map_ext. intros c.
    destruct ((97 <=? c) && (c <=? 122))%N eqn:E; [|rewrite E; reflexivity].
    destruct ((97 <=? c - 32) && (c - 32 <=? 122))%N eqn:E2; [lia|reflexivity].
  - intros a b. apply map_app.
  - reflexivity.
Qed.

Lemma initial_defaults_ok : defaults_ok initial_defaults.
Proof.
  split.
  - assert (forall l : list str, (forallb (fun p => forallb (fun q => Bool.eqb (str_eqb (snd p) (snd q)) (Nat.eqb (fst p) (fst q)))
       (combine (seq 0 (List.length l)) l)) (combine (seq 0 (List.length l)) l)) = true -> NoDup l).
    { intros l H. rewrite NoDup_nth_error. intros i j Hi E.
      rewrite forallb_forall in H. destruct (nth_error l i) as [x|] eqn:Ei; [|apply nth_error_None in Ei; lia].
      symmetry in E. assert (Hj : j < List.length l) by (apply nth_error_Some; congruence).
      assert (A : forall i x, nth_error l i = Some x -> In (i, x) (combine (seq 0 (List.length l)) l)).
      { clear. intros i x H. apply nth_error_In with (n := i).
        assert (L : forall (l : list str) s i x, nth_error l i = Some x ->
                  nth_error (combine (seq s (List.length l)) l) i = Some (s + i, x)).
        { induction l0 as [|y l0 IH]; intros s [|j] z Hz; cbn in *; try discriminate.
          - injection Hz as ->. now rewrite Nat.add_0_r.
          - rewrite (IH (S s) j z Hz). f_equal. f_equal. lia. }
        now rewrite (L l 0 i x H). }
      pose proof (H _ (A _ _ Ei)) as H1. rewrite forallb_forall in H1. specialize (H1 _ (A _ _ E)).
      cbn [fst snd] in H1. rewrite str_eqb_refl in H1. apply Bool.eqb_prop in H1. symmetry in H1.
      now apply Nat.eqb_eq in H1. }
    apply H. vm_compute. reflexivity.
  - intros n. assert (E : map fst initial_defaults = global_names) by (vm_compute; reflexivity).
    rewrite E. tauto.
Qed.
