(** * Proofs about string preparation *)
From Verif Require Import PyBase Model_Modify Model_PrepTable Model_Prep Spec_PrepTable Spec_Prep.

Lemma in_ranges_In l c : in_ranges l c = true <-> In_table l c.
Proof.
  unfold in_ranges, In_table. rewrite existsb_exists. split.
  - intros [[lo hi] [Hi Hb]]. apply andb_true_iff in Hb as [H1 H2]; cbn [fst snd] in *.
    apply N.leb_le in H1, H2. exists lo, hi; auto.
  - intros [lo [hi [Hi [H1 H2]]]]. exists (lo, hi). split; auto. cbn [fst snd].
    apply N.leb_le in H1, H2. now rewrite H1, H2.
Qed.

(** ** Two unions of ranges are equal iff they agree on the break points *)
Definition bps (l : list (N * N)) : list N := flat_map (fun r => [fst r; N.succ (snd r)]) l.
Definition floor_bp (bs : list N) (c : N) : N :=
  fold_right (fun b m => if (b <=? c)%N then N.max b m else m) 0%N bs.

Lemma floor_le bs c : (floor_bp bs c <= c)%N.
Proof. induction bs as [|b bs IH]; cbn [floor_bp fold_right]; [lia|]. fold (floor_bp bs c).
  destruct (N.leb_spec b c); lia. Qed.
Lemma floor_ge bs c b : In b bs -> (b <= c)%N -> (b <= floor_bp bs c)%N.
Proof.
  induction bs as [|b' bs IH]; cbn [floor_bp fold_right In]; [tauto|]. fold (floor_bp bs c).
  intros [->|Hi] Hc.
  - destruct (N.leb_spec b c); lia.
  - specialize (IH Hi Hc). destruct (N.leb_spec b' c); lia.
Qed.
Lemma floor_in bs c : In (floor_bp bs c) (0%N :: bs).
Proof.
  induction bs as [|b bs IH]; cbn [floor_bp fold_right]; [now left|]. fold (floor_bp bs c).
  destruct (N.leb_spec b c).
  - destruct (N.max_spec b (floor_bp bs c)) as [[_ ->]|[_ ->]].
    + destruct IH as [IH|IH]; [now left|now right; right].
    + now right; left.
  - destruct IH as [IH|IH]; [now left|now right; right].
Qed.

Lemma in_ranges_floor l bs c : incl (bps l) bs -> in_ranges l c = in_ranges l (floor_bp bs c).
Proof.
  intros Hi. unfold in_ranges. induction l as [|[lo hi] l IH]; [reflexivity|].
  cbn [existsb]. rewrite IH by (intros x Hx; apply Hi; right; right; exact Hx).
  f_equal. cbn [fst snd].
  pose proof (floor_le bs c) as Hf.
  assert (Hlo : In lo bs) by (apply Hi; left; reflexivity).
  assert (Hhi : In (N.succ hi) bs) by (apply Hi; right; left; reflexivity).
  pose proof (floor_ge bs c lo Hlo) as G1. pose proof (floor_ge bs c _ Hhi) as G2.
  destruct (N.leb_spec lo c), (N.leb_spec c hi), (N.leb_spec lo (floor_bp bs c)),
    (N.leb_spec (floor_bp bs c) hi); cbn [andb]; try reflexivity; exfalso; lia.
Qed.

Definition agree_on (f g : N -> bool) (bs : list N) : bool :=
  forallb (fun c => Bool.eqb (f c) (g c)) (0%N :: bs).

(** the code's table = the RFC's, plus the letter F, minus U+0350-U+035F *)
Definition expected (c : N) : bool :=
  in_ranges rfc4518_prohibited c && negb (in_ranges [(848,863)]%N c) || in_ranges [(70,70)]%N c.
Definition table_bps : list N :=
  bps prohibited_ranges ++ bps rfc4518_prohibited ++ bps [(848,863)]%N ++ bps [(70,70)]%N.

Lemma tables_agree_on_bps : agree_on (in_ranges prohibited_ranges) expected table_bps = true.
Proof. vm_compute. reflexivity. Qed.

Lemma agree_everywhere l r m f bs :
  incl (bps l) bs -> incl (bps r) bs -> incl (bps m) bs -> incl (bps f) bs ->
  agree_on (in_ranges l) (fun c => in_ranges r c && negb (in_ranges m c) || in_ranges f c) bs = true ->
  forall c, in_ranges l c = in_ranges r c && negb (in_ranges m c) || in_ranges f c.
Proof.
  intros Hl Hr Hm Hf H c. unfold agree_on in H. rewrite forallb_forall in H.
  specialize (H _ (floor_in bs c)). apply eqb_prop in H.
  rewrite (in_ranges_floor l bs c Hl), (in_ranges_floor r bs c Hr), (in_ranges_floor m bs c Hm),
    (in_ranges_floor f bs c Hf). exact H.
Qed.

Lemma tables_agree c : in_ranges prohibited_ranges c = expected c.
Proof.
  refine (agree_everywhere prohibited_ranges rfc4518_prohibited [(848,863)]%N [(70,70)]%N table_bps
            _ _ _ _ tables_agree_on_bps c);
    intros x Hx; unfold table_bps; rewrite !in_app_iff; tauto.
Qed.

Lemma code_table_exact c :
  In_table prohibited_ranges c <->
  (In_table rfc4518_prohibited c /\ ~ (848 <= c <= 863)%N) \/ c = 70%N.
Proof.
  rewrite <- in_ranges_In, tables_agree. unfold expected.
  rewrite orb_true_iff, andb_true_iff, negb_true_iff, in_ranges_In.
  unfold in_ranges; cbn [existsb fst snd].
  rewrite !orb_false_r.
  split; intros [H|H]; [left|right|left|right]; try lia.
  - destruct H as [H1 H2]; split; [exact H1|lia].
  - destruct H as [H1 H2]; split; [exact H1|lia].
Qed.

Lemma missing_range_is_prohibited c : (848 <= c <= 863)%N -> In_table rfc4518_prohibited c.
Proof.
  intros H. exists 848%N, 863%N. split; [|lia].
  assert (E : existsb (fun r => N.eqb (fst r) 848 && N.eqb (snd r) 863)%N rfc4518_prohibited = true)
    by (vm_compute; reflexivity).
  apply existsb_exists in E as [[lo hi] [Hi E]]. cbn [fst snd] in E.
  apply andb_true_iff in E as [E1 E2]. apply N.eqb_eq in E1, E2. subst. exact Hi.
Qed.

(** ** strip *)
Definition ends_ok (p : N -> bool) (s : str) : Prop :=
  match s with [] => True | c :: _ => p c = false end.

Lemma lstrip_app_all p a b : Forall (fun c => p c = true) a -> lstrip p (a ++ b) = lstrip p b.
Proof. induction 1 as [|c a Hc Ha IH]; cbn [app lstrip]; [reflexivity|]. now rewrite Hc. Qed.
Lemma lstrip_ok p s : ends_ok p s -> lstrip p s = s.
Proof. destruct s as [|c s]; cbn; auto. intros ->; reflexivity. Qed.
Lemma lstrip_ends p s : ends_ok p (lstrip p s).
Proof. induction s as [|c s IH]; cbn [lstrip]; [exact I|]. destruct (p c) eqn:E; auto. Qed.
Lemma lstrip_suffix p s : exists a, s = a ++ lstrip p s /\ Forall (fun c => p c = true) a.
Proof.
  induction s as [|c s [a [E F]]]; cbn [lstrip]; [exists []; auto|].
  destruct (p c) eqn:Ec; [|exists []; auto].
  exists (c :: a). cbn [app]. rewrite <- E. auto.
Qed.

Lemma strip_core p a core b :
  Forall (fun c => p c = true) a -> Forall (fun c => p c = true) b ->
  ends_ok p core -> ends_ok p (rev core) -> strip_by p (a ++ core ++ b) = core.
Proof.
  intros Ha Hb H1 H2. unfold strip_by, rstrip. rewrite lstrip_app_all by exact Ha.
  destruct core as [|c core].
  - cbn [app]. replace (lstrip p b) with (@nil N); [reflexivity|].
    rewrite <- (app_nil_r b). rewrite lstrip_app_all by exact Hb. reflexivity.
  - rewrite (lstrip_ok p ((c :: core) ++ b)) by exact H1.
    rewrite rev_app_distr, lstrip_app_all by (apply Forall_rev; exact Hb).
    rewrite lstrip_ok by exact H2. apply rev_involutive.
Qed.

Lemma strip_decomp p s : exists a core b, s = a ++ core ++ b /\ strip_by p s = core /\
  Forall (fun c => p c = true) a /\ Forall (fun c => p c = true) b /\
  ends_ok p core /\ ends_ok p (rev core).
Proof.
  destruct (lstrip_suffix p s) as [a [Ea Fa]].
  set (t := lstrip p s) in *.
  destruct (lstrip_suffix p (rev t)) as [b [Eb Fb]].
  exists a, (rev (lstrip p (rev t))), (rev b).
  assert (Et : t = rev (lstrip p (rev t)) ++ rev b).
  { rewrite <- rev_app_distr, <- Eb. symmetry; apply rev_involutive. }
  repeat split.
  - rewrite <- Et. exact Ea.
  - exact Fa.
  - now apply Forall_rev.
  - destruct (rev (lstrip p (rev t))) as [|c core] eqn:E; [exact I|].
    pose proof (lstrip_ends p s) as He. fold t in He. rewrite Et in He.
    exact He.
  - rewrite rev_involutive. apply lstrip_ends.
Qed.

(** ** sub_spaces *)
Lemma sub_no_space rep b w r : no_space w -> w <> [] ->
  sub_spaces rep b (w ++ r) = w ++ sub_spaces rep false r.
Proof.
  revert b; induction w as [|c w IH]; intros b Hn Hne; [congruence|].
  cbn [app sub_spaces]. destruct (N.eqb_spec c 32) as [->|Hc].
  - exfalso; apply Hn; left; reflexivity.
  - f_equal. destruct w as [|d w]; [reflexivity|].
    apply IH; [|discriminate]. intros Hi; apply Hn; right; exact Hi.
Qed.
Lemma sub_run rep s r : all_spaces s -> sub_spaces rep true (s ++ r) = sub_spaces rep true r.
Proof. induction 1 as [|c s Hc Hs IH]; [reflexivity|]. subst c. cbn [app sub_spaces]. exact IH. Qed.
Lemma sub_spaces_run rep s c r : all_spaces s -> s <> [] -> c <> 32%N ->
  sub_spaces rep false (s ++ c :: r) = rep ++ sub_spaces rep false (c :: r).
Proof.
  intros Hs Hne Hc. destruct Hs as [|x s Hx Hs]; [congruence|]. subst x.
  cbn [app sub_spaces]. change (N.eqb 32 32) with true. cbn [andb].
  rewrite sub_run by exact Hs. cbn [sub_spaces].
  destruct (N.eqb_spec c 32); [contradiction|reflexivity].
Qed.

(** ** Words *)
Lemma all_spaces_app a b : all_spaces a -> all_spaces b -> all_spaces (a ++ b).
Proof. apply (fun A B => proj2 (Forall_app _ a b) (@Logic.conj _ _ A B)). Qed.

Lemma Words_prefix a s ws : all_spaces a -> Words s ws -> Words (a ++ s) ws.
Proof.
  intros Ha HW. destruct HW.
  - constructor. now apply all_spaces_app.
  - rewrite app_assoc. constructor; auto. now apply all_spaces_app.
  - rewrite app_assoc. constructor; auto. now apply all_spaces_app.
Qed.

Lemma Words_good s ws : Words s ws -> Forall (fun w => no_space w /\ w <> []) ws.
Proof. induction 1; auto. Qed.

Lemma Words_total s : exists ws, Words s ws.
Proof.
  induction s as [|c s [ws IH]]; [exists []; constructor; constructor|].
  destruct (N.eq_dec c 32) as [->|Hc].
  - exists ws. apply (Words_prefix [32%N]); auto. repeat constructor.
  - assert (Hn : no_space [c]) by (intros [H|[]]; congruence).
    destruct s as [|d s].
    + exists [[c]]. apply (Words_last [] [c] []); auto; try constructor. discriminate.
    + destruct (N.eq_dec d 32) as [->|Hd].
      * destruct ws as [|w ws].
        -- exists [[c]]. inversion IH; subst. apply (Words_last [] [c] (32%N :: s)); auto; [constructor|discriminate].
        -- exists ([c] :: w :: ws). apply (Words_more [] [c] s); auto; try constructor; discriminate.
      * inversion IH as [x Hx|x w s' Hx Hw Hne Hs' E E'|x w r ws' Hx Hw Hne HW Hws E E'].
        -- subst. inversion Hx; contradiction.
        -- subst ws. destruct Hx as [|y x Hy Hx]; [|cbn [app] in E; congruence].
           cbn [app] in E. exists [c :: w]. try rewrite <- E. cbn [app].
           change (c :: w ++ s') with ([] ++ (c :: w) ++ s').
           apply Words_last; auto; try constructor; try discriminate.
           intros [H|H]; [congruence|]. now apply Hw.
        -- subst ws. destruct Hx as [|y x Hy Hx]; [|cbn [app] in E; congruence].
           cbn [app] in E. exists ((c :: w) :: ws'). try rewrite <- E. cbn [app].
           change (c :: w ++ 32%N :: r) with ([] ++ (c :: w) ++ 32%N :: r).
           apply Words_more; auto; try constructor; try discriminate.
           intros [H|H]; [congruence|]. now apply Hw.
Qed.

Definition only_plain_space (v : str) : Prop := Forall (fun c => py_isspace c = true -> c = 32%N) v.

Lemma space_is_pyspace : py_isspace 32 = true.
Proof. vm_compute. reflexivity. Qed.

Lemma word_start w : no_space w -> w <> [] -> exists c t, w = c :: t /\ c <> 32%N.
Proof. destruct w as [|c t]; [congruence|]. intros H _; exists c, t; split; auto.
  intros ->; apply H; left; auto. Qed.

(** the stripped core of a string with given words *)
Lemma Words_core s ws : Words s ws ->
  exists a core b, s = a ++ core ++ b /\ all_spaces a /\ all_spaces b /\
    sub_spaces [32%N;32%N] false core = two_between ws /\
    (ws = [] -> core = []) /\
    (ws <> [] -> exists c t d u, core = c :: t /\ c <> 32%N /\ core = u ++ [d] /\ d <> 32%N).
Proof.
  induction 1 as [s Hs|s w s' Hs Hw Hne Hs'|s w r ws Hs Hw Hne HW IH Hws].
  - exists s, [], []. split; [cbn [app]; now rewrite app_nil_r|]. split; [exact Hs|]. split; [constructor|]. split; [reflexivity|]. split; [auto|congruence].
  - exists s, w, s'. repeat split; auto; [|discriminate|].
    + rewrite <- (app_nil_r w) at 1. rewrite sub_no_space by auto. cbn. now rewrite app_nil_r.
    + intros _. destruct (word_start w Hw Hne) as [c [t [E Hc]]].
      destruct (exists_last Hne) as [u [d Eu]].
      exists c, t, d, u. repeat split; auto.
      intros ->. apply Hw. rewrite Eu. apply in_app_iff; right; left; auto.
  - destruct IH as [a [core [b [E [Ha [Hb [Hsub [_ Hends]]]]]]]].
    destruct (Hends Hws) as [c [t [d [u [Ec [Hc [Eu Hd]]]]]]].
    assert (Hane : a <> []).
    { destruct a; [|discriminate]. cbn [app] in E. rewrite Ec in E. cbn [app] in E. congruence. }
    exists s, (w ++ a ++ core), b. split; [|split; [|split; [|split; [|split]]]]; auto.
    + rewrite E, !app_assoc. reflexivity.
    + rewrite sub_no_space by auto. rewrite Ec at 1. rewrite sub_spaces_run by auto.
      rewrite <- Ec, Hsub. destruct ws; [congruence|]. reflexivity.
    + congruence.
    + intros _. destruct (word_start w Hw Hne) as [c' [t' [E' Hc']]].
      exists c', (t' ++ a ++ core), d, (w ++ a ++ u). repeat split; auto.
      * now rewrite E'.
      * rewrite Eu, !app_assoc. reflexivity.
Qed.

Lemma insig_space_words v ws : only_plain_space v -> Words v ws -> insig_space v = canonical ws.
Proof.
  intros Ho HW. destruct (Words_core v ws HW) as [a [core [b [E [Ha [Hb [Hsub [Hnil Hends]]]]]]]].
  unfold insig_space, canonical, py_strip.
  assert (Hst : strip_by py_isspace v = core).
  { subst v. apply strip_core.
    - eapply Forall_impl; [|exact Ha]. intros c ->. apply space_is_pyspace.
    - eapply Forall_impl; [|exact Hb]. intros c ->. apply space_is_pyspace.
    - destruct ws as [|w ws]; [rewrite Hnil by auto; exact I|].
      destruct Hends as [c [t [d [u [Ec [Hc _]]]]]]; [discriminate|].
      rewrite Ec. cbn. destruct (py_isspace c) eqn:Es; auto.
      exfalso; apply Hc. unfold only_plain_space in Ho. rewrite Forall_forall in Ho. apply Ho; auto.
      rewrite Ec. apply in_app_iff; right. left; auto.
    - destruct ws as [|w ws]; [rewrite Hnil by auto; exact I|].
      destruct Hends as [c [t [d [u [_ [_ [Eu Hd]]]]]]]; [discriminate|].
      rewrite Eu, rev_app_distr. cbn. destruct (py_isspace d) eqn:Es; auto.
      exfalso; apply Hd. unfold only_plain_space in Ho. rewrite Forall_forall in Ho. apply Ho; auto.
      rewrite Eu. apply in_app_iff; right. apply in_app_iff; left. apply in_app_iff; right; left; auto. }
  rewrite Hst, Hsub. reflexivity.
Qed.

(** canonical is injective on words *)
Definition sep_or_end (r : str) : Prop := r = [] \/ exists r', r = 32%N :: r'.
Lemma split_first_word w w' r r' : no_space w -> no_space w' -> sep_or_end r -> sep_or_end r' ->
  w ++ r = w' ++ r' -> w = w' /\ r = r'.
Proof.
  revert w'; induction w as [|c w IH]; intros [|c' w'] Hw Hw' Hr Hr' E; cbn [app] in E.
  - auto.
  - exfalso. destruct Hr as [->|[r0 ->]]; [discriminate|]. injection E as Ec _. apply Hw'; left; auto.
  - exfalso. destruct Hr' as [->|[r0 ->]]; [discriminate|]. injection E as Ec _. apply Hw; left; auto.
  - injection E as -> E. destruct (IH w') as [-> ->]; auto.
    + intros H; apply Hw; right; auto.
    + intros H; apply Hw'; right; auto.
Qed.

Lemma two_between_inj ws ws' :
  Forall (fun w => no_space w /\ w <> []) ws -> Forall (fun w => no_space w /\ w <> []) ws' ->
  two_between ws = two_between ws' -> ws = ws'.
Proof.
  revert ws'; induction ws as [|w ws IH]; intros ws' H H' E.
  - destruct ws' as [|w' ws']; auto. inversion H' as [|? ? [Hn Hne] _]; subst.
    exfalso. destruct w'; [congruence|]. destruct ws'; discriminate.
  - inversion H as [|? ? [Hn Hne] H0]; subst.
    destruct ws' as [|w' ws'].
    { exfalso. destruct w; [congruence|]. destruct ws; discriminate. }
    inversion H' as [|? ? [Hn' Hne'] H0']; subst.
    assert (E2 : exists r r', two_between (w :: ws) = w ++ r /\ two_between (w' :: ws') = w' ++ r' /\
                 sep_or_end r /\ sep_or_end r' /\
                 (r = r' -> (ws = [] <-> ws' = []) /\ two_between ws = two_between ws')).
    { destruct ws as [|x ws], ws' as [|x' ws'].
      - exists [], []. cbn [two_between]. rewrite !app_nil_r. unfold sep_or_end. intuition.
      - exists [], ([32%N;32%N] ++ two_between (x' :: ws')). split; [cbn; now rewrite app_nil_r|].
        split; [reflexivity|]. split; [left; auto|]. split; [right; eexists; reflexivity|]. discriminate.
      - exists ([32%N;32%N] ++ two_between (x :: ws)), []. split; [reflexivity|].
        split; [cbn; now rewrite app_nil_r|]. split; [right; eexists; reflexivity|]. split; [left; auto|]. discriminate.
      - exists ([32%N;32%N] ++ two_between (x :: ws)), ([32%N;32%N] ++ two_between (x' :: ws')).
        split; [reflexivity|]. split; [reflexivity|].
        split; [right; eexists; reflexivity|]. split; [right; eexists; reflexivity|].
        intros Er. injection Er as Er. split; [split; discriminate|exact Er]. }
    destruct E2 as [r [r' [E1 [E2 [S1 [S2 Hrr]]]]]].
    rewrite E1, E2 in E. apply split_first_word in E as [-> Er]; auto.
    destruct (Hrr Er) as [_ Ew]. f_equal. apply IH; auto.
Qed.

Lemma canonical_inj ws ws' :
  Forall (fun w => no_space w /\ w <> []) ws -> Forall (fun w => no_space w /\ w <> []) ws' ->
  canonical ws = canonical ws' -> ws = ws'.
Proof.
  intros H H' E. unfold canonical in E. injection E as E.
  apply app_inv_tail in E. now apply two_between_inj.
Qed.

(** ** idempotence, for all strings *)
Lemma sub_idem_gen b s : sub_spaces [32%N;32%N] b (sub_spaces [32%N;32%N] b s) =
  sub_spaces [32%N;32%N] b s.
Proof.
  revert b; induction s as [|c s IH]; intros b; [reflexivity|].
  cbn [sub_spaces]. destruct (N.eqb_spec c 32) as [->|Hc].
  - destruct b; [apply IH|]. cbn [app sub_spaces].
    change (N.eqb 32 32) with true. cbn match. f_equal; f_equal. apply IH.
  - cbn [sub_spaces]. destruct (N.eqb_spec c 32); [contradiction|]. f_equal. apply IH.
Qed.

Lemma sub_head p b c s : p c = false -> c <> 32%N ->
  exists t, sub_spaces [32%N;32%N] b (c :: s) = c :: t.
Proof. intros _ Hc. cbn [sub_spaces]. destruct (N.eqb_spec c 32); [contradiction|]. eauto. Qed.
Lemma sub_last rep d u : d <> 32%N -> forall b, exists u', sub_spaces rep b (u ++ [d]) = u' ++ [d].
Proof.
  intros Hd. induction u as [|c u IH]; intros b; cbn [app sub_spaces].
  - destruct (N.eqb_spec d 32); [contradiction|]. exists []. reflexivity.
  - destruct (N.eqb c 32).
    + destruct (IH true) as [u' ->]. destruct b; [eauto|]. exists (rep ++ u'). now rewrite app_assoc.
    + destruct (IH false) as [u' ->]. exists (c :: u'). reflexivity.
Qed.

Lemma not_pyspace_ne c : py_isspace c = false -> c <> 32%N.
Proof. intros H ->. rewrite space_is_pyspace in H. discriminate. Qed.

Lemma sub_ends core : ends_ok py_isspace core -> ends_ok py_isspace (rev core) ->
  ends_ok py_isspace (sub_spaces [32%N;32%N] false core) /\
  ends_ok py_isspace (rev (sub_spaces [32%N;32%N] false core)).
Proof.
  intros H1 H2. destruct core as [|c t]; [split; exact I|]. split.
  - cbn in H1. destruct (sub_head py_isspace false c t H1 (not_pyspace_ne c H1)) as [t' ->]. exact H1.
  - destruct (exists_last (l := c :: t)) as [u [d Eu]]; [discriminate|].
    rewrite Eu in *. rewrite rev_app_distr in H2. cbn in H2.
    destruct (sub_last [32%N;32%N] d u (not_pyspace_ne d H2) false) as [u' ->].
    rewrite rev_app_distr. exact H2.
Qed.

Lemma insig_space_idem v : insig_space (insig_space v) = insig_space v.
Proof.
  unfold insig_space at 1 3. f_equal. f_equal.
  destruct (strip_decomp py_isspace v) as [a [core [b [_ [Ec [_ [_ [H1 H2]]]]]]]].
  destruct (sub_ends core H1 H2) as [H3 H4].
  assert (E : py_strip (insig_space v) = sub_spaces [32%N;32%N] false core).
  { unfold insig_space. unfold py_strip at 2. rewrite Ec. unfold py_strip.
    change (32%N :: sub_spaces [32%N;32%N] false core ++ [32%N])
      with ([32%N] ++ sub_spaces [32%N;32%N] false core ++ [32%N]).
    apply strip_core; auto; repeat constructor; apply space_is_pyspace. }
  rewrite E. rewrite sub_idem_gen. unfold py_strip. now rewrite Ec.
Qed.

(** ** numeric strings and phone numbers *)
Lemma insig_numeric_gen b v : Deleted (fun c => c = 32%N) v (sub_spaces [] b v).
Proof.
  revert b; induction v as [|c v IH]; intros b; cbn [sub_spaces]; [constructor|].
  destruct (N.eqb_spec c 32) as [->|Hc].
  - destruct b; cbn [app]; constructor; auto.
  - apply Deleted_keep; auto.
Qed.

Lemma phone_class c : in_ranges phone_ranges c = true <-> phone_ignored c.
Proof. unfold in_ranges, phone_ranges, phone_ignored; cbn [existsb fst snd]. lia. Qed.

Lemma insig_phone_spec v : Deleted phone_ignored v (insig_phone v).
Proof.
  unfold insig_phone. induction v as [|c v IH]; cbn [List.filter]; [constructor|].
  pose proof (phone_class c) as Hc. destruct (in_ranges phone_ranges c); cbn [negb].
  - apply Deleted_drop; tauto.
  - apply Deleted_keep; auto. intros H. apply Hc in H. discriminate.
Qed.

Lemma Deleted_fun P v a b : Deleted P v a -> Deleted P v b -> a = b.
Proof.
  intros H; revert b; induction H; intros b Hb; inversion Hb; subst; try contradiction; auto.
  f_equal; auto.
Qed.
Lemma Deleted_none P v : Forall (fun c => ~ P c) v -> Deleted P v v.
Proof. induction 1; [constructor|apply Deleted_keep; auto]. Qed.
Lemma Deleted_result P v a : Deleted P v a -> Forall (fun c => ~ P c) a.
Proof. induction 1; auto. Qed.

(** ** Map.characters *)
Lemma map_space_class c : in_ranges map_space_ranges c = true <-> rfc_space c.
Proof. unfold in_ranges, map_space_ranges, rfc_space; cbn [existsb fst snd]. lia. Qed.
Lemma map_nothing_class c : in_ranges map_nothing_ranges c = true <-> rfc_nothing c.
Proof. unfold in_ranges, map_nothing_ranges, rfc_nothing; cbn [existsb fst snd]. lia. Qed.
Lemma space_not_nothing c : rfc_space c -> ~ rfc_nothing c.
Proof. unfold rfc_space, rfc_nothing. lia. Qed.
Lemma pyspace_mapped c : py_isspace c = true -> rfc_space c \/ rfc_nothing c.
Proof. unfold py_isspace, in_ranges, py_space_ranges, rfc_space, rfc_nothing; cbn [existsb fst snd]. lia. Qed.

Lemma map_characters_spec v : Mapped v (map_characters v).
Proof.
  unfold map_characters. induction v as [|c v IH]; cbn [List.filter map]; [constructor|].
  pose proof (map_nothing_class c) as Hn. destruct (in_ranges map_nothing_ranges c); cbn [negb].
  - apply Mapped_nothing; tauto.
  - cbn [map]. pose proof (map_space_class c) as Hs. destruct (in_ranges map_space_ranges c).
    + apply Mapped_space; tauto.
    + apply Mapped_keep; auto; intros H; [apply Hn in H|apply Hs in H]; discriminate.
Qed.

Lemma Mapped_fun v a b : Mapped v a -> Mapped v b -> a = b.
Proof.
  intros H; revert b; induction H; intros b Hb; inversion Hb; subst; auto;
    try (exfalso; eapply space_not_nothing; eassumption); try contradiction; f_equal; auto.
Qed.

Lemma Mapped_plain v v' : Mapped v v' -> only_plain_space v'.
Proof.
  induction 1 as [|c v v' Hc Hm IH|c v v' Hc Hm IH|c v v' H1 H2 Hm IH]; auto.
  - constructor.
  - constructor; auto.
  - constructor; auto. intros Hp. apply pyspace_mapped in Hp. tauto.
Qed.

Lemma map_characters_idem v : map_characters (map_characters v) = map_characters v.
Proof.
  eapply Mapped_fun; [apply map_characters_spec|].
  assert (H : forall v v', Mapped v v' -> Mapped v' v').
  { induction 1; try assumption.
    - constructor.
    - apply Mapped_space; [unfold rfc_space; lia|assumption].
    - apply Mapped_keep; assumption. }
  eapply H; apply map_characters_spec.
Qed.

(** ** matching *)
Lemma eq_rule_match_ok ms a b r : mr_match (eq_rule ms) a b = Ok r ->
  exists pa pb, rule_prepare ms a = Ok pa /\ rule_prepare ms b = Ok pb /\ (r = true <-> pa = pb).
Proof.
  unfold mr_match, eq_rule; cbn [mr_prep mr_do_match].
  destruct (rule_prepare ms a) as [pa|]; cbn [bind]; [|discriminate].
  destruct (rule_prepare ms b) as [pb|]; cbn [bind]; [|discriminate].
  unfold eq_do_match. intros H. injection H as <-. exists pa, pb. repeat split; auto; apply str_eqb_eq.
Qed.

Lemma resplit_nonempty x p acc s : resplit x p acc s <> [].
Proof. revert p acc; induction s as [|c s IH]; intros p acc; cbn [resplit]; [discriminate|].
  destruct (_ && _); [discriminate|apply IH]. Qed.

Lemma dset_nonempty {V} (d : list (str * V)) k v : dset d k v <> [].
Proof. destruct d as [|[k' v'] d]; cbn; [discriminate|]. destruct (str_eqb k' k); discriminate. Qed.

Lemma parse_avas_nonempty l : l <> [] -> forall d d', parse_avas l d = Ok d' -> d' <> [].
Proof.
  assert (G : forall l d d', (d <> [] \/ l <> []) -> parse_avas l d = Ok d' -> d' <> []).
  { induction l0 as [|x l0 IH]; intros d d' H E; cbn [parse_avas] in E.
    - injection E as <-. destruct H; congruence.
    - destruct (unescaped_split (ch "=") x) as [|a [|v [|? ?]]]; try discriminate.
      eapply IH; [|exact E]. left. apply dset_nonempty. }
  intros H d d' E. eapply G; eauto.
Qed.

Lemma parse_dn_shape v ds : parse_dn v = Ok ds -> exists d ds', ds = d :: ds' /\ d <> [].
Proof.
  unfold parse_dn, unescaped_split. pose proof (resplit_nonempty (ch ",") None [] v) as Hn.
  destruct (resplit (ch ",") None [] v) as [|rdn l]; [congruence|]. cbn [parse_rdns].
  destruct (parse_avas _ []) as [d|] eqn:E; cbn [bind]; [|discriminate].
  destruct (parse_rdns l) as [ds0|]; cbn [bind]; [|discriminate].
  intros H. injection H as <-. exists d, ds0. split; auto.
  eapply parse_avas_nonempty; [|exact E]. unfold unescaped_split. apply resplit_nonempty.
Qed.

Lemma dn_never_true a b : mr_match distinguishedNameMatch a b <> Ok true.
Proof.
  unfold mr_match, distinguishedNameMatch; cbn [mr_prep mr_do_match rule_prepare fold_left bind].
  unfold dn_do_match_with.
  destruct (parse_dn a) as [da|] eqn:Ea; cbn [bind]; [|discriminate].
  destruct (parse_dn b) as [db|] eqn:Eb; cbn [bind]; [|discriminate].
  destruct (Nat.eqb _ _); [|discriminate].
  apply parse_dn_shape in Ea as [d [ds [-> Hd]]]. apply parse_dn_shape in Eb as [d' [ds' [-> Hd']]].
  cbn [dn_rdns_match]. destruct d as [|[k v] d]; [congruence|]. cbn [dn_avas_match].
  destruct (dget d' k); cbn [bind code_type_match]; discriminate.
Qed.
