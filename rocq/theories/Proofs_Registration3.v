From Coq Require Import Permutation.
From Verif Require Import PyBase Model_Uri Proofs_Uri Model_Registration Spec_Registration Proofs_Registration Proofs_Registration2.

Definition olist {A} (o : option (list A)) : list A := match o with Some l => l | None => [] end.
Definition padd (m : str) (pre : list (str * list elem)) (e : elem) : list (str * list elem) :=
  dset pre m (olist (dget pre m) ++ [e]).

Lemma dset_dset {V} (d : list (str * V)) k a b : dset (dset d k a) k b = dset d k b.
Proof.
  induction d as [|[k' v'] d IH]; cbn [dset].
  - now rewrite str_eqb_refl.
  - destruct (str_eqb k' k) eqn:E; cbn [dset]; rewrite E; [reflexivity|now rewrite IH].
Qed.

Lemma prereg_padd m b : forall pre, fold_left (prereg m) b pre = fold_left (padd m) (declared b) pre.
Proof.
  induction b as [|[attr v] b IH]; intros pre; cbn [fold_left declared]; [reflexivity|].
  rewrite IH. unfold prereg.
  assert (Hst : starts_with (lit "_") attr = match attr with c :: _ => N.eqb c (ch "_") | [] => false end).
  { destruct attr as [|c attr]; [reflexivity|]. unfold starts_with. cbn [lit strip_prefix].
    change (N_of_ascii "_") with (ch "_"). rewrite N.eqb_sym. destruct (N.eqb c (ch "_")); reflexivity. }
  rewrite Hst. destruct v as [e|].
  - assert (Hp : match dget (if dmem pre m then pre else dset pre m []) m with
                 | Some l => dset (if dmem pre m then pre else dset pre m []) m (l ++ [e])
                 | None => (if dmem pre m then pre else dset pre m []) end = padd m pre e).
    { unfold padd, dmem. destruct (dget pre m) as [l|] eqn:El; cbn [olist].
      - rewrite El. reflexivity.
      - rewrite dget_dset_eq. now rewrite dset_dset. }
    cbv zeta.
    destruct attr as [|c attr]; [cbn [fold_left]; f_equal; exact Hp|].
    destruct (N.eqb c (ch "_")); cbn [fold_left]; [reflexivity|f_equal; exact Hp].
  - destruct attr as [|c attr]; [reflexivity|]. destruct (N.eqb c (ch "_")); reflexivity.
Qed.

Lemma padds_get m es : forall pre k,
  olist (dget (fold_left (padd m) es pre) k) = olist (dget pre k) ++ (if str_eqb m k then es else []).
Proof.
  induction es as [|e es IH]; intros pre k; cbn [fold_left].
  - destruct (str_eqb m k); now rewrite app_nil_r.
  - rewrite IH. unfold padd. rewrite dget_dset. destruct (str_eqb_spec m k) as [->|Hn]; [|now rewrite !app_nil_r].
    cbn [olist]. now rewrite <- app_assoc.
Qed.
Definition nonempty (pre : list (str * list elem)) : Prop := Forall (fun ke => snd ke <> []) pre.
Lemma dset_Forall {V} (P : str * V -> Prop) d k v : (forall k', P (k', v)) -> Forall P d -> Forall P (dset d k v).
Proof.
  intros Hv. induction 1 as [|[k' v'] d H Hd IH]; cbn [dset]; [constructor; [apply Hv|constructor]|].
  destruct (str_eqb k' k); constructor; auto.
Qed.
Lemma padds_nonempty m es : forall pre, nonempty pre -> nonempty (fold_left (padd m) es pre).
Proof.
  induction es as [|e es IH]; intros pre H; cbn [fold_left]; [exact H|]. apply IH. apply dset_Forall; [|exact H].
  intros k'. cbn [snd]. intros E. apply app_eq_nil in E. destruct E; discriminate.
Qed.
Lemma dset_perm (m : str) (l : list elem) e : forall pre,
  olist (dget pre m) = l ->
  Permutation (List.concat (map snd (dset pre m (l ++ [e])))) (List.concat (map snd pre) ++ [e]).
Proof.
  induction pre as [|[k v] pre IH]; cbn [dset dget map List.concat snd].
  - intros <-. cbn. apply Permutation_refl.
  - destruct (str_eqb k m) eqn:E; cbn [map List.concat snd olist].
    + intros <-. rewrite <- app_assoc. rewrite <- app_assoc. apply Permutation_app_head.
      apply Permutation_app_comm.
    + intros H. rewrite <- app_assoc. apply Permutation_app_head. apply IH. exact H.
Qed.
Lemma padds_perm m es : forall pre,
  Permutation (List.concat (map snd (fold_left (padd m) es pre))) (List.concat (map snd pre) ++ es).
Proof.
  induction es as [|e es IH]; intros pre; cbn [fold_left]; [now rewrite app_nil_r|].
  eapply Permutation_trans; [apply IH|]. unfold padd.
  eapply Permutation_trans; [apply Permutation_app_tail; apply dset_perm; reflexivity|].
  now rewrite <- app_assoc.
Qed.
(** keys are appended at most once, at the end *)
Lemma padds_keys m es : forall pre, exists l, map fst (fold_left (padd m) es pre) = map fst pre ++ l /\ (l = [] \/ (l = [m] /\ es <> [] /\ dmem pre m = false)).
Proof.
  destruct es as [|e es]; intros pre; [exists []; rewrite app_nil_r; auto|]. cbn [fold_left].
  assert (H : forall es pre, dmem pre m = true -> map fst (fold_left (padd m) es pre) = map fst pre).
  { clear. induction es as [|e es IH]; intros pre H; cbn [fold_left]; [reflexivity|]. rewrite IH; unfold padd.
    - rewrite dset_keys, H. now rewrite app_nil_r.
    - unfold dmem. now rewrite dget_dset_eq. }
  rewrite H by (unfold padd, dmem; now rewrite dget_dset_eq). unfold padd. rewrite dset_keys.
  destruct (dmem pre m) eqn:E; [exists []; auto|exists [m]; split; [reflexivity|right; split; [reflexivity|split; [discriminate|reflexivity]]]].
Qed.
Lemma NoDup_snoc {A} (l : list A) x : NoDup l -> ~ In x l -> NoDup (l ++ [x]).
Proof.
  intros H Hn. apply Permutation_NoDup with (l := x :: l); [apply Permutation_cons_append|]. constructor; assumption.
Qed.

Lemma declares_app k a b : declares k (a ++ b) = declares k a ++ declares k b.
Proof.
  induction a as [|[m bd|m] a IH]; cbn [app declares]; [reflexivity| |exact IH]. rewrite IH. apply app_assoc.
Qed.
Lemma declares_all_app a b : declares_all (a ++ b) = declares_all a ++ declares_all b.
Proof.
  induction a as [|[m bd|m] a IH]; cbn [app declares_all]; [reflexivity| |exact IH]. rewrite IH. apply app_assoc.
Qed.
Lemma declares_in k evs e : In e (declares k evs) -> In e (declares_all evs).
Proof.
  induction evs as [|[m b|m] evs IH]; cbn [declares declares_all]; [intros []| |exact IH].
  intros H. apply in_app_or in H. apply in_or_app. destruct H as [H|H]; [|right; auto].
  destruct (str_eqb m k); [left; exact H|destruct H].
Qed.

Lemma NoDup_app_disj {A} (a b : list A) : NoDup (a ++ b) -> forall x, In x a -> In x b -> False.
Proof.
  induction a as [|y a IH]; cbn [app]; intros H x Ha Hb; [destruct Ha|].
  inversion H as [|? ? Hn H']; subst. destruct Ha as [->|Ha]; [|eapply IH; eauto].
  apply Hn. apply in_or_app. right. exact Hb.
Qed.
Lemma NoDup_app_l {A} (a b : list A) : NoDup (a ++ b) -> NoDup a.
Proof. induction a as [|y a IH]; cbn [app]; intros H; [constructor|]. inversion H as [|? ? Hn H']; subst. constructor; [|auto]. intros Hi; apply Hn; apply in_or_app; left; exact Hi. Qed.
Lemma NoDup_app_r {A} (a b : list A) : NoDup (a ++ b) -> NoDup b.
Proof. induction a as [|y a IH]; cbn [app]; intros H; [exact H|]. inversion H; auto. Qed.

Section R.
  Context (lower : str -> str) (reserved : list str).
  Notation register := (register lower reserved).
  Notation register_elems := (register_elems lower reserved).
  Notation require_loop := (require_loop lower reserved).
  Notation require := (require lower reserved).
  Notation step := (step lower reserved).
  Notation run := (run lower reserved).
  Notation ids := (identifiers lower).

  (** an identifier belongs to one module *)
  Lemma same_module evs k k' e e' i :
    NoDup (flat_map ids (declares_all evs)) -> In e (declares k evs) -> In e' (declares k' evs) ->
    In i (ids e) -> In i (ids e') -> k = k'.
  Proof.
    induction evs as [|[m b|m] evs IH]; cbn [declares declares_all]; intros ND H H' Hi Hi'; [destruct H| |eauto].
    rewrite flat_map_app in ND. apply in_app_or in H, H'.
    assert (X : forall x l, In x l -> In i (ids x) -> In i (flat_map ids l)) by (intros x l Hx Hxi; apply in_flat_map; eauto).
    destruct H as [H|H], H' as [H'|H'].
    - destruct (str_eqb_spec m k) as [<-|]; [|destruct H]. destruct (str_eqb_spec m k') as [<-|]; [reflexivity|destruct H'].
    - exfalso. destruct (str_eqb_spec m k) as [<-|]; [|destruct H].
      eapply (NoDup_app_disj _ _ ND i); [eapply X; eauto|]. eapply X; [eapply declares_in; exact H'|exact Hi'].
    - exfalso. destruct (str_eqb_spec m k') as [<-|]; [|destruct H'].
      eapply (NoDup_app_disj _ _ ND i); [eapply X; eauto|]. eapply X; [eapply declares_in; exact H|exact Hi].
    - apply NoDup_app_r in ND. eauto.
  Qed.

  Lemma register_elems_app a b w :
    register_elems (a ++ b) w = match register_elems a w with (Ok _, w1) => register_elems b w1 | (Raise x, w1) => (Raise x, w1) end.
  Proof.
    revert w; induction a as [|e a IH]; intros w; cbn [app Model_Registration.register_elems]; [reflexivity|].
    destruct (register e (w_reg w)) as [[u|x] g']; [apply IH|reflexivity].
  Qed.

  (** registering fresh, consistent elements succeeds *)
  Lemma register_elems_ok L : forall w,
    NoDup (flat_map ids L) -> Forall (complete reserved) L -> fresh (flat_map ids L) (w_reg w) ->
    exists g', register_elems L w = (Ok tt, mk_world (w_pre w) (w_done w) g' (w_log w ++ map (fun e => (e, Ok tt)) L))
      /\ forall t k x, rget g' t k = Some x -> rget (w_reg w) t k = Some x \/ (In x L /\ In (t, k) (ids x)).
  Proof.
    induction L as [|e L IH]; intros w ND HC HF; cbn [Model_Registration.register_elems map].
    - exists (w_reg w). rewrite app_nil_r. split; [destruct w; reflexivity|auto].
    - cbn [flat_map] in ND, HF. inversion HC as [|? ? Hc HC']; subst.
      pose proof (register_spec lower reserved e (w_reg w)) as HS.
      destruct (register e (w_reg w)) as [r g1]. destruct HS as ((M & G) & _ & HS).
      rewrite HS; [|intros t k Hi; apply HF; apply in_or_app; left; exact Hi|eapply NoDup_app_l; exact ND|exact Hc].
      specialize (IH (mk_world (w_pre w) (w_done w) g1 (w_log w ++ [(e, Ok tt)])) (NoDup_app_r _ _ ND) HC').
      destruct IH as (g' & Heq & Hg).
      + cbn [w_reg]. intros t k Hi. destruct (rget g1 t k) as [x|] eqn:Eg; [|reflexivity]. exfalso.
        destruct (G t k x Eg) as [H|(_ & Hl & _)].
        * rewrite HF in H; [discriminate|]. apply in_or_app; right; exact Hi.
        * eapply (NoDup_app_disj _ _ ND); eauto.
      + exists g'. cbn [w_pre w_done w_log] in Heq. rewrite Heq. split.
        * rewrite <- app_assoc. reflexivity.
        * intros t k x Hx. destruct (Hg t k x Hx) as [H|[H Hi]]; [|right; split; [right; exact H|exact Hi]].
          cbn [w_reg] in H. destruct (G t k x H) as [H'|(-> & Hl & _)]; [left; exact H'|right; split; [left; reflexivity|exact Hl]].
  Qed.

  Definition matches (m k : str) : bool := str_eqb k m || starts_with (m ++ lit ".") k.
  Lemma matches_within m k : matches m k = true <-> within m k.
  Proof.
    unfold matches, within. rewrite orb_true_iff, str_eqb_eq, starts_with_spec. split; intros [H|[s H]]; auto; right.
    - exists s. rewrite H. now rewrite <- app_assoc.
    - exists s. rewrite H. now rewrite <- app_assoc.
  Qed.
  Definition matched (m : str) (items : list (str * list elem)) : list elem :=
    flat_map (fun ke => if matches m (fst ke) then snd ke else []) items.

  Lemma loop_all m items : forall w g',
    (forall k es, In (k, es) items -> matches m k = true -> ~ In k (w_done w)) ->
    (forall l1 k es l2, items = l1 ++ (k, es) :: l2 -> matches m k = true -> ~ In m (map fst l2)) ->
    register_elems (matched m items) w
      = (Ok tt, mk_world (w_pre w) (w_done w) g' (w_log w ++ map (fun e => (e, Ok tt)) (matched m items))) ->
    exists d, require_loop m items w
      = (Ok tt, mk_world (w_pre w) (w_done w ++ d) g' (w_log w ++ map (fun e => (e, Ok tt)) (matched m items)))
      /\ (forall x, In x d -> x = m).
  Proof.
    assert (Frame : forall es w p d w1, register_elems es w = (Ok tt, w1) ->
       register_elems es (mk_world p d (w_reg w) (w_log w)) = (Ok tt, mk_world p d (w_reg w1) (w_log w1))
       /\ w_pre w1 = w_pre w /\ w_done w1 = w_done w).
    { induction es as [|e es IH]; intros w p d w1; cbn [Model_Registration.register_elems].
      - intros H; injection H as <-. auto.
      - cbn [w_reg w_log]. destruct (register e (w_reg w)) as [[u|x] g1]; [|discriminate]. intros H.
        specialize (IH _ p d _ H). cbn [w_reg w_log w_pre w_done] in *. exact IH. }
    induction items as [|[k es] items IH]; intros w g' Hd Ho H; cbn [Model_Registration.require_loop].
    - exists []. cbn [matched flat_map map] in *. cbn in H. injection H as H. rewrite !app_nil_r in *. split; [now rewrite H at 1|intros x []].
    - fold (matches m k). unfold matched in H |- *. cbn [flat_map fst snd] in H |- *. fold (matched m items) in H |- *.
      destruct (matches m k) eqn:Em.
      + assert (Hnd : smem k (w_done w) = false) by (apply smem_nIn; apply (Hd k es); [left; reflexivity|exact Em]).
        rewrite Hnd. rewrite register_elems_app in H.
        destruct (register_elems es w) as [[u|x] w1] eqn:E1; [|discriminate]. destruct u.
        destruct (Frame es w (w_pre w) (w_done w) w1 E1) as (_ & Hp1 & Hd1).
        set (w2 := mk_world (w_pre w1) (w_done w1 ++ [m]) (w_reg w1) (w_log w1)).
        assert (HL : w_log w1 = w_log w ++ map (fun e => (e, Ok tt)) es).
        { clear -E1. revert w w1 E1. induction es as [|e es IH]; intros w w1; cbn [Model_Registration.register_elems map].
          - intros H; injection H as <-. now rewrite app_nil_r.
          - destruct (register e (w_reg w)) as [[[]|x] g1]; [|discriminate]. intros H. apply IH in H. rewrite H. cbn [w_log].
            now rewrite <- app_assoc. }
        destruct (Frame _ _ (w_pre w2) (w_done w2) _ H) as (H2 & _ & _). cbn [w_reg w_log] in H2.
        destruct (IH w2 g') as (d & Heq & Hdd).
        * intros k' es' Hi Hm'. unfold w2. cbn [w_done]. rewrite Hd1. intros Hin. apply in_app_or in Hin. destruct Hin as [Hin|[<-|[]]].
          -- apply (Hd k' es'); [right; exact Hi|exact Hm'|exact Hin].
          -- apply (Ho [] k es items eq_refl Em). apply in_map_iff. exists (m, es'). split; [reflexivity|exact Hi].
        * intros l1 k' es' l2 Hit. apply (Ho ((k, es) :: l1) k' es' l2). rewrite Hit. reflexivity.
        * unfold w2. cbn [w_pre w_done w_reg w_log]. rewrite HL in H2 |- *. unfold w2 in H2. cbn [w_pre w_done] in H2.
          rewrite H2. f_equal. f_equal. rewrite map_app. now rewrite app_assoc.
        * exists (m :: d). split.
          -- rewrite Heq. unfold w2. cbn [w_pre w_done w_reg w_log]. rewrite Hp1, Hd1, HL. rewrite <- !app_assoc. rewrite map_app. reflexivity.
          -- intros x [<-|Hx]; auto.
      + cbn [app] in H |- *. assert (Hgo : (if smem k (w_done w) then require_loop m items w else require_loop m items w) = require_loop m items w) by (destruct (smem k (w_done w)); reflexivity).
        rewrite Hgo. apply IH; [| |exact H].
        * intros k' es' Hi. apply (Hd k' es'). right; exact Hi.
        * intros l1 k' es' l2 Hit. apply (Ho ((k, es) :: l1) k' es' l2). rewrite Hit. reflexivity.
  Qed.

  Lemma within_cmp m m' k : within m k -> within m' k -> within m m' \/ within m' m.
  Proof.
    intros [->|[s ->]] H'; [right; exact H'|]. destruct H' as [<-|[s' H']].
    - left. right. exists s. reflexivity.
    - apply app_eq_app in H'. destruct H' as [l [[E1 E2]|[E1 E2]]].
      + destruct l as [|c l]; [rewrite app_nil_r in E1; subst; left; left; reflexivity|].
        injection E2 as <- E2. right. right. exists l. exact E1.
      + destruct l as [|c l]; [rewrite app_nil_r in E1; subst; left; left; reflexivity|].
        injection E2 as <- E2. left. right. exists l. exact E1.
  Qed.

  Section Hist.
    Context (evs : list event).
    Context (HC : consistent lower reserved evs) (HI : independent evs) (HF : imported_first evs) (HP : package_first evs).

    Record inv (p : list event) (w : world) : Prop := mk_inv {
      i_get : forall k, olist (dget (w_pre w) k) = declares k p;
      i_ne : nonempty (w_pre w);
      i_keys : NoDup (map fst (w_pre w));
      i_perm : Permutation (List.concat (map snd (w_pre w))) (declares_all p);
      i_order : forall l1 k l2 m, map fst (w_pre w) = l1 ++ k :: l2 -> In (Require m) evs -> within m k -> k <> m ->
                  declares m evs <> [] -> In m l1;
      i_done : forall m, In m (w_done w) -> In (Require m) p;
      i_marked : forall m k, In (Require m) p -> within m k -> declares k p <> [] -> In m (w_done w);
      i_reg : forall t k x, rget (w_reg w) t k = Some x -> In x (map fst (w_log w)) /\ In (t, k) (ids x);
      i_log : forall e, In e (map fst (w_log w)) <-> exists m k, In (Require m) p /\ within m k /\ In e (declares k p);
      i_ok : Forall (fun er => snd er = Ok tt) (w_log w)
    }.

    Lemma dmem_key pre k : nonempty pre -> (exists l : list elem, In (k, l) pre) <-> olist (dget pre k) <> [].
    Proof.
      intros Hne. split.
      - intros [l Hl]. destruct (dget pre k) as [l'|] eqn:E.
        + apply dget_In in E. eapply Forall_forall in E; [|exact Hne]. exact E.
        + apply dget_None in E. exfalso; apply E. apply in_map_iff. exists (k, l). auto.
      - intros H. destruct (dget pre k) as [l|] eqn:E; [|cbn in H; congruence]. apply dget_In in E. eauto.
    Qed.

    (** Class definition step *)
    Lemma inv_define p m b q w : evs = p ++ Define m b :: q -> inv p w -> inv (p ++ [Define m b]) (define m b w).
    Proof.
      intros Hev I. destruct I. unfold define. rewrite prereg_padd.
      assert (Hdec : forall k, declares k (p ++ [Define m b]) = declares k p ++ (if str_eqb m k then declared b else [])).
      { intros k. rewrite declares_app. cbn [declares]. now rewrite app_nil_r. }
      assert (Hall : declares_all (p ++ [Define m b]) = declares_all p ++ declared b).
      { rewrite declares_all_app. cbn [declares_all]. now rewrite app_nil_r. }
      assert (Hlate : forall m' k, In (Require m') p -> within m' k -> declares k (p ++ [Define m b]) = declares k p).
      { intros m' k Hr Hw. apply in_split in Hr. destruct Hr as (p1 & p2 & ->). rewrite Hdec.
        rewrite <- app_assoc in Hev. cbn [app] in Hev. pose proof (HF _ _ _ k Hev Hw) as H.
        rewrite declares_app in H. apply app_eq_nil in H. destruct H as [_ H]. cbn [declares] in H. apply app_eq_nil in H.
        destruct H as [H _]. rewrite H. now rewrite app_nil_r. }
      assert (HRin : forall m', In (Require m') (p ++ [Define m b]) -> In (Require m') p).
      { intros m' H. apply in_app_or in H. destruct H as [H|[H|[]]]; [exact H|discriminate]. }
      constructor; cbn [w_pre w_done w_reg w_log].
      - intros k. rewrite padds_get, Hdec, i_get0. reflexivity.
      - now apply padds_nonempty.
      - destruct (padds_keys m (declared b) (w_pre w)) as (l & -> & [->|(-> & _ & Hn)]); [now rewrite app_nil_r|].
        apply NoDup_snoc; [exact i_keys0|]. apply dget_None. unfold dmem in Hn. destruct (dget (w_pre w) m); [discriminate|reflexivity].
      - rewrite Hall. eapply Permutation_trans; [apply padds_perm|]. now apply Permutation_app_tail.
      - intros l1 k l2 m' Hk Hr Hw Hne Hd. destruct (padds_keys m (declared b) (w_pre w)) as (l & Hl & Hcase).
        rewrite Hl in Hk. destruct Hcase as [->|(-> & Hbne & Hn)]; [rewrite app_nil_r in Hk; eapply i_order0; eauto|].
        destruct (exists_last (l := k :: l2)) as (l2' & z & Hz); [discriminate|]. rewrite Hz in Hk. rewrite app_assoc in Hk.
        apply app_inj_tail in Hk. destruct Hk as [Hk <-].
        destruct l2' as [|y l2'].
        + cbn [app] in Hz. injection Hz as <- _. rewrite app_nil_r in Hk. rewrite <- Hk.
          pose proof (HP m' k p b q Hev Hr Hw Hne Hbne Hd) as Hin.
          rewrite <- i_get0 in Hin. apply dmem_key in Hin; [|exact i_ne0]. destruct Hin as [l Hin].
          apply in_map_iff. exists (m', l). auto.
        + cbn [app] in Hz. injection Hz as <- _. eapply i_order0; eauto.
      - intros m' H. apply in_or_app. left. auto.
      - intros m' k Hr Hw Hd. apply HRin in Hr. rewrite (Hlate m' k Hr Hw) in Hd. eauto.
      - exact i_reg0.
      - intros e. rewrite i_log0. split; intros (m' & k & Hr & Hw & He).
        + exists m', k. split; [apply in_or_app; left; exact Hr|]. split; [exact Hw|]. rewrite Hlate with (m' := m'); auto.
        + apply HRin in Hr. rewrite (Hlate m' k Hr Hw) in He. exists m', k. auto.
      - exact i_ok0.
    Qed.

    Lemma inv_require p m q w : evs = p ++ Require m :: q -> inv p w ->
      exists w', require m w = (Ok tt, w') /\ inv (p ++ [Require m]) w'.
    Proof.
      intros Hev I. unfold Model_Registration.require.
      assert (Hdec : forall k, declares k (p ++ [Require m]) = declares k p) by (intros k; rewrite declares_app; cbn [declares]; apply app_nil_r).
      assert (Hall : declares_all (p ++ [Require m]) = declares_all p) by (rewrite declares_all_app; cbn [declares_all]; apply app_nil_r).
      assert (HRm : In (Require m) evs) by (rewrite Hev; apply in_or_app; right; left; reflexivity).
      assert (HRp : forall m', In (Require m') p -> In (Require m') evs) by (intros m' H; rewrite Hev; apply in_or_app; left; exact H).
      assert (Hin : forall e, In e (matched m (w_pre w)) <-> exists k, within m k /\ In e (declares k p)).
      { intros e. destruct I. unfold matched. rewrite in_flat_map. split.
        - intros ([k es] & Hk & He). cbn [fst snd] in He. destruct (matches m k) eqn:Em; [|destruct He]. exists k.
          split; [now apply matches_within|]. rewrite <- i_get0. rewrite (dget_In_NoDup _ _ _ i_keys0 Hk). exact He.
        - intros (k & Hw & He). rewrite <- i_get0 in He. destruct (dget (w_pre w) k) as [es|] eqn:E; [|destruct He].
          exists (k, es). split; [now apply dget_In|]. cbn [fst snd]. apply matches_within in Hw. rewrite Hw. exact He. }
      destruct (smem m (w_done w)) eqn:Es.
      - apply smem_In in Es. exists w. split; [reflexivity|]. destruct I.
        assert (Hrin : forall m', In (Require m') (p ++ [Require m]) <-> In (Require m') p).
        { intros m'. split; intros H; [|apply in_or_app; left; exact H]. apply in_app_or in H. destruct H as [H|[H|[]]]; [exact H|].
          injection H as <-. auto. }
        constructor; auto.
        + intros k. rewrite Hdec. auto.
        + rewrite Hall. exact i_perm0.
        + intros m' H. apply Hrin. auto.
        + intros m' k Hr. apply Hrin in Hr. rewrite Hdec. eauto.
        + intros e. rewrite i_log0. split; intros (m' & k & Hr & Hw & He); exists m', k.
          * rewrite Hdec. split; [now apply Hrin|auto].
          * rewrite Hdec in He. split; [now apply Hrin|auto].
      - apply smem_nIn in Es.
        (* nothing within m is registered yet *)
        assert (Hnew : forall k, within m k -> declares k p <> [] -> ~ In (Require m) p).
        { intros k Hw Hd Hr. apply Es. eapply (i_marked p w I); eauto. }
        assert (Hsub : exists L, Permutation (matched m (w_pre w) ++ L) (declares_all p)).
        { destruct I. clear -i_perm0. assert (H : exists L, Permutation (matched m (w_pre w) ++ L) (List.concat (map snd (w_pre w)))).
          { induction (w_pre w) as [|[k es] l IH'] in |- *; cbn [matched flat_map map List.concat fst snd]; [exists []; constructor|].
            destruct IH' as [L HL]. destruct (matches m k).
            - exists L. rewrite <- app_assoc. now apply Permutation_app_head.
            - exists (es ++ L). cbn [app]. eapply Permutation_trans; [apply Permutation_app_swap_app|]. now apply Permutation_app_head. }
          destruct H as [L HL]. exists L. eapply Permutation_trans; eauto. }
        destruct HC as [HND HCo].
        assert (Hpre : declares_all evs = declares_all p ++ declares_all q) by (rewrite Hev, declares_all_app; reflexivity).
        assert (HNDp : NoDup (flat_map ids (declares_all p))) by (rewrite Hpre, flat_map_app in HND; eapply NoDup_app_l; exact HND).
        destruct Hsub as [L HL].
        assert (HND1 : NoDup (flat_map ids (matched m (w_pre w)))).
        { apply (Permutation_NoDup (l' := flat_map ids (matched m (w_pre w) ++ L))) in HNDp; [|apply Permutation_flat_map; now apply Permutation_sym].
          rewrite flat_map_app in HNDp. eapply NoDup_app_l; exact HNDp. }
        assert (Hp_in : forall e k, In e (declares k p) -> In e (declares k evs)) by (intros e k H; rewrite Hev, declares_app; apply in_or_app; left; exact H).
        assert (HCo1 : Forall (complete reserved) (matched m (w_pre w))).
        { apply Forall_forall. intros e He. apply Hin in He. destruct He as (k & _ & He). apply Hp_in in He. apply declares_in in He.
          eapply Forall_forall in He; [|exact HCo]. exact He. }
        assert (Hdisj : forall e e' t k, In e (matched m (w_pre w)) -> In e' (map fst (w_log w)) -> In (t, k) (ids e) -> In (t, k) (ids e') -> False).
        { intros e e' t k He He' Hi Hi'. apply Hin in He. destruct He as (k0 & Hw & He).
          apply (i_log p w I) in He'. destruct He' as (m' & k' & Hr' & Hw' & He').
          assert (k0 = k') by (eapply same_module; eauto). subst k'.
          assert (Hm : m' = m).
          { destruct (within_cmp m m' k0 Hw Hw') as [H|H]; [apply HI; auto|symmetry; apply HI; auto]. }
          subst m'. eapply Hnew; [exact Hw| |exact Hr']. intros E. rewrite E in He. destruct He. }
        assert (HFr : fresh (flat_map ids (matched m (w_pre w))) (w_reg w)).
        { intros t k Hi. destruct (rget (w_reg w) t k) as [x|] eqn:Eg; [|reflexivity]. exfalso.
          apply (i_reg p w I) in Eg. destruct Eg as [Hx Hxi]. apply in_flat_map in Hi. destruct Hi as (e & He & Hei). eauto. }
        destruct (register_elems_ok _ w HND1 HCo1 HFr) as (g' & Heq & Hg).
        destruct (loop_all m (w_pre w) w g') as (d & Hloop & Hd).
        { intros k es Hk Hm Hdn. apply (i_done p w I) in Hdn. apply matches_within in Hm.
          assert (k = m) by (apply HI; auto). subst k.
          eapply Hnew; [left; reflexivity| |exact Hdn]. rewrite <- (i_get p w I).
          apply dmem_key; [exact (i_ne p w I)|eauto]. }
        { intros l1 k es l2 Hit Hm Hm2. pose proof (i_keys p w I) as HK. rewrite Hit, map_app in HK. cbn [map fst] in HK.
          destruct (str_eqb_spec k m) as [->|Hne].
          - apply NoDup_app_r in HK. inversion HK as [|? ? Hn _]; subst. contradiction.
          - apply matches_within in Hm.
            assert (Hdm : declares m evs <> []).
            { apply in_map_iff in Hm2. destruct Hm2 as ([m' es'] & Hm' & Hi). cbn [fst] in Hm'. subst m'.
              assert (Hx : declares m p <> []).
              { rewrite <- (i_get p w I). apply dmem_key; [exact (i_ne p w I)|]. exists es'. rewrite Hit. apply in_or_app. right. right. exact Hi. }
              rewrite Hev, declares_app. intros E. apply app_eq_nil in E. destruct E. contradiction. }
            assert (Hin1 : In m (map fst l1)).
            { eapply (i_order p w I); [rewrite Hit, map_app; reflexivity|exact HRm|exact Hm|exact Hne|exact Hdm]. }
            eapply (NoDup_app_disj _ _ HK m); [exact Hin1|right; exact Hm2]. }
        { exact Heq. }
        eexists. split; [exact Hloop|].
        assert (Hmd : forall k, within m k -> declares k p <> [] -> In m (w_done w ++ d)).
        { intros k Hw Hdk. assert (X : In m (w_done (mk_world (w_pre w) (w_done w ++ d) g' (w_log w ++ map (fun e => (e, Ok tt)) (matched m (w_pre w)))))).
          { eapply require_loop_marks; [exact Hloop|]. right. rewrite <- (i_get p w I) in Hdk.
            apply dmem_key in Hdk; [|exact (i_ne p w I)]. destruct Hdk as [es Hk]. exists k, es. split; [exact Hk|].
            split; [|now apply matches_within]. intros Hdn. apply (i_done p w I) in Hdn.
            assert (k = m) by (apply HI; auto). subst k.
            eapply Hnew; [left; reflexivity| |exact Hdn]. rewrite <- (i_get p w I). apply dmem_key; [exact (i_ne p w I)|eauto]. }
          exact X. }
        assert (Hmapfst : forall l : list elem, map fst (map (fun e => (e, @Ok unit tt)) l) = l) by (intros l; rewrite map_map; cbn [fst]; apply map_id).
        destruct I. constructor; cbn [w_pre w_done w_reg w_log].
        + intros k. rewrite Hdec. auto.
        + exact i_ne0.
        + exact i_keys0.
        + rewrite Hall. exact i_perm0.
        + exact i_order0.
        + intros m' H. apply in_app_or in H. apply in_or_app. destruct H as [H|H]; [left; auto|right; left]. f_equal. symmetry. auto.
        + intros m' k Hr Hw. rewrite Hdec. intros Hd'. apply in_app_or in Hr. destruct Hr as [Hr|[Hr|[]]].
          * apply in_or_app. left. eauto.
          * injection Hr as <-. eauto.
        + intros t k x Hx. rewrite map_app, Hmapfst. destruct (Hg t k x Hx) as [H|[H Hi]].
          * destruct (i_reg0 t k x H). split; [apply in_or_app; left|]; assumption.
          * split; [apply in_or_app; right|]; assumption.
        + intros e. rewrite map_app, Hmapfst. rewrite in_app_iff, i_log0, Hin. split.
          * intros [(m' & k & Hr & Hw & He)|(k & Hw & He)].
            -- exists m', k. rewrite Hdec. split; [apply in_or_app; left; exact Hr|auto].
            -- exists m, k. rewrite Hdec. split; [apply in_or_app; right; left; reflexivity|auto].
          * intros (m' & k & Hr & Hw & He). rewrite Hdec in He. apply in_app_or in Hr. destruct Hr as [Hr|[Hr|[]]].
            -- left. exists m', k. auto.
            -- injection Hr as <-. right. exists k. auto.
        + apply Forall_app. split; [exact i_ok0|]. apply Forall_forall. intros er H. apply in_map_iff in H. destruct H as (e & <- & _). reflexivity.
    Qed.

    Lemma inv_run q : forall p w, evs = p ++ q -> inv p w ->
      exists w', run q w = (map (fun _ => Ok tt) q, w') /\ inv evs w'.
    Proof.
      induction q as [|ev q IH]; intros p w Hev I; cbn [Model_Registration.run map].
      - rewrite app_nil_r in Hev. subst p. exists w. auto.
      - destruct ev as [m b|m]; cbn [Model_Registration.step].
        + destruct (IH (p ++ [Define m b]) (define m b w)) as (w' & Hr & I').
          * now rewrite <- app_assoc.
          * eapply inv_define; eauto.
          * exists w'. rewrite Hr. auto.
        + destruct (inv_require p m q w Hev I) as (w1 & H1 & I1). rewrite H1.
          destruct (IH (p ++ [Require m]) w1) as (w' & Hr & I').
          * now rewrite <- app_assoc.
          * exact I1.
          * exists w'. rewrite Hr. auto.
    Qed.
    Lemma inv_empty : inv [] empty_world.
    Proof.
      constructor; cbn.
      - reflexivity.
      - constructor.
      - constructor.
      - constructor.
      - intros l1 k l2 m H. destruct l1; discriminate.
      - intros m [].
      - intros m k [].
      - discriminate.
      - intros e. split; [intros []|]. intros (m & k & [] & _).
      - constructor.
    Qed.
  End Hist.
End R.
