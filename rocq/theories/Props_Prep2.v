(** * More of C52: how a DN is taken apart; C18: white space at the ends *)
From Verif Require Import PyBase Model_Prep Spec_Prep2 Proofs_Prep.

Definition adv (prev : option N) (a : str) : option N := fold_left (fun _ c => Some c) a prev.
Lemma adv_last prev a : prev <> Some 92%N -> (adv prev a = Some 92%N <-> exists a', a = a' ++ [92%N]).
Proof.
  intros Hp. destruct a as [|c a'] using rev_ind.
  - cbn. split; [congruence|]. intros (a' & E). destruct a'; discriminate.
  - clear IHa'. unfold adv. rewrite fold_left_app. cbn. split.
    + intros E. injection E as ->. eauto.
    + intros (b & E). apply app_inj_tail in E. destruct E as [_ ->]. reflexivity.
Qed.
Definition wholeg (x : N) (prev : option N) (p : str) : Prop := forall a b, p = a ++ x :: b -> adv prev a = Some 92%N.
Lemma wholeg_iff x prev p : prev <> Some 92%N -> (wholeg x prev p <-> whole x p).
Proof.
  intros Hp. split; intros H a b E.
  - apply (adv_last prev a Hp). eapply H; eauto.
  - apply (adv_last prev a Hp). eapply H; eauto.
Qed.

Lemma resplit_piece x : x <> 92%N -> forall p prev acc rest, wholeg x prev p ->
  resplit x prev acc (p ++ rest) = resplit x (adv prev p) (rev p ++ acc) rest.
Proof.
  intros Hx. induction p as [|c p IH]; intros prev acc rest H; [reflexivity|].
  cbn [List.app resplit]. 
  assert (E : (N.eqb c x && negb (match prev with Some p => N.eqb p 92 | None => false end))%bool = false).
  { destruct (N.eqb_spec c x) as [->|]; [|reflexivity]. pose proof (H [] p eq_refl) as A. cbn in A. subst prev. reflexivity. }
  rewrite E. rewrite IH.
  - cbn [rev]. rewrite <- app_assoc. reflexivity.
  - intros a b Ea. apply (H (c :: a) b). rewrite Ea. reflexivity.
Qed.
Lemma cut_resplit x s parts : x <> 92%N -> cut x s parts -> forall prev, prev <> Some 92%N -> resplit x prev [] s = parts.
Proof.
  intros Hx. induction 1 as [p Hp|p s parts Hp Hn _ IH]; intros prev Hprev.
  - pose proof (resplit_piece x Hx p prev [] [] (proj2 (wholeg_iff x prev p Hprev) Hp)) as E. rewrite app_nil_r in E. rewrite E.
    cbn [resplit]. rewrite app_nil_r, rev_involutive. reflexivity.
  - rewrite (resplit_piece x Hx p prev [] (x :: s) (proj2 (wholeg_iff x prev p Hprev) Hp)). cbn [resplit]. rewrite N.eqb_refl.
    assert (E : match adv prev p with Some q => N.eqb q 92 | None => false end = false).
    { destruct (adv prev p) as [q|] eqn:E; [|reflexivity]. destruct (N.eqb_spec q 92) as [->|]; [|reflexivity].
      apply (adv_last prev p Hprev) in E. destruct E as (a & E). destruct (Hn a E). }
    rewrite E. cbn [negb andb]. rewrite app_nil_r, rev_involutive. f_equal. apply IH. congruence.
Qed.
Lemma resplit_cut x : x <> 92%N -> forall s prev acc, exists p parts, resplit x prev acc s = (rev acc ++ p) :: parts /\ wholeg x prev p /\
  ((s = p /\ parts = []) \/ (exists s', s = p ++ x :: s' /\ adv prev p <> Some 92%N /\ cut x s' parts)).
Proof.
  intros Hx. induction s as [|c s IH]; intros prev acc.
  - exists [], []. split; [cbn [resplit]; rewrite app_nil_r; reflexivity|]. split; [intros a b E; destruct a; discriminate|auto].
  - cbn [resplit]. destruct (N.eqb_spec c x) as [->|Hc]; cbn [andb].
    + destruct (match prev with Some p => N.eqb p 92 | None => false end) eqn:E; cbn [negb].
      * assert (Hp : prev = Some 92%N) by (destruct prev as [q|]; [apply N.eqb_eq in E; congruence|discriminate]).
        destruct (IH (Some x) (x :: acc)) as (p & parts & E1 & W & H). exists (x :: p), parts. split; [rewrite E1; cbn [rev]; rewrite <- app_assoc; reflexivity|].
        split.
        -- intros a b Ea. destruct a as [|y a]; [exact Hp|]. cbn [List.app] in Ea. injection Ea as <- Ea. apply (W a b Ea).
        -- destruct H as [[-> ->]|(s' & -> & H1 & H2)]; [auto|]. right. exists s'. auto.
      * destruct (IH (Some x) []) as (p & parts & E1 & W & H). exists [], (p :: parts). cbn [rev List.app] in E1. rewrite E1, app_nil_r. split; [reflexivity|].
        split; [intros a b Ea; destruct a; discriminate|]. right. exists s. split; [reflexivity|]. split.
        { cbn. intros ->. discriminate. }
        assert (Hpx : Some x <> Some 92%N) by congruence. apply (wholeg_iff x (Some x) p Hpx) in W.
        destruct H as [[-> ->]|(s' & -> & H1 & H2)]; [now apply cut_one|]. apply cut_more; auto.
        intros a Ea. apply H1. apply (adv_last _ _ Hpx). eauto.
    + destruct (IH (Some c) (c :: acc)) as (p & parts & E1 & W & H). exists (c :: p), parts. split; [rewrite E1; cbn [rev]; rewrite <- app_assoc; reflexivity|].
      split.
      * intros a b Ea. destruct a as [|y a]; cbn [List.app] in Ea; injection Ea as Ey Ea; [congruence|]. subst y. apply (W a b Ea).
      * destruct H as [[-> ->]|(s' & -> & H1 & H2)]; [auto|]. right. exists s'. auto.
Qed.
Lemma cut_iff x s parts : x <> 92%N -> (cut x s parts <-> unescaped_split x s = parts).
Proof.
  intros Hx. split.
  - intros H. apply (cut_resplit x s parts Hx H). discriminate.
  - intros <-. unfold unescaped_split. destruct (resplit_cut x Hx s None []) as (p & parts & -> & W & H). cbn [rev List.app].
    apply (wholeg_iff x None p) in W; [|discriminate].
    destruct H as [[-> ->]|(s' & -> & H1 & H2)]; [now apply cut_one|]. apply cut_more; auto.
    intros a Ea. apply H1. apply adv_last; [discriminate|]. eauto.
Qed.

Lemma dict_snoc l : forall d, dict_of l d <-> d = fold_left (fun d av => dset d (fst av) (snd av)) l [].
Proof.
  induction l as [|[a v] l IH] using rev_ind; intros d.
  - split; [|intros ->; constructor]. intros H. inversion H as [|l' d' a v Hd E]; [reflexivity|]. destruct l'; discriminate.
  - rewrite fold_left_app. cbn [fold_left fst snd]. split.
    + intros H. inversion H as [E|l' d' a' v' Hd E]; [destruct l; discriminate|]. apply app_inj_tail in E. destruct E as [-> E].
      injection E as -> ->. apply IH in Hd. rewrite Hd. reflexivity.
    + intros ->. apply do_snoc. apply IH. reflexivity.
Qed.
Lemma parse_avas_spec avas : forall d0,
  (forall l, Forall2 (fun ava av => cut (ch "=") ava [fst av; snd av]) avas l ->
     parse_avas avas d0 = Ok (fold_left (fun d av => dset d (fst av) (snd av)) l d0))
  /\ ((forall l, ~ Forall2 (fun ava av => cut (ch "=") ava [fst av; snd av]) avas l) -> parse_avas avas d0 = Raise ValueError).
Proof.
  assert (Hx : ch "=" <> 92%N) by discriminate.
  induction avas as [|ava avas IH]; intros d0.
  - split; [intros l H; inversion H; reflexivity|]. intros H. destruct (H [] (Forall2_nil _)).
  - cbn [parse_avas]. split.
    + intros l H. inversion H as [|? [a v] ? l' Ha Hl]; subst. apply cut_iff in Ha; [|exact Hx]. cbn [fst snd] in Ha. rewrite Ha.
      cbn [fold_left fst snd]. apply IH. exact Hl.
    + intros H. destruct (unescaped_split (ch "=") ava) as [|a [|v [|? ?]]] eqn:E; try reflexivity.
      apply IH. intros l Hl. apply (H ((a, v) :: l)). constructor; [|exact Hl]. apply cut_iff; assumption.
Qed.

(** A DN is taken apart at commas, plus signs and equals signs that are not directly preceded by a backslash, into its
    RDNs and their attributes and values; if some piece of an RDN has no such equals sign, or more than one, that is a
    ValueError - nothing else can happen. *)
Theorem C52_parse_dn v :
  (forall ds, parse_dn v = Ok ds <-> dn_of v ds) /\ ((forall ds, ~ dn_of v ds) -> parse_dn v = Raise ValueError).
Proof.
  assert (Hc : ch "," <> 92%N) by discriminate. assert (Hp : ch "+" <> 92%N) by discriminate.
  assert (R : forall rdns, (forall ds, Forall2 rdn_of rdns ds -> parse_rdns rdns = Ok ds)
              /\ ((exists ds, Forall2 rdn_of rdns ds) \/ parse_rdns rdns = Raise ValueError)).
  { induction rdns as [|rdn rdns [IH1 IH2]].
    - split; [intros ds H; inversion H; reflexivity|]. left. exists []. constructor.
    - cbn [parse_rdns]. split.
      + intros ds H. inversion H as [|? d ? ds' Hd Hds]; subst. destruct Hd as (avas & l & C & F & D).
        apply cut_iff in C; [|exact Hp]. rewrite C. rewrite (proj1 (parse_avas_spec avas []) l F). cbn [bind].
        rewrite (IH1 ds' Hds). cbn [bind]. apply dict_snoc in D. rewrite D. reflexivity.
      + set (avas := unescaped_split (ch "+") rdn). 
        assert (X : (exists l, Forall2 (fun ava av => cut (ch "=") ava [fst av; snd av]) avas l) \/ parse_avas avas [] = Raise ValueError).
        { clearbody avas. destruct (parse_avas avas []) as [d|x] eqn:E.
          - left. revert d E. generalize (@nil (str * str)). induction avas as [|ava avas IHa]; intros d0 d E; [exists []; constructor|].
            cbn [parse_avas] in E. destruct (unescaped_split (ch "=") ava) as [|a [|w [|? ?]]] eqn:Eu; try discriminate.
            destruct (IHa _ _ E) as (l & Hl). exists ((a, w) :: l). constructor; [|exact Hl]. apply cut_iff; [discriminate|exact Eu].
          - right. f_equal. revert x E. generalize (@nil (str * str)). induction avas as [|ava avas IHa]; intros d0 x E; [discriminate|].
            cbn [parse_avas] in E. destruct (unescaped_split (ch "=") ava) as [|a [|w [|? ?]]]; try congruence. eapply IHa; eauto. }
        destruct X as [(l & F)|X]; [|right; rewrite X; reflexivity].
        destruct IH2 as [(ds & Hds)|IH2].
        * left. exists (fold_left (fun d av => dset d (fst av) (snd av)) l [] :: ds). constructor; [|exact Hds].
          exists avas, l. split; [apply cut_iff; [exact Hp|reflexivity]|]. split; [exact F|]. apply dict_snoc. reflexivity.
        * right. rewrite (proj1 (parse_avas_spec avas []) l F). cbn [bind]. rewrite IH2. reflexivity. }
  unfold parse_dn. destruct (R (unescaped_split (ch ",") v)) as [R1 R2].
  assert (F : forall ds, dn_of v ds -> parse_rdns (unescaped_split (ch ",") v) = Ok ds).
  { intros ds (rdns & C & H). apply cut_iff in C; [|exact Hc]. rewrite C in *. apply R1. exact H. }
  split.
  - intros ds. split; [|apply F]. intros E. destruct R2 as [(ds' & H)|R2]; [|congruence].
    rewrite (R1 ds' H) in E. injection E as <-. exists (unescaped_split (ch ",") v). split; [apply cut_iff; [exact Hc|reflexivity]|exact H].
  - intros Hn. destruct R2 as [(ds' & H)|R2]; [|exact R2]. exfalso. apply (Hn ds').
    exists (unescaped_split (ch ",") v). split; [apply cut_iff; [exact Hc|reflexivity]|exact H].
Qed.

(** A DN that cannot be taken apart makes the comparison a ValueError, on either side. *)
Theorem C52_malformed_dn tm a b :
  (forall ds, ~ dn_of a ds) \/ ((exists ds, dn_of a ds) /\ forall ds, ~ dn_of b ds) -> dn_do_match_with tm a b = Raise ValueError.
Proof.
  unfold dn_do_match_with. intros [H|[(ds & H) Hb]].
  - rewrite (proj2 (C52_parse_dn a) H). reflexivity.
  - rewrite (proj2 (proj1 (C52_parse_dn a) ds) H). cbn [bind]. rewrite (proj2 (C52_parse_dn b) Hb). reflexivity.
Qed.

(** str.strip takes away exactly the white space at the two ends. *)
Lemma white_iff c : py_isspace c = true <-> white_space c.
Proof. unfold py_isspace, in_ranges, py_space_ranges, white_space; cbn [existsb fst snd]. lia. Qed.
Theorem C18_strip s t : py_strip s = t <->
  exists u w, s = u ++ t ++ w /\ Forall white_space u /\ Forall white_space w
    /\ (forall c r, t = c :: r -> ~ white_space c) /\ (forall c r, t = r ++ [c] -> ~ white_space c).
Proof.
  assert (W : forall l, Forall white_space l <-> Forall (fun c => py_isspace c = true) l).
  { intro l. split; apply Forall_impl; intros c; apply white_iff. }
  assert (E1 : forall t, ends_ok py_isspace t <-> forall c r, t = c :: r -> ~ white_space c).
  { intros [|c r]; cbn [ends_ok].
    - split; [discriminate|exact (fun _ => Logic.I)].
    - split.
      + intros H c' r' E. injection E as <- _. rewrite <- white_iff, H. discriminate.
      + intros H. destruct (py_isspace c) eqn:E; [|reflexivity]. apply white_iff in E. destruct (H c r eq_refl E). }
  assert (E2 : forall t, ends_ok py_isspace (rev t) <-> forall c r, t = r ++ [c] -> ~ white_space c).
  { intros t'. rewrite E1. split; intros H c r E.
    - apply (H c (rev r)). rewrite E, rev_app_distr. reflexivity.
    - apply (H c (rev r)). rewrite <- (rev_involutive t'), E. reflexivity. }
  split.
  - intros <-. destruct (strip_decomp py_isspace s) as (a & core & b & E & Ec & Ha & Hb & H1 & H2). unfold py_strip. rewrite Ec.
    exists a, b. rewrite !W, <- E1, <- E2. auto.
  - intros (u & w & -> & Hu & Hw & H1 & H2). apply strip_core; [now apply W|now apply W|now apply E1|now apply E2].
Qed.

Example C52_parse_nonvacuous :
  dn_of (lit "cn=a\,b+sn=c,dc=x\=y") [[(lit "cn", lit "a\,b"); (lit "sn", lit "c")]; [(lit "dc", lit "x\=y")]]
  /\ (forall ds, ~ dn_of (lit "cn=a=b") ds) /\ (forall ds, ~ dn_of [] ds)
  /\ py_strip [0x2003; 0x41; 0x20; 0x42; 0x1680; 0x0A]%N = [0x41; 0x20; 0x42]%N.
Proof.
  assert (N : forall v, parse_dn v = Raise ValueError -> forall ds, ~ dn_of v ds).
  { intros v H ds D. apply C52_parse_dn in D. congruence. }
  split; [apply C52_parse_dn; vm_compute; reflexivity|]. split; [apply N; vm_compute; reflexivity|].
  split; [apply N; vm_compute; reflexivity|vm_compute; reflexivity].
Qed.
Print Assumptions C52_parse_dn.
Print Assumptions C52_malformed_dn.
Print Assumptions C18_strip.
