(** * The matching engine finds a match exactly when there is one *)
From Verif Require Import PyBase Model_Prep Model_Regex Spec_Regex.

Definition star_it {A} (a : rx) (k : str -> caps -> option A) : nat -> str -> caps -> option A :=
  fix it (n : nat) (s : str) (c : caps) {struct n} : option A :=
    match n with
    | 0 => k s c
    | S n' =>
        match m a s c (fun s' c' => if List.length s' <? List.length s then it n' s' c' else None) with
        | Some v => Some v
        | None => k s c
        end
    end.
Lemma m_star {A} a s c (k : str -> caps -> option A) : m (RStar a) s c k = star_it a k (List.length s) s c.
Proof. reflexivity. Qed.

Lemma m_sound {A} : forall r s c (k : str -> caps -> option A) v, m r s c k = Some v ->
  exists t s' d, s = t ++ s' /\ M r t d /\ k s' (d ++ c) = Some v.
Proof.
  induction r as [|f|a IHa b IHb|a IHa b IHb|a IHa|g a IHa]; intros s c k v H.
  - exists [], s, []. repeat split; [constructor|exact H].
  - cbn [m] in H. destruct s as [|x s]; [discriminate|]. destruct (f x) eqn:E; [|discriminate].
    exists [x], s, []. repeat split; [now constructor|exact H].
  - cbn [m] in H. apply IHa in H as (t & s' & d & -> & Ha & H). apply IHb in H as (t2 & s2 & d2 & -> & Hb & H).
    exists (t ++ t2), s2, (d2 ++ d). rewrite <- !app_assoc. repeat split; [now constructor|exact H].
  - cbn [m] in H. destruct (m a s c k) as [w|] eqn:E.
    + injection H as <-. apply IHa in E as (t & s' & d & -> & Ha & H). exists t, s', d. repeat split; [now constructor|exact H].
    + apply IHb in H as (t & s' & d & -> & Ha & H). exists t, s', d. repeat split; [now constructor|exact H].
  - rewrite m_star in H. generalize dependent c. generalize dependent s.
    enough (G : forall n s c, star_it a k n s c = Some v ->
      exists t s' d, s = t ++ s' /\ M (RStar a) t d /\ k s' (d ++ c) = Some v) by (intros s c H; exact (G _ _ _ H)).
    induction n as [|n IHn]; intros s c H; cbn [star_it] in H.
    + exists [], s, []. repeat split; [constructor|exact H].
    + match type of H with (match ?x with _ => _ end = _) => destruct x as [w|] eqn:E end.
      * injection H as ->. apply IHa in E as (t & s' & d & -> & Ha & H).
        destruct (List.length s' <? List.length (t ++ s')) eqn:El; [|discriminate].
        change (star_it a k n s' (d ++ c) = Some v) in H. apply IHn in H as (t2 & s2 & d2 & -> & Hb & H).
        exists (t ++ t2), s2, (d2 ++ d). rewrite <- !app_assoc. repeat split; [|exact H].
        constructor; [exact Ha| |exact Hb]. intros ->. apply Nat.ltb_lt in El. cbn [app] in El. lia.
      * exists [], s, []. repeat split; [constructor|exact H].
  - cbn [m] in H. apply IHa in H as (t & s' & d & -> & Ha & H).
    exists t, s', ((g, t) :: d). repeat split; [now constructor|].
    rewrite app_length in H. replace (List.length t + List.length s' - List.length s') with (List.length t) in H by lia.
    rewrite firstn_app, firstn_all, Nat.sub_diag, app_nil_r in H. exact H.
Qed.

Lemma m_complete {A} r t d : M r t d -> forall s' c (k : str -> caps -> option A),
  k s' (d ++ c) <> None -> m r (t ++ s') c k <> None.
Proof.
  induction 1 as [|f x Hx|a b s t c d Ha IHa Hb IHb|a b s c Ha IHa|a b s c Hb IHb|a|a s t c d Ha IHa Hn Hs IHs|g a s c Ha IHa];
    intros s' c0 k Hk.
  - exact Hk.
  - cbn [m app]. rewrite Hx. exact Hk.
  - cbn [m]. rewrite <- app_assoc. apply IHa. apply IHb. now rewrite app_assoc.
  - cbn [m]. specialize (IHa s' c0 k Hk). destruct (m a (s ++ s') c0 k); congruence.
  - cbn [m]. specialize (IHb s' c0 k Hk). destruct (m a (s ++ s') c0 k); congruence.
  - cbn [app] in *. rewrite m_star. destruct (List.length s'); cbn [star_it]; [exact Hk|].
    match goal with |- match ?x with _ => _ end <> _ => destruct x end; [discriminate|exact Hk].
  - (* one more round *)
    rewrite m_star.
    assert (E : exists n, List.length ((s ++ t) ++ s') = S n /\ List.length (t ++ s') <= n).
    { rewrite !app_length. destruct s as [|x s]; [congruence|]. cbn [List.length]. exists (List.length s + List.length t + List.length s'). split; lia. }
    destruct E as (n & -> & Hn'). cbn [star_it].
    assert (G : m a ((s ++ t) ++ s') c0 (fun s'0 c' =>
       if List.length s'0 <? List.length ((s ++ t) ++ s') then star_it a k n s'0 c' else None) <> None).
    { rewrite <- app_assoc. apply IHa.
      assert (El : List.length (t ++ s') <? List.length (s ++ t ++ s') = true).
      { apply Nat.ltb_lt. rewrite (app_length s). destruct s; [congruence|]. cbn [List.length]. lia. }
      rewrite El. specialize (IHs s' (c ++ c0) k). rewrite m_star in IHs. rewrite <- app_assoc in Hk. specialize (IHs Hk).
      (* more rounds available only help *)
      revert IHs Hn'. generalize (List.length (t ++ s')) at 1 2 as p. clear. intros p. generalize (c ++ c0) as e. generalize (t ++ s') as u.
      revert n. induction p as [|p IHp]; intros n u e H Hle.
      - cbn [star_it] in H. destruct n; cbn [star_it]; [exact H|].
        match goal with |- match ?x with _ => _ end <> _ => destruct x end; [discriminate|exact H].
      - destruct n as [|n]; [lia|]. cbn [star_it] in *.
        destruct (m a u e (fun s' c' => if List.length s' <? List.length u then star_it a k p s' c' else None)) as [w|] eqn:E.
        + assert (G : m a u e (fun s' c' => if List.length s' <? List.length u then star_it a k n s' c' else None) <> None).
          { clear H. revert E. enough (X : forall r u e (k1 k2 : str -> caps -> option A),
              (forall s c, k1 s c <> None -> k2 s c <> None) -> m r u e k1 <> None -> m r u e k2 <> None).
            { intros E. eapply X; [|rewrite E; discriminate]. intros s1 c1. cbn beta.
              destruct (List.length s1 <? List.length u); [|auto]. intros H. apply IHp; [exact H|lia]. }
            clear. intros r. induction r as [|f|a IHa b IHb|a IHa b IHb|a IHa|g a IHa]; intros u e k1 k2 Hk H; cbn [m] in *; auto.
            - destruct u as [|x u]; [auto|]. destruct (f x); auto.
            - eapply IHa; [|exact H]. intros s c. apply IHb, Hk.
            - destruct (m a u e k1) eqn:E1.
              + specialize (IHa u e k1 k2 Hk). rewrite E1 in IHa. specialize (IHa ltac:(discriminate)). destruct (m a u e k2); congruence.
              + specialize (IHb u e k1 k2 Hk H). destruct (m a u e k2); congruence.
            - change (star_it a k1 (List.length u) u e <> None) in H. change (star_it a k2 (List.length u) u e <> None).
              revert H. generalize (List.length u) as n. intros n. revert u e. induction n as [|n IHn]; intros u e H; cbn [star_it] in *; auto.
              match type of H with match ?x with _ => _ end <> _ => destruct x eqn:E1 end.
              + assert (G2 : m a u e (fun s' c' => if List.length s' <? List.length u then star_it a k2 n s' c' else None) <> None).
                { eapply IHa; [|rewrite E1; discriminate]. intros s c. cbn beta. destruct (List.length s <? List.length u); auto. }
                match goal with |- match ?x with _ => _ end <> _ => destruct x end; congruence.
              + match goal with |- match ?x with _ => _ end <> _ => destruct x end; [discriminate|auto].
            - eapply IHa; [|exact H]. intros s c. apply Hk. }
          destruct (m a u e (fun s' c' => if List.length s' <? List.length u then star_it a k n s' c' else None)); congruence.
        + destruct (m a u e (fun s' c' => if List.length s' <? List.length u then star_it a k n s' c' else None)); [discriminate|exact H]. }
    match goal with |- match ?x with _ => _ end <> _ => destruct x eqn:E end; [discriminate|].
    congruence.
  - cbn [m]. apply IHa. rewrite app_length. replace (List.length s + List.length s' - List.length s') with (List.length s) by lia.
    rewrite firstn_app, firstn_all, Nat.sub_diag, app_nil_r. exact Hk.
Qed.

(** [re.match] of an anchored pattern: sound with its captures, and never misses a match *)
Lemma at_end_spec s : at_end s = true <-> s = [] \/ s = [10%N].
Proof.
  destruct s as [|x [|y s]]; cbn [at_end].
  - split; auto.
  - rewrite N.eqb_eq. split; [intros ->; auto|intros [H|H]; congruence].
  - split; [discriminate|intros [H|H]; discriminate].
Qed.
Lemma anchored_sound r s c : match_anchored r s = Some c ->
  exists t e, s = t ++ e /\ (e = [] \/ e = [10%N]) /\ M r t c.
Proof.
  intros H. unfold match_anchored in H. apply m_sound in H as (t & e & d & -> & Hm & H).
  destruct (at_end e) eqn:E; [|discriminate]. apply at_end_spec in E. injection H as <-. rewrite app_nil_r.
  exists t, e. auto.
Qed.
Lemma anchored_complete r t e c : M r t c -> e = [] \/ e = [10%N] -> exists c', match_anchored r (t ++ e) = Some c'.
Proof.
  intros H He. unfold match_anchored. apply at_end_spec in He.
  pose proof (m_complete r t c H e [] (fun s' c => if at_end s' then Some c else None)) as G. cbn beta in G. rewrite He in G.
  specialize (G ltac:(discriminate)).
  match type of G with ?x <> _ => destruct x eqn:E end; [eauto|congruence].
Qed.
(** a pattern all of whose matches of a text have the same captures *)
Lemma anchored_unique r s c : (exists t e c', s = t ++ e /\ (e = [] \/ e = [10%N]) /\ M r t c') ->
  (forall t e c', s = t ++ e -> (e = [] \/ e = [10%N]) -> M r t c' -> c' = c) -> match_anchored r s = Some c.
Proof.
  intros (t & e & c' & -> & He & H) U. destruct (anchored_complete r t e c' H He) as [d E]. rewrite E. f_equal.
  apply anchored_sound in E as (t2 & e2 & E & He2 & Hm). eapply U; eauto.
Qed.
Lemma prefix_sound r s c : match_prefix r s = Some c -> exists t e, s = t ++ e /\ M r t c.
Proof.
  intros H. apply m_sound in H as (t & e & d & -> & Hm & H). injection H as <-. rewrite app_nil_r. eauto.
Qed.
Lemma prefix_complete r t e c : M r t c -> exists c', match_prefix r (t ++ e) = Some c'.
Proof.
  intros H. unfold match_prefix. pose proof (m_complete r t c H e [] (fun _ c => Some c) ltac:(discriminate)) as G.
  match type of G with ?x <> _ => destruct x eqn:E end; [eauto|congruence].
Qed.

(** ** The language of each construction *)
Lemma L_eps t : L REps t <-> t = [].
Proof. split; [intros [c H]; now inversion H|intros ->; eexists; constructor]. Qed.
Lemma L_chr f t : L (RChr f) t <-> exists x, t = [x] /\ f x = true.
Proof. split; [intros [c H]; inversion H; eauto|intros (x & -> & H); eexists; now constructor]. Qed.
Lemma L_seq a b t : L (RSeq a b) t <-> exists x y, t = x ++ y /\ L a x /\ L b y.
Proof.
  split.
  - intros [c H]. inversion H; subst. eexists _, _. repeat split; eexists; eassumption.
  - intros (x & y & -> & [c Hx] & [d Hy]). eexists. now constructor; eassumption.
Qed.
Lemma L_alt a b t : L (RAlt a b) t <-> L a t \/ L b t.
Proof.
  split.
  - intros [c H]. inversion H; subst; [left|right]; eexists; eassumption.
  - intros [[c H]|[c H]]; eexists; [apply M_altl|apply M_altr]; eassumption.
Qed.
Lemma L_group g a t : L (RGroup g a) t <-> L a t.
Proof. split; [intros [c H]; inversion H; subst; eexists; eassumption|intros [c H]; eexists; now constructor; eassumption]. Qed.
Lemma L_opt a t : L (ROpt a) t <-> L a t \/ t = [].
Proof. unfold ROpt. now rewrite L_alt, L_eps. Qed.
(** repetition: a concatenation of instances *)
Lemma L_star a t : L (RStar a) t <-> exists l, t = List.concat l /\ Forall (L a) l.
Proof.
  split.
  - intros [c H]. remember (RStar a) as r eqn:E. revert E.
    induction H as [|f x Hx|? ? s t c d Ha IHa Hb IHb|? ? s c Ha IHa|? ? s c Hb IHb|a0|a0 s t c d Ha IHa Hn Hs IHs|g ? s c Ha IHa];
      intros E; try discriminate.
    + exists []. auto.
    + injection E as ->. destruct (IHs eq_refl) as (l & -> & Hl). exists (s :: l). split; [reflexivity|].
      constructor; [eexists; eassumption|exact Hl].
  - intros (l & -> & H). induction H as [|x l [c Hx] Hl IH]; [eexists; constructor|].
    cbn [List.concat]. destruct IH as [d Hd]. destruct x as [|y x]; [exists d; exact Hd|].
    eexists. eapply (M_stars a (y :: x)); [exact Hx|discriminate|exact Hd].
Qed.
Lemma L_plus a t : L (RPlus a) t <-> exists l, l <> [] /\ t = List.concat l /\ Forall (L a) l.
Proof.
  unfold RPlus. rewrite L_seq. split.
  - intros (x & y & -> & Hx & Hy). apply L_star in Hy as (l & -> & Hl). exists (x :: l). repeat split; [discriminate|]. now constructor.
  - intros ([|x l] & Hn & -> & Hl); [congruence|]. inversion Hl; subst. exists x, (List.concat l).
    repeat split; [assumption|]. apply L_star. eauto.
Qed.
Lemma concat_chars l f : Forall (L (RChr f)) l -> Forall (fun c => f c = true) (List.concat l) /\ List.length (List.concat l) = List.length l.
Proof.
  intros H. induction H as [|x q Hx Hl IH]; [split; auto; constructor|]. apply L_chr in Hx as (y & -> & Hy). destruct IH as [IH1 IH2]. cbn [List.concat app List.length]. split; [now constructor|now rewrite IH2].
Qed.
Lemma L_star_chr f t : L (RStar (RChr f)) t <-> Forall (fun c => f c = true) t.
Proof.
  rewrite L_star. split.
  - intros (l & -> & H). now apply concat_chars.
  - intros H. exists (map (fun c => [c]) t). split.
    + clear. induction t as [|x t IH]; [reflexivity|]. cbn [map List.concat app]. now rewrite <- IH.
    + induction H as [|x l Hx Hl IH]; constructor; [apply L_chr; eauto|exact IH].
Qed.
Lemma L_plus_chr f t : L (RPlus (RChr f)) t <-> t <> [] /\ Forall (fun c => f c = true) t.
Proof.
  unfold RPlus. rewrite L_seq. split.
  - intros (x & y & -> & Hx & Hy). apply L_chr in Hx as (c & -> & Hc). apply L_star_chr in Hy. split; [discriminate|]. now constructor.
  - intros [Hn H]. destruct t as [|x t]; [congruence|]. inversion H; subst. exists [x], t. repeat split; [apply L_chr; eauto|].
    now apply L_star_chr.
Qed.
Lemma L_lit s t : L (RLit s) t <-> t = s.
Proof.
  unfold RLit. revert t. induction s as [|c s IH]; intros t.
  - apply L_eps.
  - cbn [map]. destruct s as [|c2 s].
    + cbn [map RSeqs]. rewrite L_chr. split; [intros (x & -> & E); apply N.eqb_eq in E; now subst|intros ->; exists c; split; [reflexivity|apply N.eqb_refl]].
    + cbn [map RSeqs] in *. rewrite L_seq. split.
      * intros (x & y & -> & Hx & Hy). apply L_chr in Hx as (z & -> & E). apply N.eqb_eq in E. subst. apply IH in Hy. now subst.
      * intros ->. exists [c], (c2 :: s). repeat split; [apply L_chr; exists c; split; [reflexivity|apply N.eqb_refl]|now apply IH].
Qed.
Lemma L_RC a t : L (RC a) t <-> t = [ch a].
Proof. unfold RC. rewrite L_chr. split; [intros (x & -> & E); apply N.eqb_eq in E; now subst|intros ->; eexists; split; [reflexivity|apply N.eqb_refl]]. Qed.
Lemma L_seqs_cons a b l t : L (RSeqs (a :: b :: l)) t <-> exists x y, t = x ++ y /\ L a x /\ L (RSeqs (b :: l)) y.
Proof. apply L_seq. Qed.
