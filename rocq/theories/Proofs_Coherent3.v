(** An object never shows a value that is not in its entry. *)
From Coq Require Import Permutation.
From Verif Require Import PyBase Model_CIDict Proofs_CIDict Model_Modify Spec_Modify Proofs_Modify Proofs_Modify2 Model_Search Spec_Search Proofs_Search Model_Dir Spec_Dir Proofs_Dir Proofs_Dir2 Proofs_Dir3 Proofs_Dir4 Props_Dir Model_Filter Model_Request Model_Netgroups Proofs_Netgroups Model_Life Spec_Life Proofs_Life Proofs_Life2 Proofs_Life3 Proofs_Life4 Proofs_Life5 Props_Life Spec_Coherent Spec_Coherent2 Proofs_Coherent Proofs_Coherent2.

Definition sub {A} (l l' : list A) : Prop := exists r, Permutation (l ++ r) l'.
Lemma sub_refl {A} (l : list A) : sub l l. Proof. exists []. now rewrite app_nil_r. Qed.
Lemma sub_nil {A} (l : list A) : sub [] l. Proof. exists l. apply Permutation_refl. Qed.
Lemma sub_incl {A} (l l' : list A) : sub l l' -> incl l l'.
Proof. intros (r & P) x Hx. eapply Permutation_in; [exact P|]. apply in_app_iff. now left. Qed.
Lemma sub_of_nil {A} (l : list A) : sub l [] -> l = [].
Proof. intros H. apply sub_incl in H. destruct l as [|x l]; [reflexivity|]. destruct (H x (or_introl eq_refl)). Qed.

(** ** the server, and one that has a part of the values *)
Section Sub.
  Context (lower : str -> str) (eqv : str -> str -> str -> bool).
  Lemma srv_add_app a vs : forall l l1, srv_add eqv a l vs = Some l1 -> l1 = l ++ vs.
  Proof.
    induction vs as [|v vs IH]; intros l l1 H; cbn [srv_add] in H; [injection H as <-; now rewrite app_nil_r|].
    destruct (existsb _ l); [discriminate|]. rewrite (IH _ _ H), <- app_assoc. reflexivity.
  Qed.
  Lemma srv_add_sub a vs : forall l0 l l1, sub l0 l -> srv_add eqv a l vs = Some l1 -> exists l1', srv_add eqv a l0 vs = Some l1' /\ sub l1' l1.
  Proof.
    induction vs as [|v vs IH]; intros l0 l l1 Hs H; cbn [srv_add] in *; [injection H as <-; eauto|].
    destruct (existsb (fun x => eqv a x v) l) eqn:E; [discriminate|].
    assert (E0 : existsb (fun x => eqv a x v) l0 = false).
    { destruct (existsb (fun x => eqv a x v) l0) eqn:E0; [|reflexivity]. apply existsb_exists in E0. destruct E0 as (x & Hx & Hv).
      assert (X : existsb (fun x => eqv a x v) l = true) by (apply existsb_exists; exists x; split; [now apply (sub_incl _ _ Hs)|exact Hv]). congruence. }
    rewrite E0. apply (IH (l0 ++ [v]) (l ++ [v]) l1); [|exact H]. destruct Hs as (r & P). exists r.
    rewrite <- app_assoc. rewrite (Permutation_app_comm [v] r), app_assoc. now apply Permutation_app_tail.
  Qed.
  Lemma remove1_some a v : forall l l', srv_remove1 eqv a l v = Some l' -> exists x, eqv a x v = true /\ Permutation (x :: l') l.
  Proof.
    induction l as [|y l IH]; intros l' H; cbn [srv_remove1] in H; [discriminate|]. destruct (eqv a y v) eqn:E.
    - injection H as <-. exists y. split; [exact E|apply Permutation_refl].
    - destruct (srv_remove1 eqv a l v) as [l1|]; [|discriminate]. injection H as <-. destruct (IH l1 eq_refl) as (x & Hx & P). exists x. split; [exact Hx|].
      rewrite perm_swap. now apply perm_skip.
  Qed.
  Lemma remove1_total a v l : (exists x, In x l /\ eqv a x v = true) -> exists l', srv_remove1 eqv a l v = Some l'.
  Proof.
    induction l as [|y l IH]; intros (x & Hx & E); [destruct Hx|]. cbn [srv_remove1]. destruct (eqv a y v) eqn:Ey; [eauto|].
    destruct Hx as [->|Hx]; [congruence|]. destruct IH as (l' & ->); [eauto|]. cbn. eauto.
  Qed.
  Lemma one_match a w l x y : at_most_one eqv a l -> In x l -> In y l -> eqv a x w = true -> eqv a y w = true -> x = y.
  Proof.
    intros H Hx Hy Ex Ey. specialize (H w).
    assert (Fx : In x (List.filter (fun z => eqv a z w) l)) by (apply filter_In; auto).
    assert (Fy : In y (List.filter (fun z => eqv a z w) l)) by (apply filter_In; auto).
    destruct (List.filter (fun z => eqv a z w) l) as [|p [|q t]]; [destruct Fx| |cbn [List.length] in H; lia].
    destruct Fx as [<-|[]], Fy as [<-|[]]. reflexivity.
  Qed.
  Lemma filter_perm {A} (p : A -> bool) l l' : Permutation l l' -> Permutation (List.filter p l) (List.filter p l').
  Proof.
    induction 1 as [|x l l' P IH|x y l|l l1 l2 P1 I1 P2 I2]; cbn [List.filter]; [constructor| | |now rewrite I1].
    - destruct (p x); [now constructor|exact IH].
    - destruct (p x), (p y); try apply Permutation_refl. apply perm_swap.
  Qed.
  (** what is not shown does not match what is removed *)
  Lemma rest_none a l0 r l w : Permutation (l0 ++ r) l -> at_most_one eqv a l -> (exists x, In x l0 /\ eqv a x w = true) -> forall y, In y r -> eqv a y w = false.
  Proof.
    intros P H (x & Hx & E) y Hy. destruct (eqv a y w) eqn:Ey; [|reflexivity]. exfalso. specialize (H w).
    rewrite <- (Permutation_length (filter_perm (fun z => eqv a z w) _ _ P)) in H.
    assert (F : forall k k' : list str, List.filter (fun z => eqv a z w) (k ++ k') = List.filter (fun z => eqv a z w) k ++ List.filter (fun z => eqv a z w) k').
    { induction k as [|z k IH]; intros k'; [reflexivity|]. cbn [app List.filter]. destruct (eqv a z w); [cbn [app]; now rewrite IH|apply IH]. }
    rewrite F, app_length in H.
    assert (F1 : In x (List.filter (fun z => eqv a z w) l0)) by (apply filter_In; auto).
    assert (F2 : In y (List.filter (fun z => eqv a z w) r)) by (apply filter_In; auto).
    destruct (List.filter (fun z => eqv a z w) l0); [destruct F1|]. destruct (List.filter (fun z => eqv a z w) r); [destruct F2|]. cbn [List.length] in H. lia.
  Qed.
  Lemma srv_remove_sub a vs r : forall l0 l l1, Permutation (l0 ++ r) l -> at_most_one eqv a l -> (forall w y, In w vs -> In y r -> eqv a y w = false) ->
    srv_remove eqv a l vs = Some l1 -> exists l1', srv_remove eqv a l0 vs = Some l1' /\ sub l1' l1.
  Proof.
    induction vs as [|v vs IH]; intros l0 l l1 P H1 Hr H; cbn [srv_remove] in *; [injection H as <-; exists l0; split; [reflexivity|now exists r]|].
    destruct (srv_remove1 eqv a l v) as [l'|] eqn:R; [|discriminate].
    destruct (remove1_some a v l l' R) as (x & Ex & Px).
    assert (Hx : In x l) by (eapply Permutation_in; [exact Px|now left]).
    assert (Hx0 : In x l0).
    { apply (Permutation_in _ (Permutation_sym P)) in Hx. apply in_app_iff in Hx. destruct Hx as [Hx|Hx]; [exact Hx|]. rewrite (Hr v x (or_introl eq_refl) Hx) in Ex. discriminate. }
    destruct (remove1_total a v l0) as (l0' & R0); [eauto|]. rewrite R0. destruct (remove1_some a v l0 l0' R0) as (y & Ey & Py).
    assert (Hy : In y l).
    { eapply Permutation_in; [exact P|]. apply in_app_iff. left. eapply Permutation_in; [exact Py|now left]. }
    assert (x = y) by (eapply one_match; eauto). subst y.
    apply (IH l0' l'); [| |intros w z Hw; apply Hr; now right|exact H].
    - apply (Permutation_cons_inv (a := x)). rewrite Px, <- P. change (x :: l0' ++ r) with ((x :: l0') ++ r). now apply Permutation_app_tail.
    - intros w. pose proof (remove1_amo lower eqv a v w l l' R). specialize (H1 w). lia.
  Qed.

  Definition esub (e0 e : entry) : Prop := forall k, sub (e0 (lower k)) (e (lower k)).
  Definition fits (e0 e : entry) (c : change) : Prop :=
    e0 (lower (c_attr c)) <> [] /\ at_most_one eqv (c_attr c) (e (lower (c_attr c))) /\
    forall v, In v (c_vals c) -> exists x, In x (e0 (lower (c_attr c))) /\ eqv (c_attr c) x v = true.
  Lemma esub_eput e0 e a l0 l : esub e0 e -> sub l0 l -> esub (eput lower e0 a l0) (eput lower e a l).
  Proof. intros H Hl k. unfold eput. destruct (str_eqb (lower k) (lower a)); [exact Hl|apply H]. Qed.
  Lemma apply1_sub e0 e c e1 : esub e0 e -> (c_op c = DELETE -> fits e0 e c) -> srv_apply1 lower eqv e c = Some e1 ->
    exists e0', srv_apply1 lower eqv e0 c = Some e0' /\ esub e0' e1.
  Proof.
    intros Hs Hd H. unfold srv_apply1 in *. destruct (c_op c).
    - destruct (c_vals c) as [|v vs]; [discriminate|]. destruct (srv_add eqv (c_attr c) (e (lower (c_attr c))) (v :: vs)) as [l|] eqn:E; [|discriminate].
      injection H as <-. destruct (srv_add_sub _ _ _ _ _ (Hs (c_attr c)) E) as (l0 & -> & Hl). cbn [option_map]. eexists. split; [reflexivity|]. now apply esub_eput.
    - injection H as <-. eexists. split; [reflexivity|]. apply esub_eput; [exact Hs|apply sub_refl].
    - destruct (Hd eq_refl) as (Hne & H1 & Hv). destruct (e (lower (c_attr c))) as [|y ys] eqn:Ee; [discriminate|].
      destruct (e0 (lower (c_attr c))) as [|z zs] eqn:E0; [now elim Hne|]. destruct (c_vals c) as [|v vs] eqn:Ev.
      + injection H as <-. eexists. split; [reflexivity|]. apply esub_eput; [exact Hs|apply sub_refl].
      + destruct (srv_remove eqv (c_attr c) (y :: ys) (v :: vs)) as [l|] eqn:E; [|discriminate]. injection H as <-.
        pose proof (Hs (c_attr c)) as (r & P). rewrite Ee, E0 in P.
        destruct (srv_remove_sub (c_attr c) (v :: vs) r (z :: zs) (y :: ys) l P H1) as (l0 & -> & Hl); [|exact E|].
        { intros w x Hw Hx. apply (rest_none (c_attr c) (z :: zs) r (y :: ys) w P H1); [|exact Hx]. now apply Hv. }
        cbn [option_map]. eexists. split; [reflexivity|]. now apply esub_eput.
  Qed.
  Lemma apply_sub cs : forall e0 e e1, esub e0 e -> (forall c, In c cs -> c_op c = DELETE -> fits e0 e c) ->
    (forall c, In c cs -> c_op c = DELETE -> NoDup (map (fun c => lower (c_attr c)) cs)) -> srv_apply lower eqv e cs = Some e1 ->
    exists e0', srv_apply lower eqv e0 cs = Some e0' /\ esub e0' e1.
  Proof.
    induction cs as [|c cs IH]; intros e0 e e1 Hs Hf Hd H; cbn [srv_apply] in *; [injection H as <-; eauto|].
    destruct (srv_apply1 lower eqv e c) as [e2|] eqn:E; [|discriminate].
    destruct (apply1_sub e0 e c e2 Hs (Hf c (or_introl eq_refl)) E) as (e0' & E0 & Hs'). rewrite E0.
    apply (IH e0' e2); [exact Hs'| | |exact H].
    - intros c' Hc' Ho. pose proof (Hd c' (or_intror Hc') Ho) as D. cbn [map] in D. inversion D as [|? ? Hn _]; subst.
      assert (Hne : lower (c_attr c') <> lower (c_attr c)).
      { intros X. apply Hn. rewrite <- X. now apply (in_map (fun c => lower (c_attr c))). }
      assert (O1 : e2 (lower (c_attr c')) = e (lower (c_attr c'))).
      { assert (Hx : srv_apply lower eqv e [c] = Some e2) by (cbn [srv_apply]; now rewrite E). apply (apply_other lower eqv _ _ _ Hx). cbn. intros [X|[]]; congruence. }
      assert (O2 : e0' (lower (c_attr c')) = e0 (lower (c_attr c'))).
      { assert (Hx : srv_apply lower eqv e0 [c] = Some e0') by (cbn [srv_apply]; now rewrite E0). apply (apply_other lower eqv _ _ _ Hx). cbn. intros [X|[]]; congruence. }
      unfold fits. rewrite O1, O2. apply Hf; [now right|exact Ho].
    - intros c' Hc' Ho. specialize (Hd c' (or_intror Hc') Ho). now inversion Hd.
  Qed.
End Sub.

Section P.
  Context {S : Type} (sv : server S) (view : S -> str -> option entry).
  Context (lower norm : str -> str) (eqv : str -> str -> str -> bool) (idx : str -> list str -> str -> res nat).
  Context (strict : bool) (flags : empty_flags).
  Context (vm : str -> list mod_ -> option lobj -> res unit).
  Context (Hidx : same_rule eqv idx) (Hlaw : lawful lower norm eqv sv view).

  Notation part := (shows_part lower).
  Lemma part_esub d e : part d e <-> esub lower (shown d) e.
  Proof. split; intros H k; specialize (H k); [rewrite shown_cur|rewrite shown_cur in H]; exact H. Qed.
  Lemma part_incl d e k : part d e -> incl (cur_vals lower d k) (e (lower k)).
  Proof. intros H. apply sub_incl. exact (H k). Qed.
  Lemma truth_part d e : shows_truth lower d e -> part d e.
  Proof.
    intros H k. destruct (ahas lower d k) eqn:A; [rewrite (H k A); exact (sub_refl _)|].
    assert (E : cur_vals lower d k = []).
    { destruct (cur_vals lower d k) as [|x l] eqn:E; [reflexivity|]. assert (X : ahas lower d k = true) by (apply ahas_cur; congruence). congruence. }
    rewrite E. exact (sub_nil _).
  Qed.

  (** the state afterwards *)
  Definition pstill (s : S) (l : lobj) (s' : S) (l' : lobj) : Prop :=
    o_dn l' = o_dn l /\ dict_ok lower (o_attrs l') /\ (exists e', view s' (o_dn l) = Some e' /\ part (o_attrs l') e') /\
    forall d, norm d <> norm (o_dn l) -> view s' d = view s d.
  Lemma pstill_trans s l l1 s' l' : pstill s l s l1 -> (pstill s l1 s' l') -> pstill s l s' l'.
  Proof.
    intros (D1 & _ & _ & O1) (D2 & K2 & (e' & V2 & T2) & O2). split; [congruence|]. split; [exact K2|]. split; [exists e'; rewrite <- D1; auto|].
    intros d Hd. rewrite D1 in O2. now rewrite O2.
  Qed.
  Lemma pstill_view s l l1 e : view s (o_dn l) = Some e -> pstill s l s l1 -> view s (o_dn l1) = Some e /\ dict_ok lower (o_attrs l1) /\ part (o_attrs l1) e.
  Proof. intros V (D & K & (e' & V' & T) & _). assert (e' = e) by congruence. subst e'. rewrite D. auto. Qed.
  Lemma pstill_same s l e : view s (o_dn l) = Some e -> dict_ok lower (o_attrs l) -> part (o_attrs l) e -> pstill s l s l.
  Proof. intros V K T. split; [reflexivity|]. split; [exact K|]. split; [eauto|auto]. Qed.

  (** the modifications: constructed, no delete of all values by an empty list, no replacing by nothing; deletes fit *)
  Definition pgood (d : attrs) (e : entry) (m : mod_) : Prop :=
    constructed m /\ empty_rd m = false /\ (m_op m = REPLACE -> vtrue (m_vals m) = true) /\ (m_op m = DELETE -> fits lower eqv (shown d) e (change_of m)).
  Lemma modify_part u s l ms e : view s (o_dn l) = Some e -> dict_ok lower (o_attrs l) -> part (o_attrs l) e ->
    (forall m, In m ms -> pgood (o_attrs l) e m) -> (forall m, In m ms -> m_op m = DELETE -> NoDup (map (fun m => lower (m_attr m)) ms)) ->
    let '(s', l', r) := obj_modify_ sv lower idx u flags vm s l ms in
    pstill s l s' l' /\ (s', r) = (let '(s1, _, r1) := ldap_modify_ sv u flags vm s (o_dn l) ms (Some l) in (s1, r1)).
  Proof.
    intros V Hok Ht Hg Hnd. unfold obj_modify_.
    pose proof (lmod_dir sv view lower norm eqv Hlaw u flags vm s (o_dn l) ms (Some l) (fun m Hm => proj1 (Hg m Hm)) (fun m Hm => proj1 (proj2 (Hg m Hm)))) as L.
    destruct (ldap_modify_ sv u flags vm s (o_dn l) ms (Some l)) as [[s' ms'] [[]|x]].
    2: { split; [|reflexivity]. split; [reflexivity|]. split; [exact Hok|]. split; [exists e; split; [rewrite L; exact V|exact Ht]|]. intros d _. apply L. }
    destruct L as (-> & L).
    assert (A : exists e1 e', srv_apply lower eqv e (map change_of ms) = Some e1 /\ view s' (o_dn l) = Some e' /\ (forall n, e' n = e1 n) /\ only_at view norm s s' (o_dn l)).
    { destruct L as [(-> & ->)|((e0 & e1 & e' & V0 & A & V' & P) & On)].
      - exists e, e. repeat split; auto.
      - exists e1, e'. assert (e0 = e) by congruence. subst. auto. }
    destruct A as (e1 & e' & A & V' & P & On).
    set (d := o_attrs l) in *.
    destruct (apply_sub lower eqv (map change_of ms) (shown d) e e1) as (e0' & A0 & Hs'); [now apply part_esub| | |exact A|].
    { intros c Hc Ho. apply in_map_iff in Hc. destruct Hc as (m & <- & Hm). now apply (Hg m Hm). }
    { intros c Hc Ho. apply in_map_iff in Hc. destruct Hc as (m & <- & Hm). rewrite map_map. exact (Hnd m Hm Ho). }
    destruct (local_modify_spec lower eqv idx Hidx flags ms d (shown d) e0' Hok (shown_mirrors lower d) (fun m Hm => proj1 (Hg m Hm))) as (d' & El & Hok' & Hm').
    { apply safe_plain; intros m Hm; apply Hg; exact Hm. }
    { exact A0. }
    rewrite El. split; [|reflexivity]. split; [reflexivity|]. split; [exact Hok'|]. split; [|exact On].
    exists e'. split; [exact V'|]. intros k. cbn [o_attrs]. rewrite P.
    replace (cur_vals lower d' k) with (e0' (lower k)) by exact (Hm' k). exact (Hs' k).
  Qed.

  Lemma refresh_part u s l e ats : view s (o_dn l) = Some e -> dict_ok lower (o_attrs l) -> part (o_attrs l) e ->
    match ats with Some n => plain n | None => True end ->
    let (l', r) := obj_refresh sv lower u s l ats in pstill s l s l'.
  Proof.
    intros V Hok Ht Hp. destruct u.
    - unfold obj_refresh, ldap_get_. now apply (pstill_same s l e).
    - destruct (refresh_spec sv view lower norm eqv Hlaw s l e ats V Hok) as (l' & E & Hdn & Hok' & Hg).
      { destruct ats; [exact Hp|exact I]. }
      rewrite E. split; [exact Hdn|]. split; [exact Hok'|]. split; [|auto]. exists e. split; [exact V|].
      intros k. pose proof (Ht k) as Hold. unfold cur_vals in *. rewrite Hg.
      destruct (match ats with Some (n :: l0) => _ | _ => true end); [|exact Hold].
      destruct (e (lower k)) eqn:Ee; [exact Hold|exact (sub_refl _)].
  Qed.
  Lemma missing_part u s l e ats : view s (o_dn l) = Some e -> dict_ok lower (o_attrs l) -> part (o_attrs l) e -> plain ats ->
    let (l', r) := obj_refresh_missing sv lower u s l ats in pstill s l s l'.
  Proof.
    intros V Hok Ht Hp. unfold obj_refresh_missing. pose proof (refresh_part u s l e (Some (missing lower l ats)) V Hok Ht) as R.
    destruct (missing lower l ats) as [|n ns] eqn:Em; [now apply (pstill_same s l e)|]. apply R.
    intros x Hx. apply Hp. assert (Hm : In x (missing lower l ats)) by now rewrite Em. unfold missing in Hm. apply filter_In in Hm. tauto.
  Qed.
  Lemma prefetch_part u s l e ats : view s (o_dn l) = Some e -> dict_ok lower (o_attrs l) -> part (o_attrs l) e -> plain ats ->
    let (l', r) := obj_prefetch sv lower u strict s l ats in pstill s l s l'.
  Proof.
    intros V Hok Ht Hp. unfold obj_prefetch. destruct strict; [now apply (pstill_same s l e)|now apply (missing_part u s l e)].
  Qed.
  Lemma has_class_part u s l e oc : view s (o_dn l) = Some e -> dict_ok lower (o_attrs l) -> part (o_attrs l) e ->
    let (l', r) := has_object_class sv lower idx u s l oc in pstill s l s l' /\
      (r = Ok true -> existsb (fun x => eqv (lit "objectClass") x oc) (e (lower (lit "objectClass"))) = true).
  Proof.
    intros V Hok Ht. unfold has_object_class.
    assert (Hp : plain [lit "objectClass"]).
    { intros n [<-|[]] X. repeat (destruct X as [X|X]; try discriminate). exact X. }
    pose proof (missing_part u s l e [lit "objectClass"] V Hok Ht Hp) as M.
    destruct (obj_refresh_missing sv lower u s l [lit "objectClass"]) as [l' [[]|x]]; [|split; [exact M|discriminate]].
    split; [exact M|]. destruct (pstill_view s l l' e V M) as (_ & _ & T). pose proof (part_incl _ _ (lit "objectClass") T) as I.
    unfold cur_vals in I. destruct (cid_get lower (o_attrs l') (lit "objectClass")) as [vs|x]; [|discriminate]. cbn [bind]. unfold avl_contains. rewrite Hidx.
    intros H. apply existsb_exists.
    assert (F : forall l0 i, first_match (fun x => eqv (lit "objectClass") x oc) l0 i <> None -> exists x, In x l0 /\ eqv (lit "objectClass") x oc = true).
    { induction l0 as [|z zs IH]; intros i; [intros X; now elim X|]. cbn [first_match]. destruct (eqv (lit "objectClass") z oc) eqn:Ez; [intros _; exists z; split; [now left|exact Ez]|].
      intros Hn. destruct (IH _ Hn) as (x & Hx & E). exists x. split; [now right|exact E]. }
    destruct (first_match _ vs 0) eqn:E; [|discriminate]. destruct (F vs 0%nat) as (x & Hx & Ex); [congruence|]. exists x. split; [now apply I|exact Ex].
  Qed.

  Lemma add_attrs_part u s l e new : view s (o_dn l) = Some e -> dict_ok lower (o_attrs l) -> part (o_attrs l) e ->
    NoDup (map fst new) -> plain (map fst new) ->
    let '(s', l', r) := obj_add_attrs sv lower idx u strict flags vm s l new in pstill s l s' l' /\
    (forall x, r = Ok x -> exists l1, o_dn l1 = o_dn l /\ part (o_attrs l1) e /\
       ldap_add_attrs sv lower idx u strict flags vm s (o_dn l) new (Some l1) = (s', Ok x)) /\
    (forall x, r = Raise x -> forall d, view s' d = view s d).
  Proof.
    intros V Hok Ht Hnd Hp. unfold obj_add_attrs. pose proof (prefetch_part u s l e (map fst new) V Hok Ht Hp) as P1.
    destruct (obj_prefetch sv lower u strict s l (map fst new)) as [l1 [[]|x]].
    2: { split; [exact P1|]. split; [discriminate|auto]. }
    destruct (add_modlist lower idx (o_attrs l1) new) as [ms|x] eqn:Em.
    2: { split; [exact P1|]. split; [discriminate|auto]. }
    destruct (pstill_view s l l1 e V P1) as (V1 & Hok1 & Ht1).
    destruct (add_mods_ok lower eqv idx (o_attrs l1) new ms Hnd Em) as (H1 & H2 & _).
    destruct (add_modlist_values lower idx (o_attrs l1) new ms Hnd Em) as [Hadd _].
    assert (Hg : forall m, In m ms -> pgood (o_attrs l1) e m).
    { intros m Hm. destruct (Hadd m Hm) as [Ho Hv]. split; [now apply H1|]. split; [now apply H2|]. split; intros X; congruence. }
    pose proof (modify_part u s l1 ms e V1 Hok1 Ht1 Hg) as M. destruct (obj_modify_ sv lower idx u flags vm s l1 ms) as [[s' l'] r].
    destruct M as (M1 & M2). { intros m Hm Ho. destruct (Hadd m Hm). congruence. }
    split; [now apply (pstill_trans s l l1)|].
    pose proof (lmod_dir sv view lower norm eqv Hlaw u flags vm s (o_dn l1) ms (Some l1) H1 H2) as L.
    unfold ldap_add_attrs. destruct P1 as (D1 & _). rewrite D1 in M2. rewrite D1 in L.
    destruct (ldap_modify_ sv u flags vm s (o_dn l) ms (Some l1)) as [[s2 ms2] r2] eqn:Eml. injection M2 as -> ->. split.
    - intros x ->. exists l1. split; [exact D1|]. split; [exact Ht1|]. rewrite Em. now rewrite Eml.
    - intros x ->. exact L.
  Qed.

  Lemma has_value_shown d k v : has_value lower idx d k v = true -> exists x, In x (cur_vals lower d k) /\ eqv k x v = true.
  Proof. rewrite (has_value_existsb lower eqv idx Hidx). intros H. now apply existsb_exists in H. Qed.
  Lemma delete_attrs_part u s l e del : view s (o_dn l) = Some e -> dict_ok lower (o_attrs l) -> part (o_attrs l) e ->
    NoDup (map (fun av => lower (fst av)) del) -> plain (map fst del) -> (forall k v, In (k, v) del -> v <> VList [] /\ at_most_one eqv k (e (lower k))) ->
    let '(s', l', r) := obj_delete_attrs sv lower idx u strict flags vm s l del in pstill s l s' l' /\
    (forall x, r = Raise x -> forall d, view s' d = view s d).
  Proof.
    intros V Hok Ht Hnl Hp Hne. unfold obj_delete_attrs. pose proof (prefetch_part u s l e (map fst del) V Hok Ht Hp) as P1.
    assert (Hnd : NoDup (map fst del)) by now apply (fst_nodup lower).
    destruct (obj_prefetch sv lower u strict s l (map fst del)) as [l1 [[]|x]].
    2: { split; [exact P1|auto]. }
    destruct (delete_modlist lower idx (o_attrs l1) del) as [ms|x] eqn:Em.
    2: { split; [exact P1|auto]. }
    destruct (pstill_view s l l1 e V P1) as (V1 & Hok1 & Ht1).
    assert (Hm0 : forall m, In m ms -> m_op m = DELETE /\ m_vals m <> VList [] /\ fits lower eqv (shown (o_attrs l1)) e (change_of m)).
    { rewrite (del_modlist_exact lower idx (o_attrs l1) del ms Hnd Em). intros m Hm. apply in_flat_map in Hm. destruct Hm as ([k v] & Hin & Hm).
      destruct (Hne _ _ Hin) as [Hv H1].
      unfold deletes_for in Hm. cbn [fst snd] in Hm. destruct (cur_vals lower (o_attrs l1) k) as [|c0 cs0] eqn:Ec; [destruct Hm|].
      assert (Hns : shown (o_attrs l1) (lower k) <> []) by (rewrite shown_cur, Ec; discriminate).
      destruct v as [[|y ys]|]; [now elim Hv| |].
      - destruct (List.filter _ (y :: ys)) as [|z zs] eqn:F; [destruct Hm|]. destruct Hm as [<-|[]]. split; [reflexivity|]. split; [discriminate|].
        split; [exact Hns|]. split; [exact H1|]. cbn [change_of c_vals m_vals c_attr m_attr]. intros w Hw. rewrite <- F in Hw. apply filter_In in Hw. destruct Hw as [_ Hw].
        rewrite shown_cur. now apply has_value_shown.
      - destruct Hm as [<-|[]]. split; [reflexivity|]. split; [discriminate|]. split; [exact Hns|]. split; [exact H1|]. intros w []. }
    assert (Hg : forall m, In m ms -> pgood (o_attrs l1) e m).
    { intros m Hm. destruct (Hm0 m Hm) as (Ho & Hv & Hf). split; [|split; [|split]].
      - unfold constructed, new_mod. rewrite Ho. cbn. rewrite <- Ho. now destruct m.
      - unfold empty_rd. rewrite Ho. now destruct (m_vals m) as [[|]|].
      - congruence.
      - intros _. exact Hf. }
    pose proof (modify_part u s l1 ms e V1 Hok1 Ht1 Hg) as M. destruct (obj_modify_ sv lower idx u flags vm s l1 ms) as [[s' l'] r].
    destruct M as (M1 & M2). { intros m Hm Ho. rewrite (del_modlist_exact lower idx (o_attrs l1) del ms Hnd Em). now apply flat_nodup. }
    split; [now apply (pstill_trans s l l1)|].
    pose proof (lmod_dir sv view lower norm eqv Hlaw u flags vm s (o_dn l1) ms (Some l1) (fun m Hm => proj1 (Hg m Hm)) (fun m Hm => proj1 (proj2 (Hg m Hm)))) as L.
    destruct (ldap_modify_ sv u flags vm s (o_dn l1) ms (Some l1)) as [[s2 ms2] r2]. injection M2 as -> ->. intros x ->. exact L.
  Qed.
  Lemma replace_attrs_part u s l e new : view s (o_dn l) = Some e -> dict_ok lower (o_attrs l) -> part (o_attrs l) e ->
    (forall k v, In (k, v) new -> exists x, v = VList x /\ x <> []) ->
    let '(s', l', r) := obj_replace_attrs sv lower idx u flags vm s l new in pstill s l s' l'.
  Proof.
    intros V Hok Ht Hne. unfold obj_replace_attrs. rewrite replace_modlist.
    set (ms := map (fun av : str * vals => mkmod REPLACE (fst av) (snd av)) new).
    assert (Hg : forall m, In m ms -> m_op m = REPLACE /\ pgood (o_attrs l) e m).
    { intros m Hm. apply in_map_iff in Hm. destruct Hm as ([k v] & <- & Hin). destruct (Hne k v Hin) as ([|x xs] & -> & Hx); [now elim Hx|]. cbn [fst snd].
      split; [reflexivity|]. split; [reflexivity|]. split; [reflexivity|]. split; [reflexivity|discriminate]. }
    pose proof (modify_part u s l ms e V Hok Ht (fun m Hm => proj2 (Hg m Hm))) as M.
    destruct (obj_modify_ sv lower idx u flags vm s l ms) as [[s' l'] r]. apply M. intros m Hm Ho. destruct (Hg m Hm). congruence.
  Qed.
  Lemma raw_modify_part u s l e ms : view s (o_dn l) = Some e -> dict_ok lower (o_attrs l) -> part (o_attrs l) e ->
    mild lower eqv e (CModify ms) ->
    let '(s', l', r) := obj_modify_ sv lower idx u flags vm s l ms in pstill s l s' l'.
  Proof.
    intros V Hok Ht Hg. pose proof (modify_part u s l ms e V Hok Ht) as M.
    destruct (obj_modify_ sv lower idx u flags vm s l ms) as [[s' l'] r]. apply M; intros m Hm; destruct (Hg m Hm) as (Hc & H).
    - split; [exact Hc|]. unfold empty_rd. destruct (m_op m).
      + split; [reflexivity|]. split; discriminate.
      + destruct H as ([|x xs] & -> & Hx); [now elim Hx|]. split; [reflexivity|]. split; [reflexivity|discriminate].
      + destruct H.
    - intros Ho. rewrite Ho in H. destruct H.
  Qed.
End P.
