From Verif Require Import PyBase Model_CIDict Proofs_CIDict Model_Modify Spec_Modify Proofs_Modify Proofs_Modify2 Model_Search Spec_Search Proofs_Search Model_Dir Spec_Dir Proofs_Dir Proofs_Dir2 Proofs_Dir3 Proofs_Dir4 Props_Dir Model_Filter Model_Request Model_Netgroups Model_Life Spec_Life Spec_Coherent.

(** ** the server's modify looks at the named attributes only *)
Section Agree.
  Context (lower : str -> str) (eqv : str -> str -> str -> bool).
  Definition touched (cs : list change) : list str := map (fun c => lower (c_attr c)) cs.
  Lemma apply1_agree e e0 e1 c : c_op c = REPLACE \/ e0 (lower (c_attr c)) = e (lower (c_attr c)) ->
    srv_apply1 lower eqv e c = Some e1 -> exists l, e1 = eput lower e (c_attr c) l /\ srv_apply1 lower eqv e0 c = Some (eput lower e0 (c_attr c) l).
  Proof.
    intros H E. unfold srv_apply1 in *. destruct (c_op c) eqn:Eo.
    - destruct H as [H|H]; [discriminate|]. rewrite H. destruct (c_vals c) as [|v vs]; [discriminate|]. destruct (srv_add _ _ _ _) as [l|]; [|discriminate].
      injection E as <-. exists l. auto.
    - injection E as <-. eauto.
    - destruct H as [H|H]; [discriminate|]. rewrite H. destruct (e (lower (c_attr c))) as [|x xs]; [discriminate|]. destruct (c_vals c) as [|v vs].
      + injection E as <-. eauto.
      + destruct (srv_remove _ _ _ _) as [l|]; [|discriminate]. injection E as <-. exists l. auto.
  Qed.
  Lemma apply_agree cs : forall A e e0 e1,
    (forall c, In c cs -> c_op c = REPLACE \/ In (lower (c_attr c)) A) -> (forall n, In n A -> e0 n = e n) ->
    srv_apply lower eqv e cs = Some e1 ->
    exists e0', srv_apply lower eqv e0 cs = Some e0' /\ forall n, In n A \/ In n (touched cs) -> e0' n = e1 n.
  Proof.
    induction cs as [|c cs IH]; intros A e e0 e1 Hc HA E; cbn [srv_apply] in *.
    - injection E as <-. exists e0. split; [reflexivity|]. intros n [Hn|[]]. now apply HA.
    - destruct (srv_apply1 lower eqv e c) as [e2|] eqn:E1; [|discriminate].
      destruct (apply1_agree e e0 e2 c) as (l & -> & E0); [|exact E1|].
      { destruct (Hc c (or_introl eq_refl)) as [H|H]; [now left|right; now apply HA]. }
      rewrite E0. destruct (IH (lower (c_attr c) :: A) (eput lower e (c_attr c) l) (eput lower e0 (c_attr c) l) e1) as (e0' & E' & Hag).
      + intros c' Hc'. destruct (Hc c' (or_intror Hc')) as [H|H]; [now left|right; now right].
      + intros n [<-|Hn]; unfold eput; [now rewrite !str_eqb_refl|]. destruct (str_eqb n (lower (c_attr c))); [reflexivity|now apply HA].
      + exact E.
      + exists e0'. split; [exact E'|]. intros n Hn. apply Hag. unfold touched in *. cbn [map In] in *. tauto.
  Qed.
End Agree.

Section P.
  Context {S : Type} (sv : server S) (view : S -> str -> option entry).
  Context (lower norm : str -> str) (eqv : str -> str -> str -> bool) (idx : str -> list str -> str -> res nat).
  Context (strict : bool) (flags : empty_flags).
  Context (vm : str -> list mod_ -> option lobj -> res unit).
  Context (Hidx : same_rule eqv idx) (Hlaw : lawful lower norm eqv sv view).

  Notation truth := (shows_truth lower).
  (** the entry that consists of what the object shows *)
  Definition shown (d : attrs) : entry := fun n =>
    match dget (ckeys d) n with Some k => match dget (cdata d) k with Some l => l | None => [] end | None => [] end.
  Lemma shown_cur d k : shown d (lower k) = cur_vals lower d k.
  Proof. unfold shown, cur_vals, cid_get. destruct (dget (ckeys d) (lower k)); [|reflexivity]. now destruct (dget (cdata d) s). Qed.
  Lemma shown_mirrors d : mirrors lower d (shown d).
  Proof. intros k. exact (shown_cur d k). Qed.
  Lemma ahas_cur d k : ahas lower d k = true <-> cur_vals lower d k <> [].
  Proof. unfold ahas, cur_vals. destruct (cid_get lower d k) as [[|]|]; split; try congruence; try discriminate; intros H; now elim H. Qed.

  Definition good_mod (d : attrs) (e : entry) (m : mod_) : Prop :=
    constructed m /\ empty_rd m = false /\ (m_op m = REPLACE -> vtrue (m_vals m) = true) /\
    (m_op m = REPLACE \/ cur_vals lower d (m_attr m) = e (lower (m_attr m))).

  (** the state afterwards, of any of the methods *)
  Definition still (s : S) (l : lobj) (s' : S) (l' : lobj) : Prop :=
    o_dn l' = o_dn l /\ dict_ok lower (o_attrs l') /\ (exists e', view s' (o_dn l) = Some e' /\ truth (o_attrs l') e') /\
    forall d, norm d <> norm (o_dn l) -> view s' d = view s d.

  Lemma modify_still u s l ms e : view s (o_dn l) = Some e -> dict_ok lower (o_attrs l) -> truth (o_attrs l) e ->
    (forall m, In m ms -> good_mod (o_attrs l) e m) ->
    let '(s', l', r) := obj_modify_ sv lower idx u flags vm s l ms in
    still s l s' l' /\ (s', r) = (let '(s1, _, r1) := ldap_modify_ sv u flags vm s (o_dn l) ms (Some l) in (s1, r1)).
  Proof.
    intros V Hok Ht Hg. unfold obj_modify_.
    pose proof (lmod_dir sv view lower norm eqv Hlaw u flags vm s (o_dn l) ms (Some l) (fun m Hm => proj1 (Hg m Hm)) (fun m Hm => proj1 (proj2 (Hg m Hm)))) as L.
    destruct (ldap_modify_ sv u flags vm s (o_dn l) ms (Some l)) as [[s' ms'] [[]|x]].
    2: { split; [|reflexivity]. split; [reflexivity|]. split; [exact Hok|]. split; [exists e; split; [rewrite L; exact V|exact Ht]|]. intros d _. apply L. }
    destruct L as (-> & L).
    assert (A : exists e1 e', srv_apply lower eqv e (map change_of ms) = Some e1 /\ view s' (o_dn l) = Some e' /\ (forall n, e' n = e1 n) /\ only_at view norm s s' (o_dn l)).
    { destruct L as [(-> & ->)|((e0 & e1 & e' & V0 & A & V' & P) & On)].
      - exists e, e. repeat split; auto.
      - exists e1, e'. assert (e0 = e) by congruence. subst. auto. }
    destruct A as (e1 & e' & A & V' & P & On).
    set (d := o_attrs l) in *. set (K := map (fun m => lower (m_attr m)) (List.filter (fun m => negb (match m_op m with REPLACE => true | _ => false end)) ms)).
    assert (HK : forall n, In n K -> shown d n = e n).
    { intros n Hn. apply in_map_iff in Hn. destruct Hn as (m & <- & Hm). apply filter_In in Hm. destruct Hm as [Hm Ho].
      destruct (Hg m Hm) as (_ & _ & _ & [H|H]); [rewrite H in Ho; discriminate|]. now rewrite shown_cur. }
    destruct (apply_agree lower eqv (map change_of ms) K e (shown d) e1) as (e0' & A0 & Hag).
    { intros c Hc. apply in_map_iff in Hc. destruct Hc as (m & <- & Hm). cbn [change_of c_op c_attr]. destruct (m_op m) eqn:Eo; [right|now left|right]; apply in_map_iff; exists m; (split; [reflexivity|]);
        apply filter_In; (split; [exact Hm|]); now rewrite Eo. }
    { exact HK. }
    { exact A. }
    destruct (local_modify_spec lower eqv idx Hidx flags ms d (shown d) e0' Hok (shown_mirrors d) (fun m Hm => proj1 (Hg m Hm))) as (d' & El & Hok' & Hm').
    { apply safe_plain; intros m Hm; apply Hg; exact Hm. }
    { exact A0. }
    rewrite El. split; [|reflexivity]. split; [reflexivity|]. split; [exact Hok'|]. split; [|exact On].
    exists e'. split; [exact V'|]. intros k Hk. cbn [o_attrs] in *. rewrite P.
    assert (C' : cur_vals lower d' k = e0' (lower k)) by (symmetry; exact (Hm' k)). rewrite C'.
    destruct (in_dec str_eq_dec (lower k) (touched lower (map change_of ms))) as [Hin|Hni]; [apply Hag; now right|].
    rewrite (apply_other lower eqv _ _ _ A _ Hni). rewrite (apply_other lower eqv _ _ _ A0 _ Hni).
    rewrite shown_cur. apply Ht. apply ahas_cur. apply ahas_cur in Hk. rewrite C', (apply_other lower eqv _ _ _ A0 _ Hni), shown_cur in Hk. exact Hk.
  Qed.

  Lemma refresh_still u s l e ats : view s (o_dn l) = Some e -> dict_ok lower (o_attrs l) -> truth (o_attrs l) e ->
    match ats with Some n => plain n | None => True end ->
    let (l', r) := obj_refresh sv lower u s l ats in still s l s l'.
  Proof.
    intros V Hok Ht Hp. destruct u.
    - unfold obj_refresh, ldap_get_. split; [reflexivity|]. split; [exact Hok|]. split; [eauto|auto].
    - destruct (refresh_spec sv view lower norm eqv Hlaw s l e ats V Hok) as (l' & E & Hdn & Hok' & Hg).
      { destruct ats; [exact Hp|exact I]. }
      rewrite E. split; [exact Hdn|]. split; [exact Hok'|]. split; [|auto]. exists e. split; [exact V|].
      intros k Hk. unfold ahas, cur_vals in *. rewrite Hg in *. pose proof (Ht k) as Hold. unfold ahas, cur_vals in Hold.
      destruct (match ats with Some (n :: l0) => _ | _ => true end); [|now apply Hold].
      destruct (e (lower k)); [now apply Hold|reflexivity].
  Qed.
  Lemma missing_still u s l e ats : view s (o_dn l) = Some e -> dict_ok lower (o_attrs l) -> truth (o_attrs l) e -> plain ats ->
    let (l', r) := obj_refresh_missing sv lower u s l ats in still s l s l' /\
      (r = Ok tt -> forall k, In k ats -> cur_vals lower (o_attrs l') k = e (lower k)) /\
      (u = false -> r = Ok tt).
  Proof.
    intros V Hok Ht Hp. destruct u.
    - unfold obj_refresh_missing. destruct (missing lower l ats) as [|n ns] eqn:Em.
      + split; [split; [reflexivity|]; split; [exact Hok|]; split; [eauto|auto]|]. split; [|discriminate]. intros _ k Hk. apply Ht. destruct (ahas lower (o_attrs l) k) eqn:F; [reflexivity|].
        assert (Hin : In k (missing lower l ats)) by (unfold missing; apply filter_In; now rewrite F). now rewrite Em in Hin.
      + unfold obj_refresh, ldap_get_. split; [split; [reflexivity|]; split; [exact Hok|]; split; [eauto|auto]|]. split; discriminate.
    - destruct (C59_refresh_missing sv view lower norm eqv false Hlaw s l e ats V Hok eq_refl Hp Ht) as (l' & E & Hdn & Hok' & Hc & Hk).
      rewrite E. split; [|auto].
      pose proof (refresh_still false s l e (Some (missing lower l ats)) V Hok Ht) as R. unfold obj_refresh_missing in E.
      destruct (missing lower l ats) as [|n ns] eqn:Em.
      + injection E as <-. split; [reflexivity|]. split; [exact Hok|]. split; [eauto|auto].
      + rewrite E in R. apply R. intros x Hx. apply Hp. assert (In x (missing lower l ats)) by now rewrite Em. unfold missing in H. apply filter_In in H. tauto.
  Qed.
  Lemma prefetch_still u s l e ats : view s (o_dn l) = Some e -> dict_ok lower (o_attrs l) -> truth (o_attrs l) e -> plain ats ->
    (strict = false \/ forall k, In k ats -> ahas lower (o_attrs l) k = true) ->
    let (l', r) := obj_prefetch sv lower u strict s l ats in still s l s l' /\ (r = Ok tt -> forall k, In k ats -> cur_vals lower (o_attrs l') k = e (lower k)).
  Proof.
    intros V Hok Ht Hp Hs. unfold obj_prefetch. destruct strict.
    - split; [split; [reflexivity|]; split; [exact Hok|]; split; [eauto|auto]|]. intros _ k Hk. apply Ht. destruct Hs as [Hs|Hs]; [discriminate|now apply Hs].
    - pose proof (missing_still u s l e ats V Hok Ht Hp) as M. destruct (obj_refresh_missing sv lower u s l ats) as [l' r]. tauto.
  Qed.

  (** truth about the same entry under the entry's view *)
  Lemma still_trans s l l1 s' l' : still s l s l1 -> (still s l1 s' l') -> still s l s' l'.
  Proof.
    intros (D1 & _ & _ & O1) (D2 & K2 & (e' & V2 & T2) & O2). split; [congruence|]. split; [exact K2|]. split; [exists e'; rewrite <- D1; auto|].
    intros d Hd. rewrite D1 in O2. now rewrite O2.
  Qed.
  Lemma still_view s l l1 e : view s (o_dn l) = Some e -> still s l s l1 -> view s (o_dn l1) = Some e /\ dict_ok lower (o_attrs l1) /\ truth (o_attrs l1) e.
  Proof. intros V (D & K & (e' & V' & T) & _). assert (e' = e) by congruence. subst e'. rewrite D. auto. Qed.

  Lemma add_attrs_still u s l e new : view s (o_dn l) = Some e -> dict_ok lower (o_attrs l) -> truth (o_attrs l) e ->
    NoDup (map fst new) -> plain (map fst new) -> (strict = false \/ forall k, In k (map fst new) -> ahas lower (o_attrs l) k = true) ->
    let '(s', l', r) := obj_add_attrs sv lower idx u strict flags vm s l new in still s l s' l' /\
    (forall x, r = Ok x -> exists l1, o_dn l1 = o_dn l /\ (forall k, In k (map fst new) -> cur_vals lower (o_attrs l1) k = e (lower k)) /\
       ldap_add_attrs sv lower idx u strict flags vm s (o_dn l) new (Some l1) = (s', Ok x)) /\
    (forall x, r = Raise x -> forall d, view s' d = view s d).
  Proof.
    intros V Hok Ht Hnd Hp Hs. unfold obj_add_attrs. pose proof (prefetch_still u s l e (map fst new) V Hok Ht Hp Hs) as P.
    destruct (obj_prefetch sv lower u strict s l (map fst new)) as [l1 [[]|x]].
    2: { destruct P as (P1 & _). split; [exact P1|]. split; [discriminate|auto]. }
    destruct P as (P1 & P2). specialize (P2 eq_refl).
    destruct (add_modlist lower idx (o_attrs l1) new) as [ms|x] eqn:Em.
    2: { split; [exact P1|]. split; [discriminate|auto]. }
    destruct (still_view s l l1 e V P1) as (V1 & Hok1 & Ht1).
    destruct (add_mods_ok lower eqv idx (o_attrs l1) new ms Hnd Em) as (H1 & H2 & _).
    destruct (add_modlist_values lower idx (o_attrs l1) new ms Hnd Em) as [Hadd Hval].
    assert (Hg : forall m, In m ms -> good_mod (o_attrs l1) e m).
    { intros m Hm. destruct (Hadd m Hm) as [Ho Hv]. split; [now apply H1|]. split; [now apply H2|]. split; [congruence|]. right.
      destruct (m_vals m) as [[|v vs]|] eqn:Emv; try discriminate. destruct (proj1 (Hval (m_attr m) v)) as (l' & Hl' & _).
      { exists (v :: vs). split; [|now left]. destruct m as [o a w]. cbn [m_op m_attr m_vals] in *. now subst. }
      apply P2. now apply (in_map fst) in Hl'. }
    pose proof (modify_still u s l1 ms e V1 Hok1 Ht1 Hg) as M. destruct (obj_modify_ sv lower idx u flags vm s l1 ms) as [[s' l'] r].
    destruct M as (M1 & M2). split; [now apply (still_trans s l l1)|].
    pose proof (lmod_dir sv view lower norm eqv Hlaw u flags vm s (o_dn l1) ms (Some l1) H1 H2) as L.
    unfold ldap_add_attrs. destruct P1 as (D1 & _). rewrite D1 in M2. rewrite D1 in L.
    destruct (ldap_modify_ sv u flags vm s (o_dn l) ms (Some l1)) as [[s2 ms2] r2] eqn:Eml. injection M2 as -> ->. split.
    - intros x ->. exists l1. split; [exact D1|]. split; [exact P2|]. rewrite Em. now rewrite Eml.
    - intros x ->. exact L.
  Qed.
  Lemma delete_attrs_still u s l e del : view s (o_dn l) = Some e -> dict_ok lower (o_attrs l) -> truth (o_attrs l) e ->
    NoDup (map fst del) -> plain (map fst del) -> (strict = false \/ forall k, In k (map fst del) -> ahas lower (o_attrs l) k = true) ->
    (forall k v, In (k, v) del -> v <> VList []) ->
    let '(s', l', r) := obj_delete_attrs sv lower idx u strict flags vm s l del in still s l s' l' /\
    (forall x, r = Ok x -> exists l1, o_dn l1 = o_dn l /\ (forall k, In k (map fst del) -> cur_vals lower (o_attrs l1) k = e (lower k)) /\
       ldap_delete_attrs sv lower idx u strict flags vm s (o_dn l) del (Some l1) = (s', Ok x)) /\
    (forall x, r = Raise x -> forall d, view s' d = view s d).
  Proof.
    intros V Hok Ht Hnd Hp Hs Hne. unfold obj_delete_attrs. pose proof (prefetch_still u s l e (map fst del) V Hok Ht Hp Hs) as P.
    destruct (obj_prefetch sv lower u strict s l (map fst del)) as [l1 [[]|x]].
    2: { destruct P as (P1 & _). split; [exact P1|]. split; [discriminate|auto]. }
    destruct P as (P1 & P2). specialize (P2 eq_refl).
    destruct (delete_modlist lower idx (o_attrs l1) del) as [ms|x] eqn:Em.
    2: { split; [exact P1|]. split; [discriminate|auto]. }
    destruct (still_view s l l1 e V P1) as (V1 & Hok1 & Ht1).
    assert (Hm0 : forall m, In m ms -> m_op m = DELETE /\ m_vals m <> VList [] /\ In (m_attr m) (map fst del)).
    { rewrite (del_modlist_exact lower idx (o_attrs l1) del ms Hnd Em). intros m Hm. apply in_flat_map in Hm. destruct Hm as ([k v] & Hin & Hm).
      pose proof (Hne _ _ Hin) as Hv. pose proof (in_map fst _ _ Hin) as Hk. cbn [fst] in Hk.
      unfold deletes_for in Hm. cbn [fst snd] in Hm. destruct (cur_vals lower (o_attrs l1) k) as [|c0 cs0]; [destruct Hm|].
      destruct v as [[|y ys]|]; [now elim Hv| |destruct Hm as [<-|[]]; split; [reflexivity|]; split; [discriminate|exact Hk]].
      destruct (List.filter _ (y :: ys)); [destruct Hm|destruct Hm as [<-|[]]; split; [reflexivity|]; split; [discriminate|exact Hk]]. }
    assert (Hg : forall m, In m ms -> good_mod (o_attrs l1) e m).
    { intros m Hm. destruct (Hm0 m Hm) as (Ho & Hv & Hk). split; [|split; [|split]].
      - unfold constructed, new_mod. rewrite Ho. cbn. rewrite <- Ho. now destruct m.
      - unfold empty_rd. rewrite Ho. now destruct (m_vals m) as [[|]|].
      - congruence.
      - right. now apply P2. }
    pose proof (modify_still u s l1 ms e V1 Hok1 Ht1 Hg) as M. destruct (obj_modify_ sv lower idx u flags vm s l1 ms) as [[s' l'] r].
    destruct M as (M1 & M2). split; [now apply (still_trans s l l1)|].
    pose proof (lmod_dir sv view lower norm eqv Hlaw u flags vm s (o_dn l1) ms (Some l1) (fun m Hm => proj1 (Hg m Hm)) (fun m Hm => proj1 (proj2 (Hg m Hm)))) as L.
    unfold ldap_delete_attrs. destruct P1 as (D1 & _). rewrite D1 in M2. rewrite D1 in L.
    destruct (ldap_modify_ sv u flags vm s (o_dn l) ms (Some l1)) as [[s2 ms2] r2] eqn:Eml. injection M2 as -> ->. split.
    - intros x ->. exists l1. split; [exact D1|]. split; [exact P2|]. rewrite Em. now rewrite Eml.
    - intros x ->. exact L.
  Qed.

  Lemma replace_modlist new : modlist REPLACE new = Ok (map (fun av => mkmod REPLACE (fst av) (snd av)) new).
  Proof. induction new as [|[k v] new IH]; [reflexivity|]. cbn [modlist map fst snd new_mod mop_eqb andb bind]. now rewrite IH. Qed.
  Lemma replace_attrs_still u hv s l e new : view s (o_dn l) = Some e -> dict_ok lower (o_attrs l) -> truth (o_attrs l) e ->
    (forall k v, In (k, v) new -> exists x, v = VList x /\ x <> []) ->
    let '(s', l', r) := obj_replace_attrs sv lower idx u flags vm s l new in still s l s' l' /\
    (s', r) = ldap_replace_attrs sv lower u strict hv flags vm s (o_dn l) new (Some l).
  Proof.
    intros V Hok Ht Hne. unfold obj_replace_attrs, ldap_replace_attrs. rewrite replace_modlist. apply (modify_still u s l _ e V Hok Ht).
    intros m Hm. apply in_map_iff in Hm. destruct Hm as ([k v] & <- & Hin). destruct (Hne k v Hin) as ([|x xs] & -> & Hx); [now elim Hx|]. cbn [fst snd].
    split; [reflexivity|]. split; [reflexivity|]. split; [reflexivity|now left].
  Qed.
  Lemma raw_modify_still u s l e ms : view s (o_dn l) = Some e -> dict_ok lower (o_attrs l) -> truth (o_attrs l) e ->
    gentle lower strict (o_attrs l) (CModify ms) ->
    let '(s', l', r) := obj_modify_ sv lower idx u flags vm s l ms in still s l s' l'.
  Proof.
    intros V Hok Ht Hg. pose proof (modify_still u s l ms e V Hok Ht) as M.
    destruct (obj_modify_ sv lower idx u flags vm s l ms) as [[s' l'] r]. apply M. intros m Hm. destruct (Hg m Hm) as (Hc & H). split; [exact Hc|].
    unfold empty_rd. destruct (m_op m).
    - split; [reflexivity|]. split; [discriminate|]. right. now apply Ht.
    - destruct H as ([|x xs] & -> & Hx); [now elim Hx|]. auto.
    - destruct H as [H Hv]. split; [now destruct (m_vals m) as [[|]|]|]. split; [discriminate|]. right. now apply Ht.
  Qed.
  Lemma has_class_still u s l e oc : view s (o_dn l) = Some e -> dict_ok lower (o_attrs l) -> truth (o_attrs l) e ->
    let (l', r) := has_object_class sv lower idx u s l oc in still s l s l' /\
      (u = false -> e (lower (lit "objectClass")) <> [] -> r = Ok (existsb (fun x => eqv (lit "objectClass") x oc) (e (lower (lit "objectClass"))))) /\
      (forall b, r = Ok b -> b = existsb (fun x => eqv (lit "objectClass") x oc) (e (lower (lit "objectClass")))).
  Proof.
    intros V Hok Ht. unfold has_object_class.
    assert (Hp : plain [lit "objectClass"]).
    { intros n [<-|[]] X. repeat (destruct X as [X|X]; try discriminate). exact X. }
    pose proof (missing_still u s l e [lit "objectClass"] V Hok Ht Hp) as M.
    destruct (obj_refresh_missing sv lower u s l [lit "objectClass"]) as [l' [[]|x]].
    2: { destruct M as (M1 & _ & M3). split; [exact M1|]. split; [|discriminate]. intros Hu _. specialize (M3 Hu). discriminate. }
    destruct M as (M1 & M2 & _). specialize (M2 eq_refl (lit "objectClass") (or_introl eq_refl)). split; [exact M1|].
    assert (X : forall y ys, cid_get lower (o_attrs l') (lit "objectClass") = Ok (y :: ys) ->
        (let* x := cid_get lower (o_attrs l') (lit "objectClass") in avl_contains (idx (lit "objectClass")) x oc) =
        Ok (existsb (fun x => eqv (lit "objectClass") x oc) (y :: ys))).
    { intros y ys Eg. rewrite Eg. cbn [bind]. unfold avl_contains. rewrite Hidx. 
      assert (F : forall l0 i, match first_match (fun x => eqv (lit "objectClass") x oc) l0 i with Some _ => true | None => false end = existsb (fun x => eqv (lit "objectClass") x oc) l0).
      { induction l0 as [|z zs IH]; intros i; [reflexivity|]. cbn [first_match existsb]. destruct (eqv (lit "objectClass") z oc); [reflexivity|]. apply IH. }
      specialize (F (y :: ys) 0). destruct (first_match _ (y :: ys) 0); now rewrite <- F. }
    unfold cur_vals in M2. destruct (cid_get lower (o_attrs l') (lit "objectClass")) as [[|y ys]|x] eqn:Eg.
    - split; [intros _ H; now elim H|]. intros b. cbn [bind]. unfold avl_contains. rewrite Hidx. cbn [first_match]. intros H. injection H as <-. now rewrite <- M2.
    - rewrite <- M2. rewrite (X y ys eq_refl). split; [reflexivity|]. intros b H. now injection H as <-.
    - split; [intros _ H; now elim H|]. discriminate.
  Qed.
End P.
