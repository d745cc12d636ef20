(** * Sets of octet strings: algebra, and unambiguity of length and contents *)
From Coq Require Import Setoid Morphisms.
From Verif Require Import PyBase Spec_X690.

Definition eqo (P Q : octets) : Prop := forall b, P b <-> Q b.
Infix "==" := eqo (at level 70).
#[global] Instance eqo_equiv : Equivalence eqo.
Proof. split; [intros P b; tauto | intros P Q H b; specialize (H b); tauto | intros P Q R H K b; specialize (H b); specialize (K b); tauto]. Qed.
#[global] Instance cat_proper : Proper (eqo ==> eqo ==> eqo) cat.
Proof. intros P P' HP Q Q' HQ b. unfold cat. split; intros (b1 & b2 & A & B & E); exists b1, b2; (split; [apply HP, A | split; [apply HQ, B | exact E]]). Qed.
#[global] Instance either_proper : Proper (eqo ==> eqo ==> eqo) either.
Proof. intros P P' HP Q Q' HQ b. unfold either. specialize (HP b). specialize (HQ b). tauto. Qed.
#[global] Instance given_proper : Proper (iff ==> eqo ==> eqo) given.
Proof. intros C C' HC P P' HP b. unfold given. specialize (HP b). tauto. Qed.
#[global] Instance tlv_proper i : Proper (eqo ==> eqo) (tlv i).
Proof. intros P P' HP b. unfold tlv. split; intros (x & l & A & B & E); exists x, l; (split; [apply HP, A | split; [exact B | exact E]]). Qed.

Lemma cat_eps_l P : cat eps P == P.
Proof.
  intro b. unfold cat, eps. split.
  - intros (b1 & b2 & -> & H & ->). exact H.
  - intro H. exists [], b. auto.
Qed.
Lemma cat_eps_r P : cat P eps == P.
Proof.
  intro b. unfold cat, eps. split.
  - intros (b1 & b2 & H & -> & ->). rewrite app_nil_r. exact H.
  - intro H. exists b, []. rewrite app_nil_r. auto.
Qed.
Lemma tlv_given i C P : tlv i (given C P) == given C (tlv i P).
Proof.
  intro b. unfold tlv, given. split.
  - intros (x & l & [HC A] & B & E). split; [exact HC | exists x, l; auto].
  - intros [HC (x & l & A & B & E)]. exists x, l. auto.
Qed.
Lemma cat_given_l C P Q : cat (given C P) Q == given C (cat P Q).
Proof.
  intro b. unfold cat, given. split.
  - intros (b1 & b2 & [HC A] & B & E). split; [exact HC | exists b1, b2; auto].
  - intros [HC (b1 & b2 & A & B & E)]. exists b1, b2. auto.
Qed.
Lemma cat_given_r C P Q : cat P (given C Q) == given C (cat P Q).
Proof.
  intro b. unfold cat, given. split.
  - intros (b1 & b2 & A & [HC B] & E). split; [exact HC | exists b1, b2; auto].
  - intros [HC (b1 & b2 & A & B & E)]. exists b1, b2. auto.
Qed.
Lemma given_and C D P : given C (given D P) == given (C /\ D) P.
Proof. intro b. unfold given. tauto. Qed.
Lemma given_True (C : Prop) P : C -> given C P == P.
Proof. intros H b. unfold given. tauto. Qed.
Lemma either_cat P Q R : cat (either P Q) R == either (cat P R) (cat Q R).
Proof.
  intro b. unfold cat, either. split.
  - intros (b1 & b2 & [A|A] & B & E); [left | right]; exists b1, b2; auto.
  - intros [(b1 & b2 & A & B & E)|(b1 & b2 & A & B & E)]; exists b1, b2; auto.
Qed.
Lemma cats_map_ext {A} (f g : A -> octets) l : (forall x, In x l -> f x == g x) -> cats (map f l) == cats (map g l).
Proof.
  induction l as [|x l IH]; intro H; cbn [map cats fold_right]; [reflexivity|].
  rewrite (H x) by (left; reflexivity). fold (cats (map f l)) (cats (map g l)). rewrite IH; [reflexivity|].
  intros y Hy. apply H. right; exact Hy.
Qed.
Lemma cats_given {A} (C : A -> Prop) (f : A -> octets) l :
  cats (map (fun x => given (C x) (f x)) l) == given (Forall C l) (cats (map f l)).
Proof.
  induction l as [|x l IH]; cbn [map cats fold_right].
  - intro b. unfold given. split; [intro H; split; [constructor|exact H] | tauto].
  - fold (cats (map (fun x => given (C x) (f x)) l)) (cats (map f l)). rewrite IH, cat_given_l, cat_given_r, given_and.
    intro b. unfold given. rewrite Forall_cons_iff. tauto.
Qed.

(** ** Unambiguity *)
Lemma big_endian_acc l a : fold_left (fun a b => (256 * a + b)%N) l a = (a * 256 ^ N.of_nat (List.length l) + big_endian l)%N.
Proof.
  revert a. induction l as [|x l IH]; intro a.
  - unfold big_endian. cbn [fold_left List.length]. change (N.of_nat 0) with 0%N. rewrite N.pow_0_r. lia.
  - unfold big_endian. cbn [fold_left List.length]. rewrite IH, (IH (256 * 0 + x)%N). rewrite Nat2N.inj_succ, N.pow_succ_r'. lia.
Qed.
Lemma length_octets_prefix n1 n2 l1 l2 r1 r2 : length_octets n1 l1 -> length_octets n2 l2 -> l1 ++ r1 = l2 ++ r2 ->
  n1 = n2 /\ l1 = l2 /\ r1 = r2.
Proof.
  intros [[A ->]|(d1 & L1 & _ & <- & ->)] [[B ->]|(d2 & L2 & _ & <- & ->)] E; rewrite <- ?app_comm_cons in E; pose proof (f_equal (hd 0%N) E) as E1; pose proof (f_equal (@tl N) E) as E2; cbn [hd tl List.app] in E1, E2.
  - subst. auto.
  - exfalso. lia.
  - exfalso. lia.
  - assert (L : List.length d1 = List.length d2) by lia.
    assert (d1 = d2 /\ r1 = r2) as [-> ->]; [|auto].
    clear - L E2. revert d2 L E2. induction d1 as [|x d1 IH]; intros [|y d2] L E; cbn in *; try discriminate; [auto|].
    injection E as -> E. injection L as L. destruct (IH d2 L E) as [-> ->]. auto.
Qed.
Lemma app_same_length {A} (x y r s : list A) : List.length x = List.length y -> x ++ r = y ++ s -> x = y /\ r = s.
Proof.
  revert y. induction x as [|a x IH]; intros [|b y] L E; cbn in *; try discriminate; [auto|].
  injection E as -> E. injection L as L. destruct (IH y L E) as [-> ->]. auto.
Qed.
(** equal identifier: equal contents, and equal encodings *)
Lemma tlv_prefix i P Q b1 b2 r1 r2 : tlv i P b1 -> tlv i Q b2 -> b1 ++ r1 = b2 ++ r2 ->
  exists x, P x /\ Q x /\ b1 = b2.
Proof.
  intros (x & l & A & B & ->) (y & m & C & D & ->) E.
  rewrite <- ?app_comm_cons, <- ?app_assoc in E. injection E as E.
  destruct (length_octets_prefix _ _ _ _ _ _ B D E) as (Hn & -> & E').
  destruct (app_same_length x y r1 r2) as [-> _]; [lia | exact E' |].
  exists y. auto.
Qed.
Lemma tlv_head i P b : tlv i P b -> exists t, b = i :: t.
Proof. intros (x & l & _ & _ & ->). eexists; reflexivity. Qed.

(** ** Every content has an encoding *)
Lemma length_octets_exist n : (n < 256 ^ 126)%N -> exists l, length_octets n l.
Proof.
  intro H. destruct (N.ltb_spec n 128) as [L|L]; [exists [n]; left; auto|].
  assert (G : forall k m, (m < 256 ^ N.of_nat k)%N -> exists ds, List.length ds = k /\ Forall octet ds /\ big_endian ds = m).
  { induction k as [|k IH]; intros m Hm.
    - exists []. cbn in *. split; [reflexivity | split; [constructor | cbn; lia]].
    - rewrite Nat2N.inj_succ, N.pow_succ_r' in Hm.
      destruct (IH (m / 256)%N) as (ds & Ll & F & E); [apply N.div_lt_upper_bound; lia|].
      exists (ds ++ [(m mod 256)%N]). split; [rewrite app_length, Ll; cbn; lia|]. split.
      + apply Forall_app. split; [exact F | constructor; [|constructor]]. unfold octet. apply N.mod_lt. lia.
      + unfold big_endian in *. rewrite fold_left_app, E. cbn [fold_left]. symmetry. rewrite N.add_comm, N.add_comm. apply N.div_mod. lia. }
  destruct (G 126%nat n) as (ds & Ll & F & E); [exact H|].
  exists (128 + N.of_nat (List.length ds) :: ds)%N. right. exists ds. split; [lia | auto].
Qed.
