(** Every valid message has an encoding *)
From Verif Require Import PyBase Model_Ldif Model_Filter Spec_X690 Model_Wire Spec_Wire Spec_Wire2 Proofs_X690 Proofs_Wire.
Local Open Scope N_scope.
Definition limit : N := 256 ^ 126.
(** some encoding, of at most n octets *)
Definition some (n : N) (P : octets) : Prop := n < limit -> exists b, P b /\ N.of_nat (List.length b) <= n.

Lemma length_octets_short n : n < limit -> exists l, length_octets n l /\ (List.length l <= 127)%nat.
Proof.
  intro H. destruct (length_octets_exist n H) as (l & L). exists l. split; [exact L|].
  destruct L as [[_ ->]|(ds & D & _ & _ & ->)]; cbn [List.length]; lia.
Qed.
Lemma some_eps n : some n eps.
Proof. intros _. exists []. split; [reflexivity | cbn; lia]. Qed.
Lemma some_raw x : some (N.of_nat (List.length x)) (raw x).
Proof. intros _. exists x. split; [reflexivity | lia]. Qed.
Lemma some_le n m P : n <= m -> some n P -> some m P.
Proof. intros L H K. destruct (H ltac:(lia)) as (b & Hb & Lb). exists b. split; [exact Hb | lia]. Qed.
Lemma some_cat n m P Q : some n P -> some m Q -> some (n + m) (cat P Q).
Proof.
  intros A B K. destruct (A ltac:(lia)) as (a & Ha & La), (B ltac:(lia)) as (b & Hb & Lb). exists (a ++ b)%list. split; [exists a, b; auto|].
  rewrite app_length. lia.
Qed.
Lemma some_tlv n id P : some n P -> some (128 + n) (tlv id P).
Proof.
  intros A K. destruct (A ltac:(lia)) as (a & Ha & La). destruct (length_octets_short (N.of_nat (List.length a))) as (l & Hl & Ll); [lia|].
  exists (id :: l ++ a)%list. split; [exists a, l; auto|]. cbn [List.length]. rewrite app_length. lia.
Qed.
Lemma some_given n (C : Prop) P : C -> some n P -> some n (given C P).
Proof. intros HC A K. destruct (A K) as (b & Hb & L). exists b. split; [split; assumption | exact L]. Qed.
Lemma some_cats {A} (f : A -> octets) (g : A -> N) l : (forall x, In x l -> some (g x) (f x)) -> some (sum (map g l)) (cats (map f l)).
Proof.
  induction l as [|x l IH]; intro H; cbn [map cats fold_right sum]; [apply some_eps|].
  apply some_cat; [apply H; left; reflexivity | apply IH; intros y Hy; apply H; right; exact Hy].
Qed.
Lemma some_bool b : some 5 (bool_octets b).
Proof.
  intros _. exists [if b then 255 else 0]. split; [|cbn; lia]. exists (if b then 255 else 0). split; [reflexivity|].
  destruct b; unfold octet; split; try lia; split; intro H; try reflexivity; try discriminate; congruence.
Qed.
Lemma some_int z : Spec_Wire.int0max z -> some 5 (int_octets z).
Proof.
  unfold Spec_Wire.int0max, maxInt. intros H _. assert (exists n : N, z = Z.of_N n /\ n < 2147483648) as (n & -> & Hn) by (exists (Z.to_N z); lia). clear H.
  assert (Hm : forall a, a mod 256 < 256) by (intro a; apply N.mod_lt; lia).
  assert (D : forall a, a = 256 * (a / 256) + a mod 256) by (intro a; apply N.div_mod; lia).
  destruct (N.ltb_spec n 128) as [L|L].
  { exists [n]. split; [|cbn; lia]. split; [discriminate|]. split; [repeat constructor; unfold octet; lia|]. split; [exact I|].
    unfold twos, big_endian. cbn [fold_left]. apply N.ltb_lt in L. rewrite L. lia. }
  destruct (N.ltb_spec n 32768) as [L2|L2].
  { pose proof (Hm n). pose proof (D n). set (q := n / 256) in *. set (r := n mod 256) in *.
    exists [q; r]. split; [|cbn; lia]. split; [discriminate|]. split; [repeat constructor; unfold octet; lia|]. split; [cbn; lia|].
    unfold twos, big_endian. cbn [fold_left]. assert (Lq : q < 128) by lia. apply N.ltb_lt in Lq. rewrite Lq. lia. }
  destruct (N.ltb_spec n 8388608) as [L3|L3].
  { pose proof (Hm n). pose proof (D n). set (q := n / 256) in *. set (r := n mod 256) in *.
    pose proof (Hm q). pose proof (D q). set (q2 := q / 256) in *. set (r2 := q mod 256) in *.
    exists [q2; r2; r]. split; [|cbn; lia]. split; [discriminate|]. split; [repeat constructor; unfold octet; lia|]. split; [cbn; lia|].
    unfold twos, big_endian. cbn [fold_left]. assert (Lq : q2 < 128) by lia. apply N.ltb_lt in Lq. rewrite Lq. lia. }
  pose proof (Hm n). pose proof (D n). set (q := n / 256) in *. set (r := n mod 256) in *.
  pose proof (Hm q). pose proof (D q). set (q2 := q / 256) in *. set (r2 := q mod 256) in *.
  pose proof (Hm q2). pose proof (D q2). set (q3 := q2 / 256) in *. set (r3 := q2 mod 256) in *.
  exists [q3; r3; r2; r]. split; [|cbn; lia]. split; [discriminate|]. split; [repeat constructor; unfold octet; lia|]. split; [cbn; lia|].
  unfold twos, big_endian. cbn [fold_left]. assert (Lq : q3 < 128) by lia. apply N.ltb_lt in Lq. rewrite Lq. lia.
Qed.

Lemma some_oct id x : some (len_oct x) (tlv id (raw x)).
Proof. apply some_tlv, some_raw. Qed.
Lemma some_tint id z : Spec_Wire.int0max z -> some len_int (tlv id (int_octets z)).
Proof. intro H. apply (some_tlv 5). apply some_int, H. Qed.
Lemma some_tbool id b : some len_int (tlv id (bool_octets b)).
Proof. apply (some_tlv 5). apply some_bool. Qed.
Lemma some_opt id o : some (len_opt o) (e_opt (fun x => tlv id (raw x)) o).
Proof. destruct o; [apply some_oct | apply some_eps]. Qed.
Lemma some_octs id l : some (len_octs l) (tlv id (cats (map e_oct l))).
Proof. apply some_tlv. apply some_cats. intros x _. apply some_oct. Qed.
Lemma some_def (e : bool -> octets) n b : some n (e b) -> some n (e_default_false e b).
Proof. intros A K. destruct (A K) as (x & Hx & L). exists x. split; [right; exact Hx | exact L]. Qed.
Lemma some_nil n P : some n P -> some n (cat P eps).
Proof. intro H. apply (some_le (n + 0)); [lia|]. apply some_cat; [exact H | apply some_eps]. Qed.
Ltac parts := unfold ctxc, appc, e_seq, e_set, cats; cbn [fold_right List.app].
Ltac go := repeat first [apply some_oct | apply some_opt | apply some_octs | apply some_tbool | (apply some_tint; assumption) | apply some_nil | apply some_cat | apply some_tlv].
Lemma some_partial a : some (len_attr a) (e_partial a).
Proof. unfold e_partial, len_attr. parts. go. Qed.
Lemma some_filter f : filter_sizes f -> some (len_filter f) (e_filter f).
Proof.
  assert (ML : forall l, Forall (fun f => filter_sizes f -> some (len_filter f) (e_filter f)) l ->
    (fix all l := match l with [] => True | g :: l' => filter_sizes g /\ all l' end) l ->
    some (sum (map len_filter l)) (cats (map e_filter l))).
  { intros l F A. apply some_cats. revert A. induction F as [|g l Hg _ IH]; intros A x [].
    - subst x. apply Hg, A.
    - apply IH; [apply A | assumption]. }
  induction f as [l Hl|l Hl|g IH|a v|a l|a v|a v|a|a v|r t v d] using rfilter_ind2; cbn [filter_sizes len_filter e_filter]; intro H.
  - destruct H as [N H]. apply some_given; [exact N|]. apply some_tlv. apply ML; assumption.
  - destruct H as [N H]. apply some_given; [exact N|]. apply some_tlv. apply ML; assumption.
  - apply some_tlv. apply some_nil. apply IH, H.
  - unfold e_ava. parts. go.
  - apply some_given; [exact H|]. apply some_tlv. parts. go. apply some_cats. intros s _. destruct s; apply some_oct.
  - unfold e_ava. parts. go.
  - unfold e_ava. parts. go.
  - apply some_oct.
  - unfold e_ava. parts. go.
  - parts. go. apply some_def. go.
Qed.
Lemma some_result r (rest : list octets) n : result_valid r -> some n (cats rest) -> some (len_result r + n) (cats (result_components r ++ rest)).
Proof.
  intros [C R] H. unfold result_components, len_result. cbn [List.app cats fold_right]. rewrite <- !N.add_assoc.
  apply some_cat; [go|]. apply some_cat; [go|]. apply some_cat; [go|]. apply some_cat; [|exact H].
  destruct (rr_referral r) as [l|]; [|apply some_eps]. cbn [e_opt]. unfold e_referral. apply some_given; [|apply some_octs]. intro E. congruence.
Qed.
Lemma some_result0 r : result_valid r -> some (len_result r) (cats (result_components r)).
Proof. intro V. pose proof (some_result r [] 0 V (some_eps 0)) as H. rewrite app_nil_r, N.add_0_r in H. exact H. Qed.
Lemma some_op o : op_valid o -> some (len_op o) (e_op o).
Proof.
  destruct o; cbn [op_valid len_op e_op]; intro H; try (apply some_tlv; apply some_result0; exact H).
  - apply some_given; [exact H|]. assert (Spec_Wire.int0max version) by (unfold Spec_Wire.int0max, maxInt; lia). parts. go.
    destruct auth; cbn [e_auth len_auth]; parts; go.
  - apply some_tlv. apply some_result; [exact H|]. parts. go.
  - apply (some_tlv 0). apply some_eps.
  - destruct H as (A & B & C & D & F). apply some_given; [auto|]. apply some_tlv. cbn [cats fold_right].
    replace (len_oct base + (5 * len_int + (len_filter f + len_octs attrs))) with
      (len_oct base + (len_int + (len_int + (len_int + (len_int + (len_int + (len_filter f + len_octs attrs))))))) by lia.
    go. apply some_filter, F.
  - parts. go. apply some_cats. intros x _. apply some_partial.
  - apply some_given; [exact H|]. apply some_octs.
  - parts. go. apply some_cats. intros x Hx. rewrite Forall_forall in H. specialize (H x Hx). unfold e_change. parts. go; try apply some_partial.
  - parts. go. apply some_cats. intros x Hx. rewrite Forall_forall in H. specialize (H x Hx). apply some_given; [exact H | apply some_partial].
  - apply some_oct.
  - parts. go.
  - parts. go.
  - apply some_given; [exact H|]. go.
  - parts. go.
  - apply some_tlv. apply some_result; [exact H|]. parts. go.
  - parts. go.
Qed.
Lemma some_message m : valid_message m -> some (len_message m) (e_message m).
Proof.
  intros [A B]. unfold e_message, len_message. apply some_given; [exact A|]. parts. go; [apply some_op, B|].
  destruct (rm_controls m) as [l|]; [|apply some_eps]. cbn [e_opt]. apply some_tlv. apply some_cats. intros c _. unfold e_control. parts. go.
  apply some_def. go.
Qed.
