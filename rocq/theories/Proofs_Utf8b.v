From Verif Require Import PyBase Model_Ldif Spec_Reply Spec_Utf8 Proofs_Utf8.
Local Open Scope N_scope.

Lemma rfc3629_scalar c x : rfc3629 c x -> scalar c /\ utf8_char c = x.
Proof.
  intros H. unfold scalar, utf8_char. destruct H as [a|a b Ha Hb H|a b c Ha Hb Hc H Hs|a b c d Ha Hb Hc Hd H].
  - split; [lia|]. rewrite (proj2 (N.ltb_lt a 128)) by lia. reflexivity.
  - split; [lia|]. replace (a * 64 + b <? 128) with false by (symmetry; apply N.ltb_ge; lia).
    replace (a * 64 + b <? 2048) with true by (symmetry; apply N.ltb_lt; lia).
    replace ((a * 64 + b) / 64) with a by (rewrite N.div_add_l by lia; rewrite (N.div_small b) by lia; lia).
    replace ((a * 64 + b) mod 64) with b by (rewrite N.add_comm, N.mod_add by lia; rewrite N.mod_small; lia). reflexivity.
  - set (n := (a * 64 + b) * 64 + c) in *. split; [lia|].
    replace (n <? 128) with false by (symmetry; apply N.ltb_ge; lia).
    replace (n <? 2048) with false by (symmetry; apply N.ltb_ge; lia).
    replace (n <? 65536) with true by (symmetry; apply N.ltb_lt; lia).
    assert (E1 : n / 64 = a * 64 + b) by (unfold n; rewrite N.div_add_l by lia; rewrite (N.div_small c) by lia; lia).
    assert (E2 : n mod 64 = c) by (unfold n; rewrite N.add_comm, N.mod_add by lia; rewrite N.mod_small; lia).
    assert (E3 : n / 4096 = a) by (change 4096 with (64 * 64); rewrite <- N.div_div by lia; rewrite E1, N.div_add_l by lia; rewrite (N.div_small b) by lia; lia).
    assert (E4 : (n / 64) mod 64 = b) by (rewrite E1, N.add_comm, N.mod_add by lia; rewrite N.mod_small; lia).
    rewrite E2, E3, E4. reflexivity.
  - set (n := ((a * 64 + b) * 64 + c) * 64 + d) in *. split; [lia|].
    replace (n <? 128) with false by (symmetry; apply N.ltb_ge; lia).
    replace (n <? 2048) with false by (symmetry; apply N.ltb_ge; lia).
    replace (n <? 65536) with false by (symmetry; apply N.ltb_ge; lia).
    assert (E1 : n / 64 = (a * 64 + b) * 64 + c) by (unfold n; rewrite N.div_add_l by lia; rewrite (N.div_small d) by lia; lia).
    assert (E2 : n mod 64 = d) by (unfold n; rewrite N.add_comm, N.mod_add by lia; rewrite N.mod_small; lia).
    assert (E3 : n / 4096 = a * 64 + b) by (change 4096 with (64 * 64); rewrite <- N.div_div by lia; rewrite E1, N.div_add_l by lia; rewrite (N.div_small c) by lia; lia).
    assert (E4 : (n / 64) mod 64 = c) by (rewrite E1, N.add_comm, N.mod_add by lia; rewrite N.mod_small; lia).
    assert (E5 : n / 262144 = a) by (change 262144 with (4096 * 64); rewrite <- N.div_div by lia; rewrite E3, N.div_add_l by lia; rewrite (N.div_small b) by lia; lia).
    assert (E6 : (n / 4096) mod 64 = b) by (rewrite E3, N.add_comm, N.mod_add by lia; rewrite N.mod_small; lia).
    rewrite E2, E4, E5, E6. reflexivity.
Qed.

Lemma scalar_rfc3629 c : scalar c -> rfc3629 c (utf8_char c).
Proof.
  intros [H Hs]. unfold utf8_char.
  assert (M : forall a, a mod 64 < 64) by (intro; apply N.mod_lt; lia).
  assert (D : forall a, a = (a / 64) * 64 + a mod 64) by (intro a; pose proof (N.div_mod a 64 ltac:(lia)); lia).
  pose proof (D c) as D1. pose proof (D (c / 64)) as D2. pose proof (D (c / 64 / 64)) as D3.
  pose proof (M c) as M1. pose proof (M (c / 64)) as M2. pose proof (M (c / 64 / 64)) as M3.
  assert (E1 : c / 4096 = c / 64 / 64) by (change 4096 with (64 * 64); rewrite N.div_div by lia; reflexivity).
  assert (E2 : c / 262144 = c / 64 / 64 / 64) by (change 262144 with (64 * 64 * 64); rewrite !N.div_div by lia; reflexivity).
  rewrite E1, E2.
  destruct (N.ltb_spec c 128); [apply U1; lia|].
  destruct (N.ltb_spec c 2048).
  { pattern c at 1. rewrite D1. apply U2; lia. }
  destruct (N.ltb_spec c 65536).
  { assert (X : c = (c / 64 / 64 * 64 + (c / 64) mod 64) * 64 + c mod 64) by lia.
    pattern c at 1. rewrite X. apply U3; lia. }
  assert (X : c = ((c / 64 / 64 / 64 * 64 + (c / 64 / 64) mod 64) * 64 + (c / 64) mod 64) * 64 + c mod 64) by lia.
  pattern c at 1. rewrite X. apply U4; lia.
Qed.

Lemma encoded_iff s b : encoded s b <-> utf8 s = b /\ Forall scalar s.
Proof.
  split.
  - induction 1 as [|c x s y H _ [IH F]]; [split; [reflexivity|constructor]|].
    apply rfc3629_scalar in H. destruct H as [S <-]. cbn [utf8 flat_map]. fold (utf8 s). rewrite IH. split; [reflexivity|constructor; assumption].
  - intros [<- F]. induction F as [|c s S F IH]; [constructor|]. cbn [utf8 flat_map]. fold (utf8 s). constructor; [|exact IH].
    apply scalar_rfc3629. exact S.
Qed.

(** ** Base 64 *)
Lemma bits_of_length n v : List.length (bits_of n v) = n.
Proof. induction n; cbn; congruence. Qed.
Lemma below (n : nat) (P : N -> bool) : forallb P (map N.of_nat (seq 0 n)) = true -> forall x, x < N.of_nat n -> P x = true.
Proof.
  intros H x Hx. rewrite forallb_forall in H. apply H. apply in_map_iff. exists (N.to_nat x). split; [apply N2Nat.id|].
  apply in_seq. lia.
Qed.
Definition beq (a b : list bool) : bool := if list_eq_dec Bool.bool_dec a b then true else false.
Lemma beq_eq a b : beq a b = true -> a = b.
Proof. unfold beq. destruct (list_eq_dec Bool.bool_dec a b); [auto|discriminate]. Qed.
Lemma split8_62 x : x < 256 -> bits_of 8 x = (bits_of 6 (x / 4) ++ bits_of 2 (x mod 4))%list.
Proof. intro H. apply beq_eq. apply (below 256 (fun x => beq (bits_of 8 x) (bits_of 6 (x / 4) ++ bits_of 2 (x mod 4)))); [vm_compute; reflexivity|exact H]. Qed.
Lemma split8_44 x : x < 256 -> bits_of 8 x = (bits_of 4 (x / 16) ++ bits_of 4 (x mod 16))%list.
Proof. intro H. apply beq_eq. apply (below 256 (fun x => beq (bits_of 8 x) (bits_of 4 (x / 16) ++ bits_of 4 (x mod 16)))); [vm_compute; reflexivity|exact H]. Qed.
Lemma split8_26 x : x < 256 -> bits_of 8 x = (bits_of 2 (x / 64) ++ bits_of 6 (x mod 64))%list.
Proof. intro H. apply beq_eq. apply (below 256 (fun x => beq (bits_of 8 x) (bits_of 2 (x / 64) ++ bits_of 6 (x mod 64)))); [vm_compute; reflexivity|exact H]. Qed.
Lemma join6_24 a b : a < 4 -> b < 16 -> bits_of 6 (a * 16 + b) = (bits_of 2 a ++ bits_of 4 b)%list.
Proof.
  intros Ha Hb. assert (H : a * 16 + b < 64) by lia.
  pose proof (below 64 (fun n => beq (bits_of 6 n) (bits_of 2 (n / 16) ++ bits_of 4 (n mod 16))) ltac:(vm_compute; reflexivity) _ H) as X.
  apply beq_eq in X. rewrite X. rewrite N.div_add_l by lia. rewrite (N.div_small b) by lia. rewrite N.add_0_r.
  rewrite N.add_comm, N.mod_add by lia. rewrite (N.mod_small b) by lia. reflexivity.
Qed.
Lemma join6_42 a b : a < 16 -> b < 4 -> bits_of 6 (a * 4 + b) = (bits_of 4 a ++ bits_of 2 b)%list.
Proof.
  intros Ha Hb. assert (H : a * 4 + b < 64) by lia.
  pose proof (below 64 (fun n => beq (bits_of 6 n) (bits_of 4 (n / 4) ++ bits_of 2 (n mod 4))) ltac:(vm_compute; reflexivity) _ H) as X.
  apply beq_eq in X. rewrite X. rewrite N.div_add_l by lia. rewrite (N.div_small b) by lia. rewrite N.add_0_r.
  rewrite N.add_comm, N.mod_add by lia. rewrite (N.mod_small b) by lia. reflexivity.
Qed.
Lemma char_table i : i < 64 -> b64_char i = nth (N.to_nat i) table1 0.
Proof. intro H. apply N.eqb_eq. apply (below 64 (fun i => N.eqb (b64_char i) (nth (N.to_nat i) table1 0))); [vm_compute; reflexivity|exact H]. Qed.

Lemma b64encode_rfc b : Forall (fun x => x < 256) b -> rfc4648 b (b64encode b).
Proof.
  remember (List.length b) as n eqn:L. revert b L. induction n as [n IH] using lt_wf_ind. intros b L F.
  assert (M : forall a m, m <> 0 -> a mod m < m) by (intros; apply N.mod_lt; assumption).
  assert (Q : forall a k m, a < k * m -> m <> 0 -> a / m < k) by (intros; apply N.div_lt_upper_bound; lia).
  destruct b as [|x [|y [|z r]]].
  - exists [], O, O. split; [constructor|]. split; [reflexivity|]. split; [lia|]. split; [reflexivity|]. split; [lia|reflexivity].
  - inversion F as [|? ? Hx _]; subst. pose proof (M x 4). pose proof (Q x 64 4).
    exists [x / 4; (x mod 4) * 16], 4%nat, 2%nat.
    assert (G1 : x / 4 < 64) by lia. assert (G2 : x mod 4 * 16 < 64) by lia.
    split; [apply Forall_cons; [exact G1|apply Forall_cons; [exact G2|constructor]]|].
    split; [|split; [lia|split; [|split; [lia|reflexivity]]]].
    + cbn [flat_map]. rewrite !app_nil_r. rewrite split8_62 by exact Hx. rewrite <- app_assoc. f_equal.
      replace (x mod 4 * 16) with (x mod 4 * 16 + 0) by lia. rewrite join6_24 by lia. reflexivity.
    + cbn [b64encode map repeat app]. rewrite !char_table by assumption. reflexivity.
  - inversion F as [|? ? Hx F1]; subst. inversion F1 as [|? ? Hy _]; subst.
    pose proof (M x 4). pose proof (Q x 64 4). pose proof (M y 16). pose proof (Q y 16 16).
    exists [x / 4; (x mod 4) * 16 + y / 16; (y mod 16) * 4], 2%nat, 1%nat.
    assert (G1 : x / 4 < 64) by lia. assert (G2 : x mod 4 * 16 + y / 16 < 64) by lia. assert (G3 : y mod 16 * 4 < 64) by lia.
    split; [apply Forall_cons; [exact G1|apply Forall_cons; [exact G2|apply Forall_cons; [exact G3|constructor]]]|].
    split; [|split; [lia|split; [|split; [lia|reflexivity]]]].
    + cbn [flat_map]. rewrite !app_nil_r. rewrite (split8_62 x) by exact Hx. rewrite (split8_44 y) by exact Hy.
      rewrite <- !app_assoc. f_equal. rewrite join6_24 by lia. rewrite <- app_assoc. f_equal. f_equal.
      replace (y mod 16 * 4) with (y mod 16 * 4 + 0) by lia. rewrite join6_42 by lia. reflexivity.
    + cbn [b64encode map repeat app]. rewrite !char_table by assumption. reflexivity.
  - inversion F as [|? ? Hx F1]; subst. inversion F1 as [|? ? Hy F2]; subst. inversion F2 as [|? ? Hz F3]; subst.
    destruct (IH (List.length r)) with (b := r) as (g & zs & pad & A & B & C & D & E1 & E2); [cbn; lia|reflexivity|exact F3|].
    pose proof (M x 4). pose proof (Q x 64 4). pose proof (M y 16). pose proof (Q y 16 16). pose proof (M z 64). pose proof (Q z 4 64).
    assert (G1 : x / 4 < 64) by lia. assert (G2 : x mod 4 * 16 + y / 16 < 64) by lia. assert (G3 : y mod 16 * 4 + z / 64 < 64) by lia.
    assert (G4 : z mod 64 < 64) by lia.
    exists (x / 4 :: (x mod 4) * 16 + y / 16 :: (y mod 16) * 4 + z / 64 :: z mod 64 :: g), zs, pad.
    split; [apply Forall_cons; [exact G1|apply Forall_cons; [exact G2|apply Forall_cons; [exact G3|apply Forall_cons; [exact G4|exact A]]]]|].
    split; [|split; [exact C|split; [|split; [exact E1|]]]].
    + cbn [flat_map]. rewrite B. rewrite (split8_62 x) by exact Hx. rewrite (split8_44 y) by exact Hy. rewrite (split8_26 z) by exact Hz.
      rewrite join6_24 by lia. rewrite join6_42 by lia. rewrite <- !app_assoc. reflexivity.
    + cbn [b64encode map app]. rewrite <- D. rewrite !char_table by assumption. reflexivity.
    + cbn [b64encode List.length]. change (S (S (S (S (List.length (b64encode r)))))) with (4 + List.length (b64encode r))%nat.
      rewrite Nat.add_comm. replace 4%nat with (1 * 4)%nat at 1 by lia. rewrite Nat.mod_add by lia. exact E2.
Qed.

Lemma bits6_inj g h : g < 64 -> h < 64 -> bits_of 6 g = bits_of 6 h -> g = h.
Proof.
  intros Hg Hh E. apply N.bits_inj. intro n. cbn [bits_of] in E. injection E as E5 E4 E3 E2 E1 E0. cbn in E5, E4, E3, E2, E1, E0.
  destruct (N.lt_ge_cases n 6) as [Hn|Hn].
  - assert (n = 0 \/ n = 1 \/ n = 2 \/ n = 3 \/ n = 4 \/ n = 5) as K by lia.
    destruct K as [->|[->|[->|[->|[->| ->]]]]]; assumption.
  - assert (Z : forall v, v < 64 -> N.testbit v n = false).
    { intros v Hv. destruct v as [|p]; [apply N.bits_0|]. apply N.bits_above_log2. apply N.log2_lt_pow2; [lia|].
      apply N.lt_le_trans with (2 ^ 6); [exact Hv|]. apply N.pow_le_mono_r; lia. }
    rewrite !Z by assumption. reflexivity.
Qed.
Lemma app_split {A} (a : list A) : forall b c d, List.length a = List.length b -> (a ++ c = b ++ d)%list -> a = b /\ c = d.
Proof.
  induction a as [|x a IH]; intros [|y b] c d L E; try discriminate; [auto|]. cbn [List.app] in E. injection E as -> E.
  cbn [List.length] in L. injection L as L. destruct (IH b c d L E) as [-> ->]. auto.
Qed.
Lemma groups_inj g : forall h, Forall (fun x => x < 64) g -> Forall (fun x => x < 64) h -> flat_map (bits_of 6) g = flat_map (bits_of 6) h -> g = h.
Proof.
  induction g as [|a g IH]; intros [|b h] Fg Fh E; [reflexivity|discriminate|discriminate|].
  inversion Fg; subst. inversion Fh; subst. change (flat_map (bits_of 6) (a :: g)) with (bits_of 6 a ++ flat_map (bits_of 6) g)%list in E.
  change (flat_map (bits_of 6) (b :: h)) with (bits_of 6 b ++ flat_map (bits_of 6) h)%list in E.
  assert (E1 : bits_of 6 a = bits_of 6 b /\ flat_map (bits_of 6) g = flat_map (bits_of 6) h).
  { apply app_split in E; [exact E|]. rewrite !bits_of_length. reflexivity. }
  destruct E1 as [E1 E2]. f_equal; [apply bits6_inj; assumption|apply IH; assumption].
Qed.
Lemma groups_length g : List.length (flat_map (bits_of 6) g) = (6 * List.length g)%nat.
Proof. induction g as [|a g IH]; [reflexivity|]. change (flat_map (bits_of 6) (a :: g)) with (bits_of 6 a ++ flat_map (bits_of 6) g)%list. rewrite app_length, bits_of_length, IH. cbn [List.length]. lia. Qed.
Lemma rfc4648_unique b s t : rfc4648 b s -> rfc4648 b t -> s = t.
Proof.
  intros (g & zs & pad & A & B & C & D & E1 & E2) (g' & zs' & pad' & A' & B' & C' & D' & E1' & E2').
  assert (zs = zs').
  { pose proof (f_equal (@List.length bool) B) as L. pose proof (f_equal (@List.length bool) B') as L'.
    rewrite groups_length, app_length, repeat_length in L, L'.
    lia. }
  subst zs'. rewrite <- B' in B. apply groups_inj in B; [|assumption|assumption]. subst g'.
  subst s t. rewrite app_length, map_length, repeat_length in E2, E2'.
  assert (pad = pad'); [|subst; reflexivity].
  pose proof (Nat.div_mod (List.length g + pad) 4 ltac:(lia)). pose proof (Nat.div_mod (List.length g + pad') 4 ltac:(lia)). lia.
Qed.
