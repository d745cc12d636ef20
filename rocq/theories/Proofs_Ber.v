(** * BER: decoding gives back what was encoded *)
From Verif Require Import PyBase Spec_Ber.
Local Open Scope N_scope.

Lemma be_aux_of fuel n acc : n < 2 ^ N.of_nat fuel -> of_be (be_aux fuel n acc) = fold_left (fun a b => 256 * a + b) acc n.
Proof.
  revert n acc. induction fuel as [|f IH]; intros n acc H; cbn [be_aux].
  - unfold of_be. replace n with 0 by (change (2 ^ N.of_nat 0) with 1 in H; lia). reflexivity.
  - destruct (N.eqb_spec n 0) as [->|N0]; [reflexivity|]. rewrite IH.
    + cbn [fold_left]. f_equal. pose proof (N.div_mod n 256). lia.
    + rewrite Nat2N.inj_succ, N.pow_succ_r' in H. apply N.div_lt_upper_bound; [lia|]. lia.
Qed.
Lemma size_lt n : n < 2 ^ N.of_nat (N.size_nat n).
Proof.
  destruct n as [|p]; [reflexivity|]. cbn [N.size_nat]. pose proof (Pos.size_gt p) as H.
  assert (E : N.of_nat (Pos.size_nat p) = Npos (Pos.size p)).
  { clear H. induction p as [p IH|p IH|]; cbn [Pos.size_nat Pos.size]; rewrite ?Nat2N.inj_succ, ?IH; reflexivity. }
  rewrite E. change (2 ^ N.pos (Pos.size p)) with (N.pos (2 ^ Pos.size p)). exact H.
Qed.
Lemma of_be_be n : of_be (be n) = n.
Proof. unfold be. now rewrite be_aux_of by apply size_lt. Qed.
Lemma take_app a b : take (N.of_nat (List.length a)) (a ++ b) = Some (a, b).
Proof.
  unfold take. rewrite app_length. destruct (N.ltb_spec (N.of_nat (List.length a + List.length b)) (N.of_nat (List.length a))) as [H|H]; [lia|].
  rewrite Nat2N.id, firstn_app, skipn_app, Nat.sub_diag, firstn_all, skipn_all. cbn [firstn skipn app]. now rewrite app_nil_r.
Qed.
Lemma dec_enc_len n r : dec_len (enc_len n ++ r) = Some (n, r).
Proof.
  unfold enc_len. destruct (N.ltb_spec n 128) as [H|H].
  - cbn [app dec_len]. rewrite (proj2 (N.ltb_lt _ _) H). reflexivity.
  - cbv zeta. cbn [app dec_len]. replace (128 + N.of_nat (List.length (be n)) <? 128) with false by (symmetry; apply N.ltb_ge; lia).
    replace (128 + N.of_nat (List.length (be n)) - 128) with (N.of_nat (List.length (be n))) by lia. rewrite take_app, of_be_be. reflexivity.
Qed.
Lemma untlv_tlv t c r : untlv t (tlv t c ++ r) = Some (c, r).
Proof. unfold tlv, untlv. cbn [app]. rewrite N.eqb_refl, <- app_assoc, dec_enc_len. apply take_app. Qed.
Lemma dec_enc_int z : (0 <= z)%Z -> dec_int (enc_int z) = Some z.
Proof.
  intros H. unfold enc_int. pose proof (of_be_be (Z.to_N z)) as E. destruct (be (Z.to_N z)) as [|b l].
  - cbn [dec_int]. change (0 <? 128) with true. cbn iota. change (of_be []) with 0 in E. change (of_be [0]) with 0. f_equal. lia.
  - destruct (b <? 128) eqn:B; cbn [dec_int].
    + rewrite B, E. f_equal. lia.
    + change (0 <? 128) with true. cbn iota. change (of_be (0 :: b :: l)) with (of_be (b :: l)). rewrite E. f_equal. lia.
Qed.
Lemma ber_round_trip z c r : (0 <= z)%Z -> ber_dec (ber_enc z c ++ r) = Some (z, c, r).
Proof.
  intros H. unfold ber_dec, ber_enc. rewrite untlv_tlv, untlv_tlv, dec_enc_int by exact H.
  rewrite <- (app_nil_r (tlv 4 c)), untlv_tlv. reflexivity.
Qed.
