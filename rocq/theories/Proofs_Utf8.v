(** A UTF-8 decoder *)
From Verif Require Import PyBase Model_Ldif Model_Wire Spec_Wire Model_Reply Spec_Reply Proofs_Wire2.
Local Open Scope N_scope.
Definition scalarb (c : N) : bool := (c <? 0x110000) && negb ((0xD800 <=? c) && (c <=? 0xDFFF)).
Lemma scalarb_iff c : scalarb c = true <-> scalar c.
Proof. unfold scalarb, scalar. rewrite Bool.andb_true_iff, Bool.negb_true_iff, Bool.andb_false_iff, N.ltb_lt, !N.leb_gt. lia. Qed.
Definition take (c : N) (bytes : list N) (rest : option str) : option str :=
  if scalarb c && str_eqb (utf8_char c) bytes then option_map (cons c) rest else None.
Fixpoint utf8_dec (b : list N) : option str :=
  match b with
  | [] => Some []
  | x :: b1 =>
      if x <? 128 then take x [x] (utf8_dec b1)
      else match b1 with
           | [] => None
           | y :: b2 =>
               if x <? 224 then take ((x - 192) * 64 + (y - 128)) [x; y] (utf8_dec b2)
               else match b2 with
                    | [] => None
                    | z :: b3 =>
                        if x <? 240 then take ((x - 224) * 4096 + (y - 128) * 64 + (z - 128)) [x; y; z] (utf8_dec b3)
                        else match b3 with
                             | [] => None
                             | w :: b4 => take ((x - 240) * 262144 + (y - 128) * 4096 + (z - 128) * 64 + (w - 128)) [x; y; z; w] (utf8_dec b4)
                             end
                    end
           end
  end.
Lemma take_sound c bytes rest s : take c bytes rest = Some s -> exists s', s = c :: s' /\ rest = Some s' /\ scalar c /\ utf8_char c = bytes.
Proof.
  unfold take. destruct (scalarb c) eqn:S; [|discriminate]. destruct (str_eqb (utf8_char c) bytes) eqn:E; [|discriminate].
  cbn [andb]. destruct rest as [s'|]; [|discriminate]. cbn [option_map]. intros [= <-]. exists s'. apply scalarb_iff in S. apply str_eqb_eq in E. auto.
Qed.
Lemma dec_sound b : forall s, utf8_dec b = Some s -> utf8 s = b /\ Forall scalar s.
Proof.
  remember (List.length b) as n eqn:L. revert b L. induction n as [n IH] using lt_wf_ind. intros b L s H.
  assert (G : forall c bytes r, b = (bytes ++ r)%list -> bytes <> [] -> take c bytes (utf8_dec r) = Some s -> utf8 s = b /\ Forall scalar s).
  { intros c bytes r E N T. apply take_sound in T. destruct T as (s' & -> & R & S & U).
    destruct (IH (List.length r)) with (b := r) (s := s') as [A B]; [|reflexivity|exact R|].
    - subst n b. rewrite app_length. destruct bytes; [congruence|]. cbn [List.length]. lia.
    - split; [|constructor; assumption]. cbn [utf8 flat_map]. fold (utf8 s'). rewrite A, U. auto. }
  destruct b as [|x b1]; cbn [utf8_dec] in H; [injection H as <-; split; [reflexivity|constructor]|].
  destruct (x <? 128); [apply (G _ [x] b1) in H; [exact H|reflexivity|discriminate]|].
  destruct b1 as [|y b2]; [discriminate|]. destruct (x <? 224); [apply (G _ [x; y] b2) in H; [exact H|reflexivity|discriminate]|].
  destruct b2 as [|z b3]; [discriminate|]. destruct (x <? 240); [apply (G _ [x; y; z] b3) in H; [exact H|reflexivity|discriminate]|].
  destruct b3 as [|w b4]; [discriminate|]. apply (G _ [x; y; z; w] b4) in H; [exact H|reflexivity|discriminate].
Qed.
Lemma dec_char c r : scalar c -> utf8_dec (utf8_char c ++ r) = option_map (cons c) (utf8_dec r).
Proof.
  intro S. assert (K : forall bytes, utf8_char c = bytes -> take c bytes (utf8_dec r) = option_map (cons c) (utf8_dec r)).
  { intros bytes <-. unfold take. rewrite (proj2 (scalarb_iff c) S), (proj2 (str_eqb_eq _ _) eq_refl). reflexivity. }
  assert (M : forall a, a mod 64 < 64) by (intro; apply N.mod_lt; lia).
  assert (D : forall a, a = 64 * (a / 64) + a mod 64) by (intro; apply N.div_mod; lia).
  unfold utf8_char in *. destruct S as [S _]. change 0x110000 with 1114112 in S.
  destruct (N.ltb_spec c 128) as [L|L].
  - cbn [List.app utf8_dec]. rewrite (proj2 (N.ltb_lt c 128) L). apply K. reflexivity.
  - destruct (N.ltb_spec c 2048) as [L2|L2].
    + cbn [List.app utf8_dec]. pose proof (M c). pose proof (D c).
      replace (192 + c / 64 <? 128) with false by (symmetry; apply N.ltb_ge; lia).
      replace (192 + c / 64 <? 224) with true by (symmetry; apply N.ltb_lt; lia).
      replace ((192 + c / 64 - 192) * 64 + (128 + c mod 64 - 128)) with c by lia. apply K. reflexivity.
    + assert (Q : c / 4096 = c / 64 / 64) by (rewrite N.div_div by lia; reflexivity).
      assert (Q2 : c / 262144 = c / 64 / 64 / 64) by (rewrite !N.div_div by lia; reflexivity).
      pose proof (M c). pose proof (D c). pose proof (M (c / 64)). pose proof (D (c / 64)).
      pose proof (M (c / 64 / 64)). pose proof (D (c / 64 / 64)).
      destruct (N.ltb_spec c 65536) as [L3|L3].
      * cbn [List.app utf8_dec]. rewrite Q in *.
        replace (224 + c / 64 / 64 <? 128) with false by (symmetry; apply N.ltb_ge; lia).
        replace (224 + c / 64 / 64 <? 224) with false by (symmetry; apply N.ltb_ge; lia).
        replace (224 + c / 64 / 64 <? 240) with true by (symmetry; apply N.ltb_lt; lia).
        replace ((224 + c / 64 / 64 - 224) * 4096 + (128 + (c / 64) mod 64 - 128) * 64 + (128 + c mod 64 - 128)) with c by lia. apply K. reflexivity.
      * cbn [List.app utf8_dec]. rewrite Q, Q2 in *.
        replace (240 + c / 64 / 64 / 64 <? 128) with false by (symmetry; apply N.ltb_ge; lia).
        replace (240 + c / 64 / 64 / 64 <? 224) with false by (symmetry; apply N.ltb_ge; lia).
        replace (240 + c / 64 / 64 / 64 <? 240) with false by (symmetry; apply N.ltb_ge; lia).
        replace ((240 + c / 64 / 64 / 64 - 240) * 262144 + (128 + (c / 64 / 64) mod 64 - 128) * 4096 + (128 + (c / 64) mod 64 - 128) * 64 + (128 + c mod 64 - 128)) with c by lia.
        apply K. reflexivity.
Qed.
Lemma utf8_decodes : decodes utf8_dec.
Proof.
  intros b s. split; [apply dec_sound|]. intros [<- F]. induction F as [|c s S F IH]; [reflexivity|].
  cbn [utf8 flat_map]. fold (utf8 s). rewrite dec_char by exact S. rewrite IH. reflexivity.
Qed.
