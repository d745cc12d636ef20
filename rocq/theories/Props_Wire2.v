(** * C79, continued: what compare sends for a bytes value *)
From Verif Require Import PyBase Model_Ldif Model_Filter Model_Controls Model_Request
  Spec_X690 Model_Wire Spec_Wire Spec_Wire2 Proofs_X690 Proofs_Wire Spec_Net Spec_PyRepr Props_Wire.
Local Open Scope N_scope.

Lemma hex_digit_value d : d < 16 -> hex_value (hex_digit d) d /\ ~ (65 <= hex_digit d <= 70).
Proof.
  intro H. unfold hex_digit. destruct (N.ltb_spec d 10).
  - split; [|lia]. replace d with (48 + d - 48) at 2 by lia. apply hex_09. lia.
  - split; [|lia]. replace d with (87 + d - 87) at 2 by lia. apply hex_af. lia.
Qed.
Lemma repr_byte_item q c : q = 39 \/ q = 34 -> c < 256 -> item q c (repr_byte q c).
Proof.
  intros Q H. unfold repr_byte.
  destruct ((c =? 92) || (c =? q))%bool eqn:E1.
  - apply Bool.orb_true_iff in E1. rewrite !N.eqb_eq in E1. destruct E1 as [E1|E1]; rewrite E1; constructor.
  - apply Bool.orb_false_iff in E1. rewrite !N.eqb_neq in E1. destruct E1 as [E1 E1'].
    destruct (N.eqb_spec c 10) as [->|N1]; [constructor|]. destruct (N.eqb_spec c 13) as [->|N2]; [constructor|].
    destruct (N.eqb_spec c 9) as [->|N3]; [constructor|].
    destruct ((c <? 32) || negb (c <? 127))%bool eqn:E2.
    + change (lit "\x" ++ [hex_digit (c / 16); hex_digit (c mod 16)]) with [92; 120; hex_digit (c / 16); hex_digit (c mod 16)].
      assert (D : c / 16 < 16) by (apply N.div_lt_upper_bound; lia). assert (Mo : c mod 16 < 16) by (apply N.mod_lt; lia).
      destruct (hex_digit_value _ D), (hex_digit_value _ Mo).
      apply item_hex with (x := c / 16) (y := c mod 16); auto.
      * apply Bool.orb_true_iff in E2. rewrite Bool.negb_true_iff, N.ltb_lt, N.ltb_ge in E2. exact E2.
      * apply N.div_mod. lia.
    + apply Bool.orb_false_iff in E2. rewrite Bool.negb_false_iff, N.ltb_lt, N.ltb_ge in E2. apply item_plain; lia.
Qed.
Lemma bytes_repr_of b : Forall octet b -> repr_of b (bytes_repr b).
Proof.
  intro H. unfold bytes_repr.
  set (q := if (existsb (N.eqb 39) b && negb (existsb (N.eqb 34) b))%bool then 34 else 39).
  assert (IN : forall x, existsb (N.eqb x) b = true <-> In x b).
  { intro x. rewrite existsb_exists. split; [intros (y & I & E); apply N.eqb_eq in E; subst; exact I|intro I; exists x; split; [exact I|apply N.eqb_refl]]. }
  assert (NIN : forall x, existsb (N.eqb x) b = false <-> ~ In x b).
  { intro x. rewrite <- (IN x). destruct (existsb (N.eqb x) b); split; intro Z; try reflexivity; try discriminate; try (intro Y; discriminate); exfalso; apply Z; reflexivity. }
  exists q, (flat_map (repr_byte q) b). split; [|split].
  - unfold quote_for, q. destruct (existsb (N.eqb 39) b) eqn:E1; cbn [andb].
    + destruct (existsb (N.eqb 34) b) eqn:E2; cbn [negb].
      * right. split; [reflexivity|]. right. apply IN. exact E2.
      * left. split; [reflexivity|]. split; [apply IN; exact E1|apply NIN; exact E2].
    + right. split; [reflexivity|]. left. apply NIN. exact E1.
  - assert (Q : q = 39 \/ q = 34) by (unfold q; destruct (_ && _)%bool; auto). clearbody q. clear IN NIN.
    induction H as [|c b Hc _ IH]; cbn [flat_map]; constructor; [|exact IH]. apply repr_byte_item; [exact Q|exact Hc].
  - reflexivity.
Qed.

(** ** repr() gives a literal of the value, and a literal has one value *)
Lemma hex_value_fun c x y : hex_value c x -> hex_value c y -> x = y.
Proof. intros A B. inversion A; inversion B; subst; lia. Qed.
Lemma escape_fun c x y : escape_value c x -> escape_value c y -> x = y.
Proof. intros A B. inversion A; subst; inversion B; reflexivity. Qed.
Lemma body_fun q : q <> 92 -> forall s a, body q s a -> forall b, body q s b -> a = b.
Proof.
  intros Q s a H. induction H as [|c s a Hc Hq Hb H IH|c o s a He H IH|h l x y s a Hh Hl H IH]; intros b' B.
  - inversion B; subst; try reflexivity; congruence.
  - inversion B; subst; try congruence. f_equal. apply IH. assumption.
  - inversion B; subst; try congruence.
    + f_equal; [eapply escape_fun; eassumption|apply IH; assumption].
    + inversion He.
  - inversion B; subst; try congruence.
    + match goal with H : escape_value 120 _ |- _ => inversion H end.
    + f_equal; [|apply IH; assumption]. f_equal; [f_equal|]; eapply hex_value_fun; eassumption.
Qed.
Lemma items_body q b t : q = 39 \/ q = 34 -> items q b t -> body q (t ++ [q]) b.
Proof.
  intros Q H. induction H as [|c t b s HI H IH]; [apply body_end|]. rewrite <- app_assoc.
  inversion HI; subst; cbn [app].
  - apply body_plain; assumption.
  - apply body_escape; [destruct Q as [->| ->]; constructor|exact IH].
  - apply body_escape; [constructor|exact IH].
  - apply body_escape; [constructor|exact IH].
  - apply body_escape; [constructor|exact IH].
  - apply body_escape; [constructor|exact IH].
  - apply body_hex; assumption.
Qed.

(** ** C79: bytes given to compare reach the server as the text of a Python literal of them, with the quotes *)
Theorem C79_refuted_compare_bytes_literal mid dn a v cs : Spec_Wire.int0max mid -> encodable (Text dn) -> encodable (Text a) -> Forall ctrl_ok cs ->
  Forall octet v ->
  exists s, repr_of v s /\ bytes_literal s v /\ (forall w, bytes_literal s w -> w = v) /\
    sends (message mid "compareRequest" (compare_request (Text dn) (Text a) (Bytes v)) cs)
      (mk_rm mid (RCompareRequest (utf8 dn) (utf8 a) (utf8 s)) (controls_of cs)).
Proof.
  intros Hm HD HA HC HV. exists (bytes_repr v). pose proof (bytes_repr_of v HV) as R. split; [exact R|].
  destruct R as (q & t & Hq & Ht & E).
  assert (Q : q = 39 \/ q = 34) by (destruct Hq as [(-> & _)|(-> & _)]; auto).
  split; [|split].
  - rewrite E. constructor; [exact Q|]. apply items_body; assumption.
  - intros w W. rewrite E in W. inversion W as [q' s' b' _ HB]; subst.
    eapply body_fun; [|exact HB|apply items_body; eassumption]. destruct Q as [->| ->]; discriminate.
  - apply C79_refuted_compare_bytes; assumption.
Qed.
Print Assumptions C79_refuted_compare_bytes_literal.

(** b"it's\n\xff" *)
Example C79_literal_nonvacuous :
  repr_of [105; 116; 39; 115; 10; 255] (98 :: 34 :: lit "it's\n\xff" ++ [34])%list.
Proof. apply (bytes_repr_of [105; 116; 39; 115; 10; 255]). repeat constructor. Qed.
