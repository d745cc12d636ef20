(** * The language of each pattern *)
From Verif Require Import PyBase Model_Prep Model_Uri Model_Regex Spec_Regex Proofs_Regex Spec_Search
  Model_Parse Spec_Parse Proofs_Parse Proofs_Parse2 Model_Syntax Spec_Syntax.

Definition is_lang (r : rx) (A : lang) : Prop := forall t, L r t <-> A t.
Lemma L_cat r q (A B : lang) : is_lang r A -> is_lang q B -> is_lang (RSeq r q) (A ;; B).
Proof.
  intros HA HB t. rewrite L_seq. unfold cat. split; intros (x & y & -> & Hx & Hy); exists x, y; (split; [reflexivity|]);
    (split; [now apply HA|now apply HB]).
Qed.
Lemma L_either r q (A B : lang) : is_lang r A -> is_lang q B -> is_lang (RAlt r q) (either A B).
Proof. intros HA HB t. unfold either. now rewrite L_alt, (HA t), (HB t). Qed.
Lemma L_optional r (A : lang) : is_lang r A -> is_lang (ROpt r) (optional A).
Proof. intros HA t. unfold optional. rewrite L_opt, (HA t). tauto. Qed.
Lemma L_many r (A : lang) : is_lang r A -> is_lang (RStar r) (many A).
Proof.
  intros HA t. rewrite L_star. split.
  - intros (l & -> & Hl). induction Hl as [|x l Hx Hl IH]; [constructor|]. cbn [List.concat]. constructor; [now apply HA|exact IH].
  - induction 1 as [|x y Hx Hy (l & -> & Hl)]; [exists []; split; [reflexivity|constructor]|].
    exists (x :: l). split; [reflexivity|]. constructor; [now apply HA|exact Hl].
Qed.
Lemma L_many1 r (A : lang) : is_lang r A -> is_lang (RPlus r) (A ;; many A).
Proof. intros H. apply L_cat; [exact H|now apply L_many]. Qed.
Lemma L_grp g r (A : lang) : is_lang r A -> is_lang (RGroup g r) A.
Proof. intros H t. rewrite L_group. apply H. Qed.
Lemma many_listed (S A : lang) t : (A ;; many (S ;; A)) t <-> listed S A t.
Proof.
  split.
  - intros (x & y & -> & Hx & Hy). revert x Hx. induction Hy as [|s y (u & v & -> & Hu & Hv) Hy IH]; intros x Hx.
    + rewrite app_nil_r. now constructor.
    + rewrite <- app_assoc. apply listed_more; [exact Hx|exact Hu|]. now apply IH.
  - induction 1 as [s Hs|x y z Hx Hy Hz (u & v & -> & Hu & Hv)].
    + exists s, []. rewrite app_nil_r. split; [reflexivity|]. split; [exact Hs|constructor].
    + exists x, ((y ++ u) ++ v). split; [now rewrite <- app_assoc|]. split; [exact Hx|]. constructor; [|exact Hv]. exists y, u. auto.
Qed.
Lemma L_listed r q (A S : lang) : is_lang r A -> is_lang q S -> is_lang (RSeq r (RStar (RSeq q r))) (listed S A).
Proof. intros HA HS t. rewrite <- many_listed. apply L_cat; [exact HA|]. apply L_many. now apply L_cat. Qed.
Lemma L_listed_g g r q (A S : lang) : is_lang r A -> is_lang q S -> is_lang (RSeq r (RStar (RGroup g (RSeq q r)))) (listed S A).
Proof. intros HA HS t. rewrite <- many_listed. apply L_cat; [exact HA|]. apply L_many. apply L_grp. now apply L_cat. Qed.
Lemma L_one f (P : N -> Prop) : (forall c, f c = true <-> P c) -> is_lang (RChr f) (one P).
Proof. intros H t. rewrite L_chr. unfold one. split; intros (c & -> & Hc); exists c; (split; [reflexivity|]); now apply H. Qed.
Lemma L_all f (P : N -> Prop) : (forall c, f c = true <-> P c) -> is_lang (RStar (RChr f)) (all P).
Proof. intros H t. rewrite L_star_chr. unfold all. now apply Forall_iff. Qed.
Lemma L_some f (P : N -> Prop) : (forall c, f c = true <-> P c) -> is_lang (RPlus (RChr f)) (some P).
Proof. intros H t. rewrite L_plus_chr. unfold some. now rewrite (Forall_iff _ _ t H). Qed.
Lemma L_is s : is_lang (RLit s) (is s).
Proof. intros t. apply L_lit. Qed.
Lemma L_rc_is a : is_lang (RC a) (is (lit (String a EmptyString))).
Proof. intros t. apply L_RC. Qed.
Lemma L_word l : l <> [] -> is_lang (RAlts (map RLit (map lit l))) (word l).
Proof. intros H t. rewrite L_alts_lit; [reflexivity|]. now destruct l. Qed.
Lemma lang_eq r (A B : lang) : is_lang r A -> (forall t, A t <-> B t) -> is_lang r B.
Proof. intros H E t. now rewrite (H t). Qed.

(** accepting and refusing *)
Lemma decides_eq v (P Q : lang) : decides v P -> (forall s, P s <-> Q s) -> decides v Q.
Proof. intros H E s. destruct (H s) as (A & B & C). rewrite <- E. auto. Qed.
Lemma decides_anchored r (A : lang) : is_lang r A -> decides (fun s => regex_rule (match_anchored r) (Text s)) (or_newline A).
Proof.
  intros H s. cbn [regex_rule]. unfold or_newline.
  assert (G : A s \/ (exists t, s = t ++ [10%N] /\ A t) -> exists c, match_anchored r s = Some c).
  { intros [Hs|(t & -> & Ht)].
    - apply H in Hs as [c Hc]. destruct (anchored_complete r s [] c Hc (or_introl eq_refl)) as [c' E]. rewrite app_nil_r in E. eauto.
    - apply H in Ht as [c Hc]. apply (anchored_complete r t [10%N] c Hc (or_intror eq_refl)). }
  destruct (match_anchored r s) as [c|] eqn:E.
  - assert (P : A s \/ exists t, s = t ++ [10%N] /\ A t).
    { apply anchored_sound in E as (t & e & -> & [-> | ->] & Hm); [left; rewrite app_nil_r|right; exists t; split; [reflexivity|]]; apply H; eexists; exact Hm. }
    split; [reflexivity|]. split; [intros C; now elim C|]. intros _. exact P.
  - split; [intros P; destruct (G P) as [c C]; discriminate|]. split; [reflexivity|]. discriminate.
Qed.
Lemma decides_prefix r (A : lang) : is_lang r A -> decides (fun s => regex_rule (match_prefix r) (Text s)) (some_prefix A).
Proof.
  intros H s. cbn [regex_rule]. unfold some_prefix.
  destruct (match_prefix r s) as [c|] eqn:E.
  - assert (P : exists t e, s = t ++ e /\ A t).
    { apply prefix_sound in E as (t & e & -> & Hm). exists t, e. split; [reflexivity|]. apply H. eexists. exact Hm. }
    split; [reflexivity|]. split; [intros C; now elim C|]. intros _. exact P.
  - split; [|split; [reflexivity|discriminate]]. intros (t & e & -> & Ht). apply H in Ht as [c Hc].
    destruct (prefix_complete r t e c Hc) as [c' C]. congruence.
Qed.

(** ** Characters *)
Lemma in_ranges_In l c : in_ranges (map (fun c => (c, c)) l) c = true <-> In c l.
Proof.
  unfold in_ranges. induction l as [|x l IH]; cbn [map existsb In fst snd]; [split; [discriminate|intros []]|].
  rewrite orb_true_iff, IH. split; intros [H|H]; auto; left; lia.
Qed.
Lemma printable_iff c : in_ranges printable_ranges c = true <-> printable c.
Proof.
  unfold printable, ALPHA, DIGIT. change (lit "'()+,-.=/:? ") with [39; 40; 41; 43; 44; 45; 46; 61; 47; 58; 63; 32]%N.
  unfold in_ranges, printable_ranges. cbn [existsb fst snd In]. lia.
Qed.
Lemma digit_iff c : in_ranges digit_ranges c = true <-> DIGIT c.
Proof. apply in_digit. Qed.
Ltac chars := unfold in_ranges; cbn [existsb fst snd]; unfold HEXDIGIT, LDIGIT, ALPHA, DIGIT in *;
  repeat match goal with |- context [ch ?a] => let v := eval vm_compute in (ch a) in change (ch a) with v end; try lia.

(** ** Patterns *)
Lemma L_times2 f (P : N -> Prop) : (forall c, f c = true <-> P c) ->
  is_lang (RTimes 2 (RChr f)) (fun s => exists a b, s = [a; b] /\ P a /\ P b).
Proof.
  intros H t. cbn [RTimes]. rewrite L_seq. split.
  - intros (x & y & -> & Hx & Hy). apply L_chr in Hx as (a & -> & Ha), Hy as (b & -> & Hb). exists a, b. split; [reflexivity|].
    split; now apply H.
  - intros (a & b & -> & Ha & Hb). exists [a], [b]. split; [reflexivity|]. split; apply L_chr; eexists; (split; [reflexivity|now apply H]).
Qed.
Lemma L_printables : is_lang rPrintableString (some printable).
Proof. apply L_some. exact printable_iff. Qed.
Lemma L_ia5 : is_lang rIA5String (all (fun c => c <= 127)%N).
Proof. apply L_all. intros c. chars. Qed.
Lemma L_bits : is_lang rBitString bit_string.
Proof.
  apply L_cat; [apply L_rc_is|]. apply L_cat; [apply L_all; intros c; chars|]. intros t. unfold is.
  rewrite (L_cat _ _ _ _ (L_rc_is "'") (L_rc_is "B") t). unfold cat, is. split; [intros (x & y & -> & -> & ->); reflexivity|].
  intros ->. exists (lit "'"), (lit "B"). auto.
Qed.
Lemma L_country : is_lang rCountryString (fun s => List.length s = 2 /\ Forall printable s).
Proof.
  apply (lang_eq _ _ _ (L_times2 _ _ printable_iff)). intros t. split.
  - intros (a & b & -> & Ha & Hb). split; [reflexivity|auto].
  - intros [Hl Hf]. destruct t as [|a [|b [|c t]]]; try discriminate. inversion Hf as [|? ? Ha Hf']; subst. inversion Hf'; subst. eauto.
Qed.
Lemma L_dollar : is_lang (RC "$") dollar.
Proof. apply L_rc_is. Qed.
Lemma assoc3 (A B C : lang) t : ((A ;; B) ;; C) t <-> (A ;; B ;; C) t.
Proof.
  unfold cat. split.
  - intros (x & y & -> & (u & v & -> & Hu & Hv) & Hy). exists u, (v ++ y). rewrite <- app_assoc. eauto 10.
  - intros (x & y & -> & Hx & u & v & -> & Hu & Hv). exists (x ++ u), v. rewrite <- app_assoc. eauto 10.
Qed.
Lemma cat_eq (A A' B B' : lang) t : (forall t, A t <-> A' t) -> (forall t, B t <-> B' t) -> (A ;; B) t <-> (A' ;; B') t.
Proof. intros HA HB. unfold cat. split; intros (x & y & -> & Hx & Hy); exists x, y; (split; [reflexivity|]); (split; [now apply HA|now apply HB]). Qed.
Lemma many_eq (A B : lang) t : (forall t, A t <-> B t) -> many A t <-> many B t.
Proof. intros H. split; induction 1; constructor; auto; now apply H. Qed.
Lemma L_delivery : is_lang rDeliveryMethod (delivery_method (all (fun c => py_isspace c = true)) code_pdm).
Proof.
  unfold rDeliveryMethod, delivery_method.
  assert (Hp : is_lang rpdm (word code_pdm)) by (apply (L_word code_pdm); discriminate).
  assert (Hs : is_lang rspaces (all (fun c => py_isspace c = true))) by (apply L_all; reflexivity).
  eapply lang_eq.
  - apply L_cat; [exact Hp|]. apply L_many. apply L_grp. apply L_cat; [exact Hs|]. apply L_cat; [apply L_dollar|]. apply L_cat; [exact Hs|exact Hp].
  - intros t. rewrite <- many_listed. apply cat_eq; [reflexivity|]. intros u. apply many_eq. intros w.
    rewrite assoc3. apply cat_eq; [reflexivity|]. intros z. now rewrite assoc3.
Qed.
Lemma L_integer : is_lang rInteger (fun s => integer s /\ s <> lit "0").
Proof.
  eapply lang_eq.
  - apply L_cat; [apply L_optional, L_rc_is|]. apply L_cat; [apply (L_one _ LDIGIT); intros c; chars|apply (L_all _ DIGIT); exact digit_iff].
  - intros t. split.
    + intros (x & y & -> & Hx & c & r & -> & (d & -> & Hd & Hz) & Hr). unfold integer. change (ch "0") with 48%N in Hz. destruct Hx as [-> | ->].
      * cbn [app]. split; [left; exists d, r; split; [reflexivity|split; [now constructor|intros _; exact Hz]]|].
        intros E. injection E as -> ->. now apply Hz.
      * split; [right; exists d, r; split; [reflexivity|split; [split; [exact Hd|exact Hz]|exact Hr]]|discriminate].
    + intros [[(c & r & -> & Hf & Hz)|(c & r & -> & Hc & Hr)] Hn].
      * exists [], (c :: r). split; [reflexivity|]. split; [now left|]. exists [c], r. split; [reflexivity|]. inversion Hf as [|? ? Hc Hr]; subst.
        split; [|exact Hr]. exists c. split; [reflexivity|]. split; [exact Hc|]. intros ->. destruct r as [|d r]; [now apply Hn|]. now apply Hz.
      * exists (lit "-"), (c :: r). split; [reflexivity|]. split; [now right|]. exists [c], r. split; [reflexivity|]. split; [exists c; auto|exact Hr].
Qed.
Lemma L_numeric : is_lang rNumericString (some (fun c => DIGIT c \/ c = 32%N)).
Proof. apply L_some. intros c. chars. Qed.
Lemma L_mailbox : is_lang rOtherMailbox (some printable ;; dollar ;; all (fun c => c <= 127)%N).
Proof. apply L_cat; [apply L_printables|]. apply L_cat; [apply L_dollar|apply L_ia5]. Qed.
Lemma L_telex : is_lang rTelexNumber telex_number.
Proof. apply L_cat; [apply L_printables|]. apply L_cat; [apply L_dollar|]. apply L_cat; [apply L_printables|]. apply L_cat; [apply L_dollar|apply L_printables]. Qed.
Lemma L_ttx : is_lang rTeletext (teletex (fun c => c < ch "$")%N).
Proof.
  apply L_cat; [apply L_printables|]. apply L_many. apply L_cat; [apply L_dollar|].
  apply L_cat; [apply (L_word ["graphic"; "control"; "misc"; "page"; "private"]%string); discriminate|]. apply L_cat; [apply L_rc_is|]. apply L_many.
  eapply lang_eq; [apply L_either; [apply (L_one _ (fun c => c < 36)%N); intros c; chars|apply L_either; [apply L_is|apply L_is]]|].
  intros t. unfold either, is, one. change (ch "$") with 36%N. tauto.
Qed.

(** ** Escapes *)
Lemma L_hex_digit d : (d < 16)%N -> is_lang (rhex_digit d) (one (fun c => hex_value c = Some d)).
Proof.
  intros Hd. unfold rhex_digit. destruct (d <? 10)%N eqn:E.
  - apply L_one. intros c. unfold hex_value. rewrite N.eqb_eq.
    destruct ((48 <=? c) && (c <=? 57))%N eqn:E1; [split; [intros <-; f_equal; lia|intros H; injection H as <-; lia]|].
    destruct ((65 <=? c) && (c <=? 70))%N eqn:E2; [split; [lia|intros H; injection H as <-; lia]|].
    destruct ((97 <=? c) && (c <=? 102))%N eqn:E3; [split; [lia|intros H; injection H as <-; lia]|]. split; [lia|discriminate].
  - apply L_one. intros c. unfold hex_value, in_ranges. cbn [existsb fst snd].
    destruct ((48 <=? c) && (c <=? 57))%N eqn:E1; [split; [lia|intros H; injection H as <-; lia]|].
    destruct ((65 <=? c) && (c <=? 70))%N eqn:E2; [split; [intros H; f_equal; lia|intros H; injection H as <-; lia]|].
    destruct ((97 <=? c) && (c <=? 102))%N eqn:E3; [split; [intros H; f_equal; lia|intros H; injection H as <-; lia]|]. split; [lia|discriminate].
Qed.
Definition hex_pair (c : N) : lang := fun s => exists h l, s = [92; h; l]%N /\ hex_value h = Some (c / 16)%N /\ hex_value l = Some (c mod 16)%N.
Lemma L_hex_escape c r : rhex_escape c = Ok r -> is_lang r (hex_pair c).
Proof.
  unfold rhex_escape. destruct (c <? 256)%N eqn:E; [|discriminate]. intros H. injection H as <-.
  eapply lang_eq.
  - apply L_cat; [apply L_rc_is|]. apply L_cat; [apply L_hex_digit|apply L_hex_digit]; [apply N.div_lt_upper_bound; lia|apply N.mod_lt; lia].
  - intros t. unfold hex_pair. split.
    + intros (x & y & -> & -> & u & v & -> & (h & -> & Hh) & (l & -> & Hl)). exists h, l. auto.
    + intros (h & l & -> & Hh & Hl). exists (lit "\"), [h; l]. split; [reflexivity|]. split; [reflexivity|]. exists [h], [l]. split; [reflexivity|].
      split; [exists h; auto|exists l; auto].
Qed.
Lemma L_alts_snoc rs last (A : lang) (As : list lang) : Forall2 is_lang rs As -> is_lang last A ->
  is_lang (RAlts (rs ++ [last])) (fun s => Exists (fun B : lang => B s) As \/ A s).
Proof.
  intros H HA. induction H as [|r B rs As Hr Hs IH]; intros t.
  - cbn [app RAlts]. rewrite (HA t). split; [now right|]. intros [H|H]; [inversion H|exact H].
  - change ((r :: rs) ++ [last]) with (r :: (rs ++ [last])).
    assert (E : RAlts (r :: rs ++ [last]) = RAlt r (RAlts (rs ++ [last]))) by (destruct rs; reflexivity). rewrite E, L_alt, (Hr t), (IH t), Exists_cons. tauto.
Qed.
Lemma L_escapes l rs : rhex_escapes l = Ok rs -> Forall2 is_lang rs (map hex_pair l).
Proof.
  revert rs. induction l as [|c l IH]; intros rs H; cbn [rhex_escapes] in H; [injection H as <-; constructor|].
  destruct (rhex_escape c) as [r|] eqn:E; [|discriminate]. cbn [bind] in H. destruct (rhex_escapes l) as [rs'|] eqn:E'; [|discriminate].
  injection H as <-. constructor; [now apply L_hex_escape|now apply IH].
Qed.
Lemma escapes_ok l : Forall (fun c => c < 256)%N l -> exists rs, rhex_escapes l = Ok rs.
Proof.
  induction 1 as [|c l Hc Hl (rs & E)]; [eexists; reflexivity|]. cbn [rhex_escapes]. unfold rhex_escape at 1.
  replace (c <? 256)%N with true by lia. rewrite E. eexists. reflexivity.
Qed.
Lemma L_escaped order chars r : set_order order -> escaped_regex order chars = Ok r -> is_lang r (escaped_char chars).
Proof.
  intros Ho H. unfold escaped_regex in H. destruct (rhex_escapes (order chars)) as [rs|] eqn:E; [|discriminate]. injection H as <-.
  apply L_grp. eapply lang_eq; [apply L_alts_snoc; [apply L_escapes; exact E|]|].
  - apply (L_one _ (fun c => ~ In c (order chars))). intros c. rewrite negb_true_iff, <- not_true_iff_false. now rewrite in_ranges_In.
  - intros t. unfold escaped_char, one. cbn beta. split.
    + intros [H|(c & -> & Hc)].
      * left. apply Exists_exists in H as (B & HB & Ht). apply in_map_iff in HB as (c & <- & Hc). destruct Ht as (h & l & -> & Hh & Hl).
        exists c, h, l. split; [now apply Ho|auto].
      * right. exists c. split; [reflexivity|]. intros C. now apply Hc, Ho.
    + intros [(c & h & l & Hc & -> & Hh & Hl)|(c & -> & Hc)].
      * left. apply Exists_exists. exists (hex_pair c). split; [apply in_map_iff; exists c; split; [reflexivity|now apply Ho]|]. exists h, l. auto.
      * right. exists c. split; [reflexivity|]. intros C. now apply Hc, Ho.
Qed.
Lemma escaped_defined order chars : set_order order -> Forall (fun c => c < 256)%N chars -> exists r, escaped_regex order chars = Ok r.
Proof.
  intros Ho H. destruct (escapes_ok (order chars)) as [rs E].
  - apply Forall_forall. intros c Hc. rewrite Forall_forall in H. now apply H, Ho.
  - unfold escaped_regex. rewrite E. eexists. reflexivity.
Qed.
Lemma hex_value_cases v c : hex_value c = Some v -> (v < 10 /\ c = v + 48 \/ 10 <= v < 16 /\ (c = v + 55 \/ c = v + 87))%N.
Proof. unfold hex_value. repeat match goal with |- context [if ?b then _ else _] => destruct b eqn:? end; intros H; try discriminate; injection H as <-; lia. Qed.
Lemma line_char_iff t : escaped_char (lit "\$") t <-> line_char t.
Proof.
  unfold escaped_char, line_char. change (lit "\$") with [92; 36]%N. change (ch "$") with 36%N. change (ch "\") with 92%N. split.
  - intros [(c & h & l & [<-|[<-|[]]] & -> & Hh & Hl)|(c & -> & Hc)].
    + apply hex_value_cases in Hh, Hl. vm_compute (92 / 16)%N in Hh. vm_compute (92 mod 16)%N in Hl.
      assert (h = 53%N) as -> by lia. assert (l = 67 \/ l = 99)%N as [-> | ->] by lia; [right; left|right; right; left]; reflexivity.
    + apply hex_value_cases in Hh, Hl. vm_compute (36 / 16)%N in Hh. vm_compute (36 mod 16)%N in Hl.
      assert (h = 50%N) as -> by lia. assert (l = 52%N) as -> by lia. left. reflexivity.
    + right. right. right. exists c. split; [reflexivity|]. cbn [In] in Hc. split; intros ->; tauto.
  - intros [->|[->|[->|(c & -> & H1 & H2)]]].
    + left. exists 36%N, 50%N, 52%N. cbn [In]. split; [auto|]. repeat split.
    + left. exists 92%N, 53%N, 67%N. cbn [In]. split; [auto|]. repeat split.
    + left. exists 92%N, 53%N, 99%N. cbn [In]. split; [auto|]. repeat split.
    + right. exists c. split; [reflexivity|]. cbn [In]. intros [<-|[<-|[]]]; congruence.
Qed.
Lemma substring_char_iff t : escaped_char (lit "\*") t <-> substring_char t.
Proof.
  unfold escaped_char, substring_char. change (lit "\*") with [92; 42]%N. change (ch "*") with 42%N. change (ch "\") with 92%N. split.
  - intros [(c & h & l & [<-|[<-|[]]] & -> & Hh & Hl)|(c & -> & Hc)].
    + apply hex_value_cases in Hh, Hl. vm_compute (92 / 16)%N in Hh. vm_compute (92 mod 16)%N in Hl.
      assert (h = 53%N) as -> by lia. assert (l = 67 \/ l = 99)%N as [-> | ->] by lia; [right; right; left|right; right; right; left]; reflexivity.
    + apply hex_value_cases in Hh, Hl. vm_compute (42 / 16)%N in Hh. vm_compute (42 mod 16)%N in Hl.
      assert (h = 50%N) as -> by lia. assert (l = 65 \/ l = 97)%N as [-> | ->] by lia; [left|right; left]; reflexivity.
    + right. right. right. right. exists c. split; [reflexivity|]. cbn [In] in Hc. split; intros ->; tauto.
  - intros [->|[->|[->|[->|(c & -> & H1 & H2)]]]].
    + left. exists 42%N, 50%N, 65%N. cbn [In]. split; [auto|]. repeat split.
    + left. exists 42%N, 50%N, 97%N. cbn [In]. split; [auto|]. repeat split.
    + left. exists 92%N, 53%N, 67%N. cbn [In]. split; [auto|]. repeat split.
    + left. exists 92%N, 53%N, 99%N. cbn [In]. split; [auto|]. repeat split.
    + right. exists c. split; [reflexivity|]. cbn [In]. intros [<-|[<-|[]]]; congruence.
Qed.
Lemma L_postal order r : set_order order -> escaped_regex order (lit "\$") = Ok r -> is_lang (rPostalAddress r) postal_address.
Proof.
  intros Ho E. pose proof (lang_eq _ _ _ (L_escaped order _ r Ho E) line_char_iff) as H. unfold rPostalAddress, postal_address.
  apply L_listed_g; [now apply L_many1|apply L_dollar].
Qed.
Lemma L_substring order r : set_order order -> escaped_regex order (lit "\*") = Ok r -> is_lang (rSubstringAssertion r) substring_assertion.
Proof.
  intros Ho E. pose proof (lang_eq _ _ _ (L_escaped order _ r Ho E) substring_char_iff) as H. unfold rSubstringAssertion, substring_assertion.
  assert (Hs : is_lang (RPlus r) substring) by now apply L_many1.
  eapply lang_eq.
  - apply L_cat; [apply L_optional; exact Hs|]. apply L_cat; [apply L_rc_is|]. apply L_cat; [apply L_many; apply L_cat; [exact Hs|apply L_rc_is]|apply L_optional; exact Hs].
  - intros t. apply cat_eq; [reflexivity|]. intros u. symmetry. apply assoc3.
Qed.
