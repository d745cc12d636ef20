(** * Distinguished names, telephone numbers *)
From Verif Require Import PyBase Model_Prep Model_Uri Model_Regex Spec_Regex Proofs_Regex Spec_Search Proofs_Search2
  Model_Parse Spec_Parse Proofs_Parse Proofs_Parse2 Model_Syntax Spec_Syntax Proofs_Syntax.

Lemma many_snoc (A : lang) x y : many A x -> A y -> many A (x ++ y).
Proof.
  intros Hx Hy. induction Hx as [|u v Hu Hv IH]; [cbn [app]; rewrite <- (app_nil_r y); constructor; [exact Hy|constructor]|].
  rewrite <- app_assoc. now constructor.
Qed.
Lemma many_last (A : lang) t : many A t -> t = [] \/ (many A ;; A) t.
Proof.
  induction 1 as [|x y Hx Hy IH]; [now left|]. right. destruct IH as [->|(u & v & -> & Hu & Hv)].
  - exists [], x. rewrite app_nil_r. split; [reflexivity|]. split; [constructor|exact Hx].
  - exists (x ++ u), v. split; [now rewrite app_assoc|]. split; [now constructor|exact Hv].
Qed.
Lemma not_in_ranges l c : negb (in_ranges (map (fun c => (c, c)) l) c) = true <-> ~ In c l.
Proof. rewrite negb_true_iff, <- not_true_iff_false. now rewrite in_ranges_In. Qed.

Lemma L_hexpair : is_lang rhexpair hexpair.
Proof. apply (L_times2 _ HEXDIGIT). intros c. unfold HEX_ranges. chars. Qed.
Lemma L_pair : is_lang rpair (pair laurelin_dn).
Proof.
  apply L_cat; [apply L_rc_is|]. apply L_grp. apply L_either; [|apply L_hexpair]. eapply lang_eq; [apply (L_one _ (dn_escapable laurelin_dn))|reflexivity].
  intros c. cbn [dn_escapable laurelin_dn]. unfold special_ranges, escaped_ranges. cbn [In app]. chars.
Qed.
Lemma stringchar_iff c : negb (in_ranges escaped_ranges c) = true <-> stringchar c.
Proof.
  change escaped_ranges with (map (fun c => (c, c)) [34; 43; 44; 59; 60; 62; 0; 92]%N). rewrite not_in_ranges. unfold stringchar.
  change (ch """") with 34%N. change (ch "+") with 43%N. change (ch ",") with 44%N. change (ch ";") with 59%N. change (ch "<") with 60%N.
  change (ch ">") with 62%N. change (ch "\") with 92%N. cbn [In]. tauto.
Qed.
Lemma leadchar_iff c : negb (in_ranges special_ranges c) = true <-> dn_lead laurelin_dn c.
Proof.
  cbn [dn_lead laurelin_dn]. rewrite <- stringchar_iff.
  change escaped_ranges with (map (fun c => (c, c)) [34; 43; 44; 59; 60; 62; 0; 92]%N).
  change special_ranges with (map (fun c => (c, c)) [34; 43; 44; 59; 60; 62; 0; 92; 32; 35; 61]%N). rewrite !not_in_ranges.
  change (ch "#") with 35%N. change (ch "=") with 61%N. cbn [In]. split.
  - intros H. split; [tauto|]. repeat split; intros ->; tauto.
  - intros (H1 & H2 & H3 & H4) H. intuition congruence.
Qed.
Lemma L_string : is_lang rstring (string_value laurelin_dn).
Proof.
  pose proof (L_one _ _ stringchar_iff) as Hs. pose proof (L_one _ _ leadchar_iff) as Hl.
  eapply lang_eq; [apply L_cat; [apply L_either; [exact Hl|apply L_pair]|apply L_cat;
    [apply L_many; apply L_either; [exact Hs|apply L_pair]|apply L_optional; apply L_either;
      [apply (L_one _ (fun c => stringchar c /\ c <> 32%N))|apply L_pair]]]|].
  { intros c. rewrite <- stringchar_iff. change escaped_ranges with (map (fun c => (c, c)) [34; 43; 44; 59; 60; 62; 0; 92]%N).
    change (map (fun c => (c, c)) [34; 43; 44; 59; 60; 62; 0; 92]%N ++ [(32, 32)]%N) with (map (fun c => (c, c)) [34; 43; 44; 59; 60; 62; 0; 92; 32]%N).
    rewrite !not_in_ranges. cbn [In]. split; [intros H; split; [tauto|intros ->; tauto]|intros [H1 H2] H; intuition congruence]. }
  intros t. unfold string_value. cbn [dn_empty_value laurelin_dn dn_lead dn_trail]. set (X := either (one stringchar) (pair laurelin_dn)). split.
  - intros (x & y & -> & Hx & u & v & -> & Hu & Hv). right. exists x, (u ++ v). split; [reflexivity|]. split; [exact Hx|].
    assert (Huv : many X (u ++ v)).
    { destruct Hv as [->|Hv]; [rewrite app_nil_r; exact Hu|]. apply many_snoc; [exact Hu|]. destruct Hv as [(c & -> & Hc & _)|Hv]; [left; now exists c|now right]. }
    apply many_last in Huv. exact Huv.
  - intros [[_ []]|(x & y & -> & Hx & Hy)]. exists x, y. split; [reflexivity|]. split; [exact Hx|]. exists y, []. rewrite app_nil_r. split; [reflexivity|].
    split; [|now left]. destruct Hy as [->|(u & v & -> & Hu & Hv)]; [constructor|]. now apply many_snoc.
Qed.
Lemma L_hexstring : is_lang rhexstring hex_string.
Proof. apply L_cat; [apply L_rc_is|]. apply L_many1. apply L_hexpair. Qed.
Lemma L_atv : is_lang rattributeTypeAndValue (attribute_type_and_value laurelin_dn).
Proof.
  apply L_cat.
  - eapply lang_eq; [apply L_either; [exact L_descr|exact L_numericoid]|]. intros t. reflexivity.
  - apply L_cat; [apply L_rc_is|]. apply L_either; [apply L_string|apply L_hexstring].
Qed.
Lemma L_rdn : is_lang rrdn (Spec_Syntax.rdn laurelin_dn).
Proof. apply L_listed; [apply L_atv|apply L_rc_is]. Qed.
Lemma L_dn : is_lang Model_Syntax.rdn (dn laurelin_dn).
Proof.
  eapply lang_eq; [apply L_listed; [apply L_rdn|apply L_rc_is]|]. intros t. unfold dn, either. cbn [dn_empty laurelin_dn]. tauto.
Qed.
Lemma L_nuid : is_lang rNameAndOptionalUID (dn laurelin_dn ;; optional (is (lit "#") ;; bit_string)).
Proof. apply L_cat; [apply L_dn|]. apply L_optional. apply L_cat; [apply L_rc_is|apply L_bits]. Qed.

(** telephone numbers *)
Lemma phone_iff s : validate_phone_number s = true <-> dialable s.
Proof.
  unfold validate_phone_number, dialable. cbn zeta.
  assert (E : dialled s = List.filter (fun c => (48 <=? c)%N && (c <=? 57)%N || (c =? 43)%N) s).
  { unfold dialled. apply filter_ext. intros c. unfold in_ranges, digit_ranges. cbn [existsb fst snd]. now rewrite orb_false_r. }
  rewrite E. clear E. set (f := List.filter _ s).
  assert (D : forall x, all_digits x = true <-> x <> [] /\ Forall DIGIT x).
  { intros [|c x]; [split; [discriminate|intros [H _]; congruence]|]. unfold all_digits. rewrite forallb_forall, Forall_forall. split.
    - intros H. split; [discriminate|]. intros d Hd. now apply digit_iff, H.
    - intros [_ H] d Hd. now apply digit_iff, H. }
  assert (C : forall x, (if all_digits x then (7 <=? List.length x) && (List.length x <=? 15) else false) = true <-> Forall DIGIT x /\ 7 <= List.length x <= 15).
  { intros x. destruct (all_digits x) eqn:Ex.
    - apply D in Ex as [_ Hf]. rewrite andb_true_iff, !Nat.leb_le. tauto.
    - split; [discriminate|]. intros [Hf Hl]. assert (all_digits x = true) by (apply D; split; [intros ->; cbn in Hl; lia|exact Hf]). congruence. }
  rewrite C. clear C D. destruct f as [|c f'].
  - split; [cbn; lia|]. intros (plus & ds & E & _ & _ & Hl). symmetry in E. apply app_eq_nil in E as [-> ->]. cbn in Hl. lia.
  - destruct (N.eqb_spec c 43) as [->|Hc].
    + split.
      * intros [Hf Hl]. exists (lit "+"), f'. split; [reflexivity|]. auto.
      * intros (plus & ds & E & [->| ->] & Hf & Hl).
        -- cbn [app] in E. subst ds. inversion Hf as [|? ? Hd _]; subst. unfold DIGIT in Hd. lia.
        -- change (lit "+" ++ ds) with (43%N :: ds) in E. injection E as ->. auto.
    + split.
      * intros [Hf Hl]. exists [], (c :: f'). auto.
      * intros (plus & ds & E & [->| ->] & Hf & Hl); [cbn [app] in E; now subst ds|]. injection E as E _. now elim Hc.
Qed.
Lemma decomposes sep s : exists l, l <> [] /\ Forall (fun x => ~ In sep x) l /\ s = joined sep l.
Proof.
  induction s as [|c s (l & Hn & Hf & ->)]; [exists [[]]; split; [discriminate|split; [repeat constructor; intros []|reflexivity]]|].
  destruct l as [|x l]; [congruence|]. destruct (N.eq_dec c sep) as [->|Hc].
  - exists ([] :: x :: l). split; [discriminate|]. split; [constructor; [intros []|exact Hf]|reflexivity].
  - inversion Hf as [|? ? Hx Hl]; subst. exists ((c :: x) :: l). split; [discriminate|]. split; [constructor; [|exact Hl]|].
    + intros [E|H]; [congruence|now apply Hx].
    + destruct l; reflexivity.
Qed.
Lemma fax_params_iff l : fax_params l = if forallb (fun p => smem p fax_parameters) l then Ok tt else Raise InvalidSyntaxError.
Proof. induction l as [|p l IH]; [reflexivity|]. cbn [fax_params forallb]. destruct (smem p fax_parameters); [exact IH|reflexivity]. Qed.
Lemma facsimile_joined (A : lang) s : facsimile A s <-> exists n ps, s = joined (ch "$") (n :: ps) /\ A n /\ Forall (word fax_words) ps.
Proof.
  unfold facsimile. split.
  - intros (x & y & -> & Hx & Hy). exists x.
    assert (G : exists ps, Forall (word fax_words) ps /\ forall x, x ++ y = joined (ch "$") (x :: ps)).
    { clear x Hx. induction Hy as [|u v (a & b & -> & -> & Hb) Hv (ps & Hf & E)]; [exists []; split; [constructor|]; intros x; apply app_nil_r|].
      exists (b :: ps). split; [now constructor|]. intros x. change (joined (ch "$") (x :: b :: ps)) with (x ++ ch "$" :: joined (ch "$") (b :: ps)).
      rewrite <- E. reflexivity. }
    destruct G as (ps & Hf & E). exists ps. auto.
  - intros (n & ps & -> & Hn & Hf). 
    assert (G : exists y, many (dollar ;; word fax_words) y /\ forall x, joined (ch "$") (x :: ps) = x ++ y).
    { clear n Hn. induction Hf as [|p ps Hp Hf (y & Hy & E)]; [exists []; split; [constructor|]; intros x; symmetry; apply app_nil_r|].
      exists ((lit "$" ++ p) ++ y). split; [constructor; [exists (lit "$"), p; split; [reflexivity|split; [reflexivity|exact Hp]]|exact Hy]|].
      intros x. change (joined (ch "$") (x :: p :: ps)) with (x ++ ch "$" :: joined (ch "$") (p :: ps)). rewrite E. reflexivity. }
    destruct G as (y & Hy & E). exists n, y. split; [apply E|auto].
Qed.
Lemma fax_word_plain p : word fax_words p -> ~ In (ch "$") p.
Proof. unfold word, fax_words. cbn [map In]. intuition (subst; vm_compute in *; intuition discriminate). Qed.
Lemma fax_decides : decides (fun s => fax_validate (Text s)) (facsimile (fun s => dialable s /\ ~ In (ch "$") s)).
Proof.
  intros s. destruct (decomposes (ch "$") s) as (l & Hn & Hf & ->). unfold fax_validate.
  change (lit "$") with [ch "$"]. rewrite (split_joined _ _ Hn Hf). destruct l as [|n ps]; [congruence|].
  assert (P : facsimile (fun s => dialable s /\ ~ In (ch "$") s) (joined (ch "$") (n :: ps)) <-> dialable n /\ Forall (word fax_words) ps).
  { rewrite facsimile_joined. split.
    - intros (n' & ps' & E & [Hd Hn'] & Hw).
      assert (El : n :: ps = n' :: ps').
      { rewrite <- (split_joined (ch "$") (n :: ps) Hn Hf), E. apply split_joined; [discriminate|]. constructor; [exact Hn'|].
        revert Hw. apply Forall_impl. exact fax_word_plain. }
      injection El as -> ->. auto.
    - intros [Hd Hw]. exists n, ps. split; [reflexivity|]. split; [|exact Hw]. split; [exact Hd|]. now inversion Hf. }
  rewrite fax_params_iff. rewrite <- (phone_iff n) in P.
  assert (Q : forallb (fun p => smem p fax_parameters) ps = true <-> Forall (word fax_words) ps).
  { rewrite forallb_forall, Forall_forall. split; intros H p Hp; specialize (H p Hp); now apply smem_In. }
  rewrite <- Q in P. destruct (validate_phone_number n), (forallb (fun p => smem p fax_parameters) ps).
  - split; [reflexivity|]. split; [intros C; elim C; now apply P|]. intros _. now apply P.
  - split; [intros H; now apply P in H|]. split; [reflexivity|discriminate].
  - split; [intros H; now apply P in H|]. split; [reflexivity|discriminate].
  - split; [intros H; now apply P in H|]. split; [reflexivity|discriminate].
Qed.
