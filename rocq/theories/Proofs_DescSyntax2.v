(** * A decision procedure for the texts of RFC 4512
    Used only to show that a given text is, or is not, one of RFC 4512 (Spec_DescSyntax.text rfc_style). *)
From Verif Require Import PyBase Model_Prep Model_Uri Model_Schema Model_Regex Spec_Regex Proofs_Regex Spec_Search
  Model_Parse Spec_Parse Proofs_Parse Model_Syntax Spec_Syntax Proofs_Syntax Model_DescSyntax Spec_DescSyntax Proofs_DescSyntax.

Notation R := rfc4512.
Definition q_number : rx := RAlt rDIGIT (RSeq (RCls [(49, 57)%N]) (RPlus rDIGIT)).
Lemma Q_number : is_lang q_number (number R).
Proof.
  intro t. unfold q_number, rDIGIT, RCls. cbn [number rfc4512]. rewrite L_alt, L_chr, L_seq. unfold rfc_number. split.
  - intros [(x & -> & Hx)|(x & y & -> & Hx & Hy)].
    + exists x, []. split; [reflexivity|]. split; [constructor; [now apply in_digit|constructor]|congruence].
    + apply L_chr in Hx as (c & -> & Hc). apply L_digits in Hy as [Hn Hy]. exists c, y. split; [reflexivity|].
      unfold in_ranges in Hc. cbn [existsb fst snd] in Hc. split; [constructor; [unfold DIGIT; lia|exact Hy]|]. intros _.
      change (ch "0") with 48%N. lia.
  - intros (c & r & -> & Hf & Hz). inversion Hf as [|c' r' Hc Hr]; subst. destruct r as [|d r].
    + left. exists c. split; [reflexivity|now apply in_digit].
    + right. exists [c], (d :: r). split; [reflexivity|]. split.
      * apply L_chr. exists c. split; [reflexivity|]. specialize (Hz ltac:(discriminate)). change (ch "0") with 48%N in Hz. unfold DIGIT in Hc.
        unfold in_ranges. cbn [existsb fst snd]. lia.
      * apply L_digits. split; [discriminate|exact Hr].
Qed.
Definition q_word (k : string) : rx := RSeqs (map (fun c => RChr (fun x => N.eqb (ascii_lower_ch x) (ascii_lower_ch c))) (lit k)).
Lemma Q_word k : is_lang (q_word k) (keyword R (lit k)).
Proof.
  unfold q_word. cbn [keyword rfc4512]. generalize (lit k). clear k. intros k. induction k as [|c k IH]; intro t.
  - cbn [map RSeqs ascii_lower]. rewrite L_eps. unfold ascii_lower. cbn [map]. split; [intros ->; reflexivity|]. destruct t; [reflexivity|discriminate].
  - destruct k as [|d k].
    + cbn [map RSeqs]. rewrite L_chr. unfold ascii_lower. cbn [map]. split.
      * intros (x & -> & Hx). cbn [map]. f_equal. now apply N.eqb_eq.
      * intros H. destruct t as [|x [|y t]]; [discriminate| |discriminate]. exists x. split; [reflexivity|]. injection H as H. now apply N.eqb_eq.
    + change (L (RSeq (RChr (fun x => N.eqb (ascii_lower_ch x) (ascii_lower_ch c)))
        (RSeqs (map (fun c => RChr (fun x => N.eqb (ascii_lower_ch x) (ascii_lower_ch c))) (d :: k)))) t <-> ascii_lower t = ascii_lower (c :: d :: k)).
      rewrite L_seq. split.
      * intros (x & y & -> & Hx & Hy). apply L_chr in Hx as (z & -> & Hz). apply IH in Hy. unfold ascii_lower in *. cbn [map app] in *.
        rewrite Hy. f_equal. now apply N.eqb_eq.
      * intros H. destruct t as [|x t]; [discriminate|]. exists [x], t. split; [reflexivity|]. unfold ascii_lower in H. cbn [map] in H. injection H as H1 H2.
        split; [apply L_chr; exists x; split; [reflexivity|now apply N.eqb_eq]|]. apply IH. unfold ascii_lower. cbn [map]. exact H2.
Qed.
Definition q_noid : rx := RSeq q_number (RPlus (RSeq (RC ".") q_number)).
Lemma Q_noid : is_lang q_noid (numericoid R).
Proof.
  intro t. unfold q_noid, numericoid. rewrite L_seq. split.
  - intros (x & y & -> & Hx & Hy). apply Q_number in Hx. apply L_plus in Hy as (l & Hn & -> & Hl).
    assert (E : exists q, l = map (fun y => ch "." :: y) q /\ Forall (number R) q).
    { clear Hn. induction Hl as [|z l Hz Hl IH]; [exists []; auto|]. destruct IH as (q & -> & Hq).
      apply L_seq in Hz as (a & b & -> & Ha & Hb). apply L_RC in Ha. apply Q_number in Hb. subst a. exists (b :: q). split; [reflexivity|now constructor]. }
    destruct E as (q & -> & Hq). exists (x :: q). split; [|split].
    + destruct q; [cbn in Hn; congruence|]. cbn [List.length]. lia.
    + now constructor.
    + symmetry. apply joined_concat.
  - intros (l & Hlen & Hl & ->). destruct l as [|x [|y q]]; cbn [List.length] in Hlen; try lia.
    inversion Hl as [|x' q' Hx Hq]; subst. exists x, (List.concat (map (fun y => ch "." :: y) (y :: q))). rewrite joined_concat.
    split; [reflexivity|]. split; [now apply Q_number|]. apply L_plus. exists (map (fun y => ch "." :: y) (y :: q)). split; [discriminate|]. split; [reflexivity|].
    clear - Hq. induction Hq as [|z l Hz Hl IH]; constructor; [|exact IH].
    apply L_seq. exists [ch "."], z. split; [reflexivity|]. split; [now apply L_RC|now apply Q_number].
Qed.
Definition q_oid : rx := RAlt rdescr q_noid.
Lemma Q_oid : is_lang q_oid (oid R).
Proof. intro t. unfold q_oid, oid. now rewrite L_alt, L_descr, (Q_noid t). Qed.
Definition q_oids : rx := RAlt q_oid (rparen (RSeq q_oid (RStar (RSeq (RSeqs [rWSP; RC "$"; rWSP]) q_oid)))).
Lemma Q_oids : is_lang q_oids (some_oids rfc_style).
Proof.
  intro t. unfold q_oids, some_oids. apply (L_one_or_list q_oid _ (fun x => such x (oid R)) (wsp R ;; is (lit "$") ;; wsp R)).
  - intros u. rewrite (Q_oid u). unfold such. split; [intros H; exists u; auto|intros (x & -> & H); exact H].
  - clear t. intro t. cbn [RSeqs]. apply (Proofs_Parse.L_cat _ _ _ _ L_WSP). apply (Proofs_Parse.L_cat _ _ _ _ (L_rc _)). apply L_WSP.
Qed.
Definition q_ruleids : rx := RAlt q_number (rparen (RSeq q_number (RStar (RSeq rSP q_number)))).
Lemma Q_ruleids : is_lang q_ruleids (ruleids rfc_style).
Proof.
  intro t. apply (L_one_or_list q_number rSP (fun x => such x (number R)) (sp R)); [|exact G_SP].
  intro u. rewrite (Q_number u). unfold such. split; [intros H; exists u; auto|intros (x & -> & H); exact H].
Qed.
Definition q_empty : rx := rparen REps.
Lemma Q_empty : is_lang q_empty (paren R (is [])).
Proof. intro t. apply (L_paren REps (is [])). intro u. apply L_eps. Qed.
Definition q_qdescrs : rx := RAlt rqdescrs q_empty.
Lemma Q_qdescrs : is_lang q_qdescrs (either (fun s => exists l, qdescrs R l s) (fun s => empty_list R /\ paren R (is []) s)).
Proof.
  intro t. unfold q_qdescrs. rewrite L_alt, (Q_empty t). unfold either. rewrite (L_qdescrs t). cbn [empty_list rfc4512].
  change (exists l, qdescrs code32 l t) with (exists l, qdescrs R l t). tauto.
Qed.
Definition q_qdstrings : rx := RAlt rqdstrings q_empty.
Lemma Q_qdstrings : is_lang q_qdstrings (qdstrings R).
Proof.
  intro t. unfold q_qdstrings. rewrite L_alt, (Q_empty t), (L_qdstrings t). unfold qdstrings, either. cbn [empty_list code32 rfc4512].
  set (A := fun s : str => exists n, sep_list (fun _ => qdstring) (sp code32) (repeat [] (S n)) s).
  assert (E1 : paren code32 (fun s => A s \/ False /\ s = []) t <-> paren code32 A t) by (apply paren_ext; intro; tauto).
  unfold A in E1. rewrite E1. clear E1.
  assert (E2 : paren R (fun s => (exists n, sep_list (fun _ => qdstring) (sp R) (repeat [] (S n)) s) \/ True /\ s = []) t <->
    paren R A t \/ paren R (is []) t).
  { unfold paren, cat. split.
    - intros (a & b & -> & Ha & c & d & -> & Hc & e & f & -> & [He|[_ He]] & H); [left|right]; exists a, (c ++ e ++ f);
        (split; [reflexivity|]; split; [exact Ha|]; exists c, (e ++ f); split; [reflexivity|]; split; [exact Hc|]; exists e, f; split; [reflexivity|]; split; [exact He|exact H]).
    - intros [H|H]; destruct H as (a & b & -> & Ha & c & d & -> & Hc & e & f & -> & He & H); exists a, (c ++ e ++ f);
        (split; [reflexivity|]; split; [exact Ha|]; exists c, (e ++ f); split; [reflexivity|]; split; [exact Hc|]; exists e, f; split; [reflexivity|]; split; [|exact H]);
        [left; exact He|right; split; [exact I|exact He]]. }
  rewrite E2. unfold A. change (paren code32) with (paren R). change (sp code32) with (sp R). tauto.
Qed.
Definition q_kw (k : string) : rx := RSeq rSP (q_word k).
Lemma Q_kw k : is_lang (q_kw k) (kw R k).
Proof. apply (Proofs_Syntax.L_cat _ _ (sp R) (keyword R (lit k)) G_SP). apply Q_word. Qed.
Definition q_need (k : string) (a : rx) : rx := RSeqs [q_kw k; rSP; a].
Lemma Q_need k r (A : lang) : is_lang r A -> is_lang (q_need k r) (need rfc_style k A).
Proof.
  intros H. unfold q_need, need. cbn [RSeqs]. change (dia rfc_style) with R.
  apply Proofs_Syntax.L_cat; [apply Q_kw|]. apply Proofs_Syntax.L_cat; [exact G_SP|exact H].
Qed.
Definition q_maybe (k : string) (a : rx) : rx := ROpt (q_need k a).
Lemma Q_maybe k r (A : lang) : is_lang r A -> is_lang (q_maybe k r) (other_part R k A).
Proof. intros H. apply (lang_eq _ _ _ (L_optional _ _ (Q_need k r A H))). intro t. reflexivity. Qed.
Definition q_flag (k : string) : rx := ROpt (q_kw k).
Lemma Q_flag k : is_lang (q_flag k) (flag rfc_style k).
Proof. apply (lang_eq _ _ _ (L_optional _ _ (Q_kw k))). intro t. reflexivity. Qed.
Definition q_noidlen : rx := RSeq q_noid (ROpt (RSeqs [RC "{"; q_number; RC "}"])).
Lemma Q_noidlen : is_lang q_noidlen (fun s => exists o len, noidlen R o len s).
Proof.
  intro t. unfold q_noidlen, noidlen. rewrite L_seq. cbn [RSeqs]. split.
  - intros (x & y & -> & Hx & Hy). apply Q_noid in Hx. apply L_opt in Hy as [Hy | ->].
    + apply L_seq in Hy as (a & b & -> & Ha & Hb). apply L_seq in Hb as (n & b2 & -> & Hn & Hb2).
      apply L_RC in Ha, Hb2. apply Q_number in Hn. subst a b2. exists x, (Some n). exists x, ([ch "{"] ++ n ++ [ch "}"]).
      split; [reflexivity|]. split; [split; [reflexivity|exact Hx]|]. exists [ch "{"], (n ++ [ch "}"]). split; [reflexivity|]. split; [reflexivity|].
      exists n, [ch "}"]. split; [reflexivity|]. split; [split; [reflexivity|exact Hn]|reflexivity].
    + exists x, None. exists x, []. split; [reflexivity|]. split; [split; [reflexivity|exact Hx]|reflexivity].
  - intros (o & len & x & y & -> & [-> Ho] & Hy). exists o, y. split; [reflexivity|]. split; [now apply Q_noid|]. apply L_opt.
    destruct len as [n|]; [left|right; exact Hy].
    destruct Hy as (a & b & -> & -> & c & d & -> & [-> Hn] & ->). apply L_seq. exists (lit "{"), (n ++ lit "}"). split; [reflexivity|]. split; [now apply L_RC|].
    apply L_seq. exists n, (lit "}"). split; [reflexivity|]. split; [now apply Q_number|now apply L_RC].
Qed.
Definition q_kind : rx := RAlts [q_kw "ABSTRACT"; q_kw "STRUCTURAL"; q_kw "AUXILIARY"; REps].
Lemma Q_kind : is_lang q_kind (fun s => exists k, kind_part R k s).
Proof.
  intro t. unfold q_kind. cbn [RAlts]. rewrite !L_alt, L_eps, (Q_kw "ABSTRACT" t), (Q_kw "STRUCTURAL" t), (Q_kw "AUXILIARY" t). split.
  - intros [H|[H|[H|H]]]; [exists (Some ABSTRACT)|exists (Some STRUCTURAL)|exists (Some AUXILIARY)|exists None]; exact H.
  - intros [[[]|] H]; auto.
Qed.
Definition q_usage : rx := RAlts [q_word "userApplications"; q_word "directoryOperation"; q_word "distributedOperation"; q_word "dSAOperation"].
Lemma Q_usage : is_lang q_usage (fun s => exists u, keyword R (lit (usage_word u)) s).
Proof.
  intro t. unfold q_usage. cbn [RAlts]. rewrite !L_alt, (Q_word _ t), (Q_word _ t), (Q_word _ t), (Q_word _ t). split.
  - intros [H|[H|[H|H]]]; [exists userApplications|exists directoryOperation|exists distributedOperation|exists dSAOperation]; exact H.
  - intros [[] H]; auto.
Qed.
Definition q_extension : rx := RSeqs [rSP; q_word "X-"; RPlus (RCls [(65, 90); (97, 122); (95, 95); (45, 45)]%N); rSP; q_qdstrings].
Lemma Q_extension : is_lang q_extension (extension R).
Proof.
  unfold q_extension, extension. cbn [RSeqs]. apply Proofs_Syntax.L_cat; [exact G_SP|]. apply Proofs_Syntax.L_cat; [apply Q_word|].
  apply Proofs_Syntax.L_cat; [|apply Proofs_Syntax.L_cat; [exact G_SP|exact Q_qdstrings]].
  apply (L_some _ xchar). intro c. unfold in_ranges, xchar, ALPHA. cbn [existsb fst snd]. change (ch "_") with 95%N. change (ch "-") with 45%N. lia.
Qed.
Lemma repeated_many (A : lang) t : many A t <-> exists n, repeated n A t.
Proof.
  split.
  - induction 1 as [|x y Hx Hy [n IH]]; [exists 0; reflexivity|]. exists (S n), x, y. auto.
  - intros [n H]. revert t H. induction n as [|n IH]; intros t H; [rewrite H; constructor|]. destruct H as (x & y & -> & Hx & Hy). constructor; auto.
Qed.
Lemma Q_extensions : is_lang (RStar q_extension) (exts rfc_style).
Proof.
  apply (lang_eq _ _ _ (L_many _ _ Q_extension)). intro t. rewrite repeated_many. cbn [exts rfc_style]. unfold extensions. cbn [extension_count rfc4512].
  split; intros [n H]; exists n; [split; [exact I|exact H]|exact (proj2 H)].
Qed.
Definition q_ending : rx := RSeqs [RStar q_extension; rWSP; RC ")"].
Lemma Q_ending : is_lang q_ending (ending rfc_style).
Proof. cbn [q_ending RSeqs]. apply Proofs_Syntax.L_cat; [exact Q_extensions|]. apply Proofs_Syntax.L_cat; [exact G_WSP|exact (L_rc_is ")")]. Qed.

Definition q_head (id : rx) (body : list rx) : rx := RSeq (RC "(") (RSeq rWSP (RSeq id (fold_right RSeq q_ending body))).
Definition q_common : list rx := [q_maybe "NAME" q_qdescrs; q_maybe "DESC" rqdstring].
Definition q_pattern (d : drule) : rx :=
  match d with
  | AttributeTypeDescription => q_head q_noid (q_common ++ [q_flag "OBSOLETE"; q_maybe "SUP" q_oid; q_maybe "EQUALITY" q_oid; q_maybe "ORDERING" q_oid;
      q_maybe "SUBSTR" q_oid; q_maybe "SYNTAX" q_noidlen; q_flag "SINGLE-VALUE"; q_flag "COLLECTIVE"; q_flag "NO-USER-MODIFICATION"; q_maybe "USAGE" q_usage])
  | DITContentRuleDescription => q_head q_noid (q_common ++ [q_flag "OBSOLETE"; q_maybe "AUX" q_oids; q_maybe "MUST" q_oids; q_maybe "MAY" q_oids; q_maybe "NOT" q_oids])
  | DITStructureRuleDescription => q_head q_number (q_common ++ [q_flag "OBSOLETE"; q_need "FORM" q_oid; q_maybe "SUP" q_ruleids])
  | LDAPSyntaxDescription => q_head q_noid [q_maybe "DESC" rqdstring]
  | MatchingRuleDescription => q_head q_noid (q_common ++ [q_flag "OBSOLETE"; q_need "SYNTAX" q_noid])
  | MatchingRuleUseDescription => q_head q_noid (q_common ++ [q_flag "OBSOLETE"; q_need "APPLIES" q_oids])
  | NameFormDescription => q_head q_noid (q_common ++ [q_flag "OBSOLETE"; q_need "OC" q_oid; q_need "MUST" q_oids; q_maybe "MAY" q_oids])
  | ObjectClassDescription => q_head q_noid (q_common ++ [q_flag "OBSOLETE"; q_maybe "SUP" q_oids; q_kind; q_maybe "MUST" q_oids; q_maybe "MAY" q_oids])
  end.
Ltac q_piece := first
  [ exact (L_rc_is "(") | exact G_WSP | exact Q_noid | exact Q_number
  | exact (Q_maybe _ _ _ Q_qdescrs) | exact (Q_maybe _ _ _ G_qdstring) | exact (Q_flag _)
  | exact (Q_maybe _ _ _ Q_oids) | exact (Q_maybe _ _ _ Q_oid) | exact (Q_need _ _ _ Q_oids) | exact (Q_need _ _ _ Q_oid)
  | exact (Q_need _ _ _ Q_noid) | exact Q_kind | exact (Q_maybe _ _ _ Q_ruleids) | exact (Q_maybe _ _ _ Q_noidlen) | exact (Q_maybe _ _ _ Q_usage) ].
Ltac q_pieces := first [exact Q_ending | apply L_skip; [q_piece|q_pieces]].
Lemma q_pattern_lang d : is_lang (q_pattern d) (text rfc_style d).
Proof.
  destruct d; cbn [q_pattern text q_common app]; unfold q_head, description; cbn [fold_right]; change (dia rfc_style) with R; q_pieces.
Qed.

(** [s] is a text of RFC 4512: decided *)
Definition rfc_text (d : drule) (s : str) : bool :=
  match m (q_pattern d) s [] (fun s' c => match s' with [] => Some c | _ => None end) with Some _ => true | None => false end.
Lemma rfc_text_iff d s : rfc_text d s = true <-> text rfc_style d s.
Proof.
  unfold rfc_text. rewrite <- (q_pattern_lang d s). split.
  - destruct (m _ _ _ _) as [v|] eqn:E; [|discriminate]. intros _. apply m_sound in E as (t & s' & c' & -> & HM & Hk).
    destruct s'; [|discriminate]. rewrite app_nil_r. exists c'. exact HM.
  - intros [c HM]. pose proof (m_complete (q_pattern d) s c HM [] [] (fun s' c => match s' with [] => Some c | _ => None end) ltac:(discriminate)) as E.
    rewrite app_nil_r in E. destruct (m _ _ _ _); [reflexivity|congruence].
Qed.
Lemma is_rfc_text d s : rfc_text d s = true -> text rfc_style d s. Proof. apply rfc_text_iff. Qed.
Lemma no_rfc_text d s : rfc_text d s = false -> ~ text rfc_style d s. Proof. intros E H. apply rfc_text_iff in H. congruence. Qed.
