(** * The language of each description pattern *)
From Verif Require Import PyBase Model_Prep Model_Uri Model_Schema Model_Regex Spec_Regex Proofs_Regex Spec_Search
  Model_Parse Spec_Parse Proofs_Parse Proofs_Parse2 Proofs_Parse8 Model_Syntax Spec_Syntax Proofs_Syntax
  Model_DescSyntax Spec_DescSyntax.

Lemma G_SP : is_lang rSP (sp bare). Proof. exact L_SP. Qed.
Lemma G_WSP : is_lang rWSP (wsp bare). Proof. exact L_WSP. Qed.
Lemma G_noid : is_lang rnumericoid (numericoid bare). Proof. exact L_numericoid. Qed.
Lemma G_oid : is_lang roid (oid bare). Proof. exact L_oid. Qed.
Lemma G_oids : is_lang roids (fun s => exists l, oids bare l s). Proof. exact L_oids. Qed.
Lemma G_qdstring : is_lang rqdstring qdstring. Proof. exact L_qdstring. Qed.
Lemma G_kw k : is_lang (RSeq rSP (RW k)) (kw bare k).
Proof. apply (Proofs_Syntax.L_cat _ _ (sp bare) (keyword bare (lit k)) G_SP). exact (L_is (lit k)). Qed.
Lemma G_need k r (A : lang) : is_lang r A -> is_lang (rneed k r) (need code_style k A).
Proof.
  intros H. unfold rneed, need. cbn [RSeqs]. change (dia code_style) with bare.
  apply (lang_eq _ (sp bare ;; is (lit k) ;; sp bare ;; A)).
  - apply Proofs_Syntax.L_cat; [exact G_SP|]. apply Proofs_Syntax.L_cat; [exact (L_is (lit k))|]. apply Proofs_Syntax.L_cat; [exact G_SP|exact H].
  - intro t. unfold kw. cbn [keyword bare]. symmetry. apply (assoc3 (sp bare) (is (lit k)) (sp bare ;; A)).
Qed.
Lemma G_maybe k r (A : lang) : is_lang r A -> is_lang (rmaybe k r) (other_part bare k A).
Proof. intros H. apply (lang_eq _ _ _ (L_optional _ _ (G_need k r A H))). intro t. unfold optional, other_part, either, is, need. reflexivity. Qed.
Lemma G_key k g r (A : lang) : is_lang r A -> is_lang (rkey k g r) (other_part bare k A).
Proof. intros H. exact (G_maybe k (RGroup (lit g) r) A (L_grp _ _ _ H)). Qed.
Lemma G_word k : is_lang (rword k) (flag code_style k).
Proof. apply (lang_eq _ _ _ (L_optional _ _ (G_kw k))). intro t. reflexivity. Qed.
Lemma G_flag k g : is_lang (rflag k g) (flag code_style k).
Proof. apply (lang_eq _ _ _ (L_optional _ _ (L_grp (lit g) _ _ (G_kw k)))). intro t. reflexivity. Qed.
Lemma G_qdescrs : is_lang rqdescrs (either (fun s => exists l, qdescrs bare l s) (fun s => empty_list bare /\ paren bare (is []) s)).
Proof.
  apply (lang_eq _ (fun s => exists l, qdescrs bare l s)); [exact L_qdescrs|]. intro t. unfold either. cbn [empty_list bare]. tauto.
Qed.
Lemma G_ext : is_lang rextensions (one_extension bare).
Proof.
  unfold rextensions, one_extension. apply L_optional. apply L_grp. intro t. rewrite L_ext. split.
  - intros (x & q & -> & Hn & Hx & Hq). exists (lit " X-"), (x ++ lit " " ++ q). split; [reflexivity|]. split; [reflexivity|].
    exists x, (lit " " ++ q). split; [reflexivity|]. split; [split; assumption|]. exists (lit " "), q. split; [reflexivity|]. split; [reflexivity|exact Hq].
  - intros (a & b & -> & -> & x & c & -> & [Hn Hx] & d & q & -> & -> & Hq). exists x, q. auto.
Qed.
Lemma G_ending : is_lang (RSeqs [rextensions; rWSP; RC ")"]) (ending code_style).
Proof. cbn [RSeqs]. apply Proofs_Syntax.L_cat; [exact G_ext|]. apply Proofs_Syntax.L_cat; [exact G_WSP|exact (L_rc_is ")")]. Qed.
Lemma G_ruleid : is_lang rruleid (number bare).
Proof. exact L_digits. Qed.
Lemma G_ruleids : is_lang rruleids (ruleids code_style).
Proof.
  unfold rruleids, rruleidlist. intro t. apply (L_one_or_list rruleid rSP (fun x => such x (number bare)) (sp bare)); [|exact G_SP].
  intro u. rewrite (G_ruleid u). unfold such. split; [intros H; exists u; auto|intros (x & -> & H); exact H].
Qed.
Lemma G_noidlen : is_lang rnoidlen (fun s => exists o len, noidlen bare o len s).
Proof. exact L_noidlen. Qed.
Lemma G_obs_sp : is_lang robsolete_sp (dit_obsolete code_style).
Proof.
  unfold robsolete_sp. apply (lang_eq _ (optional (sp bare ;; is (lit "OBSOLETE") ;; sp bare))).
  - apply L_optional. cbn [RSeqs]. apply Proofs_Syntax.L_cat; [exact G_SP|]. apply Proofs_Syntax.L_cat; [exact (L_is _)|exact G_SP].
  - intro t. cbn [dit_obsolete code_style]. unfold optional, either, is at 2. unfold kw. cbn [keyword bare].
    rewrite (assoc3 (sp bare) (is (lit "OBSOLETE")) (sp bare) t). reflexivity.
Qed.
Lemma G_kind : is_lang (ROpt (RSeq rSP (RGroup (lit "kind") (RAlts [RW "ABSTRACT"; RW "STRUCTURAL"; RW "AUXILIARY"]))))
  (fun s => exists k, kind_part bare k s).
Proof.
  apply (lang_eq _ (optional (sp bare ;; word ["ABSTRACT"; "STRUCTURAL"; "AUXILIARY"]%string))).
  - apply L_optional. apply Proofs_Syntax.L_cat; [exact G_SP|]. apply L_grp. apply (L_word ["ABSTRACT"; "STRUCTURAL"; "AUXILIARY"]%string). discriminate.
  - intro t. split.
    + intros [->|(x & y & -> & Hx & Hy)]; [exists None; reflexivity|]. unfold word in Hy. cbn [map In] in Hy.
      destruct Hy as [<-|[<-|[<-|[]]]]; [exists (Some ABSTRACT)|exists (Some STRUCTURAL)|exists (Some AUXILIARY)]; eexists x, _; (split; [reflexivity|]); (split; [exact Hx|reflexivity]).
    + intros [[k|] H]; [|left; exact H]. right. destruct H as (x & y & -> & Hx & Hy). exists x, y. split; [reflexivity|]. split; [exact Hx|].
      cbn [keyword bare] in Hy. subst y. unfold word. cbn [map In]. destruct k; cbn [kind_word]; auto.
Qed.
Lemma G_usage : is_lang (RAlts [RW "userApplications"; RW "directoryOperation"; RW "distributedOperation"; RW "dSAOperation"])
  (fun s => exists u, keyword bare (lit (usage_word u)) s).
Proof.
  apply (lang_eq _ (word ["userApplications"; "directoryOperation"; "distributedOperation"; "dSAOperation"]%string)).
  - apply (L_word ["userApplications"; "directoryOperation"; "distributedOperation"; "dSAOperation"]%string). discriminate.
  - intro t. unfold word. cbn [map In keyword bare]. split.
    + intros [<-|[<-|[<-|[<-|[]]]]]; [exists userApplications|exists directoryOperation|exists distributedOperation|exists dSAOperation]; reflexivity.
    + intros [u ->]. destruct u; cbn [usage_word]; auto.
Qed.
Lemma L_skip r q (A B : lang) : is_lang r A -> is_lang q B -> is_lang (RSeq r q) (A ;; B).
Proof. apply Proofs_Syntax.L_cat. Qed.
Ltac piece_ := first
  [ exact (L_rc_is "(") | exact G_WSP | exact G_noid | exact (L_grp _ _ _ G_noid) | exact G_ruleid
  | exact (G_key _ _ _ _ G_qdescrs) | exact (G_maybe _ _ _ G_qdescrs) | exact (G_key _ _ _ _ G_qdstring) | exact (G_maybe _ _ _ G_qdstring)
  | exact (G_word _) | exact (G_flag _ _) | exact G_obs_sp
  | exact (G_key _ _ _ _ G_oids) | exact (G_maybe _ _ _ G_oids) | exact (G_key _ _ _ _ G_oid) | exact (G_maybe _ _ _ G_oid)
  | exact (G_need _ _ _ G_oids) | exact (G_need _ _ _ G_oid) | exact G_kind | exact (G_maybe _ _ _ G_ruleids)
  | exact (G_key _ _ _ _ G_noidlen) | exact (G_key _ _ _ _ G_usage) ].
Ltac pieces := first [exact G_ending | apply L_skip; [piece_|pieces]].
Lemma nil_cat (A : lang) t : (is [] ;; A) t <-> A t.
Proof. split; [intros (x & y & -> & -> & H); exact H|intro H; exists [], t; repeat split; exact H]. Qed.
Lemma pattern_lang d : is_lang (pattern d) (text code_style d).
Proof.
  destruct d; cbn [pattern text]; unfold description; change (dia code_style) with bare.
  - unfold rAttributeTypeDescription. pieces.
  - unfold rDITContentRuleDescription.
    eapply lang_eq; [pieces|]. intro t. do 7 (apply cat_eq; [intro; reflexivity|]; clear t; intro t). symmetry.
    apply (cat_eq _ _ _ _ t (fun _ => iff_refl _)). intro u. cbn [content_may code_style]. apply nil_cat.
  - unfold rDITStructureRuleDescription. pieces.
  - unfold rSyntaxDescription. pieces.
  - unfold rMatchingRuleDescription. pieces.
  - unfold rMatchingRuleUseDescription. pieces.
  - unfold rNameFormDescription. pieces.
  - unfold rObjectClassDescription. pieces.
Qed.
Lemma description_decides d : decides (fun s => validate_description d (Text s)) (or_newline (text code_style d)).
Proof. apply decides_anchored. apply pattern_lang. Qed.

(** Styles: a wider style has more texts *)
Record wider_style (S T : style) : Prop := mk_ws {
  ws_dia : wider (dia S) (dia T);
  ws_exts : forall s, exts S s -> exts T s;
  ws_obs : forall s, dit_obsolete S s -> dit_obsolete T s;
  ws_syn : forall s, rule_syntax S s -> rule_syntax T s;
  ws_may : forall s, content_may S s -> content_may T s }.
Section Wider.
  Context (S T : style) (W : wider_style S T).
  Let WD := ws_dia S T W.
  Lemma ws_either (a b a' b' : lang) s : (forall s, a s -> a' s) -> (forall s, b s -> b' s) -> either a b s -> either a' b' s.
  Proof. clear W WD. intros Ha Hb [H|H]; [left; auto|right; auto]. Qed.
  Lemma ws_names s : names S s -> names T s.
  Proof.
    apply (wide_other _ _ WD). intro t. apply ws_either.
    - intros u (l & H). exists l. revert H. apply (wide_qdescrs _ _ WD).
    - intros u [He H]. split; [now apply (w_empty _ _ WD)|]. revert H. apply (wide_paren _ _ WD). auto.
  Qed.
  Lemma ws_desc s : desc S s -> desc T s.
  Proof. apply (wide_other _ _ WD). auto. Qed.
  Lemma ws_flag k s : flag S k s -> flag T k s.
  Proof. apply ws_either; [auto|apply (wide_kw _ _ WD)]. Qed.
  Lemma ws_oids s : some_oids S s -> some_oids T s.
  Proof. intros (l & H). exists l. revert H. apply (wide_oids _ _ WD). Qed.
  Lemma ws_ruleids s : ruleids S s -> ruleids T s.
  Proof.
    intros (l & H). exists l. revert H. apply (wide_list _ _ WD); [|apply (wide_sp _ _ WD)].
    intros x t [-> H]. split; [reflexivity|now apply (w_number _ _ WD)].
  Qed.
  Lemma ws_ending s : ending S s -> ending T s.
  Proof. apply wide_cat; [apply W|]. intro t. apply wide_cat; [apply (wide_wsp _ _ WD)|auto]. Qed.
  Lemma ws_noidlen s : (exists o len, noidlen (dia S) o len s) -> exists o len, noidlen (dia T) o len s.
  Proof.
    intros (o & len & H). exists o, len. revert H. apply wide_cat; [intros t [-> H]; split; [reflexivity|now apply (wide_numericoid _ _ WD)]|].
    destruct len as [n|]; [|auto]. intro t. apply wide_cat; [auto|]. intro t2. apply wide_cat; [|auto].
    intros t3 [-> H]. split; [reflexivity|now apply (w_number _ _ WD)].
  Qed.
  Lemma ws_kind s : (exists k, kind_part (dia S) k s) -> exists k, kind_part (dia T) k s.
  Proof. intros (k & H). exists k. revert H. apply (wide_kind _ _ WD). Qed.
  Lemma ws_usage s : (exists u, keyword (dia S) (lit (usage_word u)) s) -> exists u, keyword (dia T) (lit (usage_word u)) s.
  Proof. intros (u & H). exists u. revert H. apply (w_keyword _ _ WD). Qed.
  Ltac wpiece := first
    [ apply (wide_wsp _ _ WD) | apply (wide_numericoid _ _ WD) | apply ws_names | apply ws_desc | apply ws_flag
    | apply (w_number _ _ WD) | apply W
    | (intro; apply (wide_other _ _ WD); first [apply ws_oids | apply (wide_oid _ _ WD) | apply ws_ruleids | apply ws_noidlen | apply ws_usage])
    | (intro; apply (wide_key _ _ WD); first [apply ws_oids | apply (wide_oid _ _ WD) | apply W])
    | apply ws_kind | solve [auto] ].
  Ltac wpieces := first [apply ws_ending | (apply wide_cat; [wpiece|let t := fresh "t" in intro t; revert t; try (intro; wpieces)])].
  Lemma wider_text d s : text S d s -> text T d s.
  Proof.
    destruct d; cbn [text]; unfold description, obsolete, need; change (either (is []) (kw (dia S) "OBSOLETE")) with (flag S "OBSOLETE");
      change (either (is []) (kw (dia T) "OBSOLETE")) with (flag T "OBSOLETE"); revert s;
      let rec go := first [exact ws_ending | (intro; apply wide_cat; [wpiece|go])] in go.
  Qed.
End Wider.
Lemma one_extension_wider D E : wider D E -> forall s, one_extension D s -> one_extension E s.
Proof.
  intros W s [->|H]; [now left|right]. revert H. apply wide_cat; [auto|]. intro t. apply wide_cat; [auto|]. intro t2. apply wide_cat; [auto|].
  apply (wide_qdstrings _ _ W).
Qed.
Lemma common_bare : wider common bare.
Proof. split; cbn; auto. intros s (c & r & -> & H & _). split; [discriminate|exact H]. Qed.
Lemma both_code : wider_style both_style code_style.
Proof.
  split; cbn [dia exts dit_obsolete rule_syntax content_may both_style code_style].
  - exact common_bare.
  - exact (one_extension_wider _ _ common_bare).
  - intros s H. left. exact H.
  - intros s H. exists [s]. left. exists s. split; [reflexivity|]. split; [reflexivity|]. right. exact (wide_numericoid _ _ common_bare s H).
  - auto.
Qed.
Lemma both_rfc : wider_style both_style rfc_style.
Proof.
  split; cbn [dia exts dit_obsolete rule_syntax content_may both_style rfc_style].
  - exact common_rfc.
  - intros s [->|H].
    + exists 0. split; [exact I|reflexivity].
    + exists 1. split; [exact I|]. destruct H as (a & b & -> & -> & x & c & -> & Hx & d & q & -> & -> & Hq).
      exists (lit " X-" ++ x ++ lit " " ++ q), []. split; [symmetry; apply app_nil_r|]. split; [|reflexivity].
      exists (lit " "), (lit "X-" ++ x ++ lit " " ++ q). split; [reflexivity|]. split; [split; [discriminate|constructor; [reflexivity|constructor]]|].
      exists (lit "X-"), (x ++ lit " " ++ q). split; [reflexivity|]. split; [reflexivity|].
      exists x, (lit " " ++ q). split; [reflexivity|]. split; [exact Hx|]. exists (lit " "), q. split; [reflexivity|].
      split; [split; [discriminate|constructor; [reflexivity|constructor]]|]. exact (wide_qdstrings _ _ common_rfc q Hq).
  - intros s H. left. exact H.
  - apply (wide_numericoid _ _ common_rfc).
  - intros s H. left. exact H.
Qed.
