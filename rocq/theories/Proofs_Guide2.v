(** * RFC criteria are taken; outcomes; whole values *)
From Verif Require Import PyBase Model_Prep Proofs_Prep Model_Uri Model_Regex Spec_Regex Proofs_Regex Spec_Search Proofs_Search2
  Model_Parse Spec_Parse Proofs_Parse Proofs_Parse2 Model_Syntax Spec_Syntax Proofs_Syntax Proofs_Syntax2 Model_Guide Spec_Guide Proofs_Guide.

(** ** Characters *)
Definition quiet (c : N) : Prop := c <> ch "(" /\ c <> ch ")" /\ c <> ch "|" /\ c <> ch "&" /\ c <> ch "!" /\ c <> ch "#" /\ py_isspace c = false.
Definition quietb (c : N) : bool :=
  negb (N.eqb c (ch "(")) && negb (N.eqb c (ch ")")) && negb (N.eqb c (ch "|")) && negb (N.eqb c (ch "&")) && negb (N.eqb c (ch "!")) && negb (N.eqb c (ch "#")) && negb (py_isspace c).
Lemma quietb_iff c : quietb c = true <-> quiet c.
Proof. unfold quietb, quiet. rewrite !andb_true_iff, !negb_true_iff, !N.eqb_neq. tauto. Qed.
Lemma quiet_list s : forallb quietb s = true -> Forall quiet s.
Proof. rewrite forallb_forall, Forall_forall. intros H c Hc. apply quietb_iff. auto. Qed.
Lemma quiet_keychar c : ALPHA c \/ DIGIT c \/ c = ch "-" -> quiet c.
Proof.
  unfold ALPHA, DIGIT, quiet. change (ch "(") with 40%N. change (ch ")") with 41%N. change (ch "|") with 124%N. change (ch "&") with 38%N. change (ch "!") with 33%N.
  change (ch "#") with 35%N. change (ch "-") with 45%N. intros H. repeat (split; [lia|]). unfold py_isspace, in_ranges, py_space_ranges. cbn [existsb fst snd]. lia.
Qed.
Lemma quiet_joined l : Forall (Forall DIGIT) l -> Forall quiet (joined (ch ".") l).
Proof.
  induction 1 as [|x [|y l] Hx Hl IH]; [constructor|revert Hx; apply Forall_impl; intros; apply quiet_keychar; auto|].
  change (joined (ch ".") (x :: y :: l)) with (x ++ ch "." :: joined (ch ".") (y :: l)). apply Forall_app. split; [revert Hx; apply Forall_impl; intros; apply quiet_keychar; auto|].
  constructor; [|exact IH]. apply quietb_iff. reflexivity.
Qed.
Lemma quiet_oid a : oid laurelin a -> Forall quiet a.
Proof.
  intros [(c & r & -> & Hc & Hr)|(l & _ & Hl & ->)].
  - constructor; [apply quiet_keychar; auto|]. revert Hr. apply Forall_impl. intros x. apply quiet_keychar.
  - apply quiet_joined. revert Hl. apply Forall_impl. intros x [_ Hx]. exact Hx.
Qed.
Lemma quiet_type m : match_type m -> Forall quiet m.
Proof. intros H. unfold match_type, word in H. cbn [map In] in H. repeat (destruct H as [<-|H]; [apply quiet_list; reflexivity|]). destruct H. Qed.
Lemma oid_code a : oid rfc4512 a -> oid laurelin a.
Proof.
  intros [H|(l & Hl & Hf & ->)]; [now left|right]. exists l. split; [exact Hl|]. split; [|reflexivity]. revert Hf. apply Forall_impl.
  intros x (c & r & -> & Hr & _). split; [discriminate|exact Hr].
Qed.
Lemma simple_quiet t : simple_term t -> Forall quiet t /\ t <> [].
Proof.
  intros [(a & y & -> & Ha & d & m & -> & -> & Hm)|[->| ->]].
  - split; [|destruct a; discriminate]. apply Forall_app. split; [now apply quiet_oid|]. constructor; [apply quietb_iff; reflexivity|now apply quiet_type].
  - split; [apply quiet_list; reflexivity|discriminate].
  - split; [apply quiet_list; reflexivity|discriminate].
Qed.

(** ** Criteria of the RFC *)
Lemma text_app a b : text_of (a ++ b) = text_of a ++ text_of b.
Proof. unfold text_of. now rewrite map_app, concat_app. Qed.
Lemma words_sep c a b : forall cur, words cur (a ++ Separator c :: b) = words cur a ++ words [] b.
Proof. induction a as [|[inner|d| |d] a IH]; intros cur; cbn [app words]; [reflexivity| | | |]; rewrite IH; reflexivity. Qed.
Lemma words_plain w : forall cur, words cur (map Plain w) = [cur ++ w].
Proof. induction w as [|c w IH]; intros cur; cbn [map words]; [now rewrite app_nil_r|]. rewrite IH, <- app_assoc. reflexivity. Qed.
Lemma text_plain w : text_of (map Plain w) = w.
Proof. induction w as [|c w IH]; [reflexivity|]. unfold text_of in *. cbn [map List.concat item_text app]. now rewrite IH. Qed.
Lemma scan_quiet w d : Forall quiet w -> scan d w = Some d.
Proof.
  induction 1 as [|c w (H1 & H2 & _) Hw IH]; [reflexivity|]. cbn [scan]. apply N.eqb_neq in H1, H2. now rewrite H1, H2.
Qed.
Lemma balanced_app a b : balanced a -> balanced b -> balanced (a ++ b).
Proof. rewrite !balanced_scan. intros Ha Hb. now rewrite scan_app, Ha. Qed.
Lemma balanced_quiet w : Forall quiet w -> balanced w.
Proof. intros H. apply balanced_scan. now apply scan_quiet. Qed.
Lemma balanced_paren t : balanced t -> balanced (lit "(" ++ t ++ lit ")").
Proof.
  rewrite !balanced_scan. intros H. change (scan 0 (lit "(" ++ t ++ lit ")")) with (scan 1 (t ++ lit ")")). rewrite scan_app.
  assert (X : scan 1 t = Some 1) by exact (scan_mono t 0 0 1 H). rewrite X. reflexivity.
Qed.
Definition calm (c : N) : Prop := c <> ch "#" /\ py_isspace c = false.
Definition reads (t : str) : Prop := balanced t /\ t <> [] /\ Forall calm t /\
  exists l N, t = text_of l /\ Forall loose_word (words [] l) /\ forall n, N <= n -> Forall (ok_item (loose n)) l.
Lemma calm_quiet w : Forall quiet w -> Forall calm w.
Proof. apply Forall_impl. unfold quiet, calm. tauto. Qed.
Lemma calm_list s : forallb (fun c => negb (N.eqb c (ch "#")) && negb (py_isspace c)) s = true -> Forall calm s.
Proof. rewrite forallb_forall, Forall_forall. intros H c Hc. specialize (H c Hc). rewrite andb_true_iff, !negb_true_iff, N.eqb_neq in H. exact H. Qed.
Lemma reads_simple w : simple_term w -> reads w.
Proof.
  intros H. destruct (simple_quiet w H) as [Hq Hn]. split; [now apply balanced_quiet|]. split; [exact Hn|]. split; [now apply calm_quiet|].
  exists (map Plain w), 0. split; [now rewrite text_plain|]. rewrite words_plain. split.
  - constructor; [|constructor]. right. exists w, []. rewrite app_nil_r. auto.
  - intros n _. rewrite Forall_map. revert Hq. apply Forall_impl. cbn [ok_item]. unfold quiet. tauto.
Qed.
Lemma reads_sep c a b : c = ch "|" \/ c = ch "&" -> reads a -> reads b -> reads (a ++ [c] ++ b).
Proof.
  intros Hc (Ba & Na & Ca & la & n1 & -> & Wa & Ia) (Bb & Nb & Cb & lb & n2 & -> & Wb & Ib).
  assert (Q : balanced [c]) by (apply balanced_scan; destruct Hc as [-> | ->]; reflexivity).
  split; [now apply balanced_app; [|apply balanced_app]|]. split; [destruct (text_of la); discriminate|]. split.
  { rewrite !Forall_app. split; [exact Ca|]. split; [|exact Cb]. destruct Hc as [-> | ->]; apply calm_list; reflexivity. }
  exists (la ++ Separator c :: lb), (Nat.max n1 n2). split; [now rewrite text_app|]. split; [rewrite words_sep; now apply Forall_app|].
  intros n Hn. apply Forall_app. split; [apply Ia; lia|]. constructor; [exact Hc|apply Ib; lia].
Qed.
Scheme criteria_ind3 := Minimality for criteria Sort Prop
  with and_term_ind3 := Minimality for and_term Sort Prop
  with term_ind3 := Minimality for term Sort Prop.
Combined Scheme rfc_criteria_ind from criteria_ind3, and_term_ind3, term_ind3.
Lemma loose_of l n : Forall loose_word (words [] l) -> Forall (ok_item (loose n)) l -> loose (S n) (text_of l).
Proof. intros Hw Hl. cbn [loose]. exists l. split; [reflexivity|]. split; [exact Hw|exact Hl]. Qed.
Lemma rfc_reads : (forall t, criteria t -> reads t) /\ (forall t, and_term t -> reads t) /\ (forall t, term t -> reads t).
Proof.
  apply rfc_criteria_ind.
  - auto.
  - intros a t _ Ha _ Ht. apply (reads_sep (ch "|")); auto.
  - auto.
  - intros a t _ Ha _ Ht. apply (reads_sep (ch "&")); auto.
  - intros t _ (B & Nt & C & l & n & -> & W & I). assert (Q : balanced (lit "!")) by (apply balanced_scan; reflexivity).
    split; [now apply balanced_app|]. split; [discriminate|]. split; [apply Forall_app; split; [apply calm_list; reflexivity|exact C]|].
    exists (Exclaim :: l), n. split; [reflexivity|]. split; [exact W|]. intros k Hk. constructor; [exact Logic.I|auto].
  - intros a m Ha Hm. apply reads_simple. left. exists a, (lit "$" ++ m). split; [reflexivity|]. split; [now apply oid_code|]. exists (lit "$"), m. split; [reflexivity|]. split; [reflexivity|exact Hm].
  - intros t _ (B & Nt & C & l & n & -> & W & I). split; [now apply balanced_paren|]. split; [discriminate|]. split.
    { rewrite !Forall_app. split; [apply calm_list; reflexivity|]. split; [exact C|apply calm_list; reflexivity]. }
    exists [Group (text_of l)], (S n). split; [unfold text_of at 2; cbn [map List.concat item_text]; now rewrite app_nil_r|]. split; [repeat constructor|].
    intros [|k] Hk; [lia|]. constructor; [|constructor]. cbn [ok_item]. split; [exact B|]. apply loose_of; [exact W|]. apply I. lia.
  - apply reads_simple. right. now left.
  - apply reads_simple. right. now right.
Qed.
Lemma reads_loose t : reads t -> exists n0, forall n, n0 <= n -> loose n t.
Proof. intros (_ & _ & _ & l & n0 & -> & W & I). exists (S n0). intros [|n] Hn; [lia|]. apply loose_of; [exact W|]. apply I. lia. Qed.

(** ** Outcomes *)
Lemma loop_outcome nested (Bad : exn -> Prop) n : forall s cur, List.length s <= n ->
  Bad InvalidSyntaxError ->
  (forall inner, balanced inner -> (exists p q, s = p ++ ch "(" :: inner ++ ch ")" :: q) -> nested inner = Ok tt \/ exists x, Bad x /\ nested inner = Raise x) ->
  (forall p q, s = p ++ ch "(" :: q -> (forall a b, q = a ++ b -> count (ch ")") a <= count (ch "(") a) -> Bad ValueError) ->
  criteria_loop nested s 0 cur = Ok tt \/ exists x, Bad x /\ criteria_loop nested s 0 cur = Raise x.
Proof.
  induction n as [|n IH]; intros s cur Hn Bi Hne Hv.
  - destruct s; [|cbn in Hn; lia]. cbn [criteria_loop]. destruct (check_term_outcome cur) as [->| ->]; eauto.
  - destruct s as [|c s]; [cbn [criteria_loop]; destruct (check_term_outcome cur) as [->| ->]; eauto|]. cbn [List.length] in Hn.
    assert (Suf : forall u r, c :: s = u ++ r -> List.length r <= n -> forall cur', criteria_loop nested r 0 cur' = Ok tt \/ exists x, Bad x /\ criteria_loop nested r 0 cur' = Raise x).
    { intros u r E Hr cur'. apply IH; [exact Hr|exact Bi| |].
      - intros inner Hb (p & q & ->). apply Hne; [exact Hb|]. exists (u ++ p), q. rewrite E. now rewrite <- app_assoc.
      - intros p q -> Hq. apply (Hv (u ++ p) q); [rewrite E; now rewrite <- app_assoc|exact Hq]. }
    destruct (N.eq_dec c (ch "(")) as [->|Hc].
    + destruct (find_closing_paren (ch "(" :: s)) as [e|x] eqn:E.
      * apply find_ok in E as (inner & rest & -> & Hb & ->). rewrite (loop_group _ _ _ _ Hb).
        destruct (Hne inner Hb) as [->|(x & Hx & ->)]; [exists [], rest; reflexivity| |right; exists x; split; [exact Hx|reflexivity]].
        cbn [bind]. apply (Suf (ch "(" :: inner ++ [ch ")"])); [cbn [app]; now rewrite <- app_assoc|]. rewrite app_length in Hn. cbn in Hn. lia.
      * right. exists x. pose proof E as E'. apply find_raises in E' as [-> H]. split; [apply (Hv [] s eq_refl H)|].
        cbn [criteria_loop]. change (N.eqb (ch "(") (ch "(")) with true. cbv iota. now rewrite E.
    + rewrite loop_other by exact Hc. assert (T : List.length s <= n) by lia. specialize (Suf [c] s eq_refl T).
      destruct (N.eqb c (ch "|") || N.eqb c (ch "&")); [|destruct (N.eqb c (ch "!")); apply Suf].
      destruct (check_term_outcome cur) as [->| ->]; cbn [bind]; [apply Suf|]. right. eauto.
Qed.
(** enough depth: more than the opened parentheses *)
Lemma criteria_outcome (Bad : exn -> Prop) depth : Bad InvalidSyntaxError -> forall s, count (ch "(") s < depth -> (~ balanced s -> Bad ValueError) ->
  validate_criteria depth s = Ok tt \/ exists x, Bad x /\ validate_criteria depth s = Raise x.
Proof.
  intros Bi. induction depth as [|d IH]; intros s Hd Hb; [lia|]. cbn [validate_criteria]. apply (loop_outcome _ Bad (List.length s)); [lia|exact Bi| |].
  - intros inner Hi (p & q & ->). apply IH; [|intros H; contradiction]. rewrite !count_app, !count_cons, !count_app in Hd. change (ch "(" =? ch "(")%N with true in Hd. cbv iota in Hd. lia.
  - intros p q -> Hq. apply Hb. intros [Hc Hp]. specialize (Hq q [] ltac:(now rewrite app_nil_r)). unfold closed in Hc. specialize (Hp p _ eq_refl).
    rewrite !count_app, !count_cons in Hc. change (ch "(" =? ch "(")%N with true in Hc. change (ch ")" =? ch "(")%N with false in Hc. cbv iota in Hc. lia.
Qed.
Lemma criteria_any_outcome depth : forall s, validate_criteria depth s = Ok tt \/ exists x, In x [InvalidSyntaxError; ValueError; RecursionError] /\ validate_criteria depth s = Raise x.
Proof.
  induction depth as [|d IH]; intros s; [right; exists RecursionError; split; [cbn; tauto|reflexivity]|]. cbn [validate_criteria].
  apply (loop_outcome _ (fun x => In x [InvalidSyntaxError; ValueError; RecursionError]) (List.length s)); [lia|cbn; tauto|intros; apply IH|intros; cbn; tauto].
Qed.

(** ** Whole values *)
Lemma tight_iff t : (ends_ok py_isspace t /\ ends_ok py_isspace (rev t)) <->
  (forall c r, t = c :: r -> py_isspace c = false) /\ (forall c r, t = r ++ [c] -> py_isspace c = false).
Proof.
  split.
  - intros [H1 H2]. split; [intros c r ->; exact H1|]. intros c r ->. rewrite rev_app_distr in H2. exact H2.
  - intros [H1 H2]. split; [destruct t as [|c t]; [exact I|exact (H1 c t eq_refl)]|]. destruct (rev t) as [|c r] eqn:E; [exact I|]. cbn. apply (H2 c (rev r)).
    apply (f_equal (@rev N)) in E. rewrite rev_involutive in E. exact E.
Qed.
Lemma stripped_iff (A : lang) s : stripped A s <-> A (py_strip s).
Proof.
  split.
  - intros (u & t & v & -> & Hu & Hv & Ht & T). apply tight_iff in T as [T1 T2]. unfold py_strip. now rewrite (strip_core _ u t v Hu Hv T1 T2).
  - intros H. destruct (strip_decomp py_isspace s) as (a & core & b & Es & Ec & Ha & Hb & T1 & T2). exists a, core, b. split; [exact Es|]. split; [exact Ha|]. split; [exact Hb|].
    unfold py_strip in H. rewrite Ec in H. split; [exact H|]. apply tight_iff. split; assumption.
Qed.
Lemma L_class : is_lang robject_class (spaces ;; oid laurelin ;; spaces).
Proof.
  assert (W : is_lang rWSP spaces).
  { apply L_all. intros c. rewrite N.eqb_eq. split; intros; subst; reflexivity. }
  apply L_cat; [exact W|]. apply L_cat; [exact L_oid|exact W].
Qed.
Lemma class_prefix s : some_prefix (spaces ;; oid laurelin ;; spaces) s <-> loose_class s.
Proof.
  split.
  - intros (t & e & -> & u & y & -> & Hu & o & v & -> & Ho & _). exists (u ++ o), (v ++ e). rewrite <- !app_assoc. split; [reflexivity|]. exists u, o. auto.
  - intros (t & e & -> & u & o & -> & Hu & Ho). exists (u ++ o), e. split; [reflexivity|]. exists u, o. split; [reflexivity|]. split; [exact Hu|]. exists o, []. rewrite app_nil_r. repeat split; auto. constructor.
Qed.
Lemma class_iff s : (exists c, match_prefix robject_class s = Some c) <-> loose_class s.
Proof. rewrite (prefix_iff _ _ s L_class). apply class_prefix. Qed.
Lemma split3 s a b c : py_split (lit "#") s = [a; b; c] <-> s = a ++ lit "#" ++ b ++ lit "#" ++ c /\ ~ In (ch "#") a /\ ~ In (ch "#") b /\ ~ In (ch "#") c.
Proof.
  change (lit "#") with [ch "#"]. split.
  - intros E. destruct (decomposes (ch "#") s) as (l & Hn & Hf & ->). rewrite (split_joined _ _ Hn Hf) in E. subst l. inversion Hf as [|? ? H1 Hf2]; inversion Hf2 as [|? ? H2 Hf3]; inversion Hf3; subst. auto.
  - intros (-> & Ha & Hb & Hc). apply (split_joined (ch "#") [a; b; c]); [discriminate|]. repeat constructor; assumption.
Qed.
Lemma split2 s a b : py_split (lit "#") s = [a; b] <-> s = a ++ lit "#" ++ b /\ ~ In (ch "#") a /\ ~ In (ch "#") b.
Proof.
  change (lit "#") with [ch "#"]. split.
  - intros E. destruct (decomposes (ch "#") s) as (l & Hn & Hf & ->). rewrite (split_joined _ _ Hn Hf) in E. subst l. inversion Hf as [|? ? H1 Hf2]; inversion Hf2 as [|? ? H2 Hf3]; subst. auto.
  - intros (-> & Ha & Hb). apply (split_joined (ch "#") [a; b]); [discriminate|]. repeat constructor; assumption.
Qed.
