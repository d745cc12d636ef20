(** * C46: matching parentheses; C67: Guide and Enhanced Guide values *)
From Verif Require Import PyBase Model_Prep Proofs_Prep Model_Uri Model_Regex Spec_Regex Proofs_Regex Spec_Search Proofs_Search2
  Model_Parse Spec_Parse Model_Syntax Spec_Syntax Proofs_Syntax Proofs_Syntax2 Model_Guide Spec_Guide Proofs_Guide Proofs_Guide2.

(** ** C46 *)
Lemma open_prefix s p q : s = p ++ q -> count (ch ")") p <= count (ch "(") p -> ~ closed (ch "(" :: p).
Proof. intros _ H. unfold closed. rewrite !count_cons. change (ch ")" =? ch "(")%N with false. change (ch "(" =? ch "(")%N with true. cbv iota. lia. Qed.
Lemma found_least text i : (exists s, text = ch "(" :: s) -> find_closing_paren text = Ok i ->
  i < List.length text /\ balanced (firstn (S i) text) /\ forall j, j < i -> ~ closed (firstn (S j) text).
Proof.
  intros [s ->] H. apply find_ok in H as (inner & rest & -> & Hb & ->). split; [cbn [List.length]; rewrite app_length; cbn; lia|]. split.
  - assert (E : firstn (S (List.length inner + 1)) (ch "(" :: inner ++ ch ")" :: rest) = lit "(" ++ inner ++ lit ")").
    { cbn [firstn]. change (inner ++ ch ")" :: rest) with (inner ++ [ch ")"] ++ rest). rewrite app_assoc, firstn_app.
      replace (List.length inner + 1) with (List.length (inner ++ [ch ")"])) by (rewrite app_length; reflexivity). rewrite Nat.sub_diag, firstn_all, firstn_O, app_nil_r. reflexivity. }
    rewrite E. now apply balanced_paren.
  - intros j Hj. cbn [firstn]. rewrite firstn_app. replace (j - List.length inner) with 0 by lia. rewrite firstn_O, app_nil_r. destruct Hb as [_ Hb].
    apply (open_prefix inner _ (skipn j inner)); [now rewrite firstn_skipn|]. apply (Hb _ (skipn j inner)). now rewrite firstn_skipn.
Qed.
Lemma missing_open text x : (exists s, text = ch "(" :: s) -> find_closing_paren text = Raise x ->
  x = ValueError /\ forall j, j < List.length text -> ~ closed (firstn (S j) text).
Proof.
  intros [s ->] H. apply find_raises in H as [-> H]. split; [reflexivity|]. intros j Hj. cbn [firstn]. apply (open_prefix s _ (skipn j s)); [now rewrite firstn_skipn|].
  apply (H _ (skipn j s)). now rewrite firstn_skipn.
Qed.
(** The index returned is that of the first character at which as many parentheses are closed as
    were opened, and the text up to there is balanced. *)
Theorem C46_closing_paren text i : (exists s, text = ch "(" :: s) ->
  (find_closing_paren text = Ok i <->
   i < List.length text /\ closed (firstn (S i) text) /\ forall j, j < i -> ~ closed (firstn (S j) text)) /\
  (find_closing_paren text = Ok i -> balanced (firstn (S i) text)).
Proof.
  intros Ht. split; [|intros H; now apply found_least in H]. split.
  - intros H. apply found_least in H as (H1 & [H2 _] & H3); auto.
  - intros (H1 & H2 & H3). destruct (find_closing_paren text) as [k|x] eqn:E.
    + apply found_least in E as (K1 & [K2 _] & K3); [|exact Ht]. f_equal. destruct (Nat.lt_trichotomy k i) as [L|[->|L]]; [now elim (H3 k L)|reflexivity|now elim (K3 i L)].
    + apply missing_open in E as [_ E]; [|exact Ht]. now elim (E i H1).
Qed.
(** Otherwise ValueError, exactly if no prefix closes all its parentheses. *)
Theorem C46_missing_paren text : (exists s, text = ch "(" :: s) ->
  (find_closing_paren text = Raise ValueError <-> forall i, i < List.length text -> ~ closed (firstn (S i) text)) /\
  (forall x, find_closing_paren text = Raise x -> x = ValueError).
Proof.
  intros Ht. split; [|intros x H; now apply missing_open in H]. split; [intros H; now apply missing_open in H|].
  intros H. destruct (find_closing_paren text) as [k|x] eqn:E; [|now apply missing_open in E as [-> _]].
  apply found_least in E as (K1 & [K2 _] & _); [|exact Ht]. now elim (H k K1).
Qed.
Theorem C46_not_open c s : c <> ch "(" -> find_closing_paren (c :: s) = Raise ValueError.
Proof. intros H. cbn [find_closing_paren]. apply N.eqb_neq in H. now rewrite H. Qed.
Theorem C46_empty : find_closing_paren [] = Raise IndexError.
Proof. reflexivity. Qed.
Example C46_nonvacuous :
  find_closing_paren (lit "(a(b)(c(d)))e)") = Ok 11 /\ find_closing_paren (lit "((a)") = Raise ValueError /\ balanced (lit "(a(b)(c(d)))").
Proof. split; [vm_compute; reflexivity|]. split; [vm_compute; reflexivity|]. apply balanced_scan. vm_compute. reflexivity. Qed.

(** ** C67 *)
(** What is accepted, exactly. *)
Theorem C67_enhanced_guide_partial depth s : enhanced_guide depth (Text s) = Ok tt <-> loose_enhanced_guide depth s.
Proof.
  unfold enhanced_guide, loose_enhanced_guide. split.
  - destruct (py_split (lit "#") s) as [|a [|b [|c [|d l]]]] eqn:E; try discriminate. apply split3 in E as (-> & Ha & Hb & Hc).
    destruct (match_prefix robject_class a) as [g|] eqn:Eg; [|discriminate]. destruct (smem (py_strip c) subsets) eqn:Es; [|discriminate].
    intros H. exists a. eexists. split; [reflexivity|]. split; [split; [apply class_iff; eauto|exact Ha]|]. exists (lit "#"). eexists. split; [reflexivity|]. split; [reflexivity|].
    exists b. eexists. split; [reflexivity|]. split; [split; [apply stripped_iff; now apply criteria_iff|exact Hb]|]. exists (lit "#"), c. split; [reflexivity|]. split; [reflexivity|].
    apply stripped_iff. now apply smem_In.
  - intros (a & y & -> & [Ha Na] & h & y1 & -> & -> & b & y2 & -> & [Hb Nb] & h2 & c & -> & -> & Hc).
    assert (Nc : ~ In (ch "#") c).
    { destruct Hc as (u & t & v & -> & Hu & Hv & Ht & _). rewrite !in_app_iff. intros [H|[H|H]].
      - rewrite Forall_forall in Hu. apply Hu in H. discriminate.
      - unfold word in Ht. cbn [map In] in Ht.
        assert (X : forallb (fun x => negb (N.eqb x (ch "#"))) t = true) by (repeat (destruct Ht as [<-|Ht]; [reflexivity|]); destruct Ht).
        rewrite forallb_forall in X. specialize (X _ H). discriminate.
      - rewrite Forall_forall in Hv. apply Hv in H. discriminate. }
    rewrite (proj2 (split3 _ a b c)) by auto. apply class_iff in Ha as [g Eg]. rewrite Eg. apply stripped_iff in Hc. apply smem_In in Hc.
    change (map lit ["baseobject"; "oneLevel"; "wholeSubtree"]%string) with subsets in Hc. rewrite Hc. apply stripped_iff in Hb. now apply criteria_iff.
Qed.
Theorem C67_guide_partial depth s : guide depth (Text s) = Ok tt <-> loose_guide depth s.
Proof.
  unfold guide, loose_guide. split.
  - destruct (py_split (lit "#") s) as [|a [|b [|c l]]] eqn:E; try discriminate. apply split2 in E as (-> & Ha & Hb).
    destruct (match_prefix robject_class a) as [g|] eqn:Eg; [|discriminate].
    intros H. exists a. eexists. split; [reflexivity|]. split; [split; [apply class_iff; eauto|exact Ha]|]. exists (lit "#"), b. split; [reflexivity|]. split; [reflexivity|].
    split; [apply stripped_iff; now apply criteria_iff|exact Hb].
  - intros (a & y & -> & [Ha Na] & h & b & -> & -> & [Hb Nb]).
    rewrite (proj2 (split2 _ a b)) by auto. apply class_iff in Ha as [g Eg]. rewrite Eg. apply stripped_iff in Hb. now apply criteria_iff.
Qed.

(** Every value of the RFC with an object class is accepted, if the recursion limit allows its
    nesting. *)
Lemma spaces_white u : spaces u -> Forall (fun c => py_isspace c = true) u.
Proof. apply Forall_impl. intros c ->. reflexivity. Qed.
Lemma spaces_sharp u : spaces u -> ~ In (ch "#") u.
Proof. unfold spaces, all. rewrite Forall_forall. intros H Hi. apply H in Hi. discriminate. Qed.
Lemma calm_sharp t : Forall calm t -> ~ In (ch "#") t.
Proof. rewrite Forall_forall. intros H Hi. apply H in Hi as [Hi _]. congruence. Qed.
Lemma calm_stripped (A : lang) u t v : spaces u -> spaces v -> Forall calm t -> A t -> stripped A (u ++ t ++ v).
Proof.
  intros Hu Hv Hc Ht. exists u, t, v. split; [reflexivity|]. split; [now apply spaces_white|]. split; [now apply spaces_white|]. split; [exact Ht|]. rewrite Forall_forall in Hc.
  split; [intros c r ->; apply Hc; now left|]. intros c r ->. apply Hc. apply in_app_iff. right. now left.
Qed.
Lemma class_loose a : object_class a -> loose_class a /\ ~ In (ch "#") a.
Proof.
  intros (u & y & -> & Hu & o & v & -> & Ho & Hv). apply oid_code in Ho. split.
  - exists (u ++ o), v. rewrite <- app_assoc. split; [reflexivity|]. exists u, o. auto.
  - rewrite !in_app_iff. intros [H|[H|H]]; [now apply (spaces_sharp u)|apply quiet_oid, calm_quiet, calm_sharp in Ho; contradiction|now apply (spaces_sharp v)].
Qed.
Theorem C67_enhanced_guide_rfc s : rfc_enhanced_guide s -> exists n0, forall depth, n0 <= depth -> enhanced_guide depth (Text s) = Ok tt.
Proof.
  intros (a & y & -> & Ha & h & y1 & -> & -> & b & y2 & -> & Hb & h2 & y3 & -> & -> & w & c & -> & Hw & Hc). destruct Hb as (u & y & -> & Hu & t & v & -> & Ht & Hv).
  apply (proj1 rfc_reads) in Ht. pose proof Ht as (_ & _ & Ct & _). apply reads_loose in Ht as [n0 Ht]. exists n0. intros depth Hd.
  apply C67_enhanced_guide_partial. apply class_loose in Ha as [Ha Na]. exists a. eexists. split; [reflexivity|]. split; [split; assumption|].
  exists (lit "#"). eexists. split; [reflexivity|]. split; [reflexivity|]. exists (u ++ t ++ v). eexists. split; [reflexivity|]. split.
  - split; [now apply calm_stripped; auto|]. rewrite !in_app_iff. intros [H|[H|H]]; [now apply (spaces_sharp u)|now apply (calm_sharp t)|now apply (spaces_sharp v)].
  - exists (lit "#"). eexists. split; [reflexivity|]. split; [reflexivity|]. rewrite <- (app_nil_r c). apply calm_stripped; [exact Hw|constructor| |exact Hc].
    unfold word in Hc. cbn [map In] in Hc. repeat (destruct Hc as [<-|Hc]; [apply calm_list; reflexivity|]). destruct Hc.
Qed.
Theorem C67_guide_rfc_partial s : rfc_guide True s -> exists n0, forall depth, n0 <= depth -> guide depth (Text s) = Ok tt.
Proof.
  intros [(a & y & -> & Ha & h & t & -> & -> & Ht)|[H _]]; [|now elim H].
  apply (proj1 rfc_reads) in Ht. pose proof Ht as (_ & _ & Ct & _). apply reads_loose in Ht as [n0 Ht]. exists n0. intros depth Hd.
  apply C67_guide_partial. apply class_loose in Ha as [Ha Na]. exists a. eexists. split; [reflexivity|]. split; [split; assumption|].
  exists (lit "#"), t. split; [reflexivity|]. split; [reflexivity|]. split; [|now apply calm_sharp].
  rewrite <- (app_nil_l t), <- (app_nil_r t). apply calm_stripped; auto; constructor.
Qed.

(** Anything else: InvalidSyntaxError, or ValueError if the parentheses of the criteria do not
    match. *)
Lemma white_scan u d : Forall (fun c => py_isspace c = true) u -> scan d u = Some d.
Proof.
  induction 1 as [|c u Hc Hu IH]; [reflexivity|]. cbn [scan]. destruct (N.eqb_spec c (ch "(")) as [->|_]; [discriminate|]. destruct (N.eqb_spec c (ch ")")) as [->|_]; [discriminate|]. exact IH.
Qed.
Lemma strip_balanced s : balanced (py_strip s) <-> balanced s.
Proof.
  destruct (strip_decomp py_isspace s) as (a & core & b & Es & Ec & Ha & Hb & _). unfold py_strip. rewrite Ec, !balanced_scan, Es, !scan_app, (white_scan a 0 Ha). cbv beta iota. rewrite scan_app.
  destruct (scan 0 core) as [e|]; [rewrite (white_scan b e Hb); reflexivity|reflexivity].
Qed.
Lemma strip_count c s : py_isspace c = false -> count c (py_strip s) = count c s.
Proof.
  intros Hc. destruct (strip_decomp py_isspace s) as (a & core & b & Es & Ec & Ha & Hb & _). unfold py_strip. rewrite Ec, Es, !count_app.
  assert (Z : forall u, Forall (fun c => py_isspace c = true) u -> count c u = 0).
  { induction 1 as [|x u Hx Hu IH]; [reflexivity|]. rewrite count_cons, IH. destruct (N.eqb_spec c x) as [->|_]; [congruence|reflexivity]. }
  rewrite (Z a Ha), (Z b Hb). lia.
Qed.
Theorem C67_outcome depth s : count (ch "(") s < depth ->
  (enhanced_guide depth (Text s) = Ok tt \/ enhanced_guide depth (Text s) = Raise InvalidSyntaxError \/
   enhanced_guide depth (Text s) = Raise ValueError /\ exists a b c, s = a ++ lit "#" ++ b ++ lit "#" ++ c /\ ~ balanced b) /\
  (guide depth (Text s) = Ok tt \/ guide depth (Text s) = Raise InvalidSyntaxError \/
   guide depth (Text s) = Raise ValueError /\ exists a b, s = a ++ lit "#" ++ b /\ ~ balanced b).
Proof.
  intros Hd.
  assert (K : forall b, count (ch "(") b <= count (ch "(") s -> validate_criteria depth (py_strip b) = Ok tt \/ validate_criteria depth (py_strip b) = Raise InvalidSyntaxError \/
      validate_criteria depth (py_strip b) = Raise ValueError /\ ~ balanced b).
  { intros b Hb. destruct (criteria_outcome (fun x => x = InvalidSyntaxError \/ x = ValueError /\ ~ balanced b) depth (or_introl eq_refl) (py_strip b)) as [H|(x & [->|[-> Hn]] & H)]; auto.
    - rewrite strip_count by reflexivity. lia.
    - intros H. right. split; [reflexivity|]. now rewrite strip_balanced in H. }
  split.
  - unfold enhanced_guide. destruct (py_split (lit "#") s) as [|a [|b [|c [|d l]]]] eqn:E; auto. apply split3 in E as (-> & _).
    destruct (match_prefix robject_class a); auto. destruct (smem (py_strip c) subsets); auto. destruct (K b) as [H|[H|[H Hn]]]; auto.
    + rewrite !count_app. lia.
    + right. right. split; [exact H|]. exists a, b, c. auto.
  - unfold guide. destruct (py_split (lit "#") s) as [|a [|b [|c l]]] eqn:E; auto. apply split2 in E as (-> & _).
    destruct (match_prefix robject_class a); auto. destruct (K b) as [H|[H|[H Hn]]]; auto.
    + rewrite !count_app. lia.
    + right. right. split; [exact H|]. exists a, b. auto.
Qed.
(** Without a bound on the depth: nothing but these. *)
Theorem C67_any_outcome depth s x :
  enhanced_guide depth (Text s) = Raise x \/ guide depth (Text s) = Raise x -> In x [InvalidSyntaxError; ValueError; RecursionError].
Proof.
  assert (K : forall b, validate_criteria depth b = Raise x -> In x [InvalidSyntaxError; ValueError; RecursionError]).
  { intros b H. destruct (criteria_any_outcome depth b) as [E|(y & Hy & E)]; congruence. }
  intros [H|H].
  - unfold enhanced_guide in H. destruct (py_split (lit "#") s) as [|a [|b [|c [|d l]]]]; try (injection H as <-; cbn; tauto).
    destruct (match_prefix robject_class a); [|injection H as <-; cbn; tauto]. destruct (smem (py_strip c) subsets); [|injection H as <-; cbn; tauto]. now apply K in H.
  - unfold guide in H. destruct (py_split (lit "#") s) as [|a [|b [|c l]]]; try (injection H as <-; cbn; tauto).
    destruct (match_prefix robject_class a); [|injection H as <-; cbn; tauto]. now apply K in H.
Qed.

(** ** The full claim (exactly the values of the RFC, InvalidSyntaxError otherwise) is refuted *)
Ltac piece x := exists x; eexists; split; [reflexivity|]; split.
Lemma descr_of c r : ALPHA c -> forallb (fun c => in_ranges keychar_ranges c) r = true -> oid rfc4512 (c :: r).
Proof. intros Hc H. left. exists c, r. split; [reflexivity|]. split; [exact Hc|]. rewrite forallb_forall in H. apply Forall_forall. intros x Hx. apply Proofs_Parse.in_keychar. auto. Qed.
Lemma sn_eq : term (lit "sn$EQ").
Proof. apply (term_match (lit "sn") (lit "EQ")); [apply descr_of; [right; split; discriminate|reflexivity]|now left]. Qed.
(** the object class is optional, but the code wants it *)
Theorem C67_refuted_guide_no_class : rfc_guide False (lit "sn$EQ") /\ forall depth, guide depth (Text (lit "sn$EQ")) = Raise InvalidSyntaxError.
Proof. split; [right; split; [tauto|apply criteria_one, and_one, sn_eq]|intros; vm_compute; reflexivity]. Qed.
(** a missing parenthesis is reported as ValueError *)
Theorem C67_refuted_exception : forall depth, enhanced_guide (S depth) (Text (lit "person#(sn$EQ#oneLevel")) = Raise ValueError.
Proof. intros. vm_compute. reflexivity. Qed.
(** no criteria at all are accepted *)
Theorem C67_refuted_empty : ~ rfc_enhanced_guide (lit "person##oneLevel") /\ forall depth, enhanced_guide (S depth) (Text (lit "person##oneLevel")) = Ok tt.
Proof.
  split; [|intros; vm_compute; reflexivity]. intros (a & y & E & Ha & h & y1 & -> & -> & b & y2 & -> & Hb & h2 & y3 & -> & -> & w & c & -> & Hw & Hc).
  destruct Hb as (u & y & -> & Hu & t & v & -> & Ht & Hv). apply (proj1 rfc_reads) in Ht as (_ & Nt & Ct & _). apply class_loose in Ha as [_ Na].
  assert (Nc : ~ In (ch "#") (w ++ c)).
  { rewrite in_app_iff. intros [H|H]; [now apply (spaces_sharp w)|]. unfold word in Hc. cbn [map In] in Hc.
    assert (X : forallb (fun x => negb (N.eqb x (ch "#"))) c = true) by (repeat (destruct Hc as [<-|Hc]; [reflexivity|]); destruct Hc).
    rewrite forallb_forall in X. specialize (X _ H). discriminate. }
  assert (S : py_split (lit "#") (lit "person##oneLevel") = [a; u ++ t ++ v; w ++ c]).
  { rewrite E. apply split3. split; [reflexivity|]. split; [exact Na|]. split; [|exact Nc]. rewrite !in_app_iff.
    intros [H|[H|H]]; [now apply (spaces_sharp u)|now apply (calm_sharp t)|now apply (spaces_sharp v)]. }
  assert (S' : py_split (lit "#") (lit "person##oneLevel") = [lit "person"; []; lit "oneLevel"]) by (vm_compute; reflexivity). rewrite S' in S. injection S as _ S _.
  symmetry in S. apply app_eq_nil in S as [_ S]. apply app_eq_nil in S as [S _]. contradiction.
Qed.
(** anything may follow a term *)
Lemma rfc_chars (P : N -> Prop) : (forall c, ALPHA c \/ DIGIT c \/ In c (lit "-.$?|&!()") -> P c) ->
  (forall t, criteria t -> Forall P t) /\ (forall t, and_term t -> Forall P t) /\ (forall t, term t -> Forall P t).
Proof.
  intros H. assert (O : forall c, In c (lit "-.$?|&!()") -> P c) by auto. assert (A : forall c, ALPHA c \/ DIGIT c \/ c = ch "-" -> P c).
  { intros c [Hc|[Hc| ->]]; apply H; auto. right. right. now left. }
  assert (W : forall s, Forall ALPHA s -> Forall P s) by (intros s; apply Forall_impl; auto).
  assert (AL : forall s, forallb (in_ranges alpha_ranges) s = true -> Forall P s).
  { intros s Hs. apply W. rewrite forallb_forall in Hs. apply Forall_forall. intros c Hc. apply Proofs_Parse.in_alpha. auto. }
  assert (One : forall c, In c (lit "-.$?|&!()") -> Forall P [c]) by (intros c Hc; constructor; [auto|constructor]).
  apply rfc_criteria_ind.
  - auto.
  - intros a t _ Ha _ Ht. rewrite !Forall_app. split; [exact Ha|]. split; [apply One; cbn; tauto|exact Ht].
  - auto.
  - intros a t _ Ha _ Ht. rewrite !Forall_app. split; [exact Ha|]. split; [apply One; cbn; tauto|exact Ht].
  - intros t _ Ht. rewrite !Forall_app. split; [apply One; cbn; tauto|exact Ht].
  - intros a m Ha Hm. rewrite !Forall_app. split; [|split; [apply One; cbn; tauto|]].
    + destruct Ha as [(c & r & -> & Hc & Hr)|(l & _ & Hl & ->)]; [constructor; [auto|revert Hr; apply Forall_impl; auto]|].
      induction Hl as [|x [|y l] (c & r & -> & Hx & _) Hl IH]; [constructor|revert Hx; apply Forall_impl; auto|].
      change (Forall P ((c :: r) ++ ch "." :: joined (ch ".") (y :: l))). apply Forall_app. split; [revert Hx; apply Forall_impl; auto|]. constructor; [apply O; cbn; tauto|exact IH].
    + unfold match_type, word in Hm. cbn [map In] in Hm. repeat (destruct Hm as [<-|Hm]; [apply AL; reflexivity|]). destruct Hm.
  - intros t _ Ht. rewrite !Forall_app. split; [apply One; cbn; tauto|]. split; [exact Ht|apply One; cbn; tauto].
  - constructor; [apply O; cbn; tauto|]. apply AL. reflexivity.
  - constructor; [apply O; cbn; tauto|]. apply AL. reflexivity.
Qed.
Theorem C67_refuted_junk : ~ rfc_guide False (lit "person#sn$EQ~") /\ forall depth, guide (S depth) (Text (lit "person#sn$EQ~")) = Ok tt.
Proof.
  split; [|intros; vm_compute; reflexivity].
  destruct (rfc_chars (fun c => c <> ch "~" /\ c <> ch "#")) as [H _].
  { intros c Hc. unfold ALPHA, DIGIT in Hc. change (lit "-.$?|&!()") with [45; 46; 36; 63; 124; 38; 33; 40; 41]%N in Hc. change (ch "~") with 126%N. change (ch "#") with 35%N. cbn [In] in Hc. lia. }
  intros [(a & y & E & Ha & h & t & -> & -> & Ht)|[_ Ht]].
  - apply H in Ht. destruct t as [|c t]; [|].
    + change (lit "person#sn$EQ~") with (lit "person#sn$EQ" ++ [ch "~"]) in E. change (a ++ lit "#" ++ []) with (a ++ [ch "#"]) in E. apply app_inj_tail in E as [_ E]. discriminate.
    + destruct (exists_last (l := c :: t)) as (t' & x & Ex); [discriminate|]. rewrite Ex in *. apply Forall_app in Ht as [_ Ht]. inversion Ht as [|? ? Hx]; subst.
      change (lit "person#sn$EQ~") with (lit "person#sn$EQ" ++ [ch "~"]) in E. rewrite !app_assoc in E. apply app_inj_tail in E as [_ E]. destruct Hx as [Hx _]. congruence.
  - apply H in Ht. rewrite Forall_forall in Ht. destruct (Ht (ch "~")) as [Hx _]; [|congruence]. cbn. tauto.
Qed.

Example C67_nonvacuous :
  rfc_enhanced_guide (lit "person#!(sn$EQ|?true)&sn$EQ# oneLevel") /\
  (forall depth, enhanced_guide (S (S depth)) (Text (lit "person#!(sn$EQ|?true)&sn$EQ# oneLevel")) = Ok tt) /\
  enhanced_guide 9 (Text (lit "person#(sn$XX)#oneLevel")) = Raise InvalidSyntaxError /\
  enhanced_guide 9 (Text (lit "person#(sn$EQ)#twoLevel")) = Raise InvalidSyntaxError.
Proof.
  split; [|split; [intros; vm_compute; reflexivity|split; vm_compute; reflexivity]].
  piece (lit "person"). { piece (@nil N); [constructor|]. piece (lit "person"); [apply descr_of; [right; split; discriminate|reflexivity]|constructor]. }
  piece (lit "#"); [reflexivity|]. piece (lit "!(sn$EQ|?true)&sn$EQ").
  { piece (@nil N); [constructor|]. piece (lit "!(sn$EQ|?true)&sn$EQ"); [|constructor].
    apply criteria_one. apply (and_more (lit "!(sn$EQ|?true)")); [|apply and_one, sn_eq]. apply (term_not (lit "(sn$EQ|?true)")). apply (term_paren (lit "sn$EQ|?true")).
    apply (criteria_or (lit "sn$EQ")); [apply and_one, sn_eq|]. apply criteria_one, and_one, term_true. }
  piece (lit "#"); [reflexivity|]. piece (lit " "); [repeat constructor|]. right. now left.
Qed.

Print Assumptions C46_closing_paren.
Print Assumptions C46_missing_paren.
Print Assumptions C67_enhanced_guide_partial.
Print Assumptions C67_guide_partial.
Print Assumptions C67_enhanced_guide_rfc.
Print Assumptions C67_guide_rfc_partial.
Print Assumptions C67_outcome.
Print Assumptions C67_any_outcome.
Print Assumptions C67_refuted_junk.
