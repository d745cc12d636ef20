(** * The filter parsers accept exactly the texts of the specification; printing; escaping *)
From Verif Require Import PyBase Model_Filter Spec_Filter Proofs_Filter.

(** ** Standard filters *)
Lemma cmp_head f b : cmp_text f b ->
  exists c w, b = c :: w /\ (is_alpha c = true \/ is_digit c = true \/ c = ch ":").
Proof.
  assert (Ha : forall a x, attr_text a ->
    exists c w, a ++ x = c :: w /\ (is_alpha c = true \/ is_digit c = true \/ c = ch ":")).
  { intros a x H. apply attr_head in H as (c & w & -> & H). exists c, (w ++ x). intuition. }
  intros H; destruct H; try (now apply Ha).
  destruct (ext_text_tail [] dn (Some r) v) as (b & -> & w & ->). eexists _, _; split; [reflexivity|auto].
Qed.
Lemma head_not c d : is_alpha c = true \/ is_digit c = true \/ c = ch ":" ->
  is_alpha d = false -> is_digit d = false -> N.eqb (ch ":") d = false -> d <> c.
Proof. intros [H|[H|H]] Ha Hd Hc E; subst d; try congruence. rewrite H, N.eqb_refl in Hc; discriminate. Qed.

Definition std_ok (p : parser filter) : Prop :=
  forall s f r, p s = Some (f, r) -> exists w, s = w ++ r /\ std_text f w.
Lemma std_text_ne f w : std_text f w -> exists w', w = ch "(" :: w' /\ 1 <= List.length w'.
Proof.
  intros H; destruct H; eexists; (split; [reflexivity|]); cbn; rewrite ?app_length; cbn; lia.
Qed.
Lemma std_ok_consumes p : std_ok p -> consumes p.
Proof.
  intros H s f r E. apply H in E as (w & -> & Hw). apply std_text_ne in Hw as (w' & -> & _).
  cbn. rewrite app_length; lia.
Qed.
Lemma many_std p s l r : std_ok p -> many p s l r -> exists ss, s = ss ++ r /\ std_texts l ss.
Proof.
  intros H; induction 1 as [s Hn|s x r xs r' Hp Hm IH].
  - exists []; split; [reflexivity|constructor].
  - destruct IH as (ss & -> & Hs). apply H in Hp as (w & -> & Hw).
    exists (w ++ ss). split; [now rewrite <- app_assoc|now constructor].
Qed.

Lemma std_sound n : std_ok (std_n n).
Proof.
  induction n as [|n IH]; intros s f r; [discriminate|]. cbn [std_n]. unfold std_step.
  destruct (plit (lit "(") s) as [s1|] eqn:E; [|discriminate]. apply plit_sound in E as ->.
  unfold palt.
  destruct (plit (lit "&") s1) as [r1|] eqn:E1.
  { apply plit_sound in E1 as ->.
    destruct (pmany1 (std_n n) r1) as [[l r2]|] eqn:Em.
    - apply (pmany1_many _ (std_ok_consumes _ IH)) in Em as [Hne Hm].
      apply (many_std _ _ _ _ IH) in Hm as (ss & -> & Hs).
      destruct (plit (lit ")") r2) as [r3|] eqn:E; [|discriminate]. apply plit_sound in E as ->.
      intros H; injection H as <- <-.
      exists (lit "(&" ++ ss ++ lit ")"). split; [now rewrite <- !app_assoc|now constructor].
    - change (plit (lit "|") (lit "&" ++ r1)) with (@None str).
      change (plit (lit "!") (lit "&" ++ r1)) with (@None str). cbv iota.
      destruct (ava (lit "&" ++ r1)) as [[f1 r2]|] eqn:Ea; [|discriminate].
      apply ava_sound in Ea as (b & Eb & Hb). apply cmp_head in Hb as (c & w & -> & Hc).
      injection Eb as Hcc _. exfalso. eapply (head_not c (ch "&") Hc); try reflexivity.
      exact Hcc. }
  destruct (plit (lit "|") s1) as [r1|] eqn:E2.
  { apply plit_sound in E2 as ->.
    destruct (pmany1 (std_n n) r1) as [[l r2]|] eqn:Em.
    - apply (pmany1_many _ (std_ok_consumes _ IH)) in Em as [Hne Hm].
      apply (many_std _ _ _ _ IH) in Hm as (ss & -> & Hs).
      destruct (plit (lit ")") r2) as [r3|] eqn:E; [|discriminate]. apply plit_sound in E as ->.
      intros H; injection H as <- <-.
      exists (lit "(|" ++ ss ++ lit ")"). split; [now rewrite <- !app_assoc|now constructor].
    - change (plit (lit "!") (lit "|" ++ r1)) with (@None str). cbv iota.
      destruct (ava (lit "|" ++ r1)) as [[f1 r2]|] eqn:Ea; [|discriminate].
      apply ava_sound in Ea as (b & Eb & Hb). apply cmp_head in Hb as (c & w & -> & Hc).
      injection Eb as Hcc _. exfalso. eapply (head_not c (ch "|") Hc); try reflexivity.
      exact Hcc. }
  destruct (plit (lit "!") s1) as [r1|] eqn:E3.
  { apply plit_sound in E3 as ->.
    destruct (std_n n r1) as [[g r2]|] eqn:Em.
    - apply IH in Em as (w & -> & Hw).
      destruct (plit (lit ")") r2) as [r3|] eqn:E; [|discriminate]. apply plit_sound in E as ->.
      intros H; injection H as <- <-.
      exists (lit "(!" ++ w ++ lit ")"). split; [now rewrite <- !app_assoc|now constructor].
    - destruct (ava (lit "!" ++ r1)) as [[f1 r2]|] eqn:Ea; [|discriminate].
      apply ava_sound in Ea as (b & Eb & Hb). apply cmp_head in Hb as (c & w & -> & Hc).
      injection Eb as Hcc _. exfalso. eapply (head_not c (ch "!") Hc); try reflexivity.
      exact Hcc. }
  destruct (ava s1) as [[f1 r2]|] eqn:Ea; [|discriminate].
  apply ava_sound in Ea as (b & -> & Hb).
  destruct (plit (lit ")") r2) as [r3|] eqn:E; [|discriminate]. apply plit_sound in E as ->.
  intros H; injection H as <- <-.
  exists (lit "(" ++ b ++ lit ")"). split; [now rewrite <- !app_assoc|now constructor].
Qed.

Lemma std_n_rparen n r : std_n n (ch ")" :: r) = None.
Proof. destruct n; reflexivity. Qed.
Lemma std_n_nil n : std_n n [] = None.
Proof. destruct n; reflexivity. Qed.

Lemma std_complete_mut :
  (forall f w, std_text f w -> forall n r, List.length w <= n -> std_n n (w ++ r) = Some (f, r))
  /\ (forall l ss, std_texts l ss -> forall n r, List.length ss <= n -> std_n n r = None ->
        many (std_n n) (ss ++ r) l r).
Proof.
  apply (std_text_mut
    (fun f w _ => forall n r, List.length w <= n -> std_n n (w ++ r) = Some (f, r))
    (fun l ss _ => forall n r, List.length ss <= n -> std_n n r = None ->
        many (std_n n) (ss ++ r) l r)).
  - intros l ss Hne Hs IH n r Hn. destruct n as [|n]; [cbn in Hn; lia|].
    rewrite !app_length in Hn; cbn in Hn. cbn [std_n]. unfold std_step.
    change (lit "(&") with (lit "(" ++ lit "&"). rewrite <- !app_assoc, plit_app.
    unfold palt. rewrite plit_app.
    specialize (IH n (lit ")" ++ r) ltac:(lia) (std_n_rparen n r)).
    pose proof (proj2 (pmany1_many _ (std_ok_consumes _ (std_sound n)) _ _ _) (conj Hne IH)) as ->.
    now rewrite plit_app.
  - intros l ss Hne Hs IH n r Hn. destruct n as [|n]; [cbn in Hn; lia|].
    rewrite !app_length in Hn; cbn in Hn. cbn [std_n]. unfold std_step.
    change (lit "(|") with (lit "(" ++ lit "|"). rewrite <- !app_assoc, plit_app.
    unfold palt. change (plit (lit "&") (lit "|" ++ ?x)) with (@None str). cbv iota.
    rewrite plit_app.
    specialize (IH n (lit ")" ++ r) ltac:(lia) (std_n_rparen n r)).
    pose proof (proj2 (pmany1_many _ (std_ok_consumes _ (std_sound n)) _ _ _) (conj Hne IH)) as ->.
    now rewrite plit_app.
  - intros f s Hs IH n r Hn. destruct n as [|n]; [cbn in Hn; lia|].
    rewrite !app_length in Hn; cbn in Hn. cbn [std_n]. unfold std_step.
    change (lit "(!") with (lit "(" ++ lit "!"). rewrite <- !app_assoc, plit_app.
    unfold palt. change (plit (lit "&") (lit "!" ++ ?x)) with (@None str).
    change (plit (lit "|") (lit "!" ++ ?x)) with (@None str). cbv iota.
    rewrite plit_app. rewrite IH by lia. now rewrite plit_app.
  - intros f b Hb n r Hn. destruct n as [|n]; [cbn in Hn; lia|].
    cbn [std_n]. unfold std_step. rewrite <- !app_assoc, plit_app.
    pose proof (cmp_head _ _ Hb) as (c & w & Eb & Hc).
    assert (Hno : forall d, is_alpha d = false -> is_digit d = false -> N.eqb (ch ":") d = false ->
               plit [d] (b ++ lit ")" ++ r) = None).
    { intros d H1 H2 H3. rewrite Eb. cbn [app]. apply plit_ne. now apply (head_not c d). }
    unfold palt. change (lit "&") with [ch "&"]. change (lit "|") with [ch "|"].
    change (lit "!") with [ch "!"]. rewrite !Hno by reflexivity.
    change (lit ")" ++ r) with (ch ")" :: r). rewrite (ava_app _ _ _ Hb). reflexivity.
  - intros n r _ H. now constructor.
  - intros f l s ss Hs IH1 Hss IH2 n r Hn Hr. rewrite app_length in Hn. rewrite <- app_assoc.
    econstructor; [apply IH1; lia|apply IH2; [lia|assumption]].
Qed.

Lemma standard_filter_sound : std_ok standard_filter.
Proof. intros s f r. apply std_sound. Qed.
Lemma standard_filter_app f w r : std_text f w -> standard_filter (w ++ r) = Some (f, r).
Proof.
  intros H. unfold standard_filter. apply (proj1 std_complete_mut); auto.
  rewrite app_length; lia.
Qed.

Lemma parse_all_sound p s f : parse_all p s = Ok f -> p s = Some (f, []).
Proof.
  unfold parse_all. destruct (p s) as [[g [|c r]]|]; try discriminate. intros H; injection H as ->; reflexivity.
Qed.

Theorem standard_iff s f : parse_standard_filter s = Ok f <-> std_text f s.
Proof.
  unfold parse_standard_filter; split; intros H.
  - apply parse_all_sound in H. apply standard_filter_sound in H as (w & -> & Hw).
    now rewrite app_nil_r.
  - unfold parse_all. rewrite <- (app_nil_r s), (standard_filter_app _ _ _ H). reflexivity.
Qed.

(** ** Logic expressions *)
Lemma pspaces_app sp r : blank sp -> stops is_space r -> pspaces (sp ++ r) = r.
Proof. intros H Hr. unfold pspaces. unfold blank in H. chars. now rewrite (pspan_app _ _ _ H Hr). Qed.
Lemma pspaces_sound s : exists sp, s = sp ++ pspaces s /\ blank sp.
Proof.
  unfold pspaces. destruct (pspan is_space s) as [a r] eqn:E. apply pspan_sound in E as (-> & Ha & _).
  exists a; auto.
Qed.
Lemma pspaces_stops s : stops is_space (pspaces s).
Proof.
  unfold pspaces. destruct (pspan is_space s) as [a r] eqn:E. now apply pspan_sound in E as (_ & _ & H).
Qed.

(** the first character after the leading letters, digits and hyphens *)
Definition after_key (s : str) : str := snd (pspan is_keychar s).
Lemma after_key_app k r : Forall (fun x => is_keychar x = true) k -> after_key (k ++ r) = after_key r.
Proof.
  intros H; unfold after_key; induction H as [|c k Hc Hk IH]; [reflexivity|].
  cbn [app pspan]. rewrite Hc. destruct (pspan is_keychar (k ++ r)); exact IH.
Qed.
Lemma after_key_stop c r : is_keychar c = false -> after_key (c :: r) = c :: r.
Proof. intros H; unfold after_key; cbn [pspan]. now rewrite H. Qed.

Definition leaf_paren (leaf : parser filter) : Prop :=
  forall s f r, leaf s = Some (f, r) -> exists w, s = ch "(" :: w.
Definition looks_like_term (s : str) : Prop :=
  exists c r, after_key s = c :: r /\ (c = ch "(" \/ is_space c = true).

Lemma term_looks leaf : leaf_paren leaf -> forall n s f r,
  term_n leaf n s = Some (f, r) -> looks_like_term s.
Proof.
  intros Hl n; induction n as [|n IH]; intros s f r; [discriminate|].
  cbn [term_n]. cbv zeta. unfold palt. destruct (not_exp (term_n leaf n) s) as [[g r1]|] eqn:E.
  - intros _. revert E. unfold not_exp. destruct (plit (lit "NOT") s) as [r2|] eqn:E; [|discriminate].
    apply plit_sound in E as ->. destruct (term_n leaf n (pspaces r2)) as [[h r3]|] eqn:Et; [|discriminate].
    intros _. apply IH in Et as (c & r4 & Ec & Hc).
    assert (Hk : after_key (lit "NOT" ++ r2) = after_key r2)
      by (apply after_key_app; repeat constructor).
    unfold looks_like_term. rewrite Hk.
    destruct (pspaces_sound r2) as (sp & Es & Hsp). destruct sp as [|x sp].
    + cbn [app] in Es. rewrite Es. eauto.
    + rewrite Es. inversion Hsp as [|? ? Hx Hb']; subst. exists x. cbn [app].
      rewrite after_key_stop; [eauto|]. 
      unfold blank_char, is_space, is_keychar, is_alpha, is_digit, between, ch in *. cbn in *. lia.
  - destruct (paren_term (term_n leaf n) s) as [[g r1]|] eqn:E2.
    + intros _. revert E2. unfold paren_term.
      destruct (plit (lit "(") s) as [r2|] eqn:E2; [|discriminate]. apply plit_sound in E2 as ->.
      intros _. exists (ch "("), r2. split; [now apply after_key_stop|auto].
    + intros H. apply Hl in H as (w & ->). exists (ch "("), w. split; [now apply after_key_stop|auto].
Qed.

Lemma cmp_after_key f b x : cmp_text f b -> ~ looks_like_term (b ++ ch ")" :: x).
Proof.
  intros H (c & r & Ec & Hc).
  assert (Hatt : forall a y, attr_text a -> (exists d z, y = d :: z /\ is_keychar d = false /\
            d <> ch "(" /\ is_space d = false) -> after_key (a ++ y) = c :: r -> False).
  { intros a y (o & opts & -> & Ho & Hopts) (d & z & -> & Hd & Hd1 & Hd2) Hk.
    unfold with_options in Hk. rewrite <- app_assoc in Hk.
    assert (Hk2 : exists d' z', List.concat (map (fun x => lit ";" ++ x) opts) ++ d :: z = d' :: z'
        /\ is_keychar d' = false /\ d' <> ch "(" /\ is_space d' = false).
    { destruct opts as [|op opts]; cbn [map List.concat app]; [exists d, z; auto|].
      eexists _, _; split; [reflexivity|]. (split; [reflexivity|]; split; [discriminate|reflexivity]). }
    destruct Hk2 as (d' & z' & E & Hd' & Hd1' & Hd2'). rewrite E in Hk.
    destruct Ho as [(k & w & -> & Hk1 & Hw)|Ho].
    - rewrite after_key_app in Hk by (constructor; auto using alpha_keychar).
      rewrite after_key_stop in Hk by assumption. injection Hk as <- _.
      destruct Hc; congruence.
    - destruct Ho as (n & l & -> & (g & -> & Hg) & Hl & _).
      destruct l as [|m l]; [congruence|]. cbn [map List.concat] in Hk. rewrite <- !app_assoc in Hk.
      rewrite after_key_app in Hk by (constructor; auto using digit_keychar).
      cbn [app lit] in Hk. rewrite after_key_stop in Hk by reflexivity.
      injection Hk as <- _. destruct Hc as [Hc|Hc]; [discriminate Hc|vm_compute in Hc; discriminate]. }
  destruct H as [a v Ha Hv|a v Ha Hv|a v Ha Hv|a v Ha Hv
    |a ini anys fin Ha Hi Hany Hf|a dn rule v Ha Hr Hv|dn o v Hr Hv].
  1-5: rewrite <- app_assoc in Ec; eapply (Hatt a); [exact Ha| |exact Ec];
       eexists _, _; (split; [reflexivity|]); (split; [reflexivity|]; split; [discriminate|reflexivity]).
  - destruct (ext_text_tail a dn rule v) as (b & Eb & w & Ew). rewrite Eb, Ew, <- !app_assoc in Ec.
    eapply (Hatt a); [exact Ha| |exact Ec];
       eexists _, _; (split; [reflexivity|]); (split; [reflexivity|]; split; [discriminate|reflexivity]).
  - destruct (ext_text_tail [] dn (Some o) v) as (b & Eb & w & Ew). rewrite Eb, Ew in Ec.
    cbn [app lit] in Ec. rewrite after_key_stop in Ec by reflexivity.
    injection Ec as <- _. destruct Hc as [Hc|Hc]; [discriminate Hc|vm_compute in Hc; discriminate].
Qed.

(** ** The logic grammar over a leaf syntax [L] recognised by [leaf] *)
Section Logic.
  Variable leaf : parser filter.
  Variable L : str -> filter -> Prop.
  Hypothesis leaf_sound : forall s f r, leaf s = Some (f, r) -> exists w, s = w ++ r /\ L w f.
  Hypothesis leaf_app : forall w f r, L w f -> leaf (w ++ r) = Some (f, r).
  Hypothesis L_shape : forall w f, L w f -> exists b, w = ch "(" :: b /\ forall x,
     ~ looks_like_term (b ++ x) /\ stops is_space (b ++ x) /\ b <> [].

  Notation T n := (term_n leaf n).

  Lemma leaf_is_paren : leaf_paren leaf.
  Proof.
    intros s f r H. apply leaf_sound in H as (w & -> & Hw). apply L_shape in Hw as (b & -> & _).
    eexists; reflexivity.
  Qed.

  Definition sound_t (p : parser filter) : Prop :=
    forall s f r, p s = Some (f, r) -> exists t, s = render_t t ++ r /\ ok_t L t /\ sem_t t = f.

  Lemma render_t_head t : ok_t L t -> exists c w, render_t t = c :: w /\ is_space c = false.
  Proof.
    destruct t as [w f|sp t|sp1 e sp2]; cbn.
    - intros H; apply L_shape in H as (b & -> & _). eexists _, _; split; reflexivity.
    - intros _. eexists _, _; split; reflexivity.
    - intros _. eexists _, _; split; reflexivity.
  Qed.
  Lemma render_c_head c : ok_c L c -> exists d w, render_c c = d :: w /\ is_space d = false.
  Proof.
    destruct c as [t|t sp1 sp2 c]; cbn.
    - apply render_t_head.
    - intros [H _]. apply render_t_head in H as (d & w & -> & Hd). eexists _, _; split; eauto. reflexivity.
  Qed.
  Lemma render_e_head e : ok_e L e -> exists d w, render_e e = d :: w /\ is_space d = false.
  Proof.
    destruct e as [c|c sp1 sp2 e]; cbn.
    - apply render_c_head.
    - intros [H _]. apply render_c_head in H as (d & w & -> & Hd). eexists _, _; split; eauto. reflexivity.
  Qed.

  Lemma sound_t_consumes p : sound_t p -> consumes p.
  Proof.
    intros H s f r E. apply H in E as (t & -> & Ht & _). apply render_t_head in Ht as (c & w & -> & _).
    cbn; rewrite app_length; lia.
  Qed.
  Lemma and_exp_sound p s f r : sound_t p -> and_exp p s = Some (f, r) ->
    exists sp1 sp2 t, s = sp1 ++ lit "AND" ++ sp2 ++ render_t t ++ r
      /\ blank sp1 /\ blank sp2 /\ ok_t L t /\ sem_t t = f.
  Proof.
    intros Hp. unfold and_exp. destruct (pspaces_sound s) as (sp1 & Es & H1).
    destruct (plit (lit "AND") (pspaces s)) as [r1|] eqn:E; [|discriminate].
    apply plit_sound in E. destruct (pspaces_sound r1) as (sp2 & Es2 & H2).
    intros H. apply Hp in H as (t & Et & Ht & Hs). exists sp1, sp2, t.
    rewrite Es, E, Es2, Et. auto.
  Qed.
  Lemma and_exp_consumes p : sound_t p -> consumes (and_exp p).
  Proof.
    intros H s f r E. apply (and_exp_sound p) in E as (sp1 & sp2 & t & -> & _); auto.
    rewrite !app_length; cbn; lia.
  Qed.
  Lemma component_sound p s f r : sound_t p -> component p s = Some (f, r) ->
    exists c, s = render_c c ++ r /\ ok_c L c /\ conn FAnd (sem_c c) = f.
  Proof.
    intros Hp. unfold component. destruct (p s) as [[f1 r1]|] eqn:E; [|discriminate].
    apply Hp in E as (t & -> & Ht & Hf1).
    destruct (pmany (and_exp p) r1) as [fs r2] eqn:Em.
    apply (pmany_many _ (and_exp_consumes p Hp)) in Em.
    assert (Hc : forall t f1, ok_t L t -> sem_t t = f1 -> exists c, render_t t ++ r1 = render_c c ++ r2
                 /\ ok_c L c /\ sem_c c = f1 :: fs).
    { clear f t f1 Ht Hf1. induction Em as [s Hn|s x r1 xs r' Hpx Hm IH]; intros t f1 Ht Hf1.
      - exists (C1 t). cbn. rewrite Hf1. auto.
      - apply (and_exp_sound p) in Hpx as (sp1 & sp2 & t2 & -> & H1 & H2 & Ht2 & Hs2); auto.
        destruct (IH t2 x Ht2 Hs2) as (c & Ec & Hc & Hsc).
        exists (CAnd t sp1 sp2 c). cbn [render_c ok_c sem_c]. rewrite Hsc, Hf1.
        repeat split; auto. rewrite <- !app_assoc. now rewrite <- Ec. }
    destruct (Hc t f1 Ht Hf1) as (c & -> & Hok & Hsem). intros H.
    exists c. rewrite Hsem. destruct fs; injection H as <- <-; auto.
  Qed.
  Lemma or_exp_sound p s f r : sound_t p -> or_exp p s = Some (f, r) ->
    exists sp1 sp2 c, s = sp1 ++ lit "OR" ++ sp2 ++ render_c c ++ r
      /\ blank sp1 /\ blank sp2 /\ ok_c L c /\ conn FAnd (sem_c c) = f.
  Proof.
    intros Hp. unfold or_exp. destruct (pspaces_sound s) as (sp1 & Es & H1).
    destruct (plit (lit "OR") (pspaces s)) as [r1|] eqn:E; [|discriminate].
    apply plit_sound in E. destruct (pspaces_sound r1) as (sp2 & Es2 & H2).
    intros H. apply (component_sound p) in H as (c & Et & Ht & Hs); auto. exists sp1, sp2, c.
    rewrite Es, E, Es2, Et. auto.
  Qed.
  Lemma or_exp_consumes p : sound_t p -> consumes (or_exp p).
  Proof.
    intros H s f r E. apply (or_exp_sound p) in E as (sp1 & sp2 & t & -> & _); auto.
    rewrite !app_length; cbn; lia.
  Qed.
  Lemma logic_sound p s f r : sound_t p -> logic p s = Some (f, r) ->
    exists e, s = render_e e ++ r /\ ok_e L e /\ sem e = f.
  Proof.
    intros Hp. unfold logic. destruct (component p s) as [[f1 r1]|] eqn:E; [|discriminate].
    apply (component_sound p) in E as (c & -> & Hc & Hf1); auto.
    destruct (pmany (or_exp p) r1) as [fs r2] eqn:Em.
    apply (pmany_many _ (or_exp_consumes p Hp)) in Em.
    assert (He : forall c f1, ok_c L c -> conn FAnd (sem_c c) = f1 ->
                 exists e, render_c c ++ r1 = render_e e ++ r2
                 /\ ok_e L e /\ sem_e e = f1 :: fs).
    { clear f c f1 Hc Hf1. induction Em as [s Hn|s x r1 xs r' Hpx Hm IH]; intros c f1 Hc Hf1.
      - exists (E1 c). cbn. rewrite Hf1. auto.
      - apply (or_exp_sound p) in Hpx as (sp1 & sp2 & c2 & -> & H1 & H2 & Hc2 & Hs2); auto.
        destruct (IH c2 x Hc2 Hs2) as (e & Ee & He & Hse).
        exists (EOr c sp1 sp2 e). cbn [render_e ok_e sem_e]. rewrite Hse, Hf1.
        repeat split; auto. rewrite <- !app_assoc. now rewrite <- Ee. }
    destruct (He c f1 Hc Hf1) as (e & -> & Hok & Hsem). intros H.
    exists e. unfold sem. rewrite Hsem. destruct fs; injection H as <- <-; auto.
  Qed.

  Lemma term_sound n : sound_t (T n).
  Proof.
    induction n as [|n IH]; intros s f r; [discriminate|]. cbn [term_n]. cbv zeta. unfold palt.
    destruct (not_exp (T n) s) as [[g r1]|] eqn:E.
    { intros H; injection H as <- <-. revert E. unfold not_exp.
      destruct (plit (lit "NOT") s) as [r2|] eqn:E; [|discriminate]. apply plit_sound in E as ->.
      destruct (pspaces_sound r2) as (sp & Es & Hsp).
      destruct (T n (pspaces r2)) as [[h r3]|] eqn:Et; [|discriminate].
      intros H; injection H as <- <-. apply IH in Et as (t & Et & Ht & Hs).
      exists (TNot sp t). cbn [render_t ok_t sem_t]. rewrite Hs. repeat split; auto.
      rewrite Es, Et, <- !app_assoc. reflexivity. }
    destruct (paren_term (T n) s) as [[g r1]|] eqn:E2.
    { intros H; injection H as <- <-. revert E2. unfold paren_term.
      destruct (plit (lit "(") s) as [r2|] eqn:E2; [|discriminate]. apply plit_sound in E2 as ->.
      destruct (pspaces_sound r2) as (sp & Es & Hsp).
      destruct (logic (T n) (pspaces r2)) as [[h r3]|] eqn:Et; [|discriminate].
      apply (logic_sound _ _ _ _ IH) in Et as (e & Ee & He & Hse).
      destruct (pspaces_sound r3) as (sp2 & Es2 & Hsp2).
      destruct (plit (lit ")") (pspaces r3)) as [r4|] eqn:E4; [|discriminate].
      apply plit_sound in E4. intros H; injection H as <- <-.
      exists (TParen sp e sp2). cbn [render_t ok_t sem_t]. repeat split; auto.
      rewrite Es, Ee, Es2, E4, <- !app_assoc. reflexivity. }
    intros H; apply leaf_sound in H as (w & -> & Hw). exists (TLeaf w f). auto.
  Qed.

  (** completeness *)
  Lemma not_looks_logic n s : ~ looks_like_term s -> logic (T n) s = None.
  Proof.
    intros H. unfold logic, component. destruct (T n s) as [[f r]|] eqn:E; [|reflexivity].
    exfalso; apply H. eapply term_looks; [apply leaf_is_paren|exact E].
  Qed.

  Lemma pspaces_id r : stops is_space r -> pspaces r = r.
  Proof. intros H. apply (pspaces_app [] r); [constructor|assumption]. Qed.
  Lemma head_stops c w r : is_space c = false -> stops is_space ((c :: w) ++ r).
  Proof. intros H; exact H. Qed.

  Lemma logic_complete_mut :
    (forall t, ok_t L t -> forall n r, List.length (render_t t) <= n ->
       T n (render_t t ++ r) = Some (sem_t t, r))
    /\ (forall c, ok_c L c -> forall n r, List.length (render_c c) <= n -> and_exp (T n) r = None ->
       exists f fs r1, sem_c c = f :: fs /\ T n (render_c c ++ r) = Some (f, r1)
                       /\ many (and_exp (T n)) r1 fs r)
    /\ (forall e, ok_e L e -> forall n r, List.length (render_e e) <= n ->
       and_exp (T n) r = None -> or_exp (T n) r = None ->
       logic (T n) (render_e e ++ r) = Some (sem e, r)
       /\ exists f fs r1, sem_e e = f :: fs /\ component (T n) (render_e e ++ r) = Some (f, r1)
                       /\ many (or_exp (T n)) r1 fs r).
  Proof.
    apply (logic_mut
      (fun t => ok_t L t -> forall n r, List.length (render_t t) <= n ->
         T n (render_t t ++ r) = Some (sem_t t, r))
      (fun c => ok_c L c -> forall n r, List.length (render_c c) <= n -> and_exp (T n) r = None ->
       exists f fs r1, sem_c c = f :: fs /\ T n (render_c c ++ r) = Some (f, r1)
                       /\ many (and_exp (T n)) r1 fs r)
      (fun e => ok_e L e -> forall n r, List.length (render_e e) <= n ->
         and_exp (T n) r = None -> or_exp (T n) r = None ->
         logic (T n) (render_e e ++ r) = Some (sem e, r)
       /\ exists f fs r1, sem_e e = f :: fs /\ component (T n) (render_e e ++ r) = Some (f, r1)
                       /\ many (or_exp (T n)) r1 fs r)).
    - (* leaf *)
      intros w f Hw n r Hn. cbn [render_t sem_t] in *. cbn [ok_t] in Hw.
      pose proof (L_shape _ _ Hw) as (b & -> & Hb). destruct n as [|n]; [cbn in Hn; lia|].
      cbn [term_n]. cbv zeta. unfold palt.
      change (not_exp (T n) ((ch "(" :: b) ++ r)) with (@None (filter * str)).
      unfold paren_term. change (plit (lit "(") ((ch "(" :: b) ++ r)) with (Some (b ++ r)).
      destruct (Hb r) as (Hb1 & Hb2 & _). rewrite (pspaces_id _ Hb2), (not_looks_logic _ _ Hb1).
      now apply leaf_app.
    - (* NOT *)
      intros sp t IH [Hsp Ht] n r Hn. cbn [render_t sem_t] in *.
      rewrite !app_length in Hn. cbn in Hn. destruct n as [|n]; [lia|].
      cbn [term_n]. cbv zeta. unfold palt, not_exp. rewrite <- !app_assoc, plit_app.
      rewrite pspaces_app; auto.
      + rewrite IH by (auto; lia). reflexivity.
      + pose proof (render_t_head t Ht) as (c & w & -> & Hc). exact Hc.
    - (* parentheses *)
      intros sp1 e IH sp2 (H1 & He & H2) n r Hn. cbn [render_t sem_t] in *.
      rewrite !app_length in Hn. cbn in Hn. destruct n as [|n]; [lia|].
      cbn [term_n]. cbv zeta. unfold palt.
      change (not_exp (T n) ((lit "(" ++ ?x) ++ r)) with (@None (filter * str)).
      unfold paren_term. rewrite <- !app_assoc, plit_app.
      rewrite pspaces_app; auto.
      2:{ pose proof (render_e_head e He) as (c & w & -> & Hc). exact Hc. }
      assert (Hsp2 : pspaces (sp2 ++ lit ")" ++ r) = lit ")" ++ r)
        by (apply pspaces_app; auto; reflexivity).
      destruct (IH He n (sp2 ++ lit ")" ++ r) ltac:(lia)) as [Hlog _].
      { unfold and_exp. rewrite Hsp2. reflexivity. }
      { unfold or_exp. rewrite Hsp2. reflexivity. }
      rewrite Hlog, Hsp2, plit_app. reflexivity.
    - (* one term *)
      intros t IH Ht n r Hn Hr. cbn [render_c sem_c] in *. exists (sem_t t), [], r.
      rewrite IH by auto. repeat split; auto. now constructor.
    - (* AND *)
      intros t IH sp1 sp2 c IHc (Ht & H1 & H2 & Hc) n r Hn Hr. cbn [render_c sem_c] in *.
      rewrite !app_length in Hn.
      destruct (IHc Hc n r ltac:(lia) Hr) as (f & fs & r1 & Es & Et & Hm).
      exists (sem_t t), (f :: fs), (sp1 ++ lit "AND" ++ sp2 ++ render_c c ++ r).
      rewrite Es, <- !app_assoc. rewrite IH by (auto; lia). repeat split; auto.
      econstructor; [|exact Hm]. unfold and_exp. rewrite pspaces_app by (auto; reflexivity).
      rewrite plit_app, pspaces_app; auto.
      pose proof (render_c_head c Hc) as (d & w & -> & Hd). exact Hd.
    - (* one component *)
      intros c IH Hc n r Hn Ha Ho. cbn [render_e] in *.
      destruct (IH Hc n r Hn Ha) as (f & fs & r1 & Es & Et & Hm).
      assert (Ecomp : component (T n) (render_c c ++ r) = Some (conn FAnd (sem_c c), r)).
      { unfold component. rewrite Et.
        apply (pmany_many _ (and_exp_consumes _ (term_sound n))) in Hm. rewrite Hm, Es.
        destruct fs; reflexivity. }
      assert (Hmo : many (or_exp (T n)) r [] r) by now constructor.
      split; [|exists (conn FAnd (sem_c c)), [], r; auto].
      unfold logic. rewrite Ecomp.
      apply (pmany_many _ (or_exp_consumes _ (term_sound n))) in Hmo. rewrite Hmo. reflexivity.
    - (* OR *)
      intros c IHc sp1 sp2 e IHe (Hc & H1 & H2 & He) n r Hn Ha Ho. cbn [render_e] in *.
      rewrite !app_length in Hn.
      destruct (IHe He n r ltac:(lia) Ha Ho) as [_ (f & fs & r1 & Es & Et & Hm)].
      set (rest := sp1 ++ lit "OR" ++ sp2 ++ render_e e ++ r).
      assert (Hps : pspaces rest = lit "OR" ++ sp2 ++ render_e e ++ r)
        by (unfold rest; apply pspaces_app; auto; reflexivity).
      destruct (IHc Hc n rest ltac:(lia)) as (g & gs & r2 & Es2 & Et2 & Hm2).
      { unfold and_exp. rewrite Hps. reflexivity. }
      assert (Ecomp : component (T n) (render_c c ++ rest) = Some (conn FAnd (sem_c c), rest)).
      { unfold component. rewrite Et2.
        apply (pmany_many _ (and_exp_consumes _ (term_sound n))) in Hm2. rewrite Hm2, Es2.
        destruct gs; reflexivity. }
      assert (Hmo : many (or_exp (T n)) rest (f :: fs) r).
      { econstructor; [|exact Hm]. unfold or_exp. rewrite Hps, plit_app, pspaces_app; auto.
        pose proof (render_e_head e He) as (d & w & -> & Hd). exact Hd. }
      replace ((render_c c ++ sp1 ++ lit "OR" ++ sp2 ++ render_e e) ++ r) with (render_c c ++ rest)
        by (unfold rest; now rewrite <- !app_assoc).
      split.
      + unfold logic, sem. rewrite Ecomp. cbn [sem_e]. rewrite Es.
        apply (pmany_many _ (or_exp_consumes _ (term_sound n))) in Hmo. rewrite Hmo. reflexivity.
      + exists (conn FAnd (sem_c c)), (f :: fs), rest. cbn [sem_e]. rewrite Es. auto.
  Qed.

  Theorem logic_iff s f :
    parse_all (logic_filter leaf) s = Ok f
    <-> exists e, ok_e L e /\ render_e e = s /\ sem e = f.
  Proof.
    split.
    - intros H; apply parse_all_sound in H. unfold logic_filter in H.
      apply (logic_sound _ _ _ _ (term_sound _)) in H as (e & -> & He & Hs).
      exists e. rewrite app_nil_r. auto.
    - intros (e & He & <- & <-). unfold parse_all, logic_filter.
      destruct (proj2 (proj2 logic_complete_mut) e He (List.length (render_e e)) []) as [H _]; auto.
      rewrite app_nil_r in H. rewrite H. reflexivity.
  Qed.
End Logic.

Lemma cmp_leaf_shape w f : cmp_leaf w f -> exists b, w = ch "(" :: b /\ forall x,
   ~ looks_like_term (b ++ x) /\ stops is_space (b ++ x) /\ b <> [].
Proof.
  intros (b & -> & Hb). exists (b ++ lit ")"). split; [reflexivity|]. intros x.
  rewrite <- app_assoc. split; [now apply (cmp_after_key f)|].
  apply cmp_head in Hb as (c & w & -> & Hc). split; [|discriminate]. cbn [app stops].
  destruct Hc as [Hc|[Hc|Hc]]; unfold is_alpha, is_digit, is_space, between, ch in *; cbn in *; lia.
Qed.
Lemma std_leaf_shape w f : std_leaf w f -> exists b, w = ch "(" :: b /\ forall x,
   ~ looks_like_term (b ++ x) /\ stops is_space (b ++ x) /\ b <> [].
Proof.
  intros H; destruct H as [l ss Hne Hs|l ss Hne Hs|f s Hs|f b Hb].
  4:{ apply (cmp_leaf_shape _ f). exists b; auto. }
  all: eexists; split; [reflexivity|]; intros x; (split; [|split; [reflexivity|discriminate]]);
    intros (c & r & Ec & Hc); cbn [app lit] in Ec; rewrite after_key_stop in Ec by reflexivity;
    injection Ec as <- _; (destruct Hc as [Hc|Hc]; [discriminate Hc|vm_compute in Hc; discriminate]).
Qed.

Theorem simple_iff s f :
  parse_simple_filter s = Ok f <-> exists e, ok_e cmp_leaf e /\ render_e e = s /\ sem e = f.
Proof. apply logic_iff; [apply paren_ava_sound|apply paren_ava_app|apply cmp_leaf_shape]. Qed.
Theorem unified_iff s f :
  parse_unified s = Ok f <-> exists e, ok_e std_leaf e /\ render_e e = s /\ sem e = f.
Proof.
  apply logic_iff; [apply standard_filter_sound|intros w g r H; now apply standard_filter_app|apply std_leaf_shape].
Qed.

Lemma ok_mono (L1 L2 : str -> filter -> Prop) : (forall w f, L1 w f -> L2 w f) ->
  (forall t, ok_t L1 t -> ok_t L2 t) /\ (forall c, ok_c L1 c -> ok_c L2 c) /\ (forall e, ok_e L1 e -> ok_e L2 e).
Proof.
  intros H. apply (logic_mut (fun t => ok_t L1 t -> ok_t L2 t) (fun c => ok_c L1 c -> ok_c L2 c)
    (fun e => ok_e L1 e -> ok_e L2 e)); cbn; intuition.
Qed.

(** ** Printing *)
Lemma std_text_valid_mut :
  (forall f w, std_text f w -> valid f) /\ (forall l ss, std_texts l ss -> Forall valid l).
Proof.
  apply (std_text_mut (fun f w _ => valid f) (fun l ss _ => Forall valid l)); intros; try (constructor; assumption).
  destruct c as [a v Ha Hv|a v Ha Hv|a v Ha Hv|a v Ha Hv
    |a ini anys fin Ha Hi Hany Hf|a dn rule v Ha Hr Hv|dn o v Hr Hv]; try (constructor; assumption).
  - unfold mk_subs.
    assert (Hall : valid (FPresent a)) by (now constructor).
    destruct (match ini, anys, fin with [], [], [] => true | _, _, _ => false end) eqn:E; [assumption|].
    constructor; auto. split; [destruct ini, anys, fin; discriminate|].
    eexists _, _, _. split; [reflexivity|]. split; [|split; [assumption|]].
    + destruct ini; [now left|right]. eexists; split; [reflexivity|]. split; [discriminate|assumption].
    + destruct fin; [now left|right]. eexists; split; [reflexivity|]. split; [discriminate|assumption].
  - constructor; auto. discriminate.
Qed.

Lemma join_star (l : list str) (x z : str) :
  join (lit "*") (x :: l ++ [z]) = x ++ lit "*" ++ List.concat (map (fun v => v ++ lit "*") l) ++ z.
Proof.
  revert x; induction l as [|y l IH]; intros x; [reflexivity|].
  change (join (lit "*") (x :: (y :: l) ++ [z])) with (x ++ lit "*" ++ join (lit "*") (y :: l ++ [z])).
  rewrite IH. cbn [map List.concat]. now rewrite <- !app_assoc.
Qed.

Lemma print_subs a subs : attr_text a -> subs_ok subs ->
  exists ini anys fin, value_text ini /\ Forall value_text anys /\ value_text fin
    /\ mk_subs a ini anys fin = drop_last_any a subs
    /\ join (lit "*") (sub_strs subs)
       = ini ++ lit "*" ++ List.concat (map (fun v => v ++ lit "*") anys) ++ fin.
Proof.
  intros Ha (Hne & ini & anys & fin & -> & Hi & Hany & Hf).
  assert (Hini : exists I, value_text I /\
     (if match I with [] => true | _ => false end then [] else [(Initial, I)]) = ini /\
     (ini <> [] \/ anys <> [] \/ fin <> [] ->
      forall tl, tl = map (fun v => (Any, v)) anys ++ fin ->
      match ini ++ tl with (k, _) :: _ => if is_initial k then [] else [[]] | [] => [] end
        ++ map snd (ini ++ tl) = I :: map snd tl)).
  { destruct Hi as [->|(v & -> & Hv & Hvt)].
    - exists []. split; [constructor|]. split; [reflexivity|]. intros H tl ->. cbn [app].
      destruct anys as [|y anys]; [|reflexivity].
      destruct Hf as [->|(w & -> & _)]; [|reflexivity]. exfalso; intuition.
    - exists v. split; [assumption|]. split; [destruct v; [congruence|reflexivity]|].
      intros _ tl _. reflexivity. }
  destruct Hini as (I & HI & HIe & Hlead).
  assert (Hne' : ini <> [] \/ anys <> [] \/ fin <> []).
  { destruct ini; [|left; discriminate]. destruct anys; [|right; left; discriminate].
    destruct fin; [|right; right; discriminate]. now contradict Hne. }
  specialize (Hlead Hne' _ eq_refl).
  assert (Hms : map snd (map (fun v => (Any, v)) anys ++ fin) = anys ++ map snd fin).
  { rewrite map_app, map_map. cbn. now rewrite map_id. }
  rewrite Hms in Hlead.
  unfold sub_strs. rewrite Hlead. 
  destruct Hf as [->|(w & -> & Hw & Hwt)].
  - rewrite app_nil_r in *. cbn [map app] in *. rewrite ?app_nil_r in *.
    destruct anys as [|x anys' _] using rev_ind.
    + (* only an initial part *)
      destruct Hi as [->|(v & -> & Hv & Hvt)]; [exfalso; intuition|].
      exists I, [], []. cbn [map app rev is_final]. 
      assert (I = v) as -> by (destruct I; [discriminate|injection HIe as <-; reflexivity]).
      destruct v as [|c v]; [congruence|]. repeat split; auto; try constructor.
    + rewrite map_app. cbn [map]. rewrite app_assoc, rev_app_distr. cbn [rev app is_final negb andb].
      change (I :: anys' ++ [x]) with ((I :: anys') ++ [x]). rewrite rev_app_distr. cbn [rev app].
      apply Forall_app in Hany as [Hany Hx]. inversion Hx; subst.
      unfold drop_last_any. rewrite rev_app_distr. cbn [rev app].
      destruct x as [|c x].
      * exists I, anys', []. cbn [negb]. split; [assumption|]. split; [assumption|].
        split; [constructor|]. split.
        2:{ change (match rev anys' ++ [I] with [] => _ | _ => _ end) with
              (match rev anys' ++ [I] with [] => true | _ => true end).
            rewrite <- (join_star anys' I []). reflexivity. }
        unfold mk_subs. rewrite app_nil_r. destruct I as [|i I]; cbn [app] in *.
        { destruct anys' as [|y anys' _] using rev_ind; [reflexivity|].
          rewrite map_app, rev_app_distr. cbn [rev map app].
          rewrite rev_involutive. destruct anys'; reflexivity. }
        { cbn [rev].
          rewrite rev_app_distr, rev_involutive.
          destruct (rev (map (fun v => (Any, v)) anys')); reflexivity. }
      * exists I, (anys' ++ [c :: x]), []. split; [assumption|].
        split; [apply Forall_app; auto|]. split; [constructor|]. split.
        2:{ cbn [negb]. rewrite <- (join_star (anys' ++ [c :: x]) I []). reflexivity. }
        unfold mk_subs. rewrite app_nil_r, map_app, app_assoc. cbn [map].
        destruct I, anys'; reflexivity.
  - exists I, anys, w. repeat split; auto.
    + unfold drop_last_any. rewrite app_assoc, rev_app_distr. cbn [rev app].
      unfold mk_subs. destruct w as [|c w]; [congruence|]. rewrite <- app_assoc.
      rewrite <- HIe. destruct I, anys; reflexivity.
    + rewrite (app_assoc ini), rev_app_distr. cbn [rev app is_final negb andb map].
      apply join_star.
Qed.

Lemma filter_ind2 (P : filter -> Prop) :
  (forall l, Forall P l -> P (FAnd l)) -> (forall l, Forall P l -> P (FOr l)) ->
  (forall f, P f -> P (FNot f)) -> (forall a v, P (FEq a v)) -> (forall a v, P (FApprox a v)) ->
  (forall a v, P (FGe a v)) -> (forall a v, P (FLe a v)) -> (forall a, P (FPresent a)) ->
  (forall a s, P (FSubs a s)) -> (forall a d r v, P (FExt a d r v)) -> forall f, P f.
Proof.
  intros H1 H2 H3 H4 H5 H6 H7 H8 H9 H10. fix IH 1. intros f; destruct f as [l|l|f|a v|a v|a v|a v|a|a s|a d r v].
  - apply H1. induction l; constructor; [apply IH|assumption].
  - apply H2. induction l; constructor; [apply IH|assumption].
  - apply H3, IH.
  - apply H4.
  - apply H5.
  - apply H6.
  - apply H7.
  - apply H8.
  - apply H9.
  - apply H10.
Qed.


Lemma print_list l : Forall (fun f => valid f -> std_text (norm f) (print f)) l -> Forall valid l ->
  std_texts (map norm l) (flat_map print l).
Proof.
  induction 1 as [|g l Hg Hl IH]; intros Hv; [constructor|]. inversion Hv; subst.
  cbn [map flat_map]. constructor; auto.
Qed.
Lemma cmp_print f b s : cmp_text f b -> s = lit "(" ++ b ++ lit ")" -> std_text f s.
Proof. intros H ->. now constructor. Qed.

Lemma print_std f : valid f -> std_text (norm f) (print f).
Proof.
  induction f as [l IH|l IH|f IH|a v|a v|a v|a v|a|a s|a d r v] using filter_ind2; intros H; inversion H; subst.
  - cbn [norm print]. apply st_and; [destruct l; [congruence|discriminate]|]. now apply print_list.
  - cbn [norm print]. apply st_or; [destruct l; [congruence|discriminate]|]. now apply print_list.
  - cbn [norm print]. constructor; auto.
  - eapply cmp_print; [apply ct_eq; eassumption|]. cbn [print]. now rewrite <- !app_assoc.
  - eapply cmp_print; [apply ct_approx; eassumption|]. cbn [print]. now rewrite <- !app_assoc.
  - eapply cmp_print; [apply ct_ge; eassumption|]. cbn [print]. now rewrite <- !app_assoc.
  - eapply cmp_print; [apply ct_le; eassumption|]. cbn [print]. now rewrite <- !app_assoc.
  - eapply cmp_print; [apply (ct_subs a [] [] []); try constructor; eassumption|].
    cbn [print map List.concat app]. now rewrite <- !app_assoc.
  - destruct (print_subs a s) as (ini & anys & fin & Hi & Hany & Hf & E1 & E2); auto.
    cbn [norm print]. rewrite <- E1. eapply cmp_print; [apply ct_subs; assumption|].
    rewrite E2, <- !app_assoc. reflexivity.
  - cbn [norm]. destruct a as [a|].
    + eapply cmp_print; [apply ct_ext; eassumption|]. unfold ext_text. cbn [print].
      now rewrite <- !app_assoc.
    + destruct r as [r|]; [|congruence]. eapply cmp_print; [apply ct_ext0; eassumption|].
      unfold ext_text. cbn [print]. now rewrite <- !app_assoc.
Qed.

Lemma norm_id f : no_trailing_any f -> norm f = f.
Proof.
  assert (Hl : forall l, Forall (fun f => no_trailing_any f -> norm f = f) l ->
    (fix all l := match l with [] => True | g :: l' => no_trailing_any g /\ all l' end) l ->
    map norm l = l).
  { induction 1 as [|g l Hg Hl IH]; [reflexivity|]. intros [H1 H2]. cbn [map]. rewrite Hg, IH; auto. }
  induction f as [l IH|l IH|f IH|a v|a v|a v|a v|a|a s|a d r v] using filter_ind2; cbn [norm no_trailing_any];
    intros H; auto.
  - now rewrite Hl.
  - now rewrite Hl.
  - now rewrite IH.
  - unfold drop_last_any. destruct (rev s) as [|[k v] l] eqn:E; [reflexivity|].
    destruct k; auto. destruct v as [|c v]; auto. exfalso; apply H. exists (rev l).
    rewrite <- (rev_involutive s), E. reflexivity.
Qed.

(** sem of a logic expression is valid when its leaves are *)
Lemma sem_valid (L : str -> filter -> Prop) : (forall w f, L w f -> valid f) ->
  (forall t, ok_t L t -> valid (sem_t t))
  /\ (forall c, ok_c L c -> Forall valid (sem_c c) /\ sem_c c <> [])
  /\ (forall e, ok_e L e -> Forall valid (sem_e e) /\ sem_e e <> []).
Proof.
  intros HL.
  assert (Hc : forall mk l, (forall l, l <> [] -> Forall valid l -> valid (mk l)) ->
    Forall valid l /\ l <> [] -> valid (conn mk l)).
  { intros mk l Hmk [H1 H2]. unfold conn. destruct l as [|x [|y l]]; auto. now inversion H1. }
  apply (logic_mut (fun t => ok_t L t -> valid (sem_t t))
    (fun c => ok_c L c -> Forall valid (sem_c c) /\ sem_c c <> [])
    (fun e => ok_e L e -> Forall valid (sem_e e) /\ sem_e e <> [])); cbn [ok_t ok_c ok_e sem_t sem_c sem_e].
  - intros w f H; eauto.
  - intros sp t IH [_ H]. constructor; auto.
  - intros sp1 e IH sp2 (_ & H & _). apply Hc; auto using va_or.
  - intros t IH H. split; [|discriminate]. auto.
  - intros t IH sp1 sp2 c IHc (H & _ & _ & H2). split; [|discriminate]. constructor; auto. now apply IHc.
  - intros c IH H. split; [|discriminate]. constructor; auto. apply Hc; auto using va_and.
  - intros c IH sp1 sp2 e IHe (H & _ & _ & H2). split; [|discriminate].
    constructor; [apply Hc; auto using va_and|]. now apply IHe.
Qed.
Lemma unified_valid s f : parse_unified s = Ok f -> valid f.
Proof.
  intros H; apply unified_iff in H as (e & He & _ & <-). unfold sem.
  destruct (proj2 (proj2 (sem_valid std_leaf (fun w f => proj1 std_text_valid_mut f w))) e He) as [H1 H2].
  unfold conn. destruct (sem_e e) as [|x [|y l]]; [congruence|now inversion H1|].
  constructor; [discriminate|assumption].
Qed.

Lemma simple_unified s f : parse_simple_filter s = Ok f -> parse_unified s = Ok f.
Proof.
  intros H; apply simple_iff in H as (e & He & Hs & Hf). apply unified_iff. exists e. split; auto.
  revert e He Hs Hf. intros e He _ _.
  apply (proj2 (proj2 (ok_mono cmp_leaf std_leaf (fun w f H => match H with
     | ex_intro _ b (conj Hw Hb) => eq_ind_r (fun w => std_leaf w f) (st_cmp f b Hb) Hw end)))); assumption.
Qed.
Lemma standard_unified s f : parse_standard_filter s = Ok f -> parse_unified s = Ok f.
Proof.
  intros H; apply standard_iff in H. apply unified_iff. exists (E1 (C1 (TLeaf s f))). auto.
Qed.

(** ** escape *)
Definition specials : list N := map fst escape_map.
Definition esc1 (c : N) : str := escape [c].

Lemma replace1_app c w s t : replace1 c w (s ++ t) = replace1 c w s ++ replace1 c w t.
Proof. apply flat_map_app. Qed.
Lemma escape_app s t : escape (s ++ t) = escape s ++ escape t.
Proof.
  unfold escape. generalize escape_map as l. intros l; revert s t.
  induction l as [|rep l IH]; intros s t; cbn [fold_left]; [reflexivity|].
  now rewrite replace1_app, IH.
Qed.
Lemma escape_nil : escape [] = [].
Proof. reflexivity. Qed.
Lemma escape_flat s : escape s = flat_map esc1 s.
Proof.
  induction s as [|c s IH]; [reflexivity|].
  change (c :: s) with ([c] ++ s). rewrite escape_app, IH. reflexivity.
Qed.
(** one character: mapped, or left as it is *)
Lemma esc1_cases c :
  (exists h1 h2, esc1 c = [ch "\"; h1; h2] /\ is_hex h1 = true /\ is_hex h2 = true
     /\ (16 * hexval h1 + hexval h2 = c)%N /\ In c specials)
  \/ (esc1 c = [c] /\ ~ In c specials).
Proof.
  destruct (in_dec N.eq_dec c specials) as [Hin|Hn].
  - left. unfold specials in Hin. cbn [map fst escape_map] in Hin.
    repeat (destruct Hin as [<-|Hin]; [eexists _, _; split; [reflexivity|];
      split; [reflexivity|]; split; [reflexivity|]; split; [reflexivity|cbn; tauto]|]).
    destruct Hin.
  - right; split; [|assumption].
    assert (H : forall l, (forall rep, In rep l -> fst rep <> c) ->
       fold_left (fun s rep => replace1 (fst rep) (snd rep) s) l [c] = [c]).
    { induction l as [|rep l IH]; intros Hl; cbn [fold_left]; [reflexivity|].
      assert (E : replace1 (fst rep) (snd rep) [c] = [c]).
      { unfold replace1. cbn [flat_map]. destruct (N.eqb_spec c (fst rep)) as [E|E]; [|reflexivity].
        exfalso; apply (Hl rep); [now left|auto]. }
      rewrite E. apply IH. intros r Hr; apply Hl; now right. }
    apply H. intros rep Hr E. apply Hn. rewrite <- E. unfold specials. now apply in_map.
Qed.
Lemma escape_safe s c : In c (escape s) -> ~ In c specials.
Proof.
  rewrite escape_flat, in_flat_map. intros (x & _ & Hx).
  destruct (esc1_cases x) as [(h1 & h2 & E & H1 & H2 & _)|[E Hn]]; rewrite E in Hx.
  - assert (Hs : forall y, y = ch "\" \/ is_hex y = true -> ~ In y specials).
    { intros y Hy Hin. unfold specials in Hin. cbn [map fst escape_map] in Hin.
      repeat (destruct Hin as [<-|Hin]; [destruct Hy as [Hy|Hy]; [discriminate Hy|vm_compute in Hy; discriminate Hy]|]).
      destruct Hin. }
    destruct Hx as [<-|[<-|[<-|[]]]]; apply Hs; auto.
  - destruct Hx as [<-|[]]; assumption.
Qed.

Lemma normal_special c : c <> 0%N -> c <> ch "\" -> ~ In c specials -> is_normal c = true.
Proof.
  intros H0 Hb Hs. unfold is_normal.
  destruct (N.eqb_spec c 0) as [|_]; [congruence|].
  destruct (N.eqb_spec c (ch "\")) as [|_]; [congruence|].
  destruct (N.eqb_spec c (ch "(")) as [->|_]; [exfalso; apply Hs; cbn; tauto|].
  destruct (N.eqb_spec c (ch ")")) as [->|_]; [exfalso; apply Hs; cbn; tauto|].
  destruct (N.eqb_spec c (ch "*")) as [->|_]; [exfalso; apply Hs; cbn; tauto|].
  reflexivity.
Qed.
Lemma escape_value s : ~ In 0%N s -> ~ In (ch "\") s -> value_text (escape s).
Proof.
  rewrite escape_flat. induction s as [|c s IH]; intros H0 Hb; [constructor|].
  cbn [flat_map]. assert (Hs : value_text (flat_map esc1 s)) by (apply IH; cbn in *; tauto).
  destruct (esc1_cases c) as [(h1 & h2 & E & H1 & H2 & _)|[E Hn]]; rewrite E; cbn [app].
  - now constructor.
  - constructor; auto. apply normal_special; cbn in *; intuition.
Qed.
Lemma escape_NUL s : In 0%N s -> In 0%N (escape s).
Proof.
  intros H. rewrite escape_flat. apply in_flat_map. exists 0%N. split; [assumption|].
  vm_compute; auto.
Qed.
Lemma unescape_escape s : ~ In (ch "\") s -> unescape (escape s) = s.
Proof.
  rewrite escape_flat. induction s as [|c s IH]; intros Hb; [reflexivity|].
  cbn [flat_map]. assert (Hs : unescape (flat_map esc1 s) = s) by (apply IH; cbn in *; tauto).
  destruct (esc1_cases c) as [(h1 & h2 & E & H1 & H2 & Hv & _)|[E Hn]]; rewrite E; cbn [app].
  - cbn [unescape]. chars. rewrite N.eqb_refl, H1, H2. cbn [andb]. now rewrite Hv, Hs.
  - assert (Hc : N.eqb c (ch "\") = false) by (apply N.eqb_neq; intros ->; apply Hb; now left).
    rewrite <- Hs at 2. destruct (flat_map esc1 s) as [|h1 [|h2 r]]; try reflexivity.
    change (unescape (c :: h1 :: h2 :: r)) with
      (if N.eqb c (ch "\") && is_hex h1 && is_hex h2
       then (16 * hexval h1 + hexval h2)%N :: unescape r else c :: unescape (h1 :: h2 :: r)).
    now rewrite Hc.
Qed.

(** A parsed comparison whose value text has no parenthesis or star is that comparison. *)
Definition eq_text (a s : str) : str := lit "(" ++ a ++ lit "=" ++ escape s ++ lit ")".

Lemma avalue_escape s x v r : avalue (escape s ++ ch ")" :: x) = (v, r) ->
  (v = escape s /\ r = ch ")" :: x) \/ (exists c y, r = c :: y /\ c <> ch "*" /\ c <> ch ")").
Proof.
  intros H. apply avalue_sound in H as (E & Hv & Hr).
  assert (Hsplit : exists z, escape s = v ++ z /\ r = z ++ ch ")" :: x).
  { assert (Hnp : ~ In (ch ")") v).
    { clear - Hv. induction Hv as [|c v Hc Hv IH|h1 h2 v H1 H2 Hv IH]; [tauto| |].
      - intros [->|H]; [discriminate Hc|tauto].
      - intros [H|[->|[->|H]]]; [discriminate H|discriminate H1|discriminate H2|tauto]. }
    clear Hr Hv. revert v E Hnp. generalize (escape s) as w. induction w as [|c w IH]; intros v E Hnp.
    - destruct v as [|d v]; [exists []; cbn in *; auto|]. cbn in E. injection E as E _.
      exfalso; apply Hnp; left; now rewrite <- E.
    - destruct v as [|d v]; [exists (c :: w); cbn in *; auto|]. cbn in E. injection E as -> E.
      destruct (IH v E) as (z & -> & Hz); [cbn in Hnp; tauto|]. exists z; auto. }
  destruct Hsplit as (z & Ez & ->). destruct z as [|c z]; [left; rewrite Ez, app_nil_r; auto|].
  right. exists c, (z ++ ch ")" :: x). split; [reflexivity|].
  assert (Hs : ~ In c specials) by (apply (escape_safe s); rewrite Ez; apply in_or_app; right; now left).
  split; intros ->; apply Hs; cbn; tauto.
Qed.

Lemma ava_escape a s x : attr_text a ->
  (exists y, ava (a ++ lit "=" ++ escape s ++ ch ")" :: x) = Some (FEq a (escape s), y) /\ y = ch ")" :: x)
  \/ (forall f y, ava (a ++ lit "=" ++ escape s ++ ch ")" :: x) = Some (f, y) ->
        exists c y', y = c :: y' /\ c <> ch ")").
Proof.
  intros Ha. destruct (avalue (escape s ++ ch ")" :: x)) as [v r] eqn:E.
  pose proof (avalue_escape _ _ _ _ E) as Hc.
  assert (Hat : forall y, attr (a ++ lit "=" ++ y) = Some (a, lit "=" ++ y))
    by (intros y; now apply attr_app).
  assert (Hs : substring (a ++ lit "=" ++ escape s ++ ch ")" :: x) = None).
  { unfold substring. rewrite Hat, plit_app, E. rewrite plit_None'; [reflexivity|].
    intros [z Hz]. destruct Hc as [[_ ->]|(c & y & -> & Hc1 & _)]; [discriminate|].
    cbn in Hz. injection Hz as Hz _. apply Hc1. exact Hz. }
  assert (Hm : simple (a ++ lit "=" ++ escape s ++ ch ")" :: x) = Some (FEq a v, r)).
  { unfold simple. rewrite Hat. change (filtertype (lit "=" ++ ?y)) with (Some (FEq, y)). cbv iota beta.
    now rewrite E. }
  unfold ava, palt. rewrite Hs, Hm.
  destruct Hc as [[-> ->]|(c & y & -> & _ & Hc)].
  - left. eexists; split; reflexivity.
  - right. intros f y' H; injection H as <- <-. eauto.
Qed.

(** in any context: the comparison is read as itself or not at all *)
Lemma std_escape a s n x : attr_text a ->
  std_n n (eq_text a s ++ x) = None \/ std_n n (eq_text a s ++ x) = Some (FEq a (escape s), x).
Proof.
  intros Ha. destruct n as [|n]; [now left|]. cbn [std_n]. unfold std_step, eq_text.
  rewrite <- !app_assoc, plit_app. unfold palt.
  pose proof (attr_head a Ha) as (c & w & Ea & Hc).
  assert (Hno : forall d y, is_alpha d = false -> is_digit d = false -> plit [d] (a ++ y) = None).
  { intros d y H1 H2. rewrite Ea. cbn [app]. apply plit_ne. intros ->. destruct Hc; congruence. }
  change (lit "&") with [ch "&"]. change (lit "|") with [ch "|"]. change (lit "!") with [ch "!"].
  rewrite !Hno by reflexivity. change (lit ")" ++ x) with (ch ")" :: x).
  destruct (ava_escape a s x Ha) as [(y & -> & ->)|H].
  - right; reflexivity.
  - left. destruct (ava (a ++ lit "=" ++ escape s ++ ch ")" :: x)) as [[f y]|] eqn:E; [|reflexivity].
    destruct (H f y eq_refl) as (d & y' & -> & Hd). rewrite plit_None'; [reflexivity|].
    intros [z Hz]; cbn in Hz; injection Hz as Hz _. apply Hd. exact Hz.
Qed.

Lemma eq_shape a s : attr_text a -> exists b, eq_text a s = ch "(" :: b /\ forall x,
   ~ looks_like_term (b ++ x) /\ stops is_space (b ++ x) /\ b <> [].
Proof.
  intros Ha. exists (a ++ lit "=" ++ escape s ++ lit ")"). split; [reflexivity|]. intros x.
  split; [|split].
  - intros (c & r & Ec & Hc).
    assert (Hl : looks_like_term ((a ++ lit "=" ++ []) ++ ch ")" :: [])).
    { exists c. 
      assert (Hg : forall y z, exists r1, after_key (a ++ lit "=" ++ y) = after_key (a ++ lit "=" ++ z)
         \/ exists d r2 r3, after_key (a ++ lit "=" ++ y) = d :: r2 /\ after_key (a ++ lit "=" ++ z) = d :: r3 /\ r1 = r3).
      { intros y z. unfold after_key. clear. change (lit "=" ++ y) with (ch "=" :: y). change (lit "=" ++ z) with (ch "=" :: z).
        induction a as [|d a IH]; cbn [app].
        - eexists; right. eexists _, _, _. cbn. repeat split; reflexivity.
        - cbn [pspan]. destruct (is_keychar d).
          + destruct IH as (r1 & IH). exists r1.
            destruct (pspan is_keychar (a ++ ch "=" :: y)), (pspan is_keychar (a ++ ch "=" :: z)); exact IH.
          + eexists; right. eexists _, _, _. repeat split; reflexivity. }
      rewrite <- !app_assoc in Ec. rewrite <- !app_assoc. cbn [app].
      destruct (Hg (escape s ++ lit ")" ++ x) [ch ")"]) as (r1 & [He|(d & r2 & r3 & E1 & E2 & _)]).
      - rewrite <- He. exists r; auto.
      - rewrite Ec in E1. injection E1 as <- <-. exists r3; auto. }
    revert Hl. apply (cmp_after_key (FEq a [])). constructor; [assumption|constructor].
  - apply attr_head in Ha as (c & w & -> & Hc). cbn [app stops].
    destruct Hc as [Hc|Hc]; unfold is_alpha, is_digit, is_space, between, ch in *; cbn in *; lia.
  - apply attr_head in Ha as (c & w & -> & Hc). discriminate.
Qed.

Lemma std_is_paren : leaf_paren standard_filter.
Proof.
  intros s f r H. apply standard_filter_sound in H as (w & -> & Hw).
  apply std_text_ne in Hw as (w' & -> & _). eexists; reflexivity.
Qed.
(** the same through the unified grammar: no logic expression can start inside *)
Lemma unified_term_paren n s b : s = ch "(" :: b -> ~ looks_like_term b -> stops is_space b ->
  term_n standard_filter (S n) s = standard_filter s.
Proof.
  intros -> H1 H2. cbn [term_n]. cbv zeta. unfold palt.
  change (not_exp ?t (ch "(" :: b)) with (@None (filter * str)).
  unfold paren_term. change (plit (lit "(") (ch "(" :: b)) with (Some b). cbv iota beta.
  assert (E : pspaces b = b) by (apply (pspaces_app [] b); [constructor|assumption]).
  rewrite E. unfold logic, component.
  destruct (term_n standard_filter n b) as [[f r]|] eqn:Et; [|reflexivity].
  exfalso; apply H1. eapply term_looks; [apply std_is_paren|exact Et].
Qed.
Lemma unified_of_standard_None s b : s = ch "(" :: b -> ~ looks_like_term b -> stops is_space b ->
  (forall f r, standard_filter s = Some (f, r) -> r = []) ->
  parse_unified s = parse_standard_filter s.
Proof.
  intros Hs H1 H2 H. unfold parse_unified, parse_standard_filter, parse_all, logic_filter, logic, component.
  destruct (List.length s) as [|n] eqn:El; [rewrite Hs in El; discriminate|].
  rewrite (unified_term_paren n s b Hs H1 H2).
  destruct (standard_filter s) as [[f r]|] eqn:E; [|reflexivity].
  rewrite (H f r eq_refl). reflexivity.
Qed.

Lemma escape_equality a s F : attr_text a -> parse_unified (eq_text a s) = Ok F ->
  F = FEq a (escape s).
Proof.
  intros Ha H. pose proof (eq_shape a s Ha) as (b & Eb & Hb). destruct (Hb []) as (H1 & H2 & _).
  rewrite app_nil_r in H1, H2.
  assert (Hst : forall f r, standard_filter (eq_text a s) = Some (f, r) -> f = FEq a (escape s) /\ r = []).
  { intros f r E. unfold standard_filter in E. rewrite <- (app_nil_r (eq_text a s)) in E at 2.
    destruct (std_escape a s (List.length (eq_text a s)) [] Ha) as [E2|E2]; rewrite E2 in E; [discriminate|].
    now injection E as <- <-. }
  rewrite (unified_of_standard_None _ b Eb H1 H2) in H by (intros f r E; now apply Hst in E).
  unfold parse_standard_filter in H. apply parse_all_sound in H. now apply Hst in H as [-> _].
Qed.

(** conjunctions/disjunctions of such comparisons *)
Definition eqs_text (l : list (str * str)) : str := List.concat (map (fun p => eq_text (fst p) (snd p)) l).
Lemma many_escape n l x xs r : Forall (fun p => attr_text (fst p)) l ->
  many (std_n n) (eqs_text l ++ ch ")" :: x) xs r ->
  (exists r', r = ch ")" :: r') ->
  xs = map (fun p => FEq (fst p) (escape (snd p))) l /\ r = ch ")" :: x.
Proof.
  intros Hl; revert xs; induction Hl as [|[a s] l Ha Hl IH]; intros xs Hm [r' Hr]; cbn [eqs_text map List.concat app] in Hm.
  - inversion Hm as [? Hn|? y r1 ys ? Hp Hm']; subst; [auto|]. rewrite std_n_rparen in Hp; discriminate.
  - unfold eqs_text in Hm. cbn [map List.concat fst snd] in Hm. rewrite <- app_assoc in Hm.
    cbn [fst] in Ha. set (tl := List.concat (map (fun p => eq_text (fst p) (snd p)) l) ++ ch ")" :: x) in *.
    inversion Hm as [? Hn|? y r1 ys ? Hp Hm']; subst.
    + discriminate.
    + destruct (std_escape a s n tl Ha) as [E|E]; rewrite E in Hp; [discriminate|].
      injection Hp as <- <-. destruct (IH ys Hm') as [-> ->]; [eauto|]. auto.
Qed.
Lemma escape_list (mk : list filter -> filter) (op : N) l F :
  (op = ch "&" /\ mk = FAnd) \/ (op = ch "|" /\ mk = FOr) ->
  Forall (fun p => attr_text (fst p)) l ->
  parse_unified (ch "(" :: op :: eqs_text l ++ lit ")") = Ok F ->
  F = mk (map (fun p => FEq (fst p) (escape (snd p))) l).
Proof.
  intros Hop Hl H. set (b := op :: eqs_text l ++ lit ")") in *.
  assert (H1 : ~ looks_like_term b).
  { intros (c & r & Ec & Hc). unfold b in Ec.
    rewrite after_key_stop in Ec by (destruct Hop as [[-> _]|[-> _]]; reflexivity).
    injection Ec as <- _. destruct Hop as [[-> _]|[-> _]];
      (destruct Hc as [Hc|Hc]; [discriminate Hc|vm_compute in Hc; discriminate]). }
  assert (H2 : stops is_space b) by (destruct Hop as [[-> _]|[-> _]]; reflexivity).
  assert (Hst : forall f r, standard_filter (ch "(" :: b) = Some (f, r) ->
     f = mk (map (fun p => FEq (fst p) (escape (snd p))) l) /\ r = []).
  { intros f r E. unfold standard_filter in E. destruct (List.length (ch "(" :: b)) as [|n]; [discriminate|].
    cbn [std_n] in E. unfold std_step in E. change (plit (lit "(") (ch "(" :: b)) with (Some b) in E.
    cbv iota beta zeta in E. unfold palt in E.
    assert (Hava : ava b = None).
    { destruct (ava b) as [[g y]|] eqn:Ea; [|reflexivity]. apply ava_sound in Ea as (z & Ez & Hz).
      apply cmp_head in Hz as (c & w & -> & Hc). unfold b in Ez. injection Ez as <- _.
      destruct Hop as [[-> _]|[-> _]]; (destruct Hc as [Hc|[Hc|Hc]];
        [vm_compute in Hc; discriminate|vm_compute in Hc; discriminate|discriminate Hc]). }
    rewrite Hava in E.
    assert (Hfin : forall l0 r0 r3, pmany1 (std_n n) (eqs_text l ++ lit ")") = Some (l0, r0) ->
        plit (lit ")") r0 = Some r3 ->
        l0 = map (fun p => FEq (fst p) (escape (snd p))) l /\ r3 = []).
    { intros l0 r0 r3 Em Er. apply (pmany1_many _ (std_ok_consumes _ (std_sound n))) in Em as [_ Em].
      apply plit_sound in Er as ->. apply (many_escape n l []) in Em as [-> E2]; auto.
      - split; [reflexivity|]. cbn in E2. now injection E2.
      - eexists; reflexivity. }
    destruct Hop as [[-> ->]|[-> ->]]; unfold b in E.
    - change (plit (lit "&") (ch "&" :: ?y)) with (Some y) in E.
      change (plit (lit "|") (ch "&" :: ?y)) with (@None str) in E.
      change (plit (lit "!") (ch "&" :: ?y)) with (@None str) in E. cbv iota beta in E.
      destruct (pmany1 (std_n n) (eqs_text l ++ lit ")")) as [[l0 r0]|] eqn:Em; [|discriminate].
      destruct (plit (lit ")") r0) as [r3|] eqn:Er; [|discriminate]. injection E as <- <-.
      destruct (Hfin _ _ _ eq_refl Er) as [-> ->]; auto.
    - change (plit (lit "|") (ch "|" :: ?y)) with (Some y) in E.
      change (plit (lit "&") (ch "|" :: ?y)) with (@None str) in E.
      change (plit (lit "!") (ch "|" :: ?y)) with (@None str) in E. cbv iota beta in E.
      destruct (pmany1 (std_n n) (eqs_text l ++ lit ")")) as [[l0 r0]|] eqn:Em; [|discriminate].
      destruct (plit (lit ")") r0) as [r3|] eqn:Er; [|discriminate]. injection E as <- <-.
      destruct (Hfin _ _ _ eq_refl Er) as [-> ->]; auto. }
  rewrite (unified_of_standard_None (ch "(" :: b) b eq_refl H1 H2) in H
    by (intros f r E; now apply Hst in E).
  unfold parse_standard_filter in H. apply parse_all_sound in H. now apply Hst in H as [-> _].
Qed.
