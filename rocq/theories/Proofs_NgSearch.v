(** * Lemmas for C76 *)
From Verif Require Import PyBase Model_Filter Spec_Filter Proofs_Filter Proofs_Filter2 Model_Controls Spec_Controls Model_Search Model_Request
  Spec_Request Proofs_Request Spec_NgSearch.

Local Notation lp := (ch "(").
Local Notation rp := (ch ")").
Lemma count_app c s t : count c (s ++ t) = count c s + count c t.
Proof. apply count_occ_app. Qed.
Lemma count_not c s : ~ In c s -> count c s = 0.
Proof. apply count_occ_not_In. Qed.

Definition noparen (s : str) : Prop := ~ In lp s /\ ~ In rp s.
Lemma noparen_app s t : noparen s -> noparen t -> noparen (s ++ t).
Proof. intros [A B] [C D]. split; intros H; apply in_app_or in H; tauto. Qed.
Lemma noparen_concat {A} (g : A -> str) l : (forall x, In x l -> noparen (g x)) -> noparen (List.concat (map g l)).
Proof.
  induction l as [|x l IH]; intros H; [split; intros []|]. cbn [map List.concat]. apply noparen_app; [apply H; now left|].
  apply IH. intros y Hy. apply H. now right.
Qed.
Lemma noparen_forall (p : N -> bool) s : p lp = false -> p rp = false -> Forall (fun x => p x = true) s -> noparen s.
Proof. intros A B F. rewrite Forall_forall in F. split; intros H; apply F in H; congruence. Qed.
Lemma noparen_value v : value_text v -> noparen v.
Proof.
  induction 1 as [|c v Hc _ IH|h1 h2 v H1 H2 _ IH]; [split; intros []| |].
  - apply (noparen_app [c]); [|exact IH]. apply (noparen_forall is_normal); [reflexivity|reflexivity|auto].
  - apply (noparen_app [ch "\"]); [split; intros [X|[]]; discriminate|].
    apply (noparen_app [h1; h2]); [|exact IH]. apply (noparen_forall is_hex); [reflexivity|reflexivity|auto].
Qed.
Lemma noparen_keystring k : keystring_text k -> noparen k.
Proof.
  intros (c & w & -> & Hc & Hw). apply (noparen_forall is_keychar); [reflexivity|reflexivity|].
  constructor; [now apply alpha_keychar|exact Hw].
Qed.
Lemma noparen_digit n : digit_text n -> noparen n.
Proof. intros (d & -> & Hd). apply (noparen_forall is_digit); [reflexivity|reflexivity|auto]. Qed.
Lemma noparen_oid o : oid_text o -> noparen o.
Proof.
  intros [H|(n & l & -> & Hn & _ & Hl)]; [now apply noparen_keystring|].
  apply noparen_app; [now apply noparen_digit|]. apply noparen_concat. intros m Hm. rewrite Forall_forall in Hl.
  apply noparen_app; [split; intros [X|[]]; discriminate|]. now apply noparen_digit, Hl.
Qed.
Lemma noparen_attr a : attr_text a -> noparen a.
Proof.
  intros (o & opts & -> & Ho & Hl). apply noparen_app; [now apply noparen_oid|]. apply noparen_concat. intros m Hm. rewrite Forall_forall in Hl.
  apply noparen_app; [split; intros [X|[]]; discriminate|]. apply (noparen_forall is_keychar); [reflexivity|reflexivity|]. now apply Hl.
Qed.
Ltac np := unfold noparen; vm_compute; intuition discriminate.
Lemma noparen_ext a dn rule v : noparen a -> rule_ok dn rule -> noparen v -> noparen (ext_text a dn rule v).
Proof.
  intros Ha Hr Hv. unfold ext_text. apply noparen_app; [exact Ha|]. apply noparen_app; [destruct dn; np|].
  apply noparen_app; [|apply noparen_app; [np|exact Hv]]. destruct rule as [r|]; [|np].
  apply noparen_app; [np|]. apply noparen_oid, Hr.
Qed.
Lemma noparen_cmp f b : cmp_text f b -> noparen b.
Proof.
  intros H. destruct H as [a v Ha Hv|a v Ha Hv|a v Ha Hv|a v Ha Hv|a ini anys fin Ha Hi Hy Hf|a dn rule v Ha Hr Hv|dn r v Hr Hv].
  1-4: apply noparen_app; [now apply noparen_attr|apply noparen_app; [np|now apply noparen_value]].
  - apply noparen_app; [now apply noparen_attr|]. apply noparen_app; [np|]. apply noparen_app; [now apply noparen_value|].
    apply noparen_app; [np|]. apply noparen_app; [|now apply noparen_value]. apply noparen_concat. intros m Hm. rewrite Forall_forall in Hy.
    apply noparen_app; [now apply noparen_value, Hy|np].
  - apply noparen_ext; [now apply noparen_attr|exact Hr|now apply noparen_value].
  - apply noparen_ext; [np|exact Hr|now apply noparen_value].
Qed.

(** as many parentheses closed as opened *)
Definition bal (s : str) : Prop := count lp s = count rp s.
Lemma bal_noparen s : noparen s -> bal s.
Proof. intros [A B]. unfold bal. now rewrite !count_not. Qed.
Lemma bal_app s t : bal s -> bal t -> bal (s ++ t).
Proof. unfold bal. rewrite !count_app. lia. Qed.
Lemma bal_paren s : bal s -> bal (lit "(" ++ s ++ lit ")").
Proof. unfold bal. intros H. rewrite !count_app. change (count lp (lit "(")) with 1. change (count rp (lit "(")) with 0.
  change (count lp (lit ")")) with 0. change (count rp (lit ")")) with 1. lia. Qed.
Lemma std_bal : (forall f s, std_text f s -> bal s) /\ (forall l s, std_texts l s -> bal s).
Proof.
  apply std_text_mut.
  - intros l ss Hl _ H. change (lit "(&") with (lit "(" ++ lit "&"). rewrite <- app_assoc. rewrite (app_assoc (lit "&")).
    apply bal_paren, bal_app; [reflexivity|exact H].
  - intros l ss Hl _ H. change (lit "(|") with (lit "(" ++ lit "|"). rewrite <- app_assoc. rewrite (app_assoc (lit "|")).
    apply bal_paren, bal_app; [reflexivity|exact H].
  - intros f s _ H. change (lit "(!") with (lit "(" ++ lit "!"). rewrite <- app_assoc. rewrite (app_assoc (lit "!")).
    apply bal_paren, bal_app; [reflexivity|exact H].
  - intros f b H. apply bal_paren, bal_noparen. now apply (noparen_cmp f).
  - reflexivity.
  - intros f l s ss _ H _ H'. now apply bal_app.
Qed.

(** splitting at the first parenthesis *)
Lemma split_first (c d : N) a b x y : ~ In c a -> ~ In d a -> ~ In c x -> ~ In d x -> a ++ c :: b = x ++ d :: y -> a = x /\ c = d /\ b = y.
Proof.
  revert x. induction a as [|u a IH]; intros [|w x] A B C D E; cbn [app] in E.
  - injection E as -> ->. auto.
  - injection E as -> _. exfalso. apply C. now left.
  - injection E as -> _. exfalso. apply B. now left.
  - injection E as -> E. destruct (IH x) as (-> & -> & ->); auto; intros X; [apply A|apply B|apply C|apply D]; now right.
Qed.

Definition ng_text : str := lit "(objectClass=nisNetgroup)".
(** the text, independently of the model *)
Definition whole (F : str) : str := lit "(&(objectClass=nisNetgroup)" ++ F ++ lit ")".
Lemma whole_eq F : whole F = lit "(&" ++ (ng_text ++ F) ++ lit ")".
Proof. unfold whole, ng_text. rewrite <- !app_assoc. reflexivity. Qed.
Lemma ng_std : std_text is_netgroup ng_text.
Proof. apply standard_iff. vm_compute. reflexivity. Qed.
Lemma last_paren (a b : str) : a ++ lit ")" = b ++ lit ")" -> a = b.
Proof. apply app_inv_tail. Qed.

Lemma std_first g s t F : std_text g s -> s ++ t = ng_text ++ F -> s = ng_text.
Proof.
  intros Hs E2. destruct Hs as [m u Hm Ht|m u Hm Ht|g u Ht|g b Hb].
  1-3: cbv in E2; discriminate E2.
  pose proof (noparen_cmp g b Hb) as [B1 B2].
  assert (S : b = lit "objectClass=nisNetgroup" /\ rp = rp /\ t = F).
  { apply split_first; [exact B2|exact B2|vm_compute; intuition discriminate|vm_compute; intuition discriminate|].
    apply (app_inv_head (lit "(")). rewrite <- !app_assoc in E2. exact E2. }
  destruct S as (-> & _ & _). reflexivity.
Qed.
Lemma first_is_ng g l ss F : std_texts (g :: l) ss -> ss = ng_text ++ F -> g = is_netgroup /\ std_texts l F.
Proof.
  remember (g :: l) as gl eqn:Eg. intros H E2. destruct H as [|f l' s ss' Hs Hss]; [discriminate|]. injection Eg as -> ->.
  pose proof (std_first g s ss' F Hs E2) as ->. apply app_inv_head in E2. subst ss'. split; [|exact Hss].
  apply standard_iff in Hs. pose proof (proj2 (standard_iff _ _) ng_std) as Hn. congruence.
Qed.

(** the standard texts among the filters sent *)
Lemma std_ng f F : std_text f (whole F) <-> exists fs, f = FAnd (is_netgroup :: fs) /\ std_texts fs F.
Proof.
  rewrite whole_eq. split.
  - remember (lit "(&" ++ (ng_text ++ F) ++ lit ")") as T eqn:E4. intros H. destruct H as [m t Hm Ht|m t Hm Ht|g t Ht|g b Hb].
    + apply app_inv_head, last_paren in E4. destruct m as [|g l]; [congruence|]. destruct (first_is_ng g l t F Ht E4) as [-> Hl]. eauto.
    + cbv in E4. discriminate E4.
    + cbv in E4. discriminate E4.
    + exfalso. change (lit "(&") with (lit "(" ++ lit "&") in E4. rewrite <- app_assoc in E4. apply app_inv_head in E4. pose proof (noparen_cmp g b Hb) as [B1 B2].
      assert (S : b = lit "&" /\ rp = lp /\ [] = lit "objectClass=nisNetgroup)" ++ F ++ lit ")").
      { apply split_first; [exact B2|exact B1|vm_compute; intuition discriminate|vm_compute; intuition discriminate|].
        change (rp :: []) with (lit ")"). rewrite E4. unfold ng_text. rewrite <- !app_assoc. reflexivity. }
      destruct S as (_ & S & _). discriminate S.
  - intros (fs & -> & H). apply st_and; [discriminate|]. now apply sts_cons; [exact ng_std|].
Qed.

(** the first term of an expression *)
Definition first_c (c : cnj) : term := match c with C1 t => t | CAnd t _ _ _ => t end.
Definition first_e (e : expr) : term := match e with E1 c => first_c c | EOr c _ _ _ => first_c c end.
Lemma first_c_ok L c : ok_c L c -> ok_t L (first_c c).
Proof. destruct c as [t|t s1 s2 c]; cbn [ok_c first_c]; tauto. Qed.
Lemma first_e_ok L e : ok_e L e -> ok_t L (first_e e).
Proof. destruct e as [c|c s1 s2 e]; cbn [ok_e first_e]; [|intros [H _]; revert H]; apply first_c_ok. Qed.
Lemma first_c_render c : exists r, render_c c = render_t (first_c c) ++ r /\ (r = [] -> c = C1 (first_c c)).
Proof.
  destruct c as [t|t s1 s2 c]; cbn [render_c first_c]; [exists []; rewrite app_nil_r; auto|].
  eexists. split; [reflexivity|]. intros H. apply app_eq_nil in H as [_ H]. discriminate H.
Qed.
Lemma first_e_render e : exists r, render_e e = render_t (first_e e) ++ r /\ (r = [] -> e = E1 (C1 (first_e e))).
Proof.
  destruct e as [c|c s1 s2 e]; cbn [render_e first_e]; destruct (first_c_render c) as (r & E & H).
  - exists r. split; [exact E|]. intros Hr. now rewrite <- H.
  - rewrite E. exists (r ++ s1 ++ lit "OR" ++ s2 ++ render_e e). split; [now rewrite <- app_assoc|]. intros X.
    apply app_eq_nil in X as [_ X]. apply app_eq_nil in X as [_ X]. discriminate X.
Qed.
(** what a text starts with *)
Section Head.
  Context (L : str -> filter -> Prop) (HL : forall w f, L w f -> exists r, w = lp :: r).
  Lemma term_head t : ok_t L t -> exists c r, render_t t = c :: r /\ (c = lp \/ c = ch "N").
  Proof.
    destruct t as [w f|s t|s1 e s2]; cbn [ok_t render_t].
    - intros H. destruct (HL w f H) as [r ->]. eauto.
    - intros _. eexists _, _. split; [reflexivity|auto].
    - intros _. eexists _, _. split; [reflexivity|auto].
  Qed.
  (** ... so a text that starts with a parenthesis and an ampersand starts with a leaf *)
  Lemma amp_leaf e s : ok_e L e -> render_e e = lit "(&" ++ s -> exists w f r, L w f /\ lit "(&" ++ s = w ++ r /\ (r = [] -> sem e = f).
  Proof.
    intros He E. destruct (first_e_render e) as (r & Er & H1). pose proof (first_e_ok L e He) as Ht. rewrite Er in E.
    destruct (first_e e) as [w f|s1 t|s1 e' s2] eqn:F; cbn [ok_t render_t] in *.
    - exists w, f, r. split; [exact Ht|]. split; [now symmetry|]. intros Hr. rewrite (H1 Hr). reflexivity.
    - cbv in E. discriminate E.
    - exfalso. destruct Ht as (B1 & He' & _). destruct (first_e_render e') as (r' & Er' & _).
      destruct (term_head _ (first_e_ok L e' He')) as (c & r2 & Ec & Hc).
      rewrite Er', Ec in E. destruct s1 as [|d s1].
      + cbn [app] in E. rewrite <- !app_assoc in E. cbn in E. injection E as E _. destruct Hc as [->| ->]; discriminate E.
      + inversion B1 as [|? ? X _]; subst. cbn in E. injection E as -> _. discriminate X.
  Qed.
End Head.
Lemma std_leaf_head w f : std_leaf w f -> exists r, w = lp :: r.
Proof. intros H. destruct (std_text_ne f w H) as (r & -> & _). eauto. Qed.
Lemma cmp_leaf_head w f : cmp_leaf w f -> exists r, w = lp :: r.
Proof. intros (b & -> & _). eexists. reflexivity. Qed.

(** a proper prefix of the text leaves a parenthesis open *)
Lemma prefix_open F w r : closes_what_it_opens F -> bal w -> w <> [] -> whole F = w ++ r -> r = [].
Proof.
  intros HF HB Hw E. destruct r as [|x r] using rev_ind; [reflexivity|]. clear IHr. exfalso.
  set (h := lit "(&(objectClass=nisNetgroup)"). assert (E' : h ++ F = w ++ r).
  { unfold whole in E. fold h in E. rewrite !app_assoc in E. apply app_inj_tail in E as [E _]. exact E. }
  clear E.
  apply app_eq_app in E' as (l & [(E1 & E2)|(E1 & E2)]).
  - (* w is a prefix of the head *)
    assert (P : forallb (fun n => negb (Nat.eqb (count lp (firstn n h)) (count rp (firstn n h)))) (seq 1 27) = true) by (vm_compute; reflexivity).
    rewrite forallb_forall in P. assert (Hlen : List.length h = List.length w + List.length l) by (rewrite E1 at 1; apply app_length).
    change (List.length h) with 27 in Hlen. assert (Hn : In (List.length w) (seq 1 27)).
    { apply in_seq. destruct w as [|c w]; [congruence|]. cbn [List.length] in *. lia. }
    apply P in Hn. rewrite E1, firstn_app, Nat.sub_diag, firstn_all, app_nil_r in Hn. unfold bal in HB. rewrite HB, Nat.eqb_refl in Hn. discriminate Hn.
  - subst w. unfold bal in HB. rewrite !count_app in HB. pose proof (HF l r E2) as H.
    change (count lp h) with 2 in HB. change (count rp h) with 1 in HB. lia.
Qed.

(** ** What is read of the text *)
Lemma unified_closed F f : closes_what_it_opens F -> (parse_unified (whole F) = Ok f <-> std_text f (whole F)).
Proof.
  intros HF. split.
  - intros H. apply unified_iff in H as (e & He & Hr & <-). rewrite whole_eq in Hr.
    destruct (amp_leaf std_leaf std_leaf_head e _ He Hr) as (w & f & r & Hw & E & Hs).
    rewrite <- whole_eq in E. assert (r = []).
    { apply (prefix_open F w); auto; [now apply (proj1 std_bal f)|]. destruct (std_leaf_head w f Hw) as [r' ->]. discriminate. }
    subst r. rewrite app_nil_r in E. rewrite E, (Hs eq_refl). exact Hw.
  - intros H. now apply standard_unified, standard_iff.
Qed.
Lemma simple_never F : parse_simple_filter (whole F) = Raise LDAPError.
Proof.
  destruct (parse_simple_filter (whole F)) as [f|x] eqn:H.
  - exfalso. apply simple_iff in H as (e & He & Hr & _). rewrite whole_eq in Hr.
    destruct (amp_leaf cmp_leaf cmp_leaf_head e _ He Hr) as (w & g & r & (b & -> & Hb) & E & _).
    pose proof (noparen_cmp g b Hb) as [B1 B2].
    change (lit "(&") with (lit "(" ++ lit "&") in E. rewrite <- !app_assoc in E. apply app_inv_head in E.
    assert (S : b = lit "&" /\ rp = lp /\ r = lit "objectClass=nisNetgroup)" ++ F ++ lit ")").
    { apply split_first; [exact B2|exact B1|vm_compute; intuition discriminate|vm_compute; intuition discriminate|].
      exact (eq_sym E). }
    destruct S as (_ & S & _). discriminate S.
  - unfold parse_simple_filter, parse_all in H. destruct (logic_filter paren_ava (whole F)) as [[f [|c r]]|]; congruence.
Qed.

(** ** Meaning *)
Lemma t_and_true a b : t_and a b = TRUE -> a = TRUE /\ b = TRUE.
Proof. destruct a, b; cbn; auto; discriminate. Qed.
Lemma and_only fs : netgroups_only (FAnd (is_netgroup :: fs)).
Proof. intros test H. cbn [eval fold_right] in H. apply t_and_true in H as [H _]. exact H. Qed.
