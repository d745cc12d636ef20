(** * Collapsing white space keeps descriptions descriptions *)
From Verif Require Import PyBase Model_Prep Proofs_Prep Model_Uri Spec_Uri Proofs_Uri Model_Schema Model_Regex Spec_Regex Proofs_Regex
  Spec_Search Proofs_Search2 Model_Parse Spec_Parse Proofs_Parse Proofs_Parse2 Proofs_Parse3.

Notation cw := sub_white.
Definition spc (c : N) : Prop := py_isspace c = true.
Definition solid (x : str) : Prop := x <> [] /\ Forall (fun c => py_isspace c = false) x.

Lemma cw_spaces u z : Forall spc u -> cw true (u ++ z) = cw true z.
Proof. induction 1 as [|c u Hc Hu IH]; [reflexivity|]. cbn [app sub_white]. now rewrite Hc. Qed.
Lemma cw_spaces1 u z : u <> [] -> Forall spc u -> cw false (u ++ z) = 32%N :: cw true z.
Proof. intros Hn Hu. destruct Hu as [|c u Hc Hu]; [congruence|]. cbn [app sub_white]. rewrite Hc. f_equal. now apply cw_spaces. Qed.
Lemma cw_solid b x r : Forall (fun c => py_isspace c = false) x -> x <> [] -> cw b (x ++ r) = x ++ cw false r.
Proof.
  intros H. revert b. induction H as [|c x Hc Hx IH]; intros b Hn; [congruence|]. cbn [app sub_white]. rewrite Hc. f_equal.
  destruct x as [|d x]; [reflexivity|]. apply IH. discriminate.
Qed.
Lemma cw_true_head s c q : cw true s = c :: q -> py_isspace c = false.
Proof.
  induction s as [|a s IH]; [discriminate|]. cbn [sub_white]. destruct (py_isspace a) eqn:E; [exact IH|]. intros H. now injection H as <- _.
Qed.
(** what stands before a solid character *)
Lemma cw_split b s d' c r' : py_isspace c = false -> cw b s = d' ++ c :: r' ->
  exists d r, s = d ++ c :: r /\ cw b d = d' /\ r' = cw false r.
Proof.
  intros Hc. revert b d'. induction s as [|a s IH]; intros b d' E; [destruct d'; discriminate|]. cbn [sub_white] in E.
  destruct (py_isspace a) eqn:Ea.
  - destruct b.
    + destruct (IH true d' E) as (d & r & -> & Hd & Hr). exists (a :: d), r. cbn [app sub_white]. rewrite Ea. auto.
    + destruct d' as [|x d']; cbn [app] in E; injection E as <- E; [discriminate|].
      destruct (IH true d' E) as (d & r & -> & Hd & Hr). exists (a :: d), r. cbn [app sub_white]. rewrite Ea, Hd. auto.
  - destruct d' as [|x d']; cbn [app] in E; injection E as <- E.
    + exists [], s. auto.
    + destruct (IH false d' E) as (d & r & -> & Hd & Hr). exists (a :: d), r. cbn [app sub_white]. rewrite Ea, Hd. auto.
Qed.
Lemma cw_nil b s : cw b s = [] -> Forall spc s /\ (b = false -> s = []).
Proof.
  revert b. induction s as [|a s IH]; intros b E; [auto|]. cbn [sub_white] in E. destruct (py_isspace a) eqn:Ea; [|discriminate].
  destruct b; [|discriminate]. destruct (IH true E) as [F _]. split; [now constructor|discriminate].
Qed.
Lemma cw_app_solid b d c r : py_isspace c = false -> cw b (d ++ c :: r) = cw b d ++ c :: cw false r.
Proof.
  intros Hc. revert b. induction d as [|a d IH]; intros b; cbn [app sub_white]; [now rewrite Hc|].
  destruct (py_isspace a); [destruct b|]; cbn [app]; now rewrite IH.
Qed.

(** [A] over any white space corresponds to [B] over single spaces; texts of [tok] begin and end
    with solid characters, texts of [prt] may begin with white space or be empty *)
Definition tok (A B : lang) : Prop :=
  (forall t, A t -> exists t', B t' /\ forall b r, cw b (t ++ r) = t' ++ cw false r) /\
  (forall b s t' r', cw b s = t' ++ r' -> B t' -> exists w t r, s = w ++ t ++ r /\ Forall spc w /\ (b = false -> w = []) /\ A t /\ r' = cw false r).
Definition prt (A B : lang) : Prop :=
  (forall t, A t -> exists t', B t' /\ forall r, cw false (t ++ r) = t' ++ cw false r) /\
  (forall s t' r', cw false s = t' ++ r' -> B t' -> exists t r, s = t ++ r /\ A t /\ r' = cw false r).

Lemma tok_pred (P : lang) : (forall t, P t -> solid t) -> tok P P.
Proof.
  intros H. split.
  - intros t Ht. exists t. split; [exact Ht|]. intros b r. destruct (H t Ht) as [Hn Hs]. now apply cw_solid.
  - intros b s t r' E Ht. destruct (H t Ht) as [Hn Hs]. destruct t as [|c t]; [congruence|]. inversion Hs as [|? ? Hc Hs']; subst.
    cbn [app] in E. destruct (cw_split b s [] c (t ++ r') Hc E) as (w & q & -> & Hw & Hq). apply cw_nil in Hw as [Hw Hb].
    enough (G : exists r, q = t ++ r /\ r' = cw false r).
    { destruct G as (r & -> & Hr). exists w, (c :: t), r. repeat split; auto. }
    clear - Hs' Hq. revert q Hq. induction Hs' as [|c t Hc Hs IH]; intros q Hq; [exists q; auto|].
    cbn [app] in Hq. symmetry in Hq. destruct (cw_split false q [] c (t ++ r') Hc Hq) as (w & q2 & -> & Hw & Hq2). apply cw_nil in Hw as [_ Hw].
    rewrite (Hw eq_refl) in *. cbn [app]. destruct (IH q2 Hq2) as (r & -> & Hr). exists r. auto.
Qed.
Lemma tok_is x : solid x -> tok (is x) (is x).
Proof. intros H. apply tok_pred. now intros t ->. Qed.
Lemma tok_such x (P : str -> Prop) : (P x -> solid x) -> tok (such x P) (such x P).
Proof. intros H. apply tok_pred. intros t [-> Hx]. auto. Qed.
Lemma tok_prt A B : tok A B -> prt A B.
Proof.
  intros [F G]. split.
  - intros t Ht. destruct (F t Ht) as (t' & H & E). exists t'. auto.
  - intros s t' r' E H. destruct (G false s t' r' E H) as (w & t & r & -> & _ & Hw & Ht & Hr). rewrite (Hw eq_refl). exists t, r. auto.
Qed.
Lemma tok_cat A B A' B' : tok A B -> prt A' B' -> tok (A ;; A') (B ;; B').
Proof.
  intros [F G] [F' G']. split.
  - intros t (x & y & -> & Hx & Hy). destruct (F x Hx) as (x' & Hx' & Ex), (F' y Hy) as (y' & Hy' & Ey). exists (x' ++ y'). split.
    + exists x', y'. auto.
    + intros b r. now rewrite <- app_assoc, Ex, Ey, app_assoc.
  - intros b s t' r' E (x' & y' & -> & Hx' & Hy'). rewrite <- app_assoc in E. destruct (G b s x' (y' ++ r') E Hx') as (w & x & q & -> & Hw & Hb & Hx & Eq).
    symmetry in Eq. destruct (G' q y' r' Eq Hy') as (y & r & -> & Hy & Hr). exists w, (x ++ y), r. rewrite <- app_assoc. repeat split; auto.
    exists x, y. auto.
Qed.
Lemma prt_cat A B A' B' : prt A B -> prt A' B' -> prt (A ;; A') (B ;; B').
Proof.
  intros [F G] [F' G']. split.
  - intros t (x & y & -> & Hx & Hy). destruct (F x Hx) as (x' & Hx' & Ex), (F' y Hy) as (y' & Hy' & Ey). exists (x' ++ y'). split.
    + exists x', y'. auto.
    + intros r. now rewrite <- app_assoc, Ex, Ey, app_assoc.
  - intros s t' r' E (x' & y' & -> & Hx' & Hy'). rewrite <- app_assoc in E. destruct (G s x' (y' ++ r') E Hx') as (x & q & -> & Hx & Eq).
    symmetry in Eq. destruct (G' q y' r' Eq Hy') as (y & r & -> & Hy & Hr). exists (x ++ y), r. rewrite <- app_assoc. repeat split; auto.
    exists x, y. auto.
Qed.
Lemma wsp_laurelin u : wsp laurelin u <-> Forall spc u. Proof. reflexivity. Qed.
Lemma wsp_32 u : wsp code32 u <-> Forall (fun c => c = 32%N) u. Proof. reflexivity. Qed.
Lemma prt_sp A B : tok A B -> prt (sp laurelin ;; A) (sp code32 ;; B).
Proof.
  intros [F G]. split.
  - intros t (u & x & -> & [Hn Hu] & Hx). destruct (F x Hx) as (x' & Hx' & Ex). exists ([32%N] ++ x'). split.
    + exists [32%N], x'. repeat split; [discriminate|repeat constructor|exact Hx'].
    + intros r. rewrite <- app_assoc, cw_spaces1 by assumption. cbn [app]. now rewrite Ex.
  - intros s t' r' E (u' & x' & -> & [Hn Hu] & Hx'). destruct u' as [|c u']; [congruence|]. inversion Hu as [|? ? Hc Hu']; subst. cbn in Hc. subst c.
    cbn [app] in E. destruct s as [|a s]; [discriminate|]. cbn [sub_white] in E. destruct (py_isspace a) eqn:Ea; injection E as E; [|subst a; discriminate].
    assert (u' = []) as ->.
    { destruct u' as [|c u']; [reflexivity|]. inversion Hu' as [|? ? Hc Hu'']; subst. cbn in Hc. subst c. rewrite <- app_assoc in E. cbn [app] in E.
      apply cw_true_head in E. discriminate. }
    cbn [app] in E. destruct (G true s x' r' E Hx') as (w & x & r & -> & Hw & _ & Hx & Hr). exists ((a :: w) ++ x), r.
    rewrite <- app_assoc. repeat split; [|exact Hr]. exists (a :: w), x. repeat split; [discriminate|now constructor|exact Hx].
Qed.
Lemma prt_wsp A B : tok A B -> prt (wsp laurelin ;; A) (wsp code32 ;; B).
Proof.
  intros T. pose proof (prt_sp A B T) as [F1 G1]. destruct (tok_prt A B T) as [F0 G0]. split.
  - intros t (u & x & -> & Hu & Hx). destruct u as [|c u].
    + destruct (F0 x Hx) as (x' & Hx' & Ex). exists x'. split; [|exact Ex]. exists [], x'. repeat split; [constructor|exact Hx'].
    + destruct (F1 ((c :: u) ++ x)) as (x' & (v & y & -> & [_ Hv] & Hy) & Ex); [exists (c :: u), x; repeat split; [discriminate|exact Hu|exact Hx]|].
      exists (v ++ y). split; [|exact Ex]. exists v, y. auto.
  - intros s t' r' E (u' & x' & -> & Hu & Hx'). destruct u' as [|c u'].
    + destruct (G0 s x' r' E Hx') as (x & r & -> & Hx & Hr). exists x, r. repeat split; [|exact Hr]. exists [], x. repeat split; [constructor|exact Hx].
    + destruct (G1 s ((c :: u') ++ x') r' E) as (t & r & -> & (u & x & -> & [_ Hu2] & Hx) & Hr).
      { exists (c :: u'), x'. repeat split; [discriminate|exact Hu|exact Hx']. }
      exists (u ++ x), r. repeat split; [|exact Hr]. exists u, x. auto.
Qed.
Lemma prt_empty : prt (is []) (is []).
Proof.
  split; [intros t ->; exists []; split; [reflexivity|auto]|]. intros s t' r' E ->. exists [], s. split; [reflexivity|]. split; [reflexivity|now symmetry].
Qed.
Lemma prt_either A B A' B' : prt A B -> prt A' B' -> prt (either A A') (either B B').
Proof.
  intros [F G] [F' G']. split.
  - intros t [Ht|Ht]; [destruct (F t Ht) as (t' & H & E)|destruct (F' t Ht) as (t' & H & E)]; exists t'; (split; [|exact E]); [now left|now right].
  - intros s t' r' E [H|H]; [destruct (G s t' r' E H) as (t & r & Es & Ht & Hr)|destruct (G' s t' r' E H) as (t & r & Es & Ht & Hr)];
      exists t, r; repeat split; trivial; [now left|now right].
Qed.
Lemma tok_either A B A' B' : tok A B -> tok A' B' -> tok (either A A') (either B B').
Proof.
  intros [F G] [F' G']. split.
  - intros t [Ht|Ht]; [destruct (F t Ht) as (t' & H & E)|destruct (F' t Ht) as (t' & H & E)]; exists t'; (split; [|exact E]); [now left|now right].
  - intros b s t' r' E [H|H]; [destruct (G b s t' r' E H) as (w & t & r & Es & Hw & Hb & Ht & Hr)|destruct (G' b s t' r' E H) as (w & t & r & Es & Hw & Hb & Ht & Hr)];
      exists w, t, r; repeat split; trivial; [now left|now right].
Qed.
Lemma prt_ext (A B A' B' : lang) : prt A B -> (forall t, A t <-> A' t) -> (forall t, B t <-> B' t) -> prt A' B'.
Proof.
  intros [F G] HA HB. split.
  - intros t Ht. destruct (F t (proj2 (HA t) Ht)) as (t' & H & E). exists t'. split; [now apply HB|exact E].
  - intros s t' r' E H. destruct (G s t' r' E (proj2 (HB t') H)) as (t & r & Es & Ht & Hr). exists t, r. repeat split; trivial. now apply HA.
Qed.
Lemma tok_ext (A B A' B' : lang) : tok A B -> (forall t, A t <-> A' t) -> (forall t, B t <-> B' t) -> tok A' B'.
Proof.
  intros [F G] HA HB. split.
  - intros t Ht. destruct (F t (proj2 (HA t) Ht)) as (t' & H & E). exists t'. split; [now apply HB|exact E].
  - intros b s t' r' E H. destruct (G b s t' r' E (proj2 (HB t') H)) as (w & t & r & Es & Hw & Hb & Ht & Hr). exists w, t, r. repeat split; trivial. now apply HA.
Qed.
Lemma prt_false (A B : lang) : (forall t, ~ A t) -> (forall t, ~ B t) -> prt A B.
Proof. intros HA HB. split; [intros t H; now elim (HA t)|intros s t' r' _ H; now elim (HB t')]. Qed.
Lemma tok_false (A B : lang) : (forall t, ~ A t) -> (forall t, ~ B t) -> tok A B.
Proof. intros HA HB. split; [intros t H; now elim (HA t)|intros b s t' r' _ H; now elim (HB t')]. Qed.
Lemma cat_assoc (A B C : lang) t : (A ;; B ;; C) t <-> ((A ;; B) ;; C) t.
Proof.
  split.
  - intros (x & y & -> & Hx & u & v & -> & Hu & Hv). exists (x ++ u), v. rewrite app_assoc. repeat split; [|exact Hv]. exists x, u. auto.
  - intros (x & y & -> & (u & v & -> & Hu & Hv) & Hy). exists u, (v ++ y). rewrite app_assoc. repeat split; [exact Hu|]. exists v, y. auto.
Qed.

(** ** The parts of the grammar *)
Lemma solid_chars (P : N -> Prop) x : x <> [] -> Forall P x -> (forall c, P c -> py_isspace c = false) -> solid x.
Proof. intros Hn Hx H. split; [exact Hn|]. revert Hx. apply Forall_impl. exact H. Qed.
Lemma solid_oid x : oid code32 x -> solid x.
Proof. intros H. apply oid_chars in H as [Hn H]. eapply solid_chars; [exact Hn|exact H|]. intros c Hc. now apply oidchar_simple in Hc. Qed.
Lemma solid_descr x : descr x -> solid x. Proof. intros H. apply solid_oid. now left. Qed.
Lemma solid_lit s : (match lit s with [] => false | _ => forallb (fun c => negb (py_isspace c)) (lit s) end) = true -> solid (lit s).
Proof.
  intros H. destruct (lit s) as [|c q]; [discriminate|]. split; [discriminate|]. rewrite forallb_forall in H. apply Forall_forall. intros x Hx.
  apply H in Hx. now apply negb_true_iff.
Qed.
Lemma tok_lit s : (match lit s with [] => false | _ => forallb (fun c => negb (py_isspace c)) (lit s) end) = true -> tok (is (lit s)) (is (lit s)).
Proof. intros H. apply tok_is. now apply solid_lit. Qed.

Lemma tok_sep_list (One One' : str -> lang) Sep Sep' : (forall x, tok (One x) (One' x)) ->
  (forall A B, tok A B -> prt (Sep ;; A) (Sep' ;; B)) -> forall l, tok (sep_list One Sep l) (sep_list One' Sep' l).
Proof.
  intros H1 H2. induction l as [|x l IH]; [now apply tok_false|]. destruct l as [|y l]; [apply H1|].
  change (sep_list One Sep (x :: y :: l)) with (One x ;; Sep ;; sep_list One Sep (y :: l)).
  change (sep_list One' Sep' (x :: y :: l)) with (One' x ;; Sep' ;; sep_list One' Sep' (y :: l)).
  apply tok_cat; [apply H1|]. now apply H2.
Qed.
Lemma prt_wsp_close : prt (wsp laurelin ;; is (lit ")")) (wsp code32 ;; is (lit ")")).
Proof. apply prt_wsp. now apply tok_lit. Qed.
Lemma tok_paren A B : tok A B -> tok (paren laurelin A) (paren code32 B).
Proof.
  intros H. unfold paren. apply tok_cat; [now apply tok_lit|]. apply prt_wsp. apply tok_cat; [exact H|]. apply prt_wsp_close.
Qed.
Lemma tok_ex {I} (A B : I -> lang) : (forall i, tok (A i) (B i)) -> tok (fun s => exists i, A i s) (fun s => exists i, B i s).
Proof.
  intros H. split.
  - intros t [i Ht]. destruct (proj1 (H i) t Ht) as (t' & Ht' & E). exists t'. split; [eauto|exact E].
  - intros b s t' r' E [i Ht]. destruct (proj2 (H i) b s t' r' E Ht) as (w & t & r & Es & Hw & Hb & Hx & Hr). exists w, t, r. repeat split; eauto.
Qed.
Lemma tok_one_or_list One Sep Sep' l : (forall x, tok (One x) (One x)) ->
  (forall A B, tok A B -> prt (Sep ;; A) (Sep' ;; B)) -> tok (one_or_list laurelin One Sep l) (one_or_list code32 One Sep' l).
Proof.
  intros H1 H2. unfold one_or_list. apply tok_either.
  - apply tok_ex. intros x. split.
    + intros t [E Ht]. destruct (proj1 (H1 x) t Ht) as (t' & Ht' & Et). exists t'. auto.
    + intros b s t' r' E [El Ht]. destruct (proj2 (H1 x) b s t' r' E Ht) as (w & t & r & Es & Hw & Hb & Hx & Hr). exists w, t, r. repeat split; auto.
  - apply tok_paren. now apply tok_sep_list.
Qed.
Lemma tok_qdescr x : tok (qdescr x) (qdescr x).
Proof. unfold qdescr. apply tok_cat; [now apply tok_lit|]. apply tok_prt. apply tok_cat; [apply tok_such, solid_descr|]. apply tok_prt. now apply tok_lit. Qed.
Lemma tok_qdescrs l : tok (qdescrs laurelin l) (qdescrs code32 l).
Proof. apply tok_one_or_list; [apply tok_qdescr|apply prt_sp]. Qed.
Lemma tok_oids l : tok (oids laurelin l) (oids code32 l).
Proof.
  apply tok_one_or_list.
  - intros x. apply tok_such. apply solid_oid.
  - intros A B H.
    apply (prt_ext (wsp laurelin ;; is (lit "$") ;; wsp laurelin ;; A) (wsp code32 ;; is (lit "$") ;; wsp code32 ;; B)).
    + apply prt_wsp. apply tok_cat; [now apply tok_lit|]. now apply prt_wsp.
    + intros t. unfold cat. split.
      * intros (a & b & -> & Ha & c & d & -> & Hc & e & f & -> & He & Hf). exists (a ++ c ++ e), f. rewrite <- !app_assoc. repeat split; [|exact Hf].
        exists a, (c ++ e). repeat split; [exact Ha|]. exists c, e. auto.
      * intros (a & b & -> & (c & d & -> & Hc & e & f & -> & He & Hf) & Hb). exists c, (e ++ f ++ b). rewrite <- !app_assoc. repeat split; [exact Hc|].
        exists e, (f ++ b). repeat split; [exact He|]. exists f, b. auto.
    + intros t. unfold cat. split.
      * intros (a & b & -> & Ha & c & d & -> & Hc & e & f & -> & He & Hf). exists (a ++ c ++ e), f. rewrite <- !app_assoc. repeat split; [|exact Hf].
        exists a, (c ++ e). repeat split; [exact Ha|]. exists c, e. auto.
      * intros (a & b & -> & (c & d & -> & Hc & e & f & -> & He & Hf) & Hb). exists c, (e ++ f ++ b). rewrite <- !app_assoc. repeat split; [exact Hc|].
        exists e, (f ++ b). repeat split; [exact He|]. exists f, b. auto.
Qed.
(** dstring by an automaton: 0 plain, 1 after \, 2 after \2, 3 after \5 *)
Fixpoint dfa (st : nat) (s : str) : bool :=
  match s with
  | [] => Nat.eqb st 0
  | c :: s' =>
      match st with
      | 0 => if N.eqb c 39 then false else if N.eqb c 92 then dfa 1 s' else dfa 0 s'
      | 1 => if N.eqb c 50 then dfa 2 s' else if N.eqb c 53 then dfa 3 s' else false
      | 2 => N.eqb c 55 && dfa 0 s'
      | _ => (N.eqb c 67 || N.eqb c 99) && dfa 0 s'
      end
  end.
Lemma dfa_cw s : forall st b, (st <> 0 -> b = false) -> dfa st (cw b s) = dfa st s.
Proof.
  induction s as [|c s IH]; intros st b Hst; [reflexivity|]. cbn [sub_white]. destruct (py_isspace c) eqn:Ec.
  - assert (Nc : c <> 39%N /\ c <> 92%N /\ c <> 50%N /\ c <> 53%N /\ c <> 55%N /\ c <> 67%N /\ c <> 99%N).
    { repeat split; intros ->; discriminate. }
    assert (E0 : dfa 0 (c :: s) = dfa 0 s).
    { cbn [dfa]. replace (N.eqb c 39) with false by lia. now replace (N.eqb c 92) with false by lia. }
    destruct st as [|[|[|st]]].
    + rewrite E0. destruct b; [|cbn [dfa N.eqb Pos.eqb]]; apply IH; congruence.
    + rewrite (Hst ltac:(discriminate)). cbn [dfa]. replace (N.eqb c 50) with false by lia. now replace (N.eqb c 53) with false by lia.
    + rewrite (Hst ltac:(discriminate)). cbn [dfa]. now replace (N.eqb c 55) with false by lia.
    + rewrite (Hst ltac:(discriminate)). cbn [dfa]. replace (N.eqb c 67) with false by lia. now replace (N.eqb c 99) with false by lia.
  - destruct st as [|[|[|st]]]; cbn [dfa].
    + destruct (N.eqb c 39); [reflexivity|]. destruct (N.eqb c 92); apply IH; auto.
    + destruct (N.eqb c 50); [apply IH; auto|]. destruct (N.eqb c 53); [apply IH; auto|reflexivity].
    + f_equal. apply IH. auto.
    + f_equal. apply IH. auto.
Qed.
Lemma dfa_pieces s : dfa 0 s = true <-> exists l, Forall dpiece l /\ s = List.concat l.
Proof.
  split.
  - remember (List.length s) as n eqn:Hn. revert s Hn. induction n as [n IH] using lt_wf_ind. intros s Hn H. destruct s as [|c s]; [exists []; auto|].
    assert (Go : forall p q, c :: s = p ++ q -> p <> [] -> dpiece p -> dfa 0 q = true -> exists l, Forall dpiece l /\ c :: s = List.concat l).
    { intros p q E Hp Hd Hq. destruct (IH (List.length q)) with (s := q) as (l & Hl & El); trivial.
      - subst n. rewrite E, app_length. destruct p; [congruence|]. cbn [List.length]. lia.
      - exists (p :: l). split; [now constructor|]. cbn [List.concat]. now rewrite <- El. }
    cbn [dfa] in H. destruct (N.eqb_spec c 39) as [->|N1]; [discriminate|]. destruct (N.eqb_spec c 92) as [->|N2].
    + destruct s as [|d s]; [discriminate|]. cbn [dfa] in H. destruct (N.eqb_spec d 50) as [->|M1].
      * destruct s as [|e s]; [discriminate|]. cbn [dfa] in H. apply andb_prop in H as [He H]. apply N.eqb_eq in He as ->.
        apply (Go (lit "\27") s); [reflexivity|discriminate|now left|exact H].
      * destruct (N.eqb_spec d 53) as [->|M2]; [|discriminate]. destruct s as [|e s]; [discriminate|]. cbn [dfa] in H. apply andb_prop in H as [He H].
        apply orb_prop in He as [He|He]; apply N.eqb_eq in He as ->.
        -- apply (Go (lit "\5C") s); [reflexivity|discriminate|right; now left|exact H].
        -- apply (Go (lit "\5c") s); [reflexivity|discriminate|right; right; now left|exact H].
    + apply (Go [c] s); [reflexivity|discriminate| |exact H]. right; right; right. exists c. repeat split; assumption.
  - intros (l & Hl & ->). induction Hl as [|p l Hp Hl IH]; [reflexivity|]. cbn [List.concat].
    destruct Hp as [->|[->|[->|(c & -> & H1 & H2)]]]; [exact IH|exact IH|exact IH|]. change (ch "'") with 39%N in H1. change (ch "\") with 92%N in H2.
    cbn [app dfa]. replace (N.eqb c 39) with false by lia. now replace (N.eqb c 92) with false by lia.
Qed.
Lemma dstring_dfa s : dstring s <-> s <> [] /\ dfa 0 s = true.
Proof.
  unfold dstring. split.
  - intros H. split; [now apply dstring_quote in H|]. destruct H as (l & Hn & Hl & E). apply dfa_pieces. eauto.
  - intros [Hn H]. apply dfa_pieces in H as (l & Hl & ->). exists l. repeat split; trivial. intros ->. now apply Hn.
Qed.
Lemma dstring_cw s : dstring (cw false s) <-> dstring s.
Proof.
  rewrite !dstring_dfa, dfa_cw by congruence. split; intros [Hn H]; split; trivial.
  - intros ->. now apply Hn.
  - intros E. apply cw_nil in E as [_ E]. apply Hn, E. reflexivity.
Qed.
Lemma tok_qdstring : tok qdstring qdstring.
Proof.
  unfold qdstring. apply tok_cat; [now apply tok_lit|]. split.
  - intros t (d & q & -> & Hd & ->). exists (cw false d ++ lit "'"). split.
    + exists (cw false d), (lit "'"). repeat split. now apply dstring_cw.
    + intros r. rewrite <- app_assoc. change (lit "'" ++ r) with (39%N :: r). rewrite cw_app_solid by reflexivity. now rewrite <- app_assoc.
  - intros s t' r' E (d' & q & -> & Hd & ->). rewrite <- app_assoc in E. change (lit "'" ++ r') with (39%N :: r') in E.
    destruct (cw_split false s d' 39%N r' eq_refl E) as (d & r & -> & Ed & Hr). exists (d ++ [39%N]), r. rewrite <- app_assoc. repeat split; [|exact Hr].
    exists d, [39%N]. repeat split. apply dstring_cw. now rewrite Ed.
Qed.
Lemma tok_qdstrings : tok (qdstrings laurelin) (qdstrings code32).
Proof.
  unfold qdstrings. apply tok_either; [apply tok_qdstring|]. apply tok_paren.
  apply (tok_ext (fun s => exists n, sep_list (fun _ => qdstring) (sp laurelin) (repeat [] (S n)) s)
                 (fun s => exists n, sep_list (fun _ => qdstring) (sp code32) (repeat [] (S n)) s)).
  - apply tok_ex. intros n. apply tok_sep_list; [intros _; apply tok_qdstring|apply prt_sp].
  - intros t. cbn [empty_list laurelin]. split; [now left|]. intros [H|[[] _]]. exact H.
  - intros t. cbn [empty_list code32]. split; [now left|]. intros [H|[[] _]]. exact H.
Qed.
(** [kw k ;; X] *)
Lemma prt_kw k : (match lit k with [] => false | _ => forallb (fun c => negb (py_isspace c)) (lit k) end) = true -> prt (kw laurelin k) (kw code32 k).
Proof. intros H. unfold kw. apply prt_sp. now apply tok_lit. Qed.
Lemma prt_kw_sp k A B : (match lit k with [] => false | _ => forallb (fun c => negb (py_isspace c)) (lit k) end) = true -> tok A B ->
  prt (kw laurelin k ;; sp laurelin ;; A) (kw code32 k ;; sp code32 ;; B).
Proof. intros H T. apply prt_cat; [now apply prt_kw|now apply prt_sp]. Qed.

Lemma prt_names l : prt (names_part laurelin l) (names_part code32 l).
Proof.
  unfold names_part. apply prt_either.
  - unfold list_part. destruct l as [|x l]; [apply prt_empty|]. apply prt_kw_sp; [reflexivity|apply tok_qdescrs].
  - apply prt_false; intros t [[] _].
Qed.
Lemma prt_list k l : (match lit k with [] => false | _ => forallb (fun c => negb (py_isspace c)) (lit k) end) = true ->
  prt (list_part laurelin k l (oids laurelin)) (list_part code32 k l (oids code32)).
Proof. intros H. unfold list_part. destruct l as [|x l]; [apply prt_empty|]. apply prt_kw_sp; [exact H|apply tok_oids]. Qed.
Lemma prt_opt k v : (match lit k with [] => false | _ => forallb (fun c => negb (py_isspace c)) (lit k) end) = true ->
  prt (opt_part laurelin k v (oid laurelin)) (opt_part code32 k v (oid code32)).
Proof. intros H. unfold opt_part. destruct v as [x|]; [|apply prt_empty]. apply prt_kw_sp; [exact H|]. apply tok_such. apply solid_oid. Qed.
Lemma prt_other k A B : (match lit k with [] => false | _ => forallb (fun c => negb (py_isspace c)) (lit k) end) = true -> tok A B ->
  prt (other_part laurelin k A) (other_part code32 k B).
Proof. intros H T. unfold other_part. apply prt_either; [apply prt_empty|]. now apply prt_kw_sp. Qed.
Lemma prt_flag k b : (match lit k with [] => false | _ => forallb (fun c => negb (py_isspace c)) (lit k) end) = true ->
  prt (flag_part laurelin k b) (flag_part code32 k b).
Proof. intros H. unfold flag_part. destruct b; [now apply prt_kw|apply prt_empty]. Qed.
Lemma prt_extensions : prt (extensions laurelin) (extensions code32).
Proof.
  assert (T : prt (extension laurelin) (extension code32)).
  { unfold extension. apply prt_sp. apply tok_cat; [now apply tok_lit|]. apply prt_cat; [|apply prt_sp, tok_qdstrings].
    apply tok_prt, tok_pred. intros t [Hn Ht]. eapply solid_chars; [exact Hn|exact Ht|]. intros c Hc.
    unfold xchar, ALPHA in Hc. change (ch "_") with 95%N in Hc. change (ch "-") with 45%N in Hc.
    unfold py_isspace, in_ranges, py_space_ranges. cbn [existsb fst snd]. lia. }
  apply (prt_ext (either (is []) (extension laurelin)) (either (is []) (extension code32))); [apply prt_either; [apply prt_empty|exact T]| |].
  - intros t. unfold extensions. cbn [extension_count laurelin]. split.
    + intros [->|H]; [exists 0; split; [lia|reflexivity]|]. exists 1. split; [lia|]. exists t, []. rewrite app_nil_r. repeat split. exact H.
    + intros ([|[|n]] & Hn & H); [now left| |lia]. right. destruct H as (x & y & -> & Hx & ->). now rewrite app_nil_r.
  - intros t. unfold extensions. cbn [extension_count code32]. split.
    + intros [->|H]; [exists 0; split; [lia|reflexivity]|]. exists 1. split; [lia|]. exists t, []. rewrite app_nil_r. repeat split. exact H.
    + intros ([|[|n]] & Hn & H); [now left| |lia]. right. destruct H as (x & y & -> & Hx & ->). now rewrite app_nil_r.
Qed.
Lemma tok_numoid o : tok (such o (numericoid laurelin)) (such o (numericoid code32)).
Proof. apply tok_such. intros H. apply solid_oid. now right. Qed.
Lemma tok_oid_any : tok (oid laurelin) (oid code32).
Proof. apply tok_pred. apply solid_oid. Qed.

Lemma tok_oc d : tok (oc_text laurelin d) (oc_text code32 d).
Proof.
  unfold oc_text. apply tok_cat; [now apply tok_lit|]. apply prt_wsp. apply tok_cat; [apply tok_numoid|].
  apply prt_cat; [apply prt_names|]. apply prt_cat; [apply prt_other; [reflexivity|apply tok_qdstring]|].
  apply prt_cat; [now apply prt_flag|]. apply prt_cat; [now apply prt_list|].
  apply prt_cat; [|]. { unfold kind_part. destruct (d_kind d) as [k|]; [|apply prt_empty]. destruct k; now apply prt_kw. }
  apply prt_cat; [now apply prt_list|]. apply prt_cat; [now apply prt_list|]. apply prt_cat; [apply prt_extensions|apply prt_wsp_close].
Qed.
Lemma tok_at d : tok (at_text laurelin d) (at_text code32 d).
Proof.
  unfold at_text. apply tok_cat; [now apply tok_lit|]. apply prt_wsp. apply tok_cat; [apply tok_numoid|].
  apply prt_cat; [apply prt_names|]. apply prt_cat; [apply prt_other; [reflexivity|apply tok_qdstring]|].
  apply prt_cat; [now apply prt_flag|]. apply prt_cat; [now apply prt_opt|]. apply prt_cat; [now apply prt_opt|].
  apply prt_cat; [apply prt_other; [reflexivity|apply tok_oid_any]|]. apply prt_cat; [apply prt_other; [reflexivity|apply tok_oid_any]|].
  apply prt_cat.
  { unfold syntax_part. destruct (a_syntax d) as [[o len]|]; [|apply prt_empty]. apply prt_kw_sp; [reflexivity|]. unfold noidlen.
    apply tok_cat; [apply tok_numoid|]. destruct len as [n|]; [|apply prt_empty]. apply tok_prt. apply tok_cat; [now apply tok_lit|].
    apply tok_prt. apply tok_cat; [|apply tok_prt; now apply tok_lit]. apply tok_such. intros [Hn Hd]. eapply solid_chars; [exact Hn|exact Hd|].
    intros c Hc. unfold DIGIT in Hc. unfold py_isspace, in_ranges, py_space_ranges. cbn [existsb fst snd]. lia. }
  apply prt_cat; [now apply prt_flag|]. apply prt_cat; [now apply prt_flag|]. apply prt_cat; [now apply prt_flag|].
  apply prt_cat. { unfold usage_part. destruct (a_usage d) as [u|]; [|apply prt_empty]. apply prt_kw_sp; [reflexivity|]. destruct u; now apply tok_lit. }
  apply prt_cat; [apply prt_extensions|apply prt_wsp_close].
Qed.

(** ** collapse_whitespace *)
Lemma collapse_fwd A B s : tok A B -> (forall x, B x -> edge py_isspace x) -> padded A s -> B (py_strip (collapse_whitespace s)).
Proof.
  intros [F _] HB (u & x & v & -> & Hu & Hv & Hx). destruct (F x Hx) as (x' & Hx' & E).
  assert (Es : exists p q, cw false (u ++ x ++ v) = p ++ x' ++ q /\ Forall spc p /\ Forall spc q).
  { assert (Ev : exists q, cw false v = q /\ Forall spc q).
    { eexists. split; [reflexivity|]. destruct v as [|c v]; [constructor|]. pose proof (cw_spaces1 (c :: v) [] ltac:(discriminate) Hv) as Ec. rewrite app_nil_r in Ec. rewrite Ec. constructor; [reflexivity|constructor]. }
    destruct Ev as (q & Eq & Hq). destruct u as [|c u].
    - exists [], q. cbn [app]. rewrite E, Eq. repeat split; [constructor|exact Hq].
    - exists [32%N], q. rewrite (cw_spaces1 (c :: u)); [|discriminate|exact Hu]. rewrite E, Eq. repeat split; [repeat constructor|exact Hq]. }
  destruct Es as (p & q & Ep & Hp & Hq). unfold collapse_whitespace. rewrite Ep. unfold py_strip. rewrite strip_edge; auto.
  rewrite strip_edge0; auto.
Qed.
Lemma cw_skip b s p c r : Forall spc p -> py_isspace c = false -> cw b s = p ++ c :: r ->
  exists u s2, s = u ++ c :: s2 /\ Forall spc u /\ r = cw false s2.
Proof.
  intros Hp Hc E. destruct (cw_split b s p c r Hc E) as (d & s2 & -> & Ed & Hr). exists d, s2. repeat split; trivial.
  clear - Hp Ed. revert b p Hp Ed. induction d as [|a d IH]; intros b p Hp Ed; [constructor|]. cbn [sub_white] in Ed. destruct (py_isspace a) eqn:Ea.
  - constructor; [exact Ea|]. destruct b; [eapply IH; eassumption|]. destruct p as [|y p]; [discriminate|]. injection Ed as _ Ed. inversion Hp as [|? ? _ Hp']; subst. exact (IH true _ Hp' eq_refl).
  - destruct p as [|y p]; [discriminate|]. injection Ed as -> Ed. inversion Hp; subst. unfold spc in *. congruence.
Qed.
Lemma cw_all_space b s : Forall spc (cw b s) -> Forall spc s.
Proof.
  revert b. induction s as [|a s IH]; intros b H; [constructor|]. cbn [sub_white] in H. destruct (py_isspace a) eqn:Ea.
  - constructor; [exact Ea|]. destruct b; [eapply IH; exact H|]. inversion H; subst. eapply IH; eassumption.
  - inversion H; subst. unfold spc in *. congruence.
Qed.
Lemma collapse_bwd A B s : tok A B -> (forall x, B x -> edge py_isspace x) -> B (py_strip (collapse_whitespace s)) -> padded A s.
Proof.
  intros [_ G] HB H. unfold collapse_whitespace in H. unfold py_strip in H.
  destruct (strip_decomp py_isspace (cw false s)) as (p & core & q & E & Ec & Hp & Hq & H1 & H2).
  rewrite Ec in H. destruct core as [|c core]. { cbn in H. destruct (HB _ H) as [Hn _]. congruence. }
  assert (Ed : edge py_isspace (c :: core)) by (split; [discriminate|auto]). rewrite strip_edge0 in H by exact Ed.
  cbn [app] in E. destruct (cw_skip false s p c (core ++ q) Hp H1 E) as (u & s2 & -> & Hu & Er).
  assert (E2 : cw false (c :: s2) = (c :: core) ++ q). { cbn [sub_white]. rewrite (H1 : py_isspace c = false). cbn [app]. now rewrite Er. }
  destruct (G false (c :: s2) (c :: core) q E2 H) as (w & t & r & Es & _ & Hw & Ht & Hr). rewrite (Hw eq_refl) in Es. cbn [app] in Es.
  exists u, t, r. rewrite Es. repeat split; trivial. apply (cw_all_space false). rewrite <- Hr. exact Hq.
Qed.
Lemma collapsed_shape s : nodouble (py_strip (collapse_whitespace s)) /\ ~ In 10%N (py_strip (collapse_whitespace s)).
Proof.
  assert (A : forall b s, (nodouble (cw b s) /\ ~ In 10%N (cw b s)) /\ (b = true -> not_starts (fun c => c = 32%N) (cw b s))).
  { clear s. intros b s. revert b. induction s as [|c s IH]; intros b.
    - split; [split; [intros ([|? [|? ?]] & ? & E); discriminate|intros []]|cbn; auto].
    - cbn [sub_white]. destruct (py_isspace c) eqn:Ec.
      + destruct b; [apply IH|]. destruct (IH true) as [[I1 I2] I3]. specialize (I3 eq_refl). split; [|discriminate]. split.
        * intros ([|x a] & y & E); cbn [app] in E; [injection E as E; rewrite E in I3; now apply I3|]. injection E as E0 E. apply I1. exists a, y. exact E.
        * intros [E|E]; [discriminate|now apply I2].
      + destruct (IH false) as [[I1 I2] _]. assert (c <> 32%N /\ c <> 10%N) as [N1 N2] by (split; intros ->; discriminate). split; [|intros _; exact N1]. split.
        * intros ([|x a] & y & E); cbn [app] in E; injection E as E0 E; [congruence|]. apply I1. exists a, y. exact E.
        * intros [E|E]; [congruence|now apply I2]. }
  assert (St : forall p x, nodouble x /\ ~ In 10%N x -> nodouble (strip_by p x) /\ ~ In 10%N (strip_by p x)).
  { intros p x [H1 H2]. destruct (strip_decomp p x) as (a & core & q & E & -> & _). rewrite E in H1, H2. split.
    - apply nodouble_r in H1. now apply nodouble_l in H1.
    - intros C. apply H2. rewrite !in_app_iff. auto. }
  unfold collapse_whitespace, py_strip. apply St, St. apply A.
Qed.
