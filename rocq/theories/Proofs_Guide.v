(** * Proofs about find_closing_paren and the guide syntaxes *)
From Verif Require Import PyBase Model_Prep Proofs_Prep Model_Uri Model_Regex Spec_Regex Proofs_Regex Spec_Search Proofs_Search2
  Model_Parse Spec_Parse Proofs_Parse Proofs_Parse2 Model_Syntax Spec_Syntax Proofs_Syntax Proofs_Syntax2 Model_Guide Spec_Guide.

(** ** Parentheses *)
Lemma count_app c a b : count c (a ++ b) = count c a + count c b.
Proof. unfold count. now rewrite filter_app, app_length. Qed.
Lemma count_cons c x s : count c (x :: s) = (if N.eqb c x then 1 else 0) + count c s.
Proof. unfold count. cbn [List.filter]. destruct (N.eqb c x); reflexivity. Qed.
Lemma count_nil c : count c [] = 0.
Proof. reflexivity. Qed.
Fixpoint scan (d : nat) (s : str) : option nat :=
  match s with
  | [] => Some d
  | c :: s' => if N.eqb c (ch "(") then scan (S d) s' else if N.eqb c (ch ")") then match d with O => None | S d' => scan d' s' end else scan d s'
  end.
Lemma scan_spec s : forall d e, scan d s = Some e <->
  d + count (ch "(") s = e + count (ch ")") s /\ forall p q, s = p ++ q -> count (ch ")") p <= d + count (ch "(") p.
Proof.
  induction s as [|c s IH]; intros d e; cbn [scan].
  - rewrite !count_nil. split.
    + intros H. injection H as <-. split; [reflexivity|]. intros p q E. symmetry in E. apply app_eq_nil in E as [-> _]. rewrite !count_nil. lia.
    + intros [H _]. f_equal. lia.
  - assert (K : forall d', (count (ch ")") [c] + d' = d + count (ch "(") [c]) ->
      (scan d' s = Some e <-> d + count (ch "(") (c :: s) = e + count (ch ")") (c :: s) /\ forall p q, c :: s = p ++ q -> count (ch ")") p <= d + count (ch "(") p)).
    { intros d' Hd. rewrite IH. rewrite !(count_cons _ c s). rewrite !(count_cons _ c []), !count_nil in Hd. split; intros [H1 H2]; (split; [lia|]).
      - intros [|x p] q E; [rewrite !count_nil; lia|]. injection E as <- E. specialize (H2 p q E). rewrite !count_cons. lia.
      - intros p q E. specialize (H2 (c :: p) q). rewrite !count_cons in H2. cbn [app] in H2. rewrite E in H2. specialize (H2 eq_refl). lia. }
    destruct (N.eqb c (ch "(")) eqn:E1.
    { apply N.eqb_eq in E1. subst c. apply K. rewrite !count_cons, !count_nil. cbn. lia. }
    destruct (N.eqb c (ch ")")) eqn:E2.
    { apply N.eqb_eq in E2. subst c. destruct d as [|d].
      - split; [discriminate|]. intros [_ H]. specialize (H [ch ")"] s eq_refl). cbn in H. lia.
      - apply K. cbn. lia. }
    apply K. rewrite !count_cons, !count_nil, (N.eqb_sym (ch "(") c), (N.eqb_sym (ch ")") c), E1, E2. lia.
Qed.
Lemma balanced_scan s : balanced s <-> scan 0 s = Some 0.
Proof. rewrite scan_spec. unfold balanced, closed. cbn [plus]. split; intros [H1 H2]; (split; [congruence|exact H2]). Qed.
Lemma scan_app a b d : scan d (a ++ b) = match scan d a with Some e => scan e b | None => None end.
Proof.
  revert d. induction a as [|c a IH]; intros d; [reflexivity|]. cbn [app scan]. destruct (N.eqb c (ch "(")); [apply IH|]. destruct (N.eqb c (ch ")")); [|apply IH].
  destruct d; [reflexivity|apply IH].
Qed.
Lemma scan_mono s : forall d e k, scan d s = Some e -> scan (k + d) s = Some (k + e).
Proof. intros d e k. rewrite !scan_spec. intros [H1 H2]. split; [lia|]. intros p q E. specialize (H2 p q E). lia. Qed.

Lemma closing_scan s : forall d e r i, scan d s = Some e -> closing_loop (s ++ r) (S d) i = closing_loop r (S e) (i + List.length s).
Proof.
  induction s as [|c s IH]; intros d e r i H; cbn [scan] in H; cbn [app List.length].
  - injection H as <-. now rewrite Nat.add_0_r.
  - cbn [closing_loop]. destruct (N.eqb c (ch "(")); [rewrite (IH _ _ r (S i) H); f_equal; lia|].
    destruct (N.eqb c (ch ")")); [|rewrite (IH _ _ r (S i) H); f_equal; lia]. destruct d as [|d]; [discriminate|]. rewrite (IH _ _ r (S i) H). f_equal; lia.
Qed.
Lemma closing_ok s : forall d i j, closing_loop s (S d) i = Ok j ->
  exists inner rest, s = inner ++ ch ")" :: rest /\ scan d inner = Some 0 /\ j = i + List.length inner + 1.
Proof.
  induction s as [|c s IH]; intros d i j H; cbn [closing_loop] in H; [discriminate|].
  destruct (N.eqb c (ch "(")) eqn:E1.
  { apply IH in H as (inner & rest & -> & H & ->). exists (c :: inner), rest. split; [reflexivity|]. cbn [scan List.length]. rewrite E1. split; [exact H|lia]. }
  destruct (N.eqb c (ch ")")) eqn:E2.
  { apply N.eqb_eq in E2. subst c. destruct d as [|d].
    - destruct s; cbn [closing_loop] in H; injection H as <-; (eexists [], _; split; [reflexivity|]; split; [reflexivity|cbn; lia]).
    - apply IH in H as (inner & rest & -> & H & ->). exists (ch ")" :: inner), rest. split; [reflexivity|]. cbn [scan List.length]. rewrite E1. split; [exact H|lia]. }
  apply IH in H as (inner & rest & -> & H & ->). exists (c :: inner), rest. split; [reflexivity|]. cbn [scan List.length]. rewrite E1, E2. split; [exact H|lia].
Qed.
Lemma closing_raises s : forall d i x, closing_loop s d i = Raise x -> x = ValueError /\ forall p q, s = p ++ q -> count (ch ")") p < d + count (ch "(") p.
Proof.
  induction s as [|c s IH]; intros [|d] i x H; cbn [closing_loop] in H; try discriminate.
  - injection H as <-. split; [reflexivity|]. intros p q E. symmetry in E. apply app_eq_nil in E as [-> _]. rewrite !count_nil. lia.
  - apply IH in H as [-> H]. split; [reflexivity|]. intros [|y p] q E; [rewrite !count_nil; lia|]. injection E as <- E. specialize (H p q E). rewrite !count_cons.
    rewrite (N.eqb_sym (ch "(") c), (N.eqb_sym (ch ")") c). destruct (N.eqb c (ch "(")) eqn:E1; cbv iota in H.
    + apply N.eqb_eq in E1. subst c. change (ch "(" =? ch ")")%N with false. cbv iota. lia.
    + destruct (N.eqb c (ch ")")); lia.
Qed.
Lemma find_balanced inner rest : balanced inner -> find_closing_paren (ch "(" :: inner ++ ch ")" :: rest) = Ok (List.length inner + 1).
Proof.
  intros H. apply balanced_scan in H. cbn [find_closing_paren]. change (negb (N.eqb (ch "(") (ch "("))) with false. cbv iota.
  rewrite (closing_scan inner 0 0 _ 0 H). destruct rest; cbn; f_equal; lia.
Qed.
Lemma find_ok s e : find_closing_paren (ch "(" :: s) = Ok e -> exists inner rest, s = inner ++ ch ")" :: rest /\ balanced inner /\ e = List.length inner + 1.
Proof. cbn [find_closing_paren]. change (negb (N.eqb (ch "(") (ch "("))) with false. cbv iota. intros H. apply closing_ok in H as (inner & rest & -> & H & ->). exists inner, rest. rewrite balanced_scan. auto. Qed.
Lemma find_raises s x : find_closing_paren (ch "(" :: s) = Raise x -> x = ValueError /\ forall p q, s = p ++ q -> count (ch ")") p <= count (ch "(") p.
Proof.
  cbn [find_closing_paren]. change (negb (N.eqb (ch "(") (ch "("))) with false. cbv iota. intros H. apply closing_raises in H as [-> H]. split; [reflexivity|].
  intros p q E. specialize (H p q E). lia.
Qed.

(** ** Terms *)
Lemma L_types : is_lang (RGroup [] (RAlts (map RLit match_types))) match_type.
Proof. apply L_grp. apply (L_word ["EQ"; "SUBSTR"; "GE"; "LE"; "APPROX"]%string). discriminate. Qed.
Lemma L_term : is_lang rterm simple_term.
Proof.
  apply L_grp. apply L_either.
  - apply L_cat; [exact L_oid|]. apply L_cat; [apply L_rc_is|apply L_types].
  - apply L_either; apply Proofs_Syntax.L_is.
Qed.
Lemma prefix_iff r (A : lang) s : is_lang r A -> (exists c, match_prefix r s = Some c) <-> some_prefix A s.
Proof.
  intros H. destruct (decides_prefix r A H s) as (P & Q & R). cbn [regex_rule] in *. split.
  - intros [c E]. rewrite E in R. now apply R.
  - intros Hs. apply P in Hs. destruct (match_prefix r s) as [c|]; [eauto|discriminate].
Qed.
Lemma check_term_iff w : check_term w = Ok tt <-> loose_word w.
Proof.
  unfold check_term, loose_word. destruct w as [|c w]; [tauto|]. rewrite <- (prefix_iff rterm simple_term _ L_term).
  destruct (match_prefix rterm (c :: w)) as [x|].
  - split; [intros _; right; eauto|reflexivity].
  - split; [discriminate|]. intros [H|[y H]]; discriminate.
Qed.
Lemma check_term_outcome w : check_term w = Ok tt \/ check_term w = Raise InvalidSyntaxError.
Proof. unfold check_term. destruct w; [auto|]. destruct (match_prefix rterm _); auto. Qed.

(** ** Criteria *)
Definition ok_item (nested : str -> Prop) (i : item) : Prop :=
  match i with
  | Group inner => balanced inner /\ nested inner
  | Separator c => c = ch "|" \/ c = ch "&"
  | Exclaim => True
  | Plain c => c <> ch "(" /\ c <> ch "|" /\ c <> ch "&" /\ c <> ch "!"
  end.
Lemma loop_skip nested a s t : criteria_loop nested (a ++ s) (List.length a) t = criteria_loop nested s 0 t.
Proof. induction a as [|c a IH]; [reflexivity|]. cbn [app List.length criteria_loop]. exact IH. Qed.
Lemma loop_group nested inner rest cur : balanced inner ->
  criteria_loop nested (ch "(" :: inner ++ ch ")" :: rest) 0 cur = let* _ := nested inner in criteria_loop nested rest 0 cur.
Proof.
  intros H. cbn [criteria_loop]. change (N.eqb (ch "(") (ch "(")) with true. cbv iota. rewrite (find_balanced _ _ H). cbn [bind].
  replace (List.length inner + 1 - 1) with (List.length inner) by lia. rewrite firstn_app, Nat.sub_diag, firstn_all, app_nil_r.
  destruct (nested inner); [|reflexivity]. cbn [bind]. change (inner ++ ch ")" :: rest) with (inner ++ [ch ")"] ++ rest). rewrite app_assoc.
  replace (List.length inner + 1) with (List.length (inner ++ [ch ")"])) by (rewrite app_length; cbn; lia). apply loop_skip.
Qed.
Lemma loop_other nested c s cur : c <> ch "(" -> criteria_loop nested (c :: s) 0 cur =
  if N.eqb c (ch "|") || N.eqb c (ch "&") then let* _ := check_term cur in criteria_loop nested s 0 []
  else if N.eqb c (ch "!") then criteria_loop nested s 0 cur else criteria_loop nested s 0 (cur ++ [c]).
Proof. intros H. cbn [criteria_loop]. apply N.eqb_neq in H. now rewrite H. Qed.
Lemma loop_complete nested l : forall cur, Forall (ok_item (fun t => nested t = Ok tt)) l -> Forall loose_word (words cur l) ->
  criteria_loop nested (text_of l) 0 cur = Ok tt.
Proof.
  induction l as [|i l IH]; intros cur Hl Hw.
  - cbn [words] in Hw. inversion Hw; subst. now apply check_term_iff.
  - inversion Hl as [|? ? Hi Hl']; subst. unfold text_of. cbn [map List.concat]. fold (text_of l). destruct i as [inner|c| |c]; cbn [item_text words ok_item] in *.
    + destruct Hi as [Hb Hn]. replace ((lit "(" ++ inner ++ lit ")") ++ text_of l) with (ch "(" :: inner ++ ch ")" :: text_of l) by (cbn [app lit]; now rewrite <- app_assoc).
      rewrite (loop_group _ _ _ _ Hb), Hn. cbn [bind]. now apply IH.
    + inversion Hw as [|? ? Hc Hw']; subst. cbn [app]. rewrite loop_other by (destruct Hi as [-> | ->]; discriminate).
      replace (N.eqb c (ch "|") || N.eqb c (ch "&")) with true by (destruct Hi as [-> | ->]; reflexivity). apply check_term_iff in Hc. rewrite Hc. cbn [bind]. now apply IH.
    + change (lit "!" ++ text_of l) with (ch "!" :: text_of l). rewrite loop_other by discriminate. change (N.eqb (ch "!") (ch "|") || N.eqb (ch "!") (ch "&")) with false.
      change (N.eqb (ch "!") (ch "!")) with true. cbv iota. now apply IH.
    + destruct Hi as (H1 & H2 & H3 & H4). cbn [app]. rewrite loop_other by exact H1. apply N.eqb_neq in H2, H3, H4. rewrite H2, H3, H4. cbn [orb]. now apply IH.
Qed.
Lemma loop_sound nested n : forall s cur, List.length s <= n -> criteria_loop nested s 0 cur = Ok tt ->
  exists l, s = text_of l /\ Forall loose_word (words cur l) /\ Forall (ok_item (fun t => nested t = Ok tt)) l.
Proof.
  induction n as [|n IH]; intros s cur Hn H.
  - destruct s; [|cbn in Hn; lia]. exists []. split; [reflexivity|]. split; [|constructor]. constructor; [|constructor]. now apply check_term_iff.
  - destruct s as [|c s]; [exists []; split; [reflexivity|]; split; [|constructor]; constructor; [now apply check_term_iff|constructor]|].
    cbn [List.length] in Hn. destruct (N.eq_dec c (ch "(")) as [->|Hc].
    + destruct (find_closing_paren (ch "(" :: s)) as [e|x] eqn:E.
      * apply find_ok in E as (inner & rest & -> & Hb & ->). rewrite (loop_group _ _ _ _ Hb) in H. destruct (nested inner) as [[]|] eqn:En; [|discriminate]. cbn [bind] in H.
        apply IH in H as (l & -> & Hw & Hl); [|rewrite app_length in Hn; cbn in Hn; lia]. exists (Group inner :: l). split.
        { unfold text_of. cbn [map List.concat item_text app lit]. now rewrite <- app_assoc. }
        split; [exact Hw|]. constructor; [split; assumption|exact Hl].
      * cbn [criteria_loop] in H. change (N.eqb (ch "(") (ch "(")) with true in H. cbv iota in H. rewrite E in H. discriminate.
    + rewrite loop_other in H by exact Hc. destruct (N.eqb c (ch "|") || N.eqb c (ch "&")) eqn:E1.
      { destruct (check_term cur) as [[]|] eqn:Ec; [|discriminate]. cbn [bind] in H. apply IH in H as (l & -> & Hw & Hl); [|lia]. exists (Separator c :: l). split; [reflexivity|].
        split; [cbn [words]; constructor; [now apply check_term_iff|exact Hw]|]. constructor; [|exact Hl]. cbn [ok_item]. rewrite orb_true_iff, !N.eqb_eq in E1. exact E1. }
      destruct (N.eqb c (ch "!")) eqn:E2.
      { apply N.eqb_eq in E2. subst c. apply IH in H as (l & -> & Hw & Hl); [|lia]. exists (Exclaim :: l). split; [reflexivity|]. split; [exact Hw|]. constructor; [exact I|exact Hl]. }
      apply IH in H as (l & -> & Hw & Hl); [|lia]. exists (Plain c :: l). split; [reflexivity|]. split; [exact Hw|]. constructor; [|exact Hl].
      rewrite orb_false_iff, !N.eqb_neq in E1. rewrite N.eqb_neq in E2. cbn [ok_item]. tauto.
Qed.
Lemma loose_item d : forall i, ok_item (loose d) i <->
  match i with
  | Group inner => balanced inner /\ loose d inner
  | Separator c => c = ch "|" \/ c = ch "&"
  | Exclaim => True
  | Plain c => c <> ch "(" /\ c <> ch "|" /\ c <> ch "&" /\ c <> ch "!"
  end.
Proof. intros []; reflexivity. Qed.
Lemma criteria_iff depth : forall s, validate_criteria depth s = Ok tt <-> loose depth s.
Proof.
  induction depth as [|d IH]; intros s; [split; [discriminate|intros []]|]. cbn [validate_criteria loose]. split.
  - intros H. apply (loop_sound _ (List.length s)) in H as (l & -> & Hw & Hl); [|lia]. exists l. split; [reflexivity|]. split; [exact Hw|]. revert Hl. apply Forall_impl.
    intros [inner|c| |c]; cbn [ok_item]; auto. intros [Hb Hi]. split; [exact Hb|]. now apply IH.
  - intros (l & -> & Hw & Hl). apply loop_complete; [|exact Hw]. revert Hl. apply Forall_impl. intros [inner|c| |c]; cbn [ok_item]; auto. intros [Hb Hi]. split; [exact Hb|]. now apply IH.
Qed.
