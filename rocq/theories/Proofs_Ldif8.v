(** * Proofs for C34_line_ends *)
From Verif Require Import PyBase Model_Uri Model_Prep Model_Ldif Spec_Ldif Spec_Ldif2 Spec_Uri Proofs_Prep Proofs_Uri
  Proofs_Ldif Proofs_Ldif2 Proofs_Ldif3 Proofs_Ldif4 Proofs_Ldif5 Proofs_Ldif6.

(** ** Joining *)
Lemma refolds_of_unfold s : refolds (unfold s) s.
Proof.
  assert (G : forall n s, List.length s <= n -> refolds (unfold s) s).
  { induction n as [|n IH]; intros [|c r] H; cbn [List.length] in H; try lia; [constructor|constructor|].
    cbn [unfold]. destruct (N.eqb_spec c 10) as [->|H10].
    - destruct r as [|d r']; [repeat constructor|]. destruct (N.eqb_spec d 32) as [->|_].
      + apply rf_lf, IH. cbn [List.length] in H. lia.
      + apply rf_char, IH. lia.
    - destruct (N.eqb_spec c 13) as [->|H13]; [|apply rf_char, IH; lia].
      destruct r as [|d [|e r']]; [apply rf_char, IH; cbn [List.length] in *; lia..|].
      destruct (N.eqb d 10 && N.eqb e 32) eqn:E; [|apply rf_char, IH; lia].
      apply andb_true_iff in E as [E1 E2]. apply N.eqb_eq in E1, E2. subst. apply rf_crlf, IH. cbn [List.length] in H. lia. }
  exact (G _ s (le_n _)).
Qed.

Lemma crlf_head s t : crlf s t -> match s, t with [], [] => True | c :: _, d :: _ => c = d \/ (c = 10%N /\ d = 13%N) | _, _ => False end.
Proof. destruct 1; auto. Qed.
Lemma crlf_unfold : forall s t, crlf s t -> crlf (unfold s) (unfold t).
Proof.
  assert (G : forall n s t, List.length s <= n -> crlf s t -> crlf (unfold s) (unfold t)).
  { induction n as [|n IH]; intros s0 t0 Hn H; destruct H as [|c s t H10 H13 H|s t H|s t H]; cbn [List.length] in Hn; try lia; try solve [constructor].
    - apply N.eqb_neq in H10 as E10, H13 as E13. cbn [unfold]. rewrite E10, E13. constructor; auto. apply IH; [lia|exact H].
    - pose proof (IH s t ltac:(lia) H) as I. cbn [unfold]. rewrite N.eqb_refl. destruct H as [|c s' t' Hc1 Hc2 H|s' t' H|s' t' H].
      + apply cr_lf. constructor.
      + destruct (N.eqb c 32) eqn:E; [apply IH; [cbn [List.length] in Hn; lia|exact H]|]. now apply cr_lf.
      + now apply cr_lf.
      + now apply cr_lf.
    - pose proof (IH s t ltac:(lia) H) as I.
      assert (E : unfold (13%N :: 10%N :: t) = match t with e :: r' => if N.eqb e 32 then unfold r' else 13%N :: 10%N :: unfold t | [] => [13; 10]%N end).
      { destruct t as [|e r']; [reflexivity|]. cbn [unfold]. rewrite (N.eqb_refl 10). change (N.eqb 13 10) with false. change (N.eqb 13 13) with true. cbv iota.
        destruct (N.eqb e 32); reflexivity. }
      rewrite E. clear E. cbn [unfold]. rewrite N.eqb_refl. destruct H as [|c s' t' Hc1 Hc2 H|s' t' H|s' t' H].
      + apply cr_crlf. constructor.
      + destruct (N.eqb c 32) eqn:E; [apply IH; [cbn [List.length] in Hn; lia|exact H]|]. now apply cr_crlf.
      + now apply cr_crlf.
      + now apply cr_crlf. }
  intros s t H. exact (G _ s t (le_n _) H).
Qed.
Lemma crlf_hc s t : crlf s t -> hc t = hc s.
Proof.
  induction 1 as [|c s t H10 H13 H IH|s t H IH|s t H IH]; [reflexivity| | |].
  - cbn [hc]. rewrite IH. destruct H; reflexivity.
  - cbn [hc]. now rewrite IH.
  - cbn [hc]. now rewrite IH.
Qed.
Lemma hc_false_of s : (forall a b, s <> a ++ ch ":" :: ch "<" :: b) -> hc s = false.
Proof.
  induction s as [|c s IH]; intros H; [reflexivity|]. cbn [hc]. rewrite IH by (intros a b E; apply (H (c :: a) b); cbn [app]; now rewrite E).
  rewrite orb_false_r. destruct s as [|d s]; [apply andb_false_r|].
  destruct (N.eqb_spec c 58) as [->|_]; [|reflexivity]. destruct (N.eqb_spec d 60) as [->|_]; [|reflexivity].
  exfalso. exact (H [] s eq_refl).
Qed.

(** ** Lines *)
(** two lines that differ at most in how they end *)
Definition same_line (l m : str) : Prop := exists w x y, l = w ++ x /\ m = w ++ y /\
  Forall (fun c => is_break c = false) w /\ (x = y /\ (x = [] \/ exists c, x = [c] /\ is_break c = true /\ c <> 13%N) \/ x = [10%N] /\ y = [13; 10]%N).
Lemma no_break_13 c : is_break c = false -> c <> 10%N /\ c <> 13%N.
Proof. unfold is_break, in_ranges. cbn [existsb fst snd]. lia. Qed.
Lemma crlf_lines keep s t : crlf s t -> forall acc, Forall (fun c => is_break c = false) acc ->
  if keep : bool then Forall2 same_line (splitlines true acc s) (splitlines true acc t)
  else splitlines false acc t = splitlines false acc s.
Proof.
  induction 1 as [|c s t H10 H13 H IH|s t H IH|s t H IH]; intros acc Ha.
  - destruct keep; [|reflexivity]. cbn [splitlines]. destruct acc as [|a acc]; [constructor|]. constructor; [|constructor].
    exists (rev (a :: acc)), [], []. rewrite app_nil_r. repeat (split; [reflexivity|]). split; [now apply Forall_rev|]. left. auto.
  - cbn [splitlines]. destruct (is_break c) eqn:Eb.
    + assert (L : same_line (rev acc ++ [c]) (rev acc ++ [c])).
      { exists (rev acc), [c], [c]. repeat (split; [reflexivity|]). split; [now apply Forall_rev|]. left. split; [reflexivity|]. right. exists c. auto. }
      apply N.eqb_neq in H13. assert (Hn : forall d, N.eqb c 13 && N.eqb d 10 = false) by (intros d; now rewrite H13).
      pose proof (crlf_head _ _ H) as Hh. specialize (IH [] (Forall_nil _)).
      destruct s as [|d s], t as [|e t]; try contradiction; destruct keep; try (constructor; [exact L|constructor]); try reflexivity; rewrite !Hn.
      * constructor; [exact L|exact IH].
      * now rewrite IH.
    + apply IH. now constructor.
  - specialize (IH [] (Forall_nil _)).
    assert (L : same_line (rev acc ++ [10%N]) (rev acc ++ [10%N])).
    { exists (rev acc), [10%N], [10%N]. repeat (split; [reflexivity|]). split; [now apply Forall_rev|]. left. split; [reflexivity|]. right. exists 10%N. split; [reflexivity|]. split; [reflexivity|discriminate]. }
    cbn [splitlines]. change (is_break 10) with true. cbv iota. change (N.eqb 10 13) with false. cbn [andb].
    destruct H; destruct keep; try (constructor; [exact L|first [exact IH|constructor]]); first [reflexivity|now rewrite IH].
  - specialize (IH [] (Forall_nil _)).
    assert (L : same_line (rev acc ++ [10%N]) (rev acc ++ [13; 10]%N)).
    { exists (rev acc), [10%N], [13; 10]%N. repeat (split; [reflexivity|]). split; [now apply Forall_rev|]. right. auto. }
    cbn [splitlines]. change (is_break 10) with true. change (is_break 13) with true. cbv iota. change (N.eqb 10 13) with false.
    change (N.eqb 13 13 && N.eqb 10 10) with true. cbn [andb]. cbv iota.
    destruct H; destruct keep; try (constructor; [exact L|first [exact IH|constructor]]); first [reflexivity|now rewrite IH].
Qed.

Lemma strip_by_app p w b : Forall (fun c => p c = true) b -> strip_by p (w ++ b) = strip_by p w.
Proof.
  intros H. destruct (strip_decomp p w) as (a & core & b' & -> & -> & Ha & Hb' & H1 & H2). rewrite <- !app_assoc.
  apply strip_core; auto. apply Forall_app; auto.
Qed.
Lemma break_space c : is_break c = true -> py_isspace c = true.
Proof. unfold is_break, py_isspace, in_ranges. cbn [existsb fst snd py_space_ranges]. lia. Qed.

Lemma same_line_strip l m : same_line l m -> py_strip m = py_strip l.
Proof.
  intros (w & x & y & -> & -> & Hw & H). unfold py_strip. destruct H as [[<- _]|[-> ->]]; [reflexivity|].
  rewrite !strip_by_app; [reflexivity|repeat constructor|repeat constructor].
Qed.
Lemma starts_with_app tok x : ~ In 10%N tok -> ~ In 13%N tok -> (x = [10%N] \/ x = [13; 10]%N) ->
  forall w, starts_with tok (w ++ x) = starts_with tok w.
Proof.
  intros H10 H13 Hx w. apply eq_true_iff_eq. rewrite !starts_with_spec. split; [|intros [r ->]; exists (r ++ x); now rewrite app_assoc].
  revert w. induction tok as [|c tok IH]; intros w [r E]; [now exists w|].
  destruct w as [|d w]; cbn [app] in E.
  - exfalso. destruct Hx as [->| ->]; injection E as E _; [apply H10|apply H13]; left; now symmetry.
  - injection E as -> E. destruct (IH (fun Hi => H10 (or_intror Hi)) (fun Hi => H13 (or_intror Hi)) w (ex_intro _ r E)) as [r' ->]. now exists r'.
Qed.
Lemma same_line_field tok l m : ~ In 10%N tok -> ~ In 13%N tok -> same_line l m -> take_field tok m = take_field tok l.
Proof.
  intros H10 H13 (w & x & y & -> & -> & Hw & H). destruct H as [[<- _]|[-> ->]]; [reflexivity|].
  unfold take_field. rewrite !starts_with_app by auto. destruct (starts_with tok w) eqn:E; [|reflexivity].
  apply starts_with_spec in E as [r ->]. rewrite <- !app_assoc. rewrite !skipn_app, !skipn_all2, !Nat.sub_diag by lia. cbn [app skipn].
  unfold py_strip. rewrite !strip_by_app; [reflexivity|repeat constructor|repeat constructor].
Qed.
Lemma same_clear ls ms : Forall2 same_line ls ms -> Forall2 same_line (clear_comments ls) (clear_comments ms).
Proof.
  induction 1 as [|l m ls ms H F IH]; [constructor|]. cbn [clear_comments]. rewrite (same_line_strip l m H).
  destruct (starts_with (lit "#") (py_strip l)); [exact IH|now constructor].
Qed.

Lemma crlf_refl s : ~ In 13%N s -> crlf s s.
Proof.
  induction s as [|c s IH]; intros H; [constructor|].
  destruct (N.eqb_spec c 10) as [->|Hc]; [apply cr_lf|apply cr_char; [exact Hc|intros ->; apply H; now left|]]; apply IH; intros Hi; apply H; now right.
Qed.
Lemma crlf_app a b : crlf a b -> forall c d, crlf c d -> crlf (a ++ c) (b ++ d).
Proof. induction 1; intros c' d' H'; cbn [app]; [exact H'|constructor; auto|apply cr_lf; auto|apply cr_crlf; auto]. Qed.
Lemma same_crlf l m : same_line l m -> crlf l m.
Proof.
  intros (w & x & y & -> & -> & Hw & H). apply crlf_app.
  - apply crlf_refl. intros Hi. rewrite Forall_forall in Hw. apply Hw in Hi. discriminate.
  - destruct H as [[<- H]|[-> ->]]; [|apply cr_crlf; constructor]. apply crlf_refl. destruct H as [->|(c & -> & _ & Hc)]; [intros []|intros [Hi|[]]; auto].
Qed.
Lemma crlf_concat ls ms : Forall2 same_line ls ms -> crlf (List.concat ls) (List.concat ms).
Proof. induction 1 as [|l m ls ms H _ IH]; [constructor|]. cbn [List.concat]. apply crlf_app; [now apply same_crlf|exact IH]. Qed.

(** ** Blocks *)
Lemma crlf_run s t : crlf s t -> forall n m, List.length s <= n -> List.length t <= m ->
  exists k s' t', newline_run n s = (k, s') /\ newline_run m t = (k, t') /\ crlf s' t' /\
    (k = 0 -> s' = s /\ t' = t) /\ List.length s' + k <= List.length s /\ List.length t' + k <= List.length t.
Proof.
  induction 1 as [|c s t H10 H13 H IH|s t H IH|s t H IH]; intros n m Hn Hm; cbn [List.length] in *.
  - exists 0, [], []. destruct n, m; repeat (split; [reflexivity || constructor|]); auto.
  - destruct n as [|n]; [lia|]. destruct m as [|m]; [lia|]. apply N.eqb_neq in H10 as E10, H13 as E13.
    exists 0, (c :: s), (c :: t). cbn [newline_run]. rewrite E10, E13.
    assert (Hcc : crlf (c :: s) (c :: t)) by (apply cr_char; assumption).
    destruct s as [|d s], t as [|e t]; pose proof (crlf_head _ _ H); try contradiction;
      (split; [reflexivity|]); (split; [reflexivity|]); (split; [exact Hcc|]); (split; [auto|]); cbn [List.length]; lia.
  - destruct n as [|n]; [lia|]. destruct m as [|m]; [lia|].
    destruct (IH n m ltac:(lia) ltac:(lia)) as (k & s' & t' & E1 & E2 & Hc & H0 & L1 & L2).
    exists (S k), s', t'. cbn [newline_run]. rewrite N.eqb_refl, E1, E2. repeat (split; [reflexivity || assumption|]). split; [discriminate|lia].
  - destruct n as [|n]; [lia|]. destruct m as [|m]; [lia|].
    destruct (IH n m ltac:(lia) ltac:(lia)) as (k & s' & t' & E1 & E2 & Hc & H0 & L1 & L2).
    exists (S k), s', t'. cbn [newline_run]. change (N.eqb 10 10) with true. change (N.eqb 13 10) with false. change (N.eqb 13 13) with true.
    cbv iota. cbn [andb]. rewrite E1, E2. repeat (split; [reflexivity || assumption|]). split; [discriminate|lia].
Qed.

Lemma run_fuel : forall n m (t : str), List.length t <= n -> List.length t <= m -> newline_run n t = newline_run m t.
Proof.
  induction n as [|n IH]; intros m t Hn Hm.
  - destruct t; [|cbn in Hn; lia]. destruct m; reflexivity.
  - destruct m as [|m]; [destruct t; [reflexivity|cbn in Hm; lia]|]. destruct t as [|c r]; [reflexivity|]. cbn [List.length newline_run] in *.
    destruct (N.eqb c 10); [now rewrite (IH m) by lia|]. destruct r as [|d r]; [reflexivity|].
    destruct (N.eqb c 13 && N.eqb d 10); [|reflexivity]. cbn [List.length] in *. now rewrite (IH m) by lia.
Qed.
Lemma crlf_acc acc acc' x y : crlf (rev acc) (rev acc') -> crlf x y -> crlf (rev acc ++ x) (rev acc' ++ y).
Proof. intros. now apply crlf_app. Qed.
Lemma crlf_blocks : forall s t, crlf s t -> forall n m acc acc', List.length s < n -> List.length t < m -> crlf (rev acc) (rev acc') ->
  Forall2 crlf (split_blocks n acc s) (split_blocks m acc' t).
Proof.
  assert (G : forall z s t, List.length s <= z -> crlf s t -> forall n m acc acc', List.length s < n -> List.length t < m -> crlf (rev acc) (rev acc') ->
    Forall2 crlf (split_blocks n acc s) (split_blocks m acc' t)).
  2:{ intros s t H. exact (G _ s t (le_n _) H). }
  induction z as [|z IH]; intros s0 t0 Hz H n m acc acc' Hn Hm Ha.
  { destruct H; cbn [List.length] in *; try lia. destruct n as [|n]; [lia|]. destruct m as [|m]; [lia|]. cbn. constructor; [exact Ha|constructor]. }
  destruct (crlf_run s0 t0 H (List.length s0) (List.length t0) (le_n _) (le_n _)) as (k & s' & t' & E1 & E2 & Hc & H0 & L1 & L2).
  destruct n as [|n]; [lia|]. destruct m as [|m]; [lia|].
  destruct H as [|c s t H10 H13 H|s t H|s t H]; cbn [split_blocks].
  - constructor; [exact Ha|constructor].
  - rewrite E1, E2. destruct (2 <=? k) eqn:Ek.
    + apply Nat.leb_le in Ek. constructor; [exact Ha|]. cbn [List.length] in *. apply IH; [lia|exact Hc|lia|lia|constructor].
    + cbn [List.length] in *. apply IH; [lia|exact H|lia|lia|]. cbn [rev]. apply crlf_app; [exact Ha|]. constructor; auto. constructor.
  - rewrite E1, E2. destruct (2 <=? k) eqn:Ek.
    + apply Nat.leb_le in Ek. constructor; [exact Ha|]. cbn [List.length] in *. apply IH; [lia|exact Hc|lia|lia|constructor].
    + cbn [List.length] in *. apply IH; [lia|exact H|lia|lia|]. cbn [rev]. apply crlf_app; [exact Ha|]. apply cr_lf. constructor.
  - rewrite E1, E2. destruct (2 <=? k) eqn:Ek.
    + apply Nat.leb_le in Ek. constructor; [exact Ha|]. cbn [List.length] in *. apply IH; [lia|exact Hc|lia|lia|constructor].
    + destruct m as [|m]; [cbn [List.length] in Hm; lia|]. cbn [split_blocks].
      assert (E3 : newline_run (List.length (10%N :: t)) (10%N :: t) = (k, t')).
      { assert (A : newline_run (List.length (13%N :: 10%N :: t)) (13%N :: 10%N :: t) = (let (n, x) := newline_run (S (List.length t)) t in (S n, x))) by reflexivity.
        assert (B : newline_run (List.length (10%N :: t)) (10%N :: t) = (let (n, x) := newline_run (List.length t) t in (S n, x))) by reflexivity.
        assert (newline_run (S (List.length t)) t = newline_run (List.length t) t) as E by (apply run_fuel; lia).
        rewrite B, <- E, <- A. exact E2. }
      rewrite E3, Ek. cbn [List.length] in *. apply IH; [lia|exact H|lia|lia|]. cbn [rev]. rewrite <- app_assoc. cbn [app].
      apply crlf_app; [exact Ha|]. apply cr_crlf. constructor.
Qed.

Section E.
  Context (utf8_decode : list N -> option str) (b64decode : str -> res (list N)).
  Context (keyword : str -> option str) (default_criticality : bool).
  Context (exec : list op -> op -> res unit) (fetch_error : str -> exn).
  Notation process := (process_ldif utf8_decode b64decode keyword default_criticality exec fetch_error).
  Notation runr := (run_records utf8_decode b64decode keyword default_criticality exec).
  Lemma crlf_records bs cs : Forall2 crlf bs cs -> forall done, runr cs done = runr bs done.
  Proof.
    induction 1 as [|b c bs cs H _ IH]; intros done; [reflexivity|].
    pose proof (crlf_lines false b c H [] (Forall_nil _)) as E. cbv iota in E. pose proof (crlf_head _ _ H) as Hh.
    destruct b as [|x b], c as [|y c]; try contradiction; cbn [run_records]; [apply IH|]. rewrite E.
    destruct (read_record _ _ _ _ _) as [o|e]; [|reflexivity]. destruct (exec done o); [apply IH|reflexivity].
  Qed.
  Lemma process_crlf s t : crlf s t -> no_url s -> process t = process s.
  Proof.
    intros H Hn. pose proof (crlf_unfold _ _ H) as Hu. unfold process_ldif.
    assert (Hh : hc (unfold s) = false) by (apply hc_false_of; intros a b; apply Hn, refolds_of_unfold).
    rewrite (hc_url _ Hh). rewrite (hc_url (unfold t)) by (rewrite (crlf_hc _ _ Hu); exact Hh).
    pose proof (same_clear _ _ (crlf_lines true _ _ Hu [] (Forall_nil _))) as F.
    destruct F as [|l m ls ms Hlm F]; [reflexivity|].
    assert (V : ~ In 10%N (lit "version:") /\ ~ In 13%N (lit "version:")).
    { split; intros Hi; cbn in Hi; repeat (destruct Hi as [Hi|Hi]; [discriminate|]); contradiction. }
    rewrite (same_line_field (lit "version:") l m (proj1 V) (proj2 V) Hlm).
    destruct (take_field (lit "version:") l) as [v|].
    - destruct (str_eqb v (lit "1")); [|reflexivity]. apply crlf_records, crlf_blocks; try lia; [now apply crlf_concat|constructor].
    - apply crlf_records, crlf_blocks; try lia; [|constructor]. apply crlf_concat. now constructor.
  Qed.
End E.
