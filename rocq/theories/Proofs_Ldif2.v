(** * Proofs about reading LDIF change records *)
From Verif Require Import PyBase Model_Uri Model_Prep Model_Ldif Spec_Ldif Spec_Uri Proofs_Prep Proofs_Uri Proofs_Ldif.

(** ** Text level *)
Lemma break_10 : is_break 10 = true. Proof. reflexivity. Qed.
Lemma break_13 : is_break 13 = true. Proof. reflexivity. Qed.
Definition line_ok (l : str) : Prop :=
  Forall (fun c => is_break c = false) l /\ exists c r, l = c :: r /\ c <> 32%N.
Lemma line_ok_no_breaks l : line_ok l -> no_breaks l.
Proof.
  intros [H _]. rewrite Forall_forall in H. split; intros Hin; apply H in Hin; discriminate.
Qed.

Lemma ended_cons l ls : ended (l :: ls) = l ++ 10%N :: ended ls.
Proof. unfold ended. cbn [map List.concat]. now rewrite <- app_assoc. Qed.
Lemma ended_app a b : ended (a ++ b) = ended a ++ ended b.
Proof. unfold ended. now rewrite map_app, concat_app. Qed.

(** *** unfolding leaves complete lines alone *)
Lemma unfold_lf r : (match r with c :: _ => c <> 32%N | [] => True end) -> unfold (10%N :: r) = 10%N :: unfold r.
Proof.
  intros H. cbn [unfold N.eqb Pos.eqb]. destruct r as [|d r]; [reflexivity|].
  destruct (N.eqb_spec d 32); [contradiction|reflexivity].
Qed.
Lemma unfold_ended ls r : Forall line_ok ls -> (match r with c :: _ => c <> 32%N | [] => True end) ->
  unfold (ended ls ++ r) = ended ls ++ unfold r.
Proof.
  intros H Hr. induction H as [|l ls Hl Hls IH]; [reflexivity|].
  rewrite ended_cons, <- app_assoc. cbn [app]. rewrite unfold_app by now apply line_ok_no_breaks.
  rewrite unfold_lf.
  - rewrite IH, <- app_assoc. reflexivity.
  - destruct Hls as [|l2 ls2 Hl2 _]; [exact Hr|]. destruct Hl2 as [_ (c & t & -> & Hc)]. rewrite ended_cons. exact Hc.
Qed.

(** *** no URL *)
Fixpoint hc (s : str) : bool :=
  match s with
  | [] => false
  | c :: r => (N.eqb c 58 && match r with d :: _ => N.eqb d 60 | [] => false end) || hc r
  end.
Lemma hc_url s : hc s = false -> has_url s = false.
Proof.
  induction s as [|c r IH]; [reflexivity|]. cbn [hc has_url]. intros H. apply orb_false_iff in H as [H1 H2].
  rewrite IH by auto. change (ch ":") with 58%N. change (ch "<") with 60%N.
  destruct (N.eqb c 58); [|reflexivity]. cbn [andb orb] in *. destruct r as [|d [|e r]]; try reflexivity. rewrite H1. reflexivity.
Qed.
Lemma hc_sep a c b : c <> 58%N -> c <> 60%N -> hc (a ++ c :: b) = hc a || hc b.
Proof.
  intros H1 H2. apply N.eqb_neq in H1, H2. induction a as [|x a IH]; cbn [app hc].
  - now rewrite H1.
  - rewrite IH. destruct a as [|y a]; cbn [app].
    + rewrite H2, andb_false_r. reflexivity.
    + now rewrite orb_assoc.
Qed.
Lemma hc_none s : ~ In 60%N s -> hc s = false.
Proof.
  induction s as [|c s IH]; intros H; [reflexivity|]. cbn [hc]. rewrite IH by (intros Hin; apply H; now right).
  rewrite orb_false_r. destruct s as [|d s]; [apply andb_false_r|].
  destruct (N.eqb_spec d 60) as [->|_]; [exfalso; apply H; right; now left|]. apply andb_false_r.
Qed.
Lemma hc_iff s : hc s = true <-> exists a b, s = a ++ 58%N :: 60%N :: b.
Proof.
  split.
  - induction s as [|c s IH]; [discriminate|]. cbn [hc]. intros H. apply orb_true_iff in H as [H|H].
    + destruct s as [|d s]; [now rewrite andb_false_r in H|]. apply andb_true_iff in H as [H1 H2].
      apply N.eqb_eq in H1, H2. subst. exists [], s. reflexivity.
    + destruct (IH H) as (a & b & ->). exists (c :: a), b. reflexivity.
  - intros (a & b & ->). induction a as [|x a IH]; [reflexivity|]. cbn [app hc]. rewrite IH. apply orb_true_r.
Qed.
Lemma hc_ended ls r : Forall (fun l => hc l = false) ls -> hc r = false -> hc (ended ls ++ r) = false.
Proof.
  intros H Hr. induction H as [|l ls Hl Hls IH]; [exact Hr|].
  rewrite ended_cons, <- app_assoc. cbn [app]. rewrite hc_sep by discriminate. now rewrite Hl, IH.
Qed.

(** *** lines *)
Lemma splitlines_concat s : forall acc, List.concat (splitlines true acc s) = rev acc ++ s.
Proof.
  assert (G : forall n s acc, List.length s <= n -> List.concat (splitlines true acc s) = rev acc ++ s).
  { induction n as [|n IH]; intros s0 acc Hn; (destruct s0 as [|c r]; [|cbn [List.length] in Hn]); try lia.
    - cbn [splitlines]. destruct acc; [reflexivity|]. cbn [List.concat]. now rewrite !app_nil_r.
    - cbn [splitlines]. destruct acc; [reflexivity|]. cbn [List.concat]. now rewrite !app_nil_r.
    - cbn [splitlines]. destruct (is_break c).
      + destruct r as [|d r].
        * cbn [List.concat]. now rewrite app_nil_r.
        * cbn [List.length] in Hn. destruct (N.eqb c 13 && N.eqb d 10) eqn:E.
          -- apply andb_true_iff in E as [E1 E2]. apply N.eqb_eq in E1, E2. subst. cbn [List.concat].
             rewrite IH by lia. cbn [rev app]. now rewrite <- app_assoc.
          -- cbn [List.concat]. rewrite IH by (cbn [List.length]; lia). cbn [rev app]. now rewrite <- app_assoc.
      + rewrite IH by lia. cbn [rev]. now rewrite <- app_assoc. }
  intros acc. eapply G; eauto.
Qed.

Lemma splitlines_line keep l : Forall (fun c => is_break c = false) l -> forall acc r,
  splitlines keep acc (l ++ 10%N :: r) = (rev acc ++ l ++ if keep then [10%N] else []) :: splitlines keep [] r.
Proof.
  induction 1 as [|c l Hc Hl IH]; intros acc r; cbn [app splitlines].
  - rewrite break_10. destruct r as [|d r]; [reflexivity|]. reflexivity.
  - rewrite Hc, IH. cbn [rev]. now rewrite <- app_assoc.
Qed.
Lemma splitlines_last l : Forall (fun c => is_break c = false) l -> forall acc,
  splitlines false acc l = match rev acc ++ l with [] => [] | x => [x] end.
Proof.
  induction 1 as [|c l Hc Hl IH]; intros acc; cbn [splitlines].
  - rewrite app_nil_r. destruct acc as [|x acc]; [reflexivity|]. cbn [rev]. destruct (rev acc); reflexivity.
  - rewrite Hc, IH. cbn [rev]. rewrite <- app_assoc. reflexivity.
Qed.
Lemma splitlines_ended ls : Forall line_ok ls -> splitlines false [] (ended ls) = ls.
Proof.
  induction 1 as [|l ls [Hl _] _ IH]; [reflexivity|]. rewrite ended_cons, splitlines_line by auto.
  cbn [rev app]. rewrite app_nil_r. now f_equal.
Qed.

(** *** blocks *)
Lemma ended_unended ls : ls <> [] -> ended ls = join_str [10%N] ls ++ [10%N].
Proof.
  induction ls as [|l ls IH]; [contradiction|]. intros _. destruct ls as [|l2 ls]; [rewrite ended_cons; reflexivity|].
  rewrite ended_cons, IH by discriminate.
  change (join_str [10%N] (l :: l2 :: ls)) with (l ++ 10%N :: join_str [10%N] (l2 :: ls)).
  rewrite <- app_assoc. reflexivity.
Qed.
Lemma splitlines_unended ls : Forall line_ok ls -> splitlines false [] (join_str [10%N] ls) = ls.
Proof.
  induction ls as [|l ls IH]; intros H; [reflexivity|]. inversion H as [|? ? [Hl Hne] Hls]; subst.
  destruct ls as [|l2 ls].
  - cbn [join_str]. rewrite splitlines_last by auto. cbn [rev app]. destruct Hne as (c & r & -> & _). reflexivity.
  - change (join_str [10%N] (l :: l2 :: ls)) with (l ++ 10%N :: join_str [10%N] (l2 :: ls)).
    rewrite splitlines_line by auto. rewrite IH by auto. cbn [rev app]. now rewrite app_nil_r.
Qed.

(** characters pass through the splitter unless two line breaks follow each other *)
Lemma split_block_line l : no_breaks l -> forall fuel acc r, List.length l < fuel ->
  split_blocks fuel acc (l ++ r) = split_blocks (fuel - List.length l) (rev l ++ acc) r.
Proof.
  induction l as [|c l IH]; intros [H1 H2] fuel acc r Hf; cbn [List.length] in *.
  - now rewrite Nat.sub_0_r.
  - destruct fuel as [|fuel]; [lia|]. cbn [app split_blocks List.length newline_run].
    destruct (N.eqb_spec c 10) as [->|_]; [exfalso; apply H1; now left|].
    destruct (N.eqb_spec c 13) as [->|_]; [exfalso; apply H2; now left|]. cbn [andb].
    cbn [Nat.leb]. rewrite IH; [|split; intros H; [apply H1|apply H2]; now right|lia].
    cbn [rev]. rewrite <- app_assoc. destruct (l ++ r); reflexivity.
Qed.

Definition starts_line (r : str) : Prop := match r with c :: _ => c <> 10%N /\ c <> 13%N | [] => True end.
Lemma newline_run_0 n r : starts_line r -> newline_run n r = (0, r).
Proof.
  intros H. destruct n; [reflexivity|]. destruct r as [|c r]; [reflexivity|]. cbn in H |- *. destruct H as [H1 H2].
  apply N.eqb_neq in H1, H2. rewrite H1, H2. cbn [andb]. now destruct r.
Qed.

Lemma split_one_lf fuel acc r : starts_line r -> split_blocks (S fuel) acc (10%N :: r) = split_blocks fuel (10%N :: acc) r.
Proof. intros H. cbn [split_blocks List.length newline_run N.eqb Pos.eqb]. rewrite newline_run_0 by auto. reflexivity. Qed.
Lemma split_two_lf fuel acc r : starts_line r -> split_blocks (S fuel) acc (10%N :: 10%N :: r) = rev acc :: split_blocks fuel [] r.
Proof.
  intros H. cbn [split_blocks List.length newline_run N.eqb Pos.eqb]. rewrite newline_run_0 by auto. reflexivity.
Qed.

Lemma line_starts l r : line_ok l -> starts_line (l ++ r).
Proof.
  intros [H (c & t & -> & _)]. inversion H; subst. cbn [app starts_line].
  split; intros ->; discriminate.
Qed.

Lemma split_block ls : Forall line_ok ls -> ls <> [] -> forall fuel acc r,
  List.length (join_str [10%N] ls) < fuel ->
  split_blocks fuel acc (join_str [10%N] ls ++ r) =
  split_blocks (fuel - List.length (join_str [10%N] ls)) (rev (join_str [10%N] ls) ++ acc) r.
Proof.
  induction ls as [|l ls IH]; intros H Hne fuel acc r Hf; [contradiction|]. inversion H as [|? ? Hl Hls]; subst.
  destruct ls as [|l2 ls].
  - cbn [join_str] in *. apply split_block_line; auto. now apply line_ok_no_breaks.
  - change (join_str [10%N] (l :: l2 :: ls)) with (l ++ 10%N :: join_str [10%N] (l2 :: ls)) in *.
    rewrite app_length in Hf. cbn [List.length] in Hf.
    rewrite <- app_assoc. rewrite split_block_line by (try lia; now apply line_ok_no_breaks).
    cbn [app]. destruct (fuel - List.length l) as [|f] eqn:Ef; [lia|].
    rewrite split_one_lf.
    + rewrite IH by (auto; try discriminate; lia). rewrite app_length. cbn [List.length].
      rewrite rev_app_distr. cbn [rev]. rewrite <- !app_assoc. cbn [app].
      f_equal. lia.
    + destruct ls as [|l3 ls]; cbn [join_str].
      * apply line_starts. now inversion Hls.
      * rewrite <- app_assoc. apply line_starts. now inversion Hls.
Qed.

(** the whole file *)
Fixpoint file (blocks : list (list str)) : str :=
  match blocks with
  | [] => []
  | [b] => ended b
  | b :: rest => ended b ++ [10%N] ++ file rest
  end.
Definition block_ok (b : list str) : Prop := b <> [] /\ Forall line_ok b.

Lemma file_starts blocks : Forall block_ok blocks -> starts_line (file blocks) /\ (match file blocks with c :: _ => c <> 32%N | [] => True end).
Proof.
  intros H. destruct H as [|b rest [Hne Hb] _]; [split; exact I|].
  destruct b as [|l b]; [contradiction|]. inversion Hb as [|? ? Hl _]; subst.
  assert (E : exists x, file ((l :: b) :: rest) = l ++ x).
  { destruct rest; cbn [file]; rewrite ended_cons.
    - eauto.
    - rewrite <- app_assoc. eauto. }
  destruct E as [x ->]. split; [now apply line_starts|]. destruct Hl as [_ (c & r & -> & Hc)]. exact Hc.
Qed.

(** the blocks found are the records; the last one still has its final line break *)
Lemma split_file blocks : Forall block_ok blocks -> blocks <> [] -> forall fuel, List.length (file blocks) < fuel ->
  exists bs, split_blocks fuel [] (file blocks) = bs /\
    Forall2 (fun b lines => b <> [] /\ splitlines false [] b = lines) bs blocks.
Proof.
  induction 1 as [|b rest [Hne Hb] Hrest IH]; intros Hn fuel Hf; [contradiction|].
  assert (Hj : join_str [10%N] b <> []).
  { destruct b as [|l b']; [contradiction|]. inversion Hb as [|? ? [_ (c & r & -> & _)] _]; subst. destruct b'; discriminate. }
  destruct rest as [|b2 rest].
  - cbn [file] in *. rewrite ended_unended in * by auto. rewrite app_length in Hf. cbn [List.length] in Hf.
    rewrite split_block by (auto; lia). rewrite app_nil_r.
    destruct (fuel - List.length (join_str [10%N] b)) as [|[|f]] eqn:Ef; try lia.
    rewrite split_one_lf by exact I. cbn [split_blocks]. eexists. split; [reflexivity|].
    constructor; [|constructor]. cbn [rev]. rewrite rev_involutive. rewrite <- ended_unended by auto. split.
    + rewrite ended_unended by auto. destruct (join_str [10%N] b); discriminate.
    + now apply splitlines_ended.
  - change (file (b :: b2 :: rest)) with (ended b ++ [10%N] ++ file (b2 :: rest)) in *.
    rewrite ended_unended in * by auto. rewrite <- app_assoc in *. cbn [app] in *. rewrite app_length in Hf. cbn [List.length] in Hf.
    rewrite split_block by (auto; lia). rewrite app_nil_r.
    destruct (fuel - List.length (join_str [10%N] b)) as [|f] eqn:Ef; [lia|].
    rewrite split_two_lf by (apply file_starts; auto).
    destruct (IH ltac:(discriminate) f ltac:(lia)) as (bs & -> & F).
    eexists. split; [reflexivity|]. constructor; auto. rewrite rev_involutive. split; auto. now apply splitlines_unended.
Qed.

Lemma unfold_file blocks : Forall block_ok blocks -> unfold (file blocks) = file blocks.
Proof.
  induction 1 as [|b rest [Hne Hb] Hrest IH]; [reflexivity|]. destruct rest as [|b2 rest].
  - cbn [file]. rewrite <- (app_nil_r (ended b)) at 1. rewrite unfold_ended by auto. apply app_nil_r.
  - change (file (b :: b2 :: rest)) with (ended b ++ 10%N :: file (b2 :: rest)).
    rewrite unfold_ended by (auto; discriminate). rewrite unfold_lf; [now rewrite IH|]. apply file_starts; auto.
Qed.
Lemma hc_file blocks : Forall (Forall (fun l => hc l = false)) blocks -> hc (file blocks) = false.
Proof.
  induction 1 as [|b rest Hb Hrest IH]; [reflexivity|]. destruct rest as [|b2 rest].
  - cbn [file]. rewrite <- (app_nil_r (ended b)). now apply hc_ended.
  - change (file (b :: b2 :: rest)) with (ended b ++ 10%N :: file (b2 :: rest)). apply hc_ended; auto.
Qed.
