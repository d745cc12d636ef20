(** * Proofs about text forms *)
From Verif Require Import PyBase Model_Uri Spec_Uri Proofs_Uri Model_CIDict Model_Modify Model_Search Spec_Search Proofs_Search2 Model_Const.
Local Open Scope string_scope.

Lemma py_join_joined c l : py_join [c] l = joined c l.
Proof. induction l as [|x [|y l] IH]; [reflexivity..|]. cbn [py_join joined] in *. now rewrite IH. Qed.

(** splitting at a character and joining again *)
Fixpoint cut (c : N) (s : str) : list str :=
  match s with
  | [] => [[]]
  | x :: r => if N.eqb x c then [] :: cut c r else match cut c r with [] => [[x]] | p :: ps => (x :: p) :: ps end
  end.
Lemma cut_ne c s : cut c s <> [].
Proof. destruct s as [|x s]; cbn [cut]; [discriminate|]. destruct (N.eqb x c); [discriminate|]. destruct (cut c s); discriminate. Qed.
Lemma cut_joined c s : joined c (cut c s) = s.
Proof.
  induction s as [|x s IH]; [reflexivity|]. cbn [cut]. destruct (N.eqb_spec x c) as [->|Hne].
  - destruct (cut c s) as [|p ps] eqn:E; [now apply cut_ne in E|]. change (joined c ([] :: p :: ps)) with (c :: joined c (p :: ps))%list. now rewrite IH.
  - destruct (cut c s) as [|p ps] eqn:E; [now apply cut_ne in E|]. destruct ps as [|q ps].
    + cbn [joined] in *. now rewrite IH.
    + change (joined c ((x :: p) :: q :: ps)) with (x :: joined c (p :: q :: ps))%list. now rewrite IH.
Qed.
Lemma cut_no c s : Forall (fun p => ~ In c p) (cut c s).
Proof.
  induction s as [|x s IH]; [constructor; [intros []|constructor]|]. cbn [cut]. destruct (N.eqb_spec x c) as [->|Hne].
  - constructor; [intros []|exact IH].
  - destruct (cut c s) as [|p ps]; [constructor; [intros [H|[]]; congruence|constructor]|].
    inversion IH; subst. constructor; [intros [H|H]; congruence|assumption].
Qed.
Lemma cut_sub c s p x : In p (cut c s) -> In x p -> In x s.
Proof.
  intros Hp Hx. rewrite <- (cut_joined c s). generalize dependent (cut c s). induction l as [|y l IH]; [intros []|].
  intros [->|Hin]; destruct l as [|z l].
  - exact Hx.
  - change (joined c (p :: z :: l)) with (p ++ c :: joined c (z :: l))%list. apply in_or_app. now left.
  - destruct Hin.
  - change (joined c (y :: z :: l)) with (y ++ c :: joined c (z :: l))%list. apply in_or_app. right. right. now apply IH.
Qed.
Lemma split_cut c s : py_split [c] s = cut c s.
Proof. transitivity (py_split [c] (joined c (cut c s))); [now rewrite cut_joined|]. apply split_joined; [apply cut_ne|apply cut_no]. Qed.
Lemma joined_in c l x : In x (joined c l) -> x = c \/ exists p, In p l /\ In x p.
Proof.
  induction l as [|y l IH]; [intros []|]. destruct l as [|z l].
  - cbn [joined]. intros H. right. exists y. split; [now left|exact H].
  - change (joined c (y :: z :: l)) with (y ++ c :: joined c (z :: l))%list. intros H. apply in_app_or in H. destruct H as [H|[H|H]].
    + right. exists y. split; [now left|exact H].
    + left. now symmetry.
    + destruct (IH H) as [E|(p & Hp & Hx)]; [now left|]. right. exists p. split; [now right|exact Hx].
Qed.
Definition dc_of (l : str) : str := (lit "dc=" ++ l)%list.
Definition comma := ch ",". Definition dot := ch ".". Definition equals := ch "=".

Lemma dc_cut d : dc d = joined comma (map dc_of (cut dot d)).
Proof. unfold dc. rewrite (split_cut dot). exact (py_join_joined comma _). Qed.
Lemma second_part_no i v : second_part i = Ok v -> ~ In equals v /\ forall x, In x v -> In x i.
Proof.
  unfold second_part. rewrite (split_cut equals). destruct (cut equals i) as [|a [|b r]] eqn:E; try discriminate. intros H. injection H as <-.
  assert (Hb : In b (cut equals i)) by (rewrite E; right; left; reflexivity). split.
  - pose proof (cut_no equals i) as F. rewrite Forall_forall in F. now apply F.
  - intros x. now apply cut_sub with (c := equals).
Qed.
Lemma second_part_dc l : ~ In equals l -> second_part (dc_of l) = Ok l.
Proof.
  intros H. unfold second_part. change (dc_of l) with (joined equals [lit "dc"; l]). rewrite (split_joined equals); [reflexivity|discriminate|].
  constructor; [|constructor; [exact H|constructor]]. intros H'. cbn in H'. destruct H' as [E|[E|[]]]; discriminate E.
Qed.
Lemma seconds_in l vs : seconds l = Ok vs -> Forall2 (fun i v => second_part i = Ok v) l vs.
Proof.
  revert vs. induction l as [|i l IH]; intros vs H; cbn [seconds] in H; [injection H as <-; constructor|].
  destruct (second_part i) as [v|] eqn:E; [|discriminate]. cbn [bind] in H. destruct (seconds l) as [ws|] eqn:E2; [|discriminate]. injection H as <-.
  constructor; [exact E|]. now apply IH.
Qed.
Lemma domain_chars x d : domain x = Ok d -> ~ In comma d /\ ~ In equals d.
Proof.
  unfold domain. rewrite (split_cut comma). destruct (seconds (cut comma x)) as [vs|] eqn:E; [|discriminate]. intros H. injection H as <-.
  apply seconds_in in E. pose proof (cut_no comma x) as F. generalize dependent (cut comma x). intros l E F.
  rewrite (py_join_joined dot).
  assert (G : forall p, In p vs -> ~ In comma p /\ ~ In equals p).
  { induction E as [|i v l vs Hiv E IH]; [intros p []|]. inversion F; subst. intros p [<-|Hp]; [|now apply IH].
    apply second_part_no in Hiv as [H3 H4]. split; [|exact H3]. intros Hc. apply H4 in Hc. contradiction. }
  split; intros H; apply joined_in in H; (destruct H as [H|(p & Hp & H)]; [discriminate H|]); destruct (G p Hp); contradiction.
Qed.
Lemma cut_of_joined c l : l <> [] -> Forall (fun s => ~ In c s) l -> cut c (joined c l) = l.
Proof. intros. rewrite <- split_cut. now apply split_joined. Qed.
Lemma seconds_dc ls : Forall (fun l => ~ In equals l) ls -> seconds (map dc_of ls) = Ok ls.
Proof. induction 1 as [|l ls H F IH]; [reflexivity|]. cbn [map seconds]. rewrite second_part_dc by exact H. cbn [bind]. now rewrite IH. Qed.
Lemma domain_dc_ok d : ~ In comma d -> ~ In equals d -> domain (dc d) = Ok d.
Proof.
  intros Hc He. unfold domain. rewrite dc_cut, (split_cut comma), cut_of_joined.
  - rewrite seconds_dc. + cbn [bind]. rewrite (py_join_joined dot). now rewrite cut_joined.
    + apply Forall_forall. intros l Hl H. apply He. now apply (cut_sub dot d l).
  - intros H. apply map_eq_nil in H. now apply cut_ne in H.
  - apply Forall_forall. intros l Hl. apply in_map_iff in Hl as (p & <- & Hp). unfold dc_of. intros H. apply in_app_or in H. destruct H as [H|H].
    + cbn in H. destruct H as [H|[H|[H|[]]]]; discriminate H.
    + apply Hc. now apply (cut_sub dot d p).
Qed.

Lemma enum_eq_val a b x y : e_value a = Some x -> e_value b = Some y -> enum_eq a b = Ok (Z.eqb x y).
Proof. unfold enum_eq. now intros -> ->. Qed.
