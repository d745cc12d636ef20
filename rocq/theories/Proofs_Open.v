(** * Proofs about opening a socket *)
From Verif Require Import PyBase Model_Uri Model_Conn Model_Controls Model_Search Model_Tls Model_Open Spec_Open.

Section Local.
  Context (a : around).
  Definition usable_in (pats : list str) (i k : nat) (f : str) : Prop :=
    exists p, nth_error pats k = Some p /\ a_glob a (i + k) p = [f] /\ a_connect a (i + k) (AUnix f) = Accepted.
  Definition no_use_in (pats : list str) (i k : nat) : Prop :=
    forall p f, nth_error pats k = Some p -> a_glob a (i + k) p = [f] -> a_connect a (i + k) (AUnix f) = Refused.

  Lemma find_cases pats : forall i, let '(l, r) := find_local a i pats in
    (forall x, In x l -> exists k p f, nth_error pats k = Some p /\ a_glob a (i + k) p = [f] /\ x = AUnix f) /\
    match r with
    | Ok (Some f) => exists k, usable_in pats i k f /\ forall j, j < k -> no_use_in pats i j
    | Ok None => forall j, no_use_in pats i j
    | Raise x => exists k p f, nth_error pats k = Some p /\ a_glob a (i + k) p = [f] /\ a_connect a (i + k) (AUnix f) = Broken x /\ forall j, j < k -> no_use_in pats i j
    end.
  Proof.
    induction pats as [|p pats IH]; intros i; cbn [find_local].
    - split; [intros x []|]. intros j q f H. destruct j; discriminate H.
    - assert (Step : (forall f, a_glob a i p = [f] -> a_connect a i (AUnix f) = Refused) ->
        forall l r, find_local a (S i) pats = (l, r) -> forall extra,
          (forall x, In x extra -> exists f, a_glob a i p = [f] /\ x = AUnix f) ->
          (forall x, In x (extra ++ l) -> exists k q f, nth_error (p :: pats) k = Some q /\ a_glob a (i + k) q = [f] /\ x = AUnix f) /\
          match r with
          | Ok (Some f) => exists k, usable_in (p :: pats) i k f /\ forall j, j < k -> no_use_in (p :: pats) i j
          | Ok None => forall j, no_use_in (p :: pats) i j
          | Raise x => exists k q f, nth_error (p :: pats) k = Some q /\ a_glob a (i + k) q = [f] /\ a_connect a (i + k) (AUnix f) = Broken x /\ forall j, j < k -> no_use_in (p :: pats) i j
          end).
      { intros Hp l r E extra Hx. specialize (IH (S i)). rewrite E in IH. destruct IH as [IH1 IH2].
        assert (N0 : forall j, (forall j', j' < j -> no_use_in pats (S i) j') -> forall j', j' < S j -> no_use_in (p :: pats) i j').
        { intros j H [|j'] Hj q f Hq Hg.
          - injection Hq as <-. rewrite Nat.add_0_r in *. now apply Hp.
          - rewrite <- Nat.add_succ_comm in *. cbn [nth_error] in Hq. apply (H j' ltac:(lia) q f Hq Hg). }
        split.
        - intros x Hi. apply in_app_iff in Hi as [Hi|Hi].
          + destruct (Hx x Hi) as (f & Hg & ->). exists 0, p, f. rewrite Nat.add_0_r. auto.
          + destruct (IH1 x Hi) as (k & q & f & H1 & H2 & H3). exists (S k), q, f. rewrite <- Nat.add_succ_comm. auto.
        - destruct r as [[f|]|x].
          + destruct IH2 as (k & (q & H1 & H2 & H3) & H4). exists (S k). split.
            * exists q. rewrite <- Nat.add_succ_comm. auto.
            * exact (N0 k H4).
          + intros j. apply (N0 j); [intros j' _; apply IH2|lia].
          + destruct IH2 as (k & q & f & H1 & H2 & H3 & H4). exists (S k), q, f. rewrite <- Nat.add_succ_comm. split; [exact H1|]. split; [exact H2|]. split; [exact H3|]. exact (N0 k H4). }
      destruct (a_glob a i p) as [|f [|g gs]] eqn:G.
      + destruct (find_local a (S i) pats) as [l r] eqn:E. apply (Step ltac:(intros f; discriminate) l r eq_refl []). intros x [].
      + destruct (a_connect a i (AUnix f)) eqn:C.
        * split; [intros x [<-|[]]; exists 0, p, f; rewrite Nat.add_0_r; auto|]. exists 0. split; [exists p; rewrite Nat.add_0_r; auto|]. intros j Hj; lia.
        * destruct (find_local a (S i) pats) as [l r] eqn:E. apply (Step ltac:(intros g Hg; injection Hg as <-; exact C) l r eq_refl [AUnix f]). intros x [<-|[]]; eauto.
        * split; [intros y [<-|[]]; exists 0, p, f; rewrite Nat.add_0_r; auto|]. exists 0, p, f. rewrite Nat.add_0_r. repeat (split; [auto|]). intros j Hj; lia.
      + destruct (find_local a (S i) pats) as [l r] eqn:E. apply (Step ltac:(intros f'; discriminate) l r eq_refl []). intros x [].
  Qed.

  (** the first pattern of use is the only one *)
  Lemma first_unique i j f g : first_usable a i f -> first_usable a j g -> i = j /\ f = g.
  Proof.
    intros [(p & P1 & P2 & P3) P4] [(q & Q1 & Q2 & Q3) Q4]. destruct (Nat.lt_trichotomy i j) as [H|[->|H]].
    - specialize (Q4 i H p f P1 P2). congruence.
    - split; [reflexivity|]. congruence.
    - specialize (P4 j H q g Q1 Q2). congruence.
  Qed.
End Local.
