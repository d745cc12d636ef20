(** * Proofs about host URIs and certificate names *)
From Verif Require Import PyBase Model_Uri Spec_Uri.
From Coq Require Import DecimalString.
From Coq Require DecimalN DecimalPos.

Lemma strip_prefix_spec p s r : strip_prefix p s = Some r <-> s = p ++ r.
Proof.
  revert s; induction p as [|x p IH]; intros s; cbn [strip_prefix app].
  - split; intros H; [now injection H|now subst].
  - destruct s as [|y s]; [split; discriminate|].
    destruct (N.eqb_spec x y) as [->|Hn].
    + rewrite IH. split; intros H; [now subst|now injection H].
    + split; [discriminate|]. intros H; injection H as H1 _. congruence.
Qed.

Lemma starts_with_spec p s : starts_with p s = true <-> exists r, s = p ++ r.
Proof.
  unfold starts_with. destruct (strip_prefix p s) as [r|] eqn:E.
  - apply strip_prefix_spec in E. split; eauto.
  - split; [discriminate|]. intros [r H]. apply strip_prefix_spec in H. congruence.
Qed.

Lemma ends_with_spec p s : ends_with p s = true <-> exists l, s = l ++ p.
Proof.
  unfold ends_with. rewrite starts_with_spec. split; intros [r H].
  - exists (rev r). rewrite <- (rev_involutive s), H, rev_app_distr, rev_involutive. reflexivity.
  - exists (rev r). subst. now rewrite rev_app_distr.
Qed.

(** ** splitting *)

Lemma split_go_none sep acc s : sep <> [] -> ~ infix sep s -> split_go sep 0 acc s = [rev acc ++ s].
Proof.
  intros Hs; revert acc; induction s as [|c s IH]; intros acc Hn; cbn [split_go].
  - now rewrite app_nil_r.
  - destruct (starts_with sep (c :: s)) eqn:E.
    + exfalso; apply Hn. apply starts_with_spec in E as [r E]. exists [], r. exact E.
    + rewrite IH. { cbn [rev]. now rewrite <- app_assoc. }
      intros [a [b H]]. apply Hn. exists (c :: a), b. now rewrite H.
Qed.

Lemma split_go_skip sep k acc p s : List.length p = k -> split_go sep k acc (p ++ s) = split_go sep 0 acc s.
Proof.
  revert k; induction p as [|c p IH]; intros k H; cbn [List.length] in H; subst k; [reflexivity|].
  cbn [app split_go]. now apply IH.
Qed.

(** The first occurrence of the separator ends the first piece. *)
Lemma split_go_first c sep acc s r : ~ In c s ->
  split_go (c :: sep) 0 acc (s ++ (c :: sep) ++ r) = (rev acc ++ s) :: py_split (c :: sep) r.
Proof.
  revert acc; induction s as [|x s IH]; intros acc Hn.
  - cbn [app split_go]. assert (E : starts_with (c :: sep) (c :: sep ++ r) = true)
      by (apply starts_with_spec; now exists r).
    rewrite E. rewrite app_nil_r. f_equal. cbn [List.length].
    apply split_go_skip. lia.
  - cbn [app split_go]. destruct (starts_with (c :: sep) (x :: s ++ c :: sep ++ r)) eqn:E.
    + exfalso. apply starts_with_spec in E as [r' E]. injection E as E _. apply Hn. left; auto.
    + change (x :: s ++ c :: sep ++ r) with (x :: (s ++ (c :: sep) ++ r)).
      change (s ++ c :: sep ++ r) with (s ++ (c :: sep) ++ r).
      rewrite IH; [|intros H; apply Hn; right; auto]. cbn [rev]. now rewrite <- app_assoc.
Qed.

Lemma py_split_none sep s : sep <> [] -> ~ infix sep s -> py_split sep s = [s].
Proof. intros Hs H. unfold py_split. now rewrite split_go_none. Qed.

Lemma py_split_first c sep s r : ~ In c s -> py_split (c :: sep) (s ++ (c :: sep) ++ r) = s :: py_split (c :: sep) r.
Proof. intros H. unfold py_split at 1. now rewrite split_go_first. Qed.

Lemma sep_shape : lit "://" = ch ":" :: lit "//". Proof. reflexivity. Qed.
Lemma sep_ne : lit "://" <> []. Proof. discriminate. Qed.

Lemma py_split_nonempty sep s : py_split sep s <> [].
Proof.
  unfold py_split. generalize 0 as k, (@nil N) as acc.
  induction s as [|c s IH]; intros k acc; cbn [split_go]; [discriminate|].
  destruct k; [destruct (starts_with sep (c :: s)); [discriminate|]|]; apply IH.
Qed.

(** ** decimal *)

Lemma dec_digits_acc d p :
  dec_digits (Npos p) (lit (NilEmpty.string_of_uint d)) = Some (Npos (Pos.of_uint_acc d p)).
Proof.
  revert p; induction d as [|d IH|d IH|d IH|d IH|d IH|d IH|d IH|d IH|d IH|d IH]; intros p;
    [reflexivity| | | | | | | | | | ];
    cbn [NilEmpty.string_of_uint lit dec_digits Pos.of_uint_acc];
    match goal with |- context [digit_val ?c] =>
      let v := eval vm_compute in (digit_val c) in change (digit_val c) with v end; cbv iota;
    rewrite <- IH; f_equal; lia.
Qed.

Lemma dec_digits_decimal d : dec_digits 0 (lit (NilEmpty.string_of_uint d)) = Some (N.of_uint d).
Proof.
  unfold N.of_uint.
  induction d as [|d IH|d IH|d IH|d IH|d IH|d IH|d IH|d IH|d IH|d IH];
    [reflexivity| | | | | | | | | | ];
    cbn [NilEmpty.string_of_uint lit dec_digits];
    match goal with |- context [digit_val ?c] =>
      let v := eval vm_compute in (digit_val c) in change (digit_val c) with v end; cbv iota;
    try (cbn [Pos.of_uint]; rewrite <- dec_digits_acc; reflexivity).
  cbn [Pos.of_uint]. exact IH.
Qed.

Lemma py_int_decimal n : py_int (decimal n) = Ok n.
Proof.
  unfold py_int, decimal. destruct (lit (NilEmpty.string_of_uint (N.to_uint n))) eqn:E.
  - exfalso. pose proof (DecimalN.Unsigned.of_to n) as H.
    destruct (N.to_uint n) eqn:En; cbn in E; try discriminate E.
    destruct n as [|p]; cbn in En; [discriminate En|].
    pose proof (DecimalPos.Unsigned.to_uint_nonnil p) as Hc. unfold Pos.to_uint in *. congruence.
  - rewrite <- E, dec_digits_decimal, DecimalN.Unsigned.of_to. reflexivity.
Qed.

Lemma decimal_no_colon n : ~ In (ch ":") (decimal n).
Proof.
  unfold decimal. generalize (N.to_uint n) as d.
  induction d as [|d IH|d IH|d IH|d IH|d IH|d IH|d IH|d IH|d IH|d IH];
    cbn [NilEmpty.string_of_uint lit]; intros H; [destruct H| | | | | | | | | | ];
    (destruct H as [H|H]; [vm_compute in H; discriminate H|auto]).
Qed.

Lemma rsplit_none s : ~ In (ch ":") s -> rsplit_colon s = None.
Proof.
  induction s as [|c s IH]; intros H; [reflexivity|]. cbn [rsplit_colon].
  rewrite IH; [|intros Hc; apply H; now right].
  destruct (N.eqb_spec c (ch ":")) as [E|_]; [|reflexivity]. exfalso; apply H; now left.
Qed.

Lemma rsplit_some a b : ~ In (ch ":") b -> rsplit_colon (a ++ ch ":" :: b) = Some (a, b).
Proof.
  intros H; induction a as [|c a IH]; cbn [rsplit_colon app].
  - rewrite rsplit_none by assumption. now rewrite N.eqb_refl.
  - now rewrite IH.
Qed.

(** ** certificates *)

Lemma wildcard_dec typ v :
  (str_eqb typ (lit "DNS") && starts_with (lit "*.") v = true <-> exists d, wildcard typ v d).
Proof.
  rewrite andb_true_iff, str_eqb_eq, starts_with_spec. unfold wildcard. split.
  - intros [H [r E]]. exists r; auto.
  - intros [d [H E]]. split; eauto.
Qed.

Lemma san_valid_spec host san : san_valid host san = true <-> covers_lenient host san.
Proof.
  destruct san as [typ v]. unfold san_valid, covers_lenient. cbn [fst snd].
  destruct (str_eqb typ (lit "DNS") && starts_with (lit "*.") v) eqn:E.
  - apply wildcard_dec in E. destruct E as [d Hd]. rewrite ends_with_spec. split.
    + intros [l H]. left. exists d, l. split; auto. destruct Hd as [_ ->]. exact H.
    + intros [[d' [l [[Ht Hv] H]]]|[Hn _]]; [|exfalso; now apply (Hn d)].
      exists l. subst v. exact H.
  - assert (Hn : forall d, ~ wildcard typ v d).
    { intros d Hd. assert (H : exists d, wildcard typ v d) by eauto.
      apply wildcard_dec in H. congruence. }
    rewrite str_eqb_eq. split; [intros ->; right; auto|].
    intros [[d [l [H _]]]|[_ H]]; [exfalso; now apply (Hn d)|assumption].
Qed.

Lemma sans_valid_spec host sans : sans_valid host sans = true <-> exists san, In san sans /\ covers_lenient host san.
Proof.
  induction sans as [|san sans IH]; cbn [sans_valid].
  - split; [discriminate|intros [? [[] _]]].
  - destruct (san_valid host san) eqn:E.
    + split; auto. intros _. exists san. split; [now left|]. now apply san_valid_spec.
    + rewrite IH. split; intros [x [Hi Hc]].
      * exists x; split; [now right|auto].
      * destruct Hi as [->|Hi]; [|eauto]. apply san_valid_spec in Hc. congruence.
Qed.

Lemma check_hostname_spec host cn sans : check_hostname host cn sans = Ok tt <-> named_lenient host cn sans.
Proof.
  unfold check_hostname, named_lenient. rewrite <- sans_valid_spec.
  destruct (str_eqb_spec host cn) as [->|Hn]; [tauto|].
  destruct (sans_valid host sans); split; auto; try discriminate.
  intros [H|H]; [contradiction|discriminate].
Qed.

Lemma check_hostname_exn host cn sans :
  check_hostname host cn sans = Ok tt \/ check_hostname host cn sans = Raise LDAPConnectionError.
Proof. unfold check_hostname. destruct (str_eqb host cn), (sans_valid host sans); auto. Qed.

Lemma strict_lenient host cn sans : named_strict host cn sans -> named_lenient host cn sans.
Proof.
  intros [H|[san [Hi Hc]]]; [now left|right; exists san; split; auto].
  destruct Hc as [[d [l [Hw [_ E]]]]|[Hn [_ E]]]; [left; eauto|right; auto].
Qed.
