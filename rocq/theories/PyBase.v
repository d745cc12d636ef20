(** * PyBase: the fragment of Python shared by all the models

    Models the Python runtime values the code of /repo relies on; it models no
    file of /repo itself.

    - A Python [str] is the list of its Unicode code points ([list N]).
      Simplification: lone surrogates, code points above 0x10FFFF etc. are not
      excluded; every theorem therefore also covers them.
    - [bytes] is the list of its byte values (same carrier).
    - A Python [dict] is an insertion-ordered association list; assigning to an
      existing key keeps its position (CPython >= 3.6 / language guarantee 3.7).
    - Raising an exception is the value [Raise e]. *)

From Coq Require Export List NArith ZArith Bool Lia Ascii String Arith.
From Coq Require Import ZifyBool ZifyNat ZifyN.
Export ListNotations.
Open Scope list_scope.
Open Scope nat_scope.

Definition str := list N.

(** Conversion of Coq string literals; only used to write literals. *)
Fixpoint lit (s : string) : str :=
  match s with
  | EmptyString => []
  | String a s' => N_of_ascii a :: lit s'
  end.

Definition ch (a : ascii) : N := N_of_ascii a.

Fixpoint str_eqb (a b : str) : bool :=
  match a, b with
  | [], [] => true
  | x :: a', y :: b' => N.eqb x y && str_eqb a' b'
  | _, _ => false
  end.

(** Exception classes that occur in the modelled code.  [exn_is_value_error]
    and friends give the class hierarchy where the code catches by class.
    /repo/laurelin/ldap/exceptions.py:1-116 for the LDAP ones. *)
Inductive exn :=
| ValueError | KeyError | TypeError | AttributeError | IndexError | RuntimeError
| StopIteration | RecursionError
| LDAPError | Abandon | LDAPUnsolicitedMessage | LDAPExtensionError
| LDAPSupportError | LDAPSASLError | LDAPConnectionError | TagError
| UnexpectedResponseType | NoSearchResults | MultipleSearchResults
| ConnectionAlreadyBound | ConnectionUnbound | ProhibitedCharacterError
| LDAPSchemaError | LDAPValidationError | InvalidSyntaxError
| LDAPTransactionError | NotImplementedError | OtherExn (n : nat).

Definition exn_eqb (a b : exn) : bool :=
  match a, b with
  | ValueError, ValueError | KeyError, KeyError | TypeError, TypeError
  | AttributeError, AttributeError | IndexError, IndexError
  | RuntimeError, RuntimeError | StopIteration, StopIteration
  | RecursionError, RecursionError | LDAPError, LDAPError | Abandon, Abandon
  | LDAPUnsolicitedMessage, LDAPUnsolicitedMessage
  | LDAPExtensionError, LDAPExtensionError | LDAPSupportError, LDAPSupportError
  | LDAPSASLError, LDAPSASLError | LDAPConnectionError, LDAPConnectionError
  | TagError, TagError | UnexpectedResponseType, UnexpectedResponseType
  | NoSearchResults, NoSearchResults
  | MultipleSearchResults, MultipleSearchResults
  | ConnectionAlreadyBound, ConnectionAlreadyBound
  | ConnectionUnbound, ConnectionUnbound
  | ProhibitedCharacterError, ProhibitedCharacterError
  | LDAPSchemaError, LDAPSchemaError | LDAPValidationError, LDAPValidationError
  | InvalidSyntaxError, InvalidSyntaxError
  | LDAPTransactionError, LDAPTransactionError
  | NotImplementedError, NotImplementedError => true
  | OtherExn n, OtherExn m => Nat.eqb n m
  | _, _ => false
  end.

Inductive res (A : Type) :=
| Ok (a : A)
| Raise (e : exn).
Arguments Ok {A} a.
Arguments Raise {A} e.

Definition bind {A B} (r : res A) (f : A -> res B) : res B :=
  match r with Ok a => f a | Raise e => Raise e end.
Notation "'let*' x ':=' r 'in' k" := (bind r (fun x => k))
  (at level 200, x pattern, r at level 100, k at level 200, right associativity).

Definition is_ok {A} (r : res A) : bool :=
  match r with Ok _ => true | Raise _ => false end.

(** Python dict operations on association lists. *)
Section Dict.
  Context {V : Type}.

  Fixpoint dget (d : list (str * V)) (k : str) : option V :=
    match d with
    | [] => None
    | (k', v) :: d' => if str_eqb k' k then Some v else dget d' k
    end.

  Fixpoint dset (d : list (str * V)) (k : str) (v : V) : list (str * V) :=
    match d with
    | [] => [(k, v)]
    | (k', v') :: d' =>
        if str_eqb k' k then (k', v) :: d' else (k', v') :: dset d' k v
    end.

  Fixpoint ddel (d : list (str * V)) (k : str) : list (str * V) :=
    match d with
    | [] => []
    | (k', v') :: d' => if str_eqb k' k then d' else (k', v') :: ddel d' k
    end.

  Definition dmem (d : list (str * V)) (k : str) : bool :=
    match dget d k with Some _ => true | None => false end.
End Dict.

(** Membership in a Python list/set of strings (exact equality). *)
Definition smem (k : str) (l : list str) : bool := existsb (str_eqb k) l.

(** ** Lemmas *)

Lemma str_eqb_spec a b : reflect (a = b) (str_eqb a b).
Proof.
  revert b; induction a as [|x a IH]; intros [|y b]; simpl; try (constructor; congruence).
  destruct (N.eqb_spec x y) as [->|Hn]; simpl.
  - destruct (IH b) as [->|Hn]; constructor; congruence.
  - constructor; congruence.
Qed.

Lemma str_eqb_refl a : str_eqb a a = true.
Proof. destruct (str_eqb_spec a a); congruence. Qed.

Lemma str_eqb_eq a b : str_eqb a b = true <-> a = b.
Proof. destruct (str_eqb_spec a b); split; congruence. Qed.

Lemma str_eqb_neq a b : str_eqb a b = false <-> a <> b.
Proof. destruct (str_eqb_spec a b); split; congruence. Qed.

Lemma str_eqb_sym a b : str_eqb a b = str_eqb b a.
Proof. destruct (str_eqb_spec a b), (str_eqb_spec b a); congruence. Qed.

Lemma str_eq_dec (a b : str) : {a = b} + {a <> b}.
Proof. destruct (str_eqb_spec a b); [left|right]; assumption. Qed.

Lemma smem_In k l : smem k l = true <-> In k l.
Proof.
  unfold smem; rewrite existsb_exists; split.
  - intros [x [Hin He]]; apply str_eqb_eq in He; subst; assumption.
  - intros H; exists k; split; [assumption|apply str_eqb_refl].
Qed.

Lemma smem_nIn k l : smem k l = false <-> ~ In k l.
Proof. rewrite <- smem_In; destruct (smem k l); split; intuition congruence. Qed.

Section DictLemmas.
  Context {V : Type}.
  Implicit Types (d : list (str * V)) (k : str) (v : V).

  Lemma dget_dset_eq d k v : dget (dset d k v) k = Some v.
  Proof.
    induction d as [|[k' v'] d IH]; simpl.
    - now rewrite str_eqb_refl.
    - destruct (str_eqb k' k) eqn:E; simpl; rewrite E; auto.
  Qed.

  Lemma dget_dset_neq d k k2 v : k <> k2 -> dget (dset d k v) k2 = dget d k2.
  Proof.
    intros Hn; induction d as [|[k' v'] d IH]; simpl.
    - apply str_eqb_neq in Hn; now rewrite Hn.
    - destruct (str_eqb_spec k' k) as [->|Hk]; simpl.
      + apply str_eqb_neq in Hn; now rewrite Hn.
      + destruct (str_eqb k' k2); auto.
  Qed.

  Lemma dget_dset d k k2 v :
    dget (dset d k v) k2 = if str_eqb k k2 then Some v else dget d k2.
  Proof.
    destruct (str_eqb_spec k k2) as [->|Hn];
      [apply dget_dset_eq|now apply dget_dset_neq].
  Qed.

  Lemma dget_ddel_neq d k k2 : k <> k2 -> dget (ddel d k) k2 = dget d k2.
  Proof.
    intros Hn; induction d as [|[k' v'] d IH]; simpl; auto.
    destruct (str_eqb_spec k' k) as [->|Hk]; simpl.
    - apply str_eqb_neq in Hn; now rewrite Hn.
    - destruct (str_eqb k' k2); auto.
  Qed.

  Lemma dget_In d k v : dget d k = Some v -> In (k, v) d.
  Proof.
    induction d as [|[k' v'] d IH]; simpl; try discriminate.
    destruct (str_eqb_spec k' k) as [->|Hk]; intros H.
    - injection H as ->; auto.
    - auto.
  Qed.

  Lemma dget_None d k : dget d k = None <-> ~ In k (map fst d).
  Proof.
    induction d as [|[k' v'] d IH]; simpl; [tauto|].
    destruct (str_eqb_spec k' k) as [->|Hk]; split; intros H.
    - discriminate.
    - exfalso; auto.
    - intros [He|Hi]; [congruence|]. apply IH in H; auto.
    - apply IH; auto.
  Qed.

  Lemma dget_In_NoDup d k v :
    NoDup (map fst d) -> In (k, v) d -> dget d k = Some v.
  Proof.
    induction d as [|[k' v'] d IH]; simpl; intros Hnd Hin; [contradiction|].
    inversion Hnd as [|? ? Hni Hnd']; subst.
    destruct Hin as [He|Hi].
    - injection He as -> ->; now rewrite str_eqb_refl.
    - destruct (str_eqb_spec k' k) as [->|Hk]; auto.
      exfalso; apply Hni; apply in_map_iff; exists (k, v); auto.
  Qed.

  Lemma dset_keys d k v :
    map fst (dset d k v) = map fst d ++ (if dmem d k then [] else [k]).
  Proof.
    unfold dmem; induction d as [|[k' v'] d IH]; simpl; auto.
    destruct (str_eqb_spec k' k) as [->|Hk]; simpl.
    - now rewrite app_nil_r.
    - rewrite IH; reflexivity.
  Qed.

  Lemma dset_NoDup d k v : NoDup (map fst d) -> NoDup (map fst (dset d k v)).
  Proof.
    intros H; rewrite dset_keys; unfold dmem.
    destruct (dget d k) eqn:E; [now rewrite app_nil_r|].
    apply dget_None in E.
    rewrite <- (rev_involutive (map fst d)) in *.
    change [k] with (rev [k]). rewrite <- rev_app_distr.
    apply NoDup_rev; simpl; constructor.
    - intros Hc; apply E; apply in_rev; now rewrite rev_involutive.
    - rewrite <- (rev_involutive (rev (map fst d))); apply NoDup_rev; assumption.
  Qed.

  Lemma ddel_In d k x : In x (ddel d k) -> In x d.
  Proof.
    induction d as [|[k' v'] d IH]; simpl; auto.
    destruct (str_eqb k' k); simpl; intuition.
  Qed.

  Lemma ddel_NoDup d k : NoDup (map fst d) -> NoDup (map fst (ddel d k)).
  Proof.
    induction d as [|[k' v'] d IH]; simpl; intros H; auto.
    inversion H as [|? ? Hni Hnd]; subst.
    destruct (str_eqb k' k); simpl; auto.
    constructor; auto.
    intros Hc; apply Hni. apply in_map_iff in Hc as [[a b] [He Hi]]; simpl in He; subst.
    apply ddel_In in Hi. apply in_map_iff; eexists; split; eauto; reflexivity.
  Qed.

  Lemma dget_ddel_eq d k : NoDup (map fst d) -> dget (ddel d k) k = None.
  Proof.
    induction d as [|[k' v'] d IH]; simpl; intros H; auto.
    inversion H as [|? ? Hni Hnd]; subst.
    destruct (str_eqb_spec k' k) as [->|Hk]; simpl.
    - now apply dget_None.
    - apply str_eqb_neq in Hk; rewrite Hk; auto.
  Qed.

  Lemma dget_ddel d k k2 : NoDup (map fst d) ->
    dget (ddel d k) k2 = if str_eqb k k2 then None else dget d k2.
  Proof.
    intros H; destruct (str_eqb_spec k k2) as [->|Hn];
      [now apply dget_ddel_eq|now apply dget_ddel_neq].
  Qed.

  Lemma dmem_dset d k k2 v : dmem (dset d k v) k2 = str_eqb k k2 || dmem d k2.
  Proof. unfold dmem; rewrite dget_dset; destruct (str_eqb k k2); auto. Qed.
End DictLemmas.

(** [str.lower] restricted to ASCII letters; used only to instantiate the
    arbitrary [lower] parameters in concrete witnesses. *)
Definition ascii_lower_ch (c : N) : N :=
  if ((65 <=? c) && (c <=? 90))%N%bool then (c + 32)%N else c.
Definition ascii_lower (s : str) : str := map ascii_lower_ch s.
