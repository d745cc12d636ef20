(** * Dialects: a description of a stricter dialect is one of a wider dialect *)
From Verif Require Import PyBase Model_Prep Model_Schema Spec_Search Spec_Parse.

Record wider (D E : dialect) : Prop := mk_wider {
  w_white : forall c, white D c -> white E c;
  w_keyword : forall k s, keyword D k s -> keyword E k s;
  w_number : forall s, number D s -> number E s;
  w_empty : empty_list D -> empty_list E;
  w_ext : forall n, extension_count D n -> extension_count E n }.
Section Wider.
  Context (D E : dialect) (W : wider D E).
  Lemma wide_cat (a b a' b' : lang) s : (forall s, a s -> a' s) -> (forall s, b s -> b' s) -> (a ;; b) s -> (a' ;; b') s.
  Proof. clear W. intros Ha Hb (x & y & -> & Hx & Hy). exists x, y. auto. Qed.
  Lemma wide_wsp s : wsp D s -> wsp E s.
  Proof. apply Forall_impl. apply W. Qed.
  Lemma wide_sp s : sp D s -> sp E s.
  Proof. intros [Hn H]. split; [exact Hn|]. revert H. apply Forall_impl. apply W. Qed.
  Lemma wide_numericoid s : numericoid D s -> numericoid E s.
  Proof. intros (l & Hl & Hn & ->). exists l. split; [exact Hl|]. split; [|reflexivity]. revert Hn. apply Forall_impl. apply W. Qed.
  Lemma wide_oid s : oid D s -> oid E s.
  Proof. intros [H|H]; [now left|right; now apply wide_numericoid]. Qed.
  Lemma wide_sep (one one' : str -> lang) (sep sep' : lang) l s :
    (forall x s, one x s -> one' x s) -> (forall s, sep s -> sep' s) -> sep_list one sep l s -> sep_list one' sep' l s.
  Proof.
    clear W. intros Ho Hs. revert s. induction l as [|x l IH]; intros s H; [exact H|]. destruct l as [|y l]; [now apply Ho|].
    revert H. apply wide_cat; [apply Ho|]. intros t. apply wide_cat; [exact Hs|exact IH].
  Qed.
  Lemma wide_paren (a b : lang) s : (forall s, a s -> b s) -> paren D a s -> paren E b s.
  Proof.
    intros H. apply wide_cat; [auto|]. intros t. apply wide_cat; [exact wide_wsp|]. intros t2. apply wide_cat; [exact H|].
    intros t3. apply wide_cat; [exact wide_wsp|auto].
  Qed.
  Lemma wide_list (one one' : str -> lang) (sep sep' : lang) l s : (forall x s, one x s -> one' x s) -> (forall s, sep s -> sep' s) ->
    one_or_list D one sep l s -> one_or_list E one' sep' l s.
  Proof.
    intros Ho Hs [(x & -> & H)|H]; [left; eauto|right]. revert H. apply wide_paren. intros t. now apply wide_sep.
  Qed.
  Lemma wide_qdescrs l s : qdescrs D l s -> qdescrs E l s.
  Proof. apply wide_list; [auto|exact wide_sp]. Qed.
  Lemma wide_oids l s : oids D l s -> oids E l s.
  Proof.
    apply wide_list; [intros x t [-> H]; split; [reflexivity|now apply wide_oid]|].
    intros t. apply wide_cat; [exact wide_wsp|]. intros t2. apply wide_cat; [auto|exact wide_wsp].
  Qed.
  Lemma wide_qdstrings s : qdstrings D s -> qdstrings E s.
  Proof.
    intros [H|H]; [now left|right]. revert H. apply wide_paren. intros t [(n & H)|[He ->]].
    - left. exists n. revert H. apply wide_sep; [auto|exact wide_sp].
    - right. split; [now apply W|reflexivity].
  Qed.
  Lemma wide_kw k s : kw D k s -> kw E k s.
  Proof. apply wide_cat; [exact wide_sp|]. intros t. apply W. Qed.
  Lemma wide_key k (a b : lang) s : (forall s, a s -> b s) -> (kw D k ;; sp D ;; a) s -> (kw E k ;; sp E ;; b) s.
  Proof. intros H. apply wide_cat; [exact (wide_kw k)|]. intros t. apply wide_cat; [exact wide_sp|exact H]. Qed.
  Lemma wide_opt_part k v (P Q : str -> Prop) s : (forall s, P s -> Q s) -> opt_part D k v P s -> opt_part E k v Q s.
  Proof. intros H. destruct v as [x|]; [|auto]. apply wide_key. intros t [-> Ht]. split; [reflexivity|now apply H]. Qed.
  Lemma wide_list_part k l (P Q : list str -> lang) s : (forall l s, P l s -> Q l s) -> list_part D k l P s -> list_part E k l Q s.
  Proof. intros H. destruct l as [|x l]; [auto|]. apply wide_key. apply H. Qed.
  Lemma wide_other k (a b : lang) s : (forall s, a s -> b s) -> other_part D k a s -> other_part E k b s.
  Proof. intros H [Hs|Hs]; [now left|right]. revert Hs. now apply wide_key. Qed.
  Lemma wide_flag k b s : flag_part D k b s -> flag_part E k b s.
  Proof. destruct b; [apply wide_kw|auto]. Qed.
  Lemma wide_names l s : names_part D l s -> names_part E l s.
  Proof.
    intros [H|(He & -> & H)]; [left; revert H; apply wide_list_part; exact wide_qdescrs|right].
    split; [now apply W|]. split; [reflexivity|]. revert H. apply wide_key. intros t. apply wide_paren. auto.
  Qed.
  Lemma wide_extensions s : extensions D s -> extensions E s.
  Proof.
    intros (n & Hn & H). exists n. split; [now apply W|]. clear Hn. revert s H. induction n as [|n IH]; intros s H; [exact H|].
    revert H. apply wide_cat; [|exact IH]. intros t. apply wide_cat; [exact wide_sp|]. intros t2. apply wide_cat; [apply W|].
    intros t3. apply wide_cat; [auto|]. intros t4. apply wide_cat; [exact wide_sp|exact wide_qdstrings].
  Qed.
  Lemma wide_end s : (extensions D ;; wsp D ;; is (lit ")")) s -> (extensions E ;; wsp E ;; is (lit ")")) s.
  Proof. apply wide_cat; [exact wide_extensions|]. intros t. apply wide_cat; [exact wide_wsp|auto]. Qed.
  Lemma wide_kind k s : kind_part D k s -> kind_part E k s.
  Proof. destruct k; [apply wide_kw|auto]. Qed.
  Lemma wide_oc d s : oc_text D d s -> oc_text E d s.
  Proof.
    apply wide_cat; [auto|]. intros t1. apply wide_cat; [exact wide_wsp|]. intros t2. apply wide_cat; [intros t [-> H]; split; [reflexivity|now apply wide_numericoid]|].
    intros t3. apply wide_cat; [apply wide_names|]. intros t4. apply wide_cat; [intros t; apply wide_other; auto|].
    intros t5. apply wide_cat; [apply wide_flag|]. intros t6. apply wide_cat; [intros t; apply wide_list_part; exact wide_oids|].
    intros t7. apply wide_cat; [apply wide_kind|]. intros t8. apply wide_cat; [intros t; apply wide_list_part; exact wide_oids|].
    intros t9. apply wide_cat; [intros t; apply wide_list_part; exact wide_oids|]. exact wide_end.
  Qed.
  Lemma wide_syntax v s : syntax_part D v s -> syntax_part E v s.
  Proof.
    destruct v as [[o len]|]; [|auto]. apply wide_key. intros t. apply wide_cat; [intros t1 [-> H]; split; [reflexivity|now apply wide_numericoid]|].
    destruct len as [n|]; [|auto]. intros t1. apply wide_cat; [auto|]. intros t2. apply wide_cat; [|auto].
    intros t3 [-> H]. split; [reflexivity|now apply W].
  Qed.
  Lemma wide_usage v s : usage_part D v s -> usage_part E v s.
  Proof. destruct v as [u|]; [|auto]. apply wide_key. apply W. Qed.
  Lemma wide_at d s : at_text D d s -> at_text E d s.
  Proof.
    apply wide_cat; [auto|]. intros t1. apply wide_cat; [exact wide_wsp|]. intros t2. apply wide_cat; [intros t [-> H]; split; [reflexivity|now apply wide_numericoid]|].
    intros t3. apply wide_cat; [apply wide_names|]. intros t4. apply wide_cat; [intros t; apply wide_other; auto|].
    intros t5. apply wide_cat; [apply wide_flag|]. intros t6. apply wide_cat; [intros t; apply wide_opt_part; exact wide_oid|].
    intros t7. apply wide_cat; [intros t; apply wide_opt_part; exact wide_oid|]. intros t8. apply wide_cat; [intros t; apply wide_other; exact wide_oid|].
    intros t9. apply wide_cat; [intros t; apply wide_other; exact wide_oid|]. intros t10. apply wide_cat; [apply wide_syntax|].
    intros t11. apply wide_cat; [apply wide_flag|]. intros t12. apply wide_cat; [apply wide_flag|]. intros t13. apply wide_cat; [apply wide_flag|].
    intros t14. apply wide_cat; [apply wide_usage|]. exact wide_end.
  Qed.
End Wider.

Lemma common_rfc : wider common rfc4512.
Proof. split; cbn; auto. now intros k s ->. Qed.
Lemma common_laurelin : wider common laurelin.
Proof.
  split; cbn; auto.
  - intros c ->. reflexivity.
  - intros s (c & r & -> & H & _). split; [discriminate|exact H].
Qed.
