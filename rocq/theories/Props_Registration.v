(** * C41: schema elements and controls are registered once *)
From Coq Require Import Permutation.
From Verif Require Import PyBase Model_Uri Model_Registration Spec_Registration
  Proofs_Registration Proofs_Registration2 Proofs_Registration3.

Definition after (lower : str -> str) (reserved : list str) (evs : list event) : world :=
  snd (run lower reserved evs empty_world).

(** Whatever classes are defined and whatever is required, how often and in whatever order, even
    when registrations fail: no element that has an identifier is registered twice. *)
Theorem C41_registered_at_most_once lower reserved evs e l1 l2 l3 :
  identifiers lower e <> [] ->
  successes (w_log (after lower reserved evs)) = l1 ++ e :: l2 ++ e :: l3 -> False.
Proof.
  intros Hne. destruct (run_le lower reserved evs empty_world) as (_ & _ & _ & S).
  exact (proj2 (S (sound_empty lower)) e l1 l2 l3 Hne).
Qed.
Print Assumptions C41_registered_at_most_once.

(** A registered element is the one found under each of its identifiers, from then on. *)
Theorem C41_registered_elements_resolve lower reserved p q e t k :
  In e (successes (w_log (after lower reserved p))) -> In (t, k) (identifiers lower e) ->
  rget (w_reg (after lower reserved (p ++ q))) t k = Some e.
Proof.
  intros He Hi. unfold after. rewrite run_app. cbn [snd].
  destruct (run_le lower reserved p empty_world) as (_ & _ & _ & S).
  destruct (run_le lower reserved q (snd (run lower reserved p empty_world))) as (M & _).
  apply M. exact (proj1 (S (sound_empty lower)) e He t k Hi).
Qed.
Print Assumptions C41_registered_elements_resolve.

(** No call ever replaces what is found under an identifier. *)
Theorem C41_bindings_never_replaced lower reserved p q t k x :
  rget (w_reg (after lower reserved p)) t k = Some x ->
  rget (w_reg (after lower reserved (p ++ q))) t k = Some x.
Proof.
  unfold after. rewrite run_app. cbn [snd].
  destruct (run_le lower reserved q (snd (run lower reserved p empty_world))) as (M & _). apply M.
Qed.
Print Assumptions C41_bindings_never_replaced.

(** ** Calling require() again *)
Lemma reach lower reserved p :
  (forall k, olist (dget (w_pre (after lower reserved p)) k) = declares k p)
  /\ nonempty (w_pre (after lower reserved p))
  /\ (forall m, In m (w_done (after lower reserved p)) -> In (Require m) p).
Proof.
  assert (E1 : forall es w, w_pre (snd (register_elems lower reserved es w)) = w_pre w /\ w_done (snd (register_elems lower reserved es w)) = w_done w).
  { induction es as [|e es IH]; intros w; cbn [register_elems]; [auto|].
    destruct (register lower reserved e (w_reg w)) as [[u|x] g']; cbn [snd]; [|auto].
    exact (IH (mk_world (w_pre w) (w_done w) g' (w_log w ++ [(e, Ok u)]))). }
  assert (E2 : forall m items w, w_pre (snd (require_loop lower reserved m items w)) = w_pre w
                /\ forall x, In x (w_done (snd (require_loop lower reserved m items w))) -> In x (w_done w) \/ x = m).
  { intros m. induction items as [|[k es] items IH]; intros w; cbn [require_loop]; [auto|].
    destruct (smem k (w_done w)); [apply IH|]. destruct (str_eqb k m || starts_with (m ++ lit ".") k); [|apply IH].
    destruct (E1 es w) as [P D]. destruct (register_elems lower reserved es w) as [[u|x] w1]; cbn [snd] in *.
    - specialize (IH (mk_world (w_pre w1) (w_done w1 ++ [m]) (w_reg w1) (w_log w1))). destruct IH as [P' D']. cbn [w_pre w_done] in *.
      split; [congruence|]. intros x Hx. apply D' in Hx. rewrite D in Hx. destruct Hx as [Hx|Hx]; [|auto].
      apply in_app_or in Hx. destruct Hx as [Hx|[Hx|[]]]; auto.
    - split; [exact P|]. intros y Hy. rewrite D in Hy. auto. }
  induction p as [|ev p IH] using rev_ind; unfold after in *.
  - cbn. split; [reflexivity|]. split; [constructor|intros m []].
  - rewrite run_app. cbn [snd run]. destruct IH as (G & NE & D). set (w := snd (run lower reserved p empty_world)) in *.
    destruct ev as [m b|m]; cbn [step snd].
    + unfold define. cbn [w_pre w_done]. rewrite prereg_padd. split; [|split].
      * intros k. rewrite padds_get, G, declares_app. cbn [declares]. now rewrite app_nil_r.
      * now apply padds_nonempty.
      * intros m' H. apply in_or_app. left. auto.
    + assert (X : w_pre (snd (require lower reserved m w)) = w_pre w
                  /\ forall x, In x (w_done (snd (require lower reserved m w))) -> In x (w_done w) \/ x = m).
      { unfold require. destruct (smem m (w_done w)); [auto|]. apply E2. }
      destruct X as [P D']. destruct (require lower reserved m w) as [r w']. cbn [snd] in *. rewrite P. split; [|split].
      * intros k. rewrite G, declares_app. cbn [declares]. now rewrite app_nil_r.
      * exact NE.
      * intros m' H. apply in_or_app. apply D' in H. destruct H as [H| ->]; [left; auto|right; left; reflexivity].
Qed.

(** Once a require() for a module that declares something (itself or in a submodule nobody
    required) has succeeded, every further require() of it succeeds and changes nothing,
    whatever happened in between. *)
Theorem C41_require_again_no_effect lower reserved p m k q :
  fst (require lower reserved m (after lower reserved p)) = Ok tt ->
  within m k -> declares k p <> [] -> (k = m \/ ~ In (Require k) p) ->
  let w := after lower reserved (p ++ Require m :: q) in
  require lower reserved m w = (Ok tt, w).
Proof.
  intros Hok Hw Hd Hk. cbv zeta. unfold after at 1 2. rewrite run_app. cbn [snd run step].
  fold (after lower reserved p). destruct (reach lower reserved p) as (G & NE & D).
  destruct (require lower reserved m (after lower reserved p)) as [r w1] eqn:Er. cbn [fst] in Hok. subst r.
  assert (H1 : In m (w_done w1)).
  { unfold require in Er. destruct (smem m (w_done (after lower reserved p))) eqn:Es.
    - injection Er as <-. now apply smem_In.
    - eapply require_loop_marks; [exact Er|]. right. rewrite <- G in Hd.
      apply dmem_key in Hd; [|exact NE]. destruct Hd as [es Hd]. exists k, es. split; [exact Hd|].
      split; [|now apply matches_within]. intros Hin. destruct Hk as [->|Hk].
      + apply smem_In in Hin. congruence.
      + apply Hk. auto. }
  pose proof (run_le lower reserved q w1) as (_ & I & _). destruct (run lower reserved q w1) as [rs w2]. cbn [snd] in *.
  apply I in H1. unfold require. apply smem_In in H1. now rewrite H1.
Qed.
Print Assumptions C41_require_again_no_effect.

(** ** Exactly once
    In a history whose declarations are consistent, where modules are imported before they are
    required, package and submodule are not both required, and packages declare their own
    elements first: no require() fails, and the elements registered are exactly those of the
    required modules and their submodules, each once. *)
Theorem C41_exactly_once_partial lower reserved evs :
  consistent lower reserved evs -> independent evs -> imported_first evs -> package_first evs ->
  Forall (fun r => r = Ok tt) (fst (run lower reserved evs empty_world))
  /\ Forall (fun er => snd er = Ok tt) (w_log (after lower reserved evs))
  /\ (forall e, In e (map fst (w_log (after lower reserved evs)))
        <-> exists m k, In (Require m) evs /\ within m k /\ In e (declares k evs))
  /\ (forall m k e, In (Require m) evs -> within m k -> In e (declares k evs) -> identifiers lower e <> [] ->
        exists l1 l2, map fst (w_log (after lower reserved evs)) = l1 ++ e :: l2 /\ ~ In e l1 /\ ~ In e l2).
Proof.
  intros HC HI HF HP. destruct (inv_run lower reserved evs HC HI HF HP evs [] empty_world eq_refl (inv_empty lower evs)) as (w' & Hr & I).
  unfold after. rewrite Hr. cbn [fst snd]. destruct I.
  assert (Hall : successes (w_log w') = map fst (w_log w')).
  { clear -i_ok. induction i_ok as [|[e r] l H Hl IH]; [reflexivity|]. cbn [snd] in H. subst r. cbn [successes map fst]. now rewrite IH. }
  split; [apply Forall_forall; intros r H; apply in_map_iff in H; destruct H as (x & <- & _); reflexivity|].
  split; [exact i_ok|]. split; [exact i_log|].
  intros m k e Hm Hk He Hne. assert (Hin : In e (map fst (w_log w'))) by (apply i_log; eauto).
  apply in_split in Hin. destruct Hin as (l1 & l2 & Heq). exists l1, l2. split; [exact Heq|].
  assert (X : forall a b c, map fst (w_log w') = a ++ e :: b ++ e :: c -> False).
  { intros a b c H. apply (C41_registered_at_most_once lower reserved evs e a b c Hne). unfold after. rewrite Hr. cbn [snd]. congruence. }
  split; intros Hi; apply in_split in Hi; destruct Hi as (a & b & ->).
  - apply (X a b l2). rewrite Heq. rewrite <- app_assoc. reflexivity.
  - apply (X l1 a b). exact Heq.
Qed.
Print Assumptions C41_exactly_once_partial.

(** Without submodules and with imports first, nothing else is needed. *)
Theorem C41_exactly_once_flat_partial lower reserved evs :
  consistent lower reserved evs -> imported_first evs ->
  (forall m k, In (Require m) evs -> (declares k evs <> [] \/ In (Require k) evs) -> within m k -> k = m) ->
  Forall (fun r => r = Ok tt) (fst (run lower reserved evs empty_world))
  /\ (forall e, In e (map fst (w_log (after lower reserved evs))) <-> exists m, In (Require m) evs /\ In e (declares m evs)).
Proof.
  intros HC HF Hflat.
  assert (HI : independent evs) by (intros m m' H H' Hw; apply Hflat; auto).
  assert (HP : package_first evs).
  { intros m k p b q Hev Hr Hw Hne Hb Hd. exfalso. apply Hne. apply Hflat; auto. left.
    rewrite Hev, declares_app. cbn [declares]. rewrite str_eqb_refl. intros E. apply app_eq_nil in E. destruct E as [_ E].
    apply app_eq_nil in E. destruct E. contradiction. }
  destruct (C41_exactly_once_partial lower reserved evs HC HI HF HP) as (A & _ & B & _). split; [exact A|].
  intros e. rewrite B. split.
  - intros (m & k & Hr & Hw & He). assert (k = m).
    { apply Hflat; auto. left. intros E. rewrite E in He. destruct He. } subst k. eauto.
  - intros (m & Hr & He). exists m, m. split; [exact Hr|]. split; [left; reflexivity|exact He].
Qed.
Print Assumptions C41_exactly_once_flat_partial.

(** ** Refutations *)
Definition at_ (n : nat) (oid : string) : elem := mk_elem n (KAttr (lit oid) []).
Definition cls (es : list elem) : body := map (fun e => (lit "x", Some e)) es.

(** A package whose submodule is imported before its own elements are declared (the usual order
    of an __init__.py) never gets its own elements registered, although require() succeeds. *)
Theorem C41_refuted_package_own_elements_skipped :
  exists evs a b m, declares m evs = [a] /\ declares (m ++ lit ".sub") evs = [b] /\
    forall lower reserved n,
      let w := after lower reserved (evs ++ repeat (Require m) (S n)) in
      fst (require lower reserved m w) = Ok tt /\ successes (w_log w) = [b] /\ a <> b.
Proof.
  exists [Define (lit "p.sub") (cls [at_ 2 "1.2"]); Define (lit "p") (cls [at_ 1 "1.1"])], (at_ 1 "1.1"), (at_ 2 "1.2"), (lit "p").
  split; [reflexivity|]. split; [reflexivity|]. intros lower reserved n. cbv zeta.
  set (W := mk_world [(lit "p.sub", [at_ 2 "1.2"]); (lit "p", [at_ 1 "1.1"])] [lit "p"]
              [(TAttrOid, lit "1.2", at_ 2 "1.2")] [(at_ 2 "1.2", Ok tt)]).
  assert (Hfix : snd (run lower reserved (repeat (Require (lit "p")) n) W) = W).
  { induction n as [|n IH]; [reflexivity|]. cbn [repeat run step].
    change (require lower reserved (lit "p") W) with (@Ok unit tt, W). cbv iota beta.
    destruct (run lower reserved (repeat (Require (lit "p")) n) W) as [rs w2]. exact IH. }
  assert (H : after lower reserved ([Define (lit "p.sub") (cls [at_ 2 "1.2"]); Define (lit "p") (cls [at_ 1 "1.1"])] ++ repeat (Require (lit "p")) (S n)) = W).
  { unfold after. change (?a ++ repeat ?x (S n)) with ((a ++ [x]) ++ repeat x n).
    rewrite run_app. cbn [snd]. exact Hfix. }
  rewrite H. split; [reflexivity|]. split; [reflexivity|discriminate].
Qed.
Print Assumptions C41_refuted_package_own_elements_skipped.

(** Requiring a submodule after its package fails: its elements are registered a second time. *)
Theorem C41_refuted_submodule_after_package :
  exists evs m, forall lower reserved,
    Forall (fun r => r = Ok tt) (fst (run lower reserved evs empty_world))
    /\ fst (require lower reserved m (after lower reserved evs)) = Raise LDAPSchemaError.
Proof.
  exists [Define (lit "p") (cls [at_ 1 "1.1"]); Define (lit "p.sub") (cls [at_ 2 "1.2"]); Require (lit "p")], (lit "p.sub").
  intros lower reserved. split; [repeat constructor|reflexivity].
Qed.
Print Assumptions C41_refuted_submodule_after_package.

(** Elements declared after the module was required are never registered by it. *)
Theorem C41_refuted_late_declaration_ignored :
  exists evs m e, In e (declares m evs) /\ forall lower reserved,
    let '(r, w) := require lower reserved m (after lower reserved evs) in r = Ok tt /\ ~ In e (map fst (w_log w)).
Proof.
  exists [Define (lit "m") (cls [at_ 1 "1.1"]); Require (lit "m"); Define (lit "m") (cls [at_ 2 "1.2"])], (lit "m"), (at_ 2 "1.2").
  split; [right; left; reflexivity|]. intros lower reserved. cbn. split; [reflexivity|]. intros [E|[]]. discriminate.
Qed.
Print Assumptions C41_refuted_late_declaration_ignored.

(** A require() that fails half way cannot be repeated: the elements that were registered then
    count as duplicates, even after the offending element is gone (here: its conflict resolved
    by nothing at all, the retry fails on the first element instead). *)
Theorem C41_refuted_failed_require_not_retryable :
  exists evs m e, forall lower reserved,
    let '(r1, w1) := require lower reserved m (after lower reserved evs) in
    let '(r2, w2) := require lower reserved m w1 in
    r1 = Raise ValueError /\ successes (w_log w1) = [e]
    /\ r2 = Raise LDAPSchemaError /\ w_log w2 = w_log w1 ++ [(e, Raise LDAPSchemaError)].
Proof.
  exists [Define (lit "m") (cls [at_ 1 "1.1"; mk_elem 2 (KControl false (lit "k") (lit "1.3") [] [])])], (lit "m"), (at_ 1 "1.1").
  intros lower reserved. cbn. auto.
Qed.
Print Assumptions C41_refuted_failed_require_not_retryable.

(** A duplicate syntax rule is reported as AttributeError instead of LDAPSchemaError. *)
Theorem C41_refuted_duplicate_syntax_rule_error lower reserved oid n n' g :
  fst (register lower reserved (mk_elem n (KSyntax oid)) g) = Ok tt ->
  fst (register lower reserved (mk_elem n' (KSyntax oid)) (snd (register lower reserved (mk_elem n (KSyntax oid)) g))) = Raise AttributeError.
Proof.
  unfold register. cbn [e_kind]. destruct (rmem g TSyntax oid); [discriminate|]. intros _. cbn [snd].
  unfold rmem. rewrite rget_set_eq. reflexivity.
Qed.
Print Assumptions C41_refuted_duplicate_syntax_rule_error.

(** ** The hypotheses are satisfiable: two extensions and a package with a submodule *)
Definition ex_evs : list event :=
  [Define (lit "base") [(lit "_hidden", Some (at_ 9 "9")); (lit "NAME", None); (lit "a", Some (mk_elem 1 (KAttr (lit "1.1") [lit "cn"; lit "commonName"])));
                        (lit "s", Some (mk_elem 2 (KSyntax (lit "1.1"))))];
   Require (lit "base"); Define (lit "pkg") (cls [mk_elem 3 (KClass (lit "1.1") [lit "person"])]);
   Define (lit "pkg.ctl") (cls [mk_elem 4 (KControl true (lit "page_size") (lit "1.2.840") (lit "cookie") (lit "1.2.840"))]);
   Require (lit "pkg"); Require (lit "base"); Require (lit "pkg"); Define (lit "never") (cls [at_ 5 "5.5"])].
Example C41_nonvacuous :
  consistent (fun s => s) [lit "dn"] ex_evs /\ independent ex_evs /\ imported_first ex_evs /\ package_first ex_evs
  /\ map e_id (map fst (w_log (after (fun s => s) [lit "dn"] ex_evs))) = [1; 2; 3; 4].
Proof.
  assert (Hin : forall m, In (Require m) ex_evs -> m = lit "base" \/ m = lit "pkg").
  { intros m H. cbn in H. repeat (destruct H as [H|H]; [try discriminate; injection H as <-; auto|]). destruct H. }
  split; [|split; [|split; [|split]]].
  - split; [|apply Forall_forall; intros e H; cbn in H;
              repeat (destruct H as [<-|H]; [cbn; try exact I; split; intros _; repeat split; try discriminate; intros [H'|[]]; discriminate|]);
              destruct H].
    cbn. repeat constructor; cbn; intuition discriminate.
  - intros m m' H H' [E|[s E]]; [exact E|]. destruct (Hin m H) as [->| ->], (Hin m' H') as [->| ->]; discriminate.
  - intros p m q k Hev Hw. unfold ex_evs in Hev.
    assert (Hk : forall k0, within m k0 -> str_eqb (lit "never") k0 = false).
    { intros k0 Hk0. assert (Hm : In (Require m) ex_evs) by (unfold ex_evs; rewrite Hev; apply in_or_app; right; left; reflexivity).
      apply str_eqb_neq. intros <-. destruct Hk0 as [E|[s E]]; destruct (Hin m Hm) as [->| ->]; discriminate. }
    specialize (Hk k Hw).
    repeat (destruct p as [|ev p]; [try discriminate; injection Hev as <- <-; cbn [declares];
              repeat match goal with |- context [str_eqb ?a k] => destruct (str_eqb_spec a k) as [<-|?] end;
              try discriminate; try reflexivity;
              try (exfalso; destruct Hw as [E|[s E]]; discriminate)
            |injection Hev as <- Hev]).
    destruct p; discriminate.
  - intros m k p b q Hev Hr Hw Hne Hb Hd. unfold ex_evs in Hev.
    assert (Hc : (m = lit "pkg" /\ k = lit "pkg.ctl") \/ (m = lit "base" /\ In k [lit "pkg"; lit "pkg.ctl"; lit "never"])
                 \/ (m = lit "pkg" /\ In k [lit "base"; lit "never"])).
    { assert (Hk : In k [lit "base"; lit "pkg"; lit "pkg.ctl"; lit "never"]).
      { assert (Hi : In (Define k b) ex_evs) by (unfold ex_evs; rewrite Hev; apply in_or_app; right; left; reflexivity).
        cbn in Hi. repeat (destruct Hi as [Hi|Hi]; [try discriminate; injection Hi as <- _; cbn; tauto|]). destruct Hi. }
      destruct (Hin m Hr) as [->| ->]; cbn in Hk |- *; repeat (destruct Hk as [<-|Hk]; [try congruence; tauto|]); destruct Hk. }
    destruct Hc as [[-> ->]|[[-> Hk]|[-> Hk]]].
    + repeat (destruct p as [|ev p]; [try discriminate; injection Hev as _ <-; cbn; discriminate|injection Hev as <- Hev]);
      try discriminate; destruct p; discriminate.
    + exfalso. cbn in Hk. repeat (destruct Hk as [<-|Hk]; [destruct Hw as [E|[s E]]; discriminate|]). destruct Hk.
    + exfalso. cbn in Hk. repeat (destruct Hk as [<-|Hk]; [destruct Hw as [E|[s E]]; discriminate|]). destruct Hk.
  - reflexivity.
Qed.
