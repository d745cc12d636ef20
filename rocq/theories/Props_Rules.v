(** * C73: one instance of each rule *)
From Verif Require Import PyBase Model_Rules Spec_Rules Proofs_Rules.

Section C73.
  Context (lower : str -> str) (isdigit : N -> bool).
  Notation run_of := (run_of lower isdigit). Notation names_class := (names_class lower isdigit).

  (** Whatever a program registers, instantiates and asks for, in any order: two syntax rules it was given that have the
      same OID are the same object, and so are two matching rules. *)
  Theorem C73_one_syntax_instance ops es o1 i1 o2 i2 : run_of ops es ->
    In (o1, Ok (Some i1)) es -> In (o2, Ok (Some i2)) es -> syntax_op o1 -> syntax_op o2 ->
    rc_oid (ri_class i1) = rc_oid (ri_class i2) -> rc_oid (ri_class i1) <> [] -> i1 = i2.
  Proof.
    unfold Spec_Rules.run_of. destruct (rrun lower isdigit rs_empty ops) as [st es'] eqn:E. cbn [snd]. intros <- H1 H2 S1 S2 Ho Hn.
    destruct (run_ok lower isdigit ops _ _ _ (inv_empty lower) E) as (_ & _ & R).
    pose proof (proj1 (R _ _ H1) S1 Hn) as Q1. rewrite Ho in Hn. pose proof (proj1 (R _ _ H2) S2 Hn) as Q2. rewrite Ho in Q1. congruence.
  Qed.
  Theorem C73_one_matching_instance ops es o1 i1 o2 i2 : run_of ops es ->
    In (o1, Ok (Some i1)) es -> In (o2, Ok (Some i2)) es -> matching_op o1 -> matching_op o2 ->
    rc_oid (ri_class i1) = rc_oid (ri_class i2) -> rc_oid (ri_class i1) <> [] -> i1 = i2.
  Proof.
    unfold Spec_Rules.run_of. destruct (rrun lower isdigit rs_empty ops) as [st es'] eqn:E. cbn [snd]. intros <- H1 H2 S1 S2 Ho Hn.
    destruct (run_ok lower isdigit ops _ _ _ (inv_empty lower) E) as (_ & _ & R).
    pose proof (proj2 (R _ _ H1) S1 Hn) as Q1. rewrite Ho in Hn. pose proof (proj2 (R _ _ H2) S2 Hn) as Q2. rewrite Ho in Q1. congruence.
  Qed.
  (** A program asking for a syntax rule by OID is given one with that OID whenever one is registered, and otherwise
      such a rule or a KeyError. *)
  Theorem C73_syntax_by_oid ops es1 oid r es2 : run_of ops (es1 ++ (GetSyn oid, r) :: es2) ->
    (exists i, r = Ok (Some i) /\ rc_oid (ri_class i) = oid) \/ (r = Raise KeyError /\ forall c, reg_syn es1 c -> rc_oid c <> oid).
  Proof.
    unfold Spec_Rules.run_of. destruct (rrun lower isdigit rs_empty ops) as [st es'] eqn:E. cbn [snd]. intros ->.
    destruct (run_split lower isdigit ops _ _ _ _ _ _ E) as (ops1 & st1 & st2 & A & B).
    destruct (run_ok lower isdigit ops1 _ _ _ (inv_empty lower) A) as (V & _ & _).
    pose proof (run_reg_syn lower isdigit ops1 _ _ _ (inv_empty lower) A) as RS.
    pose proof (get_syn_ok lower st1 oid V) as H. cbn [rstep] in B. destruct (get_syntax_rule st1 oid) as [st' r']. destruct H as (_ & _ & H3 & H4 & H5).
    injection B as _ <-. destruct H4 as [->|[i ->]].
    - right. split; [reflexivity|]. intros c Hc Eo. specialize (RS c Hc). rewrite Eo in RS. destruct (H5 (ex_intro _ c RS)) as [i X]. discriminate.
    - left. exists i. split; [reflexivity|]. now apply H3.
  Qed.
  (** What a program is given for a name or an OID has that name (in some case) or that OID. *)
  Theorem C73_matching_as_asked ops es ident i : run_of ops es -> In (GetMat ident, Ok (Some i)) es -> names_class ident (ri_class i).
  Proof.
    unfold Spec_Rules.run_of. destruct (rrun lower isdigit rs_empty ops) as [st es'] eqn:E. cbn [snd]. intros <- H.
    apply in_split in H as (es1 & es2 & ->). destruct (run_split lower isdigit ops _ _ _ _ _ _ E) as (ops1 & st1 & st2 & A & B).
    destruct (run_ok lower isdigit ops1 _ _ _ (inv_empty lower) A) as (V & _ & _).
    pose proof (get_mat_ok lower isdigit st1 ident V) as H. cbn [rstep] in B. destruct (get_matching_rule lower isdigit st1 ident) as [st' r']. destruct H as (_ & _ & H).
    injection B as _ B. destruct r' as [j|x]; [|discriminate]. injection B as <-. now apply H.
  Qed.
  (** If every registration of a matching rule succeeded and only registered classes are instantiated by hand: asking by
      name in any case and asking by OID give the same object, whichever came first ... *)
  Theorem C73_name_and_oid_partial ops es o1 i1 o2 i2 : run_of ops es -> orderly es ->
    In (o1, Ok (Some i1)) es -> In (o2, Ok (Some i2)) es -> matching_op o1 -> matching_op o2 ->
    (rc_oid (ri_class i1) = rc_oid (ri_class i2) /\ rc_oid (ri_class i1) <> [] \/
     lower (rc_name (ri_class i1)) = lower (rc_name (ri_class i2)) /\ rc_name (ri_class i1) <> [] /\ rc_name (ri_class i2) <> []) -> i1 = i2.
  Proof.
    intros HR HO H1 H2 S1 S2 [[Ho Hn]|(Hl & N1 & N2)]; [exact (C73_one_matching_instance ops es o1 i1 o2 i2 HR H1 H2 S1 S2 Ho Hn)|].
    unfold Spec_Rules.run_of in HR. destruct (rrun lower isdigit rs_empty ops) as [st es'] eqn:E. cbn [snd] in HR. subst es'.
    destruct (run_ordered lower isdigit ops rs_empty [] st es (ordered_empty lower) E HO) as (_ & _ & R).
    pose proof (R _ _ H1 S1 N1) as Q1. pose proof (R _ _ H2 S2 N2) as Q2. rewrite Hl in Q1. congruence.
  Qed.
  (** ... and every registered rule can be asked for by each of its names: the answer is the object of that class, nothing
      else is answered, and what was not registered is a KeyError (an IndexError for the empty string). *)
  Theorem C73_found_as_registered_partial ops es1 ident r es2 : run_of ops (es1 ++ (GetMat ident, r) :: es2) -> orderly es1 ->
    (forall c, reg_mat es1 c -> names_class ident c -> exists i, r = Ok (Some i) /\ ri_class i = c) /\
    (forall i, r = Ok (Some i) -> reg_mat es1 (ri_class i) /\ names_class ident (ri_class i)) /\
    (r = Raise (if empty ident then IndexError else KeyError) \/ exists i, r = Ok (Some i)).
  Proof.
    intros HR HO. unfold Spec_Rules.run_of in HR. destruct (rrun lower isdigit rs_empty ops) as [st es'] eqn:E. cbn [snd] in HR. subst es'.
    destruct (run_split lower isdigit ops _ _ _ _ _ _ E) as (ops1 & st1 & st2 & A & B).
    destruct (run_ordered lower isdigit ops1 rs_empty [] st1 es1 (ordered_empty lower) A HO) as (O & _ & _). cbn [app] in O.
    pose proof (get_mat_ok lower isdigit st1 ident (o_inv _ _ _ O)) as H. pose proof (get_mat_ord lower isdigit st1 ident (o_inv _ _ _ O) (o_ord _ _ _ O)) as K.
    assert (KE : fst (let '(s, r) := get_matching_rule lower isdigit st1 ident in (r, s)) = Raise (if empty ident then IndexError else KeyError) \/
                 exists i, fst (let '(s, r) := get_matching_rule lower isdigit st1 ident in (r, s)) = Ok i).
    { destruct ident as [|ch rest]; [left; reflexivity|]. cbn [empty]. destruct (get_matching_rule lower isdigit st1 (ch :: rest)) as [st' r'] eqn:G.
      cbn [fst]. destruct K as (_ & _ & _ & _ & _ & _ & K). destruct K as [->|[->|[i ->]]]; [now left| |right; eauto].
      exfalso. unfold get_matching_rule in G. destruct (isdigit ch); (destruct (dget _ _) in G; [discriminate|]; destruct (dget _ _) as [c|] in G; [|discriminate]);
        unfold mat_new in G; repeat destruct (if _ then _ else _) as [? ?] in G; repeat (match type of G with (if ?b then _ else _) = _ => destruct b | _ => idtac end); discriminate. }
    cbn [rstep] in B. destruct (get_matching_rule lower isdigit st1 ident) as [st' r']. cbn [fst] in KE.
    destruct H as (_ & _ & H). destruct K as (_ & _ & _ & _ & K1 & K2 & _). injection B as _ <-. split; [|split].
    - intros c Hc Hi. destruct (K1 c (o_good _ _ _ O c Hc) Hi) as (i & -> & Ei). eauto.
    - intros i Hi. destruct r' as [j|x]; [|discriminate]. injection Hi as <-. split; [|now apply H].
      destruct (K2 j eq_refl) as (o & [X|X]); [exact (o_reg1 _ _ _ O _ _ X)|exact (o_reg2 _ _ _ O _ _ X)].
    - destruct KE as [->|[i ->]]; [now left|right; eauto].
  Qed.
  (** A second registration of an OID or of a name in any case is refused. *)
  Theorem C73_duplicates_refused ops es1 c r es2 c' : run_of ops (es1 ++ (RegMat c, r) :: es2) -> reg_mat es1 c' ->
    (rc_oid c = rc_oid c' /\ rc_oid c <> [] \/ lower (rc_name c) = lower (rc_name c') /\ rc_name c <> [] /\ rc_name c' <> []) -> r = Raise LDAPSchemaError.
  Proof.
    intros HR Hc Hd. unfold Spec_Rules.run_of in HR. destruct (rrun lower isdigit rs_empty ops) as [st es'] eqn:E. cbn [snd] in HR. subst es'.
    destruct (run_split lower isdigit ops _ _ _ _ _ _ E) as (ops1 & st1 & st2 & A & B).
    destruct (run_reg_mat lower isdigit ops1 _ _ _ (inv_empty lower) A c' Hc) as [G1 G2].
    cbn [rstep] in B. unfold mat_register in B. destruct Hd as [[Ho Hn]|(Hl & N1 & N2)].
    - pose proof Hn as Hn'. apply empty_false in Hn. rewrite Hn in B. unfold dmem in B. rewrite Ho in *. rewrite (G1 Hn') in B. now injection B as _ <-.
    - apply empty_false in N1. rewrite N1 in B. cbn [rs_name_cls] in B. unfold dmem in B. rewrite Hl, (G2 N2) in B.
      destruct (empty (rc_oid c)); [now injection B as _ <-|]. destruct (dget (rs_oid_cls st1) (rc_oid c)); now injection B as _ <-.
  Qed.
  Theorem C73_duplicate_syntax_refused ops es1 c r es2 c' : run_of ops (es1 ++ (RegSyn c, r) :: es2) -> reg_syn es1 c' ->
    rc_oid c = rc_oid c' -> exists x, r = Raise x.
  Proof.
    intros HR Hc Ho. unfold Spec_Rules.run_of in HR. destruct (rrun lower isdigit rs_empty ops) as [st es'] eqn:E. cbn [snd] in HR. subst es'.
    destruct (run_split lower isdigit ops _ _ _ _ _ _ E) as (ops1 & st1 & st2 & A & B).
    pose proof (run_reg_syn lower isdigit ops1 _ _ _ (inv_empty lower) A c' Hc) as RS.
    cbn [rstep] in B. unfold syn_register, dmem in B. rewrite Ho, RS in B. injection B as _ <-. eauto.
  Qed.
End C73.

(** ** a refused registration leaves its OID behind *)
Definition ex_digit (c : N) : bool := (48 <=? c)%N && (c <=? 57)%N.
Definition clsA : rclass := mk_class 1 (lit "1.1") (lit "aMatch").
Definition clsB : rclass := mk_class 2 (lit "2.2") (lit "AMATCH").
(** After the refusal the OID of the second class works, once: asking for it puts its object under the name of the first
    class, which can then be asked for no more, neither by name nor by OID. *)
Theorem C73_refuted_name_taken_over : exists es, run_of ascii_lower ex_digit [RegMat clsA; RegMat clsB; GetMat (lit "2.2"); GetMat (lit "aMatch"); GetMat (lit "1.1")] es /\
  map snd es = [Ok None; Raise LDAPSchemaError; Ok (Some (mk_inst 0 clsB)); Ok (Some (mk_inst 0 clsB)); Raise LDAPSchemaError].
Proof. eexists. split; [reflexivity|]. vm_compute. reflexivity. Qed.
(** The failed instantiation stays under its OID: the first request for a rule fails and the second succeeds. *)
Theorem C73_refuted_second_try : exists es, run_of ascii_lower ex_digit [RegMat clsA; RegMat clsB; GetMat (lit "aMatch"); GetMat (lit "2.2"); GetMat (lit "2.2")] es /\
  map snd es = [Ok None; Raise LDAPSchemaError; Ok (Some (mk_inst 0 clsA)); Raise LDAPSchemaError; Ok (Some (mk_inst 1 clsB))].
Proof. eexists. split; [reflexivity|]. vm_compute. reflexivity. Qed.
(** A second syntax rule with the same OID is not reported as the duplicate it is. *)
Theorem C73_refuted_wrong_error : exists es, run_of ascii_lower ex_digit [RegSyn clsA; RegSyn (mk_class 3 (lit "1.1") [])] es /\
  map snd es = [Ok None; Raise AttributeError].
Proof. eexists. split; [reflexivity|]. vm_compute. reflexivity. Qed.

Definition clsC : rclass := mk_class 4 (lit "3.3") (lit "cMatch").
Definition clsD : rclass := mk_class 5 [] (lit "dMatch").
Definition ex_ops : list rop :=
  [RegMat clsA; RegSyn clsC; GetMat (lit "AMATCH"); RegMat clsC; GetMat (lit "1.1"); RegMat clsD; GetMat (lit "cmatch"); NewMat clsC; GetSyn (lit "3.3"); GetSyn (lit "3.3");
   GetMat (lit "dmatch"); GetMat (lit "none"); GetMat []].
Example C73_nonvacuous : exists es, run_of ascii_lower ex_digit ex_ops es /\ orderly es /\
  map snd es = [Ok None; Ok None; Ok (Some (mk_inst 0 clsA)); Ok None; Ok (Some (mk_inst 0 clsA)); Ok None; Ok (Some (mk_inst 1 clsC)); Raise LDAPSchemaError;
    Ok (Some (mk_inst 3 clsC)); Ok (Some (mk_inst 3 clsC)); Ok (Some (mk_inst 4 clsD)); Raise KeyError; Raise IndexError].
Proof.
  eexists. split; [reflexivity|]. split; [|vm_compute; reflexivity]. vm_compute. split.
  - intros c r H. repeat (destruct H as [H|H]; [first [discriminate|injection H as <- <-; reflexivity|congruence]|]). destruct H.
  - intros es1 c r es2 H. do 8 (destruct es1 as [|? es1]; [first [discriminate|injection H; intros; subst; unfold reg_mat; cbn [In]; auto 10]|injection H; clear H; intros H; intros; subst]).
    exfalso. repeat (destruct es1 as [|? es1]; [discriminate|injection H; clear H; intros H; intros; subst]); try discriminate; destruct es1; discriminate.
Qed.

Print Assumptions C73_one_syntax_instance.
Print Assumptions C73_one_matching_instance.
Print Assumptions C73_syntax_by_oid.
Print Assumptions C73_matching_as_asked.
Print Assumptions C73_name_and_oid_partial.
Print Assumptions C73_found_as_registered_partial.
Print Assumptions C73_duplicates_refused.
Print Assumptions C73_duplicate_syntax_refused.
Print Assumptions C73_refuted_name_taken_over.
Print Assumptions C73_refuted_second_try.
Print Assumptions C73_refuted_wrong_error.
