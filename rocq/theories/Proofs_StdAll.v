(** * The shipped schema meets the hypotheses of Proofs_StdUse *)
From Verif Require Import PyBase Model_Modify Model_Schema Model_Registration Model_Prep Model_Syntax Model_StdText Model_Std
  Spec_Modify Spec_Schema Spec_StdTable Spec_Std Proofs_Schema Proofs_Std Proofs_StdUse.
From Coq Require Import Relations String.
#[local] Opaque base0 ng0 defs0 reg0 run0 cview tview types0 classes0 class_rows type_rows crank trank.

Lemma class_count : List.length classes0 < 30.
Proof. apply Nat.ltb_lt. vm_compute. reflexivity. Qed.
Lemma syntax_nonempty r : In r type_rows -> lit (t_syntax r) <> [].
Proof.
  assert (C : forallb (fun r => match lit (t_syntax r) with [] => false | _ => true end) type_rows = true) by (vm_compute; reflexivity).
  rewrite forallb_forall in C. intros H. specialize (C r H). destruct (lit (t_syntax r)); [discriminate C|]. intros E. discriminate E.
Qed.

Section All.
  Context (lower : str -> str) (isdigit : N -> bool) (HP : python_text lower isdigit).
  Context (depth : nat) (order nfkc casefold : str -> str) (Hdepth : 30 <= depth).
  Notation srule := (text_rule depth order reg0 defs0).

  Lemma row_all i r : nth_error type_rows i = Some r -> exists t, nth_error types0 i = Some t /\ In t types0 /\
    feature lower isdigit tview types0 FSyntax t (VOid (Some (lit (t_syntax r)))) /\
    feature lower isdigit tview types0 FLength t (VNum (match t_limit r with Some n => Z.of_N n | None => -1 end)) /\
    feature lower isdigit tview types0 FSingle t (VFlag (t_single r)) /\
    feature lower isdigit tview types0 FNoUserMod t (VFlag (t_no_user_mod r)).
  Proof.
    intros Hr. destruct (row_features lower isdigit i r HP Hr) as (t & Ht & Hin & F). exists t. split; [exact Ht|]. split; [exact Hin|].
    split; [exact (F FSyntax _ eq_refl)|]. split; [exact (F FLength _ eq_refl)|]. split; [exact (F FSingle _ eq_refl)|exact (F FNoUserMod _ eq_refl)].
  Qed.
  Lemma syn_all r : In r type_rows -> lit (t_syntax r) <> [] /\
    exists f, srule (lit (t_syntax r)) = Some f /\ forall v, f v = Ok tt <-> obeys depth order (t_syntax r) v.
  Proof. intros H. exact (conj (syntax_nonempty r H) (row_rule depth order r H)). Qed.
  Lemma trank_depth t : In t types0 -> trank t < depth.
  Proof. intros H. exact (Nat.lt_le_trans _ _ _ (trank_small t H) Hdepth). Qed.
  Lemma class_depth_all : List.length classes0 < depth.
  Proof. exact (Nat.lt_le_trans _ _ _ class_count Hdepth). Qed.

  Lemma std_object mm obj write : memos_ok lower isdigit cview classes0 mm -> NoDup (map (fun kv => lower (fst kv)) obj) ->
    (fst (schema_validate_object lower isdigit cview classes0 depth (validate_attributes lower isdigit tview types0 srule depth) mm obj write) = Ok tt
     <-> acceptable_object lower isdigit depth order obj write).
  Proof.
    exact (object_rows lower isdigit depth order cview tview classes0 types0 srule crank trank (class_denotes lower isdigit HP) (proj1 lengths) class_depth_all (superclass_rank lower isdigit HP) (std_resolvable lower isdigit HP) (fun i r a => must_rows lower isdigit i r a HP) (fun i r a => may_rows lower isdigit i r a HP) (type_denotes lower isdigit HP) (std_types_ranked lower isdigit HP) (std_supertypes lower isdigit HP) types_well_typed trank_depth row_all syn_all (fun r a => mention_known lower isdigit r a HP) mm obj write).
  Qed.
  Lemma std_misfit mm obj write k ocs : memos_ok lower isdigit cview classes0 mm -> NoDup (map (fun kv => lower (fst kv)) obj) ->
    In (k, ocs) obj -> lower k = lower (lit "objectClass") -> named_classes lower isdigit ocs ->
    ~ fitting lower isdigit ocs (map fst obj) ->
    fst (schema_validate_object lower isdigit cview classes0 depth (validate_attributes lower isdigit tview types0 srule depth) mm obj write)
    = Raise LDAPValidationError.
  Proof.
    exact (object_misfit lower isdigit depth cview tview classes0 types0 srule crank (class_denotes lower isdigit HP) (proj1 lengths) class_depth_all (superclass_rank lower isdigit HP) (std_resolvable lower isdigit HP) (fun i r a => must_rows lower isdigit i r a HP) (fun i r a => may_rows lower isdigit i r a HP) mm obj write k ocs).
  Qed.
  Lemma std_modify mods : validate_modify lower isdigit tview types0 srule depth mods = Ok tt <->
    forall a vs, In (a, vs) mods -> vs <> [] -> exists r, type_called lower isdigit r a /\ good_values depth order r vs true.
  Proof.
    exact (modify_rows lower isdigit depth order tview types0 srule
      (validate_attribute_rows lower isdigit depth order cview tview classes0 types0 srule crank trank (class_denotes lower isdigit HP) (proj1 lengths) class_depth_all (superclass_rank lower isdigit HP) (fun i r a => must_rows lower isdigit i r a HP) (fun i r a => may_rows lower isdigit i r a HP) (type_denotes lower isdigit HP) (std_types_ranked lower isdigit HP) (std_supertypes lower isdigit HP) types_well_typed trank_depth row_all syn_all (fun r a => mention_known lower isdigit r a HP))
      (rows_validate_attribute lower isdigit depth order cview tview classes0 types0 srule crank trank (class_denotes lower isdigit HP) (proj1 lengths) class_depth_all (superclass_rank lower isdigit HP) (fun i r a => must_rows lower isdigit i r a HP) (fun i r a => may_rows lower isdigit i r a HP) (type_denotes lower isdigit HP) (std_types_ranked lower isdigit HP) (std_supertypes lower isdigit HP) types_well_typed trank_depth row_all syn_all (fun r a => mention_known lower isdigit r a HP)) mods).
  Qed.
  Lemma std_value i r t v : nth_error type_rows i = Some r -> nth_error types0 i = Some t ->
    (type_validate lower isdigit tview types0 srule depth t v = Ok tt <-> good_value depth order r v).
  Proof.
    exact (value_rows lower isdigit depth order cview tview classes0 types0 srule crank trank (class_denotes lower isdigit HP) (proj1 lengths) class_depth_all (superclass_rank lower isdigit HP) (fun i r a => must_rows lower isdigit i r a HP) (fun i r a => may_rows lower isdigit i r a HP) (type_denotes lower isdigit HP) (std_types_ranked lower isdigit HP) types_well_typed trank_depth row_all syn_all (fun r a => mention_known lower isdigit r a HP) i r t v).
  Qed.
  Lemma std_type_called r n : type_called lower isdigit r n <-> exists i, nth_error type_rows i = Some r /\ denotes lower isdigit tview n i.
  Proof. exact (type_called_denotes lower isdigit tview (type_denotes lower isdigit HP) r n). Qed.
  Lemma std_class_called r n : class_called lower isdigit r n <-> exists i, nth_error class_rows i = Some r /\ denotes lower isdigit cview n i.
  Proof. exact (class_called_denotes lower isdigit cview (class_denotes lower isdigit HP) r n). Qed.

  (** lists computed by any accesses *)
  Lemma memos_std is1 is2 : Forall (fun i => i < List.length classes0) is1 -> Forall (fun i => i < List.length classes0) is2 ->
    memos_ok lower isdigit cview classes0 (snd (accesses lower isdigit cview classes0 depth (fresh_must classes0) is1),
                                           snd (accesses lower isdigit cview classes0 depth (fresh_may classes0) is2)).
  Proof.
    intros H1 H2.
    assert (G : forall own is, Forall (fun i => i < List.length classes0) is ->
      memo_ok lower isdigit cview classes0 own (snd (accesses lower isdigit cview classes0 depth (map (fun c => (own c, false)) classes0) is))).
    { intros own is H.
      pose proof (accesses_ok lower isdigit cview classes0 own crank depth (superclass_rank lower isdigit HP) (std_resolvable lower isdigit HP)
                    is _ (fresh_ok lower isdigit cview classes0 own) H) as A.
      destruct (accesses lower isdigit cview classes0 depth (map (fun c => (own c, false)) classes0) is) as [rs m].
      apply A. eapply Nat.le_lt_trans; [apply pending_le|]. rewrite map_length. exact class_depth_all. }
    exact (conj (G oc_must is1 H1) (G oc_may is2 H2)).
  Qed.

  (** index *)
  Notation index0 := (std_index lower isdigit depth order nfkc casefold reg0 defs0).
  Notation valid0 := (type_validate lower isdigit tview types0 srule depth).
  Notation eq0 := (equality lower isdigit depth order nfkc casefold reg0 defs0).
  Notation rule0 := (rule_for depth order nfkc casefold reg0 defs0).
  Lemma called_type r a : type_called lower isdigit r a -> exists i t, nth_error type_rows i = Some r /\ nth_error types0 i = Some t /\
    denotes lower isdigit tview a i.
  Proof.
    intros H. apply std_type_called in H as (i & Hi & Hd). destruct (row_all i r Hi) as (t & Ht & _). exists i, t. exact (conj Hi (conj Ht Hd)).
  Qed.
  Lemma index_called r a : type_called lower isdigit r a -> exists i t, nth_error type_rows i = Some r /\ nth_error types0 i = Some t /\
    forall l v, index0 a l v = at_index (usable lower isdigit depth order nfkc casefold reg0 defs0 t) l v.
  Proof.
    intros H. destruct (called_type r a H) as (i & t & Hi & Ht & Hd). exists i, t. split; [exact Hi|]. split; [exact Ht|]. intros l v.
    pose proof (std_index_at lower isdigit depth order nfkc casefold reg0 defs0 a i t l v) as G. rewrite tview_eq, types_eq in G. exact (G Hd Ht).
  Qed.
  Lemma manners_fun n m m' : In (n, m) manners -> In (n, m') manners -> m = m'.
  Proof.
    assert (C : forallb (fun x => forallb (fun y => implb (String.eqb (fst x) (fst y))
                  (match snd x, snd y with Spelling, Spelling | IgnoringCase, IgnoringCase | Literally, Literally | Digits, Digits
                                         | PhoneDigits, PhoneDigits | Dn, Dn | Time, Time => true | _, _ => false end)) manners) manners = true)
      by (vm_compute; reflexivity).
    rewrite forallb_forall in C. intros H H'. specialize (C _ H). rewrite forallb_forall in C. specialize (C _ H'). cbn [fst snd] in C.
    rewrite String.eqb_refl in C. destruct m, m'; try reflexivity; discriminate C.
  Qed.
  Lemma compared_index r a m l v : type_called lower isdigit r a -> compared r m ->
    exists valid, (forall x, valid x = Ok tt <-> good_value depth order r x) /\
      index0 a l v = at_index (type_with_rule valid (rule0 m)) l v.
  Proof.
    intros H (name & En & Hm). destruct (index_called r a H) as (i & t & Hi & Ht & E). exists (valid0 t).
    split; [intros x; exact (std_value i r t x Hi Ht)|]. rewrite E.
    pose proof (row_equality lower isdigit HP depth order nfkc casefold i r t Hdepth Hi Ht) as Q. rewrite En in Q. destruct Q as (m' & Hm' & Q).
    rewrite (manners_fun name m m' Hm Hm'). rewrite <- tview_eq, <- types_eq.
    exact (usable_index lower isdigit depth order nfkc casefold reg0 defs0 t _ l v Q).
  Qed.
  Lemma no_rule_index r a l v : type_called lower isdigit r a -> t_equality r = None -> l <> [] -> good_value depth order r v ->
    index0 a l v = Raise LDAPSchemaError.
  Proof.
    intros H En Hl Hg. destruct (index_called r a H) as (i & t & Hi & Ht & E). rewrite E.
    pose proof (row_equality lower isdigit HP depth order nfkc casefold i r t Hdepth Hi Ht) as Q. rewrite En in Q.
    pose proof (usable_no_rule lower isdigit depth order nfkc casefold reg0 defs0 t LDAPSchemaError l v Q Hl) as G.
    rewrite tview_eq, types_eq in G. exact (G (proj2 (std_value i r t v Hi Ht) Hg)).
  Qed.
  Lemma invalid_index r a l v i : type_called lower isdigit r a -> ~ good_value depth order r v -> index0 a l v <> Ok i.
  Proof.
    intros H Hg. destruct (index_called r a H) as (k & t & Hi & Ht & E). rewrite E.
    pose proof (index_invalid lower isdigit depth order nfkc casefold reg0 defs0 t l v i) as G. rewrite tview_eq, types_eq in G. apply G.
    intros V. exact (Hg (proj1 (std_value k r t v Hi Ht) V)).
  Qed.
End All.
