(** * Attribute types; descriptions on which the RFC and the code agree *)
From Verif Require Import PyBase Model_Prep Proofs_Prep Model_Uri Spec_Uri Proofs_Uri Model_Schema Model_Regex Spec_Regex Proofs_Regex
  Spec_Search Proofs_Search2 Model_Parse Spec_Parse Proofs_Parse Proofs_Parse2 Proofs_Parse3 Proofs_Parse4 Proofs_Parse5 Proofs_Parse6.

Definition at_vals (d : at_desc) (vs : list (option str)) : Prop :=
  exists vn vd vo vord vsub vsyn vsi vco vnu, vs =
      [vn; vd; vo; a_sup d; a_equality d; vord; vsub; vsyn; vsi; vco; vnu; option_map (fun k => lit (usage_word k)) (a_usage d)] /\
    val_list (qdescrs code32) (a_names d) vn /\ val_flag (a_obsolete d) vo /\ val_syntax (a_syntax d) vsyn /\
    val_flag (a_single d) vsi /\ val_flag (a_collective d) vco /\ val_flag (a_no_user_mod d) vnu /\
    (forall x, a_sup d = Some x -> oid code32 x).
Lemma opt_oid k v t : body_opt (BKey k roid) v t -> forall x, v = Some x -> oid code32 x.
Proof. intros H x ->. destruct H as (_ & _ & _ & _ & _ & H). now apply L_oid. Qed.
Lemma at_text_reading d x : nodouble x -> at_text code32 d x -> exists vs, reading at_fields x (a_oid d) vs /\ at_vals d vs.
Proof.
  intros Hd (a0 & b0 & -> & -> & u & b1 & -> & Hu & o & b2 & -> & [-> Ho] & t1 & b3 & -> & H1 & t2 & b4 & -> & H2 & t3 & b5 & -> & H3
    & t4 & b6 & -> & H4 & t5 & b7 & -> & H5 & t6 & b8 & -> & H6 & t7 & b9 & -> & H7 & t8 & b10 & -> & H8 & t9 & b11 & -> & H9
    & t10 & b12 & -> & H10 & t11 & b13 & -> & H11 & t12 & r & -> & H12 & Hr).
  apply names_part_iff in H1 as (vn & B1 & V1). apply (other_part_iff "DESC" rqdstring _ _ L_qdstring) in H2 as (vd & B2).
  apply flag_part_iff in H3 as (vo & B3 & V3); [|discriminate]. apply opt_part_iff in H4, H5.
  apply (other_part_iff "ORDERING" roid _ _ L_oid) in H6 as (vord & B6). apply (other_part_iff "SUBSTR" roid _ _ L_oid) in H7 as (vsub & B7).
  apply syntax_part_iff in H8 as (vsyn & B8 & V8). apply flag_part_iff in H9 as (vsi & B9 & V9); [|discriminate].
  apply flag_part_iff in H10 as (vco & B10 & V10); [|discriminate]. apply flag_part_iff in H11 as (vnu & B11 & V11); [|discriminate].
  apply usage_part_iff in H12.
  do 15 apply nodouble_r in Hd. apply text_tail in Hr; [|exact Hd].
  eexists. split.
  - exists u, (t1 ++ t2 ++ t3 ++ t4 ++ t5 ++ t6 ++ t7 ++ t8 ++ t9 ++ t10 ++ t11 ++ t12 ++ []), r. rewrite app_nil_r, <- !app_assoc. split; [reflexivity|].
    split; [exact Hu|]. split; [exact Ho|]. split; [|exact Hr]. rewrite <- (app_nil_r t12).
    repeat (apply fields_cons; [eassumption|]). apply fields_nil.
  - exists vn, vd, vo, vord, vsub, vsyn, vsi, vco, vnu. split; [reflexivity|]. pose proof (opt_oid _ _ _ H4). auto 10.
Qed.
Lemma val_syntax_of v t : body_opt (BKey (lit "SYNTAX") rnoidlen) v t -> exists p, val_syntax p v.
Proof.
  intros Hb. destruct v as [x|]; [|exists None; exact I]. destruct Hb as (_ & _ & _ & _ & _ & Hx). apply L_noidlen in Hx as (o & len & Hx).
  exists (Some (o, len)). exact Hx.
Qed.
Lemma at_reading_text x o vs : reading at_fields x o vs -> exists d, at_text code32 d x /\ a_oid d = o /\ at_vals d vs.
Proof.
  intros (u & t & r & -> & Hu & Ho & Hf & Hr). unfold at_fields in Hf.
  apply fields_cons_inv in Hf as (vn & vs1 & t1 & r1 & -> & -> & B1 & Hf). apply fields_cons_inv in Hf as (vd & vs2 & t2 & r2 & -> & -> & B2 & Hf).
  apply fields_cons_inv in Hf as (vo & vs3 & t3 & r3 & -> & -> & B3 & Hf). apply fields_cons_inv in Hf as (vp & vs4 & t4 & r4 & -> & -> & B4 & Hf).
  apply fields_cons_inv in Hf as (ve & vs5 & t5 & r5 & -> & -> & B5 & Hf). apply fields_cons_inv in Hf as (vord & vs6 & t6 & r6 & -> & -> & B6 & Hf).
  apply fields_cons_inv in Hf as (vsub & vs7 & t7 & r7 & -> & -> & B7 & Hf). apply fields_cons_inv in Hf as (vsyn & vs8 & t8 & r8 & -> & -> & B8 & Hf).
  apply fields_cons_inv in Hf as (vsi & vs9 & t9 & r9 & -> & -> & B9 & Hf). apply fields_cons_inv in Hf as (vco & vs10 & t10 & r10 & -> & -> & B10 & Hf).
  apply fields_cons_inv in Hf as (vnu & vs11 & t11 & r11 & -> & -> & B11 & Hf). apply fields_cons_inv in Hf as (vu & vs12 & t12 & r12 & -> & -> & B12 & Hf).
  apply fields_nil_inv in Hf as [-> ->]. cbn [snd] in *.
  destruct (val_list_of _ _ _ _ _ L_qdescrs no_qdescrs B1) as [ns V1]. destruct (val_flag_of (lit "OBSOLETE") _ _ ltac:(discriminate) B3) as [ob V3].
  destruct (val_syntax_of _ _ B8) as [syn V8]. destruct (val_flag_of (lit "SINGLE-VALUE") _ _ ltac:(discriminate) B9) as [si V9].
  destruct (val_flag_of (lit "COLLECTIVE") _ _ ltac:(discriminate) B10) as [co V10].
  destruct (val_flag_of (lit "NO-USER-MODIFICATION") _ _ ltac:(discriminate) B11) as [nu V11]. destruct (usage_word_of _ _ B12) as [us V12].
  exists (mk_at_desc o ns ob vp ve syn si co nu us). split; [|split; [reflexivity|]].
  - unfold at_text. cbn [a_oid a_names a_obsolete a_sup a_equality a_syntax a_single a_collective a_no_user_mod a_usage]. rewrite app_nil_r, <- !app_assoc.
    exists (lit "("). eexists. split; [reflexivity|]. split; [reflexivity|]. exists u. eexists. split; [reflexivity|]. split; [exact Hu|].
    exists o. eexists. split; [reflexivity|]. split; [split; [reflexivity|exact Ho]|].
    exists t1. eexists. split; [reflexivity|]. split; [apply names_part_iff; eauto|].
    exists t2. eexists. split; [reflexivity|]. split; [apply (other_part_iff "DESC" rqdstring _ _ L_qdstring); eauto|].
    exists t3. eexists. split; [reflexivity|]. split; [apply flag_part_iff; [discriminate|eauto]|].
    exists t4. eexists. split; [reflexivity|]. split; [apply opt_part_iff; exact B4|].
    exists t5. eexists. split; [reflexivity|]. split; [apply opt_part_iff; exact B5|].
    exists t6. eexists. split; [reflexivity|]. split; [apply (other_part_iff "ORDERING" roid _ _ L_oid); eauto|].
    exists t7. eexists. split; [reflexivity|]. split; [apply (other_part_iff "SUBSTR" roid _ _ L_oid); eauto|].
    exists t8. eexists. split; [reflexivity|]. split; [apply syntax_part_iff; eauto|].
    exists t9. eexists. split; [reflexivity|]. split; [apply flag_part_iff; [discriminate|eauto]|].
    exists t10. eexists. split; [reflexivity|]. split; [apply flag_part_iff; [discriminate|eauto]|].
    exists t11. eexists. split; [reflexivity|]. split; [apply flag_part_iff; [discriminate|eauto]|].
    exists t12. eexists. split; [reflexivity|]. split; [apply usage_part_iff; rewrite V12 in B12; exact B12|].
    now apply tail_text.
  - exists vn, vd, vo, vord, vsub, vsyn, vsi, vco, vnu. cbn [a_oid a_names a_obsolete a_sup a_equality a_syntax a_single a_collective a_no_user_mod a_usage].
    split; [rewrite V12; reflexivity|]. pose proof (opt_oid _ _ _ B4). auto 10.
Qed.

Definition type_of (d : at_desc) (t : ptype) : Prop :=
  pt_oid t = a_oid d /\ pt_names t = a_names d /\ at_super (pt_type t) = a_sup d /\ forall f, at_own (pt_type t) f = stated d f.

Definition at_result (c : caps) : res ptype :=
      match group c (lit "oid") with
      | None | Some [] => Raise LDAPSchemaError
      | Some oid =>
          match parse_qdescrs (group c (lit "name")) with
          | [] => Raise LDAPSchemaError
          | names =>
              let sup := match group c (lit "supertype") with Some (a :: s) => Some (py_strip (a :: s)) | o => o end in
              let* syn := match group c (lit "syntax") with
                          | None => Ok None
                          | Some x => let* p := syntax_parts x in Ok (Some p)
                          end in
              Ok (mk_ptype oid names (mk_atype sup (own_fields c syn)))
          end
      end.
Lemma flag_own b v : val_flag b v -> match v with Some g => Some (VFlag (present (Some g))) | None => None end = if b then Some (VFlag true) else None.
Proof. destruct v as [x|]; cbn [val_flag]; [|now intros ->]. intros [-> Hn]. destruct x; [congruence|reflexivity]. Qed.
Lemma strip_oid x : oid code32 x -> py_strip x = x.
Proof. intros H. apply (strip_spaced x x H). exists [], []. rewrite app_nil_r. split; [reflexivity|]. split; constructor. Qed.
Lemma at_groups x d vs c : nodouble x -> reading at_fields x (a_oid d) vs -> at_vals d vs -> groups_of at_fields vs (a_oid d) c ->
  (a_names d = [] -> at_result c = Raise LDAPSchemaError) /\
  (a_names d <> [] -> exists t, at_result c = Ok t /\ type_of d t).
Proof.
  intros Hd Hr (vn & vd & vo & vord & vsub & vsyn & vsi & vco & vnu & -> & V1 & V3 & V8 & V9 & V10 & V11 & Hsup) Hg.
  pose proof (reading_first_value _ _ _ _ _ _ _ _ Hd Hr) as Hdn. unfold at_result.
  pose proof (groups_nth _ _ _ _ 0 _ _ _ Hg eq_refl eq_refl) as G0. pose proof (groups_nth _ _ _ _ 2 _ _ _ Hg eq_refl eq_refl) as G2.
  pose proof (groups_nth _ _ _ _ 3 _ _ _ Hg eq_refl eq_refl) as G3. pose proof (groups_nth _ _ _ _ 4 _ _ _ Hg eq_refl eq_refl) as G4.
  pose proof (groups_nth _ _ _ _ 7 _ _ _ Hg eq_refl eq_refl) as G7. pose proof (groups_nth _ _ _ _ 8 _ _ _ Hg eq_refl eq_refl) as G8.
  pose proof (groups_nth _ _ _ _ 9 _ _ _ Hg eq_refl eq_refl) as G9. pose proof (groups_nth _ _ _ _ 10 _ _ _ Hg eq_refl eq_refl) as G10.
  pose proof (groups_nth _ _ _ _ 11 _ _ _ Hg eq_refl eq_refl) as G11. cbn [nth_error] in *.
  rewrite (proj1 Hg), G0, (names_val _ _ Hdn V1).
  assert (Ho : a_oid d <> []). { destruct Hr as (u & t & r & _ & _ & Ho & _). now apply numericoid_chars in Ho. }
  destruct (a_oid d) as [|oc orest] eqn:Eo; [congruence|]. split; [now intros ->|]. intros Hn. destruct (a_names d) as [|n0 ns] eqn:En; [congruence|].
  assert (Es : exists syn, match group c (lit "syntax") with None => Ok None | Some x => let* p := syntax_parts x in Ok (Some p) end = Ok syn /\
     option_map (fun p => VOid (Some (fst p))) (a_syntax d) = match syn with Some (o, _) => Some (VOid (Some o)) | None => None end /\
     option_map (fun p => VNum (match snd p with Some n => Z.of_N (value n) | None => (-1)%Z end)) (a_syntax d) = match syn with Some (_, n) => Some (VNum n) | None => None end).
  { rewrite G7. destruct (a_syntax d) as [[so len]|], vsyn as [y|]; cbn [val_syntax] in V8; try contradiction.
    - rewrite (syntax_parts_ok _ _ _ V8). cbn [bind]. eexists. split; [reflexivity|]. split; reflexivity.
    - eexists. split; [reflexivity|]. split; reflexivity. }
  destruct Es as (syn & -> & S1 & S2). cbn [bind]. eexists. split; [reflexivity|]. unfold type_of. cbn [pt_oid pt_names pt_type at_super at_own].
  split; [now rewrite Eo|]. split; [now rewrite En|]. split.
  - rewrite G3. destruct (a_sup d) as [[|a s]|] eqn:Es; [reflexivity| |reflexivity]. f_equal. apply strip_oid. now apply Hsup.
  - intros f. destruct f; unfold stated, own_fields.
    all: rewrite ?G2, ?G4, ?G8, ?G9, ?G10, ?G11.
    all: try (apply flag_own; assumption); try (symmetry; assumption).
    + destruct (a_equality d); reflexivity.
    + destruct (a_usage d) as [[| | |]|]; reflexivity.
Qed.
Lemma at_edge d x : at_text code32 d x -> edge py_isspace x.
Proof.
  intros (a0 & b0 & -> & -> & u & b1 & -> & Hu & o & b2 & -> & [-> Ho] & t1 & b3 & -> & H1 & t2 & b4 & -> & H2 & t3 & b5 & -> & H3
    & t4 & b6 & -> & H4 & t5 & b7 & -> & H5 & t6 & b8 & -> & H6 & t7 & b9 & -> & H7 & t8 & b10 & -> & H8 & t9 & b11 & -> & H9
    & t10 & b12 & -> & H10 & t11 & b13 & -> & H11 & t12 & r & -> & H12 & e & w & -> & He & p & q & -> & Hp & ->).
  split; [discriminate|]. split; [reflexivity|]. rewrite !app_assoc, rev_app_distr. reflexivity.
Qed.
Lemma attribute_type_described s d : padded (at_text laurelin d) s ->
  (a_names d = [] -> attribute_type s = Raise LDAPSchemaError) /\
  (a_names d <> [] -> exists t, attribute_type s = Ok t /\ type_of d t).
Proof.
  intros Hp. apply (collapse_fwd _ _ _ (tok_at d) (at_edge d)) in Hp. destruct (collapsed_shape s) as [Hd H10].
  unfold attribute_type. rewrite at_rx. set (x := py_strip (collapse_whitespace s)) in *.
  destruct (at_text_reading d x Hd Hp) as (vs & Hr & Hv). destruct (match_reading at_fields x at_nice eq_refl H10) as [_ G].
  destruct (G _ _ Hr) as (c & -> & Hg). apply (at_groups x d vs c Hd Hr Hv Hg).
Qed.
Lemma attribute_type_cases s :
  (exists d, padded (at_text laurelin d) s) \/ attribute_type s = Raise LDAPSchemaError /\ forall d, ~ padded (at_text laurelin d) s.
Proof.
  destruct (collapsed_shape s) as [Hd H10]. pose proof (fun d => collapse_bwd _ _ s (tok_at d) (at_edge d)) as Hb.
  pose proof (fun d => collapse_fwd _ _ s (tok_at d) (at_edge d)) as Hf.
  unfold attribute_type. rewrite at_rx. set (x := py_strip (collapse_whitespace s)) in *.
  destruct (match_reading at_fields x at_nice eq_refl H10) as [G G'].
  destruct (match_anchored (desc_rx at_fields) x) as [cp|] eqn:E.
  - left. destruct (G cp eq_refl) as (o & vs & Hr & Hg). destruct (at_reading_text x o vs Hr) as (d & Ht & _ & _). exists d. now apply Hb.
  - right. split; [reflexivity|]. intros d Hp. apply Hf in Hp. destruct (at_text_reading d x Hd Hp) as (vs & Hr & _).
    destruct (G' _ _ Hr) as (c & Ec & _). discriminate.
Qed.
Lemma attribute_type_only s t : attribute_type s = Ok t ->
  exists d, padded (at_text laurelin d) s /\ a_names d <> [] /\ type_of d t.
Proof.
  intros H. destruct (attribute_type_cases s) as [(d & Hp)|[E _]]; [|congruence]. destruct (attribute_type_described s d Hp) as [H1 H2].
  exists d. split; [exact Hp|]. destruct (a_names d) as [|n ns] eqn:En; [rewrite H1 in H by reflexivity; discriminate|].
  split; [discriminate|]. destruct (H2 ltac:(discriminate)) as (t' & Et & Ht). congruence.
Qed.
Lemma attribute_type_error s : (forall d, padded (at_text laurelin d) s -> a_names d = []) -> attribute_type s = Raise LDAPSchemaError.
Proof.
  intros H. destruct (attribute_type_cases s) as [(d & Hp)|[E _]]; [|exact E]. now apply (attribute_type_described s d Hp), (H d).
Qed.
