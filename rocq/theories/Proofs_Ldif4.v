(** * Whole LDIF texts: output, folding, decoders, format_mod_ldif *)
From Coq Require Import ZArith Lia.
From Verif Require Import PyBase Model_Uri Model_Prep Model_Ldif Spec_Ldif Spec_Uri Proofs_Prep Proofs_Uri Proofs_Ldif Proofs_Ldif2 Proofs_Ldif3.
Ltac Zify.zify_post_hook ::= Z.to_euclidean_division_equations.

(** ** Decoders *)
Lemma utf8_raw_char c r : utf8_raw (utf8_char c ++ r) = option_map (cons c) (utf8_raw r) \/ (1114112 <= c)%N.
Proof.
  destruct (N.le_gt_cases 1114112 c) as [|Hc]; [auto|left].
  unfold utf8_char. destruct (N.ltb_spec c 128); [|destruct (N.ltb_spec c 2048); [|destruct (N.ltb_spec c 65536)]]; cbn [app utf8_raw].
  - apply N.ltb_lt in H. now rewrite H.
  - assert ((192 + c / 64 <? 128)%N = false) as -> by (apply N.ltb_ge; lia).
    assert ((192 + c / 64 <? 224)%N = true) as -> by (apply N.ltb_lt; lia).
    do 2 f_equal. lia.
  - assert ((224 + c / 4096 <? 128)%N = false) as -> by (apply N.ltb_ge; lia).
    assert ((224 + c / 4096 <? 224)%N = false) as -> by (apply N.ltb_ge; lia).
    assert ((224 + c / 4096 <? 240)%N = true) as -> by (apply N.ltb_lt; lia).
    do 2 f_equal. replace (c / 4096)%N with (c / 64 / 64)%N by (now rewrite N.div_div).
    pose proof (N.div_mod' c 64). pose proof (N.div_mod' (c / 64) 64). lia.
  - assert ((240 + c / 262144 <? 128)%N = false) as -> by (apply N.ltb_ge; lia).
    assert ((240 + c / 262144 <? 224)%N = false) as -> by (apply N.ltb_ge; lia).
    assert ((240 + c / 262144 <? 240)%N = false) as -> by (apply N.ltb_ge; lia).
    do 2 f_equal. replace (c / 4096)%N with (c / 64 / 64)%N by (now rewrite N.div_div).
    replace (c / 262144)%N with (c / 64 / 64 / 64)%N by (now rewrite !N.div_div).
    pose proof (N.div_mod' c 64). pose proof (N.div_mod' (c / 64) 64). pose proof (N.div_mod' (c / 64 / 64) 64). lia.
Qed.
Lemma utf8_raw_utf8 s : Forall (fun c => (c < 1114112)%N) s -> utf8_raw (utf8 s) = Some s.
Proof.
  induction 1 as [|c s Hc _ IH]; [reflexivity|]. unfold utf8 in *. cbn [flat_map].
  destruct (utf8_raw_char c (flat_map utf8_char s)) as [->|H]; [now rewrite IH|]. exfalso. apply N.lt_nge in Hc. auto.
Qed.
Lemma scalarb_iff c : scalarb c = true <-> scalar c.
Proof. unfold scalarb, scalar. lia. Qed.
Lemma utf8_strict_ok : utf8_decode_ok utf8_strict.
Proof.
  intros s H. unfold utf8_strict. rewrite utf8_raw_utf8 by now apply scalar_small. rewrite str_eqb_refl.
  assert (forallb scalarb s = true) as ->; [|reflexivity].
  apply forallb_forall. rewrite Forall_forall in H. intros c Hc. now apply scalarb_iff, H.
Qed.
Lemma utf8_strict_sound b s : utf8_strict b = Some s -> utf8 s = b /\ Forall (fun c => (c < 1114112)%N) s.
Proof.
  unfold utf8_strict. destruct (utf8_raw b) as [s'|]; [|discriminate].
  destruct (str_eqb_spec (utf8 s') b) as [E|]; [|discriminate]. cbn [andb].
  destruct (forallb scalarb s') eqn:F; [|discriminate]. intros H. injection H as ->. split; auto.
  apply scalar_small. rewrite forallb_forall in F. apply Forall_forall. intros c Hc. now apply scalarb_iff, F.
Qed.
Lemma b64_lenient_ok : b64decode_ok b64_lenient.
Proof. intros s b Hb E. unfold b64_lenient. rewrite E. now rewrite b64_roundtrip. Qed.

(** ** Output *)
Lemma gather_plain d l r : d <> 32%N -> ~ In 10%N (d :: l) -> fst (gather (split_lf r)) = [] ->
  gather (split_lf ((d :: l) ++ 10%N :: r)) = ([], (d :: l) :: snd (gather (split_lf r))).
Proof.
  intros Hd Hn Hc. rewrite split_lf_line by auto. cbn [gather]. destruct (gather (split_lf r)) as [c ls]. cbn [fst snd] in *. subst c.
  destruct (N.eqb_spec d 32); [contradiction|]. now rewrite app_nil_r.
Qed.

(** lengths of physical lines *)
Definition short (n : nat) (s : str) : Prop := Forall (fun l => List.length l <= n) (split_lf s).
Lemma split_lf_nonempty x : split_lf x <> [].
Proof.
  destruct x as [|y x]; [discriminate|]. cbn [split_lf]. destruct (N.eqb y 10); [discriminate|]. destruct (split_lf x); discriminate.
Qed.
Lemma split_lf_app a : forall r, split_lf (a ++ 10%N :: r) = split_lf a ++ split_lf r.
Proof.
  induction a as [|c a IH]; intros r; cbn [app split_lf]; [reflexivity|].
  destruct (N.eqb c 10); [now rewrite IH|]. rewrite IH. destruct (split_lf a) as [|l ls] eqn:E; [now apply split_lf_nonempty in E|].
  reflexivity.
Qed.
Lemma short_len n s : List.length s <= n -> short n s.
Proof.
  unfold short. revert n. induction s as [|c s IH]; intros n H; cbn [split_lf].
  - constructor; [cbn; lia|constructor].
  - cbn [List.length] in H. destruct n as [|n]; [lia|]. specialize (IH n ltac:(lia)).
    assert (G : Forall (fun l => List.length l <= S n) (split_lf s)) by (eapply Forall_impl; [|exact IH]; cbn; intros; lia).
    destruct (N.eqb c 10); [constructor; [cbn; lia|exact G]|].
    destruct (split_lf s) as [|l ls]; [constructor; [cbn; lia|constructor]|].
    inversion IH; subst. inversion G; subst. constructor; auto. cbn. lia.
Qed.
Lemma short_join n p ps : List.length p <= n -> Forall (fun q => List.length q <= n) ps -> short n (join_str [10%N] (p :: ps)).
Proof.
  intros Hp H. revert p Hp. induction H as [|q ps Hq _ IH]; intros p Hp; [cbn [join_str]; now apply short_len|].
  change (join_str [10%N] (p :: q :: ps)) with (p ++ 10%N :: join_str [10%N] (q :: ps)).
  unfold short. rewrite split_lf_app. apply Forall_app. split; [now apply short_len|]. now apply IH.
Qed.
Lemma short_fold line : short 76 (fold_line line).
Proof.
  destruct (fold_line_pieces line) as (p & ps & E & -> & Hp & Hps & _). apply short_join; auto.
  rewrite Forall_map. eapply Forall_impl; [|exact Hps]. cbn. intros; lia.
Qed.
Lemma short_concat n ls : Forall (short n) ls -> short n (List.concat (map (fun l => l ++ [10%N]) ls)).
Proof.
  induction 1 as [|l ls Hl _ IH]; cbn [map List.concat]; [apply short_len; cbn; lia|].
  rewrite <- app_assoc. cbn [app]. unfold short. rewrite split_lf_app. apply Forall_app. auto.
Qed.

(** ** Folding *)
Lemma unfold_length x : List.length (unfold x) <= List.length x.
Proof.
  assert (F : forall n x, List.length x <= n -> List.length (unfold x) <= List.length x); [|now apply (F (List.length x))].
  clear x. induction n as [|n F]; intros [|a x] Hx; cbn [List.length] in Hx; try (cbn; lia). cbn [unfold]. destruct (N.eqb a 10).
  - destruct x as [|b x]; [cbn; lia|]. cbn [List.length] in *. destruct (N.eqb b 32).
    + pose proof (F x ltac:(lia)). lia.
    + pose proof (F (b :: x) ltac:(cbn [List.length]; lia)). cbn [List.length] in *. lia.
  - destruct (N.eqb a 13).
    + destruct x as [|b [|e x]]; cbn [List.length] in *; [cbn; lia| |].
      * pose proof (F [b] ltac:(cbn [List.length]; lia)). cbn [List.length] in *. lia.
      * destruct (N.eqb b 10 && N.eqb e 32).
        -- pose proof (F x ltac:(lia)). lia.
        -- pose proof (F (b :: e :: x) ltac:(cbn [List.length]; lia)). cbn [List.length] in *. lia.
    + pose proof (F x ltac:(lia)). cbn [List.length] in *. lia.
Qed.
Lemma refolds_unfold s t : refolds s t -> ~ In 13%N s -> unfold s = s -> unfold t = s.
Proof.
  induction 1 as [|c s t R IH|s t R IH|s t R IH]; intros Hcr Hs.
  - reflexivity.
  - assert (Hs' : unfold s = s).
    { cbn [unfold] in Hs. destruct (N.eqb_spec c 10) as [->|H10].
      - destruct s as [|d s]; [reflexivity|]. destruct (N.eqb_spec d 32) as [->|]; [|now injection Hs].
        exfalso. pose proof (unfold_length s) as L. rewrite Hs in L. cbn in L. lia.
      - destruct (N.eqb_spec c 13) as [->|]; [exfalso; apply Hcr; now left|]. now injection Hs. }
    assert (Hcr' : ~ In 13%N s) by (intros Hin; apply Hcr; now right).
    specialize (IH Hcr' Hs'). cbn [unfold]. destruct (N.eqb_spec c 13) as [->|]; [exfalso; apply Hcr; now left|].
    destruct (N.eqb_spec c 10) as [->|]; [|now rewrite IH].
    assert (G : match t with d :: _ => d <> 32%N | [] => True end).
    { destruct t as [|d t]; [exact I|]. intros ->. inversion R as [|c0 s0 t0 R' E1 E2| |]; subst c0 t0. rewrite <- E1 in Hs, Hs'.
      change (unfold (10%N :: 32%N :: s0)) with (unfold s0) in Hs.
      change (unfold (32%N :: s0)) with (32%N :: unfold s0) in Hs'. rewrite Hs in Hs'.
      apply (f_equal (@List.length N)) in Hs'. cbn in Hs'. lia. }
    destruct t as [|d t]; [now rewrite <- IH|]. apply N.eqb_neq in G. now rewrite G, IH.
  - cbn [unfold]. now apply IH.
  - cbn [unfold]. now apply IH.
Qed.

(** ** Texts of records *)
Lemma in_ended c ls : In c (ended ls) -> c = 10%N \/ exists l, In l ls /\ In c l.
Proof.
  induction ls as [|l ls IH]; cbn [In]; [contradiction|]. rewrite ended_cons, in_app_iff. intros [H|[H|H]]; auto.
  - right. exists l. auto.
  - destruct (IH H) as [|(x & Hx & Hc)]; auto. right. exists x. auto.
Qed.
Lemma in_file c bs : In c (file bs) -> c = 10%N \/ exists b l, In b bs /\ In l b /\ In c l.
Proof.
  induction bs as [|b bs IH]; [contradiction|].
  assert (G : In c (ended b) \/ (bs <> [] /\ (c = 10%N \/ In c (file bs))) -> c = 10%N \/ exists b' l, In b' (b :: bs) /\ In l b' /\ In c l).
  { intros [H|[_ [H|H]]]; auto.
    - apply in_ended in H as [|(l & Hl & Hc)]; auto. right. exists b, l. split; [now left|auto].
    - destruct (IH H) as [|(b' & l & Hb & Hl & Hc)]; auto. right. exists b', l. split; [now right|auto]. }
  intros H. apply G. destruct bs as [|b2 bs]; [left; exact H|].
  change (file (b :: b2 :: bs)) with (ended b ++ 10%N :: file (b2 :: bs)) in H. rewrite in_app_iff in H.
  destruct H as [H|[H|H]]; auto; right; (split; [discriminate|auto]).
Qed.
Definition version_line (version : bool) : str := if version then lit "version: 1" ++ [10%N] else [].
Lemma text_clean keyword rs version : Forall (rec_ok keyword) rs -> rs <> [] ->
  unfold (version_line version ++ ldif_text rs) = version_line version ++ ldif_text rs /\
  ~ In 13%N (version_line version ++ ldif_text rs).
Proof.
  intros H Hne. rewrite ldif_text_file. set (blocks := map rec_lines rs).
  assert (Hbl : Forall block_ok blocks).
  { subst blocks. rewrite Forall_map. eapply Forall_impl; [|exact H]. intros r Hr. destruct (good_rec keyword r Hr) as [A B].
    split; auto. eapply Forall_impl; [|exact B]. now intros l []. }
  unfold version_line. split.
  - destruct version; [|now apply unfold_file].
    change (lit "version: 1" ++ [10%N]) with (ended [lit "version: 1"]). rewrite unfold_ended.
    + now rewrite unfold_file.
    + constructor; [|constructor]. apply good_lit_line; reflexivity.
    + now apply file_starts.
  - rewrite in_app_iff. intros [Hin|Hin].
    + destruct version; cbn in Hin; repeat (destruct Hin as [Hin|Hin]; [discriminate|]); contradiction.
    + apply in_file in Hin as [|(b & l & Hb & Hl & Hc)]; [discriminate|]. rewrite Forall_forall in Hbl.
      destruct (Hbl b Hb) as [_ Hf]. rewrite Forall_forall in Hf. destruct (Hf l Hl) as [Hk _]. rewrite Forall_forall in Hk.
      apply Hk in Hc. discriminate.
Qed.

Lemma process_unfold utf8_decode b64decode keyword dc exec fe s t : unfold t = unfold s ->
  process_ldif utf8_decode b64decode keyword dc exec fe t =
  (if has_url (unfold s) then (Raise (fe (unfold s)), []) else process_ldif utf8_decode b64decode keyword dc exec fe s).
Proof. intros E. unfold process_ldif. rewrite E. destruct (has_url (unfold s)); reflexivity. Qed.
Lemma process_same utf8_decode b64decode keyword dc exec fe s t : unfold t = unfold s ->
  process_ldif utf8_decode b64decode keyword dc exec fe t = process_ldif utf8_decode b64decode keyword dc exec fe s.
Proof. intros E. rewrite (process_unfold _ _ _ _ _ _ s t E). unfold process_ldif. destruct (has_url (unfold s)); reflexivity. Qed.

(** ** format_mod_ldif *)
Lemma format_mods_text mods : format_mods (map (fun m => (fst m, Some (snd m))) mods) = Ok (ended (List.concat (map mod_lines mods))).
Proof.
  induction mods as [|[[o a] vs] mods IH]; [reflexivity|]. cbn [map fst snd format_mods]. rewrite IH. cbn [bind]. f_equal.
  cbn [map List.concat mod_lines]. rewrite ended_app. cbn [app]. rewrite ended_cons, ended_app.
  change (ended [lit "-"]) with (lit "-" ++ [10%N]).
  assert (E : ended (map (fun v => a ++ lit ": " ++ v) vs) = List.concat (map (fun v => a ++ lit ": " ++ v ++ [10%N]) vs)).
  { induction vs as [|v vs IHv]; [reflexivity|]. cbn [map List.concat]. rewrite ended_cons, IHv.
    rewrite <- !app_assoc. reflexivity. }
  rewrite E. rewrite <- !app_assoc. cbn [app]. rewrite <- !app_assoc. reflexivity.
Qed.
Lemma format_mod_ldif_text dn mods :
  format_mod_ldif dn (map (fun m => (fst m, Some (snd m))) mods) = Ok (ldif_text [mk_rec (mk_fld dn false) [] (CModify mods)]).
Proof.
  unfold format_mod_ldif. rewrite format_mods_text. cbn [bind]. f_equal.
  change (ldif_text [mk_rec (mk_fld dn false) [] (CModify mods)]) with
    (ended ((lit "dn: " ++ dn) :: lit "changetype: modify" :: List.concat (map mod_lines mods))).
  rewrite !ended_cons. rewrite <- !app_assoc. reflexivity.
Qed.
