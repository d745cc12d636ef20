(** * Proofs about refused LDIF records *)
From Verif Require Import PyBase Model_Uri Model_Prep Model_Ldif Spec_Ldif Spec_Uri Proofs_Prep Proofs_Uri Proofs_Ldif Proofs_Ldif2 Proofs_Ldif3.

Lemma blocks_file bs : blocks_text bs = file bs.
Proof. induction bs as [|b [|b2 bs] IH]; [reflexivity|reflexivity|]. cbn [blocks_text file] in *. now rewrite IH. Qed.
Lemma starts_false token l : ~ starts token l -> starts_with token l = false.
Proof. intros H. destruct (starts_with token l) eqn:E; [|reflexivity]. apply starts_with_spec in E. exact (match H E with end). Qed.

Lemma proper_good l : proper_line l -> good_line l /\ exists c r, l = c :: r /\ sp c = false /\ c <> 35%N.
Proof.
  intros ((c & r & E & Hc & H35) & Hbr & Hh). split.
  - split; [split|].
    + revert Hbr. apply Forall_impl. intros x. now rewrite break_line.
    + exists c, r. split; [exact E|]. intros ->. discriminate.
    + destruct (hc l) eqn:X; [|reflexivity]. apply hc_iff in X as (a & b & X). exfalso. exact (Hh a b X).
  - exists c, r. auto.
Qed.
Lemma proper_clear l rest : proper_line l -> clear_comments (l :: rest) = l :: rest.
Proof. intros H. destruct (proper_good l H) as [_ (c & r & -> & H1 & H2)]. now apply clear_nothing. Qed.
Lemma proper_comment l : proper_line l -> starts_with (lit "#") (py_strip l) = false.
Proof. intros H. destruct (proper_good l H) as [_ (c & r & -> & H1 & H2)]. now apply no_comment. Qed.

Lemma in_first (c : N) (l : str) : In c l -> exists x y, l = x ++ c :: y /\ ~ In c x.
Proof.
  induction l as [|d l IH]; [intros []|]. intros H. destruct (N.eq_dec d c) as [->|Hn].
  - exists [], l. split; [reflexivity|intros []].
  - destruct H as [H|H]; [contradiction|]. destruct (IH H) as (x & y & -> & Hx). exists (d :: x), y. split; [reflexivity|].
    intros [X|X]; contradiction.
Qed.
Lemma destruct_last (l : str) : l = [] \/ exists t z, l = t ++ [z].
Proof. destruct l as [|c l]; [now left|]. right. destruct (@exists_last _ (c :: l) ltac:(discriminate)) as (t & z & E). eauto. Qed.

Section B.
  Context (utf8_decode : list N -> option str) (b64decode : str -> res (list N)).
  Context (keyword : str -> option str) (default_criticality : bool).
  Context (Hb : b64decode_ok b64decode) (Hu : utf8_decode_ok utf8_decode).
  Notation read_add := (read_add utf8_decode b64decode).
  Notation read_controls := (read_controls utf8_decode b64decode keyword default_criticality).
  Notation read_record := (read_record utf8_decode b64decode keyword default_criticality).

  Notation show_line := (Proofs_Ldif3.show_line keyword).
  Notation pair_tight := (Proofs_Ldif3.pair_tight keyword).
  Notation attr_tight := (Proofs_Ldif3.attr_tight keyword).
  Notation read_values := (Proofs_Ldif3.read_values keyword).
  Notation ctl_line_shape := (Proofs_Ldif3.ctl_line_shape keyword).
  Notation control_re_spec := (Proofs_Ldif3.control_re_spec keyword).
  Notation strip_show := (Proofs_Ldif3.strip_show utf8_decode b64decode keyword Hb Hu).

  Lemma read_add_more values : forall attrs rest,
    Forall (fun av => attr_name (fst av) /\ fld_ok (snd av) /\ py_strip (f_text (snd av)) = f_text (snd av)) values ->
    exists attrs', read_add (map (fun av => show (fst av) (snd av)) values ++ rest) attrs = read_add rest attrs'.
  Proof.
    induction values as [|[a f] values IH]; intros attrs rest H; cbn [map app Model_Ldif.read_add fst snd]; [eauto|].
    inversion H as [|? ? ([Ha Hs] & Hf & Hst) Hrest]; subst. cbn [fst snd] in *.
    destruct (show_line a f Hf Ha) as (_ & _ & c & r & Ec & Hc1 & Hc2).
    rewrite Ec, no_comment by auto. rewrite <- Ec.
    assert (G : exists v w, py_strip (show a f) = a ++ ch ":" :: v /\ maybe_base64 utf8_decode b64decode v = Ok w).
    { destruct (strip_show a f Ha Hf) as (v & [(E & Ev)|(E & -> & Eb)]); eauto.
      exists (32%N :: f_text f), (Text (32%N :: f_text f)). split; auto. }
    destruct G as (v & w & E & Ev). rewrite E.
    destruct (split_colon a v (attr_no_colon a Ha)) as (r' & Es & Hne). rewrite Es.
    destruct r' as [|x r']; [contradiction|].
    replace (skipn (S (List.length a)) (a ++ ch ":" :: v)) with v.
    2:{ change (a ++ ch ":" :: v) with (a ++ [ch ":"] ++ v). rewrite app_assoc. rewrite skipn_app.
        rewrite skipn_all2 by (rewrite app_length; cbn; lia). rewrite app_length. cbn [List.length].
        replace (S (List.length a) - (List.length a + 1)) with 0 by lia. reflexivity. }
    rewrite Ev. cbn [bind]. rewrite no_semicolon by auto. cbn [List.length Nat.ltb Nat.leb]. apply IH, Hrest.
  Qed.
  Lemma semicolon_splits a : In (ch ";") a -> 1 <? List.length (py_split (lit ";") a) = true.
  Proof.
    intros H. destruct (in_first (ch ";") a H) as (x & y & -> & Hx). change (lit ";") with [ch ";"].
    pose proof (py_split_first (ch ";") [] x y Hx) as E. cbn [app] in E. rewrite E. cbn [List.length].
    destruct (py_split [ch ";"] y) eqn:E2; [|reflexivity]. exfalso. revert E2. apply py_split_nonempty.
  Qed.
  Lemma read_add_option a f rest attrs : attr_desc a -> In (ch ";") a -> fld_ok f -> read_add (show a f :: rest) attrs = Raise LDAPError.
  Proof.
    intros Ha Hi Hf. cbn [Model_Ldif.read_add].
    destruct (show_line a f Hf Ha) as (_ & _ & c & r & Ec & Hc1 & Hc2).
    rewrite Ec, no_comment by auto. rewrite <- Ec.
    assert (G : exists v w, py_strip (show a f) = a ++ ch ":" :: v /\ maybe_base64 utf8_decode b64decode v = Ok w).
    { destruct (strip_show a f Ha Hf) as (v & [(E & Ev)|(E & -> & Eb)]); eauto.
      exists (32%N :: f_text f), (Text (32%N :: f_text f)). split; auto. }
    destruct G as (v & w & E & Ev). rewrite E.
    destruct (split_colon a v (attr_no_colon a Ha)) as (r' & Es & Hne). rewrite Es.
    destruct r' as [|x r']; [contradiction|].
    replace (skipn (S (List.length a)) (a ++ ch ":" :: v)) with v.
    2:{ change (a ++ ch ":" :: v) with (a ++ [ch ":"] ++ v). rewrite app_assoc. rewrite skipn_app.
        rewrite skipn_all2 by (rewrite app_length; cbn; lia). rewrite app_length. cbn [List.length].
        replace (S (List.length a) - (List.length a + 1)) with 0 by lia. reflexivity. }
    rewrite Ev. cbn [bind]. now rewrite semicolon_splits.
  Qed.

  Lemma read_modify_more mods : mods_ok mods -> forall rest acc,
    exists acc', read_modify (List.concat (map mod_lines mods) ++ rest) None [] acc = read_modify rest None [] acc'.
  Proof.
    induction 1 as [|[[o a] vs] mods (Ha & Hadd & Hvs) _ IH]; intros rest acc; cbn [map List.concat fst snd app] in *; [eauto|].
    pose proof (attr_name_desc a Ha) as Had. cbn [mod_lines app]. cbn [read_modify].
    rewrite strip_tight by (apply pair_tight; [apply mod_name_desc|apply Had|now apply attr_tight]).
    rewrite pair_no_comment by apply mod_name_desc.
    rewrite split_two by (apply attr_no_colon; auto using mod_name_desc). rewrite mod_name_string. cbn [bind].
    rewrite strip_left_space by now apply attr_tight.
    rewrite <- !app_assoc, read_values by auto. cbn [app]. cbn [read_modify].
    change (py_strip (lit "-")) with (lit "-"). change (starts_with (lit "#") (lit "-")) with false.
    cbv iota. rewrite str_eqb_refl.
    assert (one_mod o a (map Text vs) = Ok [(o, a, map Text vs)]) as ->.
    { unfold one_mod. destruct o; auto. destruct vs; [now specialize (Hadd eq_refl)|reflexivity]. }
    cbn [bind]. apply IH.
  Qed.
  Lemma read_mod_begun o a rest acc : attr_name a ->
    read_modify ((mod_name o ++ lit ": " ++ a) :: rest) None [] acc = read_modify rest (Some (o, a)) [] acc.
  Proof.
    intros Ha. pose proof (attr_name_desc a Ha) as Had. cbn [read_modify].
    rewrite strip_tight by (apply pair_tight; [apply mod_name_desc|apply Had|now apply attr_tight]).
    rewrite pair_no_comment by apply mod_name_desc.
    rewrite split_two by (apply attr_no_colon; auto using mod_name_desc). rewrite mod_name_string. cbn [bind].
    now rewrite strip_left_space by now apply attr_tight.
  Qed.

  Lemma read_controls_more cs : controls_ok keyword cs -> forall rest ctls, rest <> [] ->
    exists ctls', read_controls (map ctl_line cs ++ rest) ctls = read_controls rest ctls'.
  Proof.
    intros [F _]. induction F as [|[[oid crit] b] cs (Hd & Hby & kw & Hkw & Hne) _ IH]; intros rest ctls Hr; cbn [map app fst snd] in *; [eauto|].
    destruct (ctl_line_shape oid crit b Hd Hby) as (x & y & E & F').
    rewrite (read_controls_step utf8_decode b64decode keyword default_criticality _ _ _ oid crit (58%N :: x :: y) b kw).
    - apply IH, Hr.
    - destruct (map ctl_line cs); [exact Hr|discriminate].
    - apply starts_with_spec. exists (32%N :: oid ++ crit_text crit ++ lit ":: " ++ b64encode b). reflexivity.
    - rewrite E. now apply control_re_spec.
    - cbn [tl]. now apply Hb.
    - exact Hkw.
    - exact Hne.
  Qed.
  Lemma read_controls_unknown oid crit b l rest ctls : dotted oid -> Forall (fun x => (x < 256)%N) b -> keyword oid = None ->
    crit = Some true \/ crit = None /\ default_criticality = true ->
    read_controls (ctl_line (oid, crit, b) :: l :: rest) ctls = Raise LDAPSupportError.
  Proof.
    intros Hd Hby Hk Hc. destruct (ctl_line_shape oid crit b Hd Hby) as (x & y & E & F'). cbn [Model_Ldif.read_controls].
    assert (starts_with (lit "control:") (ctl_line (oid, crit, b)) = true) as ->.
    { apply starts_with_spec. exists (32%N :: oid ++ crit_text crit ++ lit ":: " ++ b64encode b). reflexivity. }
    rewrite E, control_re_spec by exact Hd. unfold Model_Ldif.handle_base64. cbn [tl]. rewrite (Hb _ _ Hby F'). cbn [bind]. rewrite Hk.
    destruct Hc as [->|[-> ->]]; reflexivity.
  Qed.

  Lemma dn_desc : attr_desc (lit "dn"). Proof. split; [discriminate|repeat constructor]. Qed.
  Lemma read_dn dn rest : fld_ok dn ->
    read_record (show (lit "dn") dn :: rest) =
    (let* cl := read_controls (clear_comments rest) [] in
     let (ctls, lines) := cl in
     match lines with
     | [] => Raise ValueError
     | l2 :: rest2 =>
         match take_field (lit "changetype:") l2 with
         | None => Raise ValueError
         | Some t =>
             let body := clear_comments rest2 in
             if str_eqb t (lit "add") then let* attrs := read_add body [] in Ok (OAdd (Text (f_text dn)) attrs ctls)
             else if str_eqb t (lit "delete") then Ok (ODelete (Text (f_text dn)) ctls)
             else if str_eqb t (lit "modify") then let* m := read_modify body None [] [] in Ok (OModify (Text (f_text dn)) m ctls)
             else if str_eqb t (lit "modrdn") || str_eqb t (lit "moddn") then read_moddn utf8_decode b64decode (Text (f_text dn)) body ctls
             else Raise ValueError
         end
     end).
  Proof.
    intros Hdn. destruct (show_line (lit "dn") dn Hdn dn_desc) as (_ & _ & c & t & Ec & Hc1 & Hc2).
    unfold Model_Ldif.read_record. rewrite Ec, clear_nothing by auto. rewrite <- Ec. rewrite (take_show (lit "dn:") (lit "dn")) by reflexivity.
    rewrite (field_value utf8_decode b64decode Hb Hu) by auto. reflexivity.
  Qed.
  Lemma ctl_clear cs rest : clear_comments rest = rest -> clear_comments (map ctl_line cs ++ rest) = map ctl_line cs ++ rest.
  Proof.
    intros H. destruct cs as [|[[oid crit] b] cs]; [exact H|]. cbn [map app clear_comments].
    change (ctl_line (oid, crit, b)) with (99%N :: lit "ontrol: " ++ oid ++ crit_text crit ++ lit ":: " ++ b64encode b).
    rewrite no_comment; [reflexivity|reflexivity|discriminate].
  Qed.
  Lemma read_controls_end l rest ctls : ~ starts (lit "control:") l -> read_controls (l :: rest) ctls = Ok (ctls, l :: rest).
  Proof. intros H. cbn [Model_Ldif.read_controls]. rewrite (starts_false _ _ H). destruct rest; reflexivity. Qed.

  Lemma take_not token l : ~ starts token l -> take_field token l = None.
  Proof. intros H. unfold take_field. now rewrite starts_false. Qed.

  Lemma refused_reads lines x : Forall proper_line lines -> refused keyword default_criticality lines x -> read_record lines = Raise x.
  Proof.
    intros Hp H. destruct H as [l rest H|dn cs oid crit b l rest Hdn Hcs Hd Hby Hk Hc|dn cs lines x Hdn Hcs H].
    - unfold Model_Ldif.read_record. rewrite proper_clear by (inversion Hp; assumption). now rewrite take_not.
    - rewrite read_dn by exact Hdn. rewrite ctl_clear.
      + destruct (read_controls_more cs Hcs (ctl_line (oid, crit, b) :: l :: rest) [] ltac:(discriminate)) as [ctls' ->].
        rewrite read_controls_unknown by assumption. reflexivity.
      + apply proper_clear. inversion Hp as [|? ? _ Hp']; subst. apply Forall_app in Hp' as [_ Hp']. inversion Hp'; assumption.
    - apply Forall_inv_tail in Hp. apply Forall_app in Hp as [_ Hp].
      assert (S : forall l rest, lines = l :: rest -> ~ starts (lit "control:") l -> exists ctls, read_controls (clear_comments (map ctl_line cs ++ lines)) [] = Ok (ctls, l :: rest)).
      { intros l rest -> Hl. rewrite ctl_clear by (apply proper_clear; inversion Hp; assumption).
        destruct (read_controls_more cs Hcs (l :: rest) [] ltac:(discriminate)) as [ctls' ->]. exists ctls'. now apply read_controls_end. }
      assert (NS : forall s, ~ starts (lit "control:") (lit "changetype:" ++ s)) by (intros s [r Hr]; discriminate).
      rewrite read_dn by exact Hdn.
      assert (CM : forall mods rest, mods_ok mods -> Forall proper_line (lit "changetype: modify" :: List.concat (map mod_lines mods) ++ rest) ->
                   clear_comments (List.concat (map mod_lines mods) ++ rest) = List.concat (map mod_lines mods) ++ rest).
      { intros mods rest _ P. apply Forall_inv_tail in P. destruct (List.concat (map mod_lines mods) ++ rest) as [|l r]; [reflexivity|]. apply proper_clear. inversion P; assumption. }
      assert (MD : attr_desc (lit "newrdn")) by (split; [discriminate|repeat constructor]).
      destruct H as [l rest H1 H2|t rest Ht Hn|values a f rest Hv Ha Hi Hf|mods o a vs opt v rest Hm Ha Hvs Ho Hv Hvc|mods o a vs l rest Hm Ha Hvs Hs Hl Ht|mods w a rest Hm Hw Hn Ha|mods a rest Hm Ha
        |l rest H|newrdn l rest Hr H|newrdn d rest Hr Hd0 H0 H1].
      + destruct (S l rest eq_refl H2) as [ctls ->]. cbn [bind]. now rewrite take_not.
      + destruct (S _ rest eq_refl (NS _)) as [ctls ->]. cbn [bind].
        change (lit "changetype: " ++ t) with (lit "changetype:" ++ 32%N :: t). unfold take_field.
        replace (starts_with (lit "changetype:") (lit "changetype:" ++ 32%N :: t)) with true by (symmetry; apply starts_with_spec; eauto).
        change (skipn (List.length (lit "changetype:")) (lit "changetype:" ++ 32%N :: t)) with (32%N :: t).
        rewrite strip_left_space by now apply plain_tight. cbv zeta.
        repeat match goal with |- context [str_eqb t ?w] => replace (str_eqb t w) with false by (symmetry; apply str_eqb_neq; intros ->; apply Hn; cbn [In]; tauto) end.
        reflexivity.
      + cbn [change_lines app] in *. destruct (S _ _ eq_refl (NS _)) as [ctls ->]. cbn [bind].
        change (take_field (lit "changetype:") (lit "changetype: add")) with (Some (lit "add")). cbv iota zeta. rewrite str_eqb_refl.
        replace (clear_comments (map (fun av => show (fst av) (snd av)) values ++ show a f :: rest)) with (map (fun av => show (fst av) (snd av)) values ++ show a f :: rest).
        * destruct (read_add_more values [] (show a f :: rest) Hv) as [attrs' ->]. rewrite read_add_option by assumption. reflexivity.
        * apply Forall_inv_tail in Hp. destruct (map (fun av => show (fst av) (snd av)) values ++ show a f :: rest) as [|l r]; [reflexivity|].
          symmetry. apply proper_clear. inversion Hp; assumption.
      + cbn [change_lines app] in *. destruct (S _ _ eq_refl (NS _)) as [ctls ->]. cbn [bind].
        change (take_field (lit "changetype:") (lit "changetype: modify")) with (Some (lit "modify")). cbv iota zeta.
        change (str_eqb (lit "modify") (lit "add")) with false. change (str_eqb (lit "modify") (lit "delete")) with false. cbv iota. rewrite str_eqb_refl.
        rewrite CM by assumption. destruct (read_modify_more mods Hm ((mod_name o ++ lit ": " ++ a) :: map (fun v => a ++ lit ": " ++ v) vs ++ ((a ++ ch ";" :: opt) ++ lit ": " ++ v) :: rest) []) as [acc ->].
        rewrite read_mod_begun, read_values by assumption. cbn [read_modify].
        assert (Had : attr_desc (a ++ ch ";" :: opt)).
        { split; [destruct a; discriminate|]. apply Forall_app. split; [apply Ha|]. constructor; [reflexivity|exact Ho]. }
        rewrite strip_tight by (apply pair_tight; auto; [now apply plain_nonempty|now apply plain_tight]).
        rewrite pair_no_comment by exact Had.
        assert (str_eqb ((a ++ ch ";" :: opt) ++ lit ": " ++ v) (lit "-") = false) as ->.
        { apply str_eqb_neq. intros E. destruct a as [|c [|d a]]; [now apply Ha| |]; cbn in E; discriminate. }
        assert (starts_with a ((a ++ ch ";" :: opt) ++ lit ": " ++ v) = true) as -> by (apply starts_with_spec; rewrite <- app_assoc; eauto).
        rewrite split_two by (auto using attr_no_colon).
        rewrite semicolon_splits by (apply in_or_app; right; now left). reflexivity.
      + cbn [change_lines app] in *. destruct (S _ _ eq_refl (NS _)) as [ctls ->]. cbn [bind].
        change (take_field (lit "changetype:") (lit "changetype: modify")) with (Some (lit "modify")). cbv iota zeta.
        change (str_eqb (lit "modify") (lit "add")) with false. change (str_eqb (lit "modify") (lit "delete")) with false. cbv iota. rewrite str_eqb_refl.
        rewrite CM by assumption. destruct (read_modify_more mods Hm ((mod_name o ++ lit ": " ++ a) :: map (fun v => a ++ lit ": " ++ v) vs ++ l :: rest) []) as [acc ->].
        rewrite read_mod_begun, read_values by assumption. cbn [read_modify].
        assert (Pl : proper_line l).
        { apply Forall_inv_tail in Hp. apply Forall_app in Hp as [_ Hp]. apply Forall_inv_tail in Hp. apply Forall_app in Hp as [_ Hp]. inversion Hp; assumption. }
        rewrite proper_comment by exact Pl.
        assert (T : tight l).
        { destruct Pl as ((c & r & E & Hc & _) & _). destruct Ht as (d & q & E2 & Hd0). split; [rewrite E; exact Hc|]. rewrite E2, rev_app_distr. exact Hd0. }
        rewrite strip_tight by exact T. apply str_eqb_neq in Hl. rewrite Hl, (starts_false _ _ Hs). reflexivity.
      + cbn [change_lines app] in *. destruct (S _ _ eq_refl (NS _)) as [ctls ->]. cbn [bind].
        change (take_field (lit "changetype:") (lit "changetype: modify")) with (Some (lit "modify")). cbv iota zeta.
        change (str_eqb (lit "modify") (lit "add")) with false. change (str_eqb (lit "modify") (lit "delete")) with false. cbv iota. rewrite str_eqb_refl.
        rewrite CM by assumption. destruct (read_modify_more mods Hm ((w ++ lit ": " ++ a) :: rest) []) as [acc ->]. cbn [read_modify].
        rewrite strip_tight by (apply pair_tight; [exact Hw|apply Ha|now apply attr_tight]). rewrite pair_no_comment by exact Hw.
        rewrite split_two by (apply attr_no_colon; assumption). unfold mod_string.
        repeat match goal with |- context [str_eqb w ?u] => replace (str_eqb w u) with false by (symmetry; apply str_eqb_neq; intros ->; apply Hn; cbn [In]; tauto) end.
        reflexivity.
      + cbn [change_lines app] in *. destruct (S _ _ eq_refl (NS _)) as [ctls ->]. cbn [bind].
        change (take_field (lit "changetype:") (lit "changetype: modify")) with (Some (lit "modify")). cbv iota zeta.
        change (str_eqb (lit "modify") (lit "add")) with false. change (str_eqb (lit "modify") (lit "delete")) with false. cbv iota. rewrite str_eqb_refl.
        rewrite CM by assumption. destruct (read_modify_more mods Hm ((lit "add: " ++ a) :: lit "-" :: rest) []) as [acc ->].
        change (lit "add: " ++ a) with (mod_name MAdd ++ lit ": " ++ a). rewrite read_mod_begun by exact Ha. cbn [read_modify].
        change (py_strip (lit "-")) with (lit "-"). change (starts_with (lit "#") (lit "-")) with false. cbv iota. rewrite str_eqb_refl. reflexivity.
      + destruct (S _ _ eq_refl (NS (lit " moddn"))) as [ctls E]. rewrite E. cbn [bind].
        change (take_field (lit "changetype:") (lit "changetype: moddn")) with (Some (lit "moddn")). cbv iota zeta.
        change (str_eqb (lit "moddn") (lit "add")) with false. change (str_eqb (lit "moddn") (lit "delete")) with false.
        change (str_eqb (lit "moddn") (lit "modify")) with false. change (str_eqb (lit "moddn") (lit "modrdn") || str_eqb (lit "moddn") (lit "moddn")) with true. cbv iota.
        rewrite proper_clear by (apply Forall_inv_tail in Hp; inversion Hp; assumption).
        unfold read_moddn. destruct rest as [|l2 rest]; [reflexivity|]. now rewrite take_not.
      + destruct (S _ _ eq_refl (NS (lit " moddn"))) as [ctls E]. rewrite E. cbn [bind].
        change (take_field (lit "changetype:") (lit "changetype: moddn")) with (Some (lit "moddn")). cbv iota zeta.
        change (str_eqb (lit "moddn") (lit "add")) with false. change (str_eqb (lit "moddn") (lit "delete")) with false.
        change (str_eqb (lit "moddn") (lit "modify")) with false. change (str_eqb (lit "moddn") (lit "modrdn") || str_eqb (lit "moddn") (lit "moddn")) with true. cbv iota.
        do 2 (pose proof (Forall_inv Hp); apply Forall_inv_tail in Hp).
        rewrite proper_clear by assumption. unfold read_moddn.
        rewrite (take_show (lit "newrdn:") (lit "newrdn")) by reflexivity. rewrite (field_value utf8_decode b64decode Hb Hu) by auto. cbn [bind].
        rewrite proper_clear by (inversion Hp; assumption). now rewrite take_not.
      + destruct (S _ _ eq_refl (NS (lit " moddn"))) as [ctls E]. rewrite E. cbn [bind].
        change (take_field (lit "changetype:") (lit "changetype: moddn")) with (Some (lit "moddn")). cbv iota zeta.
        change (str_eqb (lit "moddn") (lit "add")) with false. change (str_eqb (lit "moddn") (lit "delete")) with false.
        change (str_eqb (lit "moddn") (lit "modify")) with false. change (str_eqb (lit "moddn") (lit "modrdn") || str_eqb (lit "moddn") (lit "moddn")) with true. cbv iota.
        do 2 (pose proof (Forall_inv Hp); apply Forall_inv_tail in Hp).
        rewrite proper_clear by assumption. unfold read_moddn.
        rewrite (take_show (lit "newrdn:") (lit "newrdn")) by reflexivity. rewrite (field_value utf8_decode b64decode Hb Hu) by auto. cbn [bind].
        rewrite proper_clear by (inversion Hp; assumption).
        change (lit "deleteoldrdn: " ++ d) with (lit "deleteoldrdn:" ++ 32%N :: d). unfold take_field.
        replace (starts_with (lit "deleteoldrdn:") (lit "deleteoldrdn:" ++ 32%N :: d)) with true by (symmetry; apply starts_with_spec; eauto).
        change (skipn (List.length (lit "deleteoldrdn:")) (lit "deleteoldrdn:" ++ 32%N :: d)) with (32%N :: d).
        rewrite strip_left_space by now apply plain_tight. apply str_eqb_neq in H0, H1. rewrite H0, H1. reflexivity.
  Qed.

  Context (exec : list op -> op -> res unit) (fetch_error : str -> exn).
  Notation process := (process_ldif utf8_decode b64decode keyword default_criticality exec fetch_error).
  Notation runr := (run_records utf8_decode b64decode keyword default_criticality exec).
  Lemma process_file blocks (version : bool) : Forall (Forall good_line) blocks -> Forall (fun b => b <> []) blocks -> blocks <> [] ->
    (version = false -> exists c l b rest, blocks = ((c :: l) :: b) :: rest /\ sp c = false /\ c <> 35%N /\ starts_with (lit "version:") (c :: l) = false) ->
    exists bs, Forall2 (fun b lines => b <> [] /\ splitlines false [] b = lines) bs blocks /\
      process ((if version then lit "version: 1" ++ [10%N] else []) ++ file blocks) = runr bs [].
  Proof.
    intros Hg Hnn Hbne Hver.
    assert (Hgood : Forall block_ok blocks /\ Forall (Forall (fun l => hc l = false)) blocks).
    { split.
      - clear - Hg Hnn. induction Hg as [|b bs H _ IH]; [constructor|]. inversion Hnn; subst. constructor; [|auto]. split; auto. revert H. apply Forall_impl. now intros l [].
      - revert Hg. apply Forall_impl. intros b. apply Forall_impl. now intros l []. }
    destruct Hgood as [Hbl Hhc].
    assert (Hun : unfold ((if version then lit "version: 1" ++ [10%N] else []) ++ file blocks) =
                  (if version then lit "version: 1" ++ [10%N] else []) ++ file blocks).
    { destruct version; [|now apply unfold_file].
      change (lit "version: 1" ++ [10%N]) with (ended [lit "version: 1"]). rewrite unfold_ended.
      - now rewrite unfold_file.
      - constructor; [|constructor]. apply good_lit_line; reflexivity.
      - now apply file_starts. }
    assert (Hurl : has_url ((if version then lit "version: 1" ++ [10%N] else []) ++ file blocks) = false).
    { apply hc_url. destruct version; [|now apply hc_file].
      change (lit "version: 1" ++ [10%N]) with (ended [lit "version: 1"]). apply hc_ended; [|now apply hc_file].
      constructor; [reflexivity|constructor]. }
    unfold process_ldif. rewrite Hun, Hurl.
    assert (Hrun : forall fuel, List.length (file blocks) < fuel ->
       exists bs, Forall2 (fun b lines => b <> [] /\ splitlines false [] b = lines) bs blocks /\ runr (split_blocks fuel [] (file blocks)) [] = runr bs []).
    { intros fuel Hf. destruct (split_file blocks Hbl Hbne fuel Hf) as (bs & -> & F). eauto. }
    destruct version.
    - rewrite <- app_assoc. cbn [app].
      change (lit "version: 1" ++ 10%N :: file blocks) with (lit "version: 1" ++ 10%N :: file blocks).
      rewrite splitlines_line by (repeat constructor).
      cbn [rev app]. change (lit "version: 1" ++ [10%N]) with (118%N :: lit "ersion: 1" ++ [10%N]).
      rewrite clear_nothing by (reflexivity || discriminate).
      change (take_field (lit "version:") (118%N :: lit "ersion: 1" ++ [10%N])) with (Some (lit "1")). cbv iota.
      rewrite str_eqb_refl, splitlines_concat. cbn [rev app]. apply Hrun. lia.
    - cbn [app]. destruct (Hver eq_refl) as (c & l & b & rest & Eb & Hc & H35 & Hv).
      assert (Hfirst : exists x, file blocks = (c :: l) ++ 10%N :: x).
      { rewrite Eb. destruct rest as [|b2 rest]; cbn [file]; rewrite ended_cons.
        - eexists. reflexivity.
        - rewrite <- app_assoc. eexists. reflexivity. }
      destruct Hfirst as (x & E).
      assert (Hb1 : Forall (fun c => is_break c = false) (c :: l)).
      { rewrite Eb in Hbl. inversion Hbl as [|? ? [_ Hl] _]; subst. inversion Hl as [|? ? [H1 _] _]; subst. exact H1. }
      rewrite E. rewrite splitlines_line by auto. cbn [rev app].
      rewrite clear_nothing by assumption.
      assert (Hv' : starts_with (lit "version:") (c :: l ++ [10%N]) = false).
      { destruct (starts_with (lit "version:") (c :: l ++ [10%N])) eqn:Es; [|reflexivity]. apply starts_with_spec in Es as [y Ey].
        destruct (destruct_last y) as [->|(y' & z & ->)].
        - exfalso. apply (f_equal (fun s => last s 0%N)) in Ey. change (c :: l ++ [10%N]) with ((c :: l) ++ [10%N]) in Ey. rewrite last_last in Ey. discriminate.
        - exfalso. change (c :: l ++ [10%N]) with ((c :: l) ++ [10%N]) in Ey. rewrite app_assoc in Ey. apply app_inj_tail in Ey as [Ey _].
          assert (starts_with (lit "version:") (c :: l) = true) by (apply starts_with_spec; eauto). congruence. }
      unfold take_field. rewrite Hv'.
      assert (Ecat : List.concat ((c :: l ++ [10%N]) :: splitlines true [] x) = file blocks).
      { cbn [List.concat]. rewrite splitlines_concat, E. cbn [rev app]. now rewrite <- app_assoc. }
      pose proof (Hrun _ (Nat.lt_succ_diag_r _)) as R0. rewrite <- Ecat in R0. exact R0.
  Qed.

  (** good records, then one that is refused, then anything *)
  Lemma run_refused rs bad x more : Forall (rec_ok keyword) rs -> read_record bad = Raise x -> forall bs done,
    Forall2 (fun b lines => b <> [] /\ splitlines false [] b = lines) bs (map rec_lines rs ++ bad :: more) ->
    exists ops r all, Forall2 (describes utf8_decode keyword) rs ops /\ carried_out exec done ops r all /\
      runr bs done = (match r with Ok _ => Raise x | Raise y => Raise y end, all).
  Proof.
    intros H Hx. induction H as [|r rs Hr _ IH]; intros bs done F; cbn [map app] in F; inversion F as [|b lines bs' ls' [Hne Hl] F']; subst.
    - exists [], (Ok tt), done. split; [constructor|]. split; [constructor|].
      destruct b as [|c b]; [contradiction|]. cbn [run_records]. now rewrite Hx.
    - destruct (read_record_spec utf8_decode b64decode keyword default_criticality Hb Hu r Hr) as (o & Eo & Hd).
      destruct b as [|c b]; [contradiction|]. cbn [run_records]. rewrite Hl, Eo.
      destruct (exec done o) as [[]|e] eqn:Ex.
      + destruct (IH bs' (done ++ [o]) F') as (ops & r' & all & Fo & Hc & Hrun). exists (o :: ops), r', all. split; [now constructor|].
        split; [eapply co_next; eauto|exact Hrun].
      + destruct (IH bs' done F') as (ops & r' & all & Fo & _ & _).
        exists (o :: ops), (Raise e), (done ++ [o]). split; [now constructor|]. split; [now apply co_fail|reflexivity].
  Qed.
End B.
