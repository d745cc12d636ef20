(** * Proofs for Props_Ldif2 *)
From Verif Require Import PyBase Model_Uri Model_Prep Model_Ldif Spec_Ldif Spec_Ldif2 Spec_Uri Proofs_Prep Proofs_Uri
  Proofs_Ldif Proofs_Ldif2 Proofs_Ldif3 Proofs_Ldif4 Proofs_Ldif5 Proofs_Ldif6.

Lemma ends_ok_of {A} (p : A -> bool) (q : A -> Prop) s : (forall c, p c = true -> q c) -> (forall c r, s = c :: r -> ~ q c) ->
  match s with c :: _ => p c = false | [] => True end.
Proof. intros H1 H2. destruct s as [|c r]; [exact I|]. destruct (p c) eqn:E; [|reflexivity]. exfalso. eapply H2; eauto. Qed.
Lemma strip_trimmed p (q : N -> Prop) s : (forall c, p c = true -> q c) -> not_at_ends q s -> strip_by p s = s.
Proof.
  intros H [A B]. pose proof (strip_core p [] s [] (Forall_nil _) (Forall_nil _)) as G. cbn [app] in G. rewrite app_nil_r in G.
  apply G; unfold ends_ok.
  - eapply ends_ok_of; eauto.
  - eapply ends_ok_of; [exact H|]. intros c r E. apply (B c (rev r)). rewrite <- (rev_involutive s), E. reflexivity.
Qed.
Lemma strip_val_trimmed v : trimmed v -> strip_val v = v.
Proof.
  destruct v as [s|b]; cbn [trimmed strip_val]; intros H; f_equal.
  - unfold py_strip. eapply strip_trimmed; [|exact H]. auto.
  - eapply strip_trimmed; [|exact H]. intros c. unfold in_ranges, white_octet. cbn [existsb fst snd]. lia.
Qed.

Section D.
  Context (utf8_decode : list N -> option str) (b64decode : str -> res (list N)).
  Context (keyword : str -> option str) (default_criticality : bool).
  Context (Hb : b64decode_ok b64decode) (Hu : utf8_decode_ok utf8_decode).
  Notation read_add := (read_add utf8_decode b64decode).
  Notation read_controls := (read_controls utf8_decode b64decode keyword default_criticality).
  Notation read_record := (read_record utf8_decode b64decode keyword default_criticality).
  Notation maybe_base64 := (maybe_base64 utf8_decode b64decode).
  Notation rec2_ok := (rec2_ok utf8_decode keyword default_criticality).

  Lemma show_is a v : show_value a v = a ++ ch ":" :: match v with AsIs s => 32%N :: s | Base64 b => lit ": " ++ b64encode b end.
  Proof. destruct v; reflexivity. Qed.
  Lemma shown_line a v : attr_desc a -> shown_ok utf8_decode v -> good_line (show_value a v) /\
    exists c r, show_value a v = c :: r /\ sp c = false /\ c <> 35%N.
  Proof.
    intros Ha Hv. split.
    - destruct v as [s|b]; cbn [show_value shown_ok] in *.
      + apply good_pair; auto; [now apply plain_unbroken|now apply plain_hc].
      + destruct Hv as [Hv _]. change (a ++ lit ":: " ++ b64encode b) with (a ++ [58%N; 58%N] ++ 32%N :: b64encode b).
        pose proof (b64encode_class b Hv) as C. destruct Ha as [Hn Hk]. rewrite Forall_forall in Hk, C.
        assert (Hkc : forall c, key_char c = true -> is_break c = false /\ c <> 32%N /\ c <> 60%N).
        { intros c. unfold key_char, is_break, in_ranges. cbn [existsb fst snd]. lia. }
        split; [split|].
        * apply Forall_forall. intros c Hc. rewrite !in_app_iff in Hc. destruct Hc as [Hc|[Hc|Hc]].
          -- now apply Hkc, Hk.
          -- cbn in Hc. destruct Hc as [<-|[<-|[]]]; reflexivity.
          -- destruct Hc as [<-|Hc]; [reflexivity|]. now apply C, b64_class_facts in Hc.
        * destruct a as [|c a]; [contradiction|]. eexists c, _. split; [reflexivity|]. apply Hkc, Hk. now left.
        * apply hc_none. rewrite !in_app_iff. intros [Hin|[Hin|[Hin|Hin]]]; try discriminate.
          -- apply Hk, Hkc in Hin. tauto.
          -- cbn in Hin. destruct Hin as [Hin|[Hin|[]]]; discriminate.
          -- apply C, b64_class_facts in Hin. tauto.
    - destruct Ha as [Hn Hk]. destruct a as [|c a]; [contradiction|]. rewrite show_is. eexists c, _. split; [reflexivity|].
      inversion Hk as [|? ? Hc _]; subst. unfold key_char, sp, py_isspace, in_ranges in *. cbn [existsb fst snd py_space_ranges]. lia.
  Qed.

  (** the stripped line and what is read of it *)
  Lemma strip_shown a v : attr_desc a -> shown_ok utf8_decode v ->
    exists t w, py_strip (show_value a v) = a ++ ch ":" :: t /\ maybe_base64 t = Ok w /\ strip_val w = meant utf8_decode v.
  Proof.
    intros Ha Hv. assert (Hea : ends_ok sp a) by (apply (attr_tight keyword a Ha)). pose proof (proj1 Ha) as Hn.
    rewrite show_is. destruct v as [s|b]; cbn [shown_ok meant] in *.
    - exists (32%N :: s), (Text (32%N :: s)). split; [|split; [reflexivity|]].
      + apply strip_tight. change (a ++ ch ":" :: 32%N :: s) with (a ++ (ch ":" :: 32%N :: s)). apply tight_app; auto; [discriminate|].
        pose proof (plain_tight _ Hv) as [_ T]. cbn [rev]. destruct (rev s) eqn:Er; [|exact T].
        exfalso. apply (plain_nonempty _ Hv). rewrite <- (rev_involutive s), Er. reflexivity.
      + cbn [strip_val]. rewrite strip_left_space; auto. now apply plain_tight.
    - destruct Hv as [Hby Ht]. destruct (b64_stripped b Hby) as (t & Et & Es & Hcase). exists (ch ":" :: t), (decoded utf8_decode b).
      split; [|split; [|now apply strip_val_trimmed]].
      + destruct Hcase as [E|[E ->]].
        * rewrite E. apply strip_tight.
          change (a ++ ch ":" :: ch ":" :: t) with (a ++ [ch ":"] ++ (ch ":" :: t)). apply tight_app; auto; [discriminate|].
          rewrite <- E. change (lit ": ") with [58%N; 32%N]. rewrite !rev_app_distr.
          destruct (b64_tight _ Hby) as [_ T]. destruct (rev (b64encode b)) as [|d r] eqn:Er; [|exact T].
          exfalso. assert (b64encode b = []) as E0 by (rewrite <- (rev_involutive (b64encode _)), Er; reflexivity).
          rewrite E0 in E. cbn in E. injection E as E. subst t. rewrite E0 in Et. discriminate.
        * rewrite E. change (a ++ ch ":" :: lit ": " ++ []) with (a ++ [58%N; 58%N; 32%N]).
          replace (a ++ [58%N; 58%N; 32%N]) with ((a ++ [58%N; 58%N]) ++ [32%N]) by now rewrite <- app_assoc.
          apply strip_right_space. apply tight_app; auto; [discriminate|reflexivity].
      + unfold Model_Ldif.maybe_base64. rewrite N.eqb_refl. unfold Model_Ldif.handle_base64. cbn [tl]. rewrite Es.
        rewrite (Hb _ _ Hby (b64_filter _ Hby)). reflexivity.
  Qed.

  Lemma read_additions values : forall attrs,
    Forall (fun av => attr_name (fst av) /\ shown_ok utf8_decode (snd av)) values ->
    exists attrs', read_add (map (fun av => show_value (fst av) (snd av)) values) attrs = Ok attrs' /\
      forall a, dget attrs' a = match dget attrs a, values_meant utf8_decode a values with None, [] => None
                                | o, vs => Some (match o with Some l => l | None => [] end ++ vs) end.
  Proof.
    induction values as [|[a f] values IH]; intros attrs H; cbn [map Model_Ldif.read_add fst snd].
    - exists attrs. split; [reflexivity|]. intros x. unfold values_meant. cbn. destruct (dget attrs x); [now rewrite app_nil_r|reflexivity].
    - inversion H as [|? ? ([Ha Hs] & Hf) Hrest]; subst. cbn [fst snd] in *.
      destruct (shown_line a f Ha Hf) as (_ & c & r & Ec & Hc1 & Hc2).
      rewrite Ec, no_comment by auto. rewrite <- Ec.
      destruct (strip_shown a f Ha Hf) as (v & w & E & Ev & Ew). rewrite E.
      destruct (split_colon a v (attr_no_colon a Ha)) as (r' & Es & Hne). rewrite Es.
      destruct r' as [|x r']; [contradiction|].
      replace (skipn (S (List.length a)) (a ++ ch ":" :: v)) with v.
      2:{ change (a ++ ch ":" :: v) with (a ++ [ch ":"] ++ v). rewrite app_assoc. rewrite skipn_app.
          rewrite skipn_all2 by (rewrite app_length; cbn; lia). rewrite app_length. cbn [List.length].
          replace (S (List.length a) - (List.length a + 1)) with 0 by lia. reflexivity. }
      rewrite Ev. cbn [bind]. rewrite no_semicolon by auto. cbn [List.length Nat.ltb Nat.leb]. rewrite Ew.
      edestruct IH as (attrs' & E' & Hd); [exact Hrest|]. exists attrs'. split; [exact E'|].
      intros y. rewrite Hd, dget_dset. unfold values_meant. cbn [List.filter fst snd]. destruct (str_eqb_spec a y) as [->|Hne'].
      + cbn [map snd]. destruct (dget attrs y); rewrite <- app_assoc; reflexivity.
      + reflexivity.
  Qed.

  (** controls that are passed over make no difference *)
  Lemma controls_filtered cs :
    Forall (fun c => dotted (fst (fst c)) /\ Forall (fun x => (x < 256)%N) (snd c) /\
                     (has_keyword keyword c = true \/ passed_over keyword default_criticality c)) cs ->
    forall rest ctls, rest <> [] ->
    read_controls (map ctl_line cs ++ rest) ctls = read_controls (map ctl_line (List.filter (has_keyword keyword) cs) ++ rest) ctls.
  Proof.
    induction 1 as [|[[oid crit] b] cs (Hd & Hby & Hk) _ IH]; intros rest ctls Hr; [reflexivity|]. cbn [fst snd] in *.
    destruct (ctl_line_shape keyword oid crit b Hd Hby) as (x & y & E & F).
    assert (Hne : forall l, map ctl_line l ++ rest <> []) by (intros l; destruct l; [exact Hr|discriminate]).
    assert (Hst : starts_with (lit "control:") (ctl_line (oid, crit, b)) = true).
    { apply starts_with_spec. exists (32%N :: oid ++ crit_text crit ++ lit ":: " ++ b64encode b). reflexivity. }
    destruct (has_keyword keyword (oid, crit, b)) eqn:Ek.
    - cbn [List.filter]. rewrite Ek. cbn [map app]. unfold has_keyword in Ek. cbn [fst] in Ek.
      destruct (keyword oid) as [[|k0 kw]|] eqn:Ekw; try discriminate.
      rewrite !(read_controls_step utf8_decode b64decode keyword default_criticality _ _ _ oid crit (58%N :: x :: y) b (k0 :: kw)); auto;
        try (rewrite E; now apply control_re_spec); try discriminate.
    - cbn [List.filter]. rewrite Ek. cbn [map app]. destruct Hk as [Hk|Hp]; [discriminate|].
      rewrite <- IH by exact Hr. destruct (map ctl_line cs ++ rest) as [|l2 rest2] eqn:Er; [now apply Hne in Er|].
      cbn [Model_Ldif.read_controls]. rewrite Hst, E, (control_re_spec keyword) by exact Hd.
      unfold Model_Ldif.handle_base64. cbn [tl]. rewrite (Hb _ _ Hby F). cbn [bind].
      destruct Hp as [Hp|[Hp Hc]]; cbn [fst snd] in *; rewrite Hp; [reflexivity|].
      destruct Hc as [->|[-> ->]]; reflexivity.
  Qed.
  Lemma filtered_ok cs :
    Forall (fun c => dotted (fst (fst c)) /\ Forall (fun x => (x < 256)%N) (snd c) /\
                     (has_keyword keyword c = true \/ passed_over keyword default_criticality c)) cs ->
    Forall (fun c => dotted (fst (fst c)) /\ Forall (fun x => (x < 256)%N) (snd c) /\
                     exists kw, keyword (fst (fst c)) = Some kw /\ kw <> []) (List.filter (has_keyword keyword) cs).
  Proof.
    rewrite !Forall_forall. intros H c Hc. apply filter_In in Hc as [Hin Hk]. destruct (H c Hin) as (A & B & _).
    split; [exact A|]. split; [exact B|]. unfold has_keyword in Hk. destruct (keyword (fst (fst c))) as [[|k kw]|]; try discriminate.
    eexists. split; [reflexivity|discriminate].
  Qed.
  Lemma change2_nonempty c : change2_lines c <> []. Proof. destruct c as [|[]]; discriminate. Qed.
  Lemma change_clear c : clear_comments (change_lines c) = change_lines c.
  Proof. destruct c; reflexivity. Qed.

  Lemma read_record2 r : rec2_ok r -> exists o, read_record (rec2_lines r) = Ok o /\ describes2 utf8_decode keyword r o.
  Proof.
    destruct r as [dn cs c]. unfold Spec_Ldif2.rec2_ok, describes2, rec2_lines. cbn [q_dn q_ctls q_change]. intros (Hdn & Hch & Hctl & Hnd).
    destruct c as [values|c].
    - rewrite (read_dn utf8_decode b64decode keyword default_criticality Hb Hu) by exact Hdn.
      cbn [change2_lines]. rewrite ctl_clear by reflexivity. rewrite (controls_filtered cs Hctl) by discriminate.
      destruct (read_controls_spec utf8_decode b64decode keyword default_criticality Hb _ (filtered_ok cs Hctl) Hnd
        (lit "changetype: add" :: map (fun av => show_value (fst av) (snd av)) values) []) as (ctls & -> & Hs).
      { discriminate. }
      { intros l rest E. injection E as <- _. reflexivity. }
      { reflexivity. }
      cbn [bind app].
      change (take_field (lit "changetype:") (lit "changetype: add")) with (Some (lit "add")). cbv iota zeta.
      assert (E2 : clear_comments (map (fun av => show_value (fst av) (snd av)) values) = map (fun av => show_value (fst av) (snd av)) values).
      { destruct values as [|[a f] values]; [reflexivity|]. cbn [map fst snd]. inversion Hch as [|? ? ([Ha _] & Hf) _]; subst.
        destruct (shown_line a f Ha Hf) as (_ & c' & t' & Ec' & Hc1' & Hc2'). rewrite Ec'. now rewrite clear_nothing. }
      rewrite E2, str_eqb_refl. destruct (read_additions values [] Hch) as (attrs & Ea & Hd). rewrite Ea. cbn [bind].
      eexists. split; [reflexivity|]. exists attrs, ctls. split; [exact Hs|]. split; [reflexivity|].
      intros a. rewrite Hd. cbn [dget]. destruct (values_meant utf8_decode a values); reflexivity.
    - destruct (read_record_spec utf8_decode b64decode keyword default_criticality Hb Hu
        (mk_rec dn (List.filter (has_keyword keyword) cs) c)) as (o & Eo & Hd).
      { split; [exact Hdn|]. split; [exact Hch|]. split; [now apply filtered_ok|exact Hnd]. }
      exists o. split; [|exact Hd]. rewrite <- Eo. unfold rec_lines. cbn [r_dn r_ctls r_change change2_lines].
      rewrite !(read_dn utf8_decode b64decode keyword default_criticality Hb Hu) by exact Hdn.
      rewrite !ctl_clear by apply change_clear.
      rewrite (controls_filtered cs Hctl); [reflexivity|]. apply (change2_nonempty (Other c)).
  Qed.

  Lemma good_rec2 r : rec2_ok r -> rec2_lines r <> [] /\ Forall good_line (rec2_lines r).
  Proof.
    intros (Hdn & Hch & Hctl & Hnd). split; [discriminate|]. unfold rec2_lines. constructor.
    { apply (good_show keyword); auto. apply dn_desc. }
    apply Forall_app. split.
    - clear - Hctl. induction Hctl as [|[[oid crit] b] cs (Hd & Hby & _) _ IH]; [constructor|]. cbn [map]. constructor; [|exact IH].
      (* one control line is a line of a record with the keyword made up *)
      destruct (good_rec (fun _ => Some (lit "k")) (mk_rec (mk_fld (lit "a") true) [(oid, crit, b)] CDelete)) as [_ G].
      + split; [|split; [exact I|split]].
        * cbn. constructor; [|constructor]. left. reflexivity.
        * constructor; [|constructor]. split; [exact Hd|]. split; [exact Hby|]. eexists. split; [reflexivity|discriminate].
        * cbn. constructor; [intros []|constructor].
      + unfold rec_lines in G. cbn [r_ctls map app] in G. inversion G as [|? ? _ G2]; subst. inversion G2; assumption.
    - destruct (q_change r) as [values|c]; cbn [change2_lines].
      + constructor; [apply good_lit_line; reflexivity|]. rewrite Forall_map. revert Hch. apply Forall_impl.
        intros [a v] [[Ha _] Hv]. now apply shown_line.
      + destruct (good_rec keyword (mk_rec (q_dn r) [] c)) as [_ G].
        { split; [exact Hdn|]. split; [exact Hch|]. split; constructor. }
        unfold rec_lines in G. cbn [r_ctls map app] in G. now inversion G.
  Qed.

  Context (exec : list op -> op -> res unit) (fetch_error : str -> exn).
  Notation process := (process_ldif utf8_decode b64decode keyword default_criticality exec fetch_error).
  Notation runr := (run_records utf8_decode b64decode keyword default_criticality exec).
  Lemma run_records2 rs : Forall rec2_ok rs -> forall bs done,
    Forall2 (fun b lines => b <> [] /\ splitlines false [] b = lines) bs (map rec2_lines rs) ->
    exists ops, Forall2 (describes2 utf8_decode keyword) rs ops /\
      let (r, all) := runr bs done in carried_out exec done ops r all.
  Proof.
    induction 1 as [|r rs Hr _ IH]; intros bs done F; cbn [map] in F; inversion F as [|b lines bs' ls' [Hne Hl] F']; subst.
    - exists []. split; [constructor|]. constructor.
    - destruct (read_record2 r Hr) as (o & Eo & Hd).
      destruct b as [|c b]; [contradiction|]. cbn [run_records]. rewrite Hl, Eo.
      destruct (exec done o) as [[]|e] eqn:Ex.
      + destruct (IH bs' (done ++ [o]) F') as (ops & Fo & Hrun). exists (o :: ops). split; [now constructor|].
        destruct (runr bs' (done ++ [o])) as [res all]. eapply co_next; eauto.
      + destruct (IH bs' done F') as (ops & Fo & _). exists (o :: ops). split; [now constructor|]. now apply co_fail.
  Qed.

  Lemma process2 rs (version : bool) text : Forall rec2_ok rs -> rs <> [] ->
    refolds (vline version ++ file (map rec2_lines rs)) text ->
    exists ops, Forall2 (describes2 utf8_decode keyword) rs ops /\
      let (r, all) := process text in carried_out exec [] ops r all.
  Proof.
    intros H Hne Hf. set (blocks := map rec2_lines rs) in *.
    assert (Hg : Forall (fun b => b <> [] /\ Forall good_line b) blocks).
    { subst blocks. rewrite Forall_map. revert H. apply Forall_impl. intros r. apply good_rec2. }
    destruct (clean_blocks [] version blocks (Forall_nil _) Hg) as (Hun & _ & _ & _ & Hcr). change (ended []) with (@nil N) in *. cbn [app] in *.
    rewrite (process_same _ _ _ _ _ _ (vline version ++ file blocks) text) by (rewrite (refolds_unfold _ _ Hf Hcr Hun); symmetry; exact Hun).
    destruct (process_file utf8_decode b64decode keyword default_criticality exec fetch_error blocks version) as (bs & F & E).
    - revert Hg. apply Forall_impl. now intros b [].
    - revert Hg. apply Forall_impl. now intros b [].
    - subst blocks. destruct rs; [contradiction|discriminate].
    - intros ->. destruct rs as [|r rs]; [contradiction|].
      exists 100%N, (tl (show (lit "dn") (q_dn r))), (map ctl_line (q_ctls r) ++ change2_lines (q_change r)), (map rec2_lines rs).
      assert (E : show (lit "dn") (q_dn r) = 100%N :: tl (show (lit "dn") (q_dn r))) by (unfold show; destruct (f_b64 (q_dn r)); reflexivity).
      split; [subst blocks; cbn [map]; unfold rec2_lines at 1; now rewrite E at 1|]. split; [reflexivity|]. split; [discriminate|]. reflexivity.
    - change (process (vline version ++ file blocks)) with (process ((if version then lit "version: 1" ++ [10%N] else []) ++ file blocks)).
      rewrite E. now apply run_records2.
  Qed.
End D.
