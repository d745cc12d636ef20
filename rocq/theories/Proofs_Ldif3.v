(** * Proofs about reading one LDIF change record *)
From Verif Require Import PyBase Model_Uri Model_Prep Model_Ldif Spec_Ldif Spec_Uri Proofs_Prep Proofs_Uri Proofs_Ldif Proofs_Ldif2.

(** ** Stripping *)
Definition sp := py_isspace.
Lemma sp_32 : Forall (fun c => sp c = true) [32%N]. Proof. constructor; [reflexivity|constructor]. Qed.

Definition tight (s : str) : Prop := ends_ok sp s /\ ends_ok sp (rev s).
Lemma strip_tight s : tight s -> py_strip s = s.
Proof. intros [A B]. pose proof (strip_core sp [] s [] (Forall_nil _) (Forall_nil _) A B) as H. cbn [app] in H. now rewrite app_nil_r in H. Qed.
Lemma strip_left_space s : tight s -> py_strip (32%N :: s) = s.
Proof.
  intros [A B]. pose proof (strip_core sp [32%N] s [] sp_32 (Forall_nil _) A B) as H. cbn [app] in H. now rewrite app_nil_r in H.
Qed.
Lemma strip_right_space s : tight s -> py_strip (s ++ [32%N]) = s.
Proof. intros [A B]. exact (strip_core sp [] s [32%N] (Forall_nil _) sp_32 A B). Qed.

Lemma tight_app a b : a <> [] -> b <> [] -> ends_ok sp a -> ends_ok sp (rev b) -> tight (a ++ b).
Proof.
  intros Ha Hb H1 H2. split.
  - destruct a; [contradiction|exact H1].
  - rewrite rev_app_distr. destruct (rev b) eqn:E; [|exact H2]. exfalso. apply Hb. rewrite <- (rev_involutive b), E. reflexivity.
Qed.
Lemma tight_head c l : tight (c :: l) -> sp c = false.
Proof. intros [H _]. exact H. Qed.

Lemma break_line c : is_break c = line_break c.
Proof. unfold is_break, line_break, in_ranges. cbn [existsb fst snd]. lia. Qed.
Lemma plain_unbroken s : plain_text s -> Forall (fun c => is_break c = false) s.
Proof. intros (_ & _ & H & _). revert H. apply Forall_impl. intros c. now rewrite break_line. Qed.
Lemma plain_tight s : plain_text s -> tight s.
Proof.
  intros ((c & r & E & Hc & _) & (d & t & E2 & Hd) & _). split.
  - rewrite E. exact Hc.
  - rewrite E2, rev_app_distr. exact Hd.
Qed.
Lemma plain_nonempty s : plain_text s -> s <> [].
Proof. intros ((c & r & -> & _) & _). discriminate. Qed.
Lemma plain_hc s : plain_text s -> hc s = false.
Proof.
  intros (_ & _ & _ & H). destruct (hc s) eqn:E; [|reflexivity]. apply hc_iff in E as (a & b & E). exfalso. exact (H a b E).
Qed.

Lemma strip_head c l : sp c = false -> exists t, py_strip (c :: l) = c :: t.
Proof.
  intros Hc. destruct (strip_decomp sp (c :: l)) as (a & core & b & E & Es & Ha & Hb & H1 & H2).
  unfold py_strip. fold sp. rewrite Es. destruct a as [|x a].
  - destruct core as [|y core].
    + cbn [app] in E. destruct b as [|z b]; [discriminate|]. injection E as <- _. inversion Hb; congruence.
    + injection E as <- _. eauto.
  - injection E as <- _. inversion Ha; congruence.
Qed.

Lemma no_comment c l : sp c = false -> c <> 35%N -> starts_with (lit "#") (py_strip (c :: l)) = false.
Proof.
  intros H1 H2. destruct (strip_head c l H1) as [t ->]. destruct (starts_with (lit "#") (c :: t)) eqn:E; [|reflexivity].
  apply starts_with_spec in E as [r E]. injection E as E _. contradiction.
Qed.
Lemma clear_nothing c l r : sp c = false -> c <> 35%N -> clear_comments ((c :: l) :: r) = (c :: l) :: r.
Proof. intros H1 H2. cbn [clear_comments]. now rewrite no_comment. Qed.

(** ** Base64 texts *)
Lemma b64_class_facts c : b64_class c -> sp c = false /\ is_break c = false /\ c <> 60%N /\ is_b64 c = true /\ c <> 32%N /\ c <> 58%N.
Proof. unfold b64_class, sp, py_isspace, is_break, is_b64, in_ranges. cbn [existsb fst snd py_space_ranges]. lia. Qed.
Lemma b64_tight b : Forall (fun c => (c < 256)%N) b -> tight (b64encode b).
Proof.
  intros H. pose proof (b64encode_class b H) as C.
  assert (G : forall s, Forall b64_class s -> ends_ok sp s).
  { intros s Hs. destruct Hs as [|c s Hc _]; [exact I|]. now apply b64_class_facts. }
  split; apply G; [exact C|now apply Forall_rev].
Qed.
Lemma b64_filter b : Forall (fun c => (c < 256)%N) b -> List.filter is_b64 (b64encode b) = b64encode b.
Proof.
  intros H. pose proof (b64encode_class b H) as C. induction C as [|c s Hc _ IH]; [reflexivity|].
  cbn [List.filter]. rewrite (proj1 (proj2 (proj2 (proj2 (b64_class_facts c Hc))))). now f_equal.
Qed.
Lemma scalar_small s : Forall scalar s -> Forall (fun c => (c < 1114112)%N) s.
Proof. apply Forall_impl. intros c [H|H]; lia. Qed.
Lemma scalar_bytes s : Forall scalar s -> Forall (fun c => (c < 256)%N) (utf8 s).
Proof. intros H. apply utf8_bytes. now apply scalar_small. Qed.

Section R.
  Context (utf8_decode : list N -> option str) (b64decode : str -> res (list N)).
  Context (keyword : str -> option str) (default_criticality : bool).
  Context (Hb : b64decode_ok b64decode) (Hu : utf8_decode_ok utf8_decode).
  Notation maybe_base64 := (maybe_base64 utf8_decode b64decode).
  Notation handle_base64 := (handle_base64 utf8_decode b64decode).

  (** what follows the name and its first colon, stripped *)
  Definition field_rest (f : fld) : str :=
    if f_b64 f then lit ": " ++ b64encode (utf8 (f_text f)) else 32%N :: f_text f.
  Lemma show_rest name f : show name f = name ++ ch ":" :: field_rest f.
  Proof. unfold show, field_rest. destruct (f_b64 f); reflexivity. Qed.

  Lemma b64_stripped b : Forall (fun c => (c < 256)%N) b ->
    exists t, py_strip (lit ": " ++ b64encode b) = ch ":" :: t /\ py_strip t = b64encode b /\
              (lit ": " ++ b64encode b = ch ":" :: t \/ (b64encode b = [] /\ t = [])).
  Proof.
    intros H. pose proof (b64_tight b H) as T. destruct (b64encode b) as [|c r] eqn:E.
    - exists []. split; [reflexivity|]. split; [reflexivity|auto].
    - exists (32%N :: c :: r). split; [|split; [now apply strip_left_space|auto]].
      apply strip_tight. apply (tight_app (lit ": ") (c :: r)); try discriminate; [reflexivity|apply T].
  Qed.

  Lemma field_value f : fld_ok f -> maybe_base64 (py_strip (field_rest f)) = Ok (Text (f_text f)).
  Proof.
    unfold fld_ok, field_rest. destruct (f_b64 f); intros H.
    - destruct (b64_stripped _ (scalar_bytes _ H)) as (t & -> & Et & _). unfold Model_Ldif.maybe_base64.
      rewrite N.eqb_refl. unfold Model_Ldif.handle_base64. cbn [tl]. rewrite Et.
      rewrite (Hb _ _ (scalar_bytes _ H) (b64_filter _ (scalar_bytes _ H))). cbn [bind]. now rewrite Hu.
    - rewrite strip_left_space by now apply plain_tight. destruct H as ((c & r & -> & Hc & Hne) & _).
      unfold Model_Ldif.maybe_base64. apply N.eqb_neq in Hne. now rewrite Hne.
  Qed.

  Lemma take_show token name f : token = name ++ lit ":" -> take_field token (show name f) = Some (py_strip (field_rest f)).
  Proof.
    intros ->. unfold take_field. rewrite show_rest.
    assert (starts_with (name ++ lit ":") (name ++ ch ":" :: field_rest f) = true) as ->.
    { apply starts_with_spec. exists (field_rest f). now rewrite <- app_assoc. }
    do 2 f_equal. rewrite app_length. change (name ++ ch ":" :: field_rest f) with (name ++ [ch ":"] ++ field_rest f).
    rewrite app_assoc. rewrite skipn_app. rewrite skipn_all2 by (rewrite app_length; reflexivity || cbn; lia).
    rewrite app_length. cbn [List.length lit app]. rewrite Nat.sub_diag. reflexivity.
  Qed.

  (** lines are well formed *)
  Lemma show_line name f : fld_ok f -> attr_desc name -> line_ok (show name f) /\ hc (show name f) = false /\
    exists c r, show name f = c :: r /\ sp c = false /\ c <> 35%N.
  Proof.
    intros Hf [Hn Hk]. rewrite show_rest.
    assert (Hkc : forall c, key_char c = true -> is_break c = false /\ sp c = false /\ c <> 35%N /\ c <> 60%N /\ c <> 32%N).
    { intros c. unfold key_char, is_break, sp, py_isspace, in_ranges. cbn [existsb fst snd py_space_ranges]. lia. }
    assert (Hbr : Forall (fun c => is_break c = false) (field_rest f) /\ hc (ch ":" :: field_rest f) = false).
    { unfold fld_ok, field_rest in *. destruct (f_b64 f).
      - pose proof (b64encode_class _ (scalar_bytes _ Hf)) as C. split.
        + change (lit ": ") with [58%N; 32%N]. cbn [app]. constructor; [reflexivity|]. constructor; [reflexivity|].
          eapply Forall_impl; [|exact C]. intros c Hc. now apply b64_class_facts.
        + apply hc_none. change (lit ": ") with [58%N; 32%N]. cbn [app]. intros [H|[H|[H|H]]]; try discriminate.
          rewrite Forall_forall in C. apply C, b64_class_facts in H. tauto.
      - split.
        + constructor; [reflexivity|]. apply plain_unbroken, Hf.
        + change (ch ":" :: 32%N :: f_text f) with ([ch ":"] ++ 32%N :: f_text f). rewrite hc_sep by discriminate.
          rewrite (plain_hc (f_text f)) by exact Hf. reflexivity. }
    destruct Hbr as [B1 B2]. rewrite Forall_forall in Hk. split; [split|split].
    - apply Forall_app. split; [|constructor; auto]. apply Forall_forall. intros c Hc. apply Hkc. auto.
    - destruct name as [|c name]; [contradiction|]. exists c, (name ++ ch ":" :: field_rest f). split; [reflexivity|].
      apply Hkc. apply Hk. now left.
    - assert (G : forall nm, (forall c, In c nm -> key_char c = true) -> hc (nm ++ ch ":" :: field_rest f) = false).
      { induction nm as [|c nm IH]; intros Hnm; cbn [app]; [exact B2|]. cbn [hc]. rewrite IH by (intros; apply Hnm; now right).
        rewrite orb_false_r. specialize (Hnm c (or_introl eq_refl)).
        assert (N.eqb c 58 = false) as -> by (apply N.eqb_neq; unfold key_char in Hnm; lia). reflexivity. }
      apply G. auto.
    - destruct name as [|c name]; [contradiction|]. exists c, (name ++ ch ":" :: field_rest f). split; [reflexivity|].
      destruct (Hkc c (Hk c (or_introl eq_refl))) as (_ & ? & ? & _). auto.
  Qed.

  (** ** Additions *)
  Lemma split_colon a v : ~ In (ch ":") a -> exists r, py_split (lit ":") (a ++ ch ":" :: v) = a :: r /\ r <> [].
  Proof.
    intros H. pose proof (py_split_first (ch ":") [] a v H) as E. cbn [app] in E. exists (py_split [ch ":"] v). split; [exact E|].
    apply py_split_nonempty.
  Qed.
  Lemma no_semicolon a : ~ In (ch ";") a -> py_split (lit ";") a = [a].
  Proof.
    intros H. apply py_split_none; [discriminate|]. intros (x & y & E). apply H. rewrite E, !in_app_iff. right; left. now left.
  Qed.
  Lemma attr_no_colon a : attr_desc a -> ~ In (ch ":") a.
  Proof. intros H Hin. apply attr_desc_plain in H as [_ H]. apply H in Hin as (_ & _ & _ & Hin). now apply Hin. Qed.

  (** the stripped line and its value part *)
  Lemma strip_show a f : attr_desc a -> fld_ok f ->
    exists v, py_strip (show a f) = a ++ ch ":" :: v /\ maybe_base64 v = Ok (Text (f_text f)) \/
    (py_strip (show a f) = a ++ ch ":" :: v /\ v = 32%N :: f_text f /\ f_b64 f = false).
  Proof.
    intros [Hn Hk] Hf.
    assert (Ha : ends_ok sp a).
    { destruct a as [|c a]; [contradiction|]. inversion Hk as [|? ? Hc _]; subst. cbn.
      unfold key_char, sp, py_isspace, in_ranges in *. cbn [existsb fst snd py_space_ranges]. lia. }
    rewrite show_rest. pose proof (field_value f Hf) as Hv.
    unfold field_rest in *. unfold fld_ok in Hf. destruct (f_b64 f) eqn:Eb.
    - destruct (b64_stripped _ (scalar_bytes _ Hf)) as (t & Et & Es & Hcase). exists (ch ":" :: t). left. split; [|now rewrite <- Et].
      destruct Hcase as [E|[E ->]].
      + rewrite E. apply strip_tight. rewrite Et in Hv. clear Hv.
        change (a ++ ch ":" :: ch ":" :: t) with (a ++ [ch ":"] ++ (ch ":" :: t)). apply tight_app; auto; [discriminate|].
        rewrite <- E. change (lit ": ") with [58%N; 32%N]. rewrite !rev_app_distr.
        destruct (b64_tight _ (scalar_bytes _ Hf)) as [_ T]. destruct (rev (b64encode (utf8 (f_text f)))) as [|d r] eqn:Er; [|exact T].
        exfalso. assert (b64encode (utf8 (f_text f)) = []) as E0 by (rewrite <- (rev_involutive (b64encode _)), Er; reflexivity).
        rewrite E0 in E. cbn in E. injection E as E. subst t. rewrite E0 in Et. discriminate.
      + rewrite E. change (a ++ ch ":" :: lit ": " ++ []) with (a ++ [58%N; 58%N; 32%N]).
        replace (a ++ [58%N; 58%N; 32%N]) with ((a ++ [58%N; 58%N]) ++ [32%N]) by now rewrite <- app_assoc.
        apply strip_right_space. apply tight_app; auto; [discriminate|reflexivity].
    - exists (32%N :: f_text f). right. split; [|auto]. apply strip_tight.
      change (a ++ ch ":" :: 32%N :: f_text f) with (a ++ (ch ":" :: 32%N :: f_text f)). apply tight_app; auto; [discriminate|].
      pose proof (plain_tight _ Hf) as [_ T]. cbn [rev]. destruct (rev (f_text f)) eqn:Er; [|exact T].
      exfalso. apply (plain_nonempty _ Hf). rewrite <- (rev_involutive (f_text f)), Er. reflexivity.
  Qed.

  Lemma read_add_spec values : forall attrs,
    Forall (fun av => attr_name (fst av) /\ fld_ok (snd av) /\ py_strip (f_text (snd av)) = f_text (snd av)) values ->
    exists attrs', read_add utf8_decode b64decode (map (fun av => show (fst av) (snd av)) values) attrs = Ok attrs' /\
      forall a, dget attrs' a = match dget attrs a, values_of a values with None, [] => None
                                | o, vs => Some (match o with Some l => l | None => [] end ++ vs) end.
  Proof.
    induction values as [|[a f] values IH]; intros attrs H; cbn [map read_add fst snd].
    - exists attrs. split; [reflexivity|]. intros x. unfold values_of. cbn. destruct (dget attrs x); [now rewrite app_nil_r|reflexivity].
    - inversion H as [|? ? ([Ha Hs] & Hf & Hst) Hrest]; subst. cbn [fst snd] in *.
      destruct (show_line a f Hf Ha) as (_ & _ & c & r & Ec & Hc1 & Hc2).
      rewrite Ec, no_comment by auto. rewrite <- Ec.
      assert (G : exists v w, py_strip (show a f) = a ++ ch ":" :: v /\ maybe_base64 v = Ok w /\ strip_val w = Text (f_text f)).
      { destruct (strip_show a f Ha Hf) as (v & [(E & Ev)|(E & -> & Eb)]).
        - exists v, (Text (f_text f)). repeat split; auto. cbn [strip_val]. now rewrite Hst.
        - exists (32%N :: f_text f), (Text (32%N :: f_text f)). repeat split; auto.
          cbn [strip_val]. unfold fld_ok in Hf. rewrite Eb in Hf. rewrite strip_left_space; auto. now apply plain_tight. }
      destruct G as (v & w & E & Ev & Ew). rewrite E.
      destruct (split_colon a v (attr_no_colon a Ha)) as (r' & Es & Hne). rewrite Es.
      destruct r' as [|x r']; [contradiction|].
      replace (skipn (S (List.length a)) (a ++ ch ":" :: v)) with v.
      2:{ change (a ++ ch ":" :: v) with (a ++ [ch ":"] ++ v). rewrite app_assoc. rewrite skipn_app.
          rewrite skipn_all2 by (rewrite app_length; cbn; lia). rewrite app_length. cbn [List.length].
          replace (S (List.length a) - (List.length a + 1)) with 0 by lia. reflexivity. }
      rewrite Ev. cbn [bind]. rewrite no_semicolon by auto. cbn [List.length Nat.ltb Nat.leb]. rewrite Ew.
      edestruct IH as (attrs' & E' & Hd); [exact Hrest|]. exists attrs'. split; [exact E'|].
      intros y. rewrite Hd, dget_dset. unfold values_of. cbn [List.filter fst snd]. destruct (str_eqb_spec a y) as [->|Hn].
      + cbn [map snd]. destruct (dget attrs y); rewrite <- app_assoc; reflexivity.
      + reflexivity.
  Qed.

  (** ** Modifications *)
  Lemma split_two a v : ~ In (ch ":") a -> ~ In (ch ":") v -> py_split (lit ":") (a ++ lit ": " ++ v) = [a; 32%N :: v].
  Proof.
    intros H1 H2. pose proof (py_split_first (ch ":") [] a (32%N :: v) H1) as E. cbn [app] in E.
    change (a ++ lit ": " ++ v) with (a ++ ch ":" :: 32%N :: v). change (lit ":") with [ch ":"]. rewrite E. f_equal. apply py_split_none; [discriminate|].
    intros (x & y & E2). apply H2. destruct x as [|z x]; cbn [app] in E2.
    - discriminate.
    - injection E2 as _ ->. rewrite in_app_iff. right. now left.
  Qed.
  Lemma attr_tight a : attr_desc a -> tight a.
  Proof.
    intros [Hn Hk]. assert (G : forall s, Forall (fun c => key_char c = true) s -> ends_ok sp s).
    { intros s Hs. destruct Hs as [|c s Hc _]; [exact I|]. cbn.
      unfold key_char, sp, py_isspace, in_ranges in *. cbn [existsb fst snd py_space_ranges]. lia. }
    split; apply G; auto. now apply Forall_rev.
  Qed.
  Lemma pair_tight a v : attr_desc a -> v <> [] -> tight v -> tight (a ++ lit ": " ++ v).
  Proof.
    intros Ha Hv [_ T]. change (a ++ lit ": " ++ v) with (a ++ ([58%N; 32%N] ++ v)). apply tight_app.
    - apply Ha.
    - discriminate.
    - apply (attr_tight a Ha).
    - rewrite rev_app_distr. destruct (rev v) eqn:Er; [|exact T]. exfalso. apply Hv. rewrite <- (rev_involutive v), Er. reflexivity.
  Qed.
  Lemma pair_no_comment a v : attr_desc a -> starts_with (lit "#") (a ++ lit ": " ++ v) = false.
  Proof.
    intros [Hn Hk]. destruct a as [|c a]; [contradiction|]. destruct (starts_with _ _) eqn:E; [|reflexivity].
    apply starts_with_spec in E as [r E]. injection E as E _. subst c. inversion Hk as [|? ? Hc _]; subst. discriminate.
  Qed.
  Lemma attr_name_desc a : attr_name a -> attr_desc a. Proof. now intros []. Qed.
  Lemma mod_name_desc o : attr_desc (mod_name o).
  Proof. destruct o; (split; [discriminate|]); repeat constructor. Qed.
  Lemma mod_name_string o : mod_string (mod_name o) = Ok o. Proof. destruct o; reflexivity. Qed.

  Lemma read_values o a vs : attr_name a -> Forall (fun v => plain_text v /\ ~ In (ch ":") v) vs ->
    forall rest vals mods,
    read_modify (map (fun v => a ++ lit ": " ++ v) vs ++ rest) (Some (o, a)) vals mods =
    read_modify rest (Some (o, a)) (vals ++ map Text vs) mods.
  Proof.
    intros Ha. pose proof (attr_name_desc a Ha) as Had. induction 1 as [|v vs [Hp Hv] _ IH]; intros rest vals mods; cbn [map app].
    - now rewrite app_nil_r.
    - cbn [read_modify]. rewrite strip_tight by (apply pair_tight; auto; [now apply plain_nonempty|now apply plain_tight]).
      rewrite pair_no_comment by auto.
      assert (str_eqb (a ++ lit ": " ++ v) (lit "-") = false) as ->.
      { apply str_eqb_neq. intros E. destruct a as [|c [|d a]]; [now apply Had| |]; cbn in E; discriminate. }
      assert (starts_with a (a ++ lit ": " ++ v) = true) as -> by (apply starts_with_spec; eauto).
      rewrite split_two by (auto using attr_no_colon). rewrite no_semicolon by apply Ha. cbn [List.length Nat.ltb Nat.leb].
      rewrite strip_left_space by now apply plain_tight. rewrite IH. now rewrite <- app_assoc.
  Qed.

  Lemma read_modify_spec mods :
    Forall (fun m => attr_name (snd (fst m)) /\ (fst (fst m) = MAdd -> snd m <> []) /\
                     Forall (fun v => plain_text v /\ ~ In (ch ":") v) (snd m)) mods ->
    forall acc, read_modify (List.concat (map mod_lines mods)) None [] acc = Ok (acc ++ map (fun m => (fst m, map Text (snd m))) mods).
  Proof.
    induction 1 as [|[[o a] vs] mods (Ha & Hadd & Hvs) _ IH]; intros acc; cbn [map List.concat fst snd] in *.
    - cbn [read_modify]. now rewrite app_nil_r.
    - pose proof (attr_name_desc a Ha) as Had. cbn [mod_lines app]. cbn [read_modify].
      rewrite strip_tight by (apply pair_tight; [apply mod_name_desc|apply Had|now apply attr_tight]).
      rewrite pair_no_comment by apply mod_name_desc.
      rewrite split_two by (apply attr_no_colon; auto using mod_name_desc). rewrite mod_name_string. cbn [bind].
      rewrite strip_left_space by now apply attr_tight.
      rewrite <- app_assoc, read_values by auto. cbn [app]. cbn [read_modify].
      change (py_strip (lit "-")) with (lit "-"). change (starts_with (lit "#") (lit "-")) with false.
      cbv iota. rewrite str_eqb_refl.
      assert (one_mod o a (map Text vs) = Ok [(o, a, map Text vs)]) as ->.
      { unfold one_mod. destruct o; auto. destruct vs; [now specialize (Hadd eq_refl)|reflexivity]. }
      cbn [bind]. rewrite IH. now rewrite <- app_assoc.
  Qed.

  (** ** Controls *)
  Lemma dec_decimal c : is_dec c = ascii_decimal c.
  Proof. reflexivity. Qed.
  Lemma span_digits_spec a r : Forall (fun c => is_dec c = true) a -> (match r with c :: _ => is_dec c = false | [] => True end) ->
    span_digits (a ++ r) = (a, r).
  Proof.
    induction 1 as [|c a Hc _ IH]; intros Hr; cbn [app].
    - destruct r as [|c r]; [reflexivity|]. cbn [span_digits]. now rewrite Hr.
    - cbn [span_digits]. now rewrite Hc, IH.
  Qed.
  Lemma span_oid_spec oid : dotted oid -> forall r fuel, (match r with c :: _ => is_dec c = false /\ c <> 46%N | [] => True end) ->
    List.length oid < fuel -> exists n, span_oid fuel (oid ++ r) = Some (S n, oid, r).
  Proof.
    change (ch ".") with 46%N in *.
    induction 1 as [a b Ha Hb' Fa Fb|a b Ha Fa _ IH]; intros r fuel Hr Hf; rewrite app_length in Hf; change (ch ".") with 46%N in *;
      cbn [List.length] in Hf; (destruct fuel as [|fuel]; [lia|]); cbn [span_oid]; rewrite <- app_assoc; cbn [app];
      rewrite span_digits_spec by (auto; reflexivity); (destruct a as [|x a]; [contradiction|]).
    - cbv iota. assert (E : span_oid fuel (b ++ r) = Some (0, b, r)).
      { destruct fuel as [|fuel]; [destruct b; cbn in Hf; lia|]. cbn [span_oid]. rewrite span_digits_spec; auto.
        - destruct b as [|y b]; [contradiction|]. destruct r as [|z r]; [reflexivity|]. destruct Hr as [_ Hz].
          destruct z as [|p]; [reflexivity|]. do 6 (destruct p as [p|p|]; try reflexivity). contradiction.
        - destruct r; tauto. }
      rewrite E. eexists. reflexivity.
    - cbv iota. destruct (IH r fuel Hr ltac:(cbn in Hf; lia)) as [n ->]. eexists. reflexivity.
  Qed.

  Definition crit_text (crit : option bool) : str :=
    match crit with Some true => lit " true" | Some false => lit " false" | None => [] end.
  Lemma control_re_spec oid crit x y : dotted oid ->
    control_re (oid ++ crit_text crit ++ 58%N :: x :: y) = Some (oid, crit, 58%N :: x :: y).
  Proof.
    intros Hd. unfold control_re.
    destruct (span_oid_spec oid Hd (crit_text crit ++ 58%N :: x :: y) (S (List.length (oid ++ crit_text crit ++ 58%N :: x :: y)))) as [n E].
    - destruct crit as [[]|]; cbn; split; reflexivity || discriminate.
    - rewrite app_length. lia.
    - rewrite E. destruct crit as [[]|]; reflexivity.
  Qed.

  Definition dotted_head oid (H : dotted oid) : exists c r, oid = c :: r /\ is_dec c = true.
  Proof.
    destruct H as [a b Ha _ Fa _|a b Ha Fa _]; (destruct a as [|c a]; [contradiction|]); inversion Fa; subst; cbn [app]; eauto.
  Qed.
  Lemma dotted_chars oid : dotted oid -> Forall (fun c => is_dec c = true \/ c = 46%N) oid.
  Proof.
    assert (G : forall a, Forall (fun c => is_dec c = true) a -> Forall (fun c => is_dec c = true \/ c = 46%N) a).
    { intros a. apply Forall_impl. auto. }
    induction 1 as [a b Ha Hb' Fa Fb|a b Ha Fa _ IH]; apply Forall_app; (split; [auto|]); constructor; auto.
  Qed.

  Lemma ctl_line_shape oid crit b : dotted oid -> Forall (fun x => (x < 256)%N) b ->
    exists x y, py_strip (skipn 8 (ctl_line (oid, crit, b))) = oid ++ crit_text crit ++ 58%N :: x :: y /\
      List.filter is_b64 (py_strip (x :: y)) = b64encode b.
  Proof.
    intros Hd Hby. change (skipn 8 (ctl_line (oid, crit, b))) with (32%N :: oid ++ crit_text crit ++ lit ":: " ++ b64encode b).
    destruct (dotted_head oid Hd) as (c & r & -> & Hc).
    assert (Hsp : sp c = false) by (unfold is_dec, sp, py_isspace, in_ranges in *; cbn [existsb fst snd py_space_ranges]; lia).
    pose proof (b64_tight b Hby) as [T1 T2]. pose proof (b64_filter b Hby) as F.
    destruct (b64encode b) as [|e1 e] eqn:Ee.
    - exists 58%N, []. split; [|reflexivity].
      change ((c :: r) ++ crit_text crit ++ lit ":: " ++ []) with ((c :: r) ++ crit_text crit ++ [58%N; 58%N] ++ [32%N]).
      replace (32%N :: (c :: r) ++ crit_text crit ++ [58%N; 58%N] ++ [32%N])
        with ([32%N] ++ ((c :: r) ++ crit_text crit ++ [58%N; 58%N]) ++ [32%N]) by (cbn [app]; now rewrite <- !app_assoc).
      unfold py_strip. apply (strip_core sp); [exact sp_32|exact sp_32|exact Hsp|]. rewrite !rev_app_distr. reflexivity.
    - exists 58%N, (32%N :: e1 :: e). split.
      + change (58%N :: 58%N :: 32%N :: e1 :: e) with (lit ":: " ++ e1 :: e).
        apply strip_left_space. split; [exact Hsp|].
        rewrite !rev_app_distr. destruct (rev (e1 :: e)) as [|z t] eqn:Er; [|exact T2].
        exfalso. assert (e1 :: e = []) by (rewrite <- (rev_involutive (e1 :: e)), Er; reflexivity). discriminate.
      + rewrite strip_tight.
        * cbn [List.filter]. exact F.
        * apply (tight_app (lit ": ") (e1 :: e)); try discriminate; [reflexivity|exact T2].
  Qed.

  Lemma read_controls_step l rest ctls oid crit v b kw : rest <> [] ->
    starts_with (lit "control:") l = true -> control_re (py_strip (skipn 8 l)) = Some (oid, crit, v) ->
    b64decode (py_strip (tl v)) = Ok b -> keyword oid = Some kw -> kw <> [] ->
    read_controls utf8_decode b64decode keyword default_criticality (l :: rest) ctls =
    read_controls utf8_decode b64decode keyword default_criticality rest (dset ctls kw (crit, decoded utf8_decode b)).
  Proof.
    intros Hr H1 H2 H3 H4 H5. destruct rest as [|l2 rest]; [contradiction|].
    cbn [read_controls]. rewrite H1, H2. unfold Model_Ldif.handle_base64. rewrite H3. cbn [bind]. rewrite H4.
    destruct kw; [contradiction|]. reflexivity.
  Qed.

  Lemma read_controls_spec cs :
    Forall (fun c => dotted (fst (fst c)) /\ Forall (fun x => (x < 256)%N) (snd c) /\
                     exists kw, keyword (fst (fst c)) = Some kw /\ kw <> []) cs ->
    NoDup (map (fun c => keyword (fst (fst c))) cs) ->
    forall rest ctls, rest <> [] -> (forall l r, rest = l :: r -> starts_with (lit "control:") l = false) ->
    (forall c kw, In c cs -> keyword (fst (fst c)) = Some kw -> dget ctls kw = None) ->
    exists new, read_controls utf8_decode b64decode keyword default_criticality (map ctl_line cs ++ rest) ctls = Ok (ctls ++ new, rest) /\
      same_ctls utf8_decode keyword cs new.
  Proof.
    induction 1 as [|[[oid crit] b] cs (Hd & Hby & kw & Hkw & Hne) _ IH]; intros Hnd rest ctls Hr Hstart Hfresh; cbn [map app fst snd] in *.
    - exists []. rewrite app_nil_r. split; [|constructor]. destruct rest as [|l [|l2 rest]]; [contradiction|reflexivity|].
      cbn [read_controls]. now rewrite (Hstart _ _ eq_refl).
    - inversion Hnd as [|? ? Hnin Hnd']; subst.
      destruct (ctl_line_shape oid crit b Hd Hby) as (x & y & E & F).
      rewrite (read_controls_step _ _ _ oid crit (58%N :: x :: y) b kw).
      2:{ destruct (map ctl_line cs); [exact Hr|discriminate]. }
      2:{ apply starts_with_spec. exists (32%N :: oid ++ crit_text crit ++ lit ":: " ++ b64encode b). reflexivity. }
      2:{ rewrite E. now apply control_re_spec. }
      2:{ cbn [tl]. now apply Hb. }
      2,3: assumption.
      destruct kw as [|k0 kw]; [contradiction|].
      assert (Hdset : dset ctls (k0 :: kw) (crit, decoded utf8_decode b) = ctls ++ [(k0 :: kw, (crit, decoded utf8_decode b))]).
      { assert (Hn : dget ctls (k0 :: kw) = None) by (eapply (Hfresh (oid, crit, b)); eauto; now left).
        clear - Hn. induction ctls as [|[k v] ctls IH]; [reflexivity|]. cbn [dget dset app] in *.
        destruct (str_eqb k (k0 :: kw)); [discriminate|]. now rewrite IH. }
      rewrite Hdset.
      destruct (IH Hnd' rest (ctls ++ [(k0 :: kw, (crit, decoded utf8_decode b))]) Hr Hstart) as (new & -> & S).
      { intros c kw' Hc Hkw'. specialize (Hfresh c kw' (or_intror Hc) Hkw').
        assert (Hdiff : k0 :: kw <> kw').
        { intros Ek. apply Hnin. rewrite Hkw, Ek, <- Hkw'. apply in_map_iff. exists c. split; auto. }
        apply str_eqb_neq in Hdiff. clear - Hfresh Hdiff. induction ctls as [|[k v] ctls IH]; cbn [app dget] in *.
        - now rewrite Hdiff.
        - destruct (str_eqb k kw'); [discriminate|auto]. }
      exists ((k0 :: kw, (crit, decoded utf8_decode b)) :: new). split; [now rewrite <- app_assoc|].
      constructor; auto.
  Qed.

  (** ** Whole records *)
  Lemma read_record_spec r : rec_ok keyword r ->
    exists o, read_record utf8_decode b64decode keyword default_criticality (rec_lines r) = Ok o /\
      describes utf8_decode keyword r o.
  Proof.
    intros (Hdn & Hch & Hctl & Hnd). unfold rec_lines, read_record.
    assert (Ddn : attr_desc (lit "dn")) by (split; [discriminate|repeat constructor]).
    destruct (show_line (lit "dn") (r_dn r) Hdn Ddn) as (_ & _ & c & t & Ec & Hc1 & Hc2).
    rewrite Ec, clear_nothing by auto. rewrite <- Ec. rewrite (take_show (lit "dn:") (lit "dn")) by reflexivity.
    rewrite field_value by auto. cbn [bind].
    assert (Hcl : clear_comments (map ctl_line (r_ctls r) ++ change_lines (r_change r)) = map ctl_line (r_ctls r) ++ change_lines (r_change r)).
    { destruct (r_ctls r) as [|[[oid crit] b] cs]; cbn [map app].
      - destruct (r_change r); cbn [change_lines]; reflexivity.
      - cbn [clear_comments]. change (ctl_line (oid, crit, b)) with (99%N :: lit "ontrol: " ++ oid ++ crit_text crit ++ lit ":: " ++ b64encode b).
        rewrite no_comment; [reflexivity|reflexivity|discriminate]. }
    rewrite Hcl.
    destruct (read_controls_spec (r_ctls r) Hctl Hnd (change_lines (r_change r)) []) as (ctls & -> & Hs).
    { destruct (r_change r); discriminate. }
    { intros l rest E. destruct (r_change r); injection E as <- _; reflexivity. }
    { reflexivity. }
    cbn [bind app]. unfold describes. destruct (r_change r) as [values| |mods|newrdn clean newsup] eqn:Er; cbn [change_lines change_ok] in *.
    - change (take_field (lit "changetype:") (lit "changetype: add")) with (Some (lit "add")). cbv iota.
      assert (E2 : clear_comments (map (fun av => show (fst av) (snd av)) values) = map (fun av => show (fst av) (snd av)) values).
      { destruct values as [|[a f] values]; [reflexivity|]. cbn [map fst snd]. inversion Hch as [|? ? ([Ha _] & Hf & _) _]; subst.
        destruct (show_line a f Hf Ha) as (_ & _ & c' & t' & Ec' & Hc1' & Hc2'). rewrite Ec'. now rewrite clear_nothing. }
      rewrite E2. destruct (read_add_spec values [] Hch) as (attrs & Ea & Hd). rewrite str_eqb_refl, Ea. cbn [bind].
      eexists. split; [reflexivity|]. exists ctls. split; auto. exists attrs. split; [reflexivity|].
      intros a. rewrite Hd. cbn [dget]. destruct (values_of a values); reflexivity.
    - change (take_field (lit "changetype:") (lit "changetype: delete")) with (Some (lit "delete")). cbv iota.
      cbn. eexists. split; [reflexivity|]. exists ctls. auto.
    - change (take_field (lit "changetype:") (lit "changetype: modify")) with (Some (lit "modify")). cbv iota.
      assert (E2 : clear_comments (List.concat (map mod_lines mods)) = List.concat (map mod_lines mods)).
      { destruct mods as [|[[o a] vs] mods]; [reflexivity|]. cbn [map List.concat mod_lines app clear_comments].
        destruct o; cbn [mod_name lit app]; rewrite no_comment; reflexivity || discriminate. }
      rewrite E2. change (str_eqb (lit "modify") (lit "add")) with false. change (str_eqb (lit "modify") (lit "delete")) with false.
      cbv iota. rewrite str_eqb_refl, read_modify_spec by auto. cbn [bind app]. eexists. split; [reflexivity|]. exists ctls. auto.
    - change (take_field (lit "changetype:") (lit "changetype: moddn")) with (Some (lit "moddn")). cbv iota.
      destruct Hch as [Hn Hp].
      assert (Dn : attr_desc (lit "newrdn")) by (split; [discriminate|repeat constructor]).
      assert (Dp : attr_desc (lit "newsuperior")) by (split; [discriminate|repeat constructor]).
      destruct (show_line _ newrdn Hn Dn) as (_ & _ & c' & t' & Ec' & Hc1' & Hc2').
      rewrite Ec', clear_nothing by auto. rewrite <- Ec'.
      change (str_eqb (lit "moddn") (lit "add")) with false. change (str_eqb (lit "moddn") (lit "delete")) with false.
      change (str_eqb (lit "moddn") (lit "modify")) with false. change (str_eqb (lit "moddn") (lit "modrdn") || str_eqb (lit "moddn") (lit "moddn")) with true.
      cbv iota. unfold read_moddn.
      rewrite (take_show (lit "newrdn:") (lit "newrdn")) by reflexivity. rewrite field_value by auto. cbn [bind].
      assert (E3 : clear_comments ((lit "deleteoldrdn: " ++ (if clean then lit "1" else lit "0"))
                     :: match newsup with Some p => [show (lit "newsuperior") p] | None => [] end) =
                   (lit "deleteoldrdn: " ++ (if clean then lit "1" else lit "0"))
                     :: match newsup with Some p => [show (lit "newsuperior") p] | None => [] end) by (destruct clean; reflexivity).
      rewrite E3.
      assert (E4 : take_field (lit "deleteoldrdn:") (lit "deleteoldrdn: " ++ (if clean then lit "1" else lit "0")) =
                   Some (if clean then lit "1" else lit "0")) by (destruct clean; reflexivity).
      rewrite E4.
      assert (E5 : (if str_eqb (if clean then lit "1" else lit "0") (lit "0") then Ok false
                    else if str_eqb (if clean then lit "1" else lit "0") (lit "1") then Ok true else Raise ValueError) = Ok clean)
        by (destruct clean; reflexivity).
      rewrite E5. cbn [bind]. destruct newsup as [p|].
      + destruct (show_line _ p Hp Dp) as (_ & _ & c3 & t3 & Ec3 & Hc3 & Hc3'). rewrite Ec3, clear_nothing by auto. rewrite <- Ec3.
        rewrite (take_show (lit "newsuperior:") (lit "newsuperior")) by reflexivity. rewrite field_value by auto. cbn [bind].
        eexists. split; [reflexivity|]. exists ctls. auto.
      + cbn [clear_comments]. eexists. split; [reflexivity|]. exists ctls. auto.
  Qed.

  (** all lines of a record are proper lines without [:<] *)
  Definition good_line (l : str) : Prop := line_ok l /\ hc l = false.
  Lemma good_lit_line s : (forallb (fun c => negb (is_break c) && negb (N.eqb c 60)) s = true) ->
    (match s with c :: _ => negb (N.eqb c 32) | [] => false end = true) -> good_line s.
  Proof.
    intros H1 H2. rewrite forallb_forall in H1. split; [split|].
    - apply Forall_forall. intros c Hc. specialize (H1 c Hc). apply andb_true_iff in H1 as [H1 _]. now destruct (is_break c).
    - destruct s as [|c s]; [discriminate|]. exists c, s. split; auto. now destruct (N.eqb_spec c 32).
    - apply hc_none. intros Hin. specialize (H1 _ Hin). apply andb_true_iff in H1 as [_ H1]. discriminate.
  Qed.
  Lemma good_show name f : fld_ok f -> attr_desc name -> good_line (show name f).
  Proof. intros Hf Hn. destruct (show_line name f Hf Hn) as (A & B & _). split; auto. Qed.
  Lemma good_pair a v : attr_desc a -> Forall (fun c => is_break c = false) v -> hc v = false -> good_line (a ++ lit ": " ++ v).
  Proof.
    intros [Hn Hk] Hv Hh. rewrite Forall_forall in Hk.
    assert (Hkc : forall c, key_char c = true -> is_break c = false /\ c <> 32%N /\ c <> 60%N).
    { intros c. unfold key_char, is_break, in_ranges. cbn [existsb fst snd]. lia. }
    split; [split|].
    - apply Forall_app. split; [apply Forall_forall; intros c Hc; now apply Hkc, Hk|].
      constructor; [reflexivity|]. constructor; [reflexivity|auto].
    - destruct a as [|c a]; [contradiction|]. exists c, (a ++ lit ": " ++ v). split; [reflexivity|]. apply Hkc, Hk. now left.
    - change (a ++ lit ": " ++ v) with (a ++ [58%N] ++ 32%N :: v). rewrite app_assoc, hc_sep by discriminate. rewrite Hh, orb_false_r.
      apply hc_none. rewrite in_app_iff. intros [Hin|[Hin|[]]]; [|discriminate]. apply Hk, Hkc in Hin. tauto.
  Qed.
  Lemma good_rec r : rec_ok keyword r -> rec_lines r <> [] /\ Forall good_line (rec_lines r).
  Proof.
    intros (Hdn & Hch & Hctl & _). split; [discriminate|]. unfold rec_lines. constructor.
    - apply good_show; auto. split; [discriminate|repeat constructor].
    - apply Forall_app. split.
      + rewrite Forall_map. eapply Forall_impl; [|exact Hctl]. intros [[oid crit] b] (Hd & Hby & _). cbn [fst snd] in *.
        assert (Ho : forall c, In c oid -> is_break c = false /\ c <> 60%N).
        { pose proof (dotted_chars oid Hd) as Hf. rewrite Forall_forall in Hf. intros c Hc. apply Hf in Hc.
          unfold is_dec, is_break, in_ranges in *. cbn [existsb fst snd]. lia. }
        pose proof (b64encode_class b Hby) as C. rewrite Forall_forall in C.
        apply good_lit_line; [|reflexivity]. apply forallb_forall. intros c Hc. unfold ctl_line in Hc.
        assert (G : is_break c = false /\ c <> 60%N).
        { rewrite !in_app_iff in Hc. destruct Hc as [Hc|[Hc|[Hc|[Hc|Hc]]]]; auto.
          - cbn in Hc. repeat (destruct Hc as [<-|Hc]; [split; [reflexivity|discriminate]|]). contradiction.
          - destruct crit as [[]|]; cbn in Hc; repeat (destruct Hc as [<-|Hc]; [split; [reflexivity|discriminate]|]); contradiction.
          - cbn in Hc. repeat (destruct Hc as [<-|Hc]; [split; [reflexivity|discriminate]|]). contradiction.
          - apply C, b64_class_facts in Hc. tauto. }
        destruct G as [-> G]. apply N.eqb_neq in G. now rewrite G.
      + destruct (r_change r) as [values| |mods|newrdn clean newsup]; cbn [change_lines change_ok] in *.
        * constructor; [apply good_lit_line; reflexivity|]. rewrite Forall_map. eapply Forall_impl; [|exact Hch].
          intros [a f] ([Ha _] & Hf & _). now apply good_show.
        * constructor; [apply good_lit_line; reflexivity|constructor].
        * constructor; [apply good_lit_line; reflexivity|]. apply Forall_concat. rewrite Forall_map.
          eapply Forall_impl; [|exact Hch]. intros [[o a] vs] ([Ha _] & _ & Hvs). cbn [fst snd mod_lines] in *. constructor.
          -- assert (Hk := proj2 Ha). apply good_pair; [apply mod_name_desc| |].
             ++ eapply Forall_impl; [|exact Hk]. intros c. unfold key_char, is_break, in_ranges. cbn [existsb fst snd]. lia.
             ++ apply hc_none. intros Hin. rewrite Forall_forall in Hk. apply Hk in Hin. discriminate.
          -- apply Forall_app. split; [|constructor; [apply good_lit_line; reflexivity|constructor]].
             rewrite Forall_map. eapply Forall_impl; [|exact Hvs]. intros v [Hp _]. apply good_pair; auto; [now apply plain_unbroken|now apply plain_hc].
        * destruct Hch as [Hn Hp]. constructor; [apply good_lit_line; reflexivity|].
          constructor; [apply good_show; auto; split; [discriminate|repeat constructor]|].
          constructor; [destruct clean; apply good_lit_line; reflexivity|].
          destruct newsup as [p|]; [|constructor]. constructor; [apply good_show; auto; split; [discriminate|repeat constructor]|constructor].
  Qed.

  (** ** Whole files *)
  Context (exec : list op -> op -> res unit) (fetch_error : str -> exn).
  Lemma ldif_text_file rs : ldif_text rs = file (map rec_lines rs).
  Proof. induction rs as [|r [|r2 rs] IH]; [reflexivity|reflexivity|].
    change (ldif_text (r :: r2 :: rs)) with (ended (rec_lines r) ++ [10%N] ++ ldif_text (r2 :: rs)). rewrite IH. reflexivity. Qed.

  Lemma run_records_spec rs : Forall (rec_ok keyword) rs -> forall bs done,
    Forall2 (fun b lines => b <> [] /\ splitlines false [] b = lines) bs (map rec_lines rs) ->
    exists ops, Forall2 (describes utf8_decode keyword) rs ops /\
      let (r, all) := run_records utf8_decode b64decode keyword default_criticality exec bs done in
      carried_out exec done ops r all.
  Proof.
    induction 1 as [|r rs Hr _ IH]; intros bs done F; cbn [map] in F; inversion F as [|b lines bs' ls' [Hne Hl] F']; subst.
    - exists []. split; [constructor|]. constructor.
    - destruct (read_record_spec r Hr) as (o & Eo & Hd).
      destruct b as [|c b]; [contradiction|]. cbn [run_records]. rewrite Hl, Eo.
      destruct (exec done o) as [[]|e] eqn:Ex.
      + destruct (IH bs' (done ++ [o]) F') as (ops & Fo & Hrun). exists (o :: ops). split; [now constructor|].
        destruct (run_records _ _ _ _ _ bs' (done ++ [o])) as [res all]. eapply co_next; eauto.
      + assert (exists ops, Forall2 (describes utf8_decode keyword) rs ops) as [ops Fo].
        { destruct (IH bs' done F') as (ops & Fo & _). eauto. }
        exists (o :: ops). split; [now constructor|]. now apply co_fail.
  Qed.

  Lemma process_ldif_spec rs (version : bool) : Forall (rec_ok keyword) rs -> rs <> [] ->
    exists ops, Forall2 (describes utf8_decode keyword) rs ops /\
      let (r, all) := process_ldif utf8_decode b64decode keyword default_criticality exec fetch_error
                        ((if version then lit "version: 1" ++ [10%N] else []) ++ ldif_text rs) in
      carried_out exec [] ops r all.
  Proof.
    intros H Hne. rewrite ldif_text_file. set (blocks := map rec_lines rs).
    assert (Hgood : Forall block_ok blocks /\ Forall (Forall (fun l => hc l = false)) blocks).
    { subst blocks. rewrite !Forall_map. split; (eapply Forall_impl; [|exact H]); intros r Hr; destruct (good_rec r Hr) as [A B].
      - split; auto. eapply Forall_impl; [|exact B]. now intros l [].
      - eapply Forall_impl; [|exact B]. now intros l []. }
    destruct Hgood as [Hbl Hhc].
    assert (Hbne : blocks <> []) by (subst blocks; destruct rs; [contradiction|discriminate]).
    assert (Hun : unfold ((if version then lit "version: 1" ++ [10%N] else []) ++ file blocks) =
                  (if version then lit "version: 1" ++ [10%N] else []) ++ file blocks).
    { destruct version; [|now apply unfold_file].
      change (lit "version: 1" ++ [10%N]) with (ended [lit "version: 1"]). rewrite unfold_ended.
      - now rewrite unfold_file.
      - constructor; [|constructor]. apply good_lit_line; reflexivity.
      - now apply file_starts. }
    assert (Hurl : has_url ((if version then lit "version: 1" ++ [10%N] else []) ++ file blocks) = false).
    { apply hc_url. destruct version; [|now apply hc_file].
      change (lit "version: 1" ++ [10%N]) with (ended [lit "version: 1"]). apply hc_ended; [|now apply hc_file].
      constructor; [reflexivity|constructor]. }
    unfold process_ldif. rewrite Hun, Hurl.
    assert (Hrun : forall fuel, List.length (file blocks) < fuel ->
       exists ops, Forall2 (describes utf8_decode keyword) rs ops /\
         let (r, all) := run_records utf8_decode b64decode keyword default_criticality exec (split_blocks fuel [] (file blocks)) [] in
         carried_out exec [] ops r all).
    { intros fuel Hf. destruct (split_file blocks Hbl Hbne fuel Hf) as (bs & -> & F). now apply run_records_spec. }
    destruct version.
    - rewrite <- app_assoc. cbn [app].
      change (lit "version: 1" ++ 10%N :: file blocks) with (lit "version: 1" ++ 10%N :: file blocks).
      rewrite splitlines_line by (repeat constructor).
      cbn [rev app]. change (lit "version: 1" ++ [10%N]) with (118%N :: lit "ersion: 1" ++ [10%N]).
      rewrite clear_nothing by (reflexivity || discriminate).
      change (take_field (lit "version:") (118%N :: lit "ersion: 1" ++ [10%N])) with (Some (lit "1")). cbv iota.
      rewrite str_eqb_refl, splitlines_concat. cbn [rev app]. apply Hrun. lia.
    - cbn [app].
      assert (Hfirst : exists l x, file blocks = (100%N :: l) ++ 10%N :: x /\ Forall (fun c => is_break c = false) (100%N :: l) /\
                starts_with (lit "version:") ((100%N :: l) ++ [10%N]) = false).
      { subst blocks. destruct rs as [|r rs]; [contradiction|]. inversion H as [|? ? Hr _]; subst.
        destruct (good_rec r Hr) as [_ B]. cbn [map rec_lines] in *. inversion B as [|? ? [[Hb1 _] _] _]; subst.
        exists (tl (show (lit "dn") (r_dn r))).
        assert (E : show (lit "dn") (r_dn r) = 100%N :: tl (show (lit "dn") (r_dn r))) by (unfold show; destruct (f_b64 (r_dn r)); reflexivity).
        rewrite <- E. destruct rs as [|r2 rs]; cbn [map file]; unfold rec_lines at 1; rewrite ended_cons.
        - eexists. split; [reflexivity|]. split; [exact Hb1|]. rewrite E. destruct (starts_with _ _) eqn:Es; [|reflexivity].
          apply starts_with_spec in Es as [x Es]. discriminate.
        - rewrite <- app_assoc. eexists. split; [reflexivity|]. split; [exact Hb1|]. rewrite E. destruct (starts_with _ _) eqn:Es; [|reflexivity].
          apply starts_with_spec in Es as [x Es]. discriminate. }
      destruct Hfirst as (l & x & E & Hb1 & Hv).
      rewrite E. rewrite splitlines_line by auto. cbn [rev app].
      change ((100%N :: l) ++ [10%N]) with (100%N :: l ++ [10%N]) in *. rewrite clear_nothing by (reflexivity || discriminate).
      unfold take_field. rewrite Hv.
      assert (Ecat : List.concat ((100%N :: l ++ [10%N]) :: splitlines true [] x) = file blocks).
      { cbn [List.concat]. rewrite splitlines_concat, E. cbn [rev app]. now rewrite <- app_assoc. }
      pose proof (Hrun _ (Nat.lt_succ_diag_r _)) as R0. rewrite <- Ecat in R0. exact R0.
  Qed.
End R.
