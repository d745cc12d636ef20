(** * Proofs about LDIF *)
From Verif Require Import PyBase Model_Uri Model_Prep Model_Ldif Spec_Ldif Proofs_Prep Proofs_Uri.
Ltac Zify.zify_post_hook ::= Z.to_euclidean_division_equations.

(** ** Base64 *)
Lemma b64_val_char i : (i < 64)%N -> b64_val (b64_char i) = Some i.
Proof.
  intros H. unfold b64_char.
  destruct (N.ltb_spec i 26); [|destruct (N.ltb_spec i 52); [|destruct (N.ltb_spec i 62); [|destruct (N.eqb_spec i 62)]]]; unfold b64_val;
  repeat match goal with |- context [if ?b then _ else _] => destruct b eqn:?; try lia end; try (f_equal; lia).
Qed.
Lemma b64_char_not_eq i : b64_char i <> 61%N.
Proof.
  unfold b64_char.
  repeat match goal with |- context [if ?b then _ else _] => destruct b eqn:?; try lia end.
Qed.
Lemma b64_char_class i : (i < 64)%N ->
  (65 <= b64_char i <= 90 \/ 97 <= b64_char i <= 122 \/ 48 <= b64_char i <= 57 \/ b64_char i = 43 \/ b64_char i = 47)%N.
Proof. intros H. unfold b64_char. repeat match goal with |- context [if ?b then _ else _] => destruct b eqn:?; try lia end. Qed.

Lemma list_ind3 {A} (P : list A -> Prop) :
  P [] -> (forall x, P [x]) -> (forall x y, P [x; y]) -> (forall x y z r, P r -> P (x :: y :: z :: r)) -> forall l, P l.
Proof.
  intros H0 H1 H2 H3. assert (H : forall n l, List.length l <= n -> P l).
  - induction n as [|n IH]; intros [|x [|y [|z r]]] Hn; cbn [List.length] in Hn; auto; try lia.
    apply H3, IH. lia.
  - intros l. eapply H; eauto.
Qed.


Lemma b64_roundtrip b : Forall (fun c => (c < 256)%N) b -> b64_read (b64encode b) = Some b.
Proof.
  induction b as [|x|x y|x y z r IH] using list_ind3; intros H; cbn [b64encode b64_read].
  - reflexivity.
  - inversion H; subst. rewrite !b64_val_char by lia. cbn [N.eqb Pos.eqb]. do 2 f_equal. lia.
  - inversion H as [|? ? Hx H']; inversion H' as [|? ? Hy _]; subst. cbn [N.eqb Pos.eqb].
    rewrite (proj2 (N.eqb_neq _ 61) (b64_char_not_eq _)). rewrite !b64_val_char by lia. f_equal. repeat (f_equal; try lia).
  - inversion H as [|? ? Hx H']; inversion H' as [|? ? Hy H'']; inversion H'' as [|? ? Hz Hr]; subst.
    rewrite (proj2 (N.eqb_neq _ 61) (b64_char_not_eq _)). rewrite !b64_val_char by lia. rewrite IH by auto.
    f_equal. f_equal; [lia|]. f_equal; [lia|]. f_equal. lia.
Qed.

Definition b64_class (c : N) : Prop :=
  (65 <= c <= 90 \/ 97 <= c <= 122 \/ 48 <= c <= 57 \/ c = 43 \/ c = 47 \/ c = 61)%N.
Lemma b64encode_class b : Forall (fun c => (c < 256)%N) b -> Forall b64_class (b64encode b).
Proof.
  assert (Hc : forall i, (i < 64)%N -> b64_class (b64_char i)).
  { intros i Hi. pose proof (b64_char_class i Hi). unfold b64_class. tauto. }
  assert (H61 : b64_class 61) by (unfold b64_class; lia).
  induction b as [|x|x y|x y z r IH] using list_ind3; intros H; cbn [b64encode].
  - constructor.
  - inversion H; subst. repeat (apply Forall_cons; [first [exact H61|apply Hc; lia]|]); apply Forall_nil.
  - inversion H as [|? ? Hx H']; inversion H' as [|? ? Hy _]; subst. repeat (apply Forall_cons; [first [exact H61|apply Hc; lia]|]); apply Forall_nil.
  - inversion H as [|? ? Hx H']; inversion H' as [|? ? Hy H'']; inversion H'' as [|? ? Hz Hr]; subst.
    repeat (apply Forall_cons; [apply Hc; lia|]). auto.
Qed.

(** ** UTF-8 *)
Lemma utf8_bytes s : Forall (fun c => (c < 1114112)%N) s -> Forall (fun c => (c < 256)%N) (utf8 s).
Proof.
  induction 1 as [|c s Hc Hs IH]; cbn [utf8 flat_map]; [constructor|]. apply Forall_app. split; [|exact IH].
  unfold utf8_char. destruct (N.ltb_spec c 128); [|destruct (N.ltb_spec c 2048); [|destruct (N.ltb_spec c 65536)]];
    repeat constructor; lia.
Qed.
Lemma utf8_ascii s : Forall (fun c => (c < 128)%N) s -> utf8 s = s.
Proof.
  induction 1 as [|c s Hc Hs IH]; cbn [utf8 flat_map]; [reflexivity|]. unfold utf8_char.
  apply N.ltb_lt in Hc. rewrite Hc. cbn [app]. f_equal. exact IH.
Qed.

(** ** Safe strings *)
Lemma rest_class_spec c : rest_class c = true <-> safe_char c.
Proof. unfold rest_class, in_ranges, safe_char. cbn [existsb fst snd]. lia. Qed.
Lemma init_class_spec c : init_class c = true <-> safe_init_char c.
Proof.
  unfold init_class, in_ranges, safe_init_char, safe_char. cbn [existsb fst snd].
  change (ch " ") with 32%N. change (ch ":") with 58%N. change (ch "<") with 60%N. lia.
Qed.
Lemma forallb_rest r : forallb rest_class r = true <-> Forall safe_char r.
Proof. rewrite forallb_forall, Forall_forall. split; intros H x Hx; apply rest_class_spec; auto. Qed.

Lemma safe_re_iff s : safe_re s = true <-> (s <> [] /\ safe_string s) \/ trailing_newline s.
Proof.
  unfold safe_re, trailing_newline. destruct s as [|c r].
  - split; [discriminate|]. intros [[H _]|(w & E & _ & _)]; [contradiction|]. destruct w; discriminate.
  - rewrite andb_true_iff, orb_true_iff, init_class_spec, forallb_rest. split.
    + intros [Hc [Hr|Hr]].
      * left. split; [discriminate|]. split; auto.
      * right. destruct (rev r) as [|e r'] eqn:E; [discriminate|]. apply andb_true_iff in Hr as [He Hr].
        apply N.eqb_eq in He. subst e. apply forallb_rest in Hr.
        assert (Er : r = rev r' ++ [10%N]) by (rewrite <- (rev_involutive r), E; reflexivity).
        exists (c :: rev r'). split; [now rewrite Er|]. split; [discriminate|]. split; auto. now apply Forall_rev.
    + intros [[_ [Hc Hr]]|(w & E & Hne & Hw)]; [auto|].
      destruct w as [|c' w]; [contradiction|]. cbn [app] in E. injection E as -> ->. destruct Hw as [Hc Hr].
      split; auto. right. rewrite rev_app_distr. cbn [rev app]. cbn [N.eqb Pos.eqb andb]. apply forallb_rest. now apply Forall_rev.
Qed.

Lemma safe_ascii s : safe_string s -> Forall (fun c => (c < 128)%N) s.
Proof.
  destruct s as [|c r]; [constructor|]. intros [[[Hc _] _] Hr]. constructor; [lia|].
  eapply Forall_impl; [|exact Hr]. intros a [Ha _]. lia.
Qed.
Lemma safe_no_lf s : safe_string s -> ~ In 10%N s /\ ~ In 13%N s.
Proof.
  destruct s as [|c r]; [intros _; split; intros []|]. intros [[(Hc & H1 & H2) _] Hr]. rewrite Forall_forall in Hr.
  split; intros [E|Hin]; try congruence; apply Hr in Hin as (_ & ? & ?); congruence.
Qed.

(** what encode_value writes *)
Inductive encoding (s : str) : str -> Prop :=
| enc_literal : s <> [] -> safe_string s -> encoding s (lit " " ++ s)
| enc_base64 : encoding s (lit ": " ++ b64encode (utf8 s)).
Lemma encode_value_cases s : ~ trailing_newline s -> encoding s (encode_value s).
Proof.
  intros H. unfold encode_value. destruct (safe_re s) eqn:E; cbn [negb]; [|constructor].
  apply safe_re_iff in E as [[Hne Hs]|]; [|contradiction]. destruct (ends_with (lit " ") s); now constructor.
Qed.

(** ** Folding *)
Lemma fragments_spec fuel : forall s, List.length s <= fuel ->
  List.concat (fragments fuel s) = s /\ Forall (fun f => f <> [] /\ List.length f <= 75) (fragments fuel s).
Proof.
  induction fuel as [|fuel IH]; intros s Hs; cbn [fragments].
  - destruct s; [|cbn in Hs; lia]. split; [reflexivity|constructor].
  - destruct s as [|c r] eqn:Es; [split; [reflexivity|constructor]|]. rewrite <- Es in *.
    assert (Hn : s <> []) by (subst; discriminate).
    destruct (IH (skipn 75 s)) as [A B].
    { rewrite skipn_length. destruct s; [contradiction|]. cbn [List.length] in *. lia. }
    split.
    + cbn [List.concat]. rewrite A. apply firstn_skipn.
    + constructor; auto. split.
      * subst s. discriminate.
      * rewrite firstn_length. lia.
Qed.

Lemma join_pieces x ps : ps <> [] ->
  x ++ [10; 32]%N ++ join_str [10; 32]%N ps = join_str [10%N] (x :: map (cons 32%N) ps).
Proof.
  intros Hn. revert x. induction ps as [|p ps IH]; intros x; [contradiction|]. destruct ps as [|q ps].
  - reflexivity.
  - specialize (IH ltac:(discriminate) p).
    change (join_str [10; 32]%N (p :: q :: ps)) with (p ++ [10; 32]%N ++ join_str [10; 32]%N (q :: ps)).
    rewrite IH. cbn [map join_str]. reflexivity.
Qed.

(** folding cuts the line into pieces; all but the first get a leading space *)
Lemma fold_line_pieces line : exists p ps,
  line = p ++ List.concat ps /\ fold_line line = join_str [10%N] (p :: map (cons 32%N) ps) /\
  List.length p <= 76 /\ Forall (fun f => f <> [] /\ List.length f <= 75) ps /\ (ps <> [] -> List.length p = 76).
Proof.
  unfold fold_line. destruct (76 <? List.length line) eqn:E.
  - apply Nat.ltb_lt in E. destruct (fragments_spec (List.length line) (skipn 76 line)) as [A B].
    { rewrite skipn_length. lia. }
    exists (firstn 76 line), (fragments (List.length line) (skipn 76 line)).
    split; [rewrite A; symmetry; apply firstn_skipn|]. split; [|split; [|split]]; auto.
    + apply join_pieces. intros En. rewrite En in A. cbn [List.concat] in A.
      assert (Hl : List.length (skipn 76 line) = 0) by now rewrite <- A. rewrite skipn_length in Hl. lia.
    + rewrite firstn_length. lia.
    + intros _. rewrite firstn_length. lia.
  - apply Nat.ltb_ge in E. exists line, []. rewrite app_nil_r. repeat split; auto; contradiction.
Qed.

Definition no_breaks (s : str) : Prop := ~ In 10%N s /\ ~ In 13%N s.
Lemma no_breaks_app a b : no_breaks (a ++ b) <-> no_breaks a /\ no_breaks b.
Proof. unfold no_breaks. rewrite !in_app_iff. tauto. Qed.

Lemma unfold_app a r : no_breaks a -> unfold (a ++ r) = a ++ unfold r.
Proof.
  induction a as [|c a IH]; intros [H1 H2]; [reflexivity|]. cbn [app unfold].
  destruct (N.eqb_spec c 10) as [->|]; [exfalso; apply H1; now left|].
  destruct (N.eqb_spec c 13) as [->|]; [exfalso; apply H2; now left|].
  f_equal. apply IH. split; intros H; [apply H1|apply H2]; now right.
Qed.
Lemma unfold_pieces : forall ps p r, no_breaks p -> Forall no_breaks ps ->
  unfold (join_str [10%N] (p :: map (cons 32%N) ps) ++ r) = p ++ List.concat ps ++ unfold r.
Proof.
  induction ps as [|q ps IH]; intros p r Hp Hps.
  - cbn [map join_str List.concat app]. now apply unfold_app.
  - inversion Hps as [|? ? Hq Hps']; subst. cbn [map]. change (join_str [10%N] (p :: (32%N :: q) :: map (cons 32%N) ps))
      with (p ++ [10%N] ++ join_str [10%N] ((32%N :: q) :: map (cons 32%N) ps)).
    rewrite <- !app_assoc, unfold_app by auto. f_equal.
    replace (join_str [10%N] ((32%N :: q) :: map (cons 32%N) ps)) with (32%N :: join_str [10%N] (q :: map (cons 32%N) ps))
      by (destruct ps; reflexivity).
    cbn [app unfold N.eqb Pos.eqb List.concat]. rewrite IH by auto. now rewrite app_assoc.
Qed.

Lemma concat_no_breaks ps : no_breaks (List.concat ps) -> Forall no_breaks ps.
Proof.
  induction ps as [|p ps IH]; intros H; constructor; cbn [List.concat] in H; apply no_breaks_app in H; tauto.
Qed.

Lemma unfold_fold line r : no_breaks line -> unfold (fold_line line ++ r) = line ++ unfold r.
Proof.
  intros H. destruct (fold_line_pieces line) as (p & ps & E & -> & _). rewrite E in *. apply no_breaks_app in H as [Hp Hps].
  rewrite unfold_pieces; auto using concat_no_breaks. now rewrite app_assoc.
Qed.

(** *** physical and logical lines *)
Lemma split_lf_line l r : ~ In 10%N l -> split_lf (l ++ 10%N :: r) = l :: split_lf r.
Proof.
  induction l as [|c l IH]; intros H; cbn [app split_lf].
  - reflexivity.
  - destruct (N.eqb_spec c 10) as [->|_]; [exfalso; apply H; now left|]. rewrite IH; auto. intros Hin. apply H. now right.
Qed.
Lemma split_lf_single l : ~ In 10%N l -> split_lf l = [l].
Proof.
  induction l as [|c l IH]; intros H; cbn [split_lf]; [reflexivity|].
  destruct (N.eqb_spec c 10) as [->|_]; [exfalso; apply H; now left|]. rewrite IH; auto. intros Hin. apply H. now right.
Qed.
Lemma split_lf_join : forall ls p r, ~ In 10%N p -> Forall (fun l => ~ In 10%N l) ls ->
  split_lf (join_str [10%N] (p :: ls) ++ 10%N :: r) = (p :: ls) ++ split_lf r.
Proof.
  induction ls as [|l ls IH]; intros p r Hp Hls.
  - cbn [join_str]. now rewrite split_lf_line.
  - inversion Hls; subst. change (join_str [10%N] (p :: l :: ls)) with (p ++ [10%N] ++ join_str [10%N] (l :: ls)).
    rewrite <- !app_assoc. cbn [app]. rewrite split_lf_line by auto. f_equal. now apply (IH l r).
Qed.

Lemma gather_conts ps r : let (c, ls) := gather r in gather (map (cons 32%N) ps ++ r) = (List.concat ps ++ c, ls).
Proof.
  destruct (gather r) as [c ls] eqn:E. induction ps as [|p ps IH]; cbn [map app gather List.concat]; [exact E|].
  rewrite IH. cbn [N.eqb Pos.eqb]. now rewrite app_assoc.
Qed.

(** a folded line followed by a line break and complete lines reads as the original line *)
Lemma gather_line d l r c : d <> 32%N -> ~ In 10%N (d :: l) ->
  fst (gather (split_lf r)) = c -> c = [] ->
  gather (split_lf (fold_line (d :: l) ++ 10%N :: r)) = ([], (d :: l) :: snd (gather (split_lf r))).
Proof.
  intros Hd Hn Hc ->. destruct (fold_line_pieces (d :: l)) as (p & ps & E & -> & Hlp & Hps & Hfull).
  assert (Hp : ~ In 10%N p) by (intros H; apply Hn; rewrite E, in_app_iff; auto).
  assert (Hps' : Forall (fun x => ~ In 10%N x) (map (cons 32%N) ps)).
  { rewrite Forall_map, Forall_forall. intros x Hx [He|Hin]; [discriminate|]. apply Hn. rewrite E, in_app_iff. right.
    apply in_concat. eauto. }
  rewrite split_lf_join by auto. cbn [app gather].
  pose proof (gather_conts ps (split_lf r)) as G. destruct (gather (split_lf r)) as [c ls]. cbn [fst snd] in *. subst c.
  rewrite G. rewrite app_nil_r. destruct p as [|d' p].
  - exfalso. destruct ps as [|q ps]; [discriminate|]. specialize (Hfull ltac:(discriminate)). discriminate.
  - cbn [app] in E. injection E as <- E. destruct (N.eqb_spec d 32); [contradiction|]. cbn [app]. now rewrite <- E.
Qed.

(** ** Reading back *)
Lemma key_char_plain c : key_char c = true -> c <> 10%N /\ c <> 13%N /\ c <> 32%N /\ c <> 58%N.
Proof. unfold key_char. lia. Qed.
Lemma attr_desc_plain a : attr_desc a -> a <> [] /\ (forall c, In c a -> c <> 10%N /\ c <> 13%N /\ c <> 32%N /\ c <> 58%N).
Proof. intros [H1 H2]. split; auto. rewrite Forall_forall in H2. intros c Hc. apply key_char_plain; auto. Qed.

Lemma before_colon_app a v : ~ In (ch ":") a -> before_colon (a ++ ch ":" :: v) = Some (a, v).
Proof.
  induction a as [|c a IH]; intros H; cbn [app before_colon]; [reflexivity|].
  destruct (N.eqb_spec c (ch ":")) as [->|]; [exfalso; apply H; now left|]. rewrite IH; auto. intros Hin; apply H; now right.
Qed.

Lemma drop_spaces_b64 b : Forall (fun c => (c < 256)%N) b -> drop_spaces (lit " " ++ b64encode b) = b64encode b.
Proof.
  intros H. change (lit " ") with [32%N]. cbn [app drop_spaces N.eqb Pos.eqb].
  pose proof (b64encode_class b H) as C. destruct (b64encode b) as [|c r]; [reflexivity|]. cbn [drop_spaces].
  inversion C; subst. destruct (N.eqb_spec c 32) as [->|]; [|reflexivity]. unfold b64_class in *. lia.
Qed.

Lemma read_b64_line a b : ~ In (ch ":") a -> Forall (fun c => (c < 256)%N) b ->
  read_line (a ++ lit ":: " ++ b64encode b) = Some (a, b).
Proof.
  intros Ha Hb. unfold read_line. change (lit ":: " ++ b64encode b) with (ch ":" :: ch ":" :: lit " " ++ b64encode b).
  rewrite before_colon_app by auto. cbv iota. rewrite N.eqb_refl, drop_spaces_b64, b64_roundtrip by auto. reflexivity.
Qed.

Lemma read_encoded a s e : ~ In (ch ":") a -> Forall (fun c => (c < 1114112)%N) s -> encoding s e ->
  read_line (a ++ lit ":" ++ e) = Some (a, utf8 s).
Proof.
  intros Ha Hs [Hne Hsafe|].
  - unfold read_line. change (lit ":" ++ lit " " ++ s) with (ch ":" :: 32%N :: s).
    rewrite before_colon_app by auto. change (N.eqb 32 (ch ":")) with false. cbv iota. cbn [drop_spaces N.eqb Pos.eqb].
    rewrite utf8_ascii by now apply safe_ascii. do 2 f_equal.
    destruct s as [|c r]; [contradiction|]. cbn [drop_spaces]. destruct Hsafe as [(_ & H & _) _].
    change (ch " ") with 32%N in H. destruct (N.eqb_spec c 32); [contradiction|reflexivity].
  - change (lit ":" ++ lit ": " ++ b64encode (utf8 s)) with (lit ":: " ++ b64encode (utf8 s)).
    apply read_b64_line; auto. now apply utf8_bytes.
Qed.

Lemma b64_no_lf b : Forall (fun c => (c < 256)%N) b -> ~ In 10%N (b64encode b).
Proof. intros H Hin. pose proof (b64encode_class b H) as C. rewrite Forall_forall in C. apply C in Hin. unfold b64_class in Hin. lia. Qed.
Lemma encoding_no_lf s e : Forall (fun c => (c < 1114112)%N) s -> encoding s e -> ~ In 10%N e.
Proof.
  intros Hs [Hne Hsafe|].
  - change (lit " " ++ s) with (32%N :: s). intros [H|H]; [discriminate|]. destruct (safe_no_lf s Hsafe) as [X _]; auto.
  - change (lit ": " ++ b64encode (utf8 s)) with (58%N :: 32%N :: b64encode (utf8 s)).
    intros [H|[H|H]]; try discriminate. revert H. apply b64_no_lf. now apply utf8_bytes.
Qed.

Section Read.
  Context (utf8_decode : list N -> option str).
  Context (Hdec : forall b s, utf8_decode b = Some s -> utf8 s = b /\ Forall (fun c => (c < 1114112)%N) s).

  (** the text written for a value, if it is written as text *)
  Definition val_text (v : val) : option str := match v with Text s => Some s | Bytes b => utf8_decode b end.

  Lemma value_line_reads a v : attr_desc a -> val_ok v ->
    (forall s, val_text v = Some s -> ~ trailing_newline s) ->
    exists d l, value_line utf8_decode a v = d :: l /\ d <> 32%N /\ ~ In 10%N (d :: l) /\
      read_line (d :: l) = Some (a, val_bytes v).
  Proof.
    intros Ha Hv Ht. apply attr_desc_plain in Ha as [Hne Ha].
    assert (Hcol : ~ In (ch ":") a) by (intros H; apply Ha in H as (_ & _ & _ & H); now apply H).
    assert (Hlf : ~ In 10%N a) by (intros H; apply Ha in H as (H & _); now apply H).
    assert (G : exists x, value_line utf8_decode a v = a ++ x /\ ~ In 10%N x /\ read_line (a ++ x) = Some (a, val_bytes v)).
    { destruct v as [s|b]; cbn [value_line val_bytes val_ok val_text] in *.
      - specialize (Ht s eq_refl). pose proof (encode_value_cases s Ht) as He. exists (lit ":" ++ encode_value s).
        split; [reflexivity|]. split; [|now apply read_encoded].
        change (lit ":" ++ encode_value s) with (58%N :: encode_value s). intros [H|H]; [discriminate|].
        revert H. eapply encoding_no_lf; eauto.
      - destruct (utf8_decode b) as [s|] eqn:Eb.
        + destruct (Hdec b s Eb) as [Hu Hs]. specialize (Ht s eq_refl). pose proof (encode_value_cases s Ht) as He.
          exists (lit ":" ++ encode_value s). split; [reflexivity|]. split; [|rewrite <- Hu; now apply read_encoded].
          change (lit ":" ++ encode_value s) with (58%N :: encode_value s). intros [H|H]; [discriminate|].
          revert H. eapply encoding_no_lf; eauto.
        + exists (lit ":: " ++ b64encode b). split; [reflexivity|]. split; [|now apply read_b64_line].
          change (lit ":: " ++ b64encode b) with (58%N :: 58%N :: 32%N :: b64encode b).
          intros [H|[H|[H|H]]]; try discriminate. revert H. now apply b64_no_lf. }
    destruct G as (x & E & Hx & Hr). destruct a as [|d a']; [contradiction|].
    exists d, (a' ++ x). split; [exact E|]. split; [apply Ha; now left|]. split; [|exact Hr].
    change (d :: a' ++ x) with ((d :: a') ++ x). rewrite in_app_iff. tauto.
  Qed.

  Lemma gather_values avs :
    Forall (fun av => attr_desc (fst av) /\ val_ok (snd av) /\
                      forall s, val_text (snd av) = Some s -> ~ trailing_newline s) avs ->
    exists ls, gather (split_lf (List.concat (map (fun av => fold_line (value_line utf8_decode (fst av) (snd av)) ++ [10%N]) avs)))
      = ([], ls ++ [[]]) /\ Forall2 (fun l av => l <> [] /\ read_line l = Some (fst av, val_bytes (snd av))) ls avs.
  Proof.
    induction 1 as [|[a v] avs (Ha & Hv & Ht) _ (ls & E & F)]; cbn [map List.concat fst snd] in *.
    - exists []. split; [reflexivity|constructor].
    - destruct (value_line_reads a v Ha Hv Ht) as (d & l & El & Hd & Hl & Hr).
      exists ((d :: l) :: ls). rewrite El, <- app_assoc. cbn [app]. split.
      + erewrite gather_line; eauto; [|now rewrite E]. now rewrite E.
      + constructor; auto. split; [discriminate|auto].
  Qed.
End Read.
