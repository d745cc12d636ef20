(** * Lemmas about the filter parsers *)
From Verif Require Import PyBase Model_Filter Spec_Filter.

(** the character classes of the model are those of the specification *)
Ltac chars :=
  change letter with is_alpha in *; change nonzero with is_ldigit in *; change digit with is_digit in *; change keychar with is_keychar in *;
  change hexdigit with is_hex in *; change plain_char with is_normal in *; change blank_char with is_space in *.

(** ** Basic combinators *)
Lemma plit_sound w s r : plit w s = Some r -> s = w ++ r.
Proof.
  revert s; induction w as [|x w IH]; intros s; cbn [plit].
  - intros H; injection H as ->; reflexivity.
  - destruct s as [|y s]; [discriminate|].
    destruct (N.eqb_spec x y) as [->|]; [|discriminate].
    intros H; apply IH in H; subst; reflexivity.
Qed.
Lemma plit_app w r : plit w (w ++ r) = Some r.
Proof.
  induction w as [|x w IH]; cbn [plit app]; [reflexivity|].
  now rewrite N.eqb_refl.
Qed.
Lemma plit_ne c w d s : c <> d -> plit (c :: w) (d :: s) = None.
Proof. intros H; cbn [plit]. destruct (N.eqb_spec c d); congruence. Qed.
Lemma plit_None w s : plit w s = None -> ~ starts_with w s.
Proof. intros H [r ->]. rewrite plit_app in H; discriminate. Qed.
Lemma plit_None' w s : ~ starts_with w s -> plit w s = None.
Proof.
  intros H; destruct (plit w s) as [r|] eqn:E; [|reflexivity].
  exfalso; apply H; exists r. now apply plit_sound.
Qed.

Definition stops (p : N -> bool) (r : str) : Prop :=
  match r with [] => True | c :: _ => p c = false end.

Lemma pspan_sound p s a r : pspan p s = (a, r) ->
  s = a ++ r /\ Forall (fun x => p x = true) a /\ stops p r.
Proof.
  revert a r; induction s as [|c s IH]; intros a r; cbn [pspan].
  - intros H; injection H as <- <-; repeat split; constructor.
  - destruct (p c) eqn:E.
    + destruct (pspan p s) as [a' r'] eqn:E'. intros H; injection H as <- <-.
      destruct (IH _ _ eq_refl) as (-> & Ha & Hr). repeat split; auto.
    + intros H; injection H as <- <-; repeat split; auto; exact E.
Qed.
Lemma pspan_app p a r : Forall (fun x => p x = true) a -> stops p r ->
  pspan p (a ++ r) = (a, r).
Proof.
  induction 1 as [|c a Hc Ha IH]; intros Hr; cbn [app].
  - destruct r as [|c r]; cbn in *; [reflexivity|now rewrite Hr].
  - cbn [pspan]. rewrite Hc, (IH Hr). reflexivity.
Qed.

(** [p] consumes at least one character whenever it succeeds *)
Definition consumes {A} (p : parser A) : Prop :=
  forall s x r, p s = Some (x, r) -> List.length r < List.length s.

Lemma pmany_n_fuel {A} (p : parser A) n m s :
  List.length s <= n -> List.length s <= m -> pmany_n n p s = pmany_n m p s.
Proof.
  revert m s; induction n as [|n IH]; intros m s Hn Hm.
  - destruct s; cbn in Hn; [|lia]. destruct m; [reflexivity|].
    cbn [pmany_n]. destruct (p []) as [[x r]|]; [|reflexivity].
    destruct (Nat.ltb_spec (List.length r) (List.length (@nil N))); [cbn in *; lia|reflexivity].
  - destruct m as [|m].
    + destruct s; cbn in Hm; [|lia].
      cbn [pmany_n]. destruct (p []) as [[x r]|]; [|reflexivity].
      destruct (Nat.ltb_spec (List.length r) (List.length (@nil N))); [cbn in *; lia|reflexivity].
    + cbn [pmany_n]. destruct (p s) as [[x r]|]; [|reflexivity].
      destruct (Nat.ltb_spec (List.length r) (List.length s)); [|reflexivity].
      rewrite (IH m r) by lia. reflexivity.
Qed.

(** unfolding equation of e* *)
Lemma pmany_eq {A} (p : parser A) s : consumes p ->
  pmany p s = match p s with
              | Some (x, r) => let (xs, r') := pmany p r in (x :: xs, r')
              | None => ([], s)
              end.
Proof.
  intros Hc. unfold pmany at 1. destruct (List.length s) as [|n] eqn:E.
  - cbn [pmany_n]. destruct (p s) as [[x r]|] eqn:Ep; [|reflexivity].
    apply Hc in Ep; lia.
  - cbn [pmany_n]. destruct (p s) as [[x r]|] eqn:Ep; [|reflexivity].
    pose proof (Hc _ _ _ Ep) as Hl. destruct (Nat.ltb_spec (List.length r) (List.length s)); [|lia].
    unfold pmany. rewrite (pmany_n_fuel p n (List.length r) r) by lia. reflexivity.
Qed.

(** what e* returns: a chain of matches, ending where e fails *)
Inductive many {A} (p : parser A) : str -> list A -> str -> Prop :=
| many_nil s : p s = None -> many p s [] s
| many_cons s x r xs r' : p s = Some (x, r) -> many p r xs r' -> many p s (x :: xs) r'.

Lemma pmany_many {A} (p : parser A) : consumes p ->
  forall s xs r, pmany p s = (xs, r) <-> many p s xs r.
Proof.
  intros Hc s xs r; split.
  - revert xs r. remember (List.length s) as n eqn:E. assert (Hn : List.length s <= n) by lia.
    clear E. revert s Hn; induction n as [|n IH]; intros s Hn xs r;
      rewrite (pmany_eq p s Hc); destruct (p s) as [[x r1]|] eqn:Ep.
    + apply Hc in Ep; lia.
    + intros H; injection H as <- <-; constructor; assumption.
    + destruct (pmany p r1) as [ys r2] eqn:Em. intros H; injection H as <- <-.
      econstructor; [eassumption|]. eapply IH; [|eassumption]. apply Hc in Ep; lia.
    + intros H; injection H as <- <-; constructor; assumption.
  - induction 1 as [s Hn|s x r1 ys r2 Hp Hm IH]; rewrite (pmany_eq p s Hc).
    + now rewrite Hn.
    + now rewrite Hp, IH.
Qed.

Lemma pmany1_many {A} (p : parser A) : consumes p ->
  forall s xs r, pmany1 p s = Some (xs, r) <-> xs <> [] /\ many p s xs r.
Proof.
  intros Hc s xs r; unfold pmany1; split.
  - destruct (p s) as [[x r1]|] eqn:Ep; [|discriminate].
    destruct (pmany p r1) as [ys r2] eqn:Em. intros H; injection H as <- <-.
    apply (pmany_many p Hc) in Em. split; [discriminate|econstructor; eassumption].
  - intros [Hne Hm]. destruct Hm as [s Hn|s x r1 ys r2 Hp Hm]; [congruence|].
    rewrite Hp. apply (pmany_many p Hc) in Hm. now rewrite Hm.
Qed.

(** ** Attribute descriptions *)
Lemma alpha_keychar c : is_alpha c = true -> is_keychar c = true.
Proof. unfold is_keychar; intros ->; reflexivity. Qed.
Lemma digit_keychar c : is_digit c = true -> is_keychar c = true.
Proof. unfold is_keychar; intros ->; now rewrite orb_true_r. Qed.
Lemma digit_not_alpha c : is_digit c = true -> is_alpha c = false.
Proof. unfold is_digit, is_alpha, between. intros; lia. Qed.

Lemma keystring_sound s k r : keystring s = Some (k, r) ->
  s = k ++ r /\ keystring_text k /\ stops is_keychar r.
Proof.
  unfold keystring, pchar. destruct s as [|c s]; [discriminate|].
  destruct (is_alpha c) eqn:E; [|discriminate].
  destruct (pspan is_keychar s) as [b r'] eqn:Es. intros H; injection H as <- <-.
  apply pspan_sound in Es as (-> & Hb & Hr). cbn [app]. repeat split; auto.
  exists c, b; auto.
Qed.
Lemma keystring_app k r : keystring_text k -> stops is_keychar r ->
  keystring (k ++ r) = Some (k, r).
Proof.
  intros (c & w & -> & Hc & Hw) Hr. chars. unfold keystring, pchar. cbn [app]. rewrite Hc.
  now rewrite (pspan_app _ _ _ Hw Hr).
Qed.

Lemma number_sound s n r : number s = Some (n, r) -> s = n ++ r /\ digit_text n.
Proof.
  unfold number, palt, pchar. destruct s as [|c s]; [discriminate|].
  destruct (is_digit c) eqn:E.
  - intros H; injection H as <- <-; split; [reflexivity|]. exists c; auto.
  - replace (is_ldigit c) with false by (unfold is_ldigit, is_digit, between in *; lia).
    discriminate.
Qed.
Lemma number_app n r : digit_text n -> number (n ++ r) = Some (n, r).
Proof. intros (d & -> & Hd). chars. unfold number, palt, pchar. cbn [app]. now rewrite Hd. Qed.

Lemma dot_number_sound s n r : dot_number s = Some (n, r) ->
  exists m, n = lit "." ++ m /\ s = n ++ r /\ digit_text m.
Proof.
  unfold dot_number. destruct (plit (lit ".") s) as [r1|] eqn:E; [|discriminate].
  apply plit_sound in E as ->. destruct (number r1) as [[m r2]|] eqn:En; [|discriminate].
  apply number_sound in En as [-> Hm]. intros H; injection H as <- <-.
  exists m; repeat split; auto. 
Qed.
Lemma dot_number_app m r : digit_text m -> dot_number ((lit "." ++ m) ++ r) = Some (lit "." ++ m, r).
Proof.
  intros H. unfold dot_number. rewrite <- app_assoc, plit_app, (number_app _ _ H). reflexivity.
Qed.
Lemma dot_number_consumes : consumes dot_number.
Proof.
  intros s x r H. apply dot_number_sound in H as (m & -> & -> & _).
  rewrite !app_length; cbn; lia.
Qed.
Lemma dot_number_stop r : stops (N.eqb (ch ".")) r -> dot_number r = None.
Proof.
  intros H. unfold dot_number. destruct r as [|c r]; [reflexivity|]. cbn [stops] in H.
  change (lit ".") with [ch "."]. cbn [plit]. now rewrite H.
Qed.

Lemma many_dot_sound s l r : many dot_number s l r ->
  exists ms, l = map (fun m => lit "." ++ m) ms /\ s = List.concat l ++ r /\ Forall digit_text ms.
Proof.
  induction 1 as [s Hn|s x r xs r' Hp Hm IH].
  - exists []; repeat split; constructor.
  - destruct IH as (ms & -> & -> & Hf). apply dot_number_sound in Hp as (m & -> & -> & Hm').
    exists (m :: ms); repeat split; auto. cbn [map List.concat]. now rewrite <- !app_assoc.
Qed.
Lemma many_dot_app ms r : Forall digit_text ms -> stops (N.eqb (ch ".")) r ->
  many dot_number (List.concat (map (fun m => lit "." ++ m) ms) ++ r)
       (map (fun m => lit "." ++ m) ms) r.
Proof.
  intros H Hr; induction H as [|m ms Hm Hms IH].
  - constructor. now apply dot_number_stop.
  - cbn [map List.concat]. rewrite <- app_assoc. econstructor; [|exact IH].
    now apply dot_number_app.
Qed.

Lemma numericoid_sound s o r : numericoid s = Some (o, r) -> s = o ++ r /\ smalloid_text o.
Proof.
  unfold numericoid. destruct (number s) as [[n r1]|] eqn:E; [|discriminate].
  apply number_sound in E as [-> Hn].
  destruct (pmany1 dot_number r1) as [[l r2]|] eqn:Em; [|discriminate].
  apply (pmany1_many _ dot_number_consumes) in Em as [Hne Hm].
  apply many_dot_sound in Hm as (ms & -> & -> & Hf). intros H; injection H as <- <-.
  split; [now rewrite <- app_assoc|]. exists n, ms; repeat split; auto.
  destruct ms; [now contradict Hne|discriminate].
Qed.
Lemma numericoid_app o r : smalloid_text o -> stops (N.eqb (ch ".")) r ->
  numericoid (o ++ r) = Some (o, r).
Proof.
  intros (n & l & -> & Hn & Hl & Hf) Hr. unfold numericoid.
  rewrite <- app_assoc, (number_app _ _ Hn).
  pose proof (many_dot_app l r Hf Hr) as Hm.
  assert (Hne : map (fun m => lit "." ++ m) l <> []) by (destruct l; [congruence|discriminate]).
  pose proof (proj2 (pmany1_many _ dot_number_consumes _ _ _) (conj Hne Hm)) as ->.
  reflexivity.
Qed.

Lemma smalloid_head o : smalloid_text o -> exists d w, o = d :: w /\ is_digit d = true.
Proof.
  intros (n & l & -> & (d & -> & Hd) & _). eexists d, _; split; [reflexivity|assumption].
Qed.

(** a text that no attribute description or OID can swallow *)
Definition oid_stop (c : N) : bool :=
  negb (is_keychar c || N.eqb (ch ".") c).
Definition attr_stop (c : N) : bool := oid_stop c && negb (N.eqb (ch ";") c).

Lemma oid_sound s o r : oid s = Some (o, r) -> s = o ++ r /\ oid_text o.
Proof.
  unfold oid, palt. destruct (keystring s) as [[k r1]|] eqn:E.
  - intros H; injection H as <- <-. apply keystring_sound in E as (-> & H & _).
    split; [reflexivity|now left].
  - intros H; apply numericoid_sound in H as [-> H]; split; [reflexivity|now right].
Qed.
Lemma oid_app o c r : oid_text o -> oid_stop c = true -> oid (o ++ c :: r) = Some (o, c :: r).
Proof.
  intros [H|H] Hc; unfold oid, palt.
  - rewrite keystring_app; auto. cbn [stops]. unfold oid_stop in Hc; destruct (is_keychar c); auto.
  - replace (keystring (o ++ c :: r)) with (@None (str * str)).
    + apply numericoid_app; auto. cbn [stops]. unfold oid_stop in Hc.
      destruct (N.eqb (ch ".") c); auto. rewrite orb_true_r in Hc; discriminate.
    + apply smalloid_head in H as (d & w & -> & Hd). unfold keystring, pchar. cbn [app].
      now rewrite (digit_not_alpha _ Hd).
Qed.
Lemma oid_head o : oid_text o -> exists c w, o = c :: w /\ (is_alpha c = true \/ is_digit c = true).
Proof.
  intros [(c & w & -> & Hc & _)|H]; [eexists _, _; eauto|].
  apply smalloid_head in H as (d & w & -> & Hd); eauto.
Qed.
Lemma oid_bad c r : is_alpha c = false -> is_digit c = false -> oid (c :: r) = None.
Proof.
  intros Ha Hd. unfold oid, palt, keystring, numericoid, number, palt, pchar. rewrite Ha, Hd.
  replace (is_ldigit c) with false by (unfold is_ldigit, is_digit, between in *; lia).
  reflexivity.
Qed.

Lemma semi_option_sound s x r : semi_option s = Some (x, r) ->
  exists o, x = lit ";" ++ o /\ s = x ++ r /\ option_text o.
Proof.
  unfold semi_option. destruct (plit (lit ";") s) as [r1|] eqn:E; [|discriminate].
  apply plit_sound in E as ->. destruct (pspan is_keychar r1) as [a r2] eqn:Es.
  apply pspan_sound in Es as (-> & Ha & _).
  destruct a as [|c a]; [discriminate|]. intros H; injection H as <- <-.
  exists (c :: a); repeat split; auto. discriminate.
Qed.
Lemma semi_option_app o r : option_text o -> stops is_keychar r ->
  semi_option ((lit ";" ++ o) ++ r) = Some (lit ";" ++ o, r).
Proof.
  intros [Hne Hf] Hr. unfold semi_option. chars. rewrite <- app_assoc, plit_app, (pspan_app _ _ _ Hf Hr).
  destruct o; [congruence|reflexivity].
Qed.
Lemma semi_option_consumes : consumes semi_option.
Proof.
  intros s x r H. apply semi_option_sound in H as (m & -> & -> & _).
  rewrite !app_length; cbn; lia.
Qed.
Lemma many_semi_sound s l r : many semi_option s l r ->
  exists ms, l = map (fun m => lit ";" ++ m) ms /\ s = List.concat l ++ r /\ Forall option_text ms.
Proof.
  induction 1 as [s Hn|s x r xs r' Hp Hm IH].
  - exists []; repeat split; constructor.
  - destruct IH as (ms & -> & -> & Hf). apply semi_option_sound in Hp as (m & -> & -> & Hm').
    exists (m :: ms); repeat split; auto. cbn [map List.concat]. now rewrite <- !app_assoc.
Qed.
Lemma attr_stop_inv c : attr_stop c = true ->
  is_keychar c = false /\ N.eqb (ch ".") c = false /\ N.eqb (ch ";") c = false.
Proof.
  unfold attr_stop, oid_stop. destruct (is_keychar c), (N.eqb (ch ".") c), (N.eqb (ch ";") c);
    cbn; intuition discriminate.
Qed.
Lemma many_semi_app ms c r : Forall option_text ms -> attr_stop c = true ->
  many semi_option (List.concat (map (fun m => lit ";" ++ m) ms) ++ c :: r)
       (map (fun m => lit ";" ++ m) ms) (c :: r).
Proof.
  intros H Hc; apply attr_stop_inv in Hc as (Hk & _ & Hs).
  induction H as [|m ms Hm Hms IH].
  - constructor. unfold semi_option. change (lit ";") with [ch ";"]. cbn [plit map List.concat app].
    now rewrite Hs.
  - cbn [map List.concat]. rewrite <- app_assoc. econstructor; [|exact IH].
    apply semi_option_app; auto. destruct ms; cbn; auto.
Qed.

Lemma attr_sound s a r : attr s = Some (a, r) -> s = a ++ r /\ attr_text a.
Proof.
  unfold attr. destruct (oid s) as [[o r1]|] eqn:E; [|discriminate].
  apply oid_sound in E as [-> Ho].
  destruct (pmany semi_option r1) as [l r2] eqn:Em.
  apply (pmany_many _ semi_option_consumes) in Em. apply many_semi_sound in Em as (ms & -> & -> & Hf).
  intros H; injection H as <- <-. split; [now rewrite <- app_assoc|].
  exists o, ms; auto.
Qed.
Lemma attr_app a c r : attr_text a -> attr_stop c = true -> attr (a ++ c :: r) = Some (a, c :: r).
Proof.
  intros (o & opts & -> & Ho & Hf) Hc. unfold attr, with_options. rewrite <- app_assoc.
  pose proof (many_semi_app opts c r Hf Hc) as Hm.
  apply (pmany_many _ semi_option_consumes) in Hm.
  assert (E : oid (o ++ List.concat (map (fun x => lit ";" ++ x) opts) ++ c :: r)
              = Some (o, List.concat (map (fun x => lit ";" ++ x) opts) ++ c :: r)).
  { destruct opts as [|x opts]; cbn [map List.concat app].
    - apply oid_app; auto. unfold attr_stop in Hc; now apply andb_prop in Hc.
    - change (lit ";") with [ch ";"]. cbn [app]. now apply oid_app. }
  now rewrite E, Hm.
Qed.
Lemma attr_head a : attr_text a -> exists c w, a = c :: w /\ (is_alpha c = true \/ is_digit c = true).
Proof.
  intros (o & opts & -> & Ho & _). apply oid_head in Ho as (c & w & -> & H).
  exists c; eexists; split; [reflexivity|auto].
Qed.
Lemma attr_bad c r : is_alpha c = false -> is_digit c = false -> attr (c :: r) = None.
Proof. intros Ha Hd. unfold attr. now rewrite oid_bad. Qed.

(** ** Values *)
Lemma str_ind3 (P : str -> Prop) :
  P [] -> (forall c s, (forall t, List.length t <= List.length s -> P t) -> P (c :: s)) -> forall s, P s.
Proof.
  intros H0 H1 s. remember (List.length s) as n eqn:E. assert (Hn : List.length s <= n) by lia.
  clear E. revert s Hn; induction n as [|n IH]; intros [|c s] Hn; auto; cbn in Hn; [lia|].
  apply H1. intros t Ht; apply IH; lia.
Qed.
Lemma avalue_bs h1 h2 s : avalue (ch "\" :: h1 :: h2 :: s)
  = if is_hex h1 && is_hex h2 then let (a, r) := avalue s in (ch "\" :: h1 :: h2 :: a, r)
    else ([], ch "\" :: h1 :: h2 :: s).
Proof. reflexivity. Qed.
Lemma avalue_sound s : forall v r, avalue s = (v, r) -> s = v ++ r /\ value_text v /\ avalue r = ([], r).
Proof.
  induction s as [|c s IH] using str_ind3; intros v r.
  - cbn. intros H; injection H as <- <-; repeat split; constructor.
  - cbn [avalue]. destruct (is_normal c) eqn:En.
    { destruct (avalue s) as [a r'] eqn:E. intros H; injection H as <- <-.
      destruct (IH s (le_n _) _ _ E) as (-> & Hv & Hr). repeat split; auto. now constructor. }
    destruct (N.eqb_spec c (ch "\")) as [->|Hc].
    + destruct s as [|h1 [|h2 s]]; try (intros H; injection H as <- <-; repeat split; constructor).
      destruct (is_hex h1 && is_hex h2) eqn:Eh.
      * destruct (avalue s) as [a r'] eqn:E. intros H; injection H as <- <-.
        destruct (IH s ltac:(cbn; lia) _ _ E) as (-> & Hv & Hr).
        apply andb_prop in Eh as [H1 H2]. repeat split; auto. now constructor.
      * intros H; injection H as <- <-; repeat split; try constructor.
        rewrite avalue_bs. now rewrite Eh.
    + intros H; injection H as <- <-; repeat split; try constructor.
      cbn [avalue]. rewrite En. destruct (N.eqb_spec c (ch "\")); congruence.
Qed.
Lemma avalue_app v r : value_text v -> avalue r = ([], r) -> avalue (v ++ r) = (v, r).
Proof.
  intros H Hr; induction H as [|c v Hc Hv IH|h1 h2 v H1 H2 Hv IH]; cbn [app]; auto.
  - cbn [avalue]. chars. now rewrite Hc, IH.
  - chars. now rewrite avalue_bs, H1, H2, IH.
Qed.
Definition vstop (c : N) : bool := negb (is_normal c) && negb (N.eqb c (ch "\")).
Lemma avalue_stop c r : vstop c = true -> avalue (c :: r) = ([], c :: r).
Proof.
  unfold vstop. intros H; apply andb_prop in H as [H1 H2]. cbn [avalue].
  destruct (is_normal c); [discriminate|]. destruct (N.eqb c (ch "\")); [discriminate|reflexivity].
Qed.

(** ** Substrings *)
Lemma av_star_sound s v r : av_star s = Some (v, r) -> s = (v ++ lit "*") ++ r /\ value_text v.
Proof.
  unfold av_star. destruct (avalue s) as [a r1] eqn:E. apply avalue_sound in E as (-> & Hv & _).
  destruct (plit (lit "*") r1) as [r2|] eqn:E; [|discriminate]. apply plit_sound in E as ->.
  intros H; injection H as <- <-. split; [now rewrite <- app_assoc|assumption].
Qed.
Lemma av_star_app v r : value_text v -> av_star ((v ++ lit "*") ++ r) = Some (v, r).
Proof.
  intros H. unfold av_star. rewrite <- app_assoc.
  change (lit "*") with [ch "*"] at 1. cbn [app].
  rewrite (avalue_app v (ch "*" :: r) H) by (apply avalue_stop; reflexivity). reflexivity.
Qed.
Lemma av_star_consumes : consumes av_star.
Proof.
  intros s v r H. apply av_star_sound in H as [-> _]. rewrite !app_length; cbn; lia.
Qed.
Lemma av_star_None v c r : value_text v -> vstop c = true -> c <> ch "*" -> av_star (v ++ c :: r) = None.
Proof.
  intros Hv Hc Hn. unfold av_star. rewrite avalue_app; auto using avalue_stop.
  rewrite plit_None'; [reflexivity|]. intros [x H]; cbn in H; apply Hn; unfold ch; now injection H.
Qed.
Lemma many_star_sound s l r : many av_star s l r ->
  s = List.concat (map (fun v => v ++ lit "*") l) ++ r /\ Forall value_text l /\ av_star r = None.
Proof.
  induction 1 as [s Hn|s x r xs r' Hp Hm IH]; [repeat split; auto|].
  destruct IH as (-> & Hf & Hn). apply av_star_sound in Hp as [-> Hx].
  repeat split; auto. cbn [map List.concat]. now rewrite <- !app_assoc.
Qed.
Lemma many_star_app l r : Forall value_text l -> av_star r = None ->
  many av_star (List.concat (map (fun v => v ++ lit "*") l) ++ r) l r.
Proof.
  induction 1 as [|v l Hv Hl IH]; intros Hr; cbn [map List.concat app].
  - now constructor.
  - rewrite <- app_assoc. econstructor; [now apply av_star_app|auto].
Qed.

Lemma substring_sound s f r : substring s = Some (f, r) -> exists b, s = b ++ r /\ cmp_text f b.
Proof.
  unfold substring. destruct (attr s) as [[a r1]|] eqn:E; [|discriminate].
  apply attr_sound in E as [-> Ha].
  destruct (plit (lit "=") r1) as [r2|] eqn:E; [|discriminate]. apply plit_sound in E as ->.
  destruct (avalue r2) as [ini r3] eqn:E. apply avalue_sound in E as (-> & Hi & _).
  destruct (plit (lit "*") r3) as [r4|] eqn:E; [|discriminate]. apply plit_sound in E as ->.
  destruct (pmany av_star r4) as [anys r5] eqn:E. apply (pmany_many _ av_star_consumes) in E.
  apply many_star_sound in E as (-> & Hany & _).
  destruct (avalue r5) as [fin r6] eqn:E. apply avalue_sound in E as (-> & Hf & _).
  intros H; injection H as <- <-.
  exists (a ++ lit "=" ++ ini ++ lit "*" ++ List.concat (map (fun v => v ++ lit "*") anys) ++ fin).
  split; [now rewrite <- !app_assoc|].
  pose proof (ct_subs a ini anys fin Ha Hi Hany Hf) as H. unfold mk_subs in H.
  destruct ini, anys, fin; exact H.
Qed.
Lemma rparen_vstop : vstop (ch ")") = true.
Proof. reflexivity. Qed.

Ltac lits :=
  repeat match goal with
  | |- context [lit ?x] => let y := eval cbv in (lit x) in change (lit x) with y
  end.

Lemma substring_app a ini anys fin r : attr_text a -> value_text ini -> Forall value_text anys ->
  value_text fin ->
  substring ((a ++ lit "=" ++ ini ++ lit "*"
              ++ List.concat (map (fun v => v ++ lit "*") anys) ++ fin) ++ ch ")" :: r)
  = Some (mk_subs a ini anys fin, ch ")" :: r).
Proof.
  intros Ha Hi Hany Hf. unfold substring. rewrite <- !app_assoc.
  change (lit "=" ++ ?x) with (ch "=" :: x). rewrite (attr_app a (ch "=") _ Ha eq_refl).
  change (ch "=" :: ?x) with (lit "=" ++ x). rewrite plit_app.
  change (lit "*" ++ List.concat ?y ++ ?x) with (ch "*" :: (List.concat y ++ x)).
  rewrite (avalue_app ini) by (auto using avalue_stop).
  change (ch "*" :: ?x) with (lit "*" ++ x). rewrite plit_app.
  assert (Hn : av_star (fin ++ ch ")" :: r) = None)
    by (apply av_star_None; [assumption|reflexivity|discriminate]).
  pose proof (many_star_app anys _ Hany Hn) as Hm. apply (pmany_many _ av_star_consumes) in Hm.
  rewrite Hm. rewrite (avalue_app fin) by (auto using avalue_stop, rparen_vstop).
  unfold mk_subs. destruct ini, anys, fin; reflexivity.
Qed.

(** ** Comparisons *)
Lemma filtertype_sound s mk r : filtertype s = Some (mk, r) ->
  (mk = FApprox /\ s = lit "~=" ++ r) \/ (mk = FGe /\ s = lit ">=" ++ r)
  \/ (mk = FLe /\ s = lit "<=" ++ r) \/ (mk = FEq /\ s = lit "=" ++ r).
Proof.
  unfold filtertype.
  destruct (plit (lit "~=") s) eqn:E1. { intros H; injection H as <- <-. apply plit_sound in E1; auto. }
  destruct (plit (lit ">=") s) eqn:E2. { intros H; injection H as <- <-. apply plit_sound in E2; auto. }
  destruct (plit (lit "<=") s) eqn:E3. { intros H; injection H as <- <-. apply plit_sound in E3; auto. }
  destruct (plit (lit "=") s) eqn:E4; [|discriminate]. intros H; injection H as <- <-.
  apply plit_sound in E4; auto 6.
Qed.
Lemma simple_sound s f r : simple s = Some (f, r) -> exists b, s = b ++ r /\ cmp_text f b.
Proof.
  unfold simple. destruct (attr s) as [[a r1]|] eqn:E; [|discriminate].
  apply attr_sound in E as [-> Ha].
  destruct (filtertype r1) as [[mk r2]|] eqn:E; [|discriminate].
  destruct (avalue r2) as [v r3] eqn:Ev. apply avalue_sound in Ev as (-> & Hv & _).
  intros H; injection H as <- <-.
  apply filtertype_sound in E as [[-> ->]|[[-> ->]|[[-> ->]|[-> ->]]]].
  - exists (a ++ lit "~=" ++ v); split; [now rewrite <- !app_assoc|now constructor].
  - exists (a ++ lit ">=" ++ v); split; [now rewrite <- !app_assoc|now constructor].
  - exists (a ++ lit "<=" ++ v); split; [now rewrite <- !app_assoc|now constructor].
  - exists (a ++ lit "=" ++ v); split; [now rewrite <- !app_assoc|now constructor].
Qed.

Lemma opt_dnattrs_sound s dn r : opt_dnattrs s = (dn, r) ->
  (dn = true /\ s = lit ":dn" ++ r) \/ (dn = false /\ s = r /\ ~ starts_with (lit ":dn") s).
Proof.
  unfold opt_dnattrs. destruct (plit (lit ":dn") s) as [r1|] eqn:E; intros H; injection H as <- <-.
  - apply plit_sound in E; auto.
  - apply plit_None in E; auto.
Qed.
Lemma matchingrule_sound s o r : matchingrule s = Some (o, r) ->
  s = lit ":" ++ o ++ r /\ oid_text o.
Proof.
  unfold matchingrule. destruct (plit (lit ":") s) as [r1|] eqn:E; [|discriminate].
  apply plit_sound in E as ->. intros H; apply oid_sound in H as [-> H]; auto.
Qed.
Lemma matchingrule_app o c r : oid_text o -> oid_stop c = true ->
  matchingrule (lit ":" ++ o ++ c :: r) = Some (o, c :: r).
Proof. intros Ho Hc. unfold matchingrule. rewrite plit_app. now apply oid_app. Qed.
Lemma matchingrule_None r : matchingrule (lit ":=" ++ r) = None.
Proof. unfold matchingrule. lits. cbn [app plit]. rewrite N.eqb_refl. now apply oid_bad. Qed.

Lemma extensible_sound s f r : extensible s = Some (f, r) -> exists b, s = b ++ r /\ cmp_text f b.
Proof.
  unfold extensible, palt. destruct (extensible1 s) as [[f1 r1]|] eqn:E1.
  - intros H; injection H as <- <-. revert E1. unfold extensible1.
    destruct (attr s) as [[a r2]|] eqn:E; [|discriminate]. apply attr_sound in E as [-> Ha].
    destruct (opt_dnattrs r2) as [dn r3] eqn:Ed. apply opt_dnattrs_sound in Ed.
    destruct (opt_rule r3) as [rule r4] eqn:Er. unfold opt_rule in Er.
    destruct (plit (lit ":=") r4) as [r5|] eqn:E; [|discriminate]. apply plit_sound in E as ->.
    destruct (avalue r5) as [v r6] eqn:Ev. apply avalue_sound in Ev as (-> & Hv & _).
    intros H; injection H as <- <-.
    exists (ext_text a dn rule v). unfold ext_text.
    destruct (matchingrule r3) as [[o r7]|] eqn:Em.
    + injection Er as <- ->. apply matchingrule_sound in Em as [-> Ho].
      destruct Ed as [[-> ->]|[-> [-> Hd]]]; (split; [now rewrite <- !app_assoc|]);
        apply ct_ext; auto; split; auto. right. intros [w ->]. apply Hd.
      eexists. rewrite <- !app_assoc. reflexivity.
    + injection Er as <- ->.
      destruct Ed as [[-> ->]|[-> [-> Hd]]]; (split; [now rewrite <- !app_assoc|]);
        apply ct_ext; auto; exact I.
  - unfold extensible2.
    destruct (opt_dnattrs s) as [dn r3] eqn:Ed. apply opt_dnattrs_sound in Ed.
    destruct (matchingrule r3) as [[o r4]|] eqn:Em; [|discriminate].
    apply matchingrule_sound in Em as [-> Ho].
    destruct (plit (lit ":=") r4) as [r5|] eqn:E; [|discriminate]. apply plit_sound in E as ->.
    destruct (avalue r5) as [v r6] eqn:Ev. apply avalue_sound in Ev as (-> & Hv & _).
    intros H; injection H as <- <-.
    exists (ext_text [] dn (Some o) v). unfold ext_text. cbn [app].
    destruct Ed as [[-> ->]|[-> [-> Hd]]]; (split; [now rewrite <- !app_assoc|]);
      apply ct_ext0; auto; split; auto. right. intros [w ->]. apply Hd.
    eexists. rewrite <- !app_assoc. reflexivity.
Qed.

Lemma ava_sound s f r : ava s = Some (f, r) -> exists b, s = b ++ r /\ cmp_text f b.
Proof.
  unfold ava, palt. destruct (substring s) as [[f1 r1]|] eqn:E.
  { intros H; injection H as <- <-. now apply substring_sound. }
  destruct (simple s) as [[f1 r1]|] eqn:E1.
  { intros H; injection H as <- <-. now apply simple_sound. }
  apply extensible_sound.
Qed.

(** completeness: a comparison followed by a closing parenthesis is recognised *)
Lemma substring_simple_None a w v r : attr_text a -> value_text v ->
  w = lit "~=" \/ w = lit ">=" \/ w = lit "<=" \/ w = lit "=" ->
  substring ((a ++ w ++ v) ++ ch ")" :: r) = None.
Proof.
  intros Ha Hv Hw. unfold substring. rewrite <- !app_assoc.
  assert (Hs : exists c w', w = c :: w' /\ attr_stop c = true)
    by (destruct Hw as [->|[->|[->| ->]]]; eexists _, _; (split; [reflexivity|reflexivity])).
  destruct Hs as (c & w' & Ew & Hc). rewrite Ew. cbn [app]. rewrite (attr_app _ _ _ Ha Hc).
  destruct Hw as [->|[->|[->| ->]]]; injection Ew as <- <-; try reflexivity.
  change (([] : str) ++ ?x) with x.
  replace (plit _ _) with (Some (v ++ ch ")" :: r)) by reflexivity.
  rewrite (avalue_app v) by (auto using avalue_stop, rparen_vstop).
  reflexivity.
Qed.
Lemma simple_app a w mk v r : attr_text a -> value_text v ->
  (mk = FApprox /\ w = lit "~=") \/ (mk = FGe /\ w = lit ">=")
  \/ (mk = FLe /\ w = lit "<=") \/ (mk = FEq /\ w = lit "=") ->
  simple ((a ++ w ++ v) ++ ch ")" :: r) = Some (mk a v, ch ")" :: r).
Proof.
  intros Ha Hv Hw. unfold simple. rewrite <- !app_assoc.
  assert (Hs : exists c w', w = c :: w' /\ attr_stop c = true)
    by (destruct Hw as [[? ->]|[[? ->]|[[? ->]|[? ->]]]]; eexists _, _; (split; [reflexivity|reflexivity])).
  destruct Hs as (c & w' & Ew & Hc). rewrite Ew. cbn [app]. rewrite (attr_app _ _ _ Ha Hc).
  assert (Hf : filtertype (c :: w' ++ v ++ ch ")" :: r) = Some (mk, v ++ ch ")" :: r)).
  { change (c :: w' ++ v ++ ch ")" :: r) with ((c :: w') ++ v ++ ch ")" :: r). rewrite <- Ew.
    unfold filtertype.
    destruct Hw as [[-> ->]|[[-> ->]|[[-> ->]|[-> ->]]]]; reflexivity. }
  rewrite Hf, (avalue_app v) by (auto using avalue_stop, rparen_vstop). reflexivity.
Qed.

Lemma ext_tail_None b : starts_with (lit ":") b -> plit (lit "=") b = None /\ filtertype b = None.
Proof. intros [r ->]. split; reflexivity. Qed.

Lemma ext_text_tail a dn rule v : exists b, ext_text a dn rule v = a ++ b /\ starts_with (lit ":") b.
Proof.
  unfold ext_text. eexists; split; [reflexivity|].
  destruct dn; [eexists; reflexivity|]. destruct rule; eexists; reflexivity.
Qed.

Lemma dn_rule_app dn rule v r : rule_ok dn rule ->
  let b := (if dn then lit ":dn" else [])
    ++ match rule with Some r => lit ":" ++ r | None => [] end ++ lit ":=" ++ v ++ ch ")" :: r in
  exists b', opt_dnattrs b = (dn, b') /\ opt_rule b' = (rule, lit ":=" ++ v ++ ch ")" :: r)
   /\ matchingrule b' = match rule with Some o => Some (o, lit ":=" ++ v ++ ch ")" :: r) | None => None end.
Proof.
  intros Hr b.
  assert (E : opt_dnattrs b = (dn, match rule with Some r => lit ":" ++ r | None => [] end
                                   ++ lit ":=" ++ v ++ ch ")" :: r)).
  { unfold b, opt_dnattrs. destruct dn.
    - now rewrite plit_app.
    - cbn [app]. rewrite plit_None'; [reflexivity|]. intros [w Hw].
      destruct rule as [o|]; [|discriminate]. destruct Hr as [Ho [Hd|Hd]]; [discriminate|].
      cbn in Hw. injection Hw as Hw. apply Hd.
      destruct o as [|c [|c' o]]; cbn in Hw.
      + discriminate.
      + injection Hw as -> Hw. discriminate.
      + injection Hw as -> -> _. exists o; reflexivity. }
  eexists; split; [exact E|]. unfold opt_rule. destruct rule as [o|].
  - destruct Hr as [Ho _]. rewrite <- app_assoc.
    change (lit ":=" ++ ?x) with (ch ":" :: (lit "=" ++ x)).
    rewrite (matchingrule_app o (ch ":") _ Ho eq_refl). auto.
  - cbn [app]. rewrite matchingrule_None. auto.
Qed.

Lemma ava_app f b r : cmp_text f b -> ava (b ++ ch ")" :: r) = Some (f, ch ")" :: r).
Proof.
  intros H; unfold ava, palt; destruct H as [a v Ha Hv|a v Ha Hv|a v Ha Hv|a v Ha Hv
    |a ini anys fin Ha Hi Hany Hf|a dn rule v Ha Hr Hv|dn o v Hr Hv].
  1-4: rewrite substring_simple_None; auto; erewrite simple_app; eauto 6.
  - now rewrite substring_app.
  - destruct (ext_text_tail a dn rule v) as (b & Eb & w & Ew).
    assert (Hat : attr (ext_text a dn rule v ++ ch ")" :: r) = Some (a, b ++ ch ")" :: r)).
    { rewrite Eb, Ew, <- !app_assoc. now apply attr_app. }
    unfold substring, simple. rewrite Hat.
    destruct (ext_tail_None (b ++ ch ")" :: r)) as [-> ->].
    { exists (w ++ ch ")" :: r). now rewrite Ew, <- app_assoc. }
    unfold extensible, palt, extensible1. rewrite Hat.
    assert (Hb : b ++ ch ")" :: r = (if dn then lit ":dn" else [])
      ++ match rule with Some r => lit ":" ++ r | None => [] end ++ lit ":=" ++ v ++ ch ")" :: r).
    { unfold ext_text in Eb. apply app_inv_head in Eb. rewrite <- Eb, <- !app_assoc. reflexivity. }
    rewrite Hb. destruct (dn_rule_app dn rule v r Hr) as (b' & -> & -> & _).
    rewrite plit_app, (avalue_app v) by (auto using avalue_stop, rparen_vstop). reflexivity.
  - assert (Hat : attr (ext_text [] dn (Some o) v ++ ch ")" :: r) = None).
    { destruct (ext_text_tail [] dn (Some o) v) as (b & Eb & w & Ew).
      rewrite Eb, Ew. apply attr_bad; reflexivity. }
    unfold substring, simple. rewrite Hat. unfold extensible, palt, extensible1, extensible2.
    rewrite Hat. unfold ext_text. cbn [app]. rewrite <- !app_assoc.
    destruct (dn_rule_app dn (Some o) v r Hr) as (b' & Ed & _ & Em). cbn [app] in Ed, Em.
    rewrite <- !app_assoc in Ed.
    cbn zeta in Ed. rewrite Ed, Em.
    rewrite plit_app, (avalue_app v) by (auto using avalue_stop, rparen_vstop). reflexivity.
Qed.

Lemma paren_ava_sound s f r : paren_ava s = Some (f, r) -> exists w, s = w ++ r /\ cmp_leaf w f.
Proof.
  unfold paren_ava. destruct (plit (lit "(") s) as [r1|] eqn:E; [|discriminate].
  apply plit_sound in E as ->. destruct (ava r1) as [[f1 r2]|] eqn:E; [|discriminate].
  apply ava_sound in E as (b & -> & Hb). destruct (plit (lit ")") r2) as [r3|] eqn:E; [|discriminate].
  apply plit_sound in E as ->. intros H; injection H as <- <-.
  exists (lit "(" ++ b ++ lit ")"). split; [now rewrite <- !app_assoc|]. exists b; auto.
Qed.
Lemma paren_ava_app w f r : cmp_leaf w f -> paren_ava (w ++ r) = Some (f, r).
Proof.
  intros (b & -> & Hb). unfold paren_ava. rewrite <- !app_assoc, plit_app.
  change (lit ")" ++ r) with (ch ")" :: r) at 1. rewrite (ava_app _ _ _ Hb).
  reflexivity.
Qed.
