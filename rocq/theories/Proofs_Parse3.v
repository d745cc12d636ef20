(** * Values of the parts: where they end, and what the code makes of them *)
From Verif Require Import PyBase Model_Prep Proofs_Prep Model_Uri Spec_Uri Proofs_Uri Model_Schema Model_Regex Spec_Regex Proofs_Regex
  Spec_Search Proofs_Search2 Model_Parse Spec_Parse Proofs_Parse Proofs_Parse2.

Lemma Forall_in {A} (P : A -> Prop) l x : Forall P l -> In x l -> P x.
Proof. rewrite Forall_forall. auto. Qed.

(** ** Characters *)
Definition oidchar (c : N) : Prop := (ALPHA c \/ DIGIT c \/ c = 45 \/ c = 46)%N.
Lemma descr_chars x : descr x -> x <> [] /\ Forall oidchar x.
Proof.
  intros (c & r & -> & Hc & Hr). split; [discriminate|]. constructor; [now left|]. revert Hr. apply Forall_impl. intros a. unfold oidchar.
  change (ch "-") with 45%N. tauto.
Qed.
Definition numchar (c : N) : Prop := DIGIT c \/ c = 46%N.
Lemma digits_chars x : digits x -> Forall numchar x.
Proof. intros [_ H]. revert H. apply Forall_impl. intros c. now left. Qed.
Lemma numericoid_chars x : numericoid code32 x -> x <> [] /\ Forall numchar x /\ starts DIGIT x.
Proof.
  intros (l & Hlen & Hl & ->). cbn [number code32] in Hl. destruct l as [|a [|b l]]; cbn [List.length] in Hlen; try lia.
  rewrite joined_concat. inversion Hl as [|? ? Ha Hl']; subst. destruct a as [|c a]; [now destruct Ha|].
  split; [discriminate|]. split; [|destruct Ha as [_ Ha]; now inversion Ha].
  apply Forall_app. split; [now apply digits_chars|].
  clear - Hl'. induction Hl' as [|y q Hy Hq IH]; [constructor|]. cbn [map List.concat app]. constructor; [now right|].
  apply Forall_app. split; [now apply digits_chars|exact IH].
Qed.
Lemma oid_chars x : oid code32 x -> x <> [] /\ Forall oidchar x.
Proof.
  intros [H|H]; [now apply descr_chars|]. apply numericoid_chars in H as (A & B & _). split; [exact A|]. revert B. apply Forall_impl.
  intros c [H| ->]; unfold oidchar; tauto.
Qed.
Lemma dpiece_quote x : dpiece x -> Forall (fun c => c <> 39%N) x /\ x <> [].
Proof.
  intros [->|[->|[->|(c & -> & H & _)]]]; (split; [|discriminate]); repeat (constructor; [try discriminate|]); try constructor; exact H.
Qed.
Lemma dstring_quote x : dstring x -> Forall (fun c => c <> 39%N) x /\ x <> [].
Proof.
  intros (l & Hn & Hl & ->). split.
  - clear Hn. induction Hl as [|y q Hy Hq IH]; [constructor|]. cbn [List.concat]. apply Forall_app. split; [now apply dpiece_quote|exact IH].
  - destruct Hl as [|y q Hy Hq]; [congruence|]. apply dpiece_quote in Hy as [_ Hy]. cbn [List.concat]. destruct y; [congruence|discriminate].
Qed.

(** ** Where values end *)
Definition simple (x : str) : Prop := x <> [] /\ Forall (fun c => c <> 32 /\ c <> 40 /\ c <> 41)%N x.
Definition listy (x : str) : Prop := exists i, x = 40%N :: i ++ [41%N] /\ Forall (fun c => c <> 41%N) i.
Lemma self_ending_intro a : (forall x, L a x -> simple x \/ listy x) -> self_ending a.
Proof.
  intros H x x' r r' Hx Hx' Hr Hr' E.
  assert (NF : forall r, follow r -> not_starts (fun c => c <> 32 /\ c <> 40 /\ c <> 41)%N r).
  { intros [|c q]; cbn; [auto|]. intros [-> | ->]; intros (A & B & C); congruence. }
  destruct (H x Hx) as [[Hn Hs]|(i & -> & Hi)], (H x' Hx') as [[Hn' Hs']|(i' & -> & Hi')].
  - apply run_split with (P := fun c => (c <> 32 /\ c <> 40 /\ c <> 41)%N) in E as [E _]; auto.
  - destruct x as [|c x]; [congruence|]. inversion Hs as [|? ? (_ & C & _) _]; subst. injection E as E0 E. congruence.
  - destruct x' as [|c x']; [congruence|]. inversion Hs' as [|? ? (_ & C & _) _]; subst. injection E as E0 E. congruence.
  - cbn [app] in E. injection E as E. rewrite <- !app_assoc in E. apply run_split with (P := fun c => c <> 41%N) in E as [-> _]; auto; cbn; intuition.
Qed.
Lemma oidchar_simple c : oidchar c -> (c <> 32 /\ c <> 40 /\ c <> 41 /\ c <> 36 /\ c <> 123 /\ c <> 125)%N /\ py_isspace c = false.
Proof.
  intros H. split; [unfold oidchar, ALPHA, DIGIT in H; lia|]. unfold py_isspace, in_ranges, py_space_ranges. cbn [existsb fst snd].
  unfold oidchar, ALPHA, DIGIT in H. lia.
Qed.
Lemma simple_oid x : oid code32 x -> simple x.
Proof. intros H. apply oid_chars in H as [A B]. split; [exact A|]. revert B. apply Forall_impl. intros c Hc. apply oidchar_simple in Hc. tauto. Qed.
Lemma qdescr_inv x t : qdescr x t -> t = 39%N :: x ++ [39%N] /\ descr x.
Proof. intros (a & b & -> & -> & c & d & -> & [-> H] & ->). split; [reflexivity|exact H]. Qed.
Lemma qdescr_intro x : descr x -> qdescr x (39%N :: x ++ [39%N]).
Proof. intros H. exists (lit "'"), (x ++ lit "'"). repeat split. exists x, (lit "'"). repeat split; exact H. Qed.
Lemma qdescr_chars x t : qdescr x t -> t <> [] /\ Forall (fun c => c = 39%N \/ oidchar c) t.
Proof.
  intros H. apply qdescr_inv in H as [-> H]. split; [discriminate|]. constructor; [now left|]. apply Forall_app. split; [|constructor; [now left|constructor]].
  apply descr_chars in H as [_ H]. revert H. apply Forall_impl. now right.
Qed.
Lemma sep_list_chars (P : N -> Prop) (One : str -> lang) (Sep : lang) : (forall x t, One x t -> Forall P t) -> (forall t, Sep t -> Forall P t) ->
  forall l t, sep_list One Sep l t -> Forall P t.
Proof.
  intros H1 H2. induction l as [|x l IH]; intros t H; [destruct H|]. destruct l as [|y l]; [now apply (H1 x)|].
  destruct H as (a & b & -> & Ha & c & d & -> & Hc & Hd). rewrite !Forall_app. split; [now apply (H1 x)|]. split; [now apply H2|now apply IH].
Qed.
Lemma paren_inv D A t : paren D A t -> exists u i v, t = 40%N :: u ++ i ++ v ++ [41%N] /\ wsp D u /\ A i /\ wsp D v.
Proof. intros (a & b & -> & -> & c & d & -> & Hc & e & f & -> & He & g & h & -> & Hg & ->). exists c, e, g. auto. Qed.
Lemma paren_intro D (A : lang) u i v : wsp D u -> A i -> wsp D v -> paren D A (40%N :: u ++ i ++ v ++ [41%N]).
Proof.
  intros Hu Hi Hv. exists [40%N], (u ++ i ++ v ++ [41%N]). repeat split. exists u, (i ++ v ++ [41%N]). repeat split; [exact Hu|].
  exists i, (v ++ [41%N]). repeat split; [exact Hi|]. exists v, [41%N]. repeat split; exact Hv.
Qed.
Lemma sp_chars t : sp code32 t -> Forall (fun c => c = 32%N) t. Proof. now intros [_ H]. Qed.
Lemma listy_paren (A : lang) t : (forall i, A i -> Forall (fun c => c <> 41%N) i) -> paren code32 A t -> listy t.
Proof.
  intros H Ht. apply paren_inv in Ht as (u & i & v & -> & Hu & Hi & Hv). exists (u ++ i ++ v). rewrite <- !app_assoc. split; [reflexivity|].
  rewrite !Forall_app. repeat split; [|now apply H|]; [revert Hu|revert Hv]; apply Forall_impl; cbn; intros c ->; discriminate.
Qed.
Lemma ends_qdescrs : self_ending rqdescrs.
Proof.
  apply self_ending_intro. intros x Hx. apply L_qdescrs in Hx as (l & [(y & -> & H)|H]).
  - left. apply qdescr_chars in H as [A B]. split; [exact A|]. revert B. apply Forall_impl. intros c [->|Hc]; [repeat split; discriminate|].
    apply oidchar_simple in Hc. tauto.
  - right. revert H. apply listy_paren. intros i Hi. revert Hi. apply sep_list_chars.
    + intros z t H. apply qdescr_chars in H as [_ H]. revert H. apply Forall_impl. intros c [->|Hc]; [discriminate|]. apply oidchar_simple in Hc. tauto.
    + intros t H. apply sp_chars in H. revert H. apply Forall_impl. intros c ->. discriminate.
Qed.
Lemma oid_sep_chars t : (wsp code32 ;; is (lit "$") ;; wsp code32) t -> exists u v, t = u ++ 36%N :: v /\ wsp code32 u /\ wsp code32 v.
Proof. intros (u & b & -> & Hu & c & v & -> & -> & Hv). exists u, v. auto. Qed.
Lemma ends_oids : self_ending roids.
Proof.
  apply self_ending_intro. intros x Hx. apply L_oids in Hx as (l & [(y & -> & [-> H])|H]).
  - left. now apply simple_oid.
  - right. revert H. apply listy_paren. intros i Hi. revert Hi. apply sep_list_chars.
    + intros z t [-> H]. apply oid_chars in H as [_ H]. revert H. apply Forall_impl. intros c Hc. apply oidchar_simple in Hc. tauto.
    + intros t H. apply oid_sep_chars in H as (u & v & -> & Hu & Hv). apply Forall_app. split; [|constructor; [discriminate|]];
        [revert Hu|revert Hv]; apply Forall_impl; cbn; intros c ->; discriminate.
Qed.
Lemma ends_oid : self_ending roid.
Proof. apply self_ending_intro. intros x Hx. apply L_oid in Hx. left. now apply simple_oid. Qed.
Lemma ends_noidlen : self_ending rnoidlen.
Proof.
  apply self_ending_intro. intros x Hx. left. apply L_noidlen in Hx as (o & len & a & b & -> & [-> Ho] & Hb).
  assert (So : simple o) by (apply simple_oid; now right). destruct So as [Hn So]. split.
  - destruct o; [congruence|discriminate].
  - apply Forall_app. split; [exact So|]. destruct len as [n|]; [|rewrite Hb; constructor].
    destruct Hb as (c & d & -> & -> & e & f & -> & [-> He] & ->). destruct He as [_ He].
    constructor; [repeat split; discriminate|]. apply Forall_app. split; [|constructor; [repeat split; discriminate|constructor]].
    revert He. apply Forall_impl. intros c. unfold DIGIT. lia.
Qed.
Lemma ends_usage : self_ending (RAlts (map RLit [lit "userApplications"; lit "directoryOperation"; lit "distributedOperation"; lit "dSAOperation"])).
Proof.
  apply self_ending_intro. intros x Hx. left. apply L_alts_lit in Hx; [|discriminate]. unfold simple.
  destruct Hx as [<-|[<-|[<-|[<-|[]]]]]; (split; [discriminate|]); apply Forall_forall; intros c Hc;
    cbn in Hc; repeat (destruct Hc as [<-|Hc]; [repeat split; discriminate|]); destruct Hc.
Qed.
Lemma qdstring_inv t : qdstring t -> exists d, t = 39%N :: d ++ [39%N] /\ dstring d.
Proof. intros (a & b & -> & -> & c & d & -> & H & ->). exists c. auto. Qed.
Lemma ends_qdstring : self_ending rqdstring.
Proof.
  intros x x' r r' Hx Hx' _ _ E. apply L_qdstring in Hx, Hx'. apply qdstring_inv in Hx as (d & -> & Hd). apply qdstring_inv in Hx' as (d' & -> & Hd').
  cbn [app] in E. injection E as E. rewrite <- !app_assoc in E. apply dstring_quote in Hd as [Hd _], Hd' as [Hd' _].
  apply run_split with (P := fun c => c <> 39%N) in E as [-> _]; auto; cbn; intuition.
Qed.
(** values do not begin with a space *)
Lemma starts_simple x : simple x \/ listy x -> not_starts (fun c => c = 32%N) x /\ x <> [].
Proof.
  intros [[Hn H]|(i & -> & _)]; [|split; [cbn|]; discriminate]. split; [|exact Hn]. destruct x as [|c x]; [congruence|]. inversion H; subst. cbn. tauto.
Qed.

(** ** Text without two spaces in a row *)
Definition nodouble (x : str) : Prop := ~ infix [32%N; 32%N] x.
Lemma nodouble_l a b : nodouble (a ++ b) -> nodouble a.
Proof. intros H (u & v & ->). apply H. exists u, (v ++ b). now rewrite <- !app_assoc. Qed.
Lemma nodouble_r a b : nodouble (a ++ b) -> nodouble b.
Proof. intros H (u & v & ->). apply H. exists (a ++ u), v. now rewrite <- !app_assoc. Qed.
Lemma sp_single u : sp code32 u -> nodouble u -> u = [32%N].
Proof.
  intros [Hn Hu] Hd. destruct u as [|a [|b u]]; [congruence| |].
  - inversion Hu; subst. cbn in *. congruence.
  - inversion Hu as [|? ? Ha Hu']; subst. inversion Hu'; subst. cbn in *. subst. elim Hd. exists [], u. reflexivity.
Qed.

(** ** strip at the edges *)
Definition edge (p : N -> bool) (x : str) : Prop := x <> [] /\ ends_ok p x /\ ends_ok p (rev x).
Lemma edge_all p x : x <> [] -> Forall (fun c => p c = false) x -> edge p x.
Proof.
  intros Hn H. split; [exact Hn|]. split; [destruct H; cbn; auto|]. apply Forall_rev in H. destruct (rev x) as [|c q]; [exact I|]. now inversion H.
Qed.
Lemma edge_app3 p a b c : edge p a -> edge p c -> edge p (a ++ b ++ c).
Proof.
  intros (Ha & Ha1 & _) (Hc & _ & Hc2). split; [|split].
  - destruct a; [congruence|discriminate].
  - destruct a; [congruence|exact Ha1].
  - rewrite !rev_app_distr. assert (Hr : rev c <> []) by (intros E; apply Hc; rewrite <- (rev_involutive c), E; reflexivity).
    destruct (rev c); [congruence|exact Hc2].
Qed.
Lemma edge_sep_list p (One : str -> lang) (Sep : lang) : (forall x t, One x t -> edge p t) -> forall l t, sep_list One Sep l t -> edge p t.
Proof.
  intros H. induction l as [|x l IH]; intros t Ht; [destruct Ht|]. destruct l as [|y l]; [now apply (H x)|].
  destruct Ht as (a & b & -> & Ha & c & d & -> & Hc & Hd). apply edge_app3; [now apply (H x)|now apply IH].
Qed.
Lemma strip_edge p a x b : Forall (fun c => p c = true) a -> edge p x -> Forall (fun c => p c = true) b -> strip_by p (a ++ x ++ b) = x.
Proof. intros Ha (_ & H1 & H2) Hb. now apply strip_core. Qed.
Lemma strip_edge0 p x : edge p x -> strip_by p x = x.
Proof. intros H. pose proof (strip_edge p [] x [] ltac:(constructor) H ltac:(constructor)) as E. cbn [app] in E. now rewrite app_nil_r in E. Qed.
Definition brk : N -> bool := fun c => N.eqb c 40 || N.eqb c 32 || N.eqb c 41.
Lemma strip_paren u x v : wsp code32 u -> edge brk x -> wsp code32 v -> strip_by brk (40%N :: u ++ x ++ v ++ [41%N]) = x.
Proof.
  intros Hu Hx Hv. change (40%N :: u ++ x ++ v ++ [41%N]) with ((40%N :: u) ++ x ++ v ++ [41%N]). apply strip_edge; [|exact Hx|].
  - constructor; [reflexivity|]. revert Hu. apply Forall_impl. cbn. intros c ->. reflexivity.
  - apply Forall_app. split; [|constructor; [reflexivity|constructor]]. revert Hv. apply Forall_impl. cbn. intros c ->. reflexivity.
Qed.

(** ** parse_qdescrs *)
Definition quoted (x : str) : str := 39%N :: x ++ [39%N].
Lemma edge_quoted p x : p 39%N = false -> edge p (quoted x).
Proof. intros H. split; [discriminate|]. split; [exact H|]. unfold quoted. cbn [rev]. rewrite rev_app_distr. cbn. exact H. Qed.
Lemma unquote x : descr x -> strip_by (fun c => N.eqb c 39) (quoted x) = x.
Proof.
  intros H. apply descr_chars in H as [Hn H]. unfold quoted. change (39%N :: x ++ [39%N]) with ([39%N] ++ x ++ [39%N]).
  apply strip_edge; [repeat constructor| |repeat constructor]. apply edge_all; [exact Hn|]. revert H. apply Forall_impl. intros c Hc.
  unfold oidchar, ALPHA, DIGIT in Hc. lia.
Qed.
Lemma quoted_no_space x : descr x -> ~ In 32%N (quoted x).
Proof.
  intros H Hin. apply (Forall_in _ _ _ (proj2 (qdescr_chars _ _ (qdescr_intro x H)))) in Hin. destruct Hin as [Hin|Hin]; [discriminate|].
  apply oidchar_simple in Hin. lia.
Qed.
Lemma qdescr_list_joined l t : sep_list qdescr (sp code32) l t -> nodouble t -> t = joined 32%N (map quoted l) /\ Forall descr l.
Proof.
  revert t. induction l as [|x l IH]; intros t H Hd; [destruct H|]. destruct l as [|y l].
  - apply qdescr_inv in H as [-> H]. split; [reflexivity|]. now constructor.
  - destruct H as (a & b & -> & Ha & c & d & -> & Hc & Hd'). apply qdescr_inv in Ha as [-> Ha].
    pose proof (nodouble_r _ _ Hd) as H1. pose proof (nodouble_l _ _ H1) as H2. pose proof (nodouble_r _ _ H1) as H3.
    apply sp_single in Hc; [|exact H2]. subst c. destruct (IH d Hd' H3) as [-> F]. split; [reflexivity|]. now constructor.
Qed.
Lemma parse_qdescrs_ok l x : qdescrs code32 l x -> nodouble x -> parse_qdescrs (Some x) = l.
Proof.
  unfold parse_qdescrs, qdescrs. fold brk. change (fun c => N.eqb c 40 || N.eqb c 32 || N.eqb c 41) with brk. intros [(y & -> & H)|H] Hd.
  - apply qdescr_inv in H as [-> H]. fold (quoted y). rewrite strip_edge0 by (now apply edge_quoted).
    rewrite py_split_none; [|discriminate|intros (a & b & E); apply (quoted_no_space y H); rewrite E, !in_app_iff; right; left; now left].
    cbn [map]. now rewrite unquote.
  - apply paren_inv in H as (u & i & v & -> & Hu & Hi & Hv).
    assert (Hdi : nodouble i). { apply (nodouble_r (40%N :: u)) in Hd. now apply nodouble_l in Hd. }
    assert (Ei : edge brk i). { revert Hi. apply edge_sep_list. intros z t Ht. apply qdescr_inv in Ht as [-> _]. now apply edge_quoted. }
    rewrite strip_paren by assumption. destruct (qdescr_list_joined _ _ Hi Hdi) as [-> Hl].
    assert (Hn : l <> []) by (destruct l; [destruct Hi|discriminate]).
    rewrite split_joined.
    + rewrite map_map. clear - Hl. induction Hl as [|z q Hz Hq IH]; [reflexivity|]. cbn [map]. now rewrite unquote, IH.
    + destruct l; [congruence|discriminate].
    + clear - Hl. induction Hl as [|z q Hz Hq IH]; constructor; [now apply quoted_no_space|exact IH].
Qed.

(** ** _parse_oids *)
Lemma oid_edge p x : (forall c, oidchar c -> p c = false) -> oid code32 x -> edge p x.
Proof. intros H Hx. apply oid_chars in Hx as [Hn Hx]. apply edge_all; [exact Hn|]. revert Hx. apply Forall_impl. exact H. Qed.
Lemma brk_oidchar c : oidchar c -> brk c = false.
Proof. intros H. apply oidchar_simple in H as [H _]. unfold brk. lia. Qed.
Definition spaced (x p : str) : Prop := exists u v, p = u ++ x ++ v /\ wsp code32 u /\ wsp code32 v.
(** the text with anything before and the separators: pieces *)
Lemma oid_list_joined l t : sep_list (fun x => such x (oid code32)) (wsp code32 ;; is (lit "$") ;; wsp code32) l t ->
  Forall (oid code32) l /\ forall w, wsp code32 w -> exists ps, w ++ t = joined 36%N ps /\ Forall2 spaced l ps /\ ps <> [].
Proof.
  revert t. induction l as [|x l IH]; intros t H; [destruct H|]. destruct l as [|y l].
  - destruct H as [-> H]. split; [now constructor|]. intros w Hw. exists [w ++ x]. repeat split; [|discriminate].
    constructor; [|constructor]. exists w, []. rewrite app_nil_r. repeat split; [exact Hw|constructor].
  - destruct H as (a & b & -> & [-> Ha] & c & d & -> & Hc & Hd). apply oid_sep_chars in Hc as (u & v & -> & Hu & Hv).
    destruct (IH d Hd) as [F G]. split; [now constructor|]. intros w Hw. destruct (G v Hv) as (ps & E & Hps & Hn).
    exists ((w ++ x ++ u) :: ps). split; [|split; [|discriminate]].
    + destruct ps as [|p ps]; [congruence|]. change (joined 36%N ((w ++ x ++ u) :: p :: ps)) with ((w ++ x ++ u) ++ 36%N :: joined 36%N (p :: ps)).
      rewrite <- E, <- !app_assoc. reflexivity.
    + constructor; [|exact Hps]. exists w, u. auto.
Qed.
Lemma strip_spaced x p : oid code32 x -> spaced x p -> py_strip p = x.
Proof.
  intros Hx (u & v & -> & Hu & Hv). apply strip_edge.
  - revert Hu. apply Forall_impl. cbn. intros c ->. reflexivity.
  - apply oid_edge; [|exact Hx]. intros c Hc. now apply oidchar_simple in Hc.
  - revert Hv. apply Forall_impl. cbn. intros c ->. reflexivity.
Qed.
Lemma spaced_no_dollar x p : oid code32 x -> spaced x p -> ~ In 36%N p.
Proof.
  intros Hx (u & v & -> & Hu & Hv) Hin. apply oid_chars in Hx as [_ Hx]. rewrite !in_app_iff in Hin. destruct Hin as [H|[H|H]].
  - apply (Forall_in _ _ _ Hu) in H. discriminate.
  - apply (Forall_in _ _ _ Hx) in H. apply oidchar_simple in H. lia.
  - apply (Forall_in _ _ _ Hv) in H. discriminate.
Qed.
Lemma oids_forall l x : oids code32 l x -> Forall (oid code32) l /\ l <> [].
Proof.
  intros [(y & -> & [_ H])|H]; [split; [now constructor|discriminate]|]. apply paren_inv in H as (u & i & v & -> & _ & Hi & _).
  split; [now apply oid_list_joined in Hi|]. destruct l; [destruct Hi|discriminate].
Qed.
Lemma parse_oids_ok l x : oids code32 l x -> parse_oids (Some x) = l.
Proof.
  intros H. assert (Hx : x <> []).
  { destruct H as [(y & -> & [-> H])|H]; [now apply oid_chars in H|]. apply paren_inv in H as (u & i & v & -> & _). discriminate. }
  unfold parse_oids. destruct x as [|c0 x0]; [congruence|]. set (x := c0 :: x0) in *. clearbody x.
  change (fun c => N.eqb c 40 || N.eqb c 32 || N.eqb c 41) with brk. change (lit "$") with [36%N].
  destruct H as [(y & -> & [-> H])|H].
  - rewrite strip_edge0 by (apply oid_edge; [apply brk_oidchar|exact H]).
    assert (S : spaced y y) by (exists [], []; rewrite app_nil_r; repeat split; constructor).
    rewrite py_split_none; [|discriminate|intros (a & b & E); apply (spaced_no_dollar y y H S); rewrite E, !in_app_iff; right; left; now left].
    cbn [map]. now rewrite (strip_spaced y y).
  - apply paren_inv in H as (u & i & v & -> & Hu & Hi & Hv).
    assert (Ei : edge brk i). { revert Hi. apply edge_sep_list. intros z t [-> Ht]. apply oid_edge; [apply brk_oidchar|exact Ht]. }
    rewrite strip_paren by assumption. apply oid_list_joined in Hi as [F G]. destruct (G [] ltac:(constructor)) as (ps & E & Hps & Hn).
    cbn [app] in E. rewrite E, split_joined.
    + clear - Hps F. induction Hps as [|a b la lb Hab Hl IH]; [reflexivity|]. inversion F; subst. cbn [map]. rewrite (strip_spaced a b), IH; auto.
    + exact Hn.
    + clear - Hps F. induction Hps as [|a b la lb Hab Hl IH]; [constructor|]. inversion F; subst. constructor; [now apply (spaced_no_dollar a)|auto].
Qed.

(** ** attribute lists *)
Lemma attr_names_ok isdigit names_of l : tells_digits isdigit -> Forall (oid code32) l ->
  exists r, attr_names isdigit names_of l = Ok r /\ names_for names_of l r.
Proof.
  intros [Hd Ha]. induction 1 as [|x l Hx Hl (r & E & H)]; [exists []; split; [reflexivity|constructor]|].
  destruct Hx as [Hx|Hx].
  - destruct (Hx) as (c & q & -> & Hc & _). cbn [attr_names]. rewrite (Ha c Hc), E. cbn [bind]. exists ((c :: q) :: r). split; [reflexivity|now constructor].
  - destruct (numericoid_chars _ Hx) as (Hn & _ & Hst). destruct x as [|c q]; [congruence|]. cbn [starts] in Hst. cbn [attr_names].
    rewrite (Hd c Hst), E. cbn [bind]. destruct (names_of (c :: q)) as [ns|] eqn:En.
    + exists (ns ++ r). split; [reflexivity|]. now apply nf_known.
    + exists r. split; [reflexivity|]. now apply nf_unknown.
Qed.

(** ** syntax *)
Lemma dec_digits_value n : Forall DIGIT n -> forall acc, dec_digits acc n = Some (fold_left (fun n c => 10 * n + (c - 48))%N n acc).
Proof.
  induction 1 as [|c n Hc Hn IH]; intros acc; [reflexivity|]. cbn [dec_digits fold_left]. unfold digit_val.
  unfold DIGIT in Hc. replace ((48 <=? c) && (c <=? 57))%N with true by lia. rewrite IH. do 2 f_equal. lia.
Qed.
Lemma py_int_value n : digits n -> py_int n = Ok (value n).
Proof. intros [Hn H]. unfold py_int. destruct n; [congruence|]. now rewrite dec_digits_value. Qed.
Lemma syntax_parts_ok o len x : noidlen code32 o len x ->
  syntax_parts x = Ok (o, match len with Some n => Z.of_N (value n) | None => (-1)%Z end).
Proof.
  intros (a & b & -> & [-> Ho] & Hb). apply numericoid_chars in Ho as (Hn & Ho & _).
  assert (No : ~ In 123%N o). { intros H. apply (Forall_in _ _ _ Ho) in H. unfold numchar, DIGIT in H. lia. }
  unfold syntax_parts. change (lit "{") with [123%N]. destruct len as [n|].
  - destruct Hb as (c & d & -> & -> & e & f & -> & [-> He] & ->). change (lit "{" ++ n ++ lit "}") with ([123%N] ++ n ++ [125%N]).
    rewrite py_split_first by exact No. destruct (He) as [Hne Hd].
    assert (Nn : ~ In 123%N (n ++ [125%N])).
    { rewrite in_app_iff. intros [H|[H|[]]]; [|discriminate]. apply (Forall_in _ _ _ Hd) in H. unfold DIGIT in H. lia. }
    rewrite py_split_none; [|discriminate|intros (u & v & E); apply Nn; rewrite E, !in_app_iff; right; left; now left].
    replace (strip_by (N.eqb (ch "}")) (n ++ [125%N])) with n.
    + rewrite py_int_value by exact He. reflexivity.
    + symmetry. apply (strip_edge _ [] n [125%N]); [constructor| |repeat constructor]. apply edge_all; [exact Hne|].
      revert Hd. apply Forall_impl. intros c Hc. change (ch "}") with 125%N. unfold DIGIT in Hc. lia.
  - rewrite Hb, app_nil_r. rewrite py_split_none; [reflexivity|discriminate|]. intros (u & v & E). apply No. rewrite E, !in_app_iff. right; left. now left.
Qed.
