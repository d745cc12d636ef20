(** * Optional parts in fixed order: the pattern, its captures, and why they are determined *)
From Verif Require Import PyBase Model_Prep Model_Uri Model_Schema Model_Regex Spec_Regex Proofs_Regex
  Spec_Search Model_Parse Spec_Parse Proofs_Parse.

Inductive bkind := BKey (k : str) (a : rx) | BFlag (k : str) | BWord (l : list str).
Definition fld := (str * bkind)%type.
Definition sp32 := sp code32.
Definition body (b : bkind) (x t : str) : Prop :=
  match b with
  | BKey k a => exists u v, t = u ++ k ++ v ++ x /\ sp32 u /\ sp32 v /\ L a x
  | BFlag k => x = t /\ exists u, t = u ++ k /\ sp32 u
  | BWord l => exists u, t = u ++ x /\ sp32 u /\ In x l
  end.
Definition body_opt (b : bkind) (v : option str) (t : str) : Prop :=
  match v with None => t = [] | Some x => body b x t end.
Definition rx_of (f : fld) : rx :=
  match snd f with
  | BKey k a => ROpt (RSeqs [rSP; RLit k; rSP; RGroup (fst f) a])
  | BFlag k => ROpt (RGroup (fst f) (RSeq rSP (RLit k)))
  | BWord l => ROpt (RSeq rSP (RGroup (fst f) (RAlts (map RLit l))))
  end.
Definition cap1 (g : str) (v : option str) : caps := match v with None => [] | Some x => [(g, x)] end.

Fixpoint groupless (r : rx) : bool :=
  match r with
  | REps | RChr _ => true
  | RSeq a b | RAlt a b => groupless a && groupless b
  | RStar a => groupless a
  | RGroup _ _ => false
  end.
Lemma groupless_caps r t c : M r t c -> groupless r = true -> c = [].
Proof.
  induction 1 as [|f x Hx|a b s t c d Ha IHa Hb IHb|a b s c Ha IHa|a b s c Hb IHb|a|a s t c d Ha IHa Hn Hs IHs|g a s c Ha IHa];
    cbn [groupless]; intros G; try reflexivity; try discriminate.
  - apply andb_prop in G as [G1 G2]. now rewrite IHa, IHb.
  - apply andb_prop in G as [G1 G2]. auto.
  - apply andb_prop in G as [G1 G2]. auto.
  - now rewrite (IHa G), (IHs G).
Qed.
Lemma groupless_M r t : groupless r = true -> L r t -> M r t [].
Proof. intros G [c H]. now rewrite (groupless_caps _ _ _ H G) in H. Qed.
Lemma groupless_lit k : groupless (RLit k) = true.
Proof. unfold RLit. induction k as [|c [|d k] IH]; try reflexivity. cbn [map RSeqs groupless] in *. exact IH. Qed.
Lemma groupless_alts l : Forall (fun r => groupless r = true) l -> groupless (RAlts l) = true.
Proof.
  induction l as [|a l IH]; intros H; [reflexivity|]. inversion H; subst. destruct l; [assumption|].
  cbn [RAlts groupless] in *. rewrite IH; [|assumption]. now rewrite andb_true_r.
Qed.
Lemma L_alts_lit l : l <> [] -> forall t, L (RAlts (map RLit l)) t <-> In t l.
Proof.
  induction l as [|a l IH]; intros Hn t; [congruence|]. destruct l as [|b l].
  - cbn [map RAlts]. rewrite L_lit. cbn [In]. split; [intros ->; auto|intros [H|[]]; auto].
  - change (RAlts (map RLit (a :: b :: l))) with (RAlt (RLit a) (RAlts (map RLit (b :: l)))).
    rewrite L_alt, L_lit, IH; [|discriminate]. cbn [In]. split; intros [H|H]; auto.
Qed.
Definition fld_ok (f : fld) : Prop :=
  match snd f with BKey _ a => groupless a = true | BFlag _ => True | BWord l => l <> [] end.

Lemma M_opt a t c : M (ROpt a) t c <-> M a t c \/ t = [] /\ c = [].
Proof.
  unfold ROpt. split.
  - intros H. inversion H as [| | |? ? ? ? H1|? ? ? ? H1| | |]; subst; [now left|]. inversion H1; subst. now right.
  - intros [H|[-> ->]]; [now apply M_altl|apply M_altr; constructor].
Qed.
Lemma M_seq_inv a b t c : M (RSeq a b) t c <-> exists x y d e, t = x ++ y /\ c = e ++ d /\ M a x d /\ M b y e.
Proof.
  split.
  - intros H. inversion H; subst. repeat eexists; eassumption.
  - intros (x & y & d & e & -> & -> & Hx & Hy). now constructor.
Qed.
Lemma M_seq_l a b t c : groupless a = true -> M (RSeq a b) t c <-> exists x y, t = x ++ y /\ L a x /\ M b y c.
Proof.
  intros G. rewrite M_seq_inv. split.
  - intros (x & y & d & e & -> & -> & Hx & Hy). rewrite (groupless_caps _ _ _ Hx G), app_nil_r. exists x, y. repeat split; [eexists; exact Hx|exact Hy].
  - intros (x & y & -> & Hx & Hy). exists x, y, [], c. rewrite app_nil_r. repeat split; [now apply groupless_M|exact Hy].
Qed.
Lemma M_grp g a t c : groupless a = true -> M (RGroup g a) t c <-> L a t /\ c = [(g, t)].
Proof.
  intros G. split.
  - intros H. inversion H as [| | | | | | |? ? ? d Hd]; subst. rewrite (groupless_caps _ _ _ Hd G). split; [eexists; exact Hd|reflexivity].
  - intros [H ->]. constructor. now apply groupless_M.
Qed.

Lemma M_rx_of f t c : fld_ok f -> M (rx_of f) t c <-> exists v, c = cap1 (fst f) v /\ body_opt (snd f) v t.
Proof.
  destruct f as [g [k a|k|l]]; unfold fld_ok, rx_of; cbn [fst snd]; intros Hok; rewrite M_opt.
  - cbn [RSeqs]. rewrite M_seq_l by reflexivity. split.
    + intros [(u & y & -> & Hu & H)|[-> ->]]; [|exists None; split; reflexivity].
      apply M_seq_l in H as (k' & y2 & -> & Hk & H); [|apply groupless_lit]. apply M_seq_l in H as (v & x & -> & Hv & H); [|reflexivity].
      apply M_grp in H as [H ->]; [|exact Hok]. apply L_lit in Hk as ->. exists (Some x). split; [reflexivity|].
      exists u, v. split; [reflexivity|]. split; [now apply L_SP|]. split; [now apply L_SP|exact H].
    + intros (v & -> & H). destruct v as [x|]; [left|right; split; [exact H|reflexivity]]. destruct H as (u & v & -> & Hu & Hv & Hx).
      exists u, (k ++ v ++ x). repeat split; [now apply L_SP|]. apply M_seq_l; [apply groupless_lit|]. exists k, (v ++ x).
      repeat split; [now apply L_lit|]. apply M_seq_l; [reflexivity|]. exists v, x. repeat split; [now apply L_SP|].
      apply M_grp; auto.
  - rewrite M_grp by (cbn [groupless]; now rewrite groupless_lit). rewrite L_seq. split.
    + intros [[(u & y & -> & Hu & Hy) ->]|[-> ->]]; [|exists None; split; reflexivity]. apply L_lit in Hy as ->.
      exists (Some (u ++ k)). split; [reflexivity|]. split; [reflexivity|]. exists u. split; [reflexivity|now apply L_SP].
    + intros (v & -> & H). destruct v as [x|]; [left|right; split; [exact H|reflexivity]]. destruct H as (-> & u & -> & Hu). split; [|reflexivity].
      exists u, k. repeat split; [now apply L_SP|now apply L_lit].
  - assert (Gl : groupless (RAlts (map RLit l)) = true).
    { apply groupless_alts. clear. induction l; constructor; [apply groupless_lit|assumption]. }
    rewrite M_seq_l by reflexivity. split.
    + intros [(u & y & -> & Hu & Hy)|[-> ->]]; [|exists None; split; reflexivity]. apply M_grp in Hy as [Hy ->]; [|exact Gl].
      apply L_alts_lit in Hy; [|exact Hok]. exists (Some y). split; [reflexivity|]. exists u. split; [reflexivity|]. split; [now apply L_SP|exact Hy].
    + intros (v & -> & H). destruct v as [x|]; [left|right; split; [exact H|reflexivity]]. destruct H as (u & -> & Hu & Hx).
      exists u, x. repeat split; [now apply L_SP|]. apply M_grp; [exact Gl|]. split; [|reflexivity]. now apply L_alts_lit.
Qed.

Inductive fields : list fld -> list (option str) -> str -> Prop :=
| fields_nil : fields [] [] []
| fields_cons f fs v vs t1 t2 : body_opt (snd f) v t1 -> fields fs vs t2 -> fields (f :: fs) (v :: vs) (t1 ++ t2).
Fixpoint caps_of (fs : list fld) (vs : list (option str)) : caps :=
  match fs, vs with
  | f :: fs', v :: vs' => caps_of fs' vs' ++ cap1 (fst f) v
  | _, _ => []
  end.
Fixpoint rxs (fs : list fld) (tail : rx) : rx := match fs with [] => tail | f :: fs' => RSeq (rx_of f) (rxs fs' tail) end.
Lemma M_rxs fs tail t c : Forall fld_ok fs ->
  M (rxs fs tail) t c <-> exists vs t1 t2 c2, t = t1 ++ t2 /\ c = c2 ++ caps_of fs vs /\ fields fs vs t1 /\ M tail t2 c2.
Proof.
  intros H. revert t c. induction H as [|f fs Hf Hfs IH]; intros t c; cbn [rxs].
  - split.
    + intros Hm. exists [], [], t, c. rewrite app_nil_r. repeat split; [constructor|exact Hm].
    + intros (vs & t1 & t2 & c2 & -> & -> & Hv & Hm). inversion Hv; subst. cbn [caps_of]. now rewrite app_nil_r.
  - rewrite M_seq_inv. split.
    + intros (x & y & d & e & -> & -> & Hx & Hy). apply M_rx_of in Hx as (v & -> & Hb); [|exact Hf].
      apply IH in Hy as (vs & t1 & t2 & c2 & -> & -> & Hv & Hm). exists (v :: vs), (x ++ t1), t2, c2. cbn [caps_of].
      rewrite <- !app_assoc. repeat split; [now constructor|exact Hm].
    + intros (vs & t1 & t2 & c2 & -> & -> & Hv & Hm). inversion Hv as [|? ? v vs' u1 u2 Hb Hv']; subst.
      exists u1, (u2 ++ t2), (cap1 (fst f) v), (c2 ++ caps_of fs vs'). cbn [caps_of]. rewrite <- !app_assoc.
      repeat split; [apply M_rx_of; [exact Hf|eauto]|]. apply IH. exists vs', u2, t2, c2. auto.
Qed.
Lemma fields_length fs vs t : fields fs vs t -> List.length vs = List.length fs.
Proof. induction 1; cbn [List.length]; congruence. Qed.

(** ** Why the parts are determined by the text *)
Definition starts (P : N -> Prop) (s : str) : Prop := match s with c :: _ => P c | [] => False end.
Definition not_starts (P : N -> Prop) (s : str) : Prop := match s with c :: _ => ~ P c | [] => True end.
Lemma run_split (P : N -> Prop) a b a' b' : Forall P a -> Forall P a' -> not_starts P b -> not_starts P b' ->
  a ++ b = a' ++ b' -> a = a' /\ b = b'.
Proof.
  intros Ha. revert a'. induction Ha as [|x a Hx Ha IH]; intros a' Ha' Hb Hb' E.
  - destruct Ha' as [|y a' Hy Ha']; [auto|]. cbn [app] in E. subst b. now elim Hb.
  - destruct Ha' as [|y a' Hy Ha']; cbn [app] in E; [subst b'; now elim Hb'|]. injection E as -> E.
    destruct (IH a' Ha' Hb Hb' E) as [-> ->]. auto.
Qed.
(** what may follow a part: a space or a closing parenthesis *)
Definition follow (s : str) : Prop := starts (fun c => c = 32 \/ c = 41)%N s.
(** the first word of a text: what follows the spaces, up to a character that is not of a word *)
Definition wordchar (c : N) : bool := ((65 <=? c) && (c <=? 90) || (97 <=? c) && (c <=? 122) || (c =? 95) || (c =? 45))%N.
Fixpoint dropw (p : N -> bool) (s : str) : str := match s with c :: s' => if p c then dropw p s' else s | [] => [] end.
Fixpoint takew (p : N -> bool) (s : str) : str := match s with c :: s' => if p c then c :: takew p s' else [] | [] => [] end.
Definition first_word (s : str) : str := takew wordchar (dropw (N.eqb 32) s).
Definition word (w : str) : Prop := w <> [] /\ Forall (fun c => wordchar c = true) w.
Lemma takew_app p a b : Forall (fun c => p c = true) a -> not_starts (fun c => p c = true) b -> takew p (a ++ b) = a.
Proof.
  intros Ha Hb. induction Ha as [|x a Hx Ha IH]; cbn [app takew].
  - destruct b as [|y b]; [reflexivity|]. cbn [takew not_starts] in *. now destruct (p y).
  - now rewrite Hx, IH.
Qed.
Lemma dropw_app p a b : Forall (fun c => p c = true) a -> not_starts (fun c => p c = true) b -> dropw p (a ++ b) = b.
Proof.
  intros Ha Hb. induction Ha as [|x a Hx Ha IH]; cbn [app dropw].
  - destruct b as [|y b]; [reflexivity|]. cbn [dropw not_starts] in *. now destruct (p y).
  - now rewrite Hx.
Qed.
Lemma first_word_app u w r : Forall (fun c => c = 32%N) u -> word w -> not_starts (fun c => wordchar c = true) r ->
  first_word (u ++ w ++ r) = w.
Proof.
  intros Hu [Hn Hw] Hr. unfold first_word. rewrite dropw_app.
  - now apply takew_app.
  - revert Hu. apply Forall_impl. intros c ->. reflexivity.
  - destruct w as [|c w]; [congruence|]. inversion Hw as [|? ? Hc _]; subst. cbn [not_starts app]. intros E. apply N.eqb_eq in E. subst c. discriminate.
Qed.
Lemma first_word_close u r : Forall (fun c => c = 32%N) u -> first_word (u ++ 41%N :: r) = [].
Proof.
  intros Hu. unfold first_word. rewrite dropw_app; [reflexivity| |cbn; discriminate].
  revert Hu. apply Forall_impl. intros c ->. reflexivity.
Qed.

Definition heads (b : bkind) : list str := match b with BKey k _ => [k] | BFlag k => [k] | BWord l => l end.
(** values that a following space or parenthesis ends *)
Definition self_ending (a : rx) : Prop :=
  forall x x' r r', L a x -> L a x' -> follow r -> follow r' -> x ++ r = x' ++ r' -> x = x'.

Lemma not_word_follow r : follow r -> not_starts (fun c => wordchar c = true) r.
Proof. destruct r as [|c r]; [intros []|]. cbn. intros [-> | ->]; discriminate. Qed.
Lemma sp32_not_word v r : sp32 v -> not_starts (fun c => wordchar c = true) (v ++ r).
Proof. intros [Hn Hv]. destruct v as [|c v]; [congruence|]. inversion Hv; subst. cbn in *. subst c. discriminate. Qed.
Lemma body_head b x t r : Forall word (heads b) -> body b x t -> follow r -> exists w, In w (heads b) /\ first_word (t ++ r) = w /\ starts (fun c => c = 32%N) t.
Proof.
  destruct b as [k a|k|l]; cbn [heads body]; intros Hh Hb Hr.
  - destruct Hb as (u & v & -> & [Hn Hu] & Hv & Hx). inversion Hh; subst. exists k. split; [now left|]. split.
    + rewrite <- !app_assoc. apply first_word_app; [exact Hu|assumption|]. now apply sp32_not_word.
    + destruct u as [|c u]; [congruence|]. now inversion Hu.
  - destruct Hb as (-> & u & -> & [Hn Hu]). inversion Hh; subst. exists k. split; [now left|]. split.
    + rewrite <- !app_assoc. apply first_word_app; [exact Hu|assumption|]. now apply not_word_follow.
    + destruct u as [|c u]; [congruence|]. now inversion Hu.
  - destruct Hb as (u & -> & [Hn Hu] & Hx). exists x. split; [exact Hx|]. split.
    + rewrite <- !app_assoc. apply first_word_app; [exact Hu| |]; [|now apply not_word_follow]. rewrite Forall_forall in Hh. now apply Hh.
    + destruct u as [|c u]; [congruence|]. now inversion Hu.
Qed.
Lemma word_not_space w r : word w -> not_starts (fun c => c = 32%N) (w ++ r).
Proof. intros [Hn Hw]. destruct w as [|c w]; [congruence|]. inversion Hw; subst. cbn. intros ->. discriminate. Qed.
Lemma body_unique b x x' t t' r r' : Forall word (heads b) -> match b with BKey _ a => self_ending a /\ (forall x, L a x -> not_starts (fun c => c = 32%N) x /\ x <> []) | _ => True end ->
  body b x t -> body b x' t' -> follow r -> follow r' -> t ++ r = t' ++ r' -> x = x' /\ t = t' /\ r = r'.
Proof.
  destruct b as [k a|k|l]; cbn [heads body]; intros Hh Hs Hb Hb' Hr Hr' E.
  - destruct Hb as (u & v & -> & [Hn Hu] & [Hn2 Hv] & Hx). destruct Hb' as (u' & v' & -> & [Hn' Hu'] & [Hn2' Hv'] & Hx').
    inversion Hh as [|? ? Hk _]; subst. rewrite <- !app_assoc in E. destruct Hs as [Hs Hns].
    apply run_split with (P := fun c => c = 32%N) in E as [-> E]; [|exact Hu|exact Hu'|now apply word_not_space|now apply word_not_space].
    apply app_inv_head in E. destruct (Hns x Hx) as [A1 A2], (Hns x' Hx') as [A1' A2'].
    apply run_split with (P := fun c => c = 32%N) in E as [-> E]; [|exact Hv|exact Hv'|now destruct x|now destruct x'].
    pose proof (Hs x x' r r' Hx Hx' Hr Hr' E) as Ex; subst x'. apply app_inv_head in E. auto.
  - destruct Hb as (-> & u & -> & [Hn Hu]). destruct Hb' as (-> & u' & -> & [Hn' Hu']). rewrite <- !app_assoc in E.
    inversion Hh as [|? ? Hk _]; subst.
    apply run_split with (P := fun c => c = 32%N) in E as [-> E]; [|exact Hu|exact Hu'|now apply word_not_space|now apply word_not_space].
    apply app_inv_head in E. auto.
  - destruct Hb as (u & -> & [Hn Hu] & Hx). destruct Hb' as (u' & -> & [Hn' Hu'] & Hx'). rewrite <- !app_assoc in E.
    rewrite Forall_forall in Hh. pose proof (Hh _ Hx) as W. pose proof (Hh _ Hx') as W'.
    apply run_split with (P := fun c => c = 32%N) in E as [-> E]; [|exact Hu|exact Hu'|now apply word_not_space|now apply word_not_space].
    apply run_split with (P := fun c => wordchar c = true) in E as [-> E]; [auto|apply W|apply W'|now apply not_word_follow|now apply not_word_follow].
Qed.

Definition fld_fine (f : fld) : Prop :=
  Forall word (heads (snd f)) /\
  match snd f with BKey _ a => self_ending a /\ (forall x, L a x -> not_starts (fun c => c = 32%N) x /\ x <> []) | _ => True end.
(** the rest of the description: its first word, if any, is none of the given ones *)
Definition tail_like (tl : lang) (ws : list str) : Prop := forall r, tl r -> follow r /\ ~ In (first_word r) ws.

Lemma fields_follow fs vs t r : fields fs vs t -> follow r -> Forall fld_fine fs -> follow (t ++ r).
Proof.
  intros H Hr. induction H as [|f fs v vs t1 t2 Hb Hf IH]; intros Hg; [exact Hr|]. inversion Hg as [|? ? [Hw _] Hg']; subst.
  destruct v as [x|]; cbn [body_opt] in Hb.
  - destruct (body_head _ _ _ r Hw Hb Hr) as (w & _ & _ & Hst). destruct t1 as [|c t1]; [destruct Hst|]. cbn in *. subst c. now left.
  - subst t1. now apply IH.
Qed.
Lemma fields_first fs vs t r : fields fs vs t -> follow r -> Forall fld_fine fs ->
  In (first_word (t ++ r)) (List.concat (map (fun f => heads (snd f)) fs)) \/ first_word (t ++ r) = first_word r.
Proof.
  intros H Hr. induction H as [|f fs v vs t1 t2 Hb Hf IH]; intros Hg; [now right|]. inversion Hg as [|? ? [Hw _] Hg']; subst.
  cbn [map List.concat]. rewrite in_app_iff. destruct v as [x|]; cbn [body_opt] in Hb.
  - left. left. rewrite <- app_assoc. destruct (body_head _ _ _ (t2 ++ r) Hw Hb) as (w & Hin & E & _); [eapply fields_follow; eassumption|]. now rewrite E.
  - subst t1. cbn [app]. destruct (IH Hg') as [G|G]; auto.
Qed.

(** two readings of the same text agree *)
Lemma fields_unique fs tl : Forall fld_fine fs -> NoDup (List.concat (map (fun f => heads (snd f)) fs)) ->
  tail_like tl (List.concat (map (fun f => heads (snd f)) fs)) ->
  forall vs vs' t t' r r', fields fs vs t -> fields fs vs' t' -> tl r -> tl r' -> t ++ r = t' ++ r' -> vs = vs' /\ t = t'.
Proof.
  intros Hg. induction Hg as [|f fs [Hw Hs] Hg IH]; intros Hnd Htl vs vs' t t' r r' H H' Hr Hr' E.
  - inversion H; inversion H'; subst. auto.
  - inversion H as [|? ? v ws t1 t2 Hb Hf]; inversion H' as [|? ? v' ws' t1' t2' Hb' Hf']; subst. clear H H'.
    cbn [map List.concat] in Hnd, Htl.
    assert (Htl' : tail_like tl (List.concat (map (fun f => heads (snd f)) fs))).
    { intros q Hq. destruct (Htl q Hq) as [A B]. split; [exact A|]. intros C. apply B. rewrite in_app_iff. now right. }
    assert (Hnd' : NoDup (List.concat (map (fun f => heads (snd f)) fs))).
    { clear -Hnd. induction (heads (snd f)) as [|w l IH]; [exact Hnd|]. cbn [app] in Hnd. inversion Hnd; auto. }
    assert (Hdis : forall w, In w (heads (snd f)) -> ~ In w (List.concat (map (fun f => heads (snd f)) fs))).
    { clear -Hnd. induction (heads (snd f)) as [|w l IH]; intros w' Hin; [destruct Hin|]. cbn [app] in Hnd. inversion Hnd as [|? ? Hn Hd]; subst.
      destruct Hin as [->|Hin]; [|now apply IH]. intros C. apply Hn. rewrite in_app_iff. now right. }
    destruct (Htl r Hr) as [Fr Nr], (Htl r' Hr') as [Fr' Nr'].
    assert (F2 : follow (t2 ++ r)) by (eapply fields_follow; eassumption).
    assert (F2' : follow (t2' ++ r')) by (eapply fields_follow; eassumption).
    rewrite <- !app_assoc in E. destruct v as [x|], v' as [x'|]; cbn [body_opt] in Hb, Hb'.
    + destruct (body_unique _ _ _ _ _ _ _ Hw Hs Hb Hb' F2 F2' E) as (-> & -> & E2).
      destruct (IH Hnd' Htl' _ _ _ _ _ _ Hf Hf' Hr Hr' E2) as [-> ->]. auto.
    + exfalso. subst t1'. cbn [app] in E. destruct (body_head _ _ _ _ Hw Hb F2) as (w & Hin & Ew & _). rewrite E in Ew.
      destruct (fields_first _ _ _ _ Hf' Fr' Hg) as [C|C]; rewrite Ew in C; [exact (Hdis _ Hin C)|].
      apply Nr'. rewrite in_app_iff. left. now rewrite <- C.
    + exfalso. subst t1. cbn [app] in E. destruct (body_head _ _ _ _ Hw Hb' F2') as (w & Hin & Ew & _). rewrite <- E in Ew.
      destruct (fields_first _ _ _ _ Hf Fr Hg) as [C|C]; rewrite Ew in C; [exact (Hdis _ Hin C)|].
      apply Nr. rewrite in_app_iff. left. now rewrite <- C.
    + subst t1 t1'. destruct (IH Hnd' Htl' _ _ _ _ _ _ Hf Hf' Hr Hr' E) as [-> ->]. auto.
Qed.
