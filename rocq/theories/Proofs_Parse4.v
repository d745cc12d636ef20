(** * Matching a description: the reading found is the only one *)
From Verif Require Import PyBase Model_Prep Proofs_Prep Model_Uri Spec_Uri Proofs_Uri Model_Schema Model_Regex Spec_Regex Proofs_Regex
  Spec_Search Proofs_Search2 Model_Parse Spec_Parse Proofs_Parse Proofs_Parse2 Proofs_Parse3.

Definition tail_rx : rx := RSeqs [rextensions; rWSP; RC ")"].
Definition desc_rx (fs : list fld) : rx := RSeq (RC "(") (RSeq rWSP (RSeq (RGroup (lit "oid") rnumericoid) (rxs fs tail_rx))).

Definition reading (fs : list fld) (s o : str) (vs : list (option str)) : Prop :=
  exists u t r, s = 40%N :: u ++ o ++ t ++ r /\ wsp code32 u /\ numericoid code32 o /\ fields fs vs t /\ L tail_rx r.

Lemma M_tail t c : M tail_rx t c -> forall k, str_eqb (lit "extensions") k = false -> dget c k = None.
Proof.
  unfold tail_rx. cbn [RSeqs]. intros H k Hk. apply M_seq_inv in H as (x & y & d & e & -> & -> & Hx & Hy).
  assert (e = []) as -> by (eapply groupless_caps; [exact Hy|reflexivity]). cbn [app].
  unfold rextensions in Hx. apply M_opt in Hx as [Hx|[_ ->]]; [|reflexivity]. apply M_grp in Hx as [_ ->]; [|reflexivity].
  cbn [dget]. now rewrite Hk.
Qed.
Lemma M_desc fs t c : Forall fld_ok fs -> M (desc_rx fs) t c ->
  exists o vs c2, reading fs t o vs /\ c = (c2 ++ caps_of fs vs) ++ [(lit "oid", o)] /\
    forall k, str_eqb (lit "extensions") k = false -> dget c2 k = None.
Proof.
  intros Hok H. unfold desc_rx in H. apply M_seq_l in H as (a & b & -> & Ha & H); [|reflexivity]. apply M_seq_l in H as (u & d & -> & Hu & H); [|reflexivity].
  apply M_seq_inv in H as (o & y & e & g & -> & -> & Ho & Hy). apply M_grp in Ho as [Ho ->]; [|reflexivity].
  apply M_rxs in Hy as (vs & t1 & t2 & c2 & -> & -> & Hf & Ht); [|exact Hok]. exists o, vs, c2. split; [|split; [reflexivity|eapply M_tail; exact Ht]].
  apply L_RC in Ha as ->. exists u, t1, t2. repeat split; [now apply L_WSP|now apply L_numericoid|exact Hf|eexists; exact Ht].
Qed.
Lemma L_desc fs s o vs : Forall fld_ok fs -> reading fs s o vs -> L (desc_rx fs) s.
Proof.
  intros Hok (u & t & r & -> & Hu & Ho & Hf & [c Hr]). apply L_seq. exists [40%N], (u ++ o ++ t ++ r). repeat split; [now apply L_RC|].
  apply L_seq. exists u, (o ++ t ++ r). repeat split; [now apply L_WSP|]. apply L_seq. exists o, (t ++ r). repeat split; [apply (proj2 (L_group _ _ _)); now apply L_numericoid|].
  eexists. apply M_rxs; [exact Hok|]. exists vs, t, r, c. repeat split; eassumption.
Qed.
Lemma tail_inv r : L tail_rx r <-> exists e u, r = e ++ u ++ [41%N] /\ wsp code32 u /\
  (e = [] \/ exists x q, e = lit " X-" ++ x ++ lit " " ++ q /\ x <> [] /\ Forall xchar x /\ qdstrings code32 q).
Proof.
  unfold tail_rx, rextensions. cbn [RSeqs]. rewrite L_seq. split.
  - intros (e & y & -> & He & Hy). apply L_seq in Hy as (u & z & -> & Hu & Hz). apply L_RC in Hz as ->. apply L_WSP in Hu.
    exists e, u. repeat split; [exact Hu|]. apply L_opt in He as [He|He]; [right|now left]. rewrite L_group in He. exact (proj1 (L_ext _) He).
  - intros (e & u & -> & Hu & He). exists e, (u ++ [41%N]). repeat split.
    + apply L_opt. destruct He as [He|He]; [now right|left]. rewrite L_group. exact (proj2 (L_ext _) He).
    + apply L_seq. exists u, [41%N]. repeat split; [now apply L_WSP|now apply L_RC].
Qed.
Lemma xchar_word c : xchar c -> wordchar c = true.
Proof. unfold xchar, ALPHA, wordchar. change (ch "_") with 95%N. change (ch "-") with 45%N. lia. Qed.
Lemma tail_follow r : L tail_rx r -> follow r /\ (first_word r = [] \/ exists x, first_word r = 88%N :: 45%N :: x).
Proof.
  intros H. apply tail_inv in H as (e & u & -> & Hu & He). destruct He as [-> | (x & q & -> & Hn & Hx & Hq)].
  - cbn [app]. split.
    + destruct Hu as [|c u Hc Hu]; cbn; [now right|]. cbn in Hc. now left.
    + left. now apply first_word_close.
  - split; [cbn; now left|]. right. exists x. rewrite <- !app_assoc. change (lit " X-") with ([32%N] ++ [88; 45]%N). rewrite <- !app_assoc.
    change ([88; 45]%N ++ x ++ lit " " ++ q ++ u ++ [41%N]) with ((88%N :: 45%N :: x) ++ lit " " ++ q ++ u ++ [41%N]).
    apply first_word_app; [repeat constructor| |cbn; discriminate]. split; [discriminate|]. constructor; [reflexivity|]. constructor; [reflexivity|].
    revert Hx. apply Forall_impl. exact xchar_word.
Qed.

(** no keyword begins with X- and all of them are distinct words *)
Definition is_word (w : str) : bool := match w with [] => false | _ => forallb wordchar w end.
Definition ext_like (w : str) : bool := match w with a :: b :: _ => N.eqb a 88 && N.eqb b 45 | _ => false end.
Fixpoint distinct (l : list str) : bool := match l with [] => true | x :: l' => negb (smem x l') && distinct l' end.
Definition all_heads (fs : list fld) : list str := List.concat (map (fun f => heads (snd f)) fs).
Lemma is_word_spec w : is_word w = true -> word w.
Proof.
  unfold is_word. destruct w as [|c w]; [discriminate|]. intros H. split; [discriminate|]. rewrite forallb_forall in H. now apply Forall_forall.
Qed.
Lemma distinct_spec l : distinct l = true -> NoDup l.
Proof.
  induction l as [|x l IH]; intros H; constructor; cbn [distinct] in H; apply andb_prop in H as [H1 H2].
  - apply smem_nIn. now apply negb_true_iff.
  - auto.
Qed.
Record nice (fs : list fld) : Prop := mk_nice {
  n_ok : Forall fld_ok fs;
  n_words : forallb is_word (all_heads fs) = true;
  n_ext : forallb (fun w => negb (ext_like w)) (all_heads fs) = true;
  n_distinct : distinct (all_heads fs) = true;
  n_vals : Forall (fun f => match snd f with
                            | BKey _ a => self_ending a /\ (forall x, L a x -> not_starts (fun c => c = 32%N) x /\ x <> [])
                            | _ => True end) fs }.
Lemma nice_fine fs : nice fs -> Forall fld_fine fs.
Proof.
  intros [_ Hw _ _ Hv]. unfold all_heads in Hw. induction Hv as [|f fs Hf Hfs IH]; constructor.
  - cbn [map List.concat] in Hw. rewrite forallb_app in Hw. apply andb_prop in Hw as [Hw _]. split; [|exact Hf].
    apply Forall_forall. intros w Hin. rewrite forallb_forall in Hw. now apply is_word_spec, Hw.
  - apply IH. cbn [map List.concat] in Hw. rewrite forallb_app in Hw. now apply andb_prop in Hw as [_ Hw].
Qed.
Lemma nice_tail fs : nice fs -> tail_like (L tail_rx) (all_heads fs).
Proof.
  intros [_ Hw He _ _] r Hr. destruct (tail_follow r Hr) as [Hf Hfw]. split; [exact Hf|]. intros Hin. destruct Hfw as [E|[x E]]; rewrite E in Hin.
  - rewrite forallb_forall in Hw. apply Hw in Hin. discriminate.
  - rewrite forallb_forall in He. apply He in Hin. discriminate.
Qed.
Lemma reading_unique fs s o vs o' vs' : nice fs -> reading fs s o vs -> reading fs s o' vs' -> o = o' /\ vs = vs'.
Proof.
  intros Hg (u & t & r & -> & Hu & Ho & Hf & Hr) (u' & t' & r' & E & Hu' & Ho' & Hf' & Hr').
  injection E as E. destruct (numericoid_chars _ Ho) as (Hn & Hc & Hst), (numericoid_chars _ Ho') as (Hn' & Hc' & Hst').
  pose proof (nice_fine fs Hg) as Hfine.
  assert (NS : forall o z, o <> [] -> starts DIGIT o -> not_starts (fun c => c = 32%N) (o ++ z)).
  { intros q z Hq Hs. destruct q as [|c q]; [congruence|]. cbn in *. unfold DIGIT in Hs. lia. }
  apply run_split with (P := fun c => c = 32%N) in E as [-> E]; [|exact Hu|exact Hu'|now apply NS|now apply NS].
  assert (NF : forall fs vs t r, fields fs vs t -> L tail_rx r -> Forall fld_fine fs -> not_starts numchar (t ++ r)).
  { intros fs0 vs0 t0 r0 H1 H2 H3. assert (F : follow (t0 ++ r0)) by (eapply fields_follow; [exact H1|now apply tail_follow|exact H3]).
    destruct (t0 ++ r0) as [|c z]; [exact I|]. cbn in *. unfold numchar, DIGIT. lia. }
  apply run_split with (P := numchar) in E as [-> E]; [|exact Hc|exact Hc'|eapply NF; eassumption|eapply NF; eassumption].
  split; [reflexivity|]. destruct Hg as [H1 H2 H3 H4 H5].
  apply (fields_unique fs (L tail_rx) Hfine (distinct_spec _ H4) (nice_tail fs (mk_nice _ H1 H2 H3 H4 H5)) _ _ _ _ _ _ Hf Hf' Hr Hr' E).
Qed.

(** the groups after a match *)
Lemma dget_app (a b : caps) k : dget (a ++ b) k = match dget a k with Some v => Some v | None => dget b k end.
Proof. induction a as [|[k' v] a IH]; [reflexivity|]. cbn [app dget]. destruct (str_eqb k' k); [reflexivity|exact IH]. Qed.
Lemma dget_cap1 g v k : dget (cap1 g v) k = if str_eqb g k then v else None.
Proof. destruct v as [x|]; cbn [cap1 dget]; destruct (str_eqb g k); reflexivity. Qed.
Definition groups_of (fs : list fld) (vs : list (option str)) (o : str) (c : caps) : Prop :=
  group c (lit "oid") = Some o /\
  forall i g b v, nth_error fs i = Some (g, b) -> nth_error vs i = Some v -> group c g = v.
Lemma dget_caps_of fs vs k : ~ In k (map fst fs) -> dget (caps_of fs vs) k = None.
Proof.
  revert vs. induction fs as [|f fs IH]; intros vs H; [destruct vs; reflexivity|]. destruct vs as [|v vs]; [reflexivity|].
  cbn [caps_of]. rewrite dget_app, IH; [|intros C; apply H; now right]. rewrite dget_cap1. destruct (str_eqb (fst f) k) eqn:E; [|reflexivity].
  apply str_eqb_eq in E. elim H. now left.
Qed.
Lemma dget_caps_nth fs : NoDup (map fst fs) -> forall vs i g b v, nth_error fs i = Some (g, b) -> nth_error vs i = Some v ->
  dget (caps_of fs vs) g = v.
Proof.
  induction fs as [|f fs IH]; intros Hnd vs i g b v Hi Hv; [destruct i; discriminate|]. inversion Hnd as [|? ? Hn Hnd']; subst.
  destruct vs as [|w vs]; [destruct i; discriminate|]. cbn [caps_of]. rewrite dget_app, dget_cap1. destruct i as [|i].
  - cbn [nth_error] in *. injection Hi as ->. injection Hv as ->. cbn [fst] in *. rewrite dget_caps_of by exact Hn. now rewrite str_eqb_refl.
  - cbn [nth_error] in *. rewrite (IH Hnd' vs i g b v Hi Hv). destruct v as [x|]; [reflexivity|].
    destruct (str_eqb (fst f) g) eqn:E; [|reflexivity]. apply str_eqb_eq in E. elim Hn. rewrite E.
    change g with (fst (g, b)). apply in_map. eapply nth_error_In. exact Hi.
Qed.

(** matching an anchored description pattern *)
Lemma match_reading fs s : nice fs -> distinct (lit "oid" :: lit "extensions" :: map fst fs) = true -> ~ In 10%N s ->
  (forall c, match_anchored (desc_rx fs) s = Some c -> exists o vs, reading fs s o vs /\ groups_of fs vs o c) /\
  (forall o vs, reading fs s o vs -> exists c, match_anchored (desc_rx fs) s = Some c /\ groups_of fs vs o c).
Proof.
  intros Hg Hd Hs. pose proof (distinct_spec _ Hd) as Hnd. inversion Hnd as [|? ? Hno Hnd1]; subst. inversion Hnd1 as [|? ? Hne Hnd2]; subst.
  assert (A : forall c, match_anchored (desc_rx fs) s = Some c -> exists o vs, reading fs s o vs /\ groups_of fs vs o c).
  { intros c H. apply anchored_sound in H as (t & e & E & He & Hm). destruct He as [-> | ->].
    2:{ elim Hs. rewrite E, in_app_iff. right. now left. }
    rewrite app_nil_r in E. subst t. apply M_desc in Hm as (o & vs & c2 & Hr & -> & Hc2); [|apply Hg]. exists o, vs. split; [exact Hr|].
    unfold groups_of, group. split.
    - rewrite !dget_app, (Hc2 (lit "oid") eq_refl), dget_caps_of; [reflexivity|]. intros C. apply Hno. now right.
    - intros i g b v Hi Hv. rewrite !dget_app.
      assert (Hing : In g (map fst fs)). { change g with (fst (g, b)). apply in_map. eapply nth_error_In. exact Hi. }
      rewrite Hc2; [|apply str_eqb_neq; intros <-; now apply Hne]. rewrite (dget_caps_nth fs Hnd2 vs i g b v Hi Hv).
      destruct v as [x|]; [reflexivity|]. cbn [dget]. destruct (str_eqb (lit "oid") g) eqn:E; [|reflexivity].
      apply str_eqb_eq in E. elim Hno. rewrite <- E in Hing. right. exact Hing. }
  split; [exact A|]. intros o vs Hr. destruct (L_desc fs s o vs (n_ok _ Hg) Hr) as [c Hm].
  destruct (anchored_complete _ _ [] _ Hm (or_introl eq_refl)) as [c' E]. rewrite app_nil_r in E. exists c'. split; [exact E|].
  destruct (A c' E) as (o' & vs' & Hr' & Hgr). destruct (reading_unique fs s o vs o' vs' Hg Hr Hr') as [-> ->]. exact Hgr.
Qed.
