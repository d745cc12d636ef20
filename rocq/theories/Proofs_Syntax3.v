(** * GeneralizedTime *)
From Verif Require Import PyBase Model_Prep Model_Uri Model_Regex Spec_Regex Proofs_Regex Spec_Search Proofs_Search2
  Model_Parse Spec_Parse Proofs_Parse Proofs_Parse2 Proofs_Parse3 Proofs_Parse4 Model_Syntax Spec_Syntax Proofs_Syntax Proofs_Syntax2.

Definition dig2 (x : str) : Prop := List.length x = 2 /\ Forall DIGIT x.
Definition opt2 (x : str) : Prop := x = [] \/ dig2 x.
Definition frac (x : str) : Prop := x = [] \/ exists p n, x = p :: n /\ (p = 46%N \/ p = 44%N) /\ digits n.
Definition ocap (g : string) (x : str) : caps := match x with [] => [] | _ => [(lit g, x)] end.
Definition zone (z : str) (zc : caps) (zh zm : str) : Prop :=
  z = lit "Z" /\ zc = [(lit "8", z)] /\ zh = [] /\ zm = [] \/
  exists sg, z = sg :: zh ++ zm /\ (sg = 43%N \/ sg = 45%N) /\ dig2 zh /\ opt2 zm /\ zc = (lit "8", z) :: ocap "10" zm ++ [(lit "9", zh)].
Record shape (s Y mo d h mi se fr z e zh zm : str) (zc : caps) : Prop := mk_shape {
  sh_text : s = Y ++ mo ++ d ++ h ++ mi ++ se ++ fr ++ z ++ e;
  sh_end : e = [] \/ e = [10%N];
  sh_year : List.length Y = 4 /\ Forall DIGIT Y;
  sh_mo : dig2 mo; sh_d : dig2 d; sh_h : dig2 h; sh_mi : opt2 mi; sh_se : opt2 se;
  sh_nose : mi = [] -> se = [];
  sh_fr : frac fr; sh_z : zone z zc zh zm }.

Lemma L_times n f (P : N -> Prop) : n <> 0 -> (forall c, f c = true <-> P c) -> is_lang (RTimes n (RChr f)) (fun s => List.length s = n /\ Forall P s).
Proof.
  intros Hn H. destruct n as [|n]; [congruence|]. clear Hn. induction n as [|n IH]; intros t.
  - cbn [RTimes]. rewrite (L_one _ _ H t). split; [intros (c & -> & Hc); auto|]. intros [Hl Hf]. destruct t as [|c [|]]; try discriminate.
    inversion Hf; subst. exists c. auto.
  - change (RTimes (S (S n)) (RChr f)) with (RSeq (RChr f) (RTimes (S n) (RChr f))). rewrite (L_cat _ _ _ _ (L_one _ _ H) IH t). split.
    + intros (x & y & -> & (c & -> & Hc) & Hl & Hf). cbn [app List.length]. split; [now rewrite Hl|now constructor].
    + intros [Hl Hf]. destruct t as [|c t]; [discriminate|]. inversion Hf; subst. exists [c], t. split; [reflexivity|]. split; [exists c; auto|].
      split; [cbn in Hl; lia|assumption].
Qed.
Lemma M_r2 g t c : M (r2 g) t c <-> dig2 t /\ c = [(lit g, t)].
Proof.
  unfold r2. pose proof (L_times 2 _ DIGIT ltac:(discriminate) digit_iff t) as E. split.
  - intros H. apply M_grp in H as [H ->]; [|reflexivity]. split; [now apply E|reflexivity].
  - intros [H ->]. apply E in H as [c' H]. assert (c' = []) as -> by (eapply groupless_caps; [exact H|reflexivity]). exact (M_group (lit g) _ _ _ H).
Qed.
Lemma dig2_nonempty x : dig2 x -> x <> [].
Proof. intros [H _] ->. discriminate. Qed.
Lemma ocap_some g x : dig2 x -> ocap g x = [(lit g, x)].
Proof. intros H. apply dig2_nonempty in H. destruct x; [congruence|reflexivity]. Qed.
Lemma M_opt2 g t c : M (ROpt (r2 g)) t c <-> opt2 t /\ c = ocap g t.
Proof.
  split.
  - intros H. apply M_opt in H as [H|[-> ->]]; [|split; [now left|reflexivity]]. apply M_r2 in H as [H ->]. split; [now right|]. symmetry. now apply ocap_some.
  - intros [[->|H] ->]; [apply M_altr; constructor|]. apply M_altl. apply M_r2. split; [exact H|now apply ocap_some].
Qed.
Definition r7 : rx := ROpt (RGroup (lit "7") (RSeq (RCls [(46, 46); (44, 44)]%N) (RPlus rDIGIT))).
Definition r8 : rx := RGroup (lit "8") (RAlt (RC "Z") (RSeqs [RCls [(43, 43); (45, 45)]%N; r2 "9"; ROpt (r2 "10")])).
Lemma L_frac t : L (RSeq (RCls [(46, 46); (44, 44)]%N) (RPlus rDIGIT)) t <-> exists p n, t = p :: n /\ (p = 46%N \/ p = 44%N) /\ digits n.
Proof.
  assert (H : is_lang (RSeq (RCls [(46, 46); (44, 44)]%N) (RPlus rDIGIT)) (one (fun p => p = 46%N \/ p = 44%N) ;; some DIGIT)).
  { apply L_cat; [apply L_one; intros c; chars|apply L_some; exact digit_iff]. }
  rewrite (H t). split.
  - intros (x & y & -> & (p & -> & Hp) & Hy). exists p, y. split; [reflexivity|]. split; [exact Hp|exact Hy].
  - intros (p & n & -> & Hp & Hn). exists [p], n. split; [reflexivity|]. split; [exists p; auto|exact Hn].
Qed.
Lemma M_r7 t c : M r7 t c -> frac t /\ c = ocap "7" t.
Proof.
  intros H. apply M_opt in H as [H|[-> ->]]; [|split; [now left|reflexivity]]. apply M_grp in H as [H ->]; [|reflexivity]. apply L_frac in H as (p & n & -> & Hp & Hn).
  split; [right; eauto|reflexivity].
Qed.
Lemma M_r8 t c : M r8 t c -> exists zh zm, zone t c zh zm.
Proof.
  intros H. inversion H as [| | | | | | |g a s c' Ha]; subst. inversion Ha as [| | |? ? ? ? Hl|? ? ? ? Hr| | |]; subst.
  - assert (c' = []) as -> by (eapply groupless_caps; [exact Hl|reflexivity]). assert (t = lit "Z") as -> by (apply L_RC; eexists; exact Hl).
    exists [], []. left. auto.
  - cbn [RSeqs] in Hr. apply M_seq_inv in Hr as (x & y & c1 & c2 & -> & -> & Hx & Hy). assert (c1 = []) as -> by (eapply groupless_caps; [exact Hx|reflexivity]).
    assert (Lx : L (RCls [(43, 43); (45, 45)]%N) x) by (eexists; exact Hx). apply L_chr in Lx as (sg & -> & Hs).
    apply M_seq_inv in Hy as (u & v & c3 & c4 & -> & -> & Hu & Hv). apply M_r2 in Hu as [Hu ->]. apply M_opt2 in Hv as [Hv ->].
    exists u, v. right. exists sg. split; [reflexivity|]. split; [revert Hs; chars|]. split; [exact Hu|]. split; [exact Hv|]. now rewrite app_nil_r.
Qed.
Definition R6 : rx := RSeq (ROpt (r2 "6")) (RSeq r7 r8).
Definition kend : str -> caps -> option caps := fun s' c => if at_end s' then Some c else None.
Lemma kend_some s' c v : kend s' c = Some v -> (s' = [] \/ s' = [10%N]) /\ v = c.
Proof. unfold kend. destruct (at_end s') eqn:E; [|discriminate]. intros H. injection H as <-. split; [now apply at_end_spec|reflexivity]. Qed.
Lemma R6_parse s4 c4 v : m R6 s4 c4 kend = Some v ->
  exists se fr z e zc zh zm, s4 = se ++ fr ++ z ++ e /\ (e = [] \/ e = [10%N]) /\ opt2 se /\ frac fr /\ zone z zc zh zm /\
    M (RSeq r7 r8) (fr ++ z) (zc ++ ocap "7" fr) /\ v = zc ++ ocap "7" fr ++ ocap "6" se ++ c4.
Proof.
  intros H. apply m_sound in H as (t & e & d & -> & Hm & Hk). apply kend_some in Hk as [He ->]. apply M_seq_inv in Hm as (se & t2 & c6 & d2 & -> & -> & H6 & H78).
  apply M_opt2 in H6 as [H6 ->]. pose proof H78 as H78'. apply M_seq_inv in H78 as (fr & z & c7 & c8 & -> & -> & H7 & H8). apply M_r7 in H7 as [H7 ->]. apply M_r8 in H8 as (zh & zm & H8).
  exists se, fr, z, e, c8, zh, zm. rewrite <- !app_assoc. auto 10.
Qed.
Lemma time_parse s c : match_anchored rGeneralizedTime s = Some c ->
  exists Y mo d h mi se fr z e zh zm zc, shape s Y mo d h mi se fr z e zh zm zc /\
    c = zc ++ ocap "7" fr ++ ocap "6" se ++ ocap "5" mi ++ [(lit "4", h); (lit "3", d); (lit "2", mo); (lit "1", Y)].
Proof.
  intros H. change (match_anchored rGeneralizedTime s) with
    (m (RGroup (lit "1") (RTimes 4 rDIGIT)) s [] (fun s1 c1 => m (r2 "2") s1 c1 (fun s2 c2 => m (r2 "3") s2 c2 (fun s3 c3 =>
       m (r2 "4") s3 c3 (fun s4 c4 => match m (r2 "5") s4 c4 (fun s5 c5 => m R6 s5 c5 kend) with Some v => Some v | None => m R6 s4 c4 kend end))))) in H.
  apply m_sound in H as (Y & s1 & d1 & -> & H1 & H). apply M_grp in H1 as [H1 ->]; [|reflexivity]. apply (L_times 4 _ DIGIT ltac:(discriminate) digit_iff) in H1.
  apply m_sound in H as (mo & s2 & d2 & -> & H2 & H). apply M_r2 in H2 as [H2 ->].
  apply m_sound in H as (d & s3 & d3 & -> & H3 & H). apply M_r2 in H3 as [H3 ->].
  apply m_sound in H as (h & s4 & d4 & -> & H4 & H). apply M_r2 in H4 as [H4 ->].
  cbv beta in H. match type of H with (match ?x with Some v => Some v | None => _ end) = _ => destruct x as [v|] eqn:E5 end.
  - injection H as <-. apply m_sound in E5 as (mi & s5 & d5 & -> & H5 & H). apply M_r2 in H5 as [H5 ->].
    apply R6_parse in H as (se & fr & z & e & zc & zh & zm & -> & He & Hse & Hfr & Hz & _ & ->).
    exists Y, mo, d, h, mi, se, fr, z, e, zh, zm, zc. split; [|rewrite (ocap_some "5" mi H5); reflexivity].
    split; try assumption; [reflexivity|now right|]. intros ->. now apply dig2_nonempty in H5.
  - apply R6_parse in H as (se & fr & z & e & zc & zh & zm & -> & He & Hse & Hfr & Hz & HM & ->).
    assert (se = []) as ->.
    { destruct Hse as [->|Hse]; [reflexivity|]. exfalso. revert E5.
      apply (m_complete (r2 "5") se [(lit "5", se)]); [now apply M_r2|]. cbv beta.
      replace (fr ++ z ++ e) with (([] ++ fr ++ z) ++ e) by (cbn [app]; now rewrite app_assoc).
      apply (m_complete R6 ([] ++ fr ++ z) ((zc ++ ocap "7" fr) ++ [])); [constructor; [apply M_altr; constructor|exact HM]|].
      unfold kend. apply at_end_spec in He. rewrite He. discriminate. }
    exists Y, mo, d, h, [], [], fr, z, e, zh, zm, zc. split; [|reflexivity]. split; try assumption; auto.
Qed.

(** groups of a parsed time *)
Definition opt_group (x : str) : option str := match x with [] => None | _ => Some x end.
Lemma zone_groups z zc zh zm : zone z zc zh zm ->
  dget zc (lit "8") = Some z /\ dget zc (lit "9") = opt_group zh /\ dget zc (lit "10") = opt_group zm /\
  (forall k, In k [lit "2"; lit "3"; lit "4"; lit "5"; lit "6"] -> dget zc k = None) /\
  (zh = [] -> z = [90%N]) /\ (zh <> [] -> z <> [90%N] /\ dig2 zh).
Proof.
  intros [(-> & -> & -> & ->)|(sg & -> & Hsg & Hh & Hm & ->)].
  - repeat split; try reflexivity; try congruence. intros k Hk. cbn [In] in Hk. intuition (subst; reflexivity).
  - assert (zh <> []) by now apply dig2_nonempty. destruct zh as [|a zh]; [congruence|].
    split; [reflexivity|]. split; [destruct zm; reflexivity|]. split; [destruct zm; reflexivity|]. split.
    + intros k Hk. cbn [In] in Hk. destruct zm; intuition (subst; reflexivity).
    + split; [discriminate|]. intros _. split; [|exact Hh]. intros E. injection E as E _. lia.
Qed.
Lemma ocap_get g x k : dget (ocap g x) k = if str_eqb (lit g) k then opt_group x else None.
Proof. destruct x; cbn [ocap dget opt_group]; destruct (str_eqb (lit g) k); reflexivity. Qed.
Lemma time_groups Y mo d h mi se fr z zh zm zc c : zone z zc zh zm ->
  c = zc ++ ocap "7" fr ++ ocap "6" se ++ ocap "5" mi ++ [(lit "4", h); (lit "3", d); (lit "2", mo); (lit "1", Y)] ->
  group c (lit "2") = Some mo /\ group c (lit "3") = Some d /\ group c (lit "4") = Some h /\ group c (lit "5") = opt_group mi /\
  group c (lit "6") = opt_group se /\ group c (lit "8") = Some z /\ group c (lit "9") = opt_group zh /\ group c (lit "10") = opt_group zm.
Proof.
  intros Hz ->. destruct (zone_groups _ _ _ _ Hz) as (G8 & G9 & G10 & Gn & _). unfold group. rewrite !Proofs_Parse4.dget_app.
  rewrite (Gn (lit "2")), (Gn (lit "3")), (Gn (lit "4")), (Gn (lit "5")), (Gn (lit "6")) by (cbn [In]; tauto). rewrite G8, G9, G10, !ocap_get.
  assert (O : forall o : option str, match o with Some v => Some v | None => None end = o) by (intros [?|]; reflexivity).
  repeat split; try reflexivity; cbn; rewrite ?O; destruct mi, se, zh, zm; reflexivity.
Qed.
Definition within (lo hi : N) (x : str) : bool := ((lo <=? Spec_Parse.value x) && (Spec_Parse.value x <=? hi))%N.
Definition within_opt (lo hi : N) (x : str) : bool := match x with [] => true | _ => within lo hi x end.
Lemma in_bounds_some c g o lo hi x : group c (lit g) = Some x -> dig2 x -> in_bounds c g o lo hi = if within lo hi x then Ok tt else Raise InvalidSyntaxError.
Proof.
  intros E [Hl Hd]. unfold in_bounds. rewrite E, py_int_value; [reflexivity|]. split; [now destruct x|exact Hd].
Qed.
Lemma in_bounds_opt c g lo hi x : group c (lit g) = opt_group x -> opt2 x -> in_bounds c g true lo hi = if within_opt lo hi x then Ok tt else Raise InvalidSyntaxError.
Proof.
  intros E [->|H]; [unfold in_bounds; now rewrite E|]. rewrite (in_bounds_some c g true lo hi x); [|destruct x; [now apply dig2_nonempty in H|exact E]|exact H].
  destruct x; [now apply dig2_nonempty in H|reflexivity].
Qed.
Definition good (mo d h mi se zh zm : str) : bool :=
  within 1 12 mo && within 1 31 d && within 0 23 h && within_opt 0 59 mi && within_opt 0 60 se && within_opt 0 23 zh && within_opt 0 59 zm.
Lemma time_validate_parsed s Y mo d h mi se fr z e zh zm zc c : match_anchored rGeneralizedTime s = Some c ->
  shape s Y mo d h mi se fr z e zh zm zc ->
  c = zc ++ ocap "7" fr ++ ocap "6" se ++ ocap "5" mi ++ [(lit "4", h); (lit "3", d); (lit "2", mo); (lit "1", Y)] ->
  time_validate (Text s) = if good mo d h mi se zh zm then Ok tt else Raise InvalidSyntaxError.
Proof.
  intros E Sh Hc. unfold time_validate. rewrite E. destruct (time_groups _ _ _ _ _ _ _ _ _ _ _ _ (sh_z _ _ _ _ _ _ _ _ _ _ _ _ _ Sh) Hc) as (G2 & G3 & G4 & G5 & G6 & G8 & G9 & G10).
  rewrite (in_bounds_some _ _ _ _ _ _ G2 (sh_mo _ _ _ _ _ _ _ _ _ _ _ _ _ Sh)), (in_bounds_some _ _ _ _ _ _ G3 (sh_d _ _ _ _ _ _ _ _ _ _ _ _ _ Sh)),
    (in_bounds_some _ _ _ _ _ _ G4 (sh_h _ _ _ _ _ _ _ _ _ _ _ _ _ Sh)), (in_bounds_opt _ _ _ _ _ G5 (sh_mi _ _ _ _ _ _ _ _ _ _ _ _ _ Sh)),
    (in_bounds_opt _ _ _ _ _ G6 (sh_se _ _ _ _ _ _ _ _ _ _ _ _ _ Sh)), G8. unfold good.
  destruct (within 1 12 mo); [|reflexivity]. destruct (within 1 31 d); [|reflexivity]. destruct (within 0 23 h); [|reflexivity].
  destruct (within_opt 0 59 mi); [|reflexivity]. destruct (within_opt 0 60 se); [|reflexivity]. cbn [bind andb].
  destruct (zone_groups _ _ _ _ (sh_z _ _ _ _ _ _ _ _ _ _ _ _ _ Sh)) as (_ & _ & _ & _ & Z1 & Z2). destruct zh as [|a zh].
  - rewrite (Z1 eq_refl). destruct (sh_z _ _ _ _ _ _ _ _ _ _ _ _ _ Sh) as [(_ & _ & _ & ->)|(sg & _ & _ & Hz & _)]; [reflexivity|now apply dig2_nonempty in Hz].
  - destruct (Z2 ltac:(discriminate)) as [Hz Hh]. rewrite (in_bounds_some _ _ _ _ _ _ G9 Hh).
    assert (Hm : opt2 zm). { destruct (sh_z _ _ _ _ _ _ _ _ _ _ _ _ _ Sh) as [(_ & _ & _ & ->)|(sg & _ & _ & _ & Hm & _)]; [now left|exact Hm]. }
    rewrite (in_bounds_opt _ _ _ _ _ G10 Hm).
    assert (El : forall (A B : res unit), match Some z with Some [90%N] => A | _ => B end = B).
    { intros A B. destruct z as [|x z]; [reflexivity|]. destruct z as [|y z].
      - destruct (N.eq_dec x 90) as [->|Hx]; [congruence|]. destruct x as [|p]; [reflexivity|]. repeat (destruct p as [p|p|]; try reflexivity). now elim Hx.
      - destruct x as [|p]; [reflexivity|]. repeat (destruct p as [p|p|]; try reflexivity). }
    rewrite El. change (within_opt 0 23 (a :: zh)) with (within 0 23 (a :: zh)). destruct (within 0 23 (a :: zh)); reflexivity.
Qed.

(** the pieces are determined by the text *)
Lemma app_len {A} (a a' b b' : list A) : List.length a = List.length a' -> a ++ b = a' ++ b' -> a = a' /\ b = b'.
Proof.
  revert a'. induction a as [|x a IH]; intros [|x' a'] Hl E; try discriminate; [auto|]. cbn in Hl. injection E as -> E.
  destruct (IH a' ltac:(lia) E) as [-> ->]. auto.
Qed.
Lemma zone_start z zc zh zm e : zone z zc zh zm -> exists c r, z ++ e = c :: r /\ (c = 90 \/ c = 43 \/ c = 45)%N.
Proof.
  intros [(-> & _)|(sg & -> & Hs & _)]; [exists 90%N, e; auto|]. eexists sg, _. split; [reflexivity|tauto].
Qed.
Lemma frac_start fr z zc zh zm e : frac fr -> zone z zc zh zm -> not_starts DIGIT (fr ++ z ++ e).
Proof.
  intros Hf Hz. destruct (zone_start _ _ _ _ e Hz) as (c & r & E & Hc). rewrite E. unfold DIGIT. destruct Hf as [->|(p & n & -> & Hp & _)]; cbn; lia.
Qed.
Lemma opt2_digits x : opt2 x -> Forall DIGIT x.
Proof. intros [->|[_ H]]; [constructor|exact H]. Qed.
Lemma opt2_length x : opt2 x -> List.length x = 0 \/ List.length x = 2.
Proof. intros [->|[H _]]; auto. Qed.
Lemma shape_unique s Y mo d h mi se fr z e zh zm zc Y' mo' d' h' mi' se' fr' z' e' zh' zm' zc' :
  shape s Y mo d h mi se fr z e zh zm zc -> shape s Y' mo' d' h' mi' se' fr' z' e' zh' zm' zc' ->
  mo = mo' /\ d = d' /\ h = h' /\ mi = mi' /\ se = se' /\ zh = zh' /\ zm = zm'.
Proof.
  intros [E He [HY _] Hmo Hd Hh Hmi Hse Hns Hfr Hz] [E' He' [HY' _] Hmo' Hd' Hh' Hmi' Hse' Hns' Hfr' Hz']. rewrite E in E'. clear E.
  apply app_len in E' as [-> E']; [|congruence]. apply app_len in E' as [-> E']; [|destruct Hmo, Hmo'; congruence].
  apply app_len in E' as [-> E']; [|destruct Hd, Hd'; congruence]. apply app_len in E' as [-> E']; [|destruct Hh, Hh'; congruence].
  rewrite (app_assoc mi), (app_assoc mi') in E'.
  apply run_split with (P := DIGIT) in E' as [Em E'];
    [|apply Forall_app; split; now apply opt2_digits|apply Forall_app; split; now apply opt2_digits|eapply frac_start; eassumption|eapply frac_start; eassumption].
  assert (Hlm : List.length mi = List.length mi').
  { pose proof (f_equal (@List.length N) Em) as Hl. rewrite !app_length in Hl. destruct (opt2_length _ Hmi), (opt2_length _ Hmi'), (opt2_length _ Hse), (opt2_length _ Hse'); try lia.
    - assert (mi = []) by (destruct mi; [reflexivity|discriminate]). specialize (Hns H3). subst se. cbn in *. lia.
    - assert (mi' = []) by (destruct mi'; [reflexivity|discriminate]). specialize (Hns' H3). subst se'. cbn in *. lia. }
  apply app_len in Em as [-> ->]; [|exact Hlm].
  assert (Ez : z ++ e = z' ++ e').
  { destruct (zone_start _ _ _ _ e Hz) as (c & r & Ec & Hc), (zone_start _ _ _ _ e' Hz') as (c' & r' & Ec' & Hc').
    destruct Hfr as [->|(p & n & -> & Hp & Hn & Hnd)], Hfr' as [->|(p' & n' & -> & Hp' & Hn' & Hnd')].
    - exact E'.
    - cbn [app] in E'. rewrite Ec in E'. injection E' as E' _. lia.
    - cbn [app] in E'. rewrite Ec' in E'. injection E' as E' _. lia.
    - cbn [app] in E'. injection E' as _ E'. apply run_split with (P := DIGIT) in E' as [_ E']; auto; [rewrite Ec|rewrite Ec']; cbn; unfold DIGIT; lia. }
  clear E'. repeat (split; [reflexivity|]). 
  destruct Hz as [(-> & _ & -> & ->)|(sg & -> & Hsg & Hzh & Hzm & _)], Hz' as [(-> & _ & -> & ->)|(sg' & -> & Hsg' & Hzh' & Hzm' & _)].
  - auto.
  - injection Ez as Ez _. lia.
  - injection Ez as Ez _. lia.
  - injection Ez as _ Ez. rewrite <- !app_assoc in Ez. apply app_len in Ez as [-> Ez]; [|destruct Hzh, Hzh'; congruence]. split; [reflexivity|].
    assert (NS : forall x, x = [] \/ x = [10%N] -> not_starts DIGIT x). { intros x [-> | ->]; cbn; [exact I|]. unfold DIGIT. lia. }
    apply run_split with (P := DIGIT) in Ez as [-> _]; auto using opt2_digits.
Qed.

(** the RFC's text has that shape *)
Lemma two_iff lo hi x : two lo hi x <-> dig2 x /\ within lo hi x = true.
Proof. unfold two, dig2, within. rewrite andb_true_iff, !N.leb_le. tauto. Qed.
Lemma two_opt lo hi x : optional (two lo hi) x <-> opt2 x /\ within_opt lo hi x = true.
Proof.
  unfold optional, opt2. rewrite two_iff. split.
  - intros [->|[H1 H2]]; [auto|]. split; [now right|]. destruct x; [reflexivity|exact H2].
  - intros [[->|H1] H2]; [now left|right]. split; [exact H1|]. destruct x; [now apply dig2_nonempty in H1|exact H2].
Qed.
Lemma rfc_shape t e : (e = [] \/ e = [10%N]) -> generalized_time t ->
  exists Y mo d h mi se fr z zh zm zc, shape (t ++ e) Y mo d h mi se fr z e zh zm zc /\ good mo d h mi se zh zm = true.
Proof.
  intros He (Y & t1 & -> & HY & mo & t2 & -> & Hmo & d & t3 & -> & Hd & h & t4 & -> & Hh & ms & t5 & -> & Hms & fr & z & -> & Hfr & Hz).
  apply two_iff in Hmo as [Hmo Bmo], Hd as [Hd Bd], Hh as [Hh Bh].
  assert (M : exists mi se, ms = mi ++ se /\ opt2 mi /\ opt2 se /\ (mi = [] -> se = []) /\ within_opt 0 59 mi = true /\ within_opt 0 60 se = true).
  { destruct Hms as [->|(mi & se & -> & Hmi & Hse)]; [exists [], []; repeat split; auto; now left|].
    apply two_iff in Hmi as [Hmi Bmi]. apply two_opt in Hse as [Hse Bse]. exists mi, se. split; [reflexivity|]. split; [now right|]. split; [exact Hse|].
    split; [intros ->; now apply dig2_nonempty in Hmi|]. split; [destruct mi; [reflexivity|exact Bmi]|exact Bse]. }
  destruct M as (mi & se & -> & Hmi & Hse & Hns & Bmi & Bse).
  assert (F : frac fr).
  { destruct Hfr as [->|(p & n & -> & Hp & Hn)]; [now left|right]. exists (if str_eqb p (lit ".") then 46%N else 44%N), n.
    destruct Hp as [-> | ->]; (split; [reflexivity|]); (split; [auto|exact Hn]). }
  assert (Z : exists zc zh zm, zone z zc zh zm /\ within_opt 0 23 zh = true /\ within_opt 0 59 zm = true).
  { destruct Hz as [->|(sg & y & -> & Hsg & zh & zm & -> & Hzh & Hzm)]; [exists [(lit "8", lit "Z")], [], []; repeat split; left; auto|].
    apply two_iff in Hzh as [Hzh Bzh]. apply two_opt in Hzm as [Hzm Bzm].
    destruct Hsg as [-> | ->]; (eexists _, zh, zm; split; [right|split; [destruct zh; [reflexivity|exact Bzh]|exact Bzm]]); [exists 43%N|exists 45%N];
      (split; [reflexivity|]); (split; [auto|]); (split; [exact Hzh|]); (split; [exact Hzm|reflexivity]). }
  destruct Z as (zc & zh & zm & Hz' & Bzh & Bzm). exists Y, mo, d, h, mi, se, fr, z, zh, zm, zc. split; [split; auto|].
  - now rewrite <- !app_assoc.
  - unfold good. now rewrite Bmo, Bd, Bh, Bmi, Bse, Bzh, Bzm.
Qed.
Lemma shape_rfc s Y mo d h mi se fr z e zh zm zc : shape s Y mo d h mi se fr z e zh zm zc -> good mo d h mi se zh zm = true ->
  or_newline generalized_time s.
Proof.
  intros [-> He HY Hmo Hd Hh Hmi Hse Hns Hfr Hz] Hg. unfold good in Hg. rewrite !andb_true_iff in Hg. destruct Hg as ((((((? & ?) & ?) & ?) & ?) & ?) & ?).
  assert (G : generalized_time (Y ++ mo ++ d ++ h ++ (mi ++ se) ++ fr ++ z)).
  { exists Y. eexists. split; [reflexivity|]. split; [exact HY|]. exists mo. eexists. split; [reflexivity|]. split; [now apply two_iff|].
    exists d. eexists. split; [reflexivity|]. split; [now apply two_iff|]. exists h. eexists. split; [reflexivity|]. split; [now apply two_iff|].
    exists (mi ++ se). eexists. split; [reflexivity|]. split.
    - destruct Hmi as [->|Hmi]; [left; now rewrite Hns|right]. exists mi, se. split; [reflexivity|]. split; [apply two_iff; split; [exact Hmi|]|now apply two_opt].
      destruct mi; [now apply dig2_nonempty in Hmi|assumption].
    - exists fr, z. split; [reflexivity|]. split.
      + destruct Hfr as [->|(p & n & -> & Hp & Hn)]; [now left|right]. exists [p], n. split; [reflexivity|]. split; [|exact Hn]. destruct Hp as [-> | ->]; auto.
      + destruct Hz as [(-> & _)|(sg & -> & Hsg & Hzh & Hzm & _)]; [now left|right]. exists [sg], (zh ++ zm). split; [reflexivity|].
        split; [destruct Hsg as [-> | ->]; auto|]. exists zh, zm. split; [reflexivity|]. split; [apply two_iff; split; [exact Hzh|]|now apply two_opt].
        destruct zh; [now apply dig2_nonempty in Hzh|assumption]. }
  destruct He as [-> | ->]; [left; rewrite app_nil_r|right; exists (Y ++ mo ++ d ++ h ++ (mi ++ se) ++ fr ++ z); split; [|exact G]].
  - rewrite (app_assoc mi). exact G.
  - now rewrite <- !app_assoc.
Qed.
Lemma L_time t : generalized_time t -> L rGeneralizedTime t.
Proof.
  intros (Y & t1 & -> & HY & mo & t2 & -> & Hmo & d & t3 & -> & Hd & h & t4 & -> & Hh & ms & t5 & -> & Hms & fr & z & -> & Hfr & Hz).
  apply two_iff in Hmo as [Hmo _], Hd as [Hd _], Hh as [Hh _].
  assert (R2 : forall g x, dig2 x -> L (r2 g) x) by (intros g x Hx; eexists; now apply M_r2).
  assert (O2 : forall g x, opt2 x -> L (ROpt (r2 g)) x) by (intros g x Hx; eexists; now apply M_opt2).
  unfold rGeneralizedTime. cbn [RSeqs]. apply L_seq. exists Y. eexists. split; [reflexivity|].
  split; [apply (proj2 (L_group _ _ _)); now apply (L_times 4 _ DIGIT ltac:(discriminate) digit_iff)|].
  apply L_seq. exists mo. eexists. split; [reflexivity|]. split; [now apply R2|]. apply L_seq. exists d. eexists. split; [reflexivity|]. split; [now apply R2|].
  apply L_seq. exists h. eexists. split; [reflexivity|]. split; [now apply R2|].
  assert (M : exists mi se, ms = mi ++ se /\ opt2 mi /\ opt2 se).
  { destruct Hms as [->|(mi & se & -> & Hmi & Hse)]; [exists [], []; repeat split; auto; now left|].
    apply two_iff in Hmi as [Hmi _]. apply two_opt in Hse as [Hse _]. exists mi, se. split; [reflexivity|]. split; [now right|exact Hse]. }
  destruct M as (mi & se & -> & Hmi & Hse). rewrite <- app_assoc. apply L_seq. exists mi. eexists. split; [reflexivity|]. split; [now apply O2|].
  apply L_seq. exists se. eexists. split; [reflexivity|]. split; [now apply O2|]. apply L_seq. exists fr, z. split; [reflexivity|]. split.
  - apply L_opt. destruct Hfr as [->|(p & n & -> & Hp & Hn)]; [now right|left]. apply (proj2 (L_group _ _ _)). apply L_frac.
    destruct Hp as [-> | ->]; [exists 46%N, n|exists 44%N, n]; (split; [reflexivity|]); (split; [auto|exact Hn]).
  - apply (proj2 (L_group _ _ _)). apply L_alt. destruct Hz as [->|(sg & y & -> & Hsg & zh & zm & -> & Hzh & Hzm)]; [left; now apply L_RC|right].
    apply two_iff in Hzh as [Hzh _]. apply two_opt in Hzm as [Hzm _]. apply L_seq. exists sg, (zh ++ zm). split; [reflexivity|]. split.
    + apply L_chr. destruct Hsg as [-> | ->]; eexists; (split; [reflexivity|]); reflexivity.
    + apply L_seq. exists zh, zm. split; [reflexivity|]. split; [now apply R2|now apply O2].
Qed.
Lemma time_decides : decides (fun s => time_validate (Text s)) (or_newline generalized_time).
Proof.
  intros s.
  assert (A : or_newline generalized_time s -> exists t e, s = t ++ e /\ (e = [] \/ e = [10%N]) /\ generalized_time t).
  { intros [H|(t & -> & H)]; [exists s, []; rewrite app_nil_r; auto|exists t, [10%N]; auto]. }
  assert (B : or_newline generalized_time s -> time_validate (Text s) = Ok tt).
  { intros H. destruct (A H) as (t & e & -> & He & Ht). destruct (L_time t Ht) as [c Hc]. destruct (anchored_complete _ _ e _ Hc He) as [c' Ec].
    destruct (time_parse _ _ Ec) as (Y & mo & d & h & mi & se & fr & z & e' & zh & zm & zc & Sh & Hc').
    rewrite (time_validate_parsed _ _ _ _ _ _ _ _ _ _ _ _ _ _ Ec Sh Hc').
    destruct (rfc_shape t e He Ht) as (Y2 & mo2 & d2 & h2 & mi2 & se2 & fr2 & z2 & zh2 & zm2 & zc2 & Sh2 & Hg).
    destruct (shape_unique _ _ _ _ _ _ _ _ _ _ _ _ _ _ _ _ _ _ _ _ _ _ _ _ _ Sh Sh2) as (-> & -> & -> & -> & -> & -> & ->). now rewrite Hg. }
  split; [exact B|].
  assert (C : time_validate (Text s) = Raise InvalidSyntaxError \/ time_validate (Text s) = Ok tt /\ or_newline generalized_time s).
  { destruct (match_anchored rGeneralizedTime s) as [c|] eqn:E; [|left; unfold time_validate; now rewrite E].
    destruct (time_parse _ _ E) as (Y & mo & d & h & mi & se & fr & z & e' & zh & zm & zc & Sh & Hc').
    rewrite (time_validate_parsed _ _ _ _ _ _ _ _ _ _ _ _ _ _ E Sh Hc'). destruct (good mo d h mi se zh zm) eqn:Hg; [right|now left].
    split; [reflexivity|]. eapply shape_rfc; eassumption. }
  split.
  - intros H. destruct C as [C|[_ C]]; [exact C|now elim H].
  - intros E. destruct C as [C|[_ C]]; [congruence|exact C].
Qed.
