(** * Languages of the description patterns *)
From Verif Require Import PyBase Model_Prep Model_Uri Model_Schema Model_Regex Spec_Regex Proofs_Regex
  Spec_Search Model_Parse Spec_Parse.

Definition code32 : dialect := mk_dialect (fun c => c = 32%N) (fun k s => s = k) digits False (fun n => n <= 1).

Lemma in_alpha c : in_ranges alpha_ranges c = true <-> ALPHA c.
Proof. unfold in_ranges, alpha_ranges, ALPHA. cbn [existsb fst snd]. lia. Qed.
Lemma in_digit c : in_ranges digit_ranges c = true <-> DIGIT c.
Proof. unfold in_ranges, digit_ranges, DIGIT. cbn [existsb fst snd]. lia. Qed.
Lemma in_keychar c : in_ranges keychar_ranges c = true <-> ALPHA c \/ DIGIT c \/ c = ch "-".
Proof. unfold in_ranges, keychar_ranges, ALPHA, DIGIT. change (ch "-") with 45%N. cbn [existsb fst snd]. lia. Qed.

Lemma Forall_iff {A} (P Q : A -> Prop) l : (forall x, P x <-> Q x) -> Forall P l <-> Forall Q l.
Proof. intros H. split; apply Forall_impl; firstorder. Qed.

Lemma L_SP t : L rSP t <-> sp code32 t.
Proof.
  unfold rSP, sp, RC. rewrite L_plus_chr. apply and_iff_compat_l. apply Forall_iff. intros c. cbn [white code32].
  rewrite N.eqb_eq. change (ch " ") with 32%N. split; congruence.
Qed.
Lemma L_WSP t : L rWSP t <-> wsp code32 t.
Proof.
  unfold rWSP, wsp, RC. rewrite L_star_chr. apply Forall_iff. intros c. cbn [white code32].
  rewrite N.eqb_eq. change (ch " ") with 32%N. split; congruence.
Qed.
Lemma L_cat a b A B : (forall t, L a t <-> A t) -> (forall t, L b t <-> B t) -> forall t, L (RSeq a b) t <-> (A ;; B) t.
Proof.
  intros Ha Hb t. rewrite L_seq. unfold cat. split; intros (x & y & -> & Hx & Hy); exists x, y; repeat split;
    first [now apply Ha|now apply Hb].
Qed.
Lemma L_is s t : L (RLit s) t <-> is s t.
Proof. apply L_lit. Qed.
Lemma L_rc a t : L (RC a) t <-> is [ch a] t.
Proof. apply L_RC. Qed.

Lemma L_descr t : L rdescr t <-> descr t.
Proof.
  unfold rdescr, rkeystring, rALPHA, rkeychar, RCls, descr. rewrite L_seq. split.
  - intros (x & y & -> & Hx & Hy). apply L_chr in Hx as (c & -> & Hc). apply L_star_chr in Hy.
    exists c, y. repeat split; [now apply in_alpha|]. revert Hy. apply Forall_impl. intros a. apply in_keychar.
  - intros (c & r & -> & Hc & Hr). exists [c], r. repeat split.
    + apply L_chr. exists c. split; [reflexivity|now apply in_alpha].
    + apply L_star_chr. revert Hr. apply Forall_impl. intros a. apply in_keychar.
Qed.
Lemma L_digits t : L (RPlus rDIGIT) t <-> digits t.
Proof.
  unfold rDIGIT, RCls, digits. rewrite L_plus_chr. apply and_iff_compat_l, Forall_iff. intros c. apply in_digit.
Qed.
Lemma joined_concat sep x l : joined sep (x :: l) = x ++ List.concat (map (fun y => sep :: y) l).
Proof.
  revert x. induction l as [|y l IH]; intros x; [now rewrite app_nil_r|].
  change (joined sep (x :: y :: l)) with (x ++ sep :: joined sep (y :: l)). rewrite IH. cbn [map List.concat]. now rewrite <- !app_comm_cons.
Qed.
Lemma L_numericoid t : L rnumericoid t <-> numericoid code32 t.
Proof.
  unfold rnumericoid, numericoid. cbn [number code32]. rewrite L_seq. split.
  - intros (x & y & -> & Hx & Hy). apply L_digits in Hx. apply L_plus in Hy as (l & Hn & -> & Hl).
    assert (E : exists q, l = map (fun y => ch "." :: y) q /\ Forall digits q).
    { clear Hn. induction Hl as [|z l Hz Hl IH]; [exists []; auto|]. destruct IH as (q & -> & Hq).
      apply L_seq in Hz as (a & b & -> & Ha & Hb). apply L_RC in Ha. apply L_digits in Hb. subst a. exists (b :: q). split; [reflexivity|now constructor]. }
    destruct E as (q & -> & Hq). exists (x :: q). repeat split.
    + destruct q; [cbn in Hn; congruence|]. cbn [List.length]. lia.
    + now constructor.
    + symmetry. apply joined_concat.
  - intros (l & Hlen & Hl & ->). destruct l as [|x [|y q]]; cbn [List.length] in Hlen; try lia.
    inversion Hl as [|? ? Hx Hq]; subst. exists x, (List.concat (map (fun y => ch "." :: y) (y :: q))). rewrite joined_concat.
    repeat split; [now apply L_digits|]. apply L_plus. exists (map (fun y => ch "." :: y) (y :: q)). repeat split; [discriminate|].
    clear - Hq. induction Hq as [|z l Hz Hl IH]; constructor; [|exact IH].
    apply L_seq. exists [ch "."], z. repeat split; [now apply L_RC|now apply L_digits].
Qed.
Lemma L_oid t : L roid t <-> oid code32 t.
Proof. unfold roid, oid. now rewrite L_alt, L_descr, L_numericoid. Qed.

(** lists *)
Lemma L_sep_list one sep (One : str -> lang) Sep :
  (forall t, L one t <-> exists x, One x t) -> (forall t, L sep t <-> Sep t) ->
  forall t, L (RSeq one (RStar (RSeq sep one))) t <-> exists l, sep_list One Sep l t.
Proof.
  intros H1 H2 t. rewrite L_seq. split.
  - intros (a & b & -> & Ha & Hb). apply L_star in Hb as (q & -> & Hq). apply H1 in Ha as [x Hx].
    revert x a Hx. induction Hq as [|z q Hz Hq IH]; intros x a Hx.
    + exists [x]. cbn [List.concat sep_list]. now rewrite app_nil_r.
    + apply L_seq in Hz as (u & v & -> & Hu & Hv). apply H1 in Hv as [y Hy]. destruct (IH y v Hy) as [l Hl].
      destruct l as [|l0 l]; [destruct Hl|]. exists (x :: l0 :: l). cbn [List.concat].
      exists a, ((u ++ v) ++ List.concat q). repeat split; [exact Hx|]. exists u, (v ++ List.concat q). rewrite <- app_assoc.
      repeat split; [now apply H2|exact Hl].
  - intros [l Hl]. revert t Hl. induction l as [|x l IH]; intros t Hl; [destruct Hl|].
    destruct l as [|y l].
    + exists t, []. rewrite app_nil_r. repeat split; [apply H1; eauto|]. apply L_star. exists []. auto.
    + destruct Hl as (a & b & -> & Hx & u & v & -> & Hu & Hv). destruct (IH v Hv) as (a2 & b2 & -> & Ha2 & Hb2).
      exists a, (u ++ a2 ++ b2). repeat split; [apply H1; eauto|]. apply L_star in Hb2 as (q & -> & Hq).
      apply L_star. exists ((u ++ a2) :: q). cbn [List.concat]. rewrite <- app_assoc. split; [reflexivity|].
      constructor; [|exact Hq]. apply L_seq. exists u, a2. repeat split; [now apply H2|exact Ha2].
Qed.
Lemma L_paren a A : (forall t, L a t <-> A t) -> forall t, L (rparen a) t <-> paren code32 A t.
Proof.
  intros H t. unfold rparen, paren. cbn [RSeqs].
  apply (L_cat _ _ (is (lit "(")) _ (L_rc "("%char)). clear t. apply (L_cat _ _ _ _ L_WSP). apply (L_cat _ _ _ _ H).
  apply (L_cat _ _ _ _ L_WSP). apply L_rc.
Qed.
Lemma ex_paren {A} D (P : A -> lang) t : paren D (fun s => exists l, P l s) t <-> exists l, paren D (P l) t.
Proof.
  unfold paren, cat. split.
  - intros (a & b & -> & Ha & c & d & -> & Hc & e & f & -> & [l He] & g & h & -> & Hg & Hh).
    exists l, a, (c ++ e ++ g ++ h). repeat split; [exact Ha|]. exists c, (e ++ g ++ h). repeat split; [exact Hc|].
    exists e, (g ++ h). repeat split; [exact He|]. exists g, h. auto.
  - intros (l & a & b & -> & Ha & c & d & -> & Hc & e & f & -> & He & g & h & -> & Hg & Hh).
    exists a, (c ++ e ++ g ++ h). repeat split; [exact Ha|]. exists c, (e ++ g ++ h). repeat split; [exact Hc|].
    exists e, (g ++ h). repeat split; [eauto|]. exists g, h. auto.
Qed.
Lemma L_one_or_list one sep (One : str -> lang) Sep :
  (forall t, L one t <-> exists x, One x t) -> (forall t, L sep t <-> Sep t) ->
  forall t, L (RAlt one (rparen (RSeq one (RStar (RSeq sep one))))) t <-> exists l, one_or_list code32 One Sep l t.
Proof.
  intros H1 H2 t. rewrite L_alt, (L_paren _ _ (L_sep_list _ _ _ _ H1 H2)), ex_paren, H1. unfold one_or_list, either. split.
  - intros [[x Hx]|[l Hl]]; [exists [x]; left; eauto|exists l; now right].
  - intros (l & [(x & -> & Hx)|Hl]); [left; eauto|right; eauto].
Qed.
Lemma L_qdescr t : L rqdescr t <-> exists x, qdescr x t.
Proof.
  unfold rqdescr, qdescr. cbn [RSeqs].
  rewrite (L_cat _ _ (is (lit "'")) (descr ;; is (lit "'")) (L_rc "'"%char)).
  2:{ apply (L_cat _ _ _ _ L_descr). apply L_rc. }
  unfold cat, such. split.
  - intros (a & b & -> & Ha & c & d & -> & Hc & Hd). exists c, a, (c ++ d). repeat split; [exact Ha|]. exists c, d. auto.
  - intros (x & a & b & -> & Ha & c & d & -> & [-> Hc] & Hd). exists a, (x ++ d). repeat split; [exact Ha|]. exists x, d. auto.
Qed.
Lemma L_qdescrs t : L rqdescrs t <-> exists l, qdescrs code32 l t.
Proof. unfold rqdescrs, rqdescrlist, qdescrs. apply L_one_or_list; [apply L_qdescr|apply L_SP]. Qed.
Lemma L_seqs4 a b c d t : L (RSeqs [a; b; c; d]) t <-> L (RSeq (RSeqs [a; b; c]) d) t.
Proof.
  cbn [RSeqs]. rewrite !L_seq. split.
  - intros (x & y & -> & Hx & Hy). apply L_seq in Hy as (x1 & y1 & -> & Hx1 & Hy1). apply L_seq in Hy1 as (x2 & y2 & -> & Hx2 & Hy2).
    exists (x ++ x1 ++ x2), y2. rewrite <- !app_assoc. repeat split; [|exact Hy2]. apply L_seq. exists x, (x1 ++ x2). repeat split; [exact Hx|].
    apply L_seq. exists x1, x2. auto.
  - intros (x & y & -> & Hx & Hy). apply L_seq in Hx as (x1 & y1 & -> & Hx1 & Hy1). apply L_seq in Hy1 as (x2 & y2 & -> & Hx2 & Hy2).
    exists x1, (x2 ++ y2 ++ y). rewrite <- !app_assoc. repeat split; [exact Hx1|]. apply L_seq. exists x2, (y2 ++ y). repeat split; [exact Hx2|].
    apply L_seq. exists y2, y. auto.
Qed.
Lemma L_star_ext a b : (forall t, L a t <-> L b t) -> forall t, L (RStar a) t <-> L (RStar b) t.
Proof.
  intros H t. rewrite !L_star. split; intros (l & -> & Hl); exists l; split; trivial; revert Hl; apply Forall_impl; intros x; apply H.
Qed.
Lemma L_oids t : L roids t <-> exists l, oids code32 l t.
Proof.
  unfold roids, roidlist, oids.
  assert (E : forall t, L (rparen (RSeq roid (RStar (RSeqs [rWSP; RC "$"; rWSP; roid])))) t <->
                        L (rparen (RSeq roid (RStar (RSeq (RSeqs [rWSP; RC "$"; rWSP]) roid)))) t).
  { intros u. rewrite (L_paren _ (L (RSeq roid (RStar (RSeq (RSeqs [rWSP; RC "$"; rWSP]) roid))))).
    - symmetry. apply L_paren. reflexivity.
    - intros v. rewrite !L_seq. pose proof (L_star_ext _ _ (L_seqs4 rWSP (RC "$") rWSP roid)) as E.
      split; intros (x & y & -> & Hx & Hy); exists x, y; repeat split; trivial; now apply E. }
  rewrite L_alt, E, <- L_alt. apply L_one_or_list.
  - intros u. rewrite L_oid. unfold such. split; [intros H; exists u; auto|intros (x & -> & H); exact H].
  - cbn [RSeqs]. apply (L_cat _ _ _ _ L_WSP). apply (L_cat _ _ _ _ (L_rc _)). apply L_WSP.
Qed.
Lemma L_dpiece t : L (RAlts [rQS; rQQ; rQUTF8]) t <-> dpiece t.
Proof.
  cbn [RAlts]. rewrite !L_alt. unfold rQS, rQQ, rQUTF8, RW, RCls, RNot, dpiece. rewrite L_seq, L_lit. split.
  - intros [(x & y & -> & Hx & Hy)|[->|H]]; [|auto|].
    + apply L_lit in Hx. apply L_chr in Hy as (c & -> & Hc). subst x. unfold in_ranges in Hc. cbn [existsb fst snd] in Hc.
      assert (c = 67 \/ c = 99)%N as [-> | ->] by lia; [right; left; reflexivity|right; right; left; reflexivity].
    + apply L_chr in H as (c & -> & Hc). right; right; right. exists c. split; [reflexivity|]. unfold in_ranges in Hc. cbn [existsb fst snd] in Hc.
      change (ch "'") with 39%N. change (ch "\") with 92%N. lia.
  - intros [->|[->|[->|(c & -> & H1 & H2)]]].
    + auto.
    + left. exists (lit "\5"), [67%N]. repeat split; [now apply L_lit|]. apply L_chr. exists 67%N. split; reflexivity.
    + left. exists (lit "\5"), [99%N]. repeat split; [now apply L_lit|]. apply L_chr. exists 99%N. split; reflexivity.
    + right; right. apply L_chr. exists c. split; [reflexivity|]. unfold in_ranges. cbn [existsb fst snd].
      change (ch "'") with 39%N in H1. change (ch "\") with 92%N in H2. lia.
Qed.
Lemma L_dstring t : L rdstring t <-> dstring t.
Proof.
  unfold rdstring, dstring. rewrite L_plus. split; intros (l & H1 & H2 & H3); exists l; repeat split; trivial;
  [revert H3|revert H2]; apply Forall_impl; intros a; apply L_dpiece.
Qed.
Lemma L_qdstring t : L rqdstring t <-> qdstring t.
Proof.
  unfold rqdstring, qdstring. cbn [RSeqs]. apply (L_cat _ _ (is (lit "'")) _ (L_rc "'"%char)). clear t. apply (L_cat _ _ _ _ L_dstring). apply L_rc.
Qed.
Lemma sep_list_const (a : lang) Sep l t : sep_list (fun _ => a) Sep l t <-> l <> [] /\ sep_list (fun _ => a) Sep (repeat [] (List.length l)) t.
Proof.
  revert t. induction l as [|x l IH]; intros t; [cbn [sep_list]; split; [intros []|intros [? _]; congruence]|].
  split.
  - intros H. split; [discriminate|]. destruct l as [|y l]; [exact H|].
    destruct H as (u & v & -> & Hu & w & z & -> & Hw & Hz). apply IH in Hz as [_ Hz]. cbn [List.length repeat].
    exists u, (w ++ z). repeat split; [exact Hu|]. exists w, z. repeat split; [exact Hw|exact Hz].
  - intros [_ H]. destruct l as [|y l]; [exact H|]. cbn [List.length repeat] in H.
    destruct H as (u & v & -> & Hu & w & z & -> & Hw & Hz).
    exists u, (w ++ z). repeat split; [exact Hu|]. exists w, z. repeat split; [exact Hw|]. apply IH. split; [discriminate|exact Hz].
Qed.
Lemma paren_ext D (A B : lang) : (forall t, A t <-> B t) -> forall t, paren D A t <-> paren D B t.
Proof.
  intros H t. unfold paren, cat. split.
  - intros (a & b & -> & Ha & c & d & -> & Hc & e & f & -> & He & R). exists a, (c ++ e ++ f). repeat split; [exact Ha|].
    exists c, (e ++ f). repeat split; [exact Hc|]. exists e, f. repeat split; [now apply H|exact R].
  - intros (a & b & -> & Ha & c & d & -> & Hc & e & f & -> & He & R). exists a, (c ++ e ++ f). repeat split; [exact Ha|].
    exists c, (e ++ f). repeat split; [exact Hc|]. exists e, f. repeat split; [now apply H|exact R].
Qed.
Lemma L_qdstrings t : L rqdstrings t <-> qdstrings code32 t.
Proof.
  unfold rqdstrings, rqdstringlist, qdstrings, either. rewrite L_alt, L_qdstring. apply or_iff_compat_l.
  apply L_paren. clear t. intros t.
  rewrite (L_sep_list rqdstring rSP (fun _ => qdstring) (sp code32)).
  - cbn [empty_list code32]. split.
    + intros [l Hl]. left. apply sep_list_const in Hl as [Hn Hl]. destruct l as [|x l]; [congruence|]. exists (List.length l). exact Hl.
    + intros [[n Hn]|[[] _]]. eauto.
  - intros u. rewrite L_qdstring. split; [intros H; now exists []|now intros [_ H]].
  - apply L_SP.
Qed.
Lemma L_noidlen t : L rnoidlen t <-> exists o len, noidlen code32 o len t.
Proof.
  unfold rnoidlen, noidlen. rewrite L_seq. cbn [RSeqs]. split.
  - intros (x & y & -> & Hx & Hy). apply L_numericoid in Hx. apply L_opt in Hy as [Hy | ->].
    + apply L_seq in Hy as (a & b & -> & Ha & Hb). apply L_seq in Hb as (n & b2 & -> & Hn & Hb2).
      apply L_RC in Ha, Hb2. apply L_digits in Hn. subst a b2. exists x, (Some n). exists x, ([ch "{"] ++ n ++ [ch "}"]).
      repeat split; [exact Hx|]. exists [ch "{"], (n ++ [ch "}"]). repeat split. exists n, [ch "}"]. repeat split; try apply Hn.
    + exists x, None. exists x, []. repeat split; exact Hx.
  - intros (o & len & x & y & -> & [-> Ho] & Hy). exists o, y. repeat split; [now apply L_numericoid|]. apply L_opt.
    destruct len as [n|]; [left|right; exact Hy].
    destruct Hy as (a & b & -> & -> & c & d & -> & [-> Hn] & ->). apply L_seq. exists (lit "{"), (n ++ lit "}"). repeat split; [now apply L_RC|].
    apply L_seq. exists n, (lit "}"). repeat split; [now apply L_digits|now apply L_RC].
Qed.
Lemma L_ext t : L (RSeqs [RC " "; rxstring; RC " "; rqdstrings]) t <->
  exists x q, t = lit " X-" ++ x ++ lit " " ++ q /\ x <> [] /\ Forall xchar x /\ qdstrings code32 q.
Proof.
  assert (X : forall t, L rxstring t <-> exists x, t = lit "X-" ++ x /\ x <> [] /\ Forall xchar x).
  { intros u. unfold rxstring. cbn [RSeqs]. unfold RCls. split.
    - intros H. apply L_seq in H as (a & b & -> & Ha & Hb). apply L_seq in Hb as (c & d & -> & Hc & Hd). apply L_RC in Ha, Hc. subst.
      apply L_plus_chr in Hd as [Hn Hd]. exists d. repeat split; [exact Hn|]. revert Hd. apply Forall_impl. intros z.
      unfold in_ranges, xchar, ALPHA. cbn [existsb fst snd]. change (ch "_") with 95%N. change (ch "-") with 45%N. lia.
    - intros (x & -> & Hn & Hx). apply L_seq. exists [ch "X"], (ch "-" :: x). repeat split; [now apply L_RC|]. apply L_seq. exists [ch "-"], x.
      repeat split; [now apply L_RC|]. apply L_plus_chr. split; [exact Hn|]. revert Hx. apply Forall_impl. intros z.
      unfold in_ranges, xchar, ALPHA. cbn [existsb fst snd]. change (ch "_") with 95%N. change (ch "-") with 45%N. lia. }
  cbn [RSeqs]. split.
  - intros H. apply L_seq in H as (a & b & -> & Ha & H). apply L_seq in H as (c & d & -> & Hc & H). apply L_seq in H as (e & f & -> & He & H).
    apply L_RC in Ha, He. apply X in Hc as (x & -> & Hn & Hx). apply L_qdstrings in H. subst. exists x, f. rewrite <- !app_assoc. auto.
  - intros (x & q & -> & Hn & Hx & Hq). apply L_seq. exists [ch " "], (lit "X-" ++ x ++ lit " " ++ q). repeat split; [now apply L_RC|].
    apply L_seq. exists (lit "X-" ++ x), (lit " " ++ q). rewrite <- app_assoc. repeat split; [apply X; eauto|]. apply L_seq.
    exists (lit " "), q. repeat split; [now apply L_RC|now apply L_qdstrings].
Qed.
