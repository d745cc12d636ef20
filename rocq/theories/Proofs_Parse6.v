(** * The constructors on described text *)
From Verif Require Import PyBase Model_Prep Proofs_Prep Model_Uri Spec_Uri Proofs_Uri Model_Schema Model_Regex Spec_Regex Proofs_Regex
  Spec_Search Proofs_Search2 Model_Parse Spec_Parse Proofs_Parse Proofs_Parse2 Proofs_Parse3 Proofs_Parse4 Proofs_Parse5.

Definition usage_rx : rx := RAlts (map RLit [lit "userApplications"; lit "directoryOperation"; lit "distributedOperation"; lit "dSAOperation"]).
Definition oc_fields : list fld := [
  (lit "name", BKey (lit "NAME") rqdescrs);
  (lit "desc", BKey (lit "DESC") rqdstring);
  (lit "obsolete", BFlag (lit "OBSOLETE"));
  (lit "superclass", BKey (lit "SUP") roids);
  (lit "kind", BWord [lit "ABSTRACT"; lit "STRUCTURAL"; lit "AUXILIARY"]);
  (lit "must", BKey (lit "MUST") roids);
  (lit "may", BKey (lit "MAY") roids)].
Definition at_fields : list fld := [
  (lit "name", BKey (lit "NAME") rqdescrs);
  (lit "desc", BKey (lit "DESC") rqdstring);
  (lit "obsolete", BFlag (lit "OBSOLETE"));
  (lit "supertype", BKey (lit "SUP") roid);
  (lit "equality", BKey (lit "EQUALITY") roid);
  (lit "ordering", BKey (lit "ORDERING") roid);
  (lit "substr", BKey (lit "SUBSTR") roid);
  (lit "syntax", BKey (lit "SYNTAX") rnoidlen);
  (lit "single_value", BFlag (lit "SINGLE-VALUE"));
  (lit "collective", BFlag (lit "COLLECTIVE"));
  (lit "no_user_mod", BFlag (lit "NO-USER-MODIFICATION"));
  (lit "usage", BKey (lit "USAGE") usage_rx)].
Lemma oc_rx : rObjectClassDescription = desc_rx oc_fields. Proof. reflexivity. Qed.
Lemma at_rx : rAttributeTypeDescription = desc_rx at_fields. Proof. reflexivity. Qed.

Definition val_ok (a : rx) : Prop := self_ending a /\ (forall x, L a x -> not_starts (fun c => c = 32%N) x /\ x <> []).
Lemma v_qdescrs : val_ok rqdescrs.
Proof.
  split; [apply ends_qdescrs|]. intros x H. apply L_qdescrs in H as (l & [(y & -> & H)|H]).
  - apply qdescr_inv in H as [-> _]. split; [cbn|]; discriminate.
  - apply paren_inv in H as (u & i & v & -> & _). split; [cbn|]; discriminate.
Qed.
Lemma v_qdstring : val_ok rqdstring.
Proof. split; [apply ends_qdstring|]. intros x H. apply L_qdstring, qdstring_inv in H as (d & -> & _). split; [cbn|]; discriminate. Qed.
Lemma v_oid : val_ok roid.
Proof. split; [apply ends_oid|]. intros x H. apply L_oid in H. apply starts_simple. left. now apply simple_oid. Qed.
Lemma v_oids : val_ok roids.
Proof.
  split; [apply ends_oids|]. intros x H. apply L_oids in H as (l & [(y & -> & [-> H])|H]).
  - apply starts_simple. left. now apply simple_oid.
  - apply paren_inv in H as (u & i & v & -> & _). split; [cbn|]; discriminate.
Qed.
Lemma v_noidlen : val_ok rnoidlen.
Proof.
  split; [apply ends_noidlen|]. intros x H. apply L_noidlen in H as (o & len & a & b & -> & [-> Ho] & Hb).
  destruct (numericoid_chars _ Ho) as (Hn & _ & Hst). destruct o as [|c o]; [congruence|]. split; [|discriminate]. cbn in *. unfold DIGIT in Hst. lia.
Qed.
Lemma v_usage : val_ok usage_rx.
Proof.
  split; [apply ends_usage|]. intros x H. apply L_alts_lit in H; [|discriminate].
  destruct H as [<-|[<-|[<-|[<-|[]]]]]; (split; [cbn|]; discriminate).
Qed.
Lemma oc_nice : nice oc_fields.
Proof.
  split; try reflexivity.
  - repeat constructor. discriminate.
  - apply Forall_cons; [exact v_qdescrs|]. apply Forall_cons; [exact v_qdstring|]. apply Forall_cons; [exact I|].
    apply Forall_cons; [exact v_oids|]. apply Forall_cons; [exact I|]. apply Forall_cons; [exact v_oids|].
    apply Forall_cons; [exact v_oids|]. constructor.
Qed.
Lemma at_nice : nice at_fields.
Proof.
  split; try reflexivity.
  - repeat constructor.
  - apply Forall_cons; [exact v_qdescrs|]. apply Forall_cons; [exact v_qdstring|]. apply Forall_cons; [exact I|].
    do 4 (apply Forall_cons; [exact v_oid|]). apply Forall_cons; [exact v_noidlen|].
    do 3 (apply Forall_cons; [exact I|]). apply Forall_cons; [exact v_usage|]. constructor.
Qed.

(** ** Parts of the grammar as parts of the pattern *)
Definition val_list (P : list str -> lang) (l : list str) (v : option str) : Prop :=
  match v with None => l = [] | Some x => P l x /\ l <> [] end.
Definition val_flag (b : bool) (v : option str) : Prop := match v with None => b = false | Some x => b = true /\ x <> [] end.

Lemma key_part k a (A : lang) t : (forall x, L a x <-> A x) ->
  (kw code32 k ;; sp code32 ;; A) t <-> exists x, body (BKey (lit k) a) x t /\ A x.
Proof.
  intros H. unfold kw. split.
  - intros (y & z & -> & (u & q & -> & Hu & ->) & v & x & -> & Hv & Hx). exists x. split; [|exact Hx]. exists u, v. rewrite <- !app_assoc.
    split; [reflexivity|]. split; [exact Hu|]. split; [exact Hv|]. now apply H.
  - intros (x & (u & v & -> & Hu & Hv & _) & Hx). exists (u ++ lit k), (v ++ x). rewrite <- !app_assoc. split; [reflexivity|]. split.
    + exists u, (lit k). split; [reflexivity|]. split; [exact Hu|reflexivity].
    + exists v, x. split; [reflexivity|]. split; [exact Hv|exact Hx].
Qed.
(** a list-valued part *)
Lemma list_part_iff k a (P : list str -> lang) l t : (forall x, L a x <-> exists l, P l x) ->
  list_part code32 k l P t <-> exists v, body_opt (BKey (lit k) a) v t /\ val_list P l v.
Proof.
  intros H. unfold list_part. destruct l as [|z l].
  - split.
    + intros ->. exists None. split; reflexivity.
    + intros ([x|] & Hb & Hv); [now destruct Hv|exact Hb].
  - split.
    + intros (y & q & -> & (u & w & -> & Hu & ->) & v & x & -> & Hv & Hx). exists (Some x). split; [|split; [exact Hx|discriminate]].
      exists u, v. rewrite <- !app_assoc. split; [reflexivity|]. split; [exact Hu|]. split; [exact Hv|]. apply H. eauto.
    + intros ([x|] & Hb & Hv); [|discriminate Hv]. destruct Hv as [Hx _]. destruct Hb as (u & v & -> & Hu & Hv & _).
      exists (u ++ lit k), (v ++ x). rewrite <- !app_assoc. split; [reflexivity|]. split.
      * exists u, (lit k). split; [reflexivity|]. split; [exact Hu|reflexivity].
      * exists v, x. split; [reflexivity|]. split; [exact Hv|exact Hx].
Qed.
Lemma names_part_iff l t : names_part code32 l t <-> exists v, body_opt (BKey (lit "NAME") rqdescrs) v t /\ val_list (qdescrs code32) l v.
Proof.
  unfold names_part, either. cbn [empty_list code32]. rewrite (list_part_iff "NAME" rqdescrs (qdescrs code32)); [|apply L_qdescrs].
  split; [intros [H|[[] _]]; exact H|now left].
Qed.
Lemma other_part_iff k a A t : (forall x, L a x <-> A x) -> other_part code32 k A t <-> exists v, body_opt (BKey (lit k) a) v t.
Proof.
  intros H. unfold other_part, either. rewrite (key_part k a A t H). split.
  - intros [->|(x & Hb & _)]; [exists None; reflexivity|exists (Some x); exact Hb].
  - intros ([x|] & Hb); [right|left; exact Hb]. exists x. split; [exact Hb|]. destruct Hb as (_ & _ & _ & _ & _ & Hx). now apply H.
Qed.
Lemma flag_part_iff k b t : lit k <> [] -> flag_part code32 k b t <-> exists v, body_opt (BFlag (lit k)) v t /\ val_flag b v.
Proof.
  intros Hk. unfold flag_part. destruct b; split.
  - intros (u & w & -> & Hu & ->). exists (Some (u ++ lit k)). split; [split; [reflexivity|exists u; split; [reflexivity|exact Hu]]|].
    split; [reflexivity|]. intros E. apply app_eq_nil in E as [_ E]. congruence.
  - intros ([x|] & Hb & Hv); [|discriminate Hv]. destruct Hb as (-> & u & -> & Hu). exists u, (lit k). split; [reflexivity|]. split; [exact Hu|reflexivity].
  - intros ->. exists None. split; reflexivity.
  - intros ([x|] & Hb & Hv); [destruct Hv as [Hv _]; discriminate Hv|exact Hb].
Qed.
Lemma opt_part_iff k v t : opt_part code32 k v (oid code32) t <-> body_opt (BKey (lit k) roid) v t.
Proof.
  unfold opt_part. destruct v as [x|]; [|reflexivity]. unfold kw, such. split.
  - intros (y & z & -> & (u & q & -> & Hu & ->) & w & x' & -> & Hw & [-> Hx]). exists u, w. rewrite <- !app_assoc.
    split; [reflexivity|]. split; [exact Hu|]. split; [exact Hw|]. now apply L_oid.
  - intros (u & w & -> & Hu & Hw & Hx). exists (u ++ lit k), (w ++ x). rewrite <- !app_assoc. split; [reflexivity|]. split.
    + exists u, (lit k). split; [reflexivity|]. split; [exact Hu|reflexivity].
    + exists w, x. split; [reflexivity|]. split; [exact Hw|]. split; [reflexivity|]. now apply L_oid.
Qed.
Definition kind_words : list str := [lit "ABSTRACT"; lit "STRUCTURAL"; lit "AUXILIARY"].
Lemma kind_part_iff k t : kind_part code32 k t <-> body_opt (BWord kind_words) (option_map (fun k => lit (kind_word k)) k) t.
Proof.
  unfold kind_part. destruct k as [k|]; [|reflexivity]. cbn [option_map body_opt body]. split.
  - intros (u & w & -> & Hu & ->). exists u. split; [reflexivity|]. split; [exact Hu|]. destruct k; [now left|right; now left|right; right; now left].
  - intros (u & -> & Hu & _). exists u, (lit (kind_word k)). split; [reflexivity|]. split; [exact Hu|reflexivity].
Qed.
Lemma kind_word_of v t : body_opt (BWord kind_words) v t -> exists k, v = option_map (fun k => lit (kind_word k)) k.
Proof.
  destruct v as [x|]; [|exists None; reflexivity]. intros (u & _ & _ & Hin).
  destruct Hin as [<-|[<-|[<-|[]]]]; [exists (Some ABSTRACT)|exists (Some STRUCTURAL)|exists (Some AUXILIARY)]; reflexivity.
Qed.
Lemma usage_part_iff k t : usage_part code32 k t <-> body_opt (BKey (lit "USAGE") usage_rx) (option_map (fun k => lit (usage_word k)) k) t.
Proof.
  unfold usage_part. destruct k as [k|]; [|reflexivity]. cbn [option_map body_opt body]. unfold kw. split.
  - intros (y & z & -> & (u & q & -> & Hu & ->) & w & x' & -> & Hw & ->). exists u, w. rewrite <- !app_assoc.
    split; [reflexivity|]. split; [exact Hu|]. split; [exact Hw|]. apply L_alts_lit; [discriminate|].
    destruct k; [now left|right; now left|right; right; now left|right; right; right; now left].
  - intros (u & w & -> & Hu & Hw & _). exists (u ++ lit "USAGE"), (w ++ lit (usage_word k)). rewrite <- !app_assoc. split; [reflexivity|]. split.
    + exists u, (lit "USAGE"). split; [reflexivity|]. split; [exact Hu|reflexivity].
    + exists w, (lit (usage_word k)). split; [reflexivity|]. split; [exact Hw|reflexivity].
Qed.
Lemma usage_word_of v t : body_opt (BKey (lit "USAGE") usage_rx) v t -> exists k, v = option_map (fun k => lit (usage_word k)) k.
Proof.
  destruct v as [x|]; [|exists None; reflexivity]. intros (u & w & _ & _ & _ & Hin). apply L_alts_lit in Hin; [|discriminate].
  destruct Hin as [<-|[<-|[<-|[<-|[]]]]]; [exists (Some userApplications)|exists (Some directoryOperation)|exists (Some distributedOperation)|exists (Some dSAOperation)]; reflexivity.
Qed.
Definition val_syntax (v : option (str * option str)) (x : option str) : Prop :=
  match v, x with None, None => True | Some (o, len), Some x => noidlen code32 o len x | _, _ => False end.
Lemma syntax_part_iff v t : syntax_part code32 v t <-> exists x, body_opt (BKey (lit "SYNTAX") rnoidlen) x t /\ val_syntax v x.
Proof.
  unfold syntax_part. destruct v as [[o len]|].
  - unfold kw. split.
    + intros (y & z & -> & (u & q & -> & Hu & ->) & w & x & -> & Hw & Hx). exists (Some x). split; [|exact Hx]. exists u, w. rewrite <- !app_assoc.
      split; [reflexivity|]. split; [exact Hu|]. split; [exact Hw|]. apply L_noidlen. eauto.
    + intros ([x|] & Hb & Hv); [|destruct Hv]. destruct Hb as (u & w & -> & Hu & Hw & _). exists (u ++ lit "SYNTAX"), (w ++ x). rewrite <- !app_assoc.
      split; [reflexivity|]. split.
      * exists u, (lit "SYNTAX"). split; [reflexivity|]. split; [exact Hu|reflexivity].
      * exists w, x. split; [reflexivity|]. split; [exact Hw|exact Hv].
  - split; [intros ->; exists None; split; reflexivity|]. intros ([x|] & Hb & Hv); [destruct Hv|exact Hb].
Qed.
Lemma tail_text t : L tail_rx t -> (extensions code32 ;; wsp code32 ;; is (lit ")")) t.
Proof.
  intros H. apply tail_inv in H as (e & u & -> & Hu & He). exists e, (u ++ [41%N]). split; [reflexivity|]. split.
  - unfold extensions. cbn [extension_count code32]. destruct He as [-> | (x & q & -> & Hn & Hx & Hq)]; [exists 0; split; [lia|reflexivity]|].
    exists 1. split; [lia|]. exists (lit " X-" ++ x ++ lit " " ++ q), []. rewrite app_nil_r. split; [reflexivity|]. split; [|reflexivity].
    exists (lit " "), (lit "X-" ++ x ++ lit " " ++ q). split; [reflexivity|]. split; [split; [discriminate|repeat constructor]|].
    exists (lit "X-"), (x ++ lit " " ++ q). split; [reflexivity|]. split; [reflexivity|]. exists x, (lit " " ++ q). split; [reflexivity|].
    split; [split; assumption|]. exists (lit " "), q. split; [reflexivity|]. split; [split; [discriminate|repeat constructor]|exact Hq].
  - exists u, [41%N]. split; [reflexivity|]. split; [exact Hu|reflexivity].
Qed.
Lemma text_tail t : nodouble t -> (extensions code32 ;; wsp code32 ;; is (lit ")")) t -> L tail_rx t.
Proof.
  intros Hd (e & y & -> & He & u & z & -> & Hu & ->). apply tail_inv. exists e, u. split; [reflexivity|]. split; [exact Hu|].
  destruct He as (n & Hn & He). cbn [extension_count code32] in Hn. destruct n as [|[|n]]; [now left| |lia]. right.
  destruct He as (x & q & -> & Hx & Hq0). assert (q = []) as -> by exact Hq0. clear Hq0. apply nodouble_l in Hd. rewrite app_nil_r in *.
  destruct Hx as (s1 & r & -> & Hs1 & k & r2 & -> & -> & xs & r3 & -> & [Hxn Hxs] & s2 & qd & -> & Hs2 & Hq).
  assert (s1 = [32%N]) as ->. { apply sp_single; [exact Hs1|]. now apply nodouble_l in Hd. }
  assert (s2 = [32%N]) as ->. { apply sp_single; [exact Hs2|]. do 3 apply nodouble_r in Hd. now apply nodouble_l in Hd. }
  exists xs, qd. split; [reflexivity|]. auto.
Qed.

(** ** Object classes *)
Definition oc_vals (d : oc_desc) (vs : list (option str)) : Prop :=
  exists vn vd vo vp vk vm vy, vs = [vn; vd; vo; vp; vk; vm; vy] /\
    val_list (qdescrs code32) (d_names d) vn /\ val_flag (d_obsolete d) vo /\ val_list (oids code32) (d_sups d) vp /\
    vk = option_map (fun k => lit (kind_word k)) (d_kind d) /\
    val_list (oids code32) (d_must d) vm /\ val_list (oids code32) (d_may d) vy.
Lemma oc_text_reading d x : nodouble x -> oc_text code32 d x -> exists vs, reading oc_fields x (d_oid d) vs /\ oc_vals d vs.
Proof.
  intros Hd (a0 & b0 & -> & -> & u & b1 & -> & Hu & o & b2 & -> & [-> Ho] & t1 & b3 & -> & H1 & t2 & b4 & -> & H2 & t3 & b5 & -> & H3
    & t4 & b6 & -> & H4 & t5 & b7 & -> & H5 & t6 & b8 & -> & H6 & t7 & r & -> & H7 & Hr).
  apply names_part_iff in H1 as (vn & B1 & V1). apply (other_part_iff "DESC" rqdstring _ _ L_qdstring) in H2 as (vd & B2).
  apply flag_part_iff in H3 as (vo & B3 & V3); [|discriminate]. apply (list_part_iff "SUP" roids _ _ _ L_oids) in H4 as (vp & B4 & V4).
  apply kind_part_iff in H5. apply (list_part_iff "MUST" roids _ _ _ L_oids) in H6 as (vm & B6 & V6).
  apply (list_part_iff "MAY" roids _ _ _ L_oids) in H7 as (vy & B7 & V7).
  do 10 apply nodouble_r in Hd. apply text_tail in Hr; [|exact Hd].
  exists [vn; vd; vo; vp; option_map (fun k => lit (kind_word k)) (d_kind d); vm; vy]. split.
  - exists u, (t1 ++ t2 ++ t3 ++ t4 ++ t5 ++ t6 ++ t7 ++ []), r. rewrite app_nil_r, <- !app_assoc. split; [reflexivity|].
    split; [exact Hu|]. split; [exact Ho|]. split; [|exact Hr]. rewrite <- (app_nil_r t7).
    repeat (apply fields_cons; [assumption|]). apply fields_nil.
  - exists vn, vd, vo, vp, (option_map (fun k => lit (kind_word k)) (d_kind d)), vm, vy. auto 10.
Qed.
Lemma fields_cons_inv f fs vs t : fields (f :: fs) vs t ->
  exists v vs' t1 t2, vs = v :: vs' /\ t = t1 ++ t2 /\ body_opt (snd f) v t1 /\ fields fs vs' t2.
Proof. intros H. inversion H; subst. eauto 10. Qed.
Lemma fields_nil_inv vs t : fields [] vs t -> vs = [] /\ t = [].
Proof. intros H. inversion H; subst. auto. Qed.
Lemma val_list_of a (P : list str -> lang) k v t : (forall x, L a x <-> exists l, P l x) -> (forall x, ~ P [] x) ->
  body_opt (BKey k a) v t -> exists l, val_list P l v.
Proof.
  intros H Hn Hb. destruct v as [x|]; [|exists []; reflexivity]. destruct Hb as (_ & _ & _ & _ & _ & Hx). apply H in Hx as [l Hl]. exists l.
  split; [exact Hl|]. intros ->. now apply (Hn x).
Qed.
Lemma val_flag_of k v t : k <> [] -> body_opt (BFlag k) v t -> exists b, val_flag b v.
Proof.
  intros Hk Hb. destruct v as [x|]; [|exists false; reflexivity]. exists true. split; [reflexivity|]. destruct Hb as (-> & u & -> & _). intros E.
  apply app_eq_nil in E as [_ E]. congruence.
Qed.
Lemma no_qdescrs x : ~ qdescrs code32 [] x.
Proof. intros [(y & E & _)|H]; [discriminate|]. now apply paren_inv in H as (u & i & v & _ & _ & [] & _). Qed.
Lemma no_oids x : ~ oids code32 [] x.
Proof. intros [(y & E & _)|H]; [discriminate|]. now apply paren_inv in H as (u & i & v & _ & _ & [] & _). Qed.
Lemma oc_reading_text x o vs : reading oc_fields x o vs -> exists d, oc_text code32 d x /\ d_oid d = o /\ oc_vals d vs.
Proof.
  intros (u & t & r & -> & Hu & Ho & Hf & Hr). unfold oc_fields in Hf.
  apply fields_cons_inv in Hf as (vn & vs1 & t1 & r1 & -> & -> & B1 & Hf). apply fields_cons_inv in Hf as (vd & vs2 & t2 & r2 & -> & -> & B2 & Hf).
  apply fields_cons_inv in Hf as (vo & vs3 & t3 & r3 & -> & -> & B3 & Hf). apply fields_cons_inv in Hf as (vp & vs4 & t4 & r4 & -> & -> & B4 & Hf).
  apply fields_cons_inv in Hf as (vk & vs5 & t5 & r5 & -> & -> & B5 & Hf). apply fields_cons_inv in Hf as (vm & vs6 & t6 & r6 & -> & -> & B6 & Hf).
  apply fields_cons_inv in Hf as (vy & vs7 & t7 & r7 & -> & -> & B7 & Hf). apply fields_nil_inv in Hf as [-> ->]. cbn [snd] in *.
  destruct (val_list_of _ _ _ _ _ L_qdescrs no_qdescrs B1) as [ns V1]. destruct (val_flag_of (lit "OBSOLETE") _ _ ltac:(discriminate) B3) as [ob V3].
  destruct (val_list_of _ _ _ _ _ L_oids no_oids B4) as [sups V4]. destruct (kind_word_of _ _ B5) as [k V5].
  destruct (val_list_of _ _ _ _ _ L_oids no_oids B6) as [must V6]. destruct (val_list_of _ _ _ _ _ L_oids no_oids B7) as [may V7].
  exists (mk_oc_desc o ns ob sups k must may). split; [|split; [reflexivity|]].
  - unfold oc_text. cbn [d_oid d_names d_obsolete d_sups d_kind d_must d_may]. rewrite app_nil_r, <- !app_assoc.
    exists (lit "("). eexists. split; [reflexivity|]. split; [reflexivity|]. exists u. eexists. split; [reflexivity|]. split; [exact Hu|].
    exists o. eexists. split; [reflexivity|]. split; [split; [reflexivity|exact Ho]|].
    exists t1. eexists. split; [reflexivity|]. split; [apply names_part_iff; eauto|].
    exists t2. eexists. split; [reflexivity|]. split; [apply (other_part_iff "DESC" rqdstring _ _ L_qdstring); eauto|].
    exists t3. eexists. split; [reflexivity|]. split; [apply flag_part_iff; [discriminate|eauto]|].
    exists t4. eexists. split; [reflexivity|]. split; [apply (list_part_iff "SUP" roids _ _ _ L_oids); eauto|].
    exists t5. eexists. split; [reflexivity|]. split; [apply kind_part_iff; rewrite V5 in B5; exact B5|].
    exists t6. eexists. split; [reflexivity|]. split; [apply (list_part_iff "MUST" roids _ _ _ L_oids); eauto|].
    exists t7. eexists. split; [reflexivity|]. split; [apply (list_part_iff "MAY" roids _ _ _ L_oids); eauto|].
    now apply tail_text.
  - exists vn, vd, vo, vp, vk, vm, vy. auto 10.
Qed.

(** what the reading of a description becomes *)
Lemma groups_nth fs vs o c i g b v : groups_of fs vs o c -> nth_error fs i = Some (g, b) -> nth_error vs i = Some v -> group c g = v.
Proof. intros [_ H]. apply H. Qed.
Lemma present_flag b v : val_flag b v -> present v = b.
Proof. destruct v as [x|]; cbn [val_flag present]; [|now intros ->]. intros [-> Hn]. destruct x; [congruence|reflexivity]. Qed.
Lemma oids_val l v : val_list (oids code32) l v -> parse_oids v = l /\ Forall (oid code32) l.
Proof.
  destruct v as [x|]; cbn [val_list].
  - intros [H _]. split; [now apply parse_oids_ok|now apply oids_forall in H].
  - intros ->. split; [reflexivity|constructor].
Qed.
Lemma names_val l v : (forall x, v = Some x -> nodouble x) -> val_list (qdescrs code32) l v -> parse_qdescrs v = l.
Proof. destruct v as [x|]; cbn [val_list]; [intros Hd [H _]; apply parse_qdescrs_ok; auto|now intros _ ->]. Qed.

(** the value of a key is part of the text *)
Lemma reading_first_value g k a fs x o v vs : nodouble x -> reading ((g, BKey k a) :: fs) x o (v :: vs) -> forall y, v = Some y -> nodouble y.
Proof.
  intros Hd (u & t & r & -> & _ & _ & Hf & _) y ->. inversion Hf as [|? ? ? ? t1 t2 Hb _]; subst. cbn [snd body_opt body] in Hb.
  destruct Hb as (p & q & -> & _). apply (nodouble_r (40%N :: u)) in Hd. apply nodouble_r in Hd. do 2 apply nodouble_l in Hd.
  do 3 apply nodouble_r in Hd. exact Hd.
Qed.

Definition kind_text (k : option kind) : str := lit (kind_word (match k with Some k => k | None => STRUCTURAL end)).
Definition class_of (isdigit : N -> bool) (names_of : str -> option (list str)) (d : oc_desc) (c : pclass) : Prop :=
  pc_oid c = d_oid d /\ pc_names c = d_names d /\ pc_sups c = d_sups d /\ pc_kind c = kind_text (d_kind d) /\
  pc_obsolete c = d_obsolete d /\ names_for names_of (d_must d) (pc_must c) /\ names_for names_of (d_may d) (pc_may c).

Lemma oc_groups isdigit names_of x d vs c : tells_digits isdigit -> nodouble x -> reading oc_fields x (d_oid d) vs -> oc_vals d vs ->
  groups_of oc_fields vs (d_oid d) c -> x = py_strip x ->
  exists must may, parse_attr_list isdigit names_of (group c (lit "must")) = Ok must /\
    parse_attr_list isdigit names_of (group c (lit "may")) = Ok may /\
    class_of isdigit names_of d
      (mk_pclass (d_oid d) (parse_qdescrs (group c (lit "name"))) (parse_oids (group c (lit "superclass")))
         (match group c (lit "kind") with Some k => k | None => lit "STRUCTURAL" end) (present (group c (lit "obsolete"))) must may).
Proof.
  intros Hdig Hd Hr (vn & vd & vo & vp & vk & vm & vy & -> & V1 & V3 & V4 & V5 & V6 & V7) Hg _.
  pose proof (reading_first_value _ _ _ _ _ _ _ _ Hd Hr) as Hdn.
  rewrite (groups_nth _ _ _ _ 0 _ _ _ Hg eq_refl eq_refl), (groups_nth _ _ _ _ 2 _ _ _ Hg eq_refl eq_refl),
    (groups_nth _ _ _ _ 3 _ _ _ Hg eq_refl eq_refl), (groups_nth _ _ _ _ 4 _ _ _ Hg eq_refl eq_refl),
    (groups_nth _ _ _ _ 5 _ _ _ Hg eq_refl eq_refl), (groups_nth _ _ _ _ 6 _ _ _ Hg eq_refl eq_refl).
  apply oids_val in V4 as [E4 _], V6 as [E6 F6], V7 as [E7 F7]. unfold parse_attr_list. rewrite E6, E7.
  destruct (attr_names_ok isdigit names_of _ Hdig F6) as (must & Em & Nm), (attr_names_ok isdigit names_of _ Hdig F7) as (may & Ey & Ny).
  exists must, may. split; [exact Em|]. split; [exact Ey|]. unfold class_of. cbn [pc_oid pc_names pc_sups pc_kind pc_obsolete pc_must pc_may].
  rewrite (names_val _ _ Hdn V1), (present_flag _ _ V3). repeat split; trivial. rewrite V5. unfold kind_text. destruct (d_kind d); reflexivity.
Qed.
Lemma oc_edge d x : oc_text code32 d x -> edge py_isspace x.
Proof.
  intros (a0 & b0 & -> & -> & u & b1 & -> & Hu & o & b2 & -> & [-> Ho] & t1 & b3 & -> & H1 & t2 & b4 & -> & H2 & t3 & b5 & -> & H3
    & t4 & b6 & -> & H4 & t5 & b7 & -> & H5 & t6 & b8 & -> & H6 & t7 & r & -> & H7 & e & w & -> & He & p & q & -> & Hp & ->).
  split; [discriminate|]. split; [reflexivity|]. rewrite !app_assoc, rev_app_distr. reflexivity.
Qed.
Lemma strip_strip s : py_strip (py_strip s) = py_strip s.
Proof.
  unfold py_strip. destruct (strip_decomp py_isspace s) as (a & core & b & _ & -> & _ & _ & H1 & H2).
  pose proof (strip_core py_isspace [] core [] ltac:(constructor) ltac:(constructor) H1 H2) as E. cbn [app] in E. now rewrite app_nil_r in E.
Qed.

Lemma object_class_described isdigit names_of s d : tells_digits isdigit -> padded (oc_text laurelin d) s ->
  exists c, object_class isdigit names_of s = Ok c /\ class_of isdigit names_of d c.
Proof.
  intros Hdig Hp. apply (collapse_fwd _ _ _ (tok_oc d) (oc_edge d)) in Hp. destruct (collapsed_shape s) as [Hd H10].
  unfold object_class. rewrite oc_rx. set (x := py_strip (collapse_whitespace s)) in *.
  destruct (oc_text_reading d x Hd Hp) as (vs & Hr & Hv). destruct (match_reading oc_fields x oc_nice eq_refl H10) as [_ G].
  destruct (G _ _ Hr) as (c & -> & Hg). rewrite (proj1 Hg).
  destruct (oc_groups isdigit names_of x d vs c Hdig Hd Hr Hv Hg ltac:(unfold x; now rewrite strip_strip)) as (must & may & -> & -> & Hc). cbn [bind]. eexists. split; [reflexivity|exact Hc].
Qed.
Lemma object_class_only isdigit names_of s c : tells_digits isdigit -> object_class isdigit names_of s = Ok c ->
  exists d, padded (oc_text laurelin d) s /\ class_of isdigit names_of d c.
Proof.
  intros Hdig H. destruct (collapsed_shape s) as [Hd H10]. unfold object_class in H. rewrite oc_rx in H.
  pose proof (fun d => collapse_bwd _ _ s (tok_oc d) (oc_edge d)) as Hb.
  set (x := py_strip (collapse_whitespace s)) in *. destruct (match_reading oc_fields x oc_nice eq_refl H10) as [G _].
  destruct (match_anchored (desc_rx oc_fields) x) as [cp|] eqn:E; [|discriminate]. destruct (G cp eq_refl) as (o & vs & Hr & Hg).
  destruct (oc_reading_text x o vs Hr) as (d & Ht & <- & Hv). rewrite (proj1 Hg) in H.
  destruct (oc_groups isdigit names_of x d vs cp Hdig Hd Hr Hv Hg ltac:(unfold x; now rewrite strip_strip)) as (must & may & E1 & E2 & Hc). rewrite E1, E2 in H. cbn [bind] in H.
  exists d. split; [now apply Hb|]. injection H as <-. exact Hc.
Qed.
Lemma object_class_error isdigit names_of s : tells_digits isdigit -> (forall d, ~ padded (oc_text laurelin d) s) ->
  object_class isdigit names_of s = Raise LDAPSchemaError.
Proof.
  intros Hdig H. destruct (object_class isdigit names_of s) as [c|e] eqn:Eo.
  - destruct (object_class_only _ _ _ _ Hdig Eo) as (d & Hp & _). now elim (H d).
  - f_equal. destruct (collapsed_shape s) as [Hd H10]. unfold object_class in Eo. rewrite oc_rx in Eo.
    pose proof (fun d => collapse_bwd _ _ s (tok_oc d) (oc_edge d)) as Hb.
    set (x := py_strip (collapse_whitespace s)) in *. destruct (match_reading oc_fields x oc_nice eq_refl H10) as [G _].
    destruct (match_anchored (desc_rx oc_fields) x) as [cp|] eqn:E; [|now injection Eo]. destruct (G cp eq_refl) as (o & vs & Hr & Hg).
    destruct (oc_reading_text x o vs Hr) as (d & Ht & _ & _). elim (H d). now apply Hb.
Qed.
