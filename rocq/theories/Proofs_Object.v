(** * Lemmas for C77, C78 *)
From Verif Require Import PyBase Model_CIDict Spec_CIDict Proofs_CIDict Model_Object Spec_Object.

Lemma nth_upd {A} (l : list A) i f j : nth_error (upd l i f) j =
  match nth_error l j with Some x => Some (if Nat.eqb j i then f x else x) | None => None end.
Proof.
  revert i j. induction l as [|x l IH]; intros i j; [destruct j; reflexivity|].
  destruct i as [|i], j as [|j]; cbn [upd nth_error Nat.eqb]; try reflexivity.
  - destruct (nth_error l j); reflexivity.
  - apply IH.
Qed.
Lemma length_upd {A} (l : list A) i f : List.length (upd l i f) = List.length l.
Proof. revert i. induction l as [|x l IH]; intros [|i]; cbn [upd List.length]; auto. Qed.
Lemma nth_snoc {A} (l : list A) x j y : nth_error (l ++ [x]) j = Some y -> nth_error l j = Some y \/ (j = List.length l /\ y = x).
Proof.
  intros H. destruct (Nat.lt_ge_cases j (List.length l)) as [L|G].
  - rewrite nth_error_app1 in H by exact L. auto.
  - rewrite nth_error_app2 in H by exact G. right. destruct (j - List.length l) as [|n] eqn:E; cbn [nth_error] in H.
    + injection H as <-. split; [lia|reflexivity].
    + destruct n; discriminate.
Qed.
Lemma nth_last {A} (l : list A) x : nth_error (l ++ [x]) (List.length l) = Some x.
Proof. rewrite nth_error_app2 by lia. now rewrite Nat.sub_diag. Qed.

Section P.
  Context (lower : str -> str).
  Notation Inv := (@Inv lower nat).

  (** what a dictionary says for a folded name *)
  Definition dview (d : cid nat) (l : str) : option nat :=
    match dget (ckeys d) l with Some k => dget (cdata d) k | None => None end.
  Lemma get_dview d a : cid_get lower d a = match dview d (lower a) with Some id => Ok id | None => Raise KeyError end.
  Proof. unfold cid_get, dview. destruct (dget (ckeys d) (lower a)) as [k|]; [|reflexivity]. destruct (dget (cdata d) k); reflexivity. Qed.
  Lemma dview_In d l id : Inv d -> dview d l = Some id -> exists k, lower k = l /\ In (k, id) (cdata d).
  Proof.
    intros (_ & _ & H). unfold dview. destruct (dget (ckeys d) l) as [k|] eqn:E; [|discriminate]. intros G. exists k.
    destruct (H l k E) as [-> _]. split; [reflexivity|]. now apply dget_In.
  Qed.
  Lemma Inv_Rel d : Inv d -> Rel lower d (dview d).
  Proof. intros H. split; [exact H|]. intros l. reflexivity. Qed.
  Lemma Inv_set d k v : Inv d -> Inv (cid_set lower d k v).
  Proof. intros H. exact (proj1 (Rel_set lower d _ k v (Inv_Rel d H))). Qed.
  Lemma dview_set d k v l : Inv d -> dview (cid_set lower d k v) l = if str_eqb l (lower k) then Some v else dview d l.
  Proof. intros H. pose proof (proj2 (Rel_set lower d _ k v (Inv_Rel d H)) l) as E. unfold smap_put in E. unfold dview at 1. now rewrite <- E. Qed.
  Lemma Inv_empty : Inv cid_empty.
  Proof. exact (proj1 (Rel_empty lower)). Qed.
  Lemma del_spec d a : Inv d -> let (d', r) := cid_del lower d a in
    Inv d' /\ (forall l, dview d' l = if str_eqb l (lower a) then None else dview d l) /\
    r = (match dview d (lower a) with Some _ => Ok tt | None => Raise KeyError end).
  Proof.
    intros H. pose proof (Rel_del lower d _ a (Inv_Rel d H)) as R. destruct (cid_del lower d a) as [d' r]. cbn [spec_step] in R.
    destruct (dview d (lower a)) as [id|] eqn:E; destruct R as [[I V] O]; injection O as ->.
    - split; [exact I|]. split; [|reflexivity]. intros l. unfold dview at 1. rewrite <- V. reflexivity.
    - split; [exact I|]. split; [|reflexivity]. intros l. unfold dview at 1. rewrite <- V.
      destruct (str_eqb_spec l (lower a)) as [->|N]; [exact E|reflexivity].
  Qed.
  Lemma del_In (d : cid nat) a : let (d', _) := cid_del lower d a in forall x, In x (cdata d') -> In x (cdata d).
  Proof.
    unfold cid_del. destruct (dget (ckeys d) (lower a)) as [k|]; [|auto]. destruct (dget (cdata d) k); [|auto].
    cbn [cdata]. intros x. apply ddel_In.
  Qed.

  (** ** Heaps *)
  Definition ext (h h' : heap) : Prop := exists t, h' = h ++ t.
  Lemma ext_refl h : ext h h.
  Proof. exists []. now rewrite app_nil_r. Qed.
  Lemma ext_trans h1 h2 h3 : ext h1 h2 -> ext h2 h3 -> ext h1 h3.
  Proof. intros [t ->] [u ->]. exists (t ++ u). now rewrite app_assoc. Qed.
  Lemma ext_snoc h l : ext h (h ++ [l]).
  Proof. exists [l]. reflexivity. Qed.
  Lemma ext_nth h h' id l : ext h h' -> nth_error h id = Some l -> nth_error h' id = Some l.
  Proof. intros [t ->] H. rewrite nth_error_app1; [exact H|]. apply nth_error_Some. congruence. Qed.
  Lemma ext_vals h h' id l : ext h h' -> nth_error h id = Some l -> vals h' id = vals h id.
  Proof. intros E H. unfold vals. now rewrite (ext_nth h h' id l E H), H. Qed.
  Lemma ext_len h h' : ext h h' -> List.length h <= List.length h'.
  Proof. intros [t ->]. rewrite app_length. lia. Qed.

  (** entries of [d]: value lists of their names *)
  Definition typed (h : heap) (d : cid nat) : Prop := forall k id, In (k, id) (cdata d) -> exists vs, nth_error h id = Some (mk_l (Some k) vs).
  Definition injective (d : cid nat) : Prop := forall k k' id, In (k, id) (cdata d) -> In (k', id) (cdata d) -> k = k'.
  Definition good (h : heap) (d : cid nat) : Prop := Inv d /\ typed h d /\ injective d.
  (** from (h, d) to (h', d') by new lists only *)
  Definition grows (h : heap) (d : cid nat) (h' : heap) (d' : cid nat) : Prop :=
    ext h h' /\ forall k id, In (k, id) (cdata d') -> In (k, id) (cdata d) \/ List.length h <= id.
  Lemma grows_refl h d : grows h d h d.
  Proof. split; [apply ext_refl|auto]. Qed.
  Lemma grows_heap h d h' : ext h h' -> grows h d h' d.
  Proof. split; auto. Qed.
  Lemma grows_trans h d h1 d1 h2 d2 : grows h d h1 d1 -> grows h1 d1 h2 d2 -> grows h d h2 d2.
  Proof.
    intros [E1 G1] [E2 G2]. split; [eapply ext_trans; eauto|]. intros k id H. apply G2 in H as [H|H]; [auto|].
    right. pose proof (ext_len _ _ E1). lia.
  Qed.
  Lemma good_ext h h' d : ext h h' -> good h d -> good h' d.
  Proof. intros E (I & T & J). split; [exact I|]. split; [|exact J]. intros k id H. destruct (T k id H) as [vs V]. exists vs. now apply (ext_nth h). Qed.
  Lemma typed_lt h d k id : typed h d -> In (k, id) (cdata d) -> id < List.length h.
  Proof. intros T H. destruct (T k id H) as [vs V]. apply nth_error_Some. congruence. Qed.

  Lemma good_set h d k l : good h d -> l_attr l = Some k -> good (h ++ [l]) (cid_set lower d k (List.length h)) /\ grows h d (h ++ [l]) (cid_set lower d k (List.length h)).
  Proof.
    intros (I & T & J) Hl. assert (IS := Inv_set d k (List.length h) I).
    assert (S : forall k' id, In (k', id) (cdata (cid_set lower d k (List.length h))) -> (k' = k /\ id = List.length h) \/ (k' <> k /\ In (k', id) (cdata d))).
    { intros k' id H. destruct IS as (_ & N & _). destruct I as (_ & N' & _). apply dget_In_NoDup in H; [|exact N].
      cbn [cid_set cdata] in H. rewrite dget_dset in H. destruct (str_eqb_spec k k') as [->|Ne]; [left; now injection H as <-|].
      right. split; [congruence|]. now apply dget_In. }
    split; [|split; [apply ext_snoc|]].
    - split; [exact IS|]. split.
      + intros k' id H. apply S in H as [[-> ->]|[_ H]].
        * destruct l as [a vs]. cbn [l_attr] in Hl. subst a. exists vs. apply nth_last.
        * destruct (T k' id H) as [vs V]. exists vs. apply (ext_nth h); [apply ext_snoc|exact V].
      + intros k1 k2 id H1 H2. apply S in H1 as [[-> ->]|[N1 H1]]; apply S in H2 as [[-> E2]|[N2 H2]]; auto.
        * exfalso. apply (typed_lt h d) in H2; [lia|exact T].
        * exfalso. subst id. apply (typed_lt h d) in H1; [lia|exact T].
        * now apply (J k1 k2 id).
    - intros k' id H. apply S in H as [[_ ->]|[_ H]]; auto.
  Qed.

  Lemma check_vals_iff h r : (exists u, check_vals h r = Ok u) <-> r = RDeleteAll \/ exists id, r = RList id /\ texts (vals h id).
  Proof.
    assert (F : forall l, forallb is_text l = true <-> texts l).
    { intros l. rewrite forallb_forall. unfold texts. split; intros H e He; specialize (H e He).
      - destruct e as [s|s|n]; [eauto|eauto|discriminate].
      - destruct H as [[s ->]|[s ->]]; reflexivity. }
    destruct r as [id| |]; cbn [check_vals].
    - rewrite <- (F (vals h id)) || idtac. destruct (forallb is_text (vals h id)) eqn:E.
      + split; [|eauto]. intros _. right. exists id. split; [reflexivity|]. now apply F.
      + split; [intros [u X]; discriminate|]. intros [X|(id' & [= <-] & X)]; [discriminate|]. apply F in X. congruence.
    - split; eauto.
    - split; [intros [u X]; discriminate|]. intros [X|(id & X & _)]; discriminate.
  Qed.
  Lemma check_vals_err h r e : check_vals h r = Raise e -> e = TypeError.
  Proof. destruct r as [id| |]; cbn [check_vals]; [destruct (forallb _ _)| |]; congruence. Qed.

  (** __setitem__ *)
  Lemma set_ok h d k id : good h d -> texts (vals h id) -> exists h' d', od_set lower h d (NStr k) (RList id) = (h', d', Ok tt) /\
    good h' d' /\ grows h d h' d' /\ List.length h < List.length h' /\
    vals h' (List.length h) = vals h id /\ (forall l, dview d' l = if str_eqb l (lower k) then Some (List.length h) else dview d l) /\
    cid_keys d' = cid_keys (cid_set lower d k (List.length h)).
  Proof.
    intros G Hv. unfold od_set. cbn [check_attr alloc]. set (l := mk_l (Some k) (vals h id)).
    assert (V : vals (h ++ [l]) (List.length h) = vals h id) by (unfold vals at 1; now rewrite nth_last).
    assert (C : check_vals (h ++ [l]) (RList (List.length h)) = Ok tt).
    { destruct (proj2 (check_vals_iff (h ++ [l]) (RList (List.length h)))) as [[] E]; [|exact E]. right. eexists. split; [reflexivity|]. now rewrite V. }
    rewrite C. destruct (good_set h d k l G eq_refl) as [G' Gr].
    exists (h ++ [l]), (cid_set lower d k (List.length h)). split; [reflexivity|]. split; [exact G'|]. split; [exact Gr|].
    split; [rewrite app_length; cbn; lia|]. split; [exact V|]. split; [|reflexivity]. intros l'. apply dview_set, G.
  Qed.
  Lemma set_err h d a r e h' d' : od_set lower h d a r = (h', d', Raise e) -> e = TypeError /\ d' = d /\ ext h h'.
  Proof.
    unfold od_set. destruct r as [id| |]; [|intros [= <- <- <-]; auto using ext_refl|intros [= <- <- <-]; auto using ext_refl].
    destruct a as [k|]; cbn [check_attr alloc]; [|intros [= <- <- <-]; auto using ext_refl].
    destruct (check_vals _ _) as [u|x] eqn:E; [discriminate|]. apply check_vals_err in E. subst x. intros [= <- <- <-]. auto using ext_snoc.
  Qed.
  Lemma set_iff h d a r h' d' x : good h d -> od_set lower h d a r = (h', d', x) ->
    (x = Ok tt /\ (exists k id, a = NStr k /\ r = RList id /\ texts (vals h id))) \/
    (x = Raise TypeError /\ ~ (exists k id, a = NStr k /\ r = RList id /\ texts (vals h id))).
  Proof.
    intros G E. destruct x as [[]|e].
    - left. split; [reflexivity|]. unfold od_set in E. destruct r as [id| |]; [|discriminate|discriminate]. destruct a as [k|]; [|discriminate].
      cbn [check_attr alloc] in E. set (l := mk_l (Some k) (vals h id)) in *.
      destruct (check_vals (h ++ [l]) (RList (List.length h))) as [u|y] eqn:C; [|discriminate].
      destruct (proj1 (check_vals_iff _ _) (ex_intro _ u C)) as [X|(id' & [= <-] & X)]; [discriminate|].
      unfold vals in X at 1. rewrite nth_last in X. exists k, id. auto.
    - right. destruct (set_err _ _ _ _ _ _ _ E) as (-> & _ & _). split; [reflexivity|]. intros (k & id & -> & -> & T).
      destruct (set_ok h d k id G T) as (h1 & d1 & X & _). rewrite X in E. discriminate.
  Qed.
  Lemma set_any h d a r h' d' x : good h d -> od_set lower h d a r = (h', d', x) -> good h' d' /\ grows h d h' d'.
  Proof.
    intros G E. destruct (set_iff h d a r h' d' x G E) as [[-> (k & id & -> & -> & T)]|[-> _]].
    - destruct (set_ok h d k id G T) as (h1 & d1 & X & G' & Gr & _). rewrite X in E. injection E as <- <-. auto.
    - destruct (set_err _ _ _ _ _ _ _ E) as (_ & -> & Ex). split; [now apply (good_ext h)|now apply grows_heap].
  Qed.
  Lemma set_all_any kvs : forall h d h' d' x, good h d -> od_set_all lower h d kvs = (h', d', x) -> good h' d' /\ grows h d h' d'.
  Proof.
    induction kvs as [|[a r] kvs IH]; intros h d h' d' x G E; cbn [od_set_all] in E.
    - injection E as <- <- _. split; [exact G|apply grows_refl].
    - destruct (od_set lower h d a r) as [[h1 d1] x1] eqn:E1. destruct (set_any h d a r h1 d1 x1 G E1) as [G1 Gr1].
      destruct x1 as [u|e].
      + destruct (IH h1 d1 h' d' x G1 E) as [G2 Gr2]. split; [exact G2|]. eapply grows_trans; eauto.
      + injection E as <- <- _. auto.
  Qed.
  Lemma update_any kvs h d h' d' x : good h d -> od_update lower h d kvs = (h', d', x) -> good h' d' /\ grows h d h' d'.
  Proof.
    intros G. unfold od_update. destruct (check_dict h kvs); [now apply set_all_any|].
    intros [= <- <- _]. split; [exact G|apply grows_refl].
  Qed.
  Lemma copy_any other ks : forall h d h' d' x, good h d -> od_copy lower h d other ks = (h', d', x) -> good h' d' /\ grows h d h' d'.
  Proof.
    induction ks as [|k ks IH]; intros h d h' d' x G E; cbn [od_copy] in E.
    - injection E as <- <- _. split; [exact G|apply grows_refl].
    - destruct (cid_get lower other k) as [id|e]; [|injection E as <- <- _; split; [exact G|apply grows_refl]].
      destruct (od_set lower h d (NStr k) (RList id)) as [[h1 d1] x1] eqn:E1. destruct (set_any _ _ _ _ h1 d1 x1 G E1) as [G1 Gr1].
      destruct x1 as [u|e].
      + destruct (IH h1 d1 h' d' x G1 E) as [G2 Gr2]. split; [exact G2|]. eapply grows_trans; eauto.
      + injection E as <- <- _. auto.
  Qed.
  Lemma copy_self_any ks : forall h d h' d' x, good h d -> od_copy_self lower h d ks = (h', d', x) -> good h' d' /\ grows h d h' d'.
  Proof.
    induction ks as [|k ks IH]; intros h d h' d' x G E; cbn [od_copy_self] in E.
    - injection E as <- <- _. split; [exact G|apply grows_refl].
    - destruct (cid_get lower d k) as [id|e]; [|injection E as <- <- _; split; [exact G|apply grows_refl]].
      destruct (od_set lower h d (NStr k) (RList id)) as [[h1 d1] x1] eqn:E1. destruct (set_any _ _ _ _ h1 d1 x1 G E1) as [G1 Gr1].
      destruct x1 as [u|e].
      + destruct (IH h1 d1 h' d' x G1 E) as [G2 Gr2]. split; [exact G2|]. eapply grows_trans; eauto.
      + injection E as <- <- _. auto.
  Qed.
  Lemma setdefault_any h d a dflt h' d' x : good h d -> od_setdefault lower h d a dflt = (h', d', x) -> good h' d' /\ grows h d h' d'.
  Proof.
    intros G. unfold od_setdefault. destruct a as [k|]; cbn [check_attr]; [|intros [= <- <- _]; split; [exact G|apply grows_refl]].
    assert (X : exists h1 r, (match dflt with None => let (h', id) := alloc h (mk_l None []) in (h', RList id) | Some r => (h, r) end) = (h1, r) /\ ext h h1).
    { destruct dflt as [r|]; cbn [alloc]; eexists _, _; split; eauto using ext_refl, ext_snoc. }
    destruct X as (h1 & r & -> & Ex). assert (G1 := good_ext h h1 d Ex G). assert (Gr1 := grows_heap h d h1 Ex).
    destruct (check_vals h1 r); [|intros [= <- <- _]; auto]. destruct (cid_get lower d k) as [id|e]; [intros [= <- <- _]; auto|].
    destruct (od_set lower h1 d (NStr k) r) as [[h2 d2] x2] eqn:E2. destruct (set_any _ _ _ _ _ _ _ G1 E2) as [G2 Gr2].
    assert (Gr := grows_trans _ _ _ _ _ _ Gr1 Gr2). destruct x2; intros [= <- <- _]; auto.
  Qed.

  (** ** Worlds *)
  Definition WI (w : world) : Prop :=
    (forall i o, nth_error (w_objs w) i = Some o -> good (w_heap w) (o_dict o)) /\
    (forall i j o p k k' id, nth_error (w_objs w) i = Some o -> nth_error (w_objs w) j = Some p ->
       In (k, id) (cdata (o_dict o)) -> In (k', id) (cdata (o_dict p)) -> i = j).
  Lemma WI_start : WI start.
  Proof. split; intros i; destruct i; intros; discriminate. Qed.
  Lemma WI_heap w h : WI w -> ext (w_heap w) h -> WI (mk_w h (w_objs w)).
  Proof. intros [G D] E. split; cbn [w_heap w_objs]; [|exact D]. intros i o H. apply (good_ext (w_heap w)); eauto. Qed.
  Lemma WI_grow w i o h d : WI w -> nth_error (w_objs w) i = Some o -> good h d -> grows (w_heap w) (o_dict o) h d ->
    WI (mk_w h (upd (w_objs w) i (fun o => mk_o (o_dn o) d))).
  Proof.
    intros [G D] Ho Gd [Ex Gr].
    assert (Lt : forall j p k id, nth_error (w_objs w) j = Some p -> In (k, id) (cdata (o_dict p)) -> id < List.length (w_heap w)).
    { intros j p k id Hp. apply typed_lt. apply (G j p Hp). }
    assert (S : forall j p, nth_error (upd (w_objs w) i (fun o => mk_o (o_dn o) d)) j = Some p ->
              (j = i /\ o_dict p = d) \/ (j <> i /\ nth_error (w_objs w) j = Some p)).
    { intros j p Hp. rewrite nth_upd in Hp. destruct (nth_error (w_objs w) j) as [q|] eqn:Eq; [|discriminate].
      destruct (Nat.eqb_spec j i) as [->|N]; injection Hp as <-; auto. }
    split; cbn [w_heap w_objs].
    - intros j p Hp. apply S in Hp as [[_ ->]|[_ Hp]]; [exact Gd|]. apply (good_ext (w_heap w)); eauto.
    - intros j1 j2 p1 p2 k1 k2 id H1 H2 I1 I2. apply S in H1 as [[-> E1]|[N1 H1]]; apply S in H2 as [[-> E2]|[N2 H2]]; auto.
      + rewrite E1 in I1. apply Gr in I1 as [I1|L]; [exfalso; apply N2; symmetry; eapply D; eauto|]. exfalso. apply (Lt j2 p2 k2 id H2) in I2. lia.
      + rewrite E2 in I2. apply Gr in I2 as [I2|L]; [exfalso; apply N1; eapply D; eauto|]. exfalso. apply (Lt j1 p1 k1 id H1) in I1. lia.
      + eapply D; eauto.
  Qed.
  Lemma WI_new w dn h d : WI w -> good h d -> grows (w_heap w) cid_empty h d -> WI (mk_w h (w_objs w ++ [mk_o dn d])).
  Proof.
    intros [G D] Gd [Ex Gr].
    assert (Lt : forall j p k id, nth_error (w_objs w) j = Some p -> In (k, id) (cdata (o_dict p)) -> id < List.length (w_heap w)).
    { intros j p k id Hp. apply typed_lt. apply (G j p Hp). }
    split; cbn [w_heap w_objs].
    - intros j p Hp. apply nth_snoc in Hp as [Hp|[_ ->]]; [apply (good_ext (w_heap w)); eauto|exact Gd].
    - intros j1 j2 p1 p2 k1 k2 id H1 H2 I1 I2. apply nth_snoc in H1 as [H1|[-> ->]]; apply nth_snoc in H2 as [H2|[-> ->]]; auto.
      + eapply D; eauto.
      + cbn [o_dict] in I2. apply Gr in I2 as [[]|L]. apply (Lt _ _ _ _ H1) in I1. lia.
      + cbn [o_dict] in I1. apply Gr in I1 as [[]|L]. apply (Lt _ _ _ _ H2) in I2. lia.
  Qed.
  Lemma good_empty h : good h cid_empty.
  Proof. split; [exact Inv_empty|]. split; [intros k id []|intros k k' id []]. Qed.

  Lemma deep_ext items : forall h, ext h (fst (deep h items)).
  Proof.
    induction items as [|[a id] items IH]; intros h; cbn [deep alloc]; [apply ext_refl|].
    pose proof (IH (h ++ [mk_l None (vals h id)])) as E. destruct (deep (h ++ [mk_l None (vals h id)]) items) as [h2 r]. cbn [fst] in *.
    eapply ext_trans; [apply ext_snoc|exact E].
  Qed.
  Lemma nth_upd_attr h id l n x : nth_error (upd h id (fun x => mk_l (l_attr x) l)) n = Some x -> exists y, nth_error h n = Some y /\ l_attr y = l_attr x.
  Proof.
    rewrite nth_upd. destruct (nth_error h n) as [y|]; [|discriminate]. intros [= <-]. exists y. split; [reflexivity|]. destruct (Nat.eqb n id); reflexivity.
  Qed.

  Lemma WI_made w dn h d x : WI w -> good h d -> grows (w_heap w) cid_empty h d -> WI (fst (made_obj w dn (h, d, x))).
  Proof.
    intros W G Gr. unfold made_obj. destruct x as [u|e]; cbn [fst]; [now apply WI_new|]. apply WI_heap; [exact W|apply Gr].
  Qed.
  Lemma WI_with {X} w i bad (f : heap -> cid nat -> heap * cid nat * X) : WI w ->
    (forall o h d x, nth_error (w_objs w) i = Some o -> good (w_heap w) (o_dict o) -> f (w_heap w) (o_dict o) = (h, d, x) ->
       good h d /\ grows (w_heap w) (o_dict o) h d) -> WI (fst (with_obj w i bad f)).
  Proof.
    intros W H. unfold with_obj. destruct (nth_error (w_objs w) i) as [o|] eqn:Ho; [|exact W].
    destruct (f (w_heap w) (o_dict o)) as [[h d] x] eqn:E. cbn [fst].
    destruct (H o h d x eq_refl (proj1 W i o Ho) E) as [G Gr]. now apply (WI_grow w i o).
  Qed.
  Lemma out_unit_inv y h d x : out_unit y = (h, d, x) -> exists r, y = (h, d, r) /\ x = OUnit r.
  Proof. destruct y as [[h1 d1] r]. cbn [out_unit]. intros [= <- <- <-]. eauto. Qed.
  Lemma out_list_inv y h d x : out_list y = (h, d, x) -> exists r, y = (h, d, r) /\ x = OList r.
  Proof. destruct y as [[h1 d1] r]. cbn [out_list]. intros [= <- <- <-]. eauto. Qed.
  Lemma WI_step w c : WI w -> WI (fst (step lower w c)).
  Proof.
    intros W. destruct c as [l|dn kvs|dn j|i a r|i a r|i kvs|i j|i a|i|i a|i a|id l|i]; cbn [step].
    - cbn [alloc fst]. apply WI_heap; [exact W|apply ext_snoc].
    - destruct (od_update lower (w_heap w) cid_empty kvs) as [[h d] x] eqn:E.
      destruct (update_any kvs _ _ _ _ _ (good_empty _) E). now apply WI_made.
    - destruct (nth_error (w_objs w) j) as [o|]; [|exact W].
      destruct (od_copy lower (w_heap w) cid_empty (o_dict o) (cid_keys (o_dict o))) as [[h d] x] eqn:E.
      destruct (copy_any _ _ _ _ _ _ _ (good_empty _) E). now apply WI_made.
    - apply WI_with; [exact W|]. intros o h d x Ho G E. apply out_unit_inv in E as (y & E & _). now apply (set_any _ _ a r _ _ y).
    - apply WI_with; [exact W|]. intros o h d x Ho G E. apply out_list_inv in E as (y & E & _). now apply (setdefault_any _ _ a r _ _ y).
    - apply WI_with; [exact W|]. intros o h d x Ho G E. apply out_unit_inv in E as (y & E & _). now apply (update_any kvs _ _ _ _ y).
    - destruct (nth_error (w_objs w) j) as [p|]; [|exact W]. apply WI_with; [exact W|]. intros o h d x Ho G E. apply out_unit_inv in E as (y & E & _).
      destruct (Nat.eqb i j); [now apply (copy_self_any _ _ _ _ _ y) in E|now apply (copy_any _ _ _ _ _ _ y) in E].
    - apply WI_with; [exact W|]. intros o h d x Ho (I & T & J) E. pose proof (del_spec (o_dict o) a I) as S. pose proof (del_In (o_dict o) a) as S2.
      destruct (cid_del lower (o_dict o) a) as [d' r]. injection E as <- <- _. destruct S as (I' & _ & _).
      split; [|split; [apply ext_refl|auto]]. split; [exact I'|]. split; [intros k id H; apply T; auto|intros k k' id H1 H2; apply (J k k' id); auto].
    - apply WI_with; [exact W|]. intros o h d x Ho G [= <- <- _]. split; [apply good_empty|]. split; [apply ext_refl|intros k id []].
    - apply WI_with; [exact W|]. intros o h d x Ho G [= <- <- _]. split; [exact G|apply grows_refl].
    - apply WI_with; [exact W|]. intros o h d x Ho G E. destruct (cid_get lower (o_dict o) a) as [id|e]; cbn [alloc] in E; injection E as <- <- _.
      + split; [exact G|apply grows_refl].
      + split; [apply (good_ext (w_heap w)); [apply ext_snoc|exact G]|apply grows_heap, ext_snoc].
    - destruct (nth_error (w_heap w) id) as [l0|] eqn:E; [|exact W]. cbn [fst]. destruct W as [G D]. split; cbn [w_heap w_objs]; [|exact D].
      intros i o Ho. destruct (G i o Ho) as (I & T & J). split; [exact I|]. split; [|exact J].
      intros k n Hn. destruct (T k n Hn) as [vs V]. rewrite nth_upd, V. destruct (Nat.eqb n id); cbn [l_attr]; eauto.
    - destruct (nth_error (w_objs w) i) as [o|]; [|exact W]. pose proof (deep_ext (cdata (o_dict o)) (w_heap w)) as E.
      destruct (deep (w_heap w) (cdata (o_dict o))) as [h r]. cbn [fst] in *. now apply WI_heap.
  Qed.
  Lemma WI_run cs : forall w, WI w -> WI (run lower w cs).
  Proof. induction cs as [|c cs IH]; intros w W; cbn [run]; [exact W|]. apply IH, WI_step, W. Qed.
  Lemma WI_reachable w : reachable lower w -> WI w.
  Proof. intros [cs ->]. apply WI_run, WI_start. Qed.

  (** ** What is read *)
  Lemma list_of_eq w i a : list_of lower w i a = match nth_error (w_objs w) i with Some o => dview (o_dict o) (lower a) | None => None end.
  Proof.
    unfold list_of. cbn [step]. unfold with_obj. destruct (nth_error (w_objs w) i) as [o|]; [|reflexivity]. cbn [snd].
    rewrite get_dview. destruct (dview (o_dict o) (lower a)); reflexivity.
  Qed.
  Lemma list_of_In w i a id : WI w -> list_of lower w i a = Some id -> exists o k vs, nth_error (w_objs w) i = Some o /\ lower k = lower a /\
    In (k, id) (cdata (o_dict o)) /\ nth_error (w_heap w) id = Some (mk_l (Some k) vs).
  Proof.
    intros [G _]. rewrite list_of_eq. destruct (nth_error (w_objs w) i) as [o|] eqn:Ho; [|discriminate]. intros H.
    destruct (G i o Ho) as (I & T & _). destruct (dview_In _ _ _ I H) as (k & E & Hk). destruct (T k id Hk) as [vs V]. eauto 10.
  Qed.
  Lemma view_eq w i a : view lower w i a = match nth_error (w_objs w) i with
    | Some o => match dview (o_dict o) (lower a) with Some id => Some (vals (w_heap w) id) | None => None end | None => None end.
  Proof. unfold view. rewrite list_of_eq. destruct (nth_error (w_objs w) i); reflexivity. Qed.

  (** only new lists: nothing changes *)
  Lemma view_heap w h : WI w -> ext (w_heap w) h -> unchanged lower w (mk_w h (w_objs w)).
  Proof.
    intros W E i a. rewrite !view_eq. cbn [w_objs w_heap]. destruct (nth_error (w_objs w) i) as [o|] eqn:Ho; [|reflexivity].
    destruct (dview (o_dict o) (lower a)) as [id|] eqn:D; [|reflexivity].
    destruct (list_of_In w i a id W) as (o1 & k1 & vs & _ & _ & _ & V); [now rewrite list_of_eq, Ho|]. now rewrite (ext_vals _ _ _ _ E V).
  Qed.
  (** one object replaced *)
  Definition hview (h : heap) (d : cid nat) (b : str) : option (list elt) :=
    match dview d (lower b) with Some id => Some (vals h id) | None => None end.
  Lemma view_grow w i o h d : WI w -> nth_error (w_objs w) i = Some o -> ext (w_heap w) h ->
    forall j b, view lower (mk_w h (upd (w_objs w) i (fun o => mk_o (o_dn o) d))) j b = if Nat.eqb j i then hview h d b else view lower w j b.
  Proof.
    intros W Ho E j b. rewrite view_eq. cbn [w_objs w_heap]. rewrite nth_upd. destruct (Nat.eqb_spec j i) as [->|N].
    - rewrite Ho. cbn [o_dict]. reflexivity.
    - rewrite <- (view_heap w h W E j b), view_eq. cbn [w_objs w_heap]. destruct (nth_error (w_objs w) j); reflexivity.
  Qed.
  Lemma hview_ext h h' d b : good h d -> ext h h' -> hview h' d b = hview h d b.
  Proof.
    intros (I & T & _) E. unfold hview. destruct (dview d (lower b)) as [id|] eqn:D; [|reflexivity].
    destruct (dview_In _ _ _ I D) as (k & _ & Hk). destruct (T k id Hk) as [vs V]. now rewrite (ext_vals _ _ _ _ E V).
  Qed.
  Lemma hview_set h d k id h' d' : good h d -> texts (vals h id) -> od_set lower h d (NStr k) (RList id) = (h', d', Ok tt) ->
    forall b, hview h' d' b = if str_eqb (lower b) (lower k) then Some (vals h id) else hview h d b.
  Proof.
    intros G T E b. destruct (set_ok h d k id G T) as (h1 & d1 & X & G1 & Gr & _ & V & DV & _). rewrite X in E. injection E as <- <-.
    unfold hview at 1. rewrite DV. destruct (str_eqb (lower b) (lower k)); [now rewrite V|].
    rewrite <- (hview_ext h h1 d b G (proj1 Gr)). reflexivity.
  Qed.
  Lemma hview_view w i o b : nth_error (w_objs w) i = Some o -> hview (w_heap w) (o_dict o) b = view lower w i b.
  Proof. intros H. rewrite view_eq, H. reflexivity. Qed.
  Lemma becomes_if w i o h d k vs : WI w -> nth_error (w_objs w) i = Some o -> ext (w_heap w) h ->
    (forall b, hview h d b = if str_eqb (lower b) (lower k) then vs else hview (w_heap w) (o_dict o) b) ->
    becomes lower w (mk_w h (upd (w_objs w) i (fun o => mk_o (o_dn o) d))) i k vs.
  Proof.
    intros W Ho E H j b. rewrite (view_grow w i o h d W Ho E). unfold same_name. split.
    - intros [-> S]. rewrite Nat.eqb_refl, H, S, str_eqb_refl. reflexivity.
    - intros N. destruct (Nat.eqb_spec j i) as [->|Ne]; [|reflexivity]. rewrite H.
      destruct (str_eqb_spec (lower b) (lower k)) as [S|S]; [exfalso; auto|]. now apply hview_view.
  Qed.
  Lemma unchanged_if w i o h d : WI w -> nth_error (w_objs w) i = Some o -> ext (w_heap w) h ->
    (forall b, hview h d b = hview (w_heap w) (o_dict o) b) -> unchanged lower w (mk_w h (upd (w_objs w) i (fun o => mk_o (o_dn o) d))).
  Proof.
    intros W Ho E H j b. rewrite (view_grow w i o h d W Ho E). destruct (Nat.eqb_spec j i) as [->|Ne]; [|reflexivity].
    rewrite H. now apply hview_view.
  Qed.

  (** ** Bulk updates *)
  Lemma check_dict_iff h kvs : (exists u, check_dict h kvs = Ok u) <-> forall a r, In (a, r) kvs -> (exists k, a = NStr k) /\ exists u, check_vals h r = Ok u.
  Proof.
    induction kvs as [|[a r] kvs IH]; cbn [check_dict].
    - split; [intros _ a r []|eauto].
    - destruct a as [k|]; cbn [check_attr bind].
      + destruct (check_vals h r) as [u|e] eqn:E; cbn [bind].
        * rewrite IH. split.
          -- intros H a0 r0 [[= <- <-]|Hi]; [eauto|auto].
          -- intros H a0 r0 Hi. apply H. now right.
        * split; [intros [u X]; discriminate|]. intros H. destruct (H (NStr k) r (or_introl eq_refl)) as [_ [u X]]. congruence.
      + split; [intros [u X]; discriminate|]. intros H. destruct (H NOther r (or_introl eq_refl)) as [[k X] _]. discriminate.
  Qed.
  Lemma check_dict_err h kvs e : check_dict h kvs = Raise e -> e = TypeError.
  Proof.
    induction kvs as [|[a r] kvs IH]; cbn [check_dict]; [discriminate|]. destruct a as [k|]; cbn [check_attr bind]; [|congruence].
    destruct (check_vals h r) as [u|x] eqn:E; cbn [bind]; [exact IH|]. intros [= <-]. now apply check_vals_err in E.
  Qed.
  Lemma ext_texts h h' id : ext h h' -> id < List.length h -> vals h' id = vals h id.
  Proof. intros E L. destruct (nth_error h id) as [l|] eqn:H; [now apply (ext_vals h h' id l)|]. apply nth_error_None in H. lia. Qed.
  Definition in_heap (h : heap) (kvs : list (name * ref)) : Prop := forall a id, In (a, RList id) kvs -> id < List.length h.
  Lemma set_all_ok kvs : forall h d, good h d -> acceptable h kvs -> in_heap h kvs -> exists h' d', od_set_all lower h d kvs = (h', d', Ok tt) /\
    good h' d' /\ grows h d h' d' /\
    forall b, hview h' d' b = match given_for lower kvs b with Some id => Some (vals h id) | None => hview h d b end.
  Proof.
    induction kvs as [|[a r] kvs IH]; intros h d G A B; cbn [od_set_all given_for].
    - exists h, d. split; [reflexivity|]. split; [exact G|]. split; [apply grows_refl|auto].
    - destruct (A a r (or_introl eq_refl)) as (k & id & -> & -> & T). destruct (set_ok h d k id G T) as (h1 & d1 & E1 & G1 & Gr1 & _).
      rewrite E1. assert (Ex := proj1 Gr1).
      destruct (IH h1 d1 G1) as (h2 & d2 & E2 & G2 & Gr2 & V2).
      + intros a r Hi. destruct (A a r (or_intror Hi)) as (k' & id' & -> & -> & T'). exists k', id'. split; [reflexivity|]. split; [reflexivity|].
        rewrite (ext_texts h h1); [exact T'|exact Ex|]. apply (B (NStr k')). now right.
      + intros a id' Hi. pose proof (ext_len _ _ Ex). specialize (B a id' (or_intror Hi)). lia.
      + exists h2, d2. split; [exact E2|]. split; [exact G2|]. split; [eapply grows_trans; eauto|]. intros b. rewrite V2.
        destruct (given_for lower kvs b) as [id'|] eqn:Eg.
        * f_equal. apply (ext_texts h h1); [exact Ex|].
          assert (Hin : exists a, In (a, RList id') kvs).
          { clear - Eg. induction kvs as [|[a r] kvs IH]; [discriminate|]. cbn [given_for] in Eg.
            destruct (given_for lower kvs b) as [x|]; [injection Eg as ->; destruct (IH eq_refl) as [a' Ha]; exists a'; now right|].
            destruct a as [k|]; [|discriminate]. destruct r as [x| |]; [|discriminate|discriminate].
            destruct (str_eqb (lower b) (lower k)); [injection Eg as ->; exists (NStr k); now left|discriminate]. }
          destruct Hin as [a Ha]. apply (B a). now right.
        * rewrite (hview_set h d k id h1 d1 G T E1). destruct (str_eqb (lower b) (lower k)); reflexivity.
  Qed.

  (** ** Copies of other objects *)
  Definition tidy_d (d : cid nat) : Prop := forall k id, In (k, id) (cdata d) -> dview d (lower k) = Some id.
  Lemma keys_In (d : cid nat) k : In k (cid_keys d) <-> exists id, In (k, id) (cdata d).
  Proof.
    unfold cid_keys. rewrite in_map_iff. split.
    - intros ([k' id] & E & H). cbn [fst] in E. subst k'. eauto.
    - intros [id H]. now exists (k, id).
  Qed.
  Lemma copy_ok other ks : forall h d, good h d -> good h other -> tidy_d other -> incl ks (cid_keys other) ->
    (forall k id, In (k, id) (cdata other) -> texts (vals h id)) ->
    exists h' d', od_copy lower h d other ks = (h', d', Ok tt) /\ good h' d' /\ grows h d h' d' /\
      forall b, hview h' d' b = if existsb (fun k => str_eqb (lower b) (lower k)) ks then hview h other b else hview h d b.
  Proof.
    induction ks as [|k ks IH]; intros h d G Go T Hi Hv; cbn [od_copy existsb].
    - exists h, d. split; [reflexivity|]. split; [exact G|]. split; [apply grows_refl|auto].
    - destruct (proj1 (keys_In other k) (Hi k (or_introl eq_refl))) as [id Hk]. rewrite get_dview, (T k id Hk).
      destruct (set_ok h d k id G (Hv k id Hk)) as (h1 & d1 & E1 & G1 & Gr1 & _). rewrite E1. assert (Ex := proj1 Gr1).
      destruct (IH h1 d1 G1 (good_ext h h1 other Ex Go) T) as (h2 & d2 & E2 & G2 & Gr2 & V2).
      + intros x Hx. apply Hi. now right.
      + intros k' id' Hk'. rewrite (ext_texts h h1 id' Ex); [eauto|]. apply (typed_lt h other k' id'); [apply Go|exact Hk'].
      + exists h2, d2. split; [exact E2|]. split; [exact G2|]. split; [eapply grows_trans; eauto|]. intros b. rewrite V2.
        rewrite (hview_ext h h1 other b Go Ex), (hview_set h d k id h1 d1 G (Hv k id Hk) E1 b).
        destruct (str_eqb_spec (lower b) (lower k)) as [S|S]; cbn [orb]; [|reflexivity].
        assert (X : hview h other b = Some (vals h id)) by (unfold hview; now rewrite S, (T k id Hk)).
        rewrite X. destruct (existsb _ ks); reflexivity.
  Qed.
  Lemma tidy_set h d k id l : good h d -> tidy_d d -> In (k, id) (cdata d) -> tidy_d (cid_set lower d k l).
  Proof.
    intros (I & _ & J) T Hk k' id' H. pose proof (Inv_set d k l I) as (_ & N & _). apply dget_In_NoDup in H; [|exact N].
    cbn [cid_set cdata] in H. rewrite dget_dset in H. rewrite dview_set by exact I.
    destruct (str_eqb_spec k k') as [<-|Ne]; [injection H as <-; now rewrite str_eqb_refl|].
    apply dget_In in H. destruct (str_eqb_spec (lower k') (lower k)) as [S|S]; [|now apply T].
    exfalso. apply Ne. pose proof (T k id Hk) as A. pose proof (T k' id' H) as B. rewrite S in B. rewrite A in B. injection B as <-. now apply (J k k' id).
  Qed.
  Lemma copy_self_ok ks : forall h d, good h d -> tidy_d d -> incl ks (cid_keys d) ->
    (forall k id, In (k, id) (cdata d) -> texts (vals h id)) ->
    exists h' d', od_copy_self lower h d ks = (h', d', Ok tt) /\ good h' d' /\ grows h d h' d' /\ forall b, hview h' d' b = hview h d b.
  Proof.
    induction ks as [|k ks IH]; intros h d G T Hi Hv; cbn [od_copy_self].
    - exists h, d. split; [reflexivity|]. split; [exact G|]. split; [apply grows_refl|auto].
    - destruct (proj1 (keys_In d k) (Hi k (or_introl eq_refl))) as [id Hk]. rewrite get_dview, (T k id Hk).
      destruct (set_ok h d k id G (Hv k id Hk)) as (h1 & d1 & E1 & G1 & Gr1 & Hlen & Vn & _). rewrite E1. assert (Ex := proj1 Gr1).
      assert (D1 : d1 = cid_set lower d k (List.length h)).
      { unfold od_set in E1. cbn [check_attr alloc] in E1. destruct (check_vals _ _); injection E1; congruence. }
      assert (S : forall k' id', In (k', id') (cdata d1) -> (k' = k /\ id' = List.length h) \/ In (k', id') (cdata d)).
      { intros k' id' H. destruct G1 as ((_ & N & _) & _). apply dget_In_NoDup in H; [|exact N]. rewrite D1 in H. cbn [cid_set cdata] in H.
        rewrite dget_dset in H. destruct (str_eqb_spec k k') as [->|Ne]; [left; now injection H as <-|right; now apply dget_In]. }
      destruct (IH h1 d1 G1) as (h2 & d2 & E2 & G2 & Gr2 & V2).
      + rewrite D1. now apply (tidy_set h d k id).
      + intros x Hx. apply keys_In. destruct (proj1 (keys_In d x) (Hi x (or_intror Hx))) as [idx Hx'].
        rewrite D1. cbn [cid_set cdata]. destruct (str_eqb_spec k x) as [->|Ne].
        * exists (List.length h). apply dget_In, dget_dset_eq.
        * exists idx. apply dget_In. rewrite dget_dset_neq by exact Ne. apply dget_In_NoDup; [apply G|exact Hx'].
      + intros k' id' H. apply S in H as [[-> ->]|H].
        * rewrite Vn. now apply (Hv k).
        * rewrite (ext_texts h h1 id' Ex); [eauto|]. apply (typed_lt h d k' id'); [apply G|exact H].
      + exists h2, d2. split; [exact E2|]. split; [exact G2|]. split; [eapply grows_trans; eauto|]. intros b. rewrite V2.
        rewrite (hview_set h d k id h1 d1 G (Hv k id Hk) E1 b). destruct (str_eqb_spec (lower b) (lower k)) as [S'|S']; [|reflexivity].
        unfold hview. now rewrite S', (T k id Hk).
  Qed.
  Lemma keys_cover d b id : Inv d -> dview d (lower b) = Some id -> existsb (fun k => str_eqb (lower b) (lower k)) (cid_keys d) = true.
  Proof.
    intros I H. destruct (dview_In d _ _ I H) as (k & E & Hk). apply existsb_exists. exists k. split; [apply keys_In; eauto|].
    rewrite E. apply str_eqb_refl.
  Qed.
  Lemma keys_cover_tidy d b : tidy_d d -> existsb (fun k => str_eqb (lower b) (lower k)) (cid_keys d) = true -> exists id, dview d (lower b) = Some id.
  Proof.
    intros T H. apply existsb_exists in H as (k & Hk & E). apply keys_In in Hk as [id Hk]. apply str_eqb_eq in E. exists id. rewrite E. now apply T.
  Qed.
  Lemma tidy_iff w i o : nth_error (w_objs w) i = Some o -> (tidy lower w i <-> tidy_d (o_dict o)).
  Proof.
    intros Ho. unfold tidy, items, gives, tidy_d. rewrite Ho. unfold cid_items.
    assert (X : forall k id, snd (step lower w (GetItem i k)) = OList (Ok id) <-> dview (o_dict o) (lower k) = Some id).
    { intros k id. cbn [step]. unfold with_obj. rewrite Ho. cbn [snd]. rewrite get_dview. destruct (dview (o_dict o) (lower k)); split; congruence. }
    split; intros H k id Hk; apply X; auto.
  Qed.

  (** ** Names always spelled the same way: every object tidy *)
  Definition InvW (W : list str) (d : cid nat) : Prop := forall k, In k (cid_keys d) -> In k W /\ dget (ckeys d) (lower k) = Some k.
  Lemma InvW_tidy W d : Inv d -> InvW W d -> tidy_d d.
  Proof.
    intros (_ & N & _) H k id Hk. unfold dview. rewrite (proj2 (H k (proj2 (keys_In d k) (ex_intro _ id Hk)))). now apply dget_In_NoDup.
  Qed.
  Lemma InvW_set W d k v : one_spelling lower W -> In k W -> InvW W d -> InvW W (cid_set lower d k v).
  Proof.
    intros O Hk H x Hx. unfold cid_keys, cid_set in Hx |- *. cbn [cdata ckeys] in *. rewrite dset_keys in Hx. rewrite dget_dset.
    assert (C : x = k \/ In x (cid_keys d)).
    { apply in_app_or in Hx as [Hx|Hx]; [now right|]. destruct (dmem (cdata d) k); [destruct Hx|]. destruct Hx as [<-|[]]. now left. }
    destruct C as [-> |C]; [split; [exact Hk|]; now rewrite str_eqb_refl|]. destruct (H x C) as [A B]. split; [exact A|].
    destruct (str_eqb_spec (lower k) (lower x)) as [S|S]; [f_equal; now apply O|exact B].
  Qed.
  Lemma InvW_od_set W h d a r h' d' x : one_spelling lower W -> (forall k, a = NStr k -> In k W) -> InvW W d -> od_set lower h d a r = (h', d', x) -> InvW W d'.
  Proof.
    intros O Hk H. unfold od_set. destruct r as [id| |]; [|intros [= _ <- _]; auto|intros [= _ <- _]; auto].
    destruct a as [k|]; cbn [check_attr alloc]; [|intros [= _ <- _]; auto].
    destruct (check_vals _ _); intros [= _ <- _]; [|auto]. apply InvW_set; auto.
  Qed.
  Lemma InvW_set_all W kvs : one_spelling lower W -> forall h d h' d' x, (forall k r, In (NStr k, r) kvs -> In k W) -> InvW W d ->
    od_set_all lower h d kvs = (h', d', x) -> InvW W d'.
  Proof.
    intros O. induction kvs as [|[a r] kvs IH]; intros h d h' d' x Hk H E; cbn [od_set_all] in E; [injection E as _ <- _; exact H|].
    destruct (od_set lower h d a r) as [[h1 d1] x1] eqn:E1.
    assert (H1 : InvW W d1). { apply (InvW_od_set W h d a r h1 d1 x1 O); auto. intros k ->. apply (Hk k r). now left. }
    destruct x1; [|injection E as _ <- _; exact H1]. apply (IH h1 d1 h' d' x); auto. intros k r' Hi. apply (Hk k r'). now right.
  Qed.
  Lemma InvW_copy W other ks : one_spelling lower W -> (forall k, In k ks -> In k W) -> forall h d h' d' x, InvW W d ->
    od_copy lower h d other ks = (h', d', x) -> InvW W d'.
  Proof.
    intros O. induction ks as [|k ks IH]; intros Hk h d h' d' x H E; cbn [od_copy] in E; [injection E as _ <- _; exact H|].
    destruct (cid_get lower other k) as [id|e]; [|injection E as _ <- _; exact H].
    destruct (od_set lower h d (NStr k) (RList id)) as [[h1 d1] x1] eqn:E1.
    assert (H1 : InvW W d1). { apply (InvW_od_set W h d (NStr k) (RList id) h1 d1 x1 O); auto. intros k0 [= <-]. apply Hk. now left. }
    destruct x1; [|injection E as _ <- _; exact H1]. apply (IH (fun z Hz => Hk z (or_intror Hz)) h1 d1 h' d' x); auto.
  Qed.
  Lemma InvW_copy_self W ks : one_spelling lower W -> (forall k, In k ks -> In k W) -> forall h d h' d' x, InvW W d ->
    od_copy_self lower h d ks = (h', d', x) -> InvW W d'.
  Proof.
    intros O. induction ks as [|k ks IH]; intros Hk h d h' d' x H E; cbn [od_copy_self] in E; [injection E as _ <- _; exact H|].
    destruct (cid_get lower d k) as [id|e]; [|injection E as _ <- _; exact H].
    destruct (od_set lower h d (NStr k) (RList id)) as [[h1 d1] x1] eqn:E1.
    assert (H1 : InvW W d1). { apply (InvW_od_set W h d (NStr k) (RList id) h1 d1 x1 O); auto. intros k0 [= <-]. apply Hk. now left. }
    destruct x1; [|injection E as _ <- _; exact H1]. apply (IH (fun z Hz => Hk z (or_intror Hz)) h1 d1 h' d' x); auto.
  Qed.
  Lemma InvW_del W d a : Inv d -> InvW W d -> InvW W (fst (cid_del lower d a)).
  Proof.
    intros (N & N2 & _) H. unfold cid_del. destruct (dget (ckeys d) (lower a)) as [k|] eqn:E; [|exact H].
    destruct (dget (cdata d) k) as [v|] eqn:E2; [|exact H]. cbn [fst]. intros x Hx. unfold cid_keys in Hx. cbn [cdata ckeys] in *.
    assert (Hx' : In x (cid_keys d) /\ x <> k).
    { apply in_map_iff in Hx as ([x' id] & Ex & Hi). cbn [fst] in Ex. subst x'. pose proof (ddel_NoDup (cdata d) k N2) as N3.
      apply dget_In_NoDup in Hi; [|exact N3]. destruct (str_eqb_spec k x) as [->|Ne].
      - rewrite dget_ddel_eq in Hi by exact N2. discriminate.
      - rewrite dget_ddel_neq in Hi by exact Ne. split; [apply keys_In; exists id; now apply dget_In|congruence]. }
    destruct Hx' as [Hx' Ne]. destruct (H x Hx') as [A B]. split; [exact A|].
    rewrite dget_ddel_neq; [exact B|]. intros S. rewrite S, B in E. congruence.
  Qed.
  Lemma InvW_empty W : InvW W cid_empty.
  Proof. intros k []. Qed.
  Definition WW (W : list str) (w : world) : Prop := forall i o, nth_error (w_objs w) i = Some o -> InvW W (o_dict o).
  Lemma WW_with {X} W w i bad (f : heap -> cid nat -> heap * cid nat * X) : WW W w ->
    (forall o h d x, nth_error (w_objs w) i = Some o -> InvW W (o_dict o) -> f (w_heap w) (o_dict o) = (h, d, x) -> InvW W d) -> WW W (fst (with_obj w i bad f)).
  Proof.
    intros Hw H. unfold with_obj. destruct (nth_error (w_objs w) i) as [o|] eqn:Ho; [|exact Hw].
    destruct (f (w_heap w) (o_dict o)) as [[h d] x] eqn:E. cbn [fst]. intros j p Hp. cbn [w_objs] in Hp. rewrite nth_upd in Hp.
    destruct (nth_error (w_objs w) j) as [q|] eqn:Eq; [|discriminate]. destruct (Nat.eqb_spec j i) as [->|Ne]; injection Hp as <-.
    - cbn [o_dict]. apply (H o h d x eq_refl (Hw i o Ho) E).
    - eauto.
  Qed.
  Lemma WW_made W w dn h d x : WW W w -> InvW W d -> WW W (fst (made_obj w dn (h, d, x))).
  Proof.
    intros Hw H. unfold made_obj. destruct x as [u|e]; cbn [fst]; [|exact Hw]. intros j p Hp. cbn [w_objs] in Hp.
    apply nth_snoc in Hp as [Hp|[_ ->]]; [eauto|exact H].
  Qed.
  Lemma spelled_In W k (r : ref) (kvs : list (name * ref)) :
    incl (flat_map (fun kv => match fst kv with NStr k => [k] | NOther => [] end) kvs) W -> In (NStr k, r) kvs -> In k W.
  Proof. intros H Hi. apply H, in_flat_map. exists (NStr k, r). split; [exact Hi|]. now left. Qed.
  Lemma WW_step W w c : one_spelling lower W -> incl (spelled c) W -> WI w -> WW W w -> WW W (fst (step lower w c)).
  Proof.
    intros O Hc Wi Hw. destruct c as [l|dn kvs|dn j|i a r|i a r|i kvs|i j|i a|i|i a|i a|id l|i]; cbn [step spelled] in *.
    - exact Hw.
    - destruct (od_update lower (w_heap w) cid_empty kvs) as [[h d] x] eqn:E. apply WW_made; [exact Hw|]. unfold od_update in E.
      destruct (check_dict _ _); [|injection E as _ <- _; apply InvW_empty].
      apply (InvW_set_all W kvs O _ _ _ _ _ (fun k r => spelled_In W k r kvs Hc) (InvW_empty W) E).
    - destruct (nth_error (w_objs w) j) as [o|] eqn:Ho; [|exact Hw].
      destruct (od_copy lower (w_heap w) cid_empty (o_dict o) (cid_keys (o_dict o))) as [[h d] x] eqn:E. apply WW_made; [exact Hw|].
      apply (InvW_copy W _ _ O (fun k Hk => proj1 (Hw j o Ho k Hk)) _ _ _ _ _ (InvW_empty W) E).
    - apply WW_with; [exact Hw|]. intros o h d x Ho Hi E. apply out_unit_inv in E as (y & E & _).
      apply (InvW_od_set W _ _ a r _ _ y O) in E; auto. intros k ->. apply Hc. now left.
    - apply WW_with; [exact Hw|]. intros o h d x Ho Hi E. apply out_list_inv in E as (y & E & _). unfold od_setdefault in E.
      destruct a as [k|]; cbn [check_attr] in E; [|injection E as _ <- _; exact Hi].
      destruct (match r with None => let (h', id) := alloc (w_heap w) (mk_l None []) in (h', RList id) | Some r => (w_heap w, r) end) as [h1 r1].
      destruct (check_vals h1 r1); [|injection E as _ <- _; exact Hi]. destruct (cid_get lower (o_dict o) k); [injection E as _ <- _; exact Hi|].
      destruct (od_set lower h1 (o_dict o) (NStr k) r1) as [[h2 d2] x2] eqn:E2.
      assert (H2 : InvW W d2). { apply (InvW_od_set W _ _ _ _ _ _ _ O) in E2; auto. intros k' [= <-]. apply Hc. now left. }
      destruct x2; injection E as _ <- _; exact H2.
    - apply WW_with; [exact Hw|]. intros o h d x Ho Hi E. apply out_unit_inv in E as (y & E & _). unfold od_update in E.
      destruct (check_dict _ _); [|injection E as _ <- _; exact Hi].
      apply (InvW_set_all W kvs O _ _ _ _ _ (fun k r => spelled_In W k r kvs Hc) Hi E).
    - destruct (nth_error (w_objs w) j) as [p|] eqn:Hp; [|exact Hw]. apply WW_with; [exact Hw|]. intros o h d x Ho Hi E. apply out_unit_inv in E as (y & E & _).
      destruct (Nat.eqb i j).
      + apply (InvW_copy_self W _ O (fun k Hk => proj1 (Hi k Hk)) _ _ _ _ _ Hi E).
      + apply (InvW_copy W _ _ O (fun k Hk => proj1 (Hw j p Hp k Hk)) _ _ _ _ _ Hi E).
    - apply WW_with; [exact Hw|]. intros o h d x Ho Hi E. pose proof (InvW_del W (o_dict o) a (proj1 (proj1 Wi i o Ho)) Hi) as X.
      destruct (cid_del lower (o_dict o) a) as [d' r]. injection E as _ <- _. exact X.
    - apply WW_with; [exact Hw|]. intros o h d x Ho Hi [= _ <- _]. apply InvW_empty.
    - apply WW_with; [exact Hw|]. intros o h d x Ho Hi [= _ <- _]. exact Hi.
    - apply WW_with; [exact Hw|]. intros o h d x Ho Hi E. destruct (cid_get lower (o_dict o) a); cbn [alloc] in E; injection E as _ <- _; exact Hi.
    - destruct (nth_error (w_heap w) id); exact Hw.
    - destruct (nth_error (w_objs w) i); [|exact Hw]. destruct (deep _ _). exact Hw.
  Qed.
  Lemma WW_run W cs : one_spelling lower W -> forall w, incl (flat_map spelled cs) W -> WI w -> WW W w -> WW W (run lower w cs).
  Proof.
    intros O. induction cs as [|c cs IH]; intros w Hc Wi Hw; cbn [run]; [exact Hw|]. cbn [flat_map] in Hc.
    apply IH; [|now apply WI_step|]; [|apply WW_step; auto]; intros x Hx; apply Hc, in_or_app; auto.
  Qed.

  (** ** Equality *)
  Definition raw (h : heap) (d : cid nat) (k : str) : option (list elt) := match dget (cdata d) k with Some id => Some (vals h id) | None => None end.
  Lemma elt_eqb_iff a b : elt_eqb a b = true <-> a = b.
  Proof.
    destruct a as [s|s|n], b as [t|t|m]; cbn [elt_eqb]; try (split; discriminate).
    - rewrite str_eqb_eq. split; congruence.
    - rewrite str_eqb_eq. split; congruence.
    - rewrite Nat.eqb_eq. split; congruence.
  Qed.
  Lemma elts_eqb_iff a : forall b, elts_eqb a b = true <-> a = b.
  Proof.
    induction a as [|x a IH]; intros [|y b]; cbn [elts_eqb]; [tauto|split; discriminate|split; discriminate|].
    rewrite andb_true_iff, elt_eqb_iff, IH. split; [intros [-> ->]; reflexivity|intros [= -> ->]; auto].
  Qed.
  Lemma dict_eq_iff h d1 d2 : Inv d1 -> Inv d2 -> (dict_eq h d1 d2 = true <-> forall k, raw h d1 k = raw h d2 k).
  Proof.
    intros (_ & N1 & _) (_ & N2 & _). unfold dict_eq. rewrite andb_true_iff, Nat.eqb_eq, forallb_forall. unfold cid_len. split.
    - intros [L F].
      assert (S : forall k id, In (k, id) (cdata d1) -> exists id2, In (k, id2) (cdata d2) /\ vals h id = vals h id2).
      { intros k id H. specialize (F (k, id) H). cbn [fst snd] in F. destruct (dget (cdata d2) k) as [id2|] eqn:E; [|discriminate].
        exists id2. split; [now apply dget_In|]. now apply elts_eqb_iff. }
      assert (In1 : incl (map fst (cdata d1)) (map fst (cdata d2))).
      { intros k H. apply in_map_iff in H as ([k' id] & <- & H). destruct (S k' id H) as (id2 & H2 & _). apply in_map_iff. exists (k', id2). auto. }
      assert (In2 : incl (map fst (cdata d2)) (map fst (cdata d1))).
      { apply NoDup_length_incl; auto. rewrite !map_length. lia. }
      intros k. unfold raw. destruct (dget (cdata d1) k) as [id|] eqn:E1.
      + apply dget_In in E1. destruct (S k id E1) as (id2 & H2 & V). apply dget_In_NoDup in H2; [|exact N2]. now rewrite H2, V.
      + destruct (dget (cdata d2) k) as [id2|] eqn:E2; [|reflexivity]. exfalso. apply dget_None in E1. apply E1, In2.
        apply dget_In in E2. apply in_map_iff. exists (k, id2). auto.
    - intros R.
      assert (Inc : forall a b, (forall k, raw h a k = raw h b k) -> incl (map fst (cdata a)) (map fst (cdata b))).
      { intros a b H k Hk. specialize (H k). unfold raw in H. destruct (dget (cdata b) k) as [id|] eqn:E.
        - apply dget_In in E. apply in_map_iff. exists (k, id). auto.
        - destruct (dget (cdata a) k) eqn:E2; [discriminate|]. apply dget_None in E2. contradiction. }
      split.
      + pose proof (NoDup_incl_length N1 (Inc d1 d2 R)) as A. pose proof (NoDup_incl_length N2 (Inc d2 d1 (fun k => eq_sym (R k)))) as B.
        rewrite !map_length in A, B. lia.
      + intros [k id] H. cbn [fst snd]. specialize (R k). unfold raw in R. apply dget_In_NoDup in H; [|exact N1]. rewrite H in R.
        destruct (dget (cdata d2) k) as [id2|]; [|discriminate]. apply elts_eqb_iff. congruence.
  Qed.
  Lemma raw_ext h h' d k : good h d -> ext h h' -> raw h' d k = raw h d k.
  Proof.
    intros (I & T & _) E. unfold raw. destruct (dget (cdata d) k) as [id|] eqn:D; [|reflexivity]. apply dget_In in D.
    destruct (T k id D) as [vs V]. now rewrite (ext_vals _ _ _ _ E V).
  Qed.
  Lemma copy_raw other ks : forall h d, good h d -> good h other -> tidy_d other -> incl ks (cid_keys other) ->
    (forall k id, In (k, id) (cdata other) -> texts (vals h id)) ->
    exists h' d', od_copy lower h d other ks = (h', d', Ok tt) /\ ext h h' /\
      forall b, raw h' d' b = if existsb (fun k => str_eqb b k) ks then raw h other b else raw h d b.
  Proof.
    induction ks as [|k ks IH]; intros h d G Go T Hi Hv; cbn [od_copy existsb].
    - exists h, d. split; [reflexivity|]. split; [apply ext_refl|auto].
    - destruct (proj1 (keys_In other k) (Hi k (or_introl eq_refl))) as [id Hk]. rewrite get_dview, (T k id Hk).
      destruct (set_ok h d k id G (Hv k id Hk)) as (h1 & d1 & E1 & G1 & Gr1 & _ & Vn & _). rewrite E1. assert (Ex := proj1 Gr1).
      assert (D1 : d1 = cid_set lower d k (List.length h)).
      { unfold od_set in E1. cbn [check_attr alloc] in E1. destruct (check_vals _ _); injection E1; congruence. }
      destruct (IH h1 d1 G1 (good_ext h h1 other Ex Go) T) as (h2 & d2 & E2 & Ex2 & V2).
      + intros x Hx. apply Hi. now right.
      + intros k' id' Hk'. rewrite (ext_texts h h1 id' Ex); [eauto|]. apply (typed_lt h other k' id'); [apply Go|exact Hk'].
      + exists h2, d2. split; [exact E2|]. split; [now apply (ext_trans _ h1)|]. intros b. rewrite V2, (raw_ext h h1 other b Go Ex).
        assert (X : raw h1 d1 b = if str_eqb b k then Some (vals h id) else raw h d b).
        { rewrite <- (raw_ext h h1 d b G Ex). unfold raw. rewrite D1. cbn [cid_set cdata]. rewrite dget_dset.
          destruct (str_eqb_spec k b) as [Ek|N]; [rewrite <- Ek, str_eqb_refl; now rewrite Vn|]. destruct (str_eqb_spec b k) as [Eb|N2]; [congruence|reflexivity]. }
        rewrite X. destruct (str_eqb_spec b k) as [Eb|N]; cbn [orb]; [|reflexivity]. rewrite Eb.
        assert (Y : raw h other k = Some (vals h id)).
        { unfold raw. destruct Go as ((_ & N & _) & _). apply dget_In_NoDup in Hk; [|exact N]. now rewrite Hk. }
        rewrite Y. now match goal with |- (if ?c then _ else _) = _ => destruct c end.
  Qed.
  Lemma raw_view h d k : Inv d -> tidy_d d -> forall v, raw h d k = Some v -> hview h d k = Some v.
  Proof.
    intros I T v. unfold raw, hview. destruct (dget (cdata d) k) as [id|] eqn:E; [|discriminate]. apply dget_In in E. now rewrite (T k id E).
  Qed.
  Lemma raw_views h d1 d2 : Inv d1 -> Inv d2 -> tidy_d d1 -> tidy_d d2 ->
    (forall k1 k2, In k1 (cid_keys d1) -> In k2 (cid_keys d2) -> lower k1 = lower k2 -> k1 = k2) ->
    ((forall k, raw h d1 k = raw h d2 k) <-> forall a, hview h d1 a = hview h d2 a).
  Proof.
    intros I1 I2 T1 T2 Sp.
    assert (A : forall da db, Inv da -> tidy_d db -> (forall k, raw h da k = raw h db k) -> forall a v, hview h da a = Some v -> hview h db a = Some v).
    { intros da db Ia Tb R a v. unfold hview at 1. destruct (dview da (lower a)) as [id|] eqn:E; [|discriminate]. intros [= <-].
      destruct (dview_In da _ _ Ia E) as (k & S & Hk). specialize (R k). unfold raw in R.
      destruct Ia as (_ & N & _). apply dget_In_NoDup in Hk; [|exact N]. rewrite Hk in R. destruct (dget (cdata db) k) as [id2|] eqn:E2; [|discriminate].
      apply dget_In in E2. unfold hview. rewrite <- S, (Tb k id2 E2). congruence. }
    assert (O : forall (x y : option (list elt)), (forall v, x = Some v -> y = Some v) -> (forall v, y = Some v -> x = Some v) -> x = y).
    { intros [v|] [u|] H1 H2; [now rewrite (H1 v eq_refl)|now rewrite (H1 v eq_refl)|now rewrite (H2 u eq_refl)|reflexivity]. }
    split.
    - intros R a. apply O; [apply (A d1 d2)|apply (A d2 d1)]; auto.
    - intros V.
      assert (B : forall da db, Inv da -> Inv db -> tidy_d da -> (forall k1 k2, In k1 (cid_keys da) -> In k2 (cid_keys db) -> lower k1 = lower k2 -> k1 = k2) ->
                  (forall a, hview h da a = hview h db a) -> forall k v, raw h da k = Some v -> raw h db k = Some v).
      { intros da db Ia Ib Ta S Vw k v R. pose proof (raw_view h da k Ia Ta v R) as H. rewrite Vw in H. unfold hview in H.
        destruct (dview db (lower k)) as [id2|] eqn:E; [|discriminate]. injection H as <-. destruct (dview_In db _ _ Ib E) as (k2 & S2 & H2).
        assert (k = k2) as <-.
        { apply S; [|apply keys_In; eauto|congruence]. unfold raw in R. destruct (dget (cdata da) k) as [id|] eqn:Ed; [|discriminate].
          apply keys_In. exists id. now apply dget_In. }
        unfold raw. destruct Ib as (_ & N & _). apply dget_In_NoDup in H2; [|exact N]. now rewrite H2. }
      intros k. apply O; [apply (B d1 d2)|apply (B d2 d1)]; auto. intros k1 k2 H1 H2 E. symmetry. now apply Sp.
  Qed.
End P.
