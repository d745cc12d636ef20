From Verif Require Import PyBase Model_CIDict Spec_CIDict Proofs_CIDict Model_Modify Spec_Modify Proofs_Modify Proofs_Modify2
  Model_Search Spec_Search Proofs_Search Model_Dir Spec_Dir.
Local Open Scope N_scope.

(** ** Splitting *)
Lemma split1_first x a b : ~ In x a -> split1 x (a ++ x :: b) = Ok (a, b).
Proof.
  induction a as [|c a IH]; intros H; cbn [app split1].
  - now rewrite N.eqb_refl.
  - destruct (N.eqb_spec c x) as [->|]; [exfalso; apply H; now left|].
    rewrite IH by (intros X; apply H; now right). reflexivity.
Qed.
Lemma split1_none x s : ~ In x s -> split1 x s = Raise ValueError.
Proof.
  induction s as [|c s IH]; intros H; cbn [split1]; [reflexivity|].
  destruct (N.eqb_spec c x) as [->|]; [exfalso; apply H; now left|].
  rewrite IH by (intros X; apply H; now right). reflexivity.
Qed.

Lemma resplit1_first rdn parent : rdn_text rdn -> forall prev,
  last (prev :: rdn) 0 <> 92 -> (rdn = [] -> prev <> 92) ->
  resplit1 prev (rdn ++ ch "," :: parent) = Ok (rdn, parent).
Proof.
  induction 1 as [|c s Hc1 Hc2 Ht IH|c s Ht IH]; intros prev Hl Hp.
  - cbn [app resplit1]. destruct (N.eqb_spec prev 92) as [E|E]; [now elim (Hp eq_refl)|]. reflexivity.
  - cbn [app resplit1]. destruct (N.eqb_spec c (ch ",")) as [E|E]; [contradiction|]. cbn [andb].
    rewrite IH; [reflexivity| |intros ->; cbn in Hl; exact Hl].
    destruct s; exact Hl.
  - cbn [app resplit1]. destruct (N.eqb_spec 92 (ch ",")) as [E|E]; [discriminate|]. cbn [andb].
    rewrite N.eqb_refl. cbn [negb]. rewrite andb_false_r. rewrite IH; [reflexivity| |].
    + destruct s; exact Hl.
    + intros ->. cbn in Hl. exact Hl.
Qed.

Lemma plain_split rdn a v : plain_rdn rdn a v -> split1 (ch "=") rdn = Ok (a, v) /\ ~ In (ch ",") rdn /\ rdn_text rdn.
Proof.
  intros (-> & Ha & Hp). split; [now apply split1_first|]. split.
  - intros H. apply (Hp _ H). cbn. now left.
  - assert (G : forall c, In c (a ++ lit "=" ++ v) -> c <> ch "," /\ c <> 92).
    { intros c H. specialize (Hp c H). split; intros ->; apply Hp; cbn; tauto. }
    clear Hp Ha. revert G. generalize (a ++ lit "=" ++ v) as s. induction s as [|c s IH]; intros G; [constructor|].
    destruct (G c (or_introl eq_refl)). constructor; auto. apply IH. intros x Hx. apply G. now right.
Qed.

(** ** Entries read from the server *)
Section D.
  Context (lower : str -> str) (eqv : str -> str -> str -> bool) (idx : str -> list str -> str -> res nat).
  Context (Hidx : same_rule eqv idx).
  Notation mirrors := (mirrors lower).

  Lemma update_ok (a : list (str * list str)) : forall d, dict_ok lower d -> dict_ok lower (cid_update lower d a).
  Proof.
    induction a as [|[k v] a IH]; intros d H; [exact H|]. apply IH. now apply ok_set.
  Qed.
  Lemma empty_ok : dict_ok lower (@cid_empty (list str)).
  Proof. exact (proj1 (Rel_empty lower)). Qed.

  Lemma shown_mirrors dn a o e : lists lower a e -> shows lower dn a o -> mirrors (o_attrs o) e.
  Proof.
    intros (Hd & Hne & Hl) (_ & Hs) k.
    destruct (cid_get lower (o_attrs o) k) as [vs|x] eqn:E.
    - apply Hs in E. destruct E as (name & Hin & En). apply Hl; [|eauto]. exact (Hne _ Hin).
    - destruct (e (lower k)) as [|v vs] eqn:Ee; [reflexivity|].
      apply Hl in Ee; [|discriminate]. apply Hs in Ee. congruence.
  Qed.
  Lemma read_mirrors a e : lists lower a e ->
    dict_ok lower (cid_update lower cid_empty (entry_dict a)) /\
    mirrors (cid_update lower cid_empty (entry_dict a)) e.
  Proof.
    intros H. split; [apply update_ok, empty_ok|].
    eapply (shown_mirrors [] a (mk_lobj [] _)); [exact H|]. apply entry_shown. apply H.
  Qed.
  Lemma dict_id a : names_distinct lower a -> entry_dict a = a.
  Proof. intros H. unfold entry_dict. rewrite (entry_dict_id lower a []) by (cbn [app]; eapply distinct_fst; exact H). reflexivity. Qed.
  Lemma add_mirrors a e : lists lower a e ->
    dict_ok lower (cid_update lower cid_empty a) /\ mirrors (cid_update lower cid_empty a) e.
  Proof. intros H. pose proof (read_mirrors a e H) as R. now rewrite (dict_id a (proj1 H)) in R. Qed.

  Lemma lists_empty a e : lists lower a e -> (forall k, e (lower k) = []) -> a = [].
  Proof.
    intros (_ & Hne & Hl) He. destruct a as [|[n vs] a]; [reflexivity|]. exfalso.
    assert (X : vs <> []) by (exact (Hne _ (or_introl eq_refl))). apply X. rewrite <- (He n). symmetry. apply Hl; [exact X|]. exists n. split; [now left|reflexivity].
  Qed.

  Lemma mirrors_pt d e e' : mirrors d e -> (forall n, e' n = e n) -> mirrors d e'.
  Proof. intros H E k. now rewrite E, H. Qed.

  (** ** renaming *)
  Lemma rename_mirrors d e rdn0 rdn1 a0 v0 a1 v1 clean :
    dict_ok lower d -> mirrors d e -> split1 (ch "=") rdn0 = Ok (a0, v0) -> split1 (ch "=") rdn1 = Ok (a1, v1) ->
    exists d', local_rename lower idx d rdn0 rdn1 clean = (d', Ok tt) /\ dict_ok lower d' /\
      mirrors d' (srv_rename lower eqv e a0 v0 a1 v1 clean).
  Proof.
    intros Hok Hm E0 E1. unfold local_rename, srv_rename. rewrite E0, E1. cbv beta iota zeta.
    set (e1 := if clean then match srv_remove1 eqv a0 (e (lower a0)) v0 with Some l => eput lower e a0 l | None => e end else e).
    set (d1 := if clean then fst (delete_attr_value lower idx d a0 v0) else d).
    assert (H1 : dict_ok lower d1 /\ mirrors d1 e1).
    { unfold d1, e1. destruct clean; [|now split]. pose proof (Hm a0) as Ha.
      unfold delete_attr_value at 1 2. destruct (cid_get lower d a0) as [l|x] eqn:G.
      - rewrite (avl_remove_spec eqv idx Hidx), Ha. destruct (srv_remove1 eqv a0 l v0) as [l'|] eqn:R; [|now split].
        destruct (delete_attr_value_spec lower eqv idx Hidx d a0 v0 l l' Hok G R) as (d' & Hd & Hok' & Hv).
        unfold delete_attr_value in Hd. rewrite G, (avl_remove_spec eqv idx Hidx), R in Hd. rewrite Hd. cbn [fst].
        split; [exact Hok'|]. eapply mirrors_upd; eauto. now destruct l'.
      - cbn [fst]. rewrite Ha. cbn [srv_remove1]. now split. }
    destruct H1 as [Hok1 Hm1].
    replace (if clean then @Ok attrs (fst (delete_attr_value lower idx d a0 v0)) else @Ok attrs d) with (@Ok attrs d1) by (unfold d1; now destruct clean).
    rewrite (mirror_get lower d1 e1 a1 Hm1). pose proof (Hm1 a1) as Hg.
    destruct (e1 (lower a1)) as [|y ys] eqn:Ee; cbn [negb existsb].
    - eexists. split; [reflexivity|]. split; [now apply ok_set|].
      eapply mirrors_upd; eauto; [intros k2; now apply get_set|]. reflexivity.
    - assert (Hget : cid_get lower d1 a1 = Ok (y :: ys)) by (destruct (cid_get lower d1 a1); congruence).
      rewrite Hget. cbn [bind]. unfold avl_contains. rewrite Hidx.
      pose proof (first_match_exists (fun x => eqv a1 x v1) (y :: ys) 0) as F. cbn [existsb] in F.
      destruct (first_match (fun x => eqv a1 x v1) (y :: ys) 0); rewrite <- F.
      + exists d1. split; [reflexivity|]. now split.
      + unfold attr_extend. destruct (get_key lower d1 a1 _ Hget) as [k [Hk Hd]]. rewrite Hk, Hd.
        destruct (inplace lower d1 a1 k ((y :: ys) ++ [v1]) Hok1 Hk) as [Hok2 Hv2].
        eexists. split; [reflexivity|]. split; [exact Hok2|]. eapply mirrors_upd; eauto.
  Qed.

  (** ** what sequences of changes do to an entry *)
  Lemma eput_same e a l n : n = lower a -> eput lower e a l n = l.
  Proof. intros ->. unfold eput. now rewrite str_eqb_refl. Qed.
  Lemma eput_other e a l n : n <> lower a -> eput lower e a l n = e n.
  Proof. intros H. unfold eput. now rewrite (proj2 (str_eqb_neq _ _) H). Qed.

  Lemma apply_adds cs : (forall c, In c cs -> c_op c = ADD) -> forall e e', srv_apply lower eqv e cs = Some e' ->
    forall n v, In v (e' n) <-> In v (e n) \/ exists c, In c cs /\ n = lower (c_attr c) /\ In v (c_vals c).
  Proof.
    induction cs as [|c cs IH]; intros Ho e e' H n v; cbn [srv_apply] in H.
    - injection H as ->. split; [now left|]. intros [X|(c & [] & _)]; exact X.
    - destruct (srv_apply1 lower eqv e c) as [e1|] eqn:E1; [|discriminate].
      rewrite (IH (fun c Hc => Ho c (or_intror Hc)) e1 e' H n v). unfold srv_apply1 in E1. rewrite (Ho c (or_introl eq_refl)) in E1.
      assert (X : In v (e1 n) <-> In v (e n) \/ (n = lower (c_attr c) /\ In v (c_vals c))).
      { destruct (c_vals c) as [|w ws] eqn:Ev; [discriminate|].
        destruct (srv_add eqv (c_attr c) (e (lower (c_attr c))) (w :: ws)) as [l|] eqn:Es; [|discriminate].
        cbn [option_map] in E1. injection E1 as <-. apply srv_add_app in Es. subst l.
        destruct (str_eq_dec n (lower (c_attr c))) as [->|Hn].
        - rewrite eput_same by reflexivity. rewrite in_app_iff. tauto.
        - rewrite eput_other by exact Hn. tauto. }
      rewrite X. split.
      + intros [[Y|[Y1 Y2]]|(c' & Hc & Y)]; [now left|right; exists c; split; [now left|now split]|right; exists c'; split; [now right|exact Y]].
      + intros [Y|(c' & [<-|Hc] & Y)]; [now left; left|left; now right|right; eauto].
  Qed.
  Lemma apply_other cs : forall e e', srv_apply lower eqv e cs = Some e' ->
    forall n, ~ In n (map (fun c => lower (c_attr c)) cs) -> e' n = e n.
  Proof.
    induction cs as [|c cs IH]; intros e e' H n Hn; cbn [srv_apply] in H.
    - now injection H as ->.
    - destruct (srv_apply1 lower eqv e c) as [e1|] eqn:E1; [|discriminate]. cbn [map In] in Hn.
      rewrite (IH e1 e' H n) by tauto. unfold srv_apply1 in E1.
      assert (Hne : n <> lower (c_attr c)) by (intros ->; tauto).
      destruct (c_op c).
      + destruct (c_vals c); [discriminate|]. destruct (srv_add _ _ _ _); [|discriminate]. injection E1 as <-. now apply eput_other.
      + injection E1 as <-. now apply eput_other.
      + destruct (e (lower (c_attr c))); [discriminate|]. destruct (c_vals c); [injection E1 as <-; now apply eput_other|].
        destruct (srv_remove _ _ _ _); [|discriminate]. injection E1 as <-. now apply eput_other.
  Qed.
  Lemma apply_replaces cs : (forall c, In c cs -> c_op c = REPLACE) -> NoDup (map (fun c => lower (c_attr c)) cs) ->
    forall e, exists e', srv_apply lower eqv e cs = Some e' /\
      forall c, In c cs -> e' (lower (c_attr c)) = c_vals c.
  Proof.
    induction cs as [|c cs IH]; intros Ho Hd e; cbn [srv_apply].
    - eexists. split; [reflexivity|]. intros c [].
    - unfold srv_apply1. rewrite (Ho c (or_introl eq_refl)). cbn [map] in Hd. inversion Hd as [|? ? Hn Hd']; subst.
      destruct (IH (fun c Hc => Ho c (or_intror Hc)) Hd' (eput lower e (c_attr c) (c_vals c))) as (e' & E & H).
      exists e'. split; [exact E|]. intros c' [<-|Hc]; [|now apply H].
      rewrite (apply_other _ _ _ E) by exact Hn. now apply eput_same.
  Qed.
End D.
