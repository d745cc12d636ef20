(** * C89, C90: what an object shows is what is in the directory; netgroup methods on objects *)
From Verif Require Import PyBase Model_CIDict Proofs_CIDict Model_Modify Spec_Modify Proofs_Modify Proofs_Modify2 Model_Search Spec_Search Model_Dir Spec_Dir Proofs_Dir Proofs_Dir2 Proofs_Dir3 Proofs_Dir4 Proofs_DirInst Props_Dir Model_Filter Model_Request Model_Netgroups Spec_Netgroups Proofs_Netgroups Props_Netgroups Model_Life Spec_Life Proofs_Life Proofs_Life2 Proofs_Life3 Proofs_Life4 Proofs_Life5 Props_Life Spec_Coherent Proofs_Coherent Proofs_Coherent2.

Lemma no_changes t : Forall (fun q => ~ changes q) t -> List.filter changing t = [].
Proof.
  induction 1 as [|q t Hq _ IH]; [reflexivity|]. cbn [List.filter]. unfold changes in Hq. destruct (changing q); [now elim Hq|exact IH].
Qed.

Section Coherent.
  Context {S : Type} (sv : server S) (view : S -> str -> option entry).
  Context (sv_search : S -> str -> scope -> option str -> option (list str) -> N -> option (list (str * list (str * list str)))).
  Context (lower norm : str -> str) (eqv : str -> str -> str -> bool) (idx : str -> list str -> str -> res nat).
  Context (strict : bool) (flags : empty_flags) (syn : fsyntax).
  Context (vo : lobj -> res unit) (vm : str -> list mod_ -> option lobj -> res unit).
  (** a directory server; values are compared by the same rules at both ends *)
  Context (Hidx : same_rule eqv idx) (Hlaw : lawful lower norm eqv sv view).
  (** no entry is its own child *)
  Context (Hchild : forall r d, norm (r ++ lit "," ++ d) <> norm d).
  Notation perform := (perform sv sv_search lower idx strict flags syn vo vm).
  Notation step := (step sv sv_search lower idx strict flags syn vo vm).
  Notation session_run := (session_run sv sv_search lower idx strict flags syn vo vm).

  (** C89: an object that shows nothing but what is in its entry still does so after every history in
      which it is used gently and nothing else changes the entry. *)
  Theorem C89_history_partial dn i ss es :
    undisturbed lower strict view dn i (fun ss ev => fst (fst (step ss ev))) ss es ->
    coherent lower view dn i ss -> coherent lower view dn i (fst (session_run ss es)).
  Proof. intros U C. exact (run_coherent sv view sv_search lower norm eqv idx strict flags syn vo vm Hidx Hlaw Hchild dn i ss es U C). Qed.

  (** What the program reads then, under any spelling of the name, is what is in the directory. *)
  Theorem C89_reads_partial dn i ss es o k x xs :
    undisturbed lower strict view dn i (fun ss ev => fst (fst (step ss ev))) ss es -> coherent lower view dn i ss ->
    nth_error (ss_objs (fst (session_run ss es))) i = Some o -> cid_get lower (ob_attrs o) k = Ok (x :: xs) ->
    exists e, view (ss_s (fst (session_run ss es))) dn = Some e /\ e (lower k) = x :: xs.
  Proof.
    intros U C Ho Hg. destruct (C89_history_partial dn i ss es U C) as (o' & e & Ho' & _ & _ & V & _ & Ht).
    rewrite Ho in Ho'. injection Ho' as <-. exists e. split; [exact V|]. rewrite <- (Ht k); unfold ahas, cur_vals; now rewrite Hg.
  Qed.
  (** And has_object_class tells the truth, whatever has been loaded. *)
  Theorem C89_has_class_partial dn i ss es oc :
    undisturbed lower strict view dn i (fun ss ev => fst (fst (step ss ev))) ss es -> coherent lower view dn i ss ->
    let ss1 := fst (session_run ss es) in
    exists e, view (ss_s ss1) dn = Some e /\
      (forall b, snd (step ss1 (Do i (CHasClass oc))) = Ok (VBool b) -> b = existsb (fun x => eqv (lit "objectClass") x oc) (e (lower (lit "objectClass")))) /\
      (ss_closed ss1 = false -> e (lower (lit "objectClass")) <> [] ->
         snd (step ss1 (Do i (CHasClass oc))) = Ok (VBool (existsb (fun x => eqv (lit "objectClass") x oc) (e (lower (lit "objectClass")))))).
  Proof.
    intros U C. destruct (C89_history_partial dn i ss es U C) as (o & e & Ho & Hc & Hd & V & Hok & Ht). cbv zeta.
    set (ss1 := fst (session_run ss es)) in *. exists e. split; [exact V|].
    rewrite (step_do sv sv_search lower idx strict flags syn vo vm ss1 i (CHasClass oc) o Ho). cbn [Model_Life.perform].
    pose (l := mk_lobj dn (ob_attrs o)).
    assert (Eo : o = conn_obj o l) by (destruct o; unfold conn_obj, l; cbn in *; congruence).
    pose proof (has_class_still sv view lower norm eqv idx vm Hidx Hlaw (ss_closed ss1) (ss_s ss1) l e oc V Hok Ht) as HS.
    pose proof (has_class_does sv lower idx (ss_s ss1) (ss_closed ss1) o l oc) as HD.
    destruct (has_object_class sv lower idx (ss_closed ss1) (ss_s ss1) l oc) as [l' x]. destruct HD as (t1 & HD). rewrite <- Eo in HD. unfold bindM. rewrite HD.
    destruct HS as (_ & H1 & H2). split.
    - intros b. destruct x as [b'|]; cbn; intros E; [|discriminate]. injection E as <-. now apply H2.
    - intros Hu Hne. rewrite (H1 Hu Hne). reflexivity.
  Qed.

  (** Objects just fetched with get_child show nothing but what is in their entry: histories start there. *)
  Theorem C89_fetched ss i o r ats dn e ss' t x : (match ats with Some n => plain n | None => True end) ->
    nth_error (ss_objs ss) i = Some o -> ob_conn o = true -> In (ch "=") r -> ob_dn o = Some dn ->
    view (ss_s ss) (r ++ lit "," ++ dn) = Some e ->
    step ss (Do i (CGetChild r ats)) = (ss', t, Ok (VObjs [x])) ->
    exists dn', ob_dn x = Some dn' /\ norm dn' = norm (r ++ lit "," ++ dn) /\ coherent lower view dn' (List.length (ss_objs ss)) ss' /\
      (forall k, (match ats with Some (n :: l) => In k (n :: l) | _ => True end) -> cur_vals lower (ob_attrs x) k = e (lower k)).
  Proof.
    intros Hp Ho Hc Hr Hd V Hs. rewrite (step_do sv sv_search lower idx strict flags syn vo vm ss i (CGetChild r ats) o Ho) in Hs.
    cbn [Model_Life.perform] in Hs. set (q := (r ++ lit "," ++ dn)%list) in *. pose (l := mk_lobj dn (ob_attrs o)).
    assert (Eo : o = conn_obj o l) by (destruct o; unfold conn_obj, l; cbn in *; congruence).
    assert (G : does (m_get_child sv lower r ats) (ss_s ss) (ss_closed ss) o l (ss_s ss) l
                 (let* got := ldap_get_ sv lower (ss_closed ss) (ss_s ss) q ats in Ok (VObjs [child (conn_obj o l) got]))).
    { unfold m_get_child. apply does_require. eapply does_bind.
      - unfold m_rdn. apply does_self. unfold obj_rdn. rewrite (rdn_full _ r Hr). apply does_lift.
      - fold q. pose proof (get_does sv lower (ss_s ss) (ss_closed ss) o l q ats) as G. destruct (ldap_get_ sv lower (ss_closed ss) (ss_s ss) q ats) as [got|y].
        + eapply does_bind; [exact G|]. apply does_self. apply does_ret.
        + eapply does_fail; exact G. }
    destruct G as (t2 & G). rewrite <- Eo in G. rewrite G in Hs.
    destruct (ldap_get_ sv lower (ss_closed ss) (ss_s ss) q ats) as [got|y] eqn:Eg; [|discriminate Hs].
    cbn [bind] in Hs. injection Hs as <- _ <-. cbn [ob_dn child]. exists (o_dn got).
    assert (K : norm (o_dn got) = norm q /\ dict_ok lower (o_attrs got) /\ shows_truth lower (o_attrs got) e /\
        (forall k, (match ats with Some (n :: l) => In k (n :: l) | _ => True end) -> cur_vals lower (o_attrs got) k = e (lower k))).
    { unfold ldap_get_ in Eg. destruct (ss_closed ss); [discriminate|].
      assert (R : forall dn' a e0, norm dn' = norm q -> lists lower a e0 -> (forall n, e0 n <> [] -> e0 n = e n) -> (forall k, (match ats with Some (n :: l) => In k (n :: l) | _ => True end) -> e0 (lower k) = e (lower k)) ->
        got = mk_lobj dn' (cid_update lower cid_empty (entry_dict a)) ->
        norm (o_dn got) = norm q /\ dict_ok lower (o_attrs got) /\ shows_truth lower (o_attrs got) e /\
        (forall k, (match ats with Some (n :: l) => In k (n :: l) | _ => True end) -> cur_vals lower (o_attrs got) k = e (lower k))).
      { intros dn' a e0 Hn Hl He Hall ->. destruct (read_mirrors lower a e0 Hl) as [M1 M2]. cbn [o_dn o_attrs]. split; [exact Hn|]. split; [exact M1|].
        split; [|intros k Hk; rewrite <- (Hall k Hk); symmetry; exact (M2 k)].
        intros k Hk. pose proof (proj1 (ahas_cur lower _ _) Hk) as Hk'. assert (M3 : e0 (lower k) = cur_vals lower (cid_update lower cid_empty (entry_dict a)) k) by exact (M2 k). rewrite <- M3 in Hk' |- *. now apply He. }
      destruct ats as [[|n0 ns]|].
      - rewrite (law_read_empty _ _ _ _ _ Hlaw) in Eg. destruct (law_read_all _ _ _ _ _ Hlaw _ _ _ V) as (dn' & a & Er & Hn & Hl). rewrite Er in Eg. injection Eg as <-. eapply R; eauto.
      - destruct (law_read_some _ _ _ _ _ Hlaw (ss_s ss) q e (n0 :: ns) V ltac:(discriminate) Hp) as (dn' & a & Er & Hn & Hl). rewrite Er in Eg. injection Eg as <-. eapply (R dn' a); eauto.
        + unfold only. intros n. destruct (smem n _); [reflexivity|]. intros X. now elim X.
        + intros k Hk. unfold only. apply (in_map lower) in Hk. apply smem_In in Hk. now rewrite Hk.
      - destruct (law_read_all _ _ _ _ _ Hlaw _ _ _ V) as (dn' & a & Er & Hn & Hl). rewrite Er in Eg. injection Eg as <-. eapply R; eauto. }
    destruct K as (K1 & K2 & K3 & K4). split; [reflexivity|]. split; [exact K1|]. split; [|exact K4].
    exists (child o got), e. cbn [ss_objs ss_s w_o w_s new_objs]. rewrite nth_error_app2; rewrite set_nth_length; [|lia]. rewrite Nat.sub_diag.
    split; [reflexivity|]. split; [exact Hc|]. split; [reflexivity|]. split; [|auto]. rewrite (law_dn _ _ _ _ _ Hlaw _ _ _ K1). exact V.
  Qed.
  (** ... and so do objects made without attributes, if the entry exists. *)
  Theorem C89_made ss i o r dn e ss' t x :
    nth_error (ss_objs ss) i = Some o -> ob_conn o = true -> In (ch "=") r -> ob_dn o = Some dn ->
    view (ss_s ss) (r ++ lit "," ++ dn) = Some e ->
    step ss (Do i (CObj r [] false)) = (ss', t, Ok (VObjs [x])) ->
    coherent lower view (r ++ lit "," ++ dn) (List.length (ss_objs ss)) ss'.
  Proof.
    intros Ho Hc Hr Hd V Hs. rewrite (step_do sv sv_search lower idx strict flags syn vo vm ss i (CObj r [] false) o Ho) in Hs.
    cbn [Model_Life.perform] in Hs. unfold m_obj, m_rdn, self, lift, ret, raise, bindM, obj_rdn in Hs. cbn -[lit] in Hs. rewrite Hc in Hs. cbn -[lit] in Hs.
    rewrite (rdn_full o r Hr) in Hs. cbn -[lit] in Hs. injection Hs as <- _ <-.
    unfold dn_text. rewrite Hd. eexists _, e. cbn [ss_objs ss_s]. rewrite nth_error_app2; rewrite set_nth_length; [|lia]. rewrite Nat.sub_diag.
    split; [reflexivity|]. cbn [ob_conn ob_dn ob_attrs child o_dn o_attrs]. split; [exact Hc|]. split; [reflexivity|]. split; [exact V|].
    split; [repeat split; try constructor; easy|]. intros k Hk. discriminate Hk.
  Qed.

  (** ... and objects made with add_child: the new entry is what was asked for, and the object shows all of it. *)
  Theorem C89_added ss i o r a dn ss' t x :
    nth_error (ss_objs ss) i = Some o -> ob_conn o = true -> In (ch "=") r -> ob_dn o = Some dn ->
    step ss (Do i (CAddChild r a)) = (ss', t, Ok (VObjs [x])) ->
    view (ss_s ss) (r ++ lit "," ++ dn) = None /\
    exists e, view (ss_s ss') (r ++ lit "," ++ dn) = Some e /\ lists lower a e /\
      (forall d, norm d <> norm (r ++ lit "," ++ dn) -> view (ss_s ss') d = view (ss_s ss) d) /\
      coherent lower view (r ++ lit "," ++ dn) (List.length (ss_objs ss)) ss' /\ forall k, cur_vals lower (ob_attrs x) k = e (lower k).
  Proof.
    intros Ho Hc Hr Hd Hs. rewrite (step_do sv sv_search lower idx strict flags syn vo vm ss i (CAddChild r a) o Ho) in Hs.
    cbn [Model_Life.perform] in Hs. unfold m_add_child, l_add, m_rdn, require_ldap, check_open, self, lift, ret, raise, send, bindM, obj_rdn in Hs.
    cbn -[lit] in Hs. rewrite Hc in Hs. cbn -[lit] in Hs. rewrite (rdn_full o r Hr) in Hs. cbn -[lit] in Hs. unfold dn_text in Hs. rewrite Hd in Hs.
    set (q := (r ++ lit "," ++ dn)%list) in *. destruct (ss_closed ss); [discriminate Hs|]. cbn -[lit] in Hs.
    match type of Hs with context [vo ?y] => destruct (vo y) as [|] end; cbn -[lit] in Hs; [|discriminate Hs].
    pose proof (law_add _ _ _ _ _ Hlaw (ss_s ss) q a) as L. destruct (sv_add sv (ss_s ss) q a) as [s' ok]. specialize (L s' ok eq_refl).
    destruct ok; cbn -[lit] in Hs; [|discriminate Hs]. injection Hs as <- _ <-. destruct L as (L1 & (e & V' & Hl) & L3).
    split; [exact L1|]. exists e. cbn [ss_s ss_objs]. split; [exact V'|]. split; [exact Hl|]. split; [exact L3|].
    destruct (add_mirrors lower a e Hl) as [M1 M2].
    assert (M3 : forall k, cur_vals lower (cid_update lower cid_empty a) k = e (lower k)) by (intros k; symmetry; exact (M2 k)). split; [|exact M3].
    eexists _, e. cbn [ss_objs ss_s]. rewrite nth_error_app2; rewrite set_nth_length; [|lia]. rewrite Nat.sub_diag.
    split; [reflexivity|]. cbn [ob_conn ob_dn ob_attrs child o_dn o_attrs]. split; [exact Hc|]. split; [reflexivity|]. split; [exact V'|].
    split; [exact M1|]. intros k _. apply M3.
  Qed.
  (** ... and after a rename or move, if the attribute of the new RDN is loaded (or absent from the entry):
      a successful one makes the change in the directory and the object follows its entry; a refused one
      changes nothing. *)
  Lemma rename_agree e e0 a0 v0 a1 v1 clean : (forall n, e0 n <> [] -> e0 n = e n) -> e0 (lower a1) = e (lower a1) ->
    forall n, srv_rename lower eqv e0 a0 v0 a1 v1 clean n <> [] -> srv_rename lower eqv e0 a0 v0 a1 v1 clean n = srv_rename lower eqv e a0 v0 a1 v1 clean n.
  Proof.
    intros Hsub H1 n. unfold srv_rename.
    set (c0 := if clean then match srv_remove1 eqv a0 (e0 (lower a0)) v0 with Some l => eput lower e0 a0 l | None => e0 end else e0).
    set (c1 := if clean then match srv_remove1 eqv a0 (e (lower a0)) v0 with Some l => eput lower e a0 l | None => e end else e).
    assert (C : (forall m, c0 m <> [] -> c0 m = c1 m) /\ c0 (lower a1) = c1 (lower a1)).
    { unfold c0, c1. destruct clean; [|auto]. destruct (e0 (lower a0)) as [|x xs] eqn:E0.
      - cbn [srv_remove1]. split.
        + intros m Hm. rewrite (Hsub m Hm). destruct (srv_remove1 eqv a0 (e (lower a0)) v0); [|reflexivity]. unfold eput. destruct (str_eqb_spec m (lower a0)) as [->|_]; [now elim Hm|reflexivity].
        + destruct (srv_remove1 eqv a0 (e (lower a0)) v0) as [l|] eqn:E; [|exact H1]. unfold eput. destruct (str_eqb_spec (lower a1) (lower a0)) as [X|_]; [|exact H1].
          exfalso. rewrite X in H1. rewrite E0 in H1. rewrite <- H1 in E. discriminate E.
      - assert (E1 : e (lower a0) = x :: xs) by (rewrite <- E0; symmetry; apply Hsub; rewrite E0; discriminate). rewrite E1.
        destruct (srv_remove1 eqv a0 (x :: xs) v0) as [l|]; [|auto]. unfold eput. split.
        + intros m. destruct (str_eqb m (lower a0)); [reflexivity|apply Hsub].
        + destruct (str_eqb (lower a1) (lower a0)); [reflexivity|exact H1]. }
    destruct C as [C1 C2]. rewrite <- C2. destruct (existsb (fun x => eqv a1 x v1) (c0 (lower a1))); [apply C1|].
    unfold eput. destruct (str_eqb n (lower a1)); [reflexivity|apply C1].
  Qed.
  Theorem C89_renamed_partial ss i o dn e rdn parent a0 v0 c new_rdn clean new_parent a1 v1 ss' t r :
    nth_error (ss_objs ss) i = Some o -> ob_conn o = true -> ob_dn o = Some dn -> view (ss_s ss) dn = Some e ->
    dict_ok lower (ob_attrs o) -> shows_truth lower (ob_attrs o) e ->
    dn_parts dn rdn parent -> plain_rdn rdn a0 v0 -> renaming parent c new_rdn clean new_parent -> plain_rdn new_rdn a1 v1 ->
    (ahas lower (ob_attrs o) a1 = true \/ e (lower a1) = []) ->
    step ss (Do i c) = (ss', t, r) ->
    match r with
    | Ok _ => coherent lower view (new_rdn ++ lit "," ++ new_parent) i ss' /\
        (norm (new_rdn ++ lit "," ++ new_parent) <> norm dn -> view (ss_s ss') dn = None) /\
        exists e', view (ss_s ss') (new_rdn ++ lit "," ++ new_parent) = Some e' /\ forall n, e' n = srv_rename lower eqv e a0 v0 a1 v1 clean n
    | Raise _ => coherent lower view dn i ss' /\ forall d, view (ss_s ss') d = view (ss_s ss) d
    end.
  Proof.
    intros Ho Hc Hd V Hok Ht Hp P0 Hr P1 H1 Hs. rewrite (step_do sv sv_search lower idx strict flags syn vo vm ss i c o Ho) in Hs.
    destruct (plain_split _ _ _ P0) as (Q0 & R0 & _). destruct (plain_split _ _ _ P1) as (Q1 & R1 & _).
    assert (Es : split1 (ch ",") dn = Ok (rdn, parent)) by (destruct Hp as [-> _]; now apply split1_first).
    assert (G : exists np, match np with Some q => q | None => parent end = new_parent /\
        perform c (mk_world (ss_s ss) (ss_closed ss) o) = nothing (m_mod_dn sv lower idx new_rdn clean np) (mk_world (ss_s ss) (ss_closed ss) o)).
    { destruct c; try destruct Hr; cbn [Model_Life.perform] in *.
      - destruct H0 as [-> <-]. subst. eexists. split; reflexivity.
      - destruct H0 as [-> <-]. subst. exists None. split; reflexivity.
      - exists (Some new_parent). split; [reflexivity|]. subst. destruct H as [-> _]. unfold m_move, nothing, bindM, lift. change (new_rdn ++ lit "," ++ new_parent) with (new_rdn ++ ch "," :: new_parent). rewrite (split1_first _ _ _ R1). cbn [fst snd List.app].
        now destruct (m_mod_dn sv lower idx new_rdn clean (Some new_parent) (mk_world (ss_s ss) (ss_closed ss) o)) as [[? ?] [?|?]]. }
    destruct G as (np & Hnp & G). rewrite G in Hs. clear G.
    pose (l := mk_lobj dn (ob_attrs o)).
    assert (Eo : o = conn_obj o l) by (destruct o; unfold conn_obj, l; cbn in *; congruence).
    pose proof (mod_dn_does sv lower idx (ss_s ss) (ss_closed ss) o l new_rdn clean np) as D.
    unfold obj_mod_dn in D. cbn [o_dn o_attrs l] in D. rewrite Es in D. cbv zeta in D.
    assert (Enp : match np with None => parent | Some q => q end = new_parent) by (rewrite <- Hnp; now destruct np). rewrite Enp in D.
    assert (Same : forall s2, (forall d, view s2 d = view (ss_s ss) d) ->
      coherent lower view dn i (mk_session s2 (ss_closed ss) (set_nth (ss_objs ss) i o ++ []))).
    { intros s2 Hv. exists o, e. cbn [ss_objs ss_s]. split; [rewrite app_nil_r; eapply set_nth_same; eauto|]. split; [exact Hc|]. split; [exact Hd|]. split; [now rewrite Hv|]. auto. }
    unfold ldap_mod_dn in D. destruct (ss_closed ss) eqn:Ecl.
    { destruct D as (t1 & D). rewrite <- Eo in D. unfold nothing, bindM in Hs. rewrite D in Hs. injection Hs as <- _ <-. cbn [w_s w_o w_closed new_objs ss_s]. split; [now apply Same|reflexivity]. }
    destruct (sv_moddn sv (ss_s ss) dn new_rdn clean (Some new_parent)) as [s2 ok] eqn:E.
    pose proof (law_moddn _ _ _ _ _ Hlaw _ _ _ _ _ _ _ E) as L. destruct ok; cbn [success] in D.
    2: { destruct D as (t1 & D). rewrite <- Eo in D. unfold nothing, bindM in Hs. rewrite D in Hs. injection Hs as <- _ <-. cbn [w_s w_o w_closed new_objs ss_s]. split; [now apply Same|exact L]. }
    destruct (L rdn parent a0 v0 a1 v1 Hp P0 P1) as (e0 & e' & V0 & V' & P & Hold). assert (e0 = e) by congruence. subst e0.
    destruct (rename_mirrors lower eqv idx Hidx (ob_attrs o) (shown (ob_attrs o)) rdn new_rdn a0 v0 a1 v1 clean Hok (shown_mirrors lower _) Q0 Q1) as (d' & Er & Hok' & Hm').
    rewrite Er in D. destruct D as (t1 & D). rewrite <- Eo in D. unfold nothing, bindM in Hs. rewrite D in Hs. cbn in Hs. injection Hs as <- _ <-. cbn [ss_s].
    split; [|split; [exact Hold|eauto]].
    eexists _, e'. cbn [ss_objs ss_s]. split; [rewrite app_nil_r; eapply set_nth_same; eauto|]. cbn [ob_conn ob_dn ob_attrs conn_obj o_dn o_attrs].
    split; [reflexivity|]. split; [reflexivity|]. split; [exact V'|]. split; [exact Hok'|].
    intros k Hk. pose proof (proj1 (ahas_cur lower _ _) Hk) as Hk'.
    assert (M3 : srv_rename lower eqv (shown (ob_attrs o)) a0 v0 a1 v1 clean (lower k) = cur_vals lower d' k) by exact (Hm' k). rewrite <- M3 in Hk' |- *. rewrite P.
    apply rename_agree; [| |exact Hk'].
    - intros n Hn. unfold shown in Hn. destruct (dget (ckeys (ob_attrs o)) n) as [k0|] eqn:X; [|now elim Hn].
      assert (Ek : lower k0 = n) by (apply Hok in X; apply X). rewrite <- Ek, shown_cur. apply Ht, ahas_cur. rewrite <- shown_cur, Ek. unfold shown. now rewrite X.
    - rewrite shown_cur. destruct H1 as [H1|H1]; [now apply Ht|]. rewrite H1. destruct (cur_vals lower (ob_attrs o) a1) as [|x xs] eqn:X; [reflexivity|].
      assert (Y : ahas lower (ob_attrs o) a1 = true) by (apply ahas_cur; rewrite X; discriminate). rewrite <- X, (Ht _ Y). exact H1.
  Qed.
  (** compare tells the truth about the entry, whatever the object shows. *)
  Theorem C89_compare ss i o dn a v b : nth_error (ss_objs ss) i = Some o -> ob_dn o = Some dn ->
    snd (step ss (Do i (CCompare a v))) = Ok (VBool b) ->
    exists e, view (ss_s ss) dn = Some e /\ b = existsb (fun x => eqv a x v) (e (lower a)).
  Proof.
    intros Ho Hd. rewrite (step_do sv sv_search lower idx strict flags syn vo vm ss i (CCompare a v) o Ho). cbn [Model_Life.perform].
    unfold m_compare, l_compare, require_ldap, check_open, self, lift, ret, raise, send_compare, bindM. cbn -[lit]. destruct (ob_conn o); [|discriminate]. cbn -[lit].
    destruct (ss_closed ss); [discriminate|]. cbn -[lit]. unfold dn_text. rewrite Hd. destruct (law_compare _ _ _ _ _ Hlaw (ss_s ss) dn a v) as [L6 L5].
    destruct (N.eqb_spec (sv_compare sv (ss_s ss) dn a v) 6) as [E|N6]; cbn -[lit]; intros H.
    - injection H as <-. destruct (L6 E) as (e1 & V & X). exists e1. now split.
    - destruct (N.eqb_spec (sv_compare sv (ss_s ss) dn a v) 5) as [E|N5]; cbn -[lit] in H; [|discriminate H].
      injection H as <-. destruct (L5 E) as (e1 & V & X). exists e1. now split.
  Qed.

  (** ** C90: the netgroup methods of objects *)
  Context (Hrefl : forall a v, eqv a v v = true).
  Context (Hlow : lower (lit "nisNetgroupTriple") <> lower (lit "memberNisNetgroup")).
  Definition means (users : bool) (dom : field) : member -> nentry -> Prop := if users then user_means (said dom) else host_means (said dom).
  Definition is_netgroup (e : entry) : bool := existsb (fun x => eqv (lit "objectClass") x (lit "nisNetgroup")) (e (lower (lit "objectClass"))).
  (** what a call of [op] that returns has done *)
  Definition changed (op : ng_op) (s s' : S) (dn : str) (e : entry) (es : list nentry) : Prop :=
    match op with
    | NgAdd => added view lower norm eqv s s' dn e es
    | NgDelete => removed view lower norm eqv s s' dn e es
    | NgReplace => replaced view lower norm s s' dn e es
    end.
  Definition single (e : entry) : Prop :=
    at_most_one eqv (lit "nisNetgroupTriple") (e (lower (lit "nisNetgroupTriple"))) /\ at_most_one eqv (lit "memberNisNetgroup") (e (lower (lit "memberNisNetgroup"))).

  Lemma ng_says users ms dom es : Forall2 (means users dom) (listed ms) es -> Forall writable es -> exists a ts, ng_attrs users ms dom = Ok a /\ says es a ts.
  Proof. destruct users; cbn [means ng_attrs]; intros H Hw; [now apply C35_user_list|now apply C35_host_list]. Qed.

  (** C90: on an object that shows nothing but what is in its entry, add_users ... replace_hosts return only
      if the entry is a netgroup, and have then made the change; if they raise the directory is as it was;
      the object still shows nothing but what is in the entry. *)
  Theorem C90_changes_partial s u o dn e op users ms dom es w' t r :
    ob_conn o = true -> ob_dn o = Some dn -> view s dn = Some e -> dict_ok lower (ob_attrs o) -> shows_truth lower (ob_attrs o) e ->
    (op = NgReplace \/ strict = false) -> (op = NgDelete -> single e) ->
    Forall2 (means users dom) (listed ms) es -> Forall writable es ->
    perform (CNetgroup op users ms dom) (mk_world s u o) = (w', t, r) ->
    match r with
    | Ok _ => is_netgroup e = true /\ changed op s (w_s w') dn e es
    | Raise _ => forall d, view (w_s w') d = view s d
    end /\
    ob_conn (w_o w') = true /\ ob_dn (w_o w') = Some dn /\ exists e', view (w_s w') dn = Some e' /\ shows_truth lower (ob_attrs (w_o w')) e'.
  Proof.
    intros Hc Hd V Hok Ht Hs H1 Hm Hw H. pose (l := mk_lobj dn (ob_attrs o)).
    assert (Eo : o = conn_obj o l) by (destruct o; unfold conn_obj, l; cbn in *; congruence). rewrite Eo in H. cbn [Model_Life.perform] in H.
    destruct (netgroup_still sv view lower norm eqv idx strict flags vm Hidx Hlaw u o s l e op users ms dom V Hok Ht Hs) as (s' & l' & x & D & ST & HO & HR & _).
    destruct D as (t1 & D). unfold nothing, bindM in H. rewrite D in H. destruct (ng_says users ms dom es Hm Hw) as (a & ts & Ea & Hsay).
    destruct ST as (S1 & S2 & S3 & S4). cbn [o_dn l] in S1, S3, S4.
    destruct x as [[]|x]; cbn in H; injection H as <- <- <-; cbn [w_s w_o].
    - split; [|split; [reflexivity|]; split; [cbn; now rewrite S1|exact S3]].
      destruct (HO tt eq_refl) as (HC & a' & l1 & Ea' & D1 & HX). assert (a' = a) by congruence. subst a'. split; [exact HC|]. destruct op; cbn [changed].
      + destruct HX as (HX1 & HX2). rewrite as_vals_fst in HX1.
        pose proof (add_members_cur sv view lower norm eqv idx u strict flags vm Hidx Hrefl Hlaw Hlow es a ts s dn e (Some l1) Hsay V HX1) as Z. cbn [o_dn l] in HX2. rewrite HX2 in Z. exact Z.
      + pose proof (replace_members_cur sv view lower norm eqv u strict true flags vm Hlaw Hlow es a ts s dn e (Some l1) Hsay V) as Z. cbn [o_dn l] in HX. rewrite HX in Z. exact Z.
      + destruct HX as (HX1 & HX2). rewrite as_vals_fst in HX1. destruct (H1 eq_refl) as [HT HM].
        pose proof (delete_members_cur sv view lower norm eqv idx u strict flags vm Hidx Hlaw Hlow es a ts s dn e (Some l1) Hsay V HX1 HT HM) as Z. cbn [o_dn l] in HX2. rewrite HX2 in Z. exact Z.
    - split; [exact (HR x eq_refl)|]. split; [reflexivity|]. split; [cbn; now rewrite S1|exact S3].
  Qed.

  (** C90: on anything but a netgroup they raise, and send nothing that could change the directory,
      whatever the members. *)
  Theorem C90_wrong_class s u o dn e op users ms dom w' t r :
    ob_conn o = true -> ob_dn o = Some dn -> view s dn = Some e -> dict_ok lower (ob_attrs o) -> shows_truth lower (ob_attrs o) e ->
    is_netgroup e = false ->
    perform (CNetgroup op users ms dom) (mk_world s u o) = (w', t, r) ->
    (exists x, r = Raise x) /\ w_s w' = s /\ List.filter changing t = [].
  Proof.
    intros Hc Hd V Hok Ht Hn H. pose (l := mk_lobj dn (ob_attrs o)).
    assert (Eo : o = conn_obj o l) by (destruct o; unfold conn_obj, l; cbn in *; congruence).
    cbn [Model_Life.perform] in H. unfold nothing, m_netgroup, m_require_netgroup in H.
    pose proof (has_class_still sv view lower norm eqv idx vm Hidx Hlaw u s l e (lit "nisNetgroup") V Hok Ht) as HC.
    pose proof (has_class_does sv lower idx s u o l (lit "nisNetgroup")) as HD.
    pose proof (conf_has_class sv lower idx (fun _ _ => True) (fun _ _ => True) (fun _ => I) (fun _ _ _ _ _ _ => I) (dn_text o) (fun q => ~ changes q) (fun q Hq _ => Hq) true (lit "nisNetgroup") (mk_world s u o) eq_refl) as HA.
    destruct (has_object_class sv lower idx u s l (lit "nisNetgroup")) as [l1 x]. destruct HD as (t1 & HD). rewrite <- Eo in HD.
    rewrite HD in HA. destruct HA as (HA & _). pose proof (no_changes t1 HA) as HF.
    unfold bindM in H. rewrite HD in H. destruct HC as (_ & _ & HB). destruct x as [b|x].
    - pose proof (HB b eq_refl) as Eb. unfold is_netgroup in Hn. rewrite Hn in Eb. subst b. cbn in H. injection H as <- <- <-. rewrite app_nil_r. eauto.
    - cbn in H. injection H as <- <- <-. eauto.
  Qed.
  (** C90: members that mean nothing: an error, nothing changing sent. *)
  Theorem C90_bad_members s u o op users ms dom w' t r :
    ~ Forall (fun m => exists x, means users dom m x) (listed ms) ->
    perform (CNetgroup op users ms dom) (mk_world s u o) = (w', t, r) -> (exists x, r = Raise x) /\ w_s w' = s /\ List.filter changing t = [].
  Proof.
    intros Hm H.
    assert (Ea : exists x, ng_attrs users ms dom = Raise x).
    { destruct (ng_attrs users ms dom) as [a|x] eqn:E; [|eauto]. exfalso. apply Hm. destruct users; cbn [ng_attrs means] in *;
        [apply (proj1 (C35_user_list_accepted ms dom))|apply (proj1 (C35_host_list_accepted ms dom))]; eauto. }
    destruct Ea as (x & Ea). cbn [Model_Life.perform] in H. unfold nothing, m_netgroup, m_require_netgroup in H.
    change (if users then user_list_to_attrs ms dom else host_list_to_attrs ms dom) with (ng_attrs users ms dom) in H. rewrite Ea in H.
    pose proof (conf_has_class sv lower idx (fun _ _ => True) (fun _ _ => True) (fun _ => I) (fun _ _ _ _ _ _ => I) (dn_text o) (fun q => ~ changes q) (fun q Hq _ => Hq) true (lit "nisNetgroup") (mk_world s u o) eq_refl) as HA.
    unfold bindM in H. destruct (m_has_class sv lower idx (lit "nisNetgroup") (mk_world s u o)) as [[w1 t1] r1]. destruct HA as (HA & _ & _ & Hs & _). cbn [w_s] in Hs.
    rewrite (answered_looks sv s t1 HA) in Hs. pose proof (no_changes t1 HA) as HF.
    destruct r1 as [[|]|y]; cbn in H; injection H as <- <- <-; rewrite ?app_nil_r; eauto.
  Qed.
End Coherent.

(** ** A session *)
Definition y_bob := lit "cn=bob,dc=x".
Definition y_ops := lit "cn=ops,dc=x".
Definition y_dir : store :=
  [ (y_bob, [ (lit "objectClass", [lit "person"]); (lit "cn", [lit "bob"]); (lit "mail", [lit "old"]) ]);
    (y_ops, [ (lit "objectClass", [lit "nisNetgroup"]); (lit "nisNetgroupTriple", [lit "(,al,)"]) ]) ].
(** objects with nothing loaded *)
Definition y_obj dn := mk_obj (Some dn) true cid_empty (Some SubScope) (Some (lit "cn")).
Definition y_ss : @session store := mk_session y_dir false [y_obj y_bob; y_obj y_ops].
Definition y_step strict := step x_sv x_search x_lower ex_idx strict (mkflags false true false) STANDARD (fun _ => Ok tt) (fun _ _ _ => Ok tt).
Definition y_run strict := session_run x_sv x_search x_lower ex_idx strict (mkflags false true false) STANDARD (fun _ => Ok tt) (fun _ _ _ => Ok tt).
Definition y_coherent := coherent x_lower (sview x_lower).

Lemma y_ok i dn : nth_error [y_obj y_bob; y_obj y_ops] i = Some (y_obj dn) -> sview x_lower y_dir dn <> None -> y_coherent dn i y_ss.
Proof.
  intros H V. destruct (sview x_lower y_dir dn) as [e|] eqn:E; [|now elim V]. exists (y_obj dn), e.
  split; [exact H|]. split; [reflexivity|]. split; [reflexivity|]. split; [exact E|]. split; [repeat split; try constructor; easy|]. intros k Hk. discriminate Hk.
Qed.
(** the object shows something else than the entry *)
Lemma y_lies i dn (ss : @session store) o l k : nth_error (ss_objs ss) i = Some o -> dget (ss_s ss) dn = Some l ->
  ahas x_lower (ob_attrs o) k = true -> cur_vals x_lower (ob_attrs o) k <> eview x_lower l (x_lower k) -> ~ y_coherent dn i ss.
Proof.
  intros Ho Hl Hk Hne (o' & e & Ho' & _ & _ & V & _ & Ht). rewrite Ho in Ho'. injection Ho' as <-. unfold sview in V. rewrite Hl in V. injection V as <-. exact (Hne (Ht k Hk)).
Qed.

(** C89 fails for modify with ADD of an attribute the object has not loaded: the object then shows the
    new value only. *)
Theorem C89_refuted_modify_add : y_coherent y_bob 0 y_ss /\
  let r := y_step false y_ss (Do 0%nat (CModify [mkmod ADD (lit "mail") (VList [lit "new"])])) in
  snd r = Ok VNone /\ ~ y_coherent y_bob 0 (fst (fst r)).
Proof.
  split; [apply y_ok; [reflexivity|vm_compute; discriminate]|]. split; [vm_compute; reflexivity|].
  eapply (y_lies _ _ _ _ _ (lit "mail")); [vm_compute; reflexivity|vm_compute; reflexivity|vm_compute; reflexivity|vm_compute; discriminate].
Qed.
(** ... and for add_attrs under strict_modify. *)
Theorem C89_refuted_strict_add : y_coherent y_bob 0 y_ss /\
  let r := y_step true y_ss (Do 0%nat (CAddAttrs [(lit "mail", VList [lit "new"])])) in
  snd r = Ok VNone /\ ~ y_coherent y_bob 0 (fst (fst r)).
Proof.
  split; [apply y_ok; [reflexivity|vm_compute; discriminate]|]. split; [vm_compute; reflexivity|].
  eapply (y_lies _ _ _ _ _ (lit "mail")); [vm_compute; reflexivity|vm_compute; reflexivity|vm_compute; reflexivity|vm_compute; discriminate].
Qed.
(** ... and for rename when the RDN attribute is not loaded: the entry has both names, the object one. *)
Theorem C89_refuted_rename : y_coherent y_bob 0 y_ss /\
  let r := y_step false y_ss (Do 0%nat (CRename (lit "cn=rob") false)) in
  snd r = Ok VNone /\ option_map ob_dn (nth_error (ss_objs (fst (fst r))) 0) = Some (Some (lit "cn=rob,dc=x")) /\
  ~ y_coherent (lit "cn=rob,dc=x") 0 (fst (fst r)).
Proof.
  split; [apply y_ok; [reflexivity|vm_compute; discriminate]|]. split; [vm_compute; reflexivity|]. split; [vm_compute; reflexivity|].
  eapply (y_lies _ _ _ _ _ (lit "cn")); [vm_compute; reflexivity|vm_compute; reflexivity|vm_compute; reflexivity|vm_compute; discriminate].
Qed.
(** Removing an attribute that is not loaded with replace_attrs raises KeyError although it was removed. *)
Theorem C89_refuted_error_after_change : y_coherent y_bob 0 y_ss /\
  let r := y_step false y_ss (Do 0%nat (CReplaceAttrs [(lit "mail", VDeleteAll)])) in
  snd r = Raise KeyError /\ at_dir (ss_s y_ss) y_bob (lit "mail") = [lit "old"] /\ at_dir (ss_s (fst (fst r))) y_bob (lit "mail") = [].
Proof. split; [apply y_ok; [reflexivity|vm_compute; discriminate]|]. repeat split; vm_compute; reflexivity. Qed.

(** C90 fails under strict_modify: delete_users of an object whose triples are not loaded returns, having deleted nothing and
    asked for nothing but the class. *)
Theorem C90_refuted_strict_delete : y_coherent y_ops 1 y_ss /\
  let r := y_step true y_ss (Do 1%nat (CNetgroup NgDelete true (MList [MStr (lit "al")]) (Some []))) in
  snd r = Ok VNone /\ List.filter changing (snd (fst r)) = [] /\
  at_dir (ss_s (fst (fst r))) y_ops (x_lower (lit "nisNetgroupTriple")) = [lit "(,al,)"].
Proof. split; [apply y_ok; [reflexivity|vm_compute; discriminate]|]. repeat split; vm_compute; reflexivity. Qed.

Definition y_events : list (@event store) :=
  [ Do 0%nat (CAddAttrs [(lit "mail", VList [lit "new"])]); Do 0%nat (CHasClass (lit "person")); Do 1%nat (CNetgroup NgAdd true (MList [MStr (lit "bo")]) (Some []));
    Do 0%nat (CDeleteAttrs [(lit "MAIL", VList [lit "old"])]); Do 0%nat (CReplaceAttrs [(lit "cn", VList [lit "bob"; lit "rob"])]) ].
Example C89_nonvacuous :
  lawful x_lower (fun d => d) aeq x_sv (sview x_lower) /\ same_rule aeq ex_idx /\ (forall r d : str, r ++ lit "," ++ d <> d) /\
  y_coherent y_bob 0 y_ss /\ undisturbed x_lower false (sview x_lower) y_bob 0 (fun ss ev => fst (fst (y_step false ss ev))) y_ss y_events /\
  map snd (snd (y_run false y_ss y_events)) = [Ok VNone; Ok (VBool true); Ok VNone; Ok VNone; Ok VNone] /\
  option_map (fun o => cid_get x_lower (ob_attrs o) (lit "Mail")) (nth_error (ss_objs (fst (y_run false y_ss y_events))) 0) = Some (Ok [lit "new"]) /\
  at_dir (ss_s (fst (y_run false y_ss y_events))) y_bob (lit "mail") = [lit "new"].
Proof.
  split; [apply ex_lawful|]. split; [apply ex_same_rule|]. split.
  { intros r d E. apply (f_equal (@List.length N)) in E. rewrite !app_length in E. cbn [List.length lit] in E. change (List.length (lit ",")) with 1%nat in E. lia. }
  split; [apply y_ok; [reflexivity|vm_compute; discriminate]|]. split.
  { unfold y_events. repeat first [apply U_end | (apply U_own; [intros o Ho|]) | (apply U_other; [discriminate|vm_compute; reflexivity|])].
    - split; [repeat constructor; easy|]. split; [|now left]. intros n [<-|[]] X. repeat (destruct X as [X|X]; try discriminate). exact X.
    - exact I.
    - split; [repeat constructor; easy|]. split; [|split; [now left|]].
      + intros n [<-|[]] X. repeat (destruct X as [X|X]; try discriminate). exact X.
      + intros k v [E|[]]. injection E as _ <-. discriminate.
    - intros k v [E|[]]. injection E as _ <-. eexists. split; [reflexivity|discriminate]. }
  repeat split; vm_compute; reflexivity.
Qed.
(** the same object, renamed after its cn has been loaded *)
Example C89_nonvacuous_renamed :
  let ss1 := fst (fst (y_step false y_ss (Do 0%nat (CRefresh (Some [lit "cn"]))))) in
  let r := y_step false ss1 (Do 0%nat (CRename (lit "cn=rob") true)) in
  option_map (fun o => ahas x_lower (ob_attrs o) (lit "cn")) (nth_error (ss_objs ss1) 0) = Some true /\
  dn_parts y_bob (lit "cn=bob") (lit "dc=x") /\ plain_rdn (lit "cn=bob") (lit "cn") (lit "bob") /\ plain_rdn (lit "cn=rob") (lit "cn") (lit "rob") /\
  renaming (lit "dc=x") (CRename (lit "cn=rob") true) (lit "cn=rob") true (lit "dc=x") /\
  renaming (lit "dc=x") (CMove (lit "cn=rob,dc=y") true) (lit "cn=rob") true (lit "dc=y") /\
  snd r = Ok VNone /\ at_dir (ss_s (fst (fst r))) (lit "cn=rob,dc=x") (lit "cn") = [lit "rob"].
Proof.
  assert (R : forall l, (forall c, In c l -> c <> ch "," /\ c <> 92%N) -> rdn_text l).
  { induction l as [|c l IH]; intros H; [constructor|]. destruct (H c (or_introl eq_refl)). apply rdn_char; auto. apply IH. intros c' Hc'. apply H. now right. }
  cbv zeta. split; [vm_compute; reflexivity|]. split.
  { split; [reflexivity|]. apply R. intros c H. vm_compute in H. repeat (destruct H as [<-|H]; [split; discriminate|]). destruct H. }
  assert (P : forall v, v = lit "bob" \/ v = lit "rob" -> plain_rdn (lit "cn=" ++ v) (lit "cn") v).
  { intros v Hv. split; [reflexivity|]. split; [vm_compute; intuition discriminate|]. intros c Hc X. destruct Hv; subst v; vm_compute in Hc; vm_compute in X;
      repeat (destruct Hc as [<-|Hc]; [repeat (destruct X as [X|X]; [discriminate X|]); exact X|]); exact Hc. }
  split; [exact (P _ (or_introl eq_refl))|]. split; [exact (P _ (or_intror eq_refl))|]. split; [repeat split|]. split.
  { split; [|reflexivity]. split; [reflexivity|]. apply R. intros c H. vm_compute in H. repeat (destruct H as [<-|H]; [split; discriminate|]). destruct H. }
  split; vm_compute; reflexivity.
Qed.
Example C90_nonvacuous :
  x_lower (lit "nisNetgroupTriple") <> x_lower (lit "memberNisNetgroup") /\ (forall a v, aeq a v v = true) /\
  y_coherent y_ops 1 y_ss /\
  Forall2 (means true (Some [])) (listed (MList [MTuple [Some []; Some (lit "bo")]; MStr (lit "+other")])) [Triple [] (lit "bo") []; Group (lit "other")] /\
  at_dir (ss_s (fst (fst (y_step false y_ss (Do 1%nat (CNetgroup NgAdd true (MList [MTuple [Some []; Some (lit "bo")]; MStr (lit "+other")]) (Some []))))))) y_ops (x_lower (lit "nisNetgroupTriple"))
    = [lit "(,al,)"; lit "(,bo,)"] /\
  (* bob is no netgroup *)
  snd (y_step false y_ss (Do 0%nat (CNetgroup NgAdd true (MList [MStr (lit "bo")]) (Some [])))) = Raise RuntimeError.
Proof.
  split; [vm_compute; discriminate|]. split; [intros a v; apply str_eqb_refl|]. split; [apply y_ok; [reflexivity|vm_compute; discriminate]|]. split.
  { constructor; [exact (um_two _ (Some []) (Some (lit "bo")))|]. constructor; [exact (um_group _ (lit "other"))|constructor]. }
  split; vm_compute; reflexivity.
Qed.

Print Assumptions C89_history_partial.
Print Assumptions C89_reads_partial.
Print Assumptions C89_has_class_partial.
Print Assumptions C89_fetched.
Print Assumptions C89_made.
Print Assumptions C89_added.
Print Assumptions C89_renamed_partial.
Print Assumptions C89_compare.
Print Assumptions C89_refuted_modify_add.
Print Assumptions C89_refuted_strict_add.
Print Assumptions C89_refuted_rename.
Print Assumptions C89_refuted_error_after_change.
Print Assumptions C90_changes_partial.
Print Assumptions C90_wrong_class.
Print Assumptions C90_bad_members.
Print Assumptions C90_refuted_strict_delete.
