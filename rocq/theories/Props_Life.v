(** * C86, C87, C88: the life of objects *)
From Verif Require Import PyBase Model_CIDict Model_Modify Spec_Modify Proofs_Modify Model_Search Model_Dir Model_Filter Model_Request Model_Netgroups Model_Life Spec_Life Proofs_Life Proofs_Life2 Proofs_Life3 Proofs_Life5 Spec_Search Spec_Dir Proofs_Dir Proofs_DirInst.

Section Life.
  Context {S : Type} (sv : server S).
  Context (sv_search : S -> str -> scope -> option str -> option (list str) -> N -> option (list (str * list (str * list str)))).
  Context (lower : str -> str) (idx : str -> list str -> str -> res nat).
  Context (strict : bool) (flags : empty_flags) (syn : fsyntax).
  Context (vo : lobj -> res unit) (vm : str -> list mod_ -> option lobj -> res unit).
  Notation perform := (perform sv sv_search lower idx strict flags syn vo vm).
  Notation step := (step sv sv_search lower idx strict flags syn vo vm).
  Notation session_run := (session_run sv sv_search lower idx strict flags syn vo vm).

  (** ** C86: an object without a connection *)
  (** C86: whatever happens in a session - methods of this and of other objects, unbinding, anything at the
      server - no method of an object without connection ever sends anything, and it never gets one. *)
  Theorem C86_never_reaches_the_server ss es ss' out i :
    session_run ss es = (ss', out) -> unconnected (ss_objs ss) i ->
    unconnected (ss_objs ss') i /\ silent_on i es out.
  Proof. intros H U. exact (run_off sv sv_search lower idx strict flags syn vo vm es ss ss' out i H U). Qed.

  (** C86, one call: nothing sent, nothing changed at the server, the DN stays, objects returned have no
      connection either. *)
  Theorem C86_call c s closed o w' t r : ob_conn o = false ->
    perform c (mk_world s closed o) = (w', t, r) ->
    t = [] /\ w_s w' = s /\ w_closed w' = closed /\ ob_conn (w_o w') = false /\ ob_dn (w_o w') = ob_dn o /\
    forall l, r = Ok (VObjs l) -> Forall (fun x => ob_conn x = false) l.
  Proof.
    intros Hc H. pose proof (off_perform sv sv_search lower idx strict flags syn vo vm c (mk_world s closed o) Hc) as P. rewrite H in P.
    destruct P as (P1 & P2 & P3 & P4 & P5 & P6). cbn [w_s w_closed w_o] in *. split; [exact P1|]. split; [exact P2|]. split; [exact P3|]. split; [exact P4|]. split; [exact P5|].
    intros l ->. exact P6.
  Qed.

  (** C86, the methods that need the server raise the error of the table, whatever their arguments, and
      leave the object as it was. *)
  Theorem C86_raises c e s closed o : offline_error c = Some e -> ob_conn o = false ->
    perform c (mk_world s closed o) = (mk_world s closed o, [], Raise e).
  Proof. intros H Hc. exact (off_error sv sv_search lower idx strict flags syn vo vm c e (mk_world s closed o) H Hc). Qed.

  Lemma nothing_raise (m : @M S unit) w w' t v : nothing m w = (w', t, Ok v) -> exists t1, m w = (w', t1, Ok tt).
  Proof.
    unfold nothing, bindM. destruct (m w) as [[w1 t1] [[]|e]]; [|discriminate]. cbn. intros H. injection H as <- _ _. eauto.
  Qed.
  Lemma bind_inv {A B} (m : @M S A) (k : A -> @M S B) w w' t v : bindM m k w = (w', t, Ok v) ->
    exists w1 t1 a t2, m w = (w1, t1, Ok a) /\ k a w1 = (w', t2, Ok v).
  Proof.
    unfold bindM. destruct (m w) as [[w1 t1] [a|e]] eqn:E; [|discriminate]. destruct (k a w1) as [[w2 t2] r] eqn:E2. intros H. injection H as <- _ ->.
    exists w1, t1, a, t2. rewrite E2. auto.
  Qed.
  (** C86, conversely: the only calls that can return are those that are about what is held locally. *)
  Theorem C86_returns_only_local c s closed o w' t v : ob_conn o = false ->
    perform c (mk_world s closed o) = (w', t, Ok v) ->
    (exists r a, c = CObj r a false) \/ (exists a vs, c = CSet a vs) \/ (exists a, c = CDel a) \/
    (exists oc, c = CHasClass oc /\ ahas lower (ob_attrs o) (lit "objectClass") = true) \/
    (exists ats, c = CRefreshMissing ats /\ forall a, In a ats -> ahas lower (ob_attrs o) a = true).
  Proof.
    intros Hc H.
    assert (RM : forall ats w1 t1 x, m_refresh_missing sv lower ats (mk_world s closed o) = (w1, t1, Ok x) ->
              w1 = mk_world s closed o /\ forall a, In a ats -> ahas lower (ob_attrs o) a = true).
    { intros ats w1 t1 x. unfold m_refresh_missing, self. cbn. destruct (missing lower (as_lobj o) ats) as [|y ys] eqn:E.
      - intros X. injection X as <- _ _. split; [reflexivity|]. intros a Ha. destruct (ahas lower (ob_attrs o) a) eqn:F; [reflexivity|].
        assert (Hin : In a (missing lower (as_lobj o) ats)) by (unfold missing; apply filter_In; cbn; now rewrite F). now rewrite E in Hin.
      - unfold m_refresh, require_ldap, self, bindM. cbn. rewrite Hc. cbn. discriminate. }
    destruct (offline_error c) as [e|] eqn:E.
    { rewrite (C86_raises c e s closed o E Hc) in H. discriminate H. }
    destruct c; cbn [offline_error] in E; try discriminate E; cbn [Model_Life.perform] in H.
    - left. destruct tagged; [discriminate E|eauto].
    - right; right; right; left. exists oc. split; [reflexivity|]. destruct (bind_inv _ _ _ _ _ _ H) as (w1 & t1 & b & t2 & H1 & _).
      unfold m_has_class in H1. destruct (bind_inv _ _ _ _ _ _ H1) as (w2 & t3 & [] & t4 & H2 & _). destruct (RM _ _ _ _ H2) as [_ HR]. apply HR. now left.
    - right; right; right; right. exists ats. split; [reflexivity|]. destruct (nothing_raise _ _ _ _ _ H) as (t1 & H1). exact (proj2 (RM _ _ _ _ H1)).
    - exfalso. destruct (nothing_raise _ _ _ _ _ H) as (t1 & H1). unfold m_move in H1. destruct (bind_inv _ _ _ _ _ _ H1) as (w1 & t2 & p & t3 & H2 & H3).
      injection H2 as <- _ _. unfold m_mod_dn, require_ldap, self, bindM in H3. cbn in H3. rewrite Hc in H3. discriminate H3.
    - right; left. eauto.
    - right; right; left. eauto.
    - exfalso. destruct (nothing_raise _ _ _ _ _ H) as (t1 & H1). unfold m_netgroup in H1. destruct (bind_inv _ _ _ _ _ _ H1) as (w1 & t2 & [] & t3 & H2 & H3).
      assert (Hw : w1 = mk_world s closed o).
      { unfold m_require_netgroup in H2. destruct (bind_inv _ _ _ _ _ _ H2) as (w2 & t4 & b & t5 & H4 & H5).
        unfold m_has_class in H4. destruct (bind_inv _ _ _ _ _ _ H4) as (w3 & t6 & [] & t7 & H6 & H7). destruct (RM _ _ _ _ H6) as [-> _].
        unfold self, bindM, lift in H7. cbn in H7. injection H7 as <- _ _. destruct b; cbn in H5; [|discriminate]. now injection H5 as <- _. }
      subst w1. destruct (bind_inv _ _ _ _ _ _ H3) as (w2 & t4 & a & t5 & H4 & H5). injection H4 as <- _ _.
      destruct op.
      + unfold m_add_attrs, m_prefetch, need_conn, self, bindM in H5. cbn in H5. rewrite Hc in H5. discriminate H5.
      + unfold m_replace_attrs in H5. destruct (bind_inv _ _ _ _ _ _ H5) as (w2 & t6 & b & t7 & H6 & H7). injection H6 as <- _ _.
        unfold m_modify, require_ldap, self, bindM in H7. cbn in H7. rewrite Hc in H7. discriminate H7.
      + unfold m_delete_attrs, m_prefetch, need_conn, self, bindM in H5. cbn in H5. rewrite Hc in H5. discriminate H5.
  Qed.

  (** ** C87: deleting *)
  (** C87: a deletion asks for the deletion of exactly this entry. If the server agrees the object has no
      attributes, no name and no connection afterwards, and stays silent in every later history; if not,
      the object is as it was. *)
  Theorem C87_delete s o dn w' t r : ob_conn o = true -> ob_dn o = Some dn ->
    perform CDelete (mk_world s false o) = (w', t, r) ->
    t = [QDelete dn] /\ w_s w' = fst (sv_delete sv s dn) /\
    (r = Ok VNone <-> snd (sv_delete sv s dn) = true) /\
    (r = Ok VNone -> ob_conn (w_o w') = false /\ ob_dn (w_o w') = None /\ forall a, cid_get lower (ob_attrs (w_o w')) a = Raise KeyError) /\
    (r <> Ok VNone -> r = Raise LDAPError /\ w_o w' = o).
  Proof.
    intros Hc Hd. cbn [Model_Life.perform]. unfold nothing, m_delete, require_ldap, self, l_delete, check_open, bindM. cbn. rewrite Hc. cbn.
    unfold send, serve, dn_text. cbn. rewrite Hd. destruct (sv_delete sv s dn) as [s' [|]]; cbn; intros H; injection H as <- <- <-; cbn.
    - split; [reflexivity|]. split; [reflexivity|]. split; [tauto|]. split; [auto|]. intros X. now elim X.
    - split; [reflexivity|]. split; [reflexivity|]. split; [split; discriminate|]. split; [discriminate|]. intros _. auto.
  Qed.
  Theorem C87_final ss i o dn ss1 t r es ss' out :
    nth_error (ss_objs ss) i = Some o -> ob_conn o = true -> ob_dn o = Some dn -> ss_closed ss = false ->
    step ss (Do i CDelete) = (ss1, t, Ok r) -> session_run ss1 es = (ss', out) ->
    t = [QDelete dn] /\ silent_on i es out /\
    (forall k c e, nth_error es k = Some (Do i c) -> offline_error c = Some e -> nth_error out k = Some ([], Raise e)).
  Proof.
    intros Ho Hc Hd Hcl Hs Hr. rewrite (step_do sv sv_search lower idx strict flags syn vo vm ss i CDelete o Ho), Hcl in Hs.
    destruct (perform CDelete (mk_world (ss_s ss) false o)) as [[w t1] r1] eqn:E. injection Hs as <- <- ->.
    destruct (C87_delete _ _ _ _ _ _ Hc Hd E) as (Ht & _ & _ & Hok & Hbad).
    assert (Er : @Ok value r = Ok VNone \/ @Ok value r <> Ok VNone) by (destruct r; [left; reflexivity|right; discriminate|right; discriminate]).
    destruct Er as [Er|Er]; [|destruct (Hbad Er) as [X _]; discriminate X].
    destruct (Hok Er) as (Hc1 & _). split; [exact Ht|].
    assert (U : unconnected (ss_objs (mk_session (w_s w) (w_closed w) (set_nth (ss_objs ss) i (w_o w) ++ new_objs (Ok r)))) i).
    { exists (w_o w). split; [|exact Hc1]. cbn [ss_objs]. apply nth_app. eapply set_nth_same; eauto. }
    split; [exact (proj2 (C86_never_reaches_the_server _ _ _ _ _ Hr U))|].
    intros k c e Hk He. destruct (run_nth sv sv_search lower idx strict flags syn vo vm es _ _ _ _ _ Hr Hk) as (sa & sb & t' & r' & R1 & R2 & R3).
    destruct (proj1 (C86_never_reaches_the_server _ _ _ _ _ R1 U)) as (oa & Hoa & Hca).
    rewrite (step_do sv sv_search lower idx strict flags syn vo vm sa i c oa Hoa), (C86_raises c e _ _ _ He Hca) in R2. injection R2 as _ <- <-. exact R3.
  Qed.
  (** C87, refuted for obj(): a deleted object goes on making children, below a DN called None. *)
  Theorem C87_refuted_obj s closed o r a : ob_conn o = false -> ob_dn o = None -> In (ch "=") r ->
    exists w' x, perform (CObj r a false) (mk_world s closed o) = (w', [], Ok (VObjs [x])) /\ ob_dn x = Some (r ++ lit ",None").
  Proof.
    intros Hc Hd Hr. cbn [Model_Life.perform]. unfold m_obj, m_rdn, self, bindM, obj_rdn. cbn. rewrite Hc. cbn. rewrite (rdn_full o r Hr). cbn.
    eexists _, _. split; [reflexivity|]. unfold dn_text. rewrite Hd. reflexivity.
  Qed.

  (** ** C88: what a connected object asks *)
  (** C88, one call: every request is about the object itself or something named below it; methods that
      only look send nothing that could change the directory, the others at most one such request; on a
      closed connection nothing is sent; the new state of the server is what the recorded requests make of
      it; name, connection and settings change only in a rename or a delete. *)
  Theorem C88_call c s closed o dn w' t r : ob_dn o = Some dn ->
    perform c (mk_world s closed o) = (w', t, r) ->
    Forall (fun q => at_or_below dn (about q)) t /\
    (looks c -> Forall (fun q => ~ changes q) t) /\
    (List.length (List.filter changing t) <= 1)%nat /\
    (closed = true -> t = []) /\
    w_s w' = answered sv s t /\
    (~ renames c -> c <> CDelete -> ob_dn (w_o w') = Some dn /\ ob_conn (w_o w') = ob_conn o /\ ob_scope (w_o w') = ob_scope o /\ ob_rdn (w_o w') = ob_rdn o).
  Proof.
    intros Hd H. assert (Hn : dn_text o = dn) by (unfold dn_text; now rewrite Hd).
    pose proof (am_perform sv sv_search lower idx strict flags syn vo vm c (mk_world s closed o)) as Ha. rewrite H in Ha.
    assert (Hb : Forall (fun q => at_or_below dn (about q)) t /\ (closed = true -> t = []) /\ w_s w' = answered sv s t).
    { destruct (looks_dec c) as [Hl|Hl].
      - pose proof (conf_looks sv sv_search lower idx strict flags syn vo vm at_or_below (fun _ _ => True)
          (fun d => or_introl eq_refl) (fun d r => or_intror (ex_intro _ r eq_refl)) (fun _ _ _ _ _ _ => I) (fun _ _ _ _ _ _ _ _ _ _ _ => I)
          dn (fun q => at_or_below dn (about q)) (fun q _ X => X) false c Hl (mk_world s closed o) Hn) as C.
        rewrite H in C. destruct C as (C1 & _ & C2 & C3 & _). auto.
      - pose proof (conf_changes sv sv_search lower idx strict flags syn vo vm at_or_below (fun _ _ => True)
          (fun d => or_introl eq_refl) (fun d r => or_intror (ex_intro _ r eq_refl)) (fun _ _ _ _ _ _ => I)
          dn (fun q => at_or_below dn (about q)) (fun q _ X => X) (fun q X => X) c Hl (mk_world s closed o) Hn) as C.
        rewrite H in C. destruct C as (C1 & _ & C2 & C3 & _). auto. }
    destruct Hb as (Hb1 & Hb2 & Hb3). split; [exact Hb1|]. split; [|split; [exact Ha|split; [exact Hb2|split; [exact Hb3|]]]].
    - intros Hl. pose proof (conf_looks sv sv_search lower idx strict flags syn vo vm at_or_below (fun _ _ => True)
          (fun d => or_introl eq_refl) (fun d r => or_intror (ex_intro _ r eq_refl)) (fun _ _ _ _ _ _ => I) (fun _ _ _ _ _ _ _ _ _ _ _ => I)
          dn (fun q => ~ changes q) (fun q X _ => X) false c Hl (mk_world s closed o) Hn) as C.
      rewrite H in C. exact (proj1 C).
    - intros Hr Hdl. pose proof (k_perform sv sv_search lower idx strict flags syn vo vm c Hr Hdl (mk_world s closed o)) as K. rewrite H in K. cbn [fst w_o] in K. unfold settings in K. injection K as K1 K2 K3 K4. rewrite K1, K2, K3, K4. auto.
  Qed.

  (** C88, the exact request, for methods that send one whatever the object holds. *)
  Theorem C88_exact_request c q s o dn : ob_dn o = Some dn -> ob_conn o = true -> one_request dn c = Some q ->
    snd (fst (perform c (mk_world s false o))) = [q].
  Proof.
    intros Hd Hc Hq. apply one_request_sent; auto. cbn. unfold dn_text. now rewrite Hd.
  Qed.
  Theorem C88_exact_child_request c q r s o dn : ob_dn o = Some dn -> ob_conn o = true -> rdn_of_call c = Some r -> In (ch "=") r ->
    child_request dn r c = Some q -> snd (fst (perform c (mk_world s false o))) = [q].
  Proof.
    intros Hd Hc Hr Hin Hq. apply (child_request_sent sv sv_search lower idx strict flags syn vo vm c r); auto. cbn. unfold dn_text. now rewrite Hd.
  Qed.

  (** ... adding a child: sent if the new object validates *)
  Theorem C88_exact_add_request r a s o dn : ob_dn o = Some dn -> ob_conn o = true -> In (ch "=") r ->
    snd (fst (perform (CAddChild r a) (mk_world s false o))) =
    match vo (mk_lobj (r ++ lit "," ++ dn) (cid_update lower cid_empty a)) with Ok _ => [QAdd (r ++ lit "," ++ dn) a] | Raise _ => [] end.
  Proof.
    intros Hd Hc Hr. cbn [Model_Life.perform]. unfold m_add_child, l_add, m_rdn, require_ldap, check_open, self, lift, ret, raise, send, bindM, obj_rdn.
    cbn -[lit]. rewrite Hc. cbn -[lit]. rewrite (rdn_full o r Hr). cbn -[lit]. unfold dn_text. rewrite Hd.
    match goal with |- context [vo ?y] => destruct (vo y) as [|] end; cbn -[lit]; [|reflexivity].
    match goal with |- context [sv_add sv s ?q a] => destruct (sv_add sv s q a) as [s' [|]] end; reflexivity.
  Qed.
  (** ... renaming and moving: the first comma ends the old RDN *)
  Theorem C88_exact_rename_request c q s o rdn parent : ob_dn o = Some (rdn ++ lit "," ++ parent) -> ~ In (ch ",") rdn -> ob_conn o = true ->
    rename_request rdn parent c = Some q -> snd (fst (perform c (mk_world s false o))) = [q].
  Proof.
    intros Hd Hn Hc Hq. assert (Esp : split1 (ch ",") (rdn ++ lit "," ++ parent) = Ok (rdn, parent)) by exact (split1_first (ch ",") rdn parent Hn).
    destruct c; try discriminate Hq; injection Hq as <-; cbn [Model_Life.perform];
      unfold nothing, m_rename, m_mod_dn, l_mod_dn, require_ldap, check_open, self, lift, ret, raise, send, put_attrs, put_dn, put, bindM; cbn -[lit ch split1 local_rename]; rewrite Hc; cbn -[lit ch split1 local_rename];
      unfold dn_text; rewrite Hd, Esp; cbn -[lit ch split1 local_rename].
    all: match goal with |- context [sv_moddn ?v ?s0 ?d ?r ?k ?p] => destruct (sv_moddn v s0 d r k p) as [s' [|]] end; cbn -[lit ch split1 local_rename]; [|reflexivity].
    all: match goal with |- context [snd (local_rename ?a ?b ?c ?d ?e ?f)] => destruct (local_rename a b c d e f) as [d1 [|]] end; reflexivity.
  Qed.
  Theorem C88_exact_move_request (rdn parent r p : str) clean s o : ob_dn o = Some (rdn ++ lit "," ++ parent) -> ~ In (ch ",") rdn -> ob_conn o = true -> ~ In (ch ",") r ->
    snd (fst (perform (CMove (r ++ lit "," ++ p) clean) (mk_world s false o))) = [QModDn (rdn ++ lit "," ++ parent) r clean (Some p)].
  Proof.
    intros Hd Hn Hc Hr. assert (Esp : split1 (ch ",") (r ++ lit "," ++ p) = Ok (r, p)) by exact (split1_first (ch ",") r p Hr). pose proof (C88_exact_rename_request (CModDn r clean (Some p)) _ s o rdn parent Hd Hn Hc eq_refl) as E.
    etransitivity; [|exact E]. clear E.
    cbn [Model_Life.perform]. unfold nothing. assert (E : m_move sv lower idx (r ++ lit "," ++ p) clean (mk_world s false o) = m_mod_dn sv lower idx r clean (Some p) (mk_world s false o)).
    { unfold m_move, lift, bindM at 1. rewrite Esp. cbn [fst snd List.app]. match goal with |- context [m_mod_dn ?a ?b ?c ?d ?e ?f ?g] => generalize (m_mod_dn a b c d e f g) end. intros [[w1 t1] r1]. reflexivity. }
    unfold bindM at 1 2. now rewrite E.
  Qed.
  (** ... modifying: one change for each Mod, in order, if the list validates *)
  Theorem C88_exact_modify_request ms cs s o dn : ob_dn o = Some dn -> ob_conn o = true -> ms <> [] -> Forall2 valued ms cs ->
    snd (fst (perform (CModify ms) (mk_world s false o))) = match vm dn ms (Some (mk_lobj dn (ob_attrs o))) with Ok _ => [QModify dn cs] | Raise _ => [] end.
  Proof.
    intros Hd Hc Hne Hv. cbn [Model_Life.perform]. unfold nothing, m_modify, l_modify, require_ldap, self, lift, ret, raise, send, put_attrs, put, as_lobj, bindM.
    cbn -[lit local_modify ldap_modify]. rewrite Hc. cbn -[lit local_modify ldap_modify]. unfold dn_text. rewrite Hd.
    assert (B : exists n, build_changes flags ms = (ms, n, Ok cs)).
    { clear Hne. induction Hv as [|m c ms cs (v & l & Hm & ->) _ (n & IH)]; [now exists 0%nat|]. cbn [build_changes]. rewrite Hm, IH, andb_false_r. cbn. eexists. rewrite Hm. reflexivity. }
    destruct B as (n & B). unfold ldap_modify. rewrite B.
    destruct ms as [|m0 ms0]; [now elim Hne|]. destruct cs as [|c0 cs0]; [inversion Hv|].
    destruct (vm dn (m0 :: ms0) (Some (mk_lobj dn (ob_attrs o)))) as [|]; [|reflexivity]. cbn -[lit local_modify].
    match goal with |- context [sv_modify sv s ?d ?r] => destruct (sv_modify sv s d r) as [s' [|]] end; cbn -[lit local_modify]; [|reflexivity].
    match goal with |- context [snd (local_modify ?a ?b ?c ?d)] => destruct (local_modify a b c d) as [d1 [|]] end; reflexivity.
  Qed.

  (** C88, obj[a] = vs and del obj[a]: nothing is sent; exactly the values of a change, under any spelling
      of its name. *)
  Theorem C88_set_local s closed o a vs w' t r : dict_ok lower (ob_attrs o) ->
    perform (CSet a vs) (mk_world s closed o) = (w', t, r) ->
    t = [] /\ r = Ok VNone /\ w_s w' = s /\
    (forall k, lower k = lower a -> cid_get lower (ob_attrs (w_o w')) k = Ok vs) /\
    (forall k, lower k <> lower a -> cid_get lower (ob_attrs (w_o w')) k = cid_get lower (ob_attrs o) k).
  Proof.
    intros Hok H. cbn [Model_Life.perform] in H. unfold nothing, m_set, put_attrs, put, self, bindM in H. cbn in H. injection H as <- <- <-. cbn [w_s w_o ob_attrs].
    split; [reflexivity|]. split; [reflexivity|]. split; [reflexivity|].
    split; intros k Hk; rewrite (get_set lower _ _ _ _ Hok).
    - now destruct (str_eqb_spec (lower a) (lower k)) as [_|X]; [|elim X; now symmetry].
    - destruct (str_eqb_spec (lower a) (lower k)) as [X|_]; [|reflexivity]. elim Hk. now symmetry.
  Qed.
  Theorem C88_del_local s closed o a w' t r : dict_ok lower (ob_attrs o) ->
    perform (CDel a) (mk_world s closed o) = (w', t, r) ->
    t = [] /\ w_s w' = s /\
    match cid_get lower (ob_attrs o) a with
    | Ok _ => r = Ok VNone /\ (forall k, lower k = lower a -> cid_get lower (ob_attrs (w_o w')) k = Raise KeyError) /\
              (forall k, lower k <> lower a -> cid_get lower (ob_attrs (w_o w')) k = cid_get lower (ob_attrs o) k)
    | Raise e => r = Raise e /\ forall k, cid_get lower (ob_attrs (w_o w')) k = cid_get lower (ob_attrs o) k
    end.
  Proof.
    intros Hok H. cbn [Model_Life.perform] in H. unfold nothing, m_del, put_attrs, put, self, lift, bindM in H. cbn in H.
    destruct (cid_get lower (ob_attrs o) a) as [v|e] eqn:E.
    - destruct (del_present lower _ _ _ Hok E) as (d' & Ed & _ & Hg). rewrite Ed in H. cbn in H. injection H as <- <- <-. cbn [w_s w_o ob_attrs].
      split; [reflexivity|]. split; [reflexivity|]. split; [reflexivity|]. split; intros k Hk; rewrite Hg.
      + now destruct (str_eqb_spec (lower a) (lower k)) as [_|X]; [|elim X; now symmetry].
      + destruct (str_eqb_spec (lower a) (lower k)) as [X|_]; [|reflexivity]. elim Hk. now symmetry.
    - assert (Ed : cid_del lower (ob_attrs o) a = (ob_attrs o, Raise e)).
      { unfold cid_del. unfold cid_get in E. destruct (dget (ckeys (ob_attrs o)) (lower a)) as [k'|]; [|now injection E as <-].
        destruct (dget (cdata (ob_attrs o)) k'); [discriminate E|now injection E as <-]. }
      rewrite Ed in H. cbn in H. injection H as <- <- <-. cbn [w_s w_o ob_attrs]. auto.
  Qed.

  (** C88, validate() and validate_modify(): nothing is sent or changed, and the answer is what the validators say about this
      object - its DN, its attributes as they are now, and the modifications given. *)
  Theorem C88_validate s closed o dn : ob_dn o = Some dn -> ob_conn o = true ->
    (perform CValidate (mk_world s closed o) = (mk_world s closed o, [], let* _ := vo (mk_lobj dn (ob_attrs o)) in Ok VNone)) /\
    (forall ms, perform (CValidateModify ms) (mk_world s closed o) =
       (mk_world s closed o, [], let* _ := vm dn ms (Some (mk_lobj dn (ob_attrs o))) in Ok VNone)).
  Proof.
    intros Hd Hc. cbn [Model_Life.perform]. unfold nothing, m_validate, m_validate_modify, need_conn, self, lift, ret, raise, bindM. cbn. rewrite Hc. cbn.
    unfold as_lobj, dn_text. rewrite Hd. split; [destruct (vo _); reflexivity|]. intros ms. destruct (vm _ _ _); reflexivity.
  Qed.

  (** C88, find below a subtree: one search with the RDN as filter; its answer decides, and only a single
      entry is returned. *)
  Theorem C88_find_one s o dn rdn ats w' t r : ob_conn o = true -> ob_dn o = Some dn -> ob_scope o = Some SubScope -> In (ch "=") rdn ->
    perform (CFind rdn ats) (mk_world s false o) = (w', t, r) ->
    let f := lit "(" ++ rdn ++ lit ")" in
    match parse_filter STANDARD f with
    | Raise e => t = [] /\ r = Raise e
    | Ok _ =>
        t = [QSearch dn SubScope (Some f) ats 2] /\
        match sv_search s dn SubScope (Some f) ats 2 with
        | None => r = Raise LDAPError
        | Some [] => r = Raise NoSearchResults
        | Some [(d, a)] => exists x, r = Ok (VObjs [x]) /\ ob_dn x = Some d /\ ob_conn x = true /\ ob_attrs x = cid_update lower cid_empty (entry_dict a)
        | Some _ => r = Raise MultipleSearchResults
        end
    end.
  Proof.
    intros Hc Hd Hsc Hr H f. cbn [Model_Life.perform] in H. unfold m_find, m_search_with, l_search, require_ldap, check_open, self, lift, ret, raise, send_search, bindM in H.
    cbn -[lit parse_filter] in H. rewrite Hc in H. cbn -[lit parse_filter] in H. rewrite Hsc in H. cbn -[lit parse_filter] in H.
    rewrite (rdn_full o rdn Hr) in H. cbn -[lit parse_filter] in H. rewrite Hc in H. cbn -[lit parse_filter] in H. rewrite Hsc in H. cbn -[lit parse_filter] in H. unfold dn_text in H. rewrite Hd in H. fold f in H.
    destruct (parse_filter STANDARD f) as [pf|x]; cbn -[lit parse_filter] in H; [|injection H as _ <- <-; auto].
    destruct (sv_search s dn SubScope (Some f) ats 2) as [[|[d a] [|y l]]|]; cbn -[lit parse_filter] in H; injection H as _ <- <-; (split; [reflexivity|]); auto.
    eexists. split; [reflexivity|]. auto.
  Qed.

  (** C88, sessions: if all objects lie within a subtree (for any reflexive and transitive reading of being
      below that includes prefixing an RDN) and the server answers reads and searches with entries from
      where it was asked, then without renames every request of every later history, of these objects and
      of all objects obtained through them, is about something in the subtree. *)
  Theorem C88_session_stays_inside (under : str -> str -> Prop) (base : str) :
    (forall d, under d d) -> (forall a b c, under a b -> under b c -> under a c) -> (forall d r, under d (r ++ lit "," ++ d)) ->
    (forall s d ats d' a, sv_read sv s d ats = Some (d', a) -> under d d') ->
    (forall s b sc f ats n l d' a, sv_search s b sc f ats n = Some l -> In (d', a) l -> under b d') ->
    forall ss es ss' out,
    (forall o, In o (ss_objs ss) -> ob_conn o = true -> exists d, ob_dn o = Some d /\ under base d) ->
    (forall i c, In (Do i c) es -> ~ renames c) ->
    session_run ss es = (ss', out) ->
    forall t r q, In (t, r) out -> In q t -> under base (about q).
  Proof.
    intros U1 U2 U3 HR HS ss es ss' out Ho Hn H t r q Ht Hq.
    destruct (run_inside sv sv_search lower idx strict flags syn vo vm under base U1 U2 U3 HR HS es Hn ss ss' out H) as [_ F].
    - apply Forall_forall. intros o Hin Hc. destruct (Ho o Hin Hc) as (d & Ed & Hd). unfold dn_text. now rewrite Ed.
    - rewrite Forall_forall in F. pose proof (F _ Ht) as F1. cbn [fst] in F1. rewrite Forall_forall in F1. now apply F1.
  Qed.

  (** C88, after the connection has been unbound no object sends anything any more. *)
  Theorem C88_nothing_after_unbind ss es1 es2 ss' out :
    session_run ss (es1 ++ Unbind :: es2) = (ss', out) ->
    forall k t r, (List.length es1 <= k)%nat -> nth_error out k = Some (t, r) -> t = [].
  Proof.
    revert ss ss' out. induction es1 as [|e es1 IH]; intros ss ss' out H k t r Hk Ho; cbn [List.app List.length] in *; cbn [Model_Life.session_run] in H.
    - destruct (step ss Unbind) as [[ss1 t1] r1] eqn:E. cbn in E. injection E as <- <- <-.
      destruct (session_run _ es2) as [ss2 out2] eqn:R. injection H as <- <-.
      destruct (run_closed sv sv_search lower idx strict flags syn vo vm es2 _ _ _ R eq_refl) as [F _]. destruct k as [|k]; cbn in Ho; [now injection Ho as <- _|].
      rewrite Forall_forall in F. exact (F _ (nth_error_In _ _ Ho)).
    - destruct (step ss e) as [[ss1 t1] r1] eqn:E. destruct (session_run ss1 (es1 ++ Unbind :: es2)) as [ss2 out2] eqn:R. injection H as <- <-.
      destruct k as [|k]; [lia|]. cbn in Ho. exact (IH _ _ _ R k t r (le_S_n _ _ Hk) Ho).
  Qed.
End Life.

Print Assumptions C86_never_reaches_the_server.
Print Assumptions C86_call.
Print Assumptions C86_raises.
Print Assumptions C86_returns_only_local.
Print Assumptions C87_delete.
Print Assumptions C87_final.
Print Assumptions C87_refuted_obj.
Print Assumptions C88_call.
Print Assumptions C88_exact_request.
Print Assumptions C88_exact_child_request.
Print Assumptions C88_exact_add_request.
Print Assumptions C88_exact_rename_request.
Print Assumptions C88_exact_move_request.
Print Assumptions C88_exact_modify_request.
Print Assumptions C88_set_local.
Print Assumptions C88_del_local.
Print Assumptions C88_find_one.
Print Assumptions C88_session_stays_inside.
Print Assumptions C88_nothing_after_unbind.

(** ** A session *)
Definition x_lower := ascii_lower.
Definition x_sv := ex_server x_lower.
(** a search that finds one entry below the base *)
Definition x_search (s : store) (b : str) (sc : scope) (f : option str) (ats : option (list str)) (n : N)
  : option (list (str * list (str * list str))) := Some [(lit "cn=sub," ++ b, [(lit "cn", [lit "sub"])])].
Definition x_bob := lit "cn=bob,ou=people,dc=x".
Definition x_dir : store :=
  [ (x_bob, [ (lit "objectClass", [lit "person"]); (lit "cn", [lit "bob"]); (lit "SN", [lit "smith"]) ]);
    (lit "ou=staff,dc=x", [ (lit "ou", [lit "staff"]) ]) ].
Definition x_obj (conn : bool) := mk_obj (Some x_bob) conn cid_empty (Some SubScope) (Some (lit "cn")).
Definition x_events : list (@event store) :=
  [ Do 0%nat (CAddAttrs [(lit "mail", VList [lit "b@x"])]); Do 1%nat CDelete; Do 0%nat (CSearch None None); Do 2%nat (CRefresh None); Do 0%nat CDelete;
    Do 0%nat (CRefresh None); Unbind; Do 2%nat (CRefresh None) ].
Definition x_run := session_run x_sv x_search x_lower ex_idx false (mkflags false true false) STANDARD (fun _ => Ok tt) (fun _ _ _ => Ok tt)
  (mk_session x_dir false [x_obj true; x_obj false]) x_events.

Example C86_nonvacuous : unconnected [x_obj true; x_obj false] 1 /\
  nth_error (snd x_run) 1 = Some ([], Raise RuntimeError) /\ List.length (snd x_run) = 8%nat /\
  offline_error (CAddAttrs []) = Some AttributeError /\ offline_error (CModify []) = Some RuntimeError.
Proof. split; [exists (x_obj false); split; reflexivity|]. repeat split; vm_compute; reflexivity. Qed.
Example C87_nonvacuous :
  nth_error (snd x_run) 4 = Some ([QDelete x_bob], Ok VNone) /\ nth_error (snd x_run) 5 = Some ([], Raise RuntimeError) /\
  option_map (fun o => (ob_dn o, ob_conn o)) (nth_error (ss_objs (fst x_run)) 0) = Some (None, false) /\
  dget (ss_s (fst x_run)) x_bob = None.
Proof. repeat split; vm_compute; reflexivity. Qed.
(** find on bob, whose search finds one entry *)
Definition x_find := perform x_sv x_search x_lower ex_idx false (mkflags false true false) STANDARD (fun _ => Ok tt) (fun _ _ _ => Ok tt)
  (CFind (lit "cn=sub") None) (mk_world x_dir false (x_obj true)).
Example C88_nonvacuous_find :
  (exists w x, x_find = (w, [QSearch x_bob SubScope (Some (lit "(cn=sub)")) None 2], Ok (VObjs [x])) /\ ob_dn x = Some (lit "cn=sub," ++ x_bob)) /\
  is_ok (parse_filter STANDARD (lit "(cn=sub)")) = true /\ dict_ok x_lower (ob_attrs (x_obj true)).
Proof.
  split; [eexists _, _; split; vm_compute; reflexivity|]. split; [vm_compute; reflexivity|]. repeat split; try constructor; easy.
Qed.
Example C88_nonvacuous :
  map fst (snd x_run) =
    [ [QRead x_bob (Some [lit "mail"]); QModify x_bob [mkchange ADD (lit "mail") [lit "b@x"]]]; [];
      [QSearch x_bob SubScope None None 0]; [QRead (lit "cn=sub," ++ x_bob) None]; [QDelete x_bob]; []; []; [] ] /\
  (forall d, at_or_below d d) /\ (forall a b c, at_or_below a b -> at_or_below b c -> at_or_below a c) /\ (forall d r, at_or_below d (r ++ lit "," ++ d)) /\
  (forall s d ats d' a, sv_read x_sv s d ats = Some (d', a) -> at_or_below d d') /\
  (forall s b sc f ats n l d' a, x_search s b sc f ats n = Some l -> In (d', a) l -> at_or_below b d') /\
  (forall o, In o [x_obj true; x_obj false] -> ob_conn o = true -> exists d, ob_dn o = Some d /\ at_or_below (lit "dc=x") d) /\
  (forall i c, In (Do i c) x_events -> ~ renames c).
Proof.
  split; [vm_compute; reflexivity|]. split; [now left|]. split.
  { intros a b c [->|[r ->]] [->|[r' ->]]; [now left|right; now exists r'|right; now exists r|right]. exists (r' ++ lit "," ++ r). now rewrite <- !app_assoc. }
  split; [right; now exists r|]. split.
  { intros s d ats d' a H. cbn in H. destruct (dget s d); [|discriminate]. cbn in H. injection H as <- _. now left. }
  split.
  { intros s b sc f ats n l d' a H HI. injection H as <-. destruct HI as [E|[]]. injection E as <- _. right. now exists (lit "cn=sub"). }
  split.
  - intros o [<-|[<-|[]]] Hc; [|discriminate Hc]. exists x_bob. split; [reflexivity|]. right. exists (lit "cn=bob,ou=people"). reflexivity.
  - intros i c H. repeat (destruct H as [H|H]; [try discriminate H; injection H as _ <-; exact (fun x => x)|]). destruct H.
Qed.
Example C88_nonvacuous_exact :
  ob_dn (x_obj true) = Some (lit "cn=bob" ++ lit "," ++ lit "ou=people,dc=x") /\ ~ In (ch ",") (lit "cn=bob") /\
  rename_request (lit "cn=bob") (lit "ou=people,dc=x") (CRename (lit "cn=rob") true) = Some (QModDn x_bob (lit "cn=rob") true (Some (lit "ou=people,dc=x"))) /\
  Forall2 valued [mkmod ADD (lit "mail") (VList [lit "b@x"])] [mkchange ADD (lit "mail") [lit "b@x"]].
Proof.
  split; [reflexivity|]. split; [vm_compute; intuition discriminate|]. split; [reflexivity|]. constructor; [|constructor]. now exists (lit "b@x"), [].
Qed.
Print Assumptions C88_validate.
