(** * C76: searching for netgroups *)
From Verif Require Import PyBase Model_Filter Spec_Filter Proofs_Filter Proofs_Filter2 Props_Filter Model_Controls Spec_Controls Proofs_Controls Props_Controls
  Model_Search Model_Request Spec_Request Proofs_Request Props_Request Model_NgSearch Spec_NgSearch Proofs_NgSearch.

(** A search that returns has sent one request: for the tagged object's DN and scope, for the
    attributes named or else those of the class, without a limit; its filter is what
    "(&(objectClass=nisNetgroup)F)" means in the connection's filter syntax. *)
Theorem C76_request_partial e tags must may F a h q : ng_search e tags must may F a = (Ok h, q) ->
  exists o w sc, dget tags (lit "netgroup_base") = Some o /\ q = [w] /\ ro_scope o = Some sc /\
    w_base w = ro_dn o /\ w_scope w = sc /\ w_size w = 0%Z /\ w_types_only w = false /\ ng_attrs_asked must may a (w_attrs w) /\
    means (e_syntax e) (lit "(&(objectClass=nisNetgroup)" ++ F ++ lit ")") (w_filter w).
Proof.
  unfold ng_search, tagged, TAG. destruct (dget tags (lit "netgroup_base")) as [o|] eqn:D; [|discriminate]. intros H.
  destruct (C71_search_request e o _ _ _ [] h q (NoDup_nil _) H) as (w & sc & E & Es & Eb & Ec & A).
  exists o, w, sc. destruct A as [A1 A2 A3 A4 A5 A6 A7 A8 A9 A10 A11 A12]. cbn [a_limit a_attrs_only no_more m_limit m_attrs_only] in *.
  repeat (split; [assumption || reflexivity|]). split.
  - unfold attrs_asked in A8. cbn [a_attrs] in A8. destruct a as [|x|l]; exact A8.
  - unfold filter_asked in A7. cbn [a_filter a_syntax no_more m_syntax] in A7. destruct A7 as (syn & G & M). apply given_iff in G. cbn [or_default] in G. subst syn.
    assert (T : netgroup_filter F = lit "(&(objectClass=nisNetgroup)" ++ F ++ lit ")") by reflexivity. rewrite T in M. exact M.
Qed.

(** For one or more filters in the standard syntax - and for none - and a connection with the
    standard or the unified syntax: a netgroup, and all of them. *)
Theorem C76_standard_filters_partial e tags must may F fs a h q : In (e_syntax e) [STANDARD; UNIFIED] -> std_texts fs F ->
  ng_search e tags must may F a = (Ok h, q) -> map w_filter q = [FAnd (is_netgroup :: fs)].
Proof.
  intros Hs HF H. apply C76_request_partial in H as (o & w & sc & _ & -> & _ & _ & _ & _ & _ & _ & M). cbn [map]. f_equal.
  assert (S : std_text (FAnd (is_netgroup :: fs)) (whole F)) by (apply std_ng; eauto). apply standard_iff in S.
  destruct Hs as [Hs|[Hs|[]]]; rewrite <- Hs in M; cbn [means] in M.
  - apply standard_iff in M. change (lit "(&(objectClass=nisNetgroup)" ++ F ++ lit ")") with (whole F) in M. congruence.
  - apply standard_unified in S. change (lit "(&(objectClass=nisNetgroup)" ++ F ++ lit ")") with (whole F) in M. congruence.
Qed.
Theorem C76_one_filter_partial e tags must may F f a h q : In (e_syntax e) [STANDARD; UNIFIED] -> std_text f F ->
  ng_search e tags must may F a = (Ok h, q) -> map w_filter q = [FAnd [is_netgroup; f]].
Proof.
  intros Hs HF. apply C76_standard_filters_partial; [exact Hs|]. rewrite <- (app_nil_r F). now apply sts_cons; [|constructor].
Qed.

(** A text that closes no parenthesis it has not opened - all text, under the standard syntax - can
    only narrow the search: it is sent only if it is a sequence of standard filters, and no entry but
    netgroups can be returned. *)
Theorem C76_netgroups_only_partial e tags must may F a h q : e_syntax e = STANDARD \/ closes_what_it_opens F ->
  ng_search e tags must may F a = (Ok h, q) ->
  exists fs, std_texts fs F /\ map w_filter q = [FAnd (is_netgroup :: fs)] /\ Forall (fun w => netgroups_only (w_filter w)) q.
Proof.
  intros Hc H. apply C76_request_partial in H as (o & w & sc & _ & -> & _ & _ & _ & _ & _ & _ & M).
  change (lit "(&(objectClass=nisNetgroup)" ++ F ++ lit ")") with (whole F) in M.
  assert (S : std_text (w_filter w) (whole F)).
  { destruct (e_syntax e); cbn [means] in M.
    - exact M.
    - rewrite simple_never in M. discriminate.
    - destruct Hc as [Hc|Hc]; [discriminate|]. now apply unified_closed in M.
    - destruct M. }
  apply std_ng in S as (fs & E & HF). exists fs. split; [exact HF|]. cbn [map]. rewrite E. split; [reflexivity|].
  constructor; [rewrite E; apply and_only|constructor].
Qed.
(** ... in particular a comparison with escaped user input, whatever the input. *)
Theorem C76_escaped_input e tags must may attr s a h q : attr_text attr ->
  ng_search e tags must may (user_test attr s) a = (Ok h, q) ->
  map w_filter q = [FAnd [is_netgroup; FEq attr (escape s)]] /\ Forall (fun w => netgroups_only (w_filter w)) q.
Proof.
  intros Ha H. assert (NA := noparen_attr attr Ha).
  assert (NE : noparen (escape s)).
  { split; intros X; apply C13_no_special_characters in X; apply X; vm_compute; auto 20. }
  assert (C : closes_what_it_opens (user_test attr s)).
  { intros p r E. assert (X : user_test attr s = (lit "(" ++ attr ++ lit "=" ++ escape s) ++ [ch ")"]) by (unfold user_test; now rewrite <- !app_assoc).
    assert (Y : noparen (attr ++ lit "=" ++ escape s)) by (apply noparen_app; [exact NA|apply noparen_app; [np|exact NE]]).
    destruct r as [|x r _] using rev_ind.
    - rewrite app_nil_r in E. subst p. assert (B : bal (user_test attr s)).
      { unfold user_test. change (lit "(" ++ attr ++ lit "=" ++ escape s ++ lit ")") with (lit "(" ++ attr ++ lit "=" ++ escape s ++ lit ")").
        replace (attr ++ lit "=" ++ escape s ++ lit ")") with ((attr ++ lit "=" ++ escape s) ++ lit ")") by now rewrite <- !app_assoc.
        now apply bal_paren, bal_noparen. }
      unfold bal in B. lia.
    - rewrite X, (app_assoc p) in E. apply app_inj_tail in E as [E _]. assert (Z : count (ch ")") (p ++ r) = 0).
      { rewrite <- E. apply count_not. intros I. apply in_app_or in I as [[I|[]]|I]; [discriminate|]. now apply Y. }
      rewrite count_app in Z. lia. }
  destruct (C76_netgroups_only_partial e tags must may _ a h q (or_intror C) H) as (fs & HF & E & A). split; [|exact A].
  rewrite E. f_equal. f_equal. f_equal.
  (* the texts of [fs] are the single test *)
  assert (V : forall F, parse_unified (user_test attr s) = Ok F -> F = FEq attr (escape s)) by (intros F; now apply C13_single_equality_test).
  remember (user_test attr s) as T eqn:ET. destruct HF as [|f l s1 ss Hs Hss].
  - exfalso. unfold user_test in ET. discriminate ET.
  - assert (ss = [] /\ l = []) as [-> ->].
    { destruct Hss as [|g l s2 ss Hs2 Hss]; [auto|]. exfalso.
      destruct (std_text_ne f s1 Hs) as (r1 & -> & _). destruct (std_text_ne g s2 Hs2) as (r2 & -> & _).
      unfold user_test in ET. cbn [app] in ET. apply (f_equal (count (ch "("))) in ET.
      change (ch "(" :: r1 ++ ch "(" :: r2 ++ ss) with ([ch "("] ++ r1 ++ [ch "("] ++ r2 ++ ss) in ET.
      rewrite !count_app in ET. rewrite (count_not _ attr (proj1 NA)), (count_not _ (escape s) (proj1 NE)) in ET.
      change (count (ch "(") [ch "("]) with 1 in ET. change (count (ch "(") (lit "(")) with 1 in ET.
      change (count (ch "(") (lit "=")) with 0 in ET. change (count (ch "(") (lit ")")) with 0 in ET. lia. }
    rewrite app_nil_r in V. f_equal. apply V, standard_unified, standard_iff. exact Hs.
Qed.

(** It is sent whenever the tagged object can be searched and the filters are standard: any
    attributes that a search may ask for, an open connection, settings in the protocol's range. *)
Theorem C76_accepted_partial e tags must may F fs a o sc : dget tags (lit "netgroup_base") = Some o -> ro_conn o = true -> ro_scope o = Some sc ->
  e_unbound e = false -> in_range (e_timeout e) -> coherent reserved_kwds (e_reg e) -> In (e_syntax e) [STANDARD; UNIFIED] -> std_texts fs F ->
  (forall l, ng_attrs_asked must may a l -> ~ In [] l /\ (forall r, In (ch "@" :: r) l -> e_feature e = Ok true)) ->
  exists h, fst (ng_search e tags must may F a) = Ok h.
Proof.
  intros D Hc Hs Hu Ht Hr Hy HF Ha. unfold ng_search, tagged, TAG. rewrite D. unfold obj_search. rewrite Hc, Hs. cbn [negb].
  apply C70_accepted_iff; cbn [a_kwds]; [apply set_defaults_NoDup; constructor|].
  assert (N1 : ~ is_control (e_reg e) k_scope) by (apply (reserved_no_control _ _ _ Hr); vm_compute; auto 40).
  assert (N2 : ~ is_control (e_reg e) k_rdn) by (apply (reserved_no_control _ _ _ Hr); vm_compute; auto 40).
  assert (K : forall k v, In (k, v) (set_defaults o []) -> k = k_scope \/ k = k_rdn).
  { intros k v [H|[H|[]]]; injection H as <- _; auto. }
  split; cbn [a_limit a_timeout a_kwds no_more m_timeout m_limit].
  - exact Hu.
  - vm_compute. split; intro; discriminate.
  - intros t G. apply given_iff in G. cbn [or_default] in G. now subst t.
  - exists (FAnd (is_netgroup :: fs)). unfold filter_asked. cbn [a_filter a_syntax no_more m_syntax]. exists (e_syntax e). split; [now apply given_iff|].
    assert (S : std_text (FAnd (is_netgroup :: fs)) (whole F)) by (apply std_ng; eauto).
    destruct Hy as [<-|[<-|[]]]; cbn [means]; [exact S|now apply standard_unified, standard_iff].
  - unfold attrs_asked. cbn [a_attrs]. intros l Hl. apply Ha. destruct a as [|x|l']; exact Hl.
  - apply Forall_forall. intros [k v] Hi c Dc. exfalso. cbn [fst] in Dc.
    destruct (K k v Hi) as [-> | ->]; [apply N1|apply N2]; exists c; exact Dc.
  - intros k v Hi. unfold others_of in Hi. apply List.filter_In in Hi as [Hi _]. destruct (K k v Hi) as [-> | ->]; vm_compute; auto 10.
Qed.
Theorem C76_untagged e tags must may F a : dget tags (lit "netgroup_base") = None -> ng_search e tags must may F a = (Raise TagError, []) /\
  forall cn, ng_get e tags must may cn a = (Raise TagError, []).
Proof. intros D. unfold ng_search, ng_get, tagged, TAG. now rewrite D. Qed.
(** Getting a netgroup is finding it below the tagged object, with the attributes of the class unless
    others are named (C71 says what is sent). *)
Theorem C76_get e tags must may cn o : dget tags (lit "netgroup_base") = Some o ->
  ng_get e tags must may cn NoAttrs = obj_find e o cn (Attrs (must ++ may)) [] /\
  (forall x, ng_get e tags must may cn (OneAttr x) = obj_find e o cn (OneAttr x) []) /\
  (forall l, ng_get e tags must may cn (Attrs l) = obj_find e o cn (Attrs l) []).
Proof. intros D. unfold ng_get, tagged, TAG. rewrite D. auto. Qed.

(** Refuted: text that closes the parenthesis opened for it takes the rest of the text out of the
    conjunction, and then other entries are returned. *)
Definition ng_base : rtags := [(lit "netgroup_base", mk_robj (lit "ou=ng,dc=x") true (Some SubScope) (Some (lit "cn")))].
Definition ng_must : list str := [lit "cn"; lit "objectClass"].
Definition ng_may : list str := [lit "nisNetgroupTriple"; lit "memberNisNetgroup"; lit "description"].
Definition ex_search (e : env) (F : string) : res handle * list wire_search := ng_search e ng_base ng_must ng_may (lit F) NoAttrs.
Theorem C76_refuted_other_entries :
  exists h w, ex_search ex_env "(cn=a)) OR ((cn=b)" = (Ok h, [w]) /\
    w_filter w = FOr [FAnd [is_netgroup; FEq (lit "cn") (lit "a")]; FEq (lit "cn") (lit "b")] /\ ~ netgroups_only (w_filter w).
Proof.
  eexists _, _. split; [vm_compute; reflexivity|]. split; [vm_compute; reflexivity|]. intros H.
  specialize (H (fun f => match f with FEq _ v => if str_eqb v (lit "b") then TRUE else FALSE | _ => FALSE end)).
  vm_compute in H. specialize (H eq_refl). discriminate H.
Qed.
(** Refuted: filters that a search accepts are not accepted here - those written with AND, OR and NOT
    never, and none at all by a connection with the simple syntax. *)
Theorem C76_refuted_simple_syntax e tags must may F a : e_syntax e = SIMPLE -> forall h, fst (ng_search e tags must may F a) <> Ok h.
Proof.
  intros Hs h H. destruct (ng_search e tags must may F a) as [r q] eqn:E. cbn [fst] in H. subst r.
  apply C76_request_partial in E as (o & w & sc & _ & _ & _ & _ & _ & _ & _ & _ & M). rewrite Hs in M. cbn [means] in M.
  change (lit "(&(objectClass=nisNetgroup)" ++ F ++ lit ")") with (whole F) in M. rewrite simple_never in M. discriminate.
Qed.
Theorem C76_refuted_logic_not_accepted :
  parse_unified (lit "(cn=a) AND (description=b)") = Ok (FAnd [FEq (lit "cn") (lit "a"); FEq (lit "description") (lit "b")]) /\
  ex_search ex_env "(cn=a) AND (description=b)" = (Raise LDAPError, []) /\
  ex_search ex_env "NOT (cn=a)" = (Raise LDAPError, []) /\ ex_search ex_env "cn=a" = (Raise LDAPError, []).
Proof. vm_compute. repeat (split; [reflexivity|]). reflexivity. Qed.

Example C76_nonvacuous :
  ex_search ex_env "(cn=a*)(!(description=b))" =
   (Ok (mk_h true false (set_defaults (mk_robj (lit "ou=ng,dc=x") true (Some SubScope) (Some (lit "cn"))) [])),
    [mk_ws (lit "ou=ng,dc=x") SubScope 3 0 30 false
       (FAnd [is_netgroup; FSubs (lit "cn") [(Initial, lit "a")]; FNot (FEq (lit "description") (lit "b"))])
       (map lit ["cn"; "objectClass"; "nisNetgroupTriple"; "memberNisNetgroup"; "description"]%string) []]) /\
  std_texts [FSubs (lit "cn") [(Initial, lit "a")]; FNot (FEq (lit "description") (lit "b"))] (lit "(cn=a*)(!(description=b))") /\
  closes_what_it_opens (lit "(cn=a*)(!(description=b))") /\ ~ closes_what_it_opens (lit "(cn=a)) OR ((cn=b)").
Proof.
  assert (S : std_texts [FSubs (lit "cn") [(Initial, lit "a")]; FNot (FEq (lit "description") (lit "b"))] (lit "(cn=a*)(!(description=b))")).
  { apply (sts_cons _ _ (lit "(cn=a*)") (lit "(!(description=b))")); [apply standard_iff; vm_compute; reflexivity|].
    apply (sts_cons _ _ (lit "(!(description=b))") []); [apply standard_iff; vm_compute; reflexivity|constructor]. }
  split; [vm_compute; reflexivity|]. split; [exact S|]. split.
  - intros p r E. assert (P : forallb (fun n => Nat.leb (count (ch ")") (firstn n (lit "(cn=a*)(!(description=b))"))) (count (ch "(") (firstn n (lit "(cn=a*)(!(description=b))"))))
      (seq 0 26) = true) by (vm_compute; reflexivity).
    rewrite forallb_forall in P. assert (Hl : List.length p <= 25).
    { apply (f_equal (@List.length N)) in E. rewrite app_length in E. change (List.length (lit "(cn=a*)(!(description=b))")) with 25 in E. lia. }
    specialize (P (List.length p) ltac:(apply in_seq; lia)). rewrite E, firstn_app, Nat.sub_diag, firstn_all, app_nil_r in P. now apply Nat.leb_le.
  - intros H. specialize (H (lit "(cn=a))") (lit " OR ((cn=b)") eq_refl). vm_compute in H. lia.
Qed.

Print Assumptions C76_request_partial.
Print Assumptions C76_standard_filters_partial.
Print Assumptions C76_one_filter_partial.
Print Assumptions C76_netgroups_only_partial.
Print Assumptions C76_escaped_input.
Print Assumptions C76_accepted_partial.
Print Assumptions C76_untagged.
Print Assumptions C76_get.
Print Assumptions C76_refuted_other_entries.
Print Assumptions C76_refuted_simple_syntax.
Print Assumptions C76_refuted_logic_not_accepted.
