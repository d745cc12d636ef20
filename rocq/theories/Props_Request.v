(** * C70, C71: the request a search sends; methods relative to an object *)
From Verif Require Import PyBase Model_Filter Spec_Filter Proofs_Filter Proofs_Filter2 Props_Filter Model_Controls Spec_Controls Proofs_Controls Props_Controls
  Model_Search Model_Request Spec_Request Proofs_Request.

(** ** C70 *)

(** For every connection and all arguments: a search that returns has sent one request, and it
    carries exactly what was asked: every argument given, the connection's setting for those left
    out, one control for each keyword that names one. *)
Theorem C70_request e a h q : NoDup (map fst (a_kwds a)) -> ldap_search e a = (Ok h, q) -> exists w, q = [w] /\ asked e a w h.
Proof. intros Hd H. destruct (search_asked e a h q Hd H) as (w & E & _ & A). eauto. Qed.

(** A search that raises has sent nothing. *)
Theorem C70_refused_sends_nothing e a x : fst (ldap_search e a) = Raise x -> snd (ldap_search e a) = [].
Proof. unfold ldap_search. destruct (build e a) as [[w h]|y]; [discriminate|reflexivity]. Qed.

(** It returns exactly when the connection is open, both limits are in the protocol's range, the
    filter can be read in the syntax in force, no attribute is empty, object class attributes are
    asked for only where the server lists the feature, the controls are admissible and all other
    keywords are object keywords. *)
Theorem C70_accepted_iff e a : NoDup (map fst (a_kwds a)) -> ((exists h, fst (ldap_search e a) = Ok h) <-> possible e a).
Proof.
  intros Hd. split.
  - intros [h H]. destruct (ldap_search e a) as [r q] eqn:E. cbn [fst] in H. subst r. now destruct (search_asked e a h q Hd E) as (w & _ & P & _).
  - intros P. destruct (build e a) as [[w h]|x] eqn:E.
    { exists h. unfold ldap_search. rewrite E. reflexivity. }
    exfalso. destruct (po_filter _ _ P) as [f Hf].
    destruct (proj2 (C24_controls_exactly (e_reg e) (lit "search") (e_supported e) (e_criticality e) false (a_kwds a) Hd) (po_ctrls _ _ P) ltac:(discriminate)) as [cs Ec].
    destruct (proj1 (C24_controls_exactly _ _ _ _ _ _ Hd) _ _ Ec) as (_ & Fc & _).
    assert (B : build e a = Ok (mk_ws (a_base a) (a_scope a) (or_default (a_deref a) (e_deref e)) (a_limit a) (or_default (a_timeout a) (e_timeout e))
       (a_attrs_only a) f (attr_list (a_attrs a)) cs,
       mk_h (or_default (a_refs a) (e_refs e)) (or_default (a_follow a) (e_follow e)) (others_of (e_reg e) (a_kwds a)))).
    { apply build_iff; [exact Hd|]. split; [exact P|].
      split; cbn [w_base w_scope w_types_only w_size w_time w_deref w_filter w_attrs w_ctrls h_refs h_follow h_obj_kwds]; auto;
        try (now apply given_iff); now apply attrs_asked_iff. }
    congruence.
Qed.

(** The request is determined by what was asked. *)
Theorem C70_unique e a w1 h1 w2 h2 : NoDup (map fst (a_kwds a)) -> possible e a -> asked e a w1 h1 -> asked e a w2 h2 -> w1 = w2 /\ h1 = h2.
Proof.
  intros Hd P A B. pose proof (proj2 (build_iff e a w1 h1 Hd) (conj P A)) as E1. pose proof (proj2 (build_iff e a w2 h2 Hd) (conj P B)) as E2.
  rewrite E1 in E2. injection E2 as -> ->. auto.
Qed.

(** What is raised: ConnectionUnbound first of all; LDAPError for a filter that cannot be read or an
    unknown syntax; LDAPSupportError for an object class attribute without the feature; TypeError
    for a keyword that is neither a control nor an object keyword - each if nothing before it is wrong. *)
Theorem C70_unbound e a : e_unbound e = true -> ldap_search e a = (Raise ConnectionUnbound, []).
Proof. intros H. unfold ldap_search, build. rewrite H. reflexivity. Qed.
Theorem C70_unreadable_filter e a text : e_unbound e = false -> in_range (a_limit a) -> (forall t, given (a_timeout a) (e_timeout e) t -> in_range t) ->
  a_filter a = Some text -> (forall f, ~ filter_asked e a f) -> ldap_search e a = (Raise LDAPError, []).
Proof.
  intros Hu Hs Ht Ef Hn. unfold ldap_search, build. rewrite Hu. pose proof (asked_filter_iff e a) as Hf. rewrite Ef in *. cbn beta iota in *.
  rewrite (proj2 (int0max_iff _ _) (conj Hs eq_refl)). cbn [bind].
  rewrite (proj2 (int0max_iff _ _) (conj (Ht _ (proj2 (given_iff _ _ _) eq_refl)) eq_refl)). cbn [bind].
  destruct (parse_filter (or_default (a_syntax a) (e_syntax e)) text) as [f|x] eqn:E; [exfalso; apply (Hn f), Hf; reflexivity|].
  cbn [bind]. f_equal. f_equal.
  assert (G : forall p, parse_all p text = Raise x -> x = LDAPError).
  { intros p. unfold parse_all. destruct (p text) as [[f' [|c r]]|]; congruence. }
  destruct (or_default (a_syntax a) (e_syntax e)); cbn [parse_filter] in E; [exact (G _ E)|exact (G _ E)|exact (G _ E)|congruence].
Qed.
Theorem C70_class_attribute_unsupported e a f l1 l2 r : e_unbound e = false -> in_range (a_limit a) ->
  (forall t, given (a_timeout a) (e_timeout e) t -> in_range t) -> filter_asked e a f -> e_feature e = Ok false ->
  attrs_asked a (l1 ++ (ch "@" :: r) :: l2) -> ~ In [] l1 -> ldap_search e a = (Raise LDAPSupportError, []).
Proof.
  intros Hu Hs Ht Hf Hx Ha Hn. apply attrs_asked_iff in Ha. unfold ldap_search, build. rewrite Hu. apply asked_filter_iff in Hf.
  destruct (match a_filter a with None => (e_default_filter e, Some STANDARD) | Some f => (f, a_syntax a) end) as [text syn0].
  rewrite (proj2 (int0max_iff _ _) (conj Hs eq_refl)). cbn [bind].
  rewrite (proj2 (int0max_iff _ _) (conj (Ht _ (proj2 (given_iff _ _ _) eq_refl)) eq_refl)). cbn [bind].
  rewrite Hf. cbn [bind]. rewrite <- Ha, Hx. clear - Hn.
  assert (E : check_attrs (Ok false) (l1 ++ (ch "@" :: r) :: l2) = Raise LDAPSupportError).
  { induction l1 as [|d l1 IH]; [reflexivity|]. cbn [app check_attrs]. destruct d as [|c d]; [exfalso; apply Hn; now left|].
    destruct (N.eqb c (ch "@")); [reflexivity|]. cbn [bind]. rewrite IH; [reflexivity|]. intro X. apply Hn. now right. }
  rewrite E. reflexivity.
Qed.
Theorem C70_unknown_keyword_partial e a k v : NoDup (map fst (a_kwds a)) ->
  In (k, v) (a_kwds a) -> ~ is_control (e_reg e) k -> ~ In k obj_kwds -> exists x, ldap_search e a = (Raise x, []).
Proof.
  intros Hd Hi Hc Hn. destruct (ldap_search e a) as [r q] eqn:E. destruct r as [h|x].
  - exfalso. destruct (search_asked e a h q Hd E) as (w & _ & P & _). apply Hn, (po_rest _ _ P k v). unfold others_of. apply filter_In.
    split; [exact Hi|]. cbn [fst]. rewrite dmem_dget. destruct (dget (r_kw (e_reg e)) k) as [c|] eqn:D; [|reflexivity].
    exfalso. apply Hc. exists c. exact D.
  - exists x. pose proof (C70_refused_sends_nothing e a x) as H. rewrite E in H. cbn [fst snd] in H. now rewrite H.
Qed.

(** A filter written out by the library is sent as that filter, in the standard syntax and in the
    default one. *)
Theorem C70_printed_filter e a h q f : NoDup (map fst (a_kwds a)) -> ldap_search e a = (Ok h, q) -> a_filter a = Some (print f) ->
  valid f -> no_trailing_any f -> (given (a_syntax a) (e_syntax e) STANDARD \/ given (a_syntax a) (e_syntax e) UNIFIED) ->
  exists w, q = [w] /\ w_filter w = f.
Proof.
  intros Hd H Ef Hv Hn Hs. destruct (search_asked e a h q Hd H) as (w & E & _ & A). exists w. split; [exact E|].
  pose proof (as_filter _ _ _ _ A) as F. unfold filter_asked in F. rewrite Ef in F. destruct F as (syn & Gs & M).
  destruct (C14_reparse_valid_exact_partial f Hv Hn) as [P1 P2]. apply given_iff in Gs.
  destruct Hs as [Hs|Hs]; apply given_iff in Hs; rewrite <- Hs in Gs; subst syn; cbn [means] in M.
  - apply standard_iff in M. congruence.
  - congruence.
Qed.

(** Nothing but the base given: all entries of the subtree and all their user attributes, under
    the connection's settings. *)
Definition only_base (base : str) : search_args := mk_args base SubScope None NoAttrs None 0 None false None None None [].
Theorem C70_default_search e base : e_unbound e = false -> e_default_filter e = lit "(objectClass=*)" -> in_range (e_timeout e) ->
  ldap_search e (only_base base) =
  (Ok (mk_h (e_refs e) (e_follow e) []),
   [mk_ws base SubScope (e_deref e) 0 (e_timeout e) false (FPresent (lit "objectClass")) [lit "*"] []]).
Proof.
  intros Hu Hf Ht. unfold ldap_search, build, only_base.
  cbn [a_base a_scope a_filter a_attrs a_timeout a_limit a_deref a_attrs_only a_refs a_follow a_syntax a_kwds]. rewrite Hu, Hf.
  cbn [or_default]. rewrite (proj2 (int0max_iff (e_timeout e) _) (conj Ht eq_refl)). reflexivity.
Qed.

(** Getting one object asks for the base object only, and for at most two. *)
Theorem C70_get e dn ats k h q : NoDup (map fst k) -> ldap_get_request e dn ats k = (Ok h, q) -> exists w, q = [w] /\
  w_base w = dn /\ w_scope w = BaseScope /\ w_size w = 2%Z /\ w_types_only w = false /\ std_text (w_filter w) (e_default_filter e) /\
  match ats with NoAttrs => w_attrs w = [lit "*"] | OneAttr x => w_attrs w = [x] | Attrs l => w_attrs w = l end.
Proof.
  intros Hd. unfold ldap_get_request. destruct (e_unbound e); [discriminate|]. intros H.
  destruct (search_asked e (get_args dn ats k) h q Hd H) as (w & E & _ & A). exists w. split; [exact E|].
  destruct A as [A1 A2 A3 A4 A5 A6 A7 A8 A9 A10 A11 A12]. auto 10.
Qed.

(** Refuted: four keywords pass the check, so the request is sent, but then every entry found is a
    TypeError. *)
Theorem C70_refuted_keyword_accepted_then_unusable e k v :
  e_unbound e = false -> e_default_filter e = lit "(objectClass=*)" -> in_range (e_timeout e) -> coherent reserved_kwds (e_reg e) ->
  In k (map lit ["attrs_dict"; "dn"; "ldap_conn"; "self"]%string) ->
  exists h w, ldap_search e (mk_args (lit "dc=x") SubScope None NoAttrs None 0 None false None None None [(k, Plain v)]) = (Ok h, [w]) /\
    forall dn, found_obj h dn = Raise TypeError.
Proof.
  intros Hu Hf Ht Hc Hk. set (a := mk_args _ _ _ _ _ _ _ _ _ _ _ _). assert (Hd : NoDup (map fst (a_kwds a))) by (constructor; [intros []|constructor]).
  assert (N : ~ is_control (e_reg e) k).
  { apply (reserved_no_control _ _ _ Hc). revert Hk. cbn [map In]. intros [<-|[<-|[<-|[<-|[]]]]]; vm_compute; auto 40. }
  assert (Nk : dget (r_kw (e_reg e)) k = None) by (destruct (dget (r_kw (e_reg e)) k) as [c|] eqn:D; [exfalso; apply N; exists c; exact D|reflexivity]).
  assert (O : others_of (e_reg e) [(k, Plain v)] = [(k, Plain v)]) by (unfold others_of; cbn [List.filter fst]; rewrite dmem_dget, Nk; reflexivity).
  assert (P : possible e a).
  { split; cbn [a a_limit a_timeout a_kwds]; auto.
    - vm_compute. split; intro; discriminate.
    - intros t G. apply given_iff in G. cbn [or_default] in G. now subst t.
    - exists (FPresent (lit "objectClass")). unfold filter_asked. cbn [a a_filter]. rewrite Hf. apply standard_iff. reflexivity.
    - unfold attrs_asked. cbn [a a_attrs]. intros l ->. split; [intros [X|[]]; discriminate|]. intros r [X|[]]. vm_compute in X. discriminate.
    - constructor; [|constructor]. intros c D. cbn [fst] in D. congruence.
    - rewrite O. intros k' v' [[= <- _]|[]]. revert Hk. cbn [map In]. intros [<-|[<-|[<-|[<-|[]]]]]; vm_compute; auto 10. }
  destruct (proj2 (C70_accepted_iff e a Hd) P) as [h H]. destruct (ldap_search e a) as [r q] eqn:E. cbn [fst] in H. subst r.
  destruct (search_asked e a h q Hd E) as (w & -> & _ & A). exists h, w. split; [reflexivity|]. intros dn. apply as_rest in A. cbn [a a_kwds] in A.
  unfold found_obj. rewrite A, O. revert Hk. cbn [map In]. intros [<-|[<-|[<-|[<-|[]]]]]; reflexivity.
Qed.

Definition ex_reg : registry := register_all reserved_kwds [demo_ctrl] empty_registry.
Definition ex_env : env :=
  mk_env false ex_reg [lit "1.2"] false (Ok true) (lit "(objectClass=*)") 30 3 true false UNIFIED.
Example C70_nonvacuous :
  ldap_search ex_env (mk_args (lit "dc=x") OneScope (Some (lit "(cn=a) AND NOT (sn=b*)")) (Attrs [lit "cn"; lit "@person"]) (Some 5%Z) 10 None true
                        (Some false) None None [(lit "paged", Critical (lit "v")); (k_rdn, Plain (lit "'cn"))])
  = (Ok (mk_h false false [(k_rdn, Plain (lit "'cn"))]),
     [mk_ws (lit "dc=x") OneScope 3 10 5 true (FAnd [FEq (lit "cn") (lit "a"); FNot (FSubs (lit "sn") [(Initial, lit "b")])])
        [lit "cn"; lit "@person"] [mk_wire (lit "1.2") true (Some (lit "v"))]])
  /\ fst (ldap_search ex_env (mk_args (lit "dc=x") OneScope None NoAttrs (Some (-1)%Z) 0 None true None None None [])) = Raise constraint_error
  /\ coherent reserved_kwds ex_reg /\ dmem (r_kw ex_reg) (lit "paged") = true.
Proof.
  split; [vm_compute; reflexivity|]. split; [reflexivity|]. split; [apply C25_unambiguous|reflexivity].
Qed.

(** ** C71 *)

(** Whatever relative method an object came from, it has the keyword given for its search scope and
    RDN attribute, and otherwise those of the object the method was called on. *)
Theorem C71_inherits e o n k : coherent reserved_kwds (e_reg e) -> NoDup (map fst k) -> made e o n k -> inherits o k n.
Proof. intros Hc. apply made_inherits; apply (reserved_no_control _ _ _ Hc); vm_compute; auto 40. Qed.
(** ... through any number of generations. *)
Theorem C71_inherits_at_any_depth e o n : coherent reserved_kwds (e_reg e) -> below e o n ->
  ro_scope n = ro_scope o /\ ro_rdn_attr n = ro_rdn_attr o.
Proof. intros Hc. apply below_same; apply (reserved_no_control _ _ _ Hc); vm_compute; auto 40. Qed.

(** The DN of a new object is the full RDN, a comma and the DN of the object it is below; a new object
    is bound to the same connection, if any. *)
Theorem C71_child_dn o r k n : obj_obj o r k = Ok n -> child_dn o r (ro_dn n) /\ ro_conn n = ro_conn o.
Proof.
  assert (G : forall c dn K, new_robj c dn K = Ok n -> ro_dn n = dn /\ ro_conn n = c).
  { intros c dn K. unfold new_robj. destruct (all_in K _); [|discriminate]. intros [= <-]. auto. }
  unfold obj_obj. destruct (ro_conn o) eqn:C.
  - destruct (rdn o r) as [dn|x] eqn:E; [|discriminate]. cbn [bind]. intros H. apply G in H as [-> ->]. split; [now apply rdn_iff|reflexivity].
  - destruct (dmem _ _); [discriminate|]. destruct (rdn o r) as [dn|x] eqn:E; [|discriminate]. cbn [bind]. intros H. apply G in H as [-> ->].
    split; [now apply rdn_iff|reflexivity].
Qed.
Theorem C71_added_child_dn e o r k cs n : obj_add_child e o r k = Ok (cs, n) -> child_dn o r (ro_dn n) /\ ro_conn n = true /\ ro_conn o = true.
Proof.
  unfold obj_add_child. destruct (ro_conn o); [|discriminate]. cbn [negb]. destruct (rdn o r) as [dn|x] eqn:E; [|discriminate]. cbn [bind].
  destruct (e_unbound e); [discriminate|]. destruct (process_kwds _ _ _ _ _ _) as [[cs' rest]|x]; [|discriminate]. cbn [bind].
  unfold ldap_new_obj, new_robj. destruct (all_in _ _); [|discriminate]. cbn [bind]. intros [= _ <-]. cbn [ro_dn ro_conn].
  split; [now apply rdn_iff|auto].
Qed.
(** An object that can be made without a tag is made: obj fails only for want of an RDN attribute,
    for an unknown keyword, or for a tag without a connection. *)
Theorem C71_obj_iff o r k : NoDup (map fst k) -> ((exists n, obj_obj o r k = Ok n) <->
  (exists dn, child_dn o r dn) /\ (forall key v, In (key, v) k -> key = k_scope \/ key = k_rdn \/ (key = lit "tag" /\ ro_conn o = true))).
Proof.
  intros Hd. pose proof (set_defaults_NoDup o k Hd) as Hd'.
  assert (S : forall key v, In (key, v) (set_defaults o k) -> In (key, v) k \/ key = k_scope \/ key = k_rdn).
  { intros key v Hi. apply dget_In_NoDup in Hi; [|exact Hd']. unfold set_defaults in Hi. rewrite !dget_setdefault in Hi.
    destruct (dget k key) as [w|] eqn:D.
    - left. injection Hi as ->. now apply dget_In in D.
    - right. destruct (str_eqb_spec k_scope key) as [<-|N1]; [auto|]. destruct (str_eqb_spec k_rdn key) as [<-|N2]; [auto|discriminate]. }
  assert (S' : forall key v, In (key, v) k -> In (key, v) (set_defaults o k)).
  { intros key v Hi. apply dget_In_NoDup in Hi; [|exact Hd]. apply dget_In. unfold set_defaults. rewrite !dget_setdefault, Hi. reflexivity. }
  assert (R : (exists dn, rdn o r = Ok dn) <-> exists dn, child_dn o r dn).
  { split; intros [dn H]; exists dn; now apply rdn_iff. }
  assert (T : forall K, all_in K [k_scope; k_rdn] = true <-> forall key v, In (key, v) K -> key = k_scope \/ key = k_rdn).
  { intros K. rewrite all_in_iff. split; intros H key v Hi; specialize (H key v Hi); cbn [In] in *; intuition congruence. }
  assert (NW : forall c dn K, (exists n, new_robj c dn K = Ok n) <-> all_in K [k_scope; k_rdn] = true).
  { intros c dn K. unfold new_robj. destruct (all_in K [k_scope; k_rdn]); split; eauto; [intros [n H]; discriminate|discriminate]. }
  unfold obj_obj. rewrite <- R. destruct (ro_conn o).
  - destruct (rdn o r) as [dn|x]; cbn [bind].
    + unfold ldap_new_obj. rewrite NW, T. split.
      * intros H. split; [eauto|]. intros key v Hi. destruct (str_eqb_spec key (lit "tag")) as [->|N]; [auto|].
        apply S' in Hi. assert (Hi' : In (key, v) (ddel (set_defaults o k) (lit "tag"))).
        { apply dget_In_NoDup in Hi; [|exact Hd']. apply dget_In. rewrite dget_ddel_neq by congruence. exact Hi. }
        destruct (H key v Hi'); auto.
      * intros [_ H] key v Hi. assert (N : key <> lit "tag").
        { intros ->. apply dget_In_NoDup in Hi; [|now apply ddel_NoDup]. rewrite dget_ddel_eq in Hi by exact Hd'. discriminate. }
        apply ddel_In in Hi. destruct (S key v Hi) as [Hk|Hk]; [|exact Hk]. destruct (H key v Hk) as [E|[E|[E _]]]; auto. contradiction.
    + split; [intros [n H]; discriminate|]. intros [[dn H] _]. discriminate.
  - destruct (dmem (set_defaults o k) (lit "tag")) eqn:D.
    + split; [intros [n H]; discriminate|]. intros [_ H]. exfalso. rewrite dmem_dget in D.
      destruct (dget (set_defaults o k) (lit "tag")) as [v|] eqn:E; [|discriminate]. apply dget_In in E.
      destruct (S _ _ E) as [Hk|[Hk|Hk]]; [|discriminate|discriminate]. destruct (H _ _ Hk) as [X|[X|[_ X]]]; discriminate.
    + destruct (rdn o r) as [dn|x]; cbn [bind].
      * rewrite NW, T. split.
        -- intros H. split; [eauto|]. intros key v Hi. destruct (H key v (S' _ _ Hi)); auto.
        -- intros [_ H] key v Hi. destruct (S _ _ Hi) as [Hk|Hk]; [|exact Hk]. destruct (H _ _ Hk) as [E|[E|[_ E]]]; auto. discriminate.
      * split; [intros [n H]; discriminate|]. intros [[dn H] _]. discriminate.
Qed.

(** Without a connection nothing is asked of a server. *)
Theorem C71_unconnected e o : ro_conn o = false ->
  (forall r ats k, obj_get_child e o r ats k = (Raise RuntimeError, [])) /\
  (forall f ats m k, obj_search e o f ats m k = (Raise RuntimeError, [])) /\
  (forall r ats k, obj_find e o r ats k = (Raise RuntimeError, [])) /\
  (forall r k, obj_add_child e o r k = Raise RuntimeError).
Proof. intros H. unfold obj_get_child, obj_search, obj_find, obj_add_child. rewrite H. auto. Qed.
(** A bare value without an RDN attribute to put in front of it is a ValueError, and nothing is sent. *)
Theorem C71_bare_value e o r : ro_conn o = true -> ro_rdn_attr o = None -> ~ In (ch "=") r ->
  (forall k, obj_obj o r k = Raise ValueError) /\ (forall k, obj_add_child e o r k = Raise ValueError) /\
  (forall ats k, obj_get_child e o r ats k = (Raise ValueError, [])) /\
  (ro_scope o <> Some BaseScope -> forall ats k, obj_find e o r ats k = (Raise ValueError, [])).
Proof.
  intros Hc Hr Hn. assert (A : rdn_attr_ (ro_rdn_attr o) r = Raise ValueError).
  { unfold rdn_attr_. destruct (existsb (N.eqb (ch "=")) r) eqn:X; [|rewrite Hr; reflexivity].
    apply existsb_exists in X as (c & Hin & E). apply N.eqb_eq in E. subst c. contradiction. }
  assert (B : rdn o r = Raise ValueError) by (unfold rdn, obj_rdn; rewrite A; reflexivity).
  unfold obj_obj, obj_add_child, obj_get_child, obj_find, obj_get_child. rewrite Hc, B, A. cbn [negb bind]. repeat (split; [auto|]).
  intros Hs ats k. destruct (ro_scope o) as [[]|]; [congruence|reflexivity|reflexivity|reflexivity].
Qed.

(** A search below an object has the object's DN as base and its scope; getting a child asks for the
    child's DN. *)
Theorem C71_search_request e o f ats m k h q : NoDup (map fst k) -> obj_search e o f ats m k = (Ok h, q) ->
  exists w sc, q = [w] /\ ro_scope o = Some sc /\ w_base w = ro_dn o /\ w_scope w = sc /\
    asked e (mk_args (ro_dn o) sc f ats (m_timeout m) (m_limit m) (m_deref m) (m_attrs_only m) (m_refs m) (m_follow m) (m_syntax m) (set_defaults o k)) w h.
Proof.
  intros Hd H. apply obj_search_asked in H as (_ & w & sc & E & Es & A); [|exact Hd]. exists w, sc.
  repeat (split; [solve [auto | exact (as_base _ _ _ _ A) | exact (as_scope _ _ _ _ A)]|]). exact A.
Qed.
Theorem C71_get_child_request e o r ats k h q : NoDup (map fst k) -> obj_get_child e o r ats k = (Ok h, q) ->
  exists w, q = [w] /\ child_dn o r (w_base w) /\ w_scope w = BaseScope /\ w_size w = 2%Z /\ std_text (w_filter w) (e_default_filter e).
Proof.
  intros Hd H. apply obj_get_child_asked in H as (_ & w & dn & E & Hdn & A); [|exact Hd]. exists w.
  destruct A as [A1 A2 A3 A4 A5 A6 A7 A8 A9 A10 A11 A12]. cbn [get_args a_base a_scope a_limit a_filter] in *. rewrite A1. auto 10.
Qed.

(** Finding an object: the object's scope decides. *)
Theorem C71_find_no_children e o r ats k : ro_conn o = true -> ro_scope o = Some BaseScope -> obj_find e o r ats k = (Raise LDAPError, []).
Proof. intros Hc Hs. unfold obj_find. now rewrite Hc, Hs. Qed.
Theorem C71_find_bad_scope e o r ats k : ro_conn o = true -> ro_scope o = None -> obj_find e o r ats k = (Raise ValueError, []).
Proof. intros Hc Hs. unfold obj_find. now rewrite Hc, Hs. Qed.
Theorem C71_find_child e o r ats k h q : NoDup (map fst k) -> ro_scope o = Some OneScope -> obj_find e o r ats k = (Ok h, q) ->
  exists w, q = [w] /\ child_dn o r (w_base w) /\ w_scope w = BaseScope /\ w_size w = 2%Z.
Proof.
  intros Hd Hs. unfold obj_find. destruct (ro_conn o) eqn:Hc; [|discriminate]. rewrite Hs. cbn [negb]. intros H.
  destruct (C71_get_child_request e o r ats _ h q (set_defaults_NoDup o k Hd) H) as (w & A1 & A2 & A3 & A4 & _). eauto 10.
Qed.
Theorem C71_find_below_partial e o r ats k h q : NoDup (map fst k) -> ro_scope o = Some SubScope -> obj_find e o r ats k = (Ok h, q) ->
  exists w r', q = [w] /\ w_base w = ro_dn o /\ w_scope w = SubScope /\ w_size w = 2%Z /\
    full_rdn o r r' /\ std_text (w_filter w) (lit "(" ++ r' ++ lit ")") /\
    (forall a v, attr_text a -> value_text v -> r' = a ++ lit "=" ++ v -> w_filter w = FEq a v).
Proof.
  intros Hd Hs. unfold obj_find. destruct (ro_conn o) eqn:Hc; [|discriminate]. rewrite Hs. cbn [negb].
  destruct (rdn_attr_ (ro_rdn_attr o) r) as [r'|x] eqn:E; [|discriminate]. intros H.
  apply obj_search_asked in H as (_ & w & sc & Eq & Es & A); [|now apply set_defaults_NoDup].
  rewrite Hs in Es. injection Es as <-. exists w, r'.
  destruct A as [A1 A2 A3 A4 A5 A6 A7 A8 A9 A10 A11 A12]. cbn [a_base a_scope a_limit a_filter m_limit] in *.
  assert (S : std_text (w_filter w) (lit "(" ++ r' ++ lit ")")).
  { unfold filter_asked in A7. cbn [a_filter a_syntax m_syntax] in A7. destruct A7 as (syn & G & M). apply given_iff in G. cbn [or_default] in G. subst syn. exact M. }
  repeat (split; [solve [auto | now apply full_rdn_iff]|]).
  intros a v Ha Hv ->. assert (S2 : std_text (FEq a v) (lit "(" ++ (a ++ lit "=" ++ v) ++ lit ")")) by (apply st_cmp; now constructor).
  apply standard_iff in S, S2. congruence.
Qed.

(** Refuted: for a subtree scope the RDN is used as a filter, so a value with a star finds other
    objects, an escaped RDN cannot be looked for, and for a multi-valued RDN a value no object has
    is looked for; with a one-level scope all three work. *)
Definition ex_top (s : scope) : robj := mk_robj (lit "dc=x") true (Some s) (Some (lit "cn")).
Definition sent_filters (r : res handle * list wire_search) : list filter := map w_filter (snd r).
Definition sent_bases (r : res handle * list wire_search) : list str := map w_base (snd r).
Theorem C71_refuted_find_below :
  sent_filters (obj_find ex_env (ex_top SubScope) (lit "*") NoAttrs []) = [FPresent (lit "cn")] /\
  sent_filters (obj_find ex_env (ex_top SubScope) (lit "a*") NoAttrs []) = [FSubs (lit "cn") [(Initial, lit "a")]] /\
  obj_find ex_env (ex_top SubScope) (lit "Smith\, John") NoAttrs [] = (Raise LDAPError, []) /\
  sent_filters (obj_find ex_env (ex_top SubScope) (lit "cn=a+sn=b") NoAttrs []) = [FEq (lit "cn") (lit "a+sn=b")] /\
  sent_bases (obj_find ex_env (ex_top OneScope) (lit "*") NoAttrs []) = [lit "cn=*,dc=x"] /\
  sent_bases (obj_find ex_env (ex_top OneScope) (lit "Smith\, John") NoAttrs []) = [lit "cn=Smith\, John,dc=x"] /\
  sent_bases (obj_find ex_env (ex_top OneScope) (lit "cn=a+sn=b") NoAttrs []) = [lit "cn=a+sn=b,dc=x"].
Proof. vm_compute. repeat (split; [reflexivity|]). reflexivity. Qed.

Example C71_nonvacuous :
  (exists n m, below ex_env (ex_top OneScope) n /\ obj_obj (ex_top OneScope) (lit "people") [] = Ok m /\ ro_dn m = lit "cn=people,dc=x" /\
     made ex_env m n [] /\ ro_dn n = lit "uid=a,cn=people,dc=x") /\
  snd (obj_find ex_env (ex_top SubScope) (lit "joe") (OneAttr (lit "sn")) []) =
    [mk_ws (lit "dc=x") SubScope 3 2 30 false (FEq (lit "cn") (lit "joe")) [lit "sn"] []].
Proof.
  split; [|vm_compute; reflexivity].
  set (m := mk_robj (lit "cn=people,dc=x") true (Some OneScope) (Some (lit "cn"))).
  set (n := mk_robj (lit "uid=a,cn=people,dc=x") true (Some OneScope) (Some (lit "cn"))). exists n, m.
  assert (M1 : obj_obj (ex_top OneScope) (lit "people") [] = Ok m) by (vm_compute; reflexivity).
  assert (M2 : made ex_env m n []).
  { eapply (by_get _ _ _ _ (lit "uid=a") NoAttrs _ _ (lit "uid=a,cn=people,dc=x")); vm_compute; reflexivity. }
  assert (B1 : below ex_env (ex_top OneScope) m).
  { refine (below_made _ _ _ m [] (below_self _ _) _ _ _ (by_obj _ _ _ _ _ M1)); [constructor|reflexivity|reflexivity]. }
  assert (B2 : below ex_env (ex_top OneScope) n).
  { refine (below_made _ _ _ n [] B1 _ _ _ M2); [constructor|reflexivity|reflexivity]. }
  split; [exact B2|]. split; [exact M1|]. split; [reflexivity|]. split; [exact M2|reflexivity].
Qed.

Print Assumptions C70_request.
Print Assumptions C70_refused_sends_nothing.
Print Assumptions C70_accepted_iff.
Print Assumptions C70_unique.
Print Assumptions C70_unbound.
Print Assumptions C70_unreadable_filter.
Print Assumptions C70_class_attribute_unsupported.
Print Assumptions C70_unknown_keyword_partial.
Print Assumptions C70_printed_filter.
Print Assumptions C70_default_search.
Print Assumptions C70_get.
Print Assumptions C70_refuted_keyword_accepted_then_unusable.
Print Assumptions C71_inherits.
Print Assumptions C71_inherits_at_any_depth.
Print Assumptions C71_child_dn.
Print Assumptions C71_added_child_dn.
Print Assumptions C71_obj_iff.
Print Assumptions C71_unconnected.
Print Assumptions C71_bare_value.
Print Assumptions C71_search_request.
Print Assumptions C71_get_child_request.
Print Assumptions C71_find_no_children.
Print Assumptions C71_find_bad_scope.
Print Assumptions C71_find_child.
Print Assumptions C71_find_below_partial.
Print Assumptions C71_refuted_find_below.
