(** * Proofs about search requests *)
From Verif Require Import PyBase Model_Filter Spec_Filter Proofs_Filter Proofs_Filter2 Model_Controls Spec_Controls Proofs_Controls Props_Controls
  Model_Search Model_Request Spec_Request.

Lemma given_iff {A} (arg : option A) d v : given arg d v <-> v = or_default arg d.
Proof.
  unfold given, or_default. destruct arg as [x|]; split.
  - intros [(y & E & ->)|[E _]]; [now injection E|discriminate].
  - intros ->. left. eauto.
  - intros [(y & E & _)|[_ ->]]; [discriminate|reflexivity].
  - intros ->. right. auto.
Qed.
Lemma int0max_iff z v : int0max z = Ok v <-> in_range z /\ v = z.
Proof.
  unfold int0max, in_range. destruct ((0 <=? z) && (z <=? 2147483647))%Z eqn:E.
  - split; [intros [= <-]; split; [lia|reflexivity]|intros [_ ->]; reflexivity].
  - split; [discriminate|]. intros [H _]. lia.
Qed.
Lemma parse_filter_iff syn t f : parse_filter syn t = Ok f <-> means syn t f.
Proof.
  destruct syn; cbn [parse_filter means]; [|reflexivity|reflexivity|].
  - apply standard_iff.
  - split; [discriminate|intros []].
Qed.
Lemma asked_filter_iff e a f :
  (let '(text, syn0) := match a_filter a with None => (e_default_filter e, Some STANDARD) | Some f => (f, a_syntax a) end in
   parse_filter (or_default syn0 (e_syntax e)) text = Ok f) <-> filter_asked e a f.
Proof.
  unfold filter_asked. destruct (a_filter a) as [t|].
  - rewrite parse_filter_iff. split.
    + intros H. exists (or_default (a_syntax a) (e_syntax e)). split; [now apply given_iff|exact H].
    + intros (syn & Hs & H). apply given_iff in Hs. now subst.
  - cbn [or_default]. apply (parse_filter_iff STANDARD).
Qed.
Lemma check_attrs_iff feature l l' : check_attrs feature l = Ok l' <->
  l' = l /\ ~ In [] l /\ (forall r, In (ch "@" :: r) l -> feature = Ok true).
Proof.
  revert l'. induction l as [|d l IH]; intros l'; cbn [check_attrs].
  - split; [intros [= <-]; repeat split; [intros []|intros r []]|intros (-> & _); reflexivity].
  - destruct d as [|c d].
    + split; [discriminate|]. intros (_ & H & _). exfalso. apply H. now left.
    + split.
      * intros H.
        assert (F : N.eqb c (ch "@") = true -> feature = Ok true).
        { intros E. rewrite E in H. cbn [bind] in H. destruct feature as [[]|x]; [reflexivity|discriminate|discriminate]. }
        assert (G : exists q, check_attrs feature l = Ok q /\ l' = (c :: d) :: q).
        { assert (H' : (let* r := check_attrs feature l in Ok ((c :: d) :: r)) = Ok l').
          { destruct (N.eqb c (ch "@")); [|exact H]. rewrite (F eq_refl) in H |- *. exact H. }
          clear H. destruct (check_attrs feature l) as [q|x]; [|discriminate]. cbn [bind] in H'. exists q. split; [reflexivity|]. congruence. }
        destruct G as (q & Eq & ->). apply IH in Eq as (-> & H1 & H2). split; [reflexivity|]. split; [intros [X|X]; [discriminate|auto]|].
        intros r [X|X]; [|eauto]. apply F. assert (Ec : c = ch "@") by congruence. rewrite Ec. apply N.eqb_refl.
      * intros (-> & H1 & H2). assert (Eq : check_attrs feature l = Ok l).
        { apply IH. split; [reflexivity|]. split; [intro X; apply H1; now right|intros r X; apply (H2 r); now right]. }
        rewrite Eq. destruct (N.eqb c (ch "@")) eqn:Ec; [|reflexivity]. apply N.eqb_eq in Ec. subst c.
        rewrite (H2 d (or_introl eq_refl)). reflexivity.
Qed.
Lemma attrs_asked_iff a l : attrs_asked a l <-> l = attr_list (a_attrs a).
Proof. unfold attrs_asked, attr_list. destruct (a_attrs a); tauto. Qed.
Lemma all_in_iff k ok : all_in k ok = true <-> forall x v, In (x, v) k -> In x ok.
Proof.
  unfold all_in. rewrite forallb_forall. split.
  - intros H x v Hi. apply H in Hi. now apply smem_In in Hi.
  - intros H [x v] Hi. apply smem_In. eauto.
Qed.
Lemma kwds_iff e k cs rest : NoDup (map fst k) ->
  (match k with [] => Ok ([], []) | _ => process_kwds (e_reg e) (lit "search") k (e_supported e) (e_criticality e) false end) = Ok (cs, rest) <->
  Forall (admissible (e_reg e) (lit "search") (e_supported e) (e_criticality e)) k /\
  Forall2 (wire_for (e_reg e) (e_criticality e)) (controls_of (e_reg e) k) cs /\ rest = others_of (e_reg e) k.
Proof.
  intros Hd. assert (E : forall z, z = (match k with [] => Ok ([], []) | _ => process_kwds (e_reg e) (lit "search") k (e_supported e) (e_criticality e) false end) ->
    z = process_kwds (e_reg e) (lit "search") k (e_supported e) (e_criticality e) false).
  { intros z ->. destruct k; reflexivity. }
  rewrite (E _ eq_refl). clear E.
  destruct (C24_controls_exactly (e_reg e) (lit "search") (e_supported e) (e_criticality e) false k Hd) as [H1 H2]. split.
  - intros H. destruct (H1 _ _ H) as (A & B & C & _). auto.
  - intros (A & B & ->). destruct (H2 A ltac:(discriminate)) as [cs' E]. destruct (H1 _ _ E) as (_ & B' & _). rewrite E. f_equal. f_equal.
    clear - B B'. revert cs' B'. induction B as [|kv w l cs Hw B IH]; intros cs' B'; inversion B' as [|kv' w' l' cs'' Hw' B'']; subst; [reflexivity|].
    f_equal; [|auto]. destruct Hw as (c & p & E1 & E2 & E3 & E4 & E5), Hw' as (c' & p' & E1' & E2' & E3' & E4' & E5').
    replace c' with c in * by congruence. replace p' with p in * by congruence. destruct w as [x1 x2 x3], w' as [y1 y2 y3]. cbn in *. congruence.
Qed.

Lemma build_iff e a w h : NoDup (map fst (a_kwds a)) -> (build e a = Ok (w, h) <-> possible e a /\ asked e a w h).
Proof.
  intros Hd. unfold build. split.
  - destruct (e_unbound e) eqn:Eu; [discriminate|].
    pose proof (asked_filter_iff e a) as Hf.
    destruct (match a_filter a with None => (e_default_filter e, Some STANDARD) | Some f => (f, a_syntax a) end) as [text syn0].
    destruct (int0max (a_limit a)) as [size|x] eqn:Es; [|discriminate]. cbn [bind].
    destruct (int0max (or_default (a_timeout a) (e_timeout e))) as [time|x] eqn:Et; [|discriminate]. cbn [bind].
    destruct (parse_filter (or_default syn0 (e_syntax e)) text) as [f|x] eqn:Ef; [|discriminate]. cbn [bind].
    destruct (check_attrs (e_feature e) (attr_list (a_attrs a))) as [ats|x] eqn:Ea; [|discriminate]. cbn [bind].
    pose proof (kwds_iff e (a_kwds a)) as Hk.
    destruct (match a_kwds a with [] => Ok ([], []) | _ => process_kwds (e_reg e) (lit "search") (a_kwds a) (e_supported e) (e_criticality e) false end)
      as [[cs rest]|x] eqn:Ek.
    2:{ destruct (a_kwds a); [discriminate Ek|]. rewrite Ek. discriminate. }
    assert (Ek' : match a_kwds a with [] => Ok ([], []) | (p :: l) as k => process_kwds (e_reg e) (lit "search") k (e_supported e) (e_criticality e) false end = Ok (cs, rest)).
    { destruct (a_kwds a); exact Ek. }
    rewrite Ek'. cbn [bind]. unfold check_obj_kwds. destruct (all_in rest obj_kwds) eqn:Er; [|discriminate]. cbn [bind]. intros [= <- <-].
    apply int0max_iff in Es as [Es ->]. apply int0max_iff in Et as [Et ->]. pose proof (proj1 (Hf f) eq_refl) as Ef'. apply check_attrs_iff in Ea as (-> & Ea1 & Ea2).
    destruct (proj1 (Hk cs rest Hd) eq_refl) as (K1 & K2 & ->). split.
    + split; auto.
      * intros t Ht. apply given_iff in Ht. now subst.
      * eauto.
      * intros l Hl. apply attrs_asked_iff in Hl. subst l. auto.
      * now apply all_in_iff.
    + split; cbn [w_base w_scope w_types_only w_size w_time w_deref w_filter w_attrs w_ctrls h_refs h_follow h_obj_kwds]; auto; try (now apply given_iff).
      now apply attrs_asked_iff.
  - intros [P A]. destruct P as [Eu Es Et _ Ea Ek Er], A as [A1 A2 A3 A4 A5 A6 A7 A8 A9 A10 A11 A12].
    rewrite Eu. pose proof (asked_filter_iff e a) as Hf.
    destruct (match a_filter a with None => (e_default_filter e, Some STANDARD) | Some f => (f, a_syntax a) end) as [text syn0].
    apply given_iff in A5, A6, A10, A11. apply attrs_asked_iff in A8. apply Hf in A7.
    rewrite (proj2 (int0max_iff _ _) (conj Es eq_refl)). cbn [bind].
    rewrite (proj2 (int0max_iff _ _) (conj (Et _ (proj2 (given_iff _ _ _) eq_refl)) eq_refl)). cbn [bind].
    rewrite A7. cbn [bind]. rewrite (proj2 (check_attrs_iff _ _ _) (conj eq_refl (Ea _ (proj2 (attrs_asked_iff _ _) eq_refl)))). cbn [bind].
    pose proof (proj2 (kwds_iff e (a_kwds a) (w_ctrls w) _ Hd) (conj Ek (conj A9 eq_refl))) as K.
    assert (Ek' : match a_kwds a with [] => Ok ([], []) | (p :: l) as k => process_kwds (e_reg e) (lit "search") k (e_supported e) (e_criticality e) false end
      = Ok (w_ctrls w, others_of (e_reg e) (a_kwds a))) by (destruct (a_kwds a); exact K).
    rewrite Ek'. cbn [bind]. unfold check_obj_kwds. rewrite (proj2 (all_in_iff _ _) Er). cbn [bind].
    destruct w as [x1 x2 x3 x4 x5 x6 x7 x8 x9], h as [y1 y2 y3]. cbn [w_base w_scope w_types_only w_size w_time w_deref w_filter w_attrs w_ctrls h_refs h_follow h_obj_kwds] in *. congruence.
Qed.

(** ** Relative methods *)
Lemma scope_of_val s : scope_of (scope_val s) = s.
Proof. destruct s as [[]|]; vm_compute; reflexivity. Qed.
Lemma rdn_of_val r : rdn_of (rdn_val r) = r.
Proof. destruct r; reflexivity. Qed.
Lemma dmem_dget {V} (d : list (str * V)) k : dmem d k = match dget d k with Some _ => true | None => false end.
Proof. reflexivity. Qed.
Lemma setdefault_NoDup k key v : NoDup (map fst k) -> NoDup (map fst (setdefault k key v)).
Proof. intros H. unfold setdefault. destruct (dmem k key); [exact H|now apply dset_NoDup]. Qed.
Lemma dget_setdefault k key v key2 : dget (setdefault k key v) key2 =
  match dget k key2 with Some x => Some x | None => if str_eqb key key2 then Some v else None end.
Proof.
  unfold setdefault. rewrite dmem_dget. destruct (dget k key) as [x|] eqn:E.
  - destruct (dget k key2) as [y|] eqn:E2; [reflexivity|]. destruct (str_eqb_spec key key2) as [->|N]; [congruence|reflexivity].
  - rewrite dget_dset. destruct (str_eqb_spec key key2) as [->|N]; [now rewrite E|]. destruct (dget k key2); reflexivity.
Qed.
Lemma set_defaults_NoDup o k : NoDup (map fst k) -> NoDup (map fst (set_defaults o k)).
Proof. intros H. unfold set_defaults. now apply setdefault_NoDup, setdefault_NoDup. Qed.
Lemma set_defaults_scope o k : dget (set_defaults o k) k_scope = Some (match dget k k_scope with Some v => v | None => scope_val (ro_scope o) end).
Proof.
  unfold set_defaults. rewrite !dget_setdefault, str_eqb_refl. destruct (dget k k_scope); reflexivity.
Qed.
Lemma set_defaults_rdn o k : dget (set_defaults o k) k_rdn = Some (match dget k k_rdn with Some v => v | None => rdn_val (ro_rdn_attr o) end).
Proof.
  unfold set_defaults. rewrite !dget_setdefault, str_eqb_refl. destruct (dget k k_rdn); [reflexivity|].
  replace (str_eqb k_scope k_rdn) with false by reflexivity. reflexivity.
Qed.
Lemma set_defaults_twice o k : set_defaults o (set_defaults o k) = set_defaults o k.
Proof.
  assert (G : forall K key v, dget K key <> None -> setdefault K key v = K).
  { intros K key v H. unfold setdefault. rewrite dmem_dget. destruct (dget K key); [reflexivity|congruence]. }
  unfold set_defaults at 1. rewrite G; [|rewrite G; [|rewrite set_defaults_scope; discriminate]].
  - apply G. rewrite set_defaults_scope. discriminate.
  - rewrite set_defaults_rdn. discriminate.
Qed.
Lemma dget_others reg k key : ~ is_control reg key -> dget (others_of reg k) key = dget k key.
Proof.
  intros H. unfold others_of. induction k as [|[x v] k IH]; [reflexivity|]. cbn [List.filter fst dget].
  destruct (dmem (r_kw reg) x) eqn:E; cbn [negb].
  - rewrite IH. destruct (str_eqb_spec x key) as [->|N]; [|reflexivity]. exfalso. apply H. rewrite dmem_dget in E. unfold is_control.
    destruct (dget (r_kw reg) key) as [c|]; [eauto|discriminate].
  - cbn [dget]. rewrite IH. reflexivity.
Qed.
Lemma new_robj_inherits conn dn o k K n : dget K k_scope = Some (match dget k k_scope with Some v => v | None => scope_val (ro_scope o) end) ->
  dget K k_rdn = Some (match dget k k_rdn with Some v => v | None => rdn_val (ro_rdn_attr o) end) ->
  new_robj conn dn K = Ok n -> inherits o k n /\ ro_dn n = dn /\ ro_conn n = conn.
Proof.
  intros H1 H2. unfold new_robj. destruct (all_in K [k_scope; k_rdn]); [|discriminate]. rewrite H1, H2. intros [= <-].
  unfold inherits. cbn [ro_scope ro_rdn_attr ro_dn ro_conn]. split; [|auto]. split.
  - destruct (dget k k_scope); [reflexivity|apply scope_of_val].
  - destruct (dget k k_rdn); [reflexivity|apply rdn_of_val].
Qed.
Lemma found_inherits o k reg h dn n : ~ is_control reg k_scope -> ~ is_control reg k_rdn ->
  h_obj_kwds h = others_of reg (set_defaults o k) -> found_obj h dn = Ok n -> inherits o k n /\ ro_dn n = dn /\ ro_conn n = true.
Proof.
  intros C1 C2 Hh. unfold found_obj, ldap_new_obj. rewrite Hh. apply new_robj_inherits.
  - rewrite dget_ddel_neq by discriminate. rewrite (dget_others _ _ _ C1). apply set_defaults_scope.
  - rewrite dget_ddel_neq by discriminate. rewrite (dget_others _ _ _ C2). apply set_defaults_rdn.
Qed.
Lemma search_asked e a h q : NoDup (map fst (a_kwds a)) -> ldap_search e a = (Ok h, q) -> exists w, q = [w] /\ possible e a /\ asked e a w h.
Proof.
  intros Hd. unfold ldap_search. destruct (build e a) as [[w h']|x] eqn:E; [|discriminate]. intros [= -> <-]. exists w. split; [reflexivity|].
  now apply build_iff.
Qed.
Lemma full_rdn_iff o r r' : rdn_attr_ (ro_rdn_attr o) r = Ok r' <-> full_rdn o r r'.
Proof.
  unfold rdn_attr_, full_rdn. destruct (existsb (N.eqb (ch "=")) r) eqn:X.
  - apply existsb_exists in X as (c & Hin & Hc). apply N.eqb_eq in Hc. subst c. split; [intros [= <-]; auto|]. intros [[_ ->]|[N _]]; [reflexivity|contradiction].
  - assert (N : ~ In (ch "=") r).
    { intros Hin. assert (Y : existsb (N.eqb (ch "=")) r = true) by (apply existsb_exists; exists (ch "="); split; [exact Hin|apply N.eqb_refl]). congruence. }
    destruct (ro_rdn_attr o) as [a|].
    + split; [intros [= <-]; right; split; [exact N|eauto]|]. intros [[Hin _]|(_ & a' & [= <-] & ->)]; [contradiction|reflexivity].
    + split; [discriminate|]. intros [[Hin _]|(_ & a' & E & _)]; [contradiction|discriminate].
Qed.
Lemma rdn_iff o r dn : rdn o r = Ok dn <-> child_dn o r dn.
Proof.
  unfold rdn, obj_rdn, child_dn. destruct (rdn_attr_ (ro_rdn_attr o) r) as [r'|x] eqn:E.
  - cbn [bind]. split.
    + intros [= <-]. exists r'. split; [now apply full_rdn_iff|reflexivity].
    + intros (r2 & H & ->). apply full_rdn_iff in H. rewrite E in H; injection H as <-; reflexivity.
  - split; [discriminate|]. intros (r2 & H & _). apply full_rdn_iff in H. congruence.
Qed.
Lemma obj_get_child_asked e o r ats k h q : NoDup (map fst k) -> obj_get_child e o r ats k = (Ok h, q) ->
  ro_conn o = true /\ exists w dn, q = [w] /\ child_dn o r dn /\ asked e (get_args dn ats (set_defaults o k)) w h.
Proof.
  intros Hd. unfold obj_get_child. destruct (ro_conn o); [|discriminate]. cbn [negb]. destruct (rdn o r) as [dn|x] eqn:E; [|discriminate].
  apply rdn_iff in E. unfold ldap_get_request. destruct (e_unbound e); [discriminate|]. intros H.
  apply search_asked in H as (w & -> & _ & A); [|now apply set_defaults_NoDup]. split; [reflexivity|]. exists w, dn. auto.
Qed.
Lemma obj_search_asked e o f ats m k h q : NoDup (map fst k) -> obj_search e o f ats m k = (Ok h, q) ->
  ro_conn o = true /\ exists w sc, q = [w] /\ ro_scope o = Some sc /\
    asked e (mk_args (ro_dn o) sc f ats (m_timeout m) (m_limit m) (m_deref m) (m_attrs_only m) (m_refs m) (m_follow m) (m_syntax m) (set_defaults o k)) w h.
Proof.
  intros Hd. unfold obj_search. destruct (ro_conn o); [|discriminate]. cbn [negb]. destruct (ro_scope o) as [sc|]; [|discriminate]. intros H.
  apply search_asked in H as (w & -> & _ & A); [|now apply set_defaults_NoDup]. split; [reflexivity|]. exists w, sc. auto.
Qed.
Lemma made_inherits e o n k : ~ is_control (e_reg e) k_scope -> ~ is_control (e_reg e) k_rdn -> NoDup (map fst k) -> made e o n k -> inherits o k n.
Proof.
  intros C1 C2 Hd H. destruct H as [r H|r cs H|r ats h q dn H F|f ats m h q dn H F|r ats h q dn H F].
  - unfold obj_obj in H. destruct (ro_conn o).
    + destruct (rdn o r) as [dn|x]; [|discriminate]. cbn [bind] in H. unfold ldap_new_obj in H.
      refine (proj1 (new_robj_inherits _ _ _ _ _ _ _ _ H)); rewrite dget_ddel_neq by discriminate; [apply set_defaults_scope|apply set_defaults_rdn].
    + destruct (dmem _ _); [discriminate|]. destruct (rdn o r) as [dn|x]; [|discriminate]. cbn [bind] in H.
      exact (proj1 (new_robj_inherits _ _ _ _ _ _ (set_defaults_scope o k) (set_defaults_rdn o k) H)).
  - unfold obj_add_child in H. destruct (ro_conn o); [|discriminate]. cbn [negb] in H. destruct (rdn o r) as [dn|x]; [|discriminate]. cbn [bind] in H.
    destruct (e_unbound e); [discriminate|].
    destruct (process_kwds _ _ _ _ _ _) as [[cs' rest]|x] eqn:E; [|discriminate]. cbn [bind] in H.
    destruct (ldap_new_obj dn rest) as [n'|x] eqn:En; [|discriminate]. cbn [bind] in H. injection H as <- <-.
    destruct (proj1 (C24_controls_exactly _ _ _ _ _ _ (set_defaults_NoDup o k Hd)) _ _ E) as (_ & _ & -> & _).
    refine (proj1 (found_inherits o k (e_reg e) (mk_h true true (others_of (e_reg e) (set_defaults o k))) dn n' C1 C2 eq_refl _)). exact En.
  - apply obj_get_child_asked in H as (_ & w & d & _ & _ & A); [|exact Hd]. exact (proj1 (found_inherits _ _ _ _ _ _ C1 C2 (as_rest _ _ _ _ A) F)).
  - apply obj_search_asked in H as (_ & w & sc & _ & _ & A); [|exact Hd]. exact (proj1 (found_inherits _ _ _ _ _ _ C1 C2 (as_rest _ _ _ _ A) F)).
  - unfold obj_find in H. destruct (ro_conn o); [|discriminate]. cbn [negb] in H. destruct (ro_scope o) as [[]|] eqn:Es; try discriminate.
    + apply obj_get_child_asked in H as (_ & w & d & _ & _ & A); [|now apply set_defaults_NoDup]. apply as_rest in A. cbn [get_args a_kwds] in A.
      rewrite set_defaults_twice in A. exact (proj1 (found_inherits _ _ _ _ _ _ C1 C2 A F)).
    + destruct (rdn_attr_ _ _) as [av|x]; [|discriminate].
      apply obj_search_asked in H as (_ & w & sc & _ & _ & A); [|now apply set_defaults_NoDup]. apply as_rest in A. cbn [a_kwds] in A.
      rewrite set_defaults_twice in A. exact (proj1 (found_inherits _ _ _ _ _ _ C1 C2 A F)).
Qed.
Lemma below_same e o n : ~ is_control (e_reg e) k_scope -> ~ is_control (e_reg e) k_rdn -> below e o n ->
  ro_scope n = ro_scope o /\ ro_rdn_attr n = ro_rdn_attr o.
Proof.
  intros C1 C2. induction 1 as [|m n k _ [I1 I2] Hd H1 H2 M]; [auto|]. apply made_inherits in M as [M1 M2]; auto.
  rewrite H1 in M1. rewrite H2 in M2. split; congruence.
Qed.
Lemma reserved_no_control reserved reg k : coherent reserved reg -> In k reserved -> ~ is_control reg k.
Proof. intros (_ & _ & _ & H & _) Hin [c E]. apply H in E as (_ & _ & N & _). contradiction. Qed.
