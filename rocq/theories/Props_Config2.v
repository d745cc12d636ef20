(** * C43, C63, C65, continued: shipped defaults, refused configurations, used entries *)
From Verif Require Import PyBase Model_Uri Proofs_Uri Model_Config Spec_Config Proofs_Config Proofs_Config2 Proofs_Config3 Props_Config.
From Coq Require Import Permutation.

(** ** C43: nothing configured means the documented defaults *)
Theorem C43_shipped :
  (forall n v, In (n, v) shipped -> dget initial_defaults n = Some v) /\
  (forall n v, In n global_names -> dget initial_defaults n = Some v ->
     In (n, v) shipped \/ (n = lit "DEFAULT_DEREF_ALIASES" /\ exists k, v = VOther k)).
Proof.
  split.
  - intros n v I. unfold shipped in I. cbn -[lit] in I.
    repeat (destruct I as [I|I]; [inv I; reflexivity|]). destruct I.
  - intros n v I G. unfold global_names in I. cbn -[lit] in I.
    repeat (destruct I as [I|I]; [subst n; vm_compute in G; injection G as <-;
      first [right; split; [reflexivity|eexists; reflexivity]|left; vm_compute; tauto]|]). destruct I.
Qed.

(** ** C63: what counts as asked for is Python's truth *)
Theorem C63_truth v : truthy v = false <-> In v false_values.
Proof.
  unfold false_values. cbn [In]. split.
  - destruct v as [|[]|z|[|]|x|x|[|]|[|]| | | | ]; cbn; intro H; try discriminate; auto 10.
    destruct (Z.eqb_spec z 0); [subst; auto|discriminate].
  - intros [<-|[<-|[<-|[<-|[<-|[<-|[]]]]]]]; reflexivity.
Qed.

(** ** C63: a validator that is neither a path nor an instance *)
Lemma validator_list_fails e pre v post x :
  Forall (fun v => exists y, validator_of e v y) pre -> validator_one e v = Raise x ->
  validator_list e (pre ++ v :: post) = Raise x.
Proof.
  intros H V. induction H as [|p pre [y Hy] _ IH]; cbn [List.app validator_list].
  - rewrite V. reflexivity.
  - assert (exists z, validator_one e p = Ok z) as [z ->].
    { destruct Hy as [(m & o & n & -> & No & Im & ->)|(n & -> & ->)]; [|eexists; reflexivity].
      cbn [validator_one]. assert (R : rsplit_dot (m ++ lit "." ++ o) = Some (m, o)).
      { assert (N : rsplit_dot o = None).
        { clear -No. induction o as [|c o IH]; [reflexivity|]. cbn [rsplit_dot]. rewrite IH by (intro; apply No; now right).
          destruct (N.eqb_spec c (ch ".")) as [->|]; [exfalso; apply No; now left|reflexivity]. }
        clear -N. induction m as [|c m IH]; cbn [List.app].
        - change (rsplit_dot (46%N :: o) = Some ([], o)). cbn [rsplit_dot]. rewrite N. reflexivity.
        - cbn [rsplit_dot]. rewrite IH. reflexivity. }
      rewrite R, Im. cbn [bind]. eauto. }
    cbn [bind]. rewrite IH. reflexivity.
Qed.
Lemma rsplit_none s : ~ In (ch ".") s -> rsplit_dot s = None.
Proof.
  induction s as [|c s IH]; intro H; [reflexivity|]. cbn [rsplit_dot]. rewrite IH by (intro; apply H; now right).
  destruct (N.eqb_spec c (ch ".")) as [->|]; [exfalso; apply H; now left|reflexivity].
Qed.
Lemma rsplit_some m o : ~ In (ch ".") o -> rsplit_dot (m ++ lit "." ++ o) = Some (m, o).
Proof.
  intro H. induction m as [|c m IH]; cbn [List.app].
  - change (rsplit_dot (46%N :: o) = Some ([], o)). cbn [rsplit_dot]. rewrite rsplit_none by exact H. reflexivity.
  - cbn [rsplit_dot]. rewrite IH. reflexivity.
Qed.

(** The exception for the first bad entry of the list: TypeError for a value of another kind, ValueError for a
    name without a dot, and whatever importing it raises. Nothing has been opened or sent. *)
Inductive bad_validator (e : env) : cval -> exn -> Prop :=
| bad_kind v : (forall s, v <> VStr s) -> (forall n, v <> VValidator n) -> bad_validator e v TypeError
| bad_path s : ~ In (ch ".") s -> bad_validator e (VStr s) ValueError
| bad_import m o x : ~ In (ch ".") o -> e_import e m o = Raise x -> bad_validator e (VStr (m ++ lit "." ++ o)) x.
Theorem C63_bad_validator upper lower w e d objs pre v post x :
  not_asked d (lit "simple_bind") \/ not_asked d (lit "sasl_bind") ->
  dget d (lit "default_filter_syntax") = None ->
  dget d (lit "validators") = Some (VList (pre ++ v :: post)) ->
  Forall (fun v => exists y, validator_of e v y) pre -> bad_validator e v x ->
  exists y, create_connection upper lower w e d objs = (Raise x, w, y).
Proof.
  intros Nb Nf Gv Hp Hv.
  assert (V : validator_mapper e (VList (pre ++ v :: post)) = Raise x).
  { unfold validator_mapper. cbn [iter_val bind]. rewrite (validator_list_fails e pre v post x Hp); [reflexivity|].
    destruct Hv as [v N1 N2|s N|m o x N I].
    - destruct v; try reflexivity; [exfalso; eapply N1; reflexivity|exfalso; eapply N2; reflexivity].
    - cbn [validator_one]. rewrite rsplit_none by exact N. reflexivity.
    - cbn [validator_one]. rewrite rsplit_some by exact N. rewrite I. reflexivity. }
  destruct (create_connection upper lower w e d objs) as [[r w'] [d' o']] eqn:C. apply cc_spec in C as (_ & C).
  assert (NA : forall k, not_asked d k -> truthy (conf d k) = false).
  { intros k H. unfold conf. destruct (dget d k) eqn:G; [exact (H _ G)|reflexivity]. }
  destruct C as [(T1 & T2 & _)|(_ & [(y & -> & -> & [(v0 & G & M)|(v0 & G & _)])|(kw & Ha & _)])].
  - exfalso. destruct Nb as [H|H]; apply NA in H; congruence.
  - rewrite Gv in G. inv G. rewrite V in M. inv M. eauto.
  - congruence.
  - exfalso. destruct Ha as (_ & _ & _ & _ & Hv' & _). destruct (Hv' _ Gv) as (v' & M & _). congruence.
Qed.

(** ** C63: entries that are refused: a tag in use, a bad scope *)
Theorem C63_tag_in_use lower e c d t : entry_ok lower e d -> dget d (lit "tag") = Some (VStr t) ->
  (exists o, tget (cn_tags c) (KStr t) = Some o) ->
  exists d', create_single_object lower e c d = (Raise TagError, d').
Proof.
  intros Ok_ Tg (o & Fo).
  (* the same entry on a connection without tags succeeds, and only the tag makes the difference *)
  pose (c0 := mk_conn (cn_settings c) (cn_uri c) (cn_params c) (cn_validators c) (cn_base c) (cn_sasl_mech c) []).
  destruct (single_live lower e c0 d t Ok_ Tg eq_refl) as (c1 & d1 & H). exists d1.
  assert (New : forall dn dd, dget dd (lit "tag") = Some (VStr t) -> new_obj e c0 dn dd = Ok c1 -> new_obj e c dn dd = Raise TagError).
  { intros dn dd Gt. unfold new_obj. destruct (negb _); [discriminate|]. destruct (e_attrs e _) as [[]|]; cbn [bind]; [|discriminate].
    assert (K : kw_default dd (lit "tag") VNone = VStr t) by (unfold kw_default; rewrite Gt; reflexivity). rewrite K. cbn [tag_key].
    intros _. rewrite Fo. reflexivity. }
  assert (Step : forall base first dd, first = lit "rdn" \/ first = lit "dn" -> dget dd (lit "tag") = Some (VStr t) ->
     object_step e c0 base first dd = (Ok c1, d1) -> object_step e c base first dd = (Raise TagError, d1)).
  { intros base first dd Hf Gt. unfold object_step, dmem. rewrite Gt. cbn [negb]. destruct (dget dd first) as [v|]; [|discriminate].
    assert (Gt' : dget (ddel dd first) (lit "tag") = Some (VStr t)).
    { rewrite dget_ddel_other; [exact Gt|]. destruct Hf as [->| ->]; discriminate. }
    destruct base.
    - change (base_rdn c0 v) with (base_rdn c v). destruct (base_rdn c v) as [dn|]; [|discriminate].
      intro Q. assert (Q1 : new_obj e c0 dn (ddel dd first) = Ok c1) by congruence. assert (dd = d1) by congruence. subst dd.
      rewrite (New _ _ Gt' Q1). reflexivity.
    - intro Q. assert (Q1 : new_obj e c0 v (ddel dd first) = Ok c1) by congruence. assert (dd = d1) by congruence. subst dd.
      rewrite (New _ _ Gt' Q1). reflexivity. }
  assert (Sc : forall base first, first = lit "rdn" \/ first = lit "dn" ->
     object_scope lower e c0 base first d = (Ok c1, d1) -> object_scope lower e c base first d = (Raise TagError, d1)).
  { intros base first Hf. unfold object_scope. destruct (dget d (lit "relative_search_scope")) as [s|].
    - destruct (scope_string lower s); [|discriminate]. apply Step; [exact Hf|]. rewrite dget_dset_other by discriminate. exact Tg.
    - apply Step; assumption. }
  unfold create_single_object in *. destruct (dget d (lit "rdn")), (dget d (lit "dn")); try discriminate H;
    (apply Sc; [auto|exact H]).
Qed.

Theorem C63_bad_scope lower e c d v :
  dget d (lit "relative_search_scope") = Some v -> (forall v', ~ scope_word lower v v') ->
  (exists u, (dget d (lit "dn") = Some u /\ dget d (lit "rdn") = None) \/ (dget d (lit "dn") = None /\ dget d (lit "rdn") = Some u)) ->
  create_single_object lower e c d = (Raise (match v with VStr _ => ValueError | _ => AttributeError end), d).
Proof.
  intros G N U.
  assert (S : scope_string lower v = Raise (match v with VStr _ => ValueError | _ => AttributeError end)).
  { destruct (scope_string lower v) as [v'|x] eqn:E.
    - exfalso. apply (N v'). apply scope_string_spec. exact E.
    - destruct v; cbn [scope_string] in E; try (inv E; reflexivity).
      repeat match type of E with context [if ?b then _ else _] => destruct b end; inv E; reflexivity. }
  unfold create_single_object. destruct U as (u & [(-> & ->)|(-> & ->)]); unfold object_scope; rewrite G, S; reflexivity.
Qed.

(** ** C63: entries are carried out in order, and each changes at most the scope of its own dict *)
Lemma single_after lower e c d r d' : create_single_object lower e c d = (r, d') -> entry_after lower d d'.
Proof.
  unfold create_single_object.
  assert (St : forall base first dd, snd (object_step e c base first dd) = dd).
  { intros base first dd. unfold object_step. destruct (negb _); [reflexivity|]. destruct (dget dd first) as [v|]; [|reflexivity].
    destruct base; [destruct (base_rdn c v)|]; reflexivity. }
  assert (Sc : forall base first, object_scope lower e c base first d = (r, d') -> entry_after lower d d').
  { intros base first. unfold object_scope. destruct (dget d (lit "relative_search_scope")) as [s|] eqn:Es.
    - destruct (scope_string lower s) as [s'|x] eqn:E; intro H.
      + right. exists s, s'. pose proof (St base first (dset d (lit "relative_search_scope") s')) as Q. rewrite H in Q. cbn [snd] in Q. subst d'.
        split; [exact Es|]. split; [apply scope_string_spec; exact E|]. split; [apply dget_dset_here|].
        split; [apply dset_keys_in; congruence|]. intros k Hk. apply dget_dset_other. congruence.
      + left. inv H. reflexivity.
    - intro H. left. pose proof (St base first d) as Q. rewrite H in Q. exact Q. }
  intro H. destruct (dget d (lit "rdn")), (dget d (lit "dn")); eauto; left; inv H; reflexivity.
Qed.
Theorem C63_entries_in_order lower e l : forall c r l',
  create_objects lower e c l = (r, l') ->
  (exists c', r = Ok c' /\ Forall2 (entry_after lower) l l') \/
  (exists x pre pre' d d' post c1, r = Raise x /\ l = pre ++ d :: post /\ l' = pre' ++ d' :: post /\
     create_objects lower e c pre = (Ok c1, pre') /\ create_single_object lower e c1 d = (Raise x, d') /\
     Forall2 (entry_after lower) pre pre' /\ entry_after lower d d').
Proof.
  induction l as [|d l IH]; intros c r l' H; cbn [create_objects] in H.
  - inv H. left. eexists. split; [reflexivity|constructor].
  - destruct (create_single_object lower e c d) as [[c1|x] d1] eqn:S.
    + destruct (create_objects lower e c1 l) as [r1 l1] eqn:O. inv H. pose proof (single_after _ _ _ _ _ _ S) as A.
      destruct (IH _ _ _ O) as [(c' & -> & F)|(x & pre & pre' & d2 & d2' & post & c2 & -> & -> & -> & Cp & Cs & F & A2)].
      * left. exists c'. split; [reflexivity|]. constructor; assumption.
      * right. exists x, (d :: pre), (d1 :: pre'), d2, d2', post, c2. split; [reflexivity|]. split; [reflexivity|]. split; [reflexivity|].
        split; [cbn [create_objects]; rewrite S, Cp; reflexivity|]. split; [exact Cs|]. split; [constructor; assumption|exact A2].
    + inv H. right. exists x, [], [], d, d1, l, c. split; [reflexivity|]. split; [reflexivity|]. split; [reflexivity|].
      split; [reflexivity|]. split; [exact S|]. split; [constructor|]. eapply single_after, S.
Qed.

(** Refuted: using the entries twice. A scope that has been translated is not a word any more. *)
Theorem C63_refuted_entry_twice lower e e2 c c2 c1 d d1 :
  create_single_object lower e c d = (Ok c1, d1) -> (exists v, dget d (lit "relative_search_scope") = Some v) ->
  create_single_object lower e2 c2 d1 = (Raise AttributeError, d1).
Proof.
  intros H (v & G).
  assert (W : exists v', scope_word lower v v' /\ dget d1 (lit "relative_search_scope") = Some v' /\
     forall k, k <> lit "relative_search_scope" -> dget d1 k = dget d k).
  { destruct (single_after _ _ _ _ _ _ H) as [->|(v0 & v' & G0 & W & G1 & _ & O)].
    - exfalso. destruct (single_ok _ _ _ _ _ _ H) as (o & t & (_ & [(Q & _)|(v0 & G0 & W)] & _) & _); [congruence|].
      rewrite G in G0. inv G0. unfold create_single_object, object_scope in H. rewrite G in H.
      pose proof (proj2 (scope_string_spec lower _ _) W) as S. rewrite S in H.
      assert (St : forall base first dd, snd (object_step e c base first dd) = dd).
      { intros base first dd. unfold object_step. destruct (negb _); [reflexivity|]. destruct (dget dd first) as [u|]; [|reflexivity].
        destruct base; [destruct (base_rdn c u)|]; reflexivity. }
      assert (E : dset d (lit "relative_search_scope") (co_scope o) = d).
      { destruct (dget d (lit "rdn")), (dget d (lit "dn")); try discriminate H.
        - pose proof (St true (lit "rdn") (dset d (lit "relative_search_scope") (co_scope o))) as Q. rewrite H in Q. symmetry. exact Q.
        - pose proof (St false (lit "dn") (dset d (lit "relative_search_scope") (co_scope o))) as Q. rewrite H in Q. symmetry. exact Q. }
      assert (G2 : dget (dset d (lit "relative_search_scope") (co_scope o)) (lit "relative_search_scope") = Some (co_scope o)) by apply dget_dset_here.
      rewrite E, G in G2. injection G2 as G2. destruct W as (s & -> & [[_ Q]|[[_ Q]|[_ Q]]]); rewrite Q in G2; discriminate G2.
    - rewrite G in G0. inv G0. eauto. }
  destruct W as (v' & W & G1 & O).
  assert (X : exists sc, v' = VScope sc) by (destruct W as (s & _ & [[_ ->]|[[_ ->]|[_ ->]]]); eauto). destruct X as [sc ->].
  rewrite (C63_bad_scope lower e2 c2 d1 (VScope sc) G1); [reflexivity| |].
  - intros v2 (s & Q & _). discriminate Q.
  - rewrite !O by discriminate. unfold create_single_object in H.
    destruct (dget d (lit "rdn")) as [u|] eqn:E1, (dget d (lit "dn")) as [u'|] eqn:E2; try discriminate H; eauto.
Qed.

Lemma some_kobj a b : Some (KObj a) = Some (KObj b) -> a = b. Proof. congruence. Qed.
Lemma some_kint a b : Some (KInt a) = Some (KInt b) -> a = b. Proof. congruence. Qed.
Lemma some_kstr a b : Some (KStr a) = Some (KStr b) -> a = b. Proof. congruence. Qed.
(** Two entries clash exactly when Python takes their tags for the same key. *)
Theorem C63_tag_clash a b ka kb : tag_key a = Some ka -> tag_key b = Some kb ->
  (tkey_eqb ka kb = true <-> same_tag a b).
Proof.
  intros A B.
  assert (E : tkey_eqb ka kb = true <-> ka = kb).
  { destruct ka, kb; cbn [tkey_eqb]; try (split; discriminate).
    - destruct (str_eqb_spec s s0); split; congruence.
    - rewrite Z.eqb_eq. split; congruence.
    - rewrite N.eqb_eq. split; congruence. }
  rewrite E. split.
  - intros ->. unfold same_tag. clear E. pose proof A as A0. rewrite <- B in A.
    destruct a as [|[]|z|s|[]|[]|l|dd|n|n|u p|n], b as [|[]|z'|s'|[]|[]|l'|dd'|n'|n'|u' p'|n']; cbv beta iota delta [tag_key] in A; try discriminate A; try discriminate A0; try discriminate B; clear A0 B;
      first [apply some_kobj in A|apply some_kint in A|apply some_kstr in A];
      first [solve [left; reflexivity] | solve [exfalso; clear -A; lia]
            | solve [left; f_equal; clear -A; lia] | solve [left; congruence]
            | solve [right; left; subst; eexists; split; constructor]
            | solve [right; right; do 4 eexists; split; reflexivity]].
  - intros [->|[(z & N1 & N2)|(u1 & p1 & u2 & p2 & -> & ->)]]; [congruence| |].
    + destruct N1; inversion N2; subst; cbn [tag_key] in *; congruence.
    + cbn [tag_key] in *. congruence.
Qed.

(** ** Cases *)
Example C63_refused_nonvacuous :
  let d := [(lit "dn", VStr (lit "o=x")); (lit "tag", VStr (lit "t")); (lit "relative_search_scope", VStr (lit "one"))] in
  let c := mk_conn [] (lit "ldap://h") [] [] VNone VNone [] in
  exists c1 d1, create_single_object (fun s => s) ex_env c d = (Ok c1, d1) /\
    create_single_object (fun s => s) ex_env c1 d = (Raise TagError, d1) /\
    create_single_object (fun s => s) ex_env c d1 = (Raise AttributeError, d1) /\
    bad_validator ex_env (VStr (lit "Nodots")) ValueError /\ bad_validator ex_env (VInt 3) TypeError.
Proof.
  cbv zeta. eexists _, _. split; [vm_compute; reflexivity|]. split; [vm_compute; reflexivity|]. split; [vm_compute; reflexivity|].
  split; [apply bad_path; vm_compute; intuition discriminate|apply bad_kind; discriminate].
Qed.

Print Assumptions C43_shipped.
Print Assumptions C63_truth.
Print Assumptions C63_bad_validator.
Print Assumptions C63_tag_in_use.
Print Assumptions C63_bad_scope.
Print Assumptions C63_entries_in_order.
Print Assumptions C63_refuted_entry_twice.
Print Assumptions C63_tag_clash.
