(** * Validation over a schema described by rows *)
From Verif Require Import PyBase Model_Modify Model_Schema Model_Registration Model_Prep Model_Syntax Model_StdText Model_Std
  Spec_Schema Spec_StdTable Spec_Std Proofs_Schema.
From Coq Require Import Relations String.
#[local] Opaque class_rows type_rows base_schema_text netgroups_text.

Section Generic.
  Context (lower : str -> str) (isdigit : N -> bool) (depth : nat) (order : str -> str).
  Context (cv tv : Model_Schema.registry) (cl : list oclass) (ty : list atype) (srule : str -> option (str -> res unit)).
  Context (crank : nat -> nat) (trank : atype -> nat).
  Context (Hcd : forall n i, denotes lower isdigit cv n i <->
                   exists r, nth_error class_rows i = Some r /\ called lower isdigit (c_oid r) (c_names r) n).
  Context (Hcl : List.length cl = List.length class_rows) (Hcdepth : List.length cl < depth).
  Context (Hcr : forall i j, superclass lower isdigit cv cl i j -> crank j < crank i) (Hres : resolvable lower isdigit cv cl).
  Context (Hmust : forall i r a, nth_error class_rows i = Some r -> (inherits lower isdigit cv cl oc_must i a <-> lists (c_must r) a)).
  Context (Hmay : forall i r a, nth_error class_rows i = Some r -> (inherits lower isdigit cv cl oc_may i a <-> lists (c_may r) a)).
  Context (Htd : forall n i, denotes lower isdigit tv n i <->
                   exists r, nth_error type_rows i = Some r /\ called lower isdigit (t_oid r) (t_names r) n).
  Context (Htr : types_ranked lower isdigit tv ty trank) (Hsup : supertypes_registered lower isdigit tv ty).
  Context (Hwt : forall t, In t ty -> well_typed t) (Htdepth : forall t, In t ty -> trank t < depth).
  Context (Hrow : forall i r, nth_error type_rows i = Some r -> exists t, nth_error ty i = Some t /\ In t ty /\
    feature lower isdigit tv ty FSyntax t (VOid (Some (lit (t_syntax r)))) /\
    feature lower isdigit tv ty FLength t (VNum (match t_limit r with Some n => Z.of_N n | None => -1 end)) /\
    feature lower isdigit tv ty FSingle t (VFlag (t_single r)) /\
    feature lower isdigit tv ty FNoUserMod t (VFlag (t_no_user_mod r))).
  Context (Hsyn : forall r, In r type_rows -> lit (t_syntax r) <> [] /\
    exists f, srule (lit (t_syntax r)) = Some f /\ forall v, f v = Ok tt <-> obeys depth order (t_syntax r) v).
  Context (Hmen : forall r a, In r class_rows -> lists (c_must r) a \/ lists (c_may r) a -> exists i, denotes lower isdigit tv a i).

  Lemma class_called_denotes r n : class_called lower isdigit r n <-> exists i, nth_error class_rows i = Some r /\ denotes lower isdigit cv n i.
  Proof.
    split.
    - intros [Hr Hn]. apply In_nth_error in Hr as [i Hi]. exists i. split; [exact Hi|]. apply Hcd. now exists r.
    - intros (i & Hi & Hd). apply Hcd in Hd as (r' & Hr' & Hn). rewrite Hi in Hr'. injection Hr' as <-. split; [|exact Hn].
      eapply nth_error_In; eauto.
  Qed.
  Lemma type_called_denotes r n : type_called lower isdigit r n <-> exists i, nth_error type_rows i = Some r /\ denotes lower isdigit tv n i.
  Proof.
    split.
    - intros [Hr Hn]. apply In_nth_error in Hr as [i Hi]. exists i. split; [exact Hi|]. apply Htd. now exists r.
    - intros (i & Hi & Hd). apply Htd in Hd as (r' & Hr' & Hn). rewrite Hi in Hr'. injection Hr' as <-. split; [|exact Hn].
      eapply nth_error_In; eauto.
  Qed.
  Lemma type_called_fun r r' n : type_called lower isdigit r n -> type_called lower isdigit r' n -> r = r'.
  Proof.
    intros H H'. apply type_called_denotes in H as (i & Hi & Hd). apply type_called_denotes in H' as (i' & Hi' & Hd').
    rewrite (denotes_fun _ _ _ _ _ _ Hd Hd') in Hi. congruence.
  Qed.

  Lemma valid_rows i r t vs write : nth_error type_rows i = Some r -> nth_error ty i = Some t ->
    (valid_attribute lower isdigit tv ty srule t vs write <-> good_values depth order r vs write).
  Proof.
    intros Hr Ht. destruct (Hrow i r Hr) as (t' & Ht' & Hin & F1 & F2 & F3 & F4). rewrite Ht in Ht'. injection Ht' as <-.
    assert (FU : forall f v w, feature lower isdigit tv ty f t v -> feature lower isdigit tv ty f t w -> v = w)
      by (intros f v w; apply feature_fun).
    destruct (Hsyn r (nth_error_In _ _ Hr)) as (Hne & f & Ef & Hf).
    assert (V : forall v, valid_value lower isdigit tv ty srule t v <-> good_value depth order r v).
    { intros v. unfold valid_value, good_value. split.
      - intros [(n & Fn & Hn) (o & rule & Fo & _ & Eo & Ho)]. split.
        + intros k Ek. pose proof (FU _ _ _ F2 Fn) as E. rewrite Ek in E. injection E as <-. lia.
        + pose proof (FU _ _ _ F1 Fo) as E. assert (E' : o = lit (t_syntax r)) by congruence. subst o. rewrite Ef in Eo.
          injection Eo as <-. now apply Hf.
      - intros [Hl Ho]. split.
        + eexists. split; [exact F2|]. destruct (t_limit r) as [k|]; [right|left; lia]. specialize (Hl k eq_refl). lia.
        + exists (lit (t_syntax r)), f. split; [exact F1|]. split; [exact Hne|]. split; [exact Ef|]. now apply Hf. }
    unfold valid_attribute, good_values. split.
    - intros (A & B & C). split; [|split].
      + intros E. apply A. now rewrite E in F3.
      + intros E. destruct (t_no_user_mod r) eqn:Em; [|reflexivity]. exfalso. now apply (B E).
      + eapply Forall_impl; [|exact C]. intros v. apply V.
    - intros (A & B & C). split; [|split].
      + intros F. pose proof (FU _ _ _ F3 F) as E. injection E as E. now apply A.
      + intros E F. rewrite (B E) in F4. pose proof (FU _ _ _ F4 F). discriminate.
      + eapply Forall_impl; [|exact C]. intros v. apply V.
  Qed.

  Lemma value_rows i r t v : nth_error type_rows i = Some r -> nth_error ty i = Some t ->
    (type_validate lower isdigit tv ty srule depth t v = Ok tt <-> good_value depth order r v).
  Proof.
    intros Hr Ht. destruct (Hrow i r Hr) as (t' & Ht' & Hin & _ & _ & F3 & F4). rewrite Ht in Ht'. injection Ht' as <-.
    rewrite (type_validate_iff lower isdigit tv ty srule trank Htr Hwt depth t v Hin (Htdepth t Hin)).
    pose proof (valid_rows i r t [v] false Hr Ht) as V. split.
    - intros H. assert (H' : good_values depth order r [v] false).
      { apply V. split; [|split; [discriminate|constructor; [exact H|constructor]]]. intros _. cbn. lia. }
      destruct H' as (_ & _ & H'). now inversion H'.
    - intros H. assert (H' : valid_attribute lower isdigit tv ty srule t [v] false).
      { apply V. split; [|split; [discriminate|constructor; [exact H|constructor]]]. intros _. cbn. lia. }
      destruct H' as (_ & _ & H'). now inversion H'.
  Qed.
  Lemma validate_attribute_rows name vs write :
    validate_attribute lower isdigit tv ty srule depth name vs write = Ok tt ->
    (exists r, type_called lower isdigit r name /\ good_values depth order r vs write) \/ (vs = [] /\ unknown_name lower isdigit tv name).
  Proof.
    intros H. destruct (lookup lower isdigit tv name) as [[i|]|] eqn:El.
    - pose proof (proj1 (lookup_Some lower isdigit tv name i) El) as Hd. pose proof Hd as Hd'. apply Htd in Hd' as (r & Hr & Hc).
      destruct (Hrow i r Hr) as (t & Ht & Hin & _). left. exists r. split; [split; [eapply nth_error_In; eauto|exact Hc]|].
      apply (valid_rows i r t); auto.
      now apply (validate_attribute_iff lower isdigit tv ty srule trank Htr Hwt depth name i t vs write Hd Ht (Htdepth t Hin) Hsup).
    - right. unfold validate_attribute in H. rewrite El in H. cbn [bind] in H. split; [|now apply lookup_None].
      destruct vs; [reflexivity|]. cbn [validate_all] in H. discriminate.
    - unfold validate_attribute in H. rewrite El in H. discriminate.
  Qed.
  Lemma rows_validate_attribute r name vs write : type_called lower isdigit r name -> good_values depth order r vs write ->
    validate_attribute lower isdigit tv ty srule depth name vs write = Ok tt.
  Proof.
    intros Hc Hg. apply type_called_denotes in Hc as (i & Hi & Hd). destruct (Hrow i r Hi) as (t & Ht & Hin & _).
    apply (validate_attribute_iff lower isdigit tv ty srule trank Htr Hwt depth name i t vs write Hd Ht (Htdepth t Hin) Hsup).
    apply (valid_rows i r t); auto.
  Qed.
  Lemma validate_attributes_rows obj write :
    (forall a, In a (map fst obj) -> exists i, denotes lower isdigit tv a i) ->
    (validate_attributes lower isdigit tv ty srule depth obj write = Ok tt <->
     forall a vs, In (a, vs) obj -> exists r, type_called lower isdigit r a /\ good_values depth order r vs write).
  Proof.
    induction obj as [|[a vs] obj IH]; intros Hk; cbn [validate_attributes].
    - split; [intros _ a vs []|reflexivity].
    - specialize (IH (fun x H => Hk x (or_intror H))). split.
      + unfold bind. destruct (validate_attribute lower isdigit tv ty srule depth a vs write) as [[]|] eqn:E; [|discriminate].
        intros H a' vs' [Eq|Hin]; [|now apply IH]. injection Eq as <- <-.
        apply validate_attribute_rows in E as [E|[_ E]]; [exact E|]. exfalso.
        destruct (Hk a (or_introl eq_refl)) as [i Hd]. eapply denotes_unknown; eauto.
      + intros H. destruct (H a vs (or_introl eq_refl)) as (r & Hc & Hg). rewrite (rows_validate_attribute r a vs write Hc Hg). cbn [bind].
        apply IH. intros a' vs' Hin. apply H. now right.
  Qed.

  Lemma fitting_rows ocs keys : fits_classes lower isdigit cv cl ocs keys <-> fitting lower isdigit ocs keys.
  Proof.
    unfold fits_classes, fitting. split; intros [A B]; split.
    - intros n r a Hn Hc Hl. apply class_called_denotes in Hc as (i & Hi & Hd). apply (A n i a Hn Hd). now apply (Hmust i r).
    - intros a Ha. destruct (B a Ha) as (n & i & Hn & Hd & H). pose proof Hd as Hd'. apply Hcd in Hd' as (r & Hr & Hc).
      exists n, r. split; [exact Hn|]. split; [split; [eapply nth_error_In; eauto|exact Hc]|].
      destruct H as [H|H]; [left; now apply (Hmust i r)|right; now apply (Hmay i r)].
    - intros n i a Hn Hd H. pose proof Hd as Hd'. apply Hcd in Hd' as (r & Hr & Hc). apply (A n r a Hn); [|now apply (Hmust i r)].
      split; [eapply nth_error_In; eauto|exact Hc].
    - intros a Ha. destruct (B a Ha) as (n & r & Hn & Hc & H). apply class_called_denotes in Hc as (i & Hi & Hd).
      exists n, i. split; [exact Hn|]. split; [exact Hd|]. destruct H as [H|H]; [left; now apply (Hmust i r)|right; now apply (Hmay i r)].
  Qed.

  Lemma named_iff ocs : named_classes lower isdigit ocs <->
    (forall n, In n ocs -> (exists i, denotes lower isdigit cv n i /\ i < List.length cl) \/ unknown_name lower isdigit cv n).
  Proof.
    unfold named_classes. split; intros H n Hn; specialize (H n Hn).
    - destruct H as (c & rest & -> & Hd). destruct (isdigit c) eqn:Ec.
      + left. destruct (Hd eq_refl) as (r & Hr & E). apply In_nth_error in Hr as [i Hi]. exists i. split.
        * apply Hcd. exists r. split; [exact Hi|]. exists c, rest. rewrite Ec. auto.
        * rewrite Hcl. apply nth_error_Some. congruence.
      + destruct (dget (g_names cv) (lower (c :: rest))) as [i|] eqn:Eg.
        * left. exists i. assert (D : denotes lower isdigit cv (c :: rest) i) by (exists c, rest; rewrite Ec; auto). split; [exact D|].
          apply Hcd in D as (r & Hr & _). rewrite Hcl. apply nth_error_Some. congruence.
        * right. exists c, rest. auto.
    - destruct H as [(i & Hd & _)|Hu].
      + pose proof Hd as Hd'. apply Hcd in Hd' as (r & Hr & c & rest & -> & Hc). exists c, rest. split; [reflexivity|].
        intros Ec. rewrite Ec in Hc. exists r. split; [eapply nth_error_In; eauto|exact Hc].
      + destruct Hu as (c & rest & -> & Ec & _). exists c, rest. split; [reflexivity|]. congruence.
  Qed.
  Lemma collect_named fuel ocs : forall mm req allow x mm', collect lower isdigit cv cl fuel ocs mm req allow = (Ok x, mm') -> named_classes lower isdigit ocs.
  Proof.
    induction ocs as [|n ocs IH]; intros mm req allow x mm' H n' Hn; [contradiction|]. cbn [collect] in H.
    destruct (lookup lower isdigit cv n) as [[i|]|] eqn:El; [| |discriminate].
    - destruct (inherited lower isdigit cv cl fuel (fst mm) i) as [[m1|] mm1]; [|discriminate].
      destruct (inherited lower isdigit cv cl fuel (snd mm) i) as [[m2|] mm2]; [|discriminate].
      destruct Hn as [<-|Hn]; [|exact (IH _ _ _ _ _ H n' Hn)]. apply lookup_Some in El.
      pose proof El as D. apply Hcd in D as (r & Hr & c & rest & -> & Hc). exists c, rest. split; [reflexivity|].
      intros Ec. rewrite Ec in Hc. exists r. split; [eapply nth_error_In; eauto|exact Hc].
    - destruct Hn as [<-|Hn]; [|exact (IH _ _ _ _ _ H n' Hn)]. apply lookup_None in El.
      destruct El as (c & rest & -> & Ec & _). exists c, rest. split; [reflexivity|]. congruence.
  Qed.

  Lemma NoDup_keys (obj : list (str * list str)) : NoDup (map (fun kv => lower (fst kv)) obj) -> NoDup (map fst obj).
  Proof. intros H. rewrite <- map_map in H. eapply NoDup_map_inv; eauto. Qed.
  Lemma object_classes_In obj k ocs : NoDup (map (fun kv => lower (fst kv)) obj) -> In (k, ocs) obj -> lower k = lower (lit "objectClass") ->
    object_classes lower obj = Some ocs.
  Proof.
    intros Hnd Hin Hk. unfold object_classes. induction obj as [|[k' v] obj IH]; [contradiction|]. cbn [find fst].
    cbn [map fst] in Hnd. inversion Hnd as [|x l Hx Hnd']; subst. destruct (str_eqb_spec (lower k') (lower (lit "objectClass"))) as [E|N].
    - destruct Hin as [Eq|Hin]; [now injection Eq as <- <-|]. exfalso. apply Hx. rewrite E, <- Hk.
      apply in_map_iff. now exists (k, ocs).
    - destruct Hin as [Eq|Hin]; [injection Eq as <- <-; contradiction|]. now apply IH.
  Qed.

  Lemma object_rows mm obj write : memos_ok lower isdigit cv cl mm -> NoDup (map (fun kv => lower (fst kv)) obj) ->
    let r := schema_validate_object lower isdigit cv cl depth (validate_attributes lower isdigit tv ty srule depth) mm obj write in
    fst r = Ok tt <-> acceptable_object lower isdigit depth order obj write.
  Proof.
    intros Hmm Hnd r. unfold acceptable_object.
    assert (Key : forall ocs, object_classes lower obj = Some ocs -> named_classes lower isdigit ocs ->
      (fst r = Ok tt <-> fitting lower isdigit ocs (map fst obj) /\
         forall a vs, In (a, vs) obj -> exists r, type_called lower isdigit r a /\ good_values depth order r vs write)).
    { intros ocs Ho Hn. pose proof (proj1 (named_iff ocs) Hn) as Hn2.
      destruct (validate_object_spec lower isdigit cv cl crank Hcr Hres depth (validate_attributes lower isdigit tv ty srule depth) mm obj write ocs
                  Hcdepth Hmm (NoDup_keys obj Hnd) Ho Hn2) as [_ [[F E]|[F E]]]; unfold r; rewrite E.
      - apply fitting_rows in F. rewrite validate_attributes_rows; [tauto|]. intros a Ha. destruct F as [_ F].
        destruct (F a Ha) as (n & row & _ & [Hc _] & Hl). exact (Hmen row a Hc Hl).
      - split; [discriminate|]. intros [F' _]. exfalso. apply F. now apply fitting_rows. }
    split.
    - intros H. unfold r, schema_validate_object in H. destruct (object_classes lower obj) as [ocs|] eqn:Eo; [|discriminate].
      assert (Hn : named_classes lower isdigit ocs).
      { destruct (collect lower isdigit cv cl depth ocs mm [] []) as [[x|] mm'] eqn:Ec; [|discriminate]. eapply collect_named; eauto. }
      assert (Hr : fst r = Ok tt) by (unfold r, schema_validate_object; rewrite Eo; exact H).
      destruct (proj1 (Key ocs eq_refl Hn) Hr) as [F V]. unfold object_classes in Eo.
      destruct (find _ obj) as [[k v]|] eqn:Ef; [|discriminate]. injection Eo as <-. apply find_some in Ef as [Hin Ek].
      apply str_eqb_eq in Ek. exists k, v. split; [exact Hin|]. split; [exact Ek|]. split; [exact Hn|]. split; [exact F|exact V].
    - intros (k & ocs & Hin & Hk & Hn & F & V). apply (Key ocs (object_classes_In obj k ocs Hnd Hin Hk) Hn). auto.
  Qed.
  (** and what does not fit raises LDAPValidationError *)
  Lemma object_misfit mm obj write k ocs : memos_ok lower isdigit cv cl mm -> NoDup (map (fun kv => lower (fst kv)) obj) ->
    In (k, ocs) obj -> lower k = lower (lit "objectClass") -> named_classes lower isdigit ocs ->
    ~ fitting lower isdigit ocs (map fst obj) ->
    fst (schema_validate_object lower isdigit cv cl depth (validate_attributes lower isdigit tv ty srule depth) mm obj write) = Raise LDAPValidationError.
  Proof.
    intros Hmm Hnd Hin Hk Hn HF. pose proof (proj1 (named_iff ocs) Hn) as Hn2.
    destruct (validate_object_spec lower isdigit cv cl crank Hcr Hres depth (validate_attributes lower isdigit tv ty srule depth) mm obj write ocs
                Hcdepth Hmm (NoDup_keys obj Hnd) (object_classes_In obj k ocs Hnd Hin Hk) Hn2) as [_ [[F E]|[F E]]]; [|exact E].
    exfalso. apply HF. now apply fitting_rows.
  Qed.
End Generic.

(** ** Modifications *)
Section Modify.
  Context (lower : str -> str) (isdigit : N -> bool) (depth : nat) (order : str -> str).
  Context (tv : Model_Schema.registry) (ty : list atype) (srule : str -> option (str -> res unit)).
  Context (attr_rows : forall name vs write, validate_attribute lower isdigit tv ty srule depth name vs write = Ok tt ->
    (exists r, type_called lower isdigit r name /\ good_values depth order r vs write) \/ (vs = [] /\ unknown_name lower isdigit tv name)).
  Context (rows_attr : forall r name vs write, type_called lower isdigit r name -> good_values depth order r vs write ->
    validate_attribute lower isdigit tv ty srule depth name vs write = Ok tt).
  Lemma modify_rows mods : validate_modify lower isdigit tv ty srule depth mods = Ok tt <->
    forall a vs, In (a, vs) mods -> vs <> [] -> exists r, type_called lower isdigit r a /\ good_values depth order r vs true.
  Proof.
    induction mods as [|[a vs] mods IH]; cbn [validate_modify]; [split; [intros _ a vs []|reflexivity]|]. split.
    - intros H a' vs' [E|Hin] Hne.
      + injection E as <- <-. destruct vs as [|v vs]; [contradiction|]. unfold bind in H.
        destruct (validate_attribute lower isdigit tv ty srule depth a (v :: vs) true) as [[]|] eqn:Ev; [|discriminate].
        apply attr_rows in Ev as [Ev|[Ev _]]; [exact Ev|discriminate].
      + assert (H' : validate_modify lower isdigit tv ty srule depth mods = Ok tt).
        { destruct vs as [|v vs]; [exact H|]. unfold bind in H. destruct (validate_attribute _ _ _ _ _ _ _ _ _) as [[]|]; [exact H|discriminate]. }
        now apply (proj1 IH H').
    - intros H. assert (H' : validate_modify lower isdigit tv ty srule depth mods = Ok tt) by (apply IH; intros a' vs' Hin; apply H; now right).
      destruct vs as [|v vs]; [exact H'|]. destruct (H a (v :: vs) (or_introl eq_refl) ltac:(discriminate)) as (r & Hc & Hg).
      rewrite (rows_attr r a (v :: vs) true Hc Hg). exact H'.
  Qed.
End Modify.

(** ** required_attr and allowed_attr *)
Section Attrs.
  Context (lower : str -> str) (isdigit : N -> bool) (depth : nat) (g : Model_Registration.registry) (defs : list (str * built)).
  Notation cv := (class_view g).
  Notation cl := (std_classes defs).
  Context (crank : nat -> nat) (Hcdepth : List.length cl < depth).
  Context (Hcr : forall i j, superclass lower isdigit cv cl i j -> crank j < crank i) (Hres : resolvable lower isdigit cv cl).

  Lemma inherited_in own m i a : memo_ok lower isdigit cv cl own m -> i < List.length cl ->
    exists l m', inherited lower isdigit cv cl depth m i = (Ok l, m') /\ memo_ok lower isdigit cv cl own m' /\
      (smem a l = true <-> inherits lower isdigit cv cl own i a).
  Proof.
    intros Hm Hi. destruct (inherited_memo_ok lower isdigit cv cl own crank Hcr Hres depth m i Hm Hi) as (l & m' & E & Hl & Hm' & _).
    - eapply Nat.le_lt_trans; [apply pending_le|]. destruct Hm as [-> _]. exact Hcdepth.
    - exists l, m'. split; [exact E|]. split; [exact Hm'|]. rewrite smem_In. apply Hl.
  Qed.
  Lemma required_spec mm oc i attr : memos_ok lower isdigit cv cl mm -> denotes lower isdigit cv oc i -> i < List.length cl ->
    exists b mm', required_attr lower isdigit depth g defs mm oc attr = (Ok b, mm') /\ memos_ok lower isdigit cv cl mm' /\
      (b = true <-> inherits lower isdigit cv cl oc_must i attr).
  Proof.
    intros [H1 H2] Hd Hi. unfold required_attr. rewrite (proj2 (lookup_Some lower isdigit cv oc i) Hd).
    destruct (inherited_in oc_must (fst mm) i attr H1 Hi) as (l & m' & E & Hm' & Hb). rewrite E. cbn [bind].
    exists (smem attr l), (m', snd mm). split; [reflexivity|]. split; [split; assumption|exact Hb].
  Qed.
  Definition is_extensible (i : nat) : bool := match nth_error (classes_of defs) i with Some (ext, _) => ext | None => false end.
  Lemma allowed_spec mm oc i attr : memos_ok lower isdigit cv cl mm -> denotes lower isdigit cv oc i -> i < List.length cl ->
    exists b mm', allowed_attr lower isdigit depth g defs mm oc attr = (Ok b, mm') /\ memos_ok lower isdigit cv cl mm' /\
      (b = true <-> is_extensible i = true \/ inherits lower isdigit cv cl oc_may i attr \/ inherits lower isdigit cv cl oc_must i attr).
  Proof.
    intros [H1 H2] Hd Hi. unfold allowed_attr. rewrite (proj2 (lookup_Some lower isdigit cv oc i) Hd).
    fold (is_extensible i). destruct (is_extensible i).
    - exists true, mm. split; [reflexivity|]. split; [split; assumption|]. tauto.
    - destruct (inherited_in oc_may (snd mm) i attr H2 Hi) as (l & m' & E & Hm' & Hb). rewrite E.
      destruct (smem attr l) eqn:El.
      + exists true, (fst mm, m'). split; [reflexivity|]. split; [split; assumption|]. intuition discriminate.
      + destruct (inherited_in oc_must (fst mm) i attr H1 Hi) as (l1 & m1 & E1 & Hm1 & Hb1). rewrite E1. cbn [bind].
        exists (smem attr l1), (m1, m'). split; [reflexivity|]. split; [split; assumption|]. rewrite Hb1. intuition discriminate.
  Qed.
End Attrs.

(** ** index *)
Lemma index_loop_ext t t' : (forall v, at_prepare t v = at_prepare t' v) -> (forall p a, at_do_match t p a = at_do_match t' p a) ->
  forall l a i, index_loop t l a i = index_loop t' l a i.
Proof.
  intros Hp Hm. induction l as [|x l IH]; intros a i; [reflexivity|]. cbn [index_loop]. rewrite Hp.
  destruct (at_prepare t' x) as [p|]; [|reflexivity]. cbn [bind]. rewrite Hm. destruct (at_do_match t' p a) as [[|]|]; cbn [bind]; auto.
Qed.
Lemma at_index_ext t t' l v : (forall v, at_validate t v = at_validate t' v) -> (forall v, at_prepare t v = at_prepare t' v) ->
  (forall p a, at_do_match t p a = at_do_match t' p a) -> at_index t l v = at_index t' l v.
Proof.
  intros Hv Hp Hm. unfold at_index. destruct l as [|x l]; [reflexivity|]. rewrite Hv. destruct (at_validate t' v) as [[]|]; [|reflexivity]. cbn [bind].
  rewrite Hp. destruct (at_prepare t' v) as [p|]; [|reflexivity]. cbn [bind]. now apply index_loop_ext.
Qed.

Lemma index_loop_first t a : forall l n i, index_loop t l a n = Ok i <-> exists k, i = n + k /\
    (exists x p, nth_error l k = Some x /\ at_prepare t x = Ok p /\ at_do_match t p a = Ok true) /\
    (forall j y, j < k -> nth_error l j = Some y -> exists p, at_prepare t y = Ok p /\ at_do_match t p a = Ok false).
Proof.
  induction l as [|x l IH]; intros n i; cbn [index_loop].
  - split; [discriminate|]. intros (k & _ & (x & p & E & _) & _). destruct k; discriminate.
  - destruct (at_prepare t x) as [p|e] eqn:Ep; cbn [bind].
    2:{ split; [discriminate|]. intros (k & _ & (y & q & E & Eq & _) & H). destruct k as [|k]; [cbn in E; congruence|].
        destruct (H 0 x ltac:(lia) eq_refl) as (q' & E' & _). congruence. }
    destruct (at_do_match t p a) as [[|]|e] eqn:Em; cbn [bind].
    + split.
      * intros E. injection E as <-. exists 0. split; [lia|]. split; [exists x, p; auto|]. intros j y Hj. lia.
      * intros (k & -> & _ & H). destruct k as [|k]; [f_equal; lia|]. destruct (H 0 x ltac:(lia) eq_refl) as (q' & E' & E2). congruence.
    + rewrite IH. split.
      * intros (k & -> & H1 & H2). exists (S k). split; [lia|]. split; [exact H1|]. intros [|j] y Hj E; [cbn in E; injection E as <-; eauto|].
        apply (H2 j y); [lia|exact E].
      * intros (k & -> & (y & q & E & Eq & E2) & H2). destruct k as [|k]; [cbn in E; congruence|]. exists k. split; [lia|].
        split; [exists y, q; auto|]. intros j z Hj Ez. apply (H2 (S j) z); [lia|exact Ez].
    + split; [discriminate|]. intros (k & _ & (y & q & E & Eq & E2) & H). destruct k as [|k]; [cbn in E; congruence|].
      destruct (H 0 x ltac:(lia) eq_refl) as (q' & E' & E2'). congruence.
Qed.

Section Index.
  Context (lower : str -> str) (isdigit : N -> bool) (depth : nat) (order nfkc casefold : str -> str).
  Context (g : Model_Registration.registry) (defs : list (str * built)).
  Notation eqt := (equality lower isdigit depth order nfkc casefold g defs).
  Notation use := (usable lower isdigit depth order nfkc casefold g defs).
  Notation valid := (type_validate lower isdigit (type_view g) (std_types defs) (text_rule depth order g defs) depth).
  Lemma usable_index t r l v : eqt t = Ok r -> at_index (use t) l v = at_index (type_with_rule (valid t) r) l v.
  Proof.
    intros E. apply at_index_ext.
    - reflexivity.
    - intros x. cbn [at_prepare usable type_with_rule]. now rewrite E.
    - intros p a. cbn [at_do_match usable type_with_rule]. now rewrite E.
  Qed.
  Lemma usable_no_rule t e l v : eqt t = Raise e -> l <> [] -> valid t v = Ok tt -> at_index (use t) l v = Raise e.
  Proof.
    intros E Hl Hv. unfold at_index. destruct l as [|x l]; [contradiction|]. cbn [at_validate at_prepare usable]. rewrite Hv, E. reflexivity.
  Qed.
  Lemma index_invalid t l v i : valid t v <> Ok tt -> at_index (use t) l v <> Ok i.
  Proof.
    intros Hv. unfold at_index. destruct l as [|x l]; [discriminate|]. cbn [at_validate usable].
    destruct (valid t v) as [[]|]; [contradiction|discriminate].
  Qed.
  Lemma std_index_at a i t l v : denotes lower isdigit (type_view g) a i -> nth_error (std_types defs) i = Some t ->
    std_index lower isdigit depth order nfkc casefold g defs a l v = at_index (use t) l v.
  Proof.
    intros Hd Ht. unfold std_index. rewrite (proj2 (lookup_Some lower isdigit (type_view g) a i) Hd). cbn [bind]. now rewrite Ht.
  Qed.
End Index.
