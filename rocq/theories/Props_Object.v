(** * C77, C78: objects own their value lists; equality of objects *)
From Verif Require Import PyBase Model_CIDict Spec_CIDict Proofs_CIDict Model_Object Spec_Object Proofs_Object.

Section C77.
  Context (lower : str -> str).
  Notation Reach := (reachable lower).
  Notation exec := (step lower).

  (** o[a] is a value list of that attribute (so that its membership tests follow the schema) *)
  Theorem C77_value_lists w i a id : Reach w -> list_of lower w i a = Some id ->
    exists k vs, nth_error (w_heap w) id = Some (mk_l (Some k) vs) /\ same_name lower k a.
  Proof.
    intros R H. destruct (list_of_In lower w i a id (WI_reachable lower w R) H) as (o & k & vs & _ & E & _ & V). exists k, vs. auto.
  Qed.

  (** no list is the value of two attributes, or of two objects, and none is a list of the program's own *)
  Theorem C77_own_lists w i j a b id : Reach w -> list_of lower w i a = Some id -> list_of lower w j b = Some id -> i = j /\ same_name lower a b.
  Proof.
    intros R H1 H2. assert (W := WI_reachable lower w R). destruct (list_of_In lower w i a id W H1) as (o & k & vs & Ho & E & I1 & _).
    destruct (list_of_In lower w j b id W H2) as (p & k' & vs' & Hp & E' & I2 & _).
    assert (i = j) by (eapply (proj2 W); eauto). subst j. split; [reflexivity|]. assert (p = o) by congruence. subst p.
    unfold same_name. rewrite <- E, <- E'. f_equal. destruct (proj1 W i o Ho) as (_ & _ & J). now apply (J k k' id).
  Qed.
  Theorem C77_never_the_callers_list w i a id : Reach w -> list_of lower w i a = Some id -> ~ plain w id.
  Proof. intros R H [vs V]. destruct (C77_value_lists w i a id R H) as (k & vs' & V' & _). congruence. Qed.

  (** changing a list in place changes the attribute whose list it is, and nothing else *)
  Theorem C77_write_list w i a id l : Reach w -> list_of lower w i a = Some id ->
    snd (exec w (WriteList id l)) = OUnit (Ok tt) /\ becomes lower w (fst (exec w (WriteList id l))) i a (Some l).
  Proof.
    intros R H. destruct (C77_value_lists w i a id R H) as (k & vs & V & S). cbn [step]. rewrite V. split; [reflexivity|]. cbn [fst].
    assert (X : forall j b, list_of lower (mk_w (upd (w_heap w) id (fun x => mk_l (l_attr x) l)) (w_objs w)) j b = list_of lower w j b)
      by (intros j b; rewrite !list_of_eq; reflexivity).
    intros j b. unfold view. rewrite X. cbn [w_heap]. split.
    - intros [-> Hb]. assert (Hl : list_of lower w i b = Some id) by (rewrite list_of_eq in H |- *; unfold same_name in Hb; now rewrite Hb).
      rewrite Hl. unfold vals. now rewrite nth_upd, V, Nat.eqb_refl.
    - intros N. destruct (list_of lower w j b) as [id2|] eqn:E; [|reflexivity]. f_equal. unfold vals. rewrite nth_upd.
      destruct (Nat.eqb_spec id2 id) as [->|Ne]; [|destruct (nth_error (w_heap w) id2); reflexivity].
      exfalso. apply N. exact (C77_own_lists w j i b a id R E H).
  Qed.
  (** changing any other list - one passed in, one of the program's own - changes nothing *)
  Theorem C77_write_other w id l : Reach w -> (forall i a, list_of lower w i a <> Some id) -> unchanged lower w (fst (exec w (WriteList id l))).
  Proof.
    intros R N i a. cbn [step]. destruct (nth_error (w_heap w) id) as [x|] eqn:V; [|reflexivity]. cbn [fst]. unfold view.
    assert (X : list_of lower (mk_w (upd (w_heap w) id (fun x => mk_l (l_attr x) l)) (w_objs w)) i a = list_of lower w i a)
      by (rewrite !list_of_eq; reflexivity).
    rewrite X. cbn [w_heap]. destruct (list_of lower w i a) as [id2|] eqn:E; [|reflexivity]. f_equal. unfold vals. rewrite nth_upd.
    destruct (Nat.eqb_spec id2 id) as [->|Ne]; [now destruct (N i a)|destruct (nth_error (w_heap w) id2); reflexivity].
  Qed.

  (** o[a] = r: the values are copied if a is a str and r a list of str and bytes; TypeError and no change otherwise *)
  Theorem C77_set w i a r : Reach w -> (exists o, nth_error (w_objs w) i = Some o) ->
    let (w', x) := exec w (SetItem i a r) in
    (exists k vs, a = NStr k /\ list_arg w r vs /\ texts vs /\ x = OUnit (Ok tt) /\ becomes lower w w' i k (Some vs)) \/
    (~ (exists k vs, a = NStr k /\ list_arg w r vs /\ texts vs) /\ x = OUnit (Raise TypeError) /\ unchanged lower w w').
  Proof.
    intros R [o Ho]. assert (W := WI_reachable lower w R). assert (G := proj1 W i o Ho). cbn [step]. unfold with_obj. rewrite Ho.
    destruct (od_set lower (w_heap w) (o_dict o) a r) as [[h d] x] eqn:E. cbn [out_unit].
    destruct (set_iff lower _ _ _ _ _ _ _ G E) as [[-> (k & id & -> & -> & T)]|[-> N]].
    - left. exists k, (vals (w_heap w) id). split; [reflexivity|]. split; [exists id; auto|]. split; [exact T|]. split; [reflexivity|].
      destruct (set_any lower _ _ _ _ _ _ _ G E) as [_ [Ex _]]. apply (becomes_if lower w i o); auto. now apply hview_set.
    - right. split; [|split; [reflexivity|]].
      + intros (k & vs & -> & (id & -> & ->) & T). apply N. exists k, id. auto.
      + destruct (set_err lower _ _ _ _ _ _ _ E) as (_ & -> & Ex). apply (unchanged_if lower w i o); auto. intros b. now apply hview_ext.
  Qed.

  (** del o[a] *)
  Theorem C77_delete w i a : Reach w -> (exists o, nth_error (w_objs w) i = Some o) ->
    let (w', x) := exec w (DelItem i a) in
    becomes lower w w' i a None /\ x = OUnit (match view lower w i a with Some _ => Ok tt | None => Raise KeyError end).
  Proof.
    intros R [o Ho]. assert (W := WI_reachable lower w R). destruct (proj1 W i o Ho) as (I & _). cbn [step]. unfold with_obj. rewrite Ho.
    pose proof (del_spec lower (o_dict o) a I) as D. destruct (cid_del lower (o_dict o) a) as [d' r]. destruct D as (_ & V & ->). split.
    - apply (becomes_if lower w i o); auto using ext_refl. intros b. unfold hview at 1. rewrite V. destruct (str_eqb (lower b) (lower a)); reflexivity.
    - f_equal. rewrite view_eq, Ho. destruct (dview (o_dict o) (lower a)); reflexivity.
  Qed.
  Theorem C77_clear w i : Reach w -> (exists o, nth_error (w_objs w) i = Some o) ->
    let (w', x) := exec w (Clear i) in
    x = OUnit (Ok tt) /\ items w' i = [] /\ forall j b, view lower w' j b = if Nat.eqb j i then None else view lower w j b.
  Proof.
    intros R [o Ho]. assert (W := WI_reachable lower w R). cbn [step]. unfold with_obj. rewrite Ho. split; [reflexivity|]. split.
    { unfold items. cbn [w_objs]. rewrite nth_upd, Ho, Nat.eqb_refl. reflexivity. }
    intros j b. rewrite (view_grow lower w i o); auto using ext_refl.
  Qed.

  (** o.update({...}) with valid entries: the last entry of each name counts; all lists are copies *)
  Theorem C77_update w i kvs : Reach w -> (exists o, nth_error (w_objs w) i = Some o) ->
    acceptable (w_heap w) kvs -> (forall a id, In (a, RList id) kvs -> id < List.length (w_heap w)) ->
    let (w', x) := exec w (Update i kvs) in
    x = OUnit (Ok tt) /\
    forall j b, view lower w' j b = if Nat.eqb j i then match given_for lower kvs b with Some id => Some (vals (w_heap w) id) | None => view lower w i b end
                                    else view lower w j b.
  Proof.
    intros R [o Ho] A B. assert (W := WI_reachable lower w R). assert (G := proj1 W i o Ho). cbn [step]. unfold with_obj. rewrite Ho.
    unfold od_update. assert (C : exists u, check_dict (w_heap w) kvs = Ok u).
    { apply check_dict_iff. intros a r Hi. destruct (A a r Hi) as (k & id & -> & -> & T). split; [eauto|]. apply check_vals_iff. eauto. }
    destruct C as [u ->]. destruct (set_all_ok lower kvs (w_heap w) (o_dict o) G A B) as (h & d & E & _ & [Ex _] & V). rewrite E. cbn [out_unit].
    split; [reflexivity|]. intros j b. rewrite (view_grow lower w i o); auto. destruct (Nat.eqb j i); [|reflexivity]. rewrite V.
    destruct (given_for lower kvs b); [reflexivity|]. now apply hview_view.
  Qed.
  (** ... with an invalid entry (and no DELETE_ALL): TypeError, nothing changed *)
  Theorem C77_update_refused_partial w i kvs : Reach w -> (exists o, nth_error (w_objs w) i = Some o) ->
    ~ acceptable (w_heap w) kvs -> (forall a, ~ In (a, RDeleteAll) kvs) ->
    let (w', x) := exec w (Update i kvs) in x = OUnit (Raise TypeError) /\ unchanged lower w w'.
  Proof.
    intros R [o Ho] A B. assert (W := WI_reachable lower w R). assert (G := proj1 W i o Ho). cbn [step]. unfold with_obj. rewrite Ho.
    unfold od_update. destruct (check_dict (w_heap w) kvs) as [u|e] eqn:C.
    - exfalso. apply A. intros a r Hi. destruct (proj1 (check_dict_iff _ _) (ex_intro _ u C) a r Hi) as [[k ->] X].
      apply check_vals_iff in X as [->|(id & -> & T)]; [now destruct (B (NStr k))|]. exists k, id. auto.
    - apply check_dict_err in C. subst e. cbn [out_unit]. split; [reflexivity|]. apply (unchanged_if lower w i o); auto using ext_refl.
  Qed.
  (** ... whatever is passed: other objects are not changed, and any error is a TypeError *)
  Theorem C77_update_others w i kvs : Reach w -> let (w', x) := exec w (Update i kvs) in
    (forall j b, j <> i -> view lower w' j b = view lower w j b) /\ (x = OUnit (Ok tt) \/ x = OUnit (Raise TypeError) \/ x = OUnit (Raise NameError)).
  Proof.
    intros R. assert (W := WI_reachable lower w R). cbn [step]. unfold with_obj. destruct (nth_error (w_objs w) i) as [o|] eqn:Ho; [|auto].
    assert (G := proj1 W i o Ho). destruct (od_update lower (w_heap w) (o_dict o) kvs) as [[h d] x] eqn:E. cbn [out_unit].
    destruct (update_any lower kvs _ _ _ _ _ G E) as [_ [Ex _]]. split.
    - intros j b N. rewrite (view_grow lower w i o); auto. destruct (Nat.eqb_spec j i); [contradiction|reflexivity].
    - unfold od_update in E. destruct (check_dict (w_heap w) kvs) as [u|e] eqn:C.
      + revert E. generalize (w_heap w) (o_dict o). clear. induction kvs as [|[a r] kvs IH]; intros h0 d0 E; cbn [od_set_all] in E.
        * injection E as _ _ <-. auto.
        * destruct (od_set lower h0 d0 a r) as [[h1 d1] [u1|e1]] eqn:E1; [now apply IH in E|].
          destruct (set_err lower _ _ _ _ _ _ _ E1) as (-> & _). injection E as _ _ <-. auto.
      + injection E as _ _ <-. apply check_dict_err in C. subst e. auto.
  Qed.
  (** DELETE_ALL passes validation but cannot be stored: TypeError with the entries before it already written *)
  Theorem C77_update_refused_half_done_refuted w i k k' id : Reach w -> (exists o, nth_error (w_objs w) i = Some o) -> texts (vals (w_heap w) id) ->
    let kvs := [(NStr k, RList id); (NStr k', RDeleteAll)] in
    ~ acceptable (w_heap w) kvs /\ snd (exec w (Update i kvs)) = OUnit (Raise TypeError) /\
    becomes lower w (fst (exec w (Update i kvs))) i k (Some (vals (w_heap w) id)).
  Proof.
    intros R [o Ho] T kvs. assert (W := WI_reachable lower w R). assert (G := proj1 W i o Ho). split.
    - intros A. destruct (A (NStr k') RDeleteAll) as (x & y & _ & X & _); [now right; left|discriminate].
    - cbn [step]. unfold with_obj. rewrite Ho. unfold od_update, kvs. cbn [check_dict check_attr bind].
      destruct (proj2 (check_vals_iff (w_heap w) (RList id)) (or_intror (ex_intro _ id (conj eq_refl T)))) as [u ->]. cbn [bind check_vals od_set_all].
      destruct (set_ok lower (w_heap w) (o_dict o) k id G T) as (h & d & E & _ & [Ex _] & _). rewrite E. cbn [od_set out_unit snd fst].
      split; [reflexivity|]. apply (becomes_if lower w i o); auto. now apply hview_set.
  Qed.

  (** LDAPObject(dn, {...}): as an update of an empty object *)
  Theorem C77_new w dn kvs : Reach w -> let (w', x) := exec w (NewObj dn kvs) in
    (forall j b, j < List.length (w_objs w) -> view lower w' j b = view lower w j b) /\
    (acceptable (w_heap w) kvs -> (forall a id, In (a, RList id) kvs -> id < List.length (w_heap w)) ->
     x = OObj (Ok (List.length (w_objs w))) /\
     (exists o, nth_error (w_objs w') (List.length (w_objs w)) = Some o /\ o_dn o = dn) /\
     forall b, view lower w' (List.length (w_objs w)) b = match given_for lower kvs b with Some id => Some (vals (w_heap w) id) | None => None end) /\
    (~ acceptable (w_heap w) kvs -> x = OObj (Raise TypeError) /\ unchanged lower w w').
  Proof.
    intros R. assert (W := WI_reachable lower w R). cbn [step].
    destruct (od_update lower (w_heap w) cid_empty kvs) as [[h d] x] eqn:E. assert (G0 := good_empty lower (w_heap w)).
    destruct (update_any lower kvs _ _ _ _ _ G0 E) as [_ [Ex _]]. unfold od_update in E.
    rewrite (surjective_pairing (made_obj w dn (h, d, x))). split; [|split].
    - unfold made_obj. destruct x as [u|e]; cbn [fst]; intros j b L.
      + rewrite <- (view_heap lower w h W Ex j b), !view_eq. cbn [w_objs w_heap]. now rewrite nth_error_app1.
      + now apply view_heap.
    - intros A B. assert (C : exists u, check_dict (w_heap w) kvs = Ok u).
      { apply check_dict_iff. intros a r Hi. destruct (A a r Hi) as (k & id & -> & -> & T). split; [eauto|]. apply check_vals_iff. eauto. }
      destruct C as [u C]. rewrite C in E. destruct (set_all_ok lower kvs (w_heap w) cid_empty G0 A B) as (h1 & d1 & E1 & _ & _ & V).
      rewrite E1 in E. injection E as <- <- <-. cbn [made_obj fst snd]. split; [reflexivity|]. split.
      + eexists. cbn [w_objs]. split; [apply nth_last|reflexivity].
      + intros b. rewrite view_eq. cbn [w_objs w_heap]. rewrite nth_last. cbn [o_dict]. exact (V b).
    - intros A. assert (x = Raise TypeError) as ->.
      { destruct (check_dict (w_heap w) kvs) as [u|e] eqn:C.
        - assert (D : exists a r, In (a, r) kvs /\ r = RDeleteAll).
          { destruct (existsb (fun kv => match snd kv with RDeleteAll => true | _ => false end) kvs) eqn:X.
            - apply existsb_exists in X as ([a r] & Hi & X). exists a, r. split; [exact Hi|]. destruct r; try discriminate. reflexivity.
            - exfalso. apply A. intros a r Hi. destruct (proj1 (check_dict_iff _ _) (ex_intro _ u C) a r Hi) as [[k ->] Y].
              apply check_vals_iff in Y as [->|(id & -> & T)]; [|exists k, id; auto].
              assert (Z : existsb (fun kv => match snd kv with RDeleteAll => true | _ => false end) kvs = true); [|congruence].
              apply existsb_exists. exists (NStr k, RDeleteAll). auto. }
          destruct D as (a & r & Hi & ->). revert E Hi. generalize (w_heap w) (@cid_empty nat). clear. induction kvs as [|[a0 r0] kvs IH]; intros h0 d0 E Hi; [destruct Hi|].
          cbn [od_set_all] in E. destruct (od_set lower h0 d0 a0 r0) as [[h1 d1] [u1|e1]] eqn:E1.
          + destruct Hi as [[= -> ->]|Hi]; [discriminate|]. now apply IH in E.
          + destruct (set_err lower _ _ _ _ _ _ _ E1) as (-> & _). now injection E as _ _ <-.
        - injection E as _ _ <-. apply check_dict_err in C. now subst e. }
      cbn [made_obj fst snd]. split; [reflexivity|]. now apply view_heap.
  Qed.

  (** o.setdefault(a, r), a present: the object's own list, nothing changed *)
  Theorem C77_setdefault_present w i k r id : Reach w -> list_of lower w i k = Some id ->
    (r = None \/ r = Some RDeleteAll \/ exists vs q, r = Some q /\ list_arg w q vs /\ texts vs) ->
    let (w', x) := exec w (SetDefault i (NStr k) r) in x = OList (Ok id) /\ unchanged lower w w' /\ list_of lower w' i k = Some id.
  Proof.
    intros R H Hr. assert (W := WI_reachable lower w R). rewrite list_of_eq in H. destruct (nth_error (w_objs w) i) as [o|] eqn:Ho; [|discriminate].
    cbn [step]. unfold with_obj. rewrite Ho. unfold od_setdefault. cbn [check_attr]. rewrite get_dview, H.
    assert (X : exists h1 q, (match r with None => let (h', id) := alloc (w_heap w) (mk_l None []) in (h', RList id) | Some r => (w_heap w, r) end) = (h1, q) /\
                ext (w_heap w) h1 /\ exists u, check_vals h1 q = Ok u).
    { destruct Hr as [->|[->|(vs & q & -> & (id' & -> & ->) & T)]]; cbn [alloc]; eexists _, _; (split; [reflexivity|]).
      - split; [apply ext_snoc|]. apply check_vals_iff. right. eexists. split; [reflexivity|]. unfold vals. rewrite nth_last. intros e [].
      - split; [apply ext_refl|]. apply check_vals_iff. auto.
      - split; [apply ext_refl|]. apply check_vals_iff. eauto. }
    destruct X as (h1 & q & -> & Ex & u & ->). cbn [out_list]. split; [reflexivity|]. split.
    - apply (unchanged_if lower w i o); auto. intros b. apply hview_ext; [|exact Ex]. now apply (proj1 W i).
    - rewrite list_of_eq. cbn [w_objs]. rewrite nth_upd, Ho, Nat.eqb_refl. exact H.
  Qed.
  (** ... a absent: the attribute gets the values of the default; the list returned is the default, which is not the object's list *)
  Theorem C77_setdefault_absent w i k q id : Reach w -> (exists o, nth_error (w_objs w) i = Some o) -> list_of lower w i k = None ->
    q = RList id -> texts (vals (w_heap w) id) ->
    let (w', x) := exec w (SetDefault i (NStr k) (Some q)) in x = OList (Ok id) /\ becomes lower w w' i k (Some (vals (w_heap w) id)).
  Proof.
    intros R [o Ho] H -> T. assert (W := WI_reachable lower w R). assert (G := proj1 W i o Ho). rewrite list_of_eq, Ho in H.
    cbn [step]. unfold with_obj. rewrite Ho. unfold od_setdefault. cbn [check_attr]. rewrite get_dview, H.
    destruct (proj2 (check_vals_iff (w_heap w) (RList id)) (or_intror (ex_intro _ id (conj eq_refl T)))) as [u ->].
    destruct (set_ok lower (w_heap w) (o_dict o) k id G T) as (h & d & E & _ & [Ex _] & _). rewrite E. cbn [out_list]. split; [reflexivity|].
    apply (becomes_if lower w i o); auto. now apply hview_set.
  Qed.
  (** so appending to what setdefault returned is lost - for every object, name and history *)
  Theorem C77_setdefault_returns_own_list_refuted w i k l : Reach w -> (exists o, nth_error (w_objs w) i = Some o) -> list_of lower w i k = None ->
    exists id, snd (exec w (SetDefault i (NStr k) None)) = OList (Ok id) /\
    let w' := fst (exec w (SetDefault i (NStr k) None)) in
    view lower w' i k = Some [] /\ list_of lower w' i k <> Some id /\ unchanged lower w' (fst (exec w' (WriteList id l))).
  Proof.
    intros R [o Ho] H. assert (W := WI_reachable lower w R). assert (G := proj1 W i o Ho). rewrite list_of_eq, Ho in H.
    assert (R' : Reach (fst (exec w (SetDefault i (NStr k) None)))).
    { destruct R as [cs ->]. exists (cs ++ [SetDefault i (NStr k) None]). clear. generalize start. induction cs as [|c cs IH]; intros w; cbn [app run]; [reflexivity|apply IH]. }
    revert R'. cbn [step]. unfold with_obj. rewrite Ho. unfold od_setdefault. cbn [check_attr alloc]. rewrite get_dview, H.
    set (h1 := w_heap w ++ [mk_l None []]). assert (Ex0 : ext (w_heap w) h1) by apply ext_snoc.
    assert (V : vals h1 (List.length (w_heap w)) = []) by (unfold vals, h1; now rewrite nth_last).
    assert (T : texts (vals h1 (List.length (w_heap w)))) by (rewrite V; intros e []).
    destruct (proj2 (check_vals_iff h1 (RList (List.length (w_heap w)))) (or_intror (ex_intro _ _ (conj eq_refl T)))) as [u ->].
    destruct (set_ok lower h1 (o_dict o) k (List.length (w_heap w)) (good_ext lower _ _ _ Ex0 G) T) as (h & d & E & _ & [Ex _] & _ & _ & DV & _).
    rewrite E. cbn [out_list fst snd]. intros R'. exists (List.length (w_heap w)). split; [reflexivity|].
    assert (P : nth_error h (List.length (w_heap w)) = Some (mk_l None [])) by (apply (ext_nth h1); [exact Ex|apply nth_last]).
    split; [|split].
    - rewrite (view_grow lower w i o); auto; [|now apply (ext_trans _ h1)]. rewrite Nat.eqb_refl.
      rewrite (hview_set lower h1 (o_dict o) k (List.length (w_heap w)) h d (good_ext lower _ _ _ Ex0 G) T E), str_eqb_refl. now rewrite V.
    - intros X. apply (C77_never_the_callers_list _ i k _ R' X). exists []. exact P.
    - apply C77_write_other; [exact R'|]. intros j b X. apply (C77_never_the_callers_list _ j b _ R' X). exists []. exact P.
  Qed.

  (** o.get_attr(a): the object's list, or a new empty list that is nobody's *)
  Theorem C77_get_attr w i a : Reach w -> (exists o, nth_error (w_objs w) i = Some o) ->
    let (w', x) := exec w (GetAttr i a) in unchanged lower w w' /\
    match list_of lower w i a with
    | Some id => x = OList (Ok id)
    | None => exists id, x = OList (Ok id) /\ vals (w_heap w') id = [] /\ plain w' id
    end.
  Proof.
    intros R [o Ho]. assert (W := WI_reachable lower w R). rewrite list_of_eq, Ho. cbn [step]. unfold with_obj. rewrite Ho, get_dview.
    destruct (dview (o_dict o) (lower a)) as [id|]; cbn [alloc].
    - split; [|reflexivity]. apply (unchanged_if lower w i o); auto using ext_refl.
    - split; [apply (unchanged_if lower w i o); auto using ext_snoc; intros b; apply hview_ext; [now apply (proj1 W i)|apply ext_snoc]|].
      eexists. split; [reflexivity|]. cbn [w_heap]. split; [unfold vals; now rewrite nth_last|]. exists []. apply nth_last.
  Qed.

  (** a in o: there are values *)
  Theorem C77_contains w i o a : nth_error (w_objs w) i = Some o -> (obj_contains lower (w_heap w) o a = true <-> exists v vs, view lower w i a = Some (v :: vs)).
  Proof.
    intros Ho. unfold obj_contains. rewrite view_eq, Ho, get_dview. destruct (dview (o_dict o) (lower a)) as [id|]; [|split; [discriminate|intros (v & vs & X); discriminate]].
    destruct (vals (w_heap w) id) as [|v vs]; cbn [List.length Nat.ltb Nat.leb]; split; eauto; try discriminate. intros (v & vs & X); discriminate.
  Qed.

  (** o.deepcopy(): the same names and values in new lists *)
  Theorem C77_deepcopy w i o : Reach w -> nth_error (w_objs w) i = Some o ->
    let (w', x) := exec w (DeepCopy i) in unchanged lower w w' /\
    exists copy, x = ODict (Ok copy) /\ map fst copy = map fst (items w i) /\
      Forall2 (fun c it => vals (w_heap w') (snd c) = vals (w_heap w) (snd it)) copy (items w i) /\
      NoDup (map snd copy) /\ forall n, In n (map snd copy) -> List.length (w_heap w) <= n /\ plain w' n.
  Proof.
    intros R Ho. assert (W := WI_reachable lower w R). destruct (proj1 W i o Ho) as (_ & T & _). cbn [step]. rewrite Ho.
    pose proof (deep_ext (cdata (o_dict o)) (w_heap w)) as Ex. unfold items. rewrite Ho. unfold cid_items.
    assert (L : forall l h, (forall k id, In (k, id) l -> id < List.length h) -> forall h' r, deep h l = (h', r) ->
              ext h h' /\ map fst r = map fst l /\ Forall2 (fun c it => vals h' (snd c) = vals h (snd it)) r l /\ NoDup (map snd r) /\
              forall n, In n (map snd r) -> List.length h <= n /\ exists vs, nth_error h' n = Some (mk_l None vs)).
    { clear. induction l as [|[k id] l IH]; intros h Hl h' r E; cbn [deep alloc] in E.
      - injection E as <- <-. split; [apply ext_refl|]. split; [reflexivity|]. split; [constructor|]. split; [constructor|intros n []].
      - set (h1 := h ++ [mk_l None (vals h id)]) in *. assert (Ex1 : ext h h1) by apply ext_snoc.
        destruct (deep h1 l) as [h2 r2] eqn:E2. injection E as <- <-.
        destruct (IH h1) with (h' := h2) (r := r2) as (Ex & F & V & N & P); [intros k' id' Hi; specialize (Hl k' id' (or_intror Hi)); pose proof (ext_len _ _ Ex1); lia|exact E2|].
        assert (Hn : nth_error h2 (List.length h) = Some (mk_l None (vals h id))) by (apply (ext_nth h1); [exact Ex|apply nth_last]).
        assert (Len : List.length h1 = S (List.length h)) by (unfold h1; rewrite app_length; cbn [List.length]; lia).
        cbn [map fst snd]. split; [now apply (ext_trans _ h1)|]. split; [now rewrite F|]. split; [constructor|].
        + cbn [snd]. unfold vals at 1. now rewrite Hn.
        + assert (Hl' : forall k id, In (k, id) l -> vals h1 id = vals h id) by (intros k' id' Hi; apply ext_texts; [exact Ex1|]; apply (Hl k'); now right).
          clear - V Hl'. induction V as [|c [k' id'] r l Hc V IH]; [constructor|]. constructor; [|apply IH; intros k n Hi; apply (Hl' k); now right].
          rewrite Hc. cbn [snd]. apply (Hl' k'). now left.
        + split; [constructor; [|exact N]; intros Hi; apply P in Hi as [Hi _]; lia|]. intros n [<-|Hi]; [split; [lia|eauto]|].
          destruct (P n Hi) as [X Y]. split; [lia|exact Y]. }
    destruct (deep (w_heap w) (cdata (o_dict o))) as [h r] eqn:E. cbn [fst] in Ex. split; [now apply view_heap|]. exists r. split; [reflexivity|].
    cbn [w_heap]. destruct (L _ _ (fun k id => typed_lt (w_heap w) (o_dict o) k id T) _ _ E) as (_ & A & B & C & D). auto.
  Qed.

  (** o.update(other object), LDAPObject(dn, other object): for an object that lists what it looks up *)
  Theorem C77_update_from_partial w i j : Reach w -> (exists o, nth_error (w_objs w) i = Some o) -> (exists p, nth_error (w_objs w) j = Some p) ->
    tidy lower w j -> all_texts w j ->
    let (w', x) := exec w (UpdateFrom i j) in x = OUnit (Ok tt) /\
    forall m b, view lower w' m b = if Nat.eqb m i then match view lower w j b with Some vs => Some vs | None => view lower w i b end else view lower w m b.
  Proof.
    intros R [o Ho] [p Hp] Ti Tx. assert (W := WI_reachable lower w R). assert (Go := proj1 W i o Ho). assert (Gp := proj1 W j p Hp).
    apply (tidy_iff lower w j p Hp) in Ti. unfold all_texts, items in Tx. rewrite Hp in Tx. unfold cid_items in Tx.
    cbn [step]. rewrite Hp. unfold with_obj. rewrite Ho. destruct (Nat.eqb_spec i j) as [<-|Ne].
    - assert (p = o) by congruence. subst p. destruct (copy_self_ok lower (cid_keys (o_dict o)) (w_heap w) (o_dict o) Go Ti (fun x H => H) Tx) as (h & d & E & _ & [Ex _] & V).
      rewrite E. cbn [out_unit]. split; [reflexivity|]. intros m b. rewrite (view_grow lower w i o); auto.
      destruct (Nat.eqb_spec m i) as [->|N]; [|reflexivity]. rewrite V, (hview_view lower w i o b Ho). destruct (view lower w i b); reflexivity.
    - destruct (copy_ok lower (o_dict p) (cid_keys (o_dict p)) (w_heap w) (o_dict o) Go Gp Ti (fun x H => H) Tx) as (h & d & E & _ & [Ex _] & V).
      rewrite E. cbn [out_unit]. split; [reflexivity|]. intros m b. rewrite (view_grow lower w i o); auto.
      destruct (Nat.eqb_spec m i) as [->|N]; [|reflexivity]. rewrite V, <- (hview_view lower w j p b Hp), <- (hview_view lower w i o b Ho).
      destruct (existsb (fun k => str_eqb (lower b) (lower k)) (cid_keys (o_dict p))) eqn:X.
      + destruct (keys_cover_tidy lower _ _ Ti X) as [id Hid]. unfold hview at 1 2. now rewrite Hid.
      + unfold hview at 2. destruct (dview (o_dict p) (lower b)) as [id|] eqn:D; [|reflexivity].
        apply (keys_cover lower _ _ _ (proj1 Gp)) in D. congruence.
  Qed.
  Theorem C77_new_from_partial w dn j p : Reach w -> nth_error (w_objs w) j = Some p -> tidy lower w j -> all_texts w j ->
    let (w', x) := exec w (NewObjFrom dn j) in x = OObj (Ok (List.length (w_objs w))) /\
    (exists o, nth_error (w_objs w') (List.length (w_objs w)) = Some o /\ o_dn o = dn) /\
    (forall b, view lower w' (List.length (w_objs w)) b = view lower w j b) /\ forall m b, m < List.length (w_objs w) -> view lower w' m b = view lower w m b.
  Proof.
    intros R Hp Ti Tx. assert (W := WI_reachable lower w R). assert (Gp := proj1 W j p Hp).
    apply (tidy_iff lower w j p Hp) in Ti. unfold all_texts, items in Tx. rewrite Hp in Tx. unfold cid_items in Tx.
    cbn [step]. rewrite Hp.
    destruct (copy_ok lower (o_dict p) (cid_keys (o_dict p)) (w_heap w) cid_empty (good_empty lower _) Gp Ti (fun x H => H) Tx) as (h & d & E & _ & [Ex _] & V).
    rewrite E. cbn [made_obj]. split; [reflexivity|]. split; [|split].
    - eexists. cbn [w_objs]. split; [apply nth_last|reflexivity].
    - intros b. rewrite view_eq. cbn [w_objs w_heap]. rewrite nth_last. cbn [o_dict]. change (hview lower h d b = view lower w j b).
      rewrite V, <- (hview_view lower w j p b Hp). destruct (existsb (fun k => str_eqb (lower b) (lower k)) (cid_keys (o_dict p))) eqn:X; [reflexivity|].
      unfold hview at 2. destruct (dview (o_dict p) (lower b)) as [id|] eqn:D; [|reflexivity]. apply (keys_cover lower _ _ _ (proj1 Gp)) in D. congruence.
    - intros m b L. rewrite <- (view_heap lower w h W Ex m b), !view_eq. cbn [w_objs w_heap]. now rewrite nth_error_app1.
  Qed.
  (** every object is so if every attribute name is always spelled in one way *)
  Theorem C77_one_spelling_tidy cs i o : one_spelling lower (flat_map spelled cs) -> nth_error (w_objs (run lower start cs)) i = Some o -> tidy lower (run lower start cs) i.
  Proof.
    intros S Ho. apply (tidy_iff lower _ i o Ho).
    assert (X : WW lower (flat_map spelled cs) (run lower start cs)).
    { apply WW_run; [exact S|intros x Hx; exact Hx|apply WI_start|]. intros j p Hp. destruct j; discriminate. }
    apply (InvW_tidy lower (flat_map spelled cs)); [|now apply (X i)]. apply (proj1 (WI_run lower cs start (WI_start lower)) i o Ho).
  Qed.

  (** ** C78 *)
  Lemma equal_iff w i j o p : Reach w -> nth_error (w_objs w) i = Some o -> nth_error (w_objs w) j = Some p ->
    (obj_eq (w_heap w) o p = true <-> o_dn o = o_dn p /\ forall k, raw (w_heap w) (o_dict o) k = raw (w_heap w) (o_dict p) k).
  Proof.
    intros R Ho Hp. assert (W := WI_reachable lower w R). unfold obj_eq. rewrite andb_true_iff, str_eqb_eq.
    rewrite (dict_eq_iff lower); [reflexivity| |]; eapply (proj1 W); eauto.
  Qed.
  (** == is an equivalence, and != its negation *)
  Theorem C78_reflexive w i o : Reach w -> nth_error (w_objs w) i = Some o -> equal w i i.
  Proof. intros R Ho. exists o, o. split; [exact Ho|]. split; [exact Ho|]. apply (equal_iff w i i); auto. Qed.
  Theorem C78_symmetric w i j : Reach w -> equal w i j -> equal w j i.
  Proof.
    intros R (o & p & Ho & Hp & E). exists p, o. split; [exact Hp|]. split; [exact Ho|]. apply (equal_iff w i j o p R Ho Hp) in E as [A B].
    apply (equal_iff w j i p o R Hp Ho). auto.
  Qed.
  Theorem C78_transitive w i j k : Reach w -> equal w i j -> equal w j k -> equal w i k.
  Proof.
    intros R (o & p & Ho & Hp & E) (p' & q & Hp' & Hq & E'). assert (p' = p) by congruence. subst p'. exists o, q. split; [exact Ho|]. split; [exact Hq|].
    apply (equal_iff w i j o p R Ho Hp) in E as [A B]. apply (equal_iff w j k p q R Hp Hq) in E' as [A' B'].
    apply (equal_iff w i k o q R Ho Hq). split; [congruence|]. intros x. now rewrite B.
  Qed.
  Theorem C78_ne w o p : obj_ne (w_heap w) o p = negb (obj_eq (w_heap w) o p).
  Proof. reflexivity. Qed.
  (** objects listing the names they look up, with names spelled alike: equal exactly if the DN and the values of each attribute are *)
  Theorem C78_equal_iff_partial w i j : Reach w -> (exists o, nth_error (w_objs w) i = Some o) -> (exists p, nth_error (w_objs w) j = Some p) ->
    tidy lower w i -> tidy lower w j -> one_spelling lower (map fst (items w i ++ items w j)) ->
    (equal w i j <-> same_content lower w i j).
  Proof.
    intros R [o Ho] [p Hp] Ti Tj Sp. assert (W := WI_reachable lower w R). apply (tidy_iff lower w i o Ho) in Ti. apply (tidy_iff lower w j p Hp) in Tj.
    assert (Io := proj1 (proj1 W i o Ho)). assert (Ip := proj1 (proj1 W j p Hp)).
    assert (RV : (forall k, raw (w_heap w) (o_dict o) k = raw (w_heap w) (o_dict p) k) <-> forall a, view lower w i a = view lower w j a).
    { rewrite (raw_views lower (w_heap w) (o_dict o) (o_dict p) Io Ip Ti Tj).
      - split; intros H a; specialize (H a); rewrite !(hview_view lower w i o a Ho), !(hview_view lower w j p a Hp) in *; exact H.
      - intros k1 k2 H1 H2 E. unfold items in Sp. rewrite Ho, Hp, map_app in Sp. apply Sp; [apply in_or_app; auto|apply in_or_app; auto|exact E]. }
    unfold same_content. rewrite <- RV. split.
    - intros (o' & p' & Ho' & Hp' & E). assert (o' = o) by congruence. assert (p' = p) by congruence. subst o' p'.
      apply (equal_iff w i j o p R Ho Hp) in E as [A B]. split; [|exact B]. intros o' p' Ho2 Hp2. congruence.
    - intros [A B]. exists o, p. split; [exact Ho|]. split; [exact Hp|]. apply (equal_iff w i j o p R Ho Hp). auto.
  Qed.
  (** LDAPObject(o.dn, o) == o, for such objects *)
  Theorem C78_copy_equal_partial w j p : Reach w -> nth_error (w_objs w) j = Some p -> tidy lower w j -> all_texts w j ->
    exists m, snd (exec w (NewObjFrom (o_dn p) j)) = OObj (Ok m) /\ m <> j /\ equal (fst (exec w (NewObjFrom (o_dn p) j))) m j.
  Proof.
    intros R Hp Ti Tx. assert (W := WI_reachable lower w R). assert (Gp := proj1 W j p Hp). assert (W' := WI_step lower w (NewObjFrom (o_dn p) j) W).
    apply (tidy_iff lower w j p Hp) in Ti. unfold all_texts, items in Tx. rewrite Hp in Tx. unfold cid_items in Tx. revert W'.
    cbn [step]. rewrite Hp.
    destruct (copy_raw lower (o_dict p) (cid_keys (o_dict p)) (w_heap w) cid_empty (good_empty lower _) Gp Ti (fun x H => H) Tx) as (h & d & E & Ex & V).
    rewrite E. cbn [made_obj fst snd]. intros W'. exists (List.length (w_objs w)). split; [reflexivity|].
    assert (L : j < List.length (w_objs w)) by (apply nth_error_Some; congruence). split; [lia|].
    assert (Hn : nth_error (w_objs w ++ [mk_o (o_dn p) d]) (List.length (w_objs w)) = Some (mk_o (o_dn p) d)) by apply nth_last.
    assert (Hj : nth_error (w_objs w ++ [mk_o (o_dn p) d]) j = Some p) by (now rewrite nth_error_app1).
    exists (mk_o (o_dn p) d), p. split; [exact Hn|]. split; [exact Hj|]. unfold obj_eq. cbn [o_dn o_dict w_heap]. rewrite str_eqb_refl. cbn [andb].
    apply (dict_eq_iff lower); [exact (proj1 (proj1 W' _ _ Hn))|exact (proj1 (proj1 W' _ _ Hj))|]. intros k. rewrite V, (raw_ext lower _ _ _ k Gp Ex).
    destruct (existsb (fun x => str_eqb k x) (cid_keys (o_dict p))) eqn:X; [reflexivity|]. unfold raw. cbn [cid_empty cdata dget].
    destruct (dget (cdata (o_dict p)) k) as [id|] eqn:D; [|reflexivity]. apply dget_In in D. exfalso.
    assert (Y : existsb (fun x => str_eqb k x) (cid_keys (o_dict p)) = true); [|congruence]. apply existsb_exists. exists k. split; [apply keys_In; eauto|apply str_eqb_refl].
  Qed.
  (** different DN: never equal *)
  Theorem C78_dn w i j o p : nth_error (w_objs w) i = Some o -> nth_error (w_objs w) j = Some p -> equal w i j -> o_dn o = o_dn p.
  Proof.
    intros Ho Hp (o' & p' & Ho' & Hp' & E). assert (o' = o) by congruence. assert (p' = p) by congruence. subst o' p'.
    unfold obj_eq in E. apply andb_true_iff in E as [E _]. now apply str_eqb_eq.
  Qed.
End C77.

(** ** Refuted: equality looks at the spelling of names, lookups do not *)
Definition two (k1 k2 : str) : list call := [NewList [EStr (lit "x")]; NewObj (lit "o=a") [(NStr k1, RList 0)]; NewObj (lit "o=a") [(NStr k2, RList 0)]].
Theorem C78_spelling_refuted : let w := run ascii_lower start (two (lit "cn") (lit "CN")) in
  reachable ascii_lower w /\ tidy ascii_lower w 0 /\ tidy ascii_lower w 1 /\ same_content ascii_lower w 0 1 /\ ~ equal w 0 1.
Proof.
  intros w.
  assert (T : forall i, i < 2 -> tidy ascii_lower w i).
  { intros i Hi k id H. destruct i as [|[|i]]; [| |lia]; vm_compute in H; destruct H as [H|[]]; injection H as <- <-; vm_compute; reflexivity. }
  split; [now eexists|]. split; [apply T; lia|]. split; [apply T; lia|]. split.
  - split; [intros o p Ho Hp; vm_compute in Ho, Hp; now injection Ho as <-; injection Hp as <-|].
    intros a. rewrite !view_eq. unfold w, two. cbn -[str_eqb lit ascii_lower]. 
    set (l := ascii_lower a). rewrite !dview_set by apply Inv_empty.
    change (ascii_lower (lit "CN")) with (lit "cn"). change (ascii_lower (lit "cn")) with (lit "cn").
    destruct (str_eqb l (lit "cn")); [|reflexivity]. vm_compute. reflexivity.
  - intros (o & p & Ho & Hp & E). vm_compute in Ho, Hp. injection Ho as <-. injection Hp as <-. vm_compute in E. discriminate.
Qed.
(** objects that compare equal and give different values for the same name *)
Definition stale (k1 k2 k3 k4 : str) : list call :=
  [NewList [EStr (lit "x")]; NewList [EStr (lit "y")]; NewObj (lit "o=a") []; NewObj (lit "o=a") [];
   SetItem 0 (NStr k1) (RList 0); SetItem 0 (NStr k2) (RList 1); SetItem 1 (NStr k3) (RList 1); SetItem 1 (NStr k4) (RList 0)].
Theorem C78_equal_but_different_refuted : let w := run ascii_lower start (stale (lit "cn") (lit "CN") (lit "CN") (lit "cn")) in
  reachable ascii_lower w /\ equal w 0 1 /\ view ascii_lower w 0 (lit "cn") = Some [EStr (lit "y")] /\ view ascii_lower w 1 (lit "cn") = Some [EStr (lit "x")].
Proof.
  intros w. split; [now eexists|]. split; [|split; vm_compute; reflexivity].
  eexists _, _. split; [vm_compute; reflexivity|]. split; [vm_compute; reflexivity|]. vm_compute. reflexivity.
Qed.

(** ** The hypotheses are met *)
Definition ex_prog : list call :=
  [NewList [EStr (lit "a"); EBytes (lit "b")]; NewObj (lit "o=a") [(NStr (lit "cn"), RList 0); (NStr (lit "sn"), RList 0)];
   NewObjFrom (lit "o=a") 0; WriteList 0 []; SetDefault 0 (NStr (lit "uid")) None].
Definition ex_w : world := run ascii_lower start ex_prog.
Example C77_nonvacuous : reachable ascii_lower ex_w /\ list_of ascii_lower ex_w 0 (lit "CN") <> None /\ list_of ascii_lower ex_w 0 (lit "mail") = None /\
  view ascii_lower ex_w 0 (lit "CN") = Some [EStr (lit "a"); EBytes (lit "b")] /\ view ascii_lower ex_w 0 (lit "uid") = Some [] /\
  one_spelling ascii_lower (flat_map spelled ex_prog) /\ acceptable (w_heap ex_w) [(NStr (lit "mail"), RList 1)] /\ ~ acceptable (w_heap ex_w) [(NOther, RList 1)] /\
  all_texts ex_w 0.
Proof.
  split; [now eexists|]. split; [vm_compute; discriminate|]. split; [vm_compute; reflexivity|]. split; [vm_compute; reflexivity|]. split; [vm_compute; reflexivity|].
  split; [|split; [|split]].
  - intros a b Ha Hb E. vm_compute in Ha, Hb. destruct Ha as [<-|[<-|[<-|[]]]]; destruct Hb as [<-|[<-|[<-|[]]]]; try reflexivity; vm_compute in E; discriminate.
  - intros a r [H|[]]. injection H as <- <-. exists (lit "mail"), 1. split; [reflexivity|]. split; [reflexivity|]. intros e He. vm_compute in He.
    destruct He as [<-|[<-|[]]]; eauto.
  - intros A. destruct (A NOther (RList 1) (or_introl eq_refl)) as (k & id & X & _). discriminate.
  - intros k id H e He. vm_compute in H. destruct H as [H|[H|[H|[]]]]; injection H as <- <-; vm_compute in He.
    + destruct He as [<-|[<-|[]]]; eauto.
    + destruct He as [<-|[<-|[]]]; eauto.
    + destruct He.
Qed.
Example C78_nonvacuous : reachable ascii_lower ex_w /\ (exists o, nth_error (w_objs ex_w) 0 = Some o) /\ (exists o, nth_error (w_objs ex_w) 1 = Some o) /\ tidy ascii_lower ex_w 0 /\ tidy ascii_lower ex_w 1 /\
  one_spelling ascii_lower (map fst (items ex_w 0 ++ items ex_w 1)) /\ ~ equal ex_w 0 1 /\ equal (run ascii_lower ex_w [DelItem 0 (lit "UID")]) 0 1.
Proof.
  split; [now eexists|]. split; [eexists; vm_compute; reflexivity|]. split; [eexists; vm_compute; reflexivity|].
  assert (S : one_spelling ascii_lower (flat_map spelled ex_prog)) by apply C77_nonvacuous.
  split; [eapply C77_one_spelling_tidy; [exact S|vm_compute; reflexivity]|]. split; [eapply C77_one_spelling_tidy; [exact S|vm_compute; reflexivity]|].
  split; [|split].
  - intros a b Ha Hb E. vm_compute in Ha, Hb. destruct Ha as [<-|[<-|[<-|[<-|[<-|[]]]]]]; destruct Hb as [<-|[<-|[<-|[<-|[<-|[]]]]]]; try reflexivity; vm_compute in E; discriminate.
  - intros (o & p & Ho & Hp & E). vm_compute in Ho, Hp. injection Ho as <-. injection Hp as <-. vm_compute in E. discriminate.
  - eexists _, _. split; [vm_compute; reflexivity|]. split; [vm_compute; reflexivity|]. vm_compute. reflexivity.
Qed.

Print Assumptions C77_value_lists.
Print Assumptions C77_own_lists.
Print Assumptions C77_never_the_callers_list.
Print Assumptions C77_write_list.
Print Assumptions C77_write_other.
Print Assumptions C77_set.
Print Assumptions C77_delete.
Print Assumptions C77_clear.
Print Assumptions C77_update.
Print Assumptions C77_update_refused_partial.
Print Assumptions C77_update_others.
Print Assumptions C77_update_refused_half_done_refuted.
Print Assumptions C77_new.
Print Assumptions C77_setdefault_present.
Print Assumptions C77_setdefault_absent.
Print Assumptions C77_setdefault_returns_own_list_refuted.
Print Assumptions C77_get_attr.
Print Assumptions C77_contains.
Print Assumptions C77_deepcopy.
Print Assumptions C77_update_from_partial.
Print Assumptions C77_new_from_partial.
Print Assumptions C77_one_spelling_tidy.
Print Assumptions C78_reflexive.
Print Assumptions C78_symmetric.
Print Assumptions C78_transitive.
Print Assumptions C78_ne.
Print Assumptions C78_equal_iff_partial.
Print Assumptions C78_copy_equal_partial.
Print Assumptions C78_dn.
Print Assumptions C78_spelling_refuted.
Print Assumptions C78_equal_but_different_refuted.
