(** * C37: structured descriptions (descattrs) *)
From Verif Require Import PyBase Model_CIDict Spec_CIDict Proofs_CIDict Model_Modify Spec_Modify Proofs_Modify Proofs_Modify2 Model_Search Spec_Search Proofs_Search
  Model_Dir Spec_Dir Proofs_Dir Proofs_Dir2 Proofs_Dir3 Proofs_Dir4 Proofs_DirInst Props_Dir Model_Desc Spec_Desc Proofs_Desc Proofs_Desc2.
From Coq Require Import Permutation.
Local Open Scope nat_scope.

Definition description := lit "description".
Definition call_of (m : method) : call := match m with MAdd => Add | MReplace => Replace | MDelete => Delete end.
Definition calls_of (cs : list (method * list (str * list str))) := map (fun c => (call_of (fst c), snd c)) cs.

Section C37.
  Context {S : Type} (sv : server S) (view : S -> str -> option entry).
  Context (lower norm : str -> str) (eqv : str -> str -> str -> bool) (idx : str -> list str -> str -> res nat).
  Context (Hlaw : lawful lower norm eqv sv view).
  Context (flags : empty_flags) (validate_mod : str -> list mod_ -> option lobj -> res unit).
  (** the set may be listed in any order *)
  Context (order : list str -> list str) (Horder : forall u, Permutation (order u) u).

  (** an object whose entry is [e]; if it has descriptions locally they are the entry's *)
  Definition object_of (s : S) (o : lobj) (e : entry) : Prop :=
    view s (o_dn o) = Some e /\ dict_ok lower (o_attrs o) /\
    (ahas lower (o_attrs o) description = true -> cur_vals lower (o_attrs o) description = e (lower description)).

  Lemma init_object s o e h : object_of s o e ->
    exists o1, desc_init lower sv false s o h = (o1, Ok (init_from lower h (e (lower description)))) /\
      o_dn o1 = o_dn o /\ dict_ok lower (o_attrs o1) /\ cur_vals lower (o_attrs o1) description = e (lower description).
  Proof.
    intros (V & Hok & Hcur). unfold desc_init. fold description.
    assert (X : exists o1, obj_refresh_missing sv lower false s o [description] = (o1, Ok tt) /\
      o_dn o1 = o_dn o /\ dict_ok lower (o_attrs o1) /\ cur_vals lower (o_attrs o1) description = e (lower description)).
    { unfold obj_refresh_missing, missing. cbn [List.filter]. destruct (ahas lower (o_attrs o) description) eqn:A; cbn [negb].
      - exists o. auto.
      - destruct (refresh_spec sv view lower norm eqv Hlaw s o e (Some [description]) V Hok) as (o1 & E & Hdn & Hok1 & Hg).
        { intros n [<-|[]]. cbn. intros [Y|[Y|[Y|[]]]]; discriminate. }
        exists o1. split; [exact E|]. split; [exact Hdn|]. split; [exact Hok1|]. specialize (Hg description). unfold cur_vals. rewrite Hg.
        assert (M : smem (lower description) (map lower [description]) = true) by (apply smem_In; now left). rewrite M.
        destruct (e (lower description)) eqn:Ee; [|reflexivity]. unfold ahas in A. destruct (cid_get lower (o_attrs o) description) as [[|]|]; congruence. }
    destruct X as (o1 & -> & Hdn & Hok1 & Hc). exists o1. split; [|auto]. f_equal. unfold cid_get_default, cur_vals in *.
    destruct (cid_get lower (o_attrs o1) description) as [l|x] eqn:G; [cbn [bind]; now rewrite Hc|].
    assert (x = KeyError) by (eapply get_err; eauto). subst x. cbn [bind]. now rewrite <- Hc.
  Qed.

  (** C37, reading: the extension shows each key's values in order, [key in ext] iff there are any, and
      iterating lists each key once, in no other case variant *)
  Theorem C37_read s o e h : object_of s o e ->
    exists o1 h0 d0, desc_init lower sv false s o h = (o1, Ok (h0, d0)) /\
      (forall a vs, described lower (lower a) (e (lower description)) vs ->
         desc_contains lower h0 d0 a = negb (match vs with [] => true | _ => false end) /\
         desc_getitem lower h0 d0 a = match vs with [] => Raise KeyError | _ => Ok vs end) /\
      NoDup (map lower (desc_iter d0)) /\
      (forall k, In k (desc_iter d0) -> exists s v, In s (e (lower description)) /\ key_value s k v) /\
      (forall s k v, In s (e (lower description)) -> key_value s k v -> In (lower k) (map lower (desc_iter d0))).
  Proof.
    intros Ho. destruct (init_object s o e h Ho) as (o1 & E & _). rewrite E. clear E. set (W := e (lower description)). unfold init_from.
    pose proof (init_spec lower W h (mk_desc cid_empty []) (rep_empty lower h)) as I1.
    pose proof (init_nonempty lower W h (mk_desc cid_empty []) (rep_empty lower h)) as N1.
    destruct (fold_left (init1 lower) W (h, mk_desc cid_empty [])) as [h0 d0]. exists o1, h0, d0. split; [reflexivity|].
    destruct I1 as (R & C & K & U). cbn [dd cid_empty cdata du] in *. specialize (N1 (fun k l (H : In (k, l) []) => match H with end)).
    split; [|split; [|split]].
    - intros a vs Hd. apply described_fun in Hd. specialize (C (lower a)). cbn [cur cid_empty ckeys dget app] in C.
      unfold desc_contains, desc_getitem. subst vs. rewrite <- C.
      destruct (cur_cases lower h0 (dd d0) a) as [(l & Ec & G & Hne)|(Ec & Hem)].
      + rewrite Ec, G. cbn [bind]. rewrite (get_cur lower h0 _ _ _ G) in *. now destruct (hget h0 l).
      + rewrite Ec, Hem. split; [reflexivity|]. destruct (cid_get lower (dd d0) a) as [l|x] eqn:G.
        * rewrite (get_cur lower h0 _ _ _ G) in Hem. destruct (get_key lower _ _ _ G) as (k & _ & Hk). apply dget_In in Hk. now elim (N1 k l Hk).
        * assert (x = KeyError) by (eapply get_err; eauto). subst x. reflexivity.
    - unfold desc_iter, cid_keys. apply NoDup_map_in.
      + intros k k' Hk Hk' El. apply in_map_iff in Hk. destruct Hk as ([k1 l1] & <- & Hk). apply in_map_iff in Hk'. destruct Hk' as ([k2 l2] & <- & Hk'). cbn [fst] in *.
        destruct (rep_cur _ _ _ R _ _ Hk) as [X|X]; [|now elim (N1 _ _ Hk)]. destruct (rep_cur _ _ _ R _ _ Hk') as [Y|Y]; [|now elim (N1 _ _ Hk')]. congruence.
      + apply (rep_ok _ _ _ R).
    - intros k Hk. apply K in Hk. destruct Hk as [[]|Hk]; exact Hk.
    - intros t k v Ht Hkv. assert (Hc : cur h0 (dd d0) (lower k) <> []).
      { rewrite C. cbn [cur cid_empty ckeys dget app]. intros X. assert (Y : In v (dvals lower (lower k) W)).
        { unfold dvals. apply in_flat_map. exists t. split; [exact Ht|]. unfold dval. apply key_value_split in Hkv. rewrite Hkv, str_eqb_refl. now left. }
        rewrite X in Y. destruct Y. }
      unfold cur in Hc. destruct (dget (ckeys (dd d0)) (lower k)) as [k1|] eqn:G; [|now elim Hc].
      destruct (proj2 (proj2 (rep_ok _ _ _ R)) _ _ G) as [El [l Gl]]. rewrite <- El. apply in_map. unfold desc_iter, cid_keys. apply dget_In in Gl. now apply (in_map fst) in Gl.
  Qed.

  (** a replaced key has no other spelling anywhere *)
  Definition spelled_alike (W0 : list str) (calls : list (method * list (str * list str))) : Prop :=
    forall req k vs k', In (MReplace, req) calls -> In (k, vs) req -> lower k' = lower k ->
      ((exists s v, In s W0 /\ key_value s k' v) \/ (exists m req' vs', In (m, req') calls /\ m <> MDelete /\ In (k', vs') req')) -> k' = k.
  (** some description remains after each call *)
  Definition never_empties (W0 : list str) (D0 : table) (calls : list (method * list (str * list str))) : Prop :=
    (exists s, In s W0 /\ ordinary s) \/
    forall calls1 calls2 D1, calls = calls1 ++ calls2 -> calls1 <> [] -> steps lower (calls_of calls1) D0 D1 -> exists n, D1 n <> [].

  (** the state between calls *)
  Definition good (W0 : list str) (K : list str) (h : heap) (d : desc) : Prop :=
    rep lower h (dd d) /\ (forall s, In s (du d) -> ordinary s) /\ (forall s, ordinary s -> (In s (du d) <-> In s W0)) /\
    incl (map fst (cdata (dd d))) K.

  Lemma written_nonempty W0 K h d : good W0 K h d -> ((exists s, In s W0 /\ ordinary s) \/ exists n, cur h (dd d) n <> []) ->
    written order h d <> [].
  Proof.
    intros (R & Hu & HW & _) H E. pose proof (written_says lower order h d W0 (cur h (dd d)) Horder R Hu HW (fun n => eq_refl)) as [D1 D2].
    rewrite E in *. destruct H as [(s & Hs & Ho)|(n & Hn)]; [exact (proj2 (D2 s Ho) Hs)|]. specialize (D1 n). inversion D1; congruence.
  Qed.

  Lemma run_calls W0 K calls : forall s o e h d D0,
    view s (o_dn o) = Some e -> dict_ok lower (o_attrs o) -> cur_vals lower (o_attrs o) description = e (lower description) ->
    good W0 K h d -> (forall n, D0 n = cur h (dd d) n) ->
    (forall m req, In (m, req) calls -> req_ok lower req) ->
    (forall m req k vs, In (m, req) calls -> m <> MDelete -> In (k, vs) req -> In k K) ->
    (forall req k vs k', In (MReplace, req) calls -> In (k, vs) req -> In k' K -> lower k' = lower k -> k' = k) ->
    never_empties W0 D0 calls ->
    let '(s', o', h', d', rs) := desc_run lower sv idx false flags validate_mod order s o h d calls in
    exists D e', steps lower (calls_of calls) D0 D /\ view s' (o_dn o) = Some e' /\ (forall n, n <> lower description -> e' n = e n) /\
      only_at view norm s s' (o_dn o) /\ o_dn o' = o_dn o /\ dict_ok lower (o_attrs o') /\ cur_vals lower (o_attrs o') description = e' (lower description) /\
      List.length rs = List.length calls /\
      (calls <> [] -> last rs (Ok tt) = Ok tt -> says lower (e' (lower description)) W0 D) /\
      (calls = [] -> e' = e) /\
      rep lower h' (dd d') /\ (forall n, D n = cur h' (dd d') n) /\
      (willing lower eqv sv view -> (forall dn ms c, validate_mod dn ms c = Ok tt) -> forall r, In r rs -> r = Ok tt).
  Proof.
    induction calls as [|[m req] calls IH]; intros s o e h d D0 V Hok Hc Hg HD Hreq HK Hsp Hne.
    - cbn [desc_run]. exists D0, e. split; [now constructor|]. split; [exact V|]. split; [reflexivity|]. split; [intros x _; reflexivity|].
      split; [reflexivity|]. split; [exact Hok|]. split; [exact Hc|]. split; [reflexivity|]. split; [intros X; now elim X|]. split; [reflexivity|]. split; [apply Hg|]. split; [exact HD|intros _ _ r []].
    - cbn [desc_run]. unfold desc_call. destruct Hg as (R & Hu & HW & Hkk).
      pose proof (call_spec lower m h (dd d) req R (Hreq m req (or_introl eq_refl))) as Cs.
      destruct (alloc_req h req) as [h1 req1]. unfold desc_modify. destruct (run_method lower m h1 (dd d) req1) as [h2 dd2].
      destruct Cs as (R2 & K2 & St).
      { intros -> k vs Hin. unfold cur. destruct (dget (ckeys (dd d)) (lower k)) as [k'|] eqn:G; [|now left]. right. f_equal.
        destruct (proj2 (proj2 (rep_ok _ _ _ R)) _ _ G) as [El [l Gl]]. apply (Hsp req k vs k' (or_introl eq_refl) Hin); [|exact El].
        apply Hkk. apply dget_In in Gl. now apply (in_map fst) in Gl. }
      assert (G2 : good W0 K h2 (mk_desc dd2 (du d))).
      { split; [exact R2|]. split; [exact Hu|]. split; [exact HW|]. intros x Hx. apply K2 in Hx. destruct Hx as [[Hx Hm]|Hx]; [|now apply Hkk].
        apply in_map_iff in Hx. destruct Hx as ([k vs] & <- & Hin). apply (HK m req k vs (or_introl eq_refl)); [intros ->; now apply Hm|exact Hin]. }
      assert (St' : step lower (call_of m) req D0 (cur h2 dd2)).
      { intros n. destruct (St n) as [S1 S2]. rewrite HD. split; [exact S1|]. intros X. now rewrite (S2 X). }
      assert (HW1 : written order h2 (mk_desc dd2 (du d)) <> []).
      { apply (written_nonempty W0 K _ _ G2). destruct Hne as [Hne|Hne]; [now left|right].
        apply (Hne [(m, req)] calls (cur h2 dd2) eq_refl); [discriminate|]. cbn [calls_of map fst snd]. econstructor; [exact St'|now constructor]. }
      pose proof (replace_one sv view lower norm eqv idx Hlaw flags validate_mod s o e description _ V Hok HW1) as Q. fold description.
      assert (Hlive : willing lower eqv sv view -> (forall dn ms c, validate_mod dn ms c = Ok tt) ->
        snd (obj_replace_attrs sv lower idx false flags validate_mod s o [(description, VList (written order h2 (mk_desc dd2 (du d))))]) = Ok tt).
      { intros Hw Hv. destruct (replace_one_ok sv view lower eqv idx flags validate_mod Hw Hv s o e description _ V HW1) as (sx & ox & ->). reflexivity. }
      assert (Hne' : never_empties W0 (cur h2 dd2) calls).
      { destruct Hne as [Hne|Hne]; [now left|right]. intros c1 c2 D1 -> Hc1 Hst. apply (Hne ((m, req) :: c1) c2 D1 eq_refl); [discriminate|].
        cbn [calls_of map fst snd]. econstructor; [exact St'|exact Hst]. }
      destruct (obj_replace_attrs sv lower idx false flags validate_mod s o [(description, VList (written order h2 (mk_desc dd2 (du d))))]) as [[s1 o1] r1].
      assert (Q' : exists e1, view s1 (o_dn o1) = Some e1 /\ o_dn o1 = o_dn o /\ dict_ok lower (o_attrs o1) /\ cur_vals lower (o_attrs o1) description = e1 (lower description) /\
                  (forall n, n <> lower description -> e1 n = e n) /\ only_at view norm s s1 (o_dn o) /\
                  (r1 = Ok tt -> e1 (lower description) = written order h2 (mk_desc dd2 (du d)))).
      { destruct r1 as [[]|x].
        - destruct Q as (e1 & V1 & Hd1 & Ho1 & On & ->). exists e1. cbn [o_dn o_attrs]. split; [exact V1|]. split; [reflexivity|]. split; [now apply ok_set|].
          split; [|auto]. unfold cur_vals. rewrite (get_set lower _ _ _ _ Hok). now rewrite str_eqb_refl, Hd1.
        - destruct Q as [-> Un]. exists e. split; [now rewrite Un|]. split; [reflexivity|]. split; [exact Hok|]. split; [exact Hc|]. split; [reflexivity|].
          split; [intros x' _; apply Un|]. discriminate. }
      destruct Q' as (e1 & V1 & Hdn & Hok1 & Hc1 & Ho1 & On1 & Hr1).
      specialize (IH s1 o1 e1 h2 (mk_desc dd2 (du d)) (cur h2 dd2) V1 Hok1 Hc1 G2 (fun n => eq_refl)
                     (fun m' r' H => Hreq m' r' (or_intror H)) (fun m' r' k vs H => HK m' r' k vs (or_intror H)) (fun r' k vs k' H => Hsp r' k vs k' (or_intror H)) Hne').
      destruct (desc_run lower sv idx false flags validate_mod order s1 o1 h2 (mk_desc dd2 (du d)) calls) as [[[[s2 o2] h3] d3] rs].
      destruct IH as (D & e2 & Hst & V2 & Ho2 & On2 & Hdn2 & Hok2 & Hc2 & Hlen & Hlast & Hnil & R3 & HD3 & Hlv). rewrite Hdn in V2, On2.
      exists D, e2. split; [cbn [calls_of map fst snd]; econstructor; [exact St'|exact Hst]|]. split; [exact V2|].
      split; [intros n Hn; rewrite Ho2 by exact Hn; now apply Ho1|]. split; [intros x Hx; rewrite On2 by exact Hx; now apply On1|].
      split; [congruence|]. split; [exact Hok2|]. split; [exact Hc2|]. split; [cbn [List.length]; now rewrite Hlen|]. split; [|split; [discriminate|split; [exact R3|split; [exact HD3|]]]].
      2: { intros Hw Hv r [<-|Hr]; [exact (Hlive Hw Hv)|exact (Hlv Hw Hv r Hr)]. }
      intros _ Hl. destruct calls as [|c calls].
      + destruct rs; [|discriminate]. cbn [last] in Hl. rewrite (Hnil eq_refl), (Hr1 Hl). inversion Hst as [D' D'' HDD|]; subst.
        apply (written_says lower order h2 (mk_desc dd2 (du d)) W0 D Horder R2 Hu HW). exact HDD.
      + destruct rs as [|r2 rs]; [discriminate|]. apply Hlast; [discriminate|]. cbn [last] in *. exact Hl.
  Qed.

  Lemma good_init W0 h : good W0 (flat_map (fun s => match split1 (ch "=") s with Ok (k, _) => [k] | Raise _ => [] end) W0)
      (fst (init_from lower h W0)) (snd (init_from lower h W0)) /\
    forall n, dvals lower n W0 = cur (fst (init_from lower h W0)) (dd (snd (init_from lower h W0))) n.
  Proof.
    unfold init_from. pose proof (init_spec lower W0 h (mk_desc cid_empty []) (rep_empty lower h)) as I1.
    destruct (fold_left (init1 lower) W0 (h, mk_desc cid_empty [])) as [h0 d0]. destruct I1 as (R & C & Kk & U).
    cbn [dd cid_empty cdata du fst snd] in *. split.
    - split; [exact R|]. split; [intros s Hs; now apply U in Hs as [[]|[_ Hs]]|]. split.
      + intros s Hs. rewrite U. cbn [In]. tauto.
      + intros k Hk. apply Kk in Hk. destruct Hk as [[]|(s & v & Hs & Hkv)]. apply in_flat_map. exists s. split; [exact Hs|].
        apply key_value_split in Hkv. rewrite Hkv. now left.
    - intros n. rewrite C. reflexivity.
  Qed.

  (** C37, any number of calls on a newly made extension, each with a dict of lists nobody else uses:
      whatever calls fail on the way, the values shown follow the calls; when the last call returned,
      the entry's descriptions say exactly these values and the original ordinary descriptions; the
      other attributes and entries never change. A server that refuses nothing without a reason lets
      every call return. Missing (refuted below): keys replaced under another
      spelling, calls that leave no description at all, shared lists. *)
  Theorem C37_calls_partial s o e h D0 calls :
    object_of s o e -> (forall n, described lower n (e (lower description)) (D0 n)) ->
    (forall m req, In (m, req) calls -> req_ok lower req) ->
    spelled_alike (e (lower description)) calls -> never_empties (e (lower description)) D0 calls ->
    exists o1 h0 d0, desc_init lower sv false s o h = (o1, Ok (h0, d0)) /\
    let '(s', o', h', d', rs) := desc_run lower sv idx false flags validate_mod order s o1 h0 d0 calls in
    exists D e', steps lower (calls_of calls) D0 D /\
      (forall a, desc_contains lower h' d' a = negb (match D (lower a) with [] => true | _ => false end) /\
                 (D (lower a) <> [] -> desc_getitem lower h' d' a = Ok (D (lower a)))) /\
      view s' (o_dn o) = Some e' /\ (forall n, n <> lower description -> e' n = e n) /\
      (forall d, norm d <> norm (o_dn o) -> view s' d = view s d) /\
      (last rs (Ok tt) = Ok tt -> says lower (e' (lower description)) (e (lower description)) D) /\
      o_dn o' = o_dn o /\ cur_vals lower (o_attrs o') description = e' (lower description) /\
      (willing lower eqv sv view -> (forall dn ms c, validate_mod dn ms c = Ok tt) -> rs = map (fun _ => Ok tt) calls).
  Proof.
    intros Ho HD0 Hreq Hsp Hne. destruct (init_object s o e h Ho) as (o1 & E & Hdn & Hok1 & Hc1). destruct Ho as (V & _).
    set (W0 := e (lower description)) in *. destruct (good_init W0 h) as [G C]. destruct (init_from lower h W0) as [h0 d0]. cbn [fst snd] in *.
    exists o1, h0, d0. split; [exact E|].
    set (K0 := flat_map (fun s => match split1 (ch "=") s with Ok (k, _) => [k] | Raise _ => [] end) W0) in *.
    set (K := K0 ++ flat_map (fun c => match fst c with MDelete => [] | _ => map fst (snd c) end) calls).
    assert (G' : good W0 K h0 d0).
    { destruct G as (A1 & A2 & A3 & A4). split; [exact A1|]. split; [exact A2|]. split; [exact A3|]. intros x Hx. apply in_or_app. left. now apply A4. }
    pose proof (run_calls W0 K calls s o1 e h0 d0 D0) as Run. rewrite Hdn in Run. specialize (Run V Hok1 Hc1 G').
    destruct (desc_run lower sv idx false flags validate_mod order s o1 h0 d0 calls) as [[[[s' o'] h'] d'] rs].
    destruct Run as (D & e' & Hst & V' & Ho' & On & Hdn' & Hok' & Hc' & Hlen & Hlast & Hnil & R' & HD' & Hlv).
    - intros n. rewrite <- C. apply described_fun. apply HD0.
    - exact Hreq.
    - intros m req k vs Hin Hm Hk. apply in_or_app. right. apply in_flat_map. exists (m, req). split; [exact Hin|]. cbn [fst snd].
      apply (in_map fst) in Hk. destruct m; [exact Hk|exact Hk|now elim Hm].
    - intros req k vs k' Hin Hk HK El. apply (Hsp req k vs k' Hin Hk El). apply in_app_or in HK. destruct HK as [HK|HK].
      + left. apply in_flat_map in HK. destruct HK as (t & Ht & HK). destruct (split1 (ch "=") t) as [[k1 v1]|] eqn:Es; [|destruct HK].
        destruct HK as [<-|[]]. exists t, v1. split; [exact Ht|]. now apply key_value_split.
      + right. apply in_flat_map in HK. destruct HK as ([m req'] & Hc & HK). cbn [fst snd] in HK.
        destruct m; [| |destruct HK]; apply in_map_iff in HK; destruct HK as ([k1 vs1] & <- & HK).
        * exists MAdd, req', vs1. split; [exact Hc|]. split; [discriminate|exact HK].
        * exists MReplace, req', vs1. split; [exact Hc|]. split; [discriminate|exact HK].
    - exact Hne.
    - exists D, e'. split; [exact Hst|]. split; [|split; [exact V'|split; [exact Ho'|split; [exact On|split; [|split; [exact Hdn'|split; [exact Hc'|]]]]]]].
      3: { intros Hw Hv. specialize (Hlv Hw Hv). clear - Hlv Hlen. revert calls Hlen. induction rs as [|r rs IH]; intros [|c calls] Hlen; try discriminate; [reflexivity|].
           cbn [map]. rewrite (Hlv r (or_introl eq_refl)). f_equal. apply IH; [intros x Hx; apply Hlv; now right|]. now injection Hlen. }
      + intros a. rewrite HD'. unfold desc_contains, desc_getitem. destruct (cur_cases lower h' (dd d') a) as [(l & Ec & Gl & Hn)|(Ec & Hem)].
        * rewrite Ec, Gl. cbn [bind]. rewrite (get_cur lower h' _ _ _ Gl) in *. split; [now destruct (hget h' l)|reflexivity].
        * rewrite Ec, Hem. split; [reflexivity|]. intros X. now elim X.
      + intros Hl. destruct calls as [|c calls]; [|apply Hlast; [discriminate|exact Hl]]. rewrite (Hnil eq_refl).
        inversion Hst as [D' D'' HDD|]; subst. split; [|intros t _; reflexivity]. intros n. rewrite HDD. apply HD0.
  Qed.

  (** C37, one call of each kind *)
  Lemma one_call m s o e h D0 req :
    object_of s o e -> (forall n, described lower n (e (lower description)) (D0 n)) -> req_ok lower req ->
    (m = MReplace -> forall k vs t k' v', In (k, vs) req -> In t (e (lower description)) -> key_value t k' v' -> lower k' = lower k -> k' = k) ->
    ((exists t, In t (e (lower description)) /\ ordinary t) \/ exists k vs, In (k, vs) req /\ vs <> [] /\ m <> MDelete \/
       m = MDelete /\ exists n, ~ In n (map (fun kv => lower (fst kv)) req) /\ D0 n <> []) ->
    exists o1 h0 d0, desc_init lower sv false s o h = (o1, Ok (h0, d0)) /\
    let '(s', o', h', d', r) := desc_call lower sv idx false flags validate_mod order m s o1 h0 d0 req in
    exists D, step lower (call_of m) req D0 D /\
      (r = Ok tt -> exists e', view s' (o_dn o) = Some e' /\ says lower (e' (lower description)) (e (lower description)) D) .
  Proof.
    intros Ho HD Hreq Hsp Hne. destruct (C37_calls_partial s o e h D0 [(m, req)] Ho HD) as (o1 & h0 & d0 & E & Run).
    - intros m' r' [X|[]]. injection X as <- <-. exact Hreq.
    - intros r' k vs k' [X|[]] Hin El Hor. injection X as -> <-. destruct Hor as [(t & v & Ht & Hkv)|(m' & r' & vs' & [X|[]] & _ & Hin')].
      + exact (Hsp eq_refl k vs t k' v Hin Ht Hkv El).
      + injection X as <- <-. destruct Hreq as [_ Nd]. clear - Nd Hin Hin' El. induction req as [|[a w] req IH]; [destruct Hin|].
        cbn [map fst] in Nd. inversion Nd as [|? ? Hn Nd']; subst. destruct Hin as [X|Hin]; destruct Hin' as [Y|Hin'].
        * congruence.
        * injection X as -> ->. elim Hn. rewrite <- El. now apply (in_map (fun kv => lower (fst kv))) in Hin'.
        * injection Y as -> ->. elim Hn. rewrite El. now apply (in_map (fun kv => lower (fst kv))) in Hin.
        * exact (IH Nd' Hin Hin').
    - destruct Hne as [Hne|(k & vs & [(Hin & Hv & Hm)|(-> & n & Hn & Hd)])]; [now left| |]; right; intros c1 c2 D1 Ec Hc1 Hst;
        destruct c1 as [|c c1]; [now elim Hc1| |now elim Hc1|]; injection Ec as <- Ec; symmetry in Ec; apply app_eq_nil in Ec; destruct Ec as [-> _];
        cbn [calls_of map fst snd] in Hst; inversion Hst as [|c' r' cs' D0' D1' D' H1 H2]; subst; inversion H2 as [D2 D3 HDD|]; subst.
      + exists (lower k). rewrite HDD. destruct (H1 (lower k)) as [He _]. specialize (He k vs Hin eq_refl). destruct m; [|cbn [effect call_of] in He; congruence|congruence].
        cbn [effect call_of] in He. destruct He as [A1 A2]. destruct (D0 (lower k)) as [|x l]; [rewrite (A1 eq_refl); exact Hv|].
        destruct (A2 ltac:(discriminate)) as (more & -> & _). discriminate.
      + exists n. rewrite HDD. destruct (H1 n) as [_ He]. now rewrite (He Hn).
    - exists o1, h0, d0. split; [exact E|]. cbn [desc_run] in Run.
      destruct (desc_call lower sv idx false flags validate_mod order m s o1 h0 d0 req) as [[[[s' o'] h'] d'] r].
      destruct Run as (D & e' & Hst & _ & V' & _ & _ & Hl & _). exists D. split.
      + cbn [calls_of map fst snd] in Hst. inversion Hst as [|c' r' cs' D0' D1' D' H1 H2]; subst; inversion H2 as [D2 D3 HDD|]; subst.
        intros n. rewrite HDD. apply H1.
      + intros ->. exists e'. split; [exact V'|]. now apply Hl.
  Qed.

  (** add: missing values are appended to the named keys, nothing else changes *)
  Theorem C37_add s o e h D0 req :
    object_of s o e -> (forall n, described lower n (e (lower description)) (D0 n)) -> req_ok lower req ->
    (exists k vs, In (k, vs) req /\ vs <> []) ->
    exists o1 h0 d0, desc_init lower sv false s o h = (o1, Ok (h0, d0)) /\
    let '(s', o', h', d', r) := desc_call lower sv idx false flags validate_mod order MAdd s o1 h0 d0 req in
    exists D, step lower Add req D0 D /\
      (r = Ok tt -> exists e', view s' (o_dn o) = Some e' /\ says lower (e' (lower description)) (e (lower description)) D).
  Proof.
    intros Ho HD Hr (k & vs & Hin & Hv). apply (one_call MAdd); auto; [discriminate|]. right. exists k, vs. left. split; [exact Hin|]. split; [exact Hv|discriminate].
  Qed.
  (** replace, keys spelled as they are: the named keys have exactly the given values, nothing else changes *)
  Theorem C37_replace_partial s o e h D0 req :
    object_of s o e -> (forall n, described lower n (e (lower description)) (D0 n)) -> req_ok lower req ->
    (forall k vs t k' v', In (k, vs) req -> In t (e (lower description)) -> key_value t k' v' -> lower k' = lower k -> k' = k) ->
    (exists k vs, In (k, vs) req /\ vs <> []) ->
    exists o1 h0 d0, desc_init lower sv false s o h = (o1, Ok (h0, d0)) /\
    let '(s', o', h', d', r) := desc_call lower sv idx false flags validate_mod order MReplace s o1 h0 d0 req in
    exists D, step lower Replace req D0 D /\
      (r = Ok tt -> exists e', view s' (o_dn o) = Some e' /\ says lower (e' (lower description)) (e (lower description)) D).
  Proof.
    intros Ho HD Hr Hsp (k & vs & Hin & Hv). apply (one_call MReplace); auto. right. exists k, vs. left. split; [exact Hin|]. split; [exact Hv|discriminate].
  Qed.
  (** delete, when a description not named remains: the named values (all values, if none is given) of
      the named keys are gone, nothing else changes *)
  Theorem C37_delete_partial s o e h D0 req :
    object_of s o e -> (forall n, described lower n (e (lower description)) (D0 n)) -> req_ok lower req ->
    ((exists t, In t (e (lower description)) /\ ordinary t) \/ exists n, ~ In n (map (fun kv => lower (fst kv)) req) /\ D0 n <> []) ->
    exists o1 h0 d0, desc_init lower sv false s o h = (o1, Ok (h0, d0)) /\
    let '(s', o', h', d', r) := desc_call lower sv idx false flags validate_mod order MDelete s o1 h0 d0 req in
    exists D, step lower Delete req D0 D /\
      (r = Ok tt -> exists e', view s' (o_dn o) = Some e' /\ says lower (e' (lower description)) (e (lower description)) D).
  Proof.
    intros Ho HD Hr [H|(n & Hn & Hd)]; apply (one_call MDelete); auto; try discriminate. right. exists [], []. right. split; [reflexivity|]. eauto.
  Qed.
End C37.
Print Assumptions C37_read.
Print Assumptions C37_calls_partial.
Print Assumptions C37_add.
Print Assumptions C37_replace_partial.
Print Assumptions C37_delete_partial.

(** ** A concrete entry *)
Definition lamp := lit "cn=lamp,dc=x".
Definition lamp_dir : store :=
  [ (lamp, [ (lit "cn", [lit "lamp"]); (lit "description", [lit "color=red"; lit "a lamp"; lit "Size=1=2"; lit "COLOR=blue"]) ]) ].
Definition lamp_obj := mk_lobj lamp cid_empty.
(** the server's descriptions and results after calls on a new extension *)
Definition try_calls (flags : empty_flags) (st : store) (o : lobj) (calls : list (method * list (str * list str))) :=
  match desc_init dlower dsv false st o [] with
  | (o1, Ok (h, d)) =>
      let '(s', o', h', d', rs) := desc_run dlower dsv ex_idx false flags ok_mod (fun u => u) st o1 h d calls in
      (at_dir s' (o_dn o) description, rs, fun a => desc_getitem dlower h' d' a)
  | (_, Raise e) => ([], [Raise e], fun _ => Raise e)
  end.

Example C37_nonvacuous :
  (exists e, object_of (sview dlower) dlower lamp_dir lamp_obj e) /\ req_ok dlower [(lit "color", [lit "green"]); (lit "watt", [lit "40"])] /\
    described dlower (lit "color") [lit "color=red"; lit "a lamp"; lit "Size=1=2"; lit "COLOR=blue"] [lit "red"; lit "blue"] /\
    (let '(W, rs, g) := try_calls dflags lamp_dir lamp_obj [(MAdd, [(lit "color", [lit "green"; lit "red"]); (lit "watt", [lit "40"])]);
       (MReplace, [(lit "Size", [lit "3"])]); (MDelete, [(lit "Color", [lit "red"]); (lit "WATT", [])])] in
   W = [lit "color=blue"; lit "color=green"; lit "Size=3"; lit "a lamp"] /\ rs = [Ok tt; Ok tt; Ok tt] /\ g (lit "COLOR") = Ok [lit "blue"; lit "green"] /\ g (lit "watt") = Raise KeyError).
Proof.
  split; [|split; [|split]].
  - eexists. split; [reflexivity|]. split; [|discriminate]. split; [constructor|]. split; [constructor|]. discriminate.
  - split.
    + intros k vs [E|[E|[]]]; injection E as <- <-; cbn; intros X; repeat (destruct X as [X|X]; try discriminate); exact X.
    + repeat constructor; cbn; intros X; repeat (destruct X as [X|X]; try discriminate); exact X.
  - match goal with |- described _ ?n ?W ?v => replace v with (dvals dlower n W) by reflexivity end. apply described_dvals.
  - vm_compute. repeat split.
Qed.

(** ** Refuted *)
(** replace with a key spelled in another case leaves the old values on the server *)
Theorem C37_refuted_spelling :
  let '(W, rs, g) := try_calls dflags lamp_dir lamp_obj [(MReplace, [(lit "COLOR", [lit "green"])])] in
  rs = [Ok tt] /\ g (lit "color") = Ok [lit "green"] /\ W = [lit "color=red"; lit "color=blue"; lit "Size=1=2"; lit "COLOR=green"; lit "a lamp"].
Proof. vm_compute. repeat split. Qed.
(** deleting the last description: the call returns, the extension shows nothing, the entry keeps them *)
Definition bulb := lit "cn=bulb,dc=x".
Definition bulb_dir : store := [ (bulb, [ (lit "cn", [lit "bulb"]); (lit "description", [lit "color=red"]) ]) ].
Theorem C37_refuted_last :
  let '(W, rs, g) := try_calls dflags bulb_dir (mk_lobj bulb cid_empty) [(MDelete, [(lit "color", [])])] in
  rs = [Ok tt] /\ g (lit "color") = Raise KeyError /\ W = [lit "color=red"].
Proof. vm_compute. repeat split. Qed.
(** a key with '=' is stored under another key *)
Theorem C37_refuted_equals :
  let '(W, rs, g) := try_calls dflags bulb_dir (mk_lobj bulb cid_empty) [(MAdd, [(lit "a=b", [lit "c"])])] in
  rs = [Ok tt] /\ g (lit "a=b") = Ok [lit "c"] /\ W = [lit "color=red"; lit "a=b=c"] /\ key_value (lit "a=b=c") (lit "a") (lit "b=c").
Proof. vm_compute. repeat split. intros [X|[]]; discriminate. Qed.

(** The caller's lists are kept. Here [h] holds one list made by the caller, at place 0. *)
Definition with_shared (st : store) (o : lobj) (h : heap) (k : heap -> desc -> lobj -> Prop) : Prop :=
  match desc_init dlower dsv false st o h with (o1, Ok (h1, d)) => k h1 d o1 | _ => False end.
(** add(x) and then delete(x) with the same dict leaves every second value *)
Theorem C37_refuted_same_dict :
  with_shared bulb_dir (mk_lobj bulb cid_empty) [[lit "1"; lit "2"; lit "3"]] (fun h d o =>
    let '(s1, o1, h1, d1, r1) := desc_modify dlower dsv ex_idx false dflags ok_mod (fun u => u) MAdd bulb_dir o h d [(lit "n", 0)] in
    let '(s2, o2, h2, d2, r2) := desc_modify dlower dsv ex_idx false dflags ok_mod (fun u => u) MDelete s1 o1 h1 d1 [(lit "n", 0)] in
    r1 = Ok tt /\ r2 = Ok tt /\ at_dir s1 bulb description = [lit "color=red"; lit "n=1"; lit "n=2"; lit "n=3"] /\ at_dir s2 bulb description = [lit "color=red"; lit "n=2"] /\
    (* the caller's own dict has changed *)
    hget h2 0 = [lit "2"]).
Proof. vm_compute. repeat split. Qed.
(** the same dict added to two objects: a later add to one shows up in the other, and is sent with its next change *)
Definition two_dir : store := bulb_dir ++ lamp_dir.
Theorem C37_refuted_two_objects :
  with_shared two_dir (mk_lobj bulb cid_empty) [[lit "1"]; [lit "2"]; [lit "y"]] (fun h d o =>
  with_shared two_dir lamp_obj h (fun h' d' o' =>
    let '(s1, o1, h1, d1, r1) := desc_modify dlower dsv ex_idx false dflags ok_mod (fun u => u) MAdd two_dir o h' d [(lit "n", 0)] in
    let '(s2, o2, h2, d2, r2) := desc_modify dlower dsv ex_idx false dflags ok_mod (fun u => u) MAdd s1 o' h1 d' [(lit "n", 0)] in
    let '(s3, o3, h3, d3, r3) := desc_modify dlower dsv ex_idx false dflags ok_mod (fun u => u) MAdd s2 o1 h2 d1 [(lit "n", 1)] in
    let '(s4, o4, h4, d4, r4) := desc_modify dlower dsv ex_idx false dflags ok_mod (fun u => u) MAdd s3 o2 h3 d2 [(lit "x", 2)] in
    [r1; r2; r3; r4] = [Ok tt; Ok tt; Ok tt; Ok tt] /\ desc_getitem dlower h3 d2 (lit "n") = Ok [lit "1"; lit "2"] /\
    at_dir s3 lamp description = [lit "color=red"; lit "color=blue"; lit "Size=1=2"; lit "n=1"; lit "a lamp"] /\
    at_dir s4 lamp description = [lit "color=red"; lit "color=blue"; lit "Size=1=2"; lit "n=1"; lit "n=2"; lit "x=y"; lit "a lamp"])).
Proof. vm_compute. repeat split. Qed.
(** a call that fails keeps its change, which goes out with the next call *)
Definition refuse_mod (dn : str) (ms : list mod_) (o : option lobj) : res unit := Raise LDAPValidationError.
Theorem C37_refuted_failure :
  with_shared bulb_dir (mk_lobj bulb cid_empty) [] (fun h d o =>
    let '(s1, o1, h1, d1, r1) := desc_call dlower dsv ex_idx false dflags refuse_mod (fun u => u) MAdd bulb_dir o h d [(lit "n", [lit "1"])] in
    let '(s2, o2, h2, d2, r2) := desc_call dlower dsv ex_idx false dflags ok_mod (fun u => u) MAdd s1 o1 h1 d1 [(lit "m", [lit "2"])] in
    r1 = Raise LDAPValidationError /\ r2 = Ok tt /\ at_dir s1 bulb description = [lit "color=red"] /\ at_dir s2 bulb description = [lit "color=red"; lit "n=1"; lit "m=2"]).
Proof. vm_compute. repeat split. Qed.
(** a description added through the object after the extension was made is removed by the next call *)
Theorem C37_refuted_outside :
  with_shared bulb_dir (mk_lobj bulb cid_empty) [] (fun h d o =>
    let '(s1, o1, r1) := obj_add_attrs dsv dlower ex_idx false false dflags ok_mod bulb_dir o [(description, VList [lit "a bulb"])] in
    let '(s2, o2, h2, d2, r2) := desc_call dlower dsv ex_idx false dflags ok_mod (fun u => u) MAdd s1 o1 h d [(lit "m", [lit "2"])] in
    r1 = Ok tt /\ r2 = Ok tt /\ at_dir s1 bulb description = [lit "color=red"; lit "a bulb"] /\ at_dir s2 bulb description = [lit "color=red"; lit "m=2"]).
Proof. vm_compute. repeat split. Qed.
Print Assumptions C37_refuted_spelling.
Print Assumptions C37_refuted_last.
Print Assumptions C37_refuted_equals.
Print Assumptions C37_refuted_same_dict.
Print Assumptions C37_refuted_two_objects.
Print Assumptions C37_refuted_failure.
Print Assumptions C37_refuted_outside.
