(** * Proofs about paged results *)
From Verif Require Import PyBase Model_Controls Spec_Controls Proofs_Controls Props_Controls Model_Search Model_Request Spec_Request Proofs_Request Props_Request Model_Paged Spec_Paged.

Lemma zcode_decode z : zdecode (zcode z) = z.
Proof.
  unfold zdecode, zcode. destruct (Z.ltb_spec z 0) as [H|H].
  - rewrite N.add_comm, N.odd_add_mul_2. change (N.odd 1) with true. cbn iota.
    replace ((1 + 2 * Z.to_N (- z)) / 2)%N with (Z.to_N (- z)); [lia|].
    apply N.div_unique with 1%N; lia.
  - rewrite N.odd_mul. change (N.odd 2) with false. cbn [andb]. rewrite N.mul_comm, N.div_mul by lia. lia.
Qed.
Lemma pyval_repr v : pyval (repr v) = v.
Proof. destruct v; cbn [repr pyval N.eqb]; rewrite ?zcode_decode; reflexivity. Qed.

Lemma Forall2_In_r {A B} (P : A -> B -> Prop) l l' : Forall2 P l l' -> forall y, In y l' -> exists x, In x l /\ P x y.
Proof.
  induction 1 as [|x y l l' H F IH]; intros z Hz; [destruct Hz|]. destruct Hz as [<-|Hz]; [exists x; split; [now left|exact H]|].
  destruct (IH z Hz) as (x' & H1 & H2). exists x'. split; [now right|exact H2].
Qed.
Lemma NoDup_app_last {A} (l : list A) x : NoDup l -> ~ In x l -> NoDup (l ++ [x]).
Proof.
  intros H N. induction H as [|y l Hy H IH]; [repeat constructor; intros []|]. cbn [app]. constructor.
  - intro X. apply in_app_or in X as [X|[X|[]]]; [contradiction|]. apply N. now left.
  - apply IH. intro X. apply N. now right.
Qed.

Lemma skipn_plus {A} n m (l : list A) : skipn (n + m) l = skipn m (skipn n l).
Proof. revert l. induction n as [|n IH]; intros l; [reflexivity|]. destruct l as [|x l]; cbn [Nat.add skipn]; [now rewrite skipn_nil|apply IH]. Qed.

Section P.
  Context (enc : Z -> list N -> list N) (dec : list N -> res (Z * list N * list N)) (to_text : list N -> res str) (of_text : str -> res (list N)).
  Notation pctrl := (paged_ctrl enc dec to_text of_text).

  Lemma prepare_tuple n s : paged_prepare enc of_text (repr (PTuple n s)) =
    (let* n' := int0max n in let* c := of_text s in Ok (enc n' c)).
  Proof. unfold paged_prepare. rewrite pyval_repr. reflexivity. Qed.

  (** what a search with the keyword sends *)
  Lemma paged_sends reserved e a v h q : coherent reserved (e_reg e) -> NoDup (map fst (a_kwds a)) -> ~ In (lit "paged") (map fst (a_kwds a)) ->
    dget (r_kw (e_reg e)) (lit "paged") = Some pctrl ->
    ldap_search e (with_paged a v) = (Ok h, q) ->
    exists w p, q = [w] /\ paged_prepare enc of_text (value_of v) = Ok p /\ asked e (with_paged a v) w h /\
      exists l1, w_ctrls w = l1 ++ [mk_wire rfc2696_oid (match v with Critical _ => true | Optional _ => false | Plain _ => e_criticality e end)
            (match p with [] => None | _ => Some p end)] /\ ~ In rfc2696_oid (map wc_oid l1).
  Proof.
    intros Hco Hd Hn Hr H.
    assert (Hd' : NoDup (map fst (a_kwds (with_paged a v)))).
    { cbn [with_paged a_kwds]. rewrite map_app. cbn [map fst]. apply NoDup_app_last; assumption. }
    destruct (search_asked e _ h q Hd' H) as (w & -> & P & A).
    pose proof (po_ctrls _ _ P) as Pc. cbn [with_paged a_kwds] in Pc. apply Forall_app in Pc as [_ Pc]. apply Forall_inv in Pc.
    destruct (Pc pctrl Hr) as (_ & _ & p & Ep). cbn [snd] in Ep. cbn [paged_ctrl c_prepare] in Ep.
    exists w, p. split; [reflexivity|]. split; [exact Ep|]. split; [exact A|].
    pose proof (as_ctrls _ _ _ _ A) as F. cbn [with_paged a_kwds] in F. unfold controls_of in F. rewrite List.filter_app in F.
    cbn [List.filter fst] in F. rewrite dmem_dget, Hr in F.
    apply Forall2_app_inv_l in F as (l1 & l2 & F1 & F & El). rewrite El. inversion F as [|x1 w1 x3 l3 W F' X1 X2]; subst l2. inversion F'; subst l3. clear F F' X1.
    destruct W as (c & p' & C1 & C2 & C3 & C4 & C5). cbn [fst snd] in C1, C2, C3, C4, C5. change (dget (r_kw (e_reg e)) (lit "paged") = Some c) in C1. rewrite Hr in C1. injection C1 as <-.
    cbn [paged_ctrl c_prepare c_request_oid] in *. change paged_oid with rfc2696_oid in *. assert (p' = p) by congruence. subst p'. exists l1. split.
    - f_equal. destruct w1 as [y1 y2 y3]. cbn [wc_oid wc_crit wc_value] in *. congruence.
    - intros Hi. apply in_map_iff in Hi as (w2 & Ew & Hi). apply (Forall2_In_r _ _ _ F1) in Hi as ([k kv] & Hi & c & p' & D1 & D2 & D3 & _).
      cbn [fst snd] in *. destruct Hco as (_ & _ & _ & Hco & _). destruct (Hco k c D1) as (K1 & _ & _ & _ & K2).
      destruct (Hco _ _ Hr) as (K3 & _ & _ & _ & K4). cbn [paged_ctrl c_request_oid] in K4. change paged_oid with rfc2696_oid in *. assert (c = pctrl) by congruence. subst c.
      apply Hn. apply List.filter_In in Hi as [Hi _]. apply in_map_iff. exists (k, kv). split; [|exact Hi]. cbn [fst]. congruence.
  Qed.
  Context (lib : library enc dec to_text of_text).
  Context {E : Type} (server : history (E := E) -> wire_search -> answer (E := E)) (R : list E) (Hs : serves_pages enc server R).
  Context (reserved : list str) (e : env) (Hco : coherent reserved (e_reg e)) (builtin : str -> bool) (a : search_args) (wrap : str -> kwval) (Hw : forall v, value_of (wrap v) = v)
          (Hb : builtin (lit "page_cookie") = false) (Hd : NoDup (map fst (a_kwds a))) (Hn : ~ In (lit "paged") (map fst (a_kwds a)))
          (Hk : dget (r_kw (e_reg e)) (lit "paged") = Some pctrl) (Hr : dget (r_resp (e_reg e)) rfc2696_oid = Some pctrl).

  (** reading an answer of such a server *)
  Lemma read_paged est c' (r : answer (E := E)) : an_ctrls r = [(rfc2696_oid, enc est c')] -> (0 <= est <= 2147483647)%Z -> bytes_ok c' -> an_code r = 0%N ->
    exists s, of_text s = Ok c' /\ (s = [] <-> c' = []) /\ read_answer (e_reg e) builtin r = Ok (an_entries r, Some s).
  Proof.
    intros Ec Hest Hbc Hcode. destruct (li_cookie _ _ _ _ lib c' Hbc) as (s & T1 & T2 & T3).
    exists s. split; [exact T2|]. split.
    - split; [exact T3|]. intros ->. pose proof (proj1 (li_empty _ _ _ _ lib)). congruence.
    - unfold read_answer. rewrite Hcode, Ec. change (N.eqb 0 rc_success || N.eqb 0 rc_noSuchObject) with true. cbn iota.
      cbn [handle_response]. rewrite Hr. cbn [paged_ctrl c_handle c_response_attr]. unfold paged_handle.
      rewrite (li_value _ _ _ _ lib est c' Hest Hbc). cbn [bind]. unfold string_component. rewrite T1, Hb. reflexivity.
  Qed.
  (** one page *)
  Lemma page_sound hist n c s p : at_position enc server hist c p -> bytes_ok c -> of_text s = Ok c -> p <= List.length R ->
    match page server e builtin a hist (wrap (repr (PTuple n s))) with
    | (_, Raise x) => fst (ldap_search e (with_paged a (wrap (repr (PTuple n s))))) = Raise x
    | (hist', Ok (es, s')) => (Z.of_nat (List.length es) <= n)%Z /\ (exists rest, skipn p R = es ++ rest) /\
        (exists w, asks enc w n c /\ in_range n /\ es = an_entries (server hist w) /\ hist' = hist ++ [(w, server hist w)] /\
           (s' = [] <-> exists est, in_range est /\ an_ctrls (server hist w) = [(rfc2696_oid, enc est [])])) /\
        (s' = [] -> p + List.length es = List.length R) /\
        (s' <> [] -> exists c', at_position enc server hist' c' (p + List.length es) /\ bytes_ok c' /\ of_text s' = Ok c')
    end.
  Proof.
    intros Hat Hbc Hof Hp. unfold page. destruct (ldap_search e (with_paged a (wrap (repr (PTuple n s))))) as [[h|x] q] eqn:Eq; [|reflexivity].
    destruct (paged_sends reserved e a _ h q Hco Hd Hn Hk Eq) as (w & pv & -> & Ep & _ & l1 & Hin & Hl1). rewrite Hw, prepare_tuple in Ep.
    destruct (int0max n) as [n'|x] eqn:En; [|discriminate]. cbn [bind] in Ep. rewrite Hof in Ep. cbn [bind] in Ep. injection Ep as <-.
    apply int0max_iff in En as [Hin' ->].
    assert (Ha : asks enc w n c).
    { eexists _, l1, []. destruct (enc n c) as [|b l] eqn:El; [exfalso; exact (li_some _ _ _ _ lib n c El)|]. split; [exact Hin|]. split; [exact Hl1|intros []]. }
    pose proof (Hs hist w n c p Hin' Hbc Hat Ha Hp) as (est & c' & Ec & Hest & Hb' & Hcode & Hlen & Hrest & Hend).
    destruct (read_paged est c' _ Ec Hest Hb' Hcode) as (s' & T2 & T3 & Er).
    rewrite Er. cbn [bind]. split; [exact Hlen|]. split; [exact Hrest|]. split; [|split].
    - exists w. split; [exact Ha|]. split; [exact Hin'|]. split; [reflexivity|]. split; [reflexivity|]. rewrite T3, Ec. split.
      + intros ->. eauto.
      + intros (est2 & Hr2 & E2). injection E2 as E2. pose proof (li_value _ _ _ _ lib est c' Hest Hb') as D1. rewrite E2 in D1.
        rewrite (li_value _ _ _ _ lib est2 [] Hr2 (Forall_nil _)) in D1. congruence.
    - intros E'. apply Hend, T3, E'.
    - intros E'. exists c'. split; [|auto]. eapply at_next; eauto. intros ->. apply E', T3. reflexivity.
  Qed.

  (** any number of pages *)
  Lemma pages_sound sizes hist c s p ps o : at_position enc server hist c p -> bytes_ok c -> of_text s = Ok c -> p <= List.length R ->
    pages server e builtin a wrap sizes hist s = (ps, o) ->
    exists rest, skipn p R = List.concat ps ++ rest /\ (o = GotAll -> rest = []) /\
      (exists s1 s2, sizes = s1 ++ s2 /\ Forall2 (fun n es => (Z.of_nat (List.length es) <= n)%Z) s1 ps).
  Proof.
    revert hist c s p ps o. induction sizes as [|n sizes IH]; intros hist c s p ps o Hat Hbc Hof Hp; cbn [pages].
    - intros [= <- <-]. exists (skipn p R). split; [reflexivity|]. split; [discriminate|]. exists [], []. split; [reflexivity|constructor].
    - pose proof (page_sound hist n c s p Hat Hbc Hof Hp) as P.
      destruct (page server e builtin a hist (wrap (repr (PTuple n s)))) as [hist' [[es s']|x]].
      2:{ intros [= <- <-]. exists (skipn p R). split; [reflexivity|]. split; [discriminate|]. exists [], (n :: sizes). split; [reflexivity|constructor]. }
      destruct P as (Hlen & (rest & Hrest) & _ & Hend & Hnext).
      assert (Hl : List.length (skipn p R) = List.length es + List.length rest) by (rewrite Hrest; apply app_length). rewrite skipn_length in Hl.
      destruct s' as [|b s'].
      + intros [= <- <-]. exists rest. cbn [List.concat]. rewrite app_nil_r. split; [exact Hrest|]. split.
        * intros _. specialize (Hend eq_refl). destruct rest; [reflexivity|]. cbn [List.length] in Hl. lia.
        * exists [n], sizes. split; [reflexivity|]. constructor; [exact Hlen|constructor].
      + destruct (Hnext ltac:(discriminate)) as (c' & Hat' & Hb' & Hof').
        destruct (pages server e builtin a wrap sizes hist' (b :: s')) as [ps' o'] eqn:Ep. intros [= <- <-].
        destruct (IH hist' c' (b :: s') (p + List.length es) ps' o' Hat' Hb' Hof' ltac:(lia) Ep) as (rest' & E1 & E2 & s1 & s2 & E3 & E4).
        assert (Er : skipn (p + List.length es) R = rest).
        { rewrite skipn_plus, Hrest. rewrite skipn_app, skipn_all, Nat.sub_diag. reflexivity. }
        exists rest'. rewrite Hrest, <- Er, E1. cbn [List.concat]. rewrite app_assoc. split; [reflexivity|]. split; [exact E2|].
        exists (n :: s1), s2. split; [cbn [app]; congruence|]. constructor; assumption.
  Qed.
  (** which errors there can be *)
  Lemma pages_errors sizes hist c s p ps x : at_position enc server hist c p -> bytes_ok c -> of_text s = Ok c -> p <= List.length R ->
    pages server e builtin a wrap sizes hist s = (ps, Error x) ->
    exists n s', In n sizes /\ (exists c', of_text s' = Ok c') /\ fst (ldap_search e (with_paged a (wrap (repr (PTuple n s'))))) = Raise x.
  Proof.
    revert hist c s p ps. induction sizes as [|n sizes IH]; intros hist c s p ps Hat Hbc Hof Hp; cbn [pages]; [discriminate|].
    pose proof (page_sound hist n c s p Hat Hbc Hof Hp) as P.
    destruct (page server e builtin a hist (wrap (repr (PTuple n s)))) as [hist' [[es s']|y]].
    2:{ intros [= <- <-]. exists n, s. split; [now left|]. split; [eauto|exact P]. }
    destruct P as (Hlen & (rest & Hrest) & _ & Hend & Hnext).
    assert (Hl : List.length (skipn p R) = List.length es + List.length rest) by (rewrite Hrest; apply app_length). rewrite skipn_length in Hl.
    destruct s' as [|b s']; [discriminate|]. destruct (Hnext ltac:(discriminate)) as (c' & Hat' & Hb' & Hof').
    destruct (pages server e builtin a wrap sizes hist' (b :: s')) as [ps' o'] eqn:Ep. intros [= <- ->].
    destruct (IH hist' c' (b :: s') (p + List.length es) ps' Hat' Hb' Hof' ltac:(lia) Ep) as (n0 & s0 & H1 & H2 & H3).
    exists n0, s0. split; [now right|]. auto.
  Qed.
  (** all pages are got in finitely many rounds *)
  Lemma pages_finish sizes hist c s p : progresses enc server -> (forall n, In n sizes -> (1 <= n)%Z) ->
    (forall n s', In n sizes -> (exists c', of_text s' = Ok c') -> exists h, fst (ldap_search e (with_paged a (wrap (repr (PTuple n s'))))) = Ok h) ->
    at_position enc server hist c p -> bytes_ok c -> of_text s = Ok c -> p <= List.length R -> List.length R - p < List.length sizes ->
    snd (pages server e builtin a wrap sizes hist s) = GotAll.
  Proof.
    intros Hpr. revert hist c s p. induction sizes as [|n sizes IH]; intros hist c s p H1 H2 Hat Hbc Hof Hp Hlt; cbn [List.length] in Hlt; [lia|].
    cbn [pages]. pose proof (page_sound hist n c s p Hat Hbc Hof Hp) as P.
    destruct (page server e builtin a hist (wrap (repr (PTuple n s)))) as [hist' [[es s']|y]].
    2:{ exfalso. destruct (H2 n s (or_introl eq_refl) (ex_intro _ c Hof)) as [h H]. congruence. }
    destruct P as (Hlen & (rest & Hrest) & (w & Ha & Hr' & Ees & Eh & Hlast) & Hend & Hnext).
    assert (Hl : List.length (skipn p R) = List.length es + List.length rest) by (rewrite Hrest; apply app_length). rewrite skipn_length in Hl.
    destruct s' as [|b s']; [reflexivity|]. destruct (Hnext ltac:(discriminate)) as (c' & Hat' & Hb' & Hof').
    assert (N : es <> []).
    { intros En. assert (Hn1 : (1 <= n <= 2147483647)%Z) by (split; [apply H1; now left|apply Hr']).
      destruct (Hpr hist w n c p Hn1 Hbc Hat Ha) as [X|X]; [congruence|]. apply Hlast in X. discriminate. }
    assert (0 < List.length es) by (destruct es; [congruence|cbn [List.length]; lia]).
    specialize (IH hist' c' (b :: s') (p + List.length es) (fun n' Hi => H1 n' (or_intror Hi)) (fun n' x Hi => H2 n' x (or_intror Hi)) Hat' Hb' Hof' ltac:(lia) ltac:(lia)).
    destruct (pages server e builtin a wrap sizes hist' (b :: s')) as [ps' o']. exact IH.
  Qed.
  (** the keyword can always be added to a search that is possible *)
  Lemma with_paged_ok n s c : possible e a -> in_range n -> of_text s = Ok c ->
    (criticality (e_criticality e) (wrap (repr (PTuple n s))) = true -> In rfc2696_oid (e_supported e)) ->
    exists h, fst (ldap_search e (with_paged a (wrap (repr (PTuple n s))))) = Ok h.
  Proof.
    intros P Hin Hof Hc. set (v := wrap (repr (PTuple n s))) in *.
    assert (Hd' : NoDup (map fst (a_kwds (with_paged a v)))).
    { cbn [with_paged a_kwds]. rewrite map_app. cbn [map fst]. apply NoDup_app_last; assumption. }
    apply (C70_accepted_iff e (with_paged a v) Hd').
    destruct P as [P1 P2 P3 P4 P5 P6 P7]. split; try assumption.
    - cbn [with_paged a_kwds]. apply Forall_app. split; [exact P6|]. constructor; [|constructor]. intros k Hk'. cbn [fst snd] in *.
      rewrite Hk in Hk'. injection Hk' as <-. cbn [paged_ctrl c_allows c_request_oid c_prepare]. split; [reflexivity|]. split; [exact Hc|].
      exists (enc n c). unfold v. rewrite Hw, prepare_tuple, (proj2 (int0max_iff n n) (conj Hin eq_refl)). cbn [bind]. rewrite Hof. reflexivity.
    - cbn [with_paged a_kwds]. unfold others_of. rewrite List.filter_app. cbn [List.filter fst]. rewrite dmem_dget, Hk. cbn [negb]. rewrite app_nil_r. exact P7.
  Qed.
End P.

