(** * C72: paged results *)
From Verif Require Import PyBase Model_Controls Spec_Controls Proofs_Controls Props_Controls Model_Search Model_Request Spec_Request Proofs_Request
  Props_Request Model_Paged Spec_Paged Proofs_Paged Spec_Ber Proofs_Ber.

(** The extension is active: its control is the one registered for the keyword and the OID. *)
Definition active (reg : registry) (c : ctrl) : Prop :=
  coherent reserved_kwds reg /\ dget (r_kw reg) (lit "paged") = Some c /\ dget (r_resp reg) rfc2696_oid = Some c.
(** critical, optional, or neither *)
Definition wrapper (wrap : str -> kwval) : Prop := wrap = Plain \/ wrap = Critical \/ wrap = Optional.
Lemma wrapper_value wrap : wrapper wrap -> forall v, value_of (wrap v) = v.
Proof. intros [->|[->| ->]]; reflexivity. Qed.

Section C72.
  Context (enc : Z -> list N -> list N) (dec : list N -> res (Z * list N * list N)) (to_text : list N -> res str) (of_text : str -> res (list N)).
  Notation pctrl := (paged_ctrl enc dec to_text of_text).

  (** The request: a search with the keyword sends one control for it, with the size and cookie given, no cookie
      for a plain size, and the criticality asked for. *)
  Theorem C72_request_partial e a wrap v h q : active (e_reg e) pctrl -> wrapper wrap -> NoDup (map fst (a_kwds a)) ->
    ~ In (lit "paged") (map fst (a_kwds a)) -> (forall n c, enc n c <> []) -> ldap_search e (with_paged a (wrap (repr v))) = (Ok h, q) ->
    exists w n s c l, q = [w] /\ (v = PTuple n s \/ v = PInt n /\ s = []) /\ of_text s = Ok c /\ in_range n /\
      w_ctrls w = l ++ [mk_wire rfc2696_oid (match wrap (repr v) with Critical _ => true | Optional _ => false | Plain _ => e_criticality e end) (Some (enc n c))] /\
      ~ In rfc2696_oid (map wc_oid l) /\ asked e (with_paged a (wrap (repr v))) w h.
  Proof.
    intros (Hco & Hk & Hr) Hw Hd Hn He H. destruct (paged_sends enc dec to_text of_text _ e a _ h q Hco Hd Hn Hk H) as (w & p & -> & Ep & A & l & Hl & Hnl).
    rewrite (wrapper_value _ Hw) in Ep. unfold paged_prepare in Ep. rewrite pyval_repr in Ep.
    assert (G : forall n s, (let* n' := int0max n in let* c := of_text s in Ok (enc n' c)) = Ok p -> exists c, in_range n /\ of_text s = Ok c /\ p = enc n c).
    { intros n s. destruct (int0max n) as [n'|x] eqn:En; [|discriminate]. cbn [bind]. apply int0max_iff in En as [Hin ->].
      destruct (of_text s) as [c|x]; [|discriminate]. cbn [bind]. intros [= <-]. eauto. }
    destruct v as [n|n s| |]; cbn [bind] in Ep; [| |discriminate|discriminate].
    - destruct (G n [] Ep) as (c & Hin & Hof & ->). exists w, n, [], c, l. repeat (split; [solve [auto]|]). split; [|split; [exact Hnl|exact A]].
      rewrite Hl. destruct (enc n c) eqn:E; [destruct (He n c E)|reflexivity].
    - destruct (G n s Ep) as (c & Hin & Hof & ->). exists w, n, s, c, l. repeat (split; [solve [auto]|]). split; [|split; [exact Hnl|exact A]].
      rewrite Hl. destruct (enc n c) eqn:E; [destruct (He n c E)|reflexivity].
  Qed.
  (** Values that are neither a size nor a tuple of size and cookie, and sizes outside the protocol's range, are refused
      and nothing is sent. *)
  Theorem C72_bad_value e a wrap v : active (e_reg e) pctrl -> wrapper wrap -> NoDup (map fst (a_kwds a)) ->
    ~ In (lit "paged") (map fst (a_kwds a)) ->
    (v = POther \/ v = PTupleOther \/ exists n, ~ in_range n /\ (v = PInt n \/ exists s, v = PTuple n s)) ->
    exists x, ldap_search e (with_paged a (wrap (repr v))) = (Raise x, []).
  Proof.
    intros (Hco & Hk & Hr) Hw Hd Hn Hv. destruct (ldap_search e (with_paged a (wrap (repr v)))) as [[h|x] q] eqn:E.
    - exfalso. destruct (paged_sends enc dec to_text of_text _ e a _ h q Hco Hd Hn Hk E) as (w & p & _ & Ep & _).
      rewrite (wrapper_value _ Hw) in Ep. unfold paged_prepare in Ep. rewrite pyval_repr in Ep.
      destruct Hv as [->|[->|(n & Hout & [->|[s ->]])]]; cbn [bind] in Ep; try discriminate;
        (destruct (int0max n) as [n'|x] eqn:En; [apply int0max_iff in En as [Hin _]; contradiction|discriminate]).
    - exists x. pose proof (C70_refused_sends_nothing e (with_paged a (wrap (repr v))) x) as N. rewrite E in N. cbn [fst snd] in N. now rewrite N.
  Qed.
  Theorem C72_bad_type : paged_prepare enc of_text (repr POther) = Raise TypeError.
  Proof. reflexivity. Qed.

  Context (lib : library enc dec to_text of_text) {E : Type} (server : history (E := E) -> wire_search -> answer (E := E)) (R : list E)
          (e : env) (builtin : str -> bool) (a : search_args) (wrap : str -> kwval).
  Context (Hact : active (e_reg e) pctrl) (Hw : wrapper wrap) (Hd : NoDup (map fst (a_kwds a)))
          (Hn : ~ In (lit "paged") (map fst (a_kwds a))) (Hb : builtin (lit "page_cookie") = false).
  Context (Hs : serves_pages enc server R).

  (** Getting pages in a loop, any number of them and of any sizes, from a server that pages its results: the pages put
      together are the beginning of the results, each result once and in order; no page is larger than asked for; and
      when the loop ends because the cookie is empty they are all the results. *)
  Theorem C72_every_result_once_partial sizes hist ps o : pages server e builtin a wrap sizes hist [] = (ps, o) ->
    exists rest, R = List.concat ps ++ rest /\ (o = GotAll -> List.concat ps = R) /\
      (exists s1 s2, sizes = s1 ++ s2 /\ Forall2 (fun n es => (Z.of_nat (List.length es) <= n)%Z) s1 ps).
  Proof.
    destruct Hact as (Hco & Hk & Hr). intros H.
    destruct (pages_sound enc dec to_text of_text lib server R Hs _ e Hco builtin a wrap (wrapper_value _ Hw) Hb Hd Hn Hk Hr sizes hist [] [] 0 ps o
      (at_start _ _ _) (Forall_nil _) (proj2 (li_empty _ _ _ _ lib)) (Nat.le_0_l _) H) as (rest & E1 & E2 & E3).
    cbn [skipn] in E1. exists rest. split; [exact E1|]. split; [|exact E3]. intros Ho. rewrite E1, (E2 Ho), app_nil_r. reflexivity.
  Qed.
  (** No error occurs if the search without paging is possible, the server lists the control if it is critical, and the
      sizes are in range. *)
  Theorem C72_no_error_partial sizes hist : possible e a -> (forall n, In n sizes -> in_range n) ->
    (forall v, criticality (e_criticality e) (wrap v) = true -> In rfc2696_oid (e_supported e)) ->
    forall x, snd (pages server e builtin a wrap sizes hist []) <> Error x.
  Proof.
    destruct Hact as (Hco & Hk & Hr). intros P Hsz Hc x Hx. destruct (pages server e builtin a wrap sizes hist []) as [ps o] eqn:Ep. cbn [snd] in Hx. subst o.
    destruct (pages_errors enc dec to_text of_text lib server R Hs _ e Hco builtin a wrap (wrapper_value _ Hw) Hb Hd Hn Hk Hr sizes hist [] [] 0 ps x
      (at_start _ _ _) (Forall_nil _) (proj2 (li_empty _ _ _ _ lib)) (Nat.le_0_l _) Ep) as (n & s & Hi & (c & Hof) & Hx).
    destruct (with_paged_ok enc dec to_text of_text e a wrap (wrapper_value _ Hw) Hd Hn Hk n s c P (Hsz n Hi) Hof (Hc _)) as [h Hh]. congruence.
  Qed.
  (** If moreover every page but the last has an entry, all results are got after at most one page for each and one more. *)
  Theorem C72_finishes_partial sizes hist : possible e a -> progresses enc server -> (forall n, In n sizes -> (1 <= n <= 2147483647)%Z) ->
    (forall v, criticality (e_criticality e) (wrap v) = true -> In rfc2696_oid (e_supported e)) ->
    List.length R < List.length sizes ->
    exists ps, pages server e builtin a wrap sizes hist [] = (ps, GotAll) /\ List.concat ps = R.
  Proof.
    destruct Hact as (Hco & Hk & Hr). intros P Hpr Hsz Hc Hlt.
    assert (F : snd (pages server e builtin a wrap sizes hist []) = GotAll).
    { refine (pages_finish enc dec to_text of_text lib server R Hs _ e Hco builtin a wrap (wrapper_value _ Hw) Hb Hd Hn Hk Hr sizes hist [] [] 0 Hpr _ _
        (at_start _ _ _) (Forall_nil _) (proj2 (li_empty _ _ _ _ lib)) (Nat.le_0_l _) _).
      - intros n Hi. apply Hsz, Hi.
      - intros n s Hi (c & Hof). refine (with_paged_ok enc dec to_text of_text e a wrap (wrapper_value _ Hw) Hd Hn Hk n s c P _ Hof (Hc _)).
        unfold in_range. specialize (Hsz n Hi). lia.
      - lia. }
    destruct (pages server e builtin a wrap sizes hist []) as [ps o] eqn:Ep. cbn [snd] in F. subst o. exists ps. split; [reflexivity|].
    destruct (C72_every_result_once_partial sizes hist ps GotAll Ep) as (_ & _ & H & _). exact (H eq_refl).
  Qed.
End C72.

(** A final message that says neither success nor that the base object does not exist, and is no referral, is an
    LDAPError: no entries and no cookie are got from it, whatever controls it carries. *)
Theorem C72_server_error E (server : history (E := E) -> wire_search -> answer (E := E)) e builtin a hist v h w :
  ldap_search e (with_paged a v) = (Ok h, [w]) -> ~ In (an_code (server hist w)) [0; 10; 32]%N ->
  page server e builtin a hist v = (hist ++ [(w, server hist w)], Raise LDAPError).
Proof.
  intros H1 H2. unfold page. rewrite H1. unfold read_answer, rc_success, rc_noSuchObject, rc_referral.
  destruct (N.eqb_spec (an_code (server hist w)) 0) as [X|_]; [destruct H2; rewrite X; cbn; auto|].
  destruct (N.eqb_spec (an_code (server hist w)) 32) as [X|_]; [destruct H2; rewrite X; cbn; auto|].
  destruct (N.eqb_spec (an_code (server hist w)) 10) as [X|_]; [destruct H2; rewrite X; cbn; auto|]. reflexivity.
Qed.
(** ... and so the loop stops there with that error. *)
Theorem C72_server_error_stops E (server : history (E := E) -> wire_search -> answer (E := E)) e builtin a wrap n sizes hist cookie h w :
  ldap_search e (with_paged a (wrap (repr (PTuple n cookie)))) = (Ok h, [w]) -> ~ In (an_code (server hist w)) [0; 10; 32]%N ->
  pages server e builtin a wrap (n :: sizes) hist cookie = ([], Error LDAPError).
Proof. intros H1 H2. cbn [pages]. rewrite (C72_server_error _ _ _ _ _ _ _ _ _ H1 H2). reflexivity. Qed.

(** Bytes behind the control value are an LDAPError. *)
Theorem C72_leftover dec to_text raw n c b l : dec raw = Ok (n, c, b :: l) -> paged_handle dec to_text raw = Raise LDAPError.
Proof. intros H. unfold paged_handle. rewrite H. reflexivity. Qed.

(** Refuted: the loop of the documentation cannot tell a cookie it cannot read from the end of the results: if the
    ASN.1 library fails to turn the cookie into text, page_cookie is empty. *)
Theorem C72_refuted_unreadable_cookie dec to_text raw n c : dec raw = Ok (n, c, []) -> to_text c = Raise pyasn1_error ->
  paged_handle dec to_text raw = Ok [].
Proof. intros H1 H2. unfold paged_handle, string_component. rewrite H1. cbn [bind]. rewrite H2. reflexivity. Qed.
(** Refuted: against a server that ignores the control (it need not be critical) page_cookie does not exist, and
    looking at it is an AttributeError. *)
Theorem C72_refuted_ignored_control enc dec to_text of_text E (server : history (E := E) -> wire_search -> answer (E := E)) e builtin a hist wrap n h w es :
  active (e_reg e) (paged_ctrl enc dec to_text of_text) ->
  ldap_search e (with_paged a (wrap (repr (PInt n)))) = (Ok h, [w]) -> server hist w = mk_answer es 0 [] ->
  snd (page server e builtin a hist (wrap (repr (PInt n)))) = Raise AttributeError.
Proof. intros _ H1 H2. unfold page. rewrite H1, H2. reflexivity. Qed.

(** ** A library and a server *)
Definition ex_dec (l : list N) : res (Z * list N * list N) := match ber_dec l with Some x => Ok x | None => Raise pyasn1_error end.
(** ISO 8859-1 *)
Definition latin1 (b : list N) : res str := Ok b.
Definition of_latin1 (s : str) : res (list N) := if forallb (fun c => N.ltb c 256) s then Ok s else Raise pyasn1_error.
Theorem C72_nonvacuous_library : library ber_enc ex_dec latin1 of_latin1.
Proof.
  split.
  - intros n c. discriminate.
  - split; reflexivity.
  - intros n c H _. unfold ex_dec. rewrite <- (app_nil_r (ber_enc n c)), ber_round_trip by lia. reflexivity.
  - intros c H. exists c. split; [reflexivity|]. split; [|auto]. unfold of_latin1.
    replace (forallb (fun c => N.ltb c 256) c) with true; [reflexivity|]. symmetry. apply forallb_forall. intros x Hx.
    unfold bytes_ok in H. rewrite Forall_forall in H. apply N.ltb_lt, H, Hx.
Qed.

(** a server that keeps the position in the cookie: as many bytes as entries were returned, and one *)
Definition ex_value (w : wire_search) : Z * list N :=
  match List.filter (fun c => str_eqb (wc_oid c) rfc2696_oid) (w_ctrls w) with
  | c :: _ => match wc_value c with Some v => match ber_dec v with Some (n, k, _) => (n, k) | None => (0%Z, []) end | None => (0%Z, []) end
  | [] => (0%Z, [])
  end.
Definition ex_server (R : list str) (hist : history (E := str)) (w : wire_search) : answer (E := str) :=
  let '(n, c) := ex_value w in
  let p := pred (List.length c) in
  let es := firstn (Z.to_nat n) (skipn p R) in
  let q := p + List.length es in
  mk_answer es 0 [(rfc2696_oid, ber_enc 0 (if Nat.eqb q (List.length R) then [] else repeat 1%N (S q)))].

Lemma ber_enc_cookie z c z' c' : ber_enc z c = ber_enc z' c' -> c = c'.
Proof.
  unfold ber_enc. intros H. assert (H1 : untlv 48 (tlv 48 (tlv 2 (enc_int z) ++ tlv 4 c) ++ []) = untlv 48 (tlv 48 (tlv 2 (enc_int z') ++ tlv 4 c') ++ [])) by (now rewrite H).
  rewrite !untlv_tlv in H1. assert (H1' : tlv 2 (enc_int z) ++ tlv 4 c = tlv 2 (enc_int z') ++ tlv 4 c') by congruence. clear H1.
  assert (H2 : untlv 2 (tlv 2 (enc_int z) ++ tlv 4 c) = untlv 2 (tlv 2 (enc_int z') ++ tlv 4 c')) by (now rewrite H1').
  rewrite !untlv_tlv in H2. assert (H2' : tlv 4 c = tlv 4 c') by congruence.
  assert (H3 : untlv 4 (tlv 4 c ++ []) = untlv 4 (tlv 4 c' ++ [])) by (now rewrite H2'). rewrite !untlv_tlv in H3. congruence.
Qed.
Lemma ex_value_asks w n c : (0 <= n)%Z -> asks ber_enc w n c -> ex_value w = (n, c).
Proof.
  intros Hn (crit & l1 & l2 & E & N1 & N2). unfold ex_value. rewrite E, List.filter_app. cbn [List.filter wc_oid]. rewrite str_eqb_refl.
  assert (F : List.filter (fun c => str_eqb (wc_oid c) rfc2696_oid) l1 = []).
  { clear - N1. induction l1 as [|x l1 IH]; [reflexivity|]. cbn [List.filter]. destruct (str_eqb_spec (wc_oid x) rfc2696_oid) as [X|X].
    - exfalso. apply N1. now left.
    - apply IH. intro Y. apply N1. now right. }
  rewrite F. cbn [app wc_value]. rewrite <- (app_nil_r (ber_enc n c)), ber_round_trip by exact Hn. reflexivity.
Qed.
Lemma ex_at R hist c p : at_position ber_enc (ex_server R) hist c p -> p = pred (List.length c) /\ p <= List.length R.
Proof.
  induction 1 as [|hist w n c p est c' H [IH1 IH2] Ha Hc Hne]; [split; [reflexivity|lia]|].
  unfold ex_server in *. destruct (ex_value w) as [n' k] eqn:Ek. cbn [an_ctrls an_entries] in *. assert (Hc' : forall (x y : str), [(rfc2696_oid, x)] = [(rfc2696_oid, y)] -> x = y) by (intros x y Q; congruence). apply Hc', ber_enc_cookie in Hc. clear Hc'.
  assert (Ek' : k = c).
  { destruct Ha as (crit & l1 & l2 & E & N1 & N2). unfold ex_value in Ek. rewrite E, List.filter_app in Ek. cbn [List.filter wc_oid] in Ek. rewrite str_eqb_refl in Ek.
    assert (F : List.filter (fun c => str_eqb (wc_oid c) rfc2696_oid) l1 = []).
    { clear - N1. induction l1 as [|x l1 IH]; [reflexivity|]. cbn [List.filter]. destruct (str_eqb_spec (wc_oid x) rfc2696_oid) as [X|X].
      - exfalso. apply N1. now left.
      - apply IH. intro Y. apply N1. now right. }
    rewrite F in Ek. cbn [app wc_value] in Ek. unfold ber_dec, ber_enc in Ek. rewrite <- (app_nil_r (tlv 48 _)), untlv_tlv, untlv_tlv in Ek.
    rewrite <- (app_nil_r (tlv 4 c)), untlv_tlv in Ek. assert (D : exists z, dec_int (enc_int n) = Some z).
    { unfold enc_int. destruct (be (Z.to_N n)) as [|b l]; [eexists; reflexivity|]. destruct (N.ltb b 128); eexists; reflexivity. }
    destruct D as [z D]. rewrite D in Ek. congruence. }
  subst k. rewrite <- IH1 in *. destruct (Nat.eqb (p + _) (List.length R)); [congruence|]. subst c'. rewrite repeat_length. split; [reflexivity|].
  rewrite firstn_length, skipn_length. lia.
Qed.
Theorem C72_nonvacuous_server R : serves_pages ber_enc (ex_server R) R /\ progresses ber_enc (ex_server R).
Proof.
  split.
  - intros hist w n c p Hn Hc Hat Ha Hp. destruct (ex_at R hist c p Hat) as [Ep _]. unfold ex_server. rewrite (ex_value_asks w n c) by (lia || exact Ha).
    rewrite <- Ep. unfold answers. cbn [an_ctrls an_code an_entries]. eexists 0%Z, _. split; [reflexivity|]. split; [lia|]. split; [|split; [reflexivity|split; [|split]]].
    + destruct (Nat.eqb _ _); [constructor|]. apply Forall_forall. intros x Hx. apply repeat_spec in Hx. subst x. reflexivity.
    + pose proof (firstn_le_length (Z.to_nat n) (skipn p R)). rewrite firstn_length. lia.
    + exists (skipn (Z.to_nat n) (skipn p R)). symmetry. apply firstn_skipn.
    + destruct (Nat.eqb_spec (p + List.length (firstn (Z.to_nat n) (skipn p R))) (List.length R)) as [X|X]; [intros _; exact X|discriminate].
  - intros hist w n c p Hn Hc Hat Ha. destruct (ex_at R hist c p Hat) as [Ep Hp]. unfold ex_server. rewrite (ex_value_asks w n c) by (lia || exact Ha).
    rewrite <- Ep. cbn [an_ctrls an_entries]. destruct (skipn p R) as [|x l] eqn:El.
    + right. exists 0%Z. split; [lia|]. rewrite firstn_nil. cbn [List.length]. rewrite Nat.add_0_r.
      assert (Hl : List.length (skipn p R) = 0) by (rewrite El; reflexivity). rewrite skipn_length in Hl. replace p with (List.length R) by lia.
      rewrite Nat.eqb_refl. reflexivity.
    + left. destruct (Z.to_nat n) eqn:Ez; [lia|]. discriminate.
Qed.

Definition ex_paged : ctrl := paged_ctrl ber_enc ex_dec latin1 of_latin1.
Definition ex_penv : env :=
  mk_env false (register_all reserved_kwds [ex_paged] empty_registry) [rfc2696_oid] false (Ok true) (lit "(objectClass=*)") 30 3 true false UNIFIED.
Definition ex_none : str -> bool := fun _ => false.
Example C72_nonvacuous :
  active (e_reg ex_penv) ex_paged /\
  possible ex_penv (only_base (lit "dc=x")) /\
  pages (ex_server [lit "a"; lit "b"; lit "c"]) ex_penv ex_none (only_base (lit "dc=x")) Critical [2; 2; 2]%Z [] [] = ([[lit "a"; lit "b"]; [lit "c"]], GotAll) /\
  pages (ex_server [lit "a"; lit "b"; lit "c"]) ex_penv ex_none (only_base (lit "dc=x")) Plain [1; 1]%Z [] [] = ([[lit "a"]; [lit "b"]], More [1; 1; 1]%N) /\
  fst (ldap_search ex_penv (with_paged (only_base (lit "dc=x")) (Plain (repr (PInt (-1)))))) = Raise constraint_error.
Proof.
  split; [|split; [|split; [|split]]].
  - split; [apply C25_unambiguous|]. split; reflexivity.
  - apply (C70_accepted_iff ex_penv (only_base (lit "dc=x")) (NoDup_nil _)). eexists. vm_compute. reflexivity.
  - vm_compute. reflexivity.
  - vm_compute. reflexivity.
  - vm_compute. reflexivity.
Qed.

Print Assumptions C72_request_partial.
Print Assumptions C72_bad_value.
Print Assumptions C72_bad_type.
Print Assumptions C72_every_result_once_partial.
Print Assumptions C72_no_error_partial.
Print Assumptions C72_finishes_partial.
Print Assumptions C72_server_error.
Print Assumptions C72_server_error_stops.
Print Assumptions C72_leftover.
Print Assumptions C72_refuted_unreadable_cookie.
Print Assumptions C72_refuted_ignored_control.
Print Assumptions C72_nonvacuous_library.
Print Assumptions C72_nonvacuous_server.
