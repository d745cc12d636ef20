(** * C79 and C80: the messages that are sent, and their encodings *)
From Verif Require Import PyBase Model_Ldif Model_Filter Spec_Filter Proofs_Filter Proofs_Filter2 Model_Controls Model_Search Model_Request Model_Paged
  Spec_X690 Model_Wire Spec_Wire Spec_Wire2 Proofs_X690 Proofs_Wire Proofs_Wire2 Proofs_Wire3 Proofs_Wire4 Proofs_Wire5 Proofs_Wire6 Spec_Net.

(** ** C79: each method sends the RFC 4511 message of its arguments, exactly when they can be encoded *)
Theorem C79_simple_bind mid user password cs :
  exactly_if (Spec_Wire.int0max mid /\ (encodable user /\ encodable password) /\ Forall ctrl_ok cs)
    (message mid "bindRequest" (simple_bind_request user password) cs)
    (mk_rm mid (RBindRequest 3 (as_octets user) (RSimple (as_octets password))) (controls_of cs)).
Proof. apply bind_exact. Qed.
Theorem C79_sasl_bind mid mech response cs :
  exactly_if (Spec_Wire.int0max mid /\ (encodable (Text mech) /\ match response with Some v => encodable v | None => True end) /\ Forall ctrl_ok cs)
    (message mid "bindRequest" (sasl_bind_request mech response) cs)
    (mk_rm mid (RBindRequest 3 [] (RSasl (utf8 mech) (option_map as_octets response))) (controls_of cs)).
Proof. apply sasl_exact. Qed.
Theorem C79_unbind mid cs :
  exactly_if (Spec_Wire.int0max mid /\ True /\ Forall ctrl_ok cs)
    (message mid "unbindRequest" unbind_request cs) (mk_rm mid RUnbindRequest (controls_of cs)).
Proof. apply unbind_exact. Qed.
Theorem C79_abandon mid i cs :
  exactly_if (Spec_Wire.int0max mid /\ Spec_Wire.int0max i /\ Forall ctrl_ok cs)
    (message mid "abandonRequest" (abandon_request i) cs) (mk_rm mid (RAbandonRequest i) (controls_of cs)).
Proof. apply abandon_exact. Qed.
Theorem C79_delete mid dn cs :
  exactly_if (Spec_Wire.int0max mid /\ encodable dn /\ Forall ctrl_ok cs)
    (message mid "delRequest" (delete_request dn) cs) (mk_rm mid (RDelRequest (as_octets dn)) (controls_of cs)).
Proof. apply delete_exact. Qed.
Theorem C79_mod_dn mid dn rdn clean sup cs :
  exactly_if (Spec_Wire.int0max mid /\ (encodable dn /\ encodable rdn /\ match sup with Some v => encodable v | None => True end) /\ Forall ctrl_ok cs)
    (message mid "modDNRequest" (mod_dn_request dn rdn clean sup) cs)
    (mk_rm mid (RModifyDNRequest (as_octets dn) (as_octets rdn) clean (option_map as_octets sup)) (controls_of cs)).
Proof. apply mod_dn_exact. Qed.
Theorem C79_extended mid oid v cs :
  exactly_if (Spec_Wire.int0max mid /\ (ascii oid /\ match v with Some v => encodable v | None => True end) /\ Forall ctrl_ok cs)
    (message mid "extendedReq" (extended_request oid v) cs)
    (mk_rm mid (RExtendedRequest (as_octets oid) (option_map as_octets v)) (controls_of cs)).
Proof. apply extended_exact. Qed.
Theorem C79_modify mid dn l cs :
  exactly_if (Spec_Wire.int0max mid /\ (encodable dn /\ Forall (fun m => attr_encodable (snd (fst m), snd m)) l) /\ Forall ctrl_ok cs)
    (message mid "modifyRequest" (modify_request dn l) cs)
    (mk_rm mid (RModifyRequest (as_octets dn) (map change_of l)) (controls_of cs)).
Proof. apply modify_exact. Qed.
Theorem C79_search mid w cs :
  exactly_if (Spec_Wire.int0max mid /\ search_ok w /\ Forall ctrl_ok cs)
    (message mid "searchRequest" (search_request w) cs) (mk_rm mid (search_of w) (controls_of cs)).
Proof. apply search_exact. Qed.
(** ... compare for text arguments only, and add if every attribute has a value *)
Theorem C79_compare_partial mid dn a v cs :
  exactly_if (Spec_Wire.int0max mid /\ (encodable (Text dn) /\ encodable (Text a) /\ encodable (Text v)) /\ Forall ctrl_ok cs)
    (message mid "compareRequest" (compare_request (Text dn) (Text a) (Text v)) cs)
    (mk_rm mid (RCompareRequest (utf8 dn) (utf8 a) (utf8 v)) (controls_of cs)).
Proof. apply compare_exact. Qed.
Theorem C79_add_partial mid dn l cs : Forall (fun kv => snd kv <> []) l ->
  exactly_if (Spec_Wire.int0max mid /\ (encodable dn /\ Forall attr_encodable l) /\ Forall ctrl_ok cs)
    (message mid "addRequest" (add_request dn l) cs)
    (mk_rm mid (RAddRequest (as_octets dn) (map attr_octets l)) (controls_of cs)).
Proof. apply add_exact. Qed.

(** Bytes given to compare are sent as their Python repr, whatever they are. *)
Theorem C79_refuted_compare_bytes mid dn a v cs : Spec_Wire.int0max mid -> encodable (Text dn) -> encodable (Text a) -> Forall ctrl_ok cs ->
  Forall octet v ->
  sends (message mid "compareRequest" (compare_request (Text dn) (Text a) (Bytes v)) cs)
    (mk_rm mid (RCompareRequest (utf8 dn) (utf8 a) (utf8 (bytes_repr v))) (controls_of cs)) /\ utf8 (bytes_repr v) <> v.
Proof.
  intros Hm HD HA HC HV.
  assert (L : (List.length v < List.length (bytes_repr v))%nat).
  { unfold bytes_repr. rewrite !app_length. cbn [List.length]. generalize (if existsb (N.eqb 39) v && negb (existsb (N.eqb 34) v) then 34%N else 39%N). intro q.
    assert (G : (List.length v <= List.length (flat_map (repr_byte q) v))%nat).
    { clear. induction v as [|x v IH]; cbn [flat_map List.length]; [lia|]. rewrite app_length.
      assert (1 <= List.length (repr_byte q x))%nat; [|lia]. unfold repr_byte.
      repeat match goal with |- context [if ?b then _ else _] => destruct b end; try (cbn [List.length]; lia); rewrite ?app_length; cbn; lia. }
    lia. }
  assert (A : Forall (fun c => (c < 128)%N) (bytes_repr v)).
  { unfold bytes_repr. assert (Q : exists q, (if existsb (N.eqb 39) v && negb (existsb (N.eqb 34) v) then 34%N else 39%N) = q /\ (q < 128)%N) by (destruct (_ && _); eexists; split; reflexivity).
    destruct Q as (q & -> & Q). apply Forall_app. split; [repeat constructor; lia|]. apply Forall_app. split; [|repeat constructor; lia].
    clear - HV Q. induction HV as [|x v Hx _ IH]; cbn [flat_map]; [constructor|]. apply Forall_app. split; [|exact IH]. unfold octet in Hx.
    unfold repr_byte. destruct ((x =? 92)%N || (x =? q)%N) eqn:E1; [apply Bool.orb_true_iff in E1; rewrite !N.eqb_eq in E1; repeat constructor; lia|].
    destruct (N.eqb x 10); [repeat constructor; lia|]. destruct (N.eqb x 13); [repeat constructor; lia|]. destruct (N.eqb x 9); [repeat constructor; lia|].
    destruct ((x <? 32)%N || negb (x <? 127)%N) eqn:E2.
    - apply Forall_app. split; [repeat constructor; lia|].
      assert (D : (x / 16 < 16)%N) by (apply N.div_lt_upper_bound; lia). assert (M : (x mod 16 < 16)%N) by (apply N.mod_lt; lia).
      unfold hex_digit. repeat constructor; destruct (_ <? 10)%N; lia.
    - apply Bool.orb_false_iff in E2. destruct E2 as [_ E2]. apply Bool.negb_false_iff in E2. apply N.ltb_lt in E2. repeat constructor; lia. }
  split.
  - destruct (compare_exact mid dn a (bytes_repr v) cs) as [H _]. apply H. repeat split; try assumption; try apply Hm.
    cbn [encodable]. eapply Forall_impl; [|exact A]. cbn beta. intros c Hc. lia.
  - rewrite utf8_ascii by exact A. intro E. rewrite E in L. lia.
Qed.
(** An attribute without values is accepted by add, and sent; it is no RFC 4511 message. *)
Theorem C79_refuted_add_empty mid dn l cs : Spec_Wire.int0max mid -> encodable dn -> Forall attr_encodable l -> Forall ctrl_ok cs ->
  Exists (fun kv => snd kv = []) l ->
  exists lm, message mid "addRequest" (add_request dn l) cs = Ok lm /\
    forall m b, ber (o_val lm) (o_class lm) b -> ~ e_message m b.
Proof. apply add_empty. Qed.
(** A name without a password is sent as it is: an unauthenticated bind (RFC 4513, 5.1.2). *)
Theorem C79_unauthenticated_bind_sent mid user : Spec_Wire.int0max mid -> encodable (Text user) ->
  sends (message mid "bindRequest" (simple_bind_request (Text user) (Text [])) [])
    (mk_rm mid (RBindRequest 3 (utf8 user) (RSimple [])) None).
Proof. intros A B. apply (bind_exact mid (Text user) (Text []) []). repeat split; try apply A; try exact B; constructor. Qed.

(** The filters that the parsers accept are well-formed on the wire. *)
Lemma valid_sizes f : valid f -> filter_sizes (filter_of f) /\ rfilter_ok (filter_of f).
Proof.
  assert (ML : forall l, Forall (fun f => valid f -> filter_sizes (filter_of f) /\ rfilter_ok (filter_of f)) l -> Forall valid l ->
    (fix all l := match l with [] => True | g :: l' => filter_sizes g /\ all l' end) (map filter_of l) /\
    (fix all l := match l with [] => True | g :: l' => rfilter_ok g /\ all l' end) (map filter_of l)).
  { induction 1 as [|g l Hg _ IH]; intro V; [split; exact I|]. inversion V; subst. destruct (IH H2), (Hg H1). cbn [map]. auto. }
  induction f as [l Hl|l Hl|g IH|a v|a v|a v|a v|a|a l|a d r v] using filter_ind2; intro V; inversion V; subst; cbn [filter_of filter_sizes rfilter_ok]; try (split; exact I).
  - destruct (ML l Hl H1). split; [split; [|assumption] | assumption]. destruct l; [congruence | discriminate].
  - destruct (ML l Hl H1). split; [split; [|assumption] | assumption]. destruct l; [congruence | discriminate].
  - auto.
  - match goal with H : subs_ok _ |- _ => destruct H as (NE & ini & anys & fin & -> & HI & _ & HF) end. split; [intro E; apply NE; destruct (ini ++ _); [reflexivity | discriminate E]|].
    exists (map sub_of ini), (map utf8 anys), (map sub_of fin). rewrite !map_app, !map_map. split; [reflexivity|]. split.
    + destruct HI as [->|(x & -> & _)]; [left; reflexivity | right; eexists; reflexivity].
    + destruct HF as [->|(x & -> & _)]; [left; reflexivity | right; eexists; reflexivity].
  - split; [exact I|]. destruct a; [right; discriminate | left]. destruct r; [discriminate | congruence].
Qed.
Theorem C79_filter_wellformed syn text f : parse_filter syn text = Ok f -> filter_sizes (filter_of f) /\ rfilter_ok (filter_of f).
Proof.
  intro H. apply valid_sizes. destruct syn; cbn [parse_filter] in H; try discriminate.
  - apply standard_iff in H. apply (proj1 std_text_valid_mut f text H).
  - apply simple_unified in H. apply unified_valid in H. exact H.
  - apply unified_valid in H. exact H.
Qed.
(** So a search that passes the checks of LDAP.search is sent as a message that has an encoding. *)
Theorem C79_search_sent e a w h mid cs : build e a = Ok (w, h) -> Spec_Wire.int0max mid -> Forall ctrl_ok cs ->
  encodable (Text (w_base w)) -> texts_ok (w_filter w) -> Forall (fun x => encodable (Text x)) (w_attrs w) -> (w_deref w <= 3)%N ->
  let m := mk_rm mid (search_of w) (controls_of cs) in
  sends (message mid "searchRequest" (search_request w) cs) m /\ valid_message m /\ rfilter_ok (filter_of (w_filter w)) /\
  ((len_message m < 256 ^ 126)%N -> exists b, e_message m b).
Proof.
  intros H Hm Hc HB HF HA HD. cbn zeta.
  assert (K : Spec_Wire.int0max (w_size w) /\ Spec_Wire.int0max (w_time w) /\ exists syn text, parse_filter syn text = Ok (w_filter w)).
  { unfold build in H. destruct (e_unbound e); [discriminate|].
    destruct (match a_filter a with None => (e_default_filter e, Some STANDARD) | Some f => (f, a_syntax a) end) as [text syn0].
    unfold Model_Request.int0max in H.
    destruct ((0 <=? a_limit a) && (a_limit a <=? 2147483647))%Z eqn:E1; [|discriminate]. cbn [bind] in H.
    destruct ((0 <=? or_default (a_timeout a) (e_timeout e)) && (or_default (a_timeout a) (e_timeout e) <=? 2147483647))%Z eqn:E2; [|discriminate]. cbn [bind] in H.
    destruct (parse_filter (or_default syn0 (e_syntax e)) text) as [f|] eqn:E3; [|discriminate]. cbn [bind] in H.
    destruct (check_attrs _ _) as [ats|]; [|discriminate]. cbn [bind] in H.
    match type of H with context [bind ?r _] => destruct r as [[cs' rest]|]; [|discriminate] end. cbn [bind] in H.
    destruct (check_obj_kwds rest); [|discriminate]. cbn [bind] in H. injection H as <- _. cbn [w_size w_time w_filter].
    unfold Spec_Wire.int0max, maxInt. split; [lia|]. split; [lia|]. eauto. }
  destruct K as (K1 & K2 & syn & text & K3). destruct (C79_filter_wellformed _ _ _ K3) as [S1 S2].
  assert (V : valid_message (mk_rm mid (search_of w) (controls_of cs))).
  { split; [exact Hm|]. cbn [rm_op search_of op_valid]. split; [destruct (w_scope w); split; discriminate|].
    split; [unfold Spec_Wire.int0max, maxInt; lia|]. auto. }
  split; [apply search_exact; repeat split; try apply Hm; try apply K1; try apply K2; assumption|].
  split; [exact V|]. split; [exact S2|]. intro L. destruct (some_message _ V L) as (b & Hb & _). exists b. exact Hb.
Qed.

(** ** C80: encodings *)
(** Octets encode at most one message, and no encoding is an initial part of another one or of one followed by more. *)
Theorem C80_unambiguous m m' b b' r r' : e_message m b -> e_message m' b' -> b ++ r = b' ++ r' -> m = m' /\ b = b' /\ r = r'.
Proof. apply message_uniq. Qed.
(** So a stream of messages can be taken apart in one way only. *)
Theorem C80_stream ms ms' bs bs' : Forall2 e_message ms bs -> Forall2 e_message ms' bs' -> List.concat bs = List.concat bs' -> ms = ms' /\ bs = bs'.
Proof.
  intros A. revert ms' bs'. induction A as [|m b ms bs Hm A IH]; intros ms' bs' B E.
  - destruct B as [|m' b' ms' bs' Hm' B]; [auto|]. exfalso. cbn [List.concat] in E. apply message_nonempty in Hm'. destruct b'; [congruence | discriminate E].
  - destruct B as [|m' b' ms' bs' Hm' B]; [exfalso; cbn [List.concat] in E; apply message_nonempty in Hm; destruct b; [congruence | discriminate E]|].
    cbn [List.concat] in E. destruct (message_uniq _ _ _ _ _ _ Hm Hm' E) as (-> & -> & E'). destruct (IH _ _ B E') as [-> ->]. auto.
Qed.
(** Every message within the sizes and ranges of the RFC has an encoding, of bounded length. *)
Theorem C80_encoding_exists m : valid_message m -> (len_message m < 256 ^ 126)%N ->
  exists b, e_message m b /\ (N.of_nat (List.length b) <= len_message m)%N.
Proof. intros V L. exact (some_message m V L). Qed.
(** Whatever encoder and decoder one uses: if the encoder writes RFC 4511 messages, and the decoder reads nothing else
    and does not fail on what the encoder wrote, they frame messages as C20 asks of the codec. *)
Theorem C80_framing {M} (msg : M -> rmessage) (enc : M -> list N) (dec : list N -> option (M * list N)) :
  (forall x y, msg x = msg y -> x = y) ->
  (forall x, e_message (msg x) (enc x)) ->
  (forall x r, dec (enc x ++ r) <> None) ->
  (forall s x r, dec s = Some (x, r) -> exists b, e_message (msg x) b /\ s = b ++ r) ->
  Spec_Net.codec_ok enc dec.
Proof.
  intros HI HE HC HD. split; [intro x; eapply message_nonempty, HE|]. split.
  - intros x r. destruct (dec (enc x ++ r)) as [[x' r']|] eqn:Ed; [|destruct (HC x r Ed)]. apply HD in Ed. destruct Ed as (b & Hb & E).
    destruct (message_uniq _ _ _ _ _ _ (HE x) Hb E) as (E1 & _ & ->). apply HI in E1. subst. reflexivity.
  - intros x a b E N. destruct (dec a) as [[x' r]|] eqn:Ed; [|reflexivity]. exfalso. apply HD in Ed. destruct Ed as (b' & Hb & ->).
    rewrite <- app_assoc in E. assert (E2 : enc x ++ [] = b' ++ (r ++ b)) by (rewrite app_nil_r; exact E).
    destruct (message_uniq _ _ _ _ _ _ (HE x) Hb E2) as (_ & _ & E3). symmetry in E3. apply app_eq_nil in E3. apply N, E3.
Qed.
(** The library's own tables agree: the objects that encode to given octets are unique, and there is one for
    every message of the RFC. *)
Theorem C80_tables m b : e_message m b ->
  exists v, ber v cLDAPMessage b /\ forall v' b' r r', ber v' cLDAPMessage b' -> b ++ r = b' ++ r' -> v' = v /\ b' = b.
Proof.
  intro H. exists (v_message m). apply message_ber in H. destruct H as [_ H]. split; [exact H|]. intros v' b' r r' H' E.
  destruct (ber_uniq _ _ _ _ _ _ _ H H' E) as [A B]. auto.
Qed.

(** ** Concrete cases *)
Local Open Scope N_scope.
Ltac tl x l := exists x, l; split; [|split; [left; split; reflexivity | reflexivity]].
Ltac ct x y := exists x, y; split; [|split; [|reflexivity]].
Lemma one_int z n : n < 128 -> z = Z.of_N n -> e_int z [2; 1; n].
Proof.
  intros L ->. tl [n] [1]. split; [discriminate|]. split; [constructor; [unfold octet; lia | constructor]|]. split; [exact I|].
  unfold twos, big_endian. cbn [fold_left]. rewrite (proj2 (N.ltb_lt n 128) L). lia.
Qed.
(** an anonymous simple bind with message ID 1 *)
Example C79_anonymous_bind :
  sends (message 1 "bindRequest" (simple_bind_request (Text []) (Text [])) []) (mk_rm 1 (RBindRequest 3 [] (RSimple [])) None) /\
  e_message (mk_rm 1 (RBindRequest 3 [] (RSimple [])) None) [0x30; 0x0C; 2; 1; 1; 0x60; 7; 2; 1; 3; 4; 0; 0x80; 0].
Proof.
  split; [apply C79_unauthenticated_bind_sent; [split; discriminate | constructor]|].
  split; [split; discriminate|]. tl [2; 1; 1; 0x60; 7; 2; 1; 3; 4; 0; 0x80; 0] [12].
  ct [2; 1; 1] [0x60; 7; 2; 1; 3; 4; 0; 0x80; 0]; [apply one_int; reflexivity|].
  ct [0x60; 7; 2; 1; 3; 4; 0; 0x80; 0] (@nil N); [|ct (@nil N) (@nil N); reflexivity].
  split; [split; discriminate|]. tl [2; 1; 3; 4; 0; 0x80; 0] [7].
  ct [2; 1; 3] [4; 0; 0x80; 0]; [apply one_int; reflexivity|].
  ct [4; 0] [0x80; 0]; [tl (@nil N) [0]; reflexivity|].
  ct [0x80; 0] (@nil N); [|reflexivity]. tl (@nil N) [0]. reflexivity.
Qed.
(** a codec for one message: unbind with message ID 1 *)
Definition unbind1 : list N := [0x30; 5; 2; 1; 1; 0x42; 0].
Fixpoint starts_withb (p s : list N) : bool := match p, s with [], _ => true | x :: p', y :: s' => N.eqb x y && starts_withb p' s' | _, _ => false end.
Definition dec1 (s : list N) : option (unit * list N) := if starts_withb unbind1 s then Some (tt, skipn 7 s) else None.
Example C80_nonvacuous : Spec_Net.codec_ok (fun _ : unit => unbind1) dec1.
Proof.
  assert (E : e_message (mk_rm 1 RUnbindRequest None) unbind1).
  { split; [split; discriminate|]. tl [2; 1; 1; 0x42; 0] [5]. ct [2; 1; 1] [0x42; 0]; [apply one_int; reflexivity|].
    ct [0x42; 0] (@nil N); [|ct (@nil N) (@nil N); reflexivity]. tl (@nil N) [0]. reflexivity. }
  apply (C80_framing (fun _ => mk_rm 1 RUnbindRequest None)).
  - intros [] []; reflexivity.
  - intro x. exact E.
  - intros x r. discriminate.
  - intros s x r H. unfold dec1 in H. destruct (starts_withb unbind1 s) eqn:P; [|discriminate]. injection H as _ <-. exists unbind1. split; [exact E|].
    assert (G : forall p s, starts_withb p s = true -> s = p ++ skipn (List.length p) s).
    { induction p as [|y p IH]; intros [|z t] H; cbn [starts_withb] in H; try discriminate; try reflexivity.
      apply Bool.andb_true_iff in H as [H1 H2]. apply N.eqb_eq in H1. subst z. cbn [List.length skipn List.app]. f_equal. apply IH, H2. }
    exact (G _ _ P).
Qed.
(** the message that add sends for an attribute without values *)
Example C79_add_empty_sent :
  exists lm, message 1 "addRequest" (add_request (Text []) [(Text (lit "a"), [])]) [] = Ok lm /\
    ber (o_val lm) (o_class lm) [0x30; 0x10; 2; 1; 1; 0x68; 0x0B; 4; 0; 0x30; 7; 0x30; 5; 4; 1; 97; 0x31; 0].
Proof.
  eexists. split; [vm_compute; reflexivity|]. cbn [o_val o_class].
  tl [2; 1; 1; 0x68; 0x0B; 4; 0; 0x30; 7; 0x30; 5; 4; 1; 97; 0x31; 0] [0x10].
  ct [2; 1; 1] [0x68; 0x0B; 4; 0; 0x30; 7; 0x30; 5; 4; 1; 97; 0x31; 0].
  { tl [1] [1]. split; [split; discriminate|]. split; [discriminate|]. split; [constructor; [reflexivity | constructor]|]. split; [exact I | reflexivity]. }
  ct [0x68; 0x0B; 4; 0; 0x30; 7; 0x30; 5; 4; 1; 97; 0x31; 0] (@nil N); [|reflexivity].
  tl [4; 0; 0x30; 7; 0x30; 5; 4; 1; 97; 0x31; 0] [0x0B].
  ct [4; 0] [0x30; 7; 0x30; 5; 4; 1; 97; 0x31; 0]; [tl (@nil N) [0]; reflexivity|].
  ct [0x30; 7; 0x30; 5; 4; 1; 97; 0x31; 0] (@nil N); [|reflexivity].
  tl [0x30; 5; 4; 1; 97; 0x31; 0] [7]. split; [discriminate|].
  ct [0x30; 5; 4; 1; 97; 0x31; 0] (@nil N); [|reflexivity].
  tl [4; 1; 97; 0x31; 0] [5].
  ct [4; 1; 97] [0x31; 0]; [tl [97] [1]; reflexivity|].
  ct [0x31; 0] (@nil N); [|reflexivity]. tl (@nil N) [0]. split; [discriminate | reflexivity].
Qed.
Local Close Scope N_scope.
(** a search below o=x for (&(cn=a*b)(!(sn=c))) with a critical control: the conditions hold, and there is an encoding *)
Definition ex_w : wire_search :=
  mk_ws (lit "o=x") SubScope 3 0 10 false (FAnd [FSubs (lit "cn") [(Initial, lit "a"); (Final, lit "b")]; FNot (FEq (lit "sn") (lit "c"))]) (map lit ["cn"; "sn"]%string) [].
Definition ex_cs : list ctrl_args := [mk_ca (Text (lit "1.2.3")) true (Bytes [0; 255]%N)].
Example C79_nonvacuous : exists b lm, message 5 "searchRequest" (search_request ex_w) ex_cs = Ok lm /\ ber (o_val lm) (o_class lm) b /\
  e_message (mk_rm 5 (search_of ex_w) (Some [mk_rc (lit "1.2.3") true (Some [0; 255]%N)])) b.
Proof.
  assert (V : valid_message (mk_rm 5 (search_of ex_w) (controls_of ex_cs))).
  { split; [split; discriminate|]. cbn. unfold Spec_Wire.int0max, maxInt. repeat split; try lia; discriminate. }
  destruct (C80_encoding_exists _ V) as (b & Hb & _); [reflexivity|].
  destruct (proj1 (C79_search 5 ex_w ex_cs)) as (lm & E & S).
  - split; [split; discriminate|]. split; [|repeat constructor; lia]. unfold search_ok, texts_ok, Spec_Wire.int0max, maxInt. cbn.
    repeat split; try lia; repeat constructor; lia.
  - exists b, lm. split; [exact E|]. split; [apply S, Hb | exact Hb].
Qed.

Print Assumptions C79_simple_bind.
Print Assumptions C79_sasl_bind.
Print Assumptions C79_unbind.
Print Assumptions C79_abandon.
Print Assumptions C79_delete.
Print Assumptions C79_mod_dn.
Print Assumptions C79_extended.
Print Assumptions C79_modify.
Print Assumptions C79_search.
Print Assumptions C79_compare_partial.
Print Assumptions C79_add_partial.
Print Assumptions C79_refuted_compare_bytes.
Print Assumptions C79_refuted_add_empty.
Print Assumptions C79_unauthenticated_bind_sent.
Print Assumptions C79_filter_wellformed.
Print Assumptions C79_search_sent.
Print Assumptions C80_unambiguous.
Print Assumptions C80_stream.
Print Assumptions C80_encoding_exists.
Print Assumptions C80_framing.
Print Assumptions C80_tables.
