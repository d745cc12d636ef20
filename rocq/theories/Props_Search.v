(** * C44, C45, C47, C56, C57: search results, lookups, tags, LDAP URIs, extended responses *)
From Verif Require Import PyBase Model_CIDict Model_Modify Model_Uri Model_Conn Model_Filter Model_Search Spec_Search Proofs_Search Proofs_Search2.
Local Open Scope N_scope.

Definition ex_lower (s : str) : str := map (fun c => if ((65 <=? c) && (c <=? 90))%bool then c + 32 else c) s.
Definition ex_handle (_ : unit) : res unit := Ok tt.
Definition ex_parse (u : str) : str * str * str * str := (lit "ldap", lit "h", lit "/dc=x", lit "?sub").
Definition ex_contact (_ : ldapuri) : res unit := Ok tt.

(** ** C45 *)

(** However many results the server sends: iterating yields exactly one item per entry or
    reference message, in the server's order, each showing the entry's DN and values; at the final
    message iteration stops - normally for success, noSuchObject and an unfollowed referral, with
    LDAPError for every other result code - and nothing after it is read. Restricted to untagged
    searches that do not fetch references or follow referrals (see the refutations). *)
Theorem C45_all_results_in_order_partial C (handle : C -> res unit) lower urlparse contact h tags body code referral c rest :
  h_abandoned h = false -> h_tag h = None -> h_fetch_refs h = false -> h_follow h = false ->
  Forall (result_message handle lower urlparse) body -> handle c = Ok tt ->
  exists items, Forall2 (item_for lower urlparse) body items /\
    iterate handle lower urlparse contact h tags (body ++ RDone code referral c :: rest) =
    (items, end_of code, rest, set_done h, tags).
Proof.
  intros Ha Ht Hf Hr F Hc.
  destruct (iter_body handle lower urlparse contact h tags body (RDone code referral c :: rest) Ht Hf F) as (items & Fi & E).
  exists items. split; [exact Fi|]. unfold iterate. rewrite Ha, E, iter_done by auto. now rewrite app_nil_r.
Qed.

(** Results are delivered as their messages arrive: what has been yielded for the first messages
    is a prefix of what is yielded for all, and iteration resumes where it was. *)
Theorem C45_results_as_they_arrive C (handle : C -> res unit) lower urlparse contact h tags m1 m2 i1 r1 h1 t1 :
  h_abandoned h1 = false ->
  iterate handle lower urlparse contact h tags m1 = (i1, Waiting, r1, h1, t1) ->
  iterate handle lower urlparse contact h tags (m1 ++ m2) =
  let '(i2, e, r, h', t') := iterate handle lower urlparse contact h1 t1 m2 in (i1 ++ i2, e, r, h', t').
Proof.
  unfold iterate. intros Ha E. destruct (h_abandoned h); [discriminate|]. rewrite Ha.
  now apply (iter_stream handle lower urlparse contact m1 m2) in E.
Qed.

(** An abandoned search yields nothing more, and is not abandoned twice. *)
Theorem C45_abandoned_yields_nothing C (handle : C -> res unit) lower urlparse contact h tags msgs sent :
  let '(_, h', sent') := abandon h sent in
  iterate handle lower urlparse contact h' tags msgs = ([], Finished, msgs, h', tags) /\
  abandon h' sent' = (Ok tt, h', sent') /\ (sent' <= S sent)%nat.
Proof.
  unfold abandon. destruct (h_abandoned h) eqn:E; unfold iterate; cbn [h_abandoned set_abandoned].
  - rewrite E. repeat split. lia.
  - repeat split. lia.
Qed.

Example C45_nonvacuous :
  exists o,
  iterate ex_handle ex_lower ex_parse ex_contact (mk_handle false false false false None) []
    [REntry (lit "dc=x") [(lit "cn", [lit "a"; lit "b"]); (lit "SN", [])] tt; RRef [lit "ldap://h/dc=x??sub"] tt; RDone 0 [] tt; ROther]
  = ([IObj o; IRef [mk_uri (lit "ldap://h") (lit "dc=x") [lit "*"] SubScope (lit "(objectClass=*)") (Some false)]],
     Finished, [ROther], mk_handle false true false false None, [])
  /\ cid_get ex_lower (o_attrs o) (lit "CN") = Ok [lit "a"; lit "b"]
  /\ Forall (result_message ex_handle ex_lower ex_parse)
       [REntry (lit "dc=x") [(lit "cn", [lit "a"; lit "b"]); (lit "SN", [])] tt; RRef [lit "ldap://h/dc=x??sub"] tt].
Proof.
  eexists. split; [vm_compute; reflexivity|]. split; [reflexivity|].
  apply Forall_cons; [|apply Forall_cons; [|constructor]].
  - split; [|reflexivity]. unfold names_distinct. vm_compute. constructor; [intros [H|[]]; discriminate|]. constructor; [intros []|constructor].
  - split; [|reflexivity]. eexists. vm_compute. reflexivity.
Qed.

(** No reference is ever fetched and no referral ever followed: the search at the other server is
    made through a connection that is unbound before its results are read. *)
Theorem C45_refuted_references_never_fetched C (handle : C -> res unit) lower urlparse contact h tags uris c rest :
  (h_abandoned h = false -> h_fetch_refs h = true ->
     exists e, iterate handle lower urlparse contact h tags (RRef uris c :: rest) = ([], Failed e, rest, h, tags)) /\
  (h_abandoned h = false -> h_follow h = true ->
     exists e, iterate handle lower urlparse contact h tags (RDone 10 uris c :: rest) = ([], Failed e, rest, set_done h, tags)).
Proof.
  split; intros Ha Hf; unfold iterate; rewrite Ha; cbn [iter_loop].
  - destruct (parse_uris lower urlparse uris) as [us|]; [|eexists; reflexivity]. rewrite Hf.
    destruct (fetch_never contact us) as [e [-> | ->]]; eexists; reflexivity.
  - unfold rc_success, rc_noSuchObject, rc_referral. cbn [N.eqb Pos.eqb orb]. rewrite Hf.
    destruct (parse_uris lower urlparse uris) as [us|]; cbn [bind]; [|eexists; reflexivity].
    destruct (fetch_never contact us) as [e [-> | ->]]; eexists; reflexivity.
Qed.
(** How it fails: the URIs are tried in order, as [FetchFails] says, and the failure ends the iteration. *)
Theorem C45_references_fail_in_order C (handle : C -> res unit) lower urlparse contact h tags uris us e c rest :
  h_abandoned h = false -> parse_uris lower urlparse uris = Ok us -> FetchFails contact us e ->
  (h_fetch_refs h = true ->
     iterate handle lower urlparse contact h tags (RRef uris c :: rest) = ([], Failed e, rest, h, tags)) /\
  (h_follow h = true ->
     iterate handle lower urlparse contact h tags (RDone 10 uris c :: rest) = ([], Failed e, rest, set_done h, tags)).
Proof.
  intros Ha Hp F. apply fetch_fails in F. split; intros Hf; unfold iterate; rewrite Ha; cbn [iter_loop].
  - rewrite Hp, Hf. destruct F as [-> | ->]; reflexivity.
  - unfold rc_success, rc_noSuchObject, rc_referral. cbn [N.eqb Pos.eqb orb]. rewrite Hf, Hp. cbn [bind].
    destruct F as [-> | ->]; reflexivity.
Qed.
Example C45_references_nonvacuous :
  exists us, parse_uris ex_lower ex_parse [lit "ldap://h/dc=x??sub"; lit "ldap://g/dc=x??sub"] = Ok us /\
  FetchFails (fun _ => Raise LDAPConnectionError) us LDAPError /\ FetchFails ex_contact us (OtherExn 9).
Proof.
  eexists. split; [vm_compute; reflexivity|]. split.
  - repeat (eapply FF_next; [reflexivity|reflexivity|]). constructor.
  - eapply FF_closed; reflexivity.
Qed.
(** With a tag the second entry raises TagError. *)
Theorem C45_refuted_tagged_search : exists h e1 e2,
  iterate ex_handle ex_lower ex_parse ex_contact h [] [e1; e2; RDone 0 [] tt]
    = ([IObj (mk_lobj (lit "dc=x") cid_empty)], Failed TagError, [RDone 0 [] tt], h, [(lit "t", mk_lobj (lit "dc=x") cid_empty)]) /\
  h_tag h = Some (lit "t").
Proof.
  exists (mk_handle false false false false (Some (lit "t"))), (REntry (lit "dc=x") [] tt), (REntry (lit "dc=y") [] tt).
  split; reflexivity.
Qed.
(** Iterating a finished search again waits for ever. *)
Theorem C45_refuted_finished_again : exists h,
  h_done h = true /\ iterate ex_handle ex_lower ex_parse ex_contact h [] [] = ([], Waiting, [], h, []).
Proof. exists (mk_handle false true false false None). split; reflexivity. Qed.
(** abandon() raises AttributeError (after sending the request), and so does leaving the with block
    of an unfinished search, whatever exception leaves it - Abandon included. *)
Theorem C45_refuted_abandon h sent exc :
  h_abandoned h = false ->
  abandon h sent = (Raise AttributeError, set_abandoned h, S sent) /\
  (h_done h = false -> handle_exit h sent exc = (Raise AttributeError, set_abandoned h, S sent)).
Proof.
  intros H. unfold handle_exit, abandon. rewrite H. split; [reflexivity|]. now intros ->.
Qed.
(** Leaving the block of a finished search sends nothing and only swallows Abandon. *)
Theorem C45_finished_block h sent exc :
  h_done h = true ->
  handle_exit h sent exc =
  (match exc with None => Ok tt | Some Abandon => Ok tt | Some e => Raise e end, h, sent).
Proof. unfold handle_exit. intros ->. destruct exc as [[]|]; reflexivity. Qed.

(** ** C47 *)

(** get: exactly one result, or the right error, for every server that answers as RFC 4511 says and
    for every number of matches up to two - a base-scope search never has more. *)
Theorem C47_get C (handle : C -> res unit) noctl lower urlparse contact found tags dn ats :
  handle noctl = Ok tt ->
  let q := mk_request dn BaseScope (lit "(objectClass=*)") ats 2 in
  (forall l, found q = Some l -> Forall (fun e => names_distinct lower (snd e)) l) ->
  let get := ldap_get handle lower urlparse contact (answers noctl found) false false tags false dn ats None in
  match found q with
  | None | Some [] => get = Some (Raise NoSearchResults)
  | Some [e] => exists o, get = Some (Ok (IObj o)) /\ shows lower (fst e) (snd e) o
  | Some [_; _] => get = Some (Raise MultipleSearchResults)
  | Some _ => get = Some (Raise LDAPError)
  end.
Proof.
  intros Hc q Hd get. unfold get, ldap_get. fold default_filter in q. change (lit "(objectClass=*)") with default_filter in q. fold q.
  pose proof (answered handle lower urlparse contact noctl found false false tags q Hc eq_refl eq_refl Hd) as H.
  destruct (found q) as [l|]; [|now rewrite H].
  destruct H as (items & F & H). rewrite H. clear H.
  destruct l as [|e1 [|e2 [|e3 l]]]; inversion F as [|? i1 ? ? H1 F1]; subst; [reflexivity| | |].
  - inversion F1; subst. destruct H1 as (o & -> & Hs). exists o. split; [reflexivity|exact Hs].
  - inversion F1 as [|? i2 ? ? H2 F2]; subst. inversion F2; subst. reflexivity.
  - cbn [q_limit q List.length].
    assert (E : ((0 <? 2) && (2 <? N.of_nat (S (S (S (List.length l))))))%bool = true).
    { apply andb_true_intro. split; apply N.ltb_lt; lia. }
    rewrite E. reflexivity.
Qed.
(** exists: true iff the server finds something (no error for several). *)
Theorem C47_exists C (handle : C -> res unit) noctl lower urlparse contact found tags dn :
  handle noctl = Ok tt ->
  let q := mk_request dn BaseScope (lit "(objectClass=*)") (Some [lit "1.1"]) 2 in
  (forall l, found q = Some l -> Forall (fun e => names_distinct lower (snd e)) l /\ (List.length l <= 2)%nat) ->
  ldap_exists handle lower urlparse contact (answers noctl found) false false tags false dn =
  Some (Ok (match found q with Some (_ :: _) => true | _ => false end)).
Proof.
  intros Hc q Hd. unfold ldap_exists.
  pose proof (C47_get C handle noctl lower urlparse contact found tags dn (Some [lit "1.1"]) Hc (fun l Hl => proj1 (Hd l Hl))) as H.
  cbn zeta in H. fold q in H. destruct (found q) as [[|e1 [|e2 [|e3 l]]]|] eqn:E; try now rewrite H.
  - destruct H as (o & -> & _). reflexivity.
  - destruct (Hd _ eq_refl) as [_ L]. cbn [List.length] in L. lia.
Qed.
(** find below an object with one-level scope looks the child up by its DN; with subtree scope it
    searches for the RDN; one match gives that object, none and two give the documented errors. *)
Theorem C47_find_partial C (handle : C -> res unit) noctl lower urlparse contact found parse_ok tags dn rdn_attr rdn ats r :
  handle noctl = Ok tt ->
  ((In (ch "=") rdn /\ r = rdn) \/ (~ In (ch "=") rdn /\ exists a, rdn_attr = Some a /\ r = a ++ lit "=" ++ rdn)) ->
  let f := lit "(" ++ r ++ lit ")" in
  parse_ok f = Ok tt ->
  let find_ sc := find handle lower urlparse contact (answers noctl found) false false parse_ok tags false dn sc rdn_attr rdn ats None in
  find_ BaseScope = Some (Raise LDAPError) /\
  find_ OneScope = ldap_get handle lower urlparse contact (answers noctl found) false false tags false (r ++ lit "," ++ dn) ats None /\
  (let q := mk_request dn SubScope f ats 2 in
   (forall l, found q = Some l -> Forall (fun e => names_distinct lower (snd e)) l) ->
   match found q with
   | None | Some [] => find_ SubScope = Some (Raise NoSearchResults)
   | Some [e] => exists o, find_ SubScope = Some (Ok (IObj o)) /\ shows lower (fst e) (snd e) o
   | Some [_; _] => find_ SubScope = Some (Raise MultipleSearchResults)
   | Some _ => True
   end).
Proof.
  intros Hc Hr f Hp find_.
  assert (Er : rdn_attr_ rdn_attr rdn = Ok r).
  { unfold rdn_attr_. destruct (existsb (N.eqb (ch "=")) rdn) eqn:X.
    - destruct Hr as [[_ ->]|[Hn _]]; [reflexivity|]. exfalso. apply Hn. apply existsb_exists in X.
      destruct X as (c & Hin & Hcc). apply N.eqb_eq in Hcc. now subst.
    - destruct Hr as [[Hin _]|[_ (a & -> & ->)]]; [|reflexivity]. exfalso.
      assert (Y : existsb (N.eqb (ch "=")) rdn = true) by (apply existsb_exists; exists (ch "="); split; [exact Hin|apply N.eqb_refl]).
      congruence. }
  split; [reflexivity|]. split.
  { unfold find_, find, get_child, obj_rdn. rewrite Er. reflexivity. }
  intros q Hd. unfold find_, find. rewrite Er. fold f. rewrite Hp. fold q.
  pose proof (answered handle lower urlparse contact noctl found false false tags q Hc eq_refl eq_refl Hd) as H.
  destruct (found q) as [l|]; [|now rewrite H].
  destruct H as (items & F & H). rewrite H. clear H.
  destruct l as [|e1 [|e2 [|e3 l]]]; inversion F as [|? i1 ? ? H1 F1]; subst; [reflexivity| | |exact I].
  - inversion F1; subst. destruct H1 as (o & -> & Hs). exists o. split; [reflexivity|exact Hs].
  - inversion F1 as [|? i2 ? ? H2 F2]; subst. inversion F2; subst. reflexivity.
Qed.
(** Nothing is asked of the server on an unbound connection, nor for a child named by a value alone
    below an object without an RDN attribute. *)
Theorem C47_refused C (handle : C -> res unit) lower urlparse contact server fetch_refs follow parse_ok tags dn rdn_attr rdn ats tag :
  let get u := ldap_get handle lower urlparse contact server fetch_refs follow tags u in
  let child u := get_child handle lower urlparse contact server fetch_refs follow tags u dn in
  let find_ u := find handle lower urlparse contact server fetch_refs follow parse_ok tags u dn in
  get true dn ats tag = Some (Raise ConnectionUnbound) /\
  ldap_exists handle lower urlparse contact server fetch_refs follow tags true dn = Some (Raise ConnectionUnbound) /\
  (In (ch "=") rdn \/ rdn_attr <> None ->
     child true rdn_attr rdn ats tag = Some (Raise ConnectionUnbound) /\
     find_ true OneScope rdn_attr rdn ats tag = Some (Raise ConnectionUnbound) /\
     find_ true SubScope rdn_attr rdn ats tag = Some (Raise ConnectionUnbound)) /\
  (~ In (ch "=") rdn -> forall u,
     child u None rdn ats tag = Some (Raise ValueError) /\
     find_ u OneScope None rdn ats tag = Some (Raise ValueError) /\
     find_ u SubScope None rdn ats tag = Some (Raise ValueError)).
Proof.
  intros get child find_.
  assert (E : forall r, existsb (N.eqb (ch "=")) r = true <-> In (ch "=") r).
  { intros r. rewrite existsb_exists. split; [intros (c & H & Hc); apply N.eqb_eq in Hc; now subst|].
    intros H. exists (ch "="). split; [exact H|apply N.eqb_refl]. }
  split; [reflexivity|]. split; [reflexivity|]. split.
  - intros H. unfold child, find_, get_child, find, get_child, obj_rdn, rdn_attr_.
    destruct (existsb (N.eqb (ch "=")) rdn) eqn:X; cbn [bind]; [repeat split; reflexivity|].
    destruct rdn_attr as [a|]; cbn [bind]; [repeat split; reflexivity|].
    exfalso. destruct H as [H|H]; [apply E in H; congruence|now apply H].
  - intros H u. unfold child, find_, get_child, find, get_child, obj_rdn, rdn_attr_.
    destruct (existsb (N.eqb (ch "=")) rdn) eqn:X; [exfalso; now apply H, E|]. cbn [bind]. repeat split.
Qed.
(** get with a DN made of the child RDN. *)
Theorem C47_get_child C (handle : C -> res unit) lower urlparse contact server fetch_refs follow tags dn rdn_attr rdn ats tag r :
  ((In (ch "=") rdn /\ r = rdn) \/ (~ In (ch "=") rdn /\ exists a, rdn_attr = Some a /\ r = a ++ lit "=" ++ rdn)) ->
  get_child handle lower urlparse contact server fetch_refs follow tags false dn rdn_attr rdn ats tag =
  ldap_get handle lower urlparse contact server fetch_refs follow tags false (r ++ lit "," ++ dn) ats tag.
Proof.
  intros Hr. unfold get_child, obj_rdn, rdn_attr_. destruct (existsb (N.eqb (ch "=")) rdn) eqn:X.
  - destruct Hr as [[_ ->]|[Hn _]]; [reflexivity|]. exfalso. apply Hn. apply existsb_exists in X.
    destruct X as (c & Hin & Hcc). apply N.eqb_eq in Hcc. now subst.
  - destruct Hr as [[Hin _]|[_ (a & -> & ->)]]; [|reflexivity]. exfalso.
    assert (Y : existsb (N.eqb (ch "=")) rdn = true) by (apply existsb_exists; exists (ch "="); split; [exact Hin|apply N.eqb_refl]).
    congruence.
Qed.
Definition ex_found (q : request) : option (list (str * list (str * list str))) :=
  if str_eqb (q_base q) (lit "dc=x") then
    match q_scope q with
    | BaseScope => Some [(lit "dc=x", [(lit "dc", [lit "x"])])]
    | _ => if str_eqb (q_filter q) (lit "(cn=three)") then Some [(lit "cn=three,ou=a,dc=x", []); (lit "cn=three,ou=b,dc=x", []); (lit "cn=three,ou=c,dc=x", [])]
           else if str_eqb (q_filter q) (lit "(cn=*)") then Some [(lit "cn=a,dc=x", [])]
           else Some []
    end
  else None.
Definition ex_find rdn := find ex_handle ex_lower ex_parse ex_contact (answers tt ex_found) false false
  (fun f => let* _ := parse_standard_filter f in Ok tt) [] false (lit "dc=x") SubScope (Some (lit "cn")) rdn None None.
Example C47_nonvacuous :
  (exists o, ldap_get ex_handle ex_lower ex_parse ex_contact (answers tt ex_found) false false [] false (lit "dc=x") None None = Some (Ok (IObj o))) /\
  ldap_get ex_handle ex_lower ex_parse ex_contact (answers tt ex_found) false false [] false (lit "dc=y") None None = Some (Raise NoSearchResults) /\
  ldap_exists ex_handle ex_lower ex_parse ex_contact (answers tt ex_found) false false [] false (lit "dc=x") = Some (Ok true) /\
  ldap_exists ex_handle ex_lower ex_parse ex_contact (answers tt ex_found) false false [] false (lit "dc=y") = Some (Ok false) /\
  ex_find (lit "nobody") = Some (Raise NoSearchResults).
Proof. split; [eexists; vm_compute; reflexivity|]. repeat split; vm_compute; reflexivity. Qed.
(** Three matches below a subtree: the request asks for at most two, the server reports that there
    are more, and find raises LDAPError instead of MultipleSearchResults. *)
Theorem C47_refuted_three_matches : exists l,
  ex_found (mk_request (lit "dc=x") SubScope (lit "(cn=three)") None 2) = Some l /\ List.length l = 3%nat /\
  ex_find (lit "three") = Some (Raise LDAPError).
Proof. eexists. split; [vm_compute; reflexivity|]. split; [reflexivity|vm_compute; reflexivity]. Qed.
(** The RDN becomes a filter without escaping: an RDN value * finds any object that has the
    attribute, and an RDN with an escaped comma is not a filter at all. *)
Theorem C47_refuted_rdn_not_escaped :
  (exists o, ex_find (lit "*") = Some (Ok (IObj o)) /\ o_dn o = lit "cn=a,dc=x") /\
  (exists e, ex_find (lit "cn=Smith\, John") = Some (Raise e) /\ e <> NoSearchResults).
Proof.
  split.
  - eexists. split; vm_compute; reflexivity.
  - eexists. split; [vm_compute; reflexivity|discriminate].
Qed.
(** get can return a search reference in place of an object. *)
Theorem C47_refuted_reference_as_object : exists server us,
  ldap_get ex_handle ex_lower ex_parse ex_contact server false false [] false (lit "dc=x") None None = Some (Ok (IRef us)).
Proof. exists (fun _ => [RRef [lit "ldap://h/dc=x??sub"] tt; RDone 0 [] tt]). eexists. vm_compute. reflexivity. Qed.

(** ** C44 *)

(** After any history of calls in which no add fails: a tag stands for the object made by the first
    call with it, and an unused tag is an error. *)
Theorem C44_tag_is_first_object_partial lower os t :
  Forall add_completes os ->
  ldap_tag (fst (tag_run lower [] os)) t =
  match first_with lower t os with Some o => Ok o | None => Raise TagError end.
Proof.
  intros F. unfold ldap_tag. rewrite (tag_run_spec lower os [] F t). cbn [dget]. now destruct (first_with lower t os).
Qed.
(** A used tag is refused, and the refused call changes no tag. *)
Theorem C44_used_tag_refused lower tags dn a t o :
  ldap_tag tags t = Ok o ->
  tag_step lower tags (TObj dn a (Some t)) = (tags, Raise TagError).
Proof.
  unfold ldap_tag. cbn [tag_step]. unfold ldap_obj, dmem. destruct (dget tags t); [reflexivity|discriminate].
Qed.
(** A successful call registers its own object and leaves all other tags alone. *)
Theorem C44_success_registers lower tags o t x r :
  created lower o = Some (t, x) -> snd (tag_step lower tags o) = Ok r ->
  r = x /\ ldap_tag (fst (tag_step lower tags o)) t = Ok x /\
  forall t', t' <> t -> ldap_tag (fst (tag_step lower tags o)) t' = ldap_tag tags t'.
Proof.
  assert (G : forall dn a tg, (match tg with Some t' => Some (t', mk_lobj dn (cid_update lower cid_empty a)) | None => None end) = Some (t, x) ->
            snd (ldap_obj lower tags dn a tg) = Ok r ->
            r = x /\ ldap_tag (fst (ldap_obj lower tags dn a tg)) t = Ok x /\
            forall t', t' <> t -> ldap_tag (fst (ldap_obj lower tags dn a tg)) t' = ldap_tag tags t').
  { intros dn a [tg|] E; [|discriminate]. injection E as -> <-. unfold ldap_obj, ldap_tag.
    destruct (dmem tags t); cbn [snd fst]; [discriminate|]. intros E. injection E as <-. split; [reflexivity|].
    rewrite dget_dset_eq. split; [reflexivity|]. intros t' Hn. rewrite dget_dset_neq by congruence. reflexivity. }
  destruct o as [dn a tg|ub dn a tg ct va an|t0]; cbn [created tag_step]; intros E.
  - apply G. now destruct tg.
  - destruct ub; [discriminate|]. destruct ct; [|discriminate].
    pose proof (G dn a tg) as G'. destruct (ldap_obj lower tags dn a tg) as [t1 r1]. cbn [fst snd] in *.
    intros H. destruct r1 as [o|]; [|discriminate]. cbn [bind] in H. destruct va; [|discriminate]. destruct an; [|discriminate].
    cbn [bind] in H. apply G'; [now destruct tg|exact H].
  - discriminate.
Qed.
Example C44_nonvacuous :
  let os := [TObj (lit "dc=a") [] (Some (lit "t")); TAdd false (lit "dc=b") [] (Some (lit "u")) (Ok tt) (Ok tt) (Ok tt); TObj (lit "dc=c") [] None] in
  Forall add_completes os /\
  map (fun t => ldap_tag (fst (tag_run ex_lower [] os)) t) [lit "t"; lit "u"; lit "v"] =
  [Ok (mk_lobj (lit "dc=a") cid_empty); Ok (mk_lobj (lit "dc=b") cid_empty); Raise TagError].
Proof. split; [|vm_compute; reflexivity]. repeat constructor. Qed.
(** An add that the server (or a validator) refuses keeps its tag: the tag stands for an object that
    does not exist, and trying again with the tag fails. *)
Theorem C44_refuted_failed_add : exists os,
  snd (tag_run ex_lower [] os) = [Raise LDAPError; Raise TagError; Ok (mk_lobj (lit "dc=a") cid_empty)] /\
  os = [TAdd false (lit "dc=a") [] (Some (lit "t")) (Ok tt) (Ok tt) (Raise LDAPError);
        TAdd false (lit "dc=a") [] (Some (lit "t")) (Ok tt) (Ok tt) (Ok tt); TTag (lit "t")].
Proof. eexists. split; [|reflexivity]. vm_compute. reflexivity. Qed.

(** ** C56: LDAP URIs *)

(** Every part of the query may be missing; what is there comes out as it was put in. *)
Theorem C56_fields lower urlparse uri sch netloc path ats w sc fil exts :
  urlparse uri = (sch, netloc, path, joined (ch "?") [joined (ch ",") ats; w; fil; joined (ch ",") exts]) ->
  Forall component_ok ats -> Forall component_ok exts -> ~ In (ch "?") fil -> scope_word lower w sc ->
  match parse_ldapuri lower urlparse uri with
  | Ok u =>
      u_host_uri u = sch ++ lit "://" ++ netloc /\ u_dn u = tl path /\
      u_attrs u = (match ats with [] => [lit "*"] | _ => ats end) /\ u_scope u = sc /\
      u_filter u = (match fil with [] => lit "(objectClass=*)" | _ => fil end) /\
      (forall e, In e exts -> critical_ext e -> starttls_ext e) /\
      (exts = [] -> u_starttls u = Some false) /\
      ((exists e, In e exts /\ starttls_ext e) -> u_starttls u = Some true) /\
      (exts <> [] -> (forall e, In e exts -> ~ starttls_ext e) -> u_starttls u = None)
  | Raise e => e = LDAPError /\ exists x, In x exts /\ critical_ext x /\ ~ starttls_ext x
  end.
Proof.
  intros Hu Ha He Hf Hw. unfold parse_ldapuri. rewrite Hu. cbv zeta iota beta.
  assert (Q : forall l, Forall component_ok l -> ~ In (ch "?") (joined (ch ",") l)).
  { intros l F. apply joined_no; [discriminate|]. eapply Forall_impl; [|exact F]. intros s (_ & _ & H). exact H. }
  assert (Wq : ~ In (ch "?") w) by (destruct Hw as [[-> _]|(_ & H & _)]; [intros []|exact H]).
  change (lit "?") with [ch "?"]. rewrite split_joined; [|discriminate|].
  2: { apply Forall_cons; [now apply Q|]. apply Forall_cons; [exact Wq|]. apply Forall_cons; [exact Hf|].
       apply Forall_cons; [now apply Q|constructor]. }
  assert (PC : forall l, Forall component_ok l ->
             match param [joined (ch ",") l] 0 with Some p => py_split (lit ",") p | None => [] end = l /\
             (param [joined (ch ",") l] 0 = None <-> l = [])).
  { intros l F. destruct l as [|x l]; [now split|]. unfold param. cbn [nth_error].
    pose proof (joined_ne (ch ",") (x :: l) ltac:(discriminate)) as N.
    assert (N' : joined (ch ",") (x :: l) <> []).
    { apply N. eapply Forall_impl; [|exact F]. intros s (H & _). exact H. }
    change (lit ",") with [ch ","]. pose proof (split_joined (ch ",") (x :: l) ltac:(discriminate)) as S.
    destruct (joined (ch ",") (x :: l)) as [|c s] eqn:E; [congruence|]. split; [|split; discriminate]. apply S.
    eapply Forall_impl; [|exact F]. intros y (_ & H & _). exact H. }
  set (ps := [joined (ch ",") ats; w; fil; joined (ch ",") exts]).
  assert (Sc : match param ps 1 with Some p => scope_string lower p | None => Ok BaseScope end = Ok sc).
  { unfold param, ps. cbn [nth_error]. destruct Hw as [[-> ->]|(Hne & _ & Hw)]; [reflexivity|]. destruct w as [|c s]; [congruence|]. unfold scope_string.
    destruct Hw as [[-> ->]|[[-> ->]|[-> ->]]]; reflexivity. }
  assert (Fi : match param ps 2 with Some p => p | None => default_filter end = match fil with [] => lit "(objectClass=*)" | _ => fil end)
    by (unfold param, ps; cbn [nth_error]; destruct fil; reflexivity).
  assert (Ats : match param ps 0 with Some p => py_split (lit ",") p | None => [lit "*"] end = match ats with [] => [lit "*"] | _ => ats end).
  { destruct (PC ats Ha) as [P1 P2]. change (param ps 0) with (param [joined (ch ",") ats] 0).
    destruct (param [joined (ch ",") ats] 0) as [p|].
    - destruct ats as [|x ats]; [|exact P1]. destruct P2 as [_ P2]. discriminate P2. reflexivity.
    - rewrite (proj1 P2 eq_refl). reflexivity. }
  rewrite Sc, Fi, Ats. clear Sc Fi Ats. cbn [bind].
  destruct (PC exts He) as [P1 P2]. change (param ps 3) with (param [joined (ch ",") exts] 0).
  destruct (param [joined (ch ",") exts] 0) as [p|].
  2: { rewrite (proj1 P2 eq_refl). cbn [bind u_host_uri u_dn u_attrs u_scope u_filter u_starttls].
    repeat (split; [reflexivity|]). split; [intros e []|]. split; [reflexivity|]. split; [intros (e & [] & _)|]. congruence. }
  pose proof (uri_extensions_spec (py_split (lit ",") p) None) as U. rewrite P1 in U |- *.
  destruct (uri_extensions exts None) as [r|x]; cbn [bind u_host_uri u_dn u_attrs u_scope u_filter u_starttls].
  - destruct U as (U1 & U2 & U3). repeat (split; [reflexivity|]). split; [exact U1|]. split; [|split; [exact U2|auto]].
    intros E. destruct P2 as [_ P2]. discriminate (P2 E).
  - exact U.
Qed.
Example C56_nonvacuous :
  let up (u : str) := (lit "ldap", lit "h:389", lit "/dc=x", lit "cn,sn?ONE?(a=b)?!StartTLS,x-foo") in
  up [] = (lit "ldap", lit "h:389", lit "/dc=x",
           joined (ch "?") [joined (ch ",") [lit "cn"; lit "sn"]; lit "ONE"; lit "(a=b)"; joined (ch ",") [lit "!StartTLS"; lit "x-foo"]]) /\
  scope_word ex_lower (lit "ONE") OneScope /\
  parse_ldapuri ex_lower up [] =
  Ok (mk_uri (lit "ldap://h:389") (lit "dc=x") [lit "cn"; lit "sn"] OneScope (lit "(a=b)") (Some true)).
Proof.
  split; [vm_compute; reflexivity|]. split; [|vm_compute; reflexivity].
  right. split; [discriminate|]. split; [|right; left; split; vm_compute; reflexivity].
  cbn. intros [H|[H|[H|[]]]]; discriminate.
Qed.
(** A URI with an uncritical extension other than StartTLS cannot be searched: AttributeError. *)
Theorem C56_refuted_other_extension : exists urlparse uri u,
  parse_ldapuri ex_lower urlparse uri = Ok u /\ forall contact, uri_search contact u = Raise AttributeError.
Proof.
  exists (fun _ => (lit "ldap", lit "h", lit "/dc=x", lit "???x-foo")), [].
  eexists. split; [vm_compute; reflexivity|]. reflexivity.
Qed.
(** Percent-encoding in the DN and the filter is not undone. *)
Theorem C56_refuted_not_decoded : exists urlparse uri u,
  urlparse uri = (lit "ldap", lit "h", lit "/ou=a%20b", lit "??(cn=a%20b)") /\
  parse_ldapuri ex_lower urlparse uri = Ok u /\ u_dn u = lit "ou=a%20b" /\ u_filter u = lit "(cn=a%20b)".
Proof.
  exists (fun _ => (lit "ldap", lit "h", lit "/ou=a%20b", lit "??(cn=a%20b)")), []. eexists.
  split; [reflexivity|]. split; [vm_compute; reflexivity|]. split; reflexivity.
Qed.

(** ** C57: extended responses *)

(** All intermediate responses and the final one, in order, and not a message more; with
    require_success any result but success raises LDAPError at the final message. *)
Theorem C57_extended_responses req vs code v rest :
  xiterate req false (map XIntermediate vs ++ XFinal code v :: rest) =
  if req && negb (N.eqb code 0) then (vs, Failed LDAPError, rest, true) else (vs ++ [v], Finished, rest, true).
Proof.
  induction vs as [|x vs IH]; cbn [map app xiterate handle_xmsg].
  - unfold rc_success. destruct (req && negb (code =? 0))%bool; reflexivity.
  - cbn [orb]. rewrite IH. destruct (req && negb (code =? 0))%bool; reflexivity.
Qed.
Example C57_nonvacuous :
  xiterate true false [XIntermediate (lit "a"); XFinal 0 (lit "b"); XOther] = ([lit "a"; lit "b"], Finished, [XOther], true) /\
  xiterate true false [XIntermediate (lit "a"); XFinal 2 (lit "b")] = ([lit "a"], Failed LDAPError, [], true).
Proof. split; reflexivity. Qed.
(** Iterating after the final response waits for ever. *)
Theorem C57_refuted_after_final : xiterate false true [] = ([], Waiting, [], true).
Proof. reflexivity. Qed.

Print Assumptions C45_all_results_in_order_partial.
Print Assumptions C45_results_as_they_arrive.
Print Assumptions C45_abandoned_yields_nothing.
Print Assumptions C45_refuted_references_never_fetched.
Print Assumptions C45_refuted_tagged_search.
Print Assumptions C45_refuted_finished_again.
Print Assumptions C45_refuted_abandon.
Print Assumptions C45_finished_block.
Print Assumptions C47_get.
Print Assumptions C47_exists.
Print Assumptions C47_find_partial.
Print Assumptions C47_refuted_three_matches.
Print Assumptions C47_refuted_rdn_not_escaped.
Print Assumptions C47_refuted_reference_as_object.
Print Assumptions C44_tag_is_first_object_partial.
Print Assumptions C44_used_tag_refused.
Print Assumptions C44_success_registers.
Print Assumptions C44_refuted_failed_add.
Print Assumptions C56_fields.
Print Assumptions C56_refuted_other_extension.
Print Assumptions C56_refuted_not_decoded.
Print Assumptions C57_extended_responses.
Print Assumptions C57_refuted_after_final.
Print Assumptions C45_references_fail_in_order.
Print Assumptions C47_refused.
Print Assumptions C47_get_child.
