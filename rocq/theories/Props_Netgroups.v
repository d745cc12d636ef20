(** * C35, C36, C61: the netgroups extension *)
From Verif Require Import PyBase Model_CIDict Model_Modify Spec_Modify Model_Search Spec_Search Model_Dir Spec_Dir Proofs_DirInst Props_Dir
  Model_Netgroups Spec_Netgroups Proofs_Netgroups.

(** ** C35: triples *)
(** Which texts are triples, and what they say *)
Theorem C35_triple_meaning s h u d : triple_match s = Some (h, u, d) <-> denotes s h u d.
Proof. apply triple_match_spec. Qed.
Print Assumptions C35_triple_meaning.

(** C35, partial: exactly the triples whose host and user contain no comma and whose domain contains no
    closing parenthesis survive formatting and parsing; nothing stops a caller from formatting others
    (see the refutation below). *)
Theorem C35_triple_roundtrip_partial h u d :
  triple_match (nis_netgroup_triple (Some h) (Some u) (Some d)) = Some (h, u, d) <-> clean h u d.
Proof.
  rewrite triple_match_spec, nis_triple. cbn [field_str]. split; [intros [H _]; exact H|apply text_denotes].
Qed.
Print Assumptions C35_triple_roundtrip_partial.

(** no two triples share a text *)
Theorem C35_triple_injective s h u d h' u' d' : denotes s h u d -> denotes s h' u' d' -> h = h' /\ u = u' /\ d = d'.
Proof. rewrite <- !triple_match_spec. intros H1 H2. rewrite H1 in H2. injection H2 as -> -> ->. auto. Qed.
Print Assumptions C35_triple_injective.

(** C35 refuted for other names: the user "a,b" of domain "x" is stored so that it reads back as the user
    "a" of the domain "b,x"; a domain with a parenthesis makes the stored value unreadable. *)
Theorem C35_refuted_comma :
  user_list_to_attrs (MOne (MStr (lit "a,b"))) (Some (lit "x")) = Ok [(TRIPLE, [lit "(,a,b,x)"])] /\
  extract_loop group2 [lit "(,a,b,x)"] = Ok [lit "a"] /\
  user_list_to_attrs (MOne (MStr (lit "a"))) (Some (lit "x)y")) = Ok [(TRIPLE, [lit "(,a,x)y)"])] /\
  extract_loop group2 [lit "(,a,x)y)"] = Raise LDAPError.
Proof. vm_compute. repeat split. Qed.
Print Assumptions C35_refuted_comma.

(** The attributes computed from a member list: triples and groups, in order, no attribute without values. *)
Definition says (es : list nentry) (a : list (str * list str)) (ts : list str) : Prop :=
  triples_of es ts /\ NoDup (map fst a) /\
  forall k vs, In (k, vs) a <-> (k = lit "nisNetgroupTriple" /\ vs = ts \/ k = lit "memberNisNetgroup" /\ vs = groups_of es) /\ vs <> [].

Lemma tidy_says es a ts : tidy a -> triples_of es ts -> at_ a TRIPLE = ts -> at_ a MEMBER = groups_of es -> says es a ts.
Proof.
  intros [Hn Hd] Ht H1 H2. split; [exact Ht|]. split; [exact Hn|]. intros k vs. split.
  - intros Hin. destruct (Hd _ _ Hin) as [Hk Hne]. split; [|exact Hne]. apply dget_In_NoDup in Hin; auto.
    unfold at_ in H1, H2. destruct Hk as [-> | ->]; [left|right]; (split; [reflexivity|]).
    + now rewrite Hin in H1.
    + now rewrite Hin in H2.
  - unfold at_ in H1, H2. intros [[[-> ->]|[-> ->]] Hne]; apply dget_In.
    + change (lit "nisNetgroupTriple") with TRIPLE. destruct (dget a TRIPLE); congruence.
    + change (lit "memberNisNetgroup") with MEMBER. destruct (dget a MEMBER); congruence.
Qed.

(** C35, member lists of the user functions: a list of entries with the documented meanings is turned into
    exactly those triples and group names. *)
Theorem C35_user_list ms domain es :
  Forall2 (user_means (said domain)) (listed ms) es -> Forall writable es ->
  exists a ts, user_list_to_attrs ms domain = Ok a /\ says es a ts.
Proof.
  rewrite <- listed_members. intros H Hw. destruct (members_loop_ok (user_member domain) (member_list ms) es []) as (a & ts & Ha & Ht & Hto & H1 & H2); auto.
  - clear Hw. induction H; constructor; auto. now apply user_member_ok.
  - split; [constructor|intros ? ? []].
  - exists a, ts. split; [exact Ha|]. now apply tidy_says.
Qed.
Print Assumptions C35_user_list.
Theorem C35_host_list ms domain es :
  Forall2 (host_means (said domain)) (listed ms) es -> Forall writable es ->
  exists a ts, host_list_to_attrs ms domain = Ok a /\ says es a ts.
Proof.
  rewrite <- listed_members. intros H Hw. destruct (members_loop_ok (host_member domain) (member_list ms) es []) as (a & ts & Ha & Ht & Hto & H1 & H2); auto.
  - clear Hw. induction H; constructor; auto. now apply host_member_ok.
  - split; [constructor|intros ? ? []].
  - exists a, ts. split; [exact Ha|]. now apply tidy_says.
Qed.
Print Assumptions C35_host_list.

(** a list is accepted iff every entry has a documented meaning; nothing is sent otherwise (C61) *)
Theorem C35_user_list_accepted ms domain :
  (exists a, user_list_to_attrs ms domain = Ok a) <-> Forall (fun m => exists e, user_means (said domain) m e) (listed ms).
Proof.
  rewrite <- listed_members. split.
  - intros [a Ha]. eapply members_loop_means; [|exact Ha]. intros m av. apply user_member_means.
  - intros H. eapply members_loop_total; [|exact H]. intros m [e He]. destruct (user_member_ok _ _ _ He) as (av & Hav & _). eauto.
Qed.
Print Assumptions C35_user_list_accepted.
Theorem C35_host_list_accepted ms domain :
  (exists a, host_list_to_attrs ms domain = Ok a) <-> Forall (fun m => exists e, host_means (said domain) m e) (listed ms).
Proof.
  rewrite <- listed_members. split.
  - intros [a Ha]. eapply members_loop_means; [|exact Ha]. intros m av. apply host_member_means.
  - intros H. eapply members_loop_total; [|exact H]. intros m [e He]. destruct (host_member_ok _ _ _ He) as (av & Hav & _). eauto.
Qed.
Print Assumptions C35_host_list_accepted.

(** each entry has one meaning only *)
Theorem C35_meaning_unique dom m e e' :
  (user_means dom m e -> user_means dom m e' -> e = e') /\ (host_means dom m e -> host_means dom m e' -> e = e').
Proof.
  assert (T : forall s h u d h' u' d', denotes s h u d -> denotes s h' u' d' -> Triple h u d = Triple h' u' d').
  { intros s h u d h' u' d' H1 H2. destruct (C35_triple_injective _ _ _ _ _ _ _ H1 H2) as (-> & -> & ->). reflexivity. }
  split; intros H1 H2; inversion H1; subst; inversion H2; subst; try reflexivity; eauto;
    try (exfalso; eapply plus_not_triple; eassumption);
    match goal with
    | H : forall h u d, ~ denotes ?s h u d, D : denotes ?s _ _ _ |- _ => exfalso; exact (H _ _ _ D)
    | H : forall g, lit "+" ++ ?x <> lit "+" ++ g |- _ => exfalso; exact (H x eq_refl)
    | H : forall g, _ <> lit "+" ++ g |- _ => exfalso; eapply H; reflexivity
    | D : denotes (43%N :: ?g) _ _ _ |- _ => exfalso; exact (plus_not_triple g _ _ _ D)
    | _ => idtac
    end.
Qed.
Print Assumptions C35_meaning_unique.

Example C35_nonvacuous :
  let ms := MList [MStr (lit "alice"); MTuple [Some (lit "dir"); Some (lit "admin")]; MStr (lit "+ops"); MStr (lit "(h,m,s.org)"); MTuple [None; Some (lit "z"); Some (lit "q")]] in
  let es := [Triple [] (lit "alice") (lit "x.org"); Triple (lit "dir") (lit "admin") (lit "x.org"); Group (lit "ops"); Triple (lit "h") (lit "m") (lit "s.org"); Triple [] (lit "z") (lit "q")] in
  Forall2 (user_means (lit "x.org")) (listed ms) es /\ Forall writable es /\
  user_list_to_attrs ms (Some (lit "x.org")) = Ok [(TRIPLE, [lit "(,alice,x.org)"; lit "(dir,admin,x.org)"; lit "(h,m,s.org)"; lit "(,z,q)"]); (MEMBER, [lit "ops"])] /\
  host_list_to_attrs (MOne (MStr (lit "h1"))) (Some []) = Ok [(TRIPLE, [lit "(h1,,)"])] /\
  host_list_to_attrs (MList [MTuple [Some (lit "h1")]; MTuple [Some (lit "h1"); None; Some (lit "d")]]) (Some (lit "e")) = Ok [(TRIPLE, [lit "(h1,,e)"; lit "(h1,,d)"])] /\
  user_list_to_attrs (MList [MStr []]) None = Raise IndexError /\ user_list_to_attrs (MList [MTuple [None]]) None = Raise ValueError.
Proof.
  cbv zeta. split; [|split; [|vm_compute; repeat split]].
  - cbn [listed]. constructor; [|constructor; [|constructor; [|constructor; [|constructor; [|constructor]]]]].
    + apply um_name; [discriminate|intros g; discriminate|]. now apply triple_match_None.
    + apply (um_two (lit "x.org") (Some (lit "dir")) (Some (lit "admin"))).
    + apply (um_group (lit "x.org") (lit "ops")).
    + apply um_triple. now apply triple_match_spec.
    + apply (um_three (lit "x.org") None (Some (lit "z")) (Some (lit "q"))).
  - repeat constructor; cbn; intros X; repeat (destruct X as [X|X]; try discriminate); exact X.
Qed.

(** ** C36: lookups *)
Section Lookups.
  Context (lower : str -> str) (find : str -> res attrs).

  (** the members of one group entry, in order; LDAPError if a value is not a triple *)
  Theorem C36_direct o depth l :
    get_obj_users lower find depth o false = Ok l <->
    Forall2 (fun t x => exists h d, denotes t h x d) (values lower o (lit "nisNetgroupTriple")) l.
  Proof.
    unfold get_obj_users. rewrite plain_eq, extract_loop_ok. change (lit "nisNetgroupTriple") with TRIPLE.
    generalize (values lower o TRIPLE). intros vs. split; intros H; induction H as [|t x vs l Ht H IH]; constructor; auto.
    - destruct Ht as (h & u & d & Hd & ->). eauto.
    - destruct Ht as (h & d & Hd). exists h, x, d. auto.
  Qed.
  Theorem C36_direct_hosts o depth l :
    get_obj_hosts lower find depth o false = Ok l <->
    Forall2 (fun t x => exists u d, denotes t x u d) (values lower o (lit "nisNetgroupTriple")) l.
  Proof.
    unfold get_obj_hosts. rewrite plain_eq, extract_loop_ok. change (lit "nisNetgroupTriple") with TRIPLE.
    generalize (values lower o TRIPLE). intros vs. split; intros H; induction H as [|t x vs l Ht H IH]; constructor; auto.
    - destruct Ht as (h & u & d & Hd & ->). eauto.
    - destruct Ht as (u & d & Hd). exists x, u, d. auto.
  Qed.

  Lemma direct_users o x : direct lower group2 o x <-> direct_user lower o x.
  Proof.
    unfold direct, direct_user. split.
    - intros (t & h & u & d & Hin & Hd & ->). exists t, h, d. auto.
    - intros (t & h & d & Hin & Hd). exists t, h, x, d. auto.
  Qed.
  Lemma direct_hosts o x : direct lower group1 o x <-> direct_host lower o x.
  Proof.
    unfold direct, direct_host. split.
    - intros (t & h & u & d & Hin & Hd & ->). exists t, u, d. auto.
    - intros (t & u & d & Hin & Hd). exists t, x, u, d. auto.
  Qed.

  (** C36: a recursive lookup that returns, returns exactly the users of all reachable groups *)
  Theorem C36_users_exact depth g l : get_users lower find depth g true = Ok l ->
    forall x, In x l <-> exists g' o, reach lower find g g' /\ find g' = Ok o /\ direct_user lower o x.
  Proof.
    intros H. destruct (members_of_ok lower find group2 depth g l H) as (_ & _ & Hx). intros x. rewrite Hx.
    split; intros (g' & o & Hr & Hf & Hd); exists g', o; repeat split; auto; now apply direct_users.
  Qed.
  Theorem C36_hosts_exact depth g l : get_hosts lower find depth g true = Ok l ->
    forall x, In x l <-> exists g' o, reach lower find g g' /\ find g' = Ok o /\ direct_host lower o x.
  Proof.
    intros H. destruct (members_of_ok lower find group1 depth g l H) as (_ & _ & Hx). intros x. rewrite Hx.
    split; intros (g' & o & Hr & Hf & Hd); exists g', o; repeat split; auto; now apply direct_hosts.
  Qed.

  (** C36, partial: the lookup terminates on every graph without a reachable cycle, given enough stack, if the
      reachable groups exist and are well-formed.  (The full statement has no acyclicity hypothesis.) *)
  Theorem C36_terminates_partial g : acyclic lower find g -> complete lower find g ->
    exists n, forall depth, (n <= depth)%nat ->
      (exists l, get_users lower find depth g true = Ok l) /\ (exists l, get_hosts lower find depth g true = Ok l).
  Proof.
    intros Ha Hc. destruct (members_of_total lower find group2 g Ha Hc) as [n1 H1]. destruct (members_of_total lower find group1 g Ha Hc) as [n2 H2].
    exists (Nat.max n1 n2). intros depth Hd. split; [apply H1|apply H2]; lia.
  Qed.

  (** C36 refuted: whenever a group that is reachable (perhaps the group itself) can reach itself again, the
      lookup fails however large the stack: with all groups present and well-formed, with RecursionError. *)
  Theorem C36_refuted_cycle g g' g1 depth : reach lower find g g' -> edge lower find g' g1 -> reach lower find g1 g' ->
    (forall l, get_users lower find depth g true <> Ok l) /\ (forall l, get_hosts lower find depth g true <> Ok l) /\
    (complete lower find g -> get_users lower find depth g true = Raise RecursionError /\ get_hosts lower find depth g true = Raise RecursionError).
  Proof.
    intros Hr He Hr1.
    assert (N : forall field l, members_of lower find field depth g <> Ok l).
    { intros field l H. destruct (members_of_ok lower find field depth g l H) as (Ha & _). eapply no_cycle; eauto. }
    split; [apply N|]. split; [apply N|]. intros Hc. split.
    - change (get_users lower find depth g true) with (members_of lower find group2 depth g).
      destruct (members_of lower find group2 depth g) as [l|e] eqn:E; [exfalso; eapply N; eauto|]. f_equal. eapply members_of_err; eauto.
    - change (get_hosts lower find depth g true) with (members_of lower find group1 depth g).
      destruct (members_of lower find group1 depth g) as [l|e] eqn:E; [exfalso; eapply N; eauto|]. f_equal. eapply members_of_err; eauto.
  Qed.

  (** C36 refuted for the methods of a netgroup object: for every object they raise. *)
  Theorem C36_refuted_object_methods oc depth o recursive :
    let result := match oc with Ok true => Raise AttributeError | Ok false => Raise RuntimeError | Raise e => Raise e end in
    ext_get_users lower find oc depth o recursive = result /\ ext_get_hosts lower find oc depth o recursive = result.
  Proof. unfold ext_get_users, ext_get_hosts. destruct oc as [[]|]; split; reflexivity. Qed.
End Lookups.
Print Assumptions C36_direct.
Print Assumptions C36_direct_hosts.
Print Assumptions C36_users_exact.
Print Assumptions C36_hosts_exact.
Print Assumptions C36_terminates_partial.
Print Assumptions C36_refuted_cycle.
Print Assumptions C36_refuted_object_methods.

(** a diamond: a -> b, c; b, c -> d; and a cycle: e -> f -> e *)
Definition ng_obj (l : list (str * list str)) : res attrs := Ok (cid_update dlower cid_empty l).
Definition ng_find (g : str) : res attrs :=
  if str_eqb g (lit "a") then ng_obj [(lit "memberNisNetgroup", [lit "b"; lit "c"]); (lit "nisNetgroupTriple", [lit "(,al,)"])]
  else if str_eqb g (lit "b") then ng_obj [(lit "membernisnetgroup", [lit "d"])]
  else if str_eqb g (lit "c") then ng_obj [(lit "MemberNisNetgroup", [lit "d"]); (lit "nisNetgroupTriple", [lit "(h1,carl,x)"; lit "(h2,cy,)"])]
  else if str_eqb g (lit "d") then ng_obj [(lit "nisNetgroupTriple", [lit "(h3,di,)"])]
  else if str_eqb g (lit "e") then ng_obj [(lit "memberNisNetgroup", [lit "f"]); (lit "nisNetgroupTriple", [lit "(,ed,)"])]
  else if str_eqb g (lit "f") then ng_obj [(lit "memberNisNetgroup", [lit "e"])]
  else Raise NoSearchResults.

Example C36_nonvacuous :
  acyclic dlower ng_find (lit "a") /\ complete dlower ng_find (lit "a") /\
  get_users dlower ng_find 2 (lit "a") true = Ok [lit "al"; lit "di"; lit "carl"; lit "cy"; lit "di"] /\
  get_hosts dlower ng_find 2 (lit "a") true = Ok [lit ""; lit "h3"; lit "h1"; lit "h2"; lit "h3"] /\
  get_users dlower ng_find 2 (lit "c") false = Ok [lit "carl"; lit "cy"] /\
  get_users dlower ng_find 1 (lit "a") true = Raise RecursionError /\
  edge dlower ng_find (lit "e") (lit "f") /\ reach dlower ng_find (lit "f") (lit "e") /\ complete dlower ng_find (lit "e") /\
  get_users dlower ng_find 300 (lit "e") true = Raise RecursionError.
Proof.
  assert (Ef : edge dlower ng_find (lit "f") (lit "e")) by (eexists; split; [reflexivity|vm_compute; auto]).
  assert (Ee : edge dlower ng_find (lit "e") (lit "f")) by (eexists; split; [reflexivity|vm_compute; auto]).
  assert (Hu : get_users dlower ng_find 2 (lit "a") true = Ok [lit "al"; lit "di"; lit "carl"; lit "cy"; lit "di"]) by (vm_compute; reflexivity).
  destruct (members_of_ok dlower ng_find group2 2 (lit "a") _ Hu) as (Ha & Hc & _).
  split; [exact Ha|]. split; [exact Hc|]. split; [exact Hu|]. split; [vm_compute; reflexivity|]. split; [vm_compute; reflexivity|]. split; [vm_compute; reflexivity|].
  split; [exact Ee|]. split; [eapply reach_step; [apply reach_refl|exact Ef]|]. split; [|vm_compute; reflexivity].
  intros g' Hr. assert (G : g' = lit "e" \/ g' = lit "f").
  { induction Hr as [|g1 g2 Hr IH He]; [auto|]. destruct IH as [-> | ->]; destruct He as (o & Ho & Hin); vm_compute in Ho; injection Ho as <-;
      vm_compute in Hin; destruct Hin as [<-|[]]; auto. }
  destruct G as [-> | ->]; eexists; (split; [reflexivity|]); intros t Hin; vm_compute in Hin; [|destruct Hin].
  destruct Hin as [<-|[]]. exists [], (lit "ed"), []. now apply triple_match_spec.
Qed.

Section Requests.
  Context (lower : str -> str) (Hlow : lower (lit "nisNetgroupTriple") <> lower (lit "memberNisNetgroup")).
  Notation T := (lit "nisNetgroupTriple").
  Notation M := (lit "memberNisNetgroup").
  Lemma says_names es a ts : says es a ts -> NoDup (map (fun av => lower (fst av)) a).
  Proof.
    intros (_ & Hn & Ha).
    assert (K : forall k, In k (map fst a) -> k = T \/ k = M).
    { intros k Hk. apply in_map_iff in Hk. destruct Hk as ([k' vs] & <- & Hin). apply Ha in Hin. cbn [fst]. tauto. }
    rewrite <- map_map. revert Hn K. generalize (map fst a) as ks. intros ks; induction ks as [|k ks IH]; intros Hn K; cbn [map]; constructor.
    - inversion Hn as [|? ? Hni Hn']; subst. intros Hin. apply in_map_iff in Hin. destruct Hin as (k' & He & Hk').
      destruct (K k (or_introl eq_refl)) as [-> | ->]; destruct (K k' (or_intror Hk')) as [-> | ->]; auto; congruence.
    - inversion Hn; subst. apply IH; auto. intros k' Hk'. apply K. now right.
  Qed.
  Lemma says_special es a ts av : says es a ts -> In av a -> ~ In (fst av) [lit "*"; lit "+"; lit "1.1"].
  Proof.
    intros (_ & _ & Ha) Hin. destruct av as [k vs]. apply Ha in Hin. cbn [fst]. destruct Hin as [[[-> _]|[-> _]] _]; cbn; intros X;
      repeat (destruct X as [X|X]; try discriminate); exact X.
  Qed.
  Lemma says_request es a ts : says es a ts -> request_ok lower a.
  Proof.
    intros H. split; [|split].
    - unfold names_distinct. exact (says_names es a ts H).
    - intros [k vs] Hin. destruct H as (_ & _ & Ha). apply Ha in Hin. exact (proj2 Hin).
    - intros av Hin. eapply says_special; eauto.
  Qed.
  Lemma says_del es a ts : says es a ts -> del_ok lower (as_vals a).
  Proof.
    intros H. split; [|split].
    - unfold as_vals. rewrite map_map. cbn [fst]. exact (says_names es a ts H).
    - intros av Hin. unfold as_vals in Hin. apply in_map_iff in Hin. destruct Hin as ([k vs] & <- & Hin). cbn [snd fst].
      destruct H as (_ & _ & Ha). apply Ha in Hin. destruct Hin as [_ Hne]. congruence.
    - intros av Hin. unfold as_vals in Hin. apply in_map_iff in Hin. destruct Hin as ([k vs] & <- & Hin). cbn [fst]. exact (says_special es a ts _ H Hin).
  Qed.

End Requests.

(** ** C61: changing the members of a group *)
Section Changes.
  Context {S : Type} (sv : server S) (view : S -> str -> option entry).
  Context (lower norm : str -> str) (eqv : str -> str -> str -> bool) (idx : str -> list str -> str -> res nat).
  Context (unbound strict have_validators : bool) (flags : empty_flags).
  Context (validate_mod : str -> list mod_ -> option lobj -> res unit).
  Context (Hidx : same_rule eqv idx) (Hrefl : forall a v, eqv a v v = true).
  Context (Hlaw : lawful lower norm eqv sv view).
  (** the two attribute names differ in more than case *)
  Context (Hlow : lower (lit "nisNetgroupTriple") <> lower (lit "memberNisNetgroup")).
  Notation T := (lit "nisNetgroupTriple").
  Notation M := (lit "memberNisNetgroup").

  (** [v] is one of the requested values of the attribute named [k] *)
  Definition wanted (es : list nentry) (ts : list str) (k v : str) : Prop := k = T /\ In v ts \/ k = M /\ In v (groups_of es).
  Lemma says_wanted es a ts k v : says es a ts -> (wanted es ts k v <-> exists vs, In (k, vs) a /\ In v vs).
  Proof.
    intros (_ & _ & Ha). unfold wanted. split.
    - intros [[-> Hv]|[-> Hv]]; [exists ts|exists (groups_of es)]; (split; [|auto]); apply Ha; (split; [auto|]); intros E; now rewrite E in Hv.
    - intros (vs & Hin & Hv). apply Ha in Hin. destruct Hin as [[[-> ->]|[-> ->]] _]; auto.
  Qed.

  (** what add_users / add_hosts do to the group, its new members being [es] *)
  Definition added (s s' : S) (dn : str) (e : entry) (es : list nentry) : Prop :=
    exists ts e', triples_of es ts /\ view s' dn = Some e' /\
      (forall k v, wanted es ts k v -> exists x, In x (e' (lower k)) /\ eqv k x v = true) /\
      (forall n v, In v (e' n) <-> In v (e n) \/ exists k, wanted es ts k v /\ lower k = n /\ existsb (fun x => eqv k x v) (e n) = false) /\
      (forall d, norm d <> norm dn -> view s' d = view s d).
  Lemma add_members_cur es a ts s dn e cur : says es a ts -> view s dn = Some e -> current_ok lower cur (map fst a) e ->
    match ldap_add_attrs sv lower idx unbound strict flags validate_mod s dn (as_vals a) cur with
    | (s', Ok _) => added s s' dn e es
    | (s', Raise _) => forall d, view s' d = view s d
    end.
  Proof.
    intros Ha V Hcur.
    pose proof (C58_add_attrs sv view lower norm eqv idx unbound strict flags validate_mod Hidx Hrefl Hlaw s dn a cur e (says_request lower Hlow es a ts Ha) V Hcur) as H.
    destruct (ldap_add_attrs sv lower idx unbound strict flags validate_mod s dn (as_vals a) cur) as [s' [[]|x]]; [|exact H].
    destruct H as (e' & V' & H1 & H2 & H3). exists ts, e'. split; [exact (proj1 Ha)|]. split; [exact V'|]. split; [|split; [|exact H3]].
    - intros k v Hw. apply (says_wanted es a ts k v Ha) in Hw. destruct Hw as (vs & Hin & Hv). eapply H1; eauto.
    - intros n v. rewrite H2. split; (intros [Hv|Hx]; [auto|right]).
      + destruct Hx as (k & vs & Hin & Hk & Hv & Hn). exists k. split; [|auto]. apply (says_wanted es a ts k v Ha). eauto.
      + destruct Hx as (k & Hw & Hk & Hn). apply (says_wanted es a ts k v Ha) in Hw. destruct Hw as (vs & Hin & Hv). exists k, vs. auto.
  Qed.
  Lemma add_members r es s dn e : (exists a ts, r = Ok a /\ says es a ts) -> view s dn = Some e ->
    match with_attrs s r (fun a => ldap_add_attrs sv lower idx unbound strict flags validate_mod s dn (as_vals a) None) with
    | (s', Ok _) => added s s' dn e es
    | (s', Raise _) => forall d, view s' d = view s d
    end.
  Proof.
    intros (a & ts & -> & Ha) V. cbn [with_attrs]. exact (add_members_cur es a ts s dn e None Ha V I).
  Qed.
  Theorem C61_add_users s dn ms domain es e :
    Forall2 (user_means (said domain)) (listed ms) es -> Forall writable es -> view s dn = Some e ->
    match ng_add_users sv lower idx unbound strict flags validate_mod s dn ms domain with
    | (s', Ok _) => added s s' dn e es
    | (s', Raise _) => forall d, view s' d = view s d
    end.
  Proof. intros H Hw V. apply add_members; [|exact V]. now apply C35_user_list. Qed.
  Theorem C61_add_hosts s dn ms domain es e :
    Forall2 (host_means (said domain)) (listed ms) es -> Forall writable es -> view s dn = Some e ->
    match ng_add_hosts sv lower idx unbound strict flags validate_mod s dn ms domain with
    | (s', Ok _) => added s s' dn e es
    | (s', Raise _) => forall d, view s' d = view s d
    end.
  Proof. intros H Hw V. apply add_members; [|exact V]. now apply C35_host_list. Qed.

  (** what delete_users / delete_hosts do *)
  Definition removed (s s' : S) (dn : str) (e : entry) (es : list nentry) : Prop :=
    exists ts e', triples_of es ts /\ view s' dn = Some e' /\
      (forall n x, In x (e' n) <-> In x (e n) /\ ~ exists k v, wanted es ts k v /\ lower k = n /\ eqv k x v = true) /\
      (forall d, norm d <> norm dn -> view s' d = view s d).
  Lemma delete_members_cur es a ts s dn e cur : says es a ts -> view s dn = Some e -> current_ok lower cur (map fst a) e ->
    at_most_one eqv T (e (lower T)) -> at_most_one eqv M (e (lower M)) ->
    match ldap_delete_attrs sv lower idx unbound strict flags validate_mod s dn (as_vals a) cur with
    | (s', Ok _) => removed s s' dn e es
    | (s', Raise _) => forall d, view s' d = view s d
    end.
  Proof.
    intros Ha V Hcur HT HM.
    assert (Hone : forall k v, In (k, v) (as_vals a) -> at_most_one eqv k (e (lower k))).
    { intros k v Hin. unfold as_vals in Hin. apply in_map_iff in Hin. destruct Hin as ([k' vs] & E & Hin). injection E as <- <-. cbn [fst].
      destruct Ha as (_ & _ & Ha). apply Ha in Hin. destruct Hin as [[[-> _]|[-> _]] _]; auto. }
    assert (Hcur' : current_ok lower cur (map fst (as_vals a)) e) by (unfold as_vals; rewrite map_map; exact Hcur).
    pose proof (C58_delete_attrs_partial sv view lower norm eqv idx unbound strict flags validate_mod Hidx Hlaw s dn (as_vals a) cur e (says_del lower Hlow es a ts Ha) V Hcur' Hone) as H.
    destruct (ldap_delete_attrs sv lower idx unbound strict flags validate_mod s dn (as_vals a) cur) as [s' [[]|x]]; [|exact H].
    destruct H as (e' & V' & H1 & H2). exists ts, e'. split; [exact (proj1 Ha)|]. split; [exact V'|]. split; [|exact H2].
    intros n x. rewrite H1. assert (D : doomed lower eqv (as_vals a) n x <-> exists k v, wanted es ts k v /\ lower k = n /\ eqv k x v = true).
    { unfold doomed. split.
      - intros (k & v & Hin & Hk & Hv). unfold as_vals in Hin. apply in_map_iff in Hin. destruct Hin as ([k' vs] & E & Hin). cbn [fst snd] in E. injection E as <- <-.
        destruct Hv as (w & Hw & Hx). exists k', w. split; [|auto]. apply (says_wanted es a ts k' w Ha). eauto.
      - intros (k & v & Hw & Hk & Hx). apply (says_wanted es a ts k v Ha) in Hw. destruct Hw as (vs & Hin & Hv). exists k, (VList vs). split; [|split; [auto|eauto]].
        unfold as_vals. apply in_map_iff. exists (k, vs). auto. }
    rewrite D. tauto.
  Qed.
  Lemma delete_members r es s dn e : (exists a ts, r = Ok a /\ says es a ts) -> view s dn = Some e ->
    at_most_one eqv T (e (lower T)) -> at_most_one eqv M (e (lower M)) ->
    match with_attrs s r (fun a => ldap_delete_attrs sv lower idx unbound strict flags validate_mod s dn (as_vals a) None) with
    | (s', Ok _) => removed s s' dn e es
    | (s', Raise _) => forall d, view s' d = view s d
    end.
  Proof.
    intros (a & ts & -> & Ha) V HT HM. cbn [with_attrs]. exact (delete_members_cur es a ts s dn e None Ha V I HT HM).
  Qed.
  Theorem C61_delete_users s dn ms domain es e :
    Forall2 (user_means (said domain)) (listed ms) es -> Forall writable es -> view s dn = Some e ->
    at_most_one eqv T (e (lower T)) -> at_most_one eqv M (e (lower M)) ->
    match ng_delete_users sv lower idx unbound strict flags validate_mod s dn ms domain with
    | (s', Ok _) => removed s s' dn e es
    | (s', Raise _) => forall d, view s' d = view s d
    end.
  Proof. intros H Hw V H1 H2. apply delete_members; auto. now apply C35_user_list. Qed.
  Theorem C61_delete_hosts s dn ms domain es e :
    Forall2 (host_means (said domain)) (listed ms) es -> Forall writable es -> view s dn = Some e ->
    at_most_one eqv T (e (lower T)) -> at_most_one eqv M (e (lower M)) ->
    match ng_delete_hosts sv lower idx unbound strict flags validate_mod s dn ms domain with
    | (s', Ok _) => removed s s' dn e es
    | (s', Raise _) => forall d, view s' d = view s d
    end.
  Proof. intros H Hw V H1 H2. apply delete_members; auto. now apply C35_host_list. Qed.

  (** what replace_users / replace_hosts do: the triples are replaced if triples are given, the member
      groups if groups are given; everything else stays *)
  Definition replaced (s s' : S) (dn : str) (e : entry) (es : list nentry) : Prop :=
    exists ts e', triples_of es ts /\ view s' dn = Some e' /\
      e' (lower T) = (if ts then e (lower T) else ts) /\
      e' (lower M) = (if groups_of es then e (lower M) else groups_of es) /\
      (forall n, n <> lower T -> n <> lower M -> e' n = e n) /\
      (forall d, norm d <> norm dn -> view s' d = view s d).
  Lemma replace_members_cur es a ts s dn e cur : says es a ts -> view s dn = Some e ->
    match ldap_replace_attrs sv lower unbound strict have_validators flags validate_mod s dn (as_vals a) cur with
    | (s', Ok _) => replaced s s' dn e es
    | (s', Raise _) => forall d, view s' d = view s d
    end.
  Proof.
    intros Ha V.
    pose proof (C58_replace_attrs_partial sv view lower norm eqv unbound strict have_validators flags validate_mod Hlaw s dn (as_vals a) cur e (says_del lower Hlow es a ts Ha) V) as H.
    destruct (ldap_replace_attrs sv lower unbound strict have_validators flags validate_mod s dn (as_vals a) cur) as [s' [[]|x]]; [|exact H].
    destruct H as (e' & V' & H1 & H2 & H3). exists ts, e'. split; [exact (proj1 Ha)|]. split; [exact V'|].
    destruct Ha as (_ & _ & Ha).
    assert (W : forall k vs, In (k, vs) a -> e' (lower k) = vs).
    { intros k vs Hin. rewrite (H1 k (VList vs)); [reflexivity|]. unfold as_vals. apply in_map_iff. exists (k, vs). auto. }
    assert (N : forall n, (forall k vs, In (k, vs) a -> lower k <> n) -> e' n = e n).
    { intros n Hn. apply H2. unfold as_vals. rewrite map_map. cbn [fst]. intros Hin. apply in_map_iff in Hin. destruct Hin as ([k vs] & E & Hin). exact (Hn k vs Hin E). }
    split; [|split; [|split; [|exact H3]]].
    - destruct ts as [|t ts]; [|apply W; apply Ha; split; [auto|discriminate]].
      apply N. intros k vs Hin E. apply Ha in Hin. destruct Hin as [[[-> ->]|[-> _]] Hne]; auto.
    - destruct (groups_of es) as [|g gs]; [|apply W; apply Ha; split; [auto|discriminate]].
      apply N. intros k vs Hin E. apply Ha in Hin. destruct Hin as [[[-> _]|[-> ->]] Hne]; auto.
    - intros n HT HM. apply N. intros k vs Hin E. apply Ha in Hin. destruct Hin as [[[-> _]|[-> _]] _]; auto.
  Qed.
  Lemma replace_members r es s dn e : (exists a ts, r = Ok a /\ says es a ts) -> view s dn = Some e ->
    match with_attrs s r (fun a => ldap_replace_attrs sv lower unbound strict have_validators flags validate_mod s dn (as_vals a) None) with
    | (s', Ok _) => replaced s s' dn e es
    | (s', Raise _) => forall d, view s' d = view s d
    end.
  Proof.
    intros (a & ts & -> & Ha) V. cbn [with_attrs]. exact (replace_members_cur es a ts s dn e None Ha V).
  Qed.
  Theorem C61_replace_users s dn ms domain es e :
    Forall2 (user_means (said domain)) (listed ms) es -> Forall writable es -> view s dn = Some e ->
    match ng_replace_users sv lower unbound strict have_validators flags validate_mod s dn ms domain with
    | (s', Ok _) => replaced s s' dn e es
    | (s', Raise _) => forall d, view s' d = view s d
    end.
  Proof. intros H Hw V. apply replace_members; [|exact V]. now apply C35_user_list. Qed.
  Theorem C61_replace_hosts s dn ms domain es e :
    Forall2 (host_means (said domain)) (listed ms) es -> Forall writable es -> view s dn = Some e ->
    match ng_replace_hosts sv lower unbound strict have_validators flags validate_mod s dn ms domain with
    | (s', Ok _) => replaced s s' dn e es
    | (s', Raise _) => forall d, view s' d = view s d
    end.
  Proof. intros H Hw V. apply replace_members; [|exact V]. now apply C35_host_list. Qed.

  (** an entry without a meaning: nothing is sent *)
  Theorem C61_bad_members s dn ms domain :
    (~ Forall (fun m => exists e, user_means (said domain) m e) (listed ms) -> exists x,
       ng_add_users sv lower idx unbound strict flags validate_mod s dn ms domain = (s, Raise x) /\
       ng_delete_users sv lower idx unbound strict flags validate_mod s dn ms domain = (s, Raise x) /\
       ng_replace_users sv lower unbound strict have_validators flags validate_mod s dn ms domain = (s, Raise x)) /\
    (~ Forall (fun m => exists e, host_means (said domain) m e) (listed ms) -> exists x,
       ng_add_hosts sv lower idx unbound strict flags validate_mod s dn ms domain = (s, Raise x) /\
       ng_delete_hosts sv lower idx unbound strict flags validate_mod s dn ms domain = (s, Raise x) /\
       ng_replace_hosts sv lower unbound strict have_validators flags validate_mod s dn ms domain = (s, Raise x)).
  Proof.
    split; intros H.
    - rewrite <- C35_user_list_accepted in H. unfold ng_add_users, ng_delete_users, ng_replace_users.
      destruct (user_list_to_attrs ms domain) as [a|x]; [exfalso; eauto|]. exists x. auto.
    - rewrite <- C35_host_list_accepted in H. unfold ng_add_hosts, ng_delete_hosts, ng_replace_hosts.
      destruct (host_list_to_attrs ms domain) as [a|x]; [exfalso; eauto|]. exists x. auto.
  Qed.
End Changes.
Print Assumptions C61_add_users.
Print Assumptions C61_add_hosts.
Print Assumptions C61_delete_users.
Print Assumptions C61_delete_hosts.
Print Assumptions C61_replace_users.
Print Assumptions C61_replace_hosts.
Print Assumptions C61_bad_members.

(** ** Against a server that refuses nothing without a reason, and with validators that accept, the changes succeed *)
Section Live.
  Context {S : Type} (sv : server S) (view : S -> str -> option entry).
  Context (lower norm : str -> str) (eqv : str -> str -> str -> bool) (idx : str -> list str -> str -> res nat).
  Context (have_validators : bool) (flags : empty_flags).
  Context (validate_mod : str -> list mod_ -> option lobj -> res unit).
  Context (Hidx : same_rule eqv idx) (Hlaw : lawful lower norm eqv sv view) (Hwill : willing lower eqv sv view).
  Context (Hvm : forall dn ms c, validate_mod dn ms c = Ok tt).
  Context (Hlow : lower (lit "nisNetgroupTriple") <> lower (lit "memberNisNetgroup")).

  (** no triple and no group is given twice *)
  Definition no_repeats (es : list nentry) : Prop :=
    (forall ts, triples_of es ts -> ForallOrdPairs (fun v w => eqv (lit "nisNetgroupTriple") v w = false) ts) /\
    ForallOrdPairs (fun v w => eqv (lit "memberNisNetgroup") v w = false) (groups_of es).

  Theorem C61_add_succeeds s dn ms domain es e : no_repeats es -> Forall writable es -> view s dn = Some e ->
    (Forall2 (user_means (said domain)) (listed ms) es -> exists s',
       ng_add_users sv lower idx false false flags validate_mod s dn ms domain = (s', Ok tt)) /\
    (Forall2 (host_means (said domain)) (listed ms) es -> exists s',
       ng_add_hosts sv lower idx false false flags validate_mod s dn ms domain = (s', Ok tt)).
  Proof.
    intros [R1 R2] Hw V.
    assert (G : forall a ts, says es a ts -> exists s', ldap_add_attrs sv lower idx false false flags validate_mod s dn (as_vals a) None = (s', Ok tt)).
    { intros a ts Ha. apply (C58_add_attrs_succeeds sv view lower norm eqv idx false flags validate_mod Hidx Hlaw Hwill Hvm s dn a None e); auto.
      - exact (says_request lower Hlow es a ts Ha).
      - intros k vs Hin. destruct Ha as (Ht & _ & Ha). apply Ha in Hin. destruct Hin as [[[-> ->]|[-> ->]] _]; auto.
      - exact I. }
    split; intros H.
    - destruct (C35_user_list ms domain es H Hw) as (a & ts & Ea & Ha). unfold ng_add_users. rewrite Ea. exact (G a ts Ha).
    - destruct (C35_host_list ms domain es H Hw) as (a & ts & Ea & Ha). unfold ng_add_hosts. rewrite Ea. exact (G a ts Ha).
  Qed.
  Theorem C61_replace_succeeds s dn ms domain es e strict : Forall writable es -> view s dn = Some e ->
    (Forall2 (user_means (said domain)) (listed ms) es -> exists s',
       ng_replace_users sv lower false strict have_validators flags validate_mod s dn ms domain = (s', Ok tt)) /\
    (Forall2 (host_means (said domain)) (listed ms) es -> exists s',
       ng_replace_hosts sv lower false strict have_validators flags validate_mod s dn ms domain = (s', Ok tt)).
  Proof.
    intros Hw V.
    assert (G : forall a ts, says es a ts -> exists s', ldap_replace_attrs sv lower false strict have_validators flags validate_mod s dn (as_vals a) None = (s', Ok tt)).
    { intros a ts Ha. apply (C58_replace_attrs_succeeds sv view lower norm eqv strict have_validators flags validate_mod Hlaw Hwill Hvm s dn (as_vals a) None e); auto.
      exact (says_del lower Hlow es a ts Ha). }
    split; intros H.
    - destruct (C35_user_list ms domain es H Hw) as (a & ts & Ea & Ha). unfold ng_replace_users. rewrite Ea. exact (G a ts Ha).
    - destruct (C35_host_list ms domain es H Hw) as (a & ts & Ea & Ha). unfold ng_replace_hosts. rewrite Ea. exact (G a ts Ha).
  Qed.
  Theorem C61_delete_succeeds s dn ms domain es e : Forall writable es -> view s dn = Some e ->
    (forall ts, triples_of es ts -> forall x, In x (e (lower (lit "nisNetgroupTriple"))) ->
       ForallOrdPairs (fun v w => eqv (lit "nisNetgroupTriple") x v = true -> eqv (lit "nisNetgroupTriple") x w = false) ts) ->
    (forall x, In x (e (lower (lit "memberNisNetgroup"))) ->
       ForallOrdPairs (fun v w => eqv (lit "memberNisNetgroup") x v = true -> eqv (lit "memberNisNetgroup") x w = false) (groups_of es)) ->
    (Forall2 (user_means (said domain)) (listed ms) es -> exists s',
       ng_delete_users sv lower idx false false flags validate_mod s dn ms domain = (s', Ok tt)) /\
    (Forall2 (host_means (said domain)) (listed ms) es -> exists s',
       ng_delete_hosts sv lower idx false false flags validate_mod s dn ms domain = (s', Ok tt)).
  Proof.
    intros Hw V R1 R2.
    assert (G : forall a ts, says es a ts -> exists s', ldap_delete_attrs sv lower idx false false flags validate_mod s dn (as_vals a) None = (s', Ok tt)).
    { intros a ts Ha. apply (C58_delete_attrs_succeeds sv view lower norm eqv idx false flags validate_mod Hidx Hlaw Hwill Hvm s dn (as_vals a) None e); auto.
      - exact (says_del lower Hlow es a ts Ha).
      - intros k vs x Hin Hx. destruct Ha as (Ht & _ & Ha). unfold as_vals in Hin. apply in_map_iff in Hin. destruct Hin as ([k' vs'] & E & Hin).
        cbn [fst snd] in E. injection E as -> ->. apply Ha in Hin. destruct Hin as [[[-> ->]|[-> ->]] _]; auto.
      - exact I. }
    split; intros H.
    - destruct (C35_user_list ms domain es H Hw) as (a & ts & Ea & Ha). unfold ng_delete_users. rewrite Ea. exact (G a ts Ha).
    - destruct (C35_host_list ms domain es H Hw) as (a & ts & Ea & Ha). unfold ng_delete_hosts. rewrite Ea. exact (G a ts Ha).
  Qed.
End Live.
Print Assumptions C61_add_succeeds.
Print Assumptions C61_replace_succeeds.
Print Assumptions C61_delete_succeeds.

Definition ng_dn := lit "cn=ops,dc=x".
Definition ng_dir : store := [ (ng_dn, [ (lit "objectClass", [lit "nisNetgroup"]); (lit "nisNetgroupTriple", [lit "(,al,)"]); (lit "memberNisNetgroup", [lit "old"]) ]) ].
Example C61_nonvacuous :
  lawful dlower (fun d => d) aeq dsv (sview dlower) /\ dlower (lit "nisNetgroupTriple") <> dlower (lit "memberNisNetgroup") /\
  (let '(s', r) := ng_add_users dsv dlower ex_idx false false dflags ok_mod ng_dir ng_dn (MList [MStr (lit "al"); MStr (lit "bo"); MStr (lit "+dev")]) None in
   r = Ok tt /\ at_dir s' ng_dn (lit "nisnetgrouptriple") = [lit "(,al,)"; lit "(,bo,)"] /\ at_dir s' ng_dn (lit "membernisnetgroup") = [lit "old"; lit "dev"]) /\
  (let '(s', r) := ng_delete_hosts dsv dlower ex_idx false false dflags ok_mod ng_dir ng_dn (MList [MTuple [None; Some (lit "al")]; MStr (lit "h9")]) None in
   r = Ok tt /\ at_dir s' ng_dn (lit "nisnetgrouptriple") = [] /\ at_dir s' ng_dn (lit "membernisnetgroup") = [lit "old"]) /\
  (let '(s', r) := ng_replace_users dsv dlower false false false dflags ok_mod ng_dir ng_dn (MOne (MStr (lit "cy"))) (Some (lit "d")) in
   r = Ok tt /\ at_dir s' ng_dn (lit "nisnetgrouptriple") = [lit "(,cy,d)"] /\ at_dir s' ng_dn (lit "membernisnetgroup") = [lit "old"]).
Proof.
  split; [apply ex_lawful|]. split; [vm_compute; discriminate|]. vm_compute. repeat split.
Qed.
