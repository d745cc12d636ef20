(** * Proofs about netgroups *)
From Verif Require Import PyBase Model_CIDict Model_Modify Model_Search Model_Dir Model_Netgroups Spec_Netgroups.

Lemma upto_spec c s a r : upto c s = Some (a, r) <-> s = a ++ c :: r /\ ~ In c a.
Proof.
  revert a r; induction s as [|x s IH]; intros a r; cbn [upto].
  - split; [discriminate|]. intros [H _]. destruct a; discriminate.
  - destruct (N.eqb_spec x c) as [->|Hx].
    + split.
      * intros H; injection H as <- <-. auto.
      * intros [H Hni]. destruct a as [|y a]; cbn in H; inversion H; subst; [reflexivity|].
        exfalso; apply Hni; left; auto.
    + destruct (upto c s) as [[a' r']|] eqn:E.
      * assert (IH' := proj1 (IH a' r') eq_refl). destruct IH' as [Hs Hni]. split.
        -- intros H; injection H as <- <-. subst. split; [reflexivity|]. cbn. intuition.
        -- intros [H Hni']. destruct a as [|y a]; cbn in H; injection H as H1 H2; [congruence|].
           assert (E' : Some (a', r') = Some (a, r)). { apply IH. split; auto. intros Hc; apply Hni'; now right. }
           injection E' as -> ->. now subst x.
      * split; [discriminate|]. intros [H Hni]. destruct a as [|y a]; cbn in H; injection H as H1 H2; [congruence|].
        assert (E' : None = Some (a, r)). { apply IH. split; auto. intros Hc; apply Hni; now right. }
        congruence.
Qed.

Lemma triple_text_eq h u d t : triple_text h u d ++ t = ch "(" :: h ++ ch "," :: u ++ ch "," :: d ++ ch ")" :: t.
Proof. unfold triple_text. cbn [lit ch]. now rewrite <- ?app_assoc; cbn [app]; rewrite <- ?app_assoc; cbn [app]; rewrite <- ?app_assoc. Qed.

Lemma triple_match_spec s h u d : triple_match s = Some (h, u, d) <-> denotes s h u d.
Proof.
  unfold denotes, clean. split.
  - unfold triple_match. destruct s as [|x s0]; [discriminate|].
    destruct (N.eqb_spec x (ch "(")) as [->|]; [|discriminate].
    destruct (upto (ch ",") s0) as [[h' s1]|] eqn:E1; [|discriminate].
    destruct (upto (ch ",") s1) as [[u' s2]|] eqn:E2; [|discriminate].
    destruct (upto (ch ")") s2) as [[d' s3]|] eqn:E3; [|discriminate].
    apply upto_spec in E1, E2, E3. destruct E1 as [-> H1], E2 as [-> H2], E3 as [-> H3].
    destruct s3 as [|y [|z s3]]; [| |discriminate].
    + intros H; injection H as <- <- <-. split; [auto|]. left.
      rewrite <- (app_nil_r (triple_text _ _ _)), triple_text_eq. reflexivity.
    + destruct (N.eqb_spec y 10) as [->|]; [|discriminate].
      intros H; injection H as <- <- <-. split; [auto|]. right. now rewrite triple_text_eq.
  - intros [(H1 & H2 & H3) Hs].
    assert (E : exists t, s = ch "(" :: h ++ ch "," :: u ++ ch "," :: d ++ ch ")" :: t /\ (t = [] \/ t = [10%N])).
    { destruct Hs as [-> | ->]; [exists []|exists [10%N]]; (split; [|auto]).
      - rewrite <- (app_nil_r (triple_text _ _ _)). apply triple_text_eq.
      - apply triple_text_eq. }
    destruct E as (t & -> & Ht). unfold triple_match. rewrite N.eqb_refl.
    rewrite (proj2 (upto_spec _ _ h _)) by (split; [reflexivity|auto]).
    rewrite (proj2 (upto_spec _ _ u _)) by (split; [reflexivity|auto]).
    rewrite (proj2 (upto_spec _ _ d _)) by (split; [reflexivity|auto]).
    destruct Ht as [-> | ->]; reflexivity.
Qed.

Lemma triple_match_None s : triple_match s = None <-> forall h u d, ~ denotes s h u d.
Proof.
  split.
  - intros H h u d Hd. apply triple_match_spec in Hd. congruence.
  - intros H. destruct (triple_match s) as [[[h u] d]|] eqn:E; [|reflexivity].
    apply triple_match_spec in E. exfalso; eapply H; eauto.
Qed.

Lemma nis_triple h u d : nis_netgroup_triple h u d = triple_text (field_str h) (field_str u) (field_str d).
Proof. reflexivity. Qed.

Lemma text_denotes h u d : clean h u d -> denotes (triple_text h u d) h u d.
Proof. intros H; split; auto. Qed.

Lemma said_str f : field_str f = said f.
Proof. reflexivity. Qed.
Lemma listed_members m : member_list m = listed m.
Proof. reflexivity. Qed.

(** ** one member *)
Definition shows (e : nentry) (av : str * str) : Prop :=
  match e with
  | Triple h u d => fst av = TRIPLE /\ (clean h u d -> denotes (snd av) h u d)
  | Group g => av = (MEMBER, g)
  end.

Lemma plus_not_triple g h u d : ~ denotes (lit "+" ++ g) h u d.
Proof. intros [_ [H|H]]; rewrite ?triple_text_eq in H; cbn in H; injection H; discriminate. Qed.

Lemma user_member_ok domain m e : user_means (said domain) m e ->
  exists av, user_member domain m = Ok av /\ shows e av.
Proof.
  intros H; destruct H as [g|s h u d Hd|s Hne Hp Hnt|h u|h u d].
  - exists (MEMBER, g). split; reflexivity.
  - destruct s as [|x s]; [apply triple_match_spec in Hd; discriminate|].
    exists (TRIPLE, x :: s). split; [|cbn; auto]. cbn [user_member].
    destruct (N.eqb_spec x (ch "+")) as [->|].
    { exfalso; exact (plus_not_triple _ _ _ _ Hd). }
    unfold is_triple. apply triple_match_spec in Hd. rewrite Hd. reflexivity.
  - destruct s as [|x s]; [congruence|]. cbn [user_member].
    destruct (N.eqb_spec x (ch "+")) as [->|]; [exfalso; exact (Hp s eq_refl)|].
    unfold is_triple. rewrite (proj2 (triple_match_None _) Hnt). cbn [negb].
    eexists; split; [reflexivity|]. split; [reflexivity|]. intros Hc. cbn [snd]. rewrite nis_triple, !said_str. now apply text_denotes.
  - eexists; split; [reflexivity|]. split; [reflexivity|]. intros Hc. cbn [snd]. rewrite nis_triple, !said_str. now apply text_denotes.
  - eexists; split; [reflexivity|]. split; [reflexivity|]. intros Hc. cbn [snd]. rewrite nis_triple, !said_str. now apply text_denotes.
Qed.

Lemma host_member_ok domain m e : host_means (said domain) m e ->
  exists av, host_member domain m = Ok av /\ shows e av.
Proof.
  intros H; destruct H as [g|s h u d Hd|s Hne Hp Hnt|h|h u|h u d].
  - exists (MEMBER, g). split; reflexivity.
  - destruct s as [|x s]; [apply triple_match_spec in Hd; discriminate|].
    exists (TRIPLE, x :: s). split; [|cbn; auto]. cbn [host_member].
    destruct (N.eqb_spec x (ch "+")) as [->|].
    { exfalso; exact (plus_not_triple _ _ _ _ Hd). }
    unfold is_triple. apply triple_match_spec in Hd. rewrite Hd. reflexivity.
  - destruct s as [|x s]; [congruence|]. cbn [host_member].
    destruct (N.eqb_spec x (ch "+")) as [->|]; [exfalso; exact (Hp s eq_refl)|].
    unfold is_triple. rewrite (proj2 (triple_match_None _) Hnt). cbn [negb].
    eexists; split; [reflexivity|]. split; [reflexivity|]. intros Hc. cbn [snd]. rewrite nis_triple, !said_str. now apply text_denotes.
  - eexists; split; [reflexivity|]. split; [reflexivity|]. intros Hc. cbn [snd]. rewrite nis_triple, !said_str. now apply text_denotes.
  - eexists; split; [reflexivity|]. split; [reflexivity|]. intros Hc. cbn [snd]. rewrite nis_triple, !said_str. now apply text_denotes.
  - eexists; split; [reflexivity|]. split; [reflexivity|]. intros Hc. cbn [snd]. rewrite nis_triple, !said_str. now apply text_denotes.
Qed.

Lemma user_member_means domain m av : user_member domain m = Ok av -> exists e, user_means (said domain) m e.
Proof.
  destruct m as [[|x s]|l|]; cbn [user_member]; try discriminate.
  - destruct (N.eqb_spec x (ch "+")) as [->|Hx]; [intros _; exists (Group s); apply (um_group _ s)|].
    unfold is_triple. destruct (triple_match (x :: s)) as [[[h u] d]|] eqn:E; intros _.
    + exists (Triple h u d). apply um_triple. now apply triple_match_spec.
    + exists (Triple [] (x :: s) (said domain)). apply um_name.
      * discriminate.
      * intros g Hg. cbn in Hg. injection Hg as Hg _. now apply Hx.
      * now apply triple_match_None.
  - destruct l as [|h [|u [|d [|]]]]; try discriminate; intros _; eexists; constructor.
Qed.
Lemma host_member_means domain m av : host_member domain m = Ok av -> exists e, host_means (said domain) m e.
Proof.
  destruct m as [[|x s]|l|]; cbn [host_member]; try discriminate.
  - destruct (N.eqb_spec x (ch "+")) as [->|Hx]; [intros _; exists (Group s); apply (hm_group _ s)|].
    unfold is_triple. destruct (triple_match (x :: s)) as [[[h u] d]|] eqn:E; intros _.
    + exists (Triple h u d). apply hm_triple. now apply triple_match_spec.
    + exists (Triple (x :: s) [] (said domain)). apply hm_name.
      * discriminate.
      * intros g Hg. cbn in Hg. injection Hg as Hg _. now apply Hx.
      * now apply triple_match_None.
  - destruct l as [|h [|u [|d [|]]]]; try discriminate; intros _; eexists; constructor.
Qed.

(** ** the loop *)
Definition at_ (d : list (str * list str)) (a : str) : list str := match dget d a with Some l => l | None => [] end.
(** only these two attributes, none without values *)
Definition tidy (d : list (str * list str)) : Prop :=
  NoDup (map fst d) /\ forall a l, In (a, l) d -> (a = TRIPLE \/ a = MEMBER) /\ l <> [].

Lemma append_at d a v b : at_ (append_to d a v) b = if str_eqb a b then at_ d a ++ [v] else at_ d b.
Proof.
  unfold at_, append_to. destruct (dget d a) as [l|] eqn:E; rewrite dget_dset; destruct (str_eqb_spec a b) as [->|]; try reflexivity.
Qed.

Lemma dset_In_inv {V} (d : list (str * V)) k v x : In x (dset d k v) -> x = (k, v) \/ In x d.
Proof.
  induction d as [|[k' v'] d IH]; cbn [dset]; [cbn; intuition|].
  destruct (str_eqb_spec k' k) as [->|]; cbn [In]; intuition.
Qed.

Lemma append_tidy d a v : (a = TRIPLE \/ a = MEMBER) -> tidy d -> tidy (append_to d a v).
Proof.
  intros Ha [Hn Hd]. unfold append_to. destruct (dget d a) as [l|] eqn:E; (split; [now apply dset_NoDup|]);
    intros b m Hin; apply dset_In_inv in Hin; destruct Hin as [Hin|Hin]; auto; injection Hin as -> ->; split; auto;
    try discriminate. now destruct l.
Qed.

Lemma TRIPLE_MEMBER : str_eqb TRIPLE MEMBER = false.
Proof. reflexivity. Qed.
Lemma MEMBER_TRIPLE : str_eqb MEMBER TRIPLE = false.
Proof. reflexivity. Qed.

Lemma members_loop_ok one ms es d :
  Forall2 (fun m e => exists av, one m = Ok av /\ shows e av) ms es -> Forall writable es -> tidy d ->
  exists a ts, members_loop one ms d = Ok a /\ tidy a /\ triples_of es ts /\
    at_ a TRIPLE = at_ d TRIPLE ++ ts /\ at_ a MEMBER = at_ d MEMBER ++ groups_of es.
Proof.
  intros H; revert d; induction H as [|m e ms es (av & Hm & Hs) H IH]; intros d Hw Hd.
  - exists d, []. cbn. rewrite !app_nil_r. repeat (split; auto). constructor.
  - inversion Hw as [|? ? Hwe Hw']; subst. cbn [members_loop]. rewrite Hm. destruct av as [k v].
    destruct e as [h u dm|g].
    + destruct Hs as [Hk Hs]. cbn [fst snd] in Hk, Hs. subst k.
      destruct (IH (append_to d TRIPLE v) Hw') as (a & ts & Ha & Ht & Hto & H1 & H2); [apply append_tidy; auto|].
      exists a, (v :: ts). split; [exact Ha|]. split; [exact Ht|]. split; [constructor; auto|].
      rewrite H1, H2, !append_at, str_eqb_refl, TRIPLE_MEMBER. cbn [groups_of]. split; [|reflexivity].
      now rewrite <- app_assoc.
    + injection Hs as -> ->.
      destruct (IH (append_to d MEMBER g) Hw') as (a & ts & Ha & Ht & Hto & H1 & H2); [apply append_tidy; auto|].
      exists a, ts. split; [exact Ha|]. split; [exact Ht|]. split; [constructor; auto|].
      rewrite H1, H2, !append_at, str_eqb_refl, MEMBER_TRIPLE. cbn [groups_of]. split; [reflexivity|].
      now rewrite <- app_assoc.
Qed.

Lemma members_loop_means one (P : member -> Prop) ms d a :
  (forall m av, one m = Ok av -> P m) -> members_loop one ms d = Ok a -> Forall P ms.
Proof.
  intros HP; revert d; induction ms as [|m ms IH]; intros d H; constructor; cbn [members_loop] in H;
    destruct (one m) as [[k v]|] eqn:E; try discriminate; eauto.
Qed.

Lemma members_loop_total one (P : member -> Prop) ms d :
  (forall m, P m -> exists av, one m = Ok av) -> Forall P ms -> exists a, members_loop one ms d = Ok a.
Proof.
  intros HP H; revert d; induction H as [|m ms Hm H IH]; intros d; [eexists; reflexivity|].
  cbn [members_loop]. destruct (HP m Hm) as [[k v] ->]. apply IH.
Qed.

(** ** extraction *)
Lemma extract_loop_ok field vs l : extract_loop field vs = Ok l <->
  Forall2 (fun t x => exists h u d, denotes t h u d /\ x = field (h, u, d)) vs l.
Proof.
  revert l; induction vs as [|t vs IH]; intros l; cbn [extract_loop].
  - split; intros H; [injection H as <-; constructor|inversion H; reflexivity].
  - destruct (triple_match t) as [[[h u] d]|] eqn:E.
    + split.
      * intros H. destruct (extract_loop field vs) as [r|]; [|discriminate]. injection H as <-.
        constructor; [|now apply IH]. exists h, u, d. split; [now apply triple_match_spec|reflexivity].
      * intros H. inversion H as [|? x ? l' (h' & u' & d' & Hd & Hx) Hl]; subst.
        apply triple_match_spec in Hd. rewrite Hd in E. injection E as -> -> ->.
        apply IH in Hl. now rewrite Hl.
    + split; [discriminate|]. intros H. inversion H as [|? x ? l' (h' & u' & d' & Hd & Hx) Hl]; subst.
      apply triple_match_spec in Hd. congruence.
Qed.
Lemma extract_loop_err field vs e : extract_loop field vs = Raise e -> e = LDAPError /\ exists t, In t vs /\ forall h u d, ~ denotes t h u d.
Proof.
  induction vs as [|t vs IH]; cbn [extract_loop]; [discriminate|].
  destruct (triple_match t) as [m|] eqn:E.
  - destruct (extract_loop field vs) as [r|e'] eqn:E'; cbn [bind]; [discriminate|]. intros H. injection H as ->.
    destruct (IH eq_refl) as (-> & t' & Hin & Hn). split; auto. exists t'. split; [now right|auto].
  - intros H; injection H as <-. split; auto. exists t. split; [now left|now apply triple_match_None].
Qed.
Lemma extract_loop_total field vs : (forall t, In t vs -> exists h u d, denotes t h u d) -> exists l, extract_loop field vs = Ok l.
Proof.
  intros H. destruct (extract_loop field vs) as [l|e] eqn:E; [eauto|].
  apply extract_loop_err in E. destruct E as (_ & t & Hin & Hn). destruct (H t Hin) as (h & u & d & Hd). exfalso; eapply Hn; eauto.
Qed.

Section Lookup.
  Context (lower : str -> str) (find : str -> res attrs) (field : str * str * str -> str).
  Notation values := (values lower).
  Notation edge := (edge lower find).
  Notation reach := (reach lower find).
  Notation obj_members := (obj_members lower find field).

  Lemma cid_get_key_error (o : attrs) a e : cid_get lower o a = Raise e -> e = KeyError.
  Proof. unfold cid_get. destruct (dget (ckeys o) (lower a)) as [k|]; [destruct (dget (cdata o) k)|]; congruence. Qed.

  Lemma extract_eq o : extract_triple_field lower field o = extract_loop field (values o TRIPLE).
  Proof.
    unfold extract_triple_field, cid_get_default, Spec_Netgroups.values.
    destruct (cid_get lower o TRIPLE) as [l|e] eqn:E; [reflexivity|]. apply cid_get_key_error in E. now subst.
  Qed.

  (** the for loop over the member groups *)
  Definition collect (f : str -> res (list str)) : list str -> list str -> res (list str) :=
    fix loop ms users := match ms with
      | [] => Ok users
      | m :: ms' => let* more := f m in loop ms' (users ++ more)
      end.
  Definition members_of (depth : nat) (g : str) : res (list str) := let* o := find g in obj_members depth o true.

  Lemma obj_members_eq depth o : obj_members depth o true =
    let* own := extract_loop field (values o TRIPLE) in
    match values o MEMBER with
    | [] => Ok own
    | ms => match depth with
            | O => Raise RecursionError
            | S depth' => collect (members_of depth') ms own
            end
    end.
  Proof.
    assert (V : ahas lower o MEMBER = match values o MEMBER with [] => false | _ => true end).
    { unfold ahas, Spec_Netgroups.values. destruct (cid_get lower o MEMBER) as [[|]|]; reflexivity. }
    assert (L : forall d l users, (fix loop (ms : list str) (users : list str) : res (list str) :=
             match ms with
             | [] => Ok users
             | m :: ms' =>
                 let* o' := find m in
                 let* more := obj_members d o' true in
                 loop ms' (users ++ more)
             end) l users = collect (members_of d) l users).
    { intros d l; induction l as [|x l IH]; intros users; cbn [collect]; [reflexivity|].
      unfold members_of at 1. destruct (find x) as [o'|]; cbn [bind]; [|reflexivity].
      destruct (obj_members d o' true) as [more|]; cbn [bind]; [|reflexivity]. apply IH. }
    destruct depth; cbn [Model_Netgroups.obj_members]; rewrite extract_eq; destruct (extract_loop field (values o TRIPLE)) as [own|e]; cbn [bind andb]; auto;
      rewrite V; unfold Spec_Netgroups.values; destruct (cid_get lower o MEMBER) as [[|m ms]|e]; cbn [bind]; auto.
    exact (L depth (m :: ms) own).
  Qed.

  Lemma collect_ok f ms own l : collect f ms own = Ok l ->
    (forall m, In m ms -> exists r, f m = Ok r) /\
    forall x, In x l <-> In x own \/ exists m r, In m ms /\ f m = Ok r /\ In x r.
  Proof.
    revert own; induction ms as [|m ms IH]; intros own H; cbn [collect] in H.
    - injection H as <-. split; [intros ? []|]. intros x; split; [auto|]. intros [?|(? & ? & [] & _)]; auto.
    - destruct (f m) as [r|] eqn:E; cbn [bind] in H; [|discriminate]. destruct (IH _ H) as [H1 H2]. split.
      + intros m' [<-|Hin]; eauto.
      + intros x. rewrite H2, in_app_iff. split.
        * intros [[Hx|Hx]|(m' & r' & Hin & Hf & Hx)]; auto; right; [exists m, r|exists m', r']; cbn; auto.
        * intros [Hx|(m' & r' & [<-|Hin] & Hf & Hx)]; auto; [rewrite E in Hf; injection Hf as <-; auto|].
          right; exists m', r'; auto.
  Qed.
  Lemma collect_total f ms own : (forall m, In m ms -> exists r, f m = Ok r) -> exists l, collect f ms own = Ok l.
  Proof.
    revert own; induction ms as [|m ms IH]; intros own H; cbn [collect]; [eauto|].
    destruct (H m (or_introl eq_refl)) as [r ->]; cbn [bind]. apply IH. intros m' Hin. apply H. now right.
  Qed.
  Lemma collect_err f ms own e : collect f ms own = Raise e -> exists m, In m ms /\ f m = Raise e.
  Proof.
    revert own; induction ms as [|m ms IH]; intros own; cbn [collect]; [discriminate|].
    destruct (f m) as [r|e'] eqn:E; cbn [bind].
    - intros H. destruct (IH _ H) as (m' & Hin & Hf). exists m'. split; [now right|auto].
    - intros H; injection H as ->. exists m. split; [now left|auto].
  Qed.

  (** [x] is listed directly in [o] *)
  Definition direct (o : attrs) (x : str) : Prop :=
    exists t h u d, In t (values o TRIPLE) /\ denotes t h u d /\ x = field (h, u, d).
  Definition valid (o : attrs) : Prop := forall t, In t (values o TRIPLE) -> exists h u d, denotes t h u d.

  Lemma extract_direct o own : extract_loop field (values o TRIPLE) = Ok own -> valid o /\ forall x, In x own <-> direct o x.
  Proof.
    intros H. apply extract_loop_ok in H. unfold valid, direct. revert H. generalize (values o TRIPLE) as vs. intros vs H.
    split.
    - induction H as [|t y vs l (h & u & d & Hd & _) H IH]; [intros ? []|]. intros t' [<-|Hin]; eauto.
    - intros x. induction H as [|t y vs l (h & u & d & Hd & Hy) H IH].
      + split; [intros []|intros (? & ? & ? & ? & [] & _)].
      + cbn [In]. rewrite IH. split.
        * intros [<-|(t' & h' & u' & d' & Hin & Hd' & Hx)]; [exists t, h, u, d|exists t', h', u', d']; auto.
        * intros (t' & h' & u' & d' & [<-|Hin] & Hd' & Hx).
          -- apply triple_match_spec in Hd, Hd'. left. congruence.
          -- right. exists t', h', u', d'. auto.
  Qed.

  Lemma edge_values g o g' : find g = Ok o -> (edge g g' <-> In g' (values o MEMBER)).
  Proof. intros Hf. unfold Spec_Netgroups.edge. rewrite Hf. split; [intros (o' & He & H); injection He as <-; auto|eauto]. Qed.

  Lemma reach_trans g g1 g2 : reach g g1 -> reach g1 g2 -> reach g g2.
  Proof. intros H1 H2; induction H2; [auto|]. eapply reach_step; eauto. Qed.
  Lemma reach_front g g1 g2 : edge g g1 -> reach g1 g2 -> reach g g2.
  Proof. intros H; apply reach_trans. eapply reach_step; [apply reach_refl|auto]. Qed.
  Lemma reach_inv g g2 : reach g g2 -> g2 = g \/ exists g1, edge g g1 /\ reach g1 g2.
  Proof.
    intros H; induction H as [|g1 g2 H IH He]; [auto|]. right. destruct IH as [->|(g0 & He0 & H0)].
    - exists g2. split; [auto|apply reach_refl].
    - exists g0. split; [auto|]. eapply reach_step; eauto.
  Qed.

  (** a successful lookup has visited everything *)
  Lemma members_of_ok depth : forall g l, members_of depth g = Ok l ->
    acyclic lower find g /\ complete lower find g /\
    forall x, In x l <-> exists g' o, reach g g' /\ find g' = Ok o /\ direct o x.
  Proof.
    induction depth as [|depth IH]; intros g l H; unfold members_of in H; destruct (find g) as [o|] eqn:Hf; cbn [bind] in H; try discriminate;
      rewrite obj_members_eq in H; destruct (extract_loop field (values o TRIPLE)) as [own|] eqn:Ho; cbn [bind] in H; try discriminate;
      destruct (extract_direct o own Ho) as [Hv Hown].
    - destruct (values o MEMBER) as [|m ms] eqn:Hm; [|discriminate]. injection H as <-.
      assert (Hno : forall g', ~ edge g g'). { intros g' He. apply (edge_values g o) in He; auto. now rewrite Hm in He. }
      assert (R : forall g', reach g g' -> g' = g). { intros g' Hr. apply reach_inv in Hr. destruct Hr as [->|(g1 & He & _)]; [auto|exfalso; eapply Hno; eauto]. }
      split; [constructor; intros g' He; exfalso; eapply Hno; eauto|]. split.
      + intros g' Hr. rewrite (R g' Hr). exists o. auto.
      + intros x. rewrite Hown. split; [intros Hx; exists g, o; repeat split; auto; apply reach_refl|].
        intros (g' & o' & Hr & Hf' & Hx). rewrite (R g' Hr) in Hf'. congruence.
    - assert (H' : collect (members_of depth) (values o MEMBER) own = Ok l).
      { destruct (values o MEMBER) as [|m ms]; exact H. }
      clear H. apply collect_ok in H'. destruct H' as [Hall Hl].
      split; [|split].
      + constructor. intros g' He. apply (edge_values g o) in He; auto. destruct (Hall g' He) as [r Hr]. now apply (IH g' r).
      + intros g' Hr. apply reach_inv in Hr. destruct Hr as [->|(g1 & He & Hr)]; [exists o; auto|].
        apply (edge_values g o) in He; auto. destruct (Hall g1 He) as [r Hr1]. destruct (IH g1 r Hr1) as (_ & Hc & _). now apply Hc.
      + intros x. rewrite Hl, Hown. split.
        * intros [Hx|(m & r & Hin & Hr & Hx)]; [exists g, o; repeat split; auto; apply reach_refl|].
          destruct (IH m r Hr) as (_ & _ & Hi). apply Hi in Hx. destruct Hx as (g' & o' & Hg & Hf' & Hx).
          exists g', o'. repeat split; auto. eapply reach_front; [apply (proj2 (edge_values g o m Hf)); exact Hin|exact Hg].
        * intros (g' & o' & Hg & Hf' & Hx). apply reach_inv in Hg. destruct Hg as [->|(g1 & He & Hg)]; [left; congruence|].
          apply (edge_values g o) in He; auto. destruct (Hall g1 He) as [r Hr1]. right. exists g1, r. split; [auto|]. split; [auto|].
          apply (IH g1 r Hr1). exists g', o'. auto.
  Qed.

  Lemma complete_edge g g' : complete lower find g -> edge g g' -> complete lower find g'.
  Proof. intros H He g2 Hr. apply H. eapply reach_front; eauto. Qed.

  Lemma uniform_depth (P : nat -> str -> Prop) ms :
    (forall m n n', P n m -> n <= n' -> P n' m) -> (forall m, In m ms -> exists n, P n m) -> exists n, forall m, In m ms -> P n m.
  Proof.
    intros Hmono; induction ms as [|m ms IH]; intros H; [exists 0; intros ? []|].
    destruct (H m (or_introl eq_refl)) as [n1 H1]. destruct IH as [n2 H2]; [intros m' Hin; apply H; now right|].
    exists (Nat.max n1 n2). intros m' [<-|Hin]; eapply Hmono; eauto; lia.
  Qed.

  Lemma members_of_total g : acyclic lower find g -> complete lower find g ->
    exists n, forall depth, n <= depth -> exists l, members_of depth g = Ok l.
  Proof.
    intros H; induction H as [g _ IH]. intros Hc.
    destruct (Hc g (reach_refl _ _ _)) as (o & Hf & Hv).
    destruct (extract_loop_total field (values o TRIPLE) Hv) as [own Ho].
    destruct (uniform_depth (fun n m => forall depth, n <= depth -> exists l, members_of depth m = Ok l) (values o MEMBER)) as [n Hn].
    - intros m n n' Hm Hle depth Hd. apply Hm. lia.
    - intros m Hin. apply (edge_values g o) in Hin; auto. apply IH; [exact Hin|]. eapply complete_edge; eauto.
    - exists (S n). intros [|depth] Hd; [lia|]. unfold members_of. rewrite Hf. cbn [bind]. rewrite obj_members_eq, Ho. cbn [bind].
      assert (C : exists l, collect (members_of depth) (values o MEMBER) own = Ok l).
      { apply collect_total. intros m Hin. apply Hn; [exact Hin|lia]. }
      destruct (values o MEMBER); [eauto|exact C].
  Qed.

  Lemma members_of_err depth : forall g e, complete lower find g -> members_of depth g = Raise e -> e = RecursionError.
  Proof.
    induction depth as [|depth IH]; intros g e Hc H; destruct (Hc g (reach_refl _ _ _)) as (o & Hf & Hv); unfold members_of in H; rewrite Hf in H; cbn [bind] in H;
      rewrite obj_members_eq in H; destruct (extract_loop_total field (values o TRIPLE) Hv) as [own Ho]; rewrite Ho in H; cbn [bind] in H.
    - destruct (values o MEMBER); [discriminate|]. congruence.
    - assert (H' : collect (members_of depth) (values o MEMBER) own = Raise e) by (destruct (values o MEMBER); [discriminate|exact H]).
      apply collect_err in H'. destruct H' as (m & Hin & Hm). eapply IH; [|exact Hm]. eapply complete_edge; [exact Hc|]. now apply (edge_values g o).
  Qed.

  (** a cycle *)
  Lemma no_cycle g g' : acyclic lower find g -> reach g g' -> ~ (exists g1, edge g' g1 /\ reach g1 g').
  Proof.
    intros Ha Hr. assert (Ha' : acyclic lower find g').
    { revert Hr. induction Ha as [g Hg IH]. intros Hr. apply reach_inv in Hr. destruct Hr as [->|(g1 & He & Hr)]; [now constructor|eapply IH; eauto]. }
    clear Ha Hr. induction Ha' as [g' _ IH]. intros (g1 & He & Hr). apply (IH g1 He).
    apply reach_inv in Hr. destruct Hr as [->|(g2 & He2 & Hr2)]; [exists g1; split; [auto|apply reach_refl]|].
    exists g2. split; [auto|]. eapply reach_step; eauto.
  Qed.

  Lemma plain_eq depth o : obj_members depth o false = extract_loop field (values o TRIPLE).
  Proof. destruct depth; cbn [Model_Netgroups.obj_members andb]; rewrite extract_eq; destruct (extract_loop field (values o TRIPLE)); reflexivity. Qed.
End Lookup.
