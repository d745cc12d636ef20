(** * C49, C68: SASL bind and the downgrade check *)
From Verif Require Import PyBase Model_Sasl Spec_Sasl Proofs_Sasl.

(** ** C49 *)
(** The check reads the list again and compares the two lists as sets: [checked] lists the four
    outcomes; the list just read is the one remembered from then on. *)
Theorem C49_recheck : forall E c first, unbound c = false -> mechs c = Some first ->
  exists r new kept, checked E (fatal c) (log c) first r new kept /\
    recheck_sasl_mechs E c = (r, mk_conn false (bound c) kept (default_mech c) (fatal c) (client c) (log c ++ new)).
Proof. exact recheck_spec. Qed.
(** With nothing to compare against, nothing is read. *)
Theorem C49_recheck_first : forall E c, mechs c = None -> recheck_sasl_mechs E c = (Raise LDAPError, c).
Proof. intros E c H. unfold recheck_sasl_mechs. rewrite H. reflexivity. Qed.
(** Order and repetition in the lists play no role, anything else does. *)
Theorem C49_compare : forall a b, same_set a b = true <-> same_members a b.
Proof. exact same_set_spec. Qed.

Lemma bind_spec : forall E fuel c mech r c', unbound c = false -> bound c = false -> e_ctrl_kwds E = Ok tt ->
  sasl_bind E fuel c mech = Some (r, c') ->
  (exists x, mechs c = None /\ e_mechs E (log c ++ [ReadMechs]) = Raise x /\ r = Raise x /\
     c' = mk_conn false false None (default_mech c) (fatal c) (client c) (log c ++ [ReadMechs])) \/
  exists pre first, listed E c pre first /\
    ((exists m0, wanted c mech = Some m0 /\ ~ In m0 first /\ r = Raise LDAPSupportError /\
        c' = mk_conn false false (Some first) (default_mech c) (fatal c) (client c) (log c ++ pre)) \/
     ((forall m0, wanted c mech = Some m0 -> In m0 first) /\
      exists ch, e_choose E (match wanted c mech with Some m0 => [m0] | None => first end) = ch /\
      match ch with
      | Raise x => r = Raise x /\ c' = mk_conn false false (Some first) (default_mech c) (fatal c) (Some None) (log c ++ pre)
      | Ok None => r = Raise LDAPSASLError /\ c' = mk_conn false false (Some first) (default_mech c) (fatal c) (Some None) (log c ++ pre)
      | Ok (Some m) => exists new b kept,
          exchanged E (fatal c) m (log c ++ pre) first r new b kept /\
          c' = mk_conn false b kept (default_mech c) (fatal c) (Some (Some m)) (log c ++ pre ++ new)
      end)).
Proof.
  intros E fuel c mech r c' Hu Hb Hck H. unfold sasl_bind in H. rewrite Hu, Hb, Hck in H.
  destruct (get_sasl_mechs E c) as [g c1] eqn:Hg. pose proof (get_spec E c Hu _ _ Hg) as HG.
  assert (HG' : (exists x, g = Raise x /\ mechs c = None /\ e_mechs E (log c ++ [ReadMechs]) = Raise x /\
                  c1 = mk_conn false false None (default_mech c) (fatal c) (client c) (log c ++ [ReadMechs])) \/
                exists pre first, g = Ok first /\ listed E c pre first /\
                  c1 = mk_conn false false (Some first) (default_mech c) (fatal c) (client c) (log c ++ pre)).
  { destruct HG as [(l & Hm & -> & ->)|(Hm & Hr & Hc1)].
    - right. exists [], l. split; [reflexivity|]. split; [left; split; [exact Hm|reflexivity]|].
      rewrite app_nil_r. destruct c as [u b ms d f k lg]. cbn in *. congruence.
    - rewrite Hb in Hc1. destruct g as [l|x].
      + right. exists [ReadMechs], l. split; [reflexivity|]. split; [|exact Hc1].
        right. split; [exact Hm|]. split; [reflexivity|]. symmetry. exact Hr.
      + left. exists x. split; [reflexivity|]. split; [exact Hm|]. split; [symmetry; exact Hr|exact Hc1]. }
  clear HG. destruct HG' as [(x & -> & Hm & Hx & ->)|(pre & first & -> & HL & ->)].
  - left. injection H as <- <-. exists x. split; [exact Hm|]. split; [exact Hx|]. split; reflexivity.
  - right. exists pre, first. split; [exact HL|].
    cbn [default_mech] in H. change (match mech with Some m => Some m | None => default_mech c end) with (wanted c mech) in H.
    assert (HX : forall ms, match e_choose E ms with
               | Ok m => exchange E fuel (set_client (mk_conn false false (Some first) (default_mech c) (fatal c) (client c) (log c ++ pre)) (Some m)) [] None
               | Raise x => Some (Raise x, set_client (mk_conn false false (Some first) (default_mech c) (fatal c) (client c) (log c ++ pre)) (Some None))
               end = Some (r, c') ->
               exists ch, e_choose E ms = ch /\
               match ch with
               | Raise x => r = Raise x /\ c' = mk_conn false false (Some first) (default_mech c) (fatal c) (Some None) (log c ++ pre)
               | Ok None => r = Raise LDAPSASLError /\ c' = mk_conn false false (Some first) (default_mech c) (fatal c) (Some None) (log c ++ pre)
               | Ok (Some m) => exists new b kept,
                   exchanged E (fatal c) m (log c ++ pre) first r new b kept /\
                   c' = mk_conn false b kept (default_mech c) (fatal c) (Some (Some m)) (log c ++ pre ++ new)
               end).
    { intros ms HH. exists (e_choose E ms). split; [reflexivity|].
      destruct (e_choose E ms) as [[m|]|x].
      - apply exchange_spec with (m := m) (first := first) in HH; try reflexivity.
        destruct HH as (new & b & kept & HR & Hc). exists new, b, kept. split.
        + apply rest_exchanged in HR. exact HR.
        + rewrite app_assoc. exact Hc.
      - destruct fuel as [|fuel]; [discriminate|]. cbn in HH. injection HH as <- <-. split; reflexivity.
      - injection HH as <- <-. split; reflexivity. }
    destruct (wanted c mech) as [m0|] eqn:Hw.
    + destruct (smem m0 first) eqn:Hin; cbn [negb] in H.
      * right. apply smem_In in Hin. split; [intros m1 Hm1; injection Hm1 as <-; exact Hin|]. apply HX, H.
      * left. injection H as <- <-. exists m0. split; [reflexivity|]. split; [apply smem_nIn, Hin|]. split; reflexivity.
    + right. split; [discriminate|]. apply HX, H.
Qed.

(** A bind that succeeds read the list again right after the server's success reply and found the same mechanisms as before, or the check is not
    fatal and a warning was given. *)
Theorem C49_bind : forall E fuel c mech c', sasl_bind E fuel c mech = Some (Ok tt, c') ->
  exists pre first now before after, listed E c pre first /\ mechs c' = Some now /\ bound c' = true /\
    log c' = before ++ ReadMechs :: after /\ e_reply E before = Ok Success /\ e_mechs E (before ++ [ReadMechs]) = Ok now /\
    ((same_members first now /\ after = []) \/ (fatal c = false /\ ~ same_members first now /\ after = [Warning])).
Proof.
  intros E fuel c mech c' H.
  assert (Hu : unbound c = false).
  { unfold sasl_bind in H. destruct (unbound c); [discriminate|reflexivity]. }
  assert (Hb : bound c = false).
  { unfold sasl_bind in H. rewrite Hu in H. destruct (bound c); [discriminate|reflexivity]. }
  assert (Hc : e_ctrl_kwds E = Ok tt).
  { unfold sasl_bind in H. rewrite Hu, Hb in H. destruct (e_ctrl_kwds E) as [[]|]; [reflexivity|discriminate]. }
  pose proof (bind_spec _ _ _ _ _ _ Hu Hb Hc H) as HS.
  destruct HS as [(x & _ & _ & HH & _)|(pre & first & HL & [(m0 & _ & _ & HH & _)|(_ & ch & Hch & HS)])]; try discriminate.
  exists pre, first. destruct ch as [[m|]|x]; [|destruct HS as [HS _]; discriminate|destruct HS as [HS _]; discriminate].
  destruct HS as (new & b & kept & HS & ->). cbn [mechs bound fatal log].
  remember (Ok tt) as r eqn:Hr.
  destruct HS as [reqs s x D R|reqs s D R|reqs s ch' x D R P|reqs s new r kept D R C]; try discriminate.
  destruct C as [x Hq|l Hq Hs|l Hq Hs Hf|l Hq Hs Hf]; try discriminate.
  - exists l, ((log c ++ pre) ++ reqs), []. split; [exact HL|]. split; [reflexivity|]. split; [reflexivity|].
    split; [rewrite <- !app_assoc; reflexivity|]. split; [exact R|]. split; [exact Hq|]. left. split; [exact Hs|reflexivity].
  - exists l, ((log c ++ pre) ++ reqs), [Warning]. split; [exact HL|]. split; [reflexivity|]. split; [reflexivity|].
    split; [rewrite <- !app_assoc; reflexivity|]. split; [exact R|]. split; [exact Hq|]. right.
    split; [exact Hf|]. split; [exact Hs|reflexivity].
Qed.
(** Finding: a detected downgrade raises, but the connection is bound by then, and the new list
    has replaced the one it was compared with: checking again finds nothing. *)
Theorem C49_forgotten_refuted : forall E c first l, unbound c = false -> mechs c = Some first -> fatal c = true ->
  e_mechs E (log c ++ [ReadMechs]) = Ok l -> ~ same_members first l ->
  (forall before, e_mechs E before = Ok l) ->
  exists c', recheck_sasl_mechs E c = (Raise LDAPError, c') /\ bound c' = bound c /\ unbound c' = false /\ mechs c' = Some l /\
  fst (recheck_sasl_mechs E c') = Ok tt.
Proof.
  intros E c first l Hu Hm Hf Hq Hs Hall.
  destruct (recheck_spec E c first Hu Hm) as (r & new & kept & HC & ->).
  assert (r = Raise LDAPError /\ kept = Some l) as [-> ->].
  { destruct HC as [x Hq'|l' Hq' Hs'|l' Hq' Hs' Hf'|l' Hq' Hs' Hf']; try congruence.
    rewrite Hq in Hq'. injection Hq' as <-. split; reflexivity. }
  eexists. split; [reflexivity|]. split; [reflexivity|]. split; [reflexivity|]. split; [reflexivity|].
  match goal with |- fst (recheck_sasl_mechs E ?c2) = _ => destruct (recheck_spec E c2 l eq_refl eq_refl) as (r2 & new2 & kept2 & HC2 & ->) end.
  cbn [fst]. destruct HC2 as [x Hq'|l' Hq' Hs'|l' Hq' Hs' Hf'|l' Hq' Hs' Hf']; rewrite Hall in Hq'.
  - discriminate.
  - reflexivity.
  - injection Hq' as <-. exfalso. apply Hs'. intro; reflexivity.
  - reflexivity.
Qed.

(** The list is read from the server once, and again whenever the root DSE is read again or the mechanisms are checked again;
    on an unbound connection nothing is read: what is known is still told, the rest raises. *)
Theorem C49_listed : forall E c,
  (forall l, mechs c = Some l -> get_sasl_mechs E c = (Ok l, c)) /\
  (mechs c = None -> unbound c = true -> get_sasl_mechs E c = (Raise ConnectionUnbound, c)) /\
  (mechs c = None -> unbound c = false ->
     (forall l, e_mechs E (log c ++ [ReadMechs]) = Ok l -> exists c', get_sasl_mechs E c = (Ok l, c') /\
        mechs c' = Some l /\ log c' = log c ++ [ReadMechs] /\ bound c' = bound c /\ unbound c' = false) /\
     (forall x, e_mechs E (log c ++ [ReadMechs]) = Raise x -> exists c', get_sasl_mechs E c = (Raise x, c') /\
        mechs c' = None /\ log c' = log c ++ [ReadMechs] /\ bound c' = bound c /\ unbound c' = false)).
Proof.
  intros E c. unfold get_sasl_mechs. split; [now intros l ->|]. split; [now intros -> ->|].
  intros Hm Hu. rewrite Hm, Hu. cbn [emit log]. split; intros y ->; eexists; (split; [reflexivity|]); cbn; auto.
Qed.
Theorem C49_refreshed : forall E c,
  (unbound c = true -> refresh_root_dse E c = (Raise ConnectionUnbound, c)) /\
  (unbound c = false -> forall l, e_mechs E (log c ++ [ReadMechs]) = Ok l -> exists c', refresh_root_dse E c = (Ok tt, c') /\
     mechs c' = Some l /\ log c' = log c ++ [ReadMechs] /\ bound c' = bound c /\ unbound c' = false /\ get_sasl_mechs E c' = (Ok l, c')) /\
  (unbound c = false -> forall x, e_mechs E (log c ++ [ReadMechs]) = Raise x -> exists c', refresh_root_dse E c = (Raise x, c') /\
     mechs c' = mechs c /\ log c' = log c ++ [ReadMechs] /\ bound c' = bound c /\ unbound c' = false).
Proof.
  intros E c. unfold refresh_root_dse. split; [now intros ->|]. split; intros Hu; rewrite Hu; intros y Hy; cbn [emit log]; rewrite Hy; eexists;
  (split; [reflexivity|]); cbn; repeat split; auto.
Qed.

(** ** C68 *)
(** A connection that is closed, already bound or given bad control keywords sends nothing. *)
Theorem C68_refused : forall E fuel c mech,
  (unbound c = true -> sasl_bind E fuel c mech = Some (Raise ConnectionUnbound, c)) /\
  (unbound c = false -> bound c = true -> sasl_bind E fuel c mech = Some (Raise ConnectionAlreadyBound, c)) /\
  (forall x, unbound c = false -> bound c = false -> e_ctrl_kwds E = Raise x -> sasl_bind E fuel c mech = Some (Raise x, c)).
Proof.
  intros E fuel c mech. unfold sasl_bind. split; [|split].
  - intros ->. reflexivity.
  - intros -> ->. reflexivity.
  - intros x -> -> ->. reflexivity.
Qed.
(** Otherwise: everything a bind can do. *)
Theorem C68_bind : forall E fuel c mech r c', unbound c = false -> bound c = false -> e_ctrl_kwds E = Ok tt ->
  sasl_bind E fuel c mech = Some (r, c') ->
  (exists x, mechs c = None /\ e_mechs E (log c ++ [ReadMechs]) = Raise x /\ r = Raise x /\
     c' = mk_conn false false None (default_mech c) (fatal c) (client c) (log c ++ [ReadMechs])) \/
  exists pre first, listed E c pre first /\
    ((exists m0, wanted c mech = Some m0 /\ ~ In m0 first /\ r = Raise LDAPSupportError /\
        c' = mk_conn false false (Some first) (default_mech c) (fatal c) (client c) (log c ++ pre)) \/
     ((forall m0, wanted c mech = Some m0 -> In m0 first) /\
      exists ch, e_choose E (match wanted c mech with Some m0 => [m0] | None => first end) = ch /\
      match ch with
      | Raise x => r = Raise x /\ c' = mk_conn false false (Some first) (default_mech c) (fatal c) (Some None) (log c ++ pre)
      | Ok None => r = Raise LDAPSASLError /\ c' = mk_conn false false (Some first) (default_mech c) (fatal c) (Some None) (log c ++ pre)
      | Ok (Some m) => exists new b kept,
          exchanged E (fatal c) m (log c ++ pre) first r new b kept /\
          c' = mk_conn false b kept (default_mech c) (fatal c) (Some (Some m)) (log c ++ pre ++ new)
      end)).
Proof. exact bind_spec. Qed.

Lemma dialogue_mech E m before seen creds reqs seen' : dialogue E m before seen creds reqs seen' ->
  forall e, In e reqs -> exists cr, e = BindRequest m cr.
Proof.
  induction 1 as [|before seen creds ch next reqs seen' H1 H2 H3 IH]; intros e He.
  - destruct He as [<-|[]]. exists creds. reflexivity.
  - destruct He as [<-|He]; [exists creds; reflexivity|]. apply IH, He.
Qed.
Lemma checked_no_bind E f before first r new kept : checked E f before first r new kept -> no_bind new.
Proof.
  intros H m cr HI. destruct H; cbn in HI; destruct HI as [HI|HI]; try discriminate; try contradiction.
  destruct HI as [HI|[]]. discriminate.
Qed.
(** Bind requests carry one mechanism, which the server listed and which is the one asked for;
    the connection becomes bound exactly when the server says success. *)
Theorem C68_mechanism : forall E fuel c mech r c' new0, honest_choice E ->
  sasl_bind E fuel c mech = Some (r, c') -> log c' = log c ++ new0 ->
  forall m cr, In (BindRequest m cr) new0 ->
  exists pre first, listed E c pre first /\ In m first /\
    (forall m0, wanted c mech = Some m0 -> m = m0) /\
    (forall m' cr', In (BindRequest m' cr') new0 -> m' = m).
Proof.
  intros E fuel c mech r c' new0 HH H Hlog m cr HI.
  assert (Hsame : forall x, Some (x, c) = Some (r, c') -> False).
  { intros x Hx. injection Hx as _ <-. rewrite <- (app_nil_r (log c)) in Hlog at 1. apply app_inv_head in Hlog. subst. destruct HI. }
  assert (Hu : unbound c = false).
  { unfold sasl_bind in H. destruct (unbound c); [exfalso; eapply Hsame; eauto|reflexivity]. }
  assert (Hb : bound c = false).
  { unfold sasl_bind in H. rewrite Hu in H. destruct (bound c); [exfalso; eapply Hsame; eauto|reflexivity]. }
  assert (Hc : e_ctrl_kwds E = Ok tt).
  { unfold sasl_bind in H. rewrite Hu, Hb in H. destruct (e_ctrl_kwds E) as [[]|]; [reflexivity|exfalso; eapply Hsame; eauto]. }
  pose proof (bind_spec _ _ _ _ _ _ Hu Hb Hc H) as HS.
  assert (Hpre : forall pre first, listed E c pre first -> ~ In (BindRequest m cr) pre).
  { intros pre first [[_ ->]|(_ & -> & _)] HI'; [destruct HI'|destruct HI' as [HI'|[]]; discriminate]. }
  destruct HS as [(x & _ & _ & _ & ->)|(pre & first & HL & [(m0 & _ & _ & _ & ->)|(Hin & ch & Hch & HS)])].
  - cbn [log] in Hlog. apply app_inv_head in Hlog. subst new0. destruct HI as [HI|[]]. discriminate.
  - cbn [log] in Hlog. apply app_inv_head in Hlog. subst new0. exfalso. eapply Hpre; eauto.
  - exists pre, first. split; [exact HL|].
    destruct ch as [[m1|]|x].
    2:{ destruct HS as [_ ->]. cbn [log] in Hlog. apply app_inv_head in Hlog. subst new0. exfalso. eapply Hpre; eauto. }
    2:{ destruct HS as [_ ->]. cbn [log] in Hlog. apply app_inv_head in Hlog. subst new0. exfalso. eapply Hpre; eauto. }
    destruct HS as (new & b & kept & HS & ->). cbn [log] in Hlog. apply app_inv_head in Hlog. subst new0.
    assert (Hall : forall m' cr', In (BindRequest m' cr') (pre ++ new) -> m' = m1).
    { intros m' cr' HI'. apply in_app_iff in HI'. destruct HI' as [HI'|HI'].
      - destruct HL as [[_ ->]|(_ & -> & _)]; [destruct HI'|destruct HI' as [HI'|[]]; discriminate].
      - assert (HD : forall reqs seen, dialogue E m1 (log c ++ pre) [] None reqs seen -> In (BindRequest m' cr') reqs -> m' = m1).
        { intros reqs seen HD HI2. destruct (dialogue_mech _ _ _ _ _ _ _ HD _ HI2) as (cr2 & He). congruence. }
        destruct HS as [reqs s x D R|reqs s D R|reqs s ch' x D R P|reqs s new r kept D R C]; try (eapply HD; eauto; fail).
        apply in_app_iff in HI'. destruct HI' as [HI'|HI']; [eapply HD; eauto|].
        exfalso. eapply checked_no_bind; eauto. }
    assert (m = m1) as -> by (eapply Hall; eauto).
    apply HH in Hch. destruct (wanted c mech) as [m0|].
    + destruct Hch as [<-|[]]. split; [apply Hin; reflexivity|]. split; [intros m2 Hm2; congruence|exact Hall].
    + split; [exact Hch|]. split; [discriminate|exact Hall].
Qed.
(** The connection is bound afterwards exactly when the last reply was success. *)
Theorem C68_bound : forall E fuel c mech r c', unbound c = false -> bound c = false -> sasl_bind E fuel c mech = Some (r, c') ->
  unbound c' = false /\
  (bound c' = true <-> exists before mid after,
     log c' = before ++ BindRequest (fst mid) (snd mid) :: after /\ no_bind after /\ List.length (log c) <= List.length before /\
     e_reply E (before ++ [BindRequest (fst mid) (snd mid)]) = Ok Success).
Proof.
  intros E fuel c mech r c' Hu Hb H.
  assert (HN : forall pre2, (forall m cr, ~ In (BindRequest m cr) pre2) -> log c' = log c ++ pre2 ->
     ~ exists before mid after, log c' = before ++ BindRequest (fst mid) (snd mid) :: after /\ no_bind after /\
       List.length (log c) <= List.length before /\
       e_reply E (before ++ [BindRequest (fst mid) (snd mid)]) = Ok Success).
  { intros pre2 Hp Hl (before & mid & after & Hl2 & _ & Hle & _). rewrite Hl in Hl2.
    apply (f_equal (skipn (List.length (log c)))) in Hl2.
    rewrite skipn_app, skipn_all, Nat.sub_diag in Hl2. cbn [skipn app] in Hl2.
    rewrite skipn_app in Hl2. replace (List.length (log c) - List.length before) with 0 in Hl2 by lia.
    cbn [skipn] in Hl2. eapply Hp with (m := fst mid) (cr := snd mid). rewrite Hl2. apply in_app_iff. right. left. reflexivity. }
  destruct (e_ctrl_kwds E) as [[]|x0] eqn:Hc.
  2:{ unfold sasl_bind in H. rewrite Hu, Hb, Hc in H. injection H as <- <-. split; [exact Hu|]. split.
      - intro HH. congruence.
      - intro HH. exfalso. revert HH. apply (HN []); [intros m cr []|]. rewrite app_nil_r. reflexivity. }
  pose proof (bind_spec _ _ _ _ _ _ Hu Hb Hc H) as HS.
  assert (Hpre : forall pre first, listed E c pre first -> forall m cr, ~ In (BindRequest m cr) pre).
  { intros pre first [[_ ->]|(_ & -> & _)] m cr HI'; [destruct HI'|destruct HI' as [HI'|[]]; discriminate]. }
  assert (HF : forall pre2 b ms d f k, (forall m cr, ~ In (BindRequest m cr) pre2) -> c' = mk_conn false b ms d f k (log c ++ pre2) -> b = false ->
     unbound c' = false /\ (bound c' = true <-> exists before mid after,
     log c' = before ++ BindRequest (fst mid) (snd mid) :: after /\ no_bind after /\ List.length (log c) <= List.length before /\
     e_reply E (before ++ [BindRequest (fst mid) (snd mid)]) = Ok Success)).
  { intros pre2 b ms d f k Hp Hcc ->. split; [rewrite Hcc; reflexivity|]. split.
    - rewrite Hcc. discriminate.
    - intro HH. exfalso. revert HH. apply (HN pre2 Hp). rewrite Hcc. reflexivity. }
  destruct HS as [(x & _ & _ & _ & Hcc)|(pre & first & HL & [(m0 & _ & _ & _ & Hcc)|(Hin & ch & Hch & HS)])].
  - eapply HF; [|exact Hcc|reflexivity]. intros m cr [HI|[]]. discriminate.
  - eapply HF; [|exact Hcc|reflexivity]. eapply Hpre, HL.
  - destruct ch as [[m1|]|x].
    2:{ destruct HS as [_ Hcc]. eapply HF; [|exact Hcc|reflexivity]. eapply Hpre, HL. }
    2:{ destruct HS as [_ Hcc]. eapply HF; [|exact Hcc|reflexivity]. eapply Hpre, HL. }
    destruct HS as (new & b & kept & HS & ->). cbn [unbound bound log] in *. split; [reflexivity|].
    assert (HD : forall before seen creds reqs seen', dialogue E m1 before seen creds reqs seen' ->
       exists reqs0 cr, reqs = reqs0 ++ [BindRequest m1 cr]).
    { induction 1 as [b0 s0 c0|b0 s0 c0 ch0 next reqs seen' H1 H2 H3 (reqs0 & cr & ->)].
      - exists [], c0. reflexivity.
      - exists (BindRequest m1 c0 :: reqs0), cr. reflexivity. }
    assert (HB : forall reqs seen, dialogue E m1 (log c ++ pre) [] None reqs seen -> new = reqs ->
       e_reply E ((log c ++ pre) ++ reqs) <> Ok Success -> ~ exists before mid after,
       log c ++ pre ++ new = before ++ BindRequest (fst mid) (snd mid) :: after /\ no_bind after /\ List.length (log c) <= List.length before /\
       e_reply E (before ++ [BindRequest (fst mid) (snd mid)]) = Ok Success).
    { intros reqs seen HD1 -> Hne (before & mid & after & Hl & Hnb & _ & Hs). apply Hne.
      destruct (HD _ _ _ _ _ HD1) as (reqs0 & cr & ->).
      destruct after as [|a after] using rev_ind.
      - rewrite app_assoc in Hl. rewrite Hl. exact Hs.
      - clear IHafter. exfalso.
        assert (Hl' : (log c ++ pre ++ reqs0) ++ [BindRequest m1 cr] = (before ++ BindRequest (fst mid) (snd mid) :: after) ++ [a])
          by (rewrite <- !app_assoc; cbn [app]; exact Hl).
        apply app_inj_tail in Hl'. destruct Hl' as [_ <-].
        apply (Hnb m1 cr). apply in_app_iff. right. left. reflexivity. }
    destruct HS as [reqs s x D R|reqs s D R|reqs s ch' x D R P|reqs s new r kept D R C].
    + split; [discriminate|]. intro HH. exfalso. revert HH. apply HB with (reqs := reqs) (seen := s); auto. rewrite R. discriminate.
    + split; [discriminate|]. intro HH. exfalso. revert HH. apply HB with (reqs := reqs) (seen := s); auto. rewrite R. discriminate.
    + split; [discriminate|]. intro HH. exfalso. revert HH. apply HB with (reqs := reqs) (seen := s); auto. rewrite R. discriminate.
    + split; [intros _|reflexivity]. destruct (HD _ _ _ _ _ D) as (reqs0 & cr & ->).
      exists (log c ++ pre ++ reqs0), (m1, cr), new. cbn [fst snd]. split; [rewrite <- !app_assoc; reflexivity|].
      split; [eapply checked_no_bind, C|]. split; [rewrite app_length; lia|].
      rewrite <- R. rewrite <- !app_assoc. reflexivity.
Qed.
(** The loop goes on only as long as the server sends challenges; extra room changes nothing. *)
Theorem C68_unfinished : forall E fuel c mech, sasl_bind E fuel c mech = None ->
  exists before reqs, List.length reqs = fuel /\
    forall k, k < fuel -> exists ch, e_reply E (before ++ firstn (S k) reqs) = Ok (InProgress ch).
Proof.
  intros E fuel c mech H. unfold sasl_bind in H.
  destruct (unbound c) eqn:Hu; [discriminate|]. destruct (bound c); [discriminate|]. destruct (e_ctrl_kwds E); [|discriminate].
  destruct (get_sasl_mechs E c) as [g c1] eqn:Hg. destruct g as [l|]; [|discriminate].
  assert (Hu1 : unbound c1 = false).
  { destruct (get_spec E c Hu _ _ Hg) as [(l' & _ & _ & ->)|(_ & _ & ->)]; [exact Hu|reflexivity]. }
  match type of H with match ?d with _ => _ end = _ => destruct d as [l'|]; [|discriminate] end.
  destruct (e_choose E l') as [[m|]|]; [| |discriminate].
  - apply exchange_unfinished with (m := m) in H; [|reflexivity|exact Hu1]. destruct H as (reqs & Hl & HR).
    exists (log c1), reqs. split; [exact Hl|exact HR].
  - destruct fuel as [|fuel]; [|discriminate]. exists [], []. split; [reflexivity|lia].
Qed.
Theorem C68_more : forall E fuel c mech o k, sasl_bind E fuel c mech = Some o -> sasl_bind E (fuel + k) c mech = Some o.
Proof.
  intros E fuel c mech o k H. unfold sasl_bind in *.
  destruct (unbound c); [exact H|]. destruct (bound c); [exact H|]. destruct (e_ctrl_kwds E); [|exact H].
  destruct (get_sasl_mechs E c) as [g c1]. destruct g as [l|]; [|exact H].
  match type of H with match ?d with _ => _ end = _ => destruct d as [l'|]; [|exact H] end.
  destruct (e_choose E l') as [m|]; [|exact H]. apply exchange_more, H.
Qed.

(** ** The hypotheses are met *)
Definition ex_env (later : list str) : env := mk_env
  (fun evs => if existsb (fun e => match e with BindRequest _ _ => true | _ => false end) evs then Ok later else Ok [lit "PLAIN"; lit "DIGEST-MD5"])
  (fun evs => match List.length evs with 2 => Ok (InProgress (lit "nonce")) | _ => Ok Success end)
  (fun l => match l with m :: _ => Ok (Some m) | [] => Raise (OtherExn 1) end)
  (fun m cs => Ok (Some (lit "answer")))
  (Ok tt) (Ok tt).
Definition ex_conn (f : bool) : conn := mk_conn false false None None f None [].
Example C68_nonvacuous : honest_choice (ex_env [lit "DIGEST-MD5"; lit "PLAIN"]) /\
  sasl_bind (ex_env [lit "DIGEST-MD5"; lit "PLAIN"]) 5 (ex_conn true) (Some (lit "DIGEST-MD5")) =
    Some (Ok tt, mk_conn false true (Some [lit "DIGEST-MD5"; lit "PLAIN"]) None true (Some (Some (lit "DIGEST-MD5")))
      [ReadMechs; BindRequest (lit "DIGEST-MD5") None; BindRequest (lit "DIGEST-MD5") (Some (lit "answer")); ReadMechs]) /\
  sasl_bind (ex_env []) 5 (ex_conn true) (Some (lit "GSSAPI")) =
    Some (Raise LDAPSupportError, mk_conn false false (Some [lit "PLAIN"; lit "DIGEST-MD5"]) None true None [ReadMechs]).
Proof.
  split; [|split; vm_compute; reflexivity].
  intros l m H. cbn in H. destruct l as [|x l]; [discriminate|]. injection H as <-. left. reflexivity.
Qed.
Example C49_nonvacuous :
  (exists c', sasl_bind (ex_env [lit "PLAIN"]) 5 (ex_conn true) None = Some (Raise LDAPError, c') /\ bound c' = true /\
     mechs c' = Some [lit "PLAIN"]) /\
  (exists c', sasl_bind (ex_env [lit "PLAIN"]) 5 (ex_conn false) None = Some (Ok tt, c') /\ In Warning (log c')) /\
  (exists c', sasl_bind (ex_env [lit "DIGEST-MD5"; lit "PLAIN"; lit "PLAIN"]) 5 (ex_conn true) None = Some (Ok tt, c') /\ ~ In Warning (log c')).
Proof.
  split; [|split].
  - eexists. split; [vm_compute; reflexivity|split; reflexivity].
  - eexists. split; [vm_compute; reflexivity|]. cbn. tauto.
  - eexists. split; [vm_compute; reflexivity|]. cbn. intros [H|[H|[H|[H|[]]]]]; discriminate.
Qed.

Print Assumptions C49_recheck.
Print Assumptions C49_recheck_first.
Print Assumptions C49_compare.
Print Assumptions C49_bind.
Print Assumptions C49_forgotten_refuted.
Print Assumptions C68_refused.
Print Assumptions C68_bind.
Print Assumptions C68_mechanism.
Print Assumptions C68_bound.
Print Assumptions C68_unfinished.
Print Assumptions C68_more.
Print Assumptions C49_listed.
Print Assumptions C49_refreshed.
