(** * Proofs about controls *)
From Verif Require Import PyBase Model_Controls Spec_Controls.

Lemma ddel_app_notin {V} (a b : list (str * V)) k : ~ In k (map fst a) -> ddel (a ++ b) k = a ++ ddel b k.
Proof.
  induction a as [|[k' v'] a IH]; intros H; [reflexivity|]. cbn [app ddel].
  destruct (str_eqb_spec k' k) as [->|Hn]; [exfalso; apply H; now left|].
  rewrite IH; [reflexivity|]. intros Hc; apply H; now right.
Qed.

Lemma prepare_wire reg dflt kwd v c p :
  dget (r_kw reg) kwd = Some c -> c_prepare c (value_of v) = Ok p ->
  exists w, prepare c (value_of v) (criticality dflt v) = Ok w /\ wire_for reg dflt (kwd, v) w.
Proof.
  intros Hc Hp. unfold prepare. rewrite Hp. cbn [bind]. eexists. split; [reflexivity|].
  exists c, p. cbn [fst snd wc_oid wc_crit wc_value]. repeat split; auto.
  destruct p; reflexivity.
Qed.

Definition offending reg method supported (dflt : bool) (kv : str * kwval) (e : exn) : Prop :=
  exists c, dget (r_kw reg) (fst kv) = Some c /\
    ((c_allows c method = false /\ e = LDAPError) \/
     (c_allows c method = true /\ criticality dflt (snd kv) = true /\ ~ In (c_request_oid c) supported /\ e = LDAPSupportError) \/
     (c_allows c method = true /\ (criticality dflt (snd kv) = true -> In (c_request_oid c) supported) /\
      c_prepare c (value_of (snd kv)) = Raise e)).

Lemma process_loop_spec reg method supported dflt todo pre acc :
  NoDup (map fst (pre ++ todo)) -> 
  match process_loop reg method supported dflt todo (pre ++ todo) acc with
  | Ok (cs, rest) =>
      Forall (admissible reg method supported dflt) todo /\
      rest = pre ++ others_of reg todo /\
      exists ws, cs = acc ++ ws /\ Forall2 (wire_for reg dflt) (controls_of reg todo) ws
  | Raise e => exists a kv b, todo = a ++ kv :: b /\ Forall (admissible reg method supported dflt) a /\
                 offending reg method supported dflt kv e
  end.
Proof.
  revert pre acc; induction todo as [|[kwd v] todo IH]; intros pre acc Hnd; cbn [process_loop].
  - repeat split; [constructor|]. exists []. rewrite app_nil_r. split; [reflexivity|constructor].
  - assert (Hassoc : pre ++ (kwd, v) :: todo = (pre ++ [(kwd, v)]) ++ todo) by (now rewrite <- app_assoc).
    destruct (dget (r_kw reg) kwd) as [c|] eqn:Ec.
    + destruct (c_allows c method) eqn:Ea; cbn [negb].
      2:{ exists [], (kwd, v), todo. split; [reflexivity|]. split; [constructor|]. exists c. auto. }
      assert (Hk : ~ In kwd (map fst pre)).
      { rewrite map_app in Hnd. cbn [map fst] in Hnd. intros Hc. apply NoDup_remove_2 in Hnd. apply Hnd.
        apply in_app_iff. now left. }
      assert (Hd : ddel (pre ++ (kwd, v) :: todo) kwd = pre ++ todo).
      { rewrite ddel_app_notin by assumption. cbn [ddel]. now rewrite str_eqb_refl. }
      assert (Hnd2 : NoDup (map fst (pre ++ todo))).
      { rewrite map_app in *. cbn [map fst] in Hnd. eapply NoDup_remove_1; exact Hnd. }
      destruct (criticality dflt v && negb (smem (c_request_oid c) supported)) eqn:Es.
      { apply andb_true_iff in Es as [E1 E2]. apply negb_true_iff in E2. apply smem_nIn in E2.
        exists [], (kwd, v), todo. split; [reflexivity|]. split; [constructor|].
        exists c. split; [exact Ec|]. right; left. auto. }
      assert (Hsup : criticality dflt v = true -> In (c_request_oid c) supported).
      { intros E1. rewrite E1 in Es. cbn [andb] in Es. apply negb_false_iff in Es. now apply smem_In. }
      destruct (c_prepare c (value_of v)) as [p|e] eqn:Ep.
      2:{ unfold prepare. rewrite Ep. cbn [bind].
          exists [], (kwd, v), todo. split; [reflexivity|]. split; [constructor|].
          exists c. split; [exact Ec|]. right; right. auto. }
      destruct (prepare_wire reg dflt kwd v c p Ec Ep) as [w [Ew Hw]]. rewrite Ew. cbn [bind]. rewrite Hd.
      specialize (IH pre (acc ++ [w]) Hnd2).
      assert (Hadm : admissible reg method supported dflt (kwd, v)).
      { intros c' E'. cbn [fst snd] in *. rewrite Ec in E'. injection E' as <-. repeat split; eauto. }
      destruct (process_loop reg method supported dflt todo (pre ++ todo) (acc ++ [w])) as [[cs rest]|e].
      * destruct IH as (A & B & ws & C & D). split; [constructor; auto|].
        assert (Edm : dmem (r_kw reg) kwd = true) by (unfold dmem; now rewrite Ec).
        split.
        -- rewrite B. unfold others_of. cbn [filter fst]. now rewrite Edm.
        -- exists (w :: ws). rewrite C, <- app_assoc. split; [reflexivity|].
           unfold controls_of. cbn [filter fst]. rewrite Edm. constructor; assumption.
      * destruct IH as [a [kv [b (A & B & C)]]]. exists ((kwd, v) :: a), kv, b. rewrite A. auto.
    + rewrite Hassoc in *. specialize (IH (pre ++ [(kwd, v)]) acc Hnd).
      assert (Hadm : admissible reg method supported dflt (kwd, v)).
      { intros c' E'. cbn [fst] in E'. congruence. }
      destruct (process_loop reg method supported dflt todo ((pre ++ [(kwd, v)]) ++ todo) acc) as [[cs rest]|e].
      * destruct IH as (A & B & ws & C & D). split; [constructor; auto|].
        assert (Edm : dmem (r_kw reg) kwd = false) by (unfold dmem; now rewrite Ec).
        split.
        -- rewrite B, <- app_assoc. unfold others_of. cbn [filter fst]. now rewrite Edm.
        -- exists ws. split; [exact C|]. unfold controls_of. cbn [filter fst]. now rewrite Edm.
      * destruct IH as [a [kv [b (A & B & C)]]]. exists ((kwd, v) :: a), kv, b. rewrite A. auto.
Qed.

Lemma offending_not_admissible reg method supported dflt kv e :
  offending reg method supported dflt kv e -> ~ admissible reg method supported dflt kv.
Proof.
  intros [c [Hc H]] Ha. destruct (Ha c Hc) as (A1 & A2 & p & A3).
  destruct H as [[H _]|[(_ & H1 & H2 & _)|(_ & _ & H)]]; try congruence. auto.
Qed.

Lemma process_kwds_spec reg method supported dflt final kwds :
  NoDup (map fst kwds) ->
  match process_kwds reg method kwds supported dflt final with
  | Ok (cs, rest) =>
      Forall (admissible reg method supported dflt) kwds /\ rest = others_of reg kwds /\
      (final = true -> rest = []) /\ Forall2 (wire_for reg dflt) (controls_of reg kwds) cs
  | Raise e =>
      (exists a kv b, kwds = a ++ kv :: b /\ Forall (admissible reg method supported dflt) a /\
         offending reg method supported dflt kv e) \/
      (e = TypeError /\ final = true /\ Forall (admissible reg method supported dflt) kwds /\ others_of reg kwds <> [])
  end.
Proof.
  intros Hnd. unfold process_kwds.
  pose proof (process_loop_spec reg method supported dflt kwds [] [] Hnd) as H. cbn [app] in H.
  destruct (process_loop reg method supported dflt kwds kwds []) as [[cs rest]|e]; cbn [bind]; [|now left].
  destruct H as (A & B & ws & C & D). subst cs rest.
  destruct final; cbn [andb].
  - destruct (others_of reg kwds) eqn:E.
    + repeat split; auto.
    + right. repeat split; auto. discriminate.
  - repeat split; auto. discriminate.
Qed.

(** ** registration *)
Lemma falsy_false s : falsy s = false <-> s <> [].
Proof. destruct s; split; cbn; congruence. Qed.

Lemma dmem_false {V} (d : list (str * V)) k : dmem d k = false <-> dget d k = None.
Proof. unfold dmem. destruct (dget d k); split; congruence. Qed.

Lemma register_coherent reserved reg c : coherent reserved reg -> coherent reserved (snd (register reserved reg c)).
Proof.
  intros Hco. unfold register.
  assert (R : forall reg0, coherent reserved reg0 ->
     coherent reserved (snd (
       if falsy (c_response_oid c) then (Ok tt, reg0)
       else if falsy (c_response_attr c) then (Raise ValueError, reg0)
       else if dmem (r_resp reg0) (c_response_oid c) then (Raise LDAPExtensionError, reg0)
       else (Ok tt, mk_reg (r_kw reg0) (r_oid reg0) (dset (r_resp reg0) (c_response_oid c) c))))).
  { intros reg0 H0. destruct (falsy (c_response_oid c)) eqn:E1; [exact H0|].
    destruct (falsy (c_response_attr c)) eqn:E2; [exact H0|].
    destruct (dmem (r_resp reg0) (c_response_oid c)) eqn:E3; [exact H0|].
    destruct H0 as (A & B & C & D & E & F). unfold coherent. cbn [snd r_kw r_oid r_resp].
    apply falsy_false in E1, E2.
    split; [exact A|]. split; [exact B|]. split; [now apply dset_NoDup|]. split; [exact D|]. split; [exact E|].
    intros o c0 Ho. rewrite dget_dset in Ho. destruct (str_eqb_spec (c_response_oid c) o) as [<-|Hne].
    - injection Ho as <-. auto.
    - now apply F. }
  destruct (falsy (c_request_oid c)) eqn:E0; [now apply R|].
  destruct (c_has_method c) eqn:E1; cbn [negb]; [|exact Hco].
  destruct (falsy (c_keyword c)) eqn:E2; [exact Hco|].
  destruct (smem (c_keyword c) reserved) eqn:E3; [exact Hco|].
  destruct (dmem (r_kw reg) (c_keyword c)) eqn:E4; [exact Hco|].
  destruct (dmem (r_oid reg) (c_request_oid c)) eqn:E5; [exact Hco|].
  apply R. destruct Hco as (A & B & C & D & E & F). unfold coherent. cbn [r_kw r_oid r_resp].
  apply falsy_false in E0, E2. apply smem_nIn in E3. apply dmem_false in E4, E5.
  split; [now apply dset_NoDup|]. split; [now apply dset_NoDup|]. split; [exact C|]. split; [|split; [|exact F]].
  - intros k c0 Hk. rewrite dget_dset in Hk. destruct (str_eqb_spec (c_keyword c) k) as [<-|Hne].
    + injection Hk as <-. repeat split; auto. apply dget_dset_eq.
    + destruct (D k c0 Hk) as (D1 & D2 & D3 & D4 & D5). repeat split; auto.
      rewrite dget_dset_neq; auto. intros Ex. congruence.
  - intros o c0 Ho. rewrite dget_dset in Ho. destruct (str_eqb_spec (c_request_oid c) o) as [<-|Hne].
    + injection Ho as <-. repeat split; auto. apply dget_dset_eq.
    + destruct (E o c0 Ho) as (E6 & E7 & E8). repeat split; auto.
      rewrite dget_dset_neq; auto. intros Ex. congruence.
Qed.

Lemma empty_coherent reserved : coherent reserved empty_registry.
Proof. unfold coherent, empty_registry. cbn. repeat split; try constructor; discriminate. Qed.

Lemma register_all_coherent reserved cs reg : coherent reserved reg -> coherent reserved (register_all reserved cs reg).
Proof.
  revert reg; induction cs as [|c cs IH]; intros reg H; [exact H|]. apply IH. now apply register_coherent.
Qed.

(** ** responses *)
Lemma handle_never_overwrites reg builtin controls attrs k v :
  dget attrs k = Some v -> dget (snd (handle_response reg builtin attrs controls)) k = Some v.
Proof.
  revert attrs; induction controls as [|[oid raw] controls IH]; intros attrs H; [exact H|].
  cbn [handle_response]. destruct (dget (r_resp reg) oid) as [c|]; [|exact H].
  destruct (c_handle c raw) as [x|e]; [|exact H].
  destruct (builtin (c_response_attr c) || dmem attrs (c_response_attr c)) eqn:E; [exact H|].
  apply IH. apply orb_false_iff in E as [_ E]. apply dmem_false in E.
  rewrite dget_dset_neq; auto. congruence.
Qed.

Lemma dset_fresh {V} (d : list (str * V)) k v : dget d k = None -> dset d k v = d ++ [(k, v)].
Proof.
  induction d as [|[k' v'] d IH]; cbn; [reflexivity|].
  destruct (str_eqb k' k); [discriminate|]. intros H. now rewrite IH.
Qed.

Lemma handle_spec reg builtin controls attrs :
  NoDup (map fst attrs) ->
  (fst (handle_response reg builtin attrs controls) = Ok tt ->
   exists new, Forall2 (attr_for reg) controls new /\
     snd (handle_response reg builtin attrs controls) = attrs ++ new /\
     NoDup (map fst (attrs ++ new)) /\ Forall (fun av => builtin (fst av) = false) new) /\
  (forall new, Forall2 (attr_for reg) controls new -> NoDup (map fst (attrs ++ new)) ->
     Forall (fun av => builtin (fst av) = false) new ->
     handle_response reg builtin attrs controls = (Ok tt, attrs ++ new)).
Proof.
  revert attrs; induction controls as [|[oid raw] controls IH]; intros attrs Hnd; cbn [handle_response].
  - split.
    + intros _. exists []. rewrite app_nil_r. repeat split; auto.
    + intros new Hf. inversion Hf; subst. now rewrite app_nil_r.
  - destruct (dget (r_resp reg) oid) as [c|] eqn:Ec.
    2:{ split; [discriminate|]. intros new Hf. inversion Hf as [|? ? ? ? [c [Hc _]]]; subst. cbn in Hc. congruence. }
    destruct (c_handle c raw) as [x|e] eqn:Eh.
    2:{ split; [discriminate|]. intros new Hf. inversion Hf as [|? ? ? ? [c' (Hc & _ & Hv)]]; subst. cbn in Hc, Hv.
        rewrite Ec in Hc. injection Hc as <-. congruence. }
    destruct (builtin (c_response_attr c) || dmem attrs (c_response_attr c)) eqn:Eb.
    + split; [discriminate|]. intros new Hf Hn Hb.
      inversion Hf as [|? [a v] ? new' [c' (Hc & Ha & Hv)] Hf']; subst. cbn in *.
      rewrite Ec in Hc. injection Hc as <-. exfalso. apply orb_true_iff in Eb as [Eb|Eb].
      * inversion Hb; subst. cbn in *. congruence.
      * rewrite map_app in Hn. cbn [map fst] in Hn. apply NoDup_remove_2 in Hn. apply Hn. apply in_app_iff. left.
        unfold dmem in Eb. destruct (dget attrs (c_response_attr c)) eqn:Ed; [|discriminate].
        apply dget_In in Ed. apply (in_map fst) in Ed. cbn in Ed. congruence.
    + apply orb_false_iff in Eb as [Eb1 Eb2]. apply dmem_false in Eb2.
      rewrite (dset_fresh _ _ _ Eb2).
      assert (Hnd2 : NoDup (map fst (attrs ++ [(c_response_attr c, x)]))).
      { rewrite <- (dset_fresh _ _ _ Eb2). now apply dset_NoDup. }
      destruct (IH _ Hnd2) as [IH1 IH2]. split.
      * intros Ho. destruct (IH1 Ho) as [new (A & B & C & D)]. exists ((c_response_attr c, x) :: new).
        rewrite B. rewrite <- app_assoc in *. repeat split; auto. constructor; auto. exists c. auto.
      * intros new Hf Hn Hb. inversion Hf as [|? [a v] ? new' [c' (Hc & Ha & Hv)] Hf']; subst. cbn in *.
        rewrite Ec in Hc. injection Hc as <-. subst a. rewrite Eh in Hv. injection Hv as <-.
        inversion Hb; subst.
        rewrite (IH2 new' Hf'); auto; rewrite <- app_assoc; auto.
Qed.
