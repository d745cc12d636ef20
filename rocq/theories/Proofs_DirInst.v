(** * A concrete directory server, shown to be lawful
    Used to show that the hypotheses of the theorems of Props_Dir are satisfiable, and for the
    counterexamples.  It models no code of /repo. *)
From Verif Require Import PyBase Model_CIDict Model_Modify Spec_Modify Proofs_Modify2 Model_Search Spec_Search
  Model_Dir Spec_Dir Proofs_Dir.
Local Open Scope N_scope.

Section Inst.
  Context (lower : str -> str).

  Definition aeq (a x v : str) : bool := str_eqb x v.
  Definition alist := list (str * list str).
  Fixpoint eview (l : alist) (n : str) : list str :=
    match l with
    | [] => []
    | (k, vs) :: r => if str_eqb (lower k) n then vs else eview r n
    end.
  Fixpoint canon (seen : list str) (l : alist) : alist :=
    match l with
    | [] => []
    | (k, vs) :: r =>
        if smem (lower k) seen then canon seen r
        else match vs with
             | [] => canon (lower k :: seen) r
             | _ => (k, vs) :: canon (lower k :: seen) r
             end
    end.
  Definition named (names : list str) (l : alist) : alist :=
    List.filter (fun kv => smem (lower (fst kv)) (map lower names)) l.
  Fixpoint nodupb (l : list str) : bool :=
    match l with [] => true | x :: r => negb (smem x r) && nodupb r end.

  Definition store := list (str * alist).
  Definition sview (s : store) (dn : str) : option entry := option_map eview (dget s dn).
  Definition drop (s : store) (dn : str) : store := List.filter (fun p => negb (str_eqb (fst p) dn)) s.

  Definition ex_server : server store := mk_server _
    (fun s dn ats => option_map (fun l => (dn, canon [] (match ats with None | Some [] => l | Some ns => named ns l end))) (dget s dn))
    (fun s dn a => match dget s dn with
                   | Some _ => (s, false)
                   | None => if nodupb (map (fun av => lower (fst av)) a) && forallb (fun av => match snd av with [] => false | _ => true end) a
                             then ((dn, a) :: s, true) else (s, false)
                   end)
    (fun s dn cs => match dget s dn with
                    | None => (s, false)
                    | Some l => match srv_apply lower aeq (eview l) cs with
                                | None => (s, false)
                                | Some e => ((dn, map (fun c => (c_attr c, e (lower (c_attr c)))) cs ++ l) :: drop s dn, true)
                                end
                    end)
    (fun s dn => match dget s dn with None => (s, false) | Some _ => (drop s dn, true) end)
    (fun s dn new_rdn clean sup =>
       match dget s dn, split1 (ch ",") dn, split1 (ch "=") new_rdn with
       | Some l, Ok (rdn, parent), Ok (a1, v1) =>
           match split1 (ch "=") rdn with
           | Ok (a0, v0) =>
               let e := srv_rename lower aeq (eview l) a0 v0 a1 v1 clean in
               let dn' := new_rdn ++ lit "," ++ match sup with Some p => p | None => parent end in
               match dget (drop s dn) dn' with
               | Some _ => (s, false)
               | None => ((dn', (a1, e (lower a1)) :: (a0, e (lower a0)) :: l) :: drop s dn, true)
               end
           | Raise _ => (s, false)
           end
       | _, _, _ => (s, false)
       end)
    (fun s dn a v => match dget s dn with
                     | None => 32
                     | Some l => if existsb (fun x => aeq a x v) (eview l (lower a)) then 6 else 5
                     end).

  Lemma canon_spec l : forall seen,
    NoDup (map (fun av => lower (fst av)) (canon seen l)) /\
    (forall av, In av (canon seen l) -> snd av <> [] /\ ~ In (lower (fst av)) seen) /\
    forall n vs, vs <> [] -> ((exists name, In (name, vs) (canon seen l) /\ lower name = n) <-> ~ In n seen /\ eview l n = vs).
  Proof.
    induction l as [|[k vs0] l IH]; intros seen; cbn [canon eview].
    - split; [constructor|]. split; [intros av []|]. intros n vs Hv. split; [intros (x & [] & _)|]. intros [_ <-]. now elim Hv.
    - destruct (smem (lower k) seen) eqn:M.
      + destruct (IH seen) as (H1 & H2 & H3). split; [exact H1|]. split; [exact H2|]. intros n vs Hv. rewrite (H3 n vs Hv).
        apply smem_In in M. destruct (str_eqb_spec (lower k) n) as [<-|]; [|tauto]. tauto.
      + apply smem_nIn in M. destruct (IH (lower k :: seen)) as (H1 & H2 & H3).
        assert (H3' : forall n vs, vs <> [] -> lower k <> n ->
                  ((exists name, In (name, vs) (canon (lower k :: seen) l) /\ lower name = n) <-> ~ In n seen /\ eview l n = vs)).
        { intros n vs Hv Hn. rewrite (H3 n vs Hv). cbn [In]. tauto. }
        destruct vs0 as [|w ws].
        * split; [exact H1|]. split; [intros av Hin; destruct (H2 av Hin) as [X Y]; split; [exact X|intros Z; apply Y; now right]|].
          intros n vs Hv. destruct (str_eqb_spec (lower k) n) as [<-|Hn]; [|now apply H3'].
          rewrite (H3 (lower k) vs Hv). split; [intros [X _]; elim X; now left|intros [_ X]; congruence].
        * split; [|split].
          -- cbn [map fst]. constructor; [|exact H1]. intros Hin. apply in_map_iff in Hin. destruct Hin as (av & E & Hin).
             destruct (H2 av Hin) as [_ X]. apply X. left. auto.
          -- intros av [<-|Hin]; [split; [discriminate|exact M]|]. destruct (H2 av Hin) as [X Y]. split; [exact X|intros Z; apply Y; now right].
          -- intros n vs Hv. destruct (str_eqb_spec (lower k) n) as [<-|Hn].
             ++ split.
                ** intros (name & [E|Hin] & En); [injection E as -> <-; now split|].
                   destruct (H2 _ Hin) as [_ X]. elim X. left. auto.
                ** intros [_ <-]. exists k. split; [now left|reflexivity].
             ++ rewrite <- (H3' n vs Hv Hn). split.
                ** intros (name & [E|Hin] & En); [injection E as -> _; congruence|eauto].
                ** intros (name & Hin & En). exists name. split; [now right|exact En].
  Qed.
  Lemma canon_lists l : lists lower (canon [] l) (eview l).
  Proof.
    destruct (canon_spec l []) as (H1 & H2 & H3). split; [exact H1|]. split; [intros av Hin; now apply H2|].
    intros k vs Hv. rewrite (H3 (lower k) vs Hv). cbn [In]. tauto.
  Qed.
  Lemma named_view names l n : eview (named names l) n = only lower names (eview l) n.
  Proof.
    unfold only. induction l as [|[k vs] l IH]; cbn [named List.filter eview fst].
    - now destruct (smem n (map lower names)).
    - fold (named names l). destruct (smem (lower k) (map lower names)) eqn:M; cbn [eview].
      + destruct (str_eqb_spec (lower k) n) as [<-|Hn]; [now rewrite M|exact IH].
      + destruct (str_eqb_spec (lower k) n) as [<-|Hn]; [rewrite IH, M; reflexivity|exact IH].
  Qed.
  Lemma lists_pt a e e' : (forall n, e n = e' n) -> lists lower a e -> lists lower a e'.
  Proof. intros E (H1 & H2 & H3). split; [exact H1|]. split; [exact H2|]. intros k vs Hv. rewrite <- E. now apply H3. Qed.

  Lemma nodupb_spec l : nodupb l = true -> NoDup l.
  Proof.
    induction l as [|x l IH]; cbn [nodupb]; intros H; constructor; apply andb_true_iff in H; destruct H as [H1 H2]; auto.
    apply smem_nIn. now destruct (smem x l).
  Qed.
  Lemma nodup_canon l : forall seen, NoDup (map (fun av => lower (fst av)) l) -> (forall av, In av l -> ~ In (lower (fst av)) seen) ->
    (forall av, In av l -> snd av <> []) -> canon seen l = l.
  Proof.
    induction l as [|[k vs] l IH]; intros seen Hd Hs Hne; [reflexivity|]. cbn [canon].
    pose proof (proj2 (smem_nIn _ _) (Hs (k, vs) (or_introl eq_refl))) as X. cbn [fst] in X. rewrite X. clear X. cbn [map fst] in Hd. inversion Hd as [|? ? Hni Hd']; subst.
    assert (E : canon (lower k :: seen) l = l).
    { apply IH; [exact Hd'| |intros av Hin; apply Hne; now right]. intros av Hin [X|X]; [|apply (Hs av (or_intror Hin) X)].
      apply Hni. rewrite X. now apply (in_map (fun av => lower (fst av))). }
    rewrite E. destruct vs; [now elim (Hne (k, []) (or_introl eq_refl))|reflexivity].
  Qed.

  Lemma drop_eq s dn : dget (drop s dn) dn = None.
  Proof.
    apply dget_None. intros H. apply in_map_iff in H. destruct H as (x & E & Hx). apply filter_In in Hx. destruct Hx as [_ Hx].
    rewrite E, str_eqb_refl in Hx. discriminate.
  Qed.
  Lemma drop_neq s dn d : d <> dn -> dget (drop s dn) d = dget s d.
  Proof.
    intros Hn. induction s as [|[k v] s IH]; [reflexivity|]. cbn [drop List.filter fst dget]. fold (drop s dn).
    destruct (str_eqb_spec k dn) as [->|Hk]; cbn [negb].
    - rewrite IH. destruct (str_eqb_spec dn d); [congruence|reflexivity].
    - cbn [dget]. rewrite IH. reflexivity.
  Qed.
  Lemma put_view s dn l d : dget ((dn, l) :: drop s dn) d = if str_eqb dn d then Some l else dget s d.
  Proof. cbn [dget]. destruct (str_eqb_spec dn d) as [<-|Hn]; [reflexivity|]. apply drop_neq. congruence. Qed.

  Lemma eview_app cs (e e0 : entry) l n : (~ In n (map (fun c => lower (c_attr c)) cs) -> e n = eview l n) ->
    eview (map (fun c => (c_attr c, e (lower (c_attr c)))) cs ++ l) n = e n.
  Proof.
    induction cs as [|c cs IH]; intros H; cbn [map app eview].
    - symmetry. apply H. intros [].
    - destruct (str_eqb_spec (lower (c_attr c)) n) as [<-|Hn]; [reflexivity|]. apply IH. intros X. apply H. cbn [map In]. intros [Y|Y]; auto.
  Qed.

  Lemma rename_other e a0 v0 a1 v1 clean n : n <> lower a0 -> n <> lower a1 -> srv_rename lower aeq e a0 v0 a1 v1 clean n = e n.
  Proof.
    intros H0 H1. unfold srv_rename. cbv zeta.
    assert (X : (if clean then match srv_remove1 aeq a0 (e (lower a0)) v0 with Some l => eput lower e a0 l | None => e end else e) n = e n).
    { destruct clean; [|reflexivity]. destruct (srv_remove1 _ _ _ _); [|reflexivity]. now apply eput_other. }
    destruct (existsb _ _); [exact X|]. rewrite eput_other by exact H1. exact X.
  Qed.

  Lemma ex_lawful : lawful lower (fun d => d) aeq ex_server sview.
  Proof.
    constructor.
    - intros s d d' ->. reflexivity.
    - intros s dn ats H. unfold sview in H. cbn [sv_read ex_server]. now destruct (dget s dn).
    - intros s dn e H. unfold sview in H. cbn [sv_read ex_server]. destruct (dget s dn) as [l|]; [|discriminate]. injection H as <-.
      exists dn, (canon [] l). split; [reflexivity|]. split; [reflexivity|apply canon_lists].
    - reflexivity.
    - intros s dn e names H Hne _. destruct names as [|n0 names0] eqn:En; [now elim Hne|]. rewrite <- En in *. clear Hne. unfold sview in H. cbn [sv_read ex_server]. destruct (dget s dn) as [l|]; [|discriminate]. injection H as <-.
      exists dn, (canon [] (named names l)). split; [now rewrite En|]. split; [reflexivity|].
      eapply lists_pt; [|apply canon_lists]. apply named_view.
    - intros s dn a v. cbn [sv_compare ex_server]. unfold sview. destruct (dget s dn) as [l|]; [|split; discriminate]. cbn [option_map].
      destruct (existsb (fun x => aeq a x v) (eview l (lower a))) eqn:E; split; intros H; try discriminate; eauto.
    - intros s dn a s' ok H. cbn [sv_add ex_server] in H. unfold sview. destruct (dget s dn) eqn:G.
      { injection H as <- <-. reflexivity. }
      destruct (nodupb (map (fun av => lower (fst av)) a) && forallb (fun av => match snd av with [] => false | _ => true end) a) eqn:C; injection H as <- <-; [|reflexivity].
      apply andb_true_iff in C. destruct C as [C1 C2]. apply nodupb_spec in C1. rewrite forallb_forall in C2.
      split; [reflexivity|]. split.
      + cbn [dget]. rewrite str_eqb_refl. exists (eview a). split; [reflexivity|].
        rewrite <- (nodup_canon a [] C1) at 1; [apply canon_lists|intros av _ []|]. intros av Hin E. specialize (C2 av Hin). now rewrite E in C2.
      + intros d Hd. cbn [dget]. destruct (str_eqb_spec dn d); [congruence|reflexivity].
    - intros s dn cs s' ok H. cbn [sv_modify ex_server] in H. unfold sview. destruct (dget s dn) as [l|] eqn:G.
      2: { injection H as <- <-. reflexivity. }
      destruct (srv_apply lower aeq (eview l) cs) as [e|] eqn:A; injection H as <- <-; [|reflexivity].
      split.
      + exists (eview l), e, (eview (map (fun c => (c_attr c, e (lower (c_attr c)))) cs ++ l)).
        split; [reflexivity|]. split; [exact A|]. rewrite put_view, str_eqb_refl. split; [reflexivity|].
        intros n. apply (eview_app cs e e). intros Hn. exact (apply_other lower aeq cs _ _ A n Hn).
      + intros d Hd. rewrite put_view. destruct (str_eqb_spec dn d); [congruence|reflexivity].
    - intros s dn s' ok H. cbn [sv_delete ex_server] in H. unfold sview. destruct (dget s dn) as [l|] eqn:G; injection H as <- <-; [|reflexivity].
      rewrite drop_eq. split; [reflexivity|]. intros d Hd. now rewrite drop_neq.
    - intros s dn new_rdn clean sup s' ok H. cbn [sv_moddn ex_server] in H. unfold sview.
      destruct (dget s dn) as [l|] eqn:G; [|injection H as <- <-; reflexivity].
      destruct (split1 (ch ",") dn) as [[rdn parent]|] eqn:E1; [|injection H as <- <-; reflexivity].
      destruct (split1 (ch "=") new_rdn) as [[a1 v1]|] eqn:E2; [|injection H as <- <-; reflexivity].
      destruct (split1 (ch "=") rdn) as [[a0 v0]|] eqn:E3; [|injection H as <- <-; reflexivity].
      cbv zeta in H.
      destruct (dget (drop s dn) _) eqn:E4; injection H as <- <-; [reflexivity|].
      intros rdn' parent' b0 w0 b1 w1 (Hdn & _) P0 P1.
      destruct (plain_split _ _ _ P0) as (Q0 & R0 & _). destruct (plain_split _ _ _ P1) as (Q1 & _ & _).
      rewrite Hdn in E1. change (rdn' ++ lit "," ++ parent') with (rdn' ++ ch "," :: parent') in E1. rewrite split1_first in E1 by exact R0.
      injection E1 as <- <-. rewrite Q1 in E2. injection E2 as <- <-. rewrite Q0 in E3. injection E3 as <- <-.
      eexists. eexists. split; [reflexivity|]. split; [cbn [dget]; rewrite str_eqb_refl; reflexivity|]. split.
      + intros n. cbn [eview]. destruct (str_eqb_spec (lower b1) n) as [<-|H1]; [reflexivity|].
        destruct (str_eqb_spec (lower b0) n) as [<-|H0]; [reflexivity|]. symmetry. apply rename_other; congruence.
      + intros Hn. cbn [dget]. match goal with |- context [str_eqb ?x dn] => destruct (str_eqb_spec x dn) as [X|X] end; [now elim Hn|].
        rewrite (drop_eq s dn). reflexivity.
  Qed.

  Lemma nodupb_complete l : NoDup l -> nodupb l = true.
  Proof. induction 1 as [|x l Hni Hd IH]; cbn [nodupb]; [reflexivity|]. apply smem_nIn in Hni. now rewrite Hni, IH. Qed.
  Lemma ex_willing : willing lower aeq ex_server sview.
  Proof.
    constructor.
    - intros s dn e cs e1 V A. unfold sview in V. cbn [sv_modify ex_server]. destruct (dget s dn) as [l|]; [|discriminate]. injection V as <-. now rewrite A.
    - intros s dn a V (Hd & Hne & _). unfold sview in V. cbn [sv_add ex_server]. destruct (dget s dn) as [l|]; [discriminate|].
      rewrite (nodupb_complete _ Hd). replace (forallb _ a) with true; [reflexivity|]. symmetry. apply forallb_forall. intros av Hin. specialize (Hne av Hin). now destruct (snd av).
    - intros s dn e V. unfold sview in V. cbn [sv_delete ex_server]. now destruct (dget s dn).
    - intros s dn a v e V. unfold sview in V. cbn [sv_compare ex_server]. destruct (dget s dn); [|discriminate]. destruct (existsb _ _); auto.
  Qed.

  (** an exact-match lookup for it *)
  Definition ex_idx (a : str) (l : list str) (v : str) : res nat := list_index l v.
  Lemma ex_same_rule : same_rule aeq ex_idx.
  Proof.
    intros a l v. unfold ex_idx, list_index, aeq. generalize 0%nat as i.
    induction l as [|x l IH]; intros i; cbn [list_index_from first_match]; [reflexivity|]. destruct (str_eqb x v); [reflexivity|apply IH].
  Qed.
End Inst.
