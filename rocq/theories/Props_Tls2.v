(** * More of C75: require_success *)
From Verif Require Import PyBase Model_Uri Spec_Uri Model_Conn Model_Controls Spec_Controls Proofs_Controls Props_Controls Model_Search Model_Request Model_Tls Spec_Tls Proofs_Tls.

(** The handle raises on a failure exactly if require_success was given and is not the empty string. *)
Theorem C75_wants_success encode k t oid v kw t' rs : NoDup (map fst kw) -> ~ is_control (c_reg k) (lit "require_success") ->
  send_extended_request encode k t oid v kw = (t', Ok rs) ->
  (rs = true <-> exists w, In (lit "require_success", w) kw /\ w <> Plain []).
Proof.
  intros Hn Hc E. pose proof (ext_cases encode k t oid v kw) as X. rewrite E in X.
  destruct X as [(_ & x & X & _)|(b & cs & rest & X1 & X2 & X3 & X4 & -> & X5)]; [discriminate|].
  destruct (C24_controls_exactly (c_reg k) (lit "ext") (c_controls k) (c_crit k) false kw Hn) as [C _]. destruct (C _ _ X4) as (_ & _ & -> & _).
  destruct X5 as [[_ X5]|[_ X5]]; [|discriminate]. assert (Ers : rs = match dget (others_of (c_reg k) kw) (lit "require_success") with Some w => truthy_kw w | None => false end) by congruence. subst rs. clear X5.
  assert (D : forall w, dget (others_of (c_reg k) kw) (lit "require_success") = Some w <-> In (lit "require_success", w) kw).
  { intros w. assert (Hno : NoDup (map fst (others_of (c_reg k) kw))).
    { unfold others_of. clear - Hn. induction kw as [|[x y] kw IH]; [constructor|]. cbn [map fst] in Hn. inversion Hn; subst.
      cbn [List.filter fst]. destruct (negb (dmem (r_kw (c_reg k)) x)); [|auto]. cbn [map fst]. constructor; [|auto].
      intros Hi. apply in_map_iff in Hi. destruct Hi as ([x' y'] & <- & Hi). apply filter_In in Hi. destruct Hi as [Hi _]. apply H1.
      apply in_map_iff. exists (x', y'). auto. }
    split.
    - intros H. apply dget_In in H. apply filter_In in H. apply H.
    - intros H. apply dget_In_NoDup; [exact Hno|]. apply filter_In. split; [exact H|]. cbn [fst].
      unfold dmem. destruct (dget (r_kw (c_reg k)) (lit "require_success")) as [c|] eqn:Ec; [|reflexivity].
      exfalso. apply Hc. exists c. exact Ec. }
  destruct (dget (others_of (c_reg k) kw) (lit "require_success")) as [w|] eqn:Ew.
  - pose proof (proj1 (D w) eq_refl) as Hi. split.
    + intros Hw. exists w. split; [exact Hi|]. intros ->. discriminate.
    + intros (w' & Hi' & Hw'). apply D in Hi'. injection Hi' as <-. destruct w as [s|s|[|c s]]; try reflexivity. congruence.
  - split; [discriminate|]. intros (w & Hi & _). apply D in Hi. discriminate.
Qed.
Print Assumptions C75_wants_success.
Example C75_wants_success_nonvacuous :
  (exists t1, send_extended_request Ok (mk_tconn true None None None (fun _ => Ok true) empty_registry [] false) ts_fresh (lit "1.2.3") XNone [(lit "require_success", Plain (lit "x"))] = (t1, Ok true)) /\
  (exists t1, send_extended_request Ok (mk_tconn true None None None (fun _ => Ok true) empty_registry [] false) ts_fresh (lit "1.2.3") XNone [(lit "require_success", Plain [])] = (t1, Ok false)).
Proof. split; eexists; vm_compute; reflexivity. Qed.
