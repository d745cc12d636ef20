From Verif Require Import PyBase Model_CIDict Model_Modify Model_Uri Spec_Uri Proofs_Uri Model_Conn Model_Search Spec_Search.
Local Open Scope N_scope.

Lemma split_joined sep l : l <> [] -> Forall (fun s => ~ In sep s) l -> py_split [sep] (joined sep l) = l.
Proof.
  induction l as [|x l IH]; [congruence|]. intros _ F. inversion F as [|? ? Hx F']; subst.
  destruct l as [|y l].
  - cbn [joined]. apply py_split_none; [discriminate|]. intros (a & b & E). apply Hx. rewrite E.
    apply in_app_iff. right. now left.
  - change (joined sep (x :: y :: l)) with (x ++ [sep] ++ joined sep (y :: l)).
    rewrite py_split_first by exact Hx. f_equal. apply IH; [discriminate|exact F'].
Qed.

Lemma joined_no sep c l : c <> sep -> Forall (fun s => ~ In c s) l -> ~ In c (joined sep l).
Proof.
  intros Hc. induction l as [|x l IH]; intros F; [intros []|]. inversion F; subst.
  destruct l as [|y l]; [assumption|]. change (joined sep (x :: y :: l)) with (x ++ sep :: joined sep (y :: l)).
  intros Hin. apply in_app_iff in Hin. destruct Hin as [Hin|[Hin|Hin]]; [contradiction|congruence|]. now apply IH.
Qed.
Lemma joined_ne sep l : l <> [] -> Forall (fun s => s <> []) l -> joined sep l <> [].
Proof.
  destruct l as [|x l]; [congruence|]. intros _ F. inversion F; subst. destruct l; [assumption|].
  change (joined sep (x :: l :: l0)) with (x ++ sep :: joined sep (l :: l0)). intros E. apply app_eq_nil in E. destruct E; congruence.
Qed.

Lemma bang e : starts_with (lit "!") e = true <-> exists n, e = lit "!" ++ n.
Proof. rewrite starts_with_spec. reflexivity. Qed.

Lemma uri_extensions_spec exts : forall acc,
  match uri_extensions exts acc with
  | Ok r => (forall e, In e exts -> critical_ext e -> starttls_ext e) /\
            ((exists e, In e exts /\ starttls_ext e) -> r = Some true) /\
            ((forall e, In e exts -> ~ starttls_ext e) -> r = acc)
  | Raise x => x = LDAPError /\ exists e, In e exts /\ critical_ext e /\ ~ starttls_ext e
  end.
Proof.
  induction exts as [|e exts IH]; intros acc; cbn [uri_extensions].
  - split; [intros e []|]. split; [intros (e & [] & _)|reflexivity].
  - set (name := if starts_with (lit "!") e then tl e else e).
    assert (Hst : str_eqb name (lit "StartTLS") = true <-> starttls_ext e).
    { unfold name. destruct (starts_with (lit "!") e) eqn:B.
      - apply bang in B. destruct B as [n ->]. cbn [lit app tl]. rewrite str_eqb_eq. unfold starttls_ext. split.
        + intros ->. now right.
        + intros [E|E]; [discriminate|]. injection E as ->. reflexivity.
      - rewrite str_eqb_eq. unfold starttls_ext. split; [auto|]. intros [->|E]; [reflexivity|].
        assert (X : starts_with (lit "!") e = true) by (apply bang; exists (lit "StartTLS"); rewrite E; reflexivity). congruence. }
    destruct (str_eqb name (lit "StartTLS")) eqn:S.
    + specialize (IH (Some true)). pose proof (proj1 Hst eq_refl) as He.
      destruct (uri_extensions exts (Some true)) as [r|x].
      * destruct IH as (H1 & H2 & H3). split; [|split].
        -- intros e' [<-|Hin]; auto.
        -- intros _. destruct (existsb (fun e => str_eqb e (lit "StartTLS") || str_eqb e (lit "!StartTLS")) exts) eqn:X.
           ++ apply existsb_exists in X. destruct X as (e' & Hin & X). apply H2. exists e'. split; [exact Hin|].
              apply orb_true_iff in X. destruct X as [X|X]; apply str_eqb_eq in X; [now left|now right].
           ++ apply H3. intros e' Hin Hs. assert (Y : existsb (fun e => str_eqb e (lit "StartTLS") || str_eqb e (lit "!StartTLS")) exts = true).
              { apply existsb_exists. exists e'. split; [exact Hin|]. destruct Hs as [-> | ->]; reflexivity. }
              congruence.
        -- intros H. now elim (H e (or_introl eq_refl)).
      * destruct IH as (-> & e' & Hin & Hc). split; [reflexivity|]. exists e'. split; [now right|exact Hc].
    + destruct (starts_with (lit "!") e) eqn:B.
      * split; [reflexivity|]. exists e. split; [now left|]. split; [now apply bang|]. intros X. apply Hst in X. discriminate.
      * specialize (IH acc). destruct (uri_extensions exts acc) as [r|x].
        -- destruct IH as (H1 & H2 & H3). split; [|split].
           ++ intros e' [<-|Hin]; [|auto]. intros X. apply bang in X. congruence.
           ++ intros (e' & [<-|Hin] & X); [apply Hst in X; discriminate|]. apply H2. eauto.
           ++ intros X. apply H3. intros e' Hin. apply X. now right.
        -- destruct IH as (-> & e' & Hin & Hc). split; [reflexivity|]. exists e'. split; [now right|exact Hc].
Qed.
