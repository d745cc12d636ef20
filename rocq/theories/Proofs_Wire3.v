(** * Encodings are unambiguous, and none is the beginning of another *)
From Verif Require Import PyBase Model_Ldif Spec_X690 Proofs_X690 Model_Wire Proofs_Wire.

Definition outer (c : cid) : option N := match rev (tags c) with [] => None | t :: _ => Some (identifier t) end.
(** the identifier octets an encoding may begin with *)
Definition first (c : cid) : list N :=
  match outer c with
  | Some i => [i]
  | None => match shape_of c with
            | SChoice alts => flat_map (fun a => match outer (snd a) with Some i => [i] | None => [] end) alts
            | _ => []
            end
  end.
Fixpoint follow (fs : list (str * presence * cid)) : list N :=
  match fs with
  | [] => []
  | (_, Req, c) :: _ => first c
  | (_, _, c) :: fs' => first c ++ follow fs'
  end.
Definition disjoint (a b : list N) : bool := forallb (fun x => negb (existsb (N.eqb x) b)) a.
Fixpoint ok_fields (fs : list (str * presence * cid)) : bool :=
  match fs with
  | [] => true
  | (_, Req, _) :: fs' => ok_fields fs'
  | (_, _, c) :: fs' => disjoint (first c) (follow fs') && ok_fields fs'
  end.
Fixpoint ok_alts (alts : list (str * cid)) : bool :=
  match alts with
  | [] => true
  | (n, c) :: r => forallb (fun a => disjoint (first c) (first (snd a))) r && ok_alts r
  end.
Definition ok_class (c : cid) : bool :=
  (List.length (tags c) <=? 1)%nat &&
  match shape_of c with
  | SSeq fs => ok_fields fs
  | SChoice alts => ok_alts alts && match tags c with [] => forallb (fun a => match outer (snd a) with Some _ => true | None => false end) alts | _ => true end
  | _ => true
  end &&
  match tags c, shape_of c with [], SChoice _ => true | [], _ => false | _, _ => true end.
Lemma all_ok c : ok_class c = true.
Proof. destruct c; vm_compute; reflexivity. Qed.

Lemma disjoint_spec a b x : disjoint a b = true -> In x a -> In x b -> False.
Proof.
  intros D A B. unfold disjoint in D. rewrite forallb_forall in D. specialize (D x A).
  destruct (existsb (N.eqb x) b) eqn:E; [discriminate|]. assert (existsb (N.eqb x) b = true); [|congruence].
  apply existsb_exists. exists x. split; [exact B | apply N.eqb_refl].
Qed.

Definition content (v : asn) (c : cid) : octets :=
  match v, shape_of c with
  | VInt z, SInt r => given (in_range r z) (int_octets z)
  | VBool b, SBool => bool_octets b
  | VNull, SNull => eps
  | VOct l, SOct _ => raw l
  | VSeq l, SSeq fs => ber_fields l fs
  | VList l, SOf m e => given (m = true -> l <> []) (cats (map (fun v => ber v e) l))
  | VAlt n v, SChoice alts => match dget alts n with Some c' => ber v c' | None => nothing end
  | _, _ => nothing
  end.
Lemma ber_content v c : ber v c = wrap (tags c) (content v c).
Proof. destruct v; reflexivity. Qed.
Lemma tags_shape c : (exists t, tags c = [t]) \/ (tags c = [] /\ exists alts, shape_of c = SChoice alts).
Proof.
  pose proof (all_ok c) as K. unfold ok_class in K. apply andb_prop in K. destruct K as [K S]. apply andb_prop in K. destruct K as [L _].
  destruct (tags c) as [|t [|u r]]; [right | left; eauto | discriminate L].
  split; [reflexivity|]. destruct (shape_of c); try discriminate S. eauto.
Qed.
Lemma ber_tagged v c t : tags c = [t] -> ber v c = tlv (identifier t) (content v c).
Proof. intro T. rewrite ber_content, T. reflexivity. Qed.
Lemma first_tagged c t : tags c = [t] -> first c = [identifier t].
Proof. intro T. unfold first, outer. rewrite T. reflexivity. Qed.

Lemma ber_first v c b : ber v c b -> exists h t, b = h :: t /\ In h (first c).
Proof.
  intro H. destruct (tags_shape c) as [[t T]|[T [alts S]]].
  - rewrite (ber_tagged v c t T) in H. apply tlv_head in H. destruct H as [r ->]. exists (identifier t), r. split; [reflexivity|].
    rewrite (first_tagged c t T). left; reflexivity.
  - rewrite ber_content, T in H. cbn [wrap] in H. unfold content in H. rewrite S in H. destruct v; try contradiction.
    destruct (dget alts name) as [d|] eqn:D; [|contradiction].
    pose proof (all_ok c) as K. unfold ok_class in K. rewrite S, T in K. apply andb_prop in K. destruct K as [K _]. apply andb_prop in K. destruct K as [_ K].
    apply andb_prop in K. destruct K as [_ K]. rewrite forallb_forall in K. pose proof (dget_In _ _ _ D) as I. specialize (K _ I). cbn [snd] in K.
    destruct (tags_shape d) as [[u U]|[U _]]; [|unfold outer in K; rewrite U in K; discriminate].
    rewrite (ber_tagged v d u U) in H. apply tlv_head in H. destruct H as [r ->]. exists (identifier u), r. split; [reflexivity|].
    unfold first at 1. unfold outer at 1. rewrite T, S. cbn [rev]. apply in_flat_map. exists (name, d). split; [exact I|].
    unfold outer. cbn [snd]. rewrite U. left; reflexivity.
Qed.
Lemma fields_first l fs x : ber_fields l fs x -> x = [] \/ exists h t, x = h :: t /\ In h (follow fs).
Proof.
  revert fs x. induction l as [|o l IH]; intros [|[[n p] c] fs] x H; cbn [ber_fields] in H.
  - left. exact H.
  - contradiction.
  - destruct o; contradiction.
  - assert (C : forall v, cat (ber v c) (ber_fields l fs) x -> exists h t, x = h :: t /\ In h (first c)).
    { intros v (b1 & b2 & A & _ & ->). apply ber_first in A. destruct A as (h & t & -> & I). exists h, (t ++ b2). split; [reflexivity | exact I]. }
    destruct o as [v|].
    + destruct p as [| |d].
      * right. apply C in H. exact H.
      * right. apply C in H. destruct H as (h & t & E & I). exists h, t. split; [exact E|]. cbn [follow]. apply in_or_app. left; exact I.
      * destruct H as [[_ H]|H].
        -- apply IH in H. destruct H as [->|(h & t & E & I)]; [left; reflexivity | right; exists h, t; split; [exact E|]; cbn [follow]; apply in_or_app; right; exact I].
        -- right. apply C in H. destruct H as (h & t & E & I). exists h, t. split; [exact E|]. cbn [follow]. apply in_or_app. left; exact I.
    + destruct p as [| |d]; try contradiction. apply IH in H. destruct H as [->|(h & t & E & I)]; [left; reflexivity|].
      right. exists h, t. split; [exact E|]. cbn [follow]. apply in_or_app. right; exact I.
Qed.

Section Ind.
  Context (P : asn -> Prop).
  Context (Hint : forall z, P (VInt z)) (Hbool : forall b, P (VBool b)) (Hnull : P VNull) (Hoct : forall l, P (VOct l))
    (Hseq : forall l, Forall (fun o => match o with Some v => P v | None => True end) l -> P (VSeq l))
    (Hlist : forall l, Forall P l -> P (VList l)) (Halt : forall n v, P v -> P (VAlt n v)) (Hunset : P VUnset).
  Fixpoint asn_ind2 (v : asn) : P v :=
    match v with
    | VInt z => Hint z | VBool b => Hbool b | VNull => Hnull | VOct l => Hoct l
    | VSeq l => Hseq l ((fix go l : Forall (fun o => match o with Some v => P v | None => True end) l :=
                           match l with
                           | [] => Forall_nil _
                           | Some v :: l' => Forall_cons (Some v) (asn_ind2 v) (go l')
                           | None :: l' => Forall_cons None I (go l')
                           end) l)
    | VList l => Hlist l ((fix go l : Forall P l := match l with [] => Forall_nil _ | v :: l' => Forall_cons v (asn_ind2 v) (go l') end) l)
    | VAlt n v => Halt n v (asn_ind2 v)
    | VUnset => Hunset
    end.
End Ind.

Definition uniq (v : asn) : Prop := forall c v' b b' r r', ber v c b -> ber v' c b' -> b ++ r = b' ++ r' -> v = v' /\ b = b'.

Lemma alts_same alts n n' c c' h : ok_alts alts = true -> dget alts n = Some c -> dget alts n' = Some c' ->
  In h (first c) -> In h (first c') -> n = n' /\ c = c'.
Proof.
  intros O D D' I I'. induction alts as [|[m d] alts IH]; [discriminate D|]. cbn [ok_alts] in O. apply andb_prop in O. destruct O as [O1 O2].
  rewrite forallb_forall in O1. cbn [dget] in D, D'.
  destruct (str_eqb m n) eqn:E; destruct (str_eqb m n') eqn:E'.
  - apply str_eqb_eq in E, E'. subst. injection D as <-. injection D' as <-. auto.
  - injection D as <-. exfalso. pose proof (O1 _ (dget_In _ _ _ D')) as K. cbn [snd] in K. exact (disjoint_spec _ _ _ K I I').
  - injection D' as <-. exfalso. pose proof (O1 _ (dget_In _ _ _ D)) as K. cbn [snd] in K. exact (disjoint_spec _ _ _ K I' I).
  - apply IH; assumption.
Qed.
Lemma fields_uniq l : Forall (fun o => match o with Some v => uniq v | None => True end) l ->
  forall fs l' x, ok_fields fs = true -> ber_fields l fs x -> ber_fields l' fs x -> l = l'.
Proof.
  induction 1 as [|o l Ho Hl IH]; intros fs l' x O A B.
  - destruct fs as [|f fs]; [|contradiction]. destruct l' as [|[v|] l']; [reflexivity | contradiction | contradiction].
  - destruct fs as [|[[n p] c] fs]; [destruct o; contradiction|].
    destruct l' as [|o' l']; [contradiction B|].
    assert (CC : forall v v', uniq v -> ok_fields fs = true -> cat (ber v c) (ber_fields l fs) x -> cat (ber v' c) (ber_fields l' fs) x -> Some v :: l = Some v' :: l').
    { intros v v' U O' (b1 & b2 & X & Y & E) (b3 & b4 & X' & Y' & E'). destruct (U c v' b1 b3 b2 b4 X X') as [<- <-]; [congruence|].
      assert (b2 = b4) by (rewrite E in E'; apply app_inv_head in E'; exact E'). subst b4. f_equal. eapply IH; eauto. }
    assert (NO : forall (D : disjoint (first c) (follow fs) = true) v m m', cat (ber v c) (ber_fields m fs) x -> ber_fields m' fs x -> False).
    { intros D v m m' (b1 & b2 & X & _ & E) Y. apply ber_first in X. destruct X as (h & t & -> & I). apply fields_first in Y.
      destruct Y as [->|(h' & t' & E' & I')]; [discriminate E|]. rewrite E in E'. injection E' as <- _. exact (disjoint_spec _ _ _ D I I'). }
    destruct p as [| |d]; cbn [ok_fields] in O; cbn [ber_fields] in A, B.
    + destruct o as [v|]; [|contradiction]. destruct o' as [v'|]; [|contradiction]. apply CC; assumption.
    + apply andb_prop in O. destruct O as [D O]. destruct o as [v|], o' as [v'|].
      * apply CC; assumption.
      * exfalso. exact (NO D v l l' A B).
      * exfalso. exact (NO D v' l' l B A).
      * f_equal. eapply IH; eauto.
    + apply andb_prop in O. destruct O as [D O]. destruct o as [v|]; [|contradiction]. destruct o' as [v'|]; [|contradiction].
      destruct A as [[-> A]|A], B as [[-> B]|B].
      * f_equal. eapply IH; eauto.
      * exfalso. exact (NO D v' l' l B A).
      * exfalso. exact (NO D v l l' A B).
      * apply CC; assumption.
Qed.
Lemma list_uniq l e : Forall uniq l -> forall l' x, cats (map (fun v => ber v e) l) x -> cats (map (fun v => ber v e) l') x -> l = l'.
Proof.
  induction 1 as [|v l U Hl IH]; intros [|v' l'] x A B; cbn [map cats fold_right] in A, B.
  - reflexivity.
  - exfalso. unfold eps in A. subst x. destruct B as (b1 & b2 & X & _ & E). apply ber_first in X. destruct X as (h & t & -> & _). discriminate E.
  - exfalso. unfold eps in B. subst x. destruct A as (b1 & b2 & X & _ & E). apply ber_first in X. destruct X as (h & t & -> & _). discriminate E.
  - destruct A as (b1 & b2 & X & Y & E), B as (b3 & b4 & X' & Y' & E'). destruct (U e v' b1 b3 b2 b4 X X') as [<- <-]; [congruence|].
    assert (b2 = b4) by (rewrite E in E'; apply app_inv_head in E'; exact E'). subst b4. f_equal. eapply IH; eauto.
Qed.
Lemma content_uniq v c v' x :
  (forall l, v = VSeq l -> Forall (fun o => match o with Some v => uniq v | None => True end) l) ->
  (forall l, v = VList l -> Forall uniq l) -> (forall n w, v = VAlt n w -> uniq w) ->
  content v c x -> content v' c x -> v = v'.
Proof.
  intros HS HL HA A B. unfold content in A, B. pose proof (all_ok c) as K. unfold ok_class in K.
  apply andb_prop in K. destruct K as [K _]. apply andb_prop in K. destruct K as [_ K].
  destruct (shape_of c) as [r| | |e|fs|m e|alts]; destruct v; try contradiction; destruct v'; try contradiction.
  - destruct A as [_ A], B as [_ B]. destruct A as (_ & _ & _ & <-), B as (_ & _ & _ & <-). reflexivity.
  - destruct A as (y & -> & _ & A), B as (y' & E & _ & B). injection E as <-. f_equal.
    destruct b, b0; try reflexivity; [symmetry|]; tauto.
  - reflexivity.
  - unfold raw in A, B. congruence.
  - f_equal. eapply fields_uniq; eauto.
  - destruct A as [_ A], B as [_ B]. f_equal. eapply list_uniq; eauto.
  - destruct (dget alts name) as [d|] eqn:D; [|contradiction]. destruct (dget alts name0) as [d'|] eqn:D'; [|contradiction].
    apply andb_prop in K. destruct K as [K _].
    destruct (ber_first _ _ _ A) as (h & t & -> & I). destruct (ber_first _ _ _ B) as (h' & t' & E & I'). injection E as <- <-.
    destruct (alts_same alts _ _ _ _ h K D D' I I') as [<- <-]. destruct (HA _ _ eq_refl d v' _ _ [] [] A B eq_refl) as [<- _]. reflexivity.
Qed.
Theorem ber_uniq v : uniq v.
Proof.
  assert (G : forall v, (forall l, v = VSeq l -> Forall (fun o => match o with Some v => uniq v | None => True end) l) ->
    (forall l, v = VList l -> Forall uniq l) -> (forall n w, v = VAlt n w -> uniq w) -> uniq v).
  { clear v. intros v HS HL HA c v' b b' r r' A B E. destruct (tags_shape c) as [[t T]|[T [alts S]]].
    - rewrite (ber_tagged v c t T) in A. rewrite (ber_tagged v' c t T) in B.
      destruct (tlv_prefix _ _ _ _ _ _ _ A B E) as (x & X & Y & <-). split; [|reflexivity]. apply (content_uniq v c v' x HS HL HA X Y).
    - rewrite ber_content, T in A. rewrite ber_content, T in B. cbn [wrap] in A, B. unfold content in A, B. rewrite S in A, B.
      destruct v; try contradiction. destruct v'; try contradiction.
      destruct (dget alts name) as [d|] eqn:D; [|contradiction]. destruct (dget alts name0) as [d'|] eqn:D'; [|contradiction].
      pose proof (all_ok c) as K. unfold ok_class in K. rewrite S, T in K.
      apply andb_prop in K. destruct K as [K _]. apply andb_prop in K. destruct K as [_ K]. apply andb_prop in K. destruct K as [K _].
      destruct (ber_first _ _ _ A) as (h & t & -> & I). destruct (ber_first _ _ _ B) as (h' & t' & -> & I'). injection E as <- E.
      destruct (alts_same alts _ _ _ _ h K D D' I I') as [<- <-]. destruct (HA _ _ eq_refl d v' _ _ r r' A B) as [<- E2]; [cbn [List.app]; congruence|].
      split; [reflexivity | exact E2]. }
  induction v using asn_ind2; apply G; intros; try discriminate; try (injection H0 as <-; exact H); try (injection H as <- <-; exact IHv).
Qed.
