(** * The built-in syntax rules together *)
From Verif Require Import PyBase Model_Prep Model_Uri Model_Regex Spec_Regex Proofs_Regex Spec_Search Proofs_Search2
  Model_Parse Spec_Parse Proofs_Parse Proofs_Parse2 Model_Syntax Spec_Syntax Proofs_Syntax Proofs_Syntax2 Proofs_Syntax3.

(** a final newline changes nothing where the syntax allows a newline there *)
Lemma newline_absorbed (A : lang) : (forall t, A t -> A (t ++ [10%N])) -> forall s, or_newline A s <-> A s.
Proof. intros H s. split; [intros [Hs|(t & -> & Ht)]; auto|now left]. Qed.
Lemma prefix_absorbed (A B : lang) : B [] -> forall s, some_prefix (A ;; B) s <-> some_prefix A s.
Proof.
  intros HB s. split.
  - intros (t & e & -> & x & y & -> & Hx & _). exists x, (y ++ e). now rewrite app_assoc.
  - intros (t & e & -> & Ht). exists t, e. split; [reflexivity|]. exists t, []. now rewrite app_nil_r.
Qed.
Lemma decides_bool (f : str -> bool) (P : lang) : (forall s, f s = true <-> P s) ->
  decides (fun s => if f s then Ok tt else Raise InvalidSyntaxError) P.
Proof.
  intros H s. specialize (H s). destruct (f s) eqn:E.
  - split; [reflexivity|]. split; [intros Hn; elim Hn; now apply H|]. intros _. now apply H.
  - split; [intros Hp; apply H in Hp; discriminate|]. split; [reflexivity|discriminate].
Qed.
Lemma decides_ext (v w : str -> res unit) P : (forall s, v s = w s) -> decides v P -> decides w P.
Proof. intros E H s. rewrite <- E. apply H. Qed.
Lemma oid_same t : oid code32 t <-> oid laurelin t.
Proof. reflexivity. Qed.
Lemma ia5_newline t : all (fun c => c <= 127)%N t -> all (fun c => c <= 127)%N (t ++ [10%N]).
Proof. intros H. apply Forall_app. split; [exact H|]. constructor; [lia|constructor]. Qed.
Lemma line_newline : line_char [10%N].
Proof. right. right. right. exists 10%N. split; [reflexivity|]. split; discriminate. Qed.
Lemma postal_newline t : postal_address t -> postal_address (t ++ [10%N]).
Proof.
  intros H. assert (O : forall s, (line_char ;; many line_char) s -> (line_char ;; many line_char) (s ++ [10%N])).
  { intros s (x & y & -> & Hx & Hy). exists x, (y ++ [10%N]). rewrite app_assoc. split; [reflexivity|]. split; [exact Hx|]. apply many_snoc; [exact Hy|apply line_newline]. }
  unfold postal_address in *. induction H as [s Hs|x y z Hx Hy Hz IH]; [apply listed_one, O, Hs|]. rewrite <- !app_assoc. now apply listed_more.
Qed.
Theorem validate_decides order r : set_order order -> decides (fun s => validate order r (Text s)) (accepted r).
Proof.
  intros Ho. destruct r; cbn [validate accepted rfc_value].
  - (* Binary *) intros s. cbn. split; [intros []|]. split; [reflexivity|discriminate].
  - intros s. cbn. split; [intros []|]. split; [reflexivity|discriminate].
  - apply decides_anchored, L_bits.
  - apply (decides_ext (fun s => if str_eqb s (lit "TRUE") || str_eqb s (lit "FALSE") then Ok tt else Raise InvalidSyntaxError)).
    + intros s. destruct (str_eqb s (lit "TRUE")), (str_eqb s (lit "FALSE")); reflexivity.
    + apply decides_bool. intros s. rewrite orb_true_iff, !str_eqb_eq. unfold word. cbn [map In]. split; [intros [-> | ->]; auto|intros [<-|[<-|[]]]; auto].
  - apply decides_anchored, L_country.
  - apply decides_anchored, L_delivery.
  - apply (decides_ext (fun s => if negb (match s with [] => true | _ => false end) then Ok tt else Raise InvalidSyntaxError)); [intros [|]; reflexivity|].
    apply decides_bool. intros [|]; cbn; split; congruence.
  - apply decides_anchored, L_dn.
  - apply fax_decides.
  - intros s. split; [reflexivity|]. split; [tauto|auto].
  - apply time_decides.
  - eapply decides_eq; [apply decides_anchored, L_ia5|]. apply newline_absorbed, ia5_newline.
  - apply decides_anchored, L_integer.
  - intros s. cbn. split; [intros []|]. split; [reflexivity|discriminate].
  - eapply decides_eq; [apply decides_prefix, L_nuid|]. apply prefix_absorbed. now left.
  - apply decides_anchored, L_numeric.
  - intros s. split; [reflexivity|]. split; [tauto|auto].
  - apply decides_anchored. exact L_oid.
  - eapply decides_eq; [apply decides_anchored, L_mailbox|]. apply newline_absorbed. intros t (x & y & -> & Hx & u & v & -> & Hu & Hv).
    exists x, (u ++ v ++ [10%N]). rewrite <- !app_assoc. split; [reflexivity|]. split; [exact Hx|]. exists u, (v ++ [10%N]). split; [reflexivity|].
    split; [exact Hu|now apply ia5_newline].
  - destruct (escaped_defined order (lit "\$") Ho) as [c E]; [repeat constructor|]. rewrite E. cbn [bind].
    eapply decides_eq; [apply decides_anchored, (L_postal order c Ho E)|]. apply newline_absorbed, postal_newline.
  - apply decides_anchored, L_printables.
  - destruct (escaped_defined order (lit "\*") Ho) as [c E]; [repeat constructor|]. rewrite E. cbn [bind]. apply decides_prefix, (L_substring order c Ho E).
  - apply decides_bool, phone_iff.
  - apply decides_anchored, L_ttx.
  - apply decides_anchored, L_telex.
Qed.

(** ** Inclusions between the dialects of distinguished names *)
Lemma listed_mono (S A B : lang) t : (forall t, A t -> B t) -> listed S A t -> listed S B t.
Proof. intros H. induction 1; [apply listed_one|apply listed_more]; auto. Qed.
Lemma many_mono (A B : lang) t : (forall t, A t -> B t) -> many A t -> many B t.
Proof. intros H. induction 1; constructor; auto. Qed.
Lemma cat_mono (A A' B B' : lang) t : (forall t, A t -> A' t) -> (forall t, B t -> B' t) -> (A ;; B) t -> (A' ;; B') t.
Proof. intros HA HB (x & y & -> & Hx & Hy). exists x, y. auto. Qed.
Section Mono.
  Context (D E : dn_dialect).
  Context (Hn : forall s, dn_number D s -> dn_number E s) (Hl : forall c, dn_lead D c -> dn_lead E c) (Ht : forall c, dn_trail D c -> dn_trail E c)
    (He : forall c, dn_escapable D c -> dn_escapable E c) (Hv : dn_empty_value D -> dn_empty_value E) (Hm : dn_empty D -> dn_empty E).
  Lemma pair_mono t : pair D t -> pair E t.
  Proof. apply cat_mono; [auto|]. intros x [(c & -> & Hc)|Hx]; [left; exists c; auto|now right]. Qed.
  Lemma one_or_pair (P Q : N -> Prop) t : (forall c, P c -> Q c) -> either (one P) (pair D) t -> either (one Q) (pair E) t.
  Proof. intros H [(c & -> & Hc)|Hx]; [left; exists c; auto|right; now apply pair_mono]. Qed.
  Lemma dn_mono t : dn D t -> dn E t.
  Proof.
    intros [[-> H]|H]; [left; auto|right]. revert H. apply listed_mono. intros x. apply listed_mono. clear x. intros x. apply cat_mono.
    - intros y [Hy|(l & Hl' & Hf & ->)]; [now left|right]. exists l. split; [exact Hl'|]. split; [|reflexivity]. revert Hf. apply Forall_impl. exact Hn.
    - intros y. apply cat_mono; [auto|]. intros z [Hz|Hz]; [left|now right]. destruct Hz as [[-> Hz]|Hz]; [left; auto|right]. revert Hz. apply cat_mono.
      + intros u. apply one_or_pair. exact Hl.
      + intros u [->|Hu]; [now left|right]. revert Hu. apply cat_mono.
        * intros w. apply many_mono. intros w'. apply one_or_pair. auto.
        * intros w. apply one_or_pair. exact Ht.
  Qed.
End Mono.
Lemma rfc_number_digits s : rfc_number s -> digits s.
Proof. intros (c & r & -> & Hr & _). split; [discriminate|]. exact Hr. Qed.
Lemma common_rfc t : dn common_dn t -> dn rfc4514 t.
Proof. apply dn_mono; cbn; tauto. Qed.
Lemma common_code t : dn common_dn t -> dn laurelin_dn t.
Proof. apply dn_mono; cbn; try tauto. exact rfc_number_digits. Qed.

(** ** What no RFC 4514 name looks like *)
Definition no_nul (s : str) : Prop := Forall (fun c => c <> 0%N) s.
Definition ends_ok (s : str) : Prop := forall t, s = t ++ [32%N] -> exists t', t = t' ++ [92%N].
Lemma many_all (A : lang) (P : N -> Prop) t : (forall t, A t -> Forall P t) -> many A t -> Forall P t.
Proof. intros H. induction 1; [constructor|]. apply Forall_app. auto. Qed.
Lemma listed_all (S A : lang) (P : N -> Prop) t : (forall t, S t -> Forall P t) -> (forall t, A t -> Forall P t) -> listed S A t -> Forall P t.
Proof. intros HS HA. induction 1; [auto|]. rewrite !Forall_app. auto. Qed.
Lemma ends_app x y : y <> [] -> ends_ok y -> ends_ok (x ++ y).
Proof.
  intros Hn He t E. destruct (exists_last Hn) as (y' & c & ->). rewrite app_assoc in E. apply app_inj_tail in E as [<- ->].
  destruct (He y' eq_refl) as [t' ->]. exists (x ++ t'). now rewrite app_assoc.
Qed.
Lemma listed_ends (S A : lang) t : (forall t, A t -> t <> [] /\ ends_ok t) -> listed S A t -> t <> [] /\ ends_ok t.
Proof.
  intros HA. induction 1 as [s Hs|x y z Hx Hy Hz [IH1 IH2]]; [auto|]. split; [destruct x; [destruct y; [exact IH1|discriminate]|discriminate]|].
  apply ends_app; [now destruct y|]. now apply ends_app.
Qed.
Lemma ends_one c : c <> 32%N -> ends_ok [c].
Proof. intros H t E. destruct t as [|x [|y t]]; cbn in E; injection E; intros; try discriminate. congruence. Qed.
Lemma hexpair_ends x : hexpair x -> x <> [] /\ ends_ok x.
Proof.
  intros (a & b & -> & _ & Hb). split; [discriminate|]. change [a; b] with ([a] ++ [b]). apply ends_app; [discriminate|]. apply ends_one.
  unfold HEXDIGIT, DIGIT in Hb. lia.
Qed.
Lemma pair_ends D x : pair D x -> x <> [] /\ ends_ok x.
Proof.
  intros (u & v & -> & -> & [(c & -> & _)|Hv]); (split; [discriminate|]).
  - intros t E. exists []. destruct t as [|a [|b t]]; cbn in E; try discriminate E. + injection E as <- _. reflexivity. + destruct t; discriminate E.
  - apply ends_app; apply hexpair_ends; exact Hv.
Qed.
Lemma one_pair_ends D (P : N -> Prop) x : (forall c, P c -> c <> 32%N) -> either (one P) (pair D) x -> x <> [] /\ ends_ok x.
Proof. intros H [(c & -> & Hc)|Hx]; [split; [discriminate|apply ends_one; auto]|now apply (pair_ends D)]. Qed.
Lemma value_ends x : either (string_value rfc4514) hex_string x -> x = [] \/ x <> [] /\ ends_ok x.
Proof.
  intros [[[-> _]|(u & v & -> & Hu & Hv)]|(u & v & -> & -> & y & z & -> & Hy & Hz)]; [now left|right|right].
  - apply (one_pair_ends rfc4514) in Hu as [Hu Eu]; [|cbn; tauto]. split; [now destruct u|]. destruct Hv as [->|(p & q & -> & _ & Hq)]; [now rewrite app_nil_r|].
    apply (one_pair_ends rfc4514) in Hq as [Hq Eq]; [|cbn; tauto]. rewrite app_assoc. now apply ends_app.
  - split; [discriminate|]. assert (H : y ++ z <> [] /\ ends_ok (y ++ z)); [|now apply ends_app].
    destruct (hexpair_ends y Hy) as [Ny Ey]. split; [now destruct y|]. apply many_last in Hz as [->|(p & q & -> & _ & Hq)]; [now rewrite app_nil_r|].
    destruct (hexpair_ends q Hq) as [Nq Eq]. rewrite app_assoc. now apply ends_app.
Qed.
Lemma dn_ends t : dn rfc4514 t -> ends_ok t.
Proof.
  intros [[-> _]|H]; [intros t E; now destruct t|]. revert H. intros H. apply (listed_ends (is (lit ",")) (Spec_Syntax.rdn rfc4514)); [|exact H]. clear t H. intros t H.
  revert H. apply listed_ends. clear t. intros t (x & y & -> & _ & e & v & -> & -> & Hv). split; [now destruct x|].
  apply ends_app; [discriminate|]. apply value_ends in Hv as [->|[Nv Ev]]; [|now apply ends_app]. rewrite app_nil_r. now apply ends_one.
Qed.
Lemma stringchar_nul c : stringchar c -> c <> 0%N.
Proof. intros H ->. apply H. now left. Qed.
Lemma pair_nul x : pair rfc4514 x -> no_nul x.
Proof.
  intros (u & v & -> & -> & [(c & -> & Hc)|(a & b & -> & Ha & Hb)]); repeat constructor; try discriminate.
  - intros ->. cbn [dn_escapable rfc4514] in Hc. change (ch "#") with 35%N in Hc. change (ch "=") with 61%N in Hc.
    repeat (destruct Hc as [Hc|Hc]; [discriminate Hc|]). exact Hc.
  - unfold HEXDIGIT, DIGIT in Ha. lia.
  - unfold HEXDIGIT, DIGIT in Hb. lia.
Qed.
Lemma hexpair_nul x : hexpair x -> no_nul x.
Proof. intros (a & b & -> & Ha & Hb). unfold HEXDIGIT, DIGIT in *. repeat constructor; lia. Qed.
Lemma one_pair_nul (P : N -> Prop) x : (forall c, P c -> c <> 0%N) -> either (one P) (pair rfc4514) x -> no_nul x.
Proof. intros H [(c & -> & Hc)|Hx]; [repeat constructor; auto|now apply pair_nul]. Qed.
Lemma joined_all (P : N -> Prop) sep l : P sep -> Forall (Forall P) l -> Forall P (joined sep l).
Proof.
  intros Hs H. induction H as [|x [|y l] Hx Hl IH]; [constructor|exact Hx|]. change (joined sep (x :: y :: l)) with (x ++ sep :: joined sep (y :: l)).
  apply Forall_app. split; [exact Hx|]. constructor; [exact Hs|exact IH].
Qed.
Lemma type_nul x : Spec_Syntax.attribute_type rfc4514 x -> no_nul x.
Proof.
  intros [Hd|(l & _ & Hl & ->)].
  - destruct Hd as (c & r & -> & Hc & Hr). constructor; [unfold ALPHA in Hc; lia|]. revert Hr. apply Forall_impl. intros a. unfold ALPHA, DIGIT. change (ch "-") with 45%N. lia.
  - apply joined_all; [discriminate|]. revert Hl. apply Forall_impl. intros a (c & r & -> & Hr & _). revert Hr. apply Forall_impl. unfold DIGIT. intros; lia.
Qed.
Lemma dn_nul t : dn rfc4514 t -> no_nul t.
Proof.
  intros [[-> _]|H]; [constructor|]. revert H. apply listed_all; [intros x ->; repeat constructor; discriminate|]. clear t. intros t.
  apply listed_all; [intros x ->; repeat constructor; discriminate|]. clear t. intros t (x & y & -> & Hx & e & v & -> & -> & Hv).
  apply Forall_app. split; [now apply type_nul|]. constructor; [discriminate|]. destruct Hv as [[[-> _]|(u & w & -> & Hu & Hw)]|(u & w & -> & -> & p & q & -> & Hp & Hq)].
  - constructor.
  - apply Forall_app. split; [eapply one_pair_nul; [|exact Hu]; cbn; intros c [Hc _]; now apply stringchar_nul|]. destruct Hw as [->|(p & q & -> & Hp & Hq)]; [constructor|].
    apply Forall_app. split; [eapply many_all; [|exact Hp]; intros z; apply one_pair_nul, stringchar_nul|].
    eapply one_pair_nul; [|exact Hq]; cbn; intros c [Hc _]; now apply stringchar_nul.
  - constructor; [discriminate|]. apply Forall_app. split; [now apply hexpair_nul|]. eapply many_all; [|exact Hq]. apply hexpair_nul.
Qed.
