(** * C66: the built-in syntax rules accept exactly the values of their syntax *)
From Verif Require Import PyBase Model_Prep Model_Uri Model_Regex Spec_Regex Proofs_Regex Spec_Search
  Model_Parse Spec_Parse Model_Syntax Spec_Syntax Proofs_Syntax Proofs_Syntax2 Proofs_Syntax3 Proofs_Syntax4.

Ltac piece x := exists x; eexists; split; [reflexivity|]; split.

(** What each rule does with any text, whatever order the sets are listed in.  [accepted] is the
    grammar of RFC 4517 with the differences written out in Spec_Syntax; without them the claim
    is refuted below. *)
Theorem C66_text_partial order r : set_order order -> decides (fun s => validate order r (Text s)) (accepted r).
Proof. apply validate_decides. Qed.
(** No text makes a rule raise anything but InvalidSyntaxError. *)
Theorem C66_text_outcome order r s : set_order order ->
  validate order r (Text s) = Ok tt \/ validate order r (Text s) = Raise InvalidSyntaxError.
Proof.
  intros Ho. destruct (validate_decides order r Ho s) as (A & B & C). destruct (validate order r (Text s)) as [[]|x] eqn:E; [now left|right].
  apply B. intros H. apply A in H. discriminate.
Qed.
(** These rules do exactly what the RFC asks. *)
Definition exact_rules : list rule :=
  [Boolean; DirectoryString; Fax; IA5String; OctetString; OtherMailbox; PostalAddress; Binary; Certificate; JPEG].
Theorem C66_rfc_exact_partial order r : set_order order -> In r exact_rules -> decides (fun s => validate order r (Text s)) (rfc_value r).
Proof.
  intros Ho H. replace (rfc_value r) with (accepted r); [now apply validate_decides|].
  cbn [exact_rules In] in H. repeat (destruct H as [<-|H]; [reflexivity|]). destruct H.
Qed.
(** These accept every value of the RFC, and of other texts only those values with a newline
    after them. *)
Definition newline_rules : list rule := [BitString; CountryString; GeneralizedTime; NumericString; PrintableString; TelexNumber].
Theorem C66_rfc_newline_partial order r s : set_order order -> In r newline_rules ->
  (rfc_value r s -> validate order r (Text s) = Ok tt) /\
  (validate order r (Text s) = Ok tt -> rfc_value r s \/ exists t, s = t ++ [10%N] /\ rfc_value r t).
Proof.
  intros Ho H. destruct (validate_decides order r Ho s) as (A & _ & C).
  assert (E : accepted r = or_newline (rfc_value r)); [|rewrite E in A, C; split; [intros Hs; apply A; now left|exact C]].
  cbn [newline_rules In] in H. repeat (destruct H as [<-|H]; [reflexivity|]). destruct H.
Qed.
(** Values of the RFC the remaining rules accept. *)
Theorem C66_rfc_accepted_partial order : set_order order ->
  (forall s, integer s -> s <> lit "0" -> validate order Integer (Text s) = Ok tt) /\
  (forall s, oid rfc4512 s -> validate order OID (Text s) = Ok tt) /\
  (forall s, delivery_method spaces ["any"; "mhs"; "physical"; "telex"; "g3fax"; "g4fax"; "ia5"; "telephone"]%string s ->
             validate order DeliveryMethod (Text s) = Ok tt) /\
  (forall s, dn common_dn s -> dn rfc4514 s /\ validate order DistinguishedName (Text s) = Ok tt) /\
  (forall s, name_and_uid common_dn s -> validate order NameAndOptionalUID (Text s) = Ok tt) /\
  (forall s, substring_assertion s -> validate order SubstringAssertion (Text s) = Ok tt).
Proof.
  intros Ho.
  assert (A : forall r s, accepted r s -> validate order r (Text s) = Ok tt) by (intros r s H; now apply (validate_decides order r Ho s)).
  split. { intros s H Hz. apply A. left. auto. }
  split. { intros s H. apply A. left. destruct H as [H|(l & Hl & Hf & ->)]; [now left|right]. exists l. split; [exact Hl|]. split; [|reflexivity]. revert Hf. apply Forall_impl, rfc_number_digits. }
  split. { intros s H. apply A. left. unfold delivery_method in *.
    assert (Sp : forall t, spaces t -> all (fun c => py_isspace c = true) t) by (intros t; apply Forall_impl; intros c ->; reflexivity).
    assert (W : forall t, word ["any"; "mhs"; "physical"; "telex"; "g3fax"; "g4fax"; "ia5"; "telephone"]%string t -> word code_pdm t) by (intros t; unfold word; cbn [map In code_pdm]; tauto).
    induction H as [s Hs|x y z Hx (u & v & -> & Hu & p & q & -> & Hp & Hq) Hz IH]; [apply listed_one; auto|]. apply listed_more; auto. exists u, (p ++ q). split; [reflexivity|].
    split; [auto|]. exists p, q. auto. }
  split. { intros s H. split; [now apply common_rfc|]. apply A. left. now apply common_code. }
  split. { intros s (x & y & -> & Hx & _). apply A. exists x, y. split; [reflexivity|now apply common_code]. }
  intros s H. apply A. exists s, []. now rewrite app_nil_r.
Qed.
(** What each rule does with bytes. *)
Theorem C66_bytes order b : set_order order ->
  validate order Binary (Bytes b) = Ok tt /\ validate order Certificate (Bytes b) = Ok tt /\
  validate order Fax (Bytes b) = Ok tt /\ validate order OctetString (Bytes b) = Ok tt /\
  (validate order JPEG (Bytes b) = Ok tt <-> exists p q, b = p ++ lit "JFIF" ++ q /\ List.length p = 6) /\
  (validate order JPEG (Bytes b) <> Ok tt -> validate order JPEG (Bytes b) = Raise InvalidSyntaxError) /\
  validate order Boolean (Bytes b) = Raise InvalidSyntaxError /\ validate order DirectoryString (Bytes b) = Raise InvalidSyntaxError /\
  (forall r, ~ In r [Binary; Certificate; Fax; OctetString; JPEG; Boolean; DirectoryString] -> validate order r (Bytes b) = Raise TypeError).
Proof.
  intros Ho. do 4 (split; [reflexivity|]). split.
  { cbn [validate]. destruct (str_eqb (firstn 4 (skipn 6 b)) (lit "JFIF")) eqn:E.
    - apply str_eqb_eq in E. split; [intros _|reflexivity]. exists (firstn 6 b), (skipn 10 b). split.
      + rewrite <- E. replace (skipn 10 b) with (skipn 4 (skipn 6 b)); [now rewrite (firstn_skipn 4), firstn_skipn|].
        do 6 (destruct b as [|? b]; [reflexivity|]). reflexivity.
      + apply firstn_length_le. destruct (Nat.le_gt_cases 6 (List.length b)) as [H|H]; [exact H|]. rewrite skipn_all2 in E by lia. discriminate.
    - split; [discriminate|]. intros (p & q & -> & Hp). rewrite skipn_app, Hp, skipn_all2 in E by lia. discriminate E. }
  split. { cbn [validate]. destruct (str_eqb _ _); congruence. }
  do 2 (split; [reflexivity|]). intros r H. destruct (escaped_defined order (lit "\$") Ho) as [c E]; [repeat constructor|].
  destruct (escaped_defined order (lit "\*") Ho) as [c' E']; [repeat constructor|].
  destruct r; try reflexivity; try (elim H; cbn [In]; tauto); cbn [validate]; rewrite ?E, ?E'; reflexivity.
Qed.
(** The pattern of escaped_regex matches one character, the listed ones written as escapes,
    whatever order the set of them is listed in. *)
Theorem C66_escaped_regex order chars : set_order order -> Forall (fun c => c < 256)%N chars ->
  exists r, escaped_regex order chars = Ok r /\ forall s, L r s <-> escaped_char chars s.
Proof. intros Ho H. destruct (escaped_defined order chars Ho H) as [r E]. exists r. split; [exact E|]. exact (L_escaped order chars r Ho E). Qed.

(** ** The full claim is refuted: a rule does not accept exactly the values of its syntax *)
Theorem C66_refuted_integer_zero : rfc_value Integer (lit "0") /\ forall order, validate order Integer (Text (lit "0")) = Raise InvalidSyntaxError.
Proof.
  split; [|intros; vm_compute; reflexivity]. left. exists 48%N, []. split; [reflexivity|]. split; [|congruence].
  constructor; [|constructor]. unfold DIGIT. vm_compute. split; discriminate.
Qed.
Theorem C66_refuted_delivery_method : forall w, In w ["teletex"; "videotex"]%string ->
  rfc_value DeliveryMethod (lit w) /\ forall order, validate order DeliveryMethod (Text (lit w)) = Raise InvalidSyntaxError.
Proof.
  intros w [<-|[<-|[]]]; (split; [apply listed_one; unfold word, rfc_pdm; cbn [map In]; tauto|intros; vm_compute; reflexivity]).
Qed.
Lemma many_single (A : lang) t : A t -> many A t.
Proof. intros H. rewrite <- (app_nil_r t). constructor; [exact H|constructor]. Qed.
Ltac printables := repeat (apply Forall_cons; [apply printable_iff; reflexivity|]); apply Forall_nil.
Theorem C66_refuted_telephone_short : rfc_value TelephoneNumber (lit "911") /\
  forall order, validate order TelephoneNumber (Text (lit "911")) = Raise InvalidSyntaxError.
Proof. split; [|intros; vm_compute; reflexivity]. split; [discriminate|]. printables. Qed.
Theorem C66_refuted_telephone_unprintable : ~ rfc_value TelephoneNumber (lit "1234567" ++ [9%N]) /\
  forall order, validate order TelephoneNumber (Text (lit "1234567" ++ [9%N])) = Ok tt.
Proof.
  split; [|intros; vm_compute; reflexivity]. intros [_ H]. apply Forall_app in H as [_ H]. inversion H as [|? ? H1]; subst. apply printable_iff in H1. discriminate.
Qed.
Theorem C66_refuted_teletex : rfc_value TeletextTerminalIdentifier (lit "a$graphic:A") /\
  forall order, validate order TeletextTerminalIdentifier (Text (lit "a$graphic:A")) = Raise InvalidSyntaxError.
Proof.
  split; [|intros; vm_compute; reflexivity]. piece (lit "a"); [split; [discriminate|printables]|]. apply many_single. piece (lit "$"); [reflexivity|]. piece (lit "graphic"); [now left|]. piece (lit ":"); [reflexivity|].
  apply many_single. right. right. exists (ch "A"). split; [reflexivity|]. split; discriminate.
Qed.
Lemma cn_type D : Spec_Syntax.attribute_type D (lit "cn").
Proof.
  left. exists (ch "c"), (lit "n"). split; [reflexivity|]. split; [right; split; discriminate|]. constructor; [left; right; split; discriminate|constructor].
Qed.
Theorem C66_refuted_dn_refused : forall s, In s [lit ""; lit "cn="; lit "cn==a"] ->
  rfc_value DistinguishedName s /\ forall order, validate order DistinguishedName (Text s) = Raise InvalidSyntaxError.
Proof.
  intros s [<-|[<-|[<-|[]]]]; (split; [|intros; vm_compute; reflexivity]).
  - left. split; [reflexivity|exact I].
  - right. apply listed_one, listed_one. piece (lit "cn"); [apply cn_type|]. piece (lit "="); [reflexivity|]. left. left. split; [reflexivity|exact I].
  - right. apply listed_one, listed_one. piece (lit "cn"); [apply cn_type|]. piece (lit "="); [reflexivity|]. left. right.
    assert (Hc : forall c, In c (lit "=a") -> stringchar c /\ c <> 32%N /\ c <> ch "#").
    { intros c Hc. assert (H : c = 61%N \/ c = 97%N) by (cbn in Hc; intuition auto). split; [|destruct H; subst; split; discriminate].
      apply stringchar_iff. destruct H; subst; reflexivity. }
    piece (lit "="). { left. exists (ch "="). split; [reflexivity|]. apply Hc. now left. }
    right. piece (@nil N); [constructor|]. left. exists (ch "a"). split; [reflexivity|]. split; apply Hc; right; now left.
Qed.
Theorem C66_refuted_dn_accepted : forall s, In s [lit "cn=a "; lit "cn=\" ++ [0%N]] ->
  ~ rfc_value DistinguishedName s /\ forall order, validate order DistinguishedName (Text s) = Ok tt.
Proof.
  intros s [<-|[<-|[]]]; (split; [|intros; vm_compute; reflexivity]).
  - intros H. apply dn_ends in H. destruct (H (lit "cn=a") eq_refl) as [t E]. assert (E' : lit "cn=" ++ [97%N] = t ++ [92%N]) by exact E. apply app_inj_tail in E' as [_ E']. discriminate.
  - intros H. apply dn_nul in H. apply Forall_app in H as [_ H]. inversion H; congruence.
Qed.
Theorem C66_refuted_newline : ~ rfc_value CountryString (lit "US" ++ [10%N]) /\
  forall order, validate order CountryString (Text (lit "US" ++ [10%N])) = Ok tt.
Proof. split; [intros [H _]; discriminate|intros; vm_compute; reflexivity]. Qed.
Theorem C66_refuted_oid : ~ rfc_value OID (lit "1.01") /\ forall order, validate order OID (Text (lit "1.01")) = Ok tt.
Proof.
  split; [|intros; vm_compute; reflexivity]. intros [(c & r & E & Hc & _)|(l & Hl & Hf & E)].
  - injection E as <- _. unfold ALPHA in Hc. lia.
  - destruct l as [|a [|b l]]; [cbn in Hl; lia|cbn in Hl; lia|]. inversion Hf as [|? ? (c & r & -> & Hd & _) Hf']; subst. inversion Hf' as [|? ? (c2 & r2 & -> & Hd2 & Hz) _]; subst.
    cbn [joined app] in E. injection E as _ E. destruct r as [|d r]; [|cbn [app] in E; injection E as <- _; inversion Hd as [|? ? _ Hd']; inversion Hd' as [|? ? X]; unfold DIGIT in X; lia].
    cbn [app] in E. destruct r2 as [|e r2]; [destruct l; cbn [joined app] in E; discriminate E|]. destruct l; cbn [joined app] in E; injection E as <- _; now apply Hz.
Qed.
Lemma substring_char_last x : substring_char x -> exists p c, x = p ++ [c] /\ c <> 92%N.
Proof.
  intros [->|[->|[->|[->|(c & -> & _ & H)]]]]; [exists (lit "\2"), 65%N|exists (lit "\2"), 97%N|exists (lit "\5"), 67%N|exists (lit "\5"), 99%N|exists [], c; split; [reflexivity|exact H]];
    (split; [reflexivity|discriminate]).
Qed.
(** the pattern is not anchored at the end: an escape is not checked after the last asterisk *)
Theorem C66_refuted_substring : ~ rfc_value SubstringAssertion (lit "a*\") /\
  forall order, set_order order -> validate order SubstringAssertion (Text (lit "a*\")) = Ok tt.
Proof.
  split.
  - intros (x & y & E & _ & m & z & -> & Hm & Hz).
    assert (K : exists p c, x ++ m ++ z = p ++ [c] /\ c <> 92%N).
    { destruct Hz as [->|(u & v & -> & Hu & Hv)].
      - rewrite app_nil_r. destruct Hm as (a & w & -> & -> & Hw). apply many_last in Hw as [->|(p & q & -> & _ & (s1 & s2 & -> & _ & ->))].
        + exists x, 42%N. split; [reflexivity|discriminate].
        + exists (x ++ lit "*" ++ p ++ s1), 42%N. split; [now rewrite <- !app_assoc|discriminate].
      - apply many_last in Hv as [->|(p & q & -> & _ & Hq)].
        + apply substring_char_last in Hu as (p & c & -> & Hc). exists (x ++ m ++ p), c. rewrite app_nil_r. split; [now rewrite <- !app_assoc|exact Hc].
        + apply substring_char_last in Hq as (p' & c & -> & Hc). exists (x ++ m ++ u ++ p ++ p'), c. split; [now rewrite <- !app_assoc|exact Hc]. }
    destruct K as (p & c & K & Hc). rewrite K in E. change (lit "a*\") with ([97; 42]%N ++ [92%N]) in E. apply app_inj_tail in E as [_ E]. congruence.
  - intros order Ho. apply (validate_decides order SubstringAssertion Ho). exists (lit "a*"), (lit "\"). split; [reflexivity|].
    piece (lit "a"). { right. piece (lit "a"); [|constructor]. do 4 right. exists (ch "a"). split; [reflexivity|]. split; discriminate. }
    piece (lit "*"); [|now left]. piece (lit "*"); [reflexivity|constructor].
Qed.
Theorem C66_refuted_name_and_uid : ~ rfc_value NameAndOptionalUID (lit "cn=a" ++ [0%N]) /\
  forall order, validate order NameAndOptionalUID (Text (lit "cn=a" ++ [0%N])) = Ok tt.
Proof.
  split; [|intros; vm_compute; reflexivity]. intros (x & y & E & Hx & Hy).
  assert (H : no_nul (x ++ y)).
  { apply Forall_app. split; [now apply dn_nul|]. destruct Hy as [->|(a & b & -> & -> & (c & d & -> & -> & (e & f & -> & He & ->)))]; [constructor|].
    constructor; [discriminate|]. constructor; [discriminate|]. apply Forall_app. split; [|repeat constructor; discriminate]. revert He. apply Forall_impl. intros z [-> | ->]; discriminate. }
  rewrite <- E in H. apply Forall_app in H as [_ H]. inversion H; congruence.
Qed.

(** ** Cases *)
Lemma not_newline (A : lang) t c : or_newline A (t ++ [c]) -> c <> 10%N -> A (t ++ [c]).
Proof. intros [H|(u & E & _)] Hc; [exact H|]. apply app_inj_tail in E as [_ E]. congruence. Qed.
Example C66_nonvacuous :
  set_order (fun l => l) /\ set_order (@rev N) /\
  rfc_value GeneralizedTime (lit "20240229235960.5-0530") /\
  dn common_dn (lit "cn=\,J+sn=#0aF0") /\
  rfc_value PostalAddress (lit "1 Main St.$Any\24town") /\
  substring_assertion (lit "a*") /\
  rfc_value TelexNumber (lit "12345$023$ABCDE") /\
  validate (fun l => l) GeneralizedTime (Text (lit "20241301000000Z")) = Raise InvalidSyntaxError /\
  validate (fun l => l) FacsimileTelephoneNumber (Text (lit "+1 555 123 4567$a3Width")) = Ok tt /\
  validate (fun l => l) FacsimileTelephoneNumber (Text (lit "+1 555 123 4567$a4Width")) = Raise InvalidSyntaxError /\
  validate (fun l => l) DistinguishedName (Text (lit "cn=a,b")) = Raise InvalidSyntaxError /\
  validate (fun l => l) JPEG (Bytes ([255; 216; 255; 224; 0; 16]%N ++ lit "JFIF")) = Ok tt.
Proof.
  assert (I : set_order (fun l => l)) by (intros l c; reflexivity). split; [exact I|]. split; [intros l c; symmetry; apply in_rev|].
  assert (D : forall r s, validate (fun l => l) r (Text s) = Ok tt -> accepted r s) by (intros r s; apply (validate_decides (fun l => l) r I s)).
  split. { apply (not_newline _ (lit "20240229235960.5-053") 48%N); [apply (D GeneralizedTime); vm_compute; reflexivity|discriminate]. }
  split.
  { right. apply listed_one. apply (listed_more _ _ (lit "cn=\,J") (lit "+") (lit "sn=#0aF0")); [|reflexivity|apply listed_one].
    - piece (lit "cn"); [apply cn_type|]. piece (lit "="); [reflexivity|]. left. right. piece (lit "\,").
      + right. piece (lit "\"); [reflexivity|]. left. exists (ch ","). split; [reflexivity|]. cbn [dn_escapable common_dn In]. tauto.
      + right. piece (@nil N); [constructor|]. left. exists (ch "J"). split; [reflexivity|]. split; [|discriminate]. apply stringchar_iff. reflexivity.
    - piece (lit "sn"). { left. exists (ch "s"), (lit "n"). split; [reflexivity|]. split; [right; split; discriminate|]. constructor; [left; right; split; discriminate|constructor]. }
      piece (lit "="); [reflexivity|]. right. piece (lit "#"); [reflexivity|]. piece (lit "0a").
      + exists (ch "0"), (ch "a"). split; [reflexivity|]. split; [left; split; discriminate|right; right; split; discriminate].
      + apply many_single. exists (ch "F"), (ch "0"). split; [reflexivity|]. split; [right; left; split; discriminate|left; split; discriminate]. }
  split; [apply (D PostalAddress); vm_compute; reflexivity|].
  split. { piece (lit "a"). { right. piece (lit "a"); [|constructor]. do 4 right. exists (ch "a"). split; [reflexivity|]. split; discriminate. }
    piece (lit "*"); [|now left]. piece (lit "*"); [reflexivity|constructor]. }
  split. { apply (not_newline _ (lit "12345$023$ABCD") 69%N); [apply (D TelexNumber); vm_compute; reflexivity|discriminate]. }
  repeat split; vm_compute; reflexivity.
Qed.

Print Assumptions C66_text_partial.
Print Assumptions C66_text_outcome.
Print Assumptions C66_rfc_exact_partial.
Print Assumptions C66_rfc_newline_partial.
Print Assumptions C66_rfc_accepted_partial.
Print Assumptions C66_bytes.
Print Assumptions C66_escaped_regex.
Print Assumptions C66_refuted_dn_accepted.
Print Assumptions C66_refuted_substring.
