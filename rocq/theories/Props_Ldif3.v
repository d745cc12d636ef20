(** * UTF-8 and base 64 in LDIF are those of the RFCs
    C33, C34 and the properties of the wire format (C78 ...) speak of the octets of a text and of base 64 by the
    functions of the model; here these are shown to be what RFC 3629 and RFC 4648 (Spec_Utf8) say. *)
From Verif Require Import PyBase Model_Uri Model_Prep Model_Ldif Spec_Ldif Spec_Utf8 Proofs_Ldif Proofs_Ldif2 Proofs_Ldif5 Props_Ldif Proofs_Utf8 Proofs_Utf8b.

Lemma scalar_same s : Forall Spec_Ldif.scalar s <-> Forall Spec_Reply.scalar s.
Proof.
  assert (E : forall c, Spec_Ldif.scalar c <-> Spec_Reply.scalar c) by (intro c; unfold Spec_Ldif.scalar, Spec_Reply.scalar; lia).
  split; apply Forall_impl; intros c H; now apply E.
Qed.

(** The octets of a text are those of RFC 3629, for every text of Unicode scalar values; no other text has an encoding. *)
Theorem C33_text_is_utf8 s b : encoded s b <-> val_bytes (Text s) = b /\ Forall Spec_Ldif.scalar s.
Proof. rewrite scalar_same. apply encoded_iff. Qed.

(** Different texts have different octets, and the first characters of a text do not depend on what follows. *)
Theorem C33_utf8_unambiguous s t b c : encoded s b -> encoded t (b ++ c) -> exists r, t = s ++ r /\ encoded r c.
Proof.
  intros Hs. revert t c. induction Hs as [|x e s y Hx Hs IH]; intros t c Ht; [exists t; auto|].
  rewrite <- app_assoc in Ht.
  apply encoded_iff in Ht. destruct Ht as [Et Ft]. apply (fun H => proj2 (utf8_decodes _ _) (Logic.conj H Ft)) in Et.
  apply rfc3629_scalar in Hx. destruct Hx as [Sx <-]. rewrite dec_char in Et by exact Sx.
  destruct (utf8_dec (y ++ c)) as [t'|] eqn:E; [|discriminate]. cbn [option_map] in Et. injection Et as <-.
  apply utf8_decodes in E. destruct E as [E F]. destruct (IH t' c) as (r & -> & Hr); [apply encoded_iff; auto|].
  exists r. auto.
Qed.

(** What is written in base 64 is the base 64 of RFC 4648, which is unique, and which the reading of LDIF (Spec_Ldif) takes
    back to the octets. *)
Theorem C33_base64_is_rfc4648 b t : Forall (fun x => (x < 256)%N) b ->
  (rfc4648 b t <-> t = b64encode b) /\ (rfc4648 b t -> b64_read t = Some b).
Proof.
  intros F. pose proof (b64encode_rfc b F) as H. split; [split|].
  - intros Ht. eapply rfc4648_unique; eauto.
  - intros ->. exact H.
  - intros Ht. rewrite (rfc4648_unique b t (b64encode b) Ht H). apply b64_roundtrip. exact F.
Qed.
Lemma utf8_octets s : Forall Spec_Ldif.scalar s -> Forall (fun x => (x < 256)%N) (utf8 s).
Proof.
  rewrite scalar_same. intros F. assert (E : encoded s (utf8 s)) by (apply encoded_iff; auto).
  revert E. generalize (utf8 s). intros b E. clear F. induction E as [|c x s y H _ IH]; [constructor|].
  apply Forall_app. split; [|exact IH]. destruct H; repeat (apply Forall_cons; [lia|]); constructor.
Qed.

(** A text is written as it is, or as two colons and the base 64 of its UTF-8 octets; octets that are not UTF-8 as two
    colons and their base 64.  The decoder that decides is the one of RFC 3629. *)
Theorem C33_value_line a v :
  val_ok v ->
  match v with
  | Text s => Forall Spec_Ldif.scalar s ->
      value_line utf8_dec a v = a ++ lit ": " ++ s
      \/ exists b t, encoded s b /\ rfc4648 b t /\ value_line utf8_dec a v = a ++ lit ":: " ++ t
  | Bytes b =>
      (exists s, encoded s b /\ value_line utf8_dec a v = value_line utf8_dec a (Text s))
      \/ ((forall s, ~ encoded s b) /\ exists t, rfc4648 b t /\ value_line utf8_dec a v = a ++ lit ":: " ++ t)
  end.
Proof.
  intros Hv. destruct v as [s|b].
  - intros F. cbn [value_line]. destruct (proj2 (C33_literal_iff s)) as [E|E]; rewrite E.
    + left. reflexivity.
    + right. exists (utf8 s), (b64encode (utf8 s)). split; [apply encoded_iff; rewrite <- scalar_same; auto|].
      split; [apply b64encode_rfc; now apply utf8_octets|]. reflexivity.
  - cbn [value_line]. destruct (utf8_dec b) as [s|] eqn:E.
    + left. exists s. apply utf8_decodes in E. split; [apply encoded_iff; exact E|reflexivity].
    + right. split.
      * intros s H. apply encoded_iff in H. apply utf8_decodes in H. congruence.
      * exists (b64encode b). split; [apply b64encode_rfc; exact Hv|reflexivity].
Qed.

Lemma utf8_dec_sound : utf8_sound utf8_dec.
Proof.
  intros b s H. apply utf8_decodes in H. destruct H as [H F]. split; [exact H|]. revert F. apply Forall_impl. intros c [S _]. lia.
Qed.
(** what a value stands for, by RFC 3629 *)
Definition stands_for (v : val) (b : list N) : Prop := match v with Text s => encoded s b | Bytes b' => b = b' end.
(** The object is read back from the output: its DN and every value of every attribute in order, as octets by RFC 3629. *)
Theorem C33_reading_by_the_rfcs_partial dn attrs :
  Forall Spec_Ldif.scalar dn -> ~ trailing_newline dn ->
  Forall (fun av => attr_desc (fst av)
            /\ match snd av with Text s => Forall Spec_Ldif.scalar s | Bytes b => Forall (fun x => (x < 256)%N) b end
            /\ forall s, match snd av with Text t => s = t | Bytes b => encoded s b end -> ~ trailing_newline s) (iterattrs attrs) ->
  exists d vs, read_ldif (format_ldif utf8_dec dn attrs) = Some (lit "dn", d) :: map Some (combine (map fst (iterattrs attrs)) vs)
    /\ encoded dn d /\ Forall2 stands_for (map snd (iterattrs attrs)) vs.
Proof.
  intros Hdn Ht Hav. exists (utf8 dn), (map (fun av => val_bytes (snd av)) (iterattrs attrs)).
  split; [|split].
  - rewrite (C33_reading_gives_the_object_partial utf8_dec dn attrs utf8_dec_sound).
    + f_equal. clear. induction (iterattrs attrs) as [|av l IH]; [reflexivity|]. cbn [map combine]. f_equal. exact IH.
    + revert Hdn. apply Forall_impl. unfold Spec_Ldif.scalar. intros; lia.
    + exact Ht.
    + revert Hav. apply Forall_impl. intros [a v] (Ha & Hv & Hn). cbn [fst snd] in *. split; [exact Ha|]. cbn [fst snd]. split.
      * destruct v; cbn [val_ok]; [|exact Hv]. revert Hv. apply Forall_impl. unfold Spec_Ldif.scalar. intros; lia.
      * intros s Hs. apply Hn. destruct v; [congruence|]. apply utf8_decodes in Hs. apply encoded_iff. exact Hs.
  - apply encoded_iff. rewrite <- scalar_same. auto.
  - induction Hav as [|[a v] l (Ha & Hv & _) _ IH]; [constructor|]. cbn [map fst snd] in *. constructor; [|exact IH].
    destruct v; cbn [stands_for val_bytes]; [|reflexivity]. apply encoded_iff. rewrite <- scalar_same. auto.
Qed.

(** What C34 and C54 ask of the two decoders of Python is that they follow the RFCs (the one of base 64 passing over
    characters outside the alphabet). *)
Theorem C34_decoders utf8_decode b64decode :
  ((forall s t b, Forall (fun x => (x < 256)%N) b -> rfc4648 b t -> List.filter is_b64 s = t -> b64decode s = Ok b) <-> b64decode_ok b64decode)
  /\ ((forall s b, encoded s b -> utf8_decode b = Some s) <-> utf8_decode_ok utf8_decode).
Proof.
  split; split.
  - intros H s b F E. apply (H s (b64encode b) b F); [now apply b64encode_rfc|exact E].
  - intros H s t b F Ht E. apply (H s b F). rewrite E. apply (C33_base64_is_rfc4648 b t F). exact Ht.
  - intros H s F. apply H. apply encoded_iff. rewrite <- scalar_same. auto.
  - intros H s b E. apply encoded_iff in E. destruct E as [<- F]. apply H. now apply scalar_same.
Qed.

(** Examples: the texts of RFC 3629 section 7 and base 64 of RFC 4648 section 10 *)
Example C33_rfc_nonvacuous :
  encoded [0x41; 0x2262; 0x391; 0x2E]%N [0x41; 0xE2; 0x89; 0xA2; 0xCE; 0x91; 0x2E]%N
  /\ encoded [0x233B4]%N [0xF0; 0xA3; 0x8E; 0xB4]%N
  /\ (forall s, ~ encoded s [0xC0; 0x80]%N)
  /\ rfc4648 (lit "foobar") (lit "Zm9vYmFy") /\ rfc4648 (lit "foob") (lit "Zm9vYg==") /\ rfc4648 (lit "fooba") (lit "Zm9vYmE=")
  /\ value_line utf8_dec (lit "cn") (Text [0x391]%N) = lit "cn:: zpE="
  /\ value_line utf8_dec (lit "cn") (Bytes [0xC0; 0x80]%N) = lit "cn:: wIA=".
Proof.
  assert (F : forall s, Forall (fun x => (x < 256)%N) (lit s)).
  { induction s as [|a s IH]; cbn [lit]; constructor; [|exact IH]. apply N_ascii_bounded. }
  split; [apply encoded_iff; split; [reflexivity|]|].
  { repeat (apply Forall_cons; [unfold Spec_Reply.scalar; lia|]). constructor. }
  split; [apply encoded_iff; split; [reflexivity|]|].
  { repeat (apply Forall_cons; [unfold Spec_Reply.scalar; lia|]). constructor. }
  split. { intros s H. apply encoded_iff in H. apply utf8_decodes in H. discriminate. }
  split; [apply (C33_base64_is_rfc4648 _ _ (F "foobar"%string)); reflexivity|].
  split; [apply (C33_base64_is_rfc4648 _ _ (F "foob"%string)); reflexivity|].
  split; [apply (C33_base64_is_rfc4648 _ _ (F "fooba"%string)); reflexivity|].
  split; vm_compute; reflexivity.
Qed.

Print Assumptions C33_text_is_utf8.
Print Assumptions C33_utf8_unambiguous.
Print Assumptions C33_base64_is_rfc4648.
Print Assumptions C33_value_line.
Print Assumptions C33_reading_by_the_rfcs_partial.
Print Assumptions C34_decoders.
