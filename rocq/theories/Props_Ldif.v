(** * C32-C34, C54: LDIF output and input *)
From Verif Require Import PyBase Model_Uri Model_Prep Model_Ldif Spec_Ldif Spec_Uri Proofs_Prep Proofs_Uri
  Proofs_Ldif Proofs_Ldif2 Proofs_Ldif3 Proofs_Ldif4 Proofs_Ldif5 Proofs_Ldif6.

(** bytes.decode('utf-8') returns only texts whose encoding is the input *)
Definition utf8_sound (utf8_decode : list N -> option str) : Prop :=
  forall b s, utf8_decode b = Some s -> utf8 s = b /\ Forall (fun c => (c < 1114112)%N) s.
(** an attribute value that is written as text is not a safe string with a line break at the end *)
Definition no_trailing_newline (utf8_decode : list N -> option str) (v : val) : Prop :=
  forall s, match v with Text t => Some t | Bytes b => utf8_decode b end = Some s -> ~ trailing_newline s.
Definition writable (utf8_decode : list N -> option str) (av : str * val) : Prop :=
  attr_desc (fst av) /\ val_ok (snd av) /\ no_trailing_newline utf8_decode (snd av).

(** ** C32 *)
(** Every physical line of the output, other than the first (dn) line, has at most 76
    characters - for all names and values whatsoever. *)
Theorem C32_lines_bounded_partial utf8_decode dn attrs l :
  In l (tl (split_lf (format_ldif utf8_decode dn attrs))) ->
  (~ In 10%N (encode_value dn)) -> List.length l <= 76.
Proof.
  unfold format_ldif. intros H Hn.
  assert (S76 : short 76 (List.concat (map (fun av => fold_line (value_line utf8_decode (fst av) (snd av)) ++ [10%N]) (iterattrs attrs)))).
  { pose proof (short_concat 76 (map (fun av => fold_line (value_line utf8_decode (fst av) (snd av))) (iterattrs attrs))) as C.
    rewrite map_map in C. apply C. rewrite Forall_map. apply Forall_forall. intros x _. apply short_fold. }
  set (body := List.concat _) in *.
  replace (lit "dn:" ++ encode_value dn ++ [10%N] ++ body) with ((lit "dn:" ++ encode_value dn) ++ 10%N :: body) in H
    by (rewrite <- app_assoc; reflexivity).
  rewrite split_lf_line in H.
  - cbn [tl] in H. unfold short in S76. rewrite Forall_forall in S76. now apply S76.
  - rewrite in_app_iff. intros [Hin|Hin]; [|now apply Hn]. cbn in Hin. repeat (destruct Hin as [Hin|Hin]; [discriminate|]). contradiction.
Qed.

(** Taking the continuation breaks out of the output, as process_ldif does, gives the dn line
    and one unbroken line for each value. *)
Lemma encode_value_no_breaks s : Forall (fun c => (c < 1114112)%N) s -> ~ trailing_newline s -> no_breaks (encode_value s).
Proof.
  intros Hs Ht. destruct (encode_value_cases s Ht) as [Hne Hsafe|].
  - destruct (safe_no_lf s Hsafe) as [A B]. split; (intros [H|H]; [discriminate|auto]).
  - pose proof (b64encode_class _ (utf8_bytes s Hs)) as C. rewrite Forall_forall in C.
    split; (intros [H|[H|H]]; try discriminate; apply C in H; unfold b64_class in H; lia).
Qed.
Lemma value_line_no_breaks utf8_decode (Hdec : utf8_sound utf8_decode) av : writable utf8_decode av ->
  no_breaks (value_line utf8_decode (fst av) (snd av)).
Proof.
  destruct av as [a v]. intros (Ha & Hv & Ht). cbn [fst snd] in *. apply attr_desc_plain in Ha as [_ Ha].
  assert (Na : no_breaks a) by (split; intros H; apply Ha in H; tauto).
  assert (Nc : forall s, Forall (fun c => (c < 1114112)%N) s -> ~ trailing_newline s -> no_breaks (a ++ lit ":" ++ encode_value s)).
  { intros s H1 H2. apply no_breaks_app. split; auto. destruct (encode_value_no_breaks s H1 H2) as [X Y].
    split; (intros [H|H]; [discriminate|auto]). }
  unfold no_trailing_newline in Ht. destruct v as [s|b]; cbn [value_line val_ok] in *.
  - apply Nc; auto.
  - destruct (utf8_decode b) as [s|] eqn:E.
    + destruct (Hdec b s E). apply Nc; auto.
    + apply no_breaks_app. split; auto. pose proof (b64encode_class _ Hv) as C. rewrite Forall_forall in C.
      split; (intros [H|[H|[H|H]]]; try discriminate; apply C in H; unfold b64_class in H; lia).
Qed.
Theorem C32_unfolding_restores_lines utf8_decode dn attrs :
  utf8_sound utf8_decode -> Forall (fun c => (c < 1114112)%N) dn -> ~ trailing_newline dn ->
  Forall (writable utf8_decode) (iterattrs attrs) ->
  unfold (format_ldif utf8_decode dn attrs) =
  ended ((lit "dn:" ++ encode_value dn) :: map (fun av => value_line utf8_decode (fst av) (snd av)) (iterattrs attrs)).
Proof.
  intros Hdec Hdn Ht Hav. unfold format_ldif. rewrite ended_cons.
  assert (Hlf : forall r, starts_line r -> (match r with c :: _ => c <> 32%N | [] => True end) -> unfold (10%N :: r) = 10%N :: unfold r)
    by (intros r _ H; now apply unfold_lf).
  assert (Hstart : forall avs r, Forall (writable utf8_decode) avs -> r = [] ->
    match List.concat (map (fun av => fold_line (value_line utf8_decode (fst av) (snd av)) ++ [10%N]) avs) ++ r with c :: _ => c <> 32%N | [] => True end).
  { intros [|[a v] avs] r F ->; [exact I|]. inversion F as [|? ? (Ha & Hv & Htt) _]; subst. cbn [map List.concat fst snd] in *.
    destruct (value_line_reads utf8_decode Hdec a v Ha Hv Htt) as (d & l & E & Hd & _). rewrite E.
    unfold fold_line. destruct (76 <? List.length (d :: l)); exact Hd. }
  replace (lit "dn:" ++ encode_value dn ++ [10%N] ++
    List.concat (map (fun av => fold_line (value_line utf8_decode (fst av) (snd av)) ++ [10%N]) (iterattrs attrs)))
    with ((lit "dn:" ++ encode_value dn) ++ 10%N :: List.concat (map (fun av => fold_line (value_line utf8_decode (fst av) (snd av)) ++ [10%N]) (iterattrs attrs)))
    by (rewrite <- app_assoc; reflexivity).
  rewrite unfold_app.
  2:{ destruct (encode_value_no_breaks dn Hdn Ht) as [X Y]. split; (intros [H|[H|[H|H]]]; try discriminate; auto). }
  f_equal. rewrite unfold_lf.
  2:{ specialize (Hstart (iterattrs attrs) [] Hav eq_refl). now rewrite app_nil_r in Hstart. }
  f_equal. induction Hav as [|av avs Hw Hws IH]; [reflexivity|]. cbn [map List.concat].
  rewrite <- app_assoc. cbn [app]. rewrite unfold_fold by (now apply value_line_no_breaks). rewrite ended_cons. f_equal.
  rewrite unfold_lf.
  - now f_equal.
  - specialize (Hstart avs [] Hws eq_refl). now rewrite app_nil_r in Hstart.
Qed.

(** The dn line is not folded: a long DN gives a physical line longer than the limit. *)
Theorem C32_refuted_dn_not_folded utf8_decode dn attrs :
  safe_string dn -> ends_with (lit " ") dn = false -> 72 < List.length dn ->
  exists l, hd_error (split_lf (format_ldif utf8_decode dn attrs)) = Some l /\ 76 < List.length l.
Proof.
  intros Hs He Hlen. exists (lit "dn: " ++ dn). split; [|rewrite app_length; cbn [lit List.length]; cbn; lia].
  unfold format_ldif. assert (E : encode_value dn = lit " " ++ dn).
  { unfold encode_value. assert (safe_re dn = true) as ->.
    { apply safe_re_iff. left. split; auto. intros ->. cbn in Hlen. lia. }
    cbn [negb]. now rewrite He. }
  rewrite E. set (body := List.concat _).
  replace (lit "dn:" ++ (lit " " ++ dn) ++ [10%N] ++ body) with ((lit "dn: " ++ dn) ++ 10%N :: body) by (rewrite <- !app_assoc; reflexivity).
  rewrite split_lf_line; [reflexivity|]. destruct (safe_no_lf dn Hs) as [X _].
  intros [H|[H|[H|[H|H]]]]; try discriminate; auto.
Qed.

(** ** C33 *)
(** A value is written as it is exactly if it is a safe string (or one with a line break at
    the very end), not empty and without a space at the end. *)
Theorem C33_literal_iff s : 
  (encode_value s = lit " " ++ s <->
   ((s <> [] /\ safe_string s) \/ trailing_newline s) /\ ends_with (lit " ") s = false) /\
  (encode_value s = lit " " ++ s \/ encode_value s = lit ": " ++ b64encode (utf8 s)).
Proof.
  unfold encode_value. rewrite <- safe_re_iff. destruct (safe_re s); cbn [negb].
  - destruct (ends_with (lit " ") s).
    + split; [|auto]. split; [discriminate|]. intros [_ H]; discriminate.
    + split; auto. split; auto.
  - split; [|auto]. split; [discriminate|]. intros [H _]; discriminate.
Qed.

(** Reading the whole output as RFC 2849 says - joining continued lines, base64 after two
    colons - gives the DN and every attribute value, in order. *)
Theorem C33_reading_gives_the_object_partial utf8_decode dn attrs :
  utf8_sound utf8_decode -> Forall (fun c => (c < 1114112)%N) dn -> ~ trailing_newline dn ->
  Forall (writable utf8_decode) (iterattrs attrs) ->
  read_ldif (format_ldif utf8_decode dn attrs) =
  Some (lit "dn", utf8 dn) :: map (fun av => Some (fst av, val_bytes (snd av))) (iterattrs attrs).
Proof.
  intros Hdec Hdn Ht Hav. unfold read_ldif, logical_lines, format_ldif.
  destruct (gather_values utf8_decode Hdec (iterattrs attrs) Hav) as (ls & E & F).
  set (body := List.concat _) in *.
  pose proof (encode_value_cases dn Ht) as He.
  assert (Eg : gather (split_lf (lit "dn:" ++ encode_value dn ++ [10%N] ++ body)) = ([], (lit "dn:" ++ encode_value dn) :: ls ++ [[]])).
  { replace (lit "dn:" ++ encode_value dn ++ [10%N] ++ body) with ((lit "dn:" ++ encode_value dn) ++ 10%N :: body)
      by (rewrite <- app_assoc; reflexivity).
    change (lit "dn:" ++ encode_value dn) with (100%N :: lit "n:" ++ encode_value dn). rewrite gather_plain.
    - now rewrite E.
    - discriminate.
    - pose proof (encoding_no_lf dn _ Hdn He) as Hn. intros [H|[H|[H|H]]]; try discriminate. now apply Hn.
    - now rewrite E. }
  rewrite Eg. cbn [snd List.filter]. change (match lit "dn:" ++ encode_value dn with [] => false | _ :: _ => true end) with true.
  cbv iota. cbn [map]. f_equal.
  - apply (read_encoded (lit "dn") dn); auto. cbn. intros [H|[H|[]]]; discriminate.
  - rewrite filter_app. cbn [List.filter]. rewrite app_nil_r. clear E Eg. induction F as [|l av ls avs [Hl Hr] _ IH]; [reflexivity|].
    cbn [List.filter]. destruct l; [contradiction|]. cbn [map]. rewrite Hr. f_equal. inversion Hav; subst. auto.
Qed.

(** A value with a line break at its end is written literally and comes back without it. *)
Theorem C33_refuted_trailing_newline :
  let out := format_ldif utf8_strict (lit "cn=a") [(lit "description", [Text (lit "x" ++ [10%N])])] in
  read_ldif out = [Some (lit "dn", lit "cn=a"); Some (lit "description", lit "x")].
Proof. vm_compute. reflexivity. Qed.
(** So what is written literally need not be a safe string. *)
Theorem C33_refuted_literal_not_safe :
  exists s, encode_value s = lit " " ++ s /\ ~ safe_string s.
Proof.
  exists (lit "x" ++ [10%N]). split; [reflexivity|]. intros [_ H]. inversion H as [|? ? (_ & H10 & _) _]. now apply H10.
Qed.

(** ** C34 *)
(** A file of well-formed change records, with or without a version line, folded in any way:
    exactly one operation per record, saying what the record says, in the order of the
    records, stopping at the first that fails. *)
Theorem C34_operations_of_the_records_partial utf8_decode b64decode keyword default_criticality exec fetch_error rs version text :
  b64decode_ok b64decode -> utf8_decode_ok utf8_decode ->
  Forall (rec_ok keyword) rs -> rs <> [] ->
  refolds ((if version : bool then lit "version: 1" ++ [10%N] else []) ++ ldif_text rs) text ->
  exists ops, Forall2 (describes utf8_decode keyword) rs ops /\
    let (r, all) := process_ldif utf8_decode b64decode keyword default_criticality exec fetch_error text in
    carried_out exec [] ops r all.
Proof.
  intros Hb Hu H Hne Hf. destruct (text_clean keyword rs version H Hne) as [Hun Hcr]. fold (version_line version) in Hf.
  pose proof (refolds_unfold _ _ Hf Hcr Hun) as E.
  rewrite (process_same _ _ _ _ _ _ (version_line version ++ ldif_text rs) text) by (rewrite E; symmetry; exact Hun).
  apply process_ldif_spec; auto.
Qed.

(** The same with comment lines anywhere but after a control line: before everything, around the dn line, between the
    lines of the change. They make no difference to what is done. *)
Theorem C34_comments_ignored utf8_decode b64decode keyword default_criticality exec fetch_error leading (version : bool) rs blocks text :
  b64decode_ok b64decode -> utf8_decode_ok utf8_decode ->
  Forall (rec_ok keyword) rs -> rs <> [] -> Forall comment leading -> Forall2 rec_commented rs blocks ->
  refolds (ended leading ++ (if version then lit "version: 1" ++ [10%N] else []) ++ blocks_text blocks) text ->
  exists ops, Forall2 (describes utf8_decode keyword) rs ops /\
    let (r, all) := process_ldif utf8_decode b64decode keyword default_criticality exec fetch_error text in
    carried_out exec [] ops r all.
Proof.
  intros Hb Hu H Hne Hl Hc Hf. rewrite blocks_file in Hf.
  destruct (process_commented utf8_decode b64decode keyword default_criticality Hb Hu exec fetch_error leading version rs blocks text Hl H Hne Hc Hf)
    as (ops & r & all & H1 & H2 & H3).
  exists ops. split; [exact H1|]. now rewrite H3.
Qed.

(** A record that is refused - no dn or changetype, one that is not known, an attribute with options, a malformed
    modification, a critical control that is not known, ... - ends the run with that exception: the operations of the
    records before it have been carried out, and nothing of it or of what follows. *)
Theorem C34_refused_record_stops utf8_decode b64decode keyword default_criticality exec fetch_error rs bad x more (version : bool) :
  b64decode_ok b64decode -> utf8_decode_ok utf8_decode ->
  Forall (rec_ok keyword) rs -> Forall proper_line bad -> refused keyword default_criticality bad x ->
  Forall (fun lines => lines <> [] /\ Forall proper_line lines) more ->
  (forall l r, rs = [] -> version = false -> bad = l :: r -> ~ starts (lit "version:") l) ->
  exists ops r all, Forall2 (describes utf8_decode keyword) rs ops /\ carried_out exec [] ops r all /\
    process_ldif utf8_decode b64decode keyword default_criticality exec fetch_error
      ((if version then lit "version: 1" ++ [10%N] else []) ++ blocks_text (map rec_lines rs ++ bad :: more)) =
    (match r with Ok _ => Raise x | Raise y => Raise y end, all).
Proof.
  intros Hb Hu H Hp Hbad Hm Hv. rewrite blocks_file. set (blocks := map rec_lines rs ++ bad :: more).
  assert (Hbn : bad <> []).
  { destruct Hbad as [| |dn cs lines x]; discriminate. }
  destruct (process_file utf8_decode b64decode keyword default_criticality exec fetch_error blocks version) as (bs & F & E).
  - subst blocks. apply Forall_app. split.
    + rewrite Forall_map. revert H. apply Forall_impl. intros r Hr. now destruct (good_rec keyword r Hr).
    + constructor.
      * revert Hp. apply Forall_impl. intros l Hl. now destruct (proper_good l Hl).
      * revert Hm. apply Forall_impl. intros b [_ Hl]. revert Hl. apply Forall_impl. intros l Hl. now destruct (proper_good l Hl).
  - subst blocks. apply Forall_app. split; [|constructor; [exact Hbn|]].
    + rewrite Forall_map. revert H. apply Forall_impl. intros r _. discriminate.
    + revert Hm. apply Forall_impl. now intros b [].
  - subst blocks. destruct (map rec_lines rs); discriminate.
  - intros ->. subst blocks. destruct rs as [|r rs].
    + destruct bad as [|l bad]; [contradiction|]. inversion Hp as [|? ? Hl _]; subst. destruct (proper_good l Hl) as [_ (c & t & -> & H1 & H2)].
      exists c, t, bad, more. repeat (split; [solve [auto]|]). apply starts_false. apply (Hv _ _ eq_refl eq_refl eq_refl).
    + exists 100%N, (tl (show (lit "dn") (r_dn r))), (map ctl_line (r_ctls r) ++ change_lines (r_change r)), (map rec_lines rs ++ bad :: more).
      cbn [map app]. unfold rec_lines at 1. assert (E : show (lit "dn") (r_dn r) = 100%N :: tl (show (lit "dn") (r_dn r))) by (unfold show; destruct (f_b64 (r_dn r)); reflexivity).
      rewrite E at 1. split; [reflexivity|]. split; [reflexivity|]. split; [discriminate|]. apply starts_false. intros [y Y]. discriminate.
  - destruct (run_refused utf8_decode b64decode keyword default_criticality Hb Hu exec rs bad x more H
      (refused_reads utf8_decode b64decode keyword default_criticality Hb Hu bad x Hp Hbad) bs [] F) as (ops & r & all & H1 & H2 & H3).
    exists ops, r, all. split; [exact H1|]. split; [exact H2|]. now rewrite E.
Qed.

(** Records that are valid LDIF but are rejected, or done differently. *)
Definition line (s : string) : str := lit s ++ [10%N].
Section Refuted.
  Context (utf8_decode : list N -> option str) (b64decode : str -> res (list N)) (keyword : str -> option str).
  Context (dc : bool) (exec : list op -> op -> res unit) (fetch_error : str -> exn).
  Notation run := (process_ldif utf8_decode b64decode keyword dc exec fetch_error).

  (** a base64 value in a modify record; a plain one with a colon in it *)
  Theorem C34_refuted_modify_base64 :
    run (line "dn: cn=a" ++ line "changetype: modify" ++ line "add: cn" ++ line "cn:: aGk=" ++ line "-") = (Raise ValueError, []) /\
    run (line "dn: cn=a" ++ line "changetype: modify" ++ line "add: labeledURI" ++ line "labeledURI: http://x/" ++ line "-") = (Raise ValueError, []).
  Proof. split; reflexivity. Qed.
  (** a value line of another attribute that starts with the same letters is taken *)
  Theorem C34_refuted_modify_wrong_attribute :
    exec [] (OModify (Text (lit "cn=a")) [(MAdd, lit "cn", [Text (lit "v")])] []) = Ok tt ->
    run (line "dn: cn=a" ++ line "changetype: modify" ++ line "add: cn" ++ line "cnx: v" ++ line "-") =
    (Ok tt, [OModify (Text (lit "cn=a")) [(MAdd, lit "cn", [Text (lit "v")])] []]).
  Proof. intros H. vm_compute in H |- *. now rewrite H. Qed.
  (** spaces around an added base64 value are lost *)
  Theorem C34_refuted_add_base64_stripped :
    process_ldif utf8_strict b64_lenient keyword dc (fun _ _ => Ok tt) fetch_error
      (line "dn: cn=a" ++ line "changetype: add" ++ lit "cn:: " ++ b64encode (utf8 (lit " v ")) ++ [10%N]) =
    (Ok tt, [OAdd (Text (lit "cn=a")) [(lit "cn", [Text (lit "v")])] []]).
  Proof. vm_compute. reflexivity. Qed.
  (** a value that contains a colon and a less-than sign is taken for a URL *)
  Theorem C34_refuted_colon_less_than :
    exists e, run (line "dn: cn=a" ++ line "changetype: add" ++ line "cn: a:<b") = (Raise e, []) /\
              e = fetch_error (line "dn: cn=a" ++ line "changetype: add" ++ line "cn: a:<b").
  Proof. eexists. split; [|reflexivity]. vm_compute. reflexivity. Qed.
  (** an empty line after the version line *)
  Theorem C34_refuted_version_then_empty_line :
    run (line "version: 1" ++ line "" ++ line "dn: cn=a" ++ line "changetype: delete") = (Raise ValueError, []).
  Proof. vm_compute. reflexivity. Qed.
  (** a control without a value *)
  Theorem C34_refuted_control_without_value :
    run (line "dn: cn=a" ++ line "control: 1.2.3 true" ++ line "changetype: delete") = (Raise ValueError, []).
  Proof. vm_compute. reflexivity. Qed.
  (** a comment after a control line; comments set off by an empty line, at the start or between records; a comment in
      which a colon is followed by a less-than sign *)
  Theorem C34_refuted_comment_after_control :
    process_ldif utf8_strict b64_lenient (fun _ => Some (lit "ctl")) dc exec fetch_error
      (line "dn: cn=a" ++ line "control: 1.2.3 true:: AQ==" ++ line "# why" ++ line "changetype: delete") = (Raise ValueError, []).
  Proof. vm_compute. reflexivity. Qed.
  Theorem C34_refuted_comment_block :
    run (line "# about" ++ line "" ++ line "dn: cn=a" ++ line "changetype: delete") = (Raise ValueError, []) /\
    (exec [] (ODelete (Text (lit "cn=a")) []) = Ok tt ->
     run (line "dn: cn=a" ++ line "changetype: delete" ++ line "" ++ line "# the end") = (Raise ValueError, [ODelete (Text (lit "cn=a")) []])).
  Proof. split; [vm_compute; reflexivity|]. intros H. vm_compute in H |- *. now rewrite H. Qed.
  Theorem C34_refuted_comment_fetched :
    run (line "# a:<b" ++ line "dn: cn=a" ++ line "changetype: delete") =
    (Raise (fetch_error (line "# a:<b" ++ line "dn: cn=a" ++ line "changetype: delete")), []).
  Proof. vm_compute. reflexivity. Qed.
  (** a plain control value is decoded as if it were base64 *)
  Theorem C34_refuted_plain_control_value :
    process_ldif utf8_strict b64_lenient (fun _ => Some (lit "ctl")) dc (fun _ _ => Ok tt) fetch_error
      (line "dn: cn=a" ++ line "control: 1.2.3 true: aGk=" ++ line "changetype: delete") =
    (Ok tt, [ODelete (Text (lit "cn=a")) [(lit "ctl", (Some true, Text (lit "hi")))]]).
  Proof. vm_compute. reflexivity. Qed.
  (** what format_ldif writes is not accepted *)
  Theorem C34_refuted_content_record :
    run (format_ldif utf8_strict (lit "cn=a") [(lit "cn", [Text (lit "v")])]) = (Raise ValueError, []).
  Proof. vm_compute. reflexivity. Qed.
  (** a later malformed record is found only after the earlier ones have been carried out *)
  Theorem C34_refuted_not_checked_first :
    exec [] (ODelete (Text (lit "cn=a")) []) = Ok tt ->
    run (line "dn: cn=a" ++ line "changetype: delete" ++ line "" ++ line "cn=b") =
    (Raise ValueError, [ODelete (Text (lit "cn=a")) []]).
  Proof. intros H. vm_compute in H |- *. now rewrite H. Qed.
  (** a value with a form feed, which is a safe character, is cut there *)
  Theorem C34_refuted_form_feed :
    run (line "dn: cn=a" ++ line "changetype: add" ++ lit "cn: v" ++ [12%N] ++ line "w") = (Raise ValueError, []).
  Proof. vm_compute. reflexivity. Qed.
End Refuted.

(** ** C54 *)
(** The LDIF of a transaction, processed, asks for exactly the modifications of the
    transaction, in order, on the same DN. *)
Theorem C54_modify_ldif_roundtrip_partial utf8_decode b64decode keyword default_criticality exec fetch_error dn mods :
  b64decode_ok b64decode -> utf8_decode_ok utf8_decode ->
  plain_text dn ->
  Forall (fun m => attr_name (snd (fst m)) /\ (fst (fst m) = MAdd -> snd m <> []) /\
                   Forall (fun v => plain_text v /\ ~ In (ch ":") v) (snd m)) mods ->
  exists text, format_mod_ldif dn (map (fun m => (fst m, Some (snd m))) mods) = Ok text /\
    let o := OModify (Text dn) (map (fun m => (fst m, map Text (snd m))) mods) [] in
    process_ldif utf8_decode b64decode keyword default_criticality exec fetch_error text = (exec [] o, [o]).
Proof.
  intros Hb Hu Hdn Hm. exists (ldif_text [mk_rec (mk_fld dn false) [] (CModify mods)]). split; [apply format_mod_ldif_text|].
  destruct (process_ldif_spec utf8_decode b64decode keyword default_criticality Hb Hu exec fetch_error
              [mk_rec (mk_fld dn false) [] (CModify mods)] false) as (ops & F & C).
  - constructor; [|constructor]. split; [exact Hdn|]. split; [exact Hm|]. split; constructor.
  - discriminate.
  - cbn [app] in C. inversion F as [|? o ? ? Hd F']; subst. inversion F'; subst. clear F F'.
    destruct Hd as (ctls & Hs & E). cbn [r_ctls r_change r_dn f_text] in *. inversion Hs; subst.
    cbv zeta. set (o := OModify _ _ _) in *.
    destruct (process_ldif _ _ _ _ _ _ _) as [r all]. inversion C as [|? ? ? e Hx|? ? ? ? ? Hx C2]; subst.
    + rewrite Hx. reflexivity.
    + inversion C2; subst. rewrite Hx. reflexivity.
Qed.

(** Deleting all values of an attribute cannot be written; and values are not encoded, so
    one with a line break is read back as something else. *)
Theorem C54_refuted_delete_all dn a : format_mod_ldif dn [(MDelete, a, None)] = Raise TypeError.
Proof. reflexivity. Qed.
Theorem C54_refuted_not_encoded utf8_decode b64decode keyword dc exec fetch_error :
  let mods := [(MAdd, lit "cn", [lit "v" ++ [10%N] ++ lit "-" ++ [10%N] ++ lit "delete: sn"])] in
  let read := OModify (Text (lit "cn=a")) [(MAdd, lit "cn", [Text (lit "v")]); (MDelete, lit "sn", [])] [] in
  exists text, format_mod_ldif (lit "cn=a") (map (fun m => (fst m, Some (snd m))) mods) = Ok text /\
    (exec [] read = Ok tt -> process_ldif utf8_decode b64decode keyword dc exec fetch_error text = (Ok tt, [read])).
Proof. eexists. split; [reflexivity|]. intros H. vm_compute in H |- *. now rewrite H. Qed.

(** ** The hypotheses are satisfiable *)
Example C33_nonvacuous :
  utf8_sound utf8_strict /\
  let attrs := [(lit "cn", [Text (lit "plain"); Text ([233%N] ++ lit "t")]); (lit "jpegPhoto", [Bytes [255; 216]%N]);
                (lit "description", [Text (lit " a very long value, longer than the seventy-six characters that fit on a single line of output")])] in
  Forall (writable utf8_strict) (iterattrs attrs) /\
  List.length (split_lf (format_ldif utf8_strict (lit "cn=x") attrs)) = 7.
Proof.
  split; [exact utf8_strict_sound|]. cbv zeta. split; [|vm_compute; reflexivity].
  assert (D : forall a, negb (str_eqb a []) && forallb key_char a = true -> attr_desc a).
  { intros a H. apply andb_true_iff in H as [H1 H2]. split; [intros ->; discriminate|].
    rewrite forallb_forall in H2. now apply Forall_forall. }
  assert (T : forall s, last s 0%N <> 10%N -> ~ trailing_newline s).
  { intros s H (w & -> & _). apply H. now rewrite last_last. }
  cbn [iterattrs flat_map map fst snd app].
  repeat (apply Forall_cons; [split; [apply D; reflexivity|split]|]); [..|constructor]; cbn [snd];
    try (cbn [val_ok]; repeat constructor);
    intros s Hs; vm_compute in Hs; try discriminate; injection Hs as <-; apply T; vm_compute; discriminate.
Qed.
Example C32_nonvacuous :
  let dn := lit "cn=a name that goes on and on,ou=a unit that goes on and on,dc=example,dc=com" in
  ~ In 10%N (encode_value dn) /\ safe_string dn /\ ends_with (lit " ") dn = false /\ 72 < List.length dn.
Proof.
  cbv zeta. split; [|split; [|split]].
  - vm_compute. intros H. repeat (destruct H as [H|H]; [discriminate|]). exact H.
  - match goal with |- safe_string ?s => assert (E : safe_re s = true) by reflexivity; apply safe_re_iff in E as [[_ H]|H] end; [exact H|].
    destruct H as (w & Ew & _). apply (f_equal (fun s => last s 0%N)) in Ew. rewrite last_last in Ew. discriminate.
  - reflexivity.
  - vm_compute. repeat constructor.
Qed.
Definition C34_example : list rec :=
  [mk_rec (mk_fld (lit "cn=a,dc=x") false) [(lit "1.2.3", Some true, [1%N])] (CAdd [(lit "cn", mk_fld (lit "a: b") false); (lit "sn", mk_fld [233%N] true)]);
   mk_rec (mk_fld [233%N] true) [] (CModify [(MReplace, lit "mail", []); (MAdd, lit "cn", [lit "v"])]);
   mk_rec (mk_fld (lit "cn=b") false) [] (CModDN (mk_fld (lit "cn=c") false) true None)].
Lemma plain_check s : (match s with c :: _ => negb (py_isspace c) && negb (N.eqb c 58) | [] => false end) &&
  negb (py_isspace (last s 32%N)) && forallb (fun c => negb (is_break c)) s && negb (hc s) = true -> plain_text s.
Proof.
  intros H. apply andb_true_iff in H as [H H4]. apply andb_true_iff in H as [H H3]. apply andb_true_iff in H as [H1 H2].
  split; [|split; [|split]].
  - destruct s as [|c s]; [discriminate|]. apply andb_true_iff in H1 as [A B]. exists c, s.
    repeat split; [now destruct (py_isspace c)|]. intros ->. discriminate.
  - destruct s as [|c s]; [discriminate|]. destruct (@exists_last _ (c :: s) ltac:(discriminate)) as (w & x & E). exists x, w.
    split; auto. rewrite E, last_last in H2. now destruct (py_isspace x).
  - rewrite forallb_forall in H3. apply Forall_forall. intros x Hx. apply H3 in Hx. rewrite <- break_line. now destruct (is_break x).
  - intros a b ->. assert (hc (a ++ ch ":" :: ch "<" :: b) = true) as E by (apply hc_iff; exists a, b; reflexivity).
    now rewrite E in H4.
Qed.
Lemma name_check a : negb (str_eqb a []) && forallb key_char a && forallb (fun c => negb (N.eqb c (ch ";"))) a = true -> attr_name a.
Proof.
  intros H. apply andb_true_iff in H as [H H3]. apply andb_true_iff in H as [H1 H2]. split; [split|].
  - intros ->. discriminate.
  - rewrite forallb_forall in H2. now apply Forall_forall.
  - rewrite forallb_forall in H3. intros Hin. apply H3 in Hin. rewrite N.eqb_refl in Hin. discriminate.
Qed.
Example C34_nonvacuous :
  b64decode_ok b64_lenient /\ utf8_decode_ok utf8_strict /\
  let keyword := fun oid => if str_eqb oid (lit "1.2.3") then Some (lit "ctl") else None in
  Forall (rec_ok keyword) C34_example /\
  process_ldif utf8_strict b64_lenient keyword false (fun _ _ => Ok tt) (fun _ => TypeError) (ldif_text C34_example) =
  (Ok tt,
   [OAdd (Text (lit "cn=a,dc=x")) [(lit "cn", [Text (lit "a: b")]); (lit "sn", [Text [233%N]])] [(lit "ctl", (Some true, Text [1%N]))];
    OModify (Text [233%N]) [(MReplace, lit "mail", []); (MAdd, lit "cn", [Text (lit "v")])] [];
    OModDN (Text (lit "cn=b")) (Text (lit "cn=c")) true None []]).
Proof.
  split; [exact b64_lenient_ok|]. split; [exact utf8_strict_ok|]. cbv zeta. split; [|vm_compute; reflexivity].
  assert (Sc : forall s, forallb scalarb s = true -> Forall scalar s).
  { intros s H. rewrite forallb_forall in H. apply Forall_forall. intros c Hc. now apply scalarb_iff, H. }
  apply Forall_cons; [|apply Forall_cons; [|apply Forall_cons; [|constructor]]].
  - split; [now apply plain_check|]. split; [|split].
    + apply Forall_cons; [|apply Forall_cons; [|constructor]]; cbn [fst snd].
      * split; [now apply name_check|]. split; [now apply plain_check|reflexivity].
      * split; [now apply name_check|]. split; [now apply Sc|reflexivity].
    + apply Forall_cons; [|constructor]. split; [|split].
      * apply (dotted_more (lit "1") (lit "2.3")); [discriminate|repeat constructor|].
        apply (dotted_two (lit "2") (lit "3")); [discriminate|discriminate|repeat constructor|repeat constructor].
      * repeat constructor.
      * exists (lit "ctl"). split; [reflexivity|discriminate].
    + constructor; [intros []|constructor].
  - split; [now apply Sc|]. split; [|split; constructor].
    apply Forall_cons; [|apply Forall_cons; [|constructor]]; cbn [fst snd].
    + split; [now apply name_check|]. split; [discriminate|constructor].
    + split; [now apply name_check|]. split; [discriminate|]. apply Forall_cons; [|constructor].
      split; [now apply plain_check|]. intros [H|[]]; discriminate.
  - split; [now apply plain_check|]. split; [|split; constructor]. split; [now apply plain_check|exact I].
Qed.
(** an added attribute with an option after that record, and a critical control that is not known *)
Definition C34_bad1 : list str := [lit "dn: cn=a"; lit "changetype: add"; lit "cn: v"; lit "sn;lang-en: w"].
Definition C34_bad2 : list str := [lit "dn: cn=a"; lit "control: 1.2.4 true:: AQ=="; lit "changetype: delete"].
Lemma proper_check l : (match l with c :: _ => negb (py_isspace c) && negb (N.eqb c (ch "#")) | [] => false end) &&
  forallb (fun c => negb (line_break c)) l && negb (hc l) = true -> proper_line l.
Proof.
  intros H. apply andb_true_iff in H as [H H3]. apply andb_true_iff in H as [H1 H2]. split; [|split].
  - destruct l as [|c l]; [discriminate|]. apply andb_true_iff in H1 as [A B]. exists c, l. split; [reflexivity|].
    split; [now destruct (py_isspace c)|]. intros ->. discriminate.
  - rewrite forallb_forall in H2. apply Forall_forall. intros x Hx. apply H2 in Hx. now destruct (line_break x).
  - intros a b ->. assert (hc (a ++ ch ":" :: ch "<" :: b) = true) as E by (apply hc_iff; exists a, b; reflexivity). now rewrite E in H3.
Qed.
Example C34_comments_nonvacuous :
  let c := lit "# note: 1" in
  comment c /\
  rec_commented (mk_rec (mk_fld (lit "cn=b") false) [] (CAdd [(lit "cn", mk_fld (lit "b") false); (lit "sn", mk_fld (lit "c") false)]))
    [c; lit "dn: cn=b"; c; lit "changetype: add"; c; lit "cn: b"; c; lit "sn: c"; c].
Proof.
  cbv zeta. assert (C : comment (lit "# note: 1")).
  { split; [eexists; reflexivity|]. split; [repeat constructor|]. intros a b E.
    repeat (destruct a as [|? a]; [discriminate|]; injection E as _ E). destruct a; discriminate. }
  split; [exact C|]. exists [lit "# note: 1"; lit "dn: cn=b"; lit "# note: 1"], (lit "changetype: add"), [lit "cn: b"; lit "sn: c"],
    [lit "# note: 1"; lit "cn: b"; lit "# note: 1"; lit "sn: c"; lit "# note: 1"].
  split; [reflexivity|]. split; [|split; [|reflexivity]].
  - apply cm_comment; [exact C|]. apply cm_line, cm_comment; [exact C|]. constructor.
  - apply cm_comment; [exact C|]. apply cm_line, cm_comment; [exact C|]. apply cm_line, cm_comment; [exact C|]. constructor.
Qed.
Example C34_refused_nonvacuous :
  let keyword := fun oid => if str_eqb oid (lit "1.2.3") then Some (lit "ctl") else None in
  Forall proper_line C34_bad1 /\ refused keyword false C34_bad1 LDAPError /\
  Forall proper_line C34_bad2 /\ refused keyword false C34_bad2 LDAPSupportError /\
  process_ldif utf8_strict b64_lenient keyword false (fun _ _ => Ok tt) (fun _ => TypeError)
    (blocks_text [[lit "dn: cn=b"; lit "changetype: delete"]; C34_bad1; [lit "dn: cn=c"; lit "changetype: delete"]]) =
  (Raise LDAPError, [ODelete (Text (lit "cn=b")) []]).
Proof.
  cbv zeta.
  split; [repeat (apply Forall_cons; [apply proper_check; reflexivity|]); constructor|].
  split.
  { apply (ref_change _ _ (mk_fld (lit "cn=a") false) []); [now apply plain_check|split; constructor|].
    apply (ref_add_option [(lit "cn", mk_fld (lit "v") false)] (lit "sn;lang-en") (mk_fld (lit "w") false) []).
    - constructor; [|constructor]. cbn [fst snd]. split; [now apply name_check|]. split; [now apply plain_check|reflexivity].
    - split; [discriminate|repeat constructor].
    - cbn. tauto.
    - now apply plain_check. }
  split; [repeat (apply Forall_cons; [apply proper_check; reflexivity|]); constructor|].
  split; [|vm_compute; reflexivity].
  apply (ref_control _ _ (mk_fld (lit "cn=a") false) [] (lit "1.2.4") (Some true) [1%N] (lit "changetype: delete") []); [now apply plain_check|split; constructor| |repeat constructor|reflexivity|now left].
  apply (dotted_more (lit "1") (lit "2.4")); [discriminate|repeat constructor|].
  apply (dotted_two (lit "2") (lit "4")); [discriminate|discriminate|repeat constructor|repeat constructor].
Qed.
Example C54_nonvacuous :
  let mods := [(MAdd, lit "cn", [lit "v"; lit "w x"]); (MDelete, lit "mail", [])] in
  plain_text (lit "cn=a,dc=x") /\
  Forall (fun m => attr_name (snd (fst m)) /\ (fst (fst m) = MAdd -> snd m <> []) /\
                   Forall (fun v => plain_text v /\ ~ In (ch ":") v) (snd m)) mods.
Proof.
  cbv zeta. split; [now apply plain_check|]. apply Forall_cons; [|apply Forall_cons; [|constructor]]; cbn [fst snd].
  - split; [now apply name_check|]. split; [discriminate|]. apply Forall_cons; [|apply Forall_cons; [|constructor]].
    + split; [now apply plain_check|]. intros [H|[]]; discriminate.
    + split; [now apply plain_check|]. intros [H|[H|[H|[]]]]; discriminate.
  - split; [now apply name_check|]. split; [discriminate|constructor].
Qed.

Print Assumptions C32_lines_bounded_partial.
Print Assumptions C32_unfolding_restores_lines.
Print Assumptions C32_refuted_dn_not_folded.
Print Assumptions C33_literal_iff.
Print Assumptions C33_reading_gives_the_object_partial.
Print Assumptions C33_refuted_trailing_newline.
Print Assumptions C33_refuted_literal_not_safe.
Print Assumptions C34_operations_of_the_records_partial.
Print Assumptions C34_comments_ignored.
Print Assumptions C34_refused_record_stops.
Print Assumptions C34_refuted_comment_after_control.
Print Assumptions C34_refuted_comment_block.
Print Assumptions C34_refuted_plain_control_value.
Print Assumptions C34_refuted_comment_fetched.
Print Assumptions C34_refuted_modify_base64.
Print Assumptions C34_refuted_modify_wrong_attribute.
Print Assumptions C34_refuted_add_base64_stripped.
Print Assumptions C34_refuted_colon_less_than.
Print Assumptions C34_refuted_version_then_empty_line.
Print Assumptions C34_refuted_control_without_value.
Print Assumptions C34_refuted_content_record.
Print Assumptions C34_refuted_not_checked_first.
Print Assumptions C34_refuted_form_feed.
Print Assumptions C54_modify_ldif_roundtrip_partial.
Print Assumptions C54_refuted_delete_all.
Print Assumptions C54_refuted_not_encoded.
