(** * More of C34: octet values, base64 in additions, and controls that are passed over *)
From Verif Require Import PyBase Model_Uri Model_Prep Model_Ldif Spec_Ldif Spec_Ldif2 Spec_Uri Proofs_Prep Proofs_Uri
  Proofs_Ldif Proofs_Ldif2 Proofs_Ldif3 Proofs_Ldif4 Proofs_Ldif5 Proofs_Ldif6 Proofs_Ldif7 Proofs_Ldif8 Proofs_Utf8.

(** A file of records whose additions have values written as text or as any octets in base64, and which carry
    controls with keywords together with controls that are to be passed over: exactly one operation per record, in
    order, stopping at the first that fails; the values are the octets given (as text if they are UTF-8), each
    attribute's values in order; the controls are exactly those with a keyword. *)
Theorem C34_octets_and_unknown_controls_partial utf8_decode b64decode keyword default_criticality exec fetch_error rs (version : bool) text :
  b64decode_ok b64decode -> utf8_decode_ok utf8_decode ->
  Forall (rec2_ok utf8_decode keyword default_criticality) rs -> rs <> [] ->
  refolds ((if version then lit "version: 1" ++ [10%N] else []) ++ blocks_text (map rec2_lines rs)) text ->
  exists ops, Forall2 (describes2 utf8_decode keyword) rs ops /\
    let (r, all) := process_ldif utf8_decode b64decode keyword default_criticality exec fetch_error text in
    carried_out exec [] ops r all.
Proof.
  intros Hb Hu H Hne Hf. rewrite blocks_file in Hf.
  exact (process2 utf8_decode b64decode keyword default_criticality Hb Hu exec fetch_error rs version text H Hne Hf).
Qed.

(** Two lines for the same control: the later one takes the place of the earlier, which is not sent. *)
Theorem C34_refuted_repeated_control utf8_decode b64decode keyword default_criticality exec fetch_error dn oid kw crit1 b1 crit2 b2 :
  b64decode_ok b64decode -> utf8_decode_ok utf8_decode -> fld_ok dn -> dotted oid -> keyword oid = Some kw -> kw <> [] ->
  Forall (fun x => (x < 256)%N) b1 -> Forall (fun x => (x < 256)%N) b2 ->
  exists o, o = ODelete (Text (f_text dn)) [(kw, (crit2, decoded utf8_decode b2))] /\
  process_ldif utf8_decode b64decode keyword default_criticality exec fetch_error
    (blocks_text [[show (lit "dn") dn; ctl_line (oid, crit1, b1); ctl_line (oid, crit2, b2); lit "changetype: delete"]]) =
  (exec [] o, [o]).
Proof.
  intros Hb Hu Hdn Ho Hk Hne H1 H2. eexists. split; [reflexivity|]. rewrite blocks_file. set (o := ODelete _ _).
  set (b := [_; _; _; _]).
  assert (Hgood : Forall good_line b).
  { subst b. repeat apply Forall_cons; try apply Forall_nil.
    - apply (good_show keyword); auto. apply dn_desc.
    - destruct (good_rec2 utf8_decode keyword default_criticality (mk_rec2 dn [(oid, crit1, b1)] (Other CDelete))) as [_ G].
      + split; [exact Hdn|]. split; [exact I|]. split.
        * constructor; [|constructor]. split; [exact Ho|]. split; [exact H1|]. left. unfold has_keyword. cbn [fst]. rewrite Hk.
          destruct kw; [contradiction|reflexivity].
        * cbn [q_ctls List.filter]. destruct (has_keyword keyword _); repeat constructor. intros [].
      + inversion G as [|? ? _ G2]; subst. now inversion G2.
    - destruct (good_rec2 utf8_decode keyword default_criticality (mk_rec2 dn [(oid, crit2, b2)] (Other CDelete))) as [_ G].
      + split; [exact Hdn|]. split; [exact I|]. split.
        * constructor; [|constructor]. split; [exact Ho|]. split; [exact H2|]. left. unfold has_keyword. cbn [fst]. rewrite Hk.
          destruct kw; [contradiction|reflexivity].
        * cbn [q_ctls List.filter]. destruct (has_keyword keyword _); repeat constructor. intros [].
      + inversion G as [|? ? _ G2]; subst. now inversion G2.
    - apply good_lit_line; reflexivity. }
  destruct (process_file utf8_decode b64decode keyword default_criticality exec fetch_error [b] false) as (bs & F & E).
  - constructor; [exact Hgood|constructor].
  - constructor; [discriminate|constructor].
  - discriminate.
  - intros _. subst b. exists 100%N, (tl (show (lit "dn") dn)). do 2 eexists.
    assert (E : show (lit "dn") dn = 100%N :: tl (show (lit "dn") dn)) by (unfold show; destruct (f_b64 dn); reflexivity).
    split; [rewrite E at 1; reflexivity|]. split; [reflexivity|]. split; [discriminate|]. reflexivity.
  - cbn [app] in E. rewrite E. inversion F as [|x ? ? ? [Hx Hl] F']; subst. inversion F'; subst. clear E F F'.
    destruct x as [|c x]; [contradiction|]. cbn [run_records]. rewrite Hl. subst b.
    rewrite (read_dn utf8_decode b64decode keyword default_criticality Hb Hu) by exact Hdn.
    pose proof (ctl_clear [(oid, crit1, b1); (oid, crit2, b2)] [lit "changetype: delete"] eq_refl) as C.
    cbn [map app] in C. rewrite C.
    destruct (ctl_line_shape keyword oid crit1 b1 Ho H1) as (x1 & y1 & E1 & F1).
    destruct (ctl_line_shape keyword oid crit2 b2 Ho H2) as (x2 & y2 & E2 & F2).
    assert (Hst : forall cr bb, starts_with (lit "control:") (ctl_line (oid, cr, bb)) = true) by reflexivity.
    rewrite (read_controls_step utf8_decode b64decode keyword default_criticality _ _ _ oid crit1 (58%N :: x1 :: y1) b1 kw);
      [|discriminate|apply Hst|rewrite E1; now apply control_re_spec|cbn [tl]; now apply Hb|exact Hk|exact Hne].
    rewrite (read_controls_step utf8_decode b64decode keyword default_criticality _ _ _ oid crit2 (58%N :: x2 :: y2) b2 kw);
      [|discriminate|apply Hst|rewrite E2; now apply control_re_spec|cbn [tl]; now apply Hb|exact Hk|exact Hne].
    rewrite read_controls_end by (intros [r R]; discriminate). cbn [bind dset]. rewrite str_eqb_refl.
    change (take_field (lit "changetype:") (lit "changetype: delete")) with (Some (lit "delete")). cbv iota zeta.
    change (str_eqb (lit "delete") (lit "add")) with false. cbv iota. rewrite str_eqb_refl. cbn [app]. subst o.
    destruct (exec [] _) as [[]|]; reflexivity.
Qed.

(** White space at the ends of a value is lost even if the value was given in base64, which is how RFC 2849 has
    such values written. *)
Theorem C34_refuted_white_space_lost :
  let text := lit "dn: cn=a" ++ [10%N] ++ lit "changetype: add" ++ [10%N] ++ lit "cn:: " ++ b64encode (lit " v ") ++ [10%N] in
  process_ldif utf8_strict b64_lenient (fun _ => None) false (fun _ _ => Ok tt) (fun _ => ValueError) text =
  (Ok tt, [OAdd (Text (lit "cn=a")) [(lit "cn", [Text (lit "v")])] []]).
Proof. vm_compute. reflexivity. Qed.

(** Line ends: whatever the text - records, folded lines, comments, nonsense - as long as there is no URL in it, writing
    some or all of its line ends as CR LF changes nothing: the same operations, the same result. *)
Theorem C34_line_ends utf8_decode b64decode keyword default_criticality exec fetch_error s t :
  crlf s t -> no_url s ->
  process_ldif utf8_decode b64decode keyword default_criticality exec fetch_error t =
  process_ldif utf8_decode b64decode keyword default_criticality exec fetch_error s.
Proof. apply process_crlf. Qed.
Example C34_nonvacuous_line_ends :
  crlf (lit "dn: cn=a" ++ [10%N] ++ lit "changetype: delete" ++ [10; 10]%N) (lit "dn: cn=a" ++ [13; 10]%N ++ lit "changetype: delete" ++ [13; 10; 10]%N) /\
  no_url (lit "dn: cn=a" ++ [10%N] ++ lit "changetype: delete" ++ [10; 10]%N).
Proof.
  split.
  - change ([13; 10; 10]%N) with ([13; 10; 10]%N ++ []). change ([10; 10]%N) with ([10; 10]%N ++ []).
    apply crlf_app; [apply crlf_refl; intros H; cbn in H; repeat (destruct H as [H|H]; [discriminate|]); contradiction|].
    apply (crlf_app [10%N] [13; 10]%N); [apply cr_crlf; constructor|].
    apply crlf_app; [apply crlf_refl; intros H; cbn in H; repeat (destruct H as [H|H]; [discriminate|]); contradiction|].
    apply cr_crlf, cr_lf. constructor.
  - intros u a b H ->. assert (G : forall u s, refolds u s -> forall c, In c u -> In c s).
    { clear. induction 1; intros x Hx; [exact Hx| | |]; cbn [In] in *; intuition. }
    assert (Hin : In (ch "<") (lit "dn: cn=a" ++ [10%N] ++ lit "changetype: delete" ++ [10; 10]%N)).
    { apply (G _ _ H). rewrite in_app_iff. right. right. now left. }
    cbn in Hin. repeat (destruct Hin as [Hin|Hin]; [discriminate|]). contradiction.
Qed.

(** The hypotheses are met: a picture's octets, and three controls of which one is passed on. *)
Definition kw_ex (oid : str) : option str :=
  if str_eqb oid (lit "1.2.3") then Some (lit "ctl") else if str_eqb oid (lit "1.2.4") then Some [] else None.
Definition rec_ex : rec2 :=
  mk_rec2 (mk_fld (lit "cn=a") false)
    [(lit "1.2.9", Some false, [1]%N); (lit "1.2.3", Some true, [255; 216]%N); (lit "1.2.4", Some true, [])]
    (Additions [(lit "jpegPhoto", Base64 [255; 216; 0; 1]%N); (lit "cn", AsIs (lit "a")); (lit "cn", Base64 (lit "b"))]).
Example C34_nonvacuous_octets :
  rec2_ok utf8_strict kw_ex true rec_ex /\
  process_ldif utf8_strict b64_lenient kw_ex true (fun _ _ => Ok tt) (fun _ => ValueError) (blocks_text [rec2_lines rec_ex]) =
  (Ok tt, [OAdd (Text (lit "cn=a"))
             [(lit "jpegPhoto", [Bytes [255; 216; 0; 1]%N]); (lit "cn", [Text (lit "a"); Text (lit "b")])]
             [(lit "ctl", (Some true, Bytes [255; 216]%N))]]).
Proof.
  assert (D : forall x, In x [lit "1.2.9"; lit "1.2.3"; lit "1.2.4"] -> dotted x).
  { intros x H. assert (G : exists d, x = lit "1" ++ ch "." :: (lit "2" ++ ch "." :: [d]) /\ ascii_decimal d = true).
    { destruct H as [<-|[<-|[<-|[]]]]; [exists (ch "9")|exists (ch "3")|exists (ch "4")]; split; reflexivity. }
    destruct G as (d & -> & Hd). apply dotted_more; [discriminate|repeat constructor|]. apply dotted_two; [discriminate|discriminate|repeat constructor|].
    constructor; [exact Hd|constructor]. }
  assert (P : plain_text (lit "cn=a") /\ plain_text (lit "a")).
  { split; (split; [eexists _, _; split; [reflexivity|]; split; [reflexivity|discriminate]|]).
    - split; [exists (ch "a"), (lit "cn="); split; reflexivity|]. split; [repeat constructor|].
      intros x y E. assert (In (ch "<") (lit "cn=a")) as Hin by (rewrite E, in_app_iff; right; right; now left).
      cbn in Hin. repeat (destruct Hin as [Hin|Hin]; [discriminate|]). contradiction.
    - split; [exists (ch "a"), []; split; reflexivity|]. split; [repeat constructor|].
      intros x y E. assert (In (ch "<") (lit "a")) as Hin by (rewrite E, in_app_iff; right; right; now left).
      cbn in Hin. repeat (destruct Hin as [Hin|Hin]; [discriminate|]). contradiction. }
  split; [|vm_compute; reflexivity]. split; [exact (proj1 P)|]. split; [|split].
  - assert (A : forall a, In a [lit "jpegPhoto"; lit "cn"] -> attr_name a).
    { intros a [<-|[<-|[]]]; (split; [split; [discriminate|repeat constructor]|]);
        intros Hin; cbn in Hin; repeat (destruct Hin as [Hin|Hin]; [discriminate|]); contradiction. }
    cbn [q_change rec_ex]. repeat apply Forall_cons; try apply Forall_nil; cbn [fst snd];
      (split; [apply A; first [now left|right; now left]|]).
    + cbn [shown_ok]. split; [repeat constructor|].
      replace (decoded utf8_strict [255; 216; 0; 1]%N) with (Bytes [255; 216; 0; 1]%N) by (vm_compute; reflexivity).
      split; intros c r E.
      * injection E as <- _. intros [H|H]; [lia|discriminate].
      * change [255; 216; 0; 1]%N with ([255; 216; 0] ++ [1])%N in E. apply app_inj_tail in E as [_ <-]. intros [H|H]; [lia|discriminate].
    + exact (proj2 P).
    + cbn [shown_ok]. split; [repeat constructor|].
      replace (decoded utf8_strict (lit "b")) with (Text (lit "b")) by (vm_compute; reflexivity).
      split; intros c r E.
      * injection E as <- _. discriminate.
      * change (lit "b") with ([] ++ [98%N]) in E. apply app_inj_tail in E as [_ <-]. discriminate.
  - cbn [q_ctls rec_ex]. repeat apply Forall_cons; try apply Forall_nil; cbn [fst snd];
      (split; [apply D; cbn; tauto|]); (split; [repeat constructor|]).
    + right. right. split; [reflexivity|]. left. reflexivity.
    + left. reflexivity.
    + right. left. reflexivity.
  - vm_compute. constructor; [intros []|constructor].
Qed.
(** the decoders exist *)
Example C34_nonvacuous_decoders : b64decode_ok b64_lenient /\ utf8_decode_ok utf8_strict.
Proof. split; [apply b64_lenient_ok|apply utf8_strict_ok]. Qed.

Print Assumptions C34_octets_and_unknown_controls_partial.
Print Assumptions C34_refuted_repeated_control.
Print Assumptions C34_refuted_white_space_lost.
Print Assumptions C34_line_ends.
