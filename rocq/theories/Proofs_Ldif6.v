(** * Proofs about comments in LDIF *)
From Verif Require Import PyBase Model_Uri Model_Prep Model_Ldif Spec_Ldif Spec_Uri Proofs_Prep Proofs_Uri Proofs_Ldif Proofs_Ldif2 Proofs_Ldif3 Proofs_Ldif4 Proofs_Ldif5.

(** a line that is no comment *)
Definition solid (l : str) : Prop := exists c r, l = c :: r /\ sp c = false /\ c <> 35%N.
Lemma solid_not l : solid l -> starts_with (lit "#") (py_strip l) = false.
Proof. intros (c & r & -> & H1 & H2). now apply no_comment. Qed.
Lemma comment_is l : comment l -> starts_with (lit "#") (py_strip l) = true.
Proof.
  intros ((r & ->) & _). assert (H : sp (ch "#") = false) by reflexivity. destruct (strip_head (ch "#") r H) as [t ->]. reflexivity.
Qed.
Lemma comment_good l : comment l -> good_line l.
Proof.
  intros ((r & E) & Hb & Hh). split; [split|].
  - revert Hb. apply Forall_impl. intros x. now rewrite break_line.
  - exists (ch "#"), r. split; [exact E|discriminate].
  - destruct (hc l) eqn:X; [|reflexivity]. apply hc_iff in X as (a & b & X). exfalso. exact (Hh a b X).
Qed.

Lemma clear_solid l r : solid l -> clear_comments (l :: r) = l :: r.
Proof. intros H. cbn [clear_comments]. now rewrite solid_not. Qed.
Lemma clear_comment l r : comment l -> clear_comments (l :: r) = clear_comments r.
Proof. intros H. cbn [clear_comments]. now rewrite comment_is. Qed.
Lemma clear_many cs r : Forall comment cs -> clear_comments (cs ++ r) = clear_comments r.
Proof. induction 1 as [|c cs H _ IH]; [reflexivity|]. cbn [app]. now rewrite clear_comment. Qed.

Lemma commented_nil b : commented [] b -> Forall comment b.
Proof. intros H. remember [] as a eqn:E. induction H; [constructor|discriminate|constructor; auto]. Qed.
Lemma commented_cons l a b : commented (l :: a) b -> exists cs b', b = cs ++ l :: b' /\ Forall comment cs /\ commented a b'.
Proof.
  intros H. remember (l :: a) as x eqn:E. induction H as [|l' a' b' H _|c a' b' Hc H IH]; [discriminate| |].
  - injection E as -> ->. exists [], b'. repeat split; auto.
  - destruct (IH E) as (cs & b2 & -> & F & H2). exists (c :: cs), b2. repeat split; auto.
Qed.
Lemma commented_refl a : commented a a.
Proof. induction a; now constructor. Qed.
Lemma clear_commented a b : commented a b -> Forall solid a ->
  exists b', clear_comments b = b' /\ commented a b' /\ (a = [] -> b' = []) /\ (forall l a', a = l :: a' -> exists b2, b' = l :: b2 /\ commented a' b2).
Proof.
  intros H So. destruct a as [|l a].
  - exists []. split; [|split; [constructor|split; [reflexivity|discriminate]]].
    rewrite <- (app_nil_r b). rewrite clear_many by now apply commented_nil. reflexivity.
  - apply commented_cons in H as (cs & b' & -> & F & H). rewrite clear_many by exact F. inversion So; subst. rewrite clear_solid by assumption.
    exists (l :: b'). split; [reflexivity|]. split; [now constructor|]. split; [discriminate|].
    intros l' a' E. injection E as <- <-. eauto.
Qed.

Section C.
  Context (utf8_decode : list N -> option str) (b64decode : str -> res (list N)).
  Context (keyword : str -> option str) (default_criticality : bool).
  Context (Hb : b64decode_ok b64decode) (Hu : utf8_decode_ok utf8_decode).
  Notation read_add := (read_add utf8_decode b64decode).
  Notation read_controls := (read_controls utf8_decode b64decode keyword default_criticality).
  Notation read_record := (read_record utf8_decode b64decode keyword default_criticality).
  Notation read_moddn := (read_moddn utf8_decode b64decode).

  Lemma add_commented a b : commented a b -> Forall solid a -> forall attrs, read_add b attrs = read_add a attrs.
  Proof.
    induction 1 as [|l a b _ IH|c a b Hc _ IH]; intros So attrs; [reflexivity| |].
    - inversion So as [|? ? Sl Sa]; subst. cbn [Model_Ldif.read_add]. rewrite solid_not by exact Sl. cbv zeta.
      destruct (py_split (lit ":") (py_strip l)) as [|x [|y r]]; try reflexivity.
      destruct (maybe_base64 utf8_decode b64decode (skipn (S (List.length x)) (py_strip l))) as [v|e]; [|reflexivity]. cbn [bind].
      destruct (1 <? List.length (py_split (lit ";") x)); [reflexivity|]. now apply IH.
    - cbn [Model_Ldif.read_add]. rewrite comment_is by exact Hc. now apply IH.
  Qed.
  Lemma modify_commented a b : commented a b -> Forall solid a -> forall cur vals mods, read_modify b cur vals mods = read_modify a cur vals mods.
  Proof.
    induction 1 as [|l a b _ IH|c a b Hc _ IH]; intros So cur vals mods; [reflexivity| |].
    - inversion So as [|? ? Sl Sa]; subst. cbn [read_modify]. cbv zeta. rewrite solid_not by exact Sl.
      destruct cur as [[o x]|].
      + destruct (str_eqb (py_strip l) (lit "-")).
        * destruct (one_mod o x vals) as [m|e]; [|reflexivity]. cbn [bind]. now apply IH.
        * destruct (starts_with x (py_strip l)); [|reflexivity].
          destruct (py_split (lit ":") (py_strip l)) as [|y [|z [|w r]]]; try reflexivity.
          destruct (1 <? List.length (py_split (lit ";") y)); [reflexivity|]. destruct z; [reflexivity|]. now apply IH.
      + destruct (py_split (lit ":") (py_strip l)) as [|y [|z [|w r]]]; try reflexivity.
        destruct (mod_string y) as [m|e]; [|reflexivity]. cbn [bind]. now apply IH.
    - cbn [read_modify]. cbv zeta. rewrite comment_is by exact Hc. now apply IH.
  Qed.
  (** with all its lines there *)
  Lemma moddn_commented dn ctls l1 l2 a b : commented (l1 :: l2 :: a) b -> Forall solid (l1 :: l2 :: a) ->
    read_moddn dn (clear_comments b) ctls = read_moddn dn (l1 :: l2 :: a) ctls.
  Proof.
    intros H So. destruct (clear_commented _ _ H So) as (b' & -> & _ & _ & Hn). destruct (Hn _ _ eq_refl) as (b2 & -> & H2).
    inversion So as [|? ? S1 S']; subst. unfold Model_Ldif.read_moddn.
    apply commented_cons in H2 as (cs & b3 & -> & F & H3). rewrite clear_many by exact F. inversion S' as [|? ? S2 S3]; subst.
    rewrite (clear_solid l2 b3 S2), (clear_solid l2 a S2).
    destruct (cs ++ l2 :: b3) as [|x y] eqn:E; [destruct cs; discriminate|].
    destruct (take_field (lit "newrdn:") l1) as [v|]; [|reflexivity]. destruct (maybe_base64 utf8_decode b64decode v) as [nr|]; [|reflexivity]. cbn [bind].
    destruct (take_field (lit "deleteoldrdn:") l2) as [d|]; [|reflexivity].
    destruct (if str_eqb d (lit "0") then Ok false else if str_eqb d (lit "1") then Ok true else Raise ValueError) as [cl|]; [|reflexivity]. cbn [bind].
    destruct (clear_commented _ _ H3 S3) as (b4 & -> & _ & H0 & H1).
    destruct a as [|l3 a]; [rewrite (H0 eq_refl); reflexivity|]. destruct (H1 _ _ eq_refl) as (b5 & -> & _).
    inversion S3; subst. rewrite (clear_solid l3 a) by assumption. reflexivity.
  Qed.

  (** the lines after the controls do not matter to them *)
  Lemma controls_after cs l rest rest' : ~ starts (lit "control:") l -> forall ctls,
    match read_controls (map ctl_line cs ++ l :: rest) ctls, read_controls (map ctl_line cs ++ l :: rest') ctls with
    | Ok (c, ls), Ok (c', ls') => c = c' /\ ls = l :: rest /\ ls' = l :: rest'
    | Raise e, Raise e' => e = e'
    | _, _ => False
    end.
  Proof.
    intros Hl. induction cs as [|c cs IH]; intros ctls.
    - cbn [map app]. rewrite !(read_controls_end utf8_decode b64decode keyword default_criticality) by exact Hl. auto.
    - cbn [map app].
      assert (U : forall r, read_controls (ctl_line c :: map ctl_line cs ++ l :: r) ctls =
                  match control_re (py_strip (skipn 8 (ctl_line c))) with
                  | None => Raise ValueError
                  | Some (oid, crit, v) =>
                      let* value := handle_base64 utf8_decode b64decode v in
                      match keyword oid with
                      | None => if (match crit with Some b => b | None => default_criticality end) then Raise LDAPSupportError else read_controls (map ctl_line cs ++ l :: r) ctls
                      | Some [] => read_controls (map ctl_line cs ++ l :: r) ctls
                      | Some kw => read_controls (map ctl_line cs ++ l :: r) (dset ctls kw (crit, value))
                      end
                  end).
      { intros r. cbn [Model_Ldif.read_controls].
        assert (starts_with (lit "control:") (ctl_line c) = true) as ->.
        { destruct c as [[oid crit] b]. apply starts_with_spec. eexists. reflexivity. }
        destruct (map ctl_line cs ++ l :: r) eqn:E; [destruct cs; discriminate|]. reflexivity. }
      rewrite !U. destruct (control_re (py_strip (skipn 8 (ctl_line c)))) as [[[oid crit] v]|]; [|reflexivity].
      destruct (handle_base64 utf8_decode b64decode v) as [value|e]; [|reflexivity]. cbn [bind].
      destruct (keyword oid) as [[|k kw]|]; [apply IH|apply IH|].
      destruct (match crit with Some b => b | None => default_criticality end); [reflexivity|apply IH].
  Qed.

  (** the lines of a well-formed record *)
  Lemma show_solid a f : attr_desc a -> solid (show a f).
  Proof.
    intros [Hn Ha]. destruct a as [|c a]; [contradiction|]. inversion Ha as [|? ? Hc _]; subst.
    exists c. unfold solid, show. destruct (f_b64 f); eexists; (split; [reflexivity|]); revert Hc; unfold key_char, sp, py_isspace, in_ranges; cbn [existsb fst snd py_space_ranges]; lia.
  Qed.
  Lemma desc_solid a s : attr_desc a -> solid (a ++ s).
  Proof.
    intros [Hn Ha]. destruct a as [|c a]; [contradiction|]. inversion Ha as [|? ? Hc _]; subst.
    exists c. eexists. split; [reflexivity|]. revert Hc; unfold key_char, sp, py_isspace, in_ranges; cbn [existsb fst snd py_space_ranges]; lia.
  Qed.
  Lemma change_solid c ctype body : change_ok c -> change_lines c = ctype :: body -> solid ctype /\ Forall solid body.
  Proof.
    intros Hc E. destruct c as [values| |mods|newrdn clean newsup]; cbn [change_lines] in E; injection E as <- <-.
    - split; [exists 99%N; eexists; split; [reflexivity|split; [reflexivity|discriminate]]|]. rewrite Forall_map. revert Hc. apply Forall_impl.
      intros [a f] ((Ha & _) & _). now apply show_solid.
    - split; [exists 99%N; eexists; split; [reflexivity|split; [reflexivity|discriminate]]|constructor].
    - split; [exists 99%N; eexists; split; [reflexivity|split; [reflexivity|discriminate]]|]. cbn [change_ok] in Hc.
      induction Hc as [|[[o a] vs] mods ((Ha & _) & _) _ IH]; [constructor|]. cbn [map List.concat mod_lines app fst snd] in *.
      constructor.
      { destruct o; eexists; eexists; (split; [reflexivity|split; [reflexivity|discriminate]]). }
      rewrite <- app_assoc. apply Forall_app. split.
      { rewrite Forall_map. apply Forall_forall. intros v _. now apply desc_solid. }
      constructor; [|exact IH]. exists 45%N; eexists; split; [reflexivity|split; [reflexivity|discriminate]].
    - split; [exists 99%N; eexists; split; [reflexivity|split; [reflexivity|discriminate]]|].
      constructor; [apply show_solid; split; [discriminate|repeat constructor]|].
      constructor; [exists 100%N; eexists; split; [reflexivity|split; [reflexivity|discriminate]]|].
      destruct newsup as [p|]; constructor; [|constructor]. apply show_solid; split; [discriminate|repeat constructor].
  Qed.
  Lemma ctype_no_control c ctype body : change_lines c = ctype :: body -> ~ starts (lit "control:") ctype.
  Proof. intros E [r X]. destruct c; cbn [change_lines] in E; injection E as <- _; discriminate. Qed.

  Lemma commented_reads r lines : rec_ok keyword r -> rec_commented r lines -> read_record lines = read_record (rec_lines r).
  Proof.
    intros (Hdn & Hch & Hctl & Hnd) (head & ctype & body & body' & Ec & Hh & Hbody & ->). unfold rec_lines. rewrite Ec.
    destruct (change_solid _ _ _ Hch Ec) as [Sct Sb]. pose proof (ctype_no_control _ _ _ Ec) as Hnc.
    apply commented_cons in Hh as (cs & cs' & -> & F & H'). apply commented_nil in H'.
    assert (L : read_record ((cs ++ show (lit "dn") (r_dn r) :: cs') ++ map ctl_line (r_ctls r) ++ ctype :: body') =
                read_record (show (lit "dn") (r_dn r) :: cs' ++ map ctl_line (r_ctls r) ++ ctype :: body')).
    { unfold Model_Ldif.read_record at 1. rewrite <- app_assoc, clear_many by exact F. cbn [app].
      unfold Model_Ldif.read_record. rewrite (clear_solid (show _ _)); [reflexivity|]. apply show_solid; split; [discriminate|repeat constructor]. }
    rewrite L, !(read_dn utf8_decode b64decode keyword default_criticality Hb Hu) by exact Hdn.
    rewrite clear_many by exact H'. rewrite !ctl_clear by (apply clear_solid, Sct).
    pose proof (controls_after (r_ctls r) ctype body' body Hnc []) as R.
    destruct (read_controls (map ctl_line (r_ctls r) ++ ctype :: body') []) as [[c1 ls1]|e1], (read_controls (map ctl_line (r_ctls r) ++ ctype :: body) []) as [[c2 ls2]|e2];
      try contradiction; [|now rewrite R]. destruct R as (-> & -> & ->). cbn [bind].
    destruct (take_field (lit "changetype:") ctype) as [t|] eqn:Et; [|reflexivity]. cbv zeta.
    destruct (clear_commented _ _ Hbody Sb) as (b' & Eb & Hb' & _). rewrite Eb.
    assert (Cb : clear_comments body = body) by (destruct body; [reflexivity|apply clear_solid; inversion Sb; assumption]). rewrite Cb.
    destruct (str_eqb t (lit "add")); [now rewrite (add_commented body b')|].
    destruct (str_eqb t (lit "delete")); [reflexivity|].
    destruct (str_eqb t (lit "modify")); [now rewrite (modify_commented body b')|].
    destruct (str_eqb t (lit "modrdn") || str_eqb t (lit "moddn")) eqn:Em; [|reflexivity].
    destruct (r_change r) as [values| |mods|newrdn clean newsup]; cbn [change_lines] in Ec; injection Ec as <- <-; try (injection Et as <-; discriminate).
    rewrite <- Eb. now apply moddn_commented.
  Qed.
  Lemma commented_good r lines : rec_ok keyword r -> rec_commented r lines -> lines <> [] /\ Forall good_line lines.
  Proof.
    intros Hr (head & ctype & body & body' & Ec & Hh & Hbody & ->). destruct (good_rec keyword r Hr) as [_ G]. unfold rec_lines in G. rewrite Ec in G.
    inversion G as [|? ? Gd G']; subst. apply Forall_app in G' as [Gc Gb]. inversion Gb as [|? ? Gt Gbody]; subst.
    assert (K : forall a b, commented a b -> Forall good_line a -> Forall good_line b).
    { induction 1 as [|l a b _ IH|c a b Hc _ IH]; intros X; [constructor| |].
      - inversion X; subst. constructor; auto.
      - constructor; auto. now apply comment_good. }
    split.
    - intros E. apply app_eq_nil in E as [_ E]. apply app_eq_nil in E as [_ E]. discriminate.
    - apply Forall_app. split; [apply (K _ _ Hh); constructor; [exact Gd|constructor]|]. apply Forall_app. split; [exact Gc|]. constructor; [exact Gt|]. exact (K _ _ Hbody Gbody).
  Qed.

  Context (exec : list op -> op -> res unit) (fetch_error : str -> exn).
  Notation process := (process_ldif utf8_decode b64decode keyword default_criticality exec fetch_error).
  Notation runr := (run_records utf8_decode b64decode keyword default_criticality exec).
  Lemma run_commented rs blocks : Forall (rec_ok keyword) rs -> Forall2 rec_commented rs blocks -> forall bs done,
    Forall2 (fun b lines => b <> [] /\ splitlines false [] b = lines) bs blocks ->
    exists ops r all, Forall2 (describes utf8_decode keyword) rs ops /\ carried_out exec done ops r all /\ runr bs done = (r, all).
  Proof.
    intros H C. revert H. induction C as [|r lines rs blocks Hc C IH]; intros H bs done F; inversion F as [|b l0 bs' ls' [Hne Hl] F']; subst.
    - exists [], (Ok tt), done. repeat constructor.
    - inversion H as [|? ? Hr H']; subst. destruct (read_record_spec utf8_decode b64decode keyword default_criticality Hb Hu r Hr) as (o & Eo & Hd).
      destruct b as [|c b]; [contradiction|]. cbn [run_records]. rewrite (commented_reads r _ Hr Hc), Eo.
      destruct (exec done o) as [[]|e] eqn:Ex.
      + destruct (IH H' bs' (done ++ [o]) F') as (ops & r' & all & Fo & Hco & Hrun). exists (o :: ops), r', all. split; [now constructor|].
        split; [eapply co_next; eauto|exact Hrun].
      + destruct (IH H' bs' done F') as (ops & r' & all & Fo & _ & _).
        exists (o :: ops), (Raise e), (done ++ [o]). split; [now constructor|]. split; [now apply co_fail|reflexivity].
  Qed.

  (** comments at the very beginning *)
  Lemma process_leading cs t : Forall comment cs -> unfold t = t -> has_url t = false -> hc t = false ->
    (match t with c :: _ => c <> 32%N | [] => True end) -> process (ended cs ++ t) = process t.
  Proof.
    intros H Hun Hurl Hhc Hsp. unfold process_ldif.
    rewrite unfold_ended; [|revert H; apply Forall_impl; intros l Hl; apply comment_good in Hl; apply Hl|exact Hsp].
    rewrite Hun. rewrite hc_url by (apply hc_ended; [revert H; apply Forall_impl; intros l Hl; apply comment_good in Hl; apply Hl|exact Hhc]).
    rewrite Hurl.
    assert (E : clear_comments (splitlines true [] (ended cs ++ t)) = clear_comments (splitlines true [] t)).
    { clear Hun Hurl Hhc Hsp. induction H as [|c cs Hc _ IH]; [reflexivity|]. rewrite ended_cons, <- app_assoc. cbn [app].
      rewrite splitlines_line by (apply comment_good in Hc; apply Hc). cbn [rev app]. rewrite <- IH. cbn [clear_comments].
      destruct Hc as ((r & ->) & _). change ((ch "#" :: r) ++ [10%N]) with (ch "#" :: (r ++ [10%N])).
      destruct (strip_head (ch "#") (r ++ [10%N]) eq_refl) as [y ->]. reflexivity. }
    now rewrite E.
  Qed.

  Lemma ended_app a b : ended (a ++ b) = ended a ++ ended b.
  Proof. induction a as [|l a IH]; [reflexivity|]. cbn [app]. rewrite !ended_cons, IH, <- !app_assoc. reflexivity. Qed.
  Lemma file_head cs b rest : file ((cs ++ b) :: rest) = ended cs ++ file (b :: rest).
  Proof. destruct rest; cbn [file]; rewrite ended_app, <- ?app_assoc; reflexivity. Qed.
  (** what comes before the first record's dn line moved to the front *)
  Lemma first_head r lines : rec_commented r lines -> exists cs b, lines = cs ++ show (lit "dn") (r_dn r) :: b /\ Forall comment cs /\
    rec_commented r (show (lit "dn") (r_dn r) :: b).
  Proof.
    intros (head & ctype & body & body' & Ec & Hh & Hbody & ->). apply commented_cons in Hh as (cs & h2 & -> & F & H).
    exists cs, (h2 ++ map ctl_line (r_ctls r) ++ ctype :: body'). split; [rewrite <- app_assoc; reflexivity|]. split; [exact F|].
    exists (show (lit "dn") (r_dn r) :: h2), ctype, body, body'. repeat (split; [first [assumption|now constructor]|]). reflexivity.
  Qed.
  Definition vline (version : bool) : str := if version then lit "version: 1" ++ [10%N] else [].
  Lemma clean_blocks cs (version : bool) blocks : Forall comment cs -> Forall (fun b => b <> [] /\ Forall good_line b) blocks ->
    unfold (ended cs ++ vline version ++ file blocks) = ended cs ++ vline version ++ file blocks /\
    unfold (vline version ++ file blocks) = vline version ++ file blocks /\
    hc (vline version ++ file blocks) = false /\
    (match vline version ++ file blocks with c :: _ => c <> 32%N | [] => True end) /\
    ~ In 13%N (ended cs ++ vline version ++ file blocks).
  Proof.
    intros Hc H.
    assert (Hbl : Forall block_ok blocks).
    { revert H. apply Forall_impl. intros b [A B]. split; auto. revert B. apply Forall_impl. now intros l []. }
    assert (Hhc : Forall (Forall (fun l => hc l = false)) blocks).
    { revert H. apply Forall_impl. intros b [_ B]. revert B. apply Forall_impl. now intros l []. }
    assert (Hun : unfold (vline version ++ file blocks) = vline version ++ file blocks).
    { unfold vline. destruct version; [|now apply unfold_file].
      change (lit "version: 1" ++ [10%N]) with (ended [lit "version: 1"]). rewrite unfold_ended.
      - now rewrite unfold_file.
      - constructor; [|constructor]. apply good_lit_line; reflexivity.
      - now apply file_starts. }
    assert (Hs : match vline version ++ file blocks with c :: _ => c <> 32%N | [] => True end).
    { unfold vline. destruct version; [discriminate|]. now apply file_starts. }
    split; [|split; [exact Hun|split; [|split; [exact Hs|]]]].
    - rewrite unfold_ended, Hun; auto. revert Hc. apply Forall_impl. intros l Hl. apply comment_good in Hl. apply Hl.
    - unfold vline. destruct version; [|now apply hc_file].
      change (lit "version: 1" ++ [10%N]) with (ended [lit "version: 1"]). apply hc_ended; [|now apply hc_file]. constructor; [reflexivity|constructor].
    - rewrite !in_app_iff. intros [Hin|[Hin|Hin]].
      + clear - Hc Hin. induction Hc as [|c cs Hc _ IH]; [contradiction|]. rewrite ended_cons, in_app_iff in Hin.
        destruct Hin as [Hin|[Hin|Hin]]; [|discriminate|auto].
        apply comment_good in Hc. destruct Hc as [[Hk _] _]. rewrite Forall_forall in Hk. apply Hk in Hin. discriminate.
      + destruct version; cbn in Hin; repeat (destruct Hin as [Hin|Hin]; [discriminate|]); contradiction.
      + apply in_file in Hin as [|(b & l & Hb' & Hl & Hc')]; [discriminate|]. rewrite Forall_forall in Hbl.
        destruct (Hbl b Hb') as [_ Hf]. rewrite Forall_forall in Hf. destruct (Hf l Hl) as [Hk _]. rewrite Forall_forall in Hk.
        apply Hk in Hc'. discriminate.
  Qed.
  Lemma process_commented cs (version : bool) rs blocks text : Forall comment cs -> Forall (rec_ok keyword) rs -> rs <> [] ->
    Forall2 rec_commented rs blocks -> refolds (ended cs ++ vline version ++ file blocks) text ->
    exists ops r all, Forall2 (describes utf8_decode keyword) rs ops /\ carried_out exec [] ops r all /\ process text = (r, all).
  Proof.
    intros Hcs Hr Hne H Hf.
    assert (Hg : forall rs blocks, Forall (rec_ok keyword) rs -> Forall2 rec_commented rs blocks -> Forall (fun b => b <> [] /\ Forall good_line b) blocks).
    { clear - Hb Hu. intros rs blocks Hr H. induction H as [|r b rs blocks Hc _ IH]; [constructor|]. inversion Hr; subst. constructor; [|auto]. eapply commented_good; eauto. }
    destruct (clean_blocks cs version blocks Hcs (Hg _ _ Hr H)) as (Hun & _ & _ & _ & Hcr).
    rewrite (process_same _ _ _ _ _ _ _ text) by (rewrite (refolds_unfold _ _ Hf Hcr Hun); symmetry; exact Hun). clear Hf Hcr Hun text.
    assert (G : exists cs' blocks', Forall comment cs' /\ Forall2 rec_commented rs blocks' /\
              ended cs ++ vline version ++ file blocks = ended cs' ++ vline version ++ file blocks' /\
              (version = false -> exists c l b rest, blocks' = ((c :: l) :: b) :: rest /\ sp c = false /\ c <> 35%N /\ starts_with (lit "version:") (c :: l) = false)).
    { destruct version; [exists cs, blocks; repeat (split; [auto|]); discriminate|].
      destruct H as [|r b rs blocks Hc H]; [contradiction|]. destruct (first_head r b Hc) as (c1 & b1 & -> & F1 & H1).
      exists (cs ++ c1), ((show (lit "dn") (r_dn r) :: b1) :: blocks). split; [now apply Forall_app|]. split; [now constructor|].
      split; [unfold vline; cbn [app]; now rewrite file_head, ended_app, <- app_assoc|]. intros _.
      exists 100%N, (tl (show (lit "dn") (r_dn r))), b1, blocks.
      assert (E : show (lit "dn") (r_dn r) = 100%N :: tl (show (lit "dn") (r_dn r))) by (unfold show; destruct (f_b64 (r_dn r)); reflexivity).
      split; [now rewrite E at 1|]. split; [reflexivity|]. split; [discriminate|]. reflexivity. }
    destruct G as (cs' & bl' & Hcs' & H' & -> & Hv). clear H blocks Hcs cs. pose proof (Hg _ _ Hr H') as Hgood.
    destruct (clean_blocks cs' version bl' Hcs' Hgood) as (_ & Hun & Hhc & Hs & _).
    rewrite (process_leading cs' (vline version ++ file bl') Hcs' Hun (hc_url _ Hhc) Hhc Hs).
    destruct (process_file utf8_decode b64decode keyword default_criticality exec fetch_error bl' version) as (bs & F & E).
    - revert Hgood. apply Forall_impl. now intros b [].
    - revert Hgood. apply Forall_impl. now intros b [].
    - destruct H'; [contradiction|discriminate].
    - exact Hv.
    - destruct (run_commented rs bl' Hr H' bs [] F) as (ops & r & all & H1 & H2 & H3). exists ops, r, all. repeat (split; [assumption|]). rewrite <- H3. exact E.
  Qed.
End C.
