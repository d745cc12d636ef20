(** * Proofs about sessions *)
From Verif Require Import PyBase Model_Uri Model_Ldif Model_Controls Model_CIDict Model_Modify Model_Filter Model_Net Spec_Net Proofs_Net Model_Search Spec_Search Proofs_Search Model_Request
  Model_Wire Spec_X690 Spec_Wire Spec_Wire2 Proofs_X690 Proofs_Wire Proofs_Wire2 Proofs_Wire3 Proofs_Wire4 Proofs_Wire5 Proofs_Wire6 Model_Reply Spec_Reply Proofs_Reply Props_Reply
  Model_Stream Spec_Stream Proofs_Stream Model_Session Spec_Session Props_Search Props_Wire.
Local Open Scope list_scope.

(** ** Reading answers that are all for one request *)
Section Read.
  Context {M : Type} (mid : M -> N) (dec : str -> option (M * str)) (enc : M -> list N).
  Definition none_queued : @queues M := fun _ => None.
  Definition framed (o : M) : Prop :=
    enc o <> [] /\ (forall r, dec (enc o ++ r) = Some (o, r)) /\ (forall a c, enc o = a ++ c -> c <> [] -> dec a = None).

  Lemma split_front (x y e r : list N) : x ++ y = e ++ r -> (exists t, x = e ++ t /\ t ++ y = r) \/ (exists c, c <> [] /\ e = x ++ c).
  Proof.
    revert e. induction x as [|a x IH]; intros e H.
    - destruct e as [|b e]; [left; exists []; auto|right; exists (b :: e); split; [discriminate|reflexivity]].
    - destruct e as [|b e]; [left; exists (a :: x); auto|]. cbn [app] in H. injection H as -> H. destruct (IH e H) as [(t & -> & <-)|(c & Hc & ->)].
      + left. exists t. auto.
      + right. exists c. auto.
  Qed.
  Lemma loop_yields o k f t n raw : framed o -> mid o = k -> raw = enc o ++ t -> List.length raw <= n ->
    decode_loop mid dec n k none_queued f raw = DYield o none_queued f t.
  Proof.
    intros (Hn & Hd & _) Hm -> Hl. destruct (enc o ++ t) as [|x l] eqn:E; [apply app_eq_nil in E; destruct E; contradiction|].
    destruct n as [|n]; [cbn [List.length] in Hl; lia|]. cbn [decode_loop]. rewrite <- E, Hd, Hm, N.eqb_refl. reflexivity.
  Qed.
  Lemma loop_waits o k f c n raw : framed o -> c <> [] -> enc o = raw ++ c -> raw <> [] -> List.length raw <= n ->
    decode_loop mid dec n k none_queued f raw = DUnder none_queued f raw.
  Proof.
    intros (_ & _ & Hp) Hc E Hr Hl. destruct raw as [|x l] eqn:Er; [contradiction|]. destruct n as [|n]; [cbn [List.length] in Hl; lia|].
    cbn [decode_loop]. now rewrite (Hp _ _ E Hc).
  Qed.

  Lemma top_delivers o rest k f : framed o -> mid o = k -> forall pend raw flush c,
    raw ++ List.concat pend = enc o ++ rest -> c <> [] -> enc o = raw ++ c -> Forall (fun x => x <> []) pend ->
    exists raw' pend', top mid dec pend [] k flush none_queued f raw = Yield o (mk_gen k InDecode raw') (mk_sock none_queued f pend' []) /\
      raw' ++ List.concat pend' = rest /\ Forall (fun x => x <> []) pend'.
  Proof.
    intros Hf Hm. induction pend as [|x pend IH]; intros raw flush c E Hc Hr Hn.
    - exfalso. cbn [List.concat] in E. rewrite app_nil_r, Hr, <- app_assoc in E. assert (E2 : raw ++ [] = raw ++ (c ++ rest)) by (rewrite app_nil_r; exact E).
      apply app_inv_head in E2. symmetry in E2. apply app_eq_nil in E2. destruct E2. contradiction.
    - inversion Hn as [|? ? Hx Hn']; subst. cbn [List.concat] in E. rewrite app_assoc in E.
      assert (F : (if flush then flush_one none_queued (mid o) else None) = None) by (destruct flush; reflexivity).
      cbn [top]. rewrite F. cbn [existsb].
      destruct (split_front _ _ _ _ E) as [(t & E1 & E2)|(c' & Hc' & E1)].
      + rewrite (loop_yields o (mid o) f t _ _ Hf eq_refl E1) by lia. exists t, pend. auto.
      + assert (Hne : raw ++ x <> []) by (destruct raw; [exact Hx|discriminate]).
        rewrite (loop_waits o (mid o) f c' _ _ Hf Hc' E1 Hne) by lia. exact (IH (raw ++ x) false c' E Hc' E1 Hn').
  Qed.

  Definition at_work (g : gen) (k : N) : Prop := g_want g = k /\ ((g_pc g = AtStart /\ g_raw g = []) \/ g_pc g = InDecode).
  Lemma next_one o rest k f g pend : framed o -> mid o = k -> at_work g k ->
    g_raw g ++ List.concat pend = enc o ++ rest -> Forall (fun x => x <> []) pend ->
    exists g' pend', gen_next mid dec g (mk_sock none_queued f pend []) = Yield o g' (mk_sock none_queued f pend' []) /\
      at_work g' k /\ g_raw g' ++ List.concat pend' = rest /\ Forall (fun x => x <> []) pend'.
  Proof.
    intros Hf Hm [Hw Hpc] E Hn. destruct g as [w pc raw]. cbn [g_want g_pc g_raw] in *. subst w.
    assert (Hne : enc o <> []) by apply Hf.
    assert (AW : forall raw', at_work (mk_gen k InDecode raw') k) by (intros; split; [reflexivity|now right]).
    destruct Hpc as [[-> ->]| ->]; unfold gen_next; cbn [g_pc g_want g_raw].
    - destruct (top_delivers o rest k f Hf Hm pend [] true (enc o) E Hne eq_refl Hn) as (raw' & pend' & T & E' & N'). exists (mk_gen k InDecode raw'), pend'. auto.
    - destruct (split_front _ _ _ _ E) as [(t & E1 & E2)|(c & Hc & E1)].
      + rewrite (loop_yields o k f t _ _ Hf Hm E1) by lia. exists (mk_gen k InDecode t), pend. auto.
      + destruct raw as [|x raw].
        * cbn [decode_loop List.length]. destruct (top_delivers o rest k f Hf Hm pend [] true c E Hc E1 Hn) as (raw' & pend' & T & E' & N').
          exists (mk_gen k InDecode raw'), pend'. auto.
        * assert (Hx : x :: raw <> []) by discriminate.
          rewrite (loop_waits o k f c _ _ Hf Hc E1 Hx) by lia.
          destruct (top_delivers o rest k f Hf Hm pend (x :: raw) false c E Hc E1 Hn) as (raw' & pend' & T & E' & N').
          exists (mk_gen k InDecode raw'), pend'. auto.
  Qed.
  Lemma all_read (g : gen) pend : g_raw g ++ List.concat pend = [] -> Forall (fun x => x <> []) pend -> pend = [].
  Proof.
    intros E F. apply app_eq_nil in E as [_ E]. destruct pend as [|x pend]; [reflexivity|]. inversion F; subst. cbn [List.concat] in E. apply app_eq_nil in E as [E _]. contradiction.
  Qed.
End Read.

Lemma server_framed enc ms objs dec o : server_sends enc ms objs -> frames enc objs dec -> In o objs -> framed dec enc o.
Proof. intros H F I. destruct (F o I) as [F1 F2]. split; [|split; auto]. now apply (sent_ok _ _ _ H). Qed.

(** ** Requests *)
Local Open Scope string_scope.
Lemma prepared n c cs : (fst (prepare n c cs)) = message n (request_name c) (request c) cs /\
  (snd (prepare n c cs) = n \/ snd (prepare n c cs) = (n + 1)%Z).
Proof.
  unfold prepare, message. destruct (request c) as [x|e]; cbn [bind fst snd]; [|auto]. destruct (controls_obj cs) as [o|e]; cbn [bind fst snd]; auto.
Qed.
Lemma prepared_ok n c cs lm n' : prepare n c cs = (Ok lm, n') -> n' = (n + 1)%Z.
Proof.
  unfold prepare. destruct (request c) as [x|e]; [|discriminate]. destruct (controls_obj cs) as [o|e]; [|discriminate]. intros H. now injection H.
Qed.
Lemma request_exact n c cs : proper_call c ->
  exactly_if (Spec_Wire.int0max n /\ args_ok c /\ Forall ctrl_ok cs) (message n (request_name c) (request c) cs) (mk_rm n (asked c) (controls_of cs)).
Proof.
  intros Hp. destruct c as [u p|dn|dn rdn clean sup|dn l|dn l|dn a v|w]; cbn [args_ok asked request request_name].
  - apply C79_simple_bind.
  - apply C79_delete.
  - apply C79_mod_dn.
  - apply C79_modify.
  - now apply C79_add_partial.
  - apply C79_compare_partial.
  - apply C79_search.
Qed.
Lemma request_only c x : request c = Ok x -> args_ok c.
Proof.
  destruct c as [u p|dn|dn rdn clean sup|dn l|dn l|dn a v|w]; cbn [args_ok request]; intros H.
  - unfold simple_bind_request in H. unb. oly.
  - unfold delete_request in H. oly.
  - unfold mod_dn_request in H. unb. split; [oly|]. split; [oly|]. destruct sup; [unb; oly | exact I].
  - unfold modify_request in H. unb. split; [oly|]. rewrite Forall_forall. intros [[op a] vs] Hk.
    match goal with K : fill _ _ _ _ = Ok _ |- _ => destruct (fill_only _ _ _ _ _ K _ Hk) as (y & Ey) end.
    unfold change_obj in Ey. unb. cbn [fst snd]. split; cbn [fst snd]; [oly|]. eapply vals_only; eassumption.
  - eapply add_request_only, H.
  - unfold compare_request, text_type in H. unb. oly.
  - unfold search_request in H. unb. split; [oly|]. split; [oly|]. split; [oly|]. split; [eapply filter_only; eassumption|].
    rewrite Forall_forall. intros a Ha. match goal with K : fill _ _ _ _ = Ok _ |- _ => destruct (fill_only _ _ _ _ _ K _ Ha) as (y & Ey) end.
    eapply new_oct_only; [|exact Ey]. reflexivity.
Qed.
Lemma controls_only cs o : controls_obj cs = Ok o -> Forall ctrl_ok cs.
Proof.
  unfold controls_obj. intros H. destruct cs as [|a l]; [constructor|]. unb. rewrite Forall_forall. intros y Hy.
  match goal with K : fill _ _ _ _ = Ok _ |- _ => destruct (fill_only _ _ _ _ _ K y Hy) as (z & Ez) end. eapply control_only, Ez.
Qed.
(** a call that fails uses up an ID only if there are no more *)
Lemma refused n c cs e n' : proper_call c -> prepare n c cs = (Raise e, n') ->
  ~ (args_ok c /\ Forall ctrl_ok cs /\ Spec_Wire.int0max n) /\ (n' = n \/ (n' = (n + 1)%Z /\ ~ Spec_Wire.int0max n)).
Proof.
  intros Hp H. destruct (request_exact n c cs Hp) as [E1 _].
  assert (Hm : message n (request_name c) (request c) cs = Raise e) by (rewrite <- (proj1 (prepared n c cs)), H; reflexivity).
  assert (A : ~ (args_ok c /\ Forall ctrl_ok cs /\ Spec_Wire.int0max n)).
  { intros (A1 & A2 & A3). destruct E1 as (lm & E & _); [auto|]. congruence. }
  split; [exact A|]. unfold prepare in H. destruct (request c) as [x|e1] eqn:Er; [|injection H; auto].
  destruct (controls_obj cs) as [o|e1] eqn:Ec; [|injection H; auto]. injection H as _ <-. right. split; [reflexivity|].
  intros Hn. apply A. split; [now apply request_only in Er|]. split; [now apply controls_only in Ec|exact Hn].
Qed.
(** a message that is sent is the one of the arguments, and the server can read no other *)
Lemma sent_one n c cs lm n' b m : proper_call c -> prepare n c cs = (Ok lm, n') -> ber (o_val lm) (o_class lm) b -> e_message m b ->
  args_ok c /\ Forall ctrl_ok cs /\ Spec_Wire.int0max n /\ m = mk_rm n (asked c) (controls_of cs) /\ n' = (n + 1)%Z.
Proof.
  intros Hp H Hb Hm. destruct (request_exact n c cs Hp) as [E1 _].
  assert (El : message n (request_name c) (request c) cs = Ok lm) by (rewrite <- (proj1 (prepared n c cs)), H; reflexivity).
  destruct (message_only _ _ _ _ _ El) as ((x & X) & Hn & Hc). apply request_only in X.
  destruct E1 as (lm' & E & Hiff); [auto|]. rewrite El in E. injection E as <-. apply Hiff in Hb.
  assert (E2 : (b ++ [])%list = (b ++ [])%list) by reflexivity. destruct (message_uniq _ _ _ _ _ _ Hm Hb E2) as (-> & _ & _).
  repeat split; try assumption; try apply Hn. now apply prepared_ok in H.
Qed.

(** ** Answers *)
Section S.
  Context (decode : list N -> option str) (absent : str) (reg : registry) (builtin : str -> bool).
  Context (lower : str -> str) (urlparse : str -> str * str * str * str).
  Context (contact : ldapuri -> res unit).
  Notation receive := (receive decode absent reg builtin lower urlparse contact).
  Notation clean f pend := (mk_sock (@none_queued obj) f pend []).

  (** the messages of a search *)
  Lemma take_all dec enc k f : forall body ob last od r g pend fuel,
    Forall2 (fun m o => e_message m (enc o) /\ received (enc o) o /\ rm_id m <> 0%Z) body ob ->
    Forall (readable decode absent reg builtin lower urlparse) body ->
    e_message last (enc od) -> received (enc od) od -> rm_op last = RSearchResultDone r -> controls_fine absent reg builtin last ->
    Forall (fun o => framed dec enc o /\ message_id o = k) (ob ++ [od]) -> at_work g k ->
    (g_raw g ++ List.concat pend)%list = List.concat (map enc (ob ++ [od])) -> Forall (fun x => x <> []) pend -> List.length ob < fuel ->
    take_until_done decode absent dec fuel g (clean f pend) = Some ((ob ++ [od])%list, clean f []).
  Proof.
    intros body ob last od r g pend fuel H. revert g pend fuel. induction H as [|m o body ob (A & B & _) _ IH]; intros g pend fuel Hr Al Bl Hd Hc Hf Hg E Hn Hl.
    - cbn [List.app] in *. inversion Hf as [|? ? [Hfr Hid] _]; subst. cbn [map List.concat] in E.
      destruct (next_one message_id dec enc od [] (message_id od) f g pend Hfr eq_refl Hg E Hn) as (g' & pend' & En & _ & E' & N').
      apply all_read in E'; [|exact N']. subst pend'. destruct fuel as [|fuel]; [cbn in Hl; lia|]. cbn [take_until_done]. rewrite En.
      destruct (reply_done decode absent reg builtin last (enc od) od r Al Bl Hd Hc) as (uris & c & -> & _). reflexivity.
    - cbn [List.app] in *. inversion Hf as [|? ? [Hfr Hid] Hf']; subst. cbn [map List.concat] in E. inversion Hr as [|? ? Rm Rs]; subst.
      destruct (next_one message_id dec enc o (List.concat (map enc (ob ++ [od]))) (message_id o) f g pend Hfr eq_refl Hg E Hn) as (g' & pend' & En & Hg' & E' & N').
      destruct fuel as [|fuel]; [cbn in Hl; lia|]. cbn [take_until_done]. rewrite En.
      pose proof (IH g' pend' fuel Rs Al Bl Hd Hc Hf' Hg' E' N' ltac:(cbn [List.length] in Hl; lia)) as T.
      destruct (reply_of decode absent reg builtin lower urlparse m (enc o) o A B Rm) as [R _]. unfold result_message in R.
      destruct (as_reply decode absent o); try contradiction; rewrite T; reflexivity.
  Qed.

  Lemma of_same_id enc reply objs n : server_sends enc reply objs -> Forall (fun a => rm_id a = n) reply ->
    Forall (fun o => message_id o = Z.to_N n) objs.
  Proof.
    intros H. induction H as [|m o ms objs (A & B & _) _ IH]; intros F; [constructor|]. inversion F; subst. constructor; [now apply (id_of m (enc o) o)|auto].
  Qed.
  Lemma entries_of body ob enc : Forall2 (fun m o => e_message m (enc o) /\ received (enc o) o /\ rm_id m <> 0%Z) body ob ->
    Forall (readable decode absent reg builtin lower urlparse) body ->
    Forall (result_message (handle_controls reg builtin) lower urlparse) (map (as_reply decode absent) ob) /\
    forall items, Forall2 (item_for lower urlparse) (map (as_reply decode absent) ob) items -> Forall2 (stands_for decode lower urlparse) body items.
  Proof.
    intros Hob Hb. induction Hob as [|m o body ob (A & B & _) _ IH]; [split; [constructor|]; intros items H; inversion H; constructor|].
    inversion Hb as [|? ? R Rs]; subst. destruct (IH Rs) as [I1 I2]. destruct (reply_of decode absent reg builtin lower urlparse m (enc o) o A B R) as [R1 R2].
    split; [constructor; auto|]. intros items H. cbn [map] in H. inversion H; subst. constructor; auto.
  Qed.

  (** one message, alone *)
  Lemma one_answer enc a objs dec f chunks n : server_sends enc [a] objs -> rm_id a = n -> frames enc objs dec ->
    List.concat chunks = List.concat (map enc objs) -> Forall (fun x => x <> []) chunks ->
    exists o g', e_message a (enc o) /\ received (enc o) o /\
      recv_one message_id dec (Z.to_N n) (clean f chunks) = Yield o g' (clean f []).
  Proof.
    intros Hs Ha Hf E Hn. inversion Hs as [|? o ? ? (A & B & _) Hr]; subst. inversion Hr; subst.
    cbn [map List.concat] in E. assert (Hfr : framed dec enc o) by (eapply server_framed; [exact Hs|exact Hf|left; reflexivity]).
    destruct (next_one message_id dec enc o [] (Z.to_N (rm_id a)) f (recv_messages (Z.to_N (rm_id a))) chunks Hfr (id_of a (enc o) o A B)) as (g' & pend' & En & _ & E' & N').
    - split; [reflexivity|left; split; reflexivity].
    - exact E.
    - exact Hn.
    - apply all_read in E'; [|exact N']. subst pend'. exists o, g'. auto.
  Qed.

  Lemma by_code op a b lm : In op ["bindResponse"; "modifyResponse"; "delResponse"; "modDNResponse"] -> e_message a b -> received b lm -> oids_ascii a ->
    (let* x := success_result decode absent reg builtin op lm in Ok (RetControls x)) = result_by_code absent reg builtin (answer op (rm_op a)) a.
  Proof.
    intros I A B O. rewrite (C81_result decode absent reg builtin op a b lm I A B O). unfold result_by_code, controls_result.
    destruct (answer op (rm_op a)) as [r|]; [|reflexivity]. destruct (rr_code r =? 0)%Z; [|reflexivity].
    destruct (handle_response reg builtin [] (controls_in absent a)) as [[u|e] attrs]; reflexivity.
  Qed.
  Lemma answered n c cs server_reply enc objs dec f chunks fuel :
    answers_properly decode absent reg builtin lower urlparse (mk_rm n (asked c) (controls_of cs)) server_reply ->
    server_sends enc server_reply objs -> frames enc objs dec -> List.concat chunks = List.concat (map enc objs) ->
    Forall (fun x => x <> []) chunks -> List.length objs <= fuel ->
    exists r, receive dec fuel c (Z.to_N n) (clean f chunks) = Some (r, clean f []) /\
              returns decode absent reg builtin lower urlparse c server_reply r.
  Proof.
    intros [Hid Hans] Hs Hf E Hn Hl. cbn [rm_id rm_op] in *. destruct c as [u p|dn|dn rdn cl sup|dn l|dn l|dn a v|w]; cbn [asked] in Hans;
      try (destruct Hans as (x & -> & Ho); inversion Hid as [|? ? Hx _]; subst n; 
           destruct (one_answer enc x objs dec f chunks _ Hs eq_refl Hf E Hn) as (o & g' & A & B & R); unfold Model_Session.receive; rewrite R; eexists; split; [reflexivity|];
           cbn [returns]; exists x; split; [reflexivity|]).
    - apply (by_code "bindResponse" x (enc o) o); auto. cbn; tauto.
    - apply (by_code "delResponse" x (enc o) o); auto. cbn; tauto.
    - apply (by_code "modDNResponse" x (enc o) o); auto. cbn; tauto.
    - apply (by_code "modifyResponse" x (enc o) o); auto. cbn; tauto.
    - rewrite (C81_add decode absent reg builtin x (enc o) o A B Ho). unfold result_by_code, controls_result.
      destruct (answer "addResponse" (rm_op x)) as [r|]; [|reflexivity]. destruct (rr_code r =? 0)%Z; [|reflexivity].
      destruct (handle_response reg builtin [] (controls_in absent x)) as [[q|e] attrs]; reflexivity.
    - rewrite (C81_compare decode absent reg builtin x (enc o) o A B Ho). unfold controls_result.
      destruct (rm_op x); try reflexivity. destruct ((rr_code r =? 6)%Z || (rr_code r =? 5)%Z); [|reflexivity].
      destruct (handle_response reg builtin [] (controls_in absent x)) as [[q|e] attrs]; reflexivity.
    - assert (Hans' : exists body last r, server_reply = (body ++ [last])%list /\ Forall (readable decode absent reg builtin lower urlparse) body /\
                rm_op last = RSearchResultDone r /\ controls_fine absent reg builtin last) by (unfold search_of in Hans; exact Hans). clear Hans.
      destruct Hans' as (body & last & r & -> & Hb & Hd & Hc). pose proof (of_same_id _ _ _ _ Hs Hid) as Hids.
      assert (Hfr : Forall (fun o => framed dec enc o /\ message_id o = Z.to_N n) objs).
      { rewrite Forall_forall in *. intros o I. split; [now apply (server_framed enc _ objs dec o Hs Hf)|auto]. }
      unfold server_sends in Hs. apply Forall2_app_inv_l in Hs as (ob & orest & Hob & Hor & ->). inversion Hor as [|? od ? ? (A & B & _) Hr]; subst. inversion Hr; subst.
      assert (T : take_until_done decode absent dec fuel (recv_messages (Z.to_N n)) (clean f chunks) = Some ((ob ++ [od])%list, clean f [])).
      { apply (take_all dec enc (Z.to_N n) f body ob last od r); auto.
        - split; [reflexivity|left; split; reflexivity].
        - rewrite app_length in Hl. cbn [List.length] in Hl. lia. }
      destruct (entries_of body ob enc Hob Hb) as [Hb1 Hb2].
      destruct (reply_done decode absent reg builtin last (enc od) od r A B Hd Hc) as (uris & c & Er & Hcc & Hend).
      destruct (C45_all_results_in_order_partial _ (handle_controls reg builtin) lower urlparse contact plain_handle [] (map (as_reply decode absent) ob) (code_number (rr_code r)) uris c []
                  eq_refl eq_refl eq_refl eq_refl Hb1 Hcc) as (items & Hi & Ei).
      unfold Model_Session.receive. rewrite T, map_app. cbn [map]. rewrite Er, Ei. eexists. split; [reflexivity|]. cbn [returns].
      exists body, last, r, items. rewrite Hend. auto.
  Qed.
End S.

(** ** Servers can write their answers *)
Definition opt_dec {A} (d : forall x y : A, {x = y} + {x <> y}) (x y : option A) : {x = y} + {x <> y}.
Proof. destruct x as [x|], y as [y|]; try (right; discriminate); [|left; reflexivity]. destruct (d x y) as [->|H]; [left; reflexivity|right; congruence]. Defined.
Fixpoint asn_dec (x y : asn) {struct x} : {x = y} + {x <> y}.
Proof.
  destruct x as [z|b| |l|l|l|n v| ], y as [z'|b'| |l'|l'|l'|n' v'| ]; try (right; discriminate); try (left; reflexivity).
  - destruct (Z.eq_dec z z') as [->|H]; [left; reflexivity|right; congruence].
  - destruct (Bool.bool_dec b b') as [->|H]; [left; reflexivity|right; congruence].
  - destruct (list_eq_dec N.eq_dec l l') as [->|H]; [left; reflexivity|right; congruence].
  - destruct (list_eq_dec (opt_dec asn_dec) l l') as [->|H]; [left; reflexivity|right; congruence].
  - destruct (list_eq_dec asn_dec l l') as [->|H]; [left; reflexivity|right; congruence].
  - destruct (list_eq_dec N.eq_dec n n') as [->|H]; [|right; congruence]. destruct (asn_dec v v') as [->|H]; [left; reflexivity|right; congruence].
Defined.

Definition msg_obj (m : rmessage) : obj := mk_obj cLDAPMessage (v_message m).
Lemma msg_received m b : e_message m b -> received b (msg_obj m).
Proof. intros H. split; [reflexivity|]. apply message_ber in H. apply H. Qed.
Lemma sends_weak enc enc' ms objs : (forall o, In o objs -> enc' o = enc o) -> server_sends enc ms objs -> server_sends enc' ms objs.
Proof.
  intros H Hs. induction Hs as [|m o ms objs (A & B & C) _ IH]; [constructor|]. constructor.
  - rewrite (H o (or_introl eq_refl)). auto.
  - apply IH. intros x I. apply H. now right.
Qed.
Lemma can_send ms : Forall (fun m => (exists b, e_message m b) /\ rm_id m <> 0%Z) ms -> exists enc, server_sends enc ms (map msg_obj ms).
Proof.
  induction 1 as [|m ms [(b & Hb) Hi] _ (enc & IH)]; [exists (fun _ => []); constructor|].
  destruct (in_dec asn_dec (v_message m) (map v_message ms)) as [I|I].
  - exists enc. cbn [map]. constructor; [|exact IH]. apply in_map_iff in I as (m' & E & I). apply v_message_inj in E. subst m'.
    clear - IH I. induction ms as [|x ms IHms]; [destruct I|]. cbn [map] in IH. inversion IH; subst. destruct I as [->|I]; auto.
  - exists (fun o => if asn_dec (o_val o) (v_message m) then b else enc o). cbn [map]. constructor.
    + cbn [msg_obj o_val]. destruct (asn_dec (v_message m) (v_message m)) as [_|C]; [|contradiction]. split; [exact Hb|]. split; [now apply msg_received|exact Hi].
    + apply (sends_weak enc); [|exact IH]. intros o Io. apply in_map_iff in Io as (m' & <- & Im). cbn [msg_obj o_val].
      destruct (asn_dec (v_message m') (v_message m)) as [E|_]; [|reflexivity]. exfalso. apply I. rewrite <- E. now apply in_map.
Qed.
(** octet by octet *)
Lemma octet_chunks (l : list N) : List.concat (map (fun x => [x]) l) = l /\ Forall (fun x => x <> []) (map (fun x : N => [x]) l).
Proof.
  induction l as [|x l [IH1 IH2]]; [split; [reflexivity|constructor]|]. cbn [map List.concat List.app]. split; [now rewrite IH1|]. constructor; [discriminate|exact IH2].
Qed.
