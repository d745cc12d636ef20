(** * Building requests *)
From Verif Require Import PyBase Model_Ldif Model_Filter Model_Controls Model_Search Model_Request Model_Paged Spec_X690 Proofs_X690 Model_Wire Spec_Wire Spec_Wire2 Proofs_Wire Spec_Filter Proofs_Filter2.

Lemma surrogate_iff c : surrogate c = false <-> ~ (0xD800 <= c <= 0xDFFF)%N.
Proof.
  unfold surrogate. rewrite Bool.andb_false_iff, N.leb_gt, N.ltb_ge.
  change 0xD800%N with 55296%N. change 0xDFFF%N with 57343%N. lia.
Qed.
Lemma encode_utf8_ok v : encodable v -> encode_text Utf8 v = Ok (as_octets v).
Proof.
  destruct v as [s|b]; cbn [encodable encode_text as_octets]; [|reflexivity]. intro H.
  replace (forallb (fun c => negb (surrogate c)) s) with true; [reflexivity|]. symmetry. apply forallb_forall. intros c Hc.
  rewrite Forall_forall in H. rewrite (proj2 (surrogate_iff c) (H c Hc)). reflexivity.
Qed.
Lemma encode_utf8_raise v : ~ encodable v -> encode_text Utf8 v = Raise pyasn1_error.
Proof.
  destruct v as [s|b]; cbn [encodable encode_text]; [|intro H; exfalso; apply H; exact I]. intro H.
  destruct (forallb (fun c => negb (surrogate c)) s) eqn:F; [|reflexivity]. exfalso. apply H. rewrite Forall_forall. intros c Hc.
  apply surrogate_iff. rewrite forallb_forall in F. specialize (F c Hc). destruct (surrogate c); [discriminate | reflexivity].
Qed.
Lemma utf8_ascii s : Forall (fun c => (c < 128)%N) s -> utf8 s = s.
Proof.
  induction 1 as [|c s Hc _ IH]; cbn [utf8 flat_map]; [reflexivity|]. fold (utf8 s). rewrite IH. unfold utf8_char.
  replace (c <? 128)%N with true by (symmetry; apply N.ltb_lt; exact Hc). reflexivity.
Qed.
Lemma encode_ascii_ok v : ascii v -> encode_text Ascii v = Ok (as_octets v).
Proof.
  destruct v as [s|b]; cbn [ascii encode_text as_octets]; [|reflexivity]. intro H.
  rewrite utf8_ascii by exact H.
  replace (forallb (fun c => N.ltb c 128) s) with true; [reflexivity|]. symmetry. apply forallb_forall. intros c Hc.
  rewrite Forall_forall in H. apply N.ltb_lt. apply H, Hc.
Qed.
Lemma encode_ascii_raise v : ~ ascii v -> encode_text Ascii v = Raise pyasn1_error.
Proof.
  destruct v as [s|b]; cbn [ascii encode_text]; [|intro H; exfalso; apply H; exact I]. intro H.
  destruct (forallb (fun c => N.ltb c 128) s) eqn:F; [|reflexivity]. exfalso. apply H. rewrite Forall_forall. intros c Hc.
  rewrite forallb_forall in F. apply N.ltb_lt, F, Hc.
Qed.
Lemma new_oct_ok c v : shape_of c = SOct Utf8 -> encodable v -> new_oct c v = Ok (mk_obj c (VOct (as_octets v))).
Proof. intros S H. unfold new_oct. rewrite S, encode_utf8_ok by exact H. reflexivity. Qed.
Lemma new_oct_raise c v : shape_of c = SOct Utf8 -> ~ encodable v -> new_oct c v = Raise pyasn1_error.
Proof. intros S H. unfold new_oct. rewrite S, encode_utf8_raise by exact H. reflexivity. Qed.
Lemma new_oid_ok c v : shape_of c = SOct Ascii -> ascii v -> new_oct c v = Ok (mk_obj c (VOct (as_octets v))).
Proof. intros S H. unfold new_oct. rewrite S, encode_ascii_ok by exact H. reflexivity. Qed.
Lemma new_oid_raise c v : shape_of c = SOct Ascii -> ~ ascii v -> new_oct c v = Raise pyasn1_error.
Proof. intros S H. unfold new_oct. rewrite S, encode_ascii_raise by exact H. reflexivity. Qed.
Lemma new_int0_ok c z : shape_of c = SInt (Some (0, 2147483647)%Z) -> Spec_Wire.int0max z -> new_int c z = Ok (mk_obj c (VInt z)).
Proof. intros S [A B]. unfold new_int. rewrite S. unfold maxInt in B. replace ((0 <=? z) && (z <=? 2147483647))%Z with true by (symmetry; lia). reflexivity. Qed.
Lemma new_int0_raise c z : shape_of c = SInt (Some (0, 2147483647)%Z) -> ~ Spec_Wire.int0max z -> new_int c z = Raise constraint_error.
Proof.
  intros S H. unfold new_int. rewrite S. destruct ((0 <=? z) && (z <=? 2147483647))%Z eqn:E; [|reflexivity].
  exfalso. apply H. unfold Spec_Wire.int0max, maxInt. lia.
Qed.

(** filling a list *)
Lemma set_append o m e pre x : shape_of (o_class o) = SOf m e -> o_val o = VList pre -> same_type e (o_class x) = true ->
  set_by_position o (List.length pre) x = Ok (mk_obj (o_class o) (VList (pre ++ [o_val x]))).
Proof.
  intros S V T. unfold set_by_position. rewrite S, V, T. cbn [negb]. rewrite Nat.leb_refl.
  rewrite firstn_all. replace (skipn (Datatypes.S (List.length pre)) pre) with (@nil asn); [reflexivity|].
  symmetry. apply skipn_all2. lia.
Qed.
Lemma fill_ok {A} (make : A -> res obj) (c c' : cid) (f : A -> asn) m e l : shape_of c = SOf m e -> same_type e c' = true ->
  (forall x, In x l -> make x = Ok (mk_obj c' (f x))) ->
  forall pre, fill make (mk_obj c (VList pre)) (List.length pre) l = Ok (mk_obj c (VList (pre ++ map f l))).
Proof.
  intros S T. induction l as [|x l IH]; intros H pre; cbn [fill map]; [rewrite app_nil_r; reflexivity|].
  rewrite (H x) by (left; reflexivity). cbn [bind].
  rewrite (set_append (mk_obj c (VList pre)) m e pre (mk_obj c' (f x)) S eq_refl T). cbn [bind o_class o_val].
  replace (Datatypes.S (List.length pre)) with (List.length (pre ++ [f x])) by (rewrite app_length; cbn; lia).
  rewrite IH by (intros y Hy; apply H; right; exact Hy). rewrite <- app_assoc. reflexivity.
Qed.
Lemma fill_raise {A} (make : A -> res obj) (c c' : cid) (f : A -> asn) m e l x : shape_of c = SOf m e -> same_type e c' = true ->
  (forall x, In x l -> make x = Ok (mk_obj c' (f x)) \/ exists er, make x = Raise er) ->
  In x l -> (forall er, make x <> Ok er) ->
  forall pre, exists er, fill make (mk_obj c (VList pre)) (List.length pre) l = Raise er.
Proof.
  intros S T. induction l as [|y l IH]; intros H Hx Hr pre; [contradiction|]. cbn [fill].
  destruct (H y (or_introl eq_refl)) as [E|[er E]]; rewrite E; cbn [bind]; [|eexists; reflexivity].
  rewrite (set_append (mk_obj c (VList pre)) m e pre (mk_obj c' (f y)) S eq_refl T). cbn [bind o_class o_val].
  replace (Datatypes.S (List.length pre)) with (List.length (pre ++ [f y])) by (rewrite app_length; cbn; lia).
  destruct Hx as [->|Hx]; [exfalso; apply (Hr _ E)|].
  apply IH; [intros z Hz; apply H; right; exact Hz | exact Hx | exact Hr].
Qed.

(** ** Values and attributes *)
Lemma vals_ok l : Forall encodable l -> vals_obj l = Ok (mk_obj cVals (v_octs (map as_octets l))).
Proof.
  intro H. unfold vals_obj, v_octs. rewrite map_map.
  refine (fill_ok (new_oct cAttributeValue) cVals cAttributeValue (fun v => VOct (as_octets v)) false cAttributeValue l eq_refl eq_refl _ []).
  intros x Hx. apply new_oct_ok; [reflexivity|]. rewrite Forall_forall in H. apply H, Hx.
Qed.
Lemma add_attr_ok kv : attr_encodable kv -> add_attr kv = Ok (mk_obj cAttribute (v_attr (attr_octets kv))).
Proof.
  intros [H K]. unfold add_attr, set_oct. rewrite (new_oct_ok cAttributeDescription) by (try reflexivity; exact H).
  rewrite vals_ok by exact K. reflexivity.
Qed.
Lemma change_ok op a l : encodable a -> Forall encodable l ->
  change_obj (op, a, l) = Ok (mk_obj cChange (v_change (operation_of op, attr_octets (a, l)))).
Proof.
  intros H K. unfold change_obj, set_oct, set_int. rewrite (new_oct_ok cAttributeDescription) by (try reflexivity; exact H).
  rewrite vals_ok by exact K. reflexivity.
Qed.

(** ** Filters *)
Lemma new_text c s : shape_of c = SOct Utf8 -> encodable (Text s) -> new_oct c (Text s) = Ok (mk_obj c (VOct (utf8 s))).
Proof. intros S H. apply new_oct_ok; assumption. Qed.
Lemma ava_ok c a v : In c [cEqualityMatch; cApproxMatch; cGreaterOrEqual; cLessOrEqual] ->
  encodable (Text a) -> encodable (Text v) -> ava_obj c a v = Ok (mk_obj c (v_ava (utf8 a) (utf8 v))).
Proof.
  intros C HA HV. unfold ava_obj, set_oct. rewrite !new_text by (try reflexivity; assumption). cbn [bind].
  destruct C as [<-|[<-|[<-|[<-|[]]]]]; reflexivity.
Qed.
Lemma sub_ok s : encodable (Text (snd s)) -> sub_obj s = Ok (mk_obj cSubstring (v_sub (sub_of s))).
Proof.
  intro H. destruct s as [k v]. cbn [snd] in H. unfold sub_obj, set_oct, sub_of. cbn [fst snd].
  destruct k; rewrite new_text by (try reflexivity; exact H); reflexivity.
Qed.
Lemma go_fill (l : list filter) o i :
  (fix go (o : obj) (i : nat) (l : list filter) : res obj :=
     match l with
     | [] => Ok o
     | x :: l' => let* y := filter_obj x in let* o := set_by_position o i y in go o (S i) l'
     end) o i l = fill filter_obj o i l.
Proof. revert o i. induction l as [|x l IH]; intros o i; cbn [fill]; [reflexivity|]. destruct (filter_obj x); cbn [bind]; [|reflexivity]. destruct (set_by_position o i a); cbn [bind]; [apply IH | reflexivity]. Qed.
Lemma flat_map_forall {A B} (P : B -> Prop) (f : A -> list B) l : Forall P (flat_map f l) -> forall x, In x l -> Forall P (f x).
Proof. intros H x Hx. rewrite Forall_forall in *. intros y Hy. apply H. apply in_flat_map. exists x. auto. Qed.

Lemma filter_ok f : texts_ok f -> filter_obj f = Ok (mk_obj cFilter (v_filter (filter_of f))).
Proof.
  induction f as [l Hl|l Hl|g IH|a v|a v|a v|a v|a|a l|a d r v] using filter_ind2; unfold texts_ok; cbn [filter_texts]; intro H.
  - cbn [filter_obj]. rewrite go_fill.
    pose proof (fill_ok filter_obj cAnd cFilter (fun g => v_filter (filter_of g)) true cFilter l eq_refl eq_refl) as E.
    specialize (E (fun x Hx => proj1 (Forall_forall _ l) Hl x Hx (flat_map_forall _ _ _ H x Hx)) []).
    change (new cAnd) with (mk_obj cAnd (VList [])). cbn [List.length List.app] in E. rewrite E.
    cbn [filter_of v_filter]. rewrite map_map. reflexivity.
  - cbn [filter_obj]. rewrite go_fill.
    pose proof (fill_ok filter_obj cOr cFilter (fun g => v_filter (filter_of g)) true cFilter l eq_refl eq_refl) as E.
    specialize (E (fun x Hx => proj1 (Forall_forall _ l) Hl x Hx (flat_map_forall _ _ _ H x Hx)) []).
    change (new cOr) with (mk_obj cOr (VList [])). cbn [List.length List.app] in E. rewrite E.
    cbn [filter_of v_filter]. rewrite map_map. reflexivity.
  - cbn [filter_obj]. rewrite IH by exact H. reflexivity.
  - rewrite !Forall_cons_iff in H. destruct H as (HA & HV & _). cbn [filter_obj]. rewrite ava_ok by (cbn [In]; tauto). reflexivity.
  - rewrite !Forall_cons_iff in H. destruct H as (HA & HV & _). cbn [filter_obj]. rewrite ava_ok by (cbn [In]; tauto). reflexivity.
  - rewrite !Forall_cons_iff in H. destruct H as (HA & HV & _). cbn [filter_obj]. rewrite ava_ok by (cbn [In]; tauto). reflexivity.
  - rewrite !Forall_cons_iff in H. destruct H as (HA & HV & _). cbn [filter_obj]. rewrite ava_ok by (cbn [In]; tauto). reflexivity.
  - rewrite !Forall_cons_iff in H. destruct H as (HA & _). cbn [filter_obj]. unfold set_oct. rewrite new_text by (try reflexivity; assumption). reflexivity.
  - rewrite !Forall_cons_iff in H. destruct H as (HA & HL). cbn [filter_obj filter_of v_filter]. unfold subf_obj, set_oct.
    rewrite new_text by (try reflexivity; assumption).
    pose proof (fill_ok sub_obj cSubstrings cSubstring (fun s => v_sub (sub_of s)) true cSubstring l eq_refl eq_refl) as E.
    assert (E' : fill sub_obj (new cSubstrings) 0 l = Ok (mk_obj cSubstrings (VList (map (fun s => v_sub (sub_of s)) l)))).
    { refine (E _ []). intros x Hx. apply sub_ok. rewrite Forall_forall in HL. apply HL. apply in_map. exact Hx. }
    rewrite E', map_map. reflexivity.
  - rewrite !Forall_cons_iff in H. destruct H as (HV & H). apply Forall_app in H. destruct H as [HA HR].
    cbn [filter_obj filter_of v_filter]. unfold ext_obj, set_oct, set_bool. rewrite new_text by (try reflexivity; assumption).
    destruct a as [a|]; [rewrite Forall_cons_iff in HA; destruct HA as [HA _]; rewrite (new_text cType) by (try reflexivity; assumption)|];
      (destruct r as [r|]; [rewrite Forall_cons_iff in HR; destruct HR as [HR _]; rewrite (new_text cMatchingRule) by (try reflexivity; assumption)|]); reflexivity.
Qed.

(** ** Controls and the envelope *)

Lemma utf8_char_nonempty c : exists x t, utf8_char c = x :: t.
Proof. unfold utf8_char. destruct (c <? 128)%N; [eauto|]. destruct (c <? 2048)%N; [eauto|]. destruct (c <? 65536)%N; eauto. Qed.
Lemma truthy_octets v : match as_octets v with [] => truthy v = false | _ => truthy v = true end.
Proof.
  destruct v as [[|c s]|[|c s]]; cbn [as_octets utf8 flat_map truthy]; try reflexivity.
  destruct (utf8_char_nonempty c) as (x & t & ->). reflexivity.
Qed.
Lemma control_ok a : ctrl_ok a -> control_obj a = Ok (mk_obj cControl (v_control (control_of a))).
Proof.
  intros [HO HV]. unfold control_obj, set_oct, set_bool. rewrite (new_oid_ok cLDAPOID) by (try reflexivity; exact HO).
  rewrite (new_oct_ok cControlValue) by (try reflexivity; exact HV). unfold control_of. pose proof (truthy_octets (ca_value a)) as T.
  destruct (as_octets (ca_value a)); rewrite T; reflexivity.
Qed.
Lemma controls_ok l : Forall ctrl_ok l ->
  controls_obj l = Ok (option_map (fun cs => mk_obj cControls (VList (map v_control cs))) (controls_of l)).
Proof.
  intro H. unfold controls_obj, controls_of. destruct l as [|a l]; [reflexivity|].
  pose proof (fill_ok control_obj cControls cControl (fun a => v_control (control_of a)) false cControl (a :: l) eq_refl eq_refl) as E.
  specialize (E (fun x Hx => control_ok x (proj1 (Forall_forall _ _) H x Hx)) []).
  change (new cControls) with (mk_obj cControls (VList [])). cbn [List.length List.app] in E. rewrite E. cbn [bind option_map].
  rewrite map_map. reflexivity.
Qed.
Definition op_alts : list (str * cid) := match shape_of cProtocolOp with SChoice a => a | _ => [] end.
Lemma message_ok mid op c v cs o : Spec_Wire.int0max mid -> dget op_alts (lit op) = Some c -> v_op o = VAlt (lit op) v -> Forall ctrl_ok cs ->
  message mid op (Ok (mk_obj c v)) cs = Ok (mk_obj cLDAPMessage (v_message (mk_rm mid o (controls_of cs)))).
Proof.
  intros Hm Ha Ho Hc. unfold message. cbn [bind]. rewrite controls_ok by exact Hc. cbn [bind]. unfold pack, set_int.
  rewrite new_int0_ok by (try reflexivity; exact Hm). unfold v_message. cbn [rm_id rm_op rm_controls bind]. rewrite Ho.
  change (setn (new cLDAPMessage) "messageID" (mk_obj cMessageID (VInt mid))) with (Ok (mk_obj cLDAPMessage (VSeq [Some (VInt mid); None; None]))).
  cbn [bind].
  assert (T : same_type c c = true).
  { clear. unfold same_type. rewrite N.eqb_refl, Bool.andb_true_r. induction (tags c) as [|t ts IH]; [reflexivity|].
    cbn [tagset_eqb]. rewrite IH. unfold tag_eqb. rewrite N.eqb_refl, Bool.eqb_reflx. destruct (t_class t); reflexivity. }
  assert (P : set_by_name (new cProtocolOp) (lit op) (mk_obj c v) = Ok (mk_obj cProtocolOp (VAlt (lit op) v))).
  { change (set_by_name (new cProtocolOp) (lit op) (mk_obj c v)) with
      (match dget op_alts (lit op) with
       | Some c' => if same_type c' c then Ok (mk_obj cProtocolOp (VAlt (lit op) v)) else Raise pyasn1_error
       | None => Raise pyasn1_error end). rewrite Ha, T. reflexivity. }
  rewrite P. cbn [bind].
  change (setn (mk_obj cLDAPMessage (VSeq [Some (VInt mid); None; None])) "protocolOp" (mk_obj cProtocolOp (VAlt (lit op) v)))
    with (Ok (mk_obj cLDAPMessage (VSeq [Some (VInt mid); Some (VAlt (lit op) v); None]))). cbn [bind].
  destruct cs as [|a l]; cbn [controls_of option_map]; [reflexivity|].
  cbn [nonempty o_val map]. reflexivity.
Qed.

(** ** Only encodable arguments are sent *)
Lemma bind_ok {A B} (r : res A) (k : A -> res B) y : bind r k = Ok y -> exists x, r = Ok x /\ k x = Ok y.
Proof. destruct r; cbn [bind]; intro H; [eauto | discriminate]. Qed.
Lemma encodable_dec v : encodable v \/ ~ encodable v.
Proof.
  destruct v as [s|b]; cbn [encodable]; [|left; exact I].
  destruct (Forall_dec (fun c => ~ (0xD800 <= c <= 0xDFFF)%N)) with (l := s) as [H|H]; [|left; exact H|right; exact H].
  intro c. destruct (surrogate c) eqn:E.
  - right. intro K. apply surrogate_iff in K. congruence.
  - left. apply surrogate_iff. exact E.
Qed.
Lemma ascii_dec v : ascii v \/ ~ ascii v.
Proof.
  destruct v as [s|b]; cbn [ascii]; [|left; exact I].
  destruct (Forall_dec (fun c => (c < 128)%N)) with (l := s) as [H|H]; [|left; exact H|right; exact H].
  intro c. destruct (c <? 128)%N eqn:E; [left; apply N.ltb_lt, E | right; apply N.ltb_ge in E; lia].
Qed.
Lemma new_oct_only c v o : shape_of c = SOct Utf8 -> new_oct c v = Ok o -> encodable v.
Proof. intros S H. destruct (encodable_dec v) as [K|K]; [exact K|]. rewrite new_oct_raise in H by assumption. discriminate. Qed.
Lemma new_oid_only c v o : shape_of c = SOct Ascii -> new_oct c v = Ok o -> ascii v.
Proof. intros S H. destruct (ascii_dec v) as [K|K]; [exact K|]. rewrite new_oid_raise in H by assumption. discriminate. Qed.
Lemma new_int0_only c z o : shape_of c = SInt (Some (0, 2147483647)%Z) -> new_int c z = Ok o -> Spec_Wire.int0max z.
Proof.
  intros S H. unfold new_int in H. rewrite S in H. destruct ((0 <=? z) && (z <=? 2147483647))%Z eqn:E; [|discriminate].
  unfold Spec_Wire.int0max, maxInt. lia.
Qed.
Lemma fill_only {A} (make : A -> res obj) l : forall o i r, fill make o i l = Ok r -> forall x, In x l -> exists y, make x = Ok y.
Proof.
  induction l as [|a l IH]; intros o i r H x Hx; [contradiction|]. cbn [fill] in H.
  apply bind_ok in H. destruct H as (y & E & H). apply bind_ok in H. destruct H as (o' & E' & H).
  destruct Hx as [<-|Hx]; [exists y; exact E | eapply IH; eauto].
Qed.
Ltac unb := repeat match goal with
  | H : bind _ _ = Ok _ |- _ => apply bind_ok in H; let x := fresh "x" in let E := fresh "E" in destruct H as (x & E & H)
  | H : set_oct _ _ _ _ = Ok _ |- _ => unfold set_oct in H
  | H : set_int _ _ _ _ = Ok _ |- _ => unfold set_int in H
  | H : set_bool _ _ _ _ = Ok _ |- _ => unfold set_bool in H
  end.
Lemma vals_only l o : vals_obj l = Ok o -> Forall encodable l.
Proof.
  intro H. rewrite Forall_forall. intros x Hx. destruct (fill_only _ _ _ _ _ H x Hx) as (y & E). eapply new_oct_only; [|exact E]. reflexivity.
Qed.
Lemma control_only a o : control_obj a = Ok o -> ctrl_ok a.
Proof.
  unfold control_obj. intro H. unb. split; [eapply new_oid_only; [|eassumption]; reflexivity|].
  destruct (truthy (ca_value a)) eqn:T; [unb; eapply new_oct_only; [|eassumption]; reflexivity|].
  destruct (ca_value a) as [[|]|[|]]; cbn in T; try discriminate; cbn; auto.
Qed.
Lemma message_only mid op r cs lm : message mid op r cs = Ok lm -> (exists x, r = Ok x) /\ Spec_Wire.int0max mid /\ Forall ctrl_ok cs.
Proof.
  unfold message. intro H. unb. split; [eauto|]. split.
  - unfold pack in H. unb. eapply new_int0_only; [|eassumption]. reflexivity.
  - unfold controls_obj in E0. destruct cs as [|a l]; [constructor|]. unb. rewrite Forall_forall. intros y Hy.
    match goal with K : fill _ _ _ _ = Ok _ |- _ => destruct (fill_only _ _ _ _ _ K y Hy) as (z & Ez) end. eapply control_only, Ez.
Qed.
Lemma filter_only f o : filter_obj f = Ok o -> texts_ok f.
Proof.
  revert o. induction f as [l Hl|l Hl|g IH|a v|a v|a v|a v|a|a l|a d r v] using filter_ind2; unfold texts_ok; cbn [filter_texts filter_obj]; intros o H.
  - rewrite go_fill in H. unb. rewrite Forall_forall. intros s Hs. apply in_flat_map in Hs. destruct Hs as (g & Hg & Hs).
    destruct (fill_only _ _ _ _ _ E g Hg) as (y & Ey). rewrite Forall_forall in Hl. specialize (Hl g Hg y Ey). unfold texts_ok in Hl. rewrite Forall_forall in Hl. apply Hl, Hs.
  - rewrite go_fill in H. unb. rewrite Forall_forall. intros s Hs. apply in_flat_map in Hs. destruct Hs as (g & Hg & Hs).
    destruct (fill_only _ _ _ _ _ E g Hg) as (y & Ey). rewrite Forall_forall in Hl. specialize (Hl g Hg y Ey). unfold texts_ok in Hl. rewrite Forall_forall in Hl. apply Hl, Hs.
  - unb. eapply IH; eassumption.
  - unfold ava_obj in H. unb. repeat constructor; eapply new_oct_only; try eassumption; reflexivity.
  - unfold ava_obj in H. unb. repeat constructor; eapply new_oct_only; try eassumption; reflexivity.
  - unfold ava_obj in H. unb. repeat constructor; eapply new_oct_only; try eassumption; reflexivity.
  - unfold ava_obj in H. unb. repeat constructor; eapply new_oct_only; try eassumption; reflexivity.
  - unb. constructor; [|constructor]. eapply new_oct_only; try eassumption; reflexivity.
  - unfold subf_obj in H. unb. constructor; [eapply new_oct_only; try eassumption; reflexivity|].
    rewrite Forall_forall. intros s Hs. apply in_map_iff in Hs. destruct Hs as ([k t] & <- & Hs).
    match goal with K : fill _ _ _ _ = Ok _ |- _ => destruct (fill_only _ _ _ _ _ K _ Hs) as (y & Ey) end.
    unfold sub_obj in Ey. cbn [fst snd] in *. destruct k; unb; eapply new_oct_only; try eassumption; reflexivity.
  - unfold ext_obj in H. unb. constructor; [eapply new_oct_only; try eassumption; reflexivity|]. apply Forall_app. split.
    + destruct a as [a|]; [|constructor]. unb. constructor; [|constructor]. eapply new_oct_only; try eassumption; reflexivity.
    + destruct r as [r|]; [|constructor]. unb. constructor; [|constructor]. eapply new_oct_only; try eassumption; reflexivity.
Qed.
