(** * Proofs about the shipped schema *)
From Verif Require Import PyBase Model_Modify Model_Schema Model_Registration Model_Regex Model_Parse Model_Prep Model_Uri Model_Syntax
  Model_DescSyntax Model_Guide Model_StdText Model_Std Spec_Schema Spec_StdTable Spec_Std Spec_Regex Proofs_Regex Proofs_Schema.
From Coq Require Import Relations String.

Definition dig0 (c : N) : bool := ((48 <=? c) && (c <=? 57))%N.
Definition asciib (s : str) : bool := forallb (fun c => (c <? 128)%N) s.
Lemma asciib_ok s : asciib s = true -> is_ascii s.
Proof. intros H. apply Forall_forall. intros c Hc. unfold asciib in H. rewrite forallb_forall in H. apply H, N.ltb_lt in Hc. exact Hc. Qed.

(** ** Importing *)
Definition alpha_head (s : str) : bool :=
  match s with c :: _ => ((c <? 128) && negb (dig0 c))%N | [] => false end.
Lemma isdigit_alpha lower isdigit c : python_text lower isdigit -> ((c <? 128) && negb (dig0 c))%N = true -> isdigit c = false.
Proof.
  intros [_ H] E. apply andb_prop in E as [E1 E2]. apply N.ltb_lt in E1. specialize (H c E1).
  unfold dig0 in E2. destruct (isdigit c); [|reflexivity]. exfalso. destruct H as [H _]. specialize (H eq_refl).
  apply negb_true_iff, andb_false_iff in E2 as [E2|E2]; [apply N.leb_gt in E2|apply N.leb_gt in E2]; lia.
Qed.
Lemma dig0_alpha c : ((c <? 128) && negb (dig0 c))%N = true -> dig0 c = false.
Proof. intros E. apply andb_prop in E as [_ E]. now apply negb_true_iff. Qed.

Lemma attr_names_plain lower isdigit names_of l : python_text lower isdigit -> forallb alpha_head l = true ->
  attr_names isdigit names_of l = Ok l.
Proof.
  intros HP. induction l as [|s l IH]; intros H; [reflexivity|]. cbn [forallb] in H. apply andb_prop in H as [Hs H].
  cbn [attr_names]. destruct s as [|c r]; [discriminate|]. cbn [alpha_head] in Hs.
  rewrite (isdigit_alpha lower isdigit c HP Hs), (IH H). reflexivity.
Qed.
Lemma python_ascii : python_text ascii_lower dig0.
Proof.
  split; [reflexivity|]. intros c _. unfold dig0. rewrite andb_true_iff, !N.leb_le. reflexivity.
Qed.

Definition plain_raw (r : raw) : bool :=
  match r with
  | RClass _ spec =>
      match match_anchored rObjectClassDescription (py_strip (collapse_whitespace (lit spec))) with
      | None => true
      | Some c => forallb alpha_head (parse_oids (group c (lit "must"))) && forallb alpha_head (parse_oids (group c (lit "may")))
      end
  | _ => true
  end.
Definition no_names (o : str) : option (list str) := None.
Lemma construct_same lower isdigit names_of r : python_text lower isdigit -> plain_raw r = true ->
  construct isdigit names_of r = construct dig0 no_names r.
Proof.
  intros HP. destruct r as [ext spec| | |]; cbn [plain_raw construct]; auto. unfold object_class.
  destruct (match_anchored _ _) as [c|]; [|reflexivity]. intros H. apply andb_prop in H as [H1 H2].
  destruct (group c (lit "oid")) as [o|]; [|reflexivity].
  unfold parse_attr_list. rewrite !(attr_names_plain lower isdigit names_of _ HP) by assumption.
  now rewrite !(attr_names_plain ascii_lower dig0 no_names _ python_ascii) by assumption.
Qed.
Lemma class_body_same lower isdigit names_of l : python_text lower isdigit -> forallb (fun x => plain_raw (snd x)) l = true ->
  class_body isdigit names_of l = class_body dig0 no_names l.
Proof.
  intros HP. induction l as [|[a r] l IH]; intros H; [reflexivity|]. cbn [forallb snd] in H. apply andb_prop in H as [Hr H].
  cbn [class_body]. rewrite (construct_same lower isdigit names_of r HP Hr), (IH H). reflexivity.
Qed.

Definition ok_or {A} (r : res (list A)) : list A := match r with Ok l => l | Raise _ => [] end.
Definition is_ok {A} (r : res A) : bool := match r with Ok _ => true | Raise _ => false end.
Definition base0 : list (str * built) := Eval vm_compute in ok_or (class_body dig0 no_names base_schema_text).
Definition ng0 : list (str * built) := Eval vm_compute in ok_or (class_body dig0 no_names netgroups_text).
Definition defs0 : list (str * built) := (base0 ++ ng0)%list.

Lemma base_body lower isdigit names_of : python_text lower isdigit -> class_body isdigit names_of base_schema_text = Ok base0.
Proof.
  intros HP. rewrite (class_body_same lower isdigit names_of _ HP) by (vm_compute; reflexivity).
  vm_compute. reflexivity.
Qed.
Lemma ng_body lower isdigit names_of : python_text lower isdigit -> class_body isdigit names_of netgroups_text = Ok ng0.
Proof.
  intros HP. rewrite (class_body_same lower isdigit names_of _ HP) by (vm_compute; reflexivity).
  vm_compute. reflexivity.
Qed.

(** ** Registration does not depend on str.lower beyond ASCII *)
Definition plain_elem (e : elem) : bool :=
  match e_kind e with
  | KSyntax _ => true
  | KMatching _ name => asciib name
  | KAttr _ names | KClass _ names => forallb asciib names
  | KControl _ _ _ _ _ => false
  end.
Section Reg.
  Context (lower : str -> str) (isdigit : N -> bool) (reserved : list str) (HP : python_text lower isdigit).
  Lemma lower_ascii s : asciib s = true -> lower s = ascii_lower s.
  Proof. intros H. apply (proj1 HP). now apply asciib_ok. Qed.

  Lemma register_names_same t names e : forallb asciib names = true -> forall g,
    Model_Registration.register_names lower t names e g = Model_Registration.register_names ascii_lower t names e g.
  Proof.
    induction names as [|n names IH]; intros H g; [reflexivity|]. cbn [forallb] in H. apply andb_prop in H as [Hn H].
    cbn [Model_Registration.register_names]. rewrite (lower_ascii n Hn). destruct (rmem g t (ascii_lower n)); [reflexivity|]. now apply IH.
  Qed.
  Lemma register_same e g : plain_elem e = true ->
    Model_Registration.register lower reserved e g = Model_Registration.register ascii_lower [] e g.
  Proof.
    unfold plain_elem, Model_Registration.register. destruct (e_kind e) as [o|o n|o ns|o ns|]; intros H; try reflexivity; try discriminate.
    - now rewrite (lower_ascii n H).
    - destruct (rmem g TAttrOid o); [reflexivity|]. now apply register_names_same.
    - destruct (rmem g TClassOid o); [reflexivity|]. now apply register_names_same.
  Qed.
  Lemma register_elems_same es : forallb plain_elem es = true -> forall w,
    register_elems lower reserved es w = register_elems ascii_lower [] es w.
  Proof.
    induction es as [|e es IH]; intros H w; [reflexivity|]. cbn [forallb] in H. apply andb_prop in H as [He H].
    cbn [register_elems]. rewrite (register_same e _ He). destruct (Model_Registration.register ascii_lower [] e (w_reg w)) as [[[]|x] g']; [|reflexivity].
    now apply IH.
  Qed.
  Definition plain_pre (pre : list (str * list elem)) : Prop := Forall (fun x => forallb plain_elem (snd x) = true) pre.
  Lemma require_loop_same m items : plain_pre items -> forall w,
    require_loop lower reserved m items w = require_loop ascii_lower [] m items w.
  Proof.
    induction items as [|[k es] items IH]; intros H w; [reflexivity|]. inversion H; subst. cbn [require_loop].
    destruct (smem k (w_done w)); [now apply IH|]. destruct (str_eqb k m || starts_with (m ++ lit ".") k)%bool; [|now apply IH].
    rewrite register_elems_same by assumption. destruct (register_elems ascii_lower [] es w) as [[[]|x] w']; [|reflexivity]. now apply IH.
  Qed.
  Lemma require_same m w : plain_pre (w_pre w) -> require lower reserved m w = require ascii_lower [] m w.
  Proof. intros H. unfold require. destruct (smem m (w_done w)); [reflexivity|]. now apply require_loop_same. Qed.
End Reg.

Lemma forallb_dget (P : list elem -> bool) pre k l : Forall (fun x : str * list elem => P (snd x) = true) pre -> dget pre k = Some l -> P l = true.
Proof. intros H E. apply dget_In in E. rewrite Forall_forall in H. exact (H _ E). Qed.
Lemma Forall_dset (P : list elem -> bool) pre k l : Forall (fun x : str * list elem => P (snd x) = true) pre -> P l = true ->
  Forall (fun x => P (snd x) = true) (dset pre k l).
Proof.
  intros H Hl. induction H as [|[k' v] pre Hx H IH]; cbn [dset]; [now repeat constructor|].
  destruct (str_eqb k' k); constructor; auto.
Qed.

Lemma Ok_inj {A} (a b : A) : Ok a = Ok b -> a = b.
Proof. congruence. Qed.
#[local] Opaque base0 ng0.
Lemma Some_inj {A} (a b : A) : Some a = Some b -> a = b.
Proof. congruence. Qed.
Definition run0 : list (res unit) * world := Eval vm_compute in Model_Registration.run ascii_lower [] (load_both base0 ng0) empty_world.
Lemma run0_eq : Model_Registration.run ascii_lower [] (load_both base0 ng0) empty_world = run0.
Proof. vm_compute. reflexivity. Qed.
Definition world0 : world := snd run0.
Definition reg0 : Model_Registration.registry := Eval vm_compute in w_reg world0.

Lemma plain_pre_check w : forallb (fun x : str * list elem => forallb plain_elem (snd x)) (w_pre w) = true -> plain_pre (w_pre w).
Proof. intros H. unfold plain_pre. now apply Forall_forall, forallb_forall. Qed.

Definition plain_world (w : world) : bool := forallb (fun x : str * list elem => forallb plain_elem (snd x)) (w_pre w).
Lemma run_load lower isdigit reserved bm nm bb nb : python_text lower isdigit ->
  plain_world (define bm bb empty_world) = true ->
  plain_world (define nm nb (snd (require ascii_lower [] bm (define bm bb empty_world)))) = true ->
  Model_Registration.run lower reserved [Define bm bb; Require bm; Define nm nb; Require nm] empty_world =
  Model_Registration.run ascii_lower [] [Define bm bb; Require bm; Define nm nb; Require nm] empty_world.
Proof.
  intros HP H1 H2. apply plain_pre_check in H1, H2. cbn [Model_Registration.run step].
  rewrite (require_same lower isdigit reserved HP bm _ H1).
  destruct (require ascii_lower [] bm (define bm bb empty_world)) as [r w]. cbn [snd] in H2.
  now rewrite (require_same lower isdigit reserved HP nm _ H2).
Qed.
Lemma plain_loads : plain_world (define base_module (elements [] base0) empty_world) = true /\
  plain_world (define netgroups_module (elements base0 ng0) (snd (require ascii_lower [] base_module
    (define base_module (elements [] base0) empty_world)))) = true.
Proof. split; vm_compute; reflexivity. Qed.
Lemma run_same lower isdigit reserved : python_text lower isdigit ->
  Model_Registration.run lower reserved (load_both base0 ng0) empty_world = run0.
Proof.
  intros HP. rewrite <- run0_eq.
  exact (run_load lower isdigit reserved base_module netgroups_module (elements [] base0) (elements base0 ng0) HP
           (proj1 plain_loads) (proj2 plain_loads)).
Qed.
Lemma run0_ok : fst run0 = [Ok tt; Ok tt; Ok tt; Ok tt].
Proof. vm_compute. reflexivity. Qed.

Lemma reg0_eq : w_reg (snd run0) = reg0.
Proof. vm_compute. reflexivity. Qed.
#[local] Opaque run0.
Lemma loaded_is lower reserved isdigit n1 n2 defs g : python_text lower isdigit -> loaded lower reserved isdigit n1 n2 defs g ->
  defs = defs0 /\ g = reg0.
Proof.
  intros HP (base & ng & Eb & En & -> & ->).
  rewrite (base_body lower isdigit n1 HP) in Eb. rewrite (ng_body lower isdigit n2 HP) in En. apply Ok_inj in Eb. apply Ok_inj in En. subst base ng.
  unfold defs0. split; [reflexivity|]. rewrite (run_same lower isdigit reserved HP). exact reg0_eq.
Qed.

#[local] Opaque defs0 reg0.
(** ** The dictionaries against the rows *)
Definition sound {R} (l : list (str * nat)) (rows : list R) (key : R -> list str) : bool :=
  forallb (fun x => match nth_error rows (snd x) with Some r => smem (fst x) (key r) | None => false end) l.
Definition complete {R} (l : list (str * nat)) (rows : list R) (key : R -> list str) : bool :=
  forallb (fun ir => forallb (fun k => match dget l k with Some i => Nat.eqb i (fst ir) | None => false end) (key (snd ir)))
    (combine (seq 0 (List.length rows)) rows).
Lemma nth_error_combine {R} (rows : list R) : forall n i r, nth_error rows i = Some r -> In (n + i, r) (combine (seq n (List.length rows)) rows).
Proof.
  induction rows as [|x rows IH]; intros n [|i] r E; cbn [nth_error] in E; try discriminate.
  - injection E as ->. cbn [List.length seq combine]. left. f_equal. lia.
  - cbn [List.length seq combine]. right. replace (n + S i) with (S n + i) by lia. now apply IH.
Qed.
Lemma dget_rows {R} l (rows : list R) key k i : sound l rows key = true -> complete l rows key = true ->
  (dget l k = Some i <-> exists r, nth_error rows i = Some r /\ In k (key r)).
Proof.
  intros Hs Hc. unfold sound in Hs. unfold complete in Hc. rewrite forallb_forall in Hs, Hc. split.
  - intros E. apply dget_In in E. specialize (Hs _ E). cbn [fst snd] in Hs.
    destruct (nth_error rows i) as [r|]; [|discriminate]. exists r. split; [reflexivity|]. now apply smem_In.
  - intros (r & Er & Hk). pose proof (Hc _ (nth_error_combine rows 0 i r Er)) as H. cbn [fst snd Nat.add] in H.
    rewrite forallb_forall in H. specialize (H k Hk). destruct (dget l k) as [j|]; [|discriminate].
    apply Nat.eqb_eq in H. now subst.
Qed.

Definition class_oids (r : class_row) : list str := [lit (c_oid r)].
Definition class_keys (r : class_row) : list str := map (fun m => ascii_lower (lit m)) (c_names r).
Definition type_oids (r : type_row) : list str := [lit (t_oid r)].
Definition type_keys (r : type_row) : list str := map (fun m => ascii_lower (lit m)) (t_names r).

Definition cview : Model_Schema.registry := Eval vm_compute in class_view reg0.
Definition tview : Model_Schema.registry := Eval vm_compute in type_view reg0.
Definition types0 : list atype := Eval vm_compute in std_types defs0.
Definition classes0 : list oclass := Eval vm_compute in std_classes defs0.

Lemma cview_eq : class_view reg0 = cview.
Proof. vm_compute. reflexivity. Qed.
Lemma tview_eq : type_view reg0 = tview.
Proof. vm_compute. reflexivity. Qed.
Lemma types_eq : std_types defs0 = types0.
Proof. vm_compute. reflexivity. Qed.
Lemma classes_eq : std_classes defs0 = classes0.
Proof. vm_compute. reflexivity. Qed.
#[local] Opaque cview tview types0 classes0 class_rows type_rows.
Lemma class_tables : sound (g_oids cview) class_rows class_oids = true /\ complete (g_oids cview) class_rows class_oids = true /\
  sound (g_names cview) class_rows class_keys = true /\ complete (g_names cview) class_rows class_keys = true.
Proof. (split; [|split; [|split]]); vm_compute; reflexivity. Qed.
Lemma type_tables : sound (g_oids tview) type_rows type_oids = true /\ complete (g_oids tview) type_rows type_oids = true /\
  sound (g_names tview) type_rows type_keys = true /\ complete (g_names tview) type_rows type_keys = true.
Proof. (split; [|split; [|split]]); vm_compute; reflexivity. Qed.
Lemma lengths : List.length classes0 = List.length class_rows /\ List.length types0 = List.length type_rows.
Proof. split; vm_compute; reflexivity. Qed.

(** ** Names and rows *)
Definition row_text : bool :=
  forallb (fun r => forallb (fun m => asciib (lit m)) (c_names r ++ c_must r ++ c_may r)) class_rows &&
  forallb (fun r => forallb (fun m => asciib (lit m)) (t_names r)) type_rows.
Lemma row_text_ok : row_text = true.
Proof. vm_compute. reflexivity. Qed.
Lemma class_name_ascii r m : In r class_rows -> In m (c_names r ++ c_must r ++ c_may r)%list -> is_ascii (lit m).
Proof.
  intros Hr Hm. pose proof row_text_ok as H. unfold row_text in H. apply andb_prop in H as [H _].
  rewrite forallb_forall in H. specialize (H r Hr). rewrite forallb_forall in H. now apply asciib_ok, H.
Qed.
Lemma type_name_ascii r m : In r type_rows -> In m (t_names r) -> is_ascii (lit m).
Proof.
  intros Hr Hm. pose proof row_text_ok as H. unfold row_text in H. apply andb_prop in H as [_ H].
  rewrite forallb_forall in H. specialize (H r Hr). rewrite forallb_forall in H. now apply asciib_ok, H.
Qed.

Section Names.
  Context (lower : str -> str) (isdigit : N -> bool) (HP : python_text lower isdigit).

  Lemma denotes_gen {R} (rows : list R) (g : Model_Schema.registry) (oid : R -> string) (names : R -> list string) n i :
    sound (g_oids g) rows (fun r => [lit (oid r)]) = true -> complete (g_oids g) rows (fun r => [lit (oid r)]) = true ->
    sound (g_names g) rows (fun r => map (fun m => ascii_lower (lit m)) (names r)) = true ->
    complete (g_names g) rows (fun r => map (fun m => ascii_lower (lit m)) (names r)) = true ->
    (forall r m, In r rows -> In m (names r) -> is_ascii (lit m)) ->
    (denotes lower isdigit g n i <-> exists r, nth_error rows i = Some r /\ called lower isdigit (oid r) (names r) n).
  Proof.
    intros H1 H2 H3 H4 HA. unfold denotes, called. split.
    - intros (c & r & -> & H). destruct (isdigit c) eqn:Ec.
      + apply (dget_rows _ _ _ _ _ H1 H2) in H as (row & Er & [E|[]]). exists row. split; [exact Er|].
        exists c, r. rewrite Ec. auto.
      + apply (dget_rows _ _ _ _ _ H3 H4) in H as (row & Er & Hin). exists row. split; [exact Er|].
        exists c, r. rewrite Ec. split; [reflexivity|]. apply in_map_iff in Hin as (m & Em & Hm). exists m. split; [exact Hm|].
        rewrite <- Em. symmetry. apply (proj1 HP). eapply HA; eauto using nth_error_In.
    - intros (row & Er & c & r & -> & H). exists c, r. split; [reflexivity|]. destruct (isdigit c) eqn:Ec.
      + apply (dget_rows _ _ _ _ _ H1 H2). exists row. split; [exact Er|]. rewrite H. now left.
      + apply (dget_rows _ _ _ _ _ H3 H4). exists row. split; [exact Er|]. destruct H as (m & Hm & E). rewrite E.
        apply in_map_iff. exists m. split; [|exact Hm]. symmetry. apply (proj1 HP). eapply HA; eauto using nth_error_In.
  Qed.
  Lemma class_denotes n i : denotes lower isdigit cview n i <->
    exists r, nth_error class_rows i = Some r /\ called lower isdigit (c_oid r) (c_names r) n.
  Proof.
    destruct class_tables as (H1 & H2 & H3 & H4). apply (denotes_gen class_rows cview c_oid c_names n i H1 H2 H3 H4).
    intros r m Hr Hm. apply (class_name_ascii r); auto. apply in_or_app. now left.
  Qed.
  Lemma type_denotes n i : denotes lower isdigit tview n i <->
    exists r, nth_error type_rows i = Some r /\ called lower isdigit (t_oid r) (t_names r) n.
  Proof.
    destruct type_tables as (H1 & H2 & H3 & H4). apply (denotes_gen type_rows tview t_oid t_names n i H1 H2 H3 H4).
    intros r m Hr Hm. now apply (type_name_ascii r).
  Qed.

  (** ASCII identifiers mean the same whatever str.lower does elsewhere *)
  Lemma isdigit_ascii c : (c < 128)%N -> isdigit c = dig0 c.
  Proof.
    intros H. pose proof (proj2 HP c H) as D. pose proof (proj2 python_ascii c H) as D0.
    destruct (isdigit c), (dig0 c); auto; assert (F : false = true) by tauto; discriminate.
  Qed.
  Lemma lookup_ascii g n : is_ascii n -> lookup lower isdigit g n = lookup ascii_lower dig0 g n.
  Proof.
    intros H. unfold lookup. destruct n as [|c r]; [reflexivity|]. inversion H; subst.
    rewrite (isdigit_ascii c) by assumption. now rewrite (proj1 HP (c :: r) H).
  Qed.
  Lemma denotes_ascii g n i : is_ascii n -> (denotes lower isdigit g n i <-> denotes ascii_lower dig0 g n i).
  Proof. intros H. rewrite <- !lookup_Some, (lookup_ascii g n H). reflexivity. Qed.
  Lemma unknown_ascii g n : is_ascii n -> (unknown_name lower isdigit g n <-> unknown_name ascii_lower dig0 g n).
  Proof. intros H. rewrite <- !lookup_None, (lookup_ascii g n H). reflexivity. Qed.
End Names.

(** ** Object classes *)
Definition sups_ascii : bool := forallb (fun c => forallb asciib (oc_sups c)) classes0.
Fixpoint class_depth (fuel i : nat) : nat :=
  match fuel with
  | 0 => 0
  | S f => match nth_error classes0 i with
           | None => 0
           | Some c => fold_right (fun s m => match lookup ascii_lower dig0 cview s with Ok (Some j) => Nat.max m (S (class_depth f j)) | _ => m end)
                         0 (oc_sups c)
           end
  end.
Definition crank (i : nat) : nat := class_depth 10 i.
Definition numbered {A} (l : list A) : list (nat * A) := combine (seq 0 (List.length l)) l.
Definition sups_known : bool :=
  forallb (fun ic => forallb (fun s => match lookup ascii_lower dig0 cview s with
                                       | Ok (Some j) => (j <? List.length classes0) && (crank j <? crank (fst ic)) | _ => false end)
                       (oc_sups (snd ic))) (numbered classes0).
Lemma sups_check : sups_ascii = true /\ sups_known = true.
Proof. split; vm_compute; reflexivity. Qed.
#[local] Opaque crank.
Lemma numbered_In {A} (l : list A) i x : nth_error l i = Some x -> In (i, x) (numbered l).
Proof. intros H. exact (nth_error_combine l 0 i x H). Qed.

Lemma sup_known i c s : nth_error classes0 i = Some c -> In s (oc_sups c) ->
  is_ascii s /\ exists j, denotes ascii_lower dig0 cview s j /\ j < List.length classes0 /\ crank j < crank i.
Proof.
  intros Hc Hs. destruct sups_check as [HA HK]. split.
  - unfold sups_ascii in HA. rewrite forallb_forall in HA. specialize (HA c (nth_error_In _ _ Hc)).
    rewrite forallb_forall in HA. now apply asciib_ok, HA.
  - unfold sups_known in HK. rewrite forallb_forall in HK. specialize (HK _ (numbered_In _ _ _ Hc)).
    rewrite forallb_forall in HK. specialize (HK s Hs). cbn [fst snd] in HK.
    destruct (lookup ascii_lower dig0 cview s) as [[j|]|] eqn:El; [|discriminate|discriminate].
    apply andb_prop in HK as [K1 K2]. apply Nat.ltb_lt in K1, K2. exists j. split; [now apply lookup_Some|]. auto.
Qed.

Definition same_set (l m : list str) : bool := forallb (fun x => smem x m) l && forallb (fun x => smem x l) m.
Lemma same_set_ok l m a : same_set l m = true -> (In a l <-> In a m).
Proof.
  intros H. apply andb_prop in H as [H1 H2]. rewrite forallb_forall in H1, H2.
  split; intros Ha; [apply H1 in Ha|apply H2 in Ha]; now apply smem_In.
Qed.
Lemma lists_In l a : lists l a <-> In a (map lit l).
Proof. unfold lists. rewrite in_map_iff. split; intros (m & A & B); exists m; auto. Qed.

Definition must_check : bool :=
  forallb (fun ir => match fst (inherited ascii_lower dig0 cview classes0 30 (fresh_must classes0) (fst ir)) with
                     | Ok l => same_set l (map lit (c_must (snd ir))) | Raise _ => false end) (numbered class_rows).
Definition may_check : bool :=
  forallb (fun ir => match fst (inherited ascii_lower dig0 cview classes0 30 (fresh_may classes0) (fst ir)) with
                     | Ok l => same_set l (map lit (c_may (snd ir))) | Raise _ => false end) (numbered class_rows).
Lemma must_may_check : must_check = true /\ may_check = true.
Proof. split; vm_compute; reflexivity. Qed.

Section Classes.
  Context (lower : str -> str) (isdigit : N -> bool) (HP : python_text lower isdigit).

  Lemma superclass_ascii i j : superclass lower isdigit cview classes0 i j <-> superclass ascii_lower dig0 cview classes0 i j.
  Proof.
    unfold superclass. split; intros (c & s & Hc & Hs & Hd); exists c, s; (split; [exact Hc|]); (split; [exact Hs|]);
      destruct (sup_known i c s Hc Hs) as [A _]; now apply (denotes_ascii lower isdigit HP cview s j A).
  Qed.
  Lemma superclass_rank i j : superclass lower isdigit cview classes0 i j -> crank j < crank i.
  Proof.
    intros H. apply superclass_ascii in H. destruct H as (c & s & Hc & Hs & Hd).
    destruct (sup_known i c s Hc Hs) as (_ & j' & Hd' & _ & Hr). now rewrite (denotes_fun _ _ _ _ _ _ Hd Hd').
  Qed.
  Lemma std_acyclic : acyclic lower isdigit cview classes0.
  Proof. exists crank. apply superclass_rank. Qed.
  Lemma std_resolvable : resolvable lower isdigit cview classes0.
  Proof.
    intros i c s Hc Hs. left. destruct (sup_known i c s Hc Hs) as (A & j & Hd & Hl & _). exists j. split; [|exact Hl].
    now apply (denotes_ascii lower isdigit HP cview s j A).
  Qed.
  Lemma ancestor_ascii i j : ancestor lower isdigit cview classes0 i j <-> ancestor ascii_lower dig0 cview classes0 i j.
  Proof.
    unfold ancestor. split; intros H; induction H.
    - apply rt_step. now apply superclass_ascii.
    - apply rt_refl.
    - eapply rt_trans; eauto.
    - apply rt_step. now apply superclass_ascii.
    - apply rt_refl.
    - eapply rt_trans; eauto.
  Qed.
  Lemma inherits_ascii own i a : inherits lower isdigit cview classes0 own i a <-> inherits ascii_lower dig0 cview classes0 own i a.
  Proof.
    unfold inherits. split; intros (j & c & Ha & Hr); exists j, c; (split; [|exact Hr]); now apply ancestor_ascii.
  Qed.
End Classes.

Lemma inherits_rows own rows_of i r a : 
  forallb (fun ir => match fst (inherited ascii_lower dig0 cview classes0 30 (map (fun c => (own c, false)) classes0) (fst ir)) with
                     | Ok l => same_set l (map lit (rows_of (snd ir))) | Raise _ => false end) (numbered class_rows) = true ->
  nth_error class_rows i = Some r ->
  (inherits ascii_lower dig0 cview classes0 own i a <-> lists (rows_of r) a).
Proof.
  intros HC Hr. rewrite forallb_forall in HC. specialize (HC _ (numbered_In _ _ _ Hr)). cbn [fst snd] in HC.
  assert (Hi : i < List.length classes0). { rewrite (proj1 lengths). apply nth_error_Some. congruence. }
  assert (Hp : pending (map (fun c => (own c, false)) classes0) < 30).
  { eapply Nat.le_lt_trans; [apply pending_le|]. rewrite map_length. rewrite (proj1 lengths). vm_compute. lia. }
  destruct (inherited_memo_ok ascii_lower dig0 cview classes0 own crank (superclass_rank ascii_lower dig0 python_ascii)
              (std_resolvable ascii_lower dig0 python_ascii) 30 _ i (fresh_ok ascii_lower dig0 cview classes0 own) Hi Hp)
    as (l & m' & E & Hl & _).
  rewrite E in HC. cbn [fst] in HC. rewrite <- Hl, (same_set_ok _ _ a HC), lists_In. reflexivity.
Qed.
Lemma must_rows lower isdigit i r a : python_text lower isdigit -> nth_error class_rows i = Some r ->
  (inherits lower isdigit cview classes0 oc_must i a <-> lists (c_must r) a).
Proof. intros HP Hr. rewrite inherits_ascii by exact HP. exact (inherits_rows oc_must c_must i r a (proj1 must_may_check) Hr). Qed.
Lemma may_rows lower isdigit i r a : python_text lower isdigit -> nth_error class_rows i = Some r ->
  (inherits lower isdigit cview classes0 oc_may i a <-> lists (c_may r) a).
Proof. intros HP Hr. rewrite inherits_ascii by exact HP. exact (inherits_rows oc_may c_may i r a (proj2 must_may_check) Hr). Qed.

(** ** Attribute types *)
Fixpoint type_depth (fuel : nat) (t : atype) : nat :=
  match fuel with
  | 0 => 0
  | S f => match super_of t with
           | None => 0
           | Some s => match lookup ascii_lower dig0 tview s with
                       | Ok (Some j) => match nth_error types0 j with Some t' => S (type_depth f t') | None => 0 end
                       | _ => 0 end
           end
  end.
Definition trank (t : atype) : nat := type_depth 10 t.
Definition supers_known : bool :=
  forallb (fun t => (trank t <? 30) &&
                    match super_of t with
                    | None => true
                    | Some s => asciib s && match lookup ascii_lower dig0 tview s with
                                            | Ok (Some j) => match nth_error types0 j with Some t' => trank t' <? trank t | None => false end
                                            | _ => false end
                    end) types0.
Definition typed (t : atype) : bool :=
  match at_own t FLength with None => true | Some (VNum n) => (-1 <=? n)%Z | _ => false end &&
  match at_own t FSyntax with None => true | Some (VOid (Some (_ :: _))) => true | _ => false end &&
  forallb (fun f => match at_own t f with None => true | Some (VFlag true) => true | _ => false end) [FObsolete; FSingle; FCollective; FNoUserMod].
Lemma types_check : supers_known = true /\ forallb typed types0 = true.
Proof. split; vm_compute; reflexivity. Qed.
#[local] Opaque trank.

Lemma typed_ok t : typed t = true -> well_typed t.
Proof.
  unfold typed, well_typed. intros H. apply andb_prop in H as [H H3]. apply andb_prop in H as [H1 H2]. split; [|split].
  - intros v E. rewrite E in H1. destruct v as [|n| |]; try discriminate. exists n. split; [reflexivity|]. now apply Z.leb_le.
  - intros v E. rewrite E in H2. destruct v as [[[|c r]|]| | |]; try discriminate. exists (c :: r). split; [reflexivity|discriminate].
  - intros f v Hf E. rewrite forallb_forall in H3.
    assert (Hin : In f [FObsolete; FSingle; FCollective; FNoUserMod]) by (destruct Hf as [->|[->|[->| ->]]]; cbn [In]; auto).
    specialize (H3 f Hin). rewrite E in H3. destruct v as [| |[]|]; try discriminate. reflexivity.
Qed.
Lemma types_well_typed t : In t types0 -> well_typed t.
Proof. intros H. apply typed_ok. pose proof (proj2 types_check) as T. rewrite forallb_forall in T. now apply T. Qed.
Lemma trank_small t : In t types0 -> trank t < 30.
Proof.
  intros H. pose proof (proj1 types_check) as T. unfold supers_known in T. rewrite forallb_forall in T. specialize (T t H).
  apply andb_prop in T as [T _]. now apply Nat.ltb_lt.
Qed.
Lemma super_known t s : In t types0 -> super_of t = Some s ->
  is_ascii s /\ exists j t', lookup ascii_lower dig0 tview s = Ok (Some j) /\ nth_error types0 j = Some t' /\ trank t' < trank t.
Proof.
  intros H Hs. pose proof (proj1 types_check) as T. unfold supers_known in T. rewrite forallb_forall in T. specialize (T t H).
  apply andb_prop in T as [_ T]. rewrite Hs in T. apply andb_prop in T as [TA T]. split; [now apply asciib_ok|].
  destruct (lookup ascii_lower dig0 tview s) as [[j|]|]; [|discriminate|discriminate].
  destruct (nth_error types0 j) as [t'|] eqn:Ej; [|discriminate]. apply Nat.ltb_lt in T. exists j, t'. exact (conj eq_refl (conj Ej T)).
Qed.

Section Types.
  Context (lower : str -> str) (isdigit : N -> bool) (HP : python_text lower isdigit).
  Lemma std_types_ranked : types_ranked lower isdigit tview types0 trank.
  Proof.
    intros t s j t' Hin Hs Hd Ht. destruct (super_known t s Hin Hs) as (A & j' & t'' & El & Et & Hr).
    apply lookup_Some in Hd. rewrite (lookup_ascii lower isdigit HP tview s A), El in Hd.
    apply Ok_inj, Some_inj in Hd. subst j'. rewrite Ht in Et. apply Some_inj in Et. now subst t''.
  Qed.
  Lemma std_supertypes : supertypes_registered lower isdigit tview types0.
  Proof.
    intros t s Hin Hs. destruct (super_known t s Hin Hs) as (A & j & t' & El & Et & _). exists j, t'. split; [|exact Et].
    apply lookup_Some. now rewrite (lookup_ascii lower isdigit HP tview s A).
  Qed.
  Lemma getfield_ascii fuel : forall t f, In t types0 ->
    getfield lower isdigit tview types0 fuel t f = getfield ascii_lower dig0 tview types0 fuel t f.
  Proof.
    induction fuel as [|fuel IH]; intros t f Hin; [reflexivity|]. cbn [getfield].
    destruct (instance_attr t f); [reflexivity|]. destruct (super_of t) as [s|] eqn:Es; [|reflexivity].
    destruct (super_known t s Hin Es) as (A & j & t' & El & Et & _). rewrite (lookup_ascii lower isdigit HP tview s A), El, Et.
    apply IH. eapply nth_error_In; eauto.
  Qed.
  Lemma getfield_feature fuel t f v : In t types0 -> 30 <= fuel ->
    (getfield lower isdigit tview types0 fuel t f = Ok v <-> feature lower isdigit tview types0 f t v).
  Proof.
    intros Hin Hf. split; [apply getfield_sound|]. intros H.
    exact (getfield_complete lower isdigit tview types0 trank std_types_ranked t f v H Hin fuel
             (Nat.lt_le_trans _ _ _ (trank_small t Hin) Hf)).
  Qed.
End Types.

(** the fields of the rows *)
Definition opt_lit (o : option string) : option str := match o with Some s => Some (lit s) | None => None end.
Definition row_field (r : type_row) (f : field) : option fval :=
  match f with
  | FSyntax => Some (VOid (Some (lit (t_syntax r))))
  | FLength => Some (VNum (match t_limit r with Some n => Z.of_N n | None => -1 end))
  | FEquality => Some (VOid (opt_lit (t_equality r)))
  | FSingle => Some (VFlag (t_single r))
  | FNoUserMod => Some (VFlag (t_no_user_mod r))
  | _ => None
  end.
Definition fval_eqb (a b : fval) : bool :=
  match a, b with
  | VOid (Some x), VOid (Some y) => str_eqb x y
  | VOid None, VOid None => true
  | VNum x, VNum y => (x =? y)%Z
  | VFlag x, VFlag y => Bool.eqb x y
  | VText x, VText y => str_eqb x y
  | _, _ => false
  end.
Lemma fval_eqb_ok a b : fval_eqb a b = true -> a = b.
Proof.
  destruct a as [[x|]|x|x|x], b as [[y|]|y|y|y]; cbn [fval_eqb]; try discriminate; intros H.
  - apply str_eqb_eq in H. now subst.
  - reflexivity.
  - apply Z.eqb_eq in H. now subst.
  - apply Bool.eqb_prop in H. now subst.
  - apply str_eqb_eq in H. now subst.
Qed.
Definition row_fields : list field := [FSyntax; FLength; FEquality; FSingle; FNoUserMod].
Lemma row_field_In r f v : row_field r f = Some v -> In f row_fields.
Proof. destruct f; cbn [row_field]; intros H; try discriminate H; unfold row_fields; cbn [In]; tauto. Qed.
Lemma check_field (x : res fval) (o : option fval) w :
  match x, o with Ok v, Some w => fval_eqb v w | _, _ => false end = true -> o = Some w -> x = Ok w.
Proof. intros H ->. destruct x as [v|]; [|discriminate]. apply fval_eqb_ok in H. now subst. Qed.
Definition rows_check : bool :=
  forallb (fun ir => match nth_error types0 (fst ir) with
                     | None => false
                     | Some t => forallb (fun f => match getfield ascii_lower dig0 tview types0 30 t f, row_field (snd ir) f with
                                                   | Ok v, Some w => fval_eqb v w | _, _ => false end) row_fields
                     end) (numbered type_rows).
Lemma rows_checked : rows_check = true.
Proof. vm_compute. reflexivity. Qed.
Lemma row_features lower isdigit i r : python_text lower isdigit -> nth_error type_rows i = Some r ->
  exists t, nth_error types0 i = Some t /\ In t types0 /\
    forall f v, row_field r f = Some v -> feature lower isdigit tview types0 f t v.
Proof.
  intros HP Hr. pose proof rows_checked as C. unfold rows_check in C. rewrite forallb_forall in C.
  specialize (C _ (numbered_In _ _ _ Hr)). cbn [fst snd] in C. destruct (nth_error types0 i) as [t|] eqn:Et; [|discriminate].
  exists t. split; [reflexivity|]. assert (Hin : In t types0) by (eapply nth_error_In; eauto). split; [exact Hin|].
  intros f v Hv. rewrite forallb_forall in C.
  pose proof (row_field_In r f v Hv) as Hf.
  pose proof (check_field _ _ _ (C f Hf) Hv) as Eg. apply (getfield_feature lower isdigit HP 30 t f v Hin (le_n _)).
  rewrite (getfield_ascii lower isdigit HP 30 t f Hin). exact Eg.
Qed.

(** ** Syntax rules *)
Definition texts : list (string * raw) := (base_schema_text ++ netgroups_text)%list.
Definition syntax_texts : list (str * impl) :=
  flat_map (fun x => match snd x with RSyntax o i => [(lit o, i)] | _ => [] end) texts.
Lemma syntaxes0 : syntaxes_of defs0 = syntax_texts.
Proof. vm_compute. reflexivity. Qed.
Definition at_number (n : nat) (o : option elem) : bool := match o with Some e => Nat.eqb (e_id e) n | None => false end.
Definition syntax_table : bool := forallb (fun x => at_number (fst x) (rget reg0 TSyntax (fst (snd x)))) (numbered syntax_texts).
Definition row_syntaxes : bool := forallb (fun r => smem (lit (t_syntax r)) (map fst syntax_texts)) type_rows.
Lemma syntax_checks : syntax_table = true /\ row_syntaxes = true.
Proof. split; vm_compute; reflexivity. Qed.
#[local] Opaque syntax_texts.

Lemma syntax_text_In o i : (exists attr, In (attr, RSyntax o i) texts) -> In (lit o, i) syntax_texts.
Proof.
  intros (attr & H). Transparent syntax_texts. unfold syntax_texts. apply in_flat_map. exists (attr, RSyntax o i). split; [exact H|].
  cbn [snd In]. now left. Opaque syntax_texts.
Qed.
Lemma syntax_In_text k i : In (k, i) syntax_texts -> exists attr o, In (attr, RSyntax o i) texts /\ k = lit o.
Proof.
  Transparent syntax_texts. unfold syntax_texts. Opaque syntax_texts. intros H. apply in_flat_map in H as ([attr r] & Hin & H). cbn [snd] in H.
  destruct r as [| |o i'|]; try contradiction. destruct H as [H|[]]. injection H as E1 E2. subst. exists attr, o. auto.
Qed.
Lemma text_rule_at depth order k i : In (k, i) syntax_texts ->
  text_rule depth order reg0 defs0 k = Some (fun s => impl_validate depth order i (Text s)).
Proof.
  intros H. apply In_nth_error in H as [n Hn]. pose proof (proj1 syntax_checks) as C. unfold syntax_table in C.
  rewrite forallb_forall in C. specialize (C _ (numbered_In _ _ _ Hn)). cbn [fst snd] in C.
  unfold text_rule, rule_validate. destruct (rget reg0 TSyntax k) as [e|]; [|discriminate]. cbn [at_number] in C. apply Nat.eqb_eq in C. rewrite C, syntaxes0, Hn.
  reflexivity.
Qed.
Lemma lit_inj a : forall b, lit a = lit b -> a = b.
Proof.
  unfold lit. induction a as [|x a IH]; intros [|y b] H; cbn in H; try discriminate; [reflexivity|].
  injection H as H1 H2. apply IH in H2. subst. f_equal.
  rewrite <- (Ascii.ascii_N_embedding x), <- (Ascii.ascii_N_embedding y). now rewrite H1.
Qed.
Lemma triple_rule v : regex_rule (match_anchored rtriple) (Text v) = Ok tt <-> triple v.
Proof.
  assert (NI : forall c l, Forall (fun x => negb (in_ranges [(c, c)] x) = true) l <-> ~ In c l).
  { intros c l. rewrite Forall_forall. split.
    - intros H Hc. specialize (H c Hc). unfold in_ranges in H. cbn [existsb fst snd] in H. rewrite !N.leb_refl in H. discriminate H.
    - intros H x Hx. apply negb_true_iff. unfold in_ranges. cbn [existsb fst snd].
      destruct (N.leb_spec c x) as [H1|H1]; [|reflexivity]. destruct (N.leb_spec x c) as [H2|H2]; [|reflexivity]. exfalso. apply H.
      replace c with x by lia. exact Hx. }
  assert (E : forall t, L rtriple t <-> exists h u d, t = (lit "(" ++ h ++ lit "," ++ u ++ lit "," ++ d ++ lit ")")%list /\
                          ~ In (ch ",") h /\ ~ In (ch ",") u /\ ~ In (ch ")") d).
  { intros t. unfold rtriple. rewrite L_seqs_cons. split.
    - intros (x1 & t1 & -> & H1 & H). apply L_seqs_cons in H as (x2 & t2 & -> & H2 & H). apply L_seqs_cons in H as (x3 & t3 & -> & H3 & H).
      apply L_seqs_cons in H as (x4 & t4 & -> & H4 & H). apply L_seqs_cons in H as (x5 & t5 & -> & H5 & H). apply L_seqs_cons in H as (x6 & t6 & -> & H6 & H).
      apply L_RC in H1, H3, H5. cbn [RSeqs] in H. apply L_RC in H. apply L_group, L_star_chr, NI in H2. apply L_group, L_star_chr, NI in H4.
      apply L_group, L_star_chr, NI in H6. subst. exists x2, x4, x6. split; [reflexivity|]. auto.
    - intros (h & u & d & -> & Hh & Hu & Hd). exists (lit "("), (h ++ lit "," ++ u ++ lit "," ++ d ++ lit ")")%list. split; [reflexivity|].
      split; [apply L_RC; reflexivity|]. apply L_seqs_cons. eexists h, _. split; [reflexivity|]. split; [apply L_group, L_star_chr, NI; exact Hh|].
      apply L_seqs_cons. eexists (lit ","), _. split; [reflexivity|]. split; [apply L_RC; reflexivity|].
      apply L_seqs_cons. eexists u, _. split; [reflexivity|]. split; [apply L_group, L_star_chr, NI; exact Hu|].
      apply L_seqs_cons. eexists (lit ","), _. split; [reflexivity|]. split; [apply L_RC; reflexivity|].
      apply L_seqs_cons. eexists d, _. split; [reflexivity|]. split; [apply L_group, L_star_chr, NI; exact Hd|].
      cbn [RSeqs]. apply L_RC. reflexivity. }
  unfold regex_rule, triple. split.
  - destruct (match_anchored rtriple v) as [c|] eqn:Em; [|discriminate]. intros _. apply anchored_sound in Em as (t & e & -> & He & Hm).
    destruct (proj1 (E t) (ex_intro _ c Hm)) as (h & u & d & -> & A & B & C). exists h, u, d, e. split; [now rewrite <- !app_assoc|]. auto.
  - intros (h & u & d & e & -> & A & B & C & He).
    destruct (proj2 (E (lit "(" ++ h ++ lit "," ++ u ++ lit "," ++ d ++ lit ")")%list)
                (ex_intro _ h (ex_intro _ u (ex_intro _ d (Logic.conj eq_refl (Logic.conj A (Logic.conj B C))))))) as [c Hm].
    destruct (anchored_complete rtriple _ e c Hm He) as [c' Ec]. rewrite <- !app_assoc in Ec. now rewrite Ec.
Qed.
Lemma meets_iff depth order i v : impl_validate depth order i (Text v) = Ok tt <-> meets depth order i v.
Proof. destruct i; cbn [impl_validate meets]; try reflexivity. apply triple_rule. Qed.
Lemma row_rule depth order r : In r type_rows ->
  exists f, text_rule depth order reg0 defs0 (lit (t_syntax r)) = Some f /\ forall v, f v = Ok tt <-> obeys depth order (t_syntax r) v.
Proof.
  intros Hr. pose proof (proj2 syntax_checks) as C. unfold row_syntaxes in C. rewrite forallb_forall in C. specialize (C r Hr).
  apply smem_In, in_map_iff in C as ([k i] & Ek & Hin). cbn [fst] in Ek. subst k. eexists. split; [exact (text_rule_at depth order _ i Hin)|].
  intros v. split.
  - intros H. apply syntax_In_text in Hin as (attr & o & Hin & E). apply lit_inj in E. subst o. exists attr, i. split; [exact Hin|]. apply meets_iff. exact H.
  - intros (attr & i' & Hin' & H). apply meets_iff in H. pose proof (syntax_text_In _ _ (ex_intro _ attr Hin')) as Hin2.
    pose proof (text_rule_at depth order _ i Hin) as E1. rewrite (text_rule_at depth order _ i' Hin2) in E1. apply Some_inj in E1.
    apply (f_equal (fun f => f v)) in E1. now rewrite <- E1.
Qed.

(** every attribute a class lists has a type *)
Definition mentions_known : bool :=
  forallb (fun r => forallb (fun m => match lookup ascii_lower dig0 tview (lit m) with Ok (Some _) => true | _ => false end)
                      (c_must r ++ c_may r)) class_rows.
Lemma mentions_checked : mentions_known = true.
Proof. vm_compute. reflexivity. Qed.
Lemma mention_known lower isdigit r a : python_text lower isdigit -> In r class_rows -> lists (c_must r) a \/ lists (c_may r) a ->
  exists i, denotes lower isdigit tview a i.
Proof.
  intros HP Hr Ha. assert (H : exists m, In m (c_must r ++ c_may r)%list /\ a = lit m).
  { destruct Ha as [(m & Hm & ->)|(m & Hm & ->)]; exists m; (split; [|reflexivity]); apply in_or_app; auto. }
  destruct H as (m & Hm & ->). pose proof mentions_checked as C. unfold mentions_known in C. rewrite forallb_forall in C. specialize (C r Hr).
  rewrite forallb_forall in C. specialize (C m Hm).
  assert (A : is_ascii (lit m)) by (apply (class_name_ascii r); [exact Hr|apply in_or_app; now right]).
  destruct (lookup ascii_lower dig0 tview (lit m)) as [[i|]|] eqn:E; [|discriminate|discriminate]. exists i.
  apply lookup_Some. rewrite (lookup_ascii lower isdigit HP tview (lit m) A). exact E.
Qed.

(** ** Matching rules *)
Definition manner_compare (m : manner) : Model_StdText.compare :=
  match m with Spelling => CExact | IgnoringCase => CIgnore | Literally => CPlain | Digits => CNumeric | PhoneDigits => CPhone
             | Dn => CDn | Time => CTime end.
Definition compare_eqb (a b : Model_StdText.compare) : bool :=
  match a, b with
  | CPlain, CPlain | CExact, CExact | CIgnore, CIgnore | CNumeric, CNumeric | CPhone, CPhone | CDn, CDn | CTime, CTime => true
  | _, _ => false
  end.
Lemma compare_eqb_ok a b : compare_eqb a b = true -> a = b.
Proof. destruct a, b; intros H; try reflexivity; discriminate H. Qed.
Definition time_syntax : str := lit "1.3.6.1.4.1.1466.115.121.1.24".
Definition rule_at (o : option elem) : option (str * str * str * Model_StdText.compare) :=
  match o with Some e => nth_error (matchings_of defs0) (e_id e) | None => None end.
Definition fits_manner (m : manner) (x : option (str * str * str * Model_StdText.compare)) : bool :=
  match x with
  | Some (_, _, syn, k) => compare_eqb k (manner_compare m) && match m with Time => str_eqb syn time_syntax | _ => true end
  | None => false
  end.
Definition manners_check : bool :=
  forallb (fun nm => asciib (lit (fst nm)) && alpha_head (lit (fst nm)) &&
                     fits_manner (snd nm) (rule_at (rget reg0 TMatchName (ascii_lower (lit (fst nm)))))) manners.
Definition row_manners : bool :=
  forallb (fun r => match t_equality r with None => true | Some n => existsb (fun nm => String.eqb (fst nm) n) manners end) type_rows.
Lemma manners_checked : manners_check = true /\ row_manners = true.
Proof. split; vm_compute; reflexivity. Qed.

Section Rules.
  Context (depth : nat) (order nfkc casefold : str -> str) (g : Model_Registration.registry) (defs : list (str * built)).
  Definition rule_for (m : manner) : mrule :=
    match m with
    | Spelling => caseExactMatch nfkc | IgnoringCase => caseIgnoreMatch nfkc casefold | Literally => octetStringMatch
    | Digits => numericStringMatch nfkc | PhoneDigits => telephoneNumberMatch nfkc casefold | Dn => distinguishedNameMatch
    | Time => generalizedTimeMatch (fun v => match text_rule depth order g defs time_syntax with Some f => f v | None => Raise KeyError end)
    end.
  Lemma rule_for_compare m o n syn k : fits_manner m (Some (o, n, syn, k)) = true ->
    rule_of depth order nfkc casefold g defs syn k = rule_for m.
  Proof.
    cbn [fits_manner]. intros H. apply andb_prop in H as [Hk Hs]. apply compare_eqb_ok in Hk. subst k.
    destruct m; cbn [manner_compare rule_of rule_for]; try reflexivity. apply str_eqb_eq in Hs. now rewrite Hs.
  Qed.
  Lemma matching_gen lower isdigit name m : python_text lower isdigit ->
    asciib (lit name) && alpha_head (lit name) &&
      fits_manner m (match rget g TMatchName (ascii_lower (lit name)) with Some e => nth_error (matchings_of defs) (e_id e) | None => None end) = true ->
    matching_rule lower isdigit depth order nfkc casefold g defs (lit name) = Ok (rule_for m).
  Proof.
    intros HP C. apply andb_prop in C as [C Hf]. apply andb_prop in C as [Ha Hd]. apply asciib_ok in Ha.
    unfold matching_rule. rewrite (proj1 HP _ Ha). destruct (lit name) as [|c rest] eqn:En; [discriminate|]. cbn [alpha_head] in Hd.
    rewrite (isdigit_alpha lower isdigit c HP Hd). destruct (rget g TMatchName (ascii_lower (c :: rest))) as [e|]; [|discriminate].
    destruct (nth_error (matchings_of defs) (e_id e)) as [[[[o n] syn] k]|]; [|discriminate].
    now rewrite (rule_for_compare m o n syn k Hf).
  Qed.
  Lemma equality_gen lower isdigit t o : getfield lower isdigit (type_view g) (std_types defs) depth t FEquality = Ok (VOid (opt_lit o)) ->
    (forall name, o = Some name -> exists m, In (name, m) manners /\ matching_rule lower isdigit depth order nfkc casefold g defs (lit name) = Ok (rule_for m)) ->
    match o with
    | None => equality lower isdigit depth order nfkc casefold g defs t = Raise LDAPSchemaError
    | Some name => exists m, In (name, m) manners /\ equality lower isdigit depth order nfkc casefold g defs t = Ok (rule_for m)
    end.
  Proof.
    intros E H. unfold equality. rewrite E. cbn [bind]. destruct o as [name|]; cbn [opt_lit]; [|reflexivity].
    destruct (H name eq_refl) as (m & Hm & M). exists m. split; [exact Hm|]. destruct (lit name) as [|c rest]; [discriminate M|]. exact M.
  Qed.
End Rules.

Section Matching.
  Context (lower : str -> str) (isdigit : N -> bool) (HP : python_text lower isdigit).
  Context (depth : nat) (order nfkc casefold : str -> str).
  Lemma matching_at name m : In (name, m) manners ->
    matching_rule lower isdigit depth order nfkc casefold reg0 defs0 (lit name) = Ok (rule_for depth order nfkc casefold reg0 defs0 m).
  Proof.
    intros H. pose proof (proj1 manners_checked) as C. unfold manners_check in C. rewrite forallb_forall in C.
    exact (matching_gen depth order nfkc casefold reg0 defs0 lower isdigit name m HP (C _ H)).
  Qed.
  Lemma row_manner r name : In r type_rows -> t_equality r = Some name -> exists m, In (name, m) manners.
  Proof.
    intros Hr He. pose proof (proj2 manners_checked) as C. unfold row_manners in C. rewrite forallb_forall in C. specialize (C r Hr).
    rewrite He in C. apply existsb_exists in C as ([n m] & Hin & E). cbn [fst] in E. apply String.eqb_eq in E. subst n. now exists m.
  Qed.

  (** the equality rule of a type *)
  Lemma row_equality i r t : 30 <= depth -> nth_error type_rows i = Some r -> nth_error types0 i = Some t ->
    match t_equality r with
    | None => equality lower isdigit depth order nfkc casefold reg0 defs0 t = Raise LDAPSchemaError
    | Some name => exists m, In (name, m) manners /\
        equality lower isdigit depth order nfkc casefold reg0 defs0 t = Ok (rule_for depth order nfkc casefold reg0 defs0 m)
    end.
  Proof.
    intros Hdep Hr Ht. destruct (row_features lower isdigit i r HP Hr) as (t' & Ht' & Hin & F). rewrite Ht in Ht'. apply Some_inj in Ht'. subst t'.
    pose proof (proj2 (getfield_feature lower isdigit HP depth t FEquality _ Hin Hdep) (F FEquality _ eq_refl)) as E.
    pose proof (equality_gen depth order nfkc casefold reg0 defs0 lower isdigit t (t_equality r)) as G. rewrite tview_eq, types_eq in G.
    apply (G E).
    intros name En. destruct (row_manner r name (nth_error_In _ _ Hr) En) as [m Hm]. exists m. split; [exact Hm|]. exact (matching_at name m Hm).
  Qed.
End Matching.

(** OIDs of matching rules *)
Definition oid_head (s : str) : bool := match s with c :: _ => ((c <? 128) && dig0 c)%N | [] => false end.
Lemma isdigit_oid lower isdigit c : python_text lower isdigit -> ((c <? 128) && dig0 c)%N = true -> isdigit c = true.
Proof.
  intros [_ H] E. apply andb_prop in E as [E1 E2]. apply N.ltb_lt in E1. apply (H c E1). unfold dig0 in E2.
  apply andb_prop in E2 as [A B]. apply N.leb_le in A, B. now split.
Qed.
Definition same_id (a b : option elem) : bool := match a, b with Some x, Some y => Nat.eqb (e_id x) (e_id y) | _, _ => false end.
Definition oids_check : bool :=
  forallb (fun x => oid_head (lit (fst x)) && asciib (lit (snd x)) && alpha_head (lit (snd x)) &&
    same_id (rget reg0 TMatchOid (lit (fst x))) (rget reg0 TMatchName (ascii_lower (lit (snd x))))) rule_oids.
Lemma oids_checked : oids_check = true.
Proof. vm_compute. reflexivity. Qed.
Lemma oid_gen lower isdigit depth order nfkc casefold g defs oid name : python_text lower isdigit ->
  oid_head (lit oid) && asciib (lit name) && alpha_head (lit name) &&
    same_id (rget g TMatchOid (lit oid)) (rget g TMatchName (ascii_lower (lit name))) = true ->
  matching_rule lower isdigit depth order nfkc casefold g defs (lit oid) = matching_rule lower isdigit depth order nfkc casefold g defs (lit name).
Proof.
  intros HP C. apply andb_prop in C as [C Hf]. apply andb_prop in C as [C Hd]. apply andb_prop in C as [Ho Ha]. apply asciib_ok in Ha.
  unfold matching_rule. rewrite (proj1 HP _ Ha). destruct (lit name) as [|c rest]; [discriminate|]. cbn [alpha_head] in Hd.
  rewrite (isdigit_alpha lower isdigit c HP Hd). destruct (lit oid) as [|c' rest']; [discriminate|]. cbn [oid_head] in Ho.
  rewrite (isdigit_oid lower isdigit c' HP Ho). unfold same_id in Hf.
  destruct (rget g TMatchOid (c' :: rest')) as [x|]; [|discriminate]. destruct (rget g TMatchName (ascii_lower (c :: rest))) as [y|]; [|discriminate].
  apply Nat.eqb_eq in Hf. now rewrite Hf.
Qed.
Lemma matching_oid lower isdigit depth order nfkc casefold oid name : python_text lower isdigit -> In (oid, name) rule_oids ->
  matching_rule lower isdigit depth order nfkc casefold reg0 defs0 (lit oid) = matching_rule lower isdigit depth order nfkc casefold reg0 defs0 (lit name).
Proof.
  intros HP H. pose proof oids_checked as C. unfold oids_check in C. rewrite forallb_forall in C.
  exact (oid_gen lower isdigit depth order nfkc casefold reg0 defs0 oid name HP (C _ H)).
Qed.
