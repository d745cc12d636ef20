(** * C50: reading object class and attribute type descriptions *)
From Verif Require Import PyBase Model_Prep Model_Uri Model_Schema Model_Regex Spec_Search Model_Parse Spec_Parse
  Proofs_Parse3 Proofs_Parse6 Proofs_Parse7 Proofs_Parse8.

(** Every text that reads as the description [d] (white space may stand for a space, and may
    surround it) gives an object class with exactly what [d] says. *)
Theorem C50_object_class_partial isdigit names_of s d : tells_digits isdigit -> padded (oc_text laurelin d) s ->
  exists c, object_class isdigit names_of s = Ok c /\
    pc_oid c = d_oid d /\ pc_names c = d_names d /\ pc_sups c = d_sups d /\ pc_obsolete c = d_obsolete d /\
    pc_kind c = lit (match d_kind d with Some k => kind_word k | None => "STRUCTURAL" end) /\
    names_for names_of (d_must d) (pc_must c) /\ names_for names_of (d_may d) (pc_may c).
Proof.
  intros Hd Hp. destruct (object_class_described isdigit names_of s d Hd Hp) as (c & E & H1 & H2 & H3 & H4 & H5 & H6 & H7).
  exists c. rewrite H4. unfold kind_text. destruct (d_kind d); auto 10.
Qed.
(** Any other text is refused with LDAPSchemaError; nothing else can happen. *)
Theorem C50_object_class_refused isdigit names_of s : tells_digits isdigit ->
  (exists d, padded (oc_text laurelin d) s) /\ (exists c, object_class isdigit names_of s = Ok c) \/
  (forall d, ~ padded (oc_text laurelin d) s) /\ object_class isdigit names_of s = Raise LDAPSchemaError.
Proof.
  intros Hd. destruct (object_class isdigit names_of s) as [c|e] eqn:E.
  - left. split; [|eauto]. destruct (object_class_only _ _ _ _ Hd E) as (d & Hp & _). eauto.
  - right. assert (H : forall d, ~ padded (oc_text laurelin d) s).
    { intros d Hp. destruct (object_class_described isdigit names_of s d Hd Hp) as (c & E' & _). congruence. }
    split; [exact H|]. rewrite <- E. now apply object_class_error.
Qed.

(** The same of attribute types, which must have a name. *)
Theorem C50_attribute_type_partial s d : padded (at_text laurelin d) s -> a_names d <> [] ->
  exists t, attribute_type s = Ok t /\ pt_oid t = a_oid d /\ pt_names t = a_names d /\
    at_super (pt_type t) = a_sup d /\ forall f, at_own (pt_type t) f = stated d f.
Proof. intros Hp Hn. exact (proj2 (attribute_type_described s d Hp) Hn). Qed.
Theorem C50_attribute_type_refused s :
  (exists d, padded (at_text laurelin d) s /\ a_names d <> []) /\ (exists t, attribute_type s = Ok t) \/
  (forall d, padded (at_text laurelin d) s -> a_names d = []) /\ attribute_type s = Raise LDAPSchemaError.
Proof.
  destruct (attribute_type s) as [t|e] eqn:E.
  - left. split; [|eauto]. destruct (attribute_type_only _ _ E) as (d & Hp & Hn & _). eauto.
  - right. assert (H : forall d, padded (at_text laurelin d) s -> a_names d = []).
    { intros d Hp. destruct (a_names d) as [|n ns] eqn:En; [reflexivity|]. destruct (attribute_type_described s d Hp) as [_ H].
      destruct H as (t & Et & _); [congruence|congruence]. }
    split; [exact H|]. rewrite <- E. now apply attribute_type_error.
Qed.
(** What is not stated: taken from the supertype if there is one, else the default value. *)
Theorem C50_attribute_type_unstated s d t f : padded (at_text laurelin d) s -> attribute_type s = Ok t -> stated d f = None ->
  instance_attr (pt_type t) f =
    match a_sup d with
    | Some _ => None
    | None => Some (match f with
                    | FEquality | FSyntax => VOid None
                    | FLength => VNum (-1)
                    | FUsage => VText (lit "userApplications")
                    | _ => VFlag false end)
    end.
Proof.
  intros Hp Et Hs. destruct (attribute_type_described s d Hp) as [H1 H2].
  destruct (a_names d) as [|n ns] eqn:En; [rewrite H1 in Et by reflexivity; discriminate|]. destruct (H2 ltac:(discriminate)) as (t' & Et' & Ho & Hn & Hsup & Hown).
  replace t' with t in * by congruence. unfold instance_attr, super_of. rewrite Hown, Hs, Hsup.
  destruct (a_sup d) as [[|x y]|] eqn:Ea; [exfalso|reflexivity|destruct f; reflexivity].
  destruct Hp as (u & x & v & _ & _ & _ & a0 & b0 & _ & _ & u1 & b1 & _ & _ & o & b2 & _ & _ & t1 & b3 & _ & _ & t2 & b4 & _ & _ & t3 & b5 & _ & _
    & t4 & b6 & _ & H4 & _). rewrite Ea in H4. destruct H4 as (_ & _ & _ & _ & _ & _ & _ & _ & _ & [(c & r & E & _)|H]); [discriminate|].
  destruct H as (l & Hl & Hf & E). destruct l as [|p [|q l]]; [cbn in Hl; lia|cbn in Hl; lia|]. inversion Hf as [|? ? [Hp _] _]; subst. now destruct p.
Qed.

(** Descriptions of RFC 4512 with its keywords in upper case, no empty list and at most one
    extension are descriptions of RFC 4512, and are read as such. *)
Theorem C50_rfc4512_object_class_partial isdigit names_of s d : tells_digits isdigit -> oc_text common d s ->
  oc_text rfc4512 d s /\
  exists c, object_class isdigit names_of s = Ok c /\
    pc_oid c = d_oid d /\ pc_names c = d_names d /\ pc_sups c = d_sups d /\ pc_obsolete c = d_obsolete d /\
    pc_kind c = lit (match d_kind d with Some k => kind_word k | None => "STRUCTURAL" end) /\
    names_for names_of (d_must d) (pc_must c) /\ names_for names_of (d_may d) (pc_may c).
Proof.
  intros Hd H. split; [now apply (wide_oc _ _ common_rfc)|]. apply C50_object_class_partial; [exact Hd|].
  exists [], s, []. rewrite app_nil_r. split; [reflexivity|]. split; [constructor|]. split; [constructor|]. now apply (wide_oc _ _ common_laurelin).
Qed.
Theorem C50_rfc4512_attribute_type_partial s d : at_text common d s -> a_names d <> [] ->
  at_text rfc4512 d s /\
  exists t, attribute_type s = Ok t /\ pt_oid t = a_oid d /\ pt_names t = a_names d /\
    at_super (pt_type t) = a_sup d /\ forall f, at_own (pt_type t) f = stated d f.
Proof.
  intros H Hn. split; [now apply (wide_at _ _ common_rfc)|]. apply C50_attribute_type_partial; [|exact Hn].
  exists [], s, []. rewrite app_nil_r. split; [reflexivity|]. split; [constructor|]. split; [constructor|]. now apply (wide_at _ _ common_laurelin).
Qed.

(** ** A case *)
Definition ex_isdigit (c : N) : bool := (48 <=? c)%N && (c <=? 57)%N.
Definition ex_names_of (o : str) : option (list str) := if str_eqb o (lit "2.5.4.3") then Some [lit "cn"; lit "commonName"] else None.
Lemma ex_tells : tells_digits ex_isdigit.
Proof. unfold tells_digits, ex_isdigit, DIGIT, ALPHA. split; intros c; lia. Qed.
Ltac piece x := exists x; eexists; split; [reflexivity|]; split.
Ltac sp1 := split; [discriminate|repeat constructor].
Ltac digits_ok := repeat constructor; unfold DIGIT; try (cbn; lia).
Lemma dotted D (l : list str) s : 2 <= List.length l -> Forall (number D) l -> s = joined (ch ".") l -> numericoid D s.
Proof. intros. exists l. auto. Qed.

Definition ex_oc_text : str := lit "( 2.5.6.6 NAME 'person' SUP top STRUCTURAL MUST ( sn $ 2.5.4.3 ) X-ORIGIN 'RFC' )".
Definition ex_oc : oc_desc :=
  mk_oc_desc (lit "2.5.6.6") [lit "person"] false [lit "top"] (Some STRUCTURAL) [lit "sn"; lit "2.5.4.3"] [].
Lemma one_digit a : DIGIT a -> rfc_number [a].
Proof. intros H. exists a, []. split; [reflexivity|]. split; [constructor; [exact H|constructor]|congruence]. Qed.
Lemma number_of s : match s with c :: r => forallb ex_isdigit s && (match r with [] => true | _ => negb (N.eqb c 48) end) | [] => false end = true -> rfc_number s.
Proof.
  destruct s as [|c r]; [discriminate|]. intros H. apply andb_prop in H as [H1 H2]. exists c, r. split; [reflexivity|]. split.
  - apply Forall_forall. intros x Hx. rewrite forallb_forall in H1. apply H1 in Hx. unfold ex_isdigit in Hx. unfold DIGIT. lia.
  - intros Hr. destruct r; [congruence|]. intros ->. discriminate.
Qed.
Ltac digit1 := apply number_of; reflexivity.
Definition is_alpha (c : N) : bool := ((65 <=? c) && (c <=? 90) || (97 <=? c) && (c <=? 122))%N.
Lemma is_alpha_spec c : is_alpha c = true -> ALPHA c. Proof. unfold is_alpha, ALPHA. lia. Qed.
Lemma descr_of s : match s with a :: _ => forallb is_alpha s | [] => false end = true -> descr s.
Proof.
  destruct s as [|a r]; [discriminate|]. intros H. rewrite forallb_forall in H. exists a, r. split; [reflexivity|]. split; [apply is_alpha_spec, H; now left|].
  apply Forall_forall. intros c Hc. left. apply is_alpha_spec, H. now right.
Qed.
Ltac descr_ok := apply descr_of; reflexivity.
Example C50_nonvacuous_object_class : oc_text common ex_oc ex_oc_text /\
  object_class ex_isdigit ex_names_of ex_oc_text =
    Ok (mk_pclass (lit "2.5.6.6") [lit "person"] [lit "top"] (lit "STRUCTURAL") false [lit "sn"; lit "cn"; lit "commonName"] []).
Proof.
  split; [|vm_compute; reflexivity].
  piece (lit "("); [reflexivity|]. piece (lit " "); [repeat constructor|].
  piece (lit "2.5.6.6"). { split; [reflexivity|]. apply (dotted _ [lit "2"; lit "5"; lit "6"; lit "6"]); [cbn; lia| |reflexivity]. repeat (constructor; [digit1|]). constructor. }
  piece (lit " NAME 'person'").
  { left. piece (lit " NAME"); [piece (lit " "); [sp1|reflexivity]|]. piece (lit " "); [sp1|]. left. exists (lit "person"). split; [reflexivity|].
    piece (lit "'"); [reflexivity|]. piece (lit "person"); [|reflexivity]. split; [reflexivity|]. descr_ok. }
  piece (@nil N); [now left|]. piece (@nil N); [reflexivity|].
  piece (lit " SUP top").
  { piece (lit " SUP"); [piece (lit " "); [sp1|reflexivity]|]. piece (lit " "); [sp1|]. left. exists (lit "top"). split; [reflexivity|]. split; [reflexivity|].
    left. descr_ok. }
  piece (lit " STRUCTURAL"). { piece (lit " "); [sp1|reflexivity]. }
  piece (lit " MUST ( sn $ 2.5.4.3 )").
  { piece (lit " MUST"); [piece (lit " "); [sp1|reflexivity]|]. piece (lit " "); [sp1|]. right. piece (lit "("); [reflexivity|].
    piece (lit " "); [repeat constructor|]. piece (lit "sn $ 2.5.4.3"); [|piece (lit " "); [repeat constructor|reflexivity]].
    piece (lit "sn"). { split; [reflexivity|]. left. descr_ok. }
    piece (lit " $ "). { piece (lit " "); [repeat constructor|]. piece (lit "$"); [reflexivity|repeat constructor]. }
    split; [reflexivity|]. right. apply (dotted _ [lit "2"; lit "5"; lit "4"; lit "3"]); [cbn; lia| |reflexivity]. repeat (constructor; [digit1|]). constructor. }
  piece (@nil N); [reflexivity|].
  piece (lit " X-ORIGIN 'RFC'").
  { exists 1. split; [cbn; lia|]. piece (lit " X-ORIGIN 'RFC'"); [|reflexivity]. piece (lit " "); [sp1|]. piece (lit "X-"); [reflexivity|].
    piece (lit "ORIGIN"). { split; [discriminate|]. apply Forall_forall. intros c Hc. left. apply is_alpha_spec. revert c Hc. now apply forallb_forall. }
    piece (lit " "); [sp1|]. left. piece (lit "'"); [reflexivity|]. piece (lit "RFC"); [|reflexivity].
    exists [lit "R"; lit "F"; lit "C"]. split; [discriminate|]. split; [|reflexivity].
    repeat (constructor; [right; right; right; eexists; split; [reflexivity|split; discriminate]|]). constructor. }
  piece (lit " "); [repeat constructor|reflexivity].
Qed.
Definition ex_at_text : str := lit "( 2.5.4.20 NAME ( 'tel' 'phone' ) DESC 'x' EQUALITY telephoneNumberMatch SYNTAX 1.3.50{32} SINGLE-VALUE USAGE dSAOperation )".
Definition ex_at : at_desc :=
  mk_at_desc (lit "2.5.4.20") [lit "tel"; lit "phone"] false None (Some (lit "telephoneNumberMatch")) (Some (lit "1.3.50", Some (lit "32"))) true false false
    (Some dSAOperation).
Ltac digit2 := digit1.
Example C50_nonvacuous_attribute_type : at_text common ex_at ex_at_text /\
  exists t, attribute_type ex_at_text = Ok t /\ pt_names t = [lit "tel"; lit "phone"] /\
    instance_attr (pt_type t) FLength = Some (VNum 32) /\ instance_attr (pt_type t) FObsolete = Some (VFlag false).
Proof.
  split; [|eexists; split; [vm_compute; reflexivity|split; [reflexivity|split; reflexivity]]].
  piece (lit "("); [reflexivity|]. piece (lit " "); [repeat constructor|].
  piece (lit "2.5.4.20"). { split; [reflexivity|]. apply (dotted _ [lit "2"; lit "5"; lit "4"; lit "20"]); [cbn; lia| |reflexivity]. repeat (constructor; [digit2|]). constructor. }
  piece (lit " NAME ( 'tel' 'phone' )").
  { left. piece (lit " NAME"); [piece (lit " "); [sp1|reflexivity]|]. piece (lit " "); [sp1|]. right. piece (lit "("); [reflexivity|].
    piece (lit " "); [repeat constructor|]. piece (lit "'tel' 'phone'"); [|piece (lit " "); [repeat constructor|reflexivity]].
    piece (lit "'tel'"). { piece (lit "'"); [reflexivity|]. piece (lit "tel"); [|reflexivity]. split; [reflexivity|]. descr_ok. }
    piece (lit " "); [sp1|]. piece (lit "'"); [reflexivity|]. piece (lit "phone"); [|reflexivity]. split; [reflexivity|]. descr_ok. }
  piece (lit " DESC 'x'").
  { right. piece (lit " DESC"); [piece (lit " "); [sp1|reflexivity]|]. piece (lit " "); [sp1|]. piece (lit "'"); [reflexivity|]. piece (lit "x"); [|reflexivity].
    exists [lit "x"]. split; [discriminate|]. split; [|reflexivity]. constructor; [|constructor]. right; right; right. eexists. split; [reflexivity|split; discriminate]. }
  piece (@nil N); [reflexivity|]. piece (@nil N); [reflexivity|].
  piece (lit " EQUALITY telephoneNumberMatch").
  { piece (lit " EQUALITY"); [piece (lit " "); [sp1|reflexivity]|]. piece (lit " "); [sp1|]. split; [reflexivity|]. left. descr_ok. }
  piece (@nil N); [now left|]. piece (@nil N); [now left|].
  piece (lit " SYNTAX 1.3.50{32}").
  { piece (lit " SYNTAX"); [piece (lit " "); [sp1|reflexivity]|]. piece (lit " "); [sp1|]. piece (lit "1.3.50").
    { split; [reflexivity|]. apply (dotted _ [lit "1"; lit "3"; lit "50"]); [cbn; lia| |reflexivity]. repeat (constructor; [digit2|]). constructor. }
    piece (lit "{"); [reflexivity|]. piece (lit "32"); [|reflexivity]. split; [reflexivity|]. digit2. }
  piece (lit " SINGLE-VALUE"). { piece (lit " "); [sp1|reflexivity]. }
  piece (@nil N); [reflexivity|]. piece (@nil N); [reflexivity|].
  piece (lit " USAGE dSAOperation"). { piece (lit " USAGE"); [piece (lit " "); [sp1|reflexivity]|]. piece (lit " "); [sp1|reflexivity]. }
  piece (@nil N). { exists 0. split; [cbn; lia|reflexivity]. }
  piece (lit " "); [repeat constructor|reflexivity].
Qed.

(** ** Where the code departs from RFC 4512 *)
Definition bare (o : str) : oc_desc := mk_oc_desc o [] false [] None [] [].
Ltac skip_parts := do 7 (piece (@nil N); [first [now left|reflexivity]|]).
Lemma oid12 D : (forall a, DIGIT a -> number D [a]) -> numericoid D (lit "1.2").
Proof. intros H. apply (dotted _ [lit "1"; lit "2"]); [cbn; lia| |reflexivity]. constructor; [exact (H 49%N ltac:(unfold DIGIT; lia))|]. constructor; [exact (H 50%N ltac:(unfold DIGIT; lia))|constructor]. Qed.
(** two extensions *)
Theorem C50_refuted_two_extensions : exists s,
  oc_text rfc4512 (bare (lit "1.2")) s /\ forall isdigit names_of, object_class isdigit names_of s = Raise LDAPSchemaError.
Proof.
  exists (lit "( 1.2 X-A 'x' X-B 'y' )"). split; [|intros; vm_compute; reflexivity].
  piece (lit "("); [reflexivity|]. piece (lit " "); [repeat constructor|]. piece (lit "1.2"); [split; [reflexivity|apply oid12; exact one_digit]|]. skip_parts.
  piece (lit " X-A 'x' X-B 'y'"); [|piece (lit " "); [repeat constructor|reflexivity]].
  exists 2. split; [exact I|].
  assert (E : forall a b, ALPHA a -> b <> 39%N /\ b <> 92%N -> extension rfc4512 (lit " X-" ++ [a] ++ lit " '" ++ [b] ++ lit "'")).
  { intros a b Ha [Hb1 Hb2]. piece (lit " "); [sp1|]. piece (lit "X-"); [reflexivity|]. piece [a]. { split; [discriminate|]. constructor; [now left|constructor]. }
    piece (lit " "); [sp1|]. left. piece (lit "'"); [reflexivity|]. piece [b]; [|reflexivity]. exists [[b]]. split; [discriminate|]. split; [|reflexivity].
    constructor; [|constructor]. right; right; right. exists b. auto. }
  piece (lit " X-A 'x'"). { apply (E 65%N 120%N); [unfold ALPHA; lia|lia]. }
  piece (lit " X-B 'y'"); [|reflexivity]. apply (E 66%N 121%N); [unfold ALPHA; lia|lia].
Qed.
(** a keyword in lower case *)
Theorem C50_refuted_keyword_case : exists s,
  oc_text rfc4512 (mk_oc_desc (lit "1.2") [] true [] None [] []) s /\
  forall isdigit names_of, object_class isdigit names_of s = Raise LDAPSchemaError.
Proof.
  exists (lit "( 1.2 obsolete )"). split; [|intros; vm_compute; reflexivity].
  piece (lit "("); [reflexivity|]. piece (lit " "); [repeat constructor|]. piece (lit "1.2"); [split; [reflexivity|apply oid12; exact one_digit]|].
  piece (@nil N); [now left|]. piece (@nil N); [now left|]. piece (lit " obsolete"). { piece (lit " "); [sp1|reflexivity]. }
  do 4 (piece (@nil N); [reflexivity|]). piece (@nil N). { exists 0. split; [exact I|reflexivity]. }
  piece (lit " "); [repeat constructor|reflexivity].
Qed.
(** an empty list of names *)
Theorem C50_refuted_empty_names : exists s,
  oc_text rfc4512 (bare (lit "1.2")) s /\ forall isdigit names_of, object_class isdigit names_of s = Raise LDAPSchemaError.
Proof.
  exists (lit "( 1.2 NAME ( ) )"). split; [|intros; vm_compute; reflexivity].
  piece (lit "("); [reflexivity|]. piece (lit " "); [repeat constructor|]. piece (lit "1.2"); [split; [reflexivity|apply oid12; exact one_digit]|].
  piece (lit " NAME ( )").
  { right. split; [exact I|]. split; [reflexivity|]. piece (lit " NAME"); [piece (lit " "); [sp1|reflexivity]|]. piece (lit " "); [sp1|].
    piece (lit "("); [reflexivity|]. piece (lit " "); [repeat constructor|]. piece (@nil N); [reflexivity|]. piece (@nil N); [constructor|reflexivity]. }
  do 6 (piece (@nil N); [first [now left|reflexivity]|]). piece (@nil N). { exists 0. split; [exact I|reflexivity]. }
  piece (lit " "); [repeat constructor|reflexivity].
Qed.
(** an attribute type without a name *)
Theorem C50_refuted_nameless_attribute_type : exists s,
  at_text rfc4512 (mk_at_desc (lit "1.2") [] false None None None false false false None) s /\ attribute_type s = Raise LDAPSchemaError.
Proof.
  exists (lit "( 1.2 )"). split; [|vm_compute; reflexivity].
  piece (lit "("); [reflexivity|]. piece (lit " "); [repeat constructor|]. piece (lit "1.2"); [split; [reflexivity|apply oid12; exact one_digit]|].
  do 12 (piece (@nil N); [first [now left|reflexivity]|]). piece (@nil N). { exists 0. split; [exact I|reflexivity]. }
  piece (lit " "); [repeat constructor|reflexivity].
Qed.
(** a number with leading zeros, which is no OID, is accepted *)
Theorem C50_refuted_leading_zero : exists s c, (forall d, ~ oc_text rfc4512 d s) /\
  object_class ex_isdigit ex_names_of s = Ok c.
Proof.
  exists (lit "(01.2)"). eexists. split; [|vm_compute; reflexivity].
  intros d (a0 & b0 & E0 & -> & u & b1 & -> & Hu & o & b2 & -> & [-> (l & Hl & Hf & Eo)] & _). rewrite Eo in E0.
  destruct l as [|p [|q l]]; [cbn in Hl; lia|cbn in Hl; lia|]. inversion Hf as [|? ? (c & r & -> & Hr & Hz) Hf']; subst.
  destruct Hu as [|w u Hw _]; [|cbn in E0; injection E0 as E0 _; rewrite <- E0 in Hw; discriminate Hw].
  cbn in E0. injection E0 as E1 E2. subst c. destruct r as [|c r]; [discriminate E2|]. now apply Hz.
Qed.
(** parse_qdescrs itself relies on its text having single spaces only *)
Theorem C50_refuted_double_space : exists s l, qdescrs rfc4512 l s /\ parse_qdescrs (Some s) <> l.
Proof.
  exists (lit "( 'a'  'b' )"), [lit "a"; lit "b"]. split; [|vm_compute; discriminate].
  right. piece (lit "("); [reflexivity|]. piece (lit " "); [repeat constructor|]. piece (lit "'a'  'b'"); [|piece (lit " "); [repeat constructor|reflexivity]].
  piece (lit "'a'"). { piece (lit "'"); [reflexivity|]. piece (lit "a"); [|reflexivity]. split; [reflexivity|]. descr_ok. }
  piece (lit "  "); [sp1|]. piece (lit "'"); [reflexivity|]. piece (lit "b"); [|reflexivity]. split; [reflexivity|]. descr_ok.
Qed.

Print Assumptions C50_object_class_partial.
Print Assumptions C50_object_class_refused.
Print Assumptions C50_attribute_type_partial.
Print Assumptions C50_attribute_type_refused.
Print Assumptions C50_attribute_type_unstated.
Print Assumptions C50_rfc4512_object_class_partial.
Print Assumptions C50_rfc4512_attribute_type_partial.
