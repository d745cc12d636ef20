(** * C92: domains and constants as text *)
From Verif Require Import PyBase Model_Uri Spec_Uri Proofs_Uri Model_CIDict Model_Modify Model_Search Spec_Search Proofs_Search2 Model_Const Spec_Const Proofs_Const.
Local Open Scope string_scope.

(** ** Domains *)
(** dc gives one dc= for each label, in order. *)
Theorem C92_dc ls d : domain_of ls d -> dn_of ls (dc d).
Proof. intros (H1 & H2 & ->). unfold dn_of. rewrite dc_cut. now rewrite (cut_of_joined dot) by assumption. Qed.
(** The DN of a domain within another is right below that of the other. *)
Theorem C92_dc_parent l d : ~ In (ch ".") l -> dc (l ++ lit "." ++ d)%list = (lit "dc=" ++ l ++ lit "," ++ dc d)%list.
Proof.
  intros H. rewrite !dc_cut.
  assert (E : cut dot (l ++ lit "." ++ d)%list = l :: cut dot d).
  { change (l ++ lit "." ++ d)%list with (l ++ [dot] ++ d)%list. rewrite <- (split_cut dot (l ++ [dot] ++ d)%list), (py_split_first dot [] l d H). now rewrite split_cut. }
  rewrite E. cbn [map]. destruct (cut dot d) as [|p ps] eqn:Ed; [now apply cut_ne in Ed|]. cbn [map].
  change (joined comma (dc_of l :: dc_of p :: map dc_of ps)) with (dc_of l ++ comma :: joined comma (dc_of p :: map dc_of ps))%list.
  unfold dc_of at 1. rewrite <- app_assoc. reflexivity.
Qed.
(** domain undoes dc on just the domains without commas and equals signs (which no DNS name has). *)
Theorem C92_domain_undoes_dc d : domain (dc d) = Ok d <-> plain_text d.
Proof. split; [apply domain_chars|intros [A B]; now apply domain_dc_ok]. Qed.
(** dc undoes domain on just the DNs made of domain components. *)
Theorem C92_dc_undoes_domain x : (exists d, domain x = Ok d /\ dc d = x) <-> (exists ls d, domain_of ls d /\ plain_text d /\ dn_of ls x).
Proof.
  split.
  - intros (d & H & <-). exists (cut dot d), d. split; [|split; [exact (domain_chars _ _ H)|apply dc_cut]].
    split; [apply cut_ne|]. split; [apply cut_no|]. symmetry. apply cut_joined.
  - intros (ls & d & H & [P1 P2] & ->). exists d. pose proof (C92_dc _ _ H) as E. unfold dn_of in E. rewrite <- E. split; [|reflexivity]. now apply domain_dc_ok.
Qed.
(** Different domains have different DNs. *)
Theorem C92_dc_injective a b : plain_text a -> plain_text b -> dc a = dc b -> a = b.
Proof. intros A B E. apply C92_domain_undoes_dc in A, B. rewrite E in A. congruence. Qed.
(** domain fails, with IndexError, on just what has an RDN without an equals sign. *)
Theorem C92_domain_fails x : 
  (exists ls, ls <> [] /\ Forall (fun l => ~ In (ch ",") l) ls /\ x = joined (ch ",") ls /\ exists l, In l ls /\ ~ In (ch "=") l) <->
  domain x = Raise IndexError.
Proof.
  assert (SP : forall i, (exists v, second_part i = Ok v) \/ (second_part i = Raise IndexError)).
  { intros i. unfold second_part. destruct (py_split _ i) as [|a [|b r]]; eauto. }
  assert (SN : forall i, second_part i = Raise IndexError <-> ~ In equals i).
  { intros i. unfold second_part. rewrite (split_cut equals). split.
    - destruct (cut equals i) as [|a [|b r]] eqn:E; [now apply cut_ne in E| |discriminate]. intros _.
      pose proof (cut_joined equals i) as J. rewrite E in J. cbn [joined] in J. subst i.
      pose proof (cut_no equals a) as F. rewrite E in F. now inversion F.
    - intros H. assert (E : cut equals i = [i]); [|now rewrite E]. apply (cut_of_joined equals [i]); [discriminate|]. constructor; [exact H|constructor]. }
  assert (SE : forall l, (exists i, In i l /\ ~ In equals i) <-> seconds l = Raise IndexError).
  { induction l as [|i l IH]; [split; [intros (i & [] & _)|discriminate]|]. cbn [seconds]. destruct (SP i) as [[v E]|E]; rewrite E; cbn [bind].
    - destruct (seconds l) as [vs|e] eqn:El; cbn [bind].
      + split; [|discriminate]. intros (i' & [<-|Hi] & Hn); [apply SN in Hn; congruence|].
        assert (X : Ok vs = Raise IndexError) by (apply IH; eauto). discriminate.
      + rewrite <- IH. split; [intros (i' & [<-|Hi] & Hn); [apply SN in Hn; congruence|eauto]|intros (i' & Hi & Hn); exists i'; split; [now right|exact Hn]].
    - split; [reflexivity|]. intros _. exists i. split; [now left|now apply SN]. }
  unfold domain. rewrite (split_cut comma). split.
  - intros (ls & H1 & H2 & -> & H3). rewrite (cut_of_joined comma) by assumption. apply SE in H3. now rewrite H3.
  - intros H. exists (cut comma x). split; [apply cut_ne|]. split; [apply cut_no|]. split; [symmetry; apply cut_joined|].
    apply SE. destruct (seconds (cut comma x)); [discriminate|]. cbn [bind] in H. injection H as ->. reflexivity.
Qed.
(** What kind of RDNs they are is not looked at. *)
Theorem C92_domain_of_any_dn : domain (lit "cn=admin,ou=people,o=x") = Ok (lit "admin.people.x").
Proof. vm_compute. reflexivity. Qed.

(** ** Constants *)
Section C92.
  Context (upper lower py_repr : str -> str).
  (** A scope is known by its word of RFC 4516 in any case, and by no other. *)
  Theorem C92_scope_word s e : scope_string lower s = Ok e <-> exists w, In (w, e) scope_words /\ lower s = lit w.
  Proof.
    unfold scope_string, scope_words. split.
    - destruct (str_eqb_spec (lower s) (lit "base")) as [->|]; [intros H; injection H as <-; exists "base"; split; [now left|reflexivity]|].
      destruct (str_eqb_spec (lower s) (lit "one")) as [->|]; [intros H; injection H as <-; exists "one"; split; [right; now left|reflexivity]|].
      destruct (str_eqb_spec (lower s) (lit "sub")) as [->|]; [intros H; injection H as <-; exists "sub"; split; [right; right; now left|reflexivity]|discriminate].
    - intros (w & [H|[H|[H|[]]]] & ->); injection H as <- <-; reflexivity.
  Qed.
  Theorem C92_scope_word_refused s : (forall w e, In (w, e) scope_words -> lower s <> lit w) -> scope_string lower s = Raise ValueError.
  Proof.
    intros H. unfold scope_string.
    destruct (str_eqb_spec (lower s) (lit "base")) as [E|_]; [destruct (H "base" Scope_BASE); [now left|exact E]|].
    destruct (str_eqb_spec (lower s) (lit "one")) as [E|_]; [destruct (H "one" Scope_ONE); [right; now left|exact E]|].
    destruct (str_eqb_spec (lower s) (lit "sub")) as [E|_]; [destruct (H "sub" Scope_SUB); [right; right; now left|exact E]|reflexivity].
  Qed.
  (** constant gives back the word. *)
  Theorem C92_scope_constant z cls names w : scope_constant (mk_enum cls (Some z) names) = Ok w <->
    exists w' e, In (w', e) scope_words /\ numbered e z /\ w = lit w'.
  Proof.
    unfold scope_constant, numbered.
    rewrite (enum_eq_val (mk_enum cls (Some z) names) Scope_BASE z 0 eq_refl eq_refl), (enum_eq_val (mk_enum cls (Some z) names) Scope_ONE z 1 eq_refl eq_refl),
      (enum_eq_val (mk_enum cls (Some z) names) Scope_SUB z 2 eq_refl eq_refl). cbn [bind]. split.
    - destruct (Z.eqb_spec z 0) as [->|]; [intros H; injection H as <-; exists "base", Scope_BASE; repeat split; now left|].
      destruct (Z.eqb_spec z 1) as [->|]; [intros H; injection H as <-; exists "one", Scope_ONE; repeat split; right; now left|].
      destruct (Z.eqb_spec z 2) as [->|]; [intros H; injection H as <-; exists "sub", Scope_SUB; repeat split; right; right; now left|discriminate].
    - intros (w' & e & [H|[H|[H|[]]]] & Hz & ->); injection H as <- <-; injection Hz as <-; reflexivity.
  Qed.
  Theorem C92_scope_round_trip s e : scope_string lower s = Ok e -> scope_constant e = Ok (lower s).
  Proof. intros H. apply C92_scope_word in H as (w & Hin & ->). destruct Hin as [H|[H|[H|[]]]]; injection H as <- <-; vm_compute; reflexivity. Qed.
  (** The filter syntaxes are known by their names in any case. *)
  Theorem C92_filter_syntax s x : syntax_string upper s = Ok x <-> exists w, In (w, x) syntax_words /\ upper s = lit w.
  Proof.
    unfold syntax_string, syntax_words. split.
    - destruct (str_eqb_spec (upper s) (lit "STANDARD")) as [->|]; [intros H; injection H as <-; exists "STANDARD"; split; [now left|reflexivity]|].
      destruct (str_eqb_spec (upper s) (lit "SIMPLE")) as [->|]; [intros H; injection H as <-; exists "SIMPLE"; split; [right; now left|reflexivity]|].
      destruct (str_eqb_spec (upper s) (lit "UNIFIED")) as [->|]; [intros H; injection H as <-; exists "UNIFIED"; split; [right; right; now left|reflexivity]|discriminate].
    - intros (w & [H|[H|[H|[]]]] & ->); injection H as <- <-; reflexivity.
  Qed.
  Theorem C92_filter_syntax_repr w x : In (w, x) syntax_words -> syntax_repr x = (lit "FilterSyntax." ++ lit w)%list.
  Proof. intros [H|[H|[H|[]]]]; injection H as <- <-; reflexivity. Qed.
  (** LDIF change types, and names of operations *)
  Theorem C92_mod_string s e : mod_string s = Ok e <-> exists w n, In (w, n, e) mod_words /\ s = lit w.
  Proof.
    unfold mod_string, mod_words. split.
    - destruct (str_eqb_spec s (lit "add")) as [->|]; [intros H; injection H as <-; exists "add", "ADD"; split; [now left|reflexivity]|].
      destruct (str_eqb_spec s (lit "replace")) as [->|]; [intros H; injection H as <-; exists "replace", "REPLACE"; split; [right; now left|reflexivity]|].
      destruct (str_eqb_spec s (lit "delete")) as [->|]; [intros H; injection H as <-; exists "delete", "DELETE"; split; [right; right; now left|reflexivity]|discriminate].
    - intros (w & n & [H|[H|[H|[]]]] & ->); injection H as <- _ <-; reflexivity.
  Qed.
  Theorem C92_mod_string_refused s : (forall w n e, In (w, n, e) mod_words -> s <> lit w) -> mod_string s = Raise ValueError.
  Proof.
    intros H. unfold mod_string.
    destruct (str_eqb_spec s (lit "add")) as [E|_]; [destruct (H "add" "ADD" Mod_ADD); [now left|exact E]|].
    destruct (str_eqb_spec s (lit "replace")) as [E|_]; [destruct (H "replace" "REPLACE" Mod_REPLACE); [right; now left|exact E]|].
    destruct (str_eqb_spec s (lit "delete")) as [E|_]; [destruct (H "delete" "DELETE" Mod_DELETE); [right; right; now left|exact E]|reflexivity].
  Qed.
  Theorem C92_op_to_string w n e : In (w, n, e) mod_words -> mod_string (lit w) = Ok e /\ op_to_string e = Ok (lit n).
  Proof. intros [H|[H|[H|[]]]]; injection H as <- <- <-; vm_compute; auto. Qed.
  (** increment is none of the operations *)
  Theorem C92_op_to_string_refused cls names z : (forall w n e, In (w, n, e) mod_words -> ~ numbered e z) ->
    op_to_string (mk_enum cls (Some z) names) = Raise ValueError.
  Proof.
    intros H. unfold op_to_string.
    rewrite (enum_eq_val (mk_enum cls (Some z) names) Mod_ADD z 0 eq_refl eq_refl), (enum_eq_val (mk_enum cls (Some z) names) Mod_REPLACE z 2 eq_refl eq_refl),
      (enum_eq_val (mk_enum cls (Some z) names) Mod_DELETE z 1 eq_refl eq_refl). cbn [bind].
    destruct (Z.eqb_spec z 0) as [->|]; [destruct (H "add" "ADD" Mod_ADD); [now left|reflexivity]|].
    destruct (Z.eqb_spec z 2) as [->|]; [destruct (H "replace" "REPLACE" Mod_REPLACE); [right; now left|reflexivity]|].
    destruct (Z.eqb_spec z 1) as [->|]; [destruct (H "delete" "DELETE" Mod_DELETE); [right; right; now left|reflexivity]|reflexivity].
  Qed.

  (** repr of a constant is the expression one writes for it, so that constants that print the same are the same. *)
  Theorem C92_scope_repr w e : In (w, e) scope_expressions -> scope_repr py_repr e = lit w.
  Proof. intros [H|[H|[H|[]]]]; injection H as <- <-; vm_compute; reflexivity. Qed.
  Theorem C92_deref_repr w e : In (w, e) deref_expressions -> deref_repr py_repr e = lit w.
  Proof. intros [H|[H|[H|[H|[]]]]]; injection H as <- <-; vm_compute; reflexivity. Qed.
  Theorem C92_mod_repr w e : In (w, e) mod_expressions -> operation_repr py_repr e = lit w.
  Proof. intros [H|[H|[H|[]]]]; injection H as <- <-; vm_compute; reflexivity. Qed.
  (** Others are shown as calls of their class. *)
  Theorem C92_increment_repr : operation_repr py_repr (named "Operation" operation_names "increment") = (lit "Operation(" ++ py_repr (lit "increment") ++ lit ")")%list.
  Proof. reflexivity. Qed.
  Theorem C92_enumerated_repr cls names n z : get_name names z = Some n ->
    enum_repr py_repr (mk_enum cls (Some z) names) = (cls ++ lit "(" ++ py_repr n ++ lit ")")%list.
  Proof. intros H. unfold enum_repr, call. cbn [e_value e_names e_class]. rewrite H. reflexivity. Qed.
  Theorem C92_no_value_repr cls names known : 
    enum_repr py_repr (mk_enum cls None names) = (cls ++ lit "(<schema object>)")%list /\
    const_repr py_repr known (mk_enum cls None names) = (cls ++ lit "(<schema object>)")%list.
  Proof. unfold enum_repr, const_repr, call. cbn [e_value e_class]. split; reflexivity. Qed.
End C92.
(** Constants of different kinds are equal if they have the same number: Mod.ADD is taken for the scope base. *)
Theorem C92_kinds_not_told_apart : scope_constant Mod_ADD = Ok (lit "base") /\ op_to_string Deref_NEVER = Ok (lit "ADD").
Proof. vm_compute. auto. Qed.
(** The numbers are those of RFC 4511. *)
Theorem C92_numbers :
  numbered Scope_BASE 0 /\ numbered Scope_ONE 1 /\ numbered Scope_SUB 2 /\
  numbered Deref_NEVER 0 /\ numbered Deref_SEARCH 1 /\ numbered Deref_BASE 2 /\ numbered Deref_ALWAYS 3 /\
  numbered Mod_ADD 0 /\ numbered Mod_DELETE 1 /\ numbered Mod_REPLACE 2.
Proof. vm_compute. repeat split. Qed.

Example C92_nonvacuous :
  dc (lit "www.example.org") = lit "dc=www,dc=example,dc=org" /\ domain (lit "dc=www,dc=example,dc=org") = Ok (lit "www.example.org") /\
  domain_of [lit "www"; lit "example"; lit "org"] (lit "www.example.org") /\ plain_text (lit "www.example.org") /\
  scope_string ascii_lower (lit "Sub") = Ok Scope_SUB /\ scope_string ascii_lower (lit "tree") = Raise ValueError /\
  domain (lit "dc=x,y") = Raise IndexError.
Proof.
  repeat apply conj; try (vm_compute; reflexivity); try discriminate.
  - repeat (constructor; [intros H; vm_compute in H; repeat (destruct H as [H|H]; [discriminate H|]); exact H|]). constructor.
  - intros H; vm_compute in H; repeat (destruct H as [H|H]; [discriminate H|]); exact H.
  - intros H; vm_compute in H; repeat (destruct H as [H|H]; [discriminate H|]); exact H.
Qed.

Print Assumptions C92_dc.
Print Assumptions C92_dc_parent.
Print Assumptions C92_domain_undoes_dc.
Print Assumptions C92_dc_undoes_domain.
Print Assumptions C92_domain_fails.
Print Assumptions C92_scope_word.
Print Assumptions C92_scope_round_trip.
Print Assumptions C92_filter_syntax.
Print Assumptions C92_mod_string.
Print Assumptions C92_op_to_string.
Print Assumptions C92_mod_repr.
