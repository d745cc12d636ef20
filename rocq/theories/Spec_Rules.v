(** * What can be relied on about rule instances *)
From Verif Require Import PyBase Model_Rules.

Definition syntax_op (o : rop) : Prop := (exists c, o = NewSyn c) \/ (exists s, o = GetSyn s).
Definition matching_op (o : rop) : Prop := (exists c, o = NewMat c) \/ (exists s, o = GetMat s).
Definition event := (rop * res (option rinst))%type.
(** a program's run from the start, with its events *)
Definition run_of lower isdigit (ops : list rop) (es : list event) : Prop := snd (rrun lower isdigit rs_empty ops) = es.
(** registered: an earlier registration of the class succeeded *)
Definition reg_mat (es : list event) (c : rclass) : Prop := In (RegMat c, Ok None) es.
Definition reg_syn (es : list event) (c : rclass) : Prop := In (RegSyn c, Ok None) es.
(** orderly: all registrations of matching rules succeed, and only registered classes are instantiated by hand *)
Definition orderly (es : list event) : Prop :=
  (forall c r, In (RegMat c, r) es -> r = Ok None) /\
  (forall es1 c r es2, es = es1 ++ (NewMat c, r) :: es2 -> reg_mat es1 c).
(** [ident] is a way to ask for the class: its OID if it starts with a digit, otherwise its name in any case *)
Definition names_class (lower : str -> str) (isdigit : N -> bool) (ident : str) (c : rclass) : Prop :=
  exists ch r, ident = ch :: r /\
    (if isdigit ch then ident = rc_oid c else rc_name c <> [] /\ lower ident = lower (rc_name c)).
