(** * C92, continued: words that name nothing, numbers without a name *)
From Verif Require Import PyBase Model_Const Spec_Const Proofs_Const Props_Const.

Section C92.
  Context (upper py_repr : str -> str).
  (** Any other word for a filter syntax is refused, with AttributeError. *)
  Theorem C92_filter_syntax_refused s : (forall w x, In (w, x) syntax_words -> upper s <> lit w) -> syntax_string upper s = Raise AttributeError.
  Proof.
    intros H. unfold syntax_string.
    destruct (str_eqb_spec (upper s) (lit "STANDARD")) as [E|_]; [exfalso; eapply H; [left; reflexivity|exact E]|].
    destruct (str_eqb_spec (upper s) (lit "SIMPLE")) as [E|_]; [exfalso; eapply H; [right; left; reflexivity|exact E]|].
    destruct (str_eqb_spec (upper s) (lit "UNIFIED")) as [E|_]; [exfalso; eapply H; [right; right; left; reflexivity|exact E]|reflexivity].
  Qed.
  (** A number without a name is shown as None, whatever the class. *)
  Theorem C92_unnamed_repr cls names known z : (forall n v, In (n, v) names -> v <> z) ->
    enum_repr py_repr (mk_enum cls (Some z) names) = (cls ++ lit "(None)")%list /\
    const_repr py_repr known (mk_enum cls (Some z) names) = (cls ++ lit "(None)")%list.
  Proof.
    intros H. assert (G : get_name names z = None).
    { induction names as [|[n v] names IH]; [reflexivity|]. cbn [get_name].
      destruct (Z.eqb_spec v z) as [->|]; [exfalso; eapply H; [left; reflexivity|reflexivity]|].
      apply IH. intros n' v' I. eapply H. right. exact I. }
    unfold enum_repr, const_repr. cbn [e_value e_names e_class]. rewrite G. cbn [name_repr].
    split; [reflexivity|]. assert (F : List.find (fun _ : string * string => false) known = None) by (clear; induction known; [reflexivity|exact IHknown]).
    rewrite F. reflexivity.
  Qed.
End C92.
Print Assumptions C92_filter_syntax_refused.
Print Assumptions C92_unnamed_repr.
(** Scope(7) of a server that answers with a number RFC 4511 does not know *)
Example C92_unnamed_nonvacuous : (forall n v, In (n, v) scope_names -> v <> 7%Z) /\
  syntax_string (fun s => s) (lit "standard") = Raise AttributeError.
Proof. split; [|reflexivity]. intros n v I. cbn -[lit] in I. repeat (destruct I as [I|I]; [injection I as _ <-; discriminate|]). destruct I. Qed.
