(** * When an object that holds some of the values of an entry can be trusted *)
From Coq Require Import Permutation.
From Verif Require Import PyBase Model_CIDict Model_Modify Spec_Modify Model_Search Model_Dir Spec_Dir Model_Request Model_Netgroups Model_Life Spec_Coherent.

(** the values the object has for an attribute, and some others (possibly none), make up the values the
    attribute has in the entry, in some order *)
Definition shows_part (lower : str -> str) (d : attrs) (e : entry) : Prop :=
  forall k, exists rest, Permutation (cur_vals lower d k ++ rest) (e (lower k)).

(** object number [i] is connected, named [dn], and shows no value that is not in the entry of that name *)
Definition never_false {S : Type} (lower : str -> str) (view : S -> str -> option entry) (dn : str) (i : nat) (ss : @session S) : Prop :=
  exists o e, nth_error (ss_objs ss) i = Some o /\ ob_conn o = true /\ ob_dn o = Some dn /\ view (ss_s ss) dn = Some e /\
    dict_ok lower (ob_attrs o) /\ shows_part lower (ob_attrs o) e.

(** calls of an object, the entry being [e], that keep it so, in either mode and whatever has been loaded *)
Definition mild (lower : str -> str) (eqv : str -> str -> str -> bool) (e : entry) (c : call) : Prop :=
  match c with
  | CObj _ _ _ | CGetChild _ _ | CAddChild _ _ | CDeleteChild _ | CSearch _ _ | CFind _ _ | CCompare _ _ | CHasClass _
  | CValidate | CValidateModify _ | CDel _ => True
  | CRefresh None => True
  | CRefresh (Some ats) => plain ats
  | CRefreshMissing ats => plain ats
  | CAddAttrs new => NoDup (map fst new) /\ plain (map fst new)
  | CDeleteAttrs del =>
      NoDup (map (fun av => lower (fst av)) del) /\ plain (map fst del) /\
      (forall k v, In (k, v) del -> v <> VList [] /\ at_most_one eqv k (e (lower k)))
  | CReplaceAttrs new => forall k v, In (k, v) new -> exists l, v = VList l /\ l <> []
  | CModify ms => forall m, In m ms -> constructed m /\
      match m_op m with
      | REPLACE => exists l, m_vals m = VList l /\ l <> []
      | ADD => True
      | DELETE => False
      end
  | CNetgroup NgDelete _ _ _ =>
      at_most_one eqv (lit "nisNetgroupTriple") (e (lower (lit "nisNetgroupTriple"))) /\
      at_most_one eqv (lit "memberNisNetgroup") (e (lower (lit "memberNisNetgroup")))
  | CNetgroup _ _ _ _ => True
  | CRefreshAll | CDelete | CModDn _ _ _ | CRename _ _ | CMove _ _ | CSet _ _ => False
  end.

(** a history in which object [i] is used so, and nothing else changes the entry named [dn] *)
Section Mildly.
  Context {S : Type} (lower : str -> str) (eqv : str -> str -> str -> bool) (view : S -> str -> option entry) (dn : str) (i : nat).
  Context (next : @session S -> @event S -> @session S).
  Inductive mildly : @session S -> list (@event S) -> Prop :=
  | W_end ss : mildly ss []
  | W_own ss c es :
      (forall e, view (ss_s ss) dn = Some e -> mild lower eqv e c) ->
      mildly (next ss (Do i c)) es -> mildly ss (Do i c :: es)
  | W_other ss e es :
      (forall c, e <> Do i c) -> view (ss_s (next ss e)) dn = view (ss_s ss) dn ->
      mildly (next ss e) es -> mildly ss (e :: es).
End Mildly.
