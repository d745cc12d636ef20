(** * When an object that holds some of an entry's attributes can be trusted *)
From Verif Require Import PyBase Model_CIDict Model_Modify Spec_Modify Model_Search Model_Dir Spec_Dir Model_Request Model_Netgroups Model_Life.

(** no attribute the object has shows anything but what is in the entry *)
Definition shows_truth (lower : str -> str) (d : attrs) (e : entry) : Prop :=
  forall k, ahas lower d k = true -> cur_vals lower d k = e (lower k).

(** object number [i] is connected, named [dn], and shows nothing but what is in the entry of that name *)
Definition coherent {S : Type} (lower : str -> str) (view : S -> str -> option entry) (dn : str) (i : nat) (ss : @session S) : Prop :=
  exists o e, nth_error (ss_objs ss) i = Some o /\ ob_conn o = true /\ ob_dn o = Some dn /\ view (ss_s ss) dn = Some e /\
    dict_ok lower (ob_attrs o) /\ shows_truth lower (ob_attrs o) e.

(** not one of the special names in attribute lists of searches *)
Definition plain (ats : list str) : Prop := forall n, In n ats -> ~ In n [lit "*"; lit "+"; lit "1.1"].

(** calls of an object holding [d] that keep it trustworthy *)
Definition gentle (lower : str -> str) (strict : bool) (d : attrs) (c : call) : Prop :=
  match c with
  | CObj _ _ _ | CGetChild _ _ | CAddChild _ _ | CDeleteChild _ | CSearch _ _ | CFind _ _ | CCompare _ _ | CHasClass _
  | CValidate | CValidateModify _ | CDel _ => True
  | CRefresh None => True
  | CRefresh (Some ats) => plain ats
  | CRefreshMissing ats => plain ats
  | CAddAttrs new =>
      (* the keys of a dict *)
      NoDup (map fst new) /\ plain (map fst new) /\ (strict = false \/ forall k, In k (map fst new) -> ahas lower d k = true)
  | CDeleteAttrs del =>
      NoDup (map fst del) /\ plain (map fst del) /\ (strict = false \/ forall k, In k (map fst del) -> ahas lower d k = true) /\
      forall k v, In (k, v) del -> v <> VList []
  | CReplaceAttrs new => forall k v, In (k, v) new -> exists l, v = VList l /\ l <> []
  | CModify ms => forall m, In m ms -> constructed m /\
      match m_op m with
      | REPLACE => exists l, m_vals m = VList l /\ l <> []
      | ADD => ahas lower d (m_attr m) = true
      | DELETE => ahas lower d (m_attr m) = true /\ m_vals m <> VList []
      end
  | CNetgroup NgReplace _ _ _ => True
  | CNetgroup _ _ _ _ => strict = false
  | CRefreshAll | CDelete | CModDn _ _ _ | CRename _ _ | CMove _ _ | CSet _ _ => False
  end.

(** a history in which object [i] is used gently, and nothing else changes the entry named [dn] *)
Section Undisturbed.
  Context {S : Type} (lower : str -> str) (strict : bool) (view : S -> str -> option entry) (dn : str) (i : nat).
  Context (next : @session S -> @event S -> @session S).
  Inductive undisturbed : @session S -> list (@event S) -> Prop :=
  | U_end ss : undisturbed ss []
  | U_own ss c es :
      (forall o, nth_error (ss_objs ss) i = Some o -> gentle lower strict (ob_attrs o) c) ->
      undisturbed (next ss (Do i c)) es -> undisturbed ss (Do i c :: es)
  | U_other ss e es :
      (forall c, e <> Do i c) -> view (ss_s (next ss e)) dn = view (ss_s ss) dn ->
      undisturbed (next ss e) es -> undisturbed ss (e :: es).
End Undisturbed.

(** a rename or move of an entry below [parent]: the new RDN, whether the old value goes, the new parent *)
Definition renaming (parent : str) (c : call) (new_rdn : str) (clean : bool) (new_parent : str) : Prop :=
  match c with
  | CModDn r k p => r = new_rdn /\ k = clean /\ match p with Some q => q | None => parent end = new_parent
  | CRename r k => r = new_rdn /\ k = clean /\ parent = new_parent
  | CMove d k => dn_parts d new_rdn new_parent /\ k = clean
  | _ => False
  end.
