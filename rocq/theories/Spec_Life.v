(** * What objects may ask of a server over their life *)
From Verif Require Import PyBase Model_CIDict Model_Modify Model_Search Model_Dir Model_Request Model_Netgroups Model_Life.

(** the entry a request is about *)
Definition about (q : request) : str :=
  match q with
  | QRead d _ | QSearch d _ _ _ _ | QCompare d _ _ | QAdd d _ | QModify d _ | QDelete d | QModDn d _ _ _ => d
  end.
(** a request that can change the directory *)
Definition changing (q : request) : bool :=
  match q with QRead _ _ | QSearch _ _ _ _ _ | QCompare _ _ _ => false | _ => true end.
Definition changes (q : request) : Prop := changing q = true.
(** an entry, or one whose DN is written as something below it *)
Definition at_or_below (dn d : str) : Prop := d = dn \/ exists r, d = r ++ lit "," ++ dn.

(** the methods that change the DN of the object they are called on *)
Definition renames (c : call) : Prop :=
  match c with CModDn _ _ _ | CRename _ _ | CMove _ _ => True | _ => False end.
(** methods that only look *)
Definition looks (c : call) : Prop :=
  match c with
  | CObj _ _ _ | CGetChild _ _ | CSearch _ _ | CFind _ _ | CCompare _ _ | CHasClass _ | CRefresh _ | CRefreshAll
  | CRefreshMissing _ | CValidate | CValidateModify _ | CSet _ _ | CDel _ => True
  | _ => False
  end.

(** what a call raises on an object that has no connection, whatever the object and the arguments *)
Definition offline_error (c : call) : option exn :=
  match c with
  | CGetChild _ _ | CAddChild _ _ | CDeleteChild _ | CSearch _ _ | CFind _ _ | CCompare _ _ | CRefresh _ | CRefreshAll
  | CModify _ | CReplaceAttrs _ | CDelete | CModDn _ _ _ | CRename _ _ => Some RuntimeError
  | CAddAttrs _ | CDeleteAttrs _ | CValidate | CValidateModify _ => Some AttributeError
  | CObj _ _ true => Some LDAPError
  | _ => None
  end.

(** object number [i] has no connection *)
Definition unconnected (objs : list obj) (i : nat) : Prop := exists o, nth_error objs i = Some o /\ ob_conn o = false.

(** [out] has an empty request list wherever [es] calls object [i] *)
Definition silent_on {S : Type} (i : nat) (es : list (@event S)) (out : list (list request * res value)) : Prop :=
  forall k c, nth_error es k = Some (Do i c) -> exists r, nth_error out k = Some ([], r).

(** what the server is like after answering some requests *)
Definition answered {S : Type} (sv : server S) (s : S) (t : list request) : S := fold_left (fun s q => fst (serve sv s q)) t s.

(** the request for a method of a connected object named [dn], where there is exactly one *)
Definition one_request (dn : str) (c : call) : option request :=
  match c with
  | CCompare a v => Some (QCompare dn a v)
  | CRefresh ats => Some (QRead dn ats)
  | CRefreshAll => Some (QRead dn (Some [lit "*"; lit "+"]))
  | CDelete => Some (QDelete dn)
  | _ => None
  end.
(** ... where the RDN [r] given is complete: contains an equals sign *)
Definition child_request (dn r : str) (c : call) : option request :=
  match c with
  | CGetChild _ ats => Some (QRead (r ++ lit "," ++ dn) ats)
  | CDeleteChild _ => Some (QDelete (r ++ lit "," ++ dn))
  | _ => None
  end.
(** ... a rename of [rdn],[parent], where a new parent may be given *)
Definition rename_request (rdn parent : str) (c : call) : option request :=
  match c with
  | CModDn r clean p => Some (QModDn (rdn ++ lit "," ++ parent) r clean (Some (match p with Some p => p | None => parent end)))
  | CRename r clean => Some (QModDn (rdn ++ lit "," ++ parent) r clean (Some parent))
  | _ => None
  end.
(** a modification with at least one value *)
Definition valued (m : mod_) (c : change) : Prop := exists v l, m_vals m = VList (v :: l) /\ c = mkchange (m_op m) (m_attr m) (v :: l).
Definition rdn_of_call (c : call) : option str :=
  match c with CGetChild r _ | CAddChild r _ | CDeleteChild r | CFind r _ => Some r | _ => None end.
