(** * Specifications for value lookup, modlists and the modify operation *)
From Verif Require Import PyBase Model_CIDict Model_Modify.

(** ** Lookup: "i is the first position whose element satisfies P" *)
Definition first_at {A} (P : A -> Prop) (l : list A) (i : nat) : Prop :=
  (exists x, nth_error l i = Some x /\ P x) /\
  forall j y, j < i -> nth_error l j = Some y -> ~ P y.

(** The attribute type's own code never uses ValueError to reject a value (it
    raises InvalidSyntaxError / ProhibitedCharacterError etc.). *)
Definition never_value_error (t : attr_type) : Prop :=
  (forall v, at_validate t v <> Raise ValueError) /\
  (forall v, at_prepare t v <> Raise ValueError) /\
  (forall p a, at_do_match t p a <> Raise ValueError).

(** ** Add / delete requests, stated over the value lists. *)
Section Requests.
  Variable lower : str -> str.
  Variable idx : str -> list str -> str -> res nat.

  (** The current object has attribute [a], with these values. *)
  Definition cur_vals (cur : attrs) (a : str) : list str :=
    match cid_get lower cur a with Ok l => l | Raise _ => [] end.

  (** "the object has a value matching v" / "it has none" *)
  Definition has_value (cur : attrs) (a v : str) : bool :=
    match idx a (cur_vals cur a) v with Ok _ => true | Raise _ => false end.

  (** One ADD modification per attribute with something missing. *)
  Definition adds_for (cur : attrs) (av : str * vals) : list mod_ :=
    match cur_vals cur (fst av), snd av with
    | [], v => [mkmod ADD (fst av) v]
    | _, VList l =>
        match filter (fun v => negb (has_value cur (fst av) v)) l with
        | [] => []
        | l' => [mkmod ADD (fst av) (VList l')]
        end
    | _, VDeleteAll => []
    end.

  (** One DELETE modification per present attribute with something to delete. *)
  Definition deletes_for (cur : attrs) (av : str * vals) : list mod_ :=
    match cur_vals cur (fst av), snd av with
    | [], _ => []
    | _, VDeleteAll => [mkmod DELETE (fst av) VDeleteAll]
    | _, VList [] => [mkmod DELETE (fst av) (VList [])]
    | _, VList l =>
        match filter (has_value cur (fst av)) l with
        | [] => []
        | l' => [mkmod DELETE (fst av) (VList l')]
        end
    end.

  (** Lookups of the requested values only ever report "found" or "not found"
      (the assertion values are valid and no rule misbehaves). *)
  Definition lookups_clean (cur : attrs) (req : list (str * vals)) : Prop :=
    forall a l v, In (a, VList l) req -> cur_vals cur a <> [] -> In v l ->
      (exists i, idx a (cur_vals cur a) v = Ok i) \/
      idx a (cur_vals cur a) v = Raise ValueError.
End Requests.

(** ** A reference LDAP server entry (RFC 4511 section 4.6) *)
Section Server.
  Variable lower : str -> str.
  (** the attribute's equality rule: does stored value [x] match [v]? *)
  Variable eqv : str -> str -> str -> bool.

  (** Values of each attribute, by folded name; [] means the attribute is absent. *)
  Definition entry := str -> list str.
  Definition eput (e : entry) (a : str) (l : list str) : entry :=
    fun n => if str_eqb n (lower a) then l else e n.

  Fixpoint srv_add (a : str) (l vs : list str) : option (list str) :=
    match vs with
    | [] => Some l
    | v :: vs' => if existsb (fun x => eqv a x v) l then None   (* attributeOrValueExists *)
                  else srv_add a (l ++ [v]) vs'
    end.

  Fixpoint srv_remove1 (a : str) (l : list str) (v : str) : option (list str) :=
    match l with
    | [] => None                                                 (* noSuchAttribute *)
    | x :: l' => if eqv a x v then Some l'
                 else option_map (fun r => x :: r) (srv_remove1 a l' v)
    end.

  Fixpoint srv_remove (a : str) (l vs : list str) : option (list str) :=
    match vs with
    | [] => Some l
    | v :: vs' => match srv_remove1 a l v with
                  | Some l' => srv_remove a l' vs'
                  | None => None
                  end
    end.

  Definition srv_apply1 (e : entry) (c : change) : option entry :=
    let a := c_attr c in
    let l := e (lower a) in
    match c_op c with
    | ADD => match c_vals c with
             | [] => None                                        (* protocolError *)
             | vs => option_map (eput e a) (srv_add a l vs)
             end
    | REPLACE => Some (eput e a (c_vals c))
    | DELETE =>
        match l with
        | [] => None                                             (* noSuchAttribute *)
        | _ => match c_vals c with
               | [] => Some (eput e a [])
               | vs => option_map (eput e a) (srv_remove a l vs)
               end
        end
    end.

  Fixpoint srv_apply (e : entry) (cs : list change) : option entry :=
    match cs with
    | [] => Some e
    | c :: cs' => match srv_apply1 e c with
                  | Some e' => srv_apply e' cs'
                  | None => None
                  end
    end.

  (** The local object shows exactly the server's values. *)
  Definition mirrors (d : attrs) (e : entry) : Prop :=
    forall k, e (lower k) = match cid_get lower d k with Ok l => l | Raise _ => [] end.

  (** The local lookup implements the server's equality rule. *)
  Fixpoint first_match (p : str -> bool) (l : list str) (i : nat) : option nat :=
    match l with
    | [] => None
    | x :: l' => if p x then Some i else first_match p l' (S i)
    end.
  Definition same_rule (idx : str -> list str -> str -> res nat) : Prop :=
    forall a l v, idx a l v =
      match first_match (fun x => eqv a x v) l 0 with
      | Some i => Ok i
      | None => Raise ValueError
      end.

  (** What a Mod asks the server to do. *)
  Definition change_of (m : mod_) : change :=
    mkchange (m_op m) (m_attr m)
             (match m_vals m with VList l => l | VDeleteAll => [] end).

  (** The modlist contains no request the code treats differently locally and
      remotely: no empty list that the connection is configured to skip, and no
      "replace with nothing" of an attribute the entry does not have. *)
  Fixpoint safe (f : empty_flags) (e : entry) (ms : list mod_) : Prop :=
    match ms with
    | [] => True
    | m :: ms' =>
        (m_op m <> ADD -> m_vals m = VList [] -> ignore_empty_list f = false) /\
        (m_op m = REPLACE -> vtrue (m_vals m) = false -> e (lower (m_attr m)) <> []) /\
        (forall e', srv_apply1 e (change_of m) = Some e' -> safe f e' ms')
    end.
End Server.

(** "No two stored values match the same value": what a server guarantees. *)
Definition values_distinct (lower : str -> str) (eqv : str -> str -> str -> bool)
  (d : attrs) : Prop :=
  forall a v, List.length (filter (fun x => eqv a x v) (cur_vals lower d a)) <= 1.

(** Invariant of a case-insensitive dict (shown to hold in every reachable
    state): the key index and the data agree. *)
Definition dict_ok (lower : str -> str) {V} (d : cid V) : Prop :=
  NoDup (map fst (ckeys d)) /\ NoDup (map fst (cdata d)) /\
  (forall l k, dget (ckeys d) l = Some k ->
     lower k = l /\ exists v, dget (cdata d) k = Some v).

(** ** What LDAP.modify should put on the wire *)

(** A replace/delete with an explicit empty list (not DELETE_ALL). *)
Definition empty_rd (m : mod_) : bool :=
  match m_op m, m_vals m with
  | REPLACE, VList [] | DELETE, VList [] => true
  | _, _ => false
  end.

(** The changes to send, in order, when no error is to be raised. *)
Definition wanted (ignore_empty : bool) (ms : list mod_) : list change :=
  map change_of (filter (fun m => negb (empty_rd m && ignore_empty)) ms).

(** Mods as the constructor makes them: an ADD always has values. *)
Definition constructed (m : mod_) : Prop := new_mod (m_op m) (m_attr m) (m_vals m) = Ok m.
