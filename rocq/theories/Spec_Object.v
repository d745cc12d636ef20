(** * Value semantics for objects: every object has, for each attribute, values of its own *)
From Verif Require Import PyBase Model_CIDict Model_Object.

Section Spec.
  Context (lower : str -> str).

  (** the list an object gives for a name: o[a] *)
  Definition gives (w : world) (i : nat) (a : str) (id : nat) : Prop := snd (step lower w (GetItem i a)) = OList (Ok id).
  Definition list_of (w : world) (i : nat) (a : str) : option nat :=
    match snd (step lower w (GetItem i a)) with OList (Ok id) => Some id | _ => None end.
  (** the values read: list(o[a]), None for KeyError (or no such object) *)
  Definition view (w : world) (i : nat) (a : str) : option (list elt) :=
    match list_of w i a with Some id => Some (vals (w_heap w) id) | None => None end.
  Definition same_name (a b : str) : Prop := lower a = lower b.
  (** nothing any object shows has changed *)
  Definition unchanged (w w' : world) : Prop := forall i a, view w' i a = view w i a.
  (** object i now shows vs for the attribute a, and nothing else has changed *)
  Definition becomes (w w' : world) (i : nat) (a : str) (vs : option (list elt)) : Prop :=
    forall j b, (j = i /\ same_name b a -> view w' j b = vs) /\ (~ (j = i /\ same_name b a) -> view w' j b = view w j b).
  Definition reachable (w : world) : Prop := exists cs, w = run lower start cs.

  (** lists the program made itself *)
  Definition plain (w : world) (id : nat) : Prop := exists vs, nth_error (w_heap w) id = Some (mk_l None vs).

  (** values an attribute may be given *)
  Definition texts (vs : list elt) : Prop := forall e, In e vs -> (exists s, e = EStr s) \/ (exists s, e = EBytes s).
  Definition list_arg (w : world) (r : ref) (vs : list elt) : Prop := exists id, r = RList id /\ vs = vals (w_heap w) id.

  (** what a dictionary gives for a name: the last entry with that name *)
  Fixpoint given_for (kvs : list (name * ref)) (b : str) : option nat :=
    match kvs with
    | [] => None
    | (a, r) :: kvs' =>
        match given_for kvs' b, a, r with
        | Some id, _, _ => Some id
        | None, NStr k, RList id => if str_eqb (lower b) (lower k) then Some id else None
        | None, _, _ => None
        end
    end.
  Definition acceptable (h : heap) (kvs : list (name * ref)) : Prop :=
    forall a r, In (a, r) kvs -> exists k id, a = NStr k /\ r = RList id /\ texts (vals h id).

  (** what iterating over the object yields *)
  Definition items (w : world) (i : nat) : list (str * nat) := match nth_error (w_objs w) i with Some o => cid_items (o_dict o) | None => [] end.
  (** every name it yields is looked up to the list it is yielded with (C02 says when this is so, and
      that it is not always) *)
  Definition tidy (w : world) (i : nat) : Prop := forall k id, In (k, id) (items w i) -> gives w i k id.
  (** ... each list holding only str and bytes *)
  Definition all_texts (w : world) (i : nat) : Prop := forall k id, In (k, id) (items w i) -> texts (vals (w_heap w) id).
  (** names a program writes, in the spelling used; all spelled in one way *)
  Definition spelled (c : call) : list str :=
    let of_name a := match a with NStr k => [k] | NOther => [] end in
    match c with
    | SetItem _ a _ | SetDefault _ a _ => of_name a
    | NewObj _ kvs | Update _ kvs => flat_map (fun kv => of_name (fst kv)) kvs
    | _ => []
    end.
  Definition one_spelling (l : list str) : Prop := forall a b, In a l -> In b l -> same_name a b -> a = b.

  (** ** Equality *)
  Definition same_content (w : world) (i j : nat) : Prop :=
    (forall o p, nth_error (w_objs w) i = Some o -> nth_error (w_objs w) j = Some p -> o_dn o = o_dn p) /\ forall a, view w i a = view w j a.
  (** o_i == o_j *)
  Definition equal (w : world) (i j : nat) : Prop :=
    exists o p, nth_error (w_objs w) i = Some o /\ nth_error (w_objs w) j = Some p /\ obj_eq (w_heap w) o p = true.
End Spec.
