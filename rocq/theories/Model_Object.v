(** * Model of LDAPObject as a mapping from attribute names to value lists
    /repo/laurelin/ldap/ldapobject.py: __init__, __eq__, __ne__, __setitem__ (50-79);
    attrvaluelist.py: AttrValueList.__init__ (13-15); attrsdict.py: get_attr, deepcopy, __init__,
    __contains__, __setitem__, setdefault, update, validate... (13-111), utils.py: CaseIgnoreDict (124-171).
    Lists are mutable and shared by reference, so they live in a heap here: a list is a number.
    Simplifications: matching rules of AttrValueList are in Model_Modify and Model_Schema; a name that
    is looked up is a str; naming an object or list that does not exist is a NameError. *)
From Verif Require Import PyBase Model_CIDict.

Definition NameError : exn := OtherExn 41.

(** elements of lists: str, bytes, anything else (numbered by equality) *)
Inductive elt := EStr (s : str) | EBytes (s : str) | EOther (n : nat).
Definition elt_eqb (a b : elt) : bool :=
  match a, b with
  | EStr s, EStr t => str_eqb s t
  | EBytes s, EBytes t => str_eqb s t
  | EOther n, EOther m => Nat.eqb n m
  | _, _ => false
  end.
Definition is_text (e : elt) : bool := match e with EOther _ => false | _ => true end.
(** attribute names: str or anything else *)
Inductive name := NStr (s : str) | NOther.

(** a list object: AttrValueList(attr, values) - attrvaluelist.py:13-15 - or a plain list *)
Record lst := mk_l { l_attr : option str; l_vals : list elt }.
Definition heap := list lst.
Definition alloc (h : heap) (l : lst) : heap * nat := (h ++ [l], List.length h).
Definition vals (h : heap) (id : nat) : list elt := match nth_error h id with Some l => l_vals l | None => [] end.
Fixpoint upd {A} (l : list A) (i : nat) (f : A -> A) : list A :=
  match l, i with
  | [], _ => []
  | x :: l', O => f x :: l'
  | x :: l', S i' => x :: upd l' i' f
  end.

(** what is passed as a value list *)
Inductive ref := RList (id : nat) | RDeleteAll | ROther.

(** validate_attr, validate_values: attrsdict.py:84-111 *)
Definition check_attr (a : name) : res str := match a with NStr s => Ok s | NOther => Raise TypeError end.
Definition check_vals (h : heap) (r : ref) : res unit :=
  match r with
  | RDeleteAll => Ok tt
  | RList id => if forallb is_text (vals h id) then Ok tt else Raise TypeError
  | ROther => Raise TypeError
  end.

Record mobj := mk_o { o_dn : str; o_dict : cid nat }.
Record world := mk_w { w_heap : heap; w_objs : list mobj }.

Section Obj.
  Context (lower : str -> str).

  (** LDAPObject.__setitem__: ldapobject.py:75-79; AttrsDict.__setitem__: attrsdict.py:48-51 *)
  Definition od_set (h : heap) (d : cid nat) (a : name) (r : ref) : heap * cid nat * res unit :=
    match r with
    | RList id =>
        match check_attr a with
        | Raise e => (h, d, Raise e)
        | Ok k =>
            let (h', id') := alloc h (mk_l (Some k) (vals h id)) in
            match check_vals h' (RList id') with
            | Raise e => (h', d, Raise e)
            | Ok _ => (h', cid_set lower d k id', Ok tt)
            end
        end
    | _ => (h, d, Raise TypeError)
    end.

  (** setdefault: attrsdict.py:53-61, utils.py:135-140; returns the list found, or the default *)
  Definition od_setdefault (h : heap) (d : cid nat) (a : name) (dflt : option ref) : heap * cid nat * res nat :=
    match check_attr a with
    | Raise e => (h, d, Raise e)
    | Ok k =>
        let '(h, r) := match dflt with None => let (h', id) := alloc h (mk_l None []) in (h', RList id) | Some r => (h, r) end in
        match check_vals h r with
        | Raise e => (h, d, Raise e)
        | Ok _ =>
            match cid_get lower d k with
            | Ok id => (h, d, Ok id)
            | Raise _ =>
                match od_set h d a r with
                | (h', d', Ok _) => (h', d', match r with RList id => Ok id | _ => Raise TypeError end)
                | (h', d', Raise e) => (h', d', Raise e)
                end
            end
        end
    end.

  (** validate of a plain dict: attrsdict.py:67-82 *)
  Fixpoint check_dict (h : heap) (kvs : list (name * ref)) : res unit :=
    match kvs with
    | [] => Ok tt
    | (a, r) :: kvs' => let* _ := check_attr a in let* _ := check_vals h r in check_dict h kvs'
    end.
  (** the loop of CaseIgnoreDict.update: utils.py:159-161 *)
  Fixpoint od_set_all (h : heap) (d : cid nat) (kvs : list (name * ref)) : heap * cid nat * res unit :=
    match kvs with
    | [] => (h, d, Ok tt)
    | (a, r) :: kvs' =>
        match od_set h d a r with
        | (h', d', Ok _) => od_set_all h' d' kvs'
        | (h', d', Raise e) => (h', d', Raise e)
        end
    end.
  (** AttrsDict.update: attrsdict.py:63-65 *)
  Definition od_update (h : heap) (d : cid nat) (kvs : list (name * ref)) : heap * cid nat * res unit :=
    match check_dict h kvs with
    | Raise e => (h, d, Raise e)
    | Ok _ => od_set_all h d kvs
    end.
  (** ... with another object: it is an AttrsDict, so not validated *)
  Fixpoint od_copy (h : heap) (d other : cid nat) (ks : list str) : heap * cid nat * res unit :=
    match ks with
    | [] => (h, d, Ok tt)
    | k :: ks' =>
        match cid_get lower other k with
        | Raise e => (h, d, Raise e)
        | Ok id =>
            match od_set h d (NStr k) (RList id) with
            | (h', d', Ok _) => od_copy h' d' other ks'
            | (h', d', Raise e) => (h', d', Raise e)
            end
        end
    end.
  (** ... with itself: what is read changes while the loop runs *)
  Fixpoint od_copy_self (h : heap) (d : cid nat) (ks : list str) : heap * cid nat * res unit :=
    match ks with
    | [] => (h, d, Ok tt)
    | k :: ks' =>
        match cid_get lower d k with
        | Raise e => (h, d, Raise e)
        | Ok id =>
            match od_set h d (NStr k) (RList id) with
            | (h', d', Ok _) => od_copy_self h' d' ks'
            | (h', d', Raise e) => (h', d', Raise e)
            end
        end
    end.

  (** deepcopy: attrsdict.py:28-35 *)
  Fixpoint deep (h : heap) (items : list (str * nat)) : heap * list (str * nat) :=
    match items with
    | [] => (h, [])
    | (a, id) :: r =>
        let (h1, id') := alloc h (mk_l None (vals h id)) in
        let (h2, r') := deep h1 r in (h2, (a, id') :: r')
    end.

  (** ** Programs *)
  Inductive call :=
  | NewList (l : list elt)                                (* a list made by the program *)
  | NewObj (dn : str) (kvs : list (name * ref))           (* LDAPObject(dn, {...}): ldapobject.py:50-60 *)
  | NewObjFrom (dn : str) (j : nat)                       (* LDAPObject(dn, other object) *)
  | SetItem (i : nat) (a : name) (r : ref)
  | SetDefault (i : nat) (a : name) (r : option ref)
  | Update (i : nat) (kvs : list (name * ref))
  | UpdateFrom (i j : nat)
  | DelItem (i : nat) (a : str)
  | Clear (i : nat)
  | GetItem (i : nat) (a : str)
  | GetAttr (i : nat) (a : str)                           (* get_attr: attrsdict.py:13-20 *)
  | WriteList (id : nat) (l : list elt)                   (* any change of a list in place: append, remove, del l[n], ... *)
  | DeepCopy (i : nat).
  Inductive out := OUnit (r : res unit) | OList (r : res nat) | OObj (r : res nat) | ODict (r : res (list (str * nat))).

  Definition with_obj {X} (w : world) (i : nat) (bad : exn -> X) (f : heap -> cid nat -> heap * cid nat * X) : world * X :=
    match nth_error (w_objs w) i with
    | None => (w, bad NameError)
    | Some o => let '(h, d, x) := f (w_heap w) (o_dict o) in (mk_w h (upd (w_objs w) i (fun o => mk_o (o_dn o) d)), x)
    end.
  Definition bad_unit (e : exn) : out := OUnit (Raise e).
  Definition bad_list (e : exn) : out := OList (Raise e).
  Definition out_unit (x : heap * cid nat * res unit) : heap * cid nat * out := let '(h, d, r) := x in (h, d, OUnit r).
  Definition out_list (x : heap * cid nat * res nat) : heap * cid nat * out := let '(h, d, r) := x in (h, d, OList r).
  Definition made_obj (w : world) (dn : str) (x : heap * cid nat * res unit) : world * out :=
    match x with
    | (h, d, Ok _) => (mk_w h (w_objs w ++ [mk_o dn d]), OObj (Ok (List.length (w_objs w))))
    | (h, _, Raise e) => (mk_w h (w_objs w), OObj (Raise e))
    end.

  Definition step (w : world) (c : call) : world * out :=
    match c with
    | NewList l => let (h, id) := alloc (w_heap w) (mk_l None l) in (mk_w h (w_objs w), OList (Ok id))
    | NewObj dn kvs => made_obj w dn (od_update (w_heap w) cid_empty kvs)
    | NewObjFrom dn j =>
        match nth_error (w_objs w) j with
        | None => (w, OObj (Raise NameError))
        | Some o => made_obj w dn (od_copy (w_heap w) cid_empty (o_dict o) (cid_keys (o_dict o)))
        end
    | SetItem i a r => with_obj w i bad_unit (fun h d => out_unit (od_set h d a r))
    | SetDefault i a r => with_obj w i bad_list (fun h d => out_list (od_setdefault h d a r))
    | Update i kvs => with_obj w i bad_unit (fun h d => out_unit (od_update h d kvs))
    | UpdateFrom i j =>
        match nth_error (w_objs w) j with
        | None => (w, OUnit (Raise NameError))
        | Some o => with_obj w i bad_unit (fun h d => out_unit
            (if Nat.eqb i j then od_copy_self h d (cid_keys d) else od_copy h d (o_dict o) (cid_keys (o_dict o))))
        end
    | DelItem i a => with_obj w i bad_unit (fun h d => let (d', r) := cid_del lower d a in (h, d', OUnit r))
    | Clear i => with_obj w i bad_unit (fun h d => (h, cid_clear d, OUnit (Ok tt)))
    | GetItem i a => with_obj w i bad_list (fun h d => (h, d, OList (cid_get lower d a)))
    | GetAttr i a => with_obj w i bad_list (fun h d =>
        match cid_get lower d a with
        | Ok id => (h, d, OList (Ok id))
        | Raise _ => let (h', id) := alloc h (mk_l None []) in (h', d, OList (Ok id))
        end)
    | WriteList id l =>
        match nth_error (w_heap w) id with
        | None => (w, OUnit (Raise NameError))
        | Some _ => (mk_w (upd (w_heap w) id (fun x => mk_l (l_attr x) l)) (w_objs w), OUnit (Ok tt))
        end
    | DeepCopy i =>
        match nth_error (w_objs w) i with
        | None => (w, ODict (Raise NameError))
        | Some o => let (h, r) := deep (w_heap w) (cdata (o_dict o)) in (mk_w h (w_objs w), ODict (Ok r))
        end
    end.
  Fixpoint run (w : world) (cs : list call) : world :=
    match cs with [] => w | c :: cs' => run (fst (step w c)) cs' end.
  Definition start : world := mk_w [] [].

  (** ** Equality: ldapobject.py:64-73.  dict.__eq__ compares the stored entries, lists element by
      element; [cid_keys] and case folding play no part. *)
  Fixpoint elts_eqb (a b : list elt) : bool :=
    match a, b with
    | [], [] => true
    | x :: a', y :: b' => elt_eqb x y && elts_eqb a' b'
    | _, _ => false
    end.
  Definition dict_eq (h : heap) (d1 d2 : cid nat) : bool :=
    Nat.eqb (cid_len d1) (cid_len d2) &&
    forallb (fun kv => match dget (cdata d2) (fst kv) with Some id => elts_eqb (vals h (snd kv)) (vals h id) | None => false end) (cdata d1).
  Definition obj_eq (h : heap) (o1 o2 : mobj) : bool := str_eqb (o_dn o1) (o_dn o2) && dict_eq h (o_dict o1) (o_dict o2).
  Definition obj_ne (h : heap) (o1 o2 : mobj) : bool := negb (obj_eq h o1 o2).
  (** AttrsDict.__contains__: attrsdict.py:42-46 *)
  Definition obj_contains (h : heap) (o : mobj) (a : str) : bool :=
    match cid_get lower (o_dict o) a with Ok id => Nat.ltb 0 (List.length (vals h id)) | Raise _ => false end.
End Obj.
