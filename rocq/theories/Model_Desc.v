(** * Model of structured descriptions
    /repo/laurelin/extensions/descattrs.py
    Python lists are shared by reference, and this extension stores lists its caller passes in, so
    lists live in a heap here. Simplifications: description values and all request values are
    strings, request values are lists (not DELETE_ALL), requests are plain dicts; the object has a
    connection (_require_ldap, line 86, passes). *)
From Verif Require Import PyBase Model_CIDict Model_Modify Model_Search Model_Dir.
Local Open Scope nat_scope.

(** ** Lists by reference *)
Definition loc := nat.
Definition heap := list (list str).
Definition hget (h : heap) (l : loc) : list str := nth l h [].
Fixpoint hset (h : heap) (l : loc) (v : list str) : heap :=
  match h, l with
  | [], _ => []
  | _ :: h', 0 => v :: h'
  | x :: h', S l' => x :: hset h' l' v
  end.
(** a new list *)
Definition hnew (h : heap) (v : list str) : heap * loc := (h ++ [v], List.length h).
(** a dict literal whose values are new lists *)
Definition alloc_req (h : heap) (req : list (str * list str)) : heap * list (str * loc) :=
  (h ++ map snd req, combine (map fst req) (seq (List.length h) (List.length req))).

(** list.remove(val), ValueError ignored (lines 170-173) *)
Fixpoint remove1 (v : str) (l : list str) : list str :=
  match l with
  | [] => []
  | x :: l' => if str_eqb x v then l' else x :: remove1 v l'
  end.
(** set.add *)
Definition set_add (u : list str) (x : str) : list str := if smem x u then u else u ++ [x].

(** The extension's state: _desc_dict and _unstructured_desc. descattrs.py:58-59 *)
Record desc := mk_desc { dd : cid loc; du : list str }.

Section Desc.
  Context (lower : str -> str).

  (** AttrsDict.__contains__: attrsdict.py:42-46 *)
  Definition d_contains (h : heap) (d : cid loc) (a : str) : bool :=
    match cid_get lower d a with
    | Ok l => match hget h l with [] => false | _ => true end
    | Raise _ => false
    end.

  (** the loop of __init__: descattrs.py:60-66 *)
  Definition init1 (hd : heap * desc) (s : str) : heap * desc :=
    let (h, d) := hd in
    match split1 (ch "=") s with
    | Ok (key, value) =>
        let (h1, fresh) := hnew h [] in
        match cid_setdefault lower (dd d) key fresh with
        | (dd', Ok vals) => (hset h1 vals (hget h1 vals ++ [value]), mk_desc dd' (du d))
        | (dd', Raise _) => (h1, mk_desc dd' (du d))
        end
    | Raise _ => (h, mk_desc (dd d) (set_add (du d) s))
    end.
  Definition init_from (h : heap) (descs : list str) : heap * desc :=
    fold_left init1 descs (h, mk_desc cid_empty []).

  (** _dict_mod_add: descattrs.py:123-139. The inner loop never changes the list it runs over: if
      [vals] is the stored list itself, every value is already in it. *)
  Fixpoint add_vals (h : heap) (d : cid loc) (a : str) (vs : list str) : heap :=
    match vs with
    | [] => h
    | v :: vs' =>
        match cid_get lower d a with
        | Ok l => add_vals (if smem v (hget h l) then h else hset h l (hget h l ++ [v])) d a vs'
        | Raise _ => add_vals h d a vs'
        end
    end.
  Fixpoint mod_add (h : heap) (d : cid loc) (req : list (str * loc)) : heap * cid loc :=
    match req with
    | [] => (h, d)
    | (a, vals) :: req' =>
        if negb (d_contains h d a) then mod_add h (cid_set lower d a vals) req'
        else mod_add (add_vals h d a (hget h vals)) d req'
    end.

  (** _dict_mod_replace: descattrs.py:142-152 *)
  Definition mod_replace (h : heap) (d : cid loc) (req : list (str * loc)) : heap * cid loc :=
    (h, cid_update lower d req).

  (** for val in delVals: to_dict[attr].remove(val), the iterator reading delVals[i] at each turn
      (the list may shrink under it). At most len(delVals) turns, since it never grows.
      descattrs.py:169-173 *)
  Fixpoint del_vals (fuel : nat) (i : nat) (h : heap) (d : cid loc) (a : str) (dl : loc) : heap :=
    match fuel with
    | 0 => h
    | S f =>
        match nth_error (hget h dl) i with
        | None => h
        | Some v =>
            match cid_get lower d a with
            | Ok l => del_vals f (S i) (hset h l (remove1 v (hget h l))) d a dl
            | Raise _ => del_vals f (S i) h d a dl
            end
        end
    end.
  (** _dict_mod_delete: descattrs.py:155-175 *)
  Fixpoint mod_delete (h : heap) (d : cid loc) (req : list (str * loc)) : heap * cid loc :=
    match req with
    | [] => (h, d)
    | (a, dl) :: req' =>
        if d_contains h d a then
          match hget h dl with
          | [] => mod_delete h (fst (cid_del lower d a)) req'
          | l => mod_delete (del_vals (List.length l) 0 h d a dl) d req'
          end
        else mod_delete h d req'
    end.

  Inductive method := MAdd | MReplace | MDelete.
  Definition run_method (m : method) : heap -> cid loc -> list (str * loc) -> heap * cid loc :=
    match m with MAdd => mod_add | MReplace => mod_replace | MDelete => mod_delete end.

  (** the description values built from the state; [order]: the order in which the set is listed.
      descattrs.py:88-93 *)
  Definition desc_strings (h : heap) (d : cid loc) : list str :=
    flat_map (fun kl => map (fun v => fst kl ++ [ch "="] ++ v) (hget h (snd kl))) (cid_items d).
  Definition written (order : list str -> list str) (h : heap) (d : desc) : list str :=
    desc_strings h (dd d) ++ order (du d).

  (** __iter__, __getitem__, __contains__: descattrs.py:68-76 *)
  Definition desc_iter (d : desc) : list str := cid_keys (dd d).
  Definition desc_getitem (h : heap) (d : desc) (a : str) : res (list str) :=
    let* l := cid_get lower (dd d) a in Ok (hget h l).
  Definition desc_contains (h : heap) (d : desc) (a : str) : bool := d_contains h (dd d) a.

  Section Client.
    Context {S : Type} (sv : server S) (idx : str -> list str -> str -> res nat).
    Context (unbound : bool) (flags : empty_flags).
    Context (validate_mod : str -> list mod_ -> option lobj -> res unit) (order : list str -> list str).

    (** __init__: descattrs.py:55-66; get_attr gives [] when there is no such attribute
        (attrsdict.py:13-20) *)
    Definition desc_init (s : S) (o : lobj) (h : heap) : lobj * res (heap * desc) :=
      match obj_refresh_missing sv lower unbound s o [lit "description"] with
      | (o1, Raise e) => (o1, Raise e)
      | (o1, Ok _) =>
          (o1, let* vs := cid_get_default lower (o_attrs o1) (lit "description") [] in
               Ok (init_from h vs))
      end.

    (** _modify_desc_attrs: descattrs.py:78-93, with add, replace, delete (95-120). The dict is
        changed before the request is made. *)
    Definition desc_modify (m : method) (s : S) (o : lobj) (h : heap) (d : desc) (req : list (str * loc))
        : S * lobj * heap * desc * res unit :=
      let (h1, dd1) := run_method m h (dd d) req in
      let d1 := mk_desc dd1 (du d) in
      let '(s', o', r) := obj_replace_attrs sv lower idx unbound flags validate_mod s o
                            [(lit "description", VList (written order h1 d1))] in
      (s', o', h1, d1, r).

    (** the same, called with a dict of new lists *)
    Definition desc_call (m : method) (s : S) (o : lobj) (h : heap) (d : desc) (req : list (str * list str))
        : S * lobj * heap * desc * res unit :=
      let (h1, req1) := alloc_req h req in desc_modify m s o h1 d req1.

    (** any number of calls, with their results *)
    Fixpoint desc_run (s : S) (o : lobj) (h : heap) (d : desc) (calls : list (method * list (str * list str)))
        : S * lobj * heap * desc * list (res unit) :=
      match calls with
      | [] => (s, o, h, d, [])
      | (m, req) :: calls' =>
          let '(s1, o1, h1, d1, r) := desc_call m s o h d req in
          let '(s2, o2, h2, d2, rs) := desc_run s1 o1 h1 d1 calls' in
          (s2, o2, h2, d2, r :: rs)
      end.
  End Client.
End Desc.
