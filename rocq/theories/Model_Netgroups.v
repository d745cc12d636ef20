(** * Model of laurelin.extensions.netgroups
    /repo/laurelin/extensions/netgroups.py: triples, member lists, direct and
    recursive member lookups, and the modifying methods on top of
    LDAP.add_attrs / replace_attrs / delete_attrs (Model_Dir). *)
From Verif Require Import PyBase Model_CIDict Model_Modify Model_Search Model_Dir.

(** ** Triples *)

(** A regex group of any number of characters other than [c], followed by [c]: the text before the first [c] and what follows it. *)
Fixpoint upto (c : N) (s : str) : option (str * str) :=
  match s with
  | [] => None
  | x :: s' =>
      if N.eqb x c then Some ([], s')
      else match upto c s' with
           | Some (a, r) => Some (x :: a, r)
           | None => None
           end
  end.

(** TRIPLE_RE.match: _TRIPLE_RE is an opening parenthesis, a group of non-commas, a comma, a
    group of non-commas, a comma, a group of characters other than a closing parenthesis, a closing
    parenthesis and [$], anchored at the start; the final [$] also
    matches before a newline that ends the string.
    /repo/laurelin/extensions/netgroups.py:89, 405 *)
Definition triple_match (s : str) : option (str * str * str) :=
  match s with
  | [] => None
  | x :: s0 =>
      if N.eqb x (ch "(") then
        match upto (ch ",") s0 with
        | None => None
        | Some (h, s1) =>
            match upto (ch ",") s1 with
            | None => None
            | Some (u, s2) =>
                match upto (ch ")") s2 with
                | None => None
                | Some (d, s3) =>
                    match s3 with
                    | [] => Some (h, u, d)
                    | [y] => if N.eqb y 10 then Some (h, u, d) else None
                    | _ => None
                    end
                end
            end
        end
      else None
  end.

(** _is_triple: netgroups.py:412-413 *)
Definition is_triple (s : str) : bool := match triple_match s with Some _ => true | None => false end.

(** A field of a tuple is a string or None; [if not host: host = ''].
    Simplification: other objects (which str.format would print) are left out. *)
Definition field := option str.
Definition field_str (f : field) : str := match f with Some s => s | None => [] end.

(** _nis_netgroup_triple: netgroups.py:416-423 *)
Definition nis_netgroup_triple (host user domain : field) : str :=
  lit "(" ++ field_str host ++ lit "," ++ field_str user ++ lit "," ++ field_str domain ++ lit ")".

Definition TRIPLE : str := lit "nisNetgroupTriple".
Definition MEMBER : str := lit "memberNisNetgroup".

(** m.group(1), m.group(2) *)
Definition group1 (t : str * str * str) : str := fst (fst t).
Definition group2 (t : str * str * str) : str := snd (fst t).

(** the loop of _extract_triple_field: netgroups.py:428-434 *)
Fixpoint extract_loop (field : str * str * str -> str) (l : list str) : res (list str) :=
  match l with
  | [] => Ok []
  | t :: l' =>
      match triple_match t with
      | None => Raise LDAPError
      | Some m => let* r := extract_loop field l' in Ok (field m :: r)
      end
  end.

(** ** Member lists *)

(** An element of a member list: str, tuple, or anything else. *)
Inductive member := MStr (s : str) | MTuple (l : list field) | MOther.
(** The argument [members]: a list, or a single element.  netgroups.py:438-439 *)
Inductive members := MList (l : list member) | MOne (m : member).
Definition member_list (m : members) : list member := match m with MList l => l | MOne x => [x] end.

(** the body of the loop of _member_user_list_to_attrs, giving the attribute name
    and the value: netgroups.py:442-460 *)
Definition user_member (domain : field) (m : member) : res (str * str) :=
  match m with
  | MStr [] => Raise IndexError
  | MStr (x :: s) =>
      if N.eqb x (ch "+") then Ok (MEMBER, s)
      else if negb (is_triple (x :: s)) then Ok (TRIPLE, nis_netgroup_triple (Some []) (Some (x :: s)) domain)
      else Ok (TRIPLE, x :: s)
  | MTuple [h; u] => Ok (TRIPLE, nis_netgroup_triple h u domain)
  | MTuple [h; u; d] => Ok (TRIPLE, nis_netgroup_triple h u d)
  | MTuple _ => Raise ValueError
  | MOther => Raise TypeError
  end.

(** the same for _member_host_list_to_attrs: netgroups.py:472-490 *)
Definition host_member (domain : field) (m : member) : res (str * str) :=
  match m with
  | MStr [] => Raise IndexError
  | MStr (x :: s) =>
      if N.eqb x (ch "+") then Ok (MEMBER, s)
      else if negb (is_triple (x :: s)) then Ok (TRIPLE, nis_netgroup_triple (Some (x :: s)) (Some []) domain)
      else Ok (TRIPLE, x :: s)
  | MTuple [h] => Ok (TRIPLE, nis_netgroup_triple h (Some []) domain)
  | MTuple [h; u] => Ok (TRIPLE, nis_netgroup_triple h u domain)
  | MTuple [h; u; d] => Ok (TRIPLE, nis_netgroup_triple h u d)
  | MTuple _ => Raise ValueError
  | MOther => Raise TypeError
  end.

(** [if attr not in attrs: attrs[attr] = []; attrs[attr].append(member)]: 461-463, 491-493 *)
Definition append_to (d : list (str * list str)) (a v : str) : list (str * list str) :=
  match dget d a with
  | Some l => dset d a (l ++ [v])
  | None => dset d a [v]
  end.

(** the loops of the two functions: netgroups.py:440-464, 470-494 *)
Fixpoint members_loop (one : member -> res (str * str)) (ms : list member)
  (d : list (str * list str)) : res (list (str * list str)) :=
  match ms with
  | [] => Ok d
  | m :: ms' =>
      match one m with
      | Raise e => Raise e
      | Ok (a, v) => members_loop one ms' (append_to d a v)
      end
  end.

(** _member_user_list_to_attrs: netgroups.py:437-464 *)
Definition user_list_to_attrs (ms : members) (domain : field) : res (list (str * list str)) :=
  members_loop (user_member domain) (member_list ms) [].
(** _member_host_list_to_attrs: netgroups.py:467-494 *)
Definition host_list_to_attrs (ms : members) (domain : field) : res (list (str * list str)) :=
  members_loop (host_member domain) (member_list ms) [].

(** ** Lookups *)
Section Lookup.
  Context (lower : str -> str).
  (** [self.get(cn)], i.e. [self.parent.tag(TAG).find(cn, attrs)]: netgroups.py:140-153.  The
      directory is static: the same name gives the same answer during one call. *)
  Context (find : str -> res attrs).

  (** [ng_obj.get('nisNetgroupTriple', [])] and the loop: netgroups.py:426-434 *)
  Definition extract_triple_field (field : str * str * str -> str) (o : attrs) : res (list str) :=
    let* l := cid_get_default lower o TRIPLE [] in extract_loop field l.

  (** get_obj_users / get_obj_hosts together with get_users / get_hosts, which differ only in
      the group number: netgroups.py:171-229.  [depth] is the number of nested calls Python's
      recursion limit still allows; exceeding it raises RecursionError. *)
  Fixpoint obj_members (field : str * str * str -> str) (depth : nat) (o : attrs) (recursive : bool)
    : res (list str) :=
    let* own := extract_triple_field field o in
    if recursive && ahas lower o MEMBER then
      let* ms := cid_get lower o MEMBER in
      match depth with
      | O => Raise RecursionError
      | S depth' =>
          (fix loop (ms : list str) (users : list str) : res (list str) :=
             match ms with
             | [] => Ok users
             | m :: ms' =>
                 let* o' := find m in
                 let* more := obj_members field depth' o' true in
                 loop ms' (users ++ more)
             end) ms own
      end
    else Ok own.

  (** get_obj_users: netgroups.py:171-184 *)
  Definition get_obj_users := obj_members group2.
  (** get_obj_hosts: netgroups.py:201-214 *)
  Definition get_obj_hosts := obj_members group1.
  (** get_users: netgroups.py:186-199 *)
  Definition get_users (depth : nat) (cn : str) (recursive : bool) : res (list str) :=
    let* o := find cn in get_obj_users depth o recursive.
  (** get_hosts: netgroups.py:216-229 *)
  Definition get_hosts (depth : nat) (cn : str) (recursive : bool) : res (list str) :=
    let* o := find cn in get_obj_hosts depth o recursive.

  (** LaurelinLDAPObjectExtension.get_users/get_hosts pass [self], the extension object, on to
      get_obj_users/get_obj_hosts; its attributes are its class's methods and [parent].  The
      first thing done with it is to look up the attribute [get].
      netgroups.py:307-327, 428; user_base.py:20-26 *)
  Definition object_ext_attributes : list str :=
    [lit "parent"; lit "_require_netgroup"; lit "get_users"; lit "get_hosts"; lit "add_users"; lit "add_hosts";
     lit "replace_users"; lit "replace_hosts"; lit "delete_users"; lit "delete_hosts"].
  Definition ext_getattr (name : str) : res unit :=
    if smem name object_ext_attributes then Ok tt else Raise AttributeError.
  (** _require_netgroup: netgroups.py:299-305 *)
  Definition require_netgroup (has_object_class : res bool) : res unit :=
    let* b := has_object_class in if b then Ok tt else Raise RuntimeError.
  Definition ext_get_users (has_object_class : res bool) (depth : nat) (parent : attrs) (recursive : bool) : res (list str) :=
    let* _ := require_netgroup has_object_class in
    let* _ := ext_getattr (lit "get") in
    get_obj_users depth parent recursive.
  Definition ext_get_hosts (has_object_class : res bool) (depth : nat) (parent : attrs) (recursive : bool) : res (list str) :=
    let* _ := require_netgroup has_object_class in
    let* _ := ext_getattr (lit "get") in
    get_obj_hosts depth parent recursive.
End Lookup.

(** ** Modifications by DN: netgroups.py:231-295 *)
Section Changes.
  Context {S : Type} (sv : server S) (lower : str -> str) (idx : str -> list str -> str -> res nat)
    (unbound strict have_validators : bool) (flags : empty_flags) (validate_mod : str -> list mod_ -> option lobj -> res unit).

  Definition with_attrs (s : S) (r : res (list (str * list str))) (f : list (str * list str) -> S * res unit) : S * res unit :=
    match r with Ok a => f a | Raise e => (s, Raise e) end.

  (** add_users: 231-240; add_hosts: 242-251 *)
  Definition ng_add_users (s : S) (dn : str) (ms : members) (domain : field) : S * res unit :=
    with_attrs s (user_list_to_attrs ms domain) (fun a =>
      ldap_add_attrs sv lower idx unbound strict flags validate_mod s dn (as_vals a) None).
  Definition ng_add_hosts (s : S) (dn : str) (ms : members) (domain : field) : S * res unit :=
    with_attrs s (host_list_to_attrs ms domain) (fun a =>
      ldap_add_attrs sv lower idx unbound strict flags validate_mod s dn (as_vals a) None).
  (** replace_users: 253-262; replace_hosts: 264-273 *)
  Definition ng_replace_users (s : S) (dn : str) (ms : members) (domain : field) : S * res unit :=
    with_attrs s (user_list_to_attrs ms domain) (fun a =>
      ldap_replace_attrs sv lower unbound strict have_validators flags validate_mod s dn (as_vals a) None).
  Definition ng_replace_hosts (s : S) (dn : str) (ms : members) (domain : field) : S * res unit :=
    with_attrs s (host_list_to_attrs ms domain) (fun a =>
      ldap_replace_attrs sv lower unbound strict have_validators flags validate_mod s dn (as_vals a) None).
  (** delete_users: 275-284; delete_hosts: 286-295 *)
  Definition ng_delete_users (s : S) (dn : str) (ms : members) (domain : field) : S * res unit :=
    with_attrs s (user_list_to_attrs ms domain) (fun a =>
      ldap_delete_attrs sv lower idx unbound strict flags validate_mod s dn (as_vals a) None).
  Definition ng_delete_hosts (s : S) (dn : str) (ms : members) (domain : field) : S * res unit :=
    with_attrs s (host_list_to_attrs ms domain) (fun a =>
      ldap_delete_attrs sv lower idx unbound strict flags validate_mod s dn (as_vals a) None).
End Changes.
