(** * Model of laurelin.ldap.utils.CaseIgnoreDict
    and laurelin.ldap.attrsdict.AttrsDict *)
From Verif Require Import PyBase.

Section CIDict.
  (** [str.lower] — external (Unicode tables); arbitrary here. *)
  Variable lower : str -> str.
  Context {V : Type}.

  (** The two dicts of an instance: [self._keys] and the inherited dict.
      /repo/laurelin/ldap/utils.py:124-127 *)
  Record cid := mkcid { ckeys : list (str * str); cdata : list (str * V) }.

  (** /repo/laurelin/ldap/utils.py:126-127 (no [plaindict]) *)
  Definition cid_empty : cid := mkcid [] [].

  (** __setitem__: /repo/laurelin/ldap/utils.py:131-133 *)
  Definition cid_set (d : cid) (k : str) (v : V) : cid :=
    mkcid (dset (ckeys d) (lower k) k) (dset (cdata d) k v).

  (** __getitem__: /repo/laurelin/ldap/utils.py:142-144 *)
  Definition cid_get (d : cid) (k : str) : res V :=
    match dget (ckeys d) (lower k) with
    | None => Raise KeyError
    | Some k' =>
        match dget (cdata d) k' with
        | None => Raise KeyError
        | Some v => Ok v
        end
    end.

  (** setdefault: /repo/laurelin/ldap/utils.py:135-140 *)
  Definition cid_setdefault (d : cid) (k : str) (dflt : V) : cid * res V :=
    match cid_get d k with
    | Ok v => (d, Ok v)
    | Raise KeyError => (cid_set d k dflt, Ok dflt)
    | Raise e => (d, Raise e)
    end.

  (** get: /repo/laurelin/ldap/utils.py:146-150 *)
  Definition cid_get_default (d : cid) (k : str) (dflt : V) : res V :=
    match cid_get d k with
    | Ok v => Ok v
    | Raise KeyError => Ok dflt
    | Raise e => Raise e
    end.

  (** __contains__: /repo/laurelin/ldap/utils.py:152-157 *)
  Definition cid_contains (d : cid) (k : str) : res bool :=
    match cid_get d k with
    | Ok _ => Ok true
    | Raise KeyError => Ok false
    | Raise e => Raise e
    end.

  (** update with a plain dict: /repo/laurelin/ldap/utils.py:159-161 *)
  Definition cid_update (d : cid) (other : list (str * V)) : cid :=
    fold_left (fun d kv => cid_set d (fst kv) (snd kv)) other d.

  (** update with another CaseIgnoreDict: the loop enumerates the raw keys of
      [other] but reads each value with [other[key]], which can raise.
      The dict is left partially updated when it does.
      /repo/laurelin/ldap/utils.py:159-161 *)
  Fixpoint cid_update_from (d : cid) (other : cid) (ks : list str) : cid * res unit :=
    match ks with
    | [] => (d, Ok tt)
    | k :: ks' =>
        match cid_get other k with
        | Ok v => cid_update_from (cid_set d k v) other ks'
        | Raise e => (d, Raise e)
        end
    end.
  Definition cid_update_cid (d other : cid) : cid * res unit :=
    cid_update_from d other (map fst (cdata other)).

  (** __delitem__: /repo/laurelin/ldap/utils.py:163-167 *)
  Definition cid_del (d : cid) (k : str) : cid * res unit :=
    let lkey := lower k in
    match dget (ckeys d) lkey with
    | None => (d, Raise KeyError)
    | Some k' =>
        match dget (cdata d) k' with
        | None => (d, Raise KeyError)
        | Some _ => (mkcid (ddel (ckeys d) lkey) (ddel (cdata d) k'), Ok tt)
        end
    end.

  (** clear: /repo/laurelin/ldap/utils.py:169-171 *)
  Definition cid_clear (d : cid) : cid := mkcid [] [].

  (** Inherited from dict, not overridden: iteration order/keys, items, len.
      /repo/laurelin/ldap/utils.py:124 (class CaseIgnoreDict(dict)) *)
  Definition cid_keys (d : cid) : list str := map fst (cdata d).
  Definition cid_items (d : cid) : list (str * V) := cdata d.
  Definition cid_len (d : cid) : nat := List.length (cdata d).

  (** dict.pop, inherited, not overridden (so case-sensitive, and it leaves
      [_keys] alone). /repo/laurelin/ldap/utils.py:124 *)
  Definition cid_pop (d : cid) (k : str) : cid * res V :=
    match dget (cdata d) k with
    | None => (d, Raise KeyError)
    | Some v => (mkcid (ckeys d) (ddel (cdata d) k), Ok v)
    end.

  (** One call on the mapping interface and its observable result. *)
  Inductive cid_op :=
  | OpSet (k : str) (v : V)
  | OpDel (k : str)
  | OpSetDefault (k : str) (v : V)
  | OpUpdate (kvs : list (str * V))
  | OpClear
  | OpGet (k : str)
  | OpGetDefault (k : str) (v : V)
  | OpContains (k : str).

  Inductive cid_out :=
  | OutUnit (r : res unit)
  | OutVal (r : res V)
  | OutBool (r : res bool).

  Definition cid_step (d : cid) (o : cid_op) : cid * cid_out :=
    match o with
    | OpSet k v => (cid_set d k v, OutUnit (Ok tt))
    | OpDel k => let (d', r) := cid_del d k in (d', OutUnit r)
    | OpSetDefault k v => let (d', r) := cid_setdefault d k v in (d', OutVal r)
    | OpUpdate kvs => (cid_update d kvs, OutUnit (Ok tt))
    | OpClear => (cid_clear d, OutUnit (Ok tt))
    | OpGet k => (d, OutVal (cid_get d k))
    | OpGetDefault k v => (d, OutVal (cid_get_default d k v))
    | OpContains k => (d, OutBool (cid_contains d k))
    end.

  Fixpoint cid_run (d : cid) (os : list cid_op) : cid * list cid_out :=
    match os with
    | [] => (d, [])
    | o :: os' =>
        let (d1, r) := cid_step d o in
        let (d2, rs) := cid_run d1 os' in
        (d2, r :: rs)
    end.
End CIDict.
Arguments cid : clear implicits.
Arguments cid_op : clear implicits.
Arguments cid_out : clear implicits.
Arguments cid_empty {V}.

(** ** AttrsDict typing *)

(** The Python values that can reach AttrsDict, as far as the type tests can
    tell them apart: str, bytes, list, the DELETE_ALL sentinel, anything else. *)
Inductive pyval :=
| PyStr (s : str)
| PyBytes (b : str)
| PyList (l : list pyval)
| PyDeleteAll
| PyOther (n : nat).

(** isinstance(v, str) or isinstance(v, bytes); /repo/laurelin/ldap/attrsdict.py:109-110
    Simplification: Python 3 (six.string_types = str, six.binary_type = bytes). *)
Definition is_str_or_bytes (v : pyval) : bool :=
  match v with PyStr _ | PyBytes _ => true | _ => false end.

(** validate_attr: /repo/laurelin/ldap/attrsdict.py:84-93 *)
Definition validate_attr (a : pyval) : res str :=
  match a with PyStr s => Ok s | _ => Raise TypeError end.

(** validate_values: /repo/laurelin/ldap/attrsdict.py:95-110 *)
Definition validate_values (v : pyval) : res unit :=
  match v with
  | PyDeleteAll => Ok tt
  | PyList l => if forallb is_str_or_bytes l then Ok tt else Raise TypeError
  | _ => Raise TypeError
  end.

(** validate, for a plain dict: /repo/laurelin/ldap/attrsdict.py:67-82 *)
Fixpoint validate_dict (d : list (pyval * pyval)) : res unit :=
  match d with
  | [] => Ok tt
  | (a, v) :: d' =>
      let* _ := validate_attr a in
      let* _ := validate_values v in
      validate_dict d'
  end.

Section AttrsDict.
  Variable lower : str -> str.

  (** __setitem__: /repo/laurelin/ldap/attrsdict.py:48-51 *)
  Definition ad_set (d : cid pyval) (a v : pyval) : cid pyval * res unit :=
    match validate_attr a with
    | Raise e => (d, Raise e)
    | Ok k =>
        match validate_values v with
        | Raise e => (d, Raise e)
        | Ok _ => (cid_set lower d k v, Ok tt)
        end
    end.

  (** setdefault: /repo/laurelin/ldap/attrsdict.py:53-61; [None] is Python's
      default=None. *)
  Definition ad_setdefault (d : cid pyval) (a : pyval) (dflt : option pyval)
    : cid pyval * res pyval :=
    match validate_attr a with
    | Raise e => (d, Raise e)
    | Ok k =>
        let dv := match dflt with None => PyList [] | Some v => v end in
        match validate_values dv with
        | Raise e => (d, Raise e)
        | Ok _ =>
            match cid_get lower d k with
            | Ok v => (d, Ok v)
            | Raise KeyError =>
                let (d', r) := ad_set d a dv in
                (d', match r with Ok _ => Ok dv | Raise e => Raise e end)
            | Raise e => (d, Raise e)
            end
        end
    end.

  (** update with a plain dict: /repo/laurelin/ldap/attrsdict.py:63-65, then the
      loop of /repo/laurelin/ldap/utils.py:159-161 through __setitem__. *)
  Fixpoint ad_set_all (d : cid pyval) (kvs : list (pyval * pyval))
    : cid pyval * res unit :=
    match kvs with
    | [] => (d, Ok tt)
    | (a, v) :: kvs' =>
        match ad_set d a v with
        | (d', Ok _) => ad_set_all d' kvs'
        | (d', Raise e) => (d', Raise e)
        end
    end.
  Definition ad_update (d : cid pyval) (kvs : list (pyval * pyval))
    : cid pyval * res unit :=
    match validate_dict kvs with
    | Raise e => (d, Raise e)
    | Ok _ => ad_set_all d kvs
    end.

  (** len(values) for the values AttrsDict can hold (DELETE_ALL has length 0,
      /repo/laurelin/ldap/constants.py:50-51). *)
  Definition py_len (v : pyval) : res nat :=
    match v with
    | PyList l => Ok (List.length l)
    | PyDeleteAll => Ok 0
    | PyStr s | PyBytes s => Ok (List.length s)
    | PyOther _ => Raise TypeError
    end.

  (** __contains__: /repo/laurelin/ldap/attrsdict.py:42-46 *)
  Definition ad_contains (d : cid pyval) (a : str) : res bool :=
    match cid_get lower d a with
    | Ok v => let* n := py_len v in Ok (Nat.ltb 0 n)
    | Raise KeyError => Ok false
    | Raise e => Raise e
    end.

  (** get_attr: /repo/laurelin/ldap/attrsdict.py:13-20 *)
  Definition ad_get_attr (d : cid pyval) (a : str) : res pyval :=
    cid_get_default lower d a (PyList []).

  (** iterattrs (as the list of what it yields; DELETE_ALL is not iterable):
      /repo/laurelin/ldap/attrsdict.py:22-26 *)
  Fixpoint ad_iterattrs (items : list (str * pyval)) : res (list (str * pyval)) :=
    match items with
    | [] => Ok []
    | (a, PyList l) :: r =>
        let* rest := ad_iterattrs r in Ok (map (fun v => (a, v)) l ++ rest)
    | (_, _) :: _ => Raise TypeError
    end.

  (** deepcopy to a plain dict: /repo/laurelin/ldap/attrsdict.py:28-35 *)
  Fixpoint ad_deepcopy (items : list (str * pyval)) : res (list (str * pyval)) :=
    match items with
    | [] => Ok []
    | (a, PyList l) :: r =>
        let* rest := ad_deepcopy r in Ok ((a, PyList l) :: rest)
    | (_, _) :: _ => Raise TypeError
    end.
End AttrsDict.
