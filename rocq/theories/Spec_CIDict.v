(** * Specification of a case-insensitive mapping: a plain function keyed by the
    folded name.  Independent of the model's data structures. *)
From Verif Require Import PyBase Model_CIDict.

Section Spec.
  Variable lower : str -> str.
  Context {V : Type}.

  (** The ideal mapping: what value (if any) each folded name has. *)
  Definition smap := str -> option V.
  Definition smap_empty : smap := fun _ => None.
  Definition smap_put (m : smap) (k : str) (ov : option V) : smap :=
    fun l => if str_eqb l (lower k) then ov else m l.

  Definition spec_get (m : smap) (k : str) : res V :=
    match m (lower k) with Some v => Ok v | None => Raise KeyError end.

  Definition spec_step (m : smap) (o : cid_op V) : smap * cid_out V :=
    match o with
    | OpSet k v => (smap_put m k (Some v), OutUnit (Ok tt))
    | OpDel k =>
        match m (lower k) with
        | Some _ => (smap_put m k None, OutUnit (Ok tt))
        | None => (m, OutUnit (Raise KeyError))
        end
    | OpSetDefault k v =>
        match m (lower k) with
        | Some v' => (m, OutVal (Ok v'))
        | None => (smap_put m k (Some v), OutVal (Ok v))
        end
    | OpUpdate kvs =>
        (fold_left (fun m kv => smap_put m (fst kv) (Some (snd kv))) kvs m,
         OutUnit (Ok tt))
    | OpClear => (smap_empty, OutUnit (Ok tt))
    | OpGet k => (m, OutVal (spec_get m k))
    | OpGetDefault k v =>
        (m, OutVal (Ok (match m (lower k) with Some v' => v' | None => v end)))
    | OpContains k =>
        (m, OutBool (Ok (match m (lower k) with Some _ => true | None => false end)))
    end.

  Fixpoint spec_run (m : smap) (os : list (cid_op V)) : smap * list (cid_out V) :=
    match os with
    | [] => (m, [])
    | o :: os' =>
        let (m1, r) := spec_step m o in
        let (m2, rs) := spec_run m1 os' in
        (m2, r :: rs)
    end.

  (** The keys an operation may write, in the spelling used. *)
  Definition written (o : cid_op V) : list str :=
    match o with
    | OpSet k _ | OpSetDefault k _ => [k]
    | OpUpdate kvs => map fst kvs
    | _ => []
    end.

  (** Every name is always spelled the same way. *)
  Definition consistent_spelling (os : list (cid_op V)) : Prop :=
    forall k1 k2, In k1 (flat_map written os) -> In k2 (flat_map written os) ->
                  lower k1 = lower k2 -> k1 = k2.
End Spec.
Arguments smap : clear implicits.
