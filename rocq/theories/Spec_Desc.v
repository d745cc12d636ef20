(** * What structured descriptions mean *)
From Verif Require Import PyBase.
From Coq Require Import Permutation.

(** [s] describes attribute [k] with value [v]: the first '=' separates them *)
Definition key_value (s k v : str) : Prop := s = k ++ ch "=" :: v /\ ~ In (ch "=") k.
(** no key: an ordinary description *)
Definition ordinary (s : str) : Prop := ~ In (ch "=") s.

Section Spec.
  Context (lower : str -> str).

  (** the values the descriptions [W] give for the attribute with folded name [n], in order *)
  Inductive described (n : str) : list str -> list str -> Prop :=
  | described_none : described n [] []
  | described_this s k v W vs : key_value s k v -> lower k = n -> described n W vs -> described n (s :: W) (v :: vs)
  | described_other s W vs : (forall k v, key_value s k v -> lower k <> n) -> described n W vs -> described n (s :: W) vs.

  (** a request: attribute names without '=', each named once *)
  Definition req_ok (req : list (str * list str)) : Prop :=
    (forall k vs, In (k, vs) req -> ~ In (ch "=") k) /\ NoDup (map (fun kv => lower (fst kv)) req).

  (** [l'] is [l] with some elements left out *)
  Inductive subseq : list str -> list str -> Prop :=
  | ss_nil : subseq [] []
  | ss_keep x l' l : subseq l' l -> subseq (x :: l') (x :: l)
  | ss_skip x l' l : subseq l' l -> subseq l' (x :: l).

  (** effect of the three calls on the values of one attribute named in the request with [vs] *)
  Definition added (vs old new : list str) : Prop :=
    (old = [] -> new = vs) /\
    (old <> [] -> exists more, new = old ++ more /\ NoDup more /\ subseq more vs /\ forall v, In v more <-> In v vs /\ ~ In v old).
  Definition removed (vs old new : list str) : Prop :=
    match vs with
    | [] => new = []                (* the whole attribute *)
    | _ => subseq new old /\ forall v, count_occ str_eq_dec new v = count_occ str_eq_dec old v - count_occ str_eq_dec vs v
    end.

  Inductive call := Add | Replace | Delete.
  Definition effect (c : call) (vs old new : list str) : Prop :=
    match c with Add => added vs old new | Replace => new = vs | Delete => removed vs old new end.

  (** values by folded name *)
  Definition table := str -> list str.
  (** one call: named attributes change accordingly, the others do not change *)
  Definition step (c : call) (req : list (str * list str)) (D D' : table) : Prop :=
    forall n, (forall k vs, In (k, vs) req -> lower k = n -> effect c vs (D n) (D' n)) /\
              (~ In n (map (fun kv => lower (fst kv)) req) -> D' n = D n).
  Inductive steps : list (call * list (str * list str)) -> table -> table -> Prop :=
  | steps_nil D D' : (forall n, D' n = D n) -> steps [] D D'
  | steps_cons c req cs D D1 D' : step c req D D1 -> steps cs D1 D' -> steps ((c, req) :: cs) D D'.

  (** descriptions [W] say exactly [D], and have the same ordinary descriptions as [W0] *)
  Definition says (W W0 : list str) (D : table) : Prop :=
    (forall n, described n W (D n)) /\ (forall s, ordinary s -> (In s W <-> In s W0)).
End Spec.
