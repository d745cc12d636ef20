(** * What a directory server does, and DNs *)
From Verif Require Import PyBase Model_CIDict Model_Modify Spec_Modify Model_Search Spec_Search Model_Dir.
Local Open Scope N_scope.

(** ** DNs (RFC 4514) *)
(** text of one RDN: no comma except as an escape pair *)
Inductive rdn_text : str -> Prop :=
| rdn_nil : rdn_text []
| rdn_char c s : c <> ch "," -> c <> 92 -> rdn_text s -> rdn_text (c :: s)
| rdn_pair c s : rdn_text s -> rdn_text (92 :: c :: s).
(** a DN consists of its first RDN and its parent's DN *)
Definition dn_parts (dn rdn parent : str) : Prop := dn = rdn ++ lit "," ++ parent /\ rdn_text rdn.

(** An RDN with one attribute and a value that needs no escapes *)
Definition plain_rdn (rdn a v : str) : Prop :=
  rdn = a ++ lit "=" ++ v /\ ~ In (ch "=") a /\
  forall c, In c rdn -> ~ In c (lit ",+""\;<>").

(** ** Entries *)
(** the values listed for a name, in any case *)
Definition lists (lower : str -> str) (a : list (str * list str)) (e : entry) : Prop :=
  names_distinct lower a /\ (forall av, In av a -> snd av <> []) /\
  forall k vs, vs <> [] -> (e (lower k) = vs <-> exists name, In (name, vs) a /\ lower name = lower k).
(** only these names *)
Definition only (lower : str -> str) (names : list str) (e : entry) : entry :=
  fun n => if smem n (map lower names) then e n else [].

(** modify DN (RFC 4511, 4.9): the old RDN's value is removed if so requested, the new RDN's value is
    added unless there is a matching one *)
Definition srv_rename (lower : str -> str) (eqv : str -> str -> str -> bool) (e : entry)
    (a0 v0 a1 v1 : str) (clean : bool) : entry :=
  let e1 := if clean then match srv_remove1 eqv a0 (e (lower a0)) v0 with Some l => eput lower e a0 l | None => e end else e in
  if existsb (fun x => eqv a1 x v1) (e1 (lower a1)) then e1 else eput lower e1 a1 (e1 (lower a1) ++ [v1]).

(** ** A directory server.  [view s dn]: the entry with that DN, if it exists; [norm]: two DNs are the
    same iff they have the same normal form. *)
Record lawful {S : Type} (lower norm : str -> str) (eqv : str -> str -> str -> bool) (sv : server S)
    (view : S -> str -> option entry) : Prop := mk_lawful {
  law_dn : forall s d d', norm d = norm d' -> view s d = view s d';
  law_read_none : forall s dn ats, view s dn = None -> sv_read sv s dn ats = None;
  law_read_all : forall s dn e, view s dn = Some e ->
    exists dn' a, sv_read sv s dn None = Some (dn', a) /\ norm dn' = norm dn /\ lists lower a e;
  law_read_empty : forall s dn, sv_read sv s dn (Some []) = sv_read sv s dn None;
  law_read_some : forall s dn e names, view s dn = Some e -> names <> [] -> (forall n, In n names -> ~ In n [lit "*"; lit "+"; lit "1.1"]) ->
    exists dn' a, sv_read sv s dn (Some names) = Some (dn', a) /\ norm dn' = norm dn /\ lists lower a (only lower names e);
  law_compare : forall s dn a v,
    (sv_compare sv s dn a v = 6 -> exists e, view s dn = Some e /\ existsb (fun x => eqv a x v) (e (lower a)) = true) /\
    (sv_compare sv s dn a v = 5 -> exists e, view s dn = Some e /\ existsb (fun x => eqv a x v) (e (lower a)) = false);
  (** a refused request changes nothing; an accepted one changes only the entry it is about *)
  law_add : forall s dn a s' ok, sv_add sv s dn a = (s', ok) ->
    if ok then view s dn = None /\ (exists e, view s' dn = Some e /\ lists lower a e) /\
               (forall d, norm d <> norm dn -> view s' d = view s d)
    else forall d, view s' d = view s d;
  law_modify : forall s dn cs s' ok, sv_modify sv s dn cs = (s', ok) ->
    if ok then (exists e e1 e', view s dn = Some e /\ srv_apply lower eqv e cs = Some e1 /\ view s' dn = Some e' /\ forall n, e' n = e1 n) /\
               (forall d, norm d <> norm dn -> view s' d = view s d)
    else forall d, view s' d = view s d;
  law_delete : forall s dn s' ok, sv_delete sv s dn = (s', ok) ->
    if ok then view s' dn = None /\ (forall d, norm d <> norm dn -> view s' d = view s d)
    else forall d, view s' d = view s d;
  law_moddn : forall s dn new_rdn clean sup s' ok, sv_moddn sv s dn new_rdn clean sup = (s', ok) ->
    if ok then forall rdn parent a0 v0 a1 v1, dn_parts dn rdn parent -> plain_rdn rdn a0 v0 -> plain_rdn new_rdn a1 v1 ->
      exists e e', view s dn = Some e /\
        view s' (new_rdn ++ lit "," ++ match sup with Some p => p | None => parent end) = Some e' /\
        (forall n, e' n = srv_rename lower eqv e a0 v0 a1 v1 clean n) /\
        (norm (new_rdn ++ lit "," ++ match sup with Some p => p | None => parent end) <> norm dn -> view s' dn = None)
    else forall d, view s' d = view s d }.

(** ** Requests *)
(** A dict an entry can be made from: names differ in more than case, every attribute has values;
    none of the names is one of the special search attributes. *)
Definition request_ok (lower : str -> str) (a : list (str * list str)) : Prop :=
  names_distinct lower a /\ (forall av, In av a -> snd av <> []) /\
  (forall av, In av a -> ~ In (fst av) [lit "*"; lit "+"; lit "1.1"]).

(** A request to delete or replace: every attribute is named once; no empty lists (an attribute is
    removed with DELETE_ALL) *)
Definition del_ok (lower : str -> str) (del : list (str * vals)) : Prop :=
  NoDup (map (fun av => lower (fst av)) del) /\ (forall av, In av del -> snd av <> VList []) /\
  (forall av, In av del -> ~ In (fst av) [lit "*"; lit "+"; lit "1.1"]).
(** value [x] of the attribute with folded name [n] is to go *)
Definition doomed (lower : str -> str) (eqv : str -> str -> str -> bool) (del : list (str * vals)) (n x : str) : Prop :=
  exists k v, In (k, v) del /\ lower k = n /\
    match v with VDeleteAll => True | VList l => exists w, In w l /\ eqv k x w = true end.
(** no two values of the attribute match the same value *)
Definition at_most_one (eqv : str -> str -> str -> bool) (a : str) (l : list str) : Prop :=
  forall v, (List.length (List.filter (fun x => eqv a x v) l) <= 1)%nat.

(** ** A server that refuses no request without a reason *)
Record willing {S : Type} (lower : str -> str) (eqv : str -> str -> str -> bool) (sv : server S)
    (view : S -> str -> option entry) : Prop := mk_willing {
  will_modify : forall s dn e cs e1, view s dn = Some e -> srv_apply lower eqv e cs = Some e1 -> snd (sv_modify sv s dn cs) = true;
  will_add : forall s dn a, view s dn = None -> request_ok lower a -> snd (sv_add sv s dn a) = true;
  will_delete : forall s dn e, view s dn = Some e -> snd (sv_delete sv s dn) = true;
  will_compare : forall s dn a v e, view s dn = Some e -> sv_compare sv s dn a v = 5 \/ sv_compare sv s dn a v = 6 }.

(** the values given for an attribute do not match each other *)
Definition no_twins (eqv : str -> str -> str -> bool) (a : list (str * list str)) : Prop :=
  forall k vs, In (k, vs) a -> ForallOrdPairs (fun v w => eqv k v w = false) vs.
(** no value of the entry is asked for twice *)
Definition no_twice (lower : str -> str) (eqv : str -> str -> str -> bool) (e : entry) (del : list (str * vals)) : Prop :=
  forall k vs x, In (k, VList vs) del -> In x (e (lower k)) -> ForallOrdPairs (fun v w => eqv k x v = true -> eqv k x w = false) vs.
