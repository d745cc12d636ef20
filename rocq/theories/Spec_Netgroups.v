(** * Netgroups: what the members of a netgroup are *)
From Verif Require Import PyBase Model_CIDict Model_Modify Model_Netgroups.

(** The text of the triple (host,user,domain).  Host and user cannot contain a comma and the domain
    no closing parenthesis. *)
Definition triple_text (h u d : str) : str := lit "(" ++ h ++ lit "," ++ u ++ lit "," ++ d ++ lit ")".
Definition clean (h u d : str) : Prop := ~ In (ch ",") h /\ ~ In (ch ",") u /\ ~ In (ch ")") d.
(** the text [s] denotes the triple; a newline at the end is tolerated *)
Definition denotes (s h u d : str) : Prop :=
  clean h u d /\ (s = triple_text h u d \/ s = triple_text h u d ++ [10%N]).

(** the argument is a list of entries or a single entry *)
Definition listed (m : members) : list member := match m with MList l => l | MOne x => [x] end.
(** a missing field is the same as an empty one *)
Definition said (f : field) : str := match f with Some s => s | None => [] end.

(** ** Member list entries, as documented (netgroups.py:19-36) *)
Inductive nentry := Triple (h u d : str) | Group (g : str).

Inductive user_means (domain : str) : member -> nentry -> Prop :=
| um_group g : user_means domain (MStr (lit "+" ++ g)) (Group g)
| um_triple s h u d : denotes s h u d -> user_means domain (MStr s) (Triple h u d)
| um_name s : s <> [] -> (forall g, s <> lit "+" ++ g) -> (forall h u d, ~ denotes s h u d) ->
    user_means domain (MStr s) (Triple [] s domain)
| um_two h u : user_means domain (MTuple [h; u]) (Triple (said h) (said u) domain)
| um_three h u d : user_means domain (MTuple [h; u; d]) (Triple (said h) (said u) (said d)).

Inductive host_means (domain : str) : member -> nentry -> Prop :=
| hm_group g : host_means domain (MStr (lit "+" ++ g)) (Group g)
| hm_triple s h u d : denotes s h u d -> host_means domain (MStr s) (Triple h u d)
| hm_name s : s <> [] -> (forall g, s <> lit "+" ++ g) -> (forall h u d, ~ denotes s h u d) ->
    host_means domain (MStr s) (Triple s [] domain)
| hm_one h : host_means domain (MTuple [h]) (Triple (said h) [] domain)
| hm_two h u : host_means domain (MTuple [h; u]) (Triple (said h) (said u) domain)
| hm_three h u d : host_means domain (MTuple [h; u; d]) (Triple (said h) (said u) (said d)).

(** the triples among the entries all can be written *)
Definition writable (e : nentry) : Prop := match e with Triple h u d => clean h u d | Group _ => True end.

(** the attribute values [vs] denote exactly the triples among [es], in order *)
Inductive triples_of : list nentry -> list str -> Prop :=
| to_nil : triples_of [] []
| to_triple h u d es s vs : denotes s h u d -> triples_of es vs -> triples_of (Triple h u d :: es) (s :: vs)
| to_group g es vs : triples_of es vs -> triples_of (Group g :: es) vs.
(** the group names among [es] *)
Fixpoint groups_of (es : list nentry) : list str :=
  match es with
  | [] => []
  | Group g :: es' => g :: groups_of es'
  | Triple _ _ _ :: es' => groups_of es'
  end.

(** ** The netgroup graph *)
Section Graph.
  Context (lower : str -> str) (find : str -> res attrs).
  (** the values of an attribute of an entry; none if it is absent *)
  Definition values (o : attrs) (a : str) : list str :=
    match cid_get lower o a with Ok l => l | Raise _ => [] end.
  (** group [g] names [g'] as a member *)
  Definition edge (g g' : str) : Prop := exists o, find g = Ok o /\ In g' (values o (lit "memberNisNetgroup")).
  Inductive reach (g : str) : str -> Prop :=
  | reach_refl : reach g g
  | reach_step g1 g2 : reach g g1 -> edge g1 g2 -> reach g g2.
  (** no infinite (in particular no cyclic) chain of groups starts at [g] *)
  Definition acyclic (g : str) : Prop := Acc (fun b a => edge a b) g.
  (** user/host [x] is listed directly in the entry *)
  Definition direct_user (o : attrs) (x : str) : Prop :=
    exists t h d, In t (values o (lit "nisNetgroupTriple")) /\ denotes t h x d.
  Definition direct_host (o : attrs) (x : str) : Prop :=
    exists t u d, In t (values o (lit "nisNetgroupTriple")) /\ denotes t x u d.
  (** every group reachable from [g] exists and all its triples are well-formed *)
  Definition complete (g : str) : Prop := forall g', reach g g' ->
    exists o, find g' = Ok o /\ forall t, In t (values o (lit "nisNetgroupTriple")) -> exists h u d, denotes t h u d.
End Graph.
