(** * What a search request has to carry, and when a search is refused *)
From Verif Require Import PyBase Model_Filter Spec_Filter Model_Controls Spec_Controls Model_Search Model_Request.

(** the argument if given, else the connection's setting *)
Definition given {A} (arg : option A) (setting v : A) : Prop :=
  (exists x, arg = Some x /\ v = x) \/ (arg = None /\ v = setting).

(** the filter [f] is what the text means in the syntax (Props_Filter says what the parsers read) *)
Definition means (syn : fsyntax) (text : str) (f : filter) : Prop :=
  match syn with
  | STANDARD => std_text f text
  | SIMPLE => parse_simple_filter text = Ok f
  | UNIFIED => parse_unified text = Ok f
  | OtherSyntax => False
  end.
Definition filter_asked (e : env) (a : search_args) (f : filter) : Prop :=
  match a_filter a with
  | None => std_text f (e_default_filter e)                       (* whatever filter syntax is in force *)
  | Some text => exists syn, given (a_syntax a) (e_syntax e) syn /\ means syn text f
  end.
Definition attrs_asked (a : search_args) (l : list str) : Prop :=
  match a_attrs a with NoAttrs => l = [lit "*"] | OneAttr x => l = [x] | Attrs l' => l = l' end.

(** the request [w] and the handle [h] for the arguments [a] *)
Record asked (e : env) (a : search_args) (w : wire_search) (h : handle) : Prop := mk_asked {
  as_base : w_base w = a_base a;
  as_scope : w_scope w = a_scope a;
  as_types : w_types_only w = a_attrs_only a;
  as_size : w_size w = a_limit a;
  as_time : given (a_timeout a) (e_timeout e) (w_time w);
  as_deref : given (a_deref a) (e_deref e) (w_deref w);
  as_filter : filter_asked e a (w_filter w);
  as_attrs : attrs_asked a (w_attrs w);
  as_ctrls : Forall2 (wire_for (e_reg e) (e_criticality e)) (controls_of (e_reg e) (a_kwds a)) (w_ctrls w);
  as_refs : given (a_refs a) (e_refs e) (h_refs h);
  as_follow : given (a_follow a) (e_follow e) (h_follow h);
  as_rest : h_obj_kwds h = others_of (e_reg e) (a_kwds a) }.

Definition in_range (z : Z) : Prop := (0 <= z <= 2147483647)%Z.
(** when a search can be sent *)
Record possible (e : env) (a : search_args) : Prop := mk_possible {
  po_open : e_unbound e = false;
  po_size : in_range (a_limit a);
  po_time : forall t, given (a_timeout a) (e_timeout e) t -> in_range t;
  po_filter : exists f, filter_asked e a f;
  po_attrs : forall l, attrs_asked a l -> ~ In [] l /\ (forall r, In (ch "@" :: r) l -> e_feature e = Ok true);
  po_ctrls : Forall (admissible (e_reg e) (lit "search") (e_supported e) (e_criticality e)) (a_kwds a);
  po_rest : forall k v, In (k, v) (others_of (e_reg e) (a_kwds a)) -> In k obj_kwds }.

(** ** Relative methods *)
(** the full RDN a relative method is given, or completes with the object's rdn_attr *)
Definition full_rdn (o : robj) (r r' : str) : Prop :=
  (In (ch "=") r /\ r' = r) \/ (~ In (ch "=") r /\ exists a, ro_rdn_attr o = Some a /\ r' = a ++ lit "=" ++ r).
Definition child_dn (o : robj) (r dn : str) : Prop := exists r', full_rdn o r r' /\ dn = r' ++ lit "," ++ ro_dn o.

(** [n] is made through [o] by one of its relative methods, with the keywords [k]; for the methods
    that search, [dn] is the name of an entry found *)
Inductive made (e : env) (o n : robj) (k : kwds_t) : Prop :=
| by_obj r : obj_obj o r k = Ok n -> made e o n k
| by_add r cs : obj_add_child e o r k = Ok (cs, n) -> made e o n k
| by_get r ats h q dn : obj_get_child e o r ats k = (Ok h, q) -> found_obj h dn = Ok n -> made e o n k
| by_search f ats m h q dn : obj_search e o f ats m k = (Ok h, q) -> found_obj h dn = Ok n -> made e o n k
| by_find r ats h q dn : obj_find e o r ats k = (Ok h, q) -> found_obj h dn = Ok n -> made e o n k.

(** the keyword if given, else the setting of the object the method was called on *)
Definition inherits (o : robj) (k : kwds_t) (n : robj) : Prop :=
  ro_scope n = match dget k k_scope with Some v => scope_of v | None => ro_scope o end /\
  ro_rdn_attr n = match dget k k_rdn with Some v => rdn_of v | None => ro_rdn_attr o end.

(** made through [o] in any number of steps, none of them giving these keywords *)
Inductive below (e : env) (o : robj) : robj -> Prop :=
| below_self : below e o o
| below_made m n k : below e o m -> NoDup (map fst k) -> dget k k_scope = None -> dget k k_rdn = None -> made e m n k -> below e o n.
