(** * Specification vocabulary for the filter properties (C13-C17)

    RFC 4515 / RFC 4512 notions stated without parsers. *)
From Verif Require Import PyBase Model_Filter.

(** ** Characters (RFC 4512, RFC 4515): letters, digits, digits but zero, keychar, hexadecimal digits,
    those that stand for themselves in a value; spaces and tabs *)
Definition letter (c : N) : bool := ((65 <=? c) && (c <=? 90) || (97 <=? c) && (c <=? 122))%N.
Definition digit (c : N) : bool := ((48 <=? c) && (c <=? 57))%N.
Definition nonzero (c : N) : bool := ((49 <=? c) && (c <=? 57))%N.
Definition keychar (c : N) : bool := letter c || digit c || N.eqb c 45.
Definition hexdigit (c : N) : bool := (digit c || (65 <=? c) && (c <=? 70) || (97 <=? c) && (c <=? 102))%N.
Definition plain_char (c : N) : bool := negb (N.eqb c 0 || N.eqb c 40 || N.eqb c 41 || N.eqb c 42 || N.eqb c 92).
Definition blank_char (c : N) : bool := N.eqb c 32 || N.eqb c 9.

(** ** Texts *)

(** keystring of RFC 4512: a letter, then letters, digits and hyphens *)
Definition keystring_text (k : str) : Prop :=
  exists c w, k = c :: w /\ letter c = true /\ Forall (fun x => keychar x = true) w.

(** RFC 4512 numericoid: numbers separated by dots, no leading zeros *)
Definition number_text (n : str) : Prop :=
  (exists d, n = [d] /\ digit d = true)
  \/ (exists d w, n = d :: w /\ nonzero d = true /\ w <> []
                  /\ Forall (fun x => digit x = true) w).
Definition numericoid_text (o : str) : Prop :=
  exists n l, o = n ++ List.concat (map (fun m => lit "." ++ m) l)
              /\ number_text n /\ l <> [] /\ Forall number_text l.

(** the numericoids whose arcs all have a single digit *)
Definition digit_text (n : str) : Prop := exists d, n = [d] /\ digit d = true.
Definition smalloid_text (o : str) : Prop :=
  exists n l, o = n ++ List.concat (map (fun m => lit "." ++ m) l)
              /\ digit_text n /\ l <> [] /\ Forall digit_text l.

Definition option_text (o : str) : Prop :=
  o <> [] /\ Forall (fun x => keychar x = true) o.
Definition with_options (o : str) (opts : list str) : str :=
  o ++ List.concat (map (fun x => lit ";" ++ x) opts).

(** RFC 4512 attribute description *)
Definition rfc4512_attr (a : str) : Prop :=
  exists o opts, a = with_options o opts
                 /\ (keystring_text o \/ numericoid_text o) /\ Forall option_text opts.
(** ... of which this library's grammar knows *)
Definition oid_text (o : str) : Prop := keystring_text o \/ smalloid_text o.
Definition attr_text (a : str) : Prop :=
  exists o opts, a = with_options o opts /\ oid_text o /\ Forall option_text opts.

(** RFC 4515 assertion value: normal characters and \hh pairs *)
Inductive value_text : str -> Prop :=
| vt_nil : value_text []
| vt_normal c v : plain_char c = true -> value_text v -> value_text (c :: v)
| vt_esc h1 h2 v : hexdigit h1 = true -> hexdigit h2 = true -> value_text v ->
                   value_text (ch "\" :: h1 :: h2 :: v).

Definition starts_with (w s : str) : Prop := exists r, s = w ++ r.

(** ** Filters that have a string form *)

(** initial? any* final?, all but the any parts non-empty *)
Definition subs_ok (subs : list (subkind * str)) : Prop :=
  subs <> [] /\
  exists ini anys fin,
    subs = ini ++ map (fun v => (Any, v)) anys ++ fin
    /\ (ini = [] \/ exists v, ini = [(Initial, v)] /\ v <> [] /\ value_text v)
    /\ Forall value_text anys
    /\ (fin = [] \/ exists v, fin = [(Final, v)] /\ v <> [] /\ value_text v).

Inductive valid : filter -> Prop :=
| va_and l : l <> [] -> Forall valid l -> valid (FAnd l)
| va_or l : l <> [] -> Forall valid l -> valid (FOr l)
| va_not f : valid f -> valid (FNot f)
| va_eq a v : attr_text a -> value_text v -> valid (FEq a v)
| va_approx a v : attr_text a -> value_text v -> valid (FApprox a v)
| va_ge a v : attr_text a -> value_text v -> valid (FGe a v)
| va_le a v : attr_text a -> value_text v -> valid (FLe a v)
| va_present a : attr_text a -> valid (FPresent a)
| va_subs a subs : attr_text a -> subs_ok subs -> valid (FSubs a subs)
| va_ext a dn rule v :
    match a with Some a => attr_text a | None => rule <> None end ->
    match rule with
    | Some r => oid_text r /\ (dn = true \/ ~ starts_with (lit "dn") r)
    | None => True
    end ->
    value_text v -> valid (FExt a dn rule v).

(** The one thing printing loses: a final empty "any" part ("x**" is printed "x*"),
    where a lone empty "any" part becomes a presence test. *)
Definition drop_last_any (a : str) (subs : list (subkind * str)) : filter :=
  match rev subs with
  | (Any, []) :: [] => FPresent a
  | (Any, []) :: rest => FSubs a (rev rest)
  | _ => FSubs a subs
  end.
Fixpoint norm (f : filter) : filter :=
  match f with
  | FAnd l => FAnd (map norm l)
  | FOr l => FOr (map norm l)
  | FNot g => FNot (norm g)
  | FSubs a subs => drop_last_any a subs
  | _ => f
  end.
(** no substring test ends in an empty "any" part *)
Fixpoint no_trailing_any (f : filter) : Prop :=
  match f with
  | FAnd l | FOr l => (fix all l := match l with [] => True | g :: l' => no_trailing_any g /\ all l' end) l
  | FNot g => no_trailing_any g
  | FSubs _ subs => ~ exists l, subs = l ++ [(Any, [])]
  | _ => True
  end.

(** RFC 4515 decoding of a value: \hh is the character with that code *)
Definition hexval (c : N) : N :=
  if digit c then c - 48 else if ((65 <=? c) && (c <=? 70))%N then c - 55 else c - 87.
Fixpoint unescape (s : str) : str :=
  match s with
  | c :: ((h1 :: h2 :: s') as t) =>
      if N.eqb c (ch "\") && hexdigit h1 && hexdigit h2
      then (16 * hexval h1 + hexval h2)%N :: unescape s'
      else c :: unescape t
  | c :: t => c :: unescape t
  | [] => []
  end.

(** ** Logic expressions of the simple syntax, with the spaces between their parts *)
Inductive term :=
| TLeaf (text : str) (f : filter)        (* a comparison, e.g. (cn=foo) *)
| TNot (sp : str) (t : term)             (* NOT t *)
| TParen (sp1 : str) (e : expr) (sp2 : str)  (* ( e ) *)
with cnj :=
| C1 (t : term)
| CAnd (t : term) (sp1 sp2 : str) (c : cnj)
with expr :=
| E1 (c : cnj)
| EOr (c : cnj) (sp1 sp2 : str) (e : expr).

Fixpoint render_t (t : term) : str :=
  match t with
  | TLeaf w _ => w
  | TNot sp t => lit "NOT" ++ sp ++ render_t t
  | TParen sp1 e sp2 => lit "(" ++ sp1 ++ render_e e ++ sp2 ++ lit ")"
  end
with render_c (c : cnj) : str :=
  match c with
  | C1 t => render_t t
  | CAnd t sp1 sp2 c => render_t t ++ sp1 ++ lit "AND" ++ sp2 ++ render_c c
  end
with render_e (e : expr) : str :=
  match e with
  | E1 c => render_c c
  | EOr c sp1 sp2 e => render_c c ++ sp1 ++ lit "OR" ++ sp2 ++ render_e e
  end.

Definition conn (mk : list filter -> filter) (l : list filter) : filter :=
  match l with [f] => f | _ => mk l end.

(** meaning: a chain of n>1 ANDs is one conjunction of n filters, etc. *)
Fixpoint sem_t (t : term) : filter :=
  match t with
  | TLeaf _ f => f
  | TNot _ t => FNot (sem_t t)
  | TParen _ e _ => conn FOr (sem_e e)
  end
with sem_c (c : cnj) : list filter :=
  match c with
  | C1 t => [sem_t t]
  | CAnd t _ _ c => sem_t t :: sem_c c
  end
with sem_e (e : expr) : list filter :=
  match e with
  | E1 c => [conn FAnd (sem_c c)]
  | EOr c _ _ e => conn FAnd (sem_c c) :: sem_e e
  end.
Definition sem (e : expr) : filter := conn FOr (sem_e e).

Definition blank (sp : str) : Prop := Forall (fun c => blank_char c = true) sp.
(** spaces are spaces and leaves are what [leaf] says *)
Fixpoint ok_t (leaf : str -> filter -> Prop) (t : term) : Prop :=
  match t with
  | TLeaf w f => leaf w f
  | TNot sp t => blank sp /\ ok_t leaf t
  | TParen sp1 e sp2 => blank sp1 /\ ok_e leaf e /\ blank sp2
  end
with ok_c (leaf : str -> filter -> Prop) (c : cnj) : Prop :=
  match c with
  | C1 t => ok_t leaf t
  | CAnd t sp1 sp2 c => ok_t leaf t /\ blank sp1 /\ blank sp2 /\ ok_c leaf c
  end
with ok_e (leaf : str -> filter -> Prop) (e : expr) : Prop :=
  match e with
  | E1 c => ok_c leaf c
  | EOr c sp1 sp2 e => ok_c leaf c /\ blank sp1 /\ blank sp2 /\ ok_e leaf e
  end.

(** ** The texts of RFC 4515 filters (over [attr_text]) *)
Definition mk_subs (a ini : str) (anys : list str) (fin : str) : filter :=
  if match ini, anys, fin with [], [], [] => true | _, _, _ => false end then FPresent a
  else FSubs a ((if match ini with [] => true | _ => false end then [] else [(Initial, ini)])
                ++ map (fun v => (Any, v)) anys
                ++ (if match fin with [] => true | _ => false end then [] else [(Final, fin)])).

Definition ext_text (a : str) (dn : bool) (rule : option str) (v : str) : str :=
  a ++ (if dn then lit ":dn" else [])
    ++ match rule with Some r => lit ":" ++ r | None => [] end ++ lit ":=" ++ v.
Definition rule_ok (dn : bool) (rule : option str) : Prop :=
  match rule with
  | Some r => oid_text r /\ (dn = true \/ ~ starts_with (lit "dn") r)
  | None => True
  end.

(** [cmp_text f b]: b is the comparison f, without its parentheses *)
Inductive cmp_text : filter -> str -> Prop :=
| ct_eq a v : attr_text a -> value_text v -> cmp_text (FEq a v) (a ++ lit "=" ++ v)
| ct_approx a v : attr_text a -> value_text v -> cmp_text (FApprox a v) (a ++ lit "~=" ++ v)
| ct_ge a v : attr_text a -> value_text v -> cmp_text (FGe a v) (a ++ lit ">=" ++ v)
| ct_le a v : attr_text a -> value_text v -> cmp_text (FLe a v) (a ++ lit "<=" ++ v)
| ct_subs a ini anys fin :
    attr_text a -> value_text ini -> Forall value_text anys -> value_text fin ->
    cmp_text (mk_subs a ini anys fin)
             (a ++ lit "=" ++ ini ++ lit "*"
                ++ List.concat (map (fun v => v ++ lit "*") anys) ++ fin)
| ct_ext a dn rule v : attr_text a -> rule_ok dn rule -> value_text v ->
    cmp_text (FExt (Some a) dn rule v) (ext_text a dn rule v)
| ct_ext0 dn r v : rule_ok dn (Some r) -> value_text v ->
    cmp_text (FExt None dn (Some r) v) (ext_text [] dn (Some r) v).

(** [std_text f s]: s is the RFC 4515 text of the filter f *)
Inductive std_text : filter -> str -> Prop :=
| st_and l ss : l <> [] -> std_texts l ss ->
    std_text (FAnd l) (lit "(&" ++ ss ++ lit ")")
| st_or l ss : l <> [] -> std_texts l ss ->
    std_text (FOr l) (lit "(|" ++ ss ++ lit ")")
| st_not f s : std_text f s -> std_text (FNot f) (lit "(!" ++ s ++ lit ")")
| st_cmp f b : cmp_text f b -> std_text f (lit "(" ++ b ++ lit ")")
with std_texts : list filter -> str -> Prop :=
| sts_nil : std_texts [] []
| sts_cons f l s ss : std_text f s -> std_texts l ss -> std_texts (f :: l) (s ++ ss).

Scheme std_text_ind2 := Induction for std_text Sort Prop
  with std_texts_ind2 := Induction for std_texts Sort Prop.
Combined Scheme std_text_mut from std_text_ind2, std_texts_ind2.

(** a comparison in parentheses: the leaves of the simple syntax *)
Definition cmp_leaf (w : str) (f : filter) : Prop :=
  exists b, w = lit "(" ++ b ++ lit ")" /\ cmp_text f b.
(** any standard filter: the leaves of the unified syntax *)
Definition std_leaf (w : str) (f : filter) : Prop := std_text f w.

Scheme term_ind2 := Induction for term Sort Prop
  with cnj_ind2 := Induction for cnj Sort Prop
  with expr_ind2 := Induction for expr Sort Prop.
Combined Scheme logic_mut from term_ind2, cnj_ind2, expr_ind2.
