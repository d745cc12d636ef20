(** * The text of object class and attribute type descriptions (RFC 4512, 1.4, 4.1.1, 4.1.2) *)
From Verif Require Import PyBase Model_Prep Model_Schema Spec_Search.
Local Open Scope N_scope.

Definition lang := str -> Prop.
Definition cat (a b : lang) : lang := fun s => exists x y, s = x ++ y /\ a x /\ b y.
Infix ";;" := cat (at level 60, right associativity).
Definition is (x : str) : lang := fun s => s = x.
Definition such (x : str) (P : str -> Prop) : lang := fun s => s = x /\ P x.
Definition either (a b : lang) : lang := fun s => a s \/ b s.

(** RFC 4512, 1.4 *)
Definition ALPHA (c : N) : Prop := 65 <= c <= 90 \/ 97 <= c <= 122.
Definition DIGIT (c : N) : Prop := 48 <= c <= 57.
Definition descr (s : str) : Prop :=
  exists c r, s = c :: r /\ ALPHA c /\ Forall (fun c => ALPHA c \/ DIGIT c \/ c = ch "-") r.
(** number = DIGIT / ( LDIGIT 1*DIGIT ) *)
Definition rfc_number (s : str) : Prop := exists c r, s = c :: r /\ Forall DIGIT s /\ (r <> [] -> c <> ch "0").
Definition digits (s : str) : Prop := s <> [] /\ Forall DIGIT s.

(** A dialect: which characters are white space, how a keyword may be spelled, what a number is,
    whether a list of names may be empty, how many extensions there may be. *)
Record dialect := mk_dialect {
  white : N -> Prop; keyword : str -> lang; number : str -> Prop; empty_list : Prop; extension_count : nat -> Prop }.

Section Grammar.
  Context (D : dialect).
  Definition wsp : lang := fun s => Forall (white D) s.
  Definition sp : lang := fun s => s <> [] /\ Forall (white D) s.
  Definition numericoid (s : str) : Prop :=
    exists l, (2 <= List.length l)%nat /\ Forall (number D) l /\ s = joined (ch ".") l.
  Definition oid (s : str) : Prop := descr s \/ numericoid s.

  (** x or ( x sep x ... ) *)
  Fixpoint sep_list (one : str -> lang) (sep : lang) (l : list str) : lang :=
    match l with
    | [] => fun _ => False
    | [x] => one x
    | x :: l' => one x ;; sep ;; sep_list one sep l'
    end.
  Definition paren (a : lang) : lang := is (lit "(") ;; wsp ;; a ;; wsp ;; is (lit ")").
  Definition one_or_list (one : str -> lang) (sep : lang) (l : list str) : lang :=
    either (fun s => exists x, l = [x] /\ one x s) (paren (sep_list one sep l)).

  (** qdescrs, oids *)
  Definition qdescr (x : str) : lang := is (lit "'") ;; such x descr ;; is (lit "'").
  Definition qdescrs (l : list str) : lang := one_or_list qdescr sp l.
  Definition oids (l : list str) : lang := one_or_list (fun x => such x oid) (wsp ;; is (lit "$") ;; wsp) l.
  (** qdstring; its content does not matter to the code *)
  Definition dpiece (s : str) : Prop :=
    s = lit "\27" \/ s = lit "\5C" \/ s = lit "\5c" \/ exists c, s = [c] /\ c <> ch "'" /\ c <> ch "\".
  Definition dstring : lang := fun s => exists l, l <> [] /\ Forall dpiece l /\ s = List.concat l.
  Definition qdstring : lang := is (lit "'") ;; dstring ;; is (lit "'").
  Definition qdstrings : lang :=
    either qdstring (paren (fun s => (exists n, sep_list (fun _ => qdstring) sp (repeat [] (S n)) s) \/ empty_list D /\ s = [])).

  (** optional parts; kw is the keyword *)
  Definition kw (k : string) : lang := sp ;; keyword D (lit k).
  Definition opt_part (k : string) (v : option str) (P : str -> Prop) : lang :=
    match v with None => is [] | Some x => kw k ;; sp ;; such x P end.
  Definition list_part (k : string) (l : list str) (P : list str -> lang) : lang :=
    match l with [] => is [] | _ => kw k ;; sp ;; P l end.
  (** like opt_part, the value not being kept *)
  Definition other_part (k : string) (P : lang) : lang := either (is []) (kw k ;; sp ;; P).
  Definition flag_part (k : string) (b : bool) : lang := if b then kw k else is [].
  Definition names_part (l : list str) : lang :=
    either (list_part "NAME" l qdescrs) (fun s => empty_list D /\ l = [] /\ (kw "NAME" ;; sp ;; paren (is [])) s).

  Definition xchar (c : N) : Prop := ALPHA c \/ c = ch "_" \/ c = ch "-".
  Definition extension : lang :=
    sp ;; keyword D (lit "X-") ;; (fun s => s <> [] /\ Forall xchar s) ;; sp ;; qdstrings.
  Fixpoint repeated (n : nat) (a : lang) : lang :=
    match n with O => is [] | S n' => a ;; repeated n' a end.
  Definition extensions : lang := fun s => exists n, extension_count D n /\ repeated n extension s.

  (** ObjectClassDescription *)
  Inductive kind := ABSTRACT | STRUCTURAL | AUXILIARY.
  Record oc_desc := mk_oc_desc {
    d_oid : str; d_names : list str; d_obsolete : bool; d_sups : list str; d_kind : option kind;
    d_must : list str; d_may : list str }.
  Definition kind_word (k : kind) : string :=
    match k with ABSTRACT => "ABSTRACT" | STRUCTURAL => "STRUCTURAL" | AUXILIARY => "AUXILIARY" end.
  Definition kind_part (k : option kind) : lang := match k with None => is [] | Some k => kw (kind_word k) end.
  Definition oc_text (d : oc_desc) : lang :=
    is (lit "(") ;; wsp ;; such (d_oid d) numericoid ;;
    names_part (d_names d) ;;
    other_part "DESC" qdstring ;;
    flag_part "OBSOLETE" (d_obsolete d) ;;
    list_part "SUP" (d_sups d) oids ;;
    kind_part (d_kind d) ;;
    list_part "MUST" (d_must d) oids ;;
    list_part "MAY" (d_may d) oids ;;
    extensions ;; wsp ;; is (lit ")").

  (** AttributeTypeDescription; noidlen = numericoid [ LCURLY len RCURLY ] *)
  Inductive usage := userApplications | directoryOperation | distributedOperation | dSAOperation.
  Definition usage_word (u : usage) : string :=
    match u with userApplications => "userApplications" | directoryOperation => "directoryOperation"
               | distributedOperation => "distributedOperation" | dSAOperation => "dSAOperation" end.
  Record at_desc := mk_at_desc {
    a_oid : str; a_names : list str; a_obsolete : bool; a_sup : option str; a_equality : option str;
    a_syntax : option (str * option str);        (* the length as written *)
    a_single : bool; a_collective : bool; a_no_user_mod : bool; a_usage : option usage }.
  Definition noidlen (o : str) (len : option str) : lang :=
    such o numericoid ;; match len with None => is [] | Some n => is (lit "{") ;; such n (number D) ;; is (lit "}") end.
  Definition syntax_part (v : option (str * option str)) : lang :=
    match v with None => is [] | Some (o, len) => kw "SYNTAX" ;; sp ;; noidlen o len end.
  Definition usage_part (v : option usage) : lang :=
    match v with None => is [] | Some u => kw "USAGE" ;; sp ;; keyword D (lit (usage_word u)) end.
  Definition at_text (d : at_desc) : lang :=
    is (lit "(") ;; wsp ;; such (a_oid d) numericoid ;;
    names_part (a_names d) ;;
    other_part "DESC" qdstring ;;
    flag_part "OBSOLETE" (a_obsolete d) ;;
    opt_part "SUP" (a_sup d) oid ;;
    opt_part "EQUALITY" (a_equality d) oid ;;
    other_part "ORDERING" oid ;;
    other_part "SUBSTR" oid ;;
    syntax_part (a_syntax d) ;;
    flag_part "SINGLE-VALUE" (a_single d) ;;
    flag_part "COLLECTIVE" (a_collective d) ;;
    flag_part "NO-USER-MODIFICATION" (a_no_user_mod d) ;;
    usage_part (a_usage d) ;;
    extensions ;; wsp ;; is (lit ")").
End Grammar.

(** RFC 4512: spaces, keywords in any letter case (ABNF strings), numbers without leading zeros,
    empty lists, any number of extensions *)
Definition rfc4512 : dialect :=
  mk_dialect (fun c => c = 32) (fun k s => ascii_lower s = ascii_lower k) rfc_number True (fun _ => True).
(** What the code reads: any white space, keywords in upper case, any digits, no empty list, at
    most one extension *)
Definition laurelin : dialect :=
  mk_dialect (fun c => py_isspace c = true) (fun k s => s = k) digits False (fun n => (n <= 1)%nat).

(** Descriptions of both: what RFC 4512 allows, with the keywords in upper case as the RFC writes
    them, no empty list and at most one extension *)
Definition common : dialect :=
  mk_dialect (fun c => c = 32) (fun k s => s = k) rfc_number False (fun n => (n <= 1)%nat).

(** white space around the description *)
Definition padded (a : lang) : lang :=
  fun s => exists u x v, s = u ++ x ++ v /\ Forall (fun c => py_isspace c = true) u /\ Forall (fun c => py_isspace c = true) v /\ a x.

(** str.isdigit tells digits from letters *)
Definition tells_digits (isdigit : N -> bool) : Prop :=
  (forall c, DIGIT c -> isdigit c = true) /\ (forall c, ALPHA c -> isdigit c = false).

(** The attribute names a list of OIDs stands for: a descriptor is a name; a numeric OID stands for
    the names of the attribute type known under it, if any *)
Inductive names_for (names_of : str -> option (list str)) : list str -> list str -> Prop :=
| nf_nil : names_for names_of [] []
| nf_descr x l r : descr x -> names_for names_of l r -> names_for names_of (x :: l) (x :: r)
| nf_known x l r ns : numericoid laurelin x -> names_of x = Some ns -> names_for names_of l r -> names_for names_of (x :: l) (ns ++ r)
| nf_unknown x l r : numericoid laurelin x -> names_of x = None -> names_for names_of l r -> names_for names_of (x :: l) r.

(** the value of a number written in decimal *)
Definition value (s : str) : N := fold_left (fun n c => 10 * n + (c - 48)) s 0.

(** What an attribute type description states about each feature *)
Definition stated (d : at_desc) (f : field) : option fval :=
  match f with
  | FEquality => option_map (fun e => VOid (Some e)) (a_equality d)
  | FSyntax => option_map (fun p => VOid (Some (fst p))) (a_syntax d)
  | FLength => option_map (fun p => VNum (match snd p with Some n => Z.of_N (value n) | None => (-1)%Z end)) (a_syntax d)
  | FObsolete => if a_obsolete d then Some (VFlag true) else None
  | FSingle => if a_single d then Some (VFlag true) else None
  | FCollective => if a_collective d then Some (VFlag true) else None
  | FNoUserMod => if a_no_user_mod d then Some (VFlag true) else None
  | FUsage => option_map (fun u => VText (lit (usage_word u))) (a_usage d)
  end.
