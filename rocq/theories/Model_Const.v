(** * Model of the conversions between constants, domains and text: ldap/__init__.py (31-38, 84-94), constants.py (14-39,
    74-117, 138-157), modify.py (12-38, 59-76), rfc4511.py (468-485, 672-678).
    An Enumerated of pyasn1 is its class name, its value (None: it has none, it stands for the type) and the names of the
    class; pyasn1 compares two of them, or one and an integer, by value.  Arguments that are not text (str.upper and the like
    raise AttributeError) are left out. *)
From Verif Require Import PyBase Model_Uri.
Local Open Scope string_scope.

(** sep.join(l) *)
Fixpoint py_join (sep : str) (l : list str) : str :=
  match l with
  | [] => []
  | [x] => x
  | x :: r => (x ++ sep ++ py_join sep r)%list
  end.
(** dc: __init__.py:31-33 *)
Definition dc (domain : str) : str := py_join (lit ",") (map (fun l => (lit "dc=" ++ l)%list) (py_split (lit ".") domain)).
(** i.split('=')[1] *)
Definition second_part (i : str) : res str :=
  match py_split (lit "=") i with _ :: v :: _ => Ok v | _ => Raise IndexError end.
Fixpoint seconds (l : list str) : res (list str) :=
  match l with
  | [] => Ok []
  | i :: r => let* v := second_part i in let* vs := seconds r in Ok (v :: vs)
  end.
(** domain: __init__.py:36-38 *)
Definition domain (dn : str) : res str := let* ls := seconds (py_split (lit ",") dn) in Ok (py_join (lit ".") ls).

Record enum := mk_enum { e_class : str; e_value : option Z; e_names : list (str * Z) }.
(** namedValues.getName *)
Fixpoint get_name (l : list (str * Z)) (z : Z) : option str :=
  match l with [] => None | (n, v) :: r => if Z.eqb v z then Some n else get_name r z end.
Definition scope_names : list (str * Z) := [(lit "baseObject", 0%Z); (lit "singleLevel", 1%Z); (lit "wholeSubtree", 2%Z)].
Definition deref_names : list (str * Z) :=
  [(lit "neverDerefAliases", 0%Z); (lit "derefInSearching", 1%Z); (lit "derefFindingBaseObj", 2%Z); (lit "derefAlways", 3%Z)].
Definition operation_names : list (str * Z) := [(lit "add", 0%Z); (lit "delete", 1%Z); (lit "replace", 2%Z); (lit "increment", 3%Z)].
(** the constructors: Scope('baseObject') and the like; None: pyasn1 refuses a name it does not have *)
Fixpoint number_of (l : list (str * Z)) (n : str) : option Z :=
  match l with [] => None | (n', v) :: r => if str_eqb n' n then Some v else number_of r n end.
Definition named (cls : string) (names : list (str * Z)) (n : string) : enum := mk_enum (lit cls) (number_of names (lit n)) names.
(** constants.py:60-71 *)
Definition Scope_BASE := named "Scope" scope_names "baseObject".
Definition Scope_ONE := named "Scope" scope_names "singleLevel".
Definition Scope_SUB := named "Scope" scope_names "wholeSubtree".
(** constants.py:125-135 *)
Definition Deref_NEVER := named "DerefAliases" deref_names "neverDerefAliases".
Definition Deref_SEARCH := named "DerefAliases" deref_names "derefInSearching".
Definition Deref_BASE := named "DerefAliases" deref_names "derefFindingBaseObj".
Definition Deref_ALWAYS := named "DerefAliases" deref_names "derefAlways".
(** modify.py:12-14 *)
Definition Mod_ADD := named "Operation" operation_names "add".
Definition Mod_REPLACE := named "Operation" operation_names "replace".
Definition Mod_DELETE := named "Operation" operation_names "delete".
(** a == b; comparing one that has no value raises PyAsn1Error *)
Definition pyasn1_error : exn := OtherExn 32.
Definition enum_eq (a b : enum) : res bool :=
  match e_value a, e_value b with Some x, Some y => Ok (Z.eqb x y) | _, _ => Raise pyasn1_error end.

Section Const.
  Context (upper lower py_repr : str -> str).
  (** Scope.string: constants.py:74-85 *)
  Definition scope_string (s : str) : res enum :=
    let s := lower s in
    if str_eqb s (lit "base") then Ok Scope_BASE
    else if str_eqb s (lit "one") then Ok Scope_ONE
    else if str_eqb s (lit "sub") then Ok Scope_SUB
    else Raise ValueError.
  (** Scope.constant: constants.py:87-97 *)
  Definition scope_constant (c : enum) : res str :=
    let* b := enum_eq c Scope_BASE in if b then Ok (lit "base") else
    let* b := enum_eq c Scope_ONE in if b then Ok (lit "one") else
    let* b := enum_eq c Scope_SUB in if b then Ok (lit "sub") else Raise ValueError.
  (** the three FilterSyntax constants, by their const: constants.py:9-33 *)
  Inductive fsyntax := STANDARD | SIMPLE | UNIFIED.
  (** FilterSyntax.string: constants.py:35-39; no other attribute of the class is in upper case *)
  Definition syntax_string (s : str) : res fsyntax :=
    let s := upper s in
    if str_eqb s (lit "STANDARD") then Ok STANDARD
    else if str_eqb s (lit "SIMPLE") then Ok SIMPLE
    else if str_eqb s (lit "UNIFIED") then Ok UNIFIED
    else Raise AttributeError.
  (** _FilterSyntaxSelection.__repr__: constants.py:18-26 *)
  Definition syntax_repr (x : fsyntax) : str :=
    match x with SIMPLE => lit "FilterSyntax.SIMPLE" | STANDARD => lit "FilterSyntax.STANDARD" | UNIFIED => lit "FilterSyntax.UNIFIED" end.
  (** Mod.op_to_string: modify.py:16-26 *)
  Definition op_to_string (o : enum) : res str :=
    let* b := enum_eq o Mod_ADD in if b then Ok (lit "ADD") else
    let* b := enum_eq o Mod_REPLACE in if b then Ok (lit "REPLACE") else
    let* b := enum_eq o Mod_DELETE in if b then Ok (lit "DELETE") else Raise ValueError.
  (** Mod.string: modify.py:28-38 *)
  Definition mod_string (s : str) : res enum :=
    if str_eqb s (lit "add") then Ok Mod_ADD
    else if str_eqb s (lit "replace") then Ok Mod_REPLACE
    else if str_eqb s (lit "delete") then Ok Mod_DELETE
    else Raise ValueError.

  (** repr(name), of the name that getName gave *)
  Definition name_repr (n : option str) : str := match n with Some n => py_repr n | None => lit "None" end.
  Definition call (cls arg : str) : str := (cls ++ lit "(" ++ arg ++ lit ")")%list.
  (** the common shape of _scope_repr, _deref_repr and _mod_op_repr: constants.py:100-114, 138-154; modify.py:59-73; int() of one
      without a value raises, which is caught *)
  Definition const_repr (known : list (string * string)) (e : enum) : str :=
    match e_value e with
    | None => call (e_class e) (lit "<schema object>")
    | Some z =>
        let name := get_name (e_names e) z in
        match List.find (fun kv => match name with Some n => str_eqb n (lit (fst kv)) | None => false end) known with
        | Some kv => lit (snd kv)
        | None => call (e_class e) (name_repr name)
        end
    end.
  Definition scope_repr := const_repr [("wholeSubtree", "Scope.SUB"); ("singleLevel", "Scope.ONE"); ("baseObject", "Scope.BASE")].
  Definition deref_repr := const_repr [("neverDerefAliases", "DerefAliases.NEVER"); ("derefInSearching", "DerefAliases.SEARCH");
    ("derefFindingBaseObj", "DerefAliases.BASE"); ("derefAlways", "DerefAliases.ALWAYS")].
  Definition operation_repr := const_repr [("add", "Mod.ADD"); ("replace", "Mod.REPLACE"); ("delete", "Mod.DELETE")].
  (** _enum_repr, of all others: __init__.py:84-94 *)
  Definition enum_repr (e : enum) : str :=
    call (e_class e) match e_value e with None => lit "<schema object>" | Some z => name_repr (get_name (e_names e) z) end.
End Const.
