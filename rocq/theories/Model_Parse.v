(** * Model of the parsing of object class and attribute type descriptions
    /repo/laurelin/ldap/rfc4512.py, objectclass.py:36-108, attributetype.py:67-132,
    protoutils.py:57-61, utils.py:53-55 (collapse_whitespace).
    Simplifications: warnings and log messages are not modelled; [isdigit] (str.isdigit of one
    character) and the registry of attribute types ([names_of]: numeric OID to names) are
    arbitrary; int() of a string of digits is its value whatever its length. *)
From Verif Require Import PyBase Model_Prep Model_Uri Model_Schema Model_Regex.

(** ** The patterns *)
(** ALPHA, DIGIT, keychar: rfc4512.py:8-15 *)
Definition alpha_ranges : list (N * N) := [(65, 90); (97, 122)]%N.
Definition digit_ranges : list (N * N) := [(48, 57)]%N.
Definition keychar_ranges : list (N * N) := [(65, 90); (97, 122); (48, 57); (45, 45)]%N.
Definition rALPHA : rx := RCls alpha_ranges.
Definition rDIGIT : rx := RCls digit_ranges.
Definition rkeychar : rx := RCls keychar_ranges.
(** SP, WSP: rfc4512.py:12-13 *)
Definition rSP : rx := RPlus (RC " ").
Definition rWSP : rx := RStar (RC " ").
(** keystring, numericoid, descr, oid: rfc4512.py:16-20 *)
Definition rkeystring : rx := RSeq rALPHA (RStar rkeychar).
Definition rnumericoid : rx := RSeq (RPlus rDIGIT) (RPlus (RSeq (RC ".") (RPlus rDIGIT))).
Definition rdescr : rx := rkeystring.
Definition roid : rx := RAlt rdescr rnumericoid.
(** a list in parentheses: a pattern '\(' + WSP + list + WSP + '\)' *)
Definition rparen (l : rx) : rx := RSeqs [RC "("; rWSP; l; rWSP; RC ")"].
(** qdescr, qdescrlist, qdescrs: rfc4512.py:22-24 *)
Definition rqdescr : rx := RSeqs [RC "'"; rdescr; RC "'"].
Definition rqdescrlist : rx := RSeq rqdescr (RStar (RSeq rSP rqdescr)).
Definition rqdescrs : rx := RAlt rqdescr (rparen rqdescrlist).
(** QQ, QS, QUTF8, dstring, qdstring, qdstringlist, qdstrings: rfc4512.py:26-33 *)
Definition rQQ : rx := RW "\27".
Definition rQS : rx := RSeq (RW "\5") (RCls [(67, 67); (99, 99)]%N).
Definition rQUTF8 : rx := RNot [(39, 39); (92, 92)]%N.
Definition rdstring : rx := RPlus (RAlts [rQS; rQQ; rQUTF8]).
Definition rqdstring : rx := RSeqs [RC "'"; rdstring; RC "'"].
Definition rqdstringlist : rx := RSeq rqdstring (RStar (RSeq rSP rqdstring)).
Definition rqdstrings : rx := RAlt rqdstring (rparen rqdstringlist).
(** oidlist, oids: rfc4512.py:35-36 *)
Definition roidlist : rx := RSeq roid (RStar (RSeqs [rWSP; RC "$"; rWSP; roid])).
Definition roids : rx := RAlt roid (rparen roidlist).
(** noidlen: rfc4512.py:38 (its numbered group is never read) *)
Definition rnoidlen : rx := RSeq rnumericoid (ROpt (RSeqs [RC "{"; RPlus rDIGIT; RC "}"])).
(** xstring, extensions: rfc4512.py:40-41 *)
Definition rxstring : rx := RSeqs [RC "X"; RC "-"; RPlus (RCls [(65, 90); (97, 122); (95, 95); (45, 45)]%N)].
Definition rextensions : rx := ROpt (RGroup (lit "extensions") (RSeqs [RC " "; rxstring; RC " "; rqdstrings])).

(** '(?:' + SP + kw + SP + '(?P<g>' + a + '))?' *)
Definition rkey (kw g : string) (a : rx) : rx := ROpt (RSeqs [rSP; RW kw; rSP; RGroup (lit g) a]).
(** '(?P<g>' + SP + kw + ')?' *)
Definition rflag (kw g : string) : rx := ROpt (RGroup (lit g) (RSeq rSP (RW kw))).

(** ObjectClassDescription: rfc4512.py:43-54 *)
Definition rObjectClassDescription : rx := RSeqs [
  RC "("; rWSP;
  RGroup (lit "oid") rnumericoid;
  rkey "NAME" "name" rqdescrs;
  rkey "DESC" "desc" rqdstring;
  rflag "OBSOLETE" "obsolete";
  rkey "SUP" "superclass" roids;
  ROpt (RSeq rSP (RGroup (lit "kind") (RAlts [RW "ABSTRACT"; RW "STRUCTURAL"; RW "AUXILIARY"])));
  rkey "MUST" "must" roids;
  rkey "MAY" "may" roids;
  rextensions; rWSP; RC ")"].

(** AttributeTypeDescription: rfc4512.py:56-73 *)
Definition rAttributeTypeDescription : rx := RSeqs [
  RC "("; rWSP;
  RGroup (lit "oid") rnumericoid;
  rkey "NAME" "name" rqdescrs;
  rkey "DESC" "desc" rqdstring;
  rflag "OBSOLETE" "obsolete";
  rkey "SUP" "supertype" roid;
  rkey "EQUALITY" "equality" roid;
  rkey "ORDERING" "ordering" roid;
  rkey "SUBSTR" "substr" roid;
  rkey "SYNTAX" "syntax" rnoidlen;
  rflag "SINGLE-VALUE" "single_value";
  rflag "COLLECTIVE" "collective";
  rflag "NO-USER-MODIFICATION" "no_user_mod";
  rkey "USAGE" "usage" (RAlts [RW "userApplications"; RW "directoryOperation"; RW "distributedOperation"; RW "dSAOperation"]);
  rextensions; rWSP; RC ")"].

(** ** Helpers *)
(** re.sub('\s+', ' ', s): utils.py:55; [run] says that the previous character was white space *)
Fixpoint sub_white (run : bool) (s : str) : str :=
  match s with
  | [] => []
  | c :: s' =>
      if py_isspace c then (if run then sub_white true s' else 32%N :: sub_white true s')
      else c :: sub_white false s'
  end.
(** collapse_whitespace: utils.py:53-55 *)
Definition collapse_whitespace (s : str) : str := py_strip (sub_white false s).

(** parse_qdescrs: protoutils.py:57-61 *)
Definition parse_qdescrs (spec : option str) : list str :=
  match spec with
  | None => []
  | Some x => map (strip_by (fun c => N.eqb c 39))
                  (py_split [32%N] (strip_by (fun c => N.eqb c 40 || N.eqb c 32 || N.eqb c 41) x))
  end.

(** _parse_oids: objectclass.py:36-41 *)
Definition parse_oids (spec : option str) : list str :=
  match spec with
  | None | Some [] => []
  | Some x => map py_strip (py_split (lit "$") (strip_by (fun c => N.eqb c 40 || N.eqb c 32 || N.eqb c 41) x))
  end.

Section Parse.
  Context (isdigit : N -> bool) (names_of : str -> option (list str)).

  (** the loop of _parse_attr_list: objectclass.py:46-57; None: KeyError, a warning *)
  Fixpoint attr_names (l : list str) : res (list str) :=
    match l with
    | [] => Ok []
    | attr :: rest =>
        match attr with
        | [] => Raise IndexError                                  (* attr[0] *)
        | c :: _ =>
            if isdigit c then
              let ns := match names_of attr with Some ns => ns | None => [] end in
              let* r := attr_names rest in Ok (ns ++ r)
            else let* r := attr_names rest in Ok (attr :: r)
        end
    end.
  (** _parse_attr_list: objectclass.py:44-58 *)
  Definition parse_attr_list (spec : option str) : res (list str) := attr_names (parse_oids spec).

  (** What ObjectClass.__init__ sets: objectclass.py:81-108 *)
  Record pclass := mk_pclass {
    pc_oid : str; pc_names : list str; pc_sups : list str; pc_kind : str; pc_obsolete : bool;
    pc_must : list str; pc_may : list str }.
  (** bool(obsolete) of the text of a group; None: the group took no part *)
  Definition present (g : option str) : bool := match g with Some (_ :: _) => true | _ => false end.

  (** ObjectClass.__init__: objectclass.py:81-108 *)
  Definition object_class (spec : str) : res pclass :=
    match match_anchored rObjectClassDescription (py_strip (collapse_whitespace spec)) with
    | None => Raise LDAPSchemaError
    | Some c =>
        match group c (lit "oid") with
        | None => Raise TypeError       (* not possible: the group oid takes part in every match *)
        | Some oid =>
            let kind := match group c (lit "kind") with Some k => k | None => lit "STRUCTURAL" end in
            let* must := parse_attr_list (group c (lit "must")) in
            let* may := parse_attr_list (group c (lit "may")) in
            Ok (mk_pclass oid (parse_qdescrs (group c (lit "name"))) (parse_oids (group c (lit "superclass"))) kind
                          (present (group c (lit "obsolete"))) must may)
        end
    end.
End Parse.

(** ** Attribute types *)
(** what AttributeType.__init__ states explicitly, as Model_Schema.atype, with OID and names *)
Record ptype := mk_ptype { pt_oid : str; pt_names : list str; pt_type : atype }.

(** syntax.split('{') and the length: attributetype.py:91-98 *)
Definition syntax_parts (x : str) : res (str * Z) :=
  match py_split (lit "{") x with
  | [] => Raise IndexError
  | [o] => Ok (o, (-1)%Z)
  | o :: n :: _ => let* v := py_int (strip_by (N.eqb (ch "}")) n) in Ok (o, Z.of_N v)
  end.

(** which instance attributes the text of the groups sets: attributetype.py:84-132 *)
Definition own_fields (c : caps) (syn : option (str * Z)) (f : field) : option fval :=
  match f with
  | FEquality => match group c (lit "equality") with Some e => Some (VOid (Some e)) | None => None end
  | FSyntax => match syn with Some (o, _) => Some (VOid (Some o)) | None => None end
  | FLength => match syn with Some (_, n) => Some (VNum n) | None => None end
  | FObsolete => match group c (lit "obsolete") with Some g => Some (VFlag (present (Some g))) | None => None end
  | FSingle => match group c (lit "single_value") with Some g => Some (VFlag (present (Some g))) | None => None end
  | FCollective => match group c (lit "collective") with Some g => Some (VFlag (present (Some g))) | None => None end
  | FNoUserMod => match group c (lit "no_user_mod") with Some g => Some (VFlag (present (Some g))) | None => None end
  | FUsage => match group c (lit "usage") with Some (a :: u) => Some (VText (a :: u)) | _ => None end
  end.

(** AttributeType.__init__: attributetype.py:67-132 *)
Definition attribute_type (spec : str) : res ptype :=
  match match_anchored rAttributeTypeDescription (py_strip (collapse_whitespace spec)) with
  | None => Raise LDAPSchemaError
  | Some c =>
      match group c (lit "oid") with
      | None | Some [] => Raise LDAPSchemaError                    (* if not self.oid *)
      | Some oid =>
          match parse_qdescrs (group c (lit "name")) with
          | [] => Raise LDAPSchemaError                            (* if not self.names *)
          | names =>
              let sup := match group c (lit "supertype") with Some (a :: s) => Some (py_strip (a :: s)) | o => o end in
              let* syn := match group c (lit "syntax") with
                          | None => Ok None
                          | Some x => let* p := syntax_parts x in Ok (Some p)
                          end in
              Ok (mk_ptype oid names (mk_atype sup (own_fields c syn)))
          end
      end
  end.
