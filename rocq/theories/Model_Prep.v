(** * Model of RFC 4518 string preparation and of the equality matching rules
    /repo/laurelin/ldap/rfc4518.py, /repo/laurelin/ldap/rules.py,
    /repo/laurelin/extensions/base_schema.py (matching rules)
    Simplifications: values are [str] already, so Transcode (rfc4518.py:25-32) is the identity;
    Python 3 on a UCS-4 build (the only kind since 3.3). [unicodedata.normalize('NFKC', _)]
    and [str.casefold] are parameters. *)
From Verif Require Import PyBase Model_Modify Model_PrepTable.

(** A character class given as a list of inclusive ranges. *)
Definition in_ranges (l : list (N * N)) (c : N) : bool :=
  existsb (fun r => ((fst r <=? c) && (c <=? snd r))%N) l.

(** _map_nothing: /repo/laurelin/ldap/rfc4518.py:36-41 *)
Definition map_nothing_ranges : list (N * N) := [
  (173,173); (6150,6150); (847,847); (6155,6157); (65024,65039); (65532,65532); (0,8); (14,31);
  (127,132); (134,159); (1757,1757); (1807,1807); (6158,6158); (8203,8207); (8234,8238);
  (8288,8291); (8298,8303); (65279,65279); (65529,65531); (119155,119162); (917505,917505);
  (917536,917631)]%N.
(** _map_space: /repo/laurelin/ldap/rfc4518.py:49-51 *)
Definition map_space_ranges : list (N * N) := [
  (9,13); (133,133); (32,32); (160,160); (5760,5760); (8192,8202); (8232,8233); (8239,8239);
  (8287,8287); (12288,12288)]%N.

(** Map.characters: /repo/laurelin/ldap/rfc4518.py:55-59 *)
Definition map_characters (v : str) : str :=
  map (fun c => if in_ranges map_space_ranges c then 32%N else c)
      (List.filter (fun c => negb (in_ranges map_nothing_ranges c)) v).

(** [str.strip()] without arguments strips Unicode white space (str.isspace): used at
    /repo/laurelin/ldap/rfc4518.py:211 *)
Definition py_space_ranges : list (N * N) := [
  (9,13); (28,32); (133,133); (160,160); (5760,5760); (8192,8202); (8232,8233); (8239,8239);
  (8287,8287); (12288,12288)]%N.
Definition py_isspace (c : N) : bool := in_ranges py_space_ranges c.
Fixpoint lstrip (p : N -> bool) (s : str) : str :=
  match s with
  | c :: s' => if p c then lstrip p s' else s
  | [] => []
  end.
Definition rstrip (p : N -> bool) (s : str) : str := rev (lstrip p (rev s)).
Definition strip_by (p : N -> bool) (s : str) : str := rstrip p (lstrip p s).
Definition py_strip (s : str) : str := strip_by py_isspace s.

(** [re.sub(' +', rep, value)]: each maximal run of spaces becomes [rep].
    [run] says that the previous character was a space.
    /repo/laurelin/ldap/rfc4518.py:212,218 *)
Fixpoint sub_spaces (rep : str) (run : bool) (s : str) : str :=
  match s with
  | [] => []
  | c :: s' =>
      if N.eqb c 32 then (if run then sub_spaces rep true s' else rep ++ sub_spaces rep true s')
      else c :: sub_spaces rep false s'
  end.

(** Insignificant.space: /repo/laurelin/ldap/rfc4518.py:209-214 *)
Definition insig_space (v : str) : str :=
  32%N :: sub_spaces [32%N; 32%N] false (py_strip v) ++ [32%N].

(** Insignificant.numeric_string: /repo/laurelin/ldap/rfc4518.py:216-219 *)
Definition insig_numeric (v : str) : str := sub_spaces [] false v.

(** Insignificant.telephone_number: /repo/laurelin/ldap/rfc4518.py:221-224 *)
Definition phone_ranges : list (N * N) := [
  (32,32); (45,45); (1418,1418); (8208,8208); (8209,8209); (8722,8722); (65123,65123);
  (65293,65293)]%N.
Definition insig_phone (v : str) : str := List.filter (fun c => negb (in_ranges phone_ranges c)) v.

(** Prohibit: [re.match] looks at the start of the string only.
    /repo/laurelin/ldap/rfc4518.py:202-205 *)
Definition prohibit (v : str) : res str :=
  match v with
  | c :: _ => if in_ranges prohibited_ranges c then Raise ProhibitedCharacterError else Ok v
  | [] => Ok v
  end.

Section Rules.
  (** Normalize and Map.casefold: /repo/laurelin/ldap/rfc4518.py:61-64,73-74 *)
  Context (nfkc casefold : str -> str).

  (** Map.all: /repo/laurelin/ldap/rfc4518.py:66-70 *)
  Definition map_all (v : str) : str := casefold (map_characters v).

  (** the prep_methods tuples:
      /repo/laurelin/extensions/base_schema.py:33-47,1585-1591,1612-1618
      (Transcode omitted, see above) *)
  Definition prep_case_exact : list (str -> res str) :=
    [(fun v => Ok (map_characters v)); (fun v => Ok (nfkc v)); prohibit; (fun v => Ok (insig_space v))].
  Definition prep_case_ignore : list (str -> res str) :=
    [(fun v => Ok (map_all v)); (fun v => Ok (nfkc v)); prohibit; (fun v => Ok (insig_space v))].
  Definition prep_numeric : list (str -> res str) :=
    [(fun v => Ok (map_characters v)); (fun v => Ok (nfkc v)); prohibit; (fun v => Ok (insig_numeric v))].
  Definition prep_phone : list (str -> res str) :=
    [(fun v => Ok (map_all v)); (fun v => Ok (nfkc v)); prohibit; (fun v => Ok (insig_phone v))].
End Rules.

(** A matching rule: its prep_methods and its do_match.
    /repo/laurelin/ldap/rules.py:106-163 *)
Record mrule := mk_mrule {
  mr_prep : list (str -> res str);
  mr_do_match : str -> str -> res bool }.

(** MatchingRule.match: /repo/laurelin/ldap/rules.py:157-163 *)
Definition mr_match (r : mrule) (a b : str) : res bool :=
  let* pa := rule_prepare (mr_prep r) a in
  let* pb := rule_prepare (mr_prep r) b in
  mr_do_match r pa pb.

(** The plain equality rules (no overridden do_match): rules.py:171-176 *)
Definition eq_rule (methods : list (str -> res str)) : mrule := mk_mrule methods eq_do_match.

(** caseExactMatch, caseExactIA5Match: base_schema.py:1491-1501;
    caseIgnoreMatch, caseIgnoreIA5Match, caseIgnoreListMatch: base_schema.py:1503-1519;
    numericStringMatch: 1581-1591; telephoneNumberMatch: 1608-1618;
    rules without prep_methods (booleanMatch, integerMatch, octetStringMatch, ...):
    1481-1489, 1521-1524, 1571-1579, 1593-1606, 1620-1623 *)
Definition caseExactMatch nfkc := eq_rule (prep_case_exact nfkc).
Definition caseIgnoreMatch nfkc fold := eq_rule (prep_case_ignore nfkc fold).
Definition numericStringMatch nfkc := eq_rule (prep_numeric nfkc).
Definition telephoneNumberMatch nfkc fold := eq_rule (prep_phone nfkc fold).
Definition octetStringMatch := eq_rule [].

(** [re.split(r'(?<!\\)X', s)] for a one-character X: split at every X that is not
    directly preceded by a backslash.  [prev] is the previous character, [acc] the
    current piece (reversed). /repo/laurelin/extensions/base_schema.py:1532,1535,1538 *)
Fixpoint resplit (x : N) (prev : option N) (acc : str) (s : str) : list str :=
  match s with
  | [] => [rev acc]
  | c :: s' =>
      if N.eqb c x && negb (match prev with Some p => N.eqb p 92 | None => false end)
      then rev acc :: resplit x (Some c) [] s'
      else resplit x (Some c) (c :: acc) s'
  end.
Definition unescaped_split (x : N) (s : str) : list str := resplit x None [] s.

(** The AVA loop of _parse_dn: a tuple assignment needs exactly two pieces.
    base_schema.py:1537-1539 *)
Fixpoint parse_avas (l : list str) (d : list (str * str)) : res (list (str * str)) :=
  match l with
  | [] => Ok d
  | ava :: l' =>
      match unescaped_split (ch "=") ava with
      | [a; v] => parse_avas l' (dset d a v)
      | _ => Raise ValueError
      end
  end.
Fixpoint parse_rdns (l : list str) : res (list (list (str * str))) :=
  match l with
  | [] => Ok []
  | rdn :: l' =>
      let* d := parse_avas (unescaped_split (ch "+") rdn) [] in
      let* ds := parse_rdns l' in Ok (d :: ds)
  end.
(** DistinguishedNameMatch._parse_dn: base_schema.py:1531-1541 *)
Definition parse_dn (v : str) : res (list (list (str * str))) :=
  parse_rdns (unescaped_split (ch ",") v).

(** DistinguishedNameMatch.do_match: base_schema.py:1543-1559.  [type_match] is
    [get_attribute_type(attr).match]; the result is the loop's outcome with every
    exception raised inside the try block turned into False. *)
Fixpoint dn_avas_match (type_match : str -> str -> str -> res bool)
    (arest : list (str * str)) (brdn : list (str * str)) : res bool :=
  match arest with
  | [] => Ok true
  | (attr, av) :: r =>
      match dget brdn attr with
      | None => Raise KeyError
      | Some bv =>
          let* m := type_match attr av bv in
          if m then dn_avas_match type_match r brdn else Ok false
      end
  end.
Fixpoint dn_rdns_match (type_match : str -> str -> str -> res bool)
    (a b : list (list (str * str))) : res bool :=
  match a, b with
  | ra :: a', rb :: b' =>
      let* m := dn_avas_match type_match ra rb in
      if m then dn_rdns_match type_match a' b' else Ok false
  | _, _ => Ok true
  end.
Definition dn_do_match_with (type_match : str -> str -> str -> res bool) (a b : str) : res bool :=
  let* da := parse_dn a in
  let* db := parse_dn b in
  if Nat.eqb (List.length da) (List.length db)
  then match dn_rdns_match type_match da db with Ok m => Ok m | Raise _ => Ok false end
  else Ok false.

(** The attribute type classes define no [match] method and AttributeType.__getattr__
    ends in AttributeError (or in an unknown-supertype KeyError), so in the code as it is
    [get_attribute_type(attr).match] always raises.
    /repo/laurelin/ldap/attributetype.py:36-207 (no such method), 159-164, 242-272 *)
Definition code_type_match : str -> str -> str -> res bool := fun _ _ _ => Raise AttributeError.
Definition distinguishedNameMatch : mrule := mk_mrule [] (dn_do_match_with code_type_match).

(** GeneralizedTimeMatch.do_match: base_schema.py:1566-1569; [valid] is the syntax
    validation of the assertion value. *)
Definition generalizedTimeMatch (valid : str -> res unit) : mrule :=
  mk_mrule [] (fun _ b => let* _ := valid b in Ok true).

(** An attribute type with that equality rule, as used by [index]:
    /repo/laurelin/ldap/attributetype.py:150-157,182-202 *)
Definition type_with_rule (valid : str -> res unit) (r : mrule) : attr_type :=
  mk_attr_type valid (rule_prepare (mr_prep r)) (mr_do_match r).
