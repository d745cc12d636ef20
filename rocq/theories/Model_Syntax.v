(** * Model of the built-in syntax rules
    /repo/laurelin/extensions/base_schema.py:27-31, 1087-1477, rules.py:21-82, utils.py:13-121,
    rfc4514.py.
    Simplifications: Python 3 (six.string_types is str, six.binary_type is bytes); the return
    value of validate (a match object or None) is not kept; the character classes of
    escaped_regex are sets of characters (none of the callers uses a closing bracket, which
    would end the class in the text of the pattern). *)
From Verif Require Import PyBase Model_Prep Model_Uri Model_Regex Model_Parse.

Inductive value := Text (s : str) | Bytes (b : list N).

(** RegexSyntaxRule.validate: rules.py:69-82; a str pattern does not apply to bytes *)
Definition regex_rule (match_ : str -> option caps) (v : value) : res unit :=
  match v with
  | Text s => match match_ s with Some _ => Ok tt | None => Raise InvalidSyntaxError end
  | Bytes _ => Raise TypeError
  end.

(** ** Patterns *)
(** _PrintableCharacter, _PrintableString, _IA5String, _BitString: base_schema.py:27-31 *)
Definition printable_ranges : list (N * N) :=
  [(65, 90); (97, 122); (48, 57); (39, 39); (40, 40); (41, 41); (43, 43); (44, 44); (46, 46); (61, 61); (47, 47); (58, 58); (63, 63); (32, 32); (45, 45)]%N.
Definition rPrintableCharacter : rx := RCls printable_ranges.
Definition rPrintableString : rx := RPlus rPrintableCharacter.
Definition rIA5String : rx := RStar (RCls [(0, 127)]%N).
Definition rBitString : rx := RSeqs [RC "'"; RStar (RCls [(48, 49)]%N); RC "'"; RC "B"].
(** CountryString: base_schema.py:1131 *)
Definition rCountryString : rx := RTimes 2 rPrintableCharacter.
(** DeliveryMethod: base_schema.py:1136-1137 *)
Definition pdm_words : list str :=
  [lit "any"; lit "mhs"; lit "physical"; lit "telex"; lit "teletext"; lit "g3fax"; lit "g4fax"; lit "ia5"; lit "videotext"; lit "telephone"].
Definition rpdm : rx := RAlts (map RLit pdm_words).
Definition rspaces : rx := RStar (RChr py_isspace).                                      (* \s* *)
Definition rDeliveryMethod : rx := RSeq rpdm (RStar (RGroup (lit "1") (RSeqs [rspaces; RC "$"; rspaces; rpdm]))).
(** Integer: base_schema.py:1368; NumericString: base_schema.py:1410 *)
Definition rInteger : rx := RSeqs [ROpt (RC "-"); RCls [(49, 57)]%N; RStar rDIGIT].
Definition rNumericString : rx := RPlus (RCls [(48, 57); (32, 32)]%N).
(** OtherMailbox: base_schema.py:1433; TelexNumber: base_schema.py:1477 *)
Definition rOtherMailbox : rx := RSeqs [rPrintableString; RC "$"; rIA5String].
Definition rTelexNumber : rx := RSeqs [rPrintableString; RC "$"; rPrintableString; RC "$"; rPrintableString].
(** TeletextTerminalIdentifier: base_schema.py:1468-1472 *)
Definition rttx_value : rx := RStar (RAlts [RCls [(0, 35)]%N; RW "\24"; RW "\5C"]).
Definition ttx_keys : list str := [lit "graphic"; lit "control"; lit "misc"; lit "page"; lit "private"].
Definition rttx_param : rx := RSeqs [RAlts (map RLit ttx_keys); RC ":"; rttx_value].
Definition rTeletext : rx := RSeq rPrintableString (RStar (RSeq (RC "$") rttx_param)).

(** ** escaped_regex: utils.py:67-121 *)
(** a hexadecimal digit as hex() writes it, in both letter cases: utils.py:58-64, 106-107 *)
Definition rhex_digit (d : N) : rx :=
  if (d <? 10)%N then RChr (N.eqb (48 + d)) else RCls [(87 + d, 87 + d); (55 + d, 55 + d)]%N.
(** the escape of one character: utils.py:91-109 *)
Definition rhex_escape (c : N) : res rx :=
  if (c <? 256)%N then Ok (RSeqs [RC "\"; rhex_digit (c / 16); rhex_digit (c mod 16)]) else Raise ValueError.
Fixpoint rhex_escapes (l : str) : res (list rx) :=
  match l with
  | [] => Ok []
  | c :: l' => let* r := rhex_escape c in let* rs := rhex_escapes l' in Ok (r :: rs)
  end.
(** escaped_regex: utils.py:67-121; [order]: the order in which a set lists its members.
    Moving a dash to the end and doubling a backslash (79-85, 111-118) concern the text of the
    character class only. *)
Definition escaped_regex (order : str -> str) (chars : str) : res rx :=
  let* esc := rhex_escapes (order chars) in
  Ok (RGroup [] (RAlts (esc ++ [RNot (map (fun c => (c, c)) (order chars))]))).
(** PostalAddress: base_schema.py:1439-1441, with _line_char given *)
Definition rPostalAddress (line_char : rx) : rx :=
  let line := RPlus line_char in RSeq line (RStar (RGroup [] (RSeq (RC "$") line))).
(** SubstringAssertion: base_schema.py:1452-1454, with _substring_character given *)
Definition rSubstringAssertion (ch_ : rx) : rx :=
  let sub := RPlus ch_ in RSeqs [ROpt sub; RC "*"; RStar (RSeq sub (RC "*")); ROpt sub].

(** ** Distinguished names: rfc4514.py *)
Definition HEX_ranges : list (N * N) := [(48, 57); (65, 70); (97, 102)]%N.
Definition rhexpair : rx := RTimes 2 (RCls HEX_ranges).
Definition rhexstring : rx := RSeq (RC "#") (RPlus rhexpair).
(** escaped: double quote, plus, comma, semicolon, less, greater, NUL, backslash; special adds
    space, sharp and equals: rfc4514.py:16-17 *)
Definition escaped_ranges : list (N * N) := [(34, 34); (43, 43); (44, 44); (59, 59); (60, 60); (62, 62); (0, 0); (92, 92)]%N.
Definition special_ranges : list (N * N) := escaped_ranges ++ [(32, 32); (35, 35); (61, 61)]%N.
(** pair, stringchar, leadchar, trailchar, string: rfc4514.py:19-29 *)
Definition rpair : rx := RSeq (RC "\") (RGroup [] (RAlt (RCls special_ranges) rhexpair)).
Definition rstringchar : rx := RNot escaped_ranges.
Definition rleadchar : rx := RNot special_ranges.
Definition rtrailchar : rx := RNot (escaped_ranges ++ [(32, 32)]%N).
Definition rstring : rx :=
  RSeqs [RAlt rleadchar rpair; RStar (RAlt rstringchar rpair); ROpt (RAlt rtrailchar rpair)].
(** attributeValue .. distinguishedName: rfc4514.py:31-36 *)
Definition rattributeValue : rx := RAlt rstring rhexstring.
Definition rattributeType : rx := RAlt rdescr rnumericoid.
Definition rattributeTypeAndValue : rx := RSeqs [rattributeType; RC "="; rattributeValue].
Definition rrdn : rx := RSeq rattributeTypeAndValue (RStar (RSeq (RC "+") rattributeTypeAndValue)).
Definition rdn : rx := RSeq rrdn (RStar (RSeq (RC ",") rrdn)).
(** NameAndOptionalUID: base_schema.py:1400 *)
Definition rNameAndOptionalUID : rx := RSeq rdn (ROpt (RSeq (RC "#") rBitString)).

(** ** Telephone numbers *)
(** re.sub('[^0-9+]', '', s): utils.py:38 *)
Definition dialled (s : str) : str := List.filter (fun c => in_ranges digit_ranges c || N.eqb c 43) s.
(** str.isdigit of the characters 0-9 and +: utils.py:45 *)
Definition all_digits (s : str) : bool := match s with [] => false | _ => forallb (in_ranges digit_ranges) s end.
(** validate_phone_number: utils.py:34-50 *)
Definition validate_phone_number (s : str) : bool :=
  let s := dialled s in
  let s := match s with c :: s' => if N.eqb c 43 then s' else s | [] => [] end in
  if all_digits s then (7 <=? List.length s) && (List.length s <=? 15) else false.
(** FacsimilieTelephoneNumber: base_schema.py:1266-1286 *)
Definition fax_parameters : list str :=
  [lit "twoDimensional"; lit "fineResolution"; lit "unlimitedLength"; lit "b4Length"; lit "a3Width"; lit "b4Width"; lit "uncompressed"].
Fixpoint fax_params (l : list str) : res unit :=
  match l with
  | [] => Ok tt
  | p :: l' => if smem p fax_parameters then fax_params l' else Raise InvalidSyntaxError
  end.
Definition fax_validate (v : value) : res unit :=
  match v with
  | Bytes _ => Raise TypeError                                   (* s.split('$') *)
  | Text s =>
      match py_split (lit "$") s with
      | [] => Raise IndexError
      | n :: ps => if validate_phone_number n then fax_params ps else Raise InvalidSyntaxError
      end
  end.

(** ** GeneralizedTime: base_schema.py:1297-1344 *)
Definition r2 (g : string) : rx := RGroup (lit g) (RTimes 2 rDIGIT).
Definition rGeneralizedTime : rx := RSeqs [
  RGroup (lit "1") (RTimes 4 rDIGIT); r2 "2"; r2 "3"; r2 "4"; ROpt (r2 "5"); ROpt (r2 "6");
  ROpt (RGroup (lit "7") (RSeq (RCls [(46, 46); (44, 44)]%N) (RPlus rDIGIT)));
  RGroup (lit "8") (RAlt (RC "Z") (RSeqs [RCls [(43, 43); (45, 45)]%N; r2 "9"; ROpt (r2 "10")]))].
(** int(m.group(g)) must lie in lo..hi; [opt]: the group may have taken no part *)
Definition in_bounds (c : caps) (g : string) (opt : bool) (lo hi : N) : res unit :=
  match group c (lit g) with
  | None => if opt then Ok tt else Raise TypeError
  | Some x => let* n := py_int x in if ((lo <=? n) && (n <=? hi))%N then Ok tt else Raise InvalidSyntaxError
  end.
Definition time_validate (v : value) : res unit :=
  match v with
  | Bytes _ => Raise TypeError
  | Text s =>
      match match_anchored rGeneralizedTime s with
      | None => Raise InvalidSyntaxError
      | Some c =>
          let* _ := in_bounds c "2" false 1 12 in
          let* _ := in_bounds c "3" false 1 31 in
          let* _ := in_bounds c "4" false 0 23 in
          let* _ := in_bounds c "5" true 0 59 in
          let* _ := in_bounds c "6" true 0 60 in
          match group c (lit "8") with
          | Some [90%N] => Ok tt
          | _ =>
              let* _ := in_bounds c "9" false 0 23 in
              in_bounds c "10" true 0 59
          end
      end
  end.

(** ** The rules *)
Inductive rule :=
| Binary | Certificate | BitString | Boolean | CountryString | DeliveryMethod | DirectoryString
| DistinguishedName | FacsimileTelephoneNumber | Fax | GeneralizedTime | IA5String | Integer
| JPEG | NameAndOptionalUID | NumericString | OctetString | OID | OtherMailbox | PostalAddress
| PrintableString | SubstringAssertion | TelephoneNumber | TeletextTerminalIdentifier | TelexNumber.

(** isinstance(s, six.binary_type): base_schema.py:1093-1095, 1101-1103 *)
Definition must_be_bytes (v : value) : res unit := match v with Bytes _ => Ok tt | Text _ => Raise InvalidSyntaxError end.

(** validate of each class.  [order]: see escaped_regex (evaluated when the module is loaded). *)
Definition validate (order : str -> str) (r : rule) (v : value) : res unit :=
  match r with
  | Binary | Certificate => must_be_bytes v
  | BitString => regex_rule (match_anchored rBitString) v                                       (* 1115-1118 *)
  | Boolean => match v with                                                                     (* 1120-1126 *)
               | Text s => if negb (str_eqb s (lit "TRUE")) && negb (str_eqb s (lit "FALSE")) then Raise InvalidSyntaxError else Ok tt
               | Bytes _ => Raise InvalidSyntaxError end
  | CountryString => regex_rule (match_anchored rCountryString) v                               (* 1128-1131 *)
  | DeliveryMethod => regex_rule (match_anchored rDeliveryMethod) v                             (* 1133-1137 *)
  | DirectoryString => match v with                                                             (* 1139-1145 *)
                       | Text (_ :: _) => Ok tt
                       | _ => Raise InvalidSyntaxError end
  | DistinguishedName => regex_rule (match_anchored rdn) v                                      (* 1157-1160 *)
  | FacsimileTelephoneNumber => fax_validate v                                                  (* 1266-1286 *)
  | Fax | OctetString => Ok tt                                                                  (* 1288-1295, 1417-1423 *)
  | GeneralizedTime => time_validate v
  | IA5String => regex_rule (match_anchored rIA5String) v                                       (* 1360-1363 *)
  | Integer => regex_rule (match_anchored rInteger) v                                           (* 1365-1368 *)
  | JPEG => match v with                                                                        (* 1370-1380 *)
            | Text _ => Raise InvalidSyntaxError
            | Bytes b => if str_eqb (firstn 4 (skipn 6 b)) (lit "JFIF") then Ok tt else Raise InvalidSyntaxError end
  | NameAndOptionalUID => regex_rule (match_prefix rNameAndOptionalUID) v                       (* 1397-1400: no $ *)
  | NumericString => regex_rule (match_anchored rNumericString) v                               (* 1407-1410 *)
  | OID => regex_rule (match_anchored roid) v                                                   (* 1425-1428 *)
  | OtherMailbox => regex_rule (match_anchored rOtherMailbox) v                                 (* 1430-1433 *)
  | PostalAddress => let* c := escaped_regex order (lit "\$") in regex_rule (match_anchored (rPostalAddress c)) v   (* 1435-1441 *)
  | PrintableString => regex_rule (match_anchored rPrintableString) v                           (* 1443-1446 *)
  | SubstringAssertion =>                                                                       (* 1448-1454: no ^ nor $ *)
      let* c := escaped_regex order (lit "\*") in regex_rule (match_prefix (rSubstringAssertion c)) v
  | TelephoneNumber => match v with                                                             (* 1456-1462 *)
                       | Text s => if validate_phone_number s then Ok tt else Raise InvalidSyntaxError
                       | Bytes _ => Raise TypeError end
  | TeletextTerminalIdentifier => regex_rule (match_anchored rTeletext) v                       (* 1464-1472 *)
  | TelexNumber => regex_rule (match_anchored rTelexNumber) v                                   (* 1474-1477 *)
  end.
