(** * The values of the LDAP syntaxes (RFC 4517, 3.3; RFC 4514, 3; RFC 4512, 1.4)
    Quoted strings of the ABNF are taken as written. *)
From Verif Require Import PyBase Model_Prep Spec_Search Spec_Parse Model_Syntax.
Local Open Scope N_scope.

Definition all (P : N -> Prop) : lang := fun s => Forall P s.
Definition some (P : N -> Prop) : lang := fun s => s <> [] /\ Forall P s.
Definition word (l : list string) : lang := fun s => In s (map lit l).
(** a *( sep a ) *)
Inductive listed (sep a : lang) : lang :=
| listed_one s : a s -> listed sep a s
| listed_more x y z : a x -> sep y -> listed sep a z -> listed sep a (x ++ y ++ z).
(** *( a ) *)
Inductive many (a : lang) : lang :=
| many_none : many a []
| many_more x y : a x -> many a y -> many a (x ++ y).
Definition optional (a : lang) : lang := fun s => s = [] \/ a s.

(** PrintableCharacter, RFC 4517, 3.2 *)
Definition printable (c : N) : Prop := ALPHA c \/ DIGIT c \/ In c (lit "'()+,-.=/:? ").
Definition LDIGIT (c : N) : Prop := DIGIT c /\ c <> ch "0".
Definition HEXDIGIT (c : N) : Prop := DIGIT c \/ 65 <= c <= 70 \/ 97 <= c <= 102.
Definition dollar : lang := is (lit "$").
Definition spaces : lang := all (fun c => c = 32).

Definition bit_string : lang := is (lit "'") ;; all (fun c => c = ch "0" \/ c = ch "1") ;; is (lit "'B").
(** 3.3.5; [white]: what may surround the dollar sign *)
Definition delivery_method (white : lang) (names : list string) : lang :=
  listed (white ;; dollar ;; white) (word names).
Definition rfc_pdm : list string :=
  ["any"; "mhs"; "physical"; "telex"; "teletex"; "g3fax"; "g4fax"; "ia5"; "videotex"; "telephone"]%string.
(** 3.3.16 *)
Definition integer : lang := fun s =>
  rfc_number s \/ exists c r, s = ch "-" :: c :: r /\ LDIGIT c /\ Forall DIGIT r.
(** 3.3.13 *)
Definition two (lo hi : N) : lang := fun s => List.length s = 2%nat /\ Forall DIGIT s /\ lo <= Spec_Parse.value s <= hi.
Definition time_zone : lang :=
  either (is (lit "Z")) ((fun s => s = lit "+" \/ s = lit "-") ;; two 0 23 ;; optional (two 0 59)).
Definition generalized_time : lang :=
  (fun s => List.length s = 4%nat /\ Forall DIGIT s) ;;              (* year *)
  two 1 12 ;; two 1 31 ;; two 0 23 ;;
  optional (two 0 59 ;; optional (two 0 60)) ;;                      (* minute, second or leap second *)
  optional ((fun s => s = lit "." \/ s = lit ",") ;; some DIGIT) ;;  (* fraction *)
  time_zone.
(** 3.3.28 *)
Definition line_char : lang := fun s => s = lit "\24" \/ s = lit "\5C" \/ s = lit "\5c" \/ exists c, s = [c] /\ c <> ch "$" /\ c <> ch "\".
Definition postal_address : lang := listed dollar (line_char ;; many line_char).
(** 3.3.30 *)
Definition substring_char : lang := fun s =>
  s = lit "\2A" \/ s = lit "\2a" \/ s = lit "\5C" \/ s = lit "\5c" \/ exists c, s = [c] /\ c <> ch "*" /\ c <> ch "\".
Definition substring : lang := substring_char ;; many substring_char.
Definition asterisk : lang := is (lit "*").
Definition substring_assertion : lang := optional substring ;; (asterisk ;; many (substring ;; asterisk)) ;; optional substring.
(** 3.3.31, 3.3.11 *)
Definition telephone_number : lang := some printable.
Definition fax_words : list string :=
  ["twoDimensional"; "fineResolution"; "unlimitedLength"; "b4Length"; "a3Width"; "b4Width"; "uncompressed"]%string.
Definition facsimile (number : lang) : lang := number ;; many (dollar ;; word fax_words).
(** 3.3.32; [octet]: the octets of a value written as themselves *)
Definition ttx_param (octet : N -> Prop) : lang :=
  word ["graphic"; "control"; "misc"; "page"; "private"]%string ;; is (lit ":") ;;
  many (fun s => s = lit "\24" \/ s = lit "\5C" \/ exists c, s = [c] /\ octet c).
Definition teletex (octet : N -> Prop) : lang := some printable ;; many (dollar ;; ttx_param octet).
Definition rfc_octet (c : N) : Prop := c <> ch "$" /\ c <> ch "\".
(** 3.3.33 *)
Definition telex_number : lang := some printable ;; dollar ;; some printable ;; dollar ;; some printable.

(** ** Distinguished names (RFC 4514, 3) *)
Record dn_dialect := mk_dn_dialect {
  dn_number : str -> Prop;       (* the numbers of an OID *)
  dn_lead : N -> Prop;           (* characters a value may begin with *)
  dn_trail : N -> Prop;          (* characters a value may end with *)
  dn_escapable : N -> Prop;      (* characters that may follow a backslash *)
  dn_empty_value : Prop;         (* a value may be empty *)
  dn_empty : Prop }.             (* the name may be empty *)
(** characters that stand for themselves *)
Definition stringchar (c : N) : Prop := ~ In c [0; ch """"; ch "+"; ch ","; ch ";"; ch "<"; ch ">"; ch "\"].
Section DN.
  Context (D : dn_dialect).
  Definition hexpair : lang := fun s => exists a b, s = [a; b] /\ HEXDIGIT a /\ HEXDIGIT b.
  Definition pair : lang := is (lit "\") ;; either (fun s => exists c, s = [c] /\ dn_escapable D c) hexpair.
  Definition one (P : N -> Prop) : lang := fun s => exists c, s = [c] /\ P c.
  (** string = [ ( leadchar / pair ) [ *( stringchar / pair ) ( trailchar / pair ) ] ] *)
  Definition string_value : lang :=
    either (fun s => s = [] /\ dn_empty_value D)
      (either (one (dn_lead D)) pair ;;
       optional (many (either (one stringchar) pair) ;; either (one (dn_trail D)) pair)).
  Definition hex_string : lang := is (lit "#") ;; hexpair ;; many hexpair.
  Definition attribute_type : lang := either descr (numericoid (mk_dialect (fun _ => False) (fun _ _ => False) (dn_number D) False (fun _ => False))).
  Definition attribute_type_and_value : lang := attribute_type ;; is (lit "=") ;; either string_value hex_string.
  Definition rdn : lang := listed (is (lit "+")) attribute_type_and_value.
  Definition dn : lang := either (fun s => s = [] /\ dn_empty D) (listed (is (lit ",")) rdn).
  (** 3.3.21 *)
  Definition name_and_uid : lang := dn ;; optional (is (lit "#") ;; bit_string).
End DN.
Definition rfc4514 : dn_dialect :=
  mk_dn_dialect rfc_number (fun c => stringchar c /\ c <> 32 /\ c <> ch "#") (fun c => stringchar c /\ c <> 32)
    (fun c => In c [32; ch "#"; ch "="; ch """"; ch "+"; ch ","; ch ";"; ch "<"; ch ">"; ch "\"]) True True.
(** what the code takes *)
Definition laurelin_dn : dn_dialect :=
  mk_dn_dialect digits (fun c => stringchar c /\ c <> 32 /\ c <> ch "#" /\ c <> ch "=") stringchar
    (fun c => In c [0; 32; ch "#"; ch "="; ch """"; ch "+"; ch ","; ch ";"; ch "<"; ch ">"; ch "\"]) False False.
(** names both take *)
Definition common_dn : dn_dialect :=
  mk_dn_dialect rfc_number (fun c => stringchar c /\ c <> 32 /\ c <> ch "#" /\ c <> ch "=") (fun c => stringchar c /\ c <> 32)
    (fun c => In c [32; ch "#"; ch "="; ch """"; ch "+"; ch ","; ch ";"; ch "<"; ch ">"; ch "\"]) False False.

(** ** The table of RFC 4517 *)
Definition rfc_value (r : rule) : lang :=
  match r with
  | BitString => bit_string
  | Boolean => word ["TRUE"; "FALSE"]%string
  | CountryString => fun s => List.length s = 2%nat /\ Forall printable s
  | DeliveryMethod => delivery_method spaces rfc_pdm
  | DirectoryString => fun s => s <> []
  | DistinguishedName => dn rfc4514
  | FacsimileTelephoneNumber => facsimile telephone_number
  | GeneralizedTime => generalized_time
  | IA5String => all (fun c => c <= 127)
  | Integer => integer
  | NameAndOptionalUID => name_and_uid rfc4514
  | NumericString => some (fun c => DIGIT c \/ c = 32)
  | OID => oid rfc4512
  | OtherMailbox => some printable ;; dollar ;; all (fun c => c <= 127)
  | PostalAddress => postal_address
  | PrintableString => some printable
  | SubstringAssertion => substring_assertion
  | TelephoneNumber => telephone_number
  | TeletextTerminalIdentifier => teletex rfc_octet
  | TelexNumber => telex_number
  | Fax | OctetString => fun _ => True
  | Binary | Certificate | JPEG => fun _ => False           (* octets, not text *)
  end.

(** ** What the code takes *)
(** $ of a pattern allows a final newline *)
Definition or_newline (a : lang) : lang := fun s => a s \/ exists t, s = t ++ [10] /\ a t.
Definition some_prefix (a : lang) : lang := fun s => exists t e, s = t ++ e /\ a t.
(** a plus sign at most, then 7 to 15 digits, everything else being ignored *)
Definition dialable : lang := fun s =>
  exists plus ds, List.filter (fun c => (48 <=? c) && (c <=? 57) || (c =? 43)) s = plus ++ ds /\
    (plus = [] \/ plus = lit "+") /\ Forall DIGIT ds /\ (7 <= List.length ds <= 15)%nat.
Definition code_pdm : list string :=
  ["any"; "mhs"; "physical"; "telex"; "teletext"; "g3fax"; "g4fax"; "ia5"; "videotext"; "telephone"]%string.
Definition accepted (r : rule) : lang :=
  match r with
  | Boolean | DirectoryString | Fax | IA5String | OctetString | OtherMailbox | PostalAddress | Binary | Certificate | JPEG => rfc_value r
  | BitString | CountryString | GeneralizedTime | NumericString | PrintableString | TelexNumber => or_newline (rfc_value r)
  | Integer => or_newline (fun s => integer s /\ s <> lit "0")
  | OID => or_newline (oid laurelin)
  | DeliveryMethod => or_newline (delivery_method (all (fun c => py_isspace c = true)) code_pdm)
  | DistinguishedName => or_newline (dn laurelin_dn)
  | NameAndOptionalUID => some_prefix (dn laurelin_dn)
  | SubstringAssertion => some_prefix substring_assertion
  | TelephoneNumber => dialable
  | FacsimileTelephoneNumber => facsimile (fun s => dialable s /\ ~ In (ch "$") s)
  | TeletextTerminalIdentifier => or_newline (teletex (fun c => c < ch "$"))
  end.

(** a validator accepts exactly the texts [P] and refuses any other with InvalidSyntaxError *)
Definition decides (v : str -> res unit) (P : lang) : Prop :=
  forall s, (P s -> v s = Ok tt) /\ (~ P s -> v s = Raise InvalidSyntaxError) /\ (v s = Ok tt -> P s).
(** a set lists its members in some order *)
Definition set_order (order : str -> str) : Prop := forall l c, In c (order l) <-> In c l.

(** ** escaped_regex: the characters of [chars] must be written as a backslash and two hexadecimal digits *)
Definition hex_value (c : N) : option N :=
  if ((48 <=? c) && (c <=? 57))%N then Some (c - 48)%N
  else if ((65 <=? c) && (c <=? 70))%N then Some (c - 55)%N
  else if ((97 <=? c) && (c <=? 102))%N then Some (c - 87)%N else None.
(** \XX for a character of [chars], in either letter case, or any other character *)
Definition escaped_char (chars : str) : lang := fun s =>
  (exists c h l, In c chars /\ s = [92; h; l]%N /\ hex_value h = Some (c / 16)%N /\ hex_value l = Some (c mod 16)%N) \/
  (exists c, s = [c] /\ ~ In c chars).
