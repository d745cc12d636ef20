(** * More of C34: values that are octets, and controls that are passed over *)
From Verif Require Import PyBase Model_Uri Model_Prep Model_Ldif Spec_Ldif.

(** A value in an addition: text written as it is, or any octets in base64. *)
Inductive shown := AsIs (s : str) | Base64 (octets : list N).
Definition show_value (a : str) (v : shown) : str :=
  match v with AsIs s => a ++ lit ": " ++ s | Base64 b => a ++ lit ":: " ++ b64encode b end.
(** what it stands for: octets that are UTF-8 count as text *)
Definition meant (utf8_decode : list N -> option str) (v : shown) : val :=
  match v with AsIs s => Text s | Base64 b => decoded utf8_decode b end.

(** white space in the sense of bytes.strip() *)
Definition white_octet (c : N) : Prop := (9 <= c <= 13)%N \/ c = 32%N.
Definition not_at_ends {A} (white : A -> Prop) (s : list A) : Prop :=
  (forall c r, s = c :: r -> ~ white c) /\ (forall c r, s = r ++ [c] -> ~ white c).
(** no white space at the ends *)
Definition trimmed (v : val) : Prop :=
  match v with
  | Text s => not_at_ends (fun c => Model_Prep.py_isspace c = true) s
  | Bytes b => not_at_ends white_octet b
  end.
Definition shown_ok (utf8_decode : list N -> option str) (v : shown) : Prop :=
  match v with
  | AsIs s => plain_text s
  | Base64 b => Forall (fun c => (c < 256)%N) b /\ trimmed (decoded utf8_decode b)
  end.

Inductive change2 := Additions (values : list (str * shown)) | Other (c : change).
Record rec2 := mk_rec2 { q_dn : fld; q_ctls : list ctlspec; q_change : change2 }.
Definition change2_lines (c : change2) : list str :=
  match c with
  | Additions values => lit "changetype: add" :: map (fun av => show_value (fst av) (snd av)) values
  | Other c => change_lines c
  end.
Definition rec2_lines (r : rec2) : list str :=
  show (lit "dn") (q_dn r) :: map ctl_line (q_ctls r) ++ change2_lines (q_change r).

(** a control that the library knows by a keyword *)
Definition has_keyword (keyword : str -> option str) (c : ctlspec) : bool :=
  match keyword (fst (fst c)) with Some (_ :: _) => true | _ => false end.
(** one that is passed over: not known and not critical, or known but without a keyword *)
Definition passed_over (keyword : str -> option str) (default_criticality : bool) (c : ctlspec) : Prop :=
  keyword (fst (fst c)) = Some [] \/
  keyword (fst (fst c)) = None /\
    (snd (fst c) = Some false \/ snd (fst c) = None /\ default_criticality = false).

Definition rec2_ok (utf8_decode : list N -> option str) (keyword : str -> option str) (default_criticality : bool) (r : rec2) : Prop :=
  fld_ok (q_dn r) /\
  match q_change r with
  | Additions values => Forall (fun av => attr_name (fst av) /\ shown_ok utf8_decode (snd av)) values
  | Other c => change_ok c
  end /\
  Forall (fun c => dotted (fst (fst c)) /\ Forall (fun x => (x < 256)%N) (snd c) /\
                   (has_keyword keyword c = true \/ passed_over keyword default_criticality c)) (q_ctls r) /\
  NoDup (map (fun c => keyword (fst (fst c))) (List.filter (has_keyword keyword) (q_ctls r))).

Definition values_meant (utf8_decode : list N -> option str) (a : str) (values : list (str * shown)) : list val :=
  map (fun av => meant utf8_decode (snd av)) (List.filter (fun av => str_eqb (fst av) a) values).
(** the operation: with the controls that have keywords, and only those *)
Definition describes2 (utf8_decode : list N -> option str) (keyword : str -> option str) (r : rec2) (o : op) : Prop :=
  let ctls := List.filter (has_keyword keyword) (q_ctls r) in
  match q_change r with
  | Additions values => exists attrs sent, same_ctls utf8_decode keyword ctls sent /\
      o = OAdd (Text (f_text (q_dn r))) attrs sent /\
      forall a, dget attrs a = match values_meant utf8_decode a values with [] => None | vs => Some vs end
  | Other c => describes utf8_decode keyword (mk_rec (q_dn r) ctls c) o
  end.

(** ** Line ends: t is s with some or all of the line feeds written as CR LF *)
Inductive crlf : str -> str -> Prop :=
| cr_nil : crlf [] []
| cr_char c s t : c <> 10%N -> c <> 13%N -> crlf s t -> crlf (c :: s) (c :: t)
| cr_lf s t : crlf s t -> crlf (10 :: s)%N (10 :: t)%N
| cr_crlf s t : crlf s t -> crlf (10 :: s)%N (13 :: 10 :: t)%N.
(** no URL to fetch: the text, with its continued lines joined, has no [:<] *)
Definition no_url (s : str) : Prop := forall u a b, refolds u s -> u <> a ++ ch ":" :: ch "<" :: b.
