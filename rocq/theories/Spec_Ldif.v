(** * Specification for C32-C34, C54: LDIF (RFC 2849) *)
From Verif Require Import PyBase Model_Ldif.

(** SAFE-CHAR, SAFE-INIT-CHAR, SAFE-STRING of RFC 2849 *)
Definition safe_char (c : N) : Prop := (1 <= c <= 127)%N /\ c <> 10%N /\ c <> 13%N.
Definition safe_init_char (c : N) : Prop := safe_char c /\ c <> ch " " /\ c <> ch ":" /\ c <> ch "<".
Definition safe_string (s : str) : Prop :=
  match s with [] => True | c :: r => safe_init_char c /\ Forall safe_char r end.

(** attribute descriptions: letters, digits, hyphen, dot, semicolon *)
Definition key_char (c : N) : bool :=
  ((65 <=? c) && (c <=? 90) || (97 <=? c) && (c <=? 122) || (48 <=? c) && (c <=? 57)
   || (c =? 45) || (c =? 46) || (c =? 59))%N.
Definition attr_desc (a : str) : Prop := a <> [] /\ Forall (fun c => key_char c = true) a.

(** ** Base64 decoding (RFC 4648) *)
Definition b64_val (c : N) : option N :=
  (if (65 <=? c) && (c <=? 90) then Some (c - 65)
   else if (97 <=? c) && (c <=? 122) then Some (c - 71)
   else if (48 <=? c) && (c <=? 57) then Some (c + 4)
   else if c =? 43 then Some 62 else if c =? 47 then Some 63 else None)%N.
Fixpoint b64_read (s : str) : option (list N) :=
  match s with
  | [] => Some []
  | a :: b :: c :: d :: r =>
      if N.eqb d 61 then                               (* '=' *)
        match r with
        | [] =>
            if N.eqb c 61 then
              match b64_val a, b64_val b with
              | Some x, Some y => Some [(x * 4 + y / 16)%N]
              | _, _ => None
              end
            else
              match b64_val a, b64_val b, b64_val c with
              | Some x, Some y, Some z => Some [(x * 4 + y / 16)%N; ((y mod 16) * 16 + z / 4)%N]
              | _, _, _ => None
              end
        | _ => None
        end
      else
        match b64_val a, b64_val b, b64_val c, b64_val d, b64_read r with
        | Some x, Some y, Some z, Some w, Some t =>
            Some ((x * 4 + y / 16) :: ((y mod 16) * 16 + z / 4) :: ((z mod 4) * 64 + w) :: t)%N
        | _, _, _, _, _ => None
        end
  | _ => None
  end.

(** ** Reading LDIF content (RFC 2849): a line that starts with a space continues the line
    before; a line is attribute, colon, and the value, or two colons and base64 *)
Fixpoint split_lf (s : str) : list str :=
  match s with
  | [] => [[]]
  | c :: r =>
      if N.eqb c 10 then [] :: split_lf r
      else match split_lf r with l :: ls => (c :: l) :: ls | [] => [[c]] end
  end.
Fixpoint gather (lines : list str) : str * list str :=
  match lines with
  | [] => ([], [])
  | l :: r =>
      let (c, ls) := gather r in
      match l with
      | d :: t => if N.eqb d 32 then (t ++ c, ls) else ([], (l ++ c) :: ls)
      | [] => ([], c :: ls)
      end
  end.
Definition logical_lines (text : str) : list str := snd (gather (split_lf text)).

Fixpoint drop_spaces (s : str) : str := 
  match s with [] => [] | c :: r => if N.eqb c 32 then drop_spaces r else s end.
Fixpoint before_colon (s : str) : option (str * str) :=
  match s with
  | [] => None
  | c :: r => if N.eqb c (ch ":") then Some ([], r)
              else match before_colon r with Some (a, v) => Some (c :: a, v) | None => None end
  end.
Definition read_line (l : str) : option (str * list N) :=
  match before_colon l with
  | None => None
  | Some (a, v) =>
      match v with
      | c :: w =>
          if N.eqb c (ch ":") then match b64_read (drop_spaces w) with Some b => Some (a, b) | None => None end
          else Some (a, drop_spaces v)           (* ASCII: the bytes are the characters *)
      | [] => Some (a, [])
      end
  end.
(** empty lines end the record *)
Definition read_ldif (text : str) : list (option (str * list N)) :=
  map read_line (List.filter (fun l => match l with [] => false | _ => true end) (logical_lines text)).

(** the bytes an attribute value stands for *)
Definition val_bytes (v : val) : list N := match v with Text s => utf8 s | Bytes b => b end.
(** values a Python string or bytes object can hold *)
Definition val_ok (v : val) : Prop :=
  match v with Text s => Forall (fun c => (c < 1114112)%N) s | Bytes b => Forall (fun c => (c < 256)%N) b end.
(** the texts whose encoding breaks: safe but for a line break at the very end *)
Definition trailing_newline (s : str) : Prop := exists w, s = w ++ [10%N] /\ w <> [] /\ safe_string w.

(** ** Change records (C34) *)
(** a text in a record, written as is or in base64 *)
Record fld := mk_fld { f_text : str; f_b64 : bool }.
Definition show (name : str) (f : fld) : str :=
  if f_b64 f then name ++ lit ":: " ++ b64encode (utf8 (f_text f)) else name ++ lit ": " ++ f_text f.

Inductive change :=
| CAdd (values : list (str * fld))
| CDelete
| CModify (mods : list (modop * str * list str))
| CModDN (newrdn : fld) (clean : bool) (newsup : option fld).
(** a control: OID, stated criticality, value *)
Definition ctlspec := (str * option bool * list N)%type.
Record rec := mk_rec { r_dn : fld; r_ctls : list ctlspec; r_change : change }.

Definition ctl_line (c : ctlspec) : str :=
  let '(oid, crit, b) := c in
  lit "control: " ++ oid ++ match crit with Some true => lit " true" | Some false => lit " false" | None => [] end
  ++ lit ":: " ++ b64encode b.
(** RFC 2849: mod-spec *)
Definition mod_name (o : modop) : str := match o with MAdd => lit "add" | MReplace => lit "replace" | MDelete => lit "delete" end.
Definition mod_lines (m : modop * str * list str) : list str :=
  let '(o, a, vs) := m in
  (mod_name o ++ lit ": " ++ a) :: map (fun v => a ++ lit ": " ++ v) vs ++ [lit "-"].
Definition change_lines (c : change) : list str :=
  match c with
  | CAdd values => lit "changetype: add" :: map (fun av => show (fst av) (snd av)) values
  | CDelete => [lit "changetype: delete"]
  | CModify mods => lit "changetype: modify" :: List.concat (map mod_lines mods)
  | CModDN newrdn clean newsup =>
      lit "changetype: moddn" :: show (lit "newrdn") newrdn :: (lit "deleteoldrdn: " ++ if clean then lit "1" else lit "0")
      :: match newsup with Some p => [show (lit "newsuperior") p] | None => [] end
  end.
Definition rec_lines (r : rec) : list str :=
  show (lit "dn") (r_dn r) :: map ctl_line (r_ctls r) ++ change_lines (r_change r).

(** the LDIF file: records, each line ended by a line feed, separated by empty lines *)
Definition ended (lines : list str) : str := List.concat (map (fun l => l ++ [10%N]) lines).
Fixpoint ldif_text (rs : list rec) : str :=
  match rs with
  | [] => []
  | [r] => ended (rec_lines r)
  | r :: rest => ended (rec_lines r) ++ [10%N] ++ ldif_text rest
  end.

(** *** What can be written *)
(** the characters at which Python breaks lines: documentation of str.splitlines *)
Definition line_break (c : N) : bool :=
  ((10 <=? c) && (c <=? 13) || (28 <=? c) && (c <=? 30) || (c =? 133) || (c =? 8232) || (c =? 8233))%N.
(** one line, without white space at either end, without [:<], not starting with a colon *)
Definition plain_text (s : str) : Prop :=
  (exists c r, s = c :: r /\ Model_Prep.py_isspace c = false /\ c <> ch ":") /\
  (exists c r, s = r ++ [c] /\ Model_Prep.py_isspace c = false) /\
  Forall (fun c => line_break c = false) s /\
  (forall a b, s <> a ++ ch ":" :: ch "<" :: b).
(** Unicode scalar values *)
Definition scalar (c : N) : Prop := (c < 55296 \/ 57343 < c < 1114112)%N.
Definition fld_ok (f : fld) : Prop :=
  if f_b64 f then Forall scalar (f_text f) else plain_text (f_text f).
(** attribute names without options *)
Definition attr_name (a : str) : Prop := attr_desc a /\ ~ In (ch ";") a.
(** dotted decimal *)
Definition ascii_decimal (c : N) : bool := ((48 <=? c) && (c <=? 57))%N.
Inductive dotted : str -> Prop :=
| dotted_two a b : a <> [] -> b <> [] -> Forall (fun c => ascii_decimal c = true) a -> Forall (fun c => ascii_decimal c = true) b ->
    dotted (a ++ ch "." :: b)
| dotted_more a b : a <> [] -> Forall (fun c => ascii_decimal c = true) a -> dotted b -> dotted (a ++ ch "." :: b).

Definition change_ok (c : change) : Prop :=
  match c with
  | CAdd values => Forall (fun av => attr_name (fst av) /\ fld_ok (snd av) /\
                                    Model_Prep.py_strip (f_text (snd av)) = f_text (snd av)) values
  | CDelete => True
  | CModify mods =>
      Forall (fun m => attr_name (snd (fst m)) /\ (fst (fst m) = MAdd -> snd m <> []) /\
                       Forall (fun v => plain_text v /\ ~ In (ch ":") v) (snd m)) mods
  | CModDN newrdn _ newsup => fld_ok newrdn /\ match newsup with Some p => fld_ok p | None => True end
  end.
Definition rec_ok (keyword : str -> option str) (r : rec) : Prop :=
  fld_ok (r_dn r) /\ change_ok (r_change r) /\
  Forall (fun c => dotted (fst (fst c)) /\ Forall (fun x => (x < 256)%N) (snd c) /\
                   exists kw, keyword (fst (fst c)) = Some kw /\ kw <> []) (r_ctls r) /\
  NoDup (map (fun c => keyword (fst (fst c))) (r_ctls r)).

(** *** What is to be done *)
Definition decoded (utf8_decode : list N -> option str) (b : list N) : val :=
  match utf8_decode b with Some s => Text s | None => Bytes b end.
(** the controls asked for, under their keywords *)
Definition same_ctls (utf8_decode : list N -> option str) (keyword : str -> option str) (cs : list ctlspec)
    (ctls : list (str * ctl)) : Prop :=
  Forall2 (fun c kc => keyword (fst (fst c)) = Some (fst kc) /\ snd kc = (snd (fst c), decoded utf8_decode (snd c))) cs ctls.
Definition values_of (a : str) (values : list (str * fld)) : list val :=
  map (fun av => Text (f_text (snd av))) (List.filter (fun av => str_eqb (fst av) a) values).

Definition describes (utf8_decode : list N -> option str) (keyword : str -> option str) (r : rec) (o : op) : Prop :=
  exists ctls, same_ctls utf8_decode keyword (r_ctls r) ctls /\
    match r_change r with
    | CAdd values => exists attrs, o = OAdd (Text (f_text (r_dn r))) attrs ctls /\
        forall a, dget attrs a = match values_of a values with [] => None | vs => Some vs end
    | CDelete => o = ODelete (Text (f_text (r_dn r))) ctls
    | CModify mods => o = OModify (Text (f_text (r_dn r))) (map (fun m => (fst m, map Text (snd m))) mods) ctls
    | CModDN newrdn clean newsup =>
        o = OModDN (Text (f_text (r_dn r))) (Text (f_text newrdn)) clean (option_map (fun p => Text (f_text p)) newsup) ctls
    end.

(** the operations are carried out in order until one fails *)
Inductive carried_out (exec : list op -> op -> res unit) : list op -> list op -> res unit -> list op -> Prop :=
| co_done done : carried_out exec done [] (Ok tt) done
| co_fail done o os e : exec done o = Raise e -> carried_out exec done (o :: os) (Raise e) (done ++ [o])
| co_next done o os r all : exec done o = Ok tt -> carried_out exec (done ++ [o]) os r all -> carried_out exec done (o :: os) r all.

Definition is_b64 (c : N) : bool :=
  ((65 <=? c) && (c <=? 90) || (97 <=? c) && (c <=? 122) || (48 <=? c) && (c <=? 57) || (c =? 43) || (c =? 47) || (c =? 61))%N.
(** base64.b64decode ignores characters outside the alphabet *)
Definition b64decode_ok (b64decode : str -> res (list N)) : Prop :=
  forall s b, Forall (fun c => (c < 256)%N) b -> List.filter is_b64 s = b64encode b -> b64decode s = Ok b.
Definition utf8_decode_ok (utf8_decode : list N -> option str) : Prop :=
  forall s, Forall scalar s -> utf8_decode (utf8 s) = Some s.

(** Folding for C34: a text with line breaks, each followed by one space, put in anywhere *)
Inductive refolds : str -> str -> Prop :=
| rf_nil : refolds [] []
| rf_char c s t : refolds s t -> refolds (c :: s) (c :: t)
| rf_lf s t : refolds s t -> refolds s (10 :: 32 :: t)%N
| rf_crlf s t : refolds s t -> refolds s (13 :: 10 :: 32 :: t)%N.

(** *** Records that are refused *)
(** a file of records given by their lines *)
Fixpoint blocks_text (bs : list (list str)) : str :=
  match bs with
  | [] => []
  | [b] => ended b
  | b :: rest => ended b ++ [10%N] ++ blocks_text rest
  end.
(** a line that is not a comment, has no line breaks and no [:<], and does not start with white space *)
Definition proper_line (l : str) : Prop :=
  (exists c r, l = c :: r /\ Model_Prep.py_isspace c = false /\ c <> ch "#") /\
  Forall (fun c => line_break c = false) l /\ (forall a b, l <> a ++ ch ":" :: ch "<" :: b).
Definition starts (token l : str) : Prop := exists r, l = token ++ r.
(** controls as in [rec_ok] *)
Definition controls_ok (keyword : str -> option str) (cs : list ctlspec) : Prop :=
  Forall (fun c => dotted (fst (fst c)) /\ Forall (fun x => (x < 256)%N) (snd c) /\
                   exists kw, keyword (fst (fst c)) = Some kw /\ kw <> []) cs /\
  NoDup (map (fun c => keyword (fst (fst c))) cs).
Definition mods_ok (mods : list (modop * str * list str)) : Prop := change_ok (CModify mods).

(** the lines from the changetype on, and the exception they mean *)
Inductive refused_change : list str -> exn -> Prop :=
| ref_no_changetype l rest : ~ starts (lit "changetype:") l -> ~ starts (lit "control:") l -> refused_change (l :: rest) ValueError
| ref_changetype t rest : plain_text t -> ~ In t [lit "add"; lit "delete"; lit "modify"; lit "modrdn"; lit "moddn"] ->
    refused_change ((lit "changetype: " ++ t) :: rest) ValueError
(* an attribute with options *)
| ref_add_option values a f rest : change_ok (CAdd values) -> attr_desc a -> In (ch ";") a -> fld_ok f ->
    refused_change (change_lines (CAdd values) ++ show a f :: rest) LDAPError
| ref_mod_option mods o a vs opt v rest : mods_ok mods -> attr_name a -> Forall (fun v => plain_text v /\ ~ In (ch ":") v) vs ->
    Forall (fun c => key_char c = true) opt -> plain_text v -> ~ In (ch ":") v ->
    refused_change (change_lines (CModify mods) ++
      (mod_name o ++ lit ": " ++ a) :: map (fun v => a ++ lit ": " ++ v) vs ++ ((a ++ ch ";" :: opt) ++ lit ": " ++ v) :: rest) LDAPError
(* a value line for another attribute *)
| ref_mod_other mods o a vs l rest : mods_ok mods -> attr_name a -> Forall (fun v => plain_text v /\ ~ In (ch ":") v) vs ->
    ~ starts a l -> l <> lit "-" -> (exists c r, l = r ++ [c] /\ Model_Prep.py_isspace c = false) ->
    refused_change (change_lines (CModify mods) ++
      (mod_name o ++ lit ": " ++ a) :: map (fun v => a ++ lit ": " ++ v) vs ++ l :: rest) ValueError
(* neither add nor replace nor delete *)
| ref_mod_word mods w a rest : mods_ok mods -> attr_desc w -> ~ In w [lit "add"; lit "replace"; lit "delete"] -> attr_desc a ->
    refused_change (change_lines (CModify mods) ++ (w ++ lit ": " ++ a) :: rest) ValueError
| ref_mod_add_nothing mods a rest : mods_ok mods -> attr_name a ->
    refused_change (change_lines (CModify mods) ++ (lit "add: " ++ a) :: lit "-" :: rest) ValueError
| ref_no_newrdn l rest : ~ starts (lit "newrdn:") l -> refused_change (lit "changetype: moddn" :: l :: rest) ValueError
| ref_no_deleteoldrdn newrdn l rest : fld_ok newrdn -> ~ starts (lit "deleteoldrdn:") l ->
    refused_change (lit "changetype: moddn" :: show (lit "newrdn") newrdn :: l :: rest) ValueError
| ref_deleteoldrdn newrdn d rest : fld_ok newrdn -> plain_text d -> d <> lit "0" -> d <> lit "1" ->
    refused_change (lit "changetype: moddn" :: show (lit "newrdn") newrdn :: (lit "deleteoldrdn: " ++ d) :: rest) ValueError.
(** the lines of a record *)
Inductive refused (keyword : str -> option str) (default_criticality : bool) : list str -> exn -> Prop :=
| ref_no_dn l rest : ~ starts (lit "dn:") l -> refused keyword default_criticality (l :: rest) ValueError
(* a critical control that is not known *)
| ref_control dn cs oid crit b l rest : fld_ok dn -> controls_ok keyword cs -> dotted oid -> Forall (fun x => (x < 256)%N) b ->
    keyword oid = None -> crit = Some true \/ crit = None /\ default_criticality = true ->
    refused keyword default_criticality (show (lit "dn") dn :: map ctl_line cs ++ ctl_line (oid, crit, b) :: l :: rest) LDAPSupportError
| ref_change dn cs lines x : fld_ok dn -> controls_ok keyword cs -> refused_change lines x ->
    refused keyword default_criticality (show (lit "dn") dn :: map ctl_line cs ++ lines) x.

(** *** Comments (RFC 2849): lines starting with a number sign; here: without [:<] *)
Definition comment (l : str) : Prop :=
  (exists r, l = ch "#" :: r) /\ Forall (fun c => line_break c = false) l /\ (forall a b, l <> a ++ ch ":" :: ch "<" :: b).
(** [commented a b]: b is a with comment lines put in anywhere *)
Inductive commented : list str -> list str -> Prop :=
| cm_nil : commented [] []
| cm_line l a b : commented a b -> commented (l :: a) (l :: b)
| cm_comment c a b : comment c -> commented a b -> commented a (c :: b).
(** a record with comments anywhere but after a control: before or after the dn line, and after the changetype line *)
Definition rec_commented (r : rec) (lines : list str) : Prop :=
  exists head ctype body body', change_lines (r_change r) = ctype :: body /\
    commented [show (lit "dn") (r_dn r)] head /\ commented body body' /\
    lines = head ++ map ctl_line (r_ctls r) ++ ctype :: body'.

(** ** A UTF-8 decoder (RFC 3629) and a base64 decoder that meet the descriptions above *)
Fixpoint utf8_raw (b : list N) : option str :=
  match b with
  | [] => Some []
  | x :: r =>
      if (x <? 128)%N then option_map (cons x) (utf8_raw r)
      else match r with
           | [] => None
           | y :: r1 =>
               if (x <? 224)%N then option_map (cons ((x - 192) * 64 + (y - 128))%N) (utf8_raw r1)
               else match r1 with
                    | [] => None
                    | z :: r2 =>
                        if (x <? 240)%N then option_map (cons ((x - 224) * 4096 + (y - 128) * 64 + (z - 128))%N) (utf8_raw r2)
                        else match r2 with
                             | [] => None
                             | w :: r3 => option_map (cons ((x - 240) * 262144 + (y - 128) * 4096 + (z - 128) * 64 + (w - 128))%N) (utf8_raw r3)
                             end
                    end
           end
  end.
Definition scalarb (c : N) : bool := ((c <? 55296) || ((57343 <? c) && (c <? 1114112)))%N.
(** strict: what is decoded must encode to the same bytes *)
Definition utf8_strict (b : list N) : option str :=
  match utf8_raw b with
  | Some s => if str_eqb (utf8 s) b && forallb scalarb s then Some s else None
  | None => None
  end.
Definition b64_lenient (s : str) : res (list N) :=
  match b64_read (List.filter is_b64 s) with Some b => Ok b | None => Raise ValueError end.
