(** * Model of LDIF output and input
    /repo/laurelin/ldap/ldapobject.py:245-293 (format_ldif), 633-645 (format_mod_ldif),
    /repo/laurelin/ldap/base.py:1242-1477 (process_ldif)
    Python 3.  UTF-8 encoding and base64 encoding (standard library) are given in full;
    decoders are parameters. *)
From Verif Require Import PyBase Model_Uri Model_Prep.

(** str.encode(): UTF-8 (RFC 3629).  Simplification: surrogates, which raise in Python, are
    encoded like other characters. *)
Definition utf8_char (c : N) : list N :=
  (if c <? 128 then [c]
   else if c <? 2048 then [192 + c / 64; 128 + c mod 64]
   else if c <? 65536 then [224 + c / 4096; 128 + (c / 64) mod 64; 128 + c mod 64]
   else [240 + c / 262144; 128 + (c / 4096) mod 64; 128 + (c / 64) mod 64; 128 + c mod 64])%N.
Definition utf8 (s : str) : list N := flat_map utf8_char s.

(** base64.b64encode (RFC 4648) *)
Definition b64_char (i : N) : N :=
  (if i <? 26 then 65 + i else if i <? 52 then 71 + i else if i <? 62 then i - 4 else if i =? 62 then 43 else 47)%N.
Fixpoint b64encode (b : list N) : str :=
  match b with
  | [] => []
  | [x] => [b64_char (x / 4); b64_char ((x mod 4) * 16); 61; 61]%N
  | [x; y] => [b64_char (x / 4); b64_char ((x mod 4) * 16 + y / 16); b64_char ((y mod 16) * 4); 61]%N
  | x :: y :: z :: r =>
      (b64_char (x / 4) :: b64_char ((x mod 4) * 16 + y / 16) ::
       b64_char ((y mod 16) * 4 + z / 64) :: b64_char (z mod 64) :: b64encode r)%N
  end.

(** An attribute value is text or bytes. *)
Inductive val := Text (s : str) | Bytes (b : list N).

(** ** format_ldif *)

(** the character classes of the regular expression: ldapobject.py:255 *)
Definition init_class (c : N) : bool :=
  in_ranges [(1,9); (11,12); (14,31); (33,57); (59,59); (61,127)]%N c.
Definition rest_class (c : N) : bool := in_ranges [(1,9); (11,12); (14,127)]%N c.
(** re.match(r'^I R*$'): [$] also matches before a newline at the end *)
Definition safe_re (s : str) : bool :=
  match s with
  | [] => false
  | c :: r =>
      init_class c &&
      (forallb rest_class r ||
       match rev r with
       | e :: r' => N.eqb e 10 && forallb rest_class r'
       | [] => false
       end)
  end.

(** encode_value: ldapobject.py:254-267 *)
Definition encode_value (s : str) : str :=
  if negb (safe_re s) then lit ": " ++ b64encode (utf8 s)
  else if ends_with (lit " ") s then lit ": " ++ b64encode (utf8 s)
  else lit " " ++ s.

Section Out.
  (** bytes.decode('utf-8'): None for UnicodeDecodeError *)
  Context (utf8_decode : list N -> option str).

  (** the line for one value: ldapobject.py:271-277 *)
  Definition value_line (attr : str) (v : val) : str :=
    match v with
    | Text s => attr ++ lit ":" ++ encode_value s
    | Bytes b =>
        match utf8_decode b with
        | Some s => attr ++ lit ":" ++ encode_value s
        | None => attr ++ lit ":: " ++ b64encode b
        end
    end.

  (** the fragments of 75 characters: ldapobject.py:285-288 *)
  Fixpoint fragments (fuel : nat) (s : str) : list str :=
    match fuel with
    | 0 => []
    | S fuel' => match s with [] => [] | _ => firstn 75 s :: fragments fuel' (skipn 75 s) end
    end.
  Fixpoint join_str (sep : str) (l : list str) : str :=
    match l with [] => [] | [x] => x | x :: r => x ++ sep ++ join_str sep r end.

  (** folding: ldapobject.py:278-291 *)
  Definition fold_line (line : str) : str :=
    if 76 <? List.length line
    then firstn 76 line ++ [10; 32]%N ++ join_str [10; 32]%N (fragments (List.length line) (skipn 76 line))
    else line.

  (** LDAPObject.format_ldif: ldapobject.py:245-293; iterattrs (attrsdict.py:22-26) yields
      the values of each attribute in order *)
  Definition iterattrs (attrs : list (str * list val)) : list (str * val) :=
    flat_map (fun av => map (fun v => (fst av, v)) (snd av)) attrs.
  Definition format_ldif (dn : str) (attrs : list (str * list val)) : str :=
    lit "dn:" ++ encode_value dn ++ [10%N] ++
    List.concat (map (fun av => fold_line (value_line (fst av) (snd av)) ++ [10%N]) (iterattrs attrs)).
End Out.

(** ** process_ldif *)

(** re.sub(r'(\n|\r\n) ', '', s): base.py:1262 *)
Fixpoint unfold (s : str) : str :=
  match s with
  | [] => []
  | c :: r =>
      if N.eqb c 10 then match r with d :: r' => if N.eqb d 32 then unfold r' else c :: unfold r | [] => [c] end
      else if N.eqb c 13 then
        match r with
        | d :: e :: r' => if N.eqb d 10 && N.eqb e 32 then unfold r' else c :: unfold r
        | _ => c :: unfold r
        end
      else c :: unfold r
  end.

(** whether re.sub(r':<([^\n]+)', ...) finds anything: base.py:1268 *)
Fixpoint has_url (s : str) : bool :=
  match s with
  | [] => false
  | c :: r =>
      (N.eqb c (ch ":") && match r with a :: b :: _ => N.eqb a (ch "<") && negb (N.eqb b 10) | _ => false end)
      || has_url r
  end.

(** str.splitlines(keepends) *)
Definition is_break (c : N) : bool := in_ranges [(10,13); (28,30); (133,133); (8232,8233)]%N c.
Fixpoint splitlines (keep : bool) (acc s : str) : list str :=
  match s with
  | [] => match acc with [] => [] | _ => [rev acc] end
  | c :: r =>
      if is_break c then
        match r with
        | d :: r' =>
            if N.eqb c 13 && N.eqb d 10 then (rev acc ++ if keep then [13; 10]%N else []) :: splitlines keep [] r'
            else (rev acc ++ if keep then [c] else []) :: splitlines keep [] r
        | [] => [rev acc ++ if keep then [c] else []]
        end
      else splitlines keep (c :: acc) r
  end.

(** re.split(r'(?:\n|\r\n){2,}', s): base.py:1296 *)
Fixpoint newline_run (fuel : nat) (s : str) : nat * str :=
  match fuel with
  | 0 => (0, s)
  | S fuel' =>
      match s with
      | c :: r =>
          if N.eqb c 10 then let (n, t) := newline_run fuel' r in (S n, t)
          else match r with
               | d :: r' => if N.eqb c 13 && N.eqb d 10 then let (n, t) := newline_run fuel' r' in (S n, t) else (0, s)
               | [] => (0, s)
               end
      | [] => (0, s)
      end
  end.
Fixpoint split_blocks (fuel : nat) (acc s : str) : list str :=
  match fuel with
  | 0 => [rev acc]
  | S fuel' =>
      match s with
      | [] => [rev acc]
      | c :: r =>
          let (n, t) := newline_run (List.length s) s in
          if 2 <=? n then rev acc :: split_blocks fuel' [] t else split_blocks fuel' (c :: acc) r
      end
  end.

(** clear_comments: base.py:1270-1272 *)
Fixpoint clear_comments (lines : list str) : list str :=
  match lines with
  | l :: r => if starts_with (lit "#") (py_strip l) then clear_comments r else lines
  | [] => []
  end.

Inductive modop := MAdd | MReplace | MDelete.
(** a control value: explicitly critical/optional, or neither (controls.critical/optional) *)
Definition ctl := (option bool * val)%type.
(** the method called for a record, with its arguments *)
Inductive op :=
| OAdd (dn : val) (attrs : list (str * list val)) (ctls : list (str * ctl))
| ODelete (dn : val) (ctls : list (str * ctl))
| OModify (dn : val) (mods : list (modop * str * list val)) (ctls : list (str * ctl))
| OModDN (dn : val) (newrdn : val) (clean : bool) (newparent : option val) (ctls : list (str * ctl)).

Section In.
  Context (utf8_decode : list N -> option str).
  (** base64.b64decode: binascii.Error is a ValueError *)
  Context (b64decode : str -> res (list N)).
  (** controls.get_control(oid).keyword, None: KeyError *)
  Context (keyword : str -> option str).
  Context (default_criticality : bool).

  (** handle_base64: base.py:1274-1280 *)
  Definition handle_base64 (v : str) : res val :=
    let* b := b64decode (py_strip (tl v)) in
    Ok (match utf8_decode b with Some s => Text s | None => Bytes b end).

  (** [token], strip, and base64: the common way to read a field: base.py:1307-1313 etc. *)
  Definition maybe_base64 (v : str) : res val :=
    match v with
    | [] => Raise IndexError
    | c :: _ => if N.eqb c (ch ":") then handle_base64 v else Ok (Text v)
    end.
  Definition take_field (token line : str) : option str :=
    if starts_with token line then Some (py_strip (skipn (List.length token) line)) else None.

  (** the regular expression of a control line: base.py:1320; gives OID, criticality, value *)
  Definition is_dec (c : N) : bool := ((48 <=? c) && (c <=? 57))%N.
  Fixpoint span_digits (s : str) : str * str :=
    match s with
    | c :: r => if is_dec c then let (a, b) := span_digits r in (c :: a, b) else ([], s)
    | [] => ([], [])
    end.
  (** ([0-9]+(\.[0-9]+)+): what follows must be a space or a colon, so no backtracking *)
  Fixpoint span_oid (fuel : nat) (s : str) : option (nat * str * str) :=
    match fuel with
    | 0 => None
    | S fuel' =>
        let (a, r) := span_digits s in
        match a with
        | [] => None
        | _ =>
            match r with
            | 46%N :: r' =>
                match span_oid fuel' r' with
                | Some (n, b, t) => Some (S n, a ++ 46%N :: b, t)
                | None => None
                end
            | _ => Some (0, a, r)
            end
        end
    end.
  Definition control_re (s : str) : option (str * option bool * str) :=
    match span_oid (S (List.length s)) s with
    | Some (S _, oid, r) =>
        let '(crit, r') := if starts_with (lit " true") r then (Some true, skipn 5 r)
                           else if starts_with (lit " false") r then (Some false, skipn 6 r)
                           else (None, r) in
        match r' with
        | 58%N :: (_ :: _) => Some (oid, crit, r')
        | _ => None
        end
    | _ => None
    end.

  (** the loop over control lines: base.py:1317-1348 *)
  Fixpoint read_controls (lines : list str) (ctls : list (str * ctl)) : res (list (str * ctl) * list str) :=
    match lines with
    | l :: ((_ :: _) as rest) =>
        if starts_with (lit "control:") l then
          match control_re (py_strip (skipn 8 l)) with
          | None => Raise ValueError
          | Some (oid, crit, v) =>
              let* value := handle_base64 v in
              match keyword oid with
              | None =>
                  if (match crit with Some b => b | None => default_criticality end)
                  then Raise LDAPSupportError else read_controls rest ctls
              | Some [] => read_controls rest ctls
              | Some kw => read_controls rest (dset ctls kw (crit, value))
              end
          end
        else Ok (ctls, lines)
    | _ => Ok (ctls, lines)
    end.

  Definition strip_val (v : val) : val :=
    match v with Text s => Text (py_strip s) | Bytes b => Bytes (strip_by (in_ranges [(9,13); (32,32)]%N) b) end.

  (** changetype add: base.py:1359-1383 *)
  Fixpoint read_add (lines : list str) (attrs : list (str * list val)) : res (list (str * list val)) :=
    match lines with
    | [] => Ok attrs
    | l :: rest =>
        let line := py_strip l in
        if starts_with (lit "#") line then read_add rest attrs
        else match py_split (lit ":") line with
             | attr :: (_ :: _) =>
                 let value := skipn (S (List.length attr)) line in
                 let* v := maybe_base64 value in
                 if 1 <? List.length (py_split (lit ";") attr) then Raise LDAPError
                 else read_add rest (dset attrs attr (match dget attrs attr with Some vs => vs | None => [] end ++ [strip_val v]))
             | _ => Raise ValueError
             end
    end.

  Definition mod_string (s : str) : res modop :=
    if str_eqb s (lit "add") then Ok MAdd
    else if str_eqb s (lit "replace") then Ok MReplace
    else if str_eqb s (lit "delete") then Ok MDelete
    else Raise ValueError.
  (** Modlist(op, {attr: vals}): modify.py:44-54, 78-86 (a dictionary with one entry) *)
  Definition one_mod (o : modop) (attr : str) (vals : list val) : res (list (modop * str * list val)) :=
    match o, vals with MAdd, [] => Raise ValueError | _, _ => Ok [(o, attr, vals)] end.

  (** changetype modify: base.py:1388-1436.  [mod_op == 'add'] (line 1407) compares a
      constant with a string and is never true. *)
  Fixpoint read_modify (lines : list str) (cur : option (modop * str)) (vals : list val)
      (mods : list (modop * str * list val)) : res (list (modop * str * list val)) :=
    match lines with
    | [] =>
        match cur with
        | None => Ok mods
        | Some (o, a) => let* m := one_mod o a vals in Ok (mods ++ m)
        end
    | l :: rest =>
        let line := py_strip l in
        if starts_with (lit "#") line then read_modify rest cur vals mods
        else match cur with
             | None =>
                 match py_split (lit ":") line with
                 | [o; a] => let* m := mod_string o in read_modify rest (Some (m, py_strip a)) vals mods
                 | _ => Raise ValueError
                 end
             | Some (o, a) =>
                 if str_eqb line (lit "-")
                 then let* m := one_mod o a vals in read_modify rest None [] (mods ++ m)
                 else if starts_with a line then
                   match py_split (lit ":") line with
                   | [attr; value] =>
                       if 1 <? List.length (py_split (lit ";") attr) then Raise LDAPError
                       else match value with
                            | [] => Raise IndexError
                            | _ => read_modify rest cur (vals ++ [Text (py_strip value)]) mods
                            end
                   | _ => Raise ValueError
                   end
                 else Raise ValueError
             end
    end.

  (** changetype modrdn/moddn: base.py:1438-1476 *)
  Definition read_moddn (dn : val) (lines : list str) (ctls : list (str * ctl)) : res op :=
    match lines with
    | [] | [_] => Raise ValueError
    | l :: rest =>
        match take_field (lit "newrdn:") l with
        | None => Raise ValueError
        | Some v =>
            let* newrdn := maybe_base64 v in
            match clear_comments rest with
            | [] => Raise ValueError
            | l2 :: rest2 =>
                match take_field (lit "deleteoldrdn:") l2 with
                | None => Raise ValueError
                | Some d =>
                    let* clean := (if str_eqb d (lit "0") then Ok false
                                   else if str_eqb d (lit "1") then Ok true else Raise ValueError) in
                    match clear_comments rest2 with
                    | [] => Ok (OModDN dn newrdn clean None ctls)
                    | l3 :: _ =>
                        match take_field (lit "newsuperior:") l3 with
                        | None => Ok (OModDN dn newrdn clean None ctls)
                        | Some p => let* parent := maybe_base64 p in Ok (OModDN dn newrdn clean (Some parent) ctls)
                        end
                    end
                end
            end
        end
    end.

  (** one record: base.py:1302-1479 *)
  Definition read_record (lines0 : list str) : res op :=
    match clear_comments lines0 with
    | [] => Raise ValueError
    | l :: rest =>
        match take_field (lit "dn:") l with
        | None => Raise ValueError
        | Some d =>
            let* dn := maybe_base64 d in
            let* cl := read_controls (clear_comments rest) [] in
            let (ctls, lines) := cl in
            match lines with
            | [] => Raise ValueError
            | l2 :: rest2 =>
                match take_field (lit "changetype:") l2 with
                | None => Raise ValueError
                | Some t =>
                    let body := clear_comments rest2 in
                    if str_eqb t (lit "add") then let* attrs := read_add body [] in Ok (OAdd dn attrs ctls)
                    else if str_eqb t (lit "delete") then Ok (ODelete dn ctls)
                    else if str_eqb t (lit "modify") then let* m := read_modify body None [] [] in Ok (OModify dn m ctls)
                    else if str_eqb t (lit "modrdn") || str_eqb t (lit "moddn") then read_moddn dn body ctls
                    else Raise ValueError
                end
            end
        end
    end.

  (** The operations are carried out one after the other; [exec] says what the server and
      the connection make of one, given the earlier ones.  Result and operations attempted. *)
  Context (exec : list op -> op -> res unit).
  Fixpoint run_records (blocks : list str) (done : list op) : res unit * list op :=
    match blocks with
    | [] => (Ok tt, done)
    | [] :: rest => run_records rest done
    | b :: rest =>
        match read_record (splitlines false [] b) with
        | Raise e => (Raise e, done)
        | Ok o =>
            match exec done o with
            | Raise e => (Raise e, done ++ [o])
            | Ok _ => run_records rest (done ++ [o])
            end
        end
    end.

  (** LDAP.process_ldif: base.py:1242-1477.  Fetching a URL ends in an exception in Python 3:
      urlopen raises, or [': ' + u.read()] does (TypeError). *)
  Context (fetch_error : str -> exn).
  Definition process_ldif (s0 : str) : res unit * list op :=
    let s := unfold s0 in
    if has_url s then (Raise (fetch_error s), [])
    else
      match clear_comments (splitlines true [] s) with
      | [] => (Raise IndexError, [])
      | l :: rest =>
          match take_field (lit "version:") l with
          | Some v =>
              if str_eqb v (lit "1")
              then run_records (split_blocks (S (List.length (List.concat rest))) [] (List.concat rest)) []
              else (Raise LDAPSupportError, [])
          | None => run_records (split_blocks (S (List.length (List.concat (l :: rest)))) [] (List.concat (l :: rest))) []
          end
      end.
End In.

(** ModTransactionObject.format_mod_ldif: ldapobject.py:633-645.  Values are lists here
    (DELETE_ALL is not iterable and raises TypeError: None). *)
Definition mod_word (o : modop) : str :=
  match o with MAdd => lit "add" | MReplace => lit "replace" | MDelete => lit "delete" end.
Fixpoint format_mods (mods : list (modop * str * option (list str))) : res str :=
  match mods with
  | [] => Ok []
  | (o, a, Some vs) :: r =>
      let* t := format_mods r in
      Ok (mod_word o ++ lit ": " ++ a ++ [10%N] ++
          List.concat (map (fun v => a ++ lit ": " ++ v ++ [10%N]) vs) ++ lit "-" ++ [10%N] ++ t)
  | (_, _, None) :: _ => Raise TypeError
  end.
Definition format_mod_ldif (dn : str) (mods : list (modop * str * option (list str))) : res str :=
  let* t := format_mods mods in
  Ok (lit "dn: " ++ dn ++ [10%N] ++ lit "changetype: modify" ++ [10%N] ++ t).
