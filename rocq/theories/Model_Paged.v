(** * Model of paged results: /repo/laurelin/extensions/pagedresults.py
    Parameters: the BER encoder and decoder of pyasn1 for RealSearchControlValue, and the conversions
    of an OCTET STRING from and to text (pyasn1 is not part of the sources); entries are any values.
    Simplifications: a reply is the entries and the final message, without references; no referral is
    followed; the search itself is Model_Request's. *)
From Verif Require Import PyBase Model_Controls Model_Search Model_Request.

Definition pyasn1_error : exn := OtherExn 32.
Definition paged_oid : str := lit "1.2.840.113556.1.4.319".          (* pagedresults.py:40 *)

(** the values given with the keyword: an integer, a tuple of size and cookie, a tuple of another
    length, anything else; written as a string as all keyword values of the model are *)
Inductive pval := PInt (z : Z) | PTuple (z : Z) (cookie : str) | PTupleOther | POther.
Definition zcode (z : Z) : N := if (z <? 0)%Z then (2 * Z.to_N (- z) + 1)%N else (2 * Z.to_N z)%N.
Definition zdecode (n : N) : Z := if N.odd n then (- Z.of_N (n / 2))%Z else Z.of_N (n / 2).
Definition repr (v : pval) : str :=
  match v with
  | PInt z => [0%N; zcode z] | PTuple z c => 1%N :: zcode z :: c | PTupleOther => [2%N] | POther => [3%N]
  end.
Definition pyval (s : str) : pval :=
  match s with
  | t :: z :: c => if N.eqb t 0 then PInt (zdecode z) else if N.eqb t 1 then PTuple (zdecode z) c else POther
  | [t] => if N.eqb t 2 then PTupleOther else POther
  | [] => POther
  end.

Section Paged.
  Context (enc : Z -> list N -> list N)                      (* ber_encode of size and cookie *)
          (dec : list N -> res (Z * list N * list N))        (* ber_decode: size, cookie, what is left over *)
          (to_text : list N -> res str)                      (* six.text_type(an OCTET STRING) *)
          (of_text : str -> res (list N)).                   (* Cookie(a string) *)

  (** PagedResultsControl.prepare: pagedresults.py:79-97 *)
  Definition paged_prepare (v : str) : res str :=
    let* (page_size, cookie) := (match pyval v with
      | PInt z => Ok (z, [])
      | PTuple z c => Ok (z, c)
      | PTupleOther => Raise ValueError                      (* not enough or too many values to unpack *)
      | POther => Raise TypeError
      end) in
    let* n := int0max page_size in
    let* c := of_text cookie in
    Ok (enc n c).
  (** get_string_component: protoutils.py:63-70 *)
  Definition string_component (c : list N) : res str :=
    match to_text c with
    | Raise e => if exn_eqb e pyasn1_error then Ok [] else Raise e
    | r => r
    end.
  (** PagedResultsControl.handle: pagedresults.py:99-104 *)
  Definition paged_handle (raw : str) : res str :=
    let* (_, cookie, over) := dec raw in
    match over with
    | _ :: _ => Raise LDAPError
    | [] => string_component cookie
    end.
  (** PagedResultsControl: pagedresults.py:72-77 *)
  Definition paged_ctrl : ctrl :=
    mk_ctrl true (fun m => str_eqb m (lit "search")) (lit "paged") (lit "page_cookie") paged_oid paged_oid paged_prepare paged_handle.

  Context {E : Type}.                                        (* entries *)
  (** what the server answers: entries, and the result code and controls of the final message *)
  Record answer := mk_answer { an_entries : list E; an_code : N; an_ctrls : list (str * str) }.

  (** list(handle), then handle.page_cookie if it is there: base.py:1567-1607, controls.py:60-81.
      [builtin]: the attributes a SearchResultHandle has anyway. *)
  Definition read_answer (reg : registry) (builtin : str -> bool) (r : answer) : res (list E * option str) :=
    if N.eqb (an_code r) rc_success || N.eqb (an_code r) rc_noSuchObject then
      match handle_response reg builtin [] (an_ctrls r) with
      | (Raise e, _) => Raise e
      | (Ok _, attrs) => Ok (an_entries r, dget attrs (lit "page_cookie"))
      end
    else if N.eqb (an_code r) rc_referral then Ok (an_entries r, None)
    else Raise LDAPError.

  (** search(..., paged=v) with the other arguments [a] *)
  Definition with_paged (a : search_args) (v : kwval) : search_args :=
    mk_args (a_base a) (a_scope a) (a_filter a) (a_attrs a) (a_timeout a) (a_limit a) (a_deref a) (a_attrs_only a) (a_refs a)
      (a_follow a) (a_syntax a) (a_kwds a ++ [(lit "paged", v)]).

  Definition history := list (wire_search * answer).
  Context (server : history -> wire_search -> answer).

  (** one page: the search is sent, all results are read, and page_cookie is looked at *)
  Definition page (e : env) (builtin : str -> bool) (a : search_args) (hist : history) (v : kwval) : history * res (list E * str) :=
    match ldap_search e (with_paged a v) with
    | (Raise x, _) => (hist, Raise x)
    | (Ok _, sent) =>
        match sent with
        | [w] =>
            let r := server hist w in
            (hist ++ [(w, r)],
             let* (es, c) := read_answer (e_reg e) builtin r in
             match c with Some c => Ok (es, c) | None => Raise AttributeError end)
        | _ => (hist, Raise RuntimeError)
        end
    end.

  (** getting pages in a loop, with a cookie that is the empty string at first, until the page_cookie is
      empty: pagedresults.py:13-31.  One page size for each round; [wrap]: critical, optional or neither *)
  Inductive outcome := GotAll | More (cookie : str) | Error (x : exn).
  Fixpoint pages (e : env) (builtin : str -> bool) (a : search_args) (wrap : str -> kwval) (sizes : list Z) (hist : history) (cookie : str)
      : list (list E) * outcome :=
    match sizes with
    | [] => ([], More cookie)
    | n :: sizes' =>
        match page e builtin a hist (wrap (repr (PTuple n cookie))) with
        | (_, Raise x) => ([], Error x)
        | (hist', Ok (es, c)) =>
            match c with
            | [] => ([es], GotAll)
            | _ :: _ => let '(ps, o) := pages e builtin a wrap sizes' hist' c in (es :: ps, o)
            end
        end
    end.
End Paged.
