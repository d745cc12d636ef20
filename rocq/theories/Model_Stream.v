(** * Model of how replies get from the socket to the methods that read them: the parts of net.py (303-374) and
    base.py (_success_result 365-383, SearchResultHandle.__iter__ 1572-1621) that Model_Net (readers of the socket),
    Model_Reply (protocol objects) and Model_Search (iteration) have separately, put together.
    Simplifications: as in those models; a value of an entry is kept as its text if it is UTF-8 and otherwise as its
    octets, without the Python type; a message that cannot be read (an attribute name that is not text) is taken
    for one of a kind that is not expected: both end the iteration, the exception is another one. *)
From Verif Require Import PyBase Model_Uri Model_Prep Model_Ldif Model_Controls Model_CIDict Model_Modify Model_Net Model_Search Model_Wire Model_Reply.
Local Open Scope string_scope.

(** response.getComponentByName('messageID'): net.py:342 *)
Definition message_id (lm : obj) : N :=
  match component lm "messageID" with
  | Some x => match o_val x with VInt z => Z.to_N z | _ => 0 end
  | None => 0
  end%N.

Section Stream.
  Context (decode : list N -> option str) (absent : str) (reg : registry) (builtin : str -> bool).

  Definition plain (v : val) : str := match v with Text s => s | Bytes b => b end.
  (** result codes are non-negative; 80 is other: rfc4511.py:307-350 *)
  Definition code_number (z : Z) : N := if Z.ltb z 0 then 80%N else Z.to_N z.
  (** what the loop of SearchResultHandle.__iter__ finds in a message: base.py:1573-1613 *)
  Definition as_reply (lm : obj) : reply (res (list (str * str))) :=
    match search_message decode absent lm with
    | Ok (FEntry dn attrs, cs) => REntry dn (map (fun kv => (fst kv, map plain (snd kv))) attrs) cs
    | Ok (FDone code uris, cs) => RDone (code_number code) (map plain uris) cs
    | Ok (FRef uris, cs) => RRef (map plain uris) cs
    | Raise _ => ROther
    end.
  (** controls.handle_response on them: base.py:1590, 1601, 1612 *)
  Definition handle_controls (cs : res (list (str * str))) : res unit :=
    let* pairs := cs in fst (handle_response reg builtin [] pairs).

  Context (lower : str -> str) (urlparse : str -> str * str * str * str) (contact : ldapuri -> res unit).
  (** one message after the other from recv_messages, until the iteration ends; [n] of them are read *)
  Definition search_from (dec : str -> option (obj * str)) (n : nat) (k : N) (chunks : list str) (h : shandle) (tags : tagtab)
      : option (list item * ending * list (reply (res (list (str * str)))) * shandle * tagtab) :=
    let fix take (n : nat) (g : gen) (s : sock) : option (list obj) :=
      match n with
      | 0 => Some []
      | S n' => match gen_next message_id dec g s with
                | Yield m g' s' => match take n' g' s' with Some l => Some (m :: l) | None => None end
                | _ => None
                end
      end in
    option_map (fun msgs => iterate handle_controls lower urlparse contact h tags (map as_reply msgs))
      (take n (recv_messages k) (mk_sock (fun _ => None) 0 chunks [])).
  (** the end of bind, modify, delete, mod_dn: recv_one and _success_result: net.py:303-310; base.py:365-383 *)
  Definition operation_from (dec : str -> option (obj * str)) (k : N) (chunks : list str) (operation : string)
      : option (res (list (str * str))) :=
    match recv_one message_id dec k (mk_sock (fun _ => None) 0 chunks []) with
    | Yield m _ _ => Some (success_result decode absent reg builtin operation m)
    | _ => None
    end.
End Stream.
