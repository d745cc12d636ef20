(** * From octets to results (C91) *)
From Verif Require Import PyBase Model_Uri Model_Ldif Model_Controls Model_CIDict Model_Modify Model_Search Spec_Search Model_Wire Spec_X690 Spec_Wire Model_Reply Spec_Reply.
Local Open Scope string_scope.

(** a decoder of the octets of these messages: it reads a message off the front of anything that starts with one, and
    asks for more when there is only a part of one *)
Definition frames (enc : obj -> list N) (objs : list obj) (dec : str -> option (obj * str)) : Prop :=
  forall o, In o objs ->
    (forall r, dec (enc o ++ r)%list = Some (o, r)) /\
    (forall a c, enc o = (a ++ c)%list -> c <> [] -> dec a = None).
(** [objs] are the objects of the messages [ms], and [enc] writes them as RFC 4511 says *)
Definition server_sends (enc : obj -> list N) (ms : list rmessage) (objs : list obj) : Prop :=
  Forall2 (fun m o => e_message m (enc o) /\ received (enc o) o /\ rm_id m <> 0%Z) ms objs.

Section S.
  Context (decode : list N -> option str) (absent : str) (reg : registry) (builtin : str -> bool)
          (lower : str -> str) (urlparse : str -> str * str * str * str).
  (** a value as text if it is, and otherwise its octets *)
  Definition given_value (b : list N) : str := match decode b with Some s => s | None => b end.
  Definition controls_fine (m : rmessage) : Prop :=
    oids_ascii m /\ fst (handle_response reg builtin [] (controls_in absent m)) = Ok tt.
  (** an entry or a reference that can be read *)
  Definition readable (m : rmessage) : Prop :=
    controls_fine m /\
    match rm_op m with
    | RSearchResultEntry dn attrs =>
        decode dn <> None /\ exists names, map (fun a => decode (fst a)) attrs = map Some names /\ NoDup (map lower names)
    | RSearchResultReference uris => exists us, parse_uris lower urlparse (map given_value uris) = Ok us
    | _ => False
    end.
  (** what is to be yielded for it: an object with the DN of the entry that has, under any spelling of the name of one
      of its attributes, just the values of that; or the URIs *)
  Definition stands_for (m : rmessage) (i : item) : Prop :=
    match rm_op m, i with
    | RSearchResultEntry dn attrs, IObj o =>
        decode dn = Some (o_dn o) /\
        forall k vs, cid_get lower (o_attrs o) k = Ok vs <->
          exists a name, In a attrs /\ decode (fst a) = Some name /\ lower name = lower k /\ vs = map given_value (snd a)
    | RSearchResultReference uris, IRef us => parse_uris lower urlparse (map given_value uris) = Ok us
    | _, _ => False
    end.
  Definition end_for (code : Z) : ending :=
    if (code =? 0)%Z || (code =? 10)%Z || (code =? 32)%Z then Finished else Failed LDAPError.
End S.
