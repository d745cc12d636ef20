(** * Model of the SASL bind and of the downgrade check
    /repo/laurelin/ldap/base.py:353-358, 420-521; net.py:243-274.
    Simplifications: the server is a function of what was sent so far; the SASL library
    (puresasl) is given by the mechanism it chooses from a list and by its answer to the
    challenges so far; values of supportedSASLMechanisms are text; wrapping of later traffic is
    left out; processing of control keywords and of response controls appears by outcome. *)
From Verif Require Import PyBase.

(** what the connection does that can be seen from outside *)
Inductive event :=
| ReadMechs                                             (* search of the root DSE for supportedSASLMechanisms *)
| BindRequest (mech : str) (credentials : option str)
| Warning.                                              (* warn(msg, LDAPWarning) *)
(** resultCode of a bind response: saslBindInProgress with serverSaslCreds, success, anything else *)
Inductive bind_reply := InProgress (challenge : str) | Success | Failure.

Record env := mk_env {
  e_mechs : list event -> res (list str);               (* get('', [...]).get_attr(...), after these events *)
  e_reply : list event -> res bind_reply;               (* the response received, after these events *)
  e_choose : list str -> res (option str);              (* SASLClient(...).choose_mechanism(mechs); its mechanism *)
  e_process : str -> list str -> res (option str);      (* SASLClient.process, by mechanism and challenges so far *)
  e_ctrl_kwds : res unit;                               (* _process_ctrl_kwds('bind', props) *)
  e_ctrl_response : res unit }.                         (* controls.handle_response *)

(** socket flags, _sasl_mechs, default_sasl_mech, sasl_fatal_downgrade_check, the SASL client if
    there is one (and the mechanism it chose), events so far *)
Record conn := mk_conn {
  unbound : bool; bound : bool; mechs : option (list str); default_mech : option str; fatal : bool;
  client : option (option str); log : list event }.
Definition emit (c : conn) (e : event) : conn :=
  mk_conn (unbound c) (bound c) (mechs c) (default_mech c) (fatal c) (client c) (log c ++ [e]).
Definition set_mechs (c : conn) (m : option (list str)) : conn :=
  mk_conn (unbound c) (bound c) m (default_mech c) (fatal c) (client c) (log c).
Definition set_client (c : conn) (k : option (option str)) : conn :=
  mk_conn (unbound c) (bound c) (mechs c) (default_mech c) (fatal c) k (log c).
Definition set_bound (c : conn) : conn :=
  mk_conn (unbound c) true (mechs c) (default_mech c) (fatal c) (client c) (log c).

Section Sasl.
  Context (E : env).
  (** get_sasl_mechs: base.py:420-432; get raises ConnectionUnbound first (base.py:600) *)
  Definition get_sasl_mechs (c : conn) : res (list str) * conn :=
    match mechs c with
    | Some l => (Ok l, c)
    | None =>
        if unbound c then (Raise ConnectionUnbound, c)
        else
          let c1 := emit c ReadMechs in
          match e_mechs E (log c1) with
          | Raise x => (Raise x, c1)
          | Ok l => (Ok l, set_mechs c1 (Some l))
          end
    end.
  (** set(a) != set(b) *)
  Definition same_set (a b : list str) : bool := forallb (fun x => smem x b) a && forallb (fun x => smem x a) b.
  (** recheck_sasl_mechs: base.py:434-453 *)
  Definition recheck_sasl_mechs (c : conn) : res unit * conn :=
    match mechs c with
    | None => (Raise LDAPError, c)
    | Some orig =>
        let (r, c1) := get_sasl_mechs (set_mechs c None) in
        match r with
        | Raise x => (Raise x, c1)
        | Ok now =>
            if negb (same_set orig now) then
              if fatal c1 then (Raise LDAPError, c1) else (Ok tt, emit c1 Warning)
            else (Ok tt, c1)
        end
    end.
  (** sasl_mech: net.py:261-269 *)
  Definition sasl_mech (c : conn) : res str :=
    match client c with
    | None => Raise LDAPSASLError
    | Some None => Raise LDAPSASLError
    | Some (Some m) => Ok m
    end.
  (** the loop of sasl_bind: base.py:488-519; [seen]: challenges processed so far, [response]:
      challenge_response; None: still running after [fuel] requests *)
  Fixpoint exchange (fuel : nat) (c : conn) (seen : list str) (response : option str) : option (res unit * conn) :=
    match fuel with
    | O => None
    | S fuel' =>
        match sasl_mech c with
        | Raise x => Some (Raise x, c)
        | Ok m =>
            let c1 := emit c (BindRequest m response) in
            match e_reply E (log c1) with
            | Raise x => Some (Raise x, c1)
            | Ok (InProgress challenge) =>
                match e_process E m (seen ++ [challenge]) with
                | Raise x => Some (Raise x, c1)
                | Ok next => exchange fuel' c1 (seen ++ [challenge]) next
                end
            | Ok Success =>
                let c2 := set_bound c1 in
                let (r, c3) := recheck_sasl_mechs c2 in
                match r with
                | Raise x => Some (Raise x, c3)
                | Ok _ => Some (e_ctrl_response E, c3)
                end
            | Ok Failure => Some (Raise LDAPError, c1)
            end
        end
    end.
  (** sasl_bind: base.py:455-521 *)
  Definition sasl_bind (fuel : nat) (c : conn) (mech : option str) : option (res unit * conn) :=
    if unbound c then Some (Raise ConnectionUnbound, c)
    else if bound c then Some (Raise ConnectionAlreadyBound, c)
    else
      match e_ctrl_kwds E with
      | Raise x => Some (Raise x, c)
      | Ok _ =>
          let (r, c1) := get_sasl_mechs c in
          match r with
          | Raise x => Some (Raise x, c1)
          | Ok l =>
              let mech := match mech with None => default_mech c1 | Some m => Some m end in
              match match mech with
                    | None => Ok l
                    | Some m => if negb (smem m l) then Raise LDAPSupportError else Ok [m]
                    end with
              | Raise x => Some (Raise x, c1)
              | Ok l' =>
                  (* sasl_init: net.py:243-246 *)
                  match e_choose E l' with
                  | Raise x => Some (Raise x, set_client c1 (Some None))
                  | Ok m => exchange fuel (set_client c1 (Some m)) [] None
                  end
              end
          end
      end.
  (** refresh_root_dse, of which only the mechanisms matter: base.py:353-358 *)
  Definition refresh_root_dse (c : conn) : res unit * conn :=
    if unbound c then (Raise ConnectionUnbound, c)
    else
      let c1 := emit c ReadMechs in
      match e_mechs E (log c1) with
      | Raise x => (Raise x, c1)
      | Ok l => (Ok tt, set_mechs c1 (Some l))
      end.
End Sasl.
