(** * What a SASL bind must do *)
From Verif Require Import PyBase Model_Sasl.

Definition same_members (a b : list str) : Prop := forall m, In m a <-> In m b.
(** no bind request among these events *)
Definition no_bind (new : list event) : Prop := forall m c, ~ In (BindRequest m c) new.

(** A dialogue: every request carries the mechanism [m] and, from the second one on, the SASL
    client's answer to the challenges received so far, as long as the server answers with a
    challenge.  [dialogue E m before seen creds reqs seen']: after the events [before] and the
    challenges [seen], the requests [reqs] are sent, the first one with [creds], all but the last
    one being answered with a challenge; [seen'] are the challenges received before the last one. *)
Inductive dialogue (E : env) (m : str) : list event -> list str -> option str -> list event -> list str -> Prop :=
| last_request before seen creds : dialogue E m before seen creds [BindRequest m creds] seen
| challenged before seen creds ch next reqs seen' :
    e_reply E (before ++ [BindRequest m creds]) = Ok (InProgress ch) ->
    e_process E m (seen ++ [ch]) = Ok next ->
    dialogue E m (before ++ [BindRequest m creds]) (seen ++ [ch]) next reqs seen' ->
    dialogue E m before seen creds (BindRequest m creds :: reqs) seen'.
(** the SASL library chooses from the list it is given *)
Definition honest_choice (E : env) : Prop := forall l m, e_choose E l = Ok (Some m) -> In m l.

(** What the check made after a successful bind does, the server having listed [first] before:
    it reads the list again, after the events [before]; [r] is its outcome, [new] what it sends or
    says, [kept] the list it remembers. *)
Inductive checked (E : env) (is_fatal : bool) (before : list event) (first : list str) :
  res unit -> list event -> option (list str) -> Prop :=
| unreadable x : e_mechs E (before ++ [ReadMechs]) = Raise x -> checked E is_fatal before first (Raise x) [ReadMechs] None
| unchanged l : e_mechs E (before ++ [ReadMechs]) = Ok l -> same_members first l ->
    checked E is_fatal before first (Ok tt) [ReadMechs] (Some l)
| refused l : e_mechs E (before ++ [ReadMechs]) = Ok l -> ~ same_members first l -> is_fatal = true ->
    checked E is_fatal before first (Raise LDAPError) [ReadMechs] (Some l)
| warned l : e_mechs E (before ++ [ReadMechs]) = Ok l -> ~ same_members first l -> is_fatal = false ->
    checked E is_fatal before first (Ok tt) [ReadMechs; Warning] (Some l).

(** The exchange of bind requests after the events [before], the server having listed [first]:
    [r] is its outcome, [new] what is sent or said, [b] whether the connection is bound afterwards,
    [kept] the list of mechanisms it remembers. *)
Inductive exchanged (E : env) (is_fatal : bool) (m : str) (before : list event) (first : list str) :
  res unit -> list event -> bool -> option (list str) -> Prop :=
| no_answer reqs seen x :
    dialogue E m before [] None reqs seen -> e_reply E (before ++ reqs) = Raise x ->
    exchanged E is_fatal m before first (Raise x) reqs false (Some first)
| rejected reqs seen :
    dialogue E m before [] None reqs seen -> e_reply E (before ++ reqs) = Ok Failure ->
    exchanged E is_fatal m before first (Raise LDAPError) reqs false (Some first)
| unanswerable reqs seen ch x :
    dialogue E m before [] None reqs seen -> e_reply E (before ++ reqs) = Ok (InProgress ch) ->
    e_process E m (seen ++ [ch]) = Raise x ->
    exchanged E is_fatal m before first (Raise x) reqs false (Some first)
| accepted reqs seen new r kept :
    dialogue E m before [] None reqs seen -> e_reply E (before ++ reqs) = Ok Success ->
    checked E is_fatal (before ++ reqs) first r new kept ->
    exchanged E is_fatal m before first
      (match r with Raise x => Raise x | Ok _ => e_ctrl_response E end) (reqs ++ new) true kept.

(** Where the first list of mechanisms comes from: the connection remembers it or reads it. *)
Definition listed (E : env) (c : conn) (pre : list event) (first : list str) : Prop :=
  (mechs c = Some first /\ pre = []) \/
  (mechs c = None /\ pre = [ReadMechs] /\ e_mechs E (log c ++ pre) = Ok first).
(** the mechanism asked for: the argument, or else the connection's default *)
Definition wanted (c : conn) (mech : option str) : option str := match mech with Some m => Some m | None => default_mech c end.
