(** * Specification of controls, independent of the code's loops *)
From Verif Require Import PyBase Model_Controls.

Definition is_control (reg : registry) (kwd : str) : Prop := exists c, dget (r_kw reg) kwd = Some c.

(** A keyword argument that names a control is admissible: the control is meant for the
    method, the server lists it if it is critical, and its value can be encoded. *)
Definition admissible (reg : registry) (method : str) (supported : list str) (dflt : bool)
    (kv : str * kwval) : Prop :=
  forall c, dget (r_kw reg) (fst kv) = Some c ->
    c_allows c method = true /\
    (criticality dflt (snd kv) = true -> In (c_request_oid c) supported) /\
    exists p, c_prepare c (value_of (snd kv)) = Ok p.

(** What has to be sent for it: the OID, the criticality asked for, the encoded value (left
    out when empty). *)
Definition wire_for (reg : registry) (dflt : bool) (kv : str * kwval) (w : wire_ctrl) : Prop :=
  exists c p, dget (r_kw reg) (fst kv) = Some c /\ c_prepare c (value_of (snd kv)) = Ok p /\
    wc_oid w = c_request_oid c /\
    wc_crit w = match snd kv with Critical _ => true | Optional _ => false | Plain _ => dflt end /\
    wc_value w = match p with [] => None | _ => Some p end.

(** The arguments that name controls / those that do not, in the order given. *)
Definition controls_of (reg : registry) (kwds : list (str * kwval)) : list (str * kwval) :=
  filter (fun kv => dmem (r_kw reg) (fst kv)) kwds.
Definition others_of (reg : registry) (kwds : list (str * kwval)) : list (str * kwval) :=
  filter (fun kv => negb (dmem (r_kw reg) (fst kv))) kwds.

(** A registry is unambiguous and coherent. *)
Definition coherent (reserved : list str) (reg : registry) : Prop :=
  NoDup (map fst (r_kw reg)) /\ NoDup (map fst (r_oid reg)) /\ NoDup (map fst (r_resp reg)) /\
  (forall k c, dget (r_kw reg) k = Some c ->
     c_keyword c = k /\ k <> [] /\ ~ In k reserved /\ c_has_method c = true /\
     dget (r_oid reg) (c_request_oid c) = Some c) /\
  (forall o c, dget (r_oid reg) o = Some c -> c_request_oid c = o /\ o <> [] /\ dget (r_kw reg) (c_keyword c) = Some c) /\
  (forall o c, dget (r_resp reg) o = Some c -> c_response_oid c = o /\ o <> [] /\ c_response_attr c <> []).

(** The attribute (name, value) a response control (OID, raw value) stands for. *)
Definition attr_for (reg : registry) (cv : str * str) (av : str * str) : Prop :=
  exists c, dget (r_resp reg) (fst cv) = Some c /\ c_response_attr c = fst av /\ c_handle c (snd cv) = Ok (snd av).
