(** * What can be relied on about TLS and extended requests *)
From Verif Require Import PyBase Spec_Uri Model_Controls Spec_Controls Model_Search Model_Tls.

Definition given_or {A} (arg : option A) (setting : A) : A := match arg with Some a => a | None => setting end.
Definition arg_or (arg setting : option str) : option str := match arg with Some _ => arg | None => setting end.
(** RFC 4511, 4.14: the StartTLS request; RFC 4532: the Who am I? request *)
Definition rfc4511_starttls : str := lit "1.3.6.1.4.1.1466.20037".
Definition rfc4532_whoami : str := lit "1.3.6.1.4.1.4203.1.11.3".
(** some CAs were named *)
Definition named_cas (file path data : option str) : Prop :=
  exists x c, (file = Some (c :: x) \/ path = Some (c :: x) \/ data = Some (c :: x)).
(** the certificate is checked against the default CAs and those named; where the ssl module is too old for that,
    against the CA file alone, which is then all that was named *)
Definition as_wanted (file path data : option str) (tr : trust) : Prop :=
  (named_cas file path data /\ tr = Ctx true (Some (file, path, data))) \/
  (~ named_cas file path data /\ tr = Ctx true None) \/
  (~ named_cas None path data /\ tr = Legacy file).
(** a certificate of the host *)
Definition of_host (host : str) (c : cert) : Prop :=
  exists cn rdn, In ((lit "commonName", cn) :: rdn) (ct_subject c) /\ named_lenient host cn (ct_sans c).

Section Chain.
  (** [chain tr c]: the certificate is signed by one of the CAs *)
  Context (chain : trust -> cert -> Prop).
  (** the ssl module does its part: with CERT_REQUIRED it accepts only such certificates *)
  Definition honest (s : ssl_env) : Prop := forall tr c, s_wrap s true tr = Ok c -> chain tr c.
  Definition certified (host : str) (l : layer) : Prop := ly_verify l = true /\ chain (ly_trust l) (ly_cert l) /\ of_host host (ly_cert l).
End Chain.

(** what was sent between two states *)
Definition sent_since (t t' : tsock) (more : list (list layer * tmsg)) : Prop := ts_sent t' = ts_sent t ++ more.

(** the value of an extended request as it is sent *)
Definition value_sent (encode : str -> res (list N)) (v : xval) (b : option (list N)) : Prop :=
  match v with XNone => b = None | XText s => exists x, encode s = Ok x /\ b = Some x | XBytes x => b = Some x | XOtherVal => False end.
Definition known_keyword (reg : registry) (k : str) : Prop := is_control reg k \/ k = lit "require_success".
