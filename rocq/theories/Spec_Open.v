(** * What can be relied on when a connection is opened *)
From Verif Require Import PyBase Model_Uri Model_Tls Model_Open.

(** ldapi:/// : the places looked at, in order *)
Definition well_known : list str := [lit "/var/run/ldapi"; lit "/var/run/slapd/ldapi"; lit "/var/run/slapd-*.socket"].
(** when its turn comes, the pattern matches one file and something accepts connections there *)
Definition usable (a : around) (i : nat) (f : str) : Prop :=
  exists p, nth_error well_known i = Some p /\ a_glob a i p = [f] /\ a_connect a i (AUnix f) = Accepted.
(** it matches no file, or several, or nothing accepts connections at the one it matches *)
Definition of_no_use (a : around) (i : nat) : Prop :=
  forall p f, nth_error well_known i = Some p -> a_glob a i p = [f] -> a_connect a i (AUnix f) = Refused.
(** it is the first that can be used *)
Definition first_usable (a : around) (i : nat) (f : str) : Prop := usable a i f /\ forall j, j < i -> of_no_use a j.
(** every attempt is at the single match of a pattern *)
Definition single_match (a : around) (x : addr) : Prop :=
  exists i p f, nth_error well_known i = Some p /\ a_glob a i p = [f] /\ x = AUnix f.
