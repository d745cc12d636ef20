(** * More of C67: values that are octets *)
From Verif Require Import PyBase Model_Prep Model_Syntax Model_Guide.
(** Octets are a TypeError for both syntaxes, whatever they are. *)
Theorem C67_octets depth b : guide depth (Model_Syntax.Bytes b) = Raise TypeError /\ enhanced_guide depth (Model_Syntax.Bytes b) = Raise TypeError.
Proof. split; reflexivity. Qed.
Print Assumptions C67_octets.
