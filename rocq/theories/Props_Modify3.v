(** * More of C08: without a connection *)
From Verif Require Import PyBase Model_CIDict Model_Modify Spec_Modify Proofs_Modify Props_Modify.

(** modify, addattrs, replaceattrs and deleteattrs end in this call.  On an object that has no connection it is an error:
    nothing is sent, the object keeps its attributes and the list of modifications is as it was given. *)
Theorem C08_needs_a_connection lower idx unb f v c ans d ms :
  obj_modify lower idx false unb f v c ans d ms = (d, ms, None, Raise RuntimeError).
Proof. reflexivity. Qed.
Print Assumptions C08_needs_a_connection.
